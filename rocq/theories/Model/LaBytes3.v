(** Generated by tools/gen_la.py from resources/encount/la/ha_area03_encounter.bin. *)
From Coq Require Import NArith Strings.Byte.
From Verif Require Import Model.Trie.
Definition area_3_size : N := 294632%N.
Definition area_3_trie : trie :=
(T (W x10 x00 x00 x00 x00 x00 x00 x00)
(T (W x00 x00 x06 x00 x08 x00 x04 x00)
(T (W x5d x01 x00 x00 xbc x75 x04 x00)
(T (W x28 x50 x04 x00 xc4 x44 x04 x00)
(T (W xd8 xf5 x03 x00 x24 xef x03 x00)
(T (W x90 x5a x03 x00 x34 x58 x03 x00)
(T (W x08 x61 x02 x00 x04 x5e x02 x00)
(T (W xe0 xed x00 x00 x94 xeb x00 x00)
(T (W x04 x00 x00 x00 xe2 xaa xfd xff)
(T (W x6c x00 x00 x00 x60 x00 x00 x00)
(T (W xd2 xa1 xfb xff x74 x00 x00 x00)
(T (W x00 x00 x00 x00 x00 x00 x00 x00)
(T (W x84 x1a xfc xff x3e x00 x00 x00)
(T (W xd2 x81 xfc xff x74 x00 x00 x00)
(T (W x00 x00 x80 x3f x00 x00 x80 x3f)
(L (W x00 x00 x00 x00 x02 x00 x00 x00)) E)
(L (W x00 x00 x00 x00 x12 x00 x00 x00)))
(T (W x00 x00 x80 x3f x00 x00 x80 x3f)
(L (W x00 x00 x80 x3f x00 x00 x80 x3f))
(L (W x50 x00 x00 x00 x44 x00 x00 x00))))
(T (W xff xff xff xff xff xff xff xff)
(T (W x45 x26 x22 x84 xe4 x9c xf2 xcb)
(T (W x00 x00 x00 x00 x00 x00 x00 x00)
(L (W x70 x00 x00 x00 x64 x00 x00 x00)) E)
(L (W xff xff xff xff xff xff xff xff)))
(T (W x00 x00 x00 x00 x00 x00 x00 x00)
(L (W x00 x00 x80 xbf x00 x00 x80 xbf))
(L (W x54 x00 x00 x00 x48 x00 x00 x00)))))
(T (W x45 x26 x22 x84 xe4 x9c xf2 xcb)
(T (W x3e x00 x00 x00 x10 x00 x00 x00)
(T (W x74 x00 x0c x00 x10 x00 x00 x00)
(T (W x00 x00 x80 x3f x00 x00 x80 x3f)
(L (W xff xff xff xff xff xff xff xff)) E)
(L (W xff xff xff xff xff xff xff xff)))
(T (W xff xff xff xff xff xff xff xff)
(L (W x00 x00 x00 x00 x00 x00 x00 x00))
(L (W xff xff xff xff xb0 x00 x00 x00))))
(T (W xff xff xff xff xff xff xff xff)
(T (W x00 x00 x00 x00 x00 x00 x00 x00)
(T (W x00 x00 x00 x00 x00 x00 x00 x00)
(L (W x00 x00 x58 x00 x00 x00 x00 x00)) E)
(L (W x00 x00 x80 xbf x00 x00 x80 xbf)))
(T (W xff xff xff xff x02 x00 x00 x00)
(L (W x00 x00 x80 xbf x00 x00 x80 xbf))
(L (W xff xff xff xff xff xff xff xff))))))
(T (W x00 x00 x80 x3f x00 x00 x80 x3f)
(T (W x45 x26 x22 x84 xe4 x9c xf2 xcb)
(T (W x00 x00 x00 x00 x00 x00 x00 x00)
(T (W x68 x00 x00 x00 x5c x00 x00 x00)
(T (W x18 x00 x00 x00 x10 x00 x00 x00)
(L (W xff xff xff xff xff xff xff xff)) E)
(L (W x46 x53 x59 x53 x5f x4e x53 x5f)))
(T (W x9c x16 xfd xff x00 x01 x01 x01)
(L (W x00 x00 x80 x3f x00 x00 x80 x3f))
(L (W xff xff xff xff xff xff xff xff))))
(T (W xff xff xff xff xff xff xff xff)
(T (W x18 x00 x00 x00 x10 x00 x00 x00)
(T (W x00 x00 x80 x3f x00 x00 x80 x3f)
(L (W x00 x00 x80 xbf x00 x00 x80 xbf)) E)
(L (W x54 x9b x59 x1d xca x2f xa0 xfd)))
(T (W x00 x00 x00 x00 x0c x55 xfd xff)
(L (W x4f x84 x6f x8b xe8 xcb x63 xb7))
(L (W x82 x53 xff xff x78 x00 x00 x00)))))
(T (W x00 x00 x00 x00 x00 x00 x00 x00)
(T (W x1d x73 xeb xbc x71 xdc x0f xfa)
(T (W x68 x00 x00 x00 x5c x00 x00 x00)
(T (W x00 x00 x00 x00 x00 x00 x00 x00)
(L (W x00 x00 x80 xbf x00 x00 x80 xbf)) E)
(L (W xff xff xff xff xff xff xff xff)))
(T (W x00 x00 x00 x00 x00 x00 x00 x00)
(L (W x00 x00 x80 xbf x00 x00 x80 xbf))
(L (W xbc x00 x00 x00 x02 x00 x00 x00))))
(T (W xff xff xff xff xff xff xff xff)
(T (W x00 x00 x00 x00 x00 x00 x00 x00)
(T (W x02 x00 x00 x00 xff xff xff xff)
(L (W x00 x00 x80 xbf x00 x00 x80 xbf)) E)
(L (W x00 x00 x80 xbf x00 x00 x80 xbf)))
(T (W x4f x84 x6f x8b xe8 xcb x63 xb7)
(L (W x00 x00 x80 xbf x00 x00 x80 xbf))
(L (W xff xff xff xff xff xff xff xff)))))))
(T (W x00 x00 x00 x00 x00 x00 x00 x00)
(T (W x70 x5f x77 x69 x6c x64 x5f x70)
(T (W x00 x00 x00 x00 x00 x00 x00 x00)
(T (W x00 x00 x00 x00 x00 x00 x00 x00)
(T (W x00 x00 x80 x3f x00 x00 x80 x3f)
(T (W xff xff xff xff xff xff xff xff)
(L (W x00 x00 x00 x00 x00 x00 x00 x00)) E)
(L (W x20 x00 x00 x00 x10 x00 x00 x00)))
(T (W x50 x00 x00 x00 x44 x00 x00 x00)
(L (W x6c x76 x32 x00 x22 x00 x00 x00))
(L (W x45 x26 x22 x84 xe4 x9c xf2 xcb))))
(T (W xff xff xff xff xff xff xff xff)
(T (W x54 x00 x00 x00 x48 x00 x00 x00)
(T (W x45 x26 x22 x84 xe4 x9c xf2 xcb)
(L (W x6c x00 x00 x00 x60 x00 x00 x00)) E)
(L (W xff xff xff xff xff xff xff xff)))
(T (W x00 x00 x80 x3f x00 x00 x80 x3f)
(L (W x00 x00 x00 x00 x00 x00 x00 x00))
(L (W x68 x00 x00 x00 x5c x00 x00 x00)))))
(T (W x45 x26 x22 x84 xe4 x9c xf2 xcb)
(T (W x00 x00 x00 x00 x00 x00 x00 x00)
(T (W x18 x00 x00 x00 x0c x00 x00 x00)
(T (W x00 x00 x80 x3f x00 x00 x80 x3f)
(L (W x00 x00 x80 xbf x00 x00 x80 xbf)) E)
(L (W xff xff xff xff xff xff xff xff)))
(T (W xff xff xff xff xff xff xff xff)
(L (W xff xff xff xff x94 x00 x00 x00))
(L (W xff xff xff xff xc4 x00 x00 x00))))
(T (W xff xff xff xff x03 x00 x00 x00)
(T (W x00 x00 x00 x00 x00 x00 x00 x00)
(T (W x00 x00 x80 x3f x00 x00 x80 x3f)
(L (W xff xff xff xff x9c x00 x00 x00)) E)
(L (W x00 x00 x80 xbf x00 x00 x80 xbf)))
(T (W x00 x00 x00 x00 x00 x00 x00 x00)
(L (W x00 x00 x80 xbf x00 x00 x80 xbf))
(L (W x00 x00 x00 x00 x0c x6d xff xff))))))
(T (W x45 x26 x22 x84 xe4 x9c xf2 xcb)
(T (W x00 x00 x80 x3f x00 x00 x80 x3f)
(T (W x00 x00 x00 x00 x00 x00 x00 x00)
(T (W xd2 x99 xfc xff x74 x00 x00 x00)
(T (W x01 x00 x00 x00 x9c x00 x00 x00)
(L (W x00 x00 x00 x00 x00 x00 x00 x00)) E)
(L (W x00 x00 x00 x00 x00 x00 x00 x00)))
(T (W xd2 x19 xfd xff x74 x00 x00 x00)
(L (W x00 x00 x80 xbf x00 x00 x80 xbf))
(L (W xff xff xff xff xff xff xff xff))))
(T (W xff xff xff xff xff xff xff xff)
(T (W xff xff xff xff xff xff xff xff)
(T (W x00 x00 x80 x3f x00 x00 x80 x3f)
(L (W x3c x00 x00 x00 x00 x00 x80 xbf)) E)
(L (W x46 x53 x59 x53 x5f x4e x53 x5f)))
(T (W xc8 x00 x00 x00 x01 x00 x00 x00)
(L (W x00 x00 x80 xbf x00 x00 x80 xbf))
(L (W xff xff xff xff x9c x00 x00 x00)))))
(T (W x00 x00 x00 x00 x00 x00 x00 x00)
(T (W xaf x00 x00 x00 xff xff xff xff)
(T (W x00 x00 x80 x3f x00 x00 x80 x3f)
(T (W x6b x65 x5f x63 x6f x77 x61 x72)
(L (W x00 x00 x80 xbf x00 x00 x80 xbf)) E)
(L (W xff xff xff xff xff xff xff xff)))
(T (W x00 x00 x00 x00 x00 x00 x00 x00)
(L (W x00 x00 x80 xbf x00 x00 x80 xbf))
(L (W x08 x3d xff xff x32 x40 xff xff))))
(T (W x18 x00 x00 x00 x0c x00 x00 x00)
(T (W x00 x00 x00 x00 x00 x00 x00 x00)
(T (W xff xff xff xff xff xff xff xff)
(L (W x68 x00 x00 x00 x5c x00 x00 x00)) E)
(L (W x00 x00 x80 xbf x00 x00 x80 xbf)))
(T (W x00 x00 x80 x3f x00 x00 x80 x3f)
(L (W x00 x00 x00 x00 x00 x00 x00 x00))
(L (W x45 x44 x00 x00 x00 x00 x00 x00))))))))
(T (W x00 x00 x80 x3f x00 x00 x80 x3f)
(T (W x00 x00 x80 x3f x00 x00 x80 x3f)
(T (W x00 x00 x80 x3f x00 x00 x80 x3f)
(T (W xff xff xff xff xff xff xff xff)
(T (W x45 x26 x22 x84 xe4 x9c xf2 xcb)
(T (W x00 x00 x00 x00 x00 x00 x00 x00)
(T (W x00 x00 x80 x3f x00 x00 x80 x3f)
(L (W x68 x00 x00 x00 x5c x00 x00 x00)) E)
(L (W x82 x87 xfe xff x78 x00 x00 x00)))
(T (W xff xff xff xff xff xff xff xff)
(L (W x00 x00 x80 x3f x00 x00 x80 x3f))
(L (W xff xff xff xff xff xff xff xff))))
(T (W x00 x00 x80 x3f x00 x00 x80 x3f)
(T (W xff xff xff xff xff xff xff xff)
(T (W xff xff xff xff x03 x00 x00 x00)
(L (W xc3 x01 x00 x00 xff xff xff xff)) E)
(L (W x50 x00 x00 x00 x44 x00 x00 x00)))
(T (W xff xff xff xff xff xff xff xff)
(L (W xff xff xff xff xff xff xff xff))
(L (W xff xff xff xff xff xff xff xff)))))
(T (W x64 x00 x00 x00 x9c x00 x00 x00)
(T (W x00 x00 x80 x3f x00 x00 x80 x3f)
(T (W x00 x00 x00 x00 x00 x00 x00 x00)
(T (W xff xff xff xff xff xff xff xff)
(L (W x50 x00 x00 x00 x44 x00 x00 x00)) E)
(L (W x00 x00 x00 x00 x00 x00 x00 x00)))
(T (W x45 x26 x22 x84 xe4 x9c xf2 xcb)
(L (W x00 x00 x01 x01 x43 x00 x00 x00))
(L (W x00 x00 x00 x00 x00 x00 x00 x00))))
(T (W x00 x00 x00 x00 x00 x00 x00 x00)
(T (W x82 xe7 xfc xff x78 x00 x00 x00)
(T (W xac x01 x00 x00 xa0 x00 x00 x00)
(L (W x00 x00 x80 xbf x00 x00 x80 xbf)) E)
(L (W xff xff xff xff xc4 x00 x00 x00)))
(T (W x00 x00 x80 x3f x00 x00 x80 x3f)
(L (W x03 x00 x00 x00 xd0 x00 x00 x00))
(L (W x00 x00 x00 x00 x00 x00 x00 x00))))))
(T (W xff xff xff xff xff xff xff xff)
(T (W xff xff xff xff xff xff xff xff)
(T (W x68 x00 x00 x00 x5c x00 x00 x00)
(T (W x3e x00 x00 x00 x10 x00 x00 x00)
(T (W x00 x00 x00 x00 x00 x00 x00 x00)
(L (W xd2 x95 xff xff x74 x00 x00 x00)) E)
(L (W x5c x00 x00 x00 x50 x00 x00 x00)))
(T (W x18 x00 x00 x00 x10 x00 x00 x00)
(L (W xff xff xff xff xff xff xff xff))
(L (W x00 x00 x00 x00 x00 x00 x00 x00))))
(T (W x45 x26 x22 x84 xe4 x9c xf2 xcb)
(T (W x00 x00 x00 x00 x00 x00 x00 x00)
(T (W x2c x00 x00 x00 x10 x00 x00 x00)
(L (W xff xff xff xff xff xff xff xff)) E)
(L (W x82 xd7 xfe xff x78 x00 x00 x00)))
(T (W x12 x00 x00 x00 x46 x53 x59 x53)
(L (W xff xff xff xff xff xff xff xff))
(L (W x00 x00 x00 x00 x00 x00 x00 x00)))))
(T (W xff xff xff xff xff xff xff xff)
(T (W x68 x00 x00 x00 x5c x00 x00 x00)
(T (W xff xff xff xff xff xff xff xff)
(T (W x6f x79 x61 x62 x75 x6e x00 x00)
(L (W xff xff xff xff xff xff xff xff)) E)
(L (W x45 x26 x22 x84 xe4 x9c xf2 xcb)))
(T (W x18 x00 x00 x00 x10 x00 x00 x00)
(L (W x54 x03 x00 x00 x2c x02 x00 x00))
(L (W xff xff xff xff xff xff xff xff))))
(T (W x00 x00 x00 x00 x00 x00 x00 x00)
(T (W xff xff xff xff xff xff xff xff)
(T (W x45 x26 x22 x84 xe4 x9c xf2 xcb)
(L (W x49 xa1 x68 x4a xeb x5f xdd x3d)) E)
(L (W xff xff xff xff xff xff xff xff)))
(T (W xff xff xff xff xff xff xff xff)
(L (W xff xff xff xff xff xff xff xff))
(L (W x00 x00 x00 x00 x00 x00 x00 x00)))))))
(T (W xd2 x9d xfb xff x74 x00 x00 x00)
(T (W xff xff xff xff xff xff xff xff)
(T (W xff xff xff xff xff xff xff xff)
(T (W x18 x00 x00 x00 x0c x00 x00 x00)
(T (W x00 x00 x00 x00 x00 x00 x00 x00)
(T (W x00 x00 x00 x00 x00 x00 x00 x00)
(L (W x00 x00 x80 xbf x00 x00 x80 xbf)) E)
(L (W x40 x00 x00 x00 x00 x00 x80 xbf)))
(T (W x00 x00 x00 x00 x00 x00 x00 x00)
(L (W x45 x26 x22 x84 xe4 x9c xf2 xcb))
(L (W x00 x00 x00 x00 x00 x00 x00 x00))))
(T (W x00 x00 x80 x3f x00 x00 x80 x3f)
(T (W x2c xd6 xfc xff x29 x00 x00 x00)
(T (W xff xff xff xff xff xff xff xff)
(L (W xff xff xff xff xff xff xff xff)) E)
(L (W x54 x00 x00 x00 x48 x00 x00 x00)))
(T (W x9c x01 x00 x00 xff xff xff xff)
(L (W xff xff xff xff xff xff xff xff))
(L (W x45 x44 x00 x00 x00 x00 x00 x00)))))
(T (W xff xff xff xff x03 x00 x00 x00)
(T (W x50 x00 x00 x00 x44 x00 x00 x00)
(T (W x00 x00 x00 x00 x00 x00 x00 x00)
(T (W xff xff xff xff xff xff xff xff)
(L (W x03 x00 x00 x00 xcc x00 x00 x00)) E)
(L (W x00 x00 x00 x00 x00 x00 x00 x00)))
(T (W x00 x00 x80 x3f x00 x00 x80 x3f)
(L (W xff xff xff xff x9c x00 x00 x00))
(L (W x00 x00 x00 x00 x00 x00 x00 x00))))
(T (W x00 x00 x00 x00 x00 x00 x00 x00)
(T (W xb8 x00 x00 x00 x32 x00 x00 x00)
(T (W x70 x5f x6c x65 x61 x64 x65 x72)
(L (W x00 x00 x00 x00 x12 x00 x00 x00)) E)
(L (W x4a x06 xff xff xaa x01 x00 x00)))
(T (W xb0 x00 x00 x00 x64 x00 x00 x00)
(L (W xff xff xff xff xff xff xff xff))
(L (W x00 x00 x00 x00 x00 x00 x00 x00))))))
(T (W xb8 x00 x00 x00 xac x00 x00 x00)
(T (W xff xff xff xff xff xff xff xff)
(T (W x00 x00 x80 x3f x00 x00 x80 x3f)
(T (W x00 x00 x00 x00 x01 x00 x00 x00)
(T (W x2c xa6 xfd xff x24 x00 x00 x00)
(L (W x6c x00 x00 x00 x60 x00 x00 x00)) E)
(L (W x38 x00 x3c x00 x40 x00 x44 x00)))
(T (W x00 x00 x00 x00 x00 x00 x00 x00)
(L (W x50 x00 x00 x00 x44 x00 x00 x00))
(L (W x4f x84 x6f x8b xe8 xcb x63 xb7))))
(T (W x00 x00 x00 x00 x00 x00 x00 x00)
(T (W x00 x00 x80 x3f x00 x00 x80 x3f)
(T (W xff xff xff xff xff xff xff xff)
(L (W xff xff xff xff xff xff xff xff)) E)
(L (W x03 x00 x00 x00 xd0 x00 x00 x00)))
(T (W x00 x00 x00 x00 x00 x00 x00 x00)
(L (W xff xff xff xff xb4 x00 x00 x00))
(L (W x00 x00 x00 x00 x00 x00 x00 x00)))))
(T (W xff xff xff xff xff xff xff xff)
(T (W xd2 x3d xfc xff x74 x00 x00 x00)
(T (W xff xff xff xff xff xff xff xff)
(T (W x68 x00 x00 x00 x5c x00 x00 x00)
(L (W xff xff xff xff xff xff xff xff)) E)
(L (W x00 x00 x80 xbf x00 x00 x80 xbf)))
(T (W xff xff xff xff xff xff xff xff)
(L (W x0d x01 x00 x00 xff xff xff xff))
(L (W x00 x00 x00 x00 x00 x00 x00 x00))))
(T (W x00 x00 x00 x00 x00 x00 x00 x00)
(T (W xff xff xff xff xff xff xff xff)
(T (W x49 xa1 x68 x4a xeb x5f xdd x3d)
(L (W xff xff xff xff xff xff xff xff)) E)
(L (W xb4 x05 x00 x00 x84 x04 x00 x00)))
(T (W x26 x00 x00 x00 x0c x00 x00 x00)
(L (W xff xff xff xff xb4 x00 x00 x00))
(L (W x00 x00 x80 xbf x00 x00 x80 xbf)))))))))
(T (W xff xff xff xff xff xff xff xff)
(T (W x00 x00 x80 x3f x00 x00 x80 x3f)
(T (W xff xff xff xff xff xff xff xff)
(T (W x84 xbc xfb xff x1c x00 x00 x00)
(T (W x68 x00 x00 x00 x5c x00 x00 x00)
(T (W x00 x00 x80 x3f x00 x00 x80 x3f)
(T (W xff xff xff xff xff xff xff xff)
(T (W xff xff xff xff xff xff xff xff)
(L (W x00 x00 x00 x00 x00 x00 x00 x00)) E)
(L (W x3c x00 x00 x00 x00 x00 x80 xbf)))
(T (W x1d x00 x00 x00 x20 x00 x00 x00)
(L (W x6e x00 x00 x00 xb2 x04 xfe xff))
(L (W xb8 x00 x00 x00 x3c x00 x00 x00))))
(T (W x00 x00 x00 x00 x00 x00 x00 x00)
(T (W x00 x00 x00 x00 x0c xc7 xfc xff)
(T (W x45 x26 x22 x84 xe4 x9c xf2 xcb)
(L (W xff xff xff xff xff xff xff xff)) E)
(L (W x00 x00 x00 x00 x00 x00 x00 x00)))
(T (W x45 x26 x22 x84 xe4 x9c xf2 xcb)
(L (W xff xff xff xff xa8 x00 x00 x00))
(L (W xff xff xff xff xff xff xff xff)))))
(T (W x00 x00 x00 x00 x0c xe7 xfb xff)
(T (W x45 x26 x22 x84 xe4 x9c xf2 xcb)
(T (W xff xff xff xff xff xff xff xff)
(T (W xb8 x00 x00 x00 xac x00 x00 x00)
(L (W x00 x00 x00 x00 x00 x00 x00 x00)) E)
(L (W xff xff xff xff xff xff xff xff)))
(T (W x00 x00 x00 x00 x00 x00 x00 x00)
(L (W xac xf4 xff xff x01 x01 x01 x01))
(L (W x3a x00 x00 x00 xff xff xff xff))))
(T (W x00 x00 x00 x00 x00 x00 x00 x00)
(T (W x00 x00 x80 x3f x00 x00 x80 x3f)
(T (W x62 x00 x00 x00 x25 x00 x00 x00)
(L (W x00 x00 x00 x00 x12 x00 x00 x00)) E)
(L (W x68 x00 x00 x00 x5c x00 x00 x00)))
(T (W x00 x00 x00 x00 x00 x00 x00 x00)
(L (W x00 x01 x01 x01 x82 xa3 xfe xff))
(L (W xff xff xff xff xff xff xff xff))))))
(T (W x9c xb8 xfb xff x00 x01 x01 x01)
(T (W x00 x00 x80 x3f x00 x00 x80 x3f)
(T (W x00 x00 x00 x00 x00 x00 x00 x00)
(T (W xff xff xff xff x04 x00 x00 x00)
(T (W xff xff xff xff xff xff xff xff)
(L (W x00 x00 x00 x00 x00 x00 x00 x00)) E)
(L (W x00 x00 x80 xbf x00 x00 x80 xbf)))
(T (W xff xff xff xff xff xff xff xff)
(L (W x18 x00 x00 x00 x0c x00 x00 x00))
(L (W x00 x00 x00 x00 x00 x00 x00 x00))))
(T (W xa8 x30 x16 x85 xeb x49 xba x96)
(T (W x4b x00 x00 x00 xff xff xff xff)
(T (W x01 x00 x00 x00 x9c x00 x00 x00)
(L (W xff xff xff xff xff xff xff xff)) E)
(L (W x00 x00 x80 xbf x00 x00 x80 xbf)))
(T (W xff xff xff xff xff xff xff xff)
(L (W x1d x00 x00 x00 x20 x00 x00 x00))
(L (W xff xff xff xff xff xff xff xff)))))
(T (W x00 x00 x80 x3f x00 x00 x80 x3f)
(T (W x00 x00 x00 x00 x00 x00 x00 x00)
(T (W x48 x00 x4c x00 x50 x00 x00 x00)
(T (W x00 x00 x80 x3f x00 x00 x80 x3f)
(L (W x50 x00 x00 x00 x44 x00 x00 x00)) E)
(L (W x00 x00 x00 x00 x00 x00 x00 x00)))
(T (W x00 x00 x00 x00 x00 x00 x00 x00)
(L (W xc4 x00 x00 x00 x01 x00 x00 x00))
(L (W xff xff xff xff xff xff xff xff))))
(T (W x48 x03 x00 x00 x34 x02 x00 x00)
(T (W x00 x00 x80 x3f x00 x00 x80 x3f)
(T (W xff xff xff xff xff xff xff xff)
(L (W x18 x00 x00 x00 x10 x00 x00 x00)) E)
(L (W x18 x00 x00 x00 x0c x00 x00 x00)))
(T (W x18 x00 x00 x00 x0c x00 x00 x00)
(L (W x82 x75 xfe xff x78 x00 x00 x00))
(L (W xff xff xff xff xff xff xff xff)))))))
(T (W x69 x73 x68 x5f x6f x79 x61 x62)
(T (W x00 x00 x80 x3f x00 x00 x80 x3f)
(T (W x00 x00 x80 x3f x00 x00 x80 x3f)
(T (W x45 x26 x22 x84 xe4 x9c xf2 xcb)
(T (W xff xff xff xff xff xff xff xff)
(T (W xa9 x60 x2e x97 x85 x1c x59 x5f)
(L (W x00 x00 x00 x00 x00 x00 x00 x00)) E)
(L (W x00 x00 x80 xbf x00 x00 x80 xbf)))
(T (W xff xff xff xff x9c x00 x00 x00)
(L (W x00 x00 x80 x3f x00 x00 x80 x3f))
(L (W xff xff xff xff xff xff xff xff))))
(T (W x00 x00 x00 x00 x00 x00 x00 x00)
(T (W xff xff xff xff xff xff xff xff)
(T (W x50 x00 x00 x00 x44 x00 x00 x00)
(L (W x03 x00 x00 x00 xd0 x00 x00 x00)) E)
(L (W x49 xa1 x68 x4a xeb x5f xdd x3d)))
(T (W x03 x00 x00 x00 xd4 x00 x00 x00)
(L (W x1f x00 x00 x00 x22 x00 x00 x00))
(L (W xb0 x00 x00 x00 x64 x00 x00 x00)))))
(T (W x45 x26 x22 x84 xe4 x9c xf2 xcb)
(T (W x00 x00 x80 x3f x00 x00 x80 x3f)
(T (W xff xff xff xff xff xff xff xff)
(T (W x01 x00 x00 x00 x9c x00 x00 x00)
(L (W x6c x00 x00 x00 x60 x00 x00 x00)) E)
(L (W x45 x44 x00 x00 x00 x00 x00 x00)))
(T (W x00 x00 x00 x00 x00 x00 x00 x00)
(L (W x00 x00 x00 x00 x01 x00 x00 x00))
(L (W xff xff xff xff xff xff xff xff))))
(T (W x00 x00 x00 x00 x00 x00 x00 x00)
(T (W x00 x00 x80 x3f x00 x00 x80 x3f)
(T (W x00 x00 x00 x00 x1c x00 x00 x00)
(L (W xff xff xff xff xff xff xff xff)) E)
(L (W xd2 xeb xfe xff x74 x00 x00 x00)))
(T (W x54 x00 x00 x00 x48 x00 x00 x00)
(L (W xcc x2f xff xff x00 x00 x01 x01))
(L (W xff xff xff xff xff xff xff xff))))))
(T (W x45 x26 x22 x84 xe4 x9c xf2 xcb)
(T (W x6c x00 x00 x00 x60 x00 x00 x00)
(T (W x00 x00 x00 x00 x00 x00 x00 x00)
(T (W x18 x00 x00 x00 x10 x00 x00 x00)
(T (W xff xff xff xff xff xff xff xff)
(L (W x00 x00 x00 x00 x12 x00 x00 x00)) E)
(L (W x45 x26 x22 x84 xe4 x9c xf2 xcb)))
(T (W xff xff xff xff xff xff xff xff)
(L (W xff xff xff xff xff xff xff xff))
(L (W x30 x33 x5f x43 x4c x45 x41 x52))))
(T (W x62 x78 xfe xff x7e x00 x00 x00)
(T (W x00 x00 x00 x00 x00 x00 x00 x00)
(T (W x64 x00 x00 x00 x9c x00 x00 x00)
(L (W x9c xe0 xff xff x00 x01 x01 x01)) E)
(L (W x00 x00 x80 xbf x00 x00 x80 xbf)))
(T (W x02 x00 x00 x00 xff xff xff xff)
(L (W x08 x5f xfe xff x32 x9a xfe xff))
(L (W x00 x00 x00 x00 x00 x00 x00 x00)))))
(T (W x00 x00 x80 x3f x00 x00 x80 x3f)
(T (W x00 x00 x00 x00 x00 x00 x00 x00)
(T (W x22 x00 x00 x00 x0c x00 x00 x00)
(T (W x45 x26 x22 x84 xe4 x9c xf2 xcb)
(L (W xff xff xff xff xb0 x00 x00 x00)) E)
(L (W x00 x00 x00 x00 x00 x00 x00 x00)))
(T (W x00 x00 x80 x3f x00 x00 x80 x3f)
(L (W x18 x00 x00 x00 x10 x00 x00 x00))
(L (W xff xff xff xff xd4 x00 x00 x00))))
(T (W xff xff xff xff xff xff xff xff)
(T (W x45 x26 x22 x84 xe4 x9c xf2 xcb)
(T (W x46 x53 x59 x53 x5f x4e x53 x5f)
(L (W x30 x33 x5f x43 x4c x45 x41 x52)) E)
(L (W x18 x00 x00 x00 x0c x00 x00 x00)))
(T (W xff xff xff xff x9c x00 x00 x00)
(L (W x00 x00 x80 xbf x00 x00 x80 xbf))
(L (W x00 x00 x00 x00 x00 x00 x00 x00))))))))
(T (W x61 x64 x65 x72 x5f x77 x69 x6c)
(T (W x18 x00 x00 x00 x0c x00 x00 x00)
(T (W xff xff xff xff xff xff xff xff)
(T (W x00 x00 x00 x00 x00 x00 x00 x00)
(T (W xff xff xff xff xff xff xff xff)
(T (W x00 x00 x80 x3f x00 x00 x80 x3f)
(T (W x45 x26 x22 x84 xe4 x9c xf2 xcb)
(L (W xff xff xff xff x9c x00 x00 x00)) E)
(L (W xff xff xff xff xff xff xff xff)))
(T (W x00 x00 x00 x00 x00 x00 x00 x00)
(L (W xff xff xff xff xff xff xff xff))
(L (W x4f x84 x6f x8b xe8 xcb x63 xb7))))
(T (W x0a x00 x00 x00 x3e x00 x00 x00)
(T (W x00 x00 x00 x00 x00 x00 x00 x00)
(T (W x64 x5f x6c x76 x31 x00 x00 x00)
(L (W x00 x00 x80 xbf x00 x00 x80 xbf)) E)
(L (W xff xff xff xff xa0 x00 x00 x00)))
(T (W x00 x00 x00 x00 x00 x00 x00 x00)
(L (W x2c x50 xfe xff x1d x00 x00 x00))
(L (W x00 x00 x00 x00 x00 x00 x00 x00)))))
(T (W x01 x00 x00 x00 x04 x00 x00 x00)
(T (W xff xff xff xff xff xff xff xff)
(T (W x45 x26 x22 x84 xe4 x9c xf2 xcb)
(T (W x00 x00 x00 x00 x00 x00 x00 x00)
(L (W xb8 x00 x00 x00 x64 x00 x00 x00)) E)
(L (W x00 x00 x80 xbf x00 x00 x80 xbf)))
(T (W xff xff xff xff xa0 x00 x00 x00)
(L (W x45 x26 x22 x84 xe4 x9c xf2 xcb))
(L (W x08 x2b xff xff x32 x2e xff xff))))
(T (W x00 x00 x80 x3f x00 x00 x80 x3f)
(T (W xff xff xff xff xff xff xff xff)
(T (W x46 x53 x59 x53 x5f x4e x53 x5f)
(L (W x00 x00 x00 x00 x00 x00 x00 x00)) E)
(L (W x00 x00 x00 x00 x12 x00 x00 x00)))
(T (W xff xff xff xff xff xff xff xff)
(L (W xfc x07 x00 x00 xd4 x06 x00 x00))
(L (W x00 x00 x80 xbf x00 x00 x80 xbf))))))
(T (W x00 x00 x00 x00 x00 x00 x00 x00)
(T (W x00 x00 x00 x00 x00 x00 x00 x00)
(T (W xff xff xff xff xff xff xff xff)
(T (W x00 x00 x00 x00 x00 x00 x00 x00)
(T (W x00 x00 x80 x3f x00 x00 x80 x3f)
(L (W xff xff xff xff xbc x00 x00 x00)) E)
(L (W xff xff xff xff xff xff xff xff)))
(T (W x00 x00 x80 x3f x00 x00 x80 x3f)
(L (W x00 x00 x00 x00 x00 x00 x00 x00))
(L (W xb8 x00 x00 x00 x32 x00 x00 x00))))
(T (W xd2 x57 xfc xff x74 x00 x00 x00)
(T (W x82 xd9 xfc xff x78 x00 x00 x00)
(T (W x00 x00 x00 x00 x00 x00 x00 x00)
(L (W x46 x53 x59 x53 x5f x4e x53 x5f)) E)
(L (W xff xff xff xff xff xff xff xff)))
(T (W x00 x00 x80 x3f x00 x00 x80 x3f)
(L (W x00 x00 x00 x00 x00 x00 x00 x00))
(L (W x00 x00 x80 xbf x00 x00 x80 xbf)))))
(T (W xff xff xff xff xff xff xff xff)
(T (W x45 x26 x22 x84 xe4 x9c xf2 xcb)
(T (W x45 x26 x22 x84 xe4 x9c xf2 xcb)
(T (W x00 x00 x80 x3f x00 x00 x80 x3f)
(L (W x00 x00 x00 x00 x00 x00 x00 x00)) E)
(L (W x68 x00 x00 x00 x5c x00 x00 x00)))
(T (W xff xff xff xff xff xff xff xff)
(L (W x00 x00 x00 x00 x00 x00 x00 x00))
(L (W x00 x00 x00 x00 x00 x00 x00 x00))))
(T (W x45 x26 x22 x84 xe4 x9c xf2 xcb)
(T (W x00 x00 x00 x00 x00 x00 x00 x00)
(T (W x55 x39 x81 x6a xc4 xc7 x74 x14)
(L (W xb4 x07 x00 x00 xf4 x05 x00 x00)) E)
(L (W x00 x00 x00 x00 x00 x00 x00 x00)))
(T (W x00 x00 x00 x00 x00 x00 x00 x00)
(L (W xff xff xff xff xff xff xff xff))
(L (W x00 x00 x80 xbf x00 x00 x80 xbf)))))))
(T (W x72 x64 x5f x6c x76 x31 x00 x00)
(T (W x00 x00 x00 x00 x00 x00 x00 x00)
(T (W xc6 x33 xb5 x90 xaf x25 x58 x1d)
(T (W xff xff xff xff xff xff xff xff)
(T (W x00 x00 x80 x3f x00 x00 x80 x3f)
(T (W x00 x00 x80 x3f x00 x00 x80 x3f)
(L (W x03 x00 x00 x00 xd8 x00 x00 x00)) E)
(L (W xff xff xff xff xff xff xff xff)))
(T (W x00 x00 x00 x00 x00 x00 x00 x00)
(L (W xff xff xff xff xff xff xff xff))
(L (W x9c x14 xff xff x00 x01 x01 x01))))
(T (W xc0 x00 x00 x00 xb4 x00 x00 x00)
(T (W x00 x00 x80 x3f x00 x00 x80 x3f)
(T (W x00 x00 x00 x00 x00 x00 x00 x00)
(L (W x00 x00 x00 x00 x00 x00 x00 x00)) E)
(L (W xc8 x00 x00 x00 x01 x00 x00 x00)))
(T (W x00 x00 x00 x00 x00 x00 x00 x00)
(L (W x46 x53 x59 x53 x5f x4e x53 x5f))
(L (W x00 x00 x00 x00 x00 x00 x00 x00)))))
(T (W xff xff xff xff xff xff xff xff)
(T (W xb8 x00 x00 x00 xac x00 x00 x00)
(T (W x00 x00 x00 x00 x00 x00 x00 x00)
(T (W x2c xb8 xfd xff x25 x00 x00 x00)
(L (W x00 x00 x00 x00 x04 x00 x00 x00)) E)
(L (W x00 x00 x80 xbf x00 x00 x80 xbf)))
(T (W xff xff xff xff xff xff xff xff)
(L (W x84 x48 xfe xff x10 x00 x00 x00))
(L (W x00 x00 x80 xbf x00 x00 x80 xbf))))
(T (W x00 x00 x80 x3f x00 x00 x80 x3f)
(T (W xff xff xff xff xff xff xff xff)
(T (W xff xff xff xff xff xff xff xff)
(L (W xff xff xff xff xff xff xff xff)) E)
(L (W x00 x00 x00 x00 x00 x00 x00 x00)))
(T (W x00 x00 x00 x00 x00 x00 x00 x00)
(L (W x8c x01 x00 x00 xff xff xff xff))
(L (W x54 x00 x00 x00 x48 x00 x00 x00))))))
(T (W x93 x0d x3b xef x63 x2b xf1 x69)
(T (W x2c xe8 xfb xff x3e x00 x00 x00)
(T (W xff xff xff xff xff xff xff xff)
(T (W x00 x00 x80 x3f x00 x00 x80 x3f)
(T (W x00 x00 x00 x00 x00 x00 x00 x00)
(L (W x03 x00 x00 x00 xd0 x00 x00 x00)) E)
(L (W x9c xa4 xfe xff x00 x01 x01 x01)))
(T (W x00 x00 x80 x3f x00 x00 x80 x3f)
(L (W xff xff xff xff xff xff xff xff))
(L (W x44 x00 x00 x00 x00 x00 x80 xbf))))
(T (W x9c x64 xfc xff x00 x01 x01 x01)
(T (W xb0 x00 x00 x00 x64 x00 x00 x00)
(T (W x82 xe1 xfd xff x78 x00 x00 x00)
(L (W x1e x00 x00 x00 x0c x00 x00 x00)) E)
(L (W x00 x00 x00 x00 x06 x00 x00 x00)))
(T (W x00 x00 x80 x3f x00 x00 x80 x3f)
(L (W x46 x53 x59 x53 x5f x4e x53 x5f))
(L (W x6c x00 x00 x00 x60 x00 x00 x00)))))
(T (W xff xff xff xff xff xff xff xff)
(T (W x01 x00 x00 x00 x9c x00 x00 x00)
(T (W x06 x06 xfa x18 x67 x33 x13 xa1)
(T (W xff xff xff xff xff xff xff xff)
(L (W x4a xd8 xff xff xaf x00 x00 x00)) E)
(L (W x45 x26 x22 x84 xe4 x9c xf2 xcb)))
(T (W x00 x00 x00 x00 x2a x4b xfd xff)
(L (W x30 x33 x5f x43 x4c x45 x41 x52))
(L (W x00 x00 x00 x00 x00 x00 x00 x00))))
(T (W x00 x00 x80 x3f x00 x00 x80 x3f)
(T (W x00 x00 x00 x00 x12 x00 x00 x00)
(T (W xff xff xff xff xff xff xff xff)
(L (W xe0 x00 x00 x00 x64 x00 x00 x00)) E)
(L (W x00 x00 x80 xbf x00 x00 x80 xbf)))
(T (W x00 x00 x00 x00 x00 x00 x00 x00)
(L (W xff xff xff xff xff xff xff xff))
(L (W x03 x00 x00 x00 xd0 x00 x00 x00))))))))))
(T (W xf0 xa5 x01 x00 x44 xa1 x01 x00)
(T (W x48 x5b x00 x00 xfc x58 x00 x00)
(T (W x00 x00 x00 x00 x00 x00 x00 x00)
(T (W x45 x26 x22 x84 xe4 x9c xf2 xcb)
(T (W xff xff xff xff xff xff xff xff)
(T (W x00 x00 x80 x3f x00 x00 x80 x3f)
(T (W x00 x00 x00 x00 x00 x00 x00 x00)
(T (W xff xff xff xff x04 x00 x00 x00)
(T (W xff xff xff xff xff xff xff xff)
(L (W x00 x00 x00 x00 x12 x00 x00 x00)) E)
(L (W x00 x00 x00 x00 x00 x00 x00 x00)))
(T (W x00 x00 x80 x3f x00 x00 x80 x3f)
(L (W x45 x26 x22 x84 xe4 x9c xf2 xcb))
(L (W x9c x07 xff xff x00 x01 x01 x01))))
(T (W x7b x31 x6d x52 x4c xfb xc4 x4d)
(T (W x00 x00 x80 x3f x00 x00 x80 x3f)
(T (W x00 x00 x00 x00 x00 x00 x00 x00)
(L (W xff xff xff xff xff xff xff xff)) E)
(L (W xff xff xff xff x01 x00 x00 x00)))
(T (W x00 x00 x80 x3f x00 x00 x80 x3f)
(L (W x00 x00 x80 xbf x00 x00 x80 xbf))
(L (W x45 x26 x22 x84 xe4 x9c xf2 xcb)))))
(T (W x68 x00 x00 x00 x5c x00 x00 x00)
(T (W x00 x00 x00 x00 x00 x00 x00 x00)
(T (W x00 x00 x80 x3f x00 x00 x80 x3f)
(T (W x01 x00 x00 x00 x9c x00 x00 x00)
(L (W x00 x00 x00 x00 x00 x00 x00 x00)) E)
(L (W xff xff xff xff xff xff xff xff)))
(T (W xff xff xff xff x02 x00 x00 x00)
(L (W x00 x00 x80 xbf x00 x00 x80 xbf))
(L (W xff xff xff xff xff xff xff xff))))
(T (W xff xff xff xff xff xff xff xff)
(T (W x00 x00 x00 x00 x00 x00 x00 x00)
(T (W x9c xe7 xfd xff x00 x01 x01 x01)
(L (W x00 x00 x00 x00 x00 x00 x00 x00)) E)
(L (W x00 x00 x80 xbf x00 x00 x80 xbf)))
(T (W x00 x00 x00 x00 x00 x00 x00 x00)
(L (W x00 x00 x80 xbf x00 x00 x80 xbf))
(L (W xc6 x00 x00 x00 xff xff xff xff))))))
(T (W x68 x00 x00 x00 x5c x00 x00 x00)
(T (W x00 x00 x80 x3f x00 x00 x80 x3f)
(T (W x00 x00 x00 x00 x00 x00 x00 x00)
(T (W xd2 x92 xfc xff x74 x00 x00 x00)
(T (W xff xff xff xff xff xff xff xff)
(L (W x45 x44 x00 x00 x00 x00 x00 x00)) E)
(L (W x00 x00 x00 x00 x00 x00 x00 x00)))
(T (W xb8 x00 x00 x00 x32 x00 x00 x00)
(L (W x82 x14 xfe xff x78 x00 x00 x00))
(L (W xff xff xff xff xff xff xff xff))))
(T (W xff xff xff xff xff xff xff xff)
(T (W xff xff xff xff xff xff xff xff)
(T (W x00 x00 x80 x3f x00 x00 x80 x3f)
(L (W xff xff xff xff xa8 x00 x00 x00)) E)
(L (W x00 x00 x00 x00 x00 x00 x00 x00)))
(T (W xff xff xff xff xac x00 x00 x00)
(L (W x00 x00 x80 xbf x00 x00 x80 xbf))
(L (W xff xff xff xff x9c x00 x00 x00)))))
(T (W x00 x00 x80 x3f x00 x00 x80 x3f)
(T (W x00 x00 x00 x00 x00 x00 x00 x00)
(T (W xff xff xff xff x04 x00 x00 x00)
(T (W x00 x00 x80 x3f x00 x00 x80 x3f)
(L (W x00 x00 x80 xbf x00 x00 x80 xbf)) E)
(L (W x00 x00 x00 x00 x00 x00 x00 x00)))
(T (W x12 x00 x00 x00 x46 x53 x59 x53)
(L (W x50 x00 x00 x00 x44 x00 x00 x00))
(L (W xff xff xff xff xff xff xff xff))))
(T (W xff xff xff xff xff xff xff xff)
(T (W x00 x00 x80 x3f x00 x00 x80 x3f)
(T (W x52 x45 x53 x50 x41 x57 x4e x5f)
(L (W x68 x00 x00 x00 x5c x00 x00 x00)) E)
(L (W x54 x00 x00 x00 x48 x00 x00 x00)))
(T (W x00 x00 x80 x3f x00 x00 x80 x3f)
(L (W x00 x00 x80 xbf x00 x00 x80 xbf))
(L (W xc6 x00 x00 x00 xff xff xff xff)))))))
(T (W x01 x00 x00 x00 xa0 x00 x00 x00)
(T (W x45 x26 x22 x84 xe4 x9c xf2 xcb)
(T (W x45 x26 x22 x84 xe4 x9c xf2 xcb)
(T (W x00 x00 x00 x00 x00 x00 x00 x00)
(T (W x18 x00 x00 x00 x0c x00 x00 x00)
(T (W xff xff xff xff xff xff xff xff)
(L (W x00 x00 x00 x00 x00 x00 x00 x00)) E)
(L (W x00 x00 x00 x00 x00 x00 x00 x00)))
(T (W x82 x0c xfd xff x78 x00 x00 x00)
(L (W x00 x00 x00 x00 x00 x00 x00 x00))
(L (W xff xff xff xff xbc x00 x00 x00))))
(T (W x82 x00 x00 x00 xff xff xff xff)
(T (W x45 x26 x22 x84 xe4 x9c xf2 xcb)
(T (W x00 x00 x80 x3f x00 x00 x80 x3f)
(L (W xff xff xff xff x9c x00 x00 x00)) E)
(L (W x2c xd3 xfe xff x18 x00 x00 x00)))
(T (W x50 x00 x00 x00 x44 x00 x00 x00)
(L (W x82 x4c xfe xff x78 x00 x00 x00))
(L (W x9c x4f xff xff x00 x01 x01 x01)))))
(T (W x00 x00 x80 x3f x00 x00 x80 x3f)
(T (W x00 x00 x00 x00 x00 x00 x00 x00)
(T (W xb8 x00 x00 x00 xac x00 x00 x00)
(T (W x00 x00 x80 x3f x00 x00 x80 x3f)
(L (W x50 x00 x00 x00 x44 x00 x00 x00)) E)
(L (W xff xff xff xff xff xff xff xff)))
(T (W x96 x8c x44 x95 xde xa1 x23 x64)
(L (W xff xff xff xff xff xff xff xff))
(L (W xff xff xff xff xff xff xff xff))))
(T (W xd0 x00 x00 x00 xff xff xff xff)
(T (W x00 x00 x00 x00 x00 x00 x00 x00)
(T (W x72 xf9 xff xff x01 x01 x01 x01)
(L (W x03 x00 x00 x00 xd0 x00 x00 x00)) E)
(L (W x00 x00 x80 xbf x00 x00 x80 xbf)))
(T (W x00 x00 x80 x3f x00 x00 x80 x3f)
(L (W x00 x00 x80 xbf x00 x00 x80 xbf))
(L (W xff xff xff xff xff xff xff xff))))))
(T (W xd2 xba xfb xff x74 x00 x00 x00)
(T (W x00 x00 x80 x3f x00 x00 x80 x3f)
(T (W x00 x00 x00 x00 x00 x00 x00 x00)
(T (W x45 x26 x22 x84 xe4 x9c xf2 xcb)
(T (W xb8 x00 x00 x00 xac x00 x00 x00)
(L (W x00 x00 x00 x00 x00 x00 x00 x00)) E)
(L (W x00 x00 x00 x00 x00 x00 x00 x00)))
(T (W xff xff xff xff xff xff xff xff)
(L (W x18 x00 x00 x00 x0c x00 x00 x00))
(L (W xff xff xff xff xff xff xff xff))))
(T (W xff xff xff xff xff xff xff xff)
(T (W x00 x00 x00 x00 xb2 xdb xfc xff)
(T (W x18 x00 x00 x00 x0c x00 x00 x00)
(L (W x68 x00 x00 x00 x5c x00 x00 x00)) E)
(L (W x00 x00 x00 x00 x00 x00 x00 x00)))
(T (W xff xff xff xff xff xff xff xff)
(L (W x00 x00 x80 xbf x00 x00 x80 xbf))
(L (W xff xff xff xff xff xff xff xff)))))
(T (W x45 x26 x22 x84 xe4 x9c xf2 xcb)
(T (W x00 x00 x00 x00 x00 x00 x00 x00)
(T (W xff xff xff xff xff xff xff xff)
(T (W x45 x26 x22 x84 xe4 x9c xf2 xcb)
(L (W x00 x00 x00 x00 x0c xbe xff xff)) E)
(L (W xff xff xff xff xff xff xff xff)))
(T (W x00 x00 x80 x3f x00 x00 x80 x3f)
(L (W x6c x00 x00 x00 x60 x00 x00 x00))
(L (W x45 x26 x22 x84 xe4 x9c xf2 xcb))))
(T (W xff xff xff xff xff xff xff xff)
(T (W x00 x00 x80 x3f x00 x00 x80 x3f)
(T (W x00 x00 x00 x00 xc2 xcd xff xff)
(L (W xff xff xff xff xff xff xff xff)) E)
(L (W xd2 xfa xfe xff x74 x00 x00 x00)))
(T (W xd2 x7a xfd xff x74 x00 x00 x00)
(L (W x00 x00 x80 xbf x00 x00 x80 xbf))
(L (W x00 x00 x00 x00 x00 x00 x00 x00))))))))
(T (W xff xff xff xff xff xff xff xff)
(T (W x00 x00 x80 x3f x00 x00 x80 x3f)
(T (W x00 x00 x80 x3f x00 x00 x80 x3f)
(T (W x20 x01 x00 x00 x04 x00 x00 x00)
(T (W xff xff xff xff xff xff xff xff)
(T (W x00 x00 x80 x3f x00 x00 x80 x3f)
(T (W x00 x00 x80 x3f x00 x00 x80 x3f)
(L (W x82 x88 xff xff x78 x00 x00 x00)) E)
(L (W xff xff xff xff x9c x00 x00 x00)))
(T (W x00 x00 x00 x00 x00 x00 x00 x00)
(L (W x00 x00 x80 x3f x00 x00 x80 x3f))
(L (W x00 x00 x00 x00 x00 x00 x00 x00))))
(T (W x18 x00 x00 x00 x0c x00 x00 x00)
(T (W x2c x00 x00 x00 x10 x00 x00 x00)
(T (W xff xff xff xff xff xff xff xff)
(L (W x00 x00 x00 x00 x00 x00 x00 x00)) E)
(L (W x82 xc8 xfe xff x78 x00 x00 x00)))
(T (W x54 x02 x00 x00 x34 x01 x00 x00)
(L (W x00 x00 x00 x00 x5a x65 xfe xff))
(L (W x00 x00 x00 x00 x00 x00 x00 x00)))))
(T (W xff xff xff xff xff xff xff xff)
(T (W x45 x26 x22 x84 xe4 x9c xf2 xcb)
(T (W x00 x00 x00 x00 x00 x00 x00 x00)
(T (W x2c xaf xfd xff x0b x00 x00 x00)
(L (W x9c xab xff xff x00 x01 x01 x01)) E)
(L (W x49 xa1 x68 x4a xeb x5f xdd x3d)))
(T (W x68 x00 x00 x00 x5c x00 x00 x00)
(L (W x00 x00 x00 x00 x00 x00 x00 x00))
(L (W x3c x00 x00 x00 x00 x00 x80 xbf))))
(T (W x45 x26 x22 x84 xe4 x9c xf2 xcb)
(T (W xff xff xff xff x9c x00 x00 x00)
(T (W x39 x00 x00 x00 xc2 xb9 xff xff)
(L (W x00 x00 x80 xbf x00 x00 x80 xbf)) E)
(L (W x34 x01 x00 x00 x04 x00 x00 x00)))
(T (W x00 x00 x00 x00 x0c x6a xfd xff)
(L (W xff xff xff xff xff xff xff xff))
(L (W x00 x00 x80 xbf x00 x00 x80 xbf))))))
(T (W xbf x01 x00 x00 xff xff xff xff)
(T (W xff xff xff xff x01 x00 x00 x00)
(T (W xff xff xff xff x04 x00 x00 x00)
(T (W x00 x00 x00 x00 x00 x00 x00 x00)
(T (W x00 x00 x00 x00 x00 x00 x00 x00)
(L (W x45 x26 x22 x84 xe4 x9c xf2 xcb)) E)
(L (W x45 x26 x22 x84 xe4 x9c xf2 xcb)))
(T (W x00 x00 x00 x00 x00 x00 x00 x00)
(L (W x40 x00 x00 x00 xff xff xff xff))
(L (W x9c x1b xff xff x00 x01 x01 x01))))
(T (W x54 x00 x00 x00 x48 x00 x00 x00)
(T (W x00 x00 x80 x3f x00 x00 x80 x3f)
(T (W x00 x00 x00 x00 x00 x00 x00 x00)
(L (W x00 x00 x00 x00 x00 x00 x00 x00)) E)
(L (W xff xff xff xff xac x00 x00 x00)))
(T (W x45 x26 x22 x84 xe4 x9c xf2 xcb)
(L (W x00 x00 x00 x00 x00 x00 x00 x00))
(L (W x00 x00 x80 xbf x00 x00 x80 xbf)))))
(T (W xff xff xff xff xff xff xff xff)
(T (W x9c x3b xfc xff x00 x01 x01 x01)
(T (W x20 x00 x24 x00 x28 x00 x2c x00)
(T (W x1a x00 x00 x00 x67 x72 x6f x75)
(L (W xfc x07 x00 x00 xd4 x06 x00 x00)) E)
(L (W x00 x00 x80 xbf x00 x00 x80 xbf)))
(T (W x03 x00 x00 x00 xcc x00 x00 x00)
(L (W x46 x53 x59 x53 x5f x4e x53 x5f))
(L (W x45 x44 x00 x00 x00 x00 x00 x00))))
(T (W x45 x26 x22 x84 xe4 x9c xf2 xcb)
(T (W xff xff xff xff xff xff xff xff)
(T (W x48 x00 x4c x00 x50 x00 x54 x00)
(L (W xff xff xff xff xff xff xff xff)) E)
(L (W xf6 x3a x54 x1d xca x9f x99 xfd)))
(T (W xa2 x80 xfd xff x9c x01 x00 x00)
(L (W xff xff xff xff xff xff xff xff))
(L (W x00 x00 x00 x00 x00 x00 x00 x00)))))))
(T (W xff xff xff xff xff xff xff xff)
(T (W x04 x29 x7d x8f xb7 x84 x46 x36)
(T (W xff xff xff xff xff xff xff xff)
(T (W xb8 x00 x00 x00 xac x00 x00 x00)
(T (W x00 x00 x00 x00 x00 x00 x00 x00)
(T (W x00 x00 x80 x3f x00 x00 x80 x3f)
(L (W x50 x00 x00 x00 x44 x00 x00 x00)) E)
(L (W xff xff xff xff xff xff xff xff)))
(T (W x00 x00 x00 x00 x00 x00 x00 x00)
(L (W xcc x00 x00 x00 x01 x00 x00 x00))
(L (W x45 x26 x22 x84 xe4 x9c xf2 xcb))))
(T (W x00 x00 x80 x3f x00 x00 x80 x3f)
(T (W x00 x00 x00 x00 x00 x00 x00 x00)
(T (W x2c xd7 xfd xff x1b x00 x00 x00)
(L (W x00 x00 x00 x00 x00 x00 x00 x00)) E)
(L (W x45 x26 x22 x84 xe4 x9c xf2 xcb)))
(T (W x4c x45 x41 x52 x45 x44 x00 x00)
(L (W x7a x54 xfe xff x8d x01 x00 x00))
(L (W x00 x00 x00 x00 x00 x00 x00 x00)))))
(T (W xff xff xff xff xff xff xff xff)
(T (W x68 x00 x00 x00 x5c x00 x00 x00)
(T (W x00 x00 x00 x00 x00 x00 x00 x00)
(T (W xff xff xff xff xff xff xff xff)
(L (W xff xff xff xff xff xff xff xff)) E)
(L (W x00 x00 x80 xbf x00 x00 x80 xbf)))
(T (W xd2 x2e xfd xff x74 x00 x00 x00)
(L (W xff xff xff xff xff xff xff xff))
(L (W x45 x26 x22 x84 xe4 x9c xf2 xcb))))
(T (W x00 x00 x00 x00 x00 x00 x00 x00)
(T (W xff xff xff xff xff xff xff xff)
(T (W x00 x00 x80 x3f x00 x00 x80 x3f)
(L (W x00 x00 x00 x00 x00 x00 x00 x00)) E)
(L (W x46 x53 x59 x53 x5f x4e x53 x5f)))
(T (W xff xff xff xff xff xff xff xff)
(L (W xff xff xff xff xff xff xff xff))
(L (W x45 x26 x22 x84 xe4 x9c xf2 xcb))))))
(T (W xff xff xff xff xff xff xff xff)
(T (W xff xff xff xff xff xff xff xff)
(T (W x18 x00 x00 x00 x0c x00 x00 x00)
(T (W x00 x00 x00 x00 x00 x00 x00 x00)
(T (W x00 x00 x00 x00 x00 x00 x00 x00)
(L (W xff xff xff xff x9c x00 x00 x00)) E)
(L (W x45 x26 x22 x84 xe4 x9c xf2 xcb)))
(T (W x45 x26 x22 x84 xe4 x9c xf2 xcb)
(L (W xb0 x00 x00 x00 x64 x00 x00 x00))
(L (W x00 x00 x80 xbf x00 x00 x80 xbf))))
(T (W x00 x00 x80 x3f x00 x00 x80 x3f)
(T (W x9c xe3 xfc xff x00 x01 x01 x01)
(T (W x23 x00 x00 x00 x10 x00 x00 x00)
(L (W xff xff xff xff xff xff xff xff)) E)
(L (W xff xff xff xff xff xff xff xff)))
(T (W x00 x00 x80 x3f x00 x00 x80 x3f)
(L (W x4a x77 xfe xff xaa x01 x00 x00))
(L (W x00 x00 x80 xbf x00 x00 x80 xbf)))))
(T (W xff xff xff xff xff xff xff xff)
(T (W x45 x26 x22 x84 xe4 x9c xf2 xcb)
(T (W xff xff xff xff xff xff xff xff)
(T (W xff xff xff xff x03 x00 x00 x00)
(L (W x8c x01 x00 x00 xff xff xff xff)) E)
(L (W xd2 xbe xfe xff x74 x00 x00 x00)))
(T (W xff xff xff xff xff xff xff xff)
(L (W xd2 x5e xfe xff x0b x01 x00 x00))
(L (W x00 x00 x00 x00 x00 x00 x00 x00))))
(T (W x45 x26 x22 x84 xe4 x9c xf2 xcb)
(T (W x34 x01 x00 x00 x04 x00 x00 x00)
(T (W x00 x00 x80 x3f x00 x00 x80 x3f)
(L (W x00 x00 x00 x00 x00 x00 x00 x00)) E)
(L (W x00 x00 x00 x00 x00 x00 x00 x00)))
(T (W x00 x00 x00 x00 x00 x00 x00 x00)
(L (W xff xff xff xff xff xff xff xff))
(L (W x68 x00 x00 x00 x5c x00 x00 x00)))))))))
(T (W xff xff xff xff xff xff xff xff)
(T (W x00 x00 x80 x3f x00 x00 x80 x3f)
(T (W x67 x72 x6f x75 x70 x5f x77 x69)
(T (W x00 x00 x00 x00 x00 x00 x00 x00)
(T (W xff xff xff xff x04 x00 x00 x00)
(T (W x82 x06 xfc xff x78 x00 x00 x00)
(T (W x00 x00 x00 x00 x3a xd1 xff xff)
(T (W x72 x64 x5f x6c x76 x31 x00 x00)
(L (W x3c x00 x00 x00 x00 x00 x80 xbf)) E)
(L (W x68 x00 x00 x00 x5c x00 x00 x00)))
(T (W xff xff xff xff xff xff xff xff)
(L (W x00 x00 x00 x00 x1b x00 x00 x00))
(L (W xff xff xff xff xff xff xff xff))))
(T (W x00 x00 x80 x3f x00 x00 x80 x3f)
(T (W xff xff xff xff xff xff xff xff)
(T (W x00 x00 x80 x3f x00 x00 x80 x3f)
(L (W xff xff xff xff xff xff xff xff)) E)
(L (W x00 x00 x80 xbf x00 x00 x80 xbf)))
(T (W xc0 x00 x00 x00 x01 x00 x00 x00)
(L (W xff xff xff xff xff xff xff xff))
(L (W xff xff xff xff xff xff xff xff)))))
(T (W x18 x00 x00 x00 x0c x00 x00 x00)
(T (W x00 x00 x80 x3f x00 x00 x80 x3f)
(T (W xff xff xff xff x01 x00 x00 x00)
(T (W xff xff xff xff xff xff xff xff)
(L (W x00 x00 x80 xbf x00 x00 x80 xbf)) E)
(L (W x30 x33 x5f x43 x4c x45 x41 x52)))
(T (W x00 x00 x00 x00 x00 x00 x00 x00)
(L (W xff xff xff xff xff xff xff xff))
(L (W x4c x45 x41 x52 x45 x44 x00 x00))))
(T (W x00 x00 x00 x00 x00 x00 x00 x00)
(T (W x50 x00 x00 x00 x44 x00 x00 x00)
(T (W x00 x00 x00 x00 x00 x00 x00 x00)
(L (W x45 x26 x22 x84 xe4 x9c xf2 xcb)) E)
(L (W x45 x26 x22 x84 xe4 x9c xf2 xcb)))
(T (W x45 x26 x22 x84 xe4 x9c xf2 xcb)
(L (W x1d x00 x00 x00 x20 x00 x00 x00))
(L (W x45 x44 x00 x00 x00 x00 x00 x00))))))
(T (W x45 x26 x22 x84 xe4 x9c xf2 xcb)
(T (W xd2 xd4 xfb xff x74 x00 x00 x00)
(T (W x00 x00 x80 x3f x00 x00 x80 x3f)
(T (W xff xff xff xff xff xff xff xff)
(T (W x75 x67 x2e x97 x85 x20 x59 x5f)
(L (W x00 x00 x80 xbf x00 x00 x80 xbf)) E)
(L (W x00 x00 x80 xbf x00 x00 x80 xbf)))
(T (W xff xff xff xff xff xff xff xff)
(L (W xff xff xff xff xff xff xff xff))
(L (W x46 x53 x59 x53 x5f x4e x53 x5f))))
(T (W x00 x00 x00 x00 x00 x00 x00 x00)
(T (W x00 x00 x00 x00 x00 x00 x00 x00)
(T (W xd0 x00 x00 x00 xac x00 x00 x00)
(L (W xff xff xff xff xff xff xff xff)) E)
(L (W x00 x00 x80 xbf x00 x00 x80 xbf)))
(T (W x04 x00 x00 x00 x92 x65 xfd xff)
(L (W xff xff xff xff xff xff xff xff))
(L (W x00 x00 x00 x00 xb2 x55 xff xff)))))
(T (W x01 x00 x00 x00 x3e x00 x00 x00)
(T (W x00 x00 x80 x3f x00 x00 x80 x3f)
(T (W x00 x00 x00 x00 x00 x00 x00 x00)
(T (W x01 x00 x00 x00 x9c x00 x00 x00)
(L (W xc4 x00 x00 x00 x01 x00 x00 x00)) E)
(L (W x00 x00 x00 x00 x00 x00 x00 x00)))
(T (W x50 x00 x00 x00 x44 x00 x00 x00)
(L (W xff xff xff xff xff xff xff xff))
(L (W xff xff xff xff xff xff xff xff))))
(T (W x00 x00 x00 x00 x00 x00 x00 x00)
(T (W xd2 xf4 xfc xff x74 x00 x00 x00)
(T (W x46 x00 x00 x00 x0c x00 x00 x00)
(L (W x2c x00 x30 x00 x34 x00 x38 x00)) E)
(L (W xcc x00 x00 x00 x02 x00 x00 x00)))
(T (W xff xff xff xff xff xff xff xff)
(L (W x18 x00 x00 x00 x1b x00 x00 x00))
(L (W x45 x44 x00 x00 x00 x00 x00 x00)))))))
(T (W x00 x00 x00 x00 x00 x00 x00 x00)
(T (W xb8 x00 x00 x00 xac x00 x00 x00)
(T (W x45 x26 x22 x84 xe4 x9c xf2 xcb)
(T (W x00 x00 x80 x3f x00 x00 x80 x3f)
(T (W x1c x01 x00 x00 x04 x00 x00 x00)
(T (W x00 x00 x00 x00 x00 x00 x00 x00)
(L (W x00 x00 x80 xbf x00 x00 x80 xbf)) E)
(L (W x00 x00 x80 xbf x00 x00 x80 xbf)))
(T (W xff xff xff xff xff xff xff xff)
(L (W x00 x00 x80 x3f x00 x00 x80 x3f))
(L (W x00 x00 x00 x00 x00 x00 x00 x00))))
(T (W x00 x00 x00 x00 x00 x00 x00 x00)
(T (W xff xff xff xff xff xff xff xff)
(T (W xff xff xff xff xff xff xff xff)
(L (W xff xff xff xff xff xff xff xff)) E)
(L (W x00 x00 x80 xbf x00 x00 x80 xbf)))
(T (W xff xff xff xff xff xff xff xff)
(L (W xff xff xff xff xff xff xff xff))
(L (W xff xff xff xff xff xff xff xff)))))
(T (W x21 x00 x00 x00 x9c x00 x00 x00)
(T (W x00 x00 x80 x3f x00 x00 x80 x3f)
(T (W x00 x00 x00 x00 x00 x00 x00 x00)
(T (W xb8 x00 x00 x00 xac x00 x00 x00)
(L (W x18 x00 x00 x00 x10 x00 x00 x00)) E)
(L (W x00 x00 x00 x00 x00 x00 x00 x00)))
(T (W x00 x00 x80 x3f x00 x00 x80 x3f)
(L (W x00 x00 x00 x00 x00 x00 x00 x00))
(L (W x2c x35 xff xff x1f x00 x00 x00))))
(T (W x00 x00 x00 x00 x00 x00 x00 x00)
(T (W x9c xf1 xfc xff x00 x01 x01 x01)
(T (W x64 x00 x00 x00 x91 x00 x00 x00)
(L (W x00 x00 x00 x00 x02 x00 x00 x00)) E)
(L (W x1f x00 x00 x00 x22 x00 x00 x00)))
(T (W x9c x71 xfd xff x00 x01 x01 x01)
(L (W xff xff xff xff xb0 x00 x00 x00))
(L (W x2c x00 x00 x00 x10 x00 x00 x00))))))
(T (W x01 x00 x00 x00 x9c x00 x00 x00)
(T (W x00 x00 x00 x00 x0c xe0 xfb xff)
(T (W x45 x26 x22 x84 xe4 x9c xf2 xcb)
(T (W xff xff xff xff xff xff xff xff)
(T (W xff xff xff xff xff xff xff xff)
(L (W x00 x00 x00 x00 x00 x00 x00 x00)) E)
(L (W x29 x00 x00 x00 x2c x00 x00 x00)))
(T (W x5b xe9 xcd xba xd1 x4f x2f x74)
(L (W x00 x00 x00 x00 x01 x00 x00 x00))
(L (W x00 x00 x00 x00 x00 x00 x00 x00))))
(T (W x00 x00 x00 x00 x00 x00 x00 x00)
(T (W x4f x84 x6f x8b xe8 xcb x63 xb7)
(T (W xff xff xff xff xff xff xff xff)
(L (W xb8 x00 x00 x00 x1e x00 x00 x00)) E)
(L (W x68 x00 x00 x00 x5c x00 x00 x00)))
(T (W x00 x00 x00 x00 x00 x00 x00 x00)
(L (W x45 x26 x22 x84 xe4 x9c xf2 xcb))
(L (W x00 x00 x00 x00 x00 x00 x00 x00)))))
(T (W x68 x00 x00 x00 x5c x00 x00 x00)
(T (W x45 x26 x22 x84 xe4 x9c xf2 xcb)
(T (W x54 x00 x00 x00 x48 x00 x00 x00)
(T (W x50 x00 x00 x00 x44 x00 x00 x00)
(L (W xff xff xff xff xff xff xff xff)) E)
(L (W x00 x00 x00 x00 x00 x00 x00 x00)))
(T (W x68 x00 x00 x00 x5c x00 x00 x00)
(L (W xff xff xff xff xff xff xff xff))
(L (W xff xff xff xff xff xff xff xff))))
(T (W x18 x00 x00 x00 x10 x00 x00 x00)
(T (W xff xff xff xff xb0 x00 x00 x00)
(T (W x00 x00 x00 x00 x00 x00 x00 x00)
(L (W xd2 xfc xff xff x74 x00 x00 x00)) E)
(L (W xff xff xff xff xff xff xff xff)))
(T (W xff xff xff xff xff xff xff xff)
(L (W x1c x00 x00 x00 x10 x00 x00 x00))
(L (W x00 x00 x80 xbf x00 x00 x80 xbf))))))))
(T (W x00 x00 x80 x3f x00 x00 x80 x3f)
(T (W x84 xb1 xfb xff x3c x00 x00 x00)
(T (W xff xff xff xff xff xff xff xff)
(T (W x00 x00 x00 x00 x00 x00 x00 x00)
(T (W xd2 x26 xfe xff x00 x00 x01 x01)
(T (W x00 x00 x80 x3f x00 x00 x80 x3f)
(T (W x18 x00 x00 x00 x10 x00 x00 x00)
(L (W xff xff xff xff xff xff xff xff)) E)
(L (W xc6 x00 x00 x00 xff xff xff xff)))
(T (W x00 x00 x80 x3f x00 x00 x80 x3f)
(L (W xff xff xff xff xff xff xff xff))
(L (W x00 x00 x80 xbf x00 x00 x80 xbf))))
(T (W xff xff xff xff xff xff xff xff)
(T (W x45 x26 x22 x84 xe4 x9c xf2 xcb)
(T (W x00 x00 x00 x00 x00 x00 x00 x00)
(L (W x38 x00 x00 x00 x00 x00 x80 xbf)) E)
(L (W xff xff xff xff xff xff xff xff)))
(T (W x45 x26 x22 x84 xe4 x9c xf2 xcb)
(L (W x00 x00 x00 x00 x00 x00 x00 x00))
(L (W x00 x00 x80 xbf x00 x00 x80 xbf)))))
(T (W x00 x00 x00 x00 x00 x00 x00 x00)
(T (W xd2 x46 xfe xff x00 x00 x01 x01)
(T (W x00 x00 x80 x3f x00 x00 x80 x3f)
(T (W x00 x00 x00 x00 x00 x00 x00 x00)
(L (W x00 x00 x62 x00 x78 x00 x08 x00)) E)
(L (W x03 x00 x00 x00 xd8 x00 x00 x00)))
(T (W xff xff xff xff xff xff xff xff)
(L (W x00 x00 x80 xbf x00 x00 x80 xbf))
(L (W x45 x26 x22 x84 xe4 x9c xf2 xcb))))
(T (W x01 x00 x00 x00 xa0 x00 x00 x00)
(T (W x00 x00 x00 x00 x00 x00 x00 x00)
(T (W x00 x00 x00 x00 x00 x00 x00 x00)
(L (W x00 x00 x00 x00 x00 x00 x00 x00)) E)
(L (W x45 x26 x22 x84 xe4 x9c xf2 xcb)))
(T (W x00 x00 x00 x00 x00 x00 x00 x00)
(L (W x00 x00 x00 x00 x00 x00 x00 x00))
(L (W x00 x00 x80 xbf x00 x00 x80 xbf))))))
(T (W x00 x00 x00 x00 x00 x00 x00 x00)
(T (W x00 x00 x00 x00 x00 x00 x00 x00)
(T (W x20 x01 x00 x00 x04 x00 x00 x00)
(T (W x50 x00 x00 x00 x44 x00 x00 x00)
(T (W x00 x00 x80 x3f x00 x00 x80 x3f)
(L (W xff xff xff xff xff xff xff xff)) E)
(L (W x00 x00 x00 x00 xc2 xaf xfe xff)))
(T (W x00 x00 x80 x3f x00 x00 x80 x3f)
(L (W x00 x00 x00 x00 x00 x00 x00 x00))
(L (W xff xff xff xff xff xff xff xff))))
(T (W xff xff xff xff xff xff xff xff)
(T (W xff xff xff xff x9c x00 x00 x00)
(T (W x00 x00 x80 x3f x00 x00 x80 x3f)
(L (W x00 x00 x00 x00 x00 x00 x00 x00)) E)
(L (W x2c x01 x00 x00 x04 x00 x00 x00)))
(T (W x00 x00 x80 x3f x00 x00 x80 x3f)
(L (W x00 x00 x00 x00 x00 x00 x00 x00))
(L (W xd2 x58 xff xff x74 x00 x00 x00)))))
(T (W x01 x00 x00 x00 x04 x00 x00 x00)
(T (W xff xff xff xff xff xff xff xff)
(T (W x00 x00 x80 x3f x00 x00 x80 x3f)
(T (W xff xff xff xff xff xff xff xff)
(L (W x00 x00 x80 xbf x00 x00 x80 xbf)) E)
(L (W xff xff xff xff xff xff xff xff)))
(T (W x04 x00 x00 x00 x7c x03 x00 x00)
(L (W x00 x00 x00 x00 x00 x00 x00 x00))
(L (W x3c x00 x00 x00 x00 x00 x80 xbf))))
(T (W x00 x00 x80 x3f x00 x00 x80 x3f)
(T (W x46 x53 x59 x53 x5f x4e x53 x5f)
(T (W xff xff xff xff xff xff xff xff)
(L (W x4f x84 x6f x8b xe8 xcb x63 xb7)) E)
(L (W x00 x00 x80 xbf x00 x00 x80 xbf)))
(T (W x00 x00 x80 x3f x00 x00 x80 x3f)
(L (W x45 x44 x00 x00 x00 x00 x00 x00))
(L (W xff xff xff xff xff xff xff xff)))))))
(T (W x00 x00 x00 x00 x00 x00 x00 x00)
(T (W x00 x00 x00 x00 x00 x00 x00 x00)
(T (W x00 x00 x00 x00 x00 x00 x00 x00)
(T (W x00 x00 x00 x00 x00 x00 x00 x00)
(T (W x00 x00 x80 x3f x00 x00 x80 x3f)
(T (W x45 x26 x22 x84 xe4 x9c xf2 xcb)
(L (W xff xff xff xff xff xff xff xff)) E)
(L (W x4a xa9 xfe xff xa9 x01 x00 x00)))
(T (W x00 x00 x80 x3f x00 x00 x80 x3f)
(L (W x00 x00 x10 x00 x14 x00 x18 x00))
(L (W xb8 x00 x00 x00 x64 x00 x00 x00))))
(T (W xff xff xff xff xff xff xff xff)
(T (W x6c x00 x00 x00 x60 x00 x00 x00)
(T (W x00 x00 x00 x00 x00 x00 x00 x00)
(L (W x00 x00 x00 x00 x00 x00 x00 x00)) E)
(L (W xff xff xff xff xff xff xff xff)))
(T (W x00 x00 x80 x3f x00 x00 x80 x3f)
(L (W x00 x00 x00 x00 x00 x00 x00 x00))
(L (W x00 x00 x80 xbf x00 x00 x80 xbf)))))
(T (W x84 x09 xfc xff x21 x00 x00 x00)
(T (W xff xff xff xff xff xff xff xff)
(T (W x00 x00 x80 x3f x00 x00 x80 x3f)
(T (W x00 x00 x00 x00 x00 x00 x00 x00)
(L (W x00 x00 x00 x00 x00 x00 x00 x00)) E)
(L (W x45 x26 x22 x84 xe4 x9c xf2 xcb)))
(T (W xff xff xff xff xff xff xff xff)
(L (W x00 x00 x00 x00 x00 x00 x00 x00))
(L (W x00 x00 x80 xbf x00 x00 x80 xbf))))
(T (W xd2 x70 xfc xff x74 x00 x00 x00)
(T (W x18 x00 x00 x00 x10 x00 x00 x00)
(T (W x41 x57 x4e x5f x50 x48 x49 x4f)
(L (W x7c x00 x04 x00 x70 x00 x08 x00)) E)
(L (W x49 xa1 x68 x4a xeb x5f xdd x3d)))
(T (W x00 x00 x00 x00 x00 x00 x00 x00)
(L (W x2c x79 xfe xff x0a x00 x00 x00))
(L (W x45 x26 x22 x84 xe4 x9c xf2 xcb))))))
(T (W x00 x00 x00 x00 x00 x00 x00 x00)
(T (W x00 x00 x00 x00 x00 x00 x00 x00)
(T (W xff xff xff xff xff xff xff xff)
(T (W xff xff xff xff x03 x00 x00 x00)
(T (W x00 x00 x80 x3f x00 x00 x80 x3f)
(L (W xff xff xff xff xff xff xff xff)) E)
(L (W xb8 x00 x00 x00 x3c x00 x00 x00)))
(T (W x00 x00 x00 x00 x0c x24 xfd xff)
(L (W x23 x00 x00 x00 x10 x00 x00 x00))
(L (W x45 x26 x22 x84 xe4 x9c xf2 xcb))))
(T (W x18 x00 x00 x00 x10 x00 x00 x00)
(T (W xff xff xff xff xff xff xff xff)
(T (W x3a x00 x00 x00 xff xff xff xff)
(L (W x00 x00 x00 x00 xa0 xe5 xff xff)) E)
(L (W x00 x00 x00 x00 x00 x00 x00 x00)))
(T (W xff xff xff xff xff xff xff xff)
(L (W x00 x00 x00 x00 x00 x00 x00 x00))
(L (W x18 x00 x00 x00 x10 x00 x00 x00)))))
(T (W xff xff xff xff xff xff xff xff)
(T (W xb8 x00 x00 x00 xac x00 x00 x00)
(T (W x00 x00 x00 x00 x00 x00 x00 x00)
(T (W xd2 xde xff xff x00 x00 x01 x01)
(L (W x00 x00 x00 x00 x00 x00 x00 x00)) E)
(L (W xff xff xff xff xc0 x00 x00 x00)))
(T (W x5f x4e x53 x5f x30 x33 x5f x43)
(L (W x00 x00 x00 x00 x00 x00 x00 x00))
(L (W x45 x26 x22 x84 xe4 x9c xf2 xcb))))
(T (W x00 x00 x80 x3f x00 x00 x80 x3f)
(T (W x45 x26 x22 x84 xe4 x9c xf2 xcb)
(L (W x61 x64 x65 x72 x5f x77 x69 x6c))
(L (W x00 x00 x80 xbf x00 x00 x80 xbf)))
(T (W x00 x00 x80 x3f x00 x00 x80 x3f)
(L (W x00 x00 x00 x00 x02 x00 x00 x00))
(L (W xff xff xff xff xff xff xff xff)))))))))))
(T (W xb0 xad x02 x00 x7c xac x02 x00)
(T (W x00 x15 x02 x00 xb4 x12 x02 x00)
(T (W xa0 xa4 x00 x00 x54 xa2 x00 x00)
(T (W x52 x8a xfb xff x74 x00 x00 x00)
(T (W x00 x00 x00 x00 x00 x00 x00 x00)
(T (W x00 x00 x00 x00 x00 x00 x00 x00)
(T (W xff xff xff xff xff xff xff xff)
(T (W x18 x00 x00 x00 x0c x00 x00 x00)
(T (W x00 x00 x00 x00 x00 x00 x00 x00)
(T (W x6f x6b x65 x5f x63 x6f x77 x61)
(L (W x1c x87 xff xff x00 x01 x01 x01)) E)
(L (W xb0 x00 x00 x00 x64 x00 x00 x00)))
(T (W xff xff xff xff xff xff xff xff)
(L (W x64 x5f x70 x6f x6b x65 x5f x77))
(L (W x00 x00 x00 x00 x00 x00 x00 x00))))
(T (W x00 x00 x80 x3f x00 x00 x80 x3f)
(T (W xff xff xff xff xff xff xff xff)
(T (W x52 xc2 xfd xff x74 x00 x00 x00)
(L (W x00 x00 x00 x00 x00 x00 x00 x00)) E)
(L (W x00 x00 x80 xbf x00 x00 x80 xbf)))
(T (W xff xff xff xff xff xff xff xff)
(L (W xff xff xff xff xff xff xff xff))
(L (W x45 x44 x00 x00 x00 x00 x00 x00)))))
(T (W x8e x01 x00 x00 xff xff xff xff)
(T (W x01 x00 x00 x00 x3e x00 x00 x00)
(T (W xff xff xff xff xff xff xff xff)
(T (W xac xaa xfd xff x0b x00 x00 x00)
(L (W x00 x00 x80 xbf x00 x00 x80 xbf)) E)
(L (W x00 x00 x80 xbf x00 x00 x80 xbf)))
(T (W x00 x00 x80 x3f x00 x00 x80 x3f)
(L (W xff xff xff xff xff xff xff xff))
(L (W x00 x00 x00 x00 x00 x00 x00 x00))))
(T (W x00 x00 x80 x3f x00 x00 x80 x3f)
(T (W x52 xe2 xfc xff x74 x00 x00 x00)
(T (W x00 x00 x00 x00 x00 x00 x5c x00)
(L (W x68 x00 x00 x00 x5c x00 x00 x00)) E)
(L (W xff xff xff xff xff xff xff xff)))
(T (W x6c x00 x00 x00 x60 x00 x00 x00)
(L (W xff xff xff xff xff xff xff xff))
(L (W x00 x00 x80 xbf x00 x00 x80 xbf))))))
(T (W xa2 xfb xfe xff xc4 x01 x00 x00)
(T (W xff xff xff xff xff xff xff xff)
(T (W x45 x26 x22 x84 xe4 x9c xf2 xcb)
(T (W x00 x00 x00 x00 x00 x00 x00 x00)
(T (W x00 x00 x00 x00 x00 x00 x00 x00)
(L (W x54 x00 x00 x00 x48 x00 x00 x00)) E)
(L (W x18 x00 x00 x00 x1b x00 x00 x00)))
(T (W x00 x00 x00 x00 x12 x00 x00 x00)
(L (W x00 x00 x00 x00 x42 x29 xfe xff))
(L (W x00 x00 x80 xbf x00 x00 x80 xbf))))
(T (W x00 x00 x80 x3f x00 x00 x80 x3f)
(T (W x00 x00 x00 x00 x00 x00 x00 x00)
(T (W xff xff xff xff xff xff xff xff)
(L (W x00 x00 x00 x00 x06 x00 x00 x00)) E)
(L (W x1f x00 x00 x00 x22 x00 x00 x00)))
(T (W x00 x00 x00 x00 x00 x00 x00 x00)
(L (W xff xff xff xff xff xff xff xff))
(L (W x46 x53 x59 x53 x5f x4e x53 x5f)))))
(T (W xff xff xff xff xff xff xff xff)
(T (W x45 x26 x22 x84 xe4 x9c xf2 xcb)
(T (W x00 x00 x00 x00 x00 x00 x00 x00)
(T (W xff xff xff xff xff xff xff xff)
(L (W xff xff xff xff xff xff xff xff)) E)
(L (W x00 x00 x80 xbf x00 x00 x80 xbf)))
(T (W x1c x37 xfd xff x00 x01 x01 x01)
(L (W x9e x01 x00 x00 xff xff xff xff))
(L (W x00 x00 x00 x00 x00 x00 x00 x00))))
(T (W x45 x26 x22 x84 xe4 x9c xf2 xcb)
(T (W xff xff xff xff xff xff xff xff)
(T (W x68 x00 x00 x00 x5c x00 x00 x00)
(L (W xa6 x01 x00 x00 xff xff xff xff)) E)
(L (W xff xff xff xff xff xff xff xff)))
(T (W xff xff xff xff xff xff xff xff)
(L (W xff xff xff xff xff xff xff xff))
(L (W x00 x00 x80 xbf x00 x00 x80 xbf)))))))
(T (W xac xa2 xfb xff x3e x00 x00 x00)
(T (W xff xff xff xff xff xff xff xff)
(T (W xff xff xff xff xff xff xff xff)
(T (W x52 x0a xfc xff x74 x00 x00 x00)
(T (W x04 xa3 xfc xff x3e x00 x00 x00)
(T (W x00 x00 x80 x3f x00 x00 x80 x3f)
(L (W x45 x26 x22 x84 xe4 x9c xf2 xcb)) E)
(L (W xff xff xff xff xb0 x00 x00 x00)))
(T (W x00 x00 x00 x00 x00 x00 x00 x00)
(L (W xc4 x00 x00 x00 x01 x00 x00 x00))
(L (W x00 x00 x00 x00 x00 x00 x00 x00))))
(T (W x00 x00 x80 x3f x00 x00 x80 x3f)
(T (W x45 x44 x00 x00 x00 x00 x00 x00)
(T (W xff xff xff xff xff xff xff xff)
(L (W x30 x33 x5f x43 x4c x45 x41 x52)) E)
(L (W x00 x00 x80 xbf x00 x00 x80 xbf)))
(T (W xff xff xff xff x02 x00 x00 x00)
(L (W xca x62 xfe xff xaa x01 x00 x00))
(L (W x00 x00 x00 x00 x00 x00 x00 x00)))))
(T (W xff xff xff xff xff xff xff xff)
(T (W x00 x00 x00 x00 x8c x2d xfc xff)
(T (W x00 x00 x00 x00 x00 x00 x00 x00)
(T (W xff xff xff xff xff xff xff xff)
(L (W x00 x00 x00 x00 xda xc8 xff xff)) E)
(L (W x00 x00 x80 xbf x00 x00 x80 xbf)))
(T (W x00 x00 x80 x3f x00 x00 x80 x3f)
(L (W x00 x00 x00 x00 x00 x00 x00 x00))
(L (W x45 x26 x22 x84 xe4 x9c xf2 xcb))))
(T (W x45 x26 x22 x84 xe4 x9c xf2 xcb)
(T (W xff xff xff xff xb0 x00 x00 x00)
(T (W x00 x00 x00 x00 x00 x00 x00 x00)
(L (W x00 x00 x00 x00 x00 x00 x00 x00)) E)
(L (W xff xff xff xff xff xff xff xff)))
(T (W xff xff xff xff xff xff xff xff)
(L (W xff xff xff xff xff xff xff xff))
(L (W x00 x00 x00 x00 x00 x00 x00 x00))))))
(T (W x1a x05 xff xff x00 x00 x01 x01)
(T (W xff xff xff xff xff xff xff xff)
(T (W x18 x00 x00 x00 x10 x00 x00 x00)
(T (W x00 x00 x00 x00 x00 x00 x00 x00)
(T (W x00 x00 x00 x00 x00 x00 x00 x00)
(L (W x88 x9d xff xff xb2 xa0 xff xff)) E)
(L (W x45 x26 x22 x84 xe4 x9c xf2 xcb)))
(T (W x00 x00 x00 x00 x00 x00 x00 x00)
(L (W x29 x00 x00 x00 x10 x00 x00 x00))
(L (W x00 x00 x80 xbf x00 x00 x80 xbf))))
(T (W x00 x00 x80 x3f x00 x00 x80 x3f)
(T (W x00 x00 x80 x3f x00 x00 x80 x3f)
(T (W x27 x00 x00 x00 x10 x00 x00 x00)
(L (W x00 x00 x00 x00 x00 x00 x00 x00)) E)
(L (W xff xff xff xff x9c x00 x00 x00)))
(T (W x4f x84 x6f x8b xe8 xcb x63 xb7)
(L (W xff xff xff xff xff xff xff xff))
(L (W x00 x00 x00 x00 x00 x00 x00 x00)))))
(T (W xff xff xff xff x04 x00 x00 x00)
(T (W x50 x00 x00 x00 x44 x00 x00 x00)
(T (W x01 x00 x00 x00 x68 x00 x00 x00)
(T (W xff xff xff xff x03 x00 x00 x00)
(L (W x00 x00 x00 x00 x00 x00 x00 x00)) E)
(L (W x00 x00 x80 xbf x00 x00 x80 xbf)))
(T (W xff xff xff xff xff xff xff xff)
(L (W xea x3c xfe xff x9e x01 x00 x00))
(L (W x00 x00 x00 x00 x00 x00 x00 x00))))
(T (W x00 x00 x00 x00 x00 x00 x00 x00)
(T (W xff xff xff xff xff xff xff xff)
(T (W x00 x00 x80 x3f x00 x00 x80 x3f)
(L (W x00 x00 x00 x00 x00 x00 x62 x00)) E)
(L (W x00 x00 x00 x00 x00 x00 x00 x00)))
(T (W x00 x00 x00 x00 xaa x85 xfd xff)
(L (W xff xff xff xff xff xff xff xff))
(L (W x14 x00 x00 x00 x0c x00 x00 x00))))))))
(T (W x77 x61 x72 x6c x69 x6b x65 x5f)
(T (W x02 x00 x00 x00 xff xff xff xff)
(T (W xff xff xff xff xff xff xff xff)
(T (W x00 x00 x80 x3f x00 x00 x80 x3f)
(T (W x00 x00 x00 x00 x00 x00 x00 x00)
(T (W xff xff xff xff xff xff xff xff)
(T (W xff xff xff xff xff xff xff xff)
(L (W x00 x00 x00 x00 x00 x00 x00 x00)) E)
(L (W x46 x53 x59 x53 x5f x4e x53 x5f)))
(T (W x00 x00 x80 x3f x00 x00 x80 x3f)
(L (W xff xff xff xff xff xff xff xff))
(L (W x50 x00 x00 x00 x44 x00 x00 x00))))
(T (W x00 x00 x00 x00 x04 x00 x00 x00)
(T (W x00 x00 x80 x3f x00 x00 x80 x3f)
(T (W x45 x26 x22 x84 xe4 x9c xf2 xcb)
(L (W x50 x00 x00 x00 x44 x00 x00 x00)) E)
(L (W x00 x00 x00 x00 x00 x00 x00 x00)))
(T (W x00 x00 x80 x3f x00 x00 x80 x3f)
(L (W x00 x00 x80 xbf x00 x00 x80 xbf))
(L (W x00 x00 x80 xbf x00 x00 x80 xbf)))))
(T (W x00 x00 x00 x00 x00 x00 x00 x00)
(T (W x40 x00 x00 x00 x0c x00 x00 x00)
(T (W x52 xa6 xfc xff x74 x00 x00 x00)
(T (W x00 x00 x80 x3f x00 x00 x80 x3f)
(L (W x00 x00 x00 x00 x00 x00 x00 x00)) E)
(L (W x03 x00 x00 x00 xd8 x00 x00 x00)))
(T (W x02 x00 x00 x00 xff xff xff xff)
(L (W x68 x00 x00 x00 x5c x00 x00 x00))
(L (W xff xff xff xff xff xff xff xff))))
(T (W xff xff xff xff xff xff xff xff)
(T (W x46 x53 x59 x53 x5f x4e x53 x5f)
(T (W x00 x00 x00 x00 x00 x00 x00 x00)
(L (W xff xff xff xff xff xff xff xff)) E)
(L (W x45 x26 x22 x84 xe4 x9c xf2 xcb)))
(T (W x00 x00 x00 x00 x00 x00 x00 x00)
(L (W x4f x84 x6f x8b xe8 xcb x63 xb7))
(L (W xff xff xff xff xff xff xff xff))))))
(T (W x00 x00 x80 x3f x00 x00 x80 x3f)
(T (W x45 x26 x22 x84 xe4 x9c xf2 xcb)
(T (W x00 x00 x00 x00 x00 x00 x00 x00)
(T (W x18 x00 x00 x00 x0c x00 x00 x00)
(T (W x64 x00 x00 x00 x9c x00 x00 x00)
(L (W x00 x00 x00 x00 x00 x00 x00 x00)) E)
(L (W x45 x44 x00 x00 x00 x00 x00 x00)))
(T (W x1b x00 x00 x00 x1e x00 x00 x00)
(L (W x00 x00 x80 x3f x00 x00 x80 x3f))
(L (W x34 x01 x00 x00 x04 x00 x00 x00))))
(T (W xd3 x01 x00 x00 xff xff xff xff)
(T (W xff xff xff xff xff xff xff xff)
(T (W x18 x00 x00 x00 x0c x00 x00 x00)
(L (W x50 x00 x00 x00 x44 x00 x00 x00)) E)
(L (W x00 x00 x00 x00 x00 x00 x00 x00)))
(T (W xbc x00 x00 x00 x14 x00 x00 x00)
(L (W x00 x00 x80 xbf x00 x00 x80 xbf))
(L (W xff xff xff xff xff xff xff xff)))))
(T (W x45 x26 x22 x84 xe4 x9c xf2 xcb)
(T (W x00 x00 x00 x00 x00 x00 x00 x00)
(T (W x00 x00 x80 x3f x00 x00 x80 x3f)
(T (W x68 x00 x00 x00 x5c x00 x00 x00)
(L (W x00 x00 x80 xbf x00 x00 x80 xbf)) E)
(L (W xff xff xff xff xff xff xff xff)))
(T (W x00 x00 x00 x00 x00 x00 x00 x00)
(L (W x00 x00 x00 x00 x20 x3b xfe xff))
(L (W x54 x00 x00 x00 x48 x00 x00 x00))))
(T (W xff xff xff xff x03 x00 x00 x00)
(T (W x00 x00 x80 x3f x00 x00 x80 x3f)
(T (W x00 x00 x00 x00 x00 x00 x00 x00)
(L (W x24 x00 x28 x00 x2c x00 x30 x00)) E)
(L (W x00 x00 x80 xbf x00 x00 x80 xbf)))
(T (W x00 x00 x80 x3f x00 x00 x80 x3f)
(L (W x00 x00 x80 xbf x00 x00 x80 xbf))
(L (W xff xff xff xff xb0 x00 x00 x00)))))))
(T (W x00 x00 x00 x00 x00 x00 x00 x00)
(T (W x00 x00 x80 x3f x00 x00 x80 x3f)
(T (W x00 x00 x80 x3f x00 x00 x80 x3f)
(T (W x00 x00 x00 x00 x00 x00 x00 x00)
(T (W x45 x26 x22 x84 xe4 x9c xf2 xcb)
(T (W xff xff xff xff xff xff xff xff)
(L (W x6c x01 x00 x00 xff xff xff xff)) E)
(L (W xac x96 xfe xff x0a x00 x00 x00)))
(T (W x45 x26 x22 x84 xe4 x9c xf2 xcb)
(L (W x00 x00 x00 x00 x00 x00 x00 x00))
(L (W xff xff xff xff xff xff xff xff))))
(T (W xff xff xff xff xff xff xff xff)
(T (W xff xff xff xff xb0 x00 x00 x00)
(T (W x00 x00 x80 x3f x00 x00 x80 x3f)
(L (W x00 x00 x80 xbf x00 x00 x80 xbf)) E)
(L (W x45 x44 x00 x00 x00 x00 x00 x00)))
(T (W x68 x00 x00 x00 x5c x00 x00 x00)
(L (W x00 x00 x80 xbf x00 x00 x80 xbf))
(L (W x18 x00 x00 x00 x10 x00 x00 x00)))))
(T (W x45 x26 x22 x84 xe4 x9c xf2 xcb)
(T (W x00 x00 x00 x00 x00 x00 x00 x00)
(T (W x45 x26 x22 x84 xe4 x9c xf2 xcb)
(T (W x00 x00 x80 x3f x00 x00 x80 x3f)
(L (W x4f x84 x6f x8b xe8 xcb x63 xb7)) E)
(L (W xff xff xff xff xff xff xff xff)))
(T (W x00 x00 x00 x00 x00 x00 x00 x00)
(L (W x00 x00 x00 x00 x00 x00 x00 x00))
(L (W xff xff xff xff xff xff xff xff))))
(T (W x64 x00 x00 x00 x9c x00 x00 x00)
(T (W x45 x26 x22 x84 xe4 x9c xf2 xcb)
(T (W xff xff xff xff xff xff xff xff)
(L (W xb0 x00 x00 x00 x64 x00 x00 x00)) E)
(L (W x02 xf0 xfe xff x78 x00 x00 x00)))
(T (W x00 x00 x00 x00 x00 x00 x00 x00)
(L (W x00 x00 x80 xbf x00 x00 x80 xbf))
(L (W xff xff xff xff xff xff xff xff))))))
(T (W x00 x00 x00 x00 x00 x00 x00 x00)
(T (W x45 x26 x22 x84 xe4 x9c xf2 xcb)
(T (W x3e x00 x00 x00 x10 x00 x00 x00)
(T (W x1c xa3 xfc xff x00 x01 x01 x01)
(T (W x01 x00 x00 x00 x9c x00 x00 x00)
(L (W x30 x33 x5f x43 x4c x45 x41 x52)) E)
(L (W xb8 x00 x00 x00 x64 x00 x00 x00)))
(T (W xff xff xff xff xbc x00 x00 x00)
(L (W x00 x00 x00 x00 x00 x00 x00 x00))
(L (W xff xff xff xff xff xff xff xff))))
(T (W xff xff xff xff xff xff xff xff)
(T (W x00 x00 x00 x00 x02 x00 x00 x00)
(T (W x00 x00 x80 x3f x00 x00 x80 x3f)
(L (W x00 x00 x80 xbf x00 x00 x80 xbf)) E)
(L (W x4f x84 x6f x8b xe8 xcb x63 xb7)))
(T (W xff xff xff xff xff xff xff xff)
(L (W x00 x00 x00 x00 x00 x00 x00 x00))
(L (W xff xff xff xff xff xff xff xff)))))
(T (W x00 x00 x80 x3f x00 x00 x80 x3f)
(T (W x00 x00 x00 x00 x00 x00 x00 x00)
(T (W x49 xa1 x68 x4a xeb x5f xdd x3d)
(T (W x00 x00 x00 x00 x00 x00 x00 x00)
(L (W x00 x00 x80 xbf x00 x00 x80 xbf)) E)
(L (W x00 x00 x00 x00 x42 xd5 xfe xff)))
(T (W x00 x00 x80 x3f x00 x00 x80 x3f)
(L (W x50 x00 x00 x00 x44 x00 x00 x00))
(L (W x00 x00 x00 x00 x8c x41 xff xff))))
(T (W xff xff xff xff xff xff xff xff)
(T (W x00 x00 x80 x3f x00 x00 x80 x3f)
(T (W xff xff xff xff xff xff xff xff)
(L (W x5c x00 x48 x00 x50 x00 x04 x00)) E)
(L (W x18 x00 x00 x00 x0c x00 x00 x00)))
(T (W x18 x00 x00 x00 x0c x00 x00 x00)
(L (W x00 x00 x00 x00 x00 x00 x00 x00))
(L (W x00 x00 x00 x00 x32 x7f xff xff)))))))))
(T (W x45 x26 x22 x84 xe4 x9c xf2 xcb)
(T (W xff xff xff xff xff xff xff xff)
(T (W x54 x00 x00 x00 x48 x00 x00 x00)
(T (W x18 x00 x00 x00 x0c x00 x00 x00)
(T (W x00 x00 x00 x00 x00 x00 x00 x00)
(T (W x1c x01 x00 x00 x04 x00 x00 x00)
(T (W x00 x00 x80 x3f x00 x00 x80 x3f)
(T (W x00 x00 x80 x3f x00 x00 x80 x3f)
(L (W xff xff xff xff xff xff xff xff)) E)
(L (W x00 x00 x00 x00 x00 x00 x00 x00)))
(T (W x00 x00 x00 x00 x00 x00 x00 x00)
(L (W x6c x00 x00 x00 x60 x00 x00 x00))
(L (W x45 x26 x22 x84 xe4 x9c xf2 xcb))))
(T (W xff xff xff xff xff xff xff xff)
(T (W x00 x00 x00 x00 x00 x00 x00 x00)
(T (W xff xff xff xff xff xff xff xff)
(L (W x00 x00 x80 xbf x00 x00 x80 xbf)) E)
(L (W xff xff xff xff xff xff xff xff)))
(T (W x00 x00 x00 x00 x00 x00 x00 x00)
(L (W x00 x00 x00 x00 x00 x00 x00 x00))
(L (W x00 x00 x80 xbf x00 x00 x80 xbf)))))
(T (W x00 x00 x00 x00 x00 x00 x00 x00)
(T (W xff xff xff xff xff xff xff xff)
(T (W x00 x00 x80 x3f x00 x00 x80 x3f)
(T (W x00 x00 x00 x00 x00 x00 x00 x00)
(L (W xff xff xff xff xff xff xff xff)) E)
(L (W x6c x00 x00 x00 x60 x00 x00 x00)))
(T (W x45 x26 x22 x84 xe4 x9c xf2 xcb)
(L (W x00 x00 x00 x00 x00 x00 x00 x00))
(L (W x68 x00 x00 x00 x5c x00 x00 x00))))
(T (W x52 x64 xfc xff x74 x00 x00 x00)
(T (W xff xff xff xff xff xff xff xff)
(T (W x50 x00 x00 x00 x44 x00 x00 x00)
(L (W xb8 x00 x00 x00 x0a x00 x00 x00)) E)
(L (W x00 x00 x00 x00 x00 x00 x00 x00)))
(T (W xff xff xff xff xbc x00 x00 x00)
(L (W x46 x53 x59 x53 x5f x4e x53 x5f))
(L (W x54 x00 x00 x00 x48 x00 x00 x00))))))
(T (W x00 x00 x00 x00 x00 x00 x00 x00)
(T (W x04 x00 x00 x00 x62 xf5 xfd xff)
(T (W xff xff xff xff xff xff xff xff)
(T (W x45 x26 x22 x84 xe4 x9c xf2 xcb)
(T (W x00 x00 x80 x3f x00 x00 x80 x3f)
(L (W xff xff xff xff xff xff xff xff)) E)
(L (W xff xff xff xff xff xff xff xff)))
(T (W x00 x00 x80 x3f x00 x00 x80 x3f)
(L (W x00 x00 x00 x00 x00 x00 x00 x00))
(L (W x02 x16 xff xff x78 x00 x00 x00))))
(T (W x1c x59 xfc xff x00 x01 x01 x01)
(T (W x50 x00 x00 x00 x44 x00 x00 x00)
(T (W x00 x00 x00 x00 x00 x00 x00 x00)
(L (W x45 x26 x22 x84 xe4 x9c xf2 xcb)) E)
(L (W xff xff xff xff xff xff xff xff)))
(T (W x00 x00 x80 x3f x00 x00 x80 x3f)
(L (W x00 x00 x00 x00 x00 x00 x00 x00))
(L (W x00 x00 x80 xbf x00 x00 x80 xbf)))))
(T (W x23 x00 x00 x00 x10 x00 x00 x00)
(T (W xff xff xff xff xff xff xff xff)
(T (W x64 x00 x00 x00 x9c x00 x00 x00)
(T (W xac xbc xfd xff x24 x00 x00 x00)
(L (W x00 x00 x00 x00 x00 x00 x00 x00)) E)
(L (W x18 x00 x00 x00 x0c x00 x00 x00)))
(T (W xff xff xff xff xff xff xff xff)
(L (W x00 x00 x00 x00 x00 x00 x00 x00))
(L (W x00 x00 x80 xbf x00 x00 x80 xbf))))
(T (W x45 x26 x22 x84 xe4 x9c xf2 xcb)
(T (W x00 x00 x00 x00 x00 x00 x00 x00)
(T (W x00 x00 x80 x3f x00 x00 x80 x3f)
(L (W x00 x00 x00 x00 x00 x00 x00 x00)) E)
(L (W x00 x00 x00 x00 x00 x00 x00 x00)))
(T (W x00 x00 x00 x00 x00 x00 x00 x00)
(L (W x46 x53 x59 x53 x5f x4e x53 x5f))
(L (W x54 x00 x00 x00 x48 x00 x00 x00)))))))
(T (W x52 x9c xfb xff x74 x00 x00 x00)
(T (W x6b x65 x5f x63 x6f x77 x61 x72)
(T (W x25 x00 x00 x00 x0c x00 x00 x00)
(T (W xff xff xff xff xff xff xff xff)
(T (W x00 x00 x80 x3f x00 x00 x80 x3f)
(T (W x45 x26 x22 x84 xe4 x9c xf2 xcb)
(L (W xff xff xff xff xff xff xff xff)) E)
(L (W xff xff xff xff xff xff xff xff)))
(T (W x00 x00 x00 x00 x00 x00 x00 x00)
(L (W xff xff xff xff xff xff xff xff))
(L (W x00 x00 x80 xbf x00 x00 x80 xbf))))
(T (W x64 x00 x00 x00 x9c x00 x00 x00)
(T (W x00 x00 x80 x3f x00 x00 x80 x3f)
(T (W x70 x5f x77 x69 x6c x64 x5f x70)
(L (W x4f x84 x6f x8b xe8 xcb x63 xb7)) E)
(L (W xff xff xff xff xff xff xff xff)))
(T (W x49 xa1 x68 x4a xeb x5f xdd x3d)
(L (W x00 x00 x00 x00 x00 x00 x00 x00))
(L (W x00 x00 x00 x00 x00 x00 x00 x00)))))
(T (W x00 x00 x00 x00 x00 x00 x00 x00)
(T (W xff xff xff xff xff xff xff xff)
(T (W x50 x00 x00 x00 x44 x00 x00 x00)
(T (W x00 x00 x00 x00 x00 x00 x00 x00)
(L (W x30 x33 x5f x43 x4c x45 x41 x52)) E)
(L (W x45 x26 x22 x84 xe4 x9c xf2 xcb)))
(T (W xff xff xff xff xff xff xff xff)
(L (W x2c xfd xff xff x01 x01 x01 x01))
(L (W x00 x00 x80 xbf x00 x00 x80 xbf))))
(T (W x00 x00 x00 x00 x8c x6f xfc xff)
(T (W x34 x01 x00 x00 x04 x00 x00 x00)
(T (W x6d x30 x34 x38 x39 x00 x00 x00)
(L (W x00 x00 x80 xbf x00 x00 x80 xbf)) E)
(L (W x5f x4e x53 x5f x30 x33 x5f x43)))
(T (W x00 x00 x00 x00 x00 x00 x00 x00)
(L (W x00 x00 x00 x00 x00 x00 x00 x00))
(L (W x00 x00 x80 xbf x00 x00 x80 xbf))))))
(T (W x00 x00 x00 x00 x00 x00 x00 x00)
(T (W x00 x00 x00 x00 x00 x00 x00 x00)
(T (W xff xff xff xff xff xff xff xff)
(T (W x00 x00 x00 x00 x00 x00 x00 x00)
(T (W x00 x00 x80 x3f x00 x00 x80 x3f)
(L (W xb0 x00 x00 x00 x64 x00 x00 x00)) E)
(L (W x50 x00 x00 x00 x54 x00 x58 x00)))
(T (W x00 x00 x80 x3f x00 x00 x80 x3f)
(L (W x00 x00 x80 xbf x00 x00 x80 xbf))
(L (W xff xff xff xff x94 x00 x00 x00))))
(T (W x50 x00 x00 x00 x44 x00 x00 x00)
(T (W x03 x00 x00 x00 xd0 x00 x00 x00)
(T (W x00 x00 x00 x00 x00 x00 x00 x00)
(L (W x00 x00 x00 x00 x12 x00 x00 x00)) E)
(L (W x00 x00 x00 x00 x32 xdd xfe xff)))
(T (W x50 x00 x00 x00 x44 x00 x00 x00)
(L (W x00 x00 x00 x00 x00 x00 x00 x00))
(L (W x45 x26 x22 x84 xe4 x9c xf2 xcb)))))
(T (W x00 x00 x00 x00 xba x48 xff xff)
(T (W xff xff xff xff xff xff xff xff)
(T (W x00 x00 x00 x01 x8e x01 x00 x00)
(T (W xdf x00 x00 x00 xff xff xff xff)
(L (W x00 x00 x00 x00 x00 x00 x00 x00)) E)
(L (W x00 x00 x00 x00 x8c xbf xfe xff)))
(T (W x22 x46 xfd xff x9c x01 x00 x00)
(L (W x00 x00 x00 x00 x00 x00 x00 x00))
(L (W x00 x00 x80 xbf x00 x00 x80 xbf))))
(T (W x00 x00 x80 x3f x00 x00 x80 x3f)
(T (W x00 x00 x00 x00 x00 x00 x00 x00)
(T (W xff xff xff xff xa0 x00 x00 x00)
(L (W x64 x00 x68 x00 x62 x00 x00 x00)) E)
(L (W x00 x00 x00 x00 x00 x00 x00 x00)))
(T (W x00 x00 x00 x00 x00 x00 x00 x00)
(L (W xfd x70 xca xc9 x03 x93 xa3 xbc))
(L (W xff xff xff xff xff xff xff xff))))))))
(T (W xff xff xff xff xff xff xff xff)
(T (W x00 x00 x00 x00 x00 x00 x00 x00)
(T (W x00 x00 x80 x3f x00 x00 x80 x3f)
(T (W x18 x00 x00 x00 x10 x00 x00 x00)
(T (W x00 x00 x80 x3f x00 x00 x80 x3f)
(T (W xff xff xff xff xff xff xff xff)
(T (W x00 x00 x00 x00 x00 x00 x00 x00)
(L (W x00 x00 x00 x00 x00 x00 x00 x00)) E)
(L (W x00 x00 x80 xbf x00 x00 x80 xbf)))
(T (W xff xff xff xff xff xff xff xff)
(L (W x49 xa1 x68 x4a xeb x5f xdd x3d))
(L (W xff xff xff xff xff xff xff xff))))
(T (W x00 x00 x00 x00 x00 x00 x00 x00)
(T (W xff xff xff xff xff xff xff xff)
(T (W xb8 x00 x00 x00 xac x00 x00 x00)
(L (W xff xff xff xff xff xff xff xff)) E)
(L (W x00 x00 x00 x00 x00 x00 x00 x00)))
(T (W xff xff xff xff xc8 x00 x00 x00)
(L (W xff xff xff xff xa8 x00 x00 x00))
(L (W xff xff xff xff xff xff xff xff)))))
(T (W x52 xe8 xfb xff x74 x00 x00 x00)
(T (W x00 x00 x80 x3f x00 x00 x80 x3f)
(T (W xff xff xff xff xff xff xff xff)
(T (W xb8 x00 x00 x00 xac x00 x00 x00)
(L (W x45 x26 x22 x84 xe4 x9c xf2 xcb)) E)
(L (W x1b x00 x00 x00 x10 x00 x00 x00)))
(T (W x00 x00 x00 x00 x00 x00 x00 x00)
(L (W xff xff xff xff xff xff xff xff))
(L (W x00 x00 x00 x00 x00 x00 x00 x00))))
(T (W xac x70 xfc xff x3e x00 x00 x00)
(T (W x00 x00 x80 x3f x00 x00 x80 x3f)
(T (W xff xff xff xff x9c x00 x00 x00)
(L (W x18 x00 x00 x00 x0c x00 x00 x00)) E)
(L (W xb8 x00 x00 x00 x3c x00 x00 x00)))
(T (W x00 x00 x80 x3f x00 x00 x80 x3f)
(L (W xff xff xff xff xb0 x00 x00 x00))
(L (W xff xff xff xff xff xff xff xff))))))
(T (W xbc x00 x00 x00 xb0 x00 x00 x00)
(T (W x52 xd8 xfb xff x74 x00 x00 x00)
(T (W x00 x00 x80 x3f x00 x00 x80 x3f)
(T (W xff xff xff xff xff xff xff xff)
(T (W x01 x00 x00 x00 xff xff xff xff)
(L (W x45 x26 x22 x84 xe4 x9c xf2 xcb)) E)
(L (W x00 x00 x80 xbf x00 x00 x80 xbf)))
(T (W xff xff xff xff xff xff xff xff)
(L (W xb0 x00 x00 x00 x64 x00 x00 x00))
(L (W x45 x26 x22 x84 xe4 x9c xf2 xcb))))
(T (W x00 x00 x00 x00 x00 x00 x00 x00)
(T (W x46 x53 x59 x53 x5f x4e x53 x5f)
(T (W xff xff xff xff xff xff xff xff)
(L (W xff xff xff xff x9c x00 x00 x00)) E)
(L (W x00 x00 x80 xbf x00 x00 x80 xbf)))
(T (W xff xff xff xff xff xff xff xff)
(L (W x22 x00 x00 x00 x25 x00 x00 x00))
(L (W x00 x00 x00 x00 xaa x63 xff xff)))))
(T (W x00 x00 x80 x3f x00 x00 x80 x3f)
(T (W x00 x00 x00 x00 x00 x00 x00 x00)
(T (W xff xff xff xff xff xff xff xff)
(T (W x5f x77 x69 x6c x64 x5f x70 x6f)
(L (W xff xff xff xff xff xff xff xff)) E)
(L (W x00 x00 x00 x00 x00 x00 x00 x00)))
(T (W x00 x00 x80 x3f x00 x00 x80 x3f)
(L (W xc4 x00 x00 x00 x01 x00 x00 x00))
(L (W xff xff xff xff xff xff xff xff))))
(T (W xff xff xff xff xff xff xff xff)
(T (W x02 xfa xfc xff x78 x00 x00 x00)
(T (W x00 x00 x00 x00 x00 x00 x00 x00)
(L (W x45 x26 x22 x84 xe4 x9c xf2 xcb)) E)
(L (W xff xff xff xff xff xff xff xff)))
(T (W xff xff xff xff xff xff xff xff)
(L (W x5c x00 x00 x00 x50 x00 x00 x00))
(L (W xcc x03 x00 x00 x9c x02 x00 x00)))))))
(T (W xe0 x00 x00 x00 xac x00 x00 x00)
(T (W x64 x00 x00 x00 x9c x00 x00 x00)
(T (W x40 x00 x00 x00 x9c x00 x00 x00)
(T (W x50 x00 x00 x00 x44 x00 x00 x00)
(T (W xff xff xff xff xff xff xff xff)
(T (W x43 x5d x2e x97 x85 x1a x59 x5f)
(L (W x49 xa1 x68 x4a xeb x5f xdd x3d)) E)
(L (W x00 x00 x80 xbf x00 x00 x80 xbf)))
(T (W xff xff xff xff xff xff xff xff)
(L (W x00 x00 x80 x3f x00 x00 x80 x3f))
(L (W x00 x00 x00 x00 x12 x00 x00 x00))))
(T (W x45 x26 x22 x84 xe4 x9c xf2 xcb)
(T (W xea xd2 xfc xff x4b x00 x00 x00)
(T (W xb8 x00 x00 x00 xac x00 x00 x00)
(L (W x29 x00 x00 x00 x2c x00 x00 x00)) E)
(L (W x4f x84 x6f x8b xe8 xcb x63 xb7)))
(T (W xff xff xff xff xff xff xff xff)
(L (W x1d x00 x00 x00 x20 x00 x00 x00))
(L (W xff xff xff xff xff xff xff xff)))))
(T (W x00 x00 x80 x3f x00 x00 x80 x3f)
(T (W x00 x00 x00 x00 x00 x00 x00 x00)
(T (W xff xff xff xff xff xff xff xff)
(T (W x01 x00 x00 x00 x9c x00 x00 x00)
(L (W x18 x00 x00 x00 x0c x00 x00 x00)) E)
(L (W x00 x00 x00 x00 x00 x00 x00 x00)))
(T (W x00 x00 x80 x3f x00 x00 x80 x3f)
(L (W x18 x00 x00 x00 x10 x00 x00 x00))
(L (W xff xff xff xff xff xff xff xff))))
(T (W x01 x00 x00 x00 x04 x00 x00 x00)
(T (W x00 x00 x80 x3f x00 x00 x80 x3f)
(T (W x54 x00 x00 x00 x48 x00 x00 x00)
(L (W x00 x00 x80 xbf x00 x00 x80 xbf)) E)
(L (W xff xff xff xff xff xff xff xff)))
(T (W x18 x00 x00 x00 x10 x00 x00 x00)
(L (W x40 x00 x00 x00 x00 x00 x80 xbf))
(L (W x45 x44 x00 x00 x00 x00 x00 x00))))))
(T (W x45 x26 x22 x84 xe4 x9c xf2 xcb)
(T (W x01 x00 x00 x00 xa0 x00 x00 x00)
(T (W x00 x00 x80 x3f x00 x00 x80 x3f)
(T (W x34 x00 x38 x00 x3c x00 x40 x00)
(T (W xff xff xff xff xff xff xff xff)
(L (W x4f x84 x6f x8b xe8 xcb x63 xb7)) E)
(L (W x00 x00 x00 x00 x12 x00 x00 x00)))
(T (W x00 x00 x00 x00 x00 x00 x00 x00)
(L (W x00 x00 x80 xbf x00 x00 x80 xbf))
(L (W x00 x00 x00 x00 x00 x00 x00 x00))))
(T (W x00 x00 x00 x00 x00 x00 x00 x00)
(T (W x00 x00 x00 x00 x00 x00 x00 x00)
(T (W x00 x00 x00 x00 x00 x00 x00 x00)
(L (W x00 x00 x00 x00 x00 x00 x5c x00)) E)
(L (W xff xff xff xff xb0 x00 x00 x00)))
(T (W x70 x5f x6c x65 x61 x64 x65 x72)
(L (W x1d x00 x00 x00 x20 x00 x00 x00))
(L (W x30 x33 x5f x43 x4c x45 x41 x52)))))
(T (W x00 x00 x80 x3f x00 x00 x80 x3f)
(T (W x00 x00 x00 x00 x00 x00 x00 x00)
(T (W x45 x26 x22 x84 xe4 x9c xf2 xcb)
(T (W x00 x00 x80 x3f x00 x00 x80 x3f)
(L (W x01 x01 x2a x00 x58 x00 x44 x00)) E)
(L (W x00 x00 x00 x00 x00 x00 x00 x00)))
(T (W x52 x40 xfd xff x74 x00 x00 x00)
(L (W x14 x00 x00 x00 x0c x00 x00 x00))
(L (W xff xff xff xff xff xff xff xff))))
(T (W xff xff xff xff xff xff xff xff)
(T (W xb8 x00 x00 x00 x32 x00 x00 x00)
(T (W x00 x00 x80 x3f x00 x00 x80 x3f)
(L (W x00 x00 x80 xbf x00 x00 x80 xbf)) E)
(L (W xff xff xff xff xff xff xff xff)))
(T (W xff xff xff xff xff xff xff xff)
(L (W x00 x00 x80 xbf x00 x00 x80 xbf))
(L (W x4f x84 x6f x8b xe8 xcb x63 xb7))))))))))
(T (W x70 x3a x01 x00 x14 x38 x01 x00)
(T (W x80 x11 x00 x00 xfc x0f x00 x00)
(T (W xff xff xff xff xff xff xff xff)
(T (W x00 x00 x00 x00 x00 x00 x00 x00)
(T (W x00 x00 x80 x3f x00 x00 x80 x3f)
(T (W x52 xe1 xfd xff x00 x00 x01 x01)
(T (W xff xff xff xff xff xff xff xff)
(T (W x45 x26 x22 x84 xe4 x9c xf2 xcb)
(T (W x00 x00 x80 x3f x00 x00 x80 x3f)
(L (W xb0 x00 x00 x00 x64 x00 x00 x00)) E)
(L (W xff xff xff xff xff xff xff xff)))
(T (W x18 x00 x00 x00 x10 x00 x00 x00)
(L (W x00 x00 x00 x00 x00 x00 x00 x00))
(L (W x00 x00 x00 x00 x12 x00 x00 x00))))
(T (W x1c x48 xfc xff x00 x01 x01 x01)
(T (W x00 x00 x00 x00 x00 x00 x00 x00)
(T (W xff xff xff xff xff xff xff xff)
(L (W x4f x84 x6f x8b xe8 xcb x63 xb7)) E)
(L (W x68 x00 x00 x00 x5c x00 x00 x00)))
(T (W x00 x00 x00 x00 x00 x00 x00 x00)
(L (W xac x4b xfe xff x25 x00 x00 x00))
(L (W x00 x00 x00 x00 x00 x00 x00 x00)))))
(T (W x00 x00 x00 x00 x00 x00 x00 x00)
(T (W xff xff xff xff xff xff xff xff)
(T (W x6c x00 x08 x00 x0c x00 x00 x00)
(T (W x00 x00 x00 x00 x00 x00 x00 x00)
(L (W x45 x26 x22 x84 xe4 x9c xf2 xcb)) E)
(L (W x00 x00 x80 xbf x00 x00 x80 xbf)))
(T (W x6c x00 x00 x00 x60 x00 x00 x00)
(L (W x00 x00 x00 x00 x01 x00 x00 x00))
(L (W x00 x00 x80 xbf x00 x00 x80 xbf))))
(T (W x50 x00 x00 x00 x44 x00 x00 x00)
(T (W xff xff xff xff xff xff xff xff)
(T (W x00 x00 x00 x00 x00 x00 x00 x00)
(L (W x1c xe8 xff xff x00 x01 x01 x01)) E)
(L (W x00 x00 x00 x00 x32 xe4 xfe xff)))
(T (W x45 x26 x22 x84 xe4 x9c xf2 xcb)
(L (W xfa x68 xfe xff x8d x01 x00 x00))
(L (W x38 x00 x00 x00 x00 x00 x80 xbf))))))
(T (W x00 x00 x00 x00 x00 x00 x00 x00)
(T (W xff xff xff xff xff xff xff xff)
(T (W x18 x00 x00 x00 x10 x00 x00 x00)
(T (W x00 x00 x00 x00 x00 x00 x00 x00)
(T (W x00 x00 x80 x3f x00 x00 x80 x3f)
(L (W x45 x26 x22 x84 xe4 x9c xf2 xcb)) E)
(L (W xff xff xff xff xff xff xff xff)))
(T (W x45 x26 x22 x84 xe4 x9c xf2 xcb)
(L (W x00 x00 x00 x00 x00 x00 x00 x00))
(L (W x50 x00 x00 x00 x44 x00 x00 x00))))
(T (W x00 x00 x80 x3f x00 x00 x80 x3f)
(T (W x00 x00 x80 x3f x00 x00 x80 x3f)
(T (W xac xdb xfd xff x22 x00 x00 x00)
(L (W x00 x00 x00 x00 x00 x00 x00 x00)) E)
(L (W xff xff xff xff xff xff xff xff)))
(T (W x00 x00 x00 x00 x00 x00 x00 x00)
(L (W x3c x0a x00 x00 x14 x09 x00 x00))
(L (W x00 x00 x00 x00 x00 x00 x00 x00)))))
(T (W xff xff xff xff xff xff xff xff)
(T (W x64 x00 x00 x00 x9c x00 x00 x00)
(T (W x45 x26 x22 x84 xe4 x9c xf2 xcb)
(T (W xff xff xff xff xff xff xff xff)
(L (W x63 x01 x00 x00 xff xff xff xff)) E)
(L (W x00 x00 x00 x00 x8c xb6 xfe xff)))
(T (W xb0 x00 x00 x00 x64 x00 x00 x00)
(L (W x00 x00 x00 x00 x00 x00 x00 x00))
(L (W x45 x26 x22 x84 xe4 x9c xf2 xcb))))
(T (W x00 x00 x80 x3f x00 x00 x80 x3f)
(T (W xff xff xff xff xff xff xff xff)
(T (W x50 x00 x54 x00 x58 x00 x5c x00)
(L (W x4c x45 x41 x52 x45 x44 x00 x00)) E)
(L (W x45 x44 x00 x00 x00 x00 x00 x00)))
(T (W x04 x00 x00 x00 x7c x03 x00 x00)
(L (W xca x8b xfe xff xa9 x01 x00 x00))
(L (W x38 x00 x00 x00 x00 x00 x80 xbf)))))))
(T (W x00 x00 x00 x00 x00 x00 x00 x00)
(T (W xff xff xff xff xff xff xff xff)
(T (W xff xff xff xff xff xff xff xff)
(T (W xff xff xff xff x04 x00 x00 x00)
(T (W x00 x00 x00 x00 x00 x00 x00 x00)
(T (W x00 x00 x80 x3f x00 x00 x80 x3f)
(L (W x18 x00 x00 x00 x0c x00 x00 x00)) E)
(L (W xff xff xff xff xff xff xff xff)))
(T (W x46 x53 x59 x53 x5f x4e x53 x5f)
(L (W xff xff xff xff xff xff xff xff))
(L (W x45 x26 x22 x84 xe4 x9c xf2 xcb))))
(T (W x50 x00 x00 x00 x44 x00 x00 x00)
(T (W x00 x00 x00 x00 x00 x00 x00 x00)
(T (W xe2 xe7 xff xff xf0 x00 x00 x00)
(L (W x00 x00 x00 x00 x00 x00 x00 x00)) E)
(L (W x03 x00 x00 x00 xd8 x00 x00 x00)))
(T (W x00 x00 x00 x00 x00 x00 x00 x00)
(L (W x46 x53 x59 x53 x5f x4e x53 x5f))
(L (W x00 x00 x00 x00 x12 x00 x00 x00)))))
(T (W x48 x03 x00 x00 x34 x02 x00 x00)
(T (W xff xff xff xff xff xff xff xff)
(T (W x00 x00 x00 x00 x00 x00 x00 x00)
(T (W xac xb3 xfd xff x22 x00 x00 x00)
(L (W xea xad xff xff xaf x01 x00 x00)) E)
(L (W x54 x00 x00 x00 x48 x00 x00 x00)))
(T (W xff xff xff xff xac x00 x00 x00)
(L (W x00 x00 x80 xbf x00 x00 x80 xbf))
(L (W x00 x00 x80 xbf x00 x00 x80 xbf))))
(T (W x68 x00 x00 x00 x5c x00 x00 x00)
(T (W xff xff xff xff xff xff xff xff)
(T (W x00 x00 x00 x00 x8c xee xfd xff)
(L (W x4f x84 x6f x8b xe8 xcb x63 xb7)) E)
(L (W x26 x02 x00 x00 x01 x00 x00 x00)))
(T (W xff xff xff xff xff xff xff xff)
(L (W x00 x00 x00 x00 x00 x00 x00 x00))
(L (W x00 x00 x80 xbf x00 x00 x80 xbf))))))
(T (W x00 x00 x00 x00 x00 x00 x00 x00)
(T (W x00 x00 x01 x01 xa6 x01 x00 x00)
(T (W xb8 x00 x00 x00 xac x00 x00 x00)
(T (W x00 x00 x00 x00 x00 x00 x00 x00)
(T (W x00 x00 x00 x00 x00 x00 x00 x00)
(L (W x1c xa0 xff xff x00 x01 x01 x01)) E)
(L (W xff xff xff xff xbc x00 x00 x00)))
(T (W x49 xa1 x68 x4a xeb x5f xdd x3d)
(L (W x00 x00 x00 x00 x00 x00 x00 x00))
(L (W x74 x00 x00 x00 x68 x00 x00 x00))))
(T (W x00 x00 x80 x3f x00 x00 x80 x3f)
(T (W x68 x00 x00 x00 x5c x00 x00 x00)
(T (W x00 x00 x00 x00 x00 x00 x00 x00)
(L (W x00 x00 x00 x00 x00 x00 x00 x00)) E)
(L (W xff xff xff xff xff xff xff xff)))
(T (W x00 x00 x80 x3f x00 x00 x80 x3f)
(L (W x00 x00 x00 x00 x00 x00 x00 x00))
(L (W x00 x00 x80 xbf x00 x00 x80 xbf)))))
(T (W xff xff xff xff xff xff xff xff)
(T (W xbc x00 x00 x00 xb0 x00 x00 x00)
(T (W x00 x00 x80 x3f x00 x00 x80 x3f)
(T (W xff xff xff xff xff xff xff xff)
(L (W x00 x00 x00 x00 x00 x00 x00 x00)) E)
(L (W x00 x00 x80 xbf x00 x00 x80 xbf)))
(T (W xff xff xff xff xff xff xff xff)
(L (W x30 x33 x5f x43 x4c x45 x41 x52))
(L (W x00 x00 x00 x00 x00 x00 x00 x00))))
(T (W x00 x00 x80 x3f x00 x00 x80 x3f)
(T (W x00 x00 x00 x00 x00 x00 x00 x00)
(T (W x02 xfd xfd xff x78 x00 x00 x00)
(L (W x6c x00 x00 x00 x60 x00 x00 x00)) E)
(L (W x00 x00 x00 x00 x00 x00 x00 x00)))
(T (W x5f x4e x53 x5f x30 x33 x5f x43)
(L (W xff xff xff xff xff xff xff xff))
(L (W xff xff xff xff xb0 x00 x00 x00))))))))
(T (W x00 x00 x80 x3f x00 x00 x80 x3f)
(T (W x04 xb0 xfb xff x3e x00 x00 x00)
(T (W x72 x64 x5f x6c x76 x31 x00 x00)
(T (W x1c xcc xfb xff x00 x01 x01 x01)
(T (W x00 x00 x80 x3f x00 x00 x80 x3f)
(T (W xff xff xff xff xff xff xff xff)
(T (W xa7 x71 x2e x97 x85 x26 x59 x5f)
(L (W x46 x53 x59 x53 x5f x4e x53 x5f)) E)
(L (W x00 x00 x00 x00 x00 x00 x00 x00)))
(T (W x52 x07 xfd xff x74 x00 x00 x00)
(L (W x6c x64 x5f x70 x6f x6b x65 x5f))
(L (W xcc x00 x00 x00 x01 x00 x00 x00))))
(T (W x00 x00 x00 x00 x00 x00 x00 x00)
(T (W x18 x00 x00 x00 x0c x00 x00 x00)
(T (W x45 x26 x22 x84 xe4 x9c xf2 xcb)
(L (W xff xff xff xff xff xff xff xff)) E)
(L (W x46 x53 x59 x53 x5f x4e x53 x5f)))
(T (W x45 x26 x22 x84 xe4 x9c xf2 xcb)
(L (W x50 x00 x00 x00 x44 x00 x00 x00))
(L (W x00 x00 x00 x00 x8c x4a xff xff)))))
(T (W x00 x00 x80 x3f x00 x00 x80 x3f)
(T (W x00 x00 x00 x00 x00 x00 x00 x00)
(T (W xff xff xff xff x04 x00 x00 x00)
(T (W x01 x00 x00 x00 x9c x00 x00 x00)
(L (W x00 x00 x00 x00 x12 x00 x00 x00)) E)
(L (W xff xff xff xff xff xff xff xff)))
(T (W x4c x45 x41 x52 x45 x44 x00 x00)
(L (W x03 x00 x00 x00 xbc x00 x00 x00))
(L (W x00 x00 x00 x00 x00 x00 x00 x00))))
(T (W xff xff xff xff xff xff xff xff)
(T (W x00 x00 x00 x00 x00 x00 x00 x00)
(T (W x02 xe9 xfd xff x78 x00 x00 x00)
(L (W x10 x00 x04 x00 x08 x00 x0c x00)) E)
(L (W x1c xec xfe xff x00 x01 x01 x01)))
(T (W x00 x00 x00 x00 x00 x00 x00 x00)
(L (W x00 x00 x80 xbf x00 x00 x80 xbf))
(L (W xff xff xff xff xff xff xff xff))))))
(T (W x50 x00 x00 x00 x44 x00 x00 x00)
(T (W x50 x00 x00 x00 x44 x00 x00 x00)
(T (W x45 x26 x22 x84 xe4 x9c xf2 xcb)
(T (W xb8 x00 x00 x00 xac x00 x00 x00)
(T (W xff xff xff xff xff xff xff xff)
(L (W x00 x00 x00 x00 x00 x00 x00 x00)) E)
(L (W x00 x00 x00 x00 x00 x00 x00 x00)))
(T (W xff xff xff xff xff xff xff xff)
(L (W x50 x00 x00 x00 x44 x00 x00 x00))
(L (W x00 x00 x00 x00 x12 x00 x00 x00))))
(T (W x00 x00 x00 x00 x00 x00 x00 x00)
(T (W x2c x01 x00 x00 x04 x00 x00 x00)
(T (W x64 x00 x00 x00 x9c x00 x00 x00)
(L (W x02 xd9 xff xff x78 x00 x00 x00)) E)
(L (W x00 x00 x00 x00 x00 x00 x00 x00)))
(T (W xff xff xff xff xff xff xff xff)
(L (W x45 x26 x22 x84 xe4 x9c xf2 xcb))
(L (W xff xff xff xff xff xff xff xff)))))
(T (W x00 x00 x80 x3f x00 x00 x80 x3f)
(T (W x00 x00 x00 x00 x00 x00 x00 x00)
(T (W xff xff xff xff xff xff xff xff)
(T (W xff xff xff xff xff xff xff xff)
(L (W xff xff xff xff xb0 x00 x00 x00)) E)
(L (W xca x01 x00 x00 xff xff xff xff)))
(T (W x4f x84 x6f x8b xe8 xcb x63 xb7)
(L (W xff xff xff xff x94 x00 x00 x00))
(L (W x45 x26 x22 x84 xe4 x9c xf2 xcb))))
(T (W xff xff xff xff xff xff xff xff)
(T (W x50 x00 x00 x00 x44 x00 x00 x00)
(T (W x03 x00 x00 x00 xfc x00 x00 x00)
(L (W x45 x26 x22 x84 xe4 x9c xf2 xcb)) E)
(L (W x1f x00 x00 x00 x22 x00 x00 x00)))
(T (W x68 x00 x00 x00 x5c x00 x00 x00)
(L (W x00 x00 x80 xbf x00 x00 x80 xbf))
(L (W xff xff xff xff xff xff xff xff)))))))
(T (W x00 x00 x80 x3f x00 x00 x80 x3f)
(T (W x45 x26 x22 x84 xe4 x9c xf2 xcb)
(T (W x00 x00 x80 x3f x00 x00 x80 x3f)
(T (W x00 x00 x00 x00 x00 x00 x00 x00)
(T (W xff xff xff xff xff xff xff xff)
(T (W xff xff xff xff xff xff xff xff)
(L (W x00 x00 x00 x00 x00 x00 x00 x00)) E)
(L (W x00 x00 x80 xbf x00 x00 x80 xbf)))
(T (W xff xff xff xff xb0 x00 x00 x00)
(L (W x4f x84 x6f x8b xe8 xcb x63 xb7))
(L (W x34 x01 x00 x00 x04 x00 x00 x00))))
(T (W xac x57 xfc xff x11 x00 x00 x00)
(T (W xff xff xff xff xff xff xff xff)
(T (W x01 x00 x00 x00 x9c x00 x00 x00)
(L (W x45 x26 x22 x84 xe4 x9c xf2 xcb)) E)
(L (W x00 x00 x00 x00 x00 x00 x00 x00)))
(T (W x18 x00 x00 x00 x10 x00 x00 x00)
(L (W x00 x01 x01 x01 x02 x8f xfe xff))
(L (W xc4 x00 x00 x00 x02 x00 x00 x00)))))
(T (W x45 x26 x22 x84 xe4 x9c xf2 xcb)
(T (W x00 x00 x00 x00 x00 x00 x00 x00)
(T (W x18 x00 x00 x00 x10 x00 x00 x00)
(T (W x00 x00 x80 x3f x00 x00 x80 x3f)
(L (W x00 x00 x80 xbf x00 x00 x80 xbf)) E)
(L (W xff xff xff xff xff xff xff xff)))
(T (W x00 x00 x00 x00 x00 x00 x00 x00)
(L (W x00 x00 x80 xbf x00 x00 x80 xbf))
(L (W xff xff xff xff xff xff xff xff))))
(T (W xff xff xff xff xff xff xff xff)
(T (W x00 x00 x80 x3f x00 x00 x80 x3f)
(T (W x70 x5f x77 x69 x6c x64 x5f x70)
(L (W x00 x00 x10 x00 x14 x00 x18 x00)) E)
(L (W x29 x00 x00 x00 x2c x00 x00 x00)))
(T (W x50 x00 x00 x00 x44 x00 x00 x00)
(L (W x00 x00 x80 xbf x00 x00 x80 xbf))
(L (W xff xff xff xff xff xff xff xff))))))
(T (W x00 x00 x80 x3f x00 x00 x80 x3f)
(T (W x00 x00 x80 x3f x00 x00 x80 x3f)
(T (W x00 x00 x00 x00 x00 x00 x00 x00)
(T (W xff xff xff xff xff xff xff xff)
(T (W xb8 x00 x00 x00 xac x00 x00 x00)
(L (W x00 x00 x00 x00 x00 x00 x00 x00)) E)
(L (W x34 x01 x00 x00 x04 x00 x00 x00)))
(T (W xff xff xff xff xff xff xff xff)
(L (W x00 x00 x00 x00 x00 x00 x00 x00))
(L (W xff xff xff xff xff xff xff xff))))
(T (W x00 x00 x00 x00 x02 x00 x00 x00)
(T (W x00 x00 x00 x00 x12 x00 x00 x00)
(T (W x64 x00 x68 x00 x62 x00 x00 x00)
(L (W x00 x00 x80 xbf x00 x00 x80 xbf)) E)
(L (W x00 x00 x80 xbf x00 x00 x80 xbf)))
(T (W xff xff xff xff xff xff xff xff)
(L (W x02 x61 xfe xff x78 x00 x00 x00))
(L (W xea x61 xff xff x2f x00 x00 x00)))))
(T (W x00 x00 x80 x3f x00 x00 x80 x3f)
(T (W x00 x00 x00 x00 x00 x00 x00 x00)
(T (W x00 x00 x80 x3f x00 x00 x80 x3f)
(T (W x45 x26 x22 x84 xe4 x9c xf2 xcb)
(L (W x40 x00 x00 x00 x00 x00 x80 xbf)) E)
(L (W x00 x00 x00 x00 x00 x00 x00 x00)))
(T (W x00 x00 x80 x3f x00 x00 x80 x3f)
(L (W x74 x00 x00 x00 x68 x00 x00 x00))
(L (W x18 x00 x00 x00 x0c x00 x00 x00))))
(T (W xff xff xff xff xff xff xff xff)
(T (W x1c x04 xfd xff x00 x01 x01 x01)
(T (W xf1 xd9 xc3 xe9 xc1 xcf xae x64)
(L (W x38 x00 x3c x00 x40 x00 x44 x00)) E)
(L (W xff xff xff xff xff xff xff xff)))
(T (W xb8 x00 x00 x00 xac x00 x00 x00)
(L (W x49 xa1 x68 x4a xeb x5f xdd x3d))
(L (W x00 x00 x00 x00 x00 x00 x00 x00)))))))))
(T (W x00 x00 x80 x3f x00 x00 x80 x3f)
(T (W xff xff xff xff xff xff xff xff)
(T (W xff xff xff xff xff xff xff xff)
(T (W xff xff xff xff xff xff xff xff)
(T (W x45 x26 x22 x84 xe4 x9c xf2 xcb)
(T (W x00 x00 x00 x00 x00 x00 x00 x00)
(T (W x68 x00 x00 x00 x5c x00 x00 x00)
(T (W xff xff xff xff xff xff xff xff)
(L (W x00 x00 x00 x00 x00 x00 x00 x00)) E)
(L (W x00 x00 x00 x00 x00 x00 x00 x00)))
(T (W x00 x00 x80 x3f x00 x00 x80 x3f)
(L (W xff xff xff xff xff xff xff xff))
(L (W x00 x00 x80 xbf x00 x00 x80 xbf))))
(T (W xff xff xff xff xff xff xff xff)
(T (W x00 x00 x80 x3f x00 x00 x80 x3f)
(T (W x6b x65 x5f x63 x6f x77 x61 x72)
(L (W x00 x00 x80 xbf x00 x00 x80 xbf)) E)
(L (W xff xff xff xff xff xff xff xff)))
(T (W x00 x00 x00 x00 x00 x00 x00 x00)
(L (W x00 x00 x00 x00 x00 x00 x00 x00))
(L (W x00 x00 x80 xbf x00 x00 x80 xbf)))))
(T (W x00 x00 x00 x00 x00 x00 x00 x00)
(T (W xff xff xff xff xff xff xff xff)
(T (W x54 x00 x00 x00 x48 x00 x00 x00)
(T (W x00 x00 x80 x3f x00 x00 x80 x3f)
(L (W xa9 x01 x00 x00 xff xff xff xff)) E)
(L (W xff xff xff xff x9c x00 x00 x00)))
(T (W xff xff xff xff xbc x00 x00 x00)
(L (W x00 x00 x80 xbf x00 x00 x80 xbf))
(L (W x18 x00 x00 x00 x10 x00 x00 x00))))
(T (W x00 x00 x00 x00 x8c x68 xfc xff)
(T (W x00 x00 x00 x00 x00 x00 x00 x00)
(T (W x6c x00 x05 x00 x06 x00 x07 x00)
(L (W xff xff xff xff xff xff xff xff)) E)
(L (W x00 x00 x00 x00 x00 x00 x00 x00)))
(T (W xff xff xff xff xff xff xff xff)
(L (W x00 x00 x00 x00 x00 x00 x00 x00))
(L (W x45 x26 x22 x84 xe4 x9c xf2 xcb))))))
(T (W x00 x00 x00 x00 x00 x00 x00 x00)
(T (W x00 x00 x00 x00 x00 x00 x00 x00)
(T (W x52 x33 xfe xff x00 x00 x01 x01)
(T (W x00 x00 x80 x3f x00 x00 x80 x3f)
(T (W x45 x26 x22 x84 xe4 x9c xf2 xcb)
(L (W x00 x00 x00 x00 x42 xac xff xff)) E)
(L (W xff xff xff xff xff xff xff xff)))
(T (W x00 x00 x80 x3f x00 x00 x80 x3f)
(L (W x45 x26 x22 x84 xe4 x9c xf2 xcb))
(L (W xff xff xff xff x9c x00 x00 x00))))
(T (W xff xff xff xff xff xff xff xff)
(T (W xc4 x00 x00 x00 x01 x00 x00 x00)
(T (W x00 x00 x00 x00 x00 x00 x00 x00)
(L (W x00 x00 x80 xbf x00 x00 x80 xbf)) E)
(L (W x00 x00 x00 x00 x00 x00 x00 x00)))
(T (W x1c x5a xfd xff x00 x01 x01 x01)
(L (W x00 x00 x80 xbf x00 x00 x80 xbf))
(L (W x68 x00 x00 x00 x5c x00 x00 x00)))))
(T (W x00 x00 x00 x00 x00 x00 x00 x00)
(T (W xa2 x7e xff xff xd4 x01 x00 x00)
(T (W x00 x00 x00 x00 x1c x00 x20 x00)
(T (W x00 x00 x00 x00 x00 x00 x00 x00)
(L (W x00 x00 x00 x00 x00 x00 x00 x00)) E)
(L (W xff xff xff xff xff xff xff xff)))
(T (W x00 x00 x00 x00 x00 x00 x00 x00)
(L (W x00 x00 x80 xbf x00 x00 x80 xbf))
(L (W x00 x00 x80 xbf x00 x00 x80 xbf))))
(T (W x40 x00 x00 x00 x9c x00 x00 x00)
(T (W x00 x00 x00 x00 x00 x00 x00 x00)
(T (W x00 x01 x01 x01 x01 x01 x01 x01)
(L (W xff xff xff xff xff xff xff xff)) E)
(L (W x4f x84 x6f x8b xe8 xcb x63 xb7)))
(T (W x00 x00 x80 x3f x00 x00 x80 x3f)
(L (W x00 x00 x00 x00 x00 x00 x00 x00))
(L (W x45 x26 x22 x84 xe4 x9c xf2 xcb)))))))
(T (W x1a xe8 xfe xff x00 x00 x01 x01)
(T (W x00 x00 x00 x00 x00 x00 x00 x00)
(T (W x00 x00 x00 x00 x00 x00 x00 x00)
(T (W x2b x00 x00 x00 x10 x00 x00 x00)
(T (W x02 x8f xfc xff x78 x00 x00 x00)
(T (W x18 x00 x00 x00 x10 x00 x00 x00)
(L (W xff xff xff xff xff xff xff xff)) E)
(L (W x8d x01 x00 x00 xff xff xff xff)))
(T (W x00 x00 x80 x3f x00 x00 x80 x3f)
(L (W x00 x00 x00 x00 x00 x00 x00 x00))
(L (W x00 x00 x00 x00 x8c x10 xff xff))))
(T (W xff xff xff xff xff xff xff xff)
(T (W x00 x00 x80 x3f x00 x00 x80 x3f)
(T (W x00 x00 x80 x3f x00 x00 x80 x3f)
(L (W x00 x00 x80 xbf x00 x00 x80 xbf)) E)
(L (W xff xff xff xff xff xff xff xff)))
(T (W x00 x00 x80 x3f x00 x00 x80 x3f)
(L (W x00 x00 x80 xbf x00 x00 x80 xbf))
(L (W x54 x00 x00 x00 x48 x00 x00 x00)))))
(T (W x00 x00 x00 x00 x00 x00 x00 x00)
(T (W xbe x00 x00 x00 xff xff xff xff)
(T (W x52 xad xfc xff x74 x00 x00 x00)
(T (W x00 x00 x00 x00 x00 x00 x00 x00)
(L (W x00 x00 x00 x00 x00 x00 x00 x00)) E)
(L (W x1f x00 x00 x00 x22 x00 x00 x00)))
(T (W xff xff xff xff xff xff xff xff)
(L (W x58 x00 x00 x00 x00 x00 x5c x00))
(L (W xbc x00 x00 x00 x02 x00 x00 x00))))
(T (W x18 x00 x00 x00 x0c x00 x00 x00)
(T (W x00 x00 x00 x00 x12 x00 x00 x00)
(T (W x55 x6c xfc xf1 x99 x9e xc9 x88)
(L (W x1c xf2 xff xff x00 x01 x01 x01)) E)
(L (W x00 x00 x00 x00 x00 x00 x00 x00)))
(T (W x12 x00 x00 x00 x46 x53 x59 x53)
(L (W x00 x00 x00 x00 x00 x00 x00 x00))
(L (W x18 x00 x00 x00 x0c x00 x00 x00))))))
(T (W x00 x00 x00 x00 x00 x00 x00 x00)
(T (W x00 x00 x00 x00 x00 x00 x00 x00)
(T (W xff xff xff xff xff xff xff xff)
(T (W x00 x00 x80 x3f x00 x00 x80 x3f)
(T (W x00 x00 x80 x3f x00 x00 x80 x3f)
(L (W xff xff xff xff xff xff xff xff)) E)
(L (W x00 x00 x00 x00 x00 x00 x00 x00)))
(T (W x45 x26 x22 x84 xe4 x9c xf2 xcb)
(L (W x01 x00 x00 x00 xff xff xff xff))
(L (W xcc x00 x00 x00 x02 x00 x00 x00))))
(T (W x64 x00 x00 x00 x9c x00 x00 x00)
(T (W xff xff xff xff xff xff xff xff)
(T (W x00 x00 x80 x3f x00 x00 x80 x3f)
(L (W x45 x26 x22 x84 xe4 x9c xf2 xcb)) E)
(L (W x00 x00 x00 x00 x00 x00 x00 x00)))
(T (W x45 x26 x22 x84 xe4 x9c xf2 xcb)
(L (W x00 x00 x00 x00 x00 x00 x00 x00))
(L (W xff xff xff xff xb0 x00 x00 x00)))))
(T (W x00 x00 x00 x00 x00 x00 x00 x00)
(T (W x1a x88 xff xff x00 x00 x01 x01)
(T (W x00 x00 x00 x00 x0d x00 x00 x00)
(T (W x00 x00 x00 x00 x00 x00 x00 x00)
(L (W x00 x00 x80 xbf x00 x00 x80 xbf)) E)
(L (W xff xff xff xff xff xff xff xff)))
(T (W x00 x00 x00 x00 x00 x00 x00 x00)
(L (W x00 x00 x80 xbf x00 x00 x80 xbf))
(L (W x00 x00 x80 xbf x00 x00 x80 xbf))))
(T (W x01 x00 x00 x00 x3c x00 x00 x00)
(T (W x00 x00 x00 x00 x00 x00 x00 x00)
(T (W xff xff xff xff xff xff xff xff)
(L (W x00 x00 x00 x00 x00 x00 x00 x00)) E)
(L (W x00 x00 x80 xbf x00 x00 x80 xbf)))
(T (W x00 x00 x80 x3f x00 x00 x80 x3f)
(L (W x00 x00 x00 x00 x00 x00 x00 x00))
(L (W xff xff xff xff xff xff xff xff))))))))
(T (W x86 x03 x00 x00 xff xff xff xff)
(T (W x18 x00 x00 x00 x0c x00 x00 x00)
(T (W x50 x00 x00 x00 x44 x00 x00 x00)
(T (W xb8 x00 x00 x00 xac x00 x00 x00)
(T (W x68 x00 x00 x00 x5c x00 x00 x00)
(T (W xff xff xff xff xff xff xff xff)
(T (W x00 x00 x00 x00 x00 x00 x00 x00)
(L (W x54 x00 x00 x00 x48 x00 x00 x00)) E)
(L (W x38 x00 x00 x00 x00 x00 x80 xbf)))
(T (W xff xff xff xff xff xff xff xff)
(L (W x00 x00 x80 x3f x00 x00 x80 x3f))
(L (W x75 x43 x54 x1d xca xa4 x99 xfd))))
(T (W x45 x26 x22 x84 xe4 x9c xf2 xcb)
(T (W xff xff xff xff xff xff xff xff)
(T (W xff xff xff xff xff xff xff xff)
(L (W xff xff xff xff xff xff xff xff)) E)
(L (W x00 x00 x80 xbf x00 x00 x80 xbf)))
(T (W xff xff xff xff xff xff xff xff)
(L (W xff xff xff xff xff xff xff xff))
(L (W xaa x01 x00 x00 xff xff xff xff)))))
(T (W xff xff xff xff xff xff xff xff)
(T (W x6c x00 x00 x00 x60 x00 x00 x00)
(T (W x40 x00 x00 x00 x10 x00 x00 x00)
(T (W xff xff xff xff xff xff xff xff)
(L (W xff xff xff xff xff xff xff xff)) E)
(L (W x49 xa1 x68 x4a xeb x5f xdd x3d)))
(T (W x49 xa1 x68 x4a xeb x5f xdd x3d)
(L (W xac x31 xfe xff x1e x00 x00 x00))
(L (W x00 x00 x00 x00 x00 x00 x00 x00))))
(T (W x00 x00 x00 x00 x00 x00 x00 x00)
(T (W x45 x26 x22 x84 xe4 x9c xf2 xcb)
(T (W xff xff xff xff xff xff xff xff)
(L (W x50 x00 x54 x00 x58 x00 x5c x00)) E)
(L (W xff xff xff xff xff xff xff xff)))
(T (W x52 x69 xfd xff x74 x00 x00 x00)
(L (W xff xff xff xff xff xff xff xff))
(L (W x00 x00 x00 x00 x00 x00 x00 x00))))))
(T (W xff xff xff xff xff xff xff xff)
(T (W xff xff xff xff xff xff xff xff)
(T (W x1c x1e xfc xff x00 x01 x01 x01)
(T (W x00 x00 x00 x00 x00 x00 x00 x00)
(T (W xac xa1 xfd xff x1f x00 x00 x00)
(L (W x54 x00 x00 x00 x48 x00 x00 x00)) E)
(L (W x52 x99 xfe xff x74 x00 x00 x00)))
(T (W x00 x00 x00 x00 x00 x00 x00 x00)
(L (W xff xff xff xff xff xff xff xff))
(L (W x00 x00 x80 xbf x00 x00 x80 xbf))))
(T (W x00 x00 x80 x3f x00 x00 x80 x3f)
(T (W x00 x00 x00 x00 x00 x00 x00 x00)
(T (W xff xff xff xff xff xff xff xff)
(L (W xff xff xff xff xff xff xff xff)) E)
(L (W x02 xdb xfe xff x78 x00 x00 x00)))
(T (W x04 x72 xfd xff x10 x00 x00 x00)
(L (W xff xff xff xff xff xff xff xff))
(L (W x5f x4e x53 x5f x30 x33 x5f x43)))))
(T (W x52 xf9 xfb xff x74 x00 x00 x00)
(T (W x00 x00 x80 x3f x00 x00 x80 x3f)
(T (W xff xff xff xff xff xff xff xff)
(T (W x00 x00 x80 x3f x00 x00 x80 x3f)
(L (W xff xff xff xff xff xff xff xff)) E)
(L (W x49 xa1 x68 x4a xeb x5f xdd x3d)))
(T (W x18 x00 x00 x00 x0c x00 x00 x00)
(L (W xff xff xff xff xff xff xff xff))
(L (W x00 x00 x00 x00 x00 x00 x00 x00))))
(T (W x04 x92 xfc xff x16 x00 x00 x00)
(T (W xff xff xff xff x9c x00 x00 x00)
(T (W x00 x00 x80 x3f x00 x00 x80 x3f)
(L (W xff xff xff xff xff xff xff xff)) E)
(L (W xff xff xff xff xff xff xff xff)))
(T (W xff xff xff xff xff xff xff xff)
(L (W x45 x26 x22 x84 xe4 x9c xf2 xcb))
(L (W x6c x00 x00 x00 x60 x00 x00 x00)))))))
(T (W x6b x65 x5f x66 x69 x73 x68 x5f)
(T (W xff xff xff xff xff xff xff xff)
(T (W xc0 x00 x00 x00 xb4 x00 x00 x00)
(T (W x52 x11 xfc xff x74 x00 x00 x00)
(T (W x52 xaf xfe xff x00 x00 x01 x01)
(T (W x00 x00 x00 x00 x00 x00 x00 x00)
(L (W x00 x00 x80 xbf x00 x00 x80 xbf)) E)
(L (W x02 x93 xfe xff x78 x00 x00 x00)))
(T (W x34 x01 x00 x00 x04 x00 x00 x00)
(L (W xff xff xff xff xff xff xff xff))
(L (W x45 x26 x22 x84 xe4 x9c xf2 xcb))))
(T (W x00 x00 x80 x3f x00 x00 x80 x3f)
(T (W x30 x33 x5f x43 x4c x45 x41 x52)
(T (W xff xff xff xff xff xff xff xff)
(L (W xff xff xff xff xff xff xff xff)) E)
(L (W x00 x00 x80 xbf x00 x00 x80 xbf)))
(T (W x00 x00 x00 x00 x00 x00 x00 x00)
(L (W x03 x00 x00 x00 xd0 x00 x00 x00))
(L (W x2c x01 x00 x00 x04 x00 x00 x00)))))
(T (W x18 x00 x00 x00 x0c x00 x00 x00)
(T (W x00 x00 x80 x3f x00 x00 x80 x3f)
(T (W x52 xcf xfe xff x00 x00 x01 x01)
(T (W xb8 x00 x00 x00 xac x00 x00 x00)
(L (W xff xff xff xff xff xff xff xff)) E)
(L (W x00 x00 x00 x00 x00 x00 x00 x00)))
(T (W x54 x00 x00 x00 x48 x00 x00 x00)
(L (W xff xff xff xff xff xff xff xff))
(L (W x1e x00 x00 x00 x10 x00 x00 x00))))
(T (W x00 x00 x00 x00 x00 x00 x00 x00)
(T (W x1f x00 x00 x00 x22 x00 x00 x00)
(T (W x00 x00 x00 x00 x01 x00 x00 x00)
(L (W xff xff xff xff xff xff xff xff)) E)
(L (W xff xff xff xff xff xff xff xff)))
(T (W x03 x00 x00 x00 xcc x00 x00 x00)
(L (W xff xff xff xff xff xff xff xff))
(L (W x00 x00 x00 x00 x00 x00 x00 x00))))))
(T (W x18 x00 x00 x00 x10 x00 x00 x00)
(T (W xff xff xff xff x03 x00 x00 x00)
(T (W x00 x00 x80 x3f x00 x00 x80 x3f)
(T (W x45 x26 x22 x84 xe4 x9c xf2 xcb)
(T (W xff xff xff xff xff xff xff xff)
(L (W x00 x00 x80 xbf x00 x00 x80 xbf)) E)
(L (W x45 x26 x22 x84 xe4 x9c xf2 xcb)))
(T (W x00 x00 x00 x00 x00 x00 x00 x00)
(L (W x18 x00 x00 x00 x0c x00 x00 x00))
(L (W x00 x00 x00 x00 x00 x00 x00 x00))))
(T (W x00 x00 x00 x00 x00 x00 x00 x00)
(T (W x00 x00 x80 x3f x00 x00 x80 x3f)
(T (W x50 x00 x00 x00 x44 x00 x00 x00)
(L (W x46 x53 x59 x53 x5f x4e x53 x5f)) E)
(L (W xff xff xff xff xff xff xff xff)))
(T (W x00 x00 x80 x3f x00 x00 x80 x3f)
(L (W xff xff xff xff xff xff xff xff))
(L (W x00 x00 x00 x00 x00 x00 x00 x00)))))
(T (W x00 x00 x80 x3f x00 x00 x80 x3f)
(T (W x00 x00 x00 x00 x00 x00 x00 x00)
(T (W xff xff xff xff xbc x00 x00 x00)
(T (W x68 x00 x00 x00 x5c x00 x00 x00)
(L (W xff xff xff xff xff xff xff xff)) E)
(L (W x45 x26 x22 x84 xe4 x9c xf2 xcb)))
(T (W xff xff xff xff x9c x00 x00 x00)
(L (W xff xff xff xff xff xff xff xff))
(L (W xff xff xff xff xff xff xff xff))))
(T (W x01 x00 x00 x00 x04 x00 x00 x00)
(T (W xff xff xff xff xff xff xff xff)
(L (W xff xff xff xff xff xff xff xff))
(L (W xa9 x01 x00 x00 xff xff xff xff)))
(T (W xff xff xff xff xff xff xff xff)
(L (W x1c x86 xfe xff x00 x01 x01 x01))
(L (W x00 x00 x80 xbf x00 x00 x80 xbf))))))))))))
(T (W x68 xb5 x03 x00 xb4 xae x03 x00)
(T (W xa8 xfd x02 x00 x2c xf9 x02 x00)
(T (W x50 x3a x02 x00 x0c x38 x02 x00)
(T (W x40 xc9 x00 x00 xf4 xc6 x00 x00)
(T (W xff xff xff xff xff xff xff xff)
(T (W x45 x26 x22 x84 xe4 x9c xf2 xcb)
(T (W x00 x00 x80 x3f x00 x00 x80 x3f)
(T (W x4d x3a x21 x80 xbc xfd xb5 xeb)
(T (W xff xff xff xff xff xff xff xff)
(T (W x00 x00 x80 x3f x00 x00 x80 x3f)
(T (W x00 x00 x00 x00 x00 x00 x00 x00)
(L (W xff xff xff xff xff xff xff xff)) E)
(L (W xff xff xff xff xff xff xff xff)))
(T (W x46 x53 x59 x53 x5f x4e x53 x5f)
(L (W x00 x00 x00 x00 x00 x00 x00 x00))
(L (W x45 x26 x22 x84 xe4 x9c xf2 xcb))))
(T (W x18 x00 x00 x00 x0c x00 x00 x00)
(T (W x00 x00 x00 x00 x00 x00 x00 x00)
(T (W xff xff xff xff xff xff xff xff)
(L (W x45 x26 x22 x84 xe4 x9c xf2 xcb)) E)
(L (W x45 x26 x22 x84 xe4 x9c xf2 xcb)))
(T (W x13 x00 x00 x00 x0c x00 x00 x00)
(L (W x00 x00 x00 x00 x12 x00 x00 x00))
(L (W x4f x84 x6f x8b xe8 xcb x63 xb7)))))
(T (W x00 x00 x00 x00 x00 x00 x00 x00)
(T (W xff xff xff xff xff xff xff xff)
(T (W x00 x00 x00 x00 x00 x00 x00 x00)
(T (W x00 x00 x00 x00 x00 x00 x00 x00)
(L (W x1f x00 x00 x00 x22 x00 x00 x00)) E)
(L (W xc2 xa3 xfe xff x78 x00 x00 x00)))
(T (W x45 x26 x22 x84 xe4 x9c xf2 xcb)
(L (W x05 x65 x6c x12 x83 xf5 x3a xc6))
(L (W x00 x00 x80 xbf x00 x00 x80 xbf))))
(T (W x40 x00 x00 x00 x9c x00 x00 x00)
(T (W xff xff xff xff xff xff xff xff)
(T (W x14 x00 x18 x00 x06 x00 x07 x00)
(L (W xff xff xff xff xff xff xff xff)) E)
(L (W x00 x00 x00 x00 x00 x00 x00 x00)))
(T (W xff xff xff xff xc8 x00 x00 x00)
(L (W x46 x53 x59 x53 x5f x4e x53 x5f))
(L (W x1c x00 x00 x00 x10 x00 x00 x00))))))
(T (W x00 x00 x00 x00 x00 x00 x00 x00)
(T (W x00 x00 x00 x00 x00 x00 x00 x00)
(T (W xff xff xff xff xff xff xff xff)
(T (W x45 x26 x22 x84 xe4 x9c xf2 xcb)
(T (W x00 x00 x80 x3f x00 x00 x80 x3f)
(L (W x03 x00 x00 x00 xd0 x00 x00 x00)) E)
(L (W xff xff xff xff xff xff xff xff)))
(T (W x00 x00 x80 x3f x00 x00 x80 x3f)
(L (W x00 x00 x00 x00 x00 x00 x00 x00))
(L (W xdc x16 xff xff x00 x01 x01 x01))))
(T (W x45 x26 x22 x84 xe4 x9c xf2 xcb)
(T (W x00 x00 x80 x3f x00 x00 x80 x3f)
(T (W x00 x00 x00 x00 x00 x00 x00 x00)
(L (W x00 x00 x00 x00 x00 x00 x00 x00)) E)
(L (W xff xff xff xff xff xff xff xff)))
(T (W x00 x00 x80 x3f x00 x00 x80 x3f)
(L (W x45 x44 x00 x00 x00 x00 x00 x00))
(L (W x00 x00 x80 xbf x00 x00 x80 xbf)))))
(T (W x58 x40 x0b x27 x08 xb7 x93 x4d)
(T (W xff xff xff xff xff xff xff xff)
(T (W x45 x26 x22 x84 xe4 x9c xf2 xcb)
(T (W x6c xba xfd xff x21 x00 x00 x00)
(L (W x00 x00 x00 x00 x00 x00 x00 x00)) E)
(L (W xff xff xff xff xb0 x00 x00 x00)))
(T (W xff xff xff xff xff xff xff xff)
(L (W x00 x00 x00 x00 x00 x00 x00 x00))
(L (W x3c x00 x00 x00 x00 x00 x80 xbf))))
(T (W x6c x00 x00 x00 x60 x00 x00 x00)
(T (W x00 x00 x00 x00 x00 x00 x00 x00)
(T (W xe0 x00 x00 x00 xd4 x00 x00 x00)
(L (W x00 x00 x00 x00 x00 x00 x00 x00)) E)
(L (W x00 x00 x00 x00 x00 x00 x00 x00)))
(T (W x00 x00 x00 x00 x00 x00 x00 x00)
(L (W x46 x53 x59 x53 x5f x4e x53 x5f))
(L (W x1c x00 x00 x00 x10 x00 x00 x00)))))))
(T (W x6b x65 x5f x66 x69 x73 x68 x5f)
(T (W x12 xc8 xfd xff x00 x00 x01 x01)
(T (W xa2 xe6 xfd xff xb8 x01 x00 x00)
(T (W xff xff xff xff xff xff xff xff)
(T (W x00 x00 x00 x00 x00 x00 x00 x00)
(T (W x45 x26 x22 x84 xe4 x9c xf2 xcb)
(L (W xff xff xff xff xff xff xff xff)) E)
(L (W xff xff xff xff xff xff xff xff)))
(T (W x45 x26 x22 x84 xe4 x9c xf2 xcb)
(L (W xff xff xff xff xff xff xff xff))
(L (W x00 x00 x80 xbf x00 x00 x80 xbf))))
(T (W x12 x4a xfc xff x74 x00 x00 x00)
(T (W x4f x84 x6f x8b xe8 xcb x63 xb7)
(T (W x00 x00 x00 x00 x00 x00 x00 x00)
(L (W x49 xa1 x68 x4a xeb x5f xdd x3d)) E)
(L (W x21 x00 x00 x00 x24 x00 x00 x00)))
(T (W x00 x00 x00 x00 x00 x00 x00 x00)
(L (W x6c x52 xfe xff x0a x00 x00 x00))
(L (W x45 x26 x22 x84 xe4 x9c xf2 xcb)))))
(T (W x00 x00 x00 x00 x00 x00 x00 x00)
(T (W xff xff xff xff xff xff xff xff)
(T (W x00 x00 x80 x3f x00 x00 x80 x3f)
(T (W x00 x00 x00 x00 x00 x00 x00 x00)
(L (W x00 x00 x00 x00 x00 x00 x00 x00)) E)
(L (W xff xff xff xff x9c x00 x00 x00)))
(T (W x18 x00 x00 x00 x10 x00 x00 x00)
(L (W x00 x00 x80 xbf x00 x00 x80 xbf))
(L (W x68 x00 x00 x00 x5c x00 x00 x00))))
(T (W x50 x00 x00 x00 x44 x00 x00 x00)
(T (W xff xff xff xff xff xff xff xff)
(T (W x00 x00 x00 x00 x00 x00 x00 x00)
(L (W x00 x00 x80 xbf x00 x00 x80 xbf)) E)
(L (W x46 x53 x59 x53 x5f x4e x53 x5f)))
(T (W x04 x00 x00 x00 xd2 x7a xfd xff)
(L (W x00 x00 x00 x00 x00 x00 x00 x00))
(L (W x00 x00 x80 xbf x00 x00 x80 xbf))))))
(T (W x00 x00 x00 x00 x00 x00 x00 x00)
(T (W x00 x00 x00 x00 x00 x00 x00 x00)
(T (W xff xff xff xff xff xff xff xff)
(T (W x00 x00 x80 x3f x00 x00 x80 x3f)
(T (W x00 x00 x80 x3f x00 x00 x80 x3f)
(L (W xff xff xff xff xff xff xff xff)) E)
(L (W xff xff xff xff xff xff xff xff)))
(T (W x00 x00 x80 x3f x00 x00 x80 x3f)
(L (W x00 x00 x00 x00 x00 x00 x00 x00))
(L (W xff xff xff xff x9c x00 x00 x00))))
(T (W x18 x00 x00 x00 x10 x00 x00 x00)
(T (W x18 x00 x00 x00 x0c x00 x00 x00)
(T (W x00 x00 x00 x00 x00 x00 x00 x00)
(L (W x00 x00 x00 x00 x00 x00 x00 x00)) E)
(L (W xff xff xff xff xff xff xff xff)))
(T (W x50 x00 x00 x00 x44 x00 x00 x00)
(L (W x00 x00 x00 x00 x00 x00 x00 x00))
(L (W x00 x00 x80 xbf x00 x00 x80 xbf)))))
(T (W x89 x01 x00 x00 xff xff xff xff)
(T (W xff xff xff xff x04 x00 x00 x00)
(T (W x00 x00 x00 x00 x00 x00 x00 x00)
(T (W xe0 x00 x00 x00 xff xff xff xff)
(L (W x00 x00 x00 x00 x00 x00 x00 x00)) E)
(L (W x18 x00 x00 x00 x10 x00 x00 x00)))
(T (W x42 x49 xfd xff x9d x01 x00 x00)
(L (W x00 x00 x00 x00 x00 x00 x00 x00))
(L (W x45 x26 x22 x84 xe4 x9c xf2 xcb))))
(T (W x00 x00 x80 x3f x00 x00 x80 x3f)
(T (W x18 x00 x00 x00 x10 x00 x00 x00)
(T (W x23 x00 x00 x00 x26 x00 x00 x00)
(L (W x45 x26 x22 x84 xe4 x9c xf2 xcb)) E)
(L (W x00 x00 x00 x00 x00 x00 x00 x00)))
(T (W x00 x00 x00 x00 x00 x00 x00 x00)
(L (W x2c x01 x00 x00 x04 x00 x00 x00))
(L (W xff xff xff xff xff xff xff xff))))))))
(T (W x00 x00 x00 x00 x00 x00 x00 x00)
(T (W x00 x00 x00 x00 x00 x00 x00 x00)
(T (W x00 x00 x00 x00 x00 x00 x00 x00)
(T (W x12 xc6 xfb xff x74 x00 x00 x00)
(T (W x00 x00 x80 x3f x00 x00 x80 x3f)
(T (W xda xd0 xff xff x00 x00 x01 x01)
(T (W x00 x00 x00 x00 x00 x00 x00 x00)
(L (W x45 x26 x22 x84 xe4 x9c xf2 xcb)) E)
(L (W x00 x00 x80 xbf x00 x00 x80 xbf)))
(T (W xff xff xff xff xb0 x00 x00 x00)
(L (W x00 x00 x00 x00 x12 x00 x00 x00))
(L (W xb8 x00 x00 x00 x64 x00 x00 x00))))
(T (W x00 x00 x00 x00 x00 x00 x00 x00)
(T (W xff xff xff xff x9c x00 x00 x00)
(T (W x50 x00 x00 x00 x44 x00 x00 x00)
(L (W xff xff xff xff xbc x00 x00 x00)) E)
(L (W x45 x26 x22 x84 xe4 x9c xf2 xcb)))
(T (W x00 x00 x00 x00 x4c x49 xfd xff)
(L (W xff xff xff xff xa8 x00 x00 x00))
(L (W xc4 x00 x00 x00 x01 x00 x00 x00)))))
(T (W x00 x00 x80 x3f x00 x00 x80 x3f)
(T (W x00 x00 x00 x00 x00 x00 x00 x00)
(T (W xff xff xff xff xff xff xff xff)
(T (W xb8 x00 x00 x00 xac x00 x00 x00)
(L (W x45 x26 x22 x84 xe4 x9c xf2 xcb)) E)
(L (W xff xff xff xff xff xff xff xff)))
(T (W x00 x00 x00 x00 x00 x00 x00 x00)
(L (W xff xff xff xff xff xff xff xff))
(L (W x43 x09 xb9 x28 xbf xca x67 x6a))))
(T (W x12 x84 xfe xff x00 x00 x01 x01)
(T (W x00 x00 x80 x3f x00 x00 x80 x3f)
(T (W x00 x00 x80 xbf x00 x00 x80 xbf)
(L (W x46 x53 x59 x53 x5f x4e x53 x5f)) E)
(L (W x68 x00 x00 x00 x5c x00 x00 x00)))
(T (W x00 x00 x00 x00 x00 x00 x00 x00)
(L (W x5c x00 x00 x00 x50 x00 x00 x00))
(L (W x00 x00 x00 x00 x04 x00 x00 x00))))))
(T (W x12 xb6 xfb xff x74 x00 x00 x00)
(T (W x68 x00 x00 x00 x5c x00 x00 x00)
(T (W x45 x26 x22 x84 xe4 x9c xf2 xcb)
(T (W xff xff xff xff xff xff xff xff)
(T (W xff xff xff xff xff xff xff xff)
(L (W x00 x00 x80 xbf x00 x00 x80 xbf)) E)
(L (W x4f x84 x6f x8b xe8 xcb x63 xb7)))
(T (W xff xff xff xff xff xff xff xff)
(L (W x45 x26 x22 x84 xe4 x9c xf2 xcb))
(L (W x1b x00 x00 x00 x10 x00 x00 x00))))
(T (W x00 x00 x00 x00 x00 x00 x00 x00)
(T (W x00 x00 x00 x00 x00 x00 x00 x00)
(T (W xff xff xff xff xff xff xff xff)
(L (W xb8 x00 x00 x00 x32 x00 x00 x00)) E)
(L (W x00 x00 x80 xbf x00 x00 x80 xbf)))
(T (W xff xff xff xff xff xff xff xff)
(L (W x18 x00 x00 x00 x1b x00 x00 x00))
(L (W xa7 x01 x00 x00 xff xff xff xff)))))
(T (W x68 x00 x00 x00 x5c x00 x00 x00)
(T (W x45 x26 x22 x84 xe4 x9c xf2 xcb)
(T (W xdc xba xfc xff x00 x01 x01 x01)
(T (W xff xff xff xff xff xff xff xff)
(L (W x48 xb9 xff xff x72 xf4 xff xff)) E)
(L (W x00 x00 x00 x00 x00 x00 x00 x00)))
(T (W x00 x00 x80 x3f x00 x00 x80 x3f)
(L (W xff xff xff xff xff xff xff xff))
(L (W x03 x00 x00 x00 xd0 x00 x00 x00))))
(T (W x4b x00 x00 x00 xff xff xff xff)
(T (W xdc xfa xfc xff x00 x01 x01 x01)
(T (W x00 x00 x80 x3f x00 x00 x80 x3f)
(L (W x4c x45 x41 x52 x45 x44 x00 x00)) E)
(L (W x18 x00 x00 x00 x10 x00 x00 x00)))
(T (W x18 x00 x00 x00 x0c x00 x00 x00)
(L (W x00 x01 x01 x01 xc2 xb5 xfe xff))
(L (W xff xff xff xff xff xff xff xff)))))))
(T (W x00 x00 x80 x3f x00 x00 x80 x3f)
(T (W x18 x00 x00 x00 x0c x00 x00 x00)
(T (W xdc xd2 xfb xff x00 x01 x01 x01)
(T (W x00 x00 x80 x3f x00 x00 x80 x3f)
(T (W xff xff xff xff xff xff xff xff)
(T (W xf6 x5e x2e x97 x85 x1b x59 x5f)
(L (W x00 x00 x00 x00 x00 x00 x00 x00)) E)
(L (W x00 x00 x00 x00 x00 x00 x00 x00)))
(T (W xff xff xff xff xff xff xff xff)
(L (W x00 x00 x80 x3f x00 x00 x80 x3f))
(L (W x04 x00 x00 x00 xf2 x0e xff xff))))
(T (W x00 x00 x00 x00 x00 x00 x00 x00)
(T (W xff xff xff xff xff xff xff xff)
(T (W xb8 x00 x00 x00 xac x00 x00 x00)
(L (W x29 x00 x00 x00 x2c x00 x00 x00)) E)
(L (W x4f x84 x6f x8b xe8 xcb x63 xb7)))
(T (W xff xff xff xff xff xff xff xff)
(L (W x18 x00 x00 x00 x1b x00 x00 x00))
(L (W xff xff xff xff xff xff xff xff)))))
(T (W x50 x00 x00 x00 x44 x00 x00 x00)
(T (W x45 x26 x22 x84 xe4 x9c xf2 xcb)
(T (W xff xff xff xff xff xff xff xff)
(T (W x01 x00 x00 x00 x9c x00 x00 x00)
(L (W x50 x00 x00 x00 x44 x00 x00 x00)) E)
(L (W x00 x00 x00 x00 x00 x00 x00 x00)))
(T (W x00 x00 x00 x00 x00 x00 x00 x00)
(L (W x00 x00 x80 xbf x00 x00 x80 xbf))
(L (W x00 x00 x00 x00 x00 x00 x00 x00))))
(T (W xff xff xff xff xff xff xff xff)
(T (W x50 x00 x00 x00 x44 x00 x00 x00)
(T (W x01 x00 x00 x00 x04 x00 x00 x00)
(L (W xff xff xff xff xff xff xff xff)) E)
(L (W xff xff xff xff xff xff xff xff)))
(T (W x00 x00 x80 x3f x00 x00 x80 x3f)
(L (W x48 x71 xfe xff x72 xac xfe xff))
(L (W x00 x00 x00 x00 xf2 x6e xff xff))))))
(T (W x00 x00 x80 x3f x00 x00 x80 x3f)
(T (W x68 x00 x00 x00 x5c x00 x00 x00)
(T (W x00 x00 x00 x00 x00 x00 x00 x00)
(T (W xff xff xff xff xff xff xff xff)
(T (W xff xff xff xff xff xff xff xff)
(L (W x49 xa1 x68 x4a xeb x5f xdd x3d)) E)
(L (W xff xff xff xff xff xff xff xff)))
(T (W xff xff xff xff x02 x00 x00 x00)
(L (W x45 x26 x22 x84 xe4 x9c xf2 xcb))
(L (W x45 x44 x00 x00 x00 x00 x00 x00))))
(T (W x3e x00 x00 x00 x0c x00 x00 x00)
(T (W x00 x00 x00 x00 x00 x00 x00 x00)
(T (W x64 x00 x00 x00 x9c x00 x00 x00)
(L (W xc2 xdf xff xff x78 x00 x00 x00)) E)
(L (W x54 x00 x00 x00 x48 x00 x00 x00)))
(T (W x00 x00 x00 x00 x02 x00 x00 x00)
(L (W x40 x00 x00 x00 x00 x00 x80 xbf))
(L (W x00 x00 x00 x00 x00 x00 x00 x00)))))
(T (W x12 xfe xfb xff x74 x00 x00 x00)
(T (W x00 x00 x80 x3f x00 x00 x80 x3f)
(T (W x6c x00 x00 x00 x60 x00 x00 x00)
(T (W x45 x26 x22 x84 xe4 x9c xf2 xcb)
(L (W x45 x26 x22 x84 xe4 x9c xf2 xcb)) E)
(L (W x00 x00 x00 x00 x00 x00 x00 x00)))
(T (W x12 x3e xfd xff x74 x00 x00 x00)
(L (W xff xff xff xff xb4 x00 x00 x00))
(L (W xff xff xff xff xff xff xff xff))))
(T (W x62 xc7 xff xff x4b x00 x00 x00)
(T (W x12 xfe xfc xff x74 x00 x00 x00)
(T (W x30 x33 x5f x43 x4c x45 x41 x52)
(L (W x03 x00 x00 x00 x08 x01 x00 x00)) E)
(L (W xff xff xff xff xff xff xff xff)))
(T (W xff xff xff xff xff xff xff xff)
(L (W x50 x00 x00 x00 x44 x00 x00 x00))
(L (W x00 x00 x00 x00 x00 x00 x00 x00)))))))))
(T (W x68 x00 x00 x00 x5c x00 x00 x00)
(T (W x00 x00 x00 x00 x00 x00 x00 x00)
(T (W xe8 x00 x00 x00 xb8 x00 x00 x00)
(T (W xff xff xff xff xff xff xff xff)
(T (W x45 x26 x22 x84 xe4 x9c xf2 xcb)
(T (W x00 x00 x00 x00 x00 x00 x00 x00)
(T (W xbc x00 x00 x00 xb0 x00 x00 x00)
(T (W x64 x00 x00 x00 x9c x00 x00 x00)
(L (W x6c x8c xff xff x1b x00 x00 x00)) E)
(L (W x00 x00 x00 x00 x00 x00 x00 x00)))
(T (W x00 x00 x80 x3f x00 x00 x80 x3f)
(L (W xff xff xff xff xff xff xff xff))
(L (W x50 x00 x00 x00 x44 x00 x00 x00))))
(T (W x1c x01 x00 x00 x04 x00 x00 x00)
(T (W x00 x00 x80 x3f x00 x00 x80 x3f)
(T (W x00 x00 x00 x00 x00 x00 x00 x00)
(L (W x45 x26 x22 x84 xe4 x9c xf2 xcb)) E)
(L (W x34 x01 x00 x00 x04 x00 x00 x00)))
(T (W x00 x00 x80 x3f x00 x00 x80 x3f)
(L (W x00 x00 x80 xbf x00 x00 x80 xbf))
(L (W x45 x26 x22 x84 xe4 x9c xf2 xcb)))))
(T (W x00 x00 x80 x3f x00 x00 x80 x3f)
(T (W x00 x00 x00 x00 x00 x00 x00 x00)
(T (W x18 x00 x00 x00 x10 x00 x00 x00)
(T (W x00 x00 x80 x3f x00 x00 x80 x3f)
(L (W x00 x00 x00 x00 x04 x00 x00 x00)) E)
(L (W x03 x00 x00 x00 xd8 x00 x00 x00)))
(T (W xff xff xff xff xff xff xff xff)
(L (W x00 x00 x80 xbf x00 x00 x80 xbf))
(L (W xff xff xff xff xff xff xff xff))))
(T (W xff xff xff xff xff xff xff xff)
(T (W x00 x00 x00 x00 x12 x00 x00 x00)
(T (W xff xff xff xff xff xff xff xff)
(L (W xff xff xff xff xff xff xff xff)) E)
(L (W x45 x26 x22 x84 xe4 x9c xf2 xcb)))
(T (W xff xff xff xff x02 x00 x00 x00)
(L (W x00 x00 x80 xbf x00 x00 x80 xbf))
(L (W x03 x00 x00 x00 xd0 x00 x00 x00))))))
(T (W x00 x00 x80 x3f x00 x00 x80 x3f)
(T (W x00 x00 x00 x00 x00 x00 x00 x00)
(T (W xc6 xbc xe9 x03 xc8 x44 x65 xc5)
(T (W x50 x00 x00 x00 x44 x00 x00 x00)
(T (W x18 x00 x00 x00 x10 x00 x00 x00)
(L (W x00 x00 x00 x00 x04 x00 x00 x00)) E)
(L (W x46 x53 x59 x53 x5f x4e x53 x5f)))
(T (W xc2 x15 xfd xff x78 x00 x00 x00)
(L (W x00 x00 x80 x3f x00 x00 x80 x3f))
(L (W xff xff xff xff xff xff xff xff))))
(T (W xff xff xff xff xff xff xff xff)
(T (W xff xff xff xff xbc x00 x00 x00)
(T (W x00 x00 x80 x3f x00 x00 x80 x3f)
(L (W x68 x00 x00 x00 x5c x00 x00 x00)) E)
(L (W x00 x00 x00 x00 x00 x00 x00 x00)))
(T (W x12 x54 xfd xff x74 x00 x00 x00)
(L (W x00 x00 x80 xbf x00 x00 x80 xbf))
(L (W x18 x00 x00 x00 x0c x00 x00 x00)))))
(T (W x00 x00 x00 x00 x00 x00 x00 x00)
(T (W x3e x00 x00 x00 x10 x00 x00 x00)
(T (W xff xff xff xff xff xff xff xff)
(T (W x00 x00 x00 x00 x00 x00 x00 x00)
(L (W x45 x26 x22 x84 xe4 x9c xf2 xcb)) E)
(L (W xff xff xff xff xff xff xff xff)))
(T (W xc4 x4c xfd xff x10 x00 x00 x00)
(L (W x00 x00 x80 xbf x00 x00 x80 xbf))
(L (W xc2 x35 xff xff x78 x00 x00 x00))))
(T (W xff xff xff xff xff xff xff xff)
(T (W x00 x00 x00 x00 x00 x00 x00 x00)
(T (W x00 x00 x00 x00 x4c xf7 xfd xff)
(L (W x00 x00 x80 xbf x00 x00 x80 xbf)) E)
(L (W x00 x00 x80 xbf x00 x00 x80 xbf)))
(T (W x00 x00 x80 x3f x00 x00 x80 x3f)
(L (W x00 x00 x80 xbf x00 x00 x80 xbf))
(L (W x03 x00 x00 x00 xd0 x00 x00 x00)))))))
(T (W xff xff xff xff xff xff xff xff)
(T (W x00 x00 x00 x00 x00 x00 x00 x00)
(T (W x00 x00 x00 x00 x00 x00 x00 x00)
(T (W x00 x00 x00 x00 x00 x00 x00 x00)
(T (W xdc x90 xfc xff x00 x01 x01 x01)
(T (W xff xff xff xff xff xff xff xff)
(L (W x00 x00 x00 x00 x02 xa3 xff xff)) E)
(L (W x00 x00 x00 x00 x00 x00 x00 x00)))
(T (W x00 x00 x80 x3f x00 x00 x80 x3f)
(L (W x00 x00 x00 x00 x00 x00 x00 x00))
(L (W xc4 x00 x00 x00 x01 x00 x00 x00))))
(T (W xff xff xff xff xff xff xff xff)
(T (W xdc xd0 xfc xff x00 x01 x01 x01)
(T (W x45 x26 x22 x84 xe4 x9c xf2 xcb)
(L (W x54 x00 x00 x00 x48 x00 x00 x00)) E)
(L (W x30 x33 x5f x43 x4c x45 x41 x52)))
(T (W x68 x00 x00 x00 x5c x00 x00 x00)
(L (W x00 x00 x80 xbf x00 x00 x80 xbf))
(L (W x00 x00 x80 xbf x00 x00 x80 xbf)))))
(T (W x00 x00 x80 x3f x00 x00 x80 x3f)
(T (W x00 x00 x00 x00 x00 x00 x00 x00)
(T (W xc0 x00 x00 x00 xb4 x00 x00 x00)
(T (W x00 x00 x80 x3f x00 x00 x80 x3f)
(L (W x49 xa1 x68 x4a xeb x5f xdd x3d)) E)
(L (W xff xff xff xff xff xff xff xff)))
(T (W x00 x00 x00 x00 x00 x00 x00 x00)
(L (W xff xff xff xff xff xff xff xff))
(L (W xb0 x00 x00 x00 x64 x00 x00 x00))))
(T (W xff xff xff xff xff xff xff xff)
(T (W x00 x00 x00 x00 x00 x00 x00 x00)
(T (W x6f x6b x65 x5f x77 x61 x72 x6c)
(L (W x45 x26 x22 x84 xe4 x9c xf2 xcb)) E)
(L (W x00 x00 x80 xbf x00 x00 x80 xbf)))
(T (W x45 x26 x22 x84 xe4 x9c xf2 xcb)
(L (W x00 x00 x80 xbf x00 x00 x80 xbf))
(L (W xff xff xff xff x9c x00 x00 x00))))))
(T (W x00 x00 x80 x3f x00 x00 x80 x3f)
(T (W x45 x26 x22 x84 xe4 x9c xf2 xcb)
(T (W xa2 x38 xfe xff xf0 x00 x00 x00)
(T (W x00 x00 x80 x3f x00 x00 x80 x3f)
(T (W x01 x00 x00 x00 x9c x00 x00 x00)
(L (W xff xff xff xff xff xff xff xff)) E)
(L (W x00 x00 x00 x00 x00 x00 x62 x00)))
(T (W x18 x00 x00 x00 x10 x00 x00 x00)
(L (W x45 x26 x22 x84 xe4 x9c xf2 xcb))
(L (W xff xff xff xff xff xff xff xff))))
(T (W xff xff xff xff xff xff xff xff)
(T (W xff xff xff xff xff xff xff xff)
(T (W x00 x00 x80 x3f x00 x00 x80 x3f)
(L (W x00 x00 x80 xbf x00 x00 x80 xbf)) E)
(L (W x00 x00 x00 x00 x00 x00 x00 x00)))
(T (W x03 x00 x00 x00 xcc x00 x00 x00)
(L (W x00 x00 x80 xbf x00 x00 x80 xbf))
(L (W xff xff xff xff xff xff xff xff)))))
(T (W x00 x00 x00 x00 x00 x00 x00 x00)
(T (W x00 x00 x00 x00 x7a x88 xff xff)
(T (W x2c x00 x30 x00 x34 x00 x38 x00)
(T (W x00 x00 x00 x00 x00 x00 x00 x00)
(L (W x00 x00 x80 xbf x00 x00 x80 xbf)) E)
(L (W xff xff xff xff xff xff xff xff)))
(T (W x00 x00 x00 x00 x00 x00 x00 x00)
(L (W x00 x00 x80 xbf x00 x00 x80 xbf))
(L (W x0c x00 x00 x00 x00 x00 x01 x01))))
(T (W x64 x00 x00 x00 x9c x00 x00 x00)
(T (W x00 x00 x80 x3f x00 x00 x80 x3f)
(T (W xff xff xff xff xff xff xff xff)
(L (W x18 x00 x1c x00 x20 x00 x24 x00)) E)
(L (W x00 x00 x80 xbf x00 x00 x80 xbf)))
(T (W x00 x00 x80 x3f x00 x00 x80 x3f)
(L (W x00 x00 x00 x00 x00 x00 x00 x00))
(L (W x00 x00 x00 x00 x00 x00 x00 x00))))))))
(T (W x06 x00 x00 x00 x30 x06 x00 x00)
(T (W x00 x00 x80 x3f x00 x00 x80 x3f)
(T (W x40 x00 x00 x00 x9c x00 x00 x00)
(T (W xff xff xff xff xff xff xff xff)
(T (W x0a x00 x00 x00 x3e x00 x00 x00)
(T (W x00 x00 x00 x00 x00 x00 x00 x00)
(T (W x00 x00 x80 x3f x00 x00 x80 x3f)
(L (W x00 x00 x80 xbf x00 x00 x80 xbf)) E)
(L (W x1c x00 x00 x00 x10 x00 x00 x00)))
(T (W x34 x01 x00 x00 x04 x00 x00 x00)
(L (W x6c x00 x00 x00 x60 x00 x00 x00))
(L (W x45 x44 x00 x00 x00 x00 x00 x00))))
(T (W x00 x00 x80 x3f x00 x00 x80 x3f)
(T (W x00 x00 x00 x00 xf2 xc8 xfc xff)
(T (W xff xff xff xff xff xff xff xff)
(L (W x00 x00 x00 x00 x12 x00 x00 x00)) E)
(L (W x00 x00 x80 xbf x00 x00 x80 xbf)))
(T (W xff xff xff xff x02 x00 x00 x00)
(L (W xff xff xff xff xff xff xff xff))
(L (W x74 x03 x00 x00 x4c x02 x00 x00)))))
(T (W xff xff xff xff xff xff xff xff)
(T (W x12 x28 xfc xff x74 x00 x00 x00)
(T (W x00 x00 x00 x00 x00 x00 x00 x00)
(T (W xff xff xff xff xff xff xff xff)
(L (W x50 x00 x00 x00 x44 x00 x00 x00)) E)
(L (W x00 x00 x00 x00 x00 x00 x00 x00)))
(T (W x00 x00 x80 x3f x00 x00 x80 x3f)
(L (W x00 x00 x00 x00 x00 x00 x00 x00))
(L (W x45 x26 x22 x84 xe4 x9c xf2 xcb))))
(T (W x00 x00 x00 x00 x00 x00 x00 x00)
(T (W x1f x00 x00 x00 x22 x00 x00 x00)
(T (W xff xff xff xff xff xff xff xff)
(L (W xff xff xff xff xff xff xff xff)) E)
(L (W xff xff xff xff xff xff xff xff)))
(T (W xff xff xff xff xb0 x00 x00 x00)
(L (W xff xff xff xff xff xff xff xff))
(L (W x00 x00 x00 x00 x00 x00 x00 x00))))))
(T (W xff xff xff xff xff xff xff xff)
(T (W xff xff xff xff xff xff xff xff)
(T (W x12 x18 xfc xff x74 x00 x00 x00)
(T (W x6c xa0 xfc xff x19 x00 x00 x00)
(T (W x00 x00 x00 x00 x00 x00 x00 x00)
(L (W x50 x00 x00 x00 x44 x00 x00 x00)) E)
(L (W x18 x00 x00 x00 x0c x00 x00 x00)))
(T (W x00 x00 x00 x00 x00 x00 x00 x00)
(L (W xff xff xff xff xff xff xff xff))
(L (W x50 x00 x00 x00 x44 x00 x00 x00))))
(T (W x00 x00 x80 x3f x00 x00 x80 x3f)
(T (W x00 x00 x80 x3f x00 x00 x80 x3f)
(T (W x1d x00 x00 x00 x10 x00 x00 x00)
(L (W xff xff xff xff xff xff xff xff)) E)
(L (W x00 x00 x00 x00 x4c xdb xfe xff)))
(T (W x12 x00 x00 x00 x46 x53 x59 x53)
(L (W xff xff xff xff xff xff xff xff))
(L (W x00 x00 x00 x00 x00 x00 x00 x00)))))
(T (W x45 x26 x22 x84 xe4 x9c xf2 xcb)
(T (W x00 x00 x80 x3f x00 x00 x80 x3f)
(T (W x00 x00 x00 x00 x00 x00 x00 x00)
(T (W x00 x00 x00 x00 x00 x00 x00 x00)
(L (W x00 x00 x00 x00 x00 x00 x00 x00)) E)
(L (W x45 x26 x22 x84 xe4 x9c xf2 xcb)))
(T (W x45 x26 x22 x84 xe4 x9c xf2 xcb)
(L (W xff xff xff xff xff xff xff xff))
(L (W x08 x00 x00 x00 x00 x08 x00 x00))))
(T (W x00 x00 x00 x00 x00 x00 x00 x00)
(T (W xff xff xff xff xff xff xff xff)
(T (W x04 x00 x00 x00 xe2 x97 x8f x3d)
(L (W xff xff xff xff xff xff xff xff)) E)
(L (W x00 x00 x00 x00 x00 x00 x00 x00)))
(T (W x9d x01 x00 x00 xff xff xff xff)
(L (W x03 x00 x00 x00 xd0 x00 x00 x00))
(L (W x00 x00 x00 x00 x00 x00 x00 x00)))))))
(T (W xff xff xff xff xff xff xff xff)
(T (W xff xff xff xff xff xff xff xff)
(T (W xff xff xff xff xff xff xff xff)
(T (W xc0 x00 x00 x00 xb4 x00 x00 x00)
(T (W x00 x00 x00 x00 x00 x00 x00 x00)
(T (W x00 x00 x00 x00 x00 x00 x00 x00)
(L (W x6c x00 x00 x00 x60 x00 x00 x00)) E)
(L (W x1c x00 x00 x00 x1f x00 x00 x00)))
(T (W x00 x00 x00 x00 x00 x00 x00 x00)
(L (W x18 x00 x00 x00 x10 x00 x00 x00))
(L (W x00 x00 x80 xbf x00 x00 x80 xbf))))
(T (W x50 x00 x00 x00 x44 x00 x00 x00)
(T (W x00 x00 x00 x00 x00 x00 x00 x00)
(T (W xff xff xff xff xff xff xff xff)
(L (W xff xff xff xff xff xff xff xff)) E)
(L (W x50 x00 x00 x00 x44 x00 x00 x00)))
(T (W x9f x68 xea xc8 x7a xc7 xbc xc0)
(L (W xff xff xff xff xff xff xff xff))
(L (W x00 x00 x00 x00 x00 x00 x00 x00)))))
(T (W xb8 x00 x00 x00 xac x00 x00 x00)
(T (W x00 x00 x80 x3f x00 x00 x80 x3f)
(T (W xcd xaf x1e xc1 x86 xfb x93 x14)
(T (W xff xff xff xff xff xff xff xff)
(L (W xff xff xff xff xff xff xff xff)) E)
(L (W x00 x00 x00 x00 x00 x00 x00 x00)))
(T (W xdc x34 xfd xff x00 x01 x01 x01)
(L (W xff xff xff xff xff xff xff xff))
(L (W x46 x53 x59 x53 x5f x4e x53 x5f))))
(T (W x00 x00 x00 x00 x00 x00 x00 x00)
(T (W xff xff xff xff x9c x00 x00 x00)
(T (W x64 x00 x00 x00 x91 x00 x00 x00)
(L (W x18 x00 x00 x00 x0c x00 x00 x00)) E)
(L (W xaa xf2 xfe xff xa9 x01 x00 x00)))
(T (W xff xff xff xff xff xff xff xff)
(L (W xff xff xff xff xb4 x00 x00 x00))
(L (W x4f x84 x6f x8b xe8 xcb x63 xb7))))))
(T (W xff xff xff xff xff xff xff xff)
(T (W xff xff xff xff xff xff xff xff)
(T (W x45 x26 x22 x84 xe4 x9c xf2 xcb)
(T (W x00 x00 x00 x00 x00 x00 x00 x00)
(T (W x6c xa8 xfd xff x1f x00 x00 x00)
(L (W x54 x00 x00 x00 x48 x00 x00 x00)) E)
(L (W x00 x00 x80 xbf x00 x00 x80 xbf)))
(T (W x00 x00 x00 x00 x00 x00 x00 x00)
(L (W xff xff xff xff x9c x00 x00 x00))
(L (W x00 x00 x00 x00 x00 x00 x00 x00))))
(T (W x00 x00 x80 x3f x00 x00 x80 x3f)
(T (W x00 x00 x80 x3f x00 x00 x80 x3f)
(T (W x00 x00 x80 x3f x00 x00 x80 x3f)
(L (W x10 x00 x14 x00 x00 x00 x00 x00)) E)
(L (W xff xff xff xff xff xff xff xff)))
(T (W x00 x00 x00 x00 x00 x00 x00 x00)
(L (W xff xff xff xff xff xff xff xff))
(L (W x49 xa1 x68 x4a xeb x5f xdd x3d)))))
(T (W x01 x00 x00 x00 x9c x00 x00 x00)
(T (W x00 x00 x80 x3f x00 x00 x80 x3f)
(T (W xff xff xff xff xff xff xff xff)
(T (W x12 xc0 xfd xff x74 x00 x00 x00)
(L (W xff xff xff xff xff xff xff xff)) E)
(L (W x00 x00 x80 xbf x00 x00 x80 xbf)))
(T (W xff xff xff xff xff xff xff xff)
(L (W xff xff xff xff xff xff xff xff))
(L (W x00 x00 x00 x00 xf2 x40 xff xff))))
(T (W x00 x00 x00 x00 x00 x00 x00 x00)
(T (W xff xff xff xff xff xff xff xff)
(T (W x18 x00 x00 x00 x0c x00 x00 x00)
(L (W x18 x00 x1c x00 x20 x00 x24 x00)) E)
(L (W x00 x00 x00 x00 x00 x00 x00 x00)))
(T (W x6c x88 xfd xff x25 x00 x00 x00)
(L (W x14 x00 x00 x00 x0c x00 x00 x00))
(L (W x54 x00 x00 x00 x48 x00 x00 x00))))))))))
(T (W x78 x62 x01 x00 xd4 x5d x01 x00)
(T (W xb0 x38 x00 x00 x7c x37 x00 x00)
(T (W x04 x00 x00 x00 x22 xac xfd xff)
(T (W x00 x00 x80 x3f x00 x00 x80 x3f)
(T (W xb8 x00 x00 x00 xac x00 x00 x00)
(T (W x00 x00 x00 x00 x00 x00 x00 x00)
(T (W x74 x8b xef xdf x56 x2b x2e x6c)
(T (W x50 x00 x00 x00 x44 x00 x00 x00)
(T (W x18 x00 x00 x00 x0c x00 x00 x00)
(L (W xff xff xff xff xff xff xff xff)) E)
(L (W x6c x8b xfe xff x1d x00 x00 x00)))
(T (W x00 x00 x00 x00 x00 x00 x00 x00)
(L (W x00 x00 x80 x3f x00 x00 x80 x3f))
(L (W x00 x00 x80 xbf x00 x00 x80 xbf))))
(T (W xff xff xff xff xff xff xff xff)
(T (W x00 x00 x00 x00 x00 x00 x00 x00)
(T (W x12 xe1 xff xff x00 x00 x01 x01)
(L (W x6c x00 x00 x00 x60 x00 x00 x00)) E)
(L (W xff xff xff xff xc4 x00 x00 x00)))
(T (W x00 x00 x00 x00 x00 x00 x00 x00)
(L (W x00 x00 x00 x00 x00 x00 x00 x00))
(L (W x00 x00 x80 xbf x00 x00 x80 xbf)))))
(T (W x45 x26 x22 x84 xe4 x9c xf2 xcb)
(T (W x62 x6c xff xff x88 x03 x00 x00)
(T (W x00 x00 x00 x00 x00 x00 x00 x00)
(T (W x00 x00 x80 x3f x00 x00 x80 x3f)
(L (W xff xff xff xff xff xff xff xff)) E)
(L (W xff xff xff xff x9c x00 x00 x00)))
(T (W xff xff xff xff xc8 x00 x00 x00)
(L (W x00 x00 x00 x00 x00 x00 x00 x00))
(L (W x48 x26 xff xff x72 x61 xff xff))))
(T (W xc0 x00 x00 x00 xb4 x00 x00 x00)
(T (W x34 x01 x00 x00 x04 x00 x00 x00)
(T (W x00 x00 x80 x3f x00 x00 x80 x3f)
(L (W xff xff xff xff xff xff xff xff)) E)
(L (W x00 x00 x00 x00 x00 x00 x00 x00)))
(T (W xff xff xff xff xff xff xff xff)
(L (W x00 x00 x00 x00 x00 x00 x00 x00))
(L (W xff xff xff xff xac x00 x00 x00))))))
(T (W x45 x26 x22 x84 xe4 x9c xf2 xcb)
(T (W x00 x00 x00 x00 x00 x00 x00 x00)
(T (W xff xff xff xff xff xff xff xff)
(T (W x00 x00 x80 x3f x00 x00 x80 x3f)
(T (W x45 x26 x22 x84 xe4 x9c xf2 xcb)
(L (W xff xff xff xff xff xff xff xff)) E)
(L (W xba x98 xfe xff x8d x01 x00 x00)))
(T (W x50 x00 x00 x00 x44 x00 x00 x00)
(L (W x00 x00 x80 x3f x00 x00 x80 x3f))
(L (W xb8 x00 x00 x00 x03 x00 x00 x00))))
(T (W x18 x00 x00 x00 x10 x00 x00 x00)
(T (W x45 x26 x22 x84 xe4 x9c xf2 xcb)
(T (W x00 x00 x00 x00 x00 x00 x00 x00)
(L (W x00 x00 x80 xbf x00 x00 x80 xbf)) E)
(L (W x00 x00 x00 x00 x00 x00 x00 x00)))
(T (W x00 x00 x80 x3f x00 x00 x80 x3f)
(L (W x00 x00 x00 x00 x00 x00 x00 x00))
(L (W x00 x00 x80 xbf x00 x00 x80 xbf)))))
(T (W x00 x00 x00 x00 x00 x00 x00 x00)
(T (W xff xff xff xff xff xff xff xff)
(T (W x54 x00 x00 x00 x48 x00 x00 x00)
(T (W x00 x00 x00 x00 x00 x00 x00 x00)
(L (W x00 x00 x00 x00 x00 x00 x00 x00)) E)
(L (W xff xff xff xff xff xff xff xff)))
(T (W xff xff xff xff xff xff xff xff)
(L (W x45 x26 x22 x84 xe4 x9c xf2 xcb))
(L (W x68 x00 x00 x00 x5c x00 x00 x00))))
(T (W x00 x00 x00 x00 x4c x76 xfc xff)
(T (W x00 x00 x00 x00 x00 x00 x00 x00)
(T (W x00 x00 x00 x00 x01 x00 x00 x00)
(L (W x49 xa1 x68 x4a xeb x5f xdd x3d)) E)
(L (W x4f x84 x6f x8b xe8 xcb x63 xb7)))
(T (W x00 x00 x00 x00 x00 x00 x00 x00)
(L (W x00 x00 x00 x00 x00 x00 x00 x00))
(L (W xff xff xff xff xac x00 x00 x00)))))))
(T (W x00 x00 x80 x3f x00 x00 x80 x3f)
(T (W x00 x00 x00 x00 x00 x00 x00 x00)
(T (W x00 x00 x00 x00 x00 x00 x00 x00)
(T (W x6c x01 x00 x00 xff xff xff xff)
(T (W x00 x00 x80 x3f x00 x00 x80 x3f)
(T (W x18 x00 x00 x00 x10 x00 x00 x00)
(L (W xff xff xff xff xff xff xff xff)) E)
(L (W x00 x00 x00 x00 x00 x00 x00 x00)))
(T (W x00 x00 x80 x3f x00 x00 x80 x3f)
(L (W x00 x00 x00 x00 x00 x00 x00 x00))
(L (W x50 x00 x00 x00 x44 x00 x00 x00))))
(T (W xff xff xff xff x04 x00 x00 x00)
(T (W x00 x00 x80 x3f x00 x00 x80 x3f)
(T (W x00 x00 x00 x00 x00 x00 x00 x00)
(L (W x00 x00 x80 xbf x00 x00 x80 xbf)) E)
(L (W xff xff xff xff xff xff xff xff)))
(T (W x45 x26 x22 x84 xe4 x9c xf2 xcb)
(L (W x00 x00 x80 xbf x00 x00 x80 xbf))
(L (W x00 x00 x80 xbf x00 x00 x80 xbf)))))
(T (W x00 x00 x00 x00 x00 x00 x00 x00)
(T (W x48 x03 x00 x00 x34 x02 x00 x00)
(T (W x00 x00 x80 x3f x00 x00 x80 x3f)
(T (W x00 x00 x00 x00 x00 x00 x00 x00)
(L (W x00 x00 x00 x00 x00 x00 x00 x00)) E)
(L (W x03 x00 x00 x00 xd0 x00 x00 x00)))
(T (W xff xff xff xff xff xff xff xff)
(L (W x45 x26 x22 x84 xe4 x9c xf2 xcb))
(L (W xdc x2f xff xff x00 x01 x01 x01))))
(T (W xff xff xff xff x03 x00 x00 x00)
(T (W x00 x00 x00 x00 x00 x00 x00 x00)
(T (W xff xff xff xff xff xff xff xff)
(L (W x54 x00 x00 x00 x48 x00 x00 x00)) E)
(L (W x00 x00 x00 x00 x00 x00 x00 x00)))
(T (W x12 x00 x00 x00 x46 x53 x59 x53)
(L (W x00 x00 x00 x00 x00 x00 x00 x00))
(L (W xc2 x6c xff xff x78 x00 x00 x00))))))
(T (W x00 x00 x80 x3f x00 x00 x80 x3f)
(T (W x00 x00 x00 x00 x00 x00 x00 x00)
(T (W xff xff xff xff xff xff xff xff)
(T (W x00 x00 x80 x3f x00 x00 x80 x3f)
(T (W x00 x00 x80 x3f x00 x00 x80 x3f)
(L (W xff xff xff xff xff xff xff xff)) E)
(L (W xa9 x01 x00 x00 xff xff xff xff)))
(T (W x6c x00 x00 x00 x60 x00 x00 x00)
(L (W x00 x00 x80 xbf x00 x00 x80 xbf))
(L (W x03 x00 x00 x00 xd8 x00 x00 x00))))
(T (W xb8 x00 x00 x00 xac x00 x00 x00)
(T (W xff xff xff xff xff xff xff xff)
(T (W x00 x00 x80 x3f x00 x00 x80 x3f)
(L (W x45 x26 x22 x84 xe4 x9c xf2 xcb)) E)
(L (W x18 x00 x00 x00 x10 x00 x00 x00)))
(T (W x18 x00 x00 x00 x10 x00 x00 x00)
(L (W x00 x00 x00 x00 x00 x00 x00 x00))
(L (W x1d x00 x00 x00 x20 x00 x00 x00)))))
(T (W x00 x00 x00 x00 x00 x00 x00 x00)
(T (W xff xff xff xff xff xff xff xff)
(T (W x64 x00 x00 x00 x90 x00 x00 x00)
(T (W x00 x00 x00 x00 x00 x00 x00 x00)
(L (W x00 x00 x80 xbf x00 x00 x80 xbf)) E)
(L (W xc4 x00 x00 x00 x01 x00 x00 x00)))
(T (W x00 x00 x00 x00 x00 x00 x00 x00)
(L (W x49 xa1 x68 x4a xeb x5f xdd x3d))
(L (W x00 x00 x80 xbf x00 x00 x80 xbf))))
(T (W x45 x26 x22 x84 xe4 x9c xf2 xcb)
(T (W x00 x00 x00 x00 x00 x00 x00 x00)
(T (W xff xff xff xff xff xff xff xff)
(L (W x1f x00 x00 x00 x22 x00 x00 x00)) E)
(L (W x00 x00 x80 xbf x00 x00 x80 xbf)))
(T (W x00 x00 x80 x3f x00 x00 x80 x3f)
(L (W x46 x53 x59 x53 x5f x4e x53 x5f))
(L (W xff xff xff xff xff xff xff xff))))))))
(T (W x12 x8f xfb xff x74 x00 x00 x00)
(T (W x00 x00 x00 x00 x00 x00 x00 x00)
(T (W x00 x00 x00 x00 x00 x00 x00 x00)
(T (W xff xff xff xff xff xff xff xff)
(T (W x18 x00 x00 x00 x0c x00 x00 x00)
(T (W x00 x00 x00 x00 x00 x00 x00 x00)
(T (W x00 x00 x00 x00 x00 x00 x00 x00)
(L (W x00 x00 x80 xbf x00 x00 x80 xbf)) E)
(L (W x00 x00 x80 xbf x00 x00 x80 xbf)))
(T (W xff xff xff xff xff xff xff xff)
(L (W x00 x00 x00 x00 x00 x00 x00 x00))
(L (W xff xff xff xff xff xff xff xff))))
(T (W x00 x00 x80 x3f x00 x00 x80 x3f)
(T (W xff xff xff xff xff xff xff xff)
(T (W x68 x00 x00 x00 x5c x00 x00 x00)
(L (W x64 x03 x00 x00 x34 x02 x00 x00)) E)
(L (W x00 x00 x80 xbf x00 x00 x80 xbf)))
(T (W xff xff xff xff xff xff xff xff)
(L (W xff xff xff xff xff xff xff xff))
(L (W xff xff xff xff xff xff xff xff)))))
(T (W x45 x26 x22 x84 xe4 x9c xf2 xcb)
(T (W x00 x00 x80 x3f x00 x00 x80 x3f)
(T (W x37 x00 x00 x00 xff xff xff xff)
(T (W xff xff xff xff xff xff xff xff)
(L (W x00 x00 x80 xbf x00 x00 x80 xbf)) E)
(L (W x30 x33 x5f x43 x4c x45 x41 x52)))
(T (W x49 xa1 x68 x4a xeb x5f xdd x3d)
(L (W xff xff xff xff xff xff xff xff))
(L (W x00 x00 x00 x00 x00 x00 x00 x00))))
(T (W x00 x00 x00 x00 x00 x00 x00 x00)
(T (W x00 x00 x80 x3f x00 x00 x80 x3f)
(T (W xff xff xff xff xff xff xff xff)
(L (W x00 x00 x00 x00 x00 x00 x00 x00)) E)
(L (W xff xff xff xff xff xff xff xff)))
(T (W x00 x00 x80 x3f x00 x00 x80 x3f)
(L (W x45 x26 x22 x84 xe4 x9c xf2 xcb))
(L (W x00 x00 x00 x00 x12 x00 x00 x00))))))
(T (W xff xff xff xff x04 x00 x00 x00)
(T (W xff xff xff xff x04 x00 x00 x00)
(T (W x54 x00 x00 x00 x48 x00 x00 x00)
(T (W xff xff xff xff xff xff xff xff)
(T (W x1d x00 x00 x00 x0c x00 x00 x00)
(L (W x00 x00 x80 xbf x00 x00 x80 xbf)) E)
(L (W x00 x00 x80 xbf x00 x00 x80 xbf)))
(T (W x00 x00 x00 x00 x00 x00 x00 x00)
(L (W xff xff xff xff xbc x00 x00 x00))
(L (W x00 x00 x80 xbf x00 x00 x80 xbf))))
(T (W x45 x26 x22 x84 xe4 x9c xf2 xcb)
(T (W x00 x00 x00 x00 x00 x00 x00 x00)
(T (W xff xff xff xff xff xff xff xff)
(L (W xff xff xff xff xff xff xff xff)) E)
(L (W x00 x00 x80 xbf x00 x00 x80 xbf)))
(T (W x00 x00 x00 x00 x00 x00 x00 x00)
(L (W xff xff xff xff xff xff xff xff))
(L (W x5f x4e x53 x5f x30 x33 x5f x43)))))
(T (W xdc xfb xfb xff x00 x01 x01 x01)
(T (W x00 x00 x80 x3f x00 x00 x80 x3f)
(T (W x62 x00 x00 x00 x26 x00 x00 x00)
(T (W x64 x5f x6c x76 x31 x00 x00 x00)
(L (W xff xff xff xff xff xff xff xff)) E)
(L (W x00 x00 x00 x00 x00 x00 x00 x00)))
(T (W x50 x00 x00 x00 x44 x00 x00 x00)
(L (W xff xff xff xff xff xff xff xff))
(L (W xff xff xff xff xff xff xff xff))))
(T (W x00 x00 x00 x00 x00 x00 x00 x00)
(T (W xb8 x00 x00 x00 x32 x00 x00 x00)
(T (W x02 x00 x00 x00 xff xff xff xff)
(L (W x6c x00 x00 x00 x60 x00 x00 x00)) E)
(L (W xff xff xff xff xff xff xff xff)))
(T (W xff xff xff xff xff xff xff xff)
(L (W x1d x00 x00 x00 x20 x00 x00 x00))
(L (W x00 x00 x00 x00 x00 x00 x00 x00)))))))
(T (W x40 x00 x00 x00 x9c x00 x00 x00)
(T (W xff xff xff xff xff xff xff xff)
(T (W x18 x00 x00 x00 x10 x00 x00 x00)
(T (W x00 x00 x80 x3f x00 x00 x80 x3f)
(T (W x00 x00 x00 x00 x04 x00 x00 x00)
(T (W x00 x00 x00 x00 x00 x00 x00 x00)
(L (W x45 x26 x22 x84 xe4 x9c xf2 xcb)) E)
(L (W xc2 x90 xfe xff x78 x00 x00 x00)))
(T (W xff xff xff xff xff xff xff xff)
(L (W x54 x00 x00 x00 x48 x00 x00 x00))
(L (W x00 x00 x00 x00 x00 x00 x00 x00))))
(T (W x00 x00 x00 x00 x00 x00 x00 x00)
(T (W x00 x00 x00 x00 x00 x00 x00 x00)
(T (W xff xff xff xff xff xff xff xff)
(L (W xff xff xff xff xff xff xff xff)) E)
(L (W x00 x00 x80 xbf x00 x00 x80 xbf)))
(T (W xff xff xff xff xff xff xff xff)
(L (W xff xff xff xff xff xff xff xff))
(L (W xff xff xff xff xff xff xff xff)))))
(T (W x68 x00 x00 x00 x5c x00 x00 x00)
(T (W x45 x26 x22 x84 xe4 x9c xf2 xcb)
(T (W xff xff xff xff xff xff xff xff)
(T (W xb8 x00 x00 x00 xac x00 x00 x00)
(L (W x45 x26 x22 x84 xe4 x9c xf2 xcb)) E)
(L (W x00 x00 x00 x00 x00 x00 x00 x00)))
(T (W x00 x00 x80 x3f x00 x00 x80 x3f)
(L (W x28 x00 x00 x00 x1c x00 x00 x00))
(L (W x00 x00 x00 x00 x00 x00 x00 x00))))
(T (W x40 x00 x00 x00 x0c x00 x00 x00)
(T (W xc2 xf0 xfc xff x78 x00 x00 x00)
(T (W x00 x00 x00 x00 x00 x00 x00 x00)
(L (W x6c xf7 xff xff x1a x00 x00 x00)) E)
(L (W xff xff xff xff xff xff xff xff)))
(T (W xc8 x00 x00 x00 x01 x00 x00 x00)
(L (W x45 x26 x22 x84 xe4 x9c xf2 xcb))
(L (W x00 x00 x00 x00 x00 x00 x00 x00))))))
(T (W x18 x00 x00 x00 x0c x00 x00 x00)
(T (W xb8 x00 x00 x00 xac x00 x00 x00)
(T (W x00 x00 x80 x3f x00 x00 x80 x3f)
(T (W x04 x00 x00 x00 x22 xc0 xfe xff)
(T (W xff xff xff xff xff xff xff xff)
(L (W x00 x00 x80 xbf x00 x00 x80 xbf)) E)
(L (W x00 x00 x00 x00 x00 x00 x00 x00)))
(T (W x00 x00 x00 x00 x00 x00 x00 x00)
(L (W x00 x00 x80 xbf x00 x00 x80 xbf))
(L (W x00 x00 x00 x00 x00 x00 x00 x00))))
(T (W x00 x00 x00 x00 x00 x00 x00 x00)
(T (W x00 x00 x80 x3f x00 x00 x80 x3f)
(T (W x20 x00 x24 x00 x28 x00 x2c x00)
(L (W xff xff xff xff x9c x00 x00 x00)) E)
(L (W x45 x26 x22 x84 xe4 x9c xf2 xcb)))
(T (W x00 x00 x00 x00 x12 x00 x00 x00)
(L (W xff xff xff xff xff xff xff xff))
(L (W x00 x00 x00 x00 x00 x00 x00 x00)))))
(T (W x45 x26 x22 x84 xe4 x9c xf2 xcb)
(T (W x00 x00 x80 x3f x00 x00 x80 x3f)
(T (W x18 x00 x00 x00 x10 x00 x00 x00)
(T (W x54 x00 x00 x00 x48 x00 x00 x00)
(L (W xff xff xff xff xb4 x00 x00 x00)) E)
(L (W x00 x00 x80 xbf x00 x00 x80 xbf)))
(T (W x21 x00 x00 x00 x24 x00 x00 x00)
(L (W xff xff xff xff xff xff xff xff))
(L (W xff xff xff xff xff xff xff xff))))
(T (W x00 x00 x00 x00 x00 x00 x00 x00)
(T (W xff xff xff xff xff xff xff xff)
(T (W x00 x00 x00 x00 x00 x00 x00 x00)
(L (W x00 x00 x00 x00 x00 x00 x00 x00)) E)
(L (W x00 x00 x00 x00 x02 x16 xff xff)))
(T (W x02 x00 x00 x00 xff xff xff xff)
(L (W x74 x00 x00 x00 x68 x00 x00 x00))
(L (W x45 x26 x22 x84 xe4 x9c xf2 xcb)))))))))
(T (W xdc x8d xfb xff x00 x01 x01 x01)
(T (W x00 x00 x00 x00 x00 x00 x00 x00)
(T (W x6b x65 x5f x77 x61 x72 x6c x69)
(T (W x4b xd3 x12 x3b xef x3f xdd x3b)
(T (W x54 x00 x00 x00 x48 x00 x00 x00)
(T (W x00 x00 x80 x3f x00 x00 x80 x3f)
(T (W xff xff xff xff xff xff xff xff)
(T (W xd3 x48 x2b x97 x85 x97 x55 x5f)
(L (W x00 x00 x00 x00 x00 x00 x00 x00)) E)
(L (W x45 x26 x22 x84 xe4 x9c xf2 xcb)))
(T (W x45 x26 x22 x84 xe4 x9c xf2 xcb)
(L (W x61 x72 x6c x69 x6b x65 x5f x6c))
(L (W xdc x09 xff xff x00 x01 x01 x01))))
(T (W x00 x00 x00 x00 x00 x00 x00 x00)
(T (W x12 xc5 xfc xff x74 x00 x00 x00)
(T (W x00 x00 x00 x00 x00 x00 x00 x00)
(L (W x45 x26 x22 x84 xe4 x9c xf2 xcb)) E)
(L (W x00 x00 x00 x00 x12 x00 x00 x00)))
(T (W x00 x00 x80 x3f x00 x00 x80 x3f)
(L (W x50 x00 x00 x00 x44 x00 x00 x00))
(L (W xa0 x00 x00 x00 x64 x00 x00 x00)))))
(T (W x00 x00 x80 x3f x00 x00 x80 x3f)
(T (W x00 x00 x00 x00 x00 x00 x00 x00)
(T (W xff xff xff xff x03 x00 x00 x00)
(T (W x01 x00 x00 x00 x9c x00 x00 x00)
(L (W x00 x00 x00 x00 x00 x00 x00 x00)) E)
(L (W xff xff xff xff xff xff xff xff)))
(T (W xff xff xff xff x02 x00 x00 x00)
(L (W x12 x25 xfe xff x74 x00 x00 x00))
(L (W xff xff xff xff xff xff xff xff))))
(T (W xff xff xff xff xff xff xff xff)
(T (W x45 x26 x22 x84 xe4 x9c xf2 xcb)
(T (W x00 x00 x14 x00 x18 x00 x1c x00)
(L (W x00 x00 x00 x00 x00 x00 x00 x00)) E)
(L (W x00 x00 x80 xbf x00 x00 x80 xbf)))
(T (W x00 x00 x00 x00 x00 x00 x00 x00)
(L (W x00 x00 x80 xbf x00 x00 x80 xbf))
(L (W xff xff xff xff xff xff xff xff))))))
(T (W x00 x00 x80 x3f x00 x00 x80 x3f)
(T (W x00 x00 x80 x3f x00 x00 x80 x3f)
(T (W x00 x00 x00 x00 x00 x00 x00 x00)
(T (W x64 x00 x00 x00 x9c x00 x00 x00)
(T (W xff xff xff xff xff xff xff xff)
(L (W x00 x00 x00 x00 x00 x00 x00 x00)) E)
(L (W x00 x00 x00 x00 x00 x00 x00 x00)))
(T (W xff xff xff xff x9c x00 x00 x00)
(L (W x6c x00 x00 x00 x60 x00 x00 x00))
(L (W xff xff xff xff xff xff xff xff))))
(T (W x12 x73 xfe xff x00 x00 x01 x01)
(T (W xff xff xff xff xff xff xff xff)
(T (W x00 x00 x80 x3f x00 x00 x80 x3f)
(L (W xdc xd9 xff xff x00 x01 x01 x01)) E)
(L (W x00 x00 x00 x00 x00 x00 x00 x00)))
(T (W xff xff xff xff xff xff xff xff)
(L (W x45 x26 x22 x84 xe4 x9c xf2 xcb))
(L (W xff xff xff xff xff xff xff xff)))))
(T (W x00 x00 x80 x3f x00 x00 x80 x3f)
(T (W x00 x00 x00 x00 x00 x00 x00 x00)
(T (W x3e x00 x00 x00 x0c x00 x00 x00)
(T (W x00 x00 x80 x3f x00 x00 x80 x3f)
(L (W x44 x00 x00 x00 x00 x00 x80 xbf)) E)
(L (W x00 x00 x00 x00 xf2 xb5 xfe xff)))
(T (W x4f x84 x6f x8b xe8 xcb x63 xb7)
(L (W x00 x00 x00 x00 x4c x38 xfe xff))
(L (W xff xff xff xff x9c x00 x00 x00))))
(T (W xff xff xff xff xff xff xff xff)
(T (W x00 x00 x80 x3f x00 x00 x80 x3f)
(T (W x34 x00 x38 x00 x3c x00 x40 x00)
(L (W xa6 x01 x00 x00 xff xff xff xff)) E)
(L (W x54 x00 x00 x00 x48 x00 x00 x00)))
(T (W xc2 x76 xfd xff x78 x00 x00 x00)
(L (W x00 x00 x80 xbf x00 x00 x80 xbf))
(L (W xff xff xff xff xff xff xff xff)))))))
(T (W x6b x65 x5f x63 x6f x77 x61 x72)
(T (W x00 x00 x80 x3f x00 x00 x80 x3f)
(T (W x00 x00 x80 x3f x00 x00 x80 x3f)
(T (W x00 x00 x00 x00 x00 x00 x00 x00)
(T (W xff xff xff xff xff xff xff xff)
(T (W xff xff xff xff xff xff xff xff)
(L (W x00 x00 x00 x00 x00 x00 x00 x00)) E)
(L (W x00 x00 x00 x00 x00 x00 x00 x00)))
(T (W x1d x00 x00 x00 x20 x00 x00 x00)
(L (W x00 x00 x00 x00 x00 x00 x00 x00))
(L (W xff xff xff xff xff xff xff xff))))
(T (W x40 x00 x00 x00 x10 x00 x00 x00)
(T (W xb0 x00 x00 x00 x64 x00 x00 x00)
(T (W x01 x00 x00 x00 x9c x00 x00 x00)
(L (W x45 x26 x22 x84 xe4 x9c xf2 xcb)) E)
(L (W x00 x00 x00 x00 x00 x00 x00 x00)))
(T (W xff xff xff xff xa0 x00 x00 x00)
(L (W xc2 x4e xfe xff x78 x00 x00 x00))
(L (W xcc x00 x00 x00 x01 x00 x00 x00)))))
(T (W x00 x00 x80 x3f x00 x00 x80 x3f)
(T (W x00 x00 x00 x00 x00 x00 x00 x00)
(T (W xff xff xff xff xff xff xff xff)
(T (W x00 x00 x80 x3f x00 x00 x80 x3f)
(L (W x00 x00 x80 xbf x00 x00 x80 xbf)) E)
(L (W xff xff xff xff xff xff xff xff)))
(T (W x00 x00 x00 x00 x00 x00 x00 x00)
(L (W x00 x00 x62 x00 x74 x00 x08 x00))
(L (W xff xff xff xff xff xff xff xff))))
(T (W xff xff xff xff xff xff xff xff)
(T (W x00 x00 x80 x3f x00 x00 x80 x3f)
(T (W x50 x00 x00 x00 x44 x00 x00 x00)
(L (W xff xff xff xff xff xff xff xff)) E)
(L (W x00 x00 x80 xbf x00 x00 x80 xbf)))
(T (W x00 x00 x80 x3f x00 x00 x80 x3f)
(L (W x00 x00 x80 xbf x00 x00 x80 xbf))
(L (W xff xff xff xff xff xff xff xff))))))
(T (W x00 x00 x80 x3f x00 x00 x80 x3f)
(T (W x00 x00 x80 x3f x00 x00 x80 x3f)
(T (W x00 x00 x00 x00 x00 x00 x00 x00)
(T (W x45 x26 x22 x84 xe4 x9c xf2 xcb)
(T (W xb8 x00 x00 x00 xac x00 x00 x00)
(L (W x6c xa5 xff xff x1a x00 x00 x00)) E)
(L (W x00 x00 x80 xbf x00 x00 x80 xbf)))
(T (W xff xff xff xff xff xff xff xff)
(L (W x48 x00 x4c x00 x50 x00 x54 x00))
(L (W xff xff xff xff xff xff xff xff))))
(T (W xff xff xff xff xff xff xff xff)
(T (W x45 x44 x00 x00 x00 x00 x00 x00)
(T (W x18 x00 x00 x00 x0c x00 x00 x00)
(L (W x50 x00 x00 x00 x44 x00 x00 x00)) E)
(L (W x45 x26 x22 x84 xe4 x9c xf2 xcb)))
(T (W xff xff xff xff xff xff xff xff)
(L (W x00 x00 x80 xbf x00 x00 x80 xbf))
(L (W xff xff xff xff xff xff xff xff)))))
(T (W x45 x26 x22 x84 xe4 x9c xf2 xcb)
(T (W x00 x00 x00 x00 x00 x00 x00 x00)
(T (W x45 x26 x22 x84 xe4 x9c xf2 xcb)
(T (W x45 x26 x22 x84 xe4 x9c xf2 xcb)
(L (W x48 xc0 xff xff x72 xfb xff xff)) E)
(L (W xb8 x05 x00 x00 x88 x04 x00 x00)))
(T (W x45 x26 x22 x84 xe4 x9c xf2 xcb)
(L (W x1c x00 x00 x00 x10 x00 x00 x00))
(L (W xff xff xff xff xb0 x00 x00 x00))))
(T (W xff xff xff xff xff xff xff xff)
(T (W x00 x00 x80 x3f x00 x00 x80 x3f)
(T (W x00 x00 x01 x01 x51 x00 x00 x00)
(L (W x00 x00 x80 xbf x00 x00 x80 xbf)) E)
(L (W x12 xfd xfe xff x74 x00 x00 x00)))
(T (W x45 x26 x22 x84 xe4 x9c xf2 xcb)
(L (W x00 x00 x80 xbf x00 x00 x80 xbf))
(L (W x00 x00 x00 x00 x00 x00 x00 x00))))))))
(T (W x00 x00 x00 x00 x00 x00 x00 x00)
(T (W xff xff xff xff xff xff xff xff)
(T (W xd8 x00 x00 x00 xb4 x00 x00 x00)
(T (W xff xff xff xff xff xff xff xff)
(T (W xff xff xff xff xff xff xff xff)
(T (W x00 x00 x00 x00 x00 x00 x00 x00)
(T (W x00 x00 x80 x3f x00 x00 x80 x3f)
(L (W xc4 x00 x00 x00 x02 x00 x00 x00)) E)
(L (W xff xff xff xff xac x00 x00 x00)))
(T (W x00 x00 x00 x00 x12 x00 x00 x00)
(L (W x18 x00 x00 x00 x10 x00 x00 x00))
(L (W x00 x00 x00 x00 x00 x00 x00 x00))))
(T (W x68 x00 x00 x00 x5c x00 x00 x00)
(T (W x00 x00 x00 x00 x00 x00 x00 x00)
(T (W xa2 xe5 xff xff x7e x00 x00 x00)
(L (W x00 x00 x00 x00 x00 x00 x00 x00)) E)
(L (W x12 xc9 xfe xff x74 x00 x00 x00)))
(T (W x00 x00 x00 x00 x00 x00 x00 x00)
(L (W x00 x00 x00 x00 x9a x67 xfe xff))
(L (W x00 x00 x00 x00 x00 x00 x00 x00)))))
(T (W x12 x07 xfe xff x00 x00 x01 x01)
(T (W xff xff xff xff xff xff xff xff)
(T (W x00 x00 x00 x00 x00 x00 x00 x00)
(T (W x6c xb1 xfd xff x2e x00 x00 x00)
(L (W x58 x00 x00 x00 x00 x00 x5c x00)) E)
(L (W x6c x00 x00 x00 x60 x00 x00 x00)))
(T (W x68 x00 x00 x00 x5c x00 x00 x00)
(L (W x00 x00 x00 x00 x00 x00 x00 x00))
(L (W x00 x00 x80 xbf x00 x00 x80 xbf))))
(T (W x00 x00 x80 x3f x00 x00 x80 x3f)
(T (W xff xff xff xff xff xff xff xff)
(T (W x24 x00 x00 x00 x0c x00 x00 x00)
(L (W x00 x00 x62 x00 x78 x00 x04 x00)) E)
(L (W x00 x00 x00 x00 x00 x00 x00 x00)))
(T (W xff xff xff xff xff xff xff xff)
(L (W x00 x00 x00 x00 x00 x00 x00 x00))
(L (W x00 x00 x00 x00 x00 x00 x00 x00))))))
(T (W x00 x00 x00 x00 x7a x05 xff xff)
(T (W x04 x00 x00 x00 x4a x37 xff xff)
(T (W xff xff xff xff xff xff xff xff)
(T (W x45 x26 x22 x84 xe4 x9c xf2 xcb)
(T (W x00 x00 x00 x00 x00 x00 x00 x00)
(L (W x03 x00 x00 x00 xc8 x00 x00 x00)) E)
(L (W xff xff xff xff xff xff xff xff)))
(T (W x00 x00 x00 x00 x00 x00 x00 x00)
(L (W x6c x21 xfe xff x2b x00 x00 x00))
(L (W xc2 x1a xff xff x78 x00 x00 x00))))
(T (W xdc x5d xfc xff x00 x01 x01 x01)
(T (W x00 x00 x80 x3f x00 x00 x80 x3f)
(T (W x00 x00 x00 x00 x00 x00 x00 x00)
(L (W x24 x00 x00 x00 x10 x00 x00 x00)) E)
(L (W xff xff xff xff xff xff xff xff)))
(T (W x00 x00 x00 x00 x00 x00 x00 x00)
(L (W x00 x00 x00 x00 x00 x00 x00 x00))
(L (W x00 x00 x80 xbf x00 x00 x80 xbf)))))
(T (W xff xff xff xff xff xff xff xff)
(T (W x12 x39 xfc xff x74 x00 x00 x00)
(T (W x00 x00 x00 x00 x00 x00 x00 x00)
(T (W x12 xb9 xfd xff x74 x00 x00 x00)
(L (W x00 x00 x00 x00 x00 x00 x00 x00)) E)
(L (W x6c x00 x00 x00 x60 x00 x00 x00)))
(T (W xff xff xff xff xff xff xff xff)
(L (W x00 x00 x00 x00 x00 x00 x00 x00))
(L (W x00 x00 x00 x00 x00 x00 x00 x00))))
(T (W x00 x00 x00 x00 x00 x00 x00 x00)
(T (W xff xff xff xff xff xff xff xff)
(T (W xc2 xfa xfd xff x78 x00 x00 x00)
(L (W x45 x44 x00 x00 x00 x00 x00 x00)) E)
(L (W x00 x00 x00 x00 x00 x00 x00 x00)))
(T (W x5f x4e x53 x5f x30 x33 x5f x43)
(L (W xff xff xff xff xff xff xff xff))
(L (W x03 x00 x00 x00 xd0 x00 x00 x00)))))))
(T (W x5f x77 x69 x6c x64 x5f x70 x6f)
(T (W x27 x00 x00 x00 x10 x00 x00 x00)
(T (W xff xff xff xff xff xff xff xff)
(T (W xff xff xff xff xff xff xff xff)
(T (W x00 x00 x00 x00 x00 x00 x00 x00)
(T (W x00 x00 x80 x3f x00 x00 x80 x3f)
(L (W xff xff xff xff x9c x00 x00 x00)) E)
(L (W xff xff xff xff xff xff xff xff)))
(T (W x00 x00 x00 x00 x00 x00 x00 x00)
(L (W x00 x00 x00 x00 x00 x00 x00 x00))
(L (W x50 x00 x00 x00 x44 x00 x00 x00))))
(T (W x12 x51 xfc xff x74 x00 x00 x00)
(T (W x49 xa1 x68 x4a xeb x5f xdd x3d)
(T (W x6c xd9 xfd xff x25 x00 x00 x00)
(L (W x00 x00 x00 x00 x00 x00 x00 x00)) E)
(L (W x18 x00 x00 x00 x10 x00 x00 x00)))
(T (W x00 x00 x00 x00 x00 x00 x00 x00)
(L (W xff xff xff xff xff xff xff xff))
(L (W x00 x00 x00 x00 x00 x00 x00 x00)))))
(T (W xff xff xff xff xff xff xff xff)
(T (W x18 x00 x00 x00 x0c x00 x00 x00)
(T (W x00 x00 x00 x00 x00 x00 x00 x00)
(T (W xff xff xff xff xff xff xff xff)
(L (W x00 x00 x00 x00 x02 xc8 xff xff)) E)
(L (W x00 x00 x80 xbf x00 x00 x80 xbf)))
(T (W xbc x00 x00 x00 x14 x00 x00 x00)
(L (W x90 x1c xc8 xc9 x03 x81 xa0 xbc))
(L (W x00 x00 x00 x00 x00 x00 x00 x00))))
(T (W x00 x00 x80 x3f x00 x00 x80 x3f)
(T (W xff xff xff xff xff xff xff xff)
(T (W x20 x00 x00 x00 x67 x72 x6f x75)
(L (W x5c x00 x60 x00 x00 x00 x00 x00)) E)
(L (W x30 x33 x5f x43 x4c x45 x41 x52)))
(T (W x02 x00 x00 x00 xff xff xff xff)
(L (W x8a x89 xfe xff xaa x01 x00 x00))
(L (W x00 x00 x80 xbf x00 x00 x80 xbf))))))
(T (W xff xff xff xff xff xff xff xff)
(T (W x8e x01 x00 x00 xff xff xff xff)
(T (W x64 x00 x00 x00 x9c x00 x00 x00)
(T (W x50 x00 x00 x00 x44 x00 x00 x00)
(T (W x00 x00 x00 x00 x00 x00 x00 x00)
(L (W x45 x26 x22 x84 xe4 x9c xf2 xcb)) E)
(L (W x50 x00 x00 x00 x44 x00 x00 x00)))
(T (W x00 x00 x80 x3f x00 x00 x80 x3f)
(L (W xff xff xff xff xff xff xff xff))
(L (W x00 x00 x80 xbf x00 x00 x80 xbf))))
(T (W x00 x00 x80 x3f x00 x00 x80 x3f)
(T (W xff xff xff xff xb0 x00 x00 x00)
(T (W xff xff xff xff xff xff xff xff)
(L (W x00 x00 x80 xbf x00 x00 x80 xbf)) E)
(L (W x00 x00 x00 x00 x00 x00 x00 x00)))
(T (W x45 x26 x22 x84 xe4 x9c xf2 xcb)
(L (W x8a x79 xfe xff xa9 x01 x00 x00))
(L (W x00 x00 x80 xbf x00 x00 x80 xbf)))))
(T (W xb8 x00 x00 x00 xac x00 x00 x00)
(T (W x00 x00 x80 x3f x00 x00 x80 x3f)
(T (W xff xff xff xff x01 x00 x00 x00)
(T (W xff xff xff xff xff xff xff xff)
(L (W x00 x00 x00 x00 x00 x00 x00 x00)) E)
(L (W x54 x00 x00 x00 x48 x00 x00 x00)))
(T (W xff xff xff xff xff xff xff xff)
(L (W x00 x00 x00 x00 x02 x00 x00 x00))
(L (W x00 x00 x00 x00 x00 x00 x00 x00))))
(T (W x00 x00 x00 x00 x00 x00 x00 x00)
(T (W x00 x00 x00 x00 x00 x00 x00 x00)
(L (W x6b x65 x5f x6f x79 x61 x62 x75))
(L (W x00 x00 x00 x00 x00 x00 x00 x00)))
(T (W x00 x00 x00 x00 x00 x00 x00 x00)
(L (W xff xff xff xff xff xff xff xff))
(L (W x45 x26 x22 x84 xe4 x9c xf2 xcb)))))))))))
(T (W x28 x99 x02 x00 xec x97 x02 x00)
(T (W x00 xea x01 x00 x54 xe5 x01 x00)
(T (W xe8 x7f x00 x00 x9c x7d x00 x00)
(T (W x00 x00 x80 x3f x00 x00 x80 x3f)
(T (W xff xff xff xff xff xff xff xff)
(T (W x6b x65 x5f x63 x6f x77 x61 x72)
(T (W x5c xc7 xfb xff x00 x01 x01 x01)
(T (W x00 x00 x80 x3f x00 x00 x80 x3f)
(T (W x48 x00 x00 x00 xff xff xff xff)
(T (W x1e x00 x00 x00 x10 x00 x00 x00)
(L (W x00 x00 x80 xbf x00 x00 x80 xbf)) E)
(L (W x00 x00 x80 xbf x00 x00 x80 xbf)))
(T (W xff xff xff xff x9c x00 x00 x00)
(L (W xff xff xff xff xff xff xff xff))
(L (W xff xff xff xff xff xff xff xff))))
(T (W x00 x00 x00 x00 x00 x00 x00 x00)
(T (W xc0 x00 x00 x00 x01 x00 x00 x00)
(T (W x00 x00 x80 x3f x00 x00 x80 x3f)
(L (W x92 xe2 xff xff xc6 x00 x00 x00)) E)
(L (W x00 x00 x00 x00 x00 x00 x00 x00)))
(T (W x1f x00 x00 x00 x22 x00 x00 x00)
(L (W xb0 x00 x00 x00 x64 x00 x00 x00))
(L (W xff xff xff xff xff xff xff xff)))))
(T (W xff xff xff xff x03 x00 x00 x00)
(T (W x00 x00 x80 x3f x00 x00 x80 x3f)
(T (W x40 x00 x00 x00 xa0 x00 x00 x00)
(T (W xff xff xff xff xff xff xff xff)
(L (W x00 x00 x00 x00 x00 x00 x00 x00)) E)
(L (W x46 x53 x59 x53 x5f x4e x53 x5f)))
(T (W x00 x00 x00 x00 x00 x00 x00 x00)
(L (W x45 x26 x22 x84 xe4 x9c xf2 xcb))
(L (W x00 x00 x00 x00 x00 x00 x00 x00))))
(T (W x00 x00 x00 x00 x00 x00 x00 x00)
(T (W x00 x00 x80 x3f x00 x00 x80 x3f)
(T (W xff xff xff xff xff xff xff xff)
(L (W x45 x26 x22 x84 xe4 x9c xf2 xcb)) E)
(L (W x18 x00 x00 x00 x0c x00 x00 x00)))
(T (W x45 x26 x22 x84 xe4 x9c xf2 xcb)
(L (W x18 x00 x00 x00 x1b x00 x00 x00))
(L (W x00 x00 x00 x00 x00 x00 x00 x00))))))
(T (W xff xff xff xff xff xff xff xff)
(T (W x92 xd2 xfb xff x74 x00 x00 x00)
(T (W x00 x00 x80 x3f x00 x00 x80 x3f)
(T (W xff xff xff xff xff xff xff xff)
(T (W x90 x5b x2e x97 x85 x19 x59 x5f)
(L (W x4f x84 x6f x8b xe8 xcb x63 xb7)) E)
(L (W x00 x00 x80 xbf x00 x00 x80 xbf)))
(T (W xff xff xff xff xff xff xff xff)
(L (W xff xff xff xff xff xff xff xff))
(L (W x00 x00 x00 x00 x12 x00 x00 x00))))
(T (W x00 x00 x00 x00 x00 x00 x00 x00)
(T (W x84 xf8 x12 x4c xc0 x73 xa4 xc9)
(T (W xb8 x00 x00 x00 xac x00 x00 x00)
(L (W xff xff xff xff xff xff xff xff)) E)
(L (W x00 x00 x80 xbf x00 x00 x80 xbf)))
(T (W xff xff xff xff xff xff xff xff)
(L (W x45 x26 x22 x84 xe4 x9c xf2 xcb))
(L (W xff xff xff xff xff xff xff xff)))))
(T (W x45 x26 x22 x84 xe4 x9c xf2 xcb)
(T (W x00 x00 x80 x3f x00 x00 x80 x3f)
(T (W x26 x00 x00 x00 xff xff xff xff)
(T (W x01 x00 x00 x00 x9c x00 x00 x00)
(L (W x45 x26 x22 x84 xe4 x9c xf2 xcb)) E)
(L (W x00 x00 x00 x00 x00 x00 x00 x00)))
(T (W x00 x00 x80 x3f x00 x00 x80 x3f)
(L (W xff xff xff xff xbc x00 x00 x00))
(L (W x00 x00 x00 x00 x00 x00 x00 x00))))
(T (W x00 x00 x00 x00 x00 x00 x00 x00)
(T (W x45 x26 x22 x84 xe4 x9c xf2 xcb)
(T (W x49 xa1 x68 x4a xeb x5f xdd x3d)
(L (W xff xff xff xff xff xff xff xff)) E)
(L (W xcc x00 x00 x00 x01 x00 x00 x00)))
(T (W x45 x26 x22 x84 xe4 x9c xf2 xcb)
(L (W x1d x00 x00 x00 x20 x00 x00 x00))
(L (W x00 x00 x00 x00 x00 x00 x00 x00)))))))
(T (W xff xff xff xff xff xff xff xff)
(T (W x68 x00 x00 x00 x5c x00 x00 x00)
(T (W x50 x00 x00 x00 x44 x00 x00 x00)
(T (W x00 x00 x80 x3f x00 x00 x80 x3f)
(T (W xff xff xff xff xff xff xff xff)
(T (W x00 x00 x00 x00 x00 x00 x00 x00)
(L (W x00 x00 x80 xbf x00 x00 x80 xbf)) E)
(L (W x00 x00 x80 xbf x00 x00 x80 xbf)))
(T (W xff xff xff xff xff xff xff xff)
(L (W x00 x00 x80 x3f x00 x00 x80 x3f))
(L (W xdf x00 x00 x00 xff xff xff xff))))
(T (W x00 x00 x00 x00 x00 x00 x00 x00)
(T (W xff xff xff xff xff xff xff xff)
(T (W xb8 x00 x00 x00 xac x00 x00 x00)
(L (W xff xff xff xff xff xff xff xff)) E)
(L (W x00 x00 x00 x00 x00 x00 x00 x00)))
(T (W xff xff xff xff xbc x00 x00 x00)
(L (W xff xff xff xff xff xff xff xff))
(L (W xff xff xff xff xff xff xff xff)))))
(T (W x00 x00 x00 x00 xcc xed xfb xff)
(T (W x00 x00 x80 x3f x00 x00 x80 x3f)
(T (W xff xff xff xff xff xff xff xff)
(T (W xb8 x00 x00 x00 xac x00 x00 x00)
(L (W xff xff xff xff xff xff xff xff)) E)
(L (W x00 x00 x00 x00 x00 x00 x00 x00)))
(T (W x00 x00 x00 x00 x00 x00 x00 x00)
(L (W x95 x50 x69 x12 x83 x72 x37 xc6))
(L (W x00 x00 x00 x00 x00 x00 x00 x00))))
(T (W x00 x00 x00 x00 x00 x00 x00 x00)
(T (W x00 x00 x80 x3f x00 x00 x80 x3f)
(T (W x5f x77 x69 x6c x64 x5f x70 x6f)
(L (W xff xff xff xff xff xff xff xff)) E)
(L (W xff xff xff xff xa0 x00 x00 x00)))
(T (W x5c x6f xfd xff x00 x01 x01 x01)
(L (W xff xff xff xff xb0 x00 x00 x00))
(L (W x2c x01 x00 x00 x04 x00 x00 x00))))))
(T (W xff xff xff xff xff xff xff xff)
(T (W x40 x00 x00 x00 xa0 x00 x00 x00)
(T (W x00 x00 x80 x3f x00 x00 x80 x3f)
(T (W xff xff xff xff xff xff xff xff)
(T (W xff xff xff xff xff xff xff xff)
(L (W x45 x26 x22 x84 xe4 x9c xf2 xcb)) E)
(L (W x00 x00 x80 xbf x00 x00 x80 xbf)))
(T (W x2a x1d xfd xff xa8 x01 x00 x00)
(L (W xff xff xff xff xff xff xff xff))
(L (W x00 x00 x00 x00 x00 x00 x00 x00))))
(T (W x00 x00 x00 x00 x00 x00 x00 x00)
(T (W x00 x00 x00 x00 x00 x00 x00 x00)
(T (W xff xff xff xff xff xff xff xff)
(L (W xff xff xff xff xff xff xff xff)) E)
(L (W x00 x00 x80 xbf x00 x00 x80 xbf)))
(T (W x00 x00 x00 x00 x00 x00 x00 x00)
(L (W xff xff xff xff xb0 x00 x00 x00))
(L (W x19 x00 x00 x00 x10 x00 x00 x00)))))
(T (W x50 x00 x00 x00 x44 x00 x00 x00)
(T (W x45 x26 x22 x84 xe4 x9c xf2 xcb)
(T (W x00 x00 x4c x00 x50 x00 x00 x00)
(T (W x50 x00 x00 x00 x44 x00 x00 x00)
(L (W xff xff xff xff xff xff xff xff)) E)
(L (W x00 x00 x00 x00 x00 x00 x00 x00)))
(T (W x42 x3c xfd xff x78 x00 x00 x00)
(L (W xff xff xff xff xff xff xff xff))
(L (W xff xff xff xff xff xff xff xff))))
(T (W xef x6e x59 x87 x65 xeb x58 x20)
(T (W x1d x00 x00 x00 x20 x00 x00 x00)
(T (W x00 x00 x00 x00 x00 x00 x00 x00)
(L (W x50 x00 x00 x00 x54 x00 x58 x00)) E)
(L (W xff xff xff xff xff xff xff xff)))
(T (W xff xff xff xff xff xff xff xff)
(L (W x00 x01 x01 x01 x42 xba xfe xff))
(L (W x00 x00 x80 xbf x00 x00 x80 xbf))))))))
(T (W x69 x73 x68 x5f x76 x61 x6e x69)
(T (W xb8 x00 x00 x00 xac x00 x00 x00)
(T (W x64 x00 x00 x00 x9c x00 x00 x00)
(T (W x00 x00 x00 x00 x00 x00 x00 x00)
(T (W x00 x00 x00 x00 x04 x00 x00 x00)
(T (W x92 x86 xfc xff x74 x00 x00 x00)
(T (W x18 x00 x00 x00 x10 x00 x00 x00)
(L (W xff xff xff xff xff xff xff xff)) E)
(L (W xff xff xff xff xff xff xff xff)))
(T (W x00 x00 x00 x00 x00 x00 x00 x00)
(L (W xb4 x00 x00 x00 x32 x00 x00 x00))
(L (W x45 x26 x22 x84 xe4 x9c xf2 xcb))))
(T (W xff xff xff xff xff xff xff xff)
(T (W x00 x00 x00 x00 x00 x00 x00 x00)
(T (W x00 x00 x00 x00 x00 x00 x00 x00)
(L (W x45 x26 x22 x84 xe4 x9c xf2 xcb)) E)
(L (W xff xff xff xff xff xff xff xff)))
(T (W x00 x00 x00 x00 x00 x00 x00 x00)
(L (W x00 x00 x00 x00 x00 x00 x00 x00))
(L (W x00 x00 x00 x00 x00 x00 x00 x00)))))
(T (W x21 x00 x00 x00 x0c x00 x00 x00)
(T (W xff xff xff xff xff xff xff xff)
(T (W x00 x00 x80 x3f x00 x00 x80 x3f)
(T (W x00 x00 x00 x00 x00 x00 x00 x00)
(L (W xff xff xff xff xff xff xff xff)) E)
(L (W x6c x00 x00 x00 x60 x00 x00 x00)))
(T (W x03 x00 x00 x00 xd4 x00 x00 x00)
(L (W x45 x26 x22 x84 xe4 x9c xf2 xcb))
(L (W x21 x00 x00 x00 x24 x00 x00 x00))))
(T (W x68 x00 x00 x00 x5c x00 x00 x00)
(T (W xff xff xff xff xff xff xff xff)
(T (W x77 x61 x72 x6c x69 x6b x65 x5f)
(L (W xff xff xff xff xa0 x00 x00 x00)) E)
(L (W x00 x00 x00 x00 x00 x00 x00 x00)))
(T (W xff xff xff xff xff xff xff xff)
(L (W x45 x44 x00 x00 x00 x00 x00 x00))
(L (W x45 x26 x22 x84 xe4 x9c xf2 xcb))))))
(T (W x00 x00 x00 x00 x00 x00 x00 x00)
(T (W x00 x00 x00 x00 x00 x00 x00 x00)
(T (W x7e x00 x00 x00 xff xff xff xff)
(T (W x00 x00 x80 x3f x00 x00 x80 x3f)
(T (W x00 x00 x80 x3f x00 x00 x80 x3f)
(L (W xff xff xff xff xff xff xff xff)) E)
(L (W xff xff xff xff xff xff xff xff)))
(T (W x00 x00 x80 x3f x00 x00 x80 x3f)
(L (W x00 x00 x00 x00 x00 x00 x00 x00))
(L (W xff xff xff xff xff xff xff xff))))
(T (W xff xff xff xff x04 x00 x00 x00)
(T (W x00 x00 x00 x00 xcc xd9 xfc xff)
(T (W x00 x00 x80 x3f x00 x00 x80 x3f)
(L (W x45 x26 x22 x84 xe4 x9c xf2 xcb)) E)
(L (W xff xff xff xff xff xff xff xff)))
(T (W x54 x00 x00 x00 x48 x00 x00 x00)
(L (W x00 x00 x00 x00 x00 x00 x00 x00))
(L (W x92 x56 xff xff x74 x00 x00 x00)))))
(T (W x00 x00 x00 x00 x00 x00 x00 x00)
(T (W xff xff xff xff xff xff xff xff)
(T (W x00 x00 x00 x00 x00 x00 x00 x00)
(T (W x45 x26 x22 x84 xe4 x9c xf2 xcb)
(L (W x00 x00 x00 x00 x00 x00 x00 x00)) E)
(L (W x45 x26 x22 x84 xe4 x9c xf2 xcb)))
(T (W x02 x00 x00 x00 xff xff xff xff)
(L (W x00 x00 x80 xbf x00 x00 x80 xbf))
(L (W x4f x84 x6f x8b xe8 xcb x63 xb7))))
(T (W x50 x00 x00 x00 x44 x00 x00 x00)
(T (W x00 x00 x00 x00 x12 x00 x00 x00)
(T (W x00 x00 x00 x00 x01 x00 x00 x00)
(L (W x62 x00 x00 x00 xa6 x01 x00 x00)) E)
(L (W x00 x00 x00 x00 x00 x00 x00 x00)))
(T (W x00 x00 x00 x00 x00 x00 x00 x00)
(L (W x46 x53 x59 x53 x5f x4e x53 x5f))
(L (W x00 x00 x80 xbf x00 x00 x80 xbf)))))))
(T (W x70 x5f x6c x65 x61 x64 x65 x72)
(T (W x00 x00 x00 x00 x00 x00 x00 x00)
(T (W x00 x00 x00 x00 x00 x00 x00 x00)
(T (W xff xff xff xff xff xff xff xff)
(T (W x00 x00 x80 x3f x00 x00 x80 x3f)
(T (W x45 x26 x22 x84 xe4 x9c xf2 xcb)
(L (W xff xff xff xff xbc x00 x00 x00)) E)
(L (W x0a xa7 xfe xff xaa x01 x00 x00)))
(T (W x00 x00 x80 x3f x00 x00 x80 x3f)
(L (W xff xff xff xff xff xff xff xff))
(L (W x68 x00 x00 x00 x5c x00 x00 x00))))
(T (W xb8 x00 x00 x00 xac x00 x00 x00)
(T (W x00 x00 x80 x3f x00 x00 x80 x3f)
(T (W x00 x00 x00 x00 x00 x00 x00 x00)
(L (W x00 x00 x00 x00 x00 x00 x00 x00)) E)
(L (W xff xff xff xff xff xff xff xff)))
(T (W x49 xa1 x68 x4a xeb x5f xdd x3d)
(L (W x00 x00 x00 x00 x00 x00 x00 x00))
(L (W x00 x00 x80 xbf x00 x00 x80 xbf)))))
(T (W x00 x00 x00 x00 x00 x00 x00 x00)
(T (W xff xff xff xff xff xff xff xff)
(T (W x00 x00 x80 x3f x00 x00 x80 x3f)
(T (W x00 x00 x00 x00 x00 x00 x00 x00)
(L (W x00 x00 x00 x00 x00 x00 x00 x00)) E)
(L (W x45 x26 x22 x84 xe4 x9c xf2 xcb)))
(T (W xff xff xff xff xff xff xff xff)
(L (W x23 x00 x00 x00 x10 x00 x00 x00))
(L (W x68 x00 x00 x00 x5c x00 x00 x00))))
(T (W x00 x00 x80 x3f x00 x00 x80 x3f)
(T (W x00 x00 x00 x00 x00 x00 x00 x00)
(T (W x45 x26 x22 x84 xe4 x9c xf2 xcb)
(L (W x00 x00 x80 xbf x00 x00 x80 xbf)) E)
(L (W x00 x00 x80 xbf x00 x00 x80 xbf)))
(T (W x44 x87 xfd xff x10 x00 x00 x00)
(L (W x00 x00 x00 x00 x00 x00 x00 x00))
(L (W x68 x00 x00 x00 x5c x00 x00 x00))))))
(T (W x44 xd7 xfb xff x3c x00 x00 x00)
(T (W x00 x00 x00 x00 x00 x00 x00 x00)
(T (W xff xff xff xff xff xff xff xff)
(T (W x00 x00 x80 x3f x00 x00 x80 x3f)
(T (W x00 x00 x80 x3f x00 x00 x80 x3f)
(L (W xff xff xff xff xff xff xff xff)) E)
(L (W x50 x00 x00 x00 x44 x00 x00 x00)))
(T (W x50 x00 x00 x00 x44 x00 x00 x00)
(L (W xff xff xff xff xff xff xff xff))
(L (W x14 x00 x00 x00 x0c x00 x00 x00))))
(T (W x45 x26 x22 x84 xe4 x9c xf2 xcb)
(T (W xff xff xff xff xff xff xff xff)
(T (W x00 x00 x00 x00 x00 x00 x00 x00)
(L (W x46 x53 x59 x53 x5f x4e x53 x5f)) E)
(L (W x45 x44 x00 x00 x00 x00 x00 x00)))
(T (W x5c x63 xfd xff x00 x01 x01 x01)
(L (W xec x66 xfe xff x0a x00 x00 x00))
(L (W x92 x5e xff xff x74 x00 x00 x00)))))
(T (W x00 x00 x00 x00 x00 x00 x00 x00)
(T (W xff xff xff xff xff xff xff xff)
(T (W x30 x33 x5f x43 x4c x45 x41 x52)
(T (W xff xff xff xff x01 x00 x00 x00)
(L (W x00 x00 x00 x00 x00 x00 x00 x00)) E)
(L (W xff xff xff xff xff xff xff xff)))
(T (W x5f x4e x53 x5f x30 x33 x5f x43)
(L (W x00 x00 x00 x00 x00 x00 x00 x00))
(L (W x00 x00 x80 xbf x00 x00 x80 xbf))))
(T (W x68 x00 x00 x00 x5c x00 x00 x00)
(T (W x00 x00 x00 x00 x00 x00 x00 x00)
(T (W x18 x00 x00 x00 x10 x00 x00 x00)
(L (W x00 x00 x80 xbf x00 x00 x80 xbf)) E)
(L (W x00 x00 x80 xbf x00 x00 x80 xbf)))
(T (W x00 x00 x80 x3f x00 x00 x80 x3f)
(L (W x92 x9e xfe xff x8e x01 x00 x00))
(L (W xff xff xff xff xff xff xff xff)))))))))
(T (W x00 x00 x00 x00 x00 x00 x00 x00)
(T (W x45 x26 x22 x84 xe4 x9c xf2 xcb)
(T (W x45 x26 x22 x84 xe4 x9c xf2 xcb)
(T (W x00 x00 x80 x3f x00 x00 x80 x3f)
(T (W x71 x00 x00 x00 xff xff xff xff)
(T (W xff xff xff xff xff xff xff xff)
(T (W x00 x00 x00 x00 x00 x00 x00 x00)
(T (W x00 x00 x00 x00 x00 x00 x00 x00)
(L (W xbc x00 x00 x00 x02 x00 x00 x00)) E)
(L (W xff xff xff xff xff xff xff xff)))
(T (W x00 x00 x00 x00 x00 x00 x00 x00)
(L (W x45 x26 x22 x84 xe4 x9c xf2 xcb))
(L (W x00 x00 x00 x00 x00 x00 x00 x00))))
(T (W x42 x46 xfc xff x78 x00 x00 x00)
(T (W x04 x00 x00 x00 xea xcf xfc xff)
(T (W x92 xc4 xfd xff x74 x00 x00 x00)
(L (W x00 x00 x00 x00 x00 x00 x00 x00)) E)
(L (W x5c xc9 xfe xff x00 x01 x01 x01)))
(T (W xff xff xff xff xff xff xff xff)
(L (W x00 x00 x00 x00 x1a x63 xfe xff))
(L (W x00 x00 x00 x00 x12 x00 x00 x00)))))
(T (W xff xff xff xff xff xff xff xff)
(T (W x45 x26 x22 x84 xe4 x9c xf2 xcb)
(T (W x00 x00 x00 x00 x00 x00 x00 x00)
(T (W xec xac xfd xff x10 x00 x00 x00)
(L (W x45 x26 x22 x84 xe4 x9c xf2 xcb)) E)
(L (W x49 xa1 x68 x4a xeb x5f xdd x3d)))
(T (W x00 x00 x80 x3f x00 x00 x80 x3f)
(L (W x04 x00 x00 x00 x82 xf7 xff xff))
(L (W x49 xa1 x68 x4a xeb x5f xdd x3d))))
(T (W x00 x00 x80 x3f x00 x00 x80 x3f)
(T (W xb8 x00 x00 x00 x32 x00 x00 x00)
(T (W x45 x26 x22 x84 xe4 x9c xf2 xcb)
(L (W x50 x00 x00 x00 x44 x00 x00 x00)) E)
(L (W xff xff xff xff xff xff xff xff)))
(T (W x50 x00 x00 x00 x44 x00 x00 x00)
(L (W xff xff xff xff xff xff xff xff))
(L (W x4f x84 x6f x8b xe8 xcb x63 xb7))))))
(T (W xff xff xff xff xff xff xff xff)
(T (W xff xff xff xff xff xff xff xff)
(T (W x5c x19 xfc xff x00 x01 x01 x01)
(T (W x00 x00 x00 x00 x00 x00 x00 x00)
(T (W x00 x00 x00 x00 x00 x00 x00 x00)
(L (W x18 x00 x00 x00 x0c x00 x00 x00)) E)
(L (W x1b x00 x00 x00 x1e x00 x00 x00)))
(T (W x46 x53 x59 x53 x5f x4e x53 x5f)
(L (W x00 x00 x00 x00 x72 x15 xfe xff))
(L (W x00 x00 x80 xbf x00 x00 x80 xbf))))
(T (W x00 x00 x80 x3f x00 x00 x80 x3f)
(T (W x45 x26 x22 x84 xe4 x9c xf2 xcb)
(T (W xff xff xff xff xff xff xff xff)
(L (W x00 x00 x00 x00 x00 x00 x00 x00)) E)
(L (W xff xff xff xff xb0 x00 x00 x00)))
(T (W x00 x00 x00 x00 x00 x00 x00 x00)
(L (W x00 x00 x00 x00 x00 x00 x00 x00))
(L (W x00 x00 x00 x00 x00 x00 x00 x00)))))
(T (W xff xff xff xff xff xff xff xff)
(T (W x01 x00 x00 x00 x3e x00 x00 x00)
(T (W x00 x00 x80 x3f x00 x00 x80 x3f)
(T (W xff xff xff xff xff xff xff xff)
(L (W xff xff xff xff xff xff xff xff)) E)
(L (W x00 x00 x80 xbf x00 x00 x80 xbf)))
(T (W xc8 x00 x00 x00 x01 x00 x00 x00)
(L (W x00 x00 x00 x00 x00 x00 x00 x00))
(L (W x46 x53 x59 x53 x5f x4e x53 x5f))))
(T (W x00 x00 x80 x3f x00 x00 x80 x3f)
(T (W xff xff xff xff xff xff xff xff)
(T (W x1b x00 x00 x00 x46 x4d x41 x50)
(L (W xe5 xdc xac x28 xbf xd4 x59 x6a)) E)
(L (W xff xff xff xff xff xff xff xff)))
(T (W xc2 x83 xfd xff x9d x01 x00 x00)
(L (W xff xff xff xff xff xff xff xff))
(L (W x4f x84 x6f x8b xe8 xcb x63 xb7)))))))
(T (W x00 x00 x80 x3f x00 x00 x80 x3f)
(T (W xff xff xff xff xff xff xff xff)
(T (W xff xff xff xff xff xff xff xff)
(T (W x64 x00 x00 x00 x9c x00 x00 x00)
(T (W x00 x00 x00 x00 x00 x00 x00 x00)
(T (W x00 x00 x80 x3f x00 x00 x80 x3f)
(L (W x92 x8c xff xff x74 x00 x00 x00)) E)
(L (W x45 x26 x22 x84 xe4 x9c xf2 xcb)))
(T (W x18 x00 x00 x00 x10 x00 x00 x00)
(L (W x22 x00 x00 x00 x25 x00 x00 x00))
(L (W x00 x00 x00 x00 x00 x00 x00 x00))))
(T (W x00 x00 x80 x3f x00 x00 x80 x3f)
(T (W x00 x00 x00 x00 x12 x00 x00 x00)
(T (W xec xd4 xfd xff x1e x00 x00 x00)
(L (W x45 x44 x00 x00 x00 x00 x00 x00)) E)
(L (W xff xff xff xff x9c x00 x00 x00)))
(T (W x4c x45 x41 x52 x45 x44 x00 x00)
(L (W x0a x65 xfe xff xa9 x01 x00 x00))
(L (W xec x54 xff xff x18 x00 x00 x00)))))
(T (W xff xff xff xff xff xff xff xff)
(T (W x40 x00 x00 x00 x9c x00 x00 x00)
(T (W x45 x26 x22 x84 xe4 x9c xf2 xcb)
(T (W xff xff xff xff xff xff xff xff)
(L (W xff xff xff xff xff xff xff xff)) E)
(L (W x00 x00 x80 xbf x00 x00 x80 xbf)))
(T (W x00 x00 x00 x00 xcc x2f xfd xff)
(L (W x00 x00 x80 xbf x00 x00 x80 xbf))
(L (W x00 x00 x00 x00 x00 x00 x00 x00))))
(T (W x00 x00 x80 x3f x00 x00 x80 x3f)
(T (W xff xff xff xff xff xff xff xff)
(T (W xff xff xff xff xff xff xff xff)
(L (W x00 x00 x00 x00 x00 x00 x00 x00)) E)
(L (W xff xff xff xff xff xff xff xff)))
(T (W xff xff xff xff xff xff xff xff)
(L (W xff xff xff xff xff xff xff xff))
(L (W x00 x00 x00 x00 x00 x00 x00 x00))))))
(T (W xff xff xff xff xff xff xff xff)
(T (W xff xff xff xff xff xff xff xff)
(T (W x50 x00 x00 x00 x44 x00 x00 x00)
(T (W x4d x65 xfd xe5 x8a x06 xe3 x9e)
(T (W x00 x00 x00 x00 x00 x00 x00 x00)
(L (W x00 x00 x80 xbf x00 x00 x80 xbf)) E)
(L (W xff xff xff xff xff xff xff xff)))
(T (W x00 x00 x00 x00 x00 x00 x00 x00)
(L (W x00 x00 x00 x00 x00 x00 x00 x00))
(L (W x00 x00 x80 xbf x00 x00 x80 xbf))))
(T (W x45 x26 x22 x84 xe4 x9c xf2 xcb)
(T (W x54 x00 x00 x00 x48 x00 x00 x00)
(T (W x1b x00 x00 x00 x10 x00 x00 x00)
(L (W xff xff xff xff xff xff xff xff)) E)
(L (W xff xff xff xff xff xff xff xff)))
(T (W x4f x84 x6f x8b xe8 xcb x63 xb7)
(L (W xff xff xff xff xff xff xff xff))
(L (W x00 x00 x80 xbf x00 x00 x80 xbf)))))
(T (W xff xff xff xff xff xff xff xff)
(T (W x68 x00 x00 x00 x5c x00 x00 x00)
(T (W xff xff xff xff xff xff xff xff)
(T (W xff xff xff xff x03 x00 x00 x00)
(L (W x00 x00 x00 x00 x00 x00 x00 x00)) E)
(L (W x00 x00 x80 xbf x00 x00 x80 xbf)))
(T (W xff xff xff xff xff xff xff xff)
(L (W xf4 x30 xc8 xc9 x03 x8d xa0 xbc))
(L (W x00 x00 x00 x00 x00 x00 x00 x00))))
(T (W x00 x00 x00 x00 x00 x00 x00 x00)
(T (W xff xff xff xff xff xff xff xff)
(T (W x00 x00 x80 x3f x00 x00 x80 x3f)
(L (W xff xff xff xff xff xff xff xff)) E)
(L (W x00 x00 x00 x00 x82 x13 xff xff)))
(T (W x20 x00 x00 x00 x10 x00 x00 x00)
(L (W xff xff xff xff xff xff xff xff))
(L (W x00 x00 x00 x00 xcc x7f xff xff))))))))
(T (W x40 x00 x00 x00 x9c x00 x00 x00)
(T (W x6b x65 x5f x66 x69 x73 x68 x5f)
(T (W x00 x00 x00 x00 x00 x00 x00 x00)
(T (W x00 x00 x80 x3f x00 x00 x80 x3f)
(T (W x00 x00 x00 x00 x00 x00 x00 x00)
(T (W x01 x00 x00 x00 x9c x00 x00 x00)
(T (W xff xff xff xff xff xff xff xff)
(L (W x2b x00 x00 x00 x10 x00 x00 x00)) E)
(L (W x00 x00 x00 x00 x00 x00 x00 x00)))
(T (W x5c x0d xfd xff x00 x01 x01 x01)
(L (W x30 x33 x5f x43 x4c x45 x41 x52))
(L (W x18 x00 x00 x00 x10 x00 x00 x00))))
(T (W x92 x66 xfe xff x00 x00 x01 x01)
(T (W x68 x00 x00 x00 x5c x00 x00 x00)
(T (W x00 x00 x80 x3f x00 x00 x80 x3f)
(L (W xa8 x00 x00 x00 x64 x00 x00 x00)) E)
(L (W xd3 x00 x00 x00 xff xff xff xff)))
(T (W x6c x00 x00 x00 x60 x00 x00 x00)
(L (W x00 x00 x80 xbf x00 x00 x80 xbf))
(L (W x45 x26 x22 x84 xe4 x9c xf2 xcb)))))
(T (W x00 x00 x80 x3f x00 x00 x80 x3f)
(T (W x00 x00 x00 x00 x00 x00 x00 x00)
(T (W x64 x00 x00 x00 x9c x00 x00 x00)
(T (W x00 x00 x80 x3f x00 x00 x80 x3f)
(L (W x00 x00 x00 x00 x00 x00 x00 x00)) E)
(L (W xff xff xff xff xff xff xff xff)))
(T (W x9c x01 x00 x00 xff xff xff xff)
(L (W xb0 x00 x00 x00 x64 x00 x00 x00))
(L (W xff xff xff xff xff xff xff xff))))
(T (W xff xff xff xff xff xff xff xff)
(T (W x00 x00 x00 x00 x00 x00 x00 x00)
(T (W x00 x00 x80 xbf x00 x00 x80 xbf)
(L (W x00 x00 x80 xbf x00 x00 x80 xbf)) E)
(L (W x50 x00 x00 x00 x44 x00 x00 x00)))
(T (W x00 x00 x00 x00 x00 x00 x00 x00)
(L (W x00 x00 x80 xbf x00 x00 x80 xbf))
(L (W xc4 x00 x00 x00 x01 x00 x00 x00))))))
(T (W x00 x00 x80 x3f x00 x00 x80 x3f)
(T (W x00 x00 x80 x3f x00 x00 x80 x3f)
(T (W x00 x00 x00 x00 x00 x00 x00 x00)
(T (W xc0 x00 x00 x00 xb4 x00 x00 x00)
(T (W xb8 x00 x00 x00 xac x00 x00 x00)
(L (W x00 x00 x00 x00 x00 x00 x00 x00)) E)
(L (W x00 x00 x00 x00 x00 x00 x00 x00)))
(T (W xff xff xff xff xb0 x00 x00 x00)
(L (W x00 x00 x80 xbf x00 x00 x80 xbf))
(L (W x00 x00 x00 x00 x00 x00 x00 x00))))
(T (W x20 x01 x00 x00 x04 x00 x00 x00)
(T (W xff xff xff xff xff xff xff xff)
(T (W x18 x00 x00 x00 x0c x00 x00 x00)
(L (W x00 x00 x80 xbf x00 x00 x80 xbf)) E)
(L (W x00 x00 x00 x00 x00 x00 x00 x00)))
(T (W xb0 x00 x00 x00 x64 x00 x00 x00)
(L (W x44 x00 x00 x00 x00 x00 x80 xbf))
(L (W xff xff xff xff xff xff xff xff)))))
(T (W x00 x00 x00 x00 x00 x00 x00 x00)
(T (W x01 x00 x00 x00 x04 x00 x00 x00)
(T (W x5c xbd xfc xff x00 x01 x01 x01)
(T (W x6b x65 x5f x66 x69 x73 x68 x5f)
(L (W x00 x00 x00 x00 xcc xbb xff xff)) E)
(L (W x2a xbb xfe xff xaa x01 x00 x00)))
(T (W x00 x00 x00 x00 x00 x00 x00 x00)
(L (W x44 x00 x00 x00 x00 x00 x80 xbf))
(L (W x1d x00 x00 x00 x20 x00 x00 x00))))
(T (W xb8 x00 x00 x00 xac x00 x00 x00)
(T (W x00 x00 x80 x3f x00 x00 x80 x3f)
(T (W x00 x00 x01 x01 xce x01 x00 x00)
(L (W x6c x00 x00 x00 x60 x00 x00 x00)) E)
(L (W x45 x26 x22 x84 xe4 x9c xf2 xcb)))
(T (W x92 x78 xfd xff x74 x00 x00 x00)
(L (W x4f x84 x6f x8b xe8 xcb x63 xb7))
(L (W x3c x00 x40 x00 x44 x00 x48 x00)))))))
(T (W x00 x00 x80 x3f x00 x00 x80 x3f)
(T (W x00 x00 x80 x3f x00 x00 x80 x3f)
(T (W x00 x00 x80 x3f x00 x00 x80 x3f)
(T (W x45 x26 x22 x84 xe4 x9c xf2 xcb)
(T (W x0a x00 x00 x00 x3e x00 x00 x00)
(T (W xff xff xff xff xff xff xff xff)
(L (W x30 x33 x5f x43 x4c x45 x41 x52)) E)
(L (W x00 x00 x00 x00 x00 x00 x00 x00)))
(T (W x92 x10 xfd xff x74 x00 x00 x00)
(L (W x00 x00 x00 x00 x00 x00 x00 x00))
(L (W xff xff xff xff xff xff xff xff))))
(T (W x00 x00 x00 x00 x00 x00 x00 x00)
(T (W xff xff xff xff xff xff xff xff)
(T (W x00 x00 x80 x3f x00 x00 x80 x3f)
(L (W x00 x00 x80 xbf x00 x00 x80 xbf)) E)
(L (W x00 x00 x00 x00 x00 x00 x00 x00)))
(T (W xff xff xff xff xac x00 x00 x00)
(L (W x00 x00 x80 xbf x00 x00 x80 xbf))
(L (W x00 x00 x00 x00 xcc x53 xff xff)))))
(T (W x00 x00 x00 x00 x00 x00 x00 x00)
(T (W x44 x49 xfc xff x3c x00 x00 x00)
(T (W x5c xb5 xfc xff x00 x01 x01 x01)
(T (W x00 x00 x80 x3f x00 x00 x80 x3f)
(L (W x00 x00 x80 xbf x00 x00 x80 xbf)) E)
(L (W xff xff xff xff xff xff xff xff)))
(T (W x12 x00 x00 x00 x46 x53 x59 x53)
(L (W x00 x00 x80 xbf x00 x00 x80 xbf))
(L (W xff xff xff xff x9c x00 x00 x00))))
(T (W xff xff xff xff xff xff xff xff)
(T (W x00 x00 x00 x00 x00 x00 x00 x00)
(T (W x55 x6c xfc xf1 x99 x9e xc9 x88)
(L (W x00 x00 x00 x00 x00 x00 x00 x00)) E)
(L (W x6c x00 x00 x00 x60 x00 x00 x00)))
(T (W x00 x00 x80 x3f x00 x00 x80 x3f)
(L (W x00 x00 x00 x00 x00 x00 x00 x00))
(L (W xff xff xff xff xff xff xff xff))))))
(T (W x00 x00 x80 x3f x00 x00 x80 x3f)
(T (W x00 x00 x80 x3f x00 x00 x80 x3f)
(T (W x00 x00 x00 x00 x00 x00 x00 x00)
(T (W xff xff xff xff x01 x00 x00 x00)
(T (W x01 x00 x00 x00 x9c x00 x00 x00)
(L (W x45 x44 x00 x00 x00 x00 x00 x00)) E)
(L (W xff xff xff xff xff xff xff xff)))
(T (W xff xff xff xff xff xff xff xff)
(L (W x00 x00 x00 x00 x00 x00 x00 x00))
(L (W xff xff xff xff xff xff xff xff))))
(T (W xff xff xff xff xff xff xff xff)
(T (W xec xe8 xfc xff x1f x00 x00 x00)
(T (W x2c x00 x30 x00 x34 x00 x38 x00)
(L (W xff xff xff xff xff xff xff xff)) E)
(L (W x00 x00 x80 xbf x00 x00 x80 xbf)))
(T (W x54 x02 x00 x00 x34 x01 x00 x00)
(L (W x00 x00 x80 xbf x00 x00 x80 xbf))
(L (W xff xff xff xff xff xff xff xff)))))
(T (W x00 x00 x00 x00 x00 x00 x00 x00)
(T (W xff xff xff xff xff xff xff xff)
(T (W x00 x00 x80 x3f x00 x00 x80 x3f)
(T (W x00 x00 x00 x00 x00 x00 x00 x00)
(L (W x44 x00 x00 x00 x00 x00 x80 xbf)) E)
(L (W xa9 x01 x00 x00 xff xff xff xff)))
(T (W x00 x00 x80 x3f x00 x00 x80 x3f)
(L (W x00 x00 x80 xbf x00 x00 x80 xbf))
(L (W x68 x00 x00 x00 x5c x00 x00 x00))))
(T (W x45 x26 x22 x84 xe4 x9c xf2 xcb)
(T (W x50 x00 x00 x00 x44 x00 x00 x00)
(T (W x00 x00 x00 x00 x00 x00 x00 x00)
(L (W x00 x00 x00 x00 x00 x00 x00 x00)) E)
(L (W x45 x26 x22 x84 xe4 x9c xf2 xcb)))
(T (W x01 x00 x00 x00 x9c x00 x00 x00)
(L (W x00 x00 x00 x00 x00 x00 x00 x00))
(L (W x45 x44 x00 x00 x00 x00 x00 x00))))))))))
(T (W x80 x12 x01 x00 x34 x10 x01 x00)
(T (W x00 x00 x01 x01 x86 x03 x00 x00)
(T (W x92 x8b xfb xff x74 x00 x00 x00)
(T (W x69 x73 x68 x00 x2e x00 x00 x00)
(T (W x00 x00 x00 x00 x00 x00 x00 x00)
(T (W xff xff xff xff xff xff xff xff)
(T (W x5c x08 xfc xff x00 x01 x01 x01)
(T (W x00 x00 x00 x00 x00 x00 x00 x00)
(T (W x00 x00 x00 x00 x00 x00 x00 x00)
(L (W x00 x00 x80 xbf x00 x00 x80 xbf)) E)
(L (W xbc x00 x00 x00 x02 x00 x00 x00)))
(T (W xff xff xff xff xff xff xff xff)
(L (W x64 x5f x70 x6f x6b x65 x5f x77))
(L (W xff xff xff xff xff xff xff xff))))
(T (W x00 x00 x80 x3f x00 x00 x80 x3f)
(T (W xff xff xff xff xff xff xff xff)
(T (W x68 x00 x00 x00 x5c x00 x00 x00)
(L (W x45 x44 x00 x00 x00 x00 x00 x00)) E)
(L (W x45 x26 x22 x84 xe4 x9c xf2 xcb)))
(T (W xff xff xff xff xff xff xff xff)
(L (W xff xff xff xff xff xff xff xff))
(L (W x00 x00 x00 x00 x04 x00 x00 x00)))))
(T (W xff xff xff xff xff xff xff xff)
(T (W x6c x00 x00 x00 x60 x00 x00 x00)
(T (W x00 x00 x00 x00 x00 x00 x00 x00)
(T (W xff xff xff xff xff xff xff xff)
(L (W x00 x00 x80 xbf x00 x00 x80 xbf)) E)
(L (W x00 x00 x00 x00 x00 x00 x00 x00)))
(T (W x45 x26 x22 x84 xe4 x9c xf2 xcb)
(L (W xff xff xff xff xff xff xff xff))
(L (W x00 x00 x00 x00 x00 x00 x00 x00))))
(T (W x45 x26 x22 x84 xe4 x9c xf2 xcb)
(T (W x5c xe8 xfc xff x00 x01 x01 x01)
(T (W x20 x00 x24 x00 x28 x00 x2c x00)
(L (W x00 x00 x80 xbf x00 x00 x80 xbf)) E)
(L (W xff xff xff xff xff xff xff xff)))
(T (W x00 x00 x80 x3f x00 x00 x80 x3f)
(L (W xff xff xff xff xff xff xff xff))
(L (W x00 x00 x00 x00 x00 x00 x00 x00))))))
(T (W xff xff xff xff xff xff xff xff)
(T (W x00 x00 x00 x00 xcc xd6 xfb xff)
(T (W x00 x00 x80 x3f x00 x00 x80 x3f)
(T (W x43 x00 x00 x00 xff xff xff xff)
(T (W x00 x00 x00 x00 x00 x00 x00 x00)
(L (W x00 x00 x80 xbf x00 x00 x80 xbf)) E)
(L (W x00 x01 x01 x01 x42 xd3 xfe xff)))
(T (W x00 x00 x00 x00 x00 x00 x00 x00)
(L (W xff xff xff xff xff xff xff xff))
(L (W x45 x26 x22 x84 xe4 x9c xf2 xcb))))
(T (W x00 x00 x00 x00 x00 x00 x00 x00)
(T (W x00 x00 x00 x00 x00 x00 x00 x00)
(T (W xff xff xff xff xff xff xff xff)
(L (W x00 x00 x00 x00 xa2 xd7 xff xff)) E)
(L (W x45 x26 x22 x84 xe4 x9c xf2 xcb)))
(T (W x00 x00 x00 x00 x00 x00 x00 x00)
(L (W xff xff xff xff xff xff xff xff))
(L (W x22 x00 x00 x00 x10 x00 x00 x00)))))
(T (W x64 x00 x00 x00 x9c x00 x00 x00)
(T (W x00 x00 x80 x3f x00 x00 x80 x3f)
(T (W x00 x00 x00 x00 x00 x00 x00 x00)
(T (W xb8 x00 x00 x00 xac x00 x00 x00)
(L (W xff xff xff xff xbc x00 x00 x00)) E)
(L (W x00 x00 x80 xbf x00 x00 x80 xbf)))
(T (W x00 x00 x80 x3f x00 x00 x80 x3f)
(L (W xff xff xff xff xff xff xff xff))
(L (W x00 x00 x00 x00 x00 x00 x00 x00))))
(T (W x00 x00 x00 x00 x00 x00 x00 x00)
(T (W xff xff xff xff xb0 x00 x00 x00)
(T (W xea x01 x00 x00 xff xff xff xff)
(L (W xff xff xff xff xff xff xff xff)) E)
(L (W xff xff xff xff xff xff xff xff)))
(T (W xff xff xff xff xff xff xff xff)
(L (W xff xff xff xff xff xff xff xff))
(L (W x00 x00 x00 x00 x00 x00 x00 x00)))))))
(T (W x64 x5f x70 x6f x6b x65 x5f x77)
(T (W x92 xab xfb xff x74 x00 x00 x00)
(T (W x64 x00 x00 x00 x9c x00 x00 x00)
(T (W x50 x00 x00 x00 x44 x00 x00 x00)
(T (W xb7 x8a x7a x05 x59 x91 x58 x03)
(T (W x00 x00 x00 x00 x00 x00 x00 x00)
(L (W x00 x00 x80 xbf x00 x00 x80 xbf)) E)
(L (W x92 x8b xfe xff x74 x00 x00 x00)))
(T (W xff xff xff xff xff xff xff xff)
(L (W x00 x00 x00 x00 xcc x0e xfe xff))
(L (W x00 x00 x00 x00 x00 x00 x00 x00))))
(T (W x45 x26 x22 x84 xe4 x9c xf2 xcb)
(T (W x00 x00 x00 x00 x02 x00 x00 x00)
(T (W xff xff xff xff xff xff xff xff)
(L (W xff xff xff xff xff xff xff xff)) E)
(L (W x6c x00 x00 x00 x60 x00 x00 x00)))
(T (W x02 x00 x00 x00 xff xff xff xff)
(L (W xff xff xff xff xff xff xff xff))
(L (W xff xff xff xff xff xff xff xff)))))
(T (W xff xff xff xff xff xff xff xff)
(T (W x45 x26 x22 x84 xe4 x9c xf2 xcb)
(T (W xec xb3 xfc xff x1e x00 x00 x00)
(T (W xff xff xff xff xff xff xff xff)
(L (W xff xff xff xff xff xff xff xff)) E)
(L (W x4f x84 x6f x8b xe8 xcb x63 xb7)))
(T (W x00 x00 x80 x3f x00 x00 x80 x3f)
(L (W x00 x00 x00 x00 x00 x00 x00 x00))
(L (W x00 x00 x00 x00 x12 x00 x00 x00))))
(T (W x45 x26 x22 x84 xe4 x9c xf2 xcb)
(T (W x92 xeb xfc xff x74 x00 x00 x00)
(T (W x00 x00 x80 x3f x00 x00 x80 x3f)
(L (W x45 x44 x00 x00 x00 x00 x00 x00)) E)
(L (W xff xff xff xff xff xff xff xff)))
(T (W xbc x00 x00 x00 x14 x00 x00 x00)
(L (W xff xff xff xff xff xff xff xff))
(L (W x46 x53 x59 x53 x5f x4e x53 x5f))))))
(T (W xff xff xff xff xff xff xff xff)
(T (W xff xff xff xff xff xff xff xff)
(T (W x00 x00 x80 x3f x00 x00 x80 x3f)
(T (W xff xff xff xff xff xff xff xff)
(T (W xec xa3 xfd xff x17 x00 x00 x00)
(L (W x00 x00 x80 xbf x00 x00 x80 xbf)) E)
(L (W x50 x00 x00 x00 x44 x00 x00 x00)))
(T (W x30 x33 x5f x43 x4c x45 x41 x52)
(L (W x86 x5c x6c x12 x83 xf0 x3a xc6))
(L (W x49 xa1 x68 x4a xeb x5f xdd x3d))))
(T (W x00 x00 x00 x00 x00 x00 x00 x00)
(T (W x45 x26 x22 x84 xe4 x9c xf2 xcb)
(T (W xff xff xff xff xff xff xff xff)
(L (W xff xff xff xff xff xff xff xff)) E)
(L (W x18 x00 x00 x00 x0c x00 x00 x00)))
(T (W x00 x00 x00 x00 x00 x00 x00 x00)
(L (W xff xff xff xff xff xff xff xff))
(L (W x00 x00 x00 x00 x00 x00 x00 x00)))))
(T (W xbc x00 x00 x00 xb0 x00 x00 x00)
(T (W x00 x00 x80 x3f x00 x00 x80 x3f)
(T (W x00 x00 x00 x00 x00 x00 x00 x00)
(T (W x68 x00 x00 x00 x5c x00 x00 x00)
(L (W xff xff xff xff xff xff xff xff)) E)
(L (W x00 x00 x00 x00 x00 x00 x00 x00)))
(T (W x18 x00 x00 x00 x0c x00 x00 x00)
(L (W xff xff xff xff xff xff xff xff))
(L (W x19 x00 x00 x00 xff xff xff xff))))
(T (W x00 x00 x00 x00 x00 x00 x00 x00)
(T (W xff xff xff xff xff xff xff xff)
(T (W x00 x00 x80 x3f x00 x00 x80 x3f)
(L (W x49 xa1 x68 x4a xeb x5f xdd x3d)) E)
(L (W xff xff xff xff xff xff xff xff)))
(T (W xff xff xff xff xff xff xff xff)
(L (W xff xff xff xff x94 x00 x00 x00))
(L (W x00 x00 x80 xbf x00 x00 x80 xbf))))))))
(T (W x00 x00 x00 x00 x00 x00 x00 x00)
(T (W xff xff xff xff xff xff xff xff)
(T (W x1f x67 xfb x57 x54 xb8 x43 xa0)
(T (W x00 x00 x80 x3f x00 x00 x80 x3f)
(T (W x00 x00 x00 x00 x00 x00 x00 x00)
(T (W x45 x26 x22 x84 xe4 x9c xf2 xcb)
(T (W xff xff xff xff xff xff xff xff)
(L (W xff xff xff xff xff xff xff xff)) E)
(L (W x1e x00 x00 x00 x10 x00 x00 x00)))
(T (W x00 x00 x80 x3f x00 x00 x80 x3f)
(L (W x00 x00 x01 x01 x7a x00 x00 x00))
(L (W x54 x00 x00 x00 x48 x00 x00 x00))))
(T (W xff xff xff xff xff xff xff xff)
(T (W x00 x00 x80 x3f x00 x00 x80 x3f)
(T (W x1a x00 x00 x00 x67 x72 x6f x75)
(L (W x45 x26 x22 x84 xe4 x9c xf2 xcb)) E)
(L (W xff xff xff xff xff xff xff xff)))
(T (W x00 x00 x80 x3f x00 x00 x80 x3f)
(L (W x00 x00 x00 x00 x00 x00 x00 x00))
(L (W x00 x00 x80 xbf x00 x00 x80 xbf)))))
(T (W x00 x00 x00 x00 x00 x00 x00 x00)
(T (W x01 x00 x00 x00 x04 x00 x00 x00)
(T (W x50 x00 x00 x00 x44 x00 x00 x00)
(T (W x00 x00 x80 x3f x00 x00 x80 x3f)
(L (W xff xff xff xff xff xff xff xff)) E)
(L (W xff xff xff xff x9c x00 x00 x00)))
(T (W xff xff xff xff xff xff xff xff)
(L (W x50 x00 x00 x00 x44 x00 x00 x00))
(L (W xff xff xff xff xff xff xff xff))))
(T (W xb8 x00 x00 x00 xac x00 x00 x00)
(T (W x18 x00 x00 x00 x10 x00 x00 x00)
(T (W x00 x00 x80 xbf x00 x00 x80 xbf)
(L (W x00 x00 x00 x00 x00 x00 x0c x00)) E)
(L (W x00 x00 x80 xbf x00 x00 x80 xbf)))
(T (W xec x6f xfd xff x1e x00 x00 x00)
(L (W x00 x00 x00 x00 x00 x00 x00 x00))
(L (W xa0 x00 x00 x00 x64 x00 x00 x00))))))
(T (W x45 x26 x22 x84 xe4 x9c xf2 xcb)
(T (W x45 x26 x22 x84 xe4 x9c xf2 xcb)
(T (W x00 x00 x00 x00 x00 x00 x00 x00)
(T (W x00 x00 x80 x3f x00 x00 x80 x3f)
(T (W x18 x00 x00 x00 x0c x00 x00 x00)
(L (W xa2 x01 x00 x00 xff xff xff xff)) E)
(L (W x74 x06 x00 x00 xe4 x04 x00 x00)))
(T (W x45 x26 x22 x84 xe4 x9c xf2 xcb)
(L (W x45 x26 x22 x84 xe4 x9c xf2 xcb))
(L (W xff xff xff xff xff xff xff xff))))
(T (W xff xff xff xff xff xff xff xff)
(T (W xff xff xff xff xff xff xff xff)
(T (W x00 x00 x80 x3f x00 x00 x80 x3f)
(L (W x00 x00 x80 xbf x00 x00 x80 xbf)) E)
(L (W x00 x00 x00 x00 x00 x00 x00 x00)))
(T (W x5c x5c xfd xff x00 x01 x01 x01)
(L (W x00 x00 x80 xbf x00 x00 x80 xbf))
(L (W x1e x00 x00 x00 x21 x00 x00 x00)))))
(T (W x00 x00 x00 x00 x00 x00 x00 x00)
(T (W xff xff xff xff xff xff xff xff)
(T (W x68 x00 x00 x00 x5c x00 x00 x00)
(T (W xe0 x00 x00 x00 xac x00 x00 x00)
(L (W x00 x00 x80 xbf x00 x00 x80 xbf)) E)
(L (W xff xff xff xff xc4 x00 x00 x00)))
(T (W x00 x00 x00 x00 x00 x00 x00 x00)
(L (W x00 x00 x80 xbf x00 x00 x80 xbf))
(L (W x00 x00 x80 xbf x00 x00 x80 xbf))))
(T (W x68 x00 x00 x00 x5c x00 x00 x00)
(T (W x45 x26 x22 x84 xe4 x9c xf2 xcb)
(T (W x1c x00 x20 x00 x24 x00 x00 x00)
(L (W x00 x00 x00 x00 x00 x00 x00 x00)) E)
(L (W x00 x00 x80 xbf x00 x00 x80 xbf)))
(T (W x45 x26 x22 x84 xe4 x9c xf2 xcb)
(L (W x00 x00 x00 x00 x00 x00 x00 x00))
(L (W x92 x77 xff xff x74 x00 x00 x00)))))))
(T (W x00 x00 x00 x00 x00 x00 x00 x00)
(T (W x00 x00 x80 x3f x00 x00 x80 x3f)
(T (W x00 x00 x00 x00 x00 x00 x00 x00)
(T (W xec x17 xfc xff x1d x00 x00 x00)
(T (W x18 x00 x00 x00 x0c x00 x00 x00)
(T (W x18 x00 x00 x00 x10 x00 x00 x00)
(L (W xff xff xff xff xff xff xff xff)) E)
(L (W x46 x53 x59 x53 x5f x4e x53 x5f)))
(T (W x00 x00 x80 x3f x00 x00 x80 x3f)
(L (W x45 x44 x00 x00 x00 x00 x00 x00))
(L (W xff xff xff xff xff xff xff xff))))
(T (W xff xff xff xff xff xff xff xff)
(T (W x92 xcf xfc xff x74 x00 x00 x00)
(T (W x00 x00 x80 x3f x00 x00 x80 x3f)
(L (W x00 x00 x80 xbf x00 x00 x80 xbf)) E)
(L (W xff xff xff xff xff xff xff xff)))
(T (W x00 x00 x80 x3f x00 x00 x80 x3f)
(L (W x00 x00 x80 xbf x00 x00 x80 xbf))
(L (W x00 x00 x80 xbf x00 x00 x80 xbf)))))
(T (W x00 x00 x00 x00 x00 x00 x00 x00)
(T (W xff xff xff xff xff xff xff xff)
(T (W x00 x00 x80 x3f x00 x00 x80 x3f)
(T (W x00 x00 x00 x00 x00 x00 x00 x00)
(L (W x00 x00 x00 x00 x00 x00 x00 x00)) E)
(L (W x1a x00 x00 x00 x1d x00 x00 x00)))
(T (W x04 x00 x00 x00 x52 x40 xfd xff)
(L (W x00 x00 x00 x00 x00 x00 x00 x00))
(L (W x42 x31 xff xff x78 x00 x00 x00))))
(T (W x45 x26 x22 x84 xe4 x9c xf2 xcb)
(T (W x46 x53 x59 x53 x5f x4e x53 x5f)
(T (W x38 x39 x5f x43 x00 x00 x00 x00)
(L (W x00 x00 x00 x00 x00 x00 x00 x00)) E)
(L (W x00 x00 x80 xbf x00 x00 x80 xbf)))
(T (W x4f x84 x6f x8b xe8 xcb x63 xb7)
(L (W x00 x00 x00 x00 x00 x00 x00 x00))
(L (W x03 x00 x00 x00 xd0 x00 x00 x00))))))
(T (W x00 x00 x00 x00 x00 x00 x00 x00)
(T (W x00 x00 x00 x00 x00 x00 x00 x00)
(T (W x98 x13 x47 xec x39 x50 x9e x3e)
(T (W x92 x9f xfc xff x74 x00 x00 x00)
(T (W x00 x00 x80 x3f x00 x00 x80 x3f)
(L (W xff xff xff xff xff xff xff xff)) E)
(L (W xff xff xff xff xff xff xff xff)))
(T (W xc0 x00 x00 x00 x01 x00 x00 x00)
(L (W xec x27 xfe xff x1e x00 x00 x00))
(L (W x1f x00 x00 x00 x22 x00 x00 x00))))
(T (W xff xff xff xff xff xff xff xff)
(T (W xff xff xff xff xff xff xff xff)
(T (W xff xff xff xff xff xff xff xff)
(L (W x00 x00 x00 x00 x00 x00 x00 x00)) E)
(L (W x00 x00 x00 x00 x00 x00 x00 x00)))
(T (W xb0 x00 x00 x00 x64 x00 x00 x00)
(L (W x00 x00 x80 xbf x00 x00 x80 xbf))
(L (W xff xff xff xff xff xff xff xff)))))
(T (W x00 x00 x00 x00 x00 x00 x00 x00)
(T (W xff xff xff xff xff xff xff xff)
(T (W x00 x00 x00 x00 x00 x00 x00 x00)
(T (W x00 x00 x00 x00 x00 x00 x00 x00)
(L (W x00 x00 x00 x00 x00 x00 x00 x00)) E)
(L (W xff xff xff xff xff xff xff xff)))
(T (W x00 x00 x00 x00 x00 x00 x00 x00)
(L (W x49 xa1 x68 x4a xeb x5f xdd x3d))
(L (W x00 x00 x80 xbf x00 x00 x80 xbf))))
(T (W x5c x84 xfc xff x00 x01 x01 x01)
(T (W x00 x00 x80 x3f x00 x00 x80 x3f)
(T (W xfc x07 x00 x00 xb0 x06 x00 x00)
(L (W xff xff xff xff xff xff xff xff)) E)
(L (W x92 xff xfe xff x74 x00 x00 x00)))
(T (W x00 x00 x80 x3f x00 x00 x80 x3f)
(L (W x30 x33 x5f x43 x4c x45 x41 x52))
(L (W xff xff xff xff xff xff xff xff)))))))))
(T (W x00 x00 x00 x00 x00 x00 x00 x00)
(T (W x64 x00 x00 x00 xa0 x00 x00 x00)
(T (W x18 x00 x00 x00 x0c x00 x00 x00)
(T (W x45 x26 x22 x84 xe4 x9c xf2 xcb)
(T (W x00 x00 x00 x00 x00 x00 x00 x00)
(T (W xff xff xff xff xff xff xff xff)
(T (W x45 x26 x22 x84 xe4 x9c xf2 xcb)
(T (W x45 x26 x22 x84 xe4 x9c xf2 xcb)
(L (W xff xff xff xff xff xff xff xff)) E)
(L (W xff xff xff xff xff xff xff xff)))
(T (W x00 x00 x00 x00 x00 x00 x00 x00)
(L (W x5c x0a xfe xff x00 x01 x01 x01))
(L (W x00 x00 x00 x00 x12 x00 x00 x00))))
(T (W x45 x26 x22 x84 xe4 x9c xf2 xcb)
(T (W x5f x4e x53 x5f x30 x33 x5f x43)
(T (W xaf x00 x00 x00 xff xff xff xff)
(L (W x00 x00 x00 x00 x00 x00 x00 x00)) E)
(L (W xb8 x00 x00 x00 x3c x00 x00 x00)))
(T (W x00 x00 x00 x00 x00 x00 x00 x00)
(L (W xec x4d xfe xff x1f x00 x00 x00))
(L (W x00 x00 x00 x00 x00 x00 x00 x00)))))
(T (W xff xff xff xff xff xff xff xff)
(T (W x64 x00 x00 x00 x9c x00 x00 x00)
(T (W x45 x26 x22 x84 xe4 x9c xf2 xcb)
(T (W x00 x00 x00 x00 x00 x00 x00 x00)
(L (W xff xff xff xff xbc x00 x00 x00)) E)
(L (W x00 x00 x80 xbf x00 x00 x80 xbf)))
(T (W x50 x00 x00 x00 x44 x00 x00 x00)
(L (W x00 x00 x00 x00 x00 x00 x00 x00))
(L (W x00 x00 x80 xbf x00 x00 x80 xbf))))
(T (W x00 x00 x80 x3f x00 x00 x80 x3f)
(T (W xff xff xff xff xff xff xff xff)
(T (W xff xff xff xff xff xff xff xff)
(L (W x42 xe7 xff xff x78 x00 x00 x00)) E)
(L (W xe0 x00 x00 x00 xff xff xff xff)))
(T (W xc4 x00 x00 x00 x01 x00 x00 x00)
(L (W xff xff xff xff xff xff xff xff))
(L (W x00 x00 x80 xbf x00 x00 x80 xbf))))))
(T (W x01 x00 x00 x00 x04 x00 x00 x00)
(T (W x00 x00 x01 x01 xa6 x01 x00 x00)
(T (W xff xff xff xff xff xff xff xff)
(T (W x00 x00 x00 x00 x00 x00 x00 x00)
(T (W x00 x00 x80 x3f x00 x00 x80 x3f)
(L (W xff xff xff xff xff xff xff xff)) E)
(L (W x03 x00 x00 x00 xd0 x00 x00 x00)))
(T (W x00 x00 x00 x00 x00 x00 x00 x00)
(L (W x00 x00 x00 x00 x00 x00 x00 x00))
(L (W x00 x00 x80 xbf x00 x00 x80 xbf))))
(T (W x68 x00 x00 x00 x5c x00 x00 x00)
(T (W x00 x00 x80 x3f x00 x00 x80 x3f)
(T (W x6f x6b x65 x5f x63 x6f x77 x61)
(L (W x00 x00 x00 x00 x12 x00 x00 x00)) E)
(L (W xff xff xff xff xff xff xff xff)))
(T (W x00 x00 x80 x3f x00 x00 x80 x3f)
(L (W x00 x00 x00 x00 x00 x00 x00 x00))
(L (W x45 x26 x22 x84 xe4 x9c xf2 xcb)))))
(T (W xe2 x3e xff xff x8b x01 x00 x00)
(T (W xff xff xff xff xff xff xff xff)
(T (W x00 x00 x00 x00 x68 x00 x6c x00)
(T (W x6b x65 x5f x77 x61 x72 x6c x69)
(L (W x00 x00 x00 x00 x00 x00 x00 x00)) E)
(L (W x68 x00 x00 x00 x5c x00 x00 x00)))
(T (W xff xff xff xff xff xff xff xff)
(L (W x00 x00 x00 x00 x00 x00 x00 x00))
(L (W x00 x00 x00 x00 x00 x00 x00 x00))))
(T (W x00 x00 x80 x3f x00 x00 x80 x3f)
(T (W x34 x01 x00 x00 x04 x00 x00 x00)
(T (W xff xff xff xff xff xff xff xff)
(L (W x68 x00 x00 x00 x5c x00 x00 x00)) E)
(L (W x45 x44 x00 x00 x00 x00 x00 x00)))
(T (W x00 x00 x00 x00 x00 x00 x00 x00)
(L (W x3a x7b xfe xff x8d x01 x00 x00))
(L (W x00 x00 x80 xbf x00 x00 x80 xbf)))))))
(T (W xff xff xff xff xff xff xff xff)
(T (W x44 xc6 xfb xff x25 x00 x00 x00)
(T (W x00 x00 x00 x00 x02 x00 x00 x00)
(T (W xff xff xff xff xff xff xff xff)
(T (W x00 x00 x80 x3f x00 x00 x80 x3f)
(T (W x00 x00 x80 x3f x00 x00 x80 x3f)
(L (W x45 x26 x22 x84 xe4 x9c xf2 xcb)) E)
(L (W xff xff xff xff xb4 x00 x00 x00)))
(T (W x00 x00 x00 x00 x00 x00 x00 x00)
(L (W xff xff xff xff xff xff xff xff))
(L (W x00 x00 x80 xbf x00 x00 x80 xbf))))
(T (W x18 x00 x00 x00 x0c x00 x00 x00)
(T (W x00 x00 x00 x00 x00 x00 x00 x00)
(T (W x00 x00 x00 x00 x00 x00 x00 x00)
(L (W x00 x00 x00 x00 x00 x00 x00 x00)) E)
(L (W x03 x00 x00 x00 xd0 x00 x00 x00)))
(T (W x00 x00 x00 x00 x00 x00 x00 x00)
(L (W x46 x53 x59 x53 x5f x4e x53 x5f))
(L (W x4f x84 x6f x8b xe8 xcb x63 xb7)))))
(T (W x8c x01 x00 x00 xff xff xff xff)
(T (W xff xff xff xff x03 x00 x00 x00)
(T (W x00 x00 x80 x3f x00 x00 x80 x3f)
(T (W xec xb5 xfd xff x1d x00 x00 x00)
(L (W x01 x00 x00 x00 xff xff xff xff)) E)
(L (W x00 x00 x80 xbf x00 x00 x80 xbf)))
(T (W xff xff xff xff xac x00 x00 x00)
(L (W xff xff xff xff xff xff xff xff))
(L (W x3c x00 x00 x00 x00 x00 x80 xbf))))
(T (W x00 x00 x80 x3f x00 x00 x80 x3f)
(T (W xff xff xff xff xff xff xff xff)
(T (W x50 x48 x49 x4f x4e x45 x00 x00)
(L (W x00 x00 x80 xbf x00 x00 x80 xbf)) E)
(L (W xec xf5 xfe xff x18 x00 x00 x00)))
(T (W xff xff xff xff xff xff xff xff)
(L (W x00 x00 x00 x00 x00 x00 x00 x00))
(L (W x00 x00 x80 xbf x00 x00 x80 xbf))))))
(T (W xff xff xff xff xff xff xff xff)
(T (W x92 xfb xfd xff x00 x00 x01 x01)
(T (W x64 x00 x00 x00 x9c x00 x00 x00)
(T (W x00 x00 x00 x00 x00 x00 x00 x00)
(T (W x00 x00 x00 x00 x00 x00 x00 x00)
(L (W x03 x00 x00 x00 xd8 x00 x00 x00)) E)
(L (W x00 x00 x00 x00 x00 x00 x00 x00)))
(T (W x00 x00 x80 x3f x00 x00 x80 x3f)
(L (W x03 x00 x00 x00 xbc x00 x00 x00))
(L (W x5c x00 x00 x00 x50 x00 x00 x00))))
(T (W x00 x00 x80 x3f x00 x00 x80 x3f)
(T (W x45 x26 x22 x84 xe4 x9c xf2 xcb)
(T (W x00 x00 x00 x00 x00 x00 x00 x00)
(L (W x00 x00 x00 x00 x00 x00 x00 x00)) E)
(L (W xff xff xff xff xff xff xff xff)))
(T (W x00 x00 x80 x3f x00 x00 x80 x3f)
(L (W x8c x01 x00 x00 xff xff xff xff))
(L (W x00 x00 x80 xbf x00 x00 x80 xbf)))))
(T (W x5a x48 xff xff x00 x00 x01 x01)
(T (W xff xff xff xff xff xff xff xff)
(T (W x2a xc0 xfc xff xe0 x00 x00 x00)
(T (W xff xff xff xff xff xff xff xff)
(L (W x00 x00 x00 x00 x00 x00 x00 x00)) E)
(L (W x18 x00 x00 x00 x0c x00 x00 x00)))
(T (W x9d x01 x00 x00 xff xff xff xff)
(L (W x00 x00 x00 x00 x00 x00 x00 x00))
(L (W x00 x00 x00 x00 x00 x00 x00 x00))))
(T (W x00 x00 x80 x3f x00 x00 x80 x3f)
(T (W x00 x00 x00 x00 x00 x00 x00 x00)
(T (W x6c x00 x00 x00 x60 x00 x00 x00)
(L (W x30 x00 x34 x00 x38 x00 x3c x00)) E)
(L (W x00 x00 x00 x00 x00 x00 x00 x00)))
(T (W x00 x00 x00 x00 x00 x00 x00 x00)
(L (W xc6 x00 x00 x00 xff xff xff xff))
(L (W x18 x00 x00 x00 x0c x00 x00 x00))))))))
(T (W xff xff xff xff x03 x00 x00 x00)
(T (W x00 x00 x80 x3f x00 x00 x80 x3f)
(T (W x45 x26 x22 x84 xe4 x9c xf2 xcb)
(T (W x00 x00 x80 x3f x00 x00 x80 x3f)
(T (W x45 x26 x22 x84 xe4 x9c xf2 xcb)
(T (W xb8 x00 x00 x00 xac x00 x00 x00)
(T (W xf4 x6f x2e x97 x85 x25 x59 x5f)
(L (W x00 x00 x00 x00 x00 x00 x00 x00)) E)
(L (W x00 x00 x00 x00 x00 x00 x00 x00)))
(T (W xb8 x00 x00 x00 x32 x00 x00 x00)
(L (W x00 x00 x00 x00 x00 x00 x00 x00))
(L (W xff xff xff xff xff xff xff xff))))
(T (W x00 x00 x00 x00 x00 x00 x00 x00)
(T (W x03 x00 x00 x00 xd0 x00 x00 x00)
(T (W x50 x00 x00 x00 x44 x00 x00 x00)
(L (W x03 x00 x00 x00 xd8 x00 x00 x00)) E)
(L (W x5f x4e x53 x5f x30 x33 x5f x43)))
(T (W x45 x26 x22 x84 xe4 x9c xf2 xcb)
(L (W x50 x00 x00 x00 x44 x00 x00 x00))
(L (W xff xff xff xff xc4 x00 x00 x00)))))
(T (W x6c x00 x00 x00 x60 x00 x00 x00)
(T (W x45 x26 x22 x84 xe4 x9c xf2 xcb)
(T (W xff xff xff xff xff xff xff xff)
(T (W x01 x00 x00 x00 x9c x00 x00 x00)
(L (W xff xff xff xff xa8 x00 x00 x00)) E)
(L (W x30 x33 x5f x43 x4c x45 x41 x52)))
(T (W x4c x45 x41 x52 x45 x44 x00 x00)
(L (W xff xff xff xff xff xff xff xff))
(L (W x37 x00 x00 x00 xff xff xff xff))))
(T (W xd0 x00 x00 x00 xff xff xff xff)
(T (W x00 x00 x80 x3f x00 x00 x80 x3f)
(T (W xac x01 x00 x00 xbc x00 x00 x00)
(L (W xff xff xff xff xff xff xff xff)) E)
(L (W x42 xeb xfe xff x78 x00 x00 x00)))
(T (W x00 x00 x80 x3f x00 x00 x80 x3f)
(L (W x8c x2d xff xff x00 x00 x01 x01))
(L (W xff xff xff xff xff xff xff xff))))))
(T (W x68 x00 x00 x00 x5c x00 x00 x00)
(T (W x5c xde xfb xff x00 x01 x01 x01)
(T (W x00 x00 x80 x3f x00 x00 x80 x3f)
(T (W xff xff xff xff xff xff xff xff)
(T (W xff xff xff xff xff xff xff xff)
(L (W x00 x00 x00 x00 x00 x00 x00 x00)) E)
(L (W x00 x00 x80 xbf x00 x00 x80 xbf)))
(T (W xff xff xff xff xff xff xff xff)
(L (W xff xff xff xff x9c x00 x00 x00))
(L (W x46 x53 x59 x53 x5f x4e x53 x5f))))
(T (W x00 x00 x00 x00 x00 x00 x00 x00)
(T (W x24 x00 x00 x00 x10 x00 x00 x00)
(T (W x64 x00 x00 x00 x9c x00 x00 x00)
(L (W xbc x00 x00 x00 x02 x00 x00 x00)) E)
(L (W x00 x00 x80 xbf x00 x00 x80 xbf)))
(T (W xff xff xff xff xff xff xff xff)
(L (W x45 x26 x22 x84 xe4 x9c xf2 xcb))
(L (W xff xff xff xff xff xff xff xff)))))
(T (W x00 x00 x80 x3f x00 x00 x80 x3f)
(T (W x00 x00 x00 x00 x00 x00 x00 x00)
(T (W x45 x26 x22 x84 xe4 x9c xf2 xcb)
(T (W x00 x00 x00 x00 x00 x00 x00 x00)
(L (W xff xff xff xff xb0 x00 x00 x00)) E)
(L (W x30 x33 x5f x43 x4c x45 x41 x52)))
(T (W x00 x00 x80 x3f x00 x00 x80 x3f)
(L (W xc8 x3c xfe xff xf2 x77 xfe xff))
(L (W xff xff xff xff xff xff xff xff))))
(T (W xff xff xff xff xff xff xff xff)
(T (W x00 x00 x80 x3f x00 x00 x80 x3f)
(T (W x46 x53 x59 x53 x5f x4e x53 x5f)
(L (W x45 x26 x22 x84 xe4 x9c xf2 xcb)) E)
(L (W xff xff xff xff xb0 x00 x00 x00)))
(T (W x1b x00 x00 x00 x1e x00 x00 x00)
(L (W x00 x00 x80 xbf x00 x00 x80 xbf))
(L (W x4f x84 x6f x8b xe8 xcb x63 xb7)))))))
(T (W xff xff xff xff xff xff xff xff)
(T (W x01 x00 x00 x00 x3e x00 x00 x00)
(T (W x50 x00 x00 x00 x44 x00 x00 x00)
(T (W x00 x00 x80 x3f x00 x00 x80 x3f)
(T (W xff xff xff xff xff xff xff xff)
(T (W xff xff xff xff xff xff xff xff)
(L (W x00 x00 x00 x00 x00 x00 x00 x00)) E)
(L (W x00 x00 x80 xbf x00 x00 x80 xbf)))
(T (W xff xff xff xff xff xff xff xff)
(L (W x18 x00 x00 x00 x0c x00 x00 x00))
(L (W x00 x00 x00 x00 x00 x00 x00 x00))))
(T (W x00 x00 x00 x00 x00 x00 x00 x00)
(T (W xff xff xff xff xff xff xff xff)
(T (W x01 x00 x00 x00 x9c x00 x00 x00)
(L (W x45 x26 x22 x84 xe4 x9c xf2 xcb)) E)
(L (W x00 x00 x00 x00 x00 x00 x00 x00)))
(T (W xff xff xff xff xff xff xff xff)
(L (W x5c x00 x00 x00 x50 x00 x00 x00))
(L (W xff xff xff xff xff xff xff xff)))))
(T (W x00 x00 x80 x3f x00 x00 x80 x3f)
(T (W x00 x00 x00 x00 x00 x00 x00 x00)
(T (W xff xff xff xff xff xff xff xff)
(T (W x00 x00 x80 x3f x00 x00 x80 x3f)
(L (W x92 xb1 xff xff x74 x00 x00 x00)) E)
(L (W x00 x00 x00 x00 x06 x00 x00 x00)))
(T (W x45 x26 x22 x84 xe4 x9c xf2 xcb)
(L (W x45 x26 x22 x84 xe4 x9c xf2 xcb))
(L (W xff xff xff xff xff xff xff xff))))
(T (W x92 x8f xfe xff x00 x00 x01 x01)
(T (W x00 x00 x80 x3f x00 x00 x80 x3f)
(T (W x48 x00 x4c x00 x00 x00 x50 x00)
(L (W xff xff xff xff xa0 x00 x00 x00)) E)
(L (W x18 x00 x00 x00 x10 x00 x00 x00)))
(T (W x50 x00 x00 x00 x44 x00 x00 x00)
(L (W x42 x73 xfe xff x78 x00 x00 x00))
(L (W x06 x00 x00 x00 x88 x05 x00 x00))))))
(T (W x00 x00 x80 x3f x00 x00 x80 x3f)
(T (W x50 x00 x00 x00 x44 x00 x00 x00)
(T (W x00 x00 x00 x00 x00 x00 x00 x00)
(T (W x00 x00 x00 x00 x00 x00 x00 x00)
(T (W xb8 x00 x00 x00 xac x00 x00 x00)
(L (W x00 x00 x00 x00 x00 x00 x00 x00)) E)
(L (W x00 x00 x00 x00 x00 x00 x00 x00)))
(T (W x54 x02 x00 x00 x34 x01 x00 x00)
(L (W x00 x00 x80 xbf x00 x00 x80 xbf))
(L (W xff xff xff xff xff xff xff xff))))
(T (W xea x32 x22 x10 x02 xfd xbe xe5)
(T (W x00 x00 x00 x00 x00 x00 x00 x00)
(T (W x45 x26 x22 x84 xe4 x9c xf2 xcb)
(L (W x00 x00 x00 x00 x00 x00 x00 x00)) E)
(L (W x00 x00 x00 x00 xcc xe4 xfe xff)))
(T (W x00 x00 x00 x00 x00 x00 x00 x00)
(L (W x42 x63 xfe xff x78 x00 x00 x00))
(L (W x85 x8d xa7 x28 xbf x4e x53 x6a)))))
(T (W x00 x00 x00 x00 x00 x00 x00 x00)
(T (W x44 x5a xfc xff x3e x00 x00 x00)
(T (W x50 x00 x00 x00 x44 x00 x00 x00)
(T (W x45 x26 x22 x84 xe4 x9c xf2 xcb)
(L (W x45 x26 x22 x84 xe4 x9c xf2 xcb)) E)
(L (W x00 x00 x00 x00 x00 x00 x00 x00)))
(T (W x00 x00 x80 x3f x00 x00 x80 x3f)
(L (W x5c x46 xfe xff x00 x01 x01 x01))
(L (W x03 x00 x00 x00 xd0 x00 x00 x00))))
(T (W xff xff xff xff xff xff xff xff)
(T (W x42 x03 xfd xff x78 x00 x00 x00)
(L (W x42 x03 xfe xff x78 x00 x00 x00))
(L (W xff xff xff xff xbc x00 x00 x00)))
(T (W xd0 x00 x00 x00 xac x00 x00 x00)
(L (W x00 x00 x80 xbf x00 x00 x80 xbf))
(L (W x00 x00 x00 x00 x00 x00 x00 x00)))))))))))))
(T (W xe0 x1a x04 x00 x64 x16 x04 x00)
(T (W x18 xd8 x03 x00 x6c xd3 x03 x00)
(T (W x88 x2e x03 x00 x54 x25 x03 x00)
(T (W x20 x4d x02 x00 xdc x4a x02 x00)
(T (W x90 xdb x00 x00 x44 xd9 x00 x00)
(T (W xff xff xff xff xff xff xff xff)
(T (W x00 x00 x80 x3f x00 x00 x80 x3f)
(T (W x00 x00 x80 x3f x00 x00 x80 x3f)
(T (W x00 x00 x00 x00 x00 x00 x00 x00)
(T (W xf2 x1f xfe xff x00 x00 x01 x01)
(T (W x00 x00 x80 x3f x00 x00 x80 x3f)
(T (W x00 x00 x80 x3f x00 x00 x80 x3f)
(L (W xff xff xff xff xff xff xff xff)) E)
(L (W x00 x00 x00 x00 x00 x00 x00 x00)))
(T (W x00 x00 x00 x00 x00 x00 x00 x00)
(L (W x00 x00 x00 x00 x00 x00 x00 x00))
(L (W x00 x00 x80 xbf x00 x00 x80 xbf))))
(T (W xff xff xff xff xff xff xff xff)
(T (W x00 x00 x00 x00 x00 x00 x00 x00)
(T (W xff xff xff xff xff xff xff xff)
(L (W x00 x00 x80 xbf x00 x00 x80 xbf)) E)
(L (W xc8 x00 x00 x00 x01 x00 x00 x00)))
(T (W x00 x00 x00 x00 x00 x00 x00 x00)
(L (W x00 x00 x00 x00 x00 x00 x00 x00))
(L (W x00 x00 x80 xbf x00 x00 x80 xbf)))))
(T (W x00 x00 x00 x00 x00 x00 x00 x00)
(T (W x20 x01 x00 x00 x04 x00 x00 x00)
(T (W x30 x00 x34 x00 x38 x00 x3c x00)
(T (W x00 x00 x80 x3f x00 x00 x80 x3f)
(L (W xff xff xff xff xff xff xff xff)) E)
(L (W xff xff xff xff xb0 x00 x00 x00)))
(T (W xc8 x00 x00 x00 x01 x00 x00 x00)
(L (W x00 x00 x00 x00 x00 x00 x00 x00))
(L (W x00 x01 x01 x01 xa2 x61 xff xff))))
(T (W xff xff xff xff xff xff xff xff)
(T (W xff xff xff xff xff xff xff xff)
(T (W x02 x00 x00 x00 xdc x01 x00 x00)
(L (W xff xff xff xff xff xff xff xff)) E)
(L (W x00 x00 x00 x00 x00 x00 x00 x00)))
(T (W xff xff xff xff xff xff xff xff)
(L (W x00 x00 x00 x00 x00 x00 x00 x00))
(L (W xff xff xff xff xff xff xff xff))))))
(T (W x00 x00 x80 x3f x00 x00 x80 x3f)
(T (W x00 x00 x00 x00 x00 x00 x00 x00)
(T (W x6b x01 x00 x00 xff xff xff xff)
(T (W x00 x00 x80 x3f x00 x00 x80 x3f)
(T (W x68 x00 x00 x00 x5c x00 x00 x00)
(L (W xff xff xff xff xff xff xff xff)) E)
(L (W x00 x00 x00 x00 x00 x00 x00 x00)))
(T (W x00 x00 x80 x3f x00 x00 x80 x3f)
(L (W x49 xa1 x68 x4a xeb x5f xdd x3d))
(L (W x20 x00 x00 x00 x23 x00 x00 x00))))
(T (W xff xff xff xff x03 x00 x00 x00)
(T (W x68 x00 x00 x00 x5c x00 x00 x00)
(T (W x00 x00 x80 x3f x00 x00 x80 x3f)
(L (W x45 x26 x22 x84 xe4 x9c xf2 xcb)) E)
(L (W x34 x01 x00 x00 x04 x00 x00 x00)))
(T (W x00 x00 x80 x3f x00 x00 x80 x3f)
(L (W x00 x00 x00 x00 x00 x00 x00 x00))
(L (W x00 x00 x80 xbf x00 x00 x80 xbf)))))
(T (W x00 x00 x00 x00 x00 x00 x00 x00)
(T (W xd4 x01 x00 x00 xff xff xff xff)
(T (W x00 x00 x80 x3f x00 x00 x80 x3f)
(T (W x00 x00 x00 x00 x00 x00 x00 x00)
(L (W x00 x00 x00 x00 x00 x00 x00 x00)) E)
(L (W xff xff xff xff xff xff xff xff)))
(T (W xff xff xff xff xff xff xff xff)
(L (W x4f x84 x6f x8b xe8 xcb x63 xb7))
(L (W x00 x00 x00 x00 xc0 x36 xff xff))))
(T (W x18 x00 x00 x00 x0c x00 x00 x00)
(T (W x00 x00 x00 x00 x12 x00 x00 x00)
(T (W xff xff xff xff xff xff xff xff)
(L (W x00 x00 x80 xbf x00 x00 x80 xbf)) E)
(L (W x45 x26 x22 x84 xe4 x9c xf2 xcb)))
(T (W x00 x00 x00 x00 x00 x00 x00 x00)
(L (W x00 x00 x00 x00 x00 x00 x00 x00))
(L (W xff xff xff xff xff xff xff xff)))))))
(T (W x2a x00 x00 x00 x67 x72 x6f x75)
(T (W x70 x5f x6c x65 x61 x64 x65 x72)
(T (W x00 x00 x00 x00 x00 x00 x00 x00)
(T (W xff xff xff xff xff xff xff xff)
(T (W x00 x00 x80 x3f x00 x00 x80 x3f)
(T (W xff xff xff xff x03 x00 x00 x00)
(L (W xff xff xff xff xff xff xff xff)) E)
(L (W x2c x01 x00 x00 x04 x00 x00 x00)))
(T (W x00 x00 x80 x3f x00 x00 x80 x3f)
(L (W x61 x72 x6c x69 x6b x65 x5f x6c))
(L (W x54 x00 x00 x00 x48 x00 x00 x00))))
(T (W x64 x00 x00 x00 x9c x00 x00 x00)
(T (W x00 x00 x80 x3f x00 x00 x80 x3f)
(T (W x00 x00 x00 x00 x00 x00 x00 x00)
(L (W x00 x00 x80 xbf x00 x00 x80 xbf)) E)
(L (W xff xff xff xff xff xff xff xff)))
(T (W x4f x84 x6f x8b xe8 xcb x63 xb7)
(L (W x00 x00 x00 x00 x00 x00 x00 x00))
(L (W x00 x00 x80 xbf x00 x00 x80 xbf)))))
(T (W x00 x00 x00 x00 x00 x00 x00 x00)
(T (W xff xff xff xff xff xff xff xff)
(T (W x6c x00 x00 x00 x60 x00 x00 x00)
(T (W x00 x00 x80 x3f x00 x00 x80 x3f)
(L (W x49 xa1 x68 x4a xeb x5f xdd x3d)) E)
(L (W xff xff xff xff xff xff xff xff)))
(T (W xff xff xff xff xff xff xff xff)
(L (W x01 x01 x01 x01 x52 x30 xfe xff))
(L (W x18 x00 x00 x00 x10 x00 x00 x00))))
(T (W x45 x26 x22 x84 xe4 x9c xf2 xcb)
(T (W x00 x00 x00 x00 x00 x00 x00 x00)
(T (W x00 x00 x80 x3f x00 x00 x80 x3f)
(L (W xf2 xe9 xff xff x74 x00 x00 x00)) E)
(L (W x00 x00 x00 x00 x00 x00 x00 x00)))
(T (W x13 x00 x00 x00 x0c x00 x00 x00)
(L (W x00 x00 x00 x00 x00 x00 x00 x00))
(L (W x00 x00 x80 xbf x00 x00 x80 xbf))))))
(T (W x00 x00 x00 x00 x00 x00 x00 x00)
(T (W x00 x00 x00 x00 x00 x00 x00 x00)
(T (W x42 x63 xff xff x7e x00 x00 x00)
(T (W x00 x00 x80 x3f x00 x00 x80 x3f)
(T (W xf2 x99 xfd xff x74 x00 x00 x00)
(L (W xff xff xff xff xff xff xff xff)) E)
(L (W xff xff xff xff xff xff xff xff)))
(T (W x00 x00 x80 x3f x00 x00 x80 x3f)
(L (W x00 x00 x80 xbf x00 x00 x80 xbf))
(L (W xff xff xff xff xff xff xff xff))))
(T (W xff xff xff xff xff xff xff xff)
(T (W xff xff xff xff xff xff xff xff)
(T (W x00 x00 x80 x3f x00 x00 x80 x3f)
(L (W x00 x00 x80 xbf x00 x00 x80 xbf)) E)
(L (W x00 x00 x00 x00 x00 x00 x00 x00)))
(T (W x45 x26 x22 x84 xe4 x9c xf2 xcb)
(L (W x00 x00 x00 x00 x00 x00 x00 x00))
(L (W xf2 x59 xff xff x74 x00 x00 x00)))))
(T (W x0f x00 x00 x00 x0c x00 x00 x00)
(T (W xff xff xff xff xff xff xff xff)
(T (W x45 x26 x22 x84 xe4 x9c xf2 xcb)
(T (W x07 xc1 x33 x97 x85 xac x5f x5f)
(L (W x00 x00 x80 xbf x00 x00 x80 xbf)) E)
(L (W xff xff xff xff xff xff xff xff)))
(T (W x4c x45 x41 x52 x45 x44 x00 x00)
(L (W x00 x00 x00 x00 x00 x00 x00 x00))
(L (W x00 x00 x80 xbf x00 x00 x80 xbf))))
(T (W x68 x00 x00 x00 x5c x00 x00 x00)
(T (W x00 x00 x00 x00 x00 x00 x00 x00)
(T (W xff xff xff xff xff xff xff xff)
(L (W x00 x00 x80 xbf x00 x00 x80 xbf)) E)
(L (W x00 x00 x80 xbf x00 x00 x80 xbf)))
(T (W x00 x00 x80 x3f x00 x00 x80 x3f)
(L (W x4c x82 xfe xff x1d x00 x00 x00))
(L (W xc6 x00 x00 x00 xff xff xff xff))))))))
(T (W x00 x00 x80 x3f x00 x00 x80 x3f)
(T (W x45 x26 x22 x84 xe4 x9c xf2 xcb)
(T (W x45 x26 x22 x84 xe4 x9c xf2 xcb)
(T (W x64 x00 x00 x00 x9c x00 x00 x00)
(T (W x50 x00 x00 x00 x44 x00 x00 x00)
(T (W x65 xd1 xc5 xde x04 xb8 xd0 xa6)
(T (W x45 x26 x22 x84 xe4 x9c xf2 xcb)
(L (W x00 x00 x80 xbf x00 x00 x80 xbf)) E)
(L (W x00 x00 x80 xbf x00 x00 x80 xbf)))
(T (W xff xff xff xff xff xff xff xff)
(L (W x00 x00 x00 x00 x00 x00 x00 x00))
(L (W xff xff xff xff xff xff xff xff))))
(T (W x45 x26 x22 x84 xe4 x9c xf2 xcb)
(T (W xff xff xff xff xff xff xff xff)
(T (W x45 x26 x22 x84 xe4 x9c xf2 xcb)
(L (W xff xff xff xff xff xff xff xff)) E)
(L (W x00 x00 x80 xbf x00 x00 x80 xbf)))
(T (W xb0 x00 x00 x00 x64 x00 x00 x00)
(L (W xff xff xff xff xff xff xff xff))
(L (W xff xff xff xff xff xff xff xff)))))
(T (W xf2 xe5 xfb xff x74 x00 x00 x00)
(T (W x00 x00 x80 x3f x00 x00 x80 x3f)
(T (W xff xff xff xff xff xff xff xff)
(T (W xff xff xff xff xff xff xff xff)
(L (W x00 x00 x80 xbf x00 x00 x80 xbf)) E)
(L (W x00 x00 x00 x00 x00 x00 x00 x00)))
(T (W x00 x00 x00 x00 x00 x00 x00 x00)
(L (W xff xff xff xff xff xff xff xff))
(L (W x00 x00 x00 x00 x00 x00 x00 x00))))
(T (W xa4 x7e xfc xff x3e x00 x00 x00)
(T (W x00 x00 x80 x3f x00 x00 x80 x3f)
(T (W xa2 xe7 xfd xff x78 x00 x00 x00)
(L (W x00 x00 x00 x00 x00 x00 x00 x00)) E)
(L (W x18 x00 x00 x00 x10 x00 x00 x00)))
(T (W x00 x00 x80 x3f x00 x00 x80 x3f)
(L (W x45 x26 x22 x84 xe4 x9c xf2 xcb))
(L (W x00 x00 x00 x00 x00 x00 x00 x00))))))
(T (W x64 x00 x00 x00 x9c x00 x00 x00)
(T (W x18 x00 x00 x00 x0c x00 x00 x00)
(T (W x00 x00 x80 x3f x00 x00 x80 x3f)
(T (W xf2 xb3 xfe xff x00 x00 x01 x01)
(T (W x00 x00 x00 x00 x00 x00 x00 x00)
(L (W x00 x00 x80 xbf x00 x00 x80 xbf)) E)
(L (W x00 x00 x80 xbf x00 x00 x80 xbf)))
(T (W x34 x01 x00 x00 x04 x00 x00 x00)
(L (W x03 x00 x00 x00 xd0 x00 x00 x00))
(L (W x00 x00 x00 x00 x00 x00 x00 x00))))
(T (W x00 x00 x00 x00 x00 x00 x00 x00)
(T (W x00 x00 x00 x00 x12 x00 x00 x00)
(T (W xf2 xf3 xff xff x00 x00 x01 x01)
(L (W xff xff xff xff xff xff xff xff)) E)
(L (W x00 x00 x80 xbf x00 x00 x80 xbf)))
(T (W x00 x00 x00 x00 x00 x00 x00 x00)
(L (W xff xff xff xff xff xff xff xff))
(L (W xc3 x97 xaa x28 xbf xcb x56 x6a)))))
(T (W x18 x00 x00 x00 x10 x00 x00 x00)
(T (W x00 x00 x80 x3f x00 x00 x80 x3f)
(T (W x01 x00 x00 x00 x3e x00 x00 x00)
(T (W xff xff xff xff xff xff xff xff)
(L (W xa8 x00 x00 x00 x64 x00 x00 x00)) E)
(L (W x00 x00 x00 x00 x00 x00 x00 x00)))
(T (W x6c x00 x00 x00 x60 x00 x00 x00)
(L (W xff xff xff xff xff xff xff xff))
(L (W xff xff xff xff xff xff xff xff))))
(T (W x00 x00 x00 x00 x00 x00 x00 x00)
(T (W x1f x00 x00 x00 x22 x00 x00 x00)
(T (W x50 x00 x00 x00 x44 x00 x00 x00)
(L (W x00 x00 x00 x00 x00 x00 x00 x00)) E)
(L (W xff xff xff xff xc4 x00 x00 x00)))
(T (W xff xff xff xff xff xff xff xff)
(L (W xff xff xff xff xb0 x00 x00 x00))
(L (W x00 x00 x00 x00 x00 x00 x00 x00)))))))
(T (W x00 x00 x80 x3f x00 x00 x80 x3f)
(T (W xff xff xff xff xff xff xff xff)
(T (W xbc x00 x00 x00 xb0 x00 x00 x00)
(T (W x6c x00 x00 x00 x60 x00 x00 x00)
(T (W x44 x00 x00 x00 xff xff xff xff)
(T (W x00 x00 x00 x00 x00 x00 x00 x00)
(L (W x4f x84 x6f x8b xe8 xcb x63 xb7)) E)
(L (W x00 x00 x80 xbf x00 x00 x80 xbf)))
(T (W xff xff xff xff xff xff xff xff)
(L (W x54 x00 x00 x00 x48 x00 x00 x00))
(L (W x4c x16 xff xff x25 x00 x00 x00))))
(T (W x45 x26 x22 x84 xe4 x9c xf2 xcb)
(T (W x2c x01 x00 x00 x04 x00 x00 x00)
(T (W xff xff xff xff xff xff xff xff)
(L (W xff xff xff xff xff xff xff xff)) E)
(L (W x00 x00 x80 xbf x00 x00 x80 xbf)))
(T (W xff xff xff xff xff xff xff xff)
(L (W xff xff xff xff xff xff xff xff))
(L (W xaa x01 x00 x00 xff xff xff xff)))))
(T (W x45 x26 x22 x84 xe4 x9c xf2 xcb)
(T (W x00 x00 x80 x3f x00 x00 x80 x3f)
(T (W x36 x00 x00 x00 xff xff xff xff)
(T (W xff xff xff xff xff xff xff xff)
(L (W x45 x26 x22 x84 xe4 x9c xf2 xcb)) E)
(L (W x00 x00 x00 x00 x12 x00 x00 x00)))
(T (W x00 x00 x80 x3f x00 x00 x80 x3f)
(L (W xf2 x2d xfe xff x74 x00 x00 x00))
(L (W x46 x53 x59 x53 x5f x4e x53 x5f))))
(T (W x00 x00 x00 x00 x00 x00 x00 x00)
(T (W x45 x26 x22 x84 xe4 x9c xf2 xcb)
(T (W x6d x30 x34 x38 x39 x00 x00 x00)
(L (W x00 x00 x00 x00 x00 x00 x00 x00)) E)
(L (W xff xff xff xff xff xff xff xff)))
(T (W x00 x00 x00 x00 x2c x71 xfd xff)
(L (W x1d x00 x00 x00 x20 x00 x00 x00))
(L (W x30 x33 x5f x43 x4c x45 x41 x52))))))
(T (W x00 x00 x00 x00 x2c xc1 xfb xff)
(T (W x18 x00 x00 x00 x0c x00 x00 x00)
(T (W x00 x00 x80 x3f x00 x00 x80 x3f)
(T (W xff xff xff xff xff xff xff xff)
(T (W x18 x01 x00 x00 x04 x00 x00 x00)
(L (W x00 x00 x80 xbf x00 x00 x80 xbf)) E)
(L (W x00 x00 x00 x00 x00 x00 x00 x00)))
(T (W x00 x00 x00 x00 x00 x00 x00 x00)
(L (W x00 x00 x80 xbf x00 x00 x80 xbf))
(L (W x00 x00 x00 x00 x00 x00 x00 x00))))
(T (W x00 x00 x00 x00 x00 x00 x00 x00)
(T (W x45 x26 x22 x84 xe4 x9c xf2 xcb)
(T (W xff xff xff xff xff xff xff xff)
(L (W xff xff xff xff xb0 x00 x00 x00)) E)
(L (W x45 x26 x22 x84 xe4 x9c xf2 xcb)))
(T (W x00 x00 x00 x00 x00 x00 x00 x00)
(L (W x45 x26 x22 x84 xe4 x9c xf2 xcb))
(L (W x46 x53 x59 x53 x5f x4e x53 x5f)))))
(T (W x23 x00 x00 x00 x9c x00 x00 x00)
(T (W x00 x00 x80 x3f x00 x00 x80 x3f)
(T (W x18 x00 x00 x00 x0c x00 x00 x00)
(T (W x00 x00 x80 x3f x00 x00 x80 x3f)
(L (W x03 x00 x00 x00 xd0 x00 x00 x00)) E)
(L (W x49 xa1 x68 x4a xeb x5f xdd x3d)))
(T (W xff xff xff xff xac x00 x00 x00)
(L (W xff xff xff xff xff xff xff xff))
(L (W xff xff xff xff xff xff xff xff))))
(T (W x00 x00 x00 x00 x00 x00 x00 x00)
(T (W xff xff xff xff x9c x00 x00 x00)
(T (W x00 x00 x00 x00 x00 x00 x00 x00)
(L (W xff xff xff xff xff xff xff xff)) E)
(L (W xff xff xff xff xff xff xff xff)))
(T (W x00 x00 x01 x01 x26 x02 x00 x00)
(L (W x45 x26 x22 x84 xe4 x9c xf2 xcb))
(L (W x49 xa1 x68 x4a xeb x5f xdd x3d)))))))))
(T (W x18 x00 x00 x00 x0c x00 x00 x00)
(T (W x00 x00 x00 x00 x00 x00 x00 x00)
(T (W xff xff xff xff xff xff xff xff)
(T (W xf2 xc1 xfd xff x00 x00 x01 x01)
(T (W x00 x00 x80 x3f x00 x00 x80 x3f)
(T (W x00 x00 x00 x00 x00 x00 x00 x00)
(T (W xff xff xff xff xff xff xff xff)
(T (W xff xff xff xff xff xff xff xff)
(L (W x00 x00 x00 x00 x00 x00 x00 x00)) E)
(L (W x00 x00 x80 xbf x00 x00 x80 xbf)))
(T (W xbc x08 xfd xff x00 x01 x01 x01)
(L (W xff xff xff xff xff xff xff xff))
(L (W x45 x26 x22 x84 xe4 x9c xf2 xcb))))
(T (W x4c x4c xfc xff x3e x00 x00 x00)
(T (W x00 x00 x80 x3f x00 x00 x80 x3f)
(T (W x00 x00 x00 x00 x00 x00 x00 x00)
(L (W xff xff xff xff xac x00 x00 x00)) E)
(L (W xba x9e x59 x1d xca x31 xa0 xfd)))
(T (W x54 x00 x00 x00 x48 x00 x00 x00)
(L (W x00 x01 x01 x01 x92 x4b xfe xff))
(L (W x03 x00 x00 x00 xc8 x00 x00 x00)))))
(T (W x00 x00 x80 x3f x00 x00 x80 x3f)
(T (W x00 x00 x00 x00 x00 x00 x00 x00)
(T (W xff xff xff xff xff xff xff xff)
(T (W x00 x00 x00 x00 x2c xa7 xfd xff)
(L (W x00 x00 x00 x00 x00 x00 x00 x00)) E)
(L (W xff xff xff xff xff xff xff xff)))
(T (W x02 x00 x00 x00 xff xff xff xff)
(L (W x00 x00 x80 xbf x00 x00 x80 xbf))
(L (W xff xff xff xff xff xff xff xff))))
(T (W xff xff xff xff xff xff xff xff)
(T (W x00 x00 x00 x00 x00 x00 x00 x00)
(T (W xff xff xff xff xff xff xff xff)
(L (W x00 x00 x00 x00 x00 x00 x00 x00)) E)
(L (W x00 x00 x80 xbf x00 x00 x80 xbf)))
(T (W x00 x00 x00 x00 x00 x00 x00 x00)
(L (W x00 x00 x80 xbf x00 x00 x80 xbf))
(L (W xff xff xff xff xff xff xff xff))))))
(T (W x00 x00 x80 x3f x00 x00 x80 x3f)
(T (W x00 x00 x00 x00 x00 x00 x00 x00)
(T (W x00 x00 x00 x00 x00 x00 x00 x00)
(T (W x45 x26 x22 x84 xe4 x9c xf2 xcb)
(T (W xff xff xff xff xff xff xff xff)
(L (W x00 x00 x00 x00 x00 x00 x00 x00)) E)
(L (W x00 x00 x00 x00 x00 x00 x00 x00)))
(T (W xff xff xff xff xb0 x00 x00 x00)
(L (W x6c x00 x00 x00 x60 x00 x00 x00))
(L (W xff xff xff xff xff xff xff xff))))
(T (W xff xff xff xff xff xff xff xff)
(T (W xff xff xff xff xff xff xff xff)
(T (W xf2 xd3 xfd xff x74 x00 x00 x00)
(L (W xff xff xff xff x8c x00 x00 x00)) E)
(L (W x45 x26 x22 x84 xe4 x9c xf2 xcb)))
(T (W xff xff xff xff x9c x00 x00 x00)
(L (W xbc x58 xfe xff x00 x01 x01 x01))
(L (W xff xff xff xff xff xff xff xff)))))
(T (W x00 x00 x80 x3f x00 x00 x80 x3f)
(T (W x00 x00 x00 x00 x00 x00 x00 x00)
(T (W x00 x00 x58 x00 x00 x00 x00 x00)
(T (W x00 x00 x80 x3f x00 x00 x80 x3f)
(L (W x00 x00 x80 xbf x00 x00 x80 xbf)) E)
(L (W x8a xb6 xfe xff xa9 x01 x00 x00)))
(T (W x00 x00 x00 x00 x00 x00 x00 x00)
(L (W xbc x38 xfe xff x00 x01 x01 x01))
(L (W xff xff xff xff xb0 x00 x00 x00))))
(T (W xff xff xff xff xff xff xff xff)
(T (W x00 x00 x80 x3f x00 x00 x80 x3f)
(T (W xac x01 x00 x00 x49 x02 x00 x00)
(L (W x68 x00 x00 x00 x5c x00 x00 x00)) E)
(L (W x68 x00 x00 x00 x5c x00 x00 x00)))
(T (W x68 x00 x00 x00 x5c x00 x00 x00)
(L (W x00 x00 x80 xbf x00 x00 x80 xbf))
(L (W xff xff xff xff xff xff xff xff)))))))
(T (W xff xff xff xff xff xff xff xff)
(T (W x00 x00 x00 x00 x00 x00 x00 x00)
(T (W x00 x00 x80 x3f x00 x00 x80 x3f)
(T (W x00 x00 x00 x00 x00 x00 x00 x00)
(T (W xb8 x00 x00 x00 xac x00 x00 x00)
(T (W xb0 x01 x00 x00 xff xff xff xff)
(L (W x30 x33 x5f x43 x4c x45 x41 x52)) E)
(L (W x00 x00 x00 x00 x00 x00 x00 x00)))
(T (W xf2 x0b xfd xff x74 x00 x00 x00)
(L (W x00 x00 x00 x00 x00 x00 x00 x00))
(L (W xff xff xff xff xff xff xff xff))))
(T (W x01 x00 x00 x00 x04 x00 x00 x00)
(T (W xc4 x00 x00 x00 x01 x00 x00 x00)
(T (W x00 x00 x80 x3f x00 x00 x80 x3f)
(L (W x45 x26 x22 x84 xe4 x9c xf2 xcb)) E)
(L (W x00 x00 x00 x00 x00 x00 x00 x00)))
(T (W x18 x00 x00 x00 x0c x00 x00 x00)
(L (W xec x0f xff xff x00 x00 x01 x01))
(L (W x00 x00 x00 x00 x2c x4f xff xff)))))
(T (W x50 x00 x00 x00 x44 x00 x00 x00)
(T (W x45 x26 x22 x84 xe4 x9c xf2 xcb)
(T (W xff xff xff xff xff xff xff xff)
(T (W xf2 xab xfd xff x74 x00 x00 x00)
(L (W x00 x00 x80 xbf x00 x00 x80 xbf)) E)
(L (W xa9 x01 x00 x00 xff xff xff xff)))
(T (W x5f x4e x53 x5f x30 x33 x5f x43)
(L (W xff xff xff xff xff xff xff xff))
(L (W xff xff xff xff xff xff xff xff))))
(T (W xff xff xff xff xff xff xff xff)
(T (W x00 x00 x00 x00 x00 x00 x00 x00)
(T (W x4e x45 x5f x32 x00 x00 x00 x00)
(L (W xff xff xff xff xbc x00 x00 x00)) E)
(L (W x00 x00 x80 xbf x00 x00 x80 xbf)))
(T (W x00 x00 x80 x3f x00 x00 x80 x3f)
(L (W x00 x00 x80 xbf x00 x00 x80 xbf))
(L (W xff xff xff xff xff xff xff xff))))))
(T (W x50 x00 x00 x00 x44 x00 x00 x00)
(T (W x00 x00 x80 x3f x00 x00 x80 x3f)
(T (W x00 x00 x00 x00 x00 x00 x00 x00)
(T (W x68 x00 x00 x00 x5c x00 x00 x00)
(T (W xff xff xff xff xff xff xff xff)
(L (W x00 x00 x00 x00 x00 x00 x00 x00)) E)
(L (W x00 x00 x00 x00 x00 x00 x00 x00)))
(T (W xff xff xff xff xff xff xff xff)
(L (W x03 x00 x00 x00 xbc x00 x00 x00))
(L (W x00 x00 x00 x00 x02 x20 xff xff))))
(T (W xff xff xff xff xff xff xff xff)
(T (W x69 x23 x88 xb5 x85 xc2 xdc x80)
(T (W xf2 xdb xfd xff x74 x00 x00 x00)
(L (W x00 x00 x80 xbf x00 x00 x80 xbf)) E)
(L (W x49 xa1 x68 x4a xeb x5f xdd x3d)))
(T (W xff xff xff xff xff xff xff xff)
(L (W x00 x00 x80 xbf x00 x00 x80 xbf))
(L (W xff xff xff xff xff xff xff xff)))))
(T (W x00 x00 x80 x3f x00 x00 x80 x3f)
(T (W x00 x00 x00 x00 x00 x00 x00 x00)
(T (W x64 x00 x0c x00 x00 x00 x00 x00)
(T (W x00 x00 x00 x00 x00 x00 x00 x00)
(L (W x00 x01 x01 x01 xa2 xfb xff xff)) E)
(L (W xff xff xff xff xff xff xff xff)))
(T (W x49 xa1 x68 x4a xeb x5f xdd x3d)
(L (W x68 x00 x00 x00 x5c x00 x00 x00))
(L (W x28 x00 x00 x00 x1c x00 x00 x00))))
(T (W xff xff xff xff xff xff xff xff)
(T (W x50 x00 x00 x00 x44 x00 x00 x00)
(T (W x00 x00 x00 x00 x00 x00 x00 x00)
(L (W x00 x00 x62 x00 x74 x00 x04 x00)) E)
(L (W x6c x00 x00 x00 x60 x00 x00 x00)))
(T (W xf2 x7b xfd xff x74 x00 x00 x00)
(L (W x45 x26 x22 x84 xe4 x9c xf2 xcb))
(L (W x46 x53 x59 x53 x5f x4e x53 x5f))))))))
(T (W x76 x61 x6e x69 x73 x68 x00 x00)
(T (W x68 x00 x00 x00 x5c x00 x00 x00)
(T (W xff xff xff xff xff xff xff xff)
(T (W x42 x11 xff xff x71 x00 x00 x00)
(T (W xff xff xff xff xff xff xff xff)
(T (W x45 x26 x22 x84 xe4 x9c xf2 xcb)
(T (W x50 x00 x00 x00 x44 x00 x00 x00)
(L (W xf2 x87 xff xff x74 x00 x00 x00)) E)
(L (W xff xff xff xff xff xff xff xff)))
(T (W x18 x00 x00 x00 x10 x00 x00 x00)
(L (W x18 x00 x00 x00 x0c x00 x00 x00))
(L (W x00 x00 x00 x00 x00 x00 x00 x00))))
(T (W x00 x00 x00 x00 x2c x4b xfc xff)
(T (W x30 x33 x5f x43 x4c x45 x41 x52)
(T (W x00 x00 x00 x00 x02 x00 x00 x00)
(L (W x00 x00 x00 x00 x00 x00 x00 x00)) E)
(L (W xa2 xc9 xfe xff x78 x00 x00 x00)))
(T (W x00 x00 x00 x00 x00 x00 x00 x00)
(L (W x24 x01 x00 x00 x04 x00 x00 x00))
(L (W x4c x50 xff xff x18 x00 x00 x00)))))
(T (W xff xff xff xff xff xff xff xff)
(T (W x64 x00 x00 x00 x9c x00 x00 x00)
(T (W x00 x00 x00 x00 x00 x00 x00 x00)
(T (W x00 x00 x00 x00 x00 x00 x00 x00)
(L (W x45 x26 x22 x84 xe4 x9c xf2 xcb)) E)
(L (W x00 x00 x80 xbf x00 x00 x80 xbf)))
(T (W xa2 x29 xfd xff x78 x00 x00 x00)
(L (W x00 x00 x00 x00 x00 x00 x00 x00))
(L (W x00 x00 x80 xbf x00 x00 x80 xbf))))
(T (W x00 x00 x80 x3f x00 x00 x80 x3f)
(T (W xff xff xff xff xff xff xff xff)
(T (W x00 x00 x00 x00 x00 x00 x00 x00)
(L (W xff xff xff xff xff xff xff xff)) E)
(L (W x00 x00 x00 x00 x00 x00 x00 x00)))
(T (W xff xff xff xff xff xff xff xff)
(L (W x6a x80 xfe xff xaa x01 x00 x00))
(L (W x45 x26 x22 x84 xe4 x9c xf2 xcb))))))
(T (W x00 x00 x00 x00 x02 x00 x00 x00)
(T (W xff xff xff xff xff xff xff xff)
(T (W x64 x00 x00 x00 x9c x00 x00 x00)
(T (W x00 x00 x00 x00 x00 x00 x00 x00)
(T (W x45 x26 x22 x84 xe4 x9c xf2 xcb)
(L (W x45 x26 x22 x84 xe4 x9c xf2 xcb)) E)
(L (W x03 x00 x00 x00 xd8 x00 x00 x00)))
(T (W x45 x26 x22 x84 xe4 x9c xf2 xcb)
(L (W x00 x00 x00 x00 x01 x00 x00 x00))
(L (W x45 x26 x22 x84 xe4 x9c xf2 xcb))))
(T (W x00 x00 x80 x3f x00 x00 x80 x3f)
(T (W x00 x00 x80 x3f x00 x00 x80 x3f)
(T (W x00 x00 x00 x00 x00 x00 x00 x00)
(L (W x00 x00 x00 x00 x00 x00 x00 x00)) E)
(L (W x1f x00 x00 x00 x22 x00 x00 x00)))
(T (W x00 x00 x00 x00 x00 x00 x00 x00)
(L (W x00 x00 x00 x00 x00 x00 x00 x00))
(L (W x00 x00 x80 xbf x00 x00 x80 xbf)))))
(T (W xff xff xff xff xff xff xff xff)
(T (W x50 x00 x00 x00 x44 x00 x00 x00)
(T (W x00 x00 x00 x00 x00 x00 x00 x00)
(T (W x00 x00 x80 x3f x00 x00 x80 x3f)
(L (W x46 x53 x59 x53 x5f x4e x53 x5f)) E)
(L (W x00 x00 x80 xbf x00 x00 x80 xbf)))
(T (W xff xff xff xff xbc x00 x00 x00)
(L (W x00 x00 x00 x00 x00 x00 x00 x00))
(L (W x00 x00 x00 x00 x00 x00 x00 x00))))
(T (W x00 x00 x00 x00 x00 x00 x00 x00)
(T (W xff xff xff xff xff xff xff xff)
(T (W x19 x00 x00 x00 x46 x53 x59 x53)
(L (W xff xff xff xff xff xff xff xff)) E)
(L (W x00 x00 x00 x00 x12 x00 x00 x00)))
(T (W x84 xea x60 x32 x34 x35 x1a x4f)
(L (W xff xff xff xff xff xff xff xff))
(L (W x00 x00 x00 x00 x00 x00 x00 x00)))))))
(T (W x6b x65 x5f x63 x6f x77 x61 x72)
(T (W x00 x00 x00 x00 x00 x00 x00 x00)
(T (W xba x1a xff xff x00 x00 x01 x01)
(T (W xff xff xff xff xff xff xff xff)
(T (W x45 x26 x22 x84 xe4 x9c xf2 xcb)
(T (W x45 x26 x22 x84 xe4 x9c xf2 xcb)
(L (W x18 x00 x00 x00 x0c x00 x00 x00)) E)
(L (W xff xff xff xff xff xff xff xff)))
(T (W x46 x53 x59 x53 x5f x4e x53 x5f)
(L (W xff xff xff xff xc8 x00 x00 x00))
(L (W x00 x00 x80 xbf x00 x00 x80 xbf))))
(T (W x45 x26 x22 x84 xe4 x9c xf2 xcb)
(T (W x00 x00 x00 x00 x00 x00 x00 x00)
(T (W x00 x00 x00 x00 x00 x00 x00 x00)
(L (W x00 x00 x00 x00 x00 x00 x00 x00)) E)
(L (W x45 x26 x22 x84 xe4 x9c xf2 xcb)))
(T (W x00 x00 x00 x00 x00 x00 x00 x00)
(L (W x00 x00 x00 x00 x00 x00 x00 x00))
(L (W x00 x00 x00 x00 x12 x00 x00 x00)))))
(T (W xff xff xff xff xff xff xff xff)
(T (W xbc x34 xfc xff x00 x01 x01 x01)
(T (W x00 x00 x00 x00 x00 x00 x00 x00)
(T (W x18 x01 x00 x00 x04 x00 x00 x00)
(L (W xff xff xff xff xff xff xff xff)) E)
(L (W x00 x00 x80 xbf x00 x00 x80 xbf)))
(T (W x29 x00 x00 x00 x2c x00 x00 x00)
(L (W xc2 x39 xfe xff x9c x01 x00 x00))
(L (W x00 x00 x00 x00 x00 x00 x00 x00))))
(T (W x45 x26 x22 x84 xe4 x9c xf2 xcb)
(T (W xff xff xff xff xff xff xff xff)
(T (W xff xff xff xff xff xff xff xff)
(L (W x03 x00 x00 x00 xd4 x00 x00 x00)) E)
(L (W x00 x00 x00 x00 x00 x00 x00 x00)))
(T (W xff xff xff xff x02 x00 x00 x00)
(L (W xff xff xff xff xff xff xff xff))
(L (W x00 x00 x80 xbf x00 x00 x80 xbf))))))
(T (W xb9 x01 x00 x00 xff xff xff xff)
(T (W x1c x01 x00 x00 x04 x00 x00 x00)
(T (W xff xff xff xff x04 x00 x00 x00)
(T (W x00 x00 x00 x00 x00 x00 x00 x00)
(T (W x00 x00 x00 x00 x00 x00 x00 x00)
(L (W x45 x26 x22 x84 xe4 x9c xf2 xcb)) E)
(L (W x00 x00 x80 xbf x00 x00 x80 xbf)))
(T (W x00 x00 x80 x3f x00 x00 x80 x3f)
(L (W xff xff xff xff xff xff xff xff))
(L (W x00 x00 x80 xbf x00 x00 x80 xbf))))
(T (W x00 x00 x80 x3f x00 x00 x80 x3f)
(T (W x00 x00 x00 x00 x2c xe3 xfc xff)
(T (W x00 x00 x80 x3f x00 x00 x80 x3f)
(L (W xe8 x02 x00 x00 xe8 x01 x00 x00)) E)
(L (W x6a xf8 xfe xff xaa x01 x00 x00)))
(T (W x00 x00 x80 x3f x00 x00 x80 x3f)
(L (W x00 x00 x00 x00 x00 x00 x00 x00))
(L (W x00 x00 x80 xbf x00 x00 x80 xbf)))))
(T (W xff xff xff xff xff xff xff xff)
(T (W xf2 x3f xfc xff x74 x00 x00 x00)
(T (W x01 x00 x00 x00 xff xff xff xff)
(T (W x64 x00 x00 x00 x9c x00 x00 x00)
(L (W xff xff xff xff xff xff xff xff)) E)
(L (W x54 x00 x00 x00 x48 x00 x00 x00)))
(T (W xff xff xff xff xff xff xff xff)
(L (W x00 x00 x00 x00 x7a x5e xfe xff))
(L (W x30 x33 x5f x43 x4c x45 x41 x52))))
(T (W x00 x00 x00 x00 x00 x00 x00 x00)
(T (W x00 x00 x00 x00 x00 x00 x00 x00)
(T (W xff xff xff xff xff xff xff xff)
(L (W x00 x00 x00 x00 x04 x00 x06 x00)) E)
(L (W x00 x00 x00 x00 x00 x00 x00 x00)))
(T (W x00 x00 x00 x00 x00 x00 x00 x00)
(L (W xff xff xff xff xff xff xff xff))
(L (W x45 x26 x22 x84 xe4 x9c xf2 xcb))))))))))
(T (W x98 x87 x01 x00 xf4 x82 x01 x00)
(T (W xd0 x48 x00 x00 x84 x46 x00 x00)
(T (W x40 x00 x00 x00 x0c x00 x00 x00)
(T (W x50 x00 x00 x00 x44 x00 x00 x00)
(T (W xff xff xff xff xff xff xff xff)
(T (W x00 x00 x00 x00 x00 x00 x00 x00)
(T (W x00 x00 x00 x00 x00 x00 x00 x00)
(T (W x45 x26 x22 x84 xe4 x9c xf2 xcb)
(T (W xff xff xff xff xff xff xff xff)
(L (W x00 x00 x00 x00 x00 x00 x00 x00)) E)
(L (W x00 x00 x00 x00 x00 x00 x00 x00)))
(T (W x00 x00 x80 x3f x00 x00 x80 x3f)
(L (W x54 x00 x00 x00 x48 x00 x00 x00))
(L (W x00 x00 x80 xbf x00 x00 x80 xbf))))
(T (W xff xff xff xff xff xff xff xff)
(T (W x00 x00 x80 x3f x00 x00 x80 x3f)
(T (W x22 x00 x00 x00 x10 x00 x00 x00)
(L (W x1c x00 x00 x00 x10 x00 x00 x00)) E)
(L (W xff xff xff xff xff xff xff xff)))
(T (W x00 x00 x80 x3f x00 x00 x80 x3f)
(L (W x00 x00 x80 xbf x00 x00 x80 xbf))
(L (W x50 x00 x00 x00 x44 x00 x00 x00)))))
(T (W x00 x00 x80 x3f x00 x00 x80 x3f)
(T (W x00 x00 x00 x00 x00 x00 x00 x00)
(T (W x00 x00 x80 x3f x00 x00 x80 x3f)
(T (W xf2 xa2 xfd xff x74 x00 x00 x00)
(L (W xff xff xff xff xff xff xff xff)) E)
(L (W xff xff xff xff xff xff xff xff)))
(T (W xff xff xff xff xff xff xff xff)
(L (W x45 x26 x22 x84 xe4 x9c xf2 xcb))
(L (W x1f x00 x00 x00 x22 x00 x00 x00))))
(T (W xff xff xff xff xff xff xff xff)
(T (W x18 x00 x00 x00 x10 x00 x00 x00)
(T (W x00 x00 x80 x3f x00 x00 x80 x3f)
(L (W xff xff xff xff xff xff xff xff)) E)
(L (W x49 xa1 x68 x4a xeb x5f xdd x3d)))
(T (W x02 x00 x00 x00 xff xff xff xff)
(L (W x00 x00 x80 xbf x00 x00 x80 xbf))
(L (W xff xff xff xff xff xff xff xff))))))
(T (W x00 x00 x80 x3f x00 x00 x80 x3f)
(T (W x00 x00 x00 x00 x00 x00 x00 x00)
(T (W x00 x00 x00 x00 x00 x00 x00 x00)
(T (W x00 x00 x80 x3f x00 x00 x80 x3f)
(T (W xff xff xff xff x03 x00 x00 x00)
(L (W xa9 x01 x00 x00 xff xff xff xff)) E)
(L (W x00 x00 x00 x00 x00 x00 x00 x00)))
(T (W x45 x26 x22 x84 xe4 x9c xf2 xcb)
(L (W x00 x00 x80 x3f x00 x00 x80 x3f))
(L (W xff xff xff xff xff xff xff xff))))
(T (W xff xff xff xff xff xff xff xff)
(T (W x03 x00 x00 x00 xd0 x00 x00 x00)
(T (W x00 x00 x80 x3f x00 x00 x80 x3f)
(L (W x00 x01 x01 x01 x92 xda xff xff)) E)
(L (W x00 x00 x00 x00 x12 x00 x00 x00)))
(T (W xf2 x52 xfd xff x74 x00 x00 x00)
(L (W x00 x00 x00 x00 x00 x00 x00 x00))
(L (W xf2 x52 xff xff x74 x00 x00 x00)))))
(T (W x45 x26 x22 x84 xe4 x9c xf2 xcb)
(T (W x00 x00 x00 x00 x00 x00 x00 x00)
(T (W x45 x26 x22 x84 xe4 x9c xf2 xcb)
(T (W x00 x00 x80 x3f x00 x00 x80 x3f)
(L (W x4f x84 x6f x8b xe8 xcb x63 xb7)) E)
(L (W xff xff xff xff xff xff xff xff)))
(T (W x00 x00 x00 x00 x00 x00 x00 x00)
(L (W x00 x00 x80 xbf x00 x00 x80 xbf))
(L (W xff xff xff xff x8c x00 x00 x00))))
(T (W xb8 x00 x00 x00 xac x00 x00 x00)
(T (W x45 x26 x22 x84 xe4 x9c xf2 xcb)
(T (W x00 x00 x00 x00 x00 x00 x00 x00)
(L (W x00 x00 x80 xbf x00 x00 x80 xbf)) E)
(L (W x00 x00 x80 xbf x00 x00 x80 xbf)))
(T (W x45 x26 x22 x84 xe4 x9c xf2 xcb)
(L (W x00 x00 x80 xbf x00 x00 x80 xbf))
(L (W xff xff xff xff xff xff xff xff)))))))
(T (W xa2 x9c xfb xff x78 x00 x00 x00)
(T (W x00 x00 x00 x00 x00 x00 x00 x00)
(T (W x00 x00 x00 x00 x00 x00 x00 x00)
(T (W x2b x00 x00 x00 x0c x00 x00 x00)
(T (W x68 x00 x00 x00 x5c x00 x00 x00)
(T (W xff xff xff xff xff xff xff xff)
(L (W xff xff xff xff xff xff xff xff)) E)
(L (W x46 x53 x59 x53 x5f x4e x53 x5f)))
(T (W x00 x00 x80 x3f x00 x00 x80 x3f)
(L (W x00 x00 x00 x00 x12 x00 x00 x00))
(L (W x45 x26 x22 x84 xe4 x9c xf2 xcb))))
(T (W xff xff xff xff xff xff xff xff)
(T (W x50 x00 x00 x00 x44 x00 x00 x00)
(T (W x00 x00 x80 x3f x00 x00 x80 x3f)
(L (W xf2 xca xff xff x74 x00 x00 x00)) E)
(L (W xb8 x05 x00 x00 x88 x04 x00 x00)))
(T (W x00 x00 x80 x3f x00 x00 x80 x3f)
(L (W x00 x00 x80 xbf x00 x00 x80 xbf))
(L (W x00 x00 x80 xbf x00 x00 x80 xbf)))))
(T (W x00 x00 x00 x00 x00 x00 x00 x00)
(T (W x4c x33 xfc xff x3c x00 x00 x00)
(T (W x00 x00 x00 x00 x2c xae xfc xff)
(T (W x00 x00 x80 x3f x00 x00 x80 x3f)
(L (W x00 x00 x80 xbf x00 x00 x80 xbf)) E)
(L (W xff xff xff xff xff xff xff xff)))
(T (W x9d x01 x00 x00 xff xff xff xff)
(L (W x03 x00 x00 x00 xbc x00 x00 x00))
(L (W xc4 x00 x00 x00 x02 x00 x00 x00))))
(T (W xff xff xff xff xff xff xff xff)
(T (W x46 x53 x59 x53 x5f x4e x53 x5f)
(T (W xff xff xff xff xff xff xff xff)
(L (W x45 x26 x22 x84 xe4 x9c xf2 xcb)) E)
(L (W x00 x00 x80 xbf x00 x00 x80 xbf)))
(T (W x00 x00 x00 x00 x00 x00 x00 x00)
(L (W x00 x00 x80 xbf x00 x00 x80 xbf))
(L (W xff xff xff xff xb0 x00 x00 x00))))))
(T (W x00 x00 x80 x3f x00 x00 x80 x3f)
(T (W x00 x00 x80 x3f x00 x00 x80 x3f)
(T (W x00 x00 x00 x00 x00 x00 x00 x00)
(T (W x50 x00 x00 x00 x44 x00 x00 x00)
(T (W x00 x00 x00 x00 x2c x9e xfd xff)
(L (W xff xff xff xff xff xff xff xff)) E)
(L (W x45 x44 x00 x00 x00 x00 x00 x00)))
(T (W x18 x00 x00 x00 x0c x00 x00 x00)
(L (W x68 x00 x00 x00 x5c x00 x00 x00))
(L (W xff xff xff xff xff xff xff xff))))
(T (W xff xff xff xff xff xff xff xff)
(T (W xff xff xff xff xff xff xff xff)
(T (W x68 x00 x00 x00 x5c x00 x00 x00)
(L (W x00 x00 x80 xbf x00 x00 x80 xbf)) E)
(L (W x00 x00 x00 x00 x00 x00 x00 x00)))
(T (W xff xff xff xff xc8 x00 x00 x00)
(L (W x00 x00 x80 xbf x00 x00 x80 xbf))
(L (W xff xff xff xff xff xff xff xff)))))
(T (W x00 x00 x00 x00 x00 x00 x00 x00)
(T (W x00 x00 x00 x00 x02 x00 x00 x00)
(T (W xff xff xff xff xff xff xff xff)
(T (W x00 x00 x00 x00 x00 x00 x00 x00)
(L (W x00 x00 x80 xbf x00 x00 x80 xbf)) E)
(L (W xff xff xff xff xff xff xff xff)))
(T (W x00 x00 x00 x00 x00 x00 x00 x00)
(L (W x00 x00 x80 xbf x00 x00 x80 xbf))
(L (W x54 x00 x00 x00 x48 x00 x00 x00))))
(T (W xff xff xff xff x04 x00 x00 x00)
(T (W x00 x00 x80 x3f x00 x00 x80 x3f)
(T (W xff xff xff xff xff xff xff xff)
(L (W xff xff xff xff xff xff xff xff)) E)
(L (W x00 x00 x80 xbf x00 x00 x80 xbf)))
(T (W x00 x00 x80 x3f x00 x00 x80 x3f)
(L (W x00 x00 x00 x00 x00 x00 x00 x00))
(L (W x6a x93 xff xff x2f x00 x00 x00))))))))
(T (W x64 x00 x00 x00 x9c x00 x00 x00)
(T (W x00 x00 x80 x3f x00 x00 x80 x3f)
(T (W x00 x00 x80 x3f x00 x00 x80 x3f)
(T (W xff xff xff xff xff xff xff xff)
(T (W xff xff xff xff x03 x00 x00 x00)
(T (W x00 x00 x00 x00 x00 x00 x00 x00)
(T (W x45 x26 x22 x84 xe4 x9c xf2 xcb)
(L (W x00 x00 x80 xbf x00 x00 x80 xbf)) E)
(L (W xf2 x86 xfe xff x74 x00 x00 x00)))
(T (W xff xff xff xff xff xff xff xff)
(L (W x00 x00 x80 x3f x00 x00 x80 x3f))
(L (W x00 x00 x00 x00 x02 x00 x00 x00))))
(T (W x68 x00 x00 x00 x5c x00 x00 x00)
(T (W x8a xc9 xfc xff xe0 x00 x00 x00)
(T (W x18 x00 x00 x00 x10 x00 x00 x00)
(L (W x00 x00 x00 x00 x0a x00 x00 x00)) E)
(L (W x00 x00 x80 xbf x00 x00 x80 xbf)))
(T (W xff xff xff xff xff xff xff xff)
(L (W xff xff xff xff xff xff xff xff))
(L (W xff xff xff xff xff xff xff xff)))))
(T (W xff xff xff xff x04 x00 x00 x00)
(T (W x50 x00 x00 x00 x44 x00 x00 x00)
(T (W x40 x00 x00 x00 x0c x00 x00 x00)
(T (W x18 x01 x00 x00 x04 x00 x00 x00)
(L (W x00 x00 x80 xbf x00 x00 x80 xbf)) E)
(L (W x00 x00 x00 x00 x00 x00 x00 x00)))
(T (W x00 x00 x80 x3f x00 x00 x80 x3f)
(L (W x16 x48 x69 x12 x83 x6d x37 xc6))
(L (W x00 x00 x80 xbf x00 x00 x80 xbf))))
(T (W x00 x00 x00 x00 x00 x00 x00 x00)
(T (W xf2 xe6 xfc xff x74 x00 x00 x00)
(T (W xff xff xff xff xff xff xff xff)
(L (W x00 x00 x80 xbf x00 x00 x80 xbf)) E)
(L (W xff xff xff xff xff xff xff xff)))
(T (W x00 x00 x80 x3f x00 x00 x80 x3f)
(L (W xff xff xff xff xb4 x00 x00 x00))
(L (W x00 x00 x00 x00 x00 x00 x00 x00))))))
(T (W xff xff xff xff xff xff xff xff)
(T (W xff xff xff xff xff xff xff xff)
(T (W x45 x26 x22 x84 xe4 x9c xf2 xcb)
(T (W x00 x00 x00 x00 x00 x00 x00 x00)
(T (W x00 x00 x00 x00 x00 x00 x00 x00)
(L (W x54 x00 x00 x00 x48 x00 x00 x00)) E)
(L (W x40 x00 x00 x00 x00 x00 x80 xbf)))
(T (W x00 x00 x00 x00 x12 x00 x00 x00)
(L (W xff xff xff xff xff xff xff xff))
(L (W x00 x00 x80 xbf x00 x00 x80 xbf))))
(T (W x00 x00 x80 x3f x00 x00 x80 x3f)
(T (W x00 x00 x00 x00 x00 x00 x00 x00)
(T (W x00 x00 x00 x00 x00 x00 x00 x00)
(L (W xff xff xff xff xff xff xff xff)) E)
(L (W xf2 xd6 xfe xff x74 x00 x00 x00)))
(T (W x00 x00 x00 x00 x00 x00 x00 x00)
(L (W xff xff xff xff xff xff xff xff))
(L (W x00 x00 x00 x00 x00 x00 x00 x00)))))
(T (W xb8 x00 x00 x00 xac x00 x00 x00)
(T (W x00 x00 x80 x3f x00 x00 x80 x3f)
(T (W x58 x00 x00 x00 x00 x00 x00 x00)
(T (W x21 x00 x00 x00 x67 x72 x6f x75)
(L (W x6a xcf xff xff xaa x01 x00 x00)) E)
(L (W x4f x84 x6f x8b xe8 xcb x63 xb7)))
(T (W x45 x26 x22 x84 xe4 x9c xf2 xcb)
(L (W x00 x00 x00 x00 x00 x00 x00 x00))
(L (W xaf x01 x00 x00 xff xff xff xff))))
(T (W x00 x00 x00 x00 x00 x00 x00 x00)
(T (W xff xff xff xff xff xff xff xff)
(T (W x00 x00 x00 x00 x00 x00 x64 x00)
(L (W x18 x00 x00 x00 x10 x00 x00 x00)) E)
(L (W x34 x01 x00 x00 x04 x00 x00 x00)))
(T (W xff xff xff xff xff xff xff xff)
(L (W xff xff xff xff xff xff xff xff))
(L (W x46 x53 x59 x53 x5f x4e x53 x5f)))))))
(T (W xff xff xff xff xff xff xff xff)
(T (W xc4 x01 x00 x00 xff xff xff xff)
(T (W xff xff xff xff xff xff xff xff)
(T (W x00 x00 x00 x00 x2c x12 xfc xff)
(T (W x00 x00 x00 x00 x00 x00 x00 x00)
(T (W x45 x26 x22 x84 xe4 x9c xf2 xcb)
(L (W x00 x00 x80 xbf x00 x00 x80 xbf)) E)
(L (W xff xff xff xff xb0 x00 x00 x00)))
(T (W x00 x00 x00 x00 x00 x00 x00 x00)
(L (W x45 x26 x22 x84 xe4 x9c xf2 xcb))
(L (W x00 x00 x00 x00 x00 x00 x00 x00))))
(T (W x00 x00 x80 x3f x00 x00 x80 x3f)
(T (W x46 x53 x59 x53 x5f x4e x53 x5f)
(T (W x18 x01 x00 x00 x04 x00 x00 x00)
(L (W xff xff xff xff xff xff xff xff)) E)
(L (W x54 x00 x00 x00 x48 x00 x00 x00)))
(T (W xc2 x58 xfd xff x9c x01 x00 x00)
(L (W xff xff xff xff xff xff xff xff))
(L (W x00 x00 x00 x00 x00 x00 x00 x00)))))
(T (W x18 x00 x00 x00 x10 x00 x00 x00)
(T (W x00 x00 x80 x3f x00 x00 x80 x3f)
(T (W x00 x00 x00 x00 x00 x00 x00 x00)
(T (W xff xff xff xff xff xff xff xff)
(L (W xff xff xff xff xbc x00 x00 x00)) E)
(L (W x45 x26 x22 x84 xe4 x9c xf2 xcb)))
(T (W x00 x00 x80 x3f x00 x00 x80 x3f)
(L (W xff xff xff xff xff xff xff xff))
(L (W x00 x00 x00 x00 x00 x00 x00 x00))))
(T (W x00 x00 x00 x00 x00 x00 x00 x00)
(T (W xff xff xff xff xb0 x00 x00 x00)
(T (W x55 x6c xfc xf1 x99 x9e xc9 x88)
(L (W x00 x00 x00 x00 x00 x00 x00 x00)) E)
(L (W x00 x00 x00 x00 x00 x00 x00 x00)))
(T (W xff xff xff xff xff xff xff xff)
(L (W x03 x00 x00 x00 xd0 x00 x00 x00))
(L (W x00 x00 x00 x00 x00 x00 x00 x00))))))
(T (W xff xff xff xff xff xff xff xff)
(T (W xff xff xff xff xff xff xff xff)
(T (W x68 x00 x00 x00 x5c x00 x00 x00)
(T (W xa4 xb7 xfc xff x3e x00 x00 x00)
(T (W x00 x00 x00 x00 x00 x00 x00 x00)
(L (W xf2 x9e xff xff x74 x00 x00 x00)) E)
(L (W x00 x00 x00 x00 x00 x00 x00 x00)))
(T (W x00 x00 x00 x00 x00 x00 x00 x00)
(L (W xcc xef xff xff x01 x01 x01 x01))
(L (W x45 x26 x22 x84 xe4 x9c xf2 xcb))))
(T (W x45 x26 x22 x84 xe4 x9c xf2 xcb)
(T (W x00 x00 x80 x3f x00 x00 x80 x3f)
(T (W x00 x00 x62 x00 x74 x00 x08 x00)
(L (W xff xff xff xff xff xff xff xff)) E)
(L (W xff xff xff xff xbc x00 x00 x00)))
(T (W x00 x00 x00 x00 x00 x00 x00 x00)
(L (W xff xff xff xff xff xff xff xff))
(L (W x00 x00 x00 x00 x00 x00 x00 x00)))))
(T (W xc0 x00 x00 x00 xb4 x00 x00 x00)
(T (W x50 x00 x00 x00 x44 x00 x00 x00)
(T (W xff xff xff xff xff xff xff xff)
(T (W x45 x26 x22 x84 xe4 x9c xf2 xcb)
(L (W xff xff xff xff xff xff xff xff)) E)
(L (W x00 x00 x80 xbf x00 x00 x80 xbf)))
(T (W xff xff xff xff xff xff xff xff)
(L (W xff xff xff xff xff xff xff xff))
(L (W x8a x41 xff xff x2e x00 x00 x00))))
(T (W x00 x00 x00 x00 x00 x00 x00 x00)
(T (W xff xff xff xff xff xff xff xff)
(T (W x45 x26 x22 x84 xe4 x9c xf2 xcb)
(L (W x00 x00 x00 x00 x12 x00 x00 x00)) E)
(L (W x30 x33 x5f x43 x4c x45 x41 x52)))
(T (W x00 x00 x00 x00 x00 x00 x00 x00)
(L (W x1c x00 x00 x00 x10 x00 x00 x00))
(L (W x00 x00 x80 xbf x00 x00 x80 xbf)))))))))
(T (W xb8 x00 x00 x00 xac x00 x00 x00)
(T (W x45 x26 x22 x84 xe4 x9c xf2 xcb)
(T (W x5f x76 x61 x6e x69 x73 x68 x00)
(T (W x00 x00 x00 x00 x00 x00 x00 x00)
(T (W x45 x26 x22 x84 xe4 x9c xf2 xcb)
(T (W x00 x00 x80 x3f x00 x00 x80 x3f)
(T (W xff xff xff xff xff xff xff xff)
(T (W x6b x65 x5f x63 x6f x77 x61 x72)
(L (W x00 x00 x80 xbf x00 x00 x80 xbf)) E)
(L (W x00 x00 x80 xbf x00 x00 x80 xbf)))
(T (W xb8 x00 x00 x00 x32 x00 x00 x00)
(L (W x6c x76 x32 x00 x22 x00 x00 x00))
(L (W x1a x00 x00 x00 x1d x00 x00 x00))))
(T (W x00 x00 x00 x00 x00 x00 x00 x00)
(T (W xff xff xff xff xac x00 x00 x00)
(T (W x00 x00 x00 x00 x00 x00 x00 x00)
(L (W x03 x00 x00 x00 xd0 x00 x00 x00)) E)
(L (W x00 x00 x00 x00 x00 x00 x00 x00)))
(T (W xbc x49 xfd xff x00 x01 x01 x01)
(L (W x14 x00 x00 x00 x0c x00 x00 x00))
(L (W xff xff xff xff xff xff xff xff)))))
(T (W x68 x00 x00 x00 x5c x00 x00 x00)
(T (W x45 x26 x22 x84 xe4 x9c xf2 xcb)
(T (W xff xff xff xff xff xff xff xff)
(T (W xff xff xff xff xff xff xff xff)
(L (W x4f x84 x6f x8b xe8 xcb x63 xb7)) E)
(L (W x00 x00 x00 x00 xe2 xbb xfe xff)))
(T (W x00 x00 x00 x00 x00 x00 x00 x00)
(L (W xff xff xff xff x9c x00 x00 x00))
(L (W xc2 x2e xff xff x3a x00 x00 x00))))
(T (W xff xff xff xff xff xff xff xff)
(T (W x00 x00 x80 x3f x00 x00 x80 x3f)
(T (W x03 x00 x00 x00 x08 x03 x00 x00)
(L (W x00 x00 x00 x00 x00 x00 x00 x00)) E)
(L (W x54 x00 x00 x00 x48 x00 x00 x00)))
(T (W x00 x00 x00 x00 x00 x00 x00 x00)
(L (W x28 x68 xfe xff x52 xa3 xfe xff))
(L (W x72 x00 x00 x00 xff xff xff xff))))))
(T (W x50 x00 x00 x00 x44 x00 x00 x00)
(T (W x00 x00 x80 x3f x00 x00 x80 x3f)
(T (W x00 x00 x00 x00 x00 x00 x00 x00)
(T (W xff xff xff xff xff xff xff xff)
(T (W xff xff xff xff x01 x00 x00 x00)
(L (W x49 xa1 x68 x4a xeb x5f xdd x3d)) E)
(L (W x00 x00 x80 xbf x00 x00 x80 xbf)))
(T (W xff xff xff xff xff xff xff xff)
(L (W x18 x00 x00 x00 x10 x00 x00 x00))
(L (W x00 x00 x00 x00 x00 x00 x00 x00))))
(T (W xa4 x6d xfc xff x3c x00 x00 x00)
(T (W x00 x00 x00 x00 x02 x00 x00 x00)
(T (W x00 x00 x00 x00 x2c xd8 xfd xff)
(L (W x28 x00 x00 x00 x2b x00 x00 x00)) E)
(L (W x00 x00 x80 xbf x00 x00 x80 xbf)))
(T (W xff xff xff xff xff xff xff xff)
(L (W xb8 x00 x00 x00 x3c x00 x00 x00))
(L (W xff xff xff xff xff xff xff xff)))))
(T (W xbc xf9 xfb xff x00 x01 x01 x01)
(T (W x00 x00 x80 x3f x00 x00 x80 x3f)
(T (W x00 x00 x00 x00 x00 x00 x00 x00)
(T (W xf2 xb4 xfd xff x74 x00 x00 x00)
(L (W x00 x00 x00 x00 xc0 xb9 xff xff)) E)
(L (W x30 x33 x5f x43 x4c x45 x41 x52)))
(T (W x00 x00 x80 x3f x00 x00 x80 x3f)
(L (W xb0 x00 x00 x00 x64 x00 x00 x00))
(L (W xff xff xff xff xff xff xff xff))))
(T (W x00 x00 x00 x00 x00 x00 x00 x00)
(T (W x00 x00 x80 x3f x00 x00 x80 x3f)
(T (W x84 x00 x10 x00 x00 x00 x14 x00)
(L (W x00 x00 x00 x00 x00 x00 x00 x00)) E)
(L (W x45 x26 x22 x84 xe4 x9c xf2 xcb)))
(T (W xff xff xff xff xa0 x00 x00 x00)
(L (W xec x38 xff xff x00 x00 x01 x01))
(L (W xaf x01 x00 x00 xff xff xff xff)))))))
(T (W x72 x64 x5f x6c x76 x31 x00 x00)
(T (W xbc xb1 xfb xff x00 x01 x01 x01)
(T (W x50 x00 x00 x00 x44 x00 x00 x00)
(T (W x00 x00 x80 x3f x00 x00 x80 x3f)
(T (W xff xff xff xff xff xff xff xff)
(T (W x00 x00 x00 x00 x00 x00 x00 x00)
(L (W x00 x00 x00 x00 x00 x00 x00 x00)) E)
(L (W x4f x84 x6f x8b xe8 xcb x63 xb7)))
(T (W xff xff xff xff xff xff xff xff)
(L (W x00 x00 x80 x3f x00 x00 x80 x3f))
(L (W xff xff xff xff xff xff xff xff))))
(T (W x00 x00 x00 x00 x00 x00 x00 x00)
(T (W xff xff xff xff xff xff xff xff)
(T (W xff xff xff xff xff xff xff xff)
(L (W xff xff xff xff xbc x00 x00 x00)) E)
(L (W x00 x00 x80 xbf x00 x00 x80 xbf)))
(T (W xff xff xff xff xff xff xff xff)
(L (W xff xff xff xff xb0 x00 x00 x00))
(L (W xff xff xff xff xff xff xff xff)))))
(T (W xf2 xec xfb xff x74 x00 x00 x00)
(T (W x00 x00 x80 x3f x00 x00 x80 x3f)
(T (W xff xff xff xff xff xff xff xff)
(T (W x00 x00 x00 x00 x2c xb0 xfd xff)
(L (W x6c x00 x00 x00 x60 x00 x00 x00)) E)
(L (W x00 x00 x00 x00 x00 x00 x00 x00)))
(T (W x00 x00 x00 x00 x00 x00 x00 x00)
(L (W xa4 x45 xfe xff x2d x00 x00 x00))
(L (W x4c x03 x00 x00 x24 x02 x00 x00))))
(T (W xf2 x8a xfe xff x00 x00 x01 x01)
(T (W x00 x00 x80 x3f x00 x00 x80 x3f)
(T (W x45 x26 x22 x84 xe4 x9c xf2 xcb)
(L (W xff xff xff xff xff xff xff xff)) E)
(L (W x00 x00 x00 x00 x2c xf0 xfe xff)))
(T (W x00 x00 x80 x3f x00 x00 x80 x3f)
(L (W x00 x01 x01 x01 xa2 xac xfe xff))
(L (W x8a x6f xff xff x90 x01 x00 x00))))))
(T (W xf2 xbc xfb xff x74 x00 x00 x00)
(T (W x00 x00 x80 x3f x00 x00 x80 x3f)
(T (W x00 x00 x00 x00 x00 x00 x00 x00)
(T (W xff xff xff xff x04 x00 x00 x00)
(T (W xff xff xff xff xff xff xff xff)
(L (W x00 x00 x00 x00 x00 x00 x00 x00)) E)
(L (W xbc xa1 xfe xff x00 x01 x01 x01)))
(T (W x02 x00 x00 x00 xff xff xff xff)
(L (W x18 x00 x1c x00 x06 x00 x07 x00))
(L (W x00 x00 x00 x00 x00 x00 x00 x00))))
(T (W x01 x00 x00 x00 x04 x00 x00 x00)
(T (W x00 x00 x00 x00 x00 x00 x00 x00)
(T (W xff xff xff xff xff xff xff xff)
(L (W x45 x26 x22 x84 xe4 x9c xf2 xcb)) E)
(L (W x00 x00 x80 xbf x00 x00 x80 xbf)))
(T (W xff xff xff xff x02 x00 x00 x00)
(L (W x5c x00 x00 x00 x50 x00 x00 x00))
(L (W x00 x00 x00 x00 x00 x00 x00 x00)))))
(T (W x00 x00 x80 x3f x00 x00 x80 x3f)
(T (W x00 x00 x00 x00 x00 x00 x00 x00)
(T (W x00 x00 x80 x3f x00 x00 x80 x3f)
(T (W x00 x00 x80 x3f x00 x00 x80 x3f)
(L (W x1d x00 x00 x00 x20 x00 x00 x00)) E)
(L (W x4c xc5 xfe xff x18 x00 x00 x00)))
(T (W x00 x00 x80 x3f x00 x00 x80 x3f)
(L (W xff xff xff xff xff xff xff xff))
(L (W xff xff xff xff xff xff xff xff))))
(T (W x20 x01 x00 x00 x04 x00 x00 x00)
(T (W xa2 xfe xfc xff x78 x00 x00 x00)
(T (W x00 x00 x00 x00 x00 x00 x00 x00)
(L (W x00 x00 x80 xbf x00 x00 x80 xbf)) E)
(L (W xff xff xff xff x9c x00 x00 x00)))
(T (W xff xff xff xff xc0 x00 x00 x00)
(L (W x6c x00 x00 x00 x60 x00 x00 x00))
(L (W x00 x00 x00 x00 x00 x00 x00 x00))))))))
(T (W x00 x00 x80 x3f x00 x00 x80 x3f)
(T (W xf2 xb6 xfd xff x00 x00 x01 x01)
(T (W xff xff xff xff xff xff xff xff)
(T (W x00 x00 x00 x00 x00 x00 x00 x00)
(T (W xff xff xff xff xff xff xff xff)
(T (W x00 x00 x80 x3f x00 x00 x80 x3f)
(T (W x68 x00 x00 x00 x5c x00 x00 x00)
(L (W xff xff xff xff xff xff xff xff)) E)
(L (W xff xff xff xff xff xff xff xff)))
(T (W x00 x00 x00 x00 x00 x00 x00 x00)
(L (W xff xff xff xff xff xff xff xff))
(L (W x45 x26 x22 x84 xe4 x9c xf2 xcb))))
(T (W x18 x00 x00 x00 x0c x00 x00 x00)
(T (W x00 x00 x00 x00 x00 x00 x00 x00)
(T (W x00 x00 x00 x00 x00 x00 x00 x00)
(L (W x00 x00 x80 xbf x00 x00 x80 xbf)) E)
(L (W xff xff xff xff xac x00 x00 x00)))
(T (W x00 x00 x00 x00 x00 x00 x00 x00)
(L (W x30 x33 x5f x43 x4c x45 x41 x52))
(L (W x4f x84 x6f x8b xe8 xcb x63 xb7)))))
(T (W x21 x00 x00 x00 x10 x00 x00 x00)
(T (W xff xff xff xff xff xff xff xff)
(T (W x00 x00 x80 x3f x00 x00 x80 x3f)
(T (W x00 x00 x00 x00 x00 x00 x00 x00)
(L (W x1c x00 x20 x00 x24 x00 x28 x00)) E)
(L (W x18 x00 x00 x00 x0c x00 x00 x00)))
(T (W x18 x00 x00 x00 x0c x00 x00 x00)
(L (W x00 x00 x80 xbf x00 x00 x80 xbf))
(L (W x54 x00 x00 x00 x48 x00 x00 x00))))
(T (W xa2 x6a xfc xff x78 x00 x00 x00)
(T (W xff xff xff xff xff xff xff xff)
(T (W x00 x00 x00 x00 x00 x00 x00 x00)
(L (W x30 x33 x5f x43 x4c x45 x41 x52)) E)
(L (W x00 x00 x00 x00 x00 x00 x00 x00)))
(T (W xff xff xff xff xff xff xff xff)
(L (W x46 x53 x59 x53 x5f x4e x53 x5f))
(L (W x00 x00 x80 xbf x00 x00 x80 xbf))))))
(T (W x00 x00 x00 x00 x00 x00 x00 x00)
(T (W x1d x00 x00 x00 x0c x00 x00 x00)
(T (W xff xff xff xff xff xff xff xff)
(T (W x00 x00 x80 x3f x00 x00 x80 x3f)
(T (W x00 x00 x80 x3f x00 x00 x80 x3f)
(L (W xff xff xff xff xff xff xff xff)) E)
(L (W xff xff xff xff xff xff xff xff)))
(T (W x00 x00 x80 x3f x00 x00 x80 x3f)
(L (W x00 x00 x00 x00 x00 x00 x00 x00))
(L (W xff xff xff xff xb0 x00 x00 x00))))
(T (W x01 x00 x00 x00 x3e x00 x00 x00)
(T (W xf2 xd8 xfc xff x74 x00 x00 x00)
(T (W x45 x26 x22 x84 xe4 x9c xf2 xcb)
(L (W x00 x00 x00 x00 x00 x00 x00 x00)) E)
(L (W xff xff xff xff xff xff xff xff)))
(T (W x00 x00 x80 x3f x00 x00 x80 x3f)
(L (W x00 x00 x00 x00 x12 x00 x00 x00))
(L (W x00 x00 x80 xbf x00 x00 x80 xbf)))))
(T (W xff xff xff xff xff xff xff xff)
(T (W x64 x00 x00 x00 x9c x00 x00 x00)
(T (W x00 x00 x00 x00 x00 x00 x00 x00)
(T (W x64 x00 x00 x00 x9c x00 x00 x00)
(L (W x00 x00 x00 x00 x00 x00 x00 x00)) E)
(L (W x18 x00 x00 x00 x0c x00 x00 x00)))
(T (W x02 x00 x00 x00 xff xff xff xff)
(L (W x00 x00 x00 x00 x12 x00 x00 x00))
(L (W x00 x00 x80 xbf x00 x00 x80 xbf))))
(T (W x00 x00 x80 x3f x00 x00 x80 x3f)
(T (W x00 x00 x00 x00 x00 x00 x00 x00)
(T (W xff xff xff xff xb0 x00 x00 x00)
(L (W x00 x00 x00 x00 x00 x00 x00 x00)) E)
(L (W x45 x26 x22 x84 xe4 x9c xf2 xcb)))
(T (W x00 x00 x00 x00 x00 x00 x00 x00)
(L (W x8c x01 x00 x00 xff xff xff xff))
(L (W xff xff xff xff xff xff xff xff)))))))
(T (W x00 x00 x00 x00 x00 x00 x00 x00)
(T (W x00 x00 x00 x00 x00 x00 x00 x00)
(T (W x00 x00 x00 x00 x00 x00 x00 x00)
(T (W xff xff xff xff xff xff xff xff)
(T (W x00 x00 x80 x3f x00 x00 x80 x3f)
(T (W x50 x00 x00 x00 x44 x00 x00 x00)
(L (W xff xff xff xff xff xff xff xff)) E)
(L (W xff xff xff xff xff xff xff xff)))
(T (W x00 x00 x00 x00 x00 x00 x00 x00)
(L (W x3c x00 x40 x00 x44 x00 x48 x00))
(L (W x45 x26 x22 x84 xe4 x9c xf2 xcb))))
(T (W x40 x00 x00 x00 x9c x00 x00 x00)
(T (W x00 x00 x80 x3f x00 x00 x80 x3f)
(T (W x00 x00 x00 x00 x00 x00 x00 x00)
(L (W x00 x00 x00 x00 x12 x00 x00 x00)) E)
(L (W xff xff xff xff xc4 x00 x00 x00)))
(T (W x00 x00 x80 x3f x00 x00 x80 x3f)
(L (W x00 x00 x00 x00 x00 x00 x00 x00))
(L (W x00 x00 x00 x00 x00 x00 x00 x00)))))
(T (W xf2 x0e xfe xff x00 x00 x01 x01)
(T (W xff xff xff xff xff xff xff xff)
(T (W x00 x00 x00 x00 x00 x00 x00 x00)
(T (W x00 x00 x00 x00 x00 x00 x00 x00)
(L (W x30 x33 x5f x43 x4c x45 x41 x52)) E)
(L (W x50 x00 x00 x00 x44 x00 x00 x00)))
(T (W xff xff xff xff xff xff xff xff)
(L (W x00 x00 x00 x00 x00 x00 x00 x00))
(L (W x00 x00 x80 xbf x00 x00 x80 xbf))))
(T (W x00 x00 x80 x3f x00 x00 x80 x3f)
(T (W x34 x01 x00 x00 x04 x00 x00 x00)
(T (W x70 x5f x77 x69 x6c x64 x5f x70)
(L (W x24 x00 x28 x00 x2c x00 x30 x00)) E)
(L (W x00 x00 x00 x00 x00 x00 x00 x00)))
(T (W x00 x00 x00 x00 x00 x00 x00 x00)
(L (W xfc x07 x00 x00 xd4 x06 x00 x00))
(L (W x50 x00 x00 x00 x44 x00 x00 x00))))))
(T (W x00 x00 x00 x00 x00 x00 x00 x00)
(T (W x00 x00 x00 x00 x00 x00 x00 x00)
(T (W xff xff xff xff xff xff xff xff)
(T (W x45 x26 x22 x84 xe4 x9c xf2 xcb)
(T (W x00 x00 x80 x3f x00 x00 x80 x3f)
(L (W xff xff xff xff xbc x00 x00 x00)) E)
(L (W x45 x26 x22 x84 xe4 x9c xf2 xcb)))
(T (W x00 x00 x80 x3f x00 x00 x80 x3f)
(L (W x00 x00 x01 x01 xe2 x00 x00 x00))
(L (W x40 x00 x00 x00 x00 x00 x80 xbf))))
(T (W x68 x00 x00 x00 x5c x00 x00 x00)
(T (W xff xff xff xff xff xff xff xff)
(T (W xff xff xff xff xff xff xff xff)
(L (W x3c x00 x00 x00 x00 x00 x80 xbf)) E)
(L (W x46 x53 x59 x53 x5f x4e x53 x5f)))
(T (W xc8 x00 x00 x00 x01 x00 x00 x00)
(L (W x00 x00 x00 x00 x00 x00 x00 x00))
(L (W x68 x00 x00 x00 x5c x00 x00 x00)))))
(T (W xff xff xff xff xff xff xff xff)
(T (W x00 x00 x00 x00 x2c x44 xfc xff)
(T (W x00 x00 x00 x00 x00 x00 x00 x00)
(T (W xff xff xff xff xff xff xff xff)
(L (W x00 x00 x00 x00 x12 x00 x00 x00)) E)
(L (W x45 x26 x22 x84 xe4 x9c xf2 xcb)))
(T (W x00 x00 x00 x00 x00 x00 x00 x00)
(L (W x00 x00 x00 x00 x00 x00 x00 x00))
(L (W x00 x00 x00 x00 x00 x00 x00 x00))))
(T (W x45 x26 x22 x84 xe4 x9c xf2 xcb)
(T (W x00 x00 x00 x00 x00 x00 x00 x00)
(L (W x25 x00 x00 x00 x67 x72 x6f x75))
(L (W x4f x84 x6f x8b xe8 xcb x63 xb7)))
(T (W x00 x00 x80 x3f x00 x00 x80 x3f)
(L (W xff xff xff xff xff xff xff xff))
(L (W xff xff xff xff xbc x00 x00 x00)))))))))))
(T (W x70 xa3 x02 x00 x34 xa2 x02 x00)
(T (W xd0 x02 x02 x00 x8c x00 x02 x00)
(T (W x38 x92 x00 x00 xec x8f x00 x00)
(T (W x00 x00 x80 x3f x00 x00 x80 x3f)
(T (W x01 x00 x00 x00 xff xff xff xff)
(T (W x72 x64 x5f x6c x76 x31 x00 x00)
(T (W xb8 x00 x00 x00 xac x00 x00 x00)
(T (W x68 x00 x00 x00 x5c x00 x00 x00)
(T (W x1d x00 x00 x00 x0c x00 x00 x00)
(T (W x5f x77 x69 x6c x64 x5f x70 x6f)
(L (W x00 x00 x80 xbf x00 x00 x80 xbf)) E)
(L (W x00 x00 x00 x00 xac x85 xfe xff)))
(T (W xff xff xff xff xff xff xff xff)
(L (W xff xff xff xff xff xff xff xff))
(L (W xff xff xff xff xff xff xff xff))))
(T (W x45 x26 x22 x84 xe4 x9c xf2 xcb)
(T (W xff xff xff xff xff xff xff xff)
(T (W x00 x00 x80 x3f x00 x00 x80 x3f)
(L (W x19 xd6 xac x28 xbf xd0 x59 x6a)) E)
(L (W x4f x84 x6f x8b xe8 xcb x63 xb7)))
(T (W xff xff xff xff xff xff xff xff)
(L (W xff xff xff xff xff xff xff xff))
(L (W xea x00 x00 x00 xff xff xff xff)))))
(T (W xff xff xff xff xff xff xff xff)
(T (W x3c x27 xfc xff x00 x01 x01 x01)
(T (W xff xff xff xff xff xff xff xff)
(T (W x18 x01 x00 x00 x04 x00 x00 x00)
(L (W x00 x00 x80 xbf x00 x00 x80 xbf)) E)
(L (W x00 x00 x00 x00 x00 x00 x00 x00)))
(T (W x4f x84 x6f x8b xe8 xcb x63 xb7)
(L (W x03 x00 x00 x00 xbc x00 x00 x00))
(L (W x46 x53 x59 x53 x5f x4e x53 x5f))))
(T (W x00 x00 x80 x3f x00 x00 x80 x3f)
(T (W x00 x00 x80 x3f x00 x00 x80 x3f)
(T (W xff xff xff xff xff xff xff xff)
(L (W x00 x00 x80 xbf x00 x00 x80 xbf)) E)
(L (W xff xff xff xff xff xff xff xff)))
(T (W x00 x00 x80 x3f x00 x00 x80 x3f)
(L (W xff xff xff xff xff xff xff xff))
(L (W x4f x84 x6f x8b xe8 xcb x63 xb7))))))
(T (W xff xff xff xff xff xff xff xff)
(T (W x01 x00 x00 x00 x9c x00 x00 x00)
(T (W x50 x00 x00 x00 x44 x00 x00 x00)
(T (W xff xff xff xff xff xff xff xff)
(T (W x00 x00 x00 x00 x00 x00 x00 x00)
(L (W x00 x00 x80 xbf x00 x00 x80 xbf)) E)
(L (W x6c x56 xff xff x00 x00 x01 x01)))
(T (W x00 x00 x00 x00 x00 x00 x00 x00)
(L (W xff xff xff xff xff xff xff xff))
(L (W x00 x00 x00 x00 x00 x00 x00 x00))))
(T (W x45 x26 x22 x84 xe4 x9c xf2 xcb)
(T (W x00 x00 x00 x00 x00 x00 x00 x00)
(T (W xff xff xff xff xff xff xff xff)
(L (W x1a xd8 xff xff xc6 x00 x00 x00)) E)
(L (W x3c xd7 xfe xff x00 x01 x01 x01)))
(T (W x00 x00 x00 x00 xca x5d xfd xff)
(L (W xff xff xff xff xb4 x00 x00 x00))
(L (W x00 x00 x00 x00 x00 x00 x00 x00)))))
(T (W xff xff xff xff x04 x00 x00 x00)
(T (W x54 x00 x00 x00 x48 x00 x00 x00)
(T (W x67 xac x1e xc1 x86 xf9 x93 x14)
(T (W xff xff xff xff xff xff xff xff)
(L (W x03 x00 x00 x00 xd0 x00 x00 x00)) E)
(L (W x00 x00 x80 xbf x00 x00 x80 xbf)))
(T (W x00 x00 x80 x3f x00 x00 x80 x3f)
(L (W xff xff xff xff xff xff xff xff))
(L (W x46 x53 x59 x53 x5f x4e x53 x5f))))
(T (W x00 x00 x00 x00 x00 x00 x00 x00)
(T (W xb8 x00 x00 x00 x32 x00 x00 x00)
(T (W x00 x00 x80 x3f x00 x00 x80 x3f)
(L (W xff xff xff xff xff xff xff xff)) E)
(L (W xff xff xff xff xff xff xff xff)))
(T (W xff xff xff xff xbc x00 x00 x00)
(L (W xff xff xff xff xff xff xff xff))
(L (W x4f x84 x6f x8b xe8 xcb x63 xb7)))))))
(T (W x6c x01 x00 x00 x04 x00 x00 x00)
(T (W x18 x00 x00 x00 x0c x00 x00 x00)
(T (W x45 x26 x22 x84 xe4 x9c xf2 xcb)
(T (W x00 x00 x80 x3f x00 x00 x80 x3f)
(T (W x72 xa8 xfe xff x00 x00 x01 x01)
(T (W x45 x26 x22 x84 xe4 x9c xf2 xcb)
(L (W x38 x00 x00 x00 x00 x00 x80 xbf)) E)
(L (W x22 x8c xfe xff x78 x00 x00 x00)))
(T (W xff xff xff xff xff xff xff xff)
(L (W x3c x0f xfe xff x00 x01 x01 x01))
(L (W x45 x44 x00 x00 x00 x00 x00 x00))))
(T (W x00 x00 x00 x00 x00 x00 x00 x00)
(T (W xe0 x00 x00 x00 xff xff xff xff)
(T (W xff xff xff xff xff xff xff xff)
(L (W x00 x00 x00 x00 x62 xe1 xff xff)) E)
(L (W x00 x00 x80 xbf x00 x00 x80 xbf)))
(T (W xff xff xff xff xff xff xff xff)
(L (W xff xff xff xff xff xff xff xff))
(L (W xff xff xff xff xff xff xff xff)))))
(T (W xb8 x00 x00 x00 xac x00 x00 x00)
(T (W x00 x00 x80 x3f x00 x00 x80 x3f)
(T (W x00 x00 x00 x00 x00 x00 x00 x00)
(T (W xff xff xff xff xff xff xff xff)
(L (W xff xff xff xff xff xff xff xff)) E)
(L (W x00 x00 x80 xbf x00 x00 x80 xbf)))
(T (W x45 x26 x22 x84 xe4 x9c xf2 xcb)
(L (W x00 x00 x00 x00 x00 x00 x00 x00))
(L (W x00 x00 x00 x00 x00 x00 x00 x00))))
(T (W x00 x00 x00 x00 x00 x00 x00 x00)
(T (W x22 xec xfc xff x78 x00 x00 x00)
(T (W x69 x6b x65 x5f x6c x76 x32 x5f)
(L (W x00 x00 x00 x00 x00 x00 x00 x00)) E)
(L (W xff xff xff xff xff xff xff xff)))
(T (W x1b x00 x00 x00 x1e x00 x00 x00)
(L (W xff xff xff xff xff xff xff xff))
(L (W xcc x72 xff xff x29 x00 x00 x00))))))
(T (W xff xff xff xff xff xff xff xff)
(T (W xff xff xff xff xff xff xff xff)
(T (W x68 x00 x00 x00 x5c x00 x00 x00)
(T (W x42 x00 x00 x00 xff xff xff xff)
(T (W x00 x00 x00 x00 x00 x00 x00 x00)
(L (W x00 x00 x80 xbf x00 x00 x80 xbf)) E)
(L (W x54 x00 x00 x00 x48 x00 x00 x00)))
(T (W x2c x00 x00 x00 x10 x00 x00 x00)
(L (W x00 x00 x01 x01 x9e x01 x00 x00))
(L (W x00 x00 x80 xbf x00 x00 x80 xbf))))
(T (W x45 x26 x22 x84 xe4 x9c xf2 xcb)
(T (W x49 xa1 x68 x4a xeb x5f xdd x3d)
(T (W x72 xf8 xff xff x00 x00 x01 x01)
(L (W xff xff xff xff xff xff xff xff)) E)
(L (W x72 xda xfe xff x74 x00 x00 x00)))
(T (W x00 x00 x00 x00 x00 x00 x00 x00)
(L (W xff xff xff xff xff xff xff xff))
(L (W x00 x00 x00 x00 x00 x00 x00 x00)))))
(T (W x45 x26 x22 x84 xe4 x9c xf2 xcb)
(T (W x00 x00 x80 x3f x00 x00 x80 x3f)
(T (W x00 x00 x00 x00 x00 x00 x00 x00)
(T (W x45 x26 x22 x84 xe4 x9c xf2 xcb)
(L (W xff xff xff xff xff xff xff xff)) E)
(L (W x45 x26 x22 x84 xe4 x9c xf2 xcb)))
(T (W xff xff xff xff xa0 x00 x00 x00)
(L (W xff xff xff xff xff xff xff xff))
(L (W xff xff xff xff xff xff xff xff))))
(T (W x00 x00 x00 x00 x00 x00 x00 x00)
(T (W xff xff xff xff xff xff xff xff)
(T (W x00 x00 x80 x3f x00 x00 x80 x3f)
(L (W x00 x00 x00 x00 x18 x00 x1c x00)) E)
(L (W xff xff xff xff xff xff xff xff)))
(T (W xff xff xff xff xff xff xff xff)
(L (W xff xff xff xff xb0 x00 x00 x00))
(L (W x50 x00 x00 x00 x44 x00 x00 x00))))))))
(T (W x70 x5f x6c x65 x61 x64 x65 x72)
(T (W xff xff xff xff xff xff xff xff)
(T (W xff xff xff xff xff xff xff xff)
(T (W x00 x00 x00 x00 x00 x00 x00 x00)
(T (W x00 x00 x00 x00 x00 x00 x00 x00)
(T (W x40 x00 x00 x00 x9c x00 x00 x00)
(T (W xff xff xff xff xff xff xff xff)
(L (W xff xff xff xff xff xff xff xff)) E)
(L (W x00 x00 x00 x00 x00 x00 x00 x00)))
(T (W x00 x00 x80 x3f x00 x00 x80 x3f)
(L (W xff xff xff xff xff xff xff xff))
(L (W x00 x00 x80 xbf x00 x00 x80 xbf))))
(T (W x23 x00 x00 x00 xff xff xff xff)
(T (W x00 x00 x80 x3f x00 x00 x80 x3f)
(T (W x00 x00 x00 x00 x00 x00 x00 x00)
(L (W x00 x00 x80 xbf x00 x00 x80 xbf)) E)
(L (W xff xff xff xff xff xff xff xff)))
(T (W x00 x00 x00 x00 x00 x00 x00 x00)
(L (W x49 xa1 x68 x4a xeb x5f xdd x3d))
(L (W x00 x00 x80 xbf x00 x00 x80 xbf)))))
(T (W x00 x00 x00 x00 x00 x00 x00 x00)
(T (W xa8 x01 x00 x00 xff xff xff xff)
(T (W x00 x00 x80 x3f x00 x00 x80 x3f)
(T (W x00 x00 x80 x3f x00 x00 x80 x3f)
(L (W xff xff xff xff xff xff xff xff)) E)
(L (W x18 x00 x00 x00 x0c x00 x00 x00)))
(T (W xff xff xff xff xff xff xff xff)
(L (W x00 x00 x80 xbf x00 x00 x80 xbf))
(L (W xff xff xff xff xff xff xff xff))))
(T (W x18 x00 x00 x00 x0c x00 x00 x00)
(T (W x00 x00 x00 x00 x00 x00 x00 x00)
(T (W x00 x00 x00 x00 x00 x00 x00 x00)
(L (W xff xff xff xff xff xff xff xff)) E)
(L (W x00 x00 x00 x00 x00 x00 x00 x00)))
(T (W xff xff xff xff xff xff xff xff)
(L (W x00 x00 x00 x00 x00 x00 x00 x00))
(L (W x03 x00 x00 x00 xc8 x00 x00 x00))))))
(T (W x00 x00 x00 x00 x00 x00 x00 x00)
(T (W x00 x00 x00 x00 x00 x00 x00 x00)
(T (W x60 xb9 xe9 x03 xc8 x42 x65 xc5)
(T (W x6c x00 x00 x00 x60 x00 x00 x00)
(T (W x72 x96 xfd xff x74 x00 x00 x00)
(L (W xff xff xff xff xff xff xff xff)) E)
(L (W x8c x01 x00 x00 xff xff xff xff)))
(T (W x3c x1b xfd xff x00 x01 x01 x01)
(L (W x4f x84 x6f x8b xe8 xcb x63 xb7))
(L (W xff xff xff xff xff xff xff xff))))
(T (W xff xff xff xff xff xff xff xff)
(T (W xb0 x00 x00 x00 x64 x00 x00 x00)
(T (W x68 x00 x00 x00 x5c x00 x00 x00)
(L (W x00 x00 x80 xbf x00 x00 x80 xbf)) E)
(L (W xd3 x00 x00 x00 xff xff xff xff)))
(T (W x45 x26 x22 x84 xe4 x9c xf2 xcb)
(L (W x00 x00 x80 xbf x00 x00 x80 xbf))
(L (W xff xff xff xff xac x00 x00 x00)))))
(T (W x00 x00 x00 x00 x00 x00 x00 x00)
(T (W xff xff xff xff xff xff xff xff)
(T (W x00 x00 x00 x00 x00 x00 x00 x00)
(T (W x00 x00 x80 x3f x00 x00 x80 x3f)
(L (W x00 x00 x00 x00 x00 x00 x00 x00)) E)
(L (W xcc x00 x00 x00 x01 x00 x00 x00)))
(T (W x00 x00 x00 x00 x00 x00 x00 x00)
(L (W x3c x00 x00 x00 x00 x00 x80 xbf))
(L (W x00 x00 x80 xbf x00 x00 x80 xbf))))
(T (W x45 x26 x22 x84 xe4 x9c xf2 xcb)
(T (W x00 x00 x00 x00 x00 x00 x00 x00)
(T (W x00 x00 x00 x00 x00 x00 x00 x00)
(L (W x00 x00 x58 x00 x00 x00 x00 x00)) E)
(L (W x45 x26 x22 x84 xe4 x9c xf2 xcb)))
(T (W x49 xa1 x68 x4a xeb x5f xdd x3d)
(L (W x00 x00 x00 x00 x00 x00 x00 x00))
(L (W x22 x78 xff xff x78 x00 x00 x00)))))))
(T (W x6b x65 x5f x77 x61 x72 x6c x69)
(T (W x45 x26 x22 x84 xe4 x9c xf2 xcb)
(T (W x00 x00 x00 x00 x00 x00 x00 x00)
(T (W x00 x00 x00 x00 x00 x00 x00 x00)
(T (W x50 x00 x00 x00 x44 x00 x00 x00)
(T (W xff xff xff xff x03 x00 x00 x00)
(L (W xff xff xff xff xff xff xff xff)) E)
(L (W xfc x07 x00 x00 xd4 x06 x00 x00)))
(T (W x50 x00 x00 x00 x44 x00 x00 x00)
(L (W x00 x00 x00 x00 x00 x00 x00 x00))
(L (W x18 x00 x00 x00 x10 x00 x00 x00))))
(T (W xff xff xff xff xff xff xff xff)
(T (W x22 xd0 xfc xff x78 x00 x00 x00)
(T (W x00 x00 x80 x3f x00 x00 x80 x3f)
(L (W x00 x00 x80 xbf x00 x00 x80 xbf)) E)
(L (W xa9 x01 x00 x00 xff xff xff xff)))
(T (W x00 x00 x80 x3f x00 x00 x80 x3f)
(L (W x00 x00 x80 xbf x00 x00 x80 xbf))
(L (W x68 x00 x00 x00 x5c x00 x00 x00)))))
(T (W x00 x00 x00 x00 x00 x00 x00 x00)
(T (W xff xff xff xff xff xff xff xff)
(T (W x50 x00 x00 x00 x44 x00 x00 x00)
(T (W x00 x00 x80 x3f x00 x00 x80 x3f)
(L (W x00 x00 x00 x00 x00 x00 x00 x00)) E)
(L (W xb8 x00 x00 x00 x3c x00 x00 x00)))
(T (W xff xff xff xff xff xff xff xff)
(L (W x00 x00 x00 x00 x00 x00 x00 x00))
(L (W xff xff xff xff x8c x00 x00 x00))))
(T (W x72 x6e xfc xff x74 x00 x00 x00)
(T (W x00 x00 x00 x00 x00 x00 x00 x00)
(T (W x64 x00 x00 x00 x91 x00 x00 x00)
(L (W x00 x00 x00 x00 xac xf1 xff xff)) E)
(L (W x00 x00 x80 xbf x00 x00 x80 xbf)))
(T (W x00 x00 x00 x00 x00 x00 x00 x00)
(L (W x00 x00 x00 x00 x00 x00 x00 x00))
(L (W x18 x00 x00 x00 x10 x00 x00 x00))))))
(T (W x00 x00 x00 x00 x00 x00 x00 x00)
(T (W x00 x00 x00 x00 x00 x00 x00 x00)
(T (W x00 x00 x01 x01 xd3 x00 x00 x00)
(T (W x00 x00 x80 x3f x00 x00 x80 x3f)
(T (W x72 x9e xfd xff x74 x00 x00 x00)
(L (W x00 x00 x00 x00 x62 xb5 xff xff)) E)
(L (W x45 x26 x22 x84 xe4 x9c xf2 xcb)))
(T (W x45 x26 x22 x84 xe4 x9c xf2 xcb)
(L (W x00 x00 x00 x00 x01 x00 x00 x00))
(L (W xff xff xff xff xbc x00 x00 x00))))
(T (W xff xff xff xff x04 x00 x00 x00)
(T (W xff xff xff xff xff xff xff xff)
(T (W x00 x00 x80 x3f x00 x00 x80 x3f)
(L (W x00 x00 x00 x00 x00 x00 x00 x00)) E)
(L (W x00 x00 x00 x00 x00 x00 x00 x00)))
(T (W xc4 x00 x00 x00 x01 x00 x00 x00)
(L (W x00 x00 x00 x00 x00 x00 x00 x00))
(L (W xff xff xff xff x9c x00 x00 x00)))))
(T (W x00 x00 x00 x00 x00 x00 x00 x00)
(T (W xff xff xff xff xff xff xff xff)
(T (W x00 x00 x00 x00 x00 x00 x00 x00)
(T (W x6d xc4 x33 x97 x85 xae x5f x5f)
(L (W x4f x84 x6f x8b xe8 xcb x63 xb7)) E)
(L (W xff xff xff xff xff xff xff xff)))
(T (W x00 x00 x00 x00 x00 x00 x00 x00)
(L (W x00 x00 x80 xbf x00 x00 x80 xbf))
(L (W x00 x00 x80 xbf x00 x00 x80 xbf))))
(T (W x18 x00 x00 x00 x10 x00 x00 x00)
(T (W x00 x00 x00 x00 x00 x00 x00 x00)
(T (W xff xff xff xff xff xff xff xff)
(L (W x38 x00 x3c x00 x40 x00 x44 x00)) E)
(L (W x6c x00 x00 x00 x60 x00 x00 x00)))
(T (W x6c x00 x00 x00 x60 x00 x00 x00)
(L (W x00 x00 x00 x00 x00 x00 x00 x00))
(L (W xff xff xff xff xff xff xff xff)))))))))
(T (W x00 x00 x00 x00 x00 x00 x00 x00)
(T (W xff xff xff xff x04 x00 x00 x00)
(T (W x00 x00 x80 x3f x00 x00 x80 x3f)
(T (W x68 x00 x00 x00 x5c x00 x00 x00)
(T (W xe7 x36 x21 x80 xbc xfb xb5 xeb)
(T (W xff xff xff xff xff xff xff xff)
(T (W x00 x00 x80 x3f x00 x00 x80 x3f)
(T (W x00 x00 x80 x3f x00 x00 x80 x3f)
(L (W xff xff xff xff xff xff xff xff)) E)
(L (W xff xff xff xff xff xff xff xff)))
(T (W x00 x00 x00 x00 x12 x00 x00 x00)
(L (W x00 x00 x80 x3f x00 x00 x80 x3f))
(L (W x00 x00 x00 x00 x00 x00 x00 x00))))
(T (W x01 x00 x00 x00 xa0 x00 x00 x00)
(T (W x24 xdd xfc xff x1a x00 x00 x00)
(T (W x64 x00 x00 x00 x9c x00 x00 x00)
(L (W x00 x00 x00 x00 x00 x00 x00 x00)) E)
(L (W x21 x00 x00 x00 x24 x00 x00 x00)))
(T (W x00 x00 x00 x00 x00 x00 x00 x00)
(L (W x30 x33 x5f x43 x4c x45 x41 x52))
(L (W x00 x00 x00 x00 x00 x00 x00 x00)))))
(T (W x72 x02 xfe xff x00 x00 x01 x01)
(T (W xff xff xff xff x03 x00 x00 x00)
(T (W x45 x26 x22 x84 xe4 x9c xf2 xcb)
(T (W x00 x00 x00 x00 x00 x00 x00 x00)
(L (W x03 x00 x00 x00 xd0 x00 x00 x00)) E)
(L (W x00 x00 x80 xbf x00 x00 x80 xbf)))
(T (W x50 x00 x00 x00 x44 x00 x00 x00)
(L (W xcc x2c xfe xff x1e x00 x00 x00))
(L (W x00 x00 x80 xbf x00 x00 x80 xbf))))
(T (W x00 x00 x80 x3f x00 x00 x80 x3f)
(T (W xff xff xff xff xff xff xff xff)
(T (W x00 x00 x80 x3f x00 x00 x80 x3f)
(L (W x45 x26 x22 x84 xe4 x9c xf2 xcb)) E)
(L (W xff xff xff xff xff xff xff xff)))
(T (W x45 x26 x22 x84 xe4 x9c xf2 xcb)
(L (W x00 x00 x00 x00 x00 x00 x00 x00))
(L (W x00 x00 x80 xbf x00 x00 x80 xbf))))))
(T (W x02 xd1 xfd xff xc3 x01 x00 x00)
(T (W xff xff xff xff xff xff xff xff)
(T (W xb8 x00 x00 x00 xac x00 x00 x00)
(T (W x00 x00 x00 x00 x00 x00 x00 x00)
(T (W x45 x26 x22 x84 xe4 x9c xf2 xcb)
(L (W x03 x00 x00 x00 xd8 x00 x00 x00)) E)
(L (W xff xff xff xff xff xff xff xff)))
(T (W x00 x00 x00 x00 x00 x00 x00 x00)
(L (W x30 x33 x5f x43 x4c x45 x41 x52))
(L (W x00 x00 x80 xbf x00 x00 x80 xbf))))
(T (W x00 x00 x80 x3f x00 x00 x80 x3f)
(T (W x00 x00 x80 x3f x00 x00 x80 x3f)
(T (W x00 x00 x00 x00 x00 x00 x00 x00)
(L (W x00 x00 x00 x00 x00 x00 x00 x00)) E)
(L (W xff xff xff xff xff xff xff xff)))
(T (W x00 x00 x00 x00 x00 x00 x00 x00)
(L (W x00 x00 x00 x00 x12 x00 x00 x00))
(L (W x49 xa1 x68 x4a xeb x5f xdd x3d)))))
(T (W x20 x01 x00 x00 x04 x00 x00 x00)
(T (W xff xff xff xff xff xff xff xff)
(T (W x72 xb4 xfc xff x74 x00 x00 x00)
(T (W x68 x01 x00 x00 x04 x00 x00 x00)
(L (W x00 x00 x00 x00 x02 x00 x00 x00)) E)
(L (W x6c x00 x00 x00 x60 x00 x00 x00)))
(T (W xff xff xff xff xff xff xff xff)
(L (W x00 x00 x00 x00 x12 x00 x00 x00))
(L (W x00 x00 x00 x00 x00 x00 x00 x00))))
(T (W x50 x00 x00 x00 x44 x00 x00 x00)
(T (W xff xff xff xff xff xff xff xff)
(T (W x00 x00 x00 x00 x00 x00 x00 x00)
(L (W x00 x00 x00 x00 x00 x00 x00 x00)) E)
(L (W x00 x00 x00 x00 x00 x00 x00 x00)))
(T (W x4c x45 x41 x52 x45 x44 x00 x00)
(L (W x00 x00 x00 x00 x00 x00 x00 x00))
(L (W x00 x00 x80 xbf x00 x00 x80 xbf)))))))
(T (W x00 x00 x80 x3f x00 x00 x80 x3f)
(T (W x6a x2c x7d x8f xb7 x86 x46 x36)
(T (W xaf x01 x00 x00 xff xff xff xff)
(T (W xff xff xff xff xff xff xff xff)
(T (W x00 x00 x00 x00 x00 x00 x00 x00)
(T (W x50 x00 x00 x00 x44 x00 x00 x00)
(L (W xff xff xff xff x9c x00 x00 x00)) E)
(L (W x03 x00 x00 x00 xd0 x00 x00 x00)))
(T (W x00 x00 x00 x00 x00 x00 x00 x00)
(L (W xff xff xff xff xff xff xff xff))
(L (W x00 x00 x80 xbf x00 x00 x80 xbf))))
(T (W x72 x4c xfc xff x74 x00 x00 x00)
(T (W x00 x00 x00 x00 x00 x00 x00 x00)
(T (W x70 x5f x6c x65 x61 x64 x65 x72)
(L (W x00 x00 x00 x00 x00 x00 x00 x00)) E)
(L (W xff xff xff xff xff xff xff xff)))
(T (W x00 x00 x00 x00 x00 x00 x00 x00)
(L (W x00 x00 x00 x00 x00 x00 x00 x00))
(L (W x00 x00 x00 x00 x00 x00 x00 x00)))))
(T (W x00 x00 x00 x00 x00 x00 x00 x00)
(T (W xff xff xff xff xff xff xff xff)
(T (W x00 x00 x80 x3f x00 x00 x80 x3f)
(T (W x00 x00 x00 x00 x00 x00 x00 x00)
(L (W x00 x00 x00 x00 x52 xad xff xff)) E)
(L (W x50 x00 x00 x00 x44 x00 x00 x00)))
(T (W x29 x00 x00 x00 x2c x00 x00 x00)
(L (W x00 x00 x80 xbf x00 x00 x80 xbf))
(L (W x00 x00 x80 xbf x00 x00 x80 xbf))))
(T (W x00 x00 x80 x3f x00 x00 x80 x3f)
(T (W xff xff xff xff xff xff xff xff)
(T (W x01 x00 x00 x00 x04 x00 x00 x00)
(L (W x45 x26 x22 x84 xe4 x9c xf2 xcb)) E)
(L (W x00 x00 x00 x00 x00 x00 x00 x00)))
(T (W xff xff xff xff xff xff xff xff)
(L (W x1a x72 xfe xff x8d x01 x00 x00))
(L (W x00 x00 x80 xbf x00 x00 x80 xbf))))))
(T (W x00 x00 x00 x00 x00 x00 x00 x00)
(T (W x01 x00 x00 x00 xff xff xff xff)
(T (W x45 x26 x22 x84 xe4 x9c xf2 xcb)
(T (W x00 x00 x00 x00 x00 x00 x00 x00)
(T (W x00 x00 x80 x3f x00 x00 x80 x3f)
(L (W x00 x00 x00 x00 xac x9f xff xff)) E)
(L (W x00 x00 x00 x00 x68 x00 x6c x00)))
(T (W x45 x26 x22 x84 xe4 x9c xf2 xcb)
(L (W x45 x26 x22 x84 xe4 x9c xf2 xcb))
(L (W x70 x00 x00 x00 x64 x00 x00 x00))))
(T (W x00 x00 x80 x3f x00 x00 x80 x3f)
(T (W x45 x26 x22 x84 xe4 x9c xf2 xcb)
(T (W x00 x00 x00 x00 x00 x00 x00 x00)
(L (W x00 x00 x00 x00 x00 x00 x00 x00)) E)
(L (W xff xff xff xff xff xff xff xff)))
(T (W x00 x00 x80 x3f x00 x00 x80 x3f)
(L (W xff xff xff xff xff xff xff xff))
(L (W x50 x00 x00 x00 x44 x00 x00 x00)))))
(T (W xff xff xff xff xff xff xff xff)
(T (W x18 x00 x00 x00 x10 x00 x00 x00)
(T (W xff xff xff xff xff xff xff xff)
(T (W xff xff xff xff xff xff xff xff)
(L (W x46 x53 x59 x53 x5f x4e x53 x5f)) E)
(L (W x00 x00 x80 xbf x00 x00 x80 xbf)))
(T (W xff xff xff xff xff xff xff xff)
(L (W x00 x00 x00 x00 x00 x00 x00 x00))
(L (W x00 x00 x00 x00 x00 x00 x00 x00))))
(T (W x00 x00 x80 x3f x00 x00 x80 x3f)
(T (W x00 x00 x00 x00 x00 x00 x00 x00)
(T (W x22 xfe xfd xff x78 x00 x00 x00)
(L (W xff xff xff xff xff xff xff xff)) E)
(L (W x30 x33 x5f x43 x4c x45 x41 x52)))
(T (W x00 x00 x00 x00 x00 x00 x00 x00)
(L (W x72 x9c xfe xff xc6 x00 x00 x00))
(L (W x1d x00 x00 x00 x20 x00 x00 x00))))))))
(T (W xff xff xff xff xff xff xff xff)
(T (W x2a x00 x00 x00 x67 x72 x6f x75)
(T (W x00 x00 x80 x3f x00 x00 x80 x3f)
(T (W x68 x00 x00 x00 x5c x00 x00 x00)
(T (W x00 x00 x80 x3f x00 x00 x80 x3f)
(T (W xff xff xff xff xff xff xff xff)
(T (W x00 x00 x00 x00 x00 x00 x00 x00)
(L (W x00 x00 x00 x00 x00 x00 x00 x00)) E)
(L (W x4f x84 x6f x8b xe8 xcb x63 xb7)))
(T (W x1d x00 x00 x00 x20 x00 x00 x00)
(L (W x00 x00 x00 x00 x00 x00 x00 x00))
(L (W xff xff xff xff xc4 x00 x00 x00))))
(T (W x00 x00 x00 x00 x00 x00 x00 x00)
(T (W x18 x00 x00 x00 x10 x00 x00 x00)
(T (W x3c xcd xfd xff x00 x01 x01 x01)
(L (W xff xff xff xff xff xff xff xff)) E)
(L (W x00 x00 x00 x00 x00 x00 x00 x00)))
(T (W x18 x00 x00 x00 x10 x00 x00 x00)
(L (W x00 x01 x01 x01 x12 x50 xfe xff))
(L (W xcc x00 x00 x00 x01 x00 x00 x00)))))
(T (W x00 x00 x80 x3f x00 x00 x80 x3f)
(T (W x00 x00 x00 x00 x00 x00 x00 x00)
(T (W xff xff xff xff xff xff xff xff)
(T (W x00 x00 x00 x00 xac xab xfd xff)
(L (W x00 x00 x00 x00 x00 x00 x00 x00)) E)
(L (W xb4 x05 x00 x00 x84 x04 x00 x00)))
(T (W x00 x00 x00 x00 x00 x00 x00 x00)
(L (W xff xff xff xff xff xff xff xff))
(L (W xff xff xff xff xff xff xff xff))))
(T (W x1c x01 x00 x00 x04 x00 x00 x00)
(T (W x00 x00 x80 x3f x00 x00 x80 x3f)
(T (W x72 xe8 xfd xff x74 x00 x00 x00)
(L (W x6c x00 x00 x00 x60 x00 x00 x00)) E)
(L (W x45 x26 x22 x84 xe4 x9c xf2 xcb)))
(T (W x00 x00 x80 x3f x00 x00 x80 x3f)
(L (W x22 x6a xfe xff x78 x00 x00 x00))
(L (W xff xff xff xff xff xff xff xff))))))
(T (W x3c xbd xfb xff x00 x01 x01 x01)
(T (W x00 x00 x80 x3f x00 x00 x80 x3f)
(T (W x00 x00 x00 x00 x00 x00 x00 x00)
(T (W xff xff xff xff xff xff xff xff)
(T (W xff xff xff xff xff xff xff xff)
(L (W x00 x00 x00 x00 x00 x00 x00 x00)) E)
(L (W x49 xa1 x68 x4a xeb x5f xdd x3d)))
(T (W xff xff xff xff xff xff xff xff)
(L (W x4c xe9 xff xff x01 x01 x01 x01))
(L (W x00 x00 x00 x00 x00 x00 x00 x00))))
(T (W x3e x00 x00 x00 x10 x00 x00 x00)
(T (W x00 x00 x00 x00 x00 x00 x00 x00)
(T (W xff xff xff xff xff xff xff xff)
(L (W x72 xd8 xff xff x74 x00 x00 x00)) E)
(L (W x00 x00 x00 x00 x00 x00 x00 x00)))
(T (W xff xff xff xff xff xff xff xff)
(L (W x00 x00 x00 x00 x40 x5d xfe xff))
(L (W xff xff xff xff xff xff xff xff)))))
(T (W x45 x26 x22 x84 xe4 x9c xf2 xcb)
(T (W x00 x00 x00 x00 x00 x00 x00 x00)
(T (W xb8 x00 x00 x00 xac x00 x00 x00)
(T (W x2a x00 x00 x00 x67 x72 x6f x75)
(L (W x1d x00 x00 x00 x20 x00 x00 x00)) E)
(L (W xee x97 x59 x1d xca x2d xa0 xfd)))
(T (W x45 x26 x22 x84 xe4 x9c xf2 xcb)
(L (W x00 x00 x00 x00 x40 x3d xfe xff))
(L (W xff xff xff xff xff xff xff xff))))
(T (W xff xff xff xff xff xff xff xff)
(T (W x00 x00 x80 x3f x00 x00 x80 x3f)
(T (W x06 x00 x00 x00 xc0 x05 x00 x00)
(L (W x10 x00 x14 x00 x00 x00 x00 x00)) E)
(L (W xb8 x00 x00 x00 x3c x00 x00 x00)))
(T (W xff xff xff xff xac x00 x00 x00)
(L (W x00 x00 x80 xbf x00 x00 x80 xbf))
(L (W x00 x00 x10 x00 x14 x00 x18 x00)))))))
(T (W x3c xa5 xfb xff x00 x01 x01 x01)
(T (W x72 xb0 xfb xff x74 x00 x00 x00)
(T (W x72 xd0 xfb xff x74 x00 x00 x00)
(T (W x00 x00 x80 x3f x00 x00 x80 x3f)
(T (W xff xff xff xff xff xff xff xff)
(T (W xaa x01 x00 x00 xff xff xff xff)
(L (W x00 x00 x00 x00 x00 x00 x00 x00)) E)
(L (W x00 x00 x80 xbf x00 x00 x80 xbf)))
(T (W xff xff xff xff x9c x00 x00 x00)
(L (W x45 x26 x22 x84 xe4 x9c xf2 xcb))
(L (W x00 x00 x00 x00 x00 x00 x00 x00))))
(T (W x00 x00 x00 x00 x00 x00 x00 x00)
(T (W xff xff xff xff xff xff xff xff)
(T (W x00 x00 x00 x00 xac xd3 xfd xff)
(L (W x3c xd5 xff xff x00 x01 x01 x01)) E)
(L (W x00 x00 x00 x00 x00 x00 x00 x00)))
(T (W xff xff xff xff xff xff xff xff)
(L (W xa8 x53 xfe xff xd2 x8e xfe xff))
(L (W xb0 x00 x00 x00 x64 x00 x00 x00)))))
(T (W x00 x00 x80 x3f x00 x00 x80 x3f)
(T (W x00 x00 x00 x00 x00 x00 x00 x00)
(T (W xb8 x00 x00 x00 xac x00 x00 x00)
(T (W x72 xb0 xfd xff x74 x00 x00 x00)
(L (W x6c x00 x00 x00 x60 x00 x00 x00)) E)
(L (W xff xff xff xff xff xff xff xff)))
(T (W x00 x00 x00 x00 x00 x00 x00 x00)
(L (W x68 x00 x00 x00 x5c x00 x00 x00))
(L (W xff xff xff xff xff xff xff xff))))
(T (W xff xff xff xff xff xff xff xff)
(T (W x00 x00 x80 x3f x00 x00 x80 x3f)
(T (W x00 x00 x80 x3f x00 x00 x80 x3f)
(L (W x49 xa1 x68 x4a xeb x5f xdd x3d)) E)
(L (W x18 x00 x00 x00 x0c x00 x00 x00)))
(T (W x6c x00 x00 x00 x60 x00 x00 x00)
(L (W x00 x00 x80 xbf x00 x00 x80 xbf))
(L (W x4b x00 x00 x00 xff xff xff xff))))))
(T (W x50 x00 x00 x00 x44 x00 x00 x00)
(T (W x22 xe2 xfb xff x78 x00 x00 x00)
(T (W x45 x26 x22 x84 xe4 x9c xf2 xcb)
(T (W x00 x00 x00 x00 x00 x00 x00 x00)
(T (W xff xff xff xff xff xff xff xff)
(L (W x00 x00 x00 x00 x00 x00 x00 x00)) E)
(L (W x00 x00 x00 x00 x00 x00 x00 x00)))
(T (W xff xff xff xff xff xff xff xff)
(L (W x00 x00 x80 xbf x00 x00 x80 xbf))
(L (W xff xff xff xff xff xff xff xff))))
(T (W x00 x00 x00 x00 xda xac xff xff)
(T (W x00 x00 x00 x00 x00 x00 x00 x00)
(T (W x64 x00 x08 x00 x0c x00 x00 x00)
(L (W xff xff xff xff xff xff xff xff)) E)
(L (W x22 xe2 xfe xff x78 x00 x00 x00)))
(T (W x24 x79 xfd xff x10 x00 x00 x00)
(L (W x6c x24 xff xff x00 x00 x01 x01))
(L (W x00 x00 x00 x00 x52 x61 xff xff)))))
(T (W x00 x00 x80 x3f x00 x00 x80 x3f)
(T (W x00 x00 x00 x00 x00 x00 x00 x00)
(T (W x50 x00 x00 x00 x44 x00 x00 x00)
(T (W x00 x00 x00 x00 x00 x00 x00 x00)
(L (W x2c x00 x30 x00 x34 x00 x38 x00)) E)
(L (W x45 x44 x00 x00 x00 x00 x00 x00)))
(T (W x00 x00 x80 x3f x00 x00 x80 x3f)
(L (W x58 x00 x00 x00 x4c x00 x00 x00))
(L (W x18 x00 x00 x00 x10 x00 x00 x00))))
(T (W xff xff xff xff xff xff xff xff)
(T (W x45 x26 x22 x84 xe4 x9c xf2 xcb)
(T (W x49 xa1 x68 x4a xeb x5f xdd x3d)
(L (W x45 x26 x22 x84 xe4 x9c xf2 xcb)) E)
(L (W x03 x00 x00 x00 xd0 x00 x00 x00)))
(T (W xff xff xff xff xff xff xff xff)
(L (W x45 x26 x22 x84 xe4 x9c xf2 xcb))
(L (W x00 x00 x00 x00 x00 x00 x00 x00))))))))))
(T (W x20 x26 x01 x00 xd4 x23 x01 x00)
(T (W x40 x00 x00 x00 x0c x00 x00 x00)
(T (W x01 x00 x00 x00 x9c x00 x00 x00)
(T (W x70 x5f x77 x69 x6c x64 x5f x70)
(T (W x00 x00 x80 x3f x00 x00 x80 x3f)
(T (W xff xff xff xff xff xff xff xff)
(T (W xb8 x00 x00 x00 xac x00 x00 x00)
(T (W x00 x00 x00 x00 x00 x00 x00 x00)
(T (W x45 x26 x22 x84 xe4 x9c xf2 xcb)
(L (W x00 x00 x00 x00 xac x86 xff xff)) E)
(L (W xff xff xff xff xff xff xff xff)))
(T (W x34 x01 x00 x00 x04 x00 x00 x00)
(L (W x45 x44 x00 x00 x00 x00 x00 x00))
(L (W x00 x00 x00 x00 x00 x00 x00 x00))))
(T (W x00 x00 x80 x3f x00 x00 x80 x3f)
(T (W xff xff xff xff xff xff xff xff)
(T (W x18 x00 x00 x00 x0c x00 x00 x00)
(L (W x00 x00 x00 x00 x00 x00 x00 x00)) E)
(L (W x00 x00 x80 xbf x00 x00 x80 xbf)))
(T (W xff xff xff xff xff xff xff xff)
(L (W x24 x01 x00 x00 x04 x00 x00 x00))
(L (W x00 x00 x00 x00 x00 x00 x00 x00)))))
(T (W xff xff xff xff xff xff xff xff)
(T (W x18 x00 x00 x00 x10 x00 x00 x00)
(T (W x2c x00 x30 x00 x34 x00 x38 x00)
(T (W x00 x00 x00 x00 x00 x00 x00 x00)
(L (W x50 x00 x00 x00 x44 x00 x00 x00)) E)
(L (W x00 x00 x80 xbf x00 x00 x80 xbf)))
(T (W x00 x00 x80 x3f x00 x00 x80 x3f)
(L (W xff xff xff xff xff xff xff xff))
(L (W x00 x00 x00 x00 x00 x00 x00 x00))))
(T (W x00 x00 x80 x3f x00 x00 x80 x3f)
(T (W x29 x00 x00 x00 x2c x00 x00 x00)
(T (W x6c x00 x04 x00 x60 x00 x08 x00)
(L (W x00 x00 x80 xbf x00 x00 x80 xbf)) E)
(L (W xff xff xff xff xff xff xff xff)))
(T (W x50 x00 x00 x00 x44 x00 x00 x00)
(L (W xff xff xff xff xff xff xff xff))
(L (W x00 x00 x80 xbf x00 x00 x80 xbf))))))
(T (W xff xff xff xff xff xff xff xff)
(T (W xb8 x00 x00 x00 xac x00 x00 x00)
(T (W x68 x00 x00 x00 x5c x00 x00 x00)
(T (W x3e x00 x00 x00 x0c x00 x00 x00)
(T (W x45 x26 x22 x84 xe4 x9c xf2 xcb)
(L (W x50 x00 x00 x00 x44 x00 x00 x00)) E)
(L (W xff xff xff xff xb0 x00 x00 x00)))
(T (W x00 x00 x00 x00 x00 x00 x00 x00)
(L (W x00 x00 x01 x01 x41 x00 x00 x00))
(L (W x00 x00 x80 xbf x00 x00 x80 xbf))))
(T (W x45 x26 x22 x84 xe4 x9c xf2 xcb)
(T (W x4f x84 x6f x8b xe8 xcb x63 xb7)
(T (W x18 x01 x00 x00 x04 x00 x00 x00)
(L (W x30 x33 x5f x43 x4c x45 x41 x52)) E)
(L (W xb8 x00 x00 x00 x3c x00 x00 x00)))
(T (W x5f x4e x53 x5f x30 x33 x5f x43)
(L (W x34 x01 x00 x00 x04 x00 x00 x00))
(L (W x00 x00 x00 x00 x00 x00 x00 x00)))))
(T (W xff xff xff xff xff xff xff xff)
(T (W x72 x33 xfc xff x74 x00 x00 x00)
(T (W x00 x00 x00 x00 x00 x00 x00 x00)
(T (W xff xff xff xff xff xff xff xff)
(L (W xff xff xff xff xff xff xff xff)) E)
(L (W x00 x00 x80 xbf x00 x00 x80 xbf)))
(T (W x00 x00 x00 x00 xac x36 xfd xff)
(L (W x00 x00 x00 x00 x02 x00 x00 x00))
(L (W x00 x00 x00 x00 x00 x00 x00 x00))))
(T (W x00 x00 x00 x00 x00 x00 x00 x00)
(T (W xff xff xff xff xff xff xff xff)
(T (W x0d x00 x0e x00 x0f x00 x7c x00)
(L (W x42 xfd xff xff xa6 x01 x00 x00)) E)
(L (W xc9 x01 x00 x00 xff xff xff xff)))
(T (W x02 x00 x00 x00 xff xff xff xff)
(L (W xff xff xff xff xff xff xff xff))
(L (W x00 x00 x80 xbf x00 x00 x80 xbf)))))))
(T (W x00 x00 x00 x00 x00 x00 x00 x00)
(T (W x64 x00 x00 x00 x9c x00 x00 x00)
(T (W xff xff xff xff xff xff xff xff)
(T (W x45 x26 x22 x84 xe4 x9c xf2 xcb)
(T (W x00 x00 x00 x00 x00 x00 x00 x00)
(T (W x45 x26 x22 x84 xe4 x9c xf2 xcb)
(L (W x6c x00 x00 x00 x60 x00 x00 x00)) E)
(L (W xff xff xff xff x9c x00 x00 x00)))
(T (W x00 x00 x00 x00 x00 x00 x00 x00)
(L (W xb4 x00 x00 x00 x64 x00 x00 x00))
(L (W x00 x00 x00 x00 x00 x00 x00 x00))))
(T (W x00 x00 x80 x3f x00 x00 x80 x3f)
(T (W x00 x00 x00 x00 x00 x00 x00 x00)
(T (W xff xff xff xff xff xff xff xff)
(L (W x00 x00 x00 x00 x00 x00 x00 x00)) E)
(L (W x18 x00 x00 x00 x0c x00 x00 x00)))
(T (W x04 x00 x00 x00 x7c x03 x00 x00)
(L (W x00 x00 x00 x00 x00 x00 x00 x00))
(L (W x00 x00 x00 x00 x00 x00 x00 x00)))))
(T (W xff xff xff xff xff xff xff xff)
(T (W xc0 x00 x00 x00 xb4 x00 x00 x00)
(T (W x00 x00 x00 x00 x00 x00 x00 x00)
(T (W x18 x01 x00 x00 x04 x00 x00 x00)
(L (W xff xff xff xff xff xff xff xff)) E)
(L (W x00 x00 x80 xbf x00 x00 x80 xbf)))
(T (W x72 x2b xfd xff x74 x00 x00 x00)
(L (W x45 x26 x22 x84 xe4 x9c xf2 xcb))
(L (W x00 x00 x00 x00 x00 x00 x00 x00))))
(T (W x00 x00 x80 x3f x00 x00 x80 x3f)
(T (W xff xff xff xff x9c x00 x00 x00)
(T (W x00 x00 x80 x3f x00 x00 x80 x3f)
(L (W x00 x00 x00 x00 x00 x00 x00 x00)) E)
(L (W xff xff xff xff xff xff xff xff)))
(T (W xff xff xff xff xff xff xff xff)
(L (W xff xff xff xff xff xff xff xff))
(L (W x00 x00 x00 x00 x00 x00 x00 x00))))))
(T (W xff xff xff xff xff xff xff xff)
(T (W xff xff xff xff xff xff xff xff)
(T (W x3c x20 xfc xff x00 x01 x01 x01)
(T (W x00 x00 x00 x00 x00 x00 x00 x00)
(T (W x00 x00 x00 x00 x00 x00 x00 x00)
(L (W x00 x00 x80 xbf x00 x00 x80 xbf)) E)
(L (W x45 x26 x22 x84 xe4 x9c xf2 xcb)))
(T (W x00 x00 x00 x00 x00 x00 x00 x00)
(L (W x00 x00 x00 x00 x00 x00 x00 x00))
(L (W x00 x00 x80 xbf x00 x00 x80 xbf))))
(T (W x00 x00 x80 x3f x00 x00 x80 x3f)
(T (W x00 x00 x80 x3f x00 x00 x80 x3f)
(T (W x00 x00 x00 x00 x00 x00 x00 x00)
(L (W xff xff xff xff xff xff xff xff)) E)
(L (W xff xff xff xff xff xff xff xff)))
(T (W x45 x26 x22 x84 xe4 x9c xf2 xcb)
(L (W xff xff xff xff xff xff xff xff))
(L (W x00 x00 x80 xbf x00 x00 x80 xbf)))))
(T (W xff xff xff xff xff xff xff xff)
(T (W x3c x40 xfc xff x00 x01 x01 x01)
(T (W x45 x26 x22 x84 xe4 x9c xf2 xcb)
(T (W x18 x00 x00 x00 x10 x00 x00 x00)
(L (W x1a xc1 xff xff x8d x01 x00 x00)) E)
(L (W x00 x00 x80 xbf x00 x00 x80 xbf)))
(T (W xff xff xff xff xff xff xff xff)
(L (W x00 x00 x00 x00 x52 x3c xfe xff))
(L (W x45 x44 x00 x00 x00 x00 x00 x00))))
(T (W x45 x26 x22 x84 xe4 x9c xf2 xcb)
(T (W xff xff xff xff xff xff xff xff)
(T (W x00 x00 x80 x3f x00 x00 x80 x3f)
(L (W x00 x00 x80 xbf x00 x00 x80 xbf)) E)
(L (W xff xff xff xff xff xff xff xff)))
(T (W x00 x00 x00 x00 x00 x00 x00 x00)
(L (W xff xff xff xff xff xff xff xff))
(L (W x22 x7d xff xff x78 x00 x00 x00))))))))
(T (W x00 x00 x00 x00 x00 x00 x00 x00)
(T (W x72 xb5 xfd xff x00 x00 x01 x01)
(T (W x6b x65 x5f x63 x6f x77 x61 x72)
(T (W x00 x00 x80 x3f x00 x00 x80 x3f)
(T (W x45 x26 x22 x84 xe4 x9c xf2 xcb)
(T (W xc0 x00 x00 x00 xb4 x00 x00 x00)
(T (W xc3 x01 x00 x00 xff xff xff xff)
(L (W x00 x00 x00 x00 x00 x00 x00 x00)) E)
(L (W x00 x00 x00 x00 x00 x00 x00 x00)))
(T (W x00 x00 x80 x3f x00 x00 x80 x3f)
(L (W x61 x64 x65 x72 x5f x77 x69 x6c))
(L (W x45 x26 x22 x84 xe4 x9c xf2 xcb))))
(T (W x00 x00 x00 x00 x00 x00 x00 x00)
(T (W x6c x00 x00 x00 x60 x00 x00 x00)
(T (W x00 x00 x00 x00 x00 x00 x00 x00)
(L (W xc4 x00 x00 x00 x02 x00 x00 x00)) E)
(L (W x00 x00 x00 x00 x00 x00 x00 x00)))
(T (W x50 x00 x00 x00 x44 x00 x00 x00)
(L (W x00 x00 x80 xbf x00 x00 x80 xbf))
(L (W x00 x00 x80 xbf x00 x00 x80 xbf)))))
(T (W x45 x26 x22 x84 xe4 x9c xf2 xcb)
(T (W x00 x00 x00 x00 x00 x00 x00 x00)
(T (W x45 x26 x22 x84 xe4 x9c xf2 xcb)
(T (W x72 xa7 xfd xff x74 x00 x00 x00)
(L (W x00 x00 x00 x00 x00 x00 x00 x00)) E)
(L (W xff xff xff xff xff xff xff xff)))
(T (W xa2 x36 xfd xff x9d x01 x00 x00)
(L (W x45 x26 x22 x84 xe4 x9c xf2 xcb))
(L (W xff xff xff xff xff xff xff xff))))
(T (W xff xff xff xff xff xff xff xff)
(T (W x00 x00 x00 x00 x00 x00 x00 x00)
(T (W x00 x00 x80 xbf x00 x00 x80 xbf)
(L (W x04 x00 x00 x00 x38 x04 x00 x00)) E)
(L (W x00 x00 x80 xbf x00 x00 x80 xbf)))
(T (W x70 x5f x6c x65 x61 x64 x65 x72)
(L (W x00 x00 x00 x00 x00 x00 x00 x00))
(L (W xff xff xff xff xff xff xff xff))))))
(T (W x00 x00 x80 x3f x00 x00 x80 x3f)
(T (W x00 x00 x80 x3f x00 x00 x80 x3f)
(T (W x00 x00 x00 x00 x00 x00 x00 x00)
(T (W x00 x00 x00 x00 xac x9a xfc xff)
(T (W xff xff xff xff xff xff xff xff)
(L (W x45 x44 x00 x00 x00 x00 x00 x00)) E)
(L (W xcc x9f xfe xff x18 x00 x00 x00)))
(T (W xb8 x00 x00 x00 x32 x00 x00 x00)
(L (W x00 x00 x80 x3f x00 x00 x80 x3f))
(L (W x00 x00 x00 x00 x00 x00 x00 x00))))
(T (W xff xff xff xff xff xff xff xff)
(T (W xff xff xff xff xff xff xff xff)
(T (W x72 xd7 xfd xff x74 x00 x00 x00)
(L (W x00 x00 x80 xbf x00 x00 x80 xbf)) E)
(L (W x5f x4e x53 x5f x30 x33 x5f x43)))
(T (W xc0 x00 x00 x00 x01 x00 x00 x00)
(L (W x50 x00 x00 x00 x44 x00 x00 x00))
(L (W xff xff xff xff xff xff xff xff)))))
(T (W x00 x00 x00 x00 x00 x00 x00 x00)
(T (W x02 x54 xfe xff xb0 x00 x00 x00)
(T (W x18 x00 x00 x00 x10 x00 x00 x00)
(T (W xff xff xff xff xff xff xff xff)
(L (W x22 xb9 xff xff x78 x00 x00 x00)) E)
(L (W xff xff xff xff xff xff xff xff)))
(T (W x00 x00 x00 x00 x00 x00 x00 x00)
(L (W x00 x00 x01 x01 xd2 x3d xfe xff))
(L (W x50 x00 x00 x00 x44 x00 x00 x00))))
(T (W x18 x00 x00 x00 x10 x00 x00 x00)
(T (W x00 x00 x80 x3f x00 x00 x80 x3f)
(T (W x45 x26 x22 x84 xe4 x9c xf2 xcb)
(L (W x00 x00 x00 x00 x00 x00 x00 x00)) E)
(L (W x3c xfc xfe xff x00 x01 x01 x01)))
(T (W x00 x00 x80 x3f x00 x00 x80 x3f)
(L (W x00 x00 x80 xbf x00 x00 x80 xbf))
(L (W xff xff xff xff x9c x00 x00 x00)))))))
(T (W x00 x00 x80 x3f x00 x00 x80 x3f)
(T (W x54 x00 x00 x00 x48 x00 x00 x00)
(T (W x45 x26 x22 x84 xe4 x9c xf2 xcb)
(T (W x00 x00 x00 x00 x00 x00 x00 x00)
(T (W xff xff xff xff x03 x00 x00 x00)
(T (W xff xff xff xff xff xff xff xff)
(L (W x00 x00 x00 x00 x04 x00 x00 x00)) E)
(L (W x00 x00 x00 x00 x00 x00 x00 x00)))
(T (W x22 x11 xfd xff x78 x00 x00 x00)
(L (W x00 x00 x00 x00 x00 x00 x00 x00))
(L (W xff xff xff xff xff xff xff xff))))
(T (W x48 x03 x00 x00 x34 x02 x00 x00)
(T (W xff xff xff xff x9c x00 x00 x00)
(T (W x72 xcf xfd xff x74 x00 x00 x00)
(L (W x50 x00 x00 x00 x44 x00 x00 x00)) E)
(L (W x00 x00 x00 x00 x00 x00 x00 x00)))
(T (W x68 x00 x00 x00 x5c x00 x00 x00)
(L (W x00 x00 x80 xbf x00 x00 x80 xbf))
(L (W x3c x54 xff xff x00 x01 x01 x01)))))
(T (W x00 x00 x00 x00 x00 x00 x00 x00)
(T (W xb7 x6f xeb xbc x71 xda x0f xfa)
(T (W x68 x00 x00 x00 x5c x00 x00 x00)
(T (W x00 x00 x80 x3f x00 x00 x80 x3f)
(L (W x45 x26 x22 x84 xe4 x9c xf2 xcb)) E)
(L (W xff xff xff xff xff xff xff xff)))
(T (W x13 x00 x00 x00 x0c x00 x00 x00)
(L (W x00 x00 x80 xbf x00 x00 x80 xbf))
(L (W xff xff xff xff xb0 x00 x00 x00))))
(T (W xff xff xff xff x04 x00 x00 x00)
(T (W x00 x00 x00 x00 x00 x00 x00 x00)
(T (W x20 x00 x00 x00 x67 x72 x6f x75)
(L (W x3c x00 x40 x00 x44 x00 x48 x00)) E)
(L (W x00 x00 x00 x00 xac xf2 xfe xff)))
(T (W x00 x00 x80 x3f x00 x00 x80 x3f)
(L (W x4f x84 x6f x8b xe8 xcb x63 xb7))
(L (W xff xff xff xff xff xff xff xff))))))
(T (W x45 x26 x22 x84 xe4 x9c xf2 xcb)
(T (W x00 x00 x80 x3f x00 x00 x80 x3f)
(T (W x00 x00 x00 x00 x00 x00 x00 x00)
(T (W x01 x00 x00 x00 x9c x00 x00 x00)
(T (W x00 x00 x00 x00 xac xa2 xfd xff)
(L (W x00 x00 x00 x00 x00 x00 x00 x00)) E)
(L (W xff xff xff xff xff xff xff xff)))
(T (W xff xff xff xff xff xff xff xff)
(L (W x00 x00 x00 x00 x00 x00 x00 x00))
(L (W xff xff xff xff xff xff xff xff))))
(T (W xff xff xff xff xff xff xff xff)
(T (W x00 x00 x00 x00 x00 x00 x00 x00)
(T (W xff xff xff xff xff xff xff xff)
(L (W x00 x00 x80 xbf x00 x00 x80 xbf)) E)
(L (W x45 x26 x22 x84 xe4 x9c xf2 xcb)))
(T (W xff xff xff xff xff xff xff xff)
(L (W x00 x00 x80 xbf x00 x00 x80 xbf))
(L (W xff xff xff xff xff xff xff xff)))))
(T (W x45 x26 x22 x84 xe4 x9c xf2 xcb)
(T (W x00 x00 x00 x00 x00 x00 x00 x00)
(T (W x45 x26 x22 x84 xe4 x9c xf2 xcb)
(T (W x00 x00 x00 x00 x00 x00 x00 x00)
(L (W x00 x00 x80 xbf x00 x00 x80 xbf)) E)
(L (W xff xff xff xff xff xff xff xff)))
(T (W x00 x00 x80 x3f x00 x00 x80 x3f)
(L (W x00 x00 x80 xbf x00 x00 x80 xbf))
(L (W x6c x00 x00 x00 x60 x00 x00 x00))))
(T (W xb8 x00 x00 x00 xac x00 x00 x00)
(T (W x00 x00 x80 x3f x00 x00 x80 x3f)
(T (W xb4 x11 x00 x00 x38 x10 x00 x00)
(L (W x00 x00 x00 x00 x00 x00 x00 x00)) E)
(L (W xff xff xff xff x9c x00 x00 x00)))
(T (W x00 x00 x00 x00 xac x82 xfd xff)
(L (W x00 x00 x00 x00 x00 x00 x00 x00))
(L (W x23 xe7 xaf x28 xbf x51 x5d x6a)))))))))
(T (W x00 x00 x00 x00 x00 x00 x00 x00)
(T (W xff xff xff xff xff xff xff xff)
(T (W xff xff xff xff xff xff xff xff)
(T (W xff xff xff xff x04 x00 x00 x00)
(T (W x00 x00 x00 x00 x00 x00 x00 x00)
(T (W x6d x01 x00 x00 xff xff xff xff)
(T (W x00 x00 x80 x3f x00 x00 x80 x3f)
(T (W xff xff xff xff x03 x00 x00 x00)
(L (W xff xff xff xff xff xff xff xff)) E)
(L (W xff xff xff xff xff xff xff xff)))
(T (W x45 x26 x22 x84 xe4 x9c xf2 xcb)
(L (W xc4 x00 x00 x00 x01 x00 x00 x00))
(L (W x00 x00 x00 x00 x00 x00 x00 x00))))
(T (W xff xff xff xff x03 x00 x00 x00)
(T (W x00 x00 x00 x00 x00 x00 x00 x00)
(T (W x88 xb8 x33 x97 x85 xa7 x5f x5f)
(L (W x4f x84 x6f x8b xe8 xcb x63 xb7)) E)
(L (W xff xff xff xff xff xff xff xff)))
(T (W x12 x00 x00 x00 x46 x53 x59 x53)
(L (W x00 x00 x00 x00 x00 x00 x00 x00))
(L (W x45 x26 x22 x84 xe4 x9c xf2 xcb)))))
(T (W x00 x00 x00 x00 x00 x00 x00 x00)
(T (W xff xff xff xff xff xff xff xff)
(T (W x00 x00 x80 x3f x00 x00 x80 x3f)
(T (W x00 x00 x80 x3f x00 x00 x80 x3f)
(L (W xff xff xff xff xff xff xff xff)) E)
(L (W x72 xa5 xfe xff x74 x00 x00 x00)))
(T (W x45 x26 x22 x84 xe4 x9c xf2 xcb)
(L (W x00 x00 x00 x00 x00 x00 x00 x00))
(L (W x68 x00 x00 x00 x5c x00 x00 x00))))
(T (W x00 x00 x80 x3f x00 x00 x80 x3f)
(T (W xff xff xff xff xff xff xff xff)
(T (W xff xff xff xff x02 x00 x00 x00)
(L (W xff xff xff xff xb0 x00 x00 x00)) E)
(L (W x45 x44 x00 x00 x00 x00 x00 x00)))
(T (W xff xff xff xff xff xff xff xff)
(L (W x00 x00 x00 x00 x00 x00 x00 x00))
(L (W x50 x00 x00 x00 x44 x00 x00 x00))))))
(T (W x00 x00 x00 x00 x00 x00 x00 x00)
(T (W x1d x00 x00 x00 x10 x00 x00 x00)
(T (W xff xff xff xff xff xff xff xff)
(T (W x00 x00 x80 x3f x00 x00 x80 x3f)
(T (W x54 x00 x00 x00 x48 x00 x00 x00)
(L (W xff xff xff xff xff xff xff xff)) E)
(L (W xff xff xff xff xff xff xff xff)))
(T (W x00 x00 x80 x3f x00 x00 x80 x3f)
(L (W x00 x00 x00 x00 x00 x00 x00 x00))
(L (W x72 x15 xff xff x74 x00 x00 x00))))
(T (W x18 x00 x00 x00 x0c x00 x00 x00)
(T (W x3c xda xfc xff x00 x01 x01 x01)
(T (W x00 x00 x00 x00 x00 x00 x00 x00)
(L (W x00 x00 x00 x00 x00 x00 x00 x00)) E)
(L (W xff xff xff xff xff xff xff xff)))
(T (W x00 x00 x80 x3f x00 x00 x80 x3f)
(L (W x45 x26 x22 x84 xe4 x9c xf2 xcb))
(L (W x00 x00 x80 xbf x00 x00 x80 xbf)))))
(T (W x00 x00 x00 x00 x00 x00 x00 x00)
(T (W xff xff xff xff xff xff xff xff)
(T (W x54 x00 x00 x00 x58 x00 x5c x00)
(T (W x00 x00 x00 x00 x00 x00 x00 x00)
(L (W x00 x00 x00 x00 x12 x00 x00 x00)) E)
(L (W x18 x00 x00 x00 x10 x00 x00 x00)))
(T (W xff xff xff xff x02 x00 x00 x00)
(L (W x00 x00 x00 x00 x00 x00 x00 x00))
(L (W x00 x00 x80 xbf x00 x00 x80 xbf))))
(T (W x72 x75 xfc xff x74 x00 x00 x00)
(T (W x18 x00 x00 x00 x10 x00 x00 x00)
(T (W xff xff xff xff xff xff xff xff)
(L (W x18 x00 x00 x00 x0c x00 x00 x00)) E)
(L (W x00 x00 x00 x00 x00 x00 x00 x00)))
(T (W x00 x00 x00 x00 x00 x00 x00 x00)
(L (W x00 x00 x00 x00 x00 x00 x00 x00))
(L (W x50 x00 x00 x00 x44 x00 x00 x00)))))))
(T (W xff xff xff xff xff xff xff xff)
(T (W x00 x00 x00 x00 x00 x00 x00 x00)
(T (W x00 x00 x00 x00 x00 x00 x00 x00)
(T (W x72 x2b xfe xff x00 x00 x01 x01)
(T (W x00 x00 x80 x3f x00 x00 x80 x3f)
(T (W x68 x00 x00 x00 x5c x00 x00 x00)
(L (W x03 x00 x00 x00 xd0 x00 x00 x00)) E)
(L (W xff xff xff xff xff xff xff xff)))
(T (W x00 x00 x80 x3f x00 x00 x80 x3f)
(L (W xff xff xff xff xff xff xff xff))
(L (W x00 x00 x80 xbf x00 x00 x80 xbf))))
(T (W xff xff xff xff xff xff xff xff)
(T (W x00 x00 x80 x3f x00 x00 x80 x3f)
(T (W x00 x00 x80 x3f x00 x00 x80 x3f)
(L (W x45 x26 x22 x84 xe4 x9c xf2 xcb)) E)
(L (W xff xff xff xff xff xff xff xff)))
(T (W x00 x00 x80 x3f x00 x00 x80 x3f)
(L (W x00 x00 x00 x00 x00 x00 x00 x00))
(L (W x00 x00 x80 xbf x00 x00 x80 xbf)))))
(T (W x00 x00 x00 x00 x00 x00 x00 x00)
(T (W xff xff xff xff xff xff xff xff)
(T (W x00 x00 x80 x3f x00 x00 x80 x3f)
(T (W x00 x00 x00 x00 x00 x00 x00 x00)
(L (W x00 x00 x00 x00 x00 x00 x00 x00)) E)
(L (W x3c xb2 xfe xff x00 x01 x01 x01)))
(T (W xff xff xff xff xff xff xff xff)
(L (W x64 x00 x68 x00 x62 x00 x00 x00))
(L (W x00 x00 x00 x00 x40 x32 xff xff))))
(T (W x68 x00 x00 x00 x5c x00 x00 x00)
(T (W x00 x00 x00 x00 x00 x00 x00 x00)
(T (W x00 x00 x00 x00 x00 x00 x00 x00)
(L (W x00 x00 x80 xbf x00 x00 x80 xbf)) E)
(L (W x00 x00 x00 x00 x00 x00 x00 x00)))
(T (W x00 x00 x00 x00 x00 x00 x00 x00)
(L (W x46 x53 x59 x53 x5f x4e x53 x5f))
(L (W x6c x00 x00 x00 x60 x00 x00 x00))))))
(T (W x00 x00 x00 x00 x00 x00 x00 x00)
(T (W x24 xf6 xfb xff x3e x00 x00 x00)
(T (W xff xff xff xff xff xff xff xff)
(T (W x45 x26 x22 x84 xe4 x9c xf2 xcb)
(T (W x00 x00 x80 x3f x00 x00 x80 x3f)
(L (W xff xff xff xff xff xff xff xff)) E)
(L (W x00 x00 x00 x00 x12 x00 x00 x00)))
(T (W x50 x00 x00 x00 x44 x00 x00 x00)
(L (W xff xff xff xff xff xff xff xff))
(L (W x45 x26 x22 x84 xe4 x9c xf2 xcb))))
(T (W x72 x5d xfc xff x74 x00 x00 x00)
(T (W xff xff xff xff xbc x00 x00 x00)
(T (W x45 x26 x22 x84 xe4 x9c xf2 xcb)
(L (W x00 x00 x00 x00 x00 x00 x00 x00)) E)
(L (W x39 x28 x51 x1d xca x1d x96 xfd)))
(T (W x50 x00 x00 x00 x44 x00 x00 x00)
(L (W x45 x44 x00 x00 x00 x00 x00 x00))
(L (W x22 x5f xff xff x78 x00 x00 x00)))))
(T (W x9c x05 xbc xb3 xa9 x04 x07 xd5)
(T (W xff xff xff xff xff xff xff xff)
(T (W x2c x00 x00 x00 x10 x00 x00 x00)
(T (W xff xff xff xff xff xff xff xff)
(L (W x00 x00 x00 x00 x00 x00 x00 x00)) E)
(L (W x03 x00 x00 x00 xd8 x00 x00 x00)))
(T (W xbe x31 x16 xcf x9c x31 x15 x04)
(L (W x4f x84 x6f x8b xe8 xcb x63 xb7))
(L (W x00 x00 x80 xbf x00 x00 x80 xbf))))
(T (W x3c x82 xfc xff x00 x01 x01 x01)
(T (W x46 x53 x59 x53 x5f x4e x53 x5f)
(T (W x18 x00 x00 x00 x0c x00 x00 x00)
(L (W x00 x00 x00 x00 x00 x00 x0c x00)) E)
(L (W x00 x00 x00 x00 x00 x00 x00 x00)))
(T (W x45 x26 x22 x84 xe4 x9c xf2 xcb)
(L (W x45 x44 x00 x00 x00 x00 x00 x00))
(L (W xff xff xff xff xff xff xff xff))))))))
(T (W xff xff xff xff xff xff xff xff)
(T (W x68 x00 x00 x00 x5c x00 x00 x00)
(T (W x00 x00 x80 x3f x00 x00 x80 x3f)
(T (W x3c xce xfb xff x00 x01 x01 x01)
(T (W x00 x00 x80 x3f x00 x00 x80 x3f)
(T (W xff xff xff xff xff xff xff xff)
(T (W x00 x00 x00 x00 x00 x00 x00 x00)
(L (W x00 x00 x80 xbf x00 x00 x80 xbf)) E)
(L (W x00 x00 x80 xbf x00 x00 x80 xbf)))
(T (W xff xff xff xff xff xff xff xff)
(L (W x45 x26 x22 x84 xe4 x9c xf2 xcb))
(L (W xff xff xff xff xff xff xff xff))))
(T (W x00 x00 x00 x00 x00 x00 x00 x00)
(T (W xff xff xff xff xff xff xff xff)
(T (W x45 x26 x22 x84 xe4 x9c xf2 xcb)
(L (W xff xff xff xff xff xff xff xff)) E)
(L (W x00 x00 x00 x00 x00 x00 x00 x00)))
(T (W x03 x00 x00 x00 xcc x00 x00 x00)
(L (W x14 x00 x00 x00 x0c x00 x00 x00))
(L (W xff xff xff xff xff xff xff xff)))))
(T (W x18 x00 x00 x00 x0c x00 x00 x00)
(T (W x00 x00 x80 x3f x00 x00 x80 x3f)
(T (W x72 xc7 xfe xff x00 x00 x01 x01)
(T (W xff xff xff xff xff xff xff xff)
(L (W xff xff xff xff xff xff xff xff)) E)
(L (W x00 x00 x00 x00 x00 x00 x00 x00)))
(T (W x00 x00 x00 x00 x00 x00 x00 x00)
(L (W x04 x00 x00 x00 xa2 x80 xfe xff))
(L (W x45 x44 x00 x00 x00 x00 x00 x00))))
(T (W x00 x00 x00 x00 x00 x00 x00 x00)
(T (W x50 x00 x00 x00 x44 x00 x00 x00)
(T (W xff xff xff xff xff xff xff xff)
(L (W x64 x00 x68 x00 x62 x00 x00 x00)) E)
(L (W xff xff xff xff xb0 x00 x00 x00)))
(T (W x00 x00 x80 x3f x00 x00 x80 x3f)
(L (W x1d x00 x00 x00 x20 x00 x00 x00))
(L (W xff xff xff xff xff xff xff xff))))))
(T (W x18 x00 x00 x00 x10 x00 x00 x00)
(T (W x01 x00 x00 x00 x3e x00 x00 x00)
(T (W x00 x00 x80 x3f x00 x00 x80 x3f)
(T (W xff xff xff xff xff xff xff xff)
(T (W x18 x01 x00 x00 x04 x00 x00 x00)
(L (W x00 x00 x80 xbf x00 x00 x80 xbf)) E)
(L (W x00 x00 x80 xbf x00 x00 x80 xbf)))
(T (W xff xff xff xff xff xff xff xff)
(L (W xff xff xff xff xff xff xff xff))
(L (W x00 x00 x00 x00 x00 x00 x00 x00))))
(T (W x00 x00 x00 x00 x00 x00 x00 x00)
(T (W x00 x00 x00 x00 x00 x00 x00 x00)
(T (W xff xff xff xff xff xff xff xff)
(L (W xff xff xff xff xff xff xff xff)) E)
(L (W x00 x00 x80 xbf x00 x00 x80 xbf)))
(T (W x54 x02 x00 x00 x34 x01 x00 x00)
(L (W xb0 x00 x00 x00 x0a x00 x00 x00))
(L (W x00 x00 x00 x00 x00 x00 x00 x00)))))
(T (W x00 x00 x80 x3f x00 x00 x80 x3f)
(T (W x00 x00 x00 x00 x00 x00 x00 x00)
(T (W xff xff xff xff xff xff xff xff)
(T (W x00 x00 x00 x00 x00 x00 x00 x00)
(L (W xff xff xff xff xff xff xff xff)) E)
(L (W x00 x00 x00 x00 x00 x00 x00 x00)))
(T (W x68 x00 x00 x00 x5c x00 x00 x00)
(L (W xa8 x00 x00 x00 x64 x00 x00 x00))
(L (W xff xff xff xff xff xff xff xff))))
(T (W x72 x97 xfe xff x00 x00 x01 x01)
(T (W x72 xf9 xfc xff x74 x00 x00 x00)
(T (W x00 x00 x00 x00 x00 x00 x00 x00)
(L (W xff xff xff xff xdc x00 x00 x00)) E)
(L (W xff xff xff xff xff xff xff xff)))
(T (W xff xff xff xff xff xff xff xff)
(L (W x40 x00 x00 x00 x00 x00 x80 xbf))
(L (W x00 x00 x80 xbf x00 x00 x80 xbf)))))))
(T (W xff xff xff xff xff xff xff xff)
(T (W xff xff xff xff xff xff xff xff)
(T (W x45 x26 x22 x84 xe4 x9c xf2 xcb)
(T (W x00 x00 x80 x3f x00 x00 x80 x3f)
(T (W xff xff xff xff xff xff xff xff)
(T (W x00 x00 x00 x00 x00 x00 x00 x00)
(L (W x00 x00 x80 xbf x00 x00 x80 xbf)) E)
(L (W x00 x00 x80 xbf x00 x00 x80 xbf)))
(T (W xff xff xff xff xff xff xff xff)
(L (W x03 x00 x00 x00 xd8 x00 x00 x00))
(L (W x00 x00 x00 x00 x00 x00 x00 x00))))
(T (W x00 x00 x00 x00 x00 x00 x00 x00)
(T (W x00 x00 x00 x00 x52 xd2 xfc xff)
(T (W xff xff xff xff xff xff xff xff)
(L (W xb8 x00 x00 x00 x14 x00 x00 x00)) E)
(L (W x45 x26 x22 x84 xe4 x9c xf2 xcb)))
(T (W xff xff xff xff xff xff xff xff)
(L (W x45 x26 x22 x84 xe4 x9c xf2 xcb))
(L (W xff xff xff xff xff xff xff xff)))))
(T (W x68 x00 x00 x00 x5c x00 x00 x00)
(T (W x45 x26 x22 x84 xe4 x9c xf2 xcb)
(T (W xff xff xff xff xff xff xff xff)
(T (W x00 x00 x00 x00 xac xb4 xfd xff)
(L (W xff xff xff xff x9c x00 x00 x00)) E)
(L (W x00 x00 x00 x00 x00 x00 x00 x00)))
(T (W x00 x00 x80 x3f x00 x00 x80 x3f)
(L (W x03 x00 x00 x00 xd0 x00 x00 x00))
(L (W x4c x03 x00 x00 x24 x02 x00 x00))))
(T (W x40 x00 x00 x00 x10 x00 x00 x00)
(T (W x3c xf6 xfc xff x00 x01 x01 x01)
(T (W x18 x00 x1c x00 x00 x00 x00 x00)
(L (W xff xff xff xff xff xff xff xff)) E)
(L (W xff xff xff xff xff xff xff xff)))
(T (W x45 x26 x22 x84 xe4 x9c xf2 xcb)
(L (W xff xff xff xff xb0 x00 x00 x00))
(L (W x00 x00 x00 x00 x00 x00 x00 x00))))))
(T (W x68 x00 x00 x00 x5c x00 x00 x00)
(T (W x45 x26 x22 x84 xe4 x9c xf2 xcb)
(T (W x00 x00 x80 x3f x00 x00 x80 x3f)
(T (W x00 x00 x00 x00 x00 x00 x00 x00)
(T (W xff xff xff xff xff xff xff xff)
(L (W x45 x26 x22 x84 xe4 x9c xf2 xcb)) E)
(L (W x00 x00 x00 x00 x00 x00 x00 x00)))
(T (W x24 x3a xfd xff x10 x00 x00 x00)
(L (W x68 x00 x00 x00 x5c x00 x00 x00))
(L (W x1a x27 xff xff xaf x00 x00 x00))))
(T (W x00 x00 x00 x00 x00 x00 x00 x00)
(T (W x00 x00 x80 x3f x00 x00 x80 x3f)
(T (W x00 x00 x80 x3f x00 x00 x80 x3f)
(L (W x00 x00 x00 x00 x00 x00 x00 x00)) E)
(L (W x29 x00 x00 x00 x2c x00 x00 x00)))
(T (W x4f x84 x6f x8b xe8 xcb x63 xb7)
(L (W xff xff xff xff xb0 x00 x00 x00))
(L (W x00 x00 x00 x00 x00 x00 x00 x00)))))
(T (W x00 x00 x80 x3f x00 x00 x80 x3f)
(T (W x00 x00 x00 x00 x00 x00 x00 x00)
(T (W x45 x26 x22 x84 xe4 x9c xf2 xcb)
(T (W x00 x00 x80 x3f x00 x00 x80 x3f)
(L (W xe0 x00 x00 x00 x1e x00 x00 x00)) E)
(L (W x00 x00 x00 x00 x00 x00 x00 x00)))
(T (W x72 x41 xfd xff x74 x00 x00 x00)
(L (W xc4 x00 x00 x00 x01 x00 x00 x00))
(L (W xff xff xff xff xff xff xff xff))))
(T (W xff xff xff xff xff xff xff xff)
(T (W xff xff xff xff xb0 x00 x00 x00)
(L (W xff xff xff xff xa0 x00 x00 x00))
(L (W xff xff xff xff xff xff xff xff)))
(T (W xff xff xff xff xff xff xff xff)
(L (W x00 x00 x80 xbf x00 x00 x80 xbf))
(L (W x45 x26 x22 x84 xe4 x9c xf2 xcb))))))))))))
(T (W xe8 x88 x03 x00 x8c x86 x03 x00)
(T (W xa0 xc4 x02 x00 x5c xc2 x02 x00)
(T (W x20 x27 x02 x00 xdc x24 x02 x00)
(T (W xf0 xb6 x00 x00 xa4 xb4 x00 x00)
(T (W x64 x00 x00 x00 x9c x00 x00 x00)
(T (W x00 x00 x00 x00 x00 x00 x00 x00)
(T (W x00 x00 x00 x00 x00 x00 x00 x00)
(T (W xff xff xff xff xff xff xff xff)
(T (W xff xff xff xff xff xff xff xff)
(T (W x00 x00 x00 x00 x00 x00 x00 x00)
(T (W x00 x00 x00 x00 x00 x00 x00 x00)
(L (W xc4 x00 x00 x00 x01 x00 x00 x00)) E)
(L (W xff xff xff xff xff xff xff xff)))
(T (W x00 x00 x00 x00 x00 x00 x00 x00)
(L (W x77 x61 x72 x6c x69 x6b x65 x5f))
(L (W x00 x00 x00 x00 x00 x00 x00 x00))))
(T (W x68 x00 x00 x00 x5c x00 x00 x00)
(T (W x02 x00 x00 x00 x2c x01 x00 x00)
(T (W x64 x00 x00 x00 x9c x00 x00 x00)
(L (W x00 x00 x00 x00 x00 x00 x00 x00)) E)
(L (W x50 x00 x00 x00 x44 x00 x00 x00)))
(T (W x04 x00 x00 x00 xf2 x52 xfd xff)
(L (W x00 x00 x00 x00 x00 x00 x00 x00))
(L (W x00 x00 x00 x00 x00 x00 x00 x00)))))
(T (W x00 x00 x00 x00 x04 x00 x00 x00)
(T (W xff xff xff xff xff xff xff xff)
(T (W x00 x00 x01 x01 x3b x00 x00 x00)
(T (W x00 x00 x00 x00 x00 x00 x00 x00)
(L (W xfc xa6 xff xff x00 x01 x01 x01)) E)
(L (W x00 x00 x80 xbf x00 x00 x80 xbf)))
(T (W x50 x00 x00 x00 x44 x00 x00 x00)
(L (W xff xff xff xff xff xff xff xff))
(L (W x00 x00 x80 xbf x00 x00 x80 xbf))))
(T (W x32 x62 xfc xff x74 x00 x00 x00)
(T (W xff xff xff xff x9c x00 x00 x00)
(T (W x44 x00 x48 x00 x4c x00 x50 x00)
(L (W xff xff xff xff x8c x00 x00 x00)) E)
(L (W xca xe4 xfe xff xa9 x01 x00 x00)))
(T (W x18 x00 x00 x00 x10 x00 x00 x00)
(L (W x00 x00 x00 x00 x00 x00 x00 x00))
(L (W x6c x00 x00 x00 x60 x00 x00 x00))))))
(T (W x00 x00 x00 x00 x00 x00 x00 x00)
(T (W xff xff xff xff xff xff xff xff)
(T (W xff xff xff xff x03 x00 x00 x00)
(T (W x00 x00 x00 x00 x00 x00 x00 x00)
(T (W x45 x26 x22 x84 xe4 x9c xf2 xcb)
(L (W x45 x26 x22 x84 xe4 x9c xf2 xcb)) E)
(L (W xff xff xff xff xff xff xff xff)))
(T (W x00 x00 x00 x00 x00 x00 x00 x00)
(L (W x30 x33 x5f x43 x4c x45 x41 x52))
(L (W x00 x00 x80 xbf x00 x00 x80 xbf))))
(T (W x50 x00 x00 x00 x44 x00 x00 x00)
(T (W x45 x26 x22 x84 xe4 x9c xf2 xcb)
(T (W x00 x00 x00 x00 x00 x00 x00 x00)
(L (W x00 x00 x00 x00 x00 x00 x00 x00)) E)
(L (W xff xff xff xff xff xff xff xff)))
(T (W x00 x00 x00 x00 x00 x00 x00 x00)
(L (W x8c x01 x00 x00 xff xff xff xff))
(L (W x00 x00 x00 x00 x00 x00 x00 x00)))))
(T (W x8b x01 x00 x00 xff xff xff xff)
(T (W xff xff xff xff x04 x00 x00 x00)
(T (W x00 x00 x00 x00 x00 x00 x00 x00)
(T (W x18 x01 x00 x00 x04 x00 x00 x00)
(L (W xff xff xff xff xff xff xff xff)) E)
(L (W xe2 xb3 xfe xff x78 x00 x00 x00)))
(T (W xc0 x00 x00 x00 x01 x00 x00 x00)
(L (W x45 x44 x00 x00 x00 x00 x00 x00))
(L (W x00 x00 x80 xbf x00 x00 x80 xbf))))
(T (W x00 x00 x80 x3f x00 x00 x80 x3f)
(T (W xff xff xff xff xff xff xff xff)
(T (W x18 x00 x00 x00 x10 x00 x00 x00)
(L (W x00 x00 x00 x00 x00 x00 x00 x00)) E)
(L (W x00 x00 x00 x00 x00 x00 x00 x00)))
(T (W xff xff xff xff x02 x00 x00 x00)
(L (W x00 x00 x00 x00 x00 x00 x00 x00))
(L (W x6c x00 x00 x00 x60 x00 x00 x00)))))))
(T (W x5f x77 x69 x6c x64 x5f x70 x6f)
(T (W xff xff xff xff xff xff xff xff)
(T (W xff xff xff xff xff xff xff xff)
(T (W x64 x00 x00 x00 x9c x00 x00 x00)
(T (W x00 x00 x00 x00 x00 x00 x00 x00)
(T (W x50 x00 x00 x00 x44 x00 x00 x00)
(L (W xa8 x00 x00 x00 x64 x00 x00 x00)) E)
(L (W xff xff xff xff xff xff xff xff)))
(T (W x00 x00 x00 x00 x00 x00 x00 x00)
(L (W xff xff xff xff xff xff xff xff))
(L (W x4f x84 x6f x8b xe8 xcb x63 xb7))))
(T (W x00 x00 x80 x3f x00 x00 x80 x3f)
(T (W x00 x00 x00 x00 x00 x00 x00 x00)
(T (W x00 x00 x00 x00 x02 x00 x00 x00)
(L (W x00 x00 x00 x00 x00 x00 x00 x00)) E)
(L (W x00 x00 x00 x00 x6c xcd xfe xff)))
(T (W x00 x00 x00 x00 x00 x00 x00 x00)
(L (W xfc x07 x00 x00 xd4 x06 x00 x00))
(L (W x00 x00 x00 x00 x00 x00 x00 x00)))))
(T (W xff xff xff xff xff xff xff xff)
(T (W xb8 x00 x00 x00 xac x00 x00 x00)
(T (W x45 x26 x22 x84 xe4 x9c xf2 xcb)
(T (W x00 x00 x00 x00 x00 x00 x00 x00)
(L (W x30 x33 x5f x43 x4c x45 x41 x52)) E)
(L (W x32 xaa xfe xff x74 x00 x00 x00)))
(T (W x68 x00 x00 x00 x5c x00 x00 x00)
(L (W x45 x26 x22 x84 xe4 x9c xf2 xcb))
(L (W x00 x00 x80 xbf x00 x00 x80 xbf))))
(T (W x00 x00 x80 x3f x00 x00 x80 x3f)
(T (W xff xff xff xff xff xff xff xff)
(T (W x46 x4d x41 x50 x5f x43 x41 x4e)
(L (W x00 x00 x80 xbf x00 x00 x80 xbf)) E)
(L (W x00 x00 x00 x00 x00 x00 x00 x00)))
(T (W xff xff xff xff xff xff xff xff)
(L (W xaa x82 xfe xff xa9 x01 x00 x00))
(L (W x00 x00 x00 x00 x00 x00 x00 x00))))))
(T (W x64 x88 x4e x6e x38 xb5 xd7 x5f)
(T (W x00 x00 x00 x00 xea x36 xff xff)
(T (W xff xff xff xff xff xff xff xff)
(T (W x00 x00 x00 x00 x00 x00 x00 x00)
(T (W x00 x00 x80 x3f x00 x00 x80 x3f)
(L (W xa0 x00 x00 x00 x64 x00 x00 x00)) E)
(L (W x03 x00 x00 x00 xd0 x00 x00 x00)))
(T (W x00 x00 x00 x00 x00 x00 x00 x00)
(L (W x00 x00 x00 x00 x00 x00 x00 x00))
(L (W x32 x1a xff xff x74 x00 x00 x00))))
(T (W x68 x00 x00 x00 x5c x00 x00 x00)
(T (W x6c x00 x00 x00 x60 x00 x00 x00)
(T (W x00 x00 x00 x00 x00 x00 x00 x00)
(L (W x46 x53 x59 x53 x5f x4e x53 x5f)) E)
(L (W xff xff xff xff xff xff xff xff)))
(T (W x00 x00 x80 x3f x00 x00 x80 x3f)
(L (W xda x5f xfe xff x8d x01 x00 x00))
(L (W x00 x00 x80 xbf x00 x00 x80 xbf)))))
(T (W xff xff xff xff xff xff xff xff)
(T (W x45 x26 x22 x84 xe4 x9c xf2 xcb)
(T (W x00 x00 x00 x00 x00 x00 x00 x00)
(T (W xff xff xff xff xff xff xff xff)
(L (W x46 x53 x59 x53 x5f x4e x53 x5f)) E)
(L (W x68 x00 x00 x00 x5c x00 x00 x00)))
(T (W xff xff xff xff xff xff xff xff)
(L (W x20 x00 x00 x00 x10 x00 x00 x00))
(L (W x00 x00 x00 x00 x00 x00 x00 x00))))
(T (W x45 x26 x22 x84 xe4 x9c xf2 xcb)
(T (W x34 x01 x00 x00 x04 x00 x00 x00)
(T (W x00 x00 x00 x00 x6c xfd xfd xff)
(L (W x00 x00 x00 x00 x00 x00 x00 x00)) E)
(L (W x46 x53 x59 x53 x5f x4e x53 x5f)))
(T (W x00 x00 x00 x00 x00 x00 x00 x00)
(L (W xff xff xff xff xff xff xff xff))
(L (W xff xff xff xff xb4 x00 x00 x00))))))))
(T (W x00 x00 x00 x00 x00 x00 x00 x00)
(T (W x00 x00 x00 x00 x00 x00 x00 x00)
(T (W x00 x00 x00 x00 x00 x00 x00 x00)
(T (W x00 x00 x80 x3f x00 x00 x80 x3f)
(T (W x45 x26 x22 x84 xe4 x9c xf2 xcb)
(T (W xff xff xff xff xff xff xff xff)
(T (W x00 x00 x00 x00 x00 x00 x00 x00)
(L (W x00 x00 x00 x00 x00 x00 x00 x00)) E)
(L (W x00 x00 x00 x00 x00 x00 x00 x00)))
(T (W xe2 x07 xfd xff x78 x00 x00 x00)
(L (W x00 x00 x00 x00 x00 x00 x00 x00))
(L (W x45 x26 x22 x84 xe4 x9c xf2 xcb))))
(T (W x00 x00 x00 x00 x00 x00 x00 x00)
(T (W x32 xc6 xfc xff x74 x00 x00 x00)
(T (W x00 x00 x80 x3f x00 x00 x80 x3f)
(L (W x45 x26 x22 x84 xe4 x9c xf2 xcb)) E)
(L (W x00 x00 x00 x00 x00 x00 x00 x00)))
(T (W x00 x00 x80 x3f x00 x00 x80 x3f)
(L (W x00 x01 x01 x01 xd2 x4d xfe xff))
(L (W xfc x4a xff xff x00 x01 x01 x01)))))
(T (W x00 x00 x80 x3f x00 x00 x80 x3f)
(T (W x00 x00 x00 x00 x00 x00 x00 x00)
(T (W x64 x00 x00 x00 x9c x00 x00 x00)
(T (W x00 x00 x00 x00 x6c xa9 xfd xff)
(L (W x00 x00 x00 x00 x00 x00 x00 x00)) E)
(L (W xff xff xff xff xff xff xff xff)))
(T (W x04 x00 x00 x00 x7c x03 x00 x00)
(L (W x18 x00 x00 x00 x0c x00 x00 x00))
(L (W x2c x01 x00 x00 x04 x00 x00 x00))))
(T (W xff xff xff xff xff xff xff xff)
(T (W x00 x00 x00 x00 x00 x00 x00 x00)
(T (W x00 x00 x80 xbf x00 x00 x80 xbf)
(L (W x00 x00 x00 x00 x00 x00 x00 x00)) E)
(L (W x00 x00 x80 xbf x00 x00 x80 xbf)))
(T (W x00 x00 x00 x00 x12 x00 x00 x00)
(L (W x00 x00 x80 xbf x00 x00 x80 xbf))
(L (W xff xff xff xff xff xff xff xff))))))
(T (W x00 x00 x80 x3f x00 x00 x80 x3f)
(T (W x00 x00 x80 x3f x00 x00 x80 x3f)
(T (W x00 x00 x00 x00 x00 x00 x00 x00)
(T (W xff xff xff xff xff xff xff xff)
(T (W xff xff xff xff xff xff xff xff)
(L (W x00 x00 x00 x00 x00 x00 x00 x00)) E)
(L (W x00 x00 x00 x00 x00 x00 x00 x00)))
(T (W xff xff xff xff xff xff xff xff)
(L (W x54 x00 x00 x00 x48 x00 x00 x00))
(L (W x34 x0a x00 x00 x04 x09 x00 x00))))
(T (W x0e x34 x16 x85 xeb x4b xba x96)
(T (W xff xff xff xff xff xff xff xff)
(T (W xff xff xff xff xff xff xff xff)
(L (W x45 x26 x22 x84 xe4 x9c xf2 xcb)) E)
(L (W x00 x00 x00 x00 x00 x00 x00 x00)))
(T (W xff xff xff xff xff xff xff xff)
(L (W xfc x5a xfe xff x00 x01 x01 x01))
(L (W xff xff xff xff xff xff xff xff)))))
(T (W x00 x00 x80 x3f x00 x00 x80 x3f)
(T (W x00 x00 x00 x00 x00 x00 x00 x00)
(T (W x00 x00 x80 x3f x00 x00 x80 x3f)
(T (W x18 x00 x00 x00 x10 x00 x00 x00)
(L (W x00 x00 x80 xbf x00 x00 x80 xbf)) E)
(L (W xff xff xff xff xff xff xff xff)))
(T (W x45 x26 x22 x84 xe4 x9c xf2 xcb)
(L (W xbc x00 x00 x00 x01 x00 x00 x00))
(L (W x45 x26 x22 x84 xe4 x9c xf2 xcb))))
(T (W xff xff xff xff xff xff xff xff)
(T (W x00 x00 x80 x3f x00 x00 x80 x3f)
(T (W x55 x6c xfc xf1 x99 x9e xc9 x88)
(L (W x74 x00 x04 x00 x68 x00 x08 x00)) E)
(L (W x68 x00 x00 x00 x5c x00 x00 x00)))
(T (W x68 x00 x00 x00 x5c x00 x00 x00)
(L (W x00 x00 x80 xbf x00 x00 x80 xbf))
(L (W xff xff xff xff xff xff xff xff)))))))
(T (W x00 x00 x00 x00 x00 x00 x00 x00)
(T (W x68 x00 x00 x00 x5c x00 x00 x00)
(T (W x00 x00 x80 x3f x00 x00 x80 x3f)
(T (W x45 x26 x22 x84 xe4 x9c xf2 xcb)
(T (W xff xff xff xff x03 x00 x00 x00)
(T (W xaf x01 x00 x00 xff xff xff xff)
(L (W x45 x44 x00 x00 x00 x00 x00 x00)) E)
(L (W x00 x00 x00 x00 x00 x00 x00 x00)))
(T (W xb8 x00 x00 x00 x32 x00 x00 x00)
(L (W x45 x26 x22 x84 xe4 x9c xf2 xcb))
(L (W xff xff xff xff xff xff xff xff))))
(T (W x00 x00 x00 x00 x00 x00 x00 x00)
(T (W xff xff xff xff xff xff xff xff)
(T (W x00 x00 x00 x00 x6c xd1 xfd xff)
(L (W xfc xd2 xff xff x00 x01 x01 x01)) E)
(L (W x00 x00 x00 x00 x00 x00 x00 x00)))
(T (W x18 x00 x00 x00 x0c x00 x00 x00)
(L (W x2c x12 xff xff x00 x00 x01 x01))
(L (W xff xff xff xff xc4 x00 x00 x00)))))
(T (W x00 x00 x80 x3f x00 x00 x80 x3f)
(T (W x00 x00 x00 x00 x00 x00 x00 x00)
(T (W xff xff xff xff x03 x00 x00 x00)
(T (W x32 xae xfd xff x74 x00 x00 x00)
(L (W x00 x00 x80 xbf x00 x00 x80 xbf)) E)
(L (W xff xff xff xff xff xff xff xff)))
(T (W x5f x4e x53 x5f x30 x33 x5f x43)
(L (W x00 x00 x80 xbf x00 x00 x80 xbf))
(L (W xff xff xff xff xff xff xff xff))))
(T (W xff xff xff xff xff xff xff xff)
(T (W x00 x00 x80 x3f x00 x00 x80 x3f)
(T (W xff xff xff xff xff xff xff xff)
(L (W xff xff xff xff xff xff xff xff)) E)
(L (W xff xff xff xff xb0 x00 x00 x00)))
(T (W x00 x00 x80 x3f x00 x00 x80 x3f)
(L (W x00 x00 x80 xbf x00 x00 x80 xbf))
(L (W xff xff xff xff xff xff xff xff))))))
(T (W x00 x00 x80 x3f x00 x00 x80 x3f)
(T (W x00 x00 x80 x3f x00 x00 x80 x3f)
(T (W x00 x00 x00 x00 x00 x00 x00 x00)
(T (W xb8 x00 x00 x00 xac x00 x00 x00)
(T (W xff xff xff xff xff xff xff xff)
(L (W x00 x00 x00 x00 x00 x00 x00 x00)) E)
(L (W xff xff xff xff xff xff xff xff)))
(T (W xff xff xff xff xff xff xff xff)
(L (W x00 x00 x00 x00 x00 x00 x00 x00))
(L (W x8d x01 x00 x00 xff xff xff xff))))
(T (W x71 x00 x00 x00 xff xff xff xff)
(T (W x00 x00 x00 x00 x00 x00 x00 x00)
(T (W x32 xde xfd xff x74 x00 x00 x00)
(L (W x00 x00 x80 xbf x00 x00 x80 xbf)) E)
(L (W x00 x00 x80 xbf x00 x00 x80 xbf)))
(T (W xff xff xff xff xff xff xff xff)
(L (W x00 x00 x80 xbf x00 x00 x80 xbf))
(L (W xff xff xff xff xff xff xff xff)))))
(T (W x00 x00 x80 x3f x00 x00 x80 x3f)
(T (W x00 x00 x00 x00 x00 x00 x00 x00)
(T (W x00 x00 x80 x3f x00 x00 x80 x3f)
(T (W x00 x00 x00 x00 x00 x00 x00 x00)
(L (W x5c x00 x00 x00 x50 x00 x00 x00)) E)
(L (W x30 x33 x5f x43 x4c x45 x41 x52)))
(T (W x00 x00 x80 x3f x00 x00 x80 x3f)
(L (W x45 x26 x22 x84 xe4 x9c xf2 xcb))
(L (W x1d x00 x00 x00 x20 x00 x00 x00))))
(T (W xff xff xff xff xff xff xff xff)
(T (W x00 x00 x80 x3f x00 x00 x80 x3f)
(T (W x00 x00 x00 x00 x12 xff xfd xff)
(L (W x45 x26 x22 x84 xe4 x9c xf2 xcb)) E)
(L (W x03 x00 x00 x00 xd8 x00 x00 x00)))
(T (W xff xff xff xff xff xff xff xff)
(L (W x00 x00 x80 xbf x00 x00 x80 xbf))
(L (W x30 x33 x5f x43 x4c x45 x41 x52)))))))))
(T (W x00 x00 x80 x3f x00 x00 x80 x3f)
(T (W x86 x03 x00 x00 xff xff xff xff)
(T (W x45 x26 x22 x84 xe4 x9c xf2 xcb)
(T (W xff xff xff xff xff xff xff xff)
(T (W x00 x00 x00 x00 x00 x00 x00 x00)
(T (W x8c x0c xfc xff x3e x00 x00 x00)
(T (W xfc x88 xfc xff x00 x01 x01 x01)
(T (W x32 x84 xfd xff x74 x00 x00 x00)
(L (W x4c x03 x00 x00 x24 x02 x00 x00)) E)
(L (W x46 x53 x59 x53 x5f x4e x53 x5f)))
(T (W x00 x00 x80 x3f x00 x00 x80 x3f)
(L (W x18 x00 x00 x00 x10 x00 x00 x00))
(L (W x00 x00 x80 xbf x00 x00 x80 xbf))))
(T (W xff xff xff xff xff xff xff xff)
(T (W x00 x00 x00 x00 x00 x00 x00 x00)
(T (W xff xff xff xff xff xff xff xff)
(L (W x38 x00 x00 x00 x00 x00 x80 xbf)) E)
(L (W xff xff xff xff xff xff xff xff)))
(T (W x45 x26 x22 x84 xe4 x9c xf2 xcb)
(L (W x49 xa1 x68 x4a xeb x5f xdd x3d))
(L (W x54 x00 x00 x00 x48 x00 x00 x00)))))
(T (W x00 x00 x00 x00 x00 x00 x00 x00)
(T (W xff xff xff xff x01 x00 x00 x00)
(T (W x6c x00 x00 x00 x60 x00 x00 x00)
(T (W x00 x00 x80 x3f x00 x00 x80 x3f)
(L (W xff xff xff xff xff xff xff xff)) E)
(L (W x18 x00 x00 x00 x0c x00 x00 x00)))
(T (W x03 x00 x00 x00 xcc x00 x00 x00)
(L (W x00 x00 x00 x00 x00 x00 x00 x00))
(L (W x18 x00 x00 x00 x0c x00 x00 x00))))
(T (W x01 x00 x00 x00 x9c x00 x00 x00)
(T (W x00 x00 x00 x00 x00 x00 x00 x00)
(T (W x45 x26 x22 x84 xe4 x9c xf2 xcb)
(L (W xff xff xff xff xff xff xff xff)) E)
(L (W x00 x00 x00 x00 x00 x00 x00 x00)))
(T (W xff xff xff xff xff xff xff xff)
(L (W x00 x00 x00 x00 x00 x00 x00 x00))
(L (W x45 x26 x22 x84 xe4 x9c xf2 xcb))))))
(T (W x00 x00 x00 x00 x00 x00 x00 x00)
(T (W x8c xdc xfb xff x3e x00 x00 x00)
(T (W xff xff xff xff xff xff xff xff)
(T (W x00 x00 x80 x3f x00 x00 x80 x3f)
(T (W x68 x00 x00 x00 x5c x00 x00 x00)
(L (W xff xff xff xff xff xff xff xff)) E)
(L (W x00 x00 x00 x00 x00 x00 x00 x00)))
(T (W x00 x00 x80 x3f x00 x00 x80 x3f)
(L (W x49 xa1 x68 x4a xeb x5f xdd x3d))
(L (W xff xff xff xff xb0 x00 x00 x00))))
(T (W xb8 x00 x00 x00 xac x00 x00 x00)
(T (W x45 x26 x22 x84 xe4 x9c xf2 xcb)
(T (W x00 x00 x80 x3f x00 x00 x80 x3f)
(L (W x00 x00 x80 xbf x00 x00 x80 xbf)) E)
(L (W x00 x00 x00 x00 x00 x00 x00 x00)))
(T (W x00 x00 x80 x3f x00 x00 x80 x3f)
(L (W x00 x00 x80 xbf x00 x00 x80 xbf))
(L (W x6c x00 x00 x00 x60 x00 x00 x00)))))
(T (W x00 x00 x00 x00 x00 x00 x00 x00)
(T (W x20 x01 x00 x00 x04 x00 x00 x00)
(T (W xff xff xff xff xff xff xff xff)
(T (W x00 x00 x00 x00 x00 x00 x00 x00)
(L (W x00 x00 x00 x00 x00 x00 x00 x00)) E)
(L (W xff xff xff xff xff xff xff xff)))
(T (W x54 x02 x00 x00 x34 x01 x00 x00)
(L (W x00 x00 x80 xbf x00 x00 x80 xbf))
(L (W x00 x00 x80 xbf x00 x00 x80 xbf))))
(T (W xc0 x00 x00 x00 xb4 x00 x00 x00)
(T (W x46 x53 x59 x53 x5f x4e x53 x5f)
(T (W x00 x00 x80 x3f x00 x00 x80 x3f)
(L (W x45 x26 x22 x84 xe4 x9c xf2 xcb)) E)
(L (W x45 x26 x22 x84 xe4 x9c xf2 xcb)))
(T (W x49 xa1 x68 x4a xeb x5f xdd x3d)
(L (W x00 x00 x00 x00 x00 x00 x00 x00))
(L (W x45 x26 x22 x84 xe4 x9c xf2 xcb)))))))
(T (W x64 x00 x00 x00 x9c x00 x00 x00)
(T (W x72 x64 x5f x6c x76 x31 x00 x00)
(T (W x00 x00 x00 x00 x00 x00 x00 x00)
(T (W x01 x00 x00 x00 x04 x00 x00 x00)
(T (W x00 x00 x80 x3f x00 x00 x80 x3f)
(T (W xff xff xff xff x03 x00 x00 x00)
(L (W xff xff xff xff xff xff xff xff)) E)
(L (W xff xff xff xff xff xff xff xff)))
(T (W x00 x00 x80 x3f x00 x00 x80 x3f)
(L (W x00 x00 x00 x00 x72 xfb xff xff))
(L (W xfc x10 xff xff x00 x01 x01 x01))))
(T (W xff xff xff xff xff xff xff xff)
(T (W x00 x00 x80 x3f x00 x00 x80 x3f)
(T (W x00 x00 x00 x00 x00 x00 x00 x00)
(L (W x00 x00 x80 xbf x00 x00 x80 xbf)) E)
(L (W x00 x00 x00 x00 x22 xe3 xfe xff)))
(T (W x00 x00 x80 x3f x00 x00 x80 x3f)
(L (W x00 x00 x80 xbf x00 x00 x80 xbf))
(L (W x00 x00 x80 xbf x00 x00 x80 xbf)))))
(T (W x45 x26 x22 x84 xe4 x9c xf2 xcb)
(T (W x00 x00 x00 x00 x00 x00 x00 x00)
(T (W x45 x26 x22 x84 xe4 x9c xf2 xcb)
(T (W x00 x00 x80 x3f x00 x00 x80 x3f)
(L (W x00 x00 x00 x00 x00 x00 x00 x00)) E)
(L (W xff xff xff xff xbc x00 x00 x00)))
(T (W xff xff xff xff xff xff xff xff)
(L (W xb0 x00 x00 x00 x64 x00 x00 x00))
(L (W x00 x00 x00 x00 x6c x2f xff xff))))
(T (W x0a x00 x00 x00 x3e x00 x00 x00)
(T (W x18 x00 x00 x00 x10 x00 x00 x00)
(T (W x70 x5f x6c x65 x61 x64 x65 x72)
(L (W x50 x00 x00 x00 x44 x00 x00 x00)) E)
(L (W x00 x00 x00 x00 x00 x00 x00 x00)))
(T (W x00 x00 x00 x00 x00 x00 x00 x00)
(L (W x00 x00 x00 x00 x00 x00 x00 x00))
(L (W x32 x6c xff xff x74 x00 x00 x00))))))
(T (W x45 x26 x22 x84 xe4 x9c xf2 xcb)
(T (W x00 x00 x00 x00 x00 x00 x00 x00)
(T (W xff xff xff xff xff xff xff xff)
(T (W x45 x26 x22 x84 xe4 x9c xf2 xcb)
(T (W x32 x9c xfd xff x74 x00 x00 x00)
(L (W xff xff xff xff xff xff xff xff)) E)
(L (W x00 x00 x00 x00 x18 x00 x1c x00)))
(T (W x68 x00 x00 x00 x5c x00 x00 x00)
(L (W x50 x00 x00 x00 x44 x00 x00 x00))
(L (W xff xff xff xff xff xff xff xff))))
(T (W x45 x26 x22 x84 xe4 x9c xf2 xcb)
(T (W xff xff xff xff xff xff xff xff)
(T (W x00 x00 x80 x3f x00 x00 x80 x3f)
(L (W x00 x00 x00 x00 x00 x00 x00 x00)) E)
(L (W x30 x33 x5f x43 x4c x45 x41 x52)))
(T (W x45 x26 x22 x84 xe4 x9c xf2 xcb)
(L (W x00 x00 x00 x00 x00 x00 x00 x00))
(L (W xb8 x00 x00 x00 x3c x00 x00 x00)))))
(T (W x00 x00 x00 x00 x00 x00 x00 x00)
(T (W xff xff xff xff xff xff xff xff)
(T (W x00 x00 x00 x00 x00 x00 x00 x00)
(T (W x54 xbf x33 x97 x85 xab x5f x5f)
(L (W x00 x00 x80 xbf x00 x00 x80 xbf)) E)
(L (W xb0 x00 x00 x00 x64 x00 x00 x00)))
(T (W x4c x45 x41 x52 x45 x44 x00 x00)
(L (W x45 x26 x22 x84 xe4 x9c xf2 xcb))
(L (W x00 x00 x80 xbf x00 x00 x80 xbf))))
(T (W x32 x7c xfc xff x74 x00 x00 x00)
(T (W x45 x26 x22 x84 xe4 x9c xf2 xcb)
(T (W xff xff xff xff xff xff xff xff)
(L (W x50 x00 x54 x00 x58 x00 x5c x00)) E)
(L (W x49 xa1 x68 x4a xeb x5f xdd x3d)))
(T (W x00 x00 x80 x3f x00 x00 x80 x3f)
(L (W x00 x00 x00 x00 x00 x00 x00 x00))
(L (W xff xff xff xff xff xff xff xff))))))))
(T (W x00 x00 x01 x01 x86 x03 x00 x00)
(T (W x45 x26 x22 x84 xe4 x9c xf2 xcb)
(T (W x32 xa8 xfb xff x74 x00 x00 x00)
(T (W xff xff xff xff xff xff xff xff)
(T (W x00 x00 x00 x00 x6c x0b xfc xff)
(T (W x00 x00 x00 x00 x00 x00 x00 x00)
(T (W x45 x26 x22 x84 xe4 x9c xf2 xcb)
(L (W x00 x00 x80 xbf x00 x00 x80 xbf)) E)
(L (W x6c x00 x00 x00 x60 x00 x00 x00)))
(T (W xff xff xff xff xff xff xff xff)
(L (W x00 x00 x80 x3f x00 x00 x80 x3f))
(L (W x48 x00 x00 x00 xff xff xff xff))))
(T (W x00 x00 x80 x3f x00 x00 x80 x3f)
(T (W xff xff xff xff xff xff xff xff)
(T (W xff xff xff xff xff xff xff xff)
(L (W x00 x00 x00 x00 x00 x00 x00 x00)) E)
(L (W x00 x00 x80 xbf x00 x00 x80 xbf)))
(T (W xff xff xff xff xff xff xff xff)
(L (W xff xff xff xff xff xff xff xff))
(L (W xff xff xff xff xff xff xff xff)))))
(T (W x64 x00 x00 x00 x9c x00 x00 x00)
(T (W x00 x00 x80 x3f x00 x00 x80 x3f)
(T (W x01 x00 x00 x00 x04 x00 x00 x00)
(T (W xff xff xff xff xff xff xff xff)
(L (W x00 x00 x80 xbf x00 x00 x80 xbf)) E)
(L (W x00 x00 x00 x00 x00 x00 x00 x00)))
(T (W x00 x00 x80 x3f x00 x00 x80 x3f)
(L (W x00 x00 x00 x00 x01 x00 x00 x00))
(L (W x00 x00 x00 x00 x00 x00 x00 x00))))
(T (W x00 x00 x00 x00 x00 x00 x00 x00)
(T (W xfc xec xfc xff x00 x01 x01 x01)
(T (W xff xff xff xff xff xff xff xff)
(L (W x03 x00 x00 x00 xd8 x00 x00 x00)) E)
(L (W xff xff xff xff xff xff xff xff)))
(T (W xe2 x69 xfd xff x78 x00 x00 x00)
(L (W xff xff xff xff xff xff xff xff))
(L (W x00 x00 x00 x00 x00 x00 x00 x00))))))
(T (W xff xff xff xff xff xff xff xff)
(T (W x64 x00 x00 x00 x9c x00 x00 x00)
(T (W x00 x00 x80 x3f x00 x00 x80 x3f)
(T (W x48 x03 x00 x00 x34 x02 x00 x00)
(T (W x00 x00 x00 x00 x00 x00 x00 x00)
(L (W x00 x00 x80 xbf x00 x00 x80 xbf)) E)
(L (W x6c x00 x00 x00 x60 x00 x00 x00)))
(T (W x00 x00 x00 x00 x00 x00 x00 x00)
(L (W xff xff xff xff xff xff xff xff))
(L (W x00 x00 x80 xbf x00 x00 x80 xbf))))
(T (W x00 x00 x00 x00 x00 x00 x00 x00)
(T (W x00 x00 x00 x00 x00 x00 x00 x00)
(T (W x32 xf6 xff xff x00 x00 x01 x01)
(L (W xff xff xff xff xff xff xff xff)) E)
(L (W x00 x00 x80 xbf x00 x00 x80 xbf)))
(T (W x00 x00 x00 x00 x00 x00 x00 x00)
(L (W xff xff xff xff xff xff xff xff))
(L (W x00 x00 x00 x00 x00 x00 x00 x00)))))
(T (W x50 x00 x00 x00 x44 x00 x00 x00)
(T (W x45 x26 x22 x84 xe4 x9c xf2 xcb)
(T (W xff xff xff xff xff xff xff xff)
(T (W x00 x00 x00 x00 x00 x00 x00 x00)
(L (W xff xff xff xff xff xff xff xff)) E)
(L (W x00 x00 x00 x00 x00 x00 x00 x00)))
(T (W x50 x00 x00 x00 x44 x00 x00 x00)
(L (W xff xff xff xff xff xff xff xff))
(L (W x04 x00 x00 x00 xd2 xbf xff xff))))
(T (W x55 x72 x59 x87 x65 xed x58 x20)
(T (W xff xff xff xff xb0 x00 x00 x00)
(T (W x41 x57 x4e x5f x56 x4f x4c x54)
(L (W x03 x00 x00 x00 xf0 x00 x00 x00)) E)
(L (W xff xff xff xff xff xff xff xff)))
(T (W xff xff xff xff xff xff xff xff)
(L (W x45 x26 x22 x84 xe4 x9c xf2 xcb))
(L (W x17 x00 x00 x00 x10 x00 x00 x00)))))))
(T (W xff xff xff xff xff xff xff xff)
(T (W xff xff xff xff xff xff xff xff)
(T (W xff xff xff xff xff xff xff xff)
(T (W x45 x26 x22 x84 xe4 x9c xf2 xcb)
(T (W x00 x00 x00 x00 x00 x00 x00 x00)
(T (W x00 x00 x00 x00 x00 x00 x00 x00)
(L (W x00 x00 x80 xbf x00 x00 x80 xbf)) E)
(L (W x2c x54 xff xff x00 x00 x01 x01)))
(T (W xff xff xff xff xff xff xff xff)
(L (W x6c x00 x00 x00 x60 x00 x00 x00))
(L (W x00 x00 x00 x00 x00 x00 x00 x00))))
(T (W x00 x00 x80 x3f x00 x00 x80 x3f)
(T (W x2c x00 x00 x00 x10 x00 x00 x00)
(T (W xff xff xff xff xff xff xff xff)
(L (W xff xff xff xff xff xff xff xff)) E)
(L (W x00 x00 x80 xbf x00 x00 x80 xbf)))
(T (W x9d x01 x00 x00 xff xff xff xff)
(L (W xff xff xff xff xff xff xff xff))
(L (W xff xff xff xff xff xff xff xff)))))
(T (W xfc xf4 xfb xff x00 x01 x01 x01)
(T (W x00 x00 x80 x3f x00 x00 x80 x3f)
(T (W xff xff xff xff xff xff xff xff)
(T (W xff xff xff xff xff xff xff xff)
(L (W x03 x00 x00 x00 xd8 x00 x00 x00)) E)
(L (W x00 x00 x00 x00 x12 x00 x00 x00)))
(T (W x00 x00 x80 x3f x00 x00 x80 x3f)
(L (W xff xff xff xff xff xff xff xff))
(L (W x00 x00 x00 x00 x00 x00 x00 x00))))
(T (W x00 x00 x00 x00 x00 x00 x00 x00)
(T (W x32 xf0 xfc xff x74 x00 x00 x00)
(T (W x45 x26 x22 x84 xe4 x9c xf2 xcb)
(L (W x68 x00 x00 x00 x5c x00 x00 x00)) E)
(L (W xff xff xff xff xff xff xff xff)))
(T (W xff xff xff xff xc8 x00 x00 x00)
(L (W x45 x26 x22 x84 xe4 x9c xf2 xcb))
(L (W x00 x00 x00 x00 x00 x00 x00 x00))))))
(T (W xff xff xff xff x03 x00 x00 x00)
(T (W xff xff xff xff xff xff xff xff)
(T (W x54 x00 x00 x00 x48 x00 x00 x00)
(T (W x0c x00 x00 x00 x00 x00 x10 x00)
(T (W x18 x01 x00 x00 x04 x00 x00 x00)
(L (W x00 x00 x80 xbf x00 x00 x80 xbf)) E)
(L (W x00 x00 x00 x00 x00 x00 x00 x00)))
(T (W x12 x00 x00 x00 x46 x53 x59 x53)
(L (W x32 x20 xfe xff x74 x00 x00 x00))
(L (W x00 x00 x00 x00 x12 x00 x00 x00))))
(T (W x00 x00 x00 x00 x00 x00 x00 x00)
(T (W x00 x00 x80 x3f x00 x00 x80 x3f)
(T (W x00 x00 x00 x00 x00 x00 x00 x00)
(L (W x40 x00 x44 x00 x48 x00 x4c x00)) E)
(L (W xff xff xff xff xff xff xff xff)))
(T (W x00 x00 x00 x00 x00 x00 x00 x00)
(L (W xff xff xff xff xff xff xff xff))
(L (W x00 x00 x00 x00 x00 x00 x00 x00)))))
(T (W x32 x00 xfc xff x74 x00 x00 x00)
(T (W x00 x00 x80 x3f x00 x00 x80 x3f)
(T (W x03 x00 x00 x00 xcc x00 x00 x00)
(T (W x00 x00 x80 x3f x00 x00 x80 x3f)
(L (W xff xff xff xff xd8 x00 x00 x00)) E)
(L (W x4f x84 x6f x8b xe8 xcb x63 xb7)))
(T (W xff xff xff xff xac x00 x00 x00)
(L (W xff xff xff xff xff xff xff xff))
(L (W xff xff xff xff xff xff xff xff))))
(T (W xc2 x9c xfe xff x4a x00 x00 x00)
(T (W xff xff xff xff xff xff xff xff)
(T (W x6c x00 x00 x00 x60 x00 x00 x00)
(L (W x68 x00 x00 x00 x5c x00 x00 x00)) E)
(L (W xff xff xff xff xff xff xff xff)))
(T (W x18 x01 x00 x00 x04 x00 x00 x00)
(L (W x58 x00 x00 x00 x4c x00 x00 x00))
(L (W x00 x00 x80 xbf x00 x00 x80 xbf))))))))))
(T (W x50 x4d x01 x00 xf4 x4a x01 x00)
(T (W x60 x26 x00 x00 x2c x25 x00 x00)
(T (W xff xff xff xff xff xff xff xff)
(T (W x45 x26 x22 x84 xe4 x9c xf2 xcb)
(T (W xfc xa7 xfb xff x00 x01 x01 x01)
(T (W xe4 xdb xfb xff x3c x00 x00 x00)
(T (W xff xff xff xff xff xff xff xff)
(T (W x00 x00 x80 x3f x00 x00 x80 x3f)
(T (W x68 x00 x00 x00 x5c x00 x00 x00)
(L (W xff xff xff xff xff xff xff xff)) E)
(L (W x4c x03 x00 x00 x24 x02 x00 x00)))
(T (W x00 x00 x00 x00 x00 x00 x00 x00)
(L (W x4f x84 x6f x8b xe8 xcb x63 xb7))
(L (W x00 x00 x00 x00 x00 x00 x00 x00))))
(T (W xb8 x00 x00 x00 xac x00 x00 x00)
(T (W x12 x00 x00 x00 x46 x53 x59 x53)
(T (W xff xff xff xff xff xff xff xff)
(L (W x00 x00 x80 xbf x00 x00 x80 xbf)) E)
(L (W x18 x00 x00 x00 x10 x00 x00 x00)))
(T (W x12 x00 x00 x00 x46 x53 x59 x53)
(L (W x00 x00 x00 x00 x00 x00 x00 x00))
(L (W x45 x26 x22 x84 xe4 x9c xf2 xcb)))))
(T (W x00 x00 x00 x00 x00 x00 x00 x00)
(T (W xff xff xff xff xff xff xff xff)
(T (W x00 x00 x00 x00 x00 x00 x00 x00)
(T (W x00 x00 x80 x3f x00 x00 x80 x3f)
(L (W xb8 x00 x00 x00 x64 x00 x00 x00)) E)
(L (W x32 xa3 xfe xff x74 x00 x00 x00)))
(T (W x18 x00 x00 x00 x10 x00 x00 x00)
(L (W x00 x00 x00 x00 x00 x00 x00 x00))
(L (W x00 x00 x80 xbf x00 x00 x80 xbf))))
(T (W x45 x26 x22 x84 xe4 x9c xf2 xcb)
(T (W xff xff xff xff xff xff xff xff)
(T (W x00 x00 x00 x00 x00 x00 x00 x00)
(L (W x26 x00 x00 x00 x29 x00 x00 x00)) E)
(L (W x30 x33 x5f x43 x4c x45 x41 x52)))
(T (W x03 x00 x00 x00 xcc x00 x00 x00)
(L (W x00 x00 x00 x00 x00 x00 x00 x00))
(L (W x45 x26 x22 x84 xe4 x9c xf2 xcb))))))
(T (W x00 x00 x00 x00 x00 x00 x00 x00)
(T (W xff xff xff xff xff xff xff xff)
(T (W xff xff xff xff xff xff xff xff)
(T (W x00 x00 x00 x00 x00 x00 x00 x00)
(T (W x50 x00 x00 x00 x44 x00 x00 x00)
(L (W xff xff xff xff xbc x00 x00 x00)) E)
(L (W xff xff xff xff xff xff xff xff)))
(T (W x00 x00 x80 x3f x00 x00 x80 x3f)
(L (W x00 x00 x00 x00 x00 x00 x00 x00))
(L (W x45 x26 x22 x84 xe4 x9c xf2 xcb))))
(T (W x68 x00 x00 x00 x5c x00 x00 x00)
(T (W x54 x00 x00 x00 x48 x00 x00 x00)
(T (W x00 x00 x00 x00 x00 x00 x00 x00)
(L (W x49 xa1 x68 x4a xeb x5f xdd x3d)) E)
(L (W xff xff xff xff xff xff xff xff)))
(T (W x00 x00 x80 x3f x00 x00 x80 x3f)
(L (W x8c x5b xfe xff x0a x00 x00 x00))
(L (W x00 x00 x80 xbf x00 x00 x80 xbf)))))
(T (W x00 x00 x00 x00 x00 x00 x00 x00)
(T (W xff xff xff xff xff xff xff xff)
(T (W x00 x00 x80 x3f x00 x00 x80 x3f)
(T (W x00 x00 x00 x00 x00 x00 x00 x00)
(L (W x45 x44 x00 x00 x00 x00 x00 x00)) E)
(L (W x1f x00 x00 x00 x22 x00 x00 x00)))
(T (W xff xff xff xff xff xff xff xff)
(L (W x00 x00 x00 x00 x00 x00 x00 x00))
(L (W x00 x00 x80 xbf x00 x00 x80 xbf))))
(T (W x00 x00 x80 x3f x00 x00 x80 x3f)
(T (W x00 x00 x00 x00 x00 x00 x00 x00)
(T (W x20 x00 x24 x00 x07 x00 x08 x00)
(L (W x00 x00 x00 x00 x00 x00 x00 x00)) E)
(L (W x00 x00 x00 x00 x00 x00 x00 x00)))
(T (W x00 x00 x00 x00 x00 x00 x00 x00)
(L (W x00 x00 x00 x00 x00 x00 x00 x00))
(L (W x45 x26 x22 x84 xe4 x9c xf2 xcb)))))))
(T (W x00 x00 x80 x3f x00 x00 x80 x3f)
(T (W xff xff xff xff xff xff xff xff)
(T (W x01 x00 x00 x00 x04 x00 x00 x00)
(T (W xff xff xff xff xff xff xff xff)
(T (W x45 x26 x22 x84 xe4 x9c xf2 xcb)
(T (W x68 x00 x00 x00 x5c x00 x00 x00)
(L (W x03 x00 x00 x00 xd8 x00 x00 x00)) E)
(L (W xff xff xff xff xff xff xff xff)))
(T (W x00 x00 x00 x00 x00 x00 x00 x00)
(L (W xff xff xff xff xff xff xff xff))
(L (W x00 x00 x80 xbf x00 x00 x80 xbf))))
(T (W x45 x26 x22 x84 xe4 x9c xf2 xcb)
(T (W x45 x26 x22 x84 xe4 x9c xf2 xcb)
(T (W x00 x00 x00 x00 x00 x00 x00 x00)
(L (W x00 x00 x80 xbf x00 x00 x80 xbf)) E)
(L (W xff xff xff xff xff xff xff xff)))
(T (W x00 x00 x00 x00 x00 x00 x00 x00)
(L (W x00 x00 x00 x00 x00 x00 x00 x00))
(L (W x00 x00 x00 x00 x00 x00 x00 x00)))))
(T (W x8c xf3 xfb xff x0b x00 x00 x00)
(T (W xff xff xff xff xff xff xff xff)
(T (W x00 x00 x80 x3f x00 x00 x80 x3f)
(T (W x00 x00 x00 x00 x00 x00 x00 x00)
(L (W x00 x00 x00 x00 x00 x00 x00 x00)) E)
(L (W x45 x26 x22 x84 xe4 x9c xf2 xcb)))
(T (W xff xff xff xff xff xff xff xff)
(L (W x50 x00 x00 x00 x44 x00 x00 x00))
(L (W x00 x00 x80 xbf x00 x00 x80 xbf))))
(T (W x18 x00 x00 x00 x0c x00 x00 x00)
(T (W xff xff xff xff xff xff xff xff)
(T (W x60 x01 x00 x00 x97 x00 x00 x00)
(L (W x00 x00 x80 xbf x00 x00 x80 xbf)) E)
(L (W x00 x00 x00 x00 x00 x00 x00 x00)))
(T (W x00 x00 x00 x00 x00 x00 x00 x00)
(L (W x46 x53 x59 x53 x5f x4e x53 x5f))
(L (W x00 x00 x80 xbf x00 x00 x80 xbf))))))
(T (W x00 x00 x00 x00 x00 x00 x00 x00)
(T (W x00 x00 x00 x00 x00 x00 x00 x00)
(T (W xff xff xff xff xff xff xff xff)
(T (W x45 x26 x22 x84 xe4 x9c xf2 xcb)
(T (W x00 x00 x80 x3f x00 x00 x80 x3f)
(L (W xc4 x00 x00 x00 x01 x00 x00 x00)) E)
(L (W xff xff xff xff xff xff xff xff)))
(T (W x00 x00 x80 x3f x00 x00 x80 x3f)
(L (W x45 x26 x22 x84 xe4 x9c xf2 xcb))
(L (W x1c x00 x00 x00 x10 x00 x00 x00))))
(T (W xfc x5f xfc xff x00 x01 x01 x01)
(T (W x18 x00 x00 x00 x10 x00 x00 x00)
(T (W x45 x26 x22 x84 xe4 x9c xf2 xcb)
(L (W x00 x00 x00 x00 x00 x00 x00 x00)) E)
(L (W xca xdd xfe xff xdf x00 x00 x00)))
(T (W x6c x00 x00 x00 x60 x00 x00 x00)
(L (W x46 x53 x59 x53 x5f x4e x53 x5f))
(L (W xfc x5f xff xff x00 x01 x01 x01)))))
(T (W x00 x00 x00 x00 x02 x00 x00 x00)
(T (W xff xff xff xff xff xff xff xff)
(T (W x6c x00 x00 x00 x60 x00 x00 x00)
(T (W xff xff xff xff xff xff xff xff)
(L (W x00 x00 x00 x00 x00 x00 x00 x00)) E)
(L (W xfc xbf xfe xff x00 x01 x01 x01)))
(T (W x9c x01 x00 x00 xff xff xff xff)
(L (W x00 x00 x00 x00 x00 x00 x00 x00))
(L (W x4f x84 x6f x8b xe8 xcb x63 xb7))))
(T (W x54 x00 x00 x00 x48 x00 x00 x00)
(T (W x00 x00 x00 x00 x12 x00 x00 x00)
(T (W xff xff xff xff xb0 x00 x00 x00)
(L (W x00 x00 x00 x00 x0c x00 x08 x00)) E)
(L (W x00 x00 x00 x00 x00 x00 x00 x00)))
(T (W x00 x00 x00 x00 x00 x00 x00 x00)
(L (W x00 x00 x00 x00 x00 x00 x00 x00))
(L (W xff xff xff xff xff xff xff xff))))))))
(T (W x00 x00 x80 x3f x00 x00 x80 x3f)
(T (W x00 x00 x00 x00 x00 x00 x00 x00)
(T (W x00 x00 x00 x00 x00 x00 x00 x00)
(T (W x01 x00 x00 x00 x3e x00 x00 x00)
(T (W x68 x00 x00 x00 x5c x00 x00 x00)
(T (W xff xff xff xff xff xff xff xff)
(T (W x00 x00 x00 x00 x00 x00 x00 x00)
(L (W x00 x00 x00 x00 x00 x00 x00 x00)) E)
(L (W x00 x00 x80 xbf x00 x00 x80 xbf)))
(T (W xff xff xff xff x9c x00 x00 x00)
(L (W x00 x00 x00 x00 x00 x00 x00 x00))
(L (W xff xff xff xff xff xff xff xff))))
(T (W x45 x26 x22 x84 xe4 x9c xf2 xcb)
(T (W xff xff xff xff xff xff xff xff)
(T (W x00 x00 x80 x3f x00 x00 x80 x3f)
(L (W xff xff xff xff xff xff xff xff)) E)
(L (W x00 x00 x00 x00 x00 x00 x00 x00)))
(T (W xc8 x00 x00 x00 x01 x00 x00 x00)
(L (W x14 x00 x00 x00 x0c x00 x00 x00))
(L (W xb0 x00 x00 x00 x64 x00 x00 x00)))))
(T (W x50 x00 x00 x00 x44 x00 x00 x00)
(T (W x45 x26 x22 x84 xe4 x9c xf2 xcb)
(T (W xff xff xff xff xff xff xff xff)
(T (W xff xff xff xff xff xff xff xff)
(L (W x00 x00 x00 x00 x00 x00 x00 x00)) E)
(L (W x00 x00 x00 x00 x22 xbe xfe xff)))
(T (W x00 x00 x00 x00 x00 x00 x00 x00)
(L (W xff xff xff xff xff xff xff xff))
(L (W x46 x53 x59 x53 x5f x4e x53 x5f))))
(T (W x80 x7d x9e x72 x96 xab x52 x46)
(T (W x00 x00 x80 x3f x00 x00 x80 x3f)
(T (W xff xff xff xff xb0 x00 x00 x00)
(L (W x00 x00 x00 x00 x00 x00 x00 x00)) E)
(L (W x1f x00 x00 x00 x22 x00 x00 x00)))
(T (W x00 x00 x00 x00 x00 x00 x00 x00)
(L (W x40 x00 x00 x00 x00 x00 x80 xbf))
(L (W x00 x00 x00 x00 x00 x00 x00 x00))))))
(T (W x45 x26 x22 x84 xe4 x9c xf2 xcb)
(T (W x45 x26 x22 x84 xe4 x9c xf2 xcb)
(T (W x00 x00 x80 x3f x00 x00 x80 x3f)
(T (W xff xff xff xff xff xff xff xff)
(T (W x00 x00 x01 x01 xa6 x01 x00 x00)
(L (W x4f x84 x6f x8b xe8 xcb x63 xb7)) E)
(L (W x00 x00 x00 x00 x00 x00 x00 x00)))
(T (W xff xff xff xff xff xff xff xff)
(L (W x45 x26 x22 x84 xe4 x9c xf2 xcb))
(L (W x00 x00 x00 x00 x00 x00 x00 x00))))
(T (W x00 x00 x00 x00 x00 x00 x00 x00)
(T (W x8c xdf xfc xff x25 x00 x00 x00)
(T (W xff xff xff xff xff xff xff xff)
(L (W xff xff xff xff xb0 x00 x00 x00)) E)
(L (W x00 x00 x80 xbf x00 x00 x80 xbf)))
(T (W xff xff xff xff xff xff xff xff)
(L (W xb8 x00 x00 x00 x64 x00 x00 x00))
(L (W x00 x00 x00 x00 x00 x00 x00 x00)))))
(T (W x00 x00 x80 x3f x00 x00 x80 x3f)
(T (W x00 x00 x00 x00 x00 x00 x00 x00)
(T (W xff xff xff xff xff xff xff xff)
(T (W x00 x00 x00 x00 x02 x00 x00 x00)
(L (W xff xff xff xff xff xff xff xff)) E)
(L (W x45 x44 x00 x00 x00 x00 x00 x00)))
(T (W x00 x00 x80 x3f x00 x00 x80 x3f)
(L (W xff xff xff xff xff xff xff xff))
(L (W xff xff xff xff xbc x00 x00 x00))))
(T (W xff xff xff xff xff xff xff xff)
(T (W x45 x26 x22 x84 xe4 x9c xf2 xcb)
(T (W xff xff xff xff xff xff xff xff)
(L (W x00 x00 x80 xbf x00 x00 x80 xbf)) E)
(L (W xff xff xff xff xff xff xff xff)))
(T (W x18 x00 x00 x00 x10 x00 x00 x00)
(L (W x68 x7a xfe xff x92 xb5 xfe xff))
(L (W xff xff xff xff xff xff xff xff)))))))
(T (W x32 x9f xfb xff x74 x00 x00 x00)
(T (W xff xff xff xff x04 x00 x00 x00)
(T (W x68 x00 x00 x00 x5c x00 x00 x00)
(T (W x00 x00 x80 x3f x00 x00 x80 x3f)
(T (W x44 x00 x00 x00 xff xff xff xff)
(T (W x00 x00 x00 x00 x00 x00 x00 x00)
(L (W x00 x00 x00 x00 x00 x00 x00 x00)) E)
(L (W x00 x00 x80 xbf x00 x00 x80 xbf)))
(T (W xff xff xff xff xff xff xff xff)
(L (W x00 x00 x80 x3f x00 x00 x80 x3f))
(L (W xd0 x83 xd4 x61 xf7 xda xb2 x83))))
(T (W x00 x00 x00 x00 x00 x00 x00 x00)
(T (W xff xff xff xff xff xff xff xff)
(T (W xff xff xff xff xff xff xff xff)
(L (W xb8 x00 x00 x00 x1e x00 x00 x00)) E)
(L (W x45 x26 x22 x84 xe4 x9c xf2 xcb)))
(T (W xff xff xff xff xff xff xff xff)
(L (W xff xff xff xff xb0 x00 x00 x00))
(L (W xff xff xff xff xff xff xff xff)))))
(T (W x00 x00 x80 x3f x00 x00 x80 x3f)
(T (W x00 x00 x00 x00 x00 x00 x00 x00)
(T (W xff xff xff xff xff xff xff xff)
(T (W x00 x00 x00 x00 x6c xb2 xfd xff)
(L (W x50 x00 x00 x00 x44 x00 x00 x00)) E)
(L (W x00 x00 x00 x00 x00 x00 x00 x00)))
(T (W x00 x00 x00 x00 x00 x00 x00 x00)
(L (W x0c x00 x00 x00 x01 x01 x01 x01))
(L (W xff xff xff xff xff xff xff xff))))
(T (W x4c x00 x00 x00 xff xff xff xff)
(T (W x00 x00 x80 x3f x00 x00 x80 x3f)
(T (W x41 x57 x4e x5f x50 x48 x49 x4f)
(L (W x40 x04 x00 x00 x18 x03 x00 x00)) E)
(L (W xff xff xff xff xff xff xff xff)))
(T (W x45 x26 x22 x84 xe4 x9c xf2 xcb)
(L (W x5c x00 x00 x00 x50 x00 x00 x00))
(L (W xa0 x81 xa7 x28 xbf x47 x53 x6a))))))
(T (W x68 x00 x00 x00 x5c x00 x00 x00)
(T (W xfc xe3 xfb xff x00 x01 x01 x01)
(T (W x45 x26 x22 x84 xe4 x9c xf2 xcb)
(T (W xff xff xff xff xff xff xff xff)
(T (W xff xff xff xff xff xff xff xff)
(L (W x00 x00 x80 xbf x00 x00 x80 xbf)) E)
(L (W x00 x00 x00 x00 x08 x00 x00 x00)))
(T (W x02 x00 x00 x00 x2c x01 x00 x00)
(L (W x00 x00 x80 xbf x00 x00 x80 xbf))
(L (W x00 x00 x00 x00 x00 x00 x00 x00))))
(T (W x00 x00 x00 x00 x00 x00 x00 x00)
(T (W x00 x00 x00 x00 x00 x00 x00 x00)
(T (W x5c x00 x00 x00 x00 x00 x00 x00)
(L (W x32 xdf xff xff x74 x00 x00 x00)) E)
(L (W x50 x00 x00 x00 x44 x00 x00 x00)))
(T (W x00 x00 x00 x00 x00 x00 x00 x00)
(L (W xff xff xff xff xb0 x00 x00 x00))
(L (W x2c x00 x00 x00 x10 x00 x00 x00)))))
(T (W x50 x00 x00 x00 x44 x00 x00 x00)
(T (W x45 x26 x22 x84 xe4 x9c xf2 xcb)
(T (W x68 x00 x00 x00 x5c x00 x00 x00)
(T (W x00 x00 x80 x3f x00 x00 x80 x3f)
(L (W x45 x26 x22 x84 xe4 x9c xf2 xcb)) E)
(L (W x00 x00 x00 x00 x00 x00 x00 x00)))
(T (W x00 x00 x00 x00 x6c x42 xfd xff)
(L (W x1c x00 x00 x00 x10 x00 x00 x00))
(L (W xff xff xff xff xff xff xff xff))))
(T (W xff xff xff xff xff xff xff xff)
(T (W x1d x00 x00 x00 x20 x00 x00 x00)
(T (W x00 x00 x00 x00 x00 x00 x00 x00)
(L (W x00 x00 x0c x00 x10 x00 x14 x00)) E)
(L (W xff xff xff xff xff xff xff xff)))
(T (W xff xff xff xff xff xff xff xff)
(L (W x00 x00 x80 xbf x00 x00 x80 xbf))
(L (W x00 x00 x00 x00 x00 x00 x00 x00)))))))))
(T (W x00 x00 x80 x3f x00 x00 x80 x3f)
(T (W x00 x00 x00 x00 x00 x00 x00 x00)
(T (W x00 x00 x01 x01 x26 x02 x00 x00)
(T (W xc9 x01 x00 x00 xff xff xff xff)
(T (W x00 x00 x80 x3f x00 x00 x80 x3f)
(T (W x00 x00 x00 x00 x00 x00 x00 x00)
(T (W x18 x00 x00 x00 x10 x00 x00 x00)
(T (W xc4 x01 x00 x00 xff xff xff xff)
(L (W x46 x53 x59 x53 x5f x4e x53 x5f)) E)
(L (W x00 x00 x00 x00 x00 x00 x00 x00)))
(T (W x50 x00 x00 x00 x44 x00 x00 x00)
(L (W xff xff xff xff xff xff xff xff))
(L (W x00 x00 x80 xbf x00 x00 x80 xbf))))
(T (W x23 x00 x00 x00 xff xff xff xff)
(T (W x00 x00 x80 x3f x00 x00 x80 x3f)
(T (W x72 x64 x5f x6c x76 x31 x00 x00)
(L (W x54 x00 x00 x00 x48 x00 x00 x00)) E)
(L (W x00 x00 x00 x00 x00 x00 x00 x00)))
(T (W x00 x00 x80 x3f x00 x00 x80 x3f)
(L (W x00 x00 x80 xbf x00 x00 x80 xbf))
(L (W x68 x48 xff xff x92 x4b xff xff)))))
(T (W x45 x26 x22 x84 xe4 x9c xf2 xcb)
(T (W x00 x00 x00 x00 x00 x00 x00 x00)
(T (W x45 x26 x22 x84 xe4 x9c xf2 xcb)
(T (W x32 xa5 xfd xff x74 x00 x00 x00)
(L (W x45 x44 x00 x00 x00 x00 x00 x00)) E)
(L (W xff xff xff xff xff xff xff xff)))
(T (W xff xff xff xff xff xff xff xff)
(L (W x00 x00 x80 xbf x00 x00 x80 xbf))
(L (W xff xff xff xff xff xff xff xff))))
(T (W xb8 x00 x00 x00 xac x00 x00 x00)
(T (W x00 x00 x00 x00 x00 x00 x00 x00)
(T (W x40 x00 x44 x00 x48 x00 x4c x00)
(L (W xff xff xff xff xff xff xff xff)) E)
(L (W x4f x84 x6f x8b xe8 xcb x63 xb7)))
(T (W x00 x00 x00 x00 x02 x00 x00 x00)
(L (W x00 x00 x80 xbf x00 x00 x80 xbf))
(L (W xff xff xff xff xbc x00 x00 x00))))))
(T (W x45 x26 x22 x84 xe4 x9c xf2 xcb)
(T (W x00 x00 x00 x00 x00 x00 x00 x00)
(T (W xe4 x2d xfc xff x1b x00 x00 x00)
(T (W x32 x95 xfc xff x74 x00 x00 x00)
(T (W xff xff xff xff x03 x00 x00 x00)
(L (W x30 x33 x5f x43 x4c x45 x41 x52)) E)
(L (W x00 x00 x00 x00 x00 x00 x00 x00)))
(T (W x32 x15 xfd xff x74 x00 x00 x00)
(L (W x00 x00 x80 x3f x00 x00 x80 x3f))
(L (W xff xff xff xff xff xff xff xff))))
(T (W xff xff xff xff xff xff xff xff)
(T (W xff xff xff xff xff xff xff xff)
(T (W x00 x00 x80 x3f x00 x00 x80 x3f)
(L (W x00 x00 x80 xbf x00 x00 x80 xbf)) E)
(L (W x46 x53 x59 x53 x5f x4e x53 x5f)))
(T (W x1f x00 x00 x00 x22 x00 x00 x00)
(L (W x50 x00 x00 x00 x44 x00 x00 x00))
(L (W x18 x00 x00 x00 x10 x00 x00 x00)))))
(T (W x00 x00 x80 x3f x00 x00 x80 x3f)
(T (W x00 x00 x00 x00 x00 x00 x00 x00)
(T (W x68 x00 x00 x00 x00 x00 x62 x00)
(T (W x00 x00 x80 x3f x00 x00 x80 x3f)
(L (W x00 x00 x80 xbf x00 x00 x80 xbf)) E)
(L (W xff xff xff xff xff xff xff xff)))
(T (W x00 x00 x00 x00 x00 x00 x00 x00)
(L (W x00 x00 x80 xbf x00 x00 x80 xbf))
(L (W x32 x35 xff xff x74 x00 x00 x00))))
(T (W xff xff xff xff xff xff xff xff)
(T (W x00 x00 x00 x00 x00 x00 x00 x00)
(T (W x08 x00 x68 x00 x6c x00 x70 x00)
(L (W xff xff xff xff xff xff xff xff)) E)
(L (W x00 x00 x80 xbf x00 x00 x80 xbf)))
(T (W x00 x00 x80 x3f x00 x00 x80 x3f)
(L (W x00 x00 x80 xbf x00 x00 x80 xbf))
(L (W xff xff xff xff xbc x00 x00 x00)))))))
(T (W x14 x1d xa8 x00 x6f xb6 xe5 x1f)
(T (W x00 x00 x80 x3f x00 x00 x80 x3f)
(T (W x45 x26 x22 x84 xe4 x9c xf2 xcb)
(T (W x00 x00 x00 x00 x00 x00 x00 x00)
(T (W x01 x00 x00 x00 xa0 x00 x00 x00)
(T (W xff xff xff xff xff xff xff xff)
(L (W xff xff xff xff xff xff xff xff)) E)
(L (W x45 x44 x00 x00 x00 x00 x00 x00)))
(T (W xfc x11 xfd xff x00 x01 x01 x01)
(L (W x00 x00 x00 x00 x12 x00 x00 x00))
(L (W xb0 x00 x00 x00 x64 x00 x00 x00))))
(T (W x32 x6b xfe xff x00 x00 x01 x01)
(T (W x00 x00 x00 x00 x6c xd0 xfc xff)
(T (W x32 xcd xfd xff x74 x00 x00 x00)
(L (W x50 x00 x00 x00 x44 x00 x00 x00)) E)
(L (W x00 x00 x00 x00 x00 x00 x00 x00)))
(T (W xe2 x4e xfd xff x78 x00 x00 x00)
(L (W x00 x00 x80 xbf x00 x00 x80 xbf))
(L (W x45 x26 x22 x84 xe4 x9c xf2 xcb)))))
(T (W x00 x00 x80 x3f x00 x00 x80 x3f)
(T (W x00 x00 x00 x00 x00 x00 x00 x00)
(T (W x40 x00 x00 x00 x9c x00 x00 x00)
(T (W x00 x00 x80 x3f x00 x00 x80 x3f)
(L (W x45 x26 x22 x84 xe4 x9c xf2 xcb)) E)
(L (W xff xff xff xff xff xff xff xff)))
(T (W x00 x00 x00 x00 x8a x38 xfd xff)
(L (W x1c x00 x20 x00 x24 x00 x28 x00))
(L (W xff xff xff xff xff xff xff xff))))
(T (W xff xff xff xff xff xff xff xff)
(T (W x00 x00 x00 x00 x00 x00 x00 x00)
(T (W x00 x00 x80 x3f x00 x00 x80 x3f)
(L (W xc4 x00 x00 x00 x01 x00 x00 x00)) E)
(L (W x00 x00 x80 xbf x00 x00 x80 xbf)))
(T (W x00 x00 x00 x00 x00 x00 x00 x00)
(L (W x00 x00 x80 xbf x00 x00 x80 xbf))
(L (W xff xff xff xff xff xff xff xff))))))
(T (W x00 x00 x80 x3f x00 x00 x80 x3f)
(T (W x00 x00 x00 x00 x00 x00 x00 x00)
(T (W x01 x00 x00 x00 x04 x00 x00 x00)
(T (W x50 x00 x00 x00 x44 x00 x00 x00)
(T (W x00 x00 x00 x00 x6c xa0 xfd xff)
(L (W xb4 x05 x00 x00 x84 x04 x00 x00)) E)
(L (W x00 x00 x80 xbf x00 x00 x80 xbf)))
(T (W x03 x00 x00 x00 xcc x00 x00 x00)
(L (W x00 x00 x00 x00 x00 x00 x64 x00))
(L (W xff xff xff xff xff xff xff xff))))
(T (W xff xff xff xff xff xff xff xff)
(T (W x4b x00 x00 x00 xff xff xff xff)
(T (W x68 x00 x00 x00 x5c x00 x00 x00)
(L (W x00 x00 x80 xbf x00 x00 x80 xbf)) E)
(L (W x00 x00 x00 x00 x00 x00 x00 x00)))
(T (W xff xff xff xff xbc x00 x00 x00)
(L (W x4f x84 x6f x8b xe8 xcb x63 xb7))
(L (W xff xff xff xff xff xff xff xff)))))
(T (W x00 x00 x00 x00 x00 x00 x00 x00)
(T (W x7a x2f x42 x29 x6e x61 xe5 x13)
(T (W x00 x00 x00 x00 x00 x00 x00 x00)
(T (W x00 x00 x00 x00 x00 x00 x00 x00)
(L (W x00 x00 x80 xbf x00 x00 x80 xbf)) E)
(L (W xff xff xff xff xff xff xff xff)))
(T (W x00 x00 x00 x00 x00 x00 x00 x00)
(L (W x6c x00 x00 x00 x60 x00 x00 x00))
(L (W xe2 x3e xff xff x78 x00 x00 x00))))
(T (W xff xff xff xff xff xff xff xff)
(T (W x00 x00 x80 x3f x00 x00 x80 x3f)
(T (W xff xff xff xff xff xff xff xff)
(L (W x00 x00 x00 x00 x00 x00 x00 x00)) E)
(L (W x00 x00 x80 xbf x00 x00 x80 xbf)))
(T (W x54 x00 x00 x00 x48 x00 x00 x00)
(L (W x4f x84 x6f x8b xe8 xcb x63 xb7))
(L (W xca x7f xff xff x2e x00 x00 x00))))))))
(T (W x00 x00 x00 x00 x00 x00 x00 x00)
(T (W xff xff xff xff xff xff xff xff)
(T (W x45 x26 x22 x84 xe4 x9c xf2 xcb)
(T (W xff xff xff xff xff xff xff xff)
(T (W x18 x00 x00 x00 x0c x00 x00 x00)
(T (W x00 x00 x00 x00 x00 x00 x00 x00)
(T (W x45 x26 x22 x84 xe4 x9c xf2 xcb)
(L (W x45 x26 x22 x84 xe4 x9c xf2 xcb)) E)
(L (W x45 x26 x22 x84 xe4 x9c xf2 xcb)))
(T (W x00 x00 x00 x00 x00 x00 x00 x00)
(L (W x6c x00 x00 x00 x60 x00 x00 x00))
(L (W x00 x00 x00 x00 x00 x00 x00 x00))))
(T (W x00 x00 x80 x3f x00 x00 x80 x3f)
(T (W xd4 x73 x5a x26 x96 x95 x06 x58)
(T (W xff xff xff xff xff xff xff xff)
(L (W x00 x00 x00 x00 x00 x00 x00 x00)) E)
(L (W x00 x00 x80 xbf x00 x00 x80 xbf)))
(T (W x02 x00 x00 x00 xff xff xff xff)
(L (W xff xff xff xff xff xff xff xff))
(L (W x45 x44 x00 x00 x00 x00 x00 x00)))))
(T (W xff xff xff xff xff xff xff xff)
(T (W x18 x00 x00 x00 x0c x00 x00 x00)
(T (W x00 x00 x00 x00 x00 x00 x00 x00)
(T (W x18 x01 x00 x00 x04 x00 x00 x00)
(L (W x64 x00 x68 x00 x62 x00 x00 x00)) E)
(L (W x00 x00 x80 xbf x00 x00 x80 xbf)))
(T (W x00 x00 x80 x3f x00 x00 x80 x3f)
(L (W x00 x00 x00 x00 x00 x00 x00 x00))
(L (W x4f x84 x6f x8b xe8 xcb x63 xb7))))
(T (W x00 x00 x80 x3f x00 x00 x80 x3f)
(T (W xb8 x00 x00 x00 x32 x00 x00 x00)
(T (W xe9 x01 x00 x00 xff xff xff xff)
(L (W x18 x00 x1c x00 x20 x00 x24 x00)) E)
(L (W xff xff xff xff xff xff xff xff)))
(T (W xff xff xff xff x9c x00 x00 x00)
(L (W xff xff xff xff xff xff xff xff))
(L (W x00 x00 x00 x00 x12 x00 x00 x00))))))
(T (W xff xff xff xff xff xff xff xff)
(T (W xff xff xff xff xff xff xff xff)
(T (W x01 x00 x00 x00 x3c x00 x00 x00)
(T (W x00 x00 x00 x00 x00 x00 x00 x00)
(T (W x00 x00 x00 x00 x00 x00 x00 x00)
(L (W x45 x26 x22 x84 xe4 x9c xf2 xcb)) E)
(L (W xff xff xff xff x9c x00 x00 x00)))
(T (W x46 x53 x59 x53 x5f x4e x53 x5f)
(L (W x04 x00 x00 x00 x22 xec xff xff))
(L (W x00 x00 x80 xbf x00 x00 x80 xbf))))
(T (W x00 x00 x80 x3f x00 x00 x80 x3f)
(T (W x00 x00 x80 x3f x00 x00 x80 x3f)
(T (W x00 x00 x00 x00 x00 x00 x00 x00)
(L (W x54 x03 x00 x00 x24 x02 x00 x00)) E)
(L (W xff xff xff xff xb0 x00 x00 x00)))
(T (W x00 x00 x00 x00 x00 x00 x00 x00)
(L (W xff xff xff xff xff xff xff xff))
(L (W x00 x00 x00 x00 x00 x00 x00 x00)))))
(T (W x64 x00 x00 x00 x9c x00 x00 x00)
(T (W x00 x00 x80 x3f x00 x00 x80 x3f)
(T (W xc2 xd5 xfe xff x25 x00 x00 x00)
(T (W x00 x00 x80 x3f x00 x00 x80 x3f)
(L (W xaa xd1 xff xff xa9 x01 x00 x00)) E)
(L (W x00 x00 x80 xbf x00 x00 x80 xbf)))
(T (W x03 x00 x00 x00 xd4 x00 x00 x00)
(L (W xff xff xff xff xff xff xff xff))
(L (W x46 x53 x59 x53 x5f x4e x53 x5f))))
(T (W x00 x00 x00 x00 x00 x00 x00 x00)
(T (W xff xff xff xff xff xff xff xff)
(T (W x00 x00 x80 x3f x00 x00 x80 x3f)
(L (W xc6 x00 x00 x00 xff xff xff xff)) E)
(L (W x00 x00 x00 x00 x00 x00 x00 x00)))
(T (W x00 x00 x00 x00 x00 x00 x00 x00)
(L (W xff xff xff xff xb4 x00 x00 x00))
(L (W x1c x00 x00 x00 x10 x00 x00 x00)))))))
(T (W x2a x00 x00 x00 x67 x72 x6f x75)
(T (W x20 x01 x00 x00 x04 x00 x00 x00)
(T (W xff xff xff xff xff xff xff xff)
(T (W x2b x00 x00 x00 x9c x00 x00 x00)
(T (W x00 x00 x00 x00 x00 x00 x00 x00)
(T (W x45 x26 x22 x84 xe4 x9c xf2 xcb)
(L (W x32 x91 xff xff x74 x00 x00 x00)) E)
(L (W xff xff xff xff xb0 x00 x00 x00)))
(T (W x18 x00 x00 x00 x10 x00 x00 x00)
(L (W xff xff xff xff xff xff xff xff))
(L (W x00 x00 x80 xbf x00 x00 x80 xbf))))
(T (W x00 x00 x80 x3f x00 x00 x80 x3f)
(T (W x00 x00 x00 x00 x00 x00 x00 x00)
(T (W x18 x01 x00 x00 x04 x00 x00 x00)
(L (W xff xff xff xff xff xff xff xff)) E)
(L (W x68 x00 x00 x00 x5c x00 x00 x00)))
(T (W x5f x4e x53 x5f x30 x33 x5f x43)
(L (W xff xff xff xff xff xff xff xff))
(L (W x8c x59 xff xff x29 x00 x00 x00)))))
(T (W xff xff xff xff xff xff xff xff)
(T (W x68 x00 x00 x00 x5c x00 x00 x00)
(T (W xe4 xc9 xfc xff x3c x00 x00 x00)
(T (W xff xff xff xff xff xff xff xff)
(L (W xff xff xff xff xff xff xff xff)) E)
(L (W x45 x26 x22 x84 xe4 x9c xf2 xcb)))
(T (W x45 x26 x22 x84 xe4 x9c xf2 xcb)
(L (W xff xff xff xff xff xff xff xff))
(L (W x00 x00 x00 x00 x00 x00 x00 x00))))
(T (W x00 x00 x00 x00 x00 x00 x00 x00)
(T (W xff xff xff xff xff xff xff xff)
(T (W x38 x39 x5f x42 x00 x00 x00 x00)
(L (W x62 x00 x00 x00 xa7 x01 x00 x00)) E)
(L (W x00 x00 x00 x00 x12 xf2 xfe xff)))
(T (W xff xff xff xff xff xff xff xff)
(L (W xff xff xff xff xff xff xff xff))
(L (W x45 x26 x22 x84 xe4 x9c xf2 xcb))))))
(T (W xff xff xff xff xff xff xff xff)
(T (W xff xff xff xff xff xff xff xff)
(T (W x32 x21 xfc xff x74 x00 x00 x00)
(T (W x00 x00 x80 x3f x00 x00 x80 x3f)
(T (W x00 x00 x00 x00 x00 x00 x00 x00)
(L (W x50 x00 x00 x00 x44 x00 x00 x00)) E)
(L (W x00 x00 x80 xbf x00 x00 x80 xbf)))
(T (W x00 x00 x00 x00 x00 x00 x00 x00)
(L (W xff xff xff xff xff xff xff xff))
(L (W x00 x00 x00 x00 x00 x00 x00 x00))))
(T (W x45 x26 x22 x84 xe4 x9c xf2 xcb)
(T (W xe2 xe2 xfc xff x78 x00 x00 x00)
(T (W x45 x26 x22 x84 xe4 x9c xf2 xcb)
(L (W x00 x00 x00 x00 x00 x00 x00 x00)) E)
(L (W xff xff xff xff xff xff xff xff)))
(T (W x50 x00 x00 x00 x44 x00 x00 x00)
(L (W xff xff xff xff xff xff xff xff))
(L (W x45 x26 x22 x84 xe4 x9c xf2 xcb)))))
(T (W x00 x00 x00 x00 x6c x04 xfc xff)
(T (W x00 x00 x80 x3f x00 x00 x80 x3f)
(T (W xff xff xff xff xff xff xff xff)
(T (W x18 x00 x00 x00 x0c x00 x00 x00)
(L (W xff xff xff xff xff xff xff xff)) E)
(L (W x00 x00 x80 xbf x00 x00 x80 xbf)))
(T (W xff xff xff xff xff xff xff xff)
(L (W xff xff xff xff xff xff xff xff))
(L (W x0e xa7 xaa x28 xbf xd4 x56 x6a))))
(T (W x00 x00 x00 x00 x00 x00 x00 x00)
(T (W xff xff xff xff xff xff xff xff)
(L (W xff xff xff xff xff xff xff xff))
(L (W x45 x44 x00 x00 x00 x00 x00 x00)))
(T (W x00 x00 x00 x00 x00 x00 x00 x00)
(L (W xc4 x00 x00 x00 x01 x00 x00 x00))
(L (W x50 x00 x00 x00 x44 x00 x00 x00)))))))))))
(T (W x18 x71 x02 x00 x44 x6f x02 x00)
(T (W x50 xcb x01 x00 xa4 xc6 x01 x00)
(T (W x98 x6d x00 x00 x4c x6b x00 x00)
(T (W x00 x00 x00 x00 x00 x00 x00 x00)
(T (W xe4 x00 x00 x00 xb4 x00 x00 x00)
(T (W xb1 xd6 x12 x3b xef x41 xdd x3b)
(T (W x00 x00 x80 x3f x00 x00 x80 x3f)
(T (W x45 x26 x22 x84 xe4 x9c xf2 xcb)
(T (W xff xff xff xff xff xff xff xff)
(T (W xb2 xa0 xff xff x00 x00 x01 x01)
(L (W x00 x00 x00 x00 x00 x00 x00 x00)) E)
(L (W x00 x00 x80 xbf x00 x00 x80 xbf)))
(T (W xb2 x02 xfd xff x74 x00 x00 x00)
(L (W x03 x00 x00 x00 xf4 x00 x00 x00))
(L (W x1f x00 x00 x00 x22 x00 x00 x00))))
(T (W x00 x00 x00 x00 x00 x00 x00 x00)
(T (W x7c xc7 xfc xff x00 x01 x01 x01)
(T (W x00 x00 x00 x00 x00 x00 x00 x00)
(L (W xff xff xff xff xff xff xff xff)) E)
(L (W x00 x00 x00 x00 x00 x00 x00 x00)))
(T (W x7c x47 xfd xff x00 x01 x01 x01)
(L (W x00 x00 x00 x00 xec x45 xfe xff))
(L (W xff xff xff xff xbc x00 x00 x00)))))
(T (W x18 x00 x00 x00 x0c x00 x00 x00)
(T (W x00 x00 x80 x3f x00 x00 x80 x3f)
(T (W x62 xa4 xfc xff x78 x00 x00 x00)
(T (W xff xff xff xff xff xff xff xff)
(L (W x00 x00 x00 x00 x12 x00 x00 x00)) E)
(L (W x00 x00 x00 x00 x00 x00 x00 x00)))
(T (W x00 x00 x00 x00 x00 x00 x00 x00)
(L (W x50 x00 x00 x00 x44 x00 x00 x00))
(L (W xff xff xff xff xff xff xff xff))))
(T (W x00 x00 x00 x00 x00 x00 x00 x00)
(T (W x00 x00 x00 x00 x00 x00 x00 x00)
(T (W xb8 x00 x00 x00 xac x00 x00 x00)
(L (W x00 x00 x00 x00 x00 x00 x00 x00)) E)
(L (W x6c x00 x00 x00 x60 x00 x00 x00)))
(T (W x00 x00 x00 x00 x00 x00 x00 x00)
(L (W xac x26 xff xff x00 x00 x01 x01))
(L (W x45 x44 x00 x00 x00 x00 x00 x00))))))
(T (W x18 x00 x00 x00 x10 x00 x00 x00)
(T (W x00 x00 x80 x3f x00 x00 x80 x3f)
(T (W x45 x26 x22 x84 xe4 x9c xf2 xcb)
(T (W x64 x00 x00 x00 x9c x00 x00 x00)
(T (W xa9 x01 x00 x00 xff xff xff xff)
(L (W x00 x00 x00 x00 x00 x00 x00 x00)) E)
(L (W x00 x00 x80 xbf x00 x00 x80 xbf)))
(T (W xff xff xff xff xff xff xff xff)
(L (W xff xff xff xff xa0 x00 x00 x00))
(L (W x00 x00 x00 x00 x00 x00 x00 x00))))
(T (W x00 x00 x00 x00 x00 x00 x00 x00)
(T (W xff xff xff xff xff xff xff xff)
(T (W x00 x00 x00 x00 xec xd5 xfd xff)
(L (W xff xff xff xff xff xff xff xff)) E)
(L (W x00 x00 x80 xbf x00 x00 x80 xbf)))
(T (W xff xff xff xff xff xff xff xff)
(L (W x40 x00 x00 x00 x00 x00 x80 xbf))
(L (W xff xff xff xff xff xff xff xff)))))
(T (W x54 x00 x00 x00 x48 x00 x00 x00)
(T (W x45 x26 x22 x84 xe4 x9c xf2 xcb)
(T (W xff xff xff xff xff xff xff xff)
(T (W xb2 xb2 xfd xff x74 x00 x00 x00)
(L (W x54 x00 x00 x00 x48 x00 x00 x00)) E)
(L (W x46 x53 x59 x53 x5f x4e x53 x5f)))
(T (W x00 x00 x00 x00 x00 x00 x00 x00)
(L (W x45 x26 x22 x84 xe4 x9c xf2 xcb))
(L (W xff xff xff xff xff xff xff xff))))
(T (W xff xff xff xff xff xff xff xff)
(T (W x50 x00 x00 x00 x44 x00 x00 x00)
(T (W x00 x00 x00 x00 x00 x00 x00 x00)
(L (W x18 x00 x00 x00 x0c x00 x00 x00)) E)
(L (W x45 x26 x22 x84 xe4 x9c xf2 xcb)))
(T (W x50 x00 x00 x00 x44 x00 x00 x00)
(L (W xac x36 xff xff x00 x00 x01 x01))
(L (W x45 x44 x00 x00 x00 x00 x00 x00)))))))
(T (W xff xff xff xff xff xff xff xff)
(T (W x00 x00 x80 x3f x00 x00 x80 x3f)
(T (W x00 x00 x80 x3f x00 x00 x80 x3f)
(T (W x00 x00 x00 x00 x00 x00 x00 x00)
(T (W xff xff xff xff xff xff xff xff)
(T (W x00 x00 x00 x00 x00 x00 x00 x00)
(L (W x00 x00 x00 x00 x00 x00 x00 x00)) E)
(L (W x00 x00 x80 xbf x00 x00 x80 xbf)))
(T (W xff xff xff xff xb0 x00 x00 x00)
(L (W x00 x00 x80 x3f x00 x00 x80 x3f))
(L (W xff xff xff xff xff xff xff xff))))
(T (W x40 x00 x00 x00 x0c x00 x00 x00)
(T (W xff xff xff xff xbc x00 x00 x00)
(T (W x7c xcf xfd xff x00 x01 x01 x01)
(L (W xff xff xff xff xff xff xff xff)) E)
(L (W x00 x00 x00 x00 x00 x00 x00 x00)))
(T (W x45 x26 x22 x84 xe4 x9c xf2 xcb)
(L (W xff xff xff xff xb0 x00 x00 x00))
(L (W xc4 x00 x00 x00 x02 x00 x00 x00)))))
(T (W x00 x00 x80 x3f x00 x00 x80 x3f)
(T (W x00 x00 x00 x00 x00 x00 x00 x00)
(T (W xff xff xff xff xff xff xff xff)
(T (W x00 x00 x00 x00 xec xad xfd xff)
(L (W x14 x00 x00 x00 x0c x00 x00 x00)) E)
(L (W x00 x00 x00 x00 x00 x00 x00 x00)))
(T (W x00 x00 x00 x00 x00 x00 x00 x00)
(L (W xff xff xff xff xff xff xff xff))
(L (W xff xff xff xff xff xff xff xff))))
(T (W x00 x00 x00 x00 x04 x00 x00 x00)
(T (W x00 x00 x80 x3f x00 x00 x80 x3f)
(T (W x64 x03 xfe xff x21 x00 x00 x00)
(L (W xff xff xff xff xff xff xff xff)) E)
(L (W x62 xec xfe xff x78 x00 x00 x00)))
(T (W x00 x00 x80 x3f x00 x00 x80 x3f)
(L (W x62 x6c xfe xff x78 x00 x00 x00))
(L (W xff xff xff xff xff xff xff xff))))))
(T (W x40 x00 x00 x00 x9c x00 x00 x00)
(T (W x62 xdc xfb xff x78 x00 x00 x00)
(T (W x45 x26 x22 x84 xe4 x9c xf2 xcb)
(T (W xff xff xff xff x03 x00 x00 x00)
(T (W xff xff xff xff xff xff xff xff)
(L (W x00 x00 x00 x00 x00 x00 x00 x00)) E)
(L (W x4f x84 x6f x8b xe8 xcb x63 xb7)))
(T (W xff xff xff xff xff xff xff xff)
(L (W xff xff xff xff xff xff xff xff))
(L (W x00 x00 x00 x00 x00 x00 x00 x00))))
(T (W x00 x00 x00 x00 x00 x00 x00 x00)
(T (W x30 x33 x5f x43 x4c x45 x41 x52)
(T (W xff xff xff xff xff xff xff xff)
(L (W xff xff xff xff x8c x00 x00 x00)) E)
(L (W x00 x00 x80 xbf x00 x00 x80 xbf)))
(T (W xff xff xff xff x02 x00 x00 x00)
(L (W x00 x01 x01 x01 x62 x9a xfe xff))
(L (W x34 x01 x00 x00 x04 x00 x00 x00)))))
(T (W x00 x00 x80 x3f x00 x00 x80 x3f)
(T (W x00 x00 x00 x00 x00 x00 x00 x00)
(T (W x00 x00 x58 x00 x00 x00 x07 x00)
(T (W x00 x00 x80 x3f x00 x00 x80 x3f)
(L (W x18 x00 x00 x00 x1b x00 x00 x00)) E)
(L (W x00 x00 x00 x00 x00 x00 x00 x00)))
(T (W x00 x00 x80 x3f x00 x00 x80 x3f)
(L (W x18 x00 x00 x00 x0c x00 x00 x00))
(L (W xcc x00 x00 x00 x01 x00 x00 x00))))
(T (W x4b x00 x00 x00 xff xff xff xff)
(T (W x7c xff xfc xff x00 x01 x01 x01)
(T (W x00 x00 x00 x00 x00 x00 x00 x00)
(L (W x00 x00 x00 x00 x68 x00 x6c x00)) E)
(L (W xff xff xff xff x9c x00 x00 x00)))
(T (W xff xff xff xff xac x00 x00 x00)
(L (W x00 x00 x80 xbf x00 x00 x80 xbf))
(L (W x00 x00 x00 x00 x00 x00 x00 x00))))))))
(T (W xff xff xff xff xff xff xff xff)
(T (W x00 x00 x00 x00 xec x99 xfb xff)
(T (W xb2 xa6 xfb xff x74 x00 x00 x00)
(T (W x3e x00 x00 x00 x10 x00 x00 x00)
(T (W x6d x01 x00 x00 xff xff xff xff)
(T (W x00 x00 x80 x3f x00 x00 x80 x3f)
(T (W x68 x00 x00 x00 x5c x00 x00 x00)
(L (W xff xff xff xff xb0 x00 x00 x00)) E)
(L (W xff xff xff xff xff xff xff xff)))
(T (W x46 x53 x59 x53 x5f x4e x53 x5f)
(L (W x00 x00 x00 x00 xec x09 xfe xff))
(L (W x00 x00 x00 x00 x00 x00 x00 x00))))
(T (W xff xff xff xff x03 x00 x00 x00)
(T (W x00 x00 x00 x00 x00 x00 x00 x00)
(T (W xff xff xff xff xff xff xff xff)
(L (W x00 x00 x00 x00 x00 x00 x00 x00)) E)
(L (W xff xff xff xff xb0 x00 x00 x00)))
(T (W x64 x5f xfd xff x10 x00 x00 x00)
(L (W x30 x33 x5f x43 x4c x45 x41 x52))
(L (W x00 x00 x00 x00 x12 x00 x00 x00)))))
(T (W x8d x01 x00 x00 xff xff xff xff)
(T (W xff xff xff xff x04 x00 x00 x00)
(T (W x00 x00 x00 x00 x00 x00 x00 x00)
(T (W x00 x00 x00 x00 x00 x00 x00 x00)
(L (W x1b x00 x00 x00 x1e x00 x00 x00)) E)
(L (W x00 x00 x80 xbf x00 x00 x80 xbf)))
(T (W x18 x00 x00 x00 x0c x00 x00 x00)
(L (W x00 x00 x00 x00 x00 x00 x00 x00))
(L (W x00 x00 x00 x00 x80 x2b xff xff))))
(T (W x00 x00 x80 x3f x00 x00 x80 x3f)
(T (W xff xff xff xff xff xff xff xff)
(T (W x61 x64 x65 x72 x5f x77 x69 x6c)
(L (W x62 xe8 xff xff x78 x00 x00 x00)) E)
(L (W x90 x37 x54 x1d xca x9d x99 xfd)))
(T (W xb0 x00 x00 x00 x64 x00 x00 x00)
(L (W x8c x01 x00 x00 xff xff xff xff))
(L (W x54 x00 x00 x00 x48 x00 x00 x00))))))
(T (W x3e x00 x00 x00 x0c x00 x00 x00)
(T (W xae xd8 x46 xce xa2 x9b xad x24)
(T (W xff xff xff xff xff xff xff xff)
(T (W x45 x26 x22 x84 xe4 x9c xf2 xcb)
(T (W x00 x00 x80 x3f x00 x00 x80 x3f)
(L (W x03 x00 x00 x00 xd0 x00 x00 x00)) E)
(L (W xff xff xff xff xb4 x00 x00 x00)))
(T (W x00 x00 x80 x3f x00 x00 x80 x3f)
(L (W x45 x44 x00 x00 x00 x00 x00 x00))
(L (W x1f x00 x00 x00 x22 x00 x00 x00))))
(T (W x45 x26 x22 x84 xe4 x9c xf2 xcb)
(T (W x00 x00 x80 x3f x00 x00 x80 x3f)
(T (W x45 x26 x22 x84 xe4 x9c xf2 xcb)
(L (W x00 x00 x00 x00 x00 x00 x00 x00)) E)
(L (W xff xff xff xff xff xff xff xff)))
(T (W x00 x00 x80 x3f x00 x00 x80 x3f)
(L (W x00 x00 x00 x00 x12 x00 x00 x00))
(L (W x00 x00 x80 xbf x00 x00 x80 xbf)))))
(T (W xff xff xff xff xff xff xff xff)
(T (W xb8 x00 x00 x00 xac x00 x00 x00)
(T (W x74 x00 x04 x00 x68 x00 x08 x00)
(T (W x00 x00 x00 x00 x00 x00 x00 x00)
(L (W x0d x00 x00 x00 x10 x00 x00 x00)) E)
(L (W x54 x00 x00 x00 x48 x00 x00 x00)))
(T (W xff xff xff xff xff xff xff xff)
(L (W x00 x00 x00 x00 x00 x00 x00 x00))
(L (W x00 x00 x00 x00 x00 x00 x00 x00))))
(T (W x00 x00 x80 x3f x00 x00 x80 x3f)
(T (W x00 x00 x00 x00 x00 x00 x00 x00)
(T (W x18 x00 x1c x00 x04 x00 x05 x00)
(L (W xff xff xff xff xff xff xff xff)) E)
(L (W x00 x00 x00 x00 x00 x00 x00 x00)))
(T (W x4c x45 x41 x52 x45 x44 x00 x00)
(L (W x00 x00 x00 x00 x00 x00 x00 x00))
(L (W x00 x00 x80 xbf x00 x00 x80 xbf)))))))
(T (W x6f x79 x61 x62 x75 x6e x00 x00)
(T (W x00 x00 x00 x00 x00 x00 x00 x00)
(T (W x00 x00 x00 x00 x1a x1b xff xff)
(T (W xff xff xff xff xff xff xff xff)
(T (W x45 x26 x22 x84 xe4 x9c xf2 xcb)
(T (W x50 x00 x00 x00 x44 x00 x00 x00)
(L (W x45 x26 x22 x84 xe4 x9c xf2 xcb)) E)
(L (W xff xff xff xff xff xff xff xff)))
(T (W x45 x26 x22 x84 xe4 x9c xf2 xcb)
(L (W xff xff xff xff xff xff xff xff))
(L (W x00 x00 x80 xbf x00 x00 x80 xbf))))
(T (W x00 x00 x00 x00 xec x51 xfc xff)
(T (W x00 x00 x80 x3f x00 x00 x80 x3f)
(T (W x00 x00 x00 x00 x00 x00 x00 x00)
(L (W x00 x00 x00 x00 x12 x00 x00 x00)) E)
(L (W xff xff xff xff xc0 x00 x00 x00)))
(T (W x00 x00 x00 x00 x00 x00 x00 x00)
(L (W x00 x00 x00 x00 x00 x00 x00 x00))
(L (W x45 x26 x22 x84 xe4 x9c xf2 xcb)))))
(T (W xff xff xff xff xff xff xff xff)
(T (W x18 x00 x00 x00 x10 x00 x00 x00)
(T (W x45 x26 x22 x84 xe4 x9c xf2 xcb)
(T (W x00 x00 x00 x00 x00 x00 x00 x00)
(L (W xff xff xff xff x01 x00 x00 x00)) E)
(L (W x50 x00 x00 x00 x44 x00 x00 x00)))
(T (W xff xff xff xff x9c x00 x00 x00)
(L (W x00 x00 x01 x01 xa8 x01 x00 x00))
(L (W x00 x00 x80 xbf x00 x00 x80 xbf))))
(T (W x00 x00 x80 x3f x00 x00 x80 x3f)
(T (W xff xff xff xff xff xff xff xff)
(T (W x54 x00 x00 x00 x48 x00 x00 x00)
(L (W x00 x00 x80 xbf x00 x00 x80 xbf)) E)
(L (W x00 x00 x00 x00 x00 x00 x00 x00)))
(T (W x54 x02 x00 x00 x34 x01 x00 x00)
(L (W xff xff xff xff xff xff xff xff))
(L (W x00 x00 x80 xbf x00 x00 x80 xbf))))))
(T (W xb2 xdc xfd xff x00 x00 x01 x01)
(T (W x36 xcd x15 x8e x88 x88 x72 x04)
(T (W xff xff xff xff xff xff xff xff)
(T (W x00 x00 x00 x00 x00 x00 x00 x00)
(T (W x00 x00 x80 x3f x00 x00 x80 x3f)
(L (W xff xff xff xff xff xff xff xff)) E)
(L (W x00 x00 x80 xbf x00 x00 x80 xbf)))
(T (W x00 x00 x80 x3f x00 x00 x80 x3f)
(L (W xff xff xff xff xff xff xff xff))
(L (W x58 x00 x00 x00 x4c x00 x00 x00))))
(T (W x50 x00 x00 x00 x44 x00 x00 x00)
(T (W xc4 x00 x00 x00 x01 x00 x00 x00)
(T (W x00 x00 x00 x00 x00 x00 x00 x00)
(L (W x00 x00 x00 x00 x00 x00 x00 x00)) E)
(L (W xdf x00 x00 x00 xff xff xff xff)))
(T (W x00 x00 x80 x3f x00 x00 x80 x3f)
(L (W xfc x07 x00 x00 xd4 x06 x00 x00))
(L (W x00 x00 x80 xbf x00 x00 x80 xbf)))))
(T (W xff xff xff xff xff xff xff xff)
(T (W xc0 x00 x00 x00 xb4 x00 x00 x00)
(T (W x00 x00 x00 x00 x92 xbf xfc xff)
(T (W xff xff xff xff xff xff xff xff)
(L (W x45 x44 x00 x00 x00 x00 x00 x00)) E)
(L (W xff xff xff xff x9c x00 x00 x00)))
(T (W x00 x00 x00 x00 x00 x00 x00 x00)
(L (W x00 x00 x00 x00 x00 x00 x00 x00))
(L (W x00 x00 x00 x00 x00 x00 x00 x00))))
(T (W x00 x00 x80 x3f x00 x00 x80 x3f)
(T (W x18 x00 x00 x00 x10 x00 x00 x00)
(T (W x68 x00 x00 x00 x5c x00 x00 x00)
(L (W x00 x00 x80 xbf x00 x00 x80 xbf)) E)
(L (W x49 xa1 x68 x4a xeb x5f xdd x3d)))
(T (W x45 x26 x22 x84 xe4 x9c xf2 xcb)
(L (W xff xff xff xff xff xff xff xff))
(L (W x18 x00 x00 x00 x10 x00 x00 x00)))))))))
(T (W xff xff xff xff xff xff xff xff)
(T (W x50 x00 x00 x00 x44 x00 x00 x00)
(T (W x00 x00 x00 x00 x00 x00 x00 x00)
(T (W x45 x26 x22 x84 xe4 x9c xf2 xcb)
(T (W xff xff xff xff xff xff xff xff)
(T (W x01 x00 x00 x00 xa0 x00 x00 x00)
(T (W x00 x00 x00 x00 x00 x00 x00 x00)
(T (W x00 x00 x00 x00 x00 x00 x00 x00)
(L (W x00 x00 x00 x00 x80 x89 xff xff)) E)
(L (W xff xff xff xff x8c x00 x00 x00)))
(T (W xff xff xff xff xff xff xff xff)
(L (W x00 x00 x00 x00 x00 x00 x00 x00))
(L (W xff xff xff xff xff xff xff xff))))
(T (W x00 x00 x80 x3f x00 x00 x80 x3f)
(T (W xff xff xff xff xff xff xff xff)
(T (W x00 x00 x80 x3f x00 x00 x80 x3f)
(L (W xff xff xff xff xff xff xff xff)) E)
(L (W x00 x00 x80 xbf x00 x00 x80 xbf)))
(T (W xff xff xff xff xff xff xff xff)
(L (W xff xff xff xff xff xff xff xff))
(L (W x00 x00 x00 x00 x00 x00 x00 x00)))))
(T (W xff xff xff xff xff xff xff xff)
(T (W x54 x00 x00 x00 x48 x00 x00 x00)
(T (W x00 x00 x00 x00 x00 x00 x00 x00)
(T (W x18 x01 x00 x00 x04 x00 x00 x00)
(L (W x54 x00 x00 x00 x48 x00 x00 x00)) E)
(L (W x00 x00 x00 x00 x00 x00 x00 x00)))
(T (W x4f x84 x6f x8b xe8 xcb x63 xb7)
(L (W xff xff xff xff xff xff xff xff))
(L (W x00 x00 x00 x00 x00 x00 x00 x00))))
(T (W x00 x00 x00 x00 x00 x00 x00 x00)
(T (W x45 x26 x22 x84 xe4 x9c xf2 xcb)
(T (W x00 x00 x00 x00 x00 x00 x00 x00)
(L (W x00 x00 x80 xbf x00 x00 x80 xbf)) E)
(L (W xcc x00 x00 x00 x01 x00 x00 x00)))
(T (W x00 x00 x80 x3f x00 x00 x80 x3f)
(L (W xff xff xff xff xff xff xff xff))
(L (W x00 x00 x00 x00 x00 x00 x00 x00))))))
(T (W xff xff xff xff xff xff xff xff)
(T (W x64 x00 x00 x00 x9c x00 x00 x00)
(T (W x00 x00 x80 x3f x00 x00 x80 x3f)
(T (W x01 x00 x00 x00 x04 x00 x00 x00)
(T (W x00 x00 x00 x00 x00 x00 x00 x00)
(L (W x6c x00 x00 x00 x60 x00 x00 x00)) E)
(L (W xe8 x97 xfe xff x12 xd3 xfe xff)))
(T (W x00 x00 x00 x00 x00 x00 x00 x00)
(L (W xff xff xff xff xff xff xff xff))
(L (W x00 x00 x00 x00 x00 x00 x00 x00))))
(T (W x00 x00 x00 x00 x00 x00 x00 x00)
(T (W x00 x00 x00 x00 x00 x00 x00 x00)
(T (W xff xff xff xff xff xff xff xff)
(L (W xff xff xff xff xff xff xff xff)) E)
(L (W x62 xd6 xfe xff x78 x00 x00 x00)))
(T (W x13 x00 x00 x00 x0c x00 x00 x00)
(L (W xff xff xff xff xff xff xff xff))
(L (W x30 x33 x5f x43 x4c x45 x41 x52)))))
(T (W xff xff xff xff xff xff xff xff)
(T (W x7c x39 xfc xff x00 x01 x01 x01)
(T (W x00 x00 x80 x3f x00 x00 x80 x3f)
(T (W xff xff xff xff xff xff xff xff)
(L (W xff xff xff xff xff xff xff xff)) E)
(L (W x49 xa1 x68 x4a xeb x5f xdd x3d)))
(T (W x45 x26 x22 x84 xe4 x9c xf2 xcb)
(L (W xff xff xff xff xff xff xff xff))
(L (W x00 x00 x00 x00 x00 x00 x00 x00))))
(T (W x45 x26 x22 x84 xe4 x9c xf2 xcb)
(T (W xff xff xff xff x9c x00 x00 x00)
(T (W x00 x00 x00 x00 x00 x00 x00 x00)
(L (W x6c x00 x08 x00 x0c x00 x00 x00)) E)
(L (W xff xff xff xff xff xff xff xff)))
(T (W xff xff xff xff xff xff xff xff)
(L (W xff xff xff xff xff xff xff xff))
(L (W x00 x00 x00 x00 x00 x00 x00 x00)))))))
(T (W x00 x00 x00 x00 x00 x00 x00 x00)
(T (W xff xff xff xff xff xff xff xff)
(T (W xff xff xff xff x04 x00 x00 x00)
(T (W xb2 x0c xfc xff x74 x00 x00 x00)
(T (W x0c x95 xfc xff x3e x00 x00 x00)
(T (W x45 x26 x22 x84 xe4 x9c xf2 xcb)
(L (W x00 x00 x80 xbf x00 x00 x80 xbf)) E)
(L (W x5c x00 x00 x00 x50 x00 x00 x00)))
(T (W x34 x01 x00 x00 x04 x00 x00 x00)
(L (W x7c x11 xfe xff x00 x01 x01 x01))
(L (W x00 x00 x00 x00 x12 x00 x00 x00))))
(T (W x00 x00 x80 x3f x00 x00 x80 x3f)
(T (W x00 x00 x00 x00 x00 x00 x00 x00)
(T (W x18 x01 x00 x00 x04 x00 x00 x00)
(L (W x6b x01 x00 x00 xff xff xff xff)) E)
(L (W xb2 xcc xfe xff x74 x00 x00 x00)))
(T (W xe2 x5b xfd xff x9d x01 x00 x00)
(L (W xff xff xff xff xff xff xff xff))
(L (W x74 x03 x00 x00 x4c x02 x00 x00)))))
(T (W xff xff xff xff xff xff xff xff)
(T (W xb2 x2c xfc xff x74 x00 x00 x00)
(T (W x00 x00 x00 x00 x00 x00 x00 x00)
(T (W xff xff xff xff xff xff xff xff)
(L (W xff xff xff xff xff xff xff xff)) E)
(L (W x45 x26 x22 x84 xe4 x9c xf2 xcb)))
(T (W x00 x00 x80 x3f x00 x00 x80 x3f)
(L (W x00 x00 x00 x00 x00 x00 x00 x00))
(L (W x00 x00 x00 x00 x00 x00 x00 x00))))
(T (W x00 x00 x00 x00 x00 x00 x00 x00)
(T (W x1f x00 x00 x00 x22 x00 x00 x00)
(T (W xff xff xff xff xff xff xff xff)
(L (W x00 x00 x00 x00 x00 x00 x00 x00)) E)
(L (W xff xff xff xff xff xff xff xff)))
(T (W xc0 x00 x00 x00 x01 x00 x00 x00)
(L (W xff xff xff xff xff xff xff xff))
(L (W x00 x00 x00 x00 x00 x00 x00 x00))))))
(T (W xff xff xff xff xff xff xff xff)
(T (W xb8 x00 x00 x00 xac x00 x00 x00)
(T (W x00 x00 x80 x3f x00 x00 x80 x3f)
(T (W xff xff xff xff x01 x00 x00 x00)
(T (W x00 x00 x00 x00 x00 x00 x00 x00)
(L (W x00 x00 x80 xbf x00 x00 x80 xbf)) E)
(L (W xff xff xff xff xff xff xff xff)))
(T (W x00 x00 x00 x00 x00 x00 x00 x00)
(L (W x00 x00 x00 x00 x00 x00 x00 x00))
(L (W x45 x26 x22 x84 xe4 x9c xf2 xcb))))
(T (W x00 x00 x00 x00 x00 x00 x00 x00)
(T (W x00 x00 x80 x3f x00 x00 x80 x3f)
(T (W xb2 xfa xff xff x00 x00 x01 x01)
(L (W xff xff xff xff xff xff xff xff)) E)
(L (W x18 x00 x00 x00 x10 x00 x00 x00)))
(T (W x00 x00 x00 x00 x00 x00 x00 x00)
(L (W x03 x00 x00 x00 xd0 x00 x00 x00))
(L (W x45 x26 x22 x84 xe4 x9c xf2 xcb)))))
(T (W x18 x00 x00 x00 x10 x00 x00 x00)
(T (W x00 x00 x80 x3f x00 x00 x80 x3f)
(T (W x45 x26 x22 x84 xe4 x9c xf2 xcb)
(T (W x45 x26 x22 x84 xe4 x9c xf2 xcb)
(L (W xff xff xff xff xff xff xff xff)) E)
(L (W x00 x00 x00 x00 x00 x00 x00 x00)))
(T (W x18 x00 x00 x00 x10 x00 x00 x00)
(L (W xb2 x5c xfe xff x0d x01 x00 x00))
(L (W x2a x55 xff xff x2f x00 x00 x00))))
(T (W x00 x00 x00 x00 x00 x00 x00 x00)
(T (W xff xff xff xff xff xff xff xff)
(T (W x00 x00 x80 x3f x00 x00 x80 x3f)
(L (W xff xff xff xff x9c x00 x00 x00)) E)
(L (W xff xff xff xff xff xff xff xff)))
(T (W x8e x01 x00 x00 xff xff xff xff)
(L (W xff xff xff xff xff xff xff xff))
(L (W x00 x00 x80 xbf x00 x00 x80 xbf))))))))
(T (W xb2 x90 xfb xff x74 x00 x00 x00)
(T (W x5f x77 x69 x6c x64 x5f x70 x6f)
(T (W x00 x00 x00 x00 x00 x00 x00 x00)
(T (W x45 x26 x22 x84 xe4 x9c xf2 xcb)
(T (W x00 x00 x00 x00 x00 x00 x00 x00)
(T (W xb2 x88 xfc xff x74 x00 x00 x00)
(T (W xff xff xff xff xff xff xff xff)
(L (W x64 x03 x00 x00 x34 x02 x00 x00)) E)
(L (W x45 x44 x00 x00 x00 x00 x00 x00)))
(T (W x00 x00 x80 x3f x00 x00 x80 x3f)
(L (W x00 x00 x00 x00 x92 x09 xfe xff))
(L (W x68 x00 x00 x00 x5c x00 x00 x00))))
(T (W xff xff xff xff xff xff xff xff)
(T (W x00 x00 x80 x3f x00 x00 x80 x3f)
(T (W x00 x00 x80 x3f x00 x00 x80 x3f)
(L (W x45 x26 x22 x84 xe4 x9c xf2 xcb)) E)
(L (W xff xff xff xff xff xff xff xff)))
(T (W x00 x00 x80 x3f x00 x00 x80 x3f)
(L (W x49 xa1 x68 x4a xeb x5f xdd x3d))
(L (W x54 x00 x00 x00 x48 x00 x00 x00)))))
(T (W x00 x00 x00 x00 x00 x00 x00 x00)
(T (W x40 x00 x00 x00 x10 x00 x00 x00)
(T (W xb2 xa8 xfc xff x74 x00 x00 x00)
(T (W x00 x00 x80 x3f x00 x00 x80 x3f)
(L (W x00 x00 x00 x00 x06 x00 x00 x00)) E)
(L (W xff xff xff xff xff xff xff xff)))
(T (W xff xff xff xff xff xff xff xff)
(L (W x8c xf9 xff xff x01 x01 x01 x01))
(L (W xcc x00 x00 x00 x01 x00 x00 x00))))
(T (W xff xff xff xff xff xff xff xff)
(T (W x00 x00 x00 x00 x12 x00 x00 x00)
(T (W x00 x00 x80 xbf x00 x00 x80 xbf)
(L (W x49 xa1 x68 x4a xeb x5f xdd x3d)) E)
(L (W x00 x00 x80 xbf x00 x00 x80 xbf)))
(T (W x46 x53 x59 x53 x5f x4e x53 x5f)
(L (W x00 x00 x80 xbf x00 x00 x80 xbf))
(L (W x7c x6d xff xff x00 x01 x01 x01))))))
(T (W x00 x00 x80 x3f x00 x00 x80 x3f)
(T (W x00 x00 x00 x00 x00 x00 x00 x00)
(T (W x1d x00 x00 x00 x10 x00 x00 x00)
(T (W x45 x26 x22 x84 xe4 x9c xf2 xcb)
(T (W x00 x00 x00 x00 xec x9b xfd xff)
(L (W x00 x00 x00 x00 x04 x00 x00 x00)) E)
(L (W x30 x33 x5f x43 x4c x45 x41 x52)))
(T (W x62 x1a xfd xff x78 x00 x00 x00)
(L (W x00 x00 x80 xbf x00 x00 x80 xbf))
(L (W xff xff xff xff xff xff xff xff))))
(T (W xff xff xff xff xff xff xff xff)
(T (W xff xff xff xff xff xff xff xff)
(T (W x68 x00 x00 x00 x5c x00 x00 x00)
(L (W x00 x00 x80 xbf x00 x00 x80 xbf)) E)
(L (W x0c xe1 xfe xff x1f x00 x00 x00)))
(T (W x00 x00 x00 x00 xec x5b xfd xff)
(L (W x00 x00 x80 xbf x00 x00 x80 xbf))
(L (W xff xff xff xff xac x00 x00 x00)))))
(T (W x00 x00 x00 x00 x00 x00 x00 x00)
(T (W xff xff xff xff xff xff xff xff)
(T (W x00 x00 x80 x3f x00 x00 x80 x3f)
(T (W xff xff xff xff xff xff xff xff)
(L (W x00 x00 x80 xbf x00 x00 x80 xbf)) E)
(L (W xff xff xff xff xff xff xff xff)))
(T (W x00 x00 x00 x00 x00 x00 x00 x00)
(L (W x00 x00 x80 xbf x00 x00 x80 xbf))
(L (W x00 x00 x00 x00 x80 x3d xff xff))))
(T (W x7c x7d xfc xff x00 x01 x01 x01)
(T (W x00 x00 x00 x00 x00 x00 x00 x00)
(T (W xff xff xff xff xff xff xff xff)
(L (W x00 x00 x80 xbf x00 x00 x80 xbf)) E)
(L (W x50 x00 x00 x00 x44 x00 x00 x00)))
(T (W x00 x00 x80 x3f x00 x00 x80 x3f)
(L (W x00 x00 x00 x00 x00 x00 x00 x00))
(L (W x00 x00 x00 x00 x00 x00 x00 x00)))))))
(T (W x00 x00 x80 x3f x00 x00 x80 x3f)
(T (W x00 x00 x80 x3f x00 x00 x80 x3f)
(T (W x00 x00 x80 x3f x00 x00 x80 x3f)
(T (W x00 x00 x00 x00 x00 x00 x00 x00)
(T (W x00 x00 x00 x00 xec x93 xfc xff)
(T (W xff xff xff xff x03 x00 x00 x00)
(L (W x00 x00 x00 x00 xa2 xa7 xff xff)) E)
(L (W x00 x00 x00 x00 x00 x00 x00 x00)))
(T (W x00 x00 x80 x3f x00 x00 x80 x3f)
(L (W x00 x00 x00 x00 x00 x00 x00 x00))
(L (W xff xff xff xff xff xff xff xff))))
(T (W xff xff xff xff xff xff xff xff)
(T (W x18 x00 x00 x00 x0c x00 x00 x00)
(T (W x00 x00 x80 x3f x00 x00 x80 x3f)
(L (W x00 x00 x80 xbf x00 x00 x80 xbf)) E)
(L (W xff xff xff xff x01 x00 x00 x00)))
(T (W xb2 x50 xfd xff x74 x00 x00 x00)
(L (W x00 x00 x80 xbf x00 x00 x80 xbf))
(L (W x00 x00 x80 xbf x00 x00 x80 xbf)))))
(T (W x00 x00 x00 x00 x00 x00 x00 x00)
(T (W xb2 x4e xfe xff x00 x00 x01 x01)
(T (W x00 x00 x80 x3f x00 x00 x80 x3f)
(T (W x00 x00 x80 x3f x00 x00 x80 x3f)
(L (W x49 xa1 x68 x4a xeb x5f xdd x3d)) E)
(L (W xb8 x00 x00 x00 x64 x00 x00 x00)))
(T (W x00 x00 x00 x00 x00 x00 x00 x00)
(L (W x45 x26 x22 x84 xe4 x9c xf2 xcb))
(L (W xb2 x30 xff xff x74 x00 x00 x00))))
(T (W x64 x00 x00 x00 x9c x00 x00 x00)
(T (W x00 x00 x00 x00 x00 x00 x00 x00)
(T (W x00 x00 x00 x00 x00 x00 x00 x00)
(L (W x4c x45 x41 x52 x45 x44 x00 x00)) E)
(L (W x00 x00 x80 xbf x00 x00 x80 xbf)))
(T (W x45 x26 x22 x84 xe4 x9c xf2 xcb)
(L (W x00 x00 x00 x00 x00 x00 x00 x00))
(L (W xff xff xff xff xbc x00 x00 x00))))))
(T (W x45 x26 x22 x84 xe4 x9c xf2 xcb)
(T (W x00 x00 x80 x3f x00 x00 x80 x3f)
(T (W x00 x00 x00 x00 x00 x00 x00 x00)
(T (W xff xff xff xff xff xff xff xff)
(T (W xb2 xa0 xfd xff x74 x00 x00 x00)
(L (W xf0 x00 x00 x00 xff xff xff xff)) E)
(L (W xff xff xff xff xff xff xff xff)))
(T (W xb0 x00 x00 x00 x64 x00 x00 x00)
(L (W x00 x00 x00 x00 x00 x00 x00 x00))
(L (W xb0 x00 x00 x00 x05 x00 x00 x00))))
(T (W xff xff xff xff xff xff xff xff)
(T (W x2c x01 x00 x00 x04 x00 x00 x00)
(T (W x00 x00 x00 x00 x00 x00 x00 x00)
(L (W xbc x00 x00 x00 x02 x00 x00 x00)) E)
(L (W x00 x00 x80 xbf x00 x00 x80 xbf)))
(T (W xff xff xff xff xff xff xff xff)
(L (W x00 x00 x80 xbf x00 x00 x80 xbf))
(L (W xff xff xff xff xff xff xff xff)))))
(T (W x00 x00 x00 x00 x00 x00 x00 x00)
(T (W xff xff xff xff xff xff xff xff)
(T (W x4f x84 x6f x8b xe8 xcb x63 xb7)
(T (W x31 x00 x00 x00 x10 x00 x00 x00)
(L (W x00 x00 x80 xbf x00 x00 x80 xbf)) E)
(L (W xff xff xff xff xff xff xff xff)))
(T (W x00 x00 x00 x00 x00 x00 x00 x00)
(L (W x45 x26 x22 x84 xe4 x9c xf2 xcb))
(L (W x00 x00 x80 xbf x00 x00 x80 xbf))))
(T (W x50 x00 x00 x00 x44 x00 x00 x00)
(T (W x00 x00 x80 x3f x00 x00 x80 x3f)
(T (W x30 x33 x5f x43 x4c x45 x41 x52)
(L (W x00 x00 x00 x00 x00 x00 x00 x00)) E)
(L (W x54 x00 x00 x00 x48 x00 x00 x00)))
(T (W xb2 x80 xfd xff x74 x00 x00 x00)
(L (W x00 x00 x00 x00 x00 x00 x00 x00))
(L (W x37 x00 x00 x00 xff xff xff xff))))))))))
(T (W x30 x00 x01 x00 xe4 xfd x00 x00)
(T (W xff xff xff xff xff xff xff xff)
(T (W x00 x00 x80 x3f x00 x00 x80 x3f)
(T (W x61 x72 x6c x69 x6b x65 x5f x6c)
(T (W x00 x00 x00 x00 x00 x00 x00 x00)
(T (W x18 x00 x00 x00 x0c x00 x00 x00)
(T (W x00 x00 x80 x3f x00 x00 x80 x3f)
(T (W x00 x00 x00 x00 x02 x00 x00 x00)
(T (W x00 x00 x00 x00 x00 x00 x00 x00)
(L (W x00 x00 x80 xbf x00 x00 x80 xbf)) E)
(L (W x00 x00 x00 x00 x80 x88 xfe xff)))
(T (W xff xff xff xff xff xff xff xff)
(L (W x70 x5f x6c x65 x61 x64 x65 x72))
(L (W xff xff xff xff xff xff xff xff))))
(T (W x00 x00 x00 x00 x00 x00 x00 x00)
(T (W xb0 x00 x00 x00 x64 x00 x00 x00)
(T (W x00 x00 x80 x3f x00 x00 x80 x3f)
(L (W xc6 x00 x00 x00 xff xff xff xff)) E)
(L (W x00 x00 x00 x00 x00 x00 x00 x00)))
(T (W xbc x00 x00 x00 x14 x00 x00 x00)
(L (W xff xff xff xff xff xff xff xff))
(L (W xff xff xff xff xff xff xff xff)))))
(T (W x0a x00 x00 x00 x3e x00 x00 x00)
(T (W x00 x00 x80 x3f x00 x00 x80 x3f)
(T (W x3b x00 x00 x00 xff xff xff xff)
(T (W xff xff xff xff xff xff xff xff)
(L (W x45 x26 x22 x84 xe4 x9c xf2 xcb)) E)
(L (W x00 x00 x00 x00 x00 x00 x00 x00)))
(T (W x00 x00 x00 x00 x00 x00 x00 x00)
(L (W xb0 x00 x00 x00 x64 x00 x00 x00))
(L (W x2c x00 x00 x00 x0c x00 x00 x00))))
(T (W x00 x00 x00 x00 x00 x00 x00 x00)
(T (W x00 x00 x80 x3f x00 x00 x80 x3f)
(T (W x00 x00 x00 x00 x00 x00 x00 x00)
(L (W x00 x00 x00 x00 x00 x00 x00 x00)) E)
(L (W x18 x00 x00 x00 x10 x00 x00 x00)))
(T (W x4f x84 x6f x8b xe8 xcb x63 xb7)
(L (W xff xff xff xff xb0 x00 x00 x00))
(L (W x00 x00 x00 x00 x00 x00 x00 x00))))))
(T (W xb8 x00 x00 x00 xac x00 x00 x00)
(T (W x00 x00 x80 x3f x00 x00 x80 x3f)
(T (W x45 x26 x22 x84 xe4 x9c xf2 xcb)
(T (W xff xff xff xff xff xff xff xff)
(T (W x00 x00 x00 x00 x00 x00 x00 x00)
(L (W x45 x26 x22 x84 xe4 x9c xf2 xcb)) E)
(L (W x00 x00 x80 xbf x00 x00 x80 xbf)))
(T (W xff xff xff xff xff xff xff xff)
(L (W xff xff xff xff xff xff xff xff))
(L (W x00 x00 x00 x00 x00 x00 x00 x00))))
(T (W x00 x00 x00 x00 x00 x00 x00 x00)
(T (W x45 x44 x00 x00 x00 x00 x00 x00)
(T (W xff xff xff xff xff xff xff xff)
(L (W xff xff xff xff xff xff xff xff)) E)
(L (W x50 x00 x00 x00 x44 x00 x00 x00)))
(T (W xff xff xff xff xff xff xff xff)
(L (W xff xff xff xff xff xff xff xff))
(L (W x4a x56 xff xff x25 x00 x00 x00)))))
(T (W xb2 xf3 xfb xff x74 x00 x00 x00)
(T (W x00 x00 x80 x3f x00 x00 x80 x3f)
(T (W x00 x00 x00 x00 x00 x00 x00 x00)
(T (W x00 x00 x00 x00 xec xb6 xfd xff)
(L (W x45 x26 x22 x84 xe4 x9c xf2 xcb)) E)
(L (W x00 x00 x00 x00 x00 x00 x00 x00)))
(T (W x00 x00 x80 x3f x00 x00 x80 x3f)
(L (W xff xff xff xff xff xff xff xff))
(L (W xff xff xff xff xff xff xff xff))))
(T (W x0c x7c xfc xff x3c x00 x00 x00)
(T (W x62 xf5 xfc xff x78 x00 x00 x00)
(T (W xff xff xff xff xff xff xff xff)
(L (W xff xff xff xff xff xff xff xff)) E)
(L (W xff xff xff xff xc4 x00 x00 x00)))
(T (W x03 x00 x00 x00 xd4 x00 x00 x00)
(L (W xff xff xff xff xb0 x00 x00 x00))
(L (W x00 x00 x00 x00 x00 x00 x00 x00)))))))
(T (W x67 x72 x6f x75 x70 x5f x6c x65)
(T (W x00 x00 x80 x3f x00 x00 x80 x3f)
(T (W xb2 xcb xfb xff x74 x00 x00 x00)
(T (W x00 x00 x80 x3f x00 x00 x80 x3f)
(T (W xff xff xff xff xff xff xff xff)
(T (W x00 x00 x00 x00 x00 x00 x00 x00)
(L (W x49 xa1 x68 x4a xeb x5f xdd x3d)) E)
(L (W x00 x00 x80 xbf x00 x00 x80 xbf)))
(T (W xff xff xff xff xff xff xff xff)
(L (W x00 x00 x80 x3f x00 x00 x80 x3f))
(L (W x00 x00 x00 x00 x02 x00 x00 x00))))
(T (W x00 x00 x00 x00 x00 x00 x00 x00)
(T (W xff xff xff xff xff xff xff xff)
(T (W x45 x26 x22 x84 xe4 x9c xf2 xcb)
(L (W xff xff xff xff xff xff xff xff)) E)
(L (W x00 x00 x80 xbf x00 x00 x80 xbf)))
(T (W xff xff xff xff xff xff xff xff)
(L (W xff xff xff xff xff xff xff xff))
(L (W xff xff xff xff xff xff xff xff)))))
(T (W xc0 x00 x00 x00 xb4 x00 x00 x00)
(T (W x50 x00 x00 x00 x44 x00 x00 x00)
(T (W x48 x03 x00 x00 x34 x02 x00 x00)
(T (W xff xff xff xff xff xff xff xff)
(L (W x18 x00 x00 x00 x0c x00 x00 x00)) E)
(L (W x00 x00 x00 x00 x00 x00 x00 x00)))
(T (W x00 x00 x80 x3f x00 x00 x80 x3f)
(L (W x00 x00 x00 x00 x00 x00 x00 x00))
(L (W x00 x00 x00 x00 x00 x00 x00 x00))))
(T (W x00 x00 x00 x00 x00 x00 x00 x00)
(T (W x00 x00 x80 x3f x00 x00 x80 x3f)
(T (W x00 x00 x00 x00 x00 x00 x00 x00)
(L (W xaf x01 x00 x00 xff xff xff xff)) E)
(L (W xff xff xff xff xac x00 x00 x00)))
(T (W x45 x26 x22 x84 xe4 x9c xf2 xcb)
(L (W x18 x00 x00 x00 x1b x00 x00 x00))
(L (W x00 x00 x00 x00 x00 x00 x00 x00))))))
(T (W xc0 x00 x00 x00 xb4 x00 x00 x00)
(T (W x18 x00 x00 x00 x0c x00 x00 x00)
(T (W x00 x00 x80 x3f x00 x00 x80 x3f)
(T (W xff xff xff xff xff xff xff xff)
(T (W x18 x01 x00 x00 x04 x00 x00 x00)
(L (W x00 x00 x00 x00 x00 x00 x00 x00)) E)
(L (W x00 x00 x80 xbf x00 x00 x80 xbf)))
(T (W x00 x00 x00 x00 x92 x1c xfd xff)
(L (W x01 x00 x00 x00 xff xff xff xff))
(L (W x00 x00 x00 x00 x00 x00 x00 x00))))
(T (W x00 x00 x00 x00 x00 x00 x00 x00)
(T (W x00 x00 x00 x00 x00 x00 x00 x00)
(T (W xff xff xff xff xff xff xff xff)
(L (W x25 x00 x00 x00 x28 x00 x00 x00)) E)
(L (W x6c x00 x00 x00 x60 x00 x00 x00)))
(T (W x00 x00 x00 x00 x00 x00 x00 x00)
(L (W x1d x00 x00 x00 x20 x00 x00 x00))
(L (W x00 x00 x00 x00 x12 x00 x00 x00)))))
(T (W x7c x00 xfc xff x00 x01 x01 x01)
(T (W x00 x00 x80 x3f x00 x00 x80 x3f)
(T (W x00 x00 x00 x00 x0d x00 x00 x00)
(T (W x00 x00 x80 x3f x00 x00 x80 x3f)
(L (W xff xff xff xff xff xff xff xff)) E)
(L (W x00 x00 x00 x00 x12 x00 x00 x00)))
(T (W x68 x00 x00 x00 x5c x00 x00 x00)
(L (W xff xff xff xff xff xff xff xff))
(L (W xff xff xff xff xff xff xff xff))))
(T (W x00 x00 x00 x00 x00 x00 x00 x00)
(T (W xb8 x00 x00 x00 x32 x00 x00 x00)
(T (W x00 x00 x00 x00 x00 x00 x00 x00)
(L (W x00 x00 x00 x00 x00 x00 x00 x00)) E)
(L (W x03 x00 x00 x00 xd8 x00 x00 x00)))
(T (W xff xff xff xff xff xff xff xff)
(L (W x70 x00 x00 x00 x64 x00 x00 x00))
(L (W x00 x00 x80 xbf x00 x00 x80 xbf))))))))
(T (W x69 x6b x65 x5f x6c x76 x31 x5f)
(T (W xff xff xff xff xff xff xff xff)
(T (W x7a xf2 xfe xff x00 x00 x01 x01)
(T (W x00 x00 x00 x00 x00 x00 x00 x00)
(T (W x00 x00 x00 x00 x00 x00 x00 x00)
(T (W x50 x00 x00 x00 x44 x00 x00 x00)
(T (W xff xff xff xff x03 x00 x00 x00)
(L (W xff xff xff xff xff xff xff xff)) E)
(L (W xb2 xa7 xfe xff xc6 x00 x00 x00)))
(T (W x00 x00 x00 x00 x00 x00 x00 x00)
(L (W xff xff xff xff xff xff xff xff))
(L (W x00 x00 x80 xbf x00 x00 x80 xbf))))
(T (W xff xff xff xff xff xff xff xff)
(T (W x49 xa1 x68 x4a xeb x5f xdd x3d)
(T (W x21 x00 x00 x00 x67 x72 x6f x75)
(L (W x54 x00 x00 x00 x48 x00 x00 x00)) E)
(L (W xff xff xff xff xff xff xff xff)))
(T (W x4f x84 x6f x8b xe8 xcb x63 xb7)
(L (W x00 x00 x00 x00 x00 x00 x00 x00))
(L (W x00 x00 x00 x00 x00 x00 x00 x00)))))
(T (W x00 x00 x00 x00 x00 x00 x00 x00)
(T (W xff xff xff xff xff xff xff xff)
(T (W x00 x00 x80 x3f x00 x00 x80 x3f)
(T (W x00 x00 x80 x3f x00 x00 x80 x3f)
(L (W xff xff xff xff xff xff xff xff)) E)
(L (W xb2 xa7 xfe xff x74 x00 x00 x00)))
(T (W xff xff xff xff xff xff xff xff)
(L (W x00 x00 x80 xbf x00 x00 x80 xbf))
(L (W x21 x00 x00 x00 x24 x00 x00 x00))))
(T (W x7c x6c xfc xff x00 x01 x01 x01)
(T (W x34 x01 x00 x00 x04 x00 x00 x00)
(T (W x00 x00 x00 x00 x00 x00 x00 x00)
(L (W x30 x00 x34 x00 x38 x00 x3c x00)) E)
(L (W x00 x00 x00 x00 x00 x00 x00 x00)))
(T (W x2c x01 x00 x00 x04 x00 x00 x00)
(L (W x0c x70 xfe xff x0a x00 x00 x00))
(L (W xe8 x6a xff xff x12 x6e xff xff))))))
(T (W x00 x00 x00 x00 x00 x00 x00 x00)
(T (W x00 x00 x00 x00 x00 x00 x00 x00)
(T (W xff xff xff xff xff xff xff xff)
(T (W x00 x00 x80 x3f x00 x00 x80 x3f)
(T (W x6c x00 x00 x00 x60 x00 x00 x00)
(L (W xff xff xff xff xff xff xff xff)) E)
(L (W xff xff xff xff xff xff xff xff)))
(T (W x50 x00 x00 x00 x44 x00 x00 x00)
(L (W x00 x00 x00 x00 x00 x00 x00 x00))
(L (W xff xff xff xff xff xff xff xff))))
(T (W x64 x00 x00 x00 x9c x00 x00 x00)
(T (W xff xff xff xff xb0 x00 x00 x00)
(T (W x00 x00 x80 x3f x00 x00 x80 x3f)
(L (W x00 x00 x00 x00 x00 x00 x00 x00)) E)
(L (W xff xff xff xff xff xff xff xff)))
(T (W x00 x00 x80 x3f x00 x00 x80 x3f)
(L (W x45 x26 x22 x84 xe4 x9c xf2 xcb))
(L (W x00 x00 x00 x00 xec x5a xff xff)))))
(T (W x42 x14 xfe xff x8a x01 x00 x00)
(T (W xff xff xff xff xff xff xff xff)
(T (W x00 x00 x80 x3f x00 x00 x80 x3f)
(T (W x7c xbc xfd xff x00 x01 x01 x01)
(L (W x00 x00 x80 xbf x00 x00 x80 xbf)) E)
(L (W x18 x00 x00 x00 x10 x00 x00 x00)))
(T (W xff xff xff xff x02 x00 x00 x00)
(L (W x45 x26 x22 x84 xe4 x9c xf2 xcb))
(L (W x45 x26 x22 x84 xe4 x9c xf2 xcb))))
(T (W x00 x00 x80 x3f x00 x00 x80 x3f)
(T (W x00 x00 x00 x00 x00 x00 x00 x00)
(T (W x40 x00 x00 x00 x34 x00 x00 x00)
(L (W x0c x00 x00 x00 x18 x00 x00 x00)) E)
(L (W x00 x00 x80 xbf x00 x00 x80 xbf)))
(T (W x00 x00 x00 x00 x00 x00 x00 x00)
(L (W x00 x00 x00 x00 x00 x00 x00 x00))
(L (W x00 x00 x80 xbf x00 x00 x80 xbf)))))))
(T (W x00 x00 x00 x00 x00 x00 x00 x00)
(T (W x45 x26 x22 x84 xe4 x9c xf2 xcb)
(T (W x00 x00 x00 x00 x00 x00 x00 x00)
(T (W x48 x03 x00 x00 x34 x02 x00 x00)
(T (W x68 x00 x00 x00 x5c x00 x00 x00)
(T (W x68 x00 x00 x00 x5c x00 x00 x00)
(L (W xff xff xff xff xff xff xff xff)) E)
(L (W x00 x00 x00 x00 x00 x00 x00 x00)))
(T (W x00 x00 x80 x3f x00 x00 x80 x3f)
(L (W xd0 x01 x00 x00 xff xff xff xff))
(L (W x29 x00 x00 x00 x2c x00 x00 x00))))
(T (W xff xff xff xff xff xff xff xff)
(T (W x00 x00 x80 x3f x00 x00 x80 x3f)
(T (W x00 x00 x80 x3f x00 x00 x80 x3f)
(L (W x45 x26 x22 x84 xe4 x9c xf2 xcb)) E)
(L (W xff xff xff xff xff xff xff xff)))
(T (W x45 x26 x22 x84 xe4 x9c xf2 xcb)
(L (W x00 x00 x00 x00 x00 x00 x00 x00))
(L (W x00 x00 x80 xbf x00 x00 x80 xbf)))))
(T (W xbe x43 x0b x27 x08 xb9 x93 x4d)
(T (W xff xff xff xff xff xff xff xff)
(T (W x45 x26 x22 x84 xe4 x9c xf2 xcb)
(T (W x00 x00 x00 x00 x00 x00 x00 x00)
(L (W x00 x00 x00 x00 x00 x00 x00 x00)) E)
(L (W x7c xb4 xfe xff x00 x01 x01 x01)))
(T (W xff xff xff xff xff xff xff xff)
(L (W x00 x00 x00 x00 x00 x00 x00 x00))
(L (W x00 x00 x80 xbf x00 x00 x80 xbf))))
(T (W x50 x00 x00 x00 x44 x00 x00 x00)
(T (W x00 x00 x00 x00 x00 x00 x00 x00)
(T (W x01 x00 x00 x00 x04 x00 x00 x00)
(L (W x01 x00 x00 x00 xff xff xff xff)) E)
(L (W x00 x00 x80 xbf x00 x00 x80 xbf)))
(T (W x00 x00 x00 x00 x00 x00 x00 x00)
(L (W x45 x44 x00 x00 x00 x00 x00 x00))
(L (W x45 x26 x22 x84 xe4 x9c xf2 xcb))))))
(T (W x00 x00 x00 x00 x00 x00 x00 x00)
(T (W x00 x00 x00 x00 x00 x00 x00 x00)
(T (W x88 x03 x00 x00 xff xff xff xff)
(T (W x00 x00 x80 x3f x00 x00 x80 x3f)
(T (W x00 x00 x80 x3f x00 x00 x80 x3f)
(L (W xff xff xff xff xff xff xff xff)) E)
(L (W x29 x00 x00 x00 x2c x00 x00 x00)))
(T (W x7c x24 xfd xff x00 x01 x01 x01)
(L (W x04 x00 x00 x00 xa2 xf2 xff xff))
(L (W x00 x00 x00 x00 x80 x24 xff xff))))
(T (W xbc x00 x00 x00 xb0 x00 x00 x00)
(T (W xff xff xff xff xff xff xff xff)
(T (W x01 x00 x00 x00 xa0 x00 x00 x00)
(L (W x00 x00 x00 x00 x00 x00 x00 x00)) E)
(L (W x00 x00 x00 x00 x00 x00 x00 x00)))
(T (W x00 x00 x00 x00 xec x62 xfd xff)
(L (W x00 x00 x00 x00 x00 x00 x00 x00))
(L (W x18 x00 x00 x00 x0c x00 x00 x00)))))
(T (W x00 x00 x00 x00 x00 x00 x00 x00)
(T (W xff xff xff xff xff xff xff xff)
(T (W x00 x00 x00 x00 x00 x00 x00 x00)
(T (W xff xff xff xff xff xff xff xff)
(L (W x00 x00 x00 x00 x00 x00 x00 x00)) E)
(L (W x03 x00 x00 x00 xd0 x00 x00 x00)))
(T (W x00 x00 x00 x00 x00 x00 x00 x00)
(L (W x00 x00 x00 x00 x00 x00 x00 x00))
(L (W x49 xa1 x68 x4a xeb x5f xdd x3d))))
(T (W x00 x00 x80 x3f x00 x00 x80 x3f)
(T (W x00 x00 x00 x00 x00 x00 x00 x00)
(T (W x00 x00 x01 x01 x88 x00 x00 x00)
(L (W xff xff xff xff xff xff xff xff)) E)
(L (W x00 x00 x80 xbf x00 x00 x80 xbf)))
(T (W x00 x00 x80 x3f x00 x00 x80 x3f)
(L (W x00 x00 x00 x00 x3a x9e xfe xff))
(L (W xff xff xff xff xff xff xff xff)))))))))
(T (W x0c x92 xfb xff x3c x00 x00 x00)
(T (W x62 x8f xfb xff x78 x00 x00 x00)
(T (W x6c x00 x00 x00 x60 x00 x00 x00)
(T (W x54 x00 x00 x00 x48 x00 x00 x00)
(T (W xff xff xff xff xff xff xff xff)
(T (W xff xff xff xff x03 x00 x00 x00)
(T (W x00 x00 x00 x00 x00 x00 x00 x00)
(T (W x50 x00 x00 x00 x44 x00 x00 x00)
(L (W xff xff xff xff x8c x00 x00 x00)) E)
(L (W xff xff xff xff xb0 x00 x00 x00)))
(T (W x00 x00 x00 x00 x00 x00 x00 x00)
(L (W x00 x00 x80 x3f x00 x00 x80 x3f))
(L (W x00 x00 x00 x00 x00 x00 x00 x00))))
(T (W x50 x00 x00 x00 x44 x00 x00 x00)
(T (W x00 x00 x00 x00 x00 x00 x00 x00)
(T (W xff xff xff xff xff xff xff xff)
(L (W x45 x44 x00 x00 x00 x00 x00 x00)) E)
(L (W x45 x26 x22 x84 xe4 x9c xf2 xcb)))
(T (W xff xff xff xff xff xff xff xff)
(L (W x24 x01 x00 x00 x04 x00 x00 x00))
(L (W x00 x00 x00 x00 x00 x00 x00 x00)))))
(T (W xff xff xff xff xff xff xff xff)
(T (W xb2 x25 xfc xff x74 x00 x00 x00)
(T (W x00 x00 x00 x00 x00 x00 x00 x00)
(T (W x00 x00 x00 x00 x00 x00 x00 x00)
(L (W x45 x26 x22 x84 xe4 x9c xf2 xcb)) E)
(L (W x00 x00 x80 xbf x00 x00 x80 xbf)))
(T (W x00 x00 x80 x3f x00 x00 x80 x3f)
(L (W x19 x00 x00 x00 x10 x00 x00 x00))
(L (W x45 x26 x22 x84 xe4 x9c xf2 xcb))))
(T (W x00 x00 x00 x00 x00 x00 x00 x00)
(T (W xff xff xff xff xb0 x00 x00 x00)
(T (W xff xff xff xff xf0 x00 x00 x00)
(L (W x00 x00 x80 xbf x00 x00 x80 xbf)) E)
(L (W xff xff xff xff xff xff xff xff)))
(T (W x7c x6a xfd xff x00 x01 x01 x01)
(L (W xff xff xff xff xff xff xff xff))
(L (W x45 x26 x22 x84 xe4 x9c xf2 xcb))))))
(T (W xff xff xff xff xff xff xff xff)
(T (W xff xff xff xff xff xff xff xff)
(T (W x18 x00 x00 x00 x0c x00 x00 x00)
(T (W x00 x00 x00 x00 x00 x00 x00 x00)
(T (W x45 x26 x22 x84 xe4 x9c xf2 xcb)
(L (W xff xff xff xff x9c x00 x00 x00)) E)
(L (W x45 x26 x22 x84 xe4 x9c xf2 xcb)))
(T (W x00 x00 x00 x00 x00 x00 x00 x00)
(L (W xff xff xff xff xff xff xff xff))
(L (W x00 x00 x80 xbf x00 x00 x80 xbf))))
(T (W x00 x00 x80 x3f x00 x00 x80 x3f)
(T (W x00 x00 x80 x3f x00 x00 x80 x3f)
(T (W x5f x77 x69 x6c x64 x5f x70 x6f)
(L (W x00 x00 x00 x00 x00 x00 x00 x00)) E)
(L (W xff xff xff xff xa0 x00 x00 x00)))
(T (W x00 x00 x00 x00 x00 x00 x00 x00)
(L (W x00 x00 x00 x00 x00 x00 x00 x00))
(L (W x00 x00 x00 x00 x00 x00 x00 x00)))))
(T (W xff xff xff xff xff xff xff xff)
(T (W x18 x00 x00 x00 x10 x00 x00 x00)
(T (W xff xff xff xff xff xff xff xff)
(T (W x70 x5f x6c x65 x61 x64 x65 x72)
(L (W xff xff xff xff xff xff xff xff)) E)
(L (W x00 x00 x80 xbf x00 x00 x80 xbf)))
(T (W xff xff xff xff xc8 x00 x00 x00)
(L (W x0c x3e xfe xff x1d x00 x00 x00))
(L (W x00 x00 x00 x00 x00 x00 x00 x00))))
(T (W x00 x00 x80 x3f x00 x00 x80 x3f)
(T (W xff xff xff xff xff xff xff xff)
(T (W xff xff xff xff xba x01 x00 x00)
(L (W x00 x00 x80 xbf x00 x00 x80 xbf)) E)
(L (W xc8 x01 x00 x00 xff xff xff xff)))
(T (W x9c x01 x00 x00 xff xff xff xff)
(L (W xff xff xff xff xff xff xff xff))
(L (W x45 x26 x22 x84 xe4 x9c xf2 xcb)))))))
(T (W x40 x00 x00 x00 x9c x00 x00 x00)
(T (W xb2 xcb xfd xff x00 x00 x01 x01)
(T (W xff xff xff xff xff xff xff xff)
(T (W xff xff xff xff xff xff xff xff)
(T (W x00 x00 x00 x00 x00 x00 x00 x00)
(T (W x45 x26 x22 x84 xe4 x9c xf2 xcb)
(L (W x54 x00 x00 x00 x48 x00 x00 x00)) E)
(L (W x45 x26 x22 x84 xe4 x9c xf2 xcb)))
(T (W x00 x00 x00 x00 x12 x00 x00 x00)
(L (W xbc x00 x00 x00 x64 x00 x00 x00))
(L (W x00 x00 x00 x00 x00 x00 x00 x00))))
(T (W x6c x00 x00 x00 x60 x00 x00 x00)
(T (W x00 x00 x00 x00 x00 x00 x00 x00)
(T (W x00 x00 x00 x00 x00 x00 x00 x00)
(L (W x00 x00 x00 x00 x00 x00 x00 x00)) E)
(L (W x45 x26 x22 x84 xe4 x9c xf2 xcb)))
(T (W x00 x00 x00 x00 x00 x00 x00 x00)
(L (W x00 x00 x00 x00 x00 x00 x00 x00))
(L (W x00 x00 x00 x00 x00 x00 x00 x00)))))
(T (W xff xff xff xff xff xff xff xff)
(T (W x45 x26 x22 x84 xe4 x9c xf2 xcb)
(T (W x00 x00 x00 x00 x00 x00 x00 x00)
(T (W x18 x01 x00 x00 x04 x00 x00 x00)
(L (W xff xff xff xff xff xff xff xff)) E)
(L (W x00 x00 x80 xbf x00 x00 x80 xbf)))
(T (W xb2 x2d xfd xff x74 x00 x00 x00)
(L (W xff xff xff xff xff xff xff xff))
(L (W x00 x00 x80 xbf x00 x00 x80 xbf))))
(T (W x45 x26 x22 x84 xe4 x9c xf2 xcb)
(T (W xff xff xff xff xff xff xff xff)
(T (W x6f x6b x65 x5f x77 x61 x72 x6c)
(L (W x00 x00 x00 x00 x00 x00 x00 x00)) E)
(L (W xfc x07 x00 x00 xcc x06 x00 x00)))
(T (W xff xff xff xff xff xff xff xff)
(L (W xff xff xff xff xff xff xff xff))
(L (W x49 xa1 x68 x4a xeb x5f xdd x3d))))))
(T (W xff xff xff xff xff xff xff xff)
(T (W xff xff xff xff xff xff xff xff)
(T (W xb2 x1d xfc xff x74 x00 x00 x00)
(T (W x00 x00 x00 x00 x00 x00 x00 x00)
(T (W x00 x00 x00 x00 x00 x00 x00 x00)
(L (W x18 x00 x00 x00 x0c x00 x00 x00)) E)
(L (W x00 x00 x0c x00 x10 x00 x14 x00)))
(T (W x4f x84 x6f x8b xe8 xcb x63 xb7)
(L (W x45 x26 x22 x84 xe4 x9c xf2 xcb))
(L (W x00 x00 x80 xbf x00 x00 x80 xbf))))
(T (W x00 x00 x80 x3f x00 x00 x80 x3f)
(T (W x50 x00 x00 x00 x44 x00 x00 x00)
(T (W x00 x00 x00 x00 x00 x00 x00 x00)
(L (W xff xff xff xff xff xff xff xff)) E)
(L (W xff xff xff xff xff xff xff xff)))
(T (W x45 x26 x22 x84 xe4 x9c xf2 xcb)
(L (W xff xff xff xff xff xff xff xff))
(L (W x00 x00 x80 xbf x00 x00 x80 xbf)))))
(T (W xff xff xff xff xff xff xff xff)
(T (W x40 x00 x00 x00 x9c x00 x00 x00)
(T (W xff xff xff xff xff xff xff xff)
(T (W x18 x00 x00 x00 x10 x00 x00 x00)
(L (W xff xff xff xff xff xff xff xff)) E)
(L (W x6c x00 x00 x00 x60 x00 x00 x00)))
(T (W xff xff xff xff xff xff xff xff)
(L (W x45 x44 x00 x00 x00 x00 x00 x00))
(L (W x46 x53 x59 x53 x5f x4e x53 x5f))))
(T (W x00 x00 x80 x3f x00 x00 x80 x3f)
(T (W xff xff xff xff xff xff xff xff)
(T (W x00 x00 x80 x3f x00 x00 x80 x3f)
(L (W x00 x00 x00 x00 x00 x00 x00 x00)) E)
(L (W x1b x00 x00 x00 x10 x00 x00 x00)))
(T (W x00 x00 x00 x00 x0d x00 x00 x00)
(L (W xff xff xff xff xff xff xff xff))
(L (W x6c x00 x00 x00 x60 x00 x00 x00))))))))
(T (W x18 x00 x00 x00 x0c x00 x00 x00)
(T (W x45 x26 x22 x84 xe4 x9c xf2 xcb)
(T (W x00 x00 x00 x00 x00 x00 x00 x00)
(T (W x00 x00 x80 x3f x00 x00 x80 x3f)
(T (W x00 x00 x00 x00 x00 x00 x00 x00)
(T (W x00 x00 x00 x00 xec x8c xfc xff)
(T (W xb9 x01 x00 x00 xff xff xff xff)
(L (W x00 x00 x00 x00 x12 x00 x00 x00)) E)
(L (W x00 x00 x00 x00 x00 x00 x00 x00)))
(T (W x45 x26 x22 x84 xe4 x9c xf2 xcb)
(L (W x00 x00 x00 x00 x1b x00 x00 x00))
(L (W x03 x00 x00 x00 xd0 x00 x00 x00))))
(T (W xff xff xff xff xff xff xff xff)
(T (W x45 x26 x22 x84 xe4 x9c xf2 xcb)
(T (W x00 x00 x80 x3f x00 x00 x80 x3f)
(L (W x18 x00 x00 x00 x0c x00 x00 x00)) E)
(L (W x00 x00 x00 x00 x00 x00 x00 x00)))
(T (W x50 x00 x00 x00 x44 x00 x00 x00)
(L (W x00 x00 x80 xbf x00 x00 x80 xbf))
(L (W x18 x00 x00 x00 x10 x00 x00 x00)))))
(T (W x00 x00 x80 x3f x00 x00 x80 x3f)
(T (W x00 x00 x00 x00 x00 x00 x00 x00)
(T (W xff xff xff xff xff xff xff xff)
(T (W xb2 xa9 xfd xff x74 x00 x00 x00)
(L (W x00 x01 x01 x01 x52 xb1 xff xff)) E)
(L (W x00 x00 x00 x00 xa2 xc0 xfe xff)))
(T (W x82 x33 xfd xff x9c x01 x00 x00)
(L (W xff xff xff xff xff xff xff xff))
(L (W xff xff xff xff xff xff xff xff))))
(T (W xff xff xff xff xff xff xff xff)
(T (W x45 x26 x22 x84 xe4 x9c xf2 xcb)
(T (W x62 xeb xfd xff x78 x00 x00 x00)
(L (W xff xff xff xff xff xff xff xff)) E)
(L (W x00 x00 x80 xbf x00 x00 x80 xbf)))
(T (W x00 x00 x00 x00 x00 x00 x00 x00)
(L (W x00 x00 x80 xbf x00 x00 x80 xbf))
(L (W xb0 x00 x00 x00 x64 x00 x00 x00))))))
(T (W x00 x00 x80 x3f x00 x00 x80 x3f)
(T (W x00 x00 x80 x3f x00 x00 x80 x3f)
(T (W x00 x00 x00 x00 x00 x00 x00 x00)
(T (W x3e x00 x00 x00 x9c x00 x00 x00)
(T (W xff xff xff xff xff xff xff xff)
(L (W x00 x00 x00 x00 x12 x00 x00 x00)) E)
(L (W x00 x00 x00 x00 x00 x00 x00 x00)))
(T (W xff xff xff xff x9c x00 x00 x00)
(L (W xb2 x19 xfe xff x74 x00 x00 x00))
(L (W x00 x00 x00 x00 x00 x00 x00 x00))))
(T (W x02 xa3 xff xff xd3 x01 x00 x00)
(T (W x4a xdc xfc xff x4b x00 x00 x00)
(T (W xb2 xd9 xfd xff x74 x00 x00 x00)
(L (W x00 x00 x00 x00 x80 xde xff xff)) E)
(L (W x00 x00 x00 x00 x00 x00 x00 x00)))
(T (W xff xff xff xff xff xff xff xff)
(L (W x40 x00 x00 x00 x00 x00 x80 xbf))
(L (W xff xff xff xff xff xff xff xff)))))
(T (W x00 x00 x00 x00 x00 x00 x00 x00)
(T (W x3e x00 x00 x00 x0c x00 x00 x00)
(T (W x50 x00 x00 x00 x44 x00 x00 x00)
(T (W x72 x64 x5f x6c x76 x31 x00 x00)
(L (W x62 xbb xff xff x78 x00 x00 x00)) E)
(L (W x00 x00 x00 x00 x92 xba xfe xff)))
(T (W x49 xa1 x68 x4a xeb x5f xdd x3d)
(L (W x00 x00 x80 xbf x00 x00 x80 xbf))
(L (W x1d x00 x00 x00 x20 x00 x00 x00))))
(T (W xff xff xff xff xff xff xff xff)
(T (W x00 x00 x80 x3f x00 x00 x80 x3f)
(T (W x00 x00 x00 x00 x00 x00 x00 x00)
(L (W x10 x00 x14 x00 x00 x00 x00 x00)) E)
(L (W x62 xfb xfe xff x78 x00 x00 x00)))
(T (W x00 x00 x00 x00 xec x7c xfd xff)
(L (W x00 x00 x00 x00 x00 x00 x00 x00))
(L (W x00 x00 x00 x00 x00 x00 x00 x00)))))))
(T (W x64 x00 x00 x00 x9c x00 x00 x00)
(T (W x7c xb6 xfb xff x00 x01 x01 x01)
(T (W x00 x00 x80 x3f x00 x00 x80 x3f)
(T (W x00 x00 x00 x00 x00 x00 x00 x00)
(T (W x18 x00 x00 x00 x0c x00 x00 x00)
(T (W xff xff xff xff xff xff xff xff)
(L (W x00 x00 x00 x00 x00 x00 x00 x00)) E)
(L (W x00 x00 x00 x00 x00 x00 x00 x00)))
(T (W x1b x00 x00 x00 x1e x00 x00 x00)
(L (W x6c x00 x00 x00 x60 x00 x00 x00))
(L (W xff xff xff xff xff xff xff xff))))
(T (W x81 x00 x00 x00 xff xff xff xff)
(T (W xff xff xff xff xff xff xff xff)
(T (W xb2 xd1 xfd xff x74 x00 x00 x00)
(L (W x50 x00 x00 x00 x44 x00 x00 x00)) E)
(L (W x00 x00 x00 x00 x00 x00 x00 x00)))
(T (W x1f x00 x00 x00 x22 x00 x00 x00)
(L (W x00 x00 x80 xbf x00 x00 x80 xbf))
(L (W xff xff xff xff xb0 x00 x00 x00)))))
(T (W x45 x26 x22 x84 xe4 x9c xf2 xcb)
(T (W x00 x00 x00 x00 x00 x00 x00 x00)
(T (W x18 x00 x00 x00 x0c x00 x00 x00)
(T (W x00 x00 x80 x3f x00 x00 x80 x3f)
(L (W x00 x00 x80 xbf x00 x00 x80 xbf)) E)
(L (W x2a xca xfe xff xaa x01 x00 x00)))
(T (W x00 x00 x00 x00 x00 x00 x00 x00)
(L (W x54 x00 x00 x00 x48 x00 x00 x00))
(L (W xff xff xff xff xff xff xff xff))))
(T (W xff xff xff xff xff xff xff xff)
(T (W x00 x00 x80 x3f x00 x00 x80 x3f)
(T (W x06 x00 x07 x00 x00 x00 x6c x00)
(L (W x62 xf3 xff xff x78 x00 x00 x00)) E)
(L (W x68 x00 x00 x00 x5c x00 x00 x00)))
(T (W x00 x00 x80 x3f x00 x00 x80 x3f)
(L (W x00 x00 x80 xbf x00 x00 x80 xbf))
(L (W x00 x00 x01 x01 xc6 x00 x00 x00))))))
(T (W x45 x26 x22 x84 xe4 x9c xf2 xcb)
(T (W x00 x00 x80 x3f x00 x00 x80 x3f)
(T (W x00 x00 x00 x00 x00 x00 x00 x00)
(T (W x00 x00 x00 x00 x04 x00 x00 x00)
(T (W x00 x00 x00 x00 xec xa4 xfd xff)
(L (W x00 x00 x00 x00 x00 x00 x00 x00)) E)
(L (W xff xff xff xff xff xff xff xff)))
(T (W xff xff xff xff xff xff xff xff)
(L (W x45 x26 x22 x84 xe4 x9c xf2 xcb))
(L (W xff xff xff xff xff xff xff xff))))
(T (W x7a xac xff xff x00 x00 x01 x01)
(T (W x46 x53 x59 x53 x5f x4e x53 x5f)
(T (W x00 x00 x00 x00 x00 x00 x00 x00)
(L (W x00 x00 x48 x00 x4c x00 x00 x00)) E)
(L (W x00 x00 x80 xbf x00 x00 x80 xbf)))
(T (W x00 x00 x00 x00 x00 x00 x00 x00)
(L (W x00 x00 x80 xbf x00 x00 x80 xbf))
(L (W xb2 x81 xff xff xc6 x00 x00 x00)))))
(T (W x00 x00 x00 x00 x00 x00 x00 x00)
(T (W xb2 x5f xfe xff x00 x00 x01 x01)
(T (W x00 x00 x80 x3f x00 x00 x80 x3f)
(T (W x00 x00 x00 x00 x00 x00 x00 x00)
(L (W x10 x00 x14 x00 x18 x00 x1c x00)) E)
(L (W xff xff xff xff xff xff xff xff)))
(T (W x00 x00 x80 x3f x00 x00 x80 x3f)
(L (W x00 x00 x80 xbf x00 x00 x80 xbf))
(L (W x45 x26 x22 x84 xe4 x9c xf2 xcb))))
(T (W x64 x00 x00 x00 x9c x00 x00 x00)
(T (W x00 x00 x80 x3f x00 x00 x80 x3f)
(L (W x00 x00 x80 x3f x00 x00 x80 x3f))
(L (W x45 x26 x22 x84 xe4 x9c xf2 xcb)))
(T (W x00 x00 x00 x00 xec x84 xfd xff)
(L (W x00 x00 x00 x00 x00 x00 x00 x00))
(L (W x00 x00 x00 x00 x00 x00 x00 x00))))))))))))))
(T (W xb8 x6a x04 x00 x54 x65 x04 x00)
(T (W x38 x32 x04 x00 x94 x2d x04 x00)
(T (W x10 xe8 x03 x00 x94 xe3 x03 x00)
(T (W xf0 x47 x03 x00 xfc x40 x03 x00)
(T (W x68 x56 x02 x00 x24 x54 x02 x00)
(T (W xb8 xe4 x00 x00 x6c xe2 x00 x00)
(T (W xff xff xff xff x02 x00 x00 x00)
(T (W x00 x00 x80 x3f x00 x00 x80 x3f)
(T (W x50 x00 x00 x00 x44 x00 x00 x00)
(T (W x00 x00 x00 x00 x00 x00 x00 x00)
(T (W x8d x90 xef xdf x56 x2e x2e x6c)
(T (W x50 x00 x00 x00 x44 x00 x00 x00)
(T (W x00 x00 x80 x3f x00 x00 x80 x3f)
(L (W x7a x84 xff xff x9f x01 x00 x00)) E)
(L (W x30 x33 x5f x43 x4c x45 x41 x52)))
(T (W x4f x84 x6f x8b xe8 xcb x63 xb7)
(L (W x45 x26 x22 x84 xe4 x9c xf2 xcb))
(L (W x00 x00 x80 xbf x00 x00 x80 xbf))))
(T (W xff xff xff xff xff xff xff xff)
(T (W x00 x00 x00 x00 x00 x00 x00 x00)
(T (W x72 xde xff xff xa8 x01 x00 x00)
(L (W x40 x00 x00 x00 x00 x00 x80 xbf)) E)
(L (W xff xff xff xff xff xff xff xff)))
(T (W x00 x00 x00 x00 x00 x00 x00 x00)
(L (W x49 xa1 x68 x4a xeb x5f xdd x3d))
(L (W x00 x00 x80 xbf x00 x00 x80 xbf)))))
(T (W x00 x00 x00 x00 x00 x00 x00 x00)
(T (W x00 x00 x00 x00 x04 x00 x00 x00)
(T (W x06 x00 x07 x00 x00 x00 x00 x00)
(T (W x00 x00 x80 x3f x00 x00 x80 x3f)
(L (W xff xff xff xff xff xff xff xff)) E)
(L (W x03 x00 x00 x00 xd0 x00 x00 x00)))
(T (W xff xff xff xff xff xff xff xff)
(L (W x00 x00 x00 x00 x00 x00 x00 x00))
(L (W x45 x26 x22 x84 xe4 x9c xf2 xcb))))
(T (W xff xff xff xff xff xff xff xff)
(T (W x4b x00 x00 x00 xff xff xff xff)
(T (W x27 x00 x00 x00 x0c x00 x00 x00)
(L (W xc6 x00 x00 x00 xff xff xff xff)) E)
(L (W x45 x26 x22 x84 xe4 x9c xf2 xcb)))
(T (W xff xff xff xff xff xff xff xff)
(L (W x4f x84 x6f x8b xe8 xcb x63 xb7))
(L (W xff xff xff xff xff xff xff xff))))))
(T (W x00 x00 x80 x3f x00 x00 x80 x3f)
(T (W x00 x00 x00 x00 x00 x00 x00 x00)
(T (W x00 x00 x00 x00 x00 x00 x00 x00)
(T (W x00 x00 x80 x3f x00 x00 x80 x3f)
(T (W x00 x00 x00 x00 x1c x95 xfd xff)
(L (W xff xff xff xff xff xff xff xff)) E)
(L (W x45 x44 x00 x00 x00 x00 x00 x00)))
(T (W x6c x00 x00 x00 x60 x00 x00 x00)
(L (W x00 x00 x80 x3f x00 x00 x80 x3f))
(L (W x03 x00 x00 x00 xd8 x00 x00 x00))))
(T (W xff xff xff xff xff xff xff xff)
(T (W x00 x00 x00 x00 x1c xd5 xfc xff)
(T (W x00 x00 x80 x3f x00 x00 x80 x3f)
(L (W x00 x00 x80 xbf x00 x00 x80 xbf)) E)
(L (W xb8 x05 x00 x00 x88 x04 x00 x00)))
(T (W x6c x00 x00 x00 x60 x00 x00 x00)
(L (W x00 x00 x00 x00 x00 x00 x00 x00))
(L (W x54 x00 x00 x00 x48 x00 x00 x00)))))
(T (W x00 x00 x00 x00 x00 x00 x00 x00)
(T (W x1c x01 x00 x00 x04 x00 x00 x00)
(T (W x00 x00 x80 x3f x00 x00 x80 x3f)
(T (W x00 x00 x00 x00 x00 x00 x00 x00)
(L (W x45 x26 x22 x84 xe4 x9c xf2 xcb)) E)
(L (W xff xff xff xff xff xff xff xff)))
(T (W x9c x01 x00 x00 xff xff xff xff)
(L (W x00 x00 x80 xbf x00 x00 x80 xbf))
(L (W x1c x00 x00 x00 x10 x00 x00 x00))))
(T (W xbc x00 x00 x00 xb0 x00 x00 x00)
(T (W x00 x00 x00 x00 x00 x00 x00 x00)
(T (W xff xff xff xff xff xff xff xff)
(L (W x00 x00 x80 xbf x00 x00 x80 xbf)) E)
(L (W x00 x00 x80 xbf x00 x00 x80 xbf)))
(T (W x00 x00 x00 x00 x00 x00 x00 x00)
(L (W x4f x84 x6f x8b xe8 xcb x63 xb7))
(L (W xff xff xff xff xff xff xff xff)))))))
(T (W x00 x00 x00 x00 x00 x00 x00 x00)
(T (W x72 x64 x5f x6c x76 x31 x00 x00)
(T (W x00 x00 x00 x00 x00 x00 x00 x00)
(T (W x72 x26 xfe xff x6c x01 x00 x00)
(T (W x00 x00 x80 x3f x00 x00 x80 x3f)
(T (W xff xff xff xff xff xff xff xff)
(L (W x00 x00 x00 x00 xf2 x8d xff xff)) E)
(L (W x00 x00 x00 x00 x04 x00 x00 x00)))
(T (W x00 x00 x80 x3f x00 x00 x80 x3f)
(L (W x61 x64 x65 x72 x5f x77 x69 x6c))
(L (W x92 x0b xff xff x78 x00 x00 x00))))
(T (W xff xff xff xff xff xff xff xff)
(T (W x00 x00 x80 x3f x00 x00 x80 x3f)
(T (W x00 x00 x00 x00 x00 x00 x00 x00)
(L (W x00 x00 x80 xbf x00 x00 x80 xbf)) E)
(L (W xff xff xff xff xff xff xff xff)))
(T (W x00 x00 x80 x3f x00 x00 x80 x3f)
(L (W x00 x00 x00 x00 x00 x00 x00 x00))
(L (W x00 x00 x80 xbf x00 x00 x80 xbf)))))
(T (W x00 x00 x00 x00 x00 x00 x00 x00)
(T (W x00 x00 x00 x00 x4a x76 xff xff)
(T (W xac xae xfc xff x00 x01 x01 x01)
(T (W x00 x00 x80 x3f x00 x00 x80 x3f)
(L (W x00 x00 x80 xbf x00 x00 x80 xbf)) E)
(L (W xff xff xff xff xff xff xff xff)))
(T (W xff xff xff xff xff xff xff xff)
(L (W x45 x26 x22 x84 xe4 x9c xf2 xcb))
(L (W x21 x00 x00 x00 x24 x00 x00 x00))))
(T (W x64 x00 x00 x00 x9c x00 x00 x00)
(T (W x00 x00 x00 x00 x00 x00 x00 x00)
(T (W x00 x00 x80 x3f x00 x00 x80 x3f)
(L (W x45 x26 x22 x84 xe4 x9c xf2 xcb)) E)
(L (W x4f x84 x6f x8b xe8 xcb x63 xb7)))
(T (W x00 x00 x00 x00 x00 x00 x00 x00)
(L (W x45 x26 x22 x84 xe4 x9c xf2 xcb))
(L (W x68 x00 x00 x00 x5c x00 x00 x00))))))
(T (W x00 x00 x00 x00 x00 x00 x00 x00)
(T (W x45 x26 x22 x84 xe4 x9c xf2 xcb)
(T (W x00 x00 x00 x00 x00 x00 x00 x00)
(T (W x50 x00 x00 x00 x44 x00 x00 x00)
(T (W x45 x26 x22 x84 xe4 x9c xf2 xcb)
(L (W x00 x00 x00 x00 x6a xb8 xff xff)) E)
(L (W x00 x00 x00 x00 x00 x00 x00 x00)))
(T (W x50 x00 x00 x00 x44 x00 x00 x00)
(L (W x00 x00 x80 xbf x00 x00 x80 xbf))
(L (W xff xff xff xff xff xff xff xff))))
(T (W xff xff xff xff xff xff xff xff)
(T (W xff xff xff xff xff xff xff xff)
(T (W x00 x00 x80 x3f x00 x00 x80 x3f)
(L (W x00 x00 x80 xbf x00 x00 x80 xbf)) E)
(L (W x45 x44 x00 x00 x00 x00 x00 x00)))
(T (W xff xff xff xff xac x00 x00 x00)
(L (W x45 x26 x22 x84 xe4 x9c xf2 xcb))
(L (W x45 x26 x22 x84 xe4 x9c xf2 xcb)))))
(T (W x00 x00 x00 x00 x00 x00 x00 x00)
(T (W xff xff xff xff xff xff xff xff)
(T (W x00 x00 x80 x3f x00 x00 x80 x3f)
(T (W x3c xc2 xfd xff x2d x00 x00 x00)
(L (W x00 x00 x80 xbf x00 x00 x80 xbf)) E)
(L (W xff xff xff xff xff xff xff xff)))
(T (W x12 x00 x00 x00 x46 x53 x59 x53)
(L (W x45 x26 x22 x84 xe4 x9c xf2 xcb))
(L (W x50 x00 x00 x00 x44 x00 x00 x00))))
(T (W xac x7e xfc xff x00 x01 x01 x01)
(T (W x00 x00 x00 x00 x00 x00 x00 x00)
(T (W xff xff xff xff xff xff xff xff)
(L (W x38 x00 x00 x00 x00 x00 x80 xbf)) E)
(L (W x00 x00 x80 xbf x00 x00 x80 xbf)))
(T (W x00 x00 x80 x3f x00 x00 x80 x3f)
(L (W x00 x00 x00 x00 x00 x00 x00 x00))
(L (W x00 x00 x00 x00 x00 x00 x00 x00))))))))
(T (W x00 x00 x80 x3f x00 x00 x80 x3f)
(T (W x00 x00 x80 x3f x00 x00 x80 x3f)
(T (W x00 x00 x80 x3f x00 x00 x80 x3f)
(T (W xff xff xff xff x03 x00 x00 x00)
(T (W xe2 x05 xfc xff x74 x00 x00 x00)
(T (W x3c x8e xfc xff x1b x00 x00 x00)
(T (W x00 x00 x80 x3f x00 x00 x80 x3f)
(L (W x38 x00 x00 x00 x00 x00 x80 xbf)) E)
(L (W x54 x00 x00 x00 x48 x00 x00 x00)))
(T (W xff xff xff xff xff xff xff xff)
(L (W x49 xa1 x68 x4a xeb x5f xdd x3d))
(L (W xff xff xff xff xff xff xff xff))))
(T (W x00 x00 x80 x3f x00 x00 x80 x3f)
(T (W xff xff xff xff xff xff xff xff)
(T (W x01 x00 x00 x00 x9c x00 x00 x00)
(L (W xff xff xff xff xff xff xff xff)) E)
(L (W x00 x00 x80 xbf x00 x00 x80 xbf)))
(T (W xff xff xff xff xff xff xff xff)
(L (W xff xff xff xff xff xff xff xff))
(L (W xff xff xff xff xff xff xff xff)))))
(T (W x45 x26 x22 x84 xe4 x9c xf2 xcb)
(T (W x00 x00 x80 x3f x00 x00 x80 x3f)
(T (W x3a x00 x00 x00 xff xff xff xff)
(T (W xff xff xff xff xff xff xff xff)
(L (W x00 x00 x80 xbf x00 x00 x80 xbf)) E)
(L (W x00 x00 x00 x00 x00 x00 x00 x00)))
(T (W x00 x00 x00 x00 x00 x00 x00 x00)
(L (W xff xff xff xff xff xff xff xff))
(L (W x00 x00 x00 x00 x00 x00 x00 x00))))
(T (W x00 x00 x00 x00 x00 x00 x00 x00)
(T (W x54 x00 x00 x00 x48 x00 x00 x00)
(T (W x45 x26 x22 x84 xe4 x9c xf2 xcb)
(L (W x4f x84 x6f x8b xe8 xcb x63 xb7)) E)
(L (W x29 x00 x00 x00 x2c x00 x00 x00)))
(T (W x00 x00 x80 x3f x00 x00 x80 x3f)
(L (W xff xff xff xff xb0 x00 x00 x00))
(L (W x00 x00 x00 x00 x00 x00 x00 x00))))))
(T (W xff xff xff xff x04 x00 x00 x00)
(T (W xb8 x00 x00 x00 xac x00 x00 x00)
(T (W x00 x00 x80 x3f x00 x00 x80 x3f)
(T (W x00 x00 x00 x00 x02 x00 x00 x00)
(T (W x00 x00 x00 x00 x00 x00 x00 x00)
(L (W x50 x00 x00 x00 x44 x00 x00 x00)) E)
(L (W x00 x00 x80 xbf x00 x00 x80 xbf)))
(T (W x00 x00 x00 x00 x04 x00 x00 x00)
(L (W xff xff xff xff xff xff xff xff))
(L (W x00 x00 x00 x00 x00 x00 x00 x00))))
(T (W x00 x00 x00 x00 x00 x00 x00 x00)
(T (W x00 x00 x00 x00 x00 x00 x00 x00)
(T (W x00 x00 x00 x00 x02 x00 x00 x00)
(L (W xff xff xff xff xff xff xff xff)) E)
(L (W x54 x00 x00 x00 x48 x00 x00 x00)))
(T (W x4c x45 x41 x52 x45 x44 x00 x00)
(L (W xff xff xff xff xff xff xff xff))
(L (W x94 x6e xff xff x1a x00 x00 x00)))))
(T (W x0a x00 x00 x00 x3e x00 x00 x00)
(T (W x00 x00 x80 x3f x00 x00 x80 x3f)
(T (W xff xff xff xff x03 x00 x00 x00)
(T (W xff xff xff xff xff xff xff xff)
(L (W xff xff xff xff xff xff xff xff)) E)
(L (W x00 x00 x00 x00 x00 x00 x00 x00)))
(T (W x00 x00 x00 x00 x1c x39 xfd xff)
(L (W xe2 x55 xfe xff x0d x01 x00 x00))
(L (W xff xff xff xff xff xff xff xff))))
(T (W x00 x00 x00 x00 x00 x00 x00 x00)
(T (W x03 x00 x00 x00 xd8 x00 x00 x00)
(T (W xe2 xf5 xfd xff x74 x00 x00 x00)
(L (W x00 x00 x00 x00 x00 x00 x00 x00)) E)
(L (W xff xff xff xff xff xff xff xff)))
(T (W xff xff xff xff xff xff xff xff)
(L (W xcc x00 x00 x00 x01 x00 x00 x00))
(L (W x00 x00 x00 x00 x00 x00 x00 x00)))))))
(T (W x50 x00 x00 x00 x44 x00 x00 x00)
(T (W xff xff xff xff xff xff xff xff)
(T (W xff xff xff xff xff xff xff xff)
(T (W xac x12 xfc xff x00 x01 x01 x01)
(T (W x00 x00 x00 x00 x00 x00 x00 x00)
(T (W x00 x00 x00 x00 x00 x00 x00 x00)
(L (W x00 x00 x80 xbf x00 x00 x80 xbf)) E)
(L (W x00 x00 x80 xbf x00 x00 x80 xbf)))
(T (W x00 x00 x00 x00 xd2 x24 xfd xff)
(L (W x92 x0f xfe xff x78 x00 x00 x00))
(L (W x00 x00 x00 x00 x00 x00 x00 x00))))
(T (W x00 x00 x80 x3f x00 x00 x80 x3f)
(T (W xe2 x1b x89 xbc xd0 xa7 x61 xa0)
(T (W xff xff xff xff xff xff xff xff)
(L (W xff xff xff xff xff xff xff xff)) E)
(L (W x00 x00 x80 xbf x00 x00 x80 xbf)))
(T (W xff xff xff xff xff xff xff xff)
(L (W xff xff xff xff xff xff xff xff))
(L (W x00 x00 x00 x00 x00 x00 x00 x00)))))
(T (W x01 x00 x00 x00 x9c x00 x00 x00)
(T (W x00 x00 x80 x3f x00 x00 x80 x3f)
(T (W x00 x00 x00 x00 x00 x00 x00 x00)
(T (W xff xff xff xff xff xff xff xff)
(L (W xff xff xff xff xac x00 x00 x00)) E)
(L (W x00 x00 x00 x00 x00 x00 x00 x00)))
(T (W x00 x00 x80 x3f x00 x00 x80 x3f)
(L (W x45 x26 x22 x84 xe4 x9c xf2 xcb))
(L (W x00 x00 x00 x00 x00 x00 x00 x00))))
(T (W x00 x00 x00 x00 x00 x00 x00 x00)
(T (W xff xff xff xff x9c x00 x00 x00)
(T (W x6b x65 x5f x77 x61 x72 x6c x69)
(L (W x30 x33 x5f x43 x4c x45 x41 x52)) E)
(L (W xff xff xff xff xff xff xff xff)))
(T (W x18 x00 x00 x00 x10 x00 x00 x00)
(L (W xff xff xff xff xbc x00 x00 x00))
(L (W x00 x00 x00 x00 x12 x00 x00 x00))))))
(T (W x18 x00 x00 x00 x10 x00 x00 x00)
(T (W xb8 x00 x00 x00 xac x00 x00 x00)
(T (W x00 x00 x80 x3f x00 x00 x80 x3f)
(T (W x00 x00 x01 x01 x3a x00 x00 x00)
(T (W x4a xae x30 x97 x85 x2a x5c x5f)
(L (W x00 x00 x80 xbf x00 x00 x80 xbf)) E)
(L (W x50 x00 x54 x00 x58 x00 x5c x00)))
(T (W x5f x4e x53 x5f x30 x33 x5f x43)
(L (W x00 x00 x80 xbf x00 x00 x80 xbf))
(L (W x00 x00 x00 x00 x00 x00 x00 x00))))
(T (W x00 x00 x00 x00 x00 x00 x00 x00)
(T (W x00 x00 x80 x3f x00 x00 x80 x3f)
(T (W xff xff xff xff xff xff xff xff)
(L (W x03 x00 x00 x00 xd0 x00 x00 x00)) E)
(L (W xff xff xff xff xb0 x00 x00 x00)))
(T (W x00 x00 x00 x00 x00 x00 x00 x00)
(L (W xff xff xff xff x94 x00 x00 x00))
(L (W x00 x00 x00 x00 x00 x00 x00 x00)))))
(T (W xc0 x00 x00 x00 xb4 x00 x00 x00)
(T (W x50 x00 x00 x00 x44 x00 x00 x00)
(T (W xc4 x00 x00 x00 x01 x00 x00 x00)
(T (W x00 x00 x80 x3f x00 x00 x80 x3f)
(L (W xff xff xff xff xff xff xff xff)) E)
(L (W x00 x00 x80 xbf x00 x00 x80 xbf)))
(T (W xc8 x00 x00 x00 x01 x00 x00 x00)
(L (W xff xff xff xff xff xff xff xff))
(L (W x2f x00 x00 x00 xff xff xff xff))))
(T (W x00 x00 x00 x00 x00 x00 x00 x00)
(T (W xff xff xff xff xbc x00 x00 x00)
(T (W x00 x00 x00 x00 x00 x00 x00 x00)
(L (W xff xff xff xff xff xff xff xff)) E)
(L (W x34 x01 x00 x00 x04 x00 x00 x00)))
(T (W x02 x00 x00 x00 x20 x01 x00 x00)
(L (W xff xff xff xff x94 x00 x00 x00))
(L (W x00 x00 x80 xbf x00 x00 x80 xbf)))))))))
(T (W xb8 x00 x00 x00 xac x00 x00 x00)
(T (W x45 x26 x22 x84 xe4 x9c xf2 xcb)
(T (W xff xff xff xff xff xff xff xff)
(T (W x98 xd1 x12 x3b xef x3e xdd x3b)
(T (W x00 x00 x80 x3f x00 x00 x80 x3f)
(T (W x45 x26 x22 x84 xe4 x9c xf2 xcb)
(T (W xff xff xff xff xff xff xff xff)
(T (W xff xff xff xff xff xff xff xff)
(L (W x00 x00 x00 x00 x00 x00 x00 x00)) E)
(L (W x00 x00 x80 xbf x00 x00 x80 xbf)))
(T (W x18 x00 x00 x00 x0c x00 x00 x00)
(L (W xff xff xff xff xff xff xff xff))
(L (W xff xff xff xff x9c x00 x00 x00))))
(T (W x00 x00 x00 x00 x00 x00 x00 x00)
(T (W x68 x00 x00 x00 x5c x00 x00 x00)
(T (W x00 x00 x00 x00 x00 x00 x00 x00)
(L (W xff xff xff xff xff xff xff xff)) E)
(L (W x3c xcc xfe xff x18 x00 x00 x00)))
(T (W x92 x45 xfd xff x78 x00 x00 x00)
(L (W x45 x26 x22 x84 xe4 x9c xf2 xcb))
(L (W xff xff xff xff xff xff xff xff)))))
(T (W x68 x00 x00 x00 x5c x00 x00 x00)
(T (W x00 x00 x00 x00 x00 x00 x00 x00)
(T (W xff xff xff xff xff xff xff xff)
(T (W x18 x00 x00 x00 x10 x00 x00 x00)
(L (W x00 x00 x00 x00 x00 x00 x00 x00)) E)
(L (W xff xff xff xff xff xff xff xff)))
(T (W x00 x00 x00 x00 x3a x2f xfd xff)
(L (W x68 x00 x00 x00 x5c x00 x00 x00))
(L (W xff xff xff xff xff xff xff xff))))
(T (W x71 x00 x00 x00 xff xff xff xff)
(T (W x49 xa1 x68 x4a xeb x5f xdd x3d)
(T (W xff xff xff xff xff xff xff xff)
(L (W x30 x33 x5f x43 x4c x45 x41 x52)) E)
(L (W x00 x00 x80 xbf x00 x00 x80 xbf)))
(T (W x5f x4e x53 x5f x30 x33 x5f x43)
(L (W x5c x00 x00 x00 x50 x00 x00 x00))
(L (W xff xff xff xff xff xff xff xff))))))
(T (W x68 x00 x00 x00 x5c x00 x00 x00)
(T (W x45 x26 x22 x84 xe4 x9c xf2 xcb)
(T (W x00 x00 x00 x00 x00 x00 x00 x00)
(T (W x64 x00 x00 x00 x9c x00 x00 x00)
(T (W xff xff xff xff xff xff xff xff)
(L (W x00 x00 x00 x00 x00 x00 x00 x00)) E)
(L (W x4f x84 x6f x8b xe8 xcb x63 xb7)))
(T (W x03 x00 x00 x00 xd0 x00 x00 x00)
(L (W xac x18 xfe xff x00 x01 x01 x01))
(L (W xff xff xff xff xff xff xff xff))))
(T (W xe2 x71 xfe xff x00 x00 x01 x01)
(T (W xff xff xff xff xff xff xff xff)
(T (W x45 x26 x22 x84 xe4 x9c xf2 xcb)
(L (W xa8 x00 x00 x00 x64 x00 x00 x00)) E)
(L (W x00 x00 x80 xbf x00 x00 x80 xbf)))
(T (W xff xff xff xff xbc x00 x00 x00)
(L (W x18 x00 x00 x00 x0c x00 x00 x00))
(L (W xff xff xff xff xff xff xff xff)))))
(T (W x00 x00 x80 x3f x00 x00 x80 x3f)
(T (W x00 x00 x00 x00 x00 x00 x00 x00)
(T (W x00 x00 x00 x00 x00 x00 x00 x00)
(T (W x00 x00 x80 x3f x00 x00 x80 x3f)
(L (W x00 x00 x80 xbf x00 x00 x80 xbf)) E)
(L (W x00 x00 x00 x00 x00 x00 x00 x00)))
(T (W x00 x00 x00 x00 x00 x00 x00 x00)
(L (W x18 x00 x00 x00 x0c x00 x00 x00))
(L (W x03 x00 x00 x00 xd0 x00 x00 x00))))
(T (W xaa xbe xff xff x00 x00 x01 x01)
(T (W x00 x00 x80 x3f x00 x00 x80 x3f)
(T (W xd8 x00 x00 x00 x64 x00 x00 x00)
(L (W x00 x00 x00 x00 x1c xf7 xff xff)) E)
(L (W xdc xb7 xff xff x00 x00 x01 x01)))
(T (W xac x78 xfd xff x00 x01 x01 x01)
(L (W x54 x00 x00 x00 x48 x00 x00 x00))
(L (W xff xff xff xff xff xff xff xff)))))))
(T (W xe2 x00 x00 x00 xff xff xff xff)
(T (W x45 x26 x22 x84 xe4 x9c xf2 xcb)
(T (W x00 x00 x80 x3f x00 x00 x80 x3f)
(T (W x00 x00 x00 x00 x00 x00 x00 x00)
(T (W xff xff xff xff xff xff xff xff)
(T (W x18 x01 x00 x00 x04 x00 x00 x00)
(L (W x00 x00 x00 x00 x12 x00 x00 x00)) E)
(L (W x45 x26 x22 x84 xe4 x9c xf2 xcb)))
(T (W x45 x26 x22 x84 xe4 x9c xf2 xcb)
(L (W x45 x26 x22 x84 xe4 x9c xf2 xcb))
(L (W xff xff xff xff xff xff xff xff))))
(T (W x13 x00 x00 x00 x0c x00 x00 x00)
(T (W xff xff xff xff xff xff xff xff)
(T (W x00 x00 x80 x3f x00 x00 x80 x3f)
(L (W xff xff xff xff xb0 x00 x00 x00)) E)
(L (W x00 x00 x00 x00 x00 x00 x00 x00)))
(T (W x1f x00 x00 x00 x22 x00 x00 x00)
(L (W x18 x00 x00 x00 x0c x00 x00 x00))
(L (W x18 x00 x00 x00 x10 x00 x00 x00)))))
(T (W xe2 xeb xfb xff x74 x00 x00 x00)
(T (W x00 x00 x80 x3f x00 x00 x80 x3f)
(T (W xff xff xff xff xff xff xff xff)
(T (W x45 x26 x22 x84 xe4 x9c xf2 xcb)
(L (W x00 x00 x80 xbf x00 x00 x80 xbf)) E)
(L (W x00 x00 x00 x00 x00 x00 x00 x00)))
(T (W x00 x00 x00 x00 x00 x00 x00 x00)
(L (W x00 x00 x01 x01 x8b x01 x00 x00))
(L (W xff xff xff xff xff xff xff xff))))
(T (W x32 xb5 xff xff xd0 x00 x00 x00)
(T (W x45 x26 x22 x84 xe4 x9c xf2 xcb)
(T (W x4e x4f x54 x5f x52 x45 x53 x50)
(L (W xff xff xff xff xff xff xff xff)) E)
(L (W x50 x00 x00 x00 x44 x00 x00 x00)))
(T (W x00 x00 x80 x3f x00 x00 x80 x3f)
(L (W x68 x00 x00 x00 x5c x00 x00 x00))
(L (W xff xff xff xff xff xff xff xff))))))
(T (W xe2 xbb xfb xff x74 x00 x00 x00)
(T (W x00 x00 x80 x3f x00 x00 x80 x3f)
(T (W x00 x00 x00 x00 x00 x00 x00 x00)
(T (W x00 x00 x00 x00 x1c x9f xfc xff)
(T (W xff xff xff xff xff xff xff xff)
(L (W x30 x33 x5f x43 x4c x45 x41 x52)) E)
(L (W x00 x00 x00 x00 x00 x00 x00 x00)))
(T (W xff xff xff xff xff xff xff xff)
(L (W xff xff xff xff xff xff xff xff))
(L (W x00 x00 x00 x00 x00 x00 x00 x00))))
(T (W xff xff xff xff xff xff xff xff)
(T (W x3c xe4 xfc xff x21 x00 x00 x00)
(T (W x45 x26 x22 x84 xe4 x9c xf2 xcb)
(L (W x6c x00 x00 x00 x60 x00 x00 x00)) E)
(L (W x00 x00 x80 xbf x00 x00 x80 xbf)))
(T (W xff xff xff xff xff xff xff xff)
(L (W x58 x00 x00 x00 x4c x00 x00 x00))
(L (W x00 x00 x00 x00 xd2 x72 xff xff)))))
(T (W x00 x00 x80 x3f x00 x00 x80 x3f)
(T (W x00 x00 x00 x00 x00 x00 x00 x00)
(T (W x01 x00 x00 x00 x68 x00 x00 x00)
(T (W x00 x00 x00 x00 x00 x00 x00 x00)
(L (W x45 x26 x22 x84 xe4 x9c xf2 xcb)) E)
(L (W x00 x00 x00 x00 xc2 xbc xfe xff)))
(T (W x00 x00 x80 x3f x00 x00 x80 x3f)
(L (W x00 x00 x00 x00 x1c x3f xfe xff))
(L (W x1d x00 x00 x00 x20 x00 x00 x00))))
(T (W xff xff xff xff xff xff xff xff)
(T (W xe2 xfb xfc xff x74 x00 x00 x00)
(T (W x45 x44 x00 x00 x00 x00 x00 x00)
(L (W x00 x00 x00 x00 x00 x00 x00 x00)) E)
(L (W xac x00 xff xff x00 x01 x01 x01)))
(T (W x45 x26 x22 x84 xe4 x9c xf2 xcb)
(L (W x00 x00 x80 xbf x00 x00 x80 xbf))
(L (W x00 x00 x00 x00 x00 x00 x00 x00))))))))
(T (W x61 x72 x6c x69 x6b x65 x5f x6c)
(T (W xac x9c xfb xff x00 x01 x01 x01)
(T (W xff xff xff xff xff xff xff xff)
(T (W x00 x00 x00 x00 x00 x00 x00 x00)
(T (W xff xff xff xff xff xff xff xff)
(T (W x00 x00 x80 x3f x00 x00 x80 x3f)
(T (W xe2 x87 xfd xff x74 x00 x00 x00)
(L (W x45 x26 x22 x84 xe4 x9c xf2 xcb)) E)
(L (W xff xff xff xff xff xff xff xff)))
(T (W x00 x00 x00 x00 x00 x00 x00 x00)
(L (W xc4 x00 x00 x00 x01 x00 x00 x00))
(L (W x00 x00 x00 x00 x00 x00 x00 x00))))
(T (W x18 x00 x00 x00 x10 x00 x00 x00)
(T (W x00 x00 x00 x00 x12 x00 x00 x00)
(T (W x28 x00 x00 x00 x10 x00 x00 x00)
(L (W x49 xa1 x68 x4a xeb x5f xdd x3d)) E)
(L (W x45 x26 x22 x84 xe4 x9c xf2 xcb)))
(T (W x5f x4e x53 x5f x30 x33 x5f x43)
(L (W x28 x2a xc8 xc9 x03 x89 xa0 xbc))
(L (W x00 x00 x00 x00 x00 x00 x00 x00)))))
(T (W x8c x01 x00 x00 xff xff xff xff)
(T (W xff xff xff xff x04 x00 x00 x00)
(T (W x00 x00 x00 x00 x00 x00 x00 x00)
(T (W x00 x00 x00 x00 x00 x00 x00 x00)
(L (W xff xff xff xff x9c x00 x00 x00)) E)
(L (W x00 x00 x80 xbf x00 x00 x80 xbf)))
(T (W x45 x26 x22 x84 xe4 x9c xf2 xcb)
(L (W x00 x00 x00 x00 x00 x00 x00 x00))
(L (W x50 x00 x00 x00 x44 x00 x00 x00))))
(T (W x00 x00 x80 x3f x00 x00 x80 x3f)
(T (W xff xff xff xff xff xff xff xff)
(T (W x45 x44 x00 x00 x00 x00 x00 x00)
(L (W x00 x00 x00 x00 x68 x00 x6c x00)) E)
(L (W x30 x33 x5f x43 x4c x45 x41 x52)))
(T (W xff xff xff xff xff xff xff xff)
(L (W x7c x03 x00 x00 x4c x02 x00 x00))
(L (W x00 x00 x80 xbf x00 x00 x80 xbf))))))
(T (W x40 x00 x00 x00 x10 x00 x00 x00)
(T (W xff xff xff xff x01 x00 x00 x00)
(T (W xff xff xff xff x03 x00 x00 x00)
(T (W x00 x00 x00 x00 x00 x00 x00 x00)
(T (W x00 x00 x80 x3f x00 x00 x80 x3f)
(L (W xff xff xff xff x9c x00 x00 x00)) E)
(L (W xff xff xff xff xff xff xff xff)))
(T (W x00 x00 x80 x3f x00 x00 x80 x3f)
(L (W x23 x00 x00 x00 x10 x00 x00 x00))
(L (W xff xff xff xff x9c x00 x00 x00))))
(T (W x50 x00 x00 x00 x44 x00 x00 x00)
(T (W x54 x00 x00 x00 x48 x00 x00 x00)
(T (W x00 x00 x00 x00 x00 x00 x00 x00)
(L (W x45 x44 x00 x00 x00 x00 x00 x00)) E)
(L (W xff xff xff xff xc4 x00 x00 x00)))
(T (W x49 xa1 x68 x4a xeb x5f xdd x3d)
(L (W x00 x00 x00 x00 x00 x00 x00 x00))
(L (W x00 x00 x80 xbf x00 x00 x80 xbf)))))
(T (W xff xff xff xff xff xff xff xff)
(T (W xe2 x37 xfc xff x74 x00 x00 x00)
(T (W x00 x00 x00 x00 x00 x00 x00 x00)
(T (W x00 x00 x80 x3f x00 x00 x80 x3f)
(L (W x00 x00 x00 x00 x00 x00 x00 x00)) E)
(L (W x00 x00 x80 xbf x00 x00 x80 xbf)))
(T (W xff xff xff xff xff xff xff xff)
(L (W x00 x00 x00 x00 x00 x00 x00 x00))
(L (W x00 x00 x00 x00 x00 x00 x00 x00))))
(T (W x00 x00 x00 x00 x00 x00 x00 x00)
(T (W xff xff xff xff xff xff xff xff)
(T (W x00 x00 x00 x00 x00 x00 x00 x00)
(L (W x4c x01 x00 x00 x04 x00 x00 x00)) E)
(L (W x00 x00 x00 x00 x00 x00 x00 x00)))
(T (W x94 x90 xfd xff x10 x00 x00 x00)
(L (W xff xff xff xff xff xff xff xff))
(L (W x45 x26 x22 x84 xe4 x9c xf2 xcb)))))))
(T (W x70 x5f x6c x65 x61 x64 x65 x72)
(T (W x00 x00 x00 x00 x00 x00 x00 x00)
(T (W x48 x03 x00 x00 x34 x02 x00 x00)
(T (W xff xff xff xff xff xff xff xff)
(T (W x00 x00 x80 x3f x00 x00 x80 x3f)
(T (W x00 x00 x80 x3f x00 x00 x80 x3f)
(L (W x1f x00 x00 x00 x22 x00 x00 x00)) E)
(L (W xff xff xff xff xff xff xff xff)))
(T (W x00 x00 x00 x00 x00 x00 x00 x00)
(L (W xff xff xff xff xff xff xff xff))
(L (W x6c x00 x00 x00 x60 x00 x00 x00))))
(T (W x40 x00 x00 x00 x9c x00 x00 x00)
(T (W x45 x26 x22 x84 xe4 x9c xf2 xcb)
(T (W x00 x00 x00 x00 x00 x00 x00 x00)
(L (W x00 x00 x00 x00 x00 x00 x00 x00)) E)
(L (W xff xff xff xff xac x00 x00 x00)))
(T (W x00 x00 x00 x00 x00 x00 x00 x00)
(L (W x45 x44 x00 x00 x00 x00 x00 x00))
(L (W x00 x00 x00 x00 x00 x00 x00 x00)))))
(T (W xff xff xff xff xff xff xff xff)
(T (W x18 x00 x00 x00 x0c x00 x00 x00)
(T (W x00 x00 x00 x00 x00 x00 x00 x00)
(T (W xb2 xa0 x30 x97 x85 x22 x5c x5f)
(L (W x34 x01 x00 x00 x04 x00 x00 x00)) E)
(L (W x00 x00 x80 xbf x00 x00 x80 xbf)))
(T (W x03 x00 x00 x00 xd4 x00 x00 x00)
(L (W xfd xfc x65 x8e x65 x6c x78 x37))
(L (W x4f x84 x6f x8b xe8 xcb x63 xb7))))
(T (W x00 x00 x80 x3f x00 x00 x80 x3f)
(T (W xff xff xff xff xff xff xff xff)
(T (W xff xff xff xff xff xff xff xff)
(L (W xff xff xff xff xff xff xff xff)) E)
(L (W x00 x00 x00 x00 x00 x00 x00 x00)))
(T (W x00 x00 x00 x00 x00 x00 x00 x00)
(L (W xff xff xff xff xff xff xff xff))
(L (W x00 x00 x80 xbf x00 x00 x80 xbf))))))
(T (W x18 x01 x00 x00 x04 x00 x00 x00)
(T (W xe9 xce x15 x8e x88 x89 x72 x04)
(T (W xff xff xff xff xff xff xff xff)
(T (W x45 x26 x22 x84 xe4 x9c xf2 xcb)
(T (W x00 x00 x00 x00 x00 x00 x00 x00)
(L (W xff xff xff xff xb0 x00 x00 x00)) E)
(L (W x6c x00 x00 x00 x60 x00 x00 x00)))
(T (W x00 x00 x80 x3f x00 x00 x80 x3f)
(L (W xff xff xff xff xff xff xff xff))
(L (W x00 x00 x80 xbf x00 x00 x80 xbf))))
(T (W x6c x00 x00 x00 x60 x00 x00 x00)
(T (W x18 x00 x00 x00 x10 x00 x00 x00)
(T (W x54 x00 x00 x00 x48 x00 x00 x00)
(L (W x06 x00 x00 x00 x58 x06 x00 x00)) E)
(L (W x74 x03 x00 x00 x4c x02 x00 x00)))
(T (W x00 x00 x80 x3f x00 x00 x80 x3f)
(L (W x45 x44 x00 x00 x00 x00 x00 x00))
(L (W x00 x00 x80 xbf x00 x00 x80 xbf)))))
(T (W xff xff xff xff xff xff xff xff)
(T (W x45 x26 x22 x84 xe4 x9c xf2 xcb)
(T (W x04 x00 x00 x00 x3a xcb xfc xff)
(T (W xff xff xff xff xff xff xff xff)
(L (W xff xff xff xff xff xff xff xff)) E)
(L (W x92 xc1 xfe xff x78 x00 x00 x00)))
(T (W x02 x00 x00 x00 xff xff xff xff)
(L (W x00 x00 x00 x00 x00 x00 x00 x00))
(L (W x00 x00 x00 x00 x12 x00 x00 x00))))
(T (W x45 x26 x22 x84 xe4 x9c xf2 xcb)
(T (W x30 x33 x5f x43 x4c x45 x41 x52)
(T (W xff xff xff xff xff xff xff xff)
(L (W x48 x00 x00 x00 x14 x00 x00 x00)) E)
(L (W x45 x26 x22 x84 xe4 x9c xf2 xcb)))
(T (W x00 x00 x00 x00 x00 x00 x00 x00)
(L (W xff xff xff xff xff xff xff xff))
(L (W xff xff xff xff xb0 x00 x00 x00))))))))))
(T (W xe0 x97 x01 x00 x84 x95 x01 x00)
(T (W x08 x52 x00 x00 xbc x4f x00 x00)
(T (W x00 x00 x00 x00 x00 x00 x00 x00)
(T (W xe2 x92 xfb xff x74 x00 x00 x00)
(T (W xff xff xff xff xff xff xff xff)
(T (W x45 x26 x22 x84 xe4 x9c xf2 xcb)
(T (W x00 x00 x00 x00 x00 x00 x00 x00)
(T (W x64 x00 x00 x00 x9c x00 x00 x00)
(T (W xff xff xff xff xff xff xff xff)
(L (W x30 x33 x5f x43 x4c x45 x41 x52)) E)
(L (W x00 x00 x00 x00 x00 x00 x00 x00)))
(T (W x00 x00 x80 x3f x00 x00 x80 x3f)
(L (W x92 x04 xfe xff x78 x00 x00 x00))
(L (W x6c x00 x00 x00 x60 x00 x00 x00))))
(T (W xe2 x60 xfe xff x00 x00 x01 x01)
(T (W x00 x00 x80 x3f x00 x00 x80 x3f)
(T (W x00 x00 x00 x00 x00 x00 x00 x00)
(L (W xbc x00 x00 x00 x02 x00 x00 x00)) E)
(L (W xff xff xff xff xff xff xff xff)))
(T (W x00 x00 x80 x3f x00 x00 x80 x3f)
(L (W x00 x00 x80 xbf x00 x00 x80 xbf))
(L (W xe2 x42 xff xff x74 x00 x00 x00)))))
(T (W x00 x00 x80 x3f x00 x00 x80 x3f)
(T (W x00 x00 x00 x00 x00 x00 x00 x00)
(T (W x00 x00 x80 x3f x00 x00 x80 x3f)
(T (W x45 x26 x22 x84 xe4 x9c xf2 xcb)
(L (W x00 x00 x00 x00 xd2 xb9 xff xff)) E)
(L (W xff xff xff xff xff xff xff xff)))
(T (W xff xff xff xff xff xff xff xff)
(L (W x00 x00 x80 xbf x00 x00 x80 xbf))
(L (W xff xff xff xff xbc x00 x00 x00))))
(T (W xff xff xff xff xff xff xff xff)
(T (W x00 x00 x00 x00 x00 x00 x00 x00)
(T (W x68 x00 x00 x00 x5c x00 x00 x00)
(L (W xff xff xff xff xff xff xff xff)) E)
(L (W x00 x00 x80 xbf x00 x00 x80 xbf)))
(T (W x00 x00 x00 x00 x3a x6e xfd xff)
(L (W x00 x00 x80 xbf x00 x00 x80 xbf))
(L (W xff xff xff xff xff xff xff xff))))))
(T (W x00 x00 x80 x3f x00 x00 x80 x3f)
(T (W x45 x26 x22 x84 xe4 x9c xf2 xcb)
(T (W x00 x00 x00 x00 x00 x00 x00 x00)
(T (W x50 x00 x00 x00 x44 x00 x00 x00)
(T (W xff xff xff xff xff xff xff xff)
(L (W x00 x00 x00 x00 x00 x00 x00 x00)) E)
(L (W x00 x00 x00 x00 x00 x00 x00 x00)))
(T (W xff xff xff xff x9c x00 x00 x00)
(L (W x54 x00 x00 x00 x48 x00 x00 x00))
(L (W xff xff xff xff xff xff xff xff))))
(T (W xff xff xff xff xff xff xff xff)
(T (W xff xff xff xff xff xff xff xff)
(T (W x00 x00 x80 x3f x00 x00 x80 x3f)
(L (W x45 x26 x22 x84 xe4 x9c xf2 xcb)) E)
(L (W x00 x00 x00 x00 x00 x00 x00 x00)))
(T (W x45 x26 x22 x84 xe4 x9c xf2 xcb)
(L (W x45 x26 x22 x84 xe4 x9c xf2 xcb))
(L (W x45 x26 x22 x84 xe4 x9c xf2 xcb)))))
(T (W x00 x00 x80 x3f x00 x00 x80 x3f)
(T (W x00 x00 x00 x00 x00 x00 x00 x00)
(T (W x01 x00 x00 x00 xa0 x00 x00 x00)
(T (W x00 x00 x80 x3f x00 x00 x80 x3f)
(L (W x00 x00 x80 xbf x00 x00 x80 xbf)) E)
(L (W xaa x01 x00 x00 xff xff xff xff)))
(T (W x4c x45 x41 x52 x45 x44 x00 x00)
(L (W x00 x00 x80 xbf x00 x00 x80 xbf))
(L (W xff xff xff xff xac x00 x00 x00))))
(T (W xff xff xff xff xff xff xff xff)
(T (W x00 x00 x80 x3f x00 x00 x80 x3f)
(T (W x00 x00 x00 x00 x00 x00 x00 x00)
(L (W x00 x00 x80 xbf x00 x00 x80 xbf)) E)
(L (W x00 x00 x80 xbf x00 x00 x80 xbf)))
(T (W x00 x00 x80 x3f x00 x00 x80 x3f)
(L (W x00 x00 x80 xbf x00 x00 x80 xbf))
(L (W xff xff xff xff xff xff xff xff)))))))
(T (W x45 x26 x22 x84 xe4 x9c xf2 xcb)
(T (W x00 x00 x00 x00 x00 x00 x00 x00)
(T (W x00 x00 x00 x00 x00 x00 x00 x00)
(T (W x00 x00 x00 x00 x00 x00 x00 x00)
(T (W xac x8f xfc xff x00 x01 x01 x01)
(T (W xff xff xff xff xff xff xff xff)
(L (W x00 x00 x00 x00 x00 x00 x00 x00)) E)
(L (W x00 x00 x00 x00 x00 x00 x00 x00)))
(T (W x54 x00 x00 x00 x48 x00 x00 x00)
(L (W x00 x00 x00 x00 x00 x00 x00 x00))
(L (W xff xff xff xff x9c x00 x00 x00))))
(T (W xff xff xff xff xff xff xff xff)
(T (W xe2 xca xfc xff x74 x00 x00 x00)
(T (W x00 x00 x80 x3f x00 x00 x80 x3f)
(L (W x45 x26 x22 x84 xe4 x9c xf2 xcb)) E)
(L (W x6d xa0 x59 x1d xca x32 xa0 xfd)))
(T (W x00 x00 x80 x3f x00 x00 x80 x3f)
(L (W x54 x00 x00 x00 x48 x00 x00 x00))
(L (W x6c x00 x00 x00 x60 x00 x00 x00)))))
(T (W x45 x26 x22 x84 xe4 x9c xf2 xcb)
(T (W x00 x00 x00 x00 x00 x00 x00 x00)
(T (W x18 x00 x00 x00 x10 x00 x00 x00)
(T (W x00 x00 x80 x3f x00 x00 x80 x3f)
(L (W x00 x00 x80 xbf x00 x00 x80 xbf)) E)
(L (W xff xff xff xff xff xff xff xff)))
(T (W x54 x02 x00 x00 x34 x01 x00 x00)
(L (W xff xff xff xff xff xff xff xff))
(L (W xff xff xff xff xff xff xff xff))))
(T (W xff xff xff xff xff xff xff xff)
(T (W x00 x00 x00 x00 x00 x00 x00 x00)
(T (W x02 x00 x00 x00 xff xff xff xff)
(L (W xff xff xff xff xb0 x00 x00 x00)) E)
(L (W x00 x00 x80 xbf x00 x00 x80 xbf)))
(T (W x49 xa1 x68 x4a xeb x5f xdd x3d)
(L (W x00 x00 x80 xbf x00 x00 x80 xbf))
(L (W x03 x00 x00 x00 xd0 x00 x00 x00))))))
(T (W x50 x00 x00 x00 x44 x00 x00 x00)
(T (W x00 x00 x80 x3f x00 x00 x80 x3f)
(T (W x00 x00 x00 x00 x00 x00 x00 x00)
(T (W xe2 x9a xfc xff x74 x00 x00 x00)
(T (W x18 x00 x00 x00 x10 x00 x00 x00)
(L (W x7a x9d xff xff xbe x00 x00 x00)) E)
(L (W x46 x53 x59 x53 x5f x4e x53 x5f)))
(T (W xc4 x00 x00 x00 x01 x00 x00 x00)
(L (W xbc xeb xff xff x01 x01 x01 x01))
(L (W xff xff xff xff xff xff xff xff))))
(T (W xff xff xff xff xff xff xff xff)
(T (W xff xff xff xff xff xff xff xff)
(T (W xac xdf xfd xff x00 x01 x01 x01)
(L (W x38 x00 x00 x00 x00 x00 x80 xbf)) E)
(L (W x00 x00 x00 x00 x00 x00 x00 x00)))
(T (W xff xff xff xff xff xff xff xff)
(L (W x00 x00 x80 xbf x00 x00 x80 xbf))
(L (W xff xff xff xff xff xff xff xff)))))
(T (W x00 x00 x00 x00 x00 x00 x00 x00)
(T (W x40 x00 x00 x00 x10 x00 x00 x00)
(T (W xff xff xff xff xff xff xff xff)
(T (W x00 x00 x00 x00 x00 x00 x00 x00)
(L (W x68 x00 x00 x00 x5c x00 x00 x00)) E)
(L (W xff xff xff xff xff xff xff xff)))
(T (W x45 x26 x22 x84 xe4 x9c xf2 xcb)
(L (W x00 x00 x80 xbf x00 x00 x80 xbf))
(L (W x92 x3c xff xff x78 x00 x00 x00))))
(T (W xff xff xff xff xff xff xff xff)
(T (W x00 x00 x80 x3f x00 x00 x80 x3f)
(T (W xff xff xff xff xff xff xff xff)
(L (W xff xff xff xff xff xff xff xff)) E)
(L (W x50 x00 x00 x00 x44 x00 x00 x00)))
(T (W x50 x00 x00 x00 x44 x00 x00 x00)
(L (W x4f x84 x6f x8b xe8 xcb x63 xb7))
(L (W x00 x00 x00 x00 x00 x00 x00 x00))))))))
(T (W xff xff xff xff x03 x00 x00 x00)
(T (W x00 x00 x80 x3f x00 x00 x80 x3f)
(T (W x00 x00 x80 x3f x00 x00 x80 x3f)
(T (W x71 x00 x00 x00 xff xff xff xff)
(T (W xff xff xff xff xff xff xff xff)
(T (W x45 x26 x22 x84 xe4 x9c xf2 xcb)
(T (W x00 x00 x80 x3f x00 x00 x80 x3f)
(L (W x54 x00 x00 x00 x48 x00 x00 x00)) E)
(L (W x45 x26 x22 x84 xe4 x9c xf2 xcb)))
(T (W x4a x00 x00 x00 xff xff xff xff)
(L (W x00 x00 x80 x3f x00 x00 x80 x3f))
(L (W x1b x00 x00 x00 x10 x00 x00 x00))))
(T (W xac x4b xfc xff x00 x01 x01 x01)
(T (W x00 x00 x00 x00 x02 x00 x00 x00)
(T (W xd0 x00 x00 x00 xac x00 x00 x00)
(L (W x1f x00 x00 x00 x10 x00 x00 x00)) E)
(L (W x54 x00 x00 x00 x48 x00 x00 x00)))
(T (W x9d x01 x00 x00 xff xff xff xff)
(L (W xff xff xff xff xff xff xff xff))
(L (W x00 x00 x00 x00 xc2 x47 xff xff)))))
(T (W xff xff xff xff xff xff xff xff)
(T (W xe2 x26 xfc xff x74 x00 x00 x00)
(T (W x00 x00 x00 x00 x00 x00 x00 x00)
(T (W xe6 x99 x30 x97 x85 x1e x5c x5f)
(L (W x6c x00 x00 x00 x60 x00 x00 x00)) E)
(L (W x00 x00 x00 x00 x00 x00 x00 x00)))
(T (W x00 x00 x80 x3f x00 x00 x80 x3f)
(L (W x3c x2f xfe xff x2d x00 x00 x00))
(L (W x00 x00 x80 xbf x00 x00 x80 xbf))))
(T (W x00 x00 x00 x00 x00 x00 x00 x00)
(T (W x45 x26 x22 x84 xe4 x9c xf2 xcb)
(T (W xff xff xff xff xff xff xff xff)
(L (W x00 x00 x80 xbf x00 x00 x80 xbf)) E)
(L (W xff xff xff xff xff xff xff xff)))
(T (W x68 x00 x00 x00 x5c x00 x00 x00)
(L (W xff xff xff xff xff xff xff xff))
(L (W x49 xa1 x68 x4a xeb x5f xdd x3d))))))
(T (W xff xff xff xff xff xff xff xff)
(T (W xff xff xff xff xff xff xff xff)
(T (W x01 x00 x00 x00 xa0 x00 x00 x00)
(T (W x00 x00 x00 x00 x00 x00 x00 x00)
(T (W x00 x00 x00 x00 x00 x00 x00 x00)
(L (W x92 x98 xff xff x78 x00 x00 x00)) E)
(L (W x70 x00 x00 x00 x64 x00 x00 x00)))
(T (W x00 x00 x00 x00 x00 x00 x00 x00)
(L (W xff xff xff xff xff xff xff xff))
(L (W x6c x00 x00 x00 x60 x00 x00 x00))))
(T (W x00 x00 x80 x3f x00 x00 x80 x3f)
(T (W x45 x26 x22 x84 xe4 x9c xf2 xcb)
(T (W x00 x00 x00 x00 x00 x00 x00 x00)
(L (W xff xff xff xff xff xff xff xff)) E)
(L (W x45 x26 x22 x84 xe4 x9c xf2 xcb)))
(T (W x00 x00 x00 x00 x00 x00 x00 x00)
(L (W x00 x00 x00 x00 xf2 x5a xfe xff))
(L (W x4f x84 x6f x8b xe8 xcb x63 xb7)))))
(T (W xff xff xff xff xff xff xff xff)
(T (W x68 x00 x00 x00 x5c x00 x00 x00)
(T (W x40 x00 x44 x00 x00 x00 x48 x00)
(T (W x6f x6b x65 x5f x63 x6f x77 x61)
(L (W x7c x03 x00 x00 x4c x02 x00 x00)) E)
(L (W x00 x00 x80 xbf x00 x00 x80 xbf)))
(T (W xff xff xff xff xac x00 x00 x00)
(L (W x45 x44 x00 x00 x00 x00 x00 x00))
(L (W x00 x00 x00 x00 x00 x00 x00 x00))))
(T (W x00 x00 x00 x00 x00 x00 x00 x00)
(T (W xff xff xff xff xff xff xff xff)
(T (W x00 x00 x60 x00 x00 x00 x00 x00)
(L (W xb4 x00 x00 x00 x64 x00 x00 x00)) E)
(L (W xb4 x05 x00 x00 x84 x04 x00 x00)))
(T (W xff xff xff xff xff xff xff xff)
(L (W xff xff xff xff xff xff xff xff))
(L (W x00 x00 x00 x00 x00 x00 x00 x00)))))))
(T (W xff xff xff xff xff xff xff xff)
(T (W x1c x01 x00 x00 x04 x00 x00 x00)
(T (W xff xff xff xff xff xff xff xff)
(T (W x18 x00 x00 x00 x10 x00 x00 x00)
(T (W x00 x00 x00 x00 x00 x00 x00 x00)
(T (W x00 x00 x80 x3f x00 x00 x80 x3f)
(L (W x00 x00 x80 xbf x00 x00 x80 xbf)) E)
(L (W xcc x00 x00 x00 x01 x00 x00 x00)))
(T (W x00 x00 x00 x00 x00 x00 x00 x00)
(L (W xff xff xff xff xb0 x00 x00 x00))
(L (W x00 x00 x00 x00 x00 x00 x00 x00))))
(T (W x00 x00 x80 x3f x00 x00 x80 x3f)
(T (W x00 x00 x00 x00 x00 x00 x00 x00)
(T (W xdf xc7 x36 x97 x85 x27 x63 x5f)
(L (W x00 x00 x00 x00 xd2 xe5 xff xff)) E)
(L (W x92 xd0 xfe xff x78 x00 x00 x00)))
(T (W x00 x00 x00 x00 x00 x00 x00 x00)
(L (W xff xff xff xff xff xff xff xff))
(L (W x00 x00 x00 x00 x00 x00 x00 x00)))))
(T (W xb8 x00 x00 x00 xac x00 x00 x00)
(T (W x00 x00 x80 x3f x00 x00 x80 x3f)
(T (W x00 x00 x00 x00 x00 x00 x00 x00)
(T (W xff xff xff xff xff xff xff xff)
(L (W xff xff xff xff xff xff xff xff)) E)
(L (W x00 x00 x80 xbf x00 x00 x80 xbf)))
(T (W x50 x00 x00 x00 x44 x00 x00 x00)
(L (W xff xff xff xff xff xff xff xff))
(L (W x00 x00 x00 x00 x00 x00 x00 x00))))
(T (W x00 x00 x00 x00 x00 x00 x00 x00)
(T (W x03 x00 x00 x00 xd0 x00 x00 x00)
(T (W x00 x00 x80 x3f x00 x00 x80 x3f)
(L (W x00 x00 x00 x00 x00 x00 x00 x00)) E)
(L (W x45 x44 x00 x00 x00 x00 x00 x00)))
(T (W xff xff xff xff xff xff xff xff)
(L (W xff xff xff xff xff xff xff xff))
(L (W x00 x00 x00 x00 x00 x00 x00 x00))))))
(T (W xff xff xff xff xff xff xff xff)
(T (W xff xff xff xff xff xff xff xff)
(T (W xac x23 xfc xff x00 x01 x01 x01)
(T (W x00 x00 x00 x00 x00 x00 x00 x00)
(T (W x00 x00 x00 x00 x00 x00 x00 x00)
(L (W x45 x26 x22 x84 xe4 x9c xf2 xcb)) E)
(L (W x00 x00 x00 x00 x00 x00 x00 x00)))
(T (W x00 x00 x00 x00 x00 x00 x00 x00)
(L (W x18 x00 x00 x00 x0c x00 x00 x00))
(L (W x00 x00 x80 xbf x00 x00 x80 xbf))))
(T (W x00 x00 x80 x3f x00 x00 x80 x3f)
(T (W x6c x00 x00 x00 x60 x00 x00 x00)
(T (W x00 x00 x00 x00 x02 x00 x00 x00)
(L (W xff xff xff xff xff xff xff xff)) E)
(L (W xff xff xff xff xff xff xff xff)))
(T (W x49 xa1 x68 x4a xeb x5f xdd x3d)
(L (W xff xff xff xff xff xff xff xff))
(L (W x45 x26 x22 x84 xe4 x9c xf2 xcb)))))
(T (W xff xff xff xff xff xff xff xff)
(T (W xe2 x3e xfc xff x74 x00 x00 x00)
(T (W xff xff xff xff xff xff xff xff)
(T (W x01 x00 x00 x00 xa0 x00 x00 x00)
(L (W xff xff xff xff xff xff xff xff)) E)
(L (W x50 x00 x00 x00 x44 x00 x00 x00)))
(T (W xff xff xff xff xff xff xff xff)
(L (W xff xff xff xff xff xff xff xff))
(L (W x00 x00 x00 x00 x00 x00 x00 x00))))
(T (W x00 x00 x00 x00 x00 x00 x00 x00)
(T (W xff xff xff xff xff xff xff xff)
(T (W x00 x00 x80 x3f x00 x00 x80 x3f)
(L (W x00 x00 x00 x00 x00 x00 x00 x00)) E)
(L (W x00 x00 x00 x00 x12 x00 x00 x00)))
(T (W x00 x00 x00 x00 x00 x00 x00 x00)
(L (W xc4 x00 x00 x00 x01 x00 x00 x00))
(L (W x00 x00 x80 xbf x00 x00 x80 xbf)))))))))
(T (W xff xff xff xff xff xff xff xff)
(T (W x00 x00 x80 x3f x00 x00 x80 x3f)
(T (W x77 x61 x72 x6c x69 x6b x65 x5f)
(T (W x00 x00 x00 x00 x00 x00 x00 x00)
(T (W x01 x00 x00 x00 xa0 x00 x00 x00)
(T (W x54 x00 x00 x00 x48 x00 x00 x00)
(T (W xff xff xff xff xff xff xff xff)
(T (W x70 x5f x6c x65 x61 x64 x65 x72)
(L (W x00 x00 x80 xbf x00 x00 x80 xbf)) E)
(L (W x38 x00 x00 x00 x00 x00 x80 xbf)))
(T (W xff xff xff xff xff xff xff xff)
(L (W x6c x64 x5f x70 x6f x6b x65 x5f))
(L (W x03 x00 x00 x00 xd8 x00 x00 x00))))
(T (W x45 x26 x22 x84 xe4 x9c xf2 xcb)
(T (W x03 x00 x00 x00 xcc x00 x00 x00)
(T (W x45 x26 x22 x84 xe4 x9c xf2 xcb)
(L (W xff xff xff xff xff xff xff xff)) E)
(L (W x49 xa1 x68 x4a xeb x5f xdd x3d)))
(T (W x18 x00 x00 x00 x0c x00 x00 x00)
(L (W xa0 x00 x00 x00 x64 x00 x00 x00))
(L (W xff xff xff xff xff xff xff xff)))))
(T (W xac xe9 xfb xff x00 x01 x01 x01)
(T (W x00 x00 x80 x3f x00 x00 x80 x3f)
(T (W xff xff xff xff xff xff xff xff)
(T (W xff xff xff xff xff xff xff xff)
(L (W x00 x00 x80 xbf x00 x00 x80 xbf)) E)
(L (W x00 x00 x00 x00 x00 x00 x00 x00)))
(T (W x5f x4e x53 x5f x30 x33 x5f x43)
(L (W x03 x00 x00 x00 xbc x00 x00 x00))
(L (W x00 x00 x00 x00 x00 x00 x00 x00))))
(T (W x00 x00 x00 x00 x00 x00 x00 x00)
(T (W x00 x00 x80 x3f x00 x00 x80 x3f)
(T (W x24 x00 x00 x00 x0c x00 x00 x00)
(L (W x00 x00 x00 x00 x00 x00 x00 x00)) E)
(L (W x92 xe6 xfe xff x78 x00 x00 x00)))
(T (W x00 x00 x00 x00 x00 x00 x00 x00)
(L (W x14 x00 x00 x00 x0c x00 x00 x00))
(L (W x00 x00 x00 x00 x00 x00 x00 x00))))))
(T (W xe2 xb4 xfb xff x74 x00 x00 x00)
(T (W x50 x00 x00 x00 x44 x00 x00 x00)
(T (W x45 x26 x22 x84 xe4 x9c xf2 xcb)
(T (W xff xff xff xff xff xff xff xff)
(T (W x04 x00 x00 x00 xf2 xb5 xff xff)
(L (W x00 x00 x80 xbf x00 x00 x80 xbf)) E)
(L (W x00 x00 x80 xbf x00 x00 x80 xbf)))
(T (W xff xff xff xff xff xff xff xff)
(L (W xb4 x00 x00 x00 x0a x00 x00 x00))
(L (W x45 x44 x00 x00 x00 x00 x00 x00))))
(T (W x00 x00 x00 x00 x00 x00 x00 x00)
(T (W x2c x00 x00 x00 x10 x00 x00 x00)
(T (W x18 x00 x00 x00 x10 x00 x00 x00)
(L (W x03 x00 x00 x00 xd8 x00 x00 x00)) E)
(L (W x00 x00 x80 xbf x00 x00 x80 xbf)))
(T (W x02 x00 x00 x00 xff xff xff xff)
(L (W xff xff xff xff xff xff xff xff))
(L (W xff xff xff xff xff xff xff xff)))))
(T (W x18 x00 x00 x00 x0c x00 x00 x00)
(T (W x00 x00 x80 x3f x00 x00 x80 x3f)
(T (W x00 x00 x00 x00 x00 x00 x00 x00)
(T (W x45 x26 x22 x84 xe4 x9c xf2 xcb)
(L (W x1c x00 x00 x00 x10 x00 x00 x00)) E)
(L (W x00 x00 x00 x00 x12 x00 x00 x00)))
(T (W x00 x00 x80 x3f x00 x00 x80 x3f)
(L (W xff xff xff xff xff xff xff xff))
(L (W xff xff xff xff xff xff xff xff))))
(T (W x00 x00 x00 x00 x00 x00 x00 x00)
(T (W x50 x00 x00 x00 x44 x00 x00 x00)
(T (W x01 x00 x00 x00 x68 x00 x00 x00)
(L (W x4c x00 x50 x00 x54 x00 x00 x00)) E)
(L (W xff xff xff xff xb0 x00 x00 x00)))
(T (W xbc x00 x00 x00 x14 x00 x00 x00)
(L (W x18 x00 x00 x00 x0c x00 x00 x00))
(L (W x00 x00 x00 x00 x00 x00 x00 x00)))))))
(T (W x70 x5f x77 x69 x6c x64 x5f x70)
(T (W x18 x00 x00 x00 x0c x00 x00 x00)
(T (W xe2 xcc xfb xff x74 x00 x00 x00)
(T (W x00 x00 x80 x3f x00 x00 x80 x3f)
(T (W x44 x00 x00 x00 xff xff xff xff)
(T (W x00 x00 x00 x00 x00 x00 x00 x00)
(L (W x45 x26 x22 x84 xe4 x9c xf2 xcb)) E)
(L (W x00 x00 x80 xbf x00 x00 x80 xbf)))
(T (W xff xff xff xff xff xff xff xff)
(L (W x00 x00 x80 x3f x00 x00 x80 x3f))
(L (W x00 x00 x00 x00 xc2 x0d xff xff))))
(T (W x00 x00 x00 x00 x00 x00 x00 x00)
(T (W xff xff xff xff xff xff xff xff)
(T (W xff xff xff xff xff xff xff xff)
(L (W xff xff xff xff xff xff xff xff)) E)
(L (W x00 x00 x80 xbf x00 x00 x80 xbf)))
(T (W xff xff xff xff xff xff xff xff)
(L (W xcc x00 x00 x00 x02 x00 x00 x00))
(L (W xff xff xff xff xff xff xff xff)))))
(T (W x45 x26 x22 x84 xe4 x9c xf2 xcb)
(T (W x00 x00 x80 x3f x00 x00 x80 x3f)
(T (W xff xff xff xff xff xff xff xff)
(T (W x18 x00 x00 x00 x10 x00 x00 x00)
(L (W x00 x00 x00 x00 x1c xb0 xff xff)) E)
(L (W x00 x00 x00 x00 x00 x00 x00 x00)))
(T (W x45 x26 x22 x84 xe4 x9c xf2 xcb)
(L (W x00 x00 x00 x00 x00 x00 x00 x00))
(L (W x90 x07 xb9 x28 xbf xc9 x67 x6a))))
(T (W x00 x00 x00 x00 x00 x00 x00 x00)
(T (W x6c x00 x00 x00 x60 x00 x00 x00)
(T (W xac x01 x00 x00 xb4 x00 x00 x00)
(L (W x7a xef xff xff xbe x00 x00 x00)) E)
(L (W x18 x00 x00 x00 x10 x00 x00 x00)))
(T (W x68 x00 x00 x00 x5c x00 x00 x00)
(L (W x45 x26 x22 x84 xe4 x9c xf2 xcb))
(L (W x00 x00 x00 x00 x02 x00 x00 x00))))))
(T (W x45 x26 x22 x84 xe4 x9c xf2 xcb)
(T (W x68 x00 x00 x00 x5c x00 x00 x00)
(T (W x00 x00 x00 x00 x00 x00 x00 x00)
(T (W xff xff xff xff xff xff xff xff)
(T (W xff xff xff xff xff xff xff xff)
(L (W x00 x00 x00 x00 x00 x00 x00 x00)) E)
(L (W x18 x00 x00 x00 x0c x00 x00 x00)))
(T (W x04 x00 x00 x00 x3a x28 xfd xff)
(L (W x78 x00 x08 x00 x70 x00 x0c x00))
(L (W x00 x00 x00 x00 x00 x00 x00 x00))))
(T (W x40 x00 x00 x00 x0c x00 x00 x00)
(T (W x00 x00 x00 x00 x00 x00 x00 x00)
(T (W xff xff xff xff xff xff xff xff)
(L (W xff xff xff xff x9c x00 x00 x00)) E)
(L (W x00 x00 x80 xbf x00 x00 x80 xbf)))
(T (W x00 x00 x00 x00 x00 x00 x00 x00)
(L (W x00 x01 x01 x01 x92 x9c xfe xff))
(L (W x00 x00 x00 x00 x00 x00 x00 x00)))))
(T (W x00 x00 x80 x3f x00 x00 x80 x3f)
(T (W x00 x00 x00 x00 x00 x00 x00 x00)
(T (W x00 x00 x80 x3f x00 x00 x80 x3f)
(T (W x00 x00 x80 x3f x00 x00 x80 x3f)
(L (W xff xff xff xff xbc x00 x00 x00)) E)
(L (W x00 x00 x00 x00 x00 x00 x00 x00)))
(T (W x00 x00 x80 x3f x00 x00 x80 x3f)
(L (W xff xff xff xff xff xff xff xff))
(L (W xff xff xff xff xff xff xff xff))))
(T (W x00 x00 x00 x00 x04 x00 x00 x00)
(T (W x45 x26 x22 x84 xe4 x9c xf2 xcb)
(T (W x00 x00 x00 x00 x00 x00 x00 x00)
(L (W x50 x00 x00 x00 x44 x00 x00 x00)) E)
(L (W xb8 x00 x00 x00 x64 x00 x00 x00)))
(T (W xff xff xff xff xff xff xff xff)
(L (W x00 x00 x00 x00 xb0 x81 xfe xff))
(L (W x45 x26 x22 x84 xe4 x9c xf2 xcb))))))))
(T (W x00 x00 x80 x3f x00 x00 x80 x3f)
(T (W xeb xcd xd8 xe2 x4c x6f xa6 x44)
(T (W xff xff xff xff xff xff xff xff)
(T (W x00 x00 x00 x00 x00 x00 x00 x00)
(T (W xff xff xff xff xff xff xff xff)
(T (W x00 x00 x80 x3f x00 x00 x80 x3f)
(T (W x00 x00 x00 x00 x1c x8c xfd xff)
(L (W xff xff xff xff xff xff xff xff)) E)
(L (W xff xff xff xff xff xff xff xff)))
(T (W x49 xa1 x68 x4a xeb x5f xdd x3d)
(L (W xff xff xff xff xff xff xff xff))
(L (W x00 x00 x80 xbf x00 x00 x80 xbf))))
(T (W xb8 x00 x00 x00 xac x00 x00 x00)
(T (W x00 x00 x00 x00 x00 x00 x00 x00)
(T (W x00 x00 x00 x00 x00 x00 x00 x00)
(L (W x00 x00 x80 xbf x00 x00 x80 xbf)) E)
(L (W xc8 x00 x00 x00 x01 x00 x00 x00)))
(T (W x00 x00 x00 x00 x00 x00 x00 x00)
(L (W x00 x00 x00 x00 x12 x00 x00 x00))
(L (W x00 x00 x80 xbf x00 x00 x80 xbf)))))
(T (W x00 x00 x00 x00 x00 x00 x00 x00)
(T (W xff xff xff xff xff xff xff xff)
(T (W x00 x00 x80 x3f x00 x00 x80 x3f)
(T (W x00 x00 x00 x00 x00 x00 x00 x00)
(L (W x00 x00 x10 x00 x14 x00 x18 x00)) E)
(L (W x1f x00 x00 x00 x22 x00 x00 x00)))
(T (W xc0 x00 x00 x00 x01 x00 x00 x00)
(L (W x00 x00 x80 xbf x00 x00 x80 xbf))
(L (W x92 x2a xff xff x78 x00 x00 x00))))
(T (W x45 x26 x22 x84 xe4 x9c xf2 xcb)
(T (W x00 x00 x00 x00 xd2 xff xfc xff)
(T (W x00 x00 x00 x00 x00 x00 x00 x00)
(L (W x00 x00 x00 x00 x12 x00 x00 x00)) E)
(L (W x00 x00 x00 x00 x00 x00 x00 x00)))
(T (W xbe x00 x00 x00 xff xff xff xff)
(L (W x00 x00 x00 x00 x00 x00 x00 x00))
(L (W x00 x00 x80 xbf x00 x00 x80 xbf))))))
(T (W x00 x00 x00 x00 x00 x00 x00 x00)
(T (W x00 x00 x00 x00 x00 x00 x00 x00)
(T (W x7e x00 x00 x00 xff xff xff xff)
(T (W x00 x00 x80 x3f x00 x00 x80 x3f)
(T (W x00 x00 x80 x3f x00 x00 x80 x3f)
(L (W xff xff xff xff xff xff xff xff)) E)
(L (W xff xff xff xff xff xff xff xff)))
(T (W x00 x00 x80 x3f x00 x00 x80 x3f)
(L (W x00 x00 x00 x00 x00 x00 x00 x00))
(L (W x03 x00 x00 x00 xd0 x00 x00 x00))))
(T (W xff xff xff xff x03 x00 x00 x00)
(T (W x45 x26 x22 x84 xe4 x9c xf2 xcb)
(T (W x00 x00 x80 x3f x00 x00 x80 x3f)
(L (W x00 x00 x00 x00 x00 x00 x00 x00)) E)
(L (W xff xff xff xff xff xff xff xff)))
(T (W x00 x00 x80 x3f x00 x00 x80 x3f)
(L (W x00 x00 x00 x00 x00 x00 x00 x00))
(L (W x50 x00 x00 x00 x44 x00 x00 x00)))))
(T (W x8a x01 x00 x00 xff xff xff xff)
(T (W xff xff xff xff x04 x00 x00 x00)
(T (W x45 x26 x22 x84 xe4 x9c xf2 xcb)
(T (W xff xff xff xff xff xff xff xff)
(L (W x45 x26 x22 x84 xe4 x9c xf2 xcb)) E)
(L (W xc4 x00 x00 x00 x01 x00 x00 x00)))
(T (W x04 x00 x00 x00 xa2 x49 xfd xff)
(L (W x00 x00 x00 x00 x00 x00 x00 x00))
(L (W x00 x00 x80 xbf x00 x00 x80 xbf))))
(T (W x00 x00 x80 x3f x00 x00 x80 x3f)
(T (W x45 x44 x00 x00 x00 x00 x00 x00)
(T (W xcc x00 x00 x00 x01 x00 x00 x00)
(L (W x00 x00 x00 x00 x00 x00 x00 x00)) E)
(L (W x00 x00 x80 xbf x00 x00 x80 xbf)))
(T (W x4f x84 x6f x8b xe8 xcb x63 xb7)
(L (W x00 x00 x00 x00 x00 x00 x00 x00))
(L (W xff xff xff xff xff xff xff xff)))))))
(T (W x00 x00 x00 x00 x00 x00 x00 x00)
(T (W x00 x00 x00 x00 x00 x00 x00 x00)
(T (W x00 x00 x00 x00 x00 x00 x00 x00)
(T (W xff xff xff xff xff xff xff xff)
(T (W x00 x00 x80 x3f x00 x00 x80 x3f)
(T (W xe2 x90 xfd xff x74 x00 x00 x00)
(L (W xff xff xff xff xff xff xff xff)) E)
(L (W xff xff xff xff xff xff xff xff)))
(T (W x45 x26 x22 x84 xe4 x9c xf2 xcb)
(L (W x1c x00 x20 x00 x24 x00 x28 x00))
(L (W xff xff xff xff x9c x00 x00 x00))))
(T (W xc0 x00 x00 x00 xb4 x00 x00 x00)
(T (W x00 x00 x80 x3f x00 x00 x80 x3f)
(T (W x00 x00 x00 x00 x00 x00 x00 x00)
(L (W x00 x00 x00 x00 x00 x00 x00 x00)) E)
(L (W xff xff xff xff xff xff xff xff)))
(T (W x00 x00 x80 x3f x00 x00 x80 x3f)
(L (W x00 x00 x00 x00 x00 x00 x00 x00))
(L (W x45 x26 x22 x84 xe4 x9c xf2 xcb)))))
(T (W x0b x42 x0b x27 x08 xb8 x93 x4d)
(T (W xff xff xff xff xff xff xff xff)
(T (W x45 x26 x22 x84 xe4 x9c xf2 xcb)
(T (W x00 x00 x00 x00 x00 x00 x00 x00)
(L (W x00 x00 x00 x00 x12 x00 x00 x00)) E)
(L (W xe2 xb0 xfe xff x74 x00 x00 x00)))
(T (W xff xff xff xff xff xff xff xff)
(L (W x00 x00 x00 x00 x00 x00 x00 x00))
(L (W x00 x00 x80 xbf x00 x00 x80 xbf))))
(T (W x50 x00 x00 x00 x44 x00 x00 x00)
(T (W x00 x00 x00 x00 x04 x00 x00 x00)
(T (W x00 x00 x00 x00 x00 x00 x00 x00)
(L (W x14 x00 x18 x00 x00 x00 x00 x00)) E)
(L (W x00 x00 x00 x00 x00 x00 x00 x00)))
(T (W x00 x00 x00 x00 x00 x00 x00 x00)
(L (W x97 x6d xca xc9 x03 x91 xa3 xbc))
(L (W xe2 x70 xff xff x74 x00 x00 x00))))))
(T (W x00 x00 x00 x00 x00 x00 x00 x00)
(T (W x00 x00 x00 x00 x00 x00 x00 x00)
(T (W xff xff xff xff xff xff xff xff)
(T (W x64 x00 x00 x00 x9c x00 x00 x00)
(T (W x00 x00 x80 x3f x00 x00 x80 x3f)
(L (W xff xff xff xff xff xff xff xff)) E)
(L (W xff xff xff xff x9c x00 x00 x00)))
(T (W x68 x00 x00 x00 x5c x00 x00 x00)
(L (W x00 x00 x00 x00 x01 x00 x00 x00))
(L (W x70 x00 x00 x00 x64 x00 x00 x00))))
(T (W x00 x00 x00 x00 x1c x64 xfc xff)
(T (W xff xff xff xff xff xff xff xff)
(T (W xff xff xff xff xff xff xff xff)
(L (W x6c x00 x00 x00 x60 x00 x00 x00)) E)
(L (W x00 x00 x00 x00 x00 x00 x00 x00)))
(T (W xff xff xff xff xff xff xff xff)
(L (W x00 x00 x00 x00 x00 x00 x00 x00))
(L (W x00 x00 x00 x00 x1c x64 xff xff)))))
(T (W xff xff xff xff xff xff xff xff)
(T (W x18 x00 x00 x00 x10 x00 x00 x00)
(T (W x5f x4e x53 x5f x30 x33 x5f x43)
(T (W xff xff xff xff xff xff xff xff)
(L (W x00 x00 x00 x00 x00 x00 x00 x00)) E)
(L (W xff xff xff xff xa0 x00 x00 x00)))
(T (W x00 x00 x00 x00 x00 x00 x00 x00)
(L (W x00 x00 x00 x00 x00 x00 x00 x00))
(L (W x00 x00 x00 x00 x00 x00 x00 x00))))
(T (W x00 x00 x80 x3f x00 x00 x80 x3f)
(T (W x00 x00 x00 x00 x00 x00 x00 x00)
(L (W x61 x72 x6c x69 x6b x65 x5f x6f))
(L (W x00 x00 x80 xbf x00 x00 x80 xbf)))
(T (W x00 x00 x80 x3f x00 x00 x80 x3f)
(L (W x7a x83 xfe xff x9e x01 x00 x00))
(L (W xff xff xff xff xff xff xff xff)))))))))))
(T (W x58 xa8 x02 x00 x1c xa7 x02 x00)
(T (W xe0 x0b x02 x00 x9c x09 x02 x00)
(T (W x68 x9b x00 x00 x1c x99 x00 x00)
(T (W x50 x00 x00 x00 x44 x00 x00 x00)
(T (W x00 x00 x00 x00 x1a xef xfe xff)
(T (W x70 x5f x77 x69 x6c x64 x5f x70)
(T (W xff xff xff xff xff xff xff xff)
(T (W x2c x07 xfc xff x00 x01 x01 x01)
(T (W x00 x00 x00 x00 x00 x00 x00 x00)
(T (W x21 x00 x00 x00 x67 x72 x6f x75)
(L (W x6c x00 x00 x00 x60 x00 x00 x00)) E)
(L (W x18 x00 x00 x00 x10 x00 x00 x00)))
(T (W xff xff xff xff xff xff xff xff)
(L (W x76 x32 x00 x00 x52 xd5 xff xff))
(L (W xff xff xff xff xff xff xff xff))))
(T (W x00 x00 x80 x3f x00 x00 x80 x3f)
(T (W xff xff xff xff xff xff xff xff)
(T (W x50 x00 x00 x00 x44 x00 x00 x00)
(L (W xbc xca xff xff x1b x00 x00 x00)) E)
(L (W x00 x00 x80 xbf x00 x00 x80 xbf)))
(T (W xff xff xff xff xff xff xff xff)
(L (W xff xff xff xff xff xff xff xff))
(L (W x00 x00 x00 x00 x00 x00 x00 x00)))))
(T (W xff xff xff xff xff xff xff xff)
(T (W x18 x00 x00 x00 x0c x00 x00 x00)
(T (W xff xff xff xff xff xff xff xff)
(T (W x80 x96 x30 x97 x85 x1c x5c x5f)
(L (W x00 x00 x80 xbf x00 x00 x80 xbf)) E)
(L (W x4f x84 x6f x8b xe8 xcb x63 xb7)))
(T (W x00 x00 x80 x3f x00 x00 x80 x3f)
(L (W xff xff xff xff xff xff xff xff))
(L (W x00 x00 x00 x00 x00 x00 x00 x00))))
(T (W x00 x00 x80 x3f x00 x00 x80 x3f)
(T (W x50 x00 x00 x00 x44 x00 x00 x00)
(T (W x62 x00 x00 x00 x00 x00 x01 x01)
(L (W x38 x00 x00 x00 x00 x00 x80 xbf)) E)
(L (W xff xff xff xff xff xff xff xff)))
(T (W x00 x00 x80 x3f x00 x00 x80 x3f)
(L (W xff xff xff xff xff xff xff xff))
(L (W x00 x00 x80 xbf x00 x00 x80 xbf))))))
(T (W xff xff xff xff xff xff xff xff)
(T (W xff xff xff xff x03 x00 x00 x00)
(T (W x62 x12 xfc xff x74 x00 x00 x00)
(T (W xf2 xae xfe xff x43 x00 x00 x00)
(T (W x00 x00 x00 x00 x00 x00 x00 x00)
(L (W x00 x00 x80 xbf x00 x00 x80 xbf)) E)
(L (W x18 x00 x00 x00 x0c x00 x00 x00)))
(T (W x30 x33 x5f x43 x4c x45 x41 x52)
(L (W xff xff xff xff xff xff xff xff))
(L (W x49 xa1 x68 x4a xeb x5f xdd x3d))))
(T (W x00 x00 x80 x3f x00 x00 x80 x3f)
(T (W x00 x00 x00 x00 x00 x00 x00 x00)
(T (W xff xff xff xff xff xff xff xff)
(L (W x64 x03 x00 x00 x34 x02 x00 x00)) E)
(L (W x18 x00 x00 x00 x0c x00 x00 x00)))
(T (W x00 x00 x00 x00 x00 x00 x00 x00)
(L (W xff xff xff xff xff xff xff xff))
(L (W x45 x44 x00 x00 x00 x00 x00 x00)))))
(T (W xff xff xff xff xff xff xff xff)
(T (W x12 x34 xfc xff x78 x00 x00 x00)
(T (W xbc xba xfc xff x3e x00 x00 x00)
(T (W xff xff xff xff xff xff xff xff)
(L (W xff xff xff xff xff xff xff xff)) E)
(L (W x00 x00 x80 xbf x00 x00 x80 xbf)))
(T (W x68 x00 x00 x00 x5c x00 x00 x00)
(L (W xff xff xff xff xff xff xff xff))
(L (W x00 x00 x00 x00 x00 x00 x00 x00))))
(T (W x00 x00 x00 x00 x00 x00 x00 x00)
(T (W xff xff xff xff xff xff xff xff)
(T (W x00 x00 x80 x3f x00 x00 x80 x3f)
(L (W xff xff xff xff xff xff xff xff)) E)
(L (W xff xff xff xff xff xff xff xff)))
(T (W xff xff xff xff xff xff xff xff)
(L (W xff xff xff xff xff xff xff xff))
(L (W x00 x00 x80 xbf x00 x00 x80 xbf)))))))
(T (W x38 xcc xd8 xe2 x4c x6e xa6 x44)
(T (W xb8 x00 x00 x00 xac x00 x00 x00)
(T (W x64 x00 x00 x00 x9c x00 x00 x00)
(T (W x50 x00 x00 x00 x44 x00 x00 x00)
(T (W x6a x8c x7a x05 x59 x92 x58 x03)
(T (W x00 x00 x80 x3f x00 x00 x80 x3f)
(L (W x68 x00 x00 x00 x5c x00 x00 x00)) E)
(L (W x45 x26 x22 x84 xe4 x9c xf2 xcb)))
(T (W xff xff xff xff xff xff xff xff)
(L (W x18 x00 x00 x00 x0c x00 x00 x00))
(L (W x46 x53 x59 x53 x5f x4e x53 x5f))))
(T (W x45 x26 x22 x84 xe4 x9c xf2 xcb)
(T (W x00 x00 x00 x00 x00 x00 x00 x00)
(T (W xff xff xff xff xff xff xff xff)
(L (W x00 x00 x00 x00 x00 x00 x00 x00)) E)
(L (W x00 x00 x80 xbf x00 x00 x80 xbf)))
(T (W xff xff xff xff xff xff xff xff)
(L (W xff xff xff xff xff xff xff xff))
(L (W xfa x4c xff xff xa9 x01 x00 x00)))))
(T (W xff xff xff xff xff xff xff xff)
(T (W x68 x00 x00 x00 x5c x00 x00 x00)
(T (W x00 x00 x00 x00 x00 x00 x00 x00)
(T (W xff xff xff xff xff xff xff xff)
(L (W xff xff xff xff xff xff xff xff)) E)
(L (W x00 x00 x80 xbf x00 x00 x80 xbf)))
(T (W x00 x00 x80 x3f x00 x00 x80 x3f)
(L (W x00 x00 x00 x00 x00 x00 x00 x00))
(L (W x00 x00 x00 x00 x00 x00 x00 x00))))
(T (W x00 x00 x00 x00 x00 x00 x00 x00)
(T (W x45 x26 x22 x84 xe4 x9c xf2 xcb)
(T (W x70 x5f x77 x69 x6c x64 x5f x70)
(L (W x00 x00 x00 x00 x00 x00 x00 x00)) E)
(L (W xff xff xff xff xff xff xff xff)))
(T (W x03 x00 x00 x00 xd4 x00 x00 x00)
(L (W xff xff xff xff xff xff xff xff))
(L (W x00 x00 x00 x00 x00 x00 x00 x00))))))
(T (W xff xff xff xff xff xff xff xff)
(T (W xff xff xff xff xff xff xff xff)
(T (W x00 x00 x00 x00 x9c x1d xfc xff)
(T (W x00 x00 x00 x00 x00 x00 x00 x00)
(T (W x00 x00 x00 x00 x00 x00 x00 x00)
(L (W x50 x00 x00 x00 x44 x00 x00 x00)) E)
(L (W x12 x9c xfe xff x78 x00 x00 x00)))
(T (W x00 x00 x00 x00 x00 x00 x00 x00)
(L (W x00 x00 x00 x00 x01 x00 x00 x00))
(L (W x00 x00 x80 xbf x00 x00 x80 xbf))))
(T (W x00 x00 x80 x3f x00 x00 x80 x3f)
(T (W x00 x00 x80 x3f x00 x00 x80 x3f)
(T (W x00 x00 x00 x00 x02 x00 x00 x00)
(L (W xc6 x00 x00 x00 xff xff xff xff)) E)
(L (W x45 x26 x22 x84 xe4 x9c xf2 xcb)))
(T (W x00 x00 x00 x00 x00 x00 x00 x00)
(L (W xff xff xff xff xff xff xff xff))
(L (W x00 x00 x00 x00 x00 x00 x00 x00)))))
(T (W x64 x00 x00 x00 x9c x00 x00 x00)
(T (W x00 x00 x80 x3f x00 x00 x80 x3f)
(T (W x64 x00 x0c x00 x00 x00 x00 x00)
(T (W x01 x00 x00 x00 x9c x00 x00 x00)
(L (W xa9 x01 x00 x00 xff xff xff xff)) E)
(L (W x00 x00 x80 xbf x00 x00 x80 xbf)))
(T (W xbc x00 x00 x00 x14 x00 x00 x00)
(L (W xff xff xff xff xff xff xff xff))
(L (W xda x52 xff xff x19 x00 x00 x00))))
(T (W x00 x00 x00 x00 x00 x00 x00 x00)
(T (W xff xff xff xff xff xff xff xff)
(T (W x00 x00 x80 x3f x00 x00 x80 x3f)
(L (W x00 x00 x00 x00 x00 x00 x0c x00)) E)
(L (W xa9 x01 x00 x00 xff xff xff xff)))
(T (W x02 x00 x00 x00 xff xff xff xff)
(L (W x03 x00 x00 x00 xd0 x00 x00 x00))
(L (W x98 x7d xff xff xc2 x80 xff xff))))))))
(T (W x5f x76 x61 x6e x69 x73 x68 x00)
(T (W xff xff xff xff xff xff xff xff)
(T (W xff xff xff xff xff xff xff xff)
(T (W x45 x26 x22 x84 xe4 x9c xf2 xcb)
(T (W x00 x00 x00 x00 x00 x00 x00 x00)
(T (W xc0 x00 x00 x00 xb4 x00 x00 x00)
(T (W xff xff xff xff xff xff xff xff)
(L (W xff xff xff xff xff xff xff xff)) E)
(L (W x45 x44 x00 x00 x00 x00 x00 x00)))
(T (W x00 x00 x80 x3f x00 x00 x80 x3f)
(L (W xff xff xff xff xff xff xff xff))
(L (W x00 x00 x80 xbf x00 x00 x80 xbf))))
(T (W x20 x01 x00 x00 x04 x00 x00 x00)
(T (W x00 x00 x80 x3f x00 x00 x80 x3f)
(T (W x00 x00 x00 x00 x00 x00 x00 x00)
(L (W x00 x00 x80 xbf x00 x00 x80 xbf)) E)
(L (W xff xff xff xff xff xff xff xff)))
(T (W x45 x26 x22 x84 xe4 x9c xf2 xcb)
(L (W x00 x00 x80 xbf x00 x00 x80 xbf))
(L (W x00 x00 x80 xbf x00 x00 x80 xbf)))))
(T (W x00 x00 x00 x00 x00 x00 x00 x00)
(T (W x01 x00 x00 x00 x04 x00 x00 x00)
(T (W x50 x00 x00 x00 x44 x00 x00 x00)
(T (W x00 x00 x80 x3f x00 x00 x80 x3f)
(L (W xff xff xff xff xff xff xff xff)) E)
(L (W x1a x00 x00 x00 x1d x00 x00 x00)))
(T (W xff xff xff xff xff xff xff xff)
(L (W x00 x00 x80 xbf x00 x00 x80 xbf))
(L (W xff xff xff xff xff xff xff xff))))
(T (W xb8 x00 x00 x00 xac x00 x00 x00)
(T (W x45 x44 x00 x00 x00 x00 x00 x00)
(T (W x00 x00 x00 x00 x00 x00 x00 x00)
(L (W xff xff xff xff xff xff xff xff)) E)
(L (W x00 x00 x00 x00 x00 x00 x00 x00)))
(T (W x00 x00 x00 x00 x42 x67 xfd xff)
(L (W x00 x00 x00 x00 x00 x00 x00 x00))
(L (W xff xff xff xff xff xff xff xff))))))
(T (W x45 x26 x22 x84 xe4 x9c xf2 xcb)
(T (W x00 x00 x00 x00 x00 x00 x00 x00)
(T (W xbc x1e xfc xff x3c x00 x00 x00)
(T (W x2c x9b xfc xff x00 x01 x01 x01)
(T (W x45 x26 x22 x84 xe4 x9c xf2 xcb)
(L (W x00 x00 x00 x00 x00 x00 x00 x00)) E)
(L (W x00 x00 x00 x00 x00 x00 x00 x00)))
(T (W x18 x00 x00 x00 x0c x00 x00 x00)
(L (W x00 x00 x80 x3f x00 x00 x80 x3f))
(L (W xff xff xff xff xff xff xff xff))))
(T (W xff xff xff xff xff xff xff xff)
(T (W xff xff xff xff xff xff xff xff)
(T (W x2c xdb xfd xff x00 x01 x01 x01)
(L (W x00 x00 x80 xbf x00 x00 x80 xbf)) E)
(L (W x00 x00 x00 x00 x00 x00 x00 x00)))
(T (W xff xff xff xff xa0 x00 x00 x00)
(L (W x00 x00 x80 xbf x00 x00 x80 xbf))
(L (W xc8 x00 x00 x00 x01 x00 x00 x00)))))
(T (W x00 x00 x00 x00 x00 x00 x00 x00)
(T (W x62 x54 xfe xff x00 x00 x01 x01)
(T (W x45 x26 x22 x84 xe4 x9c xf2 xcb)
(T (W x00 x00 x80 x3f x00 x00 x80 x3f)
(L (W x45 x26 x22 x84 xe4 x9c xf2 xcb)) E)
(L (W xff xff xff xff xff xff xff xff)))
(T (W x00 x00 x00 x00 x00 x00 x00 x00)
(L (W x6c x00 x00 x00 x60 x00 x00 x00))
(L (W x00 x00 x80 xbf x00 x00 x80 xbf))))
(T (W x01 x00 x00 x00 x9c x00 x00 x00)
(T (W x49 xa1 x68 x4a xeb x5f xdd x3d)
(T (W x00 x00 x00 x00 x00 x00 x00 x00)
(L (W x44 x00 x48 x00 x00 x00 x4c x00)) E)
(L (W x00 x00 x80 xbf x00 x00 x80 xbf)))
(T (W x00 x00 x80 x3f x00 x00 x80 x3f)
(L (W x4f x84 x6f x8b xe8 xcb x63 xb7))
(L (W x45 x26 x22 x84 xe4 x9c xf2 xcb)))))))
(T (W x70 x5f x6c x65 x61 x64 x65 x72)
(T (W x00 x00 x80 x3f x00 x00 x80 x3f)
(T (W x45 x26 x22 x84 xe4 x9c xf2 xcb)
(T (W x00 x00 x00 x00 x00 x00 x00 x00)
(T (W x62 x8e xfc xff x74 x00 x00 x00)
(T (W xff xff xff xff xff xff xff xff)
(L (W xff xff xff xff xff xff xff xff)) E)
(L (W x31 x6a xca xc9 x03 x8f xa3 xbc)))
(T (W x62 x0e xfd xff x74 x00 x00 x00)
(L (W x00 x00 x00 x00 x00 x00 x00 x00))
(L (W xb0 x00 x00 x00 x64 x00 x00 x00))))
(T (W xff xff xff xff xff xff xff xff)
(T (W x45 x26 x22 x84 xe4 x9c xf2 xcb)
(T (W x00 x00 x80 x3f x00 x00 x80 x3f)
(L (W x00 x00 x80 xbf x00 x00 x80 xbf)) E)
(L (W x00 x00 x00 x00 x00 x00 x00 x00)))
(T (W x00 x00 x80 x3f x00 x00 x80 x3f)
(L (W x00 x00 x80 xbf x00 x00 x80 xbf))
(L (W x00 x00 x00 x00 x9c x51 xff xff)))))
(T (W x00 x00 x00 x00 x00 x00 x00 x00)
(T (W xff xff xff xff xff xff xff xff)
(T (W x62 xae xfc xff x74 x00 x00 x00)
(T (W x00 x00 x80 x3f x00 x00 x80 x3f)
(L (W x00 x00 x00 x00 x00 x00 x00 x00)) E)
(L (W xff xff xff xff xff xff xff xff)))
(T (W xff xff xff xff x02 x00 x00 x00)
(L (W x00 x00 x00 x00 x00 x00 x00 x00))
(L (W xff xff xff xff xac x00 x00 x00))))
(T (W x45 x26 x22 x84 xe4 x9c xf2 xcb)
(T (W x00 x00 x00 x00 x00 x00 x00 x00)
(T (W xff xff xff xff xff xff xff xff)
(L (W x18 x00 x00 x00 x10 x00 x00 x00)) E)
(L (W x54 x00 x00 x00 x48 x00 x00 x00)))
(T (W x00 x00 x00 x00 x00 x00 x00 x00)
(L (W x45 x26 x22 x84 xe4 x9c xf2 xcb))
(L (W xb0 x00 x00 x00 x64 x00 x00 x00))))))
(T (W x00 x00 x00 x00 x00 x00 x00 x00)
(T (W x00 x00 x00 x00 x00 x00 x00 x00)
(T (W x00 x00 x00 x00 x01 x00 x00 x00)
(T (W x68 x00 x00 x00 x5c x00 x00 x00)
(T (W x45 x26 x22 x84 xe4 x9c xf2 xcb)
(L (W x00 x00 x00 x00 x00 x00 x00 x00)) E)
(L (W xff xff xff xff x9c x00 x00 x00)))
(T (W xff xff xff xff x9c x00 x00 x00)
(L (W x2e x00 x00 x00 x10 x00 x00 x00))
(L (W xff xff xff xff xff xff xff xff))))
(T (W xff xff xff xff xff xff xff xff)
(T (W xfa xe0 xfc xff x4b x00 x00 x00)
(T (W x00 x00 x80 x3f x00 x00 x80 x3f)
(L (W x4f x84 x6f x8b xe8 xcb x63 xb7)) E)
(L (W x00 x00 x00 x00 x00 x00 x00 x00)))
(T (W xff xff xff xff xff xff xff xff)
(L (W x00 x00 x00 x00 x00 x00 x00 x00))
(L (W xff xff xff xff xbc x00 x00 x00)))))
(T (W x45 x26 x22 x84 xe4 x9c xf2 xcb)
(T (W x00 x00 x00 x00 x00 x00 x00 x00)
(T (W x00 x00 x00 x00 x00 x00 x00 x00)
(T (W x14 xd7 xfd xff x23 x00 x00 x00)
(L (W x00 x00 x80 xbf x00 x00 x80 xbf)) E)
(L (W xff xff xff xff xff xff xff xff)))
(T (W x4f x84 x6f x8b xe8 xcb x63 xb7)
(L (W x00 x00 x80 xbf x00 x00 x80 xbf))
(L (W x68 x00 x00 x00 x5c x00 x00 x00))))
(T (W x0a x00 x00 x00 x3c x00 x00 x00)
(T (W x45 x26 x22 x84 xe4 x9c xf2 xcb)
(T (W xff xff xff xff xff xff xff xff)
(L (W x18 x00 x1c x00 x20 x00 x24 x00)) E)
(L (W x2c x03 xff xff x00 x01 x01 x01)))
(T (W x2c x83 xfd xff x00 x01 x01 x01)
(L (W x00 x00 x00 x00 x00 x00 x00 x00))
(L (W xff xff xff xff xff xff xff xff)))))))))
(T (W x00 x00 x00 x00 x00 x00 x00 x00)
(T (W xff xff xff xff xff xff xff xff)
(T (W x00 x00 x80 x3f x00 x00 x80 x3f)
(T (W x2c xa9 xfb xff x00 x01 x01 x01)
(T (W xbc xcc xfb xff x3e x00 x00 x00)
(T (W x6d x01 x00 x00 xff xff xff xff)
(T (W x00 x00 x80 x3f x00 x00 x80 x3f)
(T (W x00 x00 x80 x3f x00 x00 x80 x3f)
(L (W xff xff xff xff xff xff xff xff)) E)
(L (W xc6 x00 x00 x00 xff xff xff xff)))
(T (W x00 x00 x00 x00 x00 x00 x00 x00)
(L (W x00 x00 x80 x3f x00 x00 x80 x3f))
(L (W x00 x00 x00 x00 x00 x00 x00 x00))))
(T (W xff xff xff xff x04 x00 x00 x00)
(T (W x00 x00 x00 x00 x00 x00 x00 x00)
(T (W xff xff xff xff xff xff xff xff)
(L (W x45 x26 x22 x84 xe4 x9c xf2 xcb)) E)
(L (W x03 x00 x00 x00 xd8 x00 x00 x00)))
(T (W x00 x00 x00 x00 x00 x00 x00 x00)
(L (W x00 x00 x00 x00 x12 x00 x00 x00))
(L (W x49 xa1 x68 x4a xeb x5f xdd x3d)))))
(T (W x00 x00 x00 x00 x00 x00 x00 x00)
(T (W xff xff xff xff xff xff xff xff)
(T (W x00 x00 x80 x3f x00 x00 x80 x3f)
(T (W x00 x00 x00 x00 x00 x00 x00 x00)
(L (W xff xff xff xff xff xff xff xff)) E)
(L (W x00 x00 x80 xbf x00 x00 x80 xbf)))
(T (W x62 x24 xfd xff x74 x00 x00 x00)
(L (W x00 x00 x00 x00 x00 x00 x00 x00))
(L (W x00 x00 x80 xbf x00 x00 x80 xbf))))
(T (W x50 x00 x00 x00 x44 x00 x00 x00)
(T (W xff xff xff xff xff xff xff xff)
(T (W x00 x00 x80 x3f x00 x00 x80 x3f)
(L (W xff xff xff xff x9c x00 x00 x00)) E)
(L (W xda xfc xfe xff xe0 x00 x00 x00)))
(T (W xff xff xff xff x9c x00 x00 x00)
(L (W x45 x44 x00 x00 x00 x00 x00 x00))
(L (W x00 x00 x80 xbf x00 x00 x80 xbf))))))
(T (W x00 x00 x00 x00 x00 x00 x00 x00)
(T (W xff xff xff xff x01 x00 x00 x00)
(T (W xff xff xff xff xff xff xff xff)
(T (W x00 x00 x00 x00 x00 x00 x00 x00)
(T (W x00 x00 x80 x3f x00 x00 x80 x3f)
(L (W xff xff xff xff xff xff xff xff)) E)
(L (W xff xff xff xff xff xff xff xff)))
(T (W x4f x84 x6f x8b xe8 xcb x63 xb7)
(L (W x00 x00 x00 x00 x12 x00 x00 x00))
(L (W x54 x00 x00 x00 x48 x00 x00 x00))))
(T (W x68 x00 x00 x00 x5c x00 x00 x00)
(T (W x00 x00 x80 x3f x00 x00 x80 x3f)
(T (W x00 x00 x00 x00 x00 x00 x00 x00)
(L (W x00 x00 x00 x00 x00 x00 x00 x00)) E)
(L (W xff xff xff xff xff xff xff xff)))
(T (W x45 x26 x22 x84 xe4 x9c xf2 xcb)
(L (W x00 x00 x00 x00 x00 x00 x00 x00))
(L (W x00 x00 x80 xbf x00 x00 x80 xbf)))))
(T (W x00 x00 x00 x00 x04 x00 x00 x00)
(T (W xff xff xff xff xff xff xff xff)
(T (W x45 x26 x22 x84 xe4 x9c xf2 xcb)
(T (W x09 xb0 x33 x97 x85 xa2 x5f x5f)
(L (W x22 x00 x00 x00 x10 x00 x00 x00)) E)
(L (W x2c xb9 xfe xff x00 x01 x01 x01)))
(T (W xff xff xff xff xff xff xff xff)
(L (W x00 x00 x00 x00 x00 x00 x00 x00))
(L (W x4f x84 x6f x8b xe8 xcb x63 xb7))))
(T (W x62 x74 xfc xff x74 x00 x00 x00)
(T (W x4a x00 x00 x00 xff xff xff xff)
(T (W x49 xa1 x68 x4a xeb x5f xdd x3d)
(L (W x00 x00 x00 x00 x00 x00 x00 x00)) E)
(L (W x00 x00 x00 x00 x00 x00 x00 x00)))
(T (W x12 x00 x00 x00 x46 x53 x59 x53)
(L (W x45 x44 x00 x00 x00 x00 x00 x00))
(L (W x00 x00 x80 xbf x00 x00 x80 xbf)))))))
(T (W x50 x00 x00 x00 x44 x00 x00 x00)
(T (W x14 xc5 xfb xff x3e x00 x00 x00)
(T (W x01 x00 x00 x00 x04 x00 x00 x00)
(T (W xff xff xff xff xff xff xff xff)
(T (W x45 x26 x22 x84 xe4 x9c xf2 xcb)
(T (W x62 x8c xfd xff x74 x00 x00 x00)
(L (W xb8 x00 x00 x00 x32 x00 x00 x00)) E)
(L (W xff xff xff xff xff xff xff xff)))
(T (W x00 x00 x00 x00 x00 x00 x00 x00)
(L (W xff xff xff xff xff xff xff xff))
(L (W x00 x00 x80 xbf x00 x00 x80 xbf))))
(T (W x45 x26 x22 x84 xe4 x9c xf2 xcb)
(T (W x49 xa1 x68 x4a xeb x5f xdd x3d)
(T (W x72 x64 x5f x6c x76 x31 x00 x00)
(L (W x00 x00 x00 x00 x00 x00 x00 x00)) E)
(L (W xff xff xff xff xff xff xff xff)))
(T (W x00 x00 x00 x00 x00 x00 x00 x00)
(L (W x00 x00 x00 x00 x00 x00 x00 x00))
(L (W x00 x00 x00 x00 x00 x00 x00 x00)))))
(T (W x00 x00 x00 x00 x00 x00 x00 x00)
(T (W xff xff xff xff xff xff xff xff)
(T (W x00 x00 x80 x3f x00 x00 x80 x3f)
(T (W x00 x00 x00 x00 x00 x00 x00 x00)
(L (W x00 x00 x00 x00 x00 x00 x00 x00)) E)
(L (W x62 xac xfe xff x74 x00 x00 x00)))
(T (W xff xff xff xff xc8 x00 x00 x00)
(L (W x68 x00 x00 x00 x5c x00 x00 x00))
(L (W x00 x00 x80 xbf x00 x00 x80 xbf))))
(T (W x68 x00 x00 x00 x5c x00 x00 x00)
(T (W xff xff xff xff xff xff xff xff)
(T (W x24 x00 x00 x00 x0c x00 x00 x00)
(L (W x00 x00 x80 xbf x00 x00 x80 xbf)) E)
(L (W x00 x00 x00 x00 x00 x00 x00 x00)))
(T (W x9c x01 x00 x00 xff xff xff xff)
(L (W x00 x00 x00 x00 x00 x00 x00 x00))
(L (W x00 x00 x80 xbf x00 x00 x80 xbf))))))
(T (W x00 x00 x00 x00 x00 x00 x00 x00)
(T (W x00 x00 x00 x00 xfa xfb xfd xff)
(T (W x64 x00 x00 x00 x9c x00 x00 x00)
(T (W x00 x00 x00 x00 x00 x00 x00 x00)
(T (W x00 x00 x80 x3f x00 x00 x80 x3f)
(L (W x18 x00 x00 x00 x10 x00 x00 x00)) E)
(L (W x00 x00 x00 x00 x00 x00 x00 x00)))
(T (W x00 x00 x80 x3f x00 x00 x80 x3f)
(L (W x00 x00 x80 xbf x00 x00 x80 xbf))
(L (W x45 x26 x22 x84 xe4 x9c xf2 xcb))))
(T (W x00 x00 x80 x3f x00 x00 x80 x3f)
(T (W xff xff xff xff xb0 x00 x00 x00)
(T (W x00 x00 x00 x00 x00 x00 x00 x00)
(L (W x30 x33 x5f x43 x4c x45 x41 x52)) E)
(L (W xff xff xff xff xff xff xff xff)))
(T (W x00 x00 x80 x3f x00 x00 x80 x3f)
(L (W x00 x00 x00 x00 x00 x00 x00 x00))
(L (W x62 x5c xff xff x74 x00 x00 x00)))))
(T (W xff xff xff xff xff xff xff xff)
(T (W xb8 x00 x00 x00 xac x00 x00 x00)
(T (W xff xff xff xff xff xff xff xff)
(T (W xff xff xff xff xff xff xff xff)
(L (W x00 x00 x00 x00 x00 x00 x00 x00)) E)
(L (W x68 x00 x00 x00 x5c x00 x00 x00)))
(T (W xff xff xff xff xff xff xff xff)
(L (W x00 x00 x00 x00 x00 x00 x00 x00))
(L (W x45 x26 x22 x84 xe4 x9c xf2 xcb))))
(T (W x00 x00 x80 x3f x00 x00 x80 x3f)
(T (W x00 x00 x00 x00 x00 x00 x00 x00)
(T (W x45 x26 x22 x84 xe4 x9c xf2 xcb)
(L (W xff xff xff xff xff xff xff xff)) E)
(L (W x00 x00 x00 x00 x12 x00 x00 x00)))
(T (W x00 x00 x00 x00 x00 x00 x00 x00)
(L (W x54 x03 x00 x00 x2c x02 x00 x00))
(L (W xff xff xff xff xc4 x00 x00 x00))))))))
(T (W xff xff xff xff xff xff xff xff)
(T (W x00 x00 x00 x00 x00 x00 x00 x00)
(T (W x00 x00 x80 x3f x00 x00 x80 x3f)
(T (W x00 x00 x00 x00 x9c xcb xfb xff)
(T (W x00 x00 x80 x3f x00 x00 x80 x3f)
(T (W xff xff xff xff xff xff xff xff)
(T (W x00 x00 x00 x00 x00 x00 x00 x00)
(L (W x00 x00 x00 x00 x00 x00 x00 x00)) E)
(L (W x00 x00 x80 xbf x00 x00 x80 xbf)))
(T (W x03 x00 x00 x00 xd8 x00 x00 x00)
(L (W x00 x00 x00 x00 x00 x00 x00 x00))
(L (W xff xff xff xff xff xff xff xff))))
(T (W x00 x00 x00 x00 x00 x00 x00 x00)
(T (W xb0 x00 x00 x00 x64 x00 x00 x00)
(T (W x18 x00 x00 x00 x0c x00 x00 x00)
(L (W xff xff xff xff xff xff xff xff)) E)
(L (W x00 x00 x00 x00 x00 x00 x00 x00)))
(T (W x1f x00 x00 x00 x22 x00 x00 x00)
(L (W x45 x26 x22 x84 xe4 x9c xf2 xcb))
(L (W xff xff xff xff xff xff xff xff)))))
(T (W x50 x00 x00 x00 x44 x00 x00 x00)
(T (W x45 x26 x22 x84 xe4 x9c xf2 xcb)
(T (W xff xff xff xff xff xff xff xff)
(T (W x18 x00 x00 x00 x10 x00 x00 x00)
(L (W x00 x00 x00 x00 x00 x00 x00 x00)) E)
(L (W x00 x00 x00 x00 x08 x00 x00 x00)))
(T (W x00 x00 x00 x00 x00 x00 x00 x00)
(L (W xff xff xff xff xff xff xff xff))
(L (W xda x40 xff xff x37 x00 x00 x00))))
(T (W x33 x7f x9e x72 x96 xac x52 x46)
(T (W x00 x00 x80 x3f x00 x00 x80 x3f)
(T (W x45 x26 x22 x84 xe4 x9c xf2 xcb)
(L (W x2c xed xff xff x00 x01 x01 x01)) E)
(L (W xff xff xff xff x9c x00 x00 x00)))
(T (W x00 x00 x80 x3f x00 x00 x80 x3f)
(L (W x45 x26 x22 x84 xe4 x9c xf2 xcb))
(L (W xff xff xff xff xff xff xff xff))))))
(T (W x18 x00 x00 x00 x0c x00 x00 x00)
(T (W x50 x00 x00 x00 x44 x00 x00 x00)
(T (W x45 x26 x22 x84 xe4 x9c xf2 xcb)
(T (W xff xff xff xff xff xff xff xff)
(T (W xff xff xff xff xff xff xff xff)
(L (W x00 x00 x00 x00 x00 x00 x00 x00)) E)
(L (W x00 x00 x80 xbf x00 x00 x80 xbf)))
(T (W xff xff xff xff xff xff xff xff)
(L (W x18 x00 x00 x00 x0c x00 x00 x00))
(L (W x00 x00 x00 x00 x00 x00 x00 x00))))
(T (W x00 x00 x00 x00 x00 x00 x00 x00)
(T (W x45 x44 x00 x00 x00 x00 x00 x00)
(T (W xff xff xff xff xff xff xff xff)
(L (W x45 x26 x22 x84 xe4 x9c xf2 xcb)) E)
(L (W x45 x26 x22 x84 xe4 x9c xf2 xcb)))
(T (W xff xff xff xff xff xff xff xff)
(L (W x1c x00 x00 x00 x10 x00 x00 x00))
(L (W x01 x00 x00 x00 xff xff xff xff)))))
(T (W x00 x00 x80 x3f x00 x00 x80 x3f)
(T (W x00 x00 x00 x00 x00 x00 x00 x00)
(T (W xff xff xff xff xff xff xff xff)
(T (W x6b x65 x5f x66 x69 x73 x68 x5f)
(L (W xff xff xff xff xc4 x00 x00 x00)) E)
(L (W xbc xc0 xfe xff x1f x00 x00 x00)))
(T (W x00 x00 x80 x3f x00 x00 x80 x3f)
(L (W x1c x00 x00 x00 x10 x00 x00 x00))
(L (W xff xff xff xff xff xff xff xff))))
(T (W xff xff xff xff xff xff xff xff)
(T (W x54 x00 x00 x00 x48 x00 x00 x00)
(T (W x21 x00 x00 x00 x0c x00 x00 x00)
(L (W x01 x01 x2a x00 x50 x00 x3c x00)) E)
(L (W xff xff xff xff xff xff xff xff)))
(T (W xc8 x00 x00 x00 x01 x00 x00 x00)
(L (W x00 x00 x80 xbf x00 x00 x80 xbf))
(L (W x00 x00 x62 x00 x80 x00 x08 x00)))))))
(T (W x18 x00 x00 x00 x0c x00 x00 x00)
(T (W x45 x26 x22 x84 xe4 x9c xf2 xcb)
(T (W x45 x26 x22 x84 xe4 x9c xf2 xcb)
(T (W x00 x00 x80 x3f x00 x00 x80 x3f)
(T (W xff xff xff xff xff xff xff xff)
(T (W x18 x01 x00 x00 x04 x00 x00 x00)
(L (W x00 x00 x00 x00 x00 x00 x00 x00)) E)
(L (W x00 x00 x80 xbf x00 x00 x80 xbf)))
(T (W xff xff xff xff xbc x00 x00 x00)
(L (W x00 x00 x80 x3f x00 x00 x80 x3f))
(L (W x30 x33 x5f x43 x4c x45 x41 x52))))
(T (W x00 x00 x00 x00 x00 x00 x00 x00)
(T (W xff xff xff xff xff xff xff xff)
(T (W x18 x00 x00 x00 x10 x00 x00 x00)
(L (W x18 x00 x00 x00 x0c x00 x00 x00)) E)
(L (W x00 x00 x00 x00 x00 x00 x00 x00)))
(T (W xff xff xff xff xff xff xff xff)
(L (W x14 x00 x00 x00 x0c x00 x00 x00))
(L (W xff xff xff xff xff xff xff xff)))))
(T (W x00 x00 x80 x3f x00 x00 x80 x3f)
(T (W x00 x00 x00 x00 x00 x00 x00 x00)
(T (W xff xff xff xff xff xff xff xff)
(T (W x45 x26 x22 x84 xe4 x9c xf2 xcb)
(L (W x2c xb5 xff xff x00 x01 x01 x01)) E)
(L (W x00 x00 x00 x00 x52 xc7 xfe xff)))
(T (W x49 xa1 x68 x4a xeb x5f xdd x3d)
(L (W x00 x00 x00 x00 x9c x33 xfe xff))
(L (W xff xff xff xff xff xff xff xff))))
(T (W x4b x00 x00 x00 xff xff xff xff)
(T (W x00 x00 x80 x3f x00 x00 x80 x3f)
(T (W x00 x00 x80 x3f x00 x00 x80 x3f)
(L (W x00 x00 x80 xbf x00 x00 x80 xbf)) E)
(L (W xc4 x00 x00 x00 x02 x00 x00 x00)))
(T (W x00 x00 x00 x00 x9c x73 xfd xff)
(L (W x00 x00 x80 xbf x00 x00 x80 xbf))
(L (W x00 x00 x00 x00 x00 x00 x00 x00))))))
(T (W x62 xc0 xfb xff x74 x00 x00 x00)
(T (W x45 x26 x22 x84 xe4 x9c xf2 xcb)
(T (W x00 x00 x80 x3f x00 x00 x80 x3f)
(T (W x54 x00 x00 x00 x58 x00 x00 x00)
(T (W xff xff xff xff xff xff xff xff)
(L (W x00 x00 x00 x00 x00 x00 x00 x00)) E)
(L (W x30 x33 x5f x43 x4c x45 x41 x52)))
(T (W x32 x2a xfd xff x9d x01 x00 x00)
(L (W x00 x00 x80 xbf x00 x00 x80 xbf))
(L (W x00 x00 x00 x00 x72 x24 xff xff))))
(T (W x00 x00 x00 x00 x00 x00 x00 x00)
(T (W x00 x00 x00 x00 x00 x00 x00 x00)
(T (W x00 x00 x00 x00 x00 x00 x00 x00)
(L (W x62 x00 x00 x00 xc6 x00 x00 x00)) E)
(L (W x45 x26 x22 x84 xe4 x9c xf2 xcb)))
(T (W x6b x65 x5f x77 x61 x72 x6c x69)
(L (W x18 x00 x00 x00 x0c x00 x00 x00))
(L (W x00 x00 x00 x00 x00 x00 x00 x00)))))
(T (W x00 x00 x80 x3f x00 x00 x80 x3f)
(T (W x00 x00 x00 x00 x00 x00 x00 x00)
(T (W x62 xc0 xfc xff x74 x00 x00 x00)
(T (W x45 x26 x22 x84 xe4 x9c xf2 xcb)
(L (W x10 x00 x14 x00 x18 x00 x1c x00)) E)
(L (W x46 x53 x59 x53 x5f x4e x53 x5f)))
(T (W x50 x00 x00 x00 x44 x00 x00 x00)
(L (W x98 x43 xfe xff xc2 x7e xfe xff))
(L (W xb0 x00 x00 x00 x64 x00 x00 x00))))
(T (W xff xff xff xff xff xff xff xff)
(T (W xff xff xff xff x9c x00 x00 x00)
(T (W x00 x00 x80 x3f x00 x00 x80 x3f)
(L (W x00 x00 x80 xbf x00 x00 x80 xbf)) E)
(L (W xff xff xff xff xff xff xff xff)))
(T (W xff xff xff xff xff xff xff xff)
(L (W x00 x00 x80 xbf x00 x00 x80 xbf))
(L (W x00 x00 x00 x00 x00 x00 x00 x00))))))))))
(T (W xa8 x2f x01 x00 xfc x2c x01 x00)
(T (W x50 x02 x00 x00 x04 x00 x00 x00)
(T (W xff xff xff xff x04 x00 x00 x00)
(T (W x00 x00 x00 x00 x00 x00 x00 x00)
(T (W x00 x00 x80 x3f x00 x00 x80 x3f)
(T (W xff xff xff xff xff xff xff xff)
(T (W xff xff xff xff xff xff xff xff)
(T (W x00 x00 x00 x00 x00 x00 x00 x00)
(T (W x00 x00 x80 x3f x00 x00 x80 x3f)
(L (W x18 x00 x00 x00 x10 x00 x00 x00)) E)
(L (W xff xff xff xff xff xff xff xff)))
(T (W x00 x00 x00 x00 x04 x00 x00 x00)
(L (W x46 x53 x59 x53 x5f x4e x53 x5f))
(L (W x30 x33 x5f x43 x4c x45 x41 x52))))
(T (W x68 x00 x00 x00 x5c x00 x00 x00)
(T (W x32 xcd xfc xff xa6 x01 x00 x00)
(T (W xb8 x00 x00 x00 xac x00 x00 x00)
(L (W x00 x00 x00 x00 x00 x00 x00 x00)) E)
(L (W x00 x00 x80 xbf x00 x00 x80 xbf)))
(T (W x92 x52 xfd xff x9d x01 x00 x00)
(L (W x8e x2d xc8 xc9 x03 x8b xa0 xbc))
(L (W x00 x00 x00 x00 x00 x00 x00 x00)))))
(T (W xb2 x2c xff xff x8e x01 x00 x00)
(T (W x0a x00 x00 x00 x3e x00 x00 x00)
(T (W x00 x00 x00 x00 x00 x00 x00 x00)
(T (W x00 x00 x00 x00 x00 x00 x00 x00)
(L (W x62 xa3 xff xff x74 x00 x00 x00)) E)
(L (W x00 x00 x80 xbf x00 x00 x80 xbf)))
(T (W x00 x00 x80 x3f x00 x00 x80 x3f)
(L (W x00 x00 x01 x01 xe0 x00 x00 x00))
(L (W x45 x26 x22 x84 xe4 x9c xf2 xcb))))
(T (W x00 x00 x80 x3f x00 x00 x80 x3f)
(T (W x03 x00 x00 x00 xd8 x00 x00 x00)
(T (W x00 x00 x00 x00 x00 x00 x00 x00)
(L (W x6c x00 x00 x00 x60 x00 x00 x00)) E)
(L (W xff xff xff xff xff xff xff xff)))
(T (W x62 x63 xfd xff x74 x00 x00 x00)
(L (W xff xff xff xff xff xff xff xff))
(L (W x00 x00 x80 xbf x00 x00 x80 xbf))))))
(T (W x62 xd1 xfd xff x00 x00 x01 x01)
(T (W xff xff xff xff xff xff xff xff)
(T (W x00 x00 x00 x00 x9c x16 xfc xff)
(T (W x00 x00 x00 x00 x00 x00 x00 x00)
(T (W x00 x00 x80 x3f x00 x00 x80 x3f)
(L (W x62 x93 xff xff x74 x00 x00 x00)) E)
(L (W xcc x00 x00 x00 x01 x00 x00 x00)))
(T (W x00 x00 x00 x00 x00 x00 x00 x00)
(L (W x00 x00 x00 x00 x00 x00 x00 x00))
(L (W x00 x00 x80 xbf x00 x00 x80 xbf))))
(T (W x00 x00 x80 x3f x00 x00 x80 x3f)
(T (W x00 x00 x80 x3f x00 x00 x80 x3f)
(T (W x11 xd2 x36 x97 x85 x2d x63 x5f)
(L (W x00 x00 x00 x00 x12 x00 x00 x00)) E)
(L (W xff xff xff xff xff xff xff xff)))
(T (W x00 x00 x00 x00 x00 x00 x00 x00)
(L (W xc4 x05 x00 x00 x94 x04 x00 x00))
(L (W x00 x00 x00 x00 x00 x00 x00 x00)))))
(T (W xff xff xff xff xff xff xff xff)
(T (W x45 x26 x22 x84 xe4 x9c xf2 xcb)
(T (W x00 x00 x00 x00 x00 x00 x00 x00)
(T (W xff xff xff xff xff xff xff xff)
(L (W xff xff xff xff xff xff xff xff)) E)
(L (W x68 x00 x00 x00 x5c x00 x00 x00)))
(T (W x18 x00 x00 x00 x10 x00 x00 x00)
(L (W x2c x00 x00 x00 x10 x00 x00 x00))
(L (W x00 x00 x00 x00 x00 x00 x00 x00))))
(T (W x45 x26 x22 x84 xe4 x9c xf2 xcb)
(T (W xff xff xff xff xff xff xff xff)
(T (W x00 x00 x68 x00 x0b x00 x6c x00)
(L (W x00 x00 x00 x00 x00 x00 x00 x00)) E)
(L (W x00 x00 x00 x00 x00 x00 x00 x00)))
(T (W x04 x00 x00 x00 x22 x84 xfd xff)
(L (W xff xff xff xff xff xff xff xff))
(L (W x00 x00 x80 xbf x00 x00 x80 xbf)))))))
(T (W x00 x00 x00 x00 x00 x00 x00 x00)
(T (W xff xff xff xff xff xff xff xff)
(T (W xff xff xff xff xff xff xff xff)
(T (W x64 x00 x00 x00 x9c x00 x00 x00)
(T (W x00 x00 x00 x00 x00 x00 x00 x00)
(T (W x00 x00 x80 x3f x00 x00 x80 x3f)
(L (W x2c x90 xff xff x00 x01 x01 x01)) E)
(L (W xff xff xff xff xbc x00 x00 x00)))
(T (W x45 x44 x00 x00 x00 x00 x00 x00)
(L (W xff xff xff xff xff xff xff xff))
(L (W x00 x00 x00 x00 x00 x00 x00 x00))))
(T (W x00 x00 x80 x3f x00 x00 x80 x3f)
(T (W x00 x00 x00 x00 x00 x00 x00 x00)
(T (W xff xff xff xff xff xff xff xff)
(L (W x00 x00 x00 x00 x00 x00 x00 x00)) E)
(L (W x1f x00 x00 x00 x22 x00 x00 x00)))
(T (W x13 x00 x00 x00 x0c x00 x00 x00)
(L (W x45 x44 x00 x00 x00 x00 x00 x00))
(L (W x30 x33 x5f x43 x4c x45 x41 x52)))))
(T (W x2a x36 xff xff x00 x00 x01 x01)
(T (W xff xff xff xff xff xff xff xff)
(T (W x00 x00 x00 x00 x00 x00 x00 x00)
(T (W x4c x9d x30 x97 x85 x20 x5c x5f)
(L (W xff xff xff xff xff xff xff xff)) E)
(L (W x00 x00 x80 xbf x00 x00 x80 xbf)))
(T (W x45 x26 x22 x84 xe4 x9c xf2 xcb)
(L (W x00 x00 x80 xbf x00 x00 x80 xbf))
(L (W x49 xa1 x68 x4a xeb x5f xdd x3d))))
(T (W x00 x00 x80 x3f x00 x00 x80 x3f)
(T (W xff xff xff xff xbc x00 x00 x00)
(T (W x6c x00 x00 x00 x60 x00 x00 x00)
(L (W x00 x00 x00 x00 x00 x00 x00 x00)) E)
(L (W xff xff xff xff xff xff xff xff)))
(T (W xff xff xff xff xff xff xff xff)
(L (W xa9 x01 x00 x00 xff xff xff xff))
(L (W x4f x84 x6f x8b xe8 xcb x63 xb7))))))
(T (W x00 x00 x00 x00 x00 x00 x00 x00)
(T (W xff xff xff xff xff xff xff xff)
(T (W x18 x00 x00 x00 x0c x00 x00 x00)
(T (W x00 x00 x00 x00 x00 x00 x00 x00)
(T (W x00 x00 x00 x00 x00 x00 x00 x00)
(L (W x6c x00 x00 x00 x60 x00 x00 x00)) E)
(L (W xff xff xff xff x9c x00 x00 x00)))
(T (W x00 x00 x00 x00 x00 x00 x00 x00)
(L (W x00 x00 x00 x00 x00 x00 x00 x00))
(L (W x44 x00 x00 x00 x00 x00 x80 xbf))))
(T (W x00 x00 x80 x3f x00 x00 x80 x3f)
(T (W x00 x00 x80 x3f x00 x00 x80 x3f)
(T (W x00 x00 x00 x00 x00 x00 x00 x00)
(L (W xff xff xff xff xff xff xff xff)) E)
(L (W xff xff xff xff xff xff xff xff)))
(T (W x00 x00 x80 x3f x00 x00 x80 x3f)
(L (W x8d x01 x00 x00 xff xff xff xff))
(L (W x00 x00 x80 xbf x00 x00 x80 xbf)))))
(T (W xff xff xff xff xff xff xff xff)
(T (W x18 x00 x00 x00 x0c x00 x00 x00)
(T (W x00 x00 x80 x3f x00 x00 x80 x3f)
(T (W xb8 x00 x00 x00 xac x00 x00 x00)
(L (W x00 x00 x00 x00 x00 x00 x00 x00)) E)
(L (W x00 x00 x80 xbf x00 x00 x80 xbf)))
(T (W xff xff xff xff xff xff xff xff)
(L (W x00 x00 x00 x00 x00 x00 x00 x00))
(L (W x46 x53 x59 x53 x5f x4e x53 x5f))))
(T (W x00 x00 x80 x3f x00 x00 x80 x3f)
(T (W x00 x00 x00 x00 x52 x12 xfd xff)
(T (W x54 x00 x00 x00 x48 x00 x00 x00)
(L (W x00 x00 x80 xbf x00 x00 x80 xbf)) E)
(L (W x00 x00 x00 x00 x00 x00 x00 x00)))
(T (W x00 x00 x00 x00 x00 x00 x00 x00)
(L (W xff xff xff xff xff xff xff xff))
(L (W x45 x26 x22 x84 xe4 x9c xf2 xcb))))))))
(T (W x45 x26 x22 x84 xe4 x9c xf2 xcb)
(T (W x9e xcf xd8 xe2 x4c x70 xa6 x44)
(T (W x70 x5f x6c x65 x61 x64 x65 x72)
(T (W x68 x00 x00 x00 x5c x00 x00 x00)
(T (W x00 x00 x80 x3f x00 x00 x80 x3f)
(T (W xff xff xff xff xff xff xff xff)
(T (W x18 x01 x00 x00 x04 x00 x00 x00)
(L (W x45 x44 x00 x00 x00 x00 x00 x00)) E)
(L (W x00 x00 x00 x00 x00 x00 x00 x00)))
(T (W x50 x00 x00 x00 x44 x00 x00 x00)
(L (W x6c x76 x31 x00 x22 x00 x00 x00))
(L (W xff xff xff xff xb0 x00 x00 x00))))
(T (W x00 x00 x00 x00 x00 x00 x00 x00)
(T (W x2c xcc xfc xff x00 x01 x01 x01)
(T (W x00 x00 x00 x00 x00 x00 x00 x00)
(L (W xff xff xff xff xff xff xff xff)) E)
(L (W x45 x44 x00 x00 x00 x00 x00 x00)))
(T (W x62 x47 xfd xff x74 x00 x00 x00)
(L (W x00 x00 x80 xbf x00 x00 x80 xbf))
(L (W x68 x00 x00 x00 x5c x00 x00 x00)))))
(T (W x00 x00 x80 x3f x00 x00 x80 x3f)
(T (W x00 x00 x00 x00 x00 x00 x00 x00)
(T (W x64 x00 x00 x00 x9c x00 x00 x00)
(T (W x45 x26 x22 x84 xe4 x9c xf2 xcb)
(L (W x30 x33 x5f x43 x4c x45 x41 x52)) E)
(L (W xff xff xff xff xff xff xff xff)))
(T (W x00 x00 x00 x00 x00 x00 x00 x00)
(L (W xff xff xff xff x9c x00 x00 x00))
(L (W xc6 x00 x00 x00 xff xff xff xff))))
(T (W xff xff xff xff xff xff xff xff)
(T (W x00 x00 x00 x00 x00 x00 x00 x00)
(T (W x54 x00 x00 x00 x48 x00 x00 x00)
(L (W x25 x00 x00 x00 x0c x00 x00 x00)) E)
(L (W x6c x00 x00 x00 x60 x00 x00 x00)))
(T (W x00 x00 x00 x00 x00 x00 x00 x00)
(L (W x45 x26 x22 x84 xe4 x9c xf2 xcb))
(L (W xff xff xff xff xff xff xff xff))))))
(T (W x00 x00 x80 x3f x00 x00 x80 x3f)
(T (W x00 x00 x80 x3f x00 x00 x80 x3f)
(T (W x00 x00 x00 x00 x00 x00 x00 x00)
(T (W x18 x00 x00 x00 x10 x00 x00 x00)
(T (W xff xff xff xff xff xff xff xff)
(L (W x46 x53 x59 x53 x5f x4e x53 x5f)) E)
(L (W x00 x00 x00 x00 x00 x00 x00 x00)))
(T (W xff xff xff xff xff xff xff xff)
(L (W x00 x00 x80 x3f x00 x00 x80 x3f))
(L (W x30 x33 x5f x43 x4c x45 x41 x52))))
(T (W xd3 x01 x00 x00 xff xff xff xff)
(T (W xff xff xff xff xff xff xff xff)
(T (W x45 x26 x22 x84 xe4 x9c xf2 xcb)
(L (W x54 x00 x00 x00 x48 x00 x00 x00)) E)
(L (W x00 x00 x00 x00 x00 x00 x00 x00)))
(T (W xff xff xff xff xff xff xff xff)
(L (W x62 x57 xfe xff x74 x00 x00 x00))
(L (W xff xff xff xff xff xff xff xff)))))
(T (W x45 x26 x22 x84 xe4 x9c xf2 xcb)
(T (W x00 x00 x00 x00 x00 x00 x00 x00)
(T (W x0a x00 x00 x00 x3e x00 x00 x00)
(T (W xff xff xff xff xff xff xff xff)
(L (W x45 x26 x22 x84 xe4 x9c xf2 xcb)) E)
(L (W xff xff xff xff xff xff xff xff)))
(T (W x00 x00 x00 x00 x00 x00 x00 x00)
(L (W x45 x26 x22 x84 xe4 x9c xf2 xcb))
(L (W x62 x37 xff xff x74 x00 x00 x00))))
(T (W xb8 x00 x00 x00 xac x00 x00 x00)
(T (W x00 x00 x80 x3f x00 x00 x80 x3f)
(T (W xff xff xff xff xdc x00 x00 x00)
(L (W x00 x00 x00 x00 x00 x00 x00 x00)) E)
(L (W x18 x00 x00 x00 x0c x00 x00 x00)))
(T (W x00 x00 x80 x3f x00 x00 x80 x3f)
(L (W x00 x00 x80 xbf x00 x00 x80 xbf))
(L (W xff xff xff xff xbc x00 x00 x00)))))))
(T (W x00 x00 x80 x3f x00 x00 x80 x3f)
(T (W x12 xb1 xfb xff x78 x00 x00 x00)
(T (W x00 x00 x80 x3f x00 x00 x80 x3f)
(T (W x00 x00 x00 x00 x00 x00 x00 x00)
(T (W xff xff xff xff xff xff xff xff)
(T (W xff xff xff xff xff xff xff xff)
(L (W x1b x00 x00 x00 x10 x00 x00 x00)) E)
(L (W x4f x84 x6f x8b xe8 xcb x63 xb7)))
(T (W x45 x26 x22 x84 xe4 x9c xf2 xcb)
(L (W x00 x00 x00 x00 x00 x00 x00 x00))
(L (W xff xff xff xff xff xff xff xff))))
(T (W x28 xbf x87 x74 x23 x67 xf4 xab)
(T (W xff xff xff xff xbc x00 x00 x00)
(T (W x45 x26 x22 x84 xe4 x9c xf2 xcb)
(L (W x62 xcf xff xff x74 x00 x00 x00)) E)
(L (W x00 x00 x00 x00 x00 x00 x00 x00)))
(T (W x00 x00 x00 x00 x9c x52 xfd xff)
(L (W x5c x00 x00 x00 x50 x00 x00 x00))
(L (W x18 x00 x00 x00 x0c x00 x00 x00)))))
(T (W x00 x00 x00 x00 x00 x00 x00 x00)
(T (W x14 x48 xfc xff x3e x00 x00 x00)
(T (W x00 x00 x00 x00 x9c xb2 xfc xff)
(T (W x00 x00 x80 x3f x00 x00 x80 x3f)
(L (W x00 x00 x80 xbf x00 x00 x80 xbf)) E)
(L (W xff xff xff xff xff xff xff xff)))
(T (W x00 x00 x00 x00 x00 x00 x00 x00)
(L (W x00 x00 x80 xbf x00 x00 x80 xbf))
(L (W x03 x00 x00 x00 xd0 x00 x00 x00))))
(T (W xff xff xff xff xff xff xff xff)
(T (W x4f x84 x6f x8b xe8 xcb x63 xb7)
(T (W x69 x6b x65 x5f x70 x6d x30 x34)
(L (W x1c x00 x20 x00 x24 x00 x28 x00)) E)
(L (W x18 x00 x00 x00 x10 x00 x00 x00)))
(T (W x00 x00 x80 x3f x00 x00 x80 x3f)
(L (W x00 x00 x80 xbf x00 x00 x80 xbf))
(L (W xff xff xff xff xff xff xff xff))))))
(T (W x00 x00 x80 x3f x00 x00 x80 x3f)
(T (W x00 x00 x80 x3f x00 x00 x80 x3f)
(T (W x00 x00 x00 x00 x00 x00 x00 x00)
(T (W xff xff xff xff x04 x00 x00 x00)
(T (W x18 x00 x00 x00 x10 x00 x00 x00)
(L (W x00 x00 x00 x00 x00 x00 x00 x00)) E)
(L (W xff xff xff xff xff xff xff xff)))
(T (W xff xff xff xff xff xff xff xff)
(L (W x00 x00 x00 x00 x00 x00 x00 x00))
(L (W xff xff xff xff xff xff xff xff))))
(T (W x62 x7d xfe xff x00 x00 x01 x01)
(T (W x30 x33 x5f x43 x4c x45 x41 x52)
(T (W xff xff xff xff x01 x00 x00 x00)
(L (W x00 x00 x80 xbf x00 x00 x80 xbf)) E)
(L (W x00 x00 x80 xbf x00 x00 x80 xbf)))
(T (W xff xff xff xff xff xff xff xff)
(L (W x54 x00 x00 x00 x48 x00 x00 x00))
(L (W xff xff xff xff xff xff xff xff)))))
(T (W x00 x00 x80 x3f x00 x00 x80 x3f)
(T (W x00 x00 x00 x00 x00 x00 x00 x00)
(T (W x00 x00 x80 x3f x00 x00 x80 x3f)
(T (W x00 x00 x00 x00 x00 x00 x00 x00)
(L (W x00 x00 x80 xbf x00 x00 x80 xbf)) E)
(L (W x00 x00 x00 x00 x00 x00 x00 x00)))
(T (W x00 x00 x80 x3f x00 x00 x80 x3f)
(L (W x44 x00 x00 x00 x00 x00 x80 xbf))
(L (W x2c x44 xff xff x00 x01 x01 x01))))
(T (W xff xff xff xff xff xff xff xff)
(T (W x6c x00 x00 x00 x60 x00 x00 x00)
(T (W x44 x16 x00 x00 x30 x15 x00 x00)
(L (W x50 x00 x00 x00 x00 x00 x54 x00)) E)
(L (W xb8 x00 x00 x00 x3c x00 x00 x00)))
(T (W x18 x00 x00 x00 x10 x00 x00 x00)
(L (W x00 x00 x00 x00 x00 x00 x00 x00))
(L (W xbc x87 xff xff x29 x00 x00 x00)))))))))
(T (W x45 x26 x22 x84 xe4 x9c xf2 xcb)
(T (W xff xff xff xff xff xff xff xff)
(T (W xff xff xff xff xff xff xff xff)
(T (W xff xff xff xff xff xff xff xff)
(T (W x00 x00 x00 x00 x00 x00 x00 x00)
(T (W x00 x00 x00 x00 x00 x00 x00 x00)
(T (W x00 x00 x80 x3f x00 x00 x80 x3f)
(T (W xff xff xff xff xff xff xff xff)
(L (W xc6 x00 x00 x00 xff xff xff xff)) E)
(L (W xff xff xff xff xff xff xff xff)))
(T (W x00 x00 x80 x3f x00 x00 x80 x3f)
(L (W xff xff xff xff xff xff xff xff))
(L (W x49 xa1 x68 x4a xeb x5f xdd x3d))))
(T (W xff xff xff xff xff xff xff xff)
(T (W x4f x84 x6f x8b xe8 xcb x63 xb7)
(T (W xbc xcd xfd xff x21 x00 x00 x00)
(L (W x00 x00 x80 xbf x00 x00 x80 xbf)) E)
(L (W xff xff xff xff xff xff xff xff)))
(T (W x00 x00 x00 x00 x00 x00 x00 x00)
(L (W x00 x00 x00 x00 x00 x00 x00 x00))
(L (W x00 x00 x80 xbf x00 x00 x80 xbf)))))
(T (W x00 x00 x00 x00 x00 x00 x00 x00)
(T (W xff xff xff xff xff xff xff xff)
(T (W x00 x00 x80 x3f x00 x00 x80 x3f)
(T (W x00 x00 x80 x3f x00 x00 x80 x3f)
(L (W xff xff xff xff xff xff xff xff)) E)
(L (W x45 x26 x22 x84 xe4 x9c xf2 xcb)))
(T (W xff xff xff xff x9c x00 x00 x00)
(L (W x45 x26 x22 x84 xe4 x9c xf2 xcb))
(L (W x00 x00 x00 x00 x9c x28 xff xff))))
(T (W x68 x00 x00 x00 x5c x00 x00 x00)
(T (W xff xff xff xff xff xff xff xff)
(T (W x74 x00 x78 x00 x62 x00 x00 x00)
(L (W x03 x00 x00 x00 xd0 x00 x00 x00)) E)
(L (W x46 x53 x59 x53 x5f x4e x53 x5f)))
(T (W xff xff xff xff xff xff xff xff)
(L (W x00 x00 x00 x00 x00 x00 x00 x00))
(L (W x62 x65 xff xff x74 x00 x00 x00))))))
(T (W x00 x00 x00 x00 x00 x00 x00 x00)
(T (W x00 x00 x00 x00 x00 x00 x00 x00)
(T (W xff xff xff xff xff xff xff xff)
(T (W x00 x00 x80 x3f x00 x00 x80 x3f)
(T (W x12 x97 xfd xff x78 x00 x00 x00)
(L (W xff xff xff xff xff xff xff xff)) E)
(L (W xff xff xff xff xff xff xff xff)))
(T (W x00 x00 x80 x3f x00 x00 x80 x3f)
(L (W x00 x00 x00 x00 x00 x00 x00 x00))
(L (W x45 x26 x22 x84 xe4 x9c xf2 xcb))))
(T (W xb8 x00 x00 x00 xac x00 x00 x00)
(T (W x18 x00 x00 x00 x0c x00 x00 x00)
(T (W x00 x00 x00 x00 x00 x00 x00 x00)
(L (W x49 xa1 x68 x4a xeb x5f xdd x3d)) E)
(L (W xa9 x01 x00 x00 xff xff xff xff)))
(T (W x68 x00 x00 x00 x5c x00 x00 x00)
(L (W x00 x00 x80 xbf x00 x00 x80 xbf))
(L (W x00 x00 x80 xbf x00 x00 x80 xbf)))))
(T (W x00 x00 x00 x00 x00 x00 x00 x00)
(T (W xff xff xff xff xff xff xff xff)
(T (W x34 x00 x38 x00 x3c x00 x40 x00)
(T (W x00 x00 x00 x00 x00 x00 x00 x00)
(L (W x00 x00 x00 x00 x00 x00 x00 x00)) E)
(L (W xb0 x00 x00 x00 x64 x00 x00 x00)))
(T (W x00 x00 x00 x00 x00 x00 x00 x00)
(L (W x45 x26 x22 x84 xe4 x9c xf2 xcb))
(L (W x00 x00 x80 xbf x00 x00 x80 xbf))))
(T (W x45 x26 x22 x84 xe4 x9c xf2 xcb)
(T (W x00 x00 x00 x00 x00 x00 x00 x00)
(T (W x02 x00 x00 x00 xff xff xff xff)
(L (W xc0 x00 x00 x00 x01 x00 x00 x00)) E)
(L (W x00 x00 x00 x00 x00 x00 x00 x00)))
(T (W x45 x26 x22 x84 xe4 x9c xf2 xcb)
(L (W x00 x00 x00 x00 x00 x00 x00 x00))
(L (W x62 x75 xff xff x74 x00 x00 x00)))))))
(T (W xff xff xff xff xff xff xff xff)
(T (W x00 x00 x00 x00 x00 x00 x00 x00)
(T (W x00 x00 x00 x00 x00 x00 x00 x00)
(T (W x00 x00 x00 x00 x02 x00 x00 x00)
(T (W x54 x00 x00 x00 x48 x00 x00 x00)
(T (W x00 x00 x00 x00 x9c x90 xfd xff)
(L (W xff xff xff xff xff xff xff xff)) E)
(L (W xff xff xff xff xff xff xff xff)))
(T (W x00 x00 x80 x3f x00 x00 x80 x3f)
(L (W x00 x00 x00 x00 x52 x24 xfe xff))
(L (W x68 x00 x00 x00 x5c x00 x00 x00))))
(T (W xff xff xff xff xff xff xff xff)
(T (W x00 x00 x80 x3f x00 x00 x80 x3f)
(T (W x00 x00 x80 x3f x00 x00 x80 x3f)
(L (W x00 x00 x80 xbf x00 x00 x80 xbf)) E)
(L (W xff xff xff xff xff xff xff xff)))
(T (W x00 x00 x80 x3f x00 x00 x80 x3f)
(L (W x4f x84 x6f x8b xe8 xcb x63 xb7))
(L (W x00 x00 x80 xbf x00 x00 x80 xbf)))))
(T (W x00 x00 x00 x00 x00 x00 x00 x00)
(T (W xff xff xff xff xff xff xff xff)
(T (W x50 x00 x00 x00 x44 x00 x00 x00)
(T (W x00 x00 x00 x00 x00 x00 x00 x00)
(L (W x00 x00 x00 x00 x00 x00 x00 x00)) E)
(L (W x18 x00 x00 x00 x0c x00 x00 x00)))
(T (W xff xff xff xff xff xff xff xff)
(L (W x00 x00 x00 x00 x00 x00 x00 x00))
(L (W x1c x00 x00 x00 x10 x00 x00 x00))))
(T (W x2c x72 xfc xff x00 x01 x01 x01)
(T (W x30 x33 x5f x43 x4c x45 x41 x52)
(T (W x00 x00 x00 x00 x00 x00 x00 x00)
(L (W x6c x00 x00 x00 x60 x00 x00 x00)) E)
(L (W x00 x00 x00 x00 x00 x00 x00 x00)))
(T (W x4c x45 x41 x52 x45 x44 x00 x00)
(L (W x00 x00 x00 x00 x00 x00 x00 x00))
(L (W x2c x72 xff xff x00 x01 x01 x01))))))
(T (W x00 x00 x00 x00 x00 x00 x00 x00)
(T (W x00 x00 x00 x00 x00 x00 x00 x00)
(T (W xff xff xff xff xff xff xff xff)
(T (W x00 x00 x80 x3f x00 x00 x80 x3f)
(T (W x00 x00 x80 x3f x00 x00 x80 x3f)
(L (W xff xff xff xff xff xff xff xff)) E)
(L (W x00 x00 x00 x00 x00 x00 x00 x00)))
(T (W x62 x1d xfd xff x74 x00 x00 x00)
(L (W xff xff xff xff xff xff xff xff))
(L (W xff xff xff xff xb0 x00 x00 x00))))
(T (W x45 x26 x22 x84 xe4 x9c xf2 xcb)
(T (W xff xff xff xff xff xff xff xff)
(T (W x00 x00 x80 x3f x00 x00 x80 x3f)
(L (W x00 x00 x00 x00 x00 x00 x00 x00)) E)
(L (W xbc xe5 xfe xff x15 x00 x00 x00)))
(T (W x62 x5d xfd xff x74 x00 x00 x00)
(L (W x46 x53 x59 x53 x5f x4e x53 x5f))
(L (W x45 x26 x22 x84 xe4 x9c xf2 xcb)))))
(T (W xbc x05 xfc xff x0d x00 x00 x00)
(T (W xff xff xff xff xff xff xff xff)
(T (W x65 x5f x73 x6b x79 x00 x00 x00)
(T (W xff xff xff xff xff xff xff xff)
(L (W x45 x26 x22 x84 xe4 x9c xf2 xcb)) E)
(L (W xff xff xff xff xff xff xff xff)))
(T (W x14 x56 xfd xff x10 x00 x00 x00)
(L (W x00 x00 x80 xbf x00 x00 x80 xbf))
(L (W x00 x00 x80 xbf x00 x00 x80 xbf))))
(T (W x18 x00 x00 x00 x0c x00 x00 x00)
(T (W x00 x00 x00 x00 x00 x00 x00 x00)
(T (W xc4 x00 x00 x00 x01 x00 x00 x00)
(L (W x00 x00 x00 x00 x00 x00 x62 x00)) E)
(L (W x45 x26 x22 x84 xe4 x9c xf2 xcb)))
(T (W x00 x00 x80 x3f x00 x00 x80 x3f)
(L (W x46 x53 x59 x53 x5f x4e x53 x5f))
(L (W xff xff xff xff xff xff xff xff))))))))
(T (W xff xff xff xff xff xff xff xff)
(T (W x2c x9e xfb xff x00 x01 x01 x01)
(T (W x00 x00 x80 x3f x00 x00 x80 x3f)
(T (W x18 x00 x00 x00 x0c x00 x00 x00)
(T (W x00 x00 x80 x3f x00 x00 x80 x3f)
(T (W xff xff xff xff xff xff xff xff)
(T (W x00 x00 x00 x00 x00 x00 x00 x00)
(L (W x00 x00 x80 xbf x00 x00 x80 xbf)) E)
(L (W x00 x00 x80 xbf x00 x00 x80 xbf)))
(T (W xff xff xff xff xff xff xff xff)
(L (W x00 x00 x80 x3f x00 x00 x80 x3f))
(L (W x2c x01 x00 x00 x04 x00 x00 x00))))
(T (W x00 x00 x00 x00 x00 x00 x00 x00)
(T (W xff xff xff xff xff xff xff xff)
(T (W x64 x00 x00 x00 x9c x00 x00 x00)
(L (W xff xff xff xff xff xff xff xff)) E)
(L (W x4f x84 x6f x8b xe8 xcb x63 xb7)))
(T (W xff xff xff xff xff xff xff xff)
(L (W xa0 x00 x00 x00 x64 x00 x00 x00))
(L (W xff xff xff xff xff xff xff xff)))))
(T (W xbc x00 x00 x00 xb0 x00 x00 x00)
(T (W x00 x00 x80 x3f x00 x00 x80 x3f)
(T (W x00 x00 x00 x00 x02 x00 x00 x00)
(T (W xff xff xff xff xff xff xff xff)
(L (W xff xff xff xff xff xff xff xff)) E)
(L (W x00 x00 x00 x00 x00 x00 x00 x00)))
(T (W x00 x00 x00 x00 x00 x00 x00 x00)
(L (W xb0 x44 x69 x12 x83 x6b x37 xc6))
(L (W x46 x53 x59 x53 x5f x4e x53 x5f))))
(T (W x00 x00 x00 x00 x00 x00 x00 x00)
(T (W x62 xe9 xfc xff x74 x00 x00 x00)
(T (W xff xff xff xff xff xff xff xff)
(L (W x00 x00 x00 x00 x00 x00 x00 x00)) E)
(L (W x03 x00 x00 x00 xd0 x00 x00 x00)))
(T (W x50 x00 x00 x00 x44 x00 x00 x00)
(L (W xff xff xff xff xc4 x00 x00 x00))
(L (W x00 x00 x00 x00 x42 x6a xff xff))))))
(T (W xb8 x00 x00 x00 xac x00 x00 x00)
(T (W xff xff xff xff x03 x00 x00 x00)
(T (W x68 x00 x00 x00 x5c x00 x00 x00)
(T (W xff xff xff xff xff xff xff xff)
(T (W x0f x64 x2e x97 x85 x1e x59 x5f)
(L (W x00 x00 x80 xbf x00 x00 x80 xbf)) E)
(L (W x50 x00 x00 x00 x44 x00 x00 x00)))
(T (W x4a x00 x00 x00 xff xff xff xff)
(L (W xff xff xff xff xff xff xff xff))
(L (W x4f x84 x6f x8b xe8 xcb x63 xb7))))
(T (W x45 x26 x22 x84 xe4 x9c xf2 xcb)
(T (W x00 x00 x00 x00 x00 x00 x00 x00)
(T (W xff xff xff xff xff xff xff xff)
(L (W xff xff xff xff xff xff xff xff)) E)
(L (W x54 x00 x00 x00 x48 x00 x00 x00)))
(T (W x92 x45 x99 x81 x61 x09 x88 x67)
(L (W xff xff xff xff xff xff xff xff))
(L (W x00 x00 x00 x00 x00 x00 x00 x00)))))
(T (W x50 x00 x00 x00 x44 x00 x00 x00)
(T (W x45 x26 x22 x84 xe4 x9c xf2 xcb)
(T (W xff xff xff xff xff xff xff xff)
(T (W x45 x26 x22 x84 xe4 x9c xf2 xcb)
(L (W xff xff xff xff xff xff xff xff)) E)
(L (W x00 x00 x00 x00 x00 x00 x00 x00)))
(T (W x2c x3e xfd xff x00 x01 x01 x01)
(L (W xff xff xff xff xff xff xff xff))
(L (W xc6 x00 x00 x00 xff xff xff xff))))
(T (W x3c x6d x59 x87 x65 xea x58 x20)
(T (W x45 x26 x22 x84 xe4 x9c xf2 xcb)
(T (W x4f x84 x6f x8b xe8 xcb x63 xb7)
(L (W xff xff xff xff xff xff xff xff)) E)
(L (W xff xff xff xff xff xff xff xff)))
(T (W xff xff xff xff xff xff xff xff)
(L (W x70 x00 x00 x00 x64 x00 x00 x00))
(L (W x3c x00 x00 x00 x00 x00 x80 xbf)))))))
(T (W xf2 xbd xfd xff xca x01 x00 x00)
(T (W xff xff xff xff xff xff xff xff)
(T (W x40 x00 x00 x00 x9c x00 x00 x00)
(T (W x50 x00 x00 x00 x44 x00 x00 x00)
(T (W xff xff xff xff xff xff xff xff)
(T (W x00 x00 x00 x00 x00 x00 x00 x00)
(L (W x00 x00 x80 xbf x00 x00 x80 xbf)) E)
(L (W x54 x00 x00 x00 x48 x00 x00 x00)))
(T (W xff xff xff xff xff xff xff xff)
(L (W xff xff xff xff xff xff xff xff))
(L (W x00 x00 x00 x00 x00 x00 x00 x00))))
(T (W x45 x26 x22 x84 xe4 x9c xf2 xcb)
(T (W x00 x00 x00 x00 x00 x00 x00 x00)
(T (W xff xff xff xff xff xff xff xff)
(L (W xff xff xff xff xff xff xff xff)) E)
(L (W x00 x00 x80 xbf x00 x00 x80 xbf)))
(T (W xff xff xff xff x02 x00 x00 x00)
(L (W xff xff xff xff xb0 x00 x00 x00))
(L (W xff xff xff xff xff xff xff xff)))))
(T (W x2c xf6 xfb xff x00 x01 x01 x01)
(T (W x00 x00 x80 x3f x00 x00 x80 x3f)
(T (W xff xff xff xff xff xff xff xff)
(T (W x18 x00 x00 x00 x10 x00 x00 x00)
(L (W xb8 x00 x00 x00 x14 x00 x00 x00)) E)
(L (W x00 x00 x00 x00 x00 x00 x00 x00)))
(T (W x00 x00 x80 x3f x00 x00 x80 x3f)
(L (W xff xff xff xff xff xff xff xff))
(L (W x00 x00 x00 x00 x06 x00 x00 x00))))
(T (W x00 x00 x00 x00 x00 x00 x00 x00)
(T (W x18 x00 x00 x00 x0c x00 x00 x00)
(T (W x84 x00 x08 x00 x78 x00 x0c x00)
(L (W xff xff xff xff xff xff xff xff)) E)
(L (W xff xff xff xff xff xff xff xff)))
(T (W xff xff xff xff xac x00 x00 x00)
(L (W xcc x00 x00 x00 x01 x00 x00 x00))
(L (W x00 x00 x00 x00 x00 x00 x00 x00))))))
(T (W x00 x00 x00 x00 x9c xc4 xfb xff)
(T (W x64 x00 x00 x00 x9c x00 x00 x00)
(T (W x00 x00 x80 x3f x00 x00 x80 x3f)
(T (W x00 x00 x00 x00 x00 x00 x00 x00)
(T (W xff xff xff xff xff xff xff xff)
(L (W x00 x00 x80 xbf x00 x00 x80 xbf)) E)
(L (W x00 x00 x00 x00 x00 x00 x00 x00)))
(T (W x00 x00 x00 x00 x00 x00 x00 x00)
(L (W x3c xf2 xff xff x01 x01 x01 x01))
(L (W x00 x00 x00 x00 x00 x00 x00 x00))))
(T (W x00 x00 x00 x00 x00 x00 x00 x00)
(T (W x00 x00 x80 x3f x00 x00 x80 x3f)
(T (W x00 x00 x80 x3f x00 x00 x80 x3f)
(L (W x45 x44 x00 x00 x00 x00 x00 x00)) E)
(L (W xff xff xff xff xc4 x00 x00 x00)))
(T (W x00 x00 x80 x3f x00 x00 x80 x3f)
(L (W xcc x00 x00 x00 x02 x00 x00 x00))
(L (W x00 x00 x00 x00 x00 x00 x00 x00)))))
(T (W x00 x00 x80 x3f x00 x00 x80 x3f)
(T (W x00 x00 x00 x00 x00 x00 x00 x00)
(T (W xff xff xff xff x9c x00 x00 x00)
(T (W x00 x00 x80 x3f x00 x00 x80 x3f)
(L (W xff xff xff xff xff xff xff xff)) E)
(L (W x00 x00 x00 x00 x00 x00 x00 x00)))
(T (W x45 x26 x22 x84 xe4 x9c xf2 xcb)
(L (W xff xff xff xff xff xff xff xff))
(L (W xff xff xff xff xff xff xff xff))))
(T (W x49 x00 x00 x00 xff xff xff xff)
(T (W x03 x00 x00 x00 xd0 x00 x00 x00)
(L (W xff xff xff xff xd8 x00 x00 x00))
(L (W xff xff xff xff xff xff xff xff)))
(T (W xff xff xff xff xff xff xff xff)
(L (W x6c x00 x00 x00 x60 x00 x00 x00))
(L (W x00 x00 x80 xbf x00 x00 x80 xbf))))))))))))
(T (W x08 xa1 x03 x00 x64 x93 x03 x00)
(T (W x90 xe4 x02 x00 x6c xdb x02 x00)
(T (W x30 x30 x02 x00 xec x2d x02 x00)
(T (W x18 xc0 x00 x00 xcc xbd x00 x00)
(T (W xff xff xff xff x04 x00 x00 x00)
(T (W x00 x00 x00 x00 x00 x00 x00 x00)
(T (W x45 x26 x22 x84 xe4 x9c xf2 xcb)
(T (W x22 xe0 xfd xff x00 x00 x01 x01)
(T (W xff xff xff xff xff xff xff xff)
(T (W x45 x26 x22 x84 xe4 x9c xf2 xcb)
(T (W x00 x00 x00 x00 x00 x00 x00 x00)
(L (W xff xff xff xff xff xff xff xff)) E)
(L (W xff xff xff xff xff xff xff xff)))
(T (W x45 x44 x00 x00 x00 x00 x00 x00)
(L (W x67 x72 x6f x75 x70 x5f x77 x69))
(L (W x00 x00 x00 x00 x00 x00 x00 x00))))
(T (W xec x46 xfc xff x00 x01 x01 x01)
(T (W x1d x00 x00 x00 x0c x00 x00 x00)
(T (W xff xff xff xff xff xff xff xff)
(L (W x00 x00 x00 x00 x00 x00 x00 x00)) E)
(L (W x22 xc2 xfe xff x74 x00 x00 x00)))
(T (W x04 x00 x00 x00 x7c x03 x00 x00)
(L (W x30 x33 x5f x43 x4c x45 x41 x52))
(L (W x00 x00 x00 x00 x00 x00 x00 x00)))))
(T (W x21 x00 x00 x00 x10 x00 x00 x00)
(T (W xff xff xff xff xff xff xff xff)
(T (W x00 x00 x68 x00 x00 x00 x00 x00)
(T (W x00 x00 x00 x00 x00 x00 x00 x00)
(L (W x18 x00 x00 x00 x0c x00 x00 x00)) E)
(L (W x54 x00 x00 x00 x48 x00 x00 x00)))
(T (W x22 x22 xfd xff x74 x00 x00 x00)
(L (W x04 x00 x00 x00 x12 xf5 xff xff))
(L (W x00 x00 x80 xbf x00 x00 x80 xbf))))
(T (W x45 x26 x22 x84 xe4 x9c xf2 xcb)
(T (W xff xff xff xff xbc x00 x00 x00)
(T (W x24 x00 x28 x00 x2c x00 x30 x00)
(L (W xff xff xff xff xac x00 x00 x00)) E)
(L (W x00 x00 x00 x00 x00 x00 x00 x00)))
(T (W x1d x00 x00 x00 x20 x00 x00 x00)
(L (W x45 x44 x00 x00 x00 x00 x00 x00))
(L (W x00 x00 x00 x00 xf0 x66 xff xff))))))
(T (W x00 x00 x00 x00 x00 x00 x00 x00)
(T (W xaf x01 x00 x00 xff xff xff xff)
(T (W xff xff xff xff xff xff xff xff)
(T (W x00 x00 x00 x00 x00 x00 x00 x00)
(T (W x00 x00 x80 x3f x00 x00 x80 x3f)
(L (W xff xff xff xff xb0 x00 x00 x00)) E)
(L (W xff xff xff xff xff xff xff xff)))
(T (W x49 xa1 x68 x4a xeb x5f xdd x3d)
(L (W x00 x00 x00 x00 x12 x00 x00 x00))
(L (W x6c x00 x00 x00 x60 x00 x00 x00))))
(T (W x22 x52 xfc xff x74 x00 x00 x00)
(T (W x00 x00 x80 x3f x00 x00 x80 x3f)
(T (W x00 x00 x00 x00 x00 x00 x00 x00)
(L (W x00 x00 x00 x00 x00 x00 x00 x00)) E)
(L (W xff xff xff xff xff xff xff xff)))
(T (W x45 x26 x22 x84 xe4 x9c xf2 xcb)
(L (W x00 x00 x00 x00 x00 x00 x00 x00))
(L (W x4f x84 x6f x8b xe8 xcb x63 xb7)))))
(T (W x1c x01 x00 x00 x04 x00 x00 x00)
(T (W xff xff xff xff xff xff xff xff)
(T (W x00 x00 x00 x00 x00 x00 x00 x00)
(T (W x65 xa2 x30 x97 x85 x23 x5c x5f)
(L (W x00 x00 x00 x00 x00 x00 x00 x00)) E)
(L (W x45 x26 x22 x84 xe4 x9c xf2 xcb)))
(T (W xff xff xff xff xff xff xff xff)
(L (W x46 x53 x59 x53 x5f x4e x53 x5f))
(L (W x00 x00 x80 xbf x00 x00 x80 xbf))))
(T (W x00 x00 x80 x3f x00 x00 x80 x3f)
(T (W x00 x00 x00 x00 x12 x09 xfd xff)
(T (W x60 x01 x00 x00 x97 x00 x00 x00)
(L (W x00 x00 x00 x00 x00 x00 x00 x00)) E)
(L (W x00 x00 x00 x00 x00 x00 x00 x00)))
(T (W x00 x00 x00 x00 x00 x00 x00 x00)
(L (W x45 x44 x00 x00 x00 x00 x00 x00))
(L (W x00 x00 x00 x00 xf0 x76 xff xff)))))))
(T (W x2a x00 x00 x00 x67 x72 x6f x75)
(T (W xff xff xff xff xff xff xff xff)
(T (W xff xff xff xff xff xff xff xff)
(T (W xff xff xff xff xff xff xff xff)
(T (W x00 x00 x00 x00 x00 x00 x00 x00)
(T (W x22 x8a xfd xff x74 x00 x00 x00)
(L (W xff xff xff xff xff xff xff xff)) E)
(L (W xff xff xff xff xff xff xff xff)))
(T (W x00 x00 x00 x00 x00 x00 x00 x00)
(L (W xff xff xff xff xff xff xff xff))
(L (W x00 x00 x80 xbf x00 x00 x80 xbf))))
(T (W x50 x00 x00 x00 x44 x00 x00 x00)
(T (W x00 x00 x00 x00 x00 x00 x00 x00)
(T (W x25 x00 x00 x00 x10 x00 x00 x00)
(L (W x00 x00 x00 x00 x00 x00 x00 x00)) E)
(L (W x18 x00 x00 x00 x10 x00 x00 x00)))
(T (W x5f x4e x53 x5f x30 x33 x5f x43)
(L (W xe6 x5a xca xc9 x03 x86 xa3 xbc))
(L (W x00 x00 x00 x00 x00 x00 x00 x00)))))
(T (W x00 x00 x00 x00 x8a x36 xff xff)
(T (W xff xff xff xff xff xff xff xff)
(T (W x00 x00 x80 x3f x00 x00 x80 x3f)
(T (W x00 x00 x00 x00 x00 x00 x00 x00)
(L (W x00 x00 x00 x00 x12 x00 x00 x00)) E)
(L (W x45 x26 x22 x84 xe4 x9c xf2 xcb)))
(T (W x00 x00 x00 x00 x5c x2d xfd xff)
(L (W x00 x00 x80 xbf x00 x00 x80 xbf))
(L (W x00 x00 x80 xbf x00 x00 x80 xbf))))
(T (W x00 x00 x80 x3f x00 x00 x80 x3f)
(T (W xff xff xff xff xff xff xff xff)
(T (W x00 x00 x00 x00 x00 x00 x00 x00)
(L (W x00 x00 x80 xbf x00 x00 x80 xbf)) E)
(L (W x45 x44 x00 x00 x00 x00 x00 x00)))
(T (W x02 x00 x00 x00 xff xff xff xff)
(L (W x00 x00 x00 x00 x00 x00 x00 x00))
(L (W x45 x26 x22 x84 xe4 x9c xf2 xcb))))))
(T (W x7c xc2 xfb xff x3c x00 x00 x00)
(T (W x00 x00 x00 x00 x00 x00 x00 x00)
(T (W xff xff xff xff xff xff xff xff)
(T (W x45 x26 x22 x84 xe4 x9c xf2 xcb)
(T (W x00 x00 x80 x3f x00 x00 x80 x3f)
(L (W xff xff xff xff xff xff xff xff)) E)
(L (W xff xff xff xff xff xff xff xff)))
(T (W x45 x26 x22 x84 xe4 x9c xf2 xcb)
(L (W x00 x00 x00 x00 x00 x00 x00 x00))
(L (W x45 x26 x22 x84 xe4 x9c xf2 xcb))))
(T (W x00 x00 x00 x00 x5c x5d xfc xff)
(T (W xec xde xfc xff x00 x01 x01 x01)
(T (W x00 x00 x00 x00 x00 x00 x00 x00)
(L (W x00 x00 x00 x00 x00 x00 x00 x00)) E)
(L (W xff xff xff xff xff xff xff xff)))
(T (W x00 x00 x80 x3f x00 x00 x80 x3f)
(L (W x00 x00 x00 x00 x00 x00 x00 x00))
(L (W x00 x00 x80 xbf x00 x00 x80 xbf)))))
(T (W xff xff xff xff xff xff xff xff)
(T (W x64 x00 x00 x00 x9c x00 x00 x00)
(T (W x00 x00 x00 x00 x00 x00 x00 x00)
(T (W xff xff xff xff xff xff xff xff)
(L (W x00 x00 x00 x00 x00 x00 x00 x00)) E)
(L (W x00 x00 x00 x00 x5c xbd xfe xff)))
(T (W xff xff xff xff xff xff xff xff)
(L (W x00 x00 x00 x00 x00 x00 x00 x00))
(L (W x00 x00 x00 x00 x00 x00 x00 x00))))
(T (W x00 x00 x80 x3f x00 x00 x80 x3f)
(T (W x00 x00 x00 x00 x04 x00 x00 x00)
(T (W x18 x00 x00 x00 x10 x00 x00 x00)
(L (W x00 x00 x00 x00 x00 x00 x00 x00)) E)
(L (W x00 x00 x00 x00 x00 x00 x00 x00)))
(T (W x00 x00 x00 x00 x00 x00 x00 x00)
(L (W xff xff xff xff xff xff xff xff))
(L (W xff xff xff xff xff xff xff xff))))))))
(T (W x00 x00 x00 x00 x00 x00 x00 x00)
(T (W x00 x00 x00 x00 x00 x00 x00 x00)
(T (W x00 x00 x00 x00 x00 x00 x00 x00)
(T (W x50 x00 x00 x00 x44 x00 x00 x00)
(T (W x00 x00 x80 x3f x00 x00 x80 x3f)
(T (W xff xff xff xff xff xff xff xff)
(T (W x00 x00 x00 x00 x00 x00 x00 x00)
(L (W x00 x00 x00 x00 x00 x00 x00 x00)) E)
(L (W x4f x84 x6f x8b xe8 xcb x63 xb7)))
(T (W x45 x26 x22 x84 xe4 x9c xf2 xcb)
(L (W x30 x33 x5f x43 x4c x45 x41 x52))
(L (W xff xff xff xff x9c x00 x00 x00))))
(T (W x00 x00 x00 x00 x00 x00 x00 x00)
(T (W x45 x26 x22 x84 xe4 x9c xf2 xcb)
(T (W x00 x00 x80 x3f x00 x00 x80 x3f)
(L (W xff xff xff xff x9c x00 x00 x00)) E)
(L (W x00 x00 x00 x00 x00 x00 x00 x00)))
(T (W x68 x00 x00 x00 x5c x00 x00 x00)
(L (W x45 x26 x22 x84 xe4 x9c xf2 xcb))
(L (W x18 x00 x00 x00 x0c x00 x00 x00)))))
(T (W x00 x00 x80 x3f x00 x00 x80 x3f)
(T (W x00 x00 x00 x00 x00 x00 x00 x00)
(T (W xff xff xff xff xff xff xff xff)
(T (W x18 x00 x00 x00 x10 x00 x00 x00)
(L (W x00 x00 x00 x00 x00 x00 x00 x00)) E)
(L (W xff xff xff xff xff xff xff xff)))
(T (W x13 x00 x00 x00 x0c x00 x00 x00)
(L (W xb0 x00 x00 x00 x64 x00 x00 x00))
(L (W xa4 x05 x00 x00 x7c x04 x00 x00))))
(T (W xff xff xff xff xff xff xff xff)
(T (W x4f x84 x6f x8b xe8 xcb x63 xb7)
(T (W x00 x00 x80 xbf x00 x00 x80 xbf)
(L (W x45 x44 x00 x00 x00 x00 x00 x00)) E)
(L (W x00 x00 x80 xbf x00 x00 x80 xbf)))
(T (W x00 x00 x00 x00 x00 x00 x00 x00)
(L (W x00 x00 x80 xbf x00 x00 x80 xbf))
(L (W x24 x01 x00 x00 x04 x00 x00 x00))))))
(T (W x50 x00 x00 x00 x44 x00 x00 x00)
(T (W x00 x00 x80 x3f x00 x00 x80 x3f)
(T (W x00 x00 x00 x00 x00 x00 x00 x00)
(T (W xff xff xff xff xff xff xff xff)
(T (W xff xff xff xff xff xff xff xff)
(L (W x45 x26 x22 x84 xe4 x9c xf2 xcb)) E)
(L (W x00 x00 x00 x00 x00 x00 x00 x00)))
(T (W xff xff xff xff xff xff xff xff)
(L (W xd2 x17 xfe xff x78 x00 x00 x00))
(L (W x00 x00 x00 x00 x0c x00 x00 x00))))
(T (W x7c x5e xfc xff x3e x00 x00 x00)
(T (W x00 x00 x00 x00 x02 xd7 xfc xff)
(T (W xff xff xff xff xff xff xff xff)
(L (W xff xff xff xff x9c x00 x00 x00)) E)
(L (W x45 x26 x22 x84 xe4 x9c xf2 xcb)))
(T (W xff xff xff xff xff xff xff xff)
(L (W x18 x00 x00 x00 x0c x00 x00 x00))
(L (W xff xff xff xff xff xff xff xff)))))
(T (W x00 x00 x80 x3f x00 x00 x80 x3f)
(T (W x00 x00 x00 x00 x00 x00 x00 x00)
(T (W x68 x00 x00 x00 x5c x00 x00 x00)
(T (W xd0 x00 x00 x00 xac x00 x00 x00)
(L (W x58 x00 x00 x00 x4c x00 x00 x00)) E)
(L (W x9a xce xfe xff xca x01 x00 x00)))
(T (W x00 x00 x80 x3f x00 x00 x80 x3f)
(L (W xff xff xff xff xff xff xff xff))
(L (W xff xff xff xff xb0 x00 x00 x00))))
(T (W xff xff xff xff xff xff xff xff)
(T (W x6c x00 x00 x00 x60 x00 x00 x00)
(T (W x00 x00 x80 x3f x00 x00 x80 x3f)
(L (W x00 x00 x00 x00 x00 x00 x00 x00)) E)
(L (W x00 x00 x00 x00 x5c xf9 xfe xff)))
(T (W xec x7a xfd xff x00 x01 x01 x01)
(L (W x5c x00 x00 x00 x50 x00 x00 x00))
(L (W xff xff xff xff xff xff xff xff)))))))
(T (W x45 x26 x22 x84 xe4 x9c xf2 xcb)
(T (W xec xb2 xfb xff x00 x01 x01 x01)
(T (W x6c x00 x00 x00 x60 x00 x00 x00)
(T (W x00 x00 x80 x3f x00 x00 x80 x3f)
(T (W xff xff xff xff xff xff xff xff)
(T (W x18 x01 x00 x00 x04 x00 x00 x00)
(L (W x46 x53 x59 x53 x5f x4e x53 x5f)) E)
(L (W x00 x00 x00 x00 x00 x00 x00 x00)))
(T (W xff xff xff xff xff xff xff xff)
(L (W x00 x00 x80 x3f x00 x00 x80 x3f))
(L (W xff xff xff xff xff xff xff xff))))
(T (W x00 x00 x00 x00 x00 x00 x00 x00)
(T (W xff xff xff xff xff xff xff xff)
(T (W x18 x00 x00 x00 x10 x00 x00 x00)
(L (W x18 x00 x00 x00 x0c x00 x00 x00)) E)
(L (W x00 x00 x00 x00 x00 x00 x00 x00)))
(T (W xc0 x00 x00 x00 x01 x00 x00 x00)
(L (W x18 x00 x00 x00 x0c x00 x00 x00))
(L (W xff xff xff xff xff xff xff xff)))))
(T (W x00 x00 x80 x3f x00 x00 x80 x3f)
(T (W x00 x00 x00 x00 x00 x00 x00 x00)
(T (W xff xff xff xff xff xff xff xff)
(T (W x45 x26 x22 x84 xe4 x9c xf2 xcb)
(L (W x00 x00 x80 xbf x00 x00 x80 xbf)) E)
(L (W x00 x00 x00 x00 x12 xc5 xfe xff)))
(T (W x00 x00 x00 x00 x00 x00 x00 x00)
(L (W x00 x00 x80 xbf x00 x00 x80 xbf))
(L (W xc6 x00 x00 x00 xff xff xff xff))))
(T (W xff xff xff xff xff xff xff xff)
(T (W x00 x00 x80 x3f x00 x00 x80 x3f)
(T (W xe9 x01 x00 x00 xff xff xff xff)
(L (W xff xff xff xff xff xff xff xff)) E)
(L (W xcc x00 x00 x00 x01 x00 x00 x00)))
(T (W x00 x00 x80 x3f x00 x00 x80 x3f)
(L (W x58 x00 x00 x00 x4c x00 x00 x00))
(L (W xff xff xff xff xff xff xff xff))))))
(T (W x00 x00 x80 x3f x00 x00 x80 x3f)
(T (W x00 x00 x80 x3f x00 x00 x80 x3f)
(T (W x00 x00 x00 x00 x00 x00 x00 x00)
(T (W xff xff xff xff xff xff xff xff)
(T (W xff xff xff xff xff xff xff xff)
(L (W x00 x00 x00 x00 x00 x00 x00 x00)) E)
(L (W xff xff xff xff xff xff xff xff)))
(T (W xff xff xff xff xff xff xff xff)
(L (W x00 x00 x00 x00 x00 x00 x00 x00))
(L (W x00 x00 x00 x00 x00 x00 x00 x00))))
(T (W x01 x00 x00 x00 x04 x00 x00 x00)
(T (W x00 x00 x00 x00 x00 x00 x00 x00)
(T (W x45 x26 x22 x84 xe4 x9c xf2 xcb)
(L (W x54 x00 x00 x00 x48 x00 x00 x00)) E)
(L (W x00 x00 x80 xbf x00 x00 x80 xbf)))
(T (W xba x60 xfd xff x9f x01 x00 x00)
(L (W x00 x00 x80 xbf x00 x00 x80 xbf))
(L (W xa2 x01 x00 x00 xff xff xff xff)))))
(T (W x50 x00 x00 x00 x44 x00 x00 x00)
(T (W x45 x26 x22 x84 xe4 x9c xf2 xcb)
(T (W x00 x00 x80 x3f x00 x00 x80 x3f)
(T (W x00 x00 x00 x00 x00 x00 x00 x00)
(L (W x00 x01 x01 x01 xd2 xfd xff xff)) E)
(L (W x00 x00 x00 x00 x12 x00 x00 x00)))
(T (W x50 x00 x00 x00 x44 x00 x00 x00)
(L (W xff xff xff xff x94 x00 x00 x00))
(L (W xff xff xff xff xc4 x00 x00 x00))))
(T (W xff xff xff xff xff xff xff xff)
(T (W x50 x00 x00 x00 x44 x00 x00 x00)
(T (W x00 x00 x00 x00 x00 x00 x00 x00)
(L (W xff xff xff xff xe8 x00 x00 x00)) E)
(L (W xff xff xff xff xff xff xff xff)))
(T (W xff xff xff xff xff xff xff xff)
(L (W x00 x00 x80 xbf x00 x00 x80 xbf))
(L (W x00 x00 x00 x00 x12 x00 x00 x00)))))))))
(T (W x00 x00 x80 x3f x00 x00 x80 x3f)
(T (W x00 x00 x00 x00 x00 x00 x00 x00)
(T (W x40 x00 x00 x00 xa0 x00 x00 x00)
(T (W xff xff xff xff xff xff xff xff)
(T (W x00 x00 x00 x00 x00 x00 x00 x00)
(T (W x00 x00 x00 x00 x00 x00 x00 x00)
(T (W x18 x00 x00 x00 x0c x00 x00 x00)
(T (W x45 x26 x22 x84 xe4 x9c xf2 xcb)
(L (W xed xfe xaf x28 xbf x5f x5d x6a)) E)
(L (W x00 x00 x00 x00 x00 x00 x00 x00)))
(T (W x00 x00 x80 x3f x00 x00 x80 x3f)
(L (W xb4 x00 x00 x00 x0a x00 x00 x00))
(L (W x00 x00 x80 xbf x00 x00 x80 xbf))))
(T (W x23 x00 x00 x00 xff xff xff xff)
(T (W x45 x26 x22 x84 xe4 x9c xf2 xcb)
(T (W xb2 xe0 xff xff xbe x00 x00 x00)
(L (W x68 x00 x00 x00 x5c x00 x00 x00)) E)
(L (W xff xff xff xff xff xff xff xff)))
(T (W x00 x00 x80 x3f x00 x00 x80 x3f)
(L (W x00 x00 x80 xbf x00 x00 x80 xbf))
(L (W x00 x01 x01 x01 xc2 x4b xff xff)))))
(T (W x45 x26 x22 x84 xe4 x9c xf2 xcb)
(T (W x00 x00 x00 x00 x32 x45 xfe xff)
(T (W x00 x00 x00 x00 x5c xa7 xfc xff)
(T (W x00 x00 x80 x3f x00 x00 x80 x3f)
(L (W x2c x01 x00 x00 x04 x00 x00 x00)) E)
(L (W x29 x00 x00 x00 x2c x00 x00 x00)))
(T (W xff xff xff xff xff xff xff xff)
(L (W x45 x26 x22 x84 xe4 x9c xf2 xcb))
(L (W xc0 x00 x00 x00 x01 x00 x00 x00))))
(T (W xff xff xff xff x03 x00 x00 x00)
(T (W x30 x33 x5f x43 x4c x45 x41 x52)
(T (W x64 x00 x00 x00 x9c x00 x00 x00)
(L (W xff xff xff xff xff xff xff xff)) E)
(L (W x00 x00 x00 x00 x00 x00 x00 x00)))
(T (W xff xff xff xff xff xff xff xff)
(L (W x4f x84 x6f x8b xe8 xcb x63 xb7))
(L (W xff xff xff xff xb0 x00 x00 x00))))))
(T (W x45 x26 x22 x84 xe4 x9c xf2 xcb)
(T (W x00 x00 x00 x00 x00 x00 x00 x00)
(T (W x22 x32 xfe xff x00 x00 x01 x01)
(T (W x00 x00 x80 x3f x00 x00 x80 x3f)
(T (W x00 x00 x00 x00 x5c x97 xfd xff)
(L (W x34 x01 x00 x00 x04 x00 x00 x00)) E)
(L (W x45 x44 x00 x00 x00 x00 x00 x00)))
(T (W x54 x00 x00 x00 x48 x00 x00 x00)
(L (W x00 x00 x80 x3f x00 x00 x80 x3f))
(L (W x03 x00 x00 x00 xd0 x00 x00 x00))))
(T (W xff xff xff xff xff xff xff xff)
(T (W xff xff xff xff x9c x00 x00 x00)
(T (W x00 x00 x80 x3f x00 x00 x80 x3f)
(L (W x38 x00 x00 x00 x00 x00 x80 xbf)) E)
(L (W x00 x00 x00 x00 x00 x00 x00 x00)))
(T (W x50 x00 x00 x00 x44 x00 x00 x00)
(L (W x00 x00 x80 xbf x00 x00 x80 xbf))
(L (W xec x58 xff xff x00 x01 x01 x01)))))
(T (W x00 x00 x00 x00 x00 x00 x00 x00)
(T (W x00 x00 x00 x00 x04 x00 x00 x00)
(T (W xff xff xff xff xff xff xff xff)
(T (W x00 x00 x00 x00 x00 x00 x00 x00)
(L (W x00 x00 x00 x00 x00 x00 x00 x00)) E)
(L (W xff xff xff xff xff xff xff xff)))
(T (W x15 xfd x66 xa5 x62 xeb xb2 xfb)
(L (W x00 x00 x80 xbf x00 x00 x80 xbf))
(L (W x54 x00 x00 x00 x48 x00 x00 x00))))
(T (W xff xff xff xff xff xff xff xff)
(T (W x00 x00 x00 x00 x00 x00 x00 x00)
(T (W x68 x00 x00 x00 x5c x00 x00 x00)
(L (W x00 x00 x80 xbf x00 x00 x80 xbf)) E)
(L (W x00 x00 x80 xbf x00 x00 x80 xbf)))
(T (W x00 x00 x80 x3f x00 x00 x80 x3f)
(L (W x4f x84 x6f x8b xe8 xcb x63 xb7))
(L (W xff xff xff xff xb0 x00 x00 x00)))))))
(T (W xff xff xff xff x03 x00 x00 x00)
(T (W x70 x5f x77 x69 x6c x64 x5f x70)
(T (W x00 x00 x00 x00 x00 x00 x00 x00)
(T (W x1f x00 x00 x00 x0c x00 x00 x00)
(T (W x68 x00 x00 x00 x5c x00 x00 x00)
(T (W xff xff xff xff xff xff xff xff)
(L (W xff xff xff xff xff xff xff xff)) E)
(L (W x00 x00 x00 x00 x00 x00 x00 x00)))
(T (W x00 x00 x80 x3f x00 x00 x80 x3f)
(L (W x00 x00 x00 x00 x00 x00 x00 x00))
(L (W x18 x00 x00 x00 x0c x00 x00 x00))))
(T (W xff xff xff xff xff xff xff xff)
(T (W x6c x00 x00 x00 x60 x00 x00 x00)
(T (W x00 x00 x00 x00 x00 x00 x00 x00)
(L (W x00 x00 x80 xbf x00 x00 x80 xbf)) E)
(L (W x00 x00 x00 x00 x00 x00 x00 x00)))
(T (W x00 x00 x80 x3f x00 x00 x80 x3f)
(L (W x00 x00 x80 xbf x00 x00 x80 xbf))
(L (W x00 x00 x80 xbf x00 x00 x80 xbf)))))
(T (W x00 x00 x80 x3f x00 x00 x80 x3f)
(T (W x00 x00 x00 x00 x00 x00 x00 x00)
(T (W x40 x00 x00 x00 x9c x00 x00 x00)
(T (W x00 x00 x80 x3f x00 x00 x80 x3f)
(L (W x00 x00 x00 x00 x00 x00 x00 x00)) E)
(L (W xff xff xff xff xff xff xff xff)))
(T (W xff xff xff xff x02 x00 x00 x00)
(L (W xff xff xff xff xff xff xff xff))
(L (W x18 x00 x00 x00 x10 x00 x00 x00))))
(T (W xff xff xff xff xff xff xff xff)
(T (W x00 x00 x00 x00 x00 x00 x00 x00)
(T (W x70 x6d x30 x34 x38 x39 x00 x00)
(L (W x22 xec xff xff x74 x00 x00 x00)) E)
(L (W x4f x84 x6f x8b xe8 xcb x63 xb7)))
(T (W x00 x00 x00 x00 x00 x00 x00 x00)
(L (W x45 x26 x22 x84 xe4 x9c xf2 xcb))
(L (W x45 x26 x22 x84 xe4 x9c xf2 xcb))))))
(T (W x00 x00 x80 x3f x00 x00 x80 x3f)
(T (W x00 x00 x00 x00 x00 x00 x00 x00)
(T (W xff xff xff xff xff xff xff xff)
(T (W x00 x00 x80 x3f x00 x00 x80 x3f)
(T (W x45 x26 x22 x84 xe4 x9c xf2 xcb)
(L (W xff xff xff xff xff xff xff xff)) E)
(L (W x08 x00 x00 x00 x00 x00 x0c x00)))
(T (W x00 x00 x00 x00 x5c x1f xfd xff)
(L (W x22 x1c xfe xff x74 x00 x00 x00))
(L (W xff xff xff xff xff xff xff xff))))
(T (W x64 x00 x00 x00 x9c x00 x00 x00)
(T (W xff xff xff xff xff xff xff xff)
(T (W x00 x00 x80 x3f x00 x00 x80 x3f)
(L (W x49 xa1 x68 x4a xeb x5f xdd x3d)) E)
(L (W x00 x00 x00 x00 x12 x00 x00 x00)))
(T (W xff xff xff xff xac x00 x00 x00)
(L (W x45 x26 x22 x84 xe4 x9c xf2 xcb))
(L (W xff xff xff xff xff xff xff xff)))))
(T (W x00 x00 x00 x00 x00 x00 x00 x00)
(T (W xff xff xff xff xff xff xff xff)
(T (W x00 x00 x4c x00 x50 x00 x00 x00)
(T (W x7c xc4 xfd xff x16 x00 x00 x00)
(L (W x00 x00 x80 xbf x00 x00 x80 xbf)) E)
(L (W xff xff xff xff xff xff xff xff)))
(T (W x12 x00 x00 x00 x46 x53 x59 x53)
(L (W x00 x00 x80 xbf x00 x00 x80 xbf))
(L (W x68 x00 x00 x00 x5c x00 x00 x00))))
(T (W x45 x26 x22 x84 xe4 x9c xf2 xcb)
(T (W x00 x00 x80 x3f x00 x00 x80 x3f)
(T (W xff xff xff xff xff xff xff xff)
(L (W x38 x00 x3c x00 x40 x00 x44 x00)) E)
(L (W x00 x00 x80 xbf x00 x00 x80 xbf)))
(T (W x00 x00 x80 x3f x00 x00 x80 x3f)
(L (W x00 x00 x00 x00 x00 x00 x00 x00))
(L (W x2f x00 x00 x00 xff xff xff xff))))))))
(T (W x44 x02 x00 x00 x24 x01 x00 x00)
(T (W x00 x00 x80 x3f x00 x00 x80 x3f)
(T (W x45 x26 x22 x84 xe4 x9c xf2 xcb)
(T (W xff xff xff xff xff xff xff xff)
(T (W x18 x00 x00 x00 x10 x00 x00 x00)
(T (W x00 x00 x00 x00 x00 x00 x00 x00)
(T (W x00 x00 x80 x3f x00 x00 x80 x3f)
(L (W x00 x00 x80 xbf x00 x00 x80 xbf)) E)
(L (W x00 x00 x00 x00 xf0 x8c xfe xff)))
(T (W xff xff xff xff xff xff xff xff)
(L (W x00 x00 x80 x3f x00 x00 x80 x3f))
(L (W x00 x00 x00 x00 x00 x00 x00 x00))))
(T (W x00 x00 x80 x3f x00 x00 x80 x3f)
(T (W xff xff xff xff xff xff xff xff)
(T (W xff xff xff xff xff xff xff xff)
(L (W x30 x33 x5f x43 x4c x45 x41 x52)) E)
(L (W x00 x00 x80 xbf x00 x00 x80 xbf)))
(T (W xff xff xff xff xff xff xff xff)
(L (W xff xff xff xff xff xff xff xff))
(L (W x9a x60 xff xff xaa x01 x00 x00)))))
(T (W xff xff xff xff x04 x00 x00 x00)
(T (W x50 x00 x00 x00 x44 x00 x00 x00)
(T (W x20 x00 x00 x00 x0c x00 x00 x00)
(T (W xff xff xff xff xff xff xff xff)
(L (W x00 x00 x80 xbf x00 x00 x80 xbf)) E)
(L (W x00 x00 x00 x00 x00 x00 x00 x00)))
(T (W x00 x00 x80 x3f x00 x00 x80 x3f)
(L (W x23 x00 x00 x00 x10 x00 x00 x00))
(L (W x00 x00 x00 x00 x00 x00 x00 x00))))
(T (W x00 x00 x00 x00 x00 x00 x00 x00)
(T (W x18 x00 x00 x00 x0c x00 x00 x00)
(T (W xff xff xff xff xff xff xff xff)
(L (W xff xff xff xff xff xff xff xff)) E)
(L (W xff xff xff xff xff xff xff xff)))
(T (W x45 x26 x22 x84 xe4 x9c xf2 xcb)
(L (W xff xff xff xff xff xff xff xff))
(L (W x00 x00 x00 x00 x00 x00 x00 x00))))))
(T (W xff xff xff xff xff xff xff xff)
(T (W xff xff xff xff x03 x00 x00 x00)
(T (W x50 x00 x00 x00 x44 x00 x00 x00)
(T (W x7e x80 xd5 x15 x96 x13 x4a xc4)
(T (W x00 x00 x00 x00 x00 x00 x00 x00)
(L (W x00 x00 x80 xbf x00 x00 x80 xbf)) E)
(L (W xec x9c xfe xff x00 x01 x01 x01)))
(T (W x00 x00 x00 x00 x00 x00 x00 x00)
(L (W xff xff xff xff xff xff xff xff))
(L (W x00 x00 x80 xbf x00 x00 x80 xbf))))
(T (W x45 x26 x22 x84 xe4 x9c xf2 xcb)
(T (W x4f x84 x6f x8b xe8 xcb x63 xb7)
(T (W x00 x00 x00 x00 x02 x00 x00 x00)
(L (W xff xff xff xff xff xff xff xff)) E)
(L (W x68 x00 x00 x00 x5c x00 x00 x00)))
(T (W x4c x45 x41 x52 x45 x44 x00 x00)
(L (W xff xff xff xff xff xff xff xff))
(L (W x00 x00 x00 x00 x00 x00 x00 x00)))))
(T (W x22 xf8 xfb xff x74 x00 x00 x00)
(T (W x00 x00 x80 x3f x00 x00 x80 x3f)
(T (W x22 xd6 xfe xff x00 x00 x01 x01)
(T (W x00 x00 x00 x00 x00 x00 x00 x00)
(L (W xaa x01 x00 x00 xff xff xff xff)) E)
(L (W x00 x00 x00 x00 x00 x00 x00 x00)))
(T (W x22 x38 xfd xff x74 x00 x00 x00)
(L (W xff xff xff xff xff xff xff xff))
(L (W x90 x04 x00 x00 x68 x03 x00 x00))))
(T (W xd4 x90 xfc xff x3c x00 x00 x00)
(T (W x03 x00 x00 x00 xd0 x00 x00 x00)
(T (W x46 x4d x41 x50 x5f x43 x41 x4e)
(L (W xff xff xff xff xff xff xff xff)) E)
(L (W x00 x00 x00 x00 x12 x0f xff xff)))
(T (W xff xff xff xff xff xff xff xff)
(L (W xff xff xff xff xb0 x00 x00 x00))
(L (W x00 x00 x00 x00 x00 x00 x00 x00)))))))
(T (W xff xff xff xff xff xff xff xff)
(T (W xff xff xff xff xff xff xff xff)
(T (W xff xff xff xff xff xff xff xff)
(T (W x2b x00 x00 x00 x9c x00 x00 x00)
(T (W x00 x00 x00 x00 x00 x00 x00 x00)
(T (W x00 x00 x00 x00 x00 x00 x00 x00)
(L (W x00 x00 x80 xbf x00 x00 x80 xbf)) E)
(L (W x18 x00 x00 x00 x0c x00 x00 x00)))
(T (W x4a x00 x00 x00 xff xff xff xff)
(L (W x00 x00 x00 x00 x5c x13 xfe xff))
(L (W x49 xa1 x68 x4a xeb x5f xdd x3d))))
(T (W x00 x00 x80 x3f x00 x00 x80 x3f)
(T (W x00 x00 x00 x00 x00 x00 x00 x00)
(T (W xff xff xff xff xff xff xff xff)
(L (W xff xff xff xff xff xff xff xff)) E)
(L (W x00 x00 x80 xbf x00 x00 x80 xbf)))
(T (W x54 x02 x00 x00 x34 x01 x00 x00)
(L (W xff xff xff xff xff xff xff xff))
(L (W x00 x00 x00 x00 x02 x51 xff xff)))))
(T (W x18 x00 x00 x00 x0c x00 x00 x00)
(T (W x00 x00 x80 x3f x00 x00 x80 x3f)
(T (W x22 xce xfe xff x00 x00 x01 x01)
(T (W xff xff xff xff xff xff xff xff)
(L (W xff xff xff xff xff xff xff xff)) E)
(L (W x00 x00 x00 x00 x00 x00 x00 x00)))
(T (W x68 x00 x00 x00 x5c x00 x00 x00)
(L (W xff xff xff xff xff xff xff xff))
(L (W x45 x44 x00 x00 x00 x00 x00 x00))))
(T (W x00 x00 x00 x00 x00 x00 x00 x00)
(T (W x45 x26 x22 x84 xe4 x9c xf2 xcb)
(T (W xac x01 x00 x00 xbc x00 x00 x00)
(L (W xec xf4 xff xff x00 x01 x01 x01)) E)
(L (W xff xff xff xff xff xff xff xff)))
(T (W xff xff xff xff xff xff xff xff)
(L (W xff xff xff xff x94 x00 x00 x00))
(L (W x00 x00 x00 x00 x00 x00 x00 x00))))))
(T (W xff xff xff xff xff xff xff xff)
(T (W xff xff xff xff xff xff xff xff)
(T (W xd2 x21 xfc xff x78 x00 x00 x00)
(T (W x00 x00 x00 x00 x00 x00 x62 x00)
(T (W xfd xaf x30 x97 x85 x2b x5c x5f)
(L (W x00 x00 x80 xbf x00 x00 x80 xbf)) E)
(L (W x49 xa1 x68 x4a xeb x5f xdd x3d)))
(T (W x00 x00 x00 x00 x00 x00 x00 x00)
(L (W x45 x26 x22 x84 xe4 x9c xf2 xcb))
(L (W x00 x00 x00 x00 x00 x00 x00 x00))))
(T (W x45 x26 x22 x84 xe4 x9c xf2 xcb)
(T (W x00 x00 x80 x3f x00 x00 x80 x3f)
(T (W x45 x26 x22 x84 xe4 x9c xf2 xcb)
(L (W x20 x00 x24 x00 x28 x00 x2c x00)) E)
(L (W xff xff xff xff xff xff xff xff)))
(T (W x00 x00 x00 x00 x00 x00 x00 x00)
(L (W xff xff xff xff xff xff xff xff))
(L (W x00 x00 x00 x00 x00 x00 x00 x00)))))
(T (W x45 x26 x22 x84 xe4 x9c xf2 xcb)
(T (W x00 x00 x80 x3f x00 x00 x80 x3f)
(T (W xff xff xff xff xff xff xff xff)
(T (W x50 x00 x00 x00 x44 x00 x00 x00)
(L (W xf4 x00 x00 x00 x01 x00 x00 x00)) E)
(L (W x00 x00 x80 xbf x00 x00 x80 xbf)))
(T (W x03 x00 x00 x00 xcc x00 x00 x00)
(L (W xff xff xff xff xff xff xff xff))
(L (W xff xff xff xff xff xff xff xff))))
(T (W x00 x00 x00 x00 x00 x00 x00 x00)
(T (W xff xff xff xff xff xff xff xff)
(T (W xec x04 xfe xff x00 x01 x01 x01)
(L (W x38 x00 x3c x00 x40 x00 x44 x00)) E)
(L (W x00 x00 x00 x00 x00 x00 x00 x00)))
(T (W x39 x4c x2b x97 x85 x99 x55 x5f)
(L (W x58 x83 xfe xff x82 xbe xfe xff))
(L (W x00 x00 x80 xbf x00 x00 x80 xbf))))))))))
(T (W xc0 x56 x01 x00 x64 x54 x01 x00)
(T (W x88 x2f x00 x00 x54 x2e x00 x00)
(T (W xff xff xff xff x01 x00 x00 x00)
(T (W x00 x00 x80 x3f x00 x00 x80 x3f)
(T (W x18 x00 x00 x00 x0c x00 x00 x00)
(T (W x00 x00 x00 x00 x00 x00 x00 x00)
(T (W x22 x21 xfe xff x00 x00 x01 x01)
(T (W x00 x00 x80 x3f x00 x00 x80 x3f)
(T (W xec x87 xfd xff x00 x01 x01 x01)
(L (W xff xff xff xff xff xff xff xff)) E)
(L (W xcb x66 xca xc9 x03 x8d xa3 xbc)))
(T (W x00 x00 x00 x00 x00 x00 x00 x00)
(L (W x00 x00 x80 x3f x00 x00 x80 x3f))
(L (W x49 xa1 x68 x4a xeb x5f xdd x3d))))
(T (W xff xff xff xff xff xff xff xff)
(T (W x00 x00 x00 x00 x00 x00 x00 x00)
(T (W xff xff xff xff xff xff xff xff)
(L (W x3c x00 x00 x00 x00 x00 x80 xbf)) E)
(L (W x29 x00 x00 x00 x2c x00 x00 x00)))
(T (W x00 x00 x00 x00 x00 x00 x00 x00)
(L (W x00 x00 x00 x00 x00 x00 x00 x00))
(L (W x00 x00 x80 xbf x00 x00 x80 xbf)))))
(T (W x00 x00 x00 x00 x00 x00 x00 x00)
(T (W xff xff xff xff xff xff xff xff)
(T (W x00 x00 x00 x00 x00 x00 x00 x00)
(T (W x00 x00 x80 x3f x00 x00 x80 x3f)
(L (W xff xff xff xff xff xff xff xff)) E)
(L (W x45 x26 x22 x84 xe4 x9c xf2 xcb)))
(T (W x29 x00 x00 x00 x2c x00 x00 x00)
(L (W x00 x00 x00 x00 x00 x00 x00 x00))
(L (W x58 x00 x00 x00 x4c x00 x00 x00))))
(T (W x40 x00 x00 x00 x9c x00 x00 x00)
(T (W xff xff xff xff xff xff xff xff)
(T (W x45 x26 x22 x84 xe4 x9c xf2 xcb)
(L (W x03 x00 x00 x00 xd8 x00 x00 x00)) E)
(L (W x00 x00 x00 x00 x12 x00 x00 x00)))
(T (W xff xff xff xff xff xff xff xff)
(L (W x00 x00 x00 x00 x00 x00 x00 x00))
(L (W xff xff xff xff x8c x00 x00 x00))))))
(T (W x00 x00 x00 x00 x00 x00 x00 x00)
(T (W x00 x00 x00 x00 x00 x00 x00 x00)
(T (W xff xff xff xff xff xff xff xff)
(T (W x45 x26 x22 x84 xe4 x9c xf2 xcb)
(T (W x22 x93 xfd xff x74 x00 x00 x00)
(L (W xff xff xff xff xff xff xff xff)) E)
(L (W xff xff xff xff xff xff xff xff)))
(T (W x00 x00 x80 x3f x00 x00 x80 x3f)
(L (W x45 x26 x22 x84 xe4 x9c xf2 xcb))
(L (W xff xff xff xff x9c x00 x00 x00))))
(T (W x00 x00 x00 x00 x5c x56 xfc xff)
(T (W xd2 xd4 xfc xff x78 x00 x00 x00)
(T (W x00 x00 x00 x00 x00 x00 x00 x00)
(L (W x00 x00 x80 xbf x00 x00 x80 xbf)) E)
(L (W x00 x00 x00 x00 x12 xea xfe xff)))
(T (W x00 x00 x80 x3f x00 x00 x80 x3f)
(L (W x00 x00 x00 x00 x00 x00 x00 x00))
(L (W x00 x00 x80 xbf x00 x00 x80 xbf)))))
(T (W x00 x00 x00 x00 x00 x00 x00 x00)
(T (W xff xff xff xff xff xff xff xff)
(T (W x00 x00 x80 x3f x00 x00 x80 x3f)
(T (W x00 x00 x00 x00 x00 x00 x00 x00)
(L (W x46 x53 x59 x53 x5f x4e x53 x5f)) E)
(L (W xff xff xff xff xc4 x00 x00 x00)))
(T (W xff xff xff xff xff xff xff xff)
(L (W x00 x00 x00 x00 x00 x00 x00 x00))
(L (W x38 x00 x00 x00 x00 x00 x80 xbf))))
(T (W x68 x00 x00 x00 x5c x00 x00 x00)
(T (W x00 x00 x00 x00 x00 x00 x00 x00)
(T (W x94 x00 x10 x00 x88 x00 x14 x00)
(L (W x00 x00 x00 x00 x00 x00 x00 x00)) E)
(L (W x00 x00 x00 x00 x00 x00 x00 x00)))
(T (W x00 x00 x00 x00 x00 x00 x00 x00)
(L (W x00 x00 x00 x00 x00 x00 x00 x00))
(L (W xff xff xff xff x8c x00 x00 x00)))))))
(T (W x00 x00 x80 x3f x00 x00 x80 x3f)
(T (W xb2 xc7 xfd xff xc8 x01 x00 x00)
(T (W x40 x00 x00 x00 x0c x00 x00 x00)
(T (W xff xff xff xff xff xff xff xff)
(T (W x00 x00 x80 x3f x00 x00 x80 x3f)
(T (W x00 x00 x00 x00 x5c x8e xfd xff)
(L (W xff xff xff xff xff xff xff xff)) E)
(L (W xaa x01 x00 x00 xff xff xff xff)))
(T (W x4f x84 x6f x8b xe8 xcb x63 xb7)
(L (W x00 x00 x00 x00 x02 x0c xfe xff))
(L (W x00 x00 x80 xbf x00 x00 x80 xbf))))
(T (W x64 x00 x00 x00 x9c x00 x00 x00)
(T (W x00 x00 x80 x3f x00 x00 x80 x3f)
(T (W x00 x00 x00 x00 x00 x00 x00 x00)
(L (W x00 x00 x80 xbf x00 x00 x80 xbf)) E)
(L (W xff xff xff xff xff xff xff xff)))
(T (W x00 x00 x00 x00 x00 x00 x00 x00)
(L (W x4f x84 x6f x8b xe8 xcb x63 xb7))
(L (W x49 xa1 x68 x4a xeb x5f xdd x3d)))))
(T (W x00 x00 x00 x00 x00 x00 x00 x00)
(T (W xea x75 xff xff x00 x00 x01 x01)
(T (W x00 x00 x80 x3f x00 x00 x80 x3f)
(T (W x00 x00 x00 x00 x00 x00 x00 x00)
(L (W x00 x00 x00 x00 x00 x00 x00 x00)) E)
(L (W xff xff xff xff xb0 x00 x00 x00)))
(T (W xff xff xff xff xff xff xff xff)
(L (W x22 x2b xfe xff x74 x00 x00 x00))
(L (W x6c x00 x00 x00 x60 x00 x00 x00))))
(T (W x01 x00 x00 x00 x3e x00 x00 x00)
(T (W x4a x00 x00 x00 xff xff xff xff)
(T (W x08 x01 x00 x00 xdc x00 x00 x00)
(L (W x00 x00 x80 xbf x00 x00 x80 xbf)) E)
(L (W x00 x00 x00 x00 x00 x00 x00 x00)))
(T (W x4c x45 x41 x52 x45 x44 x00 x00)
(L (W x00 x00 x00 x00 x00 x00 x00 x00))
(L (W x54 x00 x00 x00 x48 x00 x00 x00))))))
(T (W x45 x26 x22 x84 xe4 x9c xf2 xcb)
(T (W x00 x00 x00 x00 x00 x00 x00 x00)
(T (W xff xff xff xff xff xff xff xff)
(T (W x00 x00 x80 x3f x00 x00 x80 x3f)
(T (W x00 x00 x80 x3f x00 x00 x80 x3f)
(L (W xff xff xff xff xff xff xff xff)) E)
(L (W xff xff xff xff xff xff xff xff)))
(T (W x00 x00 x80 x3f x00 x00 x80 x3f)
(L (W x00 x00 x80 xbf x00 x00 x80 xbf))
(L (W x22 x00 x00 x00 x25 x00 x00 x00))))
(T (W x18 x00 x00 x00 x0c x00 x00 x00)
(T (W xb0 x00 x00 x00 x64 x00 x00 x00)
(T (W x00 x00 x80 x3f x00 x00 x80 x3f)
(L (W x00 x00 x00 x00 x00 x00 x00 x00)) E)
(L (W x00 x00 x00 x00 x02 x00 x00 x00)))
(T (W x00 x00 x00 x00 x5c x5e xfd xff)
(L (W x00 x00 x00 x00 x00 x00 x00 x00))
(L (W x18 x00 x00 x00 x0c x00 x00 x00)))))
(T (W x23 x00 x00 x00 x10 x00 x00 x00)
(T (W xff xff xff xff xff xff xff xff)
(T (W x45 x26 x22 x84 xe4 x9c xf2 xcb)
(T (W xff xff xff xff xff xff xff xff)
(L (W x45 x26 x22 x84 xe4 x9c xf2 xcb)) E)
(L (W x18 x00 x00 x00 x0c x00 x00 x00)))
(T (W x00 x00 x00 x00 x00 x00 x00 x00)
(L (W x00 x00 x00 x00 x00 x00 x00 x00))
(L (W x00 x00 x80 xbf x00 x00 x80 xbf))))
(T (W xd2 x7c xfc xff x78 x00 x00 x00)
(T (W x00 x00 x00 x00 x00 x00 x00 x00)
(T (W x03 x00 x00 x00 xd0 x00 x00 x00)
(L (W x28 x00 x00 x00 x1c x00 x00 x00)) E)
(L (W x45 x26 x22 x84 xe4 x9c xf2 xcb)))
(T (W x4f x84 x6f x8b xe8 xcb x63 xb7)
(L (W x45 x44 x00 x00 x00 x00 x00 x00))
(L (W xff xff xff xff xff xff xff xff))))))))
(T (W x50 x00 x00 x00 x44 x00 x00 x00)
(T (W x00 x00 x00 x00 x00 x00 x00 x00)
(T (W x00 x00 x00 x00 x00 x00 x00 x00)
(T (W xff xff xff xff x03 x00 x00 x00)
(T (W xec x0b xfc xff x00 x01 x01 x01)
(T (W x00 x00 x00 x00 x00 x00 x00 x00)
(T (W x00 x00 x00 x00 x00 x00 x00 x00)
(L (W x4f x84 x6f x8b xe8 xcb x63 xb7)) E)
(L (W x00 x00 x80 xbf x00 x00 x80 xbf)))
(T (W xff xff xff xff xbc x00 x00 x00)
(L (W x00 x00 x00 x00 x00 x00 x00 x00))
(L (W xff xff xff xff xff xff xff xff))))
(T (W x00 x00 x80 x3f x00 x00 x80 x3f)
(T (W xff xff xff xff xff xff xff xff)
(T (W x00 x00 x80 x3f x00 x00 x80 x3f)
(L (W xca xcc xff xff xc6 x00 x00 x00)) E)
(L (W x4f x84 x6f x8b xe8 xcb x63 xb7)))
(T (W xff xff xff xff xff xff xff xff)
(L (W xa0 x00 x00 x00 x64 x00 x00 x00))
(L (W xff xff xff xff xff xff xff xff)))))
(T (W x22 xe7 xfb xff x74 x00 x00 x00)
(T (W x00 x00 x80 x3f x00 x00 x80 x3f)
(T (W xff xff xff xff xff xff xff xff)
(T (W xff xff xff xff xff xff xff xff)
(L (W x49 xa1 x68 x4a xeb x5f xdd x3d)) E)
(L (W x00 x00 x00 x00 x00 x00 x00 x00)))
(T (W x00 x00 x00 x00 x00 x00 x00 x00)
(L (W xff xff xff xff xff xff xff xff))
(L (W x00 x00 x00 x00 x00 x00 x00 x00))))
(T (W xd4 x7f xfc xff x3c x00 x00 x00)
(T (W x00 x00 x80 x3f x00 x00 x80 x3f)
(T (W x03 x00 x00 x00 xd0 x00 x00 x00)
(L (W x00 x00 x00 x00 x00 x00 x00 x00)) E)
(L (W x03 x00 x00 x00 xd8 x00 x00 x00)))
(T (W x45 x26 x22 x84 xe4 x9c xf2 xcb)
(L (W x70 x00 x00 x00 x64 x00 x00 x00))
(L (W x30 x33 x5f x43 x4c x45 x41 x52))))))
(T (W x64 x00 x00 x00 x9c x00 x00 x00)
(T (W x01 x00 x00 x00 x9c x00 x00 x00)
(T (W x00 x00 x80 x3f x00 x00 x80 x3f)
(T (W xff xff xff xff xff xff xff xff)
(T (W x02 x00 x00 x00 x20 x01 x00 x00)
(L (W x00 x00 x80 xbf x00 x00 x80 xbf)) E)
(L (W x45 x26 x22 x84 xe4 x9c xf2 xcb)))
(T (W x00 x00 x00 x00 x12 x2e xfd xff)
(L (W xff xff xff xff x9c x00 x00 x00))
(L (W x49 xa1 x68 x4a xeb x5f xdd x3d))))
(T (W x00 x00 x00 x00 x00 x00 x00 x00)
(T (W x00 x00 x00 x00 x00 x00 x00 x00)
(T (W xff xff xff xff xff xff xff xff)
(L (W x03 x00 x00 x00 xd0 x00 x00 x00)) E)
(L (W x00 x00 x80 xbf x00 x00 x80 xbf)))
(T (W x9c x01 x00 x00 xff xff xff xff)
(L (W xff xff xff xff xff xff xff xff))
(L (W x00 x00 x00 x00 x00 x00 x00 x00)))))
(T (W x68 x00 x00 x00 x5c x00 x00 x00)
(T (W x45 x26 x22 x84 xe4 x9c xf2 xcb)
(T (W xff xff xff xff xff xff xff xff)
(T (W x23 x00 x00 x00 x10 x00 x00 x00)
(L (W xff xff xff xff xff xff xff xff)) E)
(L (W x46 x53 x59 x53 x5f x4e x53 x5f)))
(T (W x00 x00 x80 x3f x00 x00 x80 x3f)
(L (W xff xff xff xff xff xff xff xff))
(L (W xff xff xff xff xff xff xff xff))))
(T (W xff xff xff xff xff xff xff xff)
(T (W xff xff xff xff x9c x00 x00 x00)
(T (W xff xff xff xff xff xff xff xff)
(L (W x00 x00 x80 xbf x00 x00 x80 xbf)) E)
(L (W xff xff xff xff xff xff xff xff)))
(T (W xb0 x00 x00 x00 x64 x00 x00 x00)
(L (W x14 x00 x00 x00 x0c x00 x00 x00))
(L (W x25 x00 x00 x00 xff xff xff xff)))))))
(T (W x45 x26 x22 x84 xe4 x9c xf2 xcb)
(T (W xff xff xff xff xff xff xff xff)
(T (W x00 x00 x00 x00 x5c xd2 xfb xff)
(T (W x00 x00 x80 x3f x00 x00 x80 x3f)
(T (W x20 x01 x00 x00 x04 x00 x00 x00)
(T (W x00 x00 x00 x00 x00 x00 x00 x00)
(L (W x00 x00 x00 x00 x00 x00 x00 x00)) E)
(L (W x54 x00 x00 x00 x48 x00 x00 x00)))
(T (W xff xff xff xff xff xff xff xff)
(L (W x00 x00 x80 x3f x00 x00 x80 x3f))
(L (W x7c x17 xff xff x0c x00 x00 x00))))
(T (W x00 x00 x00 x00 x00 x00 x00 x00)
(T (W x4b x00 x00 x00 xff xff xff xff)
(T (W xff xff xff xff xff xff xff xff)
(L (W xff xff xff xff xff xff xff xff)) E)
(L (W x00 x00 x80 xbf x00 x00 x80 xbf)))
(T (W xff xff xff xff xff xff xff xff)
(L (W xcc x00 x00 x00 x01 x00 x00 x00))
(L (W xff xff xff xff xff xff xff xff)))))
(T (W x00 x00 x80 x3f x00 x00 x80 x3f)
(T (W x00 x00 x00 x00 x00 x00 x00 x00)
(T (W xff xff xff xff xff xff xff xff)
(T (W x18 x00 x00 x00 x10 x00 x00 x00)
(L (W x22 xaf xff xff x74 x00 x00 x00)) E)
(L (W x00 x00 x00 x00 x00 x00 x00 x00)))
(T (W x45 x26 x22 x84 xe4 x9c xf2 xcb)
(L (W x00 x00 x00 x00 x0c x00 x08 x00))
(L (W xff xff xff xff xff xff xff xff))))
(T (W x01 x00 x00 x00 x04 x00 x00 x00)
(T (W x54 x00 x00 x00 x48 x00 x00 x00)
(T (W x46 x4d x41 x50 x5f x43 x41 x4e)
(L (W x9f x41 x45 xdc x00 xd9 x55 x2f)) E)
(L (W xff xff xff xff xff xff xff xff)))
(T (W xff xff xff xff xac x00 x00 x00)
(L (W x00 x01 x01 x01 xd2 xae xfe xff))
(L (W x7c x77 xff xff x1f x00 x00 x00))))))
(T (W xec xc3 xfb xff x00 x01 x01 x01)
(T (W x18 x00 x00 x00 x0c x00 x00 x00)
(T (W x00 x00 x80 x3f x00 x00 x80 x3f)
(T (W xff xff xff xff x01 x00 x00 x00)
(T (W xff xff xff xff xff xff xff xff)
(L (W x00 x00 x80 xbf x00 x00 x80 xbf)) E)
(L (W x1b x00 x00 x00 x10 x00 x00 x00)))
(T (W x2c x00 x00 x00 x0c x00 x00 x00)
(L (W x00 x00 x80 xbf x00 x00 x80 xbf))
(L (W x00 x00 x00 x00 x00 x00 x00 x00))))
(T (W x00 x00 x00 x00 x00 x00 x00 x00)
(T (W x49 xa1 x68 x4a xeb x5f xdd x3d)
(T (W x40 x00 x44 x00 x48 x00 x4c x00)
(L (W x45 x26 x22 x84 xe4 x9c xf2 xcb)) E)
(L (W x22 xdf xfe xff x74 x00 x00 x00)))
(T (W x30 x33 x5f x43 x4c x45 x41 x52)
(L (W xcc x00 x00 x00 x01 x00 x00 x00))
(L (W x00 x00 x00 x00 x00 x00 x00 x00)))))
(T (W x22 xff xfb xff x74 x00 x00 x00)
(T (W x00 x00 x80 x3f x00 x00 x80 x3f)
(T (W x00 x00 x00 x00 x5c xc2 xfc xff)
(T (W x00 x00 x80 x3f x00 x00 x80 x3f)
(L (W xff xff xff xff x94 x00 x00 x00)) E)
(L (W x45 x26 x22 x84 xe4 x9c xf2 xcb)))
(T (W x18 x00 x00 x00 x10 x00 x00 x00)
(L (W xc4 x00 x00 x00 x01 x00 x00 x00))
(L (W xff xff xff xff xff xff xff xff))))
(T (W x22 x9d xfe xff x00 x00 x01 x01)
(T (W x03 x00 x00 x00 xd8 x00 x00 x00)
(T (W x00 x00 x00 x00 x00 x00 x00 x00)
(L (W x00 x00 x62 x00 x70 x00 x04 x00)) E)
(L (W xff xff xff xff xff xff xff xff)))
(T (W xff xff xff xff xff xff xff xff)
(L (W x44 x00 x00 x00 x00 x00 x80 xbf))
(L (W x00 x00 x00 x00 x00 x00 x00 x00)))))))))
(T (W x68 x00 x00 x00 x5c x00 x00 x00)
(T (W x00 x00 x00 x00 x00 x00 x00 x00)
(T (W x69 x73 x68 x5f x76 x61 x6e x69)
(T (W x1c x01 x00 x00 x04 x00 x00 x00)
(T (W x00 x00 x80 x3f x00 x00 x80 x3f)
(T (W x45 x26 x22 x84 xe4 x9c xf2 xcb)
(T (W xb8 x00 x00 x00 xac x00 x00 x00)
(T (W x18 x01 x00 x00 x04 x00 x00 x00)
(L (W x00 x00 x00 x00 x00 x00 x00 x00)) E)
(L (W x00 x00 x00 x00 x00 x00 x00 x00)))
(T (W x22 x05 xfd xff x74 x00 x00 x00)
(L (W x00 x00 x01 x01 x85 x00 x00 x00))
(L (W x6c x00 x00 x00 x60 x00 x00 x00))))
(T (W x00 x00 x00 x00 x00 x00 x00 x00)
(T (W x50 x00 x00 x00 x44 x00 x00 x00)
(T (W x70 x5f x77 x69 x6c x64 x5f x70)
(L (W xd2 xc6 xff xff x78 x00 x00 x00)) E)
(L (W x30 x33 x5f x43 x4c x45 x41 x52)))
(T (W x00 x00 x80 x3f x00 x00 x80 x3f)
(L (W x00 x00 x80 xbf x00 x00 x80 xbf))
(L (W x14 x00 x00 x00 x0c x00 x00 x00)))))
(T (W x00 x00 x80 x3f x00 x00 x80 x3f)
(T (W x00 x00 x00 x00 x00 x00 x00 x00)
(T (W x01 x00 x00 x00 xa0 x00 x00 x00)
(T (W x45 x26 x22 x84 xe4 x9c xf2 xcb)
(L (W x46 x53 x59 x53 x5f x4e x53 x5f)) E)
(L (W xff xff xff xff xff xff xff xff)))
(T (W xff xff xff xff xff xff xff xff)
(L (W x50 x00 x00 x00 x44 x00 x00 x00))
(L (W xff xff xff xff xff xff xff xff))))
(T (W xff xff xff xff xff xff xff xff)
(T (W x00 x00 x00 x00 x00 x00 x00 x00)
(T (W x20 x00 x24 x00 x28 x00 x2c x00)
(L (W xff xff xff xff xff xff xff xff)) E)
(L (W x00 x00 x80 xbf x00 x00 x80 xbf)))
(T (W x14 x00 x00 x00 x10 x00 x00 x00)
(L (W x00 x00 x80 xbf x00 x00 x80 xbf))
(L (W xff xff xff xff xff xff xff xff))))))
(T (W x00 x00 x80 x3f x00 x00 x80 x3f)
(T (W x45 x26 x22 x84 xe4 x9c xf2 xcb)
(T (W x00 x00 x00 x00 x00 x00 x00 x00)
(T (W x45 x26 x22 x84 xe4 x9c xf2 xcb)
(T (W xff xff xff xff xff xff xff xff)
(L (W x00 x00 x00 x00 x12 x00 x00 x00)) E)
(L (W x00 x00 x00 x00 x00 x00 x00 x00)))
(T (W x45 x26 x22 x84 xe4 x9c xf2 xcb)
(L (W x00 x00 x80 x3f x00 x00 x80 x3f))
(L (W xff xff xff xff xff xff xff xff))))
(T (W xff xff xff xff xff xff xff xff)
(T (W xff xff xff xff xff xff xff xff)
(T (W x00 x00 x80 x3f x00 x00 x80 x3f)
(L (W x6c x00 x00 x00 x60 x00 x00 x00)) E)
(L (W x00 x00 x00 x00 x00 x00 x00 x00)))
(T (W x03 x00 x00 x00 xd4 x00 x00 x00)
(L (W x22 x55 xfe xff x74 x00 x00 x00))
(L (W xb0 x00 x00 x00 x64 x00 x00 x00)))))
(T (W x00 x00 x80 x3f x00 x00 x80 x3f)
(T (W x00 x00 x00 x00 x00 x00 x00 x00)
(T (W x04 x00 x00 x00 x0c x04 x00 x00)
(T (W x00 x00 x80 x3f x00 x00 x80 x3f)
(L (W x00 x00 x80 xbf x00 x00 x80 xbf)) E)
(L (W xff xff xff xff xff xff xff xff)))
(T (W x00 x00 x00 x00 x00 x00 x00 x00)
(L (W x68 x00 x00 x00 x5c x00 x00 x00))
(L (W x45 x26 x22 x84 xe4 x9c xf2 xcb))))
(T (W xff xff xff xff xff xff xff xff)
(T (W x45 x26 x22 x84 xe4 x9c xf2 xcb)
(T (W x54 x00 x58 x00 x5c x00 x00 x00)
(L (W xff xff xff xff xff xff xff xff)) E)
(L (W x00 x00 x80 xbf x00 x00 x80 xbf)))
(T (W x54 x00 x00 x00 x48 x00 x00 x00)
(L (W x00 x00 x80 xbf x00 x00 x80 xbf))
(L (W xff xff xff xff xff xff xff xff)))))))
(T (W x7c xa5 xfb xff x3c x00 x00 x00)
(T (W x00 x00 x80 x3f x00 x00 x80 x3f)
(T (W x00 x00 x80 x3f x00 x00 x80 x3f)
(T (W x00 x00 x00 x00 x00 x00 x00 x00)
(T (W xff xff xff xff x04 x00 x00 x00)
(T (W xff xff xff xff xff xff xff xff)
(L (W x00 x00 x00 x00 x00 x00 x00 x00)) E)
(L (W x46 x53 x59 x53 x5f x4e x53 x5f)))
(T (W x18 x00 x00 x00 x0c x00 x00 x00)
(L (W x00 x00 x00 x00 x00 x00 x00 x00))
(L (W xff xff xff xff xff xff xff xff))))
(T (W x00 x00 x00 x00 x02 x00 x00 x00)
(T (W x18 x00 x00 x00 x10 x00 x00 x00)
(T (W x45 x26 x22 x84 xe4 x9c xf2 xcb)
(L (W x22 xcd xff xff x74 x00 x00 x00)) E)
(L (W x00 x00 x00 x00 x00 x00 x00 x00)))
(T (W x45 x26 x22 x84 xe4 x9c xf2 xcb)
(L (W x54 x00 x00 x00 x48 x00 x00 x00))
(L (W xff xff xff xff xb0 x00 x00 x00)))))
(T (W x00 x00 x80 x3f x00 x00 x80 x3f)
(T (W x00 x00 x00 x00 x00 x00 x00 x00)
(T (W xc0 x00 x00 x00 xb4 x00 x00 x00)
(T (W x00 x00 x80 x3f x00 x00 x80 x3f)
(L (W x00 x00 x80 xbf x00 x00 x80 xbf)) E)
(L (W xff xff xff xff xff xff xff xff)))
(T (W x00 x00 x00 x00 x00 x00 x00 x00)
(L (W x00 x00 x10 x00 x14 x00 x18 x00))
(L (W xff xff xff xff xff xff xff xff))))
(T (W xff xff xff xff xff xff xff xff)
(T (W x49 xa1 x68 x4a xeb x5f xdd x3d)
(T (W x00 x00 x80 x3f x00 x00 x80 x3f)
(L (W xff xff xff xff xff xff xff xff)) E)
(L (W x00 x00 x80 xbf x00 x00 x80 xbf)))
(T (W x49 xa1 x68 x4a xeb x5f xdd x3d)
(L (W x00 x00 x80 xbf x00 x00 x80 xbf))
(L (W xff xff xff xff xff xff xff xff))))))
(T (W x00 x00 x80 x3f x00 x00 x80 x3f)
(T (W x45 x26 x22 x84 xe4 x9c xf2 xcb)
(T (W x40 x00 x00 x00 x0c x00 x00 x00)
(T (W x22 x9d xfc xff x74 x00 x00 x00)
(T (W x18 x00 x00 x00 x10 x00 x00 x00)
(L (W x08 xf3 xaf x28 xbf x58 x5d x6a)) E)
(L (W x00 x00 x80 xbf x00 x00 x80 xbf)))
(T (W xff xff xff xff xff xff xff xff)
(L (W x00 x00 x60 x00 x00 x00 x00 x00))
(L (W xff xff xff xff xff xff xff xff))))
(T (W xff xff xff xff xff xff xff xff)
(T (W x00 x00 x00 x00 x00 x00 x00 x00)
(T (W xec xe1 xfd xff x00 x01 x01 x01)
(L (W x00 x00 x80 xbf x00 x00 x80 xbf)) E)
(L (W x00 x00 x00 x00 x00 x00 x00 x00)))
(T (W xff xff xff xff xff xff xff xff)
(L (W x00 x00 x80 xbf x00 x00 x80 xbf))
(L (W xff xff xff xff xff xff xff xff)))))
(T (W x00 x00 x00 x00 x00 x00 x00 x00)
(T (W x7c x45 xfc xff x3c x00 x00 x00)
(T (W x00 x00 x00 x00 x00 x00 x00 x00)
(T (W x00 x00 x00 x00 x00 x00 x00 x00)
(L (W x58 x00 x00 x00 x4c x00 x00 x00)) E)
(L (W x34 x01 x00 x00 x04 x00 x00 x00)))
(T (W x00 x00 x00 x00 x00 x00 x00 x00)
(L (W x00 x00 x00 x00 xf0 x41 xfe xff))
(L (W x45 x26 x22 x84 xe4 x9c xf2 xcb))))
(T (W xff xff xff xff xff xff xff xff)
(T (W x00 x00 x80 x3f x00 x00 x80 x3f)
(T (W xff xff xff xff xff xff xff xff)
(L (W x45 x26 x22 x84 xe4 x9c xf2 xcb)) E)
(L (W x50 x00 x00 x00 x44 x00 x00 x00)))
(T (W xd2 x7e xfd xff x78 x00 x00 x00)
(L (W x00 x00 x80 xbf x00 x00 x80 xbf))
(L (W x00 x00 x00 x00 x00 x00 x00 x00))))))))
(T (W x00 x00 x00 x00 x00 x00 x00 x00)
(T (W xff xff xff xff xff xff xff xff)
(T (W x40 x00 x00 x00 x9c x00 x00 x00)
(T (W xff xff xff xff xff xff xff xff)
(T (W xb8 x00 x00 x00 xac x00 x00 x00)
(T (W x00 x00 x00 x00 x00 x00 x00 x00)
(T (W x00 x00 x80 x3f x00 x00 x80 x3f)
(L (W xff xff xff xff xa8 x00 x00 x00)) E)
(L (W xff xff xff xff x8c x00 x00 x00)))
(T (W x30 x33 x5f x43 x4c x45 x41 x52)
(L (W x00 x00 x00 x00 x5c x0c xfe xff))
(L (W x00 x00 x00 x00 x00 x00 x00 x00))))
(T (W x00 x00 x80 x3f x00 x00 x80 x3f)
(T (W x7c xd1 xfc xff x1f x00 x00 x00)
(T (W xff xff xff xff xff xff xff xff)
(L (W x00 x00 x00 x00 x00 x00 x00 x00)) E)
(L (W x50 x00 x00 x00 x44 x00 x00 x00)))
(T (W x00 x00 x00 x00 x7a x54 xfd xff)
(L (W xff xff xff xff xff xff xff xff))
(L (W x46 x53 x59 x53 x5f x4e x53 x5f)))))
(T (W xff xff xff xff xff xff xff xff)
(T (W xbc x00 x00 x00 xb0 x00 x00 x00)
(T (W x00 x00 x00 x00 x00 x00 x00 x00)
(T (W x99 x9b x30 x97 x85 x1f x5c x5f)
(L (W x00 x00 x00 x00 x00 x00 x00 x00)) E)
(L (W x00 x00 x80 xbf x00 x00 x80 xbf)))
(T (W x00 x00 x80 x3f x00 x00 x80 x3f)
(L (W x00 x00 x00 x00 x00 x00 x00 x00))
(L (W x00 x00 x80 xbf x00 x00 x80 xbf))))
(T (W x00 x00 x80 x3f x00 x00 x80 x3f)
(T (W xff xff xff xff xff xff xff xff)
(T (W x01 x00 x00 x00 x04 x00 x00 x00)
(L (W x00 x00 x0c x00 x10 x00 x14 x00)) E)
(L (W xff xff xff xff xff xff xff xff)))
(T (W xff xff xff xff xbc x00 x00 x00)
(L (W xaa x01 x00 x00 xff xff xff xff))
(L (W x00 x00 x00 x00 x00 x00 x00 x00))))))
(T (W xff xff xff xff xff xff xff xff)
(T (W xff xff xff xff x01 x00 x00 x00)
(T (W xff xff xff xff x03 x00 x00 x00)
(T (W x00 x00 x00 x00 x00 x00 x00 x00)
(T (W x00 x00 x00 x00 x00 x00 x00 x00)
(L (W xff xff xff xff xa8 x00 x00 x00)) E)
(L (W xb8 x00 x00 x00 x3c x00 x00 x00)))
(T (W x00 x00 x00 x00 x00 x00 x00 x00)
(L (W x20 x59 x6c x12 x83 xee x3a xc6))
(L (W x54 x00 x00 x00 x48 x00 x00 x00))))
(T (W x68 x00 x00 x00 x5c x00 x00 x00)
(T (W x00 x00 x80 x3f x00 x00 x80 x3f)
(T (W x00 x00 x00 x00 x00 x00 x00 x00)
(L (W x00 x00 x00 x00 x06 x00 x00 x00)) E)
(L (W x03 x00 x00 x00 xd0 x00 x00 x00)))
(T (W x00 x00 x00 x00 x00 x00 x00 x00)
(L (W x00 x00 x00 x00 x32 x5d xfe xff))
(L (W x4f x84 x6f x8b xe8 xcb x63 xb7)))))
(T (W xff xff xff xff x04 x00 x00 x00)
(T (W x50 x00 x00 x00 x44 x00 x00 x00)
(T (W x00 x00 x00 x00 x00 x00 x00 x00)
(T (W x50 x00 x00 x00 x44 x00 x00 x00)
(L (W x00 x00 x00 x00 x00 x00 x00 x00)) E)
(L (W x00 x00 x80 xbf x00 x00 x80 xbf)))
(T (W xff xff xff xff xff xff xff xff)
(L (W x00 x00 x00 x00 xaa x57 xfe xff))
(L (W x00 x00 x00 x00 x00 x00 x00 x00))))
(T (W x00 x00 x00 x00 x00 x00 x00 x00)
(T (W xff xff xff xff xff xff xff xff)
(T (W x54 x00 x00 x00 x48 x00 x00 x00)
(L (W x00 x00 x00 x00 x00 x00 x00 x00)) E)
(L (W x00 x00 x00 x00 x00 x00 x00 x00)))
(T (W x00 x00 x00 x00 x00 x00 x00 x00)
(L (W xff xff xff xff xff xff xff xff))
(L (W x1d x00 x00 x00 x20 x00 x00 x00)))))))
(T (W x6b x65 x5f x66 x69 x73 x68 x5f)
(T (W x00 x00 x00 x00 x04 x00 x00 x00)
(T (W xff xff xff xff xff xff xff xff)
(T (W xc0 x00 x00 x00 xb4 x00 x00 x00)
(T (W x00 x00 x00 x00 x00 x00 x00 x00)
(T (W x00 x00 x80 x3f x00 x00 x80 x3f)
(L (W x45 x26 x22 x84 xe4 x9c xf2 xcb)) E)
(L (W xcc x00 x00 x00 x02 x00 x00 x00)))
(T (W x00 x00 x00 x00 x00 x00 x00 x00)
(L (W x6c x00 x70 x00 x62 x00 x00 x00))
(L (W x00 x00 x80 xbf x00 x00 x80 xbf))))
(T (W x50 x00 x00 x00 x44 x00 x00 x00)
(T (W x00 x00 x00 x00 x00 x00 x00 x00)
(T (W x5e xd0 x36 x97 x85 x2c x63 x5f)
(L (W x00 x00 x00 x00 x12 xe8 xff xff)) E)
(L (W x00 x00 x00 x00 x5c xd4 xfe xff)))
(T (W x00 x00 x00 x00 x00 x00 x00 x00)
(L (W xff xff xff xff xff xff xff xff))
(L (W x00 x00 x00 x00 x00 x00 x00 x00)))))
(T (W xff xff xff xff xff xff xff xff)
(T (W xec x35 xfc xff x00 x01 x01 x01)
(T (W x00 x00 x00 x00 x00 x00 x00 x00)
(T (W xff xff xff xff xff xff xff xff)
(L (W xff xff xff xff xff xff xff xff)) E)
(L (W x00 x00 x80 xbf x00 x00 x80 xbf)))
(T (W xff xff xff xff xa0 x00 x00 x00)
(L (W x2c x01 x00 x00 x04 x00 x00 x00))
(L (W x00 x00 x00 x00 x00 x00 x00 x00))))
(T (W x45 x26 x22 x84 xe4 x9c xf2 xcb)
(T (W xff xff xff xff xff xff xff xff)
(T (W x6f x6b x65 x5f x77 x61 x72 x6c)
(L (W x00 x00 x00 x00 x00 x00 x64 x00)) E)
(L (W x00 x00 x00 x00 x00 x00 x00 x00)))
(T (W xff xff xff xff xff xff xff xff)
(L (W xff xff xff xff xff xff xff xff))
(L (W x00 x00 x80 xbf x00 x00 x80 xbf))))))
(T (W xff xff xff xff xff xff xff xff)
(T (W xff xff xff xff xff xff xff xff)
(T (W x45 x26 x22 x84 xe4 x9c xf2 xcb)
(T (W x00 x00 x80 x3f x00 x00 x80 x3f)
(T (W x00 x00 x00 x00 x00 x00 x00 x00)
(L (W x22 xa1 xff xff x74 x00 x00 x00)) E)
(L (W x00 x00 x80 xbf x00 x00 x80 xbf)))
(T (W x45 x26 x22 x84 xe4 x9c xf2 xcb)
(L (W xff xff xff xff xff xff xff xff))
(L (W x45 x26 x22 x84 xe4 x9c xf2 xcb))))
(T (W x00 x00 x80 x3f x00 x00 x80 x3f)
(T (W x45 x26 x22 x84 xe4 x9c xf2 xcb)
(T (W x64 x00 x00 x00 x9c x00 x00 x00)
(L (W x4f x84 x6f x8b xe8 xcb x63 xb7)) E)
(L (W xaa x01 x00 x00 xff xff xff xff)))
(T (W x22 x61 xfd xff x74 x00 x00 x00)
(L (W xff xff xff xff xff xff xff xff))
(L (W x00 x00 x80 xbf x00 x00 x80 xbf)))))
(T (W x18 x00 x00 x00 x10 x00 x00 x00)
(T (W x00 x00 x80 x3f x00 x00 x80 x3f)
(T (W xff xff xff xff xff xff xff xff)
(T (W xb8 x00 x00 x00 xac x00 x00 x00)
(L (W x00 x00 x00 x00 x12 xd8 xff xff)) E)
(L (W x00 x00 x80 xbf x00 x00 x80 xbf)))
(T (W xff xff xff xff xff xff xff xff)
(L (W xba x43 xfe xff x9e x01 x00 x00))
(L (W x7c x49 xff xff x1d x00 x00 x00))))
(T (W x00 x00 x00 x00 x00 x00 x00 x00)
(T (W xff xff xff xff xff xff xff xff)
(L (W x88 x00 x00 x00 xff xff xff xff))
(L (W x46 x53 x59 x53 x5f x4e x53 x5f)))
(T (W x00 x00 x00 x00 x00 x00 x00 x00)
(L (W xff xff xff xff xff xff xff xff))
(L (W x22 x81 xff xff x74 x00 x00 x00)))))))))))
(T (W x38 x94 x02 x00 x9c x7b x02 x00)
(T (W xd0 xdb x01 x00 x54 xd9 x01 x00)
(T (W xc0 x76 x00 x00 x74 x74 x00 x00)
(T (W x45 x26 x22 x84 xe4 x9c xf2 xcb)
(T (W xff xff xff xff xff xff xff xff)
(T (W x54 xbb xfb xff x3e x00 x00 x00)
(T (W x68 x00 x00 x00 x5c x00 x00 x00)
(T (W x00 x00 x80 x3f x00 x00 x80 x3f)
(T (W xff xff xff xff xff xff xff xff)
(T (W x00 x00 x00 x00 x02 x00 x00 x00)
(L (W x49 xa1 x68 x4a xeb x5f xdd x3d)) E)
(L (W x00 x00 x80 xbf x00 x00 x80 xbf)))
(T (W x45 x26 x22 x84 xe4 x9c xf2 xcb)
(L (W xff xff xff xff xff xff xff xff))
(L (W x03 x00 x00 x00 xd8 x00 x00 x00))))
(T (W x00 x00 x00 x00 x00 x00 x00 x00)
(T (W x18 x00 x00 x00 x0c x00 x00 x00)
(T (W x45 x26 x22 x84 xe4 x9c xf2 xcb)
(L (W xff xff xff xff xff xff xff xff)) E)
(L (W x5f x4e x53 x5f x30 x33 x5f x43)))
(T (W x18 x00 x00 x00 x0c x00 x00 x00)
(L (W x18 x00 x00 x00 x10 x00 x00 x00))
(L (W xff xff xff xff xff xff xff xff)))))
(T (W x01 x00 x00 x00 x3e x00 x00 x00)
(T (W x00 x00 x80 x3f x00 x00 x80 x3f)
(T (W x45 x26 x22 x84 xe4 x9c xf2 xcb)
(T (W xff xff xff xff xff xff xff xff)
(L (W x00 x00 x00 x00 x00 x00 x00 x00)) E)
(L (W x45 x44 x00 x00 x00 x00 x00 x00)))
(T (W x5f x4e x53 x5f x30 x33 x5f x43)
(L (W xa2 x22 xfe xff x74 x00 x00 x00))
(L (W xaf x00 x00 x00 xff xff xff xff))))
(T (W x00 x00 x00 x00 x00 x00 x00 x00)
(T (W x45 x26 x22 x84 xe4 x9c xf2 xcb)
(T (W xff xff xff xff xff xff xff xff)
(L (W x00 x00 x00 x00 x00 x00 x00 x00)) E)
(L (W x6c xe7 xfe xff x00 x01 x01 x01)))
(T (W x00 x00 x00 x00 x00 x00 x00 x00)
(L (W x18 x00 x00 x00 x0c x00 x00 x00))
(L (W x46 x53 x59 x53 x5f x4e x53 x5f))))))
(T (W x0a x00 x00 x00 x3e x00 x00 x00)
(T (W x50 x00 x00 x00 x44 x00 x00 x00)
(T (W x00 x00 x80 x3f x00 x00 x80 x3f)
(T (W xff xff xff xff xff xff xff xff)
(T (W x18 x01 x00 x00 x04 x00 x00 x00)
(L (W x00 x00 x00 x00 x00 x00 x00 x00)) E)
(L (W x00 x00 x80 xbf x00 x00 x80 xbf)))
(T (W xff xff xff xff xff xff xff xff)
(L (W xbc x00 x00 x00 x64 x00 x00 x00))
(L (W x30 x33 x5f x43 x4c x45 x41 x52))))
(T (W x00 x00 x00 x00 x00 x00 x00 x00)
(T (W x2c x01 x00 x00 x04 x00 x00 x00)
(T (W x18 x00 x00 x00 x10 x00 x00 x00)
(L (W xff xff xff xff xff xff xff xff)) E)
(L (W x00 x00 x80 xbf x00 x00 x80 xbf)))
(T (W xff xff xff xff xff xff xff xff)
(L (W x70 x00 x00 x00 x64 x00 x00 x00))
(L (W xff xff xff xff xff xff xff xff)))))
(T (W x52 xf4 xfb xff x78 x00 x00 x00)
(T (W x00 x00 x80 x3f x00 x00 x80 x3f)
(T (W xff xff xff xff xff xff xff xff)
(T (W x45 x26 x22 x84 xe4 x9c xf2 xcb)
(L (W x52 xb4 xff xff x78 x00 x00 x00)) E)
(L (W x00 x00 x00 x00 x00 x00 x00 x00)))
(T (W x49 xa1 x68 x4a xeb x5f xdd x3d)
(L (W xff xff xff xff x9c x00 x00 x00))
(L (W xc6 x00 x00 x00 xff xff xff xff))))
(T (W x00 x00 x00 x00 x0a xbf xff xff)
(T (W xa2 xf2 xfc xff x74 x00 x00 x00)
(T (W x00 x00 x00 x00 x00 x00 x00 x00)
(L (W xc0 x00 x00 x00 x01 x00 x00 x00)) E)
(L (W xff xff xff xff xb0 x00 x00 x00)))
(T (W xa2 x72 xfd xff x74 x00 x00 x00)
(L (W x18 x00 x00 x00 x0c x00 x00 x00))
(L (W x46 x53 x59 x53 x5f x4e x53 x5f)))))))
(T (W xff xff xff xff xff xff xff xff)
(T (W x00 x00 x80 x3f x00 x00 x80 x3f)
(T (W x00 x00 x80 x3f x00 x00 x80 x3f)
(T (W x45 x26 x22 x84 xe4 x9c xf2 xcb)
(T (W xff xff xff xff xff xff xff xff)
(T (W x00 x00 x00 x00 x00 x00 x00 x00)
(L (W x45 x26 x22 x84 xe4 x9c xf2 xcb)) E)
(L (W x00 x00 x80 xbf x00 x00 x80 xbf)))
(T (W x03 x00 x00 x00 xd0 x00 x00 x00)
(L (W x00 x00 x80 x3f x00 x00 x80 x3f))
(L (W xff xff xff xff xff xff xff xff))))
(T (W x00 x00 x00 x00 x00 x00 x00 x00)
(T (W xff xff xff xff xff xff xff xff)
(T (W x18 x00 x00 x00 x0c x00 x00 x00)
(L (W xff xff xff xff xff xff xff xff)) E)
(L (W x00 x00 x00 x00 x00 x00 x00 x00)))
(T (W xff xff xff xff x9c x00 x00 x00)
(L (W xcc x00 x00 x00 x01 x00 x00 x00))
(L (W xff xff xff xff xff xff xff xff)))))
(T (W x68 x00 x00 x00 x5c x00 x00 x00)
(T (W x45 x26 x22 x84 xe4 x9c xf2 xcb)
(T (W xff xff xff xff xff xff xff xff)
(T (W x18 x00 x00 x00 x10 x00 x00 x00)
(L (W xa0 x00 x00 x00 x64 x00 x00 x00)) E)
(L (W x00 x00 x00 x00 x00 x00 x00 x00)))
(T (W x00 x00 x00 x00 x00 x00 x00 x00)
(L (W x04 x00 x00 x00 x92 xfd xff xff))
(L (W x3a x2d xff xff x36 x00 x00 x00))))
(T (W x3e x00 x00 x00 x10 x00 x00 x00)
(T (W x00 x00 x80 x3f x00 x00 x80 x3f)
(T (W x6b x65 x5f x6c x76 x32 x5f x70)
(L (W xff xff xff xff xff xff xff xff)) E)
(L (W x45 x26 x22 x84 xe4 x9c xf2 xcb)))
(T (W x68 x00 x00 x00 x5c x00 x00 x00)
(L (W x45 x26 x22 x84 xe4 x9c xf2 xcb))
(L (W xff xff xff xff xff xff xff xff))))))
(T (W xc0 x00 x00 x00 xb4 x00 x00 x00)
(T (W x45 x26 x22 x84 xe4 x9c xf2 xcb)
(T (W x00 x00 x80 x3f x00 x00 x80 x3f)
(T (W xff xff xff xff xff xff xff xff)
(T (W xff xff xff xff xff xff xff xff)
(L (W x00 x00 x00 x00 x00 x00 x00 x00)) E)
(L (W x00 x00 x80 xbf x00 x00 x80 xbf)))
(T (W xff xff xff xff xff xff xff xff)
(L (W xff xff xff xff xff xff xff xff))
(L (W x00 x00 x00 x00 x00 x00 x00 x00))))
(T (W x00 x00 x00 x00 x00 x00 x00 x00)
(T (W x00 x00 x00 x00 x12 x00 x00 x00)
(T (W xff xff xff xff xff xff xff xff)
(L (W xff xff xff xff xac x00 x00 x00)) E)
(L (W x00 x00 x80 xbf x00 x00 x80 xbf)))
(T (W x00 x00 x00 x00 x00 x00 x00 x00)
(L (W x45 x26 x22 x84 xe4 x9c xf2 xcb))
(L (W x00 x00 x00 x00 x04 x00 x00 x00)))))
(T (W x00 x00 x80 x3f x00 x00 x80 x3f)
(T (W x00 x00 x00 x00 x00 x00 x00 x00)
(T (W x00 x00 x00 x00 x00 x00 x00 x00)
(T (W x00 x00 x80 x3f x00 x00 x80 x3f)
(L (W xff xff xff xff xc4 x00 x00 x00)) E)
(L (W x00 x00 x00 x00 x00 x00 x00 x00)))
(T (W x54 x00 x00 x00 x48 x00 x00 x00)
(L (W xc4 x00 x00 x00 x01 x00 x00 x00))
(L (W xff xff xff xff xff xff xff xff))))
(T (W x1c x01 x00 x00 x04 x00 x00 x00)
(T (W x18 x00 x00 x00 x0c x00 x00 x00)
(T (W x00 x00 x00 x00 x00 x00 x00 x00)
(L (W x00 x00 x00 x00 x00 x00 x00 x00)) E)
(L (W xff xff xff xff xbc x00 x00 x00)))
(T (W x03 x00 x00 x00 xcc x00 x00 x00)
(L (W x5c x00 x00 x00 x50 x00 x00 x00))
(L (W x45 x26 x22 x84 xe4 x9c xf2 xcb))))))))
(T (W x86 x03 x00 x00 xff xff xff xff)
(T (W x18 x00 x00 x00 x10 x00 x00 x00)
(T (W x45 x26 x22 x84 xe4 x9c xf2 xcb)
(T (W x00 x00 x00 x00 x00 x00 x00 x00)
(T (W x20 x01 x00 x00 x04 x00 x00 x00)
(T (W x50 x00 x00 x00 x44 x00 x00 x00)
(T (W x00 x00 x00 x00 xdc x89 xfd xff)
(L (W x03 x00 x00 x00 xd0 x00 x00 x00)) E)
(L (W xff xff xff xff xff xff xff xff)))
(T (W x00 x00 x00 x00 x00 x00 x00 x00)
(L (W x18 x00 x00 x00 x10 x00 x00 x00))
(L (W x00 x00 x00 x00 x00 x00 x00 x00))))
(T (W xff xff xff xff xff xff xff xff)
(T (W x00 x00 x00 x00 x00 x00 x00 x00)
(T (W xff xff xff xff xff xff xff xff)
(L (W x00 x00 x00 x00 x00 x00 x00 x00)) E)
(L (W x03 x00 x00 x00 xd0 x00 x00 x00)))
(T (W x00 x00 x00 x00 x00 x00 x00 x00)
(L (W x00 x00 x00 x00 x12 x00 x00 x00))
(L (W x00 x00 x00 x00 x00 x00 x00 x00)))))
(T (W x01 x00 x00 x00 x04 x00 x00 x00)
(T (W xff xff xff xff xff xff xff xff)
(T (W x45 x26 x22 x84 xe4 x9c xf2 xcb)
(T (W x00 x00 x00 x00 x00 x00 x00 x00)
(L (W x03 x00 x00 x00 xd8 x00 x00 x00)) E)
(L (W x00 x00 x80 xbf x00 x00 x80 xbf)))
(T (W x29 x00 x00 x00 x2c x00 x00 x00)
(L (W x00 x00 x00 x00 x00 x00 x00 x00))
(L (W x1c x00 x00 x00 x10 x00 x00 x00))))
(T (W x00 x00 x80 x3f x00 x00 x80 x3f)
(T (W xff xff xff xff xff xff xff xff)
(T (W x38 x39 x00 x00 x29 x00 x00 x00)
(L (W x45 x26 x22 x84 xe4 x9c xf2 xcb)) E)
(L (W xfc xee xfe xff x18 x00 x00 x00)))
(T (W xff xff xff xff xff xff xff xff)
(L (W x00 x00 x00 x00 x00 x00 x00 x00))
(L (W x00 x01 x01 x01 x42 x6e xff xff))))))
(T (W x00 x00 x00 x00 x00 x00 x00 x00)
(T (W x54 xef xfb xff x3e x00 x00 x00)
(T (W xff xff xff xff xff xff xff xff)
(T (W x00 x00 x80 x3f x00 x00 x80 x3f)
(T (W x00 x00 x80 x3f x00 x00 x80 x3f)
(L (W xff xff xff xff xff xff xff xff)) E)
(L (W xff xff xff xff xff xff xff xff)))
(T (W x00 x00 x80 x3f x00 x00 x80 x3f)
(L (W x46 x53 x59 x53 x5f x4e x53 x5f))
(L (W x03 x00 x00 x00 xd8 x00 x00 x00))))
(T (W x01 x00 x00 x00 xa0 x00 x00 x00)
(T (W x68 x00 x00 x00 x5c x00 x00 x00)
(T (W x00 x00 x80 x3f x00 x00 x80 x3f)
(L (W x00 x00 x00 x00 x00 x00 x00 x00)) E)
(L (W xff xff xff xff xff xff xff xff)))
(T (W x00 x00 x80 x3f x00 x00 x80 x3f)
(L (W x00 x00 x00 x00 x00 x00 x00 x00))
(L (W x50 x00 x00 x00 x44 x00 x00 x00)))))
(T (W xa2 x14 xfe xff x00 x00 x01 x01)
(T (W xff xff xff xff xff xff xff xff)
(T (W x00 x00 x00 x00 x00 x00 x00 x00)
(T (W x00 x00 x00 x00 x00 x00 x00 x00)
(L (W x00 x00 x00 x00 x00 x00 x00 x00)) E)
(L (W x52 xb8 xfe xff x78 x00 x00 x00)))
(T (W xff xff xff xff xff xff xff xff)
(L (W x4f x84 x6f x8b xe8 xcb x63 xb7))
(L (W x00 x00 x00 x00 x00 x00 x00 x00))))
(T (W x00 x00 x80 x3f x00 x00 x80 x3f)
(T (W x30 x33 x5f x43 x4c x45 x41 x52)
(T (W x78 x00 x08 x00 x70 x00 x0c x00)
(L (W xff xff xff xff xff xff xff xff)) E)
(L (W x00 x00 x00 x00 x00 x00 x00 x00)))
(T (W x12 x00 x00 x00 x46 x53 x59 x53)
(L (W x45 x44 x00 x00 x00 x00 x00 x00))
(L (W x00 x00 x80 xbf x00 x00 x80 xbf)))))))
(T (W x6b x65 x5f x77 x61 x72 x6c x69)
(T (W x00 x00 x00 x00 x00 x00 x00 x00)
(T (W x00 x00 x00 x00 x00 x00 x00 x00)
(T (W xff xff xff xff xff xff xff xff)
(T (W x00 x00 x80 x3f x00 x00 x80 x3f)
(T (W xa2 x8e xfd xff x74 x00 x00 x00)
(L (W xff xff xff xff x9c x00 x00 x00)) E)
(L (W xff xff xff xff xff xff xff xff)))
(T (W x00 x00 x80 x3f x00 x00 x80 x3f)
(L (W xff xff xff xff xff xff xff xff))
(L (W x00 x00 x80 xbf x00 x00 x80 xbf))))
(T (W x18 x00 x00 x00 x10 x00 x00 x00)
(T (W x00 x00 x80 x3f x00 x00 x80 x3f)
(T (W x00 x00 x00 x00 x00 x00 x00 x00)
(L (W x00 x00 x00 x00 x00 x00 x00 x00)) E)
(L (W xff xff xff xff xff xff xff xff)))
(T (W x00 x00 x00 x00 x00 x00 x00 x00)
(L (W x00 x00 x00 x00 x00 x00 x00 x00))
(L (W x00 x00 x80 xbf x00 x00 x80 xbf)))))
(T (W xff xff xff xff xff xff xff xff)
(T (W xb8 x00 x00 x00 xac x00 x00 x00)
(T (W x00 x00 x80 x3f x00 x00 x80 x3f)
(T (W x00 x00 x00 x00 x00 x00 x00 x00)
(L (W x00 x00 x00 x00 x00 x00 x00 x00)) E)
(L (W xa2 xae xfe xff x74 x00 x00 x00)))
(T (W xff xff xff xff xbc x00 x00 x00)
(L (W x00 x00 x00 x00 x01 x00 x00 x00))
(L (W x38 x00 x00 x00 x00 x00 x80 xbf))))
(T (W x00 x00 x80 x3f x00 x00 x80 x3f)
(T (W xff xff xff xff xff xff xff xff)
(T (W x52 xf0 xfd xff x78 x00 x00 x00)
(L (W x00 x00 x80 xbf x00 x00 x80 xbf)) E)
(L (W x4f x84 x6f x8b xe8 xcb x63 xb7)))
(T (W x11 xb8 xb2 x05 x4b x73 x91 x53)
(L (W x00 x00 x00 x00 x00 x00 x00 x00))
(L (W x00 x00 x80 xbf x00 x00 x80 xbf))))))
(T (W xb7 xe2 xdb x98 x4c xc4 xe0 x8e)
(T (W x54 xf7 xfb xff x1f x00 x00 x00)
(T (W xff xff xff xff xff xff xff xff)
(T (W x45 x26 x22 x84 xe4 x9c xf2 xcb)
(T (W x00 x00 x80 x3f x00 x00 x80 x3f)
(L (W xff xff xff xff xff xff xff xff)) E)
(L (W x00 x00 x80 xbf x00 x00 x80 xbf)))
(T (W x00 x00 x80 x3f x00 x00 x80 x3f)
(L (W xff xff xff xff xff xff xff xff))
(L (W xd8 x21 xff xff x02 x5d xff xff))))
(T (W xa2 x5e xfc xff x74 x00 x00 x00)
(T (W xff xff xff xff xff xff xff xff)
(T (W x00 x00 x00 x00 x00 x00 x00 x00)
(L (W x45 x44 x00 x00 x00 x00 x00 x00)) E)
(L (W x00 x00 x00 x00 x00 x00 x00 x00)))
(T (W x6c x00 x00 x00 x60 x00 x00 x00)
(L (W x99 x5c xca xc9 x03 x87 xa3 xbc))
(L (W x50 x00 x00 x00 x44 x00 x00 x00)))))
(T (W x00 x00 x00 x00 x00 x00 x00 x00)
(T (W xff xff xff xff xff xff xff xff)
(T (W x00 x00 x00 x00 x00 x00 x00 x00)
(T (W xff xff xff xff xff xff xff xff)
(L (W x46 x53 x59 x53 x5f x4e x53 x5f)) E)
(L (W xb8 x00 x00 x00 x3c x00 x00 x00)))
(T (W x00 x00 x00 x00 x00 x00 x00 x00)
(L (W x00 x00 x00 x00 x00 x00 x00 x00))
(L (W x45 x26 x22 x84 xe4 x9c xf2 xcb))))
(T (W x00 x00 x80 x3f x00 x00 x80 x3f)
(T (W x00 x00 x00 x00 x00 x00 x00 x00)
(T (W x00 x00 x00 x00 xdc x01 xfe xff)
(L (W x00 x00 x80 xbf x00 x00 x80 xbf)) E)
(L (W x00 x00 x80 xbf x00 x00 x80 xbf)))
(T (W x00 x00 x80 x3f x00 x00 x80 x3f)
(L (W xff xff xff xff xff xff xff xff))
(L (W xb0 x00 x00 x00 x64 x00 x00 x00)))))))))
(T (W xa2 xa6 xfd xff x00 x00 x01 x01)
(T (W xa2 x8c xfb xff x74 x00 x00 x00)
(T (W x00 x00 x00 x00 x00 x00 x00 x00)
(T (W x00 x00 x80 x3f x00 x00 x80 x3f)
(T (W xff xff xff xff xff xff xff xff)
(T (W xff xff xff xff x04 x00 x00 x00)
(T (W x00 x00 x00 x00 x00 x00 x00 x00)
(T (W x00 x00 x00 x00 x00 x00 x00 x00)
(L (W x1c x00 x00 x00 x10 x00 x00 x00)) E)
(L (W xff xff xff xff xac x00 x00 x00)))
(T (W x00 x00 x00 x00 x92 x1b xfd xff)
(L (W x00 x00 x00 x00 x00 x00 x00 x00))
(L (W xff xff xff xff xff xff xff xff))))
(T (W x54 x00 x00 x00 x48 x00 x00 x00)
(T (W x01 x00 x00 x00 xff xff xff xff)
(T (W x50 x00 x00 x00 x44 x00 x00 x00)
(L (W x00 x00 x00 x00 x00 x00 x00 x00)) E)
(L (W x6c x00 x00 x00 x60 x00 x00 x00)))
(T (W xff xff xff xff xff xff xff xff)
(L (W xff xff xff xff xff xff xff xff))
(L (W x30 x33 x5f x43 x4c x45 x41 x52)))))
(T (W xff xff xff xff xff xff xff xff)
(T (W x52 x26 xfc xff x78 x00 x00 x00)
(T (W x00 x00 x00 x00 x00 x00 x00 x00)
(T (W x33 x98 x30 x97 x85 x1d x5c x5f)
(L (W x52 xa6 xff xff x78 x00 x00 x00)) E)
(L (W x00 x00 x00 x00 x00 x00 x00 x00)))
(T (W x00 x00 x80 x3f x00 x00 x80 x3f)
(L (W xff xff xff xff xff xff xff xff))
(L (W x00 x00 x00 x00 x00 x00 x00 x00))))
(T (W x45 x26 x22 x84 xe4 x9c xf2 xcb)
(T (W xff xff xff xff x9c x00 x00 x00)
(T (W x00 x00 x00 x00 x00 x00 x00 x00)
(L (W x00 x00 x80 xbf x00 x00 x80 xbf)) E)
(L (W xff xff xff xff xff xff xff xff)))
(T (W x00 x00 x80 x3f x00 x00 x80 x3f)
(L (W xff xff xff xff xff xff xff xff))
(L (W x00 x00 x00 x00 x00 x00 x00 x00))))))
(T (W xff xff xff xff xff xff xff xff)
(T (W xff xff xff xff x04 x00 x00 x00)
(T (W x68 x00 x00 x00 x5c x00 x00 x00)
(T (W x1b x00 x00 x00 x0c x00 x00 x00)
(T (W x00 x00 x00 x00 x00 x00 x00 x00)
(L (W x6c x99 xff xff x00 x01 x01 x01)) E)
(L (W x14 x00 x00 x00 x0c x00 x00 x00)))
(T (W x45 x44 x00 x00 x00 x00 x00 x00)
(L (W xff xff xff xff xff xff xff xff))
(L (W x4f x84 x6f x8b xe8 xcb x63 xb7))))
(T (W x45 x26 x22 x84 xe4 x9c xf2 xcb)
(T (W x00 x00 x00 x00 x00 x00 x00 x00)
(T (W xff xff xff xff xff xff xff xff)
(L (W xff xff xff xff xff xff xff xff)) E)
(L (W x45 x26 x22 x84 xe4 x9c xf2 xcb)))
(T (W x00 x00 x00 x00 x00 x00 x00 x00)
(L (W x00 x00 x00 x00 xb2 x58 xfe xff))
(L (W x00 x00 x00 x00 x12 x00 x00 x00)))))
(T (W xff xff xff xff xff xff xff xff)
(T (W x18 x00 x00 x00 x0c x00 x00 x00)
(T (W x00 x00 x80 x3f x00 x00 x80 x3f)
(T (W xff xff xff xff xff xff xff xff)
(L (W xff xff xff xff xff xff xff xff)) E)
(L (W x00 x00 x80 xbf x00 x00 x80 xbf)))
(T (W xff xff xff xff xac x00 x00 x00)
(L (W x00 x00 x00 x00 x82 x35 xfe xff))
(L (W x45 x44 x00 x00 x00 x00 x00 x00))))
(T (W x00 x00 x80 x3f x00 x00 x80 x3f)
(T (W xff xff xff xff xbc x00 x00 x00)
(T (W x52 x45 x53 x50 x41 x57 x4e x5f)
(L (W xf0 x01 x00 x00 x68 x00 x00 x00)) E)
(L (W xff xff xff xff xff xff xff xff)))
(T (W xff xff xff xff xff xff xff xff)
(L (W xff xff xff xff xff xff xff xff))
(L (W x00 x00 x00 x00 x00 x00 x00 x00)))))))
(T (W x45 x26 x22 x84 xe4 x9c xf2 xcb)
(T (W xff xff xff xff xff xff xff xff)
(T (W xff xff xff xff xff xff xff xff)
(T (W x45 x26 x22 x84 xe4 x9c xf2 xcb)
(T (W x00 x00 x00 x00 x00 x00 x00 x00)
(T (W x00 x00 x80 x3f x00 x00 x80 x3f)
(L (W x50 x00 x00 x00 x44 x00 x00 x00)) E)
(L (W x00 x01 x01 x01 x52 xcc xfe xff)))
(T (W x00 x00 x00 x00 x04 x00 x00 x00)
(L (W x18 x00 x00 x00 x0c x00 x00 x00))
(L (W x00 x00 x00 x00 x00 x00 x00 x00))))
(T (W x00 x00 x80 x3f x00 x00 x80 x3f)
(T (W x30 x33 x5f x43 x4c x45 x41 x52)
(T (W x2c xc6 x36 x97 x85 x26 x63 x5f)
(L (W x00 x00 x00 x00 x00 x00 x00 x00)) E)
(L (W x45 x26 x22 x84 xe4 x9c xf2 xcb)))
(T (W x00 x00 x00 x00 x00 x00 x00 x00)
(L (W xff xff xff xff xff xff xff xff))
(L (W x42 xa0 xaa x28 xbf xd0 x56 x6a)))))
(T (W xff xff xff xff xff xff xff xff)
(T (W x45 x26 x22 x84 xe4 x9c xf2 xcb)
(T (W x00 x00 x00 x00 x00 x00 x00 x00)
(T (W xff xff xff xff xff xff xff xff)
(L (W xff xff xff xff xff xff xff xff)) E)
(L (W x00 x00 x80 xbf x00 x00 x80 xbf)))
(T (W x6c x00 x00 x00 x60 x00 x00 x00)
(L (W x45 x26 x22 x84 xe4 x9c xf2 xcb))
(L (W x00 x00 x00 x00 x00 x00 x00 x00))))
(T (W x45 x26 x22 x84 xe4 x9c xf2 xcb)
(T (W x03 x00 x00 x00 xd8 x00 x00 x00)
(T (W xff xff xff xff xff xff xff xff)
(L (W x00 x00 x00 x00 x00 x00 x00 x00)) E)
(L (W xff xff xff xff xff xff xff xff)))
(T (W xff xff xff xff xff xff xff xff)
(L (W xff xff xff xff xff xff xff xff))
(L (W x00 x00 x00 x00 x00 x00 x00 x00))))))
(T (W xff xff xff xff xff xff xff xff)
(T (W xff xff xff xff xff xff xff xff)
(T (W x00 x00 x80 x3f x00 x00 x80 x3f)
(T (W x04 x00 x00 x00 xb2 xbd xfe xff)
(T (W x00 x00 x00 x00 x00 x00 x00 x00)
(L (W x00 x00 x80 xbf x00 x00 x80 xbf)) E)
(L (W xff xff xff xff xff xff xff xff)))
(T (W x00 x00 x00 x00 x00 x00 x00 x00)
(L (W x00 x00 x00 x00 x00 x00 x00 x00))
(L (W x00 x00 x80 xbf x00 x00 x80 xbf))))
(T (W x00 x00 x00 x00 x00 x00 x00 x00)
(T (W x00 x00 x80 x3f x00 x00 x80 x3f)
(T (W x00 x00 x00 x00 x02 x00 x00 x00)
(L (W xff xff xff xff xff xff xff xff)) E)
(L (W xb0 x00 x00 x00 x64 x00 x00 x00)))
(T (W x00 x00 x00 x00 x00 x00 x00 x00)
(L (W xff xff xff xff xff xff xff xff))
(L (W x00 x00 x80 xbf x00 x00 x80 xbf)))))
(T (W xb8 x00 x00 x00 xac x00 x00 x00)
(T (W x00 x00 x80 x3f x00 x00 x80 x3f)
(T (W x64 x00 x00 x00 xa0 x00 x00 x00)
(T (W x01 x00 x00 x00 x9c x00 x00 x00)
(L (W x8d x01 x00 x00 xff xff xff xff)) E)
(L (W x45 x26 x22 x84 xe4 x9c xf2 xcb)))
(T (W xb0 x00 x00 x00 x64 x00 x00 x00)
(L (W x54 x03 x00 x00 x2c x02 x00 x00))
(L (W x00 x00 x00 x00 x00 x00 x00 x00))))
(T (W x00 x00 x00 x00 x00 x00 x00 x00)
(T (W xff xff xff xff xff xff xff xff)
(T (W x00 x00 x80 x3f x00 x00 x80 x3f)
(L (W xb8 x00 x00 x00 x14 x00 x00 x00)) E)
(L (W xff xff xff xff xff xff xff xff)))
(T (W x00 x00 x00 x00 x01 x00 x00 x00)
(L (W xff xff xff xff xff xff xff xff))
(L (W x68 x00 x00 x00 x5c x00 x00 x00))))))))
(T (W x45 x26 x22 x84 xe4 x9c xf2 xcb)
(T (W x2a x00 x00 x00 x67 x72 x6f x75)
(T (W x00 x00 x00 x00 x00 x00 x00 x00)
(T (W x00 x00 x80 x3f x00 x00 x80 x3f)
(T (W x00 x00 x00 x00 x00 x00 x00 x00)
(T (W x45 x26 x22 x84 xe4 x9c xf2 xcb)
(T (W xff xff xff xff xff xff xff xff)
(L (W x00 x00 x00 x00 x06 x00 x00 x00)) E)
(L (W x46 x53 x59 x53 x5f x4e x53 x5f)))
(T (W x6c x00 x00 x00 x60 x00 x00 x00)
(L (W x00 x00 x00 x00 x00 x00 x00 x00))
(L (W x00 x00 x00 x00 xdc x0b xff xff))))
(T (W xff xff xff xff xff xff xff xff)
(T (W x00 x00 x80 x3f x00 x00 x80 x3f)
(T (W x00 x00 x80 x3f x00 x00 x80 x3f)
(L (W xff xff xff xff x8c x00 x00 x00)) E)
(L (W xff xff xff xff xff xff xff xff)))
(T (W x00 x00 x80 x3f x00 x00 x80 x3f)
(L (W x00 x00 x80 xbf x00 x00 x80 xbf))
(L (W x52 x4a xff xff x78 x00 x00 x00)))))
(T (W x45 x26 x22 x84 xe4 x9c xf2 xcb)
(T (W x00 x00 x00 x00 x00 x00 x00 x00)
(T (W x45 x26 x22 x84 xe4 x9c xf2 xcb)
(T (W x00 x00 x80 x3f x00 x00 x80 x3f)
(L (W x20 x00 x00 x00 x10 x00 x00 x00)) E)
(L (W xff xff xff xff xff xff xff xff)))
(T (W xff xff xff xff xff xff xff xff)
(L (W x18 x00 x00 x00 x0c x00 x00 x00))
(L (W xff xff xff xff xff xff xff xff))))
(T (W xff xff xff xff xff xff xff xff)
(T (W x00 x00 x00 x00 x00 x00 x00 x00)
(T (W x00 x00 x80 xbf x00 x00 x80 xbf)
(L (W x00 x00 x80 xbf x00 x00 x80 xbf)) E)
(L (W x00 x00 x80 xbf x00 x00 x80 xbf)))
(T (W x00 x00 x00 x00 x00 x00 x00 x00)
(L (W x00 x00 x80 xbf x00 x00 x80 xbf))
(L (W x18 x00 x00 x00 x0c x00 x00 x00))))))
(T (W x00 x00 x80 x3f x00 x00 x80 x3f)
(T (W x45 x26 x22 x84 xe4 x9c xf2 xcb)
(T (W x00 x00 x00 x00 x00 x00 x00 x00)
(T (W x3e x00 x00 x00 x9c x00 x00 x00)
(T (W x18 x00 x00 x00 x10 x00 x00 x00)
(L (W x2c x00 x00 x00 x10 x00 x00 x00)) E)
(L (W x00 x00 x00 x00 x12 x00 x00 x00)))
(T (W x45 x26 x22 x84 xe4 x9c xf2 xcb)
(L (W x00 x00 x80 xbf x00 x00 x80 xbf))
(L (W xff xff xff xff xff xff xff xff))))
(T (W xd3 x01 x00 x00 xff xff xff xff)
(T (W xff xff xff xff xff xff xff xff)
(T (W x6c xdd xfd xff x00 x01 x01 x01)
(L (W x00 x00 x80 xbf x00 x00 x80 xbf)) E)
(L (W x00 x00 x00 x00 x00 x00 x00 x00)))
(T (W x18 x00 x00 x00 x10 x00 x00 x00)
(L (W x00 x00 x80 xbf x00 x00 x80 xbf))
(L (W x03 x00 x00 x00 xcc x00 x00 x00)))))
(T (W x00 x00 x00 x00 x00 x00 x00 x00)
(T (W xb0 x00 x00 x00 xff xff xff xff)
(T (W x68 x00 x00 x00 x5c x00 x00 x00)
(T (W x32 xd5 xff xff xca x01 x00 x00)
(L (W x68 x00 x00 x00 x5c x00 x00 x00)) E)
(L (W xff xff xff xff xff xff xff xff)))
(T (W x00 x00 x00 x00 x00 x00 x00 x00)
(L (W x00 x00 x80 xbf x00 x00 x80 xbf))
(L (W x1c x00 x00 x00 x10 x00 x00 x00))))
(T (W x18 x00 x00 x00 x0c x00 x00 x00)
(T (W x4f x84 x6f x8b xe8 xcb x63 xb7)
(T (W xff xff xff xff xff xff xff xff)
(L (W x3c x00 x00 x00 x00 x00 x80 xbf)) E)
(L (W xa2 xf8 xfe xff x74 x00 x00 x00)))
(T (W x50 x00 x00 x00 x44 x00 x00 x00)
(L (W x00 x00 x00 x00 x00 x00 x00 x00))
(L (W x58 x00 x5c x00 x60 x00 x64 x00)))))))
(T (W x00 x00 x80 x3f x00 x00 x80 x3f)
(T (W x00 x00 x80 x3f x00 x00 x80 x3f)
(T (W x00 x00 x80 x3f x00 x00 x80 x3f)
(T (W x00 x00 x00 x00 x00 x00 x00 x00)
(T (W x18 x00 x00 x00 x10 x00 x00 x00)
(T (W xff xff xff xff xff xff xff xff)
(L (W x00 x00 x00 x00 x00 x00 x00 x00)) E)
(L (W x00 x00 x00 x00 x00 x00 x00 x00)))
(T (W x50 x00 x00 x00 x44 x00 x00 x00)
(L (W x00 x00 x00 x00 x00 x00 x00 x00))
(L (W xff xff xff xff xff xff xff xff))))
(T (W xff xff xff xff xff xff xff xff)
(T (W xc4 x00 x00 x00 x01 x00 x00 x00)
(T (W x00 x00 x80 x3f x00 x00 x80 x3f)
(L (W x00 x00 x80 xbf x00 x00 x80 xbf)) E)
(L (W x00 x00 x00 x00 x00 x00 x00 x00)))
(T (W x45 x26 x22 x84 xe4 x9c xf2 xcb)
(L (W x00 x00 x80 xbf x00 x00 x80 xbf))
(L (W x68 x00 x00 x00 x5c x00 x00 x00)))))
(T (W x00 x00 x00 x00 x00 x00 x00 x00)
(T (W x6a x71 xeb xbc x71 xdb x0f xfa)
(T (W x68 x00 x00 x00 x5c x00 x00 x00)
(T (W x00 x00 x80 x3f x00 x00 x80 x3f)
(L (W x00 x00 x80 xbf x00 x00 x80 xbf)) E)
(L (W xff xff xff xff xff xff xff xff)))
(T (W x4c x45 x41 x52 x45 x44 x00 x00)
(L (W x00 x00 x80 xbf x00 x00 x80 xbf))
(L (W x45 x26 x22 x84 xe4 x9c xf2 xcb))))
(T (W xff xff xff xff x04 x00 x00 x00)
(T (W x00 x00 x00 x00 x00 x00 x00 x00)
(T (W x00 x00 x00 x00 x00 x00 x00 x00)
(L (W x12 x00 x00 x00 x46 x53 x59 x53)) E)
(L (W x00 x00 x80 xbf x00 x00 x80 xbf)))
(T (W x00 x00 x80 x3f x00 x00 x80 x3f)
(L (W x00 x00 x00 x00 x00 x00 x00 x00))
(L (W xff xff xff xff xff xff xff xff))))))
(T (W x00 x00 x80 x3f x00 x00 x80 x3f)
(T (W x00 x00 x80 x3f x00 x00 x80 x3f)
(T (W x00 x00 x00 x00 x00 x00 x00 x00)
(T (W xff xff xff xff xff xff xff xff)
(T (W x45 x26 x22 x84 xe4 x9c xf2 xcb)
(L (W x00 x00 x00 x00 x00 x00 x00 x00)) E)
(L (W xff xff xff xff xff xff xff xff)))
(T (W xff xff xff xff xff xff xff xff)
(L (W x00 x00 x00 x00 x00 x00 x00 x00))
(L (W xff xff xff xff xff xff xff xff))))
(T (W xff xff xff xff xff xff xff xff)
(T (W x87 x75 x5a x26 x96 x96 x06 x58)
(T (W x00 x00 x4c x00 x50 x00 x00 x00)
(L (W xff xff xff xff xff xff xff xff)) E)
(L (W x00 x00 x80 xbf x00 x00 x80 xbf)))
(T (W x9d x01 x00 x00 xff xff xff xff)
(L (W x00 x00 x80 xbf x00 x00 x80 xbf))
(L (W xff xff xff xff xff xff xff xff)))))
(T (W x00 x00 x00 x00 x00 x00 x00 x00)
(T (W xff xff xff xff xff xff xff xff)
(T (W x00 x00 x80 x3f x00 x00 x80 x3f)
(T (W x00 x00 x00 x00 x00 x00 x00 x00)
(L (W x00 x00 x80 xbf x00 x00 x80 xbf)) E)
(L (W xff xff xff xff xff xff xff xff)))
(T (W x4f x84 x6f x8b xe8 xcb x63 xb7)
(L (W x00 x00 x80 xbf x00 x00 x80 xbf))
(L (W x00 x00 x80 xbf x00 x00 x80 xbf))))
(T (W xa2 x80 xfc xff x74 x00 x00 x00)
(T (W x00 x00 x80 x3f x00 x00 x80 x3f)
(T (W x00 x00 x00 x00 x12 x00 x00 x00)
(L (W x00 x00 x00 x00 x00 x00 x00 x00)) E)
(L (W x52 x02 xff xff x78 x00 x00 x00)))
(T (W x45 x26 x22 x84 xe4 x9c xf2 xcb)
(L (W x00 x00 x00 x00 x00 x00 x00 x00))
(L (W x00 x00 x00 x00 x00 x00 x00 x00))))))))))
(T (W x58 x09 x01 x00 x0c x07 x01 x00)
(T (W xff xff xff xff xff xff xff xff)
(T (W x50 x00 x00 x00 x44 x00 x00 x00)
(T (W x61 x64 x65 x72 x5f x77 x69 x6c)
(T (W x00 x00 x00 x00 x00 x00 x00 x00)
(T (W xb8 x00 x00 x00 xac x00 x00 x00)
(T (W x68 x00 x00 x00 x5c x00 x00 x00)
(T (W x40 x00 x00 x00 x10 x00 x00 x00)
(T (W x00 x00 x00 x00 x00 x00 x00 x00)
(L (W x00 x00 x80 xbf x00 x00 x80 xbf)) E)
(L (W x1c x00 x00 x00 x10 x00 x00 x00)))
(T (W xff xff xff xff xff xff xff xff)
(L (W x79 x61 x62 x75 x6e x00 x00 x00))
(L (W xff xff xff xff xff xff xff xff))))
(T (W x45 x26 x22 x84 xe4 x9c xf2 xcb)
(T (W xff xff xff xff xff xff xff xff)
(T (W x00 x00 x80 x3f x00 x00 x80 x3f)
(L (W x00 x00 x00 x00 x00 x00 x00 x00)) E)
(L (W x00 x00 x00 x00 x00 x00 x00 x00)))
(T (W xff xff xff xff xff xff xff xff)
(L (W xff xff xff xff xff xff xff xff))
(L (W x24 x01 x00 x00 x04 x00 x00 x00)))))
(T (W xff xff xff xff xff xff xff xff)
(T (W x00 x00 x80 x3f x00 x00 x80 x3f)
(T (W x00 x00 x60 x00 x00 x00 x00 x00)
(T (W xff xff xff xff xff xff xff xff)
(L (W x00 x00 x80 xbf x00 x00 x80 xbf)) E)
(L (W x00 x00 x00 x00 x00 x00 x00 x00)))
(T (W x00 x00 x00 x00 x00 x00 x00 x00)
(L (W xff xff xff xff xff xff xff xff))
(L (W x00 x00 x00 x00 x00 x00 x00 x00))))
(T (W x00 x00 x00 x00 x00 x00 x00 x00)
(T (W x6c x00 x00 x00 x60 x00 x00 x00)
(T (W x40 x00 x44 x00 x00 x00 x48 x00)
(L (W x49 xa1 x68 x4a xeb x5f xdd x3d)) E)
(L (W xb0 x00 x00 x00 x64 x00 x00 x00)))
(T (W x00 x00 x80 x3f x00 x00 x80 x3f)
(L (W xcc x00 x00 x00 x01 x00 x00 x00))
(L (W x00 x00 x00 x00 x00 x00 x00 x00))))))
(T (W xff xff xff xff xff xff xff xff)
(T (W x68 x00 x00 x00 x5c x00 x00 x00)
(T (W x00 x00 x80 x3f x00 x00 x80 x3f)
(T (W xff xff xff xff xff xff xff xff)
(T (W x00 x00 x00 x00 x00 x00 x00 x00)
(L (W x00 x00 x80 xbf x00 x00 x80 xbf)) E)
(L (W x5c x00 x00 x00 x50 x00 x00 x00)))
(T (W xff xff xff xff xff xff xff xff)
(L (W xff xff xff xff xff xff xff xff))
(L (W x00 x00 x00 x00 x00 x00 x00 x00))))
(T (W x00 x00 x00 x00 x00 x00 x00 x00)
(T (W x46 x53 x59 x53 x5f x4e x53 x5f)
(T (W xff xff xff xff xff xff xff xff)
(L (W xff xff xff xff xff xff xff xff)) E)
(L (W xa2 xd3 xfe xff x74 x00 x00 x00)))
(T (W xff xff xff xff x02 x00 x00 x00)
(L (W xff xff xff xff xff xff xff xff))
(L (W x00 x00 x00 x00 x02 x00 x00 x00)))))
(T (W x45 x26 x22 x84 xe4 x9c xf2 xcb)
(T (W x00 x00 x80 x3f x00 x00 x80 x3f)
(T (W x64 x00 x08 x00 x00 x00 x00 x00)
(T (W x18 x00 x00 x00 x10 x00 x00 x00)
(L (W xff xff xff xff x9c x00 x00 x00)) E)
(L (W x45 x26 x22 x84 xe4 x9c xf2 xcb)))
(T (W x00 x00 x80 x3f x00 x00 x80 x3f)
(L (W xff xff xff xff xff xff xff xff))
(L (W xff xff xff xff xff xff xff xff))))
(T (W x00 x00 x00 x00 x00 x00 x00 x00)
(T (W x45 x26 x22 x84 xe4 x9c xf2 xcb)
(T (W x7f x00 x00 x00 x7f x00 x00 x00)
(L (W xff xff xff xff xff xff xff xff)) E)
(L (W xff xff xff xff xff xff xff xff)))
(T (W xff xff xff xff xff xff xff xff)
(L (W xcc x00 x00 x00 x02 x00 x00 x00))
(L (W x00 x00 x00 x00 x00 x00 x00 x00)))))))
(T (W x69 x73 x68 x5f x6f x79 x61 x62)
(T (W x50 x00 x00 x00 x44 x00 x00 x00)
(T (W x45 x26 x22 x84 xe4 x9c xf2 xcb)
(T (W x00 x00 x80 x3f x00 x00 x80 x3f)
(T (W xa2 xa9 xfe xff x00 x00 x01 x01)
(T (W x00 x00 x00 x00 x00 x00 x00 x00)
(L (W x00 x00 x80 xbf x00 x00 x80 xbf)) E)
(L (W x50 x00 x00 x00 x44 x00 x00 x00)))
(T (W xff xff xff xff xff xff xff xff)
(L (W x6c x00 x00 x00 x60 x00 x00 x00))
(L (W x0f x00 x00 x00 x10 x00 x00 x00))))
(T (W x00 x00 x00 x00 x00 x00 x00 x00)
(T (W x3a xce xfc xff x4b x00 x00 x00)
(T (W x64 x00 x00 x00 x9c x00 x00 x00)
(L (W xff xff xff xff xff xff xff xff)) E)
(L (W x00 x00 x80 xbf x00 x00 x80 xbf)))
(T (W xff xff xff xff xff xff xff xff)
(L (W xff xff xff xff xff xff xff xff))
(L (W xff xff xff xff xff xff xff xff)))))
(T (W xff xff xff xff xff xff xff xff)
(T (W xa2 x2b xfc xff x74 x00 x00 x00)
(T (W x91 x75 x22 x92 xcc x2e x88 x0b)
(T (W xff xff xff xff xff xff xff xff)
(L (W xc4 x00 x00 x00 x01 x00 x00 x00)) E)
(L (W x00 x00 x00 x00 x00 x00 x00 x00)))
(T (W x00 x00 x80 x3f x00 x00 x80 x3f)
(L (W x00 x00 x00 x00 x00 x00 x00 x00))
(L (W x30 x33 x5f x43 x4c x45 x41 x52))))
(T (W x00 x00 x00 x00 x00 x00 x00 x00)
(T (W x50 x00 x00 x00 x44 x00 x00 x00)
(T (W x49 xa1 x68 x4a xeb x5f xdd x3d)
(L (W x00 x00 x00 x00 x00 x00 x00 x00)) E)
(L (W xc8 x00 x00 x00 x01 x00 x00 x00)))
(T (W xff xff xff xff xa0 x00 x00 x00)
(L (W xff xff xff xff xc4 x00 x00 x00))
(L (W x45 x44 x00 x00 x00 x00 x00 x00))))))
(T (W xff xff xff xff xff xff xff xff)
(T (W xbc x00 x00 x00 xb0 x00 x00 x00)
(T (W x00 x00 x80 x3f x00 x00 x80 x3f)
(T (W xff xff xff xff xff xff xff xff)
(T (W x5c x62 x2e x97 x85 x1d x59 x5f)
(L (W x49 xa1 x68 x4a xeb x5f xdd x3d)) E)
(L (W x00 x00 x80 xbf x00 x00 x80 xbf)))
(T (W x00 x00 x00 x00 x00 x00 x00 x00)
(L (W xc2 xfe xff xff x00 x00 x01 x01))
(L (W x00 x00 x00 x00 x00 x00 x00 x00))))
(T (W x00 x00 x00 x00 x00 x00 x00 x00)
(T (W x00 x00 x00 x00 x00 x00 x00 x00)
(T (W xff xff xff xff xff xff xff xff)
(L (W x03 x00 x00 x00 xd8 x00 x00 x00)) E)
(L (W x6c xe0 xfe xff x00 x01 x01 x01)))
(T (W x00 x00 x00 x00 x00 x00 x00 x00)
(L (W xff xff xff xff xbc x00 x00 x00))
(L (W x00 x00 x00 x00 x00 x00 x00 x00)))))
(T (W x18 x00 x00 x00 x0c x00 x00 x00)
(T (W x00 x00 x80 x3f x00 x00 x80 x3f)
(T (W x00 x00 x00 x00 x00 x00 x00 x00)
(T (W x00 x00 x80 x3f x00 x00 x80 x3f)
(L (W xff xff xff xff xff xff xff xff)) E)
(L (W x00 x00 x00 x00 x00 x00 x00 x00)))
(T (W x6c x40 xfd xff x00 x01 x01 x01)
(L (W xff xff xff xff xff xff xff xff))
(L (W xff xff xff xff xff xff xff xff))))
(T (W x00 x00 x00 x00 x00 x00 x00 x00)
(T (W xff xff xff xff xff xff xff xff)
(T (W x4f x84 x6f x8b xe8 xcb x63 xb7)
(L (W x00 x00 x00 x00 x00 x00 x00 x00)) E)
(L (W xff xff xff xff xff xff xff xff)))
(T (W xff xff xff xff xff xff xff xff)
(L (W x45 x26 x22 x84 xe4 x9c xf2 xcb))
(L (W x00 x00 x80 xbf x00 x00 x80 xbf))))))))
(T (W x70 x5f x77 x69 x6c x64 x5f x70)
(T (W xff xff xff xff xff xff xff xff)
(T (W x80 x03 x00 x00 x6c x02 x00 x00)
(T (W x45 x26 x22 x84 xe4 x9c xf2 xcb)
(T (W x00 x00 x00 x00 x00 x00 x00 x00)
(T (W xa2 x87 xfc xff x74 x00 x00 x00)
(T (W xff xff xff xff xff xff xff xff)
(L (W xff xff xff xff xff xff xff xff)) E)
(L (W x00 x00 x00 x00 x02 x00 x00 x00)))
(T (W x45 x26 x22 x84 xe4 x9c xf2 xcb)
(L (W xff xff xff xff xff xff xff xff))
(L (W x00 x00 x80 xbf x00 x00 x80 xbf))))
(T (W xff xff xff xff xff xff xff xff)
(T (W x00 x00 x80 x3f x00 x00 x80 x3f)
(T (W x6f x6b x65 x5f x63 x6f x77 x61)
(L (W x00 x01 x01 x01 x42 xcf xff xff)) E)
(L (W xff xff xff xff xff xff xff xff)))
(T (W x00 x00 x80 x3f x00 x00 x80 x3f)
(L (W x00 x00 x00 x00 x00 x00 x00 x00))
(L (W x45 x26 x22 x84 xe4 x9c xf2 xcb)))))
(T (W x00 x00 x00 x00 x00 x00 x00 x00)
(T (W xbe x00 x00 x00 xff xff xff xff)
(T (W x00 x00 x80 x3f x00 x00 x80 x3f)
(T (W x00 x00 x80 x3f x00 x00 x80 x3f)
(L (W xff xff xff xff xff xff xff xff)) E)
(L (W x45 x26 x22 x84 xe4 x9c xf2 xcb)))
(T (W xff xff xff xff xff xff xff xff)
(L (W x00 x00 x80 xbf x00 x00 x80 xbf))
(L (W xff xff xff xff xb4 x00 x00 x00))))
(T (W x18 x00 x00 x00 x0c x00 x00 x00)
(T (W x00 x00 x00 x00 x04 x00 x00 x00)
(T (W x4f x84 x6f x8b xe8 xcb x63 xb7)
(L (W x00 x00 x00 x00 x18 x00 x1c x00)) E)
(L (W x49 xa1 x68 x4a xeb x5f xdd x3d)))
(T (W xef x30 x28 xea x5d x27 x0c x7f)
(L (W x00 x00 x00 x00 x00 x00 x00 x00))
(L (W x14 x00 x00 x00 x0c x00 x00 x00))))))
(T (W x00 x00 x00 x00 x00 x00 x00 x00)
(T (W x00 x00 x00 x00 x00 x00 x00 x00)
(T (W x7e x00 x00 x00 xff xff xff xff)
(T (W x00 x00 x80 x3f x00 x00 x80 x3f)
(T (W x6c x9c xfd xff x00 x01 x01 x01)
(L (W xff xff xff xff xff xff xff xff)) E)
(L (W x34 x01 x00 x00 x04 x00 x00 x00)))
(T (W xa2 x17 xfd xff x74 x00 x00 x00)
(L (W x00 x00 x00 x00 x00 x00 x00 x00))
(L (W xff xff xff xff xff xff xff xff))))
(T (W xff xff xff xff x03 x00 x00 x00)
(T (W x03 x00 x00 x00 xd0 x00 x00 x00)
(T (W x00 x00 x80 x3f x00 x00 x80 x3f)
(L (W x4f x84 x6f x8b xe8 xcb x63 xb7)) E)
(L (W xff xff xff xff x01 x00 x00 x00)))
(T (W x68 x00 x00 x00 x5c x00 x00 x00)
(L (W x00 x00 x80 xbf x00 x00 x80 xbf))
(L (W x18 x00 x00 x00 x10 x00 x00 x00)))))
(T (W x00 x00 x00 x00 x00 x00 x00 x00)
(T (W xff xff xff xff xff xff xff xff)
(T (W x00 x00 x80 x3f x00 x00 x80 x3f)
(T (W x18 x00 x00 x00 x0c x00 x00 x00)
(L (W x00 x00 x80 xbf x00 x00 x80 xbf)) E)
(L (W x1f x00 x00 x00 x22 x00 x00 x00)))
(T (W x00 x00 x00 x00 x00 x00 x00 x00)
(L (W x00 x00 x80 xbf x00 x00 x80 xbf))
(L (W x00 x00 x80 xbf x00 x00 x80 xbf))))
(T (W x00 x00 x80 x3f x00 x00 x80 x3f)
(T (W x00 x00 x00 x00 x00 x00 x00 x00)
(T (W x00 x00 x28 x00 x28 x00 x00 x00)
(L (W x00 x00 x00 x00 x0c x00 x1c x00)) E)
(L (W x00 x00 x80 xbf x00 x00 x80 xbf)))
(T (W x00 x00 x00 x00 x00 x00 x00 x00)
(L (W x00 x00 x00 x00 x00 x00 x00 x00))
(L (W x50 x00 x00 x00 x44 x00 x00 x00)))))))
(T (W x00 x00 x00 x00 x00 x00 x00 x00)
(T (W x00 x00 x80 x3f x00 x00 x80 x3f)
(T (W x00 x00 x00 x00 x00 x00 x00 x00)
(T (W xa4 xf8 x5e x80 x81 xdd x1e x8f)
(T (W x6c x94 xfc xff x00 x01 x01 x01)
(T (W x00 x00 x00 x00 xdc x92 xfd xff)
(L (W xff xff xff xff xff xff xff xff)) E)
(L (W x45 x44 x00 x00 x00 x00 x00 x00)))
(T (W x00 x00 x80 x3f x00 x00 x80 x3f)
(L (W x00 x00 x00 x00 x00 x00 x00 x00))
(L (W x03 x00 x00 x00 xd8 x00 x00 x00))))
(T (W xff xff xff xff xff xff xff xff)
(T (W x50 x00 x00 x00 x44 x00 x00 x00)
(T (W x00 x00 x80 x3f x00 x00 x80 x3f)
(L (W x00 x00 x80 xbf x00 x00 x80 xbf)) E)
(L (W xff xff xff xff xff xff xff xff)))
(T (W x00 x00 x80 x3f x00 x00 x80 x3f)
(L (W x4f x84 x6f x8b xe8 xcb x63 xb7))
(L (W x00 x00 x80 xbf x00 x00 x80 xbf)))))
(T (W x54 x08 xfc xff x3e x00 x00 x00)
(T (W xff xff xff xff xff xff xff xff)
(T (W x00 x00 x80 x3f x00 x00 x80 x3f)
(T (W x00 x00 x00 x00 x00 x00 x00 x00)
(L (W x00 x00 x00 x00 x00 x00 x00 x00)) E)
(L (W x18 x00 x00 x00 x0c x00 x00 x00)))
(T (W x02 x00 x00 x00 xff xff xff xff)
(L (W x00 x00 x00 x00 x00 x00 x00 x00))
(L (W x54 x00 x00 x00 x48 x00 x00 x00))))
(T (W xa2 x6f xfc xff x74 x00 x00 x00)
(T (W x45 x44 x00 x00 x00 x00 x00 x00)
(T (W x24 x00 x00 x00 x0c x00 x00 x00)
(L (W x6c x00 x70 x00 x62 x00 x00 x00)) E)
(L (W x00 x00 x80 xbf x00 x00 x80 xbf)))
(T (W x00 x00 x00 x00 x00 x00 x00 x00)
(L (W x46 x53 x59 x53 x5f x4e x53 x5f))
(L (W xff xff xff xff xb0 x00 x00 x00))))))
(T (W x00 x00 x00 x00 x00 x00 x00 x00)
(T (W x00 x00 x00 x00 x00 x00 x00 x00)
(T (W x1c x01 x00 x00 x04 x00 x00 x00)
(T (W x50 x00 x00 x00 x44 x00 x00 x00)
(T (W x00 x00 x80 x3f x00 x00 x80 x3f)
(L (W xff xff xff xff xff xff xff xff)) E)
(L (W x03 x00 x00 x00 xd8 x00 x00 x00)))
(T (W x18 x00 x00 x00 x0c x00 x00 x00)
(L (W x9f x61 x6c x12 x83 xf3 x3a xc6))
(L (W x1c x00 x00 x00 x10 x00 x00 x00))))
(T (W xff xff xff xff xff xff xff xff)
(T (W xff xff xff xff xff xff xff xff)
(T (W xff xff xff xff x03 x00 x00 x00)
(L (W x00 x00 x00 x00 x00 x00 x00 x00)) E)
(L (W x00 x00 x00 x00 x00 x00 x00 x00)))
(T (W x18 x00 x00 x00 x10 x00 x00 x00)
(L (W x4f x84 x6f x8b xe8 xcb x63 xb7))
(L (W xc4 x00 x00 x00 x01 x00 x00 x00)))))
(T (W x00 x00 x00 x00 x00 x00 x00 x00)
(T (W xff xff xff xff xff xff xff xff)
(T (W x00 x00 x00 x00 x00 x00 x00 x00)
(T (W xd3 x00 x00 x00 xff xff xff xff)
(L (W x00 x00 x00 x00 x00 x00 x00 x00)) E)
(L (W xff xff xff xff xff xff xff xff)))
(T (W x00 x00 x00 x00 x00 x00 x00 x00)
(L (W x00 x00 x00 x00 x00 x00 x00 x00))
(L (W x00 x00 x80 xbf x00 x00 x80 xbf))))
(T (W x68 x00 x00 x00 x5c x00 x00 x00)
(T (W x49 xa1 x68 x4a xeb x5f xdd x3d)
(T (W xc4 x02 x00 x00 x78 x01 x00 x00)
(L (W xff xff xff xff xff xff xff xff)) E)
(L (W x50 x00 x00 x00 x44 x00 x00 x00)))
(T (W x00 x00 x80 x3f x00 x00 x80 x3f)
(L (W x00 x00 x00 x00 x00 x00 x00 x00))
(L (W xff xff xff xff xff xff xff xff)))))))))
(T (W x00 x00 x00 x00 x00 x00 x00 x00)
(T (W x45 x26 x22 x84 xe4 x9c xf2 xcb)
(T (W x6c x9a xfb xff x00 x01 x01 x01)
(T (W x52 xa7 xfb xff x78 x00 x00 x00)
(T (W x71 x00 x00 x00 xff xff xff xff)
(T (W xff xff xff xff xff xff xff xff)
(T (W x00 x00 x00 x00 x00 x00 x00 x00)
(T (W xa2 x85 xfd xff x74 x00 x00 x00)
(L (W xff xff xff xff xac x00 x00 x00)) E)
(L (W x03 x00 x00 x00 xd0 x00 x00 x00)))
(T (W x00 x00 x00 x00 x00 x00 x00 x00)
(L (W x6c x00 x00 x00 x60 x00 x00 x00))
(L (W x30 x33 x5f x43 x4c x45 x41 x52))))
(T (W xa2 x45 xfc xff x74 x00 x00 x00)
(T (W x00 x00 x00 x00 x00 x00 x00 x00)
(T (W xff xff xff xff xff xff xff xff)
(L (W x46 x53 x59 x53 x5f x4e x53 x5f)) E)
(L (W xff xff xff xff x9c x00 x00 x00)))
(T (W x72 x4f xfd xff x9c x01 x00 x00)
(L (W xdb x2b xc8 xc9 x03 x8a xa0 xbc))
(L (W x00 x00 x00 x00 x00 x00 x00 x00)))))
(T (W xff xff xff xff xff xff xff xff)
(T (W x45 x26 x22 x84 xe4 x9c xf2 xcb)
(T (W x00 x00 x00 x00 x00 x00 x00 x00)
(T (W x00 x00 x00 x00 x00 x00 x00 x00)
(L (W xff xff xff xff x9c x00 x00 x00)) E)
(L (W x00 x00 x80 xbf x00 x00 x80 xbf)))
(T (W x00 x00 x80 x3f x00 x00 x80 x3f)
(L (W x00 x00 x00 x00 x00 x00 x00 x00))
(L (W x00 x00 x80 xbf x00 x00 x80 xbf))))
(T (W x45 x26 x22 x84 xe4 x9c xf2 xcb)
(T (W x03 x00 x00 x00 xd0 x00 x00 x00)
(T (W xff xff xff xff xff xff xff xff)
(L (W x54 x00 x00 x00 x48 x00 x00 x00)) E)
(L (W xff xff xff xff xff xff xff xff)))
(T (W x18 x00 x00 x00 x0c x00 x00 x00)
(L (W xff xff xff xff xff xff xff xff))
(L (W x00 x00 x80 xbf x00 x00 x80 xbf))))))
(T (W xc0 x01 x00 x00 xff xff xff xff)
(T (W xff xff xff xff xff xff xff xff)
(T (W xb8 x00 x00 x00 xac x00 x00 x00)
(T (W x00 x00 x00 x00 x00 x00 x00 x00)
(T (W x00 x00 x80 x3f x00 x00 x80 x3f)
(L (W xb8 x00 x00 x00 x3c x00 x00 x00)) E)
(L (W xff xff xff xff xb0 x00 x00 x00)))
(T (W x00 x00 x00 x00 x00 x00 x00 x00)
(L (W x00 x00 x00 x00 x92 xe8 xff xff))
(L (W x00 x00 x80 xbf x00 x00 x80 xbf))))
(T (W x00 x00 x80 x3f x00 x00 x80 x3f)
(T (W x00 x00 x80 x3f x00 x00 x80 x3f)
(T (W x21 x00 x00 x00 x67 x72 x6f x75)
(L (W x30 x33 x5f x43 x4c x45 x41 x52)) E)
(L (W xff xff xff xff xc0 x00 x00 x00)))
(T (W x49 xa1 x68 x4a xeb x5f xdd x3d)
(L (W x00 x00 x00 x00 x00 x00 x00 x00))
(L (W x00 x00 x00 x00 x00 x00 x00 x00)))))
(T (W xff xff xff xff xff xff xff xff)
(T (W x0a x00 x00 x00 x3e x00 x00 x00)
(T (W x26 x00 x00 x00 xff xff xff xff)
(T (W x6f x79 x61 x62 x75 x6e x00 x00)
(L (W x00 x00 x00 x00 x2a xd4 xff xff)) E)
(L (W x00 x00 x80 xbf x00 x00 x80 xbf)))
(T (W xff xff xff xff xff xff xff xff)
(L (W x00 x00 x00 x00 x00 x00 x00 x00))
(L (W x00 x00 x00 x00 x00 x00 x00 x00))))
(T (W x00 x00 x80 x3f x00 x00 x80 x3f)
(T (W xff xff xff xff xff xff xff xff)
(T (W x03 x00 x00 x00 xcc x00 x00 x00)
(L (W x00 x00 x80 xbf x00 x00 x80 xbf)) E)
(L (W x00 x00 x00 x00 x00 x00 x00 x00)))
(T (W x00 x00 x00 x00 x00 x00 x00 x00)
(L (W xff xff xff xff xff xff xff xff))
(L (W x00 x00 x80 xbf x00 x00 x80 xbf)))))))
(T (W xe8 x00 x00 x00 xb4 x00 x00 x00)
(T (W xb7 x2a x7d x8f xb7 x85 x46 x36)
(T (W xa2 xeb xfd xff x00 x00 x01 x01)
(T (W xff xff xff xff xff xff xff xff)
(T (W x45 x26 x22 x84 xe4 x9c xf2 xcb)
(T (W x00 x00 x80 x3f x00 x00 x80 x3f)
(L (W x52 x8f xff xff x78 x00 x00 x00)) E)
(L (W xff xff xff xff x94 x00 x00 x00)))
(T (W x00 x00 x00 x00 x00 x00 x00 x00)
(L (W xff xff xff xff xff xff xff xff))
(L (W x45 x26 x22 x84 xe4 x9c xf2 xcb))))
(T (W x6c x52 xfc xff x00 x01 x01 x01)
(T (W x00 x00 x00 x00 x00 x00 x00 x00)
(T (W x00 x00 x00 x00 x00 x00 x00 x00)
(L (W x00 x00 x00 x00 x00 x00 x00 x00)) E)
(L (W xff xff xff xff xb0 x00 x00 x00)))
(T (W x00 x00 x00 x00 x00 x00 x00 x00)
(L (W x45 x44 x00 x00 x00 x00 x00 x00))
(L (W x00 x00 x00 x00 x00 x00 x00 x00)))))
(T (W xff xff xff xff xff xff xff xff)
(T (W x01 x00 x00 x00 x9c x00 x00 x00)
(T (W x45 x26 x22 x84 xe4 x9c xf2 xcb)
(T (W xff x9e x30 x97 x85 x21 x5c x5f)
(L (W xff xff xff xff xff xff xff xff)) E)
(L (W x00 x00 x80 xbf x00 x00 x80 xbf)))
(T (W x45 x26 x22 x84 xe4 x9c xf2 xcb)
(L (W xff xff xff xff xff xff xff xff))
(L (W x00 x00 x80 xbf x00 x00 x80 xbf))))
(T (W x00 x00 x80 x3f x00 x00 x80 x3f)
(T (W xff xff xff xff xff xff xff xff)
(T (W x22 x00 x00 x00 x67 x72 x6f x75)
(L (W x49 xa1 x68 x4a xeb x5f xdd x3d)) E)
(L (W x04 xbd x1c x76 x80 xbc xf7 x18)))
(T (W xff xff xff xff xff xff xff xff)
(L (W x8d x01 x00 x00 xff xff xff xff))
(L (W x00 x00 x80 xbf x00 x00 x80 xbf))))))
(T (W xff xff xff xff xff xff xff xff)
(T (W xff xff xff xff xff xff xff xff)
(T (W x45 x26 x22 x84 xe4 x9c xf2 xcb)
(T (W x00 x00 x00 x00 x00 x00 x00 x00)
(T (W x00 x00 x00 x00 x00 x00 x00 x00)
(L (W x1f x00 x00 x00 x22 x00 x00 x00)) E)
(L (W x00 x00 x62 x00 x78 x00 x04 x00)))
(T (W x00 x00 x80 x3f x00 x00 x80 x3f)
(L (W xff xff xff xff x9c x00 x00 x00))
(L (W x00 x00 x80 xbf x00 x00 x80 xbf))))
(T (W x00 x00 x80 x3f x00 x00 x80 x3f)
(T (W xa2 xdd xfc xff x74 x00 x00 x00)
(T (W x00 x00 x00 x00 x00 x00 x00 x00)
(L (W xff xff xff xff xff xff xff xff)) E)
(L (W xff xff xff xff xff xff xff xff)))
(T (W x00 x00 x80 x3f x00 x00 x80 x3f)
(L (W xff xff xff xff xff xff xff xff))
(L (W x00 x00 x80 xbf x00 x00 x80 xbf)))))
(T (W xff xff xff xff xff xff xff xff)
(T (W xc0 x00 x00 x00 xb4 x00 x00 x00)
(T (W xff xff xff xff xff xff xff xff)
(T (W xb8 x00 x00 x00 xac x00 x00 x00)
(L (W x00 x00 x00 x00 x00 x00 x00 x00)) E)
(L (W x6c xc2 xfe xff x00 x01 x01 x01)))
(T (W xff xff xff xff xff xff xff xff)
(L (W x46 x53 x59 x53 x5f x4e x53 x5f))
(L (W x00 x00 x00 x00 x00 x00 x00 x00))))
(T (W x00 x00 x80 x3f x00 x00 x80 x3f)
(T (W x4a x00 x00 x00 xff xff xff xff)
(T (W x00 x00 x80 x3f x00 x00 x80 x3f)
(L (W x50 x00 x00 x00 x54 x00 x00 x00)) E)
(L (W x00 x00 x00 x00 x00 x00 x00 x00)))
(T (W x00 x00 x00 x00 x00 x00 x00 x00)
(L (W xff xff xff xff xff xff xff xff))
(L (W x6c x82 xff xff x00 x01 x01 x01))))))))
(T (W x01 x00 x00 x00 x3e x00 x00 x00)
(T (W x00 x00 x80 x3f x00 x00 x80 x3f)
(T (W x00 x00 x00 x00 x00 x00 x00 x00)
(T (W x00 x00 x80 x3f x00 x00 x80 x3f)
(T (W x00 x00 x00 x00 x00 x00 x00 x00)
(T (W x18 x00 x00 x00 x10 x00 x00 x00)
(T (W x18 x01 x00 x00 x04 x00 x00 x00)
(L (W x00 x00 x00 x00 x00 x00 x00 x00)) E)
(L (W x00 x00 x00 x00 x00 x00 x00 x00)))
(T (W xff xff xff xff x9c x00 x00 x00)
(L (W x00 x00 x00 x00 x00 x00 x00 x00))
(L (W xff xff xff xff xff xff xff xff))))
(T (W x32 x66 xfe xff xad x00 x00 x00)
(T (W xff xff xff xff xb0 x00 x00 x00)
(T (W x00 x00 x80 x3f x00 x00 x80 x3f)
(L (W x28 x00 x00 x00 x2b x00 x00 x00)) E)
(L (W x00 x00 x00 x00 x00 x00 x00 x00)))
(T (W xa2 x49 xfd xff x74 x00 x00 x00)
(L (W x00 x00 x80 xbf x00 x00 x80 xbf))
(L (W x1f x00 x00 x00 x22 x00 x00 x00)))))
(T (W x00 x00 x80 x3f x00 x00 x80 x3f)
(T (W x00 x00 x00 x00 x00 x00 x00 x00)
(T (W xff xff xff xff xff xff xff xff)
(T (W x45 x26 x22 x84 xe4 x9c xf2 xcb)
(L (W x45 x26 x22 x84 xe4 x9c xf2 xcb)) E)
(L (W x00 x00 x00 x00 x00 x00 x00 x00)))
(T (W x00 x00 x00 x00 x00 x00 x00 x00)
(L (W xff xff xff xff xff xff xff xff))
(L (W xff xff xff xff xff xff xff xff))))
(T (W xff xff xff xff xff xff xff xff)
(T (W x00 x00 x80 x3f x00 x00 x80 x3f)
(T (W x45 x26 x22 x84 xe4 x9c xf2 xcb)
(L (W xff xff xff xff xff xff xff xff)) E)
(L (W x54 x00 x00 x00 x48 x00 x00 x00)))
(T (W x45 x26 x22 x84 xe4 x9c xf2 xcb)
(L (W x68 x00 x00 x00 x5c x00 x00 x00))
(L (W xff xff xff xff xff xff xff xff))))))
(T (W x00 x00 x80 x3f x00 x00 x80 x3f)
(T (W x6c x00 x00 x00 x60 x00 x00 x00)
(T (W x45 x26 x22 x84 xe4 x9c xf2 xcb)
(T (W xc0 x00 x00 x00 xb4 x00 x00 x00)
(T (W xff xff xff xff xff xff xff xff)
(L (W x00 x00 x00 x00 x00 x00 x00 x00)) E)
(L (W x45 x26 x22 x84 xe4 x9c xf2 xcb)))
(T (W xff xff xff xff xbc x00 x00 x00)
(L (W x45 x26 x22 x84 xe4 x9c xf2 xcb))
(L (W x45 x44 x00 x00 x00 x00 x00 x00))))
(T (W x00 x00 x00 x00 x00 x00 x00 x00)
(T (W x00 x00 x00 x00 x02 x00 x00 x00)
(T (W x45 x26 x22 x84 xe4 x9c xf2 xcb)
(L (W x1c x00 x00 x00 x10 x00 x00 x00)) E)
(L (W x4f x84 x6f x8b xe8 xcb x63 xb7)))
(T (W xff xff xff xff xff xff xff xff)
(L (W x70 x00 x00 x00 x64 x00 x00 x00))
(L (W xff xff xff xff xff xff xff xff)))))
(T (W x45 x26 x22 x84 xe4 x9c xf2 xcb)
(T (W x00 x00 x00 x00 x00 x00 x00 x00)
(T (W xa2 xb9 xfc xff x74 x00 x00 x00)
(T (W x70 x5f x77 x69 x6c x64 x5f x70)
(L (W x45 x26 x22 x84 xe4 x9c xf2 xcb)) E)
(L (W x00 x00 x00 x00 x00 x00 x00 x00)))
(T (W x00 x00 x80 x3f x00 x00 x80 x3f)
(L (W x58 x00 x00 x00 x4c x00 x00 x00))
(L (W xff xff xff xff xb4 x00 x00 x00))))
(T (W xff xff xff xff xff xff xff xff)
(T (W x00 x00 x80 x3f x00 x00 x80 x3f)
(T (W x45 x44 x00 x00 x00 x00 x00 x00)
(L (W x00 x00 x2a x00 x4c x00 x3c x00)) E)
(L (W x45 x26 x22 x84 xe4 x9c xf2 xcb)))
(T (W x18 x00 x00 x00 x10 x00 x00 x00)
(L (W x45 x26 x22 x84 xe4 x9c xf2 xcb))
(L (W x00 x00 x00 x00 x00 x00 x00 x00)))))))
(T (W xff xff xff xff xff xff xff xff)
(T (W x18 x00 x00 x00 x0c x00 x00 x00)
(T (W x00 x00 x80 x3f x00 x00 x80 x3f)
(T (W x45 x26 x22 x84 xe4 x9c xf2 xcb)
(T (W xb8 x00 x00 x00 xac x00 x00 x00)
(T (W xff xff xff xff xff xff xff xff)
(L (W x00 x00 x00 x00 x00 x00 x00 x00)) E)
(L (W x4f x84 x6f x8b xe8 xcb x63 xb7)))
(T (W x03 x00 x00 x00 xd8 x00 x00 x00)
(L (W x6c x16 xfe xff x00 x01 x01 x01))
(L (W xff xff xff xff xff xff xff xff))))
(T (W x00 x00 x00 x00 x00 x00 x00 x00)
(T (W xff xff xff xff xff xff xff xff)
(T (W x45 x26 x22 x84 xe4 x9c xf2 xcb)
(L (W xa2 xd1 xff xff x74 x00 x00 x00)) E)
(L (W x00 x00 x00 x00 x00 x00 x00 x00)))
(T (W xff xff xff xff xc8 x00 x00 x00)
(L (W x00 x00 x80 xbf x00 x00 x80 xbf))
(L (W x03 x00 x00 x00 xd0 x00 x00 x00)))))
(T (W x00 x00 x80 x3f x00 x00 x80 x3f)
(T (W x00 x00 x00 x00 x00 x00 x00 x00)
(T (W xb8 x00 x00 x00 xac x00 x00 x00)
(T (W x00 x00 x80 x3f x00 x00 x80 x3f)
(L (W x50 x00 x00 x00 x44 x00 x00 x00)) E)
(L (W x74 x03 x00 x00 x4c x02 x00 x00)))
(T (W x00 x00 x00 x00 x00 x00 x00 x00)
(L (W x52 x33 xfe xff x78 x00 x00 x00))
(L (W xff xff xff xff xff xff xff xff))))
(T (W xff xff xff xff xff xff xff xff)
(T (W x00 x00 x80 x3f x00 x00 x80 x3f)
(T (W x00 x00 x00 x00 x04 x00 x5c x00)
(L (W x45 x26 x22 x84 xe4 x9c xf2 xcb)) E)
(L (W x00 x00 x00 x00 xdc xf4 xfe xff)))
(T (W x00 x00 x80 x3f x00 x00 x80 x3f)
(L (W x54 x00 x00 x00 x48 x00 x00 x00))
(L (W x28 x02 x00 x00 x28 x01 x00 x00))))))
(T (W x00 x00 x80 x3f x00 x00 x80 x3f)
(T (W x00 x00 x80 x3f x00 x00 x80 x3f)
(T (W x00 x00 x00 x00 x00 x00 x00 x00)
(T (W x3e x00 x00 x00 x10 x00 x00 x00)
(T (W x18 x00 x00 x00 x10 x00 x00 x00)
(L (W x00 x00 x00 x00 x00 x00 x00 x00)) E)
(L (W xff xff xff xff xff xff xff xff)))
(T (W x9d x01 x00 x00 xff xff xff xff)
(L (W x00 x00 x80 xbf x00 x00 x80 xbf))
(L (W xff xff xff xff xff xff xff xff))))
(T (W x48 x03 x00 x00 x34 x02 x00 x00)
(T (W x00 x00 x00 x00 x00 x00 x00 x00)
(T (W x00 x00 x00 x00 x00 x00 x00 x00)
(L (W x28 x00 x2c x00 x30 x00 x34 x00)) E)
(L (W x68 x00 x00 x00 x5c x00 x00 x00)))
(T (W x5f x4e x53 x5f x30 x33 x5f x43)
(L (W x54 x00 x00 x00 x48 x00 x00 x00))
(L (W x4c x03 x00 x00 x24 x02 x00 x00)))))
(T (W x00 x00 x00 x00 x00 x00 x00 x00)
(T (W x2e x33 x6d x52 x4c xfc xc4 x4d)
(T (W x00 x00 x80 x3f x00 x00 x80 x3f)
(T (W x00 x00 x00 x00 x00 x00 x00 x00)
(L (W x00 x00 x2a x00 x54 x00 x44 x00)) E)
(L (W xd3 x00 x00 x00 xff xff xff xff)))
(T (W x00 x00 x80 x3f x00 x00 x80 x3f)
(L (W x6c x00 x00 x00 x60 x00 x00 x00))
(L (W xff xff xff xff xb0 x00 x00 x00))))
(T (W xff xff xff xff x04 x00 x00 x00)
(T (W x54 x00 x00 x00 x48 x00 x00 x00)
(L (W x54 x00 x00 x00 x48 x00 x00 x00))
(L (W xff xff xff xff x9c x00 x00 x00)))
(T (W x18 x00 x00 x00 x10 x00 x00 x00)
(L (W x49 xa1 x68 x4a xeb x5f xdd x3d))
(L (W x00 x00 x00 x00 x00 x00 x00 x00)))))))))))))
(T (W x48 x06 x04 x00 xcc x01 x04 x00)
(T (W x10 xca x03 x00 x6c xc5 x03 x00)
(T (W x50 x0b x03 x00 xc4 x06 x03 x00)
(T (W xd8 x43 x02 x00 x5c x41 x02 x00)
(T (W x68 xd2 x00 x00 x1c xd0 x00 x00)
(T (W xff xff xff xff xff xff xff xff)
(T (W x00 x00 x80 x3f x00 x00 x80 x3f)
(T (W x00 x00 x80 x3f x00 x00 x80 x3f)
(T (W xb4 xda xfb xff x3e x00 x00 x00)
(T (W xff xff xff xff xff xff xff xff)
(T (W x00 x00 x80 x3f x00 x00 x80 x3f)
(T (W x45 x26 x22 x84 xe4 x9c xf2 xcb)
(L (W xff xff xff xff xff xff xff xff)) E)
(L (W x00 x00 x00 x00 xe2 x82 xfe xff)))
(T (W x00 x00 x00 x00 x00 x00 x00 x00)
(L (W x00 x00 x00 x00 x00 x00 x00 x00))
(L (W x00 x00 x80 xbf x00 x00 x80 xbf))))
(T (W xb8 x00 x00 x00 xac x00 x00 x00)
(T (W x00 x00 x00 x00 x00 x00 x00 x00)
(T (W xff xff xff xff xff xff xff xff)
(L (W x00 x00 x80 xbf x00 x00 x80 xbf)) E)
(L (W xff xff xff xff xac x00 x00 x00)))
(T (W x00 x00 x00 x00 x00 x00 x00 x00)
(L (W x00 x00 x00 x00 x00 x00 x00 x00))
(L (W x00 x00 x80 xbf x00 x00 x80 xbf)))))
(T (W x00 x00 x00 x00 x00 x00 x00 x00)
(T (W x88 x03 x00 x00 xff xff xff xff)
(T (W x50 x00 x54 x00 x58 x00 x00 x00)
(T (W x45 x26 x22 x84 xe4 x9c xf2 xcb)
(L (W x03 x00 x00 x00 xd8 x00 x00 x00)) E)
(L (W x45 x26 x22 x84 xe4 x9c xf2 xcb)))
(T (W xff xff xff xff xac x00 x00 x00)
(L (W x5c x2a xfe xff x24 x00 x00 x00))
(L (W x5c x00 x00 x00 x50 x00 x00 x00))))
(T (W xc0 x00 x00 x00 xb4 x00 x00 x00)
(T (W xff xff xff xff xff xff xff xff)
(T (W x70 x00 x08 x00 x68 x00 x0c x00)
(L (W xff xff xff xff xff xff xff xff)) E)
(L (W x00 x00 x00 x00 x00 x00 x00 x00)))
(T (W xff xff xff xff xff xff xff xff)
(L (W x00 x00 x00 x00 x00 x00 x00 x00))
(L (W xbc x00 x00 x00 x02 x00 x00 x00))))))
(T (W x45 x26 x22 x84 xe4 x9c xf2 xcb)
(T (W x00 x00 x00 x00 x00 x00 x00 x00)
(T (W xff xff xff xff xff xff xff xff)
(T (W x00 x00 x80 x3f x00 x00 x80 x3f)
(T (W x00 x00 x80 x3f x00 x00 x80 x3f)
(L (W xff xff xff xff xff xff xff xff)) E)
(L (W xa9 x01 x00 x00 xff xff xff xff)))
(T (W x00 x00 x80 x3f x00 x00 x80 x3f)
(L (W x00 x00 x00 x00 x00 x00 x00 x00))
(L (W x18 x00 x00 x00 x0c x00 x00 x00))))
(T (W x01 x00 x00 x00 x9c x00 x00 x00)
(T (W x00 x00 x80 x3f x00 x00 x80 x3f)
(T (W x45 x26 x22 x84 xe4 x9c xf2 xcb)
(L (W x00 x00 x00 x00 x00 x00 x00 x00)) E)
(L (W xff xff xff xff xff xff xff xff)))
(T (W x00 x00 x80 x3f x00 x00 x80 x3f)
(L (W x46 x53 x59 x53 x5f x4e x53 x5f))
(L (W x00 x00 x80 xbf x00 x00 x80 xbf)))))
(T (W x5c xfa xfb xff x3e x00 x00 x00)
(T (W xff xff xff xff xff xff xff xff)
(T (W x00 x00 x80 x3f x00 x00 x80 x3f)
(T (W x00 x00 x00 x00 x00 x00 x00 x00)
(L (W x00 x00 x00 x00 x00 x00 x00 x00)) E)
(L (W xcc x00 x00 x00 x01 x00 x00 x00)))
(T (W xff xff xff xff xff xff xff xff)
(L (W x00 x00 x00 x00 x00 x00 x00 x00))
(L (W x6c x00 x00 x00 x60 x00 x00 x00))))
(T (W xcc x76 xfc xff x00 x01 x01 x01)
(T (W x30 x33 x5f x43 x4c x45 x41 x52)
(T (W xff xff xff xff xff xff xff xff)
(L (W x45 x26 x22 x84 xe4 x9c xf2 xcb)) E)
(L (W x00 x00 x00 x00 x00 x00 x00 x00)))
(T (W x5f x4e x53 x5f x30 x33 x5f x43)
(L (W x00 x00 x00 x00 x00 x00 x00 x00))
(L (W xbc x00 x00 x00 x01 x00 x00 x00)))))))
(T (W x5f x77 x69 x6c x64 x5f x70 x6f)
(T (W x6b x65 x5f x63 x6f x77 x61 x72)
(T (W x00 x00 x00 x00 x00 x00 x00 x00)
(T (W xff xff xff xff xff xff xff xff)
(T (W x45 x26 x22 x84 xe4 x9c xf2 xcb)
(T (W x01 x00 x00 x00 x9c x00 x00 x00)
(L (W xff xff xff xff xff xff xff xff)) E)
(L (W xff xff xff xff xff xff xff xff)))
(T (W x00 x00 x80 x3f x00 x00 x80 x3f)
(L (W x00 x00 x01 x01 xc7 x01 x00 x00))
(L (W x00 x00 x80 xbf x00 x00 x80 xbf))))
(T (W x45 x26 x22 x84 xe4 x9c xf2 xcb)
(T (W x00 x00 x80 x3f x00 x00 x80 x3f)
(T (W x00 x00 x00 x00 x00 x00 x00 x00)
(L (W x00 x00 x80 xbf x00 x00 x80 xbf)) E)
(L (W xff xff xff xff xc4 x00 x00 x00)))
(T (W x00 x00 x00 x00 x00 x00 x00 x00)
(L (W x00 x00 x00 x00 x00 x00 x00 x00))
(L (W x00 x00 x80 xbf x00 x00 x80 xbf)))))
(T (W x00 x00 x00 x00 x00 x00 x00 x00)
(T (W xff xff xff xff xff xff xff xff)
(T (W x00 x00 x80 x3f x00 x00 x80 x3f)
(T (W x45 x26 x22 x84 xe4 x9c xf2 xcb)
(L (W x00 x00 x00 x00 x00 x00 x00 x00)) E)
(L (W xb8 x00 x00 x00 x3c x00 x00 x00)))
(T (W xb0 x00 x00 x00 x64 x00 x00 x00)
(L (W x50 x00 x00 x00 x44 x00 x00 x00))
(L (W x00 x00 x00 x00 x3c x2d xff xff))))
(T (W x02 x6a xfc xff x74 x00 x00 x00)
(T (W xff xff xff xff xff xff xff xff)
(T (W x55 x6c xfc xf1 x99 x9e xc9 x88)
(L (W x50 x00 x00 x00 x44 x00 x00 x00)) E)
(L (W x00 x00 x00 x00 x00 x00 x00 x00)))
(T (W x04 x00 x00 x00 x7c x03 x00 x00)
(L (W x00 x00 x00 x00 x00 x00 x00 x00))
(L (W x00 x00 x80 xbf x00 x00 x80 xbf))))))
(T (W x00 x00 x00 x00 x00 x00 x00 x00)
(T (W x00 x00 x00 x00 x00 x00 x00 x00)
(T (W xff xff xff xff xff xff xff xff)
(T (W x00 x00 x80 x3f x00 x00 x80 x3f)
(T (W x50 x00 x00 x00 x44 x00 x00 x00)
(L (W xff xff xff xff xff xff xff xff)) E)
(L (W xff xff xff xff xff xff xff xff)))
(T (W x00 x00 x80 x3f x00 x00 x80 x3f)
(L (W x45 x26 x22 x84 xe4 x9c xf2 xcb))
(L (W xff xff xff xff xbc x00 x00 x00))))
(T (W x0a x00 x00 x00 x3e x00 x00 x00)
(T (W xc4 x00 x00 x00 x01 x00 x00 x00)
(T (W x45 x26 x22 x84 xe4 x9c xf2 xcb)
(L (W x4f x84 x6f x8b xe8 xcb x63 xb7)) E)
(L (W x82 x00 x00 x00 xff xff xff xff)))
(T (W x02 x5a xfd xff x74 x00 x00 x00)
(L (W x00 x00 x00 x00 x00 x00 x00 x00))
(L (W x50 x00 x00 x00 x44 x00 x00 x00)))))
(T (W x01 x00 x00 x00 x04 x00 x00 x00)
(T (W xff xff xff xff xff xff xff xff)
(T (W x00 x00 x00 x00 x00 x00 x00 x00)
(T (W x18 x01 x00 x00 x04 x00 x00 x00)
(L (W x4f x84 x6f x8b xe8 xcb x63 xb7)) E)
(L (W xb0 x00 x00 x00 x3c x00 x00 x00)))
(T (W x00 x00 x00 x00 x00 x00 x00 x00)
(L (W x00 x00 x00 x00 x00 x00 x00 x00))
(L (W x00 x00 x80 xbf x00 x00 x80 xbf))))
(T (W x00 x00 x80 x3f x00 x00 x80 x3f)
(T (W x00 x00 x00 x00 x00 x00 x00 x00)
(T (W xff xff xff xff xc8 x00 x00 x00)
(L (W x00 x00 x80 xbf x00 x00 x80 xbf)) E)
(L (W x4f x84 x6f x8b xe8 xcb x63 xb7)))
(T (W x45 x26 x22 x84 xe4 x9c xf2 xcb)
(L (W x4a x6f xca xc9 x03 x92 xa3 xbc))
(L (W xff xff xff xff xff xff xff xff))))))))
(T (W x45 x26 x22 x84 xe4 x9c xf2 xcb)
(T (W x00 x00 x00 x00 x00 x00 x00 x00)
(T (W x00 x00 x00 x00 x00 x00 x00 x00)
(T (W x45 x26 x22 x84 xe4 x9c xf2 xcb)
(T (W x00 x00 x80 x3f x00 x00 x80 x3f)
(T (W x48 x03 x00 x00 x34 x02 x00 x00)
(T (W x00 x00 x00 x00 x00 x00 x00 x00)
(L (W x00 x00 x80 xbf x00 x00 x80 xbf)) E)
(L (W x00 x00 x80 xbf x00 x00 x80 xbf)))
(T (W x03 x00 x00 x00 xd0 x00 x00 x00)
(L (W x00 x00 x00 x00 x00 x00 x00 x00))
(L (W xff xff xff xff xff xff xff xff))))
(T (W x00 x00 x00 x00 x00 x00 x00 x00)
(T (W xff xff xff xff xbc x00 x00 x00)
(T (W x02 xc6 xfd xff x74 x00 x00 x00)
(L (W xff xff xff xff xff xff xff xff)) E)
(L (W x00 x00 x80 xbf x00 x00 x80 xbf)))
(T (W x18 x00 x00 x00 x10 x00 x00 x00)
(L (W x03 x00 x00 x00 xc8 x00 x00 x00))
(L (W xff xff xff xff xff xff xff xff)))))
(T (W x50 x00 x00 x00 x44 x00 x00 x00)
(T (W x45 x26 x22 x84 xe4 x9c xf2 xcb)
(T (W xff xff xff xff xff xff xff xff)
(T (W xff xff xff xff xff xff xff xff)
(L (W x00 x00 x80 xbf x00 x00 x80 xbf)) E)
(L (W x00 x00 x00 x00 x00 x00 x00 x00)))
(T (W x00 x00 x00 x00 x00 x00 x00 x00)
(L (W xff xff xff xff xff xff xff xff))
(L (W x5c x2e xff xff x1d x00 x00 x00))))
(T (W x99 x82 x9e x72 x96 xae x52 x46)
(T (W x00 x00 x80 x3f x00 x00 x80 x3f)
(T (W x54 x00 x00 x00 x48 x00 x00 x00)
(L (W x00 x00 x00 x00 x00 x00 x00 x00)) E)
(L (W x00 x00 x00 x00 x3c xe9 xfe xff)))
(T (W x49 xa1 x68 x4a xeb x5f xdd x3d)
(L (W x00 x01 x01 x01 xb2 xa5 xfe xff))
(L (W x2c x00 x00 x00 x10 x00 x00 x00))))))
(T (W x45 x26 x22 x84 xe4 x9c xf2 xcb)
(T (W xcc xda xfb xff x00 x01 x01 x01)
(T (W x00 x00 x80 x3f x00 x00 x80 x3f)
(T (W xff xff xff xff xff xff xff xff)
(T (W xa7 x01 x00 x00 xff xff xff xff)
(L (W x00 x00 x80 xbf x00 x00 x80 xbf)) E)
(L (W x00 x00 x80 xbf x00 x00 x80 xbf)))
(T (W xff xff xff xff xff xff xff xff)
(L (W xff xff xff xff xb0 x00 x00 x00))
(L (W x00 x00 x00 x00 x00 x00 x00 x00))))
(T (W x00 x00 x00 x00 x00 x00 x00 x00)
(T (W x30 x33 x5f x43 x4c x45 x41 x52)
(T (W xff xff xff xff xff xff xff xff)
(L (W xff xff xff xff xff xff xff xff)) E)
(L (W x00 x00 x80 xbf x00 x00 x80 xbf)))
(T (W x32 x65 xfd xff x9d x01 x00 x00)
(L (W x03 x00 x00 x00 xd8 x00 x00 x00))
(L (W x54 x02 x00 x00 x34 x01 x00 x00)))))
(T (W x00 x00 x00 x00 x3c xf9 xfb xff)
(T (W x00 x00 x80 x3f x00 x00 x80 x3f)
(T (W x18 x00 x00 x00 x0c x00 x00 x00)
(T (W xff xff xff xff xff xff xff xff)
(L (W x14 x00 x00 x00 x0c x00 x00 x00)) E)
(L (W x00 x00 x00 x00 x00 x00 x00 x00)))
(T (W x00 x00 x80 x3f x00 x00 x80 x3f)
(L (W xff xff xff xff xff xff xff xff))
(L (W xff xff xff xff xff xff xff xff))))
(T (W x00 x00 x00 x00 x00 x00 x00 x00)
(T (W x18 x00 x00 x00 x0c x00 x00 x00)
(T (W x00 x00 x80 x3f x00 x00 x80 x3f)
(L (W x12 x00 x00 x00 x46 x53 x59 x53)) E)
(L (W x1b x00 x00 x00 x1e x00 x00 x00)))
(T (W xc0 x00 x00 x00 x01 x00 x00 x00)
(L (W x45 x26 x22 x84 xe4 x9c xf2 xcb))
(L (W xff xff xff xff xff xff xff xff)))))))
(T (W x00 x00 x80 x3f x00 x00 x80 x3f)
(T (W xb8 x00 x00 x00 xac x00 x00 x00)
(T (W x18 x00 x00 x00 x0c x00 x00 x00)
(T (W x00 x00 x80 x3f x00 x00 x80 x3f)
(T (W xff xff xff xff xff xff xff xff)
(T (W x5c x96 xfd xff x1e x00 x00 x00)
(L (W x00 x00 x00 x00 x00 x00 x00 x00)) E)
(L (W x45 x26 x22 x84 xe4 x9c xf2 xcb)))
(T (W xff xff xff xff xff xff xff xff)
(L (W x00 x00 x80 x3f x00 x00 x80 x3f))
(L (W x83 x85 xd4 x61 xf7 xdb xb2 x83))))
(T (W x00 x00 x00 x00 x00 x00 x00 x00)
(T (W xff xff xff xff xff xff xff xff)
(T (W xff xff xff xff xff xff xff xff)
(L (W x03 x00 x00 x00 xd8 x00 x00 x00)) E)
(L (W x00 x00 x80 xbf x00 x00 x80 xbf)))
(T (W xff xff xff xff xff xff xff xff)
(L (W xff xff xff xff xc4 x00 x00 x00))
(L (W xff xff xff xff xff xff xff xff)))))
(T (W x02 xee xfb xff x74 x00 x00 x00)
(T (W x00 x00 x80 x3f x00 x00 x80 x3f)
(T (W xff xff xff xff xff xff xff xff)
(T (W xff xff xff xff x03 x00 x00 x00)
(L (W x02 xae xff xff x74 x00 x00 x00)) E)
(L (W x30 x33 x5f x43 x4c x45 x41 x52)))
(T (W x4f x84 x6f x8b xe8 xcb x63 xb7)
(L (W x50 x00 x00 x00 x44 x00 x00 x00))
(L (W x45 x44 x00 x00 x00 x00 x00 x00))))
(T (W x92 x8a xfe xff x5f x00 x00 x00)
(T (W x02 xee xfc xff x74 x00 x00 x00)
(T (W x24 x00 x00 x00 x0c x00 x00 x00)
(L (W x00 x00 x00 x00 xe2 xee xff xff)) E)
(L (W xff xff xff xff xff xff xff xff)))
(T (W x68 x00 x00 x00 x5c x00 x00 x00)
(L (W x14 x00 x00 x00 x0c x00 x00 x00))
(L (W x00 x00 x00 x00 x00 x00 x00 x00))))))
(T (W x68 x00 x00 x00 x5c x00 x00 x00)
(T (W xcc xe2 xfb xff x00 x01 x01 x01)
(T (W x45 x26 x22 x84 xe4 x9c xf2 xcb)
(T (W xff xff xff xff xff xff xff xff)
(T (W x8e x01 x00 x00 xff xff xff xff)
(L (W x00 x00 x80 xbf x00 x00 x80 xbf)) E)
(L (W x64 x00 x68 x00 x62 x00 x00 x00)))
(T (W x00 x00 x00 x00 x00 x00 x00 x00)
(L (W x00 x00 x80 xbf x00 x00 x80 xbf))
(L (W x46 x53 x59 x53 x5f x4e x53 x5f))))
(T (W x00 x00 x00 x00 x00 x00 x00 x00)
(T (W x00 x00 x00 x00 x00 x00 x00 x00)
(T (W xff xff xff xff xff xff xff xff)
(L (W x45 x26 x22 x84 xe4 x9c xf2 xcb)) E)
(L (W xb2 xdf xfe xff x78 x00 x00 x00)))
(T (W x14 x00 x00 x00 x10 x00 x00 x00)
(L (W x70 x00 x00 x00 x64 x00 x00 x00))
(L (W x45 x44 x00 x00 x00 x00 x00 x00)))))
(T (W x45 x26 x22 x84 xe4 x9c xf2 xcb)
(T (W x00 x00 x80 x3f x00 x00 x80 x3f)
(T (W xcc xc2 xfc xff x00 x01 x01 x01)
(T (W x00 x00 x80 x3f x00 x00 x80 x3f)
(L (W xff xff xff xff xb0 x00 x00 x00)) E)
(L (W x00 x00 x00 x00 x00 x00 x00 x00)))
(T (W x45 x26 x22 x84 xe4 x9c xf2 xcb)
(L (W xff xff xff xff xff xff xff xff))
(L (W xff xff xff xff xff xff xff xff))))
(T (W x00 x00 x00 x00 x00 x00 x00 x00)
(T (W x45 x26 x22 x84 xe4 x9c xf2 xcb)
(T (W x00 x00 x00 x00 x12 x00 x00 x00)
(L (W xff xff xff xff xff xff xff xff)) E)
(L (W xff xff xff xff xff xff xff xff)))
(T (W xff xff xff xff xff xff xff xff)
(L (W x00 x00 x01 x01 x62 x84 xfe xff))
(L (W x00 x00 x00 x00 x00 x00 x00 x00)))))))))
(T (W xcc x8c xfb xff x00 x01 x01 x01)
(T (W x00 x00 x00 x00 x00 x00 x00 x00)
(T (W xff xff xff xff xff xff xff xff)
(T (W xff xff xff xff xff xff xff xff)
(T (W x00 x00 x80 x3f x00 x00 x80 x3f)
(T (W x00 x00 x00 x00 x00 x00 x00 x00)
(T (W xff xff xff xff xff xff xff xff)
(T (W xff xff xff xff xff xff xff xff)
(L (W x00 x00 x00 x00 x00 x00 x00 x00)) E)
(L (W x4f x84 x6f x8b xe8 xcb x63 xb7)))
(T (W x6c x00 x00 x00 x60 x00 x00 x00)
(L (W xff xff xff xff xff xff xff xff))
(L (W x02 x04 xff xff x74 x00 x00 x00))))
(T (W xc8 x2f x6d x52 x4c xfa xc4 x4d)
(T (W x00 x00 x80 x3f x00 x00 x80 x3f)
(T (W x00 x00 x00 x00 x00 x00 x00 x00)
(L (W xff xff xff xff x8c x00 x00 x00)) E)
(L (W xb8 x05 x00 x00 x88 x04 x00 x00)))
(T (W x00 x00 x80 x3f x00 x00 x80 x3f)
(L (W x54 x00 x00 x00 x48 x00 x00 x00))
(L (W xff xff xff xff xa8 x00 x00 x00)))))
(T (W x00 x00 x80 x3f x00 x00 x80 x3f)
(T (W x00 x00 x00 x00 x00 x00 x00 x00)
(T (W x0a x00 x00 x00 x3e x00 x00 x00)
(T (W x68 x00 x00 x00 x5c x00 x00 x00)
(L (W x1b x00 x00 x00 x10 x00 x00 x00)) E)
(L (W xff xff xff xff xff xff xff xff)))
(T (W xff xff xff xff xff xff xff xff)
(L (W x00 x00 x80 xbf x00 x00 x80 xbf))
(L (W xff xff xff xff xff xff xff xff))))
(T (W xff xff xff xff xff xff xff xff)
(T (W x00 x00 x00 x00 x00 x00 x00 x00)
(T (W xff xff xff xff xff xff xff xff)
(L (W x00 x00 x00 x00 xf2 xfa xff xff)) E)
(L (W x00 x00 x80 xbf x00 x00 x80 xbf)))
(T (W x00 x00 x00 x00 x00 x00 x00 x00)
(L (W x00 x00 x80 xbf x00 x00 x80 xbf))
(L (W xff xff xff xff xff xff xff xff))))))
(T (W x00 x00 x80 x3f x00 x00 x80 x3f)
(T (W x00 x00 x00 x00 x00 x00 x00 x00)
(T (W xb4 x2c xfc xff x3c x00 x00 x00)
(T (W x02 x94 xfc xff x74 x00 x00 x00)
(T (W xb8 x00 x00 x00 xac x00 x00 x00)
(L (W x19 x00 x00 x00 x10 x00 x00 x00)) E)
(L (W x00 x00 x00 x00 x00 x00 x00 x00)))
(T (W x45 x26 x22 x84 xe4 x9c xf2 xcb)
(L (W x00 x00 x80 x3f x00 x00 x80 x3f))
(L (W xff xff xff xff xff xff xff xff))))
(T (W xff xff xff xff xff xff xff xff)
(T (W xff xff xff xff xff xff xff xff)
(T (W x50 x00 x00 x00 x44 x00 x00 x00)
(L (W x45 x26 x22 x84 xe4 x9c xf2 xcb)) E)
(L (W x00 x00 x00 x00 x00 x00 x00 x00)))
(T (W x45 x26 x22 x84 xe4 x9c xf2 xcb)
(L (W x6c x00 x00 x00 x60 x00 x00 x00))
(L (W xc4 x00 x00 x00 x01 x00 x00 x00)))))
(T (W x45 x26 x22 x84 xe4 x9c xf2 xcb)
(T (W x00 x00 x00 x00 x00 x00 x00 x00)
(T (W x26 x00 x00 x00 xff xff xff xff)
(T (W x45 x26 x22 x84 xe4 x9c xf2 xcb)
(L (W x00 x00 x80 xbf x00 x00 x80 xbf)) E)
(L (W xff xff xff xff xff xff xff xff)))
(T (W x00 x00 x00 x00 x00 x00 x00 x00)
(L (W x6c x00 x00 x00 x60 x00 x00 x00))
(L (W x45 x26 x22 x84 xe4 x9c xf2 xcb))))
(T (W xff xff xff xff xff xff xff xff)
(T (W x4f x84 x6f x8b xe8 xcb x63 xb7)
(T (W x18 x00 x00 x00 x10 x00 x00 x00)
(L (W x00 x00 x80 xbf x00 x00 x80 xbf)) E)
(L (W x00 x00 x80 xbf x00 x00 x80 xbf)))
(T (W x00 x00 x80 x3f x00 x00 x80 x3f)
(L (W x00 x00 x80 xbf x00 x00 x80 xbf))
(L (W xff xff xff xff xff xff xff xff)))))))
(T (W xff xff xff xff xff xff xff xff)
(T (W x00 x00 x00 x00 x00 x00 x00 x00)
(T (W x45 x26 x22 x84 xe4 x9c xf2 xcb)
(T (W x00 x00 x00 x00 x00 x00 x00 x00)
(T (W x18 x00 x00 x00 x0c x00 x00 x00)
(T (W xff xff xff xff xff xff xff xff)
(L (W x00 x00 x00 x00 x00 x00 x00 x00)) E)
(L (W x00 x00 x00 x00 x00 x00 x00 x00)))
(T (W x50 x00 x00 x00 x44 x00 x00 x00)
(L (W x00 x00 x00 x00 x00 x00 x00 x00))
(L (W xff xff xff xff xff xff xff xff))))
(T (W x81 x00 x00 x00 xff xff xff xff)
(T (W x18 x00 x00 x00 x0c x00 x00 x00)
(T (W x00 x00 x80 x3f x00 x00 x80 x3f)
(L (W xb2 xcd xff xff x78 x00 x00 x00)) E)
(L (W x00 x00 x00 x00 x12 x00 x00 x00)))
(T (W xcc x50 xfd xff x00 x01 x01 x01)
(L (W x68 x00 x00 x00 x5c x00 x00 x00))
(L (W x68 x00 x00 x00 x5c x00 x00 x00)))))
(T (W x00 x00 x80 x3f x00 x00 x80 x3f)
(T (W x00 x00 x00 x00 x00 x00 x00 x00)
(T (W xff xff xff xff xff xff xff xff)
(T (W x50 x00 x00 x00 x44 x00 x00 x00)
(L (W x00 x00 x80 xbf x00 x00 x80 xbf)) E)
(L (W xff xff xff xff xff xff xff xff)))
(T (W x00 x00 x00 x00 x00 x00 x00 x00)
(L (W xff xff xff xff xff xff xff xff))
(L (W xff xff xff xff xff xff xff xff))))
(T (W xff xff xff xff xff xff xff xff)
(T (W x00 x00 x00 x00 x00 x00 x00 x00)
(T (W x22 x00 x00 x00 x67 x72 x6f x75)
(L (W xff xff xff xff x9c x00 x00 x00)) E)
(L (W x00 x00 x80 xbf x00 x00 x80 xbf)))
(T (W x00 x00 x80 x3f x00 x00 x80 x3f)
(L (W x00 x00 x80 xbf x00 x00 x80 xbf))
(L (W xff xff xff xff xbc x00 x00 x00))))))
(T (W x00 x00 x80 x3f x00 x00 x80 x3f)
(T (W x00 x00 x80 x3f x00 x00 x80 x3f)
(T (W x00 x00 x00 x00 x00 x00 x00 x00)
(T (W x00 x00 x80 x3f x00 x00 x80 x3f)
(T (W xff xff xff xff x03 x00 x00 x00)
(L (W x00 x00 x00 x00 xe2 x9c xff xff)) E)
(L (W x00 x00 x00 x00 x00 x00 x00 x00)))
(T (W xb0 x00 x00 x00 x64 x00 x00 x00)
(L (W xff xff xff xff x9c x00 x00 x00))
(L (W xff xff xff xff xff xff xff xff))))
(T (W xff xff xff xff xff xff xff xff)
(T (W x2c x01 x00 x00 x04 x00 x00 x00)
(T (W x50 x00 x00 x00 x44 x00 x00 x00)
(L (W x00 x00 x80 xbf x00 x00 x80 xbf)) E)
(L (W x00 x00 x00 x00 x00 x00 x00 x00)))
(T (W xff xff xff xff xff xff xff xff)
(L (W x00 x00 x80 xbf x00 x00 x80 xbf))
(L (W xff xff xff xff xff xff xff xff)))))
(T (W x45 x26 x22 x84 xe4 x9c xf2 xcb)
(T (W x00 x00 x00 x00 x00 x00 x00 x00)
(T (W x00 x00 x00 x00 x00 x00 x00 x00)
(T (W x00 x00 x00 x00 x00 x00 x00 x00)
(L (W x5c x00 x00 x00 x50 x00 x00 x00)) E)
(L (W xff xff xff xff xff xff xff xff)))
(T (W x00 x00 x00 x00 x00 x00 x00 x00)
(L (W x00 x00 x80 xbf x00 x00 x80 xbf))
(L (W x00 x00 x00 x00 x0c x00 x08 x00))))
(T (W xff xff xff xff x03 x00 x00 x00)
(T (W x00 x00 x80 x3f x00 x00 x80 x3f)
(T (W x52 x00 x00 x00 xff xff xff xff)
(L (W x00 x00 x0c x00 x10 x00 x14 x00)) E)
(L (W x00 x00 x80 xbf x00 x00 x80 xbf)))
(T (W x50 x00 x00 x00 x44 x00 x00 x00)
(L (W x00 x00 x00 x00 x00 x00 x00 x00))
(L (W x45 x44 x00 x00 x00 x00 x00 x00))))))))
(T (W x3e x00 x00 x00 x0c x00 x00 x00)
(T (W x00 x00 x80 x3f x00 x00 x80 x3f)
(T (W xc0 x00 x00 x00 xb4 x00 x00 x00)
(T (W xff xff xff xff xff xff xff xff)
(T (W xff xff xff xff xff xff xff xff)
(T (W x00 x00 x00 x00 x00 x00 x00 x00)
(T (W x00 x00 x80 x3f x00 x00 x80 x3f)
(L (W x50 x00 x00 x00 x44 x00 x00 x00)) E)
(L (W xbc x00 x00 x00 x02 x00 x00 x00)))
(T (W x00 x00 x00 x00 x04 x00 x00 x00)
(L (W xcc x0c xfe xff x00 x01 x01 x01))
(L (W x46 x53 x59 x53 x5f x4e x53 x5f))))
(T (W x68 x00 x00 x00 x5c x00 x00 x00)
(T (W x00 x00 x00 x00 x00 x00 x00 x00)
(T (W x02 xe6 xff xff x00 x00 x01 x01)
(L (W x00 x00 x00 x00 x00 x00 x00 x00)) E)
(L (W x54 x00 x00 x00 x48 x00 x00 x00)))
(T (W x00 x00 x00 x00 x00 x00 x00 x00)
(L (W xff xff xff xff xff xff xff xff))
(L (W x8f x9e xaa x28 xbf xcf x56 x6a)))))
(T (W xff xff xff xff xff xff xff xff)
(T (W x45 x26 x22 x84 xe4 x9c xf2 xcb)
(T (W x00 x00 x00 x00 x00 x00 x00 x00)
(T (W x00 x00 x00 x00 x00 x00 x00 x00)
(L (W x02 xa8 xff xff x74 x00 x00 x00)) E)
(L (W x45 x26 x22 x84 xe4 x9c xf2 xcb)))
(T (W x54 x00 x00 x00 x48 x00 x00 x00)
(L (W x00 x00 x00 x00 x00 x00 x00 x00))
(L (W x00 x00 x80 xbf x00 x00 x80 xbf))))
(T (W x45 x26 x22 x84 xe4 x9c xf2 xcb)
(T (W x03 x00 x00 x00 xd8 x00 x00 x00)
(T (W xe0 x00 x00 x00 xff xff xff xff)
(L (W xff xff xff xff xff xff xff xff)) E)
(L (W x00 x00 x00 x00 xf2 xfe xfe xff)))
(T (W x03 x00 x00 x00 xd0 x00 x00 x00)
(L (W xff xff xff xff xff xff xff xff))
(L (W x00 x00 x00 x00 x00 x00 x00 x00))))))
(T (W x02 xd6 xfd xff x00 x00 x01 x01)
(T (W xff xff xff xff xff xff xff xff)
(T (W x45 x26 x22 x84 xe4 x9c xf2 xcb)
(T (W x00 x00 x00 x00 x00 x00 x00 x00)
(T (W x00 x00 x00 x00 x00 x00 x00 x00)
(L (W x02 x98 xff xff x74 x00 x00 x00)) E)
(L (W x29 x00 x00 x00 x2c x00 x00 x00)))
(T (W x00 x00 x00 x00 x00 x00 x00 x00)
(L (W x00 x00 x01 x01 x37 x00 x00 x00))
(L (W x02 x18 xff xff x74 x00 x00 x00))))
(T (W x00 x00 x80 x3f x00 x00 x80 x3f)
(T (W x00 x00 x80 x3f x00 x00 x80 x3f)
(T (W x00 x00 x00 x00 x00 x00 x00 x00)
(L (W x6b x01 x00 x00 xff xff xff xff)) E)
(L (W x18 x00 x00 x00 x10 x00 x00 x00)))
(T (W x00 x00 x00 x00 x00 x00 x00 x00)
(L (W xff xff xff xff xff xff xff xff))
(L (W x45 x26 x22 x84 xe4 x9c xf2 xcb)))))
(T (W x64 x00 x00 x00 x9c x00 x00 x00)
(T (W x00 x00 x80 x3f x00 x00 x80 x3f)
(T (W x00 x00 x00 x00 x00 x00 x00 x00)
(T (W x45 x26 x22 x84 xe4 x9c xf2 xcb)
(L (W x45 x44 x00 x00 x00 x00 x00 x00)) E)
(L (W x00 x00 x80 xbf x00 x00 x80 xbf)))
(T (W xff xff xff xff x9c x00 x00 x00)
(L (W x02 x58 xfe xff x0b x01 x00 x00))
(L (W x17 x00 x00 x00 x0c x00 x00 x00))))
(T (W x00 x00 x00 x00 x00 x00 x00 x00)
(T (W xff xff xff xff xff xff xff xff)
(T (W x54 x41 x52 x54 x5f x56 x4f x4c)
(L (W xff xff xff xff xff xff xff xff)) E)
(L (W x30 x33 x5f x43 x4c x45 x41 x52)))
(T (W x54 x02 x00 x00 x34 x01 x00 x00)
(L (W xff xff xff xff xff xff xff xff))
(L (W x00 x00 x00 x00 x00 x00 x00 x00)))))))
(T (W x02 xbe xfd xff x00 x00 x01 x01)
(T (W xc4 x01 x00 x00 xff xff xff xff)
(T (W xff xff xff xff xff xff xff xff)
(T (W xff xff xff xff xff xff xff xff)
(T (W x00 x00 x00 x00 x00 x00 x00 x00)
(T (W x00 x00 x00 x00 x00 x00 x00 x00)
(L (W xcc x94 xff xff x00 x01 x01 x01)) E)
(L (W xff xff xff xff xc4 x00 x00 x00)))
(T (W x45 x44 x00 x00 x00 x00 x00 x00)
(L (W x2a x00 x00 x00 x2d x00 x00 x00))
(L (W x00 x00 x80 xbf x00 x00 x80 xbf))))
(T (W x02 x50 xfc xff x74 x00 x00 x00)
(T (W x00 x00 x00 x00 x00 x00 x00 x00)
(T (W x00 x00 x00 x00 x00 x00 x00 x00)
(L (W xff xff xff xff xff xff xff xff)) E)
(L (W x02 xd0 xfe xff x74 x00 x00 x00)))
(T (W xb4 x68 xfd xff x10 x00 x00 x00)
(L (W x8d x01 x00 x00 xff xff xff xff))
(L (W x30 x33 x5f x43 x4c x45 x41 x52)))))
(T (W xff xff xff xff xff xff xff xff)
(T (W x68 x00 x00 x00 x5c x00 x00 x00)
(T (W xb4 xc8 xfc xff x3e x00 x00 x00)
(T (W x64 x01 x00 x00 xff xff xff xff)
(L (W xff xff xff xff xff xff xff xff)) E)
(L (W x49 xa1 x68 x4a xeb x5f xdd x3d)))
(T (W x18 x00 x00 x00 x0c x00 x00 x00)
(L (W xff xff xff xff xff xff xff xff))
(L (W x00 x00 x00 x00 x00 x00 x00 x00))))
(T (W x00 x00 x00 x00 x00 x00 x00 x00)
(T (W xff xff xff xff xbc x00 x00 x00)
(T (W xff xff xff xff xff xff xff xff)
(L (W x25 x00 x00 x00 x28 x00 x00 x00)) E)
(L (W x00 x00 x00 x00 x00 x00 x00 x00)))
(T (W xff xff xff xff xff xff xff xff)
(L (W xff xff xff xff xff xff xff xff))
(L (W x00 x00 x80 xbf x00 x00 x80 xbf))))))
(T (W xff xff xff xff xff xff xff xff)
(T (W x8e x01 x00 x00 xff xff xff xff)
(T (W x01 x00 x00 x00 xa0 x00 x00 x00)
(T (W x00 x00 x00 x00 x00 x00 x00 x00)
(T (W x00 x00 x00 x00 x00 x00 x00 x00)
(L (W xb2 xa1 xff xff x78 x00 x00 x00)) E)
(L (W x00 x00 x80 xbf x00 x00 x80 xbf)))
(T (W x49 xa1 x68 x4a xeb x5f xdd x3d)
(L (W x03 x00 x00 x00 xbc x00 x00 x00))
(L (W x49 xa1 x68 x4a xeb x5f xdd x3d))))
(T (W x00 x00 x80 x3f x00 x00 x80 x3f)
(T (W x68 x00 x00 x00 x5c x00 x00 x00)
(T (W x00 x00 x80 x3f x00 x00 x80 x3f)
(L (W x74 x00 x04 x00 x68 x00 x08 x00)) E)
(L (W xff xff xff xff xff xff xff xff)))
(T (W x45 x26 x22 x84 xe4 x9c xf2 xcb)
(L (W xaa x01 x00 x00 xff xff xff xff))
(L (W x00 x00 x80 xbf x00 x00 x80 xbf)))))
(T (W xff xff xff xff x03 x00 x00 x00)
(T (W x50 x00 x00 x00 x44 x00 x00 x00)
(T (W xff xff xff xff xff xff xff xff)
(T (W x45 x26 x22 x84 xe4 x9c xf2 xcb)
(L (W xff xff xff xff xff xff xff xff)) E)
(L (W x00 x00 x80 xbf x00 x00 x80 xbf)))
(T (W xff xff xff xff xff xff xff xff)
(L (W xff xff xff xff xff xff xff xff))
(L (W x00 x00 x00 x00 x00 x00 x00 x00))))
(T (W x00 x00 x00 x00 x00 x00 x00 x00)
(T (W x00 x00 x00 x00 xf2 x16 xfd xff)
(T (W xc4 x00 x00 x00 x01 x00 x00 x00)
(L (W x58 x00 x48 x00 x50 x00 x04 x00)) E)
(L (W x00 x00 x00 x00 x00 x00 x00 x00)))
(T (W x00 x00 x00 x00 x00 x00 x00 x00)
(L (W xa8 x00 x00 x00 x64 x00 x00 x00))
(L (W xb2 x81 xff xff x78 x00 x00 x00))))))))))
(T (W x08 x75 x01 x00 x64 x70 x01 x00)
(T (W xa8 x3f x00 x00 x5c x3d x00 x00)
(T (W x04 x00 x00 x00 x98 x03 x00 x00)
(T (W x00 x00 x80 x3f x00 x00 x80 x3f)
(T (W xff xff xff xff xff xff xff xff)
(T (W x00 x00 x00 x00 x00 x00 x00 x00)
(T (W xb4 x1b xfc xff x29 x00 x00 x00)
(T (W x02 x83 xfc xff x74 x00 x00 x00)
(T (W xb8 x00 x00 x00 xac x00 x00 x00)
(L (W x00 x00 x00 x00 xe2 x83 xff xff)) E)
(L (W x00 x00 x00 x00 x00 x00 x00 x00)))
(T (W x45 x26 x22 x84 xe4 x9c xf2 xcb)
(L (W x00 x00 x80 x3f x00 x00 x80 x3f))
(L (W x00 x00 x80 xbf x00 x00 x80 xbf))))
(T (W xff xff xff xff xff xff xff xff)
(T (W x49 xa1 x68 x4a xeb x5f xdd x3d)
(T (W x00 x00 x00 x00 x02 x00 x00 x00)
(L (W x00 x00 x00 x00 xd0 xc7 xff xff)) E)
(L (W xff xff xff xff xff xff xff xff)))
(T (W x49 xa1 x68 x4a xeb x5f xdd x3d)
(L (W x45 x26 x22 x84 xe4 x9c xf2 xcb))
(L (W x00 x00 x80 xbf x00 x00 x80 xbf)))))
(T (W x00 x00 x80 x3f x00 x00 x80 x3f)
(T (W x00 x00 x00 x00 x00 x00 x00 x00)
(T (W x45 x26 x22 x84 xe4 x9c xf2 xcb)
(T (W x50 x00 x00 x00 x44 x00 x00 x00)
(L (W xff xff xff xff xff xff xff xff)) E)
(L (W xff xff xff xff xbc x00 x00 x00)))
(T (W xff xff xff xff xff xff xff xff)
(L (W x00 x00 x00 x00 x00 x00 x00 x00))
(L (W x14 x00 x00 x00 x0c x00 x00 x00))))
(T (W xff xff xff xff xff xff xff xff)
(T (W x00 x00 x00 x00 x04 x00 x00 x00)
(T (W x00 x00 x80 x3f x00 x00 x80 x3f)
(L (W xff xff xff xff xff xff xff xff)) E)
(L (W x00 x00 x00 x00 x00 x00 x00 x00)))
(T (W xff xff xff xff xff xff xff xff)
(L (W x45 x26 x22 x84 xe4 x9c xf2 xcb))
(L (W xff xff xff xff xff xff xff xff))))))
(T (W x00 x00 x80 x3f x00 x00 x80 x3f)
(T (W x00 x00 x00 x00 x00 x00 x00 x00)
(T (W xff xff xff xff xff xff xff xff)
(T (W x00 x00 x80 x3f x00 x00 x80 x3f)
(T (W x01 x00 x00 x00 x9c x00 x00 x00)
(L (W xff xff xff xff xff xff xff xff)) E)
(L (W x00 x00 x00 x00 x00 x00 x00 x00)))
(T (W x02 x13 xfd xff x74 x00 x00 x00)
(L (W x00 x00 x80 x3f x00 x00 x80 x3f))
(L (W xff xff xff xff xff xff xff xff))))
(T (W xb8 x00 x00 x00 xac x00 x00 x00)
(T (W xff xff xff xff xb0 x00 x00 x00)
(T (W x45 x26 x22 x84 xe4 x9c xf2 xcb)
(L (W x54 x00 x00 x00 x48 x00 x00 x00)) E)
(L (W x30 x33 x5f x43 x4c x45 x41 x52)))
(T (W x50 x00 x00 x00 x44 x00 x00 x00)
(L (W x00 x00 x00 x00 x00 x00 x00 x00))
(L (W x50 x00 x00 x00 x44 x00 x00 x00)))))
(T (W x00 x00 x00 x00 x00 x00 x00 x00)
(T (W xd4 x01 x00 x00 xff xff xff xff)
(T (W xb2 xb4 xfc xff x78 x00 x00 x00)
(T (W x45 x26 x22 x84 xe4 x9c xf2 xcb)
(L (W x00 x00 x00 x00 x00 x00 x00 x00)) E)
(L (W xff xff xff xff xff xff xff xff)))
(T (W xd2 x3c xfd xff x9c x01 x00 x00)
(L (W x00 x00 x80 xbf x00 x00 x80 xbf))
(L (W x45 x26 x22 x84 xe4 x9c xf2 xcb))))
(T (W x18 x00 x00 x00 x10 x00 x00 x00)
(T (W x00 x00 x00 x00 x00 x00 x00 x00)
(T (W x32 x00 x00 x00 x10 x00 x00 x00)
(L (W x00 x00 x80 xbf x00 x00 x80 xbf)) E)
(L (W x00 x00 x80 xbf x00 x00 x80 xbf)))
(T (W x00 x00 x00 x00 x00 x00 x00 x00)
(L (W x45 x26 x22 x84 xe4 x9c xf2 xcb))
(L (W xff xff xff xff xff xff xff xff)))))))
(T (W x54 x00 x00 x00 x48 x00 x00 x00)
(T (W x00 x00 x00 x00 x00 x00 x00 x00)
(T (W x00 x00 x00 x00 x00 x00 x00 x00)
(T (W x01 x00 x00 x00 x04 x00 x00 x00)
(T (W x00 x00 x80 x3f x00 x00 x80 x3f)
(T (W xb8 x00 x00 x00 xac x00 x00 x00)
(L (W xff xff xff xff xff xff xff xff)) E)
(L (W x45 x44 x00 x00 x00 x00 x00 x00)))
(T (W x00 x00 x80 x3f x00 x00 x80 x3f)
(L (W x30 x33 x5f x43 x4c x45 x41 x52))
(L (W x02 x0b xff xff x74 x00 x00 x00))))
(T (W xff xff xff xff xff xff xff xff)
(T (W x00 x00 x80 x3f x00 x00 x80 x3f)
(T (W x45 x26 x22 x84 xe4 x9c xf2 xcb)
(L (W x50 x00 x00 x00 x44 x00 x00 x00)) E)
(L (W x34 x01 x00 x00 x04 x00 x00 x00)))
(T (W x00 x00 x80 x3f x00 x00 x80 x3f)
(L (W x00 x00 x80 xbf x00 x00 x80 xbf))
(L (W x00 x00 x80 xbf x00 x00 x80 xbf)))))
(T (W x00 x00 x00 x00 x00 x00 x00 x00)
(T (W x44 x00 x70 x4f x4b x24 x03 x13)
(T (W x68 x00 x00 x00 x5c x00 x00 x00)
(T (W x45 x26 x22 x84 xe4 x9c xf2 xcb)
(L (W x45 x26 x22 x84 xe4 x9c xf2 xcb)) E)
(L (W xff xff xff xff xff xff xff xff)))
(T (W xff xff xff xff xff xff xff xff)
(L (W xff xff xff xff x9c x00 x00 x00))
(L (W x18 x00 x00 x00 x0c x00 x00 x00))))
(T (W xff xff xff xff xff xff xff xff)
(T (W x45 x44 x00 x00 x00 x00 x00 x00)
(T (W xff xff xff xff xff xff xff xff)
(L (W xb2 xec xff xff x78 x00 x00 x00)) E)
(L (W x45 x26 x22 x84 xe4 x9c xf2 xcb)))
(T (W x00 x00 x00 x00 x00 x00 x00 x00)
(L (W x4f x84 x6f x8b xe8 xcb x63 xb7))
(L (W x45 x26 x22 x84 xe4 x9c xf2 xcb))))))
(T (W x00 x00 x80 x3f x00 x00 x80 x3f)
(T (W x45 x26 x22 x84 xe4 x9c xf2 xcb)
(T (W x02 x39 xfe xff x00 x00 x01 x01)
(T (W x00 x00 x80 x3f x00 x00 x80 x3f)
(T (W x68 x00 x00 x00 x5c x00 x00 x00)
(L (W xff xff xff xff xff xff xff xff)) E)
(L (W x00 x00 x00 x00 x00 x00 x00 x00)))
(T (W xcc x1f xfd xff x00 x01 x01 x01)
(L (W x00 x00 x80 xbf x00 x00 x80 xbf))
(L (W xff xff xff xff xff xff xff xff))))
(T (W xff xff xff xff xff xff xff xff)
(T (W xff xff xff xff xff xff xff xff)
(T (W x00 x00 x80 x3f x00 x00 x80 x3f)
(L (W x00 x00 x80 xbf x00 x00 x80 xbf)) E)
(L (W x00 x00 x00 x00 x00 x00 x00 x00)))
(T (W x1f x00 x00 x00 x22 x00 x00 x00)
(L (W x4f x84 x6f x8b xe8 xcb x63 xb7))
(L (W x03 x00 x00 x00 xd8 x00 x00 x00)))))
(T (W x00 x00 x00 x00 x00 x00 x00 x00)
(T (W x02 x59 xfe xff x00 x00 x01 x01)
(T (W xff xff xff xff xff xff xff xff)
(T (W x00 x00 x00 x00 x00 x00 x00 x00)
(L (W x00 x00 x80 xbf x00 x00 x80 xbf)) E)
(L (W xff xff xff xff xff xff xff xff)))
(T (W x00 x00 x00 x00 x00 x00 x00 x00)
(L (W x00 x00 x80 xbf x00 x00 x80 xbf))
(L (W x00 x00 x80 xbf x00 x00 x80 xbf))))
(T (W x01 x00 x00 x00 xa0 x00 x00 x00)
(T (W x49 xa1 x68 x4a xeb x5f xdd x3d)
(T (W xff xff xff xff xff xff xff xff)
(L (W x03 x00 x00 x00 xe8 x00 x00 x00)) E)
(L (W x00 x00 x80 xbf x00 x00 x80 xbf)))
(T (W x00 x00 x80 x3f x00 x00 x80 x3f)
(L (W x00 x00 x00 x00 x00 x00 x00 x00))
(L (W xff xff xff xff xff xff xff xff))))))))
(T (W x45 x26 x22 x84 xe4 x9c xf2 xcb)
(T (W x45 x26 x22 x84 xe4 x9c xf2 xcb)
(T (W x45 x26 x22 x84 xe4 x9c xf2 xcb)
(T (W xff xff xff xff xff xff xff xff)
(T (W x01 x00 x00 x00 x3e x00 x00 x00)
(T (W x00 x00 x00 x00 x00 x00 x00 x00)
(T (W x00 x00 x00 x00 x00 x00 x00 x00)
(L (W x00 x00 x80 xbf x00 x00 x80 xbf)) E)
(L (W x50 x00 x00 x00 x44 x00 x00 x00)))
(T (W xff xff xff xff xff xff xff xff)
(L (W x45 x26 x22 x84 xe4 x9c xf2 xcb))
(L (W x7a x1f xff xff x48 x00 x00 x00))))
(T (W x00 x00 x80 x3f x00 x00 x80 x3f)
(T (W xff xff xff xff xff xff xff xff)
(T (W x00 x00 x00 x00 x3c xca xfd xff)
(L (W xe4 x07 x00 x00 xb4 x06 x00 x00)) E)
(L (W x00 x00 x80 xbf x00 x00 x80 xbf)))
(T (W xff xff xff xff xff xff xff xff)
(L (W xff xff xff xff xff xff xff xff))
(L (W xff xff xff xff xff xff xff xff)))))
(T (W x64 x00 x00 x00 x9c x00 x00 x00)
(T (W x00 x00 x80 x3f x00 x00 x80 x3f)
(T (W x01 x00 x00 x00 x04 x00 x00 x00)
(T (W x89 x01 x00 x00 xff xff xff xff)
(L (W x00 x00 x80 xbf x00 x00 x80 xbf)) E)
(L (W x00 x00 x00 x00 x12 x00 x00 x00)))
(T (W x00 x00 x80 x3f x00 x00 x80 x3f)
(L (W x04 x00 x00 x00 xf2 xf9 xff xff))
(L (W x4f x84 x6f x8b xe8 xcb x63 xb7))))
(T (W x00 x00 x00 x00 x00 x00 x00 x00)
(T (W x50 x00 x00 x00 x44 x00 x00 x00)
(T (W xff xff xff xff xff xff xff xff)
(L (W x45 x26 x22 x84 xe4 x9c xf2 xcb)) E)
(L (W xff xff xff xff xff xff xff xff)))
(T (W x00 x00 x80 x3f x00 x00 x80 x3f)
(L (W xff xff xff xff x94 x00 x00 x00))
(L (W x00 x00 x00 x00 x00 x00 x00 x00))))))
(T (W xff xff xff xff xff xff xff xff)
(T (W xff xff xff xff xff xff xff xff)
(T (W xb2 x18 xfc xff x78 x00 x00 x00)
(T (W x00 x00 x00 x00 x6a xe3 xff xff)
(T (W x00 x00 x00 x00 x00 x00 x00 x00)
(L (W x00 x00 x80 xbf x00 x00 x80 xbf)) E)
(L (W x00 x00 x80 xbf x00 x00 x80 xbf)))
(T (W x30 x33 x5f x43 x4c x45 x41 x52)
(L (W xff xff xff xff xff xff xff xff))
(L (W x00 x00 x80 xbf x00 x00 x80 xbf))))
(T (W x00 x00 x80 x3f x00 x00 x80 x3f)
(T (W x00 x00 x00 x00 x00 x00 x00 x00)
(T (W x92 xf3 xff xff x49 x00 x00 x00)
(L (W xff xff xff xff xff xff xff xff)) E)
(L (W x50 x00 x00 x00 x44 x00 x00 x00)))
(T (W x00 x00 x00 x00 x00 x00 x00 x00)
(L (W xff xff xff xff xff xff xff xff))
(L (W x00 x00 x00 x00 x00 x00 x00 x00)))))
(T (W x18 x00 x00 x00 x0c x00 x00 x00)
(T (W x00 x00 x80 x3f x00 x00 x80 x3f)
(T (W x00 x00 x00 x00 x00 x00 x5c x00)
(T (W x5f x77 x69 x6c x64 x5f x70 x6f)
(L (W xff xff xff xff xff xff xff xff)) E)
(L (W x00 x00 x00 x00 x00 x00 x00 x00)))
(T (W x02 x37 xfd xff x74 x00 x00 x00)
(L (W x0d x01 x00 x00 xff xff xff xff))
(L (W xff xff xff xff xff xff xff xff))))
(T (W x00 x00 x00 x00 x00 x00 x00 x00)
(T (W xff xff xff xff xff xff xff xff)
(T (W x62 x00 x00 x00 x01 x01 x01 x01)
(L (W x00 x00 x00 x00 x3c xfa xff xff)) E)
(L (W xff xff xff xff xff xff xff xff)))
(T (W xff xff xff xff xff xff xff xff)
(L (W xff xff xff xff xbc x00 x00 x00))
(L (W x45 x44 x00 x00 x00 x00 x00 x00)))))))
(T (W xd8 x00 x00 x00 xb4 x00 x00 x00)
(T (W xff xff xff xff xff xff xff xff)
(T (W xb8 x00 x00 x00 xac x00 x00 x00)
(T (W x68 x00 x00 x00 x5c x00 x00 x00)
(T (W x3e x00 x00 x00 x10 x00 x00 x00)
(T (W x00 x00 x00 x00 x00 x00 x00 x00)
(L (W x00 x00 x80 xbf x00 x00 x80 xbf)) E)
(L (W x45 x26 x22 x84 xe4 x9c xf2 xcb)))
(T (W xff xff xff xff xff xff xff xff)
(L (W xb2 x10 xfe xff x78 x00 x00 x00))
(L (W x00 x00 x00 x00 x00 x00 x00 x00))))
(T (W x45 x26 x22 x84 xe4 x9c xf2 xcb)
(T (W x45 x44 x00 x00 x00 x00 x00 x00)
(T (W x72 x00 x00 x00 xff xff xff xff)
(L (W xff xff xff xff xff xff xff xff)) E)
(L (W x00 x00 x80 xbf x00 x00 x80 xbf)))
(T (W xff xff xff xff xff xff xff xff)
(L (W xff xff xff xff xff xff xff xff))
(L (W x9a x51 xff xff xa9 x01 x00 x00)))))
(T (W x00 x00 x00 x00 x3c xf2 xfb xff)
(T (W x00 x00 x80 x3f x00 x00 x80 x3f)
(T (W xff xff xff xff xff xff xff xff)
(T (W xff xff xff xff xff xff xff xff)
(L (W xff xff xff xff x9c x00 x00 x00)) E)
(L (W x00 x00 x00 x00 x00 x00 x00 x00)))
(T (W x00 x00 x80 x3f x00 x00 x80 x3f)
(L (W xc0 x00 x00 x00 x64 x00 x00 x00))
(L (W x00 x00 x00 x00 x00 x00 x00 x00))))
(T (W x00 x00 x00 x00 x00 x00 x00 x00)
(T (W x45 x26 x22 x84 xe4 x9c xf2 xcb)
(T (W x00 x00 x00 x00 x00 x00 x00 x00)
(L (W x00 x00 x00 x00 x00 x00 x00 x00)) E)
(L (W xaa x01 x00 x00 xff xff xff xff)))
(T (W xff xff xff xff xff xff xff xff)
(L (W xff xff xff xff xb0 x00 x00 x00))
(L (W x00 x00 x00 x00 x00 x00 x00 x00))))))
(T (W xb8 x00 x00 x00 xac x00 x00 x00)
(T (W xff xff xff xff xff xff xff xff)
(T (W x00 x00 x80 x3f x00 x00 x80 x3f)
(T (W xe7 x61 xfd xe5 x8a x04 xe3 x9e)
(T (W x00 x00 x00 x00 x00 x00 x00 x00)
(L (W x50 x00 x00 x00 x44 x00 x00 x00)) E)
(L (W x00 x00 x00 x00 x00 x00 x00 x00)))
(T (W x00 x00 x00 x00 x00 x00 x00 x00)
(L (W x68 x00 x00 x00 x5c x00 x00 x00))
(L (W x00 x00 x00 x00 x00 x00 x00 x00))))
(T (W x00 x00 x00 x00 x00 x00 x00 x00)
(T (W x00 x00 x80 x3f x00 x00 x80 x3f)
(T (W x00 x00 x14 x00 x18 x00 x1c x00)
(L (W xff xff xff xff xbc x00 x00 x00)) E)
(L (W xff xff xff xff x9c x00 x00 x00)))
(T (W x00 x00 x00 x00 x00 x00 x00 x00)
(L (W xff xff xff xff xff xff xff xff))
(L (W x00 x00 x00 x00 x00 x00 x00 x00)))))
(T (W x23 x00 x00 x00 x9c x00 x00 x00)
(T (W x00 x00 x80 x3f x00 x00 x80 x3f)
(T (W xb0 x00 x00 x00 x64 x00 x00 x00)
(T (W xb2 xc0 xfd xff x78 x00 x00 x00)
(L (W xff xff xff xff xff xff xff xff)) E)
(L (W x00 x00 x80 xbf x00 x00 x80 xbf)))
(T (W xff xff xff xff xc8 x00 x00 x00)
(L (W xff xff xff xff xff xff xff xff))
(L (W xff xff xff xff xff xff xff xff))))
(T (W x00 x00 x00 x00 x00 x00 x00 x00)
(T (W xff xff xff xff xff xff xff xff)
(T (W x00 x00 x00 x00 x00 x00 x00 x00)
(L (W x30 x33 x5f x43 x4c x45 x41 x52)) E)
(L (W x00 x00 x00 x00 x00 x00 x00 x00)))
(T (W x00 x00 x00 x00 x9a x9e xff xff)
(L (W x00 x00 x00 x00 xd0 x83 xfe xff))
(L (W x00 x00 x80 xbf x00 x00 x80 xbf)))))))))
(T (W x18 x00 x00 x00 x0c x00 x00 x00)
(T (W x00 x00 x00 x00 x00 x00 x00 x00)
(T (W x70 x5f x6c x65 x61 x64 x65 x72)
(T (W x5c xad xfb xff x3e x00 x00 x00)
(T (W xb2 xc6 xfb xff x78 x00 x00 x00)
(T (W x00 x00 x80 x3f x00 x00 x80 x3f)
(T (W xff xff xff xff xff xff xff xff)
(T (W x5c x8d xfd xff x2a x00 x00 x00)
(L (W x4f x84 x6f x8b xe8 xcb x63 xb7)) E)
(L (W x00 x00 x80 xbf x00 x00 x80 xbf)))
(T (W xff xff xff xff x9c x00 x00 x00)
(L (W x61 x64 x65 x72 x5f x77 x69 x6c))
(L (W x18 x00 x00 x00 x0c x00 x00 x00))))
(T (W x00 x00 x00 x00 x00 x00 x00 x00)
(T (W x45 x26 x22 x84 xe4 x9c xf2 xcb)
(T (W x00 x00 x00 x00 x00 x00 x00 x00)
(L (W xff xff xff xff xb0 x00 x00 x00)) E)
(L (W x00 x00 x00 x00 x00 x00 x00 x00)))
(T (W x68 x00 x00 x00 x5c x00 x00 x00)
(L (W x38 x48 xfe xff x62 x4b xfe xff))
(L (W xff xff xff xff xff xff xff xff)))))
(T (W x00 x00 x80 x3f x00 x00 x80 x3f)
(T (W x00 x00 x00 x00 x00 x00 x00 x00)
(T (W xff xff xff xff xff xff xff xff)
(T (W xff xff xff xff x03 x00 x00 x00)
(L (W x00 x00 x00 x00 x00 x00 x00 x00)) E)
(L (W xff xff xff xff xff xff xff xff)))
(T (W x00 x00 x00 x00 x00 x00 x00 x00)
(L (W x45 x26 x22 x84 xe4 x9c xf2 xcb))
(L (W xff xff xff xff xff xff xff xff))))
(T (W xff xff xff xff xff xff xff xff)
(T (W x00 x00 x80 x3f x00 x00 x80 x3f)
(T (W x00 x00 x62 x00 x88 x00 x08 x00)
(L (W x00 x00 x00 x00 x00 x00 x00 x00)) E)
(L (W x00 x00 x80 xbf x00 x00 x80 xbf)))
(T (W x00 x00 x00 x00 x00 x00 x00 x00)
(L (W x58 x00 x00 x00 x4c x00 x00 x00))
(L (W xff xff xff xff xff xff xff xff))))))
(T (W x00 x00 x80 x3f x00 x00 x80 x3f)
(T (W x00 x00 x80 x3f x00 x00 x80 x3f)
(T (W x00 x00 x00 x00 x00 x00 x00 x00)
(T (W xff xff xff xff x04 x00 x00 x00)
(T (W xff xff xff xff xff xff xff xff)
(L (W x00 x00 x00 x00 x00 x00 x00 x00)) E)
(L (W x45 x26 x22 x84 xe4 x9c xf2 xcb)))
(T (W xff xff xff xff xbc x00 x00 x00)
(L (W x00 x00 x00 x00 x3c x18 xfe xff))
(L (W x89 x01 x00 x00 xff xff xff xff))))
(T (W xc1 x35 x16 x85 xeb x4c xba x96)
(T (W x9a xd7 xfc xff x4b x00 x00 x00)
(T (W x68 x00 x00 x00 x5c x00 x00 x00)
(L (W x18 x00 x00 x00 x0c x00 x00 x00)) E)
(L (W x4f x84 x6f x8b xe8 xcb x63 xb7)))
(T (W xff xff xff xff xff xff xff xff)
(L (W xff xff xff xff x9c x00 x00 x00))
(L (W xff xff xff xff xff xff xff xff)))))
(T (W x68 x00 x00 x00 x5c x00 x00 x00)
(T (W x45 x26 x22 x84 xe4 x9c xf2 xcb)
(T (W x00 x00 x00 x00 x00 x00 x00 x00)
(T (W x50 x00 x00 x00 x44 x00 x00 x00)
(L (W x74 x00 x00 x00 x68 x00 x00 x00)) E)
(L (W x00 x00 x00 x00 x00 x00 x00 x00)))
(T (W x00 x00 x80 x3f x00 x00 x80 x3f)
(L (W x18 x00 x00 x00 x10 x00 x00 x00))
(L (W xff xff xff xff xbc x00 x00 x00))))
(T (W xff xff xff xff xff xff xff xff)
(T (W x00 x00 x80 x3f x00 x00 x80 x3f)
(T (W x05 x00 x06 x00 x07 x00 x00 x00)
(L (W x00 x00 x60 x00 x00 x00 x00 x00)) E)
(L (W xb2 xf6 xfe xff x78 x00 x00 x00)))
(T (W x45 x26 x22 x84 xe4 x9c xf2 xcb)
(L (W x68 x00 x00 x00 x5c x00 x00 x00))
(L (W xff xff xff xff xff xff xff xff)))))))
(T (W x70 x5f x6c x65 x61 x64 x65 x72)
(T (W x68 x00 x00 x00 x5c x00 x00 x00)
(T (W x00 x00 x80 x3f x00 x00 x80 x3f)
(T (W x45 x26 x22 x84 xe4 x9c xf2 xcb)
(T (W xff xff xff xff xff xff xff xff)
(T (W xff xff xff xff xff xff xff xff)
(L (W x00 x00 x00 x00 x00 x00 x00 x00)) E)
(L (W x00 x00 x00 x00 x00 x00 x00 x00)))
(T (W x03 x00 x00 x00 xd8 x00 x00 x00)
(L (W x49 xa1 x68 x4a xeb x5f xdd x3d))
(L (W xff xff xff xff xff xff xff xff))))
(T (W x00 x00 x00 x00 x00 x00 x00 x00)
(T (W xff xff xff xff xff xff xff xff)
(T (W xff xff xff xff x03 x00 x00 x00)
(L (W xff xff xff xff x9c x00 x00 x00)) E)
(L (W x45 x26 x22 x84 xe4 x9c xf2 xcb)))
(T (W xbc x00 x00 x00 x14 x00 x00 x00)
(L (W x45 x26 x22 x84 xe4 x9c xf2 xcb))
(L (W xff xff xff xff xff xff xff xff)))))
(T (W x50 x00 x00 x00 x44 x00 x00 x00)
(T (W x45 x26 x22 x84 xe4 x9c xf2 xcb)
(T (W xff xff xff xff xff xff xff xff)
(T (W x68 x00 x00 x00 x5c x00 x00 x00)
(L (W x00 x00 x80 xbf x00 x00 x80 xbf)) E)
(L (W xff xff xff xff xff xff xff xff)))
(T (W x00 x00 x00 x00 x00 x00 x00 x00)
(L (W x2f x4d x69 x12 x83 x70 x37 xc6))
(L (W x02 x4d xff xff xc6 x00 x00 x00))))
(T (W xff xff xff xff xff xff xff xff)
(T (W x00 x00 x80 x3f x00 x00 x80 x3f)
(T (W x02 xed xfd xff x74 x00 x00 x00)
(L (W xff xff xff xff xff xff xff xff)) E)
(L (W x68 x00 x00 x00 x5c x00 x00 x00)))
(T (W x00 x00 x80 x3f x00 x00 x80 x3f)
(L (W x5c x00 x00 x00 x50 x00 x00 x00))
(L (W xff xff xff xff xff xff xff xff))))))
(T (W x50 x00 x00 x00 x44 x00 x00 x00)
(T (W x00 x00 x80 x3f x00 x00 x80 x3f)
(T (W x00 x00 x00 x00 x00 x00 x00 x00)
(T (W x64 x00 x00 x00 x9c x00 x00 x00)
(T (W xff xff xff xff xff xff xff xff)
(L (W x00 x00 x00 x00 x00 x00 x00 x00)) E)
(L (W x6c x00 x00 x00 x60 x00 x00 x00)))
(T (W xff xff xff xff xff xff xff xff)
(L (W x28 x00 x2c x00 x30 x00 x34 x00))
(L (W xaa x22 xff xff x8d x01 x00 x00))))
(T (W xf2 x00 x00 x00 xff xff xff xff)
(T (W x46 x53 x59 x53 x5f x4e x53 x5f)
(T (W xb8 x00 x00 x00 xac x00 x00 x00)
(L (W x02 xdd xff xff x74 x00 x00 x00)) E)
(L (W x00 x00 x80 xbf x00 x00 x80 xbf)))
(T (W xff xff xff xff xff xff xff xff)
(L (W x00 x00 x80 xbf x00 x00 x80 xbf))
(L (W xff xff xff xff xff xff xff xff)))))
(T (W x00 x00 x80 x3f x00 x00 x80 x3f)
(T (W x00 x00 x00 x00 x00 x00 x00 x00)
(T (W x00 x00 x80 x3f x00 x00 x80 x3f)
(T (W x00 x00 x80 x3f x00 x00 x80 x3f)
(L (W x14 x00 x00 x00 x0c x00 x00 x00)) E)
(L (W xa1 x99 x59 x1d xca x2e xa0 xfd)))
(T (W x00 x00 x80 x3f x00 x00 x80 x3f)
(L (W xbc x00 x00 x00 x01 x00 x00 x00))
(L (W xcc x00 x00 x00 x01 x00 x00 x00))))
(T (W x4b x00 x00 x00 xff xff xff xff)
(T (W x54 x00 x00 x00 x48 x00 x00 x00)
(T (W x00 x00 x00 x00 x00 x00 x00 x00)
(L (W x00 x00 x80 xbf x00 x00 x80 xbf)) E)
(L (W x45 x26 x22 x84 xe4 x9c xf2 xcb)))
(T (W xff xff xff xff xa0 x00 x00 x00)
(L (W x3c x00 x00 x00 x00 x00 x80 xbf))
(L (W x00 x00 x00 x00 x00 x00 x00 x00))))))))
(T (W x45 x26 x22 x84 xe4 x9c xf2 xcb)
(T (W xff xff xff xff xff xff xff xff)
(T (W xff xff xff xff xff xff xff xff)
(T (W x02 xe7 xfd xff x00 x00 x01 x01)
(T (W xff xff xff xff xff xff xff xff)
(T (W x45 x26 x22 x84 xe4 x9c xf2 xcb)
(T (W x00 x00 x80 x3f x00 x00 x80 x3f)
(L (W xff xff xff xff xff xff xff xff)) E)
(L (W xff xff xff xff xff xff xff xff)))
(T (W x00 x00 x00 x00 x00 x00 x00 x00)
(L (W xb4 x00 x00 x00 x64 x00 x00 x00))
(L (W x00 x00 x00 x00 x00 x00 x00 x00))))
(T (W xcc x4d xfc xff x00 x01 x01 x01)
(T (W x00 x00 x00 x00 x00 x00 x00 x00)
(T (W x00 x00 x00 x00 x00 x00 x00 x00)
(L (W x45 x26 x22 x84 xe4 x9c xf2 xcb)) E)
(L (W x45 x26 x22 x84 xe4 x9c xf2 xcb)))
(T (W x00 x00 x00 x00 x00 x00 x00 x00)
(L (W x00 x00 x00 x00 x00 x00 x00 x00))
(L (W x00 x00 x00 x00 x00 x00 x00 x00)))))
(T (W x00 x00 x00 x00 x02 x00 x00 x00)
(T (W xff xff xff xff xff xff xff xff)
(T (W x45 x26 x22 x84 xe4 x9c xf2 xcb)
(T (W x00 x00 x00 x00 x00 x00 x00 x00)
(L (W x3c x00 x40 x00 x44 x00 x48 x00)) E)
(L (W xcc xad xfe xff x00 x01 x01 x01)))
(T (W xcc x2d xfd xff x00 x01 x01 x01)
(L (W x45 x26 x22 x84 xe4 x9c xf2 xcb))
(L (W x00 x00 x80 xbf x00 x00 x80 xbf))))
(T (W x54 x00 x00 x00 x48 x00 x00 x00)
(T (W xff xff xff xff xff xff xff xff)
(T (W x00 x00 x00 x00 x00 x00 x00 x00)
(L (W x00 x00 x00 x00 x00 x00 x00 x00)) E)
(L (W x00 x00 x00 x00 x00 x00 x00 x00)))
(T (W xff xff xff xff xff xff xff xff)
(L (W x45 x44 x00 x00 x00 x00 x00 x00))
(L (W x49 xa1 x68 x4a xeb x5f xdd x3d))))))
(T (W x00 x00 x00 x00 x00 x00 x00 x00)
(T (W x04 x00 x00 x00 x60 x03 x00 x00)
(T (W xff xff xff xff xff xff xff xff)
(T (W x00 x00 x80 x3f x00 x00 x80 x3f)
(T (W x45 x26 x22 x84 xe4 x9c xf2 xcb)
(L (W xff xff xff xff xff xff xff xff)) E)
(L (W xff xff xff xff xff xff xff xff)))
(T (W x4f x84 x6f x8b xe8 xcb x63 xb7)
(L (W x00 x00 x00 x00 x00 x00 x00 x00))
(L (W x45 x26 x22 x84 xe4 x9c xf2 xcb))))
(T (W x18 x00 x00 x00 x0c x00 x00 x00)
(T (W x50 x00 x00 x00 x44 x00 x00 x00)
(T (W x00 x00 x00 x00 x00 x00 x00 x00)
(L (W x00 x00 x00 x00 x00 x00 x00 x00)) E)
(L (W xff xff xff xff xff xff xff xff)))
(T (W x45 x26 x22 x84 xe4 x9c xf2 xcb)
(L (W x30 x33 x5f x43 x4c x45 x41 x52))
(L (W x00 x00 x80 xbf x00 x00 x80 xbf)))))
(T (W xff xff xff xff xff xff xff xff)
(T (W x45 x26 x22 x84 xe4 x9c xf2 xcb)
(T (W x00 x00 x00 x00 x00 x00 x00 x00)
(T (W x45 x26 x22 x84 xe4 x9c xf2 xcb)
(L (W x00 x00 x00 x00 x00 x00 x00 x00)) E)
(L (W xcc xbd xfe xff x00 x01 x01 x01)))
(T (W xff xff xff xff xff xff xff xff)
(L (W x30 x33 x5f x43 x4c x45 x41 x52))
(L (W x4f x84 x6f x8b xe8 xcb x63 xb7))))
(T (W x45 x26 x22 x84 xe4 x9c xf2 xcb)
(T (W x4a x00 x00 x00 xff xff xff xff)
(T (W x45 x26 x22 x84 xe4 x9c xf2 xcb)
(L (W x46 x53 x59 x53 x5f x4e x53 x5f)) E)
(L (W x00 x00 x00 x00 x00 x00 x00 x00)))
(T (W x00 x00 x00 x00 x00 x00 x00 x00)
(L (W xff xff xff xff xff xff xff xff))
(L (W xff xff xff xff xff xff xff xff)))))))
(T (W x2a x00 x00 x00 x67 x72 x6f x75)
(T (W x00 x00 x00 x00 x00 x00 x00 x00)
(T (W x00 x00 x00 x00 x00 x00 x00 x00)
(T (W xff xff xff xff xff xff xff xff)
(T (W x45 x26 x22 x84 xe4 x9c xf2 xcb)
(T (W x00 x00 x80 x3f x00 x00 x80 x3f)
(L (W xb8 x00 x00 x00 x3c x00 x00 x00)) E)
(L (W xff xff xff xff xff xff xff xff)))
(T (W x00 x00 x00 x00 x00 x00 x00 x00)
(L (W x58 x00 x5c x00 x60 x00 x64 x00))
(L (W x02 x11 xff xff x74 x00 x00 x00))))
(T (W x45 x26 x22 x84 xe4 x9c xf2 xcb)
(T (W x00 x00 x80 x3f x00 x00 x80 x3f)
(T (W x00 x00 x00 x00 x00 x00 x00 x00)
(L (W x30 x33 x5f x43 x4c x45 x41 x52)) E)
(L (W x1f x00 x00 x00 x22 x00 x00 x00)))
(T (W x4f x84 x6f x8b xe8 xcb x63 xb7)
(L (W x00 x00 x00 x00 x00 x00 x00 x00))
(L (W x00 x00 x00 x00 x00 x00 x00 x00)))))
(T (W xff xff xff xff xff xff xff xff)
(T (W xb8 x00 x00 x00 xac x00 x00 x00)
(T (W x00 x00 x00 x00 x00 x00 x00 x00)
(T (W x00 x00 x00 x00 x00 x00 x00 x00)
(L (W x00 x00 x00 x00 x00 x00 x00 x00)) E)
(L (W x00 x00 x80 xbf x00 x00 x80 xbf)))
(T (W xff xff xff xff xff xff xff xff)
(L (W x5c x39 xfe xff x1b x00 x00 x00))
(L (W x45 x26 x22 x84 xe4 x9c xf2 xcb))))
(T (W x00 x00 x80 x3f x00 x00 x80 x3f)
(T (W xff xff xff xff xff xff xff xff)
(T (W x69 x6b x65 x5f x70 x6d x30 x34)
(L (W x44 x00 x48 x00 x00 x00 x4c x00)) E)
(L (W x00 x00 x00 x00 x12 x00 x00 x00)))
(T (W x00 x00 x00 x00 x5a x7c xfd xff)
(L (W x7c x03 x00 x00 x4c x02 x00 x00))
(L (W x00 x00 x80 xbf x00 x00 x80 xbf))))))
(T (W xff xff xff xff xff xff xff xff)
(T (W x00 x00 x00 x00 x00 x00 x00 x00)
(T (W xff xff xff xff x03 x00 x00 x00)
(T (W x02 xa1 xfc xff x74 x00 x00 x00)
(T (W x45 x26 x22 x84 xe4 x9c xf2 xcb)
(L (W xff xff xff xff x9c x00 x00 x00)) E)
(L (W x02 xa1 xfe xff x74 x00 x00 x00)))
(T (W x00 x00 x80 x3f x00 x00 x80 x3f)
(L (W xff xff xff xff xff xff xff xff))
(L (W x00 x00 x80 xbf x00 x00 x80 xbf))))
(T (W x00 x00 x80 x3f x00 x00 x80 x3f)
(T (W x03 x00 x00 x00 xd0 x00 x00 x00)
(T (W xff xff xff xff xff xff xff xff)
(L (W x00 x00 x80 xbf x00 x00 x80 xbf)) E)
(L (W x45 x44 x00 x00 x00 x00 x00 x00)))
(T (W xff xff xff xff xac x00 x00 x00)
(L (W x00 x00 x00 x00 x00 x00 x00 x00))
(L (W x00 x00 x80 xbf x00 x00 x80 xbf)))))
(T (W xff xff xff xff xff xff xff xff)
(T (W x68 x00 x00 x00 x5c x00 x00 x00)
(T (W x00 x00 x00 x00 x00 x00 x00 x00)
(T (W xff xff xff xff xff xff xff xff)
(L (W x30 x33 x5f x43 x4c x45 x41 x52)) E)
(L (W xb2 xc2 xfe xff x78 x00 x00 x00)))
(T (W xff xff xff xff x02 x00 x00 x00)
(L (W x24 x00 x00 x00 x10 x00 x00 x00))
(L (W x00 x00 x00 x00 x00 x00 x00 x00))))
(T (W x00 x00 x00 x00 x00 x00 x00 x00)
(T (W x00 x00 x00 x00 x00 x00 x00 x00)
(L (W x5f x77 x69 x6c x64 x5f x70 x6f))
(L (W x00 x00 x00 x00 x00 x00 x00 x00)))
(T (W x45 x26 x22 x84 xe4 x9c xf2 xcb)
(L (W xff xff xff xff xff xff xff xff))
(L (W xff xff xff xff x9c x00 x00 x00)))))))))))
(T (W x80 x9e x02 x00 x44 x9d x02 x00)
(T (W x48 xf9 x01 x00 x04 xf8 x01 x00)
(T (W x10 x89 x00 x00 xc4 x86 x00 x00)
(T (W x00 x00 x80 x3f x00 x00 x80 x3f)
(T (W xff xff xff xff xff xff xff xff)
(T (W x70 x5f x6c x65 x61 x64 x65 x72)
(T (W x18 x00 x00 x00 x0c x00 x00 x00)
(T (W x00 x00 x80 x3f x00 x00 x80 x3f)
(T (W x01 x00 x00 x00 x04 x00 x00 x00)
(T (W x64 x5f x6c x76 x31 x00 x00 x00)
(L (W x00 x00 x80 xbf x00 x00 x80 xbf)) E)
(L (W x68 x00 x00 x00 x5c x00 x00 x00)))
(T (W xff xff xff xff xbc x00 x00 x00)
(L (W xff xff xff xff xff xff xff xff))
(L (W xff xff xff xff xff xff xff xff))))
(T (W x00 x00 x00 x00 x00 x00 x00 x00)
(T (W xff xff xff xff xff xff xff xff)
(T (W x00 x00 x80 x3f x00 x00 x80 x3f)
(L (W x4c x03 x00 x00 x24 x02 x00 x00)) E)
(L (W x00 x00 x00 x00 x00 x00 x00 x00)))
(T (W x03 x00 x00 x00 xd4 x00 x00 x00)
(L (W xff xff xff xff xff xff xff xff))
(L (W xff xff xff xff xff xff xff xff)))))
(T (W xff xff xff xff xff xff xff xff)
(T (W x68 x00 x00 x00 x5c x00 x00 x00)
(T (W xc4 x00 x00 x00 xb8 x00 x00 x00)
(T (W x8c x01 x00 x00 xff xff xff xff)
(L (W x49 xa1 x68 x4a xeb x5f xdd x3d)) E)
(L (W x00 x00 x00 x00 x00 x00 x00 x00)))
(T (W x00 x00 x00 x00 x00 x00 x00 x00)
(L (W xff xff xff xff x9c x00 x00 x00))
(L (W x45 x44 x00 x00 x00 x00 x00 x00))))
(T (W x45 x26 x22 x84 xe4 x9c xf2 xcb)
(T (W x00 x00 x80 x3f x00 x00 x80 x3f)
(T (W xff xff xff xff xff xff xff xff)
(L (W x00 x00 x80 xbf x00 x00 x80 xbf)) E)
(L (W xc4 x00 x00 x00 x02 x00 x00 x00)))
(T (W x00 x00 x80 x3f x00 x00 x80 x3f)
(L (W xff xff xff xff xc4 x00 x00 x00))
(L (W x00 x00 x00 x00 x00 x00 x00 x00))))))
(T (W xff xff xff xff xff xff xff xff)
(T (W x45 x26 x22 x84 xe4 x9c xf2 xcb)
(T (W x00 x00 x80 x3f x00 x00 x80 x3f)
(T (W xff xff xff xff xff xff xff xff)
(T (W xdc x9a xfd xff x1a x00 x00 x00)
(L (W x00 x00 x80 xbf x00 x00 x80 xbf)) E)
(L (W x68 x00 x00 x00 x5c x00 x00 x00)))
(T (W x00 x00 x00 x00 x72 x29 xfd xff)
(L (W xff xff xff xff xff xff xff xff))
(L (W x00 x00 x00 x00 x00 x00 x00 x00))))
(T (W x00 x00 x00 x00 x00 x00 x00 x00)
(T (W xdc xda xfc xff x29 x00 x00 x00)
(T (W xff xff xff xff xff xff xff xff)
(L (W xff xff xff xff xff xff xff xff)) E)
(L (W x6c x00 x00 x00 x60 x00 x00 x00)))
(T (W x02 x00 x00 x00 xff xff xff xff)
(L (W xff xff xff xff x94 x00 x00 x00))
(L (W xea x00 x00 x00 xff xff xff xff)))))
(T (W x01 x00 x00 x00 xa0 x00 x00 x00)
(T (W x00 x00 x80 x3f x00 x00 x80 x3f)
(T (W x7c x01 x00 x00 x04 x00 x00 x00)
(T (W xff xff xff xff x03 x00 x00 x00)
(L (W xff xff xff xff xb0 x00 x00 x00)) E)
(L (W x4f x84 x6f x8b xe8 xcb x63 xb7)))
(T (W x00 x00 x80 x3f x00 x00 x80 x3f)
(L (W xff xff xff xff xff xff xff xff))
(L (W x45 x44 x00 x00 x00 x00 x00 x00))))
(T (W x00 x00 x00 x00 x00 x00 x00 x00)
(T (W xff xff xff xff x9c x00 x00 x00)
(T (W x00 x00 x80 x3f x00 x00 x80 x3f)
(L (W xff xff xff xff xff xff xff xff)) E)
(L (W xff xff xff xff xff xff xff xff)))
(T (W xff xff xff xff x9c x00 x00 x00)
(L (W xff xff xff xff xc4 x00 x00 x00))
(L (W x00 x00 x00 x00 x00 x00 x00 x00)))))))
(T (W xe2 x00 x00 x00 xff xff xff xff)
(T (W x4c xaf xfb xff x00 x01 x01 x01)
(T (W x82 xca xfb xff x74 x00 x00 x00)
(T (W x00 x00 x80 x3f x00 x00 x80 x3f)
(T (W xff xff xff xff xff xff xff xff)
(T (W x00 x00 x00 x00 x00 x00 x00 x00)
(L (W x00 x00 x80 xbf x00 x00 x80 xbf)) E)
(L (W x54 x00 x00 x00 x48 x00 x00 x00)))
(T (W xff xff xff xff xff xff xff xff)
(L (W x6c x00 x00 x00 x60 x00 x00 x00))
(L (W x00 x00 x00 x00 x00 x00 x00 x00))))
(T (W x00 x00 x00 x00 x00 x00 x00 x00)
(T (W xff xff xff xff xff xff xff xff)
(T (W xff xff xff xff xff xff xff xff)
(L (W xff xff xff xff xff xff xff xff)) E)
(L (W x45 x26 x22 x84 xe4 x9c xf2 xcb)))
(T (W xff xff xff xff xff xff xff xff)
(L (W xff xff xff xff xff xff xff xff))
(L (W xff xff xff xff xff xff xff xff)))))
(T (W x18 x00 x00 x00 x10 x00 x00 x00)
(T (W x00 x00 x80 x3f x00 x00 x80 x3f)
(T (W x00 x00 x00 x00 xea xf6 xff xff)
(T (W xff xff xff xff xff xff xff xff)
(L (W xff xff xff xff xff xff xff xff)) E)
(L (W x45 x26 x22 x84 xe4 x9c xf2 xcb)))
(T (W x00 x00 x00 x00 x00 x00 x00 x00)
(L (W xdc x32 xfe xff x23 x00 x00 x00))
(L (W x00 x00 x00 x00 x00 x00 x00 x00))))
(T (W x00 x00 x00 x00 x00 x00 x00 x00)
(T (W x54 x00 x00 x00 x48 x00 x00 x00)
(T (W x29 x00 x00 x00 x67 x72 x6f x75)
(L (W x00 x00 x00 x00 x00 x00 x00 x00)) E)
(L (W xff xff xff xff xc0 x00 x00 x00)))
(T (W x18 x00 x00 x00 x0c x00 x00 x00)
(L (W xcc x00 x00 x00 x02 x00 x00 x00))
(L (W xb9 x86 xa7 x28 xbf x4a x53 x6a))))))
(T (W xff xff xff xff xff xff xff xff)
(T (W xc4 x00 x00 x00 xb8 x00 x00 x00)
(T (W x00 x00 x80 x3f x00 x00 x80 x3f)
(T (W xff xff xff xff xff xff xff xff)
(T (W x00 x00 x00 x00 x00 x00 x00 x00)
(L (W x00 x00 x80 xbf x00 x00 x80 xbf)) E)
(L (W x00 x00 x80 xbf x00 x00 x80 xbf)))
(T (W x00 x00 x00 x00 x02 x00 x00 x00)
(L (W xff xff xff xff xff xff xff xff))
(L (W x45 x26 x22 x84 xe4 x9c xf2 xcb))))
(T (W x00 x00 x00 x00 x00 x00 x00 x00)
(T (W x00 x00 x00 x00 x00 x00 x00 x00)
(T (W xff xff xff xff xff xff xff xff)
(L (W xff xff xff xff xff xff xff xff)) E)
(L (W x50 x00 x00 x00 x44 x00 x00 x00)))
(T (W x5f x4e x53 x5f x30 x33 x5f x43)
(L (W xcc x00 x00 x00 x01 x00 x00 x00))
(L (W x00 x00 x00 x00 x00 x00 x00 x00)))))
(T (W x82 xfa xfb xff x74 x00 x00 x00)
(T (W x00 x00 x80 x3f x00 x00 x80 x3f)
(T (W x2c x00 x30 x00 x34 x00 x38 x00)
(T (W x82 xba xfd xff x74 x00 x00 x00)
(L (W xff xff xff xff xff xff xff xff)) E)
(L (W x00 x00 x00 x00 x00 x00 x00 x00)))
(T (W x45 x26 x22 x84 xe4 x9c xf2 xcb)
(L (W xff xff xff xff xff xff xff xff))
(L (W xff xff xff xff xff xff xff xff))))
(T (W xdc x82 xfc xff x3c x00 x00 x00)
(T (W x03 x00 x00 x00 xd8 x00 x00 x00)
(T (W x45 x26 x22 x84 xe4 x9c xf2 xcb)
(L (W x30 x00 x34 x00 x38 x00 x3c x00)) E)
(L (W xff xff xff xff xff xff xff xff)))
(T (W xff xff xff xff xff xff xff xff)
(L (W x45 x26 x22 x84 xe4 x9c xf2 xcb))
(L (W x00 x00 x80 xbf x00 x00 x80 xbf))))))))
(T (W x6b x65 x5f x77 x61 x72 x6c x69)
(T (W xff xff xff xff xff xff xff xff)
(T (W xff xff xff xff x03 x00 x00 x00)
(T (W x00 x00 x00 x00 x00 x00 x00 x00)
(T (W x2b x00 x00 x00 x10 x00 x00 x00)
(T (W x45 x26 x22 x84 xe4 x9c xf2 xcb)
(T (W xb8 x00 x00 x00 xac x00 x00 x00)
(L (W xff xff xff xff xff xff xff xff)) E)
(L (W x9e x01 x00 x00 xff xff xff xff)))
(T (W x4f x84 x6f x8b xe8 xcb x63 xb7)
(L (W xff xff xff xff xff xff xff xff))
(L (W x00 x00 x80 xbf x00 x00 x80 xbf))))
(T (W xff xff xff xff xff xff xff xff)
(T (W x45 x26 x22 x84 xe4 x9c xf2 xcb)
(T (W x00 x00 x00 x00 x00 x00 x00 x00)
(L (W x00 x00 x80 xbf x00 x00 x80 xbf)) E)
(L (W xff xff xff xff xff xff xff xff)))
(T (W x00 x00 x00 x00 x00 x00 x00 x00)
(L (W x00 x00 x00 x00 x00 x00 x00 x00))
(L (W x49 xa1 x68 x4a xeb x5f xdd x3d)))))
(T (W x00 x00 x00 x00 x00 x00 x00 x00)
(T (W xff xff xff xff xff xff xff xff)
(T (W x00 x00 x80 x3f x00 x00 x80 x3f)
(T (W x45 x26 x22 x84 xe4 x9c xf2 xcb)
(L (W xff xff xff xff xff xff xff xff)) E)
(L (W x4c xab xfe xff x00 x01 x01 x01)))
(T (W xff xff xff xff xff xff xff xff)
(L (W x00 x00 x80 xbf x00 x00 x80 xbf))
(L (W x03 x00 x00 x00 xd0 x00 x00 x00))))
(T (W x4c x6b xfc xff x00 x01 x01 x01)
(T (W x4a x00 x00 x00 xff xff xff xff)
(T (W x67 x72 x6f x75 x70 x5f x77 x69)
(L (W xff xff xff xff xc0 x00 x00 x00)) E)
(L (W x00 x00 x00 x00 x00 x00 x00 x00)))
(T (W xff xff xff xff xff xff xff xff)
(L (W x46 x53 x59 x53 x5f x4e x53 x5f))
(L (W xff xff xff xff xa8 x00 x00 x00))))))
(T (W x00 x00 x00 x00 x00 x00 x00 x00)
(T (W x00 x00 x00 x00 x00 x00 x00 x00)
(T (W x1c x01 x00 x00 x04 x00 x00 x00)
(T (W x00 x00 x80 x3f x00 x00 x80 x3f)
(T (W x50 x00 x00 x00 x44 x00 x00 x00)
(L (W xff xff xff xff xff xff xff xff)) E)
(L (W xff xff xff xff xff xff xff xff)))
(T (W x6c x00 x00 x00 x60 x00 x00 x00)
(L (W x00 x00 x00 x00 x00 x00 x00 x00))
(L (W xff xff xff xff xff xff xff xff))))
(T (W xff xff xff xff xff xff xff xff)
(T (W x18 x00 x00 x00 x10 x00 x00 x00)
(T (W x00 x00 x80 x3f x00 x00 x80 x3f)
(L (W x00 x00 x80 xbf x00 x00 x80 xbf)) E)
(L (W xff xff xff xff xff xff xff xff)))
(T (W x32 x58 xfd xff x78 x00 x00 x00)
(L (W x49 xa1 x68 x4a xeb x5f xdd x3d))
(L (W x45 x26 x22 x84 xe4 x9c xf2 xcb)))))
(T (W x00 x00 x00 x00 x00 x00 x00 x00)
(T (W xff xff xff xff xff xff xff xff)
(T (W x00 x00 x00 x00 x00 x00 x00 x00)
(T (W x00 x00 x80 x3f x00 x00 x80 x3f)
(L (W x00 x00 x00 x00 x00 x00 x00 x00)) E)
(L (W xff xff xff xff xb0 x00 x00 x00)))
(T (W x00 x00 x00 x00 xda x41 xfd xff)
(L (W x00 x00 x80 xbf x00 x00 x80 xbf))
(L (W x00 x00 x80 xbf x00 x00 x80 xbf))))
(T (W x82 x76 xfc xff x74 x00 x00 x00)
(T (W x00 x00 x00 x00 x00 x00 x00 x00)
(T (W x46 x00 x00 x00 x10 x00 x00 x00)
(L (W x00 x00 x00 x00 x00 x00 x5c x00)) E)
(L (W x00 x00 x00 x00 x00 x00 x00 x00)))
(T (W x00 x00 x00 x00 x00 x00 x00 x00)
(L (W x00 x00 x00 x00 x00 x00 x00 x00))
(L (W x54 x00 x00 x00 x48 x00 x00 x00)))))))
(T (W x6f x79 x61 x62 x75 x6e x00 x00)
(T (W x00 x00 x00 x00 x00 x00 x00 x00)
(T (W x00 x00 x00 x00 x00 x00 x00 x00)
(T (W x00 x00 x00 x00 xea x5a xff xff)
(T (W x00 x00 x80 x3f x00 x00 x80 x3f)
(T (W x01 x00 x00 x00 x9c x00 x00 x00)
(L (W xff xff xff xff xff xff xff xff)) E)
(L (W x7c x03 x00 x00 x4c x02 x00 x00)))
(T (W x00 x00 x80 x3f x00 x00 x80 x3f)
(L (W x00 x00 x01 x01 xd0 x01 x00 x00))
(L (W x00 x00 x00 x00 xbc x11 xff xff))))
(T (W xff xff xff xff xff xff xff xff)
(T (W x54 x00 x00 x00 x48 x00 x00 x00)
(T (W x45 x26 x22 x84 xe4 x9c xf2 xcb)
(L (W x49 xa1 x68 x4a xeb x5f xdd x3d)) E)
(L (W xff xff xff xff xff xff xff xff)))
(T (W x00 x00 x80 x3f x00 x00 x80 x3f)
(L (W x45 x26 x22 x84 xe4 x9c xf2 xcb))
(L (W x00 x00 x80 xbf x00 x00 x80 xbf)))))
(T (W x00 x00 x00 x00 x00 x00 x00 x00)
(T (W xff xff xff xff xff xff xff xff)
(T (W x00 x00 x80 x3f x00 x00 x80 x3f)
(T (W x45 x26 x22 x84 xe4 x9c xf2 xcb)
(L (W x5f x4e x53 x5f x30 x33 x5f x43)) E)
(L (W xff xff xff xff x9c x00 x00 x00)))
(T (W xff xff xff xff xff xff xff xff)
(L (W x00 x00 x00 x00 x00 x00 x00 x00))
(L (W x45 x26 x22 x84 xe4 x9c xf2 xcb))))
(T (W x50 x00 x00 x00 x44 x00 x00 x00)
(T (W x00 x00 x00 x00 x00 x00 x00 x00)
(T (W xac x01 x00 x00 xbc x00 x00 x00)
(L (W x68 x00 x00 x00 x5c x00 x00 x00)) E)
(L (W x00 x00 x80 xbf x00 x00 x80 xbf)))
(T (W x00 x00 x00 x00 x00 x00 x00 x00)
(L (W x00 x00 x00 x00 x00 x00 x00 x00))
(L (W x00 x00 x00 x00 xbc x71 xff xff))))))
(T (W x00 x00 x00 x00 x00 x00 x00 x00)
(T (W x00 x00 x00 x00 x00 x00 x00 x00)
(T (W xff xff xff xff xff xff xff xff)
(T (W x00 x00 x80 x3f x00 x00 x80 x3f)
(T (W x50 x00 x00 x00 x44 x00 x00 x00)
(L (W xff xff xff xff xff xff xff xff)) E)
(L (W x82 x9e xfe xff x74 x00 x00 x00)))
(T (W x82 x1e xfd xff x74 x00 x00 x00)
(L (W x00 x00 x01 x01 x26 x00 x00 x00))
(L (W x1e x00 x00 x00 x21 x00 x00 x00))))
(T (W x64 x00 x00 x00 x9c x00 x00 x00)
(T (W xff xff xff xff xff xff xff xff)
(T (W x45 x26 x22 x84 xe4 x9c xf2 xcb)
(L (W x00 x00 x00 x00 x00 x00 x00 x00)) E)
(L (W x46 x53 x59 x53 x5f x4e x53 x5f)))
(T (W x18 x00 x00 x00 x0c x00 x00 x00)
(L (W x00 x00 x00 x00 x00 x00 x00 x00))
(L (W x45 x26 x22 x84 xe4 x9c xf2 xcb)))))
(T (W x00 x00 x00 x00 x00 x00 x00 x00)
(T (W xff xff xff xff xff xff xff xff)
(T (W x00 x00 x00 x00 x12 x00 x00 x00)
(T (W x04 x00 x00 x00 x92 xdf xff xff)
(L (W x00 x00 x00 x00 x00 x00 x00 x00)) E)
(L (W xff xff xff xff xff xff xff xff)))
(T (W x00 x00 x00 x00 x00 x00 x00 x00)
(L (W x45 x26 x22 x84 xe4 x9c xf2 xcb))
(L (W x00 x00 x80 xbf x00 x00 x80 xbf))))
(T (W x00 x00 x00 x00 xbc x81 xfc xff)
(T (W x00 x00 x00 x00 x00 x00 x00 x00)
(T (W xb0 x00 x00 x00 x64 x00 x00 x00)
(L (W x6c x00 x00 x00 x60 x00 x00 x00)) E)
(L (W x00 x00 x80 xbf x00 x00 x80 xbf)))
(T (W x00 x00 x80 x3f x00 x00 x80 x3f)
(L (W x00 x00 x00 x00 x00 x00 x00 x00))
(L (W xff xff xff xff xff xff xff xff)))))))))
(T (W x00 x00 x00 x00 x00 x00 x00 x00)
(T (W x01 x00 x00 x00 x9c x00 x00 x00)
(T (W x00 x00 x80 x3f x00 x00 x80 x3f)
(T (W x00 x00 x80 x3f x00 x00 x80 x3f)
(T (W x1c x01 x00 x00 x04 x00 x00 x00)
(T (W xff xff xff xff xff xff xff xff)
(T (W x45 x26 x22 x84 xe4 x9c xf2 xcb)
(T (W x45 x26 x22 x84 xe4 x9c xf2 xcb)
(L (W xff xff xff xff xff xff xff xff)) E)
(L (W xff xff xff xff xff xff xff xff)))
(T (W x30 x33 x5f x43 x4c x45 x41 x52)
(L (W x00 x00 x80 x3f x00 x00 x80 x3f))
(L (W x00 x00 x00 x00 x00 x00 x00 x00))))
(T (W x45 x26 x22 x84 xe4 x9c xf2 xcb)
(T (W x00 xb2 xb2 x45 xbe x0e xc9 xa4)
(T (W x45 x26 x22 x84 xe4 x9c xf2 xcb)
(L (W x00 x00 x00 x00 x00 x00 x00 x00)) E)
(L (W x18 x00 x00 x00 x0c x00 x00 x00)))
(T (W x9c x01 x00 x00 xff xff xff xff)
(L (W x00 x00 x00 x00 x00 x00 x00 x00))
(L (W x00 x00 x00 x00 x00 x00 x00 x00)))))
(T (W xff xff xff xff xff xff xff xff)
(T (W x01 x00 x00 x00 xa0 x00 x00 x00)
(T (W x00 x00 x00 x00 x00 x00 x00 x00)
(T (W x00 x00 x00 x00 x00 x00 x00 x00)
(L (W xff xff xff xff xb0 x00 x00 x00)) E)
(L (W x00 x00 x80 xbf x00 x00 x80 xbf)))
(T (W x00 x00 x80 x3f x00 x00 x80 x3f)
(L (W x14 x59 x69 x12 x83 x77 x37 xc6))
(L (W x00 x00 x80 xbf x00 x00 x80 xbf))))
(T (W x00 x00 x80 x3f x00 x00 x80 x3f)
(T (W xff xff xff xff xff xff xff xff)
(T (W x00 x00 x80 x3f x00 x00 x80 x3f)
(L (W x82 xe4 xff xff x74 x00 x00 x00)) E)
(L (W xff xff xff xff xff xff xff xff)))
(T (W x82 x64 xfd xff x74 x00 x00 x00)
(L (W x8d x01 x00 x00 xff xff xff xff))
(L (W x00 x00 x80 xbf x00 x00 x80 xbf))))))
(T (W xff xff xff xff xff xff xff xff)
(T (W xff xff xff xff xff xff xff xff)
(T (W x18 x00 x00 x00 x0c x00 x00 x00)
(T (W x00 x00 x00 x00 x00 x00 x00 x00)
(T (W x00 x00 x00 x00 x00 x00 x00 x00)
(L (W x1d x00 x00 x00 x20 x00 x00 x00)) E)
(L (W xff xff xff xff xbc x00 x00 x00)))
(T (W x00 x00 x00 x00 x00 x00 x00 x00)
(L (W x00 x00 x00 x00 x00 x00 x00 x00))
(L (W x00 x00 x80 xbf x00 x00 x80 xbf))))
(T (W x00 x00 x80 x3f x00 x00 x80 x3f)
(T (W x00 x00 x80 x3f x00 x00 x80 x3f)
(T (W x00 x00 x00 x00 x00 x00 x00 x00)
(L (W x00 x00 x00 x00 x00 x00 x00 x00)) E)
(L (W x03 x00 x00 x00 xd0 x00 x00 x00)))
(T (W x00 x00 x00 x00 x00 x00 x00 x00)
(L (W x30 x33 x5f x43 x4c x45 x41 x52))
(L (W x00 x00 x00 x00 x00 x00 x00 x00)))))
(T (W x8b x01 x00 x00 xff xff xff xff)
(T (W xff xff xff xff x03 x00 x00 x00)
(T (W x50 x00 x00 x00 x44 x00 x00 x00)
(T (W xe2 x00 x00 x00 xff xff xff xff)
(L (W x82 xd4 xff xff xaf x00 x00 x00)) E)
(L (W x00 x00 x80 xbf x00 x00 x80 xbf)))
(T (W xff xff xff xff xff xff xff xff)
(L (W x30 x33 x5f x43 x4c x45 x41 x52))
(L (W x00 x00 x00 x00 x00 x00 x00 x00))))
(T (W x00 x00 x80 x3f x00 x00 x80 x3f)
(T (W xff xff xff xff xff xff xff xff)
(T (W x00 x00 x00 x00 x00 x00 x00 x00)
(L (W xdc xfc xff xff x1f x00 x00 x00)) E)
(L (W xfa x0c xff xff xc8 x01 x00 x00)))
(T (W x00 x00 x00 x00 x00 x00 x00 x00)
(L (W xa9 x01 x00 x00 xff xff xff xff))
(L (W x00 x00 x80 xbf x00 x00 x80 xbf)))))))
(T (W x00 x00 x80 x3f x00 x00 x80 x3f)
(T (W x82 xca xfd xff x00 x00 x01 x01)
(T (W xff xff xff xff xff xff xff xff)
(T (W xff xff xff xff x04 x00 x00 x00)
(T (W x00 x00 x00 x00 x00 x00 x00 x00)
(T (W x00 x00 x80 x3f x00 x00 x80 x3f)
(L (W x45 x26 x22 x84 xe4 x9c xf2 xcb)) E)
(L (W xff xff xff xff xb0 x00 x00 x00)))
(T (W x00 x00 x00 x00 x00 x00 x00 x00)
(L (W x03 x00 x00 x00 xd8 x00 x00 x00))
(L (W x49 xa1 x68 x4a xeb x5f xdd x3d))))
(T (W x50 x00 x00 x00 x44 x00 x00 x00)
(T (W x00 x00 x00 x00 x00 x00 x00 x00)
(T (W x6b x65 x5f x63 x6f x77 x61 x72)
(L (W x46 x53 x59 x53 x5f x4e x53 x5f)) E)
(L (W xb8 x00 x00 x00 x3c x00 x00 x00)))
(T (W x12 x00 x00 x00 x46 x53 x59 x53)
(L (W x00 x00 x00 x00 x00 x00 x00 x00))
(L (W x00 x00 x00 x00 x00 x00 x00 x00)))))
(T (W xff xff xff xff xff xff xff xff)
(T (W xc0 x00 x00 x00 xb4 x00 x00 x00)
(T (W x00 x00 x80 x3f x00 x00 x80 x3f)
(T (W x00 x00 x00 x00 x00 x00 x00 x00)
(L (W xff xff xff xff xff xff xff xff)) E)
(L (W x00 x00 x80 xbf x00 x00 x80 xbf)))
(T (W x18 x00 x00 x00 x10 x00 x00 x00)
(L (W x00 x00 x80 xbf x00 x00 x80 xbf))
(L (W x45 x26 x22 x84 xe4 x9c xf2 xcb))))
(T (W x00 x00 x80 x3f x00 x00 x80 x3f)
(T (W xff xff xff xff xff xff xff xff)
(T (W xe9 x01 x00 x00 xff xff xff xff)
(L (W x00 x00 x00 x00 x00 x00 x00 x00)) E)
(L (W x01 x00 x00 x00 x02 x00 x00 x00)))
(T (W xff xff xff xff xff xff xff xff)
(L (W xff xff xff xff xff xff xff xff))
(L (W x45 x26 x22 x84 xe4 x9c xf2 xcb))))))
(T (W xbf x01 x00 x00 xff xff xff xff)
(T (W xff xff xff xff xff xff xff xff)
(T (W x82 x1c xfc xff x74 x00 x00 x00)
(T (W xdc xa4 xfc xff x3e x00 x00 x00)
(T (W x45 x26 x22 x84 xe4 x9c xf2 xcb)
(L (W x68 x00 x00 x00 x5c x00 x00 x00)) E)
(L (W x02 x00 x00 x00 xff xff xff xff)))
(T (W x00 x00 x00 x00 x00 x00 x00 x00)
(L (W x00 x00 x00 x00 x00 x00 x00 x00))
(L (W x40 x00 x00 x00 x00 x00 x80 xbf))))
(T (W x00 x00 x80 x3f x00 x00 x80 x3f)
(T (W x32 xde xfc xff x78 x00 x00 x00)
(T (W x00 x00 x00 x00 x00 x00 x00 x00)
(L (W x00 x00 x00 x00 x72 xf3 xff xff)) E)
(L (W xff xff xff xff xff xff xff xff)))
(T (W x00 x00 x80 x3f x00 x00 x80 x3f)
(L (W xff xff xff xff xff xff xff xff))
(L (W x00 x00 x80 xbf x00 x00 x80 xbf)))))
(T (W xff xff xff xff xff xff xff xff)
(T (W x00 x00 x00 x00 xbc x3f xfc xff)
(T (W xff xff xff xff xff xff xff xff)
(T (W xff xff xff xff xff xff xff xff)
(L (W x45 x44 x00 x00 x00 x00 x00 x00)) E)
(L (W x00 x00 x80 xbf x00 x00 x80 xbf)))
(T (W xff xff xff xff xff xff xff xff)
(L (W xdc x44 xfe xff x1d x00 x00 x00))
(L (W x00 x00 x00 x00 x00 x00 x00 x00))))
(T (W x45 x26 x22 x84 xe4 x9c xf2 xcb)
(T (W xff xff xff xff xff xff xff xff)
(T (W x54 x00 x00 x00 x48 x00 x00 x00)
(L (W xff xff xff xff xff xff xff xff)) E)
(L (W x00 x00 x00 x00 x00 x00 x00 x00)))
(T (W x00 x00 x00 x00 x00 x00 x00 x00)
(L (W xff xff xff xff xff xff xff xff))
(L (W x18 x00 x00 x00 x10 x00 x00 x00))))))))
(T (W xc0 x00 x00 x00 xb4 x00 x00 x00)
(T (W x5f x77 x69 x6c x64 x5f x70 x6f)
(T (W x45 x26 x22 x84 xe4 x9c xf2 xcb)
(T (W x00 x00 x80 x3f x00 x00 x80 x3f)
(T (W x45 x26 x22 x84 xe4 x9c xf2 xcb)
(T (W xff xff xff xff x03 x00 x00 x00)
(T (W xff xff xff xff xff xff xff xff)
(L (W x00 x00 x00 x00 x00 x00 x00 x00)) E)
(L (W x00 x00 x00 x00 x00 x00 x00 x00)))
(T (W x18 x00 x00 x00 x0c x00 x00 x00)
(L (W x00 x00 x00 x00 x12 x00 x00 x00))
(L (W x1a x00 x00 x00 x1d x00 x00 x00))))
(T (W x00 x00 x00 x00 x00 x00 x00 x00)
(T (W x00 x00 x00 x00 xbc xcb xfc xff)
(T (W x68 x00 x00 x00 x5c x00 x00 x00)
(L (W xff xff xff xff xff xff xff xff)) E)
(L (W x00 x00 x00 x00 x00 x00 x00 x00)))
(T (W x00 x00 x00 x00 xbc x4b xfd xff)
(L (W x54 x00 x00 x00 x48 x00 x00 x00))
(L (W xff xff xff xff xb0 x00 x00 x00)))))
(T (W x00 x00 x80 x3f x00 x00 x80 x3f)
(T (W x00 x00 x00 x00 x00 x00 x00 x00)
(T (W xff xff xff xff x04 x00 x00 x00)
(T (W x68 x00 x00 x00 x5c x00 x00 x00)
(L (W x00 x00 x00 x00 x00 x00 x00 x00)) E)
(L (W x34 x01 x00 x00 x04 x00 x00 x00)))
(T (W x00 x00 x00 x00 x00 x00 x00 x00)
(L (W xff xff xff xff xff xff xff xff))
(L (W xff xff xff xff xff xff xff xff))))
(T (W xd0 x00 x00 x00 xff xff xff xff)
(T (W x49 xa1 x68 x4a xeb x5f xdd x3d)
(T (W x50 x00 x00 x00 x44 x00 x00 x00)
(L (W x00 x00 x80 xbf x00 x00 x80 xbf)) E)
(L (W x82 xe8 xfe xff x74 x00 x00 x00)))
(T (W x4f x84 x6f x8b xe8 xcb x63 xb7)
(L (W x54 x00 x00 x00 x48 x00 x00 x00))
(L (W xff xff xff xff xff xff xff xff))))))
(T (W x6c x00 x00 x00 x60 x00 x00 x00)
(T (W x00 x00 x80 x3f x00 x00 x80 x3f)
(T (W x00 x00 x00 x00 x00 x00 x00 x00)
(T (W xff xff xff xff xff xff xff xff)
(T (W xff xff xff xff xff xff xff xff)
(L (W x00 x00 x00 x00 x00 x00 x00 x00)) E)
(L (W x00 x00 x00 x00 x00 x00 x00 x00)))
(T (W x03 x00 x00 x00 xd0 x00 x00 x00)
(L (W x68 x00 x00 x00 x5c x00 x00 x00))
(L (W x00 x00 x00 x00 x00 x00 x00 x00))))
(T (W x00 x00 x00 x00 x04 x00 x00 x00)
(T (W x4b x00 x00 x00 xff xff xff xff)
(T (W xb8 x00 x00 x00 xac x00 x00 x00)
(L (W x50 x00 x00 x00 x44 x00 x00 x00)) E)
(L (W x00 x00 x00 x00 x00 x00 x00 x00)))
(T (W xff xff xff xff xff xff xff xff)
(L (W x74 x00 x00 x00 x68 x00 x00 x00))
(L (W xff xff xff xff xff xff xff xff)))))
(T (W x00 x00 x00 x00 x00 x00 x00 x00)
(T (W x40 x00 x00 x00 x0c x00 x00 x00)
(T (W x18 x00 x00 x00 x0c x00 x00 x00)
(T (W x5f x77 x69 x6c x64 x5f x70 x6f)
(L (W x18 x00 x00 x00 x10 x00 x00 x00)) E)
(L (W x64 x03 x00 x00 x3c x02 x00 x00)))
(T (W x00 x00 x00 x00 x00 x00 x00 x00)
(L (W x74 x00 x00 x00 x68 x00 x00 x00))
(L (W x03 x00 x00 x00 xd0 x00 x00 x00))))
(T (W xff xff xff xff xff xff xff xff)
(T (W x00 x00 x80 x3f x00 x00 x80 x3f)
(T (W x54 x02 x00 x00 x38 x01 x00 x00)
(L (W x24 x00 x28 x00 x2c x00 x30 x00)) E)
(L (W xff xff xff xff x9c x00 x00 x00)))
(T (W x45 x26 x22 x84 xe4 x9c xf2 xcb)
(L (W x00 x00 x80 xbf x00 x00 x80 xbf))
(L (W x1c x00 x20 x00 x24 x00 x28 x00)))))))
(T (W x68 x00 x00 x00 x5c x00 x00 x00)
(T (W x50 x00 x00 x00 x44 x00 x00 x00)
(T (W x50 x00 x00 x00 x44 x00 x00 x00)
(T (W x00 x00 x80 x3f x00 x00 x80 x3f)
(T (W xff xff xff xff xff xff xff xff)
(T (W xff xff xff xff xff xff xff xff)
(L (W x00 x00 x00 x00 x12 x00 x00 x00)) E)
(L (W x45 x26 x22 x84 xe4 x9c xf2 xcb)))
(T (W x45 x26 x22 x84 xe4 x9c xf2 xcb)
(L (W x00 x00 x00 x00 x00 x00 x00 x00))
(L (W x00 x00 x00 x00 x72 x27 xff xff))))
(T (W x00 x00 x00 x00 x00 x00 x00 x00)
(T (W xff xff xff xff xff xff xff xff)
(T (W x68 x00 x00 x00 x5c x00 x00 x00)
(L (W x6c x00 x00 x00 x60 x00 x00 x00)) E)
(L (W x5f x4e x53 x5f x30 x33 x5f x43)))
(T (W xc8 x00 x00 x00 x01 x00 x00 x00)
(L (W x58 x00 x00 x00 x4c x00 x00 x00))
(L (W x18 x00 x00 x00 x10 x00 x00 x00)))))
(T (W x45 x26 x22 x84 xe4 x9c xf2 xcb)
(T (W x00 x00 x00 x00 x00 x00 x00 x00)
(T (W x18 x00 x00 x00 x0c x00 x00 x00)
(T (W x50 x00 x00 x00 x44 x00 x00 x00)
(L (W x00 x00 x80 xbf x00 x00 x80 xbf)) E)
(L (W xff xff xff xff xff xff xff xff)))
(T (W x00 x00 x00 x00 x00 x00 x00 x00)
(L (W x00 x00 x80 xbf x00 x00 x80 xbf))
(L (W xff xff xff xff xbc x00 x00 x00))))
(T (W xff xff xff xff xff xff xff xff)
(T (W x45 x26 x22 x84 xe4 x9c xf2 xcb)
(T (W x00 x00 x80 x3f x00 x00 x80 x3f)
(L (W x00 x00 x00 x00 x00 x00 x00 x00)) E)
(L (W x4c xf5 xfe xff x00 x01 x01 x01)))
(T (W x00 x00 x80 x3f x00 x00 x80 x3f)
(L (W x45 x26 x22 x84 xe4 x9c xf2 xcb))
(L (W xff xff xff xff xff xff xff xff))))))
(T (W x00 x00 x80 x3f x00 x00 x80 x3f)
(T (W x54 x00 x00 x00 x48 x00 x00 x00)
(T (W x00 x00 x00 x00 x00 x00 x00 x00)
(T (W x00 x00 x00 x00 x60 x00 x64 x00)
(T (W xff xff xff xff x03 x00 x00 x00)
(L (W x46 x53 x59 x53 x5f x4e x53 x5f)) E)
(L (W x00 x00 x00 x00 x72 xb7 xfe xff)))
(T (W xff xff xff xff xff xff xff xff)
(L (W x45 x26 x22 x84 xe4 x9c xf2 xcb))
(L (W xff xff xff xff xff xff xff xff))))
(T (W xff xff xff xff xff xff xff xff)
(T (W x00 x00 x00 x00 x00 x00 x00 x00)
(T (W x00 x00 x00 x00 x00 x00 x00 x00)
(L (W xff xff xff xff xff xff xff xff)) E)
(L (W x54 x00 x00 x00 x48 x00 x00 x00)))
(T (W x1e xdb x03 x4d x64 x31 xc6 xac)
(L (W x68 x00 x00 x00 x5c x00 x00 x00))
(L (W xff xff xff xff xff xff xff xff)))))
(T (W x45 x26 x22 x84 xe4 x9c xf2 xcb)
(T (W x00 x00 x00 x00 x00 x00 x00 x00)
(T (W x00 x00 x80 x3f x00 x00 x80 x3f)
(T (W x00 x00 x00 x00 x00 x00 x00 x00)
(L (W x74 x00 x00 x00 x68 x00 x00 x00)) E)
(L (W x00 x00 x00 x00 x00 x00 x00 x00)))
(T (W x00 x00 x80 x3f x00 x00 x80 x3f)
(L (W x00 x00 x80 xbf x00 x00 x80 xbf))
(L (W x00 x00 x00 x00 xbc x43 xff xff))))
(T (W x64 x00 x00 x00 x9c x00 x00 x00)
(T (W x82 x00 xfd xff x74 x00 x00 x00)
(T (W x00 x00 x00 x00 x00 x00 x00 x00)
(L (W x00 x00 x00 x00 x00 x00 x00 x00)) E)
(L (W xff xff xff xff xb0 x00 x00 x00)))
(T (W xff xff xff xff x03 x00 x00 x00)
(L (W x00 x00 x00 x00 x00 x00 x00 x00))
(L (W x46 x53 x59 x53 x5f x4e x53 x5f))))))))))
(T (W x18 x1c x01 x00 x6c x19 x01 x00)
(T (W x02 x00 x00 x00 x1c x01 x00 x00)
(T (W x45 x26 x22 x84 xe4 x9c xf2 xcb)
(T (W x69 x6b x65 x5f x6c x76 x31 x5f)
(T (W x45 x26 x22 x84 xe4 x9c xf2 xcb)
(T (W xff xff xff xff xff xff xff xff)
(T (W x18 x00 x00 x00 x0c x00 x00 x00)
(T (W x00 x00 x00 x00 x00 x00 x00 x00)
(T (W x00 x00 x00 x00 x00 x00 x00 x00)
(L (W x68 x00 x00 x00 x5c x00 x00 x00)) E)
(L (W xff xff xff xff xff xff xff xff)))
(T (W xff xff xff xff xff xff xff xff)
(L (W x67 x72 x6f x75 x70 x5f x6c x65))
(L (W x00 x00 x00 x00 x72 x1a xff xff))))
(T (W x00 x00 x80 x3f x00 x00 x80 x3f)
(T (W xff xff xff xff xff xff xff xff)
(T (W x4c xc8 xfd xff x00 x01 x01 x01)
(L (W x46 x53 x59 x53 x5f x4e x53 x5f)) E)
(L (W x00 x00 x80 xbf x00 x00 x80 xbf)))
(T (W xff xff xff xff xff xff xff xff)
(L (W xff xff xff xff xff xff xff xff))
(L (W x1e x00 x00 x00 x10 x00 x00 x00)))))
(T (W xff xff xff xff xff xff xff xff)
(T (W x00 x00 x00 x00 xbc x26 xfc xff)
(T (W x00 x00 x4c x00 x50 x00 x00 x00)
(T (W x00 x00 x00 x00 x00 x00 x00 x00)
(L (W x00 x00 x80 xbf x00 x00 x80 xbf)) E)
(L (W x45 x26 x22 x84 xe4 x9c xf2 xcb)))
(T (W x00 x00 x80 x3f x00 x00 x80 x3f)
(L (W xff xff xff xff xff xff xff xff))
(L (W x00 x00 x00 x00 x00 x00 x00 x00))))
(T (W x00 x00 x80 x3f x00 x00 x80 x3f)
(T (W x18 x00 x00 x00 x0c x00 x00 x00)
(T (W x10 x00 x14 x00 x00 x00 x00 x00)
(L (W x00 x00 x80 xbf x00 x00 x80 xbf)) E)
(L (W xff xff xff xff xff xff xff xff)))
(T (W x00 x00 x80 x3f x00 x00 x80 x3f)
(L (W xff xff xff xff xff xff xff xff))
(L (W x45 x26 x22 x84 xe4 x9c xf2 xcb))))))
(T (W xff xff xff xff xff xff xff xff)
(T (W x18 x00 x00 x00 x10 x00 x00 x00)
(T (W x00 x00 x80 x3f x00 x00 x80 x3f)
(T (W x01 x00 x00 x00 x04 x00 x00 x00)
(T (W x00 x00 x00 x00 x00 x00 x00 x00)
(L (W x00 x00 x80 xbf x00 x00 x80 xbf)) E)
(L (W x45 x26 x22 x84 xe4 x9c xf2 xcb)))
(T (W x00 x00 x00 x00 x00 x00 x00 x00)
(L (W xff xff xff xff xff xff xff xff))
(L (W x00 x00 x80 xbf x00 x00 x80 xbf))))
(T (W x00 x00 x00 x00 x00 x00 x00 x00)
(T (W x00 x00 x00 x00 x00 x00 x00 x00)
(T (W xb8 x01 x00 x00 xff xff xff xff)
(L (W x00 x00 x00 x00 x00 x00 x00 x00)) E)
(L (W xff xff xff xff x9c x00 x00 x00)))
(T (W x00 x00 x00 x00 x00 x00 x00 x00)
(L (W xff xff xff xff xff xff xff xff))
(L (W x00 x00 x00 x00 x00 x00 x00 x00)))))
(T (W xff xff xff xff x03 x00 x00 x00)
(T (W x50 x00 x00 x00 x44 x00 x00 x00)
(T (W x00 x00 x00 x00 x00 x00 x00 x00)
(T (W xff xff xff xff xff xff xff xff)
(L (W xff xff xff xff xff xff xff xff)) E)
(L (W x00 x00 x80 xbf x00 x00 x80 xbf)))
(T (W x68 x00 x00 x00 x5c x00 x00 x00)
(L (W x1a x36 xfe xff x9e x01 x00 x00))
(L (W x00 x00 x00 x00 x00 x00 x00 x00))))
(T (W x00 x00 x00 x00 x00 x00 x00 x00)
(T (W x03 x00 x00 x00 xd0 x00 x00 x00)
(T (W x62 x00 x00 x00 x00 x00 x00 x01)
(L (W xff xff xff xff xff xff xff xff)) E)
(L (W xff xff xff xff xff xff xff xff)))
(T (W xff xff xff xff xff xff xff xff)
(L (W xff xff xff xff xff xff xff xff))
(L (W x45 x26 x22 x84 xe4 x9c xf2 xcb)))))))
(T (W x67 x72 x6f x75 x70 x5f x6c x65)
(T (W x45 x26 x22 x84 xe4 x9c xf2 xcb)
(T (W xff xff xff xff x04 x00 x00 x00)
(T (W x82 x0b xfc xff x74 x00 x00 x00)
(T (W x34 xa4 xfc xff x3c x00 x00 x00)
(T (W x00 x00 x00 x00 x00 x00 x00 x00)
(L (W x00 x00 x80 xbf x00 x00 x80 xbf)) E)
(L (W x45 x26 x22 x84 xe4 x9c xf2 xcb)))
(T (W x4a x00 x00 x00 xff xff xff xff)
(L (W x18 x00 x00 x00 x10 x00 x00 x00))
(L (W x00 x00 x00 x00 x00 x00 x00 x00))))
(T (W x00 x00 x80 x3f x00 x00 x80 x3f)
(T (W x2c x00 x00 x00 x10 x00 x00 x00)
(T (W xff xff xff xff xff xff xff xff)
(L (W x00 x00 x00 x00 x00 x00 x00 x00)) E)
(L (W x4c xd0 xfe xff x00 x01 x01 x01)))
(T (W x04 x00 x00 x00 x42 x5c xfd xff)
(L (W xaa x01 x00 x00 xff xff xff xff))
(L (W x00 x00 x00 x00 x62 x4c xff xff)))))
(T (W xff xff xff xff xff xff xff xff)
(T (W x40 x00 x00 x00 x9c x00 x00 x00)
(T (W x00 x00 x00 x00 x00 x00 x00 x00)
(T (W x6c x01 x00 x00 xff xff xff xff)
(L (W xff xff xff xff xff xff xff xff)) E)
(L (W x00 x00 x80 xbf x00 x00 x80 xbf)))
(T (W x50 x00 x00 x00 x44 x00 x00 x00)
(L (W x00 x00 x00 x00 x00 x00 x00 x00))
(L (W x00 x00 x00 x00 x00 x00 x00 x00))))
(T (W x00 x00 x80 x3f x00 x00 x80 x3f)
(T (W x45 x26 x22 x84 xe4 x9c xf2 xcb)
(T (W x00 x00 x80 x3f x00 x00 x80 x3f)
(L (W x46 x53 x59 x53 x5f x4e x53 x5f)) E)
(L (W xff xff xff xff xff xff xff xff)))
(T (W xff xff xff xff xff xff xff xff)
(L (W xff xff xff xff xff xff xff xff))
(L (W x00 x00 x00 x00 x00 x00 x00 x00))))))
(T (W xff xff xff xff xff xff xff xff)
(T (W xff xff xff xff xff xff xff xff)
(T (W x68 x00 x00 x00 x5c x00 x00 x00)
(T (W xff xff xff xff xff xff xff xff)
(T (W x00 x00 x00 x00 x00 x00 x00 x00)
(L (W x00 x00 x80 xbf x00 x00 x80 xbf)) E)
(L (W x82 x9b xfe xff x74 x00 x00 x00)))
(T (W x00 x00 x00 x00 x12 x00 x00 x00)
(L (W x34 x34 xfe xff x28 x00 x00 x00))
(L (W x00 x00 x80 xbf x00 x00 x80 xbf))))
(T (W x45 x26 x22 x84 xe4 x9c xf2 xcb)
(T (W x00 x00 x80 x3f x00 x00 x80 x3f)
(T (W x12 xf8 xff xff x43 x00 x00 x00)
(L (W xff xff xff xff xff xff xff xff)) E)
(L (W xc4 x00 x00 x00 x01 x00 x00 x00)))
(T (W x00 x00 x00 x00 x00 x00 x00 x00)
(L (W xff xff xff xff xff xff xff xff))
(L (W x49 xa1 x68 x4a xeb x5f xdd x3d)))))
(T (W xff xff xff xff xff xff xff xff)
(T (W x6c x00 x00 x00 x60 x00 x00 x00)
(T (W x00 x00 x00 x00 x00 x00 x00 x00)
(T (W x00 x00 x00 x00 xbc xbe xfd xff)
(L (W xff xff xff xff xff xff xff xff)) E)
(L (W x49 xa1 x68 x4a xeb x5f xdd x3d)))
(T (W xc0 x00 x00 x00 x01 x00 x00 x00)
(L (W xff xff xff xff xff xff xff xff))
(L (W x00 x00 x00 x00 x00 x00 x00 x00))))
(T (W x00 x00 x00 x00 x00 x00 x00 x00)
(T (W xff xff xff xff xff xff xff xff)
(T (W x00 x00 x80 x3f x00 x00 x80 x3f)
(L (W x00 x00 x80 xbf x00 x00 x80 xbf)) E)
(L (W xff xff xff xff xff xff xff xff)))
(T (W xff xff xff xff x02 x00 x00 x00)
(L (W xff xff xff xff xb4 x00 x00 x00))
(L (W x54 x00 x00 x00 x48 x00 x00 x00))))))))
(T (W x00 x00 x00 x00 x00 x00 x00 x00)
(T (W xff xff xff xff xff xff xff xff)
(T (W xdc xaf xfb xff x1c x00 x00 x00)
(T (W x00 x00 x80 x3f x00 x00 x80 x3f)
(T (W x00 x00 x00 x00 x00 x00 x00 x00)
(T (W x40 x00 x00 x00 x9c x00 x00 x00)
(T (W xff xff xff xff xff xff xff xff)
(L (W x72 x00 x00 x00 xff xff xff xff)) E)
(L (W x00 x00 x00 x00 x00 x00 x00 x00)))
(T (W x00 x00 x80 x3f x00 x00 x80 x3f)
(L (W x61 x72 x6c x69 x6b x65 x5f x6c))
(L (W x32 x09 xff xff x78 x00 x00 x00))))
(T (W xd2 x90 xff xff x23 x00 x00 x00)
(T (W x00 x00 x80 x3f x00 x00 x80 x3f)
(T (W x00 x00 x00 x00 x00 x00 x00 x00)
(L (W xff xff xff xff xa8 x00 x00 x00)) E)
(L (W xa9 x01 x00 x00 xff xff xff xff)))
(T (W x00 x00 x80 x3f x00 x00 x80 x3f)
(L (W x45 x26 x22 x84 xe4 x9c xf2 xcb))
(L (W x00 x00 x80 xbf x00 x00 x80 xbf)))))
(T (W x00 x00 x00 x00 x00 x00 x00 x00)
(T (W x3e x00 x00 x00 x0c x00 x00 x00)
(T (W x82 xa7 xfc xff x74 x00 x00 x00)
(T (W x50 x00 x00 x00 x44 x00 x00 x00)
(L (W x00 x00 x00 x00 x72 xbe xff xff)) E)
(L (W xb8 x00 x00 x00 x64 x00 x00 x00)))
(T (W xff xff xff xff xff xff xff xff)
(L (W x82 x27 xfe xff x74 x00 x00 x00))
(L (W xff xff xff xff xff xff xff xff))))
(T (W xff xff xff xff xff xff xff xff)
(T (W x00 x00 x00 x00 x00 x00 x00 x00)
(T (W x00 x00 x80 xbf x00 x00 x80 xbf)
(L (W x68 x00 x00 x00 x00 x00 x62 x00)) E)
(L (W x00 x00 x80 xbf x00 x00 x80 xbf)))
(T (W x6b x65 x5f x77 x61 x72 x6c x69)
(L (W x00 x00 x00 x00 x00 x00 x00 x00))
(L (W xff xff xff xff xff xff xff xff))))))
(T (W x00 x00 x80 x3f x00 x00 x80 x3f)
(T (W x00 x00 x80 x3f x00 x00 x80 x3f)
(T (W x00 x00 x00 x00 x00 x00 x00 x00)
(T (W x68 x00 x00 x00 x5c x00 x00 x00)
(T (W xbc x00 x00 x00 xb0 x00 x00 x00)
(L (W x00 x00 x00 x00 x00 x00 x00 x00)) E)
(L (W xcb x81 x56 x1d xca xa9 x9c xfd)))
(T (W xff xff xff xff x9c x00 x00 x00)
(L (W x00 x00 x80 x3f x00 x00 x80 x3f))
(L (W x00 x00 x00 x00 x72 x2e xff xff))))
(T (W xff xff xff xff xff xff xff xff)
(T (W xff xff xff xff xff xff xff xff)
(T (W x50 x00 x00 x00 x44 x00 x00 x00)
(L (W x00 x00 x80 xbf x00 x00 x80 xbf)) E)
(L (W x00 x00 x00 x00 x00 x00 x00 x00)))
(T (W x18 x00 x00 x00 x0c x00 x00 x00)
(L (W x00 x00 x80 xbf x00 x00 x80 xbf))
(L (W xff xff xff xff xc8 x00 x00 x00)))))
(T (W x00 x00 x00 x00 x00 x00 x00 x00)
(T (W xff xff xff xff xff xff xff xff)
(T (W x00 x00 x00 x00 xbc xba xfc xff)
(T (W xff xff xff xff xff xff xff xff)
(L (W x54 x00 x00 x00 x48 x00 x00 x00)) E)
(L (W xff xff xff xff xff xff xff xff)))
(T (W x5f x4e x53 x5f x30 x33 x5f x43)
(L (W x50 x00 x00 x00 x44 x00 x00 x00))
(L (W x00 x00 x80 xbf x00 x00 x80 xbf))))
(T (W x00 x00 x00 x00 xbc x7a xfc xff)
(T (W x00 x00 x80 x3f x00 x00 x80 x3f)
(T (W x2c x00 x34 x00 x04 x00 x08 x00)
(L (W x00 x00 x00 x00 x00 x00 x00 x00)) E)
(L (W x6c x00 x00 x00 x60 x00 x00 x00)))
(T (W x00 x00 x80 x3f x00 x00 x80 x3f)
(L (W x45 x26 x22 x84 xe4 x9c xf2 xcb))
(L (W x45 x26 x22 x84 xe4 x9c xf2 xcb)))))))
(T (W x45 x26 x22 x84 xe4 x9c xf2 xcb)
(T (W x00 x00 x80 x3f x00 x00 x80 x3f)
(T (W x00 x00 x00 x00 x00 x00 x00 x00)
(T (W x00 x00 x00 x00 x00 x00 x00 x00)
(T (W x01 x00 x00 x00 x3e x00 x00 x00)
(T (W xb8 x00 x00 x00 xac x00 x00 x00)
(L (W x34 x01 x00 x00 x04 x00 x00 x00)) E)
(L (W x00 x00 x00 x00 x00 x00 x00 x00)))
(T (W x54 x00 x00 x00 x48 x00 x00 x00)
(L (W x46 x53 x59 x53 x5f x4e x53 x5f))
(L (W xff xff xff xff xff xff xff xff))))
(T (W x4a x9a xff xff x00 x00 x01 x01)
(T (W x45 x26 x22 x84 xe4 x9c xf2 xcb)
(T (W x50 x00 x00 x00 x44 x00 x00 x00)
(L (W x00 x00 x80 xbf x00 x00 x80 xbf)) E)
(L (W xd3 x00 x00 x00 xff xff xff xff)))
(T (W x00 x00 x80 x3f x00 x00 x80 x3f)
(L (W x00 x00 x80 xbf x00 x00 x80 xbf))
(L (W x6c x00 x00 x00 x60 x00 x00 x00)))))
(T (W x00 x00 x00 x00 x00 x00 x00 x00)
(T (W x82 x4d xfe xff x00 x00 x01 x01)
(T (W x00 x00 x80 x3f x00 x00 x80 x3f)
(T (W x45 x26 x22 x84 xe4 x9c xf2 xcb)
(L (W x00 x00 x00 x00 x00 x00 x00 x00)) E)
(L (W x03 x00 x00 x00 xd8 x00 x00 x00)))
(T (W x04 x00 x00 x00 x7c x03 x00 x00)
(L (W x45 x26 x22 x84 xe4 x9c xf2 xcb))
(L (W x45 x26 x22 x84 xe4 x9c xf2 xcb))))
(T (W x64 x00 x00 x00 x9c x00 x00 x00)
(T (W x00 x00 x00 x00 x00 x00 x00 x00)
(T (W x6f x6b x65 x5f x77 x61 x72 x6c)
(L (W x58 x00 x5c x00 x60 x00 x64 x00)) E)
(L (W x68 x00 x00 x00 x5c x00 x00 x00)))
(T (W x00 x00 x80 x3f x00 x00 x80 x3f)
(L (W x00 x00 x00 x00 x00 x00 x00 x00))
(L (W xff xff xff xff xff xff xff xff))))))
(T (W x00 x00 x00 x00 x00 x00 x00 x00)
(T (W x45 x26 x22 x84 xe4 x9c xf2 xcb)
(T (W xdc x27 xfc xff x3e x00 x00 x00)
(T (W x45 x26 x22 x84 xe4 x9c xf2 xcb)
(T (W x68 x00 x00 x00 x5c x00 x00 x00)
(L (W x00 x00 x00 x00 x00 x00 x00 x00)) E)
(L (W xff xff xff xff xff xff xff xff)))
(T (W xff xff xff xff xff xff xff xff)
(L (W x00 x00 x00 x00 x00 x00 x00 x00))
(L (W x03 x00 x00 x00 xd8 x00 x00 x00))))
(T (W xff xff xff xff xff xff xff xff)
(T (W x00 x00 x00 x00 x62 xe0 xfc xff)
(T (W xff xff xff xff xff xff xff xff)
(L (W x45 x26 x22 x84 xe4 x9c xf2 xcb)) E)
(L (W x00 x00 x00 x00 x00 x00 x00 x00)))
(T (W xff xff xff xff xff xff xff xff)
(L (W x00 x00 x80 xbf x00 x00 x80 xbf))
(L (W xff xff xff xff xff xff xff xff)))))
(T (W x00 x00 x00 x00 x00 x00 x00 x00)
(T (W xaf x00 x00 x00 xff xff xff xff)
(T (W x00 x00 x00 x00 x00 x00 x00 x00)
(T (W x00 x00 x00 x00 x00 x00 x00 x00)
(L (W x45 x26 x22 x84 xe4 x9c xf2 xcb)) E)
(L (W xff xff xff xff xff xff xff xff)))
(T (W x45 x26 x22 x84 xe4 x9c xf2 xcb)
(L (W x00 x00 x80 xbf x00 x00 x80 xbf))
(L (W x00 x00 x80 xbf x00 x00 x80 xbf))))
(T (W x18 x00 x00 x00 x0c x00 x00 x00)
(T (W x00 x00 x80 x3f x00 x00 x80 x3f)
(T (W xb4 x0c x00 x00 xa0 x0b x00 x00)
(L (W x5c x00 x60 x00 x62 x00 x00 x00)) E)
(L (W x45 x26 x22 x84 xe4 x9c xf2 xcb)))
(T (W x68 x00 x00 x00 x5c x00 x00 x00)
(L (W x00 x00 x00 x00 x12 x00 x00 x00))
(L (W x2c x01 x00 x00 x04 x00 x00 x00)))))))))
(T (W x00 x00 x00 x00 x00 x00 x00 x00)
(T (W xff xff xff xff x03 x00 x00 x00)
(T (W xbc x00 x00 x00 xb0 x00 x00 x00)
(T (W x01 x00 x00 x00 xa0 x00 x00 x00)
(T (W x00 x00 x00 x00 x00 x00 x00 x00)
(T (W xff xff xff xff xff xff xff xff)
(T (W x00 x00 x80 x3f x00 x00 x80 x3f)
(T (W x01 x00 x00 x00 x9c x00 x00 x00)
(L (W xff xff xff xff xff xff xff xff)) E)
(L (W xff xff xff xff xff xff xff xff)))
(T (W x00 x00 x00 x00 x00 x00 x00 x00)
(L (W x18 x00 x00 x00 x0c x00 x00 x00))
(L (W x00 x00 x00 x00 x00 x00 x00 x00))))
(T (W x64 x00 x00 x00 x9c x00 x00 x00)
(T (W x00 x00 x00 x00 x00 x00 x00 x00)
(T (W x18 x01 x00 x00 x04 x00 x00 x00)
(L (W x00 x00 x00 x00 x00 x00 x00 x00)) E)
(L (W xff xff xff xff xff xff xff xff)))
(T (W x4c x45 x41 x52 x45 x44 x00 x00)
(L (W x00 x00 x00 x00 x00 x00 x00 x00))
(L (W x00 x00 x00 x00 x00 x00 x00 x00)))))
(T (W x12 x02 xfe xff x8d x01 x00 x00)
(T (W xff xff xff xff xff xff xff xff)
(T (W x00 x00 x80 x3f x00 x00 x80 x3f)
(T (W x45 x26 x22 x84 xe4 x9c xf2 xcb)
(L (W xff xff xff xff xff xff xff xff)) E)
(L (W x50 x00 x00 x00 x44 x00 x00 x00)))
(T (W x82 x25 xfd xff x74 x00 x00 x00)
(L (W x00 x00 x00 x00 x00 x00 x00 x00))
(L (W x00 x00 x80 xbf x00 x00 x80 xbf))))
(T (W x00 x00 x80 x3f x00 x00 x80 x3f)
(T (W xff xff xff xff xff xff xff xff)
(T (W xff xff xff xff xff xff xff xff)
(L (W x45 x26 x22 x84 xe4 x9c xf2 xcb)) E)
(L (W x00 x00 x00 x00 x00 x00 x00 x00)))
(T (W xff xff xff xff xff xff xff xff)
(L (W x00 x00 x00 x00 x00 x00 x00 x00))
(L (W x00 x00 x80 xbf x00 x00 x80 xbf))))))
(T (W x40 x00 x00 x00 x0c x00 x00 x00)
(T (W x00 x00 x00 x00 x01 x00 x00 x00)
(T (W xff xff xff xff xff xff xff xff)
(T (W x45 x26 x22 x84 xe4 x9c xf2 xcb)
(T (W x00 x00 x80 x3f x00 x00 x80 x3f)
(L (W xff xff xff xff xff xff xff xff)) E)
(L (W xff xff xff xff xff xff xff xff)))
(T (W x45 x26 x22 x84 xe4 x9c xf2 xcb)
(L (W x00 x00 x00 x00 x00 x00 x00 x00))
(L (W x50 x00 x00 x00 x44 x00 x00 x00))))
(T (W x4c x5a xfc xff x00 x01 x01 x01)
(T (W x6c x00 x00 x00 x60 x00 x00 x00)
(T (W x1a x00 x00 x00 x67 x72 x6f x75)
(L (W x00 x00 x00 x00 x00 x00 x00 x00)) E)
(L (W xff xff xff xff xff xff xff xff)))
(T (W x00 x00 x80 x3f x00 x00 x80 x3f)
(L (W x00 x00 x00 x00 x00 x00 x00 x00))
(L (W x00 x00 x80 xbf x00 x00 x80 xbf)))))
(T (W x00 x00 x00 x00 x00 x00 x00 x00)
(T (W xff xff xff xff xff xff xff xff)
(T (W x00 x00 x00 x00 x00 x00 x00 x00)
(T (W x70 x5f x6c x65 x61 x64 x65 x72)
(L (W x30 x33 x5f x43 x4c x45 x41 x52)) E)
(L (W x00 x00 x00 x00 xbc xb8 xfe xff)))
(T (W xff xff xff xff xff xff xff xff)
(L (W x00 x00 x00 x00 x00 x00 x00 x00))
(L (W x45 x26 x22 x84 xe4 x9c xf2 xcb))))
(T (W x50 x00 x00 x00 x44 x00 x00 x00)
(T (W x00 x00 x00 x00 x04 x00 x00 x00)
(T (W xff xff xff xff xff xff xff xff)
(L (W x4c xfa xff xff x00 x01 x01 x01)) E)
(L (W x46 x53 x59 x53 x5f x4e x53 x5f)))
(T (W x00 x00 x00 x00 x00 x00 x00 x00)
(L (W x00 x00 x00 x00 x00 x00 x00 x00))
(L (W x00 x00 x80 xbf x00 x00 x80 xbf)))))))
(T (W xff xff xff xff xff xff xff xff)
(T (W x00 x00 x00 x00 x00 x00 x00 x00)
(T (W x40 x00 x00 x00 x10 x00 x00 x00)
(T (W xff xff xff xff xff xff xff xff)
(T (W x00 x00 x80 x3f x00 x00 x80 x3f)
(T (W x00 x00 x80 x3f x00 x00 x80 x3f)
(L (W xff xff xff xff xb0 x00 x00 x00)) E)
(L (W xff xff xff xff xff xff xff xff)))
(T (W x49 xa1 x68 x4a xeb x5f xdd x3d)
(L (W xff xff xff xff xff xff xff xff))
(L (W x00 x00 x80 xbf x00 x00 x80 xbf))))
(T (W xbc x00 x00 x00 xb0 x00 x00 x00)
(T (W x45 x26 x22 x84 xe4 x9c xf2 xcb)
(T (W x45 x26 x22 x84 xe4 x9c xf2 xcb)
(L (W x00 x00 x00 x00 x00 x00 x00 x00)) E)
(L (W xff xff xff xff xff xff xff xff)))
(T (W x45 x26 x22 x84 xe4 x9c xf2 xcb)
(L (W x00 x00 x00 x00 x00 x00 x00 x00))
(L (W x00 x00 x80 xbf x00 x00 x80 xbf)))))
(T (W x00 x00 x00 x00 x00 x00 x00 x00)
(T (W xff xff xff xff xff xff xff xff)
(T (W x00 x00 x80 x3f x00 x00 x80 x3f)
(T (W x00 x00 x00 x00 x00 x00 x00 x00)
(L (W x00 x00 x00 x00 xda xb8 xff xff)) E)
(L (W x6c x00 x00 x00 x60 x00 x00 x00)))
(T (W x03 x00 x00 x00 xcc x00 x00 x00)
(L (W xff xff xff xff xff xff xff xff))
(L (W x6c x00 x00 x00 x60 x00 x00 x00))))
(T (W x00 x00 x80 x3f x00 x00 x80 x3f)
(T (W x00 x00 x00 x00 x72 x04 xfd xff)
(T (W x5f x43 x41 x4e x4e x4f x54 x5f)
(L (W x00 x00 x80 xbf x00 x00 x80 xbf)) E)
(L (W x00 x00 x00 x00 x00 x00 x00 x00)))
(T (W x52 x77 xfd xff x9c x01 x00 x00)
(L (W x45 x44 x00 x00 x00 x00 x00 x00))
(L (W x00 x00 x80 xbf x00 x00 x80 xbf))))))
(T (W x00 x00 x00 x00 x00 x00 x00 x00)
(T (W x83 xcb x15 x8e x88 x87 x72 x04)
(T (W xff xff xff xff x04 x00 x00 x00)
(T (W x00 x00 x00 x00 x00 x00 x00 x00)
(T (W x45 x26 x22 x84 xe4 x9c xf2 xcb)
(L (W xff xff xff xff xff xff xff xff)) E)
(L (W x30 x33 x5f x43 x4c x45 x41 x52)))
(T (W x00 x00 x80 x3f x00 x00 x80 x3f)
(L (W xff xff xff xff xff xff xff xff))
(L (W x00 x01 x01 x01 x32 x5d xff xff))))
(T (W x50 x00 x00 x00 x44 x00 x00 x00)
(T (W xff xff xff xff x9c x00 x00 x00)
(T (W x00 x00 x00 x00 x00 x00 x00 x00)
(L (W x00 x00 x00 x00 x00 x00 x00 x00)) E)
(L (W x2c x01 x00 x00 x04 x00 x00 x00)))
(T (W x00 x00 x80 x3f x00 x00 x80 x3f)
(L (W x00 x00 x00 x00 x00 x00 x00 x00))
(L (W x54 x00 x00 x00 x48 x00 x00 x00)))))
(T (W x48 x03 x00 x00 x34 x02 x00 x00)
(T (W xff xff xff xff xff xff xff xff)
(T (W x00 x00 x00 x00 x02 x00 x00 x00)
(T (W xff xff xff xff xff xff xff xff)
(L (W x00 x00 x00 x00 x00 x00 x00 x00)) E)
(L (W x29 x00 x00 x00 x2c x00 x00 x00)))
(T (W x54 x02 x00 x00 x34 x01 x00 x00)
(L (W x00 x00 x00 x00 x00 x00 x00 x00))
(L (W x4f x84 x6f x8b xe8 xcb x63 xb7))))
(T (W x68 x00 x00 x00 x5c x00 x00 x00)
(T (W x45 x44 x00 x00 x00 x00 x00 x00)
(T (W x4c x02 xfe xff x00 x01 x01 x01)
(L (W x00 x00 x00 x00 x18 x00 x1c x00)) E)
(L (W x00 x00 x00 x00 x00 x00 x00 x00)))
(T (W x00 x00 x00 x00 x00 x00 x00 x00)
(L (W x00 x00 x00 x00 x00 x00 x00 x00))
(L (W xc4 x00 x00 x00 x02 x00 x00 x00))))))))
(T (W xff xff xff xff xff xff xff xff)
(T (W x00 x00 x80 x3f x00 x00 x80 x3f)
(T (W x00 x00 x80 x3f x00 x00 x80 x3f)
(T (W x68 x00 x00 x00 x5c x00 x00 x00)
(T (W x00 x00 x80 x3f x00 x00 x80 x3f)
(T (W xff xff xff xff xff xff xff xff)
(T (W xdc x91 xfd xff x21 x00 x00 x00)
(L (W x49 xa1 x68 x4a xeb x5f xdd x3d)) E)
(L (W x45 x26 x22 x84 xe4 x9c xf2 xcb)))
(T (W xff xff xff xff xff xff xff xff)
(L (W x00 x00 x00 x00 x00 x00 x00 x00))
(L (W xff xff xff xff xff xff xff xff))))
(T (W x00 x00 x00 x00 x00 x00 x00 x00)
(T (W xff xff xff xff xff xff xff xff)
(T (W x82 xc9 xfd xff x74 x00 x00 x00)
(L (W xff xff xff xff xff xff xff xff)) E)
(L (W x00 x00 x00 x00 x00 x00 x00 x00)))
(T (W xff xff xff xff xac x00 x00 x00)
(L (W xb8 x4c xfe xff xe2 x4f xfe xff))
(L (W xff xff xff xff xff xff xff xff)))))
(T (W x4c xee xfb xff x00 x01 x01 x01)
(T (W x00 x00 x80 x3f x00 x00 x80 x3f)
(T (W xff xff xff xff xff xff xff xff)
(T (W xff xff xff xff x03 x00 x00 x00)
(L (W x03 x00 x00 x00 xc8 x00 x00 x00)) E)
(L (W x00 x00 x00 x00 x12 x00 x00 x00)))
(T (W x12 x00 x00 x00 x46 x53 x59 x53)
(L (W xff xff xff xff xff xff xff xff))
(L (W x00 x00 x00 x00 x00 x00 x00 x00))))
(T (W x00 x00 x00 x00 x00 x00 x00 x00)
(T (W x00 x00 x80 x3f x00 x00 x80 x3f)
(T (W x64 x00 x00 x00 x91 x00 x00 x00)
(L (W xff xff xff xff xff xff xff xff)) E)
(L (W x45 x26 x22 x84 xe4 x9c xf2 xcb)))
(T (W x00 x00 x80 x3f x00 x00 x80 x3f)
(L (W x18 x00 x00 x00 x0c x00 x00 x00))
(L (W xff xff xff xff xff xff xff xff))))))
(T (W x00 x00 x00 x00 xbc xbc xfb xff)
(T (W x18 x00 x00 x00 x0c x00 x00 x00)
(T (W x00 x00 x80 x3f x00 x00 x80 x3f)
(T (W xff xff xff xff xff xff xff xff)
(T (W xa3 x01 x00 x00 xff xff xff xff)
(L (W x49 xa1 x68 x4a xeb x5f xdd x3d)) E)
(L (W x00 x00 x80 xbf x00 x00 x80 xbf)))
(T (W xff xff xff xff xff xff xff xff)
(L (W x03 x00 x00 x00 xbc x00 x00 x00))
(L (W x00 x00 x00 x00 x00 x00 x00 x00))))
(T (W x00 x00 x00 x00 x00 x00 x00 x00)
(T (W x00 x00 x00 x00 x00 x00 x00 x00)
(T (W xff xff xff xff xff xff xff xff)
(L (W xff xff xff xff xff xff xff xff)) E)
(L (W x00 x00 x80 xbf x00 x00 x80 xbf)))
(T (W x9d x01 x00 x00 xff xff xff xff)
(L (W xff xff xff xff x94 x00 x00 x00))
(L (W xff xff xff xff x01 x00 x00 x00)))))
(T (W x00 x00 x80 x3f x00 x00 x80 x3f)
(T (W x00 x00 x00 x00 x00 x00 x00 x00)
(T (W x64 x00 x00 x00 x9c x00 x00 x00)
(T (W x00 x00 x00 x00 x00 x00 x00 x00)
(L (W xcc x00 x00 x00 x02 x00 x00 x00)) E)
(L (W x00 x00 x00 x00 x12 x00 x00 x00)))
(T (W x00 x00 x80 x3f x00 x00 x80 x3f)
(L (W x14 x00 x00 x00 x0c x00 x00 x00))
(L (W xff xff xff xff xff xff xff xff))))
(T (W xff xff xff xff xff xff xff xff)
(T (W x50 x00 x00 x00 x44 x00 x00 x00)
(T (W x00 x00 x00 x00 x00 x00 x00 x00)
(L (W xff xff xff xff xbc x00 x00 x00)) E)
(L (W x03 x00 x00 x00 xd0 x00 x00 x00)))
(T (W xff xff xff xff xc8 x00 x00 x00)
(L (W x00 x00 x80 xbf x00 x00 x80 xbf))
(L (W x00 x00 x80 xbf x00 x00 x80 xbf)))))))
(T (W xff xff xff xff xff xff xff xff)
(T (W xff xff xff xff x03 x00 x00 x00)
(T (W x82 xd1 xfb xff x74 x00 x00 x00)
(T (W x00 x00 x80 x3f x00 x00 x80 x3f)
(T (W xff xff xff xff xff xff xff xff)
(T (W xff xff xff xff xff xff xff xff)
(L (W x45 x26 x22 x84 xe4 x9c xf2 xcb)) E)
(L (W x00 x00 x80 xbf x00 x00 x80 xbf)))
(T (W xff xff xff xff xff xff xff xff)
(L (W x2a x00 x00 x00 x2d x00 x00 x00))
(L (W x00 x00 x00 x00 x00 x00 x00 x00))))
(T (W x00 x00 x00 x00 x00 x00 x00 x00)
(T (W xff xff xff xff xff xff xff xff)
(T (W xff xff xff xff x03 x00 x00 x00)
(L (W xff xff xff xff x9c x00 x00 x00)) E)
(L (W x00 x00 x00 x00 x00 x00 x00 x00)))
(T (W xff xff xff xff xff xff xff xff)
(L (W x00 x01 x01 x01 x32 x91 xfe xff))
(L (W xff xff xff xff xff xff xff xff)))))
(T (W x00 x00 x80 x3f x00 x00 x80 x3f)
(T (W x00 x00 x00 x00 x00 x00 x00 x00)
(T (W xff xff xff xff xff xff xff xff)
(T (W x68 x00 x00 x00 x5c x00 x00 x00)
(L (W x45 x26 x22 x84 xe4 x9c xf2 xcb)) E)
(L (W x1b x00 x00 x00 x10 x00 x00 x00)))
(T (W x00 x00 x80 x3f x00 x00 x80 x3f)
(L (W xff xff xff xff xb0 x00 x00 x00))
(L (W x82 x51 xff xff xc6 x00 x00 x00))))
(T (W x00 x00 x00 x00 x02 x00 x00 x00)
(T (W x6c x00 x00 x00 x60 x00 x00 x00)
(T (W x28 x00 x2c x00 x30 x00 x34 x00)
(L (W xbc x00 x00 x00 x1e x00 x00 x00)) E)
(L (W xb0 x00 x00 x00 x64 x00 x00 x00)))
(T (W x82 x71 xfd xff x74 x00 x00 x00)
(L (W x45 x26 x22 x84 xe4 x9c xf2 xcb))
(L (W x20 x00 x00 x00 x0c x00 x00 x00))))))
(T (W x00 x00 x80 x3f x00 x00 x80 x3f)
(T (W x82 xe1 xfb xff x74 x00 x00 x00)
(T (W x45 x26 x22 x84 xe4 x9c xf2 xcb)
(T (W x00 x00 x00 x00 x00 x00 x00 x00)
(T (W xff xff xff xff xff xff xff xff)
(L (W x00 x00 x00 x00 x00 x00 x00 x00)) E)
(L (W x00 x00 x00 x00 x00 x00 x00 x00)))
(T (W x8a xd0 x35 x04 xdd xd9 xb0 x49)
(L (W x00 x00 x80 xbf x00 x00 x80 xbf))
(L (W xff xff xff xff xff xff xff xff))))
(T (W xdc x69 xfc xff x3c x00 x00 x00)
(T (W x4f x84 x6f x8b xe8 xcb x63 xb7)
(T (W x00 x00 x80 x3f x00 x00 x80 x3f)
(L (W x64 x00 x08 x00 x00 x00 x00 x00)) E)
(L (W x18 x00 x00 x00 x10 x00 x00 x00)))
(T (W x00 x00 x00 x00 x00 x00 x00 x00)
(L (W x45 x26 x22 x84 xe4 x9c xf2 xcb))
(L (W xdc x69 xff xff x1b x00 x00 x00)))))
(T (W x45 x26 x22 x84 xe4 x9c xf2 xcb)
(T (W x00 x00 x00 x00 x00 x00 x00 x00)
(T (W x82 xc1 xfc xff x74 x00 x00 x00)
(T (W x00 x00 x80 x3f x00 x00 x80 x3f)
(L (W xff xff xff xff xc4 x00 x00 x00)) E)
(L (W x00 x00 x00 x00 x00 x00 x00 x00)))
(T (W x50 x00 x00 x00 x44 x00 x00 x00)
(L (W x18 x00 x00 x00 x0c x00 x00 x00))
(L (W xff xff xff xff xff xff xff xff))))
(T (W xff xff xff xff xff xff xff xff)
(T (W x45 x26 x22 x84 xe4 x9c xf2 xcb)
(L (W x45 x26 x22 x84 xe4 x9c xf2 xcb))
(L (W xff xff xff xff xff xff xff xff)))
(T (W xff xff xff xff xff xff xff xff)
(L (W x00 x00 x80 xbf x00 x00 x80 xbf))
(L (W x00 x00 x00 x00 x00 x00 x00 x00))))))))))))
(T (W x00 x74 x03 x00 xcc x6a x03 x00)
(T (W x40 xb9 x02 x00 xe4 xb6 x02 x00)
(T (W x10 x1e x02 x00 xcc x1b x02 x00)
(T (W xc8 xad x00 x00 x7c xab x00 x00)
(T (W x45 x26 x22 x84 xe4 x9c xf2 xcb)
(T (W x00 x00 x00 x00 x00 x00 x00 x00)
(T (W x00 x00 x00 x00 x00 x00 x00 x00)
(T (W xff xff xff xff xff xff xff xff)
(T (W xb8 x00 x00 x00 xac x00 x00 x00)
(T (W x00 x00 x00 x00 x00 x00 x00 x00)
(T (W x1a x00 x00 x00 x67 x72 x6f x75)
(L (W x18 x00 x00 x00 x0c x00 x00 x00)) E)
(L (W xff xff xff xff xff xff xff xff)))
(T (W x4a x00 x00 x00 xff xff xff xff)
(L (W x67 x72 x6f x75 x70 x5f x6c x65))
(L (W x00 x00 x00 x00 x00 x00 x00 x00))))
(T (W x00 x00 x80 x3f x00 x00 x80 x3f)
(T (W xa6 x01 x00 x00 xff xff xff xff)
(T (W x45 x26 x22 x84 xe4 x9c xf2 xcb)
(L (W x00 x00 x00 x00 x00 x00 x00 x00)) E)
(L (W x00 x00 x80 xbf x00 x00 x80 xbf)))
(T (W x02 x00 x00 x00 xff xff xff xff)
(L (W x00 x00 x00 x00 x22 x43 xfe xff))
(L (W x46 x53 x59 x53 x5f x4e x53 x5f)))))
(T (W x20 x01 x00 x00 x04 x00 x00 x00)
(T (W xff xff xff xff x03 x00 x00 x00)
(T (W xff xff xff xff xff xff xff xff)
(T (W x00 x00 x00 x00 x00 x00 x00 x00)
(L (W x6c x00 x00 x00 x60 x00 x00 x00)) E)
(L (W x00 x00 x80 xbf x00 x00 x80 xbf)))
(T (W x00 x00 x80 x3f x00 x00 x80 x3f)
(L (W xff xff xff xff xff xff xff xff))
(L (W x4f x84 x6f x8b xe8 xcb x63 xb7))))
(T (W x50 x00 x00 x00 x44 x00 x00 x00)
(T (W x45 x26 x22 x84 xe4 x9c xf2 xcb)
(T (W x00 x00 x00 x00 x00 x00 x00 x00)
(L (W x45 x26 x22 x84 xe4 x9c xf2 xcb)) E)
(L (W xff xff xff xff xff xff xff xff)))
(T (W x00 x00 x00 x00 x7c x65 xfd xff)
(L (W xa9 x01 x00 x00 xff xff xff xff))
(L (W x3c x00 x00 x00 x00 x00 x80 xbf))))))
(T (W x00 x00 x00 x00 x00 x00 x00 x00)
(T (W xff xff xff xff xff xff xff xff)
(T (W x01 x00 x00 x00 x9c x00 x00 x00)
(T (W x00 x00 x00 x00 x00 x00 x00 x00)
(T (W x00 x00 x00 x00 x00 x00 x00 x00)
(L (W xf2 x93 xff xff x78 x00 x00 x00)) E)
(L (W xff xff xff xff xc4 x00 x00 x00)))
(T (W x00 x00 x00 x00 x00 x00 x00 x00)
(L (W x00 x00 x00 x00 x00 x00 x00 x00))
(L (W x00 x00 x80 xbf x00 x00 x80 xbf))))
(T (W x00 x00 x80 x3f x00 x00 x80 x3f)
(T (W x00 x00 x00 x00 x00 x00 x00 x00)
(T (W x00 x00 x00 x00 x00 x00 x00 x00)
(L (W x1f x00 x00 x00 x10 x00 x00 x00)) E)
(L (W x03 x00 x00 x00 xd8 x00 x00 x00)))
(T (W x00 x00 x00 x00 x00 x00 x00 x00)
(L (W xff xff xff xff xff xff xff xff))
(L (W x00 x00 x00 x00 x00 x00 x00 x00)))))
(T (W xff xff xff xff xff xff xff xff)
(T (W x01 x00 x00 x00 xa0 x00 x00 x00)
(T (W x00 x00 x00 x00 x00 x00 x00 x00)
(T (W x63 x01 x00 x00 xff xff xff xff)
(L (W xff xff xff xff xff xff xff xff)) E)
(L (W x54 x00 x00 x00 x48 x00 x00 x00)))
(T (W x18 x00 x00 x00 x0c x00 x00 x00)
(L (W x00 x00 x00 x00 x00 x00 x00 x00))
(L (W x4f x84 x6f x8b xe8 xcb x63 xb7))))
(T (W x00 x00 x80 x3f x00 x00 x80 x3f)
(T (W xff xff xff xff xff xff xff xff)
(T (W x00 x00 x00 x00 x7c xf5 xfd xff)
(L (W x00 x00 x00 x00 x00 x00 x00 x00)) E)
(L (W xba x0a xff xff xc9 x01 x00 x00)))
(T (W xff xff xff xff xff xff xff xff)
(L (W xaa x01 x00 x00 xff xff xff xff))
(L (W x3c x00 x00 x00 x00 x00 x80 xbf)))))))
(T (W x6b x65 x5f x66 x69 x73 x68 x5f)
(T (W xff xff xff xff xff xff xff xff)
(T (W xff xff xff xff xff xff xff xff)
(T (W x45 x26 x22 x84 xe4 x9c xf2 xcb)
(T (W x00 x00 x00 x00 x00 x00 x00 x00)
(T (W x00 x00 x80 x3f x00 x00 x80 x3f)
(L (W xff xff xff xff x8c x00 x00 x00)) E)
(L (W x03 x00 x00 x00 xd0 x00 x00 x00)))
(T (W x00 x00 x00 x00 x00 x00 x00 x00)
(L (W xff xff xff xff xff xff xff xff))
(L (W x00 x00 x00 x00 x00 x00 x00 x00))))
(T (W x00 x00 x80 x3f x00 x00 x80 x3f)
(T (W x46 x53 x59 x53 x5f x4e x53 x5f)
(T (W x42 xe8 xff xff x00 x00 x01 x01)
(L (W x00 x00 x00 x00 x12 x00 x00 x00)) E)
(L (W x68 x00 x00 x00 x5c x00 x00 x00)))
(T (W x00 x00 x00 x00 x00 x00 x00 x00)
(L (W x7c x03 x00 x00 x4c x02 x00 x00))
(L (W x00 x00 x00 x00 x00 x00 x00 x00)))))
(T (W xff xff xff xff xff xff xff xff)
(T (W x18 x00 x00 x00 x10 x00 x00 x00)
(T (W x00 x00 x00 x00 x00 x00 x00 x00)
(T (W x00 x00 x00 x00 x00 x00 x00 x00)
(L (W x00 x00 x00 x00 x00 x00 x00 x00)) E)
(L (W x50 x00 x00 x00 x44 x00 x00 x00)))
(T (W x00 x00 x80 x3f x00 x00 x80 x3f)
(L (W x00 x00 x00 x00 x00 x00 x00 x00))
(L (W x00 x00 x80 xbf x00 x00 x80 xbf))))
(T (W x00 x00 x80 x3f x00 x00 x80 x3f)
(T (W x03 x00 x00 x00 xd0 x00 x00 x00)
(T (W x41 x57 x4e x5f x50 x48 x49 x4f)
(L (W x45 x26 x22 x84 xe4 x9c xf2 xcb)) E)
(L (W xa9 x01 x00 x00 xff xff xff xff)))
(T (W xff xff xff xff xff xff xff xff)
(L (W xff xff xff xff xff xff xff xff))
(L (W x00 x00 x00 x00 x00 x00 x00 x00))))))
(T (W x48 x03 x00 x00 x34 x02 x00 x00)
(T (W x01 x00 x00 x00 xff xff xff xff)
(T (W x0a x00 x00 x00 x3c x00 x00 x00)
(T (W x00 x00 x00 x00 x00 x00 x00 x00)
(T (W x45 x26 x22 x84 xe4 x9c xf2 xcb)
(L (W x14 x00 x00 x00 x0c x00 x00 x00)) E)
(L (W xff xff xff xff xb0 x00 x00 x00)))
(T (W x00 x00 x00 x00 x00 x00 x00 x00)
(L (W x00 x00 x00 x00 x00 x00 x00 x00))
(L (W x50 x00 x00 x00 x44 x00 x00 x00))))
(T (W x00 x00 x80 x3f x00 x00 x80 x3f)
(T (W x00 x00 x80 x3f x00 x00 x80 x3f)
(T (W x00 x00 x00 x00 x00 x00 x00 x00)
(L (W x45 x44 x00 x00 x00 x00 x00 x00)) E)
(L (W xff xff xff xff xbc x00 x00 x00)))
(T (W x00 x00 x80 x3f x00 x00 x80 x3f)
(L (W xff xff xff xff xff xff xff xff))
(L (W x45 x26 x22 x84 xe4 x9c xf2 xcb)))))
(T (W xff xff xff xff xff xff xff xff)
(T (W x42 x3a xfc xff x74 x00 x00 x00)
(T (W x22 x00 x00 x00 x0c x00 x00 x00)
(T (W xff xff xff xff xff xff xff xff)
(L (W x45 x44 x00 x00 x00 x00 x00 x00)) E)
(L (W x00 x00 x80 xbf x00 x00 x80 xbf)))
(T (W xff xff xff xff xff xff xff xff)
(L (W x00 x00 x00 x00 x02 x00 x00 x00))
(L (W x00 x00 x00 x00 x00 x00 x00 x00))))
(T (W x00 x00 x00 x00 x00 x00 x00 x00)
(T (W xff xff xff xff xff xff xff xff)
(T (W x6c x00 x00 x00 x60 x00 x00 x00)
(L (W x00 x00 x00 x00 x00 x00 x00 x00)) E)
(L (W x45 x44 x00 x00 x00 x00 x00 x00)))
(T (W x00 x00 x00 x00 x00 x00 x00 x00)
(L (W xff xff xff xff xff xff xff xff))
(L (W x1d x00 x00 x00 x20 x00 x00 x00))))))))
(T (W x67 x72 x6f x75 x70 x5f x77 x69)
(T (W x00 x00 x00 x00 xda xb5 xfd xff)
(T (W xc9 x01 x00 x00 xff xff xff xff)
(T (W x00 x00 x80 x3f x00 x00 x80 x3f)
(T (W x00 x00 x00 x00 x00 x00 x00 x00)
(T (W xff xff xff xff xff xff xff xff)
(T (W xff xff xff xff xff xff xff xff)
(L (W x00 x00 x00 x00 x00 x00 x00 x00)) E)
(L (W x00 x00 x00 x00 x00 x00 x00 x00)))
(T (W x54 x00 x00 x00 x48 x00 x00 x00)
(L (W x00 x00 x00 x00 x22 x07 xfe xff))
(L (W x42 x06 xff xff x74 x00 x00 x00))))
(T (W x3e x00 x00 x00 x10 x00 x00 x00)
(T (W x50 x00 x00 x00 x44 x00 x00 x00)
(T (W x00 x00 x80 x3f x00 x00 x80 x3f)
(L (W x42 xc6 xff xff x74 x00 x00 x00)) E)
(L (W x00 x00 x00 x00 x00 x00 x00 x00)))
(T (W x00 x00 x80 x3f x00 x00 x80 x3f)
(L (W x54 x00 x00 x00 x48 x00 x00 x00))
(L (W x6c x00 x00 x00 x60 x00 x00 x00)))))
(T (W x45 x26 x22 x84 xe4 x9c xf2 xcb)
(T (W x00 x00 x00 x00 x00 x00 x00 x00)
(T (W x45 x26 x22 x84 xe4 x9c xf2 xcb)
(T (W x68 x00 x00 x00 x5c x00 x00 x00)
(L (W x00 x00 x00 x00 x00 x00 x00 x00)) E)
(L (W xff xff xff xff xff xff xff xff)))
(T (W x04 x00 x00 x00 x02 x37 xfd xff)
(L (W x1c xf7 xff xff x01 x01 x01 x01))
(L (W xff xff xff xff xff xff xff xff))))
(T (W xff xff xff xff xff xff xff xff)
(T (W x00 x00 x00 x00 x00 x00 x00 x00)
(T (W x45 x26 x22 x84 xe4 x9c xf2 xcb)
(L (W xaf x01 x00 x00 xff xff xff xff)) E)
(L (W x00 x00 x80 xbf x00 x00 x80 xbf)))
(T (W x30 x33 x5f x43 x4c x45 x41 x52)
(L (W x00 x00 x80 xbf x00 x00 x80 xbf))
(L (W xff xff xff xff xff xff xff xff))))))
(T (W x00 x00 x80 x3f x00 x00 x80 x3f)
(T (W x00 x00 x80 x3f x00 x00 x80 x3f)
(T (W x00 x00 x00 x00 x00 x00 x00 x00)
(T (W xbc x00 x00 x00 xb0 x00 x00 x00)
(T (W xff xff xff xff xff xff xff xff)
(L (W x00 x00 x00 x00 x00 x00 x00 x00)) E)
(L (W x46 x53 x59 x53 x5f x4e x53 x5f)))
(T (W x03 x00 x00 x00 xd8 x00 x00 x00)
(L (W x00 x00 x80 x3f x00 x00 x80 x3f))
(L (W xb4 x05 x00 x00 x84 x04 x00 x00))))
(T (W x1c x01 x00 x00 x04 x00 x00 x00)
(T (W xff xff xff xff xff xff xff xff)
(T (W xb8 x00 x00 x00 xac x00 x00 x00)
(L (W x42 xd6 xff xff x74 x00 x00 x00)) E)
(L (W x00 x00 x00 x00 x00 x00 x00 x00)))
(T (W xff xff xff xff xff xff xff xff)
(L (W x6c x00 x00 x00 x60 x00 x00 x00))
(L (W xff xff xff xff xff xff xff xff)))))
(T (W x00 x00 x80 x3f x00 x00 x80 x3f)
(T (W x00 x00 x00 x00 x00 x00 x00 x00)
(T (W x00 x00 x80 x3f x00 x00 x80 x3f)
(T (W x00 x00 x00 x00 x7c xb9 xfd xff)
(L (W x00 x00 x80 xbf x00 x00 x80 xbf)) E)
(L (W xff xff xff xff xff xff xff xff)))
(T (W x00 x00 x00 x00 x00 x00 x00 x00)
(L (W x1c x00 x00 x00 x10 x00 x00 x00))
(L (W xf2 x37 xff xff x78 x00 x00 x00))))
(T (W xff xff xff xff xff xff xff xff)
(T (W x00 x00 x80 x3f x00 x00 x80 x3f)
(T (W x00 x00 x00 x00 x00 x00 x00 x00)
(L (W x14 x00 x18 x00 x00 x00 x00 x00)) E)
(L (W x00 x00 x80 xbf x00 x00 x80 xbf)))
(T (W x00 x00 x80 x3f x00 x00 x80 x3f)
(L (W x00 x00 x80 xbf x00 x00 x80 xbf))
(L (W x03 x00 x00 x00 xd0 x00 x00 x00)))))))
(T (W x00 x00 x00 x00 x00 x00 x00 x00)
(T (W x00 x00 x80 x3f x00 x00 x80 x3f)
(T (W x00 x00 x80 x3f x00 x00 x80 x3f)
(T (W x00 x00 x00 x00 x00 x00 x00 x00)
(T (W x64 x00 x00 x00 x9c x00 x00 x00)
(T (W xff xff xff xff xff xff xff xff)
(L (W x00 x00 x00 x00 x00 x00 x00 x00)) E)
(L (W x00 x00 x00 x00 x00 x00 x00 x00)))
(T (W xff xff xff xff x9c x00 x00 x00)
(L (W x00 x00 x00 x00 x00 x00 x00 x00))
(L (W xff xff xff xff xff xff xff xff))))
(T (W x00 x00 x00 x00 xaa x9a xff xff)
(T (W x03 x00 x00 x00 xd0 x00 x00 x00)
(T (W x68 x00 x00 x00 x5c x00 x00 x00)
(L (W x6c x00 x00 x00 x60 x00 x00 x00)) E)
(L (W x46 x53 x59 x53 x5f x4e x53 x5f)))
(T (W x0c x53 xfd xff x00 x01 x01 x01)
(L (W x68 x00 x00 x00 x5c x00 x00 x00))
(L (W x1f x00 x00 x00 x22 x00 x00 x00)))))
(T (W x00 x00 x80 x3f x00 x00 x80 x3f)
(T (W x00 x00 x00 x00 x00 x00 x00 x00)
(T (W x01 x00 x00 x00 x9c x00 x00 x00)
(T (W x50 x00 x00 x00 x44 x00 x00 x00)
(L (W x00 x00 x80 xbf x00 x00 x80 xbf)) E)
(L (W xff xff xff xff xff xff xff xff)))
(T (W x00 x00 x00 x00 x00 x00 x00 x00)
(L (W x45 x26 x22 x84 xe4 x9c xf2 xcb))
(L (W xff xff xff xff xff xff xff xff))))
(T (W xff xff xff xff xff xff xff xff)
(T (W x00 x00 x80 x3f x00 x00 x80 x3f)
(T (W xff xff xff xff xff xff xff xff)
(L (W xff xff xff xff xff xff xff xff)) E)
(L (W x45 x26 x22 x84 xe4 x9c xf2 xcb)))
(T (W x45 x26 x22 x84 xe4 x9c xf2 xcb)
(L (W x00 x00 x80 xbf x00 x00 x80 xbf))
(L (W xff xff xff xff xff xff xff xff))))))
(T (W x45 x26 x22 x84 xe4 x9c xf2 xcb)
(T (W x00 x00 x80 x3f x00 x00 x80 x3f)
(T (W x00 x00 x00 x00 x00 x00 x00 x00)
(T (W x18 x00 x00 x00 x0c x00 x00 x00)
(T (W xff xff xff xff x03 x00 x00 x00)
(L (W x00 x00 x00 x00 x12 x00 x00 x00)) E)
(L (W xff xff xff xff xff xff xff xff)))
(T (W xff xff xff xff xff xff xff xff)
(L (W x00 x00 x00 x00 x00 x00 x00 x00))
(L (W xff xff xff xff xff xff xff xff))))
(T (W xff xff xff xff xff xff xff xff)
(T (W x24 x00 x00 x00 x10 x00 x00 x00)
(T (W x50 x00 x00 x00 x44 x00 x00 x00)
(L (W x00 x00 x80 xbf x00 x00 x80 xbf)) E)
(L (W x00 x00 x80 xbf x00 x00 x80 xbf)))
(T (W xff xff xff xff xff xff xff xff)
(L (W x45 x26 x22 x84 xe4 x9c xf2 xcb))
(L (W xff xff xff xff xff xff xff xff)))))
(T (W x00 x00 x80 x3f x00 x00 x80 x3f)
(T (W x00 x00 x00 x00 x00 x00 x00 x00)
(T (W x00 x00 x80 x3f x00 x00 x80 x3f)
(T (W x00 x00 x00 x00 x00 x00 x00 x00)
(L (W x00 x00 x80 xbf x00 x00 x80 xbf)) E)
(L (W x00 x00 x00 x00 x00 x00 x00 x00)))
(T (W x00 x00 x80 x3f x00 x00 x80 x3f)
(L (W x00 x00 x01 x01 xa2 x44 xfe xff))
(L (W x18 x00 x00 x00 x10 x00 x00 x00))))
(T (W xff xff xff xff xff xff xff xff)
(T (W x00 x00 x80 x3f x00 x00 x80 x3f)
(T (W xff xff xff xff xff xff xff xff)
(L (W x08 x00 x09 x00 x0c x00 x00 x00)) E)
(L (W x1f x00 x00 x00 x22 x00 x00 x00)))
(T (W xbc x00 x00 x00 xb0 x00 x00 x00)
(L (W x45 x26 x22 x84 xe4 x9c xf2 xcb))
(L (W x00 x00 x00 x00 x00 x00 x00 x00)))))))))
(T (W x00 x00 x80 x3f x00 x00 x80 x3f)
(T (W xff xff xff xff xff xff xff xff)
(T (W xf2 x95 xfb xff x78 x00 x00 x00)
(T (W xb8 x00 x00 x00 xac x00 x00 x00)
(T (W x00 x00 x00 x00 x00 x00 x00 x00)
(T (W x27 x8d xef xdf x56 x2c x2e x6c)
(T (W x6c x00 x00 x00 x60 x00 x00 x00)
(T (W x50 x00 x00 x00 x44 x00 x00 x00)
(L (W x42 xa4 xff xff xc6 x00 x00 x00)) E)
(L (W x45 x44 x00 x00 x00 x00 x00 x00)))
(T (W x49 xa1 x68 x4a xeb x5f xdd x3d)
(L (W x00 x00 x00 x00 x7c x07 xfe xff))
(L (W x00 x00 x80 xbf x00 x00 x80 xbf))))
(T (W xff xff xff xff xff xff xff xff)
(T (W x00 x00 x00 x00 x00 x00 x00 x00)
(T (W xff xff xff xff xff xff xff xff)
(L (W x00 x00 x80 xbf x00 x00 x80 xbf)) E)
(L (W xff xff xff xff xff xff xff xff)))
(T (W x00 x00 x00 x00 x00 x00 x00 x00)
(L (W x00 x00 x00 x00 x00 x00 x00 x00))
(L (W x00 x00 x80 xbf x00 x00 x80 xbf)))))
(T (W x00 x00 x00 x00 x00 x00 x00 x00)
(T (W xff xff xff xff xff xff xff xff)
(T (W x00 x00 x80 x3f x00 x00 x80 x3f)
(T (W x45 x26 x22 x84 xe4 x9c xf2 xcb)
(L (W xff xff xff xff xff xff xff xff)) E)
(L (W x0c xa9 xfe xff x00 x01 x01 x01)))
(T (W xff xff xff xff xac x00 x00 x00)
(L (W x00 x00 x00 x00 x00 x00 x00 x00))
(L (W x0c x29 xff xff x00 x01 x01 x01))))
(T (W x45 x26 x22 x84 xe4 x9c xf2 xcb)
(T (W x00 x00 x00 x00 x32 xfb xfc xff)
(T (W x42 xe4 xfd xff x74 x00 x00 x00)
(L (W xff xff xff xff xff xff xff xff)) E)
(L (W x00 x00 x00 x00 x00 x00 x00 x00)))
(T (W xff xff xff xff xff xff xff xff)
(L (W x00 x00 x00 x00 x00 x00 x00 x00))
(L (W xf2 x65 xff xff x78 x00 x00 x00))))))
(T (W x00 x00 x00 x00 x00 x00 x00 x00)
(T (W x48 xd5 x46 xce xa2 x99 xad x24)
(T (W xff xff xff xff xff xff xff xff)
(T (W x00 x00 x80 x3f x00 x00 x80 x3f)
(T (W x00 x00 x80 x3f x00 x00 x80 x3f)
(L (W xff xff xff xff xff xff xff xff)) E)
(L (W x8d x01 x00 x00 xff xff xff xff)))
(T (W x00 x00 x80 x3f x00 x00 x80 x3f)
(L (W x00 x00 x00 x00 x00 x00 x00 x00))
(L (W x45 x26 x22 x84 xe4 x9c xf2 xcb))))
(T (W x18 x00 x00 x00 x0c x00 x00 x00)
(T (W x42 xd4 xfc xff x74 x00 x00 x00)
(T (W x45 x26 x22 x84 xe4 x9c xf2 xcb)
(L (W x00 x00 x80 xbf x00 x00 x80 xbf)) E)
(L (W xff xff xff xff xff xff xff xff)))
(T (W x00 x00 x80 x3f x00 x00 x80 x3f)
(L (W x49 xa1 x68 x4a xeb x5f xdd x3d))
(L (W x00 x00 x80 xbf x00 x00 x80 xbf)))))
(T (W x00 x00 x00 x00 x00 x00 x00 x00)
(T (W xd4 x01 x00 x00 xff xff xff xff)
(T (W xff xff xff xff x03 x00 x00 x00)
(T (W x00 x00 x00 x00 x00 x00 x00 x00)
(L (W x00 x00 x00 x00 x00 x00 x00 x00)) E)
(L (W xc4 x00 x00 x00 x02 x00 x00 x00)))
(T (W x9d x01 x00 x00 xff xff xff xff)
(L (W x49 xa1 x68 x4a xeb x5f xdd x3d))
(L (W x00 x00 x80 xbf x00 x00 x80 xbf))))
(T (W x40 x00 x00 x00 x9c x00 x00 x00)
(T (W x45 x44 x00 x00 x00 x00 x00 x00)
(T (W x00 x00 x80 x3f x00 x00 x80 x3f)
(L (W x00 x00 x00 x00 x00 x00 x00 x00)) E)
(L (W x00 x00 x00 x00 x00 x00 x00 x00)))
(T (W x00 x00 x00 x00 x00 x00 x00 x00)
(L (W x00 x00 x00 x00 x00 x00 x00 x00))
(L (W xf2 x75 xff xff x78 x00 x00 x00)))))))
(T (W x45 x26 x22 x84 xe4 x9c xf2 xcb)
(T (W x70 x5f x6c x65 x61 x64 x65 x72)
(T (W x00 x00 x00 x00 x00 x00 x00 x00)
(T (W x6b x01 x00 x00 xff xff xff xff)
(T (W x00 x00 x80 x3f x00 x00 x80 x3f)
(T (W x01 x00 x00 x00 x9c x00 x00 x00)
(L (W xff xff xff xff xff xff xff xff)) E)
(L (W xff xff xff xff xff xff xff xff)))
(T (W x45 x26 x22 x84 xe4 x9c xf2 xcb)
(L (W xff xff xff xff xff xff xff xff))
(L (W x6c x00 x00 x00 x60 x00 x00 x00))))
(T (W xff xff xff xff x04 x00 x00 x00)
(T (W x00 x00 x80 x3f x00 x00 x80 x3f)
(T (W x00 x00 x00 x00 x00 x00 x00 x00)
(L (W x00 x00 x80 xbf x00 x00 x80 xbf)) E)
(L (W xff xff xff xff xff xff xff xff)))
(T (W x00 x00 x80 x3f x00 x00 x80 x3f)
(L (W x45 x26 x22 x84 xe4 x9c xf2 xcb))
(L (W x45 x26 x22 x84 xe4 x9c xf2 xcb)))))
(T (W x00 x00 x00 x00 x00 x00 x00 x00)
(T (W xff xff xff xff xff xff xff xff)
(T (W x42 xac xfc xff x74 x00 x00 x00)
(T (W x45 x26 x22 x84 xe4 x9c xf2 xcb)
(L (W x00 x00 x00 x00 x12 x00 x00 x00)) E)
(L (W xff xff xff xff x9c x00 x00 x00)))
(T (W xff xff xff xff xff xff xff xff)
(L (W x18 x00 x00 x00 x0c x00 x00 x00))
(L (W x68 x00 x00 x00 x5c x00 x00 x00))))
(T (W x18 x00 x00 x00 x10 x00 x00 x00)
(T (W x00 x00 x00 x00 x04 x00 x00 x00)
(T (W x6b x65 x5f x77 x61 x72 x6c x69)
(L (W x00 x00 x80 xbf x00 x00 x80 xbf)) E)
(L (W x00 x00 x00 x00 x00 x00 x00 x00)))
(T (W x00 x00 x00 x00 x00 x00 x00 x00)
(L (W x00 x00 x00 x00 x00 x00 x00 x00))
(L (W x50 x00 x00 x00 x44 x00 x00 x00))))))
(T (W x00 x00 x00 x00 x00 x00 x00 x00)
(T (W x00 x00 x00 x00 x00 x00 x00 x00)
(T (W xff xff xff xff xff xff xff xff)
(T (W x00 x00 x00 x00 x00 x00 x00 x00)
(T (W x50 x00 x00 x00 x44 x00 x00 x00)
(L (W xff xff xff xff xff xff xff xff)) E)
(L (W x30 x00 x34 x00 x38 x00 x3c x00)))
(T (W x00 x00 x80 x3f x00 x00 x80 x3f)
(L (W x00 x00 x80 xbf x00 x00 x80 xbf))
(L (W xb0 x00 x00 x00 x1e x00 x00 x00))))
(T (W x42 x5c xfc xff x74 x00 x00 x00)
(T (W xff xff xff xff xff xff xff xff)
(T (W x45 x26 x22 x84 xe4 x9c xf2 xcb)
(L (W x00 x00 x00 x00 x00 x00 x00 x00)) E)
(L (W x00 x00 x00 x00 x00 x00 x00 x00)))
(T (W x42 x5c xfd xff x74 x00 x00 x00)
(L (W x00 x00 x00 x00 x00 x00 x00 x00))
(L (W xff xff xff xff x9c x00 x00 x00)))))
(T (W x00 x00 x00 x00 x00 x00 x00 x00)
(T (W xff xff xff xff xff xff xff xff)
(T (W x00 x00 x58 x00 x00 x00 x07 x00)
(T (W x18 x01 x00 x00 x04 x00 x00 x00)
(L (W x4f x84 x6f x8b xe8 xcb x63 xb7)) E)
(L (W x18 x00 x00 x00 x10 x00 x00 x00)))
(T (W x00 x00 x00 x00 x00 x00 x00 x00)
(L (W x00 x00 x00 x00 x00 x00 x00 x00))
(L (W x00 x00 x80 xbf x00 x00 x80 xbf))))
(T (W x50 x00 x00 x00 x44 x00 x00 x00)
(T (W x00 x00 x00 x00 x00 x00 x00 x00)
(T (W xff xff xff xff xc0 x00 x00 x00)
(L (W x00 x00 x00 x00 x00 x00 x00 x00)) E)
(L (W x00 x00 x00 x00 x00 x00 x00 x00)))
(T (W x45 x26 x22 x84 xe4 x9c xf2 xcb)
(L (W x9c x84 xfe xff x29 x00 x00 x00))
(L (W xff xff xff xff xff xff xff xff))))))))
(T (W xff xff xff xff xff xff xff xff)
(T (W x00 x00 x00 x00 x00 x00 x00 x00)
(T (W x50 x00 x00 x00 x44 x00 x00 x00)
(T (W x0a x00 x00 x00 x3e x00 x00 x00)
(T (W x68 x00 x00 x00 x5c x00 x00 x00)
(T (W x48 x00 x00 x00 xff xff xff xff)
(T (W x00 x00 x00 x00 x00 x00 x00 x00)
(L (W x45 x26 x22 x84 xe4 x9c xf2 xcb)) E)
(L (W x3c x00 x00 x00 x00 x00 x80 xbf)))
(T (W xff xff xff xff xff xff xff xff)
(L (W x00 x00 x80 x3f x00 x00 x80 x3f))
(L (W xff xff xff xff xff xff xff xff))))
(T (W x45 x26 x22 x84 xe4 x9c xf2 xcb)
(T (W xff xff xff xff xff xff xff xff)
(T (W xff xff xff xff xff xff xff xff)
(L (W x00 x00 x00 x00 x52 xcc xff xff)) E)
(L (W x45 x26 x22 x84 xe4 x9c xf2 xcb)))
(T (W xff xff xff xff xff xff xff xff)
(L (W x03 x00 x00 x00 xc8 x00 x00 x00))
(L (W xff xff xff xff xff xff xff xff)))))
(T (W x45 x26 x22 x84 xe4 x9c xf2 xcb)
(T (W x00 x00 x80 x3f x00 x00 x80 x3f)
(T (W x36 x00 x00 x00 xff xff xff xff)
(T (W xff xff xff xff xff xff xff xff)
(L (W x00 x00 x80 xbf x00 x00 x80 xbf)) E)
(L (W x00 x00 x00 x00 x00 x00 x00 x00)))
(T (W x45 x26 x22 x84 xe4 x9c xf2 xcb)
(L (W x00 x00 x01 x01 x49 x00 x00 x00))
(L (W x00 x00 x00 x00 x00 x00 x00 x00))))
(T (W x00 x00 x00 x00 x00 x00 x00 x00)
(T (W x6c x00 x00 x00 x60 x00 x00 x00)
(T (W xff xff xff xff xbc x00 x00 x00)
(L (W x29 x00 x00 x00 x2c x00 x00 x00)) E)
(L (W xff xff xff xff xff xff xff xff)))
(T (W x54 x00 x00 x00 x48 x00 x00 x00)
(L (W xcc x00 x00 x00 x01 x00 x00 x00))
(L (W xda x6a xff xff xe0 x00 x00 x00))))))
(T (W xff xff xff xff xff xff xff xff)
(T (W x45 x26 x22 x84 xe4 x9c xf2 xcb)
(T (W x00 x00 x80 x3f x00 x00 x80 x3f)
(T (W x0a xe3 xff xff x00 x00 x01 x01)
(T (W x00 x00 x00 x00 xda xb7 xff xff)
(L (W x00 x00 x80 xbf x00 x00 x80 xbf)) E)
(L (W x00 x00 x80 xbf x00 x00 x80 xbf)))
(T (W xff xff xff xff xff xff xff xff)
(L (W xff xff xff xff xff xff xff xff))
(L (W x00 x00 x80 xbf x00 x00 x80 xbf))))
(T (W x00 x00 x00 x00 x00 x00 x00 x00)
(T (W x00 x00 x00 x00 x00 x00 x00 x00)
(T (W xff xff xff xff xff xff xff xff)
(L (W xff xff xff xff xbc x00 x00 x00)) E)
(L (W x00 x00 x80 xbf x00 x00 x80 xbf)))
(T (W x12 x62 xfd xff x9c x01 x00 x00)
(L (W x03 x00 x00 x00 xd8 x00 x00 x00))
(L (W x00 x00 x00 x00 x00 x00 x00 x00)))))
(T (W x00 x00 x80 x3f x00 x00 x80 x3f)
(T (W x00 x00 x00 x00 x00 x00 x00 x00)
(T (W xff xff xff xff xff xff xff xff)
(T (W x2a x00 x00 x00 x67 x72 x6f x75)
(L (W xff xff xff xff xff xff xff xff)) E)
(L (W x00 x00 x00 x00 x00 x00 x00 x00)))
(T (W x00 x00 x80 x3f x00 x00 x80 x3f)
(L (W xff xff xff xff xff xff xff xff))
(L (W xff xff xff xff xff xff xff xff))))
(T (W x42 x96 xfe xff x00 x00 x01 x01)
(T (W x45 x26 x22 x84 xe4 x9c xf2 xcb)
(T (W x00 x00 x00 x00 x00 x00 x00 x00)
(L (W xff xff xff xff xd0 x00 x00 x00)) E)
(L (W xff xff xff xff xff xff xff xff)))
(T (W xff xff xff xff xff xff xff xff)
(L (W x00 x01 x01 x01 xf2 xb7 xfe xff))
(L (W x00 x00 x00 x00 x06 x00 x00 x00)))))))
(T (W xff xff xff xff xff xff xff xff)
(T (W xff xff xff xff x03 x00 x00 x00)
(T (W xc0 x00 x00 x00 xb4 x00 x00 x00)
(T (W x42 x10 xfc xff x74 x00 x00 x00)
(T (W x92 xd9 xff xff x44 x00 x00 x00)
(T (W x9c x98 xfd xff x21 x00 x00 x00)
(L (W x00 x00 x80 xbf x00 x00 x80 xbf)) E)
(L (W x68 x00 x00 x00 x5c x00 x00 x00)))
(T (W xff xff xff xff xff xff xff xff)
(L (W x00 x00 x80 x3f x00 x00 x80 x3f))
(L (W x00 x00 x00 x00 x00 x00 x00 x00))))
(T (W x00 x00 x80 x3f x00 x00 x80 x3f)
(T (W x00 x00 x00 x00 x02 x00 x00 x00)
(T (W xff xff xff xff xff xff xff xff)
(L (W x03 x00 x00 x00 xd8 x00 x00 x00)) E)
(L (W x00 x00 x80 xbf x00 x00 x80 xbf)))
(T (W xff xff xff xff xff xff xff xff)
(L (W xff xff xff xff xbc x00 x00 x00))
(L (W xff xff xff xff xff xff xff xff)))))
(T (W x68 x00 x00 x00 x5c x00 x00 x00)
(T (W x45 x26 x22 x84 xe4 x9c xf2 xcb)
(T (W xff xff xff xff xff xff xff xff)
(T (W xff xff xff xff x03 x00 x00 x00)
(L (W x25 x00 x00 x00 x28 x00 x00 x00)) E)
(L (W x30 x33 x5f x43 x4c x45 x41 x52)))
(T (W x00 x00 x80 x3f x00 x00 x80 x3f)
(L (W xb0 x00 x00 x00 x64 x00 x00 x00))
(L (W xc3 x01 x00 x00 xff xff xff xff))))
(T (W x3e x00 x00 x00 x0c x00 x00 x00)
(T (W x50 x00 x00 x00 x44 x00 x00 x00)
(T (W xf2 xf1 xfd xff x78 x00 x00 x00)
(L (W x00 x00 x80 xbf x00 x00 x80 xbf)) E)
(L (W xff xff xff xff xff xff xff xff)))
(T (W x1d x00 x00 x00 x20 x00 x00 x00)
(L (W x70 x00 x00 x00 x64 x00 x00 x00))
(L (W x46 x53 x59 x53 x5f x4e x53 x5f))))))
(T (W x01 x00 x00 x00 x9c x00 x00 x00)
(T (W xff xff xff xff x04 x00 x00 x00)
(T (W x00 x00 x80 x3f x00 x00 x80 x3f)
(T (W x00 x00 x00 x00 x1c x00 x20 x00)
(T (W x8d x01 x00 x00 xff xff xff xff)
(L (W x00 x00 x80 xbf x00 x00 x80 xbf)) E)
(L (W x00 x00 x00 x00 x00 x00 x00 x00)))
(T (W x4c x45 x41 x52 x45 x44 x00 x00)
(L (W x50 x00 x00 x00 x44 x00 x00 x00))
(L (W x30 x33 x5f x43 x4c x45 x41 x52))))
(T (W x00 x00 x00 x00 x00 x00 x00 x00)
(T (W x45 x26 x22 x84 xe4 x9c xf2 xcb)
(T (W x00 x00 x00 x00 x00 x00 x00 x00)
(L (W x00 x00 x58 x00 x00 x00 x00 x00)) E)
(L (W xcc x00 x00 x00 x01 x00 x00 x00)))
(T (W x00 x00 x00 x00 x00 x00 x00 x00)
(L (W xff xff xff xff xc4 x00 x00 x00))
(L (W x00 x00 x00 x00 x12 x00 x00 x00)))))
(T (W x50 x00 x00 x00 x44 x00 x00 x00)
(T (W x45 x26 x22 x84 xe4 x9c xf2 xcb)
(T (W xff xff xff xff xac x00 x00 x00)
(T (W x00 x00 x80 x3f x00 x00 x80 x3f)
(L (W x45 x26 x22 x84 xe4 x9c xf2 xcb)) E)
(L (W x00 x00 x00 x00 x00 x00 x00 x00)))
(T (W x45 x26 x22 x84 xe4 x9c xf2 xcb)
(L (W xa8 x00 x00 x00 x64 x00 x00 x00))
(L (W xff xff xff xff xff xff xff xff))))
(T (W xff xff xff xff xff xff xff xff)
(T (W xff xff xff xff xff xff xff xff)
(T (W x00 x00 x80 x3f x00 x00 x80 x3f)
(L (W x00 x00 x80 xbf x00 x00 x80 xbf)) E)
(L (W xff xff xff xff xff xff xff xff)))
(T (W xc9 x01 x00 x00 xff xff xff xff)
(L (W x00 x00 x80 xbf x00 x00 x80 xbf))
(L (W x00 x00 x80 xbf x00 x00 x80 xbf))))))))))
(T (W xe0 x43 x01 x00 x84 x41 x01 x00)
(T (W x90 x1c x00 x00 x5c x1b x00 x00)
(T (W xff xff xff xff xff xff xff xff)
(T (W x00 x00 x00 x00 x00 x00 x00 x00)
(T (W x68 x00 x00 x00 x5c x00 x00 x00)
(T (W x34 x35 x21 x80 xbc xfa xb5 xeb)
(T (W xff xff xff xff xff xff xff xff)
(T (W x00 x00 x80 x3f x00 x00 x80 x3f)
(T (W x00 x00 x80 x3f x00 x00 x80 x3f)
(L (W xff xff xff xff xff xff xff xff)) E)
(L (W x42 xa3 xfe xff xc6 x00 x00 x00)))
(T (W x00 x00 x00 x00 x00 x00 x00 x00)
(L (W x00 x00 x00 x00 x00 x00 x00 x00))
(L (W x00 x00 x00 x00 x00 x00 x00 x00))))
(T (W x18 x00 x00 x00 x0c x00 x00 x00)
(T (W x4c x45 x41 x52 x45 x44 x00 x00)
(T (W xff xff xff xff xff xff xff xff)
(L (W x00 x00 x80 xbf x00 x00 x80 xbf)) E)
(L (W x00 x00 x00 x00 x7c xc6 xfe xff)))
(T (W x4c x45 x41 x52 x45 x44 x00 x00)
(L (W x00 x00 x00 x00 x00 x00 x00 x00))
(L (W x00 x00 x00 x00 x00 x00 x00 x00)))))
(T (W x00 x00 x00 x00 x00 x00 x00 x00)
(T (W xff xff xff xff xff xff xff xff)
(T (W x00 x00 x00 x00 x00 x00 x00 x00)
(T (W x45 x26 x22 x84 xe4 x9c xf2 xcb)
(L (W xff xff xff xff x9c x00 x00 x00)) E)
(L (W x50 x00 x00 x00 x44 x00 x00 x00)))
(T (W x00 x00 x00 x00 x7c x26 xfd xff)
(L (W x1f x00 x00 x00 x10 x00 x00 x00))
(L (W x00 x00 x80 xbf x00 x00 x80 xbf))))
(T (W x42 x63 xfc xff x74 x00 x00 x00)
(T (W xff xff xff xff xff xff xff xff)
(T (W x00 x00 x00 x00 x00 x00 x00 x00)
(L (W x18 x00 x00 x00 x0c x00 x00 x00)) E)
(L (W x00 x00 x00 x00 x00 x00 x00 x00)))
(T (W xff xff xff xff xac x00 x00 x00)
(L (W x00 x00 x00 x00 x00 x00 x00 x00))
(L (W x68 x00 x00 x00 x5c x00 x00 x00))))))
(T (W x00 x00 x00 x00 x00 x00 x00 x00)
(T (W xff xff xff xff xff xff xff xff)
(T (W xb8 x00 x00 x00 xac x00 x00 x00)
(T (W x00 x00 x00 x00 x00 x00 x00 x00)
(T (W x00 x00 x80 x3f x00 x00 x80 x3f)
(L (W xff xff xff xff x9c x00 x00 x00)) E)
(L (W xff xff xff xff xff xff xff xff)))
(T (W x00 x00 x80 x3f x00 x00 x80 x3f)
(L (W x00 x00 x00 x00 x00 x00 x00 x00))
(L (W x42 x13 xff xff x74 x00 x00 x00))))
(T (W x00 x00 x80 x3f x00 x00 x80 x3f)
(T (W x00 x00 x80 x3f x00 x00 x80 x3f)
(T (W x00 x00 x00 x00 x00 x00 x00 x00)
(L (W x00 x00 x00 x00 x00 x00 x00 x00)) E)
(L (W xff xff xff xff xff xff xff xff)))
(T (W x4f x84 x6f x8b xe8 xcb x63 xb7)
(L (W xef x19 xd5 x4f x49 x43 x07 x36))
(L (W x45 x26 x22 x84 xe4 x9c xf2 xcb)))))
(T (W x8b x01 x00 x00 xff xff xff xff)
(T (W xff xff xff xff x03 x00 x00 x00)
(T (W x00 x00 x80 x3f x00 x00 x80 x3f)
(T (W x00 x00 x00 x00 x00 x00 x00 x00)
(L (W x00 x00 x00 x00 x00 x00 x00 x00)) E)
(L (W x18 x00 x00 x00 x10 x00 x00 x00)))
(T (W xff xff xff xff xff xff xff xff)
(L (W x00 x00 x00 x00 x00 x00 x00 x00))
(L (W x00 x00 x80 xbf x00 x00 x80 xbf))))
(T (W x00 x00 x80 x3f x00 x00 x80 x3f)
(T (W xff xff xff xff xff xff xff xff)
(T (W x30 x00 x34 x00 x38 x00 x3c x00)
(L (W x12 x00 x00 x00 x46 x53 x59 x53)) E)
(L (W x46 x53 x59 x53 x5f x4e x53 x5f)))
(T (W x13 x00 x00 x00 x0c x00 x00 x00)
(L (W x00 x00 x00 x00 x00 x00 x00 x00))
(L (W x68 x00 x00 x00 x5c x00 x00 x00)))))))
(T (W x45 x26 x22 x84 xe4 x9c xf2 xcb)
(T (W xff xff xff xff xff xff xff xff)
(T (W xb0 x01 x00 x00 xff xff xff xff)
(T (W xff xff xff xff xff xff xff xff)
(T (W x00 x00 x00 x00 x00 x00 x00 x00)
(T (W x00 x00 x80 x3f x00 x00 x80 x3f)
(L (W x2c x00 x00 x00 x2f x00 x00 x00)) E)
(L (W xff xff xff xff xff xff xff xff)))
(T (W x00 x00 x00 x00 x00 x00 x00 x00)
(L (W xff xff xff xff xff xff xff xff))
(L (W x00 x00 x80 xbf x00 x00 x80 xbf))))
(T (W x42 x4b xfc xff x74 x00 x00 x00)
(T (W x00 x00 x00 x00 x00 x00 x00 x00)
(T (W x00 x00 x00 x00 x00 x00 x00 x00)
(L (W x45 x26 x22 x84 xe4 x9c xf2 xcb)) E)
(L (W xff xff xff xff xff xff xff xff)))
(T (W x00 x00 x00 x00 x00 x00 x00 x00)
(L (W x00 x00 x00 x00 x00 x00 x00 x00))
(L (W x00 x00 x00 x00 x00 x00 x00 x00)))))
(T (W xbc xd3 xa5 x08 x0c x7f x6a xb7)
(T (W xff xff xff xff xff xff xff xff)
(T (W x45 x26 x22 x84 xe4 x9c xf2 xcb)
(T (W x00 x00 x00 x00 x00 x00 x00 x00)
(L (W x00 x00 x00 x00 x00 x00 x00 x00)) E)
(L (W xf2 xac xfe xff x78 x00 x00 x00)))
(T (W xc8 x00 x00 x00 x01 x00 x00 x00)
(L (W x00 x00 x80 xbf x00 x00 x80 xbf))
(L (W x00 x00 x80 xbf x00 x00 x80 xbf))))
(T (W x0c x70 xfc xff x00 x01 x01 x01)
(T (W xff xff xff xff xff xff xff xff)
(T (W x18 x00 x00 x00 x10 x00 x00 x00)
(L (W x00 x00 x80 xbf x00 x00 x80 xbf)) E)
(L (W x00 x00 x00 x00 x00 x00 x00 x00)))
(T (W x72 x7a xfd xff x9d x01 x00 x00)
(L (W x45 x44 x00 x00 x00 x00 x00 x00))
(L (W x00 x00 x80 xbf x00 x00 x80 xbf))))))
(T (W x00 x00 x00 x00 x00 x00 x00 x00)
(T (W x00 x00 x00 x00 x00 x00 x00 x00)
(T (W xff xff xff xff xff xff xff xff)
(T (W x00 x00 x00 x00 x00 x00 x00 x00)
(T (W x45 x26 x22 x84 xe4 x9c xf2 xcb)
(L (W x18 x00 x00 x00 x0c x00 x00 x00)) E)
(L (W xff xff xff xff xff xff xff xff)))
(T (W x00 x00 x80 x3f x00 x00 x80 x3f)
(L (W x00 x00 x00 x00 x00 x00 x00 x00))
(L (W x00 x00 x00 x00 x10 x20 xff xff))))
(T (W x68 x00 x00 x00 x5c x00 x00 x00)
(T (W x00 x00 x00 x00 x7c xde xfc xff)
(T (W x00 x00 x00 x00 x00 x00 x00 x00)
(L (W x00 x00 x00 x00 x00 x00 x00 x00)) E)
(L (W xff xff xff xff xff xff xff xff)))
(T (W x00 x00 x80 x3f x00 x00 x80 x3f)
(L (W x45 x44 x00 x00 x00 x00 x00 x00))
(L (W x6c x00 x00 x00 x60 x00 x00 x00)))))
(T (W x42 x19 xfe xff x00 x00 x01 x01)
(T (W xff xff xff xff xff xff xff xff)
(T (W x3c x00 x00 x00 x00 x00 x80 x3f)
(T (W xff xff xff xff xff xff xff xff)
(L (W x00 x00 x00 x00 x00 x00 x00 x00)) E)
(L (W x6c x00 x00 x00 x60 x00 x00 x00)))
(T (W xff xff xff xff xff xff xff xff)
(L (W x00 x00 x00 x00 x12 x00 x00 x00))
(L (W x00 x00 x00 x00 x00 x00 x00 x00))))
(T (W x00 x00 x80 x3f x00 x00 x80 x3f)
(T (W x30 x33 x5f x43 x4c x45 x41 x52)
(T (W x45 x26 x22 x84 xe4 x9c xf2 xcb)
(L (W x0c x00 x00 x00 x00 x01 x01 x01)) E)
(L (W x00 x00 x00 x00 x00 x00 x00 x00)))
(T (W x00 x00 x00 x00 x00 x00 x00 x00)
(L (W xb9 x01 x00 x00 xff xff xff xff))
(L (W xcc x00 x00 x00 x01 x00 x00 x00))))))))
(T (W x00 x00 x80 x3f x00 x00 x80 x3f)
(T (W x00 x00 x00 x00 x00 x00 x00 x00)
(T (W x70 x5f x77 x69 x6c x64 x5f x70)
(T (W x18 x00 x00 x00 x0c x00 x00 x00)
(T (W x00 x00 x80 x3f x00 x00 x80 x3f)
(T (W xff xff xff xff xff xff xff xff)
(T (W x9c x8f xfd xff x1e x00 x00 x00)
(L (W x00 x00 x00 x00 x00 x00 x00 x00)) E)
(L (W x45 x26 x22 x84 xe4 x9c xf2 xcb)))
(T (W x45 x26 x22 x84 xe4 x9c xf2 xcb)
(L (W x00 x00 x00 x00 x1b x00 x00 x00))
(L (W xff xff xff xff xff xff xff xff))))
(T (W x00 x00 x00 x00 x00 x00 x00 x00)
(T (W xc4 x00 x00 x00 x01 x00 x00 x00)
(T (W x00 x00 x80 x3f x00 x00 x80 x3f)
(L (W xff xff xff xff xff xff xff xff)) E)
(L (W x00 x00 x00 x00 x00 x00 x00 x00)))
(T (W xff xff xff xff xac x00 x00 x00)
(L (W x78 x4a xfe xff xa2 x4d xfe xff))
(L (W x18 x00 x00 x00 x10 x00 x00 x00)))))
(T (W x00 x00 x80 x3f x00 x00 x80 x3f)
(T (W x00 x00 x00 x00 x00 x00 x00 x00)
(T (W xff xff xff xff xff xff xff xff)
(T (W xff xff xff xff x03 x00 x00 x00)
(L (W x00 x00 x00 x00 x00 x00 x00 x00)) E)
(L (W xff xff xff xff xff xff xff xff)))
(T (W x12 x00 x00 x00 x46 x53 x59 x53)
(L (W xff xff xff xff xff xff xff xff))
(L (W x45 x44 x00 x00 x00 x00 x00 x00))))
(T (W x42 x85 xfe xff x00 x00 x01 x01)
(T (W x45 x26 x22 x84 xe4 x9c xf2 xcb)
(T (W x45 x26 x22 x84 xe4 x9c xf2 xcb)
(L (W x00 x00 x00 x00 x00 x00 x00 x00)) E)
(L (W x18 x00 x00 x00 x0c x00 x00 x00)))
(T (W x00 x00 x00 x00 x00 x00 x00 x00)
(L (W x00 x00 x80 xbf x00 x00 x80 xbf))
(L (W x00 x00 x00 x00 xca x85 xff xff))))))
(T (W x42 xb7 xfb xff x74 x00 x00 x00)
(T (W x42 xd7 xfb xff x74 x00 x00 x00)
(T (W x00 x00 x80 x3f x00 x00 x80 x3f)
(T (W xff xff xff xff xff xff xff xff)
(T (W xff xff xff xff xff xff xff xff)
(L (W x00 x00 x00 x00 x00 x00 x00 x00)) E)
(L (W x00 x00 x00 x00 x00 x00 x00 x00)))
(T (W xff xff xff xff xff xff xff xff)
(L (W x42 x17 xfe xff x74 x00 x00 x00))
(L (W x00 x00 x00 x00 x00 x00 x00 x00))))
(T (W x00 x00 x00 x00 x00 x00 x00 x00)
(T (W x3c x64 x21 x6d x6c x84 x61 x26)
(T (W xff xff xff xff xff xff xff xff)
(L (W x45 x26 x22 x84 xe4 x9c xf2 xcb)) E)
(L (W x4f x84 x6f x8b xe8 xcb x63 xb7)))
(T (W xff xff xff xff xff xff xff xff)
(L (W xff xff xff xff x9c x00 x00 x00))
(L (W xff xff xff xff x01 x00 x00 x00)))))
(T (W x00 x00 x80 x3f x00 x00 x80 x3f)
(T (W x00 x00 x00 x00 x00 x00 x00 x00)
(T (W xff xff xff xff xff xff xff xff)
(T (W x42 xd5 xff xff x00 x00 x01 x01)
(L (W xcc x00 x00 x00 x01 x00 x00 x00)) E)
(L (W x00 x00 x00 x00 x00 x00 x00 x00)))
(T (W x00 x00 x80 x3f x00 x00 x80 x3f)
(L (W xff xff xff xff xb4 x00 x00 x00))
(L (W xff xff xff xff x9c x00 x00 x00))))
(T (W xff xff xff xff xff xff xff xff)
(T (W x42 xf7 xfc xff x74 x00 x00 x00)
(T (W xff xff xff xff xff xff xff xff)
(L (W x00 x00 x80 xbf x00 x00 x80 xbf)) E)
(L (W x03 x00 x00 x00 xd8 x00 x00 x00)))
(T (W x00 x00 x00 x00 x7c x7a xfd xff)
(L (W x58 x00 x00 x00 x4c x00 x00 x00))
(L (W xff xff xff xff xff xff xff xff)))))))
(T (W x50 x00 x00 x00 x44 x00 x00 x00)
(T (W x01 x00 x00 x00 xa0 x00 x00 x00)
(T (W x00 x00 x80 x3f x00 x00 x80 x3f)
(T (W x45 x26 x22 x84 xe4 x9c xf2 xcb)
(T (W xff xff xff xff xff xff xff xff)
(T (W xff xff xff xff xff xff xff xff)
(L (W x00 x00 x00 x00 x00 x00 x00 x00)) E)
(L (W x00 x00 x80 xbf x00 x00 x80 xbf)))
(T (W x03 x00 x00 x00 xd0 x00 x00 x00)
(L (W x00 x00 x80 x3f x00 x00 x80 x3f))
(L (W xbc x05 x00 x00 x94 x04 x00 x00))))
(T (W x00 x00 x00 x00 x00 x00 x00 x00)
(T (W xff xff xff xff xff xff xff xff)
(T (W xff xff xff xff x03 x00 x00 x00)
(L (W xff xff xff xff x9c x00 x00 x00)) E)
(L (W x00 x00 x00 x00 x00 x00 x00 x00)))
(T (W xb0 x00 x00 x00 x64 x00 x00 x00)
(L (W x45 x26 x22 x84 xe4 x9c xf2 xcb))
(L (W xff xff xff xff xff xff xff xff)))))
(T (W x00 x00 x80 x3f x00 x00 x80 x3f)
(T (W x00 x00 x00 x00 x00 x00 x00 x00)
(T (W xb8 x00 x00 x00 xac x00 x00 x00)
(T (W x68 x00 x00 x00 x5c x00 x00 x00)
(L (W x00 x00 x80 xbf x00 x00 x80 xbf)) E)
(L (W xff xff xff xff xff xff xff xff)))
(T (W x00 x00 x00 x00 x00 x00 x00 x00)
(L (W x68 x00 x00 x00 x5c x00 x00 x00))
(L (W xff xff xff xff xff xff xff xff))))
(T (W xff xff xff xff xff xff xff xff)
(T (W x00 x00 x80 x3f x00 x00 x80 x3f)
(T (W x00 x00 x00 x00 x00 x00 x00 x00)
(L (W x00 x00 x62 x00 x7c x00 x04 x00)) E)
(L (W xff xff xff xff xc4 x00 x00 x00)))
(T (W x42 x6f xfd xff x74 x00 x00 x00)
(L (W x00 x00 x80 xbf x00 x00 x80 xbf))
(L (W x2c x01 x00 x00 x04 x00 x00 x00))))))
(T (W x00 x00 x80 x3f x00 x00 x80 x3f)
(T (W x68 x00 x00 x00 x5c x00 x00 x00)
(T (W x00 x00 x00 x00 x00 x00 x00 x00)
(T (W xff xff xff xff xff xff xff xff)
(T (W xff xff xff xff xff xff xff xff)
(L (W x45 x26 x22 x84 xe4 x9c xf2 xcb)) E)
(L (W xb4 x05 x00 x00 x84 x04 x00 x00)))
(T (W x9d x01 x00 x00 xff xff xff xff)
(L (W x45 x26 x22 x84 xe4 x9c xf2 xcb))
(L (W xff xff xff xff xff xff xff xff))))
(T (W x40 x00 x00 x00 x10 x00 x00 x00)
(T (W x00 x00 x00 x00 x00 x00 x00 x00)
(T (W x00 x00 x00 x00 x00 x00 x00 x00)
(L (W x50 x00 x00 x00 x44 x00 x00 x00)) E)
(L (W x00 x00 x80 xbf x00 x00 x80 xbf)))
(T (W x00 x00 x00 x00 x22 x60 xfd xff)
(L (W x45 x26 x22 x84 xe4 x9c xf2 xcb))
(L (W x00 x00 x00 x00 x02 x00 x00 x00)))))
(T (W x00 x00 x80 x3f x00 x00 x80 x3f)
(T (W x00 x00 x00 x00 x00 x00 x00 x00)
(T (W x00 x00 x80 x3f x00 x00 x80 x3f)
(T (W x00 x00 x80 x3f x00 x00 x80 x3f)
(L (W x70 x00 x00 x00 x64 x00 x00 x00)) E)
(L (W x00 x00 x00 x00 x00 x00 x00 x00)))
(T (W x6c x00 x00 x00 x60 x00 x00 x00)
(L (W x00 x00 x00 x00 x10 x44 xfe xff))
(L (W xc4 x00 x00 x00 x02 x00 x00 x00))))
(T (W xff xff xff xff xff xff xff xff)
(T (W x18 x00 x00 x00 x0c x00 x00 x00)
(T (W xf4 x17 xfe xff x1e x00 x00 x00)
(L (W x18 x00 x1c x00 x20 x00 x24 x00)) E)
(L (W xff xff xff xff xff xff xff xff)))
(T (W xff xff xff xff xff xff xff xff)
(L (W x00 x00 x80 xbf x00 x00 x80 xbf))
(L (W x00 x00 x00 x00 x00 x00 x00 x00)))))))))
(T (W x00 x00 x80 x3f x00 x00 x80 x3f)
(T (W xff xff xff xff x01 x00 x00 x00)
(T (W xff xff xff xff xff xff xff xff)
(T (W xff xff xff xff xff xff xff xff)
(T (W x00 x00 x80 x3f x00 x00 x80 x3f)
(T (W x00 x00 x00 x00 x00 x00 x00 x00)
(T (W x00 x00 x00 x00 x7c x88 xfc xff)
(T (W xff xff xff xff xff xff xff xff)
(L (W x45 x44 x00 x00 x00 x00 x00 x00)) E)
(L (W x00 x00 x00 x00 x00 x00 x00 x00)))
(T (W x00 x00 x80 x3f x00 x00 x80 x3f)
(L (W xff xff xff xff xff xff xff xff))
(L (W x00 x00 x80 xbf x00 x00 x80 xbf))))
(T (W xff xff xff xff xff xff xff xff)
(T (W x00 x00 x80 x3f x00 x00 x80 x3f)
(T (W x70 x5f x6c x65 x61 x64 x65 x72)
(L (W x00 x00 x80 xbf x00 x00 x80 xbf)) E)
(L (W x00 x00 x00 x00 x32 xdc xfe xff)))
(T (W x49 xa1 x68 x4a xeb x5f xdd x3d)
(L (W x45 x26 x22 x84 xe4 x9c xf2 xcb))
(L (W x50 x00 x00 x00 x44 x00 x00 x00)))))
(T (W x00 x00 x00 x00 x00 x00 x00 x00)
(T (W xd3 x00 x00 x00 xff xff xff xff)
(T (W xf2 xa6 xfc xff x78 x00 x00 x00)
(T (W x50 x00 x00 x00 x44 x00 x00 x00)
(L (W x00 x00 x00 x00 x00 x00 x00 x00)) E)
(L (W xb8 x00 x00 x00 x3c x00 x00 x00)))
(T (W xff xff xff xff xff xff xff xff)
(L (W x00 x00 x80 xbf x00 x00 x80 xbf))
(L (W xb0 x00 x00 x00 x64 x00 x00 x00))))
(T (W x18 x00 x00 x00 x10 x00 x00 x00)
(T (W x00 x00 x00 x00 x00 x00 x00 x00)
(T (W x58 x00 x00 x00 x00 x00 x5c x00)
(L (W xff xff xff xff xff xff xff xff)) E)
(L (W x00 x00 x00 x00 x00 x00 x00 x00)))
(T (W xda x67 xfd xff x9f x01 x00 x00)
(L (W x45 x26 x22 x84 xe4 x9c xf2 xcb))
(L (W xff xff xff xff x9c x00 x00 x00))))))
(T (W x00 x00 x00 x00 x00 x00 x00 x00)
(T (W x00 x00 x00 x00 x00 x00 x00 x00)
(T (W x13 xbb xe9 x03 xc8 x43 x65 xc5)
(T (W x50 x00 x00 x00 x44 x00 x00 x00)
(T (W x01 x00 x00 x00 xa0 x00 x00 x00)
(L (W x00 x00 x00 x00 x00 x00 x00 x00)) E)
(L (W x00 x00 x00 x00 x00 x00 x00 x00)))
(T (W x50 x00 x00 x00 x44 x00 x00 x00)
(L (W x00 x00 x80 x3f x00 x00 x80 x3f))
(L (W xff xff xff xff xbc x00 x00 x00))))
(T (W xff xff xff xff xff xff xff xff)
(T (W xff xff xff xff xff xff xff xff)
(T (W x45 x26 x22 x84 xe4 x9c xf2 xcb)
(L (W x00 x00 x80 xbf x00 x00 x80 xbf)) E)
(L (W x45 x44 x00 x00 x00 x00 x00 x00)))
(T (W x18 x00 x00 x00 x0c x00 x00 x00)
(L (W x00 x00 x80 xbf x00 x00 x80 xbf))
(L (W x00 x00 x00 x00 x7c x58 xff xff)))))
(T (W x45 x26 x22 x84 xe4 x9c xf2 xcb)
(T (W x00 x00 x00 x00 x00 x00 x00 x00)
(T (W x00 x00 x00 x00 x00 x00 x10 x00)
(T (W x45 x26 x22 x84 xe4 x9c xf2 xcb)
(L (W x49 xa1 x68 x4a xeb x5f xdd x3d)) E)
(L (W xff xff xff xff xff xff xff xff)))
(T (W x5f x4e x53 x5f x30 x33 x5f x43)
(L (W x00 x00 x80 xbf x00 x00 x80 xbf))
(L (W x50 x00 x00 x00 x44 x00 x00 x00))))
(T (W xc0 x00 x00 x00 xb4 x00 x00 x00)
(T (W x00 x00 x00 x00 x00 x00 x00 x00)
(T (W x00 x00 x78 x00 x00 x00 x00 x00)
(L (W xff xff xff xff xff xff xff xff)) E)
(L (W x00 x00 x80 xbf x00 x00 x80 xbf)))
(T (W x00 x00 x80 x3f x00 x00 x80 x3f)
(L (W x45 x26 x22 x84 xe4 x9c xf2 xcb))
(L (W xff xff xff xff x9c x00 x00 x00)))))))
(T (W x20 x04 x00 x00 xbc x02 x00 x00)
(T (W x45 x26 x22 x84 xe4 x9c xf2 xcb)
(T (W x00 x00 x00 x00 x00 x00 x00 x00)
(T (W x00 x00 x00 x00 x00 x00 x00 x00)
(T (W x45 x26 x22 x84 xe4 x9c xf2 xcb)
(T (W xb8 x00 x00 x00 xac x00 x00 x00)
(L (W xff xff xff xff xff xff xff xff)) E)
(L (W x00 x00 x00 x00 x00 x00 x00 x00)))
(T (W x6c x00 x00 x00 x60 x00 x00 x00)
(L (W x30 x33 x5f x43 x4c x45 x41 x52))
(L (W x18 x00 x00 x00 x10 x00 x00 x00))))
(T (W xff xff xff xff xff xff xff xff)
(T (W x68 x00 x00 x00 x5c x00 x00 x00)
(T (W x50 x00 x00 x00 x44 x00 x00 x00)
(L (W x00 x00 x80 xbf x00 x00 x80 xbf)) E)
(L (W x00 x00 x00 x00 x00 x00 x00 x00)))
(T (W x54 x00 x00 x00 x48 x00 x00 x00)
(L (W x00 x00 x80 xbf x00 x00 x80 xbf))
(L (W xf2 x4e xff xff x78 x00 x00 x00)))))
(T (W x45 x26 x22 x84 xe4 x9c xf2 xcb)
(T (W x00 x00 x00 x00 x00 x00 x00 x00)
(T (W x45 x26 x22 x84 xe4 x9c xf2 xcb)
(T (W x45 x26 x22 x84 xe4 x9c xf2 xcb)
(L (W x00 x00 x00 x00 x00 x00 x00 x00)) E)
(L (W x03 x00 x00 x00 xd8 x00 x00 x00)))
(T (W x02 x00 x00 x00 xff xff xff xff)
(L (W x3c x00 x40 x00 x44 x00 x48 x00))
(L (W xff xff xff xff xff xff xff xff))))
(T (W xb8 x00 x00 x00 xac x00 x00 x00)
(T (W x00 x00 x00 x00 x00 x00 x00 x00)
(T (W x00 x00 x80 x3f x00 x00 x80 x3f)
(L (W x18 x00 x00 x00 x0c x00 x00 x00)) E)
(L (W x45 x26 x22 x84 xe4 x9c xf2 xcb)))
(T (W x00 x00 x00 x00 x00 x00 x00 x00)
(L (W x4f x84 x6f x8b xe8 xcb x63 xb7))
(L (W xc4 x00 x00 x00 x01 x00 x00 x00))))))
(T (W x45 x26 x22 x84 xe4 x9c xf2 xcb)
(T (W x00 x00 x00 x00 x00 x00 x00 x00)
(T (W x88 x03 x00 x00 xff xff xff xff)
(T (W x00 x00 x80 x3f x00 x00 x80 x3f)
(T (W x68 x00 x00 x00 x5c x00 x00 x00)
(L (W x34 x01 x00 x00 x04 x00 x00 x00)) E)
(L (W x49 xa1 x68 x4a xeb x5f xdd x3d)))
(T (W xff xff xff xff xac x00 x00 x00)
(L (W x62 x00 x00 x00 x00 x00 x01 x01))
(L (W xff xff xff xff xff xff xff xff))))
(T (W xff xff xff xff x04 x00 x00 x00)
(T (W xff xff xff xff xff xff xff xff)
(T (W x00 x00 x80 x3f x00 x00 x80 x3f)
(L (W x00 x00 x80 xbf x00 x00 x80 xbf)) E)
(L (W x00 x00 x00 x00 x00 x00 x00 x00)))
(T (W xff xff xff xff x9c x00 x00 x00)
(L (W x00 x00 x00 x00 x00 x00 x00 x00))
(L (W x03 x00 x00 x00 xd0 x00 x00 x00)))))
(T (W x00 x00 x00 x00 x00 x00 x00 x00)
(T (W x48 x03 x00 x00 x34 x02 x00 x00)
(T (W x00 x00 x00 x00 x00 x00 x00 x00)
(T (W x00 x00 x00 x00 x00 x00 x00 x00)
(L (W x00 x00 x80 xbf x00 x00 x80 xbf)) E)
(L (W xff xff xff xff xff xff xff xff)))
(T (W x00 x00 x00 x00 x00 x00 x00 x00)
(L (W x3c x00 x00 x00 x00 x00 x80 xbf))
(L (W x54 x00 x00 x00 x48 x00 x00 x00))))
(T (W xff xff xff xff x03 x00 x00 x00)
(T (W x4f x84 x6f x8b xe8 xcb x63 xb7)
(T (W xff xff xff xff xff xff xff xff)
(L (W x00 x00 x00 x00 x00 x00 x00 x00)) E)
(L (W x00 x00 x80 xbf x00 x00 x80 xbf)))
(T (W x00 x00 x80 x3f x00 x00 x80 x3f)
(L (W x00 x00 x00 x00 x00 x00 x00 x00))
(L (W xff xff xff xff xff xff xff xff))))))))
(T (W x00 x00 x00 x00 x00 x00 x00 x00)
(T (W xe0 x00 x00 x00 xac x00 x00 x00)
(T (W x42 xa9 xfb xff x74 x00 x00 x00)
(T (W xff xff xff xff xff xff xff xff)
(T (W x0c x0e xfc xff x00 x01 x01 x01)
(T (W x00 x00 x00 x00 x00 x00 x00 x00)
(T (W x00 x00 x00 x00 x00 x00 x00 x00)
(L (W x00 x01 x01 x01 xe2 x90 xff xff)) E)
(L (W x68 x00 x00 x00 x5c x00 x00 x00)))
(T (W x00 x00 x00 x00 x32 x20 xfd xff)
(L (W x00 x00 x80 x3f x00 x00 x80 x3f))
(L (W x9c x11 xff xff x15 x00 x00 x00))))
(T (W x00 x00 x80 x3f x00 x00 x80 x3f)
(T (W x2c x01 x00 x00 x04 x00 x00 x00)
(T (W xff xff xff xff xff xff xff xff)
(L (W x00 x00 x00 x00 x00 x00 x00 x00)) E)
(L (W x00 x00 x80 xbf x00 x00 x80 xbf)))
(T (W xff xff xff xff xff xff xff xff)
(L (W xff xff xff xff xff xff xff xff))
(L (W x00 x00 x00 x00 x00 x00 x00 x00)))))
(T (W xff xff xff xff xff xff xff xff)
(T (W x0c x2e xfc xff x00 x01 x01 x01)
(T (W x00 x00 x00 x00 x00 x00 x00 x00)
(T (W x6d x01 x00 x00 xff xff xff xff)
(L (W xff xff xff xff xff xff xff xff)) E)
(L (W x00 x00 x80 xbf x00 x00 x80 xbf)))
(T (W x00 x00 x80 x3f x00 x00 x80 x3f)
(L (W x00 x00 x00 x00 x00 x00 x00 x00))
(L (W x00 x00 x00 x00 x00 x00 x00 x00))))
(T (W x45 x26 x22 x84 xe4 x9c xf2 xcb)
(T (W xff xff xff xff x9c x00 x00 x00)
(T (W xff xff xff xff xff xff xff xff)
(L (W x38 x00 x3c x00 x40 x00 x44 x00)) E)
(L (W xff xff xff xff xff xff xff xff)))
(T (W x45 x26 x22 x84 xe4 x9c xf2 xcb)
(L (W xff xff xff xff xff xff xff xff))
(L (W x30 x33 x5f x43 x4c x45 x41 x52))))))
(T (W xff xff xff xff xff xff xff xff)
(T (W xff xff xff xff xff xff xff xff)
(T (W x18 x00 x00 x00 x0c x00 x00 x00)
(T (W x00 x00 x00 x00 x00 x00 x00 x00)
(T (W x00 x00 x00 x00 x00 x00 x00 x00)
(L (W x00 x01 x01 x01 xe2 xa0 xff xff)) E)
(L (W x45 x26 x22 x84 xe4 x9c xf2 xcb)))
(T (W x45 x44 x00 x00 x00 x00 x00 x00)
(L (W xff xff xff xff xff xff xff xff))
(L (W x00 x00 x80 xbf x00 x00 x80 xbf))))
(T (W x00 x00 x80 x3f x00 x00 x80 x3f)
(T (W x45 x26 x22 x84 xe4 x9c xf2 xcb)
(T (W xd2 xf5 xff xff x48 x00 x00 x00)
(L (W x42 xf9 xff xff xc6 x00 x00 x00)) E)
(L (W x45 x26 x22 x84 xe4 x9c xf2 xcb)))
(T (W x00 x00 x00 x00 x00 x00 x00 x00)
(L (W xff xff xff xff xff xff xff xff))
(L (W x00 x00 x00 x00 x00 x00 x00 x00)))))
(T (W x45 x26 x22 x84 xe4 x9c xf2 xcb)
(T (W x00 x00 x80 x3f x00 x00 x80 x3f)
(T (W xff xff xff xff xff xff xff xff)
(T (W x00 x00 x80 x3f x00 x00 x80 x3f)
(L (W xff xff xff xff xff xff xff xff)) E)
(L (W x00 x00 x80 xbf x00 x00 x80 xbf)))
(T (W x21 x00 x00 x00 x24 x00 x00 x00)
(L (W xff xff xff xff xff xff xff xff))
(L (W x45 x44 x00 x00 x00 x00 x00 x00))))
(T (W x00 x00 x00 x00 x00 x00 x00 x00)
(T (W xff xff xff xff xbc x00 x00 x00)
(T (W x00 x00 x80 x3f x00 x00 x80 x3f)
(L (W xff xff xff xff xff xff xff xff)) E)
(L (W xff xff xff xff xff xff xff xff)))
(T (W xff xff xff xff x02 x00 x00 x00)
(L (W xff xff xff xff x94 x00 x00 x00))
(L (W x00 x00 x00 x00 x10 x7e xff xff)))))))
(T (W x5f x77 x69 x6c x64 x5f x70 x6f)
(T (W xc4 x01 x00 x00 xff xff xff xff)
(T (W xff xff xff xff xff xff xff xff)
(T (W x45 x26 x22 x84 xe4 x9c xf2 xcb)
(T (W x00 x00 x00 x00 x00 x00 x00 x00)
(T (W x00 x00 x00 x00 x00 x00 x00 x00)
(L (W x50 x00 x00 x00 x44 x00 x00 x00)) E)
(L (W x45 x26 x22 x84 xe4 x9c xf2 xcb)))
(T (W x00 x00 x00 x00 x04 x00 x00 x00)
(L (W xff xff xff xff xff xff xff xff))
(L (W x00 x00 x80 xbf x00 x00 x80 xbf))))
(T (W x00 x00 x80 x3f x00 x00 x80 x3f)
(T (W x00 x00 x00 x00 x12 x00 x00 x00)
(T (W x71 x00 x00 x00 xff xff xff xff)
(L (W xff xff xff xff xff xff xff xff)) E)
(L (W x00 x00 x80 xbf x00 x00 x80 xbf)))
(T (W x00 x00 x00 x00 x00 x00 x00 x00)
(L (W xff xff xff xff xff xff xff xff))
(L (W x3b xac x4d xdc x00 xe6 x5f x2f)))))
(T (W xb8 x00 x00 x00 xac x00 x00 x00)
(T (W x00 x00 x80 x3f x00 x00 x80 x3f)
(T (W xb4 xaa x1e xc1 x86 xf8 x93 x14)
(T (W xff xff xff xff xff xff xff xff)
(L (W xff xff xff xff xff xff xff xff)) E)
(L (W x00 x00 x00 x00 x00 x00 x00 x00)))
(T (W xf2 x32 xfd xff x78 x00 x00 x00)
(L (W xff xff xff xff xff xff xff xff))
(L (W x00 x00 x00 x00 x00 x00 x00 x00))))
(T (W x00 x00 x00 x00 x00 x00 x00 x00)
(T (W x03 x00 x00 x00 xd8 x00 x00 x00)
(T (W x24 x00 x00 x00 x10 x00 x00 x00)
(L (W xff xff xff xff xff xff xff xff)) E)
(L (W xff xff xff xff xff xff xff xff)))
(T (W xff xff xff xff xff xff xff xff)
(L (W xff xff xff xff xff xff xff xff))
(L (W x00 x00 x00 x00 x00 x00 x00 x00))))))
(T (W xb8 x00 x00 x00 xac x00 x00 x00)
(T (W xff xff xff xff xff xff xff xff)
(T (W x50 x00 x00 x00 x44 x00 x00 x00)
(T (W x00 x00 x80 x3f x00 x00 x80 x3f)
(T (W x00 x00 x00 x00 x00 x00 x00 x00)
(L (W x00 x00 x80 xbf x00 x00 x80 xbf)) E)
(L (W x00 x00 x80 xbf x00 x00 x80 xbf)))
(T (W x00 x00 x00 x00 x00 x00 x00 x00)
(L (W xb0 x00 x00 x00 x64 x00 x00 x00))
(L (W x00 x00 x00 x00 x00 x00 x00 x00))))
(T (W x00 x00 x00 x00 x00 x00 x00 x00)
(T (W x54 x00 x00 x00 x48 x00 x00 x00)
(T (W x42 xe1 xfd xff x74 x00 x00 x00)
(L (W x00 x00 x00 x00 x00 x00 x00 x00)) E)
(L (W xff xff xff xff xff xff xff xff)))
(T (W x00 x00 x80 x3f x00 x00 x80 x3f)
(L (W xff xff xff xff xff xff xff xff))
(L (W x00 x00 x00 x00 x00 x00 x00 x00)))))
(T (W x68 x00 x00 x00 x5c x00 x00 x00)
(T (W x45 x26 x22 x84 xe4 x9c xf2 xcb)
(T (W xff xff xff xff xff xff xff xff)
(T (W x0c xc6 xfd xff x00 x01 x01 x01)
(L (W xff xff xff xff xff xff xff xff)) E)
(L (W x00 x00 x80 xbf x00 x00 x80 xbf)))
(T (W xff xff xff xff xbc x00 x00 x00)
(L (W xff xff xff xff xff xff xff xff))
(L (W x2c x01 x00 x00 x04 x00 x00 x00))))
(T (W x40 x00 x00 x00 x0c x00 x00 x00)
(T (W xff xff xff xff xff xff xff xff)
(L (W xff xff xff xff xff xff xff xff))
(L (W x00 x00 x00 x00 x00 x00 x00 x00)))
(T (W x00 x00 x00 x00 x00 x00 x00 x00)
(L (W x18 x00 x00 x00 x0c x00 x00 x00))
(L (W x00 x00 x80 xbf x00 x00 x80 xbf)))))))))))
(T (W x38 x6a x02 x00 x94 x68 x02 x00)
(T (W xa0 xb8 x01 x00 xf4 xb3 x01 x00)
(T (W x70 x64 x00 x00 x24 x62 x00 x00)
(T (W x00 x00 x00 x00 x00 x00 x00 x00)
(T (W x40 x00 x00 x00 x9c x00 x00 x00)
(T (W xc2 xc0 xfd xff x00 x00 x01 x01)
(T (W x00 x00 x80 x3f x00 x00 x80 x3f)
(T (W x00 x00 x00 x00 x00 x00 x00 x00)
(T (W xff xff xff xff xff xff xff xff)
(T (W xff xff xff xff xff xff xff xff)
(L (W x00 x00 x00 x00 x00 x00 x00 x00)) E)
(L (W x45 x26 x22 x84 xe4 x9c xf2 xcb)))
(T (W x50 x00 x00 x00 x44 x00 x00 x00)
(L (W xff xff xff xff xb0 x00 x00 x00))
(L (W x18 x00 x00 x00 x0c x00 x00 x00))))
(T (W x74 x5b xfc xff x3c x00 x00 x00)
(T (W x68 x00 x00 x00 x5c x00 x00 x00)
(T (W x00 x00 x00 x00 x00 x00 x00 x00)
(L (W xff xff xff xff xff xff xff xff)) E)
(L (W x00 x00 x00 x00 x00 x00 x00 x00)))
(T (W x68 x00 x00 x00 x5c x00 x00 x00)
(L (W x68 x00 x00 x00 x5c x00 x00 x00))
(L (W xff xff xff xff x9c x00 x00 x00)))))
(T (W x8c xe7 xfb xff x00 x01 x01 x01)
(T (W x45 x26 x22 x84 xe4 x9c xf2 xcb)
(T (W x54 x00 x00 x00 x48 x00 x00 x00)
(T (W xff xff xff xff x03 x00 x00 x00)
(L (W x30 x33 x5f x43 x4c x45 x41 x52)) E)
(L (W xa9 x01 x00 x00 xff xff xff xff)))
(T (W x00 x00 x00 x00 x00 x00 x00 x00)
(L (W x00 x00 x80 xbf x00 x00 x80 xbf))
(L (W xff xff xff xff xff xff xff xff))))
(T (W x00 x00 x00 x00 x00 x00 x00 x00)
(T (W x00 x00 x00 x00 x00 x00 x00 x00)
(T (W x18 x00 x00 x00 x0c x00 x00 x00)
(L (W x00 x00 x00 x00 x00 x00 x00 x00)) E)
(L (W x00 x00 x80 xbf x00 x00 x80 xbf)))
(T (W x00 x00 x00 x00 x00 x00 x00 x00)
(L (W x68 x00 x00 x00 x5c x00 x00 x00))
(L (W x00 x00 x00 x00 x00 x00 x00 x00))))))
(T (W x00 x00 x00 x00 xfc xb5 xfb xff)
(T (W x00 x00 x80 x3f x00 x00 x80 x3f)
(T (W x00 x00 x00 x00 x00 x00 x00 x00)
(T (W x45 x26 x22 x84 xe4 x9c xf2 xcb)
(T (W xff xff xff xff xff xff xff xff)
(L (W x46 x53 x59 x53 x5f x4e x53 x5f)) E)
(L (W x45 x26 x22 x84 xe4 x9c xf2 xcb)))
(T (W xff xff xff xff xff xff xff xff)
(L (W x45 x26 x22 x84 xe4 x9c xf2 xcb))
(L (W x00 x00 x00 x00 xb2 x29 xff xff))))
(T (W xff xff xff xff xff xff xff xff)
(T (W xff xff xff xff xff xff xff xff)
(T (W x68 x00 x00 x00 x5c x00 x00 x00)
(L (W xc4 x00 x00 x00 x02 x00 x00 x00)) E)
(L (W x49 xa1 x68 x4a xeb x5f xdd x3d)))
(T (W x03 x00 x00 x00 xcc x00 x00 x00)
(L (W x00 x00 x80 xbf x00 x00 x80 xbf))
(L (W xff xff xff xff xbc x00 x00 x00)))))
(T (W x00 x00 x80 x3f x00 x00 x80 x3f)
(T (W x00 x00 x00 x00 x00 x00 x00 x00)
(T (W xff xff xff xff xff xff xff xff)
(T (W x50 x00 x00 x00 x44 x00 x00 x00)
(L (W x00 x00 x80 xbf x00 x00 x80 xbf)) E)
(L (W x45 x44 x00 x00 x00 x00 x00 x00)))
(T (W x00 x00 x00 x00 x00 x00 x00 x00)
(L (W xc2 x32 xfe xff x74 x00 x00 x00))
(L (W xff xff xff xff xff xff xff xff))))
(T (W xff xff xff xff xff xff xff xff)
(T (W x00 x00 x80 x3f x00 x00 x80 x3f)
(T (W x1a x00 x00 x00 x46 x4d x41 x50)
(L (W x8c xf7 xff xff x00 x01 x01 x01)) E)
(L (W x72 xf4 xfe xff x78 x00 x00 x00)))
(T (W x00 x00 x80 x3f x00 x00 x80 x3f)
(L (W x68 x00 x00 x00 x5c x00 x00 x00))
(L (W x00 x00 x00 x00 x00 x00 x00 x00)))))))
(T (W xff xff xff xff x04 x00 x00 x00)
(T (W x00 x00 x80 x3f x00 x00 x80 x3f)
(T (W x00 x00 x80 x3f x00 x00 x80 x3f)
(T (W x00 x00 x00 x00 x00 x00 x00 x00)
(T (W xb8 x00 x00 x00 xac x00 x00 x00)
(T (W xff xff xff xff xff xff xff xff)
(L (W x00 x00 x00 x00 x00 x00 x00 x00)) E)
(L (W x4f x84 x6f x8b xe8 xcb x63 xb7)))
(T (W x45 x26 x22 x84 xe4 x9c xf2 xcb)
(L (W x49 xa1 x68 x4a xeb x5f xdd x3d))
(L (W xff xff xff xff xff xff xff xff))))
(T (W x01 x00 x00 x00 x04 x00 x00 x00)
(T (W xff xff xff xff x9c x00 x00 x00)
(T (W x68 x00 x00 x00 x5c x00 x00 x00)
(L (W xb8 x00 x00 x00 x32 x00 x00 x00)) E)
(L (W x00 x00 x00 x00 x00 x00 x00 x00)))
(T (W xc2 x4a xfd xff x74 x00 x00 x00)
(L (W x45 x26 x22 x84 xe4 x9c xf2 xcb))
(L (W x18 x00 x00 x00 x0c x00 x00 x00)))))
(T (W x00 x00 x80 x3f x00 x00 x80 x3f)
(T (W x00 x00 x00 x00 x00 x00 x00 x00)
(T (W xff xff xff xff xff xff xff xff)
(T (W x68 x00 x00 x00 x5c x00 x00 x00)
(L (W xf8 xad xff xff x22 xb1 xff xff)) E)
(L (W x00 x00 x00 x00 x00 x00 x00 x00)))
(T (W x74 x43 xfd xff x10 x00 x00 x00)
(L (W xff xff xff xff xff xff xff xff))
(L (W xff xff xff xff xff xff xff xff))))
(T (W x20 x01 x00 x00 x04 x00 x00 x00)
(T (W x4f x84 x6f x8b xe8 xcb x63 xb7)
(T (W x3d xc5 x47 x31 x8f x75 x87 xde)
(L (W xff xff xff xff xff xff xff xff)) E)
(L (W x54 x00 x00 x00 x48 x00 x00 x00)))
(T (W x00 x00 x80 x3f x00 x00 x80 x3f)
(L (W x54 x00 x00 x00 x48 x00 x00 x00))
(L (W xff xff xff xff xff xff xff xff))))))
(T (W x45 x26 x22 x84 xe4 x9c xf2 xcb)
(T (W x54 x00 x00 x00 x48 x00 x00 x00)
(T (W x00 x00 x00 x00 x00 x00 x00 x00)
(T (W x01 x00 x00 x00 x9c x00 x00 x00)
(T (W xff xff xff xff xff xff xff xff)
(L (W x00 x00 x00 x00 x00 x00 x00 x00)) E)
(L (W x00 x00 x00 x00 x00 x00 x00 x00)))
(T (W xff xff xff xff xff xff xff xff)
(L (W xb0 x00 x00 x00 x64 x00 x00 x00))
(L (W x00 x00 x00 x00 x00 x00 x00 x00))))
(T (W xc2 x78 xfe xff x00 x00 x01 x01)
(T (W x00 x00 x00 x00 x00 x00 x00 x00)
(T (W xb8 x00 x00 x00 xac x00 x00 x00)
(L (W x45 x26 x22 x84 xe4 x9c xf2 xcb)) E)
(L (W x45 x26 x22 x84 xe4 x9c xf2 xcb)))
(T (W xff xff xff xff xff xff xff xff)
(L (W x5c x00 x00 x00 x50 x00 x00 x00))
(L (W xff xff xff xff xff xff xff xff)))))
(T (W x00 x00 x80 x3f x00 x00 x80 x3f)
(T (W x00 x00 x00 x00 x00 x00 x00 x00)
(T (W x00 x00 x00 x01 xae x01 x00 x00)
(T (W x00 x00 x80 x3f x00 x00 x80 x3f)
(L (W x18 x00 x00 x00 x10 x00 x00 x00)) E)
(L (W x5a xbd xfe xff xe2 x00 x00 x00)))
(T (W x00 x00 x80 x3f x00 x00 x80 x3f)
(L (W x8c x3f xfe xff x00 x01 x01 x01))
(L (W xff xff xff xff xb0 x00 x00 x00))))
(T (W xff xff xff xff xff xff xff xff)
(T (W x6c x00 x00 x00 x60 x00 x00 x00)
(T (W x00 x00 x00 x00 x00 x00 x00 x00)
(L (W xff xff xff xff xff xff xff xff)) E)
(L (W x45 x26 x22 x84 xe4 x9c xf2 xcb)))
(T (W x45 x26 x22 x84 xe4 x9c xf2 xcb)
(L (W x00 x00 x80 xbf x00 x00 x80 xbf))
(L (W x00 x00 x00 x00 x00 x00 x00 x00))))))))
(T (W xff xff xff xff xff xff xff xff)
(T (W x68 x00 x00 x00 x5c x00 x00 x00)
(T (W x50 x00 x00 x00 x44 x00 x00 x00)
(T (W x00 x00 x00 x00 x04 x00 x00 x00)
(T (W xff xff xff xff xff xff xff xff)
(T (W x00 x00 x80 x3f x00 x00 x80 x3f)
(T (W x00 x00 x80 x3f x00 x00 x80 x3f)
(L (W x45 x26 x22 x84 xe4 x9c xf2 xcb)) E)
(L (W xff xff xff xff xbc x00 x00 x00)))
(T (W x45 x44 x00 x00 x00 x00 x00 x00)
(L (W x6c x00 x00 x00 x60 x00 x00 x00))
(L (W x00 x00 x00 x00 x00 x00 x00 x00))))
(T (W x01 x00 x00 x00 x3e x00 x00 x00)
(T (W x00 x00 x00 x00 x00 x00 x00 x00)
(T (W xff xff xff xff xff xff xff xff)
(L (W x00 x00 x00 x00 x00 x00 x00 x00)) E)
(L (W x45 x26 x22 x84 xe4 x9c xf2 xcb)))
(T (W x3b xb9 xba x38 x99 xcf xdf x1c)
(L (W x00 x00 x00 x00 x00 x00 x00 x00))
(L (W x30 x33 x5f x43 x4c x45 x41 x52)))))
(T (W xff xff xff xff xff xff xff xff)
(T (W x64 x00 x00 x00 x9c x00 x00 x00)
(T (W x00 x00 x00 x00 x00 x00 x00 x00)
(T (W x00 x00 x00 x00 x00 x00 x00 x00)
(L (W x18 x00 x00 x00 x0c x00 x00 x00)) E)
(L (W x00 x00 x80 xbf x00 x00 x80 xbf)))
(T (W x8c x2b xfd xff x00 x01 x01 x01)
(L (W x00 x00 x00 x00 x00 x00 x00 x00))
(L (W x6c x00 x00 x00 x60 x00 x00 x00))))
(T (W x00 x00 x80 x3f x00 x00 x80 x3f)
(T (W xff xff xff xff xbc x00 x00 x00)
(T (W x61 x72 x6c x69 x6b x65 x5f x6c)
(L (W x54 x00 x00 x00 x48 x00 x00 x00)) E)
(L (W xb8 x05 x00 x00 x88 x04 x00 x00)))
(T (W x18 x00 x00 x00 x10 x00 x00 x00)
(L (W xff xff xff xff xff xff xff xff))
(L (W x00 x00 x80 xbf x00 x00 x80 xbf))))))
(T (W x01 x00 x00 x00 x04 x00 x00 x00)
(T (W x04 x00 x00 x00 xd2 xf7 xfd xff)
(T (W xff xff xff xff xff xff xff xff)
(T (W x00 x00 x00 x00 x00 x00 x00 x00)
(T (W x45 x26 x22 x84 xe4 x9c xf2 xcb)
(L (W xff xff xff xff xb0 x00 x00 x00)) E)
(L (W xff xff xff xff x94 x00 x00 x00)))
(T (W x49 xa1 x68 x4a xeb x5f xdd x3d)
(L (W x00 x00 x00 x00 x00 x00 x00 x00))
(L (W x18 x00 x00 x00 x0c x00 x00 x00))))
(T (W x72 x58 xfc xff x78 x00 x00 x00)
(T (W x00 x00 x80 x3f x00 x00 x80 x3f)
(T (W x00 x00 x00 x00 x00 x00 x00 x00)
(L (W x00 x00 x00 x00 x00 x00 x00 x00)) E)
(L (W xc8 x00 x00 x00 x01 x00 x00 x00)))
(T (W x00 x00 x80 x3f x00 x00 x80 x3f)
(L (W x30 x33 x5f x43 x4c x45 x41 x52))
(L (W x00 x00 x80 xbf x00 x00 x80 xbf)))))
(T (W xff xff xff xff xff xff xff xff)
(T (W x18 x00 x00 x00 x0c x00 x00 x00)
(T (W x10 x00 x14 x00 x00 x00 x00 x00)
(T (W x00 x00 x00 x00 x00 x00 x00 x00)
(L (W x00 x00 x00 x00 x0a x00 x00 x00)) E)
(L (W x00 x00 x80 xbf x00 x00 x80 xbf)))
(T (W xff xff xff xff xff xff xff xff)
(L (W x00 x00 x00 x00 x00 x00 x00 x00))
(L (W x46 x53 x59 x53 x5f x4e x53 x5f))))
(T (W x00 x00 x80 x3f x00 x00 x80 x3f)
(T (W x00 x00 x00 x00 xb2 x0d xfd xff)
(T (W x28 x00 x2c x00 x30 x00 x34 x00)
(L (W xff xff xff xff xff xff xff xff)) E)
(L (W x1c xff xfe xff x18 x00 x00 x00)))
(T (W x00 x00 x00 x00 x00 x00 x00 x00)
(L (W x8d x01 x00 x00 xff xff xff xff))
(L (W x4f x84 x6f x8b xe8 xcb x63 xb7)))))))
(T (W xff xff xff xff xff xff xff xff)
(T (W x1c xb7 xfb xff x3e x00 x00 x00)
(T (W xff xff xff xff xff xff xff xff)
(T (W xff xff xff xff xff xff xff xff)
(T (W x00 x00 x00 x00 x00 x00 x00 x00)
(T (W x00 x00 x80 x3f x00 x00 x80 x3f)
(L (W xc2 x8e xff xff x74 x00 x00 x00)) E)
(L (W xff xff xff xff xff xff xff xff)))
(T (W x00 x00 x00 x00 x00 x00 x00 x00)
(L (W xff xff xff xff xff xff xff xff))
(L (W x00 x00 x80 xbf x00 x00 x80 xbf))))
(T (W x68 x00 x00 x00 x5c x00 x00 x00)
(T (W x4f x84 x6f x8b xe8 xcb x63 xb7)
(T (W x00 x00 x00 x00 x00 x00 x00 x00)
(L (W x30 x33 x5f x43 x4c x45 x41 x52)) E)
(L (W xff xff xff xff xa0 x00 x00 x00)))
(T (W x12 x00 x00 x00 x46 x53 x59 x53)
(L (W x00 x00 x00 x00 x00 x00 x00 x00))
(L (W x00 x00 x00 x00 x00 x00 x00 x00)))))
(T (W xff xff xff xff xff xff xff xff)
(T (W x00 x00 x00 x00 xfc x31 xfc xff)
(T (W x00 x00 x00 x00 x00 x00 x00 x00)
(T (W x00 x00 x00 x00 x00 x00 x00 x00)
(L (W xff xff xff xff xff xff xff xff)) E)
(L (W x00 x00 x80 xbf x00 x00 x80 xbf)))
(T (W x45 x26 x22 x84 xe4 x9c xf2 xcb)
(L (W xff xff xff xff xff xff xff xff))
(L (W x00 x00 x80 xbf x00 x00 x80 xbf))))
(T (W x45 x26 x22 x84 xe4 x9c xf2 xcb)
(T (W xff xff xff xff xff xff xff xff)
(T (W x00 x00 x80 x3f x00 x00 x80 x3f)
(L (W x45 x26 x22 x84 xe4 x9c xf2 xcb)) E)
(L (W x00 x00 x00 x00 x00 x00 x00 x00)))
(T (W x9d x01 x00 x00 xff xff xff xff)
(L (W xff xff xff xff xff xff xff xff))
(L (W x00 x00 x80 xbf x00 x00 x80 xbf))))))
(T (W xff xff xff xff xff xff xff xff)
(T (W xc2 xfc xfd xff x00 x00 x01 x01)
(T (W xb8 x00 x00 x00 xac x00 x00 x00)
(T (W x00 x00 x00 x00 x00 x00 x00 x00)
(T (W x45 x26 x22 x84 xe4 x9c xf2 xcb)
(L (W xb8 x00 x00 x00 x3c x00 x00 x00)) E)
(L (W x00 x00 x80 xbf x00 x00 x80 xbf)))
(T (W x00 x00 x80 x3f x00 x00 x80 x3f)
(L (W xff xff xff xff xff xff xff xff))
(L (W x00 x00 x80 xbf x00 x00 x80 xbf))))
(T (W x00 x00 x80 x3f x00 x00 x80 x3f)
(T (W x18 x00 x00 x00 x0c x00 x00 x00)
(T (W x00 x00 x00 x00 x00 x00 x00 x00)
(L (W xbe x00 x00 x00 xff xff xff xff)) E)
(L (W xff xff xff xff xff xff xff xff)))
(T (W x00 x00 x80 x3f x00 x00 x80 x3f)
(L (W x7c x03 x00 x00 x4c x02 x00 x00))
(L (W x00 x00 x80 xbf x00 x00 x80 xbf)))))
(T (W xff xff xff xff xff xff xff xff)
(T (W x40 x00 x00 x00 x9c x00 x00 x00)
(T (W xff xff xff xff xff xff xff xff)
(T (W xff xff xff xff xff xff xff xff)
(L (W x00 x00 x00 x00 x00 x00 x00 x00)) E)
(L (W x45 x26 x22 x84 xe4 x9c xf2 xcb)))
(T (W xff xff xff xff x02 x00 x00 x00)
(L (W x00 x00 x00 x00 x00 x00 x00 x00))
(L (W x00 x00 x00 x00 x00 x00 x00 x00))))
(T (W x00 x00 x80 x3f x00 x00 x80 x3f)
(T (W x00 x00 x00 x00 x04 x00 x00 x00)
(T (W x00 x00 x80 x3f x00 x00 x80 x3f)
(L (W x49 xa1 x68 x4a xeb x5f xdd x3d)) E)
(L (W x00 x00 x00 x00 x00 x00 x00 x00)))
(T (W x00 x00 x00 x00 x00 x00 x00 x00)
(L (W xff xff xff xff xff xff xff xff))
(L (W x00 x00 x00 x00 xfc x81 xff xff)))))))))
(T (W xff xff xff xff xff xff xff xff)
(T (W x00 x00 x80 x3f x00 x00 x80 x3f)
(T (W x00 x00 x00 x00 x00 x00 x00 x00)
(T (W x00 x00 x00 x00 x00 x00 x00 x00)
(T (W xff xff xff xff xff xff xff xff)
(T (W x45 x26 x22 x84 xe4 x9c xf2 xcb)
(T (W x00 x00 x00 x00 x00 x00 x00 x00)
(T (W x70 x5f x77 x69 x6c x64 x5f x70)
(L (W x6c x00 x00 x00 x60 x00 x00 x00)) E)
(L (W x45 x26 x22 x84 xe4 x9c xf2 xcb)))
(T (W xff xff xff xff xff xff xff xff)
(L (W x00 x00 x00 x00 x00 x00 x00 x00))
(L (W xff xff xff xff xff xff xff xff))))
(T (W x00 x00 x80 x3f x00 x00 x80 x3f)
(T (W xff xff xff xff xff xff xff xff)
(T (W x00 x00 x80 x3f x00 x00 x80 x3f)
(L (W xff xff xff xff xff xff xff xff)) E)
(L (W x00 x00 x80 xbf x00 x00 x80 xbf)))
(T (W xff xff xff xff xff xff xff xff)
(L (W xff xff xff xff xff xff xff xff))
(L (W x00 x00 x00 x00 x4a x63 xff xff)))))
(T (W xb8 x00 x00 x00 xac x00 x00 x00)
(T (W x00 x00 x80 x3f x00 x00 x80 x3f)
(T (W x00 x00 x00 x00 xd2 xc5 xfe xff)
(T (W x8a x01 x00 x00 xff xff xff xff)
(L (W x00 x00 x80 xbf x00 x00 x80 xbf)) E)
(L (W x00 x00 x00 x00 x12 x00 x00 x00)))
(T (W x00 x00 x00 x00 x00 x00 x00 x00)
(L (W xff xff xff xff xff xff xff xff))
(L (W x12 x00 x00 x00 x46 x53 x59 x53))))
(T (W x00 x00 x00 x00 x00 x00 x00 x00)
(T (W xc2 xe4 xfc xff x74 x00 x00 x00)
(T (W x00 x00 x00 x00 x00 x00 x00 x00)
(L (W x00 x00 x80 xbf x00 x00 x80 xbf)) E)
(L (W xff xff xff xff xb0 x00 x00 x00)))
(T (W x00 x00 x80 x3f x00 x00 x80 x3f)
(L (W xff xff xff xff xbc x00 x00 x00))
(L (W x46 x53 x59 x53 x5f x4e x53 x5f))))))
(T (W x64 x00 x00 x00 x9c x00 x00 x00)
(T (W x45 x26 x22 x84 xe4 x9c xf2 xcb)
(T (W x00 x00 x80 x3f x00 x00 x80 x3f)
(T (W x42 x00 x00 x00 xff xff xff xff)
(T (W x74 xad xfd xff x2a x00 x00 x00)
(L (W x00 x00 x80 xbf x00 x00 x80 xbf)) E)
(L (W x58 x00 x00 x00 x4c x00 x00 x00)))
(T (W x4a x00 x00 x00 xff xff xff xff)
(L (W xff xff xff xff xff xff xff xff))
(L (W x00 x00 x00 x00 x00 x00 x00 x00))))
(T (W x00 x00 x00 x00 x00 x00 x00 x00)
(T (W x00 x00 x00 x00 x00 x00 x00 x00)
(T (W xff xff xff xff xff xff xff xff)
(L (W xff xff xff xff xff xff xff xff)) E)
(L (W x54 x00 x00 x00 x48 x00 x00 x00)))
(T (W x04 x00 x00 x00 x7c x03 x00 x00)
(L (W xff xff xff xff xff xff xff xff))
(L (W x00 x00 x00 x00 x00 x00 x00 x00)))))
(T (W xff xff xff xff x03 x00 x00 x00)
(T (W x68 x00 x00 x00 x5c x00 x00 x00)
(T (W x45 x26 x22 x84 xe4 x9c xf2 xcb)
(T (W xff xff xff xff x03 x00 x00 x00)
(L (W xff xff xff xff xff xff xff xff)) E)
(L (W x00 x00 x00 x00 x00 x00 x00 x00)))
(T (W xc2 x34 xfd xff x74 x00 x00 x00)
(L (W xff xff xff xff xff xff xff xff))
(L (W x85 x00 x00 x00 xff xff xff xff))))
(T (W x00 x00 x00 x00 x00 x00 x00 x00)
(T (W x45 x26 x22 x84 xe4 x9c xf2 xcb)
(T (W x00 x00 x00 x00 x00 x00 x00 x00)
(L (W x00 x00 x00 x00 x00 x00 x00 x00)) E)
(L (W xff xff xff xff xff xff xff xff)))
(T (W xff xff xff xff xff xff xff xff)
(L (W xff xff xff xff xc4 x00 x00 x00))
(L (W x46 x53 x59 x53 x5f x4e x53 x5f)))))))
(T (W x00 x00 x00 x00 x00 x00 x00 x00)
(T (W xff xff xff xff xff xff xff xff)
(T (W x64 x00 x00 x00 x9c x00 x00 x00)
(T (W x50 x00 x00 x00 x44 x00 x00 x00)
(T (W x04 x89 x7a x05 x59 x90 x58 x03)
(T (W x00 x00 x00 x00 x00 x00 x00 x00)
(L (W x00 x00 x80 xbf x00 x00 x80 xbf)) E)
(L (W x00 x00 x80 xbf x00 x00 x80 xbf)))
(T (W xff xff xff xff xff xff xff xff)
(L (W x6c x00 x00 x00 x60 x00 x00 x00))
(L (W x30 x33 x5f x43 x4c x45 x41 x52))))
(T (W x45 x26 x22 x84 xe4 x9c xf2 xcb)
(T (W x00 x00 x00 x00 xa2 xcd xfc xff)
(T (W xd1 x01 x00 x00 xff xff xff xff)
(L (W xff xff xff xff xff xff xff xff)) E)
(L (W x50 x00 x00 x00 x44 x00 x00 x00)))
(T (W xff xff xff xff xff xff xff xff)
(L (W xff xff xff xff xff xff xff xff))
(L (W x3a x65 xff xff xaa x01 x00 x00)))))
(T (W xc0 x00 x00 x00 xb4 x00 x00 x00)
(T (W x50 x00 x00 x00 x44 x00 x00 x00)
(T (W x00 x00 x00 x00 x00 x00 x00 x00)
(T (W xff xff xff xff xff xff xff xff)
(L (W xb4 x00 x00 x00 x64 x00 x00 x00)) E)
(L (W x00 x00 x00 x00 x00 x00 x00 x00)))
(T (W x00 x00 x80 x3f x00 x00 x80 x3f)
(L (W x00 x00 x00 x00 x00 x00 x00 x00))
(L (W x00 x00 x00 x00 x00 x00 x00 x00))))
(T (W x00 x00 x00 x00 x00 x00 x00 x00)
(T (W x18 x00 x00 x00 x0c x00 x00 x00)
(T (W xff xff xff xff xff xff xff xff)
(L (W x20 x00 x00 x00 x10 x00 x00 x00)) E)
(L (W xff xff xff xff xc4 x00 x00 x00)))
(T (W x18 x00 x00 x00 x0c x00 x00 x00)
(L (W xcc x00 x00 x00 x01 x00 x00 x00))
(L (W x00 x00 x00 x00 x00 x00 x00 x00))))))
(T (W xff xff xff xff x03 x00 x00 x00)
(T (W x18 x00 x00 x00 x10 x00 x00 x00)
(T (W x00 x00 x80 x3f x00 x00 x80 x3f)
(T (W xff xff xff xff xff xff xff xff)
(T (W x00 x00 x00 x00 x00 x00 x00 x00)
(L (W x45 x26 x22 x84 xe4 x9c xf2 xcb)) E)
(L (W x03 x00 x00 x00 xd8 x00 x00 x00)))
(T (W x74 x35 xfd xff x29 x00 x00 x00)
(L (W x2e x00 x00 x00 x10 x00 x00 x00))
(L (W x00 x00 x00 x00 x00 x00 x00 x00))))
(T (W x00 x00 x00 x00 x00 x00 x00 x00)
(T (W x00 x00 x80 x3f x00 x00 x80 x3f)
(T (W xff xff xff xff xff xff xff xff)
(L (W xff xff xff xff xff xff xff xff)) E)
(L (W x00 x00 x00 x00 xfc xdf xfe xff)))
(T (W x5f x4e x53 x5f x30 x33 x5f x43)
(L (W xff xff xff xff xb0 x00 x00 x00))
(L (W x00 x00 x00 x00 x00 x00 x00 x00)))))
(T (W x00 x00 x00 x00 xfc xff xfb xff)
(T (W x00 x00 x80 x3f x00 x00 x80 x3f)
(T (W x72 xbe xfc xff x78 x00 x00 x00)
(T (W xc2 xbc xfd xff x74 x00 x00 x00)
(L (W xff xff xff xff xff xff xff xff)) E)
(L (W x00 x00 x00 x00 x00 x00 x00 x00)))
(T (W x00 x00 x00 x00 xfc x3f xfd xff)
(L (W xff xff xff xff xff xff xff xff))
(L (W xff xff xff xff xff xff xff xff))))
(T (W x00 x00 x00 x00 x00 x00 x00 x00)
(T (W x03 x00 x00 x00 xd0 x00 x00 x00)
(T (W x45 x26 x22 x84 xe4 x9c xf2 xcb)
(L (W x45 x26 x22 x84 xe4 x9c xf2 xcb)) E)
(L (W xff xff xff xff xff xff xff xff)))
(T (W xff xff xff xff xff xff xff xff)
(L (W xbc x00 x00 x00 x01 x00 x00 x00))
(L (W x00 x00 x80 xbf x00 x00 x80 xbf))))))))
(T (W x50 x00 x00 x00 x44 x00 x00 x00)
(T (W x6b x65 x5f x66 x69 x73 x68 x5f)
(T (W x00 x00 x00 x00 x00 x00 x00 x00)
(T (W x00 x00 x00 x00 x00 x00 x00 x00)
(T (W x00 x00 x00 x00 x00 x00 x00 x00)
(T (W x50 x00 x00 x00 x44 x00 x00 x00)
(T (W xb8 x00 x00 x00 xac x00 x00 x00)
(L (W x6a x8e xff xff xc6 x00 x00 x00)) E)
(L (W x00 x00 x00 x00 x00 x00 x00 x00)))
(T (W x00 x00 x80 x3f x00 x00 x80 x3f)
(L (W xff xff xff xff xff xff xff xff))
(L (W x00 x00 x80 xbf x00 x00 x80 xbf))))
(T (W xff xff xff xff xff xff xff xff)
(T (W x00 x00 x80 x3f x00 x00 x80 x3f)
(T (W x45 x26 x22 x84 xe4 x9c xf2 xcb)
(L (W x68 x00 x00 x00 x5c x00 x00 x00)) E)
(L (W xff xff xff xff xff xff xff xff)))
(T (W x00 x00 x80 x3f x00 x00 x80 x3f)
(L (W x00 x00 x00 x00 x00 x00 x00 x00))
(L (W x00 x00 x80 xbf x00 x00 x80 xbf)))))
(T (W x00 x00 x00 x00 x00 x00 x00 x00)
(T (W x00 x00 x00 x00 x02 x00 x00 x00)
(T (W x50 x00 x00 x00 x44 x00 x00 x00)
(T (W x45 x26 x22 x84 xe4 x9c xf2 xcb)
(L (W xb4 x03 x00 x00 x8c x02 x00 x00)) E)
(L (W xff xff xff xff xff xff xff xff)))
(T (W xff xff xff xff xff xff xff xff)
(L (W x68 x00 x00 x00 x5c x00 x00 x00))
(L (W xff xff xff xff xb0 x00 x00 x00))))
(T (W xff xff xff xff x04 x00 x00 x00)
(T (W x30 x33 x5f x43 x4c x45 x41 x52)
(T (W x45 x26 x22 x84 xe4 x9c xf2 xcb)
(L (W x00 x00 x00 x00 x00 x00 x00 x00)) E)
(L (W x00 x00 x80 xbf x00 x00 x80 xbf)))
(T (W x45 x44 x00 x00 x00 x00 x00 x00)
(L (W x4f x84 x6f x8b xe8 xcb x63 xb7))
(L (W x6c x00 x00 x00 x60 x00 x00 x00))))))
(T (W x45 x26 x22 x84 xe4 x9c xf2 xcb)
(T (W x00 x00 x00 x00 x00 x00 x00 x00)
(T (W x00 x00 x00 x00 x04 x00 x00 x00)
(T (W xc2 x98 xfc xff x74 x00 x00 x00)
(T (W x68 x00 x00 x00 x5c x00 x00 x00)
(L (W x24 x01 x00 x00 x04 x00 x00 x00)) E)
(L (W x00 x00 x00 x00 x00 x00 x00 x00)))
(T (W x54 x00 x00 x00 x48 x00 x00 x00)
(L (W x45 x26 x22 x84 xe4 x9c xf2 xcb))
(L (W xff xff xff xff xff xff xff xff))))
(T (W xff xff xff xff xff xff xff xff)
(T (W xff xff xff xff xbc x00 x00 x00)
(T (W x00 x00 x80 x3f x00 x00 x80 x3f)
(L (W x45 x26 x22 x84 xe4 x9c xf2 xcb)) E)
(L (W x37 x39 x51 x1d xca x27 x96 xfd)))
(T (W x68 x00 x00 x00 x5c x00 x00 x00)
(L (W x49 xa1 x68 x4a xeb x5f xdd x3d))
(L (W x45 x26 x22 x84 xe4 x9c xf2 xcb)))))
(T (W x23 x00 x00 x00 x0c x00 x00 x00)
(T (W xff xff xff xff xff xff xff xff)
(T (W x00 x00 x80 x3f x00 x00 x80 x3f)
(T (W xff xff xff xff xff xff xff xff)
(L (W x00 x00 x80 xbf x00 x00 x80 xbf)) E)
(L (W xff xff xff xff xff xff xff xff)))
(T (W x13 x00 x00 x00 x0c x00 x00 x00)
(L (W x49 xa1 x68 x4a xeb x5f xdd x3d))
(L (W x6c x00 x00 x00 x60 x00 x00 x00))))
(T (W x68 x00 x00 x00 x5c x00 x00 x00)
(T (W x00 x00 x00 x00 x00 x00 x00 x00)
(T (W xff xff xff xff xff xff xff xff)
(L (W x00 x00 x80 xbf x00 x00 x80 xbf)) E)
(L (W x00 x00 x80 xbf x00 x00 x80 xbf)))
(T (W x00 x00 x80 x3f x00 x00 x80 x3f)
(L (W x46 x53 x59 x53 x5f x4e x53 x5f))
(L (W x6c x00 x70 x00 x62 x00 x00 x00)))))))
(T (W x45 x26 x22 x84 xe4 x9c xf2 xcb)
(T (W x45 x26 x22 x84 xe4 x9c xf2 xcb)
(T (W x45 x26 x22 x84 xe4 x9c xf2 xcb)
(T (W x00 x00 x00 x00 x00 x00 x00 x00)
(T (W x68 x00 x00 x00 x5c x00 x00 x00)
(T (W x01 x00 x00 x00 x9c x00 x00 x00)
(L (W xff xff xff xff xff xff xff xff)) E)
(L (W x00 x00 x00 x00 x00 x00 x00 x00)))
(T (W x00 x00 x80 x3f x00 x00 x80 x3f)
(L (W x00 x00 x62 x00 x7c x00 x08 x00))
(L (W xff xff xff xff xff xff xff xff))))
(T (W xff xff xff xff xff xff xff xff)
(T (W x8c xd5 xfc xff x00 x01 x01 x01)
(T (W x45 x26 x22 x84 xe4 x9c xf2 xcb)
(L (W x49 xa1 x68 x4a xeb x5f xdd x3d)) E)
(L (W xff xff xff xff xff xff xff xff)))
(T (W x50 x00 x00 x00 x44 x00 x00 x00)
(L (W x45 x26 x22 x84 xe4 x9c xf2 xcb))
(L (W x00 x00 x80 xbf x00 x00 x80 xbf)))))
(T (W x00 x00 x00 x00 x00 x00 x00 x00)
(T (W xff xff xff xff xff xff xff xff)
(T (W x00 x00 x80 x3f x00 x00 x80 x3f)
(T (W x45 x26 x22 x84 xe4 x9c xf2 xcb)
(L (W x00 x00 x00 x00 x00 x00 x00 x00)) E)
(L (W xff xff xff xff x9c x00 x00 x00)))
(T (W xf2 x3f xfd xff x9d x01 x00 x00)
(L (W x00 x00 x00 x00 x00 x00 x00 x00))
(L (W x50 x00 x00 x00 x44 x00 x00 x00))))
(T (W x45 x26 x22 x84 xe4 x9c xf2 xcb)
(T (W x00 x00 x00 x00 x00 x00 x00 x00)
(T (W x46 x4d x41 x50 x5f x43 x41 x4e)
(L (W x00 x00 x00 x00 x00 x00 x00 x00)) E)
(L (W x00 x00 x80 xbf x00 x00 x80 xbf)))
(T (W x00 x00 x00 x00 x00 x00 x00 x00)
(L (W x00 x00 x00 x00 x00 x00 x00 x00))
(L (W xff xff xff xff x9c x00 x00 x00))))))
(T (W x00 x00 x00 x00 x00 x00 x00 x00)
(T (W x45 x26 x22 x84 xe4 x9c xf2 xcb)
(T (W x88 x03 x00 x00 xff xff xff xff)
(T (W xff xff xff xff xff xff xff xff)
(T (W x50 x00 x00 x00 x44 x00 x00 x00)
(L (W xff xff xff xff xff xff xff xff)) E)
(L (W xff xff xff xff xff xff xff xff)))
(T (W x18 x00 x00 x00 x10 x00 x00 x00)
(L (W x00 x00 x00 x00 x00 x00 x00 x00))
(L (W xff xff xff xff x94 x00 x00 x00))))
(T (W xb8 x00 x00 x00 xac x00 x00 x00)
(T (W xff xff xff xff xff xff xff xff)
(T (W x00 x00 x58 x00 x00 x00 x00 x00)
(L (W x1c x00 x00 x00 x10 x00 x00 x00)) E)
(L (W x4f x84 x6f x8b xe8 xcb x63 xb7)))
(T (W xff xff xff xff xff xff xff xff)
(L (W x45 x26 x22 x84 xe4 x9c xf2 xcb))
(L (W xb0 x00 x00 x00 x64 x00 x00 x00)))))
(T (W x00 x00 x00 x00 x00 x00 x00 x00)
(T (W xff xff xff xff xff xff xff xff)
(T (W x00 x00 x00 x00 x00 x00 x00 x00)
(T (W x00 x00 x00 x00 x02 x00 x00 x00)
(L (W x49 xa1 x68 x4a xeb x5f xdd x3d)) E)
(L (W xff xff xff xff xff xff xff xff)))
(T (W x00 x00 x00 x00 x00 x00 x00 x00)
(L (W x00 x00 x00 x00 x00 x00 x00 x00))
(L (W x00 x00 x80 xbf x00 x00 x80 xbf))))
(T (W x00 x00 x80 x3f x00 x00 x80 x3f)
(T (W x00 x00 x80 x3f x00 x00 x80 x3f)
(L (W x00 x00 x00 x00 x25 x00 x00 x00))
(L (W x00 x00 x80 xbf x00 x00 x80 xbf)))
(T (W x50 x00 x00 x00 x44 x00 x00 x00)
(L (W x2c x00 x00 x00 x10 x00 x00 x00))
(L (W xff xff xff xff xff xff xff xff))))))))))
(T (W x08 xf7 x00 x00 xbc xf4 x00 x00)
(T (W xff xff xff xff xff xff xff xff)
(T (W x00 x00 x80 x3f x00 x00 x80 x3f)
(T (W x76 x61 x6e x69 x73 x68 x00 x00)
(T (W x00 x00 x00 x00 x00 x00 x00 x00)
(T (W x8c xc8 xfb xff x00 x01 x01 x01)
(T (W x00 x00 x80 x3f x00 x00 x80 x3f)
(T (W xc2 xa1 xfe xff x00 x00 x01 x01)
(T (W x52 xa0 xff xff xc8 x01 x00 x00)
(L (W x45 x26 x22 x84 xe4 x9c xf2 xcb)) E)
(L (W x6c x00 x00 x00 x60 x00 x00 x00)))
(T (W x03 x00 x00 x00 xd8 x00 x00 x00)
(L (W x6b x65 x5f x77 x61 x72 x6c x69))
(L (W xff xff xff xff xff xff xff xff))))
(T (W x00 x00 x00 x00 x00 x00 x00 x00)
(T (W x18 x00 x00 x00 x10 x00 x00 x00)
(T (W x00 x00 x80 x3f x00 x00 x80 x3f)
(L (W xff xff xff xff xff xff xff xff)) E)
(L (W x00 x00 x00 x00 x00 x00 x00 x00)))
(T (W xff xff xff xff xa0 x00 x00 x00)
(L (W x03 x00 x00 x00 xc8 x00 x00 x00))
(L (W xff xff xff xff xff xff xff xff)))))
(T (W x18 x00 x00 x00 x10 x00 x00 x00)
(T (W x00 x00 x80 x3f x00 x00 x80 x3f)
(T (W xff xff xff xff xff xff xff xff)
(T (W xff xff xff xff xff xff xff xff)
(L (W x00 x00 x00 x00 x00 x00 x00 x00)) E)
(L (W x00 x00 x00 x00 x00 x00 x00 x00)))
(T (W x00 x00 x00 x00 x00 x00 x00 x00)
(L (W x18 x00 x00 x00 x0c x00 x00 x00))
(L (W x02 x00 x00 x00 x2c x01 x00 x00))))
(T (W x00 x00 x00 x00 x00 x00 x00 x00)
(T (W x00 x00 x80 x3f x00 x00 x80 x3f)
(T (W x00 x00 x00 x00 x00 x00 x54 x00)
(L (W x00 x00 x00 x00 x00 x00 x00 x00)) E)
(L (W x00 x00 x00 x00 xfc xe6 xfe xff)))
(T (W x00 x00 x00 x00 x00 x00 x00 x00)
(L (W x45 x26 x22 x84 xe4 x9c xf2 xcb))
(L (W x00 x00 x00 x00 x00 x00 x00 x00))))))
(T (W x18 x00 x00 x00 x0c x00 x00 x00)
(T (W x00 x00 x80 x3f x00 x00 x80 x3f)
(T (W x00 x00 x00 x00 x00 x00 x00 x00)
(T (W xff xff xff xff xff xff xff xff)
(T (W xff xff xff xff xff xff xff xff)
(L (W x00 x00 x00 x00 x00 x00 x00 x00)) E)
(L (W x00 x00 x80 xbf x00 x00 x80 xbf)))
(T (W xff xff xff xff xff xff xff xff)
(L (W xc4 x00 x00 x00 x01 x00 x00 x00))
(L (W x00 x00 x00 x00 x00 x00 x00 x00))))
(T (W x74 x6c xfc xff x3e x00 x00 x00)
(T (W x00 x00 x00 x00 x00 x00 x00 x00)
(T (W xff xff xff xff x03 x00 x00 x00)
(L (W xff xff xff xff xff xff xff xff)) E)
(L (W x00 x00 x80 xbf x00 x00 x80 xbf)))
(T (W xff xff xff xff xff xff xff xff)
(L (W x03 x00 x00 x00 xd8 x00 x00 x00))
(L (W xff xff xff xff xff xff xff xff)))))
(T (W x50 x00 x00 x00 x44 x00 x00 x00)
(T (W x45 x26 x22 x84 xe4 x9c xf2 xcb)
(T (W x28 x00 x2c x00 x30 x00 x34 x00)
(T (W x68 x00 x00 x00 x5c x00 x00 x00)
(L (W xc2 xb3 xff xff x74 x00 x00 x00)) E)
(L (W x00 x00 x00 x00 x00 x00 x00 x00)))
(T (W x45 x26 x22 x84 xe4 x9c xf2 xcb)
(L (W xff xff xff xff xff xff xff xff))
(L (W xff xff xff xff xff xff xff xff))))
(T (W x5d xc3 x2c x4c x7f x22 x36 x7a)
(T (W x54 x00 x00 x00 x48 x00 x00 x00)
(T (W xff xff xff xff xff xff xff xff)
(L (W xb0 x00 x00 x00 x64 x00 x00 x00)) E)
(L (W x29 x00 x00 x00 x2c x00 x00 x00)))
(T (W x1b x00 x00 x00 x1e x00 x00 x00)
(L (W x45 x26 x22 x84 xe4 x9c xf2 xcb))
(L (W x00 x00 x00 x00 x00 x00 x00 x00)))))))
(T (W x64 x5f x70 x6f x6b x65 x5f x77)
(T (W x00 x00 x80 x3f x00 x00 x80 x3f)
(T (W x50 x00 x00 x00 x44 x00 x00 x00)
(T (W x00 x00 x80 x3f x00 x00 x80 x3f)
(T (W xff xff xff xff xff xff xff xff)
(T (W x1c x94 xfd xff x26 x00 x00 x00)
(L (W x00 x00 x00 x00 x00 x00 x00 x00)) E)
(L (W x00 x00 x80 xbf x00 x00 x80 xbf)))
(T (W xff xff xff xff xbc x00 x00 x00)
(L (W x00 x00 x80 x3f x00 x00 x80 x3f))
(L (W x5a x0e xff xff x89 x01 x00 x00))))
(T (W x00 x00 x00 x00 x00 x00 x00 x00)
(T (W xff xff xff xff xff xff xff xff)
(T (W xc2 xcb xfd xff x74 x00 x00 x00)
(L (W xff xff xff xff xff xff xff xff)) E)
(L (W x00 x00 x80 xbf x00 x00 x80 xbf)))
(T (W xff xff xff xff xff xff xff xff)
(L (W xff xff xff xff xc4 x00 x00 x00))
(L (W xff xff xff xff xff xff xff xff)))))
(T (W x21 x00 x00 x00 x9c x00 x00 x00)
(T (W x00 x00 x80 x3f x00 x00 x80 x3f)
(T (W x8a xf6 xff xff x00 x00 x01 x01)
(T (W xff xff xff xff x03 x00 x00 x00)
(L (W x8c xb0 xff xff x00 x01 x01 x01)) E)
(L (W x46 x53 x59 x53 x5f x4e x53 x5f)))
(T (W x4f x84 x6f x8b xe8 xcb x63 xb7)
(L (W x31 x00 x00 x00 x10 x00 x00 x00))
(L (W x00 x00 x00 x00 xa2 x2c xff xff))))
(T (W x00 x00 x00 x00 x00 x00 x00 x00)
(T (W x00 x00 x80 x3f x00 x00 x80 x3f)
(T (W x00 x00 x00 x00 x00 x00 x00 x00)
(L (W xff xff xff xff xff xff xff xff)) E)
(L (W x45 x26 x22 x84 xe4 x9c xf2 xcb)))
(T (W x72 x6d xfd xff x78 x00 x00 x00)
(L (W x18 x00 x00 x00 x0c x00 x00 x00))
(L (W xc6 x01 x00 x00 xff xff xff xff))))))
(T (W x40 x00 x00 x00 x9c x00 x00 x00)
(T (W x8c xe0 xfb xff x00 x01 x01 x01)
(T (W x45 x26 x22 x84 xe4 x9c xf2 xcb)
(T (W xb8 x00 x00 x00 xac x00 x00 x00)
(T (W xa2 x01 x00 x00 xff xff xff xff)
(L (W x00 x00 x00 x00 x00 x00 x00 x00)) E)
(L (W x00 x00 x80 xbf x00 x00 x80 xbf)))
(T (W xff xff xff xff xff xff xff xff)
(L (W xff xff xff xff xff xff xff xff))
(L (W x00 x00 x00 x00 x12 x00 x00 x00))))
(T (W x00 x00 x00 x00 x00 x00 x00 x00)
(T (W x00 x00 x00 x00 x00 x00 x00 x00)
(T (W xff xff xff xff xff xff xff xff)
(L (W x18 x00 x00 x00 x0c x00 x00 x00)) E)
(L (W x00 x00 x80 xbf x00 x00 x80 xbf)))
(T (W x00 x00 x00 x00 x1a x67 xfd xff)
(L (W x14 x00 x00 x00 x0c x00 x00 x00))
(L (W x30 x33 x5f x43 x4c x45 x41 x52)))))
(T (W x6c x00 x00 x00 x60 x00 x00 x00)
(T (W x45 x26 x22 x84 xe4 x9c xf2 xcb)
(T (W x65 x5f x73 x6b x79 x00 x00 x00)
(T (W x00 x00 x80 x3f x00 x00 x80 x3f)
(L (W xcc x00 x00 x00 x01 x00 x00 x00)) E)
(L (W x30 x33 x5f x43 x4c x45 x41 x52)))
(T (W x00 x00 x80 x3f x00 x00 x80 x3f)
(L (W xb0 x00 x00 x00 x64 x00 x00 x00))
(L (W xff xff xff xff xff xff xff xff))))
(T (W x4b x00 x00 x00 xff xff xff xff)
(T (W xff xff xff xff x9c x00 x00 x00)
(T (W x00 x00 x00 x00 x00 x00 x00 x00)
(L (W x00 x00 x00 x00 x12 x00 x00 x00)) E)
(L (W x1b x00 x00 x00 x1e x00 x00 x00)))
(T (W xff xff xff xff xbc x00 x00 x00)
(L (W x40 x00 x00 x00 x00 x00 x80 xbf))
(L (W x4f x84 x6f x8b xe8 xcb x63 xb7))))))))
(T (W x69 x73 x68 x00 x2e x00 x00 x00)
(T (W xe0 x00 x00 x00 xac x00 x00 x00)
(T (W xff xff xff xff xff xff xff xff)
(T (W x00 x00 x00 x00 x00 x00 x00 x00)
(T (W x12 x51 xff xff x6d x01 x00 x00)
(T (W x00 x00 x80 x3f x00 x00 x80 x3f)
(T (W x01 x00 x00 x00 x9c x00 x00 x00)
(L (W xff xff xff xff xbc x00 x00 x00)) E)
(L (W xff xff xff xff xff xff xff xff)))
(T (W x00 x00 x00 x00 x00 x00 x00 x00)
(L (W xff xff xff xff xff xff xff xff))
(L (W x00 x00 x80 xbf x00 x00 x80 xbf))))
(T (W xff xff xff xff xff xff xff xff)
(T (W x00 x00 x00 x00 x00 x00 x00 x00)
(T (W x5f x77 x69 x6c x64 x5f x70 x6f)
(L (W x00 x00 x80 xbf x00 x00 x80 xbf)) E)
(L (W xff xff xff xff xc0 x00 x00 x00)))
(T (W x00 x00 x00 x00 x00 x00 x00 x00)
(L (W x00 x00 x00 x00 x00 x00 x00 x00))
(L (W x00 x00 x00 x00 x00 x00 x00 x00)))))
(T (W x0d x00 x00 x00 x0c x00 x00 x00)
(T (W xff xff xff xff xff xff xff xff)
(T (W x00 x00 x80 x3f x00 x00 x80 x3f)
(T (W x45 x26 x22 x84 xe4 x9c xf2 xcb)
(L (W xff xff xff xff xff xff xff xff)) E)
(L (W x50 x00 x00 x00 x44 x00 x00 x00)))
(T (W xbc x00 x00 x00 x14 x00 x00 x00)
(L (W x00 x00 x80 xbf x00 x00 x80 xbf))
(L (W x14 x00 x00 x00 x0c x00 x00 x00))))
(T (W x68 x00 x00 x00 x5c x00 x00 x00)
(T (W xff xff xff xff xff xff xff xff)
(T (W x00 x00 x00 x00 x00 x00 x00 x00)
(L (W x50 x00 x00 x00 x54 x00 x58 x00)) E)
(L (W x00 x00 x00 x00 x00 x00 x00 x00)))
(T (W xff xff xff xff xff xff xff xff)
(L (W xe4 x6b xca xc9 x03 x90 xa3 xbc))
(L (W x50 x00 x00 x00 x44 x00 x00 x00))))))
(T (W x00 x00 x00 x00 x00 x00 x00 x00)
(T (W x00 x00 x00 x00 x00 x00 x00 x00)
(T (W xff xff xff xff xff xff xff xff)
(T (W x45 x26 x22 x84 xe4 x9c xf2 xcb)
(T (W x00 x00 x80 x3f x00 x00 x80 x3f)
(L (W xff xff xff xff xff xff xff xff)) E)
(L (W xff xff xff xff xff xff xff xff)))
(T (W x00 x00 x80 x3f x00 x00 x80 x3f)
(L (W x00 x00 x00 x00 x00 x00 x00 x00))
(L (W xff xff xff xff xff xff xff xff))))
(T (W x45 x26 x22 x84 xe4 x9c xf2 xcb)
(T (W x45 x26 x22 x84 xe4 x9c xf2 xcb)
(T (W x45 x26 x22 x84 xe4 x9c xf2 xcb)
(L (W x00 x00 x00 x00 x00 x00 x00 x00)) E)
(L (W xff xff xff xff xff xff xff xff)))
(T (W x00 x00 x80 x3f x00 x00 x80 x3f)
(L (W x00 x00 x00 x00 x00 x00 x00 x00))
(L (W x6c x00 x00 x00 x60 x00 x00 x00)))))
(T (W xff xff xff xff xff xff xff xff)
(T (W x64 x00 x00 x00 x9c x00 x00 x00)
(T (W x00 x00 x80 x3f x00 x00 x80 x3f)
(T (W x68 x00 x00 x00 x5c x00 x00 x00)
(L (W x4f x84 x6f x8b xe8 xcb x63 xb7)) E)
(L (W x00 x00 x00 x00 xfc xba xfe xff)))
(T (W xff xff xff xff xff xff xff xff)
(L (W x00 x00 x00 x00 x00 x00 x00 x00))
(L (W x00 x00 x00 x00 x00 x00 x00 x00))))
(T (W x00 x00 x80 x3f x00 x00 x80 x3f)
(T (W x00 x00 x00 x00 x00 x00 x00 x00)
(T (W x00 x00 x80 x3f x00 x00 x80 x3f)
(L (W x32 xdb xac x28 xbf xd3 x59 x6a)) E)
(L (W x49 xa1 x68 x4a xeb x5f xdd x3d)))
(T (W x00 x00 x00 x00 x00 x00 x00 x00)
(L (W x00 x00 x00 x00 x00 x00 x00 x00))
(L (W x00 x00 x80 xbf x00 x00 x80 xbf)))))))
(T (W x70 x5f x77 x69 x6c x64 x5f x70)
(T (W x00 x00 x00 x00 x00 x00 x00 x00)
(T (W x1c xd8 xfb xff x23 x00 x00 x00)
(T (W x8a x5a xff xff x00 x00 x01 x01)
(T (W x00 x00 x80 x3f x00 x00 x80 x3f)
(T (W x00 x00 x80 x3f x00 x00 x80 x3f)
(L (W xff xff xff xff xff xff xff xff)) E)
(L (W xaa x01 x00 x00 xff xff xff xff)))
(T (W x4f x84 x6f x8b xe8 xcb x63 xb7)
(L (W xff xff xff xff xff xff xff xff))
(L (W x18 x00 x00 x00 x0c x00 x00 x00))))
(T (W xff xff xff xff xff xff xff xff)
(T (W x00 x00 x80 x3f x00 x00 x80 x3f)
(T (W x45 x26 x22 x84 xe4 x9c xf2 xcb)
(L (W x00 x00 x00 x00 x00 x00 x00 x00)) E)
(L (W xff xff xff xff xff xff xff xff)))
(T (W x00 x00 x00 x00 x00 x00 x00 x00)
(L (W x00 x00 x00 x00 x00 x00 x00 x00))
(L (W x49 xa1 x68 x4a xeb x5f xdd x3d)))))
(T (W xc2 x0d xfe xff x00 x00 x01 x01)
(T (W xff xff xff xff xff xff xff xff)
(T (W x00 x00 x00 x00 x00 x00 x00 x00)
(T (W x00 x00 x00 x00 x00 x00 x00 x00)
(L (W x20 x00 x00 x00 x10 x00 x00 x00)) E)
(L (W x6c x00 x00 x00 x60 x00 x00 x00)))
(T (W xff xff xff xff xff xff xff xff)
(L (W x00 x00 x00 x00 x00 x00 x00 x00))
(L (W x00 x00 x80 xbf x00 x00 x80 xbf))))
(T (W x00 x00 x80 x3f x00 x00 x80 x3f)
(T (W x4a x00 x00 x00 xff xff xff xff)
(T (W xe9 x01 x00 x00 xff xff xff xff)
(L (W xff xff xff xff xff xff xff xff)) E)
(L (W x45 x26 x22 x84 xe4 x9c xf2 xcb)))
(T (W x5f x4e x53 x5f x30 x33 x5f x43)
(L (W x00 x00 x00 x00 x00 x00 x00 x00))
(L (W x72 x71 xff xff x78 x00 x00 x00))))))
(T (W x1c xc8 xfb xff x3c x00 x00 x00)
(T (W x00 x00 x00 x00 x00 x00 x00 x00)
(T (W xff xff xff xff xff xff xff xff)
(T (W x00 x00 x80 x3f x00 x00 x80 x3f)
(T (W x45 x26 x22 x84 xe4 x9c xf2 xcb)
(L (W xff xff xff xff xff xff xff xff)) E)
(L (W x18 x00 x00 x00 x0c x00 x00 x00)))
(T (W x68 x00 x00 x00 x5c x00 x00 x00)
(L (W xff xff xff xff xff xff xff xff))
(L (W x74 x00 x00 x00 x68 x00 x00 x00))))
(T (W x18 x00 x00 x00 x0c x00 x00 x00)
(T (W xff xff xff xff xff xff xff xff)
(T (W x45 x26 x22 x84 xe4 x9c xf2 xcb)
(L (W x00 x00 x00 x00 x00 x00 x00 x00)) E)
(L (W x1b x00 x00 x00 x10 x00 x00 x00)))
(T (W x68 x00 x00 x00 x5c x00 x00 x00)
(L (W x00 x00 x00 x00 x00 x00 x00 x00))
(L (W x8c x64 xff xff x00 x01 x01 x01)))))
(T (W x89 x01 x00 x00 xff xff xff xff)
(T (W xff xff xff xff x03 x00 x00 x00)
(T (W x74 xd8 xfc xff x1a x00 x00 x00)
(T (W xff xff xff xff xff xff xff xff)
(L (W x00 x00 x00 x00 x00 x00 x00 x00)) E)
(L (W xff xff xff xff xb0 x00 x00 x00)))
(T (W x00 x00 x00 x00 x00 x00 x00 x00)
(L (W x00 x00 x00 x00 x12 x00 x00 x00))
(L (W x00 x00 x00 x00 x00 x00 x00 x00))))
(T (W x00 x00 x80 x3f x00 x00 x80 x3f)
(T (W x00 x00 x00 x00 x00 x00 x00 x00)
(T (W xff xff xff xff xff xff xff xff)
(L (W xff xff xff xff xff xff xff xff)) E)
(L (W x00 x00 x80 xbf x00 x00 x80 xbf)))
(T (W x45 x26 x22 x84 xe4 x9c xf2 xcb)
(L (W xff xff xff xff xff xff xff xff))
(L (W xff xff xff xff xff xff xff xff)))))))))
(T (W xd5 xa0 x1b x87 xba xf5 x2c x54)
(T (W x54 x00 x00 x00 x48 x00 x00 x00)
(T (W x00 x00 x80 x3f x00 x00 x80 x3f)
(T (W x00 x00 x80 x3f x00 x00 x80 x3f)
(T (W xff xff xff xff xff xff xff xff)
(T (W x64 x00 x00 x00 x9c x00 x00 x00)
(T (W x00 x00 x00 x00 x00 x00 x00 x00)
(T (W x00 x00 x80 x3f x00 x00 x80 x3f)
(L (W x45 x26 x22 x84 xe4 x9c xf2 xcb)) E)
(L (W x45 x26 x22 x84 xe4 x9c xf2 xcb)))
(T (W xff xff xff xff xff xff xff xff)
(L (W x00 x00 x80 x3f x00 x00 x80 x3f))
(L (W x00 x00 x00 x00 xb2 x1c xff xff))))
(T (W x00 x00 x80 x3f x00 x00 x80 x3f)
(T (W xff xff xff xff x01 x00 x00 x00)
(T (W xff xff xff xff xff xff xff xff)
(L (W x00 x00 x00 x00 x00 x00 x00 x00)) E)
(L (W xc2 xc5 xfe xff x74 x00 x00 x00)))
(T (W xff xff xff xff xff xff xff xff)
(L (W xff xff xff xff xff xff xff xff))
(L (W x5a x48 xff xff xaf x01 x00 x00)))))
(T (W xff xff xff xff xff xff xff xff)
(T (W x50 x00 x00 x00 x44 x00 x00 x00)
(T (W x00 x00 x00 x00 x00 x00 x00 x00)
(T (W x00 x00 x00 x00 x00 x00 x00 x00)
(L (W xc2 xa5 xff xff x74 x00 x00 x00)) E)
(L (W x45 x26 x22 x84 xe4 x9c xf2 xcb)))
(T (W x00 x00 x80 x3f x00 x00 x80 x3f)
(L (W x00 x00 x00 x00 x01 x00 x00 x00))
(L (W x00 x00 x00 x00 x00 x00 x00 x00))))
(T (W x00 x00 x00 x00 x00 x00 x00 x00)
(T (W x45 x26 x22 x84 xe4 x9c xf2 xcb)
(T (W xff xff xff xff x91 x00 x00 x00)
(L (W x00 x00 x80 xbf x00 x00 x80 xbf)) E)
(L (W xff xff xff xff xff xff xff xff)))
(T (W x6c x00 x00 x00 x60 x00 x00 x00)
(L (W xff xff xff xff xff xff xff xff))
(L (W x00 x00 x00 x00 x00 x00 x00 x00))))))
(T (W xff xff xff xff xff xff xff xff)
(T (W xff xff xff xff xff xff xff xff)
(T (W x8c x1a xfc xff x00 x01 x01 x01)
(T (W x00 x00 x00 x00 x00 x00 x00 x00)
(T (W x00 x00 x00 x00 x00 x00 x00 x00)
(L (W x45 x26 x22 x84 xe4 x9c xf2 xcb)) E)
(L (W x00 x01 x01 x01 x72 xd5 xfe xff)))
(T (W x00 x00 x00 x00 x00 x00 x00 x00)
(L (W xff xff xff xff xff xff xff xff))
(L (W x45 x26 x22 x84 xe4 x9c xf2 xcb))))
(T (W x00 x00 x80 x3f x00 x00 x80 x3f)
(T (W x49 xa1 x68 x4a xeb x5f xdd x3d)
(T (W x64 x5f x6c x76 x31 x00 x00 x00)
(L (W x00 x00 x00 x00 xb2 xec xff xff)) E)
(L (W x45 x26 x22 x84 xe4 x9c xf2 xcb)))
(T (W x00 x00 x00 x00 x00 x00 x00 x00)
(L (W xff xff xff xff xff xff xff xff))
(L (W x00 x00 x00 x00 x00 x00 x00 x00)))))
(T (W xff xff xff xff xff xff xff xff)
(T (W x00 x00 x00 x00 xfc x38 xfc xff)
(T (W xff xff xff xff xff xff xff xff)
(T (W x6b x65 x5f x77 x61 x72 x6c x69)
(L (W xff xff xff xff xff xff xff xff)) E)
(L (W x00 x00 x80 xbf x00 x00 x80 xbf)))
(T (W x25 x00 x00 x00 x28 x00 x00 x00)
(L (W x5a x34 xc8 xc9 x03 x8f xa0 xbc))
(L (W x00 x00 x00 x00 x00 x00 x00 x00))))
(T (W x45 x26 x22 x84 xe4 x9c xf2 xcb)
(T (W xff xff xff xff xff xff xff xff)
(T (W xcf x01 x00 x00 x9c x00 x00 x00)
(L (W x00 x00 x80 xbf x00 x00 x80 xbf)) E)
(L (W xff xff xff xff xff xff xff xff)))
(T (W xff xff xff xff xff xff xff xff)
(L (W xff xff xff xff xff xff xff xff))
(L (W x00 x00 x00 x00 x00 x00 x00 x00)))))))
(T (W x45 x26 x22 x84 xe4 x9c xf2 xcb)
(T (W xff xff xff xff xff xff xff xff)
(T (W xff xff xff xff xff xff xff xff)
(T (W xbc x00 x00 x00 xb0 x00 x00 x00)
(T (W x00 x00 x00 x00 x00 x00 x00 x00)
(T (W x00 x00 x00 x00 x00 x00 x00 x00)
(L (W x00 x00 x80 xbf x00 x00 x80 xbf)) E)
(L (W x70 x00 x00 x00 x64 x00 x00 x00)))
(T (W x30 x33 x5f x43 x4c x45 x41 x52)
(L (W xff xff xff xff xa0 x00 x00 x00))
(L (W x00 x00 x00 x00 x00 x00 x00 x00))))
(T (W x00 x00 x80 x3f x00 x00 x80 x3f)
(T (W x00 x00 x00 x00 x00 x00 x00 x00)
(T (W x00 x00 x00 x00 x00 x00 x00 x00)
(L (W xff xff xff xff xff xff xff xff)) E)
(L (W x72 xcf xfe xff x78 x00 x00 x00)))
(T (W x00 x00 x00 x00 x00 x00 x00 x00)
(L (W xa9 x01 x00 x00 xff xff xff xff))
(L (W x46 x53 x59 x53 x5f x4e x53 x5f)))))
(T (W xff xff xff xff xff xff xff xff)
(T (W xc2 x2d xfc xff x74 x00 x00 x00)
(T (W x00 x00 x00 x00 x00 x00 x00 x00)
(T (W x6b x01 x00 x00 xff xff xff xff)
(L (W xff xff xff xff xff xff xff xff)) E)
(L (W x49 xa1 x68 x4a xeb x5f xdd x3d)))
(T (W x50 x00 x00 x00 x44 x00 x00 x00)
(L (W x03 x00 x00 x00 xbc x00 x00 x00))
(L (W x4f x84 x6f x8b xe8 xcb x63 xb7))))
(T (W x00 x00 x00 x00 x00 x00 x00 x00)
(T (W xff xff xff xff xff xff xff xff)
(T (W x70 x6d x30 x34 x38 x39 x00 x00)
(L (W x00 x00 x00 x00 x00 x00 x00 x00)) E)
(L (W x74 x03 x00 x00 x4c x02 x00 x00)))
(T (W xff xff xff xff xff xff xff xff)
(L (W xff xff xff xff xff xff xff xff))
(L (W x00 x00 x00 x00 x00 x00 x00 x00))))))
(T (W xff xff xff xff xff xff xff xff)
(T (W xff xff xff xff xff xff xff xff)
(T (W x50 x00 x00 x00 x44 x00 x00 x00)
(T (W x3e x00 x00 x00 x10 x00 x00 x00)
(T (W x00 x00 x00 x00 x00 x00 x00 x00)
(L (W x8c xa2 xff xff x00 x01 x01 x01)) E)
(L (W x18 x00 x1c x00 x20 x00 x24 x00)))
(T (W x00 x00 x00 x00 x00 x00 x00 x00)
(L (W xc2 x1d xfe xff x74 x00 x00 x00))
(L (W x00 x00 x80 xbf x00 x00 x80 xbf))))
(T (W x45 x26 x22 x84 xe4 x9c xf2 xcb)
(T (W x00 x00 x80 x3f x00 x00 x80 x3f)
(T (W x52 xfa xff xff x42 x00 x00 x00)
(L (W xff xff xff xff xff xff xff xff)) E)
(L (W xff xff xff xff xff xff xff xff)))
(T (W x00 x00 x00 x00 x00 x00 x00 x00)
(L (W xff xff xff xff xff xff xff xff))
(L (W x4f x84 x6f x8b xe8 xcb x63 xb7)))))
(T (W xff xff xff xff xff xff xff xff)
(T (W x45 x26 x22 x84 xe4 x9c xf2 xcb)
(T (W xff xff xff xff xff xff xff xff)
(T (W x00 x00 x00 x00 xfc xc0 xfd xff)
(L (W xff xff xff xff xff xff xff xff)) E)
(L (W x00 x00 x80 xbf x00 x00 x80 xbf)))
(T (W xff xff xff xff xff xff xff xff)
(L (W x00 x00 x00 x00 x00 x00 x00 x00))
(L (W x45 x44 x00 x00 x00 x00 x00 x00))))
(T (W x45 x26 x22 x84 xe4 x9c xf2 xcb)
(T (W xff xff xff xff xff xff xff xff)
(T (W x00 x00 x80 x3f x00 x00 x80 x3f)
(L (W x00 x00 x00 x00 x60 x00 x64 x00)) E)
(L (W x00 x00 x00 x00 x08 x00 x00 x00)))
(T (W x65 x5f x73 x6b x79 x00 x00 x00)
(L (W xff xff xff xff xff xff xff xff))
(L (W x00 x00 x80 xbf x00 x00 x80 xbf))))))))
(T (W x8c x96 xfb xff x00 x01 x01 x01)
(T (W x00 x00 x00 x00 x00 x00 x00 x00)
(T (W x00 x00 x00 x00 x00 x00 x00 x00)
(T (W x45 x26 x22 x84 xe4 x9c xf2 xcb)
(T (W x00 x00 x00 x00 x00 x00 x00 x00)
(T (W x68 x00 x00 x00 x5c x00 x00 x00)
(T (W xff xff xff xff xff xff xff xff)
(L (W x30 x33 x5f x43 x4c x45 x41 x52)) E)
(L (W x00 x00 x00 x00 x00 x00 x00 x00)))
(T (W xc2 x09 xfd xff x74 x00 x00 x00)
(L (W x6c x64 x5f x70 x6f x6b x65 x5f))
(L (W xff xff xff xff xb0 x00 x00 x00))))
(T (W xff xff xff xff xff xff xff xff)
(T (W x72 xcb xfc xff x78 x00 x00 x00)
(T (W x00 x00 x80 x3f x00 x00 x80 x3f)
(L (W x8c xce xff xff x00 x01 x01 x01)) E)
(L (W xff xff xff xff x01 x00 x00 x00)))
(T (W x00 x00 x80 x3f x00 x00 x80 x3f)
(L (W x45 x26 x22 x84 xe4 x9c xf2 xcb))
(L (W x00 x00 x00 x00 xfc x4c xff xff)))))
(T (W x00 x00 x80 x3f x00 x00 x80 x3f)
(T (W x00 x00 x00 x00 x00 x00 x00 x00)
(T (W xbc x00 x00 x00 xb0 x00 x00 x00)
(T (W x50 x00 x00 x00 x44 x00 x00 x00)
(L (W x54 x00 x00 x00 x48 x00 x00 x00)) E)
(L (W xff xff xff xff xff xff xff xff)))
(T (W xff xff xff xff xff xff xff xff)
(L (W x03 x00 x00 x00 xb4 x00 x00 x00))
(L (W xff xff xff xff xff xff xff xff))))
(T (W xff xff xff xff xff xff xff xff)
(T (W x00 x00 x00 x00 x00 x00 x00 x00)
(T (W x54 x00 x00 x00 x48 x00 x00 x00)
(L (W xb8 x00 x00 x00 x28 x00 x00 x00)) E)
(L (W x00 x00 x80 xbf x00 x00 x80 xbf)))
(T (W x00 x00 x00 x00 x00 x00 x00 x00)
(L (W x00 x00 x80 xbf x00 x00 x80 xbf))
(L (W x18 x00 x00 x00 x10 x00 x00 x00))))))
(T (W x00 x00 x80 x3f x00 x00 x80 x3f)
(T (W x00 x00 x80 x3f x00 x00 x80 x3f)
(T (W x00 x00 x00 x00 x00 x00 x00 x00)
(T (W x45 x26 x22 x84 xe4 x9c xf2 xcb)
(T (W xff xff xff xff x03 x00 x00 x00)
(L (W x30 x33 x5f x43 x4c x45 x41 x52)) E)
(L (W x00 x00 x00 x00 x00 x00 x00 x00)))
(T (W x45 x26 x22 x84 xe4 x9c xf2 xcb)
(L (W x50 x00 x00 x00 x44 x00 x00 x00))
(L (W xa9 x01 x00 x00 xff xff xff xff))))
(T (W xff xff xff xff xff xff xff xff)
(T (W xff xff xff xff xff xff xff xff)
(T (W x50 x00 x00 x00 x44 x00 x00 x00)
(L (W x6c x00 x00 x00 x60 x00 x00 x00)) E)
(L (W x00 x00 x00 x00 x00 x00 x00 x00)))
(T (W xff xff xff xff xff xff xff xff)
(L (W x00 x00 x80 xbf x00 x00 x80 xbf))
(L (W xff xff xff xff xbc x00 x00 x00)))))
(T (W x00 x00 x00 x00 x00 x00 x00 x00)
(T (W x01 x00 x00 x00 x04 x00 x00 x00)
(T (W x00 x00 x80 x3f x00 x00 x80 x3f)
(T (W x70 x5f x6c x65 x61 x64 x65 x72)
(L (W x54 x00 x00 x00 x48 x00 x00 x00)) E)
(L (W xff xff xff xff xff xff xff xff)))
(T (W x00 x00 x00 x00 x00 x00 x00 x00)
(L (W x00 x00 x80 xbf x00 x00 x80 xbf))
(L (W x14 x00 x00 x00 x0c x00 x00 x00))))
(T (W xb8 x00 x00 x00 xac x00 x00 x00)
(T (W x45 x26 x22 x84 xe4 x9c xf2 xcb)
(T (W xce x01 x00 x00 xff xff xff xff)
(L (W x24 x00 x28 x00 x2c x00 x30 x00)) E)
(L (W x54 x00 x00 x00 x48 x00 x00 x00)))
(T (W x6c x00 x00 x00 x60 x00 x00 x00)
(L (W x00 x00 x00 x00 x00 x00 x00 x00))
(L (W x46 x53 x59 x53 x5f x4e x53 x5f)))))))
(T (W x45 x26 x22 x84 xe4 x9c xf2 xcb)
(T (W x68 x00 x00 x00 x5c x00 x00 x00)
(T (W x00 x00 x80 x3f x00 x00 x80 x3f)
(T (W x00 x00 x00 x00 x00 x00 x00 x00)
(T (W x8c x96 xfc xff x00 x01 x01 x01)
(T (W xb8 x00 x00 x00 xac x00 x00 x00)
(L (W x00 x00 x00 x00 x00 x00 x00 x00)) E)
(L (W x00 x00 x00 x00 x00 x00 x00 x00)))
(T (W x18 x00 x00 x00 x0c x00 x00 x00)
(L (W x00 x00 x80 x3f x00 x00 x80 x3f))
(L (W xff xff xff xff xff xff xff xff))))
(T (W xff xff xff xff xff xff xff xff)
(T (W xb0 x00 x00 x00 x64 x00 x00 x00)
(T (W x50 x00 x00 x00 x44 x00 x00 x00)
(L (W x00 x00 x80 xbf x00 x00 x80 xbf)) E)
(L (W x1c xda xfe xff x18 x00 x00 x00)))
(T (W x18 x00 x00 x00 x10 x00 x00 x00)
(L (W x00 x00 x80 xbf x00 x00 x80 xbf))
(L (W x45 x26 x22 x84 xe4 x9c xf2 xcb)))))
(T (W x00 x00 x00 x00 x00 x00 x00 x00)
(T (W x1c x3a xfc xff x3e x00 x00 x00)
(T (W x8c xb6 xfc xff x00 x01 x01 x01)
(T (W x45 x26 x22 x84 xe4 x9c xf2 xcb)
(L (W x00 x00 x80 xbf x00 x00 x80 xbf)) E)
(L (W xff xff xff xff xff xff xff xff)))
(T (W x00 x00 x00 x00 x00 x00 x00 x00)
(L (W x00 x00 x80 xbf x00 x00 x80 xbf))
(L (W xff xff xff xff xff xff xff xff))))
(T (W xff xff xff xff xff xff xff xff)
(T (W x49 xa1 x68 x4a xeb x5f xdd x3d)
(T (W x62 x00 x00 x00 x01 x01 x01 x01)
(L (W x54 x00 x00 x00 x48 x00 x00 x00)) E)
(L (W x00 x00 x80 xbf x00 x00 x80 xbf)))
(T (W x00 x00 x80 x3f x00 x00 x80 x3f)
(L (W x00 x00 x80 xbf x00 x00 x80 xbf))
(L (W xff xff xff xff xff xff xff xff))))))
(T (W x00 x00 x00 x00 x00 x00 x00 x00)
(T (W x00 x00 x80 x3f x00 x00 x80 x3f)
(T (W x00 x00 x00 x00 x00 x00 x00 x00)
(T (W xec x01 x00 x00 x68 x00 x00 x00)
(T (W x68 x00 x00 x00 x5c x00 x00 x00)
(L (W xff xff xff xff xff xff xff xff)) E)
(L (W xff xff xff xff xff xff xff xff)))
(T (W xff xff xff xff xff xff xff xff)
(L (W x00 x00 x00 x00 x00 x00 x00 x00))
(L (W xcc x00 x00 x00 x01 x00 x00 x00))))
(T (W xff xff xff xff xff xff xff xff)
(T (W x45 x44 x00 x00 x00 x00 x00 x00)
(T (W x00 x00 x00 x00 x00 x00 x00 x00)
(L (W x00 x00 x00 x00 x00 x00 x00 x00)) E)
(L (W x00 x00 x80 xbf x00 x00 x80 xbf)))
(T (W x00 x00 x00 x00 x00 x00 x00 x00)
(L (W x00 x00 x80 xbf x00 x00 x80 xbf))
(L (W xff xff xff xff xff xff xff xff)))))
(T (W x00 x00 x00 x00 x00 x00 x00 x00)
(T (W xff xff xff xff xff xff xff xff)
(T (W x00 x00 x80 x3f x00 x00 x80 x3f)
(T (W x00 x00 x00 x00 x00 x00 x00 x00)
(L (W x2c x00 x30 x00 x34 x00 x38 x00)) E)
(L (W xff xff xff xff xff xff xff xff)))
(T (W x45 x26 x22 x84 xe4 x9c xf2 xcb)
(L (W x00 x00 x80 xbf x00 x00 x80 xbf))
(L (W x72 x43 xff xff x78 x00 x00 x00))))
(T (W x45 x26 x22 x84 xe4 x9c xf2 xcb)
(T (W x00 x00 x80 x3f x00 x00 x80 x3f)
(L (W x00 x00 x80 x3f x00 x00 x80 x3f))
(L (W xc2 x01 xff xff x74 x00 x00 x00)))
(T (W x68 x00 x00 x00 x5c x00 x00 x00)
(L (W x00 x00 x00 x00 x00 x00 x00 x00))
(L (W x14 x00 x00 x00 x10 x00 x00 x00)))))))))))))))
(T (W x06 x00 x00 x00 x04 x00 x00 x00)
(T (W x88 x72 x04 x00 x14 x6d x04 x00)
(T (W x48 x40 x04 x00 x8c x34 x04 x00)
(T (W xc8 xec x03 x00 x6c xea x03 x00)
(T (W xd8 x55 x03 x00 xe4 x4e x03 x00)
(T (W xf0 x5a x02 x00 xac x58 x02 x00)
(T (W x60 xea x00 x00 x2c xe9 x00 x00)
(T (W x00 x00 x01 x01 x26 x02 x00 x00)
(T (W x54 x00 x00 x00 x48 x00 x00 x00)
(T (W x68 x00 x00 x00 x5c x00 x00 x00)
(T (W x00 x00 x00 x00 x00 x00 x00 x00)
(T (W x40 x00 x00 x00 x0c x00 x00 x00)
(T (W x68 x00 x00 x00 x5c x00 x00 x00)
(T (W x00 x00 x80 x3f x00 x00 x80 x3f)
(L (W x2c x01 x00 x00 x04 x00 x00 x00)) E)
(L (W x46 x53 x59 x53 x5f x4e x53 x5f)))
(T (W x49 xa1 x68 x4a xeb x5f xdd x3d)
(L (W x45 x26 x22 x84 xe4 x9c xf2 xcb))
(L (W x00 x00 x80 xbf x00 x00 x80 xbf))))
(T (W xff xff xff xff xff xff xff xff)
(T (W x00 x00 x00 x00 x00 x00 x00 x00)
(T (W x00 x00 x00 x00 x00 x00 x00 x00)
(L (W x58 x00 x00 x00 x4c x00 x00 x00)) E)
(L (W xff xff xff xff xff xff xff xff)))
(T (W x00 x00 x00 x00 x00 x00 x00 x00)
(L (W x00 x00 x80 xbf x00 x00 x80 xbf))
(L (W x00 x00 x80 xbf x00 x00 x80 xbf)))))
(T (W x00 x00 x00 x00 x00 x00 x00 x00)
(T (W xf4 x53 xa6 x94 x59 x98 x6d xc3)
(T (W x00 x00 x14 x00 x18 x00 x1c x00)
(T (W x00 x00 x80 x3f x00 x00 x80 x3f)
(L (W xff xff xff xff xff xff xff xff)) E)
(L (W xff xff xff xff xff xff xff xff)))
(T (W xff xff xff xff xff xff xff xff)
(L (W x00 x00 x00 x00 x00 x00 x00 x00))
(L (W x1c x00 x00 x00 x10 x00 x00 x00))))
(T (W xff xff xff xff xff xff xff xff)
(T (W x00 x00 x00 x00 xba xe2 xfc xff)
(T (W x8c xfa xfd xff x25 x00 x00 x00)
(L (W x5c x00 x60 x00 x62 x00 x00 x00)) E)
(L (W x00 x00 x80 xbf x00 x00 x80 xbf)))
(T (W xff xff xff xff xff xff xff xff)
(L (W x49 xa1 x68 x4a xeb x5f xdd x3d))
(L (W xff xff xff xff xff xff xff xff))))))
(T (W x00 x00 x80 x3f x00 x00 x80 x3f)
(T (W x00 x00 x00 x00 x00 x00 x00 x00)
(T (W x00 x00 x00 x00 x00 x00 x00 x00)
(T (W x50 x00 x00 x00 x44 x00 x00 x00)
(T (W x45 x26 x22 x84 xe4 x9c xf2 xcb)
(L (W xff xff xff xff xff xff xff xff)) E)
(L (W x30 x33 x5f x43 x4c x45 x41 x52)))
(T (W x8a x13 xfd xff x78 x00 x00 x00)
(L (W x00 x00 x80 x3f x00 x00 x80 x3f))
(L (W xff xff xff xff xff xff xff xff))))
(T (W xff xff xff xff xff xff xff xff)
(T (W x45 x26 x22 x84 xe4 x9c xf2 xcb)
(T (W x00 x00 x80 x3f x00 x00 x80 x3f)
(L (W x00 x00 x80 xbf x00 x00 x80 xbf)) E)
(L (W x00 x00 x00 x00 x06 x00 x00 x00)))
(T (W x8a x53 xfd xff x78 x00 x00 x00)
(L (W x00 x00 x00 x00 x00 x00 x00 x00))
(L (W x6c x00 x00 x00 x60 x00 x00 x00)))))
(T (W x00 x00 x00 x00 x00 x00 x00 x00)
(T (W x00 x00 x00 x00 x02 x00 x00 x00)
(T (W x50 x00 x00 x00 x44 x00 x00 x00)
(T (W x00 x00 x00 x00 x00 x00 x00 x00)
(L (W x45 x26 x22 x84 xe4 x9c xf2 xcb)) E)
(L (W xff xff xff xff xff xff xff xff)))
(T (W x00 x00 x00 x00 x32 x3d xfd xff)
(L (W x00 x00 x80 xbf x00 x00 x80 xbf))
(L (W xff xff xff xff xa8 x00 x00 x00))))
(T (W xff xff xff xff x04 x00 x00 x00)
(T (W x00 x00 x00 x00 x00 x00 x00 x00)
(T (W xff xff xff xff xff xff xff xff)
(L (W x00 x00 x80 xbf x00 x00 x80 xbf)) E)
(L (W x00 x00 x80 xbf x00 x00 x80 xbf)))
(T (W x00 x00 x00 x00 x00 x00 x00 x00)
(L (W x49 xa1 x68 x4a xeb x5f xdd x3d))
(L (W xff xff xff xff xff xff xff xff)))))))
(T (W x00 x00 x00 x00 x00 x00 x00 x00)
(T (W x6f x6b x65 x5f x63 x6f x77 x61)
(T (W x00 x00 x00 x00 x00 x00 x00 x00)
(T (W x00 x00 x00 x00 x00 x00 x00 x00)
(T (W x00 x00 x80 x3f x00 x00 x80 x3f)
(T (W xff xff xff xff xff xff xff xff)
(L (W x00 x00 x00 x00 x00 x00 x00 x00)) E)
(L (W x87 x27 xd5 x4f x49 x4b x07 x36)))
(T (W x00 x00 x80 x3f x00 x00 x80 x3f)
(L (W x67 x72 x6f x75 x70 x5f x6c x65))
(L (W xa4 x0e xff xff x00 x01 x01 x01))))
(T (W xff xff xff xff xff xff xff xff)
(T (W x00 x00 x80 x3f x00 x00 x80 x3f)
(T (W x00 x00 x00 x00 x00 x00 x00 x00)
(L (W x54 x00 x00 x00 x48 x00 x00 x00)) E)
(L (W xff xff xff xff xff xff xff xff)))
(T (W x00 x00 x80 x3f x00 x00 x80 x3f)
(L (W x00 x00 x00 x00 x00 x00 x00 x00))
(L (W x50 x00 x00 x00 x44 x00 x00 x00)))))
(T (W x45 x26 x22 x84 xe4 x9c xf2 xcb)
(T (W x00 x00 x00 x00 x00 x00 x00 x00)
(T (W x45 x26 x22 x84 xe4 x9c xf2 xcb)
(T (W x00 x00 x80 x3f x00 x00 x80 x3f)
(L (W x00 x00 x80 xbf x00 x00 x80 xbf)) E)
(L (W xff xff xff xff xff xff xff xff)))
(T (W xff xff xff xff xff xff xff xff)
(L (W x1c x00 x00 x00 x10 x00 x00 x00))
(L (W xb8 x00 x00 x00 x3c x00 x00 x00))))
(T (W xb8 x00 x00 x00 xac x00 x00 x00)
(T (W x00 x00 x00 x00 x00 x00 x00 x00)
(T (W x00 x00 x80 x3f x00 x00 x80 x3f)
(L (W x18 x00 x00 x00 x10 x00 x00 x00)) E)
(L (W x49 xa1 x68 x4a xeb x5f xdd x3d)))
(T (W x00 x00 x00 x00 x00 x00 x00 x00)
(L (W x00 x00 x80 xbf x00 x00 x80 xbf))
(L (W xda x69 xff xff x74 x00 x00 x00))))))
(T (W x45 x26 x22 x84 xe4 x9c xf2 xcb)
(T (W x00 x00 x80 x3f x00 x00 x80 x3f)
(T (W x00 x00 x00 x00 x00 x00 x00 x00)
(T (W x68 x00 x00 x00 x5c x00 x00 x00)
(T (W x18 x00 x00 x00 x0c x00 x00 x00)
(L (W x00 x00 x00 x00 x00 x00 x00 x00)) E)
(L (W x00 x00 x00 x00 x00 x00 x00 x00)))
(T (W x68 x00 x00 x00 x5c x00 x00 x00)
(L (W x00 x00 x80 xbf x00 x00 x80 xbf))
(L (W xff xff xff xff xff xff xff xff))))
(T (W xff xff xff xff xff xff xff xff)
(T (W xff xff xff xff xff xff xff xff)
(T (W x00 x00 x80 x3f x00 x00 x80 x3f)
(L (W x00 x00 x80 xbf x00 x00 x80 xbf)) E)
(L (W x30 x33 x5f x43 x4c x45 x41 x52)))
(T (W x1f x00 x00 x00 x22 x00 x00 x00)
(L (W x00 x00 x80 xbf x00 x00 x80 xbf))
(L (W x18 x00 x00 x00 x10 x00 x00 x00)))))
(T (W x00 x00 x00 x00 x00 x00 x00 x00)
(T (W xff xff xff xff xff xff xff xff)
(T (W x00 x00 x80 x3f x00 x00 x80 x3f)
(T (W x64 x5f x6c x76 x31 x00 x00 x00)
(L (W x00 x00 x80 xbf x00 x00 x80 xbf)) E)
(L (W xff xff xff xff xff xff xff xff)))
(T (W x00 x00 x00 x00 x00 x00 x00 x00)
(L (W x45 x26 x22 x84 xe4 x9c xf2 xcb))
(L (W x68 x00 x00 x00 x5c x00 x00 x00))))
(T (W x45 x26 x22 x84 xe4 x9c xf2 xcb)
(T (W x00 x00 x00 x00 x00 x00 x00 x00)
(T (W xff xff xff xff xff xff xff xff)
(L (W x50 x00 x00 x00 x44 x00 x00 x00)) E)
(L (W x00 x00 x80 xbf x00 x00 x80 xbf)))
(T (W x00 x00 x80 x3f x00 x00 x80 x3f)
(L (W x00 x00 x00 x00 x00 x00 x00 x00))
(L (W x00 x00 x00 x00 x00 x00 x00 x00))))))))
(T (W x00 x00 x80 x3f x00 x00 x80 x3f)
(T (W x00 x00 x80 x3f x00 x00 x80 x3f)
(T (W x00 x00 x80 x3f x00 x00 x80 x3f)
(T (W xff xff xff xff xff xff xff xff)
(T (W x00 x00 x00 x00 x14 x09 xfc xff)
(T (W x00 x00 x00 x00 x00 x00 x00 x00)
(T (W x00 x00 x80 x3f x00 x00 x80 x3f)
(L (W x50 x00 x00 x00 x44 x00 x00 x00)) E)
(L (W x6c x00 x00 x00 x60 x00 x00 x00)))
(T (W xff xff xff xff xff xff xff xff)
(L (W x00 x00 x80 x3f x00 x00 x80 x3f))
(L (W xff xff xff xff xff xff xff xff))))
(T (W x00 x00 x80 x3f x00 x00 x80 x3f)
(T (W xff xff xff xff xff xff xff xff)
(T (W xb8 x00 x00 x00 xac x00 x00 x00)
(L (W xff xff xff xff xff xff xff xff)) E)
(L (W x00 x00 x80 xbf x00 x00 x80 xbf)))
(T (W xff xff xff xff xff xff xff xff)
(L (W xff xff xff xff xff xff xff xff))
(L (W xff xff xff xff xff xff xff xff)))))
(T (W x18 x00 x00 x00 x10 x00 x00 x00)
(T (W x00 x00 x80 x3f x00 x00 x80 x3f)
(T (W x00 x00 x00 x00 x72 xc5 xfe xff)
(T (W xff xff xff xff xff xff xff xff)
(L (W x00 x00 x80 xbf x00 x00 x80 xbf)) E)
(L (W x00 x00 x00 x00 x00 x00 x00 x00)))
(T (W x00 x00 x00 x00 x00 x00 x00 x00)
(L (W xff xff xff xff xff xff xff xff))
(L (W x00 x00 x00 x00 x00 x00 x00 x00))))
(T (W x00 x00 x00 x00 x00 x00 x00 x00)
(T (W x6c x00 x00 x00 x60 x00 x00 x00)
(T (W x18 x00 x00 x00 x10 x00 x00 x00)
(L (W x49 xa1 x68 x4a xeb x5f xdd x3d)) E)
(L (W xb8 x00 x00 x00 x64 x00 x00 x00)))
(T (W x00 x00 x80 x3f x00 x00 x80 x3f)
(L (W xc4 x00 x00 x00 x02 x00 x00 x00))
(L (W x00 x00 x00 x00 x00 x00 x00 x00))))))
(T (W xff xff xff xff xff xff xff xff)
(T (W xff xff xff xff x04 x00 x00 x00)
(T (W x50 x00 x00 x00 x44 x00 x00 x00)
(T (W x0a xcc xeb xf8 x3c x9c xbe x88)
(T (W x00 x00 x00 x00 x00 x00 x00 x00)
(L (W x68 x00 x00 x00 x5c x00 x00 x00)) E)
(L (W x44 x00 x00 x00 x00 x00 x80 xbf)))
(T (W x1c x56 xed x05 x5f x88 x68 xcc)
(L (W xff xff xff xff xff xff xff xff))
(L (W x00 x00 x00 x00 x00 x00 x00 x00))))
(T (W x45 x26 x22 x84 xe4 x9c xf2 xcb)
(T (W x00 x00 x00 x00 x00 x00 x00 x00)
(T (W xf8 xcc x36 x97 x85 x2a x63 x5f)
(L (W xff xff xff xff xff xff xff xff)) E)
(L (W x6c x00 x00 x00 x60 x00 x00 x00)))
(T (W x5f x4e x53 x5f x30 x33 x5f x43)
(L (W xff xff xff xff xff xff xff xff))
(L (W x00 x00 x00 x00 x00 x00 x00 x00)))))
(T (W xc0 x00 x00 x00 xb4 x00 x00 x00)
(T (W x50 x00 x00 x00 x44 x00 x00 x00)
(T (W xff xff xff xff xff xff xff xff)
(T (W x6a xd2 xff xff xe2 x00 x00 x00)
(L (W xff xff xff xff xff xff xff xff)) E)
(L (W x45 x26 x22 x84 xe4 x9c xf2 xcb)))
(T (W x45 x26 x22 x84 xe4 x9c xf2 xcb)
(L (W x24 x01 x00 x00 x04 x00 x00 x00))
(L (W xff xff xff xff xff xff xff xff))))
(T (W x00 x00 x00 x00 x00 x00 x00 x00)
(T (W xff xff xff xff xff xff xff xff)
(T (W x00 x00 x00 x00 x14 xf9 xfd xff)
(L (W x4f x84 x6f x8b xe8 xcb x63 xb7)) E)
(L (W xff xff xff xff xff xff xff xff)))
(T (W xff xff xff xff xff xff xff xff)
(L (W x03 x00 x00 x00 xd8 x00 x00 x00))
(L (W x00 x00 x00 x00 x00 x00 x00 x00)))))))
(T (W x68 x00 x00 x00 x5c x00 x00 x00)
(T (W xff xff xff xff xff xff xff xff)
(T (W xff xff xff xff xff xff xff xff)
(T (W x45 x26 x22 x84 xe4 x9c xf2 xcb)
(T (W x00 x00 x00 x00 x00 x00 x00 x00)
(T (W x00 x00 x00 x00 x00 x00 x00 x00)
(L (W x00 x00 x80 xbf x00 x00 x80 xbf)) E)
(L (W x00 x00 x80 xbf x00 x00 x80 xbf)))
(T (W x00 x00 x00 x00 x00 x00 x00 x00)
(L (W x00 x00 x00 x00 x14 x11 xfe xff))
(L (W x00 x00 x00 x00 x00 x00 x00 x00))))
(T (W x00 x00 x80 x3f x00 x00 x80 x3f)
(T (W x2c x00 x00 x00 x10 x00 x00 x00)
(T (W xff xff xff xff xff xff xff xff)
(L (W xff xff xff xff xff xff xff xff)) E)
(L (W x00 x00 x80 xbf x00 x00 x80 xbf)))
(T (W x02 x00 x00 x00 xff xff xff xff)
(L (W xff xff xff xff xff xff xff xff))
(L (W x00 x00 x00 x00 x00 x00 x00 x00)))))
(T (W xb8 x00 x00 x00 xac x00 x00 x00)
(T (W x00 x00 x80 x3f x00 x00 x80 x3f)
(T (W x00 x00 x00 x00 x00 x00 x00 x00)
(T (W xff xff xff xff xff xff xff xff)
(L (W xc0 x00 x00 x00 x01 x00 x00 x00)) E)
(L (W x00 x00 x00 x00 x00 x00 x00 x00)))
(T (W x00 x00 x80 x3f x00 x00 x80 x3f)
(L (W x18 x00 x00 x00 x0c x00 x00 x00))
(L (W x00 x00 x00 x00 x00 x00 x00 x00))))
(T (W x00 x00 x00 x00 x00 x00 x00 x00)
(T (W x1f x00 x00 x00 x22 x00 x00 x00)
(T (W x5f x77 x69 x6c x64 x5f x70 x6f)
(L (W x46 x53 x59 x53 x5f x4e x53 x5f)) E)
(L (W xff xff xff xff xff xff xff xff)))
(T (W xff xff xff xff x9c x00 x00 x00)
(L (W xff xff xff xff xff xff xff xff))
(L (W x00 x00 x00 x00 x00 x00 x00 x00))))))
(T (W x64 x00 x00 x00 x9c x00 x00 x00)
(T (W xff xff xff xff x04 x00 x00 x00)
(T (W x00 x00 x80 x3f x00 x00 x80 x3f)
(T (W x04 x00 x00 x00 xea xbe xfe xff)
(T (W x26 x00 x00 x00 x10 x00 x00 x00)
(L (W x54 x00 x00 x00 x48 x00 x00 x00)) E)
(L (W x00 x00 x48 x00 x4c x00 x00 x00)))
(T (W x12 x00 x00 x00 x46 x53 x59 x53)
(L (W x00 x00 x80 xbf x00 x00 x80 xbf))
(L (W x00 x00 x00 x00 x00 x00 x00 x00))))
(T (W x00 x00 x00 x00 x00 x00 x00 x00)
(T (W x00 x00 x80 x3f x00 x00 x80 x3f)
(T (W xff xff xff xff xff xff xff xff)
(L (W xff xff xff xff xff xff xff xff)) E)
(L (W xc4 x00 x00 x00 x01 x00 x00 x00)))
(T (W x00 x00 x00 x00 x00 x00 x00 x00)
(L (W xa8 x00 x00 x00 x64 x00 x00 x00))
(L (W x00 x00 x00 x00 x00 x00 x00 x00)))))
(T (W xff xff xff xff x03 x00 x00 x00)
(T (W x68 x00 x00 x00 x5c x00 x00 x00)
(T (W x03 x00 x00 x00 xd0 x00 x00 x00)
(T (W x50 x00 x00 x00 x44 x00 x00 x00)
(L (W xff xff xff xff xff xff xff xff)) E)
(L (W x00 x00 x80 xbf x00 x00 x80 xbf)))
(T (W x03 x00 x00 x00 xd4 x00 x00 x00)
(L (W xff xff xff xff xff xff xff xff))
(L (W x00 x00 x00 x00 xca x54 xff xff))))
(T (W x00 x00 x00 x00 x00 x00 x00 x00)
(T (W xff xff xff xff xff xff xff xff)
(T (W x4f x84 x6f x8b xe8 xcb x63 xb7)
(L (W xff xff xff xff xff xff xff xff)) E)
(L (W x74 x03 x00 x00 x4c x02 x00 x00)))
(T (W x86 x4a x2b x97 x85 x98 x55 x5f)
(L (W xa8 x00 x00 x00 x3c x00 x00 x00))
(L (W x00 x00 x80 xbf x00 x00 x80 xbf)))))))))
(T (W xff xff xff xff x04 x00 x00 x00)
(T (W x45 x26 x22 x84 xe4 x9c xf2 xcb)
(T (W xff xff xff xff xff xff xff xff)
(T (W x1e x00 x00 x00 x0c x00 x00 x00)
(T (W x50 x00 x00 x00 x44 x00 x00 x00)
(T (W x00 x00 x80 x3f x00 x00 x80 x3f)
(T (W xff xff xff xff xff xff xff xff)
(T (W xff xff xff xff xff xff xff xff)
(L (W x00 x00 x00 x00 x00 x00 x00 x00)) E)
(L (W x00 x00 x80 xbf x00 x00 x80 xbf)))
(T (W xff xff xff xff xb0 x00 x00 x00)
(L (W x86 x00 x00 x00 xff xff xff xff))
(L (W x1f x00 x00 x00 x22 x00 x00 x00))))
(T (W x00 x00 x00 x00 x00 x00 x00 x00)
(T (W xda xc3 xfc xff x74 x00 x00 x00)
(T (W x45 x26 x22 x84 xe4 x9c xf2 xcb)
(L (W xff xff xff xff xff xff xff xff)) E)
(L (W x00 x00 x00 x00 x00 x00 x00 x00)))
(T (W x00 x00 x00 x00 x14 x47 xfd xff)
(L (W x1c x00 x00 x00 x10 x00 x00 x00))
(L (W xff xff xff xff xff xff xff xff)))))
(T (W xda xe3 xfb xff x74 x00 x00 x00)
(T (W x45 x26 x22 x84 xe4 x9c xf2 xcb)
(T (W xff xff xff xff xff xff xff xff)
(T (W x64 x00 x00 x00 x9c x00 x00 x00)
(L (W x00 x00 x00 x00 x00 x00 x00 x00)) E)
(L (W xff xff xff xff xff xff xff xff)))
(T (W x00 x00 x00 x00 x00 x00 x00 x00)
(L (W xda x23 xfe xff x74 x00 x00 x00))
(L (W x01 x00 x00 x00 xff xff xff xff))))
(T (W xda x81 xfe xff x00 x00 x01 x01)
(T (W x00 x00 x80 x3f x00 x00 x80 x3f)
(T (W xff xff xff xff xff xff xff xff)
(L (W x46 x53 x59 x53 x5f x4e x53 x5f)) E)
(L (W x50 x00 x00 x00 x44 x00 x00 x00)))
(T (W x12 x00 x00 x00 x46 x53 x59 x53)
(L (W x74 x00 x00 x00 x68 x00 x00 x00))
(L (W xff xff xff xff xff xff xff xff))))))
(T (W xda xb3 xfb xff x74 x00 x00 x00)
(T (W x00 x00 x80 x3f x00 x00 x80 x3f)
(T (W x00 x00 x00 x00 x00 x00 x00 x00)
(T (W xb8 x00 x00 x00 xac x00 x00 x00)
(T (W xff xff xff xff xff xff xff xff)
(L (W x00 x00 x00 x00 x00 x00 x00 x00)) E)
(L (W x49 xa1 x68 x4a xeb x5f xdd x3d)))
(T (W xff xff xff xff xff xff xff xff)
(L (W x45 x26 x22 x84 xe4 x9c xf2 xcb))
(L (W x72 x16 xff xff x89 x01 x00 x00))))
(T (W x01 x00 x00 x00 x04 x00 x00 x00)
(T (W xff xff xff xff xff xff xff xff)
(T (W x18 x00 x00 x00 x0c x00 x00 x00)
(L (W xff xff xff xff xb4 x00 x00 x00)) E)
(L (W x00 x00 x80 xbf x00 x00 x80 xbf)))
(T (W xff xff xff xff xff xff xff xff)
(L (W xff xff xff xff xb0 x00 x00 x00))
(L (W xff xff xff xff xff xff xff xff)))))
(T (W x00 x00 x80 x3f x00 x00 x80 x3f)
(T (W x00 x00 x00 x00 x00 x00 x00 x00)
(T (W x54 x00 x00 x00 x00 x00 x00 x00)
(T (W x00 x00 x80 x3f x00 x00 x80 x3f)
(L (W x00 x00 x80 xbf x00 x00 x80 xbf)) E)
(L (W x00 x00 x00 x00 x00 x00 x00 x00)))
(T (W x00 x00 x00 x00 x00 x00 x00 x00)
(L (W xff xff xff xff xb0 x00 x00 x00))
(L (W xff xff xff xff xff xff xff xff))))
(T (W x20 x01 x00 x00 x04 x00 x00 x00)
(T (W x00 x00 x80 x3f x00 x00 x80 x3f)
(T (W x03 x00 x00 x00 xe4 x00 x00 x00)
(L (W x45 x26 x22 x84 xe4 x9c xf2 xcb)) E)
(L (W x45 x26 x22 x84 xe4 x9c xf2 xcb)))
(T (W x45 x26 x22 x84 xe4 x9c xf2 xcb)
(L (W x6c x00 x00 x00 x60 x00 x00 x00))
(L (W xff xff xff xff xff xff xff xff)))))))
(T (W x75 x6e x00 x00 x42 xe8 xfe xff)
(T (W x45 x26 x22 x84 xe4 x9c xf2 xcb)
(T (W x00 x00 x80 x3f x00 x00 x80 x3f)
(T (W x00 x00 x00 x00 x00 x00 x00 x00)
(T (W xff xff xff xff xff xff xff xff)
(T (W x00 x00 x00 x00 x02 x00 x00 x00)
(L (W x00 x00 x00 x00 x00 x00 x00 x00)) E)
(L (W x45 x26 x22 x84 xe4 x9c xf2 xcb)))
(T (W x18 x00 x00 x00 x10 x00 x00 x00)
(L (W x00 x00 x80 x3f x00 x00 x80 x3f))
(L (W xff xff xff xff xff xff xff xff))))
(T (W x8c x64 xfc xff x11 x00 x00 x00)
(T (W xff xff xff xff xff xff xff xff)
(T (W x00 x00 x80 x3f x00 x00 x80 x3f)
(L (W xc4 x00 x00 x00 x02 x00 x00 x00)) E)
(L (W x4f x84 x6f x8b xe8 xcb x63 xb7)))
(T (W xc8 x00 x00 x00 x01 x00 x00 x00)
(L (W xff xff xff xff x9c x00 x00 x00))
(L (W xff xff xff xff x9c x00 x00 x00)))))
(T (W xa4 xf0 xfb xff x00 x01 x01 x01)
(T (W x00 x00 x80 x3f x00 x00 x80 x3f)
(T (W xff xff xff xff xff xff xff xff)
(T (W x18 x00 x00 x00 x0c x00 x00 x00)
(L (W x54 x00 x00 x00 x48 x00 x00 x00)) E)
(L (W x00 x00 x00 x00 x00 x00 x00 x00)))
(T (W x00 x00 x00 x00 x00 x00 x00 x00)
(L (W x04 x00 x00 x00 xca xfe xff xff))
(L (W xff xff xff xff xff xff xff xff))))
(T (W x00 x00 x00 x00 x00 x00 x00 x00)
(T (W x45 x26 x22 x84 xe4 x9c xf2 xcb)
(T (W x46 x4d x41 x50 x5f x43 x41 x4e)
(L (W xff xff xff xff xff xff xff xff)) E)
(L (W x68 x00 x00 x00 x5c x00 x00 x00)))
(T (W x00 x00 x80 x3f x00 x00 x80 x3f)
(L (W xda x6b xfe xff x74 x00 x00 x00))
(L (W xff xff xff xff xff xff xff xff))))))
(T (W x00 x00 x00 x00 x14 xbf xfb xff)
(T (W x54 x00 x00 x00 x48 x00 x00 x00)
(T (W x00 x00 x00 x00 x00 x00 x00 x00)
(T (W x45 x26 x22 x84 xe4 x9c xf2 xcb)
(T (W xff xff xff xff xff xff xff xff)
(L (W x46 x53 x59 x53 x5f x4e x53 x5f)) E)
(L (W x00 x00 x00 x00 x00 x00 x00 x00)))
(T (W xff xff xff xff xff xff xff xff)
(L (W xff xff xff xff xff xff xff xff))
(L (W x45 x44 x00 x00 x00 x00 x00 x00))))
(T (W xff xff xff xff xff xff xff xff)
(T (W x00 x00 x00 x00 x00 x00 x00 x00)
(T (W x18 x00 x00 x00 x10 x00 x00 x00)
(L (W x8a xdd xff xff x78 x00 x00 x00)) E)
(L (W x00 x00 x80 xbf x00 x00 x80 xbf)))
(T (W xff xff xff xff xff xff xff xff)
(L (W x70 x00 x00 x00 x64 x00 x00 x00))
(L (W x00 x00 x00 x00 x00 x00 x00 x00)))))
(T (W x00 x00 x80 x3f x00 x00 x80 x3f)
(T (W x00 x00 x00 x00 x00 x00 x00 x00)
(T (W xf3 x85 x88 xe2 xbd xc7 x50 x3e)
(T (W x45 x26 x22 x84 xe4 x9c xf2 xcb)
(L (W x1c x00 x00 x00 x10 x00 x00 x00)) E)
(L (W x00 x00 x00 x00 x00 x00 x00 x00)))
(T (W x00 x00 x80 x3f x00 x00 x80 x3f)
(L (W x45 x26 x22 x84 xe4 x9c xf2 xcb))
(L (W xc8 x00 x00 x00 x14 x00 x00 x00))))
(T (W xff xff xff xff xff xff xff xff)
(T (W x00 x00 x00 x00 x14 xff xfc xff)
(T (W x30 x33 x5f x43 x4c x45 x41 x52)
(L (W x45 x44 x00 x00 x00 x00 x00 x00)) E)
(L (W x45 x26 x22 x84 xe4 x9c xf2 xcb)))
(T (W x18 x00 x00 x00 x10 x00 x00 x00)
(L (W x00 x00 x80 xbf x00 x00 x80 xbf))
(L (W x00 x00 x00 x00 x00 x00 x00 x00))))))))
(T (W x64 x5f x70 x6f x6b x65 x5f x77)
(T (W x45 x26 x22 x84 xe4 x9c xf2 xcb)
(T (W xff xff xff xff xff xff xff xff)
(T (W x00 x00 x00 x00 x00 x00 x00 x00)
(T (W xff xff xff xff xff xff xff xff)
(T (W x00 x00 x80 x3f x00 x00 x80 x3f)
(T (W xa4 x8c xfd xff x00 x01 x01 x01)
(L (W x18 x00 x00 x00 x10 x00 x00 x00)) E)
(L (W xff xff xff xff xff xff xff xff)))
(T (W x00 x00 x00 x00 x00 x00 x00 x00)
(L (W x03 x00 x00 x00 xd0 x00 x00 x00))
(L (W x00 x00 x00 x00 x00 x00 x00 x00))))
(T (W x40 x00 x00 x00 x9c x00 x00 x00)
(T (W x00 x00 x00 x00 x00 x00 x00 x00)
(T (W x34 xd0 xfd xff x26 x00 x00 x00)
(L (W x00 x00 x80 xbf x00 x00 x80 xbf)) E)
(L (W x18 x00 x00 x00 x10 x00 x00 x00)))
(T (W x12 x00 x00 x00 x46 x53 x59 x53)
(L (W x20 x00 x00 x00 x10 x00 x00 x00))
(L (W x00 x00 x00 x00 x00 x00 x00 x00)))))
(T (W xda x05 xfe xff x00 x00 x01 x01)
(T (W xff xff xff xff xff xff xff xff)
(T (W x00 x00 x00 x00 x00 x00 x00 x00)
(T (W x00 x00 x00 x00 x00 x00 x00 x00)
(L (W x1b x00 x00 x00 x1e x00 x00 x00)) E)
(L (W x00 x00 x80 xbf x00 x00 x80 xbf)))
(T (W x18 x00 x00 x00 x10 x00 x00 x00)
(L (W x00 x00 x00 x00 x00 x00 x00 x00))
(L (W x68 x00 x00 x00 x5c x00 x00 x00))))
(T (W x00 x00 x80 x3f x00 x00 x80 x3f)
(T (W xff xff xff xff xff xff xff xff)
(T (W x30 x33 x5f x43 x4c x45 x41 x52)
(L (W x00 x00 x00 x00 x00 x00 x64 x00)) E)
(L (W x46 x53 x59 x53 x5f x4e x53 x5f)))
(T (W xff xff xff xff xff xff xff xff)
(L (W xc4 x05 x00 x00 x94 x04 x00 x00))
(L (W x00 x00 x80 xbf x00 x00 x80 xbf))))))
(T (W x34 xc0 xfb xff x3e x00 x00 x00)
(T (W xb2 x37 xff xff xa7 x01 x00 x00)
(T (W xff xff xff xff xff xff xff xff)
(T (W x00 x00 x00 x00 x00 x00 x00 x00)
(T (W x00 x00 x80 x3f x00 x00 x80 x3f)
(L (W xb0 x00 x00 x00 x64 x00 x00 x00)) E)
(L (W xff xff xff xff xff xff xff xff)))
(T (W x00 x00 x80 x3f x00 x00 x80 x3f)
(L (W x34 x20 xfe xff x23 x00 x00 x00))
(L (W x1f x00 x00 x00 x22 x00 x00 x00))))
(T (W x68 x00 x00 x00 x5c x00 x00 x00)
(T (W x6c x00 x00 x00 x60 x00 x00 x00)
(T (W x00 x00 x00 x00 x00 x00 x00 x00)
(L (W x30 x33 x5f x43 x4c x45 x41 x52)) E)
(L (W xff xff xff xff xff xff xff xff)))
(T (W x00 x00 x80 x3f x00 x00 x80 x3f)
(L (W x00 x00 x00 x00 x00 x00 x00 x00))
(L (W x00 x00 x80 xbf x00 x00 x80 xbf)))))
(T (W xff xff xff xff xff xff xff xff)
(T (W x00 x00 x00 x00 x14 x3b xfc xff)
(T (W x45 x26 x22 x84 xe4 x9c xf2 xcb)
(T (W x00 x00 x80 x3f x00 x00 x80 x3f)
(L (W x00 x00 x00 x00 x00 x00 x00 x00)) E)
(L (W x50 x00 x00 x00 x44 x00 x00 x00)))
(T (W xff xff xff xff xff xff xff xff)
(L (W x00 x00 x00 x00 x00 x00 x00 x00))
(L (W x00 x00 x00 x00 x00 x00 x00 x00))))
(T (W x45 x26 x22 x84 xe4 x9c xf2 xcb)
(T (W x72 xfa xfc xff x4a x00 x00 x00)
(T (W x55 x6c xfc xf1 x99 x9e xc9 x88)
(L (W x7c x04 x00 x00 xdc x02 x00 x00)) E)
(L (W x00 x00 x00 x00 x00 x00 x00 x00)))
(T (W x00 x00 x00 x00 x00 x00 x00 x00)
(L (W xff xff xff xff xff xff xff xff))
(L (W x45 x26 x22 x84 xe4 x9c xf2 xcb)))))))
(T (W x21 x00 x00 x00 x67 x72 x6f x75)
(T (W x00 x00 x00 x00 x00 x00 x00 x00)
(T (W x00 x00 x00 x00 x04 x00 x00 x00)
(T (W xff xff xff xff xff xff xff xff)
(T (W x00 x00 x80 x3f x00 x00 x80 x3f)
(T (W x00 x00 x80 x3f x00 x00 x80 x3f)
(L (W xcc x00 x00 x00 x01 x00 x00 x00)) E)
(L (W xff xff xff xff xff xff xff xff)))
(T (W x00 x00 x00 x00 x00 x00 x00 x00)
(L (W xff xff xff xff xff xff xff xff))
(L (W x8a x11 xff xff x78 x00 x00 x00))))
(T (W x01 x00 x00 x00 x3e x00 x00 x00)
(T (W x45 x26 x22 x84 xe4 x9c xf2 xcb)
(T (W x00 x00 x00 x00 x00 x00 x00 x00)
(L (W x00 x00 x00 x00 x00 x00 x00 x00)) E)
(L (W x1f x00 x00 x00 x22 x00 x00 x00)))
(T (W x00 x00 x00 x00 x00 x00 x00 x00)
(L (W x30 x33 x5f x43 x4c x45 x41 x52))
(L (W x00 x00 x00 x00 x00 x00 x00 x00)))))
(T (W xff xff xff xff xff xff xff xff)
(T (W x64 x00 x00 x00 x9c x00 x00 x00)
(T (W x00 x00 x00 x00 x00 x00 x00 x00)
(T (W x27 x00 x00 x00 x10 x00 x00 x00)
(L (W x74 x03 x00 x00 x4c x02 x00 x00)) E)
(L (W x00 x00 x80 xbf x00 x00 x80 xbf)))
(T (W xff xff xff xff xff xff xff xff)
(L (W x13 x00 x00 x00 x0c x00 x00 x00))
(L (W x49 xa1 x68 x4a xeb x5f xdd x3d))))
(T (W x00 x00 x80 x3f x00 x00 x80 x3f)
(T (W xff xff xff xff xff xff xff xff)
(T (W xff xff xff xff xff xff xff xff)
(L (W xff xff xff xff xff xff xff xff)) E)
(L (W x00 x00 x00 x00 x00 x00 x00 x00)))
(T (W x00 x00 x00 x00 x00 x00 x00 x00)
(L (W xff xff xff xff xff xff xff xff))
(L (W x00 x00 x80 xbf x00 x00 x80 xbf))))))
(T (W x00 x00 x00 x00 x02 x00 x00 x00)
(T (W x40 x00 x00 x00 x10 x00 x00 x00)
(T (W xff xff xff xff xff xff xff xff)
(T (W x45 x26 x22 x84 xe4 x9c xf2 xcb)
(T (W x00 x00 x00 x00 x00 x00 x00 x00)
(L (W xc4 x00 x00 x00 x01 x00 x00 x00)) E)
(L (W x8a xa1 xfe xff x78 x00 x00 x00)))
(T (W x00 x00 x80 x3f x00 x00 x80 x3f)
(L (W xff xff xff xff xff xff xff xff))
(L (W x00 x00 x80 xbf x00 x00 x80 xbf))))
(T (W x8a x61 xfc xff x78 x00 x00 x00)
(T (W xff xff xff xff x9c x00 x00 x00)
(T (W x6c x00 x00 x00 x60 x00 x00 x00)
(L (W x7f xd9 xac x28 xbf xd2 x59 x6a)) E)
(L (W xb4 x05 x00 x00 x84 x04 x00 x00)))
(T (W x00 x00 x80 x3f x00 x00 x80 x3f)
(L (W x30 x33 x5f x43 x4c x45 x41 x52))
(L (W x54 x00 x00 x00 x48 x00 x00 x00)))))
(T (W xff xff xff xff xff xff xff xff)
(T (W x18 x00 x00 x00 x0c x00 x00 x00)
(T (W x02 x00 x00 x00 x2c x01 x00 x00)
(T (W xff xff xff xff xff xff xff xff)
(L (W xff xff xff xff xff xff xff xff)) E)
(L (W xa4 xc4 xfe xff x00 x01 x01 x01)))
(T (W x9c x01 x00 x00 xff xff xff xff)
(L (W x45 x44 x00 x00 x00 x00 x00 x00))
(L (W x00 x00 x00 x00 x00 x00 x00 x00))))
(T (W x00 x00 x80 x3f x00 x00 x80 x3f)
(T (W x46 x53 x59 x53 x5f x4e x53 x5f)
(T (W xff xff xff xff xff xff xff xff)
(L (W xff xff xff xff xcc x00 x00 x00)) E)
(L (W x45 x26 x22 x84 xe4 x9c xf2 xcb)))
(T (W x00 x00 x00 x00 x00 x00 x00 x00)
(L (W xff xff xff xff xff xff xff xff))
(L (W xc4 x00 x00 x00 x01 x00 x00 x00))))))))))
(T (W x98 x9c x01 x00 x3c x9a x01 x00)
(T (W xc8 x57 x00 x00 x94 x56 x00 x00)
(T (W x00 x00 x00 x00 x00 x00 x00 x00)
(T (W x00 x00 x00 x00 x14 x96 xfb xff)
(T (W xff xff xff xff xff xff xff xff)
(T (W x00 x00 x80 x3f x00 x00 x80 x3f)
(T (W x00 x00 x00 x00 x00 x00 x00 x00)
(T (W xb8 x00 x00 x00 xac x00 x00 x00)
(T (W xff xff xff xff xff xff xff xff)
(L (W x46 x53 x59 x53 x5f x4e x53 x5f)) E)
(L (W x00 x00 x00 x00 x00 x00 x00 x00)))
(T (W x00 x00 x80 x3f x00 x00 x80 x3f)
(L (W xa4 x07 xfe xff x00 x01 x01 x01))
(L (W x8a x04 xff xff x78 x00 x00 x00))))
(T (W x01 x00 x00 x00 x04 x00 x00 x00)
(T (W x00 x00 x80 x3f x00 x00 x80 x3f)
(T (W x00 x00 x00 x00 x00 x00 x00 x00)
(L (W x03 x00 x00 x00 xc8 x00 x00 x00)) E)
(L (W xff xff xff xff xff xff xff xff)))
(T (W x00 x00 x80 x3f x00 x00 x80 x3f)
(L (W x00 x00 x80 xbf x00 x00 x80 xbf))
(L (W x00 x00 x00 x00 x14 x46 xff xff)))))
(T (W x50 x00 x00 x00 x44 x00 x00 x00)
(T (W x00 x00 x00 x00 x00 x00 x00 x00)
(T (W x00 x00 x80 x3f x00 x00 x80 x3f)
(T (W x18 x00 x00 x00 x0c x00 x00 x00)
(L (W x00 x00 x00 x00 x00 x00 x00 x00)) E)
(L (W xff xff xff xff xff xff xff xff)))
(T (W xff xff xff xff xff xff xff xff)
(L (W x00 x00 x80 xbf x00 x00 x80 xbf))
(L (W xff xff xff xff xff xff xff xff))))
(T (W xff xff xff xff xff xff xff xff)
(T (W x00 x00 x00 x00 x00 x00 x00 x00)
(T (W xda xe2 xfd xff x74 x00 x00 x00)
(L (W x52 xfb xff xff xb0 x01 x00 x00)) E)
(L (W x00 x00 x80 xbf x00 x00 x80 xbf)))
(T (W x00 x00 x00 x00 x00 x00 x00 x00)
(L (W x00 x00 x80 xbf x00 x00 x80 xbf))
(L (W xff xff xff xff xff xff xff xff))))))
(T (W x50 x00 x00 x00 x44 x00 x00 x00)
(T (W x45 x26 x22 x84 xe4 x9c xf2 xcb)
(T (W x00 x00 x00 x00 x00 x00 x00 x00)
(T (W x68 x00 x00 x00 x5c x00 x00 x00)
(T (W xff xff xff xff xff xff xff xff)
(L (W x00 x00 x00 x00 x00 x00 x00 x00)) E)
(L (W x00 x00 x00 x00 x00 x00 x00 x00)))
(T (W x1b x00 x00 x00 x1e x00 x00 x00)
(L (W x6c x00 x00 x00 x60 x00 x00 x00))
(L (W xff xff xff xff xff xff xff xff))))
(T (W xff xff xff xff xff xff xff xff)
(T (W xff xff xff xff xff xff xff xff)
(T (W x00 x00 x80 x3f x00 x00 x80 x3f)
(L (W x1c x00 x00 x00 x10 x00 x00 x00)) E)
(L (W x00 x00 x00 x00 x00 x00 x00 x00)))
(T (W x18 x00 x00 x00 x0c x00 x00 x00)
(L (W x00 x00 x80 xbf x00 x00 x80 xbf))
(L (W x18 x00 x00 x00 x10 x00 x00 x00)))))
(T (W x00 x00 x80 x3f x00 x00 x80 x3f)
(T (W x00 x00 x00 x00 x00 x00 x00 x00)
(T (W xbc x00 x00 x00 xb0 x00 x00 x00)
(T (W x00 x00 x80 x3f x00 x00 x80 x3f)
(L (W x00 x00 x80 xbf x00 x00 x80 xbf)) E)
(L (W x00 x00 x00 x00 xca xc9 xfe xff)))
(T (W x5f x4e x53 x5f x30 x33 x5f x43)
(L (W x00 x00 x80 xbf x00 x00 x80 xbf))
(L (W xff xff xff xff xff xff xff xff))))
(T (W xff xff xff xff xff xff xff xff)
(T (W x00 x00 x80 x3f x00 x00 x80 x3f)
(T (W x50 x48 x49 x4f x4e x45 x00 x00)
(L (W x50 x00 x00 x00 x44 x00 x00 x00)) E)
(L (W x00 x00 x80 xbf x00 x00 x80 xbf)))
(T (W x00 x00 x80 x3f x00 x00 x80 x3f)
(L (W x00 x00 x80 xbf x00 x00 x80 xbf))
(L (W xff xff xff xff xff xff xff xff)))))))
(T (W x18 x00 x00 x00 x0c x00 x00 x00)
(T (W x45 x26 x22 x84 xe4 x9c xf2 xcb)
(T (W x00 x00 x00 x00 x00 x00 x00 x00)
(T (W x00 x00 x00 x00 x00 x00 x00 x00)
(T (W x45 x26 x22 x84 xe4 x9c xf2 xcb)
(T (W xff xff xff xff xff xff xff xff)
(L (W x00 x00 x00 x00 x00 x00 x00 x00)) E)
(L (W x00 x00 x00 x00 x00 x00 x00 x00)))
(T (W x6c x00 x00 x00 x60 x00 x00 x00)
(L (W x00 x00 x00 x00 x00 x00 x00 x00))
(L (W xb0 x00 x00 x00 x64 x00 x00 x00))))
(T (W xff xff xff xff xff xff xff xff)
(T (W x00 x00 x00 x00 x14 xce xfc xff)
(T (W x00 x00 x80 x3f x00 x00 x80 x3f)
(L (W x18 x00 x00 x00 x10 x00 x00 x00)) E)
(L (W x1b x00 x00 x00 x10 x00 x00 x00)))
(T (W x00 x00 x80 x3f x00 x00 x80 x3f)
(L (W x6c x00 x00 x00 x60 x00 x00 x00))
(L (W x8a x4c xff xff x78 x00 x00 x00)))))
(T (W x00 x00 x80 x3f x00 x00 x80 x3f)
(T (W x00 x00 x00 x00 x00 x00 x00 x00)
(T (W x64 x00 x00 x00 x9c x00 x00 x00)
(T (W x00 x00 x80 x3f x00 x00 x80 x3f)
(L (W x38 x00 x00 x00 x00 x00 x80 xbf)) E)
(L (W xff xff xff xff xff xff xff xff)))
(T (W x04 x00 x00 x00 x7c x03 x00 x00)
(L (W xff xff xff xff xff xff xff xff))
(L (W xff xff xff xff xff xff xff xff))))
(T (W xff xff xff xff xff xff xff xff)
(T (W x00 x00 x00 x00 x00 x00 x00 x00)
(T (W xe9 x01 x00 x00 xff xff xff xff)
(L (W xc4 x00 x00 x00 x01 x00 x00 x00)) E)
(L (W x00 x00 x80 xbf x00 x00 x80 xbf)))
(T (W x00 x00 x80 x3f x00 x00 x80 x3f)
(L (W x00 x00 x80 xbf x00 x00 x80 xbf))
(L (W xff xff xff xff xff xff xff xff))))))
(T (W x68 x00 x00 x00 x5c x00 x00 x00)
(T (W x00 x00 x80 x3f x00 x00 x80 x3f)
(T (W x00 x00 x00 x00 x00 x00 x00 x00)
(T (W xa4 x9f xfc xff x00 x01 x01 x01)
(T (W x64 x00 x00 x00 x9c x00 x00 x00)
(L (W x00 x00 x00 x00 x00 x00 x00 x00)) E)
(L (W x00 x00 x00 x00 x12 x00 x00 x00)))
(T (W x03 x00 x00 x00 xd0 x00 x00 x00)
(L (W x45 x26 x22 x84 xe4 x9c xf2 xcb))
(L (W xff xff xff xff xff xff xff xff))))
(T (W xff xff xff xff xff xff xff xff)
(T (W x4b x00 x00 x00 xff xff xff xff)
(T (W x45 x26 x22 x84 xe4 x9c xf2 xcb)
(L (W x50 x00 x00 x00 x44 x00 x00 x00)) E)
(L (W x00 x00 x00 x00 x00 x00 x00 x00)))
(T (W xff xff xff xff xff xff xff xff)
(L (W x00 x00 x80 xbf x00 x00 x80 xbf))
(L (W xff xff xff xff xff xff xff xff)))))
(T (W x00 x00 x00 x00 x00 x00 x00 x00)
(T (W x34 x43 xfc xff x3e x00 x00 x00)
(T (W xff xff xff xff xff xff xff xff)
(T (W x00 x00 x00 x00 x00 x00 x00 x00)
(L (W xda xba xff xff x74 x00 x00 x00)) E)
(L (W xff xff xff xff xff xff xff xff)))
(T (W x45 x26 x22 x84 xe4 x9c xf2 xcb)
(L (W x54 x00 x00 x00 x48 x00 x00 x00))
(L (W xa4 x3f xff xff x00 x01 x01 x01))))
(T (W xff xff xff xff xff xff xff xff)
(T (W x00 x00 x80 x3f x00 x00 x80 x3f)
(T (W x00 x00 x01 x01 x52 x00 x00 x00)
(L (W xff xff xff xff xff xff xff xff)) E)
(L (W x68 x00 x00 x00 x5c x00 x00 x00)))
(T (W x68 x00 x00 x00 x5c x00 x00 x00)
(L (W x49 xa1 x68 x4a xeb x5f xdd x3d))
(L (W x00 x00 x00 x00 x00 x00 x00 x00))))))))
(T (W xff xff xff xff xff xff xff xff)
(T (W x00 x00 x80 x3f x00 x00 x80 x3f)
(T (W x00 x00 x80 x3f x00 x00 x80 x3f)
(T (W xa2 x11 xff xff x00 x00 x01 x01)
(T (W xff xff xff xff xff xff xff xff)
(T (W x45 x26 x22 x84 xe4 x9c xf2 xcb)
(T (W x00 x00 x80 x3f x00 x00 x80 x3f)
(L (W x6c x00 x00 x00 x60 x00 x00 x00)) E)
(L (W x18 x00 x00 x00 x10 x00 x00 x00)))
(T (W x00 x00 x00 x00 xba x07 xfd xff)
(L (W x00 x00 x80 x3f x00 x00 x80 x3f))
(L (W x34 x0f xff xff x18 x00 x00 x00))))
(T (W x45 x26 x22 x84 xe4 x9c xf2 xcb)
(T (W x95 x1d x89 xbc xd0 xa8 x61 xa0)
(T (W xff xff xff xff xff xff xff xff)
(L (W x34 xcf xff xff x1c x00 x00 x00)) E)
(L (W x6c x00 x00 x00 x60 x00 x00 x00)))
(T (W x04 x00 x00 x00 x9a x57 xfd xff)
(L (W xc6 x00 x00 x00 xff xff xff xff))
(L (W x00 x00 x00 x00 x00 x00 x00 x00)))))
(T (W xff xff xff xff xff xff xff xff)
(T (W xa4 x2b xfc xff x00 x01 x01 x01)
(T (W x00 x00 x00 x00 x00 x00 x00 x00)
(T (W x0d x00 x00 x00 x10 x00 x00 x00)
(L (W x8a xa8 xff xff x78 x00 x00 x00)) E)
(L (W x4f x84 x6f x8b xe8 xcb x63 xb7)))
(T (W x50 x00 x00 x00 x44 x00 x00 x00)
(L (W x00 x00 x00 x00 x00 x00 x00 x00))
(L (W x00 x00 x80 xbf x00 x00 x80 xbf))))
(T (W x45 x26 x22 x84 xe4 x9c xf2 xcb)
(T (W x18 x00 x00 x00 x10 x00 x00 x00)
(T (W x00 x00 x01 x01 xe0 x00 x00 x00)
(L (W x00 x00 x80 xbf x00 x00 x80 xbf)) E)
(L (W x52 xff xfe xff xaa x01 x00 x00)))
(T (W xda x66 xfd xff x74 x00 x00 x00)
(L (W xff xff xff xff xff xff xff xff))
(L (W x00 x00 x80 xbf x00 x00 x80 xbf))))))
(T (W xff xff xff xff xff xff xff xff)
(T (W xff xff xff xff xff xff xff xff)
(T (W xbc x00 x00 x00 xb0 x00 x00 x00)
(T (W x00 x00 x00 x00 x00 x00 x00 x00)
(T (W x00 x00 x00 x00 x00 x00 x00 x00)
(L (W xa4 x9b xff xff x00 x01 x01 x01)) E)
(L (W x10 x9a xfe xff x3a xd5 xfe xff)))
(T (W x00 x00 x00 x00 x00 x00 x00 x00)
(L (W xff xff xff xff xff xff xff xff))
(L (W x8a x18 xff xff x78 x00 x00 x00))))
(T (W x00 x00 x80 x3f x00 x00 x80 x3f)
(T (W x00 x00 x80 x3f x00 x00 x80 x3f)
(T (W x00 x00 x00 x00 x00 x00 x00 x00)
(L (W x72 xd9 xff xff x6b x01 x00 x00)) E)
(L (W x18 x00 x00 x00 x0c x00 x00 x00)))
(T (W x00 x00 x00 x00 x00 x00 x00 x00)
(L (W x00 x00 x00 x00 x00 x00 x00 x00))
(L (W x49 xa1 x68 x4a xeb x5f xdd x3d)))))
(T (W xff xff xff xff xff xff xff xff)
(T (W xda x36 xfc xff x74 x00 x00 x00)
(T (W x30 x00 x34 x00 x38 x00 x3c x00)
(T (W x70 x5f x77 x69 x6c x64 x5f x70)
(L (W xc4 x05 x00 x00 x94 x04 x00 x00)) E)
(L (W x00 x00 x80 xbf x00 x00 x80 xbf)))
(T (W xc0 x00 x00 x00 x01 x00 x00 x00)
(L (W x30 x33 x5f x43 x4c x45 x41 x52))
(L (W x00 x00 x00 x00 x00 x00 x00 x00))))
(T (W x00 x00 x00 x00 x00 x00 x00 x00)
(T (W xff xff xff xff xff xff xff xff)
(T (W x58 x00 x00 x00 x5c x00 x00 x00)
(L (W xff xff xff xff xc0 x00 x00 x00)) E)
(L (W x00 x00 x00 x00 x06 x00 x00 x00)))
(T (W xff xff xff xff x02 x00 x00 x00)
(L (W xff xff xff xff xff xff xff xff))
(L (W x00 x00 x00 x00 x00 x00 x00 x00)))))))
(T (W xff xff xff xff xff xff xff xff)
(T (W x00 x00 x00 x00 x02 x00 x00 x00)
(T (W xff xff xff xff xff xff xff xff)
(T (W x64 x00 x00 x00 x9c x00 x00 x00)
(T (W x00 x00 x00 x00 x00 x00 x00 x00)
(T (W x00 x00 x80 x3f x00 x00 x80 x3f)
(L (W x00 x00 x80 xbf x00 x00 x80 xbf)) E)
(L (W x03 x00 x00 x00 xd8 x00 x00 x00)))
(T (W x00 x00 x00 x00 x00 x00 x00 x00)
(L (W x2a x00 x00 x00 x2d x00 x00 x00))
(L (W x45 x26 x22 x84 xe4 x9c xf2 xcb))))
(T (W x00 x00 x80 x3f x00 x00 x80 x3f)
(T (W x00 x00 x00 x00 x00 x00 x00 x00)
(T (W x1d x00 x00 x00 x10 x00 x00 x00)
(L (W x00 x00 x00 x00 x00 x00 x00 x00)) E)
(L (W x00 x00 x00 x00 x14 xd2 xfe xff)))
(T (W x00 x00 x00 x00 x00 x00 x00 x00)
(L (W xff xff xff xff xff xff xff xff))
(L (W x00 x00 x00 x00 x00 x00 x00 x00)))))
(T (W xff xff xff xff xff xff xff xff)
(T (W x50 x00 x00 x00 x44 x00 x00 x00)
(T (W x00 x00 x00 x00 x00 x00 x00 x00)
(T (W xff xff xff xff xff xff xff xff)
(L (W xff xff xff xff xff xff xff xff)) E)
(L (W x00 x00 x80 xbf x00 x00 x80 xbf)))
(T (W x68 x00 x00 x00 x5c x00 x00 x00)
(L (W xff xff xff xff xff xff xff xff))
(L (W x00 x00 x00 x00 x00 x00 x00 x00))))
(T (W x00 x00 x00 x00 x00 x00 x00 x00)
(T (W xff xff xff xff xff xff xff xff)
(T (W x00 x00 x80 x3f x00 x00 x80 x3f)
(L (W x00 x00 x00 x00 x00 x00 x00 x00)) E)
(L (W x30 x33 x5f x43 x4c x45 x41 x52)))
(T (W xff xff xff xff xff xff xff xff)
(L (W xff xff xff xff xff xff xff xff))
(L (W x45 x26 x22 x84 xe4 x9c xf2 xcb))))))
(T (W xff xff xff xff xff xff xff xff)
(T (W xff xff xff xff xff xff xff xff)
(T (W x45 x26 x22 x84 xe4 x9c xf2 xcb)
(T (W x00 x00 x00 x00 x00 x00 x00 x00)
(T (W x00 x00 x00 x00 x00 x00 x00 x00)
(L (W x18 x00 x00 x00 x10 x00 x00 x00)) E)
(L (W x00 x00 x00 x00 x00 x00 x00 x00)))
(T (W x00 x00 x00 x00 x00 x00 x00 x00)
(L (W xff xff xff xff x9c x00 x00 x00))
(L (W x00 x00 x80 xbf x00 x00 x80 xbf))))
(T (W x00 x00 x80 x3f x00 x00 x80 x3f)
(T (W x8a xe0 xfc xff x78 x00 x00 x00)
(T (W xc4 xd3 x36 x97 x85 x2e x63 x5f)
(L (W xff xff xff xff xff xff xff xff)) E)
(L (W xff xff xff xff xff xff xff xff)))
(T (W x00 x00 x80 x3f x00 x00 x80 x3f)
(L (W xff xff xff xff xff xff xff xff))
(L (W x45 x26 x22 x84 xe4 x9c xf2 xcb)))))
(T (W xff xff xff xff xff xff xff xff)
(T (W x00 x00 x00 x00 x14 x42 xfc xff)
(T (W xff xff xff xff xff xff xff xff)
(T (W xbc x00 x00 x00 xb0 x00 x00 x00)
(L (W xff xff xff xff xff xff xff xff)) E)
(L (W x68 x00 x00 x00 x5c x00 x00 x00)))
(T (W xff xff xff xff xff xff xff xff)
(L (W xff xff xff xff xff xff xff xff))
(L (W x00 x00 x00 x00 x00 x00 x00 x00))))
(T (W x45 x26 x22 x84 xe4 x9c xf2 xcb)
(T (W x52 x17 xfd xff x4b x00 x00 x00)
(T (W x00 x00 x80 x3f x00 x00 x80 x3f)
(L (W x00 x00 x00 x00 x00 x00 x00 x00)) E)
(L (W x00 x00 x00 x00 x00 x00 x00 x00)))
(T (W x00 x00 x00 x00 x00 x00 x00 x00)
(L (W x03 x00 x00 x00 xd0 x00 x00 x00))
(L (W x50 x00 x00 x00 x44 x00 x00 x00)))))))))
(T (W xff xff xff xff xff xff xff xff)
(T (W x00 x00 x80 x3f x00 x00 x80 x3f)
(T (W x6c x64 x5f x70 x6f x6b x65 x5f)
(T (W x00 x00 x00 x00 x00 x00 x00 x00)
(T (W xbc x00 x00 x00 xb0 x00 x00 x00)
(T (W x6c x00 x00 x00 x60 x00 x00 x00)
(T (W x49 x00 x00 x00 xff xff xff xff)
(T (W x21 x00 x00 x00 x67 x72 x6f x75)
(L (W x00 x00 x80 xbf x00 x00 x80 xbf)) E)
(L (W x50 x00 x00 x00 x44 x00 x00 x00)))
(T (W xff xff xff xff xff xff xff xff)
(L (W x67 x72 x6f x75 x70 x5f x77 x69))
(L (W xff xff xff xff xff xff xff xff))))
(T (W x45 x26 x22 x84 xe4 x9c xf2 xcb)
(T (W xff xff xff xff xff xff xff xff)
(T (W x45 x26 x22 x84 xe4 x9c xf2 xcb)
(L (W xff xff xff xff xff xff xff xff)) E)
(L (W x00 x00 x80 xbf x00 x00 x80 xbf)))
(T (W xff xff xff xff xac x00 x00 x00)
(L (W xff xff xff xff xac x00 x00 x00))
(L (W xff xff xff xff xff xff xff xff)))))
(T (W x45 x26 x22 x84 xe4 x9c xf2 xcb)
(T (W x00 x00 x80 x3f x00 x00 x80 x3f)
(T (W xff xff xff xff xff xff xff xff)
(T (W xff xff xff xff xff xff xff xff)
(L (W x00 x00 x80 xbf x00 x00 x80 xbf)) E)
(L (W x45 x44 x00 x00 x00 x00 x00 x00)))
(T (W x12 x00 x00 x00 x46 x53 x59 x53)
(L (W xff xff xff xff xff xff xff xff))
(L (W x00 x00 x00 x00 x00 x00 x00 x00))))
(T (W x00 x00 x00 x00 x00 x00 x00 x00)
(T (W x00 x00 x80 x3f x00 x00 x80 x3f)
(T (W x8c xfd xfd xff x21 x00 x00 x00)
(L (W x00 x00 x00 x00 x00 x00 x00 x00)) E)
(L (W xa4 xe9 xfe xff x00 x01 x01 x01)))
(T (W x00 x00 x00 x00 x00 x00 x00 x00)
(L (W xff xff xff xff x94 x00 x00 x00))
(L (W x00 x00 x00 x00 x00 x00 x00 x00))))))
(T (W x00 x00 x00 x00 x14 xb8 xfb xff)
(T (W x68 x00 x00 x00 x5c x00 x00 x00)
(T (W x00 x00 x80 x3f x00 x00 x80 x3f)
(T (W xff xff xff xff xff xff xff xff)
(T (W x02 x00 x00 x00 x20 x01 x00 x00)
(L (W x00 x00 x80 xbf x00 x00 x80 xbf)) E)
(L (W x00 x00 x80 xbf x00 x00 x80 xbf)))
(T (W xff xff xff xff xff xff xff xff)
(L (W xff xff xff xff xc0 x00 x00 x00))
(L (W x30 x33 x5f x43 x4c x45 x41 x52))))
(T (W x00 x00 x00 x00 x00 x00 x00 x00)
(T (W x34 xdd xfc xff x29 x00 x00 x00)
(T (W x64 x00 x00 x00 x9c x00 x00 x00)
(L (W xff xff xff xff xff xff xff xff)) E)
(L (W x00 x00 x80 xbf x00 x00 x80 xbf)))
(T (W x9d x01 x00 x00 xff xff xff xff)
(L (W xff xff xff xff xff xff xff xff))
(L (W x25 x00 x00 x00 xff xff xff xff)))))
(T (W x40 x00 x00 x00 x9c x00 x00 x00)
(T (W x00 x00 x80 x3f x00 x00 x80 x3f)
(T (W x00 x00 x00 x00 x00 x00 x00 x00)
(T (W x18 x00 x00 x00 x0c x00 x00 x00)
(L (W xff xff xff xff xb0 x00 x00 x00)) E)
(L (W x00 x00 x00 x00 x00 x00 x00 x00)))
(T (W x00 x00 x80 x3f x00 x00 x80 x3f)
(L (W xff xff xff xff xff xff xff xff))
(L (W xff xff xff xff xff xff xff xff))))
(T (W x00 x00 x00 x00 x00 x00 x00 x00)
(T (W x68 x00 x00 x00 x5c x00 x00 x00)
(T (W x34 x47 x22 x4b xf1 xf8 xc6 x32)
(L (W x3c x00 x40 x00 x44 x00 x48 x00)) E)
(L (W x1b x00 x00 x00 x1e x00 x00 x00)))
(T (W xff xff xff xff xc8 x00 x00 x00)
(L (W xff xff xff xff x9c x00 x00 x00))
(L (W x00 x00 x00 x00 x00 x00 x00 x00)))))))
(T (W x1a x00 x00 x00 x67 x72 x6f x75)
(T (W x64 x00 x00 x00 x9c x00 x00 x00)
(T (W xa4 xd1 xfb xff x00 x01 x01 x01)
(T (W x00 x00 x80 x3f x00 x00 x80 x3f)
(T (W xda xaa xfe xff x00 x00 x01 x01)
(T (W x00 x00 x00 x00 x00 x00 x00 x00)
(L (W x45 x26 x22 x84 xe4 x9c xf2 xcb)) E)
(L (W x00 x00 x80 xbf x00 x00 x80 xbf)))
(T (W xff xff xff xff xff xff xff xff)
(L (W x00 x00 x80 x3f x00 x00 x80 x3f))
(L (W x00 x00 x00 x00 x00 x00 x00 x00))))
(T (W x00 x00 x00 x00 x00 x00 x00 x00)
(T (W xff xff xff xff xff xff xff xff)
(T (W xff xff xff xff xff xff xff xff)
(L (W xff xff xff xff xff xff xff xff)) E)
(L (W x00 x00 x80 xbf x00 x00 x80 xbf)))
(T (W xff xff xff xff xff xff xff xff)
(L (W x03 x00 x00 x00 xd8 x00 x00 x00))
(L (W xff xff xff xff xff xff xff xff)))))
(T (W x18 x00 x00 x00 x10 x00 x00 x00)
(T (W x00 x00 x80 x3f x00 x00 x80 x3f)
(T (W x2a xf6 xff xff x37 x00 x00 x00)
(T (W x64 x00 x00 x00 x9c x00 x00 x00)
(L (W x45 x26 x22 x84 xe4 x9c xf2 xcb)) E)
(L (W x00 x00 x00 x00 x00 x00 x00 x00)))
(T (W x00 x00 x80 x3f x00 x00 x80 x3f)
(L (W x00 x00 x00 x00 x00 x00 x00 x00))
(L (W x22 x00 x00 x00 x10 x00 x00 x00))))
(T (W x00 x00 x00 x00 x00 x00 x00 x00)
(T (W x8a xee xfc xff x78 x00 x00 x00)
(T (W x60 x01 x00 x00 x97 x00 x00 x00)
(L (W x2c x01 x00 x00 x04 x00 x00 x00)) E)
(L (W xff xff xff xff x9c x00 x00 x00)))
(T (W xda x6c xfd xff x74 x00 x00 x00)
(L (W x1c x00 x00 x00 x10 x00 x00 x00))
(L (W x06 x85 xa7 x28 xbf x49 x53 x6a))))))
(T (W x18 x00 x00 x00 x0c x00 x00 x00)
(T (W xda xdc xfb xff x74 x00 x00 x00)
(T (W x00 x00 x00 x00 x00 x00 x00 x00)
(T (W xff xff xff xff xff xff xff xff)
(T (W xff xff xff xff xff xff xff xff)
(L (W x00 x00 x00 x00 x00 x00 x00 x00)) E)
(L (W xff xff xff xff xb0 x00 x00 x00)))
(T (W x02 x00 x00 x00 x2c x01 x00 x00)
(L (W x68 x00 x00 x00 x00 x00 x62 x00))
(L (W x00 x00 x00 x00 x00 x00 x00 x00))))
(T (W x8c x75 xfc xff x3e x00 x00 x00)
(T (W x00 x00 x00 x00 x00 x00 x00 x00)
(T (W xff xff xff xff xff xff xff xff)
(L (W x25 x00 x00 x00 x28 x00 x00 x00)) E)
(L (W x50 x00 x00 x00 x44 x00 x00 x00)))
(T (W x00 x00 x00 x00 x00 x00 x00 x00)
(L (W x00 x00 x00 x00 xa8 x61 xfe xff))
(L (W x00 x00 x00 x00 x00 x00 x00 x00)))))
(T (W x50 x00 x00 x00 x44 x00 x00 x00)
(T (W x45 x26 x22 x84 xe4 x9c xf2 xcb)
(T (W x00 x00 x80 x3f x00 x00 x80 x3f)
(T (W x00 x00 x80 x3f x00 x00 x80 x3f)
(L (W xff xff xff xff xff xff xff xff)) E)
(L (W x00 x00 x00 x00 x00 x00 x00 x00)))
(T (W x50 x00 x00 x00 x44 x00 x00 x00)
(L (W xff xff xff xff xff xff xff xff))
(L (W xff xff xff xff xff xff xff xff))))
(T (W xfb x4e xe1 x6b x0c x74 x80 xe6)
(T (W x18 x00 x00 x00 x0c x00 x00 x00)
(T (W x00 x00 x00 x00 x00 x00 x00 x00)
(L (W x68 x00 x00 x00 x5c x00 x00 x00)) E)
(L (W xff xff xff xff xc4 x00 x00 x00)))
(T (W xff xff xff xff xff xff xff xff)
(L (W x45 x26 x22 x84 xe4 x9c xf2 xcb))
(L (W x00 x00 x80 xbf x00 x00 x80 xbf))))))))
(T (W x00 x00 x80 x3f x00 x00 x80 x3f)
(T (W x3e x00 x00 x00 x0c x00 x00 x00)
(T (W xff xff xff xff xff xff xff xff)
(T (W x00 x00 x00 x00 x00 x00 x00 x00)
(T (W x6c x01 x00 x00 xff xff xff xff)
(T (W x00 x00 x80 x3f x00 x00 x80 x3f)
(T (W x45 x26 x22 x84 xe4 x9c xf2 xcb)
(L (W xff xff xff xff xff xff xff xff)) E)
(L (W xff xff xff xff xff xff xff xff)))
(T (W x00 x00 x80 x3f x00 x00 x80 x3f)
(L (W xff xff xff xff xff xff xff xff))
(L (W x00 x00 x80 xbf x00 x00 x80 xbf))))
(T (W xff xff xff xff x03 x00 x00 x00)
(T (W x45 x26 x22 x84 xe4 x9c xf2 xcb)
(T (W x00 x00 x00 x00 x00 x00 x00 x00)
(L (W x00 x00 x80 xbf x00 x00 x80 xbf)) E)
(L (W x03 x00 x00 x00 xd4 x00 x00 x00)))
(T (W x45 x26 x22 x84 xe4 x9c xf2 xcb)
(L (W x00 x00 x00 x00 x00 x00 x00 x00))
(L (W x00 x00 x80 xbf x00 x00 x80 xbf)))))
(T (W x00 x00 x00 x00 x00 x00 x00 x00)
(T (W xa8 x01 x00 x00 xff xff xff xff)
(T (W x00 x00 x80 x3f x00 x00 x80 x3f)
(T (W x00 x00 x00 x00 x00 x00 x00 x00)
(L (W x6c x00 x0c x00 x00 x00 x00 x00)) E)
(L (W xcc x00 x00 x00 x01 x00 x00 x00)))
(T (W x03 x00 x00 x00 xcc x00 x00 x00)
(L (W x00 x00 x80 xbf x00 x00 x80 xbf))
(L (W xa4 x2d xff xff x00 x01 x01 x01))))
(T (W x18 x00 x00 x00 x0c x00 x00 x00)
(T (W x00 x00 x00 x00 x00 x00 x00 x00)
(T (W x00 x00 x00 x00 x00 x00 x00 x00)
(L (W x00 x00 x00 x00 x00 x00 x00 x00)) E)
(L (W x00 x00 x00 x00 x00 x00 x00 x00)))
(T (W x00 x00 x00 x00 xba x69 xfd xff)
(L (W x00 x00 x00 x00 x00 x00 x00 x00))
(L (W x00 x00 x80 xbf x00 x00 x80 xbf))))))
(T (W x00 x00 x00 x00 x00 x00 x00 x00)
(T (W x00 x00 x00 x00 x00 x00 x00 x00)
(T (W xa2 x63 xff xff x00 x00 x01 x01)
(T (W x00 x00 x80 x3f x00 x00 x80 x3f)
(T (W x00 x00 x80 x3f x00 x00 x80 x3f)
(L (W xff xff xff xff xff xff xff xff)) E)
(L (W xaa x01 x00 x00 xff xff xff xff)))
(T (W x00 x00 x80 x3f x00 x00 x80 x3f)
(L (W x00 x00 x00 x00 x00 x00 x00 x00))
(L (W xff xff xff xff xff xff xff xff))))
(T (W xff xff xff xff xff xff xff xff)
(T (W x18 x00 x00 x00 x10 x00 x00 x00)
(T (W x00 x00 x80 x3f x00 x00 x80 x3f)
(L (W x00 x00 x00 x00 x00 x00 x00 x00)) E)
(L (W x72 xdb xfe xff x82 x00 x00 x00)))
(T (W x00 x00 x80 x3f x00 x00 x80 x3f)
(L (W x00 x00 x00 x00 x00 x00 x00 x00))
(L (W x68 x00 x00 x00 x5c x00 x00 x00)))))
(T (W xda x16 xfe xff x00 x00 x01 x01)
(T (W xff xff xff xff xff xff xff xff)
(T (W x00 x00 x80 x3f x00 x00 x80 x3f)
(T (W xff xff xff xff xff xff xff xff)
(L (W x00 x00 x80 xbf x00 x00 x80 xbf)) E)
(L (W x03 x00 x00 x00 xd0 x00 x00 x00)))
(T (W x54 x02 x00 x00 x34 x01 x00 x00)
(L (W x00 x00 x00 x00 x00 x00 x00 x00))
(L (W x00 x00 x80 xbf x00 x00 x80 xbf))))
(T (W x00 x00 x80 x3f x00 x00 x80 x3f)
(T (W x30 x33 x5f x43 x4c x45 x41 x52)
(T (W x03 x00 x00 x00 xd8 x00 x00 x00)
(L (W x00 x00 x00 x00 x00 x00 x00 x00)) E)
(L (W x00 x00 x80 xbf x00 x00 x80 xbf)))
(T (W x49 xa1 x68 x4a xeb x5f xdd x3d)
(L (W x00 x00 x00 x00 x00 x00 x00 x00))
(L (W xff xff xff xff xff xff xff xff)))))))
(T (W x00 x00 x00 x00 x00 x00 x00 x00)
(T (W x00 x00 x00 x00 x00 x00 x00 x00)
(T (W x00 x00 x00 x00 x00 x00 x00 x00)
(T (W x2a x5a xff xff x6c x01 x00 x00)
(T (W x00 x00 x80 x3f x00 x00 x80 x3f)
(T (W xa4 x95 xfd xff x00 x01 x01 x01)
(L (W xff xff xff xff xff xff xff xff)) E)
(L (W xff xff xff xff xff xff xff xff)))
(T (W x45 x26 x22 x84 xe4 x9c xf2 xcb)
(L (W x06 x00 x07 x00 x00 x00 x00 x00))
(L (W x29 x00 x00 x00 x2c x00 x00 x00))))
(T (W xff xff xff xff xff xff xff xff)
(T (W x54 x00 x00 x00 x48 x00 x00 x00)
(T (W x00 x00 x00 x00 x00 x00 x00 x00)
(L (W x00 x00 x00 x00 x00 x00 x00 x00)) E)
(L (W xff xff xff xff xff xff xff xff)))
(T (W x00 x00 x80 x3f x00 x00 x80 x3f)
(L (W x00 x00 x00 x00 x00 x00 x00 x00))
(L (W x00 x00 x80 xbf x00 x00 x80 xbf)))))
(T (W x23 x00 x00 x00 x0c x00 x00 x00)
(T (W xff xff xff xff xff xff xff xff)
(T (W x00 x00 x80 x3f x00 x00 x80 x3f)
(T (W x00 x00 x00 x00 x00 x00 x00 x00)
(L (W x00 x00 x00 x00 x00 x00 x00 x00)) E)
(L (W x00 x00 x00 x00 x14 xb4 xfe xff)))
(T (W xff xff xff xff xff xff xff xff)
(L (W x00 x00 x00 x00 x00 x00 x00 x00))
(L (W x00 x00 x80 xbf x00 x00 x80 xbf))))
(T (W x68 x00 x00 x00 x5c x00 x00 x00)
(T (W x7d x95 xd4 x99 x70 xbe xe3 x36)
(T (W x4e x45 x5f x32 x00 x00 x00 x00)
(L (W x0c x00 x00 x00 x00 x00 x10 x00)) E)
(L (W x4f x84 x6f x8b xe8 xcb x63 xb7)))
(T (W x00 x00 x00 x00 x00 x00 x00 x00)
(L (W x0d x00 x00 x00 x10 x00 x00 x00))
(L (W x00 x00 x00 x00 x14 x74 xff xff))))))
(T (W x00 x00 x00 x00 x00 x00 x00 x00)
(T (W x00 x00 x00 x00 x00 x00 x00 x00)
(T (W xff xff xff xff xff xff xff xff)
(T (W xb8 x00 x00 x00 xac x00 x00 x00)
(T (W x00 x00 x80 x3f x00 x00 x80 x3f)
(L (W xff xff xff xff xff xff xff xff)) E)
(L (W x29 x00 x00 x00 x2c x00 x00 x00)))
(T (W xda x20 xfd xff x74 x00 x00 x00)
(L (W x52 x63 x6c x12 x83 xf4 x3a xc6))
(L (W x10 x24 xff xff x3a x5f xff xff))))
(T (W x45 x26 x22 x84 xe4 x9c xf2 xcb)
(T (W xff xff xff xff xff xff xff xff)
(T (W x01 x00 x00 x00 xff xff xff xff)
(L (W x00 x01 x01 x01 x7a xe8 xff xff)) E)
(L (W x00 x00 x00 x00 x00 x00 x00 x00)))
(T (W xff xff xff xff xff xff xff xff)
(L (W x00 x00 x00 x00 x00 x00 x00 x00))
(L (W x45 x26 x22 x84 xe4 x9c xf2 xcb)))))
(T (W xff xff xff xff xff xff xff xff)
(T (W x64 x00 x00 x00 x9c x00 x00 x00)
(T (W x12 x00 x00 x00 x46 x53 x59 x53)
(T (W xa8 x01 x00 x00 xff xff xff xff)
(L (W x00 x00 x00 x00 x00 x00 x00 x00)) E)
(L (W xb4 x00 x00 x00 x64 x00 x00 x00)))
(T (W x4c x45 x41 x52 x45 x44 x00 x00)
(L (W x00 x00 x00 x00 x00 x00 x00 x00))
(L (W x45 x26 x22 x84 xe4 x9c xf2 xcb))))
(T (W x00 x00 x80 x3f x00 x00 x80 x3f)
(T (W x00 x00 x00 x00 x00 x00 x00 x00)
(L (W x64 x5f x70 x6f x6b x65 x5f x77))
(L (W x00 x00 x80 xbf x00 x00 x80 xbf)))
(T (W x00 x00 x80 x3f x00 x00 x80 x3f)
(L (W x2c x01 x00 x00 x04 x00 x00 x00))
(L (W xff xff xff xff xff xff xff xff)))))))))))
(T (W x30 xab x02 x00 x94 xa9 x02 x00)
(T (W x68 x10 x02 x00 x24 x0e x02 x00)
(T (W x20 xa1 x00 x00 xec x9f x00 x00)
(T (W x68 x00 x00 x00 x5c x00 x00 x00)
(T (W x00 x00 x00 x00 x00 x00 x00 x00)
(T (W x1a x00 x00 x00 x67 x72 x6f x75)
(T (W xff xff xff xff xff xff xff xff)
(T (W x45 x26 x22 x84 xe4 x9c xf2 xcb)
(T (W x00 x00 x00 x00 x00 x00 x00 x00)
(T (W x72 x64 x5f x6c x76 x31 x00 x00)
(L (W x0a x84 xff xff x78 x00 x00 x00)) E)
(L (W xff xff xff xff x9c x00 x00 x00)))
(T (W xff xff xff xff xff xff xff xff)
(L (W x61 x72 x6c x69 x6b x65 x5f x6c))
(L (W xd2 x1a xff xff x49 x00 x00 x00))))
(T (W x00 x00 x80 x3f x00 x00 x80 x3f)
(T (W xff xff xff xff xff xff xff xff)
(T (W x68 x00 x00 x00 x5c x00 x00 x00)
(L (W x00 x00 x00 x00 x00 x00 x00 x00)) E)
(L (W x00 x00 x80 xbf x00 x00 x80 xbf)))
(T (W xff xff xff xff xff xff xff xff)
(L (W xff xff xff xff xff xff xff xff))
(L (W x00 x00 x00 x00 x00 x00 x00 x00)))))
(T (W xff xff xff xff xff xff xff xff)
(T (W x40 x00 x00 x00 x9c x00 x00 x00)
(T (W xff xff xff xff xff xff xff xff)
(T (W x0d x00 x00 x00 x10 x00 x00 x00)
(L (W x00 x00 x80 xbf x00 x00 x80 xbf)) E)
(L (W x49 xa1 x68 x4a xeb x5f xdd x3d)))
(T (W x00 x00 x80 x3f x00 x00 x80 x3f)
(L (W xff xff xff xff xff xff xff xff))
(L (W x00 x00 x00 x00 x00 x00 x00 x00))))
(T (W x00 x00 x80 x3f x00 x00 x80 x3f)
(T (W x68 x00 x00 x00 x5c x00 x00 x00)
(T (W x00 x00 x00 x00 x60 x00 x64 x00)
(L (W x50 x00 x00 x00 x44 x00 x00 x00)) E)
(L (W xff xff xff xff xff xff xff xff)))
(T (W x54 x00 x00 x00 x48 x00 x00 x00)
(L (W xff xff xff xff xff xff xff xff))
(L (W x00 x00 x80 xbf x00 x00 x80 xbf))))))
(T (W xff xff xff xff xff xff xff xff)
(T (W xff xff xff xff xff xff xff xff)
(T (W x24 x17 xfc xff x00 x01 x01 x01)
(T (W x00 x00 x00 x00 x00 x00 x00 x00)
(T (W x00 x00 x00 x00 x00 x00 x00 x00)
(L (W x00 x00 x80 xbf x00 x00 x80 xbf)) E)
(L (W xff xff xff xff x9c x00 x00 x00)))
(T (W x46 x53 x59 x53 x5f x4e x53 x5f)
(L (W x70 x00 x00 x00 xff xff xff xff))
(L (W x00 x00 x80 xbf x00 x00 x80 xbf))))
(T (W x00 x00 x80 x3f x00 x00 x80 x3f)
(T (W x00 x00 x00 x00 x00 x00 x00 x00)
(T (W xff xff xff xff xff xff xff xff)
(L (W xa4 x05 x00 x00 x7c x04 x00 x00)) E)
(L (W xff xff xff xff xb0 x00 x00 x00)))
(T (W x00 x00 x00 x00 x00 x00 x00 x00)
(L (W xff xff xff xff xff xff xff xff))
(L (W x30 x33 x5f x43 x4c x45 x41 x52)))))
(T (W xff xff xff xff xff xff xff xff)
(T (W x24 x37 xfc xff x00 x01 x01 x01)
(T (W x00 x00 x00 x00 x00 x00 x00 x00)
(T (W xff xff xff xff xff xff xff xff)
(L (W xff xff xff xff xff xff xff xff)) E)
(L (W x00 x00 x80 xbf x00 x00 x80 xbf)))
(T (W x5a x32 xfd xff x74 x00 x00 x00)
(L (W xff xff xff xff xff xff xff xff))
(L (W x00 x00 x00 x00 x00 x00 x00 x00))))
(T (W x45 x26 x22 x84 xe4 x9c xf2 xcb)
(T (W xff xff xff xff xff xff xff xff)
(T (W x50 x00 x00 x00 x44 x00 x00 x00)
(L (W x01 x00 x00 x00 xff xff xff xff)) E)
(L (W xff xff xff xff xff xff xff xff)))
(T (W xff xff xff xff xff xff xff xff)
(L (W xff xff xff xff xff xff xff xff))
(L (W x00 x00 x80 xbf x00 x00 x80 xbf)))))))
(T (W x40 x00 x00 x00 x10 x00 x00 x00)
(T (W xff xff xff xff x03 x00 x00 x00)
(T (W xb8 x00 x00 x00 xac x00 x00 x00)
(T (W x68 x00 x00 x00 x5c x00 x00 x00)
(T (W x40 x00 x00 x00 x0c x00 x00 x00)
(T (W x00 x00 x80 x3f x00 x00 x80 x3f)
(L (W x90 x8d xff xff xba x90 xff xff)) E)
(L (W x18 x00 x00 x00 x0c x00 x00 x00)))
(T (W xf2 x0c xfd xff x4a x00 x00 x00)
(L (W xff xff xff xff xb0 x00 x00 x00))
(L (W x00 x00 x00 x00 x12 x00 x00 x00))))
(T (W x45 x26 x22 x84 xe4 x9c xf2 xcb)
(T (W x00 x00 x00 x00 x00 x00 x00 x00)
(T (W xff xff xff xff xff xff xff xff)
(L (W x45 x44 x00 x00 x00 x00 x00 x00)) E)
(L (W x00 x00 x80 xbf x00 x00 x80 xbf)))
(T (W xff xff xff xff xff xff xff xff)
(L (W xff xff xff xff xff xff xff xff))
(L (W x00 x00 x00 x00 x00 x00 x00 x00)))))
(T (W xff xff xff xff xff xff xff xff)
(T (W x5a x2a xfc xff x74 x00 x00 x00)
(T (W x00 x00 x00 x00 x00 x00 x00 x00)
(T (W xff xff xff xff xff xff xff xff)
(L (W xc6 x00 x00 x00 xff xff xff xff)) E)
(L (W x00 x00 x80 xbf x00 x00 x80 xbf)))
(T (W x00 x00 x80 x3f x00 x00 x80 x3f)
(L (W x00 x00 x00 x00 x00 x00 x00 x00))
(L (W x45 x26 x22 x84 xe4 x9c xf2 xcb))))
(T (W x00 x00 x00 x00 x00 x00 x00 x00)
(T (W x18 x00 x00 x00 x0c x00 x00 x00)
(T (W x22 x00 x00 x00 x67 x72 x6f x75)
(L (W x00 x00 x00 x00 x00 x00 x00 x00)) E)
(L (W xff xff xff xff xff xff xff xff)))
(T (W xff xff xff xff xff xff xff xff)
(L (W xff xff xff xff xff xff xff xff))
(L (W x00 x00 x00 x00 x00 x00 x00 x00))))))
(T (W xc0 x01 x00 x00 xff xff xff xff)
(T (W xff xff xff xff xff xff xff xff)
(T (W x45 x26 x22 x84 xe4 x9c xf2 xcb)
(T (W x00 x00 x00 x00 x00 x00 x00 x00)
(T (W x00 x00 x00 x00 x00 x00 x00 x00)
(L (W x68 x00 x00 x00 x5c x00 x00 x00)) E)
(L (W x24 x9f xfe xff x00 x01 x01 x01)))
(T (W x00 x00 x00 x00 x00 x00 x00 x00)
(L (W xd3 x5a x6c x12 x83 xef x3a xc6))
(L (W x00 x00 x80 xbf x00 x00 x80 xbf))))
(T (W x00 x00 x80 x3f x00 x00 x80 x3f)
(T (W x00 x00 x80 x3f x00 x00 x80 x3f)
(T (W x2a xd7 x36 x97 x85 x30 x63 x5f)
(L (W x00 x00 x00 x00 xe2 xf8 xff xff)) E)
(L (W x18 x00 x00 x00 x10 x00 x00 x00)))
(T (W x00 x00 x00 x00 x00 x00 x00 x00)
(L (W xff xff xff xff xff xff xff xff))
(L (W x00 x00 x00 x00 x00 x00 x00 x00)))))
(T (W xb8 x00 x00 x00 xac x00 x00 x00)
(T (W x00 x00 x80 x3f x00 x00 x80 x3f)
(T (W x00 x00 x62 x00 x6c x00 x08 x00)
(T (W xb8 x00 x00 x00 xac x00 x00 x00)
(L (W x00 x00 x00 x00 x4a xd1 xff xff)) E)
(L (W x00 x00 x80 xbf x00 x00 x80 xbf)))
(T (W xff xff xff xff xc8 x00 x00 x00)
(L (W xff xff xff xff xff xff xff xff))
(L (W x00 x00 x00 x00 x00 x00 x00 x00))))
(T (W x00 x00 x00 x00 x00 x00 x00 x00)
(T (W xff xff xff xff xff xff xff xff)
(T (W x00 x00 x80 x3f x00 x00 x80 x3f)
(L (W x7c x00 x04 x00 x70 x00 x08 x00)) E)
(L (W x00 x00 x00 x00 x3a xfb xfe xff)))
(T (W x9c x01 x00 x00 xff xff xff xff)
(L (W xff xff xff xff xff xff xff xff))
(L (W x45 x26 x22 x84 xe4 x9c xf2 xcb))))))))
(T (W x6c x76 x31 x5f x66 x69 x73 x68)
(T (W xff xff xff xff xff xff xff xff)
(T (W xff xff xff xff xff xff xff xff)
(T (W x45 x26 x22 x84 xe4 x9c xf2 xcb)
(T (W x00 x00 x00 x00 x00 x00 x00 x00)
(T (W xff xff xff xff x03 x00 x00 x00)
(T (W xff xff xff xff xff xff xff xff)
(L (W xf2 x88 xff xff x72 x00 x00 x00)) E)
(L (W x30 x33 x5f x43 x4c x45 x41 x52)))
(T (W x00 x00 x80 x3f x00 x00 x80 x3f)
(L (W xff xff xff xff xff xff xff xff))
(L (W x00 x00 x80 xbf x00 x00 x80 xbf))))
(T (W x48 x03 x00 x00 x34 x02 x00 x00)
(T (W x00 x00 x80 x3f x00 x00 x80 x3f)
(T (W x00 x00 x00 x00 x00 x00 x00 x00)
(L (W x00 x00 x80 xbf x00 x00 x80 xbf)) E)
(L (W xf2 xc8 xfe xff xa9 x01 x00 x00)))
(T (W x00 x00 x80 x3f x00 x00 x80 x3f)
(L (W x00 x00 x80 xbf x00 x00 x80 xbf))
(L (W x00 x00 x80 xbf x00 x00 x80 xbf)))))
(T (W x00 x00 x00 x00 x00 x00 x00 x00)
(T (W xae xa2 x0f xa7 x37 xdf x0e xb7)
(T (W x68 x00 x00 x00 x5c x00 x00 x00)
(T (W x00 x00 x80 x3f x00 x00 x80 x3f)
(L (W xd2 xbe xff xff x6b x01 x00 x00)) E)
(L (W xcc x00 x00 x00 x02 x00 x00 x00)))
(T (W xff xff xff xff xff xff xff xff)
(L (W x50 x00 x00 x00 x44 x00 x00 x00))
(L (W xff xff xff xff xff xff xff xff))))
(T (W xff xff xff xff x04 x00 x00 x00)
(T (W x30 x33 x5f x43 x4c x45 x41 x52)
(T (W x00 x00 x00 x00 x00 x00 x00 x00)
(L (W xff xff xff xff xff xff xff xff)) E)
(L (W x45 x26 x22 x84 xe4 x9c xf2 xcb)))
(T (W x00 x00 x00 x00 x00 x00 x00 x00)
(L (W x00 x00 x00 x00 x00 x00 x00 x00))
(L (W xff xff xff xff xff xff xff xff))))))
(T (W x45 x26 x22 x84 xe4 x9c xf2 xcb)
(T (W x45 x26 x22 x84 xe4 x9c xf2 xcb)
(T (W x00 x00 x00 x00 x00 x00 x00 x00)
(T (W x45 x26 x22 x84 xe4 x9c xf2 xcb)
(T (W x18 x00 x00 x00 x10 x00 x00 x00)
(L (W x00 x00 x00 x00 x00 x00 x00 x00)) E)
(L (W x00 x00 x00 x00 x00 x00 x00 x00)))
(T (W xff xff xff xff xb0 x00 x00 x00)
(L (W x00 x00 x80 x3f x00 x00 x80 x3f))
(L (W xd2 x2e xff xff xaa x01 x00 x00))))
(T (W xff xff xff xff xff xff xff xff)
(T (W xff xff xff xff xff xff xff xff)
(T (W x45 x26 x22 x84 xe4 x9c xf2 xcb)
(L (W x00 x00 x80 xbf x00 x00 x80 xbf)) E)
(L (W x00 x00 x00 x00 x00 x00 x00 x00)))
(T (W x1f x00 x00 x00 x22 x00 x00 x00)
(L (W x00 x00 x80 xbf x00 x00 x80 xbf))
(L (W x03 x00 x00 x00 xd4 x00 x00 x00)))))
(T (W x45 x26 x22 x84 xe4 x9c xf2 xcb)
(T (W x00 x00 x00 x00 x00 x00 x00 x00)
(T (W x00 x00 x80 x3f x00 x00 x80 x3f)
(T (W x50 x00 x00 x00 x44 x00 x00 x00)
(L (W x45 x26 x22 x84 xe4 x9c xf2 xcb)) E)
(L (W xff xff xff xff xff xff xff xff)))
(T (W x00 x00 x00 x00 x00 x00 x00 x00)
(L (W x00 x01 x01 x01 xfa x3d xfe xff))
(L (W x00 x00 x80 xbf x00 x00 x80 xbf))))
(T (W xb8 x00 x00 x00 xac x00 x00 x00)
(T (W x00 x00 x80 x3f x00 x00 x80 x3f)
(T (W x03 x00 x00 x00 x34 x38 x35 x00)
(L (W x34 x00 x38 x00 x3c x00 x40 x00)) E)
(L (W x00 x00 x80 xbf x00 x00 x80 xbf)))
(T (W x00 x00 x80 x3f x00 x00 x80 x3f)
(L (W x49 xa1 x68 x4a xeb x5f xdd x3d))
(L (W x18 x00 x00 x00 x0c x00 x00 x00)))))))
(T (W x2a x00 x00 x00 x67 x72 x6f x75)
(T (W x00 x00 x80 x3f x00 x00 x80 x3f)
(T (W x00 x00 x80 x3f x00 x00 x80 x3f)
(T (W x00 x00 x00 x00 x00 x00 x00 x00)
(T (W x00 x00 x00 x00 x94 x91 xfc xff)
(T (W xff xff xff xff xff xff xff xff)
(L (W xff xff xff xff xff xff xff xff)) E)
(L (W x0d x00 x00 x00 x10 x00 x00 x00)))
(T (W x00 x00 x00 x00 x94 x11 xfd xff)
(L (W x00 x00 x00 x00 x00 x00 x00 x00))
(L (W xff xff xff xff xbc x00 x00 x00))))
(T (W xff xff xff xff xff xff xff xff)
(T (W x18 x00 x00 x00 x0c x00 x00 x00)
(T (W x00 x00 x80 x3f x00 x00 x80 x3f)
(L (W x00 x00 x80 xbf x00 x00 x80 xbf)) E)
(L (W x00 x00 x00 x00 x00 x00 x00 x00)))
(T (W x50 x00 x00 x00 x44 x00 x00 x00)
(L (W x00 x00 x80 xbf x00 x00 x80 xbf))
(L (W x45 x26 x22 x84 xe4 x9c xf2 xcb)))))
(T (W x00 x00 x00 x00 x00 x00 x00 x00)
(T (W xea x4a xfe xff xbe x00 x00 x00)
(T (W x24 xb3 xfc xff x00 x01 x01 x01)
(T (W x00 x00 x80 x3f x00 x00 x80 x3f)
(L (W x00 x00 x00 x00 x00 x00 x00 x00)) E)
(L (W xff xff xff xff xff xff xff xff)))
(T (W x2a x38 xfd xff x9c x01 x00 x00)
(L (W x00 x00 x00 x00 x00 x00 x00 x00))
(L (W xff xff xff xff xff xff xff xff))))
(T (W x18 x00 x00 x00 x10 x00 x00 x00)
(T (W x00 x00 x00 x00 x00 x00 x00 x00)
(T (W xff xff xff xff xff xff xff xff)
(L (W xff xff xff xff x9c x00 x00 x00)) E)
(L (W x6c x00 x00 x00 x60 x00 x00 x00)))
(T (W x00 x00 x00 x00 x00 x00 x00 x00)
(L (W x45 x26 x22 x84 xe4 x9c xf2 xcb))
(L (W xff xff xff xff xbc x00 x00 x00))))))
(T (W x00 x00 x00 x00 x00 x00 x00 x00)
(T (W x45 x26 x22 x84 xe4 x9c xf2 xcb)
(T (W x4b x15 x47 xec x39 x51 x9e x3e)
(T (W x5a x9e xfc xff x74 x00 x00 x00)
(T (W x18 x00 x00 x00 x0c x00 x00 x00)
(L (W x45 x44 x00 x00 x00 x00 x00 x00)) E)
(L (W x29 x00 x00 x00 x2c x00 x00 x00)))
(T (W xb0 x00 x00 x00 x64 x00 x00 x00)
(L (W xb4 x26 xfe xff x2e x00 x00 x00))
(L (W xff xff xff xff xff xff xff xff))))
(T (W xff xff xff xff xff xff xff xff)
(T (W x2c x01 x00 x00 x04 x00 x00 x00)
(T (W x00 x00 x80 x3f x00 x00 x80 x3f)
(L (W x49 xa1 x68 x4a xeb x5f xdd x3d)) E)
(L (W x00 x00 x00 x00 x00 x00 x00 x00)))
(T (W xff xff xff xff xff xff xff xff)
(L (W x00 x00 x00 x00 x00 x00 x00 x00))
(L (W xff xff xff xff xff xff xff xff)))))
(T (W x45 x26 x22 x84 xe4 x9c xf2 xcb)
(T (W x00 x00 x00 x00 x00 x00 x00 x00)
(T (W x4f x84 x6f x8b xe8 xcb x63 xb7)
(T (W x00 x00 x00 x00 x00 x00 x00 x00)
(L (W x00 x00 x80 xbf x00 x00 x80 xbf)) E)
(L (W xaa x01 x00 x00 xff xff xff xff)))
(T (W x49 xa1 x68 x4a xeb x5f xdd x3d)
(L (W x38 x00 x00 x00 x00 x00 x80 xbf))
(L (W x5a x3e xff xff x74 x00 x00 x00))))
(T (W xc0 x00 x00 x00 xb4 x00 x00 x00)
(T (W x45 x26 x22 x84 xe4 x9c xf2 xcb)
(T (W xff xff xff xff xff xff xff xff)
(L (W x08 x00 x0c x00 x10 x00 x14 x00)) E)
(L (W x45 x26 x22 x84 xe4 x9c xf2 xcb)))
(T (W x45 x26 x22 x84 xe4 x9c xf2 xcb)
(L (W x00 x00 x00 x00 x00 x00 x00 x00))
(L (W x2e x00 x00 x00 xff xff xff xff)))))))))
(T (W x45 x26 x22 x84 xe4 x9c xf2 xcb)
(T (W xff xff xff xff xff xff xff xff)
(T (W x00 x00 x80 x3f x00 x00 x80 x3f)
(T (W x45 x26 x22 x84 xe4 x9c xf2 xcb)
(T (W x00 x00 x00 x00 x00 x00 x00 x00)
(T (W x5a x22 xfe xff x00 x00 x01 x01)
(T (W x00 x00 x80 x3f x00 x00 x80 x3f)
(T (W x00 x00 x80 x3f x00 x00 x80 x3f)
(L (W xff xff xff xff xff xff xff xff)) E)
(L (W x00 x00 x00 x00 xe2 xa2 xfe xff)))
(T (W x00 x00 x00 x00 x00 x00 x00 x00)
(L (W x54 x00 x00 x00 x48 x00 x00 x00))
(L (W x00 x00 x00 x00 x00 x00 x00 x00))))
(T (W xff xff xff xff xff xff xff xff)
(T (W x00 x00 x00 x00 x00 x00 x00 x00)
(T (W xff xff xff xff xff xff xff xff)
(L (W x45 x26 x22 x84 xe4 x9c xf2 xcb)) E)
(L (W xff xff xff xff xff xff xff xff)))
(T (W x00 x00 x00 x00 x00 x00 x00 x00)
(L (W x00 x00 x00 x00 x00 x00 x00 x00))
(L (W x00 x00 x80 xbf x00 x00 x80 xbf)))))
(T (W x00 x00 x00 x00 x00 x00 x00 x00)
(T (W xff xff xff xff xff xff xff xff)
(T (W x00 x00 x80 x3f x00 x00 x80 x3f)
(T (W x00 x00 x00 x00 x00 x00 x00 x00)
(L (W xff xff xff xff xff xff xff xff)) E)
(L (W x54 x00 x00 x00 x48 x00 x00 x00)))
(T (W x24 x29 xfd xff x00 x01 x01 x01)
(L (W x00 x00 x00 x00 x00 x00 x00 x00))
(L (W x50 x00 x00 x00 x44 x00 x00 x00))))
(T (W x68 x00 x00 x00 x5c x00 x00 x00)
(T (W xff xff xff xff xff xff xff xff)
(T (W x00 x00 x80 x3f x00 x00 x80 x3f)
(L (W x26 x00 x00 x00 x29 x00 x00 x00)) E)
(L (W x00 x00 x00 x00 x00 x00 x00 x00)))
(T (W xb0 x00 x00 x00 x64 x00 x00 x00)
(L (W x30 x33 x5f x43 x4c x45 x41 x52))
(L (W x00 x00 x80 xbf x00 x00 x80 xbf))))))
(T (W x00 x00 x00 x00 x00 x00 x00 x00)
(T (W x00 x00 x01 x01 xa7 x01 x00 x00)
(T (W xff xff xff xff xff xff xff xff)
(T (W x00 x00 x00 x00 x00 x00 x00 x00)
(T (W x00 x00 x80 x3f x00 x00 x80 x3f)
(L (W xff xff xff xff xff xff xff xff)) E)
(L (W xff xff xff xff xff xff xff xff)))
(T (W x49 xa1 x68 x4a xeb x5f xdd x3d)
(L (W x00 x00 x00 x00 x00 x00 x00 x00))
(L (W x6c x00 x00 x00 x60 x00 x00 x00))))
(T (W x5a x54 xfc xff x74 x00 x00 x00)
(T (W x00 x00 x80 x3f x00 x00 x80 x3f)
(T (W x00 x00 x00 x00 x00 x00 x00 x00)
(L (W x00 x00 x00 x00 x00 x00 x00 x00)) E)
(L (W xff xff xff xff xff xff xff xff)))
(T (W x45 x26 x22 x84 xe4 x9c xf2 xcb)
(L (W x00 x00 x00 x00 x00 x00 x00 x00))
(L (W x00 x00 x80 xbf x00 x00 x80 xbf)))))
(T (W xb4 x2b x69 xb7 x2c xff xdd x7b)
(T (W xff xff xff xff xff xff xff xff)
(T (W x18 x00 x00 x00 x10 x00 x00 x00)
(T (W x26 x00 x00 x00 x10 x00 x00 x00)
(L (W xb4 xbc xff xff x1f x00 x00 x00)) E)
(L (W x45 x26 x22 x84 xe4 x9c xf2 xcb)))
(T (W xff xff xff xff xff xff xff xff)
(L (W x00 x00 x00 x00 x00 x00 x00 x00))
(L (W x49 xa1 x68 x4a xeb x5f xdd x3d))))
(T (W x24 x79 xfc xff x00 x01 x01 x01)
(T (W x00 x00 x00 x00 x3a xf5 xfc xff)
(T (W x00 x00 x80 x3f x00 x00 x80 x3f)
(L (W x00 x00 x00 x00 x00 x00 x00 x00)) E)
(L (W x00 x00 x00 x00 x00 x00 x00 x00)))
(T (W x00 x00 x00 x00 x00 x00 x00 x00)
(L (W x30 x33 x5f x43 x4c x45 x41 x52))
(L (W x00 x00 x80 xbf x00 x00 x80 xbf)))))))
(T (W x68 x00 x00 x00 x5c x00 x00 x00)
(T (W x64 x5f x6c x76 x31 x00 x00 x00)
(T (W x75 x41 x14 x21 xc8 x6d xc7 x22)
(T (W xff xff xff xff xff xff xff xff)
(T (W x00 x00 x80 x3f x00 x00 x80 x3f)
(T (W x24 x91 xfd xff x00 x01 x01 x01)
(L (W xff xff xff xff xc4 x00 x00 x00)) E)
(L (W xff xff xff xff xff xff xff xff)))
(T (W x00 x00 x00 x00 x00 x00 x00 x00)
(L (W xff xff xff xff xff xff xff xff))
(L (W x00 x00 x80 xbf x00 x00 x80 xbf))))
(T (W x18 x00 x00 x00 x0c x00 x00 x00)
(T (W x00 x00 x80 x3f x00 x00 x80 x3f)
(T (W x6f x6b x65 x5f x63 x6f x77 x61)
(L (W x00 x00 x00 x00 x00 x00 x00 x00)) E)
(L (W xff xff xff xff xff xff xff xff)))
(T (W x4f x84 x6f x8b xe8 xcb x63 xb7)
(L (W x00 x00 x00 x00 x00 x00 x00 x00))
(L (W x00 x00 x00 x00 x00 x00 x00 x00)))))
(T (W x00 x00 x00 x00 x00 x00 x00 x00)
(T (W xff xff xff xff xff xff xff xff)
(T (W x00 x00 x80 x3f x00 x00 x80 x3f)
(T (W x00 x00 x00 x00 x00 x00 x00 x00)
(L (W x45 x44 x00 x00 x00 x00 x00 x00)) E)
(L (W x00 x00 x00 x00 x94 xaf xfe xff)))
(T (W xff xff xff xff xff xff xff xff)
(L (W x5a x2c xfe xff x74 x00 x00 x00))
(L (W x00 x00 x80 xbf x00 x00 x80 xbf))))
(T (W x5a x6c xfc xff x74 x00 x00 x00)
(T (W xd2 x04 xfd xff x4b x00 x00 x00)
(T (W x0c x05 xfe xff x21 x00 x00 x00)
(L (W x00 x00 x80 xbf x00 x00 x80 xbf)) E)
(L (W x4c x45 x41 x52 x45 x44 x00 x00)))
(T (W x00 x00 x00 x00 xb2 x77 xfd xff)
(L (W x00 x00 x00 x00 x00 x00 x00 x00))
(L (W x00 x00 x80 xbf x00 x00 x80 xbf))))))
(T (W x00 x00 x00 x00 x00 x00 x00 x00)
(T (W x00 x00 x00 x00 x00 x00 x00 x00)
(T (W xb8 x00 x00 x00 xac x00 x00 x00)
(T (W x00 x00 x00 x00 x00 x00 x00 x00)
(T (W x00 x00 x80 x3f x00 x00 x80 x3f)
(L (W xff xff xff xff x9c x00 x00 x00)) E)
(L (W x5c x00 x60 x00 x00 x00 x00 x00)))
(T (W x00 x00 x80 x3f x00 x00 x80 x3f)
(L (W x00 x00 x80 xbf x00 x00 x80 xbf))
(L (W x14 x00 x00 x00 x0c x00 x00 x00))))
(T (W x00 x00 x80 x3f x00 x00 x80 x3f)
(T (W xc4 x00 x00 x00 x01 x00 x00 x00)
(T (W x00 x00 x00 x00 x00 x00 x00 x00)
(L (W x46 x53 x59 x53 x5f x4e x53 x5f)) E)
(L (W xdf x00 x00 x00 xff xff xff xff)))
(T (W x00 x00 x80 x3f x00 x00 x80 x3f)
(L (W x00 x00 x00 x00 x00 x00 x00 x00))
(L (W x00 x00 x00 x00 x94 x5f xff xff)))))
(T (W x8a x01 x00 x00 xff xff xff xff)
(T (W xff xff xff xff x03 x00 x00 x00)
(T (W xff xff xff xff xff xff xff xff)
(T (W xff xff xff xff xff xff xff xff)
(L (W x00 x00 x00 x00 x00 x00 x00 x00)) E)
(L (W x5a xbc xfe xff x74 x00 x00 x00)))
(T (W xff xff xff xff x02 x00 x00 x00)
(L (W x00 x00 x00 x00 x00 x00 x00 x00))
(L (W x00 x00 x80 xbf x00 x00 x80 xbf))))
(T (W x00 x00 x80 x3f x00 x00 x80 x3f)
(T (W x00 x00 x00 x00 x00 x00 x00 x00)
(T (W x18 x00 x00 x00 x10 x00 x00 x00)
(L (W x43 x00 x00 x00 xff xff xff xff)) E)
(L (W x00 x00 x00 x00 x00 x00 x00 x00)))
(T (W x00 x00 x00 x00 x00 x00 x00 x00)
(L (W x00 x00 x00 x00 x04 x00 x00 x00))
(L (W xff xff xff xff xff xff xff xff))))))))
(T (W xff xff xff xff xff xff xff xff)
(T (W x00 x00 x00 x00 x00 x00 x00 x00)
(T (W x00 x00 x80 x3f x00 x00 x80 x3f)
(T (W x45 x26 x22 x84 xe4 x9c xf2 xcb)
(T (W x00 x00 x80 x3f x00 x00 x80 x3f)
(T (W xff xff xff xff xff xff xff xff)
(T (W x00 x00 x00 x00 x00 x00 x00 x00)
(L (W x00 x00 x00 x00 x00 x00 x00 x00)) E)
(L (W x00 x00 x80 xbf x00 x00 x80 xbf)))
(T (W xff xff xff xff xff xff xff xff)
(L (W x4f x84 x6f x8b xe8 xcb x63 xb7))
(L (W xff xff xff xff xff xff xff xff))))
(T (W x00 x00 x00 x00 x00 x00 x00 x00)
(T (W xff xff xff xff xbc x00 x00 x00)
(T (W x01 x00 x00 x00 x9c x00 x00 x00)
(L (W xff xff xff xff xff xff xff xff)) E)
(L (W x00 x00 x00 x00 x00 x00 x00 x00)))
(T (W xbc x00 x00 x00 x14 x00 x00 x00)
(L (W x1c x00 x00 x00 x10 x00 x00 x00))
(L (W xff xff xff xff xff xff xff xff)))))
(T (W x68 x00 x00 x00 x5c x00 x00 x00)
(T (W x45 x26 x22 x84 xe4 x9c xf2 xcb)
(T (W xff xff xff xff xff xff xff xff)
(T (W x64 x00 x00 x00 x9c x00 x00 x00)
(L (W x00 x00 x00 x00 x00 x00 x00 x00)) E)
(L (W xd0 x44 x14 x76 x80 xa7 xed x18)))
(T (W x00 x00 x00 x00 x00 x00 x00 x00)
(L (W xff xff xff xff xff xff xff xff))
(L (W x00 x00 x00 x00 x00 x00 x00 x00))))
(T (W x40 x00 x00 x00 x10 x00 x00 x00)
(T (W x00 x00 x80 x3f x00 x00 x80 x3f)
(T (W x18 x00 x00 x00 x10 x00 x00 x00)
(L (W x45 x26 x22 x84 xe4 x9c xf2 xcb)) E)
(L (W x1f x00 x00 x00 x22 x00 x00 x00)))
(T (W x00 x00 x80 x3f x00 x00 x80 x3f)
(L (W x18 x00 x00 x00 x0c x00 x00 x00))
(L (W xff xff xff xff xff xff xff xff))))))
(T (W x01 x00 x00 x00 xa0 x00 x00 x00)
(T (W x68 x00 x00 x00 x5c x00 x00 x00)
(T (W x45 x26 x22 x84 xe4 x9c xf2 xcb)
(T (W xff xff xff xff xff xff xff xff)
(T (W xff xff xff xff xff xff xff xff)
(L (W x00 x00 x00 x00 x00 x00 x00 x00)) E)
(L (W x00 x00 x80 xbf x00 x00 x80 xbf)))
(T (W xff xff xff xff xff xff xff xff)
(L (W xff xff xff xff x9c x00 x00 x00))
(L (W x00 x00 x00 x00 x00 x00 x00 x00))))
(T (W x00 x00 x00 x00 x00 x00 x00 x00)
(T (W x30 x33 x5f x43 x4c x45 x41 x52)
(T (W xff xff xff xff xff xff xff xff)
(L (W x18 x00 x00 x00 x10 x00 x00 x00)) E)
(L (W x00 x00 x80 xbf x00 x00 x80 xbf)))
(T (W xff xff xff xff xff xff xff xff)
(L (W xff xff xff xff xb0 x00 x00 x00))
(L (W xa6 x01 x00 x00 xff xff xff xff)))))
(T (W x00 x00 x80 x3f x00 x00 x80 x3f)
(T (W x00 x00 x00 x00 x00 x00 x00 x00)
(T (W xff xff xff xff xff xff xff xff)
(T (W x6b x65 x5f x77 x61 x72 x6c x69)
(L (W xff xff xff xff xff xff xff xff)) E)
(L (W x00 x00 x00 x00 x00 x00 x00 x00)))
(T (W x00 x00 x80 x3f x00 x00 x80 x3f)
(L (W xff xff xff xff xb0 x00 x00 x00))
(L (W xff xff xff xff xff xff xff xff))))
(T (W xff xff xff xff xff xff xff xff)
(T (W x6c x00 x00 x00 x60 x00 x00 x00)
(T (W x0c x11 xfe xff x1e x00 x00 x00)
(L (W x20 xfa xff xff x00 x00 x00 x01)) E)
(L (W xff xff xff xff xff xff xff xff)))
(T (W x03 x00 x00 x00 xd4 x00 x00 x00)
(L (W x44 x00 x00 x00 x00 x00 x80 xbf))
(L (W x94 x01 x00 x00 x68 x00 x00 x00)))))))
(T (W x01 x00 x00 x00 x9c x00 x00 x00)
(T (W x18 x00 x00 x00 x10 x00 x00 x00)
(T (W x18 x00 x00 x00 x0c x00 x00 x00)
(T (W x00 x00 x80 x3f x00 x00 x80 x3f)
(T (W xff xff xff xff xff xff xff xff)
(T (W x00 x00 x00 x00 x02 x00 x00 x00)
(L (W x4f x84 x6f x8b xe8 xcb x63 xb7)) E)
(L (W x00 x00 x80 xbf x00 x00 x80 xbf)))
(T (W xff xff xff xff xff xff xff xff)
(L (W x00 x00 x80 x3f x00 x00 x80 x3f))
(L (W x46 x53 x59 x53 x5f x4e x53 x5f))))
(T (W x00 x00 x00 x00 x00 x00 x00 x00)
(T (W xff xff xff xff xff xff xff xff)
(T (W x64 x00 x00 x00 x9c x00 x00 x00)
(L (W xff xff xff xff xb0 x00 x00 x00)) E)
(L (W x00 x00 x00 x00 x00 x00 x00 x00)))
(T (W xff xff xff xff xff xff xff xff)
(L (W xff xff xff xff x94 x00 x00 x00))
(L (W xff xff xff xff xff xff xff xff)))))
(T (W x00 x00 x80 x3f x00 x00 x80 x3f)
(T (W x00 x00 x00 x00 x00 x00 x00 x00)
(T (W xff xff xff xff xff xff xff xff)
(T (W x18 x00 x00 x00 x0c x00 x00 x00)
(L (W x45 x26 x22 x84 xe4 x9c xf2 xcb)) E)
(L (W x00 x00 x00 x00 x00 x00 x00 x00)))
(T (W x00 x00 x80 x3f x00 x00 x80 x3f)
(L (W x45 x26 x22 x84 xe4 x9c xf2 xcb))
(L (W xff xff xff xff xff xff xff xff))))
(T (W x5a x8e xfe xff x00 x00 x01 x01)
(T (W x00 x00 x80 x3f x00 x00 x80 x3f)
(T (W x00 x00 x80 x3f x00 x00 x80 x3f)
(L (W x00 x00 x80 xbf x00 x00 x80 xbf)) E)
(L (W x03 x00 x00 x00 xd0 x00 x00 x00)))
(T (W x45 x26 x22 x84 xe4 x9c xf2 xcb)
(L (W x00 x00 x80 xbf x00 x00 x80 xbf))
(L (W x00 x00 x00 x00 x00 x00 x00 x00))))))
(T (W x24 xc5 xfb xff x00 x01 x01 x01)
(T (W x18 x00 x00 x00 x0c x00 x00 x00)
(T (W x00 x00 x80 x3f x00 x00 x80 x3f)
(T (W x44 x00 x48 x00 x4c x00 x50 x00)
(T (W xff xff xff xff xff xff xff xff)
(L (W x00 x00 x00 x00 x00 x00 x00 x00)) E)
(L (W x46 x53 x59 x53 x5f x4e x53 x5f)))
(T (W x00 x00 x00 x00 x00 x00 x00 x00)
(L (W x00 x00 x80 xbf x00 x00 x80 xbf))
(L (W x00 x00 x00 x00 x00 x00 x00 x00))))
(T (W x00 x00 x00 x00 x00 x00 x00 x00)
(T (W x00 x00 x00 x00 x00 x00 x00 x00)
(T (W x00 x00 x00 x00 x00 x00 x00 x00)
(L (W x00 x00 x00 x00 x60 x00 x64 x00)) E)
(L (W x18 x00 x00 x00 x0c x00 x00 x00)))
(T (W x5f x77 x69 x6c x64 x5f x70 x6f)
(L (W xff xff xff xff x9c x00 x00 x00))
(L (W x45 x44 x00 x00 x00 x00 x00 x00)))))
(T (W x00 x00 x80 x3f x00 x00 x80 x3f)
(T (W x00 x00 x00 x00 x00 x00 x00 x00)
(T (W x24 xc5 xfc xff x00 x01 x01 x01)
(T (W x45 x26 x22 x84 xe4 x9c xf2 xcb)
(L (W x4c x00 x04 x00 x08 x00 x0c x00)) E)
(L (W x00 x00 x00 x00 x12 x00 x00 x00)))
(T (W x68 x00 x00 x00 x5c x00 x00 x00)
(L (W x45 x26 x22 x84 xe4 x9c xf2 xcb))
(L (W xff xff xff xff xbc x00 x00 x00))))
(T (W xff xff xff xff xff xff xff xff)
(T (W x1d x00 x00 x00 x20 x00 x00 x00)
(T (W x00 x00 x80 x3f x00 x00 x80 x3f)
(L (W x00 x00 x80 xbf x00 x00 x80 xbf)) E)
(L (W xff xff xff xff xff xff xff xff)))
(T (W xff xff xff xff xff xff xff xff)
(L (W x00 x00 x80 xbf x00 x00 x80 xbf))
(L (W x00 x00 x00 x00 x00 x00 x00 x00))))))))))
(T (W x70 x36 x01 x00 xdc x34 x01 x00)
(T (W xa0 x08 x00 x00 x8c x03 x00 x00)
(T (W xff xff xff xff xff xff xff xff)
(T (W x00 x00 x00 x00 x00 x00 x00 x00)
(T (W x00 x00 x80 x3f x00 x00 x80 x3f)
(T (W xb8 x01 x00 x00 xff xff xff xff)
(T (W xff xff xff xff xff xff xff xff)
(T (W x00 x00 x00 x00 x00 x00 x00 x00)
(T (W x00 x00 x80 x3f x00 x00 x80 x3f)
(L (W xff xff xff xff x9c x00 x00 x00)) E)
(L (W xff xff xff xff xff xff xff xff)))
(T (W x16 xca x33 xe6 x8d xc4 x48 xff)
(L (W x00 x00 x00 x00 x12 x00 x00 x00))
(L (W x46 x53 x59 x53 x5f x4e x53 x5f))))
(T (W x5a x43 xfc xff x74 x00 x00 x00)
(T (W x00 x00 x00 x00 x00 x00 x00 x00)
(T (W xff xff xff xff x03 x00 x00 x00)
(L (W x00 x00 x00 x00 x00 x00 x00 x00)) E)
(L (W x50 x00 x00 x00 x44 x00 x00 x00)))
(T (W x00 x00 x00 x00 x00 x00 x00 x00)
(L (W x28 x00 x00 x00 x10 x00 x00 x00))
(L (W x00 x00 x00 x00 x00 x00 x00 x00)))))
(T (W x00 x00 x00 x00 x00 x00 x00 x00)
(T (W xc4 x00 x00 x00 xb8 x00 x00 x00)
(T (W x00 x00 x10 x00 x14 x00 x18 x00)
(T (W x00 x00 x00 x00 x00 x00 x00 x00)
(L (W x00 x00 x00 x00 x94 xa6 xff xff)) E)
(L (W x00 x00 x80 xbf x00 x00 x80 xbf)))
(T (W x54 x00 x00 x00 x48 x00 x00 x00)
(L (W x04 x00 x00 x00 x4a xf6 xff xff))
(L (W x45 x26 x22 x84 xe4 x9c xf2 xcb))))
(T (W x00 x00 x80 x3f x00 x00 x80 x3f)
(T (W xff xff xff xff xff xff xff xff)
(T (W x00 x00 x00 x00 x00 x00 x00 x00)
(L (W x0a xe5 xff xff x78 x00 x00 x00)) E)
(L (W xa9 x01 x00 x00 xff xff xff xff)))
(T (W x24 x68 xfd xff x00 x01 x01 x01)
(L (W xff xff xff xff xff xff xff xff))
(L (W x00 x00 x80 xbf x00 x00 x80 xbf))))))
(T (W x00 x00 x00 x00 x00 x00 x00 x00)
(T (W xff xff xff xff xff xff xff xff)
(T (W x45 x26 x22 x84 xe4 x9c xf2 xcb)
(T (W x00 x00 x00 x00 x00 x00 x00 x00)
(T (W x00 x00 x80 x3f x00 x00 x80 x3f)
(L (W x00 x00 x00 x00 x94 x96 xff xff)) E)
(L (W x03 x00 x00 x00 xd8 x00 x00 x00)))
(T (W x00 x00 x00 x00 x00 x00 x00 x00)
(L (W x00 x00 x00 x00 x00 x00 x00 x00))
(L (W x00 x00 x80 xbf x00 x00 x80 xbf))))
(T (W x00 x00 x80 x3f x00 x00 x80 x3f)
(T (W x00 x00 x80 x3f x00 x00 x80 x3f)
(T (W x24 x00 x00 x00 x10 x00 x00 x00)
(L (W x00 x00 x00 x00 x00 x00 x00 x00)) E)
(L (W xff xff xff xff xff xff xff xff)))
(T (W x00 x00 x00 x00 x00 x00 x00 x00)
(L (W x04 x08 x00 x00 xd4 x06 x00 x00))
(L (W x00 x00 x00 x00 x00 x00 x00 x00)))))
(T (W xff xff xff xff xff xff xff xff)
(T (W x18 x00 x00 x00 x10 x00 x00 x00)
(T (W x00 x00 x00 x00 x00 x00 x00 x00)
(T (W xff xff xff xff xff xff xff xff)
(L (W xff xff xff xff xff xff xff xff)) E)
(L (W x5a xb3 xfe xff x74 x00 x00 x00)))
(T (W xff xff xff xff x9c x00 x00 x00)
(L (W xb4 x3b xfe xff x29 x00 x00 x00))
(L (W x00 x00 x00 x00 x00 x00 x00 x00))))
(T (W x00 x00 x80 x3f x00 x00 x80 x3f)
(T (W xff xff xff xff xff xff xff xff)
(T (W x60 x00 x0a x00 x64 x00 x00 x00)
(L (W x00 x00 x00 x00 x00 x00 x00 x00)) E)
(L (W x00 x00 x00 x00 x00 x00 x00 x00)))
(T (W x54 x02 x00 x00 x34 x01 x00 x00)
(L (W xff xff xff xff xff xff xff xff))
(L (W x00 x00 x80 xbf x00 x00 x80 xbf)))))))
(T (W x00 x00 x00 x00 x00 x00 x00 x00)
(T (W xff xff xff xff xff xff xff xff)
(T (W xff xff xff xff xff xff xff xff)
(T (W xb8 x00 x00 x00 xac x00 x00 x00)
(T (W x00 x00 x00 x00 x00 x00 x00 x00)
(T (W x00 x00 x80 x3f x00 x00 x80 x3f)
(L (W x45 x26 x22 x84 xe4 x9c xf2 xcb)) E)
(L (W xff xff xff xff xff xff xff xff)))
(T (W x30 x33 x5f x43 x4c x45 x41 x52)
(L (W xff xff xff xff xff xff xff xff))
(L (W x00 x00 x00 x00 x00 x00 x00 x00))))
(T (W x00 x00 x80 x3f x00 x00 x80 x3f)
(T (W x00 x00 x00 x00 x00 x00 x00 x00)
(T (W xff xff xff xff xff xff xff xff)
(L (W x00 x00 x00 x00 x00 x00 x00 x00)) E)
(L (W xcc x00 x00 x00 x01 x00 x00 x00)))
(T (W x0c x64 xfd xff x10 x00 x00 x00)
(L (W x30 x33 x5f x43 x4c x45 x41 x52))
(L (W x46 x53 x59 x53 x5f x4e x53 x5f)))))
(T (W x20 x01 x00 x00 x04 x00 x00 x00)
(T (W xff xff xff xff xff xff xff xff)
(T (W x00 x00 x00 x00 x00 x00 x00 x00)
(T (W x24 x00 x00 x00 x10 x00 x00 x00)
(L (W xff xff xff xff xff xff xff xff)) E)
(L (W x00 x00 x80 xbf x00 x00 x80 xbf)))
(T (W x18 x00 x00 x00 x0c x00 x00 x00)
(L (W x00 x00 x80 xbf x00 x00 x80 xbf))
(L (W x00 x00 x80 xbf x00 x00 x80 xbf))))
(T (W x50 x00 x00 x00 x44 x00 x00 x00)
(T (W xff xff xff xff xff xff xff xff)
(T (W x0a xed xfd xff x78 x00 x00 x00)
(L (W x00 x00 x00 x00 x00 x00 x00 x00)) E)
(L (W x02 x00 x00 x00 xff xff xff xff)))
(T (W xff xff xff xff xff xff xff xff)
(L (W x00 x00 x00 x00 x6a x6f xfe xff))
(L (W x49 xa1 x68 x4a xeb x5f xdd x3d))))))
(T (W x00 x00 x00 x00 x00 x00 x00 x00)
(T (W xff xff xff xff x01 x00 x00 x00)
(T (W x01 x00 x00 x00 x9c x00 x00 x00)
(T (W x00 x00 x00 x00 x00 x00 x00 x00)
(T (W x00 x00 x00 x00 x00 x00 x00 x00)
(L (W x0a x9d xff xff x78 x00 x00 x00)) E)
(L (W xb0 x00 x00 x00 x64 x00 x00 x00)))
(T (W x4f x84 x6f x8b xe8 xcb x63 xb7)
(L (W x00 x00 x00 x00 x00 x00 x00 x00))
(L (W x5c x00 x00 x00 x50 x00 x00 x00))))
(T (W x00 x00 x80 x3f x00 x00 x80 x3f)
(T (W x50 x00 x00 x00 x44 x00 x00 x00)
(T (W x00 x00 x00 x00 x00 x00 x00 x00)
(L (W xd2 xf3 xff xff xa8 x01 x00 x00)) E)
(L (W xff xff xff xff xff xff xff xff)))
(T (W x00 x00 x80 x3f x00 x00 x80 x3f)
(L (W x00 x00 x00 x00 x6a x5f xfe xff))
(L (W x00 x00 x80 xbf x00 x00 x80 xbf)))))
(T (W xff xff xff xff xff xff xff xff)
(T (W x01 x00 x00 x00 xa0 x00 x00 x00)
(T (W x00 x00 x80 x3f x00 x00 x80 x3f)
(T (W xff xff xff xff xff xff xff xff)
(L (W x00 x00 x00 x00 x00 x00 x00 x00)) E)
(L (W x00 x00 x80 xbf x00 x00 x80 xbf)))
(T (W xff xff xff xff xff xff xff xff)
(L (W x45 x44 x00 x00 x00 x00 x00 x00))
(L (W x00 x00 x00 x00 x12 x00 x00 x00))))
(T (W x00 x00 x80 x3f x00 x00 x80 x3f)
(T (W x00 x00 x00 x00 x00 x00 x00 x00)
(T (W x6c x00 x00 x00 x60 x00 x00 x00)
(L (W x54 x00 x00 x00 x48 x00 x00 x00)) E)
(L (W x00 x00 x00 x00 x00 x00 x00 x00)))
(T (W x4c x45 x41 x52 x45 x44 x00 x00)
(L (W xff xff xff xff xff xff xff xff))
(L (W x18 x00 x00 x00 x0c x00 x00 x00))))))))
(T (W x45 x26 x22 x84 xe4 x9c xf2 xcb)
(T (W x40 x00 x00 x00 x0c x00 x00 x00)
(T (W x21 x00 x00 x00 x67 x72 x6f x75)
(T (W x5a xc7 xfb xff x74 x00 x00 x00)
(T (W x00 x00 x80 x3f x00 x00 x80 x3f)
(T (W xff xff xff xff xff xff xff xff)
(T (W x00 x00 x00 x00 x02 x00 x00 x00)
(L (W x30 x33 x5f x43 x4c x45 x41 x52)) E)
(L (W x00 x00 x00 x00 x00 x00 x00 x00)))
(T (W x68 x00 x00 x00 x5c x00 x00 x00)
(L (W x77 x61 x72 x6c x69 x6b x65 x5f))
(L (W x1a x00 x00 x00 x1d x00 x00 x00))))
(T (W x00 x00 x00 x00 x00 x00 x00 x00)
(T (W x45 x26 x22 x84 xe4 x9c xf2 xcb)
(T (W x45 x26 x22 x84 xe4 x9c xf2 xcb)
(L (W xff xff xff xff xff xff xff xff)) E)
(L (W x30 x33 x5f x43 x4c x45 x41 x52)))
(T (W x24 x4c xfd xff x00 x01 x01 x01)
(L (W x38 x00 x00 x00 x00 x00 x80 xbf))
(L (W x5a x47 xff xff x74 x00 x00 x00)))))
(T (W x00 x00 x80 x3f x00 x00 x80 x3f)
(T (W x00 x00 x00 x00 x00 x00 x00 x00)
(T (W xb8 x00 x00 x00 xac x00 x00 x00)
(T (W x18 x00 x00 x00 x0c x00 x00 x00)
(L (W x46 x53 x59 x53 x5f x4e x53 x5f)) E)
(L (W xff xff xff xff xff xff xff xff)))
(T (W x00 x00 x00 x00 x00 x00 x00 x00)
(L (W xb0 x00 x00 x00 x64 x00 x00 x00))
(L (W x00 x00 x00 x00 x6a x2b xff xff))))
(T (W xff xff xff xff xff xff xff xff)
(T (W x00 x00 x00 x00 x00 x00 x00 x00)
(T (W x6c x00 x00 x00 x60 x00 x00 x00)
(L (W x0c x00 x00 x00 x22 x00 x00 x00)) E)
(L (W x0a xe9 xfe xff x78 x00 x00 x00)))
(T (W x00 x00 x00 x00 x00 x00 x00 x00)
(L (W x00 x00 x80 xbf x00 x00 x80 xbf))
(L (W xff xff xff xff xff xff xff xff))))))
(T (W x00 x00 x80 x3f x00 x00 x80 x3f)
(T (W x00 x00 x80 x3f x00 x00 x80 x3f)
(T (W x00 x00 x00 x00 x00 x00 x00 x00)
(T (W x64 x00 x00 x00 x9c x00 x00 x00)
(T (W xff xff xff xff xff xff xff xff)
(L (W x00 x00 x00 x00 x12 x00 x00 x00)) E)
(L (W x00 x00 x00 x00 x00 x00 x00 x00)))
(T (W xff xff xff xff xff xff xff xff)
(L (W x00 x00 x80 x3f x00 x00 x80 x3f))
(L (W x46 x53 x59 x53 x5f x4e x53 x5f))))
(T (W x00 x00 x00 x00 xc2 xa3 xff xff)
(T (W xf2 xd9 xfc xff x4b x00 x00 x00)
(T (W x18 x00 x00 x00 x10 x00 x00 x00)
(L (W x6c x00 x00 x00 x60 x00 x00 x00)) E)
(L (W x00 x00 x00 x00 x00 x00 x00 x00)))
(T (W xff xff xff xff xff xff xff xff)
(L (W x54 x1b xff xff x00 x00 x01 x01))
(L (W xff xff xff xff xff xff xff xff)))))
(T (W x00 x00 x80 x3f x00 x00 x80 x3f)
(T (W x00 x00 x00 x00 x00 x00 x00 x00)
(T (W xc0 x00 x00 x00 xb4 x00 x00 x00)
(T (W xff xff xff xff xff xff xff xff)
(L (W x18 x00 x00 x00 x0c x00 x00 x00)) E)
(L (W xff xff xff xff xff xff xff xff)))
(T (W x00 x00 x00 x00 x00 x00 x00 x00)
(L (W x1c x00 x00 x00 x10 x00 x00 x00))
(L (W x00 x00 x00 x00 x94 x3a xff xff))))
(T (W xff xff xff xff xff xff xff xff)
(T (W x00 x00 x80 x3f x00 x00 x80 x3f)
(T (W xf0 x00 x00 x00 x64 x00 x00 x00)
(L (W x45 x26 x22 x84 xe4 x9c xf2 xcb)) E)
(L (W xff xff xff xff xb0 x00 x00 x00)))
(T (W x50 x00 x00 x00 x44 x00 x00 x00)
(L (W x00 x00 x80 xbf x00 x00 x80 xbf))
(L (W xff xff xff xff xff xff xff xff)))))))
(T (W x00 x00 x80 x3f x00 x00 x80 x3f)
(T (W x24 xb4 xfb xff x00 x01 x01 x01)
(T (W x00 x00 x80 x3f x00 x00 x80 x3f)
(T (W x00 x00 x00 x00 x00 x00 x00 x00)
(T (W xff xff xff xff xff xff xff xff)
(T (W xff xff xff xff xff xff xff xff)
(L (W xb4 x97 xff xff x18 x00 x00 x00)) E)
(L (W x49 xa1 x68 x4a xeb x5f xdd x3d)))
(T (W x18 x00 x00 x00 x0c x00 x00 x00)
(L (W x00 x00 x00 x00 x00 x00 x00 x00))
(L (W xd2 x27 xff xff x90 x01 x00 x00))))
(T (W x13 x00 x00 x00 x10 x00 x00 x00)
(T (W xff xff xff xff xff xff xff xff)
(T (W x18 x00 x00 x00 x0c x00 x00 x00)
(L (W x00 x00 x00 x00 x94 xd2 xff xff)) E)
(L (W x00 x00 x00 x00 x00 x00 x00 x00)))
(T (W x45 x26 x22 x84 xe4 x9c xf2 xcb)
(L (W x74 x00 x00 x00 x68 x00 x00 x00))
(L (W xff xff xff xff xb0 x00 x00 x00)))))
(T (W x45 x26 x22 x84 xe4 x9c xf2 xcb)
(T (W x00 x00 x00 x00 x00 x00 x00 x00)
(T (W x45 x26 x22 x84 xe4 x9c xf2 xcb)
(T (W x00 x00 x80 x3f x00 x00 x80 x3f)
(L (W x00 x00 x80 xbf x00 x00 x80 xbf)) E)
(L (W xff xff xff xff xff xff xff xff)))
(T (W x00 x00 x00 x00 x00 x00 x00 x00)
(L (W x00 x00 x80 xbf x00 x00 x80 xbf))
(L (W xff xff xff xff xff xff xff xff))))
(T (W xff xff xff xff xff xff xff xff)
(T (W x49 xa1 x68 x4a xeb x5f xdd x3d)
(T (W x6f x6b x65 x5f x77 x61 x72 x6c)
(L (W x00 x00 x00 x00 x00 x00 x00 x00)) E)
(L (W xff xff xff xff x9c x00 x00 x00)))
(T (W x00 x00 x80 x3f x00 x00 x80 x3f)
(L (W x00 x00 x80 xbf x00 x00 x80 xbf))
(L (W xff xff xff xff xff xff xff xff))))))
(T (W x00 x00 x80 x3f x00 x00 x80 x3f)
(T (W x00 x00 x80 x3f x00 x00 x80 x3f)
(T (W x00 x00 x00 x00 x00 x00 x00 x00)
(T (W xff xff xff xff xff xff xff xff)
(T (W x64 x00 x00 x00 x9c x00 x00 x00)
(L (W x00 x00 x00 x00 x00 x00 x00 x00)) E)
(L (W xd2 xb7 xfe xff xaa x01 x00 x00)))
(T (W xff xff xff xff xff xff xff xff)
(L (W x00 x00 x00 x00 x00 x00 x00 x00))
(L (W xff xff xff xff xff xff xff xff))))
(T (W x1c x01 x00 x00 x04 x00 x00 x00)
(T (W x46 x53 x59 x53 x5f x4e x53 x5f)
(T (W x00 x00 x01 x01 x3a x00 x00 x00)
(L (W x00 x00 x80 xbf x00 x00 x80 xbf)) E)
(L (W x00 x00 x80 xbf x00 x00 x80 xbf)))
(T (W xff xff xff xff xff xff xff xff)
(L (W x6c x00 x00 x00 x60 x00 x00 x00))
(L (W xff xff xff xff xff xff xff xff)))))
(T (W x00 x00 x80 x3f x00 x00 x80 x3f)
(T (W x00 x00 x00 x00 x00 x00 x00 x00)
(T (W x00 x00 x80 x3f x00 x00 x80 x3f)
(T (W x00 x00 x00 x00 x00 x00 x00 x00)
(L (W x00 x00 x80 xbf x00 x00 x80 xbf)) E)
(L (W x00 x00 x00 x00 x00 x00 x00 x00)))
(T (W x00 x00 x80 x3f x00 x00 x80 x3f)
(L (W x5c x00 x00 x00 x50 x00 x00 x00))
(L (W x45 x26 x22 x84 xe4 x9c xf2 xcb))))
(T (W xff xff xff xff xff xff xff xff)
(T (W x0a x01 xfd xff x78 x00 x00 x00)
(T (W x14 x00 x00 x00 x70 x17 x00 x00)
(L (W x00 x00 x48 x00 x4c x00 x00 x00)) E)
(L (W xff xff xff xff xc4 x00 x00 x00)))
(T (W x64 x00 x00 x00 x9c x00 x00 x00)
(L (W x4f x84 x6f x8b xe8 xcb x63 xb7))
(L (W x00 x00 x00 x00 x00 x00 x00 x00)))))))))
(T (W x00 x00 x80 x3f x00 x00 x80 x3f)
(T (W xff xff xff xff xff xff xff xff)
(T (W xff xff xff xff xff xff xff xff)
(T (W xff xff xff xff xff xff xff xff)
(T (W x00 x00 x00 x00 x00 x00 x00 x00)
(T (W x00 x00 x00 x00 x00 x00 x00 x00)
(T (W x50 x00 x00 x00 x44 x00 x00 x00)
(T (W xff xff xff xff xff xff xff xff)
(L (W x00 x00 x00 x00 xe2 xa3 xff xff)) E)
(L (W xf2 x87 xfe xff x9e x01 x00 x00)))
(T (W x00 x00 x80 x3f x00 x00 x80 x3f)
(L (W xff xff xff xff xff xff xff xff))
(L (W x00 x00 x80 xbf x00 x00 x80 xbf))))
(T (W xff xff xff xff xff xff xff xff)
(T (W x49 xa1 x68 x4a xeb x5f xdd x3d)
(T (W x64 x5f x6c x76 x31 x00 x00 x00)
(L (W x00 x00 x80 xbf x00 x00 x80 xbf)) E)
(L (W xff xff xff xff xff xff xff xff)))
(T (W x00 x00 x00 x00 x00 x00 x00 x00)
(L (W x00 x00 x00 x00 x00 x00 x00 x00))
(L (W x00 x00 x80 xbf x00 x00 x80 xbf)))))
(T (W x00 x00 x00 x00 x00 x00 x00 x00)
(T (W xff xff xff xff xff xff xff xff)
(T (W x00 x00 x80 x3f x00 x00 x80 x3f)
(T (W x00 x00 x80 x3f x00 x00 x80 x3f)
(L (W xff xff xff xff xff xff xff xff)) E)
(L (W x18 x00 x00 x00 x10 x00 x00 x00)))
(T (W xb0 x00 x00 x00 x64 x00 x00 x00)
(L (W x45 x26 x22 x84 xe4 x9c xf2 xcb))
(L (W x45 x26 x22 x84 xe4 x9c xf2 xcb))))
(T (W x5a x65 xfc xff x74 x00 x00 x00)
(T (W xf2 xe7 xfc xff x4a x00 x00 x00)
(T (W x00 x00 x70 x00 x00 x00 x00 x00)
(L (W xff xff xff xff xff xff xff xff)) E)
(L (W x00 x00 x00 x00 x12 x00 x00 x00)))
(T (W xff xff xff xff xff xff xff xff)
(L (W x00 x00 x00 x00 x00 x00 x00 x00))
(L (W x00 x00 x00 x00 x94 x68 xff xff))))))
(T (W x00 x00 x00 x00 x00 x00 x00 x00)
(T (W x00 x00 x00 x00 x00 x00 x00 x00)
(T (W xf0 x00 x00 x00 xff xff xff xff)
(T (W x00 x00 x80 x3f x00 x00 x80 x3f)
(T (W x24 x9a xfd xff x00 x01 x01 x01)
(L (W xa3 x01 x00 x00 xff xff xff xff)) E)
(L (W xff xff xff xff xff xff xff xff)))
(T (W x00 x00 x80 x3f x00 x00 x80 x3f)
(L (W x45 x26 x22 x84 xe4 x9c xf2 xcb))
(L (W x18 x00 x00 x00 x10 x00 x00 x00))))
(T (W xff xff xff xff x04 x00 x00 x00)
(T (W xff xff xff xff xb0 x00 x00 x00)
(T (W x00 x00 x00 x00 x00 x00 x00 x00)
(L (W x00 x00 x80 xbf x00 x00 x80 xbf)) E)
(L (W x00 x00 x00 x00 x3a xd6 xfe xff)))
(T (W x5a x55 xfd xff x74 x00 x00 x00)
(L (W x00 x00 x80 xbf x00 x00 x80 xbf))
(L (W x50 x00 x00 x00 x44 x00 x00 x00)))))
(T (W x00 x00 x00 x00 x00 x00 x00 x00)
(T (W xff xff xff xff xff xff xff xff)
(T (W x24 x00 x28 x00 x2c x00 x30 x00)
(T (W x00 x00 x00 x00 x00 x00 x00 x00)
(L (W x00 x00 x00 x00 x00 x00 x00 x00)) E)
(L (W xff xff xff xff xbc x00 x00 x00)))
(T (W x00 x00 x00 x00 x00 x00 x00 x00)
(L (W x00 x00 x80 xbf x00 x00 x80 xbf))
(L (W x00 x00 x80 xbf x00 x00 x80 xbf))))
(T (W x18 x00 x00 x00 x10 x00 x00 x00)
(T (W x00 x00 x00 x00 x00 x00 x00 x00)
(T (W xe5 x01 x00 x00 xff xff xff xff)
(L (W x03 x00 x00 x00 xcc x00 x00 x00)) E)
(L (W x00 x00 x00 x00 x00 x00 x00 x00)))
(T (W x45 x26 x22 x84 xe4 x9c xf2 xcb)
(L (W x00 x00 x00 x00 x00 x00 x00 x00))
(L (W x00 x00 x00 x00 x94 x78 xff xff)))))))
(T (W xe2 x00 x00 x00 xff xff xff xff)
(T (W x00 x00 x00 x00 x00 x00 x00 x00)
(T (W x00 x00 x00 x00 x00 x00 x00 x00)
(T (W xa8 x1b x00 x64 x6b x96 x6d xde)
(T (W x6c x00 x00 x00 x60 x00 x00 x00)
(T (W x45 x26 x22 x84 xe4 x9c xf2 xcb)
(L (W xff xff xff xff xff xff xff xff)) E)
(L (W xff xff xff xff xff xff xff xff)))
(T (W x00 x00 x80 x3f x00 x00 x80 x3f)
(L (W x00 x00 x00 x00 x00 x00 x00 x00))
(L (W x5a x0d xff xff x74 x00 x00 x00))))
(T (W xff xff xff xff xff xff xff xff)
(T (W x00 x00 x80 x3f x00 x00 x80 x3f)
(T (W x00 x00 x80 x3f x00 x00 x80 x3f)
(L (W x00 x00 x80 xbf x00 x00 x80 xbf)) E)
(L (W xff xff xff xff xff xff xff xff)))
(T (W x00 x00 x80 x3f x00 x00 x80 x3f)
(L (W x49 xa1 x68 x4a xeb x5f xdd x3d))
(L (W x00 x00 x80 xbf x00 x00 x80 xbf)))))
(T (W x00 x00 x00 x00 x00 x00 x00 x00)
(T (W xff xff xff xff xff xff xff xff)
(T (W x68 x00 x00 x00 x5c x00 x00 x00)
(T (W x00 x00 x00 x00 x00 x00 x00 x00)
(L (W x00 x00 x00 x00 x00 x00 x00 x00)) E)
(L (W xff xff xff xff xb0 x00 x00 x00)))
(T (W xff xff xff xff xff xff xff xff)
(L (W x00 x00 x00 x00 x00 x00 x00 x00))
(L (W xff xff xff xff xa8 x00 x00 x00))))
(T (W x45 x26 x22 x84 xe4 x9c xf2 xcb)
(T (W x46 x53 x59 x53 x5f x4e x53 x5f)
(T (W x00 x00 x00 x00 x00 x00 x00 x00)
(L (W x0a xef xff xff x78 x00 x00 x00)) E)
(L (W x00 x00 x00 x00 x00 x00 x00 x00)))
(T (W x5f x4e x53 x5f x30 x33 x5f x43)
(L (W x00 x00 x00 x00 x00 x00 x00 x00))
(L (W x45 x26 x22 x84 xe4 x9c xf2 xcb))))))
(T (W x00 x00 x00 x00 x00 x00 x00 x00)
(T (W x00 x00 x00 x00 x00 x00 x00 x00)
(T (W xff xff xff xff xff xff xff xff)
(T (W x00 x00 x80 x3f x00 x00 x80 x3f)
(T (W x00 x00 x80 x3f x00 x00 x80 x3f)
(L (W xff xff xff xff xff xff xff xff)) E)
(L (W x00 x00 x00 x00 x00 x00 x00 x00)))
(T (W x24 x22 xfd xff x00 x01 x01 x01)
(L (W xff xff xff xff xff xff xff xff))
(L (W x1e x00 x00 x00 x21 x00 x00 x00))))
(T (W x18 x00 x00 x00 x0c x00 x00 x00)
(T (W xff xff xff xff xff xff xff xff)
(T (W x00 x00 x80 x3f x00 x00 x80 x3f)
(L (W x00 x00 x00 x00 x00 x00 x00 x00)) E)
(L (W x00 x00 x00 x00 x00 x00 x00 x00)))
(T (W x00 x00 x00 x00 x94 x60 xfd xff)
(L (W x00 x00 x00 x00 x12 x00 x00 x00))
(L (W x18 x00 x00 x00 x0c x00 x00 x00)))))
(T (W x00 x00 x00 x00 x00 x00 x00 x00)
(T (W xb0 x00 x00 x00 xff xff xff xff)
(T (W x77 x69 x6c x64 x5f x70 x6f x6b)
(T (W xea xd9 xff xff xdf x00 x00 x00)
(L (W x45 x26 x22 x84 xe4 x9c xf2 xcb)) E)
(L (W xff xff xff xff xff xff xff xff)))
(T (W x00 x00 x00 x00 x00 x00 x00 x00)
(L (W x00 x00 x80 xbf x00 x00 x80 xbf))
(L (W x00 x00 x80 xbf x00 x00 x80 xbf))))
(T (W x3e x00 x00 x00 x9c x00 x00 x00)
(T (W x00 x00 x00 x00 x00 x00 x00 x00)
(T (W x03 x00 x00 x00 xd0 x00 x00 x00)
(L (W x00 x00 x00 x00 x00 x00 x00 x00)) E)
(L (W x45 x26 x22 x84 xe4 x9c xf2 xcb)))
(T (W x00 x00 x80 x3f x00 x00 x80 x3f)
(L (W x00 x00 x00 x00 x12 x00 x00 x00))
(L (W xff xff xff xff xff xff xff xff))))))))
(T (W xff xff xff xff xff xff xff xff)
(T (W x45 x26 x22 x84 xe4 x9c xf2 xcb)
(T (W x00 x00 x80 x3f x00 x00 x80 x3f)
(T (W x01 x00 x00 x00 x9c x00 x00 x00)
(T (W x50 x00 x00 x00 x44 x00 x00 x00)
(T (W xff xff xff xff xff xff xff xff)
(T (W x00 x00 x00 x00 x00 x00 x00 x00)
(L (W x3c x00 x00 x00 x00 x00 x80 xbf)) E)
(L (W x00 x00 x80 xbf x00 x00 x80 xbf)))
(T (W xff xff xff xff xff xff xff xff)
(L (W x00 x00 x80 x3f x00 x00 x80 x3f))
(L (W x00 x00 x00 x00 x02 x00 x00 x00))))
(T (W x45 x26 x22 x84 xe4 x9c xf2 xcb)
(T (W xff xff xff xff xff xff xff xff)
(T (W xb8 x00 x00 x00 xac x00 x00 x00)
(L (W xff xff xff xff xff xff xff xff)) E)
(L (W x49 xa1 x68 x4a xeb x5f xdd x3d)))
(T (W xff xff xff xff xff xff xff xff)
(L (W xff xff xff xff xac x00 x00 x00))
(L (W xff xff xff xff xff xff xff xff)))))
(T (W xff xff xff xff x04 x00 x00 x00)
(T (W x54 x00 x00 x00 x48 x00 x00 x00)
(T (W x1d xc1 x38 x75 x73 xb7 xfc xcf)
(T (W xff xff xff xff xff xff xff xff)
(L (W xff xff xff xff xff xff xff xff)) E)
(L (W x4f x84 x6f x8b xe8 xcb x63 xb7)))
(T (W x4f x84 x6f x8b xe8 xcb x63 xb7)
(L (W x1e x00 x00 x00 x10 x00 x00 x00))
(L (W x00 x00 x00 x00 x12 x00 x00 x00))))
(T (W x00 x00 x00 x00 x00 x00 x00 x00)
(T (W x00 x00 x00 x00 x94 xec xfc xff)
(T (W xff xff xff xff xff xff xff xff)
(L (W x00 x00 x00 x00 x00 x00 x00 x00)) E)
(L (W xff xff xff xff xff xff xff xff)))
(T (W x68 x00 x00 x00 x5c x00 x00 x00)
(L (W xff xff xff xff xff xff xff xff))
(L (W x00 x00 x00 x00 x00 x00 x00 x00))))))
(T (W xff xff xff xff x03 x00 x00 x00)
(T (W xff xff xff xff xff xff xff xff)
(T (W x5a x19 xfc xff x74 x00 x00 x00)
(T (W xaa xe2 xff xff x43 x00 x00 x00)
(T (W x21 x00 x00 x00 x10 x00 x00 x00)
(L (W x3c x00 x00 x00 x00 x00 x80 xbf)) E)
(L (W x68 x00 x00 x00 x5c x00 x00 x00)))
(T (W x00 x00 x00 x00 x3a x1a xfd xff)
(L (W xff xff xff xff xff xff xff xff))
(L (W x49 xa1 x68 x4a xeb x5f xdd x3d))))
(T (W x00 x00 x80 x3f x00 x00 x80 x3f)
(T (W x00 x00 x00 x00 x00 x00 x00 x00)
(T (W xff xff xff xff xff xff xff xff)
(L (W xff xff xff xff xff xff xff xff)) E)
(L (W x6c x00 x00 x00 x60 x00 x00 x00)))
(T (W x13 x00 x00 x00 x0c x00 x00 x00)
(L (W xff xff xff xff xff xff xff xff))
(L (W x4c x45 x41 x52 x45 x44 x00 x00)))))
(T (W x68 x00 x00 x00 x5c x00 x00 x00)
(T (W x45 x26 x22 x84 xe4 x9c xf2 xcb)
(T (W xff xff xff xff xff xff xff xff)
(T (W x45 x26 x22 x84 xe4 x9c xf2 xcb)
(L (W xff xff xff xff xff xff xff xff)) E)
(L (W x4f x84 x6f x8b xe8 xcb x63 xb7)))
(T (W x45 x26 x22 x84 xe4 x9c xf2 xcb)
(L (W xff xff xff xff xff xff xff xff))
(L (W x00 x00 x00 x00 x6a x3d xff xff))))
(T (W x18 x00 x00 x00 x0c x00 x00 x00)
(T (W x18 x00 x00 x00 x10 x00 x00 x00)
(T (W x49 xa1 x68 x4a xeb x5f xdd x3d)
(L (W xff xff xff xff xff xff xff xff)) E)
(L (W xff xff xff xff xff xff xff xff)))
(T (W xff xff xff xff xff xff xff xff)
(L (W x90 x7c xfe xff xba xb7 xfe xff))
(L (W x54 x00 x00 x00 x48 x00 x00 x00)))))))
(T (W x6f x79 x61 x62 x75 x6e x00 x00)
(T (W xff xff xff xff xff xff xff xff)
(T (W x0a x00 x00 x00 x3e x00 x00 x00)
(T (W x68 x00 x00 x00 x5c x00 x00 x00)
(T (W x43 x00 x00 x00 xff xff xff xff)
(T (W x00 x00 x00 x00 x00 x00 x00 x00)
(L (W x00 x00 x80 xbf x00 x00 x80 xbf)) E)
(L (W x6c x00 x00 x00 x60 x00 x00 x00)))
(T (W xd2 x29 xfd xff x4b x00 x00 x00)
(L (W xff xff xff xff xff xff xff xff))
(L (W x00 x00 x00 x00 x00 x00 x00 x00))))
(T (W x45 x26 x22 x84 xe4 x9c xf2 xcb)
(T (W x45 x44 x00 x00 x00 x00 x00 x00)
(T (W xff xff xff xff xff xff xff xff)
(L (W xff xff xff xff xff xff xff xff)) E)
(L (W x00 x00 x80 xbf x00 x00 x80 xbf)))
(T (W x8a x60 xfd xff x9d x01 x00 x00)
(L (W xc4 x00 x00 x00 x02 x00 x00 x00))
(L (W xf2 x53 xff xff xea x00 x00 x00)))))
(T (W x45 x26 x22 x84 xe4 x9c xf2 xcb)
(T (W x00 x00 x80 x3f x00 x00 x80 x3f)
(T (W x25 x00 x00 x00 xff xff xff xff)
(T (W x64 x00 x00 x00 x9c x00 x00 x00)
(L (W xff xff xff xff xc4 x00 x00 x00)) E)
(L (W x00 x00 x00 x00 x00 x00 x00 x00)))
(T (W x00 x00 x80 x3f x00 x00 x80 x3f)
(L (W xff xff xff xff xff xff xff xff))
(L (W xa9 x0c xb9 x28 xbf xcc x67 x6a))))
(T (W x00 x00 x00 x00 x00 x00 x00 x00)
(T (W xff xff xff xff xb0 x00 x00 x00)
(T (W x68 x00 x00 x00 x00 x00 x62 x00)
(L (W xff xff xff xff xff xff xff xff)) E)
(L (W xff xff xff xff xff xff xff xff)))
(T (W xc0 x00 x00 x00 x01 x00 x00 x00)
(L (W x03 x00 x00 x00 xd8 x00 x00 x00))
(L (W x00 x00 x00 x00 x00 x00 x00 x00))))))
(T (W x45 x26 x22 x84 xe4 x9c xf2 xcb)
(T (W xb8 x00 x00 x00 xac x00 x00 x00)
(T (W x00 x00 x80 x3f x00 x00 x80 x3f)
(T (W x00 x00 x00 x00 x00 x00 x00 x00)
(T (W xff xff xff xff xff xff xff xff)
(L (W x00 x00 x80 xbf x00 x00 x80 xbf)) E)
(L (W x00 x00 x00 x00 x00 x00 x00 x00)))
(T (W x00 x00 x00 x00 x00 x00 x00 x00)
(L (W x45 x26 x22 x84 xe4 x9c xf2 xcb))
(L (W x00 x00 x00 x00 x00 x00 x00 x00))))
(T (W x00 x00 x00 x00 x00 x00 x00 x00)
(T (W x00 x00 x80 x3f x00 x00 x80 x3f)
(T (W x00 x00 x80 x3f x00 x00 x80 x3f)
(L (W x30 x33 x5f x43 x4c x45 x41 x52)) E)
(L (W xff xff xff xff xff xff xff xff)))
(T (W x00 x00 x80 x3f x00 x00 x80 x3f)
(L (W x03 x00 x00 x00 xd8 x00 x00 x00))
(L (W x00 x00 x00 x00 x00 x00 x00 x00)))))
(T (W x00 x00 x80 x3f x00 x00 x80 x3f)
(T (W x00 x00 x00 x00 x00 x00 x00 x00)
(T (W xb0 x00 x00 x00 x64 x00 x00 x00)
(T (W x50 x00 x00 x00 x44 x00 x00 x00)
(L (W xff xff xff xff xff xff xff xff)) E)
(L (W x00 x00 x00 x00 x00 x00 x00 x00)))
(T (W x18 x00 x00 x00 x10 x00 x00 x00)
(L (W xff xff xff xff xff xff xff xff))
(L (W xff xff xff xff xff xff xff xff))))
(T (W x5a x9f xfe xff x00 x00 x01 x01)
(T (W xff xff xff xff xff xff xff xff)
(L (W xff xff xff xff xff xff xff xff))
(L (W xff xff xff xff xff xff xff xff)))
(T (W xff xff xff xff xff xff xff xff)
(L (W x0a x83 xfe xff x78 x00 x00 x00))
(L (W x00 x00 x80 xbf x00 x00 x80 xbf))))))))))))
(T (W x38 xaa x03 x00 x64 xa3 x03 x00)
(T (W xd8 xf6 x02 x00 xb4 xed x02 x00)
(T (W xc8 x35 x02 x00 xfc x32 x02 x00)
(T (W xc0 xc5 x00 x00 x8c xc4 x00 x00)
(T (W xff xff xff xff xff xff xff xff)
(T (W x45 x26 x22 x84 xe4 x9c xf2 xcb)
(T (W x45 x26 x22 x84 xe4 x9c xf2 xcb)
(T (W x01 x00 x00 x00 x04 x00 x00 x00)
(T (W xff xff xff xff xff xff xff xff)
(T (W x45 x26 x22 x84 xe4 x9c xf2 xcb)
(T (W x00 x00 x00 x00 x00 x00 x00 x00)
(L (W xff xff xff xff xff xff xff xff)) E)
(L (W xff xff xff xff xff xff xff xff)))
(T (W x30 x33 x5f x43 x4c x45 x41 x52)
(L (W x00 x00 x00 x00 x1b x00 x00 x00))
(L (W x00 x00 x00 x00 x00 x00 x00 x00))))
(T (W x45 x26 x22 x84 xe4 x9c xf2 xcb)
(T (W xcc xda xfc xff x1a x00 x00 x00)
(T (W xff xff xff xff xff xff xff xff)
(L (W x45 x26 x22 x84 xe4 x9c xf2 xcb)) E)
(L (W xe4 xc6 xfe xff x00 x01 x01 x01)))
(T (W x8f xf5 xac x6d x96 xa7 x0e xd8)
(L (W x46 x53 x59 x53 x5f x4e x53 x5f))
(L (W x00 x00 x00 x00 x00 x00 x00 x00)))))
(T (W x74 xea xfb xff x1f x00 x00 x00)
(T (W xff xff xff xff xff xff xff xff)
(T (W x00 x00 x00 x00 x00 x00 x00 x00)
(T (W x00 x00 x00 x00 x00 x00 x00 x00)
(L (W xff xff xff xff xb0 x00 x00 x00)) E)
(L (W x6c x00 x00 x00 x60 x00 x00 x00)))
(T (W xe4 x26 xfd xff x00 x01 x01 x01)
(L (W x00 x00 x00 x00 x01 x00 x00 x00))
(L (W x00 x00 x80 xbf x00 x00 x80 xbf))))
(T (W x18 x00 x00 x00 x0c x00 x00 x00)
(T (W xff xff xff xff xff xff xff xff)
(T (W x00 x00 x00 x00 x1c x00 x20 x00)
(L (W xff xff xff xff xff xff xff xff)) E)
(L (W x00 x00 x00 x00 x00 x00 x00 x00)))
(T (W xbc x00 x00 x00 x14 x00 x00 x00)
(L (W x30 x33 x5f x43 x4c x45 x41 x52))
(L (W x45 x26 x22 x84 xe4 x9c xf2 xcb))))))
(T (W x00 x00 x00 x00 x00 x00 x00 x00)
(T (W x1a xf0 xfd xff x00 x00 x01 x01)
(T (W xff xff xff xff xff xff xff xff)
(T (W x45 x26 x22 x84 xe4 x9c xf2 xcb)
(T (W x00 x00 x80 x3f x00 x00 x80 x3f)
(L (W xc4 x00 x00 x00 x02 x00 x00 x00)) E)
(L (W xff xff xff xff xff xff xff xff)))
(T (W x00 x00 x80 x3f x00 x00 x80 x3f)
(L (W x00 x00 x00 x00 x00 x00 x00 x00))
(L (W xca x13 xff xff x78 x00 x00 x00))))
(T (W xe4 x56 xfc xff x00 x01 x01 x01)
(T (W x00 x00 x80 x3f x00 x00 x80 x3f)
(T (W x00 x00 x00 x00 x00 x00 x00 x00)
(L (W x00 x00 x00 x00 x00 x00 x00 x00)) E)
(L (W xff xff xff xff xff xff xff xff)))
(T (W x00 x00 x80 x3f x00 x00 x80 x3f)
(L (W x00 x00 x00 x00 x00 x00 x00 x00))
(L (W x49 xa1 x68 x4a xeb x5f xdd x3d)))))
(T (W x00 x00 x00 x00 x02 x00 x00 x00)
(T (W xff xff xff xff xff xff xff xff)
(T (W x45 x26 x22 x84 xe4 x9c xf2 xcb)
(T (W x23 x00 x00 x00 x10 x00 x00 x00)
(L (W x00 x00 x00 x00 x00 x00 x00 x00)) E)
(L (W x18 x00 x00 x00 x0c x00 x00 x00)))
(T (W xff xff xff xff xff xff xff xff)
(L (W x00 x00 x00 x00 x12 x00 x00 x00))
(L (W x00 x00 x80 xbf x00 x00 x80 xbf))))
(T (W x54 x00 x00 x00 x48 x00 x00 x00)
(T (W x00 x00 x00 x00 x00 x00 x00 x00)
(T (W x64 x00 x00 x00 x91 x00 x00 x00)
(L (W x00 x00 x00 x00 x00 x00 x00 x00)) E)
(L (W x00 x00 x00 x00 x00 x00 x00 x00)))
(T (W x00 x00 x00 x00 x00 x00 x00 x00)
(L (W x30 x33 x5f x43 x4c x45 x41 x52))
(L (W x45 x26 x22 x84 xe4 x9c xf2 xcb)))))))
(T (W x6f x79 x61 x62 x75 x6e x00 x00)
(T (W xc8 x01 x00 x00 xff xff xff xff)
(T (W xff xff xff xff xff xff xff xff)
(T (W xff xff xff xff xff xff xff xff)
(T (W x00 x00 x00 x00 x00 x00 x00 x00)
(T (W xe4 x8e xfd xff x00 x01 x01 x01)
(L (W xff xff xff xff xff xff xff xff)) E)
(L (W xff xff xff xff xff xff xff xff)))
(T (W x00 x00 x00 x00 x00 x00 x00 x00)
(L (W xff xff xff xff xff xff xff xff))
(L (W x00 x00 x80 xbf x00 x00 x80 xbf))))
(T (W x68 x00 x00 x00 x5c x00 x00 x00)
(T (W x00 x00 x00 x00 x00 x00 x00 x00)
(T (W x74 xd2 xfd xff x23 x00 x00 x00)
(L (W x4f x84 x6f x8b xe8 xcb x63 xb7)) E)
(L (W xff xff xff xff x9c x00 x00 x00)))
(T (W x12 x00 x00 x00 x46 x53 x59 x53)
(L (W x0d x00 x00 x00 x10 x00 x00 x00))
(L (W x45 x26 x22 x84 xe4 x9c xf2 xcb)))))
(T (W x00 x00 x00 x00 x00 x00 x00 x00)
(T (W xff xff xff xff xff xff xff xff)
(T (W x00 x00 x80 x3f x00 x00 x80 x3f)
(T (W x00 x00 x00 x00 x00 x00 x00 x00)
(L (W x00 x00 x00 x00 x00 x00 x00 x00)) E)
(L (W x18 x00 x00 x00 x10 x00 x00 x00)))
(T (W x45 x26 x22 x84 xe4 x9c xf2 xcb)
(L (W x00 x00 x80 xbf x00 x00 x80 xbf))
(L (W x50 x00 x00 x00 x44 x00 x00 x00))))
(T (W x00 x00 x80 x3f x00 x00 x80 x3f)
(T (W xff xff xff xff xff xff xff xff)
(T (W x00 x00 x00 x00 x00 x00 x00 x00)
(L (W x00 x00 x80 xbf x00 x00 x80 xbf)) E)
(L (W x30 x33 x5f x43 x4c x45 x41 x52)))
(T (W x9d x01 x00 x00 xff xff xff xff)
(L (W x00 x00 x00 x00 x00 x00 x00 x00))
(L (W x00 x00 x80 xbf x00 x00 x80 xbf))))))
(T (W x00 x00 x00 x00 x00 x00 x00 x00)
(T (W x00 x00 x00 x00 x00 x00 x00 x00)
(T (W xff xff xff xff xff xff xff xff)
(T (W x45 x26 x22 x84 xe4 x9c xf2 xcb)
(T (W x00 x00 x80 x3f x00 x00 x80 x3f)
(L (W xff xff xff xff xff xff xff xff)) E)
(L (W xff xff xff xff xff xff xff xff)))
(T (W x45 x26 x22 x84 xe4 x9c xf2 xcb)
(L (W x00 x00 x00 x00 x00 x00 x00 x00))
(L (W x18 x00 x00 x00 x10 x00 x00 x00))))
(T (W x45 x26 x22 x84 xe4 x9c xf2 xcb)
(T (W x45 x26 x22 x84 xe4 x9c xf2 xcb)
(T (W x00 x00 x00 x00 x00 x00 x00 x00)
(L (W x00 x00 x00 x00 x00 x00 x00 x00)) E)
(L (W xff xff xff xff xff xff xff xff)))
(T (W x00 x00 x80 x3f x00 x00 x80 x3f)
(L (W x00 x00 x00 x00 x00 x00 x00 x00))
(L (W x00 x00 x80 xbf x00 x00 x80 xbf)))))
(T (W xff xff xff xff xff xff xff xff)
(T (W xb8 x00 x00 x00 xac x00 x00 x00)
(T (W x00 x00 x00 x00 x00 x00 x00 x00)
(T (W xff xff xff xff xff xff xff xff)
(L (W x00 x00 x00 x00 x00 x00 x00 x00)) E)
(L (W x45 x26 x22 x84 xe4 x9c xf2 xcb)))
(T (W xff xff xff xff x02 x00 x00 x00)
(L (W x00 x00 x00 x00 x00 x00 x00 x00))
(L (W x45 x26 x22 x84 xe4 x9c xf2 xcb))))
(T (W x00 x00 x80 x3f x00 x00 x80 x3f)
(T (W xa4 x7e x62 x05 x1c x58 x8e x41)
(T (W xff xff xff xff xa0 x00 x00 x00)
(L (W x00 x00 x00 x00 x00 x00 x00 x00)) E)
(L (W x00 x00 x00 x00 x00 x00 x00 x00)))
(T (W x00 x00 x00 x00 x00 x00 x00 x00)
(L (W x1a x9a xfe xff xb9 x01 x00 x00))
(L (W xff xff xff xff xff xff xff xff))))))))
(T (W x00 x00 x00 x00 x00 x00 x00 x00)
(T (W x00 x00 x00 x00 x00 x00 x00 x00)
(T (W x00 x00 x00 x00 x00 x00 x00 x00)
(T (W x68 x00 x00 x00 x5c x00 x00 x00)
(T (W x00 x00 x80 x3f x00 x00 x80 x3f)
(T (W x49 x00 x00 x00 xff xff xff xff)
(T (W x00 x00 x00 x00 x00 x00 x00 x00)
(L (W x00 x00 x00 x00 x00 x00 x00 x00)) E)
(L (W x49 xa1 x68 x4a xeb x5f xdd x3d)))
(T (W x18 x00 x00 x00 x0c x00 x00 x00)
(L (W x46 x53 x59 x53 x5f x4e x53 x5f))
(L (W x1a x00 x00 x00 x1d x00 x00 x00))))
(T (W x00 x00 x00 x00 x00 x00 x00 x00)
(T (W x18 x00 x00 x00 x10 x00 x00 x00)
(T (W x00 x00 x80 x3f x00 x00 x80 x3f)
(L (W xb0 x00 x00 x00 x64 x00 x00 x00)) E)
(L (W x00 x00 x00 x00 x00 x00 x00 x00)))
(T (W x1a x46 xfd xff x74 x00 x00 x00)
(L (W x1c x00 x00 x00 x10 x00 x00 x00))
(L (W xff xff xff xff xb0 x00 x00 x00)))))
(T (W x00 x00 x80 x3f x00 x00 x80 x3f)
(T (W x00 x00 x00 x00 x00 x00 x00 x00)
(T (W xff xff xff xff xff xff xff xff)
(T (W x64 x00 x00 x00 x9c x00 x00 x00)
(L (W x00 x00 x00 x00 x00 x00 x00 x00)) E)
(L (W xff xff xff xff xff xff xff xff)))
(T (W xcc x3e xfd xff x10 x00 x00 x00)
(L (W x03 x00 x00 x00 xbc x00 x00 x00))
(L (W x00 x00 x00 x00 x06 x00 x00 x00))))
(T (W xd0 x00 x00 x00 xff xff xff xff)
(T (W x49 xa1 x68 x4a xeb x5f xdd x3d)
(T (W x00 x00 x80 xbf x00 x00 x80 xbf)
(L (W x30 x33 x5f x43 x4c x45 x41 x52)) E)
(L (W x50 x00 x00 x00 x44 x00 x00 x00)))
(T (W x00 x00 x00 x00 x00 x00 x00 x00)
(L (W x44 x00 x00 x00 x00 x00 x80 xbf))
(L (W x4c x03 x00 x00 x24 x02 x00 x00))))))
(T (W x68 x00 x00 x00 x5c x00 x00 x00)
(T (W x50 x00 x00 x00 x44 x00 x00 x00)
(T (W x45 x26 x22 x84 xe4 x9c xf2 xcb)
(T (W xff xff xff xff xff xff xff xff)
(T (W xff xff xff xff xff xff xff xff)
(L (W x45 x26 x22 x84 xe4 x9c xf2 xcb)) E)
(L (W x00 x00 x00 x00 x00 x00 x00 x00)))
(T (W xff xff xff xff xff xff xff xff)
(L (W xe4 x1a xfe xff x00 x01 x01 x01))
(L (W x5c x0e xb9 x28 xbf xcd x67 x6a))))
(T (W x00 x00 x00 x00 x00 x00 x00 x00)
(T (W x00 x00 x00 x00 x00 x00 x00 x00)
(T (W xff xff xff xff xff xff xff xff)
(L (W x28 x00 x00 x00 x2b x00 x00 x00)) E)
(L (W x45 x26 x22 x84 xe4 x9c xf2 xcb)))
(T (W xff xff xff xff xff xff xff xff)
(L (W xff xff xff xff xb0 x00 x00 x00))
(L (W x01 x00 x00 x00 xff xff xff xff)))))
(T (W x50 x00 x00 x00 x44 x00 x00 x00)
(T (W x45 x26 x22 x84 xe4 x9c xf2 xcb)
(T (W x1a xb6 xfc xff x74 x00 x00 x00)
(T (W xff xff xff xff xff xff xff xff)
(L (W x70 x00 x00 x00 x64 x00 x00 x00)) E)
(L (W x00 x00 x00 x00 x00 x00 x00 x00)))
(T (W x00 x00 x80 x3f x00 x00 x80 x3f)
(L (W xff xff xff xff xff xff xff xff))
(L (W xc4 x00 x00 x00 x02 x00 x00 x00))))
(T (W xff xff xff xff xff xff xff xff)
(T (W xca xf7 xfc xff x78 x00 x00 x00)
(T (W x00 x00 x80 x3f x00 x00 x80 x3f)
(L (W x00 x00 x00 x00 x00 x00 x00 x00)) E)
(L (W x45 x26 x22 x84 xe4 x9c xf2 xcb)))
(T (W x45 x26 x22 x84 xe4 x9c xf2 xcb)
(L (W x74 x00 x00 x00 x68 x00 x00 x00))
(L (W xff xff xff xff xff xff xff xff)))))))
(T (W x45 x26 x22 x84 xe4 x9c xf2 xcb)
(T (W x45 x26 x22 x84 xe4 x9c xf2 xcb)
(T (W xca xcf xfb xff x78 x00 x00 x00)
(T (W x00 x00 x80 x3f x00 x00 x80 x3f)
(T (W xff xff xff xff xff xff xff xff)
(T (W x00 x00 x00 x00 x02 x00 x00 x00)
(L (W x00 x00 x00 x00 x12 x00 x00 x00)) E)
(L (W x00 x00 x00 x00 x00 x00 x00 x00)))
(T (W xff xff xff xff xff xff xff xff)
(L (W x00 x00 x80 x3f x00 x00 x80 x3f))
(L (W x64 x01 x00 x00 xff xff xff xff))))
(T (W x00 x00 x00 x00 x00 x00 x00 x00)
(T (W xff xff xff xff xff xff xff xff)
(T (W x64 x00 x00 x00 x9c x00 x00 x00)
(L (W xff xff xff xff xb0 x00 x00 x00)) E)
(L (W x00 x00 x00 x00 x00 x00 x00 x00)))
(T (W x03 x00 x00 x00 xcc x00 x00 x00)
(L (W xff xff xff xff x9c x00 x00 x00))
(L (W xff xff xff xff xff xff xff xff)))))
(T (W x00 x00 x80 x3f x00 x00 x80 x3f)
(T (W x00 x00 x00 x00 x00 x00 x00 x00)
(T (W xff xff xff xff xff xff xff xff)
(T (W x18 x00 x00 x00 x0c x00 x00 x00)
(L (W x00 x00 x80 xbf x00 x00 x80 xbf)) E)
(L (W x00 x00 x00 x00 x00 x00 x00 x00)))
(T (W x00 x00 x00 x00 x00 x00 x00 x00)
(L (W x00 x00 x80 xbf x00 x00 x80 xbf))
(L (W x00 x00 x00 x00 xa2 x4c xff xff))))
(T (W xff xff xff xff xff xff xff xff)
(T (W x00 x00 x80 x3f x00 x00 x80 x3f)
(T (W xba xfc xff xff x01 x01 x01 x01)
(L (W xff xff xff xff xff xff xff xff)) E)
(L (W x03 x00 x00 x00 xd8 x00 x00 x00)))
(T (W x00 x00 x80 x3f x00 x00 x80 x3f)
(L (W x70 x00 x00 x00 x64 x00 x00 x00))
(L (W x90 x01 x00 x00 xff xff xff xff))))))
(T (W x00 x00 x80 x3f x00 x00 x80 x3f)
(T (W x50 x00 x00 x00 x44 x00 x00 x00)
(T (W x00 x00 x00 x00 x00 x00 x00 x00)
(T (W xff xff xff xff xff xff xff xff)
(T (W xff xff xff xff xff xff xff xff)
(L (W x4f x84 x6f x8b xe8 xcb x63 xb7)) E)
(L (W xff xff xff xff xff xff xff xff)))
(T (W xff xff xff xff xff xff xff xff)
(L (W x00 x00 x00 x00 x00 x00 x00 x00))
(L (W x00 x00 x00 x00 x00 x00 x00 x00))))
(T (W x11 xe9 x0b x2d x5b x75 x4a x21)
(T (W x00 x00 x00 x00 x00 x00 x00 x00)
(T (W x18 x00 x00 x00 x10 x00 x00 x00)
(L (W x6c x00 x00 x00 x60 x00 x00 x00)) E)
(L (W x00 x00 x80 xbf x00 x00 x80 xbf)))
(T (W x2c x01 x00 x00 x04 x00 x00 x00)
(L (W x00 x00 x80 xbf x00 x00 x80 xbf))
(L (W x00 x00 x00 x00 xfa x5e xff xff)))))
(T (W x68 x00 x00 x00 x5c x00 x00 x00)
(T (W x45 x26 x22 x84 xe4 x9c xf2 xcb)
(T (W x54 x00 x00 x00 x48 x00 x00 x00)
(T (W x45 x26 x22 x84 xe4 x9c xf2 xcb)
(L (W x00 x00 x00 x00 xe8 xc2 xff xff)) E)
(L (W x00 x00 x00 x00 x00 x00 x00 x00)))
(T (W x68 x00 x00 x00 x5c x00 x00 x00)
(L (W xa8 x00 x00 x00 x64 x00 x00 x00))
(L (W xff xff xff xff xff xff xff xff))))
(T (W xff xff xff xff xff xff xff xff)
(T (W x68 x00 x00 x00 x5c x00 x00 x00)
(T (W x45 x44 x00 x00 x00 x00 x00 x00)
(L (W xfc x00 x00 x00 x02 x00 x00 x00)) E)
(L (W xff xff xff xff xff xff xff xff)))
(T (W xff xff xff xff xff xff xff xff)
(L (W x38 x00 x00 x00 x00 x00 x80 xbf))
(L (W x00 x00 x00 x00 x00 x00 x00 x00)))))))))
(T (W x50 x00 x00 x00 x44 x00 x00 x00)
(T (W x00 x00 x00 x00 x00 x00 x00 x00)
(T (W x0a x00 x00 x00 x3e x00 x00 x00)
(T (W xff xff xff xff xff xff xff xff)
(T (W x45 x26 x22 x84 xe4 x9c xf2 xcb)
(T (W x00 x00 x00 x00 x00 x00 x00 x00)
(T (W x01 x00 x00 x00 xa0 x00 x00 x00)
(T (W x18 x00 x00 x00 x10 x00 x00 x00)
(L (W x1e x00 x00 x00 x10 x00 x00 x00)) E)
(L (W x00 x00 x00 x00 x00 x00 x00 x00)))
(T (W x00 x00 x80 x3f x00 x00 x80 x3f)
(L (W xff xff xff xff xd8 x00 x00 x00))
(L (W x00 x00 x80 xbf x00 x00 x80 xbf))))
(T (W x1a x62 xfe xff x00 x00 x01 x01)
(T (W x00 x00 x80 x3f x00 x00 x80 x3f)
(T (W x00 x00 x00 x00 x00 x00 x00 x00)
(L (W x50 xc7 xff xff x7a xca xff xff)) E)
(L (W x92 xdc xfe xff xaa x01 x00 x00)))
(T (W x00 x00 x80 x3f x00 x00 x80 x3f)
(L (W x00 x00 x80 xbf x00 x00 x80 xbf))
(L (W x00 x00 x00 x00 xe8 x48 xff xff)))))
(T (W x00 x00 x80 x3f x00 x00 x80 x3f)
(T (W x00 x00 x00 x00 x00 x00 x00 x00)
(T (W x45 x26 x22 x84 xe4 x9c xf2 xcb)
(T (W x00 x00 x80 x3f x00 x00 x80 x3f)
(L (W x6c x03 x00 x00 x3c x02 x00 x00)) E)
(L (W xcc x00 x00 x00 x01 x00 x00 x00)))
(T (W xff xff xff xff xff xff xff xff)
(L (W x00 x00 x80 xbf x00 x00 x80 xbf))
(L (W x03 x00 x00 x00 xcc x00 x00 x00))))
(T (W xff xff xff xff xff xff xff xff)
(T (W x46 x53 x59 x53 x5f x4e x53 x5f)
(T (W xb8 x00 x00 x00 xac x00 x00 x00)
(L (W xff xff xff xff xff xff xff xff)) E)
(L (W x45 x26 x22 x84 xe4 x9c xf2 xcb)))
(T (W xff xff xff xff xff xff xff xff)
(L (W x49 xa1 x68 x4a xeb x5f xdd x3d))
(L (W xc4 x00 x00 x00 x01 x00 x00 x00))))))
(T (W x00 x00 x80 x3f x00 x00 x80 x3f)
(T (W x00 x00 x00 x00 x00 x00 x00 x00)
(T (W x01 x00 x00 x00 x04 x00 x00 x00)
(T (W x00 x00 x80 x3f x00 x00 x80 x3f)
(T (W x45 x26 x22 x84 xe4 x9c xf2 xcb)
(L (W x74 x03 x00 x00 x4c x02 x00 x00)) E)
(L (W x30 x33 x5f x43 x4c x45 x41 x52)))
(T (W x6c x00 x00 x00 x60 x00 x00 x00)
(L (W x00 x00 x80 x3f x00 x00 x80 x3f))
(L (W xff xff xff xff xff xff xff xff))))
(T (W xff xff xff xff xff xff xff xff)
(T (W xb0 x00 x00 x00 x64 x00 x00 x00)
(T (W x00 x00 x80 x3f x00 x00 x80 x3f)
(L (W x50 x00 x00 x00 x44 x00 x00 x00)) E)
(L (W x00 x00 x00 x00 x00 x00 x00 x00)))
(T (W x68 x00 x00 x00 x5c x00 x00 x00)
(L (W x00 x00 x80 xbf x00 x00 x80 xbf))
(L (W x45 x26 x22 x84 xe4 x9c xf2 xcb)))))
(T (W x00 x00 x00 x00 x00 x00 x00 x00)
(T (W x91 x27 xd5 xd9 xca x53 x9b x35)
(T (W xff xff xff xff xff xff xff xff)
(T (W x00 x00 x00 x00 x00 x00 x00 x00)
(L (W x00 x00 x00 x00 x00 x00 x00 x00)) E)
(L (W xff xff xff xff xff xff xff xff)))
(T (W x13 x00 x00 x00 x0c x00 x00 x00)
(L (W x00 x00 x80 xbf x00 x00 x80 xbf))
(L (W x6c x00 x00 x00 x60 x00 x00 x00))))
(T (W xff xff xff xff xff xff xff xff)
(T (W x00 x00 x00 x00 x00 x00 x00 x00)
(T (W x1a xf4 xfd xff x74 x00 x00 x00)
(L (W x00 x00 x80 xbf x00 x00 x80 xbf)) E)
(L (W x00 x00 x80 xbf x00 x00 x80 xbf)))
(T (W x00 x00 x80 x3f x00 x00 x80 x3f)
(L (W x49 xa1 x68 x4a xeb x5f xdd x3d))
(L (W xc4 x00 x00 x00 x01 x00 x00 x00)))))))
(T (W xff xff xff xff xff xff xff xff)
(T (W x1a x00 x00 x00 x67 x72 x6f x75)
(T (W x00 x00 x00 x00 x00 x00 x00 x00)
(T (W xcc x24 xfc xff x1d x00 x00 x00)
(T (W x1a x8c xfc xff x74 x00 x00 x00)
(T (W xff xff xff xff xff xff xff xff)
(L (W x6d x01 x00 x00 xff xff xff xff)) E)
(L (W x00 x00 x00 x00 x00 x00 x00 x00)))
(T (W x00 x00 x80 x3f x00 x00 x80 x3f)
(L (W x00 x00 x00 x00 x00 x00 x00 x00))
(L (W xff xff xff xff xb0 x00 x00 x00))))
(T (W xff xff xff xff xff xff xff xff)
(T (W xca xcd xfc xff x78 x00 x00 x00)
(T (W x00 x00 x00 x00 x00 x00 x00 x00)
(L (W x00 x00 x80 xbf x00 x00 x80 xbf)) E)
(L (W x45 x44 x00 x00 x00 x00 x00 x00)))
(T (W x50 x00 x00 x00 x44 x00 x00 x00)
(L (W x00 x00 x80 xbf x00 x00 x80 xbf))
(L (W x00 x00 x80 xbf x00 x00 x80 xbf)))))
(T (W x00 x00 x80 x3f x00 x00 x80 x3f)
(T (W x00 x00 x00 x00 x00 x00 x00 x00)
(T (W x01 x00 x00 x00 x3e x00 x00 x00)
(T (W x00 x00 x80 x3f x00 x00 x80 x3f)
(L (W x4f x84 x6f x8b xe8 xcb x63 xb7)) E)
(L (W xff xff xff xff xff xff xff xff)))
(T (W x4a x3b xfd xff x9d x01 x00 x00)
(L (W xff xff xff xff xff xff xff xff))
(L (W xff xff xff xff x9c x00 x00 x00))))
(T (W xff xff xff xff xff xff xff xff)
(T (W x00 x00 x00 x00 x00 x00 x00 x00)
(T (W x69 x6b x65 x5f x6c x76 x32 x5f)
(L (W x00 x00 x00 x00 x54 xef xff xff)) E)
(L (W x49 xa1 x68 x4a xeb x5f xdd x3d)))
(T (W x00 x00 x00 x00 x00 x00 x00 x00)
(L (W x00 x00 x80 xbf x00 x00 x80 xbf))
(L (W x18 x00 x00 x00 x10 x00 x00 x00))))))
(T (W x00 x00 x80 x3f x00 x00 x80 x3f)
(T (W x45 x26 x22 x84 xe4 x9c xf2 xcb)
(T (W xff xff xff xff xff xff xff xff)
(T (W x00 x00 x80 x3f x00 x00 x80 x3f)
(T (W x18 x00 x00 x00 x0c x00 x00 x00)
(L (W xff xff xff xff xff xff xff xff)) E)
(L (W x78 x00 x04 x00 x70 x00 x00 x00)))
(T (W x45 x26 x22 x84 xe4 x9c xf2 xcb)
(L (W xf4 xec xff xff x01 x01 x01 x01))
(L (W xff xff xff xff xff xff xff xff))))
(T (W xb8 x00 x00 x00 xac x00 x00 x00)
(T (W xff xff xff xff xff xff xff xff)
(T (W x00 x00 x80 x3f x00 x00 x80 x3f)
(L (W x00 x00 x80 xbf x00 x00 x80 xbf)) E)
(L (W x00 x00 x00 x00 x00 x00 x00 x00)))
(T (W xc0 x00 x00 x00 x01 x00 x00 x00)
(L (W x45 x26 x22 x84 xe4 x9c xf2 xcb))
(L (W xff xff xff xff xff xff xff xff)))))
(T (W x00 x00 x00 x00 x00 x00 x00 x00)
(T (W xb0 x00 x00 x00 xff xff xff xff)
(T (W x3c x00 x40 x00 x44 x00 x48 x00)
(T (W x00 x00 x00 x00 x00 x00 x00 x00)
(L (W x00 x00 x80 xbf x00 x00 x80 xbf)) E)
(L (W xff xff xff xff xff xff xff xff)))
(T (W x00 x00 x00 x00 x00 x00 x00 x00)
(L (W x00 x00 x80 xbf x00 x00 x80 xbf))
(L (W x1a x3c xff xff x74 x00 x00 x00))))
(T (W x18 x00 x00 x00 x10 x00 x00 x00)
(T (W x00 x00 x80 x3f x00 x00 x80 x3f)
(T (W xff xff xff xff xff xff xff xff)
(L (W x28 x00 x2c x00 x30 x00 x34 x00)) E)
(L (W x00 x00 x80 xbf x00 x00 x80 xbf)))
(T (W x00 x00 x80 x3f x00 x00 x80 x3f)
(L (W x00 x00 x00 x00 x00 x00 x00 x00))
(L (W x00 x00 x00 x00 x0a x93 xff xff))))))))
(T (W x14 x05 x00 x00 xac x03 x00 x00)
(T (W x00 x00 x80 x3f x00 x00 x80 x3f)
(T (W x18 x00 x00 x00 x0c x00 x00 x00)
(T (W xff xff xff xff xff xff xff xff)
(T (W x40 x00 x00 x00 x9c x00 x00 x00)
(T (W x00 x00 x00 x00 x00 x00 x00 x00)
(T (W x00 x00 x80 x3f x00 x00 x80 x3f)
(L (W x00 x00 x80 xbf x00 x00 x80 xbf)) E)
(L (W x45 x26 x22 x84 xe4 x9c xf2 xcb)))
(T (W x92 x20 xfd xff x4b x00 x00 x00)
(L (W x54 x00 x00 x00 x48 x00 x00 x00))
(L (W x00 x00 x00 x00 x00 x00 x00 x00))))
(T (W x00 x00 x80 x3f x00 x00 x80 x3f)
(T (W xe0 x00 x00 x00 xff xff xff xff)
(T (W xff xff xff xff xff xff xff xff)
(L (W x46 x53 x59 x53 x5f x4e x53 x5f)) E)
(L (W x00 x00 x80 xbf x00 x00 x80 xbf)))
(T (W xff xff xff xff xff xff xff xff)
(L (W xff xff xff xff xff xff xff xff))
(L (W x34 x01 x00 x00 x04 x00 x00 x00)))))
(T (W xff xff xff xff xff xff xff xff)
(T (W x68 x00 x00 x00 x5c x00 x00 x00)
(T (W xcc xc0 xfc xff x1e x00 x00 x00)
(T (W xff xff xff xff xff xff xff xff)
(L (W x00 x00 x80 xbf x00 x00 x80 xbf)) E)
(L (W x00 x00 x00 x00 x00 x00 x00 x00)))
(T (W x00 x00 x80 x3f x00 x00 x80 x3f)
(L (W x74 x30 xfe xff x23 x00 x00 x00))
(L (W x45 x26 x22 x84 xe4 x9c xf2 xcb))))
(T (W x00 x00 x00 x00 x00 x00 x00 x00)
(T (W xff xff xff xff xb0 x00 x00 x00)
(T (W xff xff xff xff xff xff xff xff)
(L (W xff xff xff xff xff xff xff xff)) E)
(L (W xff xff xff xff xff xff xff xff)))
(T (W x18 x00 x00 x00 x0c x00 x00 x00)
(L (W xff xff xff xff xff xff xff xff))
(L (W x00 x00 x00 x00 x00 x00 x00 x00))))))
(T (W xff xff xff xff xff xff xff xff)
(T (W xff xff xff xff xff xff xff xff)
(T (W x68 x00 x00 x00 x5c x00 x00 x00)
(T (W x1b x00 x00 x00 x10 x00 x00 x00)
(T (W x00 x00 x00 x00 x00 x00 x00 x00)
(L (W x00 x00 x80 xbf x00 x00 x80 xbf)) E)
(L (W x45 x26 x22 x84 xe4 x9c xf2 xcb)))
(T (W x00 x00 x00 x00 x00 x00 x00 x00)
(L (W xff xff xff xff xff xff xff xff))
(L (W x00 x00 x80 xbf x00 x00 x80 xbf))))
(T (W x45 x26 x22 x84 xe4 x9c xf2 xcb)
(T (W x49 xa1 x68 x4a xeb x5f xdd x3d)
(T (W xab xce x36 x97 x85 x2b x63 x5f)
(L (W xff xff xff xff xff xff xff xff)) E)
(L (W x1a xd8 xfe xff x74 x00 x00 x00)))
(T (W x5f x4e x53 x5f x30 x33 x5f x43)
(L (W xff xff xff xff xff xff xff xff))
(L (W x00 x00 x00 x00 x00 x00 x00 x00)))))
(T (W x00 x00 x00 x00 x54 xfb xfb xff)
(T (W x00 x00 x80 x3f x00 x00 x80 x3f)
(T (W x00 x00 x00 x00 x00 x00 x00 x00)
(T (W x00 x00 x00 x00 x00 x00 x00 x00)
(L (W x00 x00 x00 x00 x0a xcf xff xff)) E)
(L (W x45 x26 x22 x84 xe4 x9c xf2 xcb)))
(T (W x00 x00 x00 x00 x54 x3b xfd xff)
(L (W xff xff xff xff xff xff xff xff))
(L (W xd8 x06 x00 x00 xc0 x05 x00 x00))))
(T (W x00 x00 x00 x00 x00 x00 x00 x00)
(T (W xff xff xff xff xff xff xff xff)
(T (W x00 x00 x00 x00 x1c x00 x00 x00)
(L (W xff xff xff xff xff xff xff xff)) E)
(L (W x00 x00 x00 x00 x00 x00 x00 x00)))
(T (W x02 x00 x00 x00 xff xff xff xff)
(L (W xc4 x00 x00 x00 x02 x00 x00 x00))
(L (W x00 x00 x00 x00 x00 x00 x00 x00)))))))
(T (W xff xff xff xff xff xff xff xff)
(T (W xff xff xff xff xff xff xff xff)
(T (W xff xff xff xff xff xff xff xff)
(T (W x01 x00 x00 x00 x29 x00 x00 x00)
(T (W x00 x00 x00 x00 x00 x00 x00 x00)
(T (W x00 x00 x00 x00 x00 x00 x00 x00)
(L (W x54 x00 x00 x00 x48 x00 x00 x00)) E)
(L (W xff xff xff xff x9c x00 x00 x00)))
(T (W x00 x00 x00 x00 xfa x10 xfd xff)
(L (W x45 x26 x22 x84 xe4 x9c xf2 xcb))
(L (W x00 x00 x80 xbf x00 x00 x80 xbf))))
(T (W x00 x00 x80 x3f x00 x00 x80 x3f)
(T (W x00 x00 x00 x00 x00 x00 x00 x00)
(T (W xff xff xff xff xff xff xff xff)
(L (W xff xff xff xff xff xff xff xff)) E)
(L (W x00 x00 x80 xbf x00 x00 x80 xbf)))
(T (W x04 x00 x00 x00 x7c x03 x00 x00)
(L (W xff xff xff xff xff xff xff xff))
(L (W x00 x00 x00 x00 x00 x00 x00 x00)))))
(T (W x64 x00 x00 x00 x9c x00 x00 x00)
(T (W x00 x00 x80 x3f x00 x00 x80 x3f)
(T (W x01 x00 x00 x00 x04 x00 x00 x00)
(T (W xff xff xff xff xff xff xff xff)
(L (W xff xff xff xff xff xff xff xff)) E)
(L (W x00 x00 x00 x00 x00 x00 x00 x00)))
(T (W x1a x30 xfd xff x74 x00 x00 x00)
(L (W xff xff xff xff xff xff xff xff))
(L (W x30 x33 x5f x43 x4c x45 x41 x52))))
(T (W x00 x00 x00 x00 x00 x00 x00 x00)
(T (W x18 x00 x00 x00 x10 x00 x00 x00)
(T (W x60 x01 x00 x00 x97 x00 x00 x00)
(L (W x45 x26 x22 x84 xe4 x9c xf2 xcb)) E)
(L (W xff xff xff xff xff xff xff xff)))
(T (W xff xff xff xff xff xff xff xff)
(L (W xa8 x00 x00 x00 x64 x00 x00 x00))
(L (W x00 x00 x00 x00 x00 x00 x00 x00))))))
(T (W xff xff xff xff xff xff xff xff)
(T (W xff xff xff xff xff xff xff xff)
(T (W xe4 x24 xfc xff x00 x01 x01 x01)
(T (W x00 x00 x00 x00 x00 x00 x00 x00)
(T (W x21 x00 x00 x00 x10 x00 x00 x00)
(L (W x00 x00 x80 xbf x00 x00 x80 xbf)) E)
(L (W x00 x00 x80 xbf x00 x00 x80 xbf)))
(T (W x00 x00 x00 x00 x00 x00 x00 x00)
(L (W x18 x00 x00 x00 x0c x00 x00 x00))
(L (W x00 x00 x00 x00 x00 x00 x00 x00))))
(T (W x00 x00 x80 x3f x00 x00 x80 x3f)
(T (W x00 x00 x80 x3f x00 x00 x80 x3f)
(T (W x45 x26 x22 x84 xe4 x9c xf2 xcb)
(L (W x00 x00 x00 x00 x18 x00 x1c x00)) E)
(L (W xff xff xff xff xff xff xff xff)))
(T (W x00 x00 x00 x00 x00 x00 x00 x00)
(L (W xff xff xff xff xff xff xff xff))
(L (W x4f x84 x6f x8b xe8 xcb x63 xb7)))))
(T (W x18 x00 x00 x00 x0c x00 x00 x00)
(T (W x00 x00 x80 x3f x00 x00 x80 x3f)
(T (W xff xff xff xff xff xff xff xff)
(T (W x68 x00 x00 x00 x5c x00 x00 x00)
(L (W x03 x00 x00 x00 x00 x01 x00 x00)) E)
(L (W x00 x00 x80 xbf x00 x00 x80 xbf)))
(T (W xff xff xff xff xff xff xff xff)
(L (W xff xff xff xff xff xff xff xff))
(L (W x2e x00 x00 x00 xff xff xff xff))))
(T (W x00 x00 x00 x00 x00 x00 x00 x00)
(T (W xff xff xff xff xff xff xff xff)
(T (W x45 x26 x22 x84 xe4 x9c xf2 xcb)
(L (W x28 x00 x2c x00 x30 x00 x34 x00)) E)
(L (W x00 x00 x00 x00 x00 x00 x00 x00)))
(T (W x27 x00 x00 x00 x10 x00 x00 x00)
(L (W x45 x26 x22 x84 xe4 x9c xf2 xcb))
(L (W x00 x00 x80 xbf x00 x00 x80 xbf))))))))))
(T (W x78 x5b x01 x00 x1c x59 x01 x00)
(T (W x08 x33 x00 x00 xbc x30 x00 x00)
(T (W x00 x00 x01 x01 x86 x03 x00 x00)
(T (W x00 x00 x80 x3f x00 x00 x80 x3f)
(T (W x64 x00 x00 x00 x9c x00 x00 x00)
(T (W x00 x00 x00 x00 x00 x00 x00 x00)
(T (W x01 x00 x00 x00 x04 x00 x00 x00)
(T (W x00 x00 x80 x3f x00 x00 x80 x3f)
(T (W x45 x26 x22 x84 xe4 x9c xf2 xcb)
(L (W xff xff xff xff xff xff xff xff)) E)
(L (W x20 x00 x00 x00 x10 x00 x00 x00)))
(T (W x00 x00 x00 x00 x00 x00 x00 x00)
(L (W x00 x00 x80 x3f x00 x00 x80 x3f))
(L (W x00 x00 x80 xbf x00 x00 x80 xbf))))
(T (W xff xff xff xff xff xff xff xff)
(T (W x00 x00 x00 x00 x00 x00 x00 x00)
(T (W xbe x00 x00 x00 xff xff xff xff)
(L (W x54 x00 x00 x00 x48 x00 x00 x00)) E)
(L (W xb8 x00 x00 x00 x64 x00 x00 x00)))
(T (W x00 x00 x00 x00 x00 x00 x00 x00)
(L (W x00 x00 x00 x00 x00 x00 x00 x00))
(L (W x00 x00 x80 xbf x00 x00 x80 xbf)))))
(T (W x45 x26 x22 x84 xe4 x9c xf2 xcb)
(T (W xff xff xff xff xff xff xff xff)
(T (W x00 x00 x00 x00 x00 x00 x00 x00)
(T (W x00 x00 x80 x3f x00 x00 x80 x3f)
(L (W xff xff xff xff xff xff xff xff)) E)
(L (W x18 x00 x00 x00 x10 x00 x00 x00)))
(T (W xbc x00 x00 x00 x14 x00 x00 x00)
(L (W x00 x00 x00 x00 x00 x00 x00 x00))
(L (W x70 x00 x00 x00 x64 x00 x00 x00))))
(T (W x0a x00 x00 x00 x3e x00 x00 x00)
(T (W x92 xfb xfc xff x4b x00 x00 x00)
(T (W x00 x00 x80 x3f x00 x00 x80 x3f)
(L (W xff xff xff xff xff xff xff xff)) E)
(L (W x00 x00 x00 x00 x00 x00 x00 x00)))
(T (W xff xff xff xff xff xff xff xff)
(L (W x00 x00 x00 x00 x00 x00 x00 x00))
(L (W xa0 x00 x00 x00 x64 x00 x00 x00))))))
(T (W x45 x26 x22 x84 xe4 x9c xf2 xcb)
(T (W x00 x00 x00 x00 x00 x00 x00 x00)
(T (W xff xff xff xff xff xff xff xff)
(T (W x45 x26 x22 x84 xe4 x9c xf2 xcb)
(T (W xe4 x97 xfd xff x00 x01 x01 x01)
(L (W xff xff xff xff xff xff xff xff)) E)
(L (W xff xff xff xff xff xff xff xff)))
(T (W x00 x00 x80 x3f x00 x00 x80 x3f)
(L (W x45 x26 x22 x84 xe4 x9c xf2 xcb))
(L (W x20 x00 x00 x00 x23 x00 x00 x00))))
(T (W x45 x26 x22 x84 xe4 x9c xf2 xcb)
(T (W xe4 xd7 xfc xff x00 x01 x01 x01)
(T (W x00 x00 x00 x00 x00 x00 x00 x00)
(L (W x00 x00 x80 xbf x00 x00 x80 xbf)) E)
(L (W x00 x00 x00 x00 x00 x00 x00 x00)))
(T (W x00 x00 x80 x3f x00 x00 x80 x3f)
(L (W x00 x00 x00 x00 x00 x00 x00 x00))
(L (W x00 x00 x80 xbf x00 x00 x80 xbf)))))
(T (W x00 x00 x00 x00 x00 x00 x00 x00)
(T (W xff xff xff xff xff xff xff xff)
(T (W x00 x00 x80 x3f x00 x00 x80 x3f)
(T (W x00 x00 x00 x00 x00 x00 x00 x00)
(L (W x00 x00 x00 x00 x12 x00 x00 x00)) E)
(L (W xff xff xff xff xff xff xff xff)))
(T (W xff xff xff xff xff xff xff xff)
(L (W x00 x00 x00 x00 x00 x00 x00 x00))
(L (W x50 x00 x00 x00 x44 x00 x00 x00))))
(T (W x1a x73 xfc xff x74 x00 x00 x00)
(T (W x00 x00 x00 x00 x00 x00 x00 x00)
(T (W x68 x00 x00 x00 x00 x00 x62 x00)
(L (W x4f x84 x6f x8b xe8 xcb x63 xb7)) E)
(L (W x00 x00 x00 x00 x00 x00 x00 x00)))
(T (W x00 x00 x00 x00 x00 x00 x00 x00)
(L (W x00 x00 x00 x00 x00 x00 x00 x00))
(L (W xa0 x00 x00 x00 x64 x00 x00 x00)))))))
(T (W x00 x00 x80 x3f x00 x00 x80 x3f)
(T (W x00 x00 x00 x00 x00 x00 x00 x00)
(T (W xcc xe3 xfb xff x3e x00 x00 x00)
(T (W xff xff xff xff xff xff xff xff)
(T (W x00 x00 x80 x3f x00 x00 x80 x3f)
(T (W x45 x26 x22 x84 xe4 x9c xf2 xcb)
(L (W xff xff xff xff xff xff xff xff)) E)
(L (W x00 x00 x00 x00 xfa x8b xfe xff)))
(T (W x49 xa1 x68 x4a xeb x5f xdd x3d)
(L (W x00 x00 x00 x00 x00 x00 x00 x00))
(L (W x00 x00 x80 xbf x00 x00 x80 xbf))))
(T (W xb8 x00 x00 x00 xac x00 x00 x00)
(T (W x00 x00 x80 x3f x00 x00 x80 x3f)
(T (W x00 x00 x00 x00 x00 x00 x00 x00)
(L (W x00 x00 x80 xbf x00 x00 x80 xbf)) E)
(L (W xff xff xff xff xff xff xff xff)))
(T (W x00 x00 x00 x00 x00 x00 x00 x00)
(L (W x49 xa1 x68 x4a xeb x5f xdd x3d))
(L (W x00 x00 x80 xbf x00 x00 x80 xbf)))))
(T (W x00 x00 x00 x00 x00 x00 x00 x00)
(T (W x20 x01 x00 x00 x04 x00 x00 x00)
(T (W x00 x00 x80 x3f x00 x00 x80 x3f)
(T (W x00 x00 x00 x00 x00 x00 x00 x00)
(L (W x00 x00 x00 x00 x00 x00 x00 x00)) E)
(L (W xc4 x00 x00 x00 x02 x00 x00 x00)))
(T (W xff xff xff xff xff xff xff xff)
(L (W xf4 xfb xff xff x01 x01 x01 x01))
(L (W xca x2c xff xff x78 x00 x00 x00))))
(T (W xc0 x00 x00 x00 xb4 x00 x00 x00)
(T (W x00 x00 x00 x00 xfa xeb xfc xff)
(T (W xff xff xff xff xff xff xff xff)
(L (W x00 x00 x80 xbf x00 x00 x80 xbf)) E)
(L (W x00 x00 x00 x00 x00 x00 x00 x00)))
(T (W x5f x4e x53 x5f x30 x33 x5f x43)
(L (W x00 x00 x00 x00 x00 x00 x00 x00))
(L (W x6c x00 x00 x00 x60 x00 x00 x00))))))
(T (W x45 x26 x22 x84 xe4 x9c xf2 xcb)
(T (W x00 x00 x00 x00 x00 x00 x00 x00)
(T (W xff xff xff xff xff xff xff xff)
(T (W x00 x00 x80 x3f x00 x00 x80 x3f)
(T (W x00 x00 x80 x3f x00 x00 x80 x3f)
(L (W xff xff xff xff xff xff xff xff)) E)
(L (W xff xff xff xff xff xff xff xff)))
(T (W x54 x00 x00 x00 x48 x00 x00 x00)
(L (W x00 x00 x80 xbf x00 x00 x80 xbf))
(L (W xcc x00 x00 x00 x01 x00 x00 x00))))
(T (W x01 x00 x00 x00 x9c x00 x00 x00)
(T (W xff xff xff xff xbc x00 x00 x00)
(T (W x00 x00 x80 x3f x00 x00 x80 x3f)
(L (W x00 x00 x00 x00 x00 x00 x00 x00)) E)
(L (W x84 x37 x51 x1d xca x26 x96 xfd)))
(T (W x45 x26 x22 x84 xe4 x9c xf2 xcb)
(L (W x00 x00 x00 x00 x00 x00 x00 x00))
(L (W xff xff xff xff xb0 x00 x00 x00)))))
(T (W x74 x03 xfc xff x21 x00 x00 x00)
(T (W xff xff xff xff xff xff xff xff)
(T (W x14 x00 x00 x00 x0c x00 x00 x00)
(T (W xaa xd7 xff xff xe0 x00 x00 x00)
(L (W x00 x00 x80 xbf x00 x00 x80 xbf)) E)
(L (W xff xff xff xff xb0 x00 x00 x00)))
(T (W x00 x00 x00 x00 x00 x00 x00 x00)
(L (W x4f x84 x6f x8b xe8 xcb x63 xb7))
(L (W x00 x00 x80 xbf x00 x00 x80 xbf))))
(T (W xe4 x7f xfc xff x00 x01 x01 x01)
(T (W x00 x00 x00 x00 x00 x00 x00 x00)
(T (W xff xff xff xff xff xff xff xff)
(L (W xff xff xff xff xc0 x00 x00 x00)) E)
(L (W x45 x26 x22 x84 xe4 x9c xf2 xcb)))
(T (W x49 xa1 x68 x4a xeb x5f xdd x3d)
(L (W x30 x33 x5f x43 x4c x45 x41 x52))
(L (W xff xff xff xff xff xff xff xff))))))))
(T (W x68 x00 x00 x00 x5c x00 x00 x00)
(T (W x00 x00 x00 x00 x00 x00 x00 x00)
(T (W x00 x00 x00 x00 x00 x00 x00 x00)
(T (W xff xff xff xff xff xff xff xff)
(T (W x45 x26 x22 x84 xe4 x9c xf2 xcb)
(T (W x00 x00 x00 x00 x00 x00 x00 x00)
(T (W x00 x00 x00 x00 x00 x00 x00 x00)
(L (W x49 xa1 x68 x4a xeb x5f xdd x3d)) E)
(L (W x00 x00 x80 xbf x00 x00 x80 xbf)))
(T (W xff xff xff xff xff xff xff xff)
(L (W x00 x00 x00 x00 x00 x00 x00 x00))
(L (W xff xff xff xff xff xff xff xff))))
(T (W x00 x00 x80 x3f x00 x00 x80 x3f)
(T (W xff xff xff xff xff xff xff xff)
(T (W x50 x00 x00 x00 x44 x00 x00 x00)
(L (W x2c x01 x00 x00 x04 x00 x00 x00)) E)
(L (W x49 xa1 x68 x4a xeb x5f xdd x3d)))
(T (W xff xff xff xff xff xff xff xff)
(L (W xff xff xff xff xac x00 x00 x00))
(L (W xff xff xff xff xff xff xff xff)))))
(T (W xe4 xeb xfb xff x00 x01 x01 x01)
(T (W x00 x00 x80 x3f x00 x00 x80 x3f)
(T (W xff xff xff xff xff xff xff xff)
(T (W xff xff xff xff xff xff xff xff)
(L (W x00 x00 x80 xbf x00 x00 x80 xbf)) E)
(L (W x45 x44 x00 x00 x00 x00 x00 x00)))
(T (W x4f x84 x6f x8b xe8 xcb x63 xb7)
(L (W xff xff xff xff xff xff xff xff))
(L (W x00 x00 x00 x00 x00 x00 x00 x00))))
(T (W x00 x00 x00 x00 x00 x00 x00 x00)
(T (W x00 x00 x80 x3f x00 x00 x80 x3f)
(T (W xff xff xff xff xff xff xff xff)
(L (W x00 x00 x00 x00 x00 x00 x00 x00)) E)
(L (W xff xff xff xff xff xff xff xff)))
(T (W x00 x00 x80 x3f x00 x00 x80 x3f)
(L (W x50 x6a xfe xff x7a xa5 xfe xff))
(L (W x46 x53 x59 x53 x5f x4e x53 x5f))))))
(T (W xb8 x00 x00 x00 xac x00 x00 x00)
(T (W xb8 x00 x00 x00 xac x00 x00 x00)
(T (W x00 x00 x80 x3f x00 x00 x80 x3f)
(T (W xff xff xff xff xff xff xff xff)
(T (W xc2 x65 x2e x97 x85 x1f x59 x5f)
(L (W x00 x00 x80 xbf x00 x00 x80 xbf)) E)
(L (W x00 x00 x80 xbf x00 x00 x80 xbf)))
(T (W x00 x00 x00 x00 x00 x00 x00 x00)
(L (W xb0 x00 x00 x00 x64 x00 x00 x00))
(L (W x00 x00 x80 xbf x00 x00 x80 xbf))))
(T (W x00 x00 x00 x00 x00 x00 x00 x00)
(T (W x00 x00 x00 x00 x00 x00 x00 x00)
(T (W xff xff xff xff xff xff xff xff)
(L (W xff xff xff xff xff xff xff xff)) E)
(L (W x00 x00 x80 xbf x00 x00 x80 xbf)))
(T (W x00 x00 x00 x00 x72 x62 xfd xff)
(L (W xff xff xff xff xff xff xff xff))
(L (W x4c x45 x41 x52 x45 x44 x00 x00)))))
(T (W x1a xf7 xfb xff x74 x00 x00 x00)
(T (W x00 x00 x80 x3f x00 x00 x80 x3f)
(T (W xff xff xff xff xff xff xff xff)
(T (W x74 xbf xfd xff x21 x00 x00 x00)
(L (W xff xff xff xff xff xff xff xff)) E)
(L (W x00 x00 x00 x00 x12 x00 x00 x00)))
(T (W x00 x00 x80 x3f x00 x00 x80 x3f)
(L (W xff xff xff xff xff xff xff xff))
(L (W xff xff xff xff xff xff xff xff))))
(T (W xaa x93 xfe xff x4b x00 x00 x00)
(T (W x1f x00 x00 x00 x22 x00 x00 x00)
(T (W x7f x00 x00 x00 x7f x00 x00 x00)
(L (W x54 x00 x00 x00 x48 x00 x00 x00)) E)
(L (W xff xff xff xff xff xff xff xff)))
(T (W xff xff xff xff xbc x00 x00 x00)
(L (W xff xff xff xff x94 x00 x00 x00))
(L (W x00 x00 x00 x00 xfa x77 xff xff)))))))
(T (W x18 x00 x00 x00 x10 x00 x00 x00)
(T (W xff xff xff xff xff xff xff xff)
(T (W x45 x26 x22 x84 xe4 x9c xf2 xcb)
(T (W x00 x00 x80 x3f x00 x00 x80 x3f)
(T (W x48 x03 x00 x00 x34 x02 x00 x00)
(T (W x00 x00 x00 x00 x00 x00 x00 x00)
(L (W x00 x00 x00 x00 x00 x00 x00 x00)) E)
(L (W x6c x00 x00 x00 x60 x00 x00 x00)))
(T (W xff xff xff xff xff xff xff xff)
(L (W x00 x00 x80 x3f x00 x00 x80 x3f))
(L (W x00 x00 x00 x00 x00 x00 x00 x00))))
(T (W x00 x00 x00 x00 x00 x00 x00 x00)
(T (W x00 x00 x00 x00 xfa xcf xfc xff)
(T (W xff xff xff xff xff xff xff xff)
(L (W xff xff xff xff xff xff xff xff)) E)
(L (W x00 x00 x80 xbf x00 x00 x80 xbf)))
(T (W xff xff xff xff xff xff xff xff)
(L (W x03 x00 x00 x00 xd8 x00 x00 x00))
(L (W xff xff xff xff xff xff xff xff)))))
(T (W x50 x00 x00 x00 x44 x00 x00 x00)
(T (W x45 x26 x22 x84 xe4 x9c xf2 xcb)
(T (W xff xff xff xff xff xff xff xff)
(T (W x64 x00 x00 x00 x9c x00 x00 x00)
(L (W x00 x00 x00 x00 x54 xb2 xff xff)) E)
(L (W x00 x00 x00 x00 x00 x00 x00 x00)))
(T (W x45 x26 x22 x84 xe4 x9c xf2 xcb)
(L (W x45 x26 x22 x84 xe4 x9c xf2 xcb))
(L (W xb2 x31 xff xff xc3 x01 x00 x00))))
(T (W x6b x74 x16 x69 xd8 x97 xc1 xb5)
(T (W x6c x00 x00 x00 x60 x00 x00 x00)
(T (W x00 x00 x00 x00 x1c x00 x00 x00)
(L (W x1d x00 x00 x00 x10 x00 x00 x00)) E)
(L (W xff xff xff xff xff xff xff xff)))
(T (W x1d x00 x00 x00 x20 x00 x00 x00)
(L (W x00 x00 x00 x00 xe8 x73 xfe xff))
(L (W x00 x00 x00 x00 x00 x00 x00 x00))))))
(T (W x45 x26 x22 x84 xe4 x9c xf2 xcb)
(T (W x64 x00 x00 x00 x9c x00 x00 x00)
(T (W x00 x00 x80 x3f x00 x00 x80 x3f)
(T (W x00 x00 x01 x01 x3b x00 x00 x00)
(T (W xff xff xff xff xff xff xff xff)
(L (W x00 x00 x80 xbf x00 x00 x80 xbf)) E)
(L (W x74 xa7 xfe xff x18 x00 x00 x00)))
(T (W xcc x37 xfd xff x29 x00 x00 x00)
(L (W x00 x00 x80 xbf x00 x00 x80 xbf))
(L (W x00 x00 x00 x00 x00 x00 x00 x00))))
(T (W x00 x00 x00 x00 x00 x00 x00 x00)
(T (W x00 x00 x80 x3f x00 x00 x80 x3f)
(T (W x30 x00 x34 x00 x38 x00 x3c x00)
(L (W x18 x00 x00 x00 x10 x00 x00 x00)) E)
(L (W x00 x00 x00 x00 x54 xe2 xfe xff)))
(T (W x46 x53 x59 x53 x5f x4e x53 x5f)
(L (W x03 x00 x00 x00 xd8 x00 x00 x00))
(L (W x00 x00 x00 x00 x00 x00 x00 x00)))))
(T (W x00 x00 x00 x00 x54 x02 xfc xff)
(T (W x00 x00 x80 x3f x00 x00 x80 x3f)
(T (W x45 x26 x22 x84 xe4 x9c xf2 xcb)
(T (W x00 x00 x80 x3f x00 x00 x80 x3f)
(L (W xa8 x00 x00 x00 x64 x00 x00 x00)) E)
(L (W x45 x26 x22 x84 xe4 x9c xf2 xcb)))
(T (W xff xff xff xff xa0 x00 x00 x00)
(L (W x03 x00 x00 x00 xd0 x00 x00 x00))
(L (W xff xff xff xff xff xff xff xff))))
(T (W x00 x00 x00 x00 x00 x00 x00 x00)
(T (W xff xff xff xff xff xff xff xff)
(T (W x00 x00 x00 x00 x00 x00 x00 x00)
(L (W x00 x00 x00 x00 x00 x00 x00 x00)) E)
(L (W xaa x01 x00 x00 xff xff xff xff)))
(T (W xff xff xff xff xff xff xff xff)
(L (W x5c x00 x00 x00 x50 x00 x00 x00))
(L (W x45 x26 x22 x84 xe4 x9c xf2 xcb)))))))))
(T (W x1a x89 xfb xff x74 x00 x00 x00)
(T (W x00 x00 x00 x00 x00 x00 x00 x00)
(T (W x6b x65 x5f x6c x76 x31 x5f x66)
(T (W x00 x00 x00 x00 x02 x00 x00 x00)
(T (W x00 x00 x80 x3f x00 x00 x80 x3f)
(T (W x45 x26 x22 x84 xe4 x9c xf2 xcb)
(T (W xff xff xff xff x03 x00 x00 x00)
(T (W x00 x00 x00 x00 x02 x00 x00 x00)
(L (W x00 x00 x00 x00 x00 x00 x00 x00)) E)
(L (W x00 x00 x00 x00 x00 x00 x00 x00)))
(T (W x00 x00 x00 x00 x54 x08 xfd xff)
(L (W x76 x32 x00 x00 x0a xd8 xff xff))
(L (W xca x06 xff xff x78 x00 x00 x00))))
(T (W x00 x00 x00 x00 x00 x00 x00 x00)
(T (W x68 x00 x00 x00 x5c x00 x00 x00)
(T (W x1a x00 x00 x00 x67 x72 x6f x75)
(L (W xe4 xc9 xff xff x00 x01 x01 x01)) E)
(L (W x46 x53 x59 x53 x5f x4e x53 x5f)))
(T (W x00 x00 x80 x3f x00 x00 x80 x3f)
(L (W x38 x00 x00 x00 x00 x00 x80 xbf))
(L (W xff xff xff xff x8c x00 x00 x00)))))
(T (W x00 x00 x80 x3f x00 x00 x80 x3f)
(T (W x00 x00 x00 x00 x00 x00 x00 x00)
(T (W xbc x00 x00 x00 xb0 x00 x00 x00)
(T (W x18 x00 x00 x00 x0c x00 x00 x00)
(L (W x00 x00 x00 x00 x12 x00 x00 x00)) E)
(L (W xff xff xff xff xff xff xff xff)))
(T (W xff xff xff xff xff xff xff xff)
(L (W x68 x00 x00 x00 x5c x00 x00 x00))
(L (W xff xff xff xff xff xff xff xff))))
(T (W xff xff xff xff xff xff xff xff)
(T (W x00 x00 x00 x00 x00 x00 x00 x00)
(T (W x00 x00 x00 x00 x00 x00 x00 x00)
(L (W xb2 xe7 xff xff xaf x01 x00 x00)) E)
(L (W x00 x00 x80 xbf x00 x00 x80 xbf)))
(T (W x74 x6d xfd xff x11 x00 x00 x00)
(L (W x00 x00 x80 xbf x00 x00 x80 xbf))
(L (W xff xff xff xff xff xff xff xff))))))
(T (W x00 x00 x80 x3f x00 x00 x80 x3f)
(T (W x45 x26 x22 x84 xe4 x9c xf2 xcb)
(T (W x00 x00 x00 x00 x00 x00 x00 x00)
(T (W x18 x00 x00 x00 x0c x00 x00 x00)
(T (W xff xff xff xff xff xff xff xff)
(L (W x00 x00 x00 x00 x00 x00 x00 x00)) E)
(L (W x00 x00 x00 x00 x00 x00 x00 x00)))
(T (W x18 x00 x00 x00 x10 x00 x00 x00)
(L (W x54 x00 x00 x00 x48 x00 x00 x00))
(L (W xff xff xff xff xff xff xff xff))))
(T (W x7e x00 x00 x00 xff xff xff xff)
(T (W xff xff xff xff xff xff xff xff)
(T (W x00 x00 x80 x3f x00 x00 x80 x3f)
(L (W xca xd6 xff xff x78 x00 x00 x00)) E)
(L (W x00 x00 x00 x00 x00 x00 x00 x00)))
(T (W xff xff xff xff xff xff xff xff)
(L (W x14 x19 xff xff x00 x00 x01 x01))
(L (W xff xff xff xff xbc x00 x00 x00)))))
(T (W x00 x00 x80 x3f x00 x00 x80 x3f)
(T (W x00 x00 x00 x00 x00 x00 x00 x00)
(T (W x23 x32 x7d x2f xa5 xe1 x03 x6f)
(T (W x00 x00 x80 x3f x00 x00 x80 x3f)
(L (W x00 x00 x80 xbf x00 x00 x80 xbf)) E)
(L (W xa9 x01 x00 x00 xff xff xff xff)))
(T (W x00 x00 x00 x00 x00 x00 x00 x00)
(L (W x1a x35 xfe xff x74 x00 x00 x00))
(L (W x18 x00 x00 x00 x10 x00 x00 x00))))
(T (W xff xff xff xff xff xff xff xff)
(T (W x45 x26 x22 x84 xe4 x9c xf2 xcb)
(T (W x44 x00 x48 x00 x4c x00 x50 x00)
(L (W x01 x00 x00 x00 xff xff xff xff)) E)
(L (W x00 x00 x80 xbf x00 x00 x80 xbf)))
(T (W x6c x00 x00 x00 x60 x00 x00 x00)
(L (W x00 x00 x80 xbf x00 x00 x80 xbf))
(L (W xff xff xff xff xff xff xff xff)))))))
(T (W x64 x5f x6c x76 x31 x00 x00 x00)
(T (W x00 x00 x80 x3f x00 x00 x80 x3f)
(T (W x00 x00 x80 x3f x00 x00 x80 x3f)
(T (W x00 x00 x00 x00 x00 x00 x00 x00)
(T (W xff xff xff xff xff xff xff xff)
(T (W xff xff xff xff xff xff xff xff)
(L (W x00 x00 x00 x00 x00 x00 x00 x00)) E)
(L (W x00 x00 x00 x00 x12 x00 x00 x00)))
(T (W xff xff xff xff xb0 x00 x00 x00)
(L (W x00 x00 x00 x00 x00 x00 x00 x00))
(L (W xff xff xff xff xff xff xff xff))))
(T (W x24 x9c xe6 x90 x39 xae xa5 x5c)
(T (W xff xff xff xff x9c x00 x00 x00)
(T (W x18 x00 x00 x00 x0c x00 x00 x00)
(L (W x00 x00 x00 x00 x54 xd0 xff xff)) E)
(L (W x00 x00 x00 x00 x00 x00 x00 x00)))
(T (W x18 x00 x00 x00 x10 x00 x00 x00)
(L (W x6c x00 x00 x00 x60 x00 x00 x00))
(L (W x1f x00 x00 x00 x22 x00 x00 x00)))))
(T (W x00 x00 x80 x3f x00 x00 x80 x3f)
(T (W x00 x00 x00 x00 x00 x00 x00 x00)
(T (W xff xff xff xff xff xff xff xff)
(T (W x00 x00 x80 x3f x00 x00 x80 x3f)
(L (W x00 x00 x80 xbf x00 x00 x80 xbf)) E)
(L (W xff xff xff xff xff xff xff xff)))
(T (W x00 x00 x00 x00 x00 x00 x00 x00)
(L (W x6c x00 x0c x00 x00 x00 x00 x00))
(L (W xff xff xff xff xff xff xff xff))))
(T (W xff xff xff xff xff xff xff xff)
(T (W x00 x00 x80 x3f x00 x00 x80 x3f)
(T (W x00 x00 x80 x3f x00 x00 x80 x3f)
(L (W xff xff xff xff xff xff xff xff)) E)
(L (W x00 x00 x80 xbf x00 x00 x80 xbf)))
(T (W x00 x00 x80 x3f x00 x00 x80 x3f)
(L (W x00 x00 x80 xbf x00 x00 x80 xbf))
(L (W xff xff xff xff xff xff xff xff))))))
(T (W x00 x00 x80 x3f x00 x00 x80 x3f)
(T (W x00 x00 x80 x3f x00 x00 x80 x3f)
(T (W xcc x35 xfc xff x3e x00 x00 x00)
(T (W xe4 xa1 xfc xff x00 x01 x01 x01)
(T (W x64 x00 x00 x00 x9c x00 x00 x00)
(L (W x1d x00 x00 x00 x10 x00 x00 x00)) E)
(L (W x00 x00 x80 xbf x00 x00 x80 xbf)))
(T (W xff xff xff xff xff xff xff xff)
(L (W x58 x00 x00 x00 x5c x00 x00 x00))
(L (W xff xff xff xff xff xff xff xff))))
(T (W xff xff xff xff xff xff xff xff)
(T (W x00 x00 x00 x00 x00 x00 x00 x00)
(T (W x45 x26 x22 x84 xe4 x9c xf2 xcb)
(L (W x00 x00 x80 xbf x00 x00 x80 xbf)) E)
(L (W x45 x26 x22 x84 xe4 x9c xf2 xcb)))
(T (W xff xff xff xff xff xff xff xff)
(L (W x00 x00 x80 xbf x00 x00 x80 xbf))
(L (W xff xff xff xff xff xff xff xff)))))
(T (W x45 x26 x22 x84 xe4 x9c xf2 xcb)
(T (W x00 x00 x00 x00 x00 x00 x00 x00)
(T (W x00 x00 x00 x00 x00 x00 x00 x00)
(T (W x00 x00 x00 x00 x00 x00 x00 x00)
(L (W x70 x00 x00 x00 x64 x00 x00 x00)) E)
(L (W x74 x03 x00 x00 x4c x02 x00 x00)))
(T (W x45 x26 x22 x84 xe4 x9c xf2 xcb)
(L (W x45 x26 x22 x84 xe4 x9c xf2 xcb))
(L (W x18 x00 x00 x00 x0c x00 x00 x00))))
(T (W xff xff xff xff xff xff xff xff)
(T (W x00 x00 x80 x3f x00 x00 x80 x3f)
(T (W xff xff xff xff xff xff xff xff)
(L (W x45 x26 x22 x84 xe4 x9c xf2 xcb)) E)
(L (W x68 x00 x00 x00 x5c x00 x00 x00)))
(T (W x00 x00 x00 x00 x54 x80 xfd xff)
(L (W x00 x00 x80 xbf x00 x00 x80 xbf))
(L (W x00 x00 x00 x00 x00 x00 x00 x00))))))))
(T (W x00 x00 x00 x00 x00 x00 x00 x00)
(T (W xff xff xff xff xff xff xff xff)
(T (W x0a x00 x00 x00 x3e x00 x00 x00)
(T (W xff xff xff xff xff xff xff xff)
(T (W xff xff xff xff x03 x00 x00 x00)
(T (W x00 x00 x00 x00 x00 x00 x00 x00)
(T (W x00 x00 x80 x3f x00 x00 x80 x3f)
(L (W x29 x00 x00 x00 x2c x00 x00 x00)) E)
(L (W xa0 x00 x00 x00 x64 x00 x00 x00)))
(T (W x46 x53 x59 x53 x5f x4e x53 x5f)
(L (W x45 x26 x22 x84 xe4 x9c xf2 xcb))
(L (W x00 x00 x00 x00 x00 x00 x00 x00))))
(T (W x50 x00 x00 x00 x44 x00 x00 x00)
(T (W x00 x00 x00 x00 x00 x00 x00 x00)
(T (W xff xff xff xff xff xff xff xff)
(L (W x00 x00 x00 x00 x00 x00 x00 x00)) E)
(L (W x68 x00 x00 x00 x5c x00 x00 x00)))
(T (W x00 x00 x00 x00 x00 x00 x00 x00)
(L (W xc6 x00 x00 x00 xff xff xff xff))
(L (W x00 x00 x00 x00 x12 x00 x00 x00)))))
(T (W x8d x01 x00 x00 xff xff xff xff)
(T (W xff xff xff xff x04 x00 x00 x00)
(T (W x00 x00 x00 x00 x00 x00 x00 x00)
(T (W x30 x00 x00 x00 x10 x00 x00 x00)
(L (W x00 x00 x00 x00 x00 x00 x00 x00)) E)
(L (W x54 x00 x00 x00 x48 x00 x00 x00)))
(T (W x50 x00 x00 x00 x44 x00 x00 x00)
(L (W x00 x00 x00 x00 x00 x00 x00 x00))
(L (W x00 x00 x80 xbf x00 x00 x80 xbf))))
(T (W x00 x00 x80 x3f x00 x00 x80 x3f)
(T (W xff xff xff xff xff xff xff xff)
(T (W x6c x34 xaa x7b x8f xca x63 x61)
(L (W x6c x00 x08 x00 x00 x00 x00 x00)) E)
(L (W xb2 xeb xfe xff xa9 x01 x00 x00)))
(T (W xff xff xff xff xff xff xff xff)
(L (W x00 x00 x00 x00 x2a x6d xfe xff))
(L (W x00 x00 x00 x00 x00 x00 x00 x00))))))
(T (W xc0 x01 x00 x00 xff xff xff xff)
(T (W x00 x00 x01 x01 xa7 x01 x00 x00)
(T (W xff xff xff xff xff xff xff xff)
(T (W x00 x00 x00 x00 x00 x00 x00 x00)
(T (W x00 x00 x00 x00 x00 x00 x00 x00)
(L (W xbc x00 x00 x00 x01 x00 x00 x00)) E)
(L (W xff xff xff xff xc4 x00 x00 x00)))
(T (W x00 x00 x00 x00 x00 x00 x00 x00)
(L (W x2b x00 x00 x00 x10 x00 x00 x00))
(L (W x6c x00 x00 x00 x60 x00 x00 x00))))
(T (W x1a x59 xfc xff x74 x00 x00 x00)
(T (W x00 x00 x80 x3f x00 x00 x80 x3f)
(T (W x00 x00 x00 x00 x00 x00 x00 x00)
(L (W x05 x45 x45 xdc x00 xdb x55 x2f)) E)
(L (W xff xff xff xff xff xff xff xff)))
(T (W x00 x00 x00 x00 x00 x00 x00 x00)
(L (W x00 x00 x00 x00 x00 x00 x00 x00))
(L (W x49 xa1 x68 x4a xeb x5f xdd x3d)))))
(T (W xff xff xff xff xff xff xff xff)
(T (W x68 x00 x00 x00 x5c x00 x00 x00)
(T (W x00 x00 x00 x00 x00 x00 x00 x00)
(T (W x68 x00 x00 x00 x5c x00 x00 x00)
(L (W x00 x00 x00 x00 x00 x00 x00 x00)) E)
(L (W x54 x00 x00 x00 x48 x00 x00 x00)))
(T (W xff xff xff xff xff xff xff xff)
(L (W x00 x00 x00 x00 x00 x00 x00 x00))
(L (W x00 x00 x00 x00 x00 x00 x00 x00))))
(T (W x00 x00 x00 x00 x00 x00 x00 x00)
(T (W xff xff xff xff xff xff xff xff)
(T (W x6c x00 x00 x00 x60 x00 x00 x00)
(L (W x00 x00 x00 x00 x00 x00 x00 x00)) E)
(L (W x00 x00 x00 x00 x00 x00 x00 x00)))
(T (W x4c x45 x41 x52 x45 x44 x00 x00)
(L (W xff xff xff xff xff xff xff xff))
(L (W xc4 x00 x00 x00 x01 x00 x00 x00)))))))
(T (W x6b x65 x5f x77 x61 x72 x6c x69)
(T (W x08 x1d x1e xff x9e x3d xd7 x30)
(T (W xff xff xff xff xff xff xff xff)
(T (W xff xff xff xff xff xff xff xff)
(T (W x00 x00 x00 x00 x00 x00 x00 x00)
(T (W x00 x00 x80 x3f x00 x00 x80 x3f)
(L (W x18 x00 x00 x00 x10 x00 x00 x00)) E)
(L (W x03 x00 x00 x00 xd8 x00 x00 x00)))
(T (W x00 x00 x00 x00 x00 x00 x00 x00)
(L (W x00 x00 x68 x00 x00 x00 x00 x00))
(L (W x00 x00 x80 xbf x00 x00 x80 xbf))))
(T (W x68 x00 x00 x00 x5c x00 x00 x00)
(T (W x4f x84 x6f x8b xe8 xcb x63 xb7)
(T (W x27 x00 x00 x00 x10 x00 x00 x00)
(L (W x00 x00 x00 x00 x00 x00 x00 x00)) E)
(L (W x45 x26 x22 x84 xe4 x9c xf2 xcb)))
(T (W x00 x00 x00 x00 x00 x00 x00 x00)
(L (W xff xff xff xff xff xff xff xff))
(L (W x00 x00 x00 x00 x00 x00 x00 x00)))))
(T (W xff xff xff xff xff xff xff xff)
(T (W x45 x26 x22 x84 xe4 x9c xf2 xcb)
(T (W x00 x00 x00 x00 x00 x00 x00 x00)
(T (W xff xff xff xff xff xff xff xff)
(L (W x64 x01 x00 x00 xff xff xff xff)) E)
(L (W x00 x00 x80 xbf x00 x00 x80 xbf)))
(T (W x29 x00 x00 x00 x2c x00 x00 x00)
(L (W x00 x00 x00 x00 x02 x00 x00 x00))
(L (W x00 x00 x00 x00 x00 x00 x00 x00))))
(T (W x45 x26 x22 x84 xe4 x9c xf2 xcb)
(T (W xff xff xff xff xff xff xff xff)
(T (W x70 x5f x77 x69 x6c x64 x5f x70)
(L (W x00 x00 x00 x00 x00 x00 x00 x00)) E)
(L (W x45 x44 x00 x00 x00 x00 x00 x00)))
(T (W xff xff xff xff xff xff xff xff)
(L (W xff xff xff xff xff xff xff xff))
(L (W x00 x00 x80 xbf x00 x00 x80 xbf))))))
(T (W xff xff xff xff xff xff xff xff)
(T (W xff xff xff xff xff xff xff xff)
(T (W x18 x00 x00 x00 x10 x00 x00 x00)
(T (W x00 x00 x80 x3f x00 x00 x80 x3f)
(T (W x00 x00 x00 x00 x00 x00 x00 x00)
(L (W x00 x00 x00 x00 x54 xa4 xff xff)) E)
(L (W x00 x00 x80 xbf x00 x00 x80 xbf)))
(T (W x00 x00 x80 x3f x00 x00 x80 x3f)
(L (W xff xff xff xff xff xff xff xff))
(L (W x00 x00 x80 xbf x00 x00 x80 xbf))))
(T (W x00 x00 x80 x3f x00 x00 x80 x3f)
(T (W x18 x00 x00 x00 x0c x00 x00 x00)
(T (W xb8 x00 x00 x00 xac x00 x00 x00)
(L (W x49 xa1 x68 x4a xeb x5f xdd x3d)) E)
(L (W x00 x00 x00 x00 x0a xf8 xfe xff)))
(T (W xe4 x65 xfd xff x00 x01 x01 x01)
(L (W xff xff xff xff xff xff xff xff))
(L (W x00 x00 x80 xbf x00 x00 x80 xbf)))))
(T (W x64 x00 x00 x00 x9c x00 x00 x00)
(T (W x00 x00 x80 x3f x00 x00 x80 x3f)
(T (W xff xff xff xff xff xff xff xff)
(T (W xff xff xff xff x03 x00 x00 x00)
(L (W x00 x00 x00 x00 x00 x00 x00 x00)) E)
(L (W x00 x00 x80 xbf x00 x00 x80 xbf)))
(T (W xff xff xff xff xff xff xff xff)
(L (W x2c x01 x00 x00 x04 x00 x00 x00))
(L (W x00 x00 x00 x00 x00 x00 x00 x00))))
(T (W x00 x00 x00 x00 x00 x00 x00 x00)
(T (W xb2 x03 xfd xff x4a x00 x00 x00)
(L (W x6e x00 x00 x00 xfa x01 xfe xff))
(L (W x00 x00 x00 x00 x12 x00 x00 x00)))
(T (W x00 x00 x00 x00 x00 x00 x00 x00)
(L (W xff xff xff xff xff xff xff xff))
(L (W x00 x00 x00 x00 x54 x84 xff xff)))))))))))
(T (W xb0 x96 x02 x00 x74 x95 x02 x00)
(T (W xf8 xe2 x01 x00 x7c xe0 x01 x00)
(T (W x68 x7c x00 x00 x34 x7b x00 x00)
(T (W x45 x26 x22 x84 xe4 x9c xf2 xcb)
(T (W xff xff xff xff xff xff xff xff)
(T (W x64 x5f x6c x76 x31 x00 x00 x00)
(T (W x9a xc2 xfb xff x74 x00 x00 x00)
(T (W x00 x00 x80 x3f x00 x00 x80 x3f)
(T (W xff xff xff xff xff xff xff xff)
(T (W x20 x47 x2b x97 x85 x96 x55 x5f)
(L (W x00 x00 x80 xbf x00 x00 x80 xbf)) E)
(L (W x00 x00 x80 xbf x00 x00 x80 xbf)))
(T (W x18 x00 x00 x00 x10 x00 x00 x00)
(L (W xff xff xff xff xff xff xff xff))
(L (W xff xff xff xff xff xff xff xff))))
(T (W x00 x00 x00 x00 x00 x00 x00 x00)
(T (W xff xff xff xff xac x00 x00 x00)
(T (W x45 x26 x22 x84 xe4 x9c xf2 xcb)
(L (W xff xff xff xff xff xff xff xff)) E)
(L (W x12 x00 x00 x00 x46 x53 x59 x53)))
(T (W xff xff xff xff xac x00 x00 x00)
(L (W xff xff xff xff x9c x00 x00 x00))
(L (W xff xff xff xff xff xff xff xff)))))
(T (W xc0 x00 x00 x00 xb4 x00 x00 x00)
(T (W x00 x00 x80 x3f x00 x00 x80 x3f)
(T (W x18 x00 x00 x00 x0c x00 x00 x00)
(T (W xff xff xff xff xff xff xff xff)
(L (W x00 x00 x00 x00 x00 x00 x00 x00)) E)
(L (W x30 x33 x5f x43 x4c x45 x41 x52)))
(T (W x12 x00 x00 x00 x46 x53 x59 x53)
(L (W x74 xf3 xff xff x01 x01 x01 x01))
(L (W x00 x00 x00 x00 xaa x26 xff xff))))
(T (W x00 x00 x00 x00 x00 x00 x00 x00)
(T (W x45 x26 x22 x84 xe4 x9c xf2 xcb)
(T (W xff xff xff xff xff xff xff xff)
(L (W x00 x00 x00 x00 x00 x00 x00 x00)) E)
(L (W x45 x26 x22 x84 xe4 x9c xf2 xcb)))
(T (W x45 x26 x22 x84 xe4 x9c xf2 xcb)
(L (W xff xff xff xff x9c x00 x00 x00))
(L (W x00 x00 x00 x00 x12 x00 x00 x00))))))
(T (W xc0 x00 x00 x00 xb4 x00 x00 x00)
(T (W x68 x00 x00 x00 x5c x00 x00 x00)
(T (W x00 x00 x80 x3f x00 x00 x80 x3f)
(T (W xff xff xff xff xff xff xff xff)
(T (W x00 x00 x00 x00 x02 x00 x00 x00)
(L (W x00 x00 x00 x00 x00 x00 x00 x00)) E)
(L (W x00 x00 x80 xbf x00 x00 x80 xbf)))
(T (W xff xff xff xff xff xff xff xff)
(L (W xff xff xff xff xc8 x00 x00 x00))
(L (W x46 x53 x59 x53 x5f x4e x53 x5f))))
(T (W x00 x00 x00 x00 x00 x00 x00 x00)
(T (W x00 x00 x00 x00 x02 x00 x00 x00)
(T (W x64 x00 x00 x00 x9c x00 x00 x00)
(L (W xff xff xff xff xff xff xff xff)) E)
(L (W x00 x00 x80 xbf x00 x00 x80 xbf)))
(T (W xff xff xff xff xff xff xff xff)
(L (W xd0 x55 xfe xff xfa x90 xfe xff))
(L (W xff xff xff xff xff xff xff xff)))))
(T (W x64 xf7 xfb xff x00 x01 x01 x01)
(T (W x00 x00 x80 x3f x00 x00 x80 x3f)
(T (W xff xff xff xff xff xff xff xff)
(T (W x18 x00 x00 x00 x0c x00 x00 x00)
(L (W x64 xb7 xff xff x00 x01 x01 x01)) E)
(L (W x00 x00 x00 x00 x00 x00 x00 x00)))
(T (W x00 x00 x80 x3f x00 x00 x80 x3f)
(L (W xb0 x00 x00 x00 x64 x00 x00 x00))
(L (W x00 x00 x00 x00 x22 x51 xff xff))))
(T (W x00 x00 x00 x00 x00 x00 x00 x00)
(T (W x00 x00 x00 x00 xd4 xf5 xfc xff)
(T (W x55 x6c xfc xf1 x99 x9e xc9 x88)
(L (W x03 x00 x00 x00 xcc x00 x00 x00)) E)
(L (W x29 x00 x00 x00 x2c x00 x00 x00)))
(T (W x00 x00 x00 x00 xd4 x75 xfd xff)
(L (W xff xff xff xff x9c x00 x00 x00))
(L (W x00 x00 x00 x00 x12 x00 x00 x00)))))))
(T (W xff xff xff xff xff xff xff xff)
(T (W x50 x00 x00 x00 x44 x00 x00 x00)
(T (W x00 x00 x80 x3f x00 x00 x80 x3f)
(T (W x45 x26 x22 x84 xe4 x9c xf2 xcb)
(T (W xff xff xff xff xff xff xff xff)
(T (W x00 x00 x00 x00 x00 x00 x00 x00)
(L (W x45 x26 x22 x84 xe4 x9c xf2 xcb)) E)
(L (W x00 x00 x80 xbf x00 x00 x80 xbf)))
(T (W xff xff xff xff xff xff xff xff)
(L (W x00 x00 x80 x3f x00 x00 x80 x3f))
(L (W xff xff xff xff xff xff xff xff))))
(T (W x00 x00 x00 x00 x00 x00 x00 x00)
(T (W xff xff xff xff xff xff xff xff)
(T (W x01 x00 x00 x00 x9c x00 x00 x00)
(L (W xff xff xff xff xff xff xff xff)) E)
(L (W x00 x00 x00 x00 x00 x00 x00 x00)))
(T (W xb0 x00 x00 x00 x64 x00 x00 x00)
(L (W x03 x00 x00 x00 xd8 x00 x00 x00))
(L (W xff xff xff xff xff xff xff xff)))))
(T (W x9a xea xfb xff x74 x00 x00 x00)
(T (W x00 x00 x80 x3f x00 x00 x80 x3f)
(T (W xff xff xff xff xff xff xff xff)
(T (W x64 x00 x00 x00 x9c x00 x00 x00)
(L (W xff xff xff xff xac x00 x00 x00)) E)
(L (W x00 x00 x00 x00 x00 x00 x00 x00)))
(T (W x00 x00 x00 x00 x00 x00 x00 x00)
(L (W x00 x00 x00 x00 x01 x00 x00 x00))
(L (W x00 x00 x00 x00 x00 x00 x00 x00))))
(T (W xf4 x72 xfc xff x3c x00 x00 x00)
(T (W x00 x00 x80 x3f x00 x00 x80 x3f)
(T (W x6b x65 x5f x77 x61 x72 x6c x69)
(L (W xff xff xff xff xff xff xff xff)) E)
(L (W x18 x00 x00 x00 x10 x00 x00 x00)))
(T (W x9a x6a xfd xff x74 x00 x00 x00)
(L (W x18 x00 x00 x00 x0c x00 x00 x00))
(L (W x32 x6d xff xff xc6 x01 x00 x00))))))
(T (W xff xff xff xff x03 x00 x00 x00)
(T (W x18 x00 x00 x00 x10 x00 x00 x00)
(T (W x00 x00 x80 x3f x00 x00 x80 x3f)
(T (W xff xff xff xff xff xff xff xff)
(T (W xff xff xff xff xff xff xff xff)
(L (W x45 x26 x22 x84 xe4 x9c xf2 xcb)) E)
(L (W x00 x00 x80 xbf x00 x00 x80 xbf)))
(T (W xff xff xff xff xff xff xff xff)
(L (W xff xff xff xff xff xff xff xff))
(L (W x00 x00 x00 x00 x00 x00 x00 x00))))
(T (W x00 x00 x00 x00 x00 x00 x00 x00)
(T (W x00 x00 x00 x00 x00 x00 x00 x00)
(T (W xff xff xff xff xff xff xff xff)
(L (W xff xff xff xff xff xff xff xff)) E)
(L (W x00 x00 x80 xbf x00 x00 x80 xbf)))
(T (W x00 x00 x00 x00 x00 x00 x00 x00)
(L (W x1c x00 x00 x00 x10 x00 x00 x00))
(L (W xeb x90 xa7 x28 xbf x50 x53 x6a)))))
(T (W x00 x00 x80 x3f x00 x00 x80 x3f)
(T (W x00 x00 x00 x00 x00 x00 x00 x00)
(T (W x54 x00 x00 x00 x00 x00 x00 x00)
(T (W x00 x00 x80 x3f x00 x00 x80 x3f)
(L (W xff xff xff xff xff xff xff xff)) E)
(L (W x00 x00 x00 x00 x00 x00 x00 x00)))
(T (W x6c x00 x00 x00 x60 x00 x00 x00)
(L (W x03 x00 x00 x00 xd0 x00 x00 x00))
(L (W xff xff xff xff xff xff xff xff))))
(T (W x00 x00 x00 x00 x02 x00 x00 x00)
(T (W xff xff xff xff xb0 x00 x00 x00)
(T (W x00 x00 x00 x00 x00 x00 x00 x00)
(L (W x5c x00 x60 x00 x00 x00 x00 x00)) E)
(L (W xff xff xff xff xff xff xff xff)))
(T (W xff xff xff xff xff xff xff xff)
(L (W x74 x00 x00 x00 x68 x00 x00 x00))
(L (W x00 x00 x80 xbf x00 x00 x80 xbf))))))))
(T (W x73 x68 x00 x00 x02 xdb xfe xff)
(T (W x64 x00 x00 x00 x9c x00 x00 x00)
(T (W x18 x00 x00 x00 x10 x00 x00 x00)
(T (W x00 x00 x00 x00 x00 x00 x00 x00)
(T (W x48 x03 x00 x00 x34 x02 x00 x00)
(T (W x68 x00 x00 x00 x5c x00 x00 x00)
(T (W x45 x26 x22 x84 xe4 x9c xf2 xcb)
(L (W xff xff xff xff xff xff xff xff)) E)
(L (W xff xff xff xff xff xff xff xff)))
(T (W x00 x00 x00 x00 x00 x00 x00 x00)
(L (W xff xff xff xff xa0 x00 x00 x00))
(L (W x00 x00 x00 x00 x00 x00 x00 x00))))
(T (W xff xff xff xff xff xff xff xff)
(T (W x00 x00 x00 x00 x00 x00 x00 x00)
(T (W x2a xe3 xff xff xaf x00 x00 x00)
(L (W x00 x00 x00 x00 x00 x00 x00 x00)) E)
(L (W xff xff xff xff xff xff xff xff)))
(T (W x00 x00 x00 x00 x00 x00 x00 x00)
(L (W x00 x00 x00 x00 x00 x00 x00 x00))
(L (W x00 x00 x00 x00 x00 x00 x00 x00)))))
(T (W x56 x2d xa4 x78 x6d xb9 xfa x9d)
(T (W xff xff xff xff xff xff xff xff)
(T (W x45 x26 x22 x84 xe4 x9c xf2 xcb)
(T (W x00 x00 x00 x00 x00 x00 x00 x00)
(L (W xff xff xff xff xff xff xff xff)) E)
(L (W x54 x00 x00 x00 x48 x00 x00 x00)))
(T (W xc8 x00 x00 x00 x01 x00 x00 x00)
(L (W x45 x26 x22 x84 xe4 x9c xf2 xcb))
(L (W xff xff xff xff xa8 x00 x00 x00))))
(T (W x50 x00 x00 x00 x44 x00 x00 x00)
(T (W xff xff xff xff xff xff xff xff)
(T (W x6c x76 x32 x5f x70 x6d x30 x34)
(L (W x18 x00 x00 x00 x10 x00 x00 x00)) E)
(L (W x00 x00 x00 x00 x00 x00 x00 x00)))
(T (W xff xff xff xff xff xff xff xff)
(L (W x00 x00 x00 x00 x00 x00 x00 x00))
(L (W x00 x00 x00 x00 x68 x6b xff xff))))))
(T (W x00 x00 x00 x00 x00 x00 x00 x00)
(T (W x00 x00 x00 x00 x00 x00 x00 x00)
(T (W xff xff xff xff xff xff xff xff)
(T (W x00 x00 x80 x3f x00 x00 x80 x3f)
(T (W x00 x00 x80 x3f x00 x00 x80 x3f)
(L (W xff xff xff xff xff xff xff xff)) E)
(L (W xff xff xff xff xff xff xff xff)))
(T (W x00 x00 x80 x3f x00 x00 x80 x3f)
(L (W x00 x00 x00 x00 x12 x00 x00 x00))
(L (W xff xff xff xff xff xff xff xff))))
(T (W xbc x00 x00 x00 xb0 x00 x00 x00)
(T (W x9a xd6 xfc xff x74 x00 x00 x00)
(T (W x00 x00 x80 x3f x00 x00 x80 x3f)
(L (W x00 x00 x00 x00 x00 x00 x00 x00)) E)
(L (W xff xff xff xff xff xff xff xff)))
(T (W x00 x00 x80 x3f x00 x00 x80 x3f)
(L (W x00 x00 x00 x00 x00 x00 x00 x00))
(L (W x68 x00 x00 x00 x5c x00 x00 x00)))))
(T (W x00 x00 x00 x00 x00 x00 x00 x00)
(T (W xff xff xff xff xff xff xff xff)
(T (W x00 x00 x00 x00 x00 x00 x00 x00)
(T (W x45 x26 x22 x84 xe4 x9c xf2 xcb)
(L (W x00 x00 x00 x00 x00 x00 x00 x00)) E)
(L (W x64 xbb xfe xff x00 x01 x01 x01)))
(T (W xff xff xff xff xff xff xff xff)
(L (W x49 xa1 x68 x4a xeb x5f xdd x3d))
(L (W x00 x00 x00 x00 x00 x00 x00 x00))))
(T (W x00 x00 x80 x3f x00 x00 x80 x3f)
(T (W x46 x53 x59 x53 x5f x4e x53 x5f)
(T (W x68 x00 x00 x00 x00 x00 x62 x00)
(L (W xff xff xff xff x01 x00 x00 x00)) E)
(L (W x00 x00 x00 x00 x00 x00 x00 x00)))
(T (W x00 x00 x00 x00 x00 x00 x00 x00)
(L (W x30 x33 x5f x43 x4c x45 x41 x52))
(L (W x00 x00 x80 xbf x00 x00 x80 xbf)))))))
(T (W x5f x77 x69 x6c x64 x5f x70 x6f)
(T (W x00 x00 x00 x00 x00 x00 x00 x00)
(T (W x00 x00 x00 x00 x00 x00 x00 x00)
(T (W xff xff xff xff xff xff xff xff)
(T (W x00 x00 x80 x3f x00 x00 x80 x3f)
(T (W x64 x93 xfd xff x00 x01 x01 x01)
(L (W xb0 x00 x00 x00 x64 x00 x00 x00)) E)
(L (W xff xff xff xff xff xff xff xff)))
(T (W x00 x00 x80 x3f x00 x00 x80 x3f)
(L (W xff xff xff xff xff xff xff xff))
(L (W x50 x00 x00 x00 x44 x00 x00 x00))))
(T (W x64 x00 x00 x00 x9c x00 x00 x00)
(T (W x00 x00 x80 x3f x00 x00 x80 x3f)
(T (W x00 x00 x00 x00 x00 x00 x00 x00)
(L (W x00 x00 x00 x00 x00 x00 x00 x00)) E)
(L (W xff xff xff xff xff xff xff xff)))
(T (W x4f x84 x6f x8b xe8 xcb x63 xb7)
(L (W x00 x00 x00 x00 x00 x00 x00 x00))
(L (W x00 x00 x80 xbf x00 x00 x80 xbf)))))
(T (W x2a x0b xfe xff x8c x01 x00 x00)
(T (W xff xff xff xff xff xff xff xff)
(T (W x00 x00 x80 x3f x00 x00 x80 x3f)
(T (W x00 x00 x00 x00 x00 x00 x00 x00)
(L (W x00 x00 x00 x00 x00 x00 x00 x00)) E)
(L (W x00 x00 x00 x00 xd4 xb1 xfe xff)))
(T (W xff xff xff xff xff xff xff xff)
(L (W x7c x4b x69 x12 x83 x6f x37 xc6))
(L (W x50 x00 x00 x00 x44 x00 x00 x00))))
(T (W x00 x00 x80 x3f x00 x00 x80 x3f)
(T (W x32 xf1 xfc xff x4a x00 x00 x00)
(T (W x00 x00 x00 x00 xd4 xf1 xfd xff)
(L (W x00 x00 x80 xbf x00 x00 x80 xbf)) E)
(L (W x49 xa1 x68 x4a xeb x5f xdd x3d)))
(T (W x13 x00 x00 x00 x0c x00 x00 x00)
(L (W x00 x00 x00 x00 x00 x00 x00 x00))
(L (W x50 x00 x00 x00 x44 x00 x00 x00))))))
(T (W x3e x00 x00 x00 x0c x00 x00 x00)
(T (W x00 x00 x00 x00 x00 x00 x00 x00)
(T (W xff xff xff xff xff xff xff xff)
(T (W x00 x00 x80 x3f x00 x00 x80 x3f)
(T (W x00 x00 x80 x3f x00 x00 x80 x3f)
(L (W xff xff xff xff xff xff xff xff)) E)
(L (W x00 x00 x80 xbf x00 x00 x80 xbf)))
(T (W x00 x00 x80 x3f x00 x00 x80 x3f)
(L (W xff xff xff xff xff xff xff xff))
(L (W x45 x26 x22 x84 xe4 x9c xf2 xcb))))
(T (W x64 x63 xfc xff x00 x01 x01 x01)
(T (W xff xff xff xff xff xff xff xff)
(T (W x00 x00 x00 x00 x00 x00 x00 x00)
(L (W x30 x33 x5f x43 x4c x45 x41 x52)) E)
(L (W x00 x00 x00 x00 x00 x00 x00 x00)))
(T (W x4a x60 xfd xff x78 x00 x00 x00)
(L (W x0d x00 x00 x00 x10 x00 x00 x00))
(L (W x68 x00 x00 x00 x5c x00 x00 x00)))))
(T (W x00 x00 x00 x00 x00 x00 x00 x00)
(T (W xff xff xff xff xff xff xff xff)
(T (W x45 x44 x00 x00 x00 x00 x00 x00)
(T (W xff xff xff xff xff xff xff xff)
(L (W x00 x00 x00 x00 x12 x00 x00 x00)) E)
(L (W xff xff xff xff xc4 x00 x00 x00)))
(T (W x4c x45 x41 x52 x45 x44 x00 x00)
(L (W x00 x00 x00 x00 x00 x00 x00 x00))
(L (W x00 x00 x80 xbf x00 x00 x80 xbf))))
(T (W x50 x00 x00 x00 x44 x00 x00 x00)
(T (W x00 x00 x00 x00 x00 x00 x00 x00)
(T (W x45 x26 x22 x84 xe4 x9c xf2 xcb)
(L (W x00 x00 x80 xbf x00 x00 x80 xbf)) E)
(L (W x00 x00 x80 xbf x00 x00 x80 xbf)))
(T (W x00 x00 x80 x3f x00 x00 x80 x3f)
(L (W xff xff xff xff xff xff xff xff))
(L (W xff xff xff xff xbc x00 x00 x00)))))))))
(T (W x00 x00 x00 x00 x00 x00 x00 x00)
(T (W x64 x91 xfb xff x00 x01 x01 x01)
(T (W x00 x00 x00 x00 x00 x00 x00 x00)
(T (W x00 x00 x80 x3f x00 x00 x80 x3f)
(T (W xff xff xff xff xff xff xff xff)
(T (W xff xff xff xff xff xff xff xff)
(T (W x00 x00 x00 x00 x00 x00 x00 x00)
(T (W x00 x00 x00 x00 x00 x00 x00 x00)
(L (W xff xff xff xff xa8 x00 x00 x00)) E)
(L (W xff xff xff xff xff xff xff xff)))
(T (W x00 x00 x00 x00 x00 x00 x00 x00)
(L (W x45 x26 x22 x84 xe4 x9c xf2 xcb))
(L (W x12 x1d xff xff x48 x00 x00 x00))))
(T (W x6c x00 x00 x00 x60 x00 x00 x00)
(T (W xa6 x01 x00 x00 xff xff xff xff)
(T (W x68 x00 x00 x00 x5c x00 x00 x00)
(L (W x00 x00 x00 x00 x00 x00 x00 x00)) E)
(L (W x4a xc6 xfe xff x78 x00 x00 x00)))
(T (W xff xff xff xff xff xff xff xff)
(L (W xc6 x00 x00 x00 xff xff xff xff))
(L (W x46 x53 x59 x53 x5f x4e x53 x5f)))))
(T (W xff xff xff xff xff xff xff xff)
(T (W x64 x29 xfc xff x00 x01 x01 x01)
(T (W x00 x00 x00 x00 x00 x00 x00 x00)
(T (W x12 x00 x00 x00 x10 x00 x00 x00)
(L (W x64 xa9 xff xff x00 x01 x01 x01)) E)
(L (W x4f x84 x6f x8b xe8 xcb x63 xb7)))
(T (W x00 x00 x80 x3f x00 x00 x80 x3f)
(L (W x00 x00 x01 x01 xc4 x01 x00 x00))
(L (W x4f x84 x6f x8b xe8 xcb x63 xb7))))
(T (W x45 x26 x22 x84 xe4 x9c xf2 xcb)
(T (W x29 x00 x00 x00 x2c x00 x00 x00)
(T (W x00 x00 x00 x00 x00 x00 x00 x00)
(L (W x00 x00 x80 xbf x00 x00 x80 xbf)) E)
(L (W xff xff xff xff xff xff xff xff)))
(T (W x00 x00 x80 x3f x00 x00 x80 x3f)
(L (W xff xff xff xff xff xff xff xff))
(L (W x00 x00 x00 x00 x00 x00 x00 x00))))))
(T (W xff xff xff xff xff xff xff xff)
(T (W xff xff xff xff xff xff xff xff)
(T (W x9a x14 xfc xff x74 x00 x00 x00)
(T (W x4c xad xfc xff x19 x00 x00 x00)
(T (W x00 x00 x00 x00 x00 x00 x00 x00)
(L (W x45 x26 x22 x84 xe4 x9c xf2 xcb)) E)
(L (W xff xff xff xff x94 x00 x00 x00)))
(T (W x30 x33 x5f x43 x4c x45 x41 x52)
(L (W x41 x00 x00 x00 xff xff xff xff))
(L (W x49 xa1 x68 x4a xeb x5f xdd x3d))))
(T (W x00 x00 x80 x3f x00 x00 x80 x3f)
(T (W x00 x00 x00 x00 x00 x00 x00 x00)
(T (W xff xff xff xff xff xff xff xff)
(L (W x12 xed xff xff x6c x01 x00 x00)) E)
(L (W x18 x00 x00 x00 x0c x00 x00 x00)))
(T (W x00 x00 x00 x00 x00 x00 x00 x00)
(L (W x00 x00 x00 x00 x00 x00 x00 x00))
(L (W x00 x00 x00 x00 x00 x00 x00 x00)))))
(T (W xff xff xff xff xff xff xff xff)
(T (W x40 x00 x00 x00 x9c x00 x00 x00)
(T (W x00 x00 x80 x3f x00 x00 x80 x3f)
(T (W xff xff xff xff xff xff xff xff)
(L (W xff xff xff xff xff xff xff xff)) E)
(L (W x00 x00 x80 xbf x00 x00 x80 xbf)))
(T (W x25 x00 x00 x00 x28 x00 x00 x00)
(L (W x00 x00 x00 x00 x00 x00 x00 x00))
(L (W x30 x33 x5f x43 x4c x45 x41 x52))))
(T (W x00 x00 x80 x3f x00 x00 x80 x3f)
(T (W xff xff xff xff xff xff xff xff)
(T (W x5f x43 x41 x4e x4e x4f x54 x5f)
(L (W x00 x00 x00 x00 x02 x00 x00 x00)) E)
(L (W xff xff xff xff xff xff xff xff)))
(T (W xff xff xff xff x02 x00 x00 x00)
(L (W xff xff xff xff xff xff xff xff))
(L (W x00 x00 x00 x00 x00 x00 x00 x00)))))))
(T (W x45 x26 x22 x84 xe4 x9c xf2 xcb)
(T (W xff xff xff xff xff xff xff xff)
(T (W xff xff xff xff xff xff xff xff)
(T (W x18 x00 x00 x00 x0c x00 x00 x00)
(T (W x00 x00 x00 x00 x00 x00 x00 x00)
(T (W x00 x00 x80 x3f x00 x00 x80 x3f)
(L (W x68 x00 x00 x00 x5c x00 x00 x00)) E)
(L (W x00 x00 x00 x00 x68 x91 xfe xff)))
(T (W xc9 x51 xe2 xd8 x75 xc6 x72 xd0)
(L (W xff xff xff xff xb0 x00 x00 x00))
(L (W x00 x00 x00 x00 x00 x00 x00 x00))))
(T (W x00 x00 x80 x3f x00 x00 x80 x3f)
(T (W x46 x53 x59 x53 x5f x4e x53 x5f)
(T (W x20 x00 x00 x00 x10 x00 x00 x00)
(L (W x00 x00 x00 x00 x00 x00 x00 x00)) E)
(L (W x18 x00 x00 x00 x10 x00 x00 x00)))
(T (W x00 x00 x00 x00 x00 x00 x00 x00)
(L (W xff xff xff xff xff xff xff xff))
(L (W x1b x00 x00 x00 x10 x00 x00 x00)))))
(T (W xff xff xff xff xff xff xff xff)
(T (W x18 x00 x00 x00 x10 x00 x00 x00)
(T (W x00 x00 x00 x00 x00 x00 x00 x00)
(T (W xff xff xff xff xff xff xff xff)
(L (W xff xff xff xff xff xff xff xff)) E)
(L (W x00 x00 x80 xbf x00 x00 x80 xbf)))
(T (W x4a x2e xfd xff x78 x00 x00 x00)
(L (W x00 x00 x80 xbf x00 x00 x80 xbf))
(L (W x00 x00 x00 x00 x00 x00 x00 x00))))
(T (W x00 x00 x80 x3f x00 x00 x80 x3f)
(T (W xff xff xff xff xff xff xff xff)
(T (W xff xff xff xff xff xff xff xff)
(L (W x00 x00 x00 x00 x00 x00 x00 x00)) E)
(L (W xff xff xff xff xff xff xff xff)))
(T (W xff xff xff xff xff xff xff xff)
(L (W xff xff xff xff xff xff xff xff))
(L (W x00 x00 x00 x00 x00 x00 x00 x00))))))
(T (W xff xff xff xff xff xff xff xff)
(T (W xff xff xff xff xff xff xff xff)
(T (W x00 x00 x80 x3f x00 x00 x80 x3f)
(T (W x00 x00 x00 x00 x01 x00 x00 x00)
(T (W x00 x00 x00 x00 x00 x00 x00 x00)
(L (W x00 x00 x80 xbf x00 x00 x80 xbf)) E)
(L (W xff xff xff xff xff xff xff xff)))
(T (W x00 x00 x00 x00 x00 x00 x00 x00)
(L (W x00 x00 x00 x00 x00 x00 x00 x00))
(L (W x00 x00 x80 xbf x00 x00 x80 xbf))))
(T (W x00 x00 x00 x00 x00 x00 x00 x00)
(T (W x00 x00 x80 x3f x00 x00 x80 x3f)
(T (W xdd xd8 x36 x97 x85 x31 x63 x5f)
(L (W xff xff xff xff xff xff xff xff)) E)
(L (W xff xff xff xff xbc x00 x00 x00)))
(T (W x00 x00 x00 x00 x00 x00 x00 x00)
(L (W xff xff xff xff xff xff xff xff))
(L (W x00 x00 x80 xbf x00 x00 x80 xbf)))))
(T (W xff xff xff xff x03 x00 x00 x00)
(T (W x50 x00 x00 x00 x44 x00 x00 x00)
(T (W xbc x00 x00 x00 xb0 x00 x00 x00)
(T (W xb8 x00 x00 x00 xac x00 x00 x00)
(L (W x00 x00 x00 x00 xaa xc0 xff xff)) E)
(L (W x00 x00 x80 xbf x00 x00 x80 xbf)))
(T (W xff xff xff xff xbc x00 x00 x00)
(L (W x00 x00 x00 x00 x04 x00 x00 x00))
(L (W x00 x00 x00 x00 x00 x00 x00 x00))))
(T (W x00 x00 x00 x00 x00 x00 x00 x00)
(T (W xff xff xff xff xff xff xff xff)
(T (W x00 x00 x80 x3f x00 x00 x80 x3f)
(L (W xff xff xff xff xc4 x00 x00 x00)) E)
(L (W xc8 x01 x00 x00 xff xff xff xff)))
(T (W x1d xfc x33 xdc x71 x10 x12 xbb)
(L (W xff xff xff xff xff xff xff xff))
(L (W x9a x7c xff xff x74 x00 x00 x00))))))))
(T (W x18 x00 x00 x00 x0c x00 x00 x00)
(T (W x6f x79 x61 x62 x75 x6e x00 x00)
(T (W x00 x00 x00 x00 x00 x00 x00 x00)
(T (W x00 x00 x80 x3f x00 x00 x80 x3f)
(T (W x00 x00 x00 x00 x00 x00 x00 x00)
(T (W x18 x00 x00 x00 x0c x00 x00 x00)
(T (W xff xff xff xff xff xff xff xff)
(L (W xd4 xf9 xaf x28 xbf x5c x5d x6a)) E)
(L (W x00 x00 x00 x00 x12 x00 x00 x00)))
(T (W x4a x0a xfd xff x78 x00 x00 x00)
(L (W x45 x44 x00 x00 x00 x00 x00 x00))
(L (W x45 x26 x22 x84 xe4 x9c xf2 xcb))))
(T (W xad x00 x00 x00 xff xff xff xff)
(T (W x50 x00 x00 x00 x44 x00 x00 x00)
(T (W x00 x00 x80 x3f x00 x00 x80 x3f)
(L (W x29 x00 x00 x00 x2c x00 x00 x00)) E)
(L (W x01 x00 x00 x00 xff xff xff xff)))
(T (W x54 x00 x00 x00 x48 x00 x00 x00)
(L (W x00 x00 x80 xbf x00 x00 x80 xbf))
(L (W x64 x4d xff xff x00 x01 x01 x01)))))
(T (W x45 x26 x22 x84 xe4 x9c xf2 xcb)
(T (W x00 x00 x00 x00 x00 x00 x00 x00)
(T (W x18 x00 x00 x00 x0c x00 x00 x00)
(T (W x00 x00 x80 x3f x00 x00 x80 x3f)
(L (W xf4 xb0 xff xff x1d x00 x00 x00)) E)
(L (W xff xff xff xff xff xff xff xff)))
(T (W x02 x00 x00 x00 xff xff xff xff)
(L (W xff xff xff xff x9c x00 x00 x00))
(L (W xff xff xff xff xff xff xff xff))))
(T (W xff xff xff xff xff xff xff xff)
(T (W x00 x00 x00 x00 x00 x00 x00 x00)
(T (W x00 x00 x80 xbf x00 x00 x80 xbf)
(L (W x00 x00 x80 xbf x00 x00 x80 xbf)) E)
(L (W x00 x00 x80 xbf x00 x00 x80 xbf)))
(T (W x00 x00 x00 x00 x00 x00 x00 x00)
(L (W x00 x00 x80 xbf x00 x00 x80 xbf))
(L (W xff xff xff xff xb0 x00 x00 x00))))))
(T (W x00 x00 x80 x3f x00 x00 x80 x3f)
(T (W x45 x26 x22 x84 xe4 x9c xf2 xcb)
(T (W x00 x00 x00 x00 x00 x00 x00 x00)
(T (W x01 x00 x00 x00 x3c x00 x00 x00)
(T (W x64 x00 x00 x00 x9c x00 x00 x00)
(L (W xf4 xa0 xff xff x29 x00 x00 x00)) E)
(L (W x00 x00 x00 x00 x00 x00 x00 x00)))
(T (W x18 x00 x00 x00 x0c x00 x00 x00)
(L (W x00 x00 x80 xbf x00 x00 x80 xbf))
(L (W x32 x1b xff xff xa9 x01 x00 x00))))
(T (W x62 xa3 xff xff x00 x00 x01 x01)
(T (W xff xff xff xff xff xff xff xff)
(T (W x45 x26 x22 x84 xe4 x9c xf2 xcb)
(L (W x00 x00 x80 xbf x00 x00 x80 xbf)) E)
(L (W x00 x00 x00 x00 x00 x00 x00 x00)))
(T (W xff xff xff xff x9c x00 x00 x00)
(L (W x00 x00 x80 xbf x00 x00 x80 xbf))
(L (W xff xff xff xff xff xff xff xff)))))
(T (W x00 x00 x00 x00 x00 x00 x00 x00)
(T (W x9a x56 xfe xff x00 x00 x01 x01)
(T (W x9a xb8 xfc xff x74 x00 x00 x00)
(T (W x6f x79 x61 x62 x75 x6e x00 x00)
(L (W x9a xb8 xff xff x74 x00 x00 x00)) E)
(L (W xff xff xff xff xff xff xff xff)))
(T (W x00 x00 x00 x00 x00 x00 x00 x00)
(L (W x00 x00 x80 xbf x00 x00 x80 xbf))
(L (W xff xff xff xff xa8 x00 x00 x00))))
(T (W x64 x00 x00 x00 x9c x00 x00 x00)
(T (W x49 xa1 x68 x4a xeb x5f xdd x3d)
(T (W xff xff xff xff xff xff xff xff)
(L (W x54 x00 x00 x00 x48 x00 x00 x00)) E)
(L (W x00 x00 x00 x00 xd4 xfb xfe xff)))
(T (W x68 x00 x00 x00 x5c x00 x00 x00)
(L (W x00 x00 x00 x00 x00 x00 x00 x00))
(L (W x4c x00 x50 x00 x54 x00 x00 x00)))))))
(T (W x00 x00 x80 x3f x00 x00 x80 x3f)
(T (W x00 x00 x80 x3f x00 x00 x80 x3f)
(T (W x00 x00 x80 x3f x00 x00 x80 x3f)
(T (W x00 x00 x00 x00 x00 x00 x00 x00)
(T (W x40 x00 x00 x00 x9c x00 x00 x00)
(T (W xff xff xff xff xff xff xff xff)
(L (W x45 x44 x00 x00 x00 x00 x00 x00)) E)
(L (W x00 x00 x00 x00 x00 x00 x00 x00)))
(T (W x68 x00 x00 x00 x5c x00 x00 x00)
(L (W x00 x00 x00 x00 x00 x00 x00 x00))
(L (W xff xff xff xff xff xff xff xff))))
(T (W xea x99 xff xff x82 x00 x00 x00)
(T (W x03 x00 x00 x00 xd0 x00 x00 x00)
(T (W x00 x00 x80 x3f x00 x00 x80 x3f)
(L (W x00 x00 x80 xbf x00 x00 x80 xbf)) E)
(L (W x00 x00 x00 x00 x00 x00 x00 x00)))
(T (W x18 x00 x00 x00 x0c x00 x00 x00)
(L (W x00 x00 x80 xbf x00 x00 x80 xbf))
(L (W x9a x50 xff xff x74 x00 x00 x00)))))
(T (W x00 x00 x00 x00 x00 x00 x00 x00)
(T (W x3e x00 x00 x00 x0c x00 x00 x00)
(T (W x9a xb0 xfc xff x74 x00 x00 x00)
(T (W x00 x00 x80 x3f x00 x00 x80 x3f)
(L (W x00 x00 x80 xbf x00 x00 x80 xbf)) E)
(L (W xff xff xff xff xff xff xff xff)))
(T (W x5f x4e x53 x5f x30 x33 x5f x43)
(L (W x00 x00 x80 xbf x00 x00 x80 xbf))
(L (W x18 x00 x00 x00 x10 x00 x00 x00))))
(T (W xff xff xff xff xff xff xff xff)
(T (W x00 x00 x00 x00 x00 x00 x00 x00)
(T (W x00 x00 x00 x00 x00 x00 x00 x00)
(L (W x00 x00 x00 x00 x00 x00 x00 x00)) E)
(L (W x54 x00 x00 x00 x48 x00 x00 x00)))
(T (W x00 x00 x80 x3f x00 x00 x80 x3f)
(L (W x00 x00 x00 x00 x00 x00 x00 x00))
(L (W xff xff xff xff xff xff xff xff))))))
(T (W x00 x00 x80 x3f x00 x00 x80 x3f)
(T (W x00 x00 x80 x3f x00 x00 x80 x3f)
(T (W x00 x00 x00 x00 x00 x00 x00 x00)
(T (W xff xff xff xff xff xff xff xff)
(T (W x18 x00 x00 x00 x0c x00 x00 x00)
(L (W x00 x00 x00 x00 x00 x00 x00 x00)) E)
(L (W xff xff xff xff xff xff xff xff)))
(T (W xff xff xff xff xff xff xff xff)
(L (W x00 x00 x00 x00 x00 x00 x00 x00))
(L (W xff xff xff xff xff xff xff xff))))
(T (W xff xff xff xff xff xff xff xff)
(T (W x22 x00 x00 x00 x10 x00 x00 x00)
(T (W x3c x00 x40 x00 x44 x00 x48 x00)
(L (W xff xff xff xff xff xff xff xff)) E)
(L (W x00 x00 x80 xbf x00 x00 x80 xbf)))
(T (W x04 x00 x00 x00 x5a x71 xfd xff)
(L (W x00 x00 x80 xbf x00 x00 x80 xbf))
(L (W xff xff xff xff xff xff xff xff)))))
(T (W x00 x00 x00 x00 x00 x00 x00 x00)
(T (W xff xff xff xff xff xff xff xff)
(T (W x00 x00 x80 x3f x00 x00 x80 x3f)
(T (W x00 x00 x00 x00 x00 x00 x00 x00)
(L (W x00 x00 x80 xbf x00 x00 x80 xbf)) E)
(L (W xff xff xff xff xff xff xff xff)))
(T (W x49 xa1 x68 x4a xeb x5f xdd x3d)
(L (W x00 x00 x80 xbf x00 x00 x80 xbf))
(L (W x50 x00 x00 x00 x44 x00 x00 x00))))
(T (W x00 x00 x00 x00 xd4 x83 xfc xff)
(T (W x00 x00 x80 x3f x00 x00 x80 x3f)
(T (W x00 x00 x00 x00 x00 x00 x00 x00)
(L (W x00 x00 x00 x00 x00 x00 x00 x00)) E)
(L (W x64 x05 xff xff x00 x01 x01 x01)))
(T (W x18 x00 x00 x00 x0c x00 x00 x00)
(L (W x00 x00 x00 x00 x00 x00 x00 x00))
(L (W x00 x00 x00 x00 x00 x00 x00 x00))))))))))
(T (W x00 x0f x01 x00 xcc x0d x01 x00)
(T (W xff xff xff xff x01 x00 x00 x00)
(T (W x68 x00 x00 x00 x5c x00 x00 x00)
(T (W x67 x72 x6f x75 x70 x5f x6c x65)
(T (W x00 x00 x00 x00 x00 x00 x00 x00)
(T (W xff xff xff xff x04 x00 x00 x00)
(T (W x9a x03 xfc xff x74 x00 x00 x00)
(T (W xf4 x8b xfc xff x3e x00 x00 x00)
(T (W x00 x00 x00 x00 x00 x00 x00 x00)
(L (W x00 x00 x80 xbf x00 x00 x80 xbf)) E)
(L (W xff xff xff xff xa8 x00 x00 x00)))
(T (W xff xff xff xff xff xff xff xff)
(L (W x61 x72 x6c x69 x6b x65 x5f x6f))
(L (W xff xff xff xff xff xff xff xff))))
(T (W x00 x00 x80 x3f x00 x00 x80 x3f)
(T (W xff xff xff xff xff xff xff xff)
(T (W x50 x00 x00 x00 x44 x00 x00 x00)
(L (W x00 x00 x00 x00 x00 x00 x00 x00)) E)
(L (W x45 x26 x22 x84 xe4 x9c xf2 xcb)))
(T (W xff xff xff xff xff xff xff xff)
(L (W xff xff xff xff xff xff xff xff))
(L (W x4c x03 x00 x00 x24 x02 x00 x00)))))
(T (W xff xff xff xff xff xff xff xff)
(T (W x54 x00 x00 x00 x48 x00 x00 x00)
(T (W x00 x00 x00 x00 x00 x00 x00 x00)
(T (W xff xff xff xff xff xff xff xff)
(L (W x00 x00 x80 xbf x00 x00 x80 xbf)) E)
(L (W x00 x00 x00 x00 x00 x00 x00 x00)))
(T (W x45 x26 x22 x84 xe4 x9c xf2 xcb)
(L (W xff xff xff xff xff xff xff xff))
(L (W x00 x00 x00 x00 x00 x00 x00 x00))))
(T (W x00 x00 x00 x00 x00 x00 x00 x00)
(T (W x4a xe5 xfc xff x78 x00 x00 x00)
(T (W x30 x00 x34 x00 x38 x00 x3c x00)
(L (W x00 x00 x80 xbf x00 x00 x80 xbf)) E)
(L (W xff xff xff xff xbc x00 x00 x00)))
(T (W x00 x00 x80 x3f x00 x00 x80 x3f)
(L (W x03 x00 x00 x00 xd8 x00 x00 x00))
(L (W x00 x00 x00 x00 x00 x00 x00 x00))))))
(T (W xff xff xff xff xff xff xff xff)
(T (W x9a xd3 xfb xff x74 x00 x00 x00)
(T (W x00 x00 x80 x3f x00 x00 x80 x3f)
(T (W xff xff xff xff xff xff xff xff)
(T (W x00 x00 x00 x00 x00 x00 x00 x00)
(L (W x00 x00 x80 xbf x00 x00 x80 xbf)) E)
(L (W x74 x00 x00 x00 x68 x00 x00 x00)))
(T (W x32 x16 xfd xff x4a x00 x00 x00)
(L (W xff xff xff xff xff xff xff xff))
(L (W x00 x00 x00 x00 x00 x00 x00 x00))))
(T (W x00 x00 x00 x00 x00 x00 x00 x00)
(T (W x00 x00 x00 x00 x12 x00 x00 x00)
(T (W xff xff xff xff xff xff xff xff)
(L (W xc6 x00 x00 x00 xff xff xff xff)) E)
(L (W x00 x00 x00 x00 xd4 xd6 xfe xff)))
(T (W x6a x5d xfd xff x9c x01 x00 x00)
(L (W xff xff xff xff xff xff xff xff))
(L (W x10 x96 xaa x28 xbf xca x56 x6a)))))
(T (W x18 x00 x00 x00 x10 x00 x00 x00)
(T (W x00 x00 x80 x3f x00 x00 x80 x3f)
(T (W x00 x00 x62 x00 x70 x00 x04 x00)
(T (W x64 x00 x00 x00 x9c x00 x00 x00)
(L (W xb0 x00 x00 x00 x64 x00 x00 x00)) E)
(L (W x00 x00 x80 xbf x00 x00 x80 xbf)))
(T (W x00 x00 x80 x3f x00 x00 x80 x3f)
(L (W xff xff xff xff xff xff xff xff))
(L (W x32 x36 xff xff x85 x00 x00 x00))))
(T (W x00 x00 x00 x00 x00 x00 x00 x00)
(T (W x18 x00 x00 x00 x0c x00 x00 x00)
(T (W x02 x00 x00 x00 xff xff xff xff)
(L (W xff xff xff xff xff xff xff xff)) E)
(L (W xff xff xff xff xff xff xff xff)))
(T (W xff xff xff xff xff xff xff xff)
(L (W x03 x00 x00 x00 xd8 x00 x00 x00))
(L (W x00 x00 x00 x00 x00 x00 x00 x00)))))))
(T (W x61 x72 x6c x69 x6b x65 x5f x66)
(T (W x68 x00 x00 x00 x5c x00 x00 x00)
(T (W x18 x00 x00 x00 x0c x00 x00 x00)
(T (W x00 x00 x80 x3f x00 x00 x80 x3f)
(T (W x01 x00 x00 x00 x04 x00 x00 x00)
(T (W x00 x00 x00 x00 x00 x00 x00 x00)
(L (W x00 x00 x80 xbf x00 x00 x80 xbf)) E)
(L (W x68 x00 x00 x00 x5c x00 x00 x00)))
(T (W xff xff xff xff xff xff xff xff)
(L (W x4a x0d xfe xff x78 x00 x00 x00))
(L (W xf4 x13 xff xff x0c x00 x00 x00))))
(T (W x00 x00 x00 x00 x00 x00 x00 x00)
(T (W x2c x01 x00 x00 x04 x00 x00 x00)
(T (W xd0 x00 x00 x00 xac x00 x00 x00)
(L (W xff xff xff xff xff xff xff xff)) E)
(L (W x54 x00 x00 x00 x48 x00 x00 x00)))
(T (W xff xff xff xff xff xff xff xff)
(L (W xff xff xff xff xff xff xff xff))
(L (W xff xff xff xff xff xff xff xff)))))
(T (W xff xff xff xff xff xff xff xff)
(T (W x64 x30 xfc xff x00 x01 x01 x01)
(T (W x20 x00 x00 x00 x10 x00 x00 x00)
(T (W xff xff xff xff xff xff xff xff)
(L (W x03 x00 x00 x00 xd0 x00 x00 x00)) E)
(L (W x00 x00 x00 x00 x00 x00 x00 x00)))
(T (W x00 x00 x80 x3f x00 x00 x80 x3f)
(L (W x00 x00 x00 x00 x00 x00 x00 x00))
(L (W x46 x53 x59 x53 x5f x4e x53 x5f))))
(T (W x45 x26 x22 x84 xe4 x9c xf2 xcb)
(T (W x68 x00 x00 x00 x5c x00 x00 x00)
(T (W x00 x00 x80 x3f x00 x00 x80 x3f)
(L (W x00 x00 x00 x00 x00 x00 x00 x00)) E)
(L (W x03 x00 x00 x00 xd4 x00 x00 x00)))
(T (W x1b x00 x00 x00 x1e x00 x00 x00)
(L (W xff xff xff xff xff xff xff xff))
(L (W x30 x33 x5f x43 x4c x45 x41 x52))))))
(T (W xff xff xff xff xff xff xff xff)
(T (W xff xff xff xff x03 x00 x00 x00)
(T (W x00 x00 x80 x3f x00 x00 x80 x3f)
(T (W xff xff xff xff xff xff xff xff)
(T (W x19 x00 x00 x00 x10 x00 x00 x00)
(L (W x00 x00 x80 xbf x00 x00 x80 xbf)) E)
(L (W x00 x00 x80 xbf x00 x00 x80 xbf)))
(T (W x45 x44 x00 x00 x00 x00 x00 x00)
(L (W x01 x00 x00 x00 x04 x00 x00 x00))
(L (W x4f x84 x6f x8b xe8 xcb x63 xb7))))
(T (W x00 x00 x00 x00 x00 x00 x00 x00)
(T (W x45 x26 x22 x84 xe4 x9c xf2 xcb)
(T (W xff xff xff xff xff xff xff xff)
(L (W xff xff xff xff xff xff xff xff)) E)
(L (W x45 x26 x22 x84 xe4 x9c xf2 xcb)))
(T (W x00 x00 x00 x00 x00 x00 x00 x00)
(L (W xff xff xff xff xff xff xff xff))
(L (W x00 x00 x00 x00 x00 x00 x00 x00)))))
(T (W x01 x00 x00 x00 xa0 x00 x00 x00)
(T (W x00 x00 x80 x3f x00 x00 x80 x3f)
(T (W x00 x00 x00 x00 x00 x00 x00 x00)
(T (W x50 x00 x00 x00 x44 x00 x00 x00)
(L (W xff xff xff xff xff xff xff xff)) E)
(L (W x00 x00 x00 x00 x00 x00 x00 x00)))
(T (W x45 x26 x22 x84 xe4 x9c xf2 xcb)
(L (W xff xff xff xff xff xff xff xff))
(L (W xff xff xff xff xff xff xff xff))))
(T (W x00 x00 x00 x00 x00 x00 x00 x00)
(T (W xff xff xff xff xff xff xff xff)
(T (W x49 xa1 x68 x4a xeb x5f xdd x3d)
(L (W x4f x84 x6f x8b xe8 xcb x63 xb7)) E)
(L (W xff xff xff xff xff xff xff xff)))
(T (W xff xff xff xff xff xff xff xff)
(L (W x14 x00 x00 x00 x0c x00 x00 x00))
(L (W x00 x00 x80 xbf x00 x00 x80 xbf))))))))
(T (W x27 x00 x00 x00 x67 x72 x6f x75)
(T (W xff xff xff xff xff xff xff xff)
(T (W x00 x00 x00 x00 x04 x00 x00 x00)
(T (W x00 x00 x80 x3f x00 x00 x80 x3f)
(T (W x00 x00 x00 x00 x00 x00 x00 x00)
(T (W x00 x00 x00 x00 xd4 x8a xfc xff)
(T (W xff xff xff xff xff xff xff xff)
(L (W xff xff xff xff xff xff xff xff)) E)
(L (W x7e x68 xca xc9 x03 x8e xa3 xbc)))
(T (W x45 x26 x22 x84 xe4 x9c xf2 xcb)
(L (W xff xff xff xff xff xff xff xff))
(L (W x00 x00 x80 xbf x00 x00 x80 xbf))))
(T (W xff xff xff xff xff xff xff xff)
(T (W x00 x00 x80 x3f x00 x00 x80 x3f)
(T (W x70 x5f x77 x69 x6c x64 x5f x70)
(L (W x00 x00 x00 x00 x68 xcc xff xff)) E)
(L (W xff xff xff xff xff xff xff xff)))
(T (W x00 x00 x80 x3f x00 x00 x80 x3f)
(L (W x00 x00 x00 x00 x00 x00 x00 x00))
(L (W x00 x00 x80 xbf x00 x00 x80 xbf)))))
(T (W x00 x00 x00 x00 x00 x00 x00 x00)
(T (W x9a x45 xfe xff x00 x00 x01 x01)
(T (W x00 x00 x80 x3f x00 x00 x80 x3f)
(T (W x00 x00 x80 x3f x00 x00 x80 x3f)
(L (W xff xff xff xff xff xff xff xff)) E)
(L (W x18 x00 x00 x00 x10 x00 x00 x00)))
(T (W xff xff xff xff xff xff xff xff)
(L (W x00 x00 x80 xbf x00 x00 x80 xbf))
(L (W xff xff xff xff xff xff xff xff))))
(T (W x64 x00 x00 x00 x9c x00 x00 x00)
(T (W x39 x34 xa4 xf1 x93 x26 x82 x3c)
(T (W x49 xa1 x68 x4a xeb x5f xdd x3d)
(L (W x10 x00 x14 x00 x00 x00 x00 x00)) E)
(L (W x00 x00 x80 xbf x00 x00 x80 xbf)))
(T (W x20 x00 x00 x00 x10 x00 x00 x00)
(L (W x00 x00 x00 x00 x00 x00 x00 x00))
(L (W xff xff xff xff x8c x00 x00 x00))))))
(T (W x00 x00 x00 x00 x00 x00 x00 x00)
(T (W x00 x00 x00 x00 x00 x00 x00 x00)
(T (W x00 x00 x00 x00 x02 x64 xff xff)
(T (W x00 x00 x80 x3f x00 x00 x80 x3f)
(T (W x45 x26 x22 x84 xe4 x9c xf2 xcb)
(L (W xff xff xff xff xff xff xff xff)) E)
(L (W x74 x03 x00 x00 x4c x02 x00 x00)))
(T (W x00 x00 x00 x00 xd4 x1a xfd xff)
(L (W x00 x00 x00 x00 x00 x00 x00 x00))
(L (W xff xff xff xff xff xff xff xff))))
(T (W xff xff xff xff xff xff xff xff)
(T (W xff xff xff xff xff xff xff xff)
(T (W x00 x00 x80 x3f x00 x00 x80 x3f)
(L (W x49 xa1 x68 x4a xeb x5f xdd x3d)) E)
(L (W xca xe6 xfe xff xd3 x00 x00 x00)))
(T (W x9a x57 xfd xff x74 x00 x00 x00)
(L (W x00 x00 x80 xbf x00 x00 x80 xbf))
(L (W xff xff xff xff xa0 x00 x00 x00)))))
(T (W x00 x00 x00 x00 x00 x00 x00 x00)
(T (W xff xff xff xff xff xff xff xff)
(T (W x50 x00 x00 x00 x44 x00 x00 x00)
(T (W x01 x00 x00 x00 x9c x00 x00 x00)
(L (W x00 x00 x80 xbf x00 x00 x80 xbf)) E)
(L (W xb8 x00 x00 x00 x64 x00 x00 x00)))
(T (W x00 x00 x00 x00 x00 x00 x00 x00)
(L (W x00 x00 x80 xbf x00 x00 x80 xbf))
(L (W x00 x00 x80 xbf x00 x00 x80 xbf))))
(T (W x50 x00 x00 x00 x44 x00 x00 x00)
(T (W x00 x00 x00 x00 x00 x00 x00 x00)
(T (W x00 x00 x00 x00 x00 x00 x00 x00)
(L (W x00 x00 x00 x00 x00 x00 x00 x00)) E)
(L (W x00 x00 x80 xbf x00 x00 x80 xbf)))
(T (W x45 x26 x22 x84 xe4 x9c xf2 xcb)
(L (W x00 x00 x00 x00 x00 x00 x00 x00))
(L (W x68 x00 x00 x00 x5c x00 x00 x00)))))))
(T (W x00 x00 x00 x00 x00 x00 x00 x00)
(T (W x00 x00 x80 x3f x00 x00 x80 x3f)
(T (W x00 x00 x00 x00 x00 x00 x00 x00)
(T (W x1f x00 x00 x00 x10 x00 x00 x00)
(T (W x45 x26 x22 x84 xe4 x9c xf2 xcb)
(T (W x45 x26 x22 x84 xe4 x9c xf2 xcb)
(L (W xff xff xff xff xff xff xff xff)) E)
(L (W x30 x33 x5f x43 x4c x45 x41 x52)))
(T (W x00 x00 x80 x3f x00 x00 x80 x3f)
(L (W x00 x00 x00 x00 x00 x00 x00 x00))
(L (W xff xff xff xff xff xff xff xff))))
(T (W xff xff xff xff xff xff xff xff)
(T (W x68 x00 x00 x00 x5c x00 x00 x00)
(T (W x00 x00 x80 x3f x00 x00 x80 x3f)
(L (W x00 x00 x80 xbf x00 x00 x80 xbf)) E)
(L (W xff xff xff xff xff xff xff xff)))
(T (W x00 x00 x80 x3f x00 x00 x80 x3f)
(L (W x49 xa1 x68 x4a xeb x5f xdd x3d))
(L (W x00 x00 x80 xbf x00 x00 x80 xbf)))))
(T (W x00 x00 x00 x00 x00 x00 x00 x00)
(T (W xff xff xff xff xff xff xff xff)
(T (W x00 x00 x80 x3f x00 x00 x80 x3f)
(T (W x00 x00 x00 x00 x00 x00 x00 x00)
(L (W x00 x00 x00 x00 x00 x00 x00 x00)) E)
(L (W xff xff xff xff xb0 x00 x00 x00)))
(T (W x9d x01 x00 x00 xff xff xff xff)
(L (W x00 x00 x00 x00 x00 x00 x00 x00))
(L (W x6c x00 x00 x00 x60 x00 x00 x00))))
(T (W x64 x74 xfc xff x00 x01 x01 x01)
(T (W x30 x33 x5f x43 x4c x45 x41 x52)
(T (W x4c x08 xfe xff x21 x00 x00 x00)
(L (W x00 x00 x68 x00 x00 x00 x00 x00)) E)
(L (W x00 x00 x80 xbf x00 x00 x80 xbf)))
(T (W x00 x00 x00 x00 x00 x00 x00 x00)
(L (W x00 x00 x00 x00 x12 x00 x00 x00))
(L (W xc4 x00 x00 x00 x01 x00 x00 x00))))))
(T (W x00 x00 x00 x00 x00 x00 x00 x00)
(T (W x00 x00 x00 x00 x00 x00 x00 x00)
(T (W x00 x00 x00 x00 x02 x00 x00 x00)
(T (W x68 x00 x00 x00 x5c x00 x00 x00)
(T (W x00 x00 x80 x3f x00 x00 x80 x3f)
(L (W xff xff xff xff xff xff xff xff)) E)
(L (W xff xff xff xff xff xff xff xff)))
(T (W xff xff xff xff xac x00 x00 x00)
(L (W x1e x00 x00 x00 x10 x00 x00 x00))
(L (W xff xff xff xff xb0 x00 x00 x00))))
(T (W xff xff xff xff xff xff xff xff)
(T (W xff xff xff xff xff xff xff xff)
(T (W xff xff xff xff xff xff xff xff)
(L (W x00 x00 x00 x00 x00 x00 x00 x00)) E)
(L (W x00 x00 x00 x00 x00 x00 x00 x00)))
(T (W xff xff xff xff x9c x00 x00 x00)
(L (W x49 xa1 x68 x4a xeb x5f xdd x3d))
(L (W x03 x00 x00 x00 xd0 x00 x00 x00)))))
(T (W x00 x00 x00 x00 x00 x00 x00 x00)
(T (W xff xff xff xff xff xff xff xff)
(T (W x00 x00 x00 x00 x00 x00 x00 x00)
(T (W x00 x00 x00 x00 x32 xdf xff xff)
(L (W x00 x00 x00 x00 x00 x00 x00 x00)) E)
(L (W xff xff xff xff xff xff xff xff)))
(T (W x00 x00 x00 x00 x00 x00 x00 x00)
(L (W x4f x84 x6f x8b xe8 xcb x63 xb7))
(L (W x00 x00 x80 xbf x00 x00 x80 xbf))))
(T (W x9a x7f xfc xff x74 x00 x00 x00)
(T (W x00 x00 x80 x3f x00 x00 x80 x3f)
(T (W x84 x05 x00 x00 x38 x04 x00 x00)
(L (W xff xff xff xff xff xff xff xff)) E)
(L (W x68 x00 x00 x00 x5c x00 x00 x00)))
(T (W x00 x00 x80 x3f x00 x00 x80 x3f)
(L (W x45 x44 x00 x00 x00 x00 x00 x00))
(L (W xff xff xff xff xff xff xff xff)))))))))
(T (W x00 x00 x00 x00 x00 x00 x00 x00)
(T (W x18 x00 x00 x00 x10 x00 x00 x00)
(T (W x45 x26 x22 x84 xe4 x9c xf2 xcb)
(T (W x64 xaa xfb xff x00 x01 x01 x01)
(T (W x00 x00 x00 x00 x02 x12 xff xff)
(T (W xff xff xff xff xff xff xff xff)
(T (W x45 x26 x22 x84 xe4 x9c xf2 xcb)
(T (W x64 x8a xfd xff x00 x01 x01 x01)
(L (W xff xff xff xff xff xff xff xff)) E)
(L (W xff xff xff xff xff xff xff xff)))
(T (W x00 x00 x00 x00 x00 x00 x00 x00)
(L (W x4a x07 xfe xff x78 x00 x00 x00))
(L (W x46 x53 x59 x53 x5f x4e x53 x5f))))
(T (W x00 x00 x00 x00 xd4 x48 xfc xff)
(T (W x4c x45 x41 x52 x45 x44 x00 x00)
(T (W xff xff xff xff xff xff xff xff)
(L (W x00 x00 x00 x00 x12 x00 x00 x00)) E)
(L (W x21 x00 x00 x00 x24 x00 x00 x00)))
(T (W x00 x00 x00 x00 x00 x00 x00 x00)
(L (W x22 x00 x00 x00 x10 x00 x00 x00))
(L (W x00 x00 x00 x00 x00 x00 x00 x00)))))
(T (W xff xff xff xff xff xff xff xff)
(T (W x18 x00 x00 x00 x10 x00 x00 x00)
(T (W x00 x00 x00 x00 x00 x00 x00 x00)
(T (W x00 x00 x00 x00 x00 x00 x00 x00)
(L (W xb0 x00 x00 x00 x64 x00 x00 x00)) E)
(L (W x00 x00 x80 xbf x00 x00 x80 xbf)))
(T (W x00 x00 x80 x3f x00 x00 x80 x3f)
(L (W x00 x00 x00 x00 x00 x00 x00 x00))
(L (W x00 x00 x80 xbf x00 x00 x80 xbf))))
(T (W x00 x00 x80 x3f x00 x00 x80 x3f)
(T (W xff xff xff xff xff xff xff xff)
(T (W xff xff xff xff xff xff xff xff)
(L (W x6c x00 x00 x00 x60 x00 x00 x00)) E)
(L (W xff xff xff xff xff xff xff xff)))
(T (W xff xff xff xff xb0 x00 x00 x00)
(L (W xff xff xff xff xff xff xff xff))
(L (W x00 x00 x80 xbf x00 x00 x80 xbf))))))
(T (W x9a xd3 xfd xff x00 x00 x01 x01)
(T (W xff xff xff xff x01 x00 x00 x00)
(T (W xff xff xff xff x04 x00 x00 x00)
(T (W x00 x00 x00 x00 x00 x00 x00 x00)
(T (W x00 x00 x80 x3f x00 x00 x80 x3f)
(L (W xff xff xff xff xc4 x00 x00 x00)) E)
(L (W xc4 x00 x00 x00 x02 x00 x00 x00)))
(T (W x00 x00 x00 x00 x00 x00 x00 x00)
(L (W x00 x00 x00 x00 x00 x00 x00 x00))
(L (W x00 x00 x80 xbf x00 x00 x80 xbf))))
(T (W x50 x00 x00 x00 x44 x00 x00 x00)
(T (W x00 x00 x80 x3f x00 x00 x80 x3f)
(T (W x72 x64 x5f x6c x76 x31 x00 x00)
(L (W x46 x53 x59 x53 x5f x4e x53 x5f)) E)
(L (W xff xff xff xff xff xff xff xff)))
(T (W x00 x00 x80 x3f x00 x00 x80 x3f)
(L (W x00 x00 x00 x00 x00 x00 x00 x00))
(L (W x45 x26 x22 x84 xe4 x9c xf2 xcb)))))
(T (W xff xff xff xff xff xff xff xff)
(T (W xc0 x00 x00 x00 xb4 x00 x00 x00)
(T (W x62 x00 x00 x00 x00 x00 x01 x01)
(T (W x6b x65 x5f x66 x69 x73 x68 x5f)
(L (W x00 x00 x00 x00 x00 x00 x00 x00)) E)
(L (W x50 x00 x00 x00 x44 x00 x00 x00)))
(T (W xff xff xff xff xff xff xff xff)
(L (W x00 x00 x00 x00 x00 x00 x00 x00))
(L (W x00 x00 x00 x00 x00 x00 x00 x00))))
(T (W x00 x00 x80 x3f x00 x00 x80 x3f)
(T (W x12 x0e xfd xff x4b x00 x00 x00)
(T (W xff xff xff xff xff xff xff xff)
(L (W x50 x00 x00 x00 x44 x00 x00 x00)) E)
(L (W x00 x00 x00 x00 x00 x00 x00 x00)))
(T (W x00 x00 x00 x00 x00 x00 x00 x00)
(L (W xff xff xff xff xff xff xff xff))
(L (W x00 x00 x80 xbf x00 x00 x80 xbf)))))))
(T (W xff xff xff xff x03 x00 x00 x00)
(T (W x27 x00 x00 x00 x0c x00 x00 x00)
(T (W x1c x01 x00 x00 x04 x00 x00 x00)
(T (W xff xff xff xff xff xff xff xff)
(T (W x45 x26 x22 x84 xe4 x9c xf2 xcb)
(T (W x00 x00 x80 x3f x00 x00 x80 x3f)
(L (W x64 x92 xff xff x00 x01 x01 x01)) E)
(L (W xa8 x00 x00 x00 x64 x00 x00 x00)))
(T (W x00 x00 x00 x00 x00 x00 x00 x00)
(L (W xff xff xff xff xff xff xff xff))
(L (W x00 x00 x80 xbf x00 x00 x80 xbf))))
(T (W x45 x26 x22 x84 xe4 x9c xf2 xcb)
(T (W x00 x00 x00 x00 x00 x00 x00 x00)
(T (W x00 x00 x00 x00 x00 x00 x00 x00)
(L (W x00 x00 x00 x00 x00 x00 x00 x00)) E)
(L (W xc4 x00 x00 x00 x02 x00 x00 x00)))
(T (W x00 x00 x00 x00 x00 x00 x00 x00)
(L (W x30 x33 x5f x43 x4c x45 x41 x52))
(L (W x00 x00 x00 x00 x00 x00 x00 x00)))))
(T (W xff xff xff xff xff xff xff xff)
(T (W xb8 x00 x00 x00 xac x00 x00 x00)
(T (W x45 x26 x22 x84 xe4 x9c xf2 xcb)
(T (W x1f x00 x00 x00 x10 x00 x00 x00)
(L (W xff xff xff xff xff xff xff xff)) E)
(L (W x00 x00 x80 xbf x00 x00 x80 xbf)))
(T (W x18 x00 x00 x00 x0c x00 x00 x00)
(L (W xff xff xff xff xff xff xff xff))
(L (W x00 x00 x80 xbf x00 x00 x80 xbf))))
(T (W x00 x00 x80 x3f x00 x00 x80 x3f)
(T (W xff xff xff xff xff xff xff xff)
(T (W x00 x00 x00 x00 x00 x00 x00 x00)
(L (W x00 x00 x80 xbf x00 x00 x80 xbf)) E)
(L (W x1b x00 x00 x00 x10 x00 x00 x00)))
(T (W xff xff xff xff xff xff xff xff)
(L (W x00 x00 x00 x00 xaa x71 xfe xff))
(L (W x00 x00 x80 xbf x00 x00 x80 xbf))))))
(T (W xff xff xff xff xff xff xff xff)
(T (W x8e x01 x00 x00 xff xff xff xff)
(T (W x18 x00 x00 x00 x0c x00 x00 x00)
(T (W x00 x00 x00 x00 x00 x00 x00 x00)
(T (W x00 x00 x00 x00 x00 x00 x00 x00)
(L (W xcc x00 x00 x00 x01 x00 x00 x00)) E)
(L (W x00 x00 x00 x00 x00 x00 x00 x00)))
(T (W x00 x00 x80 x3f x00 x00 x80 x3f)
(L (W xb0 x00 x00 x00 x64 x00 x00 x00))
(L (W x44 x00 x00 x00 x00 x00 x80 xbf))))
(T (W x00 x00 x80 x3f x00 x00 x80 x3f)
(T (W x00 x00 x00 x00 xd4 xe0 xfc xff)
(T (W x00 x00 x00 x00 x00 x00 x00 x00)
(L (W x32 xe0 xff xff xbe x00 x00 x00)) E)
(L (W xff xff xff xff xff xff xff xff)))
(T (W x00 x00 x80 x3f x00 x00 x80 x3f)
(L (W xff xff xff xff xff xff xff xff))
(L (W x00 x00 x80 xbf x00 x00 x80 xbf)))))
(T (W x8a x01 x00 x00 xff xff xff xff)
(T (W xff xff xff xff x03 x00 x00 x00)
(T (W xff xff xff xff xff xff xff xff)
(T (W xff xff xff xff xff xff xff xff)
(L (W x00 x00 x00 x00 x00 x00 x00 x00)) E)
(L (W x45 x26 x22 x84 xe4 x9c xf2 xcb)))
(T (W x02 x00 x00 x00 xff xff xff xff)
(L (W x00 x00 x00 x00 x12 x00 x00 x00))
(L (W x00 x00 x00 x00 x00 x00 x00 x00))))
(T (W x00 x00 x80 x3f x00 x00 x80 x3f)
(T (W x00 x00 x00 x00 x7a xfe xfc xff)
(T (W x54 x00 x00 x00 x48 x00 x00 x00)
(L (W x40 x00 x44 x00 x48 x00 x4c x00)) E)
(L (W x00 x00 x00 x00 x00 x00 x00 x00)))
(T (W x00 x00 x00 x00 x00 x00 x00 x00)
(L (W xff xff xff xff xff xff xff xff))
(L (W x45 x26 x22 x84 xe4 x9c xf2 xcb))))))))
(T (W xc4 x00 x00 x00 xb8 x00 x00 x00)
(T (W x00 x00 x80 x3f x00 x00 x80 x3f)
(T (W x00 x00 x00 x00 x00 x00 x00 x00)
(T (W x00 x00 x80 x3f x00 x00 x80 x3f)
(T (W x45 x26 x22 x84 xe4 x9c xf2 xcb)
(T (W x64 x00 x00 x00 x9c x00 x00 x00)
(T (W x00 x00 x00 x00 x02 x00 x00 x00)
(L (W x00 x00 x00 x00 x00 x00 x00 x00)) E)
(L (W x00 x00 x00 x00 x00 x00 x00 x00)))
(T (W x1d x00 x00 x00 x20 x00 x00 x00)
(L (W x00 x00 x00 x00 x00 x00 x00 x00))
(L (W xff xff xff xff xff xff xff xff))))
(T (W x00 x00 x00 x00 x00 x00 x00 x00)
(T (W xc4 x00 x00 x00 x01 x00 x00 x00)
(T (W x00 x00 x80 x3f x00 x00 x80 x3f)
(L (W xcc x00 x00 x00 x01 x00 x00 x00)) E)
(L (W x4c x45 x41 x52 x45 x44 x00 x00)))
(T (W x64 x4e xfd xff x00 x01 x01 x01)
(L (W x38 x00 x00 x00 x00 x00 x80 xbf))
(L (W xb8 x00 x00 x00 x3c x00 x00 x00)))))
(T (W x54 x00 x00 x00 x48 x00 x00 x00)
(T (W x45 x26 x22 x84 xe4 x9c xf2 xcb)
(T (W xff xff xff xff xff xff xff xff)
(T (W x18 x00 x00 x00 x0c x00 x00 x00)
(L (W x1c x00 x00 x00 x10 x00 x00 x00)) E)
(L (W x45 x44 x00 x00 x00 x00 x00 x00)))
(T (W x00 x00 x00 x00 x00 x00 x00 x00)
(L (W xff xff xff xff xff xff xff xff))
(L (W xff xff xff xff xff xff xff xff))))
(T (W xff xff xff xff xff xff xff xff)
(T (W x00 x00 x80 x3f x00 x00 x80 x3f)
(T (W x18 x00 x00 x00 x10 x00 x00 x00)
(L (W xff xff xff xff xff xff xff xff)) E)
(L (W x6c x00 x00 x00 x60 x00 x00 x00)))
(T (W x45 x26 x22 x84 xe4 x9c xf2 xcb)
(L (W x9a x69 xfe xff x74 x00 x00 x00))
(L (W xff xff xff xff xff xff xff xff))))))
(T (W x50 x00 x00 x00 x44 x00 x00 x00)
(T (W x4a xdb xfb xff x78 x00 x00 x00)
(T (W x00 x00 x80 x3f x00 x00 x80 x3f)
(T (W xff xff xff xff xff xff xff xff)
(T (W xff xff xff xff xff xff xff xff)
(L (W x00 x00 x00 x00 x00 x00 x00 x00)) E)
(L (W x45 x26 x22 x84 xe4 x9c xf2 xcb)))
(T (W xff xff xff xff xff xff xff xff)
(L (W x18 x00 x00 x00 x0c x00 x00 x00))
(L (W x30 x33 x5f x43 x4c x45 x41 x52))))
(T (W x00 x00 x00 x00 x00 x00 x00 x00)
(T (W xd8 xb4 xf1 xdc x8a x8c x84 x82)
(T (W x18 x00 x00 x00 x10 x00 x00 x00)
(L (W xff xff xff xff xa8 x00 x00 x00)) E)
(L (W x49 xa1 x68 x4a xeb x5f xdd x3d)))
(T (W xff xff xff xff xff xff xff xff)
(L (W xd0 x5c xfe xff xfa x97 xfe xff))
(L (W xff xff xff xff xff xff xff xff)))))
(T (W x45 x26 x22 x84 xe4 x9c xf2 xcb)
(T (W x00 x00 x00 x00 x00 x00 x00 x00)
(T (W x00 x00 x00 x00 xd4 xbc xfc xff)
(T (W x1a x00 x00 x00 x67 x72 x6f x75)
(L (W x18 x00 x00 x00 x0c x00 x00 x00)) E)
(L (W x45 x44 x00 x00 x00 x00 x00 x00)))
(T (W x00 x00 x80 x3f x00 x00 x80 x3f)
(L (W x70 x00 x00 x00 x64 x00 x00 x00))
(L (W xff xff xff xff xff xff xff xff))))
(T (W xff xff xff xff xff xff xff xff)
(T (W x00 x00 x80 x3f x00 x00 x80 x3f)
(T (W x30 x33 x5f x43 x4c x45 x41 x52)
(L (W x00 x00 x00 x00 xa8 xf9 xff xff)) E)
(L (W x18 x00 x00 x00 x0c x00 x00 x00)))
(T (W xff xff xff xff xa0 x00 x00 x00)
(L (W x00 x00 x80 xbf x00 x00 x80 xbf))
(L (W x00 x00 x00 x00 x00 x00 x00 x00)))))))
(T (W xff xff xff xff xff xff xff xff)
(T (W x40 x00 x00 x00 x9c x00 x00 x00)
(T (W x00 x00 x80 x3f x00 x00 x80 x3f)
(T (W x45 x26 x22 x84 xe4 x9c xf2 xcb)
(T (W xff xff xff xff x03 x00 x00 x00)
(T (W xff xff xff xff xff xff xff xff)
(L (W x00 x00 x00 x00 x00 x00 x00 x00)) E)
(L (W x49 xa1 x68 x4a xeb x5f xdd x3d)))
(T (W xff xff xff xff xff xff xff xff)
(L (W x45 x26 x22 x84 xe4 x9c xf2 xcb))
(L (W x12 x2a xff xff x8a x01 x00 x00))))
(T (W x00 x00 x00 x00 x00 x00 x00 x00)
(T (W xff xff xff xff xff xff xff xff)
(T (W x18 x00 x00 x00 x0c x00 x00 x00)
(L (W x00 x00 x00 x00 xd4 xd4 xff xff)) E)
(L (W x00 x00 x00 x00 x00 x00 x00 x00)))
(T (W xff xff xff xff xff xff xff xff)
(L (W x44 x00 x00 x00 x00 x00 x80 xbf))
(L (W xff xff xff xff xff xff xff xff)))))
(T (W x00 x00 x80 x3f x00 x00 x80 x3f)
(T (W x00 x00 x00 x00 x00 x00 x00 x00)
(T (W xff xff xff xff x04 x00 x00 x00)
(T (W x00 x00 x80 x3f x00 x00 x80 x3f)
(L (W x68 x00 x00 x00 x5c x00 x00 x00)) E)
(L (W xb4 x05 x00 x00 x84 x04 x00 x00)))
(T (W x00 x00 x00 x00 x00 x00 x00 x00)
(L (W x64 x36 xfe xff x00 x01 x01 x01))
(L (W xff xff xff xff xff xff xff xff))))
(T (W x4c x00 x00 x00 xff xff xff xff)
(T (W x00 x00 x80 x3f x00 x00 x80 x3f)
(T (W x54 x00 x00 x00 x58 x00 x00 x00)
(L (W x18 x00 x00 x00 x10 x00 x00 x00)) E)
(L (W x45 x26 x22 x84 xe4 x9c xf2 xcb)))
(T (W x00 x00 x80 x3f x00 x00 x80 x3f)
(L (W x6c x00 x00 x00 x60 x00 x00 x00))
(L (W x60 x04 x00 x00 x50 x03 x00 x00))))))
(T (W x00 x00 x80 x3f x00 x00 x80 x3f)
(T (W x00 x00 x80 x3f x00 x00 x80 x3f)
(T (W x00 x00 x00 x00 x00 x00 x00 x00)
(T (W xf4 xa9 xfc xff x3c x00 x00 x00)
(T (W x64 x00 x00 x00 x9c x00 x00 x00)
(L (W x00 x00 x00 x00 x00 x00 x00 x00)) E)
(L (W x32 xa4 xfe xff xa9 x01 x00 x00)))
(T (W x04 x00 x00 x00 x5a x32 xfd xff)
(L (W x00 x00 x80 xbf x00 x00 x80 xbf))
(L (W xff xff xff xff xff xff xff xff))))
(T (W x00 x00 x00 x00 x04 x00 x00 x00)
(T (W x00 x00 x00 x00 x00 x00 x00 x00)
(T (W x00 x00 x00 x00 x00 x00 x00 x00)
(L (W x18 x00 x1c x00 x20 x00 x24 x00)) E)
(L (W x9a xe1 xfe xff x74 x00 x00 x00)))
(T (W x12 x00 x00 x00 x46 x53 x59 x53)
(L (W x6c x00 x00 x00 x60 x00 x00 x00))
(L (W x00 x00 x00 x00 x04 x00 x00 x00)))))
(T (W x00 x00 x00 x00 x00 x00 x00 x00)
(T (W x40 x00 x00 x00 x0c x00 x00 x00)
(T (W x00 x00 x80 x3f x00 x00 x80 x3f)
(T (W x45 x26 x22 x84 xe4 x9c xf2 xcb)
(L (W x00 x00 x00 x00 xa8 xc1 xff xff)) E)
(L (W x00 x00 x00 x00 x5a xd2 xfe xff)))
(T (W x00 x00 x80 x3f x00 x00 x80 x3f)
(L (W x4a x43 xfe xff x78 x00 x00 x00))
(L (W xc4 x00 x00 x00 x01 x00 x00 x00))))
(T (W xff xff xff xff xff xff xff xff)
(T (W x6c x00 x00 x00 x60 x00 x00 x00)
(L (W x6c x00 x00 x00 x60 x00 x00 x00))
(L (W xb0 x00 x00 x00 x64 x00 x00 x00)))
(T (W x64 x00 x00 x00 x9c x00 x00 x00)
(L (W x00 x00 x80 xbf x00 x00 x80 xbf))
(L (W x00 x00 x00 x00 x00 x00 x00 x00)))))))))))))
(T (W xc0 x11 x04 x00 x1c x0d x04 x00)
(T (W x10 xd1 x03 x00 xb4 xce x03 x00)
(T (W x20 x1c x03 x00 x74 x14 x03 x00)
(T (W x98 x48 x02 x00 x1c x46 x02 x00)
(T (W x10 xd8 x00 x00 xdc xd6 x00 x00)
(T (W xff xff xff xff xff xff xff xff)
(T (W x00 x00 x80 x3f x00 x00 x80 x3f)
(T (W x00 x00 x80 x3f x00 x00 x80 x3f)
(T (W x00 x00 x00 x00 x00 x00 x00 x00)
(T (W x6d x01 x00 x00 xff xff xff xff)
(T (W x00 x00 x80 x3f x00 x00 x80 x3f)
(T (W x00 x00 x80 x3f x00 x00 x80 x3f)
(L (W xff xff xff xff xff xff xff xff)) E)
(L (W x00 x00 x00 x00 x00 x00 x00 x00)))
(T (W x00 x00 x00 x00 x00 x00 x00 x00)
(L (W x00 x00 x00 x00 x00 x00 x00 x00))
(L (W x00 x00 x80 xbf x00 x00 x80 xbf))))
(T (W xff xff xff xff x04 x00 x00 x00)
(T (W x00 x00 x00 x00 x00 x00 x00 x00)
(T (W xff xff xff xff xff xff xff xff)
(L (W x00 x00 x80 xbf x00 x00 x80 xbf)) E)
(L (W x29 x00 x00 x00 x2c x00 x00 x00)))
(T (W x00 x00 x00 x00 x00 x00 x00 x00)
(L (W x00 x00 x00 x00 x00 x00 x00 x00))
(L (W x00 x00 x80 xbf x00 x00 x80 xbf)))))
(T (W x00 x00 x00 x00 x00 x00 x00 x00)
(T (W xc2 x6c xff xff x00 x00 x01 x01)
(T (W x40 x00 x44 x00 x48 x00 x4c x00)
(T (W x00 x00 x80 x3f x00 x00 x80 x3f)
(L (W xff xff xff xff xff xff xff xff)) E)
(L (W x18 x00 x00 x00 x0c x00 x00 x00)))
(T (W x29 x00 x00 x00 x2c x00 x00 x00)
(L (W x00 x00 x00 x00 x00 x00 x00 x00))
(L (W x74 x00 x00 x00 x68 x00 x00 x00))))
(T (W xff xff xff xff x03 x00 x00 x00)
(T (W xff xff xff xff xff xff xff xff)
(T (W x68 x00 x00 x00 x00 x00 x62 x00)
(L (W xff xff xff xff xff xff xff xff)) E)
(L (W x00 x00 x00 x00 x00 x00 x00 x00)))
(T (W xff xff xff xff xff xff xff xff)
(L (W x00 x00 x00 x00 x00 x00 x00 x00))
(L (W x03 x00 x00 x00 xc8 x00 x00 x00))))))
(T (W x00 x00 x80 x3f x00 x00 x80 x3f)
(T (W x00 x00 x00 x00 x00 x00 x00 x00)
(T (W xff xff xff xff xff xff xff xff)
(T (W x00 x00 x80 x3f x00 x00 x80 x3f)
(T (W x50 x00 x00 x00 x44 x00 x00 x00)
(L (W xff xff xff xff xff xff xff xff)) E)
(L (W x00 x00 x00 x00 x0a x96 xfe xff)))
(T (W x00 x00 x80 x3f x00 x00 x80 x3f)
(L (W x4f x84 x6f x8b xe8 xcb x63 xb7))
(L (W xff xff xff xff xb0 x00 x00 x00))))
(T (W xb8 x00 x00 x00 xac x00 x00 x00)
(T (W x50 x00 x00 x00 x44 x00 x00 x00)
(T (W x45 x26 x22 x84 xe4 x9c xf2 xcb)
(L (W x00 x00 x00 x00 x00 x00 x00 x00)) E)
(L (W x72 xea xfe xff xaa x01 x00 x00)))
(T (W x00 x00 x80 x3f x00 x00 x80 x3f)
(L (W x00 x00 x00 x00 x12 x00 x00 x00))
(L (W x00 x00 x80 xbf x00 x00 x80 xbf)))))
(T (W x00 x00 x00 x00 x00 x00 x00 x00)
(T (W xff xff xff xff xff xff xff xff)
(T (W x00 x00 x80 x3f x00 x00 x80 x3f)
(T (W x00 x00 x00 x00 x00 x00 x00 x00)
(L (W x00 x00 x00 x00 x00 x00 x00 x00)) E)
(L (W x03 x00 x00 x00 xd8 x00 x00 x00)))
(T (W xff xff xff xff xff xff xff xff)
(L (W x00 x00 x00 x00 x00 x00 x00 x00))
(L (W x00 x01 x01 x01 x9a x39 xff xff))))
(T (W x45 x26 x22 x84 xe4 x9c xf2 xcb)
(T (W x46 x53 x59 x53 x5f x4e x53 x5f)
(T (W xff xff xff xff xff xff xff xff)
(L (W x45 x26 x22 x84 xe4 x9c xf2 xcb)) E)
(L (W x45 x26 x22 x84 xe4 x9c xf2 xcb)))
(T (W x12 x00 x00 x00 x46 x53 x59 x53)
(L (W x00 x00 x00 x00 x00 x00 x00 x00))
(L (W x03 x00 x00 x00 xc8 x00 x00 x00)))))))
(T (W x70 x5f x6c x65 x61 x64 x65 x72)
(T (W x5f x77 x69 x6c x64 x5f x70 x6f)
(T (W x00 x00 x00 x00 x00 x00 x00 x00)
(T (W xff xff xff xff xff xff xff xff)
(T (W x00 x00 x80 x3f x00 x00 x80 x3f)
(T (W xb8 x00 x00 x00 xac x00 x00 x00)
(L (W xff xff xff xff xff xff xff xff)) E)
(L (W x92 x8c xfe xff xaa x01 x00 x00)))
(T (W x00 x00 x80 x3f x00 x00 x80 x3f)
(L (W x76 x32 x00 x00 xea xdc xff xff))
(L (W x00 x00 x80 xbf x00 x00 x80 xbf))))
(T (W x18 x00 x00 x00 x10 x00 x00 x00)
(T (W x00 x00 x80 x3f x00 x00 x80 x3f)
(T (W x00 x00 x00 x00 x00 x00 x00 x00)
(L (W x00 x00 x80 xbf x00 x00 x80 xbf)) E)
(L (W xff xff xff xff xff xff xff xff)))
(T (W x00 x00 x00 x00 x00 x00 x00 x00)
(L (W x00 x00 x00 x00 x00 x00 x00 x00))
(L (W x00 x00 x80 xbf x00 x00 x80 xbf)))))
(T (W x00 x00 x00 x00 x00 x00 x00 x00)
(T (W xff xff xff xff xff xff xff xff)
(T (W x54 x00 x00 x00 x48 x00 x00 x00)
(T (W x45 x26 x22 x84 xe4 x9c xf2 xcb)
(L (W x4f x84 x6f x8b xe8 xcb x63 xb7)) E)
(L (W xff xff xff xff xc4 x00 x00 x00)))
(T (W xff xff xff xff xbc x00 x00 x00)
(L (W x68 x00 x00 x00 x5c x00 x00 x00))
(L (W x45 x26 x22 x84 xe4 x9c xf2 xcb))))
(T (W x00 x00 x00 x00 x34 x6d xfc xff)
(T (W x92 xec xfc xff x4a x00 x00 x00)
(T (W x49 xa1 x68 x4a xeb x5f xdd x3d)
(L (W x68 x00 x00 x00 x5c x00 x00 x00)) E)
(L (W x00 x00 x00 x00 x00 x00 x00 x00)))
(T (W x40 x70 xbf xa0 x52 x1d x8a xa9)
(L (W x00 x00 x00 x00 x00 x00 x00 x00))
(L (W x00 x00 x80 xbf x00 x00 x80 xbf))))))
(T (W x00 x00 x00 x00 x00 x00 x00 x00)
(T (W x00 x00 x00 x00 x00 x00 x00 x00)
(T (W xff xff xff xff xff xff xff xff)
(T (W x00 x00 x80 x3f x00 x00 x80 x3f)
(T (W x68 x00 x00 x00 x5c x00 x00 x00)
(L (W xff xff xff xff xff xff xff xff)) E)
(L (W xff xff xff xff xff xff xff xff)))
(T (W x00 x00 x80 x3f x00 x00 x80 x3f)
(L (W x45 x26 x22 x84 xe4 x9c xf2 xcb))
(L (W xff xff xff xff xff xff xff xff))))
(T (W xc0 x00 x00 x00 xb4 x00 x00 x00)
(T (W x03 x00 x00 x00 xd0 x00 x00 x00)
(T (W x45 x26 x22 x84 xe4 x9c xf2 xcb)
(L (W x49 xa1 x68 x4a xeb x5f xdd x3d)) E)
(L (W x00 x00 x00 x00 xda xda xfe xff)))
(T (W xc4 x5e xfd xff x00 x01 x01 x01)
(L (W x00 x00 x00 x00 x00 x00 x00 x00))
(L (W x68 x00 x00 x00 x5c x00 x00 x00)))))
(T (W x83 x1e x48 x96 x0d xbe xa1 x0e)
(T (W xff xff xff xff xff xff xff xff)
(T (W x00 x00 x00 x00 x00 x00 x00 x00)
(T (W x00 x00 x00 x00 x02 x00 x00 x00)
(L (W x49 xa1 x68 x4a xeb x5f xdd x3d)) E)
(L (W xff xff xff xff xbc x00 x00 x00)))
(T (W x00 x00 x00 x00 x00 x00 x00 x00)
(L (W x00 x00 x00 x00 x00 x00 x00 x00))
(L (W x00 x00 x80 xbf x00 x00 x80 xbf))))
(T (W x50 x00 x00 x00 x44 x00 x00 x00)
(T (W x00 x00 x00 x00 x00 x00 x00 x00)
(T (W xff xff xff xff xff xff xff xff)
(L (W x00 x00 x80 xbf x00 x00 x80 xbf)) E)
(L (W x49 xa1 x68 x4a xeb x5f xdd x3d)))
(T (W x00 x00 x80 x3f x00 x00 x80 x3f)
(L (W x20 x00 x00 x00 x10 x00 x00 x00))
(L (W xff xff xff xff xff xff xff xff))))))))
(T (W x45 x26 x22 x84 xe4 x9c xf2 xcb)
(T (W x45 x26 x22 x84 xe4 x9c xf2 xcb)
(T (W x00 x00 x00 x00 x00 x00 x00 x00)
(T (W x18 x00 x00 x00 x10 x00 x00 x00)
(T (W x00 x00 x80 x3f x00 x00 x80 x3f)
(T (W x00 x00 x00 x00 x04 x00 x00 x00)
(T (W x00 x00 x00 x00 x00 x00 x00 x00)
(L (W x00 x00 x80 xbf x00 x00 x80 xbf)) E)
(L (W x00 x00 x80 xbf x00 x00 x80 xbf)))
(T (W xff xff xff xff xff xff xff xff)
(L (W x00 x00 x00 x00 x00 x00 x00 x00))
(L (W xff xff xff xff xff xff xff xff))))
(T (W x00 x00 x00 x00 x00 x00 x00 x00)
(T (W xff xff xff xff xff xff xff xff)
(T (W xc4 xca xfd xff x00 x01 x01 x01)
(L (W xff xff xff xff xff xff xff xff)) E)
(L (W x00 x00 x80 xbf x00 x00 x80 xbf)))
(T (W xff xff xff xff x9c x00 x00 x00)
(L (W xff xff xff xff xff xff xff xff))
(L (W xff xff xff xff xff xff xff xff)))))
(T (W x68 x00 x00 x00 x5c x00 x00 x00)
(T (W x45 x26 x22 x84 xe4 x9c xf2 xcb)
(T (W xff xff xff xff xff xff xff xff)
(T (W xff xff xff xff xff xff xff xff)
(L (W x00 x00 x80 xbf x00 x00 x80 xbf)) E)
(L (W x00 x00 x00 x00 x00 x00 x00 x00)))
(T (W x00 x00 x00 x00 x00 x00 x00 x00)
(L (W xff xff xff xff xff xff xff xff))
(L (W x00 x00 x00 x00 x00 x00 x00 x00))))
(T (W x40 x00 x00 x00 x0c x00 x00 x00)
(T (W x00 x00 x80 x3f x00 x00 x80 x3f)
(T (W x6c x00 x00 x00 x60 x00 x00 x00)
(L (W x00 x00 x00 x00 x00 x00 x00 x00)) E)
(L (W x45 x26 x22 x84 xe4 x9c xf2 xcb)))
(T (W x00 x00 x80 x3f x00 x00 x80 x3f)
(L (W x00 x00 x00 x00 xc8 x6a xfe xff))
(L (W x54 x6e xff xff x29 x00 x00 x00))))))
(T (W x18 x00 x00 x00 x0c x00 x00 x00)
(T (W x45 x26 x22 x84 xe4 x9c xf2 xcb)
(T (W x00 x00 x80 x3f x00 x00 x80 x3f)
(T (W x43 x00 x00 x00 xff xff xff xff)
(T (W x00 x00 x00 x00 x92 xb5 xff xff)
(L (W x00 x00 x80 xbf x00 x00 x80 xbf)) E)
(L (W x00 x00 x80 xbf x00 x00 x80 xbf)))
(T (W x72 x2e xfd xff x4b x00 x00 x00)
(L (W xc4 x00 x00 x00 x01 x00 x00 x00))
(L (W x00 x00 x00 x00 x00 x00 x00 x00))))
(T (W x00 x00 x00 x00 x00 x00 x00 x00)
(T (W x46 x53 x59 x53 x5f x4e x53 x5f)
(T (W x49 x00 x00 x00 xff xff xff xff)
(L (W xff xff xff xff xff xff xff xff)) E)
(L (W x00 x00 x80 xbf x00 x00 x80 xbf)))
(T (W x00 x00 x00 x00 x00 x00 x00 x00)
(L (W xff xff xff xff xff xff xff xff))
(L (W x04 x00 x00 x00 x7c x03 x00 x00)))))
(T (W x45 x26 x22 x84 xe4 x9c xf2 xcb)
(T (W x00 x00 x80 x3f x00 x00 x80 x3f)
(T (W x40 x00 x00 x00 x9c x00 x00 x00)
(T (W xff xff xff xff xff xff xff xff)
(L (W xff xff xff xff x94 x00 x00 x00)) E)
(L (W x00 x00 x00 x00 x00 x00 x00 x00)))
(T (W x54 x00 x00 x00 x48 x00 x00 x00)
(L (W xff xff xff xff xff xff xff xff))
(L (W xff xff xff xff xff xff xff xff))))
(T (W x00 x00 x00 x00 x00 x00 x00 x00)
(T (W xff xff xff xff xb0 x00 x00 x00)
(T (W x00 x00 x80 x3f x00 x00 x80 x3f)
(L (W x00 x00 x00 x00 x00 x00 x00 x00)) E)
(L (W xb8 x00 x00 x00 x64 x00 x00 x00)))
(T (W x03 x00 x00 x00 xcc x00 x00 x00)
(L (W x1c x00 x00 x00 x10 x00 x00 x00))
(L (W x92 x78 xff xff x25 x00 x00 x00)))))))
(T (W x00 x00 x80 x3f x00 x00 x80 x3f)
(T (W xff xff xff xff x04 x00 x00 x00)
(T (W x01 x00 x00 x00 xa0 x00 x00 x00)
(T (W x54 x00 x00 x00 x48 x00 x00 x00)
(T (W xff xff xff xff xff xff xff xff)
(T (W x00 x00 x00 x00 x00 x00 x00 x00)
(L (W x00 x00 x00 x00 x00 x00 x00 x00)) E)
(L (W x00 x00 x80 xbf x00 x00 x80 xbf)))
(T (W xff xff xff xff xff xff xff xff)
(L (W x00 x00 x80 x3f x00 x00 x80 x3f))
(L (W x28 x00 x00 x00 x10 x00 x00 x00))))
(T (W x45 x26 x22 x84 xe4 x9c xf2 xcb)
(T (W x92 xd0 xfc xff x4b x00 x00 x00)
(T (W xff xff xff xff xff xff xff xff)
(L (W xff xff xff xff xff xff xff xff)) E)
(L (W x00 x00 x80 xbf x00 x00 x80 xbf)))
(T (W xff xff xff xff xff xff xff xff)
(L (W xff xff xff xff xff xff xff xff))
(L (W xff xff xff xff xff xff xff xff)))))
(T (W xc4 xf2 xfb xff x00 x01 x01 x01)
(T (W x00 x00 x80 x3f x00 x00 x80 x3f)
(T (W xff xff xff xff xff xff xff xff)
(T (W xff xff xff xff xff xff xff xff)
(L (W xc4 xb2 xff xff x00 x01 x01 x01)) E)
(L (W x46 x53 x59 x53 x5f x4e x53 x5f)))
(T (W x49 xa1 x68 x4a xeb x5f xdd x3d)
(L (W x68 x00 x00 x00 x5c x00 x00 x00))
(L (W x30 x33 x5f x43 x4c x45 x41 x52))))
(T (W x00 x00 x00 x00 x00 x00 x00 x00)
(T (W x00 x00 x00 x00 x34 xf1 xfc xff)
(T (W xac x06 xfe xff x21 x00 x00 x00)
(L (W x00 x00 x00 x00 x00 x00 x00 x00)) E)
(L (W xff xff xff xff xff xff xff xff)))
(T (W xfa x6d xfd xff x74 x00 x00 x00)
(L (W xff xff xff xff x94 x00 x00 x00))
(L (W x45 x44 x00 x00 x00 x00 x00 x00))))))
(T (W xfa xbd xfb xff x74 x00 x00 x00)
(T (W x45 x26 x22 x84 xe4 x9c xf2 xcb)
(T (W x45 x26 x22 x84 xe4 x9c xf2 xcb)
(T (W xff xff xff xff xff xff xff xff)
(T (W xfa xbb xff xff x00 x00 x01 x01)
(L (W x00 x00 x80 xbf x00 x00 x80 xbf)) E)
(L (W x00 x00 x60 x00 x00 x00 x00 x00)))
(T (W x00 x00 x00 x00 x00 x00 x00 x00)
(L (W x00 x00 x80 xbf x00 x00 x80 xbf))
(L (W x00 x00 x00 x00 x12 x00 x00 x00))))
(T (W x00 x00 x00 x00 x00 x00 x00 x00)
(T (W x00 x00 x00 x00 x00 x00 x00 x00)
(T (W xff xff xff xff xff xff xff xff)
(L (W x18 x00 x00 x00 x0c x00 x00 x00)) E)
(L (W xc4 xe2 xfe xff x00 x01 x01 x01)))
(T (W x54 x66 xfd xff x11 x00 x00 x00)
(L (W x30 x61 xfe xff x5a x9c xfe xff))
(L (W x30 x33 x5f x43 x4c x45 x41 x52)))))
(T (W x18 x00 x00 x00 x0c x00 x00 x00)
(T (W x00 x00 x80 x3f x00 x00 x80 x3f)
(T (W x45 x26 x22 x84 xe4 x9c xf2 xcb)
(T (W x00 x00 x80 x3f x00 x00 x80 x3f)
(L (W xc4 x00 x00 x00 x02 x00 x00 x00)) E)
(L (W x4f x84 x6f x8b xe8 xcb x63 xb7)))
(T (W x18 x00 x00 x00 x0c x00 x00 x00)
(L (W xff xff xff xff xff xff xff xff))
(L (W xff xff xff xff xff xff xff xff))))
(T (W x00 x00 x00 x00 x00 x00 x00 x00)
(T (W x18 x00 x00 x00 x10 x00 x00 x00)
(T (W x00 x00 x00 x00 x00 x00 x00 x00)
(L (W xff xff xff xff xff xff xff xff)) E)
(L (W xff xff xff xff xff xff xff xff)))
(T (W xff xff xff xff x02 x00 x00 x00)
(L (W x00 x00 x00 x00 xf8 x41 xff xff))
(L (W x4f x84 x6f x8b xe8 xcb x63 xb7)))))))))
(T (W x45 x26 x22 x84 xe4 x9c xf2 xcb)
(T (W x00 x00 x00 x00 x00 x00 x00 x00)
(T (W xff xff xff xff xff xff xff xff)
(T (W xc8 x01 x00 x00 xff xff xff xff)
(T (W x00 x00 x80 x3f x00 x00 x80 x3f)
(T (W x00 x00 x00 x00 x00 x00 x00 x00)
(T (W xff xff xff xff xff xff xff xff)
(T (W xff xff xff xff xff xff xff xff)
(L (W x00 x00 x00 x00 x00 x00 x00 x00)) E)
(L (W x49 xa1 x68 x4a xeb x5f xdd x3d)))
(T (W xaa x05 xfd xff x78 x00 x00 x00)
(L (W xff xff xff xff xff xff xff xff))
(L (W x00 x00 x00 x00 x34 x07 xff xff))))
(T (W x40 x00 x00 x00 x10 x00 x00 x00)
(T (W x00 x00 x80 x3f x00 x00 x80 x3f)
(T (W x00 x00 x00 x00 x00 x00 x00 x00)
(L (W xa0 x00 x00 x00 x64 x00 x00 x00)) E)
(L (W x00 x00 x00 x00 x06 x00 x00 x00)))
(T (W x00 x00 x80 x3f x00 x00 x80 x3f)
(L (W x6c x00 x00 x00 x60 x00 x00 x00))
(L (W xbc x00 x00 x00 x02 x00 x00 x00)))))
(T (W x00 x00 x80 x3f x00 x00 x80 x3f)
(T (W x00 x00 x00 x00 x00 x00 x00 x00)
(T (W xc4 x00 x00 x00 xb8 x00 x00 x00)
(T (W xfa xa3 xfd xff x74 x00 x00 x00)
(L (W x54 xac xff xff x18 x00 x00 x00)) E)
(L (W xff xff xff xff xff xff xff xff)))
(T (W xff xff xff xff xff xff xff xff)
(L (W x00 x00 x80 xbf x00 x00 x80 xbf))
(L (W xff xff xff xff xff xff xff xff))))
(T (W xff xff xff xff xff xff xff xff)
(T (W x00 x00 x00 x00 x00 x00 x00 x00)
(T (W xff xff xff xff xff xff xff xff)
(L (W x00 x00 x00 x00 x00 x00 x00 x00)) E)
(L (W x00 x00 x80 xbf x00 x00 x80 xbf)))
(T (W x00 x00 x00 x00 x00 x00 x00 x00)
(L (W x00 x00 x80 xbf x00 x00 x80 xbf))
(L (W xff xff xff xff xff xff xff xff))))))
(T (W x00 x00 x80 x3f x00 x00 x80 x3f)
(T (W x00 x00 x00 x00 x00 x00 x00 x00)
(T (W x00 x00 x00 x00 x00 x00 x00 x00)
(T (W xc4 x98 xfc xff x00 x01 x01 x01)
(T (W xff xff xff xff xff xff xff xff)
(L (W x54 x9c xff xff x16 x00 x00 x00)) E)
(L (W x00 x00 x00 x00 x00 x00 x00 x00)))
(T (W x18 x00 x00 x00 x0c x00 x00 x00)
(L (W x54 x00 x00 x00 x48 x00 x00 x00))
(L (W xff xff xff xff xff xff xff xff))))
(T (W xff xff xff xff xff xff xff xff)
(T (W xff xff xff xff xff xff xff xff)
(T (W x68 x00 x00 x00 x5c x00 x00 x00)
(L (W x14 x00 x00 x00 x0c x00 x00 x00)) E)
(L (W x00 x00 x00 x00 x00 x00 x00 x00)))
(T (W x18 x00 x00 x00 x10 x00 x00 x00)
(L (W xaa x55 xfe xff x78 x00 x00 x00))
(L (W x03 x00 x00 x00 xd0 x00 x00 x00)))))
(T (W x45 x26 x22 x84 xe4 x9c xf2 xcb)
(T (W x00 x00 x00 x00 x00 x00 x00 x00)
(T (W x5c x00 x60 x00 x62 x00 x00 x00)
(T (W x00 x00 x80 x3f x00 x00 x80 x3f)
(L (W x00 x00 x80 xbf x00 x00 x80 xbf)) E)
(L (W xff xff xff xff xff xff xff xff)))
(T (W x00 x00 x00 x00 x00 x00 x00 x00)
(L (W xaa x35 xfe xff x78 x00 x00 x00))
(L (W x18 x00 x00 x00 x0c x00 x00 x00))))
(T (W xff xff xff xff xff xff xff xff)
(T (W x49 xa1 x68 x4a xeb x5f xdd x3d)
(T (W x91 x00 x00 x00 xb4 x00 x00 x00)
(L (W x50 x00 x00 x00 x44 x00 x00 x00)) E)
(L (W x50 x00 x00 x00 x44 x00 x00 x00)))
(T (W x50 x00 x00 x00 x44 x00 x00 x00)
(L (W x00 x00 x80 xbf x00 x00 x80 xbf))
(L (W xff xff xff xff xff xff xff xff)))))))
(T (W xff xff xff xff xff xff xff xff)
(T (W x00 x00 x00 x00 x00 x00 x00 x00)
(T (W x45 x26 x22 x84 xe4 x9c xf2 xcb)
(T (W x00 x00 x00 x00 x00 x00 x00 x00)
(T (W x64 x00 x00 x00 x9c x00 x00 x00)
(T (W xff xff xff xff xff xff xff xff)
(L (W x45 x44 x00 x00 x00 x00 x00 x00)) E)
(L (W x00 x00 x00 x00 x00 x00 x00 x00)))
(T (W x68 x00 x00 x00 x5c x00 x00 x00)
(L (W x00 x00 x00 x00 x00 x00 x00 x00))
(L (W xff xff xff xff xff xff xff xff))))
(T (W xfa x69 xfe xff x00 x00 x01 x01)
(T (W xff xff xff xff xb0 x00 x00 x00)
(T (W x00 x00 x80 x3f x00 x00 x80 x3f)
(L (W xc4 xd0 xff xff x00 x01 x01 x01)) E)
(L (W x00 x00 x00 x00 x00 x00 x00 x00)))
(T (W x45 x26 x22 x84 xe4 x9c xf2 xcb)
(L (W xfa x4b xfe xff x74 x00 x00 x00))
(L (W xfa x4b xff xff x74 x00 x00 x00)))))
(T (W x00 x00 x80 x3f x00 x00 x80 x3f)
(T (W x00 x00 x00 x00 x00 x00 x00 x00)
(T (W xff xff xff xff xff xff xff xff)
(T (W x68 x00 x00 x00 x5c x00 x00 x00)
(L (W x00 x00 x80 xbf x00 x00 x80 xbf)) E)
(L (W xff xff xff xff xff xff xff xff)))
(T (W x4c x45 x41 x52 x45 x44 x00 x00)
(L (W xff xff xff xff xff xff xff xff))
(L (W xff xff xff xff xff xff xff xff))))
(T (W xff xff xff xff xff xff xff xff)
(T (W x00 x00 x00 x00 x00 x00 x00 x00)
(T (W x00 x00 x00 x00 x00 x00 x00 x00)
(L (W xb0 x00 x00 x00 x64 x00 x00 x00)) E)
(L (W x00 x00 x80 xbf x00 x00 x80 xbf)))
(T (W x00 x00 x80 x3f x00 x00 x80 x3f)
(L (W x00 x00 x80 xbf x00 x00 x80 xbf))
(L (W xff xff xff xff xff xff xff xff))))))
(T (W x00 x00 x80 x3f x00 x00 x80 x3f)
(T (W x00 x00 x80 x3f x00 x00 x80 x3f)
(T (W x00 x00 x00 x00 x00 x00 x00 x00)
(T (W x50 x00 x00 x00 x44 x00 x00 x00)
(T (W xff xff xff xff xff xff xff xff)
(L (W x00 x00 x00 x00 x00 x00 x00 x00)) E)
(L (W x00 x00 x00 x00 x00 x00 x00 x00)))
(T (W xff xff xff xff xbc x00 x00 x00)
(L (W xb0 x00 x00 x00 x64 x00 x00 x00))
(L (W x8e x01 x00 x00 xff xff xff xff))))
(T (W xff xff xff xff xff xff xff xff)
(T (W x00 x00 x00 x00 x02 x00 x00 x00)
(T (W x68 x00 x00 x00 x5c x00 x00 x00)
(L (W x00 x00 x80 xbf x00 x00 x80 xbf)) E)
(L (W x4f x84 x6f x8b xe8 xcb x63 xb7)))
(T (W xff xff xff xff xff xff xff xff)
(L (W x00 x00 x80 xbf x00 x00 x80 xbf))
(L (W xff xff xff xff xff xff xff xff)))))
(T (W x00 x00 x80 x3f x00 x00 x80 x3f)
(T (W x00 x00 x00 x00 x00 x00 x00 x00)
(T (W x00 x00 x10 x00 x14 x00 x18 x00)
(T (W x00 x00 x00 x00 x00 x00 x00 x00)
(L (W x74 x00 x00 x00 x68 x00 x00 x00)) E)
(L (W xff xff xff xff xff xff xff xff)))
(T (W x4f x84 x6f x8b xe8 xcb x63 xb7)
(L (W x50 x00 x00 x00 x44 x00 x00 x00))
(L (W x45 x26 x22 x84 xe4 x9c xf2 xcb))))
(T (W xff xff xff xff xff xff xff xff)
(T (W x00 x00 x80 x3f x00 x00 x80 x3f)
(T (W x00 x00 x00 x00 xda xfc xfd xff)
(L (W x6c x00 x08 x00 x00 x00 x00 x00)) E)
(L (W x54 x00 x00 x00 x48 x00 x00 x00)))
(T (W x68 x00 x00 x00 x5c x00 x00 x00)
(L (W x45 x26 x22 x84 xe4 x9c xf2 xcb))
(L (W x30 x33 x5f x43 x4c x45 x41 x52))))))))
(T (W xac xa8 xfb xff x3c x00 x00 x00)
(T (W x50 x00 x00 x00 x44 x00 x00 x00)
(T (W xff xff xff xff x03 x00 x00 x00)
(T (W xff xff xff xff xff xff xff xff)
(T (W xff xff xff xff xff xff xff xff)
(T (W x00 x00 x00 x00 x00 x00 x00 x00)
(T (W x00 x00 x80 x3f x00 x00 x80 x3f)
(L (W x68 x00 x00 x00 x5c x00 x00 x00)) E)
(L (W x03 x00 x00 x00 xc8 x00 x00 x00)))
(T (W x67 x67 x26 xbf x88 x9a x0d xfe)
(L (W x45 x26 x22 x84 xe4 x9c xf2 xcb))
(L (W x00 x00 x00 x00 x12 x00 x00 x00))))
(T (W xfa x47 xfc xff x74 x00 x00 x00)
(T (W x45 x44 x00 x00 x00 x00 x00 x00)
(T (W x18 x01 x00 x00 x04 x00 x00 x00)
(L (W x00 x00 x00 x00 x00 x00 x00 x00)) E)
(L (W x6c x00 x00 x00 x60 x00 x00 x00)))
(T (W x00 x00 x00 x00 x00 x00 x00 x00)
(L (W xfa x67 xfe xff xc6 x00 x00 x00))
(L (W x1b x00 x00 x00 x10 x00 x00 x00)))))
(T (W xff xff xff xff xff xff xff xff)
(T (W x18 x00 x00 x00 x0c x00 x00 x00)
(T (W x00 x00 x00 x00 x00 x00 x00 x00)
(T (W x00 x00 x00 x00 x00 x00 x00 x00)
(L (W x00 x00 x00 x00 x34 xab xff xff)) E)
(L (W x45 x26 x22 x84 xe4 x9c xf2 xcb)))
(T (W x6c x00 x00 x00 x60 x00 x00 x00)
(L (W x00 x00 x00 x00 x00 x00 x00 x00))
(L (W x00 x00 x80 xbf x00 x00 x80 xbf))))
(T (W x00 x00 x80 x3f x00 x00 x80 x3f)
(T (W xff xff xff xff xff xff xff xff)
(T (W x00 x00 x00 x00 xda xe8 xfd xff)
(L (W xff xff xff xff xff xff xff xff)) E)
(L (W x00 x00 x00 x00 x00 x00 x00 x00)))
(T (W xff xff xff xff xff xff xff xff)
(L (W xff xff xff xff xff xff xff xff))
(L (W x45 x26 x22 x84 xe4 x9c xf2 xcb))))))
(T (W x1c x01 x00 x00 x04 x00 x00 x00)
(T (W xff xff xff xff xff xff xff xff)
(T (W x18 x00 x00 x00 x10 x00 x00 x00)
(T (W x00 x00 x00 x00 x00 x00 x00 x00)
(T (W x45 x26 x22 x84 xe4 x9c xf2 xcb)
(L (W x00 x00 x00 x00 x34 x9b xff xff)) E)
(L (W xcc x00 x00 x00 x01 x00 x00 x00)))
(T (W x00 x00 x00 x00 x00 x00 x00 x00)
(L (W x04 x00 x00 x00 xea xea xff xff))
(L (W x00 x00 x00 x00 x34 x1b xff xff))))
(T (W x00 x00 x80 x3f x00 x00 x80 x3f)
(T (W x00 x00 x80 x3f x00 x00 x80 x3f)
(T (W x00 x00 x00 x00 x00 x00 x00 x00)
(L (W x00 x00 x00 x00 xda xd8 xff xff)) E)
(L (W xff xff xff xff x9c x00 x00 x00)))
(T (W x00 x00 x00 x00 x00 x00 x00 x00)
(L (W xa2 x5d xfe xff x8e x01 x00 x00))
(L (W x00 x00 x80 xbf x00 x00 x80 xbf)))))
(T (W xb8 x00 x00 x00 xac x00 x00 x00)
(T (W x00 x00 x80 x3f x00 x00 x80 x3f)
(T (W x00 x00 x00 x00 x00 x00 x00 x00)
(T (W x00 x00 x80 x3f x00 x00 x80 x3f)
(L (W x30 x33 x5f x43 x4c x45 x41 x52)) E)
(L (W x00 x00 x80 xbf x00 x00 x80 xbf)))
(T (W xb0 x00 x00 x00 x64 x00 x00 x00)
(L (W x00 x00 x00 x00 x00 x00 x00 x00))
(L (W xac x50 xff xff x14 x00 x00 x00))))
(T (W x00 x00 x00 x00 x00 x00 x00 x00)
(T (W xff xff xff xff xff xff xff xff)
(T (W x5f x53 x50 x41 x57 x4e x5f x53)
(L (W xff xff xff xff xff xff xff xff)) E)
(L (W x46 x53 x59 x53 x5f x4e x53 x5f)))
(T (W x04 x00 x00 x00 x7c x03 x00 x00)
(L (W xff xff xff xff xff xff xff xff))
(L (W x00 x00 x00 x00 x00 x00 x00 x00)))))))
(T (W x64 x5f x6c x76 x31 x00 x00 x00)
(T (W x00 x00 x00 x00 x62 xfc xfe xff)
(T (W xb0 x01 x00 x00 xff xff xff xff)
(T (W xff xff xff xff xff xff xff xff)
(T (W x45 x26 x22 x84 xe4 x9c xf2 xcb)
(T (W x45 x26 x22 x84 xe4 x9c xf2 xcb)
(L (W x45 x26 x22 x84 xe4 x9c xf2 xcb)) E)
(L (W xff xff xff xff xff xff xff xff)))
(T (W x30 x33 x5f x43 x4c x45 x41 x52)
(L (W xbc x00 x00 x00 x0a x00 x00 x00))
(L (W x00 x00 x80 xbf x00 x00 x80 xbf))))
(T (W xc4 x54 xfc xff x00 x01 x01 x01)
(T (W x00 x00 x00 x00 x00 x00 x00 x00)
(T (W x00 x00 x00 x00 x00 x00 x00 x00)
(L (W x72 xe8 xff xff xb8 x01 x00 x00)) E)
(L (W xc4 xd4 xfe xff x00 x01 x01 x01)))
(T (W x00 x00 x00 x00 x00 x00 x00 x00)
(L (W x00 x00 x00 x00 x0a x54 xfe xff))
(L (W x46 x53 x59 x53 x5f x4e x53 x5f)))))
(T (W xff xff xff xff xff xff xff xff)
(T (W xfa x2f xfc xff x74 x00 x00 x00)
(T (W x00 x00 x00 x00 x00 x00 x00 x00)
(T (W xfa xcd xff xff x00 x00 x01 x01)
(L (W xff xff xff xff xff xff xff xff)) E)
(L (W x00 x00 x80 xbf x00 x00 x80 xbf)))
(T (W xff xff xff xff xac x00 x00 x00)
(L (W xff xff xff xff x02 x00 x00 x00))
(L (W x00 x00 x00 x00 x00 x00 x00 x00))))
(T (W x00 x00 x00 x00 x00 x00 x00 x00)
(T (W xff xff xff xff xff xff xff xff)
(T (W xff xff xff xff xff xff xff xff)
(L (W xc8 x00 x00 x00 x01 x00 x00 x00)) E)
(L (W x00 x00 x00 x00 x00 x00 x00 x00)))
(T (W xff xff xff xff xff xff xff xff)
(L (W xff xff xff xff xff xff xff xff))
(L (W x00 x00 x80 xbf x00 x00 x80 xbf))))))
(T (W xff xff xff xff xff xff xff xff)
(T (W xfa xfd xfd xff x00 x00 x01 x01)
(T (W xbc x00 x00 x00 xb0 x00 x00 x00)
(T (W x00 x00 x00 x00 x00 x00 x00 x00)
(T (W x00 x00 x00 x00 x00 x00 x00 x00)
(L (W xc4 xa4 xff xff x00 x01 x01 x01)) E)
(L (W x00 x00 x80 xbf x00 x00 x80 xbf)))
(T (W x00 x00 x80 x3f x00 x00 x80 x3f)
(L (W xff xff xff xff xff xff xff xff))
(L (W x00 x00 x80 xbf x00 x00 x80 xbf))))
(T (W x00 x00 x80 x3f x00 x00 x80 x3f)
(T (W xfa xdf xfc xff x74 x00 x00 x00)
(T (W x00 x00 x80 x3f x00 x00 x80 x3f)
(L (W x68 x00 x00 x00 x00 x00 x62 x00)) E)
(L (W xff xff xff xff xff xff xff xff)))
(T (W x00 x00 x80 x3f x00 x00 x80 x3f)
(L (W x00 x00 x00 x00 x0a x64 xfe xff))
(L (W x00 x00 x80 xbf x00 x00 x80 xbf)))))
(T (W xff xff xff xff xff xff xff xff)
(T (W x68 x00 x00 x00 x5c x00 x00 x00)
(T (W xff xff xff xff xff xff xff xff)
(T (W x18 x00 x00 x00 x10 x00 x00 x00)
(L (W xff xff xff xff xff xff xff xff)) E)
(L (W x00 x00 x80 xbf x00 x00 x80 xbf)))
(T (W xff xff xff xff xff xff xff xff)
(L (W x0b x01 x00 x00 xff xff xff xff))
(L (W x45 x44 x00 x00 x00 x00 x00 x00))))
(T (W x00 x00 x00 x00 x00 x00 x00 x00)
(T (W x00 x00 x00 x00 x00 x00 x00 x00)
(T (W x03 x00 x00 x00 xf4 x00 x00 x00)
(L (W x04 x00 x00 x00 x00 x00 x2a x00)) E)
(L (W x00 x00 x00 x00 x00 x00 x00 x00)))
(T (W x00 x00 x00 x00 x00 x00 x00 x00)
(L (W xff xff xff xff xb4 x00 x00 x00))
(L (W xc4 x84 xff xff x00 x01 x01 x01))))))))))
(T (W x50 x7e x01 x00 xac x79 x01 x00)
(T (W x50 x45 x00 x00 x1c x44 x00 x00)
(T (W x22 x9f x1b x87 xba xf4 x2c x54)
(T (W x00 x00 x80 x3f x00 x00 x80 x3f)
(T (W xff xff xff xff xff xff xff xff)
(T (W x00 x00 x00 x00 x00 x00 x00 x00)
(T (W x00 x00 x00 x00 x00 x00 x00 x00)
(T (W xc4 x87 xfc xff x00 x01 x01 x01)
(T (W xff xff xff xff x03 x00 x00 x00)
(L (W x00 x00 x00 x00 x00 x00 x00 x00)) E)
(L (W x00 x00 x00 x00 x00 x00 x00 x00)))
(T (W x45 x26 x22 x84 xe4 x9c xf2 xcb)
(L (W x00 x00 x80 x3f x00 x00 x80 x3f))
(L (W x00 x00 x80 xbf x00 x00 x80 xbf))))
(T (W xff xff xff xff xff xff xff xff)
(T (W x00 x00 x80 x3f x00 x00 x80 x3f)
(T (W x3b xba x33 x97 x85 xa8 x5f x5f)
(L (W x45 x26 x22 x84 xe4 x9c xf2 xcb)) E)
(L (W xff xff xff xff xff xff xff xff)))
(T (W x00 x00 x80 x3f x00 x00 x80 x3f)
(L (W x00 x00 x80 xbf x00 x00 x80 xbf))
(L (W x00 x00 x80 xbf x00 x00 x80 xbf)))))
(T (W x00 x00 x80 x3f x00 x00 x80 x3f)
(T (W x00 x00 x00 x00 x00 x00 x00 x00)
(T (W x45 x26 x22 x84 xe4 x9c xf2 xcb)
(T (W x68 x00 x00 x00 x5c x00 x00 x00)
(L (W xff xff xff xff xff xff xff xff)) E)
(L (W xff xff xff xff xff xff xff xff)))
(T (W xff xff xff xff xff xff xff xff)
(L (W x00 x00 x00 x00 x00 x00 x00 x00))
(L (W xff xff xff xff x94 x00 x00 x00))))
(T (W xff xff xff xff xff xff xff xff)
(T (W xde x40 xab xfc x5b x50 xa4 x4f)
(T (W x00 x00 x80 x3f x00 x00 x80 x3f)
(L (W xff xff xff xff xff xff xff xff)) E)
(L (W x4f x84 x6f x8b xe8 xcb x63 xb7)))
(T (W xff xff xff xff xff xff xff xff)
(L (W x00 x00 x80 xbf x00 x00 x80 xbf))
(L (W xff xff xff xff xff xff xff xff))))))
(T (W x00 x00 x80 x3f x00 x00 x80 x3f)
(T (W x00 x00 x00 x00 x00 x00 x00 x00)
(T (W x8a x2f xfe xff x6b x01 x00 x00)
(T (W x00 x00 x80 x3f x00 x00 x80 x3f)
(T (W xb8 x00 x00 x00 xac x00 x00 x00)
(L (W xff xff xff xff xff xff xff xff)) E)
(L (W x00 x00 x00 x00 x00 x00 x00 x00)))
(T (W x00 x00 x00 x00 x34 x16 xfd xff)
(L (W x00 x00 x80 x3f x00 x00 x80 x3f))
(L (W xff xff xff xff xff xff xff xff))))
(T (W xff xff xff xff xff xff xff xff)
(T (W xc4 x00 x00 x00 x01 x00 x00 x00)
(T (W x00 x00 x80 x3f x00 x00 x80 x3f)
(L (W x6c x00 x00 x00 x60 x00 x00 x00)) E)
(L (W x46 x53 x59 x53 x5f x4e x53 x5f)))
(T (W x68 x00 x00 x00 x5c x00 x00 x00)
(L (W x00 x00 x00 x00 x00 x00 x00 x00))
(L (W x68 x00 x00 x00 x5c x00 x00 x00)))))
(T (W x00 x00 x00 x00 x00 x00 x00 x00)
(T (W x00 x00 x00 x00 x62 x7f xff xff)
(T (W xc4 xb7 xfc xff x00 x01 x01 x01)
(T (W x45 x26 x22 x84 xe4 x9c xf2 xcb)
(L (W x00 x00 x00 x00 x00 x00 x00 x00)) E)
(L (W xff xff xff xff xff xff xff xff)))
(T (W x00 x00 x00 x00 x00 x00 x00 x00)
(L (W x00 x00 x80 xbf x00 x00 x80 xbf))
(L (W x14 x00 x00 x00 x0c x00 x00 x00))))
(T (W x64 x00 x00 x00 x9c x00 x00 x00)
(T (W x00 x00 x00 x00 x00 x00 x00 x00)
(T (W x54 xfb xfd xff x32 x00 x00 x00)
(L (W x00 x00 x80 xbf x00 x00 x80 xbf)) E)
(L (W x00 x00 x80 xbf x00 x00 x80 xbf)))
(T (W x00 x00 x00 x00 x00 x00 x00 x00)
(L (W x00 x00 x80 xbf x00 x00 x80 xbf))
(L (W xff xff xff xff xff xff xff xff)))))))
(T (W x6c x00 x00 x00 x60 x00 x00 x00)
(T (W x00 x00 x00 x00 x00 x00 x00 x00)
(T (W x00 x00 x00 x00 x00 x00 x00 x00)
(T (W x0e x1f x00 x64 x6b x98 x6d xde)
(T (W x50 x00 x00 x00 x44 x00 x00 x00)
(T (W xff xff xff xff xff xff xff xff)
(L (W xff xff xff xff xff xff xff xff)) E)
(L (W x30 x33 x5f x43 x4c x45 x41 x52)))
(T (W x00 x00 x80 x3f x00 x00 x80 x3f)
(L (W x46 x53 x59 x53 x5f x4e x53 x5f))
(L (W x00 x00 x00 x00 x34 x0e xff xff))))
(T (W xff xff xff xff xff xff xff xff)
(T (W x00 x00 x80 x3f x00 x00 x80 x3f)
(T (W x00 x00 x80 x3f x00 x00 x80 x3f)
(L (W x68 x00 x00 x00 x5c x00 x00 x00)) E)
(L (W x74 x03 x00 x00 x4c x02 x00 x00)))
(T (W x00 x00 x80 x3f x00 x00 x80 x3f)
(L (W x00 x00 x80 xbf x00 x00 x80 xbf))
(L (W x00 x00 x80 xbf x00 x00 x80 xbf)))))
(T (W x00 x00 x00 x00 x00 x00 x00 x00)
(T (W x3e x00 x00 x00 x10 x00 x00 x00)
(T (W xfa xaa xfc xff x74 x00 x00 x00)
(T (W x00 x00 x80 x3f x00 x00 x80 x3f)
(L (W x00 x00 x80 xbf x00 x00 x80 xbf)) E)
(L (W xff xff xff xff xff xff xff xff)))
(T (W x02 x00 x00 x00 xff xff xff xff)
(L (W xb0 x00 x00 x00 x64 x00 x00 x00))
(L (W xff xff xff xff xb0 x00 x00 x00))))
(T (W xff xff xff xff xff xff xff xff)
(T (W x30 x33 x5f x43 x4c x45 x41 x52)
(T (W xff xff xff xff xff xff xff xff)
(L (W xc4 xef xff xff x00 x01 x01 x01)) E)
(L (W x45 x26 x22 x84 xe4 x9c xf2 xcb)))
(T (W x00 x00 x00 x00 x00 x00 x00 x00)
(L (W x49 xa1 x68 x4a xeb x5f xdd x3d))
(L (W x18 x00 x00 x00 x0c x00 x00 x00))))))
(T (W x00 x00 x80 x3f x00 x00 x80 x3f)
(T (W x45 x26 x22 x84 xe4 x9c xf2 xcb)
(T (W x00 x00 x00 x00 x00 x00 x00 x00)
(T (W x00 x00 x80 x3f x00 x00 x80 x3f)
(T (W xfa x9a xfd xff x74 x00 x00 x00)
(L (W xff xff xff xff xff xff xff xff)) E)
(L (W x00 x00 x00 x00 x00 x00 x00 x00)))
(T (W x45 x26 x22 x84 xe4 x9c xf2 xcb)
(L (W x50 x00 x00 x00 x44 x00 x00 x00))
(L (W xff xff xff xff xff xff xff xff))))
(T (W xff xff xff xff xff xff xff xff)
(T (W xff xff xff xff xff xff xff xff)
(T (W x50 x00 x00 x00 x44 x00 x00 x00)
(L (W x00 x00 x80 xbf x00 x00 x80 xbf)) E)
(L (W x00 x00 x00 x00 x00 x00 x00 x00)))
(T (W xbc x00 x00 x00 x14 x00 x00 x00)
(L (W x49 xa1 x68 x4a xeb x5f xdd x3d))
(L (W xff xff xff xff xff xff xff xff)))))
(T (W x00 x00 x00 x00 x00 x00 x00 x00)
(T (W x1c x01 x00 x00 x04 x00 x00 x00)
(T (W xff xff xff xff xff xff xff xff)
(T (W x00 x00 x00 x00 x00 x00 x00 x00)
(L (W x00 x00 x80 xbf x00 x00 x80 xbf)) E)
(L (W xff xff xff xff xff xff xff xff)))
(T (W x00 x00 x00 x00 x00 x00 x00 x00)
(L (W x00 x00 x80 xbf x00 x00 x80 xbf))
(L (W x00 x00 x80 xbf x00 x00 x80 xbf))))
(T (W xbc x00 x00 x00 xb0 x00 x00 x00)
(T (W x00 x00 x80 x3f x00 x00 x80 x3f)
(T (W xff xff xff xff xff xff xff xff)
(L (W xff xff xff xff xff xff xff xff)) E)
(L (W x00 x00 x80 xbf x00 x00 x80 xbf)))
(T (W x00 x00 x80 x3f x00 x00 x80 x3f)
(L (W x00 x00 x00 x00 x00 x00 x00 x00))
(L (W xff xff xff xff xff xff xff xff))))))))
(T (W x18 x00 x00 x00 x10 x00 x00 x00)
(T (W x00 x00 x80 x3f x00 x00 x80 x3f)
(T (W x45 x26 x22 x84 xe4 x9c xf2 xcb)
(T (W xff xff xff xff xff xff xff xff)
(T (W xc0 x00 x00 x00 xb4 x00 x00 x00)
(T (W x00 x00 x00 x00 x00 x00 x00 x00)
(T (W x45 x26 x22 x84 xe4 x9c xf2 xcb)
(L (W x00 x00 x80 xbf x00 x00 x80 xbf)) E)
(L (W x68 x00 x00 x00 x5c x00 x00 x00)))
(T (W xff xff xff xff xff xff xff xff)
(L (W x00 x00 x80 x3f x00 x00 x80 x3f))
(L (W x34 x01 x00 x00 x04 x00 x00 x00))))
(T (W x50 x00 x00 x00 x44 x00 x00 x00)
(T (W xff xff xff xff xff xff xff xff)
(T (W x45 x26 x22 x84 xe4 x9c xf2 xcb)
(L (W x2c x0a x00 x00 xfc x08 x00 x00)) E)
(L (W x00 x00 x80 xbf x00 x00 x80 xbf)))
(T (W xff xff xff xff xff xff xff xff)
(L (W xff xff xff xff xff xff xff xff))
(L (W xff xff xff xff xff xff xff xff)))))
(T (W xb8 x00 x00 x00 xac x00 x00 x00)
(T (W x00 x00 x80 x3f x00 x00 x80 x3f)
(T (W xb7 xbd x38 x75 x73 xb5 xfc xcf)
(T (W xfa xc4 xff xff x00 x00 x01 x01)
(L (W x00 x00 x80 xbf x00 x00 x80 xbf)) E)
(L (W x00 x00 x00 x00 x00 x00 x00 x00)))
(T (W x00 x00 x80 x3f x00 x00 x80 x3f)
(L (W x00 x00 x00 x00 x01 x00 x00 x00))
(L (W x49 xa1 x68 x4a xeb x5f xdd x3d))))
(T (W x00 x00 x00 x00 x00 x00 x00 x00)
(T (W x68 x00 x00 x00 x5c x00 x00 x00)
(T (W xff xff xff xff xff xff xff xff)
(L (W x45 x26 x22 x84 xe4 x9c xf2 xcb)) E)
(L (W xff xff xff xff xff xff xff xff)))
(T (W x00 x00 x80 x3f x00 x00 x80 x3f)
(L (W xa8 x00 x00 x00 x64 x00 x00 x00))
(L (W x00 x00 x00 x00 x00 x00 x00 x00))))))
(T (W xff xff xff xff xff xff xff xff)
(T (W xff xff xff xff xff xff xff xff)
(T (W xc4 x1b xfc xff x00 x01 x01 x01)
(T (W x00 x00 x00 x00 x00 x00 x00 x00)
(T (W x00 x00 x00 x00 x00 x00 x00 x00)
(L (W x00 x00 x80 xbf x00 x00 x80 xbf)) E)
(L (W x00 x00 x80 xbf x00 x00 x80 xbf)))
(T (W x46 x53 x59 x53 x5f x4e x53 x5f)
(L (W xff xff xff xff xff xff xff xff))
(L (W x00 x00 x80 xbf x00 x00 x80 xbf))))
(T (W x00 x00 x80 x3f x00 x00 x80 x3f)
(T (W x00 x00 x00 x00 x00 x00 x00 x00)
(T (W x00 x00 x00 x00 x00 x00 x00 x00)
(L (W xff xff xff xff xff xff xff xff)) E)
(L (W x68 x00 x00 x00 x5c x00 x00 x00)))
(T (W x00 x00 x00 x00 x00 x00 x00 x00)
(L (W xff xff xff xff xff xff xff xff))
(L (W x00 x00 x00 x00 x00 x00 x00 x00)))))
(T (W x01 x00 x00 x00 x9c x00 x00 x00)
(T (W x00 x00 x80 x3f x00 x00 x80 x3f)
(T (W x00 x00 x00 x00 x00 x00 x00 x00)
(T (W x70 x5f x6c x65 x61 x64 x65 x72)
(L (W xff xff xff xff xff xff xff xff)) E)
(L (W x00 x00 x00 x00 x00 x00 x00 x00)))
(T (W xc4 x3b xfd xff x00 x01 x01 x01)
(L (W x00 x00 x00 x00 xda x37 xfe xff))
(L (W xff xff xff xff xff xff xff xff))))
(T (W x00 x00 x00 x00 x00 x00 x00 x00)
(T (W xff xff xff xff xff xff xff xff)
(T (W x00 x00 x07 x00 x68 x00 x6c x00)
(L (W x45 x26 x22 x84 xe4 x9c xf2 xcb)) E)
(L (W x72 x0f xff xff xaa x01 x00 x00)))
(T (W xff xff xff xff xff xff xff xff)
(L (W xff xff xff xff xff xff xff xff))
(L (W x30 x33 x5f x43 x4c x45 x41 x52)))))))
(T (W xff xff xff xff xff xff xff xff)
(T (W xff xff xff xff xff xff xff xff)
(T (W xff xff xff xff x03 x00 x00 x00)
(T (W xfa x0e xfc xff x74 x00 x00 x00)
(T (W x54 x97 xfc xff x3c x00 x00 x00)
(T (W x00 x00 x00 x00 x00 x00 x00 x00)
(L (W x00 x00 x80 xbf x00 x00 x80 xbf)) E)
(L (W x18 x00 x00 x00 x0c x00 x00 x00)))
(T (W x92 x11 xfd xff x4a x00 x00 x00)
(L (W xc4 x13 xfe xff x00 x01 x01 x01))
(L (W x00 x00 x00 x00 x00 x00 x00 x00))))
(T (W x00 x00 x80 x3f x00 x00 x80 x3f)
(T (W x30 x33 x5f x43 x4c x45 x41 x52)
(T (W xfa xec xff xff x00 x00 x01 x01)
(L (W xff xff xff xff xff xff xff xff)) E)
(L (W x00 x00 x80 xbf x00 x00 x80 xbf)))
(T (W xff xff xff xff x02 x00 x00 x00)
(L (W xff xff xff xff xff xff xff xff))
(L (W x00 x00 x00 x00 x00 x00 x00 x00)))))
(T (W x45 x26 x22 x84 xe4 x9c xf2 xcb)
(T (W x00 x00 x80 x3f x00 x00 x80 x3f)
(T (W x8a xcb xfe xff x36 x00 x00 x00)
(T (W xff xff xff xff xff xff xff xff)
(L (W xb0 x00 x00 x00 x14 x00 x00 x00)) E)
(L (W x00 x00 x00 x00 x00 x00 x00 x00)))
(T (W x00 x00 x80 x3f x00 x00 x80 x3f)
(L (W x03 x00 x00 x00 xcc x00 x00 x00))
(L (W x00 x00 x00 x00 x00 x00 x00 x00))))
(T (W x00 x00 x00 x00 x00 x00 x00 x00)
(T (W x18 x00 x00 x00 x0c x00 x00 x00)
(T (W x00 x00 x00 x00 x00 x00 x00 x00)
(L (W x00 x00 x00 x00 x00 x00 x00 x00)) E)
(L (W x00 x00 x00 x00 xea x05 xff xff)))
(T (W xff xff xff xff xff xff xff xff)
(L (W xc4 x00 x00 x00 x02 x00 x00 x00))
(L (W x00 x00 x00 x00 x00 x00 x00 x00))))))
(T (W xff xff xff xff x04 x00 x00 x00)
(T (W xff xff xff xff xff xff xff xff)
(T (W x50 x00 x00 x00 x44 x00 x00 x00)
(T (W x40 x00 x00 x00 x0c x00 x00 x00)
(T (W x00 x00 x00 x00 x00 x00 x00 x00)
(L (W x68 x00 x00 x00 x5c x00 x00 x00)) E)
(L (W x00 x00 x00 x00 x00 x00 x00 x00)))
(T (W x00 x00 x00 x00 x00 x00 x00 x00)
(L (W xfa x1e xfe xff x74 x00 x00 x00))
(L (W x00 x00 x00 x00 x00 x00 x00 x00))))
(T (W x00 x00 x00 x00 x00 x00 x00 x00)
(T (W x00 x00 x80 x3f x00 x00 x80 x3f)
(T (W x6c x00 x0c x00 x10 x00 x00 x00)
(L (W xff xff xff xff xff xff xff xff)) E)
(L (W xb0 x00 x00 x00 x64 x00 x00 x00)))
(T (W x00 x00 x00 x00 x00 x00 x00 x00)
(L (W xff xff xff xff xff xff xff xff))
(L (W x00 x00 x00 x00 x00 x00 x00 x00)))))
(T (W x0a x00 x00 x00 x21 x00 x00 x00)
(T (W x00 x00 x80 x3f x00 x00 x80 x3f)
(T (W xff xff xff xff xbc x00 x00 x00)
(T (W xc4 xc3 xfd xff x00 x01 x01 x01)
(L (W xff xff xff xff xff xff xff xff)) E)
(L (W x00 x00 x80 xbf x00 x00 x80 xbf)))
(T (W xff xff xff xff xff xff xff xff)
(L (W xff xff xff xff xff xff xff xff))
(L (W xff xff xff xff xff xff xff xff))))
(T (W x00 x00 x00 x00 x00 x00 x00 x00)
(T (W xff xff xff xff xff xff xff xff)
(T (W x45 x26 x22 x84 xe4 x9c xf2 xcb)
(L (W x46 x53 x59 x53 x5f x4e x53 x5f)) E)
(L (W x45 x44 x00 x00 x00 x00 x00 x00)))
(T (W x00 x00 x00 x00 x00 x00 x00 x00)
(L (W x45 x26 x22 x84 xe4 x9c xf2 xcb))
(L (W x00 x00 x80 xbf x00 x00 x80 xbf)))))))))
(T (W x64 x00 x00 x00 x9c x00 x00 x00)
(T (W x00 x00 x00 x00 x00 x00 x00 x00)
(T (W x2e x00 x00 x00 x67 x72 x6f x75)
(T (W x00 x00 x00 x00 x00 x00 x00 x00)
(T (W xc4 xc9 xfb xff x00 x01 x01 x01)
(T (W x00 x00 x80 x3f x00 x00 x80 x3f)
(T (W xff xff xff xff xff xff xff xff)
(T (W x64 x5f x6c x76 x31 x00 x00 x00)
(L (W x49 xa1 x68 x4a xeb x5f xdd x3d)) E)
(L (W x00 x00 x80 xbf x00 x00 x80 xbf)))
(T (W x1d x00 x00 x00 x20 x00 x00 x00)
(L (W x67 x72 x6f x75 x70 x5f x6c x65))
(L (W xff xff xff xff xb0 x00 x00 x00))))
(T (W x00 x00 x00 x00 x00 x00 x00 x00)
(T (W x18 x00 x00 x00 x0c x00 x00 x00)
(T (W x00 x00 x00 x00 x00 x00 x00 x00)
(L (W xc4 x00 x00 x00 x01 x00 x00 x00)) E)
(L (W x00 x00 x00 x00 x00 x00 x00 x00)))
(T (W xfa x44 xfd xff x74 x00 x00 x00)
(L (W x45 x26 x22 x84 xe4 x9c xf2 xcb))
(L (W xff xff xff xff xff xff xff xff)))))
(T (W x50 x00 x00 x00 x44 x00 x00 x00)
(T (W x00 x00 x00 x00 x00 x00 x00 x00)
(T (W xff xff xff xff xff xff xff xff)
(T (W xff xff xff xff xff xff xff xff)
(L (W x00 x00 x00 x00 x00 x00 x00 x00)) E)
(L (W x49 x00 x00 x00 xff xff xff xff)))
(T (W x00 x00 x00 x00 x00 x00 x00 x00)
(L (W x18 x00 x00 x00 x0c x00 x00 x00))
(L (W xff xff xff xff x01 x00 x00 x00))))
(T (W xff xff xff xff xff xff xff xff)
(T (W x00 x00 x80 x3f x00 x00 x80 x3f)
(T (W xdc x01 x00 x00 x68 x00 x00 x00)
(L (W x00 x00 x00 x00 x00 x00 x00 x00)) E)
(L (W x00 x00 x80 xbf x00 x00 x80 xbf)))
(T (W x00 x00 x00 x00 x00 x00 x00 x00)
(L (W x70 x00 x00 x00 x64 x00 x00 x00))
(L (W xff xff xff xff xff xff xff xff))))))
(T (W x00 x00 x80 x3f x00 x00 x80 x3f)
(T (W x00 x00 x80 x3f x00 x00 x80 x3f)
(T (W x00 x00 x00 x00 x00 x00 x00 x00)
(T (W xff xff xff xff xff xff xff xff)
(T (W xff xff xff xff xff xff xff xff)
(L (W x4f x84 x6f x8b xe8 xcb x63 xb7)) E)
(L (W x45 x26 x22 x84 xe4 x9c xf2 xcb)))
(T (W xff xff xff xff xff xff xff xff)
(L (W x45 x26 x22 x84 xe4 x9c xf2 xcb))
(L (W x00 x00 x00 x00 xda x15 xff xff))))
(T (W x3e x00 x00 x00 x0c x00 x00 x00)
(T (W x2c x01 x00 x00 x04 x00 x00 x00)
(T (W xfa xd4 xfd xff x74 x00 x00 x00)
(L (W xff xff xff xff xb0 x00 x00 x00)) E)
(L (W x49 xa1 x68 x4a xeb x5f xdd x3d)))
(T (W xff xff xff xff xff xff xff xff)
(L (W x1d x00 x00 x00 x20 x00 x00 x00))
(L (W xff xff xff xff xff xff xff xff)))))
(T (W xfa xf4 xfb xff x74 x00 x00 x00)
(T (W x00 x00 x80 x3f x00 x00 x80 x3f)
(T (W x00 x00 x00 x00 x00 x00 x00 x00)
(T (W x68 x00 x00 x00 x5c x00 x00 x00)
(L (W x00 x01 x01 x01 xaa xf4 xff xff)) E)
(L (W x45 x44 x00 x00 x00 x00 x00 x00)))
(T (W x00 x00 x80 x3f x00 x00 x80 x3f)
(L (W xff xff xff xff x9c x00 x00 x00))
(L (W xff xff xff xff xff xff xff xff))))
(T (W x4a xbe xff xff x4c x00 x00 x00)
(T (W x00 x00 x80 x3f x00 x00 x80 x3f)
(T (W x00 x00 x18 x00 x1c x00 x20 x00)
(L (W x00 x00 x00 x00 x00 x00 x00 x00)) E)
(L (W xc4 xf9 xfe xff x00 x01 x01 x01)))
(T (W x18 x00 x00 x00 x10 x00 x00 x00)
(L (W xfa x74 xfe xff x74 x00 x00 x00))
(L (W xff xff xff xff xff xff xff xff)))))))
(T (W x21 x00 x00 x00 x67 x72 x6f x75)
(T (W xfa xac xfb xff x74 x00 x00 x00)
(T (W x00 x00 x80 x3f x00 x00 x80 x3f)
(T (W x45 x26 x22 x84 xe4 x9c xf2 xcb)
(T (W xff xff xff xff xff xff xff xff)
(T (W x8a xa9 xff xff xb0 x01 x00 x00)
(L (W x00 x00 x00 x00 x00 x00 x00 x00)) E)
(L (W x00 x00 x00 x00 x00 x00 x00 x00)))
(T (W xff xff xff xff xff xff xff xff)
(L (W x00 x00 x80 x3f x00 x00 x80 x3f))
(L (W xff xff xff xff xff xff xff xff))))
(T (W x00 x00 x00 x00 x00 x00 x00 x00)
(T (W xff xff xff xff xff xff xff xff)
(T (W xff xff xff xff xff xff xff xff)
(L (W xb0 x00 x00 x00 x64 x00 x00 x00)) E)
(L (W x45 x26 x22 x84 xe4 x9c xf2 xcb)))
(T (W xff xff xff xff xc8 x00 x00 x00)
(L (W x18 x00 x00 x00 x0c x00 x00 x00))
(L (W xff xff xff xff xff xff xff xff)))))
(T (W x68 x00 x00 x00 x5c x00 x00 x00)
(T (W x45 x26 x22 x84 xe4 x9c xf2 xcb)
(T (W xff xff xff xff xff xff xff xff)
(T (W xfa xac xfd xff x74 x00 x00 x00)
(L (W x54 x00 x00 x00 x48 x00 x00 x00)) E)
(L (W x72 xc5 xfe xff x49 x00 x00 x00)))
(T (W x00 x00 x00 x00 x00 x00 x00 x00)
(L (W x2d x00 x00 x00 x0c x00 x00 x00))
(L (W x24 x01 x00 x00 x04 x00 x00 x00))))
(T (W x5f x00 x00 x00 xff xff xff xff)
(T (W x00 x00 x80 x3f x00 x00 x80 x3f)
(T (W x00 x00 x00 x00 x34 xf0 xfd xff)
(L (W xff xff xff xff xff xff xff xff)) E)
(L (W xfa xec xfe xff x74 x00 x00 x00)))
(T (W x00 x00 x80 x3f x00 x00 x80 x3f)
(L (W x74 x00 x00 x00 x68 x00 x00 x00))
(L (W xff xff xff xff xff xff xff xff))))))
(T (W x68 x00 x00 x00 x5c x00 x00 x00)
(T (W x00 x00 x80 x3f x00 x00 x80 x3f)
(T (W x00 x00 x00 x00 x00 x00 x00 x00)
(T (W xb8 x00 x00 x00 xac x00 x00 x00)
(T (W xff xff xff xff xff xff xff xff)
(L (W x00 x00 x00 x00 x00 x00 x00 x00)) E)
(L (W xaa x9e xfe xff x78 x00 x00 x00)))
(T (W xff xff xff xff xff xff xff xff)
(L (W x00 x00 x00 x00 x20 x00 x24 x00))
(L (W x00 x00 x00 x00 x00 x00 x00 x00))))
(T (W xfa x7a xfe xff x00 x00 x01 x01)
(T (W x00 x00 x00 x00 x12 x00 x00 x00)
(T (W xff xff xff xff x03 x00 x00 x00)
(L (W x00 x00 x00 x00 x34 xe0 xff xff)) E)
(L (W x00 x00 x80 xbf x00 x00 x80 xbf)))
(T (W xff xff xff xff xff xff xff xff)
(L (W x44 x00 x00 x00 x00 x00 x80 xbf))
(L (W x92 x5f xff xff xa2 x01 x00 x00)))))
(T (W x00 x00 x80 x3f x00 x00 x80 x3f)
(T (W x00 x00 x00 x00 x00 x00 x00 x00)
(T (W x00 x00 x80 x3f x00 x00 x80 x3f)
(T (W x00 x00 x80 x3f x00 x00 x80 x3f)
(L (W xff xff xff xff x94 x00 x00 x00)) E)
(L (W x1b x00 x00 x00 x10 x00 x00 x00)))
(T (W x00 x00 x80 x3f x00 x00 x80 x3f)
(L (W x03 x00 x00 x00 xc8 x00 x00 x00))
(L (W x03 x00 x00 x00 xd8 x00 x00 x00))))
(T (W xc2 xc7 xff xff x00 x00 x01 x01)
(T (W x6c x00 x00 x00 x60 x00 x00 x00)
(T (W x00 x00 x00 x00 x00 x00 x00 x00)
(L (W x00 x00 x80 xbf x00 x00 x80 xbf)) E)
(L (W x18 x00 x00 x00 x10 x00 x00 x00)))
(T (W xb4 x00 x00 x00 x64 x00 x00 x00)
(L (W x54 x00 x00 x00 x48 x00 x00 x00))
(L (W x00 x00 x00 x00 x00 x00 x00 x00))))))))
(T (W x45 x26 x22 x84 xe4 x9c xf2 xcb)
(T (W xca x01 x00 x00 xff xff xff xff)
(T (W xff xff xff xff xff xff xff xff)
(T (W x00 x00 x00 x00 x00 x00 x00 x00)
(T (W xff xff xff xff xff xff xff xff)
(T (W x45 x26 x22 x84 xe4 x9c xf2 xcb)
(T (W x50 x00 x00 x00 x44 x00 x00 x00)
(L (W xff xff xff xff xff xff xff xff)) E)
(L (W xff xff xff xff xff xff xff xff)))
(T (W x00 x00 x00 x00 x00 x00 x00 x00)
(L (W xff xff xff xff xd8 x00 x00 x00))
(L (W x45 x26 x22 x84 xe4 x9c xf2 xcb))))
(T (W x45 x26 x22 x84 xe4 x9c xf2 xcb)
(T (W x00 x00 x00 x00 x00 x00 x00 x00)
(T (W x00 x00 x00 x00 x00 x00 x00 x00)
(L (W x45 x26 x22 x84 xe4 x9c xf2 xcb)) E)
(L (W x18 x00 x00 x00 x0c x00 x00 x00)))
(T (W x00 x00 x00 x00 x00 x00 x00 x00)
(L (W x45 x44 x00 x00 x00 x00 x00 x00))
(L (W x00 x00 x00 x00 x00 x00 x00 x00)))))
(T (W xf0 x29 xa4 x78 x6d xb7 xfa x9d)
(T (W xff xff xff xff xff xff xff xff)
(T (W x45 x26 x22 x84 xe4 x9c xf2 xcb)
(T (W x00 x00 x00 x00 x00 x00 x00 x00)
(L (W x2c x00 x30 x00 x34 x00 x38 x00)) E)
(L (W x45 x26 x22 x84 xe4 x9c xf2 xcb)))
(T (W x45 x26 x22 x84 xe4 x9c xf2 xcb)
(L (W x00 x00 x80 xbf x00 x00 x80 xbf))
(L (W x00 x00 x80 xbf x00 x00 x80 xbf))))
(T (W x6c x00 x00 x00 x60 x00 x00 x00)
(T (W xff xff xff xff xff xff xff xff)
(T (W x00 x00 x00 x00 x00 x00 x00 x00)
(L (W x45 x44 x00 x00 x00 x00 x00 x00)) E)
(L (W x00 x00 x00 x00 x00 x00 x00 x00)))
(T (W xff xff xff xff xff xff xff xff)
(L (W x30 x33 x5f x43 x4c x45 x41 x52))
(L (W x00 x00 x80 xbf x00 x00 x80 xbf))))))
(T (W x00 x00 x00 x00 x00 x00 x00 x00)
(T (W x9a x73 x5f x77 x3c xe3 xe8 x95)
(T (W xff xff xff xff xff xff xff xff)
(T (W x00 x00 x80 x3f x00 x00 x80 x3f)
(T (W x00 x00 x80 x3f x00 x00 x80 x3f)
(L (W xff xff xff xff xff xff xff xff)) E)
(L (W xff xff xff xff xff xff xff xff)))
(T (W x49 xa1 x68 x4a xeb x5f xdd x3d)
(L (W x00 x00 x00 x00 x00 x00 x00 x00))
(L (W x18 x00 x00 x00 x0c x00 x00 x00))))
(T (W x40 x00 x00 x00 x9c x00 x00 x00)
(T (W x68 x00 x00 x00 x5c x00 x00 x00)
(T (W x45 x26 x22 x84 xe4 x9c xf2 xcb)
(L (W x00 x00 x00 x00 x00 x00 x00 x00)) E)
(L (W xff xff xff xff xff xff xff xff)))
(T (W x00 x00 x80 x3f x00 x00 x80 x3f)
(L (W x46 x53 x59 x53 x5f x4e x53 x5f))
(L (W x00 x00 x80 xbf x00 x00 x80 xbf)))))
(T (W xff xff xff xff xff xff xff xff)
(T (W x18 x00 x00 x00 x0c x00 x00 x00)
(T (W x00 x00 x00 x00 x00 x00 x00 x00)
(T (W x18 x00 x00 x00 x10 x00 x00 x00)
(L (W x00 x00 x00 x00 x00 x00 x00 x00)) E)
(L (W x45 x26 x22 x84 xe4 x9c xf2 xcb)))
(T (W xff xff xff xff xff xff xff xff)
(L (W x46 x53 x59 x53 x5f x4e x53 x5f))
(L (W x49 xa1 x68 x4a xeb x5f xdd x3d))))
(T (W x00 x00 x80 x3f x00 x00 x80 x3f)
(T (W x00 x00 x00 x00 xda xf9 xfc xff)
(T (W x18 x00 x00 x00 x0c x00 x00 x00)
(L (W x00 x00 x00 x00 x12 x00 x00 x00)) E)
(L (W x00 x00 x00 x00 x00 x00 x00 x00)))
(T (W x00 x00 x00 x00 x00 x00 x00 x00)
(L (W xff xff xff xff xff xff xff xff))
(L (W xff xff xff xff xff xff xff xff)))))))
(T (W x00 x00 x00 x00 x00 x00 x00 x00)
(T (W x00 x00 x00 x00 x00 x00 x00 x00)
(T (W x00 x00 x00 x00 x00 x00 x00 x00)
(T (W xff xff xff xff xff xff xff xff)
(T (W x00 x00 x80 x3f x00 x00 x80 x3f)
(T (W x00 x00 x80 x3f x00 x00 x80 x3f)
(L (W xff xff xff xff xc4 x00 x00 x00)) E)
(L (W xff xff xff xff xff xff xff xff)))
(T (W x00 x00 x00 x00 x00 x00 x00 x00)
(L (W x4c x00 x50 x00 x54 x00 x00 x00))
(L (W x00 x00 x00 x00 x34 x14 xff xff))))
(T (W x18 x00 x00 x00 x10 x00 x00 x00)
(T (W x00 x00 x80 x3f x00 x00 x80 x3f)
(T (W x00 x00 x00 x00 x00 x00 x00 x00)
(L (W x46 x53 x59 x53 x5f x4e x53 x5f)) E)
(L (W xb8 x00 x00 x00 x64 x00 x00 x00)))
(T (W x49 xa1 x68 x4a xeb x5f xdd x3d)
(L (W x00 x00 x00 x00 x00 x00 x00 x00))
(L (W x00 x00 x00 x00 x00 x00 x00 x00)))))
(T (W x8a x01 x00 x00 xff xff xff xff)
(T (W xff xff xff xff x04 x00 x00 x00)
(T (W x00 x00 x00 x00 x00 x00 x00 x00)
(T (W x00 x00 x00 x00 x00 x00 x00 x00)
(L (W x45 x44 x00 x00 x00 x00 x00 x00)) E)
(L (W x00 x00 x80 xbf x00 x00 x80 xbf)))
(T (W xff xff xff xff xff xff xff xff)
(L (W x00 x00 x00 x00 x00 x00 x00 x00))
(L (W x45 x26 x22 x84 xe4 x9c xf2 xcb))))
(T (W x00 x00 x80 x3f x00 x00 x80 x3f)
(T (W x72 x09 xfd xff x4b x00 x00 x00)
(T (W x6f x6b x65 x5f x77 x61 x72 x6c)
(L (W x34 x00 x38 x00 x3c x00 x40 x00)) E)
(L (W x00 x00 x00 x00 x00 x00 x00 x00)))
(T (W x00 x00 x00 x00 x00 x00 x00 x00)
(L (W xc4 x05 x00 x00 x94 x04 x00 x00))
(L (W x00 x00 x80 xbf x00 x00 x80 xbf))))))
(T (W x8a xdd xfd xff xb9 x01 x00 x00)
(T (W x00 x00 x00 x00 x00 x00 x00 x00)
(T (W xff xff xff xff xff xff xff xff)
(T (W x00 x00 x00 x00 x34 xa4 xfc xff)
(T (W x45 x26 x22 x84 xe4 x9c xf2 xcb)
(L (W xb0 x00 x00 x00 x0a x00 x00 x00)) E)
(L (W x00 x00 x00 x00 x34 xa4 xfe xff)))
(T (W x00 x00 x80 x3f x00 x00 x80 x3f)
(L (W xff xff xff xff xff xff xff xff))
(L (W x00 x00 x80 xbf x00 x00 x80 xbf))))
(T (W x50 x00 x00 x00 x44 x00 x00 x00)
(T (W xff xff xff xff xff xff xff xff)
(T (W xff xff xff xff xff xff xff xff)
(L (W x00 x00 x80 xbf x00 x00 x80 xbf)) E)
(L (W x30 x33 x5f x43 x4c x45 x41 x52)))
(T (W x1d x00 x00 x00 x20 x00 x00 x00)
(L (W x00 x00 x00 x00 x00 x00 x00 x00))
(L (W x50 x00 x00 x00 x44 x00 x00 x00)))))
(T (W xff xff xff xff xff xff xff xff)
(T (W xfa x40 xfc xff x74 x00 x00 x00)
(T (W x00 x00 x00 x00 x00 x00 x00 x00)
(T (W xff xff xff xff xff xff xff xff)
(L (W x46 x53 x59 x53 x5f x4e x53 x5f)) E)
(L (W x00 x00 x00 x00 x34 xc4 xfe xff)))
(T (W xca x4a xfd xff x9c x01 x00 x00)
(L (W x54 x49 xfe xff x21 x00 x00 x00))
(L (W x00 x00 x00 x00 x00 x00 x00 x00))))
(T (W x00 x00 x00 x00 x00 x00 x00 x00)
(T (W x00 x00 x00 x00 x00 x00 x00 x00)
(L (W x70 x5f x6c x65 x61 x64 x65 x72))
(L (W x00 x00 x00 x00 x00 x00 x00 x00)))
(T (W x45 x26 x22 x84 xe4 x9c xf2 xcb)
(L (W xff xff xff xff xff xff xff xff))
(L (W xb0 x00 x00 x00 x64 x00 x00 x00)))))))))))
(T (W xf8 xa0 x02 x00 xbc x9f x02 x00)
(T (W x10 xfe x01 x00 x94 xfb x01 x00)
(T (W xb8 x8e x00 x00 x84 x8d x00 x00)
(T (W x00 x00 x80 x3f x00 x00 x80 x3f)
(T (W xff xff xff xff xff xff xff xff)
(T (W x21 x00 x00 x00 x67 x72 x6f x75)
(T (W x64 x00 x00 x00 x9c x00 x00 x00)
(T (W x50 x00 x00 x00 x44 x00 x00 x00)
(T (W x36 x1b x0b x70 xe6 x2e xf4 x4b)
(T (W x6b x65 x5f x63 x6f x77 x61 x72)
(L (W x00 x00 x80 xbf x00 x00 x80 xbf)) E)
(L (W x7a x82 xfe xff x74 x00 x00 x00)))
(T (W xff xff xff xff xff xff xff xff)
(L (W xff xff xff xff xff xff xff xff))
(L (W xff xff xff xff xff xff xff xff))))
(T (W x45 x26 x22 x84 xe4 x9c xf2 xcb)
(T (W xff xff xff xff xff xff xff xff)
(T (W x00 x00 x80 x3f x00 x00 x80 x3f)
(L (W x00 x00 x00 x00 x04 x00 x00 x00)) E)
(L (W x00 x00 x00 x00 x00 x00 x00 x00)))
(T (W xff xff xff xff xff xff xff xff)
(L (W xff xff xff xff xff xff xff xff))
(L (W xff xff xff xff xff xff xff xff)))))
(T (W xff xff xff xff xff xff xff xff)
(T (W x7a x22 xfc xff x74 x00 x00 x00)
(T (W xff xff xff xff x03 x00 x00 x00)
(T (W x7a xc0 xff xff x00 x00 x01 x01)
(L (W x00 x00 x80 xbf x00 x00 x80 xbf)) E)
(L (W x00 x00 x00 x00 x00 x00 x00 x00)))
(T (W x00 x00 x00 x00 x00 x00 x00 x00)
(L (W xb0 x00 x00 x00 x64 x00 x00 x00))
(L (W x30 x33 x5f x43 x4c x45 x41 x52))))
(T (W x45 x26 x22 x84 xe4 x9c xf2 xcb)
(T (W x00 x00 x80 x3f x00 x00 x80 x3f)
(T (W xff xff xff xff xff xff xff xff)
(L (W x00 x00 x80 xbf x00 x00 x80 xbf)) E)
(L (W x03 x00 x00 x00 xd0 x00 x00 x00)))
(T (W x00 x00 x80 x3f x00 x00 x80 x3f)
(L (W xff xff xff xff xff xff xff xff))
(L (W x00 x00 x00 x00 x00 x00 x00 x00))))))
(T (W xff xff xff xff xff xff xff xff)
(T (W x18 x00 x00 x00 x0c x00 x00 x00)
(T (W x00 x00 x80 x3f x00 x00 x80 x3f)
(T (W xff xff xff xff xff xff xff xff)
(T (W x00 x00 x00 x00 x00 x00 x00 x00)
(L (W x00 x00 x80 xbf x00 x00 x80 xbf)) E)
(L (W x7a x92 xfe xff x74 x00 x00 x00)))
(T (W x00 x00 x00 x00 x00 x00 x00 x00)
(L (W xff xff xff xff xff xff xff xff))
(L (W x00 x00 x00 x00 x00 x00 x00 x00))))
(T (W x00 x00 x00 x00 x00 x00 x00 x00)
(T (W x00 x00 x00 x00 x00 x00 x00 x00)
(T (W xff xff xff xff xff xff xff xff)
(L (W xff xff xff xff xff xff xff xff)) E)
(L (W x2a xd4 xfe xff x78 x00 x00 x00)))
(T (W x9c x01 x00 x00 xff xff xff xff)
(L (W xa8 x00 x00 x00 x64 x00 x00 x00))
(L (W x00 x00 x00 x00 x5a x53 xff xff)))))
(T (W xbc x00 x00 x00 xb0 x00 x00 x00)
(T (W x00 x00 x80 x3f x00 x00 x80 x3f)
(T (W x00 x00 x00 x00 x02 x00 x00 x00)
(T (W xff xff xff xff xff xff xff xff)
(L (W xc4 x00 x00 x00 x02 x00 x00 x00)) E)
(L (W x49 xa1 x68 x4a xeb x5f xdd x3d)))
(T (W x00 x00 x80 x3f x00 x00 x80 x3f)
(L (W xff xff xff xff xff xff xff xff))
(L (W x30 x33 x5f x43 x4c x45 x41 x52))))
(T (W x00 x00 x00 x00 x00 x00 x00 x00)
(T (W x1f x00 x00 x00 x22 x00 x00 x00)
(T (W x00 x00 x80 x3f x00 x00 x80 x3f)
(L (W xff xff xff xff xff xff xff xff)) E)
(L (W xff xff xff xff xff xff xff xff)))
(T (W xb0 x00 x00 x00 x64 x00 x00 x00)
(L (W xff xff xff xff xff xff xff xff))
(L (W x00 x00 x00 x00 x00 x00 x00 x00)))))))
(T (W x7a xb8 xfd xff x00 x00 x01 x01)
(T (W x45 x26 x22 x84 xe4 x9c xf2 xcb)
(T (W x00 x00 x00 x00 xb4 xcd xfb xff)
(T (W x00 x00 x80 x3f x00 x00 x80 x3f)
(T (W x44 x00 x00 x00 xff xff xff xff)
(T (W x00 x00 x00 x00 x00 x00 x00 x00)
(L (W x00 x00 x80 xbf x00 x00 x80 xbf)) E)
(L (W x6c x00 x00 x00 x60 x00 x00 x00)))
(T (W xff xff xff xff xff xff xff xff)
(L (W x2a x0c xfe xff x78 x00 x00 x00))
(L (W x00 x00 x00 x00 x00 x00 x00 x00))))
(T (W x00 x00 x00 x00 x00 x00 x00 x00)
(T (W xff xff xff xff xff xff xff xff)
(T (W xff xff xff xff xff xff xff xff)
(L (W x6c x01 x00 x00 xff xff xff xff)) E)
(L (W x00 x00 x80 xbf x00 x00 x80 xbf)))
(T (W xff xff xff xff xff xff xff xff)
(L (W xff xff xff xff xff xff xff xff))
(L (W xff xff xff xff xff xff xff xff)))))
(T (W x64 x00 x00 x00 x9c x00 x00 x00)
(T (W x00 x00 x80 x3f x00 x00 x80 x3f)
(T (W x00 x00 x00 x00 x00 x00 x00 x00)
(T (W xff xff xff xff xff xff xff xff)
(L (W xff xff xff xff xff xff xff xff)) E)
(L (W x45 x26 x22 x84 xe4 x9c xf2 xcb)))
(T (W x45 x26 x22 x84 xe4 x9c xf2 xcb)
(L (W x00 x00 x00 x00 x00 x00 x00 x00))
(L (W x00 x00 x00 x00 x00 x00 x00 x00))))
(T (W x00 x00 x00 x00 x00 x00 x00 x00)
(T (W x6c x00 x00 x00 x60 x00 x00 x00)
(T (W x70 x6d x30 x34 x38 x39 x00 x00)
(L (W x00 x00 x00 x00 x00 x00 x00 x00)) E)
(L (W xff xff xff xff xff xff xff xff)))
(T (W xff xff xff xff xac x00 x00 x00)
(L (W x03 x00 x00 x00 xd8 x00 x00 x00))
(L (W x2c x00 x00 x00 x10 x00 x00 x00))))))
(T (W xff xff xff xff xff xff xff xff)
(T (W xff xff xff xff xff xff xff xff)
(T (W x50 x00 x00 x00 x44 x00 x00 x00)
(T (W xff xff xff xff xff xff xff xff)
(T (W x00 x00 x00 x00 x00 x00 x00 x00)
(L (W x00 x00 x80 xbf x00 x00 x80 xbf)) E)
(L (W x00 x00 x80 xbf x00 x00 x80 xbf)))
(T (W xa8 xe7 xcd xba xd1 x4e x2f x74)
(L (W xff xff xff xff xff xff xff xff))
(L (W x45 x26 x22 x84 xe4 x9c xf2 xcb))))
(T (W x45 x26 x22 x84 xe4 x9c xf2 xcb)
(T (W x4f x84 x6f x8b xe8 xcb x63 xb7)
(T (W x43 x00 x00 x00 xff xff xff xff)
(L (W xff xff xff xff xff xff xff xff)) E)
(L (W x68 x00 x00 x00 x5c x00 x00 x00)))
(T (W x12 x00 x00 x00 x46 x53 x59 x53)
(L (W x03 x00 x00 x00 xd8 x00 x00 x00))
(L (W x00 x00 x00 x00 x00 x00 x00 x00)))))
(T (W x44 xff xfb xff x00 x01 x01 x01)
(T (W x00 x00 x80 x3f x00 x00 x80 x3f)
(T (W x1c x00 x20 x00 x24 x00 x28 x00)
(T (W x44 xbf xfd xff x00 x01 x01 x01)
(L (W xff xff xff xff xff xff xff xff)) E)
(L (W x45 x26 x22 x84 xe4 x9c xf2 xcb)))
(T (W x18 x00 x00 x00 x10 x00 x00 x00)
(L (W xff xff xff xff xff xff xff xff))
(L (W xff xff xff xff xff xff xff xff))))
(T (W x00 x00 x00 x00 x00 x00 x00 x00)
(T (W xff xff xff xff xff xff xff xff)
(T (W x00 x00 x80 x3f x00 x00 x80 x3f)
(L (W x20 x00 x24 x00 x28 x00 x2c x00)) E)
(L (W xff xff xff xff xff xff xff xff)))
(T (W xff xff xff xff xff xff xff xff)
(L (W x1c x00 x00 x00 x10 x00 x00 x00))
(L (W x38 x00 x00 x00 x00 x00 x80 xbf))))))))
(T (W x5f x77 x69 x6c x64 x5f x70 x6f)
(T (W xff xff xff xff xff xff xff xff)
(T (W xff xff xff xff xff xff xff xff)
(T (W x00 x00 x00 x00 x00 x00 x00 x00)
(T (W xd4 x0e xfc xff x29 x00 x00 x00)
(T (W x18 x00 x00 x00 x0c x00 x00 x00)
(T (W xff xff xff xff xff xff xff xff)
(L (W xff xff xff xff xff xff xff xff)) E)
(L (W x00 x00 x00 x00 x5a x87 xfe xff)))
(T (W x49 xa1 x68 x4a xeb x5f xdd x3d)
(L (W xff xff xff xff xff xff xff xff))
(L (W x00 x00 x80 xbf x00 x00 x80 xbf))))
(T (W xff xff xff xff xff xff xff xff)
(T (W x45 x26 x22 x84 xe4 x9c xf2 xcb)
(T (W x00 x00 x00 x00 x00 x00 x00 x00)
(L (W x00 x00 x80 xbf x00 x00 x80 xbf)) E)
(L (W xff xff xff xff xff xff xff xff)))
(T (W x00 x00 x00 x00 x00 x00 x00 x00)
(L (W x4f x84 x6f x8b xe8 xcb x63 xb7))
(L (W x00 x00 x80 xbf x00 x00 x80 xbf)))))
(T (W x00 x00 x00 x00 x00 x00 x00 x00)
(T (W xff xff xff xff xff xff xff xff)
(T (W x00 x00 x80 x3f x00 x00 x80 x3f)
(T (W x00 x00 x80 x3f x00 x00 x80 x3f)
(L (W xff xff xff xff xff xff xff xff)) E)
(L (W x45 x26 x22 x84 xe4 x9c xf2 xcb)))
(T (W xff xff xff xff xff xff xff xff)
(L (W x00 x00 x80 xbf x00 x00 x80 xbf))
(L (W xff xff xff xff xff xff xff xff))))
(T (W x45 x26 x22 x84 xe4 x9c xf2 xcb)
(T (W x00 x00 x00 x00 x5a xe7 xfc xff)
(T (W x00 x00 x00 x00 x22 x00 x00 x00)
(L (W xff xff xff xff xff xff xff xff)) E)
(L (W x00 x00 x00 x00 x00 x00 x00 x00)))
(T (W xff xff xff xff xff xff xff xff)
(L (W x00 x00 x00 x00 x12 x00 x00 x00))
(L (W xbc x00 x00 x00 x02 x00 x00 x00))))))
(T (W x00 x00 x00 x00 x00 x00 x00 x00)
(T (W x00 x00 x00 x00 x00 x00 x00 x00)
(T (W x00 x00 x00 x00 x02 x00 x00 x00)
(T (W x54 x00 x00 x00 x48 x00 x00 x00)
(T (W x68 x00 x00 x00 x5c x00 x00 x00)
(L (W xff xff xff xff xff xff xff xff)) E)
(L (W xff xff xff xff xff xff xff xff)))
(T (W x2a x18 xfd xff x78 x00 x00 x00)
(L (W x00 x00 x00 x00 x00 x00 x00 x00))
(L (W xff xff xff xff xff xff xff xff))))
(T (W xff xff xff xff xff xff xff xff)
(T (W xff xff xff xff x9c x00 x00 x00)
(T (W x50 x00 x00 x00 x44 x00 x00 x00)
(L (W x00 x00 x80 xbf x00 x00 x80 xbf)) E)
(L (W x01 x00 x00 x00 xff xff xff xff)))
(T (W x00 x00 x00 x00 xb4 x59 xfd xff)
(L (W x00 x00 x80 xbf x00 x00 x80 xbf))
(L (W x18 x00 x00 x00 x0c x00 x00 x00)))))
(T (W x00 x00 x00 x00 x00 x00 x00 x00)
(T (W xff xff xff xff xff xff xff xff)
(T (W x00 x00 x00 x00 x00 x00 x00 x00)
(T (W x00 x00 x80 x3f x00 x00 x80 x3f)
(L (W x00 x00 x00 x00 x00 x00 x00 x00)) E)
(L (W x1f x00 x00 x00 x22 x00 x00 x00)))
(T (W x00 x00 x00 x00 x00 x00 x00 x00)
(L (W x00 x00 x80 xbf x00 x00 x80 xbf))
(L (W x00 x00 x80 xbf x00 x00 x80 xbf))))
(T (W x44 x7b xfc xff x00 x01 x01 x01)
(T (W x00 x00 x00 x00 x00 x00 x00 x00)
(T (W xd4 xfe xfd xff x46 x00 x00 x00)
(L (W x00 x00 x00 x00 x00 x00 x00 x00)) E)
(L (W x45 x26 x22 x84 xe4 x9c xf2 xcb)))
(T (W x4f x84 x6f x8b xe8 xcb x63 xb7)
(L (W x00 x00 x00 x00 x00 x00 x00 x00))
(L (W x6c x00 x00 x00 x60 x00 x00 x00)))))))
(T (W x6b x65 x5f x66 x69 x73 x68 x5f)
(T (W x45 x26 x22 x84 xe4 x9c xf2 xcb)
(T (W x00 x00 x00 x00 x00 x00 x00 x00)
(T (W x00 x00 x00 x00 x00 x00 x00 x00)
(T (W x00 x00 x80 x3f x00 x00 x80 x3f)
(T (W xb8 x00 x00 x00 xac x00 x00 x00)
(L (W xff xff xff xff xff xff xff xff)) E)
(L (W xc4 x05 x00 x00 x94 x04 x00 x00)))
(T (W x00 x00 x80 x3f x00 x00 x80 x3f)
(L (W x00 x00 x00 x00 xba xfd xff xff))
(L (W x45 x26 x22 x84 xe4 x9c xf2 xcb))))
(T (W xff xff xff xff xff xff xff xff)
(T (W x6c x00 x00 x00 x60 x00 x00 x00)
(T (W x00 x00 x80 x3f x00 x00 x80 x3f)
(L (W x00 x00 x80 xbf x00 x00 x80 xbf)) E)
(L (W xff xff xff xff xff xff xff xff)))
(T (W x00 x00 x80 x3f x00 x00 x80 x3f)
(L (W x00 x00 x80 xbf x00 x00 x80 xbf))
(L (W x50 x00 x00 x00 x44 x00 x00 x00)))))
(T (W x00 x00 x00 x00 x00 x00 x00 x00)
(T (W xff xff xff xff xff xff xff xff)
(T (W x00 x00 x80 x3f x00 x00 x80 x3f)
(T (W x45 x26 x22 x84 xe4 x9c xf2 xcb)
(L (W x12 x00 x00 x00 x46 x53 x59 x53)) E)
(L (W x1f x00 x00 x00 x22 x00 x00 x00)))
(T (W xff xff xff xff xff xff xff xff)
(L (W x00 x00 x00 x00 x00 x00 x00 x00))
(L (W x14 x00 x00 x00 x0c x00 x00 x00))))
(T (W x68 x00 x00 x00 x5c x00 x00 x00)
(T (W x00 x00 x00 x00 x00 x00 x00 x00)
(T (W x60 x01 x00 x00 x97 x00 x00 x00)
(L (W x7a xee xff xff x74 x00 x00 x00)) E)
(L (W x00 x00 x80 xbf x00 x00 x80 xbf)))
(T (W x00 x00 x00 x00 x00 x00 x00 x00)
(L (W x00 x00 x00 x00 x00 x00 x00 x00))
(L (W x45 x26 x22 x84 xe4 x9c xf2 xcb))))))
(T (W x00 x00 x00 x00 x00 x00 x00 x00)
(T (W x00 x00 x00 x00 x00 x00 x00 x00)
(T (W xff xff xff xff x01 x00 x00 x00)
(T (W x00 x00 x80 x3f x00 x00 x80 x3f)
(T (W x68 x00 x00 x00 x5c x00 x00 x00)
(L (W x4b x00 x00 x00 xff xff xff xff)) E)
(L (W x00 x00 x00 x00 xb4 xa1 xfe xff)))
(T (W x00 x00 x00 x00 xb4 x21 xfd xff)
(L (W x04 x00 x00 x00 x6a xf1 xff xff))
(L (W xb0 x00 x00 x00 x64 x00 x00 x00))))
(T (W xb8 x00 x00 x00 xac x00 x00 x00)
(T (W xff xff xff xff xff xff xff xff)
(T (W x45 x26 x22 x84 xe4 x9c xf2 xcb)
(L (W x00 x00 x00 x00 x00 x00 x00 x00)) E)
(L (W x00 x00 x00 x00 x12 x00 x00 x00)))
(T (W xff xff xff xff xb0 x00 x00 x00)
(L (W x00 x00 x00 x00 x00 x00 x00 x00))
(L (W x18 x00 x00 x00 x10 x00 x00 x00)))))
(T (W x00 x00 x00 x00 x00 x00 x00 x00)
(T (W xff xff xff xff xff xff xff xff)
(T (W x00 x00 x00 x00 x00 x00 x00 x00)
(T (W x02 x00 x00 x00 x20 x01 x00 x00)
(L (W x00 x00 x00 x00 x00 x00 x00 x00)) E)
(L (W xff xff xff xff xff xff xff xff)))
(T (W x00 x00 x00 x00 x00 x00 x00 x00)
(L (W x00 x00 x80 xbf x00 x00 x80 xbf))
(L (W x00 x00 x80 xbf x00 x00 x80 xbf))))
(T (W x45 x26 x22 x84 xe4 x9c xf2 xcb)
(T (W x00 x00 x00 x00 x00 x00 x00 x00)
(T (W xff xff xff xff xbc x00 x00 x00)
(L (W x2a x00 x00 x00 x78 x00 x00 x00)) E)
(L (W x54 x00 x00 x00 x48 x00 x00 x00)))
(T (W x54 x00 x00 x00 x48 x00 x00 x00)
(L (W x00 x00 x00 x00 x00 x00 x00 x00))
(L (W xff xff xff xff xff xff xff xff)))))))))
(T (W x00 x00 x00 x00 x00 x00 x00 x00)
(T (W xb8 x00 x00 x00 xac x00 x00 x00)
(T (W x00 x00 x80 x3f x00 x00 x80 x3f)
(T (W x50 x00 x00 x00 x44 x00 x00 x00)
(T (W x00 x00 x00 x00 x02 x00 x00 x00)
(T (W xff xff xff xff xff xff xff xff)
(T (W x00 x00 x80 x3f x00 x00 x80 x3f)
(T (W x45 x26 x22 x84 xe4 x9c xf2 xcb)
(L (W xff xff xff xff xff xff xff xff)) E)
(L (W xff xff xff xff xff xff xff xff)))
(T (W x46 x53 x59 x53 x5f x4e x53 x5f)
(L (W x00 x00 x80 x3f x00 x00 x80 x3f))
(L (W x00 x00 x00 x00 x00 x00 x00 x00))))
(T (W x18 x00 x00 x00 x0c x00 x00 x00)
(T (W x1d x00 x00 x00 x0c x00 x00 x00)
(T (W x18 x00 x00 x00 x10 x00 x00 x00)
(L (W x00 x00 x00 x00 x00 x00 x00 x00)) E)
(L (W xff xff xff xff xb0 x00 x00 x00)))
(T (W x00 x00 x00 x00 xd2 x4f xfd xff)
(L (W x45 x44 x00 x00 x00 x00 x00 x00))
(L (W x00 x00 x00 x00 x00 x00 x00 x00)))))
(T (W x8d x01 x00 x00 xff xff xff xff)
(T (W xbc x00 x00 x00 xb0 x00 x00 x00)
(T (W x45 x26 x22 x84 xe4 x9c xf2 xcb)
(T (W x00 x00 x00 x00 x00 x00 x00 x00)
(L (W xc4 x00 x00 x00 x02 x00 x00 x00)) E)
(L (W x00 x00 x80 xbf x00 x00 x80 xbf)))
(T (W x00 x00 x80 x3f x00 x00 x80 x3f)
(L (W x1e x00 x00 x00 x10 x00 x00 x00))
(L (W x00 x00 x80 xbf x00 x00 x80 xbf))))
(T (W x00 x00 x80 x3f x00 x00 x80 x3f)
(T (W xff xff xff xff xff xff xff xff)
(T (W x00 x00 x80 x3f x00 x00 x80 x3f)
(L (W x00 x00 x00 x00 xb4 xe7 xff xff)) E)
(L (W xff xff xff xff xff xff xff xff)))
(T (W x00 x00 x00 x00 xb4 x67 xfd xff)
(L (W x00 x00 x00 x00 x8a x68 xfe xff))
(L (W x00 x00 x80 xbf x00 x00 x80 xbf))))))
(T (W xff xff xff xff xff xff xff xff)
(T (W xff xff xff xff xff xff xff xff)
(T (W x64 x00 x00 x00 x9c x00 x00 x00)
(T (W x00 x00 x00 x00 x00 x00 x00 x00)
(T (W x45 x26 x22 x84 xe4 x9c xf2 xcb)
(L (W xcc x00 x00 x00 x01 x00 x00 x00)) E)
(L (W xff xff xff xff xff xff xff xff)))
(T (W x00 x00 x00 x00 x00 x00 x00 x00)
(L (W x45 x44 x00 x00 x00 x00 x00 x00))
(L (W x00 x00 x80 xbf x00 x00 x80 xbf))))
(T (W x00 x00 x80 x3f x00 x00 x80 x3f)
(T (W x00 x00 x80 x3f x00 x00 x80 x3f)
(T (W x00 x00 x00 x00 x00 x00 x00 x00)
(L (W x00 x00 x00 x00 x00 x00 x00 x00)) E)
(L (W xff xff xff xff xff xff xff xff)))
(T (W x00 x00 x00 x00 x00 x00 x00 x00)
(L (W x46 x53 x59 x53 x5f x4e x53 x5f))
(L (W x4f x84 x6f x8b xe8 xcb x63 xb7)))))
(T (W x42 x3f xff xff x00 x00 x01 x01)
(T (W xff xff xff xff xff xff xff xff)
(T (W x68 x00 x00 x00 x5c x00 x00 x00)
(T (W x7a xd2 xff xff x00 x00 x01 x01)
(L (W x2c x01 x00 x00 x04 x00 x00 x00)) E)
(L (W x54 x00 x00 x00 x48 x00 x00 x00)))
(T (W xff xff xff xff xff xff xff xff)
(L (W x46 x53 x59 x53 x5f x4e x53 x5f))
(L (W x00 x00 x00 x00 x00 x00 x00 x00))))
(T (W x00 x00 x80 x3f x00 x00 x80 x3f)
(T (W xff xff xff xff xff xff xff xff)
(T (W x00 x00 x00 x00 x00 x00 x00 x00)
(L (W x00 x00 x00 x00 x00 x00 x00 x00)) E)
(L (W x00 x00 x00 x00 x00 x00 x00 x00)))
(T (W x00 x00 x00 x00 x00 x00 x00 x00)
(L (W x00 x00 x00 x00 x8a x78 xfe xff))
(L (W x00 x00 x80 xbf x00 x00 x80 xbf)))))))
(T (W x00 x00 x80 x3f x00 x00 x80 x3f)
(T (W x01 x00 x00 x00 x04 x00 x00 x00)
(T (W xff xff xff xff xff xff xff xff)
(T (W xff xff xff xff xff xff xff xff)
(T (W x00 x00 x00 x00 x00 x00 x00 x00)
(T (W x00 x00 x80 x3f x00 x00 x80 x3f)
(L (W x18 x00 x00 x00 x10 x00 x00 x00)) E)
(L (W xc4 x00 x00 x00 x01 x00 x00 x00)))
(T (W x00 x00 x00 x00 x00 x00 x00 x00)
(L (W xff xff xff xff xff xff xff xff))
(L (W x00 x00 x80 xbf x00 x00 x80 xbf))))
(T (W x68 x00 x00 x00 x5c x00 x00 x00)
(T (W x00 x00 x00 x00 x00 x00 x00 x00)
(T (W x5f x77 x69 x6c x64 x5f x70 x6f)
(L (W x00 x00 x00 x00 x12 x00 x00 x00)) E)
(L (W xff xff xff xff xc4 x00 x00 x00)))
(T (W x00 x00 x00 x00 x00 x00 x00 x00)
(L (W x00 x00 x00 x00 x00 x00 x00 x00))
(L (W x00 x00 x00 x00 x00 x00 x00 x00)))))
(T (W xca x35 xff xff x8d x01 x00 x00)
(T (W xff xff xff xff xff xff xff xff)
(T (W x00 x00 x80 x3f x00 x00 x80 x3f)
(T (W x00 x00 x00 x00 x00 x00 x00 x00)
(L (W xaf x01 x00 x00 xff xff xff xff)) E)
(L (W x00 x00 x80 xbf x00 x00 x80 xbf)))
(T (W xff xff xff xff xa0 x00 x00 x00)
(L (W x00 x00 x80 xbf x00 x00 x80 xbf))
(L (W x00 x00 x80 xbf x00 x00 x80 xbf))))
(T (W x00 x00 x80 x3f x00 x00 x80 x3f)
(T (W xff xff xff xff xff xff xff xff)
(T (W x1a xfb xff xff x01 x01 x01 x01)
(L (W x00 x00 x00 x00 x00 x00 x00 x00)) E)
(L (W xaa xfb xfe xff x26 x02 x00 x00)))
(T (W xff xff xff xff xff xff xff xff)
(L (W xff xff xff xff xff xff xff xff))
(L (W x45 x26 x22 x84 xe4 x9c xf2 xcb))))))
(T (W x7a xda xfd xff x00 x00 x01 x01)
(T (W xff xff xff xff xff xff xff xff)
(T (W x00 x00 x00 x00 xb4 x1f xfc xff)
(T (W x00 x00 x00 x00 x00 x00 x00 x00)
(T (W x45 x26 x22 x84 xe4 x9c xf2 xcb)
(L (W x7a x9c xff xff x74 x00 x00 x00)) E)
(L (W x62 x00 x00 x00 x26 x02 x00 x00)))
(T (W x45 x26 x22 x84 xe4 x9c xf2 xcb)
(L (W x00 x00 x00 x00 x00 x00 x00 x00))
(L (W x58 x00 x00 x00 x4c x00 x00 x00))))
(T (W x00 x00 x80 x3f x00 x00 x80 x3f)
(T (W x44 xe1 xfc xff x00 x01 x01 x01)
(T (W x00 x00 x00 x00 x00 x00 x00 x00)
(L (W x00 x00 x00 x00 x00 x00 x00 x00)) E)
(L (W xff xff xff xff xff xff xff xff)))
(T (W x00 x00 x80 x3f x00 x00 x80 x3f)
(L (W xff xff xff xff xff xff xff xff))
(L (W x00 x00 x80 xbf x00 x00 x80 xbf)))))
(T (W xff xff xff xff xff xff xff xff)
(T (W x45 x26 x22 x84 xe4 x9c xf2 xcb)
(T (W xff xff xff xff xff xff xff xff)
(T (W xff xff xff xff xff xff xff xff)
(L (W x30 x33 x5f x43 x4c x45 x41 x52)) E)
(L (W x00 x00 x80 xbf x00 x00 x80 xbf)))
(T (W xff xff xff xff xff xff xff xff)
(L (W x00 x00 x00 x00 x00 x00 x00 x00))
(L (W x00 x00 x00 x00 x00 x00 x00 x00))))
(T (W x45 x26 x22 x84 xe4 x9c xf2 xcb)
(T (W x12 xff xfc xff x4a x00 x00 x00)
(T (W x6c x00 x00 x00 x60 x00 x00 x00)
(L (W xff xff xff xff xff xff xff xff)) E)
(L (W x45 x44 x00 x00 x00 x00 x00 x00)))
(T (W x00 x00 x00 x00 x00 x00 x00 x00)
(L (W xff xff xff xff xff xff xff xff))
(L (W xff xff xff xff x9c x00 x00 x00))))))))
(T (W xff xff xff xff x03 x00 x00 x00)
(T (W x70 x5f x6c x65 x61 x64 x65 x72)
(T (W x45 x26 x22 x84 xe4 x9c xf2 xcb)
(T (W x50 x00 x00 x00 x44 x00 x00 x00)
(T (W x00 x00 x80 x3f x00 x00 x80 x3f)
(T (W xff xff xff xff xff xff xff xff)
(T (W x0a xa5 xff xff xc3 x01 x00 x00)
(L (W x00 x00 x00 x00 x00 x00 x00 x00)) E)
(L (W x00 x00 x00 x00 x00 x00 x00 x00)))
(T (W xff xff xff xff xb0 x00 x00 x00)
(L (W x00 x00 x00 x00 x00 x00 x00 x00))
(L (W xb8 x00 x00 x00 x64 x00 x00 x00))))
(T (W x00 x00 x00 x00 x00 x00 x00 x00)
(T (W x45 x26 x22 x84 xe4 x9c xf2 xcb)
(T (W x7a xc8 xfd xff x74 x00 x00 x00)
(L (W xff xff xff xff xff xff xff xff)) E)
(L (W x00 x00 x00 x00 x00 x00 x00 x00)))
(T (W x45 x26 x22 x84 xe4 x9c xf2 xcb)
(L (W x6c x00 x00 x00 x60 x00 x00 x00))
(L (W x1f x00 x00 x00 x22 x00 x00 x00)))))
(T (W x00 x00 x80 x3f x00 x00 x80 x3f)
(T (W x00 x00 x00 x00 x00 x00 x00 x00)
(T (W xff xff xff xff xff xff xff xff)
(T (W x7a xa8 xfd xff x74 x00 x00 x00)
(L (W x00 x00 x00 x00 x00 x00 x00 x00)) E)
(L (W x74 x03 x00 x00 x4c x02 x00 x00)))
(T (W x00 x00 x00 x00 x00 x00 x00 x00)
(L (W xff xff xff xff xff xff xff xff))
(L (W xff xff xff xff xff xff xff xff))))
(T (W x7a x86 xfe xff x00 x00 x01 x01)
(T (W x00 x00 x80 x3f x00 x00 x80 x3f)
(T (W x68 x00 x00 x00 x5c x00 x00 x00)
(L (W x54 x00 x00 x00 x48 x00 x00 x00)) E)
(L (W x00 x00 x00 x00 xb4 xeb xfe xff)))
(T (W x49 xa1 x68 x4a xeb x5f xdd x3d)
(L (W x6c x00 x00 x00 x60 x00 x00 x00))
(L (W xff xff xff xff xff xff xff xff))))))
(T (W x2a xba xfb xff x78 x00 x00 x00)
(T (W x00 x00 x80 x3f x00 x00 x80 x3f)
(T (W x00 x00 x00 x00 x00 x00 x00 x00)
(T (W xff xff xff xff xff xff xff xff)
(T (W xff xff xff xff xff xff xff xff)
(L (W x00 x00 x00 x00 x00 x00 x00 x00)) E)
(L (W x4f x84 x6f x8b xe8 xcb x63 xb7)))
(T (W xff xff xff xff xff xff xff xff)
(L (W x7a x18 xfe xff x74 x00 x00 x00))
(L (W x00 x00 x00 x00 x00 x00 x00 x00))))
(T (W xfa x4a x2d xa2 x87 x93 xb2 x5c)
(T (W x00 x00 x00 x00 x5a xd9 xfc xff)
(T (W xff xff xff xff x03 x00 x00 x00)
(L (W x68 x00 x00 x00 x5c x00 x00 x00)) E)
(L (W x00 x00 x00 x00 x00 x00 x00 x00)))
(T (W xff xff xff xff xff xff xff xff)
(L (W x00 x01 x01 x01 x2a x98 xfe xff))
(L (W xff xff xff xff xff xff xff xff)))))
(T (W x00 x00 x00 x00 x00 x00 x00 x00)
(T (W x2c x51 xfc xff x3e x00 x00 x00)
(T (W x01 x00 x00 x00 x9c x00 x00 x00)
(T (W x70 x5f x6c x65 x61 x64 x65 x72)
(L (W xff xff xff xff x9c x00 x00 x00)) E)
(L (W x00 x00 x00 x00 x04 x00 x00 x00)))
(T (W x00 x00 x00 x00 x00 x00 x00 x00)
(L (W x00 x01 x01 x01 x2a x78 xfe xff))
(L (W xff xff xff xff xff xff xff xff))))
(T (W xff xff xff xff xff xff xff xff)
(T (W x00 x00 x80 x3f x00 x00 x80 x3f)
(T (W x94 x04 x00 x00 x80 x03 x00 x00)
(L (W x00 x00 x18 x00 x1c x00 x20 x00)) E)
(L (W x1f x00 x00 x00 x22 x00 x00 x00)))
(T (W x18 x00 x00 x00 x0c x00 x00 x00)
(L (W x00 x00 x80 xbf x00 x00 x80 xbf))
(L (W x06 x00 x07 x00 x00 x00 x00 x00)))))))
(T (W x7a xa0 xfb xff x74 x00 x00 x00)
(T (W x68 x00 x00 x00 x5c x00 x00 x00)
(T (W x68 x00 x00 x00 x5c x00 x00 x00)
(T (W x00 x00 x80 x3f x00 x00 x80 x3f)
(T (W xff xff xff xff xff xff xff xff)
(T (W xff xff xff xff xff xff xff xff)
(L (W x00 x00 x00 x00 x00 x00 x00 x00)) E)
(L (W x00 x00 x80 xbf x00 x00 x80 xbf)))
(T (W x18 x00 x00 x00 x10 x00 x00 x00)
(L (W x45 x26 x22 x84 xe4 x9c xf2 xcb))
(L (W x00 x00 x00 x00 x00 x00 x00 x00))))
(T (W x00 x00 x00 x00 x00 x00 x00 x00)
(T (W xff xff xff xff xff xff xff xff)
(T (W x7a xd0 xfd xff x74 x00 x00 x00)
(L (W x2a xd2 xff xff x78 x00 x00 x00)) E)
(L (W x12 x00 x00 x00 x46 x53 x59 x53)))
(T (W x03 x00 x00 x00 xd4 x00 x00 x00)
(L (W x70 x00 x00 x00 x64 x00 x00 x00))
(L (W xff xff xff xff x9c x00 x00 x00)))))
(T (W x00 x00 x80 x3f x00 x00 x80 x3f)
(T (W x00 x00 x00 x00 x00 x00 x00 x00)
(T (W x64 x00 x00 x00 x9c x00 x00 x00)
(T (W x68 x00 x00 x00 x5c x00 x00 x00)
(L (W x54 x00 x00 x00 x48 x00 x00 x00)) E)
(L (W xff xff xff xff xff xff xff xff)))
(T (W x00 x00 x00 x00 x00 x00 x00 x00)
(L (W x50 x00 x00 x00 x44 x00 x00 x00))
(L (W xff xff xff xff xff xff xff xff))))
(T (W xff xff xff xff xff xff xff xff)
(T (W x45 x26 x22 x84 xe4 x9c xf2 xcb)
(T (W x00 x00 x80 x3f x00 x00 x80 x3f)
(L (W x4f x84 x6f x8b xe8 xcb x63 xb7)) E)
(L (W x45 x26 x22 x84 xe4 x9c xf2 xcb)))
(T (W x54 x00 x00 x00 x48 x00 x00 x00)
(L (W x00 x00 x80 xbf x00 x00 x80 xbf))
(L (W xff xff xff xff xff xff xff xff))))))
(T (W x00 x00 x80 x3f x00 x00 x80 x3f)
(T (W x6c x00 x00 x00 x60 x00 x00 x00)
(T (W x00 x00 x00 x00 x00 x00 x00 x00)
(T (W x00 x00 x00 x00 x00 x00 x5c x00)
(T (W xff xff xff xff xff xff xff xff)
(L (W x00 x00 x00 x00 x12 x00 x00 x00)) E)
(L (W x00 x00 x00 x00 x00 x00 x00 x00)))
(T (W xff xff xff xff xff xff xff xff)
(L (W x45 x26 x22 x84 xe4 x9c xf2 xcb))
(L (W xff xff xff xff xff xff xff xff))))
(T (W xf2 x00 x00 x00 xff xff xff xff)
(T (W x00 x00 x00 x00 x00 x00 x00 x00)
(T (W x00 x00 x10 x00 x14 x00 x18 x00)
(L (W xff xff xff xff xff xff xff xff)) E)
(L (W x6c x00 x00 x00 x60 x00 x00 x00)))
(T (W x13 x00 x00 x00 x0c x00 x00 x00)
(L (W x7a x60 xfe xff x74 x00 x00 x00))
(L (W x2f x00 x00 x00 xff xff xff xff)))))
(T (W x45 x26 x22 x84 xe4 x9c xf2 xcb)
(T (W x00 x00 x00 x00 x00 x00 x00 x00)
(T (W x00 x00 x80 x3f x00 x00 x80 x3f)
(T (W x00 x00 x00 x00 x00 x00 x00 x00)
(L (W x3c x00 x40 x00 x2a x00 x00 x00)) E)
(L (W x00 x00 x00 x00 x00 x00 x00 x00)))
(T (W x00 x00 x80 x3f x00 x00 x80 x3f)
(L (W x40 x00 x00 x00 x00 x00 x80 xbf))
(L (W x45 x26 x22 x84 xe4 x9c xf2 xcb))))
(T (W xb8 x00 x00 x00 xac x00 x00 x00)
(T (W x00 x00 x00 x00 xb4 x03 xfd xff)
(T (W x4f x84 x6f x8b xe8 xcb x63 xb7)
(L (W x45 x26 x22 x84 xe4 x9c xf2 xcb)) E)
(L (W xc4 x00 x00 x00 x02 x00 x00 x00)))
(T (W xff xff xff xff xff xff xff xff)
(L (W x00 x00 x00 x00 x00 x00 x00 x00))
(L (W x00 x00 x00 x00 x12 x00 x00 x00))))))))))
(T (W xa0 x22 x01 x00 x6c x21 x01 x00)
(T (W xbc x9b x1b x87 xba xf2 x2c x54)
(T (W x18 x00 x00 x00 x0c x00 x00 x00)
(T (W x6f x6b x65 x5f x77 x61 x72 x6c)
(T (W x00 x00 x80 x3f x00 x00 x80 x3f)
(T (W xff xff xff xff xff xff xff xff)
(T (W x64 x00 x00 x00 x9c x00 x00 x00)
(T (W x00 x00 x00 x00 x00 x00 x00 x00)
(T (W x45 x26 x22 x84 xe4 x9c xf2 xcb)
(L (W x7a x83 xff xff x74 x00 x00 x00)) E)
(L (W xff xff xff xff xff xff xff xff)))
(T (W xf2 x1b xfd xff x4b x00 x00 x00)
(L (W x00 x00 x00 x00 x25 x00 x00 x00))
(L (W x00 x00 x00 x00 x00 x00 x00 x00))))
(T (W x00 x00 x80 x3f x00 x00 x80 x3f)
(T (W xff xff xff xff xff xff xff xff)
(T (W x45 x26 x22 x84 xe4 x9c xf2 xcb)
(L (W x00 x00 x00 x00 x12 x00 x00 x00)) E)
(L (W x00 x00 x80 xbf x00 x00 x80 xbf)))
(T (W xff xff xff xff xff xff xff xff)
(L (W x7a x63 xfe xff xc6 x00 x00 x00))
(L (W xd4 x4b xff xff x1b x00 x00 x00)))))
(T (W xff xff xff xff xff xff xff xff)
(T (W x45 x26 x22 x84 xe4 x9c xf2 xcb)
(T (W x3c x00 x40 x00 x44 x00 x48 x00)
(T (W x00 x00 x00 x00 x00 x00 x00 x00)
(L (W x00 x00 x80 xbf x00 x00 x80 xbf)) E)
(L (W x45 x26 x22 x84 xe4 x9c xf2 xcb)))
(T (W x00 x00 x80 x3f x00 x00 x80 x3f)
(L (W xff xff xff xff xff xff xff xff))
(L (W x00 x00 x00 x00 x00 x00 x00 x00))))
(T (W x00 x00 x80 x3f x00 x00 x80 x3f)
(T (W xff xff xff xff xb0 x00 x00 x00)
(T (W x00 x00 x00 x00 x00 x00 x0c x00)
(L (W x00 x00 x80 xbf x00 x00 x80 xbf)) E)
(L (W xff xff xff xff xff xff xff xff)))
(T (W x00 x00 x80 x3f x00 x00 x80 x3f)
(L (W xff xff xff xff xff xff xff xff))
(L (W x45 x26 x22 x84 xe4 x9c xf2 xcb))))))
(T (W xff xff xff xff xff xff xff xff)
(T (W x64 x00 x00 x00 x9c x00 x00 x00)
(T (W x50 x00 x00 x00 x44 x00 x00 x00)
(T (W xa4 xc8 xeb xf8 x3c x9a xbe x88)
(T (W x00 x00 x00 x00 x00 x00 x00 x00)
(L (W x00 x00 x80 xbf x00 x00 x80 xbf)) E)
(L (W x1c x00 x00 x00 x10 x00 x00 x00)))
(T (W x00 x00 x00 x00 x00 x00 x00 x00)
(L (W xff xff xff xff xff xff xff xff))
(L (W x00 x00 x80 xbf x00 x00 x80 xbf))))
(T (W x45 x26 x22 x84 xe4 x9c xf2 xcb)
(T (W x00 x00 x00 x00 x00 x00 x00 x00)
(T (W x7a xf1 xff xff x00 x00 x01 x01)
(L (W x45 x44 x00 x00 x00 x00 x00 x00)) E)
(L (W x1f x00 x00 x00 x22 x00 x00 x00)))
(T (W x4c x45 x41 x52 x45 x44 x00 x00)
(L (W xf2 x6b xfe xff xaa x01 x00 x00))
(L (W x00 x00 x00 x00 x00 x00 x00 x00)))))
(T (W xff xff xff xff xff xff xff xff)
(T (W x68 x00 x00 x00 x5c x00 x00 x00)
(T (W x00 x00 x00 x00 x00 x00 x00 x00)
(T (W xff xff xff xff xff xff xff xff)
(L (W xff xff xff xff xff xff xff xff)) E)
(L (W x00 x00 x80 xbf x00 x00 x80 xbf)))
(T (W x7a x33 xfd xff x74 x00 x00 x00)
(L (W x2c x01 x00 x00 x04 x00 x00 x00))
(L (W x00 x00 x00 x00 x00 x00 x00 x00))))
(T (W x00 x00 x00 x00 x00 x00 x00 x00)
(T (W xff xff xff xff xff xff xff xff)
(T (W x00 x00 x00 x00 x80 x00 x84 x00)
(L (W xff xff xff xff x01 x00 x00 x00)) E)
(L (W xff xff xff xff xff xff xff xff)))
(T (W xff xff xff xff xff xff xff xff)
(L (W xff xff xff xff xff xff xff xff))
(L (W x45 x26 x22 x84 xe4 x9c xf2 xcb)))))))
(T (W x00 x00 x00 x00 x2a x00 x00 x00)
(T (W x18 x00 x00 x00 x10 x00 x00 x00)
(T (W xff xff xff xff xff xff xff xff)
(T (W x44 x10 xfc xff x00 x01 x01 x01)
(T (W x00 x00 x00 x00 x00 x00 x00 x00)
(T (W x45 x26 x22 x84 xe4 x9c xf2 xcb)
(L (W x54 x00 x00 x00 x48 x00 x00 x00)) E)
(L (W x18 x00 x00 x00 x10 x00 x00 x00)))
(T (W x00 x00 x00 x00 x5a x0c xfd xff)
(L (W xff xff xff xff xa0 x00 x00 x00))
(L (W x00 x00 x00 x00 x00 x00 x00 x00))))
(T (W x00 x00 x80 x3f x00 x00 x80 x3f)
(T (W xd4 xd3 xfc xff x29 x00 x00 x00)
(T (W xff xff xff xff xff xff xff xff)
(L (W x00 x00 x00 x00 x00 x00 x00 x00)) E)
(L (W x45 x26 x22 x84 xe4 x9c xf2 xcb)))
(T (W x54 x02 x00 x00 x34 x01 x00 x00)
(L (W x00 x00 x00 x00 x8a x4f xfe xff))
(L (W x00 x00 x00 x00 x00 x00 x00 x00)))))
(T (W xff xff xff xff xff xff xff xff)
(T (W x01 x00 x00 x00 x3e x00 x00 x00)
(T (W x00 x00 x00 x00 x00 x00 x00 x00)
(T (W x7a xc9 xff xff x00 x00 x01 x01)
(L (W xff xff xff xff xff xff xff xff)) E)
(L (W x00 x00 x80 xbf x00 x00 x80 xbf)))
(T (W x68 x00 x00 x00 x5c x00 x00 x00)
(L (W x00 x00 x00 x00 x00 x00 x00 x00))
(L (W x00 x00 x00 x00 x00 x00 x00 x00))))
(T (W x00 x00 x80 x3f x00 x00 x80 x3f)
(T (W x18 x00 x00 x00 x10 x00 x00 x00)
(T (W x00 x00 x80 x3f x00 x00 x80 x3f)
(L (W x00 x00 x00 x00 x12 x00 x00 x00)) E)
(L (W xff xff xff xff xff xff xff xff)))
(T (W xff xff xff xff xff xff xff xff)
(L (W xff xff xff xff xff xff xff xff))
(L (W x00 x00 x00 x00 x00 x00 x00 x00))))))
(T (W xff xff xff xff xff xff xff xff)
(T (W xff xff xff xff xff xff xff xff)
(T (W x7a x1b xfc xff x74 x00 x00 x00)
(T (W x0a xb8 xfe xff x42 x00 x00 x00)
(T (W x00 x00 x00 x00 x00 x00 x00 x00)
(L (W x00 x00 x80 xbf x00 x00 x80 xbf)) E)
(L (W x00 x00 x00 x00 xb4 x9e xfe xff)))
(T (W x00 x00 x00 x00 x00 x00 x00 x00)
(L (W x00 x00 x00 x00 x00 x00 x00 x00))
(L (W x00 x00 x80 xbf x00 x00 x80 xbf))))
(T (W x00 x00 x80 x3f x00 x00 x80 x3f)
(T (W x00 x00 x80 x3f x00 x00 x80 x3f)
(T (W x00 x00 x00 x00 x00 x00 x00 x00)
(L (W xff xff xff xff xff xff xff xff)) E)
(L (W x03 x00 x00 x00 xd0 x00 x00 x00)))
(T (W x45 x26 x22 x84 xe4 x9c xf2 xcb)
(L (W xff xff xff xff xff xff xff xff))
(L (W x00 x00 x80 xbf x00 x00 x80 xbf)))))
(T (W xff xff xff xff xff xff xff xff)
(T (W x2a x3d xfc xff x78 x00 x00 x00)
(T (W x00 x00 x00 x00 x00 x00 x00 x00)
(T (W x45 x26 x22 x84 xe4 x9c xf2 xcb)
(L (W xff xff xff xff xff xff xff xff)) E)
(L (W x00 x00 x80 xbf x00 x00 x80 xbf)))
(T (W x03 x00 x00 x00 xcc x00 x00 x00)
(L (W x9e x01 x00 x00 xff xff xff xff))
(L (W x00 x00 x00 x00 x00 x00 x00 x00))))
(T (W x00 x00 x00 x00 x00 x00 x00 x00)
(T (W xff xff xff xff xff xff xff xff)
(T (W x00 x00 x80 x3f x00 x00 x80 x3f)
(L (W x00 x00 x80 xbf x00 x00 x80 xbf)) E)
(L (W xff xff xff xff xff xff xff xff)))
(T (W x4a x85 xfd xff x9c x01 x00 x00)
(L (W xff xff xff xff xff xff xff xff))
(L (W x6c x00 x00 x00 x60 x00 x00 x00))))))))
(T (W x00 x00 x00 x00 x00 x00 x00 x00)
(T (W xe2 x00 x00 x00 xff xff xff xff)
(T (W x64 x5f x6c x76 x31 x00 x00 x00)
(T (W x00 x00 x80 x3f x00 x00 x80 x3f)
(T (W x45 x26 x22 x84 xe4 x9c xf2 xcb)
(T (W x0a x00 x00 x00 x3e x00 x00 x00)
(T (W xff xff xff xff xff xff xff xff)
(L (W x00 x00 x00 x00 x5a x88 xff xff)) E)
(L (W x00 x00 x00 x00 x00 x00 x00 x00)))
(T (W x00 x00 x80 x3f x00 x00 x80 x3f)
(L (W x64 x5f x70 x6f x6b x65 x5f x77))
(L (W x44 x0c xff xff x00 x01 x01 x01))))
(T (W x00 x00 x00 x00 x00 x00 x00 x00)
(T (W x54 x00 x00 x00 x48 x00 x00 x00)
(T (W x00 x00 x00 x00 x00 x00 x00 x00)
(L (W x29 x00 x00 x00 x2c x00 x00 x00)) E)
(L (W x00 x00 x00 x00 x5a xc8 xfe xff)))
(T (W x00 x00 x80 x3f x00 x00 x80 x3f)
(L (W x00 x00 x80 xbf x00 x00 x80 xbf))
(L (W x00 x00 x80 xbf x00 x00 x80 xbf)))))
(T (W x00 x00 x00 x00 x00 x00 x00 x00)
(T (W x2c x40 xfc xff x3c x00 x00 x00)
(T (W x44 xac xfc xff x00 x01 x01 x01)
(T (W x68 x00 x00 x00 x5c x00 x00 x00)
(L (W x00 x00 x00 x00 x00 x00 x00 x00)) E)
(L (W xff xff xff xff xc4 x00 x00 x00)))
(T (W xff xff xff xff x02 x00 x00 x00)
(L (W x54 xf8 xff xff x01 x01 x01 x01))
(L (W xff xff xff xff xff xff xff xff))))
(T (W xff xff xff xff xff xff xff xff)
(T (W x00 x00 x00 x00 x00 x00 x00 x00)
(T (W x00 x00 x80 xbf x00 x00 x80 xbf)
(L (W x10 x03 x00 x00 xf8 x01 x00 x00)) E)
(L (W x00 x00 x80 xbf x00 x00 x80 xbf)))
(T (W x5f x77 x69 x6c x64 x5f x70 x6f)
(L (W x00 x00 x00 x00 x00 x00 x00 x00))
(L (W xff xff xff xff xff xff xff xff))))))
(T (W x00 x00 x80 x3f x00 x00 x80 x3f)
(T (W x00 x00 x80 x3f x00 x00 x80 x3f)
(T (W x00 x00 x00 x00 x00 x00 x00 x00)
(T (W x7a x97 xfc xff x74 x00 x00 x00)
(T (W xff xff xff xff x03 x00 x00 x00)
(L (W x00 x00 x00 x00 x00 x00 x00 x00)) E)
(L (W x1b x00 x00 x00 x10 x00 x00 x00)))
(T (W x1b x00 x00 x00 x1e x00 x00 x00)
(L (W x00 x00 x80 x3f x00 x00 x80 x3f))
(L (W x00 x00 x00 x00 x00 x00 x00 x00))))
(T (W xff xff xff xff xff xff xff xff)
(T (W xff xff xff xff xff xff xff xff)
(T (W x68 x00 x00 x00 x5c x00 x00 x00)
(L (W x00 x00 x80 xbf x00 x00 x80 xbf)) E)
(L (W x4c x45 x41 x52 x45 x44 x00 x00)))
(T (W xff xff xff xff xac x00 x00 x00)
(L (W x00 x00 x80 xbf x00 x00 x80 xbf))
(L (W xff xff xff xff xff xff xff xff)))))
(T (W x00 x00 x00 x00 x00 x00 x00 x00)
(T (W xff xff xff xff xff xff xff xff)
(T (W x45 x26 x22 x84 xe4 x9c xf2 xcb)
(T (W xff xff xff xff xff xff xff xff)
(L (W x6c x00 x00 x00 x60 x00 x00 x00)) E)
(L (W xff xff xff xff xff xff xff xff)))
(T (W x12 x00 x00 x00 x46 x53 x59 x53)
(L (W x68 x00 x00 x00 x5c x00 x00 x00))
(L (W x00 x00 x80 xbf x00 x00 x80 xbf))))
(T (W x45 x26 x22 x84 xe4 x9c xf2 xcb)
(T (W x00 x00 x80 x3f x00 x00 x80 x3f)
(T (W xb0 xfa xfd xff x28 x00 x3c x00)
(L (W x00 x00 x00 x00 x00 x00 x00 x00)) E)
(L (W x2a xf9 xfe xff x78 x00 x00 x00)))
(T (W x00 x00 x80 x3f x00 x00 x80 x3f)
(L (W x45 x26 x22 x84 xe4 x9c xf2 xcb))
(L (W x18 x00 x00 x00 x10 x00 x00 x00)))))))
(T (W x45 x26 x22 x84 xe4 x9c xf2 xcb)
(T (W x00 x00 x80 x3f x00 x00 x80 x3f)
(T (W x45 x26 x22 x84 xe4 x9c xf2 xcb)
(T (W x00 x00 x00 x00 x00 x00 x00 x00)
(T (W xc0 x00 x00 x00 xb4 x00 x00 x00)
(T (W xff xff xff xff xff xff xff xff)
(L (W x74 x03 x00 x00 x4c x02 x00 x00)) E)
(L (W x00 x00 x00 x00 x00 x00 x00 x00)))
(T (W x6c x00 x00 x00 x60 x00 x00 x00)
(L (W x00 x00 x00 x00 x12 x00 x00 x00))
(L (W xff xff xff xff xff xff xff xff))))
(T (W x20 x01 x00 x00 x04 x00 x00 x00)
(T (W x18 x00 x00 x00 x10 x00 x00 x00)
(T (W x68 x00 x00 x00 x5c x00 x00 x00)
(L (W x00 x00 x80 xbf x00 x00 x80 xbf)) E)
(L (W x00 x00 x00 x00 x3a xe0 xfe xff)))
(T (W x50 x00 x00 x00 x44 x00 x00 x00)
(L (W x00 x00 x80 xbf x00 x00 x80 xbf))
(L (W x2a x51 xff xff x78 x00 x00 x00)))))
(T (W x00 x00 x00 x00 x00 x00 x00 x00)
(T (W x01 x00 x00 x00 x04 x00 x00 x00)
(T (W x50 x00 x00 x00 x44 x00 x00 x00)
(T (W x00 x00 x80 x3f x00 x00 x80 x3f)
(L (W x00 x00 x00 x00 x00 x00 x00 x00)) E)
(L (W xff xff xff xff xff xff xff xff)))
(T (W xe7 x29 x37 x6e xd9 x77 xe8 x62)
(L (W x00 x00 x80 xbf x00 x00 x80 xbf))
(L (W x18 x00 x00 x00 x0c x00 x00 x00))))
(T (W xb8 x00 x00 x00 xac x00 x00 x00)
(T (W x00 x00 x00 x00 x00 x00 x00 x00)
(T (W x70 x5f x77 x69 x6c x64 x5f x70)
(L (W x4c x00 x50 x00 x54 x00 x00 x00)) E)
(L (W x7a xef xfe xff x74 x00 x00 x00)))
(T (W x00 x00 x80 x3f x00 x00 x80 x3f)
(L (W x00 x00 x00 x00 x00 x00 x00 x00))
(L (W xff xff xff xff xff xff xff xff))))))
(T (W x45 x26 x22 x84 xe4 x9c xf2 xcb)
(T (W x00 x00 x80 x3f x00 x00 x80 x3f)
(T (W x00 x00 x00 x00 x00 x00 x00 x00)
(T (W x18 x00 x00 x00 x0c x00 x00 x00)
(T (W x7a x9f xfd xff x74 x00 x00 x00)
(L (W x00 x00 x00 x00 x00 x00 x00 x00)) E)
(L (W xff xff xff xff xff xff xff xff)))
(T (W xff xff xff xff xff xff xff xff)
(L (W x00 x00 x00 x00 x00 x00 x00 x00))
(L (W xff xff xff xff xff xff xff xff))))
(T (W xff xff xff xff xff xff xff xff)
(T (W x00 x00 x00 x00 x00 x00 x00 x00)
(T (W xff xff xff xff xff xff xff xff)
(L (W x45 x26 x22 x84 xe4 x9c xf2 xcb)) E)
(L (W x00 x00 x00 x00 x00 x00 x00 x00)))
(T (W xff xff xff xff xff xff xff xff)
(L (W x00 x00 x80 xbf x00 x00 x80 xbf))
(L (W xff xff xff xff xff xff xff xff)))))
(T (W x00 x00 x00 x00 x00 x00 x00 x00)
(T (W x7a x5d xfe xff x00 x00 x01 x01)
(T (W x45 x26 x22 x84 xe4 x9c xf2 xcb)
(T (W x00 x00 x00 x00 x00 x00 x00 x00)
(L (W x00 x00 x80 xbf x00 x00 x80 xbf)) E)
(L (W xff xff xff xff xff xff xff xff)))
(T (W x00 x00 x80 x3f x00 x00 x80 x3f)
(L (W x00 x00 x80 xbf x00 x00 x80 xbf))
(L (W x54 x00 x00 x00 x48 x00 x00 x00))))
(T (W x01 x00 x00 x00 x9c x00 x00 x00)
(T (W x00 x00 x80 x3f x00 x00 x80 x3f)
(T (W x04 x0f x00 x00 xe8 x0d x00 x00)
(L (W x00 x00 x58 x00 x00 x00 x00 x00)) E)
(L (W x18 x00 x00 x00 x10 x00 x00 x00)))
(T (W x7a x7f xfd xff x74 x00 x00 x00)
(L (W x00 x00 x00 x00 x00 x00 x00 x00))
(L (W x00 x00 x00 x00 x02 x00 x00 x00)))))))))
(T (W x00 x00 x00 x00 x00 x00 x00 x00)
(T (W xff xff xff xff xff xff xff xff)
(T (W xff xff xff xff x03 x00 x00 x00)
(T (W xbc x00 x00 x00 xb0 x00 x00 x00)
(T (W x00 x00 x00 x00 x00 x00 x00 x00)
(T (W xff xff xff xff xff xff xff xff)
(T (W x00 x00 x80 x3f x00 x00 x80 x3f)
(T (W xb8 x00 x00 x00 xac x00 x00 x00)
(L (W xff xff xff xff xff xff xff xff)) E)
(L (W xff xff xff xff xff xff xff xff)))
(T (W x00 x00 x00 x00 x00 x00 x00 x00)
(L (W xff xff xff xff xb0 x00 x00 x00))
(L (W x00 x00 x00 x00 x00 x00 x00 x00))))
(T (W xb8 x00 x00 x00 xac x00 x00 x00)
(T (W x00 x00 x00 x00 x00 x00 x00 x00)
(T (W x00 x00 x00 x00 x02 x00 x00 x00)
(L (W x00 x00 x00 x00 x00 x00 x00 x00)) E)
(L (W xff xff xff xff xff xff xff xff)))
(T (W x5f x4e x53 x5f x30 x33 x5f x43)
(L (W x00 x00 x00 x00 x00 x00 x00 x00))
(L (W x45 x26 x22 x84 xe4 x9c xf2 xcb)))))
(T (W x00 x00 x00 x00 x00 x00 x00 x00)
(T (W xff xff xff xff xff xff xff xff)
(T (W x00 x00 x80 x3f x00 x00 x80 x3f)
(T (W x45 x26 x22 x84 xe4 x9c xf2 xcb)
(L (W xff xff xff xff xff xff xff xff)) E)
(L (W x68 x00 x00 x00 x5c x00 x00 x00)))
(T (W x00 x00 x00 x00 xb4 x28 xfd xff)
(L (W x00 x00 x00 x00 x00 x00 x00 x00))
(L (W x50 x00 x00 x00 x44 x00 x00 x00))))
(T (W x00 x00 x80 x3f x00 x00 x80 x3f)
(T (W xff xff xff xff xff xff xff xff)
(T (W xff xff xff xff xff xff xff xff)
(L (W x18 x00 x00 x00 x0c x00 x00 x00)) E)
(L (W x00 x00 x00 x00 x00 x00 x00 x00)))
(T (W xff xff xff xff xff xff xff xff)
(L (W x00 x00 x00 x00 x00 x00 x00 x00))
(L (W x00 x00 x80 xbf x00 x00 x80 xbf))))))
(T (W x2c xce xfb xff x3e x00 x00 x00)
(T (W x61 xda x46 xce xa2 x9c xad x24)
(T (W xff xff xff xff xff xff xff xff)
(T (W x45 x26 x22 x84 xe4 x9c xf2 xcb)
(T (W x00 x00 x80 x3f x00 x00 x80 x3f)
(L (W xff xff xff xff xff xff xff xff)) E)
(L (W xff xff xff xff xff xff xff xff)))
(T (W x45 x26 x22 x84 xe4 x9c xf2 xcb)
(L (W x00 x00 x00 x00 x00 x00 x00 x00))
(L (W x68 x00 x00 x00 x5c x00 x00 x00))))
(T (W x45 x26 x22 x84 xe4 x9c xf2 xcb)
(T (W x2a xd7 xfc xff x78 x00 x00 x00)
(T (W x00 x00 x00 x00 x00 x00 x00 x00)
(L (W x00 x00 x00 x00 x00 x00 x00 x00)) E)
(L (W xff xff xff xff xff xff xff xff)))
(T (W x00 x00 x80 x3f x00 x00 x80 x3f)
(L (W x00 x00 x00 x00 x00 x00 x00 x00))
(L (W x00 x00 x80 xbf x00 x00 x80 xbf)))))
(T (W x00 x00 x00 x00 x00 x00 x00 x00)
(T (W xff xff xff xff xff xff xff xff)
(T (W x60 x00 x00 x00 x00 x00 x00 x00)
(T (W x2a x00 x00 x00 x67 x72 x6f x75)
(L (W x46 x53 x59 x53 x5f x4e x53 x5f)) E)
(L (W x45 x26 x22 x84 xe4 x9c xf2 xcb)))
(T (W xff xff xff xff xff xff xff xff)
(L (W x00 x00 x00 x00 x00 x00 x00 x00))
(L (W x45 x26 x22 x84 xe4 x9c xf2 xcb))))
(T (W x68 x00 x00 x00 x5c x00 x00 x00)
(T (W x0a x0e x25 x55 x8c xfc xd5 xe4)
(T (W xff xff xff xff xff xff xff xff)
(L (W x45 x26 x22 x84 xe4 x9c xf2 xcb)) E)
(L (W x00 x00 x00 x00 x12 x00 x00 x00)))
(T (W x00 x00 x00 x00 x00 x00 x00 x00)
(L (W x00 x00 x00 x00 x00 x00 x00 x00))
(L (W x00 x00 x80 xbf x00 x00 x80 xbf)))))))
(T (W xff xff xff xff xff xff xff xff)
(T (W x00 x00 x00 x00 x00 x00 x00 x00)
(T (W xd4 xd5 xfb xff x3e x00 x00 x00)
(T (W x6c x01 x00 x00 xff xff xff xff)
(T (W x00 x00 x80 x3f x00 x00 x80 x3f)
(T (W x50 x00 x00 x00 x44 x00 x00 x00)
(L (W xc4 x00 x00 x00 x02 x00 x00 x00)) E)
(L (W xff xff xff xff xff xff xff xff)))
(T (W x00 x00 x80 x3f x00 x00 x80 x3f)
(L (W xff xff xff xff xff xff xff xff))
(L (W x00 x00 x80 xbf x00 x00 x80 xbf))))
(T (W xff xff xff xff x04 x00 x00 x00)
(T (W x00 x00 x80 x3f x00 x00 x80 x3f)
(T (W x45 x26 x22 x84 xe4 x9c xf2 xcb)
(L (W x00 x00 x00 x00 x00 x00 x00 x00)) E)
(L (W xff xff xff xff xff xff xff xff)))
(T (W x45 x26 x22 x84 xe4 x9c xf2 xcb)
(L (W x00 x00 x00 x00 x00 x00 x00 x00))
(L (W x00 x00 x80 xbf x00 x00 x80 xbf)))))
(T (W x00 x00 x00 x00 x00 x00 x00 x00)
(T (W xff xff xff xff xff xff xff xff)
(T (W x00 x00 x80 x3f x00 x00 x80 x3f)
(T (W x00 x00 x00 x00 x00 x00 x00 x00)
(L (W x00 x00 x00 x00 x00 x00 x00 x00)) E)
(L (W x2a xaf xfe xff x78 x00 x00 x00)))
(T (W xff xff xff xff xff xff xff xff)
(L (W x00 x00 x01 x01 xdd x01 x00 x00))
(L (W x00 x01 x01 x01 x1a x35 xff xff))))
(T (W x50 x00 x00 x00 x44 x00 x00 x00)
(T (W x00 x00 x00 x00 x00 x00 x00 x00)
(T (W x1a x00 x00 x00 x46 x4d x41 x50)
(L (W x00 x00 x80 xbf x00 x00 x80 xbf)) E)
(L (W x00 x00 x00 x00 x00 x00 x00 x00)))
(T (W x00 x00 x00 x00 x00 x00 x00 x00)
(L (W x30 x33 x5f x43 x4c x45 x41 x52))
(L (W x54 x00 x00 x00 x48 x00 x00 x00))))))
(T (W x00 x00 x00 x00 x00 x00 x00 x00)
(T (W x40 x00 x00 x00 x0c x00 x00 x00)
(T (W xff xff xff xff xff xff xff xff)
(T (W x00 x00 x00 x00 x00 x00 x00 x00)
(T (W x00 x00 x80 x3f x00 x00 x80 x3f)
(L (W xff xff xff xff xff xff xff xff)) E)
(L (W x46 x53 x59 x53 x5f x4e x53 x5f)))
(T (W x00 x00 x80 x3f x00 x00 x80 x3f)
(L (W xff xff xff xff xff xff xff xff))
(L (W x00 x00 x00 x00 x48 x22 xff xff))))
(T (W x68 x00 x00 x00 x5c x00 x00 x00)
(T (W xb0 x00 x00 x00 x64 x00 x00 x00)
(T (W x45 x26 x22 x84 xe4 x9c xf2 xcb)
(L (W x00 x00 x00 x00 x00 x00 x00 x00)) E)
(L (W x00 x00 x00 x00 x02 x00 x00 x00)))
(T (W x00 x00 x80 x3f x00 x00 x80 x3f)
(L (W x00 x00 x00 x00 x00 x00 x00 x00))
(L (W x6c x00 x00 x00 x60 x00 x00 x00)))))
(T (W x00 x00 x00 x00 x04 x00 x00 x00)
(T (W xff xff xff xff xff xff xff xff)
(T (W x7e x73 x09 x74 x08 x23 x54 xff)
(T (W xff xff xff xff xff xff xff xff)
(L (W x00 x00 x00 x00 x00 x00 x00 x00)) E)
(L (W xcc x00 x00 x00 x01 x00 x00 x00)))
(T (W x04 x00 x00 x00 x7c x03 x00 x00)
(L (W x00 x00 x00 x00 x00 x00 x00 x00))
(L (W x49 xa1 x68 x4a xeb x5f xdd x3d))))
(T (W x7a x7d xfc xff x74 x00 x00 x00)
(T (W x30 x33 x5f x43 x4c x45 x41 x52)
(T (W x45 x26 x22 x84 xe4 x9c xf2 xcb)
(L (W x10 x00 x14 x00 x00 x00 x00 x00)) E)
(L (W x00 x00 x00 x00 x00 x00 x00 x00)))
(T (W x00 x00 x00 x00 x00 x00 x00 x00)
(L (W x00 x00 x00 x00 x00 x00 x00 x00))
(L (W x03 x00 x00 x00 xd0 x00 x00 x00))))))))
(T (W xff xff xff xff xff xff xff xff)
(T (W x50 x00 x00 x00 x44 x00 x00 x00)
(T (W x00 x00 x80 x3f x00 x00 x80 x3f)
(T (W x7a xc9 xfb xff x74 x00 x00 x00)
(T (W x00 x00 x80 x3f x00 x00 x80 x3f)
(T (W xff xff xff xff xff xff xff xff)
(T (W x00 x00 x00 x00 x00 x00 x00 x00)
(L (W x00 x00 x80 xbf x00 x00 x80 xbf)) E)
(L (W x45 x26 x22 x84 xe4 x9c xf2 xcb)))
(T (W xff xff xff xff xff xff xff xff)
(L (W x45 x26 x22 x84 xe4 x9c xf2 xcb))
(L (W xff xff xff xff xff xff xff xff))))
(T (W x00 x00 x00 x00 x00 x00 x00 x00)
(T (W xff xff xff xff xff xff xff xff)
(T (W x00 x00 x00 x00 xb4 xcc xfd xff)
(L (W xff xff xff xff xff xff xff xff)) E)
(L (W x00 x00 x00 x00 x00 x00 x00 x00)))
(T (W xc0 x00 x00 x00 x01 x00 x00 x00)
(L (W x45 x26 x22 x84 xe4 x9c xf2 xcb))
(L (W xff xff xff xff xff xff xff xff)))))
(T (W x45 x26 x22 x84 xe4 x9c xf2 xcb)
(T (W x00 x00 x80 x3f x00 x00 x80 x3f)
(T (W x37 x00 x00 x00 xff xff xff xff)
(T (W xff xff xff xff xff xff xff xff)
(L (W xff xff xff xff xff xff xff xff)) E)
(L (W x00 x00 x00 x00 x00 x00 x00 x00)))
(T (W x00 x00 x00 x00 x00 x00 x00 x00)
(L (W x00 x00 x01 x01 xc6 x00 x00 x00))
(L (W x00 x00 x00 x00 x00 x00 x00 x00))))
(T (W x00 x00 x00 x00 x00 x00 x00 x00)
(T (W x00 x00 x80 x3f x00 x00 x80 x3f)
(T (W x08 x01 x00 x00 xdc x00 x00 x00)
(L (W xb0 x01 x00 x00 xff xff xff xff)) E)
(L (W x18 x00 x00 x00 x0c x00 x00 x00)))
(T (W x00 x00 x80 x3f x00 x00 x80 x3f)
(L (W xff xff xff xff x9c x00 x00 x00))
(L (W xff xff xff xff xff xff xff xff))))))
(T (W x45 x26 x22 x84 xe4 x9c xf2 xcb)
(T (W x40 x00 x00 x00 xa0 x00 x00 x00)
(T (W x00 x00 x80 x3f x00 x00 x80 x3f)
(T (W xff xff xff xff xff xff xff xff)
(T (W x7a xb7 xff xff x00 x00 x01 x01)
(L (W x00 x00 x80 xbf x00 x00 x80 xbf)) E)
(L (W x00 x00 x80 xbf x00 x00 x80 xbf)))
(T (W xff xff xff xff xff xff xff xff)
(L (W xff xff xff xff xff xff xff xff))
(L (W x00 x00 x00 x00 x00 x00 x00 x00))))
(T (W x00 x00 x00 x00 x00 x00 x00 x00)
(T (W x00 x00 x00 x00 x00 x00 x00 x00)
(T (W xff xff xff xff xff xff xff xff)
(L (W xff xff xff xff xff xff xff xff)) E)
(L (W x00 x00 x80 xbf x00 x00 x80 xbf)))
(T (W x04 x00 x00 x00 x3a x6a xfd xff)
(L (W x22 x00 x00 x00 x25 x00 x00 x00))
(L (W x4a x63 xff xff xa6 x01 x00 x00)))))
(T (W x00 x00 x80 x3f x00 x00 x80 x3f)
(T (W x00 x00 x00 x00 x00 x00 x00 x00)
(T (W xb8 x00 x00 x00 xac x00 x00 x00)
(T (W x00 x00 x00 x00 x00 x00 x00 x00)
(L (W x03 x00 x00 x00 xd8 x00 x00 x00)) E)
(L (W x00 x00 x00 x00 x00 x00 x00 x00)))
(T (W x50 x00 x00 x00 x44 x00 x00 x00)
(L (W xff xff xff xff x94 x00 x00 x00))
(L (W xff xff xff xff xff xff xff xff))))
(T (W x4a x00 x00 x00 xff xff xff xff)
(T (W x68 x00 x00 x00 x5c x00 x00 x00)
(T (W x00 x00 x00 x00 x00 x00 x00 x00)
(L (W xd0 x00 x00 x00 x64 x00 x00 x00)) E)
(L (W xff xff xff xff xff xff xff xff)))
(T (W xff xff xff xff xff xff xff xff)
(L (W x00 x00 x80 xbf x00 x00 x80 xbf))
(L (W x00 x00 x80 xbf x00 x00 x80 xbf)))))))
(T (W xff xff xff xff xff xff xff xff)
(T (W xff xff xff xff xff xff xff xff)
(T (W x00 x00 x00 x00 xb4 xd4 xfb xff)
(T (W x00 x00 x80 x3f x00 x00 x80 x3f)
(T (W xff xff xff xff xff xff xff xff)
(T (W x0a xae xff xff xaa x01 x00 x00)
(L (W x45 x26 x22 x84 xe4 x9c xf2 xcb)) E)
(L (W x00 x00 x80 xbf x00 x00 x80 xbf)))
(T (W xff xff xff xff xff xff xff xff)
(L (W xcc x00 x00 x00 x01 x00 x00 x00))
(L (W x00 x00 x00 x00 x00 x00 x00 x00))))
(T (W x00 x00 x00 x00 x00 x00 x00 x00)
(T (W x4b x00 x00 x00 xff xff xff xff)
(T (W xff xff xff xff xff xff xff xff)
(L (W x29 x00 x00 x00 x2c x00 x00 x00)) E)
(L (W x45 x26 x22 x84 xe4 x9c xf2 xcb)))
(T (W xff xff xff xff xff xff xff xff)
(L (W x00 x00 x00 x00 x48 x56 xfe xff))
(L (W xff xff xff xff xff xff xff xff)))))
(T (W x50 x00 x00 x00 x44 x00 x00 x00)
(T (W x45 x26 x22 x84 xe4 x9c xf2 xcb)
(T (W xff xff xff xff xff xff xff xff)
(T (W x7a xb1 xfd xff x74 x00 x00 x00)
(L (W x18 x00 x00 x00 x10 x00 x00 x00)) E)
(L (W xd4 xb9 xfe xff x18 x00 x00 x00)))
(T (W x00 x00 x80 x3f x00 x00 x80 x3f)
(L (W xc4 x00 x00 x00 x01 x00 x00 x00))
(L (W x24 x01 x00 x00 x04 x00 x00 x00))))
(T (W xd1 x77 x16 x69 xd8 x99 xc1 xb5)
(T (W x2a xf3 xfc xff x78 x00 x00 x00)
(T (W x00 x00 x00 x00 x20 x00 x24 x00)
(L (W xff xff xff xff xc8 x00 x00 x00)) E)
(L (W xff xff xff xff xbc x00 x00 x00)))
(T (W x44 x76 xfd xff x00 x01 x01 x01)
(L (W x18 x00 x00 x00 x0c x00 x00 x00))
(L (W x2c x8a xff xff x1d x00 x00 x00))))))
(T (W x50 x00 x00 x00 x44 x00 x00 x00)
(T (W x00 x00 x00 x00 xb4 xe4 xfb xff)
(T (W x45 x26 x22 x84 xe4 x9c xf2 xcb)
(T (W x00 x00 x00 x00 x00 x00 x00 x00)
(T (W xff xff xff xff xff xff xff xff)
(L (W x00 x00 x00 x00 x00 x00 x00 x00)) E)
(L (W x00 x00 x00 x00 x00 x00 x00 x00)))
(T (W x13 x00 x00 x00 x0c x00 x00 x00)
(L (W x50 x00 x00 x00 x44 x00 x00 x00))
(L (W xff xff xff xff xff xff xff xff))))
(T (W x00 x00 x00 x00 x00 x00 x00 x00)
(T (W x49 xa1 x68 x4a xeb x5f xdd x3d)
(T (W x00 x00 x80 x3f x00 x00 x80 x3f)
(L (W x00 x00 x62 x00 x6c x00 x04 x00)) E)
(L (W xff xff xff xff x9c x00 x00 x00)))
(T (W x00 x00 x00 x00 x00 x00 x00 x00)
(L (W x18 x00 x00 x00 x0c x00 x00 x00))
(L (W x00 x00 x00 x00 x00 x00 x00 x00)))))
(T (W x00 x00 x80 x3f x00 x00 x80 x3f)
(T (W x00 x00 x00 x00 x00 x00 x00 x00)
(T (W x00 x00 x00 x00 xb4 xc4 xfc xff)
(T (W x00 x00 x80 x3f x00 x00 x80 x3f)
(L (W x1d x00 x00 x00 x20 x00 x00 x00)) E)
(L (W x00 x00 x00 x00 x00 x00 x00 x00)))
(T (W x68 x00 x00 x00 x5c x00 x00 x00)
(L (W xff xff xff xff xb0 x00 x00 x00))
(L (W xff xff xff xff xff xff xff xff))))
(T (W xff xff xff xff xff xff xff xff)
(T (W x18 x00 x00 x00 x0c x00 x00 x00)
(L (W x18 x00 x00 x00 x10 x00 x00 x00))
(L (W xff xff xff xff xff xff xff xff)))
(T (W xff xff xff xff xff xff xff xff)
(L (W x00 x00 x80 xbf x00 x00 x80 xbf))
(L (W x00 x00 x00 x00 x00 x00 x00 x00))))))))))))
(T (W x20 x84 x03 x00 xec x7a x03 x00)
(T (W x18 xc0 x02 x00 xbc xbd x02 x00)
(T (W x98 x22 x02 x00 x54 x20 x02 x00)
(T (W x70 xb3 x00 x00 x3c xb2 x00 x00)
(T (W x18 x00 x00 x00 x0c x00 x00 x00)
(T (W x00 x00 x00 x00 x00 x00 x00 x00)
(T (W x00 x00 x00 x00 x00 x00 x00 x00)
(T (W xff xff xff xff xff xff xff xff)
(T (W xff xff xff xff x04 x00 x00 x00)
(T (W x00 x00 x00 x00 x00 x00 x00 x00)
(T (W x00 x00 x00 x00 x00 x00 x00 x00)
(L (W xff xff xff xff xb0 x00 x00 x00)) E)
(L (W xff xff xff xff xff xff xff xff)))
(T (W x00 x00 x00 x00 x1a x03 xfd xff)
(L (W x6c x76 x32 x00 x22 x00 x00 x00))
(L (W x00 x00 x00 x00 x00 x00 x00 x00))))
(T (W x50 x00 x00 x00 x44 x00 x00 x00)
(T (W x04 x00 x00 x00 x92 xcd xfc xff)
(T (W x18 x00 x00 x00 x10 x00 x00 x00)
(L (W x00 x00 x00 x00 x00 x00 x00 x00)) E)
(L (W x00 x00 x80 xbf x00 x00 x80 xbf)))
(T (W x9d x01 x00 x00 xff xff xff xff)
(L (W x00 x00 x00 x00 x00 x00 x00 x00))
(L (W x00 x00 x00 x00 x12 x00 x00 x00)))))
(T (W x48 x03 x00 x00 x34 x02 x00 x00)
(T (W xff xff xff xff xff xff xff xff)
(T (W xff xff xff xff x01 x00 x00 x00)
(T (W x00 x00 x00 x00 x00 x00 x00 x00)
(L (W xea xa3 xff xff x78 x00 x00 x00)) E)
(L (W x00 x00 x80 xbf x00 x00 x80 xbf)))
(T (W x00 x00 x80 x3f x00 x00 x80 x3f)
(L (W xff xff xff xff xff xff xff xff))
(L (W x49 xa1 x68 x4a xeb x5f xdd x3d))))
(T (W x68 x00 x00 x00 x5c x00 x00 x00)
(T (W x18 x00 x00 x00 x10 x00 x00 x00)
(T (W x54 x00 x00 x00 x58 x00 x00 x00)
(L (W x14 x00 x00 x00 x0c x00 x00 x00)) E)
(L (W xff xff xff xff xff xff xff xff)))
(T (W x45 x26 x22 x84 xe4 x9c xf2 xcb)
(L (W x00 x00 x00 x00 x4a x66 xfe xff))
(L (W x54 x00 x00 x00 x48 x00 x00 x00))))))
(T (W x00 x00 x00 x00 x00 x00 x00 x00)
(T (W xff xff xff xff xff xff xff xff)
(T (W xb8 x00 x00 x00 xac x00 x00 x00)
(T (W x00 x00 x00 x00 x00 x00 x00 x00)
(T (W x45 x26 x22 x84 xe4 x9c xf2 xcb)
(L (W x04 x97 xff xff x00 x01 x01 x01)) E)
(L (W xff xff xff xff xff xff xff xff)))
(T (W x00 x00 x00 x00 x00 x00 x00 x00)
(L (W x45 x44 x00 x00 x00 x00 x00 x00))
(L (W x00 x00 x80 xbf x00 x00 x80 xbf))))
(T (W x00 x00 x80 x3f x00 x00 x80 x3f)
(T (W x45 x26 x22 x84 xe4 x9c xf2 xcb)
(T (W x00 x00 x00 x00 x00 x00 x00 x00)
(L (W x94 xda xff xff x1c x00 x00 x00)) E)
(L (W xff xff xff xff xff xff xff xff)))
(T (W x00 x00 x00 x00 x00 x00 x00 x00)
(L (W xff xff xff xff xff xff xff xff))
(L (W x00 x00 x00 x00 x00 x00 x00 x00)))))
(T (W xff xff xff xff xff xff xff xff)
(T (W xbc x00 x00 x00 xb0 x00 x00 x00)
(T (W x00 x00 x00 x00 x00 x00 x00 x00)
(T (W x3a xd0 xff xff x00 x00 x01 x01)
(L (W xff xff xff xff xff xff xff xff)) E)
(L (W x6c x00 x00 x00 x60 x00 x00 x00)))
(T (W xff xff xff xff xac x00 x00 x00)
(L (W x00 x00 x00 x00 x00 x00 x00 x00))
(L (W x49 xa1 x68 x4a xeb x5f xdd x3d))))
(T (W x00 x00 x80 x3f x00 x00 x80 x3f)
(T (W xff xff xff xff xff xff xff xff)
(T (W x45 x26 x22 x84 xe4 x9c xf2 xcb)
(L (W x00 x00 x00 x00 x00 x00 x00 x00)) E)
(L (W x00 x00 x00 x00 x00 x00 x00 x00)))
(T (W xff xff xff xff xff xff xff xff)
(L (W x00 x00 x00 x00 x4a x76 xfe xff))
(L (W x54 x00 x00 x00 x48 x00 x00 x00)))))))
(T (W x6b x65 x5f x77 x61 x72 x6c x69)
(T (W xff xff xff xff xff xff xff xff)
(T (W xff xff xff xff xff xff xff xff)
(T (W x18 x00 x00 x00 x10 x00 x00 x00)
(T (W x00 x00 x00 x00 x00 x00 x00 x00)
(T (W x00 x00 x80 x3f x00 x00 x80 x3f)
(L (W x29 x00 x00 x00 x2c x00 x00 x00)) E)
(L (W xff xff xff xff xff xff xff xff)))
(T (W x00 x00 x00 x00 x00 x00 x00 x00)
(L (W xff xff xff xff xff xff xff xff))
(L (W x00 x00 x00 x00 x00 x00 x00 x00))))
(T (W x00 x00 x80 x3f x00 x00 x80 x3f)
(T (W x00 x00 x00 x00 x12 x00 x00 x00)
(T (W x18 x01 x00 x00 x04 x00 x00 x00)
(L (W x00 x00 x00 x00 x00 x00 x00 x00)) E)
(L (W x3a xca xfe xff x74 x00 x00 x00)))
(T (W x00 x00 x00 x00 x00 x00 x00 x00)
(L (W xc4 x05 x00 x00 x94 x04 x00 x00))
(L (W x00 x00 x00 x00 x00 x00 x00 x00)))))
(T (W xff xff xff xff xff xff xff xff)
(T (W x64 x00 x00 x00 x9c x00 x00 x00)
(T (W x45 x26 x22 x84 xe4 x9c xf2 xcb)
(T (W x00 x00 x00 x00 x00 x00 x00 x00)
(L (W x45 x44 x00 x00 x00 x00 x00 x00)) E)
(L (W x68 x00 x00 x00 x5c x00 x00 x00)))
(T (W x50 x00 x00 x00 x44 x00 x00 x00)
(L (W x45 x26 x22 x84 xe4 x9c xf2 xcb))
(L (W x00 x00 x80 xbf x00 x00 x80 xbf))))
(T (W x00 x00 x80 x3f x00 x00 x80 x3f)
(T (W xff xff xff xff xff xff xff xff)
(T (W x4e x4f x54 x5f x52 x45 x53 x50)
(L (W x45 x26 x22 x84 xe4 x9c xf2 xcb)) E)
(L (W x00 x00 x00 x00 x1a xeb xfe xff)))
(T (W xff xff xff xff xff xff xff xff)
(L (W xff xff xff xff xff xff xff xff))
(L (W x00 x00 x00 x00 x00 x00 x00 x00))))))
(T (W x00 x00 x00 x00 x04 x00 x00 x00)
(T (W xa7 x01 x00 x00 xff xff xff xff)
(T (W xc0 x00 x00 x00 xb4 x00 x00 x00)
(T (W x00 x00 x00 x00 x00 x00 x00 x00)
(T (W x45 x26 x22 x84 xe4 x9c xf2 xcb)
(L (W xff xff xff xff x8c x00 x00 x00)) E)
(L (W xc4 x00 x00 x00 x02 x00 x00 x00)))
(T (W x00 x00 x00 x00 x00 x00 x00 x00)
(L (W x00 x00 x00 x00 x00 x00 x00 x00))
(L (W x68 x00 x00 x00 x5c x00 x00 x00))))
(T (W x50 x00 x00 x00 x44 x00 x00 x00)
(T (W x54 x00 x00 x00 x48 x00 x00 x00)
(T (W x00 x00 x00 x00 x00 x00 x00 x00)
(L (W x30 x33 x5f x43 x4c x45 x41 x52)) E)
(L (W xff xff xff xff xff xff xff xff)))
(T (W x00 x00 x80 x3f x00 x00 x80 x3f)
(L (W xff xff xff xff xff xff xff xff))
(L (W x45 x26 x22 x84 xe4 x9c xf2 xcb)))))
(T (W xff xff xff xff xff xff xff xff)
(T (W x04 x3f xfc xff x00 x01 x01 x01)
(T (W xec xd2 xfc xff x1f x00 x00 x00)
(T (W xff xff xff xff xff xff xff xff)
(L (W x30 x33 x5f x43 x4c x45 x41 x52)) E)
(L (W x50 x00 x00 x00 x44 x00 x00 x00)))
(T (W xff xff xff xff xff xff xff xff)
(L (W xa7 x32 xc8 xc9 x03 x8e xa0 xbc))
(L (W x00 x00 x00 x00 x00 x00 x00 x00))))
(T (W x45 x26 x22 x84 xe4 x9c xf2 xcb)
(T (W xb2 x12 xfd xff x4b x00 x00 x00)
(T (W xea xfb xfd xff x78 x00 x00 x00)
(L (W x00 x00 x00 x00 x00 x00 x00 x00)) E)
(L (W x30 x33 x5f x43 x4c x45 x41 x52)))
(T (W x00 x00 x00 x00 x00 x00 x00 x00)
(L (W xff xff xff xff xff xff xff xff))
(L (W xa8 x00 x00 x00 x64 x00 x00 x00))))))))
(T (W x00 x00 x00 x00 x27 x00 x00 x00)
(T (W x00 x00 x00 x00 x00 x00 x00 x00)
(T (W x00 x00 x00 x00 xa2 xf2 xfe xff)
(T (W x00 x00 x80 x3f x00 x00 x80 x3f)
(T (W x00 x00 x00 x00 x00 x00 x00 x00)
(T (W xff xff xff xff xff xff xff xff)
(T (W xca xa2 xff xff xc4 x01 x00 x00)
(L (W x00 x00 x00 x00 x00 x00 x00 x00)) E)
(L (W x00 x00 x00 x00 x00 x00 x00 x00)))
(T (W x6c x00 x00 x00 x60 x00 x00 x00)
(L (W x00 x00 x00 x00 x00 x00 x00 x00))
(L (W x00 x00 x00 x00 x74 x09 xff xff))))
(T (W x94 x4e xfc xff x3c x00 x00 x00)
(T (W x68 x00 x00 x00 x5c x00 x00 x00)
(T (W x00 x00 x80 x3f x00 x00 x80 x3f)
(L (W x00 x00 x00 x00 x74 xc9 xff xff)) E)
(L (W x00 x00 x00 x00 x00 x00 x00 x00)))
(T (W x00 x00 x80 x3f x00 x00 x80 x3f)
(L (W x6c x00 x00 x00 x60 x00 x00 x00))
(L (W xea x47 xff xff x78 x00 x00 x00)))))
(T (W x45 x26 x22 x84 xe4 x9c xf2 xcb)
(T (W x00 x00 x00 x00 x00 x00 x00 x00)
(T (W x18 x00 x00 x00 x10 x00 x00 x00)
(T (W x3a xa6 xfd xff x74 x00 x00 x00)
(L (W x00 x00 x00 x00 x00 x00 x00 x00)) E)
(L (W xff xff xff xff xff xff xff xff)))
(T (W x54 x02 x00 x00 x34 x01 x00 x00)
(L (W x45 x26 x22 x84 xe4 x9c xf2 xcb))
(L (W xe2 x2b xff xff xc6 x00 x00 x00))))
(T (W xff xff xff xff xff xff xff xff)
(T (W x00 x00 x00 x00 x00 x00 x00 x00)
(T (W x45 x26 x22 x84 xe4 x9c xf2 xcb)
(L (W x00 x00 x00 x00 x1a xe7 xff xff)) E)
(L (W x00 x00 x80 xbf x00 x00 x80 xbf)))
(T (W x46 x53 x59 x53 x5f x4e x53 x5f)
(L (W x00 x00 x80 xbf x00 x00 x80 xbf))
(L (W xff xff xff xff xff xff xff xff))))))
(T (W x00 x00 x80 x3f x00 x00 x80 x3f)
(T (W x00 x00 x80 x3f x00 x00 x80 x3f)
(T (W x00 x00 x00 x00 x00 x00 x00 x00)
(T (W xff xff xff xff x04 x00 x00 x00)
(T (W xff xff xff xff xff xff xff xff)
(L (W x00 x00 x00 x00 x00 x00 x00 x00)) E)
(L (W x00 x00 x00 x00 x12 x00 x00 x00)))
(T (W xff xff xff xff xff xff xff xff)
(L (W x00 x00 x80 x3f x00 x00 x80 x3f))
(L (W xf4 x07 x00 x00 xc4 x06 x00 x00))))
(T (W x00 x00 x00 x00 x02 x00 x00 x00)
(T (W xff xff xff xff xff xff xff xff)
(T (W xff xff xff xff x03 x00 x00 x00)
(L (W x00 x00 x00 x00 x74 xd9 xff xff)) E)
(L (W x00 x00 x00 x00 x00 x00 x00 x00)))
(T (W xff xff xff xff xff xff xff xff)
(L (W xea x57 xfe xff x78 x00 x00 x00))
(L (W xff xff xff xff xff xff xff xff)))))
(T (W x00 x00 x80 x3f x00 x00 x80 x3f)
(T (W x00 x00 x00 x00 x00 x00 x00 x00)
(T (W x00 x00 x80 x3f x00 x00 x80 x3f)
(T (W x45 x26 x22 x84 xe4 x9c xf2 xcb)
(L (W x00 x00 x80 xbf x00 x00 x80 xbf)) E)
(L (W xff xff xff xff xff xff xff xff)))
(T (W x45 x26 x22 x84 xe4 x9c xf2 xcb)
(L (W xff xff xff xff xa8 x00 x00 x00))
(L (W x04 x3b xff xff x00 x01 x01 x01))))
(T (W xff xff xff xff xff xff xff xff)
(T (W x00 x00 x80 x3f x00 x00 x80 x3f)
(T (W x00 x00 x00 x00 x00 x00 x00 x00)
(L (W x0c x00 x00 x00 x00 x00 x10 x00)) E)
(L (W x50 x00 x00 x00 x44 x00 x00 x00)))
(T (W x50 x00 x00 x00 x44 x00 x00 x00)
(L (W x00 x00 x80 xbf x00 x00 x80 xbf))
(L (W xff xff xff xff xff xff xff xff)))))))
(T (W x00 x00 x00 x00 x00 x00 x00 x00)
(T (W x50 x00 x00 x00 x44 x00 x00 x00)
(T (W x00 x00 x80 x3f x00 x00 x80 x3f)
(T (W x45 x26 x22 x84 xe4 x9c xf2 xcb)
(T (W xb8 x00 x00 x00 xac x00 x00 x00)
(T (W xff xff xff xff xff xff xff xff)
(L (W x00 x00 x00 x00 x00 x00 x00 x00)) E)
(L (W x00 x00 x00 x00 x00 x00 x00 x00)))
(T (W x1d x00 x00 x00 x20 x00 x00 x00)
(L (W x00 x00 x00 x00 x00 x00 x00 x00))
(L (W xff xff xff xff xff xff xff xff))))
(T (W x00 x00 x00 x00 x00 x00 x00 x00)
(T (W xff xff xff xff xff xff xff xff)
(T (W x3a xce xfd xff x74 x00 x00 x00)
(L (W xea xcf xff xff x78 x00 x00 x00)) E)
(L (W x00 x00 x00 x00 x12 x00 x00 x00)))
(T (W x45 x26 x22 x84 xe4 x9c xf2 xcb)
(L (W x3a x4e xfe xff x74 x00 x00 x00))
(L (W xb8 x00 x00 x00 x3c x00 x00 x00)))))
(T (W x00 x00 x80 x3f x00 x00 x80 x3f)
(T (W x00 x00 x00 x00 x00 x00 x00 x00)
(T (W xb8 x00 x00 x00 xac x00 x00 x00)
(T (W x68 x00 x00 x00 x5c x00 x00 x00)
(L (W x00 x00 x80 xbf x00 x00 x80 xbf)) E)
(L (W xff xff xff xff xff xff xff xff)))
(T (W x4c x45 x41 x52 x45 x44 x00 x00)
(L (W x45 x26 x22 x84 xe4 x9c xf2 xcb))
(L (W xff xff xff xff xff xff xff xff))))
(T (W xff xff xff xff xff xff xff xff)
(T (W x00 x00 x80 x3f x00 x00 x80 x3f)
(T (W xff xff xff xff xff xff xff xff)
(L (W xff xff xff xff xff xff xff xff)) E)
(L (W x18 x00 x00 x00 x0c x00 x00 x00)))
(T (W x00 x00 x80 x3f x00 x00 x80 x3f)
(L (W x00 x00 x80 xbf x00 x00 x80 xbf))
(L (W xff xff xff xff xff xff xff xff))))))
(T (W x00 x00 x80 x3f x00 x00 x80 x3f)
(T (W x00 x00 x80 x3f x00 x00 x80 x3f)
(T (W x00 x00 x00 x00 x00 x00 x00 x00)
(T (W x64 x00 x00 x00 x9c x00 x00 x00)
(T (W xff xff xff xff xff xff xff xff)
(L (W x00 x00 x00 x00 x00 x00 x00 x00)) E)
(L (W xff xff xff xff xff xff xff xff)))
(T (W xff xff xff xff xff xff xff xff)
(L (W x00 x00 x00 x00 x00 x00 x00 x00))
(L (W xff xff xff xff xff xff xff xff))))
(T (W xff xff xff xff xff xff xff xff)
(T (W x94 xe6 xfc xff x21 x00 x00 x00)
(T (W x68 x00 x00 x00 x5c x00 x00 x00)
(L (W x00 x00 x80 xbf x00 x00 x80 xbf)) E)
(L (W x00 x00 x80 xbf x00 x00 x80 xbf)))
(T (W xff xff xff xff xff xff xff xff)
(L (W x00 x00 x80 xbf x00 x00 x80 xbf))
(L (W xff xff xff xff xff xff xff xff)))))
(T (W x00 x00 x80 x3f x00 x00 x80 x3f)
(T (W x00 x00 x00 x00 x00 x00 x00 x00)
(T (W x00 x00 x80 x3f x00 x00 x80 x3f)
(T (W x00 x00 x00 x00 x00 x00 x00 x00)
(L (W x44 x00 x00 x00 x00 x00 x80 xbf)) E)
(L (W x45 x44 x00 x00 x00 x00 x00 x00)))
(T (W x00 x00 x80 x3f x00 x00 x80 x3f)
(L (W x00 x00 x00 x00 x38 x02 xff xff))
(L (W xff xff xff xff x9c x00 x00 x00))))
(T (W xff xff xff xff xff xff xff xff)
(T (W x00 x00 x80 x3f x00 x00 x80 x3f)
(T (W x51 x00 x00 x00 xff xff xff xff)
(L (W x0c x00 x0a x00 x07 x00 x00 x00)) E)
(L (W xcc x00 x00 x00 x01 x00 x00 x00)))
(T (W xff xff xff xff x03 x00 x00 x00)
(L (W x00 x00 x80 xbf x00 x00 x80 xbf))
(L (W x45 x44 x00 x00 x00 x00 x00 x00)))))))))
(T (W x00 x00 x80 x3f x00 x00 x80 x3f)
(T (W xff xff xff xff xff xff xff xff)
(T (W x00 x00 x00 x00 x74 x97 xfb xff)
(T (W xff xff xff xff x04 x00 x00 x00)
(T (W x00 x00 x00 x00 x00 x00 x00 x00)
(T (W x40 x00 x00 x00 x10 x00 x00 x00)
(T (W xea x85 xfc xff x78 x00 x00 x00)
(T (W x68 x00 x00 x00 x5c x00 x00 x00)
(L (W x24 x01 x00 x00 x04 x00 x00 x00)) E)
(L (W x30 x33 x5f x43 x4c x45 x41 x52)))
(T (W x00 x00 x80 x3f x00 x00 x80 x3f)
(L (W x45 x26 x22 x84 xe4 x9c xf2 xcb))
(L (W x00 x00 x80 xbf x00 x00 x80 xbf))))
(T (W xff xff xff xff xff xff xff xff)
(T (W x00 x00 x00 x00 x00 x00 x00 x00)
(T (W xff xff xff xff xff xff xff xff)
(L (W x00 x00 x80 xbf x00 x00 x80 xbf)) E)
(L (W xff xff xff xff xff xff xff xff)))
(T (W x00 x00 x00 x00 x00 x00 x00 x00)
(L (W x4f x84 x6f x8b xe8 xcb x63 xb7))
(L (W x3c x00 x00 x00 x00 x00 x80 xbf)))))
(T (W x00 x00 x00 x00 x00 x00 x00 x00)
(T (W xff xff xff xff xff xff xff xff)
(T (W x54 x00 x00 x00 x48 x00 x00 x00)
(T (W x00 x00 x80 x3f x00 x00 x80 x3f)
(L (W xff xff xff xff xff xff xff xff)) E)
(L (W x45 x26 x22 x84 xe4 x9c xf2 xcb)))
(T (W xc0 x00 x00 x00 x01 x00 x00 x00)
(L (W x00 x00 x00 x00 x00 x00 x00 x00))
(L (W x45 x26 x22 x84 xe4 x9c xf2 xcb))))
(T (W x18 x00 x00 x00 x0c x00 x00 x00)
(T (W x00 x00 x00 x00 x00 x00 x00 x00)
(T (W x00 x00 x00 x00 x74 xe7 xfd xff)
(L (W xff xff xff xff xff xff xff xff)) E)
(L (W x00 x00 x00 x00 x00 x00 x00 x00)))
(T (W xff xff xff xff xff xff xff xff)
(L (W x00 x00 x00 x00 x00 x00 x00 x00))
(L (W x04 x69 xff xff x00 x01 x01 x01))))))
(T (W x00 x00 x00 x00 x00 x00 x00 x00)
(T (W x40 x00 x00 x00 x10 x00 x00 x00)
(T (W xff xff xff xff xff xff xff xff)
(T (W x00 x00 x80 x3f x00 x00 x80 x3f)
(T (W x50 x00 x00 x00 x44 x00 x00 x00)
(L (W xff xff xff xff xff xff xff xff)) E)
(L (W x00 x00 x00 x00 x4a x98 xfe xff)))
(T (W x00 x00 x80 x3f x00 x00 x80 x3f)
(L (W x4f x84 x6f x8b xe8 xcb x63 xb7))
(L (W x18 x00 x00 x00 x0c x00 x00 x00))))
(T (W x64 x00 x00 x00 x9c x00 x00 x00)
(T (W x00 x00 x00 x00 x74 xd7 xfc xff)
(T (W x45 x26 x22 x84 xe4 x9c xf2 xcb)
(L (W x00 x00 x80 xbf x00 x00 x80 xbf)) E)
(L (W xd2 xd6 xfe xff xa9 x01 x00 x00)))
(T (W x00 x00 x80 x3f x00 x00 x80 x3f)
(L (W x00 x00 x80 xbf x00 x00 x80 xbf))
(L (W x54 x00 x00 x00 x48 x00 x00 x00)))))
(T (W x00 x00 x00 x00 x00 x00 x00 x00)
(T (W x02 x7f xff xff x00 x00 x01 x01)
(T (W xff xff xff xff xff xff xff xff)
(T (W x00 x00 x00 x00 x00 x00 x00 x00)
(L (W x00 x00 x00 x00 x00 x00 x00 x00)) E)
(L (W x03 x00 x00 x00 xd0 x00 x00 x00)))
(T (W x04 x00 x00 x00 xfa x44 xfd xff)
(L (W x00 x00 x80 xbf x00 x00 x80 xbf))
(L (W x00 x00 x80 xbf x00 x00 x80 xbf))))
(T (W x01 x00 x00 x00 x3e x00 x00 x00)
(T (W x30 x33 x5f x43 x4c x45 x41 x52)
(T (W x00 x00 x80 x3f x00 x00 x80 x3f)
(L (W x45 x26 x22 x84 xe4 x9c xf2 xcb)) E)
(L (W x45 x26 x22 x84 xe4 x9c xf2 xcb)))
(T (W x4f x84 x6f x8b xe8 xcb x63 xb7)
(L (W x00 x00 x00 x00 x00 x00 x00 x00))
(L (W x04 x79 xff xff x00 x01 x01 x01)))))))
(T (W x18 x00 x00 x00 x10 x00 x00 x00)
(T (W x21 x00 x00 x00 x67 x72 x6f x75)
(T (W x00 x00 x00 x00 x00 x00 x00 x00)
(T (W x3a x2a xfe xff x00 x00 x01 x01)
(T (W x00 x00 x80 x3f x00 x00 x80 x3f)
(T (W xb8 x00 x00 x00 xac x00 x00 x00)
(L (W xff xff xff xff xff xff xff xff)) E)
(L (W xff xff xff xff xff xff xff xff)))
(T (W x45 x26 x22 x84 xe4 x9c xf2 xcb)
(L (W x00 x00 x01 x01 xb3 x01 x00 x00))
(L (W xea x0d xff xff x78 x00 x00 x00))))
(T (W xff xff xff xff xff xff xff xff)
(T (W x00 x00 x80 x3f x00 x00 x80 x3f)
(T (W x00 x00 x00 x00 x00 x00 x00 x00)
(L (W x00 x00 x80 xbf x00 x00 x80 xbf)) E)
(L (W xaa x01 x00 x00 xff xff xff xff)))
(T (W x00 x00 x80 x3f x00 x00 x80 x3f)
(L (W x00 x00 x80 xbf x00 x00 x80 xbf))
(L (W x00 x00 x80 xbf x00 x00 x80 xbf)))))
(T (W x00 x00 x00 x00 x00 x00 x00 x00)
(T (W x8a x75 xff xff xa8 x01 x00 x00)
(T (W x04 xb1 xfc xff x00 x01 x01 x01)
(T (W x45 x26 x22 x84 xe4 x9c xf2 xcb)
(L (W x00 x00 x00 x00 x00 x00 x00 x00)) E)
(L (W xb0 x00 x00 x00 x64 x00 x00 x00)))
(T (W xff xff xff xff xff xff xff xff)
(L (W xff xff xff xff x9c x00 x00 x00))
(L (W x3a x2c xff xff x74 x00 x00 x00))))
(T (W x40 x00 x00 x00 x9c x00 x00 x00)
(T (W x57 x86 x76 x62 xa4 xfa xab x13)
(T (W x5f x77 x69 x6c x64 x5f x70 x6f)
(L (W x00 x00 x80 xbf x00 x00 x80 xbf)) E)
(L (W x00 x00 x00 x00 x00 x00 x00 x00)))
(T (W x00 x00 x00 x00 x00 x00 x00 x00)
(L (W x00 x00 x00 x00 x00 x00 x00 x00))
(L (W x68 x00 x00 x00 x5c x00 x00 x00))))))
(T (W x00 x00 x00 x00 x00 x00 x00 x00)
(T (W x00 x00 x00 x00 x00 x00 x00 x00)
(T (W xff xff xff xff xff xff xff xff)
(T (W x45 x26 x22 x84 xe4 x9c xf2 xcb)
(T (W x68 x00 x00 x00 x5c x00 x00 x00)
(L (W xff xff xff xff xff xff xff xff)) E)
(L (W x20 x00 x24 x00 x28 x00 x2c x00)))
(T (W x50 x00 x00 x00 x44 x00 x00 x00)
(L (W x00 x00 x80 xbf x00 x00 x80 xbf))
(L (W xff xff xff xff xbc x00 x00 x00))))
(T (W x00 x00 x00 x00 x74 x5f xfc xff)
(T (W xff xff xff xff xff xff xff xff)
(T (W x45 x26 x22 x84 xe4 x9c xf2 xcb)
(L (W x00 x00 x00 x00 x00 x00 x00 x00)) E)
(L (W x45 x44 x00 x00 x00 x00 x00 x00)))
(T (W x04 x61 xfd xff x00 x01 x01 x01)
(L (W x00 x00 x00 x00 x00 x00 x00 x00))
(L (W x1d x00 x00 x00 x20 x00 x00 x00)))))
(T (W x00 x00 x00 x00 x00 x00 x00 x00)
(T (W xff xff xff xff xff xff xff xff)
(T (W x00 x00 x00 x00 x00 x00 x00 x00)
(T (W x00 x00 x00 x00 x02 x00 x00 x00)
(L (W x49 xa1 x68 x4a xeb x5f xdd x3d)) E)
(L (W xff xff xff xff x9c x00 x00 x00)))
(T (W x00 x00 x00 x00 x00 x00 x00 x00)
(L (W x45 x26 x22 x84 xe4 x9c xf2 xcb))
(L (W x00 x00 x80 xbf x00 x00 x80 xbf))))
(T (W x68 x00 x00 x00 x5c x00 x00 x00)
(T (W x00 x00 x00 x00 x00 x00 x00 x00)
(T (W xff xff xff xff xff xff xff xff)
(L (W x00 x00 x00 x00 x00 x00 x00 x00)) E)
(L (W x4f x84 x6f x8b xe8 xcb x63 xb7)))
(T (W x45 x26 x22 x84 xe4 x9c xf2 xcb)
(L (W x00 x00 x00 x00 x00 x00 x00 x00))
(L (W xff xff xff xff xff xff xff xff))))))))
(T (W xff xff xff xff x01 x00 x00 x00)
(T (W x45 x26 x22 x84 xe4 x9c xf2 xcb)
(T (W x68 x00 x00 x00 x5c x00 x00 x00)
(T (W xc0 x00 x00 x00 xb4 x00 x00 x00)
(T (W x3a x08 xfc xff x74 x00 x00 x00)
(T (W x3a xa6 xfe xff x00 x00 x01 x01)
(T (W x00 x00 x00 x00 x00 x00 x00 x00)
(L (W x45 x26 x22 x84 xe4 x9c xf2 xcb)) E)
(L (W x54 x00 x00 x00 x48 x00 x00 x00)))
(T (W xff xff xff xff xff xff xff xff)
(L (W x00 x00 x80 x3f x00 x00 x80 x3f))
(L (W xff xff xff xff xff xff xff xff))))
(T (W x00 x00 x80 x3f x00 x00 x80 x3f)
(T (W xff xff xff xff xff xff xff xff)
(T (W xff xff xff xff xff xff xff xff)
(L (W x00 x00 x00 x00 x00 x00 x00 x00)) E)
(L (W x45 x26 x22 x84 xe4 x9c xf2 xcb)))
(T (W xff xff xff xff xff xff xff xff)
(L (W xff xff xff xff xff xff xff xff))
(L (W xff xff xff xff xff xff xff xff)))))
(T (W x18 x00 x00 x00 x0c x00 x00 x00)
(T (W x00 x00 x80 x3f x00 x00 x80 x3f)
(T (W x3a xc6 xfe xff x00 x00 x01 x01)
(T (W xff xff xff xff xff xff xff xff)
(L (W x00 x00 x80 xbf x00 x00 x80 xbf)) E)
(L (W x00 x00 x00 x00 x00 x00 x00 x00)))
(T (W x45 x26 x22 x84 xe4 x9c xf2 xcb)
(L (W x04 x00 x00 x00 x2a xfb xff xff))
(L (W x00 x00 x00 x00 x00 x00 x00 x00))))
(T (W x00 x00 x00 x00 x00 x00 x00 x00)
(T (W xea xe9 xfc xff x78 x00 x00 x00)
(T (W xff xff xff xff xff xff xff xff)
(L (W xcc x00 x00 x00 x01 x00 x00 x00)) E)
(L (W xff xff xff xff xff xff xff xff)))
(T (W x6c x00 x00 x00 x60 x00 x00 x00)
(L (W x03 x00 x00 x00 xd8 x00 x00 x00))
(L (W x00 x00 x00 x00 x00 x00 x00 x00))))))
(T (W xff xff xff xff xff xff xff xff)
(T (W x18 x00 x00 x00 x10 x00 x00 x00)
(T (W x00 x00 x80 x3f x00 x00 x80 x3f)
(T (W x20 x01 x00 x00 x04 x00 x00 x00)
(T (W x00 x00 x00 x00 x00 x00 x00 x00)
(L (W x00 x00 x80 xbf x00 x00 x80 xbf)) E)
(L (W x54 x00 x00 x00 x48 x00 x00 x00)))
(T (W xd2 x1a xfd xff x4a x00 x00 x00)
(L (W xff xff xff xff xff xff xff xff))
(L (W x00 x00 x80 xbf x00 x00 x80 xbf))))
(T (W x00 x00 x00 x00 x00 x00 x00 x00)
(T (W x00 x00 x00 x00 x00 x00 x00 x00)
(T (W x48 x00 x00 x00 xff xff xff xff)
(L (W xff xff xff xff xff xff xff xff)) E)
(L (W x00 x00 x80 xbf x00 x00 x80 xbf)))
(T (W x00 x00 x00 x00 x00 x00 x00 x00)
(L (W xff xff xff xff xff xff xff xff))
(L (W x00 x00 x00 x00 x00 x00 x00 x00)))))
(T (W x00 x00 x80 x3f x00 x00 x80 x3f)
(T (W x00 x00 x00 x00 x00 x00 x00 x00)
(T (W xff xff xff xff xff xff xff xff)
(T (W x00 x00 x00 x00 x00 x00 x00 x00)
(L (W xff xff xff xff xff xff xff xff)) E)
(L (W x00 x00 x00 x00 x00 x00 x00 x00)))
(T (W x00 x00 x80 x3f x00 x00 x80 x3f)
(L (W xff xff xff xff xff xff xff xff))
(L (W x00 x00 x01 x01 xc6 x00 x00 x00))))
(T (W x01 x00 x00 x00 x04 x00 x00 x00)
(T (W x18 x00 x00 x00 x0c x00 x00 x00)
(T (W x4f x4c x4f x53 x00 x00 x00 x00)
(L (W xe4 x00 x00 x00 x02 x00 x00 x00)) E)
(L (W xff xff xff xff xff xff xff xff)))
(T (W xff xff xff xff xff xff xff xff)
(L (W x00 x00 x00 x00 x08 x7d xfe xff))
(L (W x70 xe5 xaf x28 xbf x50 x5d x6a)))))))
(T (W xff xff xff xff xff xff xff xff)
(T (W xff xff xff xff xff xff xff xff)
(T (W xff xff xff xff x03 x00 x00 x00)
(T (W x04 x15 xfc xff x00 x01 x01 x01)
(T (W x00 x00 x00 x00 x00 x00 x00 x00)
(T (W x00 x00 x00 x00 x00 x00 x00 x00)
(L (W x00 x00 x80 xbf x00 x00 x80 xbf)) E)
(L (W x3a x90 xfe xff x74 x00 x00 x00)))
(T (W xff xff xff xff xff xff xff xff)
(L (W x54 x00 x00 x00 x48 x00 x00 x00))
(L (W x00 x00 x00 x00 x00 x00 x00 x00))))
(T (W x00 x00 x80 x3f x00 x00 x80 x3f)
(T (W x75 x75 x94 xaf xb8 xa9 xf8 x71)
(T (W xff xff xff xff xff xff xff xff)
(L (W xff xff xff xff xff xff xff xff)) E)
(L (W x00 x00 x80 xbf x00 x00 x80 xbf)))
(T (W x02 x00 x00 x00 xff xff xff xff)
(L (W xff xff xff xff xff xff xff xff))
(L (W xff xff xff xff xff xff xff xff)))))
(T (W x3a xf0 xfb xff x74 x00 x00 x00)
(T (W x00 x00 x80 x3f x00 x00 x80 x3f)
(T (W xff xff xff xff xff xff xff xff)
(T (W xff xff xff xff xff xff xff xff)
(L (W xcc x00 x00 x00 x01 x00 x00 x00)) E)
(L (W x46 x53 x59 x53 x5f x4e x53 x5f)))
(T (W x00 x00 x80 x3f x00 x00 x80 x3f)
(L (W xff xff xff xff xbc x00 x00 x00))
(L (W x00 x00 x00 x00 x1a x31 xff xff))))
(T (W xec x88 xfc xff x3c x00 x00 x00)
(T (W x68 x00 x00 x00 x5c x00 x00 x00)
(T (W x00 x00 x00 x00 x74 xf3 xfd xff)
(L (W x50 x00 x00 x00 x44 x00 x00 x00)) E)
(L (W xff xff xff xff xff xff xff xff)))
(T (W xbc x00 x00 x00 x14 x00 x00 x00)
(L (W x70 x73 xfe xff x9a xae xfe xff))
(L (W x00 x00 x00 x00 x12 x00 x00 x00))))))
(T (W xb8 x00 x00 x00 xac x00 x00 x00)
(T (W xff xff xff xff xff xff xff xff)
(T (W x00 x00 x80 x3f x00 x00 x80 x3f)
(T (W x14 x00 x18 x00 x00 x00 x00 x00)
(T (W x3a xbe xff xff x00 x00 x01 x01)
(L (W x00 x00 x80 xbf x00 x00 x80 xbf)) E)
(L (W x00 x00 x00 x00 x00 x00 x00 x00)))
(T (W x5f x4e x53 x5f x30 x33 x5f x43)
(L (W x68 x00 x00 x00 x5c x00 x00 x00))
(L (W x46 x53 x59 x53 x5f x4e x53 x5f))))
(T (W x00 x00 x00 x00 x00 x00 x00 x00)
(T (W x00 x00 x80 x3f x00 x00 x80 x3f)
(T (W x00 x00 x00 x00 x00 x00 x00 x00)
(L (W x50 x00 x00 x00 x54 x00 x00 x00)) E)
(L (W x03 x00 x00 x00 xd8 x00 x00 x00)))
(T (W x00 x00 x00 x00 x00 x00 x00 x00)
(L (W xff xff xff xff xff xff xff xff))
(L (W x00 x00 x00 x00 x00 x00 x00 x00)))))
(T (W x68 x00 x00 x00 x5c x00 x00 x00)
(T (W x45 x26 x22 x84 xe4 x9c xf2 xcb)
(T (W xc0 x00 x00 x00 x01 x00 x00 x00)
(T (W x00 x00 x80 x3f x00 x00 x80 x3f)
(L (W x44 x00 x00 x00 x0c x00 x00 x00)) E)
(L (W x00 x00 x00 x00 x00 x00 x00 x00)))
(T (W x18 x00 x00 x00 x0c x00 x00 x00)
(L (W xff xff xff xff xb4 x00 x00 x00))
(L (W xff xff xff xff xff xff xff xff))))
(T (W xff xff xff xff xff xff xff xff)
(T (W xff xff xff xff xff xff xff xff)
(T (W x54 x00 x00 x00 x48 x00 x00 x00)
(L (W x50 x00 x00 x00 x44 x00 x00 x00)) E)
(L (W xff xff xff xff xff xff xff xff)))
(T (W x3a x9e xff xff x00 x00 x01 x01)
(L (W x40 x00 x00 x00 x00 x00 x80 xbf))
(L (W x00 x00 x80 xbf x00 x00 x80 xbf))))))))))
(T (W x98 x48 x01 x00 x3c x46 x01 x00)
(T (W x48 x20 x00 x00 xc4 x1d x00 x00)
(T (W xff xff xff xff xff xff xff xff)
(T (W x00 x00 x00 x00 x00 x00 x00 x00)
(T (W x3a xa3 xfb xff x74 x00 x00 x00)
(T (W x3e x00 x00 x00 x0c x00 x00 x00)
(T (W xff xff xff xff xff xff xff xff)
(T (W x00 x00 x80 x3f x00 x00 x80 x3f)
(T (W x50 x00 x00 x00 x44 x00 x00 x00)
(L (W xff xff xff xff xff xff xff xff)) E)
(L (W x24 x01 x00 x00 x04 x00 x00 x00)))
(T (W x00 x00 x00 x00 x00 x00 x00 x00)
(L (W x00 x00 x00 x00 x00 x00 x00 x00))
(L (W x00 x00 x00 x00 x00 x00 x00 x00))))
(T (W x64 x00 x00 x00 x9c x00 x00 x00)
(T (W x5f x4e x53 x5f x30 x33 x5f x43)
(T (W xff xff xff xff xff xff xff xff)
(L (W x00 x00 x80 xbf x00 x00 x80 xbf)) E)
(L (W x45 x26 x22 x84 xe4 x9c xf2 xcb)))
(T (W x5f x4e x53 x5f x30 x33 x5f x43)
(L (W x00 x00 x00 x00 x00 x00 x00 x00))
(L (W x00 x00 x00 x00 x00 x00 x00 x00)))))
(T (W x00 x00 x00 x00 x00 x00 x00 x00)
(T (W xff xff xff xff xff xff xff xff)
(T (W x00 x00 x00 x00 x00 x00 x00 x00)
(T (W x45 x26 x22 x84 xe4 x9c xf2 xcb)
(L (W x1f x00 x00 x00 x22 x00 x00 x00)) E)
(L (W x68 x00 x00 x00 x5c x00 x00 x00)))
(T (W x45 x26 x22 x84 xe4 x9c xf2 xcb)
(L (W x94 x2b xfe xff x1f x00 x00 x00))
(L (W x00 x00 x80 xbf x00 x00 x80 xbf))))
(T (W x00 x00 x00 x00 x74 x66 xfc xff)
(T (W xff xff xff xff xff xff xff xff)
(T (W x00 x00 x00 x00 x00 x00 x00 x00)
(L (W xff xff xff xff xb0 x00 x00 x00)) E)
(L (W x45 x44 x00 x00 x00 x00 x00 x00)))
(T (W xc0 x00 x00 x00 x01 x00 x00 x00)
(L (W x00 x00 x00 x00 x00 x00 x00 x00))
(L (W x70 x66 xff xff x9a x69 xff xff))))))
(T (W x00 x00 x00 x00 x00 x00 x00 x00)
(T (W xff xff xff xff xff xff xff xff)
(T (W xff xff xff xff xff xff xff xff)
(T (W x00 x00 x00 x00 x00 x00 x00 x00)
(T (W x00 x00 x80 x3f x00 x00 x80 x3f)
(L (W xb0 x00 x00 x00 x64 x00 x00 x00)) E)
(L (W xff xff xff xff xff xff xff xff)))
(T (W x00 x00 x80 x3f x00 x00 x80 x3f)
(L (W x00 x00 x00 x00 x00 x00 x00 x00))
(L (W x00 x00 x00 x00 x74 x16 xff xff))))
(T (W x50 x00 x00 x00 x44 x00 x00 x00)
(T (W x00 x00 x80 x3f x00 x00 x80 x3f)
(T (W x00 x00 x00 x00 x00 x00 x00 x00)
(L (W x4f x84 x6f x8b xe8 xcb x63 xb7)) E)
(L (W xff xff xff xff xff xff xff xff)))
(T (W x49 xa1 x68 x4a xeb x5f xdd x3d)
(L (W x0d x00 x00 x00 x10 x00 x00 x00))
(L (W x45 x26 x22 x84 xe4 x9c xf2 xcb)))))
(T (W x00 x00 x00 x00 xa2 x3f xff xff)
(T (W xff xff xff xff xff xff xff xff)
(T (W x00 x00 x80 x3f x00 x00 x80 x3f)
(T (W x00 x00 x00 x00 x00 x00 x00 x00)
(L (W x00 x00 x00 x00 x00 x00 x00 x00)) E)
(L (W xff xff xff xff x9c x00 x00 x00)))
(T (W xff xff xff xff xff xff xff xff)
(L (W x00 x00 x00 x00 x00 x00 x00 x00))
(L (W x00 x00 x80 xbf x00 x00 x80 xbf))))
(T (W x00 x00 x80 x3f x00 x00 x80 x3f)
(T (W xd2 xf5 xfc xff x4a x00 x00 x00)
(T (W x09 x00 x00 x00 x28 x00 x2c x00)
(L (W x00 x00 x00 x00 x00 x00 x00 x00)) E)
(L (W x00 x00 x00 x00 x12 x00 x00 x00)))
(T (W xec x8b xfd xff x10 x00 x00 x00)
(L (W x00 x00 x00 x00 x00 x00 x00 x00))
(L (W x70 x76 xff xff x9a x79 xff xff)))))))
(T (W x45 x26 x22 x84 xe4 x9c xf2 xcb)
(T (W xff xff xff xff xff xff xff xff)
(T (W x3a xe9 xfd xff x00 x00 x01 x01)
(T (W xff xff xff xff xff xff xff xff)
(T (W x45 x26 x22 x84 xe4 x9c xf2 xcb)
(T (W x50 x00 x00 x00 x44 x00 x00 x00)
(L (W xcc x00 x00 x00 x01 x00 x00 x00)) E)
(L (W xff xff xff xff xff xff xff xff)))
(T (W x00 x00 x00 x00 x00 x00 x00 x00)
(L (W xff xff xff xff xff xff xff xff))
(L (W x00 x00 x80 xbf x00 x00 x80 xbf))))
(T (W x04 x50 xfc xff x00 x01 x01 x01)
(T (W x00 x00 x00 x00 x00 x00 x00 x00)
(T (W x00 x00 x00 x00 x00 x00 x00 x00)
(L (W x45 x26 x22 x84 xe4 x9c xf2 xcb)) E)
(L (W xff xff xff xff xff xff xff xff)))
(T (W x00 x00 x00 x00 x00 x00 x00 x00)
(L (W x00 x00 x00 x00 x00 x00 x00 x00))
(L (W x00 x00 x00 x00 x00 x00 x00 x00)))))
(T (W x0d x00 x00 x00 x10 x00 x00 x00)
(T (W xff xff xff xff xff xff xff xff)
(T (W x00 x00 x80 x3f x00 x00 x80 x3f)
(T (W x00 x00 x00 x00 x00 x00 x00 x00)
(L (W x00 x00 x00 x00 x00 x00 x00 x00)) E)
(L (W x04 xb0 xfe xff x00 x01 x01 x01)))
(T (W x03 x00 x00 x00 xd4 x00 x00 x00)
(L (W x00 x00 x80 xbf x00 x00 x80 xbf))
(L (W x00 x00 x80 xbf x00 x00 x80 xbf))))
(T (W x45 x26 x22 x84 xe4 x9c xf2 xcb)
(T (W xff xff xff xff xff xff xff xff)
(T (W xac x01 x00 x00 xbc x00 x00 x00)
(L (W x00 x00 x80 xbf x00 x00 x80 xbf)) E)
(L (W x00 x00 x00 x00 x00 x00 x00 x00)))
(T (W x00 x00 x00 x00 x00 x00 x00 x00)
(L (W x30 x33 x5f x43 x4c x45 x41 x52))
(L (W x00 x00 x80 xbf x00 x00 x80 xbf))))))
(T (W x00 x00 x00 x00 x00 x00 x00 x00)
(T (W x00 x00 x00 x00 x00 x00 x00 x00)
(T (W xff xff xff xff xff xff xff xff)
(T (W x00 x00 x00 x00 x00 x00 x00 x00)
(T (W x00 x00 x80 x3f x00 x00 x80 x3f)
(L (W xff xff xff xff xb0 x00 x00 x00)) E)
(L (W xff xff xff xff xff xff xff xff)))
(T (W x00 x00 x80 x3f x00 x00 x80 x3f)
(L (W x45 x26 x22 x84 xe4 x9c xf2 xcb))
(L (W x45 x26 x22 x84 xe4 x9c xf2 xcb))))
(T (W x3a x5b xfc xff x74 x00 x00 x00)
(T (W x45 x26 x22 x84 xe4 x9c xf2 xcb)
(T (W x45 x26 x22 x84 xe4 x9c xf2 xcb)
(L (W x00 x00 x00 x00 x00 x00 x00 x00)) E)
(L (W xff xff xff xff xff xff xff xff)))
(T (W x54 x00 x00 x00 x48 x00 x00 x00)
(L (W x30 x33 x5f x43 x4c x45 x41 x52))
(L (W xea x5c xff xff x78 x00 x00 x00)))))
(T (W x1c x01 x00 x00 x04 x00 x00 x00)
(T (W xff xff xff xff xff xff xff xff)
(T (W x54 x00 x00 x00 x48 x00 x00 x00)
(T (W xff xff xff xff xff xff xff xff)
(L (W x00 x00 x00 x00 x00 x00 x00 x00)) E)
(L (W xea xbc xfe xff x78 x00 x00 x00)))
(T (W x02 x00 x00 x00 xff xff xff xff)
(L (W x00 x00 x00 x00 x00 x00 x00 x00))
(L (W x00 x00 x00 x00 x00 x00 x00 x00))))
(T (W x00 x00 x80 x3f x00 x00 x80 x3f)
(T (W x46 x53 x59 x53 x5f x4e x53 x5f)
(T (W x18 x00 x00 x00 x0c x00 x00 x00)
(L (W x05 x00 x00 x00 x06 x00 x07 x00)) E)
(L (W x00 x00 x00 x00 x00 x00 x00 x00)))
(T (W x00 x00 x00 x00 x00 x00 x00 x00)
(L (W x00 x00 x00 x00 xc2 x99 xfe xff))
(L (W x03 x00 x00 x00 xd8 x00 x00 x00))))))))
(T (W x00 x00 x80 x3f x00 x00 x80 x3f)
(T (W x00 x00 x00 x00 x00 x00 x00 x00)
(T (W x1a x00 x00 x00 x67 x72 x6f x75)
(T (W x40 x00 x00 x00 x9c x00 x00 x00)
(T (W x50 x00 x00 x00 x44 x00 x00 x00)
(T (W xff xff xff xff xff xff xff xff)
(T (W x00 x00 x00 x00 x00 x00 x00 x00)
(L (W x00 x00 x00 x00 x00 x00 x00 x00)) E)
(L (W x45 x26 x22 x84 xe4 x9c xf2 xcb)))
(T (W x18 x00 x00 x00 x10 x00 x00 x00)
(L (W x00 x00 x00 x00 x00 x00 x00 x00))
(L (W xff xff xff xff xff xff xff xff))))
(T (W x45 x26 x22 x84 xe4 x9c xf2 xcb)
(T (W x03 x00 x00 x00 xd0 x00 x00 x00)
(T (W x00 x00 x80 x3f x00 x00 x80 x3f)
(L (W xff xff xff xff xff xff xff xff)) E)
(L (W x00 x00 x00 x00 x00 x00 x00 x00)))
(T (W x1f x00 x00 x00 x22 x00 x00 x00)
(L (W x45 x26 x22 x84 xe4 x9c xf2 xcb))
(L (W xff xff xff xff x9c x00 x00 x00)))))
(T (W x00 x00 x80 x3f x00 x00 x80 x3f)
(T (W x00 x00 x00 x00 x00 x00 x00 x00)
(T (W xff xff xff xff xff xff xff xff)
(T (W xff xff xff xff xff xff xff xff)
(L (W x00 x00 x00 x00 x00 x00 x00 x00)) E)
(L (W x48 x00 x00 x00 xff xff xff xff)))
(T (W x00 x00 x00 x00 x00 x00 x00 x00)
(L (W xff xff xff xff xff xff xff xff))
(L (W x30 x33 x5f x43 x4c x45 x41 x52))))
(T (W x01 x00 x00 x00 x04 x00 x00 x00)
(T (W x45 x26 x22 x84 xe4 x9c xf2 xcb)
(T (W x18 x00 x00 x00 x0c x00 x00 x00)
(L (W x00 x00 x00 x00 x00 x00 x00 x00)) E)
(L (W xff xff xff xff xb0 x00 x00 x00)))
(T (W x00 x00 x00 x00 x00 x00 x00 x00)
(L (W x00 x00 x80 xbf x00 x00 x80 xbf))
(L (W x00 x00 x00 x00 x00 x00 x00 x00))))))
(T (W x04 xbc xfb xff x00 x01 x01 x01)
(T (W x04 xdc xfb xff x00 x01 x01 x01)
(T (W x00 x00 x80 x3f x00 x00 x80 x3f)
(T (W xff xff xff xff xff xff xff xff)
(T (W xff xff xff xff x01 x00 x00 x00)
(L (W x00 x00 x00 x00 x00 x00 x00 x00)) E)
(L (W x00 x00 x00 x00 x00 x00 x00 x00)))
(T (W xff xff xff xff xff xff xff xff)
(L (W x00 x00 x00 x00 x74 x1a xfe xff))
(L (W x00 x00 x00 x00 x00 x00 x00 x00))))
(T (W x00 x00 x00 x00 x00 x00 x00 x00)
(T (W x28 x00 x00 x00 x10 x00 x00 x00)
(T (W xff xff xff xff xff xff xff xff)
(L (W x18 x00 x00 x00 x0c x00 x00 x00)) E)
(L (W x49 xa1 x68 x4a xeb x5f xdd x3d)))
(T (W xff xff xff xff xff xff xff xff)
(L (W x18 x00 x00 x00 x1b x00 x00 x00))
(L (W x6a x66 xff xff xa7 x01 x00 x00)))))
(T (W x00 x00 x80 x3f x00 x00 x80 x3f)
(T (W x00 x00 x00 x00 x00 x00 x00 x00)
(T (W xff xff xff xff xff xff xff xff)
(T (W x68 x01 x00 x00 x04 x00 x00 x00)
(L (W x03 x00 x00 x00 xd8 x00 x00 x00)) E)
(L (W x00 x00 x00 x00 x00 x00 x00 x00)))
(T (W x00 x00 x80 x3f x00 x00 x80 x3f)
(L (W xff xff xff xff xff xff xff xff))
(L (W xb0 x00 x00 x00 x64 x00 x00 x00))))
(T (W xff xff xff xff xff xff xff xff)
(T (W x00 x00 x00 x00 x74 xfa xfc xff)
(T (W xff xff xff xff xff xff xff xff)
(L (W x00 x00 x80 xbf x00 x00 x80 xbf)) E)
(L (W xff xff xff xff xff xff xff xff)))
(T (W x45 x26 x22 x84 xe4 x9c xf2 xcb)
(L (W x70 x00 x00 x00 x64 x00 x00 x00))
(L (W xff xff xff xff xff xff xff xff)))))))
(T (W x68 x00 x00 x00 x5c x00 x00 x00)
(T (W xbc x00 x00 x00 xb0 x00 x00 x00)
(T (W x50 x00 x00 x00 x44 x00 x00 x00)
(T (W x00 x00 x80 x3f x00 x00 x80 x3f)
(T (W xff xff xff xff xff xff xff xff)
(T (W xca xab xff xff xaf x01 x00 x00)
(L (W x00 x00 x00 x00 x00 x00 x00 x00)) E)
(L (W x00 x00 x80 xbf x00 x00 x80 xbf)))
(T (W xff xff xff xff xff xff xff xff)
(L (W x00 x00 x80 x3f x00 x00 x80 x3f))
(L (W x00 x00 x00 x00 x06 x00 x00 x00))))
(T (W x00 x00 x00 x00 x00 x00 x00 x00)
(T (W xff xff xff xff xff xff xff xff)
(T (W xff xff xff xff xff xff xff xff)
(L (W x29 x00 x00 x00 x2c x00 x00 x00)) E)
(L (W x00 x00 x00 x00 x00 x00 x00 x00)))
(T (W xff xff xff xff xbc x00 x00 x00)
(L (W x1c x00 x00 x00 x10 x00 x00 x00))
(L (W xff xff xff xff xff xff xff xff)))))
(T (W x00 x00 x80 x3f x00 x00 x80 x3f)
(T (W x00 x00 x00 x00 x00 x00 x00 x00)
(T (W xff xff xff xff xff xff xff xff)
(T (W x3a xaf xfd xff x74 x00 x00 x00)
(L (W x00 x00 x80 xbf x00 x00 x80 xbf)) E)
(L (W xb2 xc7 xfe xff x48 x00 x00 x00)))
(T (W x00 x00 x00 x00 x00 x00 x00 x00)
(L (W x3a x2f xfe xff x74 x00 x00 x00))
(L (W xff xff xff xff xff xff xff xff))))
(T (W xff xff xff xff xff xff xff xff)
(T (W x00 x00 x80 x3f x00 x00 x80 x3f)
(T (W x4e x45 x5f x33 x00 x00 x00 x00)
(L (W xf8 x01 x00 x00 x68 x00 x00 x00)) E)
(L (W xff xff xff xff xff xff xff xff)))
(T (W x04 x74 xfd xff x00 x01 x01 x01)
(L (W x44 x00 x00 x00 x00 x00 x80 xbf))
(L (W x00 x00 x00 x00 x02 x00 x00 x00))))))
(T (W x50 x00 x00 x00 x44 x00 x00 x00)
(T (W x3a xdf xfb xff x74 x00 x00 x00)
(T (W x45 x26 x22 x84 xe4 x9c xf2 xcb)
(T (W xff xff xff xff xff xff xff xff)
(T (W xff xff xff xff xff xff xff xff)
(L (W x45 x26 x22 x84 xe4 x9c xf2 xcb)) E)
(L (W xfc x07 x00 x00 xcc x06 x00 x00)))
(T (W x04 x00 x00 x00 x92 x2a xfd xff)
(L (W x00 x00 x80 xbf x00 x00 x80 xbf))
(L (W xe2 x24 xff xff xb0 x00 x00 x00))))
(T (W x94 x67 xfc xff x3e x00 x00 x00)
(T (W x00 x00 x00 x00 x00 x00 x00 x00)
(T (W x00 x00 x00 x00 x00 x00 x00 x00)
(L (W x68 x00 x00 x00 x5c x00 x00 x00)) E)
(L (W x00 x00 x80 xbf x00 x00 x80 xbf)))
(T (W x00 x00 x00 x00 x00 x00 x00 x00)
(L (W x18 x00 x00 x00 x0c x00 x00 x00))
(L (W x38 x8f xa7 x28 xbf x4f x53 x6a)))))
(T (W x00 x00 x80 x3f x00 x00 x80 x3f)
(T (W x00 x00 x00 x00 x00 x00 x00 x00)
(T (W x50 x00 x00 x00 x44 x00 x00 x00)
(T (W x00 x00 x80 x3f x00 x00 x80 x3f)
(L (W x70 xc2 xff xff x9a xfd xff xff)) E)
(L (W x00 x00 x00 x00 x00 x00 x00 x00)))
(T (W xea x40 xfd xff x78 x00 x00 x00)
(L (W x45 x26 x22 x84 xe4 x9c xf2 xcb))
(L (W x03 x00 x00 x00 xd0 x00 x00 x00))))
(T (W xff xff xff xff xff xff xff xff)
(T (W xff xff xff xff xb0 x00 x00 x00)
(T (W x00 x00 x00 x00 x00 x00 x00 x00)
(L (W x00 x00 x00 x00 x00 x00 x00 x00)) E)
(L (W xff xff xff xff xff xff xff xff)))
(T (W xff xff xff xff xff xff xff xff)
(L (W x00 x00 x80 xbf x00 x00 x80 xbf))
(L (W x00 x00 x00 x00 x00 x00 x00 x00)))))))))
(T (W x00 x00 x80 x3f x00 x00 x80 x3f)
(T (W x12 xed xfe xff x86 x03 x00 x00)
(T (W xff xff xff xff x02 x00 x00 x00)
(T (W xff xff xff xff xff xff xff xff)
(T (W x00 x00 x80 x3f x00 x00 x80 x3f)
(T (W x00 x00 x00 x00 x00 x00 x00 x00)
(T (W x45 x26 x22 x84 xe4 x9c xf2 xcb)
(T (W xff xff xff xff xff xff xff xff)
(L (W x30 x33 x5f x43 x4c x45 x41 x52)) E)
(L (W x00 x00 x00 x00 x00 x00 x00 x00)))
(T (W x00 x00 x80 x3f x00 x00 x80 x3f)
(L (W xff xff xff xff xff xff xff xff))
(L (W x00 x00 x80 xbf x00 x00 x80 xbf))))
(T (W xff xff xff xff xff xff xff xff)
(T (W x00 x00 x80 x3f x00 x00 x80 x3f)
(T (W x21 x00 x00 x00 x67 x72 x6f x75)
(L (W x00 x00 x80 xbf x00 x00 x80 xbf)) E)
(L (W x00 x00 x00 x00 x00 x00 x00 x00)))
(T (W x00 x00 x80 x3f x00 x00 x80 x3f)
(L (W x00 x00 x80 xbf x00 x00 x80 xbf))
(L (W x68 x00 x00 x00 x5c x00 x00 x00)))))
(T (W x45 x26 x22 x84 xe4 x9c xf2 xcb)
(T (W x00 x00 x00 x00 xd2 x44 xfe xff)
(T (W x04 xaa xfc xff x00 x01 x01 x01)
(T (W x68 x00 x00 x00 x5c x00 x00 x00)
(L (W x00 x00 x00 x00 x00 x00 x00 x00)) E)
(L (W xff xff xff xff xc4 x00 x00 x00)))
(T (W xff xff xff xff xff xff xff xff)
(L (W x00 x00 x80 xbf x00 x00 x80 xbf))
(L (W xff xff xff xff xbc x00 x00 x00))))
(T (W x64 x00 x00 x00 x9c x00 x00 x00)
(T (W x00 x00 x00 x00 x00 x00 x00 x00)
(T (W x00 x00 x50 x00 x54 x00 x00 x00)
(L (W xff xff xff xff xff xff xff xff)) E)
(L (W x00 x00 x00 x00 x00 x00 x00 x00)))
(T (W x2c x01 x00 x00 x04 x00 x00 x00)
(L (W x45 x26 x22 x84 xe4 x9c xf2 xcb))
(L (W xb0 x00 x00 x00 x64 x00 x00 x00))))))
(T (W x00 x00 x00 x00 x00 x00 x00 x00)
(T (W x00 x00 x00 x00 x00 x00 x00 x00)
(T (W x1d x00 x00 x00 x0c x00 x00 x00)
(T (W x68 x00 x00 x00 x5c x00 x00 x00)
(T (W xbc x00 x00 x00 xb0 x00 x00 x00)
(L (W x45 x44 x00 x00 x00 x00 x00 x00)) E)
(L (W x00 x00 x00 x00 x00 x00 x00 x00)))
(T (W x68 x00 x00 x00 x5c x00 x00 x00)
(L (W x00 x00 x80 x3f x00 x00 x80 x3f))
(L (W xff xff xff xff xff xff xff xff))))
(T (W xff xff xff xff xff xff xff xff)
(T (W xff xff xff xff xff xff xff xff)
(T (W x00 x00 x80 x3f x00 x00 x80 x3f)
(L (W x00 x00 x80 xbf x00 x00 x80 xbf)) E)
(L (W x30 x33 x5f x43 x4c x45 x41 x52)))
(T (W xff xff xff xff xac x00 x00 x00)
(L (W x00 x00 x80 xbf x00 x00 x80 xbf))
(L (W x45 x26 x22 x84 xe4 x9c xf2 xcb)))))
(T (W x00 x00 x80 x3f x00 x00 x80 x3f)
(T (W x00 x00 x00 x00 x00 x00 x00 x00)
(T (W x78 x00 x08 x00 x70 x00 x0c x00)
(T (W x45 x26 x22 x84 xe4 x9c xf2 xcb)
(L (W x00 x00 x80 xbf x00 x00 x80 xbf)) E)
(L (W xff xff xff xff xff xff xff xff)))
(T (W x12 x00 x00 x00 x46 x53 x59 x53)
(L (W x00 x00 x80 xbf x00 x00 x80 xbf))
(L (W x68 x00 x00 x00 x5c x00 x00 x00))))
(T (W xff xff xff xff xff xff xff xff)
(T (W x00 x00 x00 x00 x00 x00 x00 x00)
(T (W x74 x00 x09 x00 x0a x00 x0b x00)
(L (W xff xff xff xff xff xff xff xff)) E)
(L (W x00 x00 x80 xbf x00 x00 x80 xbf)))
(T (W x00 x00 x80 x3f x00 x00 x80 x3f)
(L (W x00 x00 x80 xbf x00 x00 x80 xbf))
(L (W xb0 x00 x00 x00 x64 x00 x00 x00)))))))
(T (W x00 x00 x00 x00 x04 x00 x00 x00)
(T (W x00 x00 x80 x3f x00 x00 x80 x3f)
(T (W x00 x00 x00 x00 x00 x00 x00 x00)
(T (W x00 x00 x00 x00 x00 x00 x00 x00)
(T (W x18 x00 x00 x00 x0c x00 x00 x00)
(T (W xff xff xff xff xff xff xff xff)
(L (W xff xff xff xff xff xff xff xff)) E)
(L (W x00 x00 x00 x00 x00 x00 x00 x00)))
(T (W xea x0e xfd xff x78 x00 x00 x00)
(L (W x46 x53 x59 x53 x5f x4e x53 x5f))
(L (W xff xff xff xff x9c x00 x00 x00))))
(T (W x82 x00 x00 x00 xff xff xff xff)
(T (W x3a xcd xfc xff x74 x00 x00 x00)
(T (W x68 x00 x00 x00 x5c x00 x00 x00)
(L (W x00 x00 x80 xbf x00 x00 x80 xbf)) E)
(L (W x00 x00 x00 x00 x00 x00 x00 x00)))
(T (W x6c x00 x00 x00 x60 x00 x00 x00)
(L (W x00 x00 x80 xbf x00 x00 x80 xbf))
(L (W x04 x52 xff xff x00 x01 x01 x01)))))
(T (W x45 x26 x22 x84 xe4 x9c xf2 xcb)
(T (W x00 x00 x00 x00 x00 x00 x00 x00)
(T (W x18 x00 x00 x00 x10 x00 x00 x00)
(T (W x00 x00 x80 x3f x00 x00 x80 x3f)
(L (W x45 x26 x22 x84 xe4 x9c xf2 xcb)) E)
(L (W xff xff xff xff xff xff xff xff)))
(T (W x9c x01 x00 x00 xff xff xff xff)
(L (W x2c x00 x30 x00 x34 x00 x38 x00))
(L (W xff xff xff xff xff xff xff xff))))
(T (W xff xff xff xff x03 x00 x00 x00)
(T (W x00 x00 x00 x00 x00 x00 x00 x00)
(T (W x00 x00 x80 x3f x00 x00 x80 x3f)
(L (W xff xff xff xff xb0 x00 x00 x00)) E)
(L (W x00 x00 x80 xbf x00 x00 x80 xbf)))
(T (W x00 x00 x00 x00 x00 x00 x00 x00)
(L (W x49 xa1 x68 x4a xeb x5f xdd x3d))
(L (W x03 x00 x00 x00 xd0 x00 x00 x00))))))
(T (W x45 x26 x22 x84 xe4 x9c xf2 xcb)
(T (W x00 x00 x00 x00 x00 x00 x00 x00)
(T (W x3a x3b xfe xff x00 x00 x01 x01)
(T (W x00 x00 x80 x3f x00 x00 x80 x3f)
(T (W x3a x9d xfd xff x74 x00 x00 x00)
(L (W x74 x03 x00 x00 x4c x02 x00 x00)) E)
(L (W x00 x00 x80 xbf x00 x00 x80 xbf)))
(T (W xc0 x00 x00 x00 x01 x00 x00 x00)
(L (W x00 x00 x00 x00 x68 x00 x6c x00))
(L (W xff xff xff xff xff xff xff xff))))
(T (W xff xff xff xff xff xff xff xff)
(T (W xff xff xff xff xff xff xff xff)
(T (W x50 x00 x00 x00 x44 x00 x00 x00)
(L (W x00 x00 x80 xbf x00 x00 x80 xbf)) E)
(L (W x00 x00 x00 x00 x00 x00 x00 x00)))
(T (W xb0 x00 x00 x00 x64 x00 x00 x00)
(L (W x00 x00 x00 x00 x00 x00 x00 x00))
(L (W xff xff xff xff xff xff xff xff)))))
(T (W x00 x00 x00 x00 x00 x00 x00 x00)
(T (W x00 x00 x00 x00 x04 x00 x00 x00)
(T (W x00 x00 x00 x00 x00 x00 x00 x00)
(T (W x00 x00 x00 x00 x00 x00 x00 x00)
(L (W x00 x00 x80 xbf x00 x00 x80 xbf)) E)
(L (W xff xff xff xff xff xff xff xff)))
(T (W x00 x00 x00 x00 x00 x00 x00 x00)
(L (W x54 x00 x00 x00 x48 x00 x00 x00))
(L (W x6c x00 x00 x00 x60 x00 x00 x00))))
(T (W xff xff xff xff xff xff xff xff)
(T (W x49 xa1 x68 x4a xeb x5f xdd x3d)
(T (W xff xff xff xff xff xff xff xff)
(L (W x00 x00 x00 x00 x00 x00 x00 x00)) E)
(L (W x00 x00 x80 xbf x00 x00 x80 xbf)))
(T (W x00 x00 x80 x3f x00 x00 x80 x3f)
(L (W x00 x00 x00 x00 x00 x00 x00 x00))
(L (W xff xff xff xff xff xff xff xff))))))))
(T (W x00 x00 x00 x00 x00 x00 x00 x00)
(T (W xff xff xff xff x04 x00 x00 x00)
(T (W x00 x00 x00 x00 x74 xac xfb xff)
(T (W xff xff xff xff xff xff xff xff)
(T (W x45 x26 x22 x84 xe4 x9c xf2 xcb)
(T (W x00 x00 x00 x00 x00 x00 x00 x00)
(T (W x45 x26 x22 x84 xe4 x9c xf2 xcb)
(L (W x00 x00 x00 x00 x08 x8e xff xff)) E)
(L (W x70 x8c xfe xff x9a x8f xfe xff)))
(T (W x00 x00 x00 x00 x00 x00 x00 x00)
(L (W x54 x00 x00 x00 x48 x00 x00 x00))
(L (W x00 x00 x00 x00 x00 x00 x00 x00))))
(T (W x00 x00 x80 x3f x00 x00 x80 x3f)
(T (W x00 x00 x00 x00 x02 x00 x00 x00)
(T (W xff xff xff xff xff xff xff xff)
(L (W x00 x00 x00 x00 x00 x00 x00 x00)) E)
(L (W x00 x00 x80 xbf x00 x00 x80 xbf)))
(T (W xff xff xff xff xff xff xff xff)
(L (W xff xff xff xff xff xff xff xff))
(L (W x00 x00 x00 x00 x00 x00 x00 x00)))))
(T (W xff xff xff xff xff xff xff xff)
(T (W x45 x26 x22 x84 xe4 x9c xf2 xcb)
(T (W x00 x00 x00 x00 x00 x00 x00 x00)
(T (W x3a xc7 xff xff x00 x00 x01 x01)
(L (W x00 x00 x01 x01 xc6 x00 x00 x00)) E)
(L (W x00 x00 x80 xbf x00 x00 x80 xbf)))
(T (W x00 x00 x80 x3f x00 x00 x80 x3f)
(L (W x00 x00 x00 x00 x00 x00 x00 x00))
(L (W x00 x00 x00 x00 x00 x00 x00 x00))))
(T (W x45 x26 x22 x84 xe4 x9c xf2 xcb)
(T (W x1f x00 x00 x00 x22 x00 x00 x00)
(T (W x02 x00 x00 x00 xff xff xff xff)
(L (W x28 x00 x2c x00 x30 x00 x34 x00)) E)
(L (W xff xff xff xff xff xff xff xff)))
(T (W x18 x00 x00 x00 x10 x00 x00 x00)
(L (W xff xff xff xff xff xff xff xff))
(L (W x46 x53 x59 x53 x5f x4e x53 x5f))))))
(T (W xff xff xff xff xff xff xff xff)
(T (W xff xff xff xff xff xff xff xff)
(T (W x3e x00 x00 x00 x9c x00 x00 x00)
(T (W x00 x00 x00 x00 x00 x00 x00 x00)
(T (W x00 x00 x00 x00 x00 x00 x00 x00)
(L (W x00 x00 x00 x00 x08 x9e xff xff)) E)
(L (W x18 x00 x00 x00 x10 x00 x00 x00)))
(T (W x30 x33 x5f x43 x4c x45 x41 x52)
(L (W x00 x00 x01 x01 x82 x00 x00 x00))
(L (W x00 x00 x80 xbf x00 x00 x80 xbf))))
(T (W x00 x00 x80 x3f x00 x00 x80 x3f)
(T (W x45 x26 x22 x84 xe4 x9c xf2 xcb)
(T (W x00 x00 x00 x00 x00 x00 x00 x00)
(L (W x24 x01 x00 x00 x04 x00 x00 x00)) E)
(L (W x18 x00 x00 x00 x0c x00 x00 x00)))
(T (W x00 x00 x00 x00 x00 x00 x00 x00)
(L (W xff xff xff xff xff xff xff xff))
(L (W x00 x00 x00 x00 x00 x00 x00 x00)))))
(T (W x18 x00 x00 x00 x0c x00 x00 x00)
(T (W x00 x00 x80 x3f x00 x00 x80 x3f)
(T (W xff xff xff xff xff xff xff xff)
(T (W x00 x00 x80 x3f x00 x00 x80 x3f)
(L (W xff xff xff xff xff xff xff xff)) E)
(L (W x00 x00 x80 xbf x00 x00 x80 xbf)))
(T (W xc8 x00 x00 x00 x01 x00 x00 x00)
(L (W xff xff xff xff xff xff xff xff))
(L (W x30 x33 x5f x43 x4c x45 x41 x52))))
(T (W x00 x00 x00 x00 x00 x00 x00 x00)
(T (W xff xff xff xff xff xff xff xff)
(T (W x00 x00 x80 x3f x00 x00 x80 x3f)
(L (W xff xff xff xff xff xff xff xff)) E)
(L (W xd2 xfb xfe xff xa9 x01 x00 x00)))
(T (W x6a x88 xfd xff x9d x01 x00 x00)
(L (W xa8 x00 x00 x00 x64 x00 x00 x00))
(L (W x45 x26 x22 x84 xe4 x9c xf2 xcb)))))))
(T (W x70 x5f x6c x65 x61 x64 x65 x72)
(T (W x02 xfc xfe xff x00 x00 x01 x01)
(T (W xff xff xff xff xff xff xff xff)
(T (W x18 x00 x00 x00 x10 x00 x00 x00)
(T (W x00 x00 x00 x00 x00 x00 x00 x00)
(T (W x00 x00 x00 x00 x00 x00 x00 x00)
(L (W x68 x00 x00 x00 x5c x00 x00 x00)) E)
(L (W x18 x00 x00 x00 x0c x00 x00 x00)))
(T (W x5a x44 xd5 x77 x6f xdc xd8 xa4)
(L (W xff xff xff xff xff xff xff xff))
(L (W x00 x00 x80 xbf x00 x00 x80 xbf))))
(T (W x00 x00 x80 x3f x00 x00 x80 x3f)
(T (W x00 x00 x00 x00 x00 x00 x00 x00)
(T (W x3a xef xff xff x00 x00 x01 x01)
(L (W xff xff xff xff xff xff xff xff)) E)
(L (W x50 x00 x00 x00 x44 x00 x00 x00)))
(T (W x4c x45 x41 x52 x45 x44 x00 x00)
(L (W xff xff xff xff xff xff xff xff))
(L (W x2c x00 x00 x00 x10 x00 x00 x00)))))
(T (W xff xff xff xff x04 x00 x00 x00)
(T (W x50 x00 x00 x00 x44 x00 x00 x00)
(T (W x3e x00 x00 x00 x0c x00 x00 x00)
(T (W xff xff xff xff xff xff xff xff)
(L (W xff xff xff xff xff xff xff xff)) E)
(L (W x00 x00 x00 x00 x00 x00 x00 x00)))
(T (W x00 x00 x00 x00 x74 x34 xfd xff)
(L (W xff xff xff xff xff xff xff xff))
(L (W x00 x00 x00 x00 x00 x00 x00 x00))))
(T (W x00 x00 x00 x00 x00 x00 x00 x00)
(T (W xff xff xff xff xff xff xff xff)
(T (W x94 xf9 xfd xff x21 x00 x00 x00)
(L (W xff xff xff xff x01 x00 x00 x00)) E)
(L (W xa9 x01 x00 x00 xff xff xff xff)))
(T (W xff xff xff xff xff xff xff xff)
(L (W xff xff xff xff xff xff xff xff))
(L (W x00 x00 x00 x00 x00 x00 x00 x00))))))
(T (W xff xff xff xff xff xff xff xff)
(T (W xff xff xff xff xff xff xff xff)
(T (W x68 x00 x00 x00 x5c x00 x00 x00)
(T (W x00 x00 x80 x3f x00 x00 x80 x3f)
(T (W x00 x00 x00 x00 x00 x00 x00 x00)
(L (W x00 x00 x80 xbf x00 x00 x80 xbf)) E)
(L (W x00 x00 x80 xbf x00 x00 x80 xbf)))
(T (W x00 x00 x00 x00 x00 x00 x00 x00)
(L (W x03 x00 x00 x00 xbc x00 x00 x00))
(L (W x00 x00 x00 x00 x00 x00 x00 x00))))
(T (W x45 x26 x22 x84 xe4 x9c xf2 xcb)
(T (W x6c x00 x00 x00 x60 x00 x00 x00)
(T (W x00 x00 x00 x00 x74 xe4 xfd xff)
(L (W x00 x00 x00 x00 x00 x00 x00 x00)) E)
(L (W xff xff xff xff xff xff xff xff)))
(T (W x00 x00 x80 x3f x00 x00 x80 x3f)
(L (W xff xff xff xff xff xff xff xff))
(L (W x45 x26 x22 x84 xe4 x9c xf2 xcb)))))
(T (W x3a x01 xfc xff x74 x00 x00 x00)
(T (W x00 x00 x80 x3f x00 x00 x80 x3f)
(T (W xff xff xff xff xff xff xff xff)
(T (W x45 x26 x22 x84 xe4 x9c xf2 xcb)
(L (W xff xff xff xff xff xff xff xff)) E)
(L (W x00 x00 x80 xbf x00 x00 x80 xbf)))
(T (W xff xff xff xff xff xff xff xff)
(L (W xff xff xff xff xff xff xff xff))
(L (W x00 x00 x00 x00 x02 x00 x00 x00))))
(T (W xec x99 xfc xff x3e x00 x00 x00)
(T (W xff xff xff xff xff xff xff xff)
(L (W xff xff xff xff xff xff xff xff))
(L (W x00 x00 x00 x00 x00 x00 x00 x00)))
(T (W x00 x00 x00 x00 x00 x00 x00 x00)
(L (W xff xff xff xff xb0 x00 x00 x00))
(L (W x00 x00 x80 xbf x00 x00 x80 xbf)))))))))))
(T (W x80 x6d x02 x00 xdc x6b x02 x00)
(T (W xf8 xc1 x01 x00 x4c xbd x01 x00)
(T (W x18 x6a x00 x00 xe4 x68 x00 x00)
(T (W x00 x00 x00 x00 x00 x00 x00 x00)
(T (W x0a x00 x00 x00 x3e x00 x00 x00)
(T (W x01 x00 x00 x00 x04 x00 x00 x00)
(T (W x00 x00 x80 x3f x00 x00 x80 x3f)
(T (W x45 x26 x22 x84 xe4 x9c xf2 xcb)
(T (W xff xff xff xff xff xff xff xff)
(T (W xc8 x01 x00 x00 xff xff xff xff)
(L (W x00 x00 x00 x00 x00 x00 x00 x00)) E)
(L (W x00 x00 x80 xbf x00 x00 x80 xbf)))
(T (W x68 x00 x00 x00 x5c x00 x00 x00)
(L (W xc4 x00 x00 x00 x01 x00 x00 x00))
(L (W xff xff xff xff xb0 x00 x00 x00))))
(T (W x00 x00 x00 x00 x00 x00 x00 x00)
(T (W xba xc2 xfc xff x74 x00 x00 x00)
(T (W x00 x00 x00 x00 x00 x00 x00 x00)
(L (W xff xff xff xff xff xff xff xff)) E)
(L (W x00 x00 x00 x00 x00 x00 x00 x00)))
(T (W xba x42 xfd xff x74 x00 x00 x00)
(L (W xba x42 xfe xff x74 x00 x00 x00))
(L (W xb0 x00 x00 x00 x64 x00 x00 x00)))))
(T (W x45 x26 x22 x84 xe4 x9c xf2 xcb)
(T (W x00 x00 x80 x3f x00 x00 x80 x3f)
(T (W x6c x00 x00 x00 x60 x00 x00 x00)
(T (W xff xff xff xff xff xff xff xff)
(L (W x46 x53 x59 x53 x5f x4e x53 x5f)) E)
(L (W x00 x00 x00 x00 x9a xa3 xfe xff)))
(T (W x00 x00 x00 x00 x00 x00 x00 x00)
(L (W x00 x00 x80 xbf x00 x00 x80 xbf))
(L (W xff xff xff xff xff xff xff xff))))
(T (W x00 x00 x00 x00 x00 x00 x00 x00)
(T (W x00 x00 x00 x00 x00 x00 x00 x00)
(T (W x01 x00 x00 x00 x9c x00 x00 x00)
(L (W x00 x00 x00 x00 x00 x00 x00 x00)) E)
(L (W x54 x00 x00 x00 x48 x00 x00 x00)))
(T (W x00 x00 x00 x00 x00 x00 x00 x00)
(L (W xba x62 xfe xff x74 x00 x00 x00))
(L (W x00 x00 x00 x00 x00 x00 x00 x00))))))
(T (W x45 x26 x22 x84 xe4 x9c xf2 xcb)
(T (W x00 x00 x80 x3f x00 x00 x80 x3f)
(T (W x00 x00 x00 x00 x00 x00 x00 x00)
(T (W x18 x00 x00 x00 x10 x00 x00 x00)
(T (W xff xff xff xff xff xff xff xff)
(L (W x00 x00 x00 x00 x12 x00 x00 x00)) E)
(L (W x00 x00 x80 xbf x00 x00 x80 xbf)))
(T (W xff xff xff xff xff xff xff xff)
(L (W x18 x00 x00 x00 x10 x00 x00 x00))
(L (W x00 x00 x00 x00 x00 x00 x00 x00))))
(T (W x4a x6f xfe xff x81 x00 x00 x00)
(T (W xff xff xff xff xff xff xff xff)
(T (W xba xd2 xfd xff x74 x00 x00 x00)
(L (W x03 x00 x00 x00 xd0 x00 x00 x00)) E)
(L (W x00 x00 x80 xbf x00 x00 x80 xbf)))
(T (W xff xff xff xff xff xff xff xff)
(L (W x00 x00 x80 xbf x00 x00 x80 xbf))
(L (W xff xff xff xff xff xff xff xff)))))
(T (W x00 x00 x80 x3f x00 x00 x80 x3f)
(T (W x00 x00 x00 x00 x00 x00 x00 x00)
(T (W xff xff xff xff xff xff xff xff)
(T (W x68 x00 x00 x00 x5c x00 x00 x00)
(L (W x00 x00 x80 xbf x00 x00 x80 xbf)) E)
(L (W x30 x33 x5f x43 x4c x45 x41 x52)))
(T (W x00 x00 x00 x00 x00 x00 x00 x00)
(L (W x00 x00 x00 x00 xf4 x35 xfe xff))
(L (W xff xff xff xff xff xff xff xff))))
(T (W xff xff xff xff xff xff xff xff)
(T (W x00 x00 x80 x3f x00 x00 x80 x3f)
(T (W x00 x00 x00 x00 x00 x00 x00 x00)
(L (W x45 x26 x22 x84 xe4 x9c xf2 xcb)) E)
(L (W x84 xf7 xfe xff x00 x01 x01 x01)))
(T (W x00 x00 x80 x3f x00 x00 x80 x3f)
(L (W xba x72 xfe xff x74 x00 x00 x00))
(L (W x00 x00 x00 x00 x00 x00 x00 x00)))))))
(T (W xff xff xff xff xff xff xff xff)
(T (W x00 x00 x80 x3f x00 x00 x80 x3f)
(T (W x00 x00 x80 x3f x00 x00 x80 x3f)
(T (W x00 x00 x00 x00 x00 x00 x00 x00)
(T (W xff xff xff xff x04 x00 x00 x00)
(T (W x4a xa7 xff xff xb9 x01 x00 x00)
(L (W x00 x00 x00 x00 x00 x00 x00 x00)) E)
(L (W x49 xa1 x68 x4a xeb x5f xdd x3d)))
(T (W x18 x00 x00 x00 x0c x00 x00 x00)
(L (W x00 x00 x80 x3f x00 x00 x80 x3f))
(L (W xff xff xff xff xff xff xff xff))))
(T (W x8a x9f xe6 x90 x39 xb0 xa5 x5c)
(T (W xb0 x00 x00 x00 x64 x00 x00 x00)
(T (W xba xca xfd xff x74 x00 x00 x00)
(L (W xff xff xff xff xc4 x00 x00 x00)) E)
(L (W x00 x00 x00 x00 x00 x00 x00 x00)))
(T (W x00 x00 x00 x00 xf4 x4d xfd xff)
(L (W x18 x00 x00 x00 x0c x00 x00 x00))
(L (W xff xff xff xff xb0 x00 x00 x00)))))
(T (W x00 x00 x80 x3f x00 x00 x80 x3f)
(T (W x00 x00 x00 x00 x00 x00 x00 x00)
(T (W xff xff xff xff xff xff xff xff)
(T (W xba xaa xfd xff x74 x00 x00 x00)
(L (W x45 x26 x22 x84 xe4 x9c xf2 xcb)) E)
(L (W x00 x00 x00 x00 x00 x00 x00 x00)))
(T (W x00 x00 x00 x00 x00 x00 x00 x00)
(L (W xff xff xff xff xff xff xff xff))
(L (W xff xff xff xff xff xff xff xff))))
(T (W x48 x03 x00 x00 x34 x02 x00 x00)
(T (W x49 xa1 x68 x4a xeb x5f xdd x3d)
(T (W x24 x00 x00 x00 x0c x00 x00 x00)
(L (W xff xff xff xff xff xff xff xff)) E)
(L (W x6c x00 x00 x00 x60 x00 x00 x00)))
(T (W x00 x00 x80 x3f x00 x00 x80 x3f)
(L (W x6c x00 x00 x00 x60 x00 x00 x00))
(L (W xff xff xff xff xff xff xff xff))))))
(T (W x18 x00 x00 x00 x0c x00 x00 x00)
(T (W x6c x00 x00 x00 x60 x00 x00 x00)
(T (W x45 x26 x22 x84 xe4 x9c xf2 xcb)
(T (W xb8 x00 x00 x00 xac x00 x00 x00)
(T (W xff xff xff xff xff xff xff xff)
(L (W x00 x00 x00 x00 x00 x00 x00 x00)) E)
(L (W x00 x00 x00 x00 x00 x00 x00 x00)))
(T (W xff xff xff xff xff xff xff xff)
(L (W x03 x00 x00 x00 xbc x00 x00 x00))
(L (W x00 x00 x00 x00 x00 x00 x00 x00))))
(T (W x00 x00 x00 x00 x00 x00 x00 x00)
(T (W x45 x44 x00 x00 x00 x00 x00 x00)
(T (W xff xff xff xff x03 x00 x00 x00)
(L (W x14 x00 x00 x00 x0c x00 x00 x00)) E)
(L (W x45 x26 x22 x84 xe4 x9c xf2 xcb)))
(T (W xff xff xff xff xff xff xff xff)
(L (W x74 x00 x00 x00 x68 x00 x00 x00))
(L (W x32 x73 xff xff xa3 x01 x00 x00)))))
(T (W x00 x00 x80 x3f x00 x00 x80 x3f)
(T (W x00 x00 x00 x00 x00 x00 x00 x00)
(T (W x5c x00 x60 x00 x62 x00 x00 x00)
(T (W x00 x00 x80 x3f x00 x00 x80 x3f)
(L (W xff xff xff xff x9c x00 x00 x00)) E)
(L (W x00 x00 x00 x00 x00 x00 x00 x00)))
(T (W x00 x00 x80 x3f x00 x00 x80 x3f)
(L (W x45 x26 x22 x84 xe4 x9c xf2 xcb))
(L (W x1d x00 x00 x00 x20 x00 x00 x00))))
(T (W xff xff xff xff xff xff xff xff)
(T (W x6a xfc xfc xff x78 x00 x00 x00)
(T (W x00 x00 x00 x00 x00 x00 x00 x00)
(L (W x62 x00 x00 x00 x43 x00 x00 x00)) E)
(L (W x18 x00 x00 x00 x10 x00 x00 x00)))
(T (W x18 x00 x00 x00 x0c x00 x00 x00)
(L (W x00 x00 x80 xbf x00 x00 x80 xbf))
(L (W x00 x00 x00 x00 x00 x00 x00 x00))))))))
(T (W xff xff xff xff xff xff xff xff)
(T (W xba x96 xfb xff x74 x00 x00 x00)
(T (W x68 x00 x00 x00 x5c x00 x00 x00)
(T (W xa3 xbc x7f xee xda xe3 x25 x46)
(T (W xff xff xff xff xff xff xff xff)
(T (W x00 x00 x80 x3f x00 x00 x80 x3f)
(T (W x50 x00 x00 x00 x44 x00 x00 x00)
(L (W x18 x00 x00 x00 x0c x00 x00 x00)) E)
(L (W xff xff xff xff xff xff xff xff)))
(T (W x30 x33 x5f x43 x4c x45 x41 x52)
(L (W x6a x08 xfe xff x78 x00 x00 x00))
(L (W x00 x00 x00 x00 x00 x00 x00 x00))))
(T (W xc0 x00 x00 x00 xb4 x00 x00 x00)
(T (W x00 x00 x00 x00 x00 x00 x00 x00)
(T (W xff xff xff xff xff xff xff xff)
(L (W x00 x00 x00 x00 x00 x00 x00 x00)) E)
(L (W x18 x00 x00 x00 x0c x00 x00 x00)))
(T (W x13 x00 x00 x00 x0c x00 x00 x00)
(L (W x45 x44 x00 x00 x00 x00 x00 x00))
(L (W x46 x53 x59 x53 x5f x4e x53 x5f)))))
(T (W xff xff xff xff xff xff xff xff)
(T (W xb8 x00 x00 x00 xac x00 x00 x00)
(T (W x00 x00 x00 x00 x00 x00 x00 x00)
(T (W x00 x00 x00 x00 x00 x00 x00 x00)
(L (W xff xff xff xff xb0 x00 x00 x00)) E)
(L (W x00 x00 x80 xbf x00 x00 x80 xbf)))
(T (W x45 x26 x22 x84 xe4 x9c xf2 xcb)
(L (W x00 x00 x00 x00 x00 x00 x00 x00))
(L (W x00 x01 x01 x01 x5a x2e xff xff))))
(T (W x00 x00 x80 x3f x00 x00 x80 x3f)
(T (W xff xff xff xff xff xff xff xff)
(T (W x64 x5f x70 x6f x6b x65 x5f x77)
(L (W x6c x00 x00 x00 x60 x00 x00 x00)) E)
(L (W x00 x00 x00 x00 x06 x00 x00 x00)))
(T (W xff xff xff xff x9c x00 x00 x00)
(L (W xff xff xff xff xff xff xff xff))
(L (W x3c x00 x00 x00 x00 x00 x80 xbf))))))
(T (W x1b xad xef x51 x22 x6f x26 xaf)
(T (W x02 x00 x00 x00 x1c x01 x00 x00)
(T (W xff xff xff xff xff xff xff xff)
(T (W x45 x26 x22 x84 xe4 x9c xf2 xcb)
(T (W x45 x26 x22 x84 xe4 x9c xf2 xcb)
(L (W xc4 x00 x00 x00 x02 x00 x00 x00)) E)
(L (W xa8 x00 x00 x00 x64 x00 x00 x00)))
(T (W x00 x00 x80 x3f x00 x00 x80 x3f)
(L (W x00 x00 x00 x00 x00 x00 x00 x00))
(L (W xff xff xff xff xb0 x00 x00 x00))))
(T (W x84 x5b xfc xff x00 x01 x01 x01)
(T (W x00 x00 x80 x3f x00 x00 x80 x3f)
(T (W x45 x26 x22 x84 xe4 x9c xf2 xcb)
(L (W x00 x00 x00 x00 x00 x00 x00 x00)) E)
(L (W x03 x00 x00 x00 xd4 x00 x00 x00)))
(T (W x00 x00 x80 x3f x00 x00 x80 x3f)
(L (W x46 x53 x59 x53 x5f x4e x53 x5f))
(L (W x00 x00 x80 xbf x00 x00 x80 xbf)))))
(T (W xff xff xff xff xff xff xff xff)
(T (W x01 x00 x00 x00 x9c x00 x00 x00)
(T (W x00 x00 x00 x00 x00 x00 x0c x00)
(T (W x00 x00 x00 x00 x00 x00 x00 x00)
(L (W x00 xd1 xac x28 xbf xcd x59 x6a)) E)
(L (W x00 x00 x80 xbf x00 x00 x80 xbf)))
(T (W xff xff xff xff xff xff xff xff)
(L (W x00 x00 x00 x00 x00 x00 x00 x00))
(L (W x00 x00 x00 x00 x12 x00 x00 x00))))
(T (W x00 x00 x80 x3f x00 x00 x80 x3f)
(T (W x00 x00 x00 x00 x00 x00 x00 x00)
(T (W x06 x00 x00 x00 x20 x00 x24 x00)
(L (W xff xff xff xff xff xff xff xff)) E)
(L (W x00 x00 x00 x00 x00 x00 x00 x00)))
(T (W x00 x00 x00 x00 x00 x00 x00 x00)
(L (W x00 x00 x00 x00 xca x7a xfe xff))
(L (W x49 xa1 x68 x4a xeb x5f xdd x3d)))))))
(T (W x0a xe8 xfe xff xe2 x00 x00 x00)
(T (W x00 x00 x00 x00 x00 x00 x00 x00)
(T (W xb0 x01 x00 x00 xff xff xff xff)
(T (W xff xff xff xff xff xff xff xff)
(T (W x00 x00 x00 x00 x00 x00 x00 x00)
(T (W x00 x00 x80 x3f x00 x00 x80 x3f)
(L (W x00 x00 x00 x00 xf4 x91 xff xff)) E)
(L (W xff xff xff xff xff xff xff xff)))
(T (W x00 x00 x00 x00 x00 x00 x00 x00)
(L (W xff xff xff xff xff xff xff xff))
(L (W x00 x00 x80 xbf x00 x00 x80 xbf))))
(T (W xba x4e xfc xff x74 x00 x00 x00)
(T (W x49 xa1 x68 x4a xeb x5f xdd x3d)
(T (W x00 x00 x00 x00 x00 x00 x00 x00)
(L (W x46 x53 x59 x53 x5f x4e x53 x5f)) E)
(L (W xb4 x00 x00 x00 x64 x00 x00 x00)))
(T (W x00 x00 x00 x00 x00 x00 x00 x00)
(L (W x00 x00 x00 x00 x00 x00 x00 x00))
(L (W x45 x26 x22 x84 xe4 x9c xf2 xcb)))))
(T (W xff xff xff xff xff xff xff xff)
(T (W x45 x26 x22 x84 xe4 x9c xf2 xcb)
(T (W x00 x00 x00 x00 x00 x00 x00 x00)
(T (W x00 x00 x00 x00 x00 x00 x00 x00)
(L (W xff xff xff xff xff xff xff xff)) E)
(L (W x00 x00 x80 xbf x00 x00 x80 xbf)))
(T (W x18 x00 x00 x00 x10 x00 x00 x00)
(L (W xff xff xff xff xff xff xff xff))
(L (W x00 x00 x80 xbf x00 x00 x80 xbf))))
(T (W x45 x26 x22 x84 xe4 x9c xf2 xcb)
(T (W xff xff xff xff xff xff xff xff)
(T (W x00 x00 x80 x3f x00 x00 x80 x3f)
(L (W x00 x00 x80 xbf x00 x00 x80 xbf)) E)
(L (W x00 x00 x00 x00 x00 x00 x00 x00)))
(T (W x04 x00 x00 x00 x7a x7f xfd xff)
(L (W xff xff xff xff xff xff xff xff))
(L (W x00 x00 x80 xbf x00 x00 x80 xbf))))))
(T (W xb9 x01 x00 x00 xff xff xff xff)
(T (W x01 x00 x00 x00 x04 x00 x00 x00)
(T (W xff xff xff xff x04 x00 x00 x00)
(T (W x00 x00 x00 x00 x00 x00 x00 x00)
(T (W x45 x26 x22 x84 xe4 x9c xf2 xcb)
(L (W xff xff xff xff xc4 x00 x00 x00)) E)
(L (W x00 x00 x80 xbf x00 x00 x80 xbf)))
(T (W x00 x00 x80 x3f x00 x00 x80 x3f)
(L (W xff xff xff xff xff xff xff xff))
(L (W x40 x00 x00 x00 x00 x00 x80 xbf))))
(T (W x00 x00 x80 x3f x00 x00 x80 x3f)
(T (W xff xff xff xff xb0 x00 x00 x00)
(T (W x00 x00 x00 x00 x00 x00 x00 x00)
(L (W x00 x00 x00 x00 x9a xdf xff xff)) E)
(L (W xff xff xff xff xff xff xff xff)))
(T (W x00 x00 x80 x3f x00 x00 x80 x3f)
(L (W xc4 x05 x00 x00 x94 x04 x00 x00))
(L (W x00 x00 x80 xbf x00 x00 x80 xbf)))))
(T (W xff xff xff xff xff xff xff xff)
(T (W x0a x00 x00 x00 x3e x00 x00 x00)
(T (W xe0 x00 x00 x00 xff xff xff xff)
(T (W xff xff xff xff xff xff xff xff)
(L (W x00 x00 x00 x00 x00 x00 x00 x00)) E)
(L (W x18 x00 x00 x00 x10 x00 x00 x00)))
(T (W xea x4d xfd xff x9d x01 x00 x00)
(L (W x00 x00 x00 x00 x00 x00 x00 x00))
(L (W x00 x00 x00 x00 x00 x00 x00 x00))))
(T (W x00 x00 x80 x3f x00 x00 x80 x3f)
(T (W x95 x3a x56 xf6 x11 x0e xd8 x96)
(T (W x50 x00 x00 x00 x44 x00 x00 x00)
(L (W x00 x00 x80 xbf x00 x00 x80 xbf)) E)
(L (W x4f x84 x6f x8b xe8 xcb x63 xb7)))
(T (W x45 x26 x22 x84 xe4 x9c xf2 xcb)
(L (W xff xff xff xff xff xff xff xff))
(L (W x45 x26 x22 x84 xe4 x9c xf2 xcb)))))))))
(T (W xff xff xff xff xff xff xff xff)
(T (W x00 x00 x80 x3f x00 x00 x80 x3f)
(T (W x00 x00 x00 x00 x00 x00 x00 x00)
(T (W x45 x26 x22 x84 xe4 x9c xf2 xcb)
(T (W xff xff xff xff xff xff xff xff)
(T (W x18 x00 x00 x00 x0c x00 x00 x00)
(T (W x00 x00 x00 x00 x00 x00 x00 x00)
(T (W x1a x00 x00 x00 x67 x72 x6f x75)
(L (W x00 x01 x01 x01 x5a x8c xff xff)) E)
(L (W x14 x00 x00 x00 x0c x00 x00 x00)))
(T (W xff xff xff xff xff xff xff xff)
(L (W x00 x00 x00 x00 x00 x00 x00 x00))
(L (W xff xff xff xff xff xff xff xff))))
(T (W x00 x00 x80 x3f x00 x00 x80 x3f)
(T (W xff xff xff xff xff xff xff xff)
(T (W x00 x00 x80 x3f x00 x00 x80 x3f)
(L (W xff xff xff xff xff xff xff xff)) E)
(L (W x00 x00 x80 xbf x00 x00 x80 xbf)))
(T (W xff xff xff xff xff xff xff xff)
(L (W xff xff xff xff xff xff xff xff))
(L (W x00 x00 x00 x00 x00 x00 x00 x00)))))
(T (W xff xff xff xff x03 x00 x00 x00)
(T (W x00 x00 x80 x3f x00 x00 x80 x3f)
(T (W x00 x00 x00 x00 x00 x00 x00 x00)
(T (W xba xc2 xff xff x00 x00 x01 x01)
(L (W x00 x00 x80 xbf x00 x00 x80 xbf)) E)
(L (W x00 x00 x00 x00 x00 x00 x00 x00)))
(T (W x00 x00 x00 x00 x00 x00 x00 x00)
(L (W xff xff xff xff xff xff xff xff))
(L (W x00 x00 x00 x00 x00 x00 x00 x00))))
(T (W x00 x00 x00 x00 x00 x00 x00 x00)
(T (W x00 x00 x00 x00 xf4 xe7 xfc xff)
(T (W x00 x00 x00 x00 x00 x00 x00 x00)
(L (W x00 x00 x80 xbf x00 x00 x80 xbf)) E)
(L (W x29 x00 x00 x00 x2c x00 x00 x00)))
(T (W x00 x00 x80 x3f x00 x00 x80 x3f)
(L (W xff xff xff xff xff xff xff xff))
(L (W x00 x00 x00 x00 x12 x00 x00 x00))))))
(T (W xb8 x00 x00 x00 xac x00 x00 x00)
(T (W x18 x00 x00 x00 x0c x00 x00 x00)
(T (W x00 x00 x80 x3f x00 x00 x80 x3f)
(T (W xba xb2 xfe xff x00 x00 x01 x01)
(T (W x00 x00 x00 x00 x00 x00 x00 x00)
(L (W x54 x00 x00 x00 x48 x00 x00 x00)) E)
(L (W x70 x00 x00 x00 x64 x00 x00 x00)))
(T (W x00 x00 x00 x00 x9a x15 xfd xff)
(L (W xff xff xff xff xff xff xff xff))
(L (W x00 x00 x00 x00 x00 x00 x00 x00))))
(T (W x00 x00 x00 x00 x00 x00 x00 x00)
(T (W x00 x00 x00 x00 x00 x00 x00 x00)
(T (W xff xff xff xff xff xff xff xff)
(L (W xff xff xff xff xff xff xff xff)) E)
(L (W x6c x00 x00 x00 x60 x00 x00 x00)))
(T (W x8e xd3 x54 xf0 x7f x11 x65 xc2)
(L (W xff xff xff xff xff xff xff xff))
(L (W x45 x44 x00 x00 x00 x00 x00 x00)))))
(T (W xff xff xff xff xff xff xff xff)
(T (W xba x34 xfc xff x74 x00 x00 x00)
(T (W x45 x26 x22 x84 xe4 x9c xf2 xcb)
(T (W xff xff xff xff xff xff xff xff)
(L (W xff xff xff xff xff xff xff xff)) E)
(L (W x4f x84 x6f x8b xe8 xcb x63 xb7)))
(T (W x84 x39 xfd xff x00 x01 x01 x01)
(L (W xff xff xff xff xff xff xff xff))
(L (W x00 x00 x00 x00 x9a x35 xff xff))))
(T (W x00 x00 x00 x00 x00 x00 x00 x00)
(T (W x18 x00 x00 x00 x10 x00 x00 x00)
(T (W x00 x00 x00 x00 x00 x00 x00 x00)
(L (W x00 x00 x10 x00 x14 x00 x18 x00)) E)
(L (W xff xff xff xff xff xff xff xff)))
(T (W xff xff xff xff xff xff xff xff)
(L (W xff xff xff xff xff xff xff xff))
(L (W x00 x00 x00 x00 x12 x00 x00 x00)))))))
(T (W x00 x00 x00 x00 x00 x00 x00 x00)
(T (W xff xff xff xff xff xff xff xff)
(T (W xb8 x00 x00 x00 xac x00 x00 x00)
(T (W x68 x00 x00 x00 x5c x00 x00 x00)
(T (W x40 x00 x00 x00 x10 x00 x00 x00)
(T (W x00 x00 x00 x00 x00 x00 x00 x00)
(L (W x00 x00 x80 xbf x00 x00 x80 xbf)) E)
(L (W x44 x00 x00 x00 x00 x00 x80 xbf)))
(T (W x32 x25 xfd xff x4b x00 x00 x00)
(L (W x6a x0e xfe xff x78 x00 x00 x00))
(L (W x46 x53 x59 x53 x5f x4e x53 x5f))))
(T (W x45 x26 x22 x84 xe4 x9c xf2 xcb)
(T (W x00 x00 x00 x00 x00 x00 x00 x00)
(T (W xba xea xff xff x00 x00 x01 x01)
(L (W xff xff xff xff xff xff xff xff)) E)
(L (W x68 x00 x00 x00 x5c x00 x00 x00)))
(T (W xff xff xff xff x02 x00 x00 x00)
(L (W xff xff xff xff xff xff xff xff))
(L (W x34 x01 x00 x00 x04 x00 x00 x00)))))
(T (W xff xff xff xff xff xff xff xff)
(T (W x68 x00 x00 x00 x5c x00 x00 x00)
(T (W x00 x00 x00 x00 x00 x00 x00 x00)
(T (W xff xff xff xff xff xff xff xff)
(L (W xff xff xff xff xc0 x00 x00 x00)) E)
(L (W x00 x00 x00 x00 x00 x00 x00 x00)))
(T (W x00 x00 x80 x3f x00 x00 x80 x3f)
(L (W x00 x00 x00 x00 x00 x00 x00 x00))
(L (W x00 x00 x00 x00 x00 x00 x00 x00))))
(T (W x00 x00 x00 x00 x00 x00 x00 x00)
(T (W xff xff xff xff xb0 x00 x00 x00)
(T (W xff xff xff xff xff xff xff xff)
(L (W x14 xf5 xff xff x1d x00 x00 x00)) E)
(L (W xff xff xff xff xff xff xff xff)))
(T (W xff xff xff xff xac x00 x00 x00)
(L (W x03 x00 x00 x00 xd8 x00 x00 x00))
(L (W x00 x00 x00 x00 x00 x00 x00 x00))))))
(T (W xff xff xff xff xff xff xff xff)
(T (W x64 x00 x00 x00 x9c x00 x00 x00)
(T (W x00 x00 x80 x3f x00 x00 x80 x3f)
(T (W xff xff xff xff xff xff xff xff)
(T (W x00 x00 x00 x00 x00 x00 x00 x00)
(L (W x00 x00 x80 xbf x00 x00 x80 xbf)) E)
(L (W xff xff xff xff xff xff xff xff)))
(T (W x00 x00 x00 x00 x00 x00 x00 x00)
(L (W x14 x25 xfe xff x2e x00 x00 x00))
(L (W x45 x26 x22 x84 xe4 x9c xf2 xcb))))
(T (W x00 x00 x00 x00 x00 x00 x00 x00)
(T (W x00 x00 x80 x3f x00 x00 x80 x3f)
(T (W x42 x00 x00 x00 xff xff xff xff)
(L (W xff xff xff xff xff xff xff xff)) E)
(L (W x45 x26 x22 x84 xe4 x9c xf2 xcb)))
(T (W x12 x00 x00 x00 x46 x53 x59 x53)
(L (W xc4 x00 x00 x00 x02 x00 x00 x00))
(L (W x00 x00 x00 x00 x00 x00 x00 x00)))))
(T (W x45 x26 x22 x84 xe4 x9c xf2 xcb)
(T (W x00 x00 x80 x3f x00 x00 x80 x3f)
(T (W x00 x00 x00 x00 xf4 xbf xfc xff)
(T (W x84 xc1 xfd xff x00 x01 x01 x01)
(L (W xff xff xff xff xff xff xff xff)) E)
(L (W x00 x00 x00 x00 x00 x00 x00 x00)))
(T (W x45 x26 x22 x84 xe4 x9c xf2 xcb)
(L (W xff xff xff xff xff xff xff xff))
(L (W xff xff xff xff xff xff xff xff))))
(T (W x00 x00 x00 x00 x00 x00 x00 x00)
(T (W xff xff xff xff xff xff xff xff)
(T (W x45 x26 x22 x84 xe4 x9c xf2 xcb)
(L (W x18 x00 x00 x00 x10 x00 x00 x00)) E)
(L (W xff xff xff xff xff xff xff xff)))
(T (W xff xff xff xff xff xff xff xff)
(L (W x03 x00 x00 x00 xc8 x00 x00 x00))
(L (W x00 x00 x80 xbf x00 x00 x80 xbf))))))))
(T (W x68 x00 x00 x00 x5c x00 x00 x00)
(T (W x6b x65 x5f x77 x61 x72 x6c x69)
(T (W x00 x00 x00 x00 x00 x00 x00 x00)
(T (W x45 x26 x22 x84 xe4 x9c xf2 xcb)
(T (W x00 x00 x00 x00 x00 x00 x00 x00)
(T (W x68 x00 x00 x00 x5c x00 x00 x00)
(T (W xff xff xff xff xff xff xff xff)
(L (W x2c x01 x00 x00 x04 x00 x00 x00)) E)
(L (W x00 x00 x00 x00 x00 x00 x00 x00)))
(T (W x00 x00 x80 x3f x00 x00 x80 x3f)
(L (W x7a x00 x00 x00 xff xff xff xff))
(L (W x50 x00 x00 x00 x44 x00 x00 x00))))
(T (W xff xff xff xff xff xff xff xff)
(T (W x00 x00 x80 x3f x00 x00 x80 x3f)
(T (W x00 x00 x80 x3f x00 x00 x80 x3f)
(L (W xf0 xcb xff xff x1a xcf xff xff)) E)
(L (W xff xff xff xff xff xff xff xff)))
(T (W x00 x00 x80 x3f x00 x00 x80 x3f)
(L (W x4f x84 x6f x8b xe8 xcb x63 xb7))
(L (W x00 x00 x80 xbf x00 x00 x80 xbf)))))
(T (W x00 x00 x00 x00 x00 x00 x00 x00)
(T (W x48 x9f x0f xa7 x37 xdd x0e xb7)
(T (W x68 x00 x00 x00 x5c x00 x00 x00)
(T (W x00 x00 x80 x3f x00 x00 x80 x3f)
(L (W xf0 x05 x00 x00 xc8 x04 x00 x00)) E)
(L (W xff xff xff xff xff xff xff xff)))
(T (W xff xff xff xff xff xff xff xff)
(L (W xba x28 xfe xff x74 x00 x00 x00))
(L (W x21 x00 x00 x00 x24 x00 x00 x00))))
(T (W xff xff xff xff xff xff xff xff)
(T (W x46 x53 x59 x53 x5f x4e x53 x5f)
(T (W x45 x26 x22 x84 xe4 x9c xf2 xcb)
(L (W x4f x84 x6f x8b xe8 xcb x63 xb7)) E)
(L (W x00 x00 x80 xbf x00 x00 x80 xbf)))
(T (W x30 x33 x5f x43 x4c x45 x41 x52)
(L (W x49 xa1 x68 x4a xeb x5f xdd x3d))
(L (W x6a x6a xff xff x78 x00 x00 x00))))))
(T (W x00 x00 x80 x3f x00 x00 x80 x3f)
(T (W x00 x00 x00 x00 x00 x00 x00 x00)
(T (W x4c xfd x5b xe7 x6e x4b x46 x8a)
(T (W x84 x9d xfc xff x00 x01 x01 x01)
(T (W xba x98 xfd xff x74 x00 x00 x00)
(L (W x4c x03 x00 x00 x24 x02 x00 x00)) E)
(L (W x45 x44 x00 x00 x00 x00 x00 x00)))
(T (W x6c x00 x00 x00 x60 x00 x00 x00)
(L (W x00 x00 x80 xbf x00 x00 x80 xbf))
(L (W xff xff xff xff xff xff xff xff))))
(T (W xff xff xff xff xff xff xff xff)
(T (W xff xff xff xff xff xff xff xff)
(T (W x50 x00 x00 x00 x44 x00 x00 x00)
(L (W x45 x26 x22 x84 xe4 x9c xf2 xcb)) E)
(L (W x22 x00 x00 x00 x10 x00 x00 x00)))
(T (W xba x58 xfd xff x74 x00 x00 x00)
(L (W x00 x00 x80 xbf x00 x00 x80 xbf))
(L (W x18 x00 x00 x00 x0c x00 x00 x00)))))
(T (W x6c x11 xfc xff x21 x00 x00 x00)
(T (W xff xff xff xff xff xff xff xff)
(T (W x00 x00 x80 x3f x00 x00 x80 x3f)
(T (W xff xff xff xff xff xff xff xff)
(L (W x00 x00 x80 xbf x00 x00 x80 xbf)) E)
(L (W xff xff xff xff xff xff xff xff)))
(T (W x6c x51 xfd xff x10 x00 x00 x00)
(L (W x00 x00 x80 xbf x00 x00 x80 xbf))
(L (W x00 x01 x01 x01 x5a x40 xff xff))))
(T (W xba x78 xfc xff x74 x00 x00 x00)
(T (W x00 x00 x00 x00 x00 x00 x00 x00)
(T (W xff xff xff xff xff xff xff xff)
(L (W x00 x00 x80 xbf x00 x00 x80 xbf)) E)
(L (W x00 x00 x80 xbf x00 x00 x80 xbf)))
(T (W x00 x00 x80 x3f x00 x00 x80 x3f)
(L (W x00 x00 x00 x00 x12 x00 x00 x00))
(L (W x00 x00 x68 x00 x00 x00 x00 x00)))))))
(T (W x00 x00 x80 x3f x00 x00 x80 x3f)
(T (W x45 x26 x22 x84 xe4 x9c xf2 xcb)
(T (W x45 x26 x22 x84 xe4 x9c xf2 xcb)
(T (W x00 x00 x00 x00 x00 x00 x00 x00)
(T (W xba x90 xfc xff x74 x00 x00 x00)
(T (W xb8 x00 x00 x00 xac x00 x00 x00)
(L (W xaa x01 x00 x00 xff xff xff xff)) E)
(L (W x00 x00 x00 x00 x00 x00 x00 x00)))
(T (W x00 x00 x80 x3f x00 x00 x80 x3f)
(L (W x00 x00 x00 x00 x00 x00 x00 x00))
(L (W xff xff xff xff xff xff xff xff))))
(T (W xff xff xff xff xff xff xff xff)
(T (W x45 x26 x22 x84 xe4 x9c xf2 xcb)
(T (W x00 x00 x80 x3f x00 x00 x80 x3f)
(L (W x00 x00 x80 xbf x00 x00 x80 xbf)) E)
(L (W xff xff xff xff xff xff xff xff)))
(T (W x68 x00 x00 x00 x5c x00 x00 x00)
(L (W x45 x26 x22 x84 xe4 x9c xf2 xcb))
(L (W x00 x00 x80 xbf x00 x00 x80 xbf)))))
(T (W x00 x00 x00 x00 x00 x00 x00 x00)
(T (W xb0 x00 x00 x00 xff xff xff xff)
(T (W x00 x00 x80 x3f x00 x00 x80 x3f)
(T (W x45 x26 x22 x84 xe4 x9c xf2 xcb)
(L (W x4f x84 x6f x8b xe8 xcb x63 xb7)) E)
(L (W x1a x00 x00 x00 x1d x00 x00 x00)))
(T (W x00 x00 x00 x00 x00 x00 x00 x00)
(L (W x45 x26 x22 x84 xe4 x9c xf2 xcb))
(L (W x68 x00 x00 x00 x5c x00 x00 x00))))
(T (W x18 x00 x00 x00 x0c x00 x00 x00)
(T (W x00 x00 x00 x00 x00 x00 x00 x00)
(T (W x00 x00 x00 x00 x1c x00 x00 x00)
(L (W x00 x00 x00 x00 x00 x00 x00 x00)) E)
(L (W x00 x00 x80 xbf x00 x00 x80 xbf)))
(T (W x45 x26 x22 x84 xe4 x9c xf2 xcb)
(L (W x00 x00 x00 x00 x00 x00 x00 x00))
(L (W xb0 x00 x00 x00 x64 x00 x00 x00))))))
(T (W x00 x00 x00 x00 x00 x00 x00 x00)
(T (W x45 x26 x22 x84 xe4 x9c xf2 xcb)
(T (W x00 x00 x00 x00 x22 x6d xff xff)
(T (W xff xff xff xff xff xff xff xff)
(T (W x68 x00 x00 x00 x5c x00 x00 x00)
(L (W xff xff xff xff xff xff xff xff)) E)
(L (W xff xff xff xff xff xff xff xff)))
(T (W xff xff xff xff x9c x00 x00 x00)
(L (W x00 x00 x00 x00 x00 x00 x00 x00))
(L (W x1f x00 x00 x00 x22 x00 x00 x00))))
(T (W xff xff xff xff x03 x00 x00 x00)
(T (W x52 xe3 xfc xff x4b x00 x00 x00)
(T (W x00 x00 x00 x00 x00 x00 x00 x00)
(L (W xff xff xff xff xa8 x00 x00 x00)) E)
(L (W x49 xa1 x68 x4a xeb x5f xdd x3d)))
(T (W xff xff xff xff xff xff xff xff)
(L (W x00 x00 x80 xbf x00 x00 x80 xbf))
(L (W xff xff xff xff xbc x00 x00 x00)))))
(T (W x00 x00 x00 x00 x00 x00 x00 x00)
(T (W xff xff xff xff xff xff xff xff)
(T (W x00 x00 x00 x00 x00 x00 x00 x00)
(T (W xba xc2 x33 x97 x85 xad x5f x5f)
(L (W x00 x00 x80 xbf x00 x00 x80 xbf)) E)
(L (W xff xff xff xff xff xff xff xff)))
(T (W x00 x00 x00 x00 x00 x00 x00 x00)
(L (W x00 x00 x00 x00 x00 x00 x00 x00))
(L (W x00 x00 x80 xbf x00 x00 x80 xbf))))
(T (W x00 x00 x80 x3f x00 x00 x80 x3f)
(T (W x00 x00 x80 x3f x00 x00 x80 x3f)
(T (W x45 x44 x00 x00 x00 x00 x00 x00)
(L (W x00 x00 x00 x00 x00 x00 x00 x00)) E)
(L (W x00 x00 x80 xbf x00 x00 x80 xbf)))
(T (W x68 x00 x00 x00 x5c x00 x00 x00)
(L (W x14 x89 xfe xff x29 x00 x00 x00))
(L (W xff xff xff xff xff xff xff xff))))))))))
(T (W xb0 xfc x00 x00 x7c xfb x00 x00)
(T (W xff xff xff xff xff xff xff xff)
(T (W x00 x00 x80 x3f x00 x00 x80 x3f)
(T (W x76 x31 x5f x66 x69 x73 x68 x5f)
(T (W x00 x00 x00 x00 x00 x00 x00 x00)
(T (W x45 x26 x22 x84 xe4 x9c xf2 xcb)
(T (W x00 x00 x80 x3f x00 x00 x80 x3f)
(T (W x1c x01 x00 x00 x04 x00 x00 x00)
(T (W x00 x00 x00 x00 x00 x00 x00 x00)
(L (W x00 x00 x80 xbf x00 x00 x80 xbf)) E)
(L (W x00 x01 x01 x01 x5a x8b xfe xff)))
(T (W xff xff xff xff xff xff xff xff)
(L (W x5f x77 x69 x6c x64 x5f x70 x6f))
(L (W xff xff xff xff xff xff xff xff))))
(T (W x00 x00 x00 x00 x00 x00 x00 x00)
(T (W xff xff xff xff x9c x00 x00 x00)
(T (W x00 x00 x80 x3f x00 x00 x80 x3f)
(L (W xff xff xff xff xff xff xff xff)) E)
(L (W x00 x00 x00 x00 x00 x00 x00 x00)))
(T (W x1f x00 x00 x00 x22 x00 x00 x00)
(L (W xff xff xff xff xff xff xff xff))
(L (W xff xff xff xff xff xff xff xff)))))
(T (W x40 x00 x00 x00 x9c x00 x00 x00)
(T (W x00 x00 x80 x3f x00 x00 x80 x3f)
(T (W x01 x00 x00 x00 xff xff xff xff)
(T (W xff xff xff xff xff xff xff xff)
(L (W x00 x00 x00 x00 x00 x00 x00 x00)) E)
(L (W x00 x00 x00 x00 x00 x00 x00 x00)))
(T (W x00 x00 x00 x00 x00 x00 x00 x00)
(L (W xff xff xff xff x9c x00 x00 x00))
(L (W xc2 x11 xb9 x28 xbf xcf x67 x6a))))
(T (W x00 x00 x00 x00 x00 x00 x00 x00)
(T (W x00 x00 x80 x3f x00 x00 x80 x3f)
(T (W x00 x00 x00 x00 x00 x00 x00 x00)
(L (W x00 x00 x00 x00 x00 x00 x00 x00)) E)
(L (W x45 x26 x22 x84 xe4 x9c xf2 xcb)))
(T (W x00 x00 x00 x00 x00 x00 x00 x00)
(L (W x1c x00 x00 x00 x10 x00 x00 x00))
(L (W x00 x00 x00 x00 x00 x00 x00 x00))))))
(T (W x01 x00 x00 x00 x9c x00 x00 x00)
(T (W x00 x00 x80 x3f x00 x00 x80 x3f)
(T (W x45 x26 x22 x84 xe4 x9c xf2 xcb)
(T (W xff xff xff xff xff xff xff xff)
(T (W x4a xb0 xff xff xa9 x01 x00 x00)
(L (W x00 x00 x00 x00 x00 x00 x00 x00)) E)
(L (W x00 x00 x80 xbf x00 x00 x80 xbf)))
(T (W xff xff xff xff xff xff xff xff)
(L (W x03 x00 x00 x00 xd0 x00 x00 x00))
(L (W x00 x00 x00 x00 x00 x00 x00 x00))))
(T (W x00 x00 x00 x00 x00 x00 x00 x00)
(T (W x00 x00 x00 x00 x00 x00 x00 x00)
(T (W xff xff xff xff xff xff xff xff)
(L (W xff xff xff xff xff xff xff xff)) E)
(L (W x00 x00 x80 xbf x00 x00 x80 xbf)))
(T (W xff xff xff xff xff xff xff xff)
(L (W xff xff xff xff xff xff xff xff))
(L (W xff xff xff xff xff xff xff xff)))))
(T (W x68 x00 x00 x00 x5c x00 x00 x00)
(T (W x45 x26 x22 x84 xe4 x9c xf2 xcb)
(T (W x18 x00 x1c x00 x20 x00 x24 x00)
(T (W xba xb3 xfd xff x74 x00 x00 x00)
(L (W x00 x00 x00 x00 xf4 xb6 xff xff)) E)
(L (W x00 x00 x00 x00 x00 x00 x00 x00)))
(T (W x00 x00 x80 x3f x00 x00 x80 x3f)
(L (W xff xff xff xff xff xff xff xff))
(L (W xff xff xff xff xff xff xff xff))))
(T (W x3e x00 x00 x00 x10 x00 x00 x00)
(T (W x6c x00 x00 x00 x60 x00 x00 x00)
(T (W xff xff xff xff xff xff xff xff)
(L (W xff xff xff xff xbc x00 x00 x00)) E)
(L (W xb8 x00 x00 x00 x3c x00 x00 x00)))
(T (W xc8 x00 x00 x00 x01 x00 x00 x00)
(L (W x18 x00 x00 x00 x0c x00 x00 x00))
(L (W x00 x00 x00 x00 x00 x00 x00 x00)))))))
(T (W x61 x64 x65 x72 x5f x77 x69 x6c)
(T (W x00 x00 x80 x3f x00 x00 x80 x3f)
(T (W x68 x00 x00 x00 x5c x00 x00 x00)
(T (W x00 x00 x80 x3f x00 x00 x80 x3f)
(T (W xff xff xff xff xff xff xff xff)
(T (W x00 x00 x00 x00 x00 x00 x00 x00)
(L (W x4f x84 x6f x8b xe8 xcb x63 xb7)) E)
(L (W x00 x00 x80 xbf x00 x00 x80 xbf)))
(T (W xff xff xff xff xff xff xff xff)
(L (W x00 x00 x80 x3f x00 x00 x80 x3f))
(L (W x2c x01 x00 x00 x04 x00 x00 x00))))
(T (W x00 x00 x00 x00 x00 x00 x00 x00)
(T (W xff xff xff xff xff xff xff xff)
(T (W x00 x00 x00 x00 xf4 xce xfd xff)
(L (W xff xff xff xff xff xff xff xff)) E)
(L (W x00 x00 x80 xbf x00 x00 x80 xbf)))
(T (W xff xff xff xff xff xff xff xff)
(L (W xff xff xff xff xff xff xff xff))
(L (W xff xff xff xff xff xff xff xff)))))
(T (W x01 x00 x00 x00 x1f x00 x00 x00)
(T (W x00 x00 x80 x3f x00 x00 x80 x3f)
(T (W x20 x01 x00 x00 x04 x00 x00 x00)
(T (W xff xff xff xff xff xff xff xff)
(L (W x45 x26 x22 x84 xe4 x9c xf2 xcb)) E)
(L (W x00 x00 x00 x00 x12 x00 x00 x00)))
(T (W x49 xa1 x68 x4a xeb x5f xdd x3d)
(L (W x14 x34 xfe xff x31 x00 x00 x00))
(L (W x00 x00 x00 x00 x00 x00 x00 x00))))
(T (W x00 x00 x00 x00 x00 x00 x00 x00)
(T (W x00 x00 x80 x3f x00 x00 x80 x3f)
(T (W x00 x00 x00 x00 x00 x00 x00 x00)
(L (W xff xff xff xff xff xff xff xff)) E)
(L (W x18 x00 x00 x00 x0c x00 x00 x00)))
(T (W x00 x00 x00 x00 xf4 x6e xfd xff)
(L (W xff xff xff xff x9c x00 x00 x00))
(L (W x00 x00 x00 x00 x9a x6c xff xff))))))
(T (W x0a x00 x00 x00 x3e x00 x00 x00)
(T (W x45 x26 x22 x84 xe4 x9c xf2 xcb)
(T (W x00 x00 x80 x3f x00 x00 x80 x3f)
(T (W xff xff xff xff xff xff xff xff)
(T (W xba xb9 xff xff x00 x00 x01 x01)
(L (W x00 x00 x00 x00 x00 x00 x00 x00)) E)
(L (W x00 x00 x80 xbf x00 x00 x80 xbf)))
(T (W xa8 x01 x00 x00 xff xff xff xff)
(L (W xff xff xff xff xff xff xff xff))
(L (W x00 x00 x00 x00 x00 x00 x00 x00))))
(T (W x00 x00 x00 x00 x00 x00 x00 x00)
(T (W x00 x00 x00 x00 x00 x00 x00 x00)
(T (W xff xff xff xff xff xff xff xff)
(L (W xff xff xff xff xb0 x00 x00 x00)) E)
(L (W x54 x00 x00 x00 x48 x00 x00 x00)))
(T (W x00 x00 x00 x00 x00 x00 x00 x00)
(L (W xff xff xff xff x94 x00 x00 x00))
(L (W x46 x53 x59 x53 x5f x4e x53 x5f)))))
(T (W x6a xfd xfb xff x78 x00 x00 x00)
(T (W x00 x00 x80 x3f x00 x00 x80 x3f)
(T (W x77 x69 x6c x64 x5f x70 x6f x6b)
(T (W x00 x00 x80 x3f x00 x00 x80 x3f)
(L (W x03 x00 x00 x00 xd8 x00 x00 x00)) E)
(L (W x46 x53 x59 x53 x5f x4e x53 x5f)))
(T (W x50 x00 x00 x00 x44 x00 x00 x00)
(L (W xff xff xff xff xbc x00 x00 x00))
(L (W xff xff xff xff xff xff xff xff))))
(T (W x00 x00 x00 x00 x22 xc8 xff xff)
(T (W x1d x00 x00 x00 x20 x00 x00 x00)
(T (W x00 x00 x00 x00 x00 x00 x00 x00)
(L (W x00 x00 x00 x00 x00 x00 x00 x00)) E)
(L (W xcc x00 x00 x00 x01 x00 x00 x00)))
(T (W xff xff xff xff xff xff xff xff)
(L (W x58 x00 x00 x00 x4c x00 x00 x00))
(L (W x49 xa1 x68 x4a xeb x5f xdd x3d))))))))
(T (W x66 x69 x73 x68 x5f x76 x61 x6e)
(T (W xff xff xff xff x04 x00 x00 x00)
(T (W xc9 x01 x00 x00 xff xff xff xff)
(T (W x00 x00 x00 x00 x00 x00 x00 x00)
(T (W x00 x00 x00 x00 x00 x00 x00 x00)
(T (W x00 x00 x80 x3f x00 x00 x80 x3f)
(T (W xb8 x00 x00 x00 xac x00 x00 x00)
(L (W xff xff xff xff xff xff xff xff)) E)
(L (W xff xff xff xff xff xff xff xff)))
(T (W x00 x00 x00 x00 x00 x00 x00 x00)
(L (W xff xff xff xff xff xff xff xff))
(L (W x00 x00 x80 xbf x00 x00 x80 xbf))))
(T (W xff xff xff xff xff xff xff xff)
(T (W x4f x84 x6f x8b xe8 xcb x63 xb7)
(T (W x70 x5f x6c x65 x61 x64 x65 x72)
(L (W x3c x00 x00 x00 x00 x00 x80 xbf)) E)
(L (W xff xff xff xff xff xff xff xff)))
(T (W x00 x00 x00 x00 x00 x00 x00 x00)
(L (W x00 x00 x00 x00 x00 x00 x00 x00))
(L (W x00 x00 x00 x00 x00 x00 x00 x00)))))
(T (W x6c x00 xfc xff x0b x00 x00 x00)
(T (W xff xff xff xff xff xff xff xff)
(T (W x00 x00 x80 x3f x00 x00 x80 x3f)
(T (W x45 x26 x22 x84 xe4 x9c xf2 xcb)
(L (W xff xff xff xff xff xff xff xff)) E)
(L (W x68 x00 x00 x00 x5c x00 x00 x00)))
(T (W xff xff xff xff xc8 x00 x00 x00)
(L (W x00 x00 x80 xbf x00 x00 x80 xbf))
(L (W xff xff xff xff x8c x00 x00 x00))))
(T (W xba x67 xfc xff x74 x00 x00 x00)
(T (W x32 x00 xfd xff x4b x00 x00 x00)
(T (W x00 x00 x00 x00 x00 x00 x00 x00)
(L (W x40 x00 x44 x00 x48 x00 x4c x00)) E)
(L (W x00 x00 x00 x00 x00 x00 x00 x00)))
(T (W x52 x6a xfd xff xbe x00 x00 x00)
(L (W x0d x00 x00 x00 x10 x00 x00 x00))
(L (W x68 x00 x00 x00 x5c x00 x00 x00))))))
(T (W x00 x00 x00 x00 x00 x00 x00 x00)
(T (W x00 x00 x00 x00 x00 x00 x00 x00)
(T (W xff xff xff xff xff xff xff xff)
(T (W x00 x00 x80 x3f x00 x00 x80 x3f)
(T (W x54 x00 x00 x00 x48 x00 x00 x00)
(L (W xff xff xff xff xff xff xff xff)) E)
(L (W xff xff xff xff xff xff xff xff)))
(T (W x00 x00 x80 x3f x00 x00 x80 x3f)
(L (W x00 x00 x00 x00 x00 x00 x00 x00))
(L (W xff xff xff xff xff xff xff xff))))
(T (W x18 x00 x00 x00 x10 x00 x00 x00)
(T (W x18 x00 x00 x00 x0c x00 x00 x00)
(T (W x45 x26 x22 x84 xe4 x9c xf2 xcb)
(L (W x00 x00 x00 x00 x00 x00 x00 x00)) E)
(L (W xff xff xff xff xff xff xff xff)))
(T (W x00 x00 x80 x3f x00 x00 x80 x3f)
(L (W x00 x00 x00 x00 x00 x00 x00 x00))
(L (W x6a x59 xff xff x78 x00 x00 x00)))))
(T (W xff xff xff xff xff xff xff xff)
(T (W xb8 x00 x00 x00 xac x00 x00 x00)
(T (W x00 x00 x80 x3f x00 x00 x80 x3f)
(T (W xba xb7 xfd xff x74 x00 x00 x00)
(L (W x49 xa1 x68 x4a xeb x5f xdd x3d)) E)
(L (W x45 x26 x22 x84 xe4 x9c xf2 xcb)))
(T (W xff xff xff xff xff xff xff xff)
(L (W x45 x26 x22 x84 xe4 x9c xf2 xcb))
(L (W x00 x00 x00 x00 x00 x00 x00 x00))))
(T (W x00 x00 x80 x3f x00 x00 x80 x3f)
(T (W x00 x00 x00 x00 x00 x00 x00 x00)
(T (W x28 x00 x00 x00 x00 x00 x80 x3f)
(L (W x1b x00 x00 x00 x10 x00 x00 x00)) E)
(L (W x00 x00 x80 xbf x00 x00 x80 xbf)))
(T (W x00 x00 x00 x00 x00 x00 x00 x00)
(L (W x00 x00 x00 x00 x00 x00 x00 x00))
(L (W x00 x00 x80 xbf x00 x00 x80 xbf)))))))
(T (W x1a x00 x00 x00 x67 x72 x6f x75)
(T (W x00 x00 x00 x00 x00 x00 x00 x00)
(T (W x00 x00 x00 x00 x00 x00 x00 x00)
(T (W x20 x01 x00 x00 x04 x00 x00 x00)
(T (W x50 x00 x00 x00 x44 x00 x00 x00)
(T (W x50 x00 x00 x00 x44 x00 x00 x00)
(L (W xff xff xff xff xff xff xff xff)) E)
(L (W x00 x00 x00 x00 xca x93 xfe xff)))
(T (W x49 xa1 x68 x4a xeb x5f xdd x3d)
(L (W xff xff xff xff xff xff xff xff))
(L (W xff xff xff xff xb0 x00 x00 x00))))
(T (W xff xff xff xff xff xff xff xff)
(T (W x00 x00 x80 x3f x00 x00 x80 x3f)
(T (W x45 x26 x22 x84 xe4 x9c xf2 xcb)
(L (W x00 x00 x00 x00 x00 x00 x00 x00)) E)
(L (W xff xff xff xff xff xff xff xff)))
(T (W x45 x26 x22 x84 xe4 x9c xf2 xcb)
(L (W x00 x00 x00 x00 x00 x00 x00 x00))
(L (W x00 x00 x80 xbf x00 x00 x80 xbf)))))
(T (W x01 x00 x00 x00 x04 x00 x00 x00)
(T (W xff xff xff xff xff xff xff xff)
(T (W x45 x26 x22 x84 xe4 x9c xf2 xcb)
(T (W x00 x00 x00 x00 x00 x00 x00 x00)
(L (W x14 xb8 xff xff x1d x00 x00 x00)) E)
(L (W x6a xb1 xfe xff x78 x00 x00 x00)))
(T (W xff xff xff xff xff xff xff xff)
(L (W x00 x00 x00 x00 x00 x00 x00 x00))
(L (W x00 x00 x80 xbf x00 x00 x80 xbf))))
(T (W x00 x00 x80 x3f x00 x00 x80 x3f)
(T (W x00 x00 x00 x00 x9a xf0 xfc xff)
(T (W x5a xfe xff xff x01 x01 x01 x01)
(L (W xff xff xff xff xff xff xff xff)) E)
(L (W x00 x00 x80 xbf x00 x00 x80 xbf)))
(T (W x12 x00 x00 x00 x46 x53 x59 x53)
(L (W x00 x00 x00 x00 x00 x00 x00 x00))
(L (W x84 x74 xff xff x00 x01 x01 x01))))))
(T (W x00 x00 x00 x00 x00 x00 x00 x00)
(T (W x00 x00 x00 x00 x00 x00 x00 x00)
(T (W xff xff xff xff xff xff xff xff)
(T (W x00 x00 x80 x3f x00 x00 x80 x3f)
(T (W x00 x00 x80 x3f x00 x00 x80 x3f)
(L (W xff xff xff xff xff xff xff xff)) E)
(L (W xff xff xff xff xb0 x00 x00 x00)))
(T (W xba x1f xfd xff x74 x00 x00 x00)
(L (W x00 x00 x01 x01 xb0 x01 x00 x00))
(L (W x00 x01 x01 x01 x6a x5f xff xff))))
(T (W x01 x00 x00 x00 xa0 x00 x00 x00)
(T (W xff xff xff xff xff xff xff xff)
(T (W x18 x00 x00 x00 x0c x00 x00 x00)
(L (W x00 x00 x00 x00 x00 x00 x00 x00)) E)
(L (W x14 xe8 xfe xff x18 x00 x00 x00)))
(T (W xba x5f xfd xff x74 x00 x00 x00)
(L (W x00 x00 x00 x00 x00 x00 x00 x00))
(L (W x45 x26 x22 x84 xe4 x9c xf2 xcb)))))
(T (W xba x1d xfe xff x00 x00 x01 x01)
(T (W xff xff xff xff xff xff xff xff)
(T (W x00 x00 x00 x00 x00 x00 x00 x00)
(T (W xff xff xff xff xff xff xff xff)
(L (W x00 x00 x00 x00 x00 x00 x00 x00)) E)
(L (W xc4 x00 x00 x00 x02 x00 x00 x00)))
(T (W x00 x00 x00 x00 x00 x00 x00 x00)
(L (W x00 x00 x00 x00 x00 x00 x00 x00))
(L (W x4f x84 x6f x8b xe8 xcb x63 xb7))))
(T (W x00 x00 x80 x3f x00 x00 x80 x3f)
(T (W x00 x00 x00 x00 x00 x00 x00 x00)
(T (W xff xff xff xff xff xff xff xff)
(L (W xff xff xff xff xff xff xff xff)) E)
(L (W x00 x00 x80 xbf x00 x00 x80 xbf)))
(T (W x00 x00 x80 x3f x00 x00 x80 x3f)
(L (W x8e x01 x00 x00 xff xff xff xff))
(L (W xff xff xff xff xff xff xff xff)))))))))
(T (W x3e x00 x00 x00 x10 x00 x00 x00)
(T (W x6c x00 x00 x00 x60 x00 x00 x00)
(T (W x54 x00 x00 x00 x48 x00 x00 x00)
(T (W x00 x00 x80 x3f x00 x00 x80 x3f)
(T (W xff xff xff xff xff xff xff xff)
(T (W xb8 x00 x00 x00 xac x00 x00 x00)
(T (W x00 x00 x00 x00 x00 x00 x00 x00)
(T (W x00 x00 x80 x3f x00 x00 x80 x3f)
(L (W x14 x00 x00 x00 x0c x00 x00 x00)) E)
(L (W x18 x00 x00 x00 x0c x00 x00 x00)))
(T (W x52 x08 xfd xff x4a x00 x00 x00)
(L (W x00 x00 x80 x3f x00 x00 x80 x3f))
(L (W x00 x00 x00 x00 x00 x00 x00 x00))))
(T (W x00 x00 x80 x3f x00 x00 x80 x3f)
(T (W x8a xcf xfc xff xa6 x01 x00 x00)
(T (W xff xff xff xff xff xff xff xff)
(L (W x00 x00 x00 x00 x00 x00 x00 x00)) E)
(L (W x00 x00 x00 x00 xf4 xc8 xfe xff)))
(T (W xff xff xff xff xff xff xff xff)
(L (W xba x65 xfe xff xc6 x00 x00 x00))
(L (W x00 x00 x00 x00 x00 x00 x00 x00)))))
(T (W xff xff xff xff xff xff xff xff)
(T (W x68 x00 x00 x00 x5c x00 x00 x00)
(T (W x00 x00 x00 x00 x00 x00 x00 x00)
(T (W x00 x00 x00 x00 x00 x00 x00 x00)
(L (W x00 x00 x00 x00 xf4 xa8 xff xff)) E)
(L (W x45 x26 x22 x84 xe4 x9c xf2 xcb)))
(T (W x00 x00 x80 x3f x00 x00 x80 x3f)
(L (W xc9 x49 x69 x12 x83 x6e x37 xc6))
(L (W x45 x26 x22 x84 xe4 x9c xf2 xcb))))
(T (W x00 x00 x00 x00 x00 x00 x00 x00)
(T (W x18 x00 x00 x00 x0c x00 x00 x00)
(T (W xc4 x00 x00 x00 x02 x00 x00 x00)
(L (W x00 x00 x80 xbf x00 x00 x80 xbf)) E)
(L (W xff xff xff xff xff xff xff xff)))
(T (W x6a x67 xfd xff x78 x00 x00 x00)
(L (W xff xff xff xff xff xff xff xff))
(L (W x00 x00 x00 x00 x00 x00 x00 x00))))))
(T (W xff xff xff xff xff xff xff xff)
(T (W xff xff xff xff xff xff xff xff)
(T (W x45 x26 x22 x84 xe4 x9c xf2 xcb)
(T (W x00 x00 x00 x00 x00 x00 x00 x00)
(T (W x00 x00 x00 x00 x00 x00 x00 x00)
(L (W x18 x00 x00 x00 x10 x00 x00 x00)) E)
(L (W x00 x00 x00 x00 x88 x9a xfe xff)))
(T (W x00 x00 x00 x00 x00 x00 x00 x00)
(L (W xff xff xff xff xff xff xff xff))
(L (W x45 x26 x22 x84 xe4 x9c xf2 xcb))))
(T (W x00 x00 x80 x3f x00 x00 x80 x3f)
(T (W x00 x00 x80 x3f x00 x00 x80 x3f)
(T (W x6b x65 x5f x63 x6f x77 x61 x72)
(L (W x00 x00 x00 x00 x00 x00 x00 x00)) E)
(L (W x18 x00 x00 x00 x10 x00 x00 x00)))
(T (W x00 x00 x00 x00 x00 x00 x00 x00)
(L (W x32 x6e xfe xff xa9 x01 x00 x00))
(L (W x00 x00 x00 x00 x00 x00 x00 x00)))))
(T (W xff xff xff xff xff xff xff xff)
(T (W x45 x26 x22 x84 xe4 x9c xf2 xcb)
(T (W xff xff xff xff xff xff xff xff)
(T (W x5f x77 x69 x6c x64 x5f x70 x6f)
(L (W xff xff xff xff xff xff xff xff)) E)
(L (W x00 x00 x80 xbf x00 x00 x80 xbf)))
(T (W xbc x00 x00 x00 x14 x00 x00 x00)
(L (W x20 x00 x00 x00 x10 x00 x00 x00))
(L (W x00 x00 x00 x00 x00 x00 x00 x00))))
(T (W x45 x26 x22 x84 xe4 x9c xf2 xcb)
(T (W xff xff xff xff xff xff xff xff)
(T (W xf2 x00 x00 x00 x9e x01 x00 x00)
(L (W x00 x00 x80 xbf x00 x00 x80 xbf)) E)
(L (W xff xff xff xff xff xff xff xff)))
(T (W x02 x00 x00 x00 xff xff xff xff)
(L (W xff xff xff xff xff xff xff xff))
(L (W x00 x00 x00 x00 x00 x00 x00 x00)))))))
(T (W x18 x00 x00 x00 x0c x00 x00 x00)
(T (W xc3 x01 x00 x00 xff xff xff xff)
(T (W xff xff xff xff xff xff xff xff)
(T (W xff xff xff xff x04 x00 x00 x00)
(T (W x00 x00 x00 x00 x00 x00 x00 x00)
(T (W x45 x26 x22 x84 xe4 x9c xf2 xcb)
(L (W x00 x00 x80 xbf x00 x00 x80 xbf)) E)
(L (W xf0 x90 xfe xff x1a xcc xfe xff)))
(T (W x46 x53 x59 x53 x5f x4e x53 x5f)
(L (W x22 x00 x00 x00 x25 x00 x00 x00))
(L (W x00 x00 x00 x00 x00 x00 x00 x00))))
(T (W x54 x00 x00 x00 x48 x00 x00 x00)
(T (W x00 x00 x00 x00 x00 x00 x00 x00)
(T (W x00 x00 x00 x00 x00 x00 x00 x00)
(L (W x32 xe6 xff xff x71 x00 x00 x00)) E)
(L (W x84 xd2 xfe xff x00 x01 x01 x01)))
(T (W x00 x00 x00 x00 x00 x00 x00 x00)
(L (W x00 x00 x00 x00 xca x51 xfe xff))
(L (W x00 x00 x00 x00 x12 x00 x00 x00)))))
(T (W xff xff xff xff xff xff xff xff)
(T (W x84 x32 xfc xff x00 x01 x01 x01)
(T (W x00 x00 x00 x00 x00 x00 x00 x00)
(T (W xba xcb xff xff x00 x00 x01 x01)
(L (W xff xff xff xff xff xff xff xff)) E)
(L (W x00 x00 x80 xbf x00 x00 x80 xbf)))
(T (W x68 x00 x00 x00 x5c x00 x00 x00)
(L (W xff xff xff xff xff xff xff xff))
(L (W x49 xa1 x68 x4a xeb x5f xdd x3d))))
(T (W x45 x26 x22 x84 xe4 x9c xf2 xcb)
(T (W xff xff xff xff xff xff xff xff)
(T (W x69 x6b x65 x5f x6c x76 x32 x5f)
(L (W x00 x00 x00 x00 x00 x00 x00 x00)) E)
(L (W xb4 x05 x00 x00 x84 x04 x00 x00)))
(T (W xff xff xff xff xff xff xff xff)
(L (W xff xff xff xff xff xff xff xff))
(L (W x4f x84 x6f x8b xe8 xcb x63 xb7))))))
(T (W xff xff xff xff xff xff xff xff)
(T (W xff xff xff xff xff xff xff xff)
(T (W x68 x00 x00 x00 x5c x00 x00 x00)
(T (W x14 xa6 xfc xff x3c x00 x00 x00)
(T (W x00 x00 x00 x00 x00 x00 x00 x00)
(L (W x45 x26 x22 x84 xe4 x9c xf2 xcb)) E)
(L (W x00 x00 x00 x00 x00 x00 x00 x00)))
(T (W x00 x00 x00 x00 x00 x00 x00 x00)
(L (W x94 xee xff xff x01 x01 x01 x01))
(L (W x00 x00 x80 xbf x00 x00 x80 xbf))))
(T (W x45 x26 x22 x84 xe4 x9c xf2 xcb)
(T (W x00 x00 x80 x3f x00 x00 x80 x3f)
(T (W x00 x00 x00 x00 x00 x00 x00 x00)
(L (W xff xff xff xff xff xff xff xff)) E)
(L (W xff xff xff xff xff xff xff xff)))
(T (W x00 x00 x00 x00 x00 x00 x00 x00)
(L (W xff xff xff xff xff xff xff xff))
(L (W x49 xa1 x68 x4a xeb x5f xdd x3d)))))
(T (W xff xff xff xff xff xff xff xff)
(T (W x18 x00 x00 x00 x0c x00 x00 x00)
(T (W xff xff xff xff xff xff xff xff)
(T (W x45 x26 x22 x84 xe4 x9c xf2 xcb)
(L (W xff xff xff xff xff xff xff xff)) E)
(L (W x54 x00 x00 x00 x48 x00 x00 x00)))
(T (W xff xff xff xff xff xff xff xff)
(L (W x00 x00 x00 x00 x00 x00 x00 x00))
(L (W x30 x33 x5f x43 x4c x45 x41 x52))))
(T (W x00 x00 x80 x3f x00 x00 x80 x3f)
(T (W xff xff xff xff xff xff xff xff)
(T (W x00 x00 x80 x3f x00 x00 x80 x3f)
(L (W x00 x00 x00 x00 x00 x00 x5c x00)) E)
(L (W x38 xb6 x1c x76 x80 xb8 xf7 x18)))
(T (W x77 x69 x6c x64 x5f x70 x6f x6b)
(L (W xff xff xff xff xff xff xff xff))
(L (W x54 x00 x00 x00 x48 x00 x00 x00))))))))
(T (W x45 x26 x22 x84 xe4 x9c xf2 xcb)
(T (W x45 x26 x22 x84 xe4 x9c xf2 xcb)
(T (W x00 x00 x00 x00 x00 x00 x00 x00)
(T (W x00 x00 x80 x3f x00 x00 x80 x3f)
(T (W x00 x00 x00 x00 x00 x00 x00 x00)
(T (W xba x89 xfc xff x74 x00 x00 x00)
(T (W xff xff xff xff xff xff xff xff)
(L (W x46 x53 x59 x53 x5f x4e x53 x5f)) E)
(L (W x00 x00 x00 x00 x00 x00 x00 x00)))
(T (W x00 x00 x00 x00 xf4 x0c xfd xff)
(L (W x67 x72 x6f x75 x70 x5f x77 x69))
(L (W xc4 x00 x00 x00 x01 x00 x00 x00))))
(T (W xff xff xff xff xff xff xff xff)
(T (W x84 xce xfc xff x00 x01 x01 x01)
(T (W x00 x00 x80 x3f x00 x00 x80 x3f)
(L (W x45 x26 x22 x84 xe4 x9c xf2 xcb)) E)
(L (W xea xd8 xfe xff xd3 x00 x00 x00)))
(T (W x00 x00 x80 x3f x00 x00 x80 x3f)
(L (W x00 x00 x80 xbf x00 x00 x80 xbf))
(L (W x45 x26 x22 x84 xe4 x9c xf2 xcb)))))
(T (W x00 x00 x80 x3f x00 x00 x80 x3f)
(T (W x00 x00 x00 x00 x00 x00 x00 x00)
(T (W xff xff xff xff x04 x00 x00 x00)
(T (W x68 x00 x00 x00 x5c x00 x00 x00)
(L (W x6c x00 x00 x00 x60 x00 x00 x00)) E)
(L (W xaa x01 x00 x00 xff xff xff xff)))
(T (W xff xff xff xff x02 x00 x00 x00)
(L (W xff xff xff xff xff xff xff xff))
(L (W xff xff xff xff xff xff xff xff))))
(T (W xff xff xff xff xff xff xff xff)
(T (W x00 x00 x00 x00 x00 x00 x00 x00)
(T (W x6c x00 x00 x00 x60 x00 x00 x00)
(L (W xff xff xff xff xc4 x00 x00 x00)) E)
(L (W x00 x00 x80 xbf x00 x00 x80 xbf)))
(T (W x00 x00 x00 x00 x00 x00 x00 x00)
(L (W x00 x00 x80 xbf x00 x00 x80 xbf))
(L (W xff xff xff xff x9c x00 x00 x00))))))
(T (W x00 x00 x80 x3f x00 x00 x80 x3f)
(T (W x00 x00 x80 x3f x00 x00 x80 x3f)
(T (W x00 x00 x00 x00 x00 x00 x00 x00)
(T (W x18 x00 x00 x00 x10 x00 x00 x00)
(T (W xff xff xff xff xff xff xff xff)
(L (W x46 x53 x59 x53 x5f x4e x53 x5f)) E)
(L (W x00 x00 x00 x00 x00 x00 x00 x00)))
(T (W x18 x00 x00 x00 x10 x00 x00 x00)
(L (W x68 x00 x00 x00 x5c x00 x00 x00))
(L (W x00 x00 x00 x00 x9a x1a xff xff))))
(T (W xff xff xff xff xff xff xff xff)
(T (W xff xff xff xff xff xff xff xff)
(T (W x68 x00 x00 x00 x5c x00 x00 x00)
(L (W x00 x01 x01 x01 x5a xe1 xff xff)) E)
(L (W x00 x00 x00 x00 x00 x00 x00 x00)))
(T (W xff xff xff xff xff xff xff xff)
(L (W x00 x00 x80 xbf x00 x00 x80 xbf))
(L (W xff xff xff xff xff xff xff xff)))))
(T (W x00 x00 x00 x00 x00 x00 x00 x00)
(T (W x41 x1a x2b x0c xd2 x1a xed x4d)
(T (W x00 x00 x80 x3f x00 x00 x80 x3f)
(T (W x21 x00 x00 x00 x67 x72 x6f x75)
(L (W x6c x00 x00 x00 x60 x00 x00 x00)) E)
(L (W xaa x01 x00 x00 xff xff xff xff)))
(T (W x4f x84 x6f x8b xe8 xcb x63 xb7)
(L (W x00 x00 x80 xbf x00 x00 x80 xbf))
(L (W xff xff xff xff x8c x00 x00 x00))))
(T (W xff xff xff xff x04 x00 x00 x00)
(T (W x45 x26 x22 x84 xe4 x9c xf2 xcb)
(T (W x00 x00 x00 x00 xaa x10 xfe xff)
(L (W x00 x00 x18 x00 x1c x00 x20 x00)) E)
(L (W x6c x00 x00 x00 x60 x00 x00 x00)))
(T (W x6a x7b xfd xff x78 x00 x00 x00)
(L (W x00 x00 x00 x00 x00 x00 x00 x00))
(L (W x00 x00 x00 x00 x12 x00 x00 x00)))))))
(T (W x18 x00 x00 x00 x10 x00 x00 x00)
(T (W xba xb1 xfb xff x74 x00 x00 x00)
(T (W x00 x00 x80 x3f x00 x00 x80 x3f)
(T (W x00 x00 x00 x00 x00 x00 x00 x00)
(T (W x45 x26 x22 x84 xe4 x9c xf2 xcb)
(T (W xff xff xff xff xff xff xff xff)
(L (W x00 x00 x00 x00 x00 x00 x00 x00)) E)
(L (W x00 x00 x00 x00 x00 x00 x00 x00)))
(T (W xff xff xff xff xb0 x00 x00 x00)
(L (W x54 x00 x00 x00 x48 x00 x00 x00))
(L (W xff xff xff xff xff xff xff xff))))
(T (W xff xff xff xff xff xff xff xff)
(T (W xff xff xff xff xbc x00 x00 x00)
(T (W x68 x00 x00 x00 x5c x00 x00 x00)
(L (W x00 x00 x80 xbf x00 x00 x80 xbf)) E)
(L (W x00 x00 x00 x00 x00 x00 x00 x00)))
(T (W xff xff xff xff xa0 x00 x00 x00)
(L (W x00 x00 x80 xbf x00 x00 x80 xbf))
(L (W x18 x00 x00 x00 x0c x00 x00 x00)))))
(T (W x45 x26 x22 x84 xe4 x9c xf2 xcb)
(T (W x00 x00 x00 x00 x00 x00 x00 x00)
(T (W x45 x26 x22 x84 xe4 x9c xf2 xcb)
(T (W x00 x00 x80 x3f x00 x00 x80 x3f)
(L (W x00 x00 x80 xbf x00 x00 x80 xbf)) E)
(L (W xff xff xff xff xff xff xff xff)))
(T (W x00 x00 x00 x00 x00 x00 x00 x00)
(L (W x00 x00 x80 xbf x00 x00 x80 xbf))
(L (W xff xff xff xff xff xff xff xff))))
(T (W xff xff xff xff xff xff xff xff)
(T (W x00 x00 x80 x3f x00 x00 x80 x3f)
(T (W x00 x00 x00 x00 x70 x00 x74 x00)
(L (W x6c x00 x00 x00 x60 x00 x00 x00)) E)
(L (W x50 x00 x00 x00 x44 x00 x00 x00)))
(T (W x00 x00 x80 x3f x00 x00 x80 x3f)
(L (W x00 x00 x80 xbf x00 x00 x80 xbf))
(L (W xff xff xff xff xff xff xff xff))))))
(T (W x45 x26 x22 x84 xe4 x9c xf2 xcb)
(T (W x00 x00 x80 x3f x00 x00 x80 x3f)
(T (W x00 x00 x00 x00 x00 x00 x00 x00)
(T (W x24 x04 x00 x00 x08 x03 x00 x00)
(T (W xba xa1 xfd xff x74 x00 x00 x00)
(L (W x32 xba xff xff x7e x00 x00 x00)) E)
(L (W xff xff xff xff xff xff xff xff)))
(T (W xff xff xff xff xff xff xff xff)
(L (W x45 x26 x22 x84 xe4 x9c xf2 xcb))
(L (W x03 x00 x00 x00 xd8 x00 x00 x00))))
(T (W xf2 x00 x00 x00 xff xff xff xff)
(T (W x30 x33 x5f x43 x4c x45 x41 x52)
(T (W x00 x00 x00 x00 x00 x00 x00 x00)
(L (W x50 x00 x00 x00 x00 x00 x54 x00)) E)
(L (W x00 x00 x80 xbf x00 x00 x80 xbf)))
(T (W x00 x00 x00 x00 x00 x00 x00 x00)
(L (W x00 x00 x80 xbf x00 x00 x80 xbf))
(L (W xff xff xff xff xff xff xff xff)))))
(T (W x00 x00 x00 x00 x00 x00 x00 x00)
(T (W x23 x00 x00 x00 xff xff xff xff)
(T (W x00 x00 x80 x3f x00 x00 x80 x3f)
(T (W x00 x00 x00 x00 x00 x00 x00 x00)
(L (W x20 x00 x00 x00 x24 x00 x28 x00)) E)
(L (W xff xff xff xff xff xff xff xff)))
(T (W x45 x26 x22 x84 xe4 x9c xf2 xcb)
(L (W x00 x00 x80 xbf x00 x00 x80 xbf))
(L (W x84 x46 xff xff x00 x01 x01 x01))))
(T (W x18 x00 x00 x00 x0c x00 x00 x00)
(T (W x00 x00 x80 x3f x00 x00 x80 x3f)
(L (W x00 x00 x80 x3f x00 x00 x80 x3f))
(L (W x00 x00 x00 x00 xf4 x04 xff xff)))
(T (W xba x81 xfd xff x74 x00 x00 x00)
(L (W x00 x00 x00 x00 x00 x00 x00 x00))
(L (W x14 x8a xff xff x11 x00 x00 x00))))))))))))))
(T (W xc0 x5d x04 x00 xfc x56 x04 x00)
(T (W x70 x26 x04 x00 xcc x21 x04 x00)
(T (W x18 xdf x03 x00 xbc xdc x03 x00)
(T (W x08 x3a x03 x00 x74 x35 x03 x00)
(T (W xe0 x51 x02 x00 x64 x4f x02 x00)
(T (W x38 xe1 x00 x00 x04 xe0 x00 x00)
(T (W xff xff xff xff xff xff xff xff)
(T (W x00 x00 x80 x3f x00 x00 x80 x3f)
(T (W x00 x00 x80 x3f x00 x00 x80 x3f)
(T (W x00 x00 x00 x00 x00 x00 x00 x00)
(T (W x01 x00 x00 x00 x04 x00 x00 x00)
(T (W x00 x00 x80 x3f x00 x00 x80 x3f)
(T (W x00 x00 x80 x3f x00 x00 x80 x3f)
(L (W xff xff xff xff xff xff xff xff)) E)
(L (W x45 x44 x00 x00 x00 x00 x00 x00)))
(T (W x00 x00 x00 x00 x00 x00 x00 x00)
(L (W x00 x00 x00 x00 x00 x00 x00 x00))
(L (W x00 x00 x80 xbf x00 x00 x80 xbf))))
(T (W xff xff xff xff xff xff xff xff)
(T (W x00 x00 x00 x00 x00 x00 x00 x00)
(T (W xff xff xff xff xff xff xff xff)
(L (W x00 x00 x80 xbf x00 x00 x80 xbf)) E)
(L (W x03 x00 x00 x00 xd4 x00 x00 x00)))
(T (W x00 x00 x00 x00 x00 x00 x00 x00)
(L (W x4f x84 x6f x8b xe8 xcb x63 xb7))
(L (W x00 x00 x80 xbf x00 x00 x80 xbf)))))
(T (W x00 x00 x00 x00 x00 x00 x00 x00)
(T (W x54 x03 x00 x00 x38 x02 x00 x00)
(T (W x20 x00 x24 x00 x28 x00 x2c x00)
(T (W x00 x00 x80 x3f x00 x00 x80 x3f)
(L (W xff xff xff xff xff xff xff xff)) E)
(L (W xc4 x00 x00 x00 x02 x00 x00 x00)))
(T (W x03 x00 x00 x00 xd4 x00 x00 x00)
(L (W x00 x00 x00 x00 x00 x00 x00 x00))
(L (W x00 x00 x00 x00 xb8 x26 xff xff))))
(T (W xff xff xff xff xff xff xff xff)
(T (W xff xff xff xff xff xff xff xff)
(T (W x77 xd5 x36 x97 x85 x2f x63 x5f)
(L (W xff xff xff xff xff xff xff xff)) E)
(L (W x45 x26 x22 x84 xe4 x9c xf2 xcb)))
(T (W xff xff xff xff xff xff xff xff)
(L (W x00 x00 x00 x00 x00 x00 x00 x00))
(L (W xff xff xff xff xff xff xff xff))))))
(T (W x00 x00 x80 x3f x00 x00 x80 x3f)
(T (W x00 x00 x00 x00 x00 x00 x00 x00)
(T (W xea x2f xfe xff x00 x00 x01 x01)
(T (W x00 x00 x80 x3f x00 x00 x80 x3f)
(T (W xea x91 xfd xff x74 x00 x00 x00)
(L (W xff xff xff xff xff xff xff xff)) E)
(L (W x00 x00 x00 x00 x00 x00 x00 x00)))
(T (W x54 x00 x00 x00 x48 x00 x00 x00)
(L (W x00 x00 x80 x3f x00 x00 x80 x3f))
(L (W xcc x00 x00 x00 x01 x00 x00 x00))))
(T (W xff xff xff xff xff xff xff xff)
(T (W xea xd1 xfc xff x74 x00 x00 x00)
(T (W x00 x00 x80 x3f x00 x00 x80 x3f)
(L (W x45 x26 x22 x84 xe4 x9c xf2 xcb)) E)
(L (W x74 x03 x00 x00 x4c x02 x00 x00)))
(T (W x54 x00 x00 x00 x48 x00 x00 x00)
(L (W x00 x00 x00 x00 x00 x00 x00 x00))
(L (W x00 x00 x80 xbf x00 x00 x80 xbf)))))
(T (W x00 x00 x00 x00 x00 x00 x00 x00)
(T (W xea x4f xfe xff x00 x00 x01 x01)
(T (W x00 x00 x80 x3f x00 x00 x80 x3f)
(T (W x00 x00 x00 x00 x00 x00 x00 x00)
(L (W x00 x00 x00 x00 x00 x00 x00 x00)) E)
(L (W xff xff xff xff xff xff xff xff)))
(T (W x02 x00 x00 x00 xff xff xff xff)
(L (W x49 xa1 x68 x4a xeb x5f xdd x3d))
(L (W x45 x26 x22 x84 xe4 x9c xf2 xcb))))
(T (W x01 x00 x00 x00 xa0 x00 x00 x00)
(T (W x00 x00 x00 x00 x00 x00 x00 x00)
(T (W xff xff xff xff xff xff xff xff)
(L (W x00 x00 x80 xbf x00 x00 x80 xbf)) E)
(L (W x00 x00 x80 xbf x00 x00 x80 xbf)))
(T (W x00 x00 x00 x00 x00 x00 x00 x00)
(L (W x00 x00 x00 x00 x00 x00 x00 x00))
(L (W xff xff xff xff xff xff xff xff)))))))
(T (W x00 x00 x00 x00 x00 x00 x00 x00)
(T (W x21 x00 x00 x00 x67 x72 x6f x75)
(T (W x00 x00 x00 x00 x00 x00 x00 x00)
(T (W xff xff xff xff xff xff xff xff)
(T (W x00 x00 x80 x3f x00 x00 x80 x3f)
(T (W xff xff xff xff xff xff xff xff)
(L (W xc6 x00 x00 x00 xff xff xff xff)) E)
(L (W x64 x03 x00 x00 x3c x02 x00 x00)))
(T (W x00 x00 x80 x3f x00 x00 x80 x3f)
(L (W x64 x5f x70 x6f x6b x65 x5f x77))
(L (W x6c x00 x00 x00 x60 x00 x00 x00))))
(T (W xb8 x00 x00 x00 xac x00 x00 x00)
(T (W x00 x00 x80 x3f x00 x00 x80 x3f)
(T (W x00 x00 x00 x00 x00 x00 x00 x00)
(L (W x00 x00 x80 xbf x00 x00 x80 xbf)) E)
(L (W xff xff xff xff xff xff xff xff)))
(T (W x49 xa1 x68 x4a xeb x5f xdd x3d)
(L (W x00 x00 x00 x00 x00 x00 x00 x00))
(L (W x00 x00 x80 xbf x00 x00 x80 xbf)))))
(T (W x00 x00 x00 x00 x00 x00 x00 x00)
(T (W xa8 x01 x00 x00 xff xff xff xff)
(T (W x9a xab xfc xff x78 x00 x00 x00)
(T (W x00 x00 x80 x3f x00 x00 x80 x3f)
(L (W x00 x00 x80 xbf x00 x00 x80 xbf)) E)
(L (W xff xff xff xff xff xff xff xff)))
(T (W xff xff xff xff xff xff xff xff)
(L (W x00 x00 x00 x00 xc8 xfa xff xff))
(L (W xff xff xff xff x9c x00 x00 x00))))
(T (W x18 x00 x00 x00 x10 x00 x00 x00)
(T (W x00 x00 x00 x00 x00 x00 x00 x00)
(T (W x00 x00 x80 x3f x00 x00 x80 x3f)
(L (W x00 x00 x00 x00 x24 xed xff xff)) E)
(L (W x00 x00 x00 x00 x00 x00 x00 x00)))
(T (W x9c x82 xfd xff x10 x00 x00 x00)
(L (W x45 x26 x22 x84 xe4 x9c xf2 xcb))
(L (W x50 x00 x00 x00 x44 x00 x00 x00))))))
(T (W x00 x00 x00 x00 x00 x00 x00 x00)
(T (W x45 x26 x22 x84 xe4 x9c xf2 xcb)
(T (W x00 x00 x00 x00 x00 x00 x00 x00)
(T (W x00 x00 x80 x3f x00 x00 x80 x3f)
(T (W xb4 x9e xfd xff x00 x01 x01 x01)
(L (W xc6 x00 x00 x00 xff xff xff xff)) E)
(L (W x82 x9c xfe xff xa9 x01 x00 x00)))
(T (W x00 x00 x80 x3f x00 x00 x80 x3f)
(L (W x00 x00 x80 xbf x00 x00 x80 xbf))
(L (W xff xff xff xff xff xff xff xff))))
(T (W xff xff xff xff xff xff xff xff)
(T (W xff xff xff xff xff xff xff xff)
(T (W x00 x00 x80 x3f x00 x00 x80 x3f)
(L (W x00 x00 x80 xbf x00 x00 x80 xbf)) E)
(L (W x00 x00 x00 x00 x00 x00 x00 x00)))
(T (W x18 x00 x00 x00 x0c x00 x00 x00)
(L (W x45 x26 x22 x84 xe4 x9c xf2 xcb))
(L (W x00 x00 x00 x00 x24 x5d xff xff)))))
(T (W x9c x12 xfc xff x0d x00 x00 x00)
(T (W xff xff xff xff xff xff xff xff)
(T (W x45 x26 x22 x84 xe4 x9c xf2 xcb)
(T (W x2f x00 x00 x00 x10 x00 x00 x00)
(L (W x00 x00 x80 xbf x00 x00 x80 xbf)) E)
(L (W xff xff xff xff xff xff xff xff)))
(T (W x5f x4e x53 x5f x30 x33 x5f x43)
(L (W x00 x00 x00 x00 x00 x00 x00 x00))
(L (W x38 x00 x00 x00 x00 x00 x80 xbf))))
(T (W xea x79 xfc xff x74 x00 x00 x00)
(T (W x00 x00 x00 x00 x00 x00 x00 x00)
(T (W xff xff xff xff xff xff xff xff)
(L (W x00 x00 x80 xbf x00 x00 x80 xbf)) E)
(L (W x00 x00 x80 xbf x00 x00 x80 xbf)))
(T (W x00 x00 x80 x3f x00 x00 x80 x3f)
(L (W x00 x00 x00 x00 x00 x00 x00 x00))
(L (W x00 x00 x00 x00 xfa x7d xff xff))))))))
(T (W x00 x00 x80 x3f x00 x00 x80 x3f)
(T (W x00 x00 x80 x3f x00 x00 x80 x3f)
(T (W x45 x26 x22 x84 xe4 x9c xf2 xcb)
(T (W xb8 x00 x00 x00 xac x00 x00 x00)
(T (W x68 x00 x00 x00 x5c x00 x00 x00)
(T (W x1d x00 x00 x00 x10 x00 x00 x00)
(T (W x45 x26 x22 x84 xe4 x9c xf2 xcb)
(L (W x00 x00 x80 xbf x00 x00 x80 xbf)) E)
(L (W x00 x00 x80 xbf x00 x00 x80 xbf)))
(T (W xff xff xff xff xff xff xff xff)
(L (W x4f x84 x6f x8b xe8 xcb x63 xb7))
(L (W xff xff xff xff xff xff xff xff))))
(T (W x45 x26 x22 x84 xe4 x9c xf2 xcb)
(T (W xff xff xff xff xff xff xff xff)
(T (W x18 x00 x00 x00 x0c x00 x00 x00)
(L (W xff xff xff xff xff xff xff xff)) E)
(L (W x00 x00 x80 xbf x00 x00 x80 xbf)))
(T (W xff xff xff xff xbc x00 x00 x00)
(L (W xff xff xff xff xff xff xff xff))
(L (W xff xff xff xff xff xff xff xff)))))
(T (W x00 x00 x00 x00 x24 xe9 xfb xff)
(T (W x00 x00 x80 x3f x00 x00 x80 x3f)
(T (W x01 x00 x00 x00 xff xff xff xff)
(T (W xff xff xff xff xff xff xff xff)
(L (W x00 x00 x80 xbf x00 x00 x80 xbf)) E)
(L (W x00 x00 x00 x00 x00 x00 x00 x00)))
(T (W x00 x00 x00 x00 x00 x00 x00 x00)
(L (W xff xff xff xff xff xff xff xff))
(L (W x00 x00 x00 x00 x00 x00 x00 x00))))
(T (W x00 x00 x00 x00 x00 x00 x00 x00)
(T (W x00 x00 x80 x3f x00 x00 x80 x3f)
(T (W x00 x00 x00 x00 x24 xe9 xfd xff)
(L (W x00 x00 x00 x00 x00 x00 x00 x00)) E)
(L (W xff xff xff xff x9c x00 x00 x00)))
(T (W x00 x00 x80 x3f x00 x00 x80 x3f)
(L (W x1c x00 x00 x00 x10 x00 x00 x00))
(L (W x00 x00 x00 x00 x00 x00 x00 x00))))))
(T (W xb8 x00 x00 x00 xac x00 x00 x00)
(T (W x64 x00 x00 x00 x9c x00 x00 x00)
(T (W x00 x00 x80 x3f x00 x00 x80 x3f)
(T (W x1c x01 x00 x00 x04 x00 x00 x00)
(T (W x00 x00 x00 x00 x00 x00 x00 x00)
(L (W x00 x00 x80 xbf x00 x00 x80 xbf)) E)
(L (W x00 x00 x80 xbf x00 x00 x80 xbf)))
(T (W x74 x03 x00 x00 x4c x02 x00 x00)
(L (W xff xff xff xff xff xff xff xff))
(L (W x00 x00 x00 x00 x00 x00 x00 x00))))
(T (W x00 x00 x00 x00 x00 x00 x00 x00)
(T (W x00 x00 x00 x00 x00 x00 x00 x00)
(T (W x18 x01 x00 x00 x04 x00 x00 x00)
(L (W xff xff xff xff xff xff xff xff)) E)
(L (W x00 x00 x80 xbf x00 x00 x80 xbf)))
(T (W x00 x00 x00 x00 x00 x00 x00 x00)
(L (W xff xff xff xff xff xff xff xff))
(L (W x1d x00 x00 x00 x0c x00 x00 x00)))))
(T (W x40 x00 x00 x00 x9c x00 x00 x00)
(T (W x00 x00 x80 x3f x00 x00 x80 x3f)
(T (W xc0 x00 x00 x00 xb4 x00 x00 x00)
(T (W xff xff xff xff xff xff xff xff)
(L (W xff xff xff xff xb4 x00 x00 x00)) E)
(L (W x00 x00 x00 x00 x00 x00 x00 x00)))
(T (W x9a x37 xfd xff x78 x00 x00 x00)
(L (W xff xff xff xff xff xff xff xff))
(L (W xff xff xff xff xff xff xff xff))))
(T (W x00 x00 x00 x00 x00 x00 x00 x00)
(T (W xcc x00 x00 x00 x01 x00 x00 x00)
(T (W x68 x00 x00 x00 x5c x00 x00 x00)
(L (W x00 x00 x00 x00 x00 x00 x00 x00)) E)
(L (W xff xff xff xff xff xff xff xff)))
(T (W xff xff xff xff xff xff xff xff)
(L (W x1d x00 x00 x00 x20 x00 x00 x00))
(L (W x00 x00 x00 x00 x00 x00 x00 x00)))))))
(T (W x00 x00 x80 x3f x00 x00 x80 x3f)
(T (W xff xff xff xff xff xff xff xff)
(T (W xff xff xff xff x04 x00 x00 x00)
(T (W x9a x0f xfc xff x78 x00 x00 x00)
(T (W x00 x00 x00 x00 x52 xda xff xff)
(T (W x00 x00 x00 x00 x00 x00 x00 x00)
(L (W x49 xa1 x68 x4a xeb x5f xdd x3d)) E)
(L (W x00 x00 x80 xbf x00 x00 x80 xbf)))
(T (W x4b x00 x00 x00 xff xff xff xff)
(L (W x6c x00 x00 x00 x60 x00 x00 x00))
(L (W x00 x00 x00 x00 x00 x00 x00 x00))))
(T (W x00 x00 x80 x3f x00 x00 x80 x3f)
(T (W x00 x00 x00 x00 x02 x00 x00 x00)
(T (W xff xff xff xff xff xff xff xff)
(L (W xff xff xff xff xff xff xff xff)) E)
(L (W x00 x00 x80 xbf x00 x00 x80 xbf)))
(T (W xff xff xff xff xff xff xff xff)
(L (W xff xff xff xff xff xff xff xff))
(L (W x00 x00 x00 x00 xda x64 xff xff)))))
(T (W x18 x00 x00 x00 x0c x00 x00 x00)
(T (W x00 x00 x80 x3f x00 x00 x80 x3f)
(T (W xea xcb xfe xff x00 x00 x01 x01)
(T (W xff xff xff xff xff xff xff xff)
(L (W x18 x00 x00 x00 x0c x00 x00 x00)) E)
(L (W x00 x00 x00 x00 x00 x00 x00 x00)))
(T (W x00 x00 x80 x3f x00 x00 x80 x3f)
(L (W xc4 xfe xff xff x01 x01 x01 x01))
(L (W x00 x00 x00 x00 x12 x00 x00 x00))))
(T (W x00 x00 x00 x00 x00 x00 x00 x00)
(T (W x18 x00 x00 x00 x10 x00 x00 x00)
(T (W x6b x65 x5f x6c x76 x32 x5f x70)
(L (W x45 x44 x00 x00 x00 x00 x00 x00)) E)
(L (W xff xff xff xff xff xff xff xff)))
(T (W x45 x26 x22 x84 xe4 x9c xf2 xcb)
(L (W xb0 x00 x00 x00 x3c x00 x00 x00))
(L (W x46 x53 x59 x53 x5f x4e x53 x5f))))))
(T (W x45 x26 x22 x84 xe4 x9c xf2 xcb)
(T (W x64 x00 x00 x00 x9c x00 x00 x00)
(T (W x00 x00 x80 x3f x00 x00 x80 x3f)
(T (W xff xff xff xff x01 x00 x00 x00)
(T (W x00 x00 x00 x00 x02 x00 x00 x00)
(L (W x00 x00 x80 xbf x00 x00 x80 xbf)) E)
(L (W x00 x00 x00 x00 x00 x00 x00 x00)))
(T (W x4c x45 x41 x52 x45 x44 x00 x00)
(L (W x00 x00 x80 xbf x00 x00 x80 xbf))
(L (W x00 x00 x00 x00 x00 x00 x00 x00))))
(T (W x00 x00 x00 x00 x00 x00 x00 x00)
(T (W x45 x26 x22 x84 xe4 x9c xf2 xcb)
(T (W xff xff xff xff xff xff xff xff)
(L (W xc4 x00 x00 x00 x01 x00 x00 x00)) E)
(L (W x18 x00 x00 x00 x0c x00 x00 x00)))
(T (W x00 x00 x00 x00 x00 x00 x00 x00)
(L (W x14 x00 x00 x00 x0c x00 x00 x00))
(L (W x00 x00 x00 x00 x12 x00 x00 x00)))))
(T (W x01 x00 x00 x00 x21 x00 x00 x00)
(T (W x00 x00 x80 x3f x00 x00 x80 x3f)
(T (W xff xff xff xff xb0 x00 x00 x00)
(T (W x00 x00 x80 x3f x00 x00 x80 x3f)
(L (W xff xff xff xff xff xff xff xff)) E)
(L (W x00 x00 x80 xbf x00 x00 x80 xbf)))
(T (W x21 x00 x00 x00 x24 x00 x00 x00)
(L (W xff xff xff xff xff xff xff xff))
(L (W xff xff xff xff xff xff xff xff))))
(T (W x00 x00 x00 x00 x00 x00 x00 x00)
(T (W xb0 x00 x00 x00 x64 x00 x00 x00)
(T (W x00 x00 x00 x00 x00 x00 x00 x00)
(L (W xff xff xff xff xff xff xff xff)) E)
(L (W x62 x16 xff xff xaa x01 x00 x00)))
(T (W x04 x00 x00 x00 xfa x9e xff xff)
(L (W x1c x00 x00 x00 x10 x00 x00 x00))
(L (W x00 x00 x80 xbf x00 x00 x80 xbf)))))))))
(T (W x64 x00 x00 x00 x9c x00 x00 x00)
(T (W x00 x00 x00 x00 x00 x00 x00 x00)
(T (W xff xff xff xff xff xff xff xff)
(T (W x01 x00 x00 x00 x04 x00 x00 x00)
(T (W x00 x00 x80 x3f x00 x00 x80 x3f)
(T (W x45 x26 x22 x84 xe4 x9c xf2 xcb)
(T (W xff xff xff xff xff xff xff xff)
(T (W xff xff xff xff xff xff xff xff)
(L (W x00 x00 x00 x00 x00 x00 x00 x00)) E)
(L (W x00 x00 x80 xbf x00 x00 x80 xbf)))
(T (W x45 x26 x22 x84 xe4 x9c xf2 xcb)
(L (W xff xff xff xff xff xff xff xff))
(L (W x18 x00 x00 x00 x10 x00 x00 x00))))
(T (W x00 x00 x00 x00 x00 x00 x00 x00)
(T (W x50 x00 x00 x00 x44 x00 x00 x00)
(T (W x00 x00 x00 x00 x00 x00 x00 x00)
(L (W xff xff xff xff xff xff xff xff)) E)
(L (W x1b x00 x00 x00 x10 x00 x00 x00)))
(T (W x6c x00 x00 x00 x60 x00 x00 x00)
(L (W x00 x00 x00 x00 xb8 x48 xfe xff))
(L (W xff xff xff xff xff xff xff xff)))))
(T (W x50 x00 x00 x00 x44 x00 x00 x00)
(T (W x00 x00 x00 x00 x00 x00 x00 x00)
(T (W xff xff xff xff xff xff xff xff)
(T (W x45 x26 x22 x84 xe4 x9c xf2 xcb)
(L (W x00 x00 x00 x00 x00 x00 x00 x00)) E)
(L (W xff xff xff xff xff xff xff xff)))
(T (W x9c x01 x00 x00 xff xff xff xff)
(L (W x50 x00 x00 x00 x44 x00 x00 x00))
(L (W xff xff xff xff xff xff xff xff))))
(T (W xff xff xff xff xff xff xff xff)
(T (W x4f x84 x6f x8b xe8 xcb x63 xb7)
(T (W xff xff xff xff xff xff xff xff)
(L (W x45 x44 x00 x00 x00 x00 x00 x00)) E)
(L (W x00 x00 x80 xbf x00 x00 x80 xbf)))
(T (W x4c x45 x41 x52 x45 x44 x00 x00)
(L (W x44 x00 x00 x00 x00 x00 x80 xbf))
(L (W xff xff xff xff xff xff xff xff))))))
(T (W x50 x00 x00 x00 x44 x00 x00 x00)
(T (W x45 x26 x22 x84 xe4 x9c xf2 xcb)
(T (W x00 x00 x00 x00 x00 x00 x00 x00)
(T (W x18 x00 x00 x00 x0c x00 x00 x00)
(T (W xff xff xff xff xff xff xff xff)
(L (W x00 x00 x00 x00 x00 x00 x00 x00)) E)
(L (W x00 x00 x00 x00 x00 x00 x00 x00)))
(T (W xc4 x00 x00 x00 x01 x00 x00 x00)
(L (W x9a x15 xfe xff x78 x00 x00 x00))
(L (W xff xff xff xff xff xff xff xff))))
(T (W xd3 x01 x00 x00 xff xff xff xff)
(T (W xff xff xff xff xff xff xff xff)
(T (W xb4 xd8 xfd xff x00 x01 x01 x01)
(L (W x29 x00 x00 x00 x2c x00 x00 x00)) E)
(L (W x45 x26 x22 x84 xe4 x9c xf2 xcb)))
(T (W xb0 x00 x00 x00 x64 x00 x00 x00)
(L (W x45 x26 x22 x84 xe4 x9c xf2 xcb))
(L (W xff xff xff xff xff xff xff xff)))))
(T (W x00 x00 x80 x3f x00 x00 x80 x3f)
(T (W x00 x00 x00 x00 x00 x00 x00 x00)
(T (W x00 x00 x00 x00 x00 x00 x00 x00)
(T (W x00 x00 x80 x3f x00 x00 x80 x3f)
(L (W x00 x00 x80 xbf x00 x00 x80 xbf)) E)
(L (W x00 x00 x00 x00 x00 x00 x00 x00)))
(T (W x00 x00 x00 x00 x00 x00 x00 x00)
(L (W x45 x26 x22 x84 xe4 x9c xf2 xcb))
(L (W xc4 x00 x00 x00 x01 x00 x00 x00))))
(T (W x4c x00 x00 x00 xff xff xff xff)
(T (W x00 x00 x80 x3f x00 x00 x80 x3f)
(T (W xff xff xff xff x60 x01 x00 x00)
(L (W xea xf3 xff xff x74 x00 x00 x00)) E)
(L (W xea xf3 xfe xff x74 x00 x00 x00)))
(T (W xea x73 xfd xff x74 x00 x00 x00)
(L (W x00 x00 x80 xbf x00 x00 x80 xbf))
(L (W xff xff xff xff xff xff xff xff)))))))
(T (W xff xff xff xff xff xff xff xff)
(T (W x00 x00 x00 x00 x00 x00 x00 x00)
(T (W x00 x00 x80 x3f x00 x00 x80 x3f)
(T (W x00 x00 x00 x00 x00 x00 x00 x00)
(T (W xff xff xff xff x04 x00 x00 x00)
(T (W xea xa9 xff xff x00 x00 x01 x01)
(L (W x46 x53 x59 x53 x5f x4e x53 x5f)) E)
(L (W x00 x00 x00 x00 x00 x00 x00 x00)))
(T (W x00 x00 x00 x00 x24 x0f xfd xff)
(L (W x45 x26 x22 x84 xe4 x9c xf2 xcb))
(L (W xff xff xff xff xff xff xff xff))))
(T (W xd7 x9d xe6 x90 x39 xaf xa5 x5c)
(T (W x03 x00 x00 x00 xd0 x00 x00 x00)
(T (W x00 x00 x80 x3f x00 x00 x80 x3f)
(L (W x18 x00 x00 x00 x0c x00 x00 x00)) E)
(L (W x00 x00 x00 x00 x00 x00 x00 x00)))
(T (W xff xff xff xff xac x00 x00 x00)
(L (W x45 x26 x22 x84 xe4 x9c xf2 xcb))
(L (W x45 x26 x22 x84 xe4 x9c xf2 xcb)))))
(T (W x68 x00 x00 x00 x5c x00 x00 x00)
(T (W x45 x26 x22 x84 xe4 x9c xf2 xcb)
(T (W xff xff xff xff xff xff xff xff)
(T (W xb4 xb0 xfd xff x00 x01 x01 x01)
(L (W x00 x00 x80 xbf x00 x00 x80 xbf)) E)
(L (W x00 x00 x00 x00 xca xac xfe xff)))
(T (W x12 x00 x00 x00 x46 x53 x59 x53)
(L (W xff xff xff xff xff xff xff xff))
(L (W xff xff xff xff xff xff xff xff))))
(T (W xff xff xff xff xff xff xff xff)
(T (W x00 x00 x00 x00 x00 x00 x00 x00)
(T (W x41 x57 x4e x5f x50 x48 x49 x4f)
(L (W xff xff xff xff xff xff xff xff)) E)
(L (W x00 x00 x80 xbf x00 x00 x80 xbf)))
(T (W x00 x00 x80 x3f x00 x00 x80 x3f)
(L (W x50 x00 x00 x00 x44 x00 x00 x00))
(L (W xff xff xff xff xff xff xff xff))))))
(T (W x68 x00 x00 x00 x5c x00 x00 x00)
(T (W x00 x00 x80 x3f x00 x00 x80 x3f)
(T (W x00 x00 x00 x00 x00 x00 x00 x00)
(T (W xea x9b xfc xff x74 x00 x00 x00)
(T (W xff xff xff xff xff xff xff xff)
(L (W x45 x44 x00 x00 x00 x00 x00 x00)) E)
(L (W x00 x00 x00 x00 x00 x00 x00 x00)))
(T (W xff xff xff xff xff xff xff xff)
(L (W xff xff xff xff xff xff xff xff))
(L (W x00 x00 x00 x00 x00 x00 x00 x00))))
(T (W xff xff xff xff xff xff xff xff)
(T (W x24 x00 x00 x00 x10 x00 x00 x00)
(T (W x00 x00 x00 x00 x24 xdf xfd xff)
(L (W x54 x00 x00 x00 x48 x00 x00 x00)) E)
(L (W x00 x00 x80 xbf x00 x00 x80 xbf)))
(T (W xff xff xff xff xff xff xff xff)
(L (W x40 x00 x00 x00 x00 x00 x80 xbf))
(L (W xa3 x01 x00 x00 xff xff xff xff)))))
(T (W x00 x00 x80 x3f x00 x00 x80 x3f)
(T (W x00 x00 x00 x00 x00 x00 x00 x00)
(T (W x00 x00 x62 x00 x70 x00 x08 x00)
(T (W x00 x00 x00 x00 x00 x00 x00 x00)
(L (W x00 x00 x00 x00 xb8 xc0 xff xff)) E)
(L (W xe2 x00 x00 x00 xff xff xff xff)))
(T (W x00 x00 x80 x3f x00 x00 x80 x3f)
(L (W xea x3b xfe xff x74 x00 x00 x00))
(L (W xff xff xff xff xac x00 x00 x00))))
(T (W xff xff xff xff xff xff xff xff)
(T (W x68 x00 x00 x00 x5c x00 x00 x00)
(T (W x00 x00 x00 x00 x00 x00 x00 x00)
(L (W x00 x00 x00 x00 x00 x00 x00 x00)) E)
(L (W x9a xfd xfe xff x78 x00 x00 x00)))
(T (W x00 x00 x00 x00 x24 x7f xfd xff)
(L (W x00 x00 x80 xbf x00 x00 x80 xbf))
(L (W x00 x00 x00 x00 x12 x00 x00 x00))))))))
(T (W x76 x31 x5f x66 x69 x73 x68 x5f)
(T (W xea x97 xfb xff x74 x00 x00 x00)
(T (W xff xff xff xff xff xff xff xff)
(T (W x00 x00 x00 x00 x00 x00 x00 x00)
(T (W xff xff xff xff xff xff xff xff)
(T (W x45 x26 x22 x84 xe4 x9c xf2 xcb)
(T (W x68 x00 x00 x00 x5c x00 x00 x00)
(L (W x00 x00 x00 x00 x24 x8b xff xff)) E)
(L (W xff xff xff xff xff xff xff xff)))
(T (W x44 x10 xfd xff x15 x00 x00 x00)
(L (W xff xff xff xff xb0 x00 x00 x00))
(L (W x00 x00 x00 x00 x00 x00 x00 x00))))
(T (W x45 x26 x22 x84 xe4 x9c xf2 xcb)
(T (W x46 x53 x59 x53 x5f x4e x53 x5f)
(T (W xa1 xbd x33 x97 x85 xaa x5f x5f)
(L (W x4f x84 x6f x8b xe8 xcb x63 xb7)) E)
(L (W x00 x00 x00 x00 x24 xcb xfe xff)))
(T (W x4c x45 x41 x52 x45 x44 x00 x00)
(L (W x00 x00 x00 x00 x02 x00 x00 x00))
(L (W x00 x00 x00 x00 x00 x00 x00 x00)))))
(T (W xff xff xff xff xff xff xff xff)
(T (W xb8 x00 x00 x00 xac x00 x00 x00)
(T (W x00 x00 x00 x00 x00 x00 x00 x00)
(T (W x00 x00 x00 x00 x00 x00 x00 x00)
(L (W x18 x00 x00 x00 x10 x00 x00 x00)) E)
(L (W x00 x00 x80 xbf x00 x00 x80 xbf)))
(T (W x00 x00 x00 x00 x24 x2b xfd xff)
(L (W x00 x00 x00 x00 x00 x00 x00 x00))
(L (W x38 x00 x00 x00 x00 x00 x80 xbf))))
(T (W x00 x00 x80 x3f x00 x00 x80 x3f)
(T (W xff xff xff xff xff xff xff xff)
(T (W x00 x00 x00 x00 x00 x00 x00 x00)
(L (W x62 x00 x00 x00 xb0 x01 x00 x00)) E)
(L (W x45 x44 x00 x00 x00 x00 x00 x00)))
(T (W xff xff xff xff xff xff xff xff)
(L (W x34 x01 x00 x00 x04 x00 x00 x00))
(L (W x00 x00 x80 xbf x00 x00 x80 xbf))))))
(T (W x68 xab xef x51 x22 x6e x26 xaf)
(T (W xff xff xff xff xff xff xff xff)
(T (W xb8 x00 x00 x00 xac x00 x00 x00)
(T (W x00 x00 x00 x00 x00 x00 x00 x00)
(T (W x00 x00 x80 x3f x00 x00 x80 x3f)
(L (W x18 x00 x00 x00 x10 x00 x00 x00)) E)
(L (W xff xff xff xff xff xff xff xff)))
(T (W x45 x26 x22 x84 xe4 x9c xf2 xcb)
(L (W x9d x72 x6c x12 x83 xfd x3a xc6))
(L (W x18 x00 x00 x00 x10 x00 x00 x00))))
(T (W x00 x00 x80 x3f x00 x00 x80 x3f)
(T (W x00 x00 x80 x3f x00 x00 x80 x3f)
(T (W x00 x00 x00 x00 x00 x00 x00 x00)
(L (W x00 x00 x00 x00 x00 x00 x00 x00)) E)
(L (W xb8 x00 x00 x00 x64 x00 x00 x00)))
(T (W x4f x84 x6f x8b xe8 xcb x63 xb7)
(L (W x00 x00 x00 x00 x00 x00 x00 x00))
(L (W x00 x00 x80 xbf x00 x00 x80 xbf)))))
(T (W xff xff xff xff xff xff xff xff)
(T (W x68 x00 x00 x00 x5c x00 x00 x00)
(T (W x00 x00 x00 x00 x00 x00 x00 x00)
(T (W x00 x00 x80 x3f x00 x00 x80 x3f)
(L (W x00 x00 x00 x00 x12 x00 x00 x00)) E)
(L (W x00 x00 x80 xbf x00 x00 x80 xbf)))
(T (W xff xff xff xff xff xff xff xff)
(L (W x00 x00 x00 x00 x00 x00 x00 x00))
(L (W x00 x00 x00 x00 x00 x00 x00 x00))))
(T (W x00 x00 x00 x00 x00 x00 x00 x00)
(T (W xff xff xff xff xff xff xff xff)
(T (W x00 x00 x00 x00 x00 x00 x00 x00)
(L (W x82 xfa xff xff xc6 x00 x00 x00)) E)
(L (W x00 x00 x00 x00 x00 x00 x00 x00)))
(T (W x13 x00 x00 x00 x0c x00 x00 x00)
(L (W xff xff xff xff xff xff xff xff))
(L (W x00 x00 x00 x00 x00 x00 x00 x00)))))))
(T (W x5f x77 x69 x6c x64 x5f x70 x6f)
(T (W x00 x00 x00 x00 x00 x00 x00 x00)
(T (W x20 x01 x00 x00 x04 x00 x00 x00)
(T (W xff xff xff xff xff xff xff xff)
(T (W x00 x00 x80 x3f x00 x00 x80 x3f)
(T (W x00 x00 x80 x3f x00 x00 x80 x3f)
(L (W xff xff xff xff xb0 x00 x00 x00)) E)
(L (W xff xff xff xff xff xff xff xff)))
(T (W x00 x00 x00 x00 x12 x00 x00 x00)
(L (W xff xff xff xff xff xff xff xff))
(L (W x54 x00 x00 x00 x48 x00 x00 x00))))
(T (W x18 x00 x00 x00 x0c x00 x00 x00)
(T (W x00 x00 x00 x00 x00 x00 x00 x00)
(T (W x00 x00 x00 x00 x00 x00 x00 x00)
(L (W x00 x00 x00 x00 x00 x00 x00 x00)) E)
(L (W x18 x00 x00 x00 x0c x00 x00 x00)))
(T (W x00 x00 x00 x00 x00 x00 x00 x00)
(L (W x00 x00 x00 x00 x00 x00 x00 x00))
(L (W x00 x00 x00 x00 x00 x00 x00 x00)))))
(T (W xff xff xff xff xff xff xff xff)
(T (W x45 x26 x22 x84 xe4 x9c xf2 xcb)
(T (W x00 x00 x00 x00 x00 x00 x00 x00)
(T (W x00 x00 x00 x00 x02 x00 x00 x00)
(L (W x62 xc8 xff xff x64 x01 x00 x00)) E)
(L (W x00 x00 x80 xbf x00 x00 x80 xbf)))
(T (W xc8 x00 x00 x00 x01 x00 x00 x00)
(L (W x01 x00 x00 x00 x04 x00 x00 x00))
(L (W x00 x00 x00 x00 x00 x00 x00 x00))))
(T (W x45 x26 x22 x84 xe4 x9c xf2 xcb)
(T (W xff xff xff xff xff xff xff xff)
(T (W xff xff xff xff xff xff xff xff)
(L (W xff xff xff xff xff xff xff xff)) E)
(L (W x00 x00 x00 x00 x00 x00 x00 x00)))
(T (W x1a x7f xfd xff x9d x01 x00 x00)
(L (W xff xff xff xff xff xff xff xff))
(L (W x00 x00 x80 xbf x00 x00 x80 xbf))))))
(T (W xea xdd xfd xff x00 x00 x01 x01)
(T (W x00 x00 x00 x00 x02 x00 x00 x00)
(T (W xff xff xff xff xff xff xff xff)
(T (W x00 x00 x00 x00 x00 x00 x00 x00)
(T (W x00 x00 x00 x00 x00 x00 x00 x00)
(L (W x18 x00 x00 x00 x0c x00 x00 x00)) E)
(L (W x54 x00 x00 x00 x48 x00 x00 x00)))
(T (W x00 x00 x80 x3f x00 x00 x80 x3f)
(L (W xff xff xff xff xff xff xff xff))
(L (W x00 x00 x80 xbf x00 x00 x80 xbf))))
(T (W x54 x00 x00 x00 x48 x00 x00 x00)
(T (W x45 x26 x22 x84 xe4 x9c xf2 xcb)
(T (W x00 x00 x80 x3f x00 x00 x80 x3f)
(L (W x30 x05 x00 x00 x18 x04 x00 x00)) E)
(L (W x34 x01 x00 x00 x04 x00 x00 x00)))
(T (W x00 x00 x80 x3f x00 x00 x80 x3f)
(L (W x00 x00 x00 x00 x00 x00 x00 x00))
(L (W x00 x00 x80 xbf x00 x00 x80 xbf)))))
(T (W xff xff xff xff xff xff xff xff)
(T (W xb4 x44 xfc xff x00 x01 x01 x01)
(T (W xa6 x01 x00 x00 xff xff xff xff)
(T (W xb8 x00 x00 x00 xac x00 x00 x00)
(L (W xff xff xff xff xff xff xff xff)) E)
(L (W x6c x00 x00 x00 x60 x00 x00 x00)))
(T (W xff xff xff xff xff xff xff xff)
(L (W x00 x00 x00 x00 x00 x00 x00 x00))
(L (W x46 x53 x59 x53 x5f x4e x53 x5f))))
(T (W x45 x26 x22 x84 xe4 x9c xf2 xcb)
(T (W x45 x44 x00 x00 x00 x00 x00 x00)
(T (W xff xff xff xff xff xff xff xff)
(L (W x45 x26 x22 x84 xe4 x9c xf2 xcb)) E)
(L (W x00 x00 x00 x00 x00 x00 x00 x00)))
(T (W x00 x00 x00 x00 x00 x00 x00 x00)
(L (W xff xff xff xff xff xff xff xff))
(L (W x18 x00 x00 x00 x0c x00 x00 x00))))))))))
(T (W xe0 x90 x01 x00 x3c x8c x01 x00)
(T (W x80 x4e x00 x00 x44 x4d x00 x00)
(T (W x9c xa3 xfb xff x3e x00 x00 x00)
(T (W x68 x00 x00 x00 x5c x00 x00 x00)
(T (W xff xff xff xff xff xff xff xff)
(T (W x45 x26 x22 x84 xe4 x9c xf2 xcb)
(T (W x00 x00 x00 x00 x00 x00 x00 x00)
(T (W x18 x00 x00 x00 x0c x00 x00 x00)
(T (W xff xff xff xff xff xff xff xff)
(L (W x45 x44 x00 x00 x00 x00 x00 x00)) E)
(L (W x00 x00 x00 x00 x00 x00 x00 x00)))
(T (W x00 x00 x80 x3f x00 x00 x80 x3f)
(L (W x6c x00 x00 x00 x60 x00 x00 x00))
(L (W x54 x00 x00 x00 x48 x00 x00 x00))))
(T (W xad x00 x00 x00 xff xff xff xff)
(T (W x00 x00 x80 x3f x00 x00 x80 x3f)
(T (W x44 xcb xfd xff x20 x00 x00 x00)
(L (W xff xff xff xff xa8 x00 x00 x00)) E)
(L (W xff xff xff xff xff xff xff xff)))
(T (W x00 x00 x80 x3f x00 x00 x80 x3f)
(L (W x00 x00 x80 xbf x00 x00 x80 xbf))
(L (W x68 x00 x00 x00 x5c x00 x00 x00)))))
(T (W x00 x00 x80 x3f x00 x00 x80 x3f)
(T (W x00 x00 x00 x00 x00 x00 x00 x00)
(T (W x00 x00 x80 x3f x00 x00 x80 x3f)
(T (W xb4 xa7 xfd xff x00 x01 x01 x01)
(L (W x7e x00 x00 x00 xff xff xff xff)) E)
(L (W xff xff xff xff xff xff xff xff)))
(T (W xff xff xff xff xff xff xff xff)
(L (W x45 x26 x22 x84 xe4 x9c xf2 xcb))
(L (W xb0 x00 x00 x00 x14 x00 x00 x00))))
(T (W xff xff xff xff xff xff xff xff)
(T (W x44 xeb xfc xff x15 x00 x00 x00)
(T (W x50 x00 x00 x00 x44 x00 x00 x00)
(L (W xff xff xff xff xff xff xff xff)) E)
(L (W x00 x00 x80 xbf x00 x00 x80 xbf)))
(T (W x9c x01 x00 x00 xff xff xff xff)
(L (W x00 x00 x80 xbf x00 x00 x80 xbf))
(L (W xff xff xff xff xff xff xff xff))))))
(T (W x00 x00 x80 x3f x00 x00 x80 x3f)
(T (W x00 x00 x00 x00 x00 x00 x00 x00)
(T (W x00 x00 x00 x00 x00 x00 x00 x00)
(T (W x00 x00 x80 x3f x00 x00 x80 x3f)
(T (W xff xff xff xff xff xff xff xff)
(L (W x00 x00 x00 x00 xca x93 xff xff)) E)
(L (W x00 x00 x00 x00 x00 x00 x00 x00)))
(T (W x18 x00 x00 x00 x10 x00 x00 x00)
(L (W x00 x00 x80 x3f x00 x00 x80 x3f))
(L (W xff xff xff xff xff xff xff xff))))
(T (W xff xff xff xff xff xff xff xff)
(T (W xff xff xff xff xff xff xff xff)
(T (W x00 x00 x80 x3f x00 x00 x80 x3f)
(L (W x00 x00 x00 x00 xb8 xd7 xff xff)) E)
(L (W x00 x00 x00 x00 x00 x00 x00 x00)))
(T (W xb4 x57 xfd xff x00 x01 x01 x01)
(L (W x45 x26 x22 x84 xe4 x9c xf2 xcb))
(L (W x00 x00 x00 x00 x24 x56 xff xff)))))
(T (W x45 x26 x22 x84 xe4 x9c xf2 xcb)
(T (W x00 x00 x00 x00 x00 x00 x00 x00)
(T (W x18 x00 x00 x00 x0c x00 x00 x00)
(T (W x00 x00 x80 x3f x00 x00 x80 x3f)
(L (W x49 xa1 x68 x4a xeb x5f xdd x3d)) E)
(L (W xff xff xff xff xff xff xff xff)))
(T (W x00 x00 x00 x00 x00 x00 x00 x00)
(L (W x00 x00 x80 xbf x00 x00 x80 xbf))
(L (W xa0 x00 x00 x00 x64 x00 x00 x00))))
(T (W xff xff xff xff x03 x00 x00 x00)
(T (W x45 x26 x22 x84 xe4 x9c xf2 xcb)
(T (W x00 x00 x00 x00 x00 x00 x00 x00)
(L (W x00 x00 x80 xbf x00 x00 x80 xbf)) E)
(L (W x00 x00 x80 xbf x00 x00 x80 xbf)))
(T (W x45 x26 x22 x84 xe4 x9c xf2 xcb)
(L (W x00 x00 x80 xbf x00 x00 x80 xbf))
(L (W xff xff xff xff xff xff xff xff)))))))
(T (W xb4 x9f xfb xff x00 x01 x01 x01)
(T (W x00 x00 x00 x00 x00 x00 x00 x00)
(T (W x00 x00 x00 x00 x00 x00 x00 x00)
(T (W x9c x23 xfc xff x29 x00 x00 x00)
(T (W xea x8a xfc xff x74 x00 x00 x00)
(T (W xff xff xff xff xff xff xff xff)
(L (W x62 xa3 xff xff x6d x01 x00 x00)) E)
(L (W x00 x00 x00 x00 x12 x00 x00 x00)))
(T (W x00 x00 x80 x3f x00 x00 x80 x3f)
(L (W x00 x00 x00 x00 x00 x00 x00 x00))
(L (W x18 x00 x00 x00 x10 x00 x00 x00))))
(T (W xff xff xff xff xff xff xff xff)
(T (W x68 x00 x00 x00 x5c x00 x00 x00)
(T (W x00 x00 x80 x3f x00 x00 x80 x3f)
(L (W x00 x00 x00 x00 x24 xce xff xff)) E)
(L (W x00 x00 x00 x00 x06 x00 x00 x00)))
(T (W x00 x00 x80 x3f x00 x00 x80 x3f)
(L (W x00 x00 x80 xbf x00 x00 x80 xbf))
(L (W x54 x00 x00 x00 x48 x00 x00 x00)))))
(T (W x45 x26 x22 x84 xe4 x9c xf2 xcb)
(T (W x00 x00 x00 x00 x00 x00 x00 x00)
(T (W x45 x26 x22 x84 xe4 x9c xf2 xcb)
(T (W x00 x00 x80 x3f x00 x00 x80 x3f)
(L (W x00 x00 x80 xbf x00 x00 x80 xbf)) E)
(L (W xff xff xff xff xff xff xff xff)))
(T (W x04 x00 x00 x00 xaa x3b xfd xff)
(L (W xff xff xff xff xff xff xff xff))
(L (W x03 x00 x00 x00 xd0 x00 x00 x00))))
(T (W xff xff xff xff xff xff xff xff)
(T (W x00 x00 x00 x00 x12 x00 x00 x00)
(T (W xff xff xff xff xff xff xff xff)
(L (W x18 x00 x00 x00 x0c x00 x00 x00)) E)
(L (W x00 x00 x80 xbf x00 x00 x80 xbf)))
(T (W x4f x84 x6f x8b xe8 xcb x63 xb7)
(L (W x00 x00 x80 xbf x00 x00 x80 xbf))
(L (W xc4 x00 x00 x00 x01 x00 x00 x00))))))
(T (W x00 x00 x80 x3f x00 x00 x80 x3f)
(T (W x00 x00 x80 x3f x00 x00 x80 x3f)
(T (W x00 x00 x00 x00 x00 x00 x00 x00)
(T (W x68 x00 x00 x00 x5c x00 x00 x00)
(T (W x45 x26 x22 x84 xe4 x9c xf2 xcb)
(L (W xff xff xff xff xff xff xff xff)) E)
(L (W x30 x33 x5f x43 x4c x45 x41 x52)))
(T (W xff xff xff xff xb0 x00 x00 x00)
(L (W xea x1a xfe xff x74 x00 x00 x00))
(L (W xff xff xff xff xff xff xff xff))))
(T (W xff xff xff xff xff xff xff xff)
(T (W xff xff xff xff xff xff xff xff)
(T (W xea xda xfd xff x74 x00 x00 x00)
(L (W x00 x00 x80 xbf x00 x00 x80 xbf)) E)
(L (W x00 x00 x00 x00 x00 x00 x00 x00)))
(T (W xff xff xff xff xff xff xff xff)
(L (W x00 x00 x80 xbf x00 x00 x80 xbf))
(L (W xff xff xff xff xff xff xff xff)))))
(T (W x00 x00 x00 x00 x00 x00 x00 x00)
(T (W x8e x18 x2b x0c xd2 x19 xed x4d)
(T (W xff xff xff xff xff xff xff xff)
(T (W x00 x00 x00 x00 x00 x00 x00 x00)
(L (W x50 x00 x00 x00 x44 x00 x00 x00)) E)
(L (W xff xff xff xff xff xff xff xff)))
(T (W x00 x00 x00 x00 x00 x00 x00 x00)
(L (W x00 x00 x80 xbf x00 x00 x80 xbf))
(L (W x6c x00 x00 x00 x60 x00 x00 x00))))
(T (W xff xff xff xff xff xff xff xff)
(T (W x00 x00 x80 x3f x00 x00 x80 x3f)
(T (W xff xff xff xff xff xff xff xff)
(L (W xff xff xff xff xff xff xff xff)) E)
(L (W x00 x00 x80 xbf x00 x00 x80 xbf)))
(T (W x00 x00 x80 x3f x00 x00 x80 x3f)
(L (W x00 x00 x00 x00 x00 x00 x00 x00))
(L (W x00 x00 x00 x00 x00 x00 x00 x00))))))))
(T (W xdc x00 x00 x00 xac x00 x00 x00)
(T (W x00 x00 x80 x3f x00 x00 x80 x3f)
(T (W x00 x00 x80 x3f x00 x00 x80 x3f)
(T (W xff xff xff xff xff xff xff xff)
(T (W xff xff xff xff xff xff xff xff)
(T (W x00 x00 x00 x00 x00 x00 x00 x00)
(T (W x00 x00 x80 x3f x00 x00 x80 x3f)
(L (W x00 x00 x80 xbf x00 x00 x80 xbf)) E)
(L (W x00 x00 x00 x00 x24 x8a xfe xff)))
(T (W xff xff xff xff xff xff xff xff)
(L (W x00 x00 x80 x3f x00 x00 x80 x3f))
(L (W xc2 x41 x54 x1d xca xa3 x99 xfd))))
(T (W xea x46 xfc xff x74 x00 x00 x00)
(T (W x2c x01 x00 x00 x04 x00 x00 x00)
(T (W x64 x00 x00 x00 x9c x00 x00 x00)
(L (W x20 x39 x45 xdc x00 xd4 x55 x2f)) E)
(L (W x00 x00 x80 xbf x00 x00 x80 xbf)))
(T (W x02 x00 x00 x00 xff xff xff xff)
(L (W xff xff xff xff xff xff xff xff))
(L (W xaf x01 x00 x00 xff xff xff xff)))))
(T (W xff xff xff xff xff xff xff xff)
(T (W x68 x00 x00 x00 x5c x00 x00 x00)
(T (W x9c xbf xfc xff x3e x00 x00 x00)
(T (W x00 x00 x00 x00 x02 x00 x00 x00)
(L (W x54 x00 x00 x00 x48 x00 x00 x00)) E)
(L (W x00 x00 x00 x00 x00 x00 x00 x00)))
(T (W x00 x00 x80 x3f x00 x00 x80 x3f)
(L (W x2d x00 x00 x00 x10 x00 x00 x00))
(L (W x00 x00 x80 xbf x00 x00 x80 xbf))))
(T (W x00 x00 x00 x00 x00 x00 x00 x00)
(T (W x00 x00 x00 x00 x24 xea xfc xff)
(T (W xff xff xff xff xff xff xff xff)
(L (W x00 x00 x80 xbf x00 x00 x80 xbf)) E)
(L (W xff xff xff xff xff xff xff xff)))
(T (W x50 x00 x00 x00 x44 x00 x00 x00)
(L (W xff xff xff xff xff xff xff xff))
(L (W x4f x84 x6f x8b xe8 xcb x63 xb7))))))
(T (W xff xff xff xff xff xff xff xff)
(T (W xff xff xff xff xff xff xff xff)
(T (W x18 x00 x00 x00 x0c x00 x00 x00)
(T (W x00 x00 x00 x00 x00 x00 x00 x00)
(T (W x00 x00 x00 x00 x00 x00 x00 x00)
(L (W x6c x00 x00 x00 x60 x00 x00 x00)) E)
(L (W x58 x00 x00 x00 x4c x00 x00 x00)))
(T (W x00 x00 x00 x00 x00 x00 x00 x00)
(L (W xff xff xff xff xff xff xff xff))
(L (W x54 x00 x00 x00 x48 x00 x00 x00))))
(T (W x00 x00 x80 x3f x00 x00 x80 x3f)
(T (W x45 x26 x22 x84 xe4 x9c xf2 xcb)
(T (W x00 x00 x00 x00 x00 x00 x00 x00)
(L (W xff xff xff xff xff xff xff xff)) E)
(L (W xb4 xdb xfe xff x00 x01 x01 x01)))
(T (W x00 x00 x00 x00 x00 x00 x00 x00)
(L (W xa9 x01 x00 x00 xff xff xff xff))
(L (W x00 x00 x00 x00 x00 x00 x00 x00)))))
(T (W xff xff xff xff x03 x00 x00 x00)
(T (W x50 x00 x00 x00 x44 x00 x00 x00)
(T (W x4c x00 x00 x00 x50 x00 x54 x00)
(T (W x72 x64 x5f x6c x76 x31 x00 x00)
(L (W x34 x01 x00 x00 x04 x00 x00 x00)) E)
(L (W x49 xa1 x68 x4a xeb x5f xdd x3d)))
(T (W x18 x00 x00 x00 x0c x00 x00 x00)
(L (W x00 x00 x00 x00 x00 x00 x00 x00))
(L (W x00 x00 x00 x00 xca x37 xff xff))))
(T (W x00 x00 x00 x00 x00 x00 x00 x00)
(T (W xff xff xff xff xff xff xff xff)
(T (W x00 x00 x00 x00 x00 x00 x00 x00)
(L (W xff xff xff xff xa0 x00 x00 x00)) E)
(L (W x74 x03 x00 x00 x4c x02 x00 x00)))
(T (W xff xff xff xff xff xff xff xff)
(L (W xff xff xff xff xff xff xff xff))
(L (W x00 x00 x00 x00 x12 x00 x00 x00)))))))
(T (W xff xff xff xff xff xff xff xff)
(T (W xea xcc xfd xff x00 x00 x01 x01)
(T (W xff xff xff xff xff xff xff xff)
(T (W x45 x26 x22 x84 xe4 x9c xf2 xcb)
(T (W x00 x00 x00 x00 x00 x00 x00 x00)
(T (W x45 x26 x22 x84 xe4 x9c xf2 xcb)
(L (W x00 x00 x80 xbf x00 x00 x80 xbf)) E)
(L (W x1c x00 x00 x00 x1f x00 x00 x00)))
(T (W x00 x00 x00 x00 x00 x00 x00 x00)
(L (W x18 x00 x00 x00 x0c x00 x00 x00))
(L (W x00 x00 x00 x00 x00 x00 x00 x00))))
(T (W x00 x00 x80 x3f x00 x00 x80 x3f)
(T (W x00 x00 x00 x00 x12 x00 x00 x00)
(T (W x00 x00 x00 x00 x02 x00 x00 x00)
(L (W x71 x00 x00 x00 xff xff xff xff)) E)
(L (W x6c x00 x00 x00 x60 x00 x00 x00)))
(T (W x00 x00 x00 x00 x00 x00 x00 x00)
(L (W xff xff xff xff xff xff xff xff))
(L (W x00 x00 x00 x00 x00 x00 x00 x00)))))
(T (W x64 x00 x00 x00 x9c x00 x00 x00)
(T (W x00 x00 x80 x3f x00 x00 x80 x3f)
(T (W x00 x00 x00 x00 x00 x00 x00 x00)
(T (W xff xff xff xff xff xff xff xff)
(L (W xff xff xff xff xff xff xff xff)) E)
(L (W x45 x26 x22 x84 xe4 x9c xf2 xcb)))
(T (W x00 x00 x80 x3f x00 x00 x80 x3f)
(L (W xff xff xff xff xff xff xff xff))
(L (W x00 x00 x00 x00 x00 x00 x00 x00))))
(T (W x00 x00 x00 x00 x00 x00 x00 x00)
(T (W xc4 x00 x00 x00 x01 x00 x00 x00)
(T (W x49 xa1 x68 x4a xeb x5f xdd x3d)
(L (W x00 x00 x00 x00 x00 x00 x00 x00)) E)
(L (W x00 x00 x00 x00 x00 x00 x00 x00)))
(T (W xff xff xff xff xff xff xff xff)
(L (W xff xff xff xff xff xff xff xff))
(L (W x00 x00 x00 x00 x00 x00 x00 x00))))))
(T (W xff xff xff xff xff xff xff xff)
(T (W xff xff xff xff xff xff xff xff)
(T (W xea x1e xfc xff x74 x00 x00 x00)
(T (W x00 x00 x00 x00 x00 x00 x00 x00)
(T (W x00 x00 x00 x00 x00 x00 x00 x00)
(L (W x00 x00 x00 x00 x24 xa2 xff xff)) E)
(L (W x00 x00 x00 x00 x00 x00 x00 x00)))
(T (W x00 x00 x00 x00 x00 x00 x00 x00)
(L (W x45 x26 x22 x84 xe4 x9c xf2 xcb))
(L (W x45 x26 x22 x84 xe4 x9c xf2 xcb))))
(T (W x45 x26 x22 x84 xe4 x9c xf2 xcb)
(T (W x54 x00 x00 x00 x48 x00 x00 x00)
(T (W xe4 x01 x00 x00 x68 x00 x00 x00)
(L (W xff xff xff xff xff xff xff xff)) E)
(L (W xff xff xff xff xff xff xff xff)))
(T (W x4f x84 x6f x8b xe8 xcb x63 xb7)
(L (W xff xff xff xff xff xff xff xff))
(L (W x00 x00 x00 x00 x00 x00 x00 x00)))))
(T (W xff xff xff xff xff xff xff xff)
(T (W x68 x00 x00 x00 x5c x00 x00 x00)
(T (W xff xff xff xff xff xff xff xff)
(T (W x18 x00 x00 x00 x0c x00 x00 x00)
(L (W xff xff xff xff xff xff xff xff)) E)
(L (W x00 x00 x80 xbf x00 x00 x80 xbf)))
(T (W xff xff xff xff xff xff xff xff)
(L (W xff xff xff xff xff xff xff xff))
(L (W x00 x00 x00 x00 x00 x00 x00 x00))))
(T (W x00 x00 x00 x00 x00 x00 x00 x00)
(T (W xff xff xff xff xff xff xff xff)
(T (W x00 x00 x80 x3f x00 x00 x80 x3f)
(L (W x00 x00 x00 x00 x00 x00 x00 x00)) E)
(L (W x46 x53 x59 x53 x5f x4e x53 x5f)))
(T (W x00 x00 x00 x00 x00 x00 x00 x00)
(L (W xff xff xff xff xb0 x00 x00 x00))
(L (W x00 x00 x80 xbf x00 x00 x80 xbf)))))))))
(T (W xff xff xff xff x04 x00 x00 x00)
(T (W x45 x26 x22 x84 xe4 x9c xf2 xcb)
(T (W x6c x76 x31 x5f x66 x69 x73 x68)
(T (W x00 x00 x00 x00 x00 x00 x00 x00)
(T (W x18 x00 x00 x00 x0c x00 x00 x00)
(T (W x00 x00 x80 x3f x00 x00 x80 x3f)
(T (W xff xff xff xff xff xff xff xff)
(T (W x5f x77 x69 x6c x64 x5f x70 x6f)
(L (W x00 x00 x80 xbf x00 x00 x80 xbf)) E)
(L (W x00 x00 x80 xbf x00 x00 x80 xbf)))
(T (W xff xff xff xff xc4 x00 x00 x00)
(L (W x77 x61 x72 x6c x69 x6b x65 x5f))
(L (W xcc x00 x00 x00 x02 x00 x00 x00))))
(T (W x00 x00 x00 x00 x00 x00 x00 x00)
(T (W xc0 x00 x00 x00 x01 x00 x00 x00)
(T (W x00 x00 x00 x00 x00 x00 x00 x00)
(L (W xff xff xff xff xff xff xff xff)) E)
(L (W x4f x84 x6f x8b xe8 xcb x63 xb7)))
(T (W x45 x26 x22 x84 xe4 x9c xf2 xcb)
(L (W xff xff xff xff x8c x00 x00 x00))
(L (W xff xff xff xff xff xff xff xff)))))
(T (W xea xe4 xfb xff x74 x00 x00 x00)
(T (W x45 x26 x22 x84 xe4 x9c xf2 xcb)
(T (W xff xff xff xff xff xff xff xff)
(T (W xff xff xff xff xff xff xff xff)
(L (W x49 xa1 x68 x4a xeb x5f xdd x3d)) E)
(L (W x00 x00 x00 x00 x00 x00 x00 x00)))
(T (W x4c x45 x41 x52 x45 x44 x00 x00)
(L (W xb0 x00 x00 x00 x64 x00 x00 x00))
(L (W x00 x00 x00 x00 x00 x00 x00 x00))))
(T (W x7a x81 xfe xff x71 x00 x00 x00)
(T (W x00 x00 x80 x3f x00 x00 x80 x3f)
(T (W x13 xe7 x95 x5d x28 x75 xc0 x65)
(L (W x00 x00 x00 x00 x00 x00 x00 x00)) E)
(L (W x6c x00 x00 x00 x60 x00 x00 x00)))
(T (W x00 x00 x00 x00 x00 x00 x00 x00)
(L (W x45 x26 x22 x84 xe4 x9c xf2 xcb))
(L (W x00 x00 x00 x00 xca x65 xff xff))))))
(T (W x68 x00 x00 x00 x5c x00 x00 x00)
(T (W x00 x00 x80 x3f x00 x00 x80 x3f)
(T (W x45 x26 x22 x84 xe4 x9c xf2 xcb)
(T (W xff xff xff xff xff xff xff xff)
(T (W x00 x00 x01 x01 xa7 x01 x00 x00)
(L (W x00 x00 x80 xbf x00 x00 x80 xbf)) E)
(L (W x00 x00 x80 xbf x00 x00 x80 xbf)))
(T (W xff xff xff xff xff xff xff xff)
(L (W xff xff xff xff xa0 x00 x00 x00))
(L (W x00 x00 x00 x00 x00 x00 x00 x00))))
(T (W x00 x00 x00 x00 x00 x00 x00 x00)
(T (W xaf xeb xd0 xb1 x50 x46 x6f x78)
(T (W x45 x26 x22 x84 xe4 x9c xf2 xcb)
(L (W xcc x00 x00 x00 x01 x00 x00 x00)) E)
(L (W x00 x00 x80 xbf x00 x00 x80 xbf)))
(T (W xff xff xff xff xff xff xff xff)
(L (W xff xff xff xff xc4 x00 x00 x00))
(L (W xff xff xff xff xff xff xff xff)))))
(T (W x45 x26 x22 x84 xe4 x9c xf2 xcb)
(T (W x00 x00 x80 x3f x00 x00 x80 x3f)
(T (W x00 x00 x00 x00 x00 x00 x00 x00)
(T (W xb4 xb9 xfd xff x00 x01 x01 x01)
(L (W x45 x26 x22 x84 xe4 x9c xf2 xcb)) E)
(L (W x46 x53 x59 x53 x5f x4e x53 x5f)))
(T (W x00 x00 x80 x3f x00 x00 x80 x3f)
(L (W xff xff xff xff xbc x00 x00 x00))
(L (W xff xff xff xff xff xff xff xff))))
(T (W x00 x00 x00 x00 x00 x00 x00 x00)
(T (W x00 x00 x80 x3f x00 x00 x80 x3f)
(T (W x00 x00 x62 x00 x90 x00 x0c x00)
(L (W x58 x00 x00 x00 x00 x00 x5c x00)) E)
(L (W x18 x00 x00 x00 x0c x00 x00 x00)))
(T (W x1b x00 x00 x00 x1e x00 x00 x00)
(L (W x45 x26 x22 x84 xe4 x9c xf2 xcb))
(L (W x00 x00 x00 x00 xca x75 xff xff)))))))
(T (W x6f x6b x65 x5f x63 x6f x77 x61)
(T (W x45 x26 x22 x84 xe4 x9c xf2 xcb)
(T (W x68 x00 x00 x00 x5c x00 x00 x00)
(T (W x00 x00 x80 x3f x00 x00 x80 x3f)
(T (W xff xff xff xff xff xff xff xff)
(T (W x00 x00 x00 x00 x00 x00 x00 x00)
(L (W x00 x00 x00 x00 x00 x00 x00 x00)) E)
(L (W x49 xa1 x68 x4a xeb x5f xdd x3d)))
(T (W xff xff xff xff xff xff xff xff)
(L (W x00 x00 x80 x3f x00 x00 x80 x3f))
(L (W x89 x01 x00 x00 xff xff xff xff))))
(T (W x00 x00 x00 x00 x00 x00 x00 x00)
(T (W xff xff xff xff xff xff xff xff)
(T (W xff xff xff xff xff xff xff xff)
(L (W xff xff xff xff xff xff xff xff)) E)
(L (W x00 x00 x80 xbf x00 x00 x80 xbf)))
(T (W xff xff xff xff xff xff xff xff)
(L (W x18 x00 x00 x00 x1b x00 x00 x00))
(L (W xff xff xff xff xff xff xff xff)))))
(T (W x00 x00 x00 x00 x24 xf0 xfb xff)
(T (W x00 x00 x80 x3f x00 x00 x80 x3f)
(T (W xff xff xff xff xff xff xff xff)
(T (W x45 x26 x22 x84 xe4 x9c xf2 xcb)
(L (W x9a xae xff xff x78 x00 x00 x00)) E)
(L (W x00 x00 x00 x00 x00 x00 x00 x00)))
(T (W x45 x26 x22 x84 xe4 x9c xf2 xcb)
(L (W x00 x00 x00 x00 x00 x00 x00 x00))
(L (W x00 x00 x00 x00 x04 x00 x00 x00))))
(T (W x00 x00 x00 x00 x00 x00 x00 x00)
(T (W x54 x00 x00 x00 x48 x00 x00 x00)
(T (W x18 x00 x00 x00 x10 x00 x00 x00)
(L (W xff xff xff xff xff xff xff xff)) E)
(L (W x45 x26 x22 x84 xe4 x9c xf2 xcb)))
(T (W x50 x00 x00 x00 x44 x00 x00 x00)
(L (W x00 x00 x00 x00 xb8 x71 xfe xff))
(L (W x2c x01 x00 x00 x04 x00 x00 x00))))))
(T (W xb4 xc1 xfb xff x00 x01 x01 x01)
(T (W x50 x00 x00 x00 x44 x00 x00 x00)
(T (W x00 x00 x00 x00 x00 x00 x00 x00)
(T (W xff xff xff xff xff xff xff xff)
(T (W xff xff xff xff xff xff xff xff)
(L (W x00 x00 x00 x00 x00 x00 x00 x00)) E)
(L (W x45 x26 x22 x84 xe4 x9c xf2 xcb)))
(T (W x9d x01 x00 x00 xff xff xff xff)
(L (W x10 x00 x00 x00 x00 x00 x14 x00))
(L (W x00 x00 x00 x00 x00 x00 x00 x00))))
(T (W xf8 xe3 x0b x2d x5b x72 x4a x21)
(T (W x00 x00 x00 x00 x00 x00 x00 x00)
(T (W xff xff xff xff xff xff xff xff)
(L (W x18 x00 x00 x00 x10 x00 x00 x00)) E)
(L (W x00 x00 x80 xbf x00 x00 x80 xbf)))
(T (W xba x66 xfd xff x9c x01 x00 x00)
(L (W x74 x00 x00 x00 x68 x00 x00 x00))
(L (W x00 x00 x00 x00 x00 x00 x00 x00)))))
(T (W x00 x00 x80 x3f x00 x00 x80 x3f)
(T (W x00 x00 x00 x00 x00 x00 x00 x00)
(T (W x00 x00 x80 x3f x00 x00 x80 x3f)
(T (W x00 x00 x80 x3f x00 x00 x80 x3f)
(L (W xb0 x00 x00 x00 x32 x00 x00 x00)) E)
(L (W x00 x00 x00 x00 x00 x00 x00 x00)))
(T (W x00 x00 x80 x3f x00 x00 x80 x3f)
(L (W xff xff xff xff xff xff xff xff))
(L (W xff xff xff xff xff xff xff xff))))
(T (W x48 x03 x00 x00 x34 x02 x00 x00)
(T (W xb4 x01 xfd xff x00 x01 x01 x01)
(T (W x00 x00 x00 x00 x00 x00 x00 x00)
(L (W x00 x00 x80 xbf x00 x00 x80 xbf)) E)
(L (W x1b x00 x00 x00 x1e x00 x00 x00)))
(T (W xff xff xff xff xff xff xff xff)
(L (W x00 x01 x01 x01 x8a x84 xfe xff))
(L (W x45 x26 x22 x84 xe4 x9c xf2 xcb))))))))
(T (W x00 x00 x80 x3f x00 x00 x80 x3f)
(T (W x01 x00 x00 x00 x04 x00 x00 x00)
(T (W xff xff xff xff xff xff xff xff)
(T (W x00 x00 x00 x00 x00 x00 x00 x00)
(T (W xff xff xff xff xff xff xff xff)
(T (W x00 x00 x80 x3f x00 x00 x80 x3f)
(T (W xea x88 xfd xff x74 x00 x00 x00)
(L (W xff xff xff xff xff xff xff xff)) E)
(L (W xff xff xff xff xff xff xff xff)))
(T (W x4f x84 x6f x8b xe8 xcb x63 xb7)
(L (W xff xff xff xff xff xff xff xff))
(L (W x00 x00 x80 xbf x00 x00 x80 xbf))))
(T (W x01 x00 x00 x00 x9c x00 x00 x00)
(T (W x00 x00 x00 x00 x00 x00 x00 x00)
(T (W x00 x00 x00 x00 x00 x00 x00 x00)
(L (W x00 x00 x80 xbf x00 x00 x80 xbf)) E)
(L (W x21 x00 x00 x00 x24 x00 x00 x00)))
(T (W x00 x00 x00 x00 x00 x00 x00 x00)
(L (W x46 x53 x59 x53 x5f x4e x53 x5f))
(L (W x49 xa1 x68 x4a xeb x5f xdd x3d)))))
(T (W x44 xf1 xfb xff x1f x00 x00 x00)
(T (W xff xff xff xff xff xff xff xff)
(T (W x00 x00 x80 x3f x00 x00 x80 x3f)
(T (W x00 x00 x00 x00 x00 x00 x00 x00)
(L (W x06 x00 x07 x00 x00 x00 x00 x00)) E)
(L (W xff xff xff xff xb0 x00 x00 x00)))
(T (W xff xff xff xff xac x00 x00 x00)
(L (W x00 x00 x80 xbf x00 x00 x80 xbf))
(L (W x6c x00 x00 x00 x60 x00 x00 x00))))
(T (W xb4 x6d xfc xff x00 x01 x01 x01)
(T (W x4b x00 x00 x00 xff xff xff xff)
(T (W x00 x00 x00 x00 x00 x00 x00 x00)
(L (W x46 x53 x59 x53 x5f x4e x53 x5f)) E)
(L (W x00 x00 x00 x00 x00 x00 x00 x00)))
(T (W xff xff xff xff xff xff xff xff)
(L (W x00 x00 x00 x00 x12 x00 x00 x00))
(L (W x00 x00 x80 xbf x00 x00 x80 xbf))))))
(T (W x00 x00 x00 x00 x00 x00 x00 x00)
(T (W x9c xf1 xfb xff x1b x00 x00 x00)
(T (W xff xff xff xff xff xff xff xff)
(T (W x00 x00 x80 x3f x00 x00 x80 x3f)
(T (W x00 x00 x80 x3f x00 x00 x80 x3f)
(L (W xff xff xff xff xff xff xff xff)) E)
(L (W xff xff xff xff xff xff xff xff)))
(T (W x00 x00 x80 x3f x00 x00 x80 x3f)
(L (W x00 x00 x00 x00 x00 x00 x00 x00))
(L (W xc4 x00 x00 x00 x02 x00 x00 x00))))
(T (W xc0 x00 x00 x00 xb4 x00 x00 x00)
(T (W x00 x00 x00 x00 x24 xdc xfc xff)
(T (W x00 x00 x80 x3f x00 x00 x80 x3f)
(L (W x00 x00 x00 x00 x00 x00 x00 x00)) E)
(L (W xff xff xff xff xff xff xff xff)))
(T (W x00 x00 x80 x3f x00 x00 x80 x3f)
(L (W x00 x00 x00 x00 x00 x00 x00 x00))
(L (W x00 x00 x80 xbf x00 x00 x80 xbf)))))
(T (W xff xff xff xff xff xff xff xff)
(T (W xb8 x00 x00 x00 xac x00 x00 x00)
(T (W x45 x26 x22 x84 xe4 x9c xf2 xcb)
(T (W xd0 x00 x00 x00 xac x00 x00 x00)
(L (W x45 x26 x22 x84 xe4 x9c xf2 xcb)) E)
(L (W xff xff xff xff xb0 x00 x00 x00)))
(T (W x9d x01 x00 x00 xff xff xff xff)
(L (W x00 x00 x00 x00 x00 x00 x00 x00))
(L (W x00 x00 x80 xbf x00 x00 x80 xbf))))
(T (W x00 x00 x80 x3f x00 x00 x80 x3f)
(T (W x00 x00 x00 x00 x00 x00 x00 x00)
(T (W x23 x00 x00 x00 x26 x00 x00 x00)
(L (W x00 x00 x00 x00 x00 x00 x00 x00)) E)
(L (W x45 x26 x22 x84 xe4 x9c xf2 xcb)))
(T (W x00 x00 x00 x00 x00 x00 x00 x00)
(L (W x00 x00 x00 x00 x72 x97 xfe xff))
(L (W xff xff xff xff xff xff xff xff)))))))
(T (W x00 x00 x00 x00 x00 x00 x00 x00)
(T (W x00 x00 x00 x00 x00 x00 x00 x00)
(T (W x00 x00 x00 x00 x00 x00 x00 x00)
(T (W xff xff xff xff xff xff xff xff)
(T (W x00 x00 x80 x3f x00 x00 x80 x3f)
(T (W x68 x00 x00 x00 x5c x00 x00 x00)
(L (W xff xff xff xff xff xff xff xff)) E)
(L (W xff xff xff xff xff xff xff xff)))
(T (W x00 x00 x00 x00 x00 x00 x00 x00)
(L (W x2c x00 x30 x00 x34 x00 x38 x00))
(L (W x18 x00 x00 x00 x10 x00 x00 x00))))
(T (W x0a x00 x00 x00 x3e x00 x00 x00)
(T (W x00 x00 x80 x3f x00 x00 x80 x3f)
(T (W x00 x00 x00 x00 x00 x00 x00 x00)
(L (W x00 x00 x00 x00 x00 x00 x00 x00)) E)
(L (W xff xff xff xff xff xff xff xff)))
(T (W x00 x00 x80 x3f x00 x00 x80 x3f)
(L (W x00 x00 x00 x00 x00 x00 x00 x00))
(L (W x45 x26 x22 x84 xe4 x9c xf2 xcb)))))
(T (W x01 x00 x00 x00 x04 x00 x00 x00)
(T (W xff xff xff xff xff xff xff xff)
(T (W x45 x26 x22 x84 xe4 x9c xf2 xcb)
(T (W x00 x00 x00 x00 x00 x00 x00 x00)
(L (W x46 x53 x59 x53 x5f x4e x53 x5f)) E)
(L (W x68 x00 x00 x00 x5c x00 x00 x00)))
(T (W xff xff xff xff xff xff xff xff)
(L (W x00 x00 x00 x00 x00 x00 x00 x00))
(L (W x00 x00 x80 xbf x00 x00 x80 xbf))))
(T (W x00 x00 x80 x3f x00 x00 x80 x3f)
(T (W x74 x03 x00 x00 x4c x02 x00 x00)
(T (W x20 x00 x00 x00 x67 x72 x6f x75)
(L (W x00 x00 x00 x00 x1c x00 x20 x00)) E)
(L (W x00 x00 x00 x00 x00 x00 x00 x00)))
(T (W x00 x00 x00 x00 x00 x00 x00 x00)
(L (W x00 x00 x00 x00 x08 x00 x00 x00))
(L (W x68 x00 x00 x00 x5c x00 x00 x00))))))
(T (W x00 x00 x00 x00 x00 x00 x00 x00)
(T (W x00 x00 x00 x00 x00 x00 x00 x00)
(T (W xff xff xff xff xff xff xff xff)
(T (W x18 x00 x00 x00 x10 x00 x00 x00)
(T (W x00 x00 x80 x3f x00 x00 x80 x3f)
(L (W xff xff xff xff xff xff xff xff)) E)
(L (W x18 x00 x00 x00 x10 x00 x00 x00)))
(T (W x50 x00 x00 x00 x44 x00 x00 x00)
(L (W x04 x00 x00 x00 xda xf3 xff xff))
(L (W x58 x00 x00 x00 x4c x00 x00 x00))))
(T (W xea x60 xfc xff x74 x00 x00 x00)
(T (W xff xff xff xff xff xff xff xff)
(T (W xff xff xff xff xff xff xff xff)
(L (W x54 x00 x00 x00 x48 x00 x00 x00)) E)
(L (W x00 x00 x00 x00 x12 x00 x00 x00)))
(T (W x03 x00 x00 x00 xd4 x00 x00 x00)
(L (W x00 x00 x00 x00 x00 x00 x00 x00))
(L (W xea x60 xff xff x74 x00 x00 x00)))))
(T (W xff xff xff xff xff xff xff xff)
(T (W x45 x26 x22 x84 xe4 x9c xf2 xcb)
(T (W x4c x45 x41 x52 x45 x44 x00 x00)
(T (W xff xff xff xff xff xff xff xff)
(L (W x00 x00 x00 x00 x00 x00 x00 x00)) E)
(L (W x18 x00 x00 x00 x10 x00 x00 x00)))
(T (W x00 x00 x00 x00 x00 x00 x00 x00)
(L (W x00 x00 x00 x00 x00 x00 x00 x00))
(L (W x00 x00 x00 x00 x00 x00 x00 x00))))
(T (W x45 x26 x22 x84 xe4 x9c xf2 xcb)
(T (W x00 x00 x00 x00 x00 x00 x00 x00)
(L (W x79 x61 x62 x75 x6e x00 x00 x00))
(L (W x49 xa1 x68 x4a xeb x5f xdd x3d)))
(T (W x00 x00 x80 x3f x00 x00 x80 x3f)
(L (W xff xff xff xff xff xff xff xff))
(L (W xff xff xff xff xff xff xff xff)))))))))))
(T (W xe8 xa5 x02 x00 xac xa4 x02 x00)
(T (W x58 x07 x02 x00 x14 x05 x02 x00)
(T (W xe0 x97 x00 x00 xac x96 x00 x00)
(T (W x00 x00 x80 x3f x00 x00 x80 x3f)
(T (W x86 x03 x00 x00 xff xff xff xff)
(T (W x6f x6b x65 x5f x63 x6f x77 x61)
(T (W xff xff xff xff x04 x00 x00 x00)
(T (W x6a x02 xfc xff x74 x00 x00 x00)
(T (W x1c x9b xfc xff x1b x00 x00 x00)
(T (W x70 x5f x6c x65 x61 x64 x65 x72)
(L (W x54 x00 x00 x00 x48 x00 x00 x00)) E)
(L (W x45 x26 x22 x84 xe4 x9c xf2 xcb)))
(T (W xff xff xff xff xff xff xff xff)
(L (W x00 x00 x01 x01 x86 x00 x00 x00))
(L (W xff xff xff xff xff xff xff xff))))
(T (W x00 x00 x80 x3f x00 x00 x80 x3f)
(T (W xff xff xff xff xff xff xff xff)
(T (W x00 x00 x80 x3f x00 x00 x80 x3f)
(L (W x1e x00 x00 x00 x10 x00 x00 x00)) E)
(L (W x49 xa1 x68 x4a xeb x5f xdd x3d)))
(T (W xff xff xff xff xff xff xff xff)
(L (W xff xff xff xff xff xff xff xff))
(L (W x00 x00 x00 x00 x4a x43 xff xff)))))
(T (W xff xff xff xff xff xff xff xff)
(T (W x45 x26 x22 x84 xe4 x9c xf2 xcb)
(T (W xff xff xff xff xff xff xff xff)
(T (W x00 x00 x00 x00 x02 x00 x00 x00)
(L (W x00 x00 x80 xbf x00 x00 x80 xbf)) E)
(L (W x00 x00 x00 x00 x00 x00 x00 x00)))
(T (W x49 xa1 x68 x4a xeb x5f xdd x3d)
(L (W xff xff xff xff xff xff xff xff))
(L (W x00 x00 x00 x00 x12 x00 x00 x00))))
(T (W x00 x00 x80 x3f x00 x00 x80 x3f)
(T (W x00 x00 x80 x3f x00 x00 x80 x3f)
(T (W x25 x00 x00 x00 xff xff xff xff)
(L (W x00 x00 x80 xbf x00 x00 x80 xbf)) E)
(L (W xff xff xff xff xff xff xff xff)))
(T (W x00 x00 x80 x3f x00 x00 x80 x3f)
(L (W xff xff xff xff xff xff xff xff))
(L (W x49 xa1 x68 x4a xeb x5f xdd x3d))))))
(T (W xff xff xff xff xff xff xff xff)
(T (W xb8 x00 x00 x00 xac x00 x00 x00)
(T (W x68 x00 x00 x00 x5c x00 x00 x00)
(T (W xff xff xff xff xff xff xff xff)
(T (W x00 x00 x00 x00 x00 x00 x00 x00)
(L (W x00 x00 x80 xbf x00 x00 x80 xbf)) E)
(L (W x45 x26 x22 x84 xe4 x9c xf2 xcb)))
(T (W x45 x44 x00 x00 x00 x00 x00 x00)
(L (W xff xff xff xff xff xff xff xff))
(L (W x4f x84 x6f x8b xe8 xcb x63 xb7))))
(T (W x45 x26 x22 x84 xe4 x9c xf2 xcb)
(T (W x00 x00 x00 x00 x00 x00 x00 x00)
(T (W xff xff xff xff xff xff xff xff)
(L (W x2c x01 x00 x00 x04 x00 x00 x00)) E)
(L (W x45 x26 x22 x84 xe4 x9c xf2 xcb)))
(T (W x00 x00 x00 x00 x00 x00 x00 x00)
(L (W xff xff xff xff xff xff xff xff))
(L (W x00 x00 x00 x00 x00 x00 x00 x00)))))
(T (W xff xff xff xff xff xff xff xff)
(T (W x6c x00 x00 x00 x60 x00 x00 x00)
(T (W x40 x00 x00 x00 x10 x00 x00 x00)
(T (W xff xff xff xff xff xff xff xff)
(L (W xff xff xff xff xff xff xff xff)) E)
(L (W x00 x00 x80 xbf x00 x00 x80 xbf)))
(T (W x50 x00 x00 x00 x44 x00 x00 x00)
(L (W xff xff xff xff xff xff xff xff))
(L (W x00 x00 x00 x00 x12 x00 x00 x00))))
(T (W x00 x00 x00 x00 x00 x00 x00 x00)
(T (W xff xff xff xff xc4 x00 x00 x00)
(T (W x00 x00 x80 x3f x00 x00 x80 x3f)
(L (W xff xff xff xff xff xff xff xff)) E)
(L (W xff xff xff xff xff xff xff xff)))
(T (W xff xff xff xff xff xff xff xff)
(L (W xff xff xff xff xff xff xff xff))
(L (W x49 xa1 x68 x4a xeb x5f xdd x3d)))))))
(T (W x00 x00 x00 x00 x02 x00 x00 x00)
(T (W x01 x00 x00 x00 x9c x00 x00 x00)
(T (W x18 x00 x00 x00 x10 x00 x00 x00)
(T (W x00 x00 x80 x3f x00 x00 x80 x3f)
(T (W x01 x00 x00 x00 x04 x00 x00 x00)
(T (W x45 x26 x22 x84 xe4 x9c xf2 xcb)
(L (W x50 x00 x00 x00 x44 x00 x00 x00)) E)
(L (W x34 x8f xfe xff x00 x01 x01 x01)))
(T (W xff xff xff xff xff xff xff xff)
(L (W x45 x26 x22 x84 xe4 x9c xf2 xcb))
(L (W x30 x33 x5f x43 x4c x45 x41 x52))))
(T (W x00 x00 x00 x00 x00 x00 x00 x00)
(T (W x00 x00 x00 x00 x4a xcb xfc xff)
(T (W xff xff xff xff xff xff xff xff)
(L (W x00 x00 x00 x00 x00 x00 x00 x00)) E)
(L (W x00 x00 x80 xbf x00 x00 x80 xbf)))
(T (W xff xff xff xff xff xff xff xff)
(L (W xff xff xff xff xff xff xff xff))
(L (W xff xff xff xff xff xff xff xff)))))
(T (W xff xff xff xff x03 x00 x00 x00)
(T (W x50 x00 x00 x00 x44 x00 x00 x00)
(T (W x00 x00 x00 x00 x00 x00 x00 x00)
(T (W xff xff xff xff xff xff xff xff)
(L (W xff xff xff xff xff xff xff xff)) E)
(L (W x00 x00 x80 xbf x00 x00 x80 xbf)))
(T (W x00 x00 x80 x3f x00 x00 x80 x3f)
(L (W x00 x00 x00 x00 x00 x00 x00 x00))
(L (W x00 x00 x00 x00 x00 x00 x00 x00))))
(T (W x00 x00 x00 x00 x00 x00 x00 x00)
(T (W x34 xef xfc xff x00 x01 x01 x01)
(T (W x6f x6b x65 x5f x77 x61 x72 x6c)
(L (W x00 x00 x00 x00 x00 x00 x00 x00)) E)
(L (W xff xff xff xff xff xff xff xff)))
(T (W xc8 x00 x00 x00 x01 x00 x00 x00)
(L (W xff xff xff xff xff xff xff xff))
(L (W x00 x00 x00 x00 x00 x00 x00 x00))))))
(T (W xff xff xff xff xff xff xff xff)
(T (W xff xff xff xff xff xff xff xff)
(T (W x6a x1a xfc xff x74 x00 x00 x00)
(T (W x6a xb8 xfe xff x00 x00 x01 x01)
(T (W x00 x00 x00 x00 x00 x00 x00 x00)
(L (W x38 x00 x00 x00 x00 x00 x80 xbf)) E)
(L (W x6c x00 x00 x00 x60 x00 x00 x00)))
(T (W xc4 x22 xfd xff x29 x00 x00 x00)
(L (W x04 x00 x00 x00 x5a xed xff xff))
(L (W x00 x00 x80 xbf x00 x00 x80 xbf))))
(T (W x00 x00 x80 x3f x00 x00 x80 x3f)
(T (W x00 x00 x80 x3f x00 x00 x80 x3f)
(T (W x18 x01 x00 x00 x04 x00 x00 x00)
(L (W xff xff xff xff xff xff xff xff)) E)
(L (W x00 x00 x00 x00 xa4 xdd xfe xff)))
(T (W x00 x00 x00 x00 x00 x00 x00 x00)
(L (W xff xff xff xff xff xff xff xff))
(L (W x00 x00 x00 x00 x00 x00 x00 x00)))))
(T (W x18 x00 x00 x00 x0c x00 x00 x00)
(T (W x00 x00 x80 x3f x00 x00 x80 x3f)
(T (W x00 x00 x10 x00 x14 x00 x18 x00)
(T (W x18 x00 x00 x00 x0c x00 x00 x00)
(L (W xff xff xff xff xff xff xff xff)) E)
(L (W x00 x00 x80 xbf x00 x00 x80 xbf)))
(T (W x21 x00 x00 x00 x24 x00 x00 x00)
(L (W xff xff xff xff xff xff xff xff))
(L (W xff xff xff xff xff xff xff xff))))
(T (W x00 x00 x00 x00 x00 x00 x00 x00)
(T (W xff xff xff xff xff xff xff xff)
(T (W x00 x00 x80 x3f x00 x00 x80 x3f)
(L (W x10 x00 x14 x00 x00 x00 x00 x00)) E)
(L (W xff xff xff xff xff xff xff xff)))
(T (W xff xff xff xff xff xff xff xff)
(L (W xc4 x00 x00 x00 x01 x00 x00 x00))
(L (W x68 x00 x00 x00 x5c x00 x00 x00))))))))
(T (W x2e x00 x00 x00 x67 x72 x6f x75)
(T (W xff xff xff xff xff xff xff xff)
(T (W xff xff xff xff xff xff xff xff)
(T (W x00 x00 x00 x00 x00 x00 x00 x00)
(T (W x00 x00 x00 x00 x00 x00 x00 x00)
(T (W x01 x00 x00 x00 x3e x00 x00 x00)
(T (W xff xff xff xff xff xff xff xff)
(L (W xff xff xff xff xff xff xff xff)) E)
(L (W x00 x00 x00 x00 x00 x00 x00 x00)))
(T (W x00 x00 x80 x3f x00 x00 x80 x3f)
(L (W xff xff xff xff xff xff xff xff))
(L (W x00 x00 x80 xbf x00 x00 x80 xbf))))
(T (W x32 x91 xff xff x00 x00 x01 x01)
(T (W x00 x00 x80 x3f x00 x00 x80 x3f)
(T (W x00 x00 x00 x00 x00 x00 x00 x00)
(L (W x00 x00 x80 xbf x00 x00 x80 xbf)) E)
(L (W xff xff xff xff xff xff xff xff)))
(T (W x45 x26 x22 x84 xe4 x9c xf2 xcb)
(L (W x00 x00 x80 xbf x00 x00 x80 xbf))
(L (W x00 x00 x80 xbf x00 x00 x80 xbf)))))
(T (W x00 x00 x00 x00 x00 x00 x00 x00)
(T (W x6a x44 xfe xff x00 x00 x01 x01)
(T (W x00 x00 x80 x3f x00 x00 x80 x3f)
(T (W x00 x00 x80 x3f x00 x00 x80 x3f)
(L (W xff xff xff xff xff xff xff xff)) E)
(L (W xff xff xff xff xb0 x00 x00 x00)))
(T (W xff xff xff xff xff xff xff xff)
(L (W x00 x00 x80 xbf x00 x00 x80 xbf))
(L (W xff xff xff xff xff xff xff xff))))
(T (W x64 x00 x00 x00 x9c x00 x00 x00)
(T (W x00 x00 x00 x00 x00 x00 x00 x00)
(T (W x00 x00 x00 x00 x00 x00 x00 x00)
(L (W xff xff xff xff xff xff xff xff)) E)
(L (W x00 x00 x00 x00 x00 x00 x00 x00)))
(T (W x9f x01 x00 x00 xff xff xff xff)
(L (W x00 x00 x00 x00 x00 x00 x00 x00))
(L (W xff xff xff xff xff xff xff xff))))))
(T (W x00 x00 x00 x00 x00 x00 x00 x00)
(T (W x00 x00 x00 x00 x00 x00 x00 x00)
(T (W x3e x00 x00 x00 x10 x00 x00 x00)
(T (W x1a x98 xfc xff x78 x00 x00 x00)
(T (W x00 x00 x00 x00 xa4 x99 xfd xff)
(L (W x02 x99 xff xff xa2 x01 x00 x00)) E)
(L (W x00 x00 x00 x00 xf2 xb4 xfe xff)))
(T (W x45 x26 x22 x84 xe4 x9c xf2 xcb)
(L (W x49 xa1 x68 x4a xeb x5f xdd x3d))
(L (W xff xff xff xff xff xff xff xff))))
(T (W xff xff xff xff xff xff xff xff)
(T (W xff xff xff xff xbc x00 x00 x00)
(T (W x6a xd6 xfd xff x74 x00 x00 x00)
(L (W x00 x00 x80 xbf x00 x00 x80 xbf)) E)
(L (W x00 x00 x00 x00 x2a xe7 xfe xff)))
(T (W x18 x00 x00 x00 x10 x00 x00 x00)
(L (W x00 x00 x80 xbf x00 x00 x80 xbf))
(L (W x1e x00 x00 x00 x21 x00 x00 x00)))))
(T (W x00 x00 x00 x00 x00 x00 x00 x00)
(T (W xb0 x00 x00 x00 xff xff xff xff)
(T (W x45 x26 x22 x84 xe4 x9c xf2 xcb)
(T (W x00 x00 x80 x3f x00 x00 x80 x3f)
(L (W x00 x00 x00 x00 x00 x00 x00 x00)) E)
(L (W x03 x00 x00 x00 xd8 x00 x00 x00)))
(T (W x00 x00 x00 x00 x00 x00 x00 x00)
(L (W x54 x00 x00 x00 x48 x00 x00 x00))
(L (W x00 x00 x80 xbf x00 x00 x80 xbf))))
(T (W x18 x00 x00 x00 x0c x00 x00 x00)
(T (W x4f x84 x6f x8b xe8 xcb x63 xb7)
(T (W x00 x00 x00 x00 x00 x00 x00 x00)
(L (W x50 x00 x00 x00 x54 x00 x00 x00)) E)
(L (W x00 x00 x80 xbf x00 x00 x80 xbf)))
(T (W x00 x00 x80 x3f x00 x00 x80 x3f)
(L (W x00 x00 x00 x00 x00 x00 x00 x00))
(L (W x34 x7b xff xff x00 x01 x01 x01)))))))
(T (W x5f x77 x69 x6c x64 x5f x70 x6f)
(T (W x00 x00 x80 x3f x00 x00 x80 x3f)
(T (W x45 x26 x22 x84 xe4 x9c xf2 xcb)
(T (W x00 x00 x00 x00 x00 x00 x00 x00)
(T (W x68 x00 x00 x00 x5c x00 x00 x00)
(T (W xff xff xff xff xff xff xff xff)
(L (W xff xff xff xff xff xff xff xff)) E)
(L (W x00 x00 x00 x00 x08 x00 x00 x00)))
(T (W x68 x00 x00 x00 x5c x00 x00 x00)
(L (W x00 x00 x00 x00 x00 x00 x00 x00))
(L (W xff xff xff xff x9c x00 x00 x00))))
(T (W xff xff xff xff xff xff xff xff)
(T (W x34 xd3 xfc xff x00 x01 x01 x01)
(T (W x00 x00 x80 x3f x00 x00 x80 x3f)
(L (W x00 x00 x80 xbf x00 x00 x80 xbf)) E)
(L (W x00 x00 x00 x00 x4a xcf xfe xff)))
(T (W x00 x00 x80 x3f x00 x00 x80 x3f)
(L (W x00 x00 x80 xbf x00 x00 x80 xbf))
(L (W x6a x4e xff xff x74 x00 x00 x00)))))
(T (W x00 x00 x00 x00 x00 x00 x00 x00)
(T (W xff xff xff xff xff xff xff xff)
(T (W x68 x00 x00 x00 x5c x00 x00 x00)
(T (W x00 x00 x80 x3f x00 x00 x80 x3f)
(L (W x00 x00 x00 x00 x00 x00 x00 x00)) E)
(L (W xff xff xff xff xc4 x00 x00 x00)))
(T (W xff xff xff xff xff xff xff xff)
(L (W x00 x00 x00 x00 x00 x00 x00 x00))
(L (W xa0 x00 x00 x00 x64 x00 x00 x00))))
(T (W x00 x00 x00 x00 xa4 x71 xfc xff)
(T (W x00 x00 x00 x00 x00 x00 x00 x00)
(T (W x08 x01 x00 x00 xdc x00 x00 x00)
(L (W x45 x26 x22 x84 xe4 x9c xf2 xcb)) E)
(L (W x00 x00 x80 xbf x00 x00 x80 xbf)))
(T (W x00 x00 x00 x00 x00 x00 x00 x00)
(L (W x00 x00 x00 x00 x00 x00 x00 x00))
(L (W xff xff xff xff x9c x00 x00 x00))))))
(T (W x00 x00 x00 x00 x00 x00 x00 x00)
(T (W x00 x00 x00 x00 x00 x00 x00 x00)
(T (W x04 x00 x00 x00 x7a x3f xfe xff)
(T (W x50 x00 x00 x00 x44 x00 x00 x00)
(T (W x34 xa3 xfd xff x00 x01 x01 x01)
(L (W x00 x00 x00 x00 x00 x00 x00 x00)) E)
(L (W x18 x00 x00 x00 x10 x00 x00 x00)))
(T (W x18 x00 x00 x00 x10 x00 x00 x00)
(L (W xec x5f x6c x12 x83 xf2 x3a xc6))
(L (W xff xff xff xff xff xff xff xff))))
(T (W xff xff xff xff xff xff xff xff)
(T (W xff xff xff xff xff xff xff xff)
(T (W x00 x00 x80 x3f x00 x00 x80 x3f)
(L (W x00 x00 x00 x00 x00 x00 x00 x00)) E)
(L (W x00 x00 x00 x00 x00 x00 x00 x00)))
(T (W x03 x00 x00 x00 xd0 x00 x00 x00)
(L (W x00 x00 x00 x00 x00 x00 x00 x00))
(L (W xb0 x00 x00 x00 x64 x00 x00 x00)))))
(T (W x00 x00 x00 x00 x00 x00 x00 x00)
(T (W xba x87 xff xff xb0 x00 x00 x00)
(T (W x00 x00 x00 x00 x00 x00 x00 x00)
(T (W x25 x00 x00 x00 x0c x00 x00 x00)
(L (W x49 xa1 x68 x4a xeb x5f xdd x3d)) E)
(L (W xff xff xff xff xff xff xff xff)))
(T (W x00 x00 x00 x00 x00 x00 x00 x00)
(L (W x00 x00 x80 xbf x00 x00 x80 xbf))
(L (W x50 x00 x00 x00 x44 x00 x00 x00))))
(T (W x3e x00 x00 x00 x9c x00 x00 x00)
(T (W x00 x00 x00 x00 x00 x00 x00 x00)
(T (W xff xff xff xff xff xff xff xff)
(L (W x28 x00 x2c x00 x30 x00 x34 x00)) E)
(L (W x1a x00 xff xff x78 x00 x00 x00)))
(T (W x1a x80 xfd xff x78 x00 x00 x00)
(L (W x00 x00 x00 x00 x00 x00 x00 x00))
(L (W xff xff xff xff xff xff xff xff)))))))))
(T (W x00 x00 x00 x00 x00 x00 x00 x00)
(T (W xff xff xff xff xff xff xff xff)
(T (W x00 x00 x80 x3f x00 x00 x80 x3f)
(T (W x6a xa4 xfb xff x74 x00 x00 x00)
(T (W x40 x00 x00 x00 x10 x00 x00 x00)
(T (W xff xff xff xff xff xff xff xff)
(T (W x00 x00 x80 x3f x00 x00 x80 x3f)
(T (W x00 x00 x80 x3f x00 x00 x80 x3f)
(L (W xff xff xff xff xff xff xff xff)) E)
(L (W xff xff xff xff xff xff xff xff)))
(T (W x00 x00 x00 x00 x00 x00 x00 x00)
(L (W x00 x00 x80 x3f x00 x00 x80 x3f))
(L (W x00 x00 x00 x00 x00 x00 x00 x00))))
(T (W xbc x00 x00 x00 xb0 x00 x00 x00)
(T (W x00 x00 x00 x00 x00 x00 x00 x00)
(T (W xd0 x00 x00 x00 xac x00 x00 x00)
(L (W x00 x00 x00 x00 x00 x00 x00 x00)) E)
(L (W xcc x00 x00 x00 x01 x00 x00 x00)))
(T (W x00 x00 x00 x00 x00 x00 x00 x00)
(L (W x46 x53 x59 x53 x5f x4e x53 x5f))
(L (W x4f x84 x6f x8b xe8 xcb x63 xb7)))))
(T (W x00 x00 x00 x00 x00 x00 x00 x00)
(T (W xff xff xff xff xff xff xff xff)
(T (W x00 x00 x80 x3f x00 x00 x80 x3f)
(T (W x00 x00 x00 x00 x00 x00 x00 x00)
(L (W xff xff xff xff xff xff xff xff)) E)
(L (W x00 x00 x80 xbf x00 x00 x80 xbf)))
(T (W x68 x00 x00 x00 x5c x00 x00 x00)
(L (W x00 x00 x00 x00 x00 x00 x00 x00))
(L (W x00 x00 x80 xbf x00 x00 x80 xbf))))
(T (W x00 x00 x80 x3f x00 x00 x80 x3f)
(T (W xff xff xff xff xff xff xff xff)
(T (W x00 x00 x80 x3f x00 x00 x80 x3f)
(L (W x18 x00 x00 x00 x10 x00 x00 x00)) E)
(L (W xff xff xff xff xff xff xff xff)))
(T (W x18 x00 x00 x00 x10 x00 x00 x00)
(L (W x00 x00 x00 x00 x00 x00 x00 x00))
(L (W x00 x00 x80 xbf x00 x00 x80 xbf))))))
(T (W x00 x00 x00 x00 x00 x00 x00 x00)
(T (W xff xff xff xff xff xff xff xff)
(T (W xff xff xff xff x04 x00 x00 x00)
(T (W x00 x00 x00 x00 x00 x00 x00 x00)
(T (W x00 x00 x80 x3f x00 x00 x80 x3f)
(L (W xff xff xff xff xff xff xff xff)) E)
(L (W xff xff xff xff xff xff xff xff)))
(T (W x00 x00 x00 x00 x00 x00 x00 x00)
(L (W x46 x53 x59 x53 x5f x4e x53 x5f))
(L (W x00 x00 x80 xbf x00 x00 x80 xbf))))
(T (W x50 x00 x00 x00 x44 x00 x00 x00)
(T (W x00 x00 x80 x3f x00 x00 x80 x3f)
(T (W x00 x00 x00 x00 x00 x00 x00 x00)
(L (W x00 x00 x00 x00 x00 x00 x00 x00)) E)
(L (W xff xff xff xff xff xff xff xff)))
(T (W x00 x00 x00 x00 x00 x00 x00 x00)
(L (W x00 x00 x00 x00 x00 x00 x00 x00))
(L (W x00 x00 x80 xbf x00 x00 x80 xbf)))))
(T (W x48 x03 x00 x00 x34 x02 x00 x00)
(T (W xff xff xff xff xff xff xff xff)
(T (W x00 x00 x00 x00 xa4 xb7 xfc xff)
(T (W x00 x00 x00 x00 x02 x00 x00 x00)
(L (W x86 x3c x45 xdc x00 xd6 x55 x2f)) E)
(L (W x1a xb6 xfe xff x78 x00 x00 x00)))
(T (W xff xff xff xff xff xff xff xff)
(L (W x00 x00 x00 x00 x00 x00 x00 x00))
(L (W x00 x00 x00 x00 x00 x00 x00 x00))))
(T (W x68 x00 x00 x00 x5c x00 x00 x00)
(T (W xff xff xff xff xff xff xff xff)
(T (W x55 x6c xfc xf1 x99 x9e xc9 x88)
(L (W x00 x00 x00 x00 x00 x00 x00 x00)) E)
(L (W x00 x00 x00 x00 x00 x00 x00 x00)))
(T (W x5f x4e x53 x5f x30 x33 x5f x43)
(L (W x00 x00 x00 x00 x00 x00 x00 x00))
(L (W x00 x00 x80 xbf x00 x00 x80 xbf)))))))
(T (W x00 x00 x80 x3f x00 x00 x80 x3f)
(T (W x40 x00 x00 x00 x0c x00 x00 x00)
(T (W x6a xea xfd xff x00 x00 x01 x01)
(T (W xff xff xff xff xff xff xff xff)
(T (W x45 x26 x22 x84 xe4 x9c xf2 xcb)
(T (W x68 x00 x00 x00 x5c x00 x00 x00)
(L (W x2c x00 x00 x00 x2f x00 x00 x00)) E)
(L (W xff xff xff xff xff xff xff xff)))
(T (W x00 x00 x00 x00 x00 x00 x00 x00)
(L (W xff xff xff xff xff xff xff xff))
(L (W x00 x00 x80 xbf x00 x00 x80 xbf))))
(T (W x34 x51 xfc xff x00 x01 x01 x01)
(T (W x4f x84 x6f x8b xe8 xcb x63 xb7)
(T (W x21 x00 x00 x00 x67 x72 x6f x75)
(L (W x00 x00 x00 x00 x00 x00 x00 x00)) E)
(L (W xff xff xff xff xff xff xff xff)))
(T (W x00 x00 x00 x00 x00 x00 x00 x00)
(L (W x00 x00 x00 x00 x00 x00 x00 x00))
(L (W x00 x00 x00 x00 x00 x00 x00 x00)))))
(T (W x00 x00 x00 x00 x00 x00 x00 x00)
(T (W xff xff xff xff xff xff xff xff)
(T (W x00 x00 x80 x3f x00 x00 x80 x3f)
(T (W x00 x00 x00 x00 x00 x00 x00 x00)
(L (W x00 x00 x00 x00 x00 x00 x00 x00)) E)
(L (W x68 x00 x00 x00 x5c x00 x00 x00)))
(T (W xbc x00 x00 x00 x14 x00 x00 x00)
(L (W x50 x00 x00 x00 x44 x00 x00 x00))
(L (W x00 x00 x80 xbf x00 x00 x80 xbf))))
(T (W x50 x00 x00 x00 x44 x00 x00 x00)
(T (W xff xff xff xff xff xff xff xff)
(T (W x12 x9f xc1 x35 x8f x8c xaf xe6)
(L (W x45 x26 x22 x84 xe4 x9c xf2 xcb)) E)
(L (W x00 x00 x00 x00 x00 x00 x00 x00)))
(T (W x02 x00 x00 x00 xff xff xff xff)
(L (W x00 x00 x00 x00 x00 x00 x00 x00))
(L (W x00 x00 x80 xbf x00 x00 x80 xbf))))))
(T (W x00 x00 x00 x00 x00 x00 x00 x00)
(T (W xa6 x01 x00 x00 xff xff xff xff)
(T (W x18 x00 x00 x00 x10 x00 x00 x00)
(T (W x00 x00 x00 x00 x00 x00 x00 x00)
(T (W x00 x00 x80 x3f x00 x00 x80 x3f)
(L (W x45 x26 x22 x84 xe4 x9c xf2 xcb)) E)
(L (W x00 x00 x00 x00 x00 x00 x64 x00)))
(T (W x00 x00 x80 x3f x00 x00 x80 x3f)
(L (W x45 x26 x22 x84 xe4 x9c xf2 xcb))
(L (W xa0 x1f xff xff xca x5a xff xff))))
(T (W x00 x00 x80 x3f x00 x00 x80 x3f)
(T (W x18 x00 x00 x00 x0c x00 x00 x00)
(T (W x00 x00 x00 x00 x00 x00 x00 x00)
(L (W x45 x44 x00 x00 x00 x00 x00 x00)) E)
(L (W xff xff xff xff xff xff xff xff)))
(T (W x00 x00 x80 x3f x00 x00 x80 x3f)
(L (W x6a x7c xfe xff x8c x01 x00 x00))
(L (W x68 x00 x00 x00 x5c x00 x00 x00)))))
(T (W xff xff xff xff xff xff xff xff)
(T (W x64 x00 x00 x00 x9c x00 x00 x00)
(T (W xff xff xff xff xff xff xff xff)
(T (W xff xff xff xff xff xff xff xff)
(L (W x00 x00 x00 x00 x12 x00 x00 x00)) E)
(L (W x50 x00 x00 x00 x44 x00 x00 x00)))
(T (W xff xff xff xff xff xff xff xff)
(L (W x00 x00 x00 x00 x00 x00 x00 x00))
(L (W x45 x26 x22 x84 xe4 x9c xf2 xcb))))
(T (W x00 x00 x80 x3f x00 x00 x80 x3f)
(T (W x00 x00 x00 x00 x00 x00 x00 x00)
(T (W x00 x00 x00 x00 xa4 xff xfd xff)
(L (W xff xff xff xff xff xff xff xff)) E)
(L (W x46 x53 x59 x53 x5f x4e x53 x5f)))
(T (W x00 x00 x00 x00 x00 x00 x00 x00)
(L (W x24 x01 x00 x00 x04 x00 x00 x00))
(L (W xb8 x00 x00 x00 x3c x00 x00 x00))))))))
(T (W xff xff xff xff xff xff xff xff)
(T (W x00 x00 x00 x00 x00 x00 x00 x00)
(T (W x00 x00 x80 x3f x00 x00 x80 x3f)
(T (W x6a xc8 xfb xff x74 x00 x00 x00)
(T (W x00 x00 x80 x3f x00 x00 x80 x3f)
(T (W xff xff xff xff xff xff xff xff)
(T (W x00 x00 x00 x00 x00 x00 x00 x00)
(L (W x00 x00 x00 x00 x00 x00 x00 x00)) E)
(L (W x49 xa1 x68 x4a xeb x5f xdd x3d)))
(T (W xcc x00 x00 x00 x01 x00 x00 x00)
(L (W x00 x00 x00 x00 x00 x00 x00 x00))
(L (W xff xff xff xff xff xff xff xff))))
(T (W x00 x00 x00 x00 x00 x00 x00 x00)
(T (W xff xff xff xff x9c x00 x00 x00)
(T (W x45 x26 x22 x84 xe4 x9c xf2 xcb)
(L (W xff xff xff xff xff xff xff xff)) E)
(L (W x00 x00 x00 x00 x00 x00 x00 x00)))
(T (W xff xff xff xff xa0 x00 x00 x00)
(L (W x00 x00 x00 x00 x38 x4d xfe xff))
(L (W x03 x00 x00 x00 xd8 x00 x00 x00)))))
(T (W x00 x00 x80 x3f x00 x00 x80 x3f)
(T (W x00 x00 x00 x00 x00 x00 x00 x00)
(T (W xff xff xff xff xff xff xff xff)
(T (W x45 x26 x22 x84 xe4 x9c xf2 xcb)
(L (W x00 x00 x00 x00 x00 x00 x00 x00)) E)
(L (W xfc x07 x00 x00 xcc x06 x00 x00)))
(T (W x00 x00 x00 x00 x00 x00 x00 x00)
(L (W xff xff xff xff xff xff xff xff))
(L (W xff xff xff xff xff xff xff xff))))
(T (W x00 x00 x00 x00 x02 x00 x00 x00)
(T (W x00 x00 x80 x3f x00 x00 x80 x3f)
(T (W x00 x00 x00 x00 xa4 xeb xfd xff)
(L (W x1a xea xff xff x78 x00 x00 x00)) E)
(L (W x18 x00 x00 x00 x10 x00 x00 x00)))
(T (W x00 x00 x80 x3f x00 x00 x80 x3f)
(L (W x34 x6d xfe xff x00 x01 x01 x01))
(L (W xff xff xff xff xff xff xff xff))))))
(T (W x45 x26 x22 x84 xe4 x9c xf2 xcb)
(T (W x00 x00 x80 x3f x00 x00 x80 x3f)
(T (W x00 x00 x00 x00 x00 x00 x00 x00)
(T (W xff xff xff xff xff xff xff xff)
(T (W xff xff xff xff xff xff xff xff)
(L (W x00 x00 x00 x00 x00 x00 x00 x00)) E)
(L (W x00 x00 x80 xbf x00 x00 x80 xbf)))
(T (W xff xff xff xff xff xff xff xff)
(L (W x45 x26 x22 x84 xe4 x9c xf2 xcb))
(L (W x00 x00 x00 x00 x00 x00 x00 x00))))
(T (W xc4 x60 xfc xff x3c x00 x00 x00)
(T (W x00 x00 x00 x00 x00 x00 x00 x00)
(T (W xff xff xff xff xff xff xff xff)
(L (W x00 x00 x00 x00 xa4 xdb xff xff)) E)
(L (W x45 x26 x22 x84 xe4 x9c xf2 xcb)))
(T (W xff xff xff xff xff xff xff xff)
(L (W x45 x26 x22 x84 xe4 x9c xf2 xcb))
(L (W xff xff xff xff xff xff xff xff)))))
(T (W x45 x26 x22 x84 xe4 x9c xf2 xcb)
(T (W x00 x00 x00 x00 x00 x00 x00 x00)
(T (W xff xff xff xff x03 x00 x00 x00)
(T (W x6f x79 x61 x62 x75 x6e x00 x00)
(L (W xb8 x00 x00 x00 x32 x00 x00 x00)) E)
(L (W x22 x00 x00 x00 x10 x00 x00 x00)))
(T (W x45 x26 x22 x84 xe4 x9c xf2 xcb)
(L (W x45 x26 x22 x84 xe4 x9c xf2 xcb))
(L (W xff xff xff xff xff xff xff xff))))
(T (W xff xff xff xff xff xff xff xff)
(T (W x00 x00 x80 x3f x00 x00 x80 x3f)
(T (W x47 x06 x12 x3a xb1 x83 x66 xe3)
(L (W x44 x00 x04 x00 x08 x00 x0c x00)) E)
(L (W xff xff xff xff xc4 x00 x00 x00)))
(T (W x1b x00 x00 x00 x1e x00 x00 x00)
(L (W x00 x00 x80 xbf x00 x00 x80 xbf))
(L (W x74 x00 x0c x00 x00 x00 x00 x00)))))))
(T (W x45 x26 x22 x84 xe4 x9c xf2 xcb)
(T (W x00 x00 x00 x00 xa4 xb3 xfb xff)
(T (W x34 xd5 xfb xff x00 x01 x01 x01)
(T (W x00 x00 x80 x3f x00 x00 x80 x3f)
(T (W xff xff xff xff xff xff xff xff)
(T (W x6a xae xff xff x00 x00 x01 x01)
(L (W x00 x00 x00 x00 x00 x00 x00 x00)) E)
(L (W x00 x00 x80 xbf x00 x00 x80 xbf)))
(T (W xb0 x00 x00 x00 x64 x00 x00 x00)
(L (W x00 x00 x80 x3f x00 x00 x80 x3f))
(L (W x45 x44 x00 x00 x00 x00 x00 x00))))
(T (W x00 x00 x00 x00 x00 x00 x00 x00)
(T (W xff xff xff xff xff xff xff xff)
(T (W x45 x26 x22 x84 xe4 x9c xf2 xcb)
(L (W x45 x26 x22 x84 xe4 x9c xf2 xcb)) E)
(L (W x00 x00 x00 x00 x00 x00 x00 x00)))
(T (W xff xff xff xff xff xff xff xff)
(L (W x45 x26 x22 x84 xe4 x9c xf2 xcb))
(L (W xff xff xff xff xbc x00 x00 x00)))))
(T (W x00 x00 x80 x3f x00 x00 x80 x3f)
(T (W x00 x00 x00 x00 x00 x00 x00 x00)
(T (W xff xff xff xff x04 x00 x00 x00)
(T (W x34 xb5 xfd xff x00 x01 x01 x01)
(L (W x1a xb2 xff xff x78 x00 x00 x00)) E)
(L (W x48 x00 x00 x00 xff xff xff xff)))
(T (W x4f x84 x6f x8b xe8 xcb x63 xb7)
(L (W x6a x30 xfe xff x74 x00 x00 x00))
(L (W xff xff xff xff xff xff xff xff))))
(T (W xff xff xff xff xff xff xff xff)
(T (W x00 x00 x80 x3f x00 x00 x80 x3f)
(T (W x00 x00 x80 x3f x00 x00 x80 x3f)
(L (W x00 x00 x80 xbf x00 x00 x80 xbf)) E)
(L (W xff xff xff xff xb0 x00 x00 x00)))
(T (W x1a x72 xfd xff x78 x00 x00 x00)
(L (W x00 x00 x80 xbf x00 x00 x80 xbf))
(L (W x00 x00 x00 x00 x4a x71 xff xff))))))
(T (W x68 x00 x00 x00 x5c x00 x00 x00)
(T (W x34 xe5 xfb xff x00 x01 x01 x01)
(T (W x45 x26 x22 x84 xe4 x9c xf2 xcb)
(T (W x00 x00 x00 x00 x00 x00 x00 x00)
(T (W xff xff xff xff xff xff xff xff)
(L (W x00 x00 x00 x00 x00 x00 x00 x00)) E)
(L (W x45 x44 x00 x00 x00 x00 x00 x00)))
(T (W xff xff xff xff x02 x00 x00 x00)
(L (W x00 x00 x80 xbf x00 x00 x80 xbf))
(L (W xb0 x00 x00 x00 xff xff xff xff))))
(T (W x00 x00 x00 x00 x00 x00 x00 x00)
(T (W x00 x00 x00 x00 x00 x00 x00 x00)
(T (W x00 x00 x62 x00 x70 x00 x04 x00)
(L (W xff xff xff xff xff xff xff xff)) E)
(L (W x34 xe5 xfe xff x00 x01 x01 x01)))
(T (W x6b x65 x5f x6c x76 x31 x00 x00)
(L (W x45 x26 x22 x84 xe4 x9c xf2 xcb))
(L (W x00 x00 x00 x00 x00 x00 x00 x00)))))
(T (W x00 x00 x80 x3f x00 x00 x80 x3f)
(T (W x00 x00 x00 x00 x00 x00 x00 x00)
(T (W x68 x00 x00 x00 x5c x00 x00 x00)
(T (W x00 x00 x00 x00 x00 x00 x00 x00)
(L (W x20 x00 x00 x00 x24 x00 x28 x00)) E)
(L (W x30 x33 x5f x43 x4c x45 x41 x52)))
(T (W x00 x00 x80 x3f x00 x00 x80 x3f)
(L (W x70 x00 x00 x00 x64 x00 x00 x00))
(L (W xff xff xff xff x9c x00 x00 x00))))
(T (W xff xff xff xff xff xff xff xff)
(T (W x18 x00 x00 x00 x10 x00 x00 x00)
(T (W x00 x00 x80 x3f x00 x00 x80 x3f)
(L (W x00 x00 x80 xbf x00 x00 x80 xbf)) E)
(L (W xff xff xff xff xff xff xff xff)))
(T (W xff xff xff xff xff xff xff xff)
(L (W x45 x26 x22 x84 xe4 x9c xf2 xcb))
(L (W x00 x00 x00 x00 x00 x00 x00 x00))))))))))
(T (W xc8 x2b x01 x00 x94 x2a x01 x00)
(T (W x1c xa0 xfb xff x3e x00 x00 x00)
(T (W xb8 x00 x00 x00 xac x00 x00 x00)
(T (W x27 x00 x00 x00 x67 x72 x6f x75)
(T (W x00 x00 x80 x3f x00 x00 x80 x3f)
(T (W xff xff xff xff xff xff xff xff)
(T (W xff xff xff xff x04 x00 x00 x00)
(T (W x00 x00 x00 x00 x00 x00 x00 x00)
(T (W x00 x00 x80 x3f x00 x00 x80 x3f)
(L (W x45 x26 x22 x84 xe4 x9c xf2 xcb)) E)
(L (W xff xff xff xff xff xff xff xff)))
(T (W x74 x03 x00 x00 x4c x02 x00 x00)
(L (W x30 x33 x5f x43 x4c x45 x41 x52))
(L (W x45 x44 x00 x00 x00 x00 x00 x00))))
(T (W x50 x00 x00 x00 x44 x00 x00 x00)
(T (W xff xff xff xff x01 x00 x00 x00)
(T (W x01 x00 x00 x00 x9c x00 x00 x00)
(L (W x00 x00 x00 x00 x00 x00 x00 x00)) E)
(L (W x00 x00 x80 xbf x00 x00 x80 xbf)))
(T (W xff xff xff xff x02 x00 x00 x00)
(L (W x00 x00 x00 x00 x02 x00 x00 x00))
(L (W x00 x00 x00 x00 x00 x00 x00 x00)))))
(T (W xff xff xff xff xff xff xff xff)
(T (W x40 x00 x00 x00 xa0 x00 x00 x00)
(T (W x1c x00 x20 x00 x24 x00 x28 x00)
(T (W x00 x00 x00 x00 x00 x00 x00 x00)
(L (W x68 x00 x00 x00 x5c x00 x00 x00)) E)
(L (W x00 x00 x80 xbf x00 x00 x80 xbf)))
(T (W x00 x00 x80 x3f x00 x00 x80 x3f)
(L (W xff xff xff xff xff xff xff xff))
(L (W x00 x00 x00 x00 x00 x00 x00 x00))))
(T (W x00 x00 x80 x3f x00 x00 x80 x3f)
(T (W xcc x00 x00 x00 x01 x00 x00 x00)
(T (W x00 x00 x00 x00 x00 x00 x62 x00)
(L (W x54 x00 x00 x00 x48 x00 x00 x00)) E)
(L (W xff xff xff xff xff xff xff xff)))
(T (W x68 x00 x00 x00 x5c x00 x00 x00)
(L (W xff xff xff xff xff xff xff xff))
(L (W x00 x00 x80 xbf x00 x00 x80 xbf))))))
(T (W xc3 x01 x00 x00 xff xff xff xff)
(T (W xff xff xff xff xff xff xff xff)
(T (W x6a x13 xfc xff x74 x00 x00 x00)
(T (W x1c xac xfc xff x3c x00 x00 x00)
(T (W x45 x26 x22 x84 xe4 x9c xf2 xcb)
(L (W x68 x00 x00 x00 x5c x00 x00 x00)) E)
(L (W x1b x00 x00 x00 x1e x00 x00 x00)))
(T (W x00 x00 x00 x00 x00 x00 x00 x00)
(L (W x00 x00 x00 x00 x5a xe6 xff xff))
(L (W x00 x00 x80 xbf x00 x00 x80 xbf))))
(T (W x00 x00 x80 x3f x00 x00 x80 x3f)
(T (W x49 xa1 x68 x4a xeb x5f xdd x3d)
(T (W x00 x00 x00 x00 x02 x00 x00 x00)
(L (W x46 x53 x59 x53 x5f x4e x53 x5f)) E)
(L (W xff xff xff xff xc4 x00 x00 x00)))
(T (W x12 x00 x00 x00 x46 x53 x59 x53)
(L (W x7c x03 x00 x00 x4c x02 x00 x00))
(L (W x00 x00 x00 x00 x00 x00 x00 x00)))))
(T (W xff xff xff xff xff xff xff xff)
(T (W x00 x00 x00 x00 xa4 x36 xfc xff)
(T (W x00 x00 x00 x00 x00 x00 x00 x00)
(T (W xff xff xff xff xff xff xff xff)
(L (W xff xff xff xff xff xff xff xff)) E)
(L (W x50 x00 x00 x00 x44 x00 x00 x00)))
(T (W x45 x26 x22 x84 xe4 x9c xf2 xcb)
(L (W x0d x36 xc8 xc9 x03 x90 xa0 xbc))
(L (W x00 x00 x00 x00 x00 x00 x00 x00))))
(T (W x45 x26 x22 x84 xe4 x9c xf2 xcb)
(T (W xff xff xff xff xff xff xff xff)
(T (W x70 x00 x74 x00 x78 x00 x0c x00)
(L (W x00 x00 x00 x00 x00 x00 x00 x00)) E)
(L (W x00 x00 x00 x00 x7a xf7 xfe xff)))
(T (W x9d x01 x00 x00 xff xff xff xff)
(L (W xff xff xff xff xff xff xff xff))
(L (W x00 x00 x80 xbf x00 x00 x80 xbf)))))))
(T (W x00 x00 x00 x00 x00 x00 x00 x00)
(T (W xd0 x00 x00 x00 xac x00 x00 x00)
(T (W xff xff xff xff xff xff xff xff)
(T (W x18 x00 x00 x00 x0c x00 x00 x00)
(T (W x00 x00 x00 x00 x00 x00 x00 x00)
(T (W x00 x00 x80 x3f x00 x00 x80 x3f)
(L (W x1a x8d xff xff x78 x00 x00 x00)) E)
(L (W xb0 x00 x00 x00 x64 x00 x00 x00)))
(T (W x00 x00 x00 x00 x00 x00 x00 x00)
(L (W xff xff xff xff xc0 x00 x00 x00))
(L (W x00 x00 x00 x00 x00 x00 x00 x00))))
(T (W x00 x00 x80 x3f x00 x00 x80 x3f)
(T (W x00 x00 x00 x00 x00 x00 x00 x00)
(T (W xff xff xff xff xff xff xff xff)
(L (W x00 x00 x00 x00 x00 x00 x00 x00)) E)
(L (W xff xff xff xff xb0 x00 x00 x00)))
(T (W x01 x06 x03 x1d x69 xd3 xed xbd)
(L (W x00 x00 x00 x00 x00 x00 x00 x00))
(L (W x45 x44 x00 x00 x00 x00 x00 x00)))))
(T (W x8d x01 x00 x00 xff xff xff xff)
(T (W xff xff xff xff x03 x00 x00 x00)
(T (W x00 x00 x00 x00 x00 x00 x00 x00)
(T (W x00 x00 x00 x00 x02 x00 x00 x00)
(L (W xff xff xff xff xff xff xff xff)) E)
(L (W x00 x00 x80 xbf x00 x00 x80 xbf)))
(T (W x34 x30 xfd xff x00 x01 x01 x01)
(L (W x45 x26 x22 x84 xe4 x9c xf2 xcb))
(L (W x4f x84 x6f x8b xe8 xcb x63 xb7))))
(T (W x00 x00 x80 x3f x00 x00 x80 x3f)
(T (W xb0 x00 x00 x00 x64 x00 x00 x00)
(T (W x54 x00 x00 x00 x48 x00 x00 x00)
(L (W x00 x00 x00 x00 x00 x00 x00 x00)) E)
(L (W xff xff xff xff xff xff xff xff)))
(T (W xff xff xff xff xff xff xff xff)
(L (W xff xff xff xff xff xff xff xff))
(L (W x00 x00 x00 x00 x00 x00 x00 x00))))))
(T (W xba x04 xff xff xc0 x01 x00 x00)
(T (W xff xff xff xff xff xff xff xff)
(T (W x45 x26 x22 x84 xe4 x9c xf2 xcb)
(T (W x00 x00 x00 x00 x00 x00 x00 x00)
(T (W x00 x00 x00 x00 x00 x00 x00 x00)
(L (W x54 x00 x00 x00 x48 x00 x00 x00)) E)
(L (W x18 x00 x00 x00 x10 x00 x00 x00)))
(T (W x00 x00 x00 x00 x00 x00 x00 x00)
(L (W x00 x00 x00 x00 x00 x00 x00 x00))
(L (W x00 x00 x80 xbf x00 x00 x80 xbf))))
(T (W x00 x00 x80 x3f x00 x00 x80 x3f)
(T (W x00 x00 x80 x3f x00 x00 x80 x3f)
(T (W x00 x00 x00 x00 x00 x00 x00 x00)
(L (W xff xff xff xff xff xff xff xff)) E)
(L (W xff xff xff xff xff xff xff xff)))
(T (W x00 x00 x80 x3f x00 x00 x80 x3f)
(L (W xff xff xff xff xff xff xff xff))
(L (W x00 x00 x80 xbf x00 x00 x80 xbf)))))
(T (W xff xff xff xff xff xff xff xff)
(T (W x45 x26 x22 x84 xe4 x9c xf2 xcb)
(T (W x45 x26 x22 x84 xe4 x9c xf2 xcb)
(T (W x64 x00 x00 x00 x9c x00 x00 x00)
(L (W x00 x00 x00 x00 x00 x00 x00 x00)) E)
(L (W x00 x00 x80 xbf x00 x00 x80 xbf)))
(T (W xff xff xff xff xff xff xff xff)
(L (W x00 x00 x00 x00 x00 x00 x00 x00))
(L (W x30 x33 x5f x43 x4c x45 x41 x52))))
(T (W x45 x26 x22 x84 xe4 x9c xf2 xcb)
(T (W x4b x00 x00 x00 xff xff xff xff)
(T (W x00 x00 x80 x3f x00 x00 x80 x3f)
(L (W x00 x00 x80 xbf x00 x00 x80 xbf)) E)
(L (W xe2 x13 xff xff xc8 x01 x00 x00)))
(T (W x00 x00 x00 x00 x00 x00 x00 x00)
(L (W xff xff xff xff xff xff xff xff))
(L (W x34 x80 xff xff x00 x01 x01 x01))))))))
(T (W x00 x00 x00 x00 x00 x00 x00 x00)
(T (W x01 x00 x00 x00 x04 x00 x00 x00)
(T (W x5f x77 x69 x6c x64 x5f x70 x6f)
(T (W x50 x00 x00 x00 x44 x00 x00 x00)
(T (W x00 x00 x80 x3f x00 x00 x80 x3f)
(T (W xff xff xff xff xff xff xff xff)
(T (W x6a xa5 xff xff x00 x00 x01 x01)
(L (W x00 x00 x00 x00 x00 x00 x00 x00)) E)
(L (W x00 x00 x00 x00 x00 x00 x00 x00)))
(T (W x00 x00 x80 x3f x00 x00 x80 x3f)
(L (W x67 x72 x6f x75 x70 x5f x6c x65))
(L (W x18 x00 x00 x00 x0c x00 x00 x00))))
(T (W x00 x00 x00 x00 x00 x00 x00 x00)
(T (W x1a xc9 xfc xff x78 x00 x00 x00)
(T (W x00 x00 x00 x00 x00 x00 x00 x00)
(L (W x03 x00 x00 x00 xd0 x00 x00 x00)) E)
(L (W x00 x00 x00 x00 x00 x00 x00 x00)))
(T (W x68 x00 x00 x00 x5c x00 x00 x00)
(L (W x00 x00 x80 xbf x00 x00 x80 xbf))
(L (W x50 x00 x00 x00 x44 x00 x00 x00)))))
(T (W x45 x26 x22 x84 xe4 x9c xf2 xcb)
(T (W x00 x00 x00 x00 x00 x00 x00 x00)
(T (W x18 x00 x00 x00 x0c x00 x00 x00)
(T (W x34 xac xfd xff x00 x01 x01 x01)
(L (W x45 x44 x00 x00 x00 x00 x00 x00)) E)
(L (W xff xff xff xff xff xff xff xff)))
(T (W x00 x00 x00 x00 x00 x00 x00 x00)
(L (W x18 x00 x00 x00 x0c x00 x00 x00))
(L (W xff xff xff xff xff xff xff xff))))
(T (W xff xff xff xff xff xff xff xff)
(T (W x00 x00 x00 x00 x00 x00 x00 x00)
(T (W x00 x00 x80 xbf x00 x00 x80 xbf)
(L (W x52 x43 x45 xdc x00 xda x55 x2f)) E)
(L (W x54 x00 x00 x00 x48 x00 x00 x00)))
(T (W x22 x00 x00 x00 x67 x72 x6f x75)
(L (W x45 x26 x22 x84 xe4 x9c xf2 xcb))
(L (W xff xff xff xff xff xff xff xff))))))
(T (W x00 x00 x80 x3f x00 x00 x80 x3f)
(T (W x00 x00 x80 x3f x00 x00 x80 x3f)
(T (W x00 x00 x00 x00 x00 x00 x00 x00)
(T (W x45 x26 x22 x84 xe4 x9c xf2 xcb)
(T (W xff xff xff xff xff xff xff xff)
(L (W x30 x33 x5f x43 x4c x45 x41 x52)) E)
(L (W x00 x00 x00 x00 x00 x00 x00 x00)))
(T (W xff xff xff xff xc4 x00 x00 x00)
(L (W x00 x00 x80 x3f x00 x00 x80 x3f))
(L (W x45 x44 x00 x00 x00 x00 x00 x00))))
(T (W xff xff xff xff xff xff xff xff)
(T (W xff xff xff xff xff xff xff xff)
(T (W x00 x00 x00 x00 xa4 xda xfd xff)
(L (W x00 x00 x80 xbf x00 x00 x80 xbf)) E)
(L (W x12 x00 x00 x00 x46 x53 x59 x53)))
(T (W x03 x00 x00 x00 xcc x00 x00 x00)
(L (W x68 x00 x00 x00 x5c x00 x00 x00))
(L (W xff xff xff xff xff xff xff xff)))))
(T (W x45 x26 x22 x84 xe4 x9c xf2 xcb)
(T (W x00 x00 x00 x00 x00 x00 x00 x00)
(T (W x40 x00 x00 x00 x9c x00 x00 x00)
(T (W xff xff xff xff xff xff xff xff)
(L (W x34 xbc xff xff x00 x01 x01 x01)) E)
(L (W xff xff xff xff xff xff xff xff)))
(T (W x00 x00 x00 x00 x00 x00 x00 x00)
(L (W x00 x00 x00 x00 x68 xfb xfe xff))
(L (W x68 x00 x00 x00 x5c x00 x00 x00))))
(T (W x64 x00 x00 x00 x9c x00 x00 x00)
(T (W x00 x00 x80 x3f x00 x00 x80 x3f)
(T (W x3c x00 x00 x00 x0c x00 x00 x00)
(L (W x00 x00 x00 x00 x00 x00 x00 x00)) E)
(L (W x45 x26 x22 x84 xe4 x9c xf2 xcb)))
(T (W x00 x00 x80 x3f x00 x00 x80 x3f)
(L (W x00 x00 x80 xbf x00 x00 x80 xbf))
(L (W xb0 x00 x00 x00 x19 x00 x00 x00)))))))
(T (W x00 x00 x80 x3f x00 x00 x80 x3f)
(T (W x6c x00 x00 x00 x60 x00 x00 x00)
(T (W x00 x00 x80 x3f x00 x00 x80 x3f)
(T (W x00 x00 x00 x00 x00 x00 x00 x00)
(T (W xff xff xff xff xff xff xff xff)
(T (W xff xff xff xff xff xff xff xff)
(L (W x87 xfb xaf x28 xbf x5d x5d x6a)) E)
(L (W x00 x00 x00 x00 x00 x00 x00 x00)))
(T (W x34 x14 xfd xff x00 x01 x01 x01)
(L (W x00 x00 x00 x00 x00 x00 x00 x00))
(L (W xff xff xff xff xff xff xff xff))))
(T (W x00 x00 x00 x00 x04 x00 x00 x00)
(T (W xb0 x00 x00 x00 x64 x00 x00 x00)
(T (W x34 xd4 xfd xff x00 x01 x01 x01)
(L (W x68 x00 x00 x00 x5c x00 x00 x00)) E)
(L (W x00 x00 x00 x00 x00 x00 x00 x00)))
(T (W x6a x4f xfd xff x74 x00 x00 x00)
(L (W x44 x00 x00 x00 x00 x00 x80 xbf))
(L (W x45 x26 x22 x84 xe4 x9c xf2 xcb)))))
(T (W x00 x00 x00 x00 x00 x00 x00 x00)
(T (W x40 x00 x00 x00 x0c x00 x00 x00)
(T (W x6a xaf xfc xff x74 x00 x00 x00)
(T (W x00 x00 x80 x3f x00 x00 x80 x3f)
(L (W x45 x26 x22 x84 xe4 x9c xf2 xcb)) E)
(L (W xff xff xff xff xff xff xff xff)))
(T (W x1c x48 xfd xff x10 x00 x00 x00)
(L (W x00 x00 x80 xbf x00 x00 x80 xbf))
(L (W xc4 x00 x00 x00 x01 x00 x00 x00))))
(T (W xff xff xff xff xff xff xff xff)
(T (W x00 x00 x00 x00 x00 x00 x00 x00)
(T (W x38 x39 x5f x43 x00 x00 x00 x00)
(L (W x2c x00 x30 x00 x34 x00 x38 x00)) E)
(L (W x45 x26 x22 x84 xe4 x9c xf2 xcb)))
(T (W x00 x00 x80 x3f x00 x00 x80 x3f)
(L (W x49 xa1 x68 x4a xeb x5f xdd x3d))
(L (W xff xff xff xff xff xff xff xff))))))
(T (W x00 x00 x80 x3f x00 x00 x80 x3f)
(T (W x00 x00 x80 x3f x00 x00 x80 x3f)
(T (W x00 x00 x00 x00 x00 x00 x00 x00)
(T (W xb8 x00 x00 x00 xac x00 x00 x00)
(T (W x45 x26 x22 x84 xe4 x9c xf2 xcb)
(L (W x00 x00 x00 x00 x00 x00 x00 x00)) E)
(L (W xff xff xff xff xff xff xff xff)))
(T (W xff xff xff xff xff xff xff xff)
(L (W x00 x00 x00 x00 x00 x00 x00 x00))
(L (W xff xff xff xff xff xff xff xff))))
(T (W xf2 x00 x00 x00 xff xff xff xff)
(T (W x45 x44 x00 x00 x00 x00 x00 x00)
(T (W xff xff xff xff xff xff xff xff)
(L (W x00 x00 x80 xbf x00 x00 x80 xbf)) E)
(L (W x45 x26 x22 x84 xe4 x9c xf2 xcb)))
(T (W xff xff xff xff xff xff xff xff)
(L (W x00 x00 x80 xbf x00 x00 x80 xbf))
(L (W xff xff xff xff xff xff xff xff)))))
(T (W x45 x26 x22 x84 xe4 x9c xf2 xcb)
(T (W x00 x00 x00 x00 x00 x00 x00 x00)
(T (W x00 x00 x80 x3f x00 x00 x80 x3f)
(T (W x00 x00 x00 x00 x00 x00 x00 x00)
(L (W x00 x00 x80 xbf x00 x00 x80 xbf)) E)
(L (W x02 xc2 xfe xff xa9 x01 x00 x00)))
(T (W x00 x00 x80 x3f x00 x00 x80 x3f)
(L (W x00 x00 x80 xbf x00 x00 x80 xbf))
(L (W x1a x41 xff xff x78 x00 x00 x00))))
(T (W xff xff xff xff x03 x00 x00 x00)
(T (W x54 x00 x00 x00 x48 x00 x00 x00)
(T (W x04 x14 x00 x00 xe8 x12 x00 x00)
(L (W x00 x00 x00 x00 x00 x00 x00 x00)) E)
(L (W x1f x00 x00 x00 x22 x00 x00 x00)))
(T (W x45 x26 x22 x84 xe4 x9c xf2 xcb)
(L (W x00 x00 x00 x00 x00 x00 x00 x00))
(L (W x2c x00 x00 x00 x10 x00 x00 x00)))))))))
(T (W x45 x26 x22 x84 xe4 x9c xf2 xcb)
(T (W xff xff xff xff xff xff xff xff)
(T (W xff xff xff xff xff xff xff xff)
(T (W xff xff xff xff xff xff xff xff)
(T (W x00 x00 x00 x00 x00 x00 x00 x00)
(T (W x00 x00 x00 x00 xd2 x51 xff xff)
(T (W x00 x00 x80 x3f x00 x00 x80 x3f)
(T (W xff xff xff xff xff xff xff xff)
(L (W xff xff xff xff xff xff xff xff)) E)
(L (W xff xff xff xff xff xff xff xff)))
(T (W x45 x26 x22 x84 xe4 x9c xf2 xcb)
(L (W x03 x00 x00 x00 xd0 x00 x00 x00))
(L (W x4f x84 x6f x8b xe8 xcb x63 xb7))))
(T (W xff xff xff xff xff xff xff xff)
(T (W x00 x00 x00 x00 x00 x00 x00 x00)
(T (W x23 x00 x00 x00 x10 x00 x00 x00)
(L (W x49 xa1 x68 x4a xeb x5f xdd x3d)) E)
(L (W xff xff xff xff xff xff xff xff)))
(T (W x00 x00 x00 x00 x00 x00 x00 x00)
(L (W x00 x00 x00 x00 x00 x00 x00 x00))
(L (W x00 x00 x80 xbf x00 x00 x80 xbf)))))
(T (W x00 x00 x00 x00 x00 x00 x00 x00)
(T (W xff xff xff xff xff xff xff xff)
(T (W x00 x00 x80 x3f x00 x00 x80 x3f)
(T (W x00 x00 x80 x3f x00 x00 x80 x3f)
(L (W xff xff xff xff xff xff xff xff)) E)
(L (W x00 x00 x00 x00 xa4 xa8 xfe xff)))
(T (W x18 x00 x00 x00 x10 x00 x00 x00)
(L (W x00 x00 x00 x00 x00 x00 x00 x00))
(L (W x6a x25 xff xff x74 x00 x00 x00))))
(T (W x50 x00 x00 x00 x44 x00 x00 x00)
(T (W xff xff xff xff xff xff xff xff)
(T (W x01 x01 x01 x01 xe9 x01 x00 x00)
(L (W xc4 x00 x00 x00 x01 x00 x00 x00)) E)
(L (W x30 x33 x5f x43 x4c x45 x41 x52)))
(T (W xff xff xff xff xff xff xff xff)
(L (W x00 x00 x00 x00 x00 x00 x00 x00))
(L (W x68 x00 x00 x00 x5c x00 x00 x00))))))
(T (W x00 x00 x00 x00 x00 x00 x00 x00)
(T (W xc4 xdd xfb xff x1b x00 x00 x00)
(T (W xff xff xff xff xff xff xff xff)
(T (W x00 x00 x80 x3f x00 x00 x80 x3f)
(T (W x6c x00 x00 x00 x60 x00 x00 x00)
(L (W xff xff xff xff xff xff xff xff)) E)
(L (W xff xff xff xff xff xff xff xff)))
(T (W x00 x00 x80 x3f x00 x00 x80 x3f)
(L (W x00 x00 x00 x00 x00 x00 x00 x00))
(L (W x00 x00 x00 x00 xa4 x18 xff xff))))
(T (W x64 x00 x00 x00 x9c x00 x00 x00)
(T (W x45 x26 x22 x84 xe4 x9c xf2 xcb)
(T (W x00 x00 x00 x00 x00 x00 x00 x00)
(L (W x4f x84 x6f x8b xe8 xcb x63 xb7)) E)
(L (W xff xff xff xff xff xff xff xff)))
(T (W x50 x00 x00 x00 x44 x00 x00 x00)
(L (W x45 x26 x22 x84 xe4 x9c xf2 xcb))
(L (W x00 x00 x80 xbf x00 x00 x80 xbf)))))
(T (W x00 x00 x00 x00 x00 x00 x00 x00)
(T (W xff xff xff xff xff xff xff xff)
(T (W x44 x00 x48 x00 x4c x00 x50 x00)
(T (W x00 x00 x00 x00 x00 x00 x00 x00)
(L (W x00 x00 x00 x00 x00 x00 x00 x00)) E)
(L (W xff xff xff xff x9c x00 x00 x00)))
(T (W x9a x44 xfd xff x9d x01 x00 x00)
(L (W x45 x26 x22 x84 xe4 x9c xf2 xcb))
(L (W x00 x00 x80 xbf x00 x00 x80 xbf))))
(T (W x00 x00 x00 x00 xa4 x78 xfc xff)
(T (W xc4 xfd xfc xff x15 x00 x00 x00)
(T (W x7f x00 x00 x00 x7f x00 x00 x00)
(L (W xff xff xff xff xac x00 x00 x00)) E)
(L (W x00 x00 x00 x00 x00 x00 x00 x00)))
(T (W x00 x00 x00 x00 x00 x00 x00 x00)
(L (W x00 x00 x00 x00 x00 x00 x00 x00))
(L (W x68 x00 x00 x00 x5c x00 x00 x00)))))))
(T (W xff xff xff xff xff xff xff xff)
(T (W x00 x00 x00 x00 x00 x00 x00 x00)
(T (W x00 x00 x00 x00 x00 x00 x00 x00)
(T (W x1c x01 x00 x00 x04 x00 x00 x00)
(T (W x00 x00 x80 x3f x00 x00 x80 x3f)
(T (W x6a x8d xfd xff x74 x00 x00 x00)
(L (W xff xff xff xff xff xff xff xff)) E)
(L (W xff xff xff xff xff xff xff xff)))
(T (W x00 x00 x80 x3f x00 x00 x80 x3f)
(L (W xb3 x01 x00 x00 xff xff xff xff))
(L (W x50 x00 x00 x00 x44 x00 x00 x00))))
(T (W xff xff xff xff xff xff xff xff)
(T (W x00 x00 x80 x3f x00 x00 x80 x3f)
(T (W x00 x00 x80 x3f x00 x00 x80 x3f)
(L (W x45 x26 x22 x84 xe4 x9c xf2 xcb)) E)
(L (W xff xff xff xff xff xff xff xff)))
(T (W x00 x00 x80 x3f x00 x00 x80 x3f)
(L (W x00 x00 x00 x00 x00 x00 x00 x00))
(L (W x00 x00 x80 xbf x00 x00 x80 xbf)))))
(T (W x00 x00 x00 x00 x00 x00 x00 x00)
(T (W xff xff xff xff xff xff xff xff)
(T (W x00 x00 x80 x3f x00 x00 x80 x3f)
(T (W x00 x00 x00 x00 x00 x00 x00 x00)
(L (W x00 x00 x00 x00 x00 x00 x00 x00)) E)
(L (W x45 x26 x22 x84 xe4 x9c xf2 xcb)))
(T (W xff xff xff xff xff xff xff xff)
(L (W x00 x00 x60 x00 x00 x00 x00 x00))
(L (W x45 x26 x22 x84 xe4 x9c xf2 xcb))))
(T (W x6a x6d xfc xff x74 x00 x00 x00)
(T (W x45 x44 x00 x00 x00 x00 x00 x00)
(T (W x00 x00 x00 x00 x00 x00 x00 x00)
(L (W x54 x00 x00 x00 x48 x00 x00 x00)) E)
(L (W x00 x00 x00 x00 x00 x00 x00 x00)))
(T (W x00 x00 x00 x00 x00 x00 x00 x00)
(L (W x00 x00 x00 x00 x12 x00 x00 x00))
(L (W x1a x6f xff xff x78 x00 x00 x00))))))
(T (W x00 x00 x00 x00 x00 x00 x00 x00)
(T (W x00 x00 x00 x00 x00 x00 x00 x00)
(T (W xff xff xff xff xff xff xff xff)
(T (W x45 x26 x22 x84 xe4 x9c xf2 xcb)
(T (W x00 x00 x80 x3f x00 x00 x80 x3f)
(L (W xff xff xff xff xff xff xff xff)) E)
(L (W x00 x00 x00 x00 x00 x00 x00 x00)))
(T (W x68 x00 x00 x00 x5c x00 x00 x00)
(L (W xff xff xff xff xff xff xff xff))
(L (W x1c x00 x00 x00 x10 x00 x00 x00))))
(T (W x34 x62 xfc xff x00 x01 x01 x01)
(T (W xff xff xff xff xff xff xff xff)
(T (W x00 x00 x80 x3f x00 x00 x80 x3f)
(L (W x00 x00 x00 x00 x00 x00 x00 x00)) E)
(L (W x18 x00 x00 x00 x10 x00 x00 x00)))
(T (W x68 x00 x00 x00 x5c x00 x00 x00)
(L (W x30 x33 x5f x43 x4c x45 x41 x52))
(L (W x34 x62 xff xff x00 x01 x01 x01)))))
(T (W x0f x00 x00 x00 x10 x00 x00 x00)
(T (W xff xff xff xff xff xff xff xff)
(T (W xc4 xc5 xfc xff x29 x00 x00 x00)
(T (W xff xff xff xff xff xff xff xff)
(L (W x00 x00 x00 x00 x00 x00 x00 x00)) E)
(L (W xff xff xff xff xff xff xff xff)))
(T (W x13 x00 x00 x00 x0c x00 x00 x00)
(L (W x49 xa1 x68 x4a xeb x5f xdd x3d))
(L (W x00 x00 x80 xbf x00 x00 x80 xbf))))
(T (W x45 x26 x22 x84 xe4 x9c xf2 xcb)
(T (W x00 x00 x00 x00 x12 x00 x00 x00)
(T (W xff xff xff xff xb0 x00 x00 x00)
(L (W x70 x00 x04 x00 x68 x00 x08 x00)) E)
(L (W x00 x00 x00 x00 x00 x00 x00 x00)))
(T (W x45 x26 x22 x84 xe4 x9c xf2 xcb)
(L (W x30 x33 x5f x43 x4c x45 x41 x52))
(L (W xff xff xff xff xff xff xff xff))))))))
(T (W xff xff xff xff xff xff xff xff)
(T (W x6a x99 xfb xff x74 x00 x00 x00)
(T (W x00 x00 x80 x3f x00 x00 x80 x3f)
(T (W x45 x26 x22 x84 xe4 x9c xf2 xcb)
(T (W x00 x00 x80 x3f x00 x00 x80 x3f)
(T (W xff xff xff xff xff xff xff xff)
(T (W x00 x00 x00 x00 x00 x00 x00 x00)
(L (W x00 x00 x80 xbf x00 x00 x80 xbf)) E)
(L (W x00 x00 x80 xbf x00 x00 x80 xbf)))
(T (W xff xff xff xff xff xff xff xff)
(L (W x00 x00 x80 x3f x00 x00 x80 x3f))
(L (W x02 x0c xff xff xdf x00 x00 x00))))
(T (W x00 x00 x00 x00 x00 x00 x00 x00)
(T (W xff xff xff xff xff xff xff xff)
(T (W x18 x00 x00 x00 x10 x00 x00 x00)
(L (W xff xff xff xff xff xff xff xff)) E)
(L (W x00 x00 x00 x00 x00 x00 x00 x00)))
(T (W xff xff xff xff xff xff xff xff)
(L (W xff xff xff xff x8c x00 x00 x00))
(L (W xff xff xff xff xff xff xff xff)))))
(T (W x01 x00 x00 x00 xa0 x00 x00 x00)
(T (W x00 x00 x80 x3f x00 x00 x80 x3f)
(T (W x1c x01 x00 x00 x04 x00 x00 x00)
(T (W xff xff xff xff xff xff xff xff)
(L (W xff xff xff xff xff xff xff xff)) E)
(L (W x00 x00 x00 x00 x00 x00 x00 x00)))
(T (W x00 x00 x00 x00 x00 x00 x00 x00)
(L (W x00 x00 x00 x00 x01 x00 x00 x00))
(L (W x30 x33 x5f x43 x4c x45 x41 x52))))
(T (W x00 x00 x00 x00 x00 x00 x00 x00)
(T (W x68 x00 x00 x00 x5c x00 x00 x00)
(T (W xff xff xff xff xff xff xff xff)
(L (W x00 x00 x60 x00 x00 x00 x00 x00)) E)
(L (W xc4 x00 x00 x00 x02 x00 x00 x00)))
(T (W x00 x00 x80 x3f x00 x00 x80 x3f)
(L (W xb8 x00 x00 x00 x3c x00 x00 x00))
(L (W xe0 x00 x00 x00 xff xff xff xff))))))
(T (W x64 x00 x00 x00 x9c x00 x00 x00)
(T (W xc4 x00 x00 x00 xb8 x00 x00 x00)
(T (W x50 x00 x00 x00 x44 x00 x00 x00)
(T (W xff xff xff xff xff xff xff xff)
(T (W x00 x00 x00 x00 x02 x00 x00 x00)
(L (W x00 x00 x80 xbf x00 x00 x80 xbf)) E)
(L (W x00 x00 x80 xbf x00 x00 x80 xbf)))
(T (W xff xff xff xff xff xff xff xff)
(L (W xff xff xff xff xff xff xff xff))
(L (W x00 x00 x00 x00 x00 x00 x00 x00))))
(T (W x45 x26 x22 x84 xe4 x9c xf2 xcb)
(T (W x00 x00 x00 x00 x00 x00 x00 x00)
(T (W xff xff xff xff xff xff xff xff)
(L (W xff xff xff xff xff xff xff xff)) E)
(L (W x00 x00 x80 xbf x00 x00 x80 xbf)))
(T (W x04 x00 x00 x00 x7c x03 x00 x00)
(L (W xff xff xff xff xbc x00 x00 x00))
(L (W x00 x00 x00 x00 x00 x00 x00 x00)))))
(T (W x00 x00 x80 x3f x00 x00 x80 x3f)
(T (W x00 x00 x00 x00 x00 x00 x00 x00)
(T (W xff xff xff xff xff xff xff xff)
(T (W x00 x00 x00 x00 x00 x00 x00 x00)
(L (W xff xff xff xff xff xff xff xff)) E)
(L (W x00 x00 x00 x00 x00 x00 x00 x00)))
(T (W x6a x39 xfd xff x74 x00 x00 x00)
(L (W xff xff xff xff xb4 x00 x00 x00))
(L (W xff xff xff xff xff xff xff xff))))
(T (W x01 x00 x00 x00 x04 x00 x00 x00)
(T (W x00 x00 x00 x00 xa4 xfc xfc xff)
(T (W x00 x00 x00 x00 x00 x00 x00 x00)
(L (W xff xff xff xff xff xff xff xff)) E)
(L (W xff xff xff xff xff xff xff xff)))
(T (W xff xff xff xff xff xff xff xff)
(L (W x58 x00 x00 x00 x4c x00 x00 x00))
(L (W x00 x00 x80 xbf x00 x00 x80 xbf)))))))
(T (W xff xff xff xff xff xff xff xff)
(T (W xff xff xff xff xff xff xff xff)
(T (W x18 x00 x00 x00 x10 x00 x00 x00)
(T (W x00 x00 x80 x3f x00 x00 x80 x3f)
(T (W xff xff xff xff xff xff xff xff)
(T (W x00 x00 x00 x00 x00 x00 x00 x00)
(L (W x00 x00 x80 xbf x00 x00 x80 xbf)) E)
(L (W x00 x00 x80 xbf x00 x00 x80 xbf)))
(T (W xff xff xff xff xff xff xff xff)
(L (W xff xff xff xff xff xff xff xff))
(L (W x00 x00 x00 x00 x00 x00 x00 x00))))
(T (W x00 x00 x00 x00 x00 x00 x00 x00)
(T (W x00 x00 x00 x00 x00 x00 x00 x00)
(T (W xff xff xff xff xff xff xff xff)
(L (W xff xff xff xff xc4 x00 x00 x00)) E)
(L (W x00 x00 x80 xbf x00 x00 x80 xbf)))
(T (W xff xff xff xff xff xff xff xff)
(L (W x1c x00 x00 x00 x10 x00 x00 x00))
(L (W xff xff xff xff xff xff xff xff)))))
(T (W x6a xf1 xfb xff x74 x00 x00 x00)
(T (W x00 x00 x80 x3f x00 x00 x80 x3f)
(T (W xff xff xff xff xff xff xff xff)
(T (W x45 x26 x22 x84 xe4 x9c xf2 xcb)
(L (W x25 x00 x00 x00 x28 x00 x00 x00)) E)
(L (W x00 x00 x00 x00 x00 x00 x00 x00)))
(T (W x00 x00 x80 x3f x00 x00 x80 x3f)
(L (W xff xff xff xff xff xff xff xff))
(L (W x84 x05 x00 x00 x5c x04 x00 x00))))
(T (W xc4 x79 xfc xff x3e x00 x00 x00)
(T (W x45 x26 x22 x84 xe4 x9c xf2 xcb)
(T (W x00 x00 x10 x00 x00 x00 x14 x00)
(L (W xff xff xff xff xff xff xff xff)) E)
(L (W xff xff xff xff xff xff xff xff)))
(T (W x18 x00 x00 x00 x0c x00 x00 x00)
(L (W x1d x00 x00 x00 x20 x00 x00 x00))
(L (W x00 x00 x00 x00 x00 x00 x00 x00))))))
(T (W x6a xc1 xfb xff x74 x00 x00 x00)
(T (W x18 x00 x00 x00 x10 x00 x00 x00)
(T (W x00 x00 x80 x3f x00 x00 x80 x3f)
(T (W x00 x00 x00 x00 x00 x00 x00 x00)
(T (W xff xff xff xff xff xff xff xff)
(L (W x45 x26 x22 x84 xe4 x9c xf2 xcb)) E)
(L (W x00 x00 x00 x00 x00 x00 x00 x00)))
(T (W x00 x00 x00 x00 x00 x00 x00 x00)
(L (W x6a x21 xfe xff x74 x00 x00 x00))
(L (W x00 x00 x00 x00 x00 x00 x00 x00))))
(T (W x00 x00 x00 x00 x00 x00 x00 x00)
(T (W x00 x00 x80 x3f x00 x00 x80 x3f)
(T (W x00 x00 x80 x3f x00 x00 x80 x3f)
(L (W x00 x00 x00 x00 x00 x00 x00 x00)) E)
(L (W xb8 x00 x00 x00 x3c x00 x00 x00)))
(T (W x49 xa1 x68 x4a xeb x5f xdd x3d)
(L (W x18 x00 x00 x00 x1b x00 x00 x00))
(L (W x00 x00 x00 x00 x00 x00 x00 x00)))))
(T (W x00 x00 x80 x3f x00 x00 x80 x3f)
(T (W x00 x00 x00 x00 x00 x00 x00 x00)
(T (W x18 x00 x00 x00 x10 x00 x00 x00)
(T (W x00 x00 x80 x3f x00 x00 x80 x3f)
(L (W xff xff xff xff xec x00 x00 x00)) E)
(L (W x00 x00 x00 x00 x00 x00 x00 x00)))
(T (W x00 x00 x00 x00 xa4 x44 xfd xff)
(L (W x03 x00 x00 x00 xd0 x00 x00 x00))
(L (W xff xff xff xff xff xff xff xff))))
(T (W xff xff xff xff xff xff xff xff)
(T (W xc4 x00 x00 x00 x01 x00 x00 x00)
(L (W xb4 x00 x00 x00 x0a x00 x00 x00))
(L (W xff xff xff xff xff xff xff xff)))
(T (W xff xff xff xff xff xff xff xff)
(L (W x54 x00 x00 x00 x48 x00 x00 x00))
(L (W x45 x26 x22 x84 xe4 x9c xf2 xcb))))))))))))
(T (W x78 x8c x03 x00 x44 x8b x03 x00)
(T (W x08 xd0 x02 x00 xe4 xc6 x02 x00)
(T (W xa8 x2b x02 x00 x64 x29 x02 x00)
(T (W x98 xbc x00 x00 x64 xbb x00 x00)
(T (W xb8 x00 x00 x00 xac x00 x00 x00)
(T (W x00 x00 x00 x00 x00 x00 x00 x00)
(T (W x00 x00 x00 x00 x00 x00 x00 x00)
(T (W x71 x00 x00 x00 xff xff xff xff)
(T (W xff xff xff xff xff xff xff xff)
(T (W x00 x00 x00 x00 x00 x00 x00 x00)
(T (W x00 x00 x00 x00 x00 x00 x00 x00)
(L (W x03 x00 x00 x00 xd0 x00 x00 x00)) E)
(L (W xff xff xff xff xff xff xff xff)))
(T (W x00 x00 x00 x00 x00 x00 x00 x00)
(L (W x6c x64 x5f x70 x6f x6b x65 x5f))
(L (W x00 x00 x00 x00 x00 x00 x00 x00))))
(T (W x2a x42 xfc xff x74 x00 x00 x00)
(T (W x3c x40 x6d x62 xe0 x56 xc2 x7e)
(T (W xb8 x00 x00 x00 xac x00 x00 x00)
(L (W x00 x00 x00 x00 x00 x00 x00 x00)) E)
(L (W x68 x00 x00 x00 x5c x00 x00 x00)))
(T (W x54 x02 x00 x00 x34 x01 x00 x00)
(L (W x45 x44 x00 x00 x00 x00 x00 x00))
(L (W x00 x00 x00 x00 x00 x00 x00 x00)))))
(T (W x65 x83 xd0 xfc xa6 x11 x4f x5f)
(T (W xff xff xff xff xff xff xff xff)
(T (W x6c x00 x70 x00 x62 x00 x00 x00)
(T (W x00 x00 x00 x00 x00 x00 x00 x00)
(L (W x45 x26 x22 x84 xe4 x9c xf2 xcb)) E)
(L (W x00 x00 x80 xbf x00 x00 x80 xbf)))
(T (W x68 x00 x00 x00 x5c x00 x00 x00)
(L (W x00 x00 x01 x01 x71 x00 x00 x00))
(L (W x00 x00 x80 xbf x00 x00 x80 xbf))))
(T (W xf4 x66 xfc xff x00 x01 x01 x01)
(T (W xb0 x00 x00 x00 x64 x00 x00 x00)
(T (W x34 x00 x38 x00 x3c x00 x40 x00)
(L (W xa0 x00 x00 x00 x64 x00 x00 x00)) E)
(L (W x00 x00 x00 x00 x00 x00 x00 x00)))
(T (W xff xff xff xff xa0 x00 x00 x00)
(L (W x00 x00 x00 x00 x00 x00 x00 x00))
(L (W x00 x01 x01 x01 xca x69 xff xff))))))
(T (W x00 x00 x00 x00 x00 x00 x00 x00)
(T (W xff xff xff xff xff xff xff xff)
(T (W xff xff xff xff xff xff xff xff)
(T (W x00 x00 x00 x00 x00 x00 x00 x00)
(T (W x00 x00 x80 x3f x00 x00 x80 x3f)
(L (W x18 x00 x00 x00 x0c x00 x00 x00)) E)
(L (W xff xff xff xff xff xff xff xff)))
(T (W x4f x84 x6f x8b xe8 xcb x63 xb7)
(L (W x46 x53 x59 x53 x5f x4e x53 x5f))
(L (W x54 x00 x00 x00 x48 x00 x00 x00))))
(T (W x68 x00 x00 x00 x5c x00 x00 x00)
(T (W x00 x00 x80 x3f x00 x00 x80 x3f)
(T (W x00 x00 x00 x00 x00 x00 x00 x00)
(L (W x00 x00 x00 x00 x00 x00 x00 x00)) E)
(L (W xff xff xff xff xff xff xff xff)))
(T (W x45 x26 x22 x84 xe4 x9c xf2 xcb)
(L (W x00 x00 x00 x00 xb2 x70 xfe xff))
(L (W x00 x00 x00 x00 x00 x00 x00 x00)))))
(T (W x2a x10 xfe xff x00 x00 x01 x01)
(T (W xff xff xff xff xff xff xff xff)
(T (W x00 x00 x00 x00 x00 x00 x00 x00)
(T (W x00 x00 x00 x00 x02 x00 x00 x00)
(L (W xc2 xb4 xff xff x63 x01 x00 x00)) E)
(L (W xf4 xb6 xfe xff x00 x01 x01 x01)))
(T (W x03 x00 x00 x00 xcc x00 x00 x00)
(L (W x30 x33 x5f x43 x4c x45 x41 x52))
(L (W x00 x00 x80 xbf x00 x00 x80 xbf))))
(T (W x00 x00 x80 x3f x00 x00 x80 x3f)
(T (W x4b x00 x00 x00 xff xff xff xff)
(T (W xac x01 x00 x00 xb4 x00 x00 x00)
(L (W x00 x00 x00 x00 x00 x00 x00 x00)) E)
(L (W x00 x00 x00 x00 x00 x00 x00 x00)))
(T (W xfa x7b xfd xff x9c x01 x00 x00)
(L (W x00 x00 x00 x00 x00 x00 x00 x00))
(L (W x00 x01 x01 x01 xca x79 xff xff)))))))
(T (W x70 x5f x6c x65 x61 x64 x65 x72)
(T (W xff xff xff xff xff xff xff xff)
(T (W xff xff xff xff xff xff xff xff)
(T (W xb8 x00 x00 x00 xac x00 x00 x00)
(T (W x00 x00 x00 x00 x00 x00 x00 x00)
(T (W x68 x00 x00 x00 x5c x00 x00 x00)
(L (W xff xff xff xff xb4 x00 x00 x00)) E)
(L (W xff xff xff xff xff xff xff xff)))
(T (W x00 x00 x00 x00 x00 x00 x00 x00)
(L (W xff xff xff xff xff xff xff xff))
(L (W x49 xa1 x68 x4a xeb x5f xdd x3d))))
(T (W x00 x00 x80 x3f x00 x00 x80 x3f)
(T (W x00 x00 x00 x00 x00 x00 x00 x00)
(T (W xee xbb x33 x97 x85 xa9 x5f x5f)
(L (W x00 x00 x00 x00 x00 x00 x00 x00)) E)
(L (W x45 x26 x22 x84 xe4 x9c xf2 xcb)))
(T (W x4c x45 x41 x52 x45 x44 x00 x00)
(L (W x00 x00 x00 x00 x08 x00 x00 x00))
(L (W x00 x00 x00 x00 x00 x00 x00 x00)))))
(T (W x8d x01 x00 x00 xff xff xff xff)
(T (W xff xff xff xff x03 x00 x00 x00)
(T (W x00 x00 x80 x3f x00 x00 x80 x3f)
(T (W x00 x00 x00 x00 x00 x00 x00 x00)
(L (W x46 x53 x59 x53 x5f x4e x53 x5f)) E)
(L (W x00 x00 x00 x00 x64 xad xfe xff)))
(T (W x2a x2a xfd xff x74 x00 x00 x00)
(L (W x00 x00 x80 xbf x00 x00 x80 xbf))
(L (W x00 x00 x80 xbf x00 x00 x80 xbf))))
(T (W x00 x00 x80 x3f x00 x00 x80 x3f)
(T (W xff xff xff xff xff xff xff xff)
(T (W x00 x00 x00 x00 x1c x00 x00 x00)
(L (W x00 x00 x80 xbf x00 x00 x80 xbf)) E)
(L (W x00 x00 x00 x00 x00 x00 x00 x00)))
(T (W xff xff xff xff xff xff xff xff)
(L (W x00 x00 x00 x00 x00 x00 x00 x00))
(L (W x45 x26 x22 x84 xe4 x9c xf2 xcb))))))
(T (W x3e x00 x00 x00 x10 x00 x00 x00)
(T (W x00 x00 x00 x00 x00 x00 x00 x00)
(T (W xff xff xff xff xff xff xff xff)
(T (W x00 x00 x00 x00 x00 x00 x00 x00)
(T (W x00 x00 x80 x3f x00 x00 x80 x3f)
(L (W xff xff xff xff xac x00 x00 x00)) E)
(L (W xff xff xff xff xff xff xff xff)))
(T (W x00 x00 x00 x00 x00 x00 x00 x00)
(L (W x00 x00 x00 x00 x00 x00 x00 x00))
(L (W x00 x00 x00 x00 x64 x1d xff xff))))
(T (W x2a x5a xfc xff x74 x00 x00 x00)
(T (W xda xdb xfc xff x78 x00 x00 x00)
(T (W x00 x00 x00 x00 x00 x00 x00 x00)
(L (W x00 x00 x00 x00 x12 x00 x00 x00)) E)
(L (W xff xff xff xff xff xff xff xff)))
(T (W x00 x00 x80 x3f x00 x00 x80 x3f)
(L (W x00 x00 x00 x00 x00 x00 x00 x00))
(L (W x00 x00 x80 xbf x00 x00 x80 xbf)))))
(T (W xff xff xff xff xff xff xff xff)
(T (W x18 x00 x00 x00 x0c x00 x00 x00)
(T (W x00 x00 x00 x00 x00 x00 x00 x00)
(T (W xff xff xff xff xff xff xff xff)
(L (W x00 x00 x00 x00 x12 x00 x00 x00)) E)
(L (W x2a xba xfe xff x74 x00 x00 x00)))
(T (W xff xff xff xff xff xff xff xff)
(L (W x84 x42 xfe xff x1d x00 x00 x00))
(L (W x00 x00 x00 x00 x00 x00 x00 x00))))
(T (W x00 x00 x80 x3f x00 x00 x80 x3f)
(T (W x74 x03 x00 x00 x4c x02 x00 x00)
(T (W x45 x26 x22 x84 xe4 x9c xf2 xcb)
(L (W x00 x00 x00 x00 x00 x00 x00 x00)) E)
(L (W x00 x00 x00 x00 x12 x00 x00 x00)))
(T (W x00 x00 x00 x00 x00 x00 x00 x00)
(L (W xff xff xff xff xff xff xff xff))
(L (W xff xff xff xff xff xff xff xff))))))))
(T (W x00 x00 x00 x00 x00 x00 x00 x00)
(T (W x00 x00 x00 x00 x00 x00 x00 x00)
(T (W x00 x00 x00 x00 x00 x00 x00 x00)
(T (W x00 x00 x80 x3f x00 x00 x80 x3f)
(T (W x45 x26 x22 x84 xe4 x9c xf2 xcb)
(T (W xff xff xff xff xff xff xff xff)
(T (W x00 x00 x00 x00 x00 x00 x00 x00)
(L (W x00 x00 x00 x00 x00 x00 x00 x00)) E)
(L (W x00 x00 x00 x00 x00 x00 x00 x00)))
(T (W xf4 x0a xfd xff x00 x01 x01 x01)
(L (W x45 x44 x00 x00 x00 x00 x00 x00))
(L (W x18 x00 x00 x00 x10 x00 x00 x00))))
(T (W x00 x00 x00 x00 x00 x00 x00 x00)
(T (W x00 x00 x00 x00 x64 xc9 xfc xff)
(T (W x00 x00 x80 x3f x00 x00 x80 x3f)
(L (W x18 x00 x00 x00 x10 x00 x00 x00)) E)
(L (W x00 x00 x00 x00 x00 x00 x00 x00)))
(T (W x50 x00 x00 x00 x44 x00 x00 x00)
(L (W x00 x00 x00 x00 xf8 x4a xfe xff))
(L (W x45 x26 x22 x84 xe4 x9c xf2 xcb)))))
(T (W x00 x00 x80 x3f x00 x00 x80 x3f)
(T (W x00 x00 x00 x00 x00 x00 x00 x00)
(T (W xb8 x00 x00 x00 xac x00 x00 x00)
(T (W x45 x26 x22 x84 xe4 x9c xf2 xcb)
(L (W x00 x00 x00 x00 x00 x00 x00 x00)) E)
(L (W xff xff xff xff xff xff xff xff)))
(T (W xfd x57 xe5 x48 xc1 x9b xbe x9b)
(L (W xff xff xff xff x9c x00 x00 x00))
(L (W x64 x03 x00 x00 x34 x02 x00 x00))))
(T (W xff xff xff xff xff xff xff xff)
(T (W x00 x00 x00 x00 x00 x00 x00 x00)
(T (W x00 x00 x80 xbf x00 x00 x80 xbf)
(L (W x00 x00 x00 x00 x00 x00 x00 x00)) E)
(L (W x00 x00 x80 xbf x00 x00 x80 xbf)))
(T (W x00 x00 x00 x00 x00 x00 x00 x00)
(L (W x00 x00 x80 xbf x00 x00 x80 xbf))
(L (W x2a x86 xff xff xc6 x00 x00 x00))))))
(T (W x00 x00 x80 x3f x00 x00 x80 x3f)
(T (W x00 x00 x80 x3f x00 x00 x80 x3f)
(T (W x00 x00 x00 x00 x00 x00 x00 x00)
(T (W xff xff xff xff xff xff xff xff)
(T (W xff xff xff xff xff xff xff xff)
(L (W x00 x00 x00 x00 x00 x00 x00 x00)) E)
(L (W x00 x00 x00 x00 x00 x00 x00 x00)))
(T (W xff xff xff xff xff xff xff xff)
(L (W x6c x00 x00 x00 x60 x00 x00 x00))
(L (W x74 x0c x00 x00 x44 x0b x00 x00))))
(T (W x40 x00 x00 x00 x10 x00 x00 x00)
(T (W x4b x00 x00 x00 xff xff xff xff)
(T (W xff xff xff xff xff xff xff xff)
(L (W x18 x00 x00 x00 x10 x00 x00 x00)) E)
(L (W x00 x00 x00 x00 x00 x00 x00 x00)))
(T (W xff xff xff xff xff xff xff xff)
(L (W x45 x26 x22 x84 xe4 x9c xf2 xcb))
(L (W xff xff xff xff xff xff xff xff)))))
(T (W x00 x00 x80 x3f x00 x00 x80 x3f)
(T (W x00 x00 x00 x00 x00 x00 x00 x00)
(T (W x50 x00 x00 x00 x44 x00 x00 x00)
(T (W x64 x00 x00 x00 x9c x00 x00 x00)
(L (W x40 x00 x00 x00 x00 x00 x80 xbf)) E)
(L (W xff xff xff xff xff xff xff xff)))
(T (W x00 x00 x80 x3f x00 x00 x80 x3f)
(L (W x03 x00 x00 x00 xc8 x00 x00 x00))
(L (W x18 x00 x00 x00 x0c x00 x00 x00))))
(T (W xff xff xff xff xff xff xff xff)
(T (W x54 x00 x00 x00 x48 x00 x00 x00)
(T (W x0e x4c xac xeb x6f x4d xab x7a)
(L (W x00 x00 x00 x00 x00 x00 x62 x00)) E)
(L (W x2a xf6 xfe xff x74 x00 x00 x00)))
(T (W x2a x76 xfd xff x74 x00 x00 x00)
(L (W x44 x00 x00 x00 x00 x00 x80 xbf))
(L (W xff xff xff xff xff xff xff xff)))))))
(T (W x00 x00 x00 x00 x00 x00 x00 x00)
(T (W x2a xae xfb xff x74 x00 x00 x00)
(T (W x54 x00 x00 x00 x48 x00 x00 x00)
(T (W x00 x00 x80 x3f x00 x00 x80 x3f)
(T (W xff xff xff xff xff xff xff xff)
(T (W x2a xac xff xff x00 x00 x01 x01)
(L (W x30 x33 x5f x43 x4c x45 x41 x52)) E)
(L (W x00 x00 x00 x00 x00 x00 x00 x00)))
(T (W xff xff xff xff xc4 x00 x00 x00)
(L (W x45 x26 x22 x84 xe4 x9c xf2 xcb))
(L (W xff xff xff xff xff xff xff xff))))
(T (W x00 x00 x00 x00 x00 x00 x00 x00)
(T (W xff xff xff xff xff xff xff xff)
(T (W x45 x26 x22 x84 xe4 x9c xf2 xcb)
(L (W x45 x26 x22 x84 xe4 x9c xf2 xcb)) E)
(L (W x00 x00 x00 x00 x00 x00 x00 x00)))
(T (W xff xff xff xff xac x00 x00 x00)
(L (W x45 x26 x22 x84 xe4 x9c xf2 xcb))
(L (W xff xff xff xff xff xff xff xff)))))
(T (W x00 x00 x80 x3f x00 x00 x80 x3f)
(T (W x00 x00 x00 x00 x00 x00 x00 x00)
(T (W xff xff xff xff xff xff xff xff)
(T (W xf4 xb2 xfd xff x00 x01 x01 x01)
(L (W x00 x00 x80 xbf x00 x00 x80 xbf)) E)
(L (W x49 x00 x00 x00 xff xff xff xff)))
(T (W x12 x00 x00 x00 x46 x53 x59 x53)
(L (W x00 x00 x80 xbf x00 x00 x80 xbf))
(L (W xff xff xff xff xff xff xff xff))))
(T (W xff xff xff xff xff xff xff xff)
(T (W x00 x00 x80 x3f x00 x00 x80 x3f)
(T (W x02 x00 x00 x00 xff xff xff xff)
(L (W xff xff xff xff xff xff xff xff)) E)
(L (W x29 x00 x00 x00 x2c x00 x00 x00)))
(T (W x00 x00 x80 x3f x00 x00 x80 x3f)
(L (W x40 x00 x00 x00 x00 x00 x80 xbf))
(L (W xff xff xff xff xff xff xff xff))))))
(T (W x00 x00 x80 x3f x00 x00 x80 x3f)
(T (W x00 x00 x80 x3f x00 x00 x80 x3f)
(T (W x00 x00 x00 x00 x00 x00 x00 x00)
(T (W xff xff xff xff x04 x00 x00 x00)
(T (W xff xff xff xff xff xff xff xff)
(L (W x00 x00 x00 x00 x00 x00 x00 x00)) E)
(L (W xff xff xff xff xff xff xff xff)))
(T (W xff xff xff xff xff xff xff xff)
(L (W x00 x00 x00 x00 x00 x00 x00 x00))
(L (W x00 x00 x00 x00 x3a x22 xff xff))))
(T (W x2a x7c xfe xff x00 x00 x01 x01)
(T (W x00 x00 x00 x00 x00 x00 x00 x00)
(T (W x00 x00 x00 x00 x64 xe1 xfd xff)
(L (W x00 x00 x80 xbf x00 x00 x80 xbf)) E)
(L (W x00 x00 x80 xbf x00 x00 x80 xbf)))
(T (W xff xff xff xff xff xff xff xff)
(L (W x00 x00 x80 xbf x00 x00 x80 xbf))
(L (W xff xff xff xff xff xff xff xff)))))
(T (W x00 x00 x80 x3f x00 x00 x80 x3f)
(T (W x00 x00 x00 x00 x00 x00 x00 x00)
(T (W x00 x00 x80 x3f x00 x00 x80 x3f)
(T (W x00 x00 x00 x00 x00 x00 x00 x00)
(L (W x74 x00 x00 x00 x68 x00 x00 x00)) E)
(L (W x46 x53 x59 x53 x5f x4e x53 x5f)))
(T (W x00 x00 x80 x3f x00 x00 x80 x3f)
(L (W x1c x00 x00 x00 x10 x00 x00 x00))
(L (W xb8 x00 x00 x00 x3c x00 x00 x00))))
(T (W xff xff xff xff xff xff xff xff)
(T (W x00 x00 x80 x3f x00 x00 x80 x3f)
(T (W x00 x00 x00 x00 x00 x00 x00 x00)
(L (W x50 x00 x00 x00 x18 x00 x00 x00)) E)
(L (W xff xff xff xff xff xff xff xff)))
(T (W xff xff xff xff xff xff xff xff)
(L (W x00 x00 x80 xbf x00 x00 x80 xbf))
(L (W x46 x53 x59 x53 x5f x4e x53 x5f)))))))))
(T (W x00 x00 x80 x3f x00 x00 x80 x3f)
(T (W x2a xaa xfd xff x00 x00 x01 x01)
(T (W x18 x00 x00 x00 x10 x00 x00 x00)
(T (W xff xff xff xff xff xff xff xff)
(T (W x00 x00 x00 x00 x00 x00 x00 x00)
(T (W x00 x00 x00 x00 x00 x00 x00 x00)
(T (W x45 x26 x22 x84 xe4 x9c xf2 xcb)
(T (W x00 x00 x00 x00 x64 x87 xfd xff)
(L (W x00 x00 x00 x00 x04 x00 x00 x00)) E)
(L (W x00 x00 x00 x00 x12 x00 x00 x00)))
(T (W x00 x00 x80 x3f x00 x00 x80 x3f)
(L (W xff xff xff xff xa0 x00 x00 x00))
(L (W x00 x00 x80 xbf x00 x00 x80 xbf))))
(T (W xff xff xff xff xff xff xff xff)
(T (W x45 x26 x22 x84 xe4 x9c xf2 xcb)
(T (W xff xff xff xff xff xff xff xff)
(L (W x50 x00 x00 x00 x44 x00 x00 x00)) E)
(L (W xff xff xff xff xff xff xff xff)))
(T (W x45 x26 x22 x84 xe4 x9c xf2 xcb)
(L (W x00 x00 x80 xbf x00 x00 x80 xbf))
(L (W x6c x00 x00 x00 x60 x00 x00 x00)))))
(T (W x45 x26 x22 x84 xe4 x9c xf2 xcb)
(T (W x00 x00 x01 x01 xd3 x00 x00 x00)
(T (W xda xa5 xfc xff x78 x00 x00 x00)
(T (W x00 x00 x80 x3f x00 x00 x80 x3f)
(L (W xc2 xa6 xff xff xa9 x01 x00 x00)) E)
(L (W xff xff xff xff xb0 x00 x00 x00)))
(T (W xff xff xff xff xff xff xff xff)
(L (W x45 x26 x22 x84 xe4 x9c xf2 xcb))
(L (W xff xff xff xff xac x00 x00 x00))))
(T (W xb8 x00 x00 x00 xac x00 x00 x00)
(T (W x45 x44 x00 x00 x00 x00 x00 x00)
(T (W x18 x00 x00 x00 x10 x00 x00 x00)
(L (W xff xff xff xff xff xff xff xff)) E)
(L (W x00 x00 x00 x00 x00 x00 x00 x00)))
(T (W xff xff xff xff xff xff xff xff)
(L (W x00 x00 x00 x00 x00 x00 x00 x00))
(L (W x18 x00 x00 x00 x0c x00 x00 x00))))))
(T (W x45 x26 x22 x84 xe4 x9c xf2 xcb)
(T (W x00 x00 x00 x00 x00 x00 x00 x00)
(T (W x7e x00 x00 x00 xff xff xff xff)
(T (W x00 x00 x80 x3f x00 x00 x80 x3f)
(T (W x2a x94 xfd xff x74 x00 x00 x00)
(L (W xa2 xac xff xff xa3 x01 x00 x00)) E)
(L (W x00 x00 x00 x00 x00 x00 x00 x00)))
(T (W x00 x00 x80 x3f x00 x00 x80 x3f)
(L (W x00 x00 x80 x3f x00 x00 x80 x3f))
(L (W xc4 x00 x00 x00 x01 x00 x00 x00))))
(T (W xff xff xff xff x04 x00 x00 x00)
(T (W x18 x00 x00 x00 x10 x00 x00 x00)
(T (W x00 x00 x80 x3f x00 x00 x80 x3f)
(L (W x00 x00 x80 xbf x00 x00 x80 xbf)) E)
(L (W x00 x00 x00 x00 x00 x00 x00 x00)))
(T (W x00 x00 x80 x3f x00 x00 x80 x3f)
(L (W x00 x00 x80 xbf x00 x00 x80 xbf))
(L (W xda x55 xff xff x78 x00 x00 x00)))))
(T (W x00 x00 x00 x00 x00 x00 x00 x00)
(T (W x48 x03 x00 x00 x34 x02 x00 x00)
(T (W xff xff xff xff xff xff xff xff)
(T (W x00 x00 x00 x00 x00 x00 x00 x00)
(L (W x00 x00 x00 x00 x00 x00 x00 x00)) E)
(L (W xff xff xff xff xff xff xff xff)))
(T (W x04 x00 x00 x00 x7c x03 x00 x00)
(L (W x00 x00 x80 xbf x00 x00 x80 xbf))
(L (W x00 x00 x80 xbf x00 x00 x80 xbf))))
(T (W xff xff xff xff x03 x00 x00 x00)
(T (W x00 x00 x00 x00 x12 x00 x00 x00)
(T (W x50 x00 x00 x00 x44 x00 x00 x00)
(L (W x00 x00 x80 xbf x00 x00 x80 xbf)) E)
(L (W x00 x00 x80 xbf x00 x00 x80 xbf)))
(T (W x00 x00 x80 x3f x00 x00 x80 x3f)
(L (W x00 x00 x00 x00 x00 x00 x00 x00))
(L (W x18 x00 x00 x00 x0c x00 x00 x00)))))))
(T (W xd0 x00 x00 x00 xac x00 x00 x00)
(T (W x6f x6b x65 x5f x63 x6f x77 x61)
(T (W x00 x00 x00 x00 x00 x00 x00 x00)
(T (W x5b x1d x00 x64 x6b x97 x6d xde)
(T (W x50 x00 x00 x00 x44 x00 x00 x00)
(T (W xff xff xff xff xff xff xff xff)
(L (W xff xff xff xff xff xff xff xff)) E)
(L (W x2a xac xfe xff x8d x01 x00 x00)))
(T (W x00 x00 x80 x3f x00 x00 x80 x3f)
(L (W x00 x00 x00 x00 x00 x00 x00 x00))
(L (W x45 x26 x22 x84 xe4 x9c xf2 xcb))))
(T (W xff xff xff xff xff xff xff xff)
(T (W x54 x00 x00 x00 x48 x00 x00 x00)
(T (W x00 x00 x00 x00 x00 x00 x00 x00)
(L (W x00 x00 x80 xbf x00 x00 x80 xbf)) E)
(L (W x00 x00 x00 x00 x00 x00 x00 x00)))
(T (W x00 x00 x80 x3f x00 x00 x80 x3f)
(L (W x00 x00 x80 xbf x00 x00 x80 xbf))
(L (W x00 x00 x80 xbf x00 x00 x80 xbf)))))
(T (W x45 x26 x22 x84 xe4 x9c xf2 xcb)
(T (W x00 x00 x00 x00 x00 x00 x00 x00)
(T (W x18 x00 x00 x00 x0c x00 x00 x00)
(T (W x00 x00 x80 x3f x00 x00 x80 x3f)
(L (W x00 x00 x00 x00 x00 x00 x00 x00)) E)
(L (W xff xff xff xff xff xff xff xff)))
(T (W xff xff xff xff xff xff xff xff)
(L (W x03 x00 x00 x00 xbc x00 x00 x00))
(L (W x45 x26 x22 x84 xe4 x9c xf2 xcb))))
(T (W xc0 x00 x00 x00 xb4 x00 x00 x00)
(T (W x84 xf4 xfc xff x15 x00 x00 x00)
(T (W x29 x00 x00 x00 x67 x72 x6f x75)
(L (W x68 x00 x00 x00 x5c x00 x00 x00)) E)
(L (W x00 x00 x00 x00 x00 x00 x00 x00)))
(T (W x00 x00 x00 x00 x00 x00 x00 x00)
(L (W x45 x26 x22 x84 xe4 x9c xf2 xcb))
(L (W x00 x00 x00 x00 x64 x6f xff xff))))))
(T (W x45 x26 x22 x84 xe4 x9c xf2 xcb)
(T (W x00 x00 x00 x00 x00 x00 x00 x00)
(T (W xff xff xff xff xff xff xff xff)
(T (W x00 x00 x80 x3f x00 x00 x80 x3f)
(T (W xf4 xa0 xfd xff x00 x01 x01 x01)
(L (W xff xff xff xff xff xff xff xff)) E)
(L (W x10 x00 x14 x00 x00 x00 x00 x00)))
(T (W x2a x1c xfd xff x74 x00 x00 x00)
(L (W x68 x00 x00 x00 x5c x00 x00 x00))
(L (W xff xff xff xff xff xff xff xff))))
(T (W x18 x00 x00 x00 x10 x00 x00 x00)
(T (W xff xff xff xff xff xff xff xff)
(T (W x00 x00 x80 x3f x00 x00 x80 x3f)
(L (W x4f x84 x6f x8b xe8 xcb x63 xb7)) E)
(L (W x46 x53 x59 x53 x5f x4e x53 x5f)))
(T (W x18 x00 x00 x00 x0c x00 x00 x00)
(L (W x00 x00 x00 x00 x00 x00 x00 x00))
(L (W xff xff xff xff xc4 x00 x00 x00)))))
(T (W x00 x00 x00 x00 x00 x00 x00 x00)
(T (W xff xff xff xff xff xff xff xff)
(T (W x54 x00 x00 x00 x00 x00 x00 x00)
(T (W x18 x00 x00 x00 x10 x00 x00 x00)
(L (W x00 x00 x80 xbf x00 x00 x80 xbf)) E)
(L (W xff xff xff xff xbc x00 x00 x00)))
(T (W x5f x4e x53 x5f x30 x33 x5f x43)
(L (W x00 x00 x80 xbf x00 x00 x80 xbf))
(L (W x50 x00 x00 x00 x44 x00 x00 x00))))
(T (W x00 x00 x00 x00 x64 x7f xfc xff)
(T (W x45 x26 x22 x84 xe4 x9c xf2 xcb)
(T (W xff xff xff xff xff xff xff xff)
(L (W x00 x00 x48 x00 x4c x00 x00 x00)) E)
(L (W x00 x00 x80 xbf x00 x00 x80 xbf)))
(T (W x00 x00 x80 x3f x00 x00 x80 x3f)
(L (W x00 x00 x00 x00 x00 x00 x00 x00))
(L (W xff xff xff xff xff xff xff xff))))))))
(T (W x04 x00 x00 x00 x62 xee xfe xff)
(T (W x00 x00 x80 x3f x00 x00 x80 x3f)
(T (W xf4 xac xfb xff x00 x01 x01 x01)
(T (W xff xff xff xff xff xff xff xff)
(T (W x45 x26 x22 x84 xe4 x9c xf2 xcb)
(T (W x00 x00 x00 x00 x00 x00 x00 x00)
(T (W x45 x26 x22 x84 xe4 x9c xf2 xcb)
(L (W x00 x00 x80 xbf x00 x00 x80 xbf)) E)
(L (W x00 x01 x01 x01 xca x8f xfe xff)))
(T (W xff xff xff xff xff xff xff xff)
(L (W x00 x00 x80 x3f x00 x00 x80 x3f))
(L (W x00 x00 x00 x00 x1a x1f xff xff))))
(T (W x00 x00 x80 x3f x00 x00 x80 x3f)
(T (W xff xff xff xff xff xff xff xff)
(T (W xff xff xff xff xff xff xff xff)
(L (W x45 x44 x00 x00 x00 x00 x00 x00)) E)
(L (W x00 x00 x80 xbf x00 x00 x80 xbf)))
(T (W xff xff xff xff xff xff xff xff)
(L (W xff xff xff xff xff xff xff xff))
(L (W xff xff xff xff xff xff xff xff)))))
(T (W xb8 x00 x00 x00 xac x00 x00 x00)
(T (W x00 x00 x80 x3f x00 x00 x80 x3f)
(T (W x6a xbf x38 x75 x73 xb6 xfc xcf)
(T (W xff xff xff xff xff xff xff xff)
(L (W x00 x00 x80 xbf x00 x00 x80 xbf)) E)
(L (W x00 x00 x00 x00 x00 x00 x00 x00)))
(T (W x00 x00 x80 x3f x00 x00 x80 x3f)
(L (W x63 x46 x69 x12 x83 x6c x37 xc6))
(L (W x00 x00 x00 x00 x00 x00 x00 x00))))
(T (W x00 x00 x00 x00 x00 x00 x00 x00)
(T (W x45 x26 x22 x84 xe4 x9c xf2 xcb)
(T (W xff xff xff xff xff xff xff xff)
(L (W xff xff xff xff xff xff xff xff)) E)
(L (W xff xff xff xff xff xff xff xff)))
(T (W xf4 x6c xfd xff x00 x01 x01 x01)
(L (W xff xff xff xff xff xff xff xff))
(L (W x00 x00 x00 x00 x00 x00 x00 x00))))))
(T (W xff xff xff xff xff xff xff xff)
(T (W xb8 x00 x00 x00 xac x00 x00 x00)
(T (W x00 x00 x80 x3f x00 x00 x80 x3f)
(T (W x00 x00 x00 x00 x04 x00 x00 x00)
(T (W x00 x00 x00 x00 x00 x00 x00 x00)
(L (W x00 x00 x80 xbf x00 x00 x80 xbf)) E)
(L (W xda x99 xfe xff x78 x00 x00 x00)))
(T (W x00 x00 x00 x00 x00 x00 x00 x00)
(L (W xff xff xff xff xff xff xff xff))
(L (W x00 x00 x80 xbf x00 x00 x80 xbf))))
(T (W x00 x00 x00 x00 x00 x00 x00 x00)
(T (W x00 x00 x00 x00 x00 x00 x00 x00)
(T (W x18 x01 x00 x00 x04 x00 x00 x00)
(L (W xff xff xff xff xff xff xff xff)) E)
(L (W x50 x00 x00 x00 x44 x00 x00 x00)))
(T (W x00 x00 x00 x00 x00 x00 x00 x00)
(L (W xff xff xff xff xff xff xff xff))
(L (W x00 x00 x00 x00 x00 x00 x00 x00)))))
(T (W x68 x00 x00 x00 x5c x00 x00 x00)
(T (W x45 x26 x22 x84 xe4 x9c xf2 xcb)
(T (W x25 x00 x00 x00 xff xff xff xff)
(T (W x00 x00 x00 x00 x00 x00 x00 x00)
(L (W xff xff xff xff xff xff xff xff)) E)
(L (W x00 x00 x00 x00 x00 x00 x00 x00)))
(T (W x68 x00 x00 x00 x5c x00 x00 x00)
(L (W xff xff xff xff xff xff xff xff))
(L (W x38 x02 x00 x00 x30 x01 x00 x00))))
(T (W x3e x00 x00 x00 x0c x00 x00 x00)
(T (W xc4 x00 x00 x00 x01 x00 x00 x00)
(T (W x4e x4f x54 x5f x52 x45 x53 x50)
(L (W xff xff xff xff xff xff xff xff)) E)
(L (W xaa x01 x00 x00 xff xff xff xff)))
(T (W xff xff xff xff xff xff xff xff)
(L (W x1c x00 x00 x00 x10 x00 x00 x00))
(L (W x84 x80 xff xff x14 x00 x00 x00)))))))
(T (W xff xff xff xff xff xff xff xff)
(T (W xff xff xff xff xff xff xff xff)
(T (W xff xff xff xff xff xff xff xff)
(T (W x18 x00 x00 x00 x0c x00 x00 x00)
(T (W x00 x00 x00 x00 x00 x00 x00 x00)
(T (W x00 x00 x00 x00 x00 x00 x00 x00)
(L (W x00 x00 x80 xbf x00 x00 x80 xbf)) E)
(L (W x45 x26 x22 x84 xe4 x9c xf2 xcb)))
(T (W xff xff xff xff xff xff xff xff)
(L (W xda x11 xfe xff x78 x00 x00 x00))
(L (W x4f x84 x6f x8b xe8 xcb x63 xb7))))
(T (W x00 x00 x80 x3f x00 x00 x80 x3f)
(T (W x84 xd8 xfc xff x29 x00 x00 x00)
(T (W xff xff xff xff xff xff xff xff)
(L (W xff xff xff xff xff xff xff xff)) E)
(L (W x00 x00 x80 xbf x00 x00 x80 xbf)))
(T (W x04 x00 x00 x00 xea x60 xfd xff)
(L (W xff xff xff xff xff xff xff xff))
(L (W xa9 x01 x00 x00 xff xff xff xff)))))
(T (W x45 x26 x22 x84 xe4 x9c xf2 xcb)
(T (W x00 x00 x80 x3f x00 x00 x80 x3f)
(T (W x26 x00 x00 x00 xff xff xff xff)
(T (W xff xff xff xff xff xff xff xff)
(L (W xff xff xff xff xff xff xff xff)) E)
(L (W x00 x00 x00 x00 x00 x00 x00 x00)))
(T (W x50 x00 x00 x00 x44 x00 x00 x00)
(L (W xff xff xff xff xff xff xff xff))
(L (W x00 x00 x00 x00 x00 x00 x00 x00))))
(T (W x00 x00 x00 x00 x00 x00 x00 x00)
(T (W x00 x00 x00 x00 x64 xf3 xfc xff)
(T (W x18 x00 x00 x00 x10 x00 x00 x00)
(L (W x2a xf0 xff xff x74 x00 x00 x00)) E)
(L (W xff xff xff xff xff xff xff xff)))
(T (W xff xff xff xff xff xff xff xff)
(L (W x14 x00 x00 x00 x0c x00 x00 x00))
(L (W x00 x00 x00 x00 x00 x00 x00 x00))))))
(T (W xff xff xff xff xff xff xff xff)
(T (W xff xff xff xff xff xff xff xff)
(T (W x6c x00 x00 x00 x60 x00 x00 x00)
(T (W x74 x00 x04 x00 x68 x00 x08 x00)
(T (W x00 x00 x00 x00 x02 x00 x00 x00)
(L (W x00 x00 x80 xbf x00 x00 x80 xbf)) E)
(L (W x4f x84 x6f x8b xe8 xcb x63 xb7)))
(T (W x00 x00 x00 x00 x00 x00 x00 x00)
(L (W x04 xf1 xff xff x01 x01 x01 x01))
(L (W x00 x00 x00 x00 x00 x00 x00 x00))))
(T (W x45 x26 x22 x84 xe4 x9c xf2 xcb)
(T (W x00 x00 x80 x3f x00 x00 x80 x3f)
(T (W x00 x00 x00 x00 x00 x00 x00 x00)
(L (W x30 x00 x34 x00 x38 x00 x3c x00)) E)
(L (W xff xff xff xff xff xff xff xff)))
(T (W x00 x00 x00 x00 x00 x00 x00 x00)
(L (W xff xff xff xff xff xff xff xff))
(L (W x00 x00 x00 x00 x00 x00 x00 x00)))))
(T (W xf4 x04 xfc xff x00 x01 x01 x01)
(T (W x00 x00 x80 x3f x00 x00 x80 x3f)
(T (W xff xff xff xff xff xff xff xff)
(T (W x00 x00 x80 x3f x00 x00 x80 x3f)
(L (W x1d x00 x00 x00 x20 x00 x00 x00)) E)
(L (W x49 xa1 x68 x4a xeb x5f xdd x3d)))
(T (W xc0 x00 x00 x00 x01 x00 x00 x00)
(L (W xff xff xff xff xff xff xff xff))
(L (W xff xff xff xff xff xff xff xff))))
(T (W x00 x00 x00 x00 x00 x00 x00 x00)
(T (W xff xff xff xff xff xff xff xff)
(T (W xda x01 xfe xff x78 x00 x00 x00)
(L (W x2a x00 x00 x00 x74 x00 x00 x00)) E)
(L (W xc2 x02 xff xff xa9 x01 x00 x00)))
(T (W x00 x00 x00 x00 x02 x00 x00 x00)
(L (W x70 x00 x00 x00 x64 x00 x00 x00))
(L (W x00 x00 x80 xbf x00 x00 x80 xbf))))))))))
(T (W x08 x52 x01 x00 xac x4f x01 x00)
(T (W xe0 x29 x00 x00 x94 x27 x00 x00)
(T (W xff xff xff xff xff xff xff xff)
(T (W x45 x26 x22 x84 xe4 x9c xf2 xcb)
(T (W x45 x26 x22 x84 xe4 x9c xf2 xcb)
(T (W x00 x00 x00 x00 x00 x00 x00 x00)
(T (W x6c x01 x00 x00 xff xff xff xff)
(T (W x00 x00 x80 x3f x00 x00 x80 x3f)
(T (W x2a x83 xfd xff x74 x00 x00 x00)
(L (W xff xff xff xff xff xff xff xff)) E)
(L (W x00 x00 x00 x00 x04 x00 x00 x00)))
(T (W x00 x00 x00 x00 x00 x00 x00 x00)
(L (W x49 xa1 x68 x4a xeb x5f xdd x3d))
(L (W x4f x84 x6f x8b xe8 xcb x63 xb7))))
(T (W xff xff xff xff x04 x00 x00 x00)
(T (W x00 x00 x00 x00 x00 x00 x00 x00)
(T (W xff xff xff xff xff xff xff xff)
(L (W x00 x00 x80 xbf x00 x00 x80 xbf)) E)
(L (W xff xff xff xff x9c x00 x00 x00)))
(T (W x00 x00 x00 x00 x00 x00 x00 x00)
(L (W x00 x00 x00 x00 x00 x00 x00 x00))
(L (W x45 x26 x22 x84 xe4 x9c xf2 xcb)))))
(T (W x00 x00 x00 x00 x00 x00 x00 x00)
(T (W xff xff xff xff xff xff xff xff)
(T (W x00 x00 x00 x00 x00 x00 x00 x00)
(T (W x00 x00 x80 x3f x00 x00 x80 x3f)
(L (W xff xff xff xff xc4 x00 x00 x00)) E)
(L (W x00 x00 x00 x00 x64 xa6 xfe xff)))
(T (W xff xff xff xff xa0 x00 x00 x00)
(L (W x00 x00 x00 x00 x00 x00 x00 x00))
(L (W x40 x00 x00 x00 x00 x00 x80 xbf))))
(T (W x18 x00 x00 x00 x10 x00 x00 x00)
(T (W xff xff xff xff xff xff xff xff)
(T (W x45 x26 x22 x84 xe4 x9c xf2 xcb)
(L (W xcc x00 x00 x00 x01 x00 x00 x00)) E)
(L (W x46 x53 x59 x53 x5f x4e x53 x5f)))
(T (W xff xff xff xff xff xff xff xff)
(L (W x00 x00 x00 x00 x00 x00 x00 x00))
(L (W x14 x00 x00 x00 x0c x00 x00 x00))))))
(T (W x00 x00 x00 x00 x00 x00 x00 x00)
(T (W xba xef xfd xff xaf x01 x00 x00)
(T (W xff xff xff xff xff xff xff xff)
(T (W x00 x00 x00 x00 x00 x00 x00 x00)
(T (W x68 x00 x00 x00 x5c x00 x00 x00)
(L (W xff xff xff xff xff xff xff xff)) E)
(L (W xff xff xff xff xff xff xff xff)))
(T (W x00 x00 x80 x3f x00 x00 x80 x3f)
(L (W x00 x00 x00 x00 x00 x00 x00 x00))
(L (W x18 x00 x00 x00 x10 x00 x00 x00))))
(T (W x2a x53 xfc xff x74 x00 x00 x00)
(T (W x6c x00 x00 x00 x60 x00 x00 x00)
(T (W x00 x00 x00 x00 x00 x00 x00 x00)
(L (W x00 x00 x80 xbf x00 x00 x80 xbf)) E)
(L (W xaa x01 x00 x00 xff xff xff xff)))
(T (W x00 x00 x80 x3f x00 x00 x80 x3f)
(L (W x00 x00 x00 x00 x00 x00 x00 x00))
(L (W x00 x00 x80 xbf x00 x00 x80 xbf)))))
(T (W x00 x00 x00 x00 x00 x00 x00 x00)
(T (W xff xff xff xff xff xff xff xff)
(T (W x00 x00 x80 x3f x00 x00 x80 x3f)
(T (W x00 x00 x00 x00 x00 x00 x00 x00)
(L (W x30 x33 x5f x43 x4c x45 x41 x52)) E)
(L (W xb8 x00 x00 x00 x3c x00 x00 x00)))
(T (W xff xff xff xff xff xff xff xff)
(L (W x00 x00 x00 x00 x00 x00 x00 x00))
(L (W x00 x00 x80 xbf x00 x00 x80 xbf))))
(T (W x50 x00 x00 x00 x44 x00 x00 x00)
(T (W x00 x00 x00 x00 x00 x00 x00 x00)
(T (W x00 x00 x18 x00 x00 x00 x1c x00)
(L (W x00 x00 x00 x00 x00 x00 x00 x00)) E)
(L (W x00 x00 x00 x00 x00 x00 x00 x00)))
(T (W x00 x00 x00 x00 x00 x00 x00 x00)
(L (W x00 x00 x00 x00 x00 x00 x00 x00))
(L (W x14 x00 x00 x00 x0c x00 x00 x00)))))))
(T (W x00 x00 x80 x3f x00 x00 x80 x3f)
(T (W xff xff xff xff xff xff xff xff)
(T (W x5c x3c x14 x21 xc8 x6a xc7 x22)
(T (W xff xff xff xff xff xff xff xff)
(T (W x00 x00 x80 x3f x00 x00 x80 x3f)
(T (W x2a x8b xfd xff x74 x00 x00 x00)
(L (W xff xff xff xff xff xff xff xff)) E)
(L (W xff xff xff xff xff xff xff xff)))
(T (W x00 x00 x00 x00 x00 x00 x00 x00)
(L (W xc7 x01 x00 x00 xff xff xff xff))
(L (W x00 x00 x80 xbf x00 x00 x80 xbf))))
(T (W x18 x00 x00 x00 x0c x00 x00 x00)
(T (W x45 x26 x22 x84 xe4 x9c xf2 xcb)
(T (W x00 x00 x00 x00 x00 x00 x00 x00)
(L (W x00 x00 x80 xbf x00 x00 x80 xbf)) E)
(L (W xff xff xff xff xff xff xff xff)))
(T (W x00 x00 x00 x00 x00 x00 x00 x00)
(L (W x00 x00 x00 x00 x00 x00 x00 x00))
(L (W x4f x84 x6f x8b xe8 xcb x63 xb7)))))
(T (W x00 x00 x00 x00 x00 x00 x00 x00)
(T (W xa8 x01 x00 x00 xff xff xff xff)
(T (W x00 x00 x80 x3f x00 x00 x80 x3f)
(T (W x00 x00 x00 x00 x00 x00 x00 x00)
(L (W x00 x00 x00 x00 x00 x00 x00 x00)) E)
(L (W x18 x00 x00 x00 x0c x00 x00 x00)))
(T (W xff xff xff xff xff xff xff xff)
(L (W x68 x00 x00 x00 x5c x00 x00 x00))
(L (W x54 x00 x00 x00 x48 x00 x00 x00))))
(T (W x40 x00 x00 x00 x9c x00 x00 x00)
(T (W xff xff xff xff xff xff xff xff)
(T (W x64 x00 x00 x00 x91 x00 x00 x00)
(L (W x00 x00 x80 xbf x00 x00 x80 xbf)) E)
(L (W x00 x00 x00 x00 x00 x00 x00 x00)))
(T (W x00 x00 x00 x00 x00 x00 x00 x00)
(L (W x00 x00 x00 x00 x12 x00 x00 x00))
(L (W x00 x00 x80 xbf x00 x00 x80 xbf))))))
(T (W x00 x00 x00 x00 x00 x00 x00 x00)
(T (W x00 x00 x00 x00 x00 x00 x00 x00)
(T (W xff xff xff xff xff xff xff xff)
(T (W x45 x26 x22 x84 xe4 x9c xf2 xcb)
(T (W x00 x00 x80 x3f x00 x00 x80 x3f)
(L (W x03 x00 x00 x00 xd0 x00 x00 x00)) E)
(L (W xff xff xff xff xff xff xff xff)))
(T (W x00 x00 x80 x3f x00 x00 x80 x3f)
(L (W x00 x00 x80 xbf x00 x00 x80 xbf))
(L (W xff xff xff xff xb0 x00 x00 x00))))
(T (W x45 x26 x22 x84 xe4 x9c xf2 xcb)
(T (W xff xff xff xff x9c x00 x00 x00)
(T (W x00 x00 x80 x3f x00 x00 x80 x3f)
(L (W x00 x00 x00 x00 x00 x00 x00 x00)) E)
(L (W x2c x01 x00 x00 x04 x00 x00 x00)))
(T (W xda x5c xfd xff x78 x00 x00 x00)
(L (W x00 x00 x00 x00 x12 x00 x00 x00))
(L (W x45 x26 x22 x84 xe4 x9c xf2 xcb)))))
(T (W xd0 x1c x48 x96 x0d xbd xa1 x0e)
(T (W xff xff xff xff xff xff xff xff)
(T (W x60 xbe xfc xff xca xc2 xfc xff)
(T (W xff xff xff xff xff xff xff xff)
(L (W x45 x26 x22 x84 xe4 x9c xf2 xcb)) E)
(L (W x45 x26 x22 x84 xe4 x9c xf2 xcb)))
(T (W x00 x00 x00 x00 x82 x46 xfd xff)
(L (W x00 x00 x00 x00 x00 x00 x00 x00))
(L (W x49 xa1 x68 x4a xeb x5f xdd x3d))))
(T (W x6c x00 x00 x00 x60 x00 x00 x00)
(T (W x00 x00 x00 x00 x00 x00 x00 x00)
(T (W xc4 x00 x00 x00 x01 x00 x00 x00)
(L (W x45 x26 x22 x84 xe4 x9c xf2 xcb)) E)
(L (W x00 x00 x00 x00 x00 x00 x00 x00)))
(T (W x00 x00 x00 x00 x00 x00 x00 x00)
(L (W x00 x00 x00 x00 x00 x00 x00 x00))
(L (W xff xff xff xff xff xff xff xff))))))))
(T (W x00 x00 x80 x3f x00 x00 x80 x3f)
(T (W x00 x00 x00 x00 x00 x00 x00 x00)
(T (W x00 x00 x00 x00 x00 x00 x00 x00)
(T (W xc0 x00 x00 x00 xb4 x00 x00 x00)
(T (W x2a x07 xfc xff x74 x00 x00 x00)
(T (W x7a xd0 xff xff x49 x00 x00 x00)
(T (W x00 x00 x00 x00 x00 x00 x00 x00)
(L (W x00 x00 x00 x00 x00 x00 x00 x00)) E)
(L (W x00 x00 x80 xbf x00 x00 x80 xbf)))
(T (W xb0 x00 x00 x00 x64 x00 x00 x00)
(L (W x00 x00 x00 x00 x00 x00 x00 x00))
(L (W xff xff xff xff xff xff xff xff))))
(T (W x00 x00 x80 x3f x00 x00 x80 x3f)
(T (W xff xff xff xff xff xff xff xff)
(T (W x00 x00 x80 x3f x00 x00 x80 x3f)
(L (W xff xff xff xff xff xff xff xff)) E)
(L (W x00 x00 x00 x00 x00 x00 x00 x00)))
(T (W x03 x00 x00 x00 xd4 x00 x00 x00)
(L (W xff xff xff xff x8c x00 x00 x00))
(L (W xff xff xff xff xbc x00 x00 x00)))))
(T (W x68 x00 x00 x00 x5c x00 x00 x00)
(T (W x45 x26 x22 x84 xe4 x9c xf2 xcb)
(T (W xff xff xff xff xff xff xff xff)
(T (W xff xff xff xff xff xff xff xff)
(L (W x4f x84 x6f x8b xe8 xcb x63 xb7)) E)
(L (W x00 x00 x00 x00 x00 x00 x00 x00)))
(T (W x00 x00 x00 x00 x00 x00 x00 x00)
(L (W xff xff xff xff xff xff xff xff))
(L (W x00 x00 x00 x00 x12 x00 x00 x00))))
(T (W x3e x00 x00 x00 x0c x00 x00 x00)
(T (W x00 x00 x80 x3f x00 x00 x80 x3f)
(T (W xc4 x00 x00 x00 x01 x00 x00 x00)
(L (W x00 x00 x00 x00 x00 x00 x00 x00)) E)
(L (W xcc x00 x00 x00 x01 x00 x00 x00)))
(T (W x45 x26 x22 x84 xe4 x9c xf2 xcb)
(L (W x58 x00 x00 x00 x4c x00 x00 x00))
(L (W x45 x44 x00 x00 x00 x00 x00 x00))))))
(T (W x18 x00 x00 x00 x0c x00 x00 x00)
(T (W x18 x00 x00 x00 x0c x00 x00 x00)
(T (W x00 x00 x80 x3f x00 x00 x80 x3f)
(T (W xff xff xff xff xff xff xff xff)
(T (W x04 x00 x00 x00 x3a xb8 xff xff)
(L (W x49 xa1 x68 x4a xeb x5f xdd x3d)) E)
(L (W x45 x26 x22 x84 xe4 x9c xf2 xcb)))
(T (W x4b x00 x00 x00 xff xff xff xff)
(L (W x18 x00 x00 x00 x10 x00 x00 x00))
(L (W x4f x84 x6f x8b xe8 xcb x63 xb7))))
(T (W x00 x00 x00 x00 x00 x00 x00 x00)
(T (W x00 x00 x00 x00 x00 x00 x00 x00)
(T (W xff xff xff xff xff xff xff xff)
(L (W xc4 x00 x00 x00 x02 x00 x00 x00)) E)
(L (W x00 x00 x80 xbf x00 x00 x80 xbf)))
(T (W x02 x00 x00 x00 xff xff xff xff)
(L (W xff xff xff xff xc4 x00 x00 x00))
(L (W x00 x00 x00 x00 x00 x00 x00 x00)))))
(T (W x50 x00 x00 x00 x44 x00 x00 x00)
(T (W x45 x26 x22 x84 xe4 x9c xf2 xcb)
(T (W xff xff xff xff xff xff xff xff)
(T (W x56 xae x33 x97 x85 xa1 x5f x5f)
(L (W xff xff xff xff xff xff xff xff)) E)
(L (W x30 x33 x5f x43 x4c x45 x41 x52)))
(T (W x00 x00 x80 x3f x00 x00 x80 x3f)
(L (W xff xff xff xff xff xff xff xff))
(L (W xff xff xff xff xff xff xff xff))))
(T (W xff xff xff xff xff xff xff xff)
(T (W x18 x00 x00 x00 x10 x00 x00 x00)
(T (W xff xff xff xff xff xff xff xff)
(L (W x00 x00 x80 xbf x00 x00 x80 xbf)) E)
(L (W xff xff xff xff xff xff xff xff)))
(T (W xff xff xff xff x9c x00 x00 x00)
(L (W x45 x26 x22 x84 xe4 x9c xf2 xcb))
(L (W xff xff xff xff xff xff xff xff)))))))
(T (W x00 x00 x00 x00 x64 xa2 xfb xff)
(T (W xff xff xff xff xff xff xff xff)
(T (W x2a xcf xfb xff x74 x00 x00 x00)
(T (W x00 x00 x80 x3f x00 x00 x80 x3f)
(T (W xf2 xd9 xff xff x00 x00 x01 x01)
(T (W x00 x00 x00 x00 x00 x00 x00 x00)
(L (W x00 x00 x00 x00 x00 x00 x00 x00)) E)
(L (W x00 x00 x80 xbf x00 x00 x80 xbf)))
(T (W xff xff xff xff xff xff xff xff)
(L (W x00 x00 x80 x3f x00 x00 x80 x3f))
(L (W x0f x00 x00 x00 x10 x00 x00 x00))))
(T (W x00 x00 x00 x00 x00 x00 x00 x00)
(T (W xff xff xff xff xff xff xff xff)
(T (W xff xff xff xff xff xff xff xff)
(L (W xff xff xff xff xc4 x00 x00 x00)) E)
(L (W x45 x26 x22 x84 xe4 x9c xf2 xcb)))
(T (W xff xff xff xff xff xff xff xff)
(L (W x1d x00 x00 x00 x20 x00 x00 x00))
(L (W xff xff xff xff xff xff xff xff)))))
(T (W x00 x00 x80 x3f x00 x00 x80 x3f)
(T (W x00 x00 x00 x00 x00 x00 x00 x00)
(T (W xff xff xff xff xff xff xff xff)
(T (W x45 x26 x22 x84 xe4 x9c xf2 xcb)
(L (W x68 x00 x00 x00 x5c x00 x00 x00)) E)
(L (W x00 x00 x00 x00 x00 x00 x00 x00)))
(T (W x00 x00 x00 x00 x00 x00 x00 x00)
(L (W x04 x00 x05 x00 x06 x00 x07 x00))
(L (W xff xff xff xff xff xff xff xff))))
(T (W x2a x8d xfe xff x00 x00 x01 x01)
(T (W x00 x00 x80 x3f x00 x00 x80 x3f)
(T (W x4e x4f x54 x5f x52 x45 x53 x50)
(L (W x00 x00 x00 x00 x04 x00 x00 x00)) E)
(L (W xff xff xff xff xff xff xff xff)))
(T (W x18 x00 x00 x00 x0c x00 x00 x00)
(L (W x74 x00 x00 x00 x68 x00 x00 x00))
(L (W x22 x00 x00 x00 x10 x00 x00 x00))))))
(T (W x2a xbf xfb xff x74 x00 x00 x00)
(T (W x45 x26 x22 x84 xe4 x9c xf2 xcb)
(T (W x00 x00 x80 x3f x00 x00 x80 x3f)
(T (W xff xff xff xff xff xff xff xff)
(T (W xff xff xff xff xff xff xff xff)
(L (W x00 x00 x80 xbf x00 x00 x80 xbf)) E)
(L (W x36 x48 x14 x76 x80 xa9 xed x18)))
(T (W x3d xd2 x35 x04 xdd xda xb0 x49)
(L (W x00 x00 x80 xbf x00 x00 x80 xbf))
(L (W x00 x00 x00 x00 x00 x00 x00 x00))))
(T (W x00 x00 x00 x00 x00 x00 x00 x00)
(T (W x4f x84 x6f x8b xe8 xcb x63 xb7)
(T (W x50 x00 x54 x00 x58 x00 x00 x00)
(L (W x00 x00 x00 x00 x64 xe2 xff xff)) E)
(L (W x68 x00 x00 x00 x5c x00 x00 x00)))
(T (W x45 x44 x00 x00 x00 x00 x00 x00)
(L (W x1d x00 x00 x00 x20 x00 x00 x00))
(L (W x84 x67 xff xff x29 x00 x00 x00)))))
(T (W x68 x00 x00 x00 x5c x00 x00 x00)
(T (W x45 x26 x22 x84 xe4 x9c xf2 xcb)
(T (W x2a xbf xfc xff x74 x00 x00 x00)
(T (W x00 x00 x80 x3f x00 x00 x80 x3f)
(L (W x14 x00 x00 x00 x0c x00 x00 x00)) E)
(L (W x00 x00 x00 x00 x00 x00 x00 x00)))
(T (W x45 x26 x22 x84 xe4 x9c xf2 xcb)
(L (W xff xff xff xff xb0 x00 x00 x00))
(L (W xff xff xff xff xff xff xff xff))))
(T (W x4a x00 x00 x00 xff xff xff xff)
(T (W xcc x00 x00 x00 x01 x00 x00 x00)
(T (W x00 x00 x00 x00 x00 x00 x00 x00)
(L (W x64 x00 x08 x00 x00 x00 x00 x00)) E)
(L (W xff xff xff xff xff xff xff xff)))
(T (W xff xff xff xff xff xff xff xff)
(L (W x00 x00 x80 xbf x00 x00 x80 xbf))
(L (W x00 x00 x00 x00 x00 x00 x00 x00)))))))))
(T (W x50 x00 x00 x00 x44 x00 x00 x00)
(T (W x00 x00 x00 x00 x00 x00 x00 x00)
(T (W x73 x68 x00 x00 x3a xb6 xfd xff)
(T (W x2a xc3 xfd xff x00 x00 x01 x01)
(T (W x00 x00 x80 x3f x00 x00 x80 x3f)
(T (W x00 x00 x00 x00 x00 x00 x00 x00)
(T (W x64 x00 x00 x00 x9c x00 x00 x00)
(T (W x2a xa3 xff xff x00 x00 x01 x01)
(L (W x00 x00 x00 x00 x12 x00 x00 x00)) E)
(L (W x00 x00 x00 x00 x00 x00 x00 x00)))
(T (W x68 x00 x00 x00 x5c x00 x00 x00)
(L (W xff xff xff xff xff xff xff xff))
(L (W x54 x00 x00 x00 x48 x00 x00 x00))))
(T (W x00 x00 x00 x00 x92 x91 xff xff)
(T (W x00 x00 x80 x3f x00 x00 x80 x3f)
(T (W x6f x6b x65 x5f x63 x6f x77 x61)
(L (W x6c x00 x00 x00 x60 x00 x00 x00)) E)
(L (W x45 x44 x00 x00 x00 x00 x00 x00)))
(T (W x00 x00 x80 x3f x00 x00 x80 x3f)
(L (W x00 x00 x80 xbf x00 x00 x80 xbf))
(L (W x45 x26 x22 x84 xe4 x9c xf2 xcb)))))
(T (W x00 x00 x80 x3f x00 x00 x80 x3f)
(T (W x00 x00 x00 x00 x00 x00 x00 x00)
(T (W x18 x00 x00 x00 x0c x00 x00 x00)
(T (W xf4 xa9 xfd xff x00 x01 x01 x01)
(L (W x30 x33 x5f x43 x4c x45 x41 x52)) E)
(L (W xff xff xff xff xff xff xff xff)))
(T (W xff xff xff xff xff xff xff xff)
(L (W x00 x00 x80 xbf x00 x00 x80 xbf))
(L (W xff xff xff xff xff xff xff xff))))
(T (W xff xff xff xff xff xff xff xff)
(T (W x00 x00 x00 x00 x00 x00 x00 x00)
(T (W x30 x00 x34 x00 x38 x00 x3c x00)
(L (W xff xff xff xff xff xff xff xff)) E)
(L (W x49 xa1 x68 x4a xeb x5f xdd x3d)))
(T (W x3c x2f x28 xea x5d x26 x0c x7f)
(L (W x00 x00 x80 xbf x00 x00 x80 xbf))
(L (W xff xff xff xff xff xff xff xff))))))
(T (W x45 x26 x22 x84 xe4 x9c xf2 xcb)
(T (W x00 x00 x00 x00 x00 x00 x00 x00)
(T (W x00 x00 x00 x00 x00 x00 x00 x00)
(T (W xf4 x99 xfc xff x00 x01 x01 x01)
(T (W xff xff xff xff xff xff xff xff)
(L (W x46 x53 x59 x53 x5f x4e x53 x5f)) E)
(L (W x00 x00 x00 x00 x00 x00 x00 x00)))
(T (W x00 x00 x00 x00 x64 x18 xfd xff)
(L (W x00 x00 x80 x3f x00 x00 x80 x3f))
(L (W xff xff xff xff xff xff xff xff))))
(T (W xff xff xff xff xff xff xff xff)
(T (W xff xff xff xff xff xff xff xff)
(T (W x00 x00 x80 x3f x00 x00 x80 x3f)
(L (W x54 x00 x00 x00 x48 x00 x00 x00)) E)
(L (W x00 x00 x00 x00 x12 x00 x00 x00)))
(T (W xc8 x00 x00 x00 x01 x00 x00 x00)
(L (W x68 x00 x00 x00 x5c x00 x00 x00))
(L (W xff xff xff xff x9c x00 x00 x00)))))
(T (W x00 x00 x80 x3f x00 x00 x80 x3f)
(T (W x00 x00 x00 x00 x00 x00 x00 x00)
(T (W xf8 x02 x00 x00 xe4 x01 x00 x00)
(T (W x00 x00 x80 x3f x00 x00 x80 x3f)
(L (W x00 x00 x80 xbf x00 x00 x80 xbf)) E)
(L (W xff xff xff xff xff xff xff xff)))
(T (W x00 x00 x00 x00 x00 x00 x00 x00)
(L (W x50 x00 x00 x00 x44 x00 x00 x00))
(L (W x00 x00 x00 x00 x64 x38 xff xff))))
(T (W xff xff xff xff xff xff xff xff)
(T (W x00 x00 x00 x00 x00 x00 x00 x00)
(T (W x60 x00 x00 x00 x00 x00 x64 x00)
(L (W xff xff xff xff xff xff xff xff)) E)
(L (W x00 x00 x80 xbf x00 x00 x80 xbf)))
(T (W x00 x00 x80 x3f x00 x00 x80 x3f)
(L (W x00 x00 x80 xbf x00 x00 x80 xbf))
(L (W xff xff xff xff xff xff xff xff)))))))
(T (W x3e x00 x00 x00 x10 x00 x00 x00)
(T (W x00 x00 x80 x3f x00 x00 x80 x3f)
(T (W x45 x26 x22 x84 xe4 x9c xf2 xcb)
(T (W x00 x00 x00 x00 x00 x00 x00 x00)
(T (W xbc x00 x00 x00 xb0 x00 x00 x00)
(T (W xff xff xff xff xff xff xff xff)
(L (W xc2 x8f xff xff x6c x01 x00 x00)) E)
(L (W x30 x33 x5f x43 x4c x45 x41 x52)))
(T (W x45 x26 x22 x84 xe4 x9c xf2 xcb)
(L (W x00 x00 x00 x00 x00 x00 x00 x00))
(L (W xff xff xff xff xbc x00 x00 x00))))
(T (W x1c x01 x00 x00 x04 x00 x00 x00)
(T (W x45 x26 x22 x84 xe4 x9c xf2 xcb)
(T (W xf4 xd1 xfd xff x00 x01 x01 x01)
(L (W x68 x00 x00 x00 x5c x00 x00 x00)) E)
(L (W x00 x00 x00 x00 x00 x00 x00 x00)))
(T (W x00 x00 x00 x00 x64 x50 xfd xff)
(L (W x00 x00 x80 xbf x00 x00 x80 xbf))
(L (W x18 x00 x00 x00 x0c x00 x00 x00)))))
(T (W x00 x00 x80 x3f x00 x00 x80 x3f)
(T (W x00 x00 x00 x00 x00 x00 x00 x00)
(T (W x0a x00 x00 x00 x3e x00 x00 x00)
(T (W x00 x00 x80 x3f x00 x00 x80 x3f)
(L (W x00 x00 x80 xbf x00 x00 x80 xbf)) E)
(L (W xff xff xff xff xff xff xff xff)))
(T (W x00 x00 x00 x00 x00 x00 x00 x00)
(L (W x06 x00 x07 x00 x00 x00 x00 x00))
(L (W xff xff xff xff xff xff xff xff))))
(T (W xff xff xff xff xff xff xff xff)
(T (W x4f x84 x6f x8b xe8 xcb x63 xb7)
(T (W x00 x00 x80 x3f x00 x00 x80 x3f)
(L (W x03 x00 x00 x00 xd0 x00 x00 x00)) E)
(L (W x00 x00 x80 xbf x00 x00 x80 xbf)))
(T (W x4f x84 x6f x8b xe8 xcb x63 xb7)
(L (W x00 x00 x80 xbf x00 x00 x80 xbf))
(L (W xff xff xff xff xff xff xff xff))))))
(T (W x00 x00 x80 x3f x00 x00 x80 x3f)
(T (W x45 x26 x22 x84 xe4 x9c xf2 xcb)
(T (W xfe x16 x47 xec x39 x52 x9e x3e)
(T (W x68 x00 x00 x00 x5c x00 x00 x00)
(T (W x45 x26 x22 x84 xe4 x9c xf2 xcb)
(L (W x00 x00 x00 x00 x06 x00 x00 x00)) E)
(L (W x00 x00 x80 xbf x00 x00 x80 xbf)))
(T (W xff xff xff xff xff xff xff xff)
(L (W x00 x00 x00 x00 x00 x00 x00 x00))
(L (W xff xff xff xff xff xff xff xff))))
(T (W xff xff xff xff xff xff xff xff)
(T (W x00 x00 x00 x00 x0a xde xfc xff)
(T (W x2a xdd xfd xff x74 x00 x00 x00)
(L (W x00 x00 x80 xbf x00 x00 x80 xbf)) E)
(L (W x00 x00 x00 x00 x00 x00 x00 x00)))
(T (W xff xff xff xff xff xff xff xff)
(L (W x49 xa1 x68 x4a xeb x5f xdd x3d))
(L (W xff xff xff xff xff xff xff xff)))))
(T (W x00 x00 x00 x00 x00 x00 x00 x00)
(T (W x3e x00 x00 x00 x10 x00 x00 x00)
(T (W x00 x00 x00 x00 x00 x00 x00 x00)
(T (W x00 x00 x00 x00 x00 x00 x00 x00)
(L (W x40 x00 x00 x00 x00 x00 x80 xbf)) E)
(L (W xa2 xd5 xfe xff xaa x01 x00 x00)))
(T (W x00 x00 x00 x00 x00 x00 x00 x00)
(L (W x00 x01 x01 x01 xca x44 xfe xff))
(L (W xf4 x41 xff xff x00 x01 x01 x01))))
(T (W xff xff xff xff xff xff xff xff)
(T (W x00 x00 x80 x3f x00 x00 x80 x3f)
(T (W xff xff xff xff xff xff xff xff)
(L (W x00 x00 x00 x00 x00 x00 x00 x00)) E)
(L (W x00 x00 x80 xbf x00 x00 x80 xbf)))
(T (W x6c x00 x00 x00 x60 x00 x00 x00)
(L (W x49 xa1 x68 x4a xeb x5f xdd x3d))
(L (W x00 x00 x00 x00 x00 x00 x00 x00))))))))
(T (W x00 x00 x00 x00 x00 x00 x00 x00)
(T (W xff xff xff xff xff xff xff xff)
(T (W x18 x00 x00 x00 x10 x00 x00 x00)
(T (W xff xff xff xff xff xff xff xff)
(T (W x01 x00 x00 x00 x9c x00 x00 x00)
(T (W x00 x00 x00 x00 x00 x00 x00 x00)
(T (W x00 x00 x80 x3f x00 x00 x80 x3f)
(L (W x1c x00 x00 x00 x10 x00 x00 x00)) E)
(L (W x14 x00 x00 x00 x0c x00 x00 x00)))
(T (W x45 x44 x00 x00 x00 x00 x00 x00)
(L (W xda x0a xfe xff x78 x00 x00 x00))
(L (W x00 x00 x00 x00 x00 x00 x00 x00))))
(T (W x00 x00 x80 x3f x00 x00 x80 x3f)
(T (W x22 x00 x00 x00 x10 x00 x00 x00)
(T (W xff xff xff xff xff xff xff xff)
(L (W x00 x00 x00 x00 x00 x00 x00 x00)) E)
(L (W x00 x00 x80 xbf x00 x00 x80 xbf)))
(T (W x9c x01 x00 x00 xff xff xff xff)
(L (W xff xff xff xff xff xff xff xff))
(L (W x30 x33 x5f x43 x4c x45 x41 x52)))))
(T (W xff xff xff xff xff xff xff xff)
(T (W x01 x00 x00 x00 xa0 x00 x00 x00)
(T (W x00 x00 x00 x00 x00 x00 x00 x00)
(T (W x00 x00 x00 x00 x02 x00 x00 x00)
(L (W x00 x00 x60 x00 x00 x00 x00 x00)) E)
(L (W x00 x00 x80 xbf x00 x00 x80 xbf)))
(T (W x00 x00 x80 x3f x00 x00 x80 x3f)
(L (W x00 x00 x00 x00 x00 x00 x00 x00))
(L (W x49 xa1 x68 x4a xeb x5f xdd x3d))))
(T (W x00 x00 x80 x3f x00 x00 x80 x3f)
(T (W xff xff xff xff xc4 x00 x00 x00)
(T (W xca xf7 xff xff x01 x01 x01 x01)
(L (W x00 x00 x00 x00 x00 x00 x00 x00)) E)
(L (W xff xff xff xff xff xff xff xff)))
(T (W xb0 x00 x00 x00 x64 x00 x00 x00)
(L (W xff xff xff xff xff xff xff xff))
(L (W x00 x00 x00 x00 x00 x00 x00 x00))))))
(T (W xff xff xff xff xff xff xff xff)
(T (W xff xff xff xff xff xff xff xff)
(T (W xc0 x00 x00 x00 xb4 x00 x00 x00)
(T (W x00 x00 x00 x00 x00 x00 x00 x00)
(T (W x00 x00 x00 x00 x00 x00 x00 x00)
(L (W x1c x00 x00 x00 x10 x00 x00 x00)) E)
(L (W x29 x00 x00 x00 x2c x00 x00 x00)))
(T (W x00 x00 x00 x00 x12 x00 x00 x00)
(L (W x00 x00 x00 x00 x01 x00 x00 x00))
(L (W x00 x00 x80 xbf x00 x00 x80 xbf))))
(T (W x50 x00 x00 x00 x44 x00 x00 x00)
(T (W x00 x00 x80 x3f x00 x00 x80 x3f)
(T (W x00 x00 x00 x00 x00 x00 x00 x00)
(L (W x94 x05 x00 x00 x6c x04 x00 x00)) E)
(L (W xc4 x00 x00 x00 x01 x00 x00 x00)))
(T (W x00 x00 x00 x00 x00 x00 x00 x00)
(L (W x8e x01 x00 x00 xff xff xff xff))
(L (W x00 x00 x00 x00 x00 x00 x00 x00)))))
(T (W xb8 x00 x00 x00 xac x00 x00 x00)
(T (W x00 x00 x80 x3f x00 x00 x80 x3f)
(T (W x00 x00 x00 x00 x00 x00 x00 x00)
(T (W x00 x00 x80 x3f x00 x00 x80 x3f)
(L (W x00 x00 x00 x00 x00 x00 x00 x00)) E)
(L (W x00 x00 x80 xbf x00 x00 x80 xbf)))
(T (W xff xff xff xff xff xff xff xff)
(L (W x0b x01 x00 x00 xff xff xff xff))
(L (W x00 x00 x00 x00 x12 x00 x00 x00))))
(T (W x00 x00 x00 x00 x00 x00 x00 x00)
(T (W xff xff xff xff xff xff xff xff)
(T (W x00 x00 x80 x3f x00 x00 x80 x3f)
(L (W x00 x00 x00 x00 x0a xfa xff xff)) E)
(L (W x00 x00 x00 x00 x00 x00 x00 x00)))
(T (W x00 x00 x00 x00 x00 x00 x00 x00)
(L (W xff xff xff xff xff xff xff xff))
(L (W xff xff xff xff xa8 x00 x00 x00)))))))
(T (W x6f x79 x61 x62 x75 x6e x00 x00)
(T (W x48 x03 x00 x00 x34 x02 x00 x00)
(T (W xff xff xff xff xff xff xff xff)
(T (W x0a x00 x00 x00 x29 x00 x00 x00)
(T (W x00 x00 x00 x00 x00 x00 x00 x00)
(T (W x45 x26 x22 x84 xe4 x9c xf2 xcb)
(L (W x00 x00 x00 x00 x64 x94 xff xff)) E)
(L (W x18 x00 x00 x00 x1b x00 x00 x00)))
(T (W x84 x19 xfd xff x15 x00 x00 x00)
(L (W x00 x00 x01 x01 x70 x00 x00 x00))
(L (W x00 x00 x80 xbf x00 x00 x80 xbf))))
(T (W x00 x00 x80 x3f x00 x00 x80 x3f)
(T (W x00 x00 x00 x00 x00 x00 x00 x00)
(T (W x00 x00 x00 x00 x02 x00 x00 x00)
(L (W xb8 x01 x00 x00 xff xff xff xff)) E)
(L (W x2a xd1 xfe xff x74 x00 x00 x00)))
(T (W x12 x00 x00 x00 x46 x53 x59 x53)
(L (W xff xff xff xff xff xff xff xff))
(L (W x00 x00 x00 x00 x00 x00 x00 x00)))))
(T (W xff xff xff xff xff xff xff xff)
(T (W x2a x31 xfc xff x74 x00 x00 x00)
(T (W x00 x00 x00 x00 x00 x00 x00 x00)
(T (W xff xff xff xff xff xff xff xff)
(L (W xff xff xff xff xff xff xff xff)) E)
(L (W x45 x26 x22 x84 xe4 x9c xf2 xcb)))
(T (W x18 x00 x00 x00 x10 x00 x00 x00)
(L (W xc2 x33 xfe xff x9e x01 x00 x00))
(L (W x00 x00 x00 x00 x00 x00 x00 x00))))
(T (W x00 x00 x00 x00 x00 x00 x00 x00)
(T (W xff xff xff xff xff xff xff xff)
(T (W x69 x6b x65 x5f x70 x6d x30 x34)
(L (W x00 x00 x00 x00 x68 x00 x6c x00)) E)
(L (W x00 x00 x00 x00 x00 x00 x00 x00)))
(T (W xff xff xff xff xff xff xff xff)
(L (W xff xff xff xff xff xff xff xff))
(L (W x45 x26 x22 x84 xe4 x9c xf2 xcb))))))
(T (W xff xff xff xff xff xff xff xff)
(T (W xff xff xff xff xff xff xff xff)
(T (W x00 x00 x00 x00 x64 x24 xfc xff)
(T (W x00 x00 x80 x3f x00 x00 x80 x3f)
(T (W x00 x00 x00 x00 x00 x00 x00 x00)
(L (W x68 x00 x00 x00 x5c x00 x00 x00)) E)
(L (W x00 x00 x80 xbf x00 x00 x80 xbf)))
(T (W x45 x26 x22 x84 xe4 x9c xf2 xcb)
(L (W xff xff xff xff xff xff xff xff))
(L (W x45 x26 x22 x84 xe4 x9c xf2 xcb))))
(T (W x00 x00 x80 x3f x00 x00 x80 x3f)
(T (W xf4 xe5 xfc xff x00 x01 x01 x01)
(T (W x18 x00 x00 x00 x10 x00 x00 x00)
(L (W x00 x00 x00 x00 x00 x00 x00 x00)) E)
(L (W xff xff xff xff xff xff xff xff)))
(T (W x68 x00 x00 x00 x5c x00 x00 x00)
(L (W xff xff xff xff xff xff xff xff))
(L (W x00 x00 x80 xbf x00 x00 x80 xbf)))))
(T (W x45 x26 x22 x84 xe4 x9c xf2 xcb)
(T (W x00 x00 x80 x3f x00 x00 x80 x3f)
(T (W xff xff xff xff xff xff xff xff)
(T (W x01 x00 x00 x00 x9c x00 x00 x00)
(L (W xaf x00 x00 x00 xff xff xff xff)) E)
(L (W x00 x00 x80 xbf x00 x00 x80 xbf)))
(T (W xff xff xff xff xff xff xff xff)
(L (W xff xff xff xff xff xff xff xff))
(L (W x20 x00 x00 x00 x10 x00 x00 x00))))
(T (W x00 x00 x00 x00 x00 x00 x00 x00)
(T (W xff xff xff xff xff xff xff xff)
(L (W xff xff xff xff xff xff xff xff))
(L (W x30 x33 x5f x43 x4c x45 x41 x52)))
(T (W x00 x00 x00 x00 x00 x00 x00 x00)
(L (W x03 x00 x00 x00 xd0 x00 x00 x00))
(L (W x68 x00 x00 x00 x5c x00 x00 x00)))))))))))
(T (W xb0 x74 x02 x00 xcc x72 x02 x00)
(T (W xa8 xd4 x01 x00 xfc xcf x01 x00)
(T (W x40 x73 x00 x00 x0c x72 x00 x00)
(T (W x00 x00 x00 x00 x00 x00 x00 x00)
(T (W xff xff xff xff xff xff xff xff)
(T (W x40 x00 x00 x00 x0c x00 x00 x00)
(T (W x50 x00 x00 x00 x44 x00 x00 x00)
(T (W x00 x00 x80 x3f x00 x00 x80 x3f)
(T (W xff xff xff xff xff xff xff xff)
(T (W x18 x01 x00 x00 x04 x00 x00 x00)
(L (W x4f x84 x6f x8b xe8 xcb x63 xb7)) E)
(L (W x00 x00 x80 xbf x00 x00 x80 xbf)))
(T (W x00 x00 x00 x00 xe4 x05 xfd xff)
(L (W xff xff xff xff xff xff xff xff))
(L (W xcc x00 x00 x00 x01 x00 x00 x00))))
(T (W x00 x00 x00 x00 x00 x00 x00 x00)
(T (W x45 x26 x22 x84 xe4 x9c xf2 xcb)
(T (W x00 x00 x00 x00 x00 x00 x00 x00)
(L (W xff xff xff xff xff xff xff xff)) E)
(L (W x4c x45 x41 x52 x45 x44 x00 x00)))
(T (W x45 x26 x22 x84 xe4 x9c xf2 xcb)
(L (W x45 x26 x22 x84 xe4 x9c xf2 xcb))
(L (W xff xff xff xff xff xff xff xff)))))
(T (W x40 x00 x00 x00 x9c x00 x00 x00)
(T (W x00 x00 x80 x3f x00 x00 x80 x3f)
(T (W x74 xa7 xfc xff x00 x01 x01 x01)
(T (W xff xff xff xff xff xff xff xff)
(L (W x00 x00 x00 x00 x00 x00 x00 x00)) E)
(L (W x00 x00 x00 x00 x00 x00 x00 x00)))
(T (W x4c x45 x41 x52 x45 x44 x00 x00)
(L (W x68 x00 x00 x00 x5c x00 x00 x00))
(L (W xff xff xff xff xff xff xff xff))))
(T (W x00 x00 x00 x00 x00 x00 x00 x00)
(T (W x00 x00 x00 x00 x00 x00 x00 x00)
(T (W xff xff xff xff x03 x00 x00 x00)
(L (W x00 x00 x00 x00 x00 x00 x00 x00)) E)
(L (W x5a xe4 xfe xff x78 x00 x00 x00)))
(T (W x00 x00 x00 x00 x00 x00 x00 x00)
(L (W x45 x26 x22 x84 xe4 x9c xf2 xcb))
(L (W x30 x33 x5f x43 x4c x45 x41 x52))))))
(T (W x40 x00 x00 x00 x9c x00 x00 x00)
(T (W x00 x00 x80 x3f x00 x00 x80 x3f)
(T (W x45 x26 x22 x84 xe4 x9c xf2 xcb)
(T (W xb8 x00 x00 x00 xac x00 x00 x00)
(T (W xaa xb0 xff xff x00 x00 x01 x01)
(L (W x00 x00 x00 x00 x00 x00 x00 x00)) E)
(L (W x00 x00 x80 xbf x00 x00 x80 xbf)))
(T (W xff xff xff xff xff xff xff xff)
(L (W x2a x00 x00 x00 x2d x00 x00 x00))
(L (W x45 x44 x00 x00 x00 x00 x00 x00))))
(T (W x00 x00 x00 x00 x00 x00 x00 x00)
(T (W x42 xd5 xfc xff x4b x00 x00 x00)
(T (W x45 x26 x22 x84 xe4 x9c xf2 xcb)
(L (W xff xff xff xff xff xff xff xff)) E)
(L (W x00 x00 x80 xbf x00 x00 x80 xbf)))
(T (W xff xff xff xff xff xff xff xff)
(L (W x58 x00 x00 x00 x4c x00 x00 x00))
(L (W xff xff xff xff xff xff xff xff)))))
(T (W x6c x00 x00 x00 x60 x00 x00 x00)
(T (W x45 x26 x22 x84 xe4 x9c xf2 xcb)
(T (W xff xff xff xff xff xff xff xff)
(T (W x74 xb7 xfd xff x00 x01 x01 x01)
(L (W x6c x00 x00 x00 x60 x00 x00 x00)) E)
(L (W x00 x00 x00 x00 x12 x00 x00 x00)))
(T (W x4f x84 x6f x8b xe8 xcb x63 xb7)
(L (W x18 x00 x00 x00 x10 x00 x00 x00))
(L (W xff xff xff xff xff xff xff xff))))
(T (W x4c x00 x00 x00 xff xff xff xff)
(T (W x68 x00 x00 x00 x5c x00 x00 x00)
(T (W x00 x00 x00 x00 x00 x00 x00 x00)
(L (W xff xff xff xff xac x00 x00 x00)) E)
(L (W x18 x00 x00 x00 x0c x00 x00 x00)))
(T (W x68 x00 x00 x00 x5c x00 x00 x00)
(L (W x45 x26 x22 x84 xe4 x9c xf2 xcb))
(L (W x30 x33 x5f x43 x4c x45 x41 x52)))))))
(T (W xff xff xff xff xff xff xff xff)
(T (W x00 x00 x80 x3f x00 x00 x80 x3f)
(T (W x00 x00 x80 x3f x00 x00 x80 x3f)
(T (W x00 x00 x00 x00 x00 x00 x00 x00)
(T (W xff xff xff xff xff xff xff xff)
(T (W x00 x00 x00 x00 x00 x00 x00 x00)
(L (W x00 x00 x00 x00 x00 x00 x00 x00)) E)
(L (W x00 x00 x80 xbf x00 x00 x80 xbf)))
(T (W xc4 x00 x00 x00 x01 x00 x00 x00)
(L (W x00 x00 x80 x3f x00 x00 x80 x3f))
(L (W xff xff xff xff xff xff xff xff))))
(T (W x5c x63 xfc xff x3e x00 x00 x00)
(T (W xff xff xff xff xff xff xff xff)
(T (W x45 x26 x22 x84 xe4 x9c xf2 xcb)
(L (W xff xff xff xff xff xff xff xff)) E)
(L (W x00 x00 x00 x00 x00 x00 x00 x00)))
(T (W x18 x00 x00 x00 x10 x00 x00 x00)
(L (W x1f x00 x00 x00 x22 x00 x00 x00))
(L (W x03 x00 x00 x00 xd0 x00 x00 x00)))))
(T (W x50 x00 x00 x00 x44 x00 x00 x00)
(T (W x45 x26 x22 x84 xe4 x9c xf2 xcb)
(T (W xff xff xff xff xff xff xff xff)
(T (W x45 x26 x22 x84 xe4 x9c xf2 xcb)
(L (W xff xff xff xff x8c x00 x00 x00)) E)
(L (W x00 x00 x00 x00 x00 x00 x00 x00)))
(T (W x00 x00 x00 x00 x00 x00 x00 x00)
(L (W x00 x00 x01 x01 x6d x01 x00 x00))
(L (W xff xff xff xff xff xff xff xff))))
(T (W x57 x54 x3f x1c x7f x45 x42 x6b)
(T (W x00 x00 x80 x3f x00 x00 x80 x3f)
(T (W x6d x30 x34 x38 x39 x00 x00 x00)
(L (W xff xff xff xff xff xff xff xff)) E)
(L (W x00 x00 x00 x00 xe4 xed xfe xff)))
(T (W x50 x00 x00 x00 x44 x00 x00 x00)
(L (W x74 x6f xfe xff x00 x01 x01 x01))
(L (W xff xff xff xff xff xff xff xff))))))
(T (W x01 x00 x00 x00 x3e x00 x00 x00)
(T (W x00 x00 x00 x00 xe4 xdd xfb xff)
(T (W x00 x00 x80 x3f x00 x00 x80 x3f)
(T (W xff xff xff xff xff xff xff xff)
(T (W xff xff xff xff xff xff xff xff)
(L (W x00 x00 x00 x00 x00 x00 x00 x00)) E)
(L (W x49 xa1 x68 x4a xeb x5f xdd x3d)))
(T (W xff xff xff xff xff xff xff xff)
(L (W xff xff xff xff xff xff xff xff))
(L (W x00 x00 x00 x00 x00 x00 x00 x00))))
(T (W x00 x00 x00 x00 x00 x00 x00 x00)
(T (W x46 x53 x59 x53 x5f x4e x53 x5f)
(T (W xff xff xff xff xff xff xff xff)
(L (W xa0 x00 x00 x00 x64 x00 x00 x00)) E)
(L (W x00 x00 x80 xbf x00 x00 x80 xbf)))
(T (W xda x69 xfd xff x9d x01 x00 x00)
(L (W x00 x00 x00 x00 x78 x5f xfe xff))
(L (W x74 x03 x00 x00 x4c x02 x00 x00)))))
(T (W x00 x00 x80 x3f x00 x00 x80 x3f)
(T (W x00 x00 x00 x00 x00 x00 x00 x00)
(T (W x00 x00 x00 x00 x00 x00 x00 x00)
(T (W x00 x00 x80 x3f x00 x00 x80 x3f)
(L (W xb8 x00 x00 x00 x64 x00 x00 x00)) E)
(L (W x00 x00 x00 x00 x00 x00 x00 x00)))
(T (W x00 x00 x80 x3f x00 x00 x80 x3f)
(L (W xff xff xff xff xb0 x00 x00 x00))
(L (W x03 x00 x00 x00 xd8 x00 x00 x00))))
(T (W xaa x98 xfe xff x00 x00 x01 x01)
(T (W x45 x26 x22 x84 xe4 x9c xf2 xcb)
(T (W x00 x00 x00 x00 x00 x00 x00 x00)
(L (W x00 x00 x00 x00 x00 x00 x64 x00)) E)
(L (W xb0 x00 x00 x00 x64 x00 x00 x00)))
(T (W xc0 x00 x00 x00 x01 x00 x00 x00)
(L (W x44 x00 x00 x00 x00 x00 x80 xbf))
(L (W x45 x26 x22 x84 xe4 x9c xf2 xcb))))))))
(T (W xff xff xff xff xff xff xff xff)
(T (W x45 x26 x22 x84 xe4 x9c xf2 xcb)
(T (W x00 x00 x00 x00 xe4 xa9 xfb xff)
(T (W x04 xcf xfb xff x3c x00 x00 x00)
(T (W x72 x51 xff xff x00 x00 x01 x01)
(T (W x00 x00 x80 x3f x00 x00 x80 x3f)
(T (W xaa x86 xfd xff x74 x00 x00 x00)
(L (W xc4 x00 x00 x00 x01 x00 x00 x00)) E)
(L (W xff xff xff xff xff xff xff xff)))
(T (W x00 x00 x00 x00 x12 x00 x00 x00)
(L (W x45 x26 x22 x84 xe4 x9c xf2 xcb))
(L (W x00 x00 x00 x00 x00 x00 x00 x00))))
(T (W xff xff xff xff xff xff xff xff)
(T (W x00 x00 x00 x00 x00 x00 x00 x00)
(T (W xff xff xff xff xff xff xff xff)
(L (W x00 x00 x00 x00 x00 x00 x00 x00)) E)
(L (W xc4 x00 x00 x00 x02 x00 x00 x00)))
(T (W x00 x00 x00 x00 x00 x00 x00 x00)
(L (W x46 x53 x59 x53 x5f x4e x53 x5f))
(L (W x00 x00 x00 x00 x00 x00 x00 x00)))))
(T (W xaa x04 xfe xff x00 x00 x01 x01)
(T (W xff xff xff xff xff xff xff xff)
(T (W x00 x00 x00 x00 x00 x00 x00 x00)
(T (W x00 x00 x00 x00 x00 x00 x00 x00)
(L (W xcc x00 x00 x00 x01 x00 x00 x00)) E)
(L (W x00 x00 x80 xbf x00 x00 x80 xbf)))
(T (W xff xff xff xff xac x00 x00 x00)
(L (W x00 x00 x00 x00 x00 x00 x00 x00))
(L (W x45 x26 x22 x84 xe4 x9c xf2 xcb))))
(T (W x00 x00 x80 x3f x00 x00 x80 x3f)
(T (W xff xff xff xff xff xff xff xff)
(T (W x67 x72 x6f x75 x70 x5f x6c x65)
(L (W x00 x00 x00 x00 xe4 xe9 xff xff)) E)
(L (W x1b x00 x00 x00 x10 x00 x00 x00)))
(T (W xff xff xff xff xbc x00 x00 x00)
(L (W x00 x00 x00 x00 x32 x85 xfe xff))
(L (W x6c x00 x00 x00 x60 x00 x00 x00))))))
(T (W x5c xcf xfb xff x3c x00 x00 x00)
(T (W x40 x00 x00 x00 x0c x00 x00 x00)
(T (W xff xff xff xff xff xff xff xff)
(T (W x00 x00 x80 x3f x00 x00 x80 x3f)
(T (W x00 x00 x80 x3f x00 x00 x80 x3f)
(L (W xff xff xff xff xff xff xff xff)) E)
(L (W xff xff xff xff xff xff xff xff)))
(T (W x00 x00 x80 x3f x00 x00 x80 x3f)
(L (W x30 x33 x5f x43 x4c x45 x41 x52))
(L (W xcc x00 x00 x00 x01 x00 x00 x00))))
(T (W x18 x00 x00 x00 x0c x00 x00 x00)
(T (W x50 x00 x00 x00 x44 x00 x00 x00)
(T (W x00 x00 x80 x3f x00 x00 x80 x3f)
(L (W x00 x00 x00 x00 x00 x00 x00 x00)) E)
(L (W xff xff xff xff xff xff xff xff)))
(T (W x00 x00 x80 x3f x00 x00 x80 x3f)
(L (W x00 x00 x00 x00 x00 x00 x00 x00))
(L (W x00 x00 x80 xbf x00 x00 x80 xbf)))))
(T (W x8a x01 x00 x00 xff xff xff xff)
(T (W xff xff xff xff x03 x00 x00 x00)
(T (W x00 x00 x00 x00 x00 x00 x62 x00)
(T (W x00 x00 x00 x00 x00 x00 x00 x00)
(L (W x04 xbf xff xff x0a x00 x00 x00)) E)
(L (W x6c x00 x00 x00 x60 x00 x00 x00)))
(T (W xff xff xff xff xff xff xff xff)
(L (W x00 x00 x00 x00 x00 x00 x00 x00))
(L (W x00 x00 x00 x00 x00 x00 x00 x00))))
(T (W x00 x00 x80 x3f x00 x00 x80 x3f)
(T (W x45 x44 x00 x00 x00 x00 x00 x00)
(T (W x00 x00 x10 x00 x00 x00 x14 x00)
(L (W xff xff xff xff xff xff xff xff)) E)
(L (W x00 x00 x00 x00 x00 x00 x00 x00)))
(T (W x5f x4e x53 x5f x30 x33 x5f x43)
(L (W x00 x00 x00 x00 x00 x00 x00 x00))
(L (W x00 x00 x80 xbf x00 x00 x80 xbf)))))))
(T (W x6b x65 x5f x66 x69 x73 x68 x5f)
(T (W x00 x00 x00 x00 x00 x00 x00 x00)
(T (W x00 x00 x00 x00 x00 x00 x00 x00)
(T (W xff xff xff xff xff xff xff xff)
(T (W x45 x26 x22 x84 xe4 x9c xf2 xcb)
(T (W x68 x00 x00 x00 x5c x00 x00 x00)
(L (W x18 x00 x00 x00 x10 x00 x00 x00)) E)
(L (W xff xff xff xff xff xff xff xff)))
(T (W x45 x26 x22 x84 xe4 x9c xf2 xcb)
(L (W xff xff xff xff xff xff xff xff))
(L (W x00 x00 x80 xbf x00 x00 x80 xbf))))
(T (W x45 x26 x22 x84 xe4 x9c xf2 xcb)
(T (W x00 x00 x80 x3f x00 x00 x80 x3f)
(T (W x00 x00 x00 x00 x00 x00 x00 x00)
(L (W x00 x00 x00 x00 x00 x00 x00 x00)) E)
(L (W xff xff xff xff xff xff xff xff)))
(T (W x00 x00 x00 x00 x00 x00 x00 x00)
(L (W x00 x00 x00 x00 x00 x00 x00 x00))
(L (W x00 x00 x80 xbf x00 x00 x80 xbf)))))
(T (W xff xff xff xff xff xff xff xff)
(T (W x64 x00 x00 x00 x9c x00 x00 x00)
(T (W x45 x26 x22 x84 xe4 x9c xf2 xcb)
(T (W x00 x00 x00 x00 x00 x00 x00 x00)
(L (W x7a xb8 xff xff x3a x00 x00 x00)) E)
(L (W x68 x00 x00 x00 x5c x00 x00 x00)))
(T (W xb0 x00 x00 x00 x64 x00 x00 x00)
(L (W x04 x00 x00 x00 xda x85 xfe xff))
(L (W x00 x00 x80 xbf x00 x00 x80 xbf))))
(T (W x00 x00 x80 x3f x00 x00 x80 x3f)
(T (W xff xff xff xff xff xff xff xff)
(T (W x6c x00 x00 x00 x60 x00 x00 x00)
(L (W x00 x00 x80 xbf x00 x00 x80 xbf)) E)
(L (W x00 x00 x00 x00 x00 x00 x00 x00)))
(T (W x04 x00 x00 x00 x7c x03 x00 x00)
(L (W xaa x8e xfe xff x8c x01 x00 x00))
(L (W x00 x00 x80 xbf x00 x00 x80 xbf))))))
(T (W x01 x00 x00 x00 x04 x00 x00 x00)
(T (W x21 x00 x00 x00 x0c x00 x00 x00)
(T (W xff xff xff xff xff xff xff xff)
(T (W x45 x26 x22 x84 xe4 x9c xf2 xcb)
(T (W x00 x00 x80 x3f x00 x00 x80 x3f)
(L (W xff xff xff xff xff xff xff xff)) E)
(L (W x00 x00 x80 xbf x00 x00 x80 xbf)))
(T (W x00 x00 x80 x3f x00 x00 x80 x3f)
(L (W xff xff xff xff xff xff xff xff))
(L (W x70 x00 x00 x00 x64 x00 x00 x00))))
(T (W x68 x00 x00 x00 x5c x00 x00 x00)
(T (W x03 x00 x00 x00 xd0 x00 x00 x00)
(T (W x00 x00 x00 x00 x00 x00 x00 x00)
(L (W x00 x00 x00 x00 x00 x00 x00 x00)) E)
(L (W x00 x00 x00 x00 x8a xdf xfe xff)))
(T (W x54 x00 x00 x00 x48 x00 x00 x00)
(L (W x00 x00 x00 x00 x08 x00 x00 x00))
(L (W x00 x00 x80 xbf x00 x00 x80 xbf)))))
(T (W xfa x47 xff xff x8a x01 x00 x00)
(T (W xff xff xff xff xff xff xff xff)
(T (W x00 x00 x00 x00 x00 x00 x00 x00)
(T (W xff xff xff xff xff xff xff xff)
(L (W x30 x33 x5f x43 x4c x45 x41 x52)) E)
(L (W x29 x00 x00 x00 x2c x00 x00 x00)))
(T (W x00 x00 x00 x00 x00 x00 x00 x00)
(L (W x00 x00 x00 x00 x00 x00 x00 x00))
(L (W x45 x26 x22 x84 xe4 x9c xf2 xcb))))
(T (W x00 x00 x80 x3f x00 x00 x80 x3f)
(T (W x04 x07 xfd xff x15 x00 x00 x00)
(T (W xaa xfe xfd xff x74 x00 x00 x00)
(L (W x00 x00 x80 xbf x00 x00 x80 xbf)) E)
(L (W x00 x00 x80 xbf x00 x00 x80 xbf)))
(T (W x00 x00 x80 x3f x00 x00 x80 x3f)
(L (W xff xff xff xff xff xff xff xff))
(L (W xff xff xff xff x9c x00 x00 x00)))))))))
(T (W x86 x03 x00 x00 xff xff xff xff)
(T (W x68 x00 x00 x00 x5c x00 x00 x00)
(T (W x00 x00 x00 x00 x00 x00 x00 x00)
(T (W x00 x00 x80 x3f x00 x00 x80 x3f)
(T (W xff xff xff xff xff xff xff xff)
(T (W xbc x00 x00 x00 xb0 x00 x00 x00)
(T (W x00 x00 x00 x00 x00 x00 x00 x00)
(T (W x00 x00 x00 x00 x00 x00 x00 x00)
(L (W x45 x26 x22 x84 xe4 x9c xf2 xcb)) E)
(L (W xa0 x00 x00 x00 x64 x00 x00 x00)))
(T (W x4b x00 x00 x00 xff xff xff xff)
(L (W x00 x00 x00 x00 x00 x00 x00 x00))
(L (W xff xff xff xff xff xff xff xff))))
(T (W x00 x00 x80 x3f x00 x00 x80 x3f)
(T (W xff xff xff xff xff xff xff xff)
(T (W x00 x00 x80 x3f x00 x00 x80 x3f)
(L (W x42 xc7 xff xff xc3 x01 x00 x00)) E)
(L (W x54 x00 x00 x00 x48 x00 x00 x00)))
(T (W xff xff xff xff xff xff xff xff)
(L (W xff xff xff xff xff xff xff xff))
(L (W x45 x44 x00 x00 x00 x00 x00 x00)))))
(T (W xff xff xff xff xff xff xff xff)
(T (W x6c x00 x00 x00 x60 x00 x00 x00)
(T (W x00 x00 x00 x00 x00 x00 x00 x00)
(T (W x00 x00 x00 x00 x02 x00 x00 x00)
(L (W x6c x00 x00 x00 x60 x00 x00 x00)) E)
(L (W x00 x00 x00 x00 x00 x00 x00 x00)))
(T (W x49 xa1 x68 x4a xeb x5f xdd x3d)
(L (W xff xff xff xff xff xff xff xff))
(L (W x00 x00 x00 x00 x00 x00 x00 x00))))
(T (W x00 x00 x00 x00 x00 x00 x00 x00)
(T (W x18 x00 x00 x00 x10 x00 x00 x00)
(T (W x00 x00 x00 x00 x00 x00 x00 x00)
(L (W x00 x00 x80 xbf x00 x00 x80 xbf)) E)
(L (W x03 x00 x00 x00 xd8 x00 x00 x00)))
(T (W x00 x00 x80 x3f x00 x00 x80 x3f)
(L (W xff xff xff xff xff xff xff xff))
(L (W x00 x00 x00 x00 x00 x00 x00 x00))))))
(T (W xff xff xff xff xff xff xff xff)
(T (W xb8 x00 x00 x00 xac x00 x00 x00)
(T (W x50 x00 x00 x00 x44 x00 x00 x00)
(T (W xbd xcd xeb xf8 x3c x9d xbe x88)
(T (W x00 x00 x00 x00 x00 x00 x00 x00)
(L (W x5a x96 xff xff x78 x00 x00 x00)) E)
(L (W x45 x26 x22 x84 xe4 x9c xf2 xcb)))
(T (W x00 x00 x00 x00 x00 x00 x00 x00)
(L (W xff xff xff xff xff xff xff xff))
(L (W x00 x00 x00 x00 x00 x00 x00 x00))))
(T (W x45 x26 x22 x84 xe4 x9c xf2 xcb)
(T (W x00 x00 x00 x00 x00 x00 x00 x00)
(T (W xff xff xff xff xff xff xff xff)
(L (W xff xff xff xff xff xff xff xff)) E)
(L (W x74 xd9 xfe xff x00 x01 x01 x01)))
(T (W x5c x6d xfd xff x10 x00 x00 x00)
(L (W xaa x01 x00 x00 xff xff xff xff))
(L (W x46 x53 x59 x53 x5f x4e x53 x5f)))))
(T (W xff xff xff xff xff xff xff xff)
(T (W x45 x26 x22 x84 xe4 x9c xf2 xcb)
(T (W x00 x00 x80 x3f x00 x00 x80 x3f)
(T (W xff xff xff xff xff xff xff xff)
(L (W xff xff xff xff xff xff xff xff)) E)
(L (W x00 x00 x80 xbf x00 x00 x80 xbf)))
(T (W x18 x00 x00 x00 x0c x00 x00 x00)
(L (W x9e x01 x00 x00 xff xff xff xff))
(L (W x00 x00 x00 x00 x00 x00 x00 x00))))
(T (W x45 x26 x22 x84 xe4 x9c xf2 xcb)
(T (W xb0 x00 x00 x00 x64 x00 x00 x00)
(T (W x4d x41 x4e x41 x50 x48 x59 x00)
(L (W x00 x00 x62 x00 x74 x00 x04 x00)) E)
(L (W xff xff xff xff xff xff xff xff)))
(T (W xff xff xff xff xff xff xff xff)
(L (W xff xff xff xff xff xff xff xff))
(L (W x00 x00 x00 x00 x00 x00 x00 x00)))))))
(T (W x00 x00 x00 x00 x00 x00 x00 x00)
(T (W xff xff xff xff xff xff xff xff)
(T (W xff xff xff xff xff xff xff xff)
(T (W x74 x11 xfc xff x00 x01 x01 x01)
(T (W x00 x00 x00 x00 x00 x00 x00 x00)
(T (W x45 x26 x22 x84 xe4 x9c xf2 xcb)
(L (W x00 x00 x80 xbf x00 x00 x80 xbf)) E)
(L (W x74 x00 x00 x00 x68 x00 x00 x00)))
(T (W x74 x03 x00 x00 x4c x02 x00 x00)
(L (W x45 x26 x22 x84 xe4 x9c xf2 xcb))
(L (W x00 x00 x00 x00 x00 x00 x00 x00))))
(T (W x00 x00 x80 x3f x00 x00 x80 x3f)
(T (W x45 x44 x00 x00 x00 x00 x00 x00)
(T (W x00 x00 x00 x00 x02 x00 x00 x00)
(L (W x00 x00 x00 x00 x8a xcd xff xff)) E)
(L (W x00 x00 x00 x00 xe4 xcf xfe xff)))
(T (W x00 x00 x00 x00 x00 x00 x00 x00)
(L (W xff xff xff xff xff xff xff xff))
(L (W x00 x00 x00 x00 x04 x00 x00 x00)))))
(T (W xff xff xff xff xff xff xff xff)
(T (W x00 x00 x00 x00 xe4 x2f xfc xff)
(T (W x00 x00 x00 x00 x00 x00 x00 x00)
(T (W xff xff xff xff xff xff xff xff)
(L (W xff xff xff xff xff xff xff xff)) E)
(L (W x45 x26 x22 x84 xe4 x9c xf2 xcb)))
(T (W x54 x00 x00 x00 x48 x00 x00 x00)
(L (W x45 x26 x22 x84 xe4 x9c xf2 xcb))
(L (W x00 x00 x00 x00 x00 x00 x00 x00))))
(T (W x45 x26 x22 x84 xe4 x9c xf2 xcb)
(T (W xcc x00 x00 x00 x01 x00 x00 x00)
(T (W xff xff xff xff xff xff xff xff)
(L (W x00 x00 x00 x00 x00 x00 x00 x00)) E)
(L (W xff xff xff xff xff xff xff xff)))
(T (W x03 x00 x00 x00 xcc x00 x00 x00)
(L (W xff xff xff xff xff xff xff xff))
(L (W x00 x00 x00 x00 x00 x00 x00 x00))))))
(T (W xff xff xff xff xff xff xff xff)
(T (W xff xff xff xff xff xff xff xff)
(T (W x00 x00 x80 x3f x00 x00 x80 x3f)
(T (W x00 x00 x01 x01 x3b x00 x00 x00)
(T (W x00 x00 x00 x00 x00 x00 x00 x00)
(L (W x00 x00 x80 xbf x00 x00 x80 xbf)) E)
(L (W xff xff xff xff xff xff xff xff)))
(T (W x00 x00 x00 x00 x00 x00 x00 x00)
(L (W x00 x00 x00 x00 x00 x00 x00 x00))
(L (W x00 x00 x80 xbf x00 x00 x80 xbf))))
(T (W x00 x00 x00 x00 x00 x00 x00 x00)
(T (W x00 x00 x80 x3f x00 x00 x80 x3f)
(T (W x18 x01 x00 x00 x04 x00 x00 x00)
(L (W xff xff xff xff xff xff xff xff)) E)
(L (W xff xff xff xff x9c x00 x00 x00)))
(T (W x00 x00 x00 x00 x00 x00 x00 x00)
(L (W xff xff xff xff xff xff xff xff))
(L (W x45 x26 x22 x84 xe4 x9c xf2 xcb)))))
(T (W x64 x00 x00 x00 x9c x00 x00 x00)
(T (W x00 x00 x80 x3f x00 x00 x80 x3f)
(T (W x18 x00 x00 x00 x10 x00 x00 x00)
(T (W x18 x00 x00 x00 x0c x00 x00 x00)
(L (W xff xff xff xff xff xff xff xff)) E)
(L (W x45 x26 x22 x84 xe4 x9c xf2 xcb)))
(T (W xff xff xff xff x9c x00 x00 x00)
(L (W x24 x01 x00 x00 x04 x00 x00 x00))
(L (W x00 x00 x00 x00 x00 x00 x00 x00))))
(T (W x00 x00 x00 x00 x00 x00 x00 x00)
(T (W xff xff xff xff xff xff xff xff)
(T (W x00 x00 x80 x3f x00 x00 x80 x3f)
(L (W x1f x00 x00 x00 x22 x00 x00 x00)) E)
(L (W xff xff xff xff xff xff xff xff)))
(T (W x04 x00 x00 x00 x8a x7d xfd xff)
(L (W xff xff xff xff xff xff xff xff))
(L (W x50 x00 x00 x00 x44 x00 x00 x00))))))))
(T (W x74 x95 xfb xff x00 x01 x01 x01)
(T (W x70 x5f x6c x65 x61 x64 x65 x72)
(T (W x00 x00 x00 x00 x00 x00 x00 x00)
(T (W x00 x00 x80 x3f x00 x00 x80 x3f)
(T (W x00 x00 x00 x00 x00 x00 x00 x00)
(T (W x74 x8d xfc xff x00 x01 x01 x01)
(T (W xff xff xff xff xff xff xff xff)
(L (W xa4 x05 x00 x00 x7c x04 x00 x00)) E)
(L (W x30 x33 x5f x43 x4c x45 x41 x52)))
(T (W x54 x00 x00 x00 x48 x00 x00 x00)
(L (W x00 x00 x00 x00 x00 x00 x00 x00))
(L (W xaa x08 xff xff x74 x00 x00 x00))))
(T (W xff xff xff xff xff xff xff xff)
(T (W x00 x00 x80 x3f x00 x00 x80 x3f)
(T (W x00 x00 x80 x3f x00 x00 x80 x3f)
(L (W x14 x00 x00 x00 x0c x00 x00 x00)) E)
(L (W xff xff xff xff xff xff xff xff)))
(T (W x00 x00 x80 x3f x00 x00 x80 x3f)
(L (W x00 x00 x80 xbf x00 x00 x80 xbf))
(L (W x6c x00 x00 x00 x60 x00 x00 x00)))))
(T (W x00 x00 x00 x00 x00 x00 x00 x00)
(T (W x04 x31 xfc xff x3e x00 x00 x00)
(T (W x74 xad xfc xff x00 x01 x01 x01)
(T (W x00 x00 x80 x3f x00 x00 x80 x3f)
(L (W xca xe8 xac x28 xbf xdb x59 x6a)) E)
(L (W xff xff xff xff xff xff xff xff)))
(T (W xff xff xff xff xff xff xff xff)
(L (W x45 x26 x22 x84 xe4 x9c xf2 xcb))
(L (W x03 x00 x00 x00 xd8 x00 x00 x00))))
(T (W xff xff xff xff xff xff xff xff)
(T (W x00 x00 x00 x00 x00 x00 x00 x00)
(T (W x00 x00 x80 xbf x00 x00 x80 xbf)
(L (W x00 x00 x80 xbf x00 x00 x80 xbf)) E)
(L (W x00 x00 x80 xbf x00 x00 x80 xbf)))
(T (W x00 x00 x00 x00 x12 x00 x00 x00)
(L (W x00 x00 x80 xbf x00 x00 x80 xbf))
(L (W x45 x26 x22 x84 xe4 x9c xf2 xcb))))))
(T (W x00 x00 x80 x3f x00 x00 x80 x3f)
(T (W x00 x00 x00 x00 x00 x00 x00 x00)
(T (W x04 x21 xfc xff x1b x00 x00 x00)
(T (W x18 x00 x00 x00 x0c x00 x00 x00)
(T (W x45 x26 x22 x84 xe4 x9c xf2 xcb)
(L (W x21 xf8 xaf x28 xbf x5b x5d x6a)) E)
(L (W x46 x53 x59 x53 x5f x4e x53 x5f)))
(T (W x74 x1d xfd xff x00 x01 x01 x01)
(L (W x00 x00 x80 xbf x00 x00 x80 xbf))
(L (W xff xff xff xff xff xff xff xff))))
(T (W xff xff xff xff xff xff xff xff)
(T (W xff xff xff xff xff xff xff xff)
(T (W xaa xd8 xfd xff x74 x00 x00 x00)
(L (W x00 x00 x80 xbf x00 x00 x80 xbf)) E)
(L (W x00 x00 x00 x00 x00 x00 x00 x00)))
(T (W x45 x26 x22 x84 xe4 x9c xf2 xcb)
(L (W x00 x00 x80 xbf x00 x00 x80 xbf))
(L (W xc0 x00 x00 x00 x01 x00 x00 x00)))))
(T (W x00 x00 x00 x00 x00 x00 x00 x00)
(T (W xff xff xff xff xff xff xff xff)
(T (W x50 x00 x00 x00 x44 x00 x00 x00)
(T (W xff xff xff xff xff xff xff xff)
(L (W x50 x00 x00 x00 x44 x00 x00 x00)) E)
(L (W xff xff xff xff xff xff xff xff)))
(T (W x00 x00 x00 x00 x00 x00 x00 x00)
(L (W x00 x00 x80 xbf x00 x00 x80 xbf))
(L (W x45 x26 x22 x84 xe4 x9c xf2 xcb))))
(T (W x45 x26 x22 x84 xe4 x9c xf2 xcb)
(T (W x00 x00 x00 x00 x00 x00 x00 x00)
(T (W xff xff xff xff xff xff xff xff)
(L (W x00 x00 x80 xbf x00 x00 x80 xbf)) E)
(L (W x68 x00 x00 x00 x5c x00 x00 x00)))
(T (W x00 x00 x80 x3f x00 x00 x80 x3f)
(L (W x00 x00 x00 x00 x00 x00 x00 x00))
(L (W x00 x00 x00 x00 x00 x00 x00 x00)))))))
(T (W x00 x00 x80 x3f x00 x00 x80 x3f)
(T (W x00 x00 x80 x3f x00 x00 x80 x3f)
(T (W x00 x00 x80 x3f x00 x00 x80 x3f)
(T (W x00 x00 x00 x00 x00 x00 x00 x00)
(T (W x45 x26 x22 x84 xe4 x9c xf2 xcb)
(T (W xff xff xff xff xff xff xff xff)
(L (W x00 x00 x00 x00 x00 x00 x00 x00)) E)
(L (W x00 x00 x00 x00 x00 x00 x00 x00)))
(T (W x00 x00 x80 x3f x00 x00 x80 x3f)
(L (W x00 x00 x00 x00 x00 x00 x00 x00))
(L (W xff xff xff xff xff xff xff xff))))
(T (W xff xff xff xff xff xff xff xff)
(T (W xff xff xff xff xb0 x00 x00 x00)
(T (W x00 x00 x80 x3f x00 x00 x80 x3f)
(L (W x00 x00 x80 xbf x00 x00 x80 xbf)) E)
(L (W xda xdf xfe xff xd3 x00 x00 x00)))
(T (W x74 x55 xfd xff x00 x01 x01 x01)
(L (W x00 x00 x80 xbf x00 x00 x80 xbf))
(L (W x50 x00 x00 x00 x44 x00 x00 x00)))))
(T (W x00 x00 x00 x00 x00 x00 x00 x00)
(T (W x01 x00 x00 x00 x04 x00 x00 x00)
(T (W x50 x00 x00 x00 x44 x00 x00 x00)
(T (W x00 x00 x80 x3f x00 x00 x80 x3f)
(L (W x00 x00 x80 xbf x00 x00 x80 xbf)) E)
(L (W xff xff xff xff xc4 x00 x00 x00)))
(T (W x00 x00 x00 x00 x00 x00 x00 x00)
(L (W x00 x00 x80 xbf x00 x00 x80 xbf))
(L (W x00 x00 x00 x00 xe4 x33 xff xff))))
(T (W xb8 x00 x00 x00 xac x00 x00 x00)
(T (W x00 x00 x00 x00 x00 x00 x00 x00)
(T (W x00 x00 x00 x00 x00 x00 x00 x00)
(L (W x5f x4e x53 x5f x30 x33 x5f x43)) E)
(L (W x00 x00 x80 xbf x00 x00 x80 xbf)))
(T (W x00 x00 x80 x3f x00 x00 x80 x3f)
(L (W x00 x00 x00 x00 x00 x00 x00 x00))
(L (W xff xff xff xff xff xff xff xff))))))
(T (W x45 x26 x22 x84 xe4 x9c xf2 xcb)
(T (W x00 x00 x80 x3f x00 x00 x80 x3f)
(T (W x00 x00 x00 x00 x00 x00 x00 x00)
(T (W xff xff xff xff xff xff xff xff)
(T (W x74 xa5 xfd xff x00 x01 x01 x01)
(L (W x00 x00 x00 x00 x8a xa1 xff xff)) E)
(L (W xff xff xff xff xff xff xff xff)))
(T (W xff xff xff xff xbc x00 x00 x00)
(L (W x00 x00 x00 x00 x00 x00 x00 x00))
(L (W xff xff xff xff xbc x00 x00 x00))))
(T (W xff xff xff xff xff xff xff xff)
(T (W x00 x00 x00 x00 x02 x00 x00 x00)
(T (W x54 x00 x00 x00 x00 x00 x00 x00)
(L (W x03 x00 x00 x00 xc8 x00 x00 x00)) E)
(L (W x00 x00 x80 xbf x00 x00 x80 xbf)))
(T (W x02 x00 x00 x00 xff xff xff xff)
(L (W x00 x00 x80 xbf x00 x00 x80 xbf))
(L (W xff xff xff xff xff xff xff xff)))))
(T (W x00 x00 x00 x00 x00 x00 x00 x00)
(T (W xff xff xff xff xff xff xff xff)
(T (W x49 xa1 x68 x4a xeb x5f xdd x3d)
(T (W x04 xc9 xfd xff x2f x00 x00 x00)
(L (W x00 x00 x80 xbf x00 x00 x80 xbf)) E)
(L (W xff xff xff xff xff xff xff xff)))
(T (W x00 x00 x00 x00 x00 x00 x00 x00)
(L (W x45 x26 x22 x84 xe4 x9c xf2 xcb))
(L (W x00 x00 x80 xbf x00 x00 x80 xbf))))
(T (W x68 x00 x00 x00 x5c x00 x00 x00)
(T (W x00 x00 x80 x3f x00 x00 x80 x3f)
(T (W x46 x53 x59 x53 x5f x4e x53 x5f)
(L (W x00 x00 x00 x00 x00 x00 x00 x00)) E)
(L (W x6c x00 x00 x00 x60 x00 x00 x00)))
(T (W x74 x85 xfd xff x00 x01 x01 x01)
(L (W x00 x00 x00 x00 x00 x00 x00 x00))
(L (W x00 x00 x00 x00 x8a x81 xff xff))))))))))
(T (W xd8 x05 x01 x00 xa4 x04 x01 x00)
(T (W xff xff xff xff xff xff xff xff)
(T (W x00 x00 x80 x3f x00 x00 x80 x3f)
(T (W x64 x5f x70 x6f x6b x65 x5f x77)
(T (W x00 x00 x00 x00 x00 x00 x00 x00)
(T (W x64 x00 x00 x00 x9c x00 x00 x00)
(T (W x50 x00 x00 x00 x44 x00 x00 x00)
(T (W xe9 x1c x0b x70 xe6 x2f xf4 x4b)
(T (W x00 x00 x00 x00 x00 x00 x00 x00)
(L (W x00 x00 x80 xbf x00 x00 x80 xbf)) E)
(L (W x45 x26 x22 x84 xe4 x9c xf2 xcb)))
(T (W xff xff xff xff xff xff xff xff)
(L (W x25 x00 x00 x00 x67 x72 x6f x75))
(L (W xff xff xff xff xff xff xff xff))))
(T (W x45 x26 x22 x84 xe4 x9c xf2 xcb)
(T (W xff xff xff xff xbc x00 x00 x00)
(T (W x00 x00 x80 x3f x00 x00 x80 x3f)
(L (W x00 x00 x00 x00 x32 xe2 xff xff)) E)
(L (W x00 x00 x00 x00 x00 x00 x00 x00)))
(T (W xff xff xff xff xc8 x00 x00 x00)
(L (W xff xff xff xff xff xff xff xff))
(L (W xaa x63 xff xff xc6 x00 x00 x00)))))
(T (W xc0 x00 x00 x00 xb4 x00 x00 x00)
(T (W x00 x00 x80 x3f x00 x00 x80 x3f)
(T (W x64 x00 x68 x00 x62 x00 x00 x00)
(T (W xff xff xff xff xff xff xff xff)
(L (W x45 x26 x22 x84 xe4 x9c xf2 xcb)) E)
(L (W x00 x00 x00 x00 x00 x00 x00 x00)))
(T (W x00 x00 x00 x00 x00 x00 x00 x00)
(L (W x03 x00 x00 x00 xbc x00 x00 x00))
(L (W x5c x3c xff xff x29 x00 x00 x00))))
(T (W x00 x00 x00 x00 x00 x00 x00 x00)
(T (W x54 x00 x00 x00 x48 x00 x00 x00)
(T (W x4c x00 x00 x00 x50 x00 x00 x00)
(L (W x4f x84 x6f x8b xe8 xcb x63 xb7)) E)
(L (W xff xff xff xff x9c x00 x00 x00)))
(T (W x49 xa1 x68 x4a xeb x5f xdd x3d)
(L (W x1d x00 x00 x00 x20 x00 x00 x00))
(L (W x00 x00 x00 x00 x00 x00 x00 x00))))))
(T (W xff xff xff xff x03 x00 x00 x00)
(T (W x50 x00 x00 x00 x44 x00 x00 x00)
(T (W x00 x00 x80 x3f x00 x00 x80 x3f)
(T (W xff xff xff xff xff xff xff xff)
(T (W x00 x00 x00 x00 x00 x00 x00 x00)
(L (W x45 x26 x22 x84 xe4 x9c xf2 xcb)) E)
(L (W x44 x00 x00 x00 x00 x00 x80 xbf)))
(T (W xff xff xff xff xff xff xff xff)
(L (W xff xff xff xff xff xff xff xff))
(L (W x00 x00 x00 x00 x00 x00 x00 x00))))
(T (W x00 x00 x00 x00 x00 x00 x00 x00)
(T (W x30 x33 x5f x43 x4c x45 x41 x52)
(T (W xff xff xff xff xff xff xff xff)
(L (W xff xff xff xff xff xff xff xff)) E)
(L (W x68 x00 x00 x00 x5c x00 x00 x00)))
(T (W xff xff xff xff xff xff xff xff)
(L (W xff xff xff xff xff xff xff xff))
(L (W x2c x01 x00 x00 x04 x00 x00 x00)))))
(T (W x00 x00 x00 x00 xe4 xf6 xfb xff)
(T (W x00 x00 x80 x3f x00 x00 x80 x3f)
(T (W x00 x00 x0c x00 x10 x00 x14 x00)
(T (W x45 x26 x22 x84 xe4 x9c xf2 xcb)
(L (W x18 x00 x00 x00 x10 x00 x00 x00)) E)
(L (W x45 x26 x22 x84 xe4 x9c xf2 xcb)))
(T (W x00 x00 x80 x3f x00 x00 x80 x3f)
(L (W xff xff xff xff xff xff xff xff))
(L (W xff xff xff xff xff xff xff xff))))
(T (W x00 x00 x00 x00 x00 x00 x00 x00)
(T (W x74 xf8 xfc xff x00 x01 x01 x01)
(T (W xff xff xff xff xff xff xff xff)
(L (W xff xff xff xff xff xff xff xff)) E)
(L (W xff xff xff xff xff xff xff xff)))
(T (W xff xff xff xff xff xff xff xff)
(L (W x18 x00 x00 x00 x1b x00 x00 x00))
(L (W x00 x00 x00 x00 x00 x00 x00 x00)))))))
(T (W x75 x6e x00 x00 x2a x00 x00 x00)
(T (W x00 x00 x80 x3f x00 x00 x80 x3f)
(T (W x74 xd0 xfb xff x00 x01 x01 x01)
(T (W x00 x00 x80 x3f x00 x00 x80 x3f)
(T (W x43 x00 x00 x00 xff xff xff xff)
(T (W x00 x00 x00 x00 x00 x00 x00 x00)
(L (W x00 x00 x80 xbf x00 x00 x80 xbf)) E)
(L (W x00 x00 x80 xbf x00 x00 x80 xbf)))
(T (W xff xff xff xff xff xff xff xff)
(L (W x54 x00 x00 x00 x48 x00 x00 x00))
(L (W x36 x87 xd4 x61 xf7 xdc xb2 x83))))
(T (W x00 x00 x00 x00 x00 x00 x00 x00)
(T (W xff xff xff xff xff xff xff xff)
(T (W x18 x00 x00 x00 x10 x00 x00 x00)
(L (W xff xff xff xff xff xff xff xff)) E)
(L (W x00 x00 x80 xbf x00 x00 x80 xbf)))
(T (W xff xff xff xff xff xff xff xff)
(L (W xff xff xff xff xff xff xff xff))
(L (W xff xff xff xff xff xff xff xff)))))
(T (W xff xff xff xff x03 x00 x00 x00)
(T (W x68 x00 x00 x00 x5c x00 x00 x00)
(T (W x00 x00 x00 x00 x04 x00 x00 x00)
(T (W xff xff xff xff xff xff xff xff)
(L (W xff xff xff xff xb0 x00 x00 x00)) E)
(L (W x00 x00 x00 x00 x00 x00 x00 x00)))
(T (W x00 x00 x80 x3f x00 x00 x80 x3f)
(L (W x00 x00 x00 x00 x00 x00 x00 x00))
(L (W x45 x44 x00 x00 x00 x00 x00 x00))))
(T (W x00 x00 x00 x00 x00 x00 x00 x00)
(T (W x00 x00 x80 x3f x00 x00 x80 x3f)
(T (W x55 x6c xfc xf1 x99 x9e xc9 x88)
(L (W x00 x00 x00 x00 x8a xec xff xff)) E)
(L (W x1f x00 x00 x00 x22 x00 x00 x00)))
(T (W x18 x00 x00 x00 x10 x00 x00 x00)
(L (W xb8 x00 x00 x00 x64 x00 x00 x00))
(L (W x00 x00 x00 x00 x00 x00 x00 x00))))))
(T (W xff xff xff xff xff xff xff xff)
(T (W x01 x00 x00 x00 xa0 x00 x00 x00)
(T (W x00 x00 x80 x3f x00 x00 x80 x3f)
(T (W xff xff xff xff xff xff xff xff)
(T (W x00 x00 x00 x00 x02 x00 x00 x00)
(L (W x4f x84 x6f x8b xe8 xcb x63 xb7)) E)
(L (W x00 x00 x80 xbf x00 x00 x80 xbf)))
(T (W x00 x00 x00 x00 x00 x00 x00 x00)
(L (W xd3 x00 x00 x00 xff xff xff xff))
(L (W x00 x00 x00 x00 x00 x00 x00 x00))))
(T (W x00 x00 x00 x00 x00 x00 x00 x00)
(T (W x00 x00 x00 x00 x00 x00 x00 x00)
(T (W xff xff xff xff xff xff xff xff)
(L (W xcc x00 x00 x00 x01 x00 x00 x00)) E)
(L (W x5a xdd xfe xff x78 x00 x00 x00)))
(T (W x00 x00 x00 x00 x00 x00 x00 x00)
(L (W xb0 x00 x00 x00 x3c x00 x00 x00))
(L (W x00 x00 x00 x00 x00 x00 x00 x00)))))
(T (W x45 x26 x22 x84 xe4 x9c xf2 xcb)
(T (W x00 x00 x80 x3f x00 x00 x80 x3f)
(T (W x00 x00 x00 x00 x00 x00 x00 x00)
(T (W x00 x00 x80 x3f x00 x00 x80 x3f)
(L (W xff xff xff xff xff xff xff xff)) E)
(L (W x00 x00 x00 x00 x00 x00 x00 x00)))
(T (W xaa x3b xfd xff x74 x00 x00 x00)
(L (W xff xff xff xff xff xff xff xff))
(L (W xff xff xff xff xff xff xff xff))))
(T (W x00 x00 x00 x00 x00 x00 x00 x00)
(T (W xff xff xff xff xc4 x00 x00 x00)
(T (W x00 x00 x00 x00 x00 x00 x00 x00)
(L (W x00 x00 x00 x00 x00 x00 x00 x00)) E)
(L (W xff xff xff xff xff xff xff xff)))
(T (W xff xff xff xff xff xff xff xff)
(L (W xe0 x7e xfe xff x0a xba xfe xff))
(L (W x00 x00 x80 xbf x00 x00 x80 xbf))))))))
(T (W x6f x6b x65 x5f x77 x61 x72 x6c)
(T (W xff xff xff xff xff xff xff xff)
(T (W x20 x01 x00 x00 x04 x00 x00 x00)
(T (W x45 x26 x22 x84 xe4 x9c xf2 xcb)
(T (W x00 x00 x00 x00 x00 x00 x00 x00)
(T (W x68 x00 x00 x00 x5c x00 x00 x00)
(T (W xff xff xff xff xff xff xff xff)
(L (W xff xff xff xff xff xff xff xff)) E)
(L (W x24 x01 x00 x00 x04 x00 x00 x00)))
(T (W x00 x00 x00 x00 x00 x00 x00 x00)
(L (W xff xff xff xff xff xff xff xff))
(L (W x00 x00 x80 xbf x00 x00 x80 xbf))))
(T (W xff xff xff xff xff xff xff xff)
(T (W x00 x00 x80 x3f x00 x00 x80 x3f)
(T (W x72 x64 x5f x6c x76 x31 x00 x00)
(L (W x6c x00 x00 x00 x60 x00 x00 x00)) E)
(L (W xff xff xff xff xff xff xff xff)))
(T (W x49 xa1 x68 x4a xeb x5f xdd x3d)
(L (W x00 x00 x00 x00 x00 x00 x00 x00))
(L (W x45 x26 x22 x84 xe4 x9c xf2 xcb)))))
(T (W x00 x00 x00 x00 x00 x00 x00 x00)
(T (W xff xff xff xff xff xff xff xff)
(T (W x00 x00 x80 x3f x00 x00 x80 x3f)
(T (W x00 x00 x80 x3f x00 x00 x80 x3f)
(L (W xff xff xff xff xff xff xff xff)) E)
(L (W x00 x00 x00 x00 xe4 xaa xfe xff)))
(T (W xff xff xff xff xff xff xff xff)
(L (W x00 x00 x80 xbf x00 x00 x80 xbf))
(L (W xa8 x00 x00 x00 x64 x00 x00 x00))))
(T (W x45 x26 x22 x84 xe4 x9c xf2 xcb)
(T (W x74 x03 x00 x00 x4c x02 x00 x00)
(T (W x00 x00 x00 x00 x00 x00 x00 x00)
(L (W x20 x00 x24 x00 x28 x00 x2c x00)) E)
(L (W x4f x84 x6f x8b xe8 xcb x63 xb7)))
(T (W x00 x00 x00 x00 x02 x00 x00 x00)
(L (W x00 x00 x00 x00 x00 x00 x00 x00))
(L (W x45 x26 x22 x84 xe4 x9c xf2 xcb))))))
(T (W x00 x00 x00 x00 x00 x00 x00 x00)
(T (W x00 x00 x00 x00 x00 x00 x00 x00)
(T (W xff xff xff xff xff xff xff xff)
(T (W x00 x00 x80 x3f x00 x00 x80 x3f)
(T (W x5a x99 xfd xff x78 x00 x00 x00)
(L (W xff xff xff xff xff xff xff xff)) E)
(L (W x22 xb0 xfe xff xaa x01 x00 x00)))
(T (W x68 x00 x00 x00 x5c x00 x00 x00)
(L (W x00 x00 x00 x00 x00 x00 x00 x00))
(L (W xff xff xff xff xff xff xff xff))))
(T (W xb8 x00 x00 x00 xac x00 x00 x00)
(T (W xc4 x00 x00 x00 x01 x00 x00 x00)
(T (W x00 x00 x80 x3f x00 x00 x80 x3f)
(L (W x00 x00 x00 x00 x00 x00 x00 x00)) E)
(L (W xff xff xff xff xff xff xff xff)))
(T (W x50 x00 x00 x00 x44 x00 x00 x00)
(L (W x45 x26 x22 x84 xe4 x9c xf2 xcb))
(L (W x45 x26 x22 x84 xe4 x9c xf2 xcb)))))
(T (W x00 x00 x00 x00 x00 x00 x00 x00)
(T (W xff xff xff xff xff xff xff xff)
(T (W x00 x00 x80 x3f x00 x00 x80 x3f)
(T (W x45 x26 x22 x84 xe4 x9c xf2 xcb)
(L (W x00 x00 x80 xbf x00 x00 x80 xbf)) E)
(L (W xff xff xff xff x9c x00 x00 x00)))
(T (W x7a x41 xfd xff x9c x01 x00 x00)
(L (W x00 x00 x80 xbf x00 x00 x80 xbf))
(L (W x45 x26 x22 x84 xe4 x9c xf2 xcb))))
(T (W x00 x00 x80 x3f x00 x00 x80 x3f)
(T (W x00 x00 x00 x00 x00 x00 x00 x00)
(T (W x74 x00 x00 x00 x64 x00 x00 x00)
(L (W x10 x00 x04 x00 x08 x00 x0c x00)) E)
(L (W x00 x00 x80 xbf x00 x00 x80 xbf)))
(T (W x00 x00 x00 x00 x00 x00 x00 x00)
(L (W x00 x00 x00 x00 x00 x00 x00 x00))
(L (W x00 x00 x80 xbf x00 x00 x80 xbf)))))))
(T (W x00 x00 x00 x00 x00 x00 x00 x00)
(T (W x45 x26 x22 x84 xe4 x9c xf2 xcb)
(T (W x00 x00 x00 x00 x00 x00 x00 x00)
(T (W x00 x00 x00 x00 x04 x00 x00 x00)
(T (W xaa x8f xfc xff x74 x00 x00 x00)
(T (W xaa x8f xfd xff x74 x00 x00 x00)
(L (W xff xff xff xff xff xff xff xff)) E)
(L (W x00 x00 x00 x00 x00 x00 x00 x00)))
(T (W x00 x00 x80 x3f x00 x00 x80 x3f)
(L (W x00 x00 x00 x00 x9a x26 xfe xff))
(L (W xcc x00 x00 x00 x01 x00 x00 x00))))
(T (W xff xff xff xff xff xff xff xff)
(T (W x00 x00 x80 x3f x00 x00 x80 x3f)
(T (W x00 x00 x80 x3f x00 x00 x80 x3f)
(L (W x45 x26 x22 x84 xe4 x9c xf2 xcb)) E)
(L (W xff xff xff xff xff xff xff xff)))
(T (W x00 x00 x80 x3f x00 x00 x80 x3f)
(L (W x00 x00 x00 x00 x00 x00 x00 x00))
(L (W x00 x00 x80 xbf x00 x00 x80 xbf)))))
(T (W x40 x00 x00 x00 x0c x00 x00 x00)
(T (W xff xff xff xff xff xff xff xff)
(T (W x00 x00 x80 x3f x00 x00 x80 x3f)
(T (W x00 x00 x00 x00 x00 x00 x00 x00)
(L (W x00 x00 x00 x00 x00 x00 x00 x00)) E)
(L (W x45 x26 x22 x84 xe4 x9c xf2 xcb)))
(T (W xff xff xff xff xff xff xff xff)
(L (W x00 x00 x00 x00 x00 x00 x00 x00))
(L (W x00 x00 x80 xbf x00 x00 x80 xbf))))
(T (W x68 x00 x00 x00 x5c x00 x00 x00)
(T (W x00 x00 x00 x00 x00 x00 x00 x00)
(T (W xc0 x6d x24 x4b xf1 xef xc9 x32)
(L (W xa7 x01 x00 x00 xff xff xff xff)) E)
(L (W x00 x00 x80 xbf x00 x00 x80 xbf)))
(T (W x00 x00 x00 x00 x00 x00 x00 x00)
(L (W x30 x33 x5f x43 x4c x45 x41 x52))
(L (W x18 x00 x00 x00 x0c x00 x00 x00))))))
(T (W x00 x00 x00 x00 x00 x00 x00 x00)
(T (W x00 x00 x00 x00 x00 x00 x00 x00)
(T (W xaa x3d xfe xff x00 x00 x01 x01)
(T (W x00 x00 x80 x3f x00 x00 x80 x3f)
(T (W x00 x00 x80 x3f x00 x00 x80 x3f)
(L (W xff xff xff xff xff xff xff xff)) E)
(L (W xcc x00 x00 x00 x01 x00 x00 x00)))
(T (W x45 x26 x22 x84 xe4 x9c xf2 xcb)
(L (W x00 x00 x00 x00 x01 x00 x00 x00))
(L (W x45 x26 x22 x84 xe4 x9c xf2 xcb))))
(T (W xff xff xff xff x04 x00 x00 x00)
(T (W xff xff xff xff xff xff xff xff)
(T (W xbc x00 x00 x00 xb0 x00 x00 x00)
(L (W x00 x00 x00 x00 x00 x00 x00 x00)) E)
(L (W x00 x00 x00 x00 x00 x00 x00 x00)))
(T (W x45 x26 x22 x84 xe4 x9c xf2 xcb)
(L (W x00 x00 x00 x00 x00 x00 x00 x00))
(L (W xff xff xff xff xb0 x00 x00 x00)))))
(T (W x00 x00 x00 x00 x00 x00 x00 x00)
(T (W xff xff xff xff xff xff xff xff)
(T (W x00 x00 x00 x00 x00 x00 x00 x00)
(T (W x01 x00 x00 x00 xff xff xff xff)
(L (W x00 x00 x00 x00 x00 x00 x00 x00)) E)
(L (W xff xff xff xff xff xff xff xff)))
(T (W x00 x00 x00 x00 x00 x00 x00 x00)
(L (W x00 x00 x00 x00 x00 x00 x00 x00))
(L (W x00 x00 x80 xbf x00 x00 x80 xbf))))
(T (W x50 x00 x00 x00 x44 x00 x00 x00)
(T (W x4f x84 x6f x8b xe8 xcb x63 xb7)
(T (W x04 x00 x00 x00 x9a xd2 xff xff)
(L (W xff xff xff xff xff xff xff xff)) E)
(L (W x00 x00 x80 xbf x00 x00 x80 xbf)))
(T (W x00 x00 x80 x3f x00 x00 x80 x3f)
(L (W x00 x00 x00 x00 x00 x00 x00 x00))
(L (W xff xff xff xff xff xff xff xff)))))))))
(T (W x00 x00 x00 x00 x00 x00 x00 x00)
(T (W x00 x00 x00 x00 xe4 x90 xfb xff)
(T (W x5a x97 xfb xff x78 x00 x00 x00)
(T (W x6c x00 x00 x00 x60 x00 x00 x00)
(T (W xff xff xff xff xff xff xff xff)
(T (W xff xff xff xff xff xff xff xff)
(T (W x00 x00 x00 x00 x00 x00 x00 x00)
(T (W x68 x00 x00 x00 x5c x00 x00 x00)
(L (W xa0 x00 x00 x00 x64 x00 x00 x00)) E)
(L (W xc4 x00 x00 x00 x01 x00 x00 x00)))
(T (W x00 x00 x00 x00 x00 x00 x00 x00)
(L (W x54 x00 x00 x00 x48 x00 x00 x00))
(L (W x45 x44 x00 x00 x00 x00 x00 x00))))
(T (W x68 x00 x00 x00 x5c x00 x00 x00)
(T (W x00 x00 x00 x00 x00 x00 x00 x00)
(T (W xff xff xff xff xff xff xff xff)
(L (W x30 x33 x5f x43 x4c x45 x41 x52)) E)
(L (W x18 x00 x00 x00 x10 x00 x00 x00)))
(T (W xff xff xff xff x02 x00 x00 x00)
(L (W x00 x00 x00 x00 x02 x00 x00 x00))
(L (W x00 x00 x00 x00 x00 x00 x00 x00)))))
(T (W xff xff xff xff xff xff xff xff)
(T (W x00 x00 x00 x00 xe4 x28 xfc xff)
(T (W x00 x00 x00 x00 x00 x00 x00 x00)
(T (W x00 x00 x00 x00 x00 x00 x00 x00)
(L (W x18 x00 x00 x00 x10 x00 x00 x00)) E)
(L (W x00 x00 x80 xbf x00 x00 x80 xbf)))
(T (W x00 x00 x80 x3f x00 x00 x80 x3f)
(L (W x04 x2e xfe xff x19 x00 x00 x00))
(L (W x00 x00 x80 xbf x00 x00 x80 xbf))))
(T (W x45 x26 x22 x84 xe4 x9c xf2 xcb)
(T (W xc4 x00 x00 x00 x01 x00 x00 x00)
(T (W xff xff xff xff xff xff xff xff)
(L (W x00 x00 x80 xbf x00 x00 x80 xbf)) E)
(L (W xff xff xff xff xff xff xff xff)))
(T (W x45 x26 x22 x84 xe4 x9c xf2 xcb)
(L (W xff xff xff xff xff xff xff xff))
(L (W x45 x26 x22 x84 xe4 x9c xf2 xcb))))))
(T (W xff xff xff xff xff xff xff xff)
(T (W xff xff xff xff xff xff xff xff)
(T (W x64 x00 x00 x00 x9c x00 x00 x00)
(T (W x00 x00 x00 x00 x00 x00 x00 x00)
(T (W x45 x26 x22 x84 xe4 x9c xf2 xcb)
(L (W x1d x00 x00 x00 x20 x00 x00 x00)) E)
(L (W x1c x00 x00 x00 x10 x00 x00 x00)))
(T (W x00 x00 x00 x00 x00 x00 x00 x00)
(L (W x00 x00 x01 x01 x40 x00 x00 x00))
(L (W x00 x00 x80 xbf x00 x00 x80 xbf))))
(T (W x00 x00 x80 x3f x00 x00 x80 x3f)
(T (W x00 x00 x80 x3f x00 x00 x80 x3f)
(T (W x70 x5f x6c x65 x61 x64 x65 x72)
(L (W x45 x44 x00 x00 x00 x00 x00 x00)) E)
(L (W xb4 x00 x00 x00 x64 x00 x00 x00)))
(T (W x4f x84 x6f x8b xe8 xcb x63 xb7)
(L (W x00 x00 x00 x00 x00 x00 x00 x00))
(L (W x00 x00 x00 x00 x00 x00 x00 x00)))))
(T (W xff xff xff xff xff xff xff xff)
(T (W x40 x00 x00 x00 x9c x00 x00 x00)
(T (W xff xff xff xff xff xff xff xff)
(T (W x2a x00 x00 x00 x67 x72 x6f x75)
(L (W xaf x00 x00 x00 xff xff xff xff)) E)
(L (W x00 x00 x80 xbf x00 x00 x80 xbf)))
(T (W xff xff xff xff xff xff xff xff)
(L (W x00 x00 x00 x00 x00 x00 x00 x00))
(L (W x00 x00 x00 x00 x00 x00 x00 x00))))
(T (W x00 x00 x80 x3f x00 x00 x80 x3f)
(T (W xff xff xff xff xff xff xff xff)
(T (W xc0 x00 x00 x00 x64 x00 x00 x00)
(L (W x00 x00 x80 xbf x00 x00 x80 xbf)) E)
(L (W x00 x00 x00 x00 x9a x0c xff xff)))
(T (W x00 x00 x00 x00 x02 x81 xfd xff)
(L (W xff xff xff xff xff xff xff xff))
(L (W x45 x26 x22 x84 xe4 x9c xf2 xcb)))))))
(T (W x01 x00 x00 x00 x3e x00 x00 x00)
(T (W x01 x00 x00 x00 x04 x00 x00 x00)
(T (W xb0 x01 x00 x00 xff xff xff xff)
(T (W xff xff xff xff xff xff xff xff)
(T (W x00 x00 x00 x00 x00 x00 x00 x00)
(T (W x00 x00 x80 x3f x00 x00 x80 x3f)
(L (W x6c x00 x00 x00 x60 x00 x00 x00)) E)
(L (W x14 x00 x00 x00 x0c x00 x00 x00)))
(T (W x00 x00 x00 x00 x00 x00 x00 x00)
(L (W xff xff xff xff xc8 x00 x00 x00))
(L (W x45 x26 x22 x84 xe4 x9c xf2 xcb))))
(T (W x5a x4f xfc xff x78 x00 x00 x00)
(T (W x00 x00 x00 x00 x00 x00 x00 x00)
(T (W x00 x00 x00 x00 x00 x00 x00 x00)
(L (W x00 x00 x00 x00 x00 x00 x00 x00)) E)
(L (W x18 x00 x00 x00 x0c x00 x00 x00)))
(T (W x00 x00 x00 x00 x00 x00 x00 x00)
(L (W x00 x00 x00 x00 x00 x00 x00 x00))
(L (W x00 x00 x00 x00 x00 x00 x00 x00)))))
(T (W xff xff xff xff xff xff xff xff)
(T (W x18 x00 x00 x00 x0c x00 x00 x00)
(T (W x00 x00 x00 x00 x00 x00 x00 x00)
(T (W x00 x00 x00 x00 x02 x00 x00 x00)
(L (W xff xff xff xff xff xff xff xff)) E)
(L (W x00 x00 x80 xbf x00 x00 x80 xbf)))
(T (W x74 x32 xfd xff x00 x01 x01 x01)
(L (W xff xff xff xff xff xff xff xff))
(L (W x00 x00 x80 xbf x00 x00 x80 xbf))))
(T (W x00 x00 x80 x3f x00 x00 x80 x3f)
(T (W xff xff xff xff xff xff xff xff)
(T (W x70 x5f x77 x69 x6c x64 x5f x70)
(L (W x4f x84 x6f x8b xe8 xcb x63 xb7)) E)
(L (W x00 x00 x00 x00 x08 x00 x00 x00)))
(T (W xff xff xff xff xff xff xff xff)
(L (W xff xff xff xff xff xff xff xff))
(L (W x00 x00 x80 xbf x00 x00 x80 xbf))))))
(T (W xff xff xff xff xff xff xff xff)
(T (W xff xff xff xff xff xff xff xff)
(T (W x74 x22 xfc xff x00 x01 x01 x01)
(T (W x00 x00 x00 x00 x00 x00 x00 x00)
(T (W x00 x00 x00 x00 x00 x00 x00 x00)
(L (W xff xff xff xff xb0 x00 x00 x00)) E)
(L (W x6c x00 x00 x00 x08 x00 x00 x00)))
(T (W x49 xa1 x68 x4a xeb x5f xdd x3d)
(L (W x18 x00 x00 x00 x0c x00 x00 x00))
(L (W x00 x00 x80 xbf x00 x00 x80 xbf))))
(T (W x00 x00 x80 x3f x00 x00 x80 x3f)
(T (W x68 x00 x00 x00 x5c x00 x00 x00)
(T (W x00 x00 x00 x00 x00 x00 x00 x00)
(L (W xff xff xff xff xff xff xff xff)) E)
(L (W xff xff xff xff xff xff xff xff)))
(T (W x45 x26 x22 x84 xe4 x9c xf2 xcb)
(L (W xff xff xff xff xff xff xff xff))
(L (W x00 x00 x80 xbf x00 x00 x80 xbf)))))
(T (W xff xff xff xff xff xff xff xff)
(T (W x01 x00 x00 x00 x3e x00 x00 x00)
(T (W xff xff xff xff xff xff xff xff)
(T (W x64 x00 x00 x00 x9c x00 x00 x00)
(L (W xaa xdd xff xff x8c x01 x00 x00)) E)
(L (W x5a xbf xfe xff x78 x00 x00 x00)))
(T (W xff xff xff xff xff xff xff xff)
(L (W x30 x33 x5f x43 x4c x45 x41 x52))
(L (W x00 x00 x00 x00 x12 x00 x00 x00))))
(T (W x00 x00 x80 x3f x00 x00 x80 x3f)
(T (W xff xff xff xff xff xff xff xff)
(T (W x00 x00 x80 x3f x00 x00 x80 x3f)
(L (W x00 x00 x58 x00 x00 x00 x00 x00)) E)
(L (W x04 x06 xff xff x18 x00 x00 x00)))
(T (W x00 x00 x00 x00 x00 x00 x00 x00)
(L (W xff xff xff xff xff xff xff xff))
(L (W x5a x7f xff xff x78 x00 x00 x00))))))))
(T (W x40 x00 x00 x00 xa0 x00 x00 x00)
(T (W x00 x00 x80 x3f x00 x00 x80 x3f)
(T (W x00 x00 x00 x00 x00 x00 x00 x00)
(T (W x00 x00 x80 x3f x00 x00 x80 x3f)
(T (W x00 x00 x00 x00 x00 x00 x00 x00)
(T (W x45 x26 x22 x84 xe4 x9c xf2 xcb)
(T (W xaa xa7 xff xff x00 x00 x01 x01)
(L (W x00 x00 x00 x00 x00 x00 x00 x00)) E)
(L (W x00 x00 x00 x00 x00 x00 x00 x00)))
(T (W x18 x00 x00 x00 x10 x00 x00 x00)
(L (W x00 x00 x00 x00 x00 x00 x00 x00))
(L (W xff xff xff xff xff xff xff xff))))
(T (W xff xff xff xff xff xff xff xff)
(T (W x18 x00 x00 x00 x0c x00 x00 x00)
(T (W x00 x00 x80 x3f x00 x00 x80 x3f)
(L (W xff xff xff xff xb0 x00 x00 x00)) E)
(L (W x00 x00 x00 x00 x00 x00 x00 x00)))
(T (W x68 x00 x00 x00 x5c x00 x00 x00)
(L (W x00 x00 x80 xbf x00 x00 x80 xbf))
(L (W xff xff xff xff x9c x00 x00 x00)))))
(T (W x00 x00 x80 x3f x00 x00 x80 x3f)
(T (W x00 x00 x00 x00 x00 x00 x00 x00)
(T (W xff xff xff xff xff xff xff xff)
(T (W x74 xae xfd xff x00 x01 x01 x01)
(L (W x00 x00 x00 x00 x78 xae xff xff)) E)
(L (W x00 x00 x00 x00 x00 x00 x00 x00)))
(T (W x00 x00 x00 x00 x00 x00 x00 x00)
(L (W xff xff xff xff xff xff xff xff))
(L (W xff xff xff xff xff xff xff xff))))
(T (W xff xff xff xff xff xff xff xff)
(T (W x45 x26 x22 x84 xe4 x9c xf2 xcb)
(T (W x00 x00 x00 x00 xe4 xec xfd xff)
(L (W xff xff xff xff xff xff xff xff)) E)
(L (W x00 x00 x80 xbf x00 x00 x80 xbf)))
(T (W x00 x00 x00 x00 x00 x00 x00 x00)
(L (W x50 x00 x00 x00 x44 x00 x00 x00))
(L (W xff xff xff xff xbc x00 x00 x00))))))
(T (W x00 x00 x80 x3f x00 x00 x80 x3f)
(T (W x54 x00 x00 x00 x48 x00 x00 x00)
(T (W x45 x26 x22 x84 xe4 x9c xf2 xcb)
(T (W x0a x00 x00 x00 x3c x00 x00 x00)
(T (W xff xff xff xff xff xff xff xff)
(L (W x00 x00 x00 x00 x00 x00 x00 x00)) E)
(L (W x00 x00 x00 x00 x00 x00 x00 x00)))
(T (W xb0 x00 x00 x00 x64 x00 x00 x00)
(L (W x84 xea xff xff x01 x01 x01 x01))
(L (W x00 x00 x00 x00 x00 x00 x00 x00))))
(T (W x00 x00 x00 x00 x00 x00 x00 x00)
(T (W x2c x01 x00 x00 x04 x00 x00 x00)
(T (W x00 x00 x00 x00 xe4 xdc xfd xff)
(L (W x45 x26 x22 x84 xe4 x9c xf2 xcb)) E)
(L (W x00 x00 x00 x00 x00 x00 x00 x00)))
(T (W xff xff xff xff xff xff xff xff)
(L (W x58 x00 x00 x00 x4c x00 x00 x00))
(L (W xff xff xff xff xff xff xff xff)))))
(T (W x00 x00 x00 x00 x00 x00 x00 x00)
(T (W x5c x52 xfc xff x3c x00 x00 x00)
(T (W x68 x00 x00 x00 x5c x00 x00 x00)
(T (W x6f x6b x65 x5f x63 x6f x77 x61)
(L (W x74 xbe xff xff x00 x01 x01 x01)) E)
(L (W x00 x00 x00 x00 x00 x00 x00 x00)))
(T (W x00 x00 x80 x3f x00 x00 x80 x3f)
(L (W x40 x00 x00 x00 x00 x00 x80 xbf))
(L (W xa8 x00 x00 x00 x64 x00 x00 x00))))
(T (W xff xff xff xff xff xff xff xff)
(T (W x00 x00 x80 x3f x00 x00 x80 x3f)
(T (W x00 x00 x00 x00 x00 x00 x00 x00)
(L (W x44 x00 x04 x00 x08 x00 x0c x00)) E)
(L (W x74 xfe xfe xff x00 x01 x01 x01)))
(T (W x45 x26 x22 x84 xe4 x9c xf2 xcb)
(L (W x45 x26 x22 x84 xe4 x9c xf2 xcb))
(L (W x00 x00 x00 x00 x00 x00 x00 x00)))))))
(T (W xd0 x00 x00 x00 xac x00 x00 x00)
(T (W x45 x26 x22 x84 xe4 x9c xf2 xcb)
(T (W x00 x00 x80 x3f x00 x00 x80 x3f)
(T (W x00 x00 x00 x00 x00 x00 x00 x00)
(T (W x01 x00 x00 x00 x9c x00 x00 x00)
(T (W xff xff xff xff xff xff xff xff)
(L (W x00 x00 x00 x00 x00 x00 x00 x00)) E)
(L (W x00 x00 x00 x00 x00 x00 x00 x00)))
(T (W xcc x00 x00 x00 x01 x00 x00 x00)
(L (W x5a x13 xfe xff x78 x00 x00 x00))
(L (W xff xff xff xff xff xff xff xff))))
(T (W xaa x6f xfe xff x00 x00 x01 x01)
(T (W xff xff xff xff xff xff xff xff)
(T (W x74 xd6 xfd xff x00 x01 x01 x01)
(L (W x68 x00 x00 x00 x5c x00 x00 x00)) E)
(L (W x00 x00 x00 x00 x00 x00 x00 x00)))
(T (W xbc x00 x00 x00 x14 x00 x00 x00)
(L (W x00 x00 x80 xbf x00 x00 x80 xbf))
(L (W xc4 x00 x00 x00 x01 x00 x00 x00)))))
(T (W x00 x00 x80 x3f x00 x00 x80 x3f)
(T (W x00 x00 x00 x00 x00 x00 x00 x00)
(T (W x64 x00 x00 x00 x9c x00 x00 x00)
(T (W x00 x00 x80 x3f x00 x00 x80 x3f)
(L (W x00 x00 x80 xbf x00 x00 x80 xbf)) E)
(L (W x34 x01 x00 x00 x04 x00 x00 x00)))
(T (W x00 x00 x00 x00 x00 x00 x00 x00)
(L (W x6c x00 x00 x00 x60 x00 x00 x00))
(L (W xff xff xff xff xff xff xff xff))))
(T (W xff xff xff xff xff xff xff xff)
(T (W x00 x00 x80 x3f x00 x00 x80 x3f)
(T (W x60 x00 x64 x00 x68 x00 x05 x00)
(L (W x00 x00 x00 x00 xe4 xf4 xff xff)) E)
(L (W xaa xf1 xfe xff x74 x00 x00 x00)))
(T (W x00 x00 x80 x3f x00 x00 x80 x3f)
(L (W x00 x00 x80 xbf x00 x00 x80 xbf))
(L (W x04 x00 x00 x00 xda xc8 xff xff))))))
(T (W x00 x00 x80 x3f x00 x00 x80 x3f)
(T (W x00 x00 x80 x3f x00 x00 x80 x3f)
(T (W x00 x00 x00 x00 x00 x00 x00 x00)
(T (W xa3 xe7 x5b x54 xa9 xec x52 xf9)
(T (W x45 x26 x22 x84 xe4 x9c xf2 xcb)
(L (W x00 x00 x00 x00 x00 x00 x00 x00)) E)
(L (W xff xff xff xff xff xff xff xff)))
(T (W x02 x00 x00 x00 xff xff xff xff)
(L (W x00 x00 x80 xbf x00 x00 x80 xbf))
(L (W xff xff xff xff xff xff xff xff))))
(T (W x20 x01 x00 x00 x04 x00 x00 x00)
(T (W x00 x00 x00 x00 x12 x00 x00 x00)
(T (W x00 x00 x00 x00 x00 x00 x00 x00)
(L (W x38 x00 x3c x00 x40 x00 x44 x00)) E)
(L (W x50 x00 x00 x00 x44 x00 x00 x00)))
(T (W x4c x45 x41 x52 x45 x44 x00 x00)
(L (W x00 x00 x80 xbf x00 x00 x80 xbf))
(L (W x24 x01 x00 x00 x04 x00 x00 x00)))))
(T (W x00 x00 x00 x00 x00 x00 x00 x00)
(T (W x01 x00 x00 x00 x04 x00 x00 x00)
(T (W x00 x00 x80 x3f x00 x00 x80 x3f)
(T (W x00 x00 x00 x00 x00 x00 x00 x00)
(L (W x4c x00 x04 x00 x08 x00 x0c x00)) E)
(L (W x01 x00 x00 x00 xff xff xff xff)))
(T (W x00 x00 x80 x3f x00 x00 x80 x3f)
(L (W x54 x00 x00 x00 x48 x00 x00 x00))
(L (W x18 x00 x00 x00 x0c x00 x00 x00))))
(T (W xb8 x00 x00 x00 xac x00 x00 x00)
(T (W x00 x00 x80 x3f x00 x00 x80 x3f)
(L (W x00 x00 x80 x3f x00 x00 x80 x3f))
(L (W x18 x00 x00 x00 x10 x00 x00 x00)))
(T (W x45 x26 x22 x84 xe4 x9c xf2 xcb)
(L (W x4f x84 x6f x8b xe8 xcb x63 xb7))
(L (W x00 x00 x00 x00 x00 x00 x00 x00)))))))))))))
(T (W x70 xff x03 x00 x14 xfd x03 x00)
(T (W xf0 xc0 x03 x00 x94 xbe x03 x00)
(T (W x80 x04 x03 x00 x04 x00 x03 x00)
(T (W xe0 x3e x02 x00 x9c x3c x02 x00)
(T (W xe8 xce x00 x00 xb4 xcd x00 x00)
(T (W xff xff xff xff xff xff xff xff)
(T (W x00 x00 x80 x3f x00 x00 x80 x3f)
(T (W x00 x00 x80 x3f x00 x00 x80 x3f)
(T (W x40 x00 x00 x00 x0c x00 x00 x00)
(T (W xff xff xff xff xff xff xff xff)
(T (W x00 x00 x80 x3f x00 x00 x80 x3f)
(T (W x45 x26 x22 x84 xe4 x9c xf2 xcb)
(L (W xff xff xff xff xff xff xff xff)) E)
(L (W x9e x01 x00 x00 xff xff xff xff)))
(T (W x00 x00 x00 x00 x12 x00 x00 x00)
(L (W x00 x00 x00 x00 x00 x00 x00 x00))
(L (W x45 x26 x22 x84 xe4 x9c xf2 xcb))))
(T (W x64 x00 x00 x00 x9c x00 x00 x00)
(T (W x00 x00 x00 x00 x00 x00 x00 x00)
(T (W xff xff xff xff xff xff xff xff)
(L (W x00 x00 x80 xbf x00 x00 x80 xbf)) E)
(L (W x18 x00 x00 x00 x0c x00 x00 x00)))
(T (W xbc x5a xfd xff x10 x00 x00 x00)
(L (W x00 x00 x00 x00 x00 x00 x00 x00))
(L (W x49 xa1 x68 x4a xeb x5f xdd x3d)))))
(T (W x00 x00 x00 x00 x00 x00 x00 x00)
(T (W xff xff xff xff xff xff xff xff)
(T (W x5c x00 x60 x00 x64 x00 x00 x00)
(T (W x45 x26 x22 x84 xe4 x9c xf2 xcb)
(L (W xcc x00 x00 x00 x01 x00 x00 x00)) E)
(L (W xd4 xa6 xfe xff x00 x01 x01 x01)))
(T (W x18 x00 x00 x00 x0c x00 x00 x00)
(L (W x24 x00 x00 x00 x10 x00 x00 x00))
(L (W x44 x00 x00 x00 x00 x00 x80 xbf))))
(T (W x01 x00 x00 x00 x3e x00 x00 x00)
(T (W xff xff xff xff xff xff xff xff)
(T (W x00 x00 x00 x00 x00 x00 x10 x00)
(L (W xff xff xff xff xff xff xff xff)) E)
(L (W x00 x00 x00 x00 x00 x00 x00 x00)))
(T (W xff xff xff xff xff xff xff xff)
(L (W x00 x00 x00 x00 x12 x00 x00 x00))
(L (W xff xff xff xff xa8 x00 x00 x00))))))
(T (W x45 x26 x22 x84 xe4 x9c xf2 xcb)
(T (W x00 x00 x00 x00 x00 x00 x00 x00)
(T (W xff xff xff xff xff xff xff xff)
(T (W x00 x00 x80 x3f x00 x00 x80 x3f)
(T (W x00 x00 x80 x3f x00 x00 x80 x3f)
(L (W xff xff xff xff xff xff xff xff)) E)
(L (W xff xff xff xff xff xff xff xff)))
(T (W x00 x00 x80 x3f x00 x00 x80 x3f)
(L (W x00 x00 x00 x00 x00 x00 x00 x00))
(L (W x45 x26 x22 x84 xe4 x9c xf2 xcb))))
(T (W x18 x00 x00 x00 x0c x00 x00 x00)
(T (W x00 x00 x80 x3f x00 x00 x80 x3f)
(T (W x00 x00 x00 x00 x00 x00 x00 x00)
(L (W x00 x00 x00 x00 x00 x00 x00 x00)) E)
(L (W xff xff xff xff xff xff xff xff)))
(T (W x00 x00 x80 x3f x00 x00 x80 x3f)
(L (W x30 x33 x5f x43 x4c x45 x41 x52))
(L (W x00 x00 x80 xbf x00 x00 x80 xbf)))))
(T (W x40 x00 x00 x00 x10 x00 x00 x00)
(T (W xff xff xff xff xff xff xff xff)
(T (W x00 x00 x80 x3f x00 x00 x80 x3f)
(T (W x00 x00 x00 x00 x00 x00 x00 x00)
(L (W x00 x00 x00 x00 x00 x00 x00 x00)) E)
(L (W x1f x00 x00 x00 x22 x00 x00 x00)))
(T (W xff xff xff xff xff xff xff xff)
(L (W x00 x00 x00 x00 x00 x00 x00 x00))
(L (W x54 x00 x00 x00 x48 x00 x00 x00))))
(T (W xba x73 xfc xff x78 x00 x00 x00)
(T (W x45 x44 x00 x00 x00 x00 x00 x00)
(T (W xff xff xff xff xff xff xff xff)
(L (W x00 x00 x00 x00 x00 x00 x00 x00)) E)
(L (W x00 x00 x00 x00 x00 x00 x00 x00)))
(T (W x4c x45 x41 x52 x45 x44 x00 x00)
(L (W x00 x00 x00 x00 x12 x00 x00 x00))
(L (W xff xff xff xff xa8 x00 x00 x00)))))))
(T (W x6b x65 x5f x77 x61 x72 x6c x69)
(T (W x64 x5f x6c x76 x31 x00 x00 x00)
(T (W x00 x00 x00 x00 x00 x00 x00 x00)
(T (W xff xff xff xff xff xff xff xff)
(T (W x45 x26 x22 x84 xe4 x9c xf2 xcb)
(T (W x18 x00 x00 x00 x0c x00 x00 x00)
(L (W xff xff xff xff xff xff xff xff)) E)
(L (W xff xff xff xff xff xff xff xff)))
(T (W x45 x26 x22 x84 xe4 x9c xf2 xcb)
(L (W xff xff xff xff xff xff xff xff))
(L (W x00 x00 x80 xbf x00 x00 x80 xbf))))
(T (W x00 x00 x00 x00 x44 x4d xfc xff)
(T (W x49 xa1 x68 x4a xeb x5f xdd x3d)
(T (W x00 x00 x00 x00 x00 x00 x00 x00)
(L (W x00 x00 x80 xbf x00 x00 x80 xbf)) E)
(L (W xb8 x00 x00 x00 x64 x00 x00 x00)))
(T (W x00 x00 x00 x00 x00 x00 x00 x00)
(L (W x00 x00 x00 x00 x00 x00 x00 x00))
(L (W x00 x00 x80 xbf x00 x00 x80 xbf)))))
(T (W x00 x00 x00 x00 x00 x00 x00 x00)
(T (W xff xff xff xff xff xff xff xff)
(T (W x00 x00 x80 x3f x00 x00 x80 x3f)
(T (W x00 x00 x00 x00 x00 x00 x00 x00)
(L (W x00 x00 x00 x00 x00 x00 x00 x00)) E)
(L (W x1f x00 x00 x00 x22 x00 x00 x00)))
(T (W xff xff xff xff x9c x00 x00 x00)
(L (W x38 x00 x00 x00 x00 x00 x80 xbf))
(L (W x0a x2a xff xff x74 x00 x00 x00))))
(T (W x68 x00 x00 x00 x5c x00 x00 x00)
(T (W xff xff xff xff xff xff xff xff)
(T (W x00 x00 x00 x00 x00 x00 x00 x00)
(L (W x00 x00 x80 xbf x00 x00 x80 xbf)) E)
(L (W x00 x00 x00 x00 x12 x00 x00 x00)))
(T (W x54 x02 x00 x00 x34 x01 x00 x00)
(L (W x00 x00 x00 x00 x00 x00 x00 x00))
(L (W x00 x00 x80 xbf x00 x00 x80 xbf))))))
(T (W x00 x00 x00 x00 x00 x00 x00 x00)
(T (W x00 x00 x00 x00 x00 x00 x00 x00)
(T (W xff xff xff xff xff xff xff xff)
(T (W x00 x00 x80 x3f x00 x00 x80 x3f)
(T (W x00 x00 x80 x3f x00 x00 x80 x3f)
(L (W xff xff xff xff xff xff xff xff)) E)
(L (W xff xff xff xff xff xff xff xff)))
(T (W x00 x00 x80 x3f x00 x00 x80 x3f)
(L (W x00 x00 x00 x00 x00 x00 x00 x00))
(L (W xb0 x00 x00 x00 x64 x00 x00 x00))))
(T (W x40 x00 x00 x00 x9c x00 x00 x00)
(T (W xff xff xff xff xb0 x00 x00 x00)
(T (W x00 x00 x00 x00 x00 x00 x00 x00)
(L (W x00 x00 x00 x00 x00 x00 x00 x00)) E)
(L (W xff xff xff xff xff xff xff xff)))
(T (W x68 x00 x00 x00 x5c x00 x00 x00)
(L (W x00 x00 x00 x00 x00 x00 x00 x00))
(L (W x00 x00 x80 xbf x00 x00 x80 xbf)))))
(T (W x0a x18 xfe xff x00 x00 x01 x01)
(T (W xff xff xff xff xff xff xff xff)
(T (W x00 x00 x00 x00 x00 x00 x00 x00)
(T (W x0a xd8 xff xff x00 x00 x01 x01)
(L (W x00 x00 x00 x00 x00 x00 x00 x00)) E)
(L (W xff xff xff xff x9c x00 x00 x00)))
(T (W x00 x00 x00 x00 x00 x00 x00 x00)
(L (W x00 x00 x00 x00 x00 x00 x00 x00))
(L (W x00 x00 x80 xbf x00 x00 x80 xbf))))
(T (W x00 x00 x80 x3f x00 x00 x80 x3f)
(T (W x64 x02 xfd xff x15 x00 x00 x00)
(T (W xbc x00 x00 x00 x0a x00 x00 x00)
(L (W x45 x26 x22 x84 xe4 x9c xf2 xcb)) E)
(L (W x00 x00 x00 x00 x00 x00 x00 x00)))
(T (W x45 x26 x22 x84 xe4 x9c xf2 xcb)
(L (W x00 x00 x00 x00 x02 x00 x00 x00))
(L (W xff xff xff xff xff xff xff xff))))))))
(T (W x00 x00 x00 x00 x00 x00 x00 x00)
(T (W x00 x00 x00 x00 x00 x00 x00 x00)
(T (W x00 x00 x00 x00 x00 x00 x00 x00)
(T (W x00 x00 x00 x00 x44 xc9 xfb xff)
(T (W x00 x00 x80 x3f x00 x00 x80 x3f)
(T (W x20 x01 x00 x00 x04 x00 x00 x00)
(T (W x00 x00 x00 x00 x00 x00 x00 x00)
(L (W x45 x26 x22 x84 xe4 x9c xf2 xcb)) E)
(L (W x00 x00 x80 xbf x00 x00 x80 xbf)))
(T (W xc4 x00 x00 x00 x01 x00 x00 x00)
(L (W x00 x00 x00 x00 x00 x00 x00 x00))
(L (W xff xff xff xff xc4 x00 x00 x00))))
(T (W x00 x00 x00 x00 x00 x00 x00 x00)
(T (W xb0 x00 x00 x00 x64 x00 x00 x00)
(T (W x68 x00 x00 x00 x5c x00 x00 x00)
(L (W xff xff xff xff xff xff xff xff)) E)
(L (W x45 x26 x22 x84 xe4 x9c xf2 xcb)))
(T (W x45 x26 x22 x84 xe4 x9c xf2 xcb)
(L (W xbc x00 x00 x00 x02 x00 x00 x00))
(L (W x03 x00 x00 x00 xd0 x00 x00 x00)))))
(T (W x00 x00 x80 x3f x00 x00 x80 x3f)
(T (W x00 x00 x00 x00 x00 x00 x00 x00)
(T (W xff xff xff xff xff xff xff xff)
(T (W xff xff xff xff xff xff xff xff)
(L (W x45 x26 x22 x84 xe4 x9c xf2 xcb)) E)
(L (W x82 xbe xfe xff x48 x00 x00 x00)))
(T (W x00 x00 x00 x00 x00 x00 x00 x00)
(L (W xff xff xff xff xff xff xff xff))
(L (W x20 x00 x00 x00 x10 x00 x00 x00))))
(T (W x01 x00 x00 x00 x04 x00 x00 x00)
(T (W x00 x00 x80 x3f x00 x00 x80 x3f)
(T (W x00 x00 x80 xbf x00 x00 x80 xbf)
(L (W x00 x00 x00 x00 x12 x00 x00 x00)) E)
(L (W x0a xe6 xfe xff x74 x00 x00 x00)))
(T (W x4f x84 x6f x8b xe8 xcb x63 xb7)
(L (W x74 x00 x00 x00 x68 x00 x00 x00))
(L (W x6c x88 xa7 x28 xbf x4b x53 x6a))))))
(T (W xd4 xba xfb xff x00 x01 x01 x01)
(T (W x0a xd6 xfb xff x74 x00 x00 x00)
(T (W x00 x00 x80 x3f x00 x00 x80 x3f)
(T (W xff xff xff xff xff xff xff xff)
(T (W x01 x00 x00 x00 xff xff xff xff)
(L (W x00 x00 x80 xbf x00 x00 x80 xbf)) E)
(L (W x49 xa1 x68 x4a xeb x5f xdd x3d)))
(T (W xff xff xff xff xff xff xff xff)
(L (W x18 x00 x00 x00 x0c x00 x00 x00))
(L (W x64 x1e xff xff x18 x00 x00 x00))))
(T (W x00 x00 x00 x00 x00 x00 x00 x00)
(T (W x45 x44 x00 x00 x00 x00 x00 x00)
(T (W xff xff xff xff xff xff xff xff)
(L (W xff xff xff xff xc4 x00 x00 x00)) E)
(L (W x00 x00 x80 xbf x00 x00 x80 xbf)))
(T (W xff xff xff xff x02 x00 x00 x00)
(L (W xcc x00 x00 x00 x02 x00 x00 x00))
(L (W x04 x00 x00 x00 xca x66 xff xff)))))
(T (W x0a xf6 xfb xff x74 x00 x00 x00)
(T (W x00 x00 x80 x3f x00 x00 x80 x3f)
(T (W x45 x26 x22 x84 xe4 x9c xf2 xcb)
(T (W xff xff xff xff xff xff xff xff)
(L (W x45 x26 x22 x84 xe4 x9c xf2 xcb)) E)
(L (W x00 x00 x00 x00 x00 x00 x00 x00)))
(T (W x00 x00 x80 x3f x00 x00 x80 x3f)
(L (W xff xff xff xff xff xff xff xff))
(L (W xff xff xff xff xff xff xff xff))))
(T (W x0a x94 xfe xff x00 x00 x01 x01)
(T (W x45 x26 x22 x84 xe4 x9c xf2 xcb)
(T (W x00 x00 x80 x3f x00 x00 x80 x3f)
(L (W x5f x4e x53 x5f x30 x33 x5f x43)) E)
(L (W xff xff xff xff x9c x00 x00 x00)))
(T (W xff xff xff xff xac x00 x00 x00)
(L (W x00 x00 x00 x00 xd8 x7a xfe xff))
(L (W xff xff xff xff xff xff xff xff)))))))
(T (W x00 x00 x80 x3f x00 x00 x80 x3f)
(T (W x64 x00 x00 x00 x9c x00 x00 x00)
(T (W x45 x26 x22 x84 xe4 x9c xf2 xcb)
(T (W x00 x00 x80 x3f x00 x00 x80 x3f)
(T (W xff xff xff xff xff xff xff xff)
(T (W x20 x00 x00 x00 x10 x00 x00 x00)
(L (W x00 x00 x00 x00 x00 x00 x00 x00)) E)
(L (W x45 x26 x22 x84 xe4 x9c xf2 xcb)))
(T (W xff xff xff xff xff xff xff xff)
(L (W x00 x00 x80 x3f x00 x00 x80 x3f))
(L (W x00 x00 x00 x00 x01 x00 x00 x00))))
(T (W x00 x00 x00 x00 x00 x00 x00 x00)
(T (W xff xff xff xff xff xff xff xff)
(T (W xff xff xff xff xff xff xff xff)
(L (W xcc x00 x00 x00 x01 x00 x00 x00)) E)
(L (W x49 xa1 x68 x4a xeb x5f xdd x3d)))
(T (W xff xff xff xff xff xff xff xff)
(L (W xb8 x00 x00 x00 x64 x00 x00 x00))
(L (W xff xff xff xff xff xff xff xff)))))
(T (W x68 x00 x00 x00 x5c x00 x00 x00)
(T (W x45 x26 x22 x84 xe4 x9c xf2 xcb)
(T (W xff xff xff xff xff xff xff xff)
(T (W xb8 x00 x00 x00 xac x00 x00 x00)
(L (W x68 x00 x00 x00 x5c x00 x00 x00)) E)
(L (W x45 x44 x00 x00 x00 x00 x00 x00)))
(T (W x00 x00 x00 x00 x00 x00 x00 x00)
(L (W x00 x00 x80 xbf x00 x00 x80 xbf))
(L (W x00 x00 x00 x00 x00 x00 x00 x00))))
(T (W xff xff xff xff xff xff xff xff)
(T (W x68 x00 x00 x00 x5c x00 x00 x00)
(T (W x3d x87 x24 x4b xf1 xfe xc9 x32)
(L (W xbe x00 x00 x00 xff xff xff xff)) E)
(L (W xff xff xff xff xff xff xff xff)))
(T (W x50 x00 x00 x00 x44 x00 x00 x00)
(L (W x45 x26 x22 x84 xe4 x9c xf2 xcb))
(L (W x00 x00 x00 x00 x00 x00 x00 x00))))))
(T (W x50 x00 x00 x00 x44 x00 x00 x00)
(T (W x0a xde xfb xff x74 x00 x00 x00)
(T (W x00 x00 x00 x00 x00 x00 x00 x00)
(T (W xff xff xff xff xff xff xff xff)
(T (W xff xff xff xff xff xff xff xff)
(L (W x00 x00 x80 xbf x00 x00 x80 xbf)) E)
(L (W x26 x02 x00 x00 x02 x00 x00 x00)))
(T (W xda x27 xfd xff x9d x01 x00 x00)
(L (W x45 x26 x22 x84 xe4 x9c xf2 xcb))
(L (W x30 x33 x5f x43 x4c x45 x41 x52))))
(T (W xbc x76 xfc xff x3c x00 x00 x00)
(T (W x00 x00 x00 x00 x00 x00 x00 x00)
(T (W xb8 x00 x00 x00 xac x00 x00 x00)
(L (W xd4 xe2 xff xff x00 x01 x01 x01)) E)
(L (W x6c x00 x00 x00 x60 x00 x00 x00)))
(T (W xd1 xdc x03 x4d x64 x32 xc6 xac)
(L (W x58 x00 x00 x00 x4c x00 x00 x00))
(L (W x00 x00 x00 x00 x00 x00 x00 x00)))))
(T (W xd4 x02 xfc xff x00 x01 x01 x01)
(T (W x00 x00 x80 x3f x00 x00 x80 x3f)
(T (W xba xbf xfc xff x78 x00 x00 x00)
(T (W x00 x00 x80 x3f x00 x00 x80 x3f)
(L (W x1c x00 x00 x00 x10 x00 x00 x00)) E)
(L (W x00 x00 x00 x00 x00 x00 x00 x00)))
(T (W xd4 x42 xfd xff x00 x01 x01 x01)
(L (W xff xff xff xff xff xff xff xff))
(L (W xff xff xff xff xff xff xff xff))))
(T (W x00 x00 x00 x00 x00 x00 x00 x00)
(T (W x00 x00 x00 x00 x44 x01 xfd xff)
(T (W x46 x53 x59 x53 x5f x4e x53 x5f)
(L (W xff xff xff xff xff xff xff xff)) E)
(L (W xff xff xff xff xff xff xff xff)))
(T (W xff xff xff xff xff xff xff xff)
(L (W x68 x00 x00 x00 x5c x00 x00 x00))
(L (W x00 x00 x00 x00 x00 x00 x00 x00)))))))))
(T (W x0a x88 xfb xff x74 x00 x00 x00)
(T (W x00 x00 x00 x00 x00 x00 x00 x00)
(T (W xff xff xff xff xff xff xff xff)
(T (W xff xff xff xff xff xff xff xff)
(T (W x00 x00 x80 x3f x00 x00 x80 x3f)
(T (W x00 x00 x00 x00 x00 x00 x00 x00)
(T (W xff xff xff xff x04 x00 x00 x00)
(T (W xd0 x00 x00 x00 xac x00 x00 x00)
(L (W x00 x00 x00 x00 x00 x00 x00 x00)) E)
(L (W x00 x00 x00 x00 x00 x00 x00 x00)))
(T (W x54 x00 x00 x00 x48 x00 x00 x00)
(L (W xff xff xff xff xff xff xff xff))
(L (W x68 x00 x00 x00 x5c x00 x00 x00))))
(T (W x00 x00 x00 x00 x02 x00 x00 x00)
(T (W x00 x00 x80 x3f x00 x00 x80 x3f)
(T (W x00 x00 x00 x00 x00 x00 x00 x00)
(L (W x14 x00 x00 x00 x0c x00 x00 x00)) E)
(L (W x74 x03 x00 x00 x4c x02 x00 x00)))
(T (W x00 x00 x80 x3f x00 x00 x80 x3f)
(L (W x3c x00 x00 x00 x00 x00 x80 xbf))
(L (W x1c x00 x00 x00 x10 x00 x00 x00)))))
(T (W x00 x00 x80 x3f x00 x00 x80 x3f)
(T (W x00 x00 x00 x00 x00 x00 x00 x00)
(T (W x40 x00 x00 x00 xa0 x00 x00 x00)
(T (W x50 x00 x00 x00 x44 x00 x00 x00)
(L (W x7d xea xac x28 xbf xdc x59 x6a)) E)
(L (W xff xff xff xff xff xff xff xff)))
(T (W xff xff xff xff xff xff xff xff)
(L (W x00 x00 x80 xbf x00 x00 x80 xbf))
(L (W xff xff xff xff xff xff xff xff))))
(T (W xff xff xff xff xff xff xff xff)
(T (W x00 x00 x00 x00 x00 x00 x00 x00)
(T (W xff xff xff xff xff xff xff xff)
(L (W xb0 x01 x00 x00 xff xff xff xff)) E)
(L (W x00 x00 x80 xbf x00 x00 x80 xbf)))
(T (W xda x6d xfd xff x9c x01 x00 x00)
(L (W x00 x00 x80 xbf x00 x00 x80 xbf))
(L (W xff xff xff xff xff xff xff xff))))))
(T (W x00 x00 x80 x3f x00 x00 x80 x3f)
(T (W x00 x00 x00 x00 x00 x00 x00 x00)
(T (W x3e x00 x00 x00 x0c x00 x00 x00)
(T (W x68 x00 x00 x00 x5c x00 x00 x00)
(T (W x64 x00 x00 x00 x9c x00 x00 x00)
(L (W x6e xf6 xaf x28 xbf x5a x5d x6a)) E)
(L (W x00 x00 x00 x00 x12 x00 x00 x00)))
(T (W xd4 x18 xfd xff x00 x01 x01 x01)
(L (W x00 x00 x80 x3f x00 x00 x80 x3f))
(L (W xff xff xff xff xff xff xff xff))))
(T (W xff xff xff xff xff xff xff xff)
(T (W xff xff xff xff xff xff xff xff)
(T (W x00 x00 x80 x3f x00 x00 x80 x3f)
(L (W x40 xd7 xff xff x6a xda xff xff)) E)
(L (W x00 x00 x00 x00 x00 x00 x00 x00)))
(T (W x00 x00 x00 x00 x44 x57 xfd xff)
(L (W x54 x00 x00 x00 x48 x00 x00 x00))
(L (W xff xff xff xff xb0 x00 x00 x00)))))
(T (W x00 x00 x00 x00 x00 x00 x00 x00)
(T (W x64 x3c xfc xff x3c x00 x00 x00)
(T (W xff xff xff xff xff xff xff xff)
(T (W x45 x26 x22 x84 xe4 x9c xf2 xcb)
(L (W x45 x26 x22 x84 xe4 x9c xf2 xcb)) E)
(L (W xff xff xff xff xff xff xff xff)))
(T (W x00 x00 x00 x00 x00 x00 x00 x00)
(L (W x54 x00 x00 x00 x48 x00 x00 x00))
(L (W xd4 x38 xff xff x00 x01 x01 x01))))
(T (W xff xff xff xff xff xff xff xff)
(T (W x00 x00 x00 x00 x00 x00 x00 x00)
(T (W x45 x26 x22 x84 xe4 x9c xf2 xcb)
(L (W x00 x00 x80 xbf x00 x00 x80 xbf)) E)
(L (W x00 x00 x80 xbf x00 x00 x80 xbf)))
(T (W x00 x00 x80 x3f x00 x00 x80 x3f)
(L (W x00 x00 x80 xbf x00 x00 x80 xbf))
(L (W xff xff xff xff xff xff xff xff)))))))
(T (W xff xff xff xff xff xff xff xff)
(T (W x00 x00 x00 x00 x00 x00 x00 x00)
(T (W x00 x00 x00 x00 x00 x00 x00 x00)
(T (W x00 x00 x00 x00 x00 x00 x00 x00)
(T (W x45 x26 x22 x84 xe4 x9c xf2 xcb)
(T (W xff xff xff xff xff xff xff xff)
(L (W x00 x00 x00 x00 x00 x00 x00 x00)) E)
(L (W x00 x00 x00 x00 x00 x00 x00 x00)))
(T (W x00 x00 x80 x3f x00 x00 x80 x3f)
(L (W x00 x00 x00 x00 x00 x00 x00 x00))
(L (W x03 x00 x00 x00 xd0 x00 x00 x00))))
(T (W xff xff xff xff xff xff xff xff)
(T (W x45 x26 x22 x84 xe4 x9c xf2 xcb)
(T (W x45 x26 x22 x84 xe4 x9c xf2 xcb)
(L (W x6c x00 x00 x00 x60 x00 x00 x00)) E)
(L (W x46 x53 x59 x53 x5f x4e x53 x5f)))
(T (W x0a x4c xfd xff x74 x00 x00 x00)
(L (W x50 x00 x00 x00 x44 x00 x00 x00))
(L (W x50 x00 x00 x00 x44 x00 x00 x00)))))
(T (W x00 x00 x80 x3f x00 x00 x80 x3f)
(T (W x00 x00 x00 x00 x00 x00 x00 x00)
(T (W xff xff xff xff x03 x00 x00 x00)
(T (W x00 x00 x80 x3f x00 x00 x80 x3f)
(L (W x00 x00 x80 xbf x00 x00 x80 xbf)) E)
(L (W xff xff xff xff xff xff xff xff)))
(T (W x00 x00 x00 x00 x00 x00 x00 x00)
(L (W xff xff xff xff xff xff xff xff))
(L (W xff xff xff xff xbc x00 x00 x00))))
(T (W xff xff xff xff xff xff xff xff)
(T (W x00 x00 x00 x00 x00 x00 x00 x00)
(T (W x70 x5f x77 x69 x6c x64 x5f x70)
(L (W x18 x00 x00 x00 x10 x00 x00 x00)) E)
(L (W x00 x00 x80 xbf x00 x00 x80 xbf)))
(T (W x45 x26 x22 x84 xe4 x9c xf2 xcb)
(L (W x00 x00 x80 xbf x00 x00 x80 xbf))
(L (W xb0 x00 x00 x00 x64 x00 x00 x00))))))
(T (W x00 x00 x80 x3f x00 x00 x80 x3f)
(T (W x00 x00 x80 x3f x00 x00 x80 x3f)
(T (W x00 x00 x00 x00 x00 x00 x00 x00)
(T (W x00 x00 x80 x3f x00 x00 x80 x3f)
(T (W xb8 x00 x00 x00 xac x00 x00 x00)
(L (W xbe x00 x00 x00 xff xff xff xff)) E)
(L (W x00 x00 x00 x00 x00 x00 x00 x00)))
(T (W xff xff xff xff x9c x00 x00 x00)
(L (W x18 x00 x00 x00 x0c x00 x00 x00))
(L (W xff xff xff xff xff xff xff xff))))
(T (W xff xff xff xff xff xff xff xff)
(T (W xa2 xde xfc xff x4b x00 x00 x00)
(T (W x00 x00 x80 x3f x00 x00 x80 x3f)
(L (W x00 x00 x80 xbf x00 x00 x80 xbf)) E)
(L (W x00 x00 x00 x00 x00 x00 x00 x00)))
(T (W xff xff xff xff xff xff xff xff)
(L (W x00 x00 x80 xbf x00 x00 x80 xbf))
(L (W xff xff xff xff xff xff xff xff)))))
(T (W x45 x26 x22 x84 xe4 x9c xf2 xcb)
(T (W x00 x00 x00 x00 x00 x00 x00 x00)
(T (W x1c x00 x20 x00 x24 x00 x28 x00)
(T (W x00 x00 x00 x00 x00 x00 x00 x00)
(L (W x44 x00 x00 x00 x00 x00 x80 xbf)) E)
(L (W xff xff xff xff xff xff xff xff)))
(T (W x00 x00 x00 x00 x00 x00 x00 x00)
(L (W x00 x00 x80 xbf x00 x00 x80 xbf))
(L (W x00 x00 x00 x00 x06 x00 x07 x00))))
(T (W xb8 x00 x00 x00 xac x00 x00 x00)
(T (W x00 x00 x80 x3f x00 x00 x80 x3f)
(T (W xff xff xff xff xff xff xff xff)
(L (W x00 x00 x00 x00 x00 x00 x00 x00)) E)
(L (W x00 x00 x80 xbf x00 x00 x80 xbf)))
(T (W x00 x00 x80 x3f x00 x00 x80 x3f)
(L (W x00 x00 x00 x00 x00 x00 x00 x00))
(L (W x00 x00 x00 x00 x00 x00 x00 x00))))))))
(T (W xa6 xe8 xbb x6a xa4 x2d x7b xa3)
(T (W x00 x00 x80 x3f x00 x00 x80 x3f)
(T (W x01 x00 x00 x00 x3e x00 x00 x00)
(T (W xff xff xff xff xff xff xff xff)
(T (W xc0 x00 x00 x00 xb4 x00 x00 x00)
(T (W x00 x00 x00 x00 x00 x00 x00 x00)
(T (W x00 x00 x80 x3f x00 x00 x80 x3f)
(L (W x00 x00 x80 xbf x00 x00 x80 xbf)) E)
(L (W xff xff xff xff xa8 x00 x00 x00)))
(T (W x74 x03 x00 x00 x4c x02 x00 x00)
(L (W xba x09 xfe xff x78 x00 x00 x00))
(L (W x30 x33 x5f x43 x4c x45 x41 x52))))
(T (W x50 x00 x00 x00 x44 x00 x00 x00)
(T (W x00 x00 x00 x00 x00 x00 x00 x00)
(T (W x7e x00 x00 x00 xff xff xff xff)
(L (W x00 x00 x00 x00 x00 x00 x00 x00)) E)
(L (W x00 x00 x80 xbf x00 x00 x80 xbf)))
(T (W x3a x57 xfd xff x9d x01 x00 x00)
(L (W xff xff xff xff xff xff xff xff))
(L (W x00 x00 x00 x00 x04 x00 x00 x00)))))
(T (W xff xff xff xff xff xff xff xff)
(T (W xd4 x2c xfc xff x00 x01 x01 x01)
(T (W x00 x00 x00 x00 x00 x00 x00 x00)
(T (W x9a xc4 xff xff x89 x01 x00 x00)
(L (W x68 x00 x00 x00 x5c x00 x00 x00)) E)
(L (W x00 x00 x00 x00 x00 x00 x00 x00)))
(T (W x00 x00 x80 x3f x00 x00 x80 x3f)
(L (W x00 x00 x00 x00 x00 x00 x00 x00))
(L (W x00 x00 x80 xbf x00 x00 x80 xbf))))
(T (W x45 x26 x22 x84 xe4 x9c xf2 xcb)
(T (W xcc x00 x00 x00 x01 x00 x00 x00)
(T (W xff xff xff xff xff xff xff xff)
(L (W xff xff xff xff xff xff xff xff)) E)
(L (W xaa x01 x00 x00 xff xff xff xff)))
(T (W xc4 x00 x00 x00 x01 x00 x00 x00)
(L (W xff xff xff xff xff xff xff xff))
(L (W x00 x00 x00 x00 x00 x00 x00 x00))))))
(T (W xc0 x01 x00 x00 xff xff xff xff)
(T (W xff xff xff xff xff xff xff xff)
(T (W x00 x00 x00 x00 x44 x1b xfc xff)
(T (W x00 x00 x00 x00 x00 x00 x00 x00)
(T (W x00 x00 x00 x00 x00 x00 x00 x00)
(L (W x68 x00 x00 x00 x5c x00 x00 x00)) E)
(L (W xff xff xff xff xb0 x00 x00 x00)))
(T (W x00 x00 x00 x00 x00 x00 x00 x00)
(L (W xff xff xff xff xff xff xff xff))
(L (W x68 x00 x00 x00 x5c x00 x00 x00))))
(T (W x00 x00 x80 x3f x00 x00 x80 x3f)
(T (W x00 x00 x80 x3f x00 x00 x80 x3f)
(T (W x64 xe0 xfd xff x1b x00 x00 x00)
(L (W xff xff xff xff xff xff xff xff)) E)
(L (W x45 x26 x22 x84 xe4 x9c xf2 xcb)))
(T (W x00 x00 x00 x00 x00 x00 x00 x00)
(L (W xff xff xff xff xff xff xff xff))
(L (W x45 x26 x22 x84 xe4 x9c xf2 xcb)))))
(T (W x18 x00 x00 x00 x10 x00 x00 x00)
(T (W x00 x00 x80 x3f x00 x00 x80 x3f)
(T (W x00 x00 x00 x00 x00 x00 x00 x00)
(T (W x45 x26 x22 x84 xe4 x9c xf2 xcb)
(L (W x00 x00 x00 x00 x00 x00 x00 x00)) E)
(L (W x00 x00 x80 xbf x00 x00 x80 xbf)))
(T (W x18 x00 x00 x00 x10 x00 x00 x00)
(L (W xff xff xff xff xff xff xff xff))
(L (W xf6 x0a xb9 x28 xbf xcb x67 x6a))))
(T (W x00 x00 x00 x00 x00 x00 x00 x00)
(T (W xff xff xff xff xff xff xff xff)
(T (W x54 x4f x4c x4f x53 x00 x00 x00)
(L (W xff xff xff xff xff xff xff xff)) E)
(L (W x45 x44 x00 x00 x00 x00 x00 x00)))
(T (W x04 x00 x00 x00 xca x88 xfd xff)
(L (W xff xff xff xff xff xff xff xff))
(L (W x00 x00 x00 x00 x00 x00 x00 x00)))))))
(T (W xca x01 x00 x00 xff xff xff xff)
(T (W xff xff xff xff xff xff xff xff)
(T (W xff xff xff xff xff xff xff xff)
(T (W xff xff xff xff x03 x00 x00 x00)
(T (W x00 x00 x00 x00 x00 x00 x00 x00)
(T (W x00 x00 x00 x00 x00 x00 x00 x00)
(L (W xba x91 xff xff x78 x00 x00 x00)) E)
(L (W xb8 x00 x00 x00 x3c x00 x00 x00)))
(T (W x00 x00 x00 x00 x00 x00 x00 x00)
(L (W xff xff xff xff xa0 x00 x00 x00))
(L (W x00 x00 x80 xbf x00 x00 x80 xbf))))
(T (W x68 x00 x00 x00 x5c x00 x00 x00)
(T (W x00 x00 x00 x00 x00 x00 x00 x00)
(T (W x9a xec xff xff x72 x00 x00 x00)
(L (W xff xff xff xff xff xff xff xff)) E)
(L (W x68 x00 x00 x00 x5c x00 x00 x00)))
(T (W x13 x00 x00 x00 x0c x00 x00 x00)
(L (W xff xff xff xff xff xff xff xff))
(L (W x45 x44 x00 x00 x00 x00 x00 x00)))))
(T (W xff xff xff xff x04 x00 x00 x00)
(T (W x50 x00 x00 x00 x44 x00 x00 x00)
(T (W x40 x00 x00 x00 x0c x00 x00 x00)
(T (W xff xff xff xff xff xff xff xff)
(L (W xff xff xff xff xff xff xff xff)) E)
(L (W x4f x84 x6f x8b xe8 xcb x63 xb7)))
(T (W x45 x26 x22 x84 xe4 x9c xf2 xcb)
(L (W xff xff xff xff xff xff xff xff))
(L (W x00 x00 x00 x00 x12 x00 x00 x00))))
(T (W x00 x00 x00 x00 x00 x00 x00 x00)
(T (W xb0 x00 x00 x00 x64 x00 x00 x00)
(T (W x08 x01 x00 x00 xdc x00 x00 x00)
(L (W xff xff xff xff xac x00 x00 x00)) E)
(L (W x00 x00 x00 x00 x00 x00 x00 x00)))
(T (W xff xff xff xff xff xff xff xff)
(L (W xff xff xff xff xff xff xff xff))
(L (W x49 xa1 x68 x4a xeb x5f xdd x3d))))))
(T (W xff xff xff xff xff xff xff xff)
(T (W xff xff xff xff xff xff xff xff)
(T (W x18 x00 x00 x00 x0c x00 x00 x00)
(T (W x00 x00 x00 x00 x00 x00 x00 x00)
(T (W x00 x00 x00 x00 x00 x00 x00 x00)
(L (W x6c x00 x00 x00 x60 x00 x00 x00)) E)
(L (W x00 x00 x80 xbf x00 x00 x80 xbf)))
(T (W x4f x84 x6f x8b xe8 xcb x63 xb7)
(L (W xb0 x00 x00 x00 x64 x00 x00 x00))
(L (W x4f x84 x6f x8b xe8 xcb x63 xb7))))
(T (W x00 x00 x80 x3f x00 x00 x80 x3f)
(T (W x50 x00 x00 x00 x44 x00 x00 x00)
(T (W x00 x00 x80 x3f x00 x00 x80 x3f)
(L (W x00 x00 x00 x00 x00 x00 x0c x00)) E)
(L (W xff xff xff xff xff xff xff xff)))
(T (W x45 x26 x22 x84 xe4 x9c xf2 xcb)
(L (W xff xff xff xff xff xff xff xff))
(L (W x00 x00 x80 xbf x00 x00 x80 xbf)))))
(T (W xb8 x00 x00 x00 xac x00 x00 x00)
(T (W x00 x00 x80 x3f x00 x00 x80 x3f)
(T (W xff xff xff xff xff xff xff xff)
(T (W x00 x00 x00 x00 x44 xc3 xfd xff)
(L (W xff xff xff xff xff xff xff xff)) E)
(L (W x00 x00 x80 xbf x00 x00 x80 xbf)))
(T (W xff xff xff xff xff xff xff xff)
(L (W xff xff xff xff xff xff xff xff))
(L (W x00 x00 x00 x00 x00 x00 x00 x00))))
(T (W x00 x00 x00 x00 x00 x00 x00 x00)
(T (W x4b x00 x00 x00 xff xff xff xff)
(T (W xff xff xff xff xb0 x00 x00 x00)
(L (W x08 x00 x0c x00 x10 x00 x14 x00)) E)
(L (W x00 x00 x00 x00 x00 x00 x00 x00)))
(T (W x00 x00 x00 x00 x00 x00 x00 x00)
(L (W xff xff xff xff x94 x00 x00 x00))
(L (W x6c x00 x00 x00 x60 x00 x00 x00))))))))))
(T (W xc0 x6b x01 x00 x1c x67 x01 x00)
(T (W x28 x3c x00 x00 xf4 x3a x00 x00)
(T (W x30 x02 x00 x00 x1c x01 x00 x00)
(T (W x00 x00 x80 x3f x00 x00 x80 x3f)
(T (W xff xff xff xff x04 x00 x00 x00)
(T (W x00 x00 x00 x00 x00 x00 x00 x00)
(T (W x2b x00 x00 x00 x0c x00 x00 x00)
(T (W x68 x00 x00 x00 x5c x00 x00 x00)
(T (W x01 x00 x00 x00 x9c x00 x00 x00)
(L (W x9f x01 x00 x00 xff xff xff xff)) E)
(L (W x00 x00 x00 x00 x00 x00 x00 x00)))
(T (W x00 x00 x00 x00 x00 x00 x00 x00)
(L (W x00 x00 x80 x3f x00 x00 x80 x3f))
(L (W x00 x00 x80 xbf x00 x00 x80 xbf))))
(T (W xff xff xff xff xff xff xff xff)
(T (W x4f x84 x6f x8b xe8 xcb x63 xb7)
(T (W x18 x01 x00 x00 x04 x00 x00 x00)
(L (W x00 x01 x01 x01 xaa xca xff xff)) E)
(L (W xff xff xff xff xff xff xff xff)))
(T (W x4f x84 x6f x8b xe8 xcb x63 xb7)
(L (W x45 x26 x22 x84 xe4 x9c xf2 xcb))
(L (W x00 x00 x80 xbf x00 x00 x80 xbf)))))
(T (W x00 x00 x80 x3f x00 x00 x80 x3f)
(T (W x00 x00 x00 x00 x00 x00 x00 x00)
(T (W x00 x00 x00 x00 x00 x00 x00 x00)
(T (W x00 x00 x80 x3f x00 x00 x80 x3f)
(L (W xff xff xff xff xff xff xff xff)) E)
(L (W xb0 x00 x00 x00 x64 x00 x00 x00)))
(T (W xff xff xff xff xff xff xff xff)
(L (W x00 x00 x00 x00 x00 x00 x00 x00))
(L (W x45 x26 x22 x84 xe4 x9c xf2 xcb))))
(T (W xff xff xff xff xff xff xff xff)
(T (W x74 x03 x00 x00 x4c x02 x00 x00)
(T (W x00 x00 x80 x3f x00 x00 x80 x3f)
(L (W xff xff xff xff xff xff xff xff)) E)
(L (W x00 x00 x00 x00 x00 x00 x00 x00)))
(T (W xff xff xff xff xff xff xff xff)
(L (W x45 x26 x22 x84 xe4 x9c xf2 xcb))
(L (W xff xff xff xff xff xff xff xff))))))
(T (W x00 x00 x80 x3f x00 x00 x80 x3f)
(T (W x00 x00 x00 x00 x00 x00 x00 x00)
(T (W xff xff xff xff xff xff xff xff)
(T (W x00 x00 x80 x3f x00 x00 x80 x3f)
(T (W x18 x00 x00 x00 x0c x00 x00 x00)
(L (W xff xff xff xff xff xff xff xff)) E)
(L (W x00 x00 x00 x00 x00 x00 x00 x00)))
(T (W x68 x00 x00 x00 x5c x00 x00 x00)
(L (W x00 x00 x80 x3f x00 x00 x80 x3f))
(L (W xff xff xff xff xc4 x00 x00 x00))))
(T (W x64 x00 x00 x00 x9c x00 x00 x00)
(T (W x18 x00 x00 x00 x0c x00 x00 x00)
(T (W x45 x26 x22 x84 xe4 x9c xf2 xcb)
(L (W x3c x00 x00 x00 x00 x00 x80 xbf)) E)
(L (W x45 x44 x00 x00 x00 x00 x00 x00)))
(T (W x00 x00 x80 x3f x00 x00 x80 x3f)
(L (W x00 x00 x00 x00 x00 x00 x00 x00))
(L (W x00 x00 x80 xbf x00 x00 x80 xbf)))))
(T (W x00 x00 x00 x00 x00 x00 x00 x00)
(T (W xff xff xff xff xff xff xff xff)
(T (W x6c x00 x00 x00 x60 x00 x00 x00)
(T (W x00 x00 x00 x00 x00 x00 x00 x00)
(L (W x00 x00 x00 x00 x00 x00 x00 x00)) E)
(L (W xff xff xff xff xff xff xff xff)))
(T (W xff xff xff xff x02 x00 x00 x00)
(L (W x45 x26 x22 x84 xe4 x9c xf2 xcb))
(L (W x40 x36 xff xff x6a x39 xff xff))))
(T (W x45 x26 x22 x84 xe4 x9c xf2 xcb)
(T (W x00 x00 x00 x00 x00 x00 x00 x00)
(T (W xe7 x48 x22 x4b xf1 xf9 xc6 x32)
(L (W x00 x00 x80 xbf x00 x00 x80 xbf)) E)
(L (W x49 xa1 x68 x4a xeb x5f xdd x3d)))
(T (W x00 x00 x00 x00 x00 x00 x00 x00)
(L (W x45 x26 x22 x84 xe4 x9c xf2 xcb))
(L (W xff xff xff xff xff xff xff xff)))))))
(T (W x00 x00 x80 x3f x00 x00 x80 x3f)
(T (W x00 x00 x00 x00 x00 x00 x00 x00)
(T (W x00 x00 x00 x00 x00 x00 x00 x00)
(T (W x0a x29 xfe xff x00 x00 x01 x01)
(T (W x00 x00 x80 x3f x00 x00 x80 x3f)
(T (W x64 x00 x00 x00 x9c x00 x00 x00)
(L (W xff xff xff xff xff xff xff xff)) E)
(L (W x00 x00 x00 x00 x00 x00 x00 x00)))
(T (W x00 x00 x80 x3f x00 x00 x80 x3f)
(L (W x45 x44 x00 x00 x00 x00 x00 x00))
(L (W x68 x00 x00 x00 x5c x00 x00 x00))))
(T (W xff xff xff xff xff xff xff xff)
(T (W x00 x00 x80 x3f x00 x00 x80 x3f)
(T (W x45 x26 x22 x84 xe4 x9c xf2 xcb)
(L (W x00 x00 x80 xbf x00 x00 x80 xbf)) E)
(L (W x82 xe3 xfe xff xaa x01 x00 x00)))
(T (W x45 x26 x22 x84 xe4 x9c xf2 xcb)
(L (W x00 x00 x80 xbf x00 x00 x80 xbf))
(L (W x00 x00 x80 xbf x00 x00 x80 xbf)))))
(T (W x00 x00 x00 x00 x00 x00 x00 x00)
(T (W x00 x00 x00 x00 x04 x00 x00 x00)
(T (W x50 x00 x00 x00 x44 x00 x00 x00)
(T (W x45 x26 x22 x84 xe4 x9c xf2 xcb)
(L (W x45 x26 x22 x84 xe4 x9c xf2 xcb)) E)
(L (W xff xff xff xff xff xff xff xff)))
(T (W xff xff xff xff xff xff xff xff)
(L (W x18 x00 x00 x00 x0c x00 x00 x00))
(L (W x45 x26 x22 x84 xe4 x9c xf2 xcb))))
(T (W xff xff xff xff xff xff xff xff)
(T (W x00 x00 x00 x00 x00 x00 x00 x00)
(T (W xff xff xff xff xff xff xff xff)
(L (W x6c x00 x00 x00 x60 x00 x00 x00)) E)
(L (W x00 x00 x00 x00 x00 x00 x00 x00)))
(T (W x00 x00 x00 x00 x00 x00 x00 x00)
(L (W x00 x00 x00 x00 x00 x00 x00 x00))
(L (W xd4 x6f xff xff x00 x01 x01 x01))))))
(T (W x00 x00 x80 x3f x00 x00 x80 x3f)
(T (W x00 x00 x00 x00 x00 x00 x00 x00)
(T (W xf0 x00 x00 x00 xff xff xff xff)
(T (W x00 x00 x80 x3f x00 x00 x80 x3f)
(T (W x50 x00 x00 x00 x44 x00 x00 x00)
(L (W xff xff xff xff xff xff xff xff)) E)
(L (W x00 x00 x00 x00 xea x9b xfe xff)))
(T (W xba x1c xfd xff x78 x00 x00 x00)
(L (W x00 x00 x80 xbf x00 x00 x80 xbf))
(L (W xff xff xff xff xff xff xff xff))))
(T (W xff xff xff xff x03 x00 x00 x00)
(T (W xff xff xff xff xff xff xff xff)
(T (W x00 x00 x80 x3f x00 x00 x80 x3f)
(L (W x45 x26 x22 x84 xe4 x9c xf2 xcb)) E)
(L (W x64 xe3 xfe xff x15 x00 x00 x00)))
(T (W xff xff xff xff xa0 x00 x00 x00)
(L (W x00 x00 x00 x00 x00 x00 x00 x00))
(L (W xcc x00 x00 x00 x01 x00 x00 x00)))))
(T (W x00 x00 x00 x00 x00 x00 x00 x00)
(T (W xb0 x00 x00 x00 xff xff xff xff)
(T (W xac x00 x00 x00 xa0 x00 x00 x00)
(T (W x00 x00 x00 x00 x00 x00 x00 x00)
(L (W x00 x00 x80 xbf x00 x00 x80 xbf)) E)
(L (W x03 x00 x00 x00 xd0 x00 x00 x00)))
(T (W x00 x00 x00 x00 x00 x00 x00 x00)
(L (W x00 x00 x80 xbf x00 x00 x80 xbf))
(L (W x00 x00 x80 xbf x00 x00 x80 xbf))))
(T (W x18 x00 x00 x00 x0c x00 x00 x00)
(T (W x4f x84 x6f x8b xe8 xcb x63 xb7)
(T (W xff xff xff xff xff xff xff xff)
(L (W xdc x00 x00 x00 x01 x00 x00 x00)) E)
(L (W x00 x00 x80 xbf x00 x00 x80 xbf)))
(T (W x00 x00 x80 x3f x00 x00 x80 x3f)
(L (W x00 x00 x00 x00 x12 x00 x00 x00))
(L (W xff xff xff xff xff xff xff xff))))))))
(T (W x00 x00 x00 x00 x44 x92 xfb xff)
(T (W x45 x26 x22 x84 xe4 x9c xf2 xcb)
(T (W x00 x00 x00 x00 x00 x00 x00 x00)
(T (W xff xff xff xff xff xff xff xff)
(T (W x40 x00 x00 x00 x9c x00 x00 x00)
(T (W x00 x00 x00 x00 x00 x00 x00 x00)
(T (W x00 x00 x00 x00 x00 x00 x00 x00)
(L (W x00 x00 x80 xbf x00 x00 x80 xbf)) E)
(L (W x00 x00 x80 xbf x00 x00 x80 xbf)))
(T (W xff xff xff xff xff xff xff xff)
(L (W x45 x26 x22 x84 xe4 x9c xf2 xcb))
(L (W xff xff xff xff xff xff xff xff))))
(T (W x00 x00 x80 x3f x00 x00 x80 x3f)
(T (W xff xff xff xff xff xff xff xff)
(T (W x0a xc7 xfd xff x74 x00 x00 x00)
(L (W xa4 x05 x00 x00 x7c x04 x00 x00)) E)
(L (W x00 x00 x80 xbf x00 x00 x80 xbf)))
(T (W xff xff xff xff xff xff xff xff)
(L (W xff xff xff xff xff xff xff xff))
(L (W xff xff xff xff xff xff xff xff)))))
(T (W x18 x00 x00 x00 x0c x00 x00 x00)
(T (W x00 x00 x80 x3f x00 x00 x80 x3f)
(T (W x0a xc5 xfe xff x00 x00 x01 x01)
(T (W xff xff xff xff xff xff xff xff)
(L (W x00 x00 x80 xbf x00 x00 x80 xbf)) E)
(L (W x46 x53 x59 x53 x5f x4e x53 x5f)))
(T (W x00 x00 x80 x3f x00 x00 x80 x3f)
(L (W x00 x00 x01 x01 xc9 x01 x00 x00))
(L (W x00 x00 x00 x00 x00 x00 x00 x00))))
(T (W x00 x00 x00 x00 x00 x00 x00 x00)
(T (W x00 x00 x80 x3f x00 x00 x80 x3f)
(T (W xff xff xff xff xff xff xff xff)
(L (W x00 x00 x00 x00 x00 x00 x00 x00)) E)
(L (W xff xff xff xff xff xff xff xff)))
(T (W x00 x00 x80 x3f x00 x00 x80 x3f)
(L (W x14 x00 x00 x00 x0c x00 x00 x00))
(L (W x00 x00 x00 x00 x00 x00 x00 x00))))))
(T (W xff xff xff xff xff xff xff xff)
(T (W xff xff xff xff xff xff xff xff)
(T (W x6c x00 x00 x00 x60 x00 x00 x00)
(T (W x43 x00 x00 x00 xff xff xff xff)
(T (W xbc xaf xfd xff x1b x00 x00 x00)
(L (W x00 x00 x80 xbf x00 x00 x80 xbf)) E)
(L (W x00 x00 x80 xbf x00 x00 x80 xbf)))
(T (W x45 x44 x00 x00 x00 x00 x00 x00)
(L (W xff xff xff xff xff xff xff xff))
(L (W x00 x00 x80 xbf x00 x00 x80 xbf))))
(T (W x45 x26 x22 x84 xe4 x9c xf2 xcb)
(T (W x00 x00 x00 x00 x00 x00 x00 x00)
(T (W xff xff xff xff xff xff xff xff)
(L (W xff xff xff xff xff xff xff xff)) E)
(L (W x00 x00 x80 xbf x00 x00 x80 xbf)))
(T (W x00 x00 x00 x00 x00 x00 x00 x00)
(L (W xff xff xff xff xff xff xff xff))
(L (W x12 x00 x00 x00 x46 x53 x59 x53)))))
(T (W x45 x26 x22 x84 xe4 x9c xf2 xcb)
(T (W x00 x00 x80 x3f x00 x00 x80 x3f)
(T (W x00 x00 x00 x00 x60 x00 x64 x00)
(T (W x6b x65 x5f x63 x6f x77 x61 x72)
(L (W xff xff xff xff xff xff xff xff)) E)
(L (W x00 x00 x00 x00 x00 x00 x00 x00)))
(T (W x68 x00 x00 x00 x5c x00 x00 x00)
(L (W xff xff xff xff xff xff xff xff))
(L (W xff xff xff xff xff xff xff xff))))
(T (W x00 x00 x00 x00 x00 x00 x00 x00)
(T (W xff xff xff xff xc4 x00 x00 x00)
(T (W x82 x02 x00 x00 xff xff xff xff)
(L (W xba xf8 xff xff x78 x00 x00 x00)) E)
(L (W xff xff xff xff xff xff xff xff)))
(T (W xff xff xff xff xff xff xff xff)
(L (W xb0 x00 x00 x00 x3c x00 x00 x00))
(L (W x00 x00 x00 x00 x00 x00 x00 x00)))))))
(T (W x0a x00 x00 x00 x3e x00 x00 x00)
(T (W xff xff xff xff xff xff xff xff)
(T (W x64 x00 x00 x00 x9c x00 x00 x00)
(T (W x50 x00 x00 x00 x44 x00 x00 x00)
(T (W x08 x7d x1b x75 x40 x49 xe9 xfd)
(T (W x00 x00 x00 x00 x00 x00 x00 x00)
(L (W x45 x26 x22 x84 xe4 x9c xf2 xcb)) E)
(L (W xd4 x93 xfe xff x00 x01 x01 x01)))
(T (W xff xff xff xff xff xff xff xff)
(L (W x6c x00 x00 x00 x60 x00 x00 x00))
(L (W x00 x00 x00 x00 x00 x00 x00 x00))))
(T (W x45 x26 x22 x84 xe4 x9c xf2 xcb)
(T (W x00 x00 x00 x00 x00 x00 x00 x00)
(T (W xff xff xff xff xff xff xff xff)
(L (W xff xff xff xff xff xff xff xff)) E)
(L (W x00 x00 x80 xbf x00 x00 x80 xbf)))
(T (W xff xff xff xff xff xff xff xff)
(L (W xff xff xff xff xff xff xff xff))
(L (W xff xff xff xff xff xff xff xff)))))
(T (W x0a xef xfb xff x74 x00 x00 x00)
(T (W x00 x00 x80 x3f x00 x00 x80 x3f)
(T (W xff xff xff xff xff xff xff xff)
(T (W xff xff xff xff xff xff xff xff)
(L (W x18 x00 x00 x00 x10 x00 x00 x00)) E)
(L (W x00 x00 x00 x00 x00 x00 x00 x00)))
(T (W x00 x00 x80 x3f x00 x00 x80 x3f)
(L (W xff xff xff xff xac x00 x00 x00))
(L (W x00 x00 x00 x00 x00 x00 x00 x00))))
(T (W xbc x87 xfc xff x3e x00 x00 x00)
(T (W xd4 xf3 xfc xff x00 x01 x01 x01)
(T (W x00 x00 x00 x00 x00 x00 x00 x00)
(L (W x00 x00 x00 x00 x00 x00 x00 x00)) E)
(L (W xff xff xff xff xff xff xff xff)))
(T (W x03 x00 x00 x00 xd4 x00 x00 x00)
(L (W x1c x00 x00 x00 x10 x00 x00 x00))
(L (W x00 x00 x00 x00 x00 x00 x00 x00))))))
(T (W x64 x00 x00 x00 x9c x00 x00 x00)
(T (W xff xff xff xff x04 x00 x00 x00)
(T (W x00 x00 x80 x3f x00 x00 x80 x3f)
(T (W x02 x00 x00 x00 x7c x01 x00 x00)
(T (W x9a xbb xff xff x8e x01 x00 x00)
(L (W x00 x00 x80 xbf x00 x00 x80 xbf)) E)
(L (W x00 x00 x00 x00 x00 x00 x00 x00)))
(T (W x00 x00 x00 x00 x00 x00 x00 x00)
(L (W x50 x00 x00 x00 x44 x00 x00 x00))
(L (W x00 x00 x00 x00 x00 x00 x00 x00))))
(T (W x00 x00 x00 x00 x00 x00 x00 x00)
(T (W x00 x00 x80 x3f x00 x00 x80 x3f)
(T (W x06 x00 x07 x00 x00 x00 x00 x00)
(L (W xb0 x00 x00 x00 x64 x00 x00 x00)) E)
(L (W x18 x00 x00 x00 x10 x00 x00 x00)))
(T (W x00 x00 x00 x00 x00 x00 x00 x00)
(L (W xff xff xff xff xff xff xff xff))
(L (W x00 x00 x00 x00 x00 x00 x00 x00)))))
(T (W x18 x00 x00 x00 x10 x00 x00 x00)
(T (W x00 x00 x80 x3f x00 x00 x80 x3f)
(T (W xff xff xff xff x9c x00 x00 x00)
(T (W x6c x00 x00 x00 x60 x00 x00 x00)
(L (W xff xff xff xff xff xff xff xff)) E)
(L (W x00 x00 x80 xbf x00 x00 x80 xbf)))
(T (W xbc x00 x00 x00 x14 x00 x00 x00)
(L (W xff xff xff xff xff xff xff xff))
(L (W xff xff xff xff xff xff xff xff))))
(T (W x00 x00 x00 x00 x00 x00 x00 x00)
(T (W xff xff xff xff xff xff xff xff)
(T (W x00 x00 x00 x00 x00 x00 x00 x00)
(L (W x45 x44 x00 x00 x00 x00 x00 x00)) E)
(L (W x00 x00 x00 x00 x00 x00 x00 x00)))
(T (W x26 x02 x00 x00 xff xff xff xff)
(L (W x00 x01 x01 x01 xba xbe xfe xff))
(L (W x00 x00 x80 xbf x00 x00 x80 xbf)))))))))
(T (W x45 x26 x22 x84 xe4 x9c xf2 xcb)
(T (W x00 x00 x00 x00 x00 x00 x00 x00)
(T (W x5f x77 x69 x6c x64 x5f x70 x6f)
(T (W x40 x00 x00 x00 x10 x00 x00 x00)
(T (W x6c x00 x00 x00 x60 x00 x00 x00)
(T (W x00 x00 x80 x3f x00 x00 x80 x3f)
(T (W xff xff xff xff xff xff xff xff)
(T (W x2c x00 x00 x00 x10 x00 x00 x00)
(L (W x00 x00 x00 x00 x00 x00 x00 x00)) E)
(L (W x45 x26 x22 x84 xe4 x9c xf2 xcb)))
(T (W x18 x00 x00 x00 x10 x00 x00 x00)
(L (W x64 x5f x70 x6f x6b x65 x5f x77))
(L (W x45 x26 x22 x84 xe4 x9c xf2 xcb))))
(T (W x00 x00 x00 x00 x00 x00 x00 x00)
(T (W xd4 xc9 xfc xff x00 x01 x01 x01)
(T (W x00 x00 x00 x00 x00 x00 x00 x00)
(L (W x18 x00 x00 x00 x0c x00 x00 x00)) E)
(L (W x00 x00 x00 x00 x00 x00 x00 x00)))
(T (W x50 x00 x00 x00 x44 x00 x00 x00)
(L (W x68 x00 x00 x00 x5c x00 x00 x00))
(L (W xff xff xff xff xac x00 x00 x00)))))
(T (W x00 x00 x80 x3f x00 x00 x80 x3f)
(T (W x00 x00 x00 x00 x00 x00 x00 x00)
(T (W xff xff xff xff xff xff xff xff)
(T (W xb8 x00 x00 x00 xac x00 x00 x00)
(L (W x00 x00 x00 x00 x00 x00 x00 x00)) E)
(L (W xff xff xff xff xff xff xff xff)))
(T (W xda x2e xfd xff x9c x01 x00 x00)
(L (W xe4 xf5 xff xff x01 x01 x01 x01))
(L (W xff xff xff xff xff xff xff xff))))
(T (W xff xff xff xff xff xff xff xff)
(T (W x45 x26 x22 x84 xe4 x9c xf2 xcb)
(T (W x7c x00 x0c x00 x00 x00 x10 x00)
(L (W x00 x00 x00 x00 x00 x00 x00 x00)) E)
(L (W x00 x00 x80 xbf x00 x00 x80 xbf)))
(T (W x00 x00 x00 x00 x00 x00 x00 x00)
(L (W x40 x00 x00 x00 x00 x00 x80 xbf))
(L (W xff xff xff xff xff xff xff xff))))))
(T (W x00 x00 x80 x3f x00 x00 x80 x3f)
(T (W x00 x00 x80 x3f x00 x00 x80 x3f)
(T (W x00 x00 x00 x00 x00 x00 x00 x00)
(T (W xb8 x00 x00 x00 xac x00 x00 x00)
(T (W xff xff xff xff xff xff xff xff)
(L (W x00 x00 x00 x00 x00 x00 x00 x00)) E)
(L (W x00 x00 x00 x00 x00 x00 x00 x00)))
(T (W xb0 x00 x00 x00 x64 x00 x00 x00)
(L (W xba x16 xfe xff x78 x00 x00 x00))
(L (W xff xff xff xff xff xff xff xff))))
(T (W x01 x00 x00 x00 x04 x00 x00 x00)
(T (W xff xff xff xff xff xff xff xff)
(T (W x50 x00 x00 x00 x44 x00 x00 x00)
(L (W x45 x26 x22 x84 xe4 x9c xf2 xcb)) E)
(L (W x00 x00 x00 x00 x00 x00 x00 x00)))
(T (W xff xff xff xff xff xff xff xff)
(L (W x18 x00 x00 x00 x0c x00 x00 x00))
(L (W xff xff xff xff xff xff xff xff)))))
(T (W x50 x00 x00 x00 x44 x00 x00 x00)
(T (W x45 x26 x22 x84 xe4 x9c xf2 xcb)
(T (W xbc xcd xfc xff x3c x00 x00 x00)
(T (W x00 x00 x80 x3f x00 x00 x80 x3f)
(L (W x5c x00 x00 x00 x50 x00 x00 x00)) E)
(L (W x00 x00 x00 x00 x00 x00 x00 x00)))
(T (W x49 xa1 x68 x4a xeb x5f xdd x3d)
(L (W x45 x26 x22 x84 xe4 x9c xf2 xcb))
(L (W xb0 x00 x00 x00 x0f x00 x00 x00))))
(T (W xff xff xff xff xff xff xff xff)
(T (W x00 x00 x80 x3f x00 x00 x80 x3f)
(T (W x24 x00 x28 x00 x2c x00 x30 x00)
(L (W x64 x00 x68 x00 x62 x00 x00 x00)) E)
(L (W x6c x00 x00 x00 x60 x00 x00 x00)))
(T (W x00 x00 x00 x00 x44 x78 xfd xff)
(L (W x50 x00 x00 x00 x44 x00 x00 x00))
(L (W xff xff xff xff xff xff xff xff)))))))
(T (W x5f x77 x69 x6c x64 x5f x70 x6f)
(T (W x50 x00 x00 x00 x44 x00 x00 x00)
(T (W x00 x00 x80 x3f x00 x00 x80 x3f)
(T (W x00 x00 x00 x00 x00 x00 x00 x00)
(T (W xff xff xff xff xff xff xff xff)
(T (W xff xff xff xff xff xff xff xff)
(L (W x00 x00 x00 x00 x00 x00 x00 x00)) E)
(L (W x00 x00 x00 x00 x00 x00 x00 x00)))
(T (W xcc x00 x00 x00 x01 x00 x00 x00)
(L (W x4f x84 x6f x8b xe8 xcb x63 xb7))
(L (W xff xff xff xff xff xff xff xff))))
(T (W x64 x55 xfc xff x3e x00 x00 x00)
(T (W xff xff xff xff xbc x00 x00 x00)
(T (W xb8 x00 x00 x00 xac x00 x00 x00)
(L (W x18 x00 x00 x00 x10 x00 x00 x00)) E)
(L (W x00 x00 x00 x00 x00 x00 x00 x00)))
(T (W x1f x00 x00 x00 x22 x00 x00 x00)
(L (W xd4 x51 xfe xff x00 x01 x01 x01))
(L (W x03 x00 x00 x00 xd8 x00 x00 x00)))))
(T (W x00 x00 x80 x3f x00 x00 x80 x3f)
(T (W x00 x00 x00 x00 x00 x00 x00 x00)
(T (W xff xff xff xff xff xff xff xff)
(T (W x50 x00 x00 x00 x44 x00 x00 x00)
(L (W x00 x00 x80 xbf x00 x00 x80 xbf)) E)
(L (W xff xff xff xff xff xff xff xff)))
(T (W x00 x00 x00 x00 x00 x00 x00 x00)
(L (W x01 x00 x00 x00 x68 x00 x00 x00))
(L (W xff xff xff xff xff xff xff xff))))
(T (W xff xff xff xff xff xff xff xff)
(T (W x00 x00 x80 x3f x00 x00 x80 x3f)
(T (W x68 x00 x00 x00 x5c x00 x00 x00)
(L (W xff xff xff xff xff xff xff xff)) E)
(L (W x50 x00 x00 x00 x44 x00 x00 x00)))
(T (W x00 x00 x80 x3f x00 x00 x80 x3f)
(L (W x44 x00 x00 x00 x00 x00 x80 xbf))
(L (W xff xff xff xff xff xff xff xff))))))
(T (W x00 x00 x80 x3f x00 x00 x80 x3f)
(T (W x00 x00 x80 x3f x00 x00 x80 x3f)
(T (W x00 x00 x00 x00 x00 x00 x00 x00)
(T (W x18 x00 x00 x00 x0c x00 x00 x00)
(T (W xff xff xff xff xff xff xff xff)
(L (W x00 x00 x00 x00 x00 x00 x00 x00)) E)
(L (W x54 x00 x00 x00 x48 x00 x00 x00)))
(T (W xff xff xff xff xff xff xff xff)
(L (W x38 x00 x3c x00 x40 x00 x44 x00))
(L (W xff xff xff xff xff xff xff xff))))
(T (W xff xff xff xff xff xff xff xff)
(T (W x30 x33 x5f x43 x4c x45 x41 x52)
(T (W x01 x00 x00 x00 x9c x00 x00 x00)
(L (W x68 x00 x00 x00 x5c x00 x00 x00)) E)
(L (W x00 x00 x80 xbf x00 x00 x80 xbf)))
(T (W xff xff xff xff xff xff xff xff)
(L (W x00 x00 x80 xbf x00 x00 x80 xbf))
(L (W xff xff xff xff xff xff xff xff)))))
(T (W x00 x00 x80 x3f x00 x00 x80 x3f)
(T (W x00 x00 x00 x00 x00 x00 x00 x00)
(T (W x45 x26 x22 x84 xe4 x9c xf2 xcb)
(T (W x45 x26 x22 x84 xe4 x9c xf2 xcb)
(L (W x45 x26 x22 x84 xe4 x9c xf2 xcb)) E)
(L (W x00 x00 x00 x00 x06 x00 x00 x00)))
(T (W x00 x00 x80 x3f x00 x00 x80 x3f)
(L (W xff xff xff xff xa8 x00 x00 x00))
(L (W x1d x00 x00 x00 x20 x00 x00 x00))))
(T (W xff xff xff xff xff xff xff xff)
(T (W x00 x00 x80 x3f x00 x00 x80 x3f)
(T (W x00 x00 x00 x00 xfa xcf xff xff)
(L (W x00 x00 x80 xbf x00 x00 x80 xbf)) E)
(L (W x00 x00 x00 x00 x44 x00 xff xff)))
(T (W x18 x00 x00 x00 x10 x00 x00 x00)
(L (W x00 x00 x80 xbf x00 x00 x80 xbf))
(L (W x00 x00 x00 x00 x00 x00 x00 x00))))))))
(T (W x00 x00 x00 x00 x00 x00 x00 x00)
(T (W xff xff xff xff xff xff xff xff)
(T (W xff xff xff xff xff xff xff xff)
(T (W xb8 x01 x00 x00 xff xff xff xff)
(T (W xff xff xff xff xff xff xff xff)
(T (W x00 x00 x00 x00 x00 x00 x00 x00)
(T (W x00 x00 x80 x3f x00 x00 x80 x3f)
(L (W x03 x00 x00 x00 xd0 x00 x00 x00)) E)
(L (W xff xff xff xff xff xff xff xff)))
(T (W x00 x00 x00 x00 x00 x00 x00 x00)
(L (W xff xff xff xff xa0 x00 x00 x00))
(L (W x00 x00 x00 x00 x00 x00 x00 x00))))
(T (W x0a x49 xfc xff x74 x00 x00 x00)
(T (W x00 x00 x00 x00 x00 x00 x00 x00)
(T (W x00 x00 x00 x00 x00 x00 x00 x00)
(L (W x00 x00 x00 x00 x00 x00 x00 x00)) E)
(L (W xd4 xcd xfe xff x00 x01 x01 x01)))
(T (W x00 x00 x00 x00 x00 x00 x00 x00)
(L (W x00 x00 x00 x00 x00 x00 x00 x00))
(L (W x00 x00 x00 x00 x00 x00 x00 x00)))))
(T (W x1c x01 x00 x00 x04 x00 x00 x00)
(T (W xff xff xff xff xff xff xff xff)
(T (W x00 x00 x00 x00 x00 x00 x00 x00)
(T (W x00 x00 x00 x00 x00 x00 x00 x00)
(L (W x4c x00 x50 x00 x54 x00 x00 x00)) E)
(L (W xba xaa xfe xff x78 x00 x00 x00)))
(T (W x0a x29 xfd xff x74 x00 x00 x00)
(L (W x45 x26 x22 x84 xe4 x9c xf2 xcb))
(L (W x00 x00 x80 xbf x00 x00 x80 xbf))))
(T (W x00 x00 x80 x3f x00 x00 x80 x3f)
(T (W xff xff xff xff xff xff xff xff)
(T (W xbc x01 xfe xff x21 x00 x00 x00)
(L (W x00 x00 x00 x00 x00 x00 x00 x00)) E)
(L (W x00 x00 x00 x00 x00 x00 x00 x00)))
(T (W xff xff xff xff xff xff xff xff)
(L (W x00 x00 x00 x00 x00 x00 x00 x00))
(L (W x4f x84 x6f x8b xe8 xcb x63 xb7))))))
(T (W x00 x00 x00 x00 x00 x00 x00 x00)
(T (W x44 x02 x00 x00 x28 x01 x00 x00)
(T (W xff xff xff xff xff xff xff xff)
(T (W x45 x26 x22 x84 xe4 x9c xf2 xcb)
(T (W x45 x26 x22 x84 xe4 x9c xf2 xcb)
(L (W xff xff xff xff xff xff xff xff)) E)
(L (W xff xff xff xff xff xff xff xff)))
(T (W x00 x00 x00 x00 x00 x00 x00 x00)
(L (W x00 x00 x00 x00 x00 x00 x00 x00))
(L (W xd4 x1d xff xff x00 x01 x01 x01))))
(T (W x45 x26 x22 x84 xe4 x9c xf2 xcb)
(T (W x00 x00 x80 x3f x00 x00 x80 x3f)
(T (W x00 x00 x00 x00 x00 x00 x00 x00)
(L (W x64 xe1 xff xff x21 x00 x00 x00)) E)
(L (W xff xff xff xff xff xff xff xff)))
(T (W x45 x26 x22 x84 xe4 x9c xf2 xcb)
(L (W x45 x44 x00 x00 x00 x00 x00 x00))
(L (W x00 x00 x80 xbf x00 x00 x80 xbf)))))
(T (W xff xff xff xff xff xff xff xff)
(T (W xd4 x3d xfc xff x00 x01 x01 x01)
(T (W x00 x00 x00 x00 x00 x00 x00 x00)
(T (W x00 x00 x00 x00 x44 xbc xfd xff)
(L (W x00 x00 x00 x00 x00 x00 x00 x00)) E)
(L (W xba xba xfe xff x78 x00 x00 x00)))
(T (W xff xff xff xff xff xff xff xff)
(L (W x45 x44 x00 x00 x00 x00 x00 x00))
(L (W x00 x00 x00 x00 x00 x00 x00 x00))))
(T (W x45 x26 x22 x84 xe4 x9c xf2 xcb)
(T (W xff xff xff xff xff xff xff xff)
(T (W xd4 xfd xfd xff x00 x01 x01 x01)
(L (W x30 x33 x5f x43 x4c x45 x41 x52)) E)
(L (W x00 x00 x00 x00 x00 x00 x00 x00)))
(T (W x12 x00 x00 x00 x46 x53 x59 x53)
(L (W xff xff xff xff xff xff xff xff))
(L (W xff xff xff xff xff xff xff xff)))))))
(T (W x70 x5f x6c x65 x61 x64 x65 x72)
(T (W x64 xb9 xfb xff x25 x00 x00 x00)
(T (W x5a x1a xff xff xb0 x01 x00 x00)
(T (W xff xff xff xff xff xff xff xff)
(T (W x45 x26 x22 x84 xe4 x9c xf2 xcb)
(T (W x00 x00 x80 x3f x00 x00 x80 x3f)
(L (W x1f x00 x00 x00 x22 x00 x00 x00)) E)
(L (W xff xff xff xff xff xff xff xff)))
(T (W x00 x00 x00 x00 x00 x00 x00 x00)
(L (W x00 x00 x00 x00 x00 x00 x00 x00))
(L (W x68 x00 x00 x00 x5c x00 x00 x00))))
(T (W x00 x00 x00 x00 x44 x54 xfc xff)
(T (W x00 x00 x80 x3f x00 x00 x80 x3f)
(T (W x00 x00 x00 x00 x00 x00 x00 x00)
(L (W x45 x44 x00 x00 x00 x00 x00 x00)) E)
(L (W xff xff xff xff x9c x00 x00 x00)))
(T (W x00 x00 x00 x00 x00 x00 x00 x00)
(L (W x0a x71 xfe xff x8c x01 x00 x00))
(L (W x00 x00 x00 x00 x00 x00 x00 x00)))))
(T (W xff xff xff xff xff xff xff xff)
(T (W x64 x00 x00 x00 x9c x00 x00 x00)
(T (W x00 x00 x00 x00 x00 x00 x00 x00)
(T (W x9a xcd xff xff x64 x01 x00 x00)
(L (W x00 x00 x00 x00 x00 x00 x00 x00)) E)
(L (W x00 x00 x80 xbf x00 x00 x80 xbf)))
(T (W xff xff xff xff xc8 x00 x00 x00)
(L (W x1e x00 x00 x00 x10 x00 x00 x00))
(L (W x00 x00 x00 x00 x00 x00 x00 x00))))
(T (W x00 x00 x80 x3f x00 x00 x80 x3f)
(T (W xff xff xff xff xff xff xff xff)
(T (W x38 x39 x5f x42 x00 x00 x00 x00)
(L (W x50 x00 x00 x00 x54 x00 x58 x00)) E)
(L (W x46 x53 x59 x53 x5f x4e x53 x5f)))
(T (W x9c x01 x00 x00 xff xff xff xff)
(L (W x34 x01 x00 x00 x04 x00 x00 x00))
(L (W x00 x00 x80 xbf x00 x00 x80 xbf))))))
(T (W xff xff xff xff xff xff xff xff)
(T (W x00 x00 x00 x00 x72 x2d xff xff)
(T (W xb8 x00 x00 x00 xac x00 x00 x00)
(T (W x68 x00 x00 x00 x5c x00 x00 x00)
(T (W x00 x00 x00 x00 x00 x00 x00 x00)
(L (W x18 x00 x00 x00 x10 x00 x00 x00)) E)
(L (W x68 x00 x00 x00 x5c x00 x00 x00)))
(T (W x00 x00 x80 x3f x00 x00 x80 x3f)
(L (W xff xff xff xff xff xff xff xff))
(L (W x00 x00 x80 xbf x00 x00 x80 xbf))))
(T (W x00 x00 x80 x3f x00 x00 x80 x3f)
(T (W xc4 x00 x00 x00 x01 x00 x00 x00)
(T (W xff xff xff xff xff xff xff xff)
(L (W x00 x00 x80 xbf x00 x00 x80 xbf)) E)
(L (W x00 x00 x00 x00 x00 x00 x00 x00)))
(T (W x18 x00 x00 x00 x0c x00 x00 x00)
(L (W x00 x00 x00 x00 x00 x00 x00 x00))
(L (W x00 x00 x80 xbf x00 x00 x80 xbf)))))
(T (W xff xff xff xff xff xff xff xff)
(T (W x50 x00 x00 x00 x44 x00 x00 x00)
(T (W xda xca xfc xff xa6 x01 x00 x00)
(T (W xff xff xff xff xff xff xff xff)
(L (W x45 x44 x00 x00 x00 x00 x00 x00)) E)
(L (W x6c x00 x00 x00 x60 x00 x00 x00)))
(T (W xff xff xff xff xff xff xff xff)
(L (W x41 x2f xc8 xc9 x03 x8c xa0 xbc))
(L (W x00 x00 x00 x00 x00 x00 x00 x00))))
(T (W x00 x00 x00 x00 x00 x00 x00 x00)
(T (W x00 x00 x00 x00 x00 x00 x00 x00)
(L (W x6b x65 x5f x77 x61 x72 x6c x69))
(L (W x00 x00 x00 x00 x00 x00 x00 x00)))
(T (W x00 x00 x00 x00 x00 x00 x00 x00)
(L (W xff xff xff xff xff xff xff xff))
(L (W x18 x00 x00 x00 x10 x00 x00 x00)))))))))))
(T (W x08 x9c x02 x00 xcc x9a x02 x00)
(T (W x58 xf3 x01 x00 xac xee x01 x00)
(T (W x90 x85 x00 x00 x5c x84 x00 x00)
(T (W x00 x00 x80 x3f x00 x00 x80 x3f)
(T (W xff xff xff xff xff xff xff xff)
(T (W x5f x77 x69 x6c x64 x5f x70 x6f)
(T (W x45 x26 x22 x84 xe4 x9c xf2 xcb)
(T (W x00 x00 x80 x3f x00 x00 x80 x3f)
(T (W x8a xa0 xfe xff x00 x00 x01 x01)
(T (W xe4 x8a xfd xff x1c x00 x00 x00)
(L (W x00 x00 x80 xbf x00 x00 x80 xbf)) E)
(L (W x50 x00 x00 x00 x44 x00 x00 x00)))
(T (W xb0 x00 x00 x00 x64 x00 x00 x00)
(L (W xff xff xff xff xff xff xff xff))
(L (W xff xff xff xff xff xff xff xff))))
(T (W x00 x00 x00 x00 x00 x00 x00 x00)
(T (W x03 x00 x00 x00 xcc x00 x00 x00)
(T (W x00 x00 x80 x3f x00 x00 x80 x3f)
(L (W x24 x01 x00 x00 x04 x00 x00 x00)) E)
(L (W x00 x00 x00 x00 x00 x00 x00 x00)))
(T (W xc8 x00 x00 x00 x01 x00 x00 x00)
(L (W xff xff xff xff xbc x00 x00 x00))
(L (W xff xff xff xff xff xff xff xff)))))
(T (W xff xff xff xff xff xff xff xff)
(T (W x50 x00 x00 x00 x44 x00 x00 x00)
(T (W x01 x00 x00 x00 x3e x00 x00 x00)
(T (W xff xff xff xff xff xff xff xff)
(L (W x4f x84 x6f x8b xe8 xcb x63 xb7)) E)
(L (W x00 x00 x00 x00 x12 x00 x00 x00)))
(T (W x00 x00 x00 x00 x00 x00 x00 x00)
(L (W x18 x00 x00 x00 x0c x00 x00 x00))
(L (W x00 x00 x00 x00 x00 x00 x00 x00))))
(T (W x00 x00 x00 x00 x00 x00 x00 x00)
(T (W x00 x00 x80 x3f x00 x00 x80 x3f)
(T (W xff xff xff xff xff xff xff xff)
(L (W x45 x26 x22 x84 xe4 x9c xf2 xcb)) E)
(L (W xff xff xff xff xb0 x00 x00 x00)))
(T (W x00 x00 x80 x3f x00 x00 x80 x3f)
(L (W xb8 x00 x00 x00 x64 x00 x00 x00))
(L (W x00 x00 x00 x00 x00 x00 x00 x00))))))
(T (W xff xff xff xff xff xff xff xff)
(T (W x54 xd7 xfb xff x00 x01 x01 x01)
(T (W x00 x00 x80 x3f x00 x00 x80 x3f)
(T (W xff xff xff xff xff xff xff xff)
(T (W x1c x00 x00 x00 x10 x00 x00 x00)
(L (W x49 xa1 x68 x4a xeb x5f xdd x3d)) E)
(L (W x50 x00 x00 x00 x44 x00 x00 x00)))
(T (W x4b x00 x00 x00 xff xff xff xff)
(L (W xff xff xff xff xff xff xff xff))
(L (W x00 x00 x00 x00 x00 x00 x00 x00))))
(T (W x00 x00 x00 x00 x00 x00 x00 x00)
(T (W x2c x00 x00 x00 x10 x00 x00 x00)
(T (W xff xff xff xff xff xff xff xff)
(L (W xff xff xff xff xff xff xff xff)) E)
(L (W x54 x00 x00 x00 x48 x00 x00 x00)))
(T (W xff xff xff xff xff xff xff xff)
(L (W x14 x00 x00 x00 x0c x00 x00 x00))
(L (W xff xff xff xff xff xff xff xff)))))
(T (W x18 x00 x00 x00 x0c x00 x00 x00)
(T (W x00 x00 x80 x3f x00 x00 x80 x3f)
(T (W x8a xd0 xfe xff x00 x00 x01 x01)
(T (W xb8 x00 x00 x00 xac x00 x00 x00)
(L (W x18 x00 x00 x00 x0c x00 x00 x00)) E)
(L (W x00 x00 x00 x00 x00 x00 x00 x00)))
(T (W x00 x00 x80 x3f x00 x00 x80 x3f)
(L (W xff xff xff xff xff xff xff xff))
(L (W x00 x00 x00 x00 x00 x00 x00 x00))))
(T (W x00 x00 x00 x00 x00 x00 x00 x00)
(T (W x18 x00 x00 x00 x10 x00 x00 x00)
(T (W x00 x00 x80 x3f x00 x00 x80 x3f)
(L (W xff xff xff xff xff xff xff xff)) E)
(L (W x03 x00 x00 x00 xd8 x00 x00 x00)))
(T (W x18 x00 x00 x00 x10 x00 x00 x00)
(L (W xb8 x00 x00 x00 x3c x00 x00 x00))
(L (W x00 x00 x00 x00 x00 x00 x00 x00)))))))
(T (W xff xff xff xff xff xff xff xff)
(T (W x8a xaa xfb xff x74 x00 x00 x00)
(T (W x68 x00 x00 x00 x5c x00 x00 x00)
(T (W x00 x00 x80 x3f x00 x00 x80 x3f)
(T (W xff xff xff xff xff xff xff xff)
(T (W x00 x00 x00 x00 x00 x00 x00 x00)
(L (W x00 x00 x80 xbf x00 x00 x80 xbf)) E)
(L (W x00 x00 x80 xbf x00 x00 x80 xbf)))
(T (W xff xff xff xff xff xff xff xff)
(L (W x54 x00 x00 x00 x48 x00 x00 x00))
(L (W x00 x00 x00 x00 x6a x0b xff xff))))
(T (W x00 x00 x00 x00 x00 x00 x00 x00)
(T (W xff xff xff xff xff xff xff xff)
(T (W xff xff xff xff x03 x00 x00 x00)
(L (W xff xff xff xff xff xff xff xff)) E)
(L (W x45 x26 x22 x84 xe4 x9c xf2 xcb)))
(T (W xff xff xff xff xff xff xff xff)
(L (W xff xff xff xff xff xff xff xff))
(L (W xff xff xff xff xff xff xff xff)))))
(T (W x45 x26 x22 x84 xe4 x9c xf2 xcb)
(T (W x00 x00 x80 x3f x00 x00 x80 x3f)
(T (W x37 x00 x00 x00 xff xff xff xff)
(T (W xff xff xff xff xff xff xff xff)
(L (W xff xff xff xff xff xff xff xff)) E)
(L (W x00 x00 x00 x00 x00 x00 x00 x00)))
(T (W x00 x00 x00 x00 x00 x00 x00 x00)
(L (W x23 x00 x00 x00 x10 x00 x00 x00))
(L (W x00 x00 x00 x00 x00 x00 x00 x00))))
(T (W x00 x00 x00 x00 x00 x00 x00 x00)
(T (W x00 x00 x80 x3f x00 x00 x80 x3f)
(T (W x70 x5f x6c x65 x61 x64 x65 x72)
(L (W x22 xed xff xff xaf x01 x00 x00)) E)
(L (W xb4 x00 x00 x00 x64 x00 x00 x00)))
(T (W x45 x26 x22 x84 xe4 x9c xf2 xcb)
(L (W x18 x00 x00 x00 x1b x00 x00 x00))
(L (W x00 x00 x00 x00 x02 x00 x00 x00))))))
(T (W xff xff xff xff xff xff xff xff)
(T (W x0a x00 x00 x00 x3e x00 x00 x00)
(T (W x00 x00 x80 x3f x00 x00 x80 x3f)
(T (W xff xff xff xff xff xff xff xff)
(T (W x1a xb7 xff xff xa3 x01 x00 x00)
(L (W x00 x00 x80 xbf x00 x00 x80 xbf)) E)
(L (W x00 x00 x80 xbf x00 x00 x80 xbf)))
(T (W x2c x01 x00 x00 x04 x00 x00 x00)
(L (W xff xff xff xff xff xff xff xff))
(L (W x00 x00 x00 x00 x00 x00 x00 x00))))
(T (W x00 x00 x00 x00 x00 x00 x00 x00)
(T (W x00 x00 x00 x00 x00 x00 x00 x00)
(T (W xff xff xff xff xff xff xff xff)
(L (W xff xff xff xff xff xff xff xff)) E)
(L (W x00 x00 x80 xbf x00 x00 x80 xbf)))
(T (W x4c x45 x41 x52 x45 x44 x00 x00)
(L (W x1d x00 x00 x00 x20 x00 x00 x00))
(L (W xe4 x62 xff xff x16 x00 x00 x00)))))
(T (W x68 x00 x00 x00 x5c x00 x00 x00)
(T (W x45 x26 x22 x84 xe4 x9c xf2 xcb)
(T (W x3c x00 x40 x00 x44 x00 x48 x00)
(T (W x68 x00 x00 x00 x5c x00 x00 x00)
(L (W xff xff xff xff xff xff xff xff)) E)
(L (W x00 x00 x00 x00 x00 x00 x00 x00)))
(T (W x00 x00 x00 x00 xc4 x3d xfd xff)
(L (W xff xff xff xff xff xff xff xff))
(L (W xff xff xff xff xff xff xff xff))))
(T (W x3e x00 x00 x00 x10 x00 x00 x00)
(T (W xcc x00 x00 x00 x01 x00 x00 x00)
(T (W x45 x26 x22 x84 xe4 x9c xf2 xcb)
(L (W x40 x00 x44 x00 x48 x00 x4c x00)) E)
(L (W xff xff xff xff xff xff xff xff)))
(T (W xff xff xff xff xff xff xff xff)
(L (W x00 x00 x00 x00 x58 x7f xfe xff))
(L (W x00 x00 x80 xbf x00 x00 x80 xbf))))))))
(T (W x6b x65 x5f x6c x76 x31 x5f x66)
(T (W xff xff xff xff xff xff xff xff)
(T (W xd0 x00 x00 x00 xac x00 x00 x00)
(T (W x00 x00 x00 x00 x00 x00 x00 x00)
(T (W xe3 xbd x4c x36 x7a x14 x19 x70)
(T (W x54 x8b xfc xff x00 x01 x01 x01)
(T (W x64 x00 x00 x00 x9c x00 x00 x00)
(L (W xff xff xff xff xff xff xff xff)) E)
(L (W xff xff xff xff xff xff xff xff)))
(T (W x00 x00 x00 x00 x00 x00 x00 x00)
(L (W xff xff xff xff xd8 x00 x00 x00))
(L (W x45 x26 x22 x84 xe4 x9c xf2 xcb))))
(T (W xff xff xff xff xff xff xff xff)
(T (W x00 x00 x00 x00 x00 x00 x00 x00)
(T (W x00 x00 x00 x00 x00 x00 x00 x00)
(L (W x45 x26 x22 x84 xe4 x9c xf2 xcb)) E)
(L (W xff xff xff xff xff xff xff xff)))
(T (W x00 x00 x00 x00 x00 x00 x00 x00)
(L (W x00 x00 x00 x00 x00 x00 x00 x00))
(L (W x4f x84 x6f x8b xe8 xcb x63 xb7)))))
(T (W x3c xff xfb xff x1f x00 x00 x00)
(T (W xff xff xff xff xff xff xff xff)
(T (W x00 x00 x80 x3f x00 x00 x80 x3f)
(T (W x45 x26 x22 x84 xe4 x9c xf2 xcb)
(L (W xff xff xff xff xff xff xff xff)) E)
(L (W x3a xa8 xfe xff x78 x00 x00 x00)))
(T (W xff xff xff xff xff xff xff xff)
(L (W x00 x00 x80 xbf x00 x00 x80 xbf))
(L (W xc4 x00 x00 x00 x01 x00 x00 x00))))
(T (W x8a x66 xfc xff x74 x00 x00 x00)
(T (W xff xff xff xff xff xff xff xff)
(T (W x6c x64 x5f x70 x6f x6b x65 x5f)
(L (W xb4 x00 x00 x00 x64 x00 x00 x00)) E)
(L (W x00 x00 x00 x00 x00 x00 x00 x00)))
(T (W xff xff xff xff xff xff xff xff)
(L (W x30 x33 x5f x43 x4c x45 x41 x52))
(L (W x1c x00 x00 x00 x10 x00 x00 x00))))))
(T (W x00 x00 x00 x00 x00 x00 x00 x00)
(T (W x00 x00 x00 x00 x00 x00 x00 x00)
(T (W x8a x34 xfe xff x00 x00 x01 x01)
(T (W x00 x00 x80 x3f x00 x00 x80 x3f)
(T (W x00 x00 x80 x3f x00 x00 x80 x3f)
(L (W xff xff xff xff xff xff xff xff)) E)
(L (W xff xff xff xff xff xff xff xff)))
(T (W x54 x00 x00 x00 x48 x00 x00 x00)
(L (W x00 x00 x00 x00 x00 x00 x00 x00))
(L (W xff xff xff xff xff xff xff xff))))
(T (W xff xff xff xff xff xff xff xff)
(T (W x45 x26 x22 x84 xe4 x9c xf2 xcb)
(T (W x00 x00 x80 x3f x00 x00 x80 x3f)
(L (W x45 x26 x22 x84 xe4 x9c xf2 xcb)) E)
(L (W xff xff xff xff xff xff xff xff)))
(T (W x6c x00 x00 x00 x60 x00 x00 x00)
(L (W x4f x84 x6f x8b xe8 xcb x63 xb7))
(L (W x54 x5b xff xff x00 x01 x01 x01)))))
(T (W x00 x00 x00 x00 x00 x00 x00 x00)
(T (W xff xff xff xff xff xff xff xff)
(T (W x00 x00 x00 x00 x00 x00 x00 x00)
(T (W x00 x00 x80 x3f x00 x00 x80 x3f)
(L (W x00 x00 x00 x00 x00 x00 x00 x00)) E)
(L (W x18 x00 x00 x00 x0c x00 x00 x00)))
(T (W x9c x01 x00 x00 xff xff xff xff)
(L (W x00 x00 x80 xbf x00 x00 x80 xbf))
(L (W x49 xa1 x68 x4a xeb x5f xdd x3d))))
(T (W x68 x00 x00 x00 x5c x00 x00 x00)
(T (W x00 x00 x00 x00 x00 x00 x00 x00)
(T (W xe9 x37 x22 x4b xf1 xef xc6 x32)
(L (W x00 x00 x00 x00 x60 x00 x64 x00)) E)
(L (W x00 x00 x00 x00 x00 x00 x00 x00)))
(T (W x00 x00 x00 x00 x00 x00 x00 x00)
(L (W x00 x00 x00 x00 x12 x00 x00 x00))
(L (W x00 x00 x80 xbf x00 x00 x80 xbf)))))))
(T (W x2a x00 x00 x00 x67 x72 x6f x75)
(T (W x00 x00 x00 x00 x00 x00 x00 x00)
(T (W x00 x00 x00 x00 x00 x00 x00 x00)
(T (W x6c x01 x00 x00 xff xff xff xff)
(T (W x00 x00 x80 x3f x00 x00 x80 x3f)
(T (W x18 x00 x00 x00 x0c x00 x00 x00)
(L (W xff xff xff xff xff xff xff xff)) E)
(L (W x34 x01 x00 x00 x04 x00 x00 x00)))
(T (W x00 x00 x80 x3f x00 x00 x80 x3f)
(L (W xff xff xff xff xff xff xff xff))
(L (W x8a x0e xff xff x74 x00 x00 x00))))
(T (W xff xff xff xff x03 x00 x00 x00)
(T (W x00 x00 x80 x3f x00 x00 x80 x3f)
(T (W x45 x26 x22 x84 xe4 x9c xf2 xcb)
(L (W x4f x84 x6f x8b xe8 xcb x63 xb7)) E)
(L (W xff xff xff xff xff xff xff xff)))
(T (W x00 x00 x80 x3f x00 x00 x80 x3f)
(L (W x45 x26 x22 x84 xe4 x9c xf2 xcb))
(L (W x00 x00 x80 xbf x00 x00 x80 xbf)))))
(T (W x00 x00 x00 x00 x00 x00 x00 x00)
(T (W xff xff xff xff xff xff xff xff)
(T (W x00 x00 x80 x3f x00 x00 x80 x3f)
(T (W x00 x00 x00 x00 x00 x00 x00 x00)
(L (W x4c x45 x41 x52 x45 x44 x00 x00)) E)
(L (W x18 x00 x00 x00 x10 x00 x00 x00)))
(T (W xff xff xff xff xff xff xff xff)
(L (W xe4 x36 xfe xff x23 x00 x00 x00))
(L (W xc0 x31 xff xff xea x34 xff xff))))
(T (W x00 x00 x80 x3f x00 x00 x80 x3f)
(T (W x00 x00 x00 x00 x00 x00 x00 x00)
(T (W x18 x00 x00 x00 x10 x00 x00 x00)
(L (W x50 x00 x00 x00 x44 x00 x00 x00)) E)
(L (W x00 x00 x80 xbf x00 x00 x80 xbf)))
(T (W x00 x00 x00 x00 x00 x00 x00 x00)
(L (W x00 x00 x00 x00 x00 x00 x00 x00))
(L (W x8a x6e xff xff x74 x00 x00 x00))))))
(T (W x00 x00 x00 x00 x00 x00 x00 x00)
(T (W x00 x00 x00 x00 x00 x00 x00 x00)
(T (W xff xff xff xff xff xff xff xff)
(T (W x00 x00 x80 x3f x00 x00 x80 x3f)
(T (W x00 x00 x80 x3f x00 x00 x80 x3f)
(L (W xff xff xff xff xff xff xff xff)) E)
(L (W x68 x00 x00 x00 x5c x00 x00 x00)))
(T (W x68 x00 x00 x00 x5c x00 x00 x00)
(L (W xff xff xff xff xff xff xff xff))
(L (W xff xff xff xff x94 x00 x00 x00))))
(T (W x18 x00 x00 x00 x0c x00 x00 x00)
(T (W xff xff xff xff xff xff xff xff)
(T (W x00 x00 x00 x00 x00 x00 x00 x00)
(L (W x00 x00 x00 x00 x12 x00 x00 x00)) E)
(L (W x30 x33 x5f x43 x4c x45 x41 x52)))
(T (W x45 x26 x22 x84 xe4 x9c xf2 xcb)
(L (W x00 x00 x00 x00 x00 x00 x00 x00))
(L (W x00 x00 x00 x00 xc4 x61 xff xff)))))
(T (W x00 x00 x00 x00 x00 x00 x00 x00)
(T (W xff xff xff xff xff xff xff xff)
(T (W x46 x53 x59 x53 x5f x4e x53 x5f)
(T (W x00 x00 x01 x01 xd3 x00 x00 x00)
(L (W x00 x00 x00 x00 x00 x00 x00 x00)) E)
(L (W xff xff xff xff xff xff xff xff)))
(T (W x12 x00 x00 x00 x46 x53 x59 x53)
(L (W x45 x26 x22 x84 xe4 x9c xf2 xcb))
(L (W x00 x00 x80 xbf x00 x00 x80 xbf))))
(T (W x8a x7e xfc xff x74 x00 x00 x00)
(T (W x00 x00 x00 x00 x00 x00 x00 x00)
(T (W xff xff xff xff x9c x00 x00 x00)
(L (W x54 x00 x00 x00 x48 x00 x00 x00)) E)
(L (W x00 x00 x80 xbf x00 x00 x80 xbf)))
(T (W x00 x00 x80 x3f x00 x00 x80 x3f)
(L (W x00 x00 x00 x00 x00 x00 x00 x00))
(L (W xff xff xff xff xff xff xff xff)))))))))
(T (W x00 x00 x00 x00 x00 x00 x00 x00)
(T (W x18 x00 x00 x00 x0c x00 x00 x00)
(T (W x45 x26 x22 x84 xe4 x9c xf2 xcb)
(T (W x00 x00 x80 x3f x00 x00 x80 x3f)
(T (W x8a xe2 xfd xff x00 x00 x01 x01)
(T (W xff xff xff xff xff xff xff xff)
(T (W x45 x26 x22 x84 xe4 x9c xf2 xcb)
(T (W x00 x00 x00 x00 x00 x00 x00 x00)
(L (W x03 x00 x00 x00 xc8 x00 x00 x00)) E)
(L (W xff xff xff xff xff xff xff xff)))
(T (W x45 x44 x00 x00 x00 x00 x00 x00)
(L (W x00 x00 x80 x3f x00 x00 x80 x3f))
(L (W x00 x00 x00 x00 x00 x00 x00 x00))))
(T (W x54 x49 xfc xff x00 x01 x01 x01)
(T (W x02 x00 x00 x00 x2c x01 x00 x00)
(T (W x00 x00 x00 x00 xc4 xc7 xfd xff)
(L (W x00 x00 x00 x00 x00 x00 x00 x00)) E)
(L (W x45 x26 x22 x84 xe4 x9c xf2 xcb)))
(T (W x02 x00 x00 x00 xff xff xff xff)
(L (W x00 x00 x00 x00 x00 x00 x00 x00))
(L (W x00 x00 x00 x00 x00 x00 x00 x00)))))
(T (W xff xff xff xff xff xff xff xff)
(T (W x18 x00 x00 x00 x0c x00 x00 x00)
(T (W x00 x00 x00 x00 x00 x00 x00 x00)
(T (W x00 x00 x00 x00 x00 x00 x00 x00)
(L (W x18 x00 x00 x00 x0c x00 x00 x00)) E)
(L (W x00 x00 x80 xbf x00 x00 x80 xbf)))
(T (W x00 x00 x80 x3f x00 x00 x80 x3f)
(L (W x00 x00 x00 x00 x01 x00 x00 x00))
(L (W x00 x00 x80 xbf x00 x00 x80 xbf))))
(T (W x00 x00 x80 x3f x00 x00 x80 x3f)
(T (W xff xff xff xff xc4 x00 x00 x00)
(T (W x45 x26 x22 x84 xe4 x9c xf2 xcb)
(L (W x68 x00 x00 x00 x5c x00 x00 x00)) E)
(L (W xff xff xff xff xff xff xff xff)))
(T (W x68 x00 x00 x00 x5c x00 x00 x00)
(L (W xff xff xff xff xff xff xff xff))
(L (W x49 xa1 x68 x4a xeb x5f xdd x3d))))))
(T (W xff xff xff xff xff xff xff xff)
(T (W xff xff xff xff xff xff xff xff)
(T (W x45 x26 x22 x84 xe4 x9c xf2 xcb)
(T (W x00 x00 x00 x00 x00 x00 x00 x00)
(T (W x00 x00 x00 x00 x00 x00 x00 x00)
(L (W xff xff xff xff xb0 x00 x00 x00)) E)
(L (W xb0 x00 x00 x00 x3c x00 x00 x00)))
(T (W x00 x00 x00 x00 x12 x00 x00 x00)
(L (W x00 x00 x00 x00 x00 x00 x00 x00))
(L (W x00 x00 x80 xbf x00 x00 x80 xbf))))
(T (W x00 x00 x80 x3f x00 x00 x80 x3f)
(T (W x45 x26 x22 x84 xe4 x9c xf2 xcb)
(T (W x1a xf1 xff xff xb8 x01 x00 x00)
(L (W x00 x00 x00 x00 x00 x00 x00 x00)) E)
(L (W xc4 x00 x00 x00 x02 x00 x00 x00)))
(T (W x00 x00 x00 x00 x00 x00 x00 x00)
(L (W x45 x44 x00 x00 x00 x00 x00 x00))
(L (W x00 x00 x00 x00 x00 x00 x00 x00)))))
(T (W xff xff xff xff xff xff xff xff)
(T (W xc0 x00 x00 x00 xb4 x00 x00 x00)
(T (W x00 x00 x80 x3f x00 x00 x80 x3f)
(T (W xff xff xff xff xff xff xff xff)
(L (W xff xff xff xff xff xff xff xff)) E)
(L (W x00 x00 x80 xbf x00 x00 x80 xbf)))
(T (W x03 x00 x00 x00 xd4 x00 x00 x00)
(L (W x45 x44 x00 x00 x00 x00 x00 x00))
(L (W x00 x00 x00 x00 x12 x00 x00 x00))))
(T (W x00 x00 x80 x3f x00 x00 x80 x3f)
(T (W xff xff xff xff xff xff xff xff)
(T (W x00 x00 x00 x00 x00 x00 x00 x00)
(L (W x22 x00 x00 x00 x10 x00 x00 x00)) E)
(L (W xff xff xff xff xff xff xff xff)))
(T (W x00 x00 x00 x00 x00 x00 x00 x00)
(L (W xff xff xff xff xff xff xff xff))
(L (W x49 xa1 x68 x4a xeb x5f xdd x3d)))))))
(T (W x00 x00 x80 x3f x00 x00 x80 x3f)
(T (W xc4 x01 x00 x00 xff xff xff xff)
(T (W xff xff xff xff xff xff xff xff)
(T (W xb8 x00 x00 x00 xac x00 x00 x00)
(T (W x00 x00 x00 x00 x00 x00 x00 x00)
(T (W x00 x00 x80 x3f x00 x00 x80 x3f)
(L (W x00 x00 x00 x00 xc4 x8f xff xff)) E)
(L (W x1c x00 x00 x00 x10 x00 x00 x00)))
(T (W xe4 x14 xfd xff x15 x00 x00 x00)
(L (W xcc x00 x00 x00 x01 x00 x00 x00))
(L (W x4f x84 x6f x8b xe8 xcb x63 xb7))))
(T (W x00 x00 x80 x3f x00 x00 x80 x3f)
(T (W x00 x00 x00 x00 x00 x00 x00 x00)
(T (W x64 x5f x6c x76 x31 x00 x00 x00)
(L (W x30 x33 x5f x43 x4c x45 x41 x52)) E)
(L (W x1f x00 x00 x00 x22 x00 x00 x00)))
(T (W x5f x4e x53 x5f x30 x33 x5f x43)
(L (W x00 x00 x00 x00 x00 x00 x00 x00))
(L (W x00 x00 x00 x00 x00 x00 x00 x00)))))
(T (W xff xff xff xff xff xff xff xff)
(T (W x0a x00 x00 x00 x3e x00 x00 x00)
(T (W x45 x26 x22 x84 xe4 x9c xf2 xcb)
(T (W x1a xc9 xff xff x6c x01 x00 x00)
(L (W xff xff xff xff xff xff xff xff)) E)
(L (W x00 x00 x80 xbf x00 x00 x80 xbf)))
(T (W x45 x26 x22 x84 xe4 x9c xf2 xcb)
(L (W x00 x00 x80 xbf x00 x00 x80 xbf))
(L (W x45 x26 x22 x84 xe4 x9c xf2 xcb))))
(T (W x00 x00 x80 x3f x00 x00 x80 x3f)
(T (W xff xff xff xff xff xff xff xff)
(T (W x02 x00 x00 x00 xff xff xff xff)
(L (W x00 x00 x00 x00 x00 x00 x00 x00)) E)
(L (W xff xff xff xff xff xff xff xff)))
(T (W xff xff xff xff xff xff xff xff)
(L (W xff xff xff xff xff xff xff xff))
(L (W x00 x00 x00 x00 x00 x00 x00 x00))))))
(T (W xff xff xff xff xff xff xff xff)
(T (W xff xff xff xff xff xff xff xff)
(T (W x68 x00 x00 x00 x5c x00 x00 x00)
(T (W x40 x00 x00 x00 x10 x00 x00 x00)
(T (W x00 x00 x00 x00 x00 x00 x00 x00)
(L (W x50 x00 x00 x00 x44 x00 x00 x00)) E)
(L (W xff xff xff xff xff xff xff xff)))
(T (W x00 x00 x00 x00 x00 x00 x00 x00)
(L (W x00 x00 x00 x00 x00 x00 x00 x00))
(L (W x00 x00 x80 xbf x00 x00 x80 xbf))))
(T (W x45 x26 x22 x84 xe4 x9c xf2 xcb)
(T (W x6c x00 x00 x00 x60 x00 x00 x00)
(T (W xe4 xe4 xfd xff x19 x00 x00 x00)
(L (W xa8 x01 x00 x00 xff xff xff xff)) E)
(L (W xff xff xff xff xff xff xff xff)))
(T (W x49 xa1 x68 x4a xeb x5f xdd x3d)
(L (W xff xff xff xff xff xff xff xff))
(L (W x00 x00 x80 xbf x00 x00 x80 xbf)))))
(T (W xff xff xff xff xff xff xff xff)
(T (W x8a x3c xfc xff x74 x00 x00 x00)
(T (W xff xff xff xff xff xff xff xff)
(T (W xff xff xff xff xff xff xff xff)
(L (W x00 x00 x00 x00 x00 x00 x00 x00)) E)
(L (W x00 x00 x80 xbf x00 x00 x80 xbf)))
(T (W xff xff xff xff xff xff xff xff)
(L (W x20 x00 x00 x00 x10 x00 x00 x00))
(L (W x00 x00 x00 x00 x00 x00 x00 x00))))
(T (W x00 x00 x00 x00 x00 x00 x00 x00)
(T (W xff xff xff xff xff xff xff xff)
(T (W x00 x00 x80 x3f x00 x00 x80 x3f)
(L (W xff xff xff xff xff xff xff xff)) E)
(L (W x00 x00 x00 x00 x00 x00 x00 x00)))
(T (W xe4 x84 xfd xff x1e x00 x00 x00)
(L (W xff xff xff xff xff xff xff xff))
(L (W x45 x26 x22 x84 xe4 x9c xf2 xcb))))))))
(T (W x01 x00 x00 x00 x3e x00 x00 x00)
(T (W x6b x65 x5f x77 x61 x72 x6c x69)
(T (W x00 x00 x00 x00 x00 x00 x00 x00)
(T (W x00 x00 x80 x3f x00 x00 x80 x3f)
(T (W x45 x26 x22 x84 xe4 x9c xf2 xcb)
(T (W xb8 x00 x00 x00 xac x00 x00 x00)
(T (W xff xff xff xff xff xff xff xff)
(L (W xe4 x90 xff xff x28 x00 x00 x00)) E)
(L (W x00 x00 x00 x00 x00 x00 x00 x00)))
(T (W x45 x26 x22 x84 xe4 x9c xf2 xcb)
(L (W x46 x53 x59 x53 x5f x4e x53 x5f))
(L (W xff xff xff xff x9c x00 x00 x00))))
(T (W x00 x00 x00 x00 x00 x00 x00 x00)
(T (W x8a xc8 xfc xff x74 x00 x00 x00)
(T (W x50 x00 x00 x00 x44 x00 x00 x00)
(L (W xff xff xff xff xb4 x00 x00 x00)) E)
(L (W x00 x00 x00 x00 x4a xd9 xfe xff)))
(T (W x3a x4a xfd xff x78 x00 x00 x00)
(L (W x3c x00 x00 x00 x00 x00 x80 xbf))
(L (W x18 x00 x00 x00 x0c x00 x00 x00)))))
(T (W x00 x00 x80 x3f x00 x00 x80 x3f)
(T (W x00 x00 x00 x00 x00 x00 x00 x00)
(T (W xb8 x00 x00 x00 xac x00 x00 x00)
(T (W x50 x00 x00 x00 x44 x00 x00 x00)
(L (W x00 x00 x00 x00 x00 x00 x00 x00)) E)
(L (W x02 xc1 xfe xff xaa x01 x00 x00)))
(T (W x00 x00 x00 x00 xe2 x33 xfd xff)
(L (W x03 x00 x00 x00 xbc x00 x00 x00))
(L (W xff xff xff xff xff xff xff xff))))
(T (W xff xff xff xff xff xff xff xff)
(T (W x4f x84 x6f x8b xe8 xcb x63 xb7)
(T (W x00 x00 x80 xbf x00 x00 x80 xbf)
(L (W x00 x00 x80 xbf x00 x00 x80 xbf)) E)
(L (W x68 x00 x00 x00 x5c x00 x00 x00)))
(T (W x00 x00 x00 x00 x00 x00 x00 x00)
(L (W x00 x00 x80 xbf x00 x00 x80 xbf))
(L (W x03 x00 x00 x00 xd0 x00 x00 x00))))))
(T (W x54 x00 x00 x00 x48 x00 x00 x00)
(T (W x00 x00 x80 x3f x00 x00 x80 x3f)
(T (W x00 x00 x00 x00 x00 x00 x00 x00)
(T (W xff xff xff xff x03 x00 x00 x00)
(T (W xff xff xff xff xff xff xff xff)
(L (W x00 x00 x00 x00 x00 x00 x00 x00)) E)
(L (W x00 x00 x00 x00 x00 x00 x00 x00)))
(T (W xc4 x00 x00 x00 x01 x00 x00 x00)
(L (W x50 x00 x00 x00 x44 x00 x00 x00))
(L (W x00 x00 x00 x00 x00 x00 x00 x00))))
(T (W x48 x03 x00 x00 x34 x02 x00 x00)
(T (W xff xff xff xff xff xff xff xff)
(T (W x01 x00 x00 x00 x9c x00 x00 x00)
(L (W x00 x00 x80 xbf x00 x00 x80 xbf)) E)
(L (W x00 x00 x00 x00 x00 x00 x00 x00)))
(T (W xff xff xff xff xbc x00 x00 x00)
(L (W x5c x00 x00 x00 x50 x00 x00 x00))
(L (W xff xff xff xff xff xff xff xff)))))
(T (W x00 x00 x00 x00 x00 x00 x00 x00)
(T (W x28 x15 x2b x0c xd2 x17 xed x4d)
(T (W x45 x26 x22 x84 xe4 x9c xf2 xcb)
(T (W x6b x65 x5f x77 x61 x72 x6c x69)
(L (W x45 x26 x22 x84 xe4 x9c xf2 xcb)) E)
(L (W x2c x01 x00 x00 x04 x00 x00 x00)))
(T (W x00 x00 x00 x00 x00 x00 x00 x00)
(L (W x5c x00 x00 x00 x50 x00 x00 x00))
(L (W xc4 x00 x00 x00 x01 x00 x00 x00))))
(T (W xff xff xff xff x04 x00 x00 x00)
(T (W x00 x00 x80 x3f x00 x00 x80 x3f)
(T (W x04 x00 x00 x00 xca xe7 xff xff)
(L (W x34 x00 x38 x00 x2a x00 x00 x00)) E)
(L (W x18 x00 x00 x00 x10 x00 x00 x00)))
(T (W x54 x7d xfd xff x00 x01 x01 x01)
(L (W x49 xa1 x68 x4a xeb x5f xdd x3d))
(L (W x2c x00 x30 x00 x34 x00 x38 x00)))))))
(T (W x50 x00 x00 x00 x44 x00 x00 x00)
(T (W x00 x00 x80 x3f x00 x00 x80 x3f)
(T (W x00 x00 x80 x3f x00 x00 x80 x3f)
(T (W x45 x26 x22 x84 xe4 x9c xf2 xcb)
(T (W xc0 x00 x00 x00 xb4 x00 x00 x00)
(T (W xff xff xff xff xff xff xff xff)
(L (W x46 x53 x59 x53 x5f x4e x53 x5f)) E)
(L (W x45 x26 x22 x84 xe4 x9c xf2 xcb)))
(T (W x00 x00 x00 x00 xc4 x13 xfd xff)
(L (W x00 x00 x00 x00 x00 x00 x00 x00))
(L (W x90 x01 x00 x00 xff xff xff xff))))
(T (W x00 x00 x00 x00 x00 x00 x00 x00)
(T (W xff xff xff xff xff xff xff xff)
(T (W x50 x00 x00 x00 x44 x00 x00 x00)
(L (W x54 x00 x00 x00 x48 x00 x00 x00)) E)
(L (W x4c x45 x41 x52 x45 x44 x00 x00)))
(T (W x1f x00 x00 x00 x22 x00 x00 x00)
(L (W x40 x00 x00 x00 x00 x00 x80 xbf))
(L (W x45 x26 x22 x84 xe4 x9c xf2 xcb)))))
(T (W x45 x26 x22 x84 xe4 x9c xf2 xcb)
(T (W x00 x00 x00 x00 x00 x00 x00 x00)
(T (W x45 x26 x22 x84 xe4 x9c xf2 xcb)
(T (W x00 x00 x80 x3f x00 x00 x80 x3f)
(L (W x00 x00 x80 xbf x00 x00 x80 xbf)) E)
(L (W xff xff xff xff xff xff xff xff)))
(T (W x00 x00 x00 x00 x00 x00 x00 x00)
(L (W x00 x00 x80 xbf x00 x00 x80 xbf))
(L (W xb0 x00 x00 x00 x64 x00 x00 x00))))
(T (W xff xff xff xff xff xff xff xff)
(T (W x00 x00 x00 x00 x00 x00 x00 x00)
(T (W x49 xa1 x68 x4a xeb x5f xdd x3d)
(L (W x00 x00 x00 x00 x00 x00 x00 x00)) E)
(L (W x3a xf2 xfe xff x78 x00 x00 x00)))
(T (W x00 x00 x80 x3f x00 x00 x80 x3f)
(L (W x45 x26 x22 x84 xe4 x9c xf2 xcb))
(L (W xff xff xff xff xff xff xff xff))))))
(T (W x00 x00 x80 x3f x00 x00 x80 x3f)
(T (W x00 x00 x80 x3f x00 x00 x80 x3f)
(T (W x00 x00 x00 x00 x00 x00 x00 x00)
(T (W x62 x00 x00 x00 x3b x00 x00 x00)
(T (W xb8 x00 x00 x00 xac x00 x00 x00)
(L (W x30 x33 x5f x43 x4c x45 x41 x52)) E)
(L (W xaa x01 x00 x00 xff xff xff xff)))
(T (W xff xff xff xff xff xff xff xff)
(L (W x00 x00 x00 x00 x00 x00 x00 x00))
(L (W xff xff xff xff xff xff xff xff))))
(T (W xff xff xff xff xff xff xff xff)
(T (W x00 x00 x00 x00 x00 x00 x00 x00)
(T (W x1c x00 x20 x00 x24 x00 x28 x00)
(L (W xff xff xff xff xff xff xff xff)) E)
(L (W x00 x00 x80 xbf x00 x00 x80 xbf)))
(T (W x04 x00 x00 x00 x7c x03 x00 x00)
(L (W x50 x00 x00 x00 x44 x00 x00 x00))
(L (W xff xff xff xff xff xff xff xff)))))
(T (W x00 x00 x00 x00 x00 x00 x00 x00)
(T (W x1a x5d xfe xff xaf x00 x00 x00)
(T (W x00 x00 x80 x3f x00 x00 x80 x3f)
(T (W x00 x00 x00 x00 x00 x00 x00 x00)
(L (W x5c x00 x00 x00 x50 x00 x00 x00)) E)
(L (W x00 x00 x00 x00 x6a xc1 xfe xff)))
(T (W x00 x00 x80 x3f x00 x00 x80 x3f)
(L (W x00 x00 x80 xbf x00 x00 x80 xbf))
(L (W x8a x40 xff xff x74 x00 x00 x00))))
(T (W x18 x00 x00 x00 x10 x00 x00 x00)
(T (W x68 x00 x00 x00 x5c x00 x00 x00)
(T (W x00 x00 x00 x00 x00 x00 x00 x00)
(L (W x00 x00 x00 x00 x00 x00 x00 x00)) E)
(L (W x18 x00 x00 x00 x0c x00 x00 x00)))
(T (W xb8 x00 x00 x00 xac x00 x00 x00)
(L (W x00 x00 x00 x00 x00 x00 x00 x00))
(L (W x30 x33 x5f x43 x4c x45 x41 x52))))))))))
(T (W x30 x18 x01 x00 xf4 x16 x01 x00)
(T (W x04 x00 x00 x00 x9a xa8 xfd xff)
(T (W x54 x90 xfb xff x00 x01 x01 x01)
(T (W x66 x69 x73 x68 x5f x76 x61 x6e)
(T (W x45 x26 x22 x84 xe4 x9c xf2 xcb)
(T (W xff xff xff xff xff xff xff xff)
(T (W x45 x26 x22 x84 xe4 x9c xf2 xcb)
(T (W x00 x00 x00 x00 x00 x00 x00 x00)
(T (W x00 x00 x00 x00 x00 x00 x00 x00)
(L (W x50 x00 x00 x00 x44 x00 x00 x00)) E)
(L (W x03 x00 x00 x00 xc8 x00 x00 x00)))
(T (W xff xff xff xff xff xff xff xff)
(L (W x61 x64 x65 x72 x5f x77 x69 x6c))
(L (W x49 x00 x00 x00 xff xff xff xff))))
(T (W x00 x00 x80 x3f x00 x00 x80 x3f)
(T (W xff xff xff xff xff xff xff xff)
(T (W x8a xc3 xfd xff x74 x00 x00 x00)
(L (W x30 x33 x5f x43 x4c x45 x41 x52)) E)
(L (W x00 x00 x80 xbf x00 x00 x80 xbf)))
(T (W xff xff xff xff xff xff xff xff)
(L (W xff xff xff xff xff xff xff xff))
(L (W xc1 xa8 xaa x28 xbf xd5 x56 x6a)))))
(T (W xff xff xff xff xff xff xff xff)
(T (W x3a x25 xfc xff x78 x00 x00 x00)
(T (W x54 x00 x58 x00 x5c x00 x00 x00)
(T (W x1a xc0 xff xff x8c x01 x00 x00)
(L (W x00 x00 x80 xbf x00 x00 x80 xbf)) E)
(L (W x00 x00 x00 x00 x00 x00 x00 x00)))
(T (W x00 x00 x80 x3f x00 x00 x80 x3f)
(L (W xff xff xff xff xff xff xff xff))
(L (W x00 x00 x00 x00 x00 x00 x00 x00))))
(T (W x45 x26 x22 x84 xe4 x9c xf2 xcb)
(T (W x45 x26 x22 x84 xe4 x9c xf2 xcb)
(T (W x00 x00 x00 x00 x18 x00 x1c x00)
(L (W x00 x00 x80 xbf x00 x00 x80 xbf)) E)
(L (W xff xff xff xff xff xff xff xff)))
(T (W x00 x00 x80 x3f x00 x00 x80 x3f)
(L (W xff xff xff xff xff xff xff xff))
(L (W x00 x00 x00 x00 x00 x00 x00 x00))))))
(T (W xff xff xff xff xff xff xff xff)
(T (W x45 x26 x22 x84 xe4 x9c xf2 xcb)
(T (W x00 x00 x80 x3f x00 x00 x80 x3f)
(T (W x8a xb1 xfe xff x00 x00 x01 x01)
(T (W x00 x00 x00 x00 x00 x00 x00 x00)
(L (W x00 x00 x80 xbf x00 x00 x80 xbf)) E)
(L (W x00 x00 x00 x00 x58 x98 xfe xff)))
(T (W x00 x00 x00 x00 x00 x00 x00 x00)
(L (W xff xff xff xff xff xff xff xff))
(L (W x45 x26 x22 x84 xe4 x9c xf2 xcb))))
(T (W x00 x00 x00 x00 x00 x00 x00 x00)
(T (W x00 x00 x00 x00 x00 x00 x00 x00)
(T (W xff xff xff xff xff xff xff xff)
(L (W x00 x00 x00 x00 x00 x00 x00 x00)) E)
(L (W x18 x00 x00 x00 x10 x00 x00 x00)))
(T (W x00 x00 x00 x00 x00 x00 x00 x00)
(L (W xff xff xff xff xff xff xff xff))
(L (W xe4 x5b xff xff x1f x00 x00 x00)))))
(T (W xb8 x00 x00 x00 xac x00 x00 x00)
(T (W x00 x00 x80 x3f x00 x00 x80 x3f)
(T (W x00 x00 x00 x00 x00 x00 x00 x00)
(T (W xff xff xff xff xff xff xff xff)
(L (W xff xff xff xff xff xff xff xff)) E)
(L (W x00 x00 x80 xbf x00 x00 x80 xbf)))
(T (W x50 x00 x00 x00 x44 x00 x00 x00)
(L (W xff xff xff xff xff xff xff xff))
(L (W x00 x00 x00 x00 x00 x00 x00 x00))))
(T (W x00 x00 x00 x00 x00 x00 x00 x00)
(T (W xc4 x00 x00 x00 x01 x00 x00 x00)
(T (W x01 x01 x01 x01 x01 x01 x01 x01)
(L (W xff xff xff xff xff xff xff xff)) E)
(L (W xff xff xff xff xff xff xff xff)))
(T (W xff xff xff xff xff xff xff xff)
(L (W xff xff xff xff xff xff xff xff))
(L (W x00 x00 x00 x00 x00 x00 x00 x00)))))))
(T (W x61 x64 x65 x72 x5f x77 x69 x6c)
(T (W x00 x00 x00 x00 xc4 xae xfb xff)
(T (W xb8 x00 x00 x00 xac x00 x00 x00)
(T (W x68 x00 x00 x00 x5c x00 x00 x00)
(T (W x3e x00 x00 x00 x0c x00 x00 x00)
(T (W x00 x00 x00 x00 x00 x00 x00 x00)
(L (W x00 x00 x80 xbf x00 x00 x80 xbf)) E)
(L (W x00 x00 x00 x00 xc4 x8e xfe xff)))
(T (W xff xff xff xff xff xff xff xff)
(L (W x45 x26 x22 x84 xe4 x9c xf2 xcb))
(L (W x00 x00 x00 x00 x00 x00 x00 x00))))
(T (W x45 x26 x22 x84 xe4 x9c xf2 xcb)
(T (W xd3 xd7 x7c xad xc6 x5d xab xf5)
(T (W xff xff xff xff xff xff xff xff)
(L (W x22 xce xff xff x6b x01 x00 x00)) E)
(L (W x3a xcd xfe xff x78 x00 x00 x00)))
(T (W x9d x01 x00 x00 xff xff xff xff)
(L (W xff xff xff xff xff xff xff xff))
(L (W xa9 x01 x00 x00 xff xff xff xff)))))
(T (W xff xff xff xff xff xff xff xff)
(T (W x18 x00 x00 x00 x0c x00 x00 x00)
(T (W x00 x00 x00 x00 x00 x00 x00 x00)
(T (W xff xff xff xff xff xff xff xff)
(L (W xff xff xff xff xff xff xff xff)) E)
(L (W x49 xa1 x68 x4a xeb x5f xdd x3d)))
(T (W x00 x00 x80 x3f x00 x00 x80 x3f)
(L (W x00 x00 x00 x00 x00 x00 x00 x00))
(L (W x00 x00 x00 x00 x00 x00 x00 x00))))
(T (W x00 x00 x80 x3f x00 x00 x80 x3f)
(T (W x00 x00 x00 x00 xc4 xee xfc xff)
(T (W x00 x00 x80 x3f x00 x00 x80 x3f)
(L (W x30 x33 x5f x43 x4c x45 x41 x52)) E)
(L (W xff xff xff xff xff xff xff xff)))
(T (W xff xff xff xff xc8 x00 x00 x00)
(L (W xff xff xff xff xff xff xff xff))
(L (W x00 x00 x00 x00 x12 x00 x00 x00))))))
(T (W xff xff xff xff xff xff xff xff)
(T (W xff xff xff xff xff xff xff xff)
(T (W x50 x00 x00 x00 x44 x00 x00 x00)
(T (W xff xff xff xff xff xff xff xff)
(T (W x00 x00 x00 x00 x00 x00 x00 x00)
(L (W x00 x00 x80 xbf x00 x00 x80 xbf)) E)
(L (W x68 x00 x00 x00 x5c x00 x00 x00)))
(T (W x46 x53 x59 x53 x5f x4e x53 x5f)
(L (W x28 x00 x00 x00 x0c x00 x00 x00))
(L (W x00 x00 x80 xbf x00 x00 x80 xbf))))
(T (W x45 x26 x22 x84 xe4 x9c xf2 xcb)
(T (W x00 x00 x80 x3f x00 x00 x80 x3f)
(T (W xff xff xff xff xff xff xff xff)
(L (W xff xff xff xff xff xff xff xff)) E)
(L (W xff xff xff xff xb0 x00 x00 x00)))
(T (W x00 x00 x00 x00 x00 x00 x00 x00)
(L (W xff xff xff xff xff xff xff xff))
(L (W x4f x84 x6f x8b xe8 xcb x63 xb7)))))
(T (W xff xff xff xff x04 x00 x00 x00)
(T (W x54 x00 x00 x00 x48 x00 x00 x00)
(T (W x00 x00 x00 x00 x00 x00 x00 x00)
(T (W x8a xbb xfd xff x74 x00 x00 x00)
(L (W xff xff xff xff xff xff xff xff)) E)
(L (W x4f x84 x6f x8b xe8 xcb x63 xb7)))
(T (W xff xff xff xff xac x00 x00 x00)
(L (W xff xff xff xff xff xff xff xff))
(L (W x00 x00 x00 x00 x7a x52 xff xff))))
(T (W x00 x00 x00 x00 x00 x00 x00 x00)
(T (W xff xff xff xff xff xff xff xff)
(T (W x00 x00 x80 x3f x00 x00 x80 x3f)
(L (W x00 x00 x80 xbf x00 x00 x80 xbf)) E)
(L (W xff xff xff xff xff xff xff xff)))
(T (W xff xff xff xff xff xff xff xff)
(L (W xa8 x00 x00 x00 x64 x00 x00 x00))
(L (W x00 x00 x80 xbf x00 x00 x80 xbf))))))))
(T (W x00 x00 x00 x00 x00 x00 x00 x00)
(T (W xff xff xff xff xff xff xff xff)
(T (W x1e x00 x00 x00 x10 x00 x00 x00)
(T (W x00 x00 x80 x3f x00 x00 x80 x3f)
(T (W x00 x00 x00 x00 x00 x00 x00 x00)
(T (W x18 x00 x00 x00 x10 x00 x00 x00)
(T (W xff xff xff xff xff xff xff xff)
(L (W xff xff xff xff xff xff xff xff)) E)
(L (W xe4 x8f xfe xff x1b x00 x00 x00)))
(T (W x00 x00 x80 x3f x00 x00 x80 x3f)
(L (W x76 x31 x00 x00 x7a xda xff xff))
(L (W x6c x00 x00 x00 x60 x00 x00 x00))))
(T (W xff xff xff xff xff xff xff xff)
(T (W x00 x00 x80 x3f x00 x00 x80 x3f)
(T (W x00 x00 x00 x00 x00 x00 x00 x00)
(L (W x1c x00 x00 x00 x10 x00 x00 x00)) E)
(L (W xff xff xff xff xff xff xff xff)))
(T (W x00 x00 x80 x3f x00 x00 x80 x3f)
(L (W x45 x26 x22 x84 xe4 x9c xf2 xcb))
(L (W x00 x00 x80 xbf x00 x00 x80 xbf)))))
(T (W x00 x00 x00 x00 x00 x00 x00 x00)
(T (W xfb xa0 x0f xa7 x37 xde x0e xb7)
(T (W x68 x00 x00 x00 x5c x00 x00 x00)
(T (W x00 x00 x80 x3f x00 x00 x80 x3f)
(L (W x6b x01 x00 x00 xff xff xff xff)) E)
(L (W x1a x00 x00 x00 x1d x00 x00 x00)))
(T (W xff xff xff xff xff xff xff xff)
(L (W x68 x00 x00 x00 x5c x00 x00 x00))
(L (W xff xff xff xff xff xff xff xff))))
(T (W xff xff xff xff x04 x00 x00 x00)
(T (W xe4 xef xfc xff x15 x00 x00 x00)
(T (W x00 x00 x80 xbf x00 x00 x80 xbf)
(L (W x78 x00 x04 x00 x70 x00 x08 x00)) E)
(L (W x00 x00 x80 xbf x00 x00 x80 xbf)))
(T (W x6b x65 x5f x6c x76 x31 x00 x00)
(L (W x00 x00 x00 x00 x00 x00 x00 x00))
(L (W xff xff xff xff xac x00 x00 x00))))))
(T (W x45 x26 x22 x84 xe4 x9c xf2 xcb)
(T (W x45 x26 x22 x84 xe4 x9c xf2 xcb)
(T (W x00 x00 x00 x00 x00 x00 x00 x00)
(T (W x50 x00 x00 x00 x44 x00 x00 x00)
(T (W x01 x00 x00 x00 xa0 x00 x00 x00)
(L (W x00 x00 x00 x00 x6a x98 xff xff)) E)
(L (W x00 x00 x00 x00 x06 x00 x00 x00)))
(T (W x18 x00 x00 x00 x10 x00 x00 x00)
(L (W x45 x26 x22 x84 xe4 x9c xf2 xcb))
(L (W xaa x01 x00 x00 xff xff xff xff))))
(T (W xff xff xff xff xff xff xff xff)
(T (W xff xff xff xff xff xff xff xff)
(T (W x00 x00 x80 x3f x00 x00 x80 x3f)
(L (W x00 x00 x80 xbf x00 x00 x80 xbf)) E)
(L (W x00 x00 x00 x00 x00 x00 x00 x00)))
(T (W x45 x26 x22 x84 xe4 x9c xf2 xcb)
(L (W x00 x00 x80 xbf x00 x00 x80 xbf))
(L (W xbc x00 x00 x00 x14 x00 x00 x00)))))
(T (W x00 x00 x00 x00 x00 x00 x00 x00)
(T (W xff xff xff xff xff xff xff xff)
(T (W x8a xb7 xfc xff x74 x00 x00 x00)
(T (W xff xff xff xff x03 x00 x00 x00)
(L (W x00 x00 x80 xbf x00 x00 x80 xbf)) E)
(L (W xff xff xff xff xff xff xff xff)))
(T (W x4c x45 x41 x52 x45 x44 x00 x00)
(L (W x38 x00 x00 x00 x00 x00 x80 xbf))
(L (W x00 x00 x80 xbf x00 x00 x80 xbf))))
(T (W x8a x77 xfc xff x74 x00 x00 x00)
(T (W x45 x26 x22 x84 xe4 x9c xf2 xcb)
(T (W x0c x00 x10 x00 x14 x00 x18 x00)
(L (W x00 x00 x00 x00 x00 x00 x00 x00)) E)
(L (W x54 x00 x00 x00 x48 x00 x00 x00)))
(T (W x00 x00 x80 x3f x00 x00 x80 x3f)
(L (W x00 x00 x00 x00 x00 x00 x00 x00))
(L (W x00 x00 x00 x00 xc4 x7a xff xff)))))))
(T (W x00 x00 x00 x00 x00 x00 x00 x00)
(T (W x00 x00 x80 x3f x00 x00 x80 x3f)
(T (W x00 x00 x00 x00 x00 x00 x00 x00)
(T (W x00 x00 x00 x00 x00 x00 x00 x00)
(T (W x40 x00 x00 x00 x9c x00 x00 x00)
(T (W x64 x00 x00 x00 x9c x00 x00 x00)
(L (W x02 xa8 xff xff xaa x01 x00 x00)) E)
(L (W x00 x00 x00 x00 x12 x00 x00 x00)))
(T (W x00 x00 x80 x3f x00 x00 x80 x3f)
(L (W x30 x33 x5f x43 x4c x45 x41 x52))
(L (W xff xff xff xff xff xff xff xff))))
(T (W x82 x00 x00 x00 xff xff xff xff)
(T (W x00 x00 x00 x00 xc4 xd2 xfc xff)
(T (W x00 x00 x80 x3f x00 x00 x80 x3f)
(L (W x00 x00 x80 xbf x00 x00 x80 xbf)) E)
(L (W x01 x00 x00 x00 xff xff xff xff)))
(T (W x00 x00 x80 x3f x00 x00 x80 x3f)
(L (W x00 x00 x80 xbf x00 x00 x80 xbf))
(L (W x54 x00 x00 x00 x48 x00 x00 x00)))))
(T (W x00 x00 x00 x00 x00 x00 x00 x00)
(T (W xd4 x01 x00 x00 xff xff xff xff)
(T (W x00 x00 x80 x3f x00 x00 x80 x3f)
(T (W x45 x26 x22 x84 xe4 x9c xf2 xcb)
(L (W x00 x00 x00 x00 x00 x00 x00 x00)) E)
(L (W xcc x00 x00 x00 x02 x00 x00 x00)))
(T (W x54 x02 x00 x00 x34 x01 x00 x00)
(L (W x45 x26 x22 x84 xe4 x9c xf2 xcb))
(L (W x54 x34 xff xff x00 x01 x01 x01))))
(T (W x18 x00 x00 x00 x0c x00 x00 x00)
(T (W x00 x00 x00 x00 x12 x00 x00 x00)
(T (W x69 x6b x65 x5f x70 x6d x30 x34)
(L (W x00 x00 x00 x00 x00 x00 x00 x00)) E)
(L (W x50 x00 x00 x00 x44 x00 x00 x00)))
(T (W x49 xa1 x68 x4a xeb x5f xdd x3d)
(L (W x00 x00 x00 x00 x00 x00 x00 x00))
(L (W xff xff xff xff xff xff xff xff))))))
(T (W x00 x00 x00 x00 x00 x00 x00 x00)
(T (W x45 x26 x22 x84 xe4 x9c xf2 xcb)
(T (W x40 x00 x00 x00 x10 x00 x00 x00)
(T (W x54 xa4 xfc xff x00 x01 x01 x01)
(T (W x50 x00 x00 x00 x44 x00 x00 x00)
(L (W x22 xa2 xff xff xf0 x00 x00 x00)) E)
(L (W xff xff xff xff xff xff xff xff)))
(T (W x03 x00 x00 x00 xcc x00 x00 x00)
(L (W x00 x00 x00 x00 x00 x00 x00 x00))
(L (W xcc x00 x00 x00 x01 x00 x00 x00))))
(T (W xff xff xff xff xff xff xff xff)
(T (W x4b x00 x00 x00 xff xff xff xff)
(T (W xff xff xff xff xff xff xff xff)
(L (W x00 x00 x00 x00 x00 x00 x00 x00)) E)
(L (W x00 x00 x00 x00 x00 x00 x00 x00)))
(T (W xff xff xff xff xbc x00 x00 x00)
(L (W x00 x00 x80 xbf x00 x00 x80 xbf))
(L (W xff xff xff xff xff xff xff xff)))))
(T (W x00 x00 x00 x00 x00 x00 x00 x00)
(T (W xff xff xff xff xff xff xff xff)
(T (W x00 x00 x00 x00 x00 x00 x00 x00)
(T (W x00 x00 x00 x00 x00 x00 x00 x00)
(L (W x45 x26 x22 x84 xe4 x9c xf2 xcb)) E)
(L (W xff xff xff xff xff xff xff xff)))
(T (W x45 x26 x22 x84 xe4 x9c xf2 xcb)
(L (W x00 x00 x80 xbf x00 x00 x80 xbf))
(L (W x00 x00 x80 xbf x00 x00 x80 xbf))))
(T (W x45 x26 x22 x84 xe4 x9c xf2 xcb)
(T (W x00 x00 x80 x3f x00 x00 x80 x3f)
(T (W x74 x0a x00 x00 x28 x09 x00 x00)
(L (W x42 x00 x00 x00 xff xff xff xff)) E)
(L (W x00 x00 x00 x00 xc4 x02 xff xff)))
(T (W x50 x00 x00 x00 x44 x00 x00 x00)
(L (W x46 x53 x59 x53 x5f x4e x53 x5f))
(L (W x22 x82 xff xff x37 x00 x00 x00)))))))))
(T (W x00 x00 x00 x00 x00 x00 x00 x00)
(T (W xe0 x00 x00 x00 xb0 x00 x00 x00)
(T (W x01 x00 x00 x00 xa0 x00 x00 x00)
(T (W x18 x00 x00 x00 x0c x00 x00 x00)
(T (W x00 x00 x00 x00 x00 x00 x00 x00)
(T (W xff xff xff xff xff xff xff xff)
(T (W x00 x00 x80 x3f x00 x00 x80 x3f)
(T (W x18 x00 x00 x00 x0c x00 x00 x00)
(L (W xff xff xff xff xff xff xff xff)) E)
(L (W xff xff xff xff xff xff xff xff)))
(T (W x00 x00 x00 x00 x00 x00 x00 x00)
(L (W x45 x26 x22 x84 xe4 x9c xf2 xcb))
(L (W x00 x00 x00 x00 x00 x00 x00 x00))))
(T (W x18 x00 x00 x00 x10 x00 x00 x00)
(T (W x12 x00 x00 x00 x46 x53 x59 x53)
(T (W x8a xe3 xff xff x00 x00 x01 x01)
(L (W x00 x00 x00 x00 x00 x00 x00 x00)) E)
(L (W xff xff xff xff xc4 x00 x00 x00)))
(T (W x00 x00 x00 x00 x00 x00 x00 x00)
(L (W x00 x00 x00 x00 x00 x00 x00 x00))
(L (W x00 x00 x00 x00 x00 x00 x00 x00)))))
(T (W xff xff xff xff xff xff xff xff)
(T (W xb8 x00 x00 x00 xac x00 x00 x00)
(T (W x45 x26 x22 x84 xe4 x9c xf2 xcb)
(T (W x00 x00 x00 x00 x00 x00 x00 x00)
(L (W xff xff xff xff xff xff xff xff)) E)
(L (W x00 x00 x80 xbf x00 x00 x80 xbf)))
(T (W x68 x00 x00 x00 x5c x00 x00 x00)
(L (W x00 x00 x00 x00 x00 x00 x00 x00))
(L (W x00 x00 x80 xbf x00 x00 x80 xbf))))
(T (W x00 x00 x80 x3f x00 x00 x80 x3f)
(T (W xff xff xff xff xff xff xff xff)
(T (W xff xff xff xff xff xff xff xff)
(L (W x54 xea xff xff x00 x01 x01 x01)) E)
(L (W x00 x00 x00 x00 x7a xfc xfe xff)))
(T (W x03 x00 x00 x00 xd0 x00 x00 x00)
(L (W x8a x85 xfe xff x8c x01 x00 x00))
(L (W x00 x00 x80 xbf x00 x00 x80 xbf))))))
(T (W xce xae xef x51 x22 x70 x26 xaf)
(T (W x04 x00 x00 x00 x9a xf6 xfd xff)
(T (W xff xff xff xff xff xff xff xff)
(T (W x00 x00 x00 x00 x00 x00 x00 x00)
(T (W x00 x00 x80 x3f x00 x00 x80 x3f)
(L (W xff xff xff xff xff xff xff xff)) E)
(L (W xff xff xff xff xff xff xff xff)))
(T (W x00 x00 x00 x00 x00 x00 x00 x00)
(L (W x00 x00 x00 x00 x00 x00 x00 x00))
(L (W x00 x00 x80 xbf x00 x00 x80 xbf))))
(T (W x8a x55 xfc xff x74 x00 x00 x00)
(T (W x54 x00 x00 x00 x48 x00 x00 x00)
(T (W x70 x5f x77 x69 x6c x64 x5f x70)
(L (W x00 x00 x00 x00 x00 x00 x00 x00)) E)
(L (W xff xff xff xff xff xff xff xff)))
(T (W x00 x00 x80 x3f x00 x00 x80 x3f)
(L (W x00 x00 x00 x00 x00 x00 x00 x00))
(L (W x00 x00 x80 xbf x00 x00 x80 xbf)))))
(T (W x00 x00 x00 x00 x00 x00 x00 x00)
(T (W xff xff xff xff xff xff xff xff)
(T (W x00 x00 x00 x00 x00 x00 x64 x00)
(T (W x5f x77 x69 x6c x64 x5f x70 x6f)
(L (W x45 x44 x00 x00 x00 x00 x00 x00)) E)
(L (W x8a xb5 xfe xff x74 x00 x00 x00)))
(T (W xff xff xff xff xff xff xff xff)
(L (W x00 x00 x00 x00 x00 x00 x00 x00))
(L (W x00 x00 x00 x00 x00 x00 x00 x00))))
(T (W x00 x00 x80 x3f x00 x00 x80 x3f)
(T (W x74 x03 x00 x00 x4c x02 x00 x00)
(T (W xff xff xff xff xff xff xff xff)
(L (W x8a xf5 xff xff x74 x00 x00 x00)) E)
(L (W x30 x33 x5f x43 x4c x45 x41 x52)))
(T (W x00 x00 x00 x00 x00 x00 x00 x00)
(L (W x00 x00 x00 x00 x00 x00 x00 x00))
(L (W x00 x00 x80 xbf x00 x00 x80 xbf)))))))
(T (W xff xff xff xff xff xff xff xff)
(T (W x00 x00 x00 x00 x00 x00 x00 x00)
(T (W xc2 x3f x14 x21 xc8 x6c xc7 x22)
(T (W xff xff xff xff xff xff xff xff)
(T (W x00 x00 x80 x3f x00 x00 x80 x3f)
(T (W x00 x00 x80 x3f x00 x00 x80 x3f)
(L (W x18 x00 x00 x00 x0c x00 x00 x00)) E)
(L (W xff xff xff xff xff xff xff xff)))
(T (W x4f x84 x6f x8b xe8 xcb x63 xb7)
(L (W xff xff xff xff xff xff xff xff))
(L (W x00 x00 x80 xbf x00 x00 x80 xbf))))
(T (W x01 x00 x00 x00 xa0 x00 x00 x00)
(T (W x45 x26 x22 x84 xe4 x9c xf2 xcb)
(T (W x00 x00 x00 x00 x00 x00 x00 x00)
(L (W x00 x00 x00 x00 x00 x00 x00 x00)) E)
(L (W xff xff xff xff xff xff xff xff)))
(T (W x00 x00 x00 x00 x00 x00 x00 x00)
(L (W x00 x00 x00 x00 x12 x00 x00 x00))
(L (W x49 xa1 x68 x4a xeb x5f xdd x3d)))))
(T (W x8a x0b xfe xff x00 x00 x01 x01)
(T (W xff xff xff xff xff xff xff xff)
(T (W x00 x00 x80 x3f x00 x00 x80 x3f)
(T (W x00 x00 x00 x00 x00 x00 x00 x00)
(L (W x3a x00 x00 x00 xff xff xff xff)) E)
(L (W x54 x00 x00 x00 x48 x00 x00 x00)))
(T (W xc0 x00 x00 x00 x01 x00 x00 x00)
(L (W xff xff xff xff xff xff xff xff))
(L (W x54 x00 x00 x00 x48 x00 x00 x00))))
(T (W x00 x00 x80 x3f x00 x00 x80 x3f)
(T (W x4b x00 x00 x00 xff xff xff xff)
(T (W x52 x45 x53 x50 x41 x57 x4e x5f)
(L (W x00 x00 x80 xbf x00 x00 x80 xbf)) E)
(L (W x00 x00 x00 x00 x00 x00 x00 x00)))
(T (W xff xff xff xff x02 x00 x00 x00)
(L (W x00 x00 x00 x00 x00 x00 x00 x00))
(L (W x00 x00 x80 xbf x00 x00 x80 xbf))))))
(T (W x1a xda xfd xff xbf x01 x00 x00)
(T (W x01 x00 x00 x00 x04 x00 x00 x00)
(T (W xb8 x00 x00 x00 xac x00 x00 x00)
(T (W x00 x00 x00 x00 x00 x00 x00 x00)
(T (W x45 x26 x22 x84 xe4 x9c xf2 xcb)
(L (W xff xff xff xff xff xff xff xff)) E)
(L (W x45 x44 x00 x00 x00 x00 x00 x00)))
(T (W x00 x00 x80 x3f x00 x00 x80 x3f)
(L (W xff xff xff xff xff xff xff xff))
(L (W x74 x00 x00 x00 x68 x00 x00 x00))))
(T (W x00 x00 x80 x3f x00 x00 x80 x3f)
(T (W x18 x00 x00 x00 x10 x00 x00 x00)
(T (W x00 x00 x00 x00 x00 x00 x00 x00)
(L (W x00 x00 x00 x00 x00 x00 x00 x00)) E)
(L (W x22 xe0 xfe xff xdf x00 x00 x00)))
(T (W x00 x00 x80 x3f x00 x00 x80 x3f)
(L (W x00 x00 x00 x00 x12 x7c xfe xff))
(L (W x00 x00 x80 xbf x00 x00 x80 xbf)))))
(T (W x20 x01 x00 x00 x04 x00 x00 x00)
(T (W xff xff xff xff xff xff xff xff)
(T (W x2c x01 x00 x00 x04 x00 x00 x00)
(T (W xff xff xff xff xff xff xff xff)
(L (W x00 x00 x00 x00 x00 x00 x00 x00)) E)
(L (W xff xff xff xff xb0 x00 x00 x00)))
(T (W x04 x00 x00 x00 x4a x4e xfd xff)
(L (W x00 x00 x00 x00 x00 x00 x00 x00))
(L (W x00 x00 x00 x00 x00 x00 x00 x00))))
(T (W x50 x00 x00 x00 x44 x00 x00 x00)
(T (W x00 x00 x00 x00 x00 x00 x00 x00)
(T (W x3a xff xfd xff x78 x00 x00 x00)
(L (W x20 x00 x24 x00 x28 x00 x2c x00)) E)
(L (W x00 x00 x00 x00 x00 x00 x00 x00)))
(T (W x00 x00 x00 x00 x00 x00 x00 x00)
(L (W x00 x00 x00 x00 x6a x7e xfe xff))
(L (W xff xff xff xff xb0 x00 x00 x00))))))))
(T (W xff xff xff xff xff xff xff xff)
(T (W x00 x00 x80 x3f x00 x00 x80 x3f)
(T (W x45 x26 x22 x84 xe4 x9c xf2 xcb)
(T (W x50 x00 x00 x00 x44 x00 x00 x00)
(T (W x00 x00 x80 x3f x00 x00 x80 x3f)
(T (W xff xff xff xff xff xff xff xff)
(T (W x23 x00 x00 x00 x10 x00 x00 x00)
(L (W x4f x84 x6f x8b xe8 xcb x63 xb7)) E)
(L (W x00 x00 x00 x00 x00 x00 x00 x00)))
(T (W xff xff xff xff xc4 x00 x00 x00)
(L (W x00 x00 x00 x00 x00 x00 x00 x00))
(L (W xff xff xff xff xff xff xff xff))))
(T (W x00 x00 x00 x00 x00 x00 x00 x00)
(T (W xff xff xff xff xff xff xff xff)
(T (W x68 x00 x00 x00 x5c x00 x00 x00)
(L (W xff xff xff xff xff xff xff xff)) E)
(L (W x12 x00 x00 x00 x46 x53 x59 x53)))
(T (W x18 x00 x00 x00 x0c x00 x00 x00)
(L (W x68 x00 x00 x00 x5c x00 x00 x00))
(L (W xff xff xff xff xff xff xff xff)))))
(T (W x3a xeb xfb xff x78 x00 x00 x00)
(T (W x00 x00 x80 x3f x00 x00 x80 x3f)
(T (W xff xff xff xff xff xff xff xff)
(T (W xb8 x00 x00 x00 xac x00 x00 x00)
(L (W xbc x00 x00 x00 x01 x00 x00 x00)) E)
(L (W x46 x53 x59 x53 x5f x4e x53 x5f)))
(T (W x5f x4e x53 x5f x30 x33 x5f x43)
(L (W xff xff xff xff xff xff xff xff))
(L (W x00 x00 x00 x00 x7a x40 xff xff))))
(T (W x00 x00 x00 x00 xf2 xb5 xff xff)
(T (W x00 x00 x80 x3f x00 x00 x80 x3f)
(T (W x60 x01 x00 x00 x97 x00 x00 x00)
(L (W xff xff xff xff xff xff xff xff)) E)
(L (W x54 xee xfe xff x00 x01 x01 x01)))
(T (W x00 x00 x80 x3f x00 x00 x80 x3f)
(L (W x45 x26 x22 x84 xe4 x9c xf2 xcb))
(L (W xff xff xff xff xff xff xff xff))))))
(T (W x8a xb9 xfb xff x74 x00 x00 x00)
(T (W x45 x26 x22 x84 xe4 x9c xf2 xcb)
(T (W x00 x00 x80 x3f x00 x00 x80 x3f)
(T (W xff xff xff xff xff xff xff xff)
(T (W xff xff xff xff xff xff xff xff)
(L (W x4f x84 x6f x8b xe8 xcb x63 xb7)) E)
(L (W x00 x00 x80 xbf x00 x00 x80 xbf)))
(T (W xff xff xff xff xff xff xff xff)
(L (W xb0 x00 x00 x00 x64 x00 x00 x00))
(L (W x00 x00 x00 x00 x12 x00 x00 x00))))
(T (W x00 x00 x00 x00 x00 x00 x00 x00)
(T (W xe4 xe1 xfc xff x21 x00 x00 x00)
(T (W xb8 x00 x00 x00 xac x00 x00 x00)
(L (W x03 x00 x00 x00 xc8 x00 x00 x00)) E)
(L (W x00 x00 x80 xbf x00 x00 x80 xbf)))
(T (W x02 x00 x00 x00 xff xff xff xff)
(L (W x14 x00 x00 x00 x0c x00 x00 x00))
(L (W xff xff xff xff xff xff xff xff)))))
(T (W x00 x00 x80 x3f x00 x00 x80 x3f)
(T (W x00 x00 x00 x00 x00 x00 x00 x00)
(T (W x18 x00 x00 x00 x10 x00 x00 x00)
(T (W x00 x00 x00 x00 x00 x00 x00 x00)
(L (W x18 x00 x00 x00 x1b x00 x00 x00)) E)
(L (W x46 x53 x59 x53 x5f x4e x53 x5f)))
(T (W x00 x00 x80 x3f x00 x00 x80 x3f)
(L (W x45 x26 x22 x84 xe4 x9c xf2 xcb))
(L (W xff xff xff xff xff xff xff xff))))
(T (W xff xff xff xff xff xff xff xff)
(T (W x00 x00 x80 x3f x00 x00 x80 x3f)
(T (W x00 x00 x00 x00 x12 x00 x00 x00)
(L (W x44 x00 x00 x00 x10 x00 x00 x00)) E)
(L (W xc4 x00 x00 x00 x02 x00 x00 x00)))
(T (W xbc x00 x00 x00 x14 x00 x00 x00)
(L (W x00 x00 x80 xbf x00 x00 x80 xbf))
(L (W x49 xa1 x68 x4a xeb x5f xdd x3d)))))))
(T (W xff xff xff xff xff xff xff xff)
(T (W xc0 x00 x00 x00 xb4 x00 x00 x00)
(T (W x68 x00 x00 x00 x5c x00 x00 x00)
(T (W x00 x00 x80 x3f x00 x00 x80 x3f)
(T (W xff xff xff xff xff xff xff xff)
(T (W xff xff xff xff xff xff xff xff)
(L (W x00 x00 x00 x00 x00 x00 x00 x00)) E)
(L (W x00 x00 x80 xbf x00 x00 x80 xbf)))
(T (W xff xff xff xff xff xff xff xff)
(L (W xff xff xff xff xb0 x00 x00 x00))
(L (W x00 x00 x00 x00 x00 x00 x00 x00))))
(T (W x00 x00 x00 x00 x00 x00 x00 x00)
(T (W xff xff xff xff xff xff xff xff)
(T (W xb8 x00 x00 x00 xac x00 x00 x00)
(L (W x18 x00 x00 x00 x10 x00 x00 x00)) E)
(L (W x00 x00 x00 x00 x00 x00 x00 x00)))
(T (W xff xff xff xff xff xff xff xff)
(L (W x74 x00 x00 x00 x68 x00 x00 x00))
(L (W xff xff xff xff xff xff xff xff)))))
(T (W x00 x00 x80 x3f x00 x00 x80 x3f)
(T (W x00 x00 x00 x00 x00 x00 x00 x00)
(T (W xff xff xff xff xff xff xff xff)
(T (W x50 x00 x00 x00 x44 x00 x00 x00)
(L (W x00 x00 x00 x00 xc4 xb4 xff xff)) E)
(L (W xbc x8d x59 x1d xca x27 xa0 xfd)))
(T (W x45 x26 x22 x84 xe4 x9c xf2 xcb)
(L (W x18 x00 x00 x00 x0c x00 x00 x00))
(L (W xff xff xff xff xff xff xff xff))))
(T (W x1c x01 x00 x00 x04 x00 x00 x00)
(T (W x54 x00 x00 x00 x48 x00 x00 x00)
(T (W x38 x00 x3c x00 x40 x00 x44 x00)
(L (W x25 x00 x00 x00 x28 x00 x00 x00)) E)
(L (W xff xff xff xff x9c x00 x00 x00)))
(T (W x68 x00 x00 x00 x5c x00 x00 x00)
(L (W x54 x76 xfe xff x00 x01 x01 x01))
(L (W x5a x65 x48 xdc x00 x65 x59 x2f))))))
(T (W x00 x00 x80 x3f x00 x00 x80 x3f)
(T (W x68 x00 x00 x00 x5c x00 x00 x00)
(T (W x00 x00 x00 x00 x00 x00 x00 x00)
(T (W x00 x00 x00 x00 x00 x00 x00 x00)
(T (W xff xff xff xff xff xff xff xff)
(L (W x00 x00 x00 x00 x00 x00 x00 x00)) E)
(L (W x00 x00 x00 x00 x00 x00 x00 x00)))
(T (W x04 x00 x00 x00 x7c x03 x00 x00)
(L (W x00 x00 x80 xbf x00 x00 x80 xbf))
(L (W xff xff xff xff xff xff xff xff))))
(T (W x3e x00 x00 x00 x10 x00 x00 x00)
(T (W x00 x00 x00 x00 x00 x00 x00 x00)
(T (W x45 x26 x22 x84 xe4 x9c xf2 xcb)
(L (W x00 x00 x0c x00 x10 x00 x14 x00)) E)
(L (W x45 x26 x22 x84 xe4 x9c xf2 xcb)))
(T (W x00 x00 x00 x00 x00 x00 x00 x00)
(L (W x54 x66 xfe xff x00 x01 x01 x01))
(L (W x1e x00 x00 x00 x10 x00 x00 x00)))))
(T (W x45 x26 x22 x84 xe4 x9c xf2 xcb)
(T (W x00 x00 x00 x00 x00 x00 x00 x00)
(T (W x68 x00 x00 x00 x5c x00 x00 x00)
(T (W x00 x00 x80 x3f x00 x00 x80 x3f)
(L (W x44 x00 x00 x00 x10 x00 x00 x00)) E)
(L (W x00 x00 x00 x00 x00 x00 x00 x00)))
(T (W x00 x00 x80 x3f x00 x00 x80 x3f)
(L (W x45 x26 x22 x84 xe4 x9c xf2 xcb))
(L (W xff xff xff xff xff xff xff xff))))
(T (W xff xff xff xff xff xff xff xff)
(T (W x54 x06 xfd xff x00 x01 x01 x01)
(L (W x00 x00 x00 x00 xc4 x04 xfe xff))
(L (W xff xff xff xff xff xff xff xff)))
(T (W xff xff xff xff xff xff xff xff)
(L (W x00 x00 x80 xbf x00 x00 x80 xbf))
(L (W x00 x00 x00 x00 x00 x00 x00 x00))))))))))))
(T (W xd8 x63 x03 x00 xec x5c x03 x00)
(T (W x68 xb2 x02 x00 x0c xb0 x02 x00)
(T (W x88 x19 x02 x00 x44 x17 x02 x00)
(T (W x48 xaa x00 x00 x14 xa9 x00 x00)
(T (W x14 x8f xfb xff x00 x01 x01 x01)
(T (W x00 x00 x00 x00 x00 x00 x00 x00)
(T (W x00 x00 x00 x00 x00 x00 x00 x00)
(T (W xff xff xff xff xff xff xff xff)
(T (W x64 x00 x00 x00 x9c x00 x00 x00)
(T (W x00 x00 x00 x00 x00 x00 x00 x00)
(T (W x70 x5f x77 x69 x6c x64 x5f x70)
(L (W x45 x26 x22 x84 xe4 x9c xf2 xcb)) E)
(L (W xff xff xff xff xbc x00 x00 x00)))
(T (W xff xff xff xff xff xff xff xff)
(L (W x61 x64 x65 x72 x5f x77 x69 x6c))
(L (W x00 x00 x00 x00 x00 x00 x00 x00))))
(T (W x00 x00 x80 x3f x00 x00 x80 x3f)
(T (W x01 x00 x00 x00 xff xff xff xff)
(T (W x00 x00 x00 x00 x84 xc5 xfd xff)
(L (W x00 x00 x00 x00 x00 x00 x00 x00)) E)
(L (W x00 x00 x80 xbf x00 x00 x80 xbf)))
(T (W xff xff xff xff xff xff xff xff)
(L (W x9e x01 x00 x00 xff xff xff xff))
(L (W x30 x33 x5f x43 x4c x45 x41 x52)))))
(T (W x12 x2d xff xff x00 x00 x01 x01)
(T (W xc0 x00 x00 x00 xb4 x00 x00 x00)
(T (W xff xff xff xff xff xff xff xff)
(T (W x00 x00 x00 x00 x00 x00 x00 x00)
(L (W x54 x00 x00 x00 x48 x00 x00 x00)) E)
(L (W x00 x00 x80 xbf x00 x00 x80 xbf)))
(T (W x00 x00 x80 x3f x00 x00 x80 x3f)
(L (W xff xff xff xff xff xff xff xff))
(L (W x00 x00 x00 x00 x00 x00 x00 x00))))
(T (W x00 x00 x80 x3f x00 x00 x80 x3f)
(T (W x00 x00 x00 x00 x84 xe5 xfc xff)
(T (W x00 x00 x00 x00 x00 x00 x00 x00)
(L (W x80 xe5 xff xff xaa xe8 xff xff)) E)
(L (W xff xff xff xff xff xff xff xff)))
(T (W xfa x63 xfd xff x78 x00 x00 x00)
(L (W xff xff xff xff xff xff xff xff))
(L (W x00 x00 x80 xbf x00 x00 x80 xbf))))))
(T (W x00 x00 x00 x00 x00 x00 x00 x00)
(T (W xff xff xff xff xff xff xff xff)
(T (W x18 x00 x00 x00 x0c x00 x00 x00)
(T (W x00 x00 x00 x00 x00 x00 x00 x00)
(T (W x00 x00 x00 x00 x00 x00 x00 x00)
(L (W x6c x00 x00 x00 x60 x00 x00 x00)) E)
(L (W xb8 x00 x00 x00 x64 x00 x00 x00)))
(T (W x00 x00 x00 x00 x00 x00 x00 x00)
(L (W x00 x00 x00 x00 x00 x00 x00 x00))
(L (W x00 x00 x80 xbf x00 x00 x80 xbf))))
(T (W x00 x00 x80 x3f x00 x00 x80 x3f)
(T (W x00 x00 x00 x00 x00 x00 x00 x00)
(T (W xda xee xff xff x71 x00 x00 x00)
(L (W x66 xd4 xac x28 xbf xcf x59 x6a)) E)
(L (W xcc x00 x00 x00 x01 x00 x00 x00)))
(T (W x00 x00 x00 x00 x00 x00 x00 x00)
(L (W xff xff xff xff xff xff xff xff))
(L (W x00 x00 x00 x00 x12 x00 x00 x00)))))
(T (W xff xff xff xff xff xff xff xff)
(T (W x18 x00 x00 x00 x0c x00 x00 x00)
(T (W x00 x00 x00 x00 x00 x00 x00 x00)
(T (W xff xff xff xff xff xff xff xff)
(L (W xff xff xff xff xff xff xff xff)) E)
(L (W x00 x00 x80 xbf x00 x00 x80 xbf)))
(T (W x45 x26 x22 x84 xe4 x9c xf2 xcb)
(L (W x00 x00 x00 x00 x2a x33 xfe xff))
(L (W x00 x00 x00 x00 x00 x00 x00 x00))))
(T (W x00 x00 x80 x3f x00 x00 x80 x3f)
(T (W xff xff xff xff xff xff xff xff)
(T (W x4a xf2 xfd xff x74 x00 x00 x00)
(L (W x00 x00 x00 x00 xa2 xfd xff xff)) E)
(L (W xff xff xff xff xff xff xff xff)))
(T (W xff xff xff xff xff xff xff xff)
(L (W xff xff xff xff xff xff xff xff))
(L (W x00 x00 x80 xbf x00 x00 x80 xbf)))))))
(T (W x6f x79 x61 x62 x75 x6e x00 x00)
(T (W xff xff xff xff xff xff xff xff)
(T (W xff xff xff xff xff xff xff xff)
(T (W x00 x00 x00 x00 x84 x0d xfc xff)
(T (W x00 x00 x00 x00 x00 x00 x00 x00)
(T (W x00 x00 x80 x3f x00 x00 x80 x3f)
(L (W x14 x00 x00 x00 x0c x00 x00 x00)) E)
(L (W xc4 x00 x00 x00 x01 x00 x00 x00)))
(T (W x00 x00 x00 x00 x00 x00 x00 x00)
(L (W x03 x00 x00 x00 xd0 x00 x00 x00))
(L (W x00 x00 x00 x00 x00 x00 x00 x00))))
(T (W x00 x00 x80 x3f x00 x00 x80 x3f)
(T (W x30 x33 x5f x43 x4c x45 x41 x52)
(T (W xf0 x00 x00 x00 xff xff xff xff)
(L (W x46 x53 x59 x53 x5f x4e x53 x5f)) E)
(L (W x50 x00 x00 x00 x44 x00 x00 x00)))
(T (W x1a x54 xfd xff x9c x01 x00 x00)
(L (W x34 x01 x00 x00 x04 x00 x00 x00))
(L (W x00 x00 x00 x00 x00 x00 x00 x00)))))
(T (W xff xff xff xff xff xff xff xff)
(T (W x45 x26 x22 x84 xe4 x9c xf2 xcb)
(T (W x00 x00 x00 x00 x00 x00 x00 x00)
(T (W xda xc6 xff xff x6d x01 x00 x00)
(L (W x00 x00 x00 x00 x00 x00 x00 x00)) E)
(L (W x00 x00 x80 xbf x00 x00 x80 xbf)))
(T (W x00 x00 x80 x3f x00 x00 x80 x3f)
(L (W x00 x00 x00 x00 x00 x00 x00 x00))
(L (W x00 x00 x80 xbf x00 x00 x80 xbf))))
(T (W x45 x26 x22 x84 xe4 x9c xf2 xcb)
(T (W xc4 x00 x00 x00 x01 x00 x00 x00)
(T (W x4e x45 x5f x33 x00 x00 x00 x00)
(L (W x00 x00 x00 x00 x00 x00 x00 x00)) E)
(L (W xff xff xff xff xff xff xff xff)))
(T (W xff xff xff xff xff xff xff xff)
(L (W xff xff xff xff xff xff xff xff))
(L (W x00 x00 x00 x00 x00 x00 x00 x00))))))
(T (W x20 x01 x00 x00 x04 x00 x00 x00)
(T (W xff xff xff xff xff xff xff xff)
(T (W x3e x00 x00 x00 x9c x00 x00 x00)
(T (W x00 x00 x00 x00 x00 x00 x00 x00)
(T (W x00 x00 x00 x00 x00 x00 x00 x00)
(L (W x45 x26 x22 x84 xe4 x9c xf2 xcb)) E)
(L (W x18 x00 x00 x00 x0c x00 x00 x00)))
(T (W x00 x00 x00 x00 x00 x00 x00 x00)
(L (W xa4 x22 xfe xff x29 x00 x00 x00))
(L (W x00 x00 x80 xbf x00 x00 x80 xbf))))
(T (W x00 x00 x80 x3f x00 x00 x80 x3f)
(T (W x00 x00 x80 x3f x00 x00 x80 x3f)
(T (W xa4 xe2 xfd xff x25 x00 x00 x00)
(L (W x00 x00 x00 x00 x00 x00 x00 x00)) E)
(L (W xb0 x00 x00 x00 x64 x00 x00 x00)))
(T (W x49 xa1 x68 x4a xeb x5f xdd x3d)
(L (W xff xff xff xff xff xff xff xff))
(L (W x00 x00 x00 x00 x00 x00 x00 x00)))))
(T (W xff xff xff xff xff xff xff xff)
(T (W x68 x00 x00 x00 x5c x00 x00 x00)
(T (W xa6 x87 x88 xe2 xbd xc8 x50 x3e)
(T (W xff xff xff xff xff xff xff xff)
(L (W x00 x00 x00 x00 x00 x00 x00 x00)) E)
(L (W x00 x00 x80 xbf x00 x00 x80 xbf)))
(T (W xff xff xff xff xff xff xff xff)
(L (W x2c x01 x00 x00 x04 x00 x00 x00))
(L (W x00 x00 x00 x00 x00 x00 x00 x00))))
(T (W x00 x00 x00 x00 x00 x00 x00 x00)
(T (W xff xff xff xff xff xff xff xff)
(T (W x54 x00 x00 x00 x48 x00 x00 x00)
(L (W x00 x00 x00 x00 x00 x00 x00 x00)) E)
(L (W x00 x00 x00 x00 x00 x00 x00 x00)))
(T (W x00 x00 x00 x00 x00 x00 x00 x00)
(L (W xff xff xff xff xff xff xff xff))
(L (W xff xff xff xff x8c x00 x00 x00))))))))
(T (W x6c x64 x5f x70 x6f x6b x65 x5f)
(T (W x26 x02 x00 x00 xff xff xff xff)
(T (W xff xff xff xff xff xff xff xff)
(T (W x00 x00 x80 x3f x00 x00 x80 x3f)
(T (W x00 x00 x00 x00 x00 x00 x00 x00)
(T (W xff xff xff xff xff xff xff xff)
(T (W xff xff xff xff xff xff xff xff)
(L (W x00 x00 x00 x00 x00 x00 x00 x00)) E)
(L (W x00 x00 x00 x00 x12 x00 x00 x00)))
(T (W x00 x00 x80 x3f x00 x00 x80 x3f)
(L (W x85 x00 x00 x00 xff xff xff xff))
(L (W x68 x00 x00 x00 x5c x00 x00 x00))))
(T (W xc4 x90 xcd xfa x5f x41 xb9 xa9)
(T (W x00 x00 x80 x3f x00 x00 x80 x3f)
(T (W x45 x26 x22 x84 xe4 x9c xf2 xcb)
(L (W x68 x00 x00 x00 x5c x00 x00 x00)) E)
(L (W x00 x00 x00 x00 x00 x00 x00 x00)))
(T (W x00 x00 x80 x3f x00 x00 x80 x3f)
(L (W x3c x00 x00 x00 x00 x00 x80 xbf))
(L (W x54 x00 x00 x00 x48 x00 x00 x00)))))
(T (W x00 x00 x00 x00 x00 x00 x00 x00)
(T (W xfc x3e xfc xff x3e x00 x00 x00)
(T (W x00 x00 x00 x00 x84 xa9 xfc xff)
(T (W x50 x00 x00 x00 x44 x00 x00 x00)
(L (W x00 x00 x00 x00 x00 x00 x00 x00)) E)
(L (W xff xff xff xff xff xff xff xff)))
(T (W x9d x01 x00 x00 xff xff xff xff)
(L (W x4a x26 xfe xff x74 x00 x00 x00))
(L (W xff xff xff xff xff xff xff xff))))
(T (W xff xff xff xff xff xff xff xff)
(T (W x00 x00 x00 x00 x12 x00 x00 x00)
(T (W x00 x00 x00 x00 x00 x00 x00 x00)
(L (W xff xff xff xff xff xff xff xff)) E)
(L (W x00 x00 x80 xbf x00 x00 x80 xbf)))
(T (W x45 x44 x00 x00 x00 x00 x00 x00)
(L (W x49 xa1 x68 x4a xeb x5f xdd x3d))
(L (W xff xff xff xff xff xff xff xff))))))
(T (W x00 x00 x80 x3f x00 x00 x80 x3f)
(T (W x00 x00 x80 x3f x00 x00 x80 x3f)
(T (W x00 x00 x00 x00 x00 x00 x00 x00)
(T (W x01 x00 x00 x00 xa0 x00 x00 x00)
(T (W xb8 x00 x00 x00 xac x00 x00 x00)
(L (W x00 x00 x00 x00 x00 x00 x00 x00)) E)
(L (W x30 x33 x5f x43 x4c x45 x41 x52)))
(T (W xcc x00 x00 x00 x01 x00 x00 x00)
(L (W x00 x00 x80 x3f x00 x00 x80 x3f))
(L (W x74 x03 x00 x00 x4c x02 x00 x00))))
(T (W x4a x74 xfe xff x00 x00 x01 x01)
(T (W xff xff xff xff xff xff xff xff)
(T (W x01 x00 x00 x00 x9c x00 x00 x00)
(L (W x68 x00 x00 x00 x5c x00 x00 x00)) E)
(L (W x00 x00 x00 x00 x00 x00 x00 x00)))
(T (W xff xff xff xff xc8 x00 x00 x00)
(L (W x54 x00 x00 x00 x48 x00 x00 x00))
(L (W xff xff xff xff xff xff xff xff)))))
(T (W x00 x00 x80 x3f x00 x00 x80 x3f)
(T (W x00 x00 x00 x00 x00 x00 x00 x00)
(T (W x00 x00 x80 x3f x00 x00 x80 x3f)
(T (W x4a xb6 xfd xff x74 x00 x00 x00)
(L (W x00 x00 x80 xbf x00 x00 x80 xbf)) E)
(L (W xff xff xff xff xff xff xff xff)))
(T (W x00 x00 x00 x00 x00 x00 x00 x00)
(L (W x45 x26 x22 x84 xe4 x9c xf2 xcb))
(L (W x6c x00 x00 x00 x60 x00 x00 x00))))
(T (W xff xff xff xff xff xff xff xff)
(T (W x00 x00 x80 x3f x00 x00 x80 x3f)
(T (W x00 x00 x00 x00 x00 x00 x00 x00)
(L (W x00 x00 x00 x00 x1c x00 x20 x00)) E)
(L (W x00 x00 x80 xbf x00 x00 x80 xbf)))
(T (W x00 x00 x80 x3f x00 x00 x80 x3f)
(L (W x00 x00 x80 xbf x00 x00 x80 xbf))
(L (W xc4 x00 x00 x00 x01 x00 x00 x00)))))))
(T (W x00 x00 x00 x00 x00 x00 x00 x00)
(T (W x00 x00 x80 x3f x00 x00 x80 x3f)
(T (W x00 x00 x80 x3f x00 x00 x80 x3f)
(T (W x00 x00 x00 x00 x00 x00 x00 x00)
(T (W x18 x00 x00 x00 x10 x00 x00 x00)
(T (W xff xff xff xff xff xff xff xff)
(L (W x00 x00 x00 x00 x2a x8f xff xff)) E)
(L (W x00 x00 x00 x00 x00 x00 x00 x00)))
(T (W x18 x00 x00 x00 x10 x00 x00 x00)
(L (W x00 x00 x00 x00 x00 x00 x00 x00))
(L (W xff xff xff xff xff xff xff xff))))
(T (W x82 x00 x00 x00 xff xff xff xff)
(T (W xc4 x00 x00 x00 x01 x00 x00 x00)
(T (W x50 x00 x00 x00 x44 x00 x00 x00)
(L (W x54 x00 x00 x00 x48 x00 x00 x00)) E)
(L (W x30 x33 x5f x43 x4c x45 x41 x52)))
(T (W x4a x4e xfd xff x74 x00 x00 x00)
(L (W x50 x00 x00 x00 x44 x00 x00 x00))
(L (W xff xff xff xff x9c x00 x00 x00)))))
(T (W x45 x26 x22 x84 xe4 x9c xf2 xcb)
(T (W x00 x00 x00 x00 x00 x00 x00 x00)
(T (W x18 x00 x00 x00 x0c x00 x00 x00)
(T (W x00 x00 x80 x3f x00 x00 x80 x3f)
(L (W x49 xa1 x68 x4a xeb x5f xdd x3d)) E)
(L (W xff xff xff xff xff xff xff xff)))
(T (W x00 x00 x00 x00 x00 x00 x00 x00)
(L (W x00 x00 x00 x00 x00 x00 x00 x00))
(L (W xff xff xff xff xff xff xff xff))))
(T (W xb8 x00 x00 x00 xac x00 x00 x00)
(T (W x45 x26 x22 x84 xe4 x9c xf2 xcb)
(T (W xff xff xff xff xff xff xff xff)
(L (W xff xff xff xff xbc x00 x00 x00)) E)
(L (W x14 xf3 xfe xff x00 x01 x01 x01)))
(T (W x45 x26 x22 x84 xe4 x9c xf2 xcb)
(L (W x00 x00 x80 xbf x00 x00 x80 xbf))
(L (W xff xff xff xff xff xff xff xff))))))
(T (W x45 x26 x22 x84 xe4 x9c xf2 xcb)
(T (W x00 x00 x80 x3f x00 x00 x80 x3f)
(T (W xa4 x26 xfc xff x3c x00 x00 x00)
(T (W x45 x26 x22 x84 xe4 x9c xf2 xcb)
(T (W xb8 x00 x00 x00 xac x00 x00 x00)
(L (W x46 x53 x59 x53 x5f x4e x53 x5f)) E)
(L (W xff xff xff xff xc4 x00 x00 x00)))
(T (W xff xff xff xff xff xff xff xff)
(L (W x00 x00 x00 x00 x00 x00 x00 x00))
(L (W xff xff xff xff xff xff xff xff))))
(T (W xff xff xff xff xff xff xff xff)
(T (W xb6 x9b xd9 xc2 x9d xc0 xb2 xaf)
(T (W x00 x00 x80 x3f x00 x00 x80 x3f)
(L (W x00 x00 x80 xbf x00 x00 x80 xbf)) E)
(L (W x49 xa1 x68 x4a xeb x5f xdd x3d)))
(T (W xff xff xff xff xff xff xff xff)
(L (W x45 x26 x22 x84 xe4 x9c xf2 xcb))
(L (W xff xff xff xff xff xff xff xff)))))
(T (W x00 x00 x80 x3f x00 x00 x80 x3f)
(T (W x00 x00 x00 x00 x00 x00 x00 x00)
(T (W x00 x00 x80 x3f x00 x00 x80 x3f)
(T (W x00 x00 x00 x00 x00 x00 x00 x00)
(L (W x00 x00 x80 xbf x00 x00 x80 xbf)) E)
(L (W x00 x00 x00 x00 x00 x00 x00 x00)))
(T (W x00 x00 x80 x3f x00 x00 x80 x3f)
(L (W x68 x00 x00 x00 x5c x00 x00 x00))
(L (W x45 x26 x22 x84 xe4 x9c xf2 xcb))))
(T (W xff xff xff xff xff xff xff xff)
(T (W x00 x00 x80 x3f x00 x00 x80 x3f)
(T (W xff xff xff xff xff xff xff xff)
(L (W x00 x00 x00 x01 x01 x01 x2a x00)) E)
(L (W xff xff xff xff xb0 x00 x00 x00)))
(T (W x01 x00 x00 x00 xa0 x00 x00 x00)
(L (W x45 x26 x22 x84 xe4 x9c xf2 xcb))
(L (W x00 x00 x00 x00 x00 x00 x00 x00)))))))))
(T (W x00 x00 x80 x3f x00 x00 x80 x3f)
(T (W xff xff xff xff xff xff xff xff)
(T (W x6c x00 x00 x00 x60 x00 x00 x00)
(T (W x64 x00 x00 x00 x9c x00 x00 x00)
(T (W x00 x00 x00 x00 x00 x00 x00 x00)
(T (W x00 x00 x00 x00 x02 x00 x00 x00)
(T (W x54 x00 x00 x00 x48 x00 x00 x00)
(T (W x00 x00 x80 x3f x00 x00 x80 x3f)
(L (W xff xff xff xff xff xff xff xff)) E)
(L (W x00 x00 x00 x00 x00 x00 x00 x00)))
(T (W x4f x84 x6f x8b xe8 xcb x63 xb7)
(L (W xfa x05 xfe xff x78 x00 x00 x00))
(L (W x45 x26 x22 x84 xe4 x9c xf2 xcb))))
(T (W xff xff xff xff xff xff xff xff)
(T (W x00 x00 x00 x00 x00 x00 x00 x00)
(T (W xff xff xff xff xff xff xff xff)
(L (W x00 x00 x80 xbf x00 x00 x80 xbf)) E)
(L (W xff xff xff xff xff xff xff xff)))
(T (W x00 x00 x00 x00 x00 x00 x00 x00)
(L (W x00 x00 x00 x00 x00 x00 x00 x00))
(L (W x00 x00 x80 xbf x00 x00 x80 xbf)))))
(T (W x00 x00 x00 x00 x00 x00 x00 x00)
(T (W xff xff xff xff xff xff xff xff)
(T (W x00 x00 x80 x3f x00 x00 x80 x3f)
(T (W x45 x26 x22 x84 xe4 x9c xf2 xcb)
(L (W xff xff xff xff xff xff xff xff)) E)
(L (W xfa xa5 xfe xff x78 x00 x00 x00)))
(T (W x18 x00 x00 x00 x0c x00 x00 x00)
(L (W x00 x00 x00 x00 x00 x00 x00 x00))
(L (W x4a x24 xff xff x74 x00 x00 x00))))
(T (W x14 x69 xfc xff x00 x01 x01 x01)
(T (W x4b x00 x00 x00 xff xff xff xff)
(T (W x68 x00 x00 x00 x5c x00 x00 x00)
(L (W xff xff xff xff xc4 x00 x00 x00)) E)
(L (W x00 x00 x00 x00 x00 x00 x00 x00)))
(T (W xff xff xff xff xff xff xff xff)
(L (W x00 x00 x00 x00 x12 x00 x00 x00))
(L (W x6c x00 x00 x00 x60 x00 x00 x00))))))
(T (W x00 x00 x00 x00 x00 x00 x00 x00)
(T (W x00 x00 x00 x00 x01 x00 x00 x00)
(T (W xff xff xff xff xff xff xff xff)
(T (W x45 x26 x22 x84 xe4 x9c xf2 xcb)
(T (W x00 x00 x80 x3f x00 x00 x80 x3f)
(L (W xff xff xff xff xff xff xff xff)) E)
(L (W xff xff xff xff xff xff xff xff)))
(T (W x00 x00 x80 x3f x00 x00 x80 x3f)
(L (W x00 x00 x00 x00 x00 x00 x00 x00))
(L (W x14 x19 xff xff x00 x01 x01 x01))))
(T (W x45 x26 x22 x84 xe4 x9c xf2 xcb)
(T (W x68 x00 x00 x00 x5c x00 x00 x00)
(T (W x00 x00 x00 x00 x00 x00 x00 x00)
(L (W x45 x26 x22 x84 xe4 x9c xf2 xcb)) E)
(L (W xff xff xff xff xff xff xff xff)))
(T (W x00 x00 x80 x3f x00 x00 x80 x3f)
(L (W x4f x84 x6f x8b xe8 xcb x63 xb7))
(L (W x00 x00 x80 xbf x00 x00 x80 xbf)))))
(T (W xa4 xfc xfb xff x21 x00 x00 x00)
(T (W xff xff xff xff xff xff xff xff)
(T (W xb8 x00 x00 x00 xac x00 x00 x00)
(T (W x00 x00 x00 x00 x00 x00 x00 x00)
(L (W x00 x00 x00 x00 x00 x00 x00 x00)) E)
(L (W xff xff xff xff xb0 x00 x00 x00)))
(T (W x02 x00 x00 x00 xff xff xff xff)
(L (W x4f x84 x6f x8b xe8 xcb x63 xb7))
(L (W x00 x00 x80 xbf x00 x00 x80 xbf))))
(T (W x18 x00 x00 x00 x0c x00 x00 x00)
(T (W x00 x00 x00 x00 x00 x00 x00 x00)
(T (W x00 x00 x80 x3f x00 x00 x80 x3f)
(L (W x00 x00 x00 x00 x00 x00 x00 x00)) E)
(L (W x00 x00 x00 x00 x00 x00 x00 x00)))
(T (W x00 x00 x00 x00 x00 x00 x00 x00)
(L (W x00 x00 x00 x00 x12 x00 x00 x00))
(L (W x6c x00 x00 x00 x60 x00 x00 x00)))))))
(T (W x00 x00 x00 x00 x84 x9f xfb xff)
(T (W x5f x77 x69 x6c x64 x5f x70 x6f)
(T (W xfc xe4 xfb xff x23 x00 x00 x00)
(T (W xff xff xff xff xff xff xff xff)
(T (W x00 x00 x80 x3f x00 x00 x80 x3f)
(T (W x18 x00 x00 x00 x0c x00 x00 x00)
(L (W xff xff xff xff xff xff xff xff)) E)
(L (W xff xff xff xff xff xff xff xff)))
(T (W x00 x00 x00 x00 x00 x00 x00 x00)
(L (W xff xff xff xff xff xff xff xff))
(L (W x54 x00 x00 x00 x48 x00 x00 x00))))
(T (W xb8 x00 x00 x00 xac x00 x00 x00)
(T (W x00 x00 x80 x3f x00 x00 x80 x3f)
(T (W x1a x00 x00 x00 x67 x72 x6f x75)
(L (W x49 xa1 x68 x4a xeb x5f xdd x3d)) E)
(L (W xff xff xff xff xff xff xff xff)))
(T (W x00 x00 x80 x3f x00 x00 x80 x3f)
(L (W x45 x26 x22 x84 xe4 x9c xf2 xcb))
(L (W x45 x26 x22 x84 xe4 x9c xf2 xcb)))))
(T (W x00 x00 x00 x00 x00 x00 x00 x00)
(T (W xff xff xff xff xff xff xff xff)
(T (W x68 x00 x00 x00 x5c x00 x00 x00)
(T (W x00 x00 x00 x00 x00 x00 x00 x00)
(L (W x46 x53 x59 x53 x5f x4e x53 x5f)) E)
(L (W x18 x00 x00 x00 x10 x00 x00 x00)))
(T (W xff xff xff xff xff xff xff xff)
(L (W x45 x26 x22 x84 xe4 x9c xf2 xcb))
(L (W x50 x00 x00 x00 x44 x00 x00 x00))))
(T (W x45 x26 x22 x84 xe4 x9c xf2 xcb)
(T (W x74 x03 x00 x00 x4c x02 x00 x00)
(T (W x6b x65 x5f x6c x76 x32 x5f x70)
(L (W x00 x00 x80 xbf x00 x00 x80 xbf)) E)
(L (W x12 x00 x00 x00 x46 x53 x59 x53)))
(T (W x00 x00 x00 x00 x00 x00 x00 x00)
(L (W x00 x00 x00 x00 x00 x00 x00 x00))
(L (W x00 x00 x80 xbf x00 x00 x80 xbf))))))
(T (W x00 x00 x00 x00 x00 x00 x00 x00)
(T (W x00 x00 x00 x00 x00 x00 x00 x00)
(T (W xff xff xff xff xff xff xff xff)
(T (W x00 x00 x00 x00 x00 x00 x00 x00)
(T (W x00 x00 x80 x3f x00 x00 x80 x3f)
(L (W xff xff xff xff xbc x00 x00 x00)) E)
(L (W x40 x00 x44 x00 x48 x00 x4c x00)))
(T (W x00 x00 x80 x3f x00 x00 x80 x3f)
(L (W x00 x00 x80 xbf x00 x00 x80 xbf))
(L (W x22 x00 x00 x00 x25 x00 x00 x00))))
(T (W x68 x00 x00 x00 x5c x00 x00 x00)
(T (W xff xff xff xff xff xff xff xff)
(T (W x00 x00 x00 x00 x00 x00 x00 x00)
(L (W x00 x00 x00 x00 x00 x00 x00 x00)) E)
(L (W x00 x00 x00 x00 x00 x00 x00 x00)))
(T (W x68 x00 x00 x00 x5c x00 x00 x00)
(L (W x00 x00 x00 x00 x00 x00 x00 x00))
(L (W x18 x00 x00 x00 x10 x00 x00 x00)))))
(T (W x00 x00 x00 x00 x00 x00 x00 x00)
(T (W xff xff xff xff xff xff xff xff)
(T (W x5c x00 x60 x00 x62 x00 x00 x00)
(T (W x4a xda xff xff x00 x00 x01 x01)
(L (W x00 x00 x00 x00 x00 x00 x00 x00)) E)
(L (W x45 x26 x22 x84 xe4 x9c xf2 xcb)))
(T (W x00 x00 x00 x00 x00 x00 x00 x00)
(L (W x00 x00 x00 x00 x00 x00 x00 x00))
(L (W x00 x00 x80 xbf x00 x00 x80 xbf))))
(T (W x00 x00 x80 x3f x00 x00 x80 x3f)
(T (W x00 x00 x00 x00 x00 x00 x00 x00)
(T (W xb4 x00 x00 x00 x32 x00 x00 x00)
(L (W x00 x00 x60 x00 x00 x00 x00 x00)) E)
(L (W x00 x00 x00 x00 x00 x00 x00 x00)))
(T (W x00 x00 x00 x00 x00 x00 x00 x00)
(L (W x2c x00 x00 x00 x10 x00 x00 x00))
(L (W xff xff xff xff xff xff xff xff))))))))
(T (W xff xff xff xff xff xff xff xff)
(T (W x00 x00 x00 x00 x00 x00 x00 x00)
(T (W x00 x00 x80 x3f x00 x00 x80 x3f)
(T (W x40 x00 x00 x00 x9c x00 x00 x00)
(T (W x50 x00 x00 x00 x44 x00 x00 x00)
(T (W xff xff xff xff xff xff xff xff)
(T (W x00 x00 x00 x00 x00 x00 x00 x00)
(L (W x00 x00 x00 x00 x00 x00 x00 x00)) E)
(L (W x00 x00 x80 xbf x00 x00 x80 xbf)))
(T (W xff xff xff xff xff xff xff xff)
(L (W x00 x00 x80 x3f x00 x00 x80 x3f))
(L (W xff xff xff xff xff xff xff xff))))
(T (W x45 x26 x22 x84 xe4 x9c xf2 xcb)
(T (W xff xff xff xff xff xff xff xff)
(T (W xff xff xff xff x03 x00 x00 x00)
(L (W xc6 x00 x00 x00 xff xff xff xff)) E)
(L (W x00 x00 x00 x00 x00 x00 x00 x00)))
(T (W xff xff xff xff xff xff xff xff)
(L (W xbc x00 x00 x00 x02 x00 x00 x00))
(L (W xff xff xff xff xff xff xff xff)))))
(T (W x14 xed xfb xff x00 x01 x01 x01)
(T (W x00 x00 x80 x3f x00 x00 x80 x3f)
(T (W xff xff xff xff xff xff xff xff)
(T (W xff xff xff xff xff xff xff xff)
(L (W x45 x26 x22 x84 xe4 x9c xf2 xcb)) E)
(L (W xa4 xb0 xfe xff x18 x00 x00 x00)))
(T (W x00 x00 x00 x00 x00 x00 x00 x00)
(L (W xff xff xff xff xff xff xff xff))
(L (W x00 x00 x00 x00 x00 x00 x00 x00))))
(T (W x00 x00 x00 x00 x00 x00 x00 x00)
(T (W x54 x00 x00 x00 x48 x00 x00 x00)
(T (W xb0 x00 x00 x00 x64 x00 x00 x00)
(L (W xff xff xff xff xb0 x00 x00 x00)) E)
(L (W xff xff xff xff xc4 x00 x00 x00)))
(T (W x00 x00 x80 x3f x00 x00 x80 x3f)
(L (W x1d x00 x00 x00 x20 x00 x00 x00))
(L (W xff xff xff xff xff xff xff xff))))))
(T (W xff xff xff xff x04 x00 x00 x00)
(T (W x00 x00 x00 x00 x84 xdb xfb xff)
(T (W x00 x00 x80 x3f x00 x00 x80 x3f)
(T (W x43 x00 x00 x00 xff xff xff xff)
(T (W xa6 x01 x00 x00 xff xff xff xff)
(L (W x45 x26 x22 x84 xe4 x9c xf2 xcb)) E)
(L (W x00 x00 x80 xbf x00 x00 x80 xbf)))
(T (W xff xff xff xff xff xff xff xff)
(L (W x03 x00 x00 x00 xbc x00 x00 x00))
(L (W x45 x26 x22 x84 xe4 x9c xf2 xcb))))
(T (W x00 x00 x00 x00 x00 x00 x00 x00)
(T (W x00 x00 x00 x00 x12 x00 x00 x00)
(T (W xff xff xff xff xff xff xff xff)
(L (W xb0 x00 x00 x00 x64 x00 x00 x00)) E)
(L (W x00 x00 x80 xbf x00 x00 x80 xbf)))
(T (W xff xff xff xff x02 x00 x00 x00)
(L (W xcc x00 x00 x00 x01 x00 x00 x00))
(L (W x00 x00 x00 x00 x00 x00 x00 x00)))))
(T (W x00 x00 x80 x3f x00 x00 x80 x3f)
(T (W x00 x00 x00 x00 x00 x00 x00 x00)
(T (W xff xff xff xff xff xff xff xff)
(T (W x70 x5f x6c x65 x61 x64 x65 x72)
(L (W xff xff xff xff xff xff xff xff)) E)
(L (W x00 x00 x00 x00 x00 x00 x00 x00)))
(T (W x00 x00 x80 x3f x00 x00 x80 x3f)
(L (W x03 x00 x00 x00 xd0 x00 x00 x00))
(L (W xff xff xff xff xff xff xff xff))))
(T (W x4b x00 x00 x00 xff xff xff xff)
(T (W x14 xfd xfc xff x00 x01 x01 x01)
(T (W x00 x00 x00 x00 x00 x00 x00 x00)
(L (W x44 x00 x00 x00 x0c x00 x00 x00)) E)
(L (W xff xff xff xff xff xff xff xff)))
(T (W xff xff xff xff xff xff xff xff)
(L (W x74 x00 x00 x00 x68 x00 x00 x00))
(L (W x0c x06 x00 x00 xe4 x04 x00 x00)))))))
(T (W xff xff xff xff x03 x00 x00 x00)
(T (W xb8 x00 x00 x00 xac x00 x00 x00)
(T (W x01 x00 x00 x00 x3e x00 x00 x00)
(T (W x68 x00 x00 x00 x5c x00 x00 x00)
(T (W xff xff xff xff xff xff xff xff)
(T (W x23 x00 x00 x00 x10 x00 x00 x00)
(L (W x00 x00 x80 xbf x00 x00 x80 xbf)) E)
(L (W x50 x00 x00 x00 x44 x00 x00 x00)))
(T (W xff xff xff xff xff xff xff xff)
(L (W x00 x00 x80 x3f x00 x00 x80 x3f))
(L (W x00 x00 x00 x00 x00 x00 x00 x00))))
(T (W x45 x26 x22 x84 xe4 x9c xf2 xcb)
(T (W x2c x01 x00 x00 x04 x00 x00 x00)
(T (W xff xff xff xff xff xff xff xff)
(L (W xcc x00 x00 x00 x01 x00 x00 x00)) E)
(L (W x49 xa1 x68 x4a xeb x5f xdd x3d)))
(T (W xff xff xff xff xff xff xff xff)
(L (W xb0 x00 x00 x00 x3c x00 x00 x00))
(L (W xff xff xff xff xff xff xff xff)))))
(T (W x50 x00 x00 x00 x44 x00 x00 x00)
(T (W x45 x26 x22 x84 xe4 x9c xf2 xcb)
(T (W xff xff xff xff xff xff xff xff)
(T (W xb8 x00 x00 x00 xac x00 x00 x00)
(L (W xff xff xff xff xb0 x00 x00 x00)) E)
(L (W x45 x44 x00 x00 x00 x00 x00 x00)))
(T (W x00 x00 x80 x3f x00 x00 x80 x3f)
(L (W xff xff xff xff x9c x00 x00 x00))
(L (W xff xff xff xff xff xff xff xff))))
(T (W x1e x76 x16 x69 xd8 x98 xc1 xb5)
(T (W x00 x00 x80 x3f x00 x00 x80 x3f)
(T (W x6c x00 x00 x00 x60 x00 x00 x00)
(L (W x00 x00 x80 xbf x00 x00 x80 xbf)) E)
(L (W xff xff xff xff xff xff xff xff)))
(T (W xff xff xff xff xa0 x00 x00 x00)
(L (W x58 x00 x00 x00 x4c x00 x00 x00))
(L (W x30 x33 x5f x43 x4c x45 x41 x52))))))
(T (W x18 x00 x00 x00 x0c x00 x00 x00)
(T (W xbc x00 x00 x00 xb0 x00 x00 x00)
(T (W x00 x00 x80 x3f x00 x00 x80 x3f)
(T (W x24 x00 x28 x00 x2c x00 x30 x00)
(T (W xff xff xff xff xff xff xff xff)
(L (W x49 xa1 x68 x4a xeb x5f xdd x3d)) E)
(L (W x00 x00 x00 x00 x00 x00 x00 x00)))
(T (W x00 x00 x00 x00 x00 x00 x00 x00)
(L (W x00 x00 x80 xbf x00 x00 x80 xbf))
(L (W x45 x44 x00 x00 x00 x00 x00 x00))))
(T (W x00 x00 x00 x00 x00 x00 x00 x00)
(T (W x45 x26 x22 x84 xe4 x9c xf2 xcb)
(T (W x00 x00 x00 x00 x00 x00 x00 x00)
(L (W x00 x00 x00 x00 x00 x00 x00 x00)) E)
(L (W x29 x00 x00 x00 x2c x00 x00 x00)))
(T (W x22 x00 x00 x00 x67 x72 x6f x75)
(L (W xb8 x00 x00 x00 x3c x00 x00 x00))
(L (W x46 x53 x59 x53 x5f x4e x53 x5f)))))
(T (W x00 x00 x80 x3f x00 x00 x80 x3f)
(T (W x00 x00 x00 x00 x00 x00 x00 x00)
(T (W x18 x00 x00 x00 x0c x00 x00 x00)
(T (W x00 x00 x80 x3f x00 x00 x80 x3f)
(L (W x10 xc2 xff xff x00 x00 x00 x01)) E)
(L (W x00 x00 x00 x00 x00 x00 x00 x00)))
(T (W x14 x45 xfd xff x00 x01 x01 x01)
(L (W xff xff xff xff x94 x00 x00 x00))
(L (W xff xff xff xff xff xff xff xff))))
(T (W xff xff xff xff xff xff xff xff)
(T (W xff xff xff xff xc4 x00 x00 x00)
(T (W x00 x00 x80 x3f x00 x00 x80 x3f)
(L (W x00 x00 x80 xbf x00 x00 x80 xbf)) E)
(L (W xff xff xff xff xff xff xff xff)))
(T (W xff xff xff xff xff xff xff xff)
(L (W x00 x00 x80 xbf x00 x00 x80 xbf))
(L (W x49 xa1 x68 x4a xeb x5f xdd x3d))))))))))
(T (W x28 x3f x01 x00 xcc x3c x01 x00)
(T (W xd8 x15 x00 x00 x04 x13 x00 x00)
(T (W xff xff xff xff xff xff xff xff)
(T (W x00 x00 x00 x00 x00 x00 x00 x00)
(T (W x50 x00 x00 x00 x44 x00 x00 x00)
(T (W x01 x00 x00 x00 x04 x00 x00 x00)
(T (W xff xff xff xff xff xff xff xff)
(T (W x45 x26 x22 x84 xe4 x9c xf2 xcb)
(T (W x00 x00 x80 x3f x00 x00 x80 x3f)
(L (W xff xff xff xff xbc x00 x00 x00)) E)
(L (W xff xff xff xff xff xff xff xff)))
(T (W xa4 x0b xfd xff x15 x00 x00 x00)
(L (W x00 x00 x00 x00 x00 x00 x00 x00))
(L (W x00 x00 x00 x00 x00 x00 x00 x00))))
(T (W x45 x26 x22 x84 xe4 x9c xf2 xcb)
(T (W x00 x00 x00 x00 x00 x00 x00 x00)
(T (W xff xff xff xff xff xff xff xff)
(L (W x49 xa1 x68 x4a xeb x5f xdd x3d)) E)
(L (W x4a xc3 xfe xff x74 x00 x00 x00)))
(T (W x00 x00 x00 x00 x00 x00 x00 x00)
(L (W x00 x00 x00 x00 x00 x00 x00 x00))
(L (W x00 x00 x00 x00 x00 x00 x00 x00)))))
(T (W x00 x00 x00 x00 x00 x00 x00 x00)
(T (W xff xff xff xff xff xff xff xff)
(T (W x00 x00 x62 x00 x78 x00 x04 x00)
(T (W x00 x00 x00 x00 x00 x00 x00 x00)
(L (W x18 x00 x00 x00 x10 x00 x00 x00)) E)
(L (W x00 x00 x80 xbf x00 x00 x80 xbf)))
(T (W xfa x24 xfd xff x78 x00 x00 x00)
(L (W xc7 x5a x69 x12 x83 x78 x37 xc6))
(L (W x00 x00 x80 xbf x00 x00 x80 xbf))))
(T (W x68 x00 x00 x00 x5c x00 x00 x00)
(T (W xff xff xff xff xff xff xff xff)
(T (W x00 x00 x00 x00 x00 x00 x00 x00)
(L (W x45 x26 x22 x84 xe4 x9c xf2 xcb)) E)
(L (W x00 x00 x00 x00 x00 x00 x00 x00)))
(T (W x18 x00 x00 x00 x0c x00 x00 x00)
(L (W x00 x00 x00 x00 x00 x00 x00 x00))
(L (W x50 x00 x00 x00 x44 x00 x00 x00))))))
(T (W x00 x00 x00 x00 x00 x00 x00 x00)
(T (W xff xff xff xff xff xff xff xff)
(T (W x64 x00 x00 x00 x9c x00 x00 x00)
(T (W x00 x00 x00 x00 x00 x00 x00 x00)
(T (W x00 x00 x80 x3f x00 x00 x80 x3f)
(L (W x18 x00 x00 x00 x10 x00 x00 x00)) E)
(L (W xff xff xff xff xff xff xff xff)))
(T (W x45 x26 x22 x84 xe4 x9c xf2 xcb)
(L (W x00 x00 x00 x00 x00 x00 x00 x00))
(L (W x68 x00 x00 x00 x5c x00 x00 x00))))
(T (W x00 x00 x80 x3f x00 x00 x80 x3f)
(T (W x00 x00 x80 x3f x00 x00 x80 x3f)
(T (W x00 x00 x00 x00 x00 x00 x00 x00)
(L (W x00 x00 x00 x00 x00 x00 x00 x00)) E)
(L (W xff xff xff xff xff xff xff xff)))
(T (W x00 x00 x00 x00 x00 x00 x00 x00)
(L (W x00 x00 x00 x00 x0a x00 x00 x00))
(L (W x00 x00 x00 x00 x00 x00 x00 x00)))))
(T (W xff xff xff xff xff xff xff xff)
(T (W xb8 x00 x00 x00 xac x00 x00 x00)
(T (W x45 x26 x22 x84 xe4 x9c xf2 xcb)
(T (W xda xcf xff xff x63 x01 x00 x00)
(L (W x00 x00 x00 x00 x2a xb4 xff xff)) E)
(L (W x45 x26 x22 x84 xe4 x9c xf2 xcb)))
(T (W xff xff xff xff xbc x00 x00 x00)
(L (W x00 x00 x00 x00 x00 x00 x00 x00))
(L (W x45 x26 x22 x84 xe4 x9c xf2 xcb))))
(T (W x00 x00 x80 x3f x00 x00 x80 x3f)
(T (W xff xff xff xff xff xff xff xff)
(T (W x40 x00 x44 x00 x48 x00 x4c x00)
(L (W x5f x4e x53 x5f x30 x33 x5f x43)) E)
(L (W x30 x33 x5f x43 x4c x45 x41 x52)))
(T (W xe2 x0d xd7 xa2 x44 x69 xd7 x25)
(L (W x00 x00 x00 x00 x00 x00 x00 x00))
(L (W x50 x00 x00 x00 x44 x00 x00 x00)))))))
(T (W x00 x00 x00 x00 x00 x00 x00 x00)
(T (W xff xff xff xff xff xff xff xff)
(T (W xff xff xff xff xff xff xff xff)
(T (W xff xff xff xff xff xff xff xff)
(T (W x00 x00 x00 x00 x00 x00 x00 x00)
(T (W x00 x00 x80 x3f x00 x00 x80 x3f)
(L (W xff xff xff xff xb0 x00 x00 x00)) E)
(L (W xff xff xff xff xff xff xff xff)))
(T (W x00 x00 x00 x00 x12 x00 x00 x00)
(L (W xff xff xff xff xff xff xff xff))
(L (W x45 x26 x22 x84 xe4 x9c xf2 xcb))))
(T (W x68 x00 x00 x00 x5c x00 x00 x00)
(T (W x00 x00 x00 x00 x00 x00 x00 x00)
(T (W x00 x00 x00 x00 x00 x00 x00 x00)
(L (W x00 x00 x00 x00 x00 x00 x00 x00)) E)
(L (W xff xff xff xff xff xff xff xff)))
(T (W x00 x00 x00 x00 x00 x00 x00 x00)
(L (W x00 x00 x00 x00 x12 x00 x00 x00))
(L (W x00 x00 x00 x00 x00 x00 x00 x00)))))
(T (W x00 x00 x00 x00 x04 x00 x00 x00)
(T (W xff xff xff xff xff xff xff xff)
(T (W x45 x26 x22 x84 xe4 x9c xf2 xcb)
(T (W x00 x00 x00 x00 x00 x00 x00 x00)
(L (W x00 x00 x00 x00 x00 x00 x00 x00)) E)
(L (W x6c x00 x00 x00 x60 x00 x00 x00)))
(T (W x29 x00 x00 x00 x2c x00 x00 x00)
(L (W x00 x00 x80 xbf x00 x00 x80 xbf))
(L (W x00 x00 x80 xbf x00 x00 x80 xbf))))
(T (W x4a x6b xfc xff x74 x00 x00 x00)
(T (W xff xff xff xff xff xff xff xff)
(T (W x45 x26 x22 x84 xe4 x9c xf2 xcb)
(L (W x49 xa1 x68 x4a xeb x5f xdd x3d)) E)
(L (W x00 x00 x00 x00 x0a xfc xfe xff)))
(T (W xff xff xff xff x02 x00 x00 x00)
(L (W x00 x00 x00 x00 x00 x00 x00 x00))
(L (W x00 x00 x80 xbf x00 x00 x80 xbf))))))
(T (W x00 x00 x00 x00 x00 x00 x00 x00)
(T (W x00 x00 x00 x00 x5a xfc xfd xff)
(T (W xff xff xff xff x03 x00 x00 x00)
(T (W x00 x00 x00 x00 x00 x00 x00 x00)
(T (W x45 x26 x22 x84 xe4 x9c xf2 xcb)
(L (W x45 x26 x22 x84 xe4 x9c xf2 xcb)) E)
(L (W xff xff xff xff xff xff xff xff)))
(T (W x00 x00 x80 x3f x00 x00 x80 x3f)
(L (W x00 x00 x00 x00 x00 x00 x00 x00))
(L (W x00 x01 x01 x01 xfa x5a xff xff))))
(T (W x50 x00 x00 x00 x44 x00 x00 x00)
(T (W x4a xdb xfc xff x74 x00 x00 x00)
(T (W x00 x00 x00 x00 x00 x00 x00 x00)
(L (W x00 x00 x00 x00 x00 x00 x00 x00)) E)
(L (W xff xff xff xff xff xff xff xff)))
(T (W x00 x00 x80 x3f x00 x00 x80 x3f)
(L (W x00 x00 x00 x00 x00 x00 x00 x00))
(L (W x54 x00 x00 x00 x48 x00 x00 x00)))))
(T (W x8a x01 x00 x00 xff xff xff xff)
(T (W xff xff xff xff x04 x00 x00 x00)
(T (W x00 x00 x80 x3f x00 x00 x80 x3f)
(T (W xff xff xff xff xff xff xff xff)
(L (W x00 x00 x00 x00 x00 x00 x00 x00)) E)
(L (W x54 x00 x00 x00 x48 x00 x00 x00)))
(T (W xff xff xff xff xff xff xff xff)
(L (W x46 x53 x59 x53 x5f x4e x53 x5f))
(L (W x00 x00 x00 x00 x00 x00 x00 x00))))
(T (W x00 x00 x80 x3f x00 x00 x80 x3f)
(T (W x45 x44 x00 x00 x00 x00 x00 x00)
(T (W x14 x00 xfe xff x00 x01 x01 x01)
(L (W xfa xfc xff xff x78 x00 x00 x00)) E)
(L (W x00 x00 x00 x00 x00 x00 x00 x00)))
(T (W x12 x00 x00 x00 x46 x53 x59 x53)
(L (W xff xff xff xff xff xff xff xff))
(L (W x1d x00 x00 x00 x20 x00 x00 x00))))))))
(T (W x00 x00 x80 x3f x00 x00 x80 x3f)
(T (W x00 x00 x00 x00 x00 x00 x00 x00)
(T (W x6f x6b x65 x5f x63 x6f x77 x61)
(T (W x45 x26 x22 x84 xe4 x9c xf2 xcb)
(T (W x00 x00 x80 x3f x00 x00 x80 x3f)
(T (W xff xff xff xff xff xff xff xff)
(T (W x20 x00 x00 x00 x10 x00 x00 x00)
(L (W x00 x00 x00 x00 x12 x00 x00 x00)) E)
(L (W x00 x00 x00 x00 x00 x00 x00 x00)))
(T (W x00 x00 x00 x00 x84 x0a xfd xff)
(L (W x67 x72 x6f x75 x70 x5f x77 x69))
(L (W x03 x00 x00 x00 xd8 x00 x00 x00))))
(T (W x00 x00 x00 x00 x00 x00 x00 x00)
(T (W xff xff xff xff xb0 x00 x00 x00)
(T (W x00 x00 x80 x3f x00 x00 x80 x3f)
(L (W xff xff xff xff xff xff xff xff)) E)
(L (W x00 x00 x00 x00 x12 x00 x00 x00)))
(T (W x18 x00 x00 x00 x0c x00 x00 x00)
(L (W x68 x00 x00 x00 x5c x00 x00 x00))
(L (W x45 x26 x22 x84 xe4 x9c xf2 xcb)))))
(T (W x00 x00 x80 x3f x00 x00 x80 x3f)
(T (W x00 x00 x00 x00 x00 x00 x00 x00)
(T (W xff xff xff xff xff xff xff xff)
(T (W xb8 x00 x00 x00 xac x00 x00 x00)
(L (W x00 x00 x00 x00 x00 x00 x00 x00)) E)
(L (W xff xff xff xff xff xff xff xff)))
(T (W x5f x4e x53 x5f x30 x33 x5f x43)
(L (W xff xff xff xff xff xff xff xff))
(L (W x00 x00 x00 x00 x00 x00 x00 x00))))
(T (W x5f x00 x00 x00 xff xff xff xff)
(T (W x00 x00 x00 x00 x00 x00 x00 x00)
(T (W x14 xec xfd xff x00 x01 x01 x01)
(L (W x00 x00 x00 x00 x0c x00 x18 x00)) E)
(L (W x45 x26 x22 x84 xe4 x9c xf2 xcb)))
(T (W x00 x00 x00 x00 x00 x00 x00 x00)
(L (W x00 x00 x80 xbf x00 x00 x80 xbf))
(L (W xc6 x00 x00 x00 xff xff xff xff))))))
(T (W x68 x00 x00 x00 x5c x00 x00 x00)
(T (W x68 x00 x00 x00 x5c x00 x00 x00)
(T (W x45 x26 x22 x84 xe4 x9c xf2 xcb)
(T (W xff xff xff xff x03 x00 x00 x00)
(T (W xff xff xff xff xff xff xff xff)
(L (W x00 x00 x00 x00 x00 x00 x00 x00)) E)
(L (W x00 x00 x00 x00 x00 x00 x00 x00)))
(T (W xff xff xff xff xff xff xff xff)
(L (W x68 x00 x00 x00 x5c x00 x00 x00))
(L (W x00 x00 x00 x00 x00 x00 x00 x00))))
(T (W x00 x00 x00 x00 x00 x00 x00 x00)
(T (W x00 x00 x00 x00 x02 x00 x00 x00)
(T (W xb8 x00 x00 x00 xac x00 x00 x00)
(L (W x14 xdc xff xff x00 x01 x01 x01)) E)
(L (W x00 x00 x00 x00 x00 x00 x00 x00)))
(T (W xff xff xff xff xff xff xff xff)
(L (W x18 x00 x00 x00 x0c x00 x00 x00))
(L (W xff xff xff xff xff xff xff xff)))))
(T (W x00 x00 x80 x3f x00 x00 x80 x3f)
(T (W x00 x00 x00 x00 x00 x00 x00 x00)
(T (W xff xff xff xff xff xff xff xff)
(T (W xca x01 x00 x00 xff xff xff xff)
(L (W x1d x00 x00 x00 x20 x00 x00 x00)) E)
(L (W x00 x00 x00 x00 x3a xce xfe xff)))
(T (W x49 xa1 x68 x4a xeb x5f xdd x3d)
(L (W xa8 x00 x00 x00 x64 x00 x00 x00))
(L (W x18 x00 x00 x00 x10 x00 x00 x00))))
(T (W xff xff xff xff xff xff xff xff)
(T (W x68 x00 x00 x00 x5c x00 x00 x00)
(T (W xff xff xff xff xff xff xff xff)
(L (W x00 x00 x80 xbf x00 x00 x80 xbf)) E)
(L (W xcc x00 x00 x00 x01 x00 x00 x00)))
(T (W x4a x77 xfd xff x74 x00 x00 x00)
(L (W x40 x00 x00 x00 x00 x00 x80 xbf))
(L (W xff xff xff xff xff xff xff xff)))))))
(T (W x00 x00 x80 x3f x00 x00 x80 x3f)
(T (W x18 x00 x00 x00 x0c x00 x00 x00)
(T (W x00 x00 x80 x3f x00 x00 x80 x3f)
(T (W x45 x26 x22 x84 xe4 x9c xf2 xcb)
(T (W xff xff xff xff xff xff xff xff)
(T (W xff xff xff xff xff xff xff xff)
(L (W x00 x00 x00 x00 x00 x00 x00 x00)) E)
(L (W x00 x00 x80 xbf x00 x00 x80 xbf)))
(T (W xc4 x00 x00 x00 x01 x00 x00 x00)
(L (W x49 xa1 x68 x4a xeb x5f xdd x3d))
(L (W x7c x03 x00 x00 x4c x02 x00 x00))))
(T (W x00 x00 x00 x00 x00 x00 x00 x00)
(T (W xff xff xff xff xff xff xff xff)
(T (W xb8 x00 x00 x00 xac x00 x00 x00)
(L (W x18 x00 x00 x00 x10 x00 x00 x00)) E)
(L (W x00 x00 x00 x00 x00 x00 x00 x00)))
(T (W xff xff xff xff x9c x00 x00 x00)
(L (W x00 x00 x00 x00 x18 x54 xfe xff))
(L (W x03 x00 x00 x00 xd0 x00 x00 x00)))))
(T (W x00 x00 x80 x3f x00 x00 x80 x3f)
(T (W x00 x00 x00 x00 x00 x00 x00 x00)
(T (W x64 x00 x00 x00 x9c x00 x00 x00)
(T (W x50 x00 x00 x00 x44 x00 x00 x00)
(L (W x00 x00 x80 xbf x00 x00 x80 xbf)) E)
(L (W xff xff xff xff xff xff xff xff)))
(T (W x00 x00 x00 x00 x00 x00 x00 x00)
(L (W x50 x00 x00 x00 x44 x00 x00 x00))
(L (W xff xff xff xff xff xff xff xff))))
(T (W xff xff xff xff xff xff xff xff)
(T (W x00 x00 x80 x3f x00 x00 x80 x3f)
(T (W x20 x00 x00 x00 x67 x72 x6f x75)
(L (W x74 x00 x08 x00 x0c x00 x00 x00)) E)
(L (W xb8 x00 x00 x00 x3c x00 x00 x00)))
(T (W x68 x00 x00 x00 x5c x00 x00 x00)
(L (W x00 x00 x80 xbf x00 x00 x80 xbf))
(L (W xe2 x71 xff xff x4b x00 x00 x00))))))
(T (W x00 x00 x80 x3f x00 x00 x80 x3f)
(T (W x50 x00 x00 x00 x44 x00 x00 x00)
(T (W x00 x00 x00 x00 x00 x00 x00 x00)
(T (W xff xff xff xff xff xff xff xff)
(T (W xff xff xff xff xff xff xff xff)
(L (W x00 x00 x00 x00 x00 x00 x00 x00)) E)
(L (W x74 x03 x00 x00 x4c x02 x00 x00)))
(T (W x02 x00 x00 x00 xff xff xff xff)
(L (W x45 x26 x22 x84 xe4 x9c xf2 xcb))
(L (W xff xff xff xff xff xff xff xff))))
(T (W x5e xe7 x0b x2d x5b x74 x4a x21)
(T (W x00 x00 x00 x00 x00 x00 x00 x00)
(T (W x00 x00 x60 x00 x00 x00 x00 x00)
(L (W x00 x00 x80 xbf x00 x00 x80 xbf)) E)
(L (W x00 x00 x80 xbf x00 x00 x80 xbf)))
(T (W x9f x01 x00 x00 xff xff xff xff)
(L (W x14 x64 xfe xff x00 x01 x01 x01))
(L (W x2c x01 x00 x00 x04 x00 x00 x00)))))
(T (W x00 x00 x80 x3f x00 x00 x80 x3f)
(T (W x00 x00 x00 x00 x00 x00 x00 x00)
(T (W x00 x00 x80 x3f x00 x00 x80 x3f)
(T (W x45 x26 x22 x84 xe4 x9c xf2 xcb)
(L (W x58 x00 x00 x00 x4c x00 x00 x00)) E)
(L (W x00 x00 x00 x00 x00 x00 x00 x00)))
(T (W x54 x00 x00 x00 x48 x00 x00 x00)
(L (W x00 x01 x01 x01 xfa x7e xfe xff))
(L (W xff xff xff xff xb0 x00 x00 x00))))
(T (W xff xff xff xff xff xff xff xff)
(T (W x45 x26 x22 x84 xe4 x9c xf2 xcb)
(T (W x21 x00 x00 x00 x0c x00 x00 x00)
(L (W x28 x00 x2c x00 x30 x00 x34 x00)) E)
(L (W xff xff xff xff xff xff xff xff)))
(T (W xff xff xff xff xff xff xff xff)
(L (W x00 x00 x80 xbf x00 x00 x80 xbf))
(L (W x00 x00 x00 x00 x00 x00 x00 x00)))))))))
(T (W x00 x00 x80 x3f x00 x00 x80 x3f)
(T (W xff xff xff xff xff xff xff xff)
(T (W xff xff xff xff xff xff xff xff)
(T (W xff xff xff xff xff xff xff xff)
(T (W x45 x26 x22 x84 xe4 x9c xf2 xcb)
(T (W x00 x00 x00 x00 x00 x00 x00 x00)
(T (W x4a x85 xfc xff x74 x00 x00 x00)
(T (W xff xff xff xff xff xff xff xff)
(L (W x00 x00 x00 x00 x00 x00 x00 x00)) E)
(L (W x00 x00 x00 x00 x00 x00 x00 x00)))
(T (W x00 x00 x80 x3f x00 x00 x80 x3f)
(L (W xff xff xff xff xff xff xff xff))
(L (W x00 x00 x80 xbf x00 x00 x80 xbf))))
(T (W xff xff xff xff xff xff xff xff)
(T (W x00 x00 x80 x3f x00 x00 x80 x3f)
(T (W x5f x77 x69 x6c x64 x5f x70 x6f)
(L (W x00 x00 x80 xbf x00 x00 x80 xbf)) E)
(L (W xaa x01 x00 x00 xff xff xff xff)))
(T (W x4f x84 x6f x8b xe8 xcb x63 xb7)
(L (W x45 x26 x22 x84 xe4 x9c xf2 xcb))
(L (W x38 x00 x00 x00 x00 x00 x80 xbf)))))
(T (W x00 x00 x00 x00 x00 x00 x00 x00)
(T (W x01 x00 x00 x00 xff xff xff xff)
(T (W x6c x00 x00 x00 x60 x00 x00 x00)
(T (W x00 x00 x80 x3f x00 x00 x80 x3f)
(L (W x00 x00 x00 x00 x2a xa6 xff xff)) E)
(L (W x29 x00 x00 x00 x2c x00 x00 x00)))
(T (W xff xff xff xff xff xff xff xff)
(L (W x00 x00 x80 xbf x00 x00 x80 xbf))
(L (W xff xff xff xff x9c x00 x00 x00))))
(T (W x45 x26 x22 x84 xe4 x9c xf2 xcb)
(T (W x00 x00 x00 x00 x00 x00 x00 x00)
(T (W x04 x00 x60 x00 x64 x00 x68 x00)
(L (W xff xff xff xff xff xff xff xff)) E)
(L (W x00 x00 x00 x00 x00 x00 x00 x00)))
(T (W xff xff xff xff xff xff xff xff)
(L (W x00 x00 x00 x00 x00 x00 x00 x00))
(L (W x18 x00 x00 x00 x10 x00 x00 x00))))))
(T (W x00 x00 x00 x00 x00 x00 x00 x00)
(T (W x00 x00 x00 x00 x00 x00 x00 x00)
(T (W x01 x00 x00 x00 x04 x00 x00 x00)
(T (W x00 x00 x80 x3f x00 x00 x80 x3f)
(T (W x18 x00 x00 x00 x0c x00 x00 x00)
(L (W x00 x00 x00 x00 x00 x00 x00 x00)) E)
(L (W x4a xb5 xfe xff x8c x01 x00 x00)))
(T (W x00 x00 x80 x3f x00 x00 x80 x3f)
(L (W x00 x00 x80 x3f x00 x00 x80 x3f))
(L (W xb0 x00 x00 x00 x0a x00 x00 x00))))
(T (W xff xff xff xff xff xff xff xff)
(T (W x03 x00 x00 x00 xd0 x00 x00 x00)
(T (W x45 x26 x22 x84 xe4 x9c xf2 xcb)
(L (W x00 x00 x80 xbf x00 x00 x80 xbf)) E)
(L (W x00 x00 x00 x00 x00 x00 x00 x00)))
(T (W x45 x26 x22 x84 xe4 x9c xf2 xcb)
(L (W x00 x00 x80 xbf x00 x00 x80 xbf))
(L (W x4a x55 xff xff x74 x00 x00 x00)))))
(T (W x45 x26 x22 x84 xe4 x9c xf2 xcb)
(T (W x00 x00 x00 x00 x00 x00 x00 x00)
(T (W x14 x00 x18 x00 x06 x00 x07 x00)
(T (W x00 x00 x00 x00 x00 x00 x00 x00)
(L (W x4f x84 x6f x8b xe8 xcb x63 xb7)) E)
(L (W xff xff xff xff xff xff xff xff)))
(T (W x4c x45 x41 x52 x45 x44 x00 x00)
(L (W x00 x00 x80 xbf x00 x00 x80 xbf))
(L (W x00 x00 x80 xbf x00 x00 x80 xbf))))
(T (W x0a x00 x00 x00 x3e x00 x00 x00)
(T (W x00 x00 x00 x00 x00 x00 x00 x00)
(T (W x7c x00 x80 x00 x62 x00 x00 x00)
(L (W xff xff xff xff xff xff xff xff)) E)
(L (W x49 xa1 x68 x4a xeb x5f xdd x3d)))
(T (W x00 x00 x80 x3f x00 x00 x80 x3f)
(L (W x45 x26 x22 x84 xe4 x9c xf2 xcb))
(L (W x18 x00 x00 x00 x10 x00 x00 x00)))))))
(T (W x70 x01 x00 x00 x04 x00 x00 x00)
(T (W x45 x26 x22 x84 xe4 x9c xf2 xcb)
(T (W x00 x00 x00 x00 x00 x00 x00 x00)
(T (W xa4 x15 xfc xff x29 x00 x00 x00)
(T (W x14 x92 xfc xff x00 x01 x01 x01)
(T (W x64 x00 x00 x00 x9c x00 x00 x00)
(L (W xff xff xff xff xff xff xff xff)) E)
(L (W x00 x00 x00 x00 xd2 xab xfe xff)))
(T (W x54 x00 x00 x00 x48 x00 x00 x00)
(L (W x45 x44 x00 x00 x00 x00 x00 x00))
(L (W x45 x26 x22 x84 xe4 x9c xf2 xcb))))
(T (W xff xff xff xff xff xff xff xff)
(T (W x50 x00 x00 x00 x44 x00 x00 x00)
(T (W x00 x00 x80 x3f x00 x00 x80 x3f)
(L (W x00 x00 x80 xbf x00 x00 x80 xbf)) E)
(L (W xe2 xcf xfe xff xa9 x01 x00 x00)))
(T (W x00 x00 x80 x3f x00 x00 x80 x3f)
(L (W x00 x00 x80 xbf x00 x00 x80 xbf))
(L (W x6c x00 x00 x00 x60 x00 x00 x00)))))
(T (W x00 x00 x00 x00 x00 x00 x00 x00)
(T (W x4a x4b xfe xff x00 x00 x01 x01)
(T (W x00 x00 x00 x00 x84 xb0 xfc xff)
(T (W x45 x26 x22 x84 xe4 x9c xf2 xcb)
(L (W x00 x00 x00 x00 x00 x00 x00 x00)) E)
(L (W xcc x00 x00 x00 x01 x00 x00 x00)))
(T (W xff xff xff xff xff xff xff xff)
(L (W x4c x00 x50 x00 x54 x00 x00 x00))
(L (W x03 x00 x00 x00 xc8 x00 x00 x00))))
(T (W x01 x00 x00 x00 x9c x00 x00 x00)
(T (W x00 x00 x00 x00 x00 x00 x00 x00)
(T (W x49 xa1 x68 x4a xeb x5f xdd x3d)
(L (W x45 x26 x22 x84 xe4 x9c xf2 xcb)) E)
(L (W x45 x26 x22 x84 xe4 x9c xf2 xcb)))
(T (W x00 x00 x00 x00 x00 x00 x00 x00)
(L (W x00 x00 x00 x00 x00 x00 x00 x00))
(L (W xff xff xff xff xb0 x00 x00 x00))))))
(T (W x00 x00 x00 x00 x00 x00 x00 x00)
(T (W x00 x00 x00 x00 x00 x00 x00 x00)
(T (W xff xff xff xff xff xff xff xff)
(T (W x00 x00 x80 x3f x00 x00 x80 x3f)
(T (W x50 x00 x00 x00 x44 x00 x00 x00)
(L (W xc2 xb5 xff xff x4b x00 x00 x00)) E)
(L (W x4f x84 x6f x8b xe8 xcb x63 xb7)))
(T (W x18 x00 x00 x00 x0c x00 x00 x00)
(L (W xa7 x01 x00 x00 xff xff xff xff))
(L (W x03 x00 x00 x00 xd8 x00 x00 x00))))
(T (W xb8 x00 x00 x00 xac x00 x00 x00)
(T (W xff xff xff xff xff xff xff xff)
(T (W x00 x00 x80 x3f x00 x00 x80 x3f)
(L (W x45 x26 x22 x84 xe4 x9c xf2 xcb)) E)
(L (W x00 x00 x00 x00 x00 x00 x00 x00)))
(T (W x18 x00 x00 x00 x10 x00 x00 x00)
(L (W x00 x00 x00 x00 x00 x00 x00 x00))
(L (W xc4 x00 x00 x00 x02 x00 x00 x00)))))
(T (W x00 x00 x00 x00 x00 x00 x00 x00)
(T (W x20 x01 x00 x00 x04 x00 x00 x00)
(T (W x00 x00 x00 x00 x00 x00 x00 x00)
(T (W x00 x00 x00 x00 x00 x00 x00 x00)
(L (W x00 x00 x80 xbf x00 x00 x80 xbf)) E)
(L (W xff xff xff xff xff xff xff xff)))
(T (W x00 x00 x00 x00 x00 x00 x00 x00)
(L (W x00 x00 x80 xbf x00 x00 x80 xbf))
(L (W x00 x00 x80 xbf x00 x00 x80 xbf))))
(T (W xc0 x00 x00 x00 xb4 x00 x00 x00)
(T (W x00 x00 x00 x00 x00 x00 x00 x00)
(T (W xff xff xff xff xff xff xff xff)
(L (W x00 x00 x00 x00 x00 x00 x00 x00)) E)
(L (W x00 x00 x80 xbf x00 x00 x80 xbf)))
(T (W x00 x00 x80 x3f x00 x00 x80 x3f)
(L (W x00 x00 x00 x00 x00 x00 x00 x00))
(L (W xff xff xff xff xff xff xff xff))))))))
(T (W x12 xdc xfe xff x00 x00 x01 x01)
(T (W x64 x00 x00 x00 x9c x00 x00 x00)
(T (W x68 x00 x00 x00 x5c x00 x00 x00)
(T (W xff xff xff xff x03 x00 x00 x00)
(T (W x4a x09 xfc xff x74 x00 x00 x00)
(T (W xda xa5 xfe xff x48 x00 x00 x00)
(T (W x00 x00 x00 x00 x00 x00 x00 x00)
(L (W x6c x00 x00 x00 x60 x00 x00 x00)) E)
(L (W x50 x00 x00 x00 x44 x00 x00 x00)))
(T (W x4b x00 x00 x00 xff xff xff xff)
(L (W x00 x00 x80 x3f x00 x00 x80 x3f))
(L (W x18 x00 x00 x00 x10 x00 x00 x00))))
(T (W x00 x00 x80 x3f x00 x00 x80 x3f)
(T (W xe2 xcb xfc xff xe0 x00 x00 x00)
(T (W xff xff xff xff xff xff xff xff)
(L (W xc2 xe1 xff xff x6c x01 x00 x00)) E)
(L (W x00 x00 x80 xbf x00 x00 x80 xbf)))
(T (W xff xff xff xff xff xff xff xff)
(L (W xff xff xff xff xff xff xff xff))
(L (W x00 x00 x00 x00 x3a x60 xff xff)))))
(T (W xff xff xff xff xff xff xff xff)
(T (W xfa x2a xfc xff x78 x00 x00 x00)
(T (W xa4 xb1 xfc xff x3e x00 x00 x00)
(T (W xff xff xff xff xff xff xff xff)
(L (W xff xff xff xff xff xff xff xff)) E)
(L (W x00 x00 x80 xbf x00 x00 x80 xbf)))
(T (W x00 x00 x80 x3f x00 x00 x80 x3f)
(L (W x00 x00 x00 x00 x00 x00 x00 x00))
(L (W x00 x00 x00 x00 x00 x00 x00 x00))))
(T (W x00 x00 x00 x00 x00 x00 x00 x00)
(T (W x18 x00 x00 x00 x10 x00 x00 x00)
(T (W xff xff xff xff xff xff xff xff)
(L (W x00 x00 x48 x00 x4c x00 x00 x00)) E)
(L (W xff xff xff xff xff xff xff xff)))
(T (W x00 x00 x00 x00 x84 x6c xfd xff)
(L (W xff xff xff xff xff xff xff xff))
(L (W x45 x44 x00 x00 x00 x00 x00 x00))))))
(T (W xff xff xff xff xff xff xff xff)
(T (W xff xff xff xff xff xff xff xff)
(T (W x45 x26 x22 x84 xe4 x9c xf2 xcb)
(T (W x00 x00 x00 x00 x00 x00 x00 x00)
(T (W x00 x00 x00 x00 x00 x00 x00 x00)
(L (W x6c x00 x00 x00 x60 x00 x00 x00)) E)
(L (W x00 x00 x00 x00 x84 x9c xfe xff)))
(T (W x00 x00 x00 x00 x00 x00 x00 x00)
(L (W xff xff xff xff xff xff xff xff))
(L (W x00 x00 x80 xbf x00 x00 x80 xbf))))
(T (W x00 x00 x80 x3f x00 x00 x80 x3f)
(T (W x00 x00 x00 x00 x00 x00 x00 x00)
(T (W xff xff xff xff xff xff xff xff)
(L (W xff xff xff xff xff xff xff xff)) E)
(L (W x14 xde xfe xff x00 x01 x01 x01)))
(T (W x00 x00 x00 x00 x00 x00 x00 x00)
(L (W xff xff xff xff xff xff xff xff))
(L (W x12 x00 x00 x00 x46 x53 x59 x53)))))
(T (W x14 xfe xfb xff x00 x01 x01 x01)
(T (W x00 x00 x80 x3f x00 x00 x80 x3f)
(T (W xff xff xff xff xff xff xff xff)
(T (W x00 x00 x80 x3f x00 x00 x80 x3f)
(L (W xff xff xff xff xff xff xff xff)) E)
(L (W x00 x00 x80 xbf x00 x00 x80 xbf)))
(T (W xff xff xff xff xac x00 x00 x00)
(L (W xff xff xff xff xff xff xff xff))
(L (W x00 x00 x00 x00 x00 x00 x00 x00))))
(T (W x00 x00 x00 x00 x00 x00 x00 x00)
(T (W xb0 x00 x00 x00 x64 x00 x00 x00)
(T (W x00 x00 x80 x3f x00 x00 x80 x3f)
(L (W xff xff xff xff xff xff xff xff)) E)
(L (W xff xff xff xff xff xff xff xff)))
(T (W xff xff xff xff xff xff xff xff)
(L (W x14 x00 x00 x00 x0c x00 x00 x00))
(L (W x00 x01 x01 x01 xea x80 xff xff)))))))
(T (W x6b x65 x5f x77 x61 x72 x6c x69)
(T (W xff xff xff xff xff xff xff xff)
(T (W xff xff xff xff xff xff xff xff)
(T (W x00 x00 x00 x00 x84 x14 xfc xff)
(T (W x00 x00 x00 x00 x00 x00 x00 x00)
(T (W x00 x00 x00 x00 x00 x00 x00 x00)
(L (W x00 x00 x80 xbf x00 x00 x80 xbf)) E)
(L (W x14 x96 xfe xff x00 x01 x01 x01)))
(T (W x74 x03 x00 x00 x4c x02 x00 x00)
(L (W xff xff xff xff xff xff xff xff))
(L (W x45 x26 x22 x84 xe4 x9c xf2 xcb))))
(T (W x00 x00 x80 x3f x00 x00 x80 x3f)
(T (W x46 x53 x59 x53 x5f x4e x53 x5f)
(T (W xff xff xff xff xff xff xff xff)
(L (W xff xff xff xff xff xff xff xff)) E)
(L (W x00 x00 x80 xbf x00 x00 x80 xbf)))
(T (W x00 x00 x00 x00 x00 x00 x00 x00)
(L (W xff xff xff xff xff xff xff xff))
(L (W x00 x00 x00 x00 x02 x00 x00 x00)))))
(T (W x64 x00 x00 x00 x9c x00 x00 x00)
(T (W x00 x00 x80 x3f x00 x00 x80 x3f)
(T (W x01 x00 x00 x00 x04 x00 x00 x00)
(T (W xff xff xff xff xff xff xff xff)
(L (W xff xff xff xff xff xff xff xff)) E)
(L (W x00 x00 x00 x00 x00 x00 x00 x00)))
(T (W x6c x00 x00 x00 x60 x00 x00 x00)
(L (W xff xff xff xff xff xff xff xff))
(L (W xa4 x39 xff xff x1b x00 x00 x00))))
(T (W x00 x00 x00 x00 x00 x00 x00 x00)
(T (W xcc x00 x00 x00 x01 x00 x00 x00)
(T (W x73 x6f x24 x4b xf1 xf0 xc9 x32)
(L (W xff xff xff xff xff xff xff xff)) E)
(L (W xff xff xff xff xff xff xff xff)))
(T (W xff xff xff xff xff xff xff xff)
(L (W xff xff xff xff xff xff xff xff))
(L (W x00 x00 x00 x00 x00 x00 x00 x00))))))
(T (W x64 x00 x00 x00 x9c x00 x00 x00)
(T (W xff xff xff xff xff xff xff xff)
(T (W x00 x00 x80 x3f x00 x00 x80 x3f)
(T (W x45 x26 x22 x84 xe4 x9c xf2 xcb)
(T (W xda xbd xff xff x8d x01 x00 x00)
(L (W x00 x00 x80 xbf x00 x00 x80 xbf)) E)
(L (W x45 x26 x22 x84 xe4 x9c xf2 xcb)))
(T (W x00 x00 x00 x00 x00 x00 x00 x00)
(L (W xff xff xff xff x9c x00 x00 x00))
(L (W x00 x00 x00 x00 x00 x00 x00 x00))))
(T (W x00 x00 x00 x00 x00 x00 x00 x00)
(T (W x00 x00 x80 x3f x00 x00 x80 x3f)
(T (W x68 x00 x00 x00 x5c x00 x00 x00)
(L (W x00 x00 x00 x00 x12 x00 x00 x00)) E)
(L (W xff xff xff xff xff xff xff xff)))
(T (W x00 x00 x80 x3f x00 x00 x80 x3f)
(L (W xff xff xff xff xff xff xff xff))
(L (W x00 x00 x00 x00 x00 x00 x00 x00)))))
(T (W x50 x00 x00 x00 x44 x00 x00 x00)
(T (W x45 x26 x22 x84 xe4 x9c xf2 xcb)
(T (W xff xff xff xff xff xff xff xff)
(T (W x4a xc1 xfd xff x74 x00 x00 x00)
(L (W xff xff xff xff xff xff xff xff)) E)
(L (W x45 x26 x22 x84 xe4 x9c xf2 xcb)))
(T (W xb0 x00 x00 x00 x64 x00 x00 x00)
(L (W xff xff xff xff xff xff xff xff))
(L (W xe2 x43 xff xff xea x00 x00 x00))))
(T (W x83 x19 x0b x70 xe6 x2d xf4 x4b)
(T (W xff xff xff xff xff xff xff xff)
(L (W xff xff xff xff xff xff xff xff))
(L (W x00 x00 x00 x00 x2a x02 xff xff)))
(T (W xda x9d xff xff xc9 x01 x00 x00)
(L (W x45 x26 x22 x84 xe4 x9c xf2 xcb))
(L (W x00 x00 x80 xbf x00 x00 x80 xbf)))))))))))
(T (W xe8 x66 x02 x00 x3c x65 x02 x00)
(T (W x48 xaf x01 x00 x9c xaa x01 x00)
(T (W xf0 x60 x00 x00 xbc x5f x00 x00)
(T (W x00 x00 x00 x00 x00 x00 x00 x00)
(T (W x18 x00 x00 x00 x10 x00 x00 x00)
(T (W xc9 x01 x00 x00 xff xff xff xff)
(T (W x00 x00 x80 x3f x00 x00 x80 x3f)
(T (W x00 x00 x00 x00 x00 x00 x00 x00)
(T (W xff xff xff xff xff xff xff xff)
(T (W xff xff xff xff xff xff xff xff)
(L (W x00 x00 x00 x00 x00 x00 x00 x00)) E)
(L (W x45 x26 x22 x84 xe4 x9c xf2 xcb)))
(T (W x00 x00 x80 x3f x00 x00 x80 x3f)
(L (W x18 x00 x00 x00 x0c x00 x00 x00))
(L (W x45 x26 x22 x84 xe4 x9c xf2 xcb))))
(T (W x3e x00 x00 x00 x0c x00 x00 x00)
(T (W x50 x00 x00 x00 x44 x00 x00 x00)
(T (W x00 x00 x00 x00 x00 x00 x00 x00)
(L (W xff xff xff xff xff xff xff xff)) E)
(L (W xfa xd1 xfe xff xd3 x00 x00 x00)))
(T (W x50 x00 x00 x00 x44 x00 x00 x00)
(L (W x50 x00 x00 x00 x44 x00 x00 x00))
(L (W x18 x00 x00 x00 x10 x00 x00 x00)))))
(T (W xca xe2 xfb xff x74 x00 x00 x00)
(T (W x45 x26 x22 x84 xe4 x9c xf2 xcb)
(T (W x00 x00 x80 x3f x00 x00 x80 x3f)
(T (W xb8 x00 x00 x00 xac x00 x00 x00)
(L (W x45 x44 x00 x00 x00 x00 x00 x00)) E)
(L (W xff xff xff xff xff xff xff xff)))
(T (W xfa x31 xfd xff x9d x01 x00 x00)
(L (W x00 x00 x80 xbf x00 x00 x80 xbf))
(L (W xff xff xff xff xff xff xff xff))))
(T (W x1a xac xff xff xf2 x00 x00 x00)
(T (W x00 x00 x00 x00 x00 x00 x00 x00)
(T (W x45 x26 x22 x84 xe4 x9c xf2 xcb)
(L (W x00 x00 x00 x00 x00 x00 x00 x00)) E)
(L (W x00 x00 x80 xbf x00 x00 x80 xbf)))
(T (W x00 x00 x00 x00 x00 x00 x00 x00)
(L (W x50 x00 x00 x00 x44 x00 x00 x00))
(L (W x00 x00 x00 x00 x52 x81 xff xff))))))
(T (W xca xb2 xfb xff x74 x00 x00 x00)
(T (W x00 x00 x80 x3f x00 x00 x80 x3f)
(T (W x00 x00 x00 x00 x00 x00 x00 x00)
(T (W x00 x00 x00 x00 x04 x96 xfc xff)
(T (W xff xff xff xff xff xff xff xff)
(L (W x30 x33 x5f x43 x4c x45 x41 x52)) E)
(L (W x45 x26 x22 x84 xe4 x9c xf2 xcb)))
(T (W xff xff xff xff xc4 x00 x00 x00)
(L (W x00 x00 x00 x00 x04 x16 xfe xff))
(L (W x8a x01 x00 x00 xff xff xff xff))))
(T (W xff xff xff xff xff xff xff xff)
(T (W xff xff xff xff xff xff xff xff)
(T (W x50 x00 x00 x00 x44 x00 x00 x00)
(L (W x29 x00 x00 x00 x2c x00 x00 x00)) E)
(L (W x4f x84 x6f x8b xe8 xcb x63 xb7)))
(T (W xc0 x00 x00 x00 x01 x00 x00 x00)
(L (W x00 x00 x80 xbf x00 x00 x80 xbf))
(L (W xb0 x00 x00 x00 x64 x00 x00 x00)))))
(T (W x00 x00 x80 x3f x00 x00 x80 x3f)
(T (W x00 x00 x00 x00 x00 x00 x00 x00)
(T (W xff xff xff xff xff xff xff xff)
(T (W x00 x00 x80 x3f x00 x00 x80 x3f)
(L (W x00 x00 x80 xbf x00 x00 x80 xbf)) E)
(L (W x00 x00 x00 x00 x00 x00 x00 x00)))
(T (W x00 x00 x00 x00 x00 x00 x00 x00)
(L (W x68 x00 x00 x00 x5c x00 x00 x00))
(L (W xff xff xff xff xff xff xff xff))))
(T (W xff xff xff xff xff xff xff xff)
(T (W x00 x00 x80 x3f x00 x00 x80 x3f)
(T (W x5f x43 x41 x4e x4e x4f x54 x5f)
(L (W xca xf2 xff xff x74 x00 x00 x00)) E)
(L (W x6c x00 x00 x00 x60 x00 x00 x00)))
(T (W x00 x00 x80 x3f x00 x00 x80 x3f)
(L (W x50 x00 x00 x00 x44 x00 x00 x00))
(L (W x00 x00 x00 x00 x52 x91 xff xff)))))))
(T (W xe4 x00 x00 x00 xb0 x00 x00 x00)
(T (W x00 x00 x80 x3f x00 x00 x80 x3f)
(T (W x45 x26 x22 x84 xe4 x9c xf2 xcb)
(T (W x00 x00 x00 x00 x00 x00 x00 x00)
(T (W x64 x00 x00 x00 x9c x00 x00 x00)
(T (W xff xff xff xff xff xff xff xff)
(L (W x00 x00 x00 x00 x00 x00 x00 x00)) E)
(L (W x00 x00 x00 x00 x00 x00 x00 x00)))
(T (W x94 x0f xfd xff x00 x01 x01 x01)
(L (W x4f x84 x6f x8b xe8 xcb x63 xb7))
(L (W xff xff xff xff xff xff xff xff))))
(T (W xca x68 xfe xff x00 x00 x01 x01)
(T (W x18 x00 x00 x00 x10 x00 x00 x00)
(T (W x50 x00 x00 x00 x44 x00 x00 x00)
(L (W x28 x00 x00 x00 x2b x00 x00 x00)) E)
(L (W x00 x00 x00 x00 x00 x00 x00 x00)))
(T (W x68 x00 x00 x00 x5c x00 x00 x00)
(L (W x94 x4f xfe xff x00 x01 x01 x01))
(L (W x45 x26 x22 x84 xe4 x9c xf2 xcb)))))
(T (W x00 x00 x80 x3f x00 x00 x80 x3f)
(T (W x00 x00 x00 x00 x00 x00 x00 x00)
(T (W xff xff xff xff x03 x00 x00 x00)
(T (W x50 x00 x00 x00 x44 x00 x00 x00)
(L (W x68 x00 x00 x00 x5c x00 x00 x00)) E)
(L (W x62 xad xfe xff xa9 x01 x00 x00)))
(T (W x13 x00 x00 x00 x0c x00 x00 x00)
(L (W xff xff xff xff xff xff xff xff))
(L (W xff xff xff xff xff xff xff xff))))
(T (W x92 xb5 xff xff x00 x00 x01 x01)
(T (W x00 x00 x00 x00 x00 x00 x00 x00)
(T (W x01 x00 x00 x00 x04 x00 x00 x00)
(L (W xff xff xff xff xff xff xff xff)) E)
(L (W x00 x00 x80 xbf x00 x00 x80 xbf)))
(T (W x00 x00 x80 x3f x00 x00 x80 x3f)
(L (W x00 x00 x80 xbf x00 x00 x80 xbf))
(L (W xff xff xff xff xff xff xff xff))))))
(T (W x94 xbf xfb xff x00 x01 x01 x01)
(T (W x00 x00 x80 x3f x00 x00 x80 x3f)
(T (W x00 x00 x00 x00 x00 x00 x00 x00)
(T (W x18 x00 x00 x00 x0c x00 x00 x00)
(T (W xff xff xff xff xff xff xff xff)
(L (W x00 x00 x00 x00 x00 x00 x00 x00)) E)
(L (W x00 x00 x00 x00 x00 x00 x00 x00)))
(T (W xff xff xff xff xff xff xff xff)
(L (W xff xff xff xff x9c x00 x00 x00))
(L (W x72 x20 xff xff x8e x01 x00 x00))))
(T (W x7e x00 x00 x00 xff xff xff xff)
(T (W x00 x00 x00 x00 x00 x00 x00 x00)
(T (W x01 x00 x00 x00 x9c x00 x00 x00)
(L (W x00 xde xff xff x2a xe1 xff xff)) E)
(L (W x00 x00 x00 x00 x00 x00 x00 x00)))
(T (W xff xff xff xff xff xff xff xff)
(L (W x44 x00 x00 x00 x00 x00 x80 xbf))
(L (W xff xff xff xff xff xff xff xff)))))
(T (W x45 x26 x22 x84 xe4 x9c xf2 xcb)
(T (W x00 x00 x00 x00 x00 x00 x00 x00)
(T (W xff xff xff xff xff xff xff xff)
(T (W x45 x26 x22 x84 xe4 x9c xf2 xcb)
(L (W x45 x26 x22 x84 xe4 x9c xf2 xcb)) E)
(L (W xff xff xff xff xff xff xff xff)))
(T (W x00 x00 x80 x3f x00 x00 x80 x3f)
(L (W x7a x3c xfe xff x78 x00 x00 x00))
(L (W x18 x00 x00 x00 x0c x00 x00 x00))))
(T (W xff xff xff xff xff xff xff xff)
(T (W x54 x00 x00 x00 x48 x00 x00 x00)
(T (W x00 x00 x00 x00 x00 x00 x00 x00)
(L (W xff xff xff xff xff xff xff xff)) E)
(L (W x00 x00 x00 x00 x04 xfe xfe xff)))
(T (W x94 x7f xfd xff x00 x01 x01 x01)
(L (W x00 x00 x80 xbf x00 x00 x80 xbf))
(L (W x00 x00 x00 x00 x00 x00 x00 x00))))))))
(T (W xff xff xff xff xff xff xff xff)
(T (W x50 x00 x00 x00 x44 x00 x00 x00)
(T (W x00 x00 x80 x3f x00 x00 x80 x3f)
(T (W x48 x03 x00 x00 x34 x02 x00 x00)
(T (W xff xff xff xff xff xff xff xff)
(T (W x00 x00 x80 x3f x00 x00 x80 x3f)
(T (W x00 x00 x80 x3f x00 x00 x80 x3f)
(L (W x94 x8b xff xff x00 x01 x01 x01)) E)
(L (W xb0 x00 x00 x00 x64 x00 x00 x00)))
(T (W x00 x00 x00 x00 x00 x00 x00 x00)
(L (W x54 x00 x00 x00 x48 x00 x00 x00))
(L (W x00 x00 x00 x00 x00 x00 x00 x00))))
(T (W x40 x00 x00 x00 x9c x00 x00 x00)
(T (W x24 xcf xfc xff x29 x00 x00 x00)
(T (W xff xff xff xff xff xff xff xff)
(L (W x00 x00 x00 x00 x00 x00 x00 x00)) E)
(L (W x94 xcb xfe xff x00 x01 x01 x01)))
(T (W x04 x00 x00 x00 x7c x03 x00 x00)
(L (W x00 x00 x00 x00 x00 x00 x00 x00))
(L (W x45 x44 x00 x00 x00 x00 x00 x00)))))
(T (W xff xff xff xff xff xff xff xff)
(T (W x18 x00 x00 x00 x0c x00 x00 x00)
(T (W x00 x00 x00 x00 x00 x00 x00 x00)
(T (W x00 x00 x00 x00 x00 x00 x00 x00)
(L (W x45 x26 x22 x84 xe4 x9c xf2 xcb)) E)
(L (W x00 x00 x80 xbf x00 x00 x80 xbf)))
(T (W xca x26 xfd xff x74 x00 x00 x00)
(L (W x00 x00 x00 x00 x00 x00 x00 x00))
(L (W x54 x00 x00 x00 x48 x00 x00 x00))))
(T (W x00 x00 x80 x3f x00 x00 x80 x3f)
(T (W xb0 x00 x00 x00 x64 x00 x00 x00)
(T (W x76 x32 x5f x70 x6d x30 x34 x38)
(L (W x00 x00 x80 xbf x00 x00 x80 xbf)) E)
(L (W x74 x03 x00 x00 x4c x02 x00 x00)))
(T (W x45 x26 x22 x84 xe4 x9c xf2 xcb)
(L (W xff xff xff xff xff xff xff xff))
(L (W x00 x00 x80 xbf x00 x00 x80 xbf))))))
(T (W xca xd4 xfd xff x00 x00 x01 x01)
(T (W x00 x00 x01 x01 xa7 x01 x00 x00)
(T (W xff xff xff xff xff xff xff xff)
(T (W x00 x00 x00 x00 x00 x00 x00 x00)
(T (W x00 x00 x00 x00 x00 x00 x00 x00)
(L (W x18 x00 x00 x00 x0c x00 x00 x00)) E)
(L (W x14 x00 x00 x00 x0c x00 x00 x00)))
(T (W x4f x84 x6f x8b xe8 xcb x63 xb7)
(L (W x00 x00 x00 x00 xaa x17 xfe xff))
(L (W x45 x26 x22 x84 xe4 x9c xf2 xcb))))
(T (W x6c x00 x00 x00 x60 x00 x00 x00)
(T (W x00 x00 x80 x3f x00 x00 x80 x3f)
(T (W x00 x00 x00 x00 x00 x00 x00 x00)
(L (W x00 x00 x00 x00 x00 x00 x00 x00)) E)
(L (W x1f x00 x00 x00 x22 x00 x00 x00)))
(T (W x45 x26 x22 x84 xe4 x9c xf2 xcb)
(L (W x45 x44 x00 x00 x00 x00 x00 x00))
(L (W x00 x00 x80 xbf x00 x00 x80 xbf)))))
(T (W xff xff xff xff xff xff xff xff)
(T (W x45 x26 x22 x84 xe4 x9c xf2 xcb)
(T (W x00 x00 x00 x00 x18 x00 x1c x00)
(T (W x00 x00 x00 x00 x00 x00 x00 x00)
(L (W x5c x0a x00 x00 x04 x09 x00 x00)) E)
(L (W x00 x00 x80 xbf x00 x00 x80 xbf)))
(T (W xff xff xff xff xff xff xff xff)
(L (W x00 x00 x00 x00 x12 x00 x00 x00))
(L (W x30 x33 x5f x43 x4c x45 x41 x52))))
(T (W x45 x26 x22 x84 xe4 x9c xf2 xcb)
(T (W x4b x00 x00 x00 xff xff xff xff)
(T (W x38 x00 x3c x00 x40 x00 x44 x00)
(L (W xff xff xff xff xff xff xff xff)) E)
(L (W x1b x00 x00 x00 x10 x00 x00 x00)))
(T (W x00 x00 x00 x00 x00 x00 x00 x00)
(L (W xff xff xff xff xff xff xff xff))
(L (W x00 x00 x00 x00 x00 x00 x00 x00)))))))
(T (W xff xff xff xff xff xff xff xff)
(T (W x40 x00 x00 x00 x10 x00 x00 x00)
(T (W xff xff xff xff xff xff xff xff)
(T (W xff xff xff xff x03 x00 x00 x00)
(T (W x00 x00 x00 x00 x00 x00 x00 x00)
(T (W x00 x00 x80 x3f x00 x00 x80 x3f)
(L (W x68 x00 x00 x00 x5c x00 x00 x00)) E)
(L (W xff xff xff xff xff xff xff xff)))
(T (W x00 x00 x00 x00 x00 x00 x00 x00)
(L (W x03 x00 x00 x00 xd8 x00 x00 x00))
(L (W x00 x00 x80 xbf x00 x00 x80 xbf))))
(T (W x50 x00 x00 x00 x44 x00 x00 x00)
(T (W x00 x00 x00 x00 x00 x00 x00 x00)
(T (W x00 x00 x00 x00 x00 x00 x00 x00)
(L (W x45 x44 x00 x00 x00 x00 x00 x00)) E)
(L (W x18 x00 x00 x00 x10 x00 x00 x00)))
(T (W x5f x4e x53 x5f x30 x33 x5f x43)
(L (W x00 x00 x00 x00 x00 x00 x00 x00))
(L (W x00 x00 x00 x00 x00 x00 x00 x00)))))
(T (W xff xff xff xff xff xff xff xff)
(T (W xca x2e xfc xff x74 x00 x00 x00)
(T (W x00 x00 x00 x00 x00 x00 x00 x00)
(T (W x5a xcb xff xff x6b x01 x00 x00)
(L (W xff xff xff xff xff xff xff xff)) E)
(L (W x00 x00 x80 xbf x00 x00 x80 xbf)))
(T (W x00 x00 x00 x00 x04 x32 xfd xff)
(L (W xff xff xff xff xff xff xff xff))
(L (W x45 x26 x22 x84 xe4 x9c xf2 xcb))))
(T (W x00 x00 x00 x00 x00 x00 x00 x00)
(T (W xff xff xff xff xff xff xff xff)
(T (W x00 x00 x80 x3f x00 x00 x80 x3f)
(L (W x45 x26 x22 x84 xe4 x9c xf2 xcb)) E)
(L (W x00 x00 x00 x00 x12 x00 x00 x00)))
(T (W x02 x00 x00 x00 xff xff xff xff)
(L (W xff xff xff xff xff xff xff xff))
(L (W x00 x00 x80 xbf x00 x00 x80 xbf))))))
(T (W xff xff xff xff xff xff xff xff)
(T (W x8d x01 x00 x00 xff xff xff xff)
(T (W x64 x00 x00 x00 x9c x00 x00 x00)
(T (W x00 x00 x00 x00 x00 x00 x00 x00)
(T (W x00 x00 x00 x00 x00 x00 x00 x00)
(L (W x1f x00 x00 x00 x22 x00 x00 x00)) E)
(L (W x45 x26 x22 x84 xe4 x9c xf2 xcb)))
(T (W x45 x26 x22 x84 xe4 x9c xf2 xcb)
(L (W x03 x00 x00 x00 xbc x00 x00 x00))
(L (W x00 x00 x80 xbf x00 x00 x80 xbf))))
(T (W x00 x00 x80 x3f x00 x00 x80 x3f)
(T (W x45 x26 x22 x84 xe4 x9c xf2 xcb)
(T (W x24 xe7 xfd xff x21 x00 x00 x00)
(L (W xff xff xff xff xff xff xff xff)) E)
(L (W xff xff xff xff xff xff xff xff)))
(T (W x00 x00 x80 x3f x00 x00 x80 x3f)
(L (W x34 x01 x00 x00 x04 x00 x00 x00))
(L (W x00 x00 x80 xbf x00 x00 x80 xbf)))))
(T (W xff xff xff xff xff xff xff xff)
(T (W x18 x00 x00 x00 x10 x00 x00 x00)
(T (W xff xff xff xff xff xff xff xff)
(T (W xff xff xff xff xff xff xff xff)
(L (W x00 x00 x00 x00 x52 xdd xff xff)) E)
(L (W x00 x00 x00 x00 x04 xc2 xfe xff)))
(T (W xff xff xff xff xff xff xff xff)
(L (W x00 x00 x00 x00 x00 x00 x00 x00))
(L (W x00 x00 x00 x00 x00 x00 x00 x00))))
(T (W x00 x00 x80 x3f x00 x00 x80 x3f)
(T (W x74 x03 x00 x00 x4c x02 x00 x00)
(T (W x00 x00 x80 x3f x00 x00 x80 x3f)
(L (W x4f x84 x6f x8b xe8 xcb x63 xb7)) E)
(L (W x00 x00 x00 x00 x00 x00 x00 x00)))
(T (W x00 x00 x00 x00 x00 x00 x00 x00)
(L (W xff xff xff xff xff xff xff xff))
(L (W xca x7e xff xff x74 x00 x00 x00)))))))))
(T (W xff xff xff xff xff xff xff xff)
(T (W x00 x00 x80 x3f x00 x00 x80 x3f)
(T (W x00 x00 x00 x00 x27 x00 x00 x00)
(T (W x00 x00 x00 x00 x00 x00 x00 x00)
(T (W xff xff xff xff xff xff xff xff)
(T (W x94 x09 xfc xff x00 x01 x01 x01)
(T (W x00 x00 x00 x00 x00 x00 x00 x00)
(T (W x6f x6b x65 x5f x63 x6f x77 x61)
(L (W x54 x00 x00 x00 x48 x00 x00 x00)) E)
(L (W x00 x88 xfe xff x2a x8b xfe xff)))
(T (W xff xff xff xff xff xff xff xff)
(L (W x00 x00 x00 x00 x00 x00 x00 x00))
(L (W xff xff xff xff xff xff xff xff))))
(T (W x00 x00 x80 x3f x00 x00 x80 x3f)
(T (W xff xff xff xff xff xff xff xff)
(T (W x00 x00 x80 x3f x00 x00 x80 x3f)
(L (W xff xff xff xff xff xff xff xff)) E)
(L (W x00 x00 x80 xbf x00 x00 x80 xbf)))
(T (W x03 x00 x00 x00 xcc x00 x00 x00)
(L (W xff xff xff xff xff xff xff xff))
(L (W xc6 x00 x00 x00 xff xff xff xff)))))
(T (W x01 x00 x00 x00 x9c x00 x00 x00)
(T (W x00 x00 x80 x3f x00 x00 x80 x3f)
(T (W x00 x00 x01 x01 x3a x00 x00 x00)
(T (W xff xff xff xff xff xff xff xff)
(L (W x00 x00 x80 xbf x00 x00 x80 xbf)) E)
(L (W x46 x53 x59 x53 x5f x4e x53 x5f)))
(T (W x00 x00 x00 x00 x00 x00 x00 x00)
(L (W xff xff xff xff xff xff xff xff))
(L (W x5f x4e x53 x5f x30 x33 x5f x43))))
(T (W x00 x00 x00 x00 x00 x00 x00 x00)
(T (W x68 x00 x00 x00 x5c x00 x00 x00)
(T (W x00 x00 x00 x00 x00 x00 x00 x00)
(L (W x45 x26 x22 x84 xe4 x9c xf2 xcb)) E)
(L (W x18 x00 x00 x00 x0c x00 x00 x00)))
(T (W x45 x26 x22 x84 xe4 x9c xf2 xcb)
(L (W xb0 x00 x00 x00 x3c x00 x00 x00))
(L (W x30 x33 x5f x43 x4c x45 x41 x52))))))
(T (W x18 x00 x00 x00 x10 x00 x00 x00)
(T (W x94 xd9 xfb xff x00 x01 x01 x01)
(T (W x00 x00 x80 x3f x00 x00 x80 x3f)
(T (W xff xff xff xff xff xff xff xff)
(T (W x2c x00 x00 x00 x0c x00 x00 x00)
(L (W x00 x00 x80 xbf x00 x00 x80 xbf)) E)
(L (W x40 x00 x00 x00 x00 x00 x80 xbf)))
(T (W xff xff xff xff xff xff xff xff)
(L (W xff xff xff xff xff xff xff xff))
(L (W x00 x00 x00 x00 x12 x00 x00 x00))))
(T (W x00 x00 x00 x00 x00 x00 x00 x00)
(T (W x00 x00 x00 x00 x00 x00 x00 x00)
(T (W xff xff xff xff xff xff xff xff)
(L (W xff xff xff xff xff xff xff xff)) E)
(L (W x00 x00 x80 xbf x00 x00 x80 xbf)))
(T (W x54 x02 x00 x00 x34 x01 x00 x00)
(L (W xff xff xff xff xff xff xff xff))
(L (W x00 x00 x00 x00 x00 x00 x00 x00)))))
(T (W xc0 x00 x00 x00 xb4 x00 x00 x00)
(T (W x50 x00 x00 x00 x44 x00 x00 x00)
(T (W x00 x00 x00 x00 x00 x00 x00 x00)
(T (W xe0 x00 x00 x00 xac x00 x00 x00)
(L (W x03 x00 x00 x00 xd0 x00 x00 x00)) E)
(L (W x00 x00 x00 x00 x00 x00 x00 x00)))
(T (W x68 x00 x00 x00 x5c x00 x00 x00)
(L (W xff xff xff xff xff xff xff xff))
(L (W xff xff xff xff xff xff xff xff))))
(T (W x00 x00 x00 x00 x00 x00 x00 x00)
(T (W x00 x00 x00 x00 x04 xf8 xfc xff)
(T (W x7c x0d xfe xff x46 x00 x00 x00)
(L (W x1c x00 x20 x00 x24 x00 x28 x00)) E)
(L (W x03 x00 x00 x00 xd8 x00 x00 x00)))
(T (W xff xff xff xff xff xff xff xff)
(L (W xb8 x00 x00 x00 x64 x00 x00 x00))
(L (W x30 x33 x5f x43 x4c x45 x41 x52)))))))
(T (W x00 x00 x00 x00 x00 x00 x00 x00)
(T (W xff xff xff xff x04 x00 x00 x00)
(T (W x18 x00 x00 x00 x0c x00 x00 x00)
(T (W x00 x00 x80 x3f x00 x00 x80 x3f)
(T (W x00 x00 x00 x00 x02 x00 x00 x00)
(T (W x00 x00 x00 x00 x00 x00 x00 x00)
(L (W x00 x00 x80 xbf x00 x00 x80 xbf)) E)
(L (W x00 x00 x80 xbf x00 x00 x80 xbf)))
(T (W xff xff xff xff xff xff xff xff)
(L (W x54 x00 x00 x00 x48 x00 x00 x00))
(L (W x45 x44 x00 x00 x00 x00 x00 x00))))
(T (W x00 x00 x00 x00 x00 x00 x00 x00)
(T (W x4b x00 x00 x00 xff xff xff xff)
(T (W xff xff xff xff xff xff xff xff)
(L (W xff xff xff xff xff xff xff xff)) E)
(L (W x00 x00 x80 xbf x00 x00 x80 xbf)))
(T (W xff xff xff xff xff xff xff xff)
(L (W xff xff xff xff xff xff xff xff))
(L (W xff xff xff xff xff xff xff xff)))))
(T (W x0a x00 x00 x00 x1f x00 x00 x00)
(T (W x00 x00 x80 x3f x00 x00 x80 x3f)
(T (W x00 x00 x00 x00 x00 x00 x00 x00)
(T (W xff xff xff xff xff xff xff xff)
(L (W xff xff xff xff xa0 x00 x00 x00)) E)
(L (W x00 x00 x00 x00 x00 x00 x00 x00)))
(T (W x00 x00 x80 x3f x00 x00 x80 x3f)
(L (W x00 x00 x00 x00 x00 x00 x00 x00))
(L (W x00 x00 x00 x00 x00 x00 x00 x00))))
(T (W x00 x00 x00 x00 x00 x00 x00 x00)
(T (W x45 x26 x22 x84 xe4 x9c xf2 xcb)
(T (W x00 x01 x00 x00 xd4 x00 x00 x00)
(L (W xcc xd7 xac x28 xbf xd1 x59 x6a)) E)
(L (W xb8 x00 x00 x00 x64 x00 x00 x00)))
(T (W x45 x26 x22 x84 xe4 x9c xf2 xcb)
(L (W x1d x00 x00 x00 x20 x00 x00 x00))
(L (W x24 x75 xff xff x29 x00 x00 x00))))))
(T (W xb8 x00 x00 x00 xac x00 x00 x00)
(T (W x45 x26 x22 x84 xe4 x9c xf2 xcb)
(T (W x45 x26 x22 x84 xe4 x9c xf2 xcb)
(T (W xff xff xff xff xff xff xff xff)
(T (W x5a xb9 xff xff xa2 x01 x00 x00)
(L (W x45 x26 x22 x84 xe4 x9c xf2 xcb)) E)
(L (W xcc x00 x00 x00 x01 x00 x00 x00)))
(T (W x2c x00 x00 x00 x0c x00 x00 x00)
(L (W x39 x5e x6c x12 x83 xf1 x3a xc6))
(L (W x00 x00 x00 x00 x00 x00 x00 x00))))
(T (W x00 x00 x00 x00 x00 x00 x00 x00)
(T (W x49 xa1 x68 x4a xeb x5f xdd x3d)
(T (W xff xff xff xff xff xff xff xff)
(L (W xff xff xff xff xc4 x00 x00 x00)) E)
(L (W xca xdc xfe xff x74 x00 x00 x00)))
(T (W x4c x45 x41 x52 x45 x44 x00 x00)
(L (W x1c x00 x00 x00 x10 x00 x00 x00))
(L (W x00 x00 x00 x00 x00 x00 x00 x00)))))
(T (W xca xfc xfb xff x74 x00 x00 x00)
(T (W x00 x00 x80 x3f x00 x00 x80 x3f)
(T (W x6c x00 x00 x00 x60 x00 x00 x00)
(T (W x68 x00 x00 x00 x5c x00 x00 x00)
(L (W xff xff xff xff xff xff xff xff)) E)
(L (W x00 x00 x00 x00 x00 x00 x00 x00)))
(T (W xca x3c xfd xff x74 x00 x00 x00)
(L (W xff xff xff xff xff xff xff xff))
(L (W xff xff xff xff xff xff xff xff))))
(T (W x24 x85 xfc xff x16 x00 x00 x00)
(T (W xc4 x00 x00 x00 x01 x00 x00 x00)
(T (W x00 x00 x00 x00 x00 x00 x00 x00)
(L (W x04 x00 x04 x00 x04 x00 x00 x00)) E)
(L (W xff xff xff xff xff xff xff xff)))
(T (W xff xff xff xff xff xff xff xff)
(L (W xff xff xff xff xa8 x00 x00 x00))
(L (W x00 x00 x80 xbf x00 x00 x80 xbf))))))))
(T (W x00 x00 x80 x3f x00 x00 x80 x3f)
(T (W x6f x79 x61 x62 x75 x6e x00 x00)
(T (W x1a xf2 xfe xff xc9 x01 x00 x00)
(T (W x00 x00 x00 x00 x00 x00 x00 x00)
(T (W x00 x00 x00 x00 x00 x00 x00 x00)
(T (W x00 x00 x80 x3f x00 x00 x80 x3f)
(T (W x64 x00 x00 x00 x9c x00 x00 x00)
(L (W xff xff xff xff xff xff xff xff)) E)
(L (W x00 x00 x00 x00 x52 xa7 xfe xff)))
(T (W x00 x00 x80 x3f x00 x00 x80 x3f)
(L (W xff xff xff xff xff xff xff xff))
(L (W x00 x00 x80 xbf x00 x00 x80 xbf))))
(T (W xff xff xff xff xff xff xff xff)
(T (W x00 x00 x80 x3f x00 x00 x80 x3f)
(T (W x45 x26 x22 x84 xe4 x9c xf2 xcb)
(L (W x50 x00 x00 x00 x44 x00 x00 x00)) E)
(L (W xff xff xff xff xff xff xff xff)))
(T (W x00 x00 x80 x3f x00 x00 x80 x3f)
(L (W x00 x00 x00 x00 x00 x00 x00 x00))
(L (W x00 x00 x80 xbf x00 x00 x80 xbf)))))
(T (W x00 x00 x00 x00 x00 x00 x00 x00)
(T (W x1c x01 x00 x00 x04 x00 x00 x00)
(T (W x00 x00 x80 x3f x00 x00 x80 x3f)
(T (W x45 x26 x22 x84 xe4 x9c xf2 xcb)
(L (W x8c x01 x00 x00 x68 x00 x00 x00)) E)
(L (W xff xff xff xff xff xff xff xff)))
(T (W xff xff xff xff xff xff xff xff)
(L (W x50 x00 x00 x00 x44 x00 x00 x00))
(L (W x18 x00 x00 x00 x0c x00 x00 x00))))
(T (W xbc x00 x00 x00 xb0 x00 x00 x00)
(T (W x45 x44 x00 x00 x00 x00 x00 x00)
(T (W x00 x00 x00 x00 x00 x00 x00 x00)
(L (W x00 x00 x00 x00 x00 x00 x00 x00)) E)
(L (W x45 x26 x22 x84 xe4 x9c xf2 xcb)))
(T (W x00 x00 x00 x00 x00 x00 x00 x00)
(L (W x00 x00 x00 x00 x00 x00 x00 x00))
(L (W x54 x00 x00 x00 x48 x00 x00 x00))))))
(T (W x45 x26 x22 x84 xe4 x9c xf2 xcb)
(T (W x00 x00 x00 x00 x00 x00 x00 x00)
(T (W x48 x03 x00 x00 x34 x02 x00 x00)
(T (W x68 x00 x00 x00 x5c x00 x00 x00)
(T (W x50 x00 x00 x00 x44 x00 x00 x00)
(L (W xca xb8 xff xff xc6 x00 x00 x00)) E)
(L (W x00 x00 x00 x00 x00 x00 x00 x00)))
(T (W x00 x00 x80 x3f x00 x00 x80 x3f)
(L (W x45 x26 x22 x84 xe4 x9c xf2 xcb))
(L (W xff xff xff xff xff xff xff xff))))
(T (W xff xff xff xff xff xff xff xff)
(T (W xb0 x00 x00 x00 x64 x00 x00 x00)
(T (W x00 x00 x80 x3f x00 x00 x80 x3f)
(L (W x00 x00 x00 x00 x00 x00 x00 x00)) E)
(L (W x00 x00 x00 x00 x02 x00 x00 x00)))
(T (W x50 x00 x00 x00 x44 x00 x00 x00)
(L (W x4f x84 x6f x8b xe8 xcb x63 xb7))
(L (W x94 x5d xff xff x00 x01 x01 x01)))))
(T (W x36 x20 x48 x96 x0d xbf xa1 x0e)
(T (W xff xff xff xff xff xff xff xff)
(T (W x00 x00 x80 x3f x00 x00 x80 x3f)
(T (W xff xff xff xff xff xff xff xff)
(L (W x00 x00 x80 xbf x00 x00 x80 xbf)) E)
(L (W xff xff xff xff xff xff xff xff)))
(T (W xe0 x34 x44 x24 x8b x9d x8c x02)
(L (W x4f x84 x6f x8b xe8 xcb x63 xb7))
(L (W x54 x00 x00 x00 x48 x00 x00 x00))))
(T (W x50 x00 x00 x00 x44 x00 x00 x00)
(T (W x00 x00 x00 x00 x12 x00 x00 x00)
(T (W xff xff xff xff xff xff xff xff)
(L (W x49 xa1 x68 x4a xeb x5f xdd x3d)) E)
(L (W x00 x00 x80 xbf x00 x00 x80 xbf)))
(T (W x00 x00 x80 x3f x00 x00 x80 x3f)
(L (W x30 x33 x5f x43 x4c x45 x41 x52))
(L (W x00 x00 x01 x01 xc6 x00 x00 x00)))))))
(T (W x45 x26 x22 x84 xe4 x9c xf2 xcb)
(T (W x00 x00 x00 x00 x00 x00 x00 x00)
(T (W x00 x00 x00 x00 x00 x00 x00 x00)
(T (W x00 x00 x00 x00 x00 x00 x00 x00)
(T (W x50 x00 x00 x00 x44 x00 x00 x00)
(T (W x18 x00 x00 x00 x0c x00 x00 x00)
(L (W xff xff xff xff xff xff xff xff)) E)
(L (W x00 x00 x00 x00 x00 x00 x00 x00)))
(T (W x00 x00 x80 x3f x00 x00 x80 x3f)
(L (W x74 x00 x0c x00 x00 x00 x00 x00))
(L (W xff xff xff xff xc4 x00 x00 x00))))
(T (W xff xff xff xff xff xff xff xff)
(T (W x7a xd2 xfc xff x78 x00 x00 x00)
(T (W x45 x26 x22 x84 xe4 x9c xf2 xcb)
(L (W x4f x84 x6f x8b xe8 xcb x63 xb7)) E)
(L (W xff xff xff xff xff xff xff xff)))
(T (W x00 x00 x80 x3f x00 x00 x80 x3f)
(L (W x00 x00 x00 x00 x00 x00 x00 x00))
(L (W x00 x00 x80 xbf x00 x00 x80 xbf)))))
(T (W x00 x00 x00 x00 x00 x00 x00 x00)
(T (W xff xff xff xff xff xff xff xff)
(T (W x00 x00 x80 x3f x00 x00 x80 x3f)
(T (W x00 x00 x00 x00 x00 x00 x00 x00)
(L (W x00 x00 x00 x00 x00 x00 x00 x00)) E)
(L (W x18 x00 x00 x00 x10 x00 x00 x00)))
(T (W xff xff xff xff x02 x00 x00 x00)
(L (W x00 x00 x00 x00 x00 x00 x00 x00))
(L (W x00 x00 x80 xbf x00 x00 x80 xbf))))
(T (W x94 x75 xfc xff x00 x01 x01 x01)
(T (W x24 xf9 xfc xff x15 x00 x00 x00)
(T (W x4e x4f x54 x5f x52 x45 x53 x50)
(L (W x00 x00 x00 x00 x00 x00 x62 x00)) E)
(L (W x00 x00 x80 xbf x00 x00 x80 xbf)))
(T (W x00 x00 x00 x00 x00 x00 x00 x00)
(L (W x00 x00 x00 x00 x00 x00 x00 x00))
(L (W x18 x00 x00 x00 x10 x00 x00 x00))))))
(T (W x00 x00 x00 x00 x00 x00 x00 x00)
(T (W x00 x00 x00 x00 x00 x00 x00 x00)
(T (W xff xff xff xff xff xff xff xff)
(T (W xff xff xff xff xff xff xff xff)
(T (W x00 x00 x80 x3f x00 x00 x80 x3f)
(L (W xff xff xff xff xff xff xff xff)) E)
(L (W xff xff xff xff xc4 x00 x00 x00)))
(T (W x45 x26 x22 x84 xe4 x9c xf2 xcb)
(L (W x24 x29 xfe xff x23 x00 x00 x00))
(L (W x14 x00 x00 x00 x0c x00 x00 x00))))
(T (W x64 x00 x00 x00 x9c x00 x00 x00)
(T (W xff xff xff xff xff xff xff xff)
(T (W x5c x00 x60 x00 x62 x00 x00 x00)
(L (W x45 x26 x22 x84 xe4 x9c xf2 xcb)) E)
(L (W x00 x00 x00 x00 x00 x00 x00 x00)))
(T (W xff xff xff xff xff xff xff xff)
(L (W x45 x26 x22 x84 xe4 x9c xf2 xcb))
(L (W xff xff xff xff x9c x00 x00 x00)))))
(T (W x5a x1d xfe xff x89 x01 x00 x00)
(T (W xff xff xff xff xff xff xff xff)
(T (W x00 x00 x00 x00 x00 x00 x00 x00)
(T (W x18 x01 x00 x00 x04 x00 x00 x00)
(L (W x4f x84 x6f x8b xe8 xcb x63 xb7)) E)
(L (W xff xff xff xff xff xff xff xff)))
(T (W x12 x00 x00 x00 x46 x53 x59 x53)
(L (W x00 x00 x00 x00 x00 x00 x00 x00))
(L (W x00 x00 x80 xbf x00 x00 x80 xbf))))
(T (W x00 x00 x80 x3f x00 x00 x80 x3f)
(T (W x45 x26 x22 x84 xe4 x9c xf2 xcb)
(L (W x67 x72 x6f x75 x70 x5f x6c x65))
(L (W x00 x00 x80 xbf x00 x00 x80 xbf)))
(T (W x00 x00 x80 x3f x00 x00 x80 x3f)
(L (W x18 x65 xca xc9 x03 x8c xa3 xbc))
(L (W xff xff xff xff xff xff xff xff))))))))))
(T (W x88 xf3 x00 x00 x54 xf2 x00 x00)
(T (W xff xff xff xff xff xff xff xff)
(T (W x00 x00 x80 x3f x00 x00 x80 x3f)
(T (W x1a xdd xfe xff x86 x03 x00 x00)
(T (W x00 x00 x00 x00 x00 x00 x00 x00)
(T (W xca xc3 xfb xff x74 x00 x00 x00)
(T (W x00 x00 x80 x3f x00 x00 x80 x3f)
(T (W x49 x00 x00 x00 xff xff xff xff)
(T (W xff xff xff xff xff xff xff xff)
(L (W x45 x26 x22 x84 xe4 x9c xf2 xcb)) E)
(L (W x54 x00 x00 x00 x48 x00 x00 x00)))
(T (W xcc x00 x00 x00 x01 x00 x00 x00)
(L (W x6b x65 x5f x6f x79 x61 x62 x75))
(L (W xff xff xff xff xc4 x00 x00 x00))))
(T (W x00 x00 x00 x00 x00 x00 x00 x00)
(T (W x45 x26 x22 x84 xe4 x9c xf2 xcb)
(T (W x00 x00 x80 x3f x00 x00 x80 x3f)
(L (W xff xff xff xff xff xff xff xff)) E)
(L (W x00 x00 x00 x00 x00 x00 x00 x00)))
(T (W x18 x00 x00 x00 x10 x00 x00 x00)
(L (W xbc x00 x00 x00 x02 x00 x00 x00))
(L (W xff xff xff xff xff xff xff xff)))))
(T (W x45 x26 x22 x84 xe4 x9c xf2 xcb)
(T (W x00 x00 x80 x3f x00 x00 x80 x3f)
(T (W xff xff xff xff xff xff xff xff)
(T (W xff xff xff xff xff xff xff xff)
(L (W x00 x00 x00 x00 x00 x00 x00 x00)) E)
(L (W x42 xbc xfe xff x49 x00 x00 x00)))
(T (W x00 x00 x00 x00 x00 x00 x00 x00)
(L (W x45 x26 x22 x84 xe4 x9c xf2 xcb))
(L (W x04 x00 x00 x00 x22 x2f xff xff))))
(T (W x00 x00 x00 x00 x00 x00 x00 x00)
(T (W x00 x00 x80 x3f x00 x00 x80 x3f)
(T (W x00 x00 x00 x00 x58 x00 x5c x00)
(L (W x00 x00 x00 x00 x00 x00 x00 x00)) E)
(L (W xca xe3 xfe xff x74 x00 x00 x00)))
(T (W x00 x00 x00 x00 x00 x00 x00 x00)
(L (W x00 x00 x00 x00 x98 x68 xfe xff))
(L (W x62 x66 xff xff x72 x00 x00 x00))))))
(T (W x45 x26 x22 x84 xe4 x9c xf2 xcb)
(T (W x00 x00 x80 x3f x00 x00 x80 x3f)
(T (W x00 x00 x00 x00 x00 x00 x00 x00)
(T (W xff xff xff xff xff xff xff xff)
(T (W xff xff xff xff xff xff xff xff)
(L (W x00 x00 x00 x00 x00 x00 x00 x00)) E)
(L (W x00 x00 x80 xbf x00 x00 x80 xbf)))
(T (W xff xff xff xff xff xff xff xff)
(L (W xff xff xff xff xb0 x00 x00 x00))
(L (W x00 x00 x00 x00 x00 x00 x00 x00))))
(T (W x40 x00 x00 x00 x0c x00 x00 x00)
(T (W x00 x00 x00 x00 xaa xd4 xfc xff)
(T (W xb8 x00 x00 x00 xac x00 x00 x00)
(L (W xff xff xff xff xff xff xff xff)) E)
(L (W x00 x00 x80 xbf x00 x00 x80 xbf)))
(T (W xff xff xff xff xff xff xff xff)
(L (W xcc x00 x00 x00 x01 x00 x00 x00))
(L (W xff xff xff xff xff xff xff xff)))))
(T (W x00 x00 x80 x3f x00 x00 x80 x3f)
(T (W x00 x00 x00 x00 x00 x00 x00 x00)
(T (W x38 x00 x3c x00 x40 x00 x44 x00)
(T (W x50 x00 x00 x00 x44 x00 x00 x00)
(L (W x68 x00 x00 x00 x5c x00 x00 x00)) E)
(L (W x00 x00 x00 x00 x00 x00 x00 x00)))
(T (W x45 x26 x22 x84 xe4 x9c xf2 xcb)
(L (W x03 x00 x00 x00 xd0 x00 x00 x00))
(L (W xff xff xff xff xff xff xff xff))))
(T (W x00 x00 x00 x00 x04 x00 x00 x00)
(T (W x00 x00 x80 x3f x00 x00 x80 x3f)
(T (W xff xff xff xff xff xff xff xff)
(L (W xff xff xff xff x9c x00 x00 x00)) E)
(L (W xff xff xff xff x9c x00 x00 x00)))
(T (W xff xff xff xff xac x00 x00 x00)
(L (W x94 x78 xfe xff x00 x01 x01 x01))
(L (W x62 x76 xff xff xaf x01 x00 x00)))))))
(T (W x61 x72 x6c x69 x6b x65 x5f x66)
(T (W x00 x00 x80 x3f x00 x00 x80 x3f)
(T (W x00 x00 x80 x3f x00 x00 x80 x3f)
(T (W x45 x26 x22 x84 xe4 x9c xf2 xcb)
(T (W xff xff xff xff xff xff xff xff)
(T (W x28 x00 x00 x00 x10 x00 x00 x00)
(L (W x00 x00 x00 x00 x00 x00 x00 x00)) E)
(L (W x00 x00 x80 xbf x00 x00 x80 xbf)))
(T (W xb0 x00 x00 x00 x64 x00 x00 x00)
(L (W x00 x00 x80 x3f x00 x00 x80 x3f))
(L (W xff xff xff xff xff xff xff xff))))
(T (W x00 x00 x00 x00 x00 x00 x00 x00)
(T (W xff xff xff xff xff xff xff xff)
(T (W x68 x00 x00 x00 x5c x00 x00 x00)
(L (W xff xff xff xff xff xff xff xff)) E)
(L (W x00 x00 x80 xbf x00 x00 x80 xbf)))
(T (W xff xff xff xff xff xff xff xff)
(L (W xb8 x00 x00 x00 x3c x00 x00 x00))
(L (W xff xff xff xff xbc x00 x00 x00)))))
(T (W x18 x00 x00 x00 x0c x00 x00 x00)
(T (W x00 x00 x80 x3f x00 x00 x80 x3f)
(T (W x37 x00 x00 x00 xff xff xff xff)
(T (W xb8 x00 x00 x00 xac x00 x00 x00)
(L (W x7a xad xff xff x78 x00 x00 x00)) E)
(L (W x30 x33 x5f x43 x4c x45 x41 x52)))
(T (W x00 x00 x00 x00 x00 x00 x00 x00)
(L (W xe2 x4e x69 x12 x83 x71 x37 xc6))
(L (W x36 x00 x00 x00 xff xff xff xff))))
(T (W x00 x00 x00 x00 x00 x00 x00 x00)
(T (W x00 x00 x80 x3f x00 x00 x80 x3f)
(T (W x00 x00 x00 x00 x00 x00 x00 x00)
(L (W xff xff xff xff xff xff xff xff)) E)
(L (W x94 xf0 xfe xff x00 x01 x01 x01)))
(T (W x6c x00 x00 x00 x60 x00 x00 x00)
(L (W x45 x26 x22 x84 xe4 x9c xf2 xcb))
(L (W xff xff xff xff xff xff xff xff))))))
(T (W x18 x00 x00 x00 x10 x00 x00 x00)
(T (W x7a xdd xfb xff x78 x00 x00 x00)
(T (W x45 x26 x22 x84 xe4 x9c xf2 xcb)
(T (W x64 x00 x00 x00 x9c x00 x00 x00)
(T (W xff xff xff xff xff xff xff xff)
(L (W x00 x00 x00 x00 x00 x00 x00 x00)) E)
(L (W x45 x26 x22 x84 xe4 x9c xf2 xcb)))
(T (W xff xff xff xff xff xff xff xff)
(L (W xff xff xff xff xff xff xff xff))
(L (W x46 x53 x59 x53 x5f x4e x53 x5f))))
(T (W x00 x00 x00 x00 x00 x00 x00 x00)
(T (W x00 x00 x00 x00 x00 x00 x00 x00)
(T (W xb8 x00 x00 x00 xac x00 x00 x00)
(L (W x45 x26 x22 x84 xe4 x9c xf2 xcb)) E)
(L (W x00 x00 x80 xbf x00 x00 x80 xbf)))
(T (W x9c x01 x00 x00 xff xff xff xff)
(L (W x45 x26 x22 x84 xe4 x9c xf2 xcb))
(L (W x45 x44 x00 x00 x00 x00 x00 x00)))))
(T (W x54 x00 x00 x00 x48 x00 x00 x00)
(T (W x45 x26 x22 x84 xe4 x9c xf2 xcb)
(T (W x7c xd4 xfc xff x1f x00 x00 x00)
(T (W x00 x00 x80 x3f x00 x00 x80 x3f)
(L (W x1d x00 x00 x00 x20 x00 x00 x00)) E)
(L (W x45 x44 x00 x00 x00 x00 x00 x00)))
(T (W x00 x00 x80 x3f x00 x00 x80 x3f)
(L (W xff xff xff xff x9c x00 x00 x00))
(L (W xff xff xff xff xff xff xff xff))))
(T (W xff xff xff xff xff xff xff xff)
(T (W x18 x00 x00 x00 x10 x00 x00 x00)
(T (W x00 x00 x00 x00 x12 x00 x00 x00)
(L (W x46 x53 x59 x53 x5f x4e x53 x5f)) E)
(L (W xff xff xff xff xb0 x00 x00 x00)))
(T (W xb0 x00 x00 x00 x64 x00 x00 x00)
(L (W x00 x00 x80 xbf x00 x00 x80 xbf))
(L (W x00 x00 x00 x00 x00 x00 x00 x00))))))))
(T (W x67 x72 x6f x75 x70 x5f x6c x65)
(T (W x64 x00 x00 x00 x9c x00 x00 x00)
(T (W xff xff xff xff xff xff xff xff)
(T (W x00 x00 x00 x00 x00 x00 x00 x00)
(T (W xff xff xff xff xff xff xff xff)
(T (W x00 x00 x80 x3f x00 x00 x80 x3f)
(T (W x18 x00 x00 x00 x0c x00 x00 x00)
(L (W xb0 x00 x00 x00 x64 x00 x00 x00)) E)
(L (W xff xff xff xff xff xff xff xff)))
(T (W x00 x00 x00 x00 x00 x00 x00 x00)
(L (W xff xff xff xff xff xff xff xff))
(L (W x49 xa1 x68 x4a xeb x5f xdd x3d))))
(T (W xc0 x00 x00 x00 xb4 x00 x00 x00)
(T (W x00 x00 x00 x00 x00 x00 x00 x00)
(T (W x6b x65 x5f x63 x6f x77 x61 x72)
(L (W x00 x00 x80 xbf x00 x00 x80 xbf)) E)
(L (W xb4 x00 x00 x00 x64 x00 x00 x00)))
(T (W x00 x00 x00 x00 x00 x00 x00 x00)
(L (W x00 x00 x00 x00 x00 x00 x00 x00))
(L (W x00 x00 x00 x00 x00 x00 x00 x00)))))
(T (W xa3 x2b xa4 x78 x6d xb8 xfa x9d)
(T (W xff xff xff xff xff xff xff xff)
(T (W x45 x26 x22 x84 xe4 x9c xf2 xcb)
(T (W x00 x00 x00 x00 x00 x00 x00 x00)
(L (W xff xff xff xff xc4 x00 x00 x00)) E)
(L (W x00 x00 x80 xbf x00 x00 x80 xbf)))
(T (W x29 x00 x00 x00 x2c x00 x00 x00)
(L (W x45 x26 x22 x84 xe4 x9c xf2 xcb))
(L (W x45 x26 x22 x84 xe4 x9c xf2 xcb))))
(T (W x50 x00 x00 x00 x44 x00 x00 x00)
(T (W xff xff xff xff xff xff xff xff)
(T (W x00 x00 x00 x00 x12 x00 x00 x00)
(L (W x5c x00 x60 x00 x00 x00 x00 x00)) E)
(L (W x00 x00 x00 x00 x00 x00 x00 x00)))
(T (W xff xff xff xff xff xff xff xff)
(L (W x00 x00 x00 x00 x08 x00 x00 x00))
(L (W x38 x00 x00 x00 x00 x00 x80 xbf))))))
(T (W x00 x00 x00 x00 x00 x00 x00 x00)
(T (W x00 x00 x00 x00 x00 x00 x00 x00)
(T (W xff xff xff xff xff xff xff xff)
(T (W x45 x26 x22 x84 xe4 x9c xf2 xcb)
(T (W x00 x00 x80 x3f x00 x00 x80 x3f)
(L (W xff xff xff xff xff xff xff xff)) E)
(L (W xff xff xff xff xff xff xff xff)))
(T (W x00 x00 x80 x3f x00 x00 x80 x3f)
(L (W x00 x00 x00 x00 x00 x00 x00 x00))
(L (W xff xff xff xff xc4 x00 x00 x00))))
(T (W x00 x00 x00 x00 x04 x5b xfc xff)
(T (W x94 xdc xfc xff x00 x01 x01 x01)
(T (W x00 x00 x00 x00 x00 x00 x00 x00)
(L (W x00 x00 x00 x00 x12 x00 x00 x00)) E)
(L (W xff xff xff xff xff xff xff xff)))
(T (W x00 x00 x80 x3f x00 x00 x80 x3f)
(L (W x00 x00 x00 x00 x00 x00 x00 x00))
(L (W x54 x00 x00 x00 x48 x00 x00 x00)))))
(T (W xff xff xff xff xff xff xff xff)
(T (W x18 x00 x00 x00 x10 x00 x00 x00)
(T (W x00 x00 x80 x3f x00 x00 x80 x3f)
(T (W x50 x00 x00 x00 x44 x00 x00 x00)
(L (W x00 x00 x00 x00 x00 x00 x00 x00)) E)
(L (W xca xb7 xfe xff x74 x00 x00 x00)))
(T (W xff xff xff xff xff xff xff xff)
(L (W x00 x00 x00 x00 x00 x00 x00 x00))
(L (W x00 x00 x00 x00 x00 x00 x00 x00))))
(T (W x00 x00 x80 x3f x00 x00 x80 x3f)
(T (W x00 x00 x00 x00 x00 x00 x00 x00)
(T (W x00 x00 x80 x3f x00 x00 x80 x3f)
(L (W x00 x00 x00 x00 x06 x00 x00 x00)) E)
(L (W x4f x84 x6f x8b xe8 xcb x63 xb7)))
(T (W x00 x00 x00 x00 x00 x00 x00 x00)
(L (W xca x97 xfe xff x8c x01 x00 x00))
(L (W x00 x00 x80 xbf x00 x00 x80 xbf)))))))
(T (W x6f x6b x65 x5f x63 x6f x77 x61)
(T (W x00 x00 x00 x00 x00 x00 x00 x00)
(T (W x25 x00 x00 x00 x10 x00 x00 x00)
(T (W x6c x01 x00 x00 xff xff xff xff)
(T (W x00 x00 x80 x3f x00 x00 x80 x3f)
(T (W x00 x00 x80 x3f x00 x00 x80 x3f)
(L (W xff xff xff xff xff xff xff xff)) E)
(L (W xff xff xff xff xff xff xff xff)))
(T (W x00 x00 x00 x00 x00 x00 x00 x00)
(L (W xff xff xff xff xff xff xff xff))
(L (W x45 x26 x22 x84 xe4 x9c xf2 xcb))))
(T (W xff xff xff xff x03 x00 x00 x00)
(T (W x00 x00 x80 x3f x00 x00 x80 x3f)
(T (W x00 x00 x00 x00 x00 x00 x00 x00)
(L (W x00 x00 x00 x00 x00 x00 x00 x00)) E)
(L (W x03 x00 x00 x00 xd4 x00 x00 x00)))
(T (W x00 x00 x00 x00 x00 x00 x00 x00)
(L (W x00 x00 x00 x00 x12 x00 x00 x00))
(L (W x4f x84 x6f x8b xe8 xcb x63 xb7)))))
(T (W x8b x01 x00 x00 xff xff xff xff)
(T (W xff xff xff xff x04 x00 x00 x00)
(T (W x00 x00 x00 x00 x00 x00 x00 x00)
(T (W x00 x00 x00 x00 x00 x00 x00 x00)
(L (W xb3 xd2 xac x28 xbf xce x59 x6a)) E)
(L (W x54 x00 x00 x00 x48 x00 x00 x00)))
(T (W xff xff xff xff xff xff xff xff)
(L (W x00 x00 x00 x00 x00 x00 x00 x00))
(L (W x00 x00 x80 xbf x00 x00 x80 xbf))))
(T (W x00 x00 x80 x3f x00 x00 x80 x3f)
(T (W xff xff xff xff xff xff xff xff)
(T (W x02 x00 x00 x00 xff xff xff xff)
(L (W xff xff xff xff xff xff xff xff)) E)
(L (W x45 x26 x22 x84 xe4 x9c xf2 xcb)))
(T (W x4c x45 x41 x52 x45 x44 x00 x00)
(L (W x00 x00 x00 x00 x52 x8e xfe xff))
(L (W x6c x00 x00 x00 x60 x00 x00 x00))))))
(T (W x3e x00 x00 x00 x10 x00 x00 x00)
(T (W x00 x00 x00 x00 x00 x00 x00 x00)
(T (W xff xff xff xff xff xff xff xff)
(T (W x00 x00 x80 x3f x00 x00 x80 x3f)
(T (W x45 x26 x22 x84 xe4 x9c xf2 xcb)
(L (W xff xff xff xff xff xff xff xff)) E)
(L (W x45 x26 x22 x84 xe4 x9c xf2 xcb)))
(T (W x50 x00 x00 x00 x44 x00 x00 x00)
(L (W xff xff xff xff xff xff xff xff))
(L (W x5c x00 x00 x00 x50 x00 x00 x00))))
(T (W x45 x26 x22 x84 xe4 x9c xf2 xcb)
(T (W xff xff xff xff xbc x00 x00 x00)
(T (W x94 xe4 xfd xff x00 x01 x01 x01)
(L (W x7c xf8 xff xff x1b x00 x00 x00)) E)
(L (W x0d x51 x54 x1d xca xac x99 xfd)))
(T (W x50 x00 x00 x00 x44 x00 x00 x00)
(L (W x00 x00 x00 x00 x12 x00 x00 x00))
(L (W x7a x61 xff xff x78 x00 x00 x00)))))
(T (W xff xff xff xff xff xff xff xff)
(T (W xb8 x00 x00 x00 xac x00 x00 x00)
(T (W x1d x00 x00 x00 x0c x00 x00 x00)
(T (W xff xff xff xff xff xff xff xff)
(L (W x00 x00 x00 x00 x00 x00 x00 x00)) E)
(L (W x18 x00 x00 x00 x0c x00 x00 x00)))
(T (W x00 x00 x00 x00 x00 x00 x00 x00)
(L (W x46 x53 x59 x53 x5f x4e x53 x5f))
(L (W x00 x00 x00 x00 x00 x00 x00 x00))))
(T (W x00 x00 x80 x3f x00 x00 x80 x3f)
(T (W x00 x00 x00 x00 x00 x00 x00 x00)
(T (W xff xff xff xff xff xff xff xff)
(L (W xff xff xff xff xec x00 x00 x00)) E)
(L (W x00 x00 x80 xbf x00 x00 x80 xbf)))
(T (W x45 x26 x22 x84 xe4 x9c xf2 xcb)
(L (W xff xff xff xff xff xff xff xff))
(L (W xff xff xff xff xff xff xff xff)))))))))
(T (W x00 x00 x00 x00 x01 x00 x00 x00)
(T (W x00 x00 x80 x3f x00 x00 x80 x3f)
(T (W x00 x00 x80 x3f x00 x00 x80 x3f)
(T (W x00 x00 x80 x3f x00 x00 x80 x3f)
(T (W xff xff xff xff xff xff xff xff)
(T (W x18 x00 x00 x00 x10 x00 x00 x00)
(T (W x00 x00 x00 x00 x00 x00 x00 x00)
(T (W x00 x00 x80 x3f x00 x00 x80 x3f)
(L (W x00 x89 xff xff x2a x8c xff xff)) E)
(L (W x94 x8a xfe xff x00 x01 x01 x01)))
(T (W xff xff xff xff xff xff xff xff)
(L (W x00 x00 x80 x3f x00 x00 x80 x3f))
(L (W x48 x00 x00 x00 xff xff xff xff))))
(T (W x00 x00 x80 x3f x00 x00 x80 x3f)
(T (W xff xff xff xff xff xff xff xff)
(T (W xff xff xff xff xff xff xff xff)
(L (W x00 x00 x00 x00 xaa xc6 xff xff)) E)
(L (W x68 x00 x00 x00 x5c x00 x00 x00)))
(T (W xff xff xff xff xff xff xff xff)
(L (W xff xff xff xff xff xff xff xff))
(L (W xff xff xff xff xff xff xff xff)))))
(T (W xb8 x00 x00 x00 xac x00 x00 x00)
(T (W x00 x00 x80 x3f x00 x00 x80 x3f)
(T (W x00 x00 x00 x00 x00 x00 x00 x00)
(T (W x5a xc2 xff xff x8a x01 x00 x00)
(L (W x68 x00 x00 x00 x5c x00 x00 x00)) E)
(L (W x00 x00 x00 x00 x00 x00 x00 x00)))
(T (W x45 x26 x22 x84 xe4 x9c xf2 xcb)
(L (W x04 x00 x00 x00 xba xf8 xff xff))
(L (W x00 x00 x00 x00 x00 x00 x00 x00))))
(T (W x00 x00 x00 x00 x00 x00 x00 x00)
(T (W x94 xea xfc xff x00 x01 x01 x01)
(T (W x60 x01 x00 x00 x97 x00 x00 x00)
(L (W x00 x00 x80 xbf x00 x00 x80 xbf)) E)
(L (W xff xff xff xff xff xff xff xff)))
(T (W x54 x00 x00 x00 x48 x00 x00 x00)
(L (W xff xff xff xff xff xff xff xff))
(L (W x00 x00 x00 x00 x00 x00 x00 x00))))))
(T (W xff xff xff xff xff xff xff xff)
(T (W xff xff xff xff xff xff xff xff)
(T (W xca x15 xfc xff x74 x00 x00 x00)
(T (W x24 x9e xfc xff x3c x00 x00 x00)
(T (W x00 x00 x00 x00 x00 x00 x00 x00)
(L (W x00 x00 x00 x00 x04 x99 xff xff)) E)
(L (W x74 x00 x00 x00 x68 x00 x00 x00)))
(T (W x24 x1e xfd xff x15 x00 x00 x00)
(L (W xff xff xff xff xff xff xff xff))
(L (W x00 x00 x00 x00 x00 x00 x00 x00))))
(T (W x00 x00 x80 x3f x00 x00 x80 x3f)
(T (W x4f x84 x6f x8b xe8 xcb x63 xb7)
(T (W x24 xde xfd xff x2a x00 x00 x00)
(L (W x6c x01 x00 x00 xff xff xff xff)) E)
(L (W x00 x00 x00 x00 x04 xd9 xfe xff)))
(T (W x00 x00 x00 x00 x00 x00 x00 x00)
(L (W xff xff xff xff xff xff xff xff))
(L (W x00 x00 x00 x00 x00 x00 x00 x00)))))
(T (W xff xff xff xff xff xff xff xff)
(T (W xca x35 xfc xff x74 x00 x00 x00)
(T (W xff xff xff xff xff xff xff xff)
(T (W x6b x65 x5f x66 x69 x73 x68 x5f)
(L (W xff xff xff xff xff xff xff xff)) E)
(L (W x00 x00 x80 xbf x00 x00 x80 xbf)))
(T (W xff xff xff xff xa0 x00 x00 x00)
(L (W x00 x00 x00 x00 x04 x00 x00 x00))
(L (W x62 x38 xff xff xaf x01 x00 x00))))
(T (W x00 x00 x00 x00 x00 x00 x00 x00)
(T (W xff xff xff xff xff xff xff xff)
(T (W x18 x00 x00 x00 x10 x00 x00 x00)
(L (W x00 x00 x80 xbf x00 x00 x80 xbf)) E)
(L (W xff xff xff xff xff xff xff xff)))
(T (W xff xff xff xff xff xff xff xff)
(L (W xff xff xff xff xff xff xff xff))
(L (W x00 x00 x00 x00 x00 x00 x00 x00)))))))
(T (W x94 xa2 xfb xff x00 x01 x01 x01)
(T (W xff xff xff xff xff xff xff xff)
(T (W xff xff xff xff xff xff xff xff)
(T (W x01 x00 x00 x00 xa0 x00 x00 x00)
(T (W x00 x00 x00 x00 x00 x00 x00 x00)
(T (W x00 x00 x00 x00 x00 x00 x00 x00)
(L (W x00 x00 x80 xbf x00 x00 x80 xbf)) E)
(L (W x58 x00 x00 x00 x4c x00 x00 x00)))
(T (W x45 x44 x00 x00 x00 x00 x00 x00)
(L (W x18 x00 x00 x00 x10 x00 x00 x00))
(L (W x00 x00 x00 x00 x00 x00 x00 x00))))
(T (W x00 x00 x80 x3f x00 x00 x80 x3f)
(T (W x00 x00 x00 x00 x00 x00 x00 x00)
(T (W x5a xea xff xff xd1 x01 x00 x00)
(L (W xff xff xff xff xff xff xff xff)) E)
(L (W x6c x00 x00 x00 x60 x00 x00 x00)))
(T (W x00 x00 x00 x00 x22 x59 xfd xff)
(L (W xff xff xff xff xff xff xff xff))
(L (W x30 x33 x5f x43 x4c x45 x41 x52)))))
(T (W xff xff xff xff xff xff xff xff)
(T (W x68 x00 x00 x00 x5c x00 x00 x00)
(T (W x00 x00 x00 x00 x00 x00 x00 x00)
(T (W xff xff xff xff xff xff xff xff)
(L (W xff xff xff xff xff xff xff xff)) E)
(L (W x4f x84 x6f x8b xe8 xcb x63 xb7)))
(T (W x00 x00 x80 x3f x00 x00 x80 x3f)
(L (W xb0 x00 x00 x00 x64 x00 x00 x00))
(L (W x00 x00 x00 x00 x00 x00 x00 x00))))
(T (W x00 x00 x00 x00 x00 x00 x00 x00)
(T (W xff xff xff xff xc4 x00 x00 x00)
(T (W x29 x00 x00 x00 x67 x72 x6f x75)
(L (W x00 x00 x00 x00 x00 x00 x00 x00)) E)
(L (W x34 x01 x00 x00 x04 x00 x00 x00)))
(T (W xff xff xff xff xbc x00 x00 x00)
(L (W xff xff xff xff xff xff xff xff))
(L (W x00 x00 x00 x00 x00 x00 x00 x00))))))
(T (W xff xff xff xff xff xff xff xff)
(T (W xff xff xff xff xff xff xff xff)
(T (W x00 x00 x80 x3f x00 x00 x80 x3f)
(T (W x34 x60 xfd xe5 x8a x03 xe3 x9e)
(T (W x00 x00 x00 x00 x00 x00 x00 x00)
(L (W x7a x9f xff xff x78 x00 x00 x00)) E)
(L (W x28 x00 x2c x00 x30 x00 x34 x00)))
(T (W x00 x00 x00 x00 x00 x00 x00 x00)
(L (W x68 x00 x00 x00 x5c x00 x00 x00))
(L (W x49 xa1 x68 x4a xeb x5f xdd x3d))))
(T (W x00 x00 x00 x00 x00 x00 x00 x00)
(T (W x00 x00 x80 x3f x00 x00 x80 x3f)
(T (W xff xff xff xff xff xff xff xff)
(L (W xff xff xff xff xff xff xff xff)) E)
(L (W xff xff xff xff xff xff xff xff)))
(T (W x00 x00 x00 x00 x00 x00 x00 x00)
(L (W xff xff xff xff xff xff xff xff))
(L (W x00 x00 x00 x00 x00 x00 x00 x00)))))
(T (W xff xff xff xff xff xff xff xff)
(T (W x94 x42 xfc xff x00 x01 x01 x01)
(T (W xff xff xff xff xff xff xff xff)
(T (W xca xbd xfd xff x74 x00 x00 x00)
(L (W xff xff xff xff xff xff xff xff)) E)
(L (W x00 x00 x80 xbf x00 x00 x80 xbf)))
(T (W xff xff xff xff xff xff xff xff)
(L (W x00 x00 x00 x00 xaa x3e xfe xff))
(L (W x00 x00 x00 x00 x00 x00 x00 x00))))
(T (W x45 x26 x22 x84 xe4 x9c xf2 xcb)
(T (W xff xff xff xff xff xff xff xff)
(T (W x00 x00 x80 x3f x00 x00 x80 x3f)
(L (W x62 x00 x00 x00 x42 x00 x00 x00)) E)
(L (W xfc x07 x00 x00 xcc x06 x00 x00)))
(T (W x7c x96 xfd xff x24 x00 x00 x00)
(L (W xff xff xff xff xff xff xff xff))
(L (W x00 x00 x80 xbf x00 x00 x80 xbf))))))))
(T (W x7a x93 xfb xff x78 x00 x00 x00)
(T (W x00 x00 x00 x00 x00 x00 x00 x00)
(T (W x1a x00 x00 x00 x67 x72 x6f x75)
(T (W x45 x26 x22 x84 xe4 x9c xf2 xcb)
(T (W x00 x00 x00 x00 x00 x00 x00 x00)
(T (W x50 x00 x00 x00 x44 x00 x00 x00)
(T (W xff xff xff xff xff xff xff xff)
(L (W x45 x44 x00 x00 x00 x00 x00 x00)) E)
(L (W x24 x92 xfe xff x1d x00 x00 x00)))
(T (W x68 x00 x00 x00 x5c x00 x00 x00)
(L (W x77 x61 x72 x6c x69 x6b x65 x5f))
(L (W x18 x00 x00 x00 x0c x00 x00 x00))))
(T (W xff xff xff xff xff xff xff xff)
(T (W x6c x00 x00 x00 x60 x00 x00 x00)
(T (W x45 x26 x22 x84 xe4 x9c xf2 xcb)
(L (W x7a xcb xff xff x78 x00 x00 x00)) E)
(L (W xff xff xff xff xff xff xff xff)))
(T (W x00 x00 x80 x3f x00 x00 x80 x3f)
(L (W x45 x26 x22 x84 xe4 x9c xf2 xcb))
(L (W xca x49 xff xff x74 x00 x00 x00)))))
(T (W x00 x00 x80 x3f x00 x00 x80 x3f)
(T (W x00 x00 x00 x00 x00 x00 x00 x00)
(T (W x01 x00 x00 x00 xa0 x00 x00 x00)
(T (W x00 x00 x80 x3f x00 x00 x80 x3f)
(L (W x3c x00 x00 x00 x00 x00 x80 xbf)) E)
(L (W xff xff xff xff xff xff xff xff)))
(T (W xff xff xff xff xff xff xff xff)
(L (W xa8 x00 x00 x00 x64 x00 x00 x00))
(L (W xff xff xff xff xff xff xff xff))))
(T (W xff xff xff xff xff xff xff xff)
(T (W x00 x00 x00 x00 x00 x00 x00 x00)
(T (W x00 x00 x80 x3f x00 x00 x80 x3f)
(L (W x29 x00 x00 x00 x2c x00 x00 x00)) E)
(L (W x00 x00 x80 xbf x00 x00 x80 xbf)))
(T (W x00 x00 x00 x00 x00 x00 x00 x00)
(L (W x00 x00 x80 xbf x00 x00 x80 xbf))
(L (W x45 x26 x22 x84 xe4 x9c xf2 xcb))))))
(T (W x00 x00 x80 x3f x00 x00 x80 x3f)
(T (W x00 x00 x80 x3f x00 x00 x80 x3f)
(T (W x00 x00 x00 x00 x00 x00 x00 x00)
(T (W x00 x00 x00 x00 x04 x9d xfc xff)
(T (W xb8 x00 x00 x00 xac x00 x00 x00)
(L (W x45 x44 x00 x00 x00 x00 x00 x00)) E)
(L (W x00 x00 x00 x00 x00 x00 x00 x00)))
(T (W x00 x00 x00 x00 x04 x1d xfd xff)
(L (W x00 x00 x80 xbf x00 x00 x80 xbf))
(L (W xff xff xff xff xff xff xff xff))))
(T (W xff xff xff xff xff xff xff xff)
(T (W xff xff xff xff xff xff xff xff)
(T (W x00 x00 x80 x3f x00 x00 x80 x3f)
(L (W x54 x00 x00 x00 x48 x00 x00 x00)) E)
(L (W x00 x00 x00 x00 x12 x00 x00 x00)))
(T (W x03 x00 x00 x00 xd4 x00 x00 x00)
(L (W x00 x00 x80 xbf x00 x00 x80 xbf))
(L (W xb0 x00 x00 x00 x64 x00 x00 x00)))))
(T (W x00 x00 x00 x00 x00 x00 x00 x00)
(T (W xca x57 xfe xff x00 x00 x01 x01)
(T (W x00 x00 x80 x3f x00 x00 x80 x3f)
(T (W x5f x77 x69 x6c x64 x5f x70 x6f)
(L (W x00 x00 x80 xbf x00 x00 x80 xbf)) E)
(L (W xff xff xff xff xff xff xff xff)))
(T (W x00 x00 x00 x00 x00 x00 x00 x00)
(L (W x00 x00 x80 xbf x00 x00 x80 xbf))
(L (W x45 x26 x22 x84 xe4 x9c xf2 xcb))))
(T (W x64 x00 x00 x00 x9c x00 x00 x00)
(T (W x00 x00 x00 x00 x00 x00 x00 x00)
(T (W xff xff xff xff xff xff xff xff)
(L (W x34 x00 x38 x00 x2a x00 x00 x00)) E)
(L (W x00 x00 x80 xbf x00 x00 x80 xbf)))
(T (W x54 x00 x00 x00 x48 x00 x00 x00)
(L (W x00 x00 x00 x00 x00 x00 x00 x00))
(L (W x30 x33 x5f x43 x4c x45 x41 x52)))))))
(T (W x00 x00 x00 x00 x04 xa5 xfb xff)
(T (W x50 x00 x00 x00 x44 x00 x00 x00)
(T (W x45 x26 x22 x84 xe4 x9c xf2 xcb)
(T (W x00 x00 x00 x00 x00 x00 x00 x00)
(T (W xca x91 xfc xff x74 x00 x00 x00)
(T (W x64 x00 x00 x00 x9c x00 x00 x00)
(L (W x62 x94 xff xff xa9 x01 x00 x00)) E)
(L (W x00 x00 x00 x00 x12 x00 x00 x00)))
(T (W x45 x26 x22 x84 xe4 x9c xf2 xcb)
(L (W x00 x00 x80 x3f x00 x00 x80 x3f))
(L (W xff xff xff xff xff xff xff xff))))
(T (W xff xff xff xff xff xff xff xff)
(T (W xff xff xff xff x9c x00 x00 x00)
(T (W x00 x00 x80 x3f x00 x00 x80 x3f)
(L (W x00 x00 x80 xbf x00 x00 x80 xbf)) E)
(L (W x1b x00 x00 x00 x10 x00 x00 x00)))
(T (W x45 x26 x22 x84 xe4 x9c xf2 xcb)
(L (W x49 xa1 x68 x4a xeb x5f xdd x3d))
(L (W x94 x56 xff xff x00 x01 x01 x01)))))
(T (W x00 x00 x00 x00 x00 x00 x00 x00)
(T (W x40 x00 x00 x00 x10 x00 x00 x00)
(T (W xca xb1 xfc xff x74 x00 x00 x00)
(T (W x45 x26 x22 x84 xe4 x9c xf2 xcb)
(L (W x00 x00 x80 xbf x00 x00 x80 xbf)) E)
(L (W xff xff xff xff xff xff xff xff)))
(T (W x00 x00 x00 x00 x00 x00 x00 x00)
(L (W x00 x00 x80 xbf x00 x00 x80 xbf))
(L (W x03 x00 x00 x00 xc8 x00 x00 x00))))
(T (W xff xff xff xff xff xff xff xff)
(T (W x4f x84 x6f x8b xe8 xcb x63 xb7)
(T (W xe9 x01 x00 x00 xff xff xff xff)
(L (W x00 x00 x80 xbf x00 x00 x80 xbf)) E)
(L (W x00 x00 x80 xbf x00 x00 x80 xbf)))
(T (W x49 xa1 x68 x4a xeb x5f xdd x3d)
(L (W x00 x00 x80 xbf x00 x00 x80 xbf))
(L (W xff xff xff xff xff xff xff xff))))))
(T (W x00 x00 x00 x00 x00 x00 x00 x00)
(T (W x45 x26 x22 x84 xe4 x9c xf2 xcb)
(T (W x24 x2a xfc xff x3c x00 x00 x00)
(T (W x00 x00 x62 x00 x7c x00 x08 x00)
(T (W x50 x00 x00 x00 x44 x00 x00 x00)
(L (W xff xff xff xff xff xff xff xff)) E)
(L (W xff xff xff xff xff xff xff xff)))
(T (W xff xff xff xff xff xff xff xff)
(L (W x00 x00 x00 x00 x00 x00 x00 x00))
(L (W x1f x00 x00 x00 x22 x00 x00 x00))))
(T (W xff xff xff xff xff xff xff xff)
(T (W x00 x00 x00 x00 x00 x00 x00 x00)
(T (W x00 x00 x00 x00 x00 x00 x00 x00)
(L (W x00 x00 x00 x00 x00 x00 x00 x00)) E)
(L (W x00 x00 x80 xbf x00 x00 x80 xbf)))
(T (W xfa x70 xfd xff x9d x01 x00 x00)
(L (W x00 x00 x80 xbf x00 x00 x80 xbf))
(L (W xff xff xff xff xff xff xff xff)))))
(T (W x00 x00 x00 x00 x00 x00 x00 x00)
(T (W xff xff xff xff xff xff xff xff)
(T (W x45 x26 x22 x84 xe4 x9c xf2 xcb)
(T (W x00 x00 x00 x00 x00 x00 x00 x00)
(L (W x3c x00 x40 x00 x2a x00 x00 x00)) E)
(L (W xff xff xff xff xff xff xff xff)))
(T (W x00 x00 x00 x00 x00 x00 x00 x00)
(L (W x00 x00 x80 xbf x00 x00 x80 xbf))
(L (W x6c x00 x00 x00 x60 x00 x00 x00))))
(T (W x94 x86 xfc xff x00 x01 x01 x01)
(T (W x00 x00 x80 x3f x00 x00 x80 x3f)
(L (W x00 x00 x80 x3f x00 x00 x80 x3f))
(L (W x68 x00 x00 x00 x5c x00 x00 x00)))
(T (W x50 x00 x00 x00 x44 x00 x00 x00)
(L (W x00 x00 x00 x00 x00 x00 x00 x00))
(L (W x3a xfd xaf x28 xbf x5e x5d x6a)))))))))))))))).
