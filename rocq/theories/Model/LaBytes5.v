(** Generated by tools/gen_la.py from resources/encount/la/ha_area05_encounter.bin. *)
From Coq Require Import NArith Strings.Byte.
From Verif Require Import Model.Trie.
Definition area_5_size : N := 311584%N.
Definition area_5_trie : trie :=
(T (W x0c x00 x00 x00 x00 x00 x06 x00)
(T (W x08 x00 x04 x00 x06 x00 x00 x00)
(T (W x08 xb8 x04 x00 xd4 xb4 x04 x00)
(T (W xf8 x8e x04 x00 xac x85 x04 x00)
(T (W x60 x28 x04 x00 x64 x21 x04 x00)
(T (W x90 x6c x03 x00 x34 x6a x03 x00)
(T (W xc8 x55 x02 x00 x8c x54 x02 x00)
(T (W xb8 x0f x01 x00 x84 x0e x01 x00)
(T (W x45 x26 x22 x84 xe4 x9c xf2 xcb)
(T (W x00 x00 x00 x00 x00 x00 x00 x00)
(T (W x00 x00 x80 x3f x00 x00 x80 x3f)
(T (W x45 x26 x22 x84 xe4 x9c xf2 xcb)
(T (W xe2 x30 xfe xff x69 x01 x00 x00)
(T (W x00 x00 x80 x3f x00 x00 x80 x3f)
(T (W xff xff xff xff xff xff xff xff)
(L (W x30 x35 x5f x43 x4c x45 x41 x52)) E)
(L (W x9a x3f xfe xff x74 x00 x00 x00)))
(T (W x00 x00 x80 x3f x00 x00 x80 x3f)
(T (W xff xff xff xff xff xff xff xff)
(L (W x00 x00 x00 x00 x00 x00 x00 x00)) E)
(L (W x66 x1a x3c xdc x00 x5d x4b x2f))))
(T (W x18 x00 x00 x00 x10 x00 x00 x00)
(T (W x45 x26 x22 x84 xe4 x9c xf2 xcb)
(T (W x71 x00 x00 x00 xff xff xff xff)
(L (W x00 x00 x00 x00 xe2 x8a xff xff)) E)
(L (W xff xff xff xff xff xff xff xff)))
(T (W x12 x00 x00 x00 x46 x53 x59 x53)
(T (W x3a x02 x00 x00 xff xff xff xff)
(L (W xff xff xff xff xff xff xff xff)) E)
(L (W x18 x00 x00 x00 x10 x00 x00 x00)))))
(T (W x00 x00 x00 x00 x00 x00 x00 x00)
(T (W xff xff xff xff xff xff xff xff)
(T (W x45 x26 x22 x84 xe4 x9c xf2 xcb)
(T (W x00 x00 x80 x3f x00 x00 x80 x3f)
(L (W x2f x00 x00 x00 x32 x00 x00 x00)) E)
(L (W x14 x00 x00 x00 x0c x00 x00 x00)))
(T (W x00 x00 x80 x3f x00 x00 x80 x3f)
(T (W x18 x00 x00 x00 x0c x00 x00 x00)
(L (W x54 x00 x00 x00 x48 x00 x00 x00)) E)
(L (W x6c x00 x00 x00 x60 x00 x00 x00))))
(T (W x00 x00 x00 x00 xec x22 xfc xff)
(T (W xff xff xff xff xff xff xff xff)
(T (W x18 x00 x00 x00 x0c x00 x00 x00)
(L (W x54 x00 x00 x00 x48 x00 x00 x00)) E)
(L (W x45 x44 x00 x00 x00 x00 x00 x00)))
(T (W xff xff xff xff xff xff xff xff)
(L (W x00 x00 x80 xbf x00 x00 x80 xbf))
(L (W x00 x00 x00 x00 x00 x00 x00 x00))))))
(T (W x00 x00 x80 x3f x00 x00 x80 x3f)
(T (W x00 x00 x00 x00 x00 x00 x00 x00)
(T (W x00 x00 x00 x00 x00 x00 x00 x00)
(T (W x00 x00 x80 x3f x00 x00 x80 x3f)
(T (W xb8 x00 x00 x00 xac x00 x00 x00)
(L (W x00 x00 x80 xbf x00 x00 x80 xbf)) E)
(L (W xac x00 x00 x00 x64 x00 x00 x00)))
(T (W xff xff xff xff xff xff xff xff)
(T (W x00 x00 x00 x00 x00 x00 x00 x00)
(L (W x00 x01 x01 x01 xd2 xe0 xff xff)) E)
(L (W x00 x00 x80 xbf x00 x00 x80 xbf))))
(T (W xc0 x00 x00 x00 xb4 x00 x00 x00)
(T (W x50 x00 x00 x00 x44 x00 x00 x00)
(T (W x50 x00 x00 x00 x44 x00 x00 x00)
(L (W x00 x00 x00 x00 x00 x00 x00 x00)) E)
(L (W x30 x35 x5f x43 x4c x45 x41 x52)))
(T (W x7c x14 xfd xff x00 x01 x01 x01)
(L (W x00 x00 x00 x00 x00 x00 x00 x00))
(L (W xff xff xff xff xff xff xff xff)))))
(T (W x00 x00 x00 x00 x00 x00 x00 x00)
(T (W xff xff xff xff xff xff xff xff)
(T (W x00 x00 x80 x3f x00 x00 x80 x3f)
(T (W x00 x00 x00 x00 x00 x00 x00 x00)
(L (W x44 x02 x00 x00 x30 x01 x00 x00)) E)
(L (W x45 x26 x22 x84 xe4 x9c xf2 xcb)))
(T (W xff xff xff xff xff xff xff xff)
(T (W xff xff xff xff xff xff xff xff)
(L (W xff xff xff xff xff xff xff xff)) E)
(L (W xff xff xff xff x9c x00 x00 x00))))
(T (W x50 x00 x00 x00 x44 x00 x00 x00)
(T (W x00 x00 x00 x00 x12 x00 x00 x00)
(T (W x7c xb4 xfd xff x00 x01 x01 x01)
(L (W x46 x53 x59 x53 x5f x4e x53 x5f)) E)
(L (W x00 x00 x00 x00 xe2 xba xfe xff)))
(T (W x20 x47 x2b x97 x85 x96 x55 x5f)
(L (W x45 x26 x22 x84 xe4 x9c xf2 xcb))
(L (W x45 x44 x00 x00 x00 x00 x00 x00)))))))
(T (W x00 x00 x00 x00 x00 x00 x00 x00)
(T (W x00 x00 x00 x00 x00 x00 x00 x00)
(T (W x00 x00 x00 x00 x00 x00 x00 x00)
(T (W x00 x00 x00 x00 x00 x00 x00 x00)
(T (W x00 x00 x80 x3f x00 x00 x80 x3f)
(T (W xff xff xff xff xff xff xff xff)
(L (W x00 x00 x00 x00 x00 x00 x00 x00)) E)
(L (W x18 x00 x00 x00 x0c x00 x00 x00)))
(T (W x18 x00 x00 x00 x10 x00 x00 x00)
(T (W x61 x72 x6c x69 x6b x65 x5f x6c)
(L (W x00 x00 x80 xbf x00 x00 x80 xbf)) E)
(L (W x30 x35 x5f x43 x4c x45 x41 x52))))
(T (W xb8 x00 x00 x00 xac x00 x00 x00)
(T (W x00 x00 x80 x3f x00 x00 x80 x3f)
(T (W xe2 xf8 xff xff x5d x00 x00 x00)
(L (W x00 x00 x00 x00 x00 x00 x00 x00)) E)
(L (W x04 x00 x00 x00 x4a x8a xfe xff)))
(T (W x00 x00 x80 x3f x00 x00 x80 x3f)
(L (W x00 x00 x00 x00 x12 x00 x00 x00))
(L (W xff xff xff xff xff xff xff xff)))))
(T (W x00 x00 x00 x00 x00 x00 x00 x00)
(T (W xff xff xff xff xff xff xff xff)
(T (W x45 x26 x22 x84 xe4 x9c xf2 xcb)
(T (W x45 x26 x22 x84 xe4 x9c xf2 xcb)
(L (W xff xff xff xff xff xff xff xff)) E)
(L (W xff xff xff xff xff xff xff xff)))
(T (W x18 x00 x00 x00 x0c x00 x00 x00)
(T (W xff xff xff xff xff xff xff xff)
(L (W xff xff xff xff xff xff xff xff)) E)
(L (W x2f x00 x00 x00 x32 x00 x00 x00))))
(T (W x45 x26 x22 x84 xe4 x9c xf2 xcb)
(T (W x04 x00 x00 x00 x4a xaa xfc xff)
(T (W x00 x00 x00 x00 x00 x00 x00 x00)
(L (W xff xff xff xff xff xff xff xff)) E)
(L (W x00 x00 x00 x00 x00 x00 x00 x00)))
(T (W x00 x00 x00 x00 x00 x00 x00 x00)
(L (W x00 x00 x80 xbf x00 x00 x80 xbf))
(L (W x08 x00 x00 x00 x18 x08 x00 x00))))))
(T (W x00 x00 x80 x3f x00 x00 x80 x3f)
(T (W x00 x00 x00 x00 x00 x00 x00 x00)
(T (W x48 x03 x00 x00 x34 x02 x00 x00)
(T (W x00 x00 x80 x3f x00 x00 x80 x3f)
(T (W x50 x00 x00 x00 x44 x00 x00 x00)
(L (W x45 x26 x22 x84 xe4 x9c xf2 xcb)) E)
(L (W x45 x26 x22 x84 xe4 x9c xf2 xcb)))
(T (W x00 x00 x00 x00 x00 x00 x00 x00)
(T (W x00 x00 x80 xbf x00 x00 x80 xbf)
(L (W x45 x26 x22 x84 xe4 x9c xf2 xcb)) E)
(L (W x00 x00 x80 xbf x00 x00 x80 xbf))))
(T (W xff xff xff xff x03 x00 x00 x00)
(T (W x03 x00 x00 x00 xd8 x00 x00 x00)
(T (W xff xff xff xff xff xff xff xff)
(L (W x00 x00 x80 xbf x00 x00 x80 xbf)) E)
(L (W x00 x00 x00 x00 x00 x00 x00 x00)))
(T (W x18 x00 x00 x00 x10 x00 x00 x00)
(L (W x00 x00 x80 xbf x00 x00 x80 xbf))
(L (W x74 x04 x00 x00 x68 x03 x00 x00)))))
(T (W x2d x96 x2e x9f xa4 xc3 x28 xea)
(T (W xff xff xff xff x04 x00 x00 x00)
(T (W x46 x53 x59 x53 x5f x4e x53 x5f)
(T (W xff xff xff xff xff xff xff xff)
(L (W xff xff xff xff xff xff xff xff)) E)
(L (W xff xff xff xff xff xff xff xff)))
(T (W x80 x03 x00 x00 x54 x02 x00 x00)
(T (W xb0 x00 x00 x00 x0a x00 x00 x00)
(L (W x00 x00 x00 x00 x00 x00 x00 x00)) E)
(L (W x52 xf9 xfe xff x78 x00 x00 x00))))
(T (W x00 x00 x80 x3f x00 x00 x80 x3f)
(T (W x00 x00 x00 x00 x00 x00 x00 x00)
(T (W xff xff xff xff xff xff xff xff)
(L (W xe4 xbf xff xff x18 x00 x00 x00)) E)
(L (W x00 x00 x00 x00 x00 x00 x00 x00)))
(T (W x26 x02 x00 x00 xff xff xff xff)
(L (W xff xff xff xff xff xff xff xff))
(L (W xbc xa3 x4d xdc x00 xe1 x5f x2f))))))))
(T (W xff xff xff xff xff xff xff xff)
(T (W xff xff xff xff xff xff xff xff)
(T (W x00 x00 x01 x01 xf7 x01 x00 x00)
(T (W xff xff xff xff xff xff xff xff)
(T (W x7c xc8 xfb xff x00 x01 x01 x01)
(T (W xff xff xff xff xff xff xff xff)
(T (W x45 x26 x22 x84 xe4 x9c xf2 xcb)
(L (W x45 x26 x22 x84 xe4 x9c xf2 xcb)) E)
(L (W x45 x44 x00 x00 x00 x00 x00 x00)))
(T (W x63 x22 x12 x88 x4d x37 x5d xba)
(T (W x00 x00 x80 x3f x00 x00 x80 x3f)
(L (W xcc x00 x00 x00 x02 x00 x00 x00)) E)
(L (W x45 x26 x22 x84 xe4 x9c xf2 xcb))))
(T (W x45 x26 x22 x84 xe4 x9c xf2 xcb)
(T (W xff xff xff xff xff xff xff xff)
(T (W x45 x26 x22 x84 xe4 x9c xf2 xcb)
(L (W x18 x00 x00 x00 x10 x00 x00 x00)) E)
(L (W x00 x00 x80 xbf x00 x00 x80 xbf)))
(T (W xff xff xff xff xff xff xff xff)
(L (W x00 x00 x00 x00 xec x06 xfe xff))
(L (W x45 x44 x00 x00 x00 x00 x00 x00)))))
(T (W x18 x00 x00 x00 x0c x00 x00 x00)
(T (W x00 x00 x80 x3f x00 x00 x80 x3f)
(T (W x64 x00 x00 x00 x9c x00 x00 x00)
(T (W xff xff xff xff xff xff xff xff)
(L (W x00 x00 x80 xbf x00 x00 x80 xbf)) E)
(L (W x00 x00 x00 x00 x00 x00 x00 x00)))
(T (W x00 x00 x00 x00 x00 x00 x00 x00)
(T (W x00 x00 x80 xbf x00 x00 x80 xbf)
(L (W x00 x00 x00 x00 x00 x00 x00 x00)) E)
(L (W x46 x53 x59 x53 x5f x4e x53 x5f))))
(T (W x00 x00 x00 x00 x00 x00 x00 x00)
(T (W x00 x00 x80 x3f x00 x00 x80 x3f)
(T (W x00 x00 x80 xbf x00 x00 x80 xbf)
(L (W xff xff xff xff xff xff xff xff)) E)
(L (W x45 x26 x22 x84 xe4 x9c xf2 xcb)))
(T (W x00 x00 x80 x3f x00 x00 x80 x3f)
(L (W xff xff xff xff xff xff xff xff))
(L (W x54 x00 x00 x00 x48 x00 x00 x00))))))
(T (W xff xff xff xff xff xff xff xff)
(T (W xff xff xff xff x03 x00 x00 x00)
(T (W x00 x00 x80 x3f x00 x00 x80 x3f)
(T (W xff xff xff xff xff xff xff xff)
(T (W x00 x00 x00 x00 x00 x00 x00 x00)
(L (W x24 x00 x00 x00 x0c x00 x00 x00)) E)
(L (W x00 x00 x00 x00 x00 x00 x00 x00)))
(T (W x68 x00 x00 x00 x5c x00 x00 x00)
(T (W xff xff xff xff xff xff xff xff)
(L (W xff xff xff xff xff xff xff xff)) E)
(L (W xaa x01 x00 x00 xff xff xff xff))))
(T (W x00 x00 x00 x00 x00 x00 x00 x00)
(T (W x00 x00 x00 x00 x00 x00 x00 x00)
(T (W x03 x00 x00 x00 x34 x38 x30 x00)
(L (W xff xff xff xff xff xff xff xff)) E)
(L (W xff xff xff xff xb0 x00 x00 x00)))
(T (W x14 x1f xfd xff x10 x00 x00 x00)
(L (W xff xff xff xff xff xff xff xff))
(L (W x00 x00 x80 xbf x00 x00 x80 xbf)))))
(T (W xc0 x00 x00 x00 xb4 x00 x00 x00)
(T (W x00 x00 x80 x3f x00 x00 x80 x3f)
(T (W x68 x00 x00 x00 x5c x00 x00 x00)
(T (W x00 x00 x80 x3f x00 x00 x80 x3f)
(L (W x00 x00 x80 xbf x00 x00 x80 xbf)) E)
(L (W x00 x00 x00 x00 x00 x00 x00 x00)))
(T (W x00 x00 x80 x3f x00 x00 x80 x3f)
(T (W x45 x26 x22 x84 xe4 x9c xf2 xcb)
(L (W xdc x00 x00 x00 x64 x00 x00 x00)) E)
(L (W x46 x53 x59 x53 x5f x4e x53 x5f))))
(T (W x00 x00 x00 x00 x00 x00 x00 x00)
(T (W xcc x00 x00 x00 x01 x00 x00 x00)
(T (W xff xff xff xff xe0 x00 x00 x00)
(L (W xff xff xff xff xa8 x00 x00 x00)) E)
(L (W x00 x00 x80 xbf x00 x00 x80 xbf)))
(T (W x00 x00 x80 x3f x00 x00 x80 x3f)
(L (W x00 x00 x00 x00 x00 x00 x00 x00))
(L (W x45 x26 x22 x84 xe4 x9c xf2 xcb)))))))
(T (W xff xff xff xff xff xff xff xff)
(T (W xff xff xff xff xff xff xff xff)
(T (W xff xff xff xff xff xff xff xff)
(T (W x00 x00 x80 x3f x00 x00 x80 x3f)
(T (W x43 x00 x00 x00 xff xff xff xff)
(T (W x00 x00 x00 x00 x00 x00 x00 x00)
(L (W xff xff xff xff xff xff xff xff)) E)
(L (W x00 x00 x00 x00 x00 x00 x00 x00)))
(T (W x00 x00 x00 x00 x00 x00 x00 x00)
(T (W x32 x00 x00 x00 x35 x00 x00 x00)
(L (W xff xff xff xff xff xff xff xff)) E)
(L (W xcc x00 x00 x00 x01 x00 x00 x00))))
(T (W x00 x00 x00 x00 x00 x00 x00 x00)
(T (W x54 x02 x00 x00 x38 x01 x00 x00)
(T (W x00 x00 x80 x3f x00 x00 x80 x3f)
(L (W xff xff xff xff xb0 x00 x00 x00)) E)
(L (W x00 x00 x80 xbf x00 x00 x80 xbf)))
(T (W x02 x63 xfd xff x9d x01 x00 x00)
(L (W xff xff xff xff xb0 x00 x00 x00))
(L (W x00 x00 x00 x00 x00 x00 x00 x00)))))
(T (W x9a xab xfb xff x74 x00 x00 x00)
(T (W x00 x00 x80 x3f x00 x00 x80 x3f)
(T (W xff xff xff xff xff xff xff xff)
(T (W xff xff xff xff xff xff xff xff)
(L (W x00 x00 x80 xbf x00 x00 x80 xbf)) E)
(L (W x00 x00 x00 x00 x00 x00 x00 x00)))
(T (W x45 x26 x22 x84 xe4 x9c xf2 xcb)
(T (W x00 x00 x00 x00 x00 x00 x00 x00)
(L (W x54 x00 x00 x00 x48 x00 x00 x00)) E)
(L (W x00 x00 x00 x00 x00 x00 x00 x00))))
(T (W x00 x00 x00 x00 x00 x00 x00 x00)
(T (W x00 x00 x80 x3f x00 x00 x80 x3f)
(T (W xff xff xff xff xff xff xff xff)
(L (W x2d x00 x00 x00 x30 x00 x00 x00)) E)
(L (W x00 x00 x80 xbf x00 x00 x80 xbf)))
(T (W x7c x30 xfd xff x00 x01 x01 x01)
(L (W xe4 x33 xfe xff x22 x00 x00 x00))
(L (W x00 x00 x00 x00 xec x2e xff xff))))))
(T (W xff xff xff xff xff xff xff xff)
(T (W xff xff xff xff xff xff xff xff)
(T (W x45 x26 x22 x84 xe4 x9c xf2 xcb)
(T (W xff xff xff xff xff xff xff xff)
(T (W xe2 xcc xff xff xb1 x01 x00 x00)
(L (W x00 x00 x00 x00 x00 x00 x00 x00)) E)
(L (W x00 x00 x00 x00 x00 x00 x00 x00)))
(T (W xff xff xff xff xff xff xff xff)
(T (W x00 x00 x00 x00 x00 x00 x00 x00)
(L (W xff xff xff xff xff xff xff xff)) E)
(L (W x00 x00 x00 x00 x00 x00 x00 x00))))
(T (W x40 x00 x00 x00 x0c x00 x00 x00)
(T (W x00 x00 x00 x00 x00 x00 x00 x00)
(T (W xff xff xff xff xff xff xff xff)
(L (W xff xff xff xff xff xff xff xff)) E)
(L (W x18 x00 x00 x00 x1b x00 x00 x00)))
(T (W x00 x00 x00 x00 x00 x00 x00 x00)
(L (W xff xff xff xff xff xff xff xff))
(L (W x00 x00 x80 xbf x00 x00 x80 xbf)))))
(T (W x9a xbb xfb xff x74 x00 x00 x00)
(T (W x00 x00 x00 x00 x00 x00 x00 x00)
(T (W xc4 x00 x00 x00 x01 x00 x00 x00)
(T (W x45 x26 x22 x84 xe4 x9c xf2 xcb)
(L (W x00 x00 x80 xbf x00 x00 x80 xbf)) E)
(L (W x00 x00 x00 x00 x00 x00 x00 x00)))
(T (W x68 x00 x00 x00 x5c x00 x00 x00)
(T (W x49 xa1 x68 x4a xeb x5f xdd x3d)
(L (W x00 x00 x00 x00 x00 x00 x00 x00)) E)
(L (W x00 x00 x00 x00 xe2 x06 xff xff))))
(T (W x00 x00 x00 x00 x04 x00 x00 x00)
(T (W xff xff xff xff xff xff xff xff)
(T (W x00 x00 x80 x3f x00 x00 x80 x3f)
(L (W x45 x26 x22 x84 xe4 x9c xf2 xcb)) E)
(L (W x00 x00 x80 xbf x00 x00 x80 xbf)))
(T (W x00 x00 x80 x3f x00 x00 x80 x3f)
(L (W x00 x00 x00 x00 x00 x00 x00 x00))
(L (W x45 x26 x22 x84 xe4 x9c xf2 xcb)))))))))
(T (W x04 x00 x00 x00 x92 xd4 xfd xff)
(T (W x68 x00 x00 x00 x5c x00 x00 x00)
(T (W x45 x26 x22 x84 xe4 x9c xf2 xcb)
(T (W x45 x26 x22 x84 xe4 x9c xf2 xcb)
(T (W x9a x81 xfb xff x74 x00 x00 x00)
(T (W x00 x00 x00 x00 x00 x00 x00 x00)
(T (W x64 x00 x00 x00 x9c x00 x00 x00)
(T (W x00 x00 x00 x00 x00 x00 x00 x00)
(L (W x3c x00 x00 x00 x00 x00 x80 xbf)) E)
(L (W xff xff xff xff xff xff xff xff)))
(T (W xb0 x00 x00 x00 x64 x00 x00 x00)
(T (W x00 x00 x00 x00 x00 x00 x00 x00)
(L (W x00 x00 x80 xbf x00 x00 x80 xbf)) E)
(L (W x00 x00 x80 xbf x00 x00 x80 xbf))))
(T (W x52 x74 xfe xff x00 x00 x01 x01)
(T (W x50 x00 x00 x00 x44 x00 x00 x00)
(T (W x00 x00 x00 x00 x00 x00 x00 x00)
(L (W x00 x00 x00 x00 x00 x00 x00 x00)) E)
(L (W x00 x00 x00 x00 x00 x00 x00 x00)))
(T (W x68 x00 x00 x00 x5c x00 x00 x00)
(L (W x00 x00 x00 x00 x00 x00 x00 x00))
(L (W xff xff xff xff xff xff xff xff)))))
(T (W x45 x26 x22 x84 xe4 x9c xf2 xcb)
(T (W x00 x00 x00 x00 x00 x00 x00 x00)
(T (W x00 x00 x00 x00 xec x64 xfc xff)
(T (W xb8 x00 x00 x00 xac x00 x00 x00)
(L (W x06 x00 x00 x00 xc8 x05 x00 x00)) E)
(L (W xff xff xff xff xff xff xff xff)))
(T (W xff xff xff xff xff xff xff xff)
(T (W xa4 x04 x00 x00 x88 x03 x00 x00)
(L (W xff xff xff xff xff xff xff xff)) E)
(L (W xff xff xff xff xff xff xff xff))))
(T (W xff xff xff xff xff xff xff xff)
(T (W x00 x00 x00 x00 x12 x00 x00 x00)
(T (W x00 x00 x00 x00 x01 x00 x00 x00)
(L (W xb4 x00 x00 x00 x3c x00 x00 x00)) E)
(L (W x00 x00 x80 xbf x00 x00 x80 xbf)))
(T (W x00 x00 x00 x00 x00 x00 x00 x00)
(L (W xe8 x24 xfe xff xd2 x32 xfe xff))
(L (W x00 x00 x00 x00 x00 x00 x00 x00))))))
(T (W x0a x00 x00 x00 x21 x00 x00 x00)
(T (W x00 x00 x80 x3f x00 x00 x80 x3f)
(T (W x00 x00 x00 x00 x00 x00 x00 x00)
(T (W x50 x00 x00 x00 x44 x00 x00 x00)
(T (W xff xff xff xff xff xff xff xff)
(L (W xff xff xff xff xff xff xff xff)) E)
(L (W xff xff xff xff xff xff xff xff)))
(T (W x00 x00 x00 x00 x00 x00 x00 x00)
(T (W x9a xd1 xfd xff x74 x00 x00 x00)
(L (W xbc x00 x00 x00 x02 x00 x00 x00)) E)
(L (W x9a xd1 xfe xff x74 x00 x00 x00))))
(T (W xff xff xff xff xff xff xff xff)
(T (W xff xff xff xff xff xff xff xff)
(T (W x00 x00 x00 x00 x00 x00 x00 x00)
(L (W x3b x00 x00 x00 x3e x00 x00 x00)) E)
(L (W x49 xa1 x68 x4a xeb x5f xdd x3d)))
(T (W xff xff xff xff xff xff xff xff)
(L (W x50 x00 x00 x00 x44 x00 x00 x00))
(L (W x00 x00 x00 x00 x00 x00 x00 x00)))))
(T (W x00 x00 x80 x3f x00 x00 x80 x3f)
(T (W x00 x00 x00 x00 x00 x00 x00 x00)
(T (W x00 x00 x00 x00 x00 x00 x00 x00)
(T (W xff xff xff xff xff xff xff xff)
(L (W x00 x00 x00 x00 x00 x00 x00 x00)) E)
(L (W x00 x00 x00 x00 x82 x72 xfe xff)))
(T (W x4c x45 x41 x52 x45 x44 x00 x00)
(T (W x00 x00 x00 x00 x00 x00 x00 x00)
(L (W x00 x00 x00 x00 x00 x00 x00 x00)) E)
(L (W x00 x00 x00 x00 x72 x11 xff xff))))
(T (W xff xff xff xff xff xff xff xff)
(T (W x00 x00 x80 x3f x00 x00 x80 x3f)
(T (W x8c x13 x00 x00 x78 x12 x00 x00)
(L (W x6c x00 x00 x00 x60 x00 x00 x00)) E)
(L (W x00 x00 x00 x00 x00 x00 x00 x00)))
(T (W x00 x00 x00 x00 x00 x00 x00 x00)
(L (W xff xff xff xff xff xff xff xff))
(L (W x3c x00 x00 x00 x00 x00 x80 xbf)))))))
(T (W x7c x5e xfb xff x00 x01 x01 x01)
(T (W x01 x00 x00 x00 x9c x00 x00 x00)
(T (W x7c x8e xfb xff x00 x01 x01 x01)
(T (W x00 x00 x00 x00 x00 x00 x00 x00)
(T (W x7c x4e xfc xff x00 x01 x01 x01)
(T (W xe2 xba xff xff xb4 x01 x00 x00)
(L (W x52 x4b xff xff x78 x00 x00 x00)) E)
(L (W xff xff xff xff xff xff xff xff)))
(T (W x04 x00 x00 x00 x5a xd3 xfc xff)
(T (W x00 x00 x00 x00 x00 x00 x00 x00)
(L (W x45 x26 x22 x84 xe4 x9c xf2 xcb)) E)
(L (W x00 x00 x80 xbf x00 x00 x80 xbf))))
(T (W xff xff xff xff xff xff xff xff)
(T (W xc4 x00 x00 x00 x01 x00 x00 x00)
(T (W x00 x00 x00 x00 x00 x00 x00 x00)
(L (W x00 x00 x80 xbf x00 x00 x80 xbf)) E)
(L (W x45 x26 x22 x84 xe4 x9c xf2 xcb)))
(T (W x00 x00 x00 x00 xec x0c xfd xff)
(L (W x00 x00 x80 xbf x00 x00 x80 xbf))
(L (W x00 x00 x00 x00 xe2 x14 xff xff)))))
(T (W x00 x00 x80 x3f x00 x00 x80 x3f)
(T (W x00 x00 x00 x00 x00 x00 x00 x00)
(T (W x14 x00 x18 x00 x06 x00 x07 x00)
(T (W x50 x00 x00 x00 x44 x00 x00 x00)
(L (W x46 x53 x59 x53 x5f x4e x53 x5f)) E)
(L (W xff xff xff xff xff xff xff xff)))
(T (W x92 x42 xfd xff x00 x00 x01 x01)
(T (W x00 x00 x00 x00 x00 x00 x00 x00)
(L (W x30 x35 x5f x43 x4c x45 x41 x52)) E)
(L (W xff xff xff xff xff xff xff xff))))
(T (W xff xff xff xff xff xff xff xff)
(T (W x45 x26 x22 x84 xe4 x9c xf2 xcb)
(T (W x00 x00 x80 x3f x00 x00 x80 x3f)
(L (W x00 x00 x80 xbf x00 x00 x80 xbf)) E)
(L (W x50 x00 x00 x00 x54 x00 x00 x00)))
(T (W x00 x00 x80 x3f x00 x00 x80 x3f)
(L (W xff xff xff xff xff xff xff xff))
(L (W x00 x00 x80 xbf x00 x00 x80 xbf))))))
(T (W xc0 x00 x00 x00 xb4 x00 x00 x00)
(T (W x00 x00 x80 x3f x00 x00 x80 x3f)
(T (W x00 x00 x00 x00 x00 x00 x00 x00)
(T (W x9a x59 xfc xff x74 x00 x00 x00)
(T (W xff xff xff xff xff xff xff xff)
(L (W xff xff xff xff xff xff xff xff)) E)
(L (W xff xff xff xff xff xff xff xff)))
(T (W x00 x00 x80 x3f x00 x00 x80 x3f)
(T (W xff xff xff xff x9c x00 x00 x00)
(L (W x70 x00 x00 x00 x64 x00 x00 x00)) E)
(L (W xff xff xff xff xff xff xff xff))))
(T (W xff xff xff xff xff xff xff xff)
(T (W x00 x00 x01 x01 x69 x01 x00 x00)
(T (W x00 x00 x00 x00 x00 x00 x00 x00)
(L (W xff xff xff xff xb0 x00 x00 x00)) E)
(L (W x54 x00 x00 x00 x48 x00 x00 x00)))
(T (W x00 x00 x00 x00 x00 x00 x00 x00)
(L (W xff xff xff xff xb0 x00 x00 x00))
(L (W x00 x00 x00 x00 x00 x00 x00 x00)))))
(T (W x45 x26 x22 x84 xe4 x9c xf2 xcb)
(T (W x3e x00 x00 x00 x10 x00 x00 x00)
(T (W x00 x00 x80 x3f x00 x00 x80 x3f)
(T (W x00 x00 x00 x00 x00 x00 x00 x00)
(L (W x00 x00 x00 x00 x00 x00 x00 x00)) E)
(L (W x00 x00 x00 x00 x00 x00 x00 x00)))
(T (W x00 x00 x80 x3f x00 x00 x80 x3f)
(T (W x4c x45 x41 x52 x45 x44 x00 x00)
(L (W x00 x00 x00 x00 xec xfc xff xff)) E)
(L (W xff xff xff xff xff xff xff xff))))
(T (W xff xff xff xff xff xff xff xff)
(T (W x00 x00 x80 x3f x00 x00 x80 x3f)
(T (W x67 x72 x6f x75 x70 x5f x77 x69)
(L (W x00 x00 x80 xbf x00 x00 x80 xbf)) E)
(L (W x00 x00 x00 x00 x00 x00 x00 x00)))
(T (W x00 x00 x00 x00 x00 x00 x00 x00)
(L (W xff xff xff xff xff xff xff xff))
(L (W x00 x00 x80 xbf x00 x00 x80 xbf))))))))
(T (W xe2 xbe xfd xff xc8 x02 x00 x00)
(T (W x00 x00 x00 x00 x00 x00 x00 x00)
(T (W x00 x00 x80 x3f x00 x00 x80 x3f)
(T (W xe2 xf6 xfd xff xbf x01 x00 x00)
(T (W xff xff xff xff xff xff xff xff)
(T (W x45 x26 x22 x84 xe4 x9c xf2 xcb)
(T (W x50 x00 x00 x00 x44 x00 x00 x00)
(L (W xff xff xff xff xff xff xff xff)) E)
(L (W x00 x00 x00 x00 x00 x00 x00 x00)))
(T (W x45 x26 x22 x84 xe4 x9c xf2 xcb)
(T (W x45 x26 x22 x84 xe4 x9c xf2 xcb)
(L (W xca xe8 xac x28 xbf xdb x59 x6a)) E)
(L (W xff xff xff xff xff xff xff xff))))
(T (W x7c x0a xfc xff x00 x01 x01 x01)
(T (W x30 x35 x5f x43 x4c x45 x41 x52)
(T (W xff xff xff xff xff xff xff xff)
(L (W xff xff xff xff xff xff xff xff)) E)
(L (W x45 x26 x22 x84 xe4 x9c xf2 xcb)))
(T (W xc3 x56 x8d x38 x56 xff x72 x92)
(L (W xff xff xff xff xff xff xff xff))
(L (W x00 x00 x80 xbf x00 x00 x80 xbf)))))
(T (W xff xff xff xff xff xff xff xff)
(T (W x9a xe5 xfb xff x74 x00 x00 x00)
(T (W x01 x00 x00 x00 x04 x00 x00 x00)
(T (W x00 x00 x00 x00 x00 x00 x00 x00)
(L (W x52 x67 xff xff x78 x00 x00 x00)) E)
(L (W x00 x00 x80 xbf x00 x00 x80 xbf)))
(T (W x00 x00 x80 x3f x00 x00 x80 x3f)
(T (W x00 x00 x00 x00 xec xe8 xfd xff)
(L (W x40 x00 x00 x00 x00 x00 x80 xbf)) E)
(L (W x49 xa1 x68 x4a xeb x5f xdd x3d))))
(T (W x00 x00 x00 x00 x00 x00 x00 x00)
(T (W xff xff xff xff xb0 x00 x00 x00)
(T (W xff xff xff xff xff xff xff xff)
(L (W x30 x35 x5f x43 x4c x45 x41 x52)) E)
(L (W x3b x02 x00 x00 xff xff xff xff)))
(T (W xff xff xff xff xff xff xff xff)
(L (W x00 x00 x00 x00 x00 x00 x00 x00))
(L (W x03 x00 x00 x00 xd0 x00 x00 x00))))))
(T (W x00 x00 x00 x00 x00 x00 x00 x00)
(T (W x00 x00 x00 x00 x00 x00 x00 x00)
(T (W xff xff xff xff xff xff xff xff)
(T (W x00 x00 x00 x00 x00 x00 x00 x00)
(T (W x45 x26 x22 x84 xe4 x9c xf2 xcb)
(L (W x00 x00 x80 xbf x00 x00 x80 xbf)) E)
(L (W x49 xa1 x68 x4a xeb x5f xdd x3d)))
(T (W xff xff xff xff xff xff xff xff)
(T (W x00 x00 x00 x00 x00 x00 x00 x00)
(L (W x00 x00 x00 x00 x00 x00 x00 x00)) E)
(L (W x00 x00 x00 x00 x00 x00 x00 x00))))
(T (W x00 x00 x80 x3f x00 x00 x80 x3f)
(T (W x00 x00 x80 x3f x00 x00 x80 x3f)
(T (W x68 x00 x00 x00 x5c x00 x00 x00)
(L (W x00 x00 x00 x00 x00 x00 x00 x00)) E)
(L (W xff xff xff xff xff xff xff xff)))
(T (W x00 x00 x80 x3f x00 x00 x80 x3f)
(L (W x46 x53 x59 x53 x5f x4e x53 x5f))
(L (W xff xff xff xff xb0 x00 x00 x00)))))
(T (W xff xff xff xff xff xff xff xff)
(T (W x68 x00 x00 x00 x5c x00 x00 x00)
(T (W xff xff xff xff xff xff xff xff)
(T (W x9a x75 xfd xff x74 x00 x00 x00)
(L (W xff xff xff xff xff xff xff xff)) E)
(L (W x54 x00 x00 x00 x48 x00 x00 x00)))
(T (W xc0 x00 x00 x00 x01 x00 x00 x00)
(T (W x54 x00 x00 x00 x48 x00 x00 x00)
(L (W x52 xf7 xff xff x78 x00 x00 x00)) E)
(L (W x00 x00 x80 xbf x00 x00 x80 xbf))))
(T (W x00 x00 x00 x00 x00 x00 x00 x00)
(T (W xff xff xff xff xff xff xff xff)
(T (W x00 x00 x00 x00 x00 x00 x00 x00)
(L (W xff xff xff xff xff xff xff xff)) E)
(L (W x45 x26 x22 x84 xe4 x9c xf2 xcb)))
(T (W xb8 x00 x00 x00 xac x00 x00 x00)
(L (W x45 x26 x22 x84 xe4 x9c xf2 xcb))
(L (W x03 x00 x00 x00 xd8 x00 x00 x00)))))))
(T (W x00 x00 x00 x00 x00 x00 x00 x00)
(T (W x00 x00 x00 x00 x00 x00 x00 x00)
(T (W x00 x00 x00 x00 x00 x00 x00 x00)
(T (W xff xff xff xff x03 x00 x00 x00)
(T (W x00 x00 x00 x00 x00 x00 x00 x00)
(T (W x00 x00 x80 x3f x00 x00 x80 x3f)
(L (W x00 x00 x00 x00 x12 x00 x00 x00)) E)
(L (W x00 x00 x80 xbf x00 x00 x80 xbf)))
(T (W x00 x00 x00 x00 xec xd0 xfc xff)
(T (W xff xff xff xff xff xff xff xff)
(L (W x30 x35 x5f x43 x4c x45 x41 x52)) E)
(L (W xe6 x45 xbb x28 xbf xce x6a x6a))))
(T (W x00 x00 x80 x3f x00 x00 x80 x3f)
(T (W x45 x26 x22 x84 xe4 x9c xf2 xcb)
(T (W x00 x00 x00 x00 x00 x00 x5c x00)
(L (W x00 x00 x01 x01 x4b x00 x00 x00)) E)
(L (W xb8 x00 x00 x00 x64 x00 x00 x00)))
(T (W x00 x00 x00 x00 x00 x00 x00 x00)
(L (W x00 x00 x01 x01 x7d x00 x00 x00))
(L (W x00 x00 x80 xbf x00 x00 x80 xbf)))))
(T (W xff xff xff xff xff xff xff xff)
(T (W x00 x00 x80 x3f x00 x00 x80 x3f)
(T (W xff xff xff xff xff xff xff xff)
(T (W xe2 xde xff xff xdd x00 x00 x00)
(L (W xc4 x00 x00 x00 x01 x00 x00 x00)) E)
(L (W x45 x26 x22 x84 xe4 x9c xf2 xcb)))
(T (W x00 x00 x80 x3f x00 x00 x80 x3f)
(T (W xc4 x00 x00 x00 x01 x00 x00 x00)
(L (W x1c x00 x00 x00 x10 x00 x00 x00)) E)
(L (W x00 x00 x80 xbf x00 x00 x80 xbf))))
(T (W x00 x00 x00 x00 x00 x00 x00 x00)
(T (W xff xff xff xff xff xff xff xff)
(T (W x00 x00 x00 x00 x00 x00 x00 x00)
(L (W xff xff xff xff xff xff xff xff)) E)
(L (W xff xff xff xff xff xff xff xff)))
(T (W xff xff xff xff xff xff xff xff)
(L (W x00 x00 x80 xbf x00 x00 x80 xbf))
(L (W xff xff xff xff xff xff xff xff))))))
(T (W xce xae xef x51 x22 x70 x26 xaf)
(T (W x48 x03 x00 x00 x34 x02 x00 x00)
(T (W x18 x00 x00 x00 x0c x00 x00 x00)
(T (W x14 x69 xfc xff x3c x00 x00 x00)
(T (W x00 x00 x00 x00 x00 x00 x00 x00)
(L (W x00 x00 x80 xbf x00 x00 x80 xbf)) E)
(L (W x54 x00 x00 x00 x48 x00 x00 x00)))
(T (W x00 x00 x00 x00 x00 x00 x00 x00)
(T (W x00 x00 x80 xbf x00 x00 x80 xbf)
(L (W x00 x00 x00 x00 x12 x00 x00 x00)) E)
(L (W x45 x26 x22 x84 xe4 x9c xf2 xcb))))
(T (W x00 x00 x80 x3f x00 x00 x80 x3f)
(T (W x00 x00 x00 x00 xec xa0 xfc xff)
(T (W x00 x00 x00 x00 x00 x00 x00 x00)
(L (W x00 x00 x00 x00 x00 x00 x00 x00)) E)
(L (W xff xff xff xff xff xff xff xff)))
(T (W x18 x00 x00 x00 x0c x00 x00 x00)
(L (W x00 x00 x00 x00 x00 x00 x00 x00))
(L (W x45 x26 x22 x84 xe4 x9c xf2 xcb)))))
(T (W xff xff xff xff xff xff xff xff)
(T (W x9a xfd xfb xff x74 x00 x00 x00)
(T (W x54 x02 x00 x00 x38 x01 x00 x00)
(T (W xff xff xff xff x03 x00 x00 x00)
(L (W xff xff xff xff xff xff xff xff)) E)
(L (W x00 x00 x00 x00 xec x80 xfe xff)))
(T (W xff xff xff xff xff xff xff xff)
(T (W x18 x00 x00 x00 x0c x00 x00 x00)
(L (W x00 x00 x00 x00 x00 x00 x00 x00)) E)
(L (W x00 x00 x00 x00 x00 x00 x00 x00))))
(T (W x00 x00 x00 x00 x00 x00 x00 x00)
(T (W x30 x35 x5f x43 x4c x45 x41 x52)
(T (W x32 x00 x00 x00 x35 x00 x00 x00)
(L (W x00 x00 x00 x00 x00 x00 x00 x00)) E)
(L (W xcc x00 x00 x00 x02 x00 x00 x00)))
(T (W xb8 x00 x00 x00 xac x00 x00 x00)
(L (W x00 x00 x80 xbf x00 x00 x80 xbf))
(L (W xff xff xff xff xff xff xff xff))))))))))
(T (W xd0 xa6 x01 x00 x1c xa2 x01 x00)
(T (W x38 x7d x00 x00 x04 x7c x00 x00)
(T (W x00 x00 x80 x3f x00 x00 x80 x3f)
(T (W x00 x00 x80 x3f x00 x00 x80 x3f)
(T (W x00 x00 x80 x3f x00 x00 x80 x3f)
(T (W x54 x00 x00 x00 x48 x00 x00 x00)
(T (W x00 x00 x00 x00 x00 x00 x00 x00)
(T (W x50 x00 x00 x00 x44 x00 x00 x00)
(T (W xe2 xb1 xff xff xbe x01 x00 x00)
(L (W x00 x00 x00 x00 x00 x00 x00 x00)) E)
(L (W xff xff xff xff xff xff xff xff)))
(T (W x68 x00 x00 x00 x5c x00 x00 x00)
(T (W x00 x00 x00 x00 x00 x00 x00 x00)
(L (W x00 x00 x80 xbf x00 x00 x80 xbf)) E)
(L (W x4f x84 x6f x8b xe8 xcb x63 xb7))))
(T (W xff xff xff xff xff xff xff xff)
(T (W x00 x00 x80 x3f x00 x00 x80 x3f)
(T (W x00 x00 x00 x00 x00 x00 x00 x00)
(L (W x46 x53 x59 x53 x5f x4e x53 x5f)) E)
(L (W x54 x02 x00 x00 x38 x01 x00 x00)))
(T (W x00 x00 x00 x00 x00 x00 x00 x00)
(T (W x4c x45 x41 x52 x45 x44 x00 x00)
(L (W x00 x00 x00 x00 x00 x00 x00 x00)) E)
(L (W x03 x00 x00 x00 xd0 x00 x00 x00)))))
(T (W x45 x26 x22 x84 xe4 x9c xf2 xcb)
(T (W x1d x00 x00 x00 x10 x00 x00 x00)
(T (W x68 x00 x00 x00 x5c x00 x00 x00)
(T (W x50 x00 x00 x00 x44 x00 x00 x00)
(L (W xff xff xff xff xff xff xff xff)) E)
(L (W x26 x00 x00 x00 x29 x00 x00 x00)))
(T (W x3b x00 x00 x00 x3e x00 x00 x00)
(T (W xff xff xff xff xff xff xff xff)
(L (W xff xff xff xff xff xff xff xff)) E)
(L (W x18 x00 x00 x00 x0c x00 x00 x00))))
(T (W xff xff xff xff xff xff xff xff)
(T (W x04 x00 x00 x00 x4a xa3 xfc xff)
(T (W xff xff xff xff xff xff xff xff)
(L (W x7c xa5 xff xff x00 x01 x01 x01)) E)
(L (W x00 x00 x00 x00 x00 x00 x00 x00)))
(T (W x3a x77 xfe xff x9c x01 x00 x00)
(L (W x54 x00 x00 x00 x48 x00 x00 x00))
(L (W x00 x00 x00 x00 x00 x00 x00 x00))))))
(T (W x18 x00 x00 x00 x0c x00 x00 x00)
(T (W x45 x26 x22 x84 xe4 x9c xf2 xcb)
(T (W x00 x00 x00 x00 x00 x00 x00 x00)
(T (W x00 x00 x80 x3f x00 x00 x80 x3f)
(T (W xff xff xff xff xff xff xff xff)
(L (W x00 x00 x00 x00 xec x53 xff xff)) E)
(L (W xff xff xff xff xff xff xff xff)))
(T (W x14 xdc xfc xff x37 x00 x00 x00)
(T (W x00 x00 x80 xbf x00 x00 x80 xbf)
(L (W xff xff xff xff x90 x00 x00 x00)) E)
(L (W x00 x00 x80 xbf x00 x00 x80 xbf))))
(T (W xff xff xff xff xff xff xff xff)
(T (W xc4 x00 x00 x00 x01 x00 x00 x00)
(T (W x00 x00 x00 x00 x00 x00 x64 x00)
(L (W x52 x92 xff xff x78 x00 x00 x00)) E)
(L (W x00 x00 x00 x00 x00 x00 x00 x00)))
(T (W xb8 x00 x00 x00 x64 x00 x00 x00)
(L (W x00 x00 x80 xbf x00 x00 x80 xbf))
(L (W x06 x00 x00 x00 xc8 x05 x00 x00)))))
(T (W x00 x00 x00 x00 x00 x00 x00 x00)
(T (W x1c x01 x00 x00 x04 x00 x00 x00)
(T (W x00 x00 x00 x00 x00 x00 x00 x00)
(T (W x45 x26 x22 x84 xe4 x9c xf2 xcb)
(L (W x00 x00 x00 x00 x12 x00 x00 x00)) E)
(L (W xff xff xff xff xff xff xff xff)))
(T (W x9c x01 x00 x00 xff xff xff xff)
(T (W x00 x00 x00 x00 x00 x00 x00 x00)
(L (W x45 x44 x00 x00 x00 x00 x00 x00)) E)
(L (W xff xff xff xff xff xff xff xff))))
(T (W xbc x00 x00 x00 xb0 x00 x00 x00)
(T (W x45 x26 x22 x84 xe4 x9c xf2 xcb)
(T (W xb8 x00 x00 x00 x64 x00 x00 x00)
(L (W x00 x00 x00 x00 x00 x00 x00 x00)) E)
(L (W x46 x53 x59 x53 x5f x4e x53 x5f)))
(T (W x00 x00 x00 x00 x00 x00 x00 x00)
(L (W xff xff xff xff xff xff xff xff))
(L (W x00 x00 x00 x00 x00 x00 x00 x00)))))))
(T (W x00 x00 x80 x3f x00 x00 x80 x3f)
(T (W x45 x26 x22 x84 xe4 x9c xf2 xcb)
(T (W x00 x00 x80 x3f x00 x00 x80 x3f)
(T (W x00 x00 x00 x00 x00 x00 x00 x00)
(T (W x00 x00 x80 x3f x00 x00 x80 x3f)
(T (W xff xff xff xff xff xff xff xff)
(L (W x00 x00 x80 xbf x00 x00 x80 xbf)) E)
(L (W xff xff xff xff xff xff xff xff)))
(T (W xff xff xff xff xff xff xff xff)
(T (W x00 x00 x00 x00 x12 x00 x00 x00)
(L (W x54 x00 x00 x00 x48 x00 x00 x00)) E)
(L (W x00 x00 x00 x00 x00 x00 x00 x00))))
(T (W xff xff xff xff xff xff xff xff)
(T (W x50 x00 x00 x00 x44 x00 x00 x00)
(T (W x00 x00 x00 x00 x00 x00 x00 x00)
(L (W x00 x00 x00 x00 x00 x00 x00 x00)) E)
(L (W x00 x00 x00 x00 x12 x00 x00 x00)))
(T (W x00 x00 x80 x3f x00 x00 x80 x3f)
(L (W x45 x26 x22 x84 xe4 x9c xf2 xcb))
(L (W xff xff xff xff xff xff xff xff)))))
(T (W x45 x26 x22 x84 xe4 x9c xf2 xcb)
(T (W x00 x00 x00 x00 xb2 x80 xff xff)
(T (W xb8 x00 x00 x00 xac x00 x00 x00)
(T (W x00 x00 x80 x3f x00 x00 x80 x3f)
(L (W x04 x00 x00 x00 xe2 x73 xff xff)) E)
(L (W xff xff xff xff xff xff xff xff)))
(T (W xff xff xff xff xff xff xff xff)
(T (W xff xff xff xff xff xff xff xff)
(L (W x00 x00 x01 x01 xdc x00 x00 x00)) E)
(L (W xff xff xff xff xff xff xff xff))))
(T (W x64 x00 x00 x00 x9c x00 x00 x00)
(T (W x00 x00 x00 x00 x12 x00 x00 x00)
(T (W x4f x84 x6f x8b xe8 xcb x63 xb7)
(L (W x7c x00 x04 x00 x70 x00 x08 x00)) E)
(L (W xff xff xff xff xac x00 x00 x00)))
(T (W x00 x00 x00 x00 x00 x00 x00 x00)
(L (W x1c x00 x20 x00 x24 x00 x28 x00))
(L (W x00 x00 x00 x00 x00 x00 x00 x00))))))
(T (W x00 x00 x80 x3f x00 x00 x80 x3f)
(T (W x00 x00 x00 x00 x00 x00 x00 x00)
(T (W x00 x00 x00 x00 x00 x00 x00 x00)
(T (W x50 x00 x00 x00 x44 x00 x00 x00)
(T (W xb8 x00 x00 x00 xac x00 x00 x00)
(L (W xcc x00 x00 x00 x01 x00 x00 x00)) E)
(L (W xff xff xff xff xbc x00 x00 x00)))
(T (W x45 x26 x22 x84 xe4 x9c xf2 xcb)
(T (W x52 xda xfd xff x78 x00 x00 x00)
(L (W x00 x00 x80 xbf x00 x00 x80 xbf)) E)
(L (W x68 x00 x00 x00 x5c x00 x00 x00))))
(T (W xff xff xff xff xff xff xff xff)
(T (W xff xff xff xff xff xff xff xff)
(T (W xe4 xa0 xfd xff x2e x00 x00 x00)
(L (W x52 x9a xff xff x78 x00 x00 x00)) E)
(L (W x00 x00 x80 xbf x00 x00 x80 xbf)))
(T (W xff xff xff xff xff xff xff xff)
(L (W x00 x00 x00 x00 xec x1b xfe xff))
(L (W x00 x00 x00 x00 x00 x00 x00 x00)))))
(T (W x00 x00 x00 x00 x00 x00 x00 x00)
(T (W xff xff xff xff xff xff xff xff)
(T (W x00 x00 x00 x00 x00 x00 x00 x00)
(T (W x52 xeb xff xff x00 x00 x01 x01)
(L (W x0e x00 x00 x00 x0c x00 x00 x00)) E)
(L (W xaa x01 x00 x00 xff xff xff xff)))
(T (W x00 x00 x00 x00 x00 x00 x00 x00)
(T (W x01 x00 x00 x00 xff xff xff xff)
(L (W x00 x00 x80 xbf x00 x00 x80 xbf)) E)
(L (W xff xff xff xff x9c x00 x00 x00))))
(T (W x7c x3d xfc xff x00 x01 x01 x01)
(T (W x00 x00 x80 x3f x00 x00 x80 x3f)
(T (W x85 x00 x00 x00 xff xff xff xff)
(L (W x4f x84 x6f x8b xe8 xcb x63 xb7)) E)
(L (W x00 x00 x00 x00 x00 x00 x00 x00)))
(T (W x00 x00 x00 x00 x00 x00 x00 x00)
(L (W xff xff xff xff xff xff xff xff))
(L (W x4f x84 x6f x8b xe8 xcb x63 xb7))))))))
(T (W xff xff xff xff xff xff xff xff)
(T (W x00 x00 x00 x00 xd2 xec xff xff)
(T (W x00 x00 x00 x00 x00 x00 x00 x00)
(T (W xff xff xff xff xff xff xff xff)
(T (W x18 x00 x00 x00 x10 x00 x00 x00)
(T (W x14 x50 xfc xff x3c x00 x00 x00)
(T (W x00 x00 x80 x3f x00 x00 x80 x3f)
(L (W xff xff xff xff xbc x00 x00 x00)) E)
(L (W x00 x00 x00 x00 x00 x00 x00 x00)))
(T (W x00 x00 x00 x00 x00 x00 x00 x00)
(T (W x54 x00 x00 x00 x48 x00 x00 x00)
(L (W xff xff xff xff xff xff xff xff)) E)
(L (W xcc x00 x00 x00 x01 x00 x00 x00))))
(T (W x00 x00 x80 x3f x00 x00 x80 x3f)
(T (W x00 x00 x01 x01 x69 x01 x00 x00)
(T (W xb8 x00 x00 x00 xac x00 x00 x00)
(L (W x03 x00 x00 x00 xd0 x00 x00 x00)) E)
(L (W x50 x00 x00 x00 x44 x00 x00 x00)))
(T (W xff xff xff xff xff xff xff xff)
(L (W xff xff xff xff xb0 x00 x00 x00))
(L (W x00 x00 x00 x00 x00 x00 x00 x00)))))
(T (W xff xff xff xff xff xff xff xff)
(T (W x00 x00 x80 x3f x00 x00 x80 x3f)
(T (W xff xff xff xff xff xff xff xff)
(T (W xe2 xd5 xff xff x19 x01 x00 x00)
(L (W x00 x00 x80 xbf x00 x00 x80 xbf)) E)
(L (W x00 x00 x80 xbf x00 x00 x80 xbf)))
(T (W x00 x00 x00 x00 x00 x00 x00 x00)
(T (W x00 x00 x80 xbf x00 x00 x80 xbf)
(L (W x00 x00 x00 x00 x00 x00 x00 x00)) E)
(L (W x00 x00 x00 x00 x00 x00 x00 x00))))
(T (W x00 x00 x00 x00 x00 x00 x00 x00)
(T (W x00 x00 x80 x3f x00 x00 x80 x3f)
(T (W x0c x00 x00 x00 x01 x01 x01 x01)
(L (W x00 x00 x01 x01 xb8 x01 x00 x00)) E)
(L (W xff xff xff xff xbc x00 x00 x00)))
(T (W x2b x00 x00 x00 x2e x00 x00 x00)
(L (W x00 x00 x01 x01 xc0 x01 x00 x00))
(L (W x18 x00 x00 x00 x10 x00 x00 x00))))))
(T (W xcc x01 x00 x00 xff xff xff xff)
(T (W xb0 x01 x00 x00 xff xff xff xff)
(T (W x9a xd4 xfb xff x74 x00 x00 x00)
(T (W x00 x00 x00 x00 x02 x00 x00 x00)
(T (W x00 x00 x00 x00 x00 x00 x00 x00)
(L (W x4f x84 x6f x8b xe8 xcb x63 xb7)) E)
(L (W x00 x00 x00 x00 x00 x00 x00 x00)))
(T (W xb0 x00 x00 x00 x64 x00 x00 x00)
(T (W x00 x00 x00 x00 x00 x00 x00 x00)
(L (W x85 x00 x00 x00 xff xff xff xff)) E)
(L (W x00 x00 x00 x00 x00 x00 x00 x00))))
(T (W x00 x00 x00 x00 x00 x00 x00 x00)
(T (W x45 x26 x22 x84 xe4 x9c xf2 xcb)
(T (W x00 x00 x80 xbf x00 x00 x80 xbf)
(L (W x00 x00 x00 x00 x00 x00 x00 x00)) E)
(L (W xff xff xff xff xff xff xff xff)))
(T (W x49 xa1 x68 x4a xeb x5f xdd x3d)
(L (W x04 x00 x00 x00 xe2 x1f xfe xff))
(L (W x52 x16 xff xff x78 x00 x00 x00)))))
(T (W xff xff xff xff xff xff xff xff)
(T (W x00 x00 x80 x3f x00 x00 x80 x3f)
(T (W xff xff xff xff xff xff xff xff)
(T (W x68 x00 x00 x00 x5c x00 x00 x00)
(L (W xff xff xff xff xa8 x00 x00 x00)) E)
(L (W x45 x26 x22 x84 xe4 x9c xf2 xcb)))
(T (W x45 x26 x22 x84 xe4 x9c xf2 xcb)
(T (W x00 x00 x80 xbf x00 x00 x80 xbf)
(L (W x27 x00 x00 x00 x10 x00 x00 x00)) E)
(L (W x00 x00 x00 x00 x00 x00 x00 x00))))
(T (W x00 x00 x00 x00 x00 x00 x00 x00)
(T (W xff xff xff xff xff xff xff xff)
(T (W x61 x72 x6c x69 x6b x65 x5f x6c)
(L (W xff xff xff xff xff xff xff xff)) E)
(L (W x54 x00 x00 x00 x48 x00 x00 x00)))
(T (W x18 x00 x00 x00 x0c x00 x00 x00)
(L (W x00 x00 x80 xbf x00 x00 x80 xbf))
(L (W xa4 x00 x00 x00 x14 x00 x00 x00)))))))
(T (W x04 x00 x00 x00 x60 x03 x00 x00)
(T (W xd8 xc8 x64 xd4 xd9 xb3 xd3 xde)
(T (W xff xff xff xff xff xff xff xff)
(T (W x01 x00 x00 x00 xa0 x00 x00 x00)
(T (W x00 x00 x00 x00 x00 x00 x00 x00)
(T (W x45 x26 x22 x84 xe4 x9c xf2 xcb)
(L (W x04 x00 x00 x00 x4a x4f xff xff)) E)
(L (W x00 x00 x00 x00 x00 x00 x00 x00)))
(T (W x00 x00 x80 x3f x00 x00 x80 x3f)
(T (W xff xff xff xff xff xff xff xff)
(L (W xff xff xff xff xff xff xff xff)) E)
(L (W xff xff xff xff xff xff xff xff))))
(T (W x00 x00 x80 x3f x00 x00 x80 x3f)
(T (W x00 x00 x00 x00 x00 x00 x00 x00)
(T (W x50 x00 x00 x00 x44 x00 x00 x00)
(L (W xff xff xff xff xff xff xff xff)) E)
(L (W x7c x91 xfe xff x00 x01 x01 x01)))
(T (W x00 x00 x00 x00 x00 x00 x00 x00)
(L (W xff xff xff xff xff xff xff xff))
(L (W x00 x00 x80 xbf x00 x00 x80 xbf)))))
(T (W xff xff xff xff xff xff xff xff)
(T (W x00 x00 x80 x3f x00 x00 x80 x3f)
(T (W xff xff xff xff xff xff xff xff)
(T (W xff xff xff xff xff xff xff xff)
(L (W x45 x26 x22 x84 xe4 x9c xf2 xcb)) E)
(L (W x00 x00 x00 x00 x00 x00 x00 x00)))
(T (W x00 x00 x80 x3f x00 x00 x80 x3f)
(T (W x00 x00 x80 xbf x00 x00 x80 xbf)
(L (W x45 x26 x22 x84 xe4 x9c xf2 xcb)) E)
(L (W x00 x00 x00 x00 x00 x00 x00 x00))))
(T (W x00 x00 x00 x00 x00 x00 x00 x00)
(T (W xff xff xff xff xb0 x00 x00 x00)
(T (W x61 x64 x65 x72 x5f x77 x69 x6c)
(L (W xff xff xff xff xff xff xff xff)) E)
(L (W x68 x00 x00 x00 x5c x00 x00 x00)))
(T (W x45 x26 x22 x84 xe4 x9c xf2 xcb)
(L (W x4f x84 x6f x8b xe8 xcb x63 xb7))
(L (W x31 x00 x00 x00 x34 x00 x00 x00))))))
(T (W xff xff xff xff xff xff xff xff)
(T (W xff xff xff xff xff xff xff xff)
(T (W x00 x00 x80 x3f x00 x00 x80 x3f)
(T (W xff xff xff xff xff xff xff xff)
(T (W x00 x00 x00 x00 x00 x00 x00 x00)
(L (W x00 x00 x80 xbf x00 x00 x80 xbf)) E)
(L (W x00 x00 x80 xbf x00 x00 x80 xbf)))
(T (W x04 x00 x00 x00 x5a xe6 xfc xff)
(T (W x00 x00 x00 x00 x00 x00 x00 x00)
(L (W x02 x00 x00 x00 x30 x01 x00 x00)) E)
(L (W x00 x00 x00 x00 x00 x00 x00 x00))))
(T (W x00 x00 x00 x00 x00 x00 x00 x00)
(T (W x00 x00 x80 x3f x00 x00 x80 x3f)
(T (W x00 x00 x00 x00 x00 x00 x00 x00)
(L (W x00 x00 x00 x00 x00 x00 x00 x00)) E)
(L (W x03 x00 x00 x00 xd8 x00 x00 x00)))
(T (W x00 x00 x80 x3f x00 x00 x80 x3f)
(L (W x00 x00 x00 x00 x5a x26 xfe xff))
(L (W x5c x00 x00 x00 x50 x00 x00 x00)))))
(T (W xff xff xff xff xff xff xff xff)
(T (W x50 x00 x00 x00 x44 x00 x00 x00)
(T (W xff xff xff xff xff xff xff xff)
(T (W x00 x00 x80 x3f x00 x00 x80 x3f)
(L (W x00 x00 x00 x00 xec x7f xff xff)) E)
(L (W x00 x00 x80 xbf x00 x00 x80 xbf)))
(T (W xff xff xff xff xff xff xff xff)
(T (W x00 x00 x80 xbf x00 x00 x80 xbf)
(L (W xff xff xff xff xa0 x00 x00 x00)) E)
(L (W x46 x53 x59 x53 x5f x4e x53 x5f))))
(T (W x00 x00 x00 x00 x00 x00 x00 x00)
(T (W x00 x00 x01 x01 xc8 x02 x00 x00)
(T (W x52 xbe xfd xff x78 x00 x00 x00)
(L (W xff xff xff xff xff xff xff xff)) E)
(L (W x45 x26 x22 x84 xe4 x9c xf2 xcb)))
(T (W x50 x00 x00 x00 x44 x00 x00 x00)
(L (W x49 xa1 x68 x4a xeb x5f xdd x3d))
(L (W xcc x00 x00 x00 x01 x00 x00 x00)))))))))
(T (W x00 x00 x00 x00 x00 x00 x00 x00)
(T (W xff xff xff xff xff xff xff xff)
(T (W x64 x00 x00 x00 x9c x00 x00 x00)
(T (W xff xff xff xff xff xff xff xff)
(T (W xff xff xff xff xff xff xff xff)
(T (W x00 x00 x80 x3f x00 x00 x80 x3f)
(T (W xff xff xff xff xff xff xff xff)
(T (W x00 x00 x00 x00 x00 x00 x00 x00)
(L (W xe8 x45 xff xff xd2 x53 xff xff)) E)
(L (W x00 x00 x01 x01 x5c x00 x00 x00)))
(T (W xff xff xff xff xff xff xff xff)
(T (W x45 x26 x22 x84 xe4 x9c xf2 xcb)
(L (W x45 x26 x22 x84 xe4 x9c xf2 xcb)) E)
(L (W x54 x00 x00 x00 x48 x00 x00 x00))))
(T (W x00 x00 x00 x00 x00 x00 x00 x00)
(T (W x03 x00 x00 x00 xd8 x00 x00 x00)
(T (W x45 x26 x22 x84 xe4 x9c xf2 xcb)
(L (W x54 x00 x00 x00 x48 x00 x00 x00)) E)
(L (W x45 x26 x22 x84 xe4 x9c xf2 xcb)))
(T (W xff xff xff xff x9c x00 x00 x00)
(L (W x00 x00 x80 xbf x00 x00 x80 xbf))
(L (W xff xff xff xff xff xff xff xff)))))
(T (W x00 x00 x80 x3f x00 x00 x80 x3f)
(T (W x45 x26 x22 x84 xe4 x9c xf2 xcb)
(T (W x18 x00 x00 x00 x0c x00 x00 x00)
(T (W xff xff xff xff xff xff xff xff)
(L (W x00 x00 x00 x00 x00 x00 x00 x00)) E)
(L (W x04 x00 x00 x00 x80 x03 x00 x00)))
(T (W xff xff xff xff xff xff xff xff)
(T (W x00 x00 x00 x00 x00 x00 x00 x00)
(L (W x45 x44 x00 x00 x00 x00 x00 x00)) E)
(L (W x04 x00 x00 x00 xe2 xed xfe xff))))
(T (W xbe x00 x00 x00 xff xff xff xff)
(T (W x45 x26 x22 x84 xe4 x9c xf2 xcb)
(T (W x00 x00 x00 x00 x00 x00 x00 x00)
(L (W xff xff xff xff xff xff xff xff)) E)
(L (W x6c x00 x00 x00 x60 x00 x00 x00)))
(T (W x49 xa1 x68 x4a xeb x5f xdd x3d)
(L (W x1c x00 x00 x00 x10 x00 x00 x00))
(L (W x00 x00 x80 xbf x00 x00 x80 xbf))))))
(T (W xff xff xff xff xff xff xff xff)
(T (W x01 x00 x00 x00 xa0 x00 x00 x00)
(T (W x00 x00 x00 x00 x00 x00 x00 x00)
(T (W x64 x00 x00 x00 x9c x00 x00 x00)
(T (W xe2 xc3 xff xff x8f x01 x00 x00)
(L (W xff xff xff xff xff xff xff xff)) E)
(L (W xff xff xff xff xff xff xff xff)))
(T (W x00 x00 x80 x3f x00 x00 x80 x3f)
(T (W xff xff xff xff x9c x00 x00 x00)
(L (W xff xff xff xff xff xff xff xff)) E)
(L (W xff xff xff xff xff xff xff xff))))
(T (W x52 x85 xfe xff x00 x00 x01 x01)
(T (W x54 x02 x00 x00 x38 x01 x00 x00)
(T (W xe0 x01 x00 x00 xff xff xff xff)
(L (W xff xff xff xff xff xff xff xff)) E)
(L (W x00 x00 x80 xbf x00 x00 x80 xbf)))
(T (W xff xff xff xff xff xff xff xff)
(L (W xc4 x00 x00 x00 x01 x00 x00 x00))
(L (W x00 x00 x80 xbf x00 x00 x80 xbf)))))
(T (W x00 x00 x80 x3f x00 x00 x80 x3f)
(T (W x00 x00 x00 x00 x00 x00 x00 x00)
(T (W x00 x00 x80 x3f x00 x00 x80 x3f)
(T (W x00 x00 x00 x00 x00 x00 x00 x00)
(L (W x00 x00 x80 xbf x00 x00 x80 xbf)) E)
(L (W x00 x00 x00 x00 x00 x00 x00 x00)))
(T (W x00 x00 x00 x00 x00 x00 x00 x00)
(T (W x00 x00 x00 x00 x00 x00 x00 x00)
(L (W x00 x00 x00 x00 x80 xf7 xff xff)) E)
(L (W x00 x00 x00 x00 xe2 xfd xfe xff))))
(T (W x12 xc9 xff xff x00 x00 x01 x01)
(T (W x00 x00 x80 x3f x00 x00 x80 x3f)
(T (W x00 x00 x80 x3f x00 x00 x80 x3f)
(L (W x14 x00 x00 x00 x0c x00 x00 x00)) E)
(L (W x49 xa1 x68 x4a xeb x5f xdd x3d)))
(T (W x00 x00 x80 x3f x00 x00 x80 x3f)
(L (W xe4 x3a xfe xff x21 x00 x00 x00))
(L (W xe8 x35 xff xff xd2 x43 xff xff)))))))
(T (W xff xff xff xff xff xff xff xff)
(T (W xb8 x00 x00 x00 xac x00 x00 x00)
(T (W x18 x00 x00 x00 x10 x00 x00 x00)
(T (W x45 x26 x22 x84 xe4 x9c xf2 xcb)
(T (W xff xff xff xff xff xff xff xff)
(T (W x00 x00 x00 x00 x00 x00 x00 x00)
(L (W xff xff xff xff xb0 x00 x00 x00)) E)
(L (W x00 x00 x00 x00 x5a x54 xfe xff)))
(T (W x00 x00 x00 x00 x00 x00 x00 x00)
(T (W x52 xcc xfd xff x78 x00 x00 x00)
(L (W xcc x00 x00 x00 x02 x00 x00 x00)) E)
(L (W x45 x26 x22 x84 xe4 x9c xf2 xcb))))
(T (W x20 x00 x00 x00 x0c x00 x00 x00)
(T (W xff xff xff xff xff xff xff xff)
(T (W x45 x26 x22 x84 xe4 x9c xf2 xcb)
(L (W x00 x00 x00 x00 xec x8d xff xff)) E)
(L (W x00 x00 x80 xbf x00 x00 x80 xbf)))
(T (W xff xff xff xff xff xff xff xff)
(L (W x00 x00 x80 xbf x00 x00 x80 xbf))
(L (W x46 x53 x59 x53 x5f x4e x53 x5f)))))
(T (W x00 x00 x80 x3f x00 x00 x80 x3f)
(T (W x00 x00 x80 x3f x00 x00 x80 x3f)
(T (W x00 x00 x80 x3f x00 x00 x80 x3f)
(T (W xb8 x00 x00 x00 xac x00 x00 x00)
(L (W x00 x00 x00 x00 x00 x00 x00 x00)) E)
(L (W x45 x44 x00 x00 x00 x00 x00 x00)))
(T (W x12 x00 x00 x00 x46 x53 x59 x53)
(T (W x00 x00 x00 x00 x00 x00 x00 x00)
(L (W x00 x00 x00 x00 x00 x00 x00 x00)) E)
(L (W x00 x00 x00 x00 x00 x00 x00 x00))))
(T (W x9a xbf xff xff xcf x01 x00 x00)
(T (W x00 x00 x80 x3f x00 x00 x80 x3f)
(T (W xc4 x00 x00 x00 x01 x00 x00 x00)
(L (W x52 xac xff xff x78 x00 x00 x00)) E)
(L (W x00 x00 x00 x00 x00 x00 x00 x00)))
(T (W x00 x00 x80 x3f x00 x00 x80 x3f)
(L (W xff xff xff xff xff xff xff xff))
(L (W x00 x00 x80 xbf x00 x00 x80 xbf))))))
(T (W xff xff xff xff xff xff xff xff)
(T (W x9a x9a xfb xff x74 x00 x00 x00)
(T (W x45 x26 x22 x84 xe4 x9c xf2 xcb)
(T (W x00 x00 x00 x00 xec x5d xfc xff)
(T (W xff xff xff xff xff xff xff xff)
(L (W xc3 x97 xaa x28 xbf xcb x56 x6a)) E)
(L (W x00 x00 x00 x00 x00 x00 x00 x00)))
(T (W x18 x00 x00 x00 x10 x00 x00 x00)
(T (W xff xff xff xff xff xff xff xff)
(L (W x03 x00 x00 x00 xd0 x00 x00 x00)) E)
(L (W xaa x01 x00 x00 xff xff xff xff))))
(T (W xff xff xff xff xff xff xff xff)
(T (W x30 x35 x5f x43 x4c x45 x41 x52)
(T (W xff xff xff xff xff xff xff xff)
(L (W xff xff xff xff xff xff xff xff)) E)
(L (W x00 x00 x00 x00 x80 x9f xfe xff)))
(T (W x00 x00 x00 x00 x00 x00 x00 x00)
(L (W xff xff xff xff xff xff xff xff))
(L (W x00 x00 x80 xbf x00 x00 x80 xbf)))))
(T (W x54 x00 x00 x00 x48 x00 x00 x00)
(T (W x00 x00 x00 x00 x00 x00 x00 x00)
(T (W x50 x00 x00 x00 x44 x00 x00 x00)
(T (W x00 x00 x00 x00 x00 x00 x00 x00)
(L (W x00 x00 x80 xbf x00 x00 x80 xbf)) E)
(L (W x00 x00 x00 x00 x12 x00 x00 x00)))
(T (W x00 x00 x80 x3f x00 x00 x80 x3f)
(T (W x00 x00 x00 x00 x00 x00 x00 x00)
(L (W x6c x00 x70 x00 x62 x00 x00 x00)) E)
(L (W x00 x00 x00 x00 x72 x1a xff xff))))
(T (W xff xff xff xff xff xff xff xff)
(T (W xff xff xff xff xb0 x00 x00 x00)
(T (W x00 x00 x80 x3f x00 x00 x80 x3f)
(L (W x54 x00 x00 x00 x48 x00 x00 x00)) E)
(L (W x00 x00 x80 xbf x00 x00 x80 xbf)))
(T (W x45 x26 x22 x84 xe4 x9c xf2 xcb)
(L (W x00 x00 x00 x00 x00 x00 x00 x00))
(L (W x54 x00 x00 x00 x48 x00 x00 x00))))))))
(T (W x00 x00 x00 x00 x00 x00 x00 x00)
(T (W x00 x00 x00 x00 x00 x00 x00 x00)
(T (W x00 x00 x00 x00 x00 x00 x00 x00)
(T (W x00 x00 x00 x00 x00 x00 x00 x00)
(T (W xff xff xff xff xff xff xff xff)
(T (W x00 x00 x80 x3f x00 x00 x80 x3f)
(T (W xb8 x00 x00 x00 xac x00 x00 x00)
(L (W x00 x00 x00 x00 x00 x00 x00 x00)) E)
(L (W x00 x00 x80 xbf x00 x00 x80 xbf)))
(T (W x00 x00 x80 x3f x00 x00 x80 x3f)
(T (W xff xff xff xff xe0 x00 x00 x00)
(L (W x4f x84 x6f x8b xe8 xcb x63 xb7)) E)
(L (W xff xff xff xff xff xff xff xff))))
(T (W x18 x00 x00 x00 x10 x00 x00 x00)
(T (W x00 x00 x00 x00 x00 x00 x00 x00)
(T (W xff xff xff xff xff xff xff xff)
(L (W xff xff xff xff xff xff xff xff)) E)
(L (W xff xff xff xff xc4 x00 x00 x00)))
(T (W x00 x00 x00 x00 x00 x00 x00 x00)
(L (W x04 x00 x00 x00 x4a x09 xfe xff))
(L (W x50 x00 x00 x00 x44 x00 x00 x00)))))
(T (W x1b x00 x00 x00 x10 x00 x00 x00)
(T (W xff xff xff xff x04 x00 x00 x00)
(T (W x00 x00 x00 x00 x00 x00 x00 x00)
(T (W x00 x00 x00 x00 x00 x00 x00 x00)
(L (W xff xff xff xff xb0 x00 x00 x00)) E)
(L (W x68 x00 x00 x00 x5c x00 x00 x00)))
(T (W x9a xe6 xfc xff x74 x00 x00 x00)
(T (W xff xff xff xff xb0 x00 x00 x00)
(L (W xff xff xff xff xb0 x00 x00 x00)) E)
(L (W x00 x00 x80 xbf x00 x00 x80 xbf))))
(T (W x00 x00 x80 x3f x00 x00 x80 x3f)
(T (W xff xff xff xff xff xff xff xff)
(T (W x00 x00 x00 x00 x00 x00 x00 x00)
(L (W x00 x00 x00 x00 x00 x00 x00 x00)) E)
(L (W x5f x4e x53 x5f x30 x35 x5f x43)))
(T (W xff xff xff xff xff xff xff xff)
(L (W x00 x00 x00 x00 x00 x00 x00 x00))
(L (W xff xff xff xff xff xff xff xff))))))
(T (W x00 x00 x00 x00 x00 x00 x00 x00)
(T (W x00 x00 x00 x00 x00 x00 x00 x00)
(T (W xff xff xff xff xff xff xff xff)
(T (W x00 x00 x00 x00 x00 x00 x00 x00)
(T (W x00 x00 x80 x3f x00 x00 x80 x3f)
(L (W x54 x00 x00 x00 x48 x00 x00 x00)) E)
(L (W x00 x00 x80 xbf x00 x00 x80 xbf)))
(T (W x0d x07 x26 x74 x82 xf4 xe3 x2a)
(T (W x00 x00 x00 x00 x00 x00 x00 x00)
(L (W x00 x00 x00 x00 x00 x00 x00 x00)) E)
(L (W x45 x26 x22 x84 xe4 x9c xf2 xcb))))
(T (W x50 x00 x00 x00 x44 x00 x00 x00)
(T (W x50 x00 x00 x00 x44 x00 x00 x00)
(T (W x03 x00 x00 x00 xbc x00 x00 x00)
(L (W x45 x26 x22 x84 xe4 x9c xf2 xcb)) E)
(L (W x00 x00 x00 x00 x00 x00 x00 x00)))
(T (W x68 x00 x00 x00 x5c x00 x00 x00)
(L (W x00 x00 x00 x00 x00 x00 x00 x00))
(L (W xff xff xff xff xff xff xff xff)))))
(T (W xff xff xff xff xff xff xff xff)
(T (W x9a xf6 xfb xff x74 x00 x00 x00)
(T (W x00 x00 x01 x01 x6a x01 x00 x00)
(T (W xff xff xff xff xff xff xff xff)
(L (W xff xff xff xff xff xff xff xff)) E)
(L (W x45 x26 x22 x84 xe4 x9c xf2 xcb)))
(T (W xff xff xff xff xff xff xff xff)
(T (W x7c xfb xfd xff x00 x01 x01 x01)
(L (W x00 x00 x58 x00 x00 x00 x00 x00)) E)
(L (W x54 x00 x00 x00 x48 x00 x00 x00))))
(T (W x00 x00 x00 x00 x00 x00 x00 x00)
(T (W x45 x44 x00 x00 x00 x00 x00 x00)
(T (W x52 xb8 xfd xff x78 x00 x00 x00)
(L (W xff xff xff xff xff xff xff xff)) E)
(L (W xff xff xff xff xff xff xff xff)))
(T (W xff xff xff xff xff xff xff xff)
(L (W xac x00 x00 x00 x64 x00 x00 x00))
(L (W xff xff xff xff xff xff xff xff)))))))
(T (W x45 x26 x22 x84 xe4 x9c xf2 xcb)
(T (W x00 x00 x80 x3f x00 x00 x80 x3f)
(T (W x00 x00 x00 x00 x00 x00 x00 x00)
(T (W xdd x01 x00 x00 xff xff xff xff)
(T (W x00 x00 x80 x3f x00 x00 x80 x3f)
(T (W x50 x00 x00 x00 x44 x00 x00 x00)
(L (W x45 x26 x22 x84 xe4 x9c xf2 xcb)) E)
(L (W x45 x26 x22 x84 xe4 x9c xf2 xcb)))
(T (W xff xff xff xff xff xff xff xff)
(T (W x38 x00 x00 x00 x10 x00 x00 x00)
(L (W x00 x00 x00 x00 x00 x00 x00 x00)) E)
(L (W x00 x00 x00 x00 x00 x00 x00 x00))))
(T (W x3e x00 x00 x00 x9c x00 x00 x00)
(T (W x00 x00 x80 x3f x00 x00 x80 x3f)
(T (W x00 x00 x00 x00 x00 x00 x00 x00)
(L (W x30 x35 x5f x43 x4c x45 x41 x52)) E)
(L (W xff xff xff xff xff xff xff xff)))
(T (W x45 x26 x22 x84 xe4 x9c xf2 xcb)
(L (W x30 x35 x5f x43 x4c x45 x41 x52))
(L (W x26 x00 x00 x00 x29 x00 x00 x00)))))
(T (W x90 x01 x00 x00 xff xff xff xff)
(T (W x18 x00 x00 x00 x0c x00 x00 x00)
(T (W x7c x1e xa0 xe4 xaf x10 x9e xba)
(T (W x00 x00 x00 x00 x00 x00 x00 x00)
(L (W xff xff xff xff xff xff xff xff)) E)
(L (W x54 x00 x00 x00 x48 x00 x00 x00)))
(T (W x03 x00 x00 x00 xd4 x00 x00 x00)
(T (W xff xff xff xff xff xff xff xff)
(L (W xff xff xff xff xe0 x00 x00 x00)) E)
(L (W x52 xf0 xfe xff x78 x00 x00 x00))))
(T (W x00 x00 x80 x3f x00 x00 x80 x3f)
(T (W x04 x00 x00 x00 x4a xb1 xfc xff)
(T (W x00 x00 x80 x3f x00 x00 x80 x3f)
(L (W x00 x00 x01 x01 xc8 x00 x00 x00)) E)
(L (W xff xff xff xff xff xff xff xff)))
(T (W xff xff xff xff xff xff xff xff)
(L (W x54 x00 x00 x00 x48 x00 x00 x00))
(L (W xff xff xff xff xff xff xff xff))))))
(T (W x00 x00 x00 x00 x00 x00 x00 x00)
(T (W x00 x00 x00 x00 x00 x00 x00 x00)
(T (W xff xff xff xff xff xff xff xff)
(T (W x00 x00 x00 x00 x00 x00 x00 x00)
(T (W x45 x26 x22 x84 xe4 x9c xf2 xcb)
(L (W x00 x00 x00 x00 xec x61 xff xff)) E)
(L (W x00 x01 x01 x01 xd2 x6f xfe xff)))
(T (W x00 x00 x00 x00 x00 x00 x00 x00)
(T (W x00 x00 x80 xbf x00 x00 x80 xbf)
(L (W x00 x00 x00 x00 x00 x00 x00 x00)) E)
(L (W x00 x00 x80 xbf x00 x00 x80 xbf))))
(T (W x6c x00 x00 x00 x60 x00 x00 x00)
(T (W xff xff xff xff xb0 x00 x00 x00)
(T (W x00 x00 x80 xbf x00 x00 x80 xbf)
(L (W x00 x00 x80 xbf x00 x00 x80 xbf)) E)
(L (W xff xff xff xff xff xff xff xff)))
(T (W xff xff xff xff xff xff xff xff)
(L (W x00 x00 x80 xbf x00 x00 x80 xbf))
(L (W xff xff xff xff xff xff xff xff)))))
(T (W xff xff xff xff xff xff xff xff)
(T (W x45 x26 x22 x84 xe4 x9c xf2 xcb)
(T (W x00 x00 x00 x00 x00 x00 x00 x00)
(T (W xff xff xff xff xff xff xff xff)
(L (W xff xff xff xff xff xff xff xff)) E)
(L (W xff xff xff xff xb0 x00 x00 x00)))
(T (W x00 x00 x00 x00 x00 x00 x00 x00)
(T (W xff xff xff xff xff xff xff xff)
(L (W x00 x00 x80 xbf x00 x00 x80 xbf)) E)
(L (W x54 x00 x00 x00 x48 x00 x00 x00))))
(T (W x45 x26 x22 x84 xe4 x9c xf2 xcb)
(T (W x00 x00 x00 x00 x00 x00 x00 x00)
(T (W xff xff xff xff xff xff xff xff)
(L (W x00 x00 x00 x00 x00 x00 x00 x00)) E)
(L (W xff xff xff xff xff xff xff xff)))
(T (W xff xff xff xff xff xff xff xff)
(L (W x00 x00 x80 xbf x00 x00 x80 xbf))
(L (W xff xff xff xff xff xff xff xff)))))))))))
(T (W x60 xd3 x02 x00 x04 xd1 x02 x00)
(T (W x48 x0f x02 x00 x04 x0d x02 x00)
(T (W x78 xc6 x00 x00 x44 xc5 x00 x00)
(T (W xff xff xff xff xff xff xff xff)
(T (W xff xff xff xff xff xff xff xff)
(T (W xff xff xff xff xff xff xff xff)
(T (W xc0 x01 x00 x00 xff xff xff xff)
(T (W x50 x00 x00 x00 x44 x00 x00 x00)
(T (W x44 x00 x00 x00 xff xff xff xff)
(T (W x00 x00 x80 x3f x00 x00 x80 x3f)
(L (W xff xff xff xff x9c x00 x00 x00)) E)
(L (W x00 x00 x00 x00 x00 x00 x00 x00)))
(T (W x04 x00 x00 x00 xda xc9 xfc xff)
(T (W x54 x00 x00 x00 x48 x00 x00 x00)
(L (W xff xff xff xff xff xff xff xff)) E)
(L (W xcc x00 x00 x00 x01 x00 x00 x00))))
(T (W x00 x00 x00 x00 x00 x00 x00 x00)
(T (W xff xff xff xff xff xff xff xff)
(T (W x50 x00 x00 x00 x44 x00 x00 x00)
(L (W xd2 x81 xff xff x78 x00 x00 x00)) E)
(L (W x00 x00 x80 xbf x00 x00 x80 xbf)))
(T (W xb0 x00 x00 x00 x64 x00 x00 x00)
(T (W x68 x00 x00 x00 x5c x00 x00 x00)
(L (W x28 x00 x2c x00 x30 x00 x34 x00)) E)
(L (W x00 x00 x00 x00 x00 x00 x00 x00)))))
(T (W xff xff xff xff x03 x00 x00 x00)
(T (W x00 x00 x80 x3f x00 x00 x80 x3f)
(T (W x40 x00 x00 x00 xff xff xff xff)
(T (W x62 xd1 xff xff x63 x01 x00 x00)
(L (W x00 x00 x00 x00 x00 x00 x00 x00)) E)
(L (W x00 x00 x00 x00 x00 x00 x00 x00)))
(T (W x31 x64 xc4 xfb x85 xf3 x9d xff)
(T (W x00 x00 x00 x00 x00 x00 x00 x00)
(L (W x00 x00 x00 x00 x00 x00 x00 x00)) E)
(L (W x00 x00 x00 x00 x00 x00 x00 x00))))
(T (W x00 x00 x00 x00 x00 x00 x00 x00)
(T (W x00 x00 x80 x3f x00 x00 x80 x3f)
(T (W x00 x00 x00 x00 x00 x00 x00 x00)
(L (W x00 x00 x00 x00 x00 x00 x00 x00)) E)
(L (W x45 x26 x22 x84 xe4 x9c xf2 xcb)))
(T (W x00 x00 x80 x3f x00 x00 x80 x3f)
(L (W xff xff xff xff xff xff xff xff))
(L (W x00 x00 x00 x00 x6c x23 xff xff))))))
(T (W x00 x00 x00 x00 x04 x00 x00 x00)
(T (W xff xff xff xff xff xff xff xff)
(T (W x00 x00 x00 x00 x6c xd3 xfb xff)
(T (W xff xff xff xff xff xff xff xff)
(T (W x00 x00 x00 x00 x00 x00 x00 x00)
(L (W x00 x00 x00 x00 x00 x00 x00 x00)) E)
(L (W x00 x00 x00 x00 x00 x00 x00 x00)))
(T (W x00 x00 x80 x3f x00 x00 x80 x3f)
(T (W xff xff xff xff xff xff xff xff)
(L (W x30 x35 x5f x43 x4c x45 x41 x52)) E)
(L (W xff xff xff xff xff xff xff xff))))
(T (W x45 x26 x22 x84 xe4 x9c xf2 xcb)
(T (W x00 x00 x00 x00 x00 x00 x00 x00)
(T (W x00 x00 x00 x00 x00 x00 x00 x00)
(L (W x00 x00 x01 x01 x64 x01 x00 x00)) E)
(L (W xff xff xff xff xa0 x00 x00 x00)))
(T (W x12 x00 x00 x00 x46 x53 x59 x53)
(L (W xff xff xff xff xff xff xff xff))
(L (W x00 x00 x80 xbf x00 x00 x80 xbf)))))
(T (W x64 x00 x00 x00 x9c x00 x00 x00)
(T (W x00 x00 x80 x3f x00 x00 x80 x3f)
(T (W x77 x69 x6c x64 x5f x70 x6f x6b)
(T (W xff xff xff xff xff xff xff xff)
(L (W xfc x74 xff xff x00 x01 x01 x01)) E)
(L (W x00 x00 x00 x00 x00 x00 x00 x00)))
(T (W x00 x00 x80 x3f x00 x00 x80 x3f)
(T (W x00 x00 x80 xbf x00 x00 x80 xbf)
(L (W x5c x00 x00 x00 x50 x00 x00 x00)) E)
(L (W x00 x00 x00 x00 x00 x00 x00 x00))))
(T (W x00 x00 x00 x00 x00 x00 x00 x00)
(T (W xbc x00 x00 x00 x64 x00 x00 x00)
(T (W x00 x00 x00 x00 x12 x00 x00 x00)
(L (W x2d x00 x00 x00 x30 x00 x00 x00)) E)
(L (W xd2 xb1 xfe xff x78 x00 x00 x00)))
(T (W x45 x26 x22 x84 xe4 x9c xf2 xcb)
(L (W x00 x00 x00 x00 x00 x00 x00 x00))
(L (W x18 x00 x00 x00 x10 x00 x00 x00)))))))
(T (W xff xff xff xff xff xff xff xff)
(T (W x00 x00 x00 x00 x00 x00 x00 x00)
(T (W xff xff xff xff xff xff xff xff)
(T (W x1a xc8 xfb xff x74 x00 x00 x00)
(T (W xff xff xff xff xff xff xff xff)
(T (W x45 x26 x22 x84 xe4 x9c xf2 xcb)
(L (W xff xff xff xff xff xff xff xff)) E)
(L (W x00 x00 x00 x00 x00 x00 x00 x00)))
(T (W x00 x00 x00 x00 x00 x00 x00 x00)
(T (W xfc xcc xfd xff x00 x01 x01 x01)
(L (W xff xff xff xff xff xff xff xff)) E)
(L (W xff xff xff xff x9c x00 x00 x00))))
(T (W x00 x00 x00 x00 x00 x00 x00 x00)
(T (W xc8 x02 x00 x00 xff xff xff xff)
(T (W x50 x00 x00 x00 x44 x00 x00 x00)
(L (W x18 x00 x00 x00 x10 x00 x00 x00)) E)
(L (W xfc x8c xfe xff x00 x01 x01 x01)))
(T (W xff xff xff xff xff xff xff xff)
(L (W xbc x00 x00 x00 x64 x00 x00 x00))
(L (W x00 x00 x80 xbf x00 x00 x80 xbf)))))
(T (W xff xff xff xff xff xff xff xff)
(T (W x00 x00 x80 x3f x00 x00 x80 x3f)
(T (W x38 x00 x3c x00 x40 x00 x44 x00)
(T (W xff xff xff xff xff xff xff xff)
(L (W x00 x00 x80 xbf x00 x00 x80 xbf)) E)
(L (W x00 x00 x80 xbf x00 x00 x80 xbf)))
(T (W x00 x00 x00 x00 x00 x00 x00 x00)
(T (W x00 x00 x80 xbf x00 x00 x80 xbf)
(L (W x00 x00 x80 xbf x00 x00 x80 xbf)) E)
(L (W x00 x00 x00 x00 x00 x00 x00 x00))))
(T (W x00 x00 x00 x00 x00 x00 x00 x00)
(T (W xfc xac xfc xff x00 x01 x01 x01)
(T (W xcc x00 x00 x00 x01 x00 x00 x00)
(L (W x00 x00 x80 xbf x00 x00 x80 xbf)) E)
(L (W x00 x00 x60 x00 x00 x00 x00 x00)))
(T (W x00 x00 x00 x00 x6c x2b xfd xff)
(L (W xbf x01 x00 x00 xff xff xff xff))
(L (W x31 x00 x00 x00 x34 x00 x00 x00))))))
(T (W xff xff xff xff xff xff xff xff)
(T (W x64 x00 x00 x00 x9c x00 x00 x00)
(T (W x45 x26 x22 x84 xe4 x9c xf2 xcb)
(T (W xff xff xff xff xff xff xff xff)
(T (W x00 x00 x00 x00 x00 x00 x00 x00)
(L (W x00 x00 x00 x00 x00 x00 x00 x00)) E)
(L (W x00 x00 x00 x00 x00 x00 x00 x00)))
(T (W xff xff xff xff xff xff xff xff)
(T (W x04 x00 x00 x00 x62 xe3 xfd xff)
(L (W xff xff xff xff xff xff xff xff)) E)
(L (W xcb x01 x00 x00 xff xff xff xff))))
(T (W x45 x26 x22 x84 xe4 x9c xf2 xcb)
(T (W x49 xa1 x68 x4a xeb x5f xdd x3d)
(T (W x00 x00 x80 xbf x00 x00 x80 xbf)
(L (W x00 x00 x00 x00 x02 x99 xff xff)) E)
(L (W xff xff xff xff xff xff xff xff)))
(T (W x00 x00 x00 x00 x00 x00 x00 x00)
(L (W x00 x00 x00 x00 x00 x00 x00 x00))
(L (W x1c x00 x00 x00 x10 x00 x00 x00)))))
(T (W xfc xbc xfb xff x00 x01 x01 x01)
(T (W x45 x26 x22 x84 xe4 x9c xf2 xcb)
(T (W x3b x00 x00 x00 x3e x00 x00 x00)
(T (W x00 x00 x80 x3f x00 x00 x80 x3f)
(L (W x00 x00 x80 xbf x00 x00 x80 xbf)) E)
(L (W x00 x00 x80 xbf x00 x00 x80 xbf)))
(T (W x18 x00 x00 x00 x0c x00 x00 x00)
(T (W x00 x00 x00 x00 x00 x00 x00 x00)
(L (W xff xff xff xff xff xff xff xff)) E)
(L (W x46 x53 x59 x53 x5f x4e x53 x5f))))
(T (W xe4 x7a x19 x96 xc1 x51 xa4 x47)
(T (W xff xff xff xff xff xff xff xff)
(T (W x00 x00 x80 x3f x00 x00 x80 x3f)
(L (W xcc x00 x00 x00 x01 x00 x00 x00)) E)
(L (W x45 x26 x22 x84 xe4 x9c xf2 xcb)))
(T (W x50 x00 x00 x00 x44 x00 x00 x00)
(L (W x4f x84 x6f x8b xe8 xcb x63 xb7))
(L (W xcc x00 x00 x00 x01 x00 x00 x00))))))))
(T (W x00 x00 x80 x3f x00 x00 x80 x3f)
(T (W x00 x00 x80 x3f x00 x00 x80 x3f)
(T (W x68 x00 x00 x00 x5c x00 x00 x00)
(T (W x00 x00 x80 x3f x00 x00 x80 x3f)
(T (W x00 x00 x00 x00 x00 x00 x00 x00)
(T (W x00 x00 x80 x3f x00 x00 x80 x3f)
(T (W xff xff xff xff xff xff xff xff)
(L (W x00 x00 x00 x00 x00 x00 x00 x00)) E)
(L (W x45 x26 x22 x84 xe4 x9c xf2 xcb)))
(T (W x00 x00 x00 x00 x6c xc7 xfc xff)
(T (W x6c x01 x00 x00 xff xff xff xff)
(L (W x4f x84 x6f x8b xe8 xcb x63 xb7)) E)
(L (W x00 x00 x00 x00 x00 x00 x00 x00))))
(T (W xff xff xff xff xff xff xff xff)
(T (W x00 x00 x80 x3f x00 x00 x80 x3f)
(T (W x64 x5f x6c x76 x31 x00 x00 x00)
(L (W x00 x00 x00 x00 x00 x00 x00 x00)) E)
(L (W xa9 x01 x00 x00 xff xff xff xff)))
(T (W x49 xa1 x68 x4a xeb x5f xdd x3d)
(L (W x00 x00 x00 x00 x00 x00 x00 x00))
(L (W x18 x00 x00 x00 x10 x00 x00 x00)))))
(T (W x00 x00 x00 x00 x00 x00 x00 x00)
(T (W xff xff xff xff xff xff xff xff)
(T (W x00 x00 x00 x00 x00 x00 x00 x00)
(T (W x00 x00 x80 x3f x00 x00 x80 x3f)
(L (W xff xff xff xff xff xff xff xff)) E)
(L (W xff xff xff xff xff xff xff xff)))
(T (W x00 x00 x00 x00 x6c xe7 xfc xff)
(T (W xff xff xff xff xff xff xff xff)
(L (W xff xff xff xff xb0 x00 x00 x00)) E)
(L (W xff xff xff xff xa0 x00 x00 x00))))
(T (W x68 x00 x00 x00 x5c x00 x00 x00)
(T (W xff xff xff xff xff xff xff xff)
(T (W x00 x00 x01 x01 x6a x01 x00 x00)
(L (W x00 x00 x80 xbf x00 x00 x80 xbf)) E)
(L (W x00 x00 x00 x00 x00 x00 x00 x00)))
(T (W x84 xea x60 x32 x34 x35 x1a x4f)
(L (W x45 x26 x22 x84 xe4 x9c xf2 xcb))
(L (W x45 x44 x00 x00 x00 x00 x00 x00))))))
(T (W x00 x00 x80 x3f x00 x00 x80 x3f)
(T (W x45 x26 x22 x84 xe4 x9c xf2 xcb)
(T (W x01 x00 x00 x00 x04 x00 x00 x00)
(T (W x00 x00 x80 x3f x00 x00 x80 x3f)
(T (W xb8 x00 x00 x00 xac x00 x00 x00)
(L (W xcc x00 x00 x00 x01 x00 x00 x00)) E)
(L (W x68 x57 xfe xff xc2 x6e xfe xff)))
(T (W x00 x00 x00 x00 x00 x00 x00 x00)
(T (W x00 x00 x80 x3f x00 x00 x80 x3f)
(L (W x00 x00 x80 xbf x00 x00 x80 xbf)) E)
(L (W x6c x00 x00 x00 x60 x00 x00 x00))))
(T (W xb8 x00 x00 x00 xac x00 x00 x00)
(T (W xff xff xff xff xc8 x00 x00 x00)
(T (W xff xff xff xff xff xff xff xff)
(L (W x54 x00 x00 x00 x48 x00 x00 x00)) E)
(L (W x00 x00 x00 x00 x00 x00 x00 x00)))
(T (W x03 x00 x00 x00 xd4 x00 x00 x00)
(L (W x00 x00 x80 xbf x00 x00 x80 xbf))
(L (W x00 x00 x00 x00 x00 x00 x00 x00)))))
(T (W x45 x26 x22 x84 xe4 x9c xf2 xcb)
(T (W xff xff xff xff xff xff xff xff)
(T (W x00 x00 x00 x00 x00 x00 x00 x00)
(T (W xd2 xe6 xff xff x00 x00 x01 x01)
(L (W x38 x00 x00 x00 x0c x00 x00 x00)) E)
(L (W xff xff xff xff xff xff xff xff)))
(T (W x00 x00 x00 x00 x00 x00 x00 x00)
(T (W xff xff xff xff xff xff xff xff)
(L (W x00 x00 x80 xbf x00 x00 x80 xbf)) E)
(L (W xff xff xff xff x9c x00 x00 x00))))
(T (W x45 x26 x22 x84 xe4 x9c xf2 xcb)
(T (W x4f x84 x6f x8b xe8 xcb x63 xb7)
(T (W x45 x26 x22 x84 xe4 x9c xf2 xcb)
(L (W x00 x00 x00 x00 x00 x00 x00 x00)) E)
(L (W xff xff xff xff xff xff xff xff)))
(T (W x1d x00 x00 x00 x0c x00 x00 x00)
(L (W xff xff xff xff xff xff xff xff))
(L (W x00 x00 x00 x00 x12 x00 x00 x00)))))))
(T (W x00 x00 x80 x3f x00 x00 x80 x3f)
(T (W x00 x00 x80 x3f x00 x00 x80 x3f)
(T (W x00 x00 x80 x3f x00 x00 x80 x3f)
(T (W x94 xd7 xfb xff x3e x00 x00 x00)
(T (W x54 x00 x00 x00 x48 x00 x00 x00)
(T (W xff xff xff xff xff xff xff xff)
(L (W x00 x00 x80 xbf x00 x00 x80 xbf)) E)
(L (W x18 x00 x00 x00 x0c x00 x00 x00)))
(T (W xff xff xff xff xff xff xff xff)
(T (W x00 x00 x00 x00 x00 x00 x00 x00)
(L (W x00 x00 x80 xbf x00 x00 x80 xbf)) E)
(L (W x4f x84 x6f x8b xe8 xcb x63 xb7))))
(T (W xff xff xff xff xff xff xff xff)
(T (W x45 x26 x22 x84 xe4 x9c xf2 xcb)
(T (W x62 xfd xff xff x43 x00 x00 x00)
(L (W x00 x00 x00 x00 x00 x00 x00 x00)) E)
(L (W x12 xe5 xfe xff x00 x00 x01 x01)))
(T (W x1a x0c xfd xff x74 x00 x00 x00)
(L (W x00 x00 x00 x00 x00 x00 x00 x00))
(L (W xff xff xff xff xff xff xff xff)))))
(T (W x00 x00 x00 x00 x00 x00 x00 x00)
(T (W xff xff xff xff xff xff xff xff)
(T (W x00 x00 x80 x3f x00 x00 x80 x3f)
(T (W x45 x26 x22 x84 xe4 x9c xf2 xcb)
(L (W x00 x00 x00 x00 x00 x00 x00 x00)) E)
(L (W xff xff xff xff xb0 x00 x00 x00)))
(T (W xff xff xff xff xff xff xff xff)
(T (W xff xff xff xff xff xff xff xff)
(L (W x00 x00 x00 x00 x00 x00 x00 x00)) E)
(L (W x2f x00 x00 x00 x32 x00 x00 x00))))
(T (W xfc x30 xfc xff x00 x01 x01 x01)
(T (W x64 xb4 xfc xff x21 x00 x00 x00)
(T (W x00 x00 x80 x3f x00 x00 x80 x3f)
(L (W x00 x00 x00 x00 x00 x00 x00 x00)) E)
(L (W x00 x00 x00 x00 xda xb5 xfe xff)))
(T (W x00 x00 x00 x00 x00 x00 x00 x00)
(L (W xcc x00 x00 x00 x01 x00 x00 x00))
(L (W x00 x00 x00 x00 x00 x00 x00 x00))))))
(T (W x00 x00 x80 x3f x00 x00 x80 x3f)
(T (W x45 x26 x22 x84 xe4 x9c xf2 xcb)
(T (W xff xff xff xff xff xff xff xff)
(T (W x45 x26 x22 x84 xe4 x9c xf2 xcb)
(T (W x50 x00 x00 x00 x44 x00 x00 x00)
(L (W xff xff xff xff xff xff xff xff)) E)
(L (W xff xff xff xff xff xff xff xff)))
(T (W x00 x00 x80 x3f x00 x00 x80 x3f)
(T (W x00 x00 x00 x00 x6c xdf xfd xff)
(L (W x00 x00 x80 xbf x00 x00 x80 xbf)) E)
(L (W x45 x26 x22 x84 xe4 x9c xf2 xcb))))
(T (W x45 x26 x22 x84 xe4 x9c xf2 xcb)
(T (W xff xff xff xff xff xff xff xff)
(T (W x50 x00 x00 x00 x44 x00 x00 x00)
(L (W x00 x00 x80 xbf x00 x00 x80 xbf)) E)
(L (W x00 x00 x00 x00 x00 x00 x00 x00)))
(T (W xff xff xff xff xff xff xff xff)
(L (W x00 x00 x80 xbf x00 x00 x80 xbf))
(L (W xff xff xff xff xff xff xff xff)))))
(T (W x00 x00 x00 x00 x00 x00 x00 x00)
(T (W xff xff xff xff xff xff xff xff)
(T (W x00 x00 x00 x00 x00 x00 x00 x00)
(T (W xff xff xff xff xff xff xff xff)
(L (W x00 x00 x00 x00 x00 x00 x00 x00)) E)
(L (W xff xff xff xff xff xff xff xff)))
(T (W x00 x00 x00 x00 x00 x00 x00 x00)
(T (W xff xff xff xff xff xff xff xff)
(L (W x50 x00 x54 x00 x58 x00 x5c x00)) E)
(L (W xd2 xfd xfe xff x78 x00 x00 x00))))
(T (W x18 x00 x00 x00 x0c x00 x00 x00)
(T (W x00 x00 x80 x3f x00 x00 x80 x3f)
(T (W x00 x00 x01 x01 xd1 x01 x00 x00)
(L (W x00 x00 x00 x00 x00 x00 x00 x00)) E)
(L (W x00 x00 x00 x00 x00 x00 x00 x00)))
(T (W x62 xad xff xff xcb x01 x00 x00)
(L (W xff xff xff xff xff xff xff xff))
(L (W x00 x00 x00 x00 x00 x00 x00 x00)))))))))
(T (W x1a x46 xfb xff x74 x00 x00 x00)
(T (W x00 x00 x00 x00 x00 x00 x00 x00)
(T (W x00 x00 x00 x00 x00 x00 x00 x00)
(T (W x00 x00 x00 x00 x00 x00 x00 x00)
(T (W x00 x00 x00 x00 x00 x00 x00 x00)
(T (W xff xff xff xff xff xff xff xff)
(T (W x00 x00 x00 x00 x00 x00 x00 x00)
(T (W xb8 x00 x00 x00 xac x00 x00 x00)
(L (W x00 x00 x00 x00 x00 x00 x00 x00)) E)
(L (W x3c x00 x00 x00 x00 x00 x80 xbf)))
(T (W x00 x00 x00 x00 x00 x00 x00 x00)
(T (W xff xff xff xff xc8 x00 x00 x00)
(L (W x00 x00 x00 x00 x00 x00 x00 x00)) E)
(L (W xff xff xff xff xff xff xff xff))))
(T (W x68 x00 x00 x00 x5c x00 x00 x00)
(T (W x00 x00 x00 x00 x00 x00 x00 x00)
(T (W xff xff xff xff x03 x00 x00 x00)
(L (W xff xff xff xff xff xff xff xff)) E)
(L (W xff xff xff xff xc8 x00 x00 x00)))
(T (W x4c x45 x41 x52 x45 x44 x00 x00)
(L (W xff xff xff xff xff xff xff xff))
(L (W x00 x00 x80 xbf x00 x00 x80 xbf)))))
(T (W xff xff xff xff xff xff xff xff)
(T (W xff xff xff xff xff xff xff xff)
(T (W x00 x00 x00 x00 x00 x00 x00 x00)
(T (W x00 x00 x00 x00 x00 x00 x00 x00)
(L (W xff xff xff xff xb0 x00 x00 x00)) E)
(L (W x00 x00 x80 xbf x00 x00 x80 xbf)))
(T (W x00 x00 x80 x3f x00 x00 x80 x3f)
(T (W x18 x00 x00 x00 x0c x00 x00 x00)
(L (W x6c x00 x00 x00 x60 x00 x00 x00)) E)
(L (W x00 x00 x80 xbf x00 x00 x80 xbf))))
(T (W x00 x00 x80 x3f x00 x00 x80 x3f)
(T (W xbc x00 x00 x00 x64 x00 x00 x00)
(T (W x8c xfd xff xff x01 x01 x01 x01)
(L (W x00 x00 x00 x00 x00 x00 x00 x00)) E)
(L (W x90 x01 x00 x00 xff xff xff xff)))
(T (W x03 x00 x00 x00 xd8 x00 x00 x00)
(L (W x00 x00 x00 x00 x00 x00 x00 x00))
(L (W xff xff xff xff xff xff xff xff))))))
(T (W x00 x00 x00 x00 x00 x00 x00 x00)
(T (W x94 x9d xfb xff x3e x00 x00 x00)
(T (W x64 x00 x00 x00 x9c x00 x00 x00)
(T (W x00 x00 x00 x00 x00 x00 x00 x00)
(T (W x00 x00 x80 x3f x00 x00 x80 x3f)
(L (W x00 x00 x80 xbf x00 x00 x80 xbf)) E)
(L (W x00 x00 x80 xbf x00 x00 x80 xbf)))
(T (W xff xff xff xff xff xff xff xff)
(T (W x5f x4e x53 x5f x30 x35 x5f x43)
(L (W x00 x00 x00 x00 x00 x00 x00 x00)) E)
(L (W x00 x00 x00 x00 x00 x00 x00 x00))))
(T (W x00 x00 x80 x3f x00 x00 x80 x3f)
(T (W x00 x00 x80 x3f x00 x00 x80 x3f)
(T (W x3f x76 x24 x4b xf1 xf4 xc9 x32)
(L (W x00 x00 x00 x00 x00 x00 x00 x00)) E)
(L (W xff xff xff xff xff xff xff xff)))
(T (W x00 x00 x80 x3f x00 x00 x80 x3f)
(L (W x00 x00 x00 x00 x00 x00 x00 x00))
(L (W xff xff xff xff xff xff xff xff)))))
(T (W xff xff xff xff xff xff xff xff)
(T (W x45 x26 x22 x84 xe4 x9c xf2 xcb)
(T (W xff xff xff xff xff xff xff xff)
(T (W x00 x00 x80 x3f x00 x00 x80 x3f)
(L (W xff xff xff xff xff xff xff xff)) E)
(L (W xd2 x73 xfe xff x78 x00 x00 x00)))
(T (W x18 x00 x00 x00 x10 x00 x00 x00)
(T (W x18 x00 x00 x00 x0c x00 x00 x00)
(L (W x00 x00 x60 x00 x00 x00 x00 x00)) E)
(L (W x54 x00 x00 x00 x48 x00 x00 x00))))
(T (W x45 x26 x22 x84 xe4 x9c xf2 xcb)
(T (W xff xff xff xff xff xff xff xff)
(T (W xff xff xff xff xff xff xff xff)
(L (W x45 x44 x00 x00 x00 x00 x00 x00)) E)
(L (W xff xff xff xff xff xff xff xff)))
(T (W xff xff xff xff xff xff xff xff)
(L (W x00 x00 x80 x3f x00 x00 x80 x3f))
(L (W x00 x00 x00 x00 x00 x00 x00 x00)))))))
(T (W x00 x00 x00 x00 x00 x00 x00 x00)
(T (W x00 x00 x00 x00 x00 x00 x00 x00)
(T (W x00 x00 x00 x00 x00 x00 x00 x00)
(T (W xff xff xff xff xff xff xff xff)
(T (W x00 x00 x00 x00 x00 x00 x00 x00)
(T (W x50 x00 x00 x00 x44 x00 x00 x00)
(L (W x00 x00 x00 x00 x00 x00 x00 x00)) E)
(L (W x00 x00 x80 xbf x00 x00 x80 xbf)))
(T (W x68 x00 x00 x00 x5c x00 x00 x00)
(T (W x00 x00 x01 x01 xd2 x01 x00 x00)
(L (W x00 x00 x00 x00 x00 x00 x00 x00)) E)
(L (W x00 x00 x00 x00 x00 x00 x00 x00))))
(T (W x00 x00 x80 x3f x00 x00 x80 x3f)
(T (W x00 x00 x00 x00 x00 x00 x00 x00)
(T (W xff xff xff xff xff xff xff xff)
(L (W x00 x00 x00 x00 x00 x00 x00 x00)) E)
(L (W xff xff xff xff xff xff xff xff)))
(T (W x00 x00 x00 x00 x00 x00 x00 x00)
(L (W xff xff xff xff xff xff xff xff))
(L (W xd2 x0b xff xff x78 x00 x00 x00)))))
(T (W xff xff xff xff xff xff xff xff)
(T (W xff xff xff xff xff xff xff xff)
(T (W xff xff xff xff xff xff xff xff)
(T (W x00 x00 x00 x00 x00 x00 x00 x00)
(L (W xff xff xff xff x9c x00 x00 x00)) E)
(L (W x6c x00 x00 x00 x60 x00 x00 x00)))
(T (W xfc xee xfc xff x00 x01 x01 x01)
(T (W x00 x00 x00 x00 x6c xed xfd xff)
(L (W x18 x00 x00 x00 x10 x00 x00 x00)) E)
(L (W x00 x00 x80 xbf x00 x00 x80 xbf))))
(T (W x00 x00 x80 x3f x00 x00 x80 x3f)
(T (W xff xff xff xff xff xff xff xff)
(T (W x6c x76 x32 x00 x22 x00 x00 x00)
(L (W x00 x00 x01 x01 x5d x00 x00 x00)) E)
(L (W xff xff xff xff x9c x00 x00 x00)))
(T (W xff xff xff xff xff xff xff xff)
(L (W x00 x00 x80 xbf x00 x00 x80 xbf))
(L (W xff xff xff xff xff xff xff xff))))))
(T (W x45 x26 x22 x84 xe4 x9c xf2 xcb)
(T (W x01 x00 x00 x00 x04 x00 x00 x00)
(T (W xff xff xff xff x03 x00 x00 x00)
(T (W x00 x00 x00 x00 x00 x00 x00 x00)
(T (W x45 x26 x22 x84 xe4 x9c xf2 xcb)
(L (W x00 x00 x80 xbf x00 x00 x80 xbf)) E)
(L (W x00 x00 x80 xbf x00 x00 x80 xbf)))
(T (W x94 xe5 xfc xff x26 x00 x00 x00)
(T (W x00 x00 x00 x00 x00 x00 x00 x00)
(L (W x00 x00 x00 x00 x00 x00 x00 x00)) E)
(L (W x00 x00 x80 xbf x00 x00 x80 xbf))))
(T (W x00 x00 x80 x3f x00 x00 x80 x3f)
(T (W x6c x00 x00 x00 x60 x00 x00 x00)
(T (W x2c x00 x30 x00 x34 x00 x38 x00)
(L (W x00 x00 x00 x00 x00 x00 x00 x00)) E)
(L (W x00 x00 x00 x00 xe2 x9f xfe xff)))
(T (W x45 x26 x22 x84 xe4 x9c xf2 xcb)
(L (W x00 x00 x00 x00 x00 x00 x00 x00))
(L (W xff xff xff xff xff xff xff xff)))))
(T (W xde x01 x00 x00 xff xff xff xff)
(T (W x18 x00 x00 x00 x0c x00 x00 x00)
(T (W xff xff xff xff xff xff xff xff)
(T (W x1a x7a xfd xff x74 x00 x00 x00)
(L (W xff xff xff xff xff xff xff xff)) E)
(L (W xfc x7e xfe xff x00 x01 x01 x01)))
(T (W xff xff xff xff xff xff xff xff)
(T (W xff xff xff xff x9c x00 x00 x00)
(L (W x00 x00 x00 x00 x00 x00 x00 x00)) E)
(L (W x00 x00 x80 xbf x00 x00 x80 xbf))))
(T (W x00 x00 x80 x3f x00 x00 x80 x3f)
(T (W x64 xc2 xfc xff x21 x00 x00 x00)
(T (W xff xff xff xff xff xff xff xff)
(L (W xff xff xff xff xff xff xff xff)) E)
(L (W xff xff xff xff xff xff xff xff)))
(T (W xff xff xff xff xff xff xff xff)
(L (W x00 x00 x80 xbf x00 x00 x80 xbf))
(L (W xff xff xff xff xff xff xff xff))))))))
(T (W x50 x00 x00 x00 x44 x00 x00 x00)
(T (W x45 x26 x22 x84 xe4 x9c xf2 xcb)
(T (W x94 x71 xfb xff x21 x00 x00 x00)
(T (W x50 x00 x00 x00 x44 x00 x00 x00)
(T (W x00 x00 x80 x3f x00 x00 x80 x3f)
(T (W xff xff xff xff xff xff xff xff)
(T (W x00 x00 x00 x00 x00 x00 x00 x00)
(L (W x00 x00 x80 xbf x00 x00 x80 xbf)) E)
(L (W xff xff xff xff xff xff xff xff)))
(T (W xff xff xff xff xff xff xff xff)
(T (W x00 x00 x00 x00 x00 x00 x00 x00)
(L (W xcc x00 x00 x00 x01 x00 x00 x00)) E)
(L (W x00 x00 x80 xbf x00 x00 x80 xbf))))
(T (W x00 x00 x00 x00 x00 x00 x00 x00)
(T (W x18 x00 x00 x00 x10 x00 x00 x00)
(T (W x45 x26 x22 x84 xe4 x9c xf2 xcb)
(L (W x00 x00 x80 xbf x00 x00 x80 xbf)) E)
(L (W x00 x00 x00 x00 x00 x00 x00 x00)))
(T (W x31 x00 x00 x00 x34 x00 x00 x00)
(L (W x00 x00 x80 xbf x00 x00 x80 xbf))
(L (W xc8 x00 x00 x00 xff xff xff xff)))))
(T (W x00 x00 x80 x3f x00 x00 x80 x3f)
(T (W x00 x00 x00 x00 x00 x00 x00 x00)
(T (W x1a x66 xfc xff x74 x00 x00 x00)
(T (W xb8 x00 x00 x00 xac x00 x00 x00)
(L (W x00 x00 x00 x00 x00 x00 x00 x00)) E)
(L (W x00 x00 x00 x00 xda x6f xfe xff)))
(T (W x82 x3d xfd xff x9d x01 x00 x00)
(T (W x00 x00 x00 x00 x00 x00 x00 x00)
(L (W x64 xee xff xff x1d x00 x00 x00)) E)
(L (W xff xff xff xff xff xff xff xff))))
(T (W xff xff xff xff xff xff xff xff)
(T (W x00 x00 x00 x00 x00 x00 x00 x00)
(T (W x00 x00 x80 x3f x00 x00 x80 x3f)
(L (W x18 x00 x00 x00 x10 x00 x00 x00)) E)
(L (W x1a xa6 xfe xff x74 x00 x00 x00)))
(T (W x00 x00 x80 x3f x00 x00 x80 x3f)
(L (W x00 x00 x2a x00 x40 x00 x2c x00))
(L (W x4f x84 x6f x8b xe8 xcb x63 xb7))))))
(T (W x64 x00 x00 x00 x9c x00 x00 x00)
(T (W x00 x00 x00 x00 x6c x99 xfb xff)
(T (W x45 x26 x22 x84 xe4 x9c xf2 xcb)
(T (W x18 x00 x00 x00 x10 x00 x00 x00)
(T (W xff xff xff xff xff xff xff xff)
(L (W xff xff xff xff xff xff xff xff)) E)
(L (W xff xff xff xff xff xff xff xff)))
(T (W x00 x00 x80 x3f x00 x00 x80 x3f)
(T (W xc4 x00 x00 x00 x02 x00 x00 x00)
(L (W x1c x00 x00 x00 x10 x00 x00 x00)) E)
(L (W xff xff xff xff xc0 x00 x00 x00))))
(T (W xad x01 x00 x00 xff xff xff xff)
(T (W x69 x01 x00 x00 xff xff xff xff)
(T (W x00 x00 x00 x00 x00 x00 x00 x00)
(L (W xff xff xff xff xc8 x00 x00 x00)) E)
(L (W x00 x00 x80 xbf x00 x00 x80 xbf)))
(T (W x9c x01 x00 x00 xff xff xff xff)
(L (W xff xff xff xff x9c x00 x00 x00))
(L (W x00 x00 x00 x00 x00 x00 x00 x00)))))
(T (W x00 x00 x80 x3f x00 x00 x80 x3f)
(T (W x00 x00 x00 x00 x00 x00 x00 x00)
(T (W x00 x00 x80 x3f x00 x00 x80 x3f)
(T (W x00 x00 x00 x00 x00 x00 x00 x00)
(L (W x00 x00 x00 x00 x00 x00 x00 x00)) E)
(L (W x45 x44 x00 x00 x00 x00 x00 x00)))
(T (W x00 x00 x00 x00 x00 x00 x00 x00)
(T (W x00 x00 x00 x00 x00 x00 x00 x00)
(L (W x46 x53 x59 x53 x5f x4e x53 x5f)) E)
(L (W x00 x00 x00 x00 xf2 x15 xff xff))))
(T (W xb8 x00 x00 x00 xac x00 x00 x00)
(T (W x54 x00 x00 x00 x48 x00 x00 x00)
(T (W x6e x00 x00 x00 x02 xb7 xfd xff)
(L (W x00 x00 x80 xbf x00 x00 x80 xbf)) E)
(L (W x00 x00 x00 x00 x00 x00 x00 x00)))
(T (W x00 x00 x00 x00 x00 x00 x00 x00)
(L (W x00 x00 x00 x00 x12 x00 x00 x00))
(L (W x49 xa1 x68 x4a xeb x5f xdd x3d)))))))
(T (W xc4 x00 x00 x00 xb8 x00 x00 x00)
(T (W xff xff xff xff xff xff xff xff)
(T (W x1a x8e xfb xff x74 x00 x00 x00)
(T (W x45 x26 x22 x84 xe4 x9c xf2 xcb)
(T (W xff xff xff xff xff xff xff xff)
(T (W x62 xbf xff xff xa9 x01 x00 x00)
(L (W xb8 x00 x00 x00 x64 x00 x00 x00)) E)
(L (W x3c x02 x00 x00 x30 x01 x00 x00)))
(T (W x00 x00 x00 x00 x00 x00 x00 x00)
(T (W x00 x00 x80 x3f x00 x00 x80 x3f)
(L (W xff xff xff xff x9c x00 x00 x00)) E)
(L (W xff xff xff xff xb0 x00 x00 x00))))
(T (W xd6 x9d x4b x48 xff x56 xc7 x00)
(T (W xff xff xff xff xff xff xff xff)
(T (W xfc x92 xfd xff x00 x01 x01 x01)
(L (W x6c x00 x00 x00 x60 x00 x00 x00)) E)
(L (W x45 x26 x22 x84 xe4 x9c xf2 xcb)))
(T (W xff xff xff xff xff xff xff xff)
(L (W x6c x00 x00 x00 x60 x00 x00 x00))
(L (W x64 x16 xff xff x18 x00 x00 x00)))))
(T (W x00 x00 x80 x3f x00 x00 x80 x3f)
(T (W x64 xf6 xfb xff x1b x00 x00 x00)
(T (W x00 x00 x80 x3f x00 x00 x80 x3f)
(T (W x50 x00 x00 x00 x44 x00 x00 x00)
(L (W x00 x00 x00 x00 x00 x00 x00 x00)) E)
(L (W xff xff xff xff xff xff xff xff)))
(T (W x94 xf9 xfc xff x10 x00 x00 x00)
(T (W x00 x00 x00 x00 x00 x00 x00 x00)
(L (W x00 x00 x00 x00 x00 x00 x00 x00)) E)
(L (W x04 x00 x00 x00 x62 xf9 xfe xff))))
(T (W xff xff xff xff xff xff xff xff)
(T (W x00 x00 x80 x3f x00 x00 x80 x3f)
(T (W xff xff xff xff xff xff xff xff)
(L (W x00 x00 x80 x3f x00 x00 x80 x3f)) E)
(L (W x00 x00 x80 xbf x00 x00 x80 xbf)))
(T (W x00 x00 x80 x3f x00 x00 x80 x3f)
(L (W xff xff xff xff xff xff xff xff))
(L (W x00 x00 x80 xbf x00 x00 x80 xbf))))))
(T (W xfc x82 xfb xff x00 x01 x01 x01)
(T (W x45 x26 x22 x84 xe4 x9c xf2 xcb)
(T (W x00 x00 x00 x00 x00 x00 x00 x00)
(T (W x01 x00 x00 x00 xa0 x00 x00 x00)
(T (W xff xff xff xff xff xff xff xff)
(L (W x00 x00 x00 x00 x00 x00 x00 x00)) E)
(L (W x00 x00 x00 x00 x5a x6c xfe xff)))
(T (W xb0 x00 x00 x00 x64 x00 x00 x00)
(T (W xff xff xff xff xff xff xff xff)
(L (W xb0 x00 x00 x00 x64 x00 x00 x00)) E)
(L (W xff xff xff xff xff xff xff xff))))
(T (W xd2 x90 xfe xff x00 x00 x01 x01)
(T (W x00 x00 x00 x00 x00 x00 x00 x00)
(T (W xff xff xff xff xff xff xff xff)
(L (W xff xff xff xff xff xff xff xff)) E)
(L (W x00 x00 x80 xbf x00 x00 x80 xbf)))
(T (W x00 x00 x00 x00 x00 x00 x00 x00)
(L (W xff xff xff xff xff xff xff xff))
(L (W x00 x00 x00 x00 x00 x00 x00 x00)))))
(T (W x00 x00 x80 x3f x00 x00 x80 x3f)
(T (W x00 x00 x00 x00 x00 x00 x00 x00)
(T (W x45 x26 x22 x84 xe4 x9c xf2 xcb)
(T (W x45 x26 x22 x84 xe4 x9c xf2 xcb)
(L (W x00 x00 x80 xbf x00 x00 x80 xbf)) E)
(L (W x00 x00 x00 x00 x00 x00 x00 x00)))
(T (W x50 x00 x00 x00 x44 x00 x00 x00)
(T (W x00 x00 x00 x00 x00 x00 x00 x00)
(L (W xff xff xff xff xe8 x00 x00 x00)) E)
(L (W xff xff xff xff xff xff xff xff))))
(T (W xff xff xff xff xff xff xff xff)
(T (W x18 x00 x00 x00 x10 x00 x00 x00)
(T (W x00 x00 x00 x00 x00 x00 x00 x00)
(L (W x45 x26 x22 x84 xe4 x9c xf2 xcb)) E)
(L (W x4f x84 x6f x8b xe8 xcb x63 xb7)))
(T (W x00 x00 x00 x00 x00 x00 x00 x00)
(L (W xff xff xff xff xff xff xff xff))
(L (W x00 x00 x80 xbf x00 x00 x80 xbf))))))))))
(T (W x00 x77 x01 x00 xa4 x74 x01 x00)
(T (W x00 x34 x00 x00 xb4 x31 x00 x00)
(T (W x72 xe4 xff xff xc9 x02 x00 x00)
(T (W x07 xd0 x69 xba x62 xfe x52 x90)
(T (W x45 xe1 x79 xfc x48 x7f x13 x88)
(T (W x00 x00 x00 x00 x00 x00 x00 x00)
(T (W x64 x00 x00 x00 x9c x00 x00 x00)
(T (W x00 x00 x00 x00 x00 x00 x00 x00)
(T (W x50 x00 x00 x00 x44 x00 x00 x00)
(L (W xff xff xff xff xff xff xff xff)) E)
(L (W x00 x00 x80 xbf x00 x00 x80 xbf)))
(T (W x00 x00 x00 x00 x00 x00 x00 x00)
(T (W x45 x26 x22 x84 xe4 x9c xf2 xcb)
(L (W xff xff xff xff xff xff xff xff)) E)
(L (W xff xff xff xff xff xff xff xff))))
(T (W x00 x00 x80 x3f x00 x00 x80 x3f)
(T (W x69 x01 x00 x00 xff xff xff xff)
(T (W x68 x00 x00 x00 x5c x00 x00 x00)
(L (W xff xff xff xff x9c x00 x00 x00)) E)
(L (W x45 x26 x22 x84 xe4 x9c xf2 xcb)))
(T (W x02 x00 x00 x00 xff xff xff xff)
(L (W x18 x00 x00 x00 x10 x00 x00 x00))
(L (W x4f x84 x6f x8b xe8 xcb x63 xb7)))))
(T (W xff xff xff xff xff xff xff xff)
(T (W x01 x00 x00 x00 x3e x00 x00 x00)
(T (W x00 x00 x00 x00 x00 x00 x00 x00)
(T (W x00 x00 x00 x00 x00 x00 x00 x00)
(L (W x00 x00 x80 xbf x00 x00 x80 xbf)) E)
(L (W x00 x00 x00 x00 x00 x00 x00 x00)))
(T (W x00 x00 x00 x00 x00 x00 x00 x00)
(T (W x45 x26 x22 x84 xe4 x9c xf2 xcb)
(L (W x00 x00 x80 xbf x00 x00 x80 xbf)) E)
(L (W x00 x00 x00 x00 x00 x00 x00 x00))))
(T (W x00 x00 x80 x3f x00 x00 x80 x3f)
(T (W xfc xa5 xfc xff x00 x01 x01 x01)
(T (W x00 x00 x80 xbf x00 x00 x80 xbf)
(L (W x00 x00 x00 x00 x12 x00 x00 x00)) E)
(L (W xff xff xff xff xff xff xff xff)))
(T (W x68 x00 x00 x00 x5c x00 x00 x00)
(L (W x00 x00 x00 x00 x00 x00 x00 x00))
(L (W x21 x00 x00 x00 x24 x00 x00 x00))))))
(T (W x00 x00 x00 x00 x00 x00 x00 x00)
(T (W xff xff xff xff xff xff xff xff)
(T (W x18 x00 x00 x00 x0c x00 x00 x00)
(T (W x62 xc2 xfe xff x42 x00 x00 x00)
(T (W x45 x26 x22 x84 xe4 x9c xf2 xcb)
(L (W x00 x00 x00 x00 x00 x00 x00 x00)) E)
(L (W x4f x84 x6f x8b xe8 xcb x63 xb7)))
(T (W x18 x00 x00 x00 x10 x00 x00 x00)
(T (W x42 x29 xff xff x00 x00 x01 x01)
(L (W x00 x00 x00 x00 x00 x00 x00 x00)) E)
(L (W x00 x00 x00 x00 x00 x00 x00 x00))))
(T (W x00 x00 x80 x3f x00 x00 x80 x3f)
(T (W x00 x00 x00 x00 x00 x00 x00 x00)
(T (W x45 x26 x22 x84 xe4 x9c xf2 xcb)
(L (W x46 x53 x59 x53 x5f x4e x53 x5f)) E)
(L (W xff xff xff xff xff xff xff xff)))
(T (W x45 x26 x22 x84 xe4 x9c xf2 xcb)
(L (W xef x00 x00 x00 xff xff xff xff))
(L (W xff xff xff xff xb0 x00 x00 x00)))))
(T (W xff xff xff xff xff xff xff xff)
(T (W xd2 xf2 xfb xff x78 x00 x00 x00)
(T (W x45 x26 x22 x84 xe4 x9c xf2 xcb)
(T (W x00 x00 x14 x00 x18 x00 x1c x00)
(L (W xb4 x00 x00 x00 x64 x00 x00 x00)) E)
(L (W x00 x00 x80 xbf x00 x00 x80 xbf)))
(T (W x68 x00 x00 x00 x5c x00 x00 x00)
(T (W xd2 xf2 xfd xff x78 x00 x00 x00)
(L (W x14 x00 x00 x00 x0c x00 x00 x00)) E)
(L (W x00 x00 x80 xbf x00 x00 x80 xbf))))
(T (W x00 x00 x00 x00 x00 x00 x00 x00)
(T (W xff xff xff xff xff xff xff xff)
(T (W x45 x26 x22 x84 xe4 x9c xf2 xcb)
(L (W xff xff xff xff xff xff xff xff)) E)
(L (W xff xff xff xff xa0 x00 x00 x00)))
(T (W x18 x00 x00 x00 x10 x00 x00 x00)
(L (W x00 x00 x80 xbf x00 x00 x80 xbf))
(L (W xff xff xff xff xff xff xff xff)))))))
(T (W x00 x00 x00 x00 x01 x00 x00 x00)
(T (W x00 x00 x00 x00 x00 x00 x00 x00)
(T (W x00 x00 x00 x00 x02 x00 x00 x00)
(T (W x00 x00 x00 x00 x6c xcc xfb xff)
(T (W xa4 xc8 xeb xf8 x3c x9a xbe x88)
(T (W x00 x00 x80 x3f x00 x00 x80 x3f)
(L (W x82 xa0 xff xff xc9 x02 x00 x00)) E)
(L (W x00 x00 x80 xbf x00 x00 x80 xbf)))
(T (W x00 x00 x80 x3f x00 x00 x80 x3f)
(T (W xb4 x00 x00 x00 x3c x00 x00 x00)
(L (W x45 x44 x00 x00 x00 x00 x00 x00)) E)
(L (W xff xff xff xff xff xff xff xff))))
(T (W x45 x26 x22 x84 xe4 x9c xf2 xcb)
(T (W x00 x00 x00 x00 x00 x00 x00 x00)
(T (W xb8 x00 x00 x00 xac x00 x00 x00)
(L (W xff xff xff xff xff xff xff xff)) E)
(L (W xbc x00 x00 x00 x64 x00 x00 x00)))
(T (W x00 x00 x00 x00 x00 x00 x00 x00)
(L (W xff xff xff xff xff xff xff xff))
(L (W x00 x00 x80 xbf x00 x00 x80 xbf)))))
(T (W xff xff xff xff xff xff xff xff)
(T (W x68 x00 x00 x00 x5c x00 x00 x00)
(T (W x00 x00 x00 x00 x00 x00 x00 x00)
(T (W x62 xda xff xff xea x00 x00 x00)
(L (W xd2 x6a xff xff x78 x00 x00 x00)) E)
(L (W x00 x00 x80 xbf x00 x00 x80 xbf)))
(T (W x45 x26 x22 x84 xe4 x9c xf2 xcb)
(T (W x00 x00 x80 xbf x00 x00 x80 xbf)
(L (W x6c x00 x00 x00 x60 x00 x00 x00)) E)
(L (W x00 x00 x80 xbf x00 x00 x80 xbf))))
(T (W x00 x00 x00 x00 x00 x00 x00 x00)
(T (W xbc x00 x00 x00 x64 x00 x00 x00)
(T (W xff xff xff xff xff xff xff xff)
(L (W xff xff xff xff xff xff xff xff)) E)
(L (W x00 x00 x00 x00 x00 x00 x00 x00)))
(T (W xff xff xff xff xff xff xff xff)
(L (W x00 x00 x00 x00 x00 x00 x00 x00))
(L (W xff xff xff xff xff xff xff xff))))))
(T (W x94 x84 xfb xff x25 x00 x00 x00)
(T (W xff xff xff xff xff xff xff xff)
(T (W x3e x00 x00 x00 x9c x00 x00 x00)
(T (W x00 x00 x00 x00 x00 x00 x00 x00)
(T (W x00 x00 x00 x00 x00 x00 x00 x00)
(L (W x4f x84 x6f x8b xe8 xcb x63 xb7)) E)
(L (W x45 x26 x22 x84 xe4 x9c xf2 xcb)))
(T (W xff xff xff xff xff xff xff xff)
(T (W x46 x53 x59 x53 x5f x4e x53 x5f)
(L (W x00 x00 x00 x00 x42 xdd xff xff)) E)
(L (W x00 x00 x00 x00 x00 x00 x00 x00))))
(T (W x00 x00 x80 x3f x00 x00 x80 x3f)
(T (W x00 x00 x80 x3f x00 x00 x80 x3f)
(T (W xff xff xff xff x9c x00 x00 x00)
(L (W x00 x00 x00 x00 x00 x00 x00 x00)) E)
(L (W xaa x01 x00 x00 xff xff xff xff)))
(T (W x00 x00 x80 x3f x00 x00 x80 x3f)
(L (W x00 x00 x00 x00 x00 x00 x00 x00))
(L (W xff xff xff xff xb8 x00 x00 x00)))))
(T (W xff xff xff xff xff xff xff xff)
(T (W x00 x00 x80 x3f x00 x00 x80 x3f)
(T (W xff xff xff xff xff xff xff xff)
(T (W x68 x00 x00 x00 x5c x00 x00 x00)
(L (W x2d x00 x00 x00 x30 x00 x00 x00)) E)
(L (W x54 x00 x00 x00 x48 x00 x00 x00)))
(T (W xff xff xff xff xff xff xff xff)
(T (W x68 x00 x00 x00 x5c x00 x00 x00)
(L (W x00 x00 x00 x00 x00 x00 x00 x00)) E)
(L (W x00 x00 x00 x00 x00 x00 x00 x00))))
(T (W x00 x00 x00 x00 x00 x00 x00 x00)
(T (W xff xff xff xff xff xff xff xff)
(T (W x54 x00 x00 x00 x48 x00 x00 x00)
(L (W xff xff xff xff xff xff xff xff)) E)
(L (W xc4 x00 x00 x00 x02 x00 x00 x00)))
(T (W xb8 x00 x00 x00 xac x00 x00 x00)
(L (W x00 x00 x80 xbf x00 x00 x80 xbf))
(L (W xff xff xff xff xff xff xff xff))))))))
(T (W x00 x00 x80 x3f x00 x00 x80 x3f)
(T (W x1a x55 xfb xff x74 x00 x00 x00)
(T (W xff xff xff xff xff xff xff xff)
(T (W x00 x00 x80 x3f x00 x00 x80 x3f)
(T (W x00 x00 x00 x00 x00 x00 x00 x00)
(T (W xc0 x00 x00 x00 xb4 x00 x00 x00)
(T (W x62 xb6 xff xff xbb x01 x00 x00)
(L (W x45 x26 x22 x84 xe4 x9c xf2 xcb)) E)
(L (W xff xff xff xff xb0 x00 x00 x00)))
(T (W xff xff xff xff xff xff xff xff)
(T (W x00 x00 x00 x00 x00 x00 x00 x00)
(L (W x00 x00 x80 xbf x00 x00 x80 xbf)) E)
(L (W x4f x84 x6f x8b xe8 xcb x63 xb7))))
(T (W x20 x01 x00 x00 x04 x00 x00 x00)
(T (W x6c x00 x00 x00 x60 x00 x00 x00)
(T (W x00 x00 x00 x00 x00 x00 x00 x00)
(L (W x4f x84 x6f x8b xe8 xcb x63 xb7)) E)
(L (W x00 x00 x00 x00 x00 x00 x00 x00)))
(T (W x00 x00 x80 x3f x00 x00 x80 x3f)
(L (W x00 x00 x00 x00 x00 x00 x00 x00))
(L (W xff xff xff xff xff xff xff xff)))))
(T (W x00 x00 x80 x3f x00 x00 x80 x3f)
(T (W x01 x00 x00 x00 x04 x00 x00 x00)
(T (W x00 x00 x80 x3f x00 x00 x80 x3f)
(T (W x50 x00 x00 x00 x44 x00 x00 x00)
(L (W x00 x00 x00 x00 x00 x00 x00 x00)) E)
(L (W xff xff xff xff xff xff xff xff)))
(T (W xff xff xff xff xff xff xff xff)
(T (W x00 x00 x00 x00 x00 x00 x00 x00)
(L (W xff xff xff xff xff xff xff xff)) E)
(L (W xff xff xff xff xff xff xff xff))))
(T (W xb8 x00 x00 x00 xac x00 x00 x00)
(T (W x64 xad xfc xff x21 x00 x00 x00)
(T (W x00 x00 x00 x00 x00 x00 x00 x00)
(L (W x6c x00 x00 x00 x60 x00 x00 x00)) E)
(L (W x45 x26 x22 x84 xe4 x9c xf2 xcb)))
(T (W x00 x00 x00 x00 x00 x00 x00 x00)
(L (W x5c x00 x00 x00 x50 x00 x00 x00))
(L (W x00 x00 x00 x00 x00 x00 x00 x00))))))
(T (W x50 x00 x00 x00 x44 x00 x00 x00)
(T (W x68 x00 x00 x00 x5c x00 x00 x00)
(T (W x00 x00 x00 x00 x00 x00 x00 x00)
(T (W xfc x59 xfc xff x00 x01 x01 x01)
(T (W xff xff xff xff xff xff xff xff)
(L (W xff xff xff xff xff xff xff xff)) E)
(L (W xff xff xff xff xff xff xff xff)))
(T (W x00 x00 x00 x00 x00 x00 x00 x00)
(T (W x45 x26 x22 x84 xe4 x9c xf2 xcb)
(L (W x6c x00 x00 x00 x60 x00 x00 x00)) E)
(L (W x45 x26 x22 x84 xe4 x9c xf2 xcb))))
(T (W xff xff xff xff xff xff xff xff)
(T (W xff xff xff xff xff xff xff xff)
(T (W x00 x00 x01 x01 xdc x00 x00 x00)
(L (W x45 x26 x22 x84 xe4 x9c xf2 xcb)) E)
(L (W x00 x00 x80 xbf x00 x00 x80 xbf)))
(T (W xff xff xff xff xff xff xff xff)
(L (W xd2 x16 xfe xff x78 x00 x00 x00))
(L (W x00 x00 x00 x00 x00 x00 x00 x00)))))
(T (W x00 x00 x80 x3f x00 x00 x80 x3f)
(T (W xd2 x67 xfe xff x00 x00 x01 x01)
(T (W x00 x00 x80 x3f x00 x00 x80 x3f)
(T (W x00 x00 x00 x00 x00 x00 x00 x00)
(L (W x00 x00 x00 x00 x00 x00 x00 x00)) E)
(L (W xff xff xff xff xff xff xff xff)))
(T (W x00 x00 x00 x00 x00 x00 x00 x00)
(T (W xc0 x01 x00 x00 xff xff xff xff)
(L (W x64 x00 x68 x00 x62 x00 x00 x00)) E)
(L (W xff xff xff xff xff xff xff xff))))
(T (W x01 x00 x00 x00 x9c x00 x00 x00)
(T (W x00 x00 x80 x3f x00 x00 x80 x3f)
(T (W x45 x26 x22 x84 xe4 x9c xf2 xcb)
(L (W x00 x00 x00 x00 x00 x00 x00 x00)) E)
(L (W x45 x44 x00 x00 x00 x00 x00 x00)))
(T (W x00 x00 x00 x00 x00 x00 x00 x00)
(L (W x3c x02 x00 x00 x30 x01 x00 x00))
(L (W x00 x00 x00 x00 x00 x00 x00 x00)))))))
(T (W x18 x00 x00 x00 x0c x00 x00 x00)
(T (W xfc x71 xfb xff x00 x01 x01 x01)
(T (W x50 x00 x00 x00 x44 x00 x00 x00)
(T (W x00 x00 x00 x00 x00 x00 x00 x00)
(T (W x1a x4d xfc xff x74 x00 x00 x00)
(T (W xff xff xff xff xff xff xff xff)
(L (W xfc x51 xff xff x00 x01 x01 x01)) E)
(L (W xff xff xff xff xff xff xff xff)))
(T (W x9d x24 x64 x5b x64 x94 xd4 xbe)
(T (W x00 x00 x80 x3f x00 x00 x80 x3f)
(L (W x6c x00 x00 x00 x60 x00 x00 x00)) E)
(L (W x00 x00 x80 xbf x00 x00 x80 xbf))))
(T (W xff xff xff xff xff xff xff xff)
(T (W xff xff xff xff xc8 x00 x00 x00)
(T (W x00 x00 x00 x00 x00 x00 x00 x00)
(L (W x00 x00 x80 xbf x00 x00 x80 xbf)) E)
(L (W x12 x00 x00 x00 x46 x53 x59 x53)))
(T (W x18 x00 x00 x00 x0c x00 x00 x00)
(L (W x00 x00 x80 xbf x00 x00 x80 xbf))
(L (W xff xff xff xff xff xff xff xff)))))
(T (W x45 x26 x22 x84 xe4 x9c xf2 xcb)
(T (W xff xff xff xff xff xff xff xff)
(T (W x00 x00 x80 x3f x00 x00 x80 x3f)
(T (W x00 x00 x80 x3f x00 x00 x80 x3f)
(L (W x00 x00 x00 x00 x00 x00 x00 x00)) E)
(L (W xff xff xff xff xff xff xff xff)))
(T (W xff xff xff xff xff xff xff xff)
(T (W x0a x00 x00 x00 x30 x0a x00 x00)
(L (W x00 x00 x00 x00 x00 x00 x00 x00)) E)
(L (W xff xff xff xff xff xff xff xff))))
(T (W x45 x26 x22 x84 xe4 x9c xf2 xcb)
(T (W x00 x00 x00 x00 x00 x00 x00 x00)
(T (W xff xff xff xff xb0 x00 x00 x00)
(L (W x00 x00 x80 xbf x00 x00 x80 xbf)) E)
(L (W x00 x00 x00 x00 x00 x00 x00 x00)))
(T (W x00 x00 x00 x00 x00 x00 x00 x00)
(L (W xff xff xff xff xff xff xff xff))
(L (W x00 x00 x00 x00 x00 x00 x00 x00))))))
(T (W x00 x00 x80 x3f x00 x00 x80 x3f)
(T (W x00 x00 x80 x3f x00 x00 x80 x3f)
(T (W x64 xe5 xfb xff x1b x00 x00 x00)
(T (W x00 x00 x80 x3f x00 x00 x80 x3f)
(T (W xb8 x00 x00 x00 xac x00 x00 x00)
(L (W xff xff xff xff xff xff xff xff)) E)
(L (W x5d x00 x00 x00 xff xff xff xff)))
(T (W x68 x00 x00 x00 x5c x00 x00 x00)
(T (W xff xff xff xff xff xff xff xff)
(L (W xfc xe1 xff xff x00 x01 x01 x01)) E)
(L (W xff xff xff xff xc0 x00 x00 x00))))
(T (W xff xff xff xff xff xff xff xff)
(T (W x00 x00 x00 x00 x00 x00 x00 x00)
(T (W xb0 x00 x00 x00 x64 x00 x00 x00)
(L (W x1a x9d xff xff x74 x00 x00 x00)) E)
(L (W x49 xa1 x68 x4a xeb x5f xdd x3d)))
(T (W x80 x03 x00 x00 x54 x02 x00 x00)
(L (W x68 x00 x00 x00 x5c x00 x00 x00))
(L (W x45 x44 x00 x00 x00 x00 x00 x00)))))
(T (W x00 x00 x80 x3f x00 x00 x80 x3f)
(T (W x00 x00 x00 x00 x00 x00 x00 x00)
(T (W x00 x00 x80 x3f x00 x00 x80 x3f)
(T (W x6b x65 x5f x63 x6f x77 x61 x72)
(L (W x00 x00 x00 x00 x00 x00 x00 x00)) E)
(L (W x00 x00 x00 x00 x00 x00 x00 x00)))
(T (W x00 x00 x80 x3f x00 x00 x80 x3f)
(T (W xcb x84 xfc x22 xd2 x08 x94 x6c)
(L (W x00 x00 x00 x00 x00 x00 x00 x00)) E)
(L (W xff xff xff xff x9c x00 x00 x00))))
(T (W x0a x00 x00 x00 x3c x00 x00 x00)
(T (W x6c x00 x00 x00 x60 x00 x00 x00)
(T (W x46 x53 x59 x53 x5f x4e x53 x5f)
(L (W x00 x00 x80 xbf x00 x00 x80 xbf)) E)
(L (W x00 x00 x00 x00 x00 x00 x00 x00)))
(T (W x00 x00 x00 x00 x00 x00 x00 x00)
(L (W xff xff xff xff xff xff xff xff))
(L (W x4f x84 x6f x8b xe8 xcb x63 xb7)))))))))
(T (W xff xff xff xff x04 x00 x00 x00)
(T (W x00 x00 x80 x3f x00 x00 x80 x3f)
(T (W x00 x00 x00 x00 x00 x00 x00 x00)
(T (W x00 x00 x80 x3f x00 x00 x80 x3f)
(T (W x00 x00 x80 x3f x00 x00 x80 x3f)
(T (W x00 x00 x00 x00 x02 x00 x00 x00)
(T (W x00 x00 x80 x3f x00 x00 x80 x3f)
(T (W xff xff xff xff xff xff xff xff)
(L (W x00 x00 x00 x00 x00 x00 x00 x00)) E)
(L (W x6c x00 x00 x00 x60 x00 x00 x00)))
(T (W x00 x00 x80 x3f x00 x00 x80 x3f)
(T (W xff xff xff xff xff xff xff xff)
(L (W x00 x00 x00 x00 x00 x00 x00 x00)) E)
(L (W x45 x44 x00 x00 x00 x00 x00 x00))))
(T (W xff xff xff xff x04 x00 x00 x00)
(T (W x49 xa1 x68 x4a xeb x5f xdd x3d)
(T (W xff xff xff xff xff xff xff xff)
(L (W x45 x44 x00 x00 x00 x00 x00 x00)) E)
(L (W xff xff xff xff xff xff xff xff)))
(T (W x00 x00 x00 x00 x00 x00 x00 x00)
(L (W x00 x00 x00 x00 x00 x00 x00 x00))
(L (W x54 x00 x00 x00 x48 x00 x00 x00)))))
(T (W x64 xab xfb xff x19 x00 x00 x00)
(T (W xff xff xff xff xff xff xff xff)
(T (W x00 x00 x00 x00 x00 x00 x00 x00)
(T (W x45 x26 x22 x84 xe4 x9c xf2 xcb)
(L (W xff xff xff xff xff xff xff xff)) E)
(L (W x18 x00 x00 x00 x0c x00 x00 x00)))
(T (W x00 x00 x80 x3f x00 x00 x80 x3f)
(T (W xff xff xff xff xff xff xff xff)
(L (W x14 x00 x00 x00 x0c x00 x00 x00)) E)
(L (W xd2 xe4 xfe xff x78 x00 x00 x00))))
(T (W x50 x00 x00 x00 x44 x00 x00 x00)
(T (W xff xff xff xff xff xff xff xff)
(T (W xff xff xff xff xff xff xff xff)
(L (W x00 x00 x80 xbf x00 x00 x80 xbf)) E)
(L (W x00 x00 x00 x00 x00 x00 x00 x00)))
(T (W xff xff xff xff xff xff xff xff)
(L (W x00 x00 x00 x00 x00 x00 x00 x00))
(L (W xff xff xff xff xff xff xff xff))))))
(T (W x45 x26 x22 x84 xe4 x9c xf2 xcb)
(T (W x00 x00 x00 x00 x00 x00 x00 x00)
(T (W xff xff xff xff xff xff xff xff)
(T (W x00 x00 x00 x00 x00 x00 x00 x00)
(T (W x50 x00 x00 x00 x44 x00 x00 x00)
(L (W x00 x00 x80 xbf x00 x00 x80 xbf)) E)
(L (W x00 x00 x80 xbf x00 x00 x80 xbf)))
(T (W x04 x00 x00 x00 xda xdc xfc xff)
(T (W x00 x00 x00 x00 x00 x00 x00 x00)
(L (W x45 x26 x22 x84 xe4 x9c xf2 xcb)) E)
(L (W x00 x00 x80 xbf x00 x00 x80 xbf))))
(T (W x68 x00 x00 x00 x5c x00 x00 x00)
(T (W x45 x26 x22 x84 xe4 x9c xf2 xcb)
(T (W x00 x00 x00 x00 x6c x96 xfd xff)
(L (W x00 x00 x80 xbf x00 x00 x80 xbf)) E)
(L (W xde x0a xb3 x28 xbf xdd x60 x6a)))
(T (W x00 x00 x80 x3f x00 x00 x80 x3f)
(L (W x00 x00 x00 x00 x00 x00 x00 x00))
(L (W xff xff xff xff xff xff xff xff)))))
(T (W x94 xbe xfb xff x0c x00 x00 x00)
(T (W xff xff xff xff xff xff xff xff)
(T (W x00 x00 x00 x00 xda x7c xfc xff)
(T (W xff xff xff xff xff xff xff xff)
(L (W xff xff xff xff xff xff xff xff)) E)
(L (W x18 x00 x00 x00 x0c x00 x00 x00)))
(T (W xff xff xff xff xff xff xff xff)
(T (W xff xff xff xff xff xff xff xff)
(L (W x00 x00 x00 x00 x12 x00 x00 x00)) E)
(L (W xd2 xf4 xfe xff x78 x00 x00 x00))))
(T (W x1a x33 xfc xff x74 x00 x00 x00)
(T (W x64 xbb xfc xff x26 x00 x00 x00)
(T (W x61 x72 x6c x69 x6b x65 x5f x6f)
(L (W x00 x00 x00 x00 x00 x00 x00 x00)) E)
(L (W xff xff xff xff xff xff xff xff)))
(T (W xff xff xff xff xff xff xff xff)
(L (W xff xff xff xff xb0 x00 x00 x00))
(L (W x00 x00 x00 x00 x00 x00 x00 x00)))))))
(T (W x00 x00 x80 x3f x00 x00 x80 x3f)
(T (W x00 x00 x00 x00 x00 x00 x00 x00)
(T (W x00 x00 x00 x00 x00 x00 x00 x00)
(T (W xff xff xff xff xff xff xff xff)
(T (W x45 x26 x22 x84 xe4 x9c xf2 xcb)
(T (W xb8 x00 x00 x00 xac x00 x00 x00)
(L (W x00 x00 x00 x00 x00 x00 x00 x00)) E)
(L (W x6c x00 x00 x00 x60 x00 x00 x00)))
(T (W xb0 x00 x00 x00 x64 x00 x00 x00)
(T (W x46 x53 x59 x53 x5f x4e x53 x5f)
(L (W x4f x84 x6f x8b xe8 xcb x63 xb7)) E)
(L (W x00 x00 x00 x00 x00 x00 x00 x00))))
(T (W x45 x26 x22 x84 xe4 x9c xf2 xcb)
(T (W x00 x00 x80 x3f x00 x00 x80 x3f)
(T (W xff xff xff xff xff xff xff xff)
(L (W x00 x00 x00 x00 x00 x00 x00 x00)) E)
(L (W xff xff xff xff xff xff xff xff)))
(T (W x00 x00 x80 x3f x00 x00 x80 x3f)
(L (W x64 x13 xfe xff x2f x00 x00 x00))
(L (W xff xff xff xff xa0 x00 x00 x00)))))
(T (W x01 x00 x00 x00 x04 x00 x00 x00)
(T (W xff xff xff xff xff xff xff xff)
(T (W x00 x00 x00 x00 x18 x00 x1c x00)
(T (W x00 x00 x00 x00 x00 x00 x00 x00)
(L (W xff xff xff xff xff xff xff xff)) E)
(L (W x14 x00 x00 x00 x0c x00 x00 x00)))
(T (W xb8 x00 x00 x00 x64 x00 x00 x00)
(T (W x2f x00 x00 x00 x32 x00 x00 x00)
(L (W xff xff xff xff xff xff xff xff)) E)
(L (W x00 x00 x00 x00 x6c xee xfe xff))))
(T (W x68 x00 x00 x00 x5c x00 x00 x00)
(T (W xff xff xff xff xff xff xff xff)
(T (W x00 x00 x00 x00 x00 x00 x00 x00)
(L (W x46 x53 x59 x53 x5f x4e x53 x5f)) E)
(L (W xff xff xff xff xff xff xff xff)))
(T (W x00 x00 x00 x00 x02 x00 x00 x00)
(L (W x00 x00 x80 x3f x00 x00 x80 x3f))
(L (W x00 x00 x00 x00 x00 x00 x00 x00))))))
(T (W x00 x00 x80 x3f x00 x00 x80 x3f)
(T (W x00 x00 x00 x00 x00 x00 x00 x00)
(T (W xff xff xff xff xff xff xff xff)
(T (W x00 x00 x00 x00 x00 x00 x00 x00)
(T (W x00 x00 x80 x3f x00 x00 x80 x3f)
(L (W x2f x00 x00 x00 x32 x00 x00 x00)) E)
(L (W x00 x00 x00 x00 x6c x5e xfe xff)))
(T (W x00 x00 x00 x00 x00 x00 x00 x00)
(T (W x00 x00 x80 xbf x00 x00 x80 xbf)
(L (W x4f x84 x6f x8b xe8 xcb x63 xb7)) E)
(L (W x6c x00 x00 x00 x60 x00 x00 x00))))
(T (W x00 x00 x80 x3f x00 x00 x80 x3f)
(T (W x18 x00 x00 x00 x10 x00 x00 x00)
(T (W x45 x26 x22 x84 xe4 x9c xf2 xcb)
(L (W x00 x00 x80 xbf x00 x00 x80 xbf)) E)
(L (W x46 x53 x59 x53 x5f x4e x53 x5f)))
(T (W xc0 x00 x00 x00 x01 x00 x00 x00)
(L (W x00 x00 x80 xbf x00 x00 x80 xbf))
(L (W xff xff xff xff xff xff xff xff)))))
(T (W x00 x00 x00 x00 x00 x00 x00 x00)
(T (W xb8 x00 x00 x00 xac x00 x00 x00)
(T (W x00 x00 x00 x00 x00 x00 x00 x00)
(T (W xff xff xff xff xff xff xff xff)
(L (W xff xff xff xff xff xff xff xff)) E)
(L (W xb0 x00 x00 x00 x64 x00 x00 x00)))
(T (W xba x51 xfe xff x9c x01 x00 x00)
(T (W xff xff xff xff xff xff xff xff)
(L (W x00 x00 x00 x00 x0c x00 x08 x00)) E)
(L (W x54 x00 x00 x00 x48 x00 x00 x00))))
(T (W x00 x00 x80 x3f x00 x00 x80 x3f)
(T (W x00 x00 x00 x00 x00 x00 x00 x00)
(T (W xff xff xff xff xff xff xff xff)
(L (W x45 x44 x00 x00 x00 x00 x00 x00)) E)
(L (W xff xff xff xff xff xff xff xff)))
(T (W xff xff xff xff xff xff xff xff)
(L (W x68 x3e xfe xff xc2 x55 xfe xff))
(L (W x45 x44 x00 x00 x00 x00 x00 x00))))))))
(T (W xb8 x00 x00 x00 xac x00 x00 x00)
(T (W x18 x00 x00 x00 x10 x00 x00 x00)
(T (W x18 x00 x00 x00 x0c x00 x00 x00)
(T (W x64 x00 x00 x00 x9c x00 x00 x00)
(T (W x50 x00 x00 x00 x44 x00 x00 x00)
(T (W xff xff xff xff xff xff xff xff)
(T (W x00 x00 x00 x00 x00 x00 x00 x00)
(L (W x00 x00 x00 x00 x6c x4a xff xff)) E)
(L (W x94 x04 x00 x00 x80 x03 x00 x00)))
(T (W x94 xd2 xfc xff x2f x00 x00 x00)
(T (W x45 x26 x22 x84 xe4 x9c xf2 xcb)
(L (W xff xff xff xff xff xff xff xff)) E)
(L (W x6c x00 x00 x00 x60 x00 x00 x00))))
(T (W x00 x00 x00 x00 x00 x00 x00 x00)
(T (W xff xff xff xff xff xff xff xff)
(T (W x00 x00 x80 x3f x00 x00 x80 x3f)
(L (W x50 x00 x00 x00 x44 x00 x00 x00)) E)
(L (W x45 x26 x22 x84 xe4 x9c xf2 xcb)))
(T (W xff xff xff xff xff xff xff xff)
(L (W xfc x0b xfe xff x00 x01 x01 x01))
(L (W x00 x00 x00 x00 x00 x00 x00 x00)))))
(T (W x01 x00 x00 x00 x3e x00 x00 x00)
(T (W x45 x26 x22 x84 xe4 x9c xf2 xcb)
(T (W xff xff xff xff xff xff xff xff)
(T (W xff xff xff xff xff xff xff xff)
(L (W x00 x00 x00 x00 x00 x00 x00 x00)) E)
(L (W x00 x00 x00 x00 x00 x00 x00 x00)))
(T (W x00 x00 x00 x00 x00 x00 x00 x00)
(T (W x00 x00 x00 x00 x00 x00 x00 x00)
(L (W x00 x00 x00 x00 x00 x00 x00 x00)) E)
(L (W xb2 x4c xbb x28 xbf xd2 x6a x6a))))
(T (W xdf x6f xe3 xa1 x8a x08 x04 x32)
(T (W x00 x00 x80 x3f x00 x00 x80 x3f)
(T (W x45 x26 x22 x84 xe4 x9c xf2 xcb)
(L (W x18 x00 x1c x00 x06 x00 x07 x00)) E)
(L (W x2d x00 x00 x00 x30 x00 x00 x00)))
(T (W x00 x00 x80 x3f x00 x00 x80 x3f)
(L (W xec x00 x00 x00 x01 x00 x00 x00))
(L (W x00 x00 x80 xbf x00 x00 x80 xbf))))))
(T (W xff xff xff xff xff xff xff xff)
(T (W x18 x00 x00 x00 x0c x00 x00 x00)
(T (W x00 x00 x80 x3f x00 x00 x80 x3f)
(T (W xff xff xff xff xff xff xff xff)
(T (W x62 xc8 xff xff x69 x01 x00 x00)
(L (W x45 x44 x00 x00 x00 x00 x00 x00)) E)
(L (W x9a x97 xc4 x28 xbf x63 x75 x6a)))
(T (W x00 x00 x00 x00 x6c xda xfc xff)
(T (W xff xff xff xff xff xff xff xff)
(L (W xff xff xff xff xff xff xff xff)) E)
(L (W xff xff xff xff xff xff xff xff))))
(T (W x00 x00 x00 x00 x00 x00 x00 x00)
(T (W x00 x00 x00 x00 x00 x00 x00 x00)
(T (W x45 x26 x22 x84 xe4 x9c xf2 xcb)
(L (W xff xff xff xff xff xff xff xff)) E)
(L (W x1a x97 xfe xff x74 x00 x00 x00)))
(T (W x4c x45 x41 x52 x45 x44 x00 x00)
(L (W xff xff xff xff xff xff xff xff))
(L (W x00 x00 x80 xbf x00 x00 x80 xbf)))))
(T (W x00 x00 x80 x3f x00 x00 x80 x3f)
(T (W x00 x00 x00 x00 x00 x00 x00 x00)
(T (W xd2 x78 xfc xff x78 x00 x00 x00)
(T (W x45 x26 x22 x84 xe4 x9c xf2 xcb)
(L (W x00 x00 x80 xbf x00 x00 x80 xbf)) E)
(L (W x00 x00 x00 x00 x00 x00 x00 x00)))
(T (W x00 x00 x80 x3f x00 x00 x80 x3f)
(T (W x00 x00 x00 x00 x12 x00 x00 x00)
(L (W xd2 xf8 xff xff x78 x00 x00 x00)) E)
(L (W x00 x00 x00 x00 x62 x02 xff xff))))
(T (W xff xff xff xff xff xff xff xff)
(T (W x45 x26 x22 x84 xe4 x9c xf2 xcb)
(T (W x00 x00 x00 x00 x00 x00 x00 x00)
(L (W x40 x00 x00 x00 x00 x00 x80 xbf)) E)
(L (W x00 x00 x80 xbf x00 x00 x80 xbf)))
(T (W x00 x00 x80 x3f x00 x00 x80 x3f)
(L (W x00 x00 x00 x00 x00 x00 x00 x00))
(L (W x00 x00 x80 xbf x00 x00 x80 xbf)))))))
(T (W xff xff xff xff xff xff xff xff)
(T (W xff xff xff xff xff xff xff xff)
(T (W x00 x00 x00 x00 x6c x92 xfb xff)
(T (W x68 x00 x00 x00 x5c x00 x00 x00)
(T (W xff xff xff xff xff xff xff xff)
(T (W x00 x00 x00 x00 x00 x00 x00 x00)
(L (W xff xff xff xff xff xff xff xff)) E)
(L (W x00 x00 x00 x00 x12 x00 x00 x00)))
(T (W x45 x26 x22 x84 xe4 x9c xf2 xcb)
(T (W xff xff xff xff xac x00 x00 x00)
(L (W x00 x00 x01 x01 x5d x00 x00 x00)) E)
(L (W xff xff xff xff xff xff xff xff))))
(T (W x00 x00 x00 x00 x00 x00 x00 x00)
(T (W x69 x01 x00 x00 xff xff xff xff)
(T (W x62 x00 x00 x00 x42 x00 x00 x00)
(L (W x18 x00 x00 x00 x10 x00 x00 x00)) E)
(L (W x6c x00 x00 x00 x60 x00 x00 x00)))
(T (W x12 x68 xfd xff x00 x00 x01 x01)
(L (W x18 x00 x00 x00 x10 x00 x00 x00))
(L (W x00 x00 x00 x00 x00 x00 x00 x00)))))
(T (W x50 x00 x00 x00 x44 x00 x00 x00)
(T (W x00 x00 x00 x00 x00 x00 x00 x00)
(T (W xff xff xff xff xff xff xff xff)
(T (W xb8 x00 x00 x00 xac x00 x00 x00)
(L (W x00 x00 x80 xbf x00 x00 x80 xbf)) E)
(L (W x45 x44 x00 x00 x00 x00 x00 x00)))
(T (W x49 xa1 x68 x4a xeb x5f xdd x3d)
(T (W x00 x00 x80 xbf x00 x00 x80 xbf)
(L (W x00 x00 x80 xbf x00 x00 x80 xbf)) E)
(L (W x46 x53 x59 x53 x5f x4e x53 x5f))))
(T (W x5d x00 x00 x00 xff xff xff xff)
(T (W xfc xb3 xfc xff x00 x01 x01 x01)
(T (W x04 x00 x00 x00 xca xb1 xfd xff)
(L (W xd2 xb0 xff xff x78 x00 x00 x00)) E)
(L (W x00 x00 x80 xbf x00 x00 x80 xbf)))
(T (W x00 x00 x80 x3f x00 x00 x80 x3f)
(L (W x45 x44 x00 x00 x00 x00 x00 x00))
(L (W x54 x00 x00 x00 x48 x00 x00 x00))))))
(T (W xff xff xff xff xff xff xff xff)
(T (W x40 x00 x00 x00 x9c x00 x00 x00)
(T (W x00 x00 x80 x3f x00 x00 x80 x3f)
(T (W xff xff xff xff x03 x00 x00 x00)
(T (W xff xff xff xff xff xff xff xff)
(L (W x00 x00 x00 x00 x00 x00 x00 x00)) E)
(L (W x30 x35 x5f x43 x4c x45 x41 x52)))
(T (W xff xff xff xff xff xff xff xff)
(T (W x34 x00 x00 x00 x0c x00 x00 x00)
(L (W xff xff xff xff xff xff xff xff)) E)
(L (W xcc x01 x00 x00 xff xff xff xff))))
(T (W x00 x00 x00 x00 x00 x00 x00 x00)
(T (W x00 x00 x00 x00 x00 x00 x00 x00)
(T (W x32 x00 x00 x00 x10 x00 x00 x00)
(L (W xa8 x01 x00 x00 xff xff xff xff)) E)
(L (W x5c x00 x00 x00 x50 x00 x00 x00)))
(T (W x00 x00 x80 x3f x00 x00 x80 x3f)
(L (W xff xff xff xff xff xff xff xff))
(L (W x00 x00 x80 xbf x00 x00 x80 xbf)))))
(T (W x00 x00 x80 x3f x00 x00 x80 x3f)
(T (W x00 x00 x00 x00 x00 x00 x00 x00)
(T (W xff xff xff xff xc8 x00 x00 x00)
(T (W x45 x26 x22 x84 xe4 x9c xf2 xcb)
(L (W x00 x00 x80 xbf x00 x00 x80 xbf)) E)
(L (W x00 x00 x00 x00 x00 x00 x00 x00)))
(T (W xfc x03 xfd xff x00 x01 x01 x01)
(T (W x45 x26 x22 x84 xe4 x9c xf2 xcb)
(L (W x00 x00 x62 x00 x78 x00 x04 x00)) E)
(L (W x45 x44 x00 x00 x00 x00 x00 x00))))
(T (W xff xff xff xff xff xff xff xff)
(T (W xff xff xff xff xff xff xff xff)
(T (W x00 x00 x80 x3f x00 x00 x80 x3f)
(L (W xc4 x00 x00 x00 x02 x00 x00 x00)) E)
(L (W x00 x00 x80 xbf x00 x00 x80 xbf)))
(T (W x45 x26 x22 x84 xe4 x9c xf2 xcb)
(L (W x00 x00 x00 x00 x00 x00 x00 x00))
(L (W x6c x00 x00 x00 x60 x00 x00 x00))))))))))))
(T (W xc0 xcd x03 x00 xc4 xc6 x03 x00)
(T (W xe0 x1a x03 x00 x84 x18 x03 x00)
(T (W x58 x34 x02 x00 x14 x32 x02 x00)
(T (W x18 xeb x00 x00 xe4 xe9 x00 x00)
(T (W x00 x00 x00 x00 x00 x00 x00 x00)
(T (W x24 x58 xfb xff x33 x00 x00 x00)
(T (W x00 x00 x00 x00 x00 x00 x00 x00)
(T (W x00 x00 x00 x00 x00 x00 x00 x00)
(T (W xff xff xff xff xff xff xff xff)
(T (W x00 x00 x00 x00 x00 x00 x00 x00)
(T (W xb8 x00 x00 x00 xac x00 x00 x00)
(L (W xff xff xff xff xff xff xff xff)) E)
(L (W x00 x00 x80 xbf x00 x00 x80 xbf)))
(T (W x00 x00 x00 x00 x00 x00 x00 x00)
(T (W xbc x00 x00 x00 x50 x00 x00 x00)
(L (W x00 x00 x00 x00 x00 x00 x00 x00)) E)
(L (W xff xff xff xff xff xff xff xff))))
(T (W x00 x00 x80 x3f x00 x00 x80 x3f)
(T (W x00 x00 x00 x00 x00 x00 x00 x00)
(T (W xff xff xff xff x03 x00 x00 x00)
(L (W xff xff xff xff xff xff xff xff)) E)
(L (W xda x7f xfe xff x74 x00 x00 x00)))
(T (W xff xff xff xff xff xff xff xff)
(T (W xff xff xff xff xff xff xff xff)
(L (W xff xff xff xff xcc x00 x00 x00)) E)
(L (W x00 x00 x80 xbf x00 x00 x80 xbf)))))
(T (W xab x01 x00 x00 xff xff xff xff)
(T (W x64 x00 x00 x00 x9c x00 x00 x00)
(T (W x00 x00 x00 x00 x00 x00 x00 x00)
(T (W x00 x00 x00 x00 x00 x00 x00 x00)
(L (W x00 x00 x80 xbf x00 x00 x80 xbf)) E)
(L (W x00 x00 x80 xbf x00 x00 x80 xbf)))
(T (W x00 x00 x00 x00 x00 x00 x00 x00)
(T (W x00 x00 x80 xbf x00 x00 x80 xbf)
(L (W x00 x00 x00 x00 x00 x00 x00 x00)) E)
(L (W x45 x26 x22 x84 xe4 x9c xf2 xcb))))
(T (W x00 x00 x80 x3f x00 x00 x80 x3f)
(T (W xda x9f xfc xff x74 x00 x00 x00)
(T (W x00 x00 x80 xbf x00 x00 x80 xbf)
(L (W x45 x26 x22 x84 xe4 x9c xf2 xcb)) E)
(L (W xff xff xff xff xff xff xff xff)))
(T (W x18 x00 x00 x00 x0c x00 x00 x00)
(L (W x00 x00 x00 x00 x00 x00 x00 x00))
(L (W xff xff xff xff xff xff xff xff))))))
(T (W x00 x00 x00 x00 x00 x00 x00 x00)
(T (W x92 x02 xfe xff x00 x00 x01 x01)
(T (W xff xff xff xff xff xff xff xff)
(T (W x00 x00 x00 x00 x00 x00 x00 x00)
(T (W x00 x00 x80 x3f x00 x00 x80 x3f)
(L (W x00 x00 x00 x00 x00 x00 x00 x00)) E)
(L (W x3c x00 x00 x00 x00 x00 x80 xbf)))
(T (W xb0 x00 x00 x00 x64 x00 x00 x00)
(T (W x00 x00 x00 x00 x00 x00 x00 x00)
(L (W x49 xa1 x68 x4a xeb x5f xdd x3d)) E)
(L (W x00 x00 x00 x00 x00 x00 x00 x00))))
(T (W x50 x00 x00 x00 x44 x00 x00 x00)
(T (W x45 x26 x22 x84 xe4 x9c xf2 xcb)
(T (W x45 x26 x22 x84 xe4 x9c xf2 xcb)
(L (W xd4 xf9 xaf x28 xbf x5c x5d x6a)) E)
(L (W xff xff xff xff xff xff xff xff)))
(T (W x00 x00 x80 x3f x00 x00 x80 x3f)
(L (W xf5 x84 xc7 x28 xbf xcf x78 x6a))
(L (W x45 x26 x22 x84 xe4 x9c xf2 xcb)))))
(T (W xff xff xff xff xff xff xff xff)
(T (W xbc xf4 xfb xff x00 x01 x01 x01)
(T (W x00 x00 x00 x00 x00 x00 x00 x00)
(T (W x22 xe1 xff xff xdc x00 x00 x00)
(L (W xff xff xff xff xff xff xff xff)) E)
(L (W x00 x00 x80 xbf x00 x00 x80 xbf)))
(T (W xff xff xff xff x9c x00 x00 x00)
(T (W xff xff xff xff xb0 x00 x00 x00)
(L (W xcc x00 x00 x00 x01 x00 x00 x00)) E)
(L (W x00 x00 x80 xbf x00 x00 x80 xbf))))
(T (W x45 x26 x22 x84 xe4 x9c xf2 xcb)
(T (W xff xff xff xff xff xff xff xff)
(T (W x00 x00 x80 x3f x00 x00 x80 x3f)
(L (W xff xff xff xff xff xff xff xff)) E)
(L (W xff xff xff xff xff xff xff xff)))
(T (W xff xff xff xff xff xff xff xff)
(L (W x00 x00 x80 xbf x00 x00 x80 xbf))
(L (W xff xff xff xff xff xff xff xff)))))))
(T (W xa2 x21 xe9 xe9 xf2 x25 x8d xf3)
(T (W x00 x00 x10 x00 x14 x00 x18 x00)
(T (W x20 x00 x00 x00 x0c x00 x00 x00)
(T (W xff xff xff xff xff xff xff xff)
(T (W x00 x00 x00 x00 x00 x00 x00 x00)
(T (W x50 x00 x00 x00 x44 x00 x00 x00)
(L (W x8c x03 x00 x00 x58 x02 x00 x00)) E)
(L (W x00 x00 x80 xbf x00 x00 x80 xbf)))
(T (W x00 x00 x80 x3f x00 x00 x80 x3f)
(T (W xff xff xff xff xff xff xff xff)
(L (W x00 x00 x00 x00 x00 x00 x00 x00)) E)
(L (W xff xff xff xff xff xff xff xff))))
(T (W x00 x00 x80 x3f x00 x00 x80 x3f)
(T (W x00 x00 x00 x00 x00 x00 x00 x00)
(T (W xff xff xff xff xff xff xff xff)
(L (W xff xff xff xff xff xff xff xff)) E)
(L (W xff xff xff xff xff xff xff xff)))
(T (W x00 x00 x00 x00 x00 x00 x00 x00)
(L (W xff xff xff xff xff xff xff xff))
(L (W x92 x09 xff xff x78 x00 x00 x00)))))
(T (W xda x3c xff xff xaa x01 x00 x00)
(T (W xbc x00 x00 x00 xb0 x00 x00 x00)
(T (W x00 x00 x00 x00 x00 x00 x00 x00)
(T (W x00 x00 x00 x00 x00 x00 x00 x00)
(L (W x00 x00 x00 x00 x2c x6b xff xff)) E)
(L (W x00 x00 x00 x00 xc0 x6c xfe xff)))
(T (W x00 x00 x80 x3f x00 x00 x80 x3f)
(T (W x92 xe9 xfd xff x78 x00 x00 x00)
(L (W xda xe7 xff xff x74 x00 x00 x00)) E)
(L (W x00 x00 x80 xbf x00 x00 x80 xbf))))
(T (W x00 x00 x80 x3f x00 x00 x80 x3f)
(T (W xff xff xff xff xff xff xff xff)
(T (W xff xff xff xff xff xff xff xff)
(L (W x18 x00 x00 x00 x0c x00 x00 x00)) E)
(L (W x78 x00 x08 x00 x70 x00 x0c x00)))
(T (W xff xff xff xff xff xff xff xff)
(L (W x00 x00 x00 x00 x00 x00 x00 x00))
(L (W xff xff xff xff xff xff xff xff))))))
(T (W x00 x00 x00 x00 x00 x00 x00 x00)
(T (W xff xff xff xff xff xff xff xff)
(T (W xff xff xff xff xff xff xff xff)
(T (W x00 x00 x00 x00 x00 x00 x00 x00)
(T (W x45 x26 x22 x84 xe4 x9c xf2 xcb)
(L (W x00 x00 x80 xbf x00 x00 x80 xbf)) E)
(L (W x00 x00 x80 xbf x00 x00 x80 xbf)))
(T (W x04 x00 x00 x00 x9a xe1 xfc xff)
(T (W x00 x00 x00 x00 x00 x00 x00 x00)
(L (W x00 x00 x00 x00 x00 x00 x00 x00)) E)
(L (W x00 x00 x00 x00 x00 x00 x00 x00))))
(T (W x68 x00 x00 x00 x5c x00 x00 x00)
(T (W x6c x00 x00 x00 x60 x00 x00 x00)
(T (W xb0 x00 x00 x00 x64 x00 x00 x00)
(L (W x00 x00 x00 x00 x00 x00 x00 x00)) E)
(L (W x74 x04 x00 x00 x68 x03 x00 x00)))
(T (W x00 x00 x80 x3f x00 x00 x80 x3f)
(L (W x00 x00 x00 x00 x00 x00 x00 x00))
(L (W xff xff xff xff xff xff xff xff)))))
(T (W xff xff xff xff xff xff xff xff)
(T (W x50 x00 x00 x00 x44 x00 x00 x00)
(T (W xff xff xff xff xff xff xff xff)
(T (W xda x77 xfd xff x74 x00 x00 x00)
(L (W xff xff xff xff x9c x00 x00 x00)) E)
(L (W x45 x26 x22 x84 xe4 x9c xf2 xcb)))
(T (W xff xff xff xff xff xff xff xff)
(T (W x00 x00 x80 xbf x00 x00 x80 xbf)
(L (W x06 x00 x00 x00 xa0 x07 x00 x00)) E)
(L (W x00 x00 x80 xbf x00 x00 x80 xbf))))
(T (W x00 x00 x00 x00 x00 x00 x00 x00)
(T (W x02 x00 x00 x00 x30 x01 x00 x00)
(T (W x45 x26 x22 x84 xe4 x9c xf2 xcb)
(L (W xff xff xff xff xff xff xff xff)) E)
(L (W xff xff xff xff xff xff xff xff)))
(T (W xff xff xff xff xff xff xff xff)
(L (W x6c x00 x00 x00 x60 x00 x00 x00))
(L (W xff xff xff xff xff xff xff xff))))))))
(T (W x18 x00 x00 x00 x10 x00 x00 x00)
(T (W x01 x00 x00 x00 x3e x00 x00 x00)
(T (W xff xff xff xff xff xff xff xff)
(T (W x18 x00 x00 x00 x10 x00 x00 x00)
(T (W x00 x00 x80 x3f x00 x00 x80 x3f)
(T (W xb8 x00 x00 x00 xac x00 x00 x00)
(T (W x00 x00 x00 x00 x00 x00 x00 x00)
(L (W x00 x00 x80 xbf x00 x00 x80 xbf)) E)
(L (W xff xff xff xff xff xff xff xff)))
(T (W xff xff xff xff xff xff xff xff)
(T (W x00 x00 x00 x00 x00 x00 x00 x00)
(L (W x54 x00 x00 x00 x48 x00 x00 x00)) E)
(L (W x00 x00 x80 xbf x00 x00 x80 xbf))))
(T (W x00 x00 x00 x00 x00 x00 x00 x00)
(T (W xff xff xff xff xa0 x00 x00 x00)
(T (W x1a x00 x00 x00 x67 x72 x6f x75)
(L (W x00 x00 x80 xbf x00 x00 x80 xbf)) E)
(L (W x00 x00 x00 x00 x00 x00 x00 x00)))
(T (W x68 x00 x00 x00 x5c x00 x00 x00)
(L (W x00 x00 x80 xbf x00 x00 x80 xbf))
(L (W xff xff xff xff xff xff xff xff)))))
(T (W x00 x00 x80 x3f x00 x00 x80 x3f)
(T (W x00 x00 x00 x00 x00 x00 x00 x00)
(T (W x00 x00 x80 x3f x00 x00 x80 x3f)
(T (W xb8 x00 x00 x00 xac x00 x00 x00)
(L (W x00 x00 x00 x00 x00 x00 x00 x00)) E)
(L (W x00 x00 x00 x00 xc2 x64 xfe xff)))
(T (W xff xff xff xff xff xff xff xff)
(T (W x00 x00 x00 x00 x00 x00 x00 x00)
(L (W xff xff xff xff xff xff xff xff)) E)
(L (W xff xff xff xff xff xff xff xff))))
(T (W xff xff xff xff xff xff xff xff)
(T (W x00 x00 x00 x00 x12 x00 x00 x00)
(T (W x00 x00 x00 x00 x00 x00 x00 x00)
(L (W xff xff xff xff xa0 x00 x00 x00)) E)
(L (W x00 x00 x80 xbf x00 x00 x80 xbf)))
(T (W x00 x00 x00 x00 x00 x00 x00 x00)
(L (W x70 x00 x00 x00 x64 x00 x00 x00))
(L (W x4f x84 x6f x8b xe8 xcb x63 xb7))))))
(T (W xda x73 xfb xff x74 x00 x00 x00)
(T (W x50 x00 x00 x00 x44 x00 x00 x00)
(T (W x00 x00 x00 x00 x00 x00 x00 x00)
(T (W x45 x26 x22 x84 xe4 x9c xf2 xcb)
(T (W xff xff xff xff xff xff xff xff)
(L (W xff xff xff xff xff xff xff xff)) E)
(L (W xff xff xff xff xff xff xff xff)))
(T (W x45 x26 x22 x84 xe4 x9c xf2 xcb)
(T (W x33 x00 x00 x00 x36 x00 x00 x00)
(L (W x45 x26 x22 x84 xe4 x9c xf2 xcb)) E)
(L (W xff xff xff xff xc8 x00 x00 x00))))
(T (W xff xff xff xff xff xff xff xff)
(T (W x6a x01 x00 x00 xff xff xff xff)
(T (W x04 x00 x00 x00 x22 x9f xfd xff)
(L (W xbc x00 x00 x00 x14 x00 x00 x00)) E)
(L (W x00 x00 x80 xbf x00 x00 x80 xbf)))
(T (W x02 x00 x00 x00 xff xff xff xff)
(L (W x00 x00 x00 x00 x2c x17 xfe xff))
(L (W x00 x00 x00 x00 x00 x00 x00 x00)))))
(T (W x50 x00 x00 x00 x44 x00 x00 x00)
(T (W x00 x00 x00 x00 x00 x00 x00 x00)
(T (W x45 x26 x22 x84 xe4 x9c xf2 xcb)
(T (W x00 x00 x00 x00 x00 x00 x00 x00)
(L (W x00 x00 x00 x00 x00 x00 x00 x00)) E)
(L (W x00 x00 x00 x00 x9a x7d xfe xff)))
(T (W x00 x00 x00 x00 x00 x00 x00 x00)
(T (W x00 x00 x00 x00 x00 x00 x00 x00)
(L (W x20 x00 x00 x00 x24 x00 x28 x00)) E)
(L (W xff xff xff xff xff xff xff xff))))
(T (W xff xff xff xff xff xff xff xff)
(T (W x54 x00 x00 x00 x48 x00 x00 x00)
(T (W x6c x00 x00 x00 x60 x00 x00 x00)
(L (W x00 x00 x80 xbf x00 x00 x80 xbf)) E)
(L (W x00 x00 x00 x00 x00 x00 x00 x00)))
(T (W x00 x00 x00 x00 x00 x00 x00 x00)
(L (W x00 x00 x00 x00 x00 x00 x00 x00))
(L (W x00 x00 x80 xbf x00 x00 x80 xbf)))))))
(T (W x45 x26 x22 x84 xe4 x9c xf2 xcb)
(T (W x18 x00 x00 x00 x0c x00 x00 x00)
(T (W x40 x00 x00 x00 x9c x00 x00 x00)
(T (W x00 x00 x00 x00 x00 x00 x00 x00)
(T (W xff xff xff xff x04 x00 x00 x00)
(T (W x22 xbd xff xff xaa x01 x00 x00)
(L (W x00 x00 x00 x00 x2c x4f xff xff)) E)
(L (W xff xff xff xff xff xff xff xff)))
(T (W x54 xd7 xfc xff x31 x00 x00 x00)
(T (W x00 x00 x80 x3f x00 x00 x80 x3f)
(L (W x18 x00 x00 x00 x10 x00 x00 x00)) E)
(L (W x54 x00 x00 x00 x48 x00 x00 x00))))
(T (W x00 x00 x00 x00 x02 x00 x00 x00)
(T (W xff xff xff xff xff xff xff xff)
(T (W x00 x00 x00 x00 x00 x00 x00 x00)
(L (W x00 x00 x80 xbf x00 x00 x80 xbf)) E)
(L (W x00 x00 x00 x00 x00 x00 x00 x00)))
(T (W xff xff xff xff xff xff xff xff)
(L (W x00 x00 x80 xbf x00 x00 x80 xbf))
(L (W x00 x00 x01 x01 x69 x01 x00 x00)))))
(T (W x00 x00 x80 x3f x00 x00 x80 x3f)
(T (W x00 x00 x00 x00 x00 x00 x00 x00)
(T (W xda x6b xfc xff x74 x00 x00 x00)
(T (W x50 x00 x00 x00 x44 x00 x00 x00)
(L (W x00 x00 x00 x00 x00 x00 x00 x00)) E)
(L (W xff xff xff xff xff xff xff xff)))
(T (W x00 x00 x00 x00 x00 x00 x00 x00)
(T (W x00 x00 x00 x00 x00 x00 x00 x00)
(L (W x00 x00 x00 x00 x00 x00 x00 x00)) E)
(L (W xff xff xff xff xff xff xff xff))))
(T (W xff xff xff xff xff xff xff xff)
(T (W x00 x00 x00 x00 x00 x00 x00 x00)
(T (W x00 x00 x00 x00 x2c xaf xfd xff)
(L (W x00 x00 x80 x3f x00 x00 x80 x3f)) E)
(L (W x00 x00 x00 x00 x00 x00 x00 x00)))
(T (W x00 x00 x80 x3f x00 x00 x80 x3f)
(L (W xff xff xff xff xff xff xff xff))
(L (W x00 x00 x80 xbf x00 x00 x80 xbf))))))
(T (W x45 x26 x22 x84 xe4 x9c xf2 xcb)
(T (W x6c x00 x00 x00 x60 x00 x00 x00)
(T (W x00 x00 x00 x00 x00 x00 x00 x00)
(T (W x68 x00 x00 x00 x5c x00 x00 x00)
(T (W xff xff xff xff xff xff xff xff)
(L (W x00 x00 x00 x00 x00 x00 x00 x00)) E)
(L (W x64 x04 x00 x00 x60 x03 x00 x00)))
(T (W x00 x00 x00 x00 x2c xdf xfc xff)
(T (W xff xff xff xff xff xff xff xff)
(L (W x45 x26 x22 x84 xe4 x9c xf2 xcb)) E)
(L (W xff xff xff xff xff xff xff xff))))
(T (W xff xff xff xff xff xff xff xff)
(T (W x0a x0e x25 x55 x8c xfc xd5 xe4)
(T (W x03 x00 x00 x00 xbc x00 x00 x00)
(L (W xff xff xff xff xb0 x00 x00 x00)) E)
(L (W x00 x00 x80 xbf x00 x00 x80 xbf)))
(T (W x00 x00 x00 x00 x00 x00 x00 x00)
(L (W x18 x00 x00 x00 x0c x00 x00 x00))
(L (W x00 x00 x00 x00 x00 x00 x00 x00)))))
(T (W x00 x00 x80 x3f x00 x00 x80 x3f)
(T (W x54 x07 xfc xff x1b x00 x00 x00)
(T (W x00 x00 x80 x3f x00 x00 x80 x3f)
(T (W x00 x00 x00 x00 x00 x00 x00 x00)
(L (W x00 x00 x00 x00 x00 x00 x00 x00)) E)
(L (W x24 x84 xfe xff x31 x00 x00 x00)))
(T (W x45 x26 x22 x84 xe4 x9c xf2 xcb)
(T (W x4c x45 x41 x52 x45 x44 x00 x00)
(L (W x00 x00 x62 x00 x74 x00 x04 x00)) E)
(L (W xff xff xff xff xff xff xff xff))))
(T (W xff xff xff xff xff xff xff xff)
(T (W xda xbb xfc xff x74 x00 x00 x00)
(T (W x00 x00 x00 x00 x00 x00 x00 x00)
(L (W x00 x00 x80 xbf x00 x00 x80 xbf)) E)
(L (W x00 x00 x00 x00 x00 x00 x00 x00)))
(T (W x00 x00 x00 x00 x00 x00 x00 x00)
(L (W x04 x00 x00 x00 x1a x4a xfe xff))
(L (W x00 x00 x80 xbf x00 x00 x80 xbf)))))))))
(T (W xff xff xff xff xff xff xff xff)
(T (W x45 x26 x22 x84 xe4 x9c xf2 xcb)
(T (W x00 x00 x80 x3f x00 x00 x80 x3f)
(T (W x00 x00 x80 x3f x00 x00 x80 x3f)
(T (W x00 x00 x80 x3f x00 x00 x80 x3f)
(T (W x29 x00 x00 x00 x0c x00 x00 x00)
(T (W x00 x00 x80 x3f x00 x00 x80 x3f)
(T (W xff xff xff xff xff xff xff xff)
(L (W x00 x00 x00 x00 x00 x00 x00 x00)) E)
(L (W xac x00 x00 x00 x64 x00 x00 x00)))
(T (W x00 x00 x80 x3f x00 x00 x80 x3f)
(T (W x6d x01 x00 x00 xff xff xff xff)
(L (W x00 x00 x00 x00 x00 x00 x00 x00)) E)
(L (W x00 x00 x00 x00 x00 x00 x00 x00))))
(T (W xff xff xff xff xff xff xff xff)
(T (W x45 x26 x22 x84 xe4 x9c xf2 xcb)
(T (W xb8 x01 x00 x00 xff xff xff xff)
(L (W x1b x00 x00 x00 x0c x00 x00 x00)) E)
(L (W xaa x01 x00 x00 xff xff xff xff)))
(T (W x49 xa1 x68 x4a xeb x5f xdd x3d)
(L (W x31 x88 xfc x22 xd2 x0a x94 x6c))
(L (W x45 x26 x22 x84 xe4 x9c xf2 xcb)))))
(T (W x00 x00 x00 x00 x00 x00 x00 x00)
(T (W xda x76 xff xff xdb x01 x00 x00)
(T (W x00 x00 x80 x3f x00 x00 x80 x3f)
(T (W x00 x00 x80 x3f x00 x00 x80 x3f)
(L (W xff xff xff xff xff xff xff xff)) E)
(L (W x45 x26 x22 x84 xe4 x9c xf2 xcb)))
(T (W x45 x26 x22 x84 xe4 x9c xf2 xcb)
(T (W xff xff xff xff xff xff xff xff)
(L (W x03 x00 x00 x00 xd0 x00 x00 x00)) E)
(L (W xda xe1 xfe xff x74 x00 x00 x00))))
(T (W x40 x00 x00 x00 x9c x00 x00 x00)
(T (W xff xff xff xff xff xff xff xff)
(T (W xff xff xff xff xff xff xff xff)
(L (W x00 x00 x80 xbf x00 x00 x80 xbf)) E)
(L (W x00 x00 x00 x00 x00 x00 x00 x00)))
(T (W xff xff xff xff xff xff xff xff)
(L (W x45 x26 x22 x84 xe4 x9c xf2 xcb))
(L (W x00 x00 x00 x00 x00 x00 x00 x00))))))
(T (W x00 x00 x80 x3f x00 x00 x80 x3f)
(T (W x00 x00 x00 x00 x00 x00 x00 x00)
(T (W xff xff xff xff xff xff xff xff)
(T (W x45 x26 x22 x84 xe4 x9c xf2 xcb)
(T (W xb8 x00 x00 x00 xac x00 x00 x00)
(L (W x92 x53 xff xff x78 x00 x00 x00)) E)
(L (W x45 x26 x22 x84 xe4 x9c xf2 xcb)))
(T (W x59 x55 xc1 xb1 x87 x7c xbf xc2)
(T (W x00 x00 x80 xbf x00 x00 x80 xbf)
(L (W x3c x00 x00 x00 x00 x00 x80 xbf)) E)
(L (W x00 x00 x80 xbf x00 x00 x80 xbf))))
(T (W x00 x00 x00 x00 x2c x15 xfc xff)
(T (W x00 x00 x00 x00 x2c x95 xfc xff)
(T (W x4e x4f x54 x5f x52 x45 x53 x50)
(L (W x00 x00 x80 xbf x00 x00 x80 xbf)) E)
(L (W x30 x35 x5f x43 x4c x45 x41 x52)))
(T (W xbc x16 xfd xff x00 x01 x01 x01)
(L (W x45 x26 x22 x84 xe4 x9c xf2 xcb))
(L (W x00 x00 x00 x00 x00 x00 x00 x00)))))
(T (W x00 x00 x00 x00 x00 x00 x00 x00)
(T (W xff xff xff xff xff xff xff xff)
(T (W x24 x00 x00 x00 x0c x00 x00 x00)
(T (W x45 x26 x22 x84 xe4 x9c xf2 xcb)
(L (W x00 x00 x00 x00 x22 x7d xff xff)) E)
(L (W xff xff xff xff xff xff xff xff)))
(T (W xff xff xff xff xff xff xff xff)
(T (W xff xff xff xff xff xff xff xff)
(L (W x06 x00 x07 x00 x00 x00 x00 x00)) E)
(L (W xff xff xff xff xff xff xff xff))))
(T (W x68 x00 x00 x00 x5c x00 x00 x00)
(T (W x00 x00 x00 x00 x12 x00 x00 x00)
(T (W x04 x00 x00 x00 x8a xb4 xfd xff)
(L (W x4f x84 x6f x8b xe8 xcb x63 xb7)) E)
(L (W x00 x00 x01 x01 xa8 x01 x00 x00)))
(T (W xd3 x48 x2b x97 x85 x97 x55 x5f)
(L (W xb0 x00 x00 x00 x64 x00 x00 x00))
(L (W x00 x00 x00 x00 x00 x00 x00 x00)))))))
(T (W x00 x00 x80 x3f x00 x00 x80 x3f)
(T (W x00 x00 x80 x3f x00 x00 x80 x3f)
(T (W x00 x00 x80 x3f x00 x00 x80 x3f)
(T (W x92 x3c xfe xff x00 x00 x01 x01)
(T (W x00 x00 x80 x3f x00 x00 x80 x3f)
(T (W xff xff xff xff xff xff xff xff)
(L (W x00 x00 x80 xbf x00 x00 x80 xbf)) E)
(L (W x18 x00 x00 x00 x0c x00 x00 x00)))
(T (W xff xff xff xff xff xff xff xff)
(T (W x6c x64 x5f x70 x6f x6b x65 x5f)
(L (W x00 x00 x80 xbf x00 x00 x80 xbf)) E)
(L (W x00 x00 x00 x00 x00 x00 x00 x00))))
(T (W x64 x00 x00 x00 x9c x00 x00 x00)
(T (W x00 x00 x80 x3f x00 x00 x80 x3f)
(T (W x22 xfb xff xff x5c x00 x00 x00)
(L (W x00 x00 x00 x00 x00 x00 x00 x00)) E)
(L (W x00 x00 x00 x00 x00 x00 x00 x00)))
(T (W x00 x00 x80 x3f x00 x00 x80 x3f)
(L (W x00 x00 x00 x00 x12 x00 x00 x00))
(L (W xff xff xff xff xff xff xff xff)))))
(T (W x00 x00 x00 x00 x00 x00 x00 x00)
(T (W x52 x80 xff xff x00 x00 x01 x01)
(T (W x00 x00 x00 x00 x00 x00 x64 x00)
(T (W x45 x26 x22 x84 xe4 x9c xf2 xcb)
(L (W xff xff xff xff xff xff xff xff)) E)
(L (W x03 x00 x00 x00 xd0 x00 x00 x00)))
(T (W xff xff xff xff xff xff xff xff)
(T (W xff xff xff xff xff xff xff xff)
(L (W xff xff xff xff xff xff xff xff)) E)
(L (W xc4 x00 x00 x00 x02 x00 x00 x00))))
(T (W x01 x00 x00 x00 x3e x00 x00 x00)
(T (W x00 x00 x00 x00 x00 x00 x00 x00)
(T (W x00 x00 x00 x00 x00 x00 x00 x00)
(L (W x00 x00 x00 x00 x00 x00 x00 x00)) E)
(L (W xff xff xff xff xff xff xff xff)))
(T (W x00 x00 x00 x00 x00 x00 x00 x00)
(L (W xbc x2e xfe xff x00 x01 x01 x01))
(L (W x00 x00 x00 x00 x00 x00 x00 x00))))))
(T (W x50 x00 x00 x00 x44 x00 x00 x00)
(T (W x00 x00 x00 x00 x00 x00 x00 x00)
(T (W x63 x01 x00 x00 xff xff xff xff)
(T (W x00 x00 x80 x3f x00 x00 x80 x3f)
(T (W x50 x00 x00 x00 x44 x00 x00 x00)
(L (W x18 x00 x00 x00 x10 x00 x00 x00)) E)
(L (W xc4 x00 x00 x00 x01 x00 x00 x00)))
(T (W x00 x00 x00 x00 x00 x00 x00 x00)
(T (W x00 x00 x80 xbf x00 x00 x80 xbf)
(L (W x45 x26 x22 x84 xe4 x9c xf2 xcb)) E)
(L (W x45 x26 x22 x84 xe4 x9c xf2 xcb))))
(T (W x18 x00 x00 x00 x0c x00 x00 x00)
(T (W xff xff xff xff xff xff xff xff)
(T (W x41 x00 x00 x00 x0c x00 x00 x00)
(L (W x00 x00 x80 xbf x00 x00 x80 xbf)) E)
(L (W x00 x00 x00 x00 x00 x00 x00 x00)))
(T (W xff xff xff xff xff xff xff xff)
(L (W x00 x00 x80 xbf x00 x00 x80 xbf))
(L (W x00 x00 x00 x00 xa2 x1f xff xff)))))
(T (W x00 x00 x00 x00 x00 x00 x00 x00)
(T (W xff xff xff xff xff xff xff xff)
(T (W x00 x00 x00 x00 x12 x00 x00 x00)
(T (W xff xff xff xff xff xff xff xff)
(L (W x00 x00 x00 x00 x00 x00 x00 x00)) E)
(L (W xff xff xff xff xff xff xff xff)))
(T (W x00 x00 x00 x00 x00 x00 x00 x00)
(T (W xff xff xff xff xff xff xff xff)
(L (W x00 x00 x80 xbf x00 x00 x80 xbf)) E)
(L (W xff xff xff xff xa8 x00 x00 x00))))
(T (W x92 x3b xfc xff x78 x00 x00 x00)
(T (W x00 x00 x00 x00 x00 x00 x00 x00)
(T (W x76 x31 x00 x00 x22 xc5 xfd xff)
(L (W x00 x00 x00 x00 x00 x00 x00 x00)) E)
(L (W x00 x00 x00 x00 x00 x00 x00 x00)))
(T (W x22 xab xff xff xcc x01 x00 x00)
(L (W xff xff xff xff xb0 x00 x00 x00))
(L (W x00 x00 x00 x00 x00 x00 x00 x00))))))))
(T (W xff xff xff xff xff xff xff xff)
(T (W xff xff xff xff xff xff xff xff)
(T (W x00 x00 x00 x00 x00 x00 x00 x00)
(T (W xff xff xff xff xff xff xff xff)
(T (W x40 x00 x00 x00 x9c x00 x00 x00)
(T (W x00 x00 x00 x00 x00 x00 x00 x00)
(T (W x45 x26 x22 x84 xe4 x9c xf2 xcb)
(L (W xc4 x00 x00 x00 x01 x00 x00 x00)) E)
(L (W x00 x00 x00 x00 x00 x00 x00 x00)))
(T (W x00 x00 x00 x00 x00 x00 x00 x00)
(T (W x00 x00 x80 x3f x00 x00 x80 x3f)
(L (W xff xff xff xff xff xff xff xff)) E)
(L (W x18 x00 x00 x00 x10 x00 x00 x00))))
(T (W x00 x00 x80 x3f x00 x00 x80 x3f)
(T (W xff xff xff xff xff xff xff xff)
(T (W x50 x00 x00 x00 x44 x00 x00 x00)
(L (W x45 x26 x22 x84 xe4 x9c xf2 xcb)) E)
(L (W x00 x00 x80 xbf x00 x00 x80 xbf)))
(T (W xff xff xff xff xff xff xff xff)
(L (W xda x05 xfe xff x74 x00 x00 x00))
(L (W x00 x00 x00 x00 x00 x00 x00 x00)))))
(T (W x64 x00 x00 x00 x9c x00 x00 x00)
(T (W x00 x00 x80 x3f x00 x00 x80 x3f)
(T (W xff xff xff xff xff xff xff xff)
(T (W xff xff xff xff xff xff xff xff)
(L (W x00 x00 x80 xbf x00 x00 x80 xbf)) E)
(L (W x00 x00 x00 x00 x00 x00 x00 x00)))
(T (W x00 x00 x00 x00 x00 x00 x00 x00)
(T (W x00 x00 x80 xbf x00 x00 x80 xbf)
(L (W x00 x00 x00 x00 x00 x00 x00 x00)) E)
(L (W x30 x35 x5f x43 x4c x45 x41 x52))))
(T (W x24 x2e xfc xff x3c x00 x00 x00)
(T (W x00 x00 x80 x3f x00 x00 x80 x3f)
(T (W x37 x00 x00 x00 x3a x00 x00 x00)
(L (W xff xff xff xff xff xff xff xff)) E)
(L (W xff xff xff xff xff xff xff xff)))
(T (W x45 x26 x22 x84 xe4 x9c xf2 xcb)
(L (W xff xff xff xff xff xff xff xff))
(L (W x54 x00 x00 x00 x48 x00 x00 x00))))))
(T (W xff xff xff xff xff xff xff xff)
(T (W xff xff xff xff xff xff xff xff)
(T (W x6c x00 x00 x00 x60 x00 x00 x00)
(T (W xff xff xff xff xff xff xff xff)
(T (W x00 x00 x00 x00 x00 x00 x00 x00)
(L (W x00 x00 x00 x00 x00 x00 x00 x00)) E)
(L (W x30 x35 x5f x43 x4c x45 x41 x52)))
(T (W x18 x00 x00 x00 x10 x00 x00 x00)
(T (W xff xff xff xff xff xff xff xff)
(L (W xff xff xff xff xff xff xff xff)) E)
(L (W xa9 x01 x00 x00 xff xff xff xff))))
(T (W x00 x00 x00 x00 x00 x00 x00 x00)
(T (W x00 x00 x00 x00 x00 x00 x00 x00)
(T (W x45 x26 x22 x84 xe4 x9c xf2 xcb)
(L (W xdd x00 x00 x00 xff xff xff xff)) E)
(L (W xff xff xff xff xb0 x00 x00 x00)))
(T (W x00 x00 x00 x00 x00 x00 x00 x00)
(L (W xff xff xff xff xff xff xff xff))
(L (W x00 x00 x80 xbf x00 x00 x80 xbf)))))
(T (W x45 x26 x22 x84 xe4 x9c xf2 xcb)
(T (W x45 x26 x22 x84 xe4 x9c xf2 xcb)
(T (W xff xff xff xff xa0 x00 x00 x00)
(T (W x00 x00 x80 x3f x00 x00 x80 x3f)
(L (W x54 x00 x00 x00 x48 x00 x00 x00)) E)
(L (W x4f x84 x6f x8b xe8 xcb x63 xb7)))
(T (W x00 x00 x80 x3f x00 x00 x80 x3f)
(T (W x45 x26 x22 x84 xe4 x9c xf2 xcb)
(L (W x00 x00 x80 xbf x00 x00 x80 xbf)) E)
(L (W x00 x00 x00 x00 x00 x00 x00 x00))))
(T (W xff xff xff xff xff xff xff xff)
(T (W x03 x00 x00 x00 xd0 x00 x00 x00)
(T (W x64 x5f x70 x6f x6b x65 x5f x77)
(L (W x00 x00 x00 x00 xc0 xba xff xff)) E)
(L (W x00 x00 x80 xbf x00 x00 x80 xbf)))
(T (W x00 x00 x80 x3f x00 x00 x80 x3f)
(L (W x00 x00 x80 xbf x00 x00 x80 xbf))
(L (W x74 x00 x00 x00 x68 x00 x00 x00)))))))
(T (W x01 x00 x00 x00 xff xff xff xff)
(T (W x1c x01 x00 x00 x04 x00 x00 x00)
(T (W xff xff xff xff xff xff xff xff)
(T (W x50 x00 x00 x00 x44 x00 x00 x00)
(T (W x20 x01 x00 x00 x04 x00 x00 x00)
(T (W x00 x00 x00 x00 x00 x00 x00 x00)
(L (W xff xff xff xff xff xff xff xff)) E)
(L (W x00 x00 x00 x00 x00 x00 x00 x00)))
(T (W x00 x00 x80 x3f x00 x00 x80 x3f)
(T (W xff xff xff xff x9c x00 x00 x00)
(L (W xff xff xff xff xff xff xff xff)) E)
(L (W xff xff xff xff xff xff xff xff))))
(T (W x00 x00 x00 x00 x00 x00 x00 x00)
(T (W x00 x00 x00 x00 x00 x00 x00 x00)
(T (W xff xff xff xff xff xff xff xff)
(L (W xff xff xff xff xff xff xff xff)) E)
(L (W x50 x00 x00 x00 x44 x00 x00 x00)))
(T (W x7a x64 xfe xff x9c x01 x00 x00)
(L (W xff xff xff xff xff xff xff xff))
(L (W x00 x00 x00 x00 x00 x00 x00 x00)))))
(T (W xda xad xfb xff x74 x00 x00 x00)
(T (W x00 x00 x00 x00 x00 x00 x00 x00)
(T (W x18 x00 x00 x00 x10 x00 x00 x00)
(T (W xff xff xff xff xff xff xff xff)
(L (W x00 x00 x80 xbf x00 x00 x80 xbf)) E)
(L (W x00 x00 x00 x00 x00 x00 x00 x00)))
(T (W x00 x00 x00 x00 x00 x00 x00 x00)
(T (W x00 x00 x80 xbf x00 x00 x80 xbf)
(L (W x00 x00 x80 xbf x00 x00 x80 xbf)) E)
(L (W x00 x00 x00 x00 x00 x00 x00 x00))))
(T (W x01 x00 x00 x00 x04 x00 x00 x00)
(T (W xda xad xfc xff x74 x00 x00 x00)
(T (W x00 x00 x00 x00 x00 x00 x00 x00)
(L (W xff xff xff xff xa0 x00 x00 x00)) E)
(L (W xbc xb2 xfe xff x00 x01 x01 x01)))
(T (W xbc x32 xfd xff x00 x01 x01 x01)
(L (W x00 x00 x00 x00 x00 x00 x00 x00))
(L (W x45 x26 x22 x84 xe4 x9c xf2 xcb))))))
(T (W xff xff xff xff xff xff xff xff)
(T (W xff xff xff xff xff xff xff xff)
(T (W x00 x00 x80 x3f x00 x00 x80 x3f)
(T (W xff xff xff xff xff xff xff xff)
(T (W x22 xcf xff xff x64 x01 x00 x00)
(L (W x00 x00 x00 x00 x00 x00 x00 x00)) E)
(L (W x00 x00 x00 x00 x00 x00 x00 x00)))
(T (W xff xff xff xff xff xff xff xff)
(T (W x46 x53 x59 x53 x5f x4e x53 x5f)
(L (W xff xff xff xff xff xff xff xff)) E)
(L (W x00 x00 x00 x00 x00 x00 x00 x00))))
(T (W x00 x00 x00 x00 x00 x00 x00 x00)
(T (W x00 x00 x80 x3f x00 x00 x80 x3f)
(T (W x54 xa9 xfd xff x37 x00 x00 x00)
(L (W x84 x04 x00 x00 x70 x03 x00 x00)) E)
(L (W xff xff xff xff x98 x00 x00 x00)))
(T (W x00 x00 x80 x3f x00 x00 x80 x3f)
(L (W x04 x00 x00 x00 xa2 x23 xfe xff))
(L (W x00 x00 x80 xbf x00 x00 x80 xbf)))))
(T (W x18 x00 x00 x00 x10 x00 x00 x00)
(T (W x00 x00 x80 x3f x00 x00 x80 x3f)
(T (W xff xff xff xff xff xff xff xff)
(T (W x50 x00 x00 x00 x44 x00 x00 x00)
(L (W xbc x82 xff xff x00 x01 x01 x01)) E)
(L (W x00 x00 x80 xbf x00 x00 x80 xbf)))
(T (W xb8 x00 x00 x00 x64 x00 x00 x00)
(T (W x00 x00 x80 xbf x00 x00 x80 xbf)
(L (W xff xff xff xff xff xff xff xff)) E)
(L (W x24 x00 x00 x00 x0c x00 x00 x00))))
(T (W x92 xb0 xfe xff x00 x00 x01 x01)
(T (W xff xff xff xff xff xff xff xff)
(T (W x00 x00 x80 x3f x00 x00 x80 x3f)
(L (W xff xff xff xff xff xff xff xff)) E)
(L (W x54 x00 x00 x00 x48 x00 x00 x00)))
(T (W x00 x00 x80 x3f x00 x00 x80 x3f)
(L (W x00 x00 x00 x00 x00 x00 x00 x00))
(L (W x18 x00 x00 x00 x10 x00 x00 x00))))))))))
(T (W x90 x8c x01 x00 x5c x8b x01 x00)
(T (W xa0 x58 x00 x00 x54 x56 x00 x00)
(T (W x00 x00 x00 x00 x00 x00 x00 x00)
(T (W x00 x00 x00 x00 x00 x00 x00 x00)
(T (W x00 x00 x00 x00 x00 x00 x00 x00)
(T (W x45 x26 x22 x84 xe4 x9c xf2 xcb)
(T (W xff xff xff xff xff xff xff xff)
(T (W x45 x26 x22 x84 xe4 x9c xf2 xcb)
(T (W xff xff xff xff xff xff xff xff)
(L (W x24 x00 x00 x00 x0c x00 x00 x00)) E)
(L (W x45 x26 x22 x84 xe4 x9c xf2 xcb)))
(T (W x45 x26 x22 x84 xe4 x9c xf2 xcb)
(T (W xff xff xff xff xff xff xff xff)
(L (W x00 x00 x00 x00 x00 x00 x00 x00)) E)
(L (W x45 x44 x00 x00 x00 x00 x00 x00))))
(T (W xbc x05 xfc xff x00 x01 x01 x01)
(T (W x00 x00 x00 x00 x00 x00 x00 x00)
(T (W xff xff xff xff xff xff xff xff)
(L (W xff xff xff xff xff xff xff xff)) E)
(L (W xff xff xff xff xff xff xff xff)))
(T (W x54 x0c xfd xff x10 x00 x00 x00)
(L (W xff xff xff xff xff xff xff xff))
(L (W x54 x00 x00 x00 x48 x00 x00 x00)))))
(T (W x00 x00 x00 x00 x00 x00 x00 x00)
(T (W xff xff xff xff xff xff xff xff)
(T (W x45 x26 x22 x84 xe4 x9c xf2 xcb)
(T (W x45 x26 x22 x84 xe4 x9c xf2 xcb)
(L (W x45 x26 x22 x84 xe4 x9c xf2 xcb)) E)
(L (W x00 x00 x80 xbf x00 x00 x80 xbf)))
(T (W x00 x00 x80 x3f x00 x00 x80 x3f)
(T (W x68 x00 x00 x00 x5c x00 x00 x00)
(L (W xa4 x00 x00 x00 x64 x00 x00 x00)) E)
(L (W x00 x00 x80 xbf x00 x00 x80 xbf))))
(T (W x45 x26 x22 x84 xe4 x9c xf2 xcb)
(T (W xff xff xff xff xff xff xff xff)
(T (W x45 x26 x22 x84 xe4 x9c xf2 xcb)
(L (W x00 x00 x80 xbf x00 x00 x80 xbf)) E)
(L (W x54 x02 x00 x00 x38 x01 x00 x00)))
(T (W xff xff xff xff xff xff xff xff)
(L (W x00 x00 x00 x00 x00 x00 x00 x00))
(L (W xff xff xff xff xff xff xff xff))))))
(T (W x00 x00 x80 x3f x00 x00 x80 x3f)
(T (W x00 x00 x00 x00 x00 x00 x00 x00)
(T (W xff xff xff xff xff xff xff xff)
(T (W x00 x00 x00 x00 x00 x00 x00 x00)
(T (W x50 x00 x00 x00 x44 x00 x00 x00)
(L (W x00 x00 x80 xbf x00 x00 x80 xbf)) E)
(L (W x6c x00 x00 x00 x60 x00 x00 x00)))
(T (W xff xff xff xff xff xff xff xff)
(T (W x00 x00 x00 x00 x00 x00 x00 x00)
(L (W x00 x00 x80 xbf x00 x00 x80 xbf)) E)
(L (W x00 x00 x00 x00 x00 x00 x00 x00))))
(T (W xda x10 xfc xff x74 x00 x00 x00)
(T (W x00 x00 x80 x3f x00 x00 x80 x3f)
(T (W xff xff xff xff xff xff xff xff)
(L (W x00 x00 x80 xbf x00 x00 x80 xbf)) E)
(L (W x00 x00 x01 x01 x18 x01 x00 x00)))
(T (W x50 x00 x00 x00 x44 x00 x00 x00)
(L (W x00 x00 x00 x00 x00 x00 x00 x00))
(L (W xff xff xff xff xff xff xff xff)))))
(T (W x40 x00 x00 x00 x10 x00 x00 x00)
(T (W xff xff xff xff xff xff xff xff)
(T (W xff xff xff xff xff xff xff xff)
(T (W x00 x00 x00 x00 x00 x00 x00 x00)
(L (W xff xff xff xff xff xff xff xff)) E)
(L (W x18 x00 x00 x00 x0c x00 x00 x00)))
(T (W xff xff xff xff xff xff xff xff)
(T (W xff xff xff xff xff xff xff xff)
(L (W xff xff xff xff xff xff xff xff)) E)
(L (W xff xff xff xff xa8 x00 x00 x00))))
(T (W x00 x00 x80 x3f x00 x00 x80 x3f)
(T (W x00 x00 x00 x00 x00 x00 x00 x00)
(T (W x50 x00 x00 x00 x44 x00 x00 x00)
(L (W x24 xb9 xff xff x18 x00 x00 x00)) E)
(L (W xff xff xff xff xff xff xff xff)))
(T (W xff xff xff xff xff xff xff xff)
(L (W xbc x35 xfe xff x00 x01 x01 x01))
(L (W xa8 xe9 x39 xdc x00 x60 x48 x2f)))))))
(T (W x00 x00 x00 x00 x00 x00 x00 x00)
(T (W x00 x00 x80 x3f x00 x00 x80 x3f)
(T (W x00 x00 x00 x00 x00 x00 x00 x00)
(T (W xff xff xff xff xff xff xff xff)
(T (W x00 x00 x00 x00 x00 x00 x00 x00)
(T (W xb8 x00 x00 x00 xac x00 x00 x00)
(L (W x00 x00 x00 x00 x00 x00 x00 x00)) E)
(L (W x92 x4a xfe xff x78 x00 x00 x00)))
(T (W x00 x00 x00 x00 x2c xcc xfc xff)
(T (W xff xff xff xff xff xff xff xff)
(L (W x4f x84 x6f x8b xe8 xcb x63 xb7)) E)
(L (W x24 x00 x00 x00 x0c x00 x00 x00))))
(T (W x50 x00 x00 x00 x44 x00 x00 x00)
(T (W x45 x26 x22 x84 xe4 x9c xf2 xcb)
(T (W xff xff xff xff xff xff xff xff)
(L (W x70 xe5 xaf x28 xbf x50 x5d x6a)) E)
(L (W xff xff xff xff xff xff xff xff)))
(T (W x00 x00 x00 x00 x00 x00 x00 x00)
(L (W x00 x00 x00 x00 x00 x00 x00 x00))
(L (W x2f x00 x00 x00 x32 x00 x00 x00)))))
(T (W x00 x00 x00 x00 x00 x00 x00 x00)
(T (W xff xff xff xff xff xff xff xff)
(T (W x00 x00 x80 x3f x00 x00 x80 x3f)
(T (W x00 x00 x00 x00 x00 x00 x00 x00)
(L (W xff xff xff xff xff xff xff xff)) E)
(L (W x2f x00 x00 x00 x32 x00 x00 x00)))
(T (W x68 x00 x00 x00 x5c x00 x00 x00)
(T (W xff xff xff xff xb0 x00 x00 x00)
(L (W xff xff xff xff xff xff xff xff)) E)
(L (W x45 x26 x22 x84 xe4 x9c xf2 xcb))))
(T (W x00 x00 x80 x3f x00 x00 x80 x3f)
(T (W xff xff xff xff xff xff xff xff)
(T (W x45 x44 x00 x00 x00 x00 x00 x00)
(L (W x5c x00 x60 x00 x00 x00 x00 x00)) E)
(L (W x00 x00 x80 x3f x00 x00 x80 xbf)))
(T (W x04 x00 x00 x00 xd2 xb7 xff xff)
(L (W x00 x00 x80 xbf x00 x00 x80 xbf))
(L (W x00 x00 x00 x00 x00 x00 x00 x00))))))
(T (W x00 x00 x00 x00 x00 x00 x00 x00)
(T (W x40 x00 x00 x00 x0c x00 x00 x00)
(T (W xff xff xff xff xff xff xff xff)
(T (W x45 x26 x22 x84 xe4 x9c xf2 xcb)
(T (W x00 x00 x80 x3f x00 x00 x80 x3f)
(L (W x54 x00 x00 x00 x48 x00 x00 x00)) E)
(L (W x50 x00 x00 x00 x44 x00 x00 x00)))
(T (W x00 x00 x00 x00 x00 x00 x00 x00)
(T (W x00 x00 x80 xbf x00 x00 x80 xbf)
(L (W x00 x00 x00 x00 x00 x00 x00 x00)) E)
(L (W x45 x26 x22 x84 xe4 x9c xf2 xcb))))
(T (W x00 x00 x00 x00 x2c x1c xfc xff)
(T (W xff xff xff xff xa0 x00 x00 x00)
(T (W xff xff xff xff xff xff xff xff)
(L (W x00 x00 x80 xbf x00 x00 x80 xbf)) E)
(L (W x00 x00 x00 x00 x00 x00 x00 x00)))
(T (W x2b x00 x00 x00 x2e x00 x00 x00)
(L (W x00 x00 x80 xbf x00 x00 x80 xbf))
(L (W x64 x01 x00 x00 xff xff xff xff)))))
(T (W x92 x2b xfe xff x00 x00 x01 x01)
(T (W x64 x00 x00 x00 x9c x00 x00 x00)
(T (W x00 x00 x00 x00 x8a x7b xfc xff)
(T (W xff xff xff xff xff xff xff xff)
(L (W xff xff xff xff xff xff xff xff)) E)
(L (W xff xff xff xff xc0 x00 x00 x00)))
(T (W x42 x50 xfd xff x9d x01 x00 x00)
(T (W x03 x00 x00 x00 xd4 x00 x00 x00)
(L (W x00 x00 x00 x00 x00 x00 x00 x00)) E)
(L (W x00 x00 x80 xbf x00 x00 x80 xbf))))
(T (W x00 x00 x80 x3f x00 x00 x80 x3f)
(T (W x00 x00 x00 x00 x12 x00 x00 x00)
(T (W xff xff xff xff xd8 x00 x00 x00)
(L (W x45 x44 x00 x00 x00 x00 x00 x00)) E)
(L (W xff xff xff xff xff xff xff xff)))
(T (W xff xff xff xff xff xff xff xff)
(L (W x45 x26 x22 x84 xe4 x9c xf2 xcb))
(L (W x45 x44 x00 x00 x00 x00 x00 x00))))))))
(T (W xb8 x00 x00 x00 xac x00 x00 x00)
(T (W xff xff xff xff xff xff xff xff)
(T (W x44 x00 x48 x00 x4c x00 x50 x00)
(T (W xb8 x00 x00 x00 xac x00 x00 x00)
(T (W x00 x00 x80 x3f x00 x00 x80 x3f)
(T (W xff xff xff xff xff xff xff xff)
(T (W x00 x00 x00 x00 x00 x00 x00 x00)
(L (W x50 x00 x00 x00 x44 x00 x00 x00)) E)
(L (W xff xff xff xff xff xff xff xff)))
(T (W x04 x00 x00 x00 x9a xce xfc xff)
(T (W x45 x26 x22 x84 xe4 x9c xf2 xcb)
(L (W x18 x00 x00 x00 x10 x00 x00 x00)) E)
(L (W x54 x00 x00 x00 x48 x00 x00 x00))))
(T (W x00 x00 x00 x00 x00 x00 x00 x00)
(T (W xff xff xff xff xff xff xff xff)
(T (W x00 x00 x80 x3f x00 x00 x80 x3f)
(L (W x54 x00 x00 x00 x48 x00 x00 x00)) E)
(L (W x45 x26 x22 x84 xe4 x9c xf2 xcb)))
(T (W x18 x00 x00 x00 x10 x00 x00 x00)
(L (W x00 x00 x80 xbf x00 x00 x80 xbf))
(L (W x8d xf5 x39 xdc x00 x67 x48 x2f)))))
(T (W x45 x26 x22 x84 xe4 x9c xf2 xcb)
(T (W x00 x00 x00 x00 x00 x00 x00 x00)
(T (W x45 x26 x22 x84 xe4 x9c xf2 xcb)
(T (W xff xff xff xff xff xff xff xff)
(L (W x00 x00 x00 x00 x00 x00 x00 x00)) E)
(L (W x00 x00 x00 x00 x00 x00 x00 x00)))
(T (W x80 x03 x00 x00 x54 x02 x00 x00)
(T (W x00 x00 x00 x00 x00 x00 x00 x00)
(L (W x00 x00 x00 x00 x00 x00 x00 x00)) E)
(L (W x00 x00 x01 x01 x6c x00 x00 x00))))
(T (W xff xff xff xff xff xff xff xff)
(T (W x00 x00 x00 x00 x00 x00 x00 x00)
(T (W x00 x00 x80 xbf x00 x00 x80 xbf)
(L (W xff xff xff xff xff xff xff xff)) E)
(L (W x50 x00 x00 x00 x44 x00 x00 x00)))
(T (W x00 x00 x80 x3f x00 x00 x80 x3f)
(L (W xff xff xff xff xff xff xff xff))
(L (W x00 x00 x80 xbf x00 x00 x80 xbf))))))
(T (W xff xff xff xff x04 x00 x00 x00)
(T (W xff xff xff xff x03 x00 x00 x00)
(T (W x00 x00 x80 x3f x00 x00 x80 x3f)
(T (W xff xff xff xff xff xff xff xff)
(T (W x22 xc6 xff xff x6a x01 x00 x00)
(L (W x45 x44 x00 x00 x00 x00 x00 x00)) E)
(L (W x00 x00 x01 x01 xdd x00 x00 x00)))
(T (W x00 x00 x80 x3f x00 x00 x80 x3f)
(T (W xff xff xff xff xff xff xff xff)
(L (W xff xff xff xff xc8 x00 x00 x00)) E)
(L (W xff xff xff xff xff xff xff xff))))
(T (W x54 x20 xfc xff x3e x00 x00 x00)
(T (W x00 x00 x00 x00 x00 x00 x00 x00)
(T (W x00 x00 x00 x00 x00 x00 x00 x00)
(L (W xff xff xff xff xff xff xff xff)) E)
(L (W x00 x00 x00 x00 x2c x98 xfe xff)))
(T (W x4c x45 x41 x52 x45 x44 x00 x00)
(L (W xff xff xff xff xff xff xff xff))
(L (W x00 x00 x80 xbf x00 x00 x80 xbf)))))
(T (W xda xb4 xfb xff x74 x00 x00 x00)
(T (W x00 x00 x00 x00 x00 x00 x00 x00)
(T (W x92 x76 xfc xff x78 x00 x00 x00)
(T (W x45 x26 x22 x84 xe4 x9c xf2 xcb)
(L (W x00 x00 x80 xbf x00 x00 x80 xbf)) E)
(L (W x00 x00 x00 x00 x00 x00 x00 x00)))
(T (W x00 x00 x80 x3f x00 x00 x80 x3f)
(T (W x00 x00 x00 x00 x00 x00 x00 x00)
(L (W x1c x00 x20 x00 x24 x00 x28 x00)) E)
(L (W x34 x00 x00 x00 x0c x00 x00 x00))))
(T (W xff xff xff xff xff xff xff xff)
(T (W x18 x00 x00 x00 x10 x00 x00 x00)
(T (W xff xff xff xff xff xff xff xff)
(L (W x54 x00 x00 x00 x48 x00 x00 x00)) E)
(L (W x4f x84 x6f x8b xe8 xcb x63 xb7)))
(T (W x00 x00 x80 x3f x00 x00 x80 x3f)
(L (W x00 x00 x00 x00 x00 x00 x00 x00))
(L (W x00 x00 x80 xbf x00 x00 x80 xbf)))))))
(T (W xff xff xff xff xff xff xff xff)
(T (W xff xff xff xff xff xff xff xff)
(T (W xc0 x00 x00 x00 xb4 x00 x00 x00)
(T (W x00 x00 x80 x3f x00 x00 x80 x3f)
(T (W xff xff xff xff xff xff xff xff)
(T (W x00 x00 x00 x00 x00 x00 x00 x00)
(L (W xff xff xff xff xff xff xff xff)) E)
(L (W x00 x00 x00 x00 xc2 x4d xfe xff)))
(T (W x00 x00 x00 x00 x00 x00 x00 x00)
(T (W x92 xce xfd xff x78 x00 x00 x00)
(L (W x03 x00 x00 x00 xd8 x00 x00 x00)) E)
(L (W x18 x00 x00 x00 x10 x00 x00 x00))))
(T (W x00 x00 x00 x00 x00 x00 x00 x00)
(T (W x6a x01 x00 x00 xff xff xff xff)
(T (W x45 x26 x22 x84 xe4 x9c xf2 xcb)
(L (W xda x8c xff xff x74 x00 x00 x00)) E)
(L (W x00 x00 x80 xbf x00 x00 x80 xbf)))
(T (W xff xff xff xff xff xff xff xff)
(L (W xda x0c xfe xff x74 x00 x00 x00))
(L (W x46 x53 x59 x53 x5f x4e x53 x5f)))))
(T (W x68 x00 x00 x00 x5c x00 x00 x00)
(T (W x00 x00 x00 x00 x00 x00 x00 x00)
(T (W x45 x26 x22 x84 xe4 x9c xf2 xcb)
(T (W xb8 x00 x00 x00 xac x00 x00 x00)
(L (W x00 x00 x80 xbf x00 x00 x80 xbf)) E)
(L (W x00 x00 x00 x00 x00 x00 x00 x00)))
(T (W x12 x00 x00 x00 x46 x53 x59 x53)
(T (W x00 x00 x00 x00 x00 x00 x00 x00)
(L (W x00 x00 x80 xbf x00 x00 x80 xbf)) E)
(L (W x00 x00 x00 x00 x00 x00 x00 x00))))
(T (W xff xff xff xff xff xff xff xff)
(T (W x00 x00 x80 x3f x00 x00 x80 x3f)
(T (W xff xff xff xff xff xff xff xff)
(L (W x92 xae xff xff x78 x00 x00 x00)) E)
(L (W x45 x26 x22 x84 xe4 x9c xf2 xcb)))
(T (W x00 x00 x80 x3f x00 x00 x80 x3f)
(L (W x45 x44 x00 x00 x00 x00 x00 x00))
(L (W x00 x00 x80 xbf x00 x00 x80 xbf))))))
(T (W x18 x00 x00 x00 x10 x00 x00 x00)
(T (W x00 x00 x00 x00 x2c xa0 xfb xff)
(T (W x00 x00 x00 x00 x00 x00 x00 x00)
(T (W xb8 x00 x00 x00 xac x00 x00 x00)
(T (W xff xff xff xff xff xff xff xff)
(L (W x00 x00 x00 x00 x00 x00 x00 x00)) E)
(L (W x00 x00 x00 x00 x00 x00 x00 x00)))
(T (W xff xff xff xff xff xff xff xff)
(T (W x04 x00 x00 x00 x22 xe8 xfd xff)
(L (W xff xff xff xff xff xff xff xff)) E)
(L (W xa9 x01 x00 x00 xff xff xff xff))))
(T (W x01 x00 x00 x00 x04 x00 x00 x00)
(T (W x00 x00 x00 x00 x00 x00 x00 x00)
(T (W xff xff xff xff xff xff xff xff)
(L (W xff xff xff xff xff xff xff xff)) E)
(L (W x74 x00 x00 x00 x68 x00 x00 x00)))
(T (W x00 x00 x00 x00 x00 x00 x00 x00)
(L (W xff xff xff xff xff xff xff xff))
(L (W x4f x84 x6f x8b xe8 xcb x63 xb7)))))
(T (W xbc xc1 xfb xff x00 x01 x01 x01)
(T (W x45 x26 x22 x84 xe4 x9c xf2 xcb)
(T (W x00 x00 x00 x00 x2c x80 xfc xff)
(T (W x00 x00 x00 x00 x00 x00 x00 x00)
(L (W x00 x00 x80 xbf x00 x00 x80 xbf)) E)
(L (W x00 x00 x00 x00 x00 x00 x00 x00)))
(T (W xbc x01 xfd xff x00 x01 x01 x01)
(T (W x00 x00 x00 x00 x00 x00 x00 x00)
(L (W x00 x00 x80 xbf x00 x00 x80 xbf)) E)
(L (W xff xff xff xff xff xff xff xff))))
(T (W xff xff xff xff xff xff xff xff)
(T (W xff xff xff xff xff xff xff xff)
(T (W x00 x00 x80 x3f x00 x00 x80 x3f)
(L (W x2b x00 x00 x00 x2e x00 x00 x00)) E)
(L (W x00 x00 x80 xbf x00 x00 x80 xbf)))
(T (W x45 x26 x22 x84 xe4 x9c xf2 xcb)
(L (W x30 x35 x5f x43 x4c x45 x41 x52))
(L (W x54 x00 x00 x00 x48 x00 x00 x00)))))))))
(T (W xc8 x02 x00 x00 xff xff xff xff)
(T (W x92 x4c xfb xff x78 x00 x00 x00)
(T (W x00 x00 x80 x3f x00 x00 x80 x3f)
(T (W xda x62 xfb xff x74 x00 x00 x00)
(T (W xbc x87 xfb xff x00 x01 x01 x01)
(T (W x00 x00 x00 x00 x00 x00 x00 x00)
(T (W x18 x00 x00 x00 x0c x00 x00 x00)
(T (W x22 xb4 xff xff xbc x01 x00 x00)
(L (W x45 x26 x22 x84 xe4 x9c xf2 xcb)) E)
(L (W xff xff xff xff xff xff xff xff)))
(T (W x18 x00 x00 x00 x10 x00 x00 x00)
(T (W x00 x00 x00 x00 x00 x00 x00 x00)
(L (W x00 x00 x80 xbf x00 x00 x80 xbf)) E)
(L (W x4f x84 x6f x8b xe8 xcb x63 xb7))))
(T (W xd9 x01 x00 x00 xff xff xff xff)
(T (W x6c x00 x00 x00 x60 x00 x00 x00)
(T (W x00 x00 x00 x00 x00 x00 x00 x00)
(L (W x4f x84 x6f x8b xe8 xcb x63 xb7)) E)
(L (W x00 x00 x00 x00 x00 x00 x00 x00)))
(T (W x00 x00 x80 x3f x00 x00 x80 x3f)
(L (W x00 x00 x00 x00 x00 x00 x00 x00))
(L (W xcc x00 x00 x00 x01 x00 x00 x00)))))
(T (W x00 x00 x00 x00 x00 x00 x00 x00)
(T (W x00 x00 x00 x00 x00 x00 x00 x00)
(T (W x00 x00 x80 x3f x00 x00 x80 x3f)
(T (W x50 x00 x00 x00 x44 x00 x00 x00)
(L (W x00 x00 x00 x00 x00 x00 x00 x00)) E)
(L (W xff xff xff xff xff xff xff xff)))
(T (W xc0 x00 x00 x00 x01 x00 x00 x00)
(T (W x00 x00 x00 x00 xc2 xe3 xfd xff)
(L (W xff xff xff xff xff xff xff xff)) E)
(L (W xff xff xff xff xff xff xff xff))))
(T (W xff xff xff xff x03 x00 x00 x00)
(T (W x00 x00 x00 x00 x00 x00 x00 x00)
(T (W x04 x00 x00 x00 x22 xae xfd xff)
(L (W x92 xa4 xff xff x78 x00 x00 x00)) E)
(L (W x45 x26 x22 x84 xe4 x9c xf2 xcb)))
(T (W x30 x35 x5f x43 x4c x45 x41 x52)
(L (W x00 x00 x80 xbf x00 x00 x80 xbf))
(L (W x00 x00 x00 x00 x00 x00 x00 x00))))))
(T (W x68 x00 x00 x00 x5c x00 x00 x00)
(T (W x00 x00 x80 x3f x00 x00 x80 x3f)
(T (W x3e x00 x00 x00 x0c x00 x00 x00)
(T (W x00 x00 x80 x3f x00 x00 x80 x3f)
(T (W xff xff xff xff xff xff xff xff)
(L (W xff xff xff xff x9c x00 x00 x00)) E)
(L (W xff xff xff xff xb0 x00 x00 x00)))
(T (W x00 x00 x00 x00 x00 x00 x00 x00)
(T (W x00 x00 x80 xbf x00 x00 x80 xbf)
(L (W x6c x00 x00 x00 x60 x00 x00 x00)) E)
(L (W x45 x26 x22 x84 xe4 x9c xf2 xcb))))
(T (W xff xff xff xff xff xff xff xff)
(T (W xff xff xff xff xff xff xff xff)
(T (W xff xff xff xff xff xff xff xff)
(L (W xbc x97 xff xff x00 x01 x01 x01)) E)
(L (W x00 x00 x00 x00 x00 x00 x00 x00)))
(T (W xb0 x00 x00 x00 x64 x00 x00 x00)
(L (W x00 x00 x80 xbf x00 x00 x80 xbf))
(L (W x00 x00 x00 x00 x00 x00 x00 x00)))))
(T (W x00 x00 x00 x00 x00 x00 x00 x00)
(T (W x00 x00 x00 x00 x04 x00 x00 x00)
(T (W x00 x00 x00 x00 x00 x00 x00 x00)
(T (W x00 x00 x58 x00 x00 x00 x00 x00)
(L (W x46 x53 x59 x53 x5f x4e x53 x5f)) E)
(L (W xff xff xff xff xff xff xff xff)))
(T (W x01 x06 x03 x1d x69 xd3 xed xbd)
(T (W x00 x00 x00 x00 x9a xfc xfd xff)
(L (W x00 x00 x80 xbf x00 x00 x80 xbf)) E)
(L (W xff xff xff xff xff xff xff xff))))
(T (W xff xff xff xff xff xff xff xff)
(T (W x00 x00 x00 x00 x00 x00 x00 x00)
(T (W x00 x00 x00 x00 x12 x00 x00 x00)
(L (W x00 x00 x80 xbf x00 x00 x80 xbf)) E)
(L (W x30 x35 x5f x43 x4c x45 x41 x52)))
(T (W x00 x00 x00 x00 x00 x00 x00 x00)
(L (W xff xff xff xff xff xff xff xff))
(L (W x45 x26 x22 x84 xe4 x9c xf2 xcb)))))))
(T (W xda x5a xfb xff x74 x00 x00 x00)
(T (W x00 x00 x80 x3f x00 x00 x80 x3f)
(T (W x00 x00 x80 x3f x00 x00 x80 x3f)
(T (W x00 x00 x00 x00 x00 x00 x00 x00)
(T (W x68 x00 x00 x00 x5c x00 x00 x00)
(T (W xff xff xff xff xff xff xff xff)
(L (W x00 x00 x80 xbf x00 x00 x80 xbf)) E)
(L (W xff xff xff xff xff xff xff xff)))
(T (W xff xff xff xff xff xff xff xff)
(T (W x00 x00 x80 x3f x00 x00 x80 x3f)
(L (W x54 x00 x00 x00 x48 x00 x00 x00)) E)
(L (W x00 x00 x80 xbf x00 x00 x80 xbf))))
(T (W xff xff xff xff xff xff xff xff)
(T (W x00 x00 x00 x00 x2c x8e xfc xff)
(T (W x00 x00 x00 x00 x00 x00 x00 x00)
(L (W x00 x00 x80 xbf x00 x00 x80 xbf)) E)
(L (W x00 x00 x00 x00 x12 x00 x00 x00)))
(T (W x18 x00 x00 x00 x0c x00 x00 x00)
(L (W x00 x00 x00 x00 x00 x00 x00 x00))
(L (W xff xff xff xff xff xff xff xff)))))
(T (W x00 x00 x00 x00 x00 x00 x00 x00)
(T (W x00 x00 x00 x00 x00 x00 x00 x00)
(T (W x00 x00 x00 x00 x00 x00 x00 x00)
(T (W x00 x00 x80 x3f x00 x00 x80 x3f)
(L (W x17 x00 x00 x00 x0c x00 x00 x00)) E)
(L (W xff xff xff xff xff xff xff xff)))
(T (W xff xff xff xff xff xff xff xff)
(T (W xff xff xff xff xff xff xff xff)
(L (W xcc xd7 xac x28 xbf xd1 x59 x6a)) E)
(L (W xff xff xff xff xff xff xff xff))))
(T (W xff xff xff xff xff xff xff xff)
(T (W x00 x00 x00 x00 x12 x00 x00 x00)
(T (W x00 x00 x80 x3f x00 x00 x80 x3f)
(L (W x00 x00 x80 xbf x00 x00 x80 xbf)) E)
(L (W x30 x00 x00 x00 x0c x00 x00 x00)))
(T (W x00 x00 x00 x00 x00 x00 x00 x00)
(L (W xb0 x00 x00 x00 x64 x00 x00 x00))
(L (W x00 x00 x00 x00 x00 x00 x00 x00))))))
(T (W xda x7a xfb xff x74 x00 x00 x00)
(T (W x00 x00 x80 x3f x00 x00 x80 x3f)
(T (W x00 x00 x00 x00 x00 x00 x00 x00)
(T (W x00 x00 x80 x3f x00 x00 x80 x3f)
(T (W xb8 x00 x00 x00 xac x00 x00 x00)
(L (W xff xff xff xff xff xff xff xff)) E)
(L (W xff xff xff xff xff xff xff xff)))
(T (W x00 x00 x80 x3f x00 x00 x80 x3f)
(T (W xff xff xff xff xb0 x00 x00 x00)
(L (W x54 x00 x00 x00 x48 x00 x00 x00)) E)
(L (W xff xff xff xff xc8 x00 x00 x00))))
(T (W x64 x00 x00 x00 x9c x00 x00 x00)
(T (W xff xff xff xff xff xff xff xff)
(T (W x68 x00 x00 x00 x5c x00 x00 x00)
(L (W x00 x00 x00 x00 x2c x9e xff xff)) E)
(L (W x00 x00 x80 xbf x00 x00 x80 xbf)))
(T (W xff xff xff xff xff xff xff xff)
(L (W x92 x1c xfe xff x78 x00 x00 x00))
(L (W x46 x53 x59 x53 x5f x4e x53 x5f)))))
(T (W x45 x26 x22 x84 xe4 x9c xf2 xcb)
(T (W xff xff xff xff xff xff xff xff)
(T (W x45 x26 x22 x84 xe4 x9c xf2 xcb)
(T (W x92 xed xff xff x00 x00 x01 x01)
(L (W x00 x00 x00 x00 x00 x00 x00 x00)) E)
(L (W xff xff xff xff xff xff xff xff)))
(T (W x00 x00 x00 x00 x00 x00 x00 x00)
(T (W x3a x02 x00 x00 xff xff xff xff)
(L (W xff xff xff xff xff xff xff xff)) E)
(L (W xff xff xff xff xff xff xff xff))))
(T (W x45 x26 x22 x84 xe4 x9c xf2 xcb)
(T (W x00 x00 x80 x3f x00 x00 x80 x3f)
(T (W x46 x53 x59 x53 x5f x4e x53 x5f)
(L (W x4f x84 x6f x8b xe8 xcb x63 xb7)) E)
(L (W x00 x00 x00 x00 x00 x00 x00 x00)))
(T (W x00 x00 x00 x00 x00 x00 x00 x00)
(L (W xff xff xff xff xff xff xff xff))
(L (W x4f x84 x6f x8b xe8 xcb x63 xb7))))))))
(T (W xff xff xff xff xff xff xff xff)
(T (W xff xff xff xff xff xff xff xff)
(T (W xff xff xff xff xff xff xff xff)
(T (W xff xff xff xff xff xff xff xff)
(T (W xc0 x00 x00 x00 xb4 x00 x00 x00)
(T (W x00 x00 x00 x00 x00 x00 x00 x00)
(T (W x00 x00 x80 x3f x00 x00 x80 x3f)
(L (W xff xff xff xff xff xff xff xff)) E)
(L (W x00 x00 x00 x00 x00 x00 x00 x00)))
(T (W x00 x00 x00 x00 x00 x00 x00 x00)
(T (W x6c x00 x00 x00 x60 x00 x00 x00)
(L (W x45 x44 x00 x00 x00 x00 x00 x00)) E)
(L (W x03 x00 x00 x00 xd8 x00 x00 x00))))
(T (W x00 x00 x80 x3f x00 x00 x80 x3f)
(T (W x39 x34 xa4 xf1 x93 x26 x82 x3c)
(T (W xb8 x00 x00 x00 xac x00 x00 x00)
(L (W xc8 x00 x00 x00 x01 x00 x00 x00)) E)
(L (W x68 x00 x00 x00 x5c x00 x00 x00)))
(T (W x00 x00 x00 x00 x00 x00 x00 x00)
(L (W xff xff xff xff xff xff xff xff))
(L (W x45 x26 x22 x84 xe4 x9c xf2 xcb)))))
(T (W xff xff xff xff xff xff xff xff)
(T (W x50 x00 x00 x00 x44 x00 x00 x00)
(T (W x92 xd9 xfe xff x00 x00 x01 x01)
(T (W x22 xd8 xff xff x18 x01 x00 x00)
(L (W x00 x00 x80 xbf x00 x00 x80 xbf)) E)
(L (W x45 x26 x22 x84 xe4 x9c xf2 xcb)))
(T (W x00 x00 x80 x3f x00 x00 x80 x3f)
(T (W x00 x00 x80 xbf x00 x00 x80 xbf)
(L (W x00 x00 x80 xbf x00 x00 x80 xbf)) E)
(L (W x00 x00 x00 x00 x00 x00 x00 x00))))
(T (W x00 x00 x00 x00 x00 x00 x00 x00)
(T (W xda xa6 xfc xff x74 x00 x00 x00)
(T (W xff xff xff xff xff xff xff xff)
(L (W x6e xf6 xaf x28 xbf x5a x5d x6a)) E)
(L (W xff xff xff xff xff xff xff xff)))
(T (W xc0 x00 x00 x00 x01 x00 x00 x00)
(L (W xff xff xff xff xff xff xff xff))
(L (W x45 x26 x22 x84 xe4 x9c xf2 xcb))))))
(T (W x40 x00 x00 x00 x10 x00 x00 x00)
(T (W xff xff xff xff xff xff xff xff)
(T (W x00 x00 x00 x00 x2c xda xfb xff)
(T (W xa3 x16 x92 xb6 x8b xaf x36 x26)
(T (W x00 x00 x00 x00 x00 x00 x00 x00)
(L (W x4f x84 x6f x8b xe8 xcb x63 xb7)) E)
(L (W x00 x00 x00 x00 x00 x00 x00 x00)))
(T (W xff xff xff xff xff xff xff xff)
(T (W x00 x00 x00 x00 x00 x00 x00 x00)
(L (W x00 x00 x00 x00 x02 xdb xff xff)) E)
(L (W x00 x00 x00 x00 x00 x00 x00 x00))))
(T (W x45 x26 x22 x84 xe4 x9c xf2 xcb)
(T (W x45 x26 x22 x84 xe4 x9c xf2 xcb)
(T (W x50 x00 x00 x00 x44 x00 x00 x00)
(L (W x00 x00 x00 x00 x00 x00 x00 x00)) E)
(L (W xff xff xff xff xff xff xff xff)))
(T (W x49 xa1 x68 x4a xeb x5f xdd x3d)
(L (W x3e x00 x00 x00 x0c x00 x00 x00))
(L (W x00 x00 x00 x00 x2c x1a xff xff)))))
(T (W x18 x00 x00 x00 x10 x00 x00 x00)
(T (W x00 x00 x80 x3f x00 x00 x80 x3f)
(T (W xff xff xff xff xff xff xff xff)
(T (W x68 x00 x00 x00 x5c x00 x00 x00)
(L (W x92 x78 xff xff x78 x00 x00 x00)) E)
(L (W x00 x00 x80 xbf x00 x00 x80 xbf)))
(T (W x00 x00 x00 x00 x2c xfa xfc xff)
(T (W x00 x00 x80 xbf x00 x00 x80 xbf)
(L (W xff xff xff xff xff xff xff xff)) E)
(L (W x00 x00 x00 x00 x00 x00 x00 x00))))
(T (W x24 x3f xfc xff x3c x00 x00 x00)
(T (W xff xff xff xff xff xff xff xff)
(T (W x00 x00 x80 x3f x00 x00 x80 x3f)
(L (W xb0 x00 x00 x00 x64 x00 x00 x00)) E)
(L (W x2f x00 x00 x00 x32 x00 x00 x00)))
(T (W x01 x00 x00 x00 xa0 x00 x00 x00)
(L (W x3c x00 x00 x00 x00 x00 x80 xbf))
(L (W xff xff xff xff x94 x00 x00 x00)))))))
(T (W x00 x00 x00 x00 x00 x00 x00 x00)
(T (W x00 x00 x00 x00 x00 x00 x00 x00)
(T (W xff xff xff xff xff xff xff xff)
(T (W xff xff xff xff x03 x00 x00 x00)
(T (W x00 x00 x00 x00 x00 x00 x00 x00)
(T (W x45 x26 x22 x84 xe4 x9c xf2 xcb)
(L (W x00 x00 x00 x00 x00 x00 x00 x00)) E)
(L (W x00 x00 x80 xbf x00 x00 x80 xbf)))
(T (W x68 x00 x00 x00 x5c x00 x00 x00)
(T (W xff xff xff xff xff xff xff xff)
(L (W x18 x00 x00 x00 x0c x00 x00 x00)) E)
(L (W x00 x00 x00 x00 x00 x00 x00 x00))))
(T (W x00 x00 x80 x3f x00 x00 x80 x3f)
(T (W x00 x00 x00 x00 x00 x00 x00 x00)
(T (W x20 x00 x24 x00 x28 x00 x2c x00)
(L (W xff xff xff xff xff xff xff xff)) E)
(L (W x03 x00 x00 x00 xd8 x00 x00 x00)))
(T (W x00 x00 x00 x00 x00 x00 x00 x00)
(L (W xff xff xff xff xff xff xff xff))
(L (W x00 x00 x80 xbf x00 x00 x80 xbf)))))
(T (W xff xff xff xff x04 x00 x00 x00)
(T (W x00 x00 x80 x3f x00 x00 x80 x3f)
(T (W x3c x00 x40 x00 x44 x00 x48 x00)
(T (W xff xff xff xff xff xff xff xff)
(L (W x00 x00 x00 x00 x2c x72 xff xff)) E)
(L (W x4f x84 x6f x8b xe8 xcb x63 xb7)))
(T (W x68 x00 x00 x00 x5c x00 x00 x00)
(T (W x00 x00 x00 x00 x2c xf2 xfd xff)
(L (W x10 x00 x14 x00 x00 x00 x00 x00)) E)
(L (W x00 x00 x80 xbf x00 x00 x80 xbf))))
(T (W x00 x00 x00 x00 x00 x00 x00 x00)
(T (W xff xff xff xff xff xff xff xff)
(T (W x00 x00 x00 x00 x00 x00 x00 x00)
(L (W xff xff xff xff xff xff xff xff)) E)
(L (W xb4 x00 x00 x00 x64 x00 x00 x00)))
(T (W x18 x00 x00 x00 x10 x00 x00 x00)
(L (W x4f x84 x6f x8b xe8 xcb x63 xb7))
(L (W xcc x00 x00 x00 x02 x00 x00 x00))))))
(T (W x92 xf1 xfd xff x00 x00 x01 x01)
(T (W xff xff xff xff xff xff xff xff)
(T (W x45 x26 x22 x84 xe4 x9c xf2 xcb)
(T (W x40 x00 x00 x00 xff xff xff xff)
(T (W x00 x00 x00 x00 x00 x00 x00 x00)
(L (W x00 x00 x80 xbf x00 x00 x80 xbf)) E)
(L (W x49 xa1 x68 x4a xeb x5f xdd x3d)))
(T (W x54 xea xfc xff x24 x00 x00 x00)
(T (W x00 x00 x00 x00 x00 x00 x00 x00)
(L (W x24 xe7 xff xff x26 x00 x00 x00)) E)
(L (W x00 x00 x00 x00 x00 x00 x00 x00))))
(T (W x45 x26 x22 x84 xe4 x9c xf2 xcb)
(T (W x00 x00 x80 x3f x00 x00 x80 x3f)
(T (W x00 x00 x00 x00 x00 x00 x00 x00)
(L (W x00 x00 x00 x00 x00 x00 x00 x00)) E)
(L (W x03 x00 x00 x00 xd0 x00 x00 x00)))
(T (W xda x1e xfd xff x74 x00 x00 x00)
(L (W x46 x53 x59 x53 x5f x4e x53 x5f))
(L (W xff xff xff xff xb0 x00 x00 x00)))))
(T (W xb8 x00 x00 x00 xac x00 x00 x00)
(T (W x00 x00 x80 x3f x00 x00 x80 x3f)
(T (W x6a x01 x00 x00 xff xff xff xff)
(T (W x68 x00 x00 x00 x5c x00 x00 x00)
(L (W xb4 x00 x00 x00 x64 x00 x00 x00)) E)
(L (W x00 x00 x80 xbf x00 x00 x80 xbf)))
(T (W xff xff xff xff xff xff xff xff)
(T (W x68 x00 x00 x00 x5c x00 x00 x00)
(L (W x00 x00 x00 x00 x00 x00 x00 x00)) E)
(L (W x4f x84 x6f x8b xe8 xcb x63 xb7))))
(T (W x00 x00 x00 x00 x00 x00 x00 x00)
(T (W xe1 x36 x73 x5a x2d x2b xf3 x16)
(T (W xbc xc3 xfd xff x00 x01 x01 x01)
(L (W xff xff xff xff xff xff xff xff)) E)
(L (W x18 x00 x00 x00 x10 x00 x00 x00)))
(T (W x50 x00 x00 x00 x44 x00 x00 x00)
(L (W x00 x00 x00 x00 x00 x00 x00 x00))
(L (W x03 x00 x00 x00 xd8 x00 x00 x00)))))))))))
(T (W xf8 x91 x02 x00 x94 x8f x02 x00)
(T (W xe8 xea x01 x00 xa4 xe8 x01 x00)
(T (W xd8 xa1 x00 x00 xa4 xa0 x00 x00)
(T (W xb8 x00 x00 x00 xac x00 x00 x00)
(T (W x18 x00 x00 x00 x0c x00 x00 x00)
(T (W x18 x00 x00 x00 x10 x00 x00 x00)
(T (W xff xff xff xff x04 x00 x00 x00)
(T (W x45 x26 x22 x84 xe4 x9c xf2 xcb)
(T (W xff xff xff xff x04 x00 x00 x00)
(T (W x00 x00 x00 x00 x00 x00 x00 x00)
(L (W x00 x00 x80 xbf x00 x00 x80 xbf)) E)
(L (W x3c x02 x00 x00 x30 x01 x00 x00)))
(T (W xff xff xff xff xff xff xff xff)
(T (W x45 x26 x22 x84 xe4 x9c xf2 xcb)
(L (W x00 x00 x00 x00 xac xc3 xff xff)) E)
(L (W x54 x00 x00 x00 x48 x00 x00 x00))))
(T (W x68 x80 xfd x71 x32 x5d x2f x97)
(T (W x45 x26 x22 x84 xe4 x9c xf2 xcb)
(T (W x45 x26 x22 x84 xe4 x9c xf2 xcb)
(L (W x00 x00 x80 xbf x00 x00 x80 xbf)) E)
(L (W x00 x00 x00 x00 x00 x00 x00 x00)))
(T (W x00 x00 x80 x3f x00 x00 x80 x3f)
(T (W x49 xa1 x68 x4a xeb x5f xdd x3d)
(L (W x00 x00 x80 xbf x00 x00 x80 xbf)) E)
(L (W xff xff xff xff xff xff xff xff)))))
(T (W x50 x00 x00 x00 x44 x00 x00 x00)
(T (W x00 x00 x00 x00 x00 x00 x00 x00)
(T (W xff xff xff xff x03 x00 x00 x00)
(T (W xff xff xff xff xff xff xff xff)
(L (W x00 x00 x00 x00 x00 x00 x00 x00)) E)
(L (W xff xff xff xff xff xff xff xff)))
(T (W xff xff xff xff xff xff xff xff)
(T (W x00 x00 x00 x00 x1a xea xfd xff)
(L (W x38 x00 x3c x00 x40 x00 x44 x00)) E)
(L (W xff xff xff xff xff xff xff xff))))
(T (W x48 x03 x00 x00 x34 x02 x00 x00)
(T (W x00 x00 x00 x00 x00 x00 x00 x00)
(T (W x95 x50 x69 x12 x83 x72 x37 xc6)
(L (W xff xff xff xff xff xff xff xff)) E)
(L (W x00 x00 x80 xbf x00 x00 x80 xbf)))
(T (W x00 x00 x00 x00 x00 x00 x00 x00)
(L (W x03 x00 x00 x00 xc8 x00 x00 x00))
(L (W x00 x00 x80 xbf x00 x00 x80 xbf))))))
(T (W xff xff xff xff xff xff xff xff)
(T (W x68 x00 x00 x00 x5c x00 x00 x00)
(T (W x00 x00 x80 x3f x00 x00 x80 x3f)
(T (W xb8 x00 x00 x00 xac x00 x00 x00)
(T (W xa2 xc1 xff xff x90 x01 x00 x00)
(L (W xff xff xff xff xff xff xff xff)) E)
(L (W x00 x00 x01 x01 x5c x00 x00 x00)))
(T (W x00 x00 x00 x00 x00 x00 x00 x00)
(T (W x5a xd0 xfd xff x74 x00 x00 x00)
(L (W xff xff xff xff xff xff xff xff)) E)
(L (W xff xff xff xff xb0 x00 x00 x00))))
(T (W x00 x00 x00 x00 x00 x00 x00 x00)
(T (W xff xff xff xff xff xff xff xff)
(T (W x18 x00 x1c x00 x04 x00 x05 x00)
(L (W xff xff xff xff xff xff xff xff)) E)
(L (W x00 x00 x80 xbf x00 x00 x80 xbf)))
(T (W xff xff xff xff xff xff xff xff)
(L (W x45 x26 x22 x84 xe4 x9c xf2 xcb))
(L (W x00 x00 x00 x00 x00 x00 x00 x00)))))
(T (W x00 x00 x80 x3f x00 x00 x80 x3f)
(T (W x00 x00 x00 x00 x00 x00 x00 x00)
(T (W x10 x00 x00 x00 x00 x00 x14 x00)
(T (W x50 x00 x00 x00 x44 x00 x00 x00)
(L (W x00 x00 x80 xbf x00 x00 x80 xbf)) E)
(L (W x04 x00 x00 x00 x80 x03 x00 x00)))
(T (W x00 x00 x00 x00 x00 x00 x00 x00)
(T (W x00 x00 x00 x00 x00 x00 x00 x00)
(L (W x4f x84 x6f x8b xe8 xcb x63 xb7)) E)
(L (W x3e x00 x00 x00 x0c x00 x00 x00))))
(T (W xff xff xff xff xff xff xff xff)
(T (W x54 x00 x00 x00 x48 x00 x00 x00)
(T (W xff xff xff xff xff xff xff xff)
(L (W x00 x00 x80 x3f x00 x00 x80 x3f)) E)
(L (W x00 x00 x80 xbf x00 x00 x80 xbf)))
(T (W x00 x00 x80 x3f x00 x00 x80 x3f)
(L (W x02 x00 x00 x00 x30 x01 x00 x00))
(L (W x00 x00 x80 xbf x00 x00 x80 xbf)))))))
(T (W x45 x26 x22 x84 xe4 x9c xf2 xcb)
(T (W xff xff xff xff xff xff xff xff)
(T (W x45 x26 x22 x84 xe4 x9c xf2 xcb)
(T (W x00 x00 x80 x3f x00 x00 x80 x3f)
(T (W x18 x00 x00 x00 x10 x00 x00 x00)
(T (W x00 x00 x00 x00 x00 x00 x00 x00)
(L (W x18 x00 x00 x00 x0c x00 x00 x00)) E)
(L (W x00 x00 x00 x00 x42 x49 xfe xff)))
(T (W xaa x47 xb5 xa2 x7d x52 x09 x18)
(T (W x00 x00 x80 x3f x00 x00 x80 x3f)
(L (W x03 x00 x00 x00 xd0 x00 x00 x00)) E)
(L (W x00 x00 x80 xbf x00 x00 x80 xbf))))
(T (W xa2 x79 xfe xff xdd x00 x00 x00)
(T (W xff xff xff xff xbc x00 x00 x00)
(T (W x45 x26 x22 x84 xe4 x9c xf2 xcb)
(L (W x00 x00 x80 xbf x00 x00 x80 xbf)) E)
(L (W x00 x00 x80 xbf x00 x00 x80 xbf)))
(T (W xc0 x00 x00 x00 x01 x00 x00 x00)
(L (W x54 x00 x00 x00 x48 x00 x00 x00))
(L (W x46 x53 x59 x53 x5f x4e x53 x5f)))))
(T (W x68 x00 x00 x00 x5c x00 x00 x00)
(T (W x00 x00 x00 x00 x00 x00 x00 x00)
(T (W xff xff xff xff xff xff xff xff)
(T (W xb8 x00 x00 x00 xac x00 x00 x00)
(L (W x00 x00 x00 x00 x00 x00 x00 x00)) E)
(L (W x46 x53 x59 x53 x5f x4e x53 x5f)))
(T (W xfa x3e xfe xff x9c x01 x00 x00)
(T (W x00 x00 x00 x00 x00 x00 x00 x00)
(L (W x00 x00 x00 x00 x00 x00 x00 x00)) E)
(L (W x00 x00 x00 x00 x00 x00 x00 x00))))
(T (W xff xff xff xff xff xff xff xff)
(T (W x00 x00 x80 x3f x00 x00 x80 x3f)
(T (W x54 x00 x00 x00 x48 x00 x00 x00)
(L (W x00 x00 x00 x00 x00 x00 x00 x00)) E)
(L (W xff xff xff xff xff xff xff xff)))
(T (W x00 x00 x80 x3f x00 x00 x80 x3f)
(L (W xff xff xff xff xdc x00 x00 x00))
(L (W x00 x00 x80 xbf x00 x00 x80 xbf))))))
(T (W xb8 x00 x00 x00 xac x00 x00 x00)
(T (W x00 x00 x80 x3f x00 x00 x80 x3f)
(T (W x00 x00 x80 x3f x00 x00 x80 x3f)
(T (W xc0 x00 x00 x00 xb4 x00 x00 x00)
(T (W xff xff xff xff xff xff xff xff)
(L (W xff xff xff xff xff xff xff xff)) E)
(L (W xbe x00 x00 x00 xff xff xff xff)))
(T (W x68 x00 x00 x00 x5c x00 x00 x00)
(T (W xff xff xff xff xff xff xff xff)
(L (W x1c x00 x00 x00 x10 x00 x00 x00)) E)
(L (W xff xff xff xff xc4 x00 x00 x00))))
(T (W x00 x00 x00 x00 x00 x00 x00 x00)
(T (W x30 x35 x5f x43 x4c x45 x41 x52)
(T (W x00 x00 x00 x00 x00 x00 x00 x00)
(L (W xff xff xff xff xff xff xff xff)) E)
(L (W x1c x00 x00 x00 x10 x00 x00 x00)))
(T (W x11 xb8 xb2 x05 x4b x73 x91 x53)
(L (W xff xff xff xff xff xff xff xff))
(L (W x00 x00 x80 xbf x00 x00 x80 xbf)))))
(T (W x00 x00 x80 x3f x00 x00 x80 x3f)
(T (W x00 x00 x00 x00 x00 x00 x00 x00)
(T (W x00 x00 x80 x3f x00 x00 x80 x3f)
(T (W x00 x00 x00 x00 x00 x00 x00 x00)
(L (W x00 x00 x00 x00 x00 x00 x00 x00)) E)
(L (W x00 x00 x00 x00 x00 x00 x00 x00)))
(T (W x00 x00 x80 x3f x00 x00 x80 x3f)
(T (W xd4 x03 xfe xff x1a x00 x00 x00)
(L (W xff xff xff xff xb0 x00 x00 x00)) E)
(L (W xff xff xff xff xff xff xff xff))))
(T (W xff xff xff xff xff xff xff xff)
(T (W x3c xbd xfc xff x00 x01 x01 x01)
(T (W x00 x00 x00 x00 x00 x00 x00 x00)
(L (W x54 x00 x00 x00 x48 x00 x00 x00)) E)
(L (W x00 x00 x80 xbf x00 x00 x80 xbf)))
(T (W x45 x26 x22 x84 xe4 x9c xf2 xcb)
(L (W x45 x44 x00 x00 x00 x00 x00 x00))
(L (W x54 x00 x00 x00 x48 x00 x00 x00))))))))
(T (W x00 x00 x00 x00 x00 x00 x00 x00)
(T (W x00 x00 x00 x00 x00 x00 x00 x00)
(T (W x45 x26 x22 x84 xe4 x9c xf2 xcb)
(T (W x00 x00 x00 x00 x00 x00 x00 x00)
(T (W xff xff xff xff xff xff xff xff)
(T (W x00 x00 x00 x00 x00 x00 x00 x00)
(T (W xb8 x00 x00 x00 xac x00 x00 x00)
(L (W xc8 x02 x00 x00 xff xff xff xff)) E)
(L (W x00 x00 x80 xbf x00 x00 x80 xbf)))
(T (W x00 x00 x80 x3f x00 x00 x80 x3f)
(T (W xff xff xff xff xc0 x00 x00 x00)
(L (W x45 x44 x00 x00 x00 x00 x00 x00)) E)
(L (W xff xff xff xff xff xff xff xff))))
(T (W x5a x04 xfc xff x74 x00 x00 x00)
(T (W x00 x00 x00 x00 x00 x00 x00 x00)
(T (W xff xff xff xff xff xff xff xff)
(L (W xff xff xff xff xff xff xff xff)) E)
(L (W xff xff xff xff xbc x00 x00 x00)))
(T (W x4c x45 x41 x52 x45 x44 x00 x00)
(L (W xff xff xff xff xff xff xff xff))
(L (W x00 x00 x80 xbf x00 x00 x80 xbf)))))
(T (W x01 xbb x1a x3f x27 xcd x41 xb5)
(T (W x45 x26 x22 x84 xe4 x9c xf2 xcb)
(T (W x40 x00 x00 x00 x0c x00 x00 x00)
(T (W x00 x00 x00 x00 x00 x00 x00 x00)
(L (W xff xff xff xff xb0 x00 x00 x00)) E)
(L (W x12 x66 xfe xff x78 x00 x00 x00)))
(T (W x00 x00 x80 x3f x00 x00 x80 x3f)
(T (W xff xff xff xff xb0 x00 x00 x00)
(L (W x00 x00 x80 xbf x00 x00 x80 xbf)) E)
(L (W x00 x00 x80 xbf x00 x00 x80 xbf))))
(T (W x45 x26 x22 x84 xe4 x9c xf2 xcb)
(T (W xb0 x00 x00 x00 x64 x00 x00 x00)
(T (W xff xff xff xff xff xff xff xff)
(L (W x00 x00 x00 x00 x00 x00 x00 x00)) E)
(L (W x8f x01 x00 x00 xff xff xff xff)))
(T (W xff xff xff xff xff xff xff xff)
(L (W x00 x00 x00 x00 x00 x00 x00 x00))
(L (W xff xff xff xff xff xff xff xff))))))
(T (W x00 x00 x00 x00 x00 x00 x00 x00)
(T (W x00 x00 x00 x00 x00 x00 x00 x00)
(T (W xff xff xff xff xff xff xff xff)
(T (W x00 x00 x00 x00 x00 x00 x00 x00)
(T (W x00 x00 x80 x3f x00 x00 x80 x3f)
(L (W x54 x00 x00 x00 x48 x00 x00 x00)) E)
(L (W x00 x00 x80 xbf x00 x00 x80 xbf)))
(T (W xff xff xff xff xff xff xff xff)
(T (W x00 x00 x00 x00 x00 x00 x00 x00)
(L (W x00 x00 x00 x00 x00 x00 x00 x00)) E)
(L (W x45 x26 x22 x84 xe4 x9c xf2 xcb))))
(T (W x00 x00 x80 x3f x00 x00 x80 x3f)
(T (W x6c x00 x00 x00 x60 x00 x00 x00)
(T (W x5a x94 xfd xff x74 x00 x00 x00)
(L (W x45 x26 x22 x84 xe4 x9c xf2 xcb)) E)
(L (W x00 x00 x00 x00 x00 x00 x00 x00)))
(T (W x68 x00 x00 x00 x5c x00 x00 x00)
(L (W x00 x00 x00 x00 x00 x00 x00 x00))
(L (W xff xff xff xff xff xff xff xff)))))
(T (W x00 x00 x00 x00 x00 x00 x00 x00)
(T (W x0a x00 x00 x00 x1b x00 x00 x00)
(T (W x04 x00 x00 x00 xa2 x7f xfc xff)
(T (W xff xff xff xff xff xff xff xff)
(L (W xff xff xff xff xff xff xff xff)) E)
(L (W x68 x00 x00 x00 x5c x00 x00 x00)))
(T (W xff xff xff xff xff xff xff xff)
(T (W x45 x26 x22 x84 xe4 x9c xf2 xcb)
(L (W x00 x00 x00 x00 x00 x00 x00 x00)) E)
(L (W x00 x00 x80 xbf x00 x00 x80 xbf))))
(T (W x00 x00 x80 x3f x00 x00 x80 x3f)
(T (W x45 x44 x00 x00 x00 x00 x00 x00)
(T (W x00 x00 x00 x00 x1b x00 x00 x00)
(L (W x00 x00 x00 x00 x32 xd4 xff xff)) E)
(L (W x03 x00 x00 x00 xd0 x00 x00 x00)))
(T (W xff xff xff xff xff xff xff xff)
(L (W x5a x34 xfe xff x74 x00 x00 x00))
(L (W xff xff xff xff xff xff xff xff)))))))
(T (W x00 x00 x00 x00 x00 x00 x00 x00)
(T (W x00 x00 x00 x00 x00 x00 x00 x00)
(T (W x00 x00 x00 x00 x00 x00 x00 x00)
(T (W xff xff xff xff xff xff xff xff)
(T (W x45 x26 x22 x84 xe4 x9c xf2 xcb)
(T (W x50 x00 x00 x00 x44 x00 x00 x00)
(L (W x00 x00 x00 x00 x00 x00 x00 x00)) E)
(L (W x00 x00 x80 xbf x00 x00 x80 xbf)))
(T (W x18 x00 x00 x00 x10 x00 x00 x00)
(T (W x00 x00 x00 x00 xa2 xd7 xfd xff)
(L (W x00 x00 x00 x00 x00 x00 x00 x00)) E)
(L (W x45 x44 x00 x00 x00 x00 x00 x00))))
(T (W x3c x11 xfc xff x00 x01 x01 x01)
(T (W x00 x00 x80 x3f x00 x00 x80 x3f)
(T (W xff xff xff xff xff xff xff xff)
(L (W x00 x00 x00 x00 x00 x00 x00 x00)) E)
(L (W xff xff xff xff xff xff xff xff)))
(T (W x00 x00 x80 x3f x00 x00 x80 x3f)
(L (W x00 x00 x00 x00 x00 x00 x00 x00))
(L (W x12 x0e xff xff x78 x00 x00 x00)))))
(T (W x12 x1f xfe xff x00 x00 x01 x01)
(T (W x01 x00 x00 x00 x9c x00 x00 x00)
(T (W x00 x00 x00 x00 x00 x00 x00 x00)
(T (W x00 x00 x00 x00 x00 x00 x00 x00)
(L (W xff xff xff xff xff xff xff xff)) E)
(L (W x00 x00 x80 xbf x00 x00 x80 xbf)))
(T (W x3c xf1 xfc xff x00 x01 x01 x01)
(T (W x45 x26 x22 x84 xe4 x9c xf2 xcb)
(L (W xff xff xff xff xff xff xff xff)) E)
(L (W x44 x00 x00 x00 x00 x00 x80 xbf))))
(T (W x00 x00 x80 x3f x00 x00 x80 x3f)
(T (W xff xff xff xff xff xff xff xff)
(T (W x00 x00 x00 x00 x00 x00 x00 x00)
(L (W x00 x00 x00 x00 xa2 xb7 xff xff)) E)
(L (W xff xff xff xff xff xff xff xff)))
(T (W xff xff xff xff xff xff xff xff)
(L (W x54 x00 x00 x00 x48 x00 x00 x00))
(L (W xff xff xff xff xff xff xff xff))))))
(T (W x00 x00 x00 x00 x00 x00 x00 x00)
(T (W x00 x00 x00 x00 x00 x00 x00 x00)
(T (W xb8 x00 x00 x00 xac x00 x00 x00)
(T (W x00 x00 x00 x00 x00 x00 x00 x00)
(T (W x45 x26 x22 x84 xe4 x9c xf2 xcb)
(L (W x45 x26 x22 x84 xe4 x9c xf2 xcb)) E)
(L (W x1c x00 x00 x00 x10 x00 x00 x00)))
(T (W x00 x00 x00 x00 x00 x00 x00 x00)
(T (W x00 x00 x80 xbf x00 x00 x80 xbf)
(L (W x00 x00 x00 x00 x00 x00 x00 x00)) E)
(L (W x00 x00 x80 xbf x00 x00 x80 xbf))))
(T (W x00 x00 x80 x3f x00 x00 x80 x3f)
(T (W xff xff xff xff xb0 x00 x00 x00)
(T (W x45 x26 x22 x84 xe4 x9c xf2 xcb)
(L (W x00 x00 x00 x00 x00 x00 x00 x00)) E)
(L (W xff xff xff xff xff xff xff xff)))
(T (W x00 x00 x00 x00 xac x1f xfd xff)
(L (W x00 x00 x00 x00 x00 x00 x00 x00))
(L (W x03 x00 x00 x00 xd0 x00 x00 x00)))))
(T (W x20 x01 x00 x00 x04 x00 x00 x00)
(T (W xc0 x00 x00 x00 xb4 x00 x00 x00)
(T (W x00 x00 x00 x00 x00 x00 x00 x00)
(T (W x5a x7c xfd xff x74 x00 x00 x00)
(L (W xff xff xff xff xff xff xff xff)) E)
(L (W xc4 x00 x00 x00 x01 x00 x00 x00)))
(T (W x52 x55 xfd xff x00 x00 x01 x01)
(T (W x18 x00 x00 x00 x10 x00 x00 x00)
(L (W xff xff xff xff xff xff xff xff)) E)
(L (W x00 x00 x80 xbf x00 x00 x80 xbf))))
(T (W x00 x00 x80 x3f x00 x00 x80 x3f)
(T (W x00 x00 x00 x00 x00 x00 x00 x00)
(T (W xff xff xff xff xff xff xff xff)
(L (W x08 x00 x00 x00 x18 x08 x00 x00)) E)
(L (W xff xff xff xff xff xff xff xff)))
(T (W xff xff xff xff xff xff xff xff)
(L (W x00 x01 x01 x01 x92 x4d xfe xff))
(L (W xff xff xff xff xff xff xff xff)))))))))
(T (W x00 x00 x80 x3f x00 x00 x80 x3f)
(T (W x00 x00 x01 x01 xc9 x02 x00 x00)
(T (W xff xff xff xff xff xff xff xff)
(T (W x01 x00 x00 x00 x04 x00 x00 x00)
(T (W x20 x01 x00 x00 x04 x00 x00 x00)
(T (W x45 x26 x22 x84 xe4 x9c xf2 xcb)
(T (W x40 x00 x00 x00 x10 x00 x00 x00)
(T (W x00 x00 x80 x3f x00 x00 x80 x3f)
(L (W xff xff xff xff xff xff xff xff)) E)
(L (W x00 x00 x00 x00 x00 x00 x00 x00)))
(T (W xd4 xcd xfc xff x24 x00 x00 x00)
(T (W x6c x00 x00 x00 x60 x00 x00 x00)
(L (W xff xff xff xff xff xff xff xff)) E)
(L (W x03 x00 x00 x00 xd0 x00 x00 x00))))
(T (W x45 x26 x22 x84 xe4 x9c xf2 xcb)
(T (W xff xff xff xff xff xff xff xff)
(T (W x50 x00 x00 x00 x44 x00 x00 x00)
(L (W xcc x00 x00 x00 x01 x00 x00 x00)) E)
(L (W x6c x00 x00 x00 x60 x00 x00 x00)))
(T (W xff xff xff xff xff xff xff xff)
(L (W xff xff xff xff xb0 x00 x00 x00))
(L (W x00 x00 x00 x00 x00 x00 x00 x00)))))
(T (W xb8 x00 x00 x00 xac x00 x00 x00)
(T (W x68 x00 x00 x00 x5c x00 x00 x00)
(T (W xff xff xff xff xff xff xff xff)
(T (W xa2 xd3 xff xff x1a x01 x00 x00)
(L (W x00 x00 x80 xbf x00 x00 x80 xbf)) E)
(L (W x00 x00 x00 x00 x00 x00 x00 x00)))
(T (W x00 x00 x00 x00 x00 x00 x00 x00)
(T (W x00 x00 x80 xbf x00 x00 x80 xbf)
(L (W x4f x84 x6f x8b xe8 xcb x63 xb7)) E)
(L (W x00 x00 x00 x00 x00 x00 x00 x00))))
(T (W x00 x00 x00 x00 x00 x00 x00 x00)
(T (W x54 x00 x00 x00 x48 x00 x00 x00)
(T (W x00 x00 x80 xbf x00 x00 x80 xbf)
(L (W x00 x00 x00 x00 xa2 xad xff xff)) E)
(L (W xff xff xff xff xc8 x00 x00 x00)))
(T (W x6c x00 x00 x00 x60 x00 x00 x00)
(L (W xff xff xff xff xff xff xff xff))
(L (W x45 x26 x22 x84 xe4 x9c xf2 xcb))))))
(T (W x12 xe5 xfd xff x00 x00 x01 x01)
(T (W xff xff xff xff xff xff xff xff)
(T (W x00 x00 x80 x3f x00 x00 x80 x3f)
(T (W xff xff xff xff xff xff xff xff)
(T (W x00 x00 x00 x00 x00 x00 x00 x00)
(L (W x46 x53 x59 x53 x5f x4e x53 x5f)) E)
(L (W x00 x00 x00 x00 x00 x00 x00 x00)))
(T (W x00 x00 x00 x00 xac xd5 xfc xff)
(T (W xff xff xff xff xff xff xff xff)
(L (W x00 x00 x00 x00 x00 x00 x00 x00)) E)
(L (W x54 x02 x00 x00 x38 x01 x00 x00))))
(T (W x00 x00 x00 x00 x00 x00 x00 x00)
(T (W x00 x00 x00 x00 x00 x00 x00 x00)
(T (W x44 x00 x48 x00 x4c x00 x50 x00)
(L (W x00 x00 x00 x00 x0a x95 xff xff)) E)
(L (W x18 x00 x00 x00 x10 x00 x00 x00)))
(T (W x12 x00 x00 x00 x46 x53 x59 x53)
(L (W xff xff xff xff xff xff xff xff))
(L (W x00 x00 x00 x00 xac x15 xff xff)))))
(T (W xb8 x00 x00 x00 xac x00 x00 x00)
(T (W x00 x00 x80 x3f x00 x00 x80 x3f)
(T (W x18 x00 x00 x00 x0c x00 x00 x00)
(T (W x00 x00 x00 x00 x00 x00 x00 x00)
(L (W x12 x74 xff xff x78 x00 x00 x00)) E)
(L (W x00 x00 x80 xbf x00 x00 x80 xbf)))
(T (W x00 x00 x80 x3f x00 x00 x80 x3f)
(T (W x00 x00 x80 xbf x00 x00 x80 xbf)
(L (W xff xff xff xff xff xff xff xff)) E)
(L (W x00 x00 x00 x00 x00 x00 x00 x00))))
(T (W x00 x00 x00 x00 x00 x00 x00 x00)
(T (W xb0 x00 x00 x00 x64 x00 x00 x00)
(T (W x3c xb7 xfd xff x00 x01 x01 x01)
(L (W xff xff xff xff xff xff xff xff)) E)
(L (W x6c x00 x00 x00 x60 x00 x00 x00)))
(T (W x45 x26 x22 x84 xe4 x9c xf2 xcb)
(L (W x00 x00 x00 x00 x00 x00 x00 x00))
(L (W xff xff xff xff xff xff xff xff)))))))
(T (W x04 x00 x00 x00 x52 xe9 xfd xff)
(T (W xff xff xff xff xff xff xff xff)
(T (W xff xff xff xff xff xff xff xff)
(T (W x68 x00 x00 x00 x5c x00 x00 x00)
(T (W x12 xbd xfe xff x00 x00 x01 x01)
(T (W x45 x26 x22 x84 xe4 x9c xf2 xcb)
(L (W xff xff xff xff xff xff xff xff)) E)
(L (W x00 x00 x00 x00 x00 x00 x00 x00)))
(T (W x45 x26 x22 x84 xe4 x9c xf2 xcb)
(T (W xff xff xff xff xff xff xff xff)
(L (W xff xff xff xff xff xff xff xff)) E)
(L (W xff xff xff xff xff xff xff xff))))
(T (W x00 x00 x00 x00 x00 x00 x00 x00)
(T (W x00 x00 x00 x00 x00 x00 x00 x00)
(T (W x50 x00 x00 x00 x44 x00 x00 x00)
(L (W xff xff xff xff xff xff xff xff)) E)
(L (W x3c x8f xfe xff x00 x01 x01 x01)))
(T (W x80 x03 x00 x00 x54 x02 x00 x00)
(L (W xb0 x00 x00 x00 x1e x00 x00 x00))
(L (W x00 x00 x80 xbf x00 x00 x80 xbf)))))
(T (W x45 x26 x22 x84 xe4 x9c xf2 xcb)
(T (W x5a xea xfb xff x74 x00 x00 x00)
(T (W x45 x26 x22 x84 xe4 x9c xf2 xcb)
(T (W xff xff xff xff xff xff xff xff)
(L (W x00 x00 x80 xbf x00 x00 x80 xbf)) E)
(L (W x4f x84 x6f x8b xe8 xcb x63 xb7)))
(T (W x00 x00 x80 x3f x00 x00 x80 x3f)
(T (W x00 x00 x80 xbf x00 x00 x80 xbf)
(L (W x00 x00 x80 xbf x00 x00 x80 xbf)) E)
(L (W x00 x00 x00 x00 x00 x00 x00 x00))))
(T (W x00 x00 x00 x00 x00 x00 x00 x00)
(T (W x3c xaf xfc xff x00 x01 x01 x01)
(T (W xff xff xff xff xff xff xff xff)
(L (W xff xff xff xff xff xff xff xff)) E)
(L (W x00 x00 x80 x3f x00 x00 x80 xbf)))
(T (W x45 x26 x22 x84 xe4 x9c xf2 xcb)
(L (W x00 x00 x00 x00 x12 x00 x00 x00))
(L (W xc4 x00 x00 x00 x02 x00 x00 x00))))))
(T (W x00 x00 x00 x00 x00 x00 x00 x00)
(T (W xff xff xff xff xff xff xff xff)
(T (W x50 x00 x00 x00 x44 x00 x00 x00)
(T (W xff xff xff xff xff xff xff xff)
(T (W x00 x00 x00 x00 x00 x00 x00 x00)
(L (W x00 x00 x00 x00 x00 x00 x00 x00)) E)
(L (W x00 x00 x00 x00 x00 x00 x00 x00)))
(T (W xff xff xff xff xff xff xff xff)
(T (W x1b x00 x00 x00 x0c x00 x00 x00)
(L (W xff xff xff xff xff xff xff xff)) E)
(L (W x00 x00 x00 x00 x00 x00 x00 x00))))
(T (W x00 x00 x00 x00 x00 x00 x00 x00)
(T (W x49 xa1 x68 x4a xeb x5f xdd x3d)
(T (W x00 x01 x01 x01 xbd x01 x00 x00)
(L (W x00 x00 x00 x00 x00 x00 x00 x00)) E)
(L (W xff xff xff xff xff xff xff xff)))
(T (W x00 x00 x80 x3f x00 x00 x80 x3f)
(L (W x00 x00 x00 x00 x00 x00 x00 x00))
(L (W x00 x00 x00 x00 x40 x1f xff xff)))))
(T (W xff xff xff xff x04 x00 x00 x00)
(T (W x00 x00 x80 x3f x00 x00 x80 x3f)
(T (W xb8 x00 x00 x00 x64 x00 x00 x00)
(T (W x00 x00 x80 x3f x00 x00 x80 x3f)
(L (W x45 x26 x22 x84 xe4 x9c xf2 xcb)) E)
(L (W x00 x00 x80 xbf x00 x00 x80 xbf)))
(T (W x18 x00 x00 x00 x0c x00 x00 x00)
(T (W x00 x00 x80 xbf x00 x00 x80 xbf)
(L (W x1c x00 x20 x00 x24 x00 x28 x00)) E)
(L (W x00 x00 x00 x00 x00 x00 x00 x00))))
(T (W x00 x00 x00 x00 x00 x00 x00 x00)
(T (W xff xff xff xff xff xff xff xff)
(T (W x12 xbc xfd xff x78 x00 x00 x00)
(L (W x03 x00 x00 x00 xd0 x00 x00 x00)) E)
(L (W x00 x00 x00 x00 xac xbd xfe xff)))
(T (W x50 x00 x00 x00 x44 x00 x00 x00)
(L (W x00 x00 x00 x00 x00 x00 x00 x00))
(L (W x03 x00 x00 x00 xd0 x00 x00 x00))))))))
(T (W x45 x26 x22 x84 xe4 x9c xf2 xcb)
(T (W x00 x00 x80 x3f x00 x00 x80 x3f)
(T (W x00 x00 x14 x00 x18 x00 x1c x00)
(T (W x45 x26 x22 x84 xe4 x9c xf2 xcb)
(T (W x00 x00 x00 x00 x00 x00 x00 x00)
(T (W x5a x46 xfc xff x74 x00 x00 x00)
(T (W xff xff xff xff xff xff xff xff)
(L (W x00 x00 x00 x00 x00 x00 x00 x00)) E)
(L (W x00 x00 x00 x00 xac x49 xfe xff)))
(T (W xb0 x00 x00 x00 x64 x00 x00 x00)
(T (W x1a x00 x00 x00 xff xff xff xff)
(L (W x54 x00 x00 x00 x48 x00 x00 x00)) E)
(L (W x00 x00 x00 x00 x00 x00 x00 x00))))
(T (W xff xff xff xff xff xff xff xff)
(T (W x00 x00 x80 x3f x00 x00 x80 x3f)
(T (W x00 x00 x00 x00 x00 x00 x00 x00)
(L (W x00 x00 x00 x00 x00 x00 x00 x00)) E)
(L (W xff xff xff xff x01 x00 x00 x00)))
(T (W x00 x00 x80 x3f x00 x00 x80 x3f)
(L (W x00 x00 x00 x00 x00 x00 x00 x00))
(L (W xff xff xff xff xbc x00 x00 x00)))))
(T (W x00 x00 x00 x00 x00 x00 x00 x00)
(T (W x19 x01 x00 x00 xff xff xff xff)
(T (W x00 x00 x80 x3f x00 x00 x80 x3f)
(T (W x00 x00 x80 x3f x00 x00 x80 x3f)
(L (W xff xff xff xff xff xff xff xff)) E)
(L (W xff xff xff xff xff xff xff xff)))
(T (W xff xff xff xff xff xff xff xff)
(T (W xff xff xff xff xff xff xff xff)
(L (W xff xff xff xff xff xff xff xff)) E)
(L (W x18 x00 x00 x00 x10 x00 x00 x00))))
(T (W x18 x00 x00 x00 x0c x00 x00 x00)
(T (W x00 x00 x00 x00 x00 x00 x00 x00)
(T (W x00 x00 x00 x00 x00 x00 x00 x00)
(L (W x00 x00 x80 xbf x00 x00 x80 xbf)) E)
(L (W x00 x00 x80 xbf x00 x00 x80 xbf)))
(T (W x00 x00 x00 x00 x00 x00 x00 x00)
(L (W x2c x00 x00 x00 x00 x00 x80 xbf))
(L (W x45 x44 x00 x00 x00 x00 x00 x00))))))
(T (W x00 x00 x80 x3f x00 x00 x80 x3f)
(T (W x00 x00 x80 x3f x00 x00 x80 x3f)
(T (W x00 x00 x00 x00 x00 x00 x00 x00)
(T (W x00 x00 x80 x3f x00 x00 x80 x3f)
(T (W xb8 x00 x00 x00 xac x00 x00 x00)
(L (W x03 x00 x00 x00 xd0 x00 x00 x00)) E)
(L (W x18 x00 x00 x00 x10 x00 x00 x00)))
(T (W x00 x00 x00 x00 x00 x00 x00 x00)
(T (W x00 x00 x80 x3f x00 x00 x80 x3f)
(L (W x00 x00 x80 xbf x00 x00 x80 xbf)) E)
(L (W x54 x00 x00 x00 x48 x00 x00 x00))))
(T (W xff xff xff xff x03 x00 x00 x00)
(T (W xff xff xff xff xbc x00 x00 x00)
(T (W xff xff xff xff xff xff xff xff)
(L (W x6c x00 x00 x00 x60 x00 x00 x00)) E)
(L (W x00 x00 x00 x00 x00 x00 x00 x00)))
(T (W xff xff xff xff xff xff xff xff)
(L (W x00 x00 x80 xbf x00 x00 x80 xbf))
(L (W x00 x00 x00 x00 x00 x00 x00 x00)))))
(T (W x00 x00 x00 x00 x00 x00 x00 x00)
(T (W xff xff xff xff xff xff xff xff)
(T (W x00 x00 x00 x00 x00 x00 x00 x00)
(T (W x12 xe9 xff xff x00 x00 x01 x01)
(L (W x00 x00 x00 x00 xa2 x81 xff xff)) E)
(L (W xff xff xff xff xff xff xff xff)))
(T (W x00 x00 x00 x00 x00 x00 x00 x00)
(T (W xff xff xff xff xff xff xff xff)
(L (W x00 x00 x00 x00 x00 x00 x00 x00)) E)
(L (W xff xff xff xff xff xff xff xff))))
(T (W x00 x00 x80 x3f x00 x00 x80 x3f)
(T (W x4f x84 x6f x8b xe8 xcb x63 xb7)
(T (W xff xff xff xff xff xff xff xff)
(L (W x00 x00 x00 x00 x12 x00 x00 x00)) E)
(L (W x08 x00 x00 x00 x18 x08 x00 x00)))
(T (W xa4 x3e xfd xff x3f x00 x00 x00)
(L (W xff xff xff xff xff xff xff xff))
(L (W x30 x35 x5f x43 x4c x45 x41 x52)))))))
(T (W x54 x00 x00 x00 x48 x00 x00 x00)
(T (W x12 x70 xfb xff x78 x00 x00 x00)
(T (W x00 x00 x80 x3f x00 x00 x80 x3f)
(T (W x00 x00 x00 x00 x00 x00 x00 x00)
(T (W x3c x53 xfc xff x00 x01 x01 x01)
(T (W xff xff xff xff xff xff xff xff)
(L (W x50 x00 x00 x00 x44 x00 x00 x00)) E)
(L (W xff xff xff xff xff xff xff xff)))
(T (W x04 x00 x00 x00 x1a xd8 xfc xff)
(T (W x00 x00 x00 x00 x00 x00 x00 x00)
(L (W x00 x00 x80 xbf x00 x00 x80 xbf)) E)
(L (W x00 x00 x80 xbf x00 x00 x80 xbf))))
(T (W xff xff xff xff xff xff xff xff)
(T (W x45 x26 x22 x84 xe4 x9c xf2 xcb)
(T (W x00 x00 x80 x3f x00 x00 x80 x3f)
(L (W x49 xa1 x68 x4a xeb x5f xdd x3d)) E)
(L (W x00 x00 x00 x00 x00 x00 x00 x00)))
(T (W x68 x00 x00 x00 x5c x00 x00 x00)
(L (W x49 xa1 x68 x4a xeb x5f xdd x3d))
(L (W xff xff xff xff xff xff xff xff)))))
(T (W x00 x00 x00 x00 x00 x00 x00 x00)
(T (W xff xff xff xff xff xff xff xff)
(T (W x00 x00 x00 x00 x00 x00 x00 x00)
(T (W x45 x26 x22 x84 xe4 x9c xf2 xcb)
(L (W x00 x00 x00 x00 x00 x00 x00 x00)) E)
(L (W x03 x00 x00 x00 xd0 x00 x00 x00)))
(T (W x02 x00 x00 x00 xff xff xff xff)
(T (W x00 x00 x00 x00 x00 x00 x00 x00)
(L (W xa9 x01 x00 x00 xff xff xff xff)) E)
(L (W xff xff xff xff xff xff xff xff))))
(T (W x5a x2e xfc xff x74 x00 x00 x00)
(T (W x00 x00 x00 x00 x00 x00 x00 x00)
(T (W x00 x00 x00 x00 xac xb1 xfd xff)
(L (W x00 x00 x00 x00 x00 x00 x00 x00)) E)
(L (W x00 x00 x00 x00 x12 x00 x00 x00)))
(T (W x00 x00 x00 x00 x00 x00 x00 x00)
(L (W x03 x00 x00 x00 xd0 x00 x00 x00))
(L (W x00 x00 x00 x00 x00 x00 x00 x00))))))
(T (W x00 x00 x80 x3f x00 x00 x80 x3f)
(T (W x00 x00 x80 x3f x00 x00 x80 x3f)
(T (W x92 xcf x07 x3e xf7 xa9 xe4 x05)
(T (W x00 x00 x80 x3f x00 x00 x80 x3f)
(T (W x50 x00 x00 x00 x44 x00 x00 x00)
(L (W xff xff xff xff xff xff xff xff)) E)
(L (W xff xff xff xff xff xff xff xff)))
(T (W x00 x00 x80 x3f x00 x00 x80 x3f)
(T (W xff xff xff xff x9c x00 x00 x00)
(L (W x00 x00 x80 xbf x00 x00 x80 xbf)) E)
(L (W x45 x26 x22 x84 xe4 x9c xf2 xcb))))
(T (W xff xff xff xff xff xff xff xff)
(T (W xff xff xff xff xff xff xff xff)
(T (W xff xff xff xff x9c x00 x00 x00)
(L (W x45 x26 x22 x84 xe4 x9c xf2 xcb)) E)
(L (W x00 x00 x00 x00 x00 x00 x00 x00)))
(T (W xc2 x75 xfd xff x9d x01 x00 x00)
(L (W x00 x00 x00 x00 x40 x23 xfe xff))
(L (W xf4 x06 x00 x00 xd8 x05 x00 x00)))))
(T (W x00 x00 x00 x00 x00 x00 x00 x00)
(T (W xff xff xff xff xff xff xff xff)
(T (W x00 x00 x80 x3f x00 x00 x80 x3f)
(T (W x00 x00 x00 x00 x00 x00 x00 x00)
(L (W x00 x00 x00 x00 x12 x00 x00 x00)) E)
(L (W xff xff xff xff xff xff xff xff)))
(T (W x45 x26 x22 x84 xe4 x9c xf2 xcb)
(T (W xfa x54 xff xff x3a x02 x00 x00)
(L (W x18 x00 x1c x00 x20 x00 x24 x00)) E)
(L (W xcc x00 x00 x00 x01 x00 x00 x00))))
(T (W x68 x00 x00 x00 x5c x00 x00 x00)
(T (W x00 x00 x80 x3f x00 x00 x80 x3f)
(T (W x00 x00 x00 x00 x0a xc1 xfd xff)
(L (W x00 x00 x80 xbf x00 x00 x80 xbf)) E)
(L (W x45 x44 x00 x00 x00 x00 x00 x00)))
(T (W xa2 xaf xff xff xbf x01 x00 x00)
(L (W xff xff xff xff xb0 x00 x00 x00))
(L (W x00 x00 x00 x00 x00 x00 x00 x00))))))))))
(T (W x20 x3a x01 x00 xc4 x37 x01 x00)
(T (W xf8 x0d x00 x00 xac x0b x00 x00)
(T (W xff xff xff xff xff xff xff xff)
(T (W xff xff xff xff xff xff xff xff)
(T (W xff xff xff xff xff xff xff xff)
(T (W xff xff xff xff xff xff xff xff)
(T (W x00 x00 x80 x3f x00 x00 x80 x3f)
(T (W xff xff xff xff xff xff xff xff)
(T (W x45 x26 x22 x84 xe4 x9c xf2 xcb)
(L (W x3b x00 x00 x00 x3e x00 x00 x00)) E)
(L (W x00 x00 x00 x00 x12 x00 x00 x00)))
(T (W xff xff xff xff xff xff xff xff)
(T (W x00 x00 x80 x3f x00 x00 x80 x3f)
(L (W x2b x00 x00 x00 x2e x00 x00 x00)) E)
(L (W x18 x00 x00 x00 x10 x00 x00 x00))))
(T (W x00 x00 x00 x00 x00 x00 x00 x00)
(T (W xff xff xff xff xbc x00 x00 x00)
(T (W x45 x26 x22 x84 xe4 x9c xf2 xcb)
(L (W x00 x00 x80 xbf x00 x00 x80 xbf)) E)
(L (W x00 x00 x80 xbf x00 x00 x80 xbf)))
(T (W x03 x00 x00 x00 xd4 x00 x00 x00)
(L (W x00 x00 x80 xbf x00 x00 x80 xbf))
(L (W x45 x44 x00 x00 x00 x00 x00 x00)))))
(T (W x68 x00 x00 x00 x5c x00 x00 x00)
(T (W x00 x00 x80 x3f x00 x00 x80 x3f)
(T (W xff xff xff xff xff xff xff xff)
(T (W xff xff xff xff xff xff xff xff)
(L (W x00 x00 x00 x00 x00 x00 x00 x00)) E)
(L (W x00 x00 x00 x00 x00 x00 x00 x00)))
(T (W x00 x00 x00 x00 x00 x00 x00 x00)
(T (W x00 x00 x00 x00 x00 x00 x00 x00)
(L (W x00 x00 x00 x00 x00 x00 x00 x00)) E)
(L (W x00 x00 x00 x00 x42 xe2 xfe xff))))
(T (W x00 x00 x00 x00 x00 x00 x00 x00)
(T (W x00 x00 x80 x3f x00 x00 x80 x3f)
(T (W x00 x00 x00 x00 x00 x00 x00 x00)
(L (W xff xff xff xff xff xff xff xff)) E)
(L (W x45 x26 x22 x84 xe4 x9c xf2 xcb)))
(T (W x45 x26 x22 x84 xe4 x9c xf2 xcb)
(L (W xff xff xff xff xff xff xff xff))
(L (W x00 x00 x80 xbf x00 x00 x80 xbf))))))
(T (W xff xff xff xff xff xff xff xff)
(T (W xb8 x00 x00 x00 xac x00 x00 x00)
(T (W x00 x00 x80 x3f x00 x00 x80 x3f)
(T (W xff xff xff xff xff xff xff xff)
(T (W x00 x00 x00 x00 x00 x00 x00 x00)
(L (W x04 x00 x00 x00 xa2 x5c xff xff)) E)
(L (W x45 x44 x00 x00 x00 x00 x00 x00)))
(T (W x00 x00 x80 x3f x00 x00 x80 x3f)
(T (W xff xff xff xff xff xff xff xff)
(L (W xff xff xff xff xff xff xff xff)) E)
(L (W xff xff xff xff xff xff xff xff))))
(T (W x00 x00 x00 x00 x00 x00 x00 x00)
(T (W x00 x00 x00 x00 x00 x00 x00 x00)
(T (W x74 x00 x00 x00 x64 x00 x00 x00)
(L (W xff xff xff xff xff xff xff xff)) E)
(L (W x6c x00 x00 x00 x60 x00 x00 x00)))
(T (W x00 x00 x00 x00 x00 x00 x00 x00)
(L (W xff xff xff xff xbc x00 x00 x00))
(L (W x00 x00 x80 xbf x00 x00 x80 xbf)))))
(T (W x18 x00 x00 x00 x0c x00 x00 x00)
(T (W x00 x00 x80 x3f x00 x00 x80 x3f)
(T (W x00 x00 x80 x3f x00 x00 x80 x3f)
(T (W x00 x00 x00 x00 x00 x00 x00 x00)
(L (W x00 x00 x80 xbf x00 x00 x80 xbf)) E)
(L (W x00 x00 x00 x00 x00 x00 x00 x00)))
(T (W x49 xa1 x68 x4a xeb x5f xdd x3d)
(T (W x00 x00 x80 xbf x00 x00 x80 xbf)
(L (W x00 x00 x80 xbf x00 x00 x80 xbf)) E)
(L (W x00 x00 x00 x00 x00 x00 x00 x00))))
(T (W x00 x00 x00 x00 x72 xc9 xff xff)
(T (W x3c xb6 xfc xff x00 x01 x01 x01)
(T (W x00 x00 x00 x00 x00 x00 x00 x00)
(L (W x03 x00 x00 x00 xd0 x00 x00 x00)) E)
(L (W x00 x00 x80 xbf x00 x00 x80 xbf)))
(T (W x00 x00 x80 x3f x00 x00 x80 x3f)
(L (W x00 x00 x00 x00 x12 x00 x00 x00))
(L (W x2d x00 x00 x00 x30 x00 x00 x00)))))))
(T (W xff xff xff xff xff xff xff xff)
(T (W xff xff xff xff xff xff xff xff)
(T (W xff xff xff xff xff xff xff xff)
(T (W x00 x00 x80 x3f x00 x00 x80 x3f)
(T (W xff xff xff xff xff xff xff xff)
(T (W x00 x00 x00 x00 x00 x00 x00 x00)
(L (W xff xff xff xff xff xff xff xff)) E)
(L (W x00 x00 x00 x00 x00 x00 x00 x00)))
(T (W x00 x00 x00 x00 x00 x00 x00 x00)
(T (W x00 x00 x80 x3f x00 x00 x80 x3f)
(L (W xff xff xff xff xff xff xff xff)) E)
(L (W x31 x00 x00 x00 x34 x00 x00 x00))))
(T (W x00 x00 x00 x00 x00 x00 x00 x00)
(T (W xff xff xff xff xff xff xff xff)
(T (W x00 x00 x80 x3f x00 x00 x80 x3f)
(L (W xff xff xff xff xb0 x00 x00 x00)) E)
(L (W x54 x00 x00 x00 x48 x00 x00 x00)))
(T (W xff xff xff xff xff xff xff xff)
(L (W x3c x0e xfe xff x00 x01 x01 x01))
(L (W x00 x00 x00 x00 x00 x00 x00 x00)))))
(T (W x3c xae xfb xff x00 x01 x01 x01)
(T (W x45 x26 x22 x84 xe4 x9c xf2 xcb)
(T (W xa4 x71 xfc xff x3c x00 x00 x00)
(T (W xff xff xff xff xff xff xff xff)
(L (W x00 x00 x80 xbf x00 x00 x80 xbf)) E)
(L (W x00 x00 x00 x00 x00 x00 x00 x00)))
(T (W x00 x00 x00 x00 x00 x00 x00 x00)
(T (W x00 x00 x00 x00 x00 x00 x00 x00)
(L (W x49 xa1 x68 x4a xeb x5f xdd x3d)) E)
(L (W x00 x00 x00 x00 x00 x00 x00 x00))))
(T (W x3e x00 x00 x00 x10 x00 x00 x00)
(T (W x54 x00 x00 x00 x48 x00 x00 x00)
(T (W x18 x00 x00 x00 x10 x00 x00 x00)
(L (W xff xff xff xff xa0 x00 x00 x00)) E)
(L (W x00 x00 x00 x00 x00 x00 x62 x00)))
(T (W x12 x2b xfd xff x78 x00 x00 x00)
(L (W x02 x00 x00 x00 x30 x01 x00 x00))
(L (W x45 x26 x22 x84 xe4 x9c xf2 xcb))))))
(T (W xff xff xff xff xff xff xff xff)
(T (W x45 x26 x22 x84 xe4 x9c xf2 xcb)
(T (W x00 x00 x80 x3f x00 x00 x80 x3f)
(T (W xff xff xff xff xff xff xff xff)
(T (W xa2 xca xff xff x66 x01 x00 x00)
(L (W x45 x44 x00 x00 x00 x00 x00 x00)) E)
(L (W x00 x00 x00 x00 x00 x00 x00 x00)))
(T (W xb0 x00 x00 x00 x64 x00 x00 x00)
(T (W xff xff xff xff xff xff xff xff)
(L (W xff xff xff xff xff xff xff xff)) E)
(L (W x54 x02 x00 x00 x38 x01 x00 x00))))
(T (W x00 x00 x00 x00 x00 x00 x00 x00)
(T (W x00 x00 x00 x00 x00 x00 x00 x00)
(T (W x00 x00 x80 xbf x00 x00 x80 xbf)
(L (W xff xff xff xff xff xff xff xff)) E)
(L (W xff xff xff xff xb8 x00 x00 x00)))
(T (W x00 x00 x00 x00 x00 x00 x00 x00)
(L (W xff xff xff xff xff xff xff xff))
(L (W x54 x00 x00 x00 x48 x00 x00 x00)))))
(T (W x68 x00 x00 x00 x5c x00 x00 x00)
(T (W x00 x00 x00 x00 x00 x00 x00 x00)
(T (W x3c x7e xfc xff x00 x01 x01 x01)
(T (W x45 x26 x22 x84 xe4 x9c xf2 xcb)
(L (W x00 x00 x80 xbf x00 x00 x80 xbf)) E)
(L (W x45 x26 x22 x84 xe4 x9c xf2 xcb)))
(T (W x5a xf9 xfc xff x74 x00 x00 x00)
(T (W x49 xa1 x68 x4a xeb x5f xdd x3d)
(L (W xff xff xff xff xff xff xff xff)) E)
(L (W x30 x00 x00 x00 x0c x00 x00 x00))))
(T (W x1c x01 x00 x00 x04 x00 x00 x00)
(T (W xb0 x00 x00 x00 x64 x00 x00 x00)
(T (W x45 x26 x22 x84 xe4 x9c xf2 xcb)
(L (W x18 x00 x00 x00 x10 x00 x00 x00)) E)
(L (W x00 x00 x80 xbf x00 x00 x80 xbf)))
(T (W x00 x00 x80 x3f x00 x00 x80 x3f)
(L (W x00 x00 x00 x00 x00 x00 x00 x00))
(L (W x18 x00 x00 x00 x10 x00 x00 x00))))))))
(T (W x00 x00 x00 x00 x00 x00 x00 x00)
(T (W x00 x00 x80 x3f x00 x00 x80 x3f)
(T (W xb8 x00 x00 x00 xac x00 x00 x00)
(T (W x00 x00 x00 x00 x00 x00 x00 x00)
(T (W xc7 xb9 xd7 xb8 xda x11 x0d x92)
(T (W x50 x00 x00 x00 x44 x00 x00 x00)
(T (W xff xff xff xff xff xff xff xff)
(L (W x00 x00 x00 x00 x00 x00 x00 x00)) E)
(L (W x00 x00 x80 xbf x00 x00 x80 xbf)))
(T (W x68 x00 x00 x00 x5c x00 x00 x00)
(T (W xff xff xff xff xff xff xff xff)
(L (W x00 x00 x00 x00 x00 x00 x00 x00)) E)
(L (W x45 x44 x00 x00 x00 x00 x00 x00))))
(T (W xff xff xff xff xff xff xff xff)
(T (W x49 xa1 x68 x4a xeb x5f xdd x3d)
(T (W xa2 xf6 xff xff x6c x00 x00 x00)
(L (W x45 x44 x00 x00 x00 x00 x00 x00)) E)
(L (W xff xff xff xff xff xff xff xff)))
(T (W x00 x00 x00 x00 x00 x00 x00 x00)
(L (W x00 x00 x00 x00 x00 x00 x00 x00))
(L (W x45 x26 x22 x84 xe4 x9c xf2 xcb)))))
(T (W x00 x00 x00 x00 x00 x00 x00 x00)
(T (W xff xff xff xff xff xff xff xff)
(T (W x00 x00 x00 x00 x00 x00 x00 x00)
(T (W x45 x26 x22 x84 xe4 x9c xf2 xcb)
(L (W xff xff xff xff xff xff xff xff)) E)
(L (W x18 x00 x00 x00 x0c x00 x00 x00)))
(T (W x18 x00 x00 x00 x0c x00 x00 x00)
(T (W xff xff xff xff xff xff xff xff)
(L (W x00 x00 x2a x00 x54 x00 x44 x00)) E)
(L (W x6c x00 x00 x00 x60 x00 x00 x00))))
(T (W x00 x00 x80 x3f x00 x00 x80 x3f)
(T (W xff xff xff xff xff xff xff xff)
(T (W x8c x08 x00 x00 x58 x07 x00 x00)
(L (W x49 xa1 x68 x4a xeb x5f xdd x3d)) E)
(L (W x00 x00 x00 x00 x00 x00 x00 x00)))
(T (W x00 x00 x00 x00 x00 x00 x00 x00)
(L (W x00 x00 x00 x00 x00 x00 x00 x00))
(L (W xff xff xff xff xff xff xff xff))))))
(T (W x45 x26 x22 x84 xe4 x9c xf2 xcb)
(T (W x45 x26 x22 x84 xe4 x9c xf2 xcb)
(T (W x12 x48 xfe xff x00 x00 x01 x01)
(T (W x00 x00 x80 x3f x00 x00 x80 x3f)
(T (W x50 x00 x00 x00 x44 x00 x00 x00)
(L (W x18 x00 x00 x00 x10 x00 x00 x00)) E)
(L (W x6c x00 x00 x00 x60 x00 x00 x00)))
(T (W xd4 xe0 xfc xff x2d x00 x00 x00)
(T (W x00 x00 x80 xbf x00 x00 x80 xbf)
(L (W x45 x26 x22 x84 xe4 x9c xf2 xcb)) E)
(L (W x00 x00 x80 xbf x00 x00 x80 xbf))))
(T (W x01 x00 x00 x00 xa0 x00 x00 x00)
(T (W x45 x26 x22 x84 xe4 x9c xf2 xcb)
(T (W xff xff xff xff xff xff xff xff)
(L (W x00 x00 x80 xbf x00 x00 x80 xbf)) E)
(L (W x00 x00 x00 x00 x00 x00 x00 x00)))
(T (W xff xff xff xff x9c x00 x00 x00)
(L (W x00 x00 x80 xbf x00 x00 x80 xbf))
(L (W xff xff xff xff xff xff xff xff)))))
(T (W x00 x00 x00 x00 x00 x00 x00 x00)
(T (W xff xff xff xff xff xff xff xff)
(T (W x46 x53 x59 x53 x5f x4e x53 x5f)
(T (W xff xff xff xff xff xff xff xff)
(L (W x00 x00 x00 x00 x32 x95 xff xff)) E)
(L (W x03 x00 x00 x00 xd0 x00 x00 x00)))
(T (W xff xff xff xff xff xff xff xff)
(T (W xff xff xff xff xc0 x00 x00 x00)
(L (W xff xff xff xff xff xff xff xff)) E)
(L (W xff xff xff xff xa8 x00 x00 x00))))
(T (W x00 x00 x80 x3f x00 x00 x80 x3f)
(T (W x00 x00 x00 x00 x00 x00 x00 x00)
(T (W x00 x00 x80 x3f x00 x00 x80 x3f)
(L (W x00 x00 x00 x00 x22 xbb xff xff)) E)
(L (W xff xff xff xff xff xff xff xff)))
(T (W x01 x00 x00 x00 xff xff xff xff)
(L (W xff xff xff xff xff xff xff xff))
(L (W xff xff xff xff xff xff xff xff)))))))
(T (W x00 x00 x80 x3f x00 x00 x80 x3f)
(T (W x00 x00 x80 x3f x00 x00 x80 x3f)
(T (W x45 x26 x22 x84 xe4 x9c xf2 xcb)
(T (W xdd x01 x00 x00 xff xff xff xff)
(T (W x00 x00 x80 x3f x00 x00 x80 x3f)
(T (W xb8 x00 x00 x00 xac x00 x00 x00)
(L (W x00 x00 x80 xbf x00 x00 x80 xbf)) E)
(L (W x5a x4d xfe xff x74 x00 x00 x00)))
(T (W xff xff xff xff xff xff xff xff)
(T (W x46 x53 x59 x53 x5f x4e x53 x5f)
(L (W x49 xa1 x68 x4a xeb x5f xdd x3d)) E)
(L (W x00 x00 x00 x00 x00 x00 x00 x00))))
(T (W x18 x00 x00 x00 x10 x00 x00 x00)
(T (W x6c x00 x00 x00 x60 x00 x00 x00)
(T (W x14 x00 x18 x00 x06 x00 x07 x00)
(L (W x00 x00 x00 x00 x00 x00 x00 x00)) E)
(L (W xff xff xff xff xff xff xff xff)))
(T (W x00 x00 x80 x3f x00 x00 x80 x3f)
(L (W x00 x00 x00 x00 x00 x00 x00 x00))
(L (W x26 x00 x00 x00 x29 x00 x00 x00)))))
(T (W x00 x00 x00 x00 x00 x00 x00 x00)
(T (W xb8 x00 x00 x00 xac x00 x00 x00)
(T (W x00 x00 x00 x00 x00 x00 x00 x00)
(T (W x00 x00 x00 x00 x00 x00 x00 x00)
(L (W xff xff xff xff xff xff xff xff)) E)
(L (W x70 x00 x00 x00 x64 x00 x00 x00)))
(T (W xb0 x00 x00 x00 x64 x00 x00 x00)
(T (W xff xff xff xff xff xff xff xff)
(L (W xff xff xff xff xff xff xff xff)) E)
(L (W x45 x26 x22 x84 xe4 x9c xf2 xcb))))
(T (W x00 x00 x80 x3f x00 x00 x80 x3f)
(T (W x00 x00 x00 x00 x00 x00 x00 x00)
(T (W x00 x00 x80 x3f x00 x00 x80 x3f)
(L (W x46 x53 x59 x53 x5f x4e x53 x5f)) E)
(L (W x44 x02 x00 x00 x30 x01 x00 x00)))
(T (W x02 x00 x00 x00 x20 x01 x00 x00)
(L (W x18 x00 x00 x00 x10 x00 x00 x00))
(L (W x00 x00 x00 x00 x00 x00 x00 x00))))))
(T (W x00 x00 x00 x00 x00 x00 x00 x00)
(T (W x00 x00 x00 x00 x00 x00 x00 x00)
(T (W xff xff xff xff xff xff xff xff)
(T (W x00 x00 x00 x00 x00 x00 x00 x00)
(T (W x00 x00 x80 x3f x00 x00 x80 x3f)
(L (W xc4 x00 x00 x00 x02 x00 x00 x00)) E)
(L (W xff xff xff xff xb8 x00 x00 x00)))
(T (W x45 x26 x22 x84 xe4 x9c xf2 xcb)
(T (W x12 xdf xfd xff x78 x00 x00 x00)
(L (W x00 x00 x80 xbf x00 x00 x80 xbf)) E)
(L (W x54 x00 x00 x00 x48 x00 x00 x00))))
(T (W x5a x1d xfc xff x74 x00 x00 x00)
(T (W xff xff xff xff xff xff xff xff)
(T (W x00 x00 x80 xbf x00 x00 x80 xbf)
(L (W x00 x00 x80 xbf x00 x00 x80 xbf)) E)
(L (W x30 x35 x5f x43 x4c x45 x41 x52)))
(T (W xff xff xff xff xff xff xff xff)
(L (W x45 x26 x22 x84 xe4 x9c xf2 xcb))
(L (W xff xff xff xff xff xff xff xff)))))
(T (W x00 x00 x00 x00 x00 x00 x00 x00)
(T (W xff xff xff xff xff xff xff xff)
(T (W x00 x00 x00 x00 x00 x00 x00 x00)
(T (W x85 x00 x00 x00 xff xff xff xff)
(L (W x44 x02 x00 x00 x30 x01 x00 x00)) E)
(L (W xff xff xff xff xff xff xff xff)))
(T (W x12 x00 x00 x00 x46 x53 x59 x53)
(T (W xff xff xff xff xff xff xff xff)
(L (W x74 x00 x0c x00 x00 x00 x00 x00)) E)
(L (W x00 x00 x80 xbf x00 x00 x80 xbf))))
(T (W x00 x00 x80 x3f x00 x00 x80 x3f)
(T (W x49 xa1 x68 x4a xeb x5f xdd x3d)
(T (W xff xff xff xff xff xff xff xff)
(L (W x00 x00 x00 x00 x00 x00 x00 x00)) E)
(L (W xff xff xff xff xff xff xff xff)))
(T (W xff xff xff xff xff xff xff xff)
(L (W x14 x00 x00 x00 x0c x00 x00 x00))
(L (W x45 x44 x00 x00 x00 x00 x00 x00)))))))))
(T (W x50 x00 x00 x00 x44 x00 x00 x00)
(T (W x00 x00 x00 x00 x00 x00 x00 x00)
(T (W x35 x00 x00 x00 x0c x00 x00 x00)
(T (W x00 x00 x00 x00 x00 x00 x00 x00)
(T (W x00 x00 x00 x00 x00 x00 x00 x00)
(T (W xff xff xff xff xff xff xff xff)
(T (W x00 x00 x00 x00 x00 x00 x00 x00)
(T (W x50 x00 x00 x00 x44 x00 x00 x00)
(L (W xff xff xff xff xff xff xff xff)) E)
(L (W x4f x84 x6f x8b xe8 xcb x63 xb7)))
(T (W x00 x00 x00 x00 x00 x00 x00 x00)
(T (W x45 x26 x22 x84 xe4 x9c xf2 xcb)
(L (W xff xff xff xff xff xff xff xff)) E)
(L (W xff xff xff xff xff xff xff xff))))
(T (W x54 x00 x00 x00 x48 x00 x00 x00)
(T (W x30 x35 x5f x43 x4c x45 x41 x52)
(T (W x68 x00 x00 x00 x5c x00 x00 x00)
(L (W xff xff xff xff xff xff xff xff)) E)
(L (W x45 x26 x22 x84 xe4 x9c xf2 xcb)))
(T (W x9c x01 x00 x00 xff xff xff xff)
(L (W xff xff xff xff xff xff xff xff))
(L (W x4f x84 x6f x8b xe8 xcb x63 xb7)))))
(T (W xff xff xff xff xff xff xff xff)
(T (W x3c xe8 xfb xff x00 x01 x01 x01)
(T (W xff xff xff xff xff xff xff xff)
(T (W x00 x00 x00 x00 x00 x00 x00 x00)
(L (W x00 x00 x00 x00 xac x66 xff xff)) E)
(L (W x00 x00 x80 xbf x00 x00 x80 xbf)))
(T (W x00 x00 x00 x00 x00 x00 x00 x00)
(T (W x12 xe5 xfd xff x78 x00 x00 x00)
(L (W x00 x00 x80 xbf x00 x00 x80 xbf)) E)
(L (W x00 x00 x80 xbf x00 x00 x80 xbf))))
(T (W x45 x26 x22 x84 xe4 x9c xf2 xcb)
(T (W x3c xa8 xfc xff x00 x01 x01 x01)
(T (W x5a xa3 xfd xff x74 x00 x00 x00)
(L (W x46 x53 x59 x53 x5f x4e x53 x5f)) E)
(L (W xff xff xff xff xff xff xff xff)))
(T (W x18 x00 x00 x00 x10 x00 x00 x00)
(L (W x00 x00 x00 x00 x82 x27 xfe xff))
(L (W xcc x00 x00 x00 x01 x00 x00 x00))))))
(T (W x00 x00 x00 x00 x00 x00 x00 x00)
(T (W xb0 x01 x00 x00 xff xff xff xff)
(T (W x45 x26 x22 x84 xe4 x9c xf2 xcb)
(T (W x3e x00 x00 x00 x0c x00 x00 x00)
(T (W x45 x26 x22 x84 xe4 x9c xf2 xcb)
(L (W x00 x00 x00 x00 x00 x00 x00 x00)) E)
(L (W x00 x00 x00 x00 x00 x00 x00 x00)))
(T (W xff xff xff xff xff xff xff xff)
(T (W x15 x00 x00 x00 x0c x00 x00 x00)
(L (W x00 x00 x00 x00 x00 x00 x00 x00)) E)
(L (W x00 x00 x00 x00 x00 x00 x00 x00))))
(T (W x45 x26 x22 x84 xe4 x9c xf2 xcb)
(T (W x00 x00 x80 x3f x00 x00 x80 x3f)
(T (W x00 x00 x80 x3f x00 x00 x80 x3f)
(L (W x00 x00 x00 x00 x12 x00 x00 x00)) E)
(L (W xff xff xff xff xff xff xff xff)))
(T (W x00 x00 x00 x00 x00 x00 x00 x00)
(L (W x00 x00 x00 x00 x00 x00 x00 x00))
(L (W xff xff xff xff xb0 x00 x00 x00)))))
(T (W xff xff xff xff xff xff xff xff)
(T (W x18 x00 x00 x00 x0c x00 x00 x00)
(T (W xff xff xff xff xff xff xff xff)
(T (W x5a x73 xfd xff x74 x00 x00 x00)
(L (W xff xff xff xff x9c x00 x00 x00)) E)
(L (W x00 x00 x80 xbf x00 x00 x80 xbf)))
(T (W x2f x00 x00 x00 x32 x00 x00 x00)
(T (W x6c x00 x00 x00 x60 x00 x00 x00)
(L (W xff xff xff xff xff xff xff xff)) E)
(L (W x00 x00 x80 xbf x00 x00 x80 xbf))))
(T (W x00 x00 x80 x3f x00 x00 x80 x3f)
(T (W xff xff xff xff xff xff xff xff)
(T (W xc4 x00 x00 x00 xff xff xff xff)
(L (W xff xff xff xff xff xff xff xff)) E)
(L (W x18 x00 x00 x00 x10 x00 x00 x00)))
(T (W x64 x00 x00 x00 x9c x00 x00 x00)
(L (W x00 x00 x80 xbf x00 x00 x80 xbf))
(L (W xff xff xff xff xff xff xff xff)))))))
(T (W x00 x00 x00 x00 x00 x00 x00 x00)
(T (W xa4 x73 xfb xff x21 x00 x00 x00)
(T (W x41 xa4 x24 x44 xe3 x38 x6b xa2)
(T (W xb8 x00 x00 x00 xac x00 x00 x00)
(T (W x00 x00 x00 x00 x00 x00 x00 x00)
(T (W x00 x00 x80 x3f x00 x00 x80 x3f)
(L (W x00 x00 x00 x00 x00 x00 x00 x00)) E)
(L (W x45 x26 x22 x84 xe4 x9c xf2 xcb)))
(T (W x00 x00 x80 x3f x00 x00 x80 x3f)
(T (W xff xff xff xff xff xff xff xff)
(L (W x45 x44 x00 x00 x00 x00 x00 x00)) E)
(L (W xff xff xff xff xff xff xff xff))))
(T (W x00 x00 x80 x3f x00 x00 x80 x3f)
(T (W x00 x00 x00 x00 x00 x00 x00 x00)
(T (W xb8 x00 x00 x00 xac x00 x00 x00)
(L (W xff xff xff xff xff xff xff xff)) E)
(L (W xb0 x00 x00 x00 x14 x00 x00 x00)))
(T (W x00 x00 x00 x00 x00 x00 x00 x00)
(L (W xff xff xff xff xff xff xff xff))
(L (W x00 x00 x80 xbf x00 x00 x80 xbf)))))
(T (W xff xff xff xff xff xff xff xff)
(T (W x45 x26 x22 x84 xe4 x9c xf2 xcb)
(T (W x00 x00 x00 x00 x60 x00 x64 x00)
(T (W xa2 xdc xff xff xd9 x01 x00 x00)
(L (W x2c x00 x00 x00 x2f x00 x00 x00)) E)
(L (W x00 x00 x80 xbf x00 x00 x80 xbf)))
(T (W x50 x00 x00 x00 x44 x00 x00 x00)
(T (W x00 x00 x80 xbf x00 x00 x80 xbf)
(L (W xc4 x00 x00 x00 x01 x00 x00 x00)) E)
(L (W x00 x00 x80 xbf x00 x00 x80 xbf))))
(T (W x45 x26 x22 x84 xe4 x9c xf2 xcb)
(T (W xb0 x00 x00 x00 x64 x00 x00 x00)
(T (W x00 x00 x00 x00 x00 x00 x00 x00)
(L (W xff xff xff xff xff xff xff xff)) E)
(L (W x18 x00 x00 x00 x0c x00 x00 x00)))
(T (W xff xff xff xff xff xff xff xff)
(L (W x00 x00 x00 x00 x00 x00 x00 x00))
(L (W xff xff xff xff xff xff xff xff))))))
(T (W x00 x00 x00 x00 x00 x00 x00 x00)
(T (W x12 x0e xfe xff x00 x00 x01 x01)
(T (W x68 x00 x00 x00 x5c x00 x00 x00)
(T (W x12 xce xfe xff x00 x00 x01 x01)
(T (W x00 x00 x00 x00 x00 x00 x00 x00)
(L (W x00 x00 x80 xbf x00 x00 x80 xbf)) E)
(L (W x00 x00 x80 xbf x00 x00 x80 xbf)))
(T (W x9a xd4 x77 x47 x99 x32 x5b x2f)
(T (W x00 x00 x00 x00 x00 x00 x00 x00)
(L (W x45 x44 x00 x00 x00 x00 x00 x00)) E)
(L (W x45 x26 x22 x84 xe4 x9c xf2 xcb))))
(T (W x00 x00 x00 x00 x00 x00 x00 x00)
(T (W x00 x00 x80 x3f x00 x00 x80 x3f)
(T (W x00 x00 x00 x00 x00 x00 x00 x00)
(L (W x00 x00 x00 x00 x00 x00 x00 x00)) E)
(L (W xff xff xff xff xff xff xff xff)))
(T (W x00 x00 x80 x3f x00 x00 x80 x3f)
(L (W x00 x00 x00 x00 x00 x00 x00 x00))
(L (W x21 x00 x00 x00 x24 x00 x00 x00)))))
(T (W xff xff xff xff xff xff xff xff)
(T (W x00 x00 x80 x3f x00 x00 x80 x3f)
(T (W xff xff xff xff xff xff xff xff)
(T (W x68 x00 x00 x00 x5c x00 x00 x00)
(L (W xc4 x00 x00 x00 x02 x00 x00 x00)) E)
(L (W x00 x00 x80 xbf x00 x00 x80 xbf)))
(T (W xff xff xff xff xff xff xff xff)
(T (W x68 x00 x00 x00 x5c x00 x00 x00)
(L (W x00 x00 x80 xbf x00 x00 x80 xbf)) E)
(L (W x00 x00 x00 x00 x00 x00 x00 x00))))
(T (W x00 x00 x00 x00 x00 x00 x00 x00)
(T (W x00 x00 x00 x00 x00 x00 x00 x00)
(T (W xff xff xff xff xa0 x00 x00 x00)
(L (W xff xff xff xff xff xff xff xff)) E)
(L (W x2f x00 x00 x00 x32 x00 x00 x00)))
(T (W xb8 x00 x00 x00 xac x00 x00 x00)
(L (W x00 x00 x80 xbf x00 x00 x80 xbf))
(L (W xff xff xff xff xff xff xff xff))))))))
(T (W x00 x00 x80 x3f x00 x00 x80 x3f)
(T (W x00 x00 x80 x3f x00 x00 x80 x3f)
(T (W x00 x00 x80 x3f x00 x00 x80 x3f)
(T (W x00 x00 x80 x3f x00 x00 x80 x3f)
(T (W x45 x26 x22 x84 xe4 x9c xf2 xcb)
(T (W x45 x26 x22 x84 xe4 x9c xf2 xcb)
(T (W xa2 xb8 xff xff xb5 x01 x00 x00)
(L (W x00 x00 x80 xbf x00 x00 x80 xbf)) E)
(L (W xff xff xff xff xff xff xff xff)))
(T (W xff xff xff xff xff xff xff xff)
(T (W x00 x00 x00 x00 x1b x00 x00 x00)
(L (W x18 x00 x00 x00 x10 x00 x00 x00)) E)
(L (W x49 xa1 x68 x4a xeb x5f xdd x3d))))
(T (W xff xff xff xff xff xff xff xff)
(T (W x45 x26 x22 x84 xe4 x9c xf2 xcb)
(T (W x00 x00 x00 x00 x00 x00 x00 x00)
(L (W x4f x84 x6f x8b xe8 xcb x63 xb7)) E)
(L (W x00 x00 x00 x00 x00 x00 x00 x00)))
(T (W x45 x26 x22 x84 xe4 x9c xf2 xcb)
(L (W x00 x00 x80 xbf x00 x00 x80 xbf))
(L (W x00 x00 x01 x01 x64 x01 x00 x00)))))
(T (W x00 x00 x80 x3f x00 x00 x80 x3f)
(T (W x00 x00 x00 x00 x00 x00 x00 x00)
(T (W x6c x00 x00 x00 x60 x00 x00 x00)
(T (W x50 x00 x00 x00 x44 x00 x00 x00)
(L (W x00 x00 x00 x00 x00 x00 x00 x00)) E)
(L (W x04 x00 x00 x00 x22 x6d xfe xff)))
(T (W xff xff xff xff xff xff xff xff)
(T (W x00 x00 x00 x00 x00 x00 x00 x00)
(L (W x00 x00 x00 x00 x00 x00 x00 x00)) E)
(L (W xff xff xff xff xff xff xff xff))))
(T (W xff xff xff xff xff xff xff xff)
(T (W x00 x00 x00 x00 x00 x00 x00 x00)
(T (W x00 x00 x80 x3f x00 x00 x80 x3f)
(L (W x00 x00 x00 x00 x00 x00 x6c x00)) E)
(L (W x00 x00 x80 xbf x00 x00 x80 xbf)))
(T (W x00 x00 x00 x00 x00 x00 x00 x00)
(L (W x1c x00 x20 x00 x24 x00 x28 x00))
(L (W x00 x00 x00 x00 x00 x00 x00 x00))))))
(T (W x18 x00 x00 x00 x0c x00 x00 x00)
(T (W x00 x00 x80 x3f x00 x00 x80 x3f)
(T (W x00 x00 x00 x00 x00 x00 x00 x00)
(T (W x40 x00 x00 x00 x9c x00 x00 x00)
(T (W xff xff xff xff xff xff xff xff)
(L (W xff xff xff xff xff xff xff xff)) E)
(L (W xff xff xff xff xff xff xff xff)))
(T (W x00 x00 x80 x3f x00 x00 x80 x3f)
(T (W x00 x00 x00 x00 xac xda xfd xff)
(L (W x74 x00 x00 x00 x68 x00 x00 x00)) E)
(L (W x45 x26 x22 x84 xe4 x9c xf2 xcb))))
(T (W xad x01 x00 x00 xff xff xff xff)
(T (W xff xff xff xff xff xff xff xff)
(T (W x00 x00 x00 x00 x00 x00 x00 x00)
(L (W x18 x00 x00 x00 x0c x00 x00 x00)) E)
(L (W x00 x00 x80 xbf x00 x00 x80 xbf)))
(T (W xff xff xff xff xff xff xff xff)
(L (W xc4 x00 x00 x00 x01 x00 x00 x00))
(L (W x00 x00 x00 x00 x00 x00 x00 x00)))))
(T (W x00 x00 x00 x00 x00 x00 x00 x00)
(T (W x7e x00 x00 x00 xff xff xff xff)
(T (W x00 x00 x80 x3f x00 x00 x80 x3f)
(T (W x00 x00 x00 x00 x00 x00 x00 x00)
(L (W x46 x53 x59 x53 x5f x4e x53 x5f)) E)
(L (W x04 x00 x00 x00 x70 x03 x00 x00)))
(T (W x00 x00 x00 x00 x00 x00 x00 x00)
(T (W xff xff xff xff xff xff xff xff)
(L (W x00 x00 x80 xbf x00 x00 x80 xbf)) E)
(L (W xff xff xff xff xff xff xff xff))))
(T (W x18 x00 x00 x00 x0c x00 x00 x00)
(T (W x00 x00 x80 x3f x00 x00 x80 x3f)
(T (W x64 x5f x70 x6f x6b x65 x5f x77)
(L (W x00 x00 x00 x00 x00 x00 x00 x00)) E)
(L (W x00 x00 x00 x00 x00 x00 x00 x00)))
(T (W x00 x00 x00 x00 x00 x00 x00 x00)
(L (W x00 x00 x01 x01 xa9 x01 x00 x00))
(L (W x00 x00 x00 x00 x00 x00 x00 x00)))))))
(T (W x3c x64 xfb xff x00 x01 x01 x01)
(T (W x45 x26 x22 x84 xe4 x9c xf2 xcb)
(T (W x00 x00 x80 x3f x00 x00 x80 x3f)
(T (W x45 x26 x22 x84 xe4 x9c xf2 xcb)
(T (W x18 x00 x00 x00 x10 x00 x00 x00)
(T (W xff xff xff xff xff xff xff xff)
(L (W xc4 x00 x00 x00 x01 x00 x00 x00)) E)
(L (W xff xff xff xff xff xff xff xff)))
(T (W x00 x00 x00 x00 x00 x00 x00 x00)
(T (W x00 x00 x80 xbf x00 x00 x80 xbf)
(L (W xff xff xff xff xff xff xff xff)) E)
(L (W x00 x00 x00 x00 xac xd2 xfe xff))))
(T (W xff xff xff xff xff xff xff xff)
(T (W xff xff xff xff xbc x00 x00 x00)
(T (W xff xff xff xff xff xff xff xff)
(L (W x00 x00 x80 xbf x00 x00 x80 xbf)) E)
(L (W x49 xa1 x68 x4a xeb x5f xdd x3d)))
(T (W xff xff xff xff xff xff xff xff)
(L (W x00 x00 x80 xbf x00 x00 x80 xbf))
(L (W x00 x00 x00 x00 x00 x00 x00 x00)))))
(T (W x45 x26 x22 x84 xe4 x9c xf2 xcb)
(T (W x57 x14 xfa x86 x8f xfd x0b xd3)
(T (W xbc x00 x00 x00 xb0 x00 x00 x00)
(T (W x00 x00 x80 x3f x00 x00 x80 x3f)
(L (W x00 x00 x00 x00 x00 x00 x00 x00)) E)
(L (W xff xff xff xff xff xff xff xff)))
(T (W x4c x45 x41 x52 x45 x44 x00 x00)
(T (W x00 x00 x00 x00 x00 x00 x00 x00)
(L (W x00 x00 x00 x00 x00 x00 x00 x00)) E)
(L (W xff xff xff xff xff xff xff xff))))
(T (W xff xff xff xff x04 x00 x00 x00)
(T (W x00 x00 x80 x3f x00 x00 x80 x3f)
(T (W xff xff xff xff xff xff xff xff)
(L (W x00 x00 x80 xbf x00 x00 x80 xbf)) E)
(L (W x00 x00 x00 x00 x00 x00 x00 x00)))
(T (W x00 x00 x00 x00 x00 x00 x00 x00)
(L (W xff xff xff xff xff xff xff xff))
(L (W x4f x84 x6f x8b xe8 xcb x63 xb7))))))
(T (W x68 x00 x00 x00 x5c x00 x00 x00)
(T (W x00 x00 x80 x3f x00 x00 x80 x3f)
(T (W x00 x00 x00 x00 x00 x00 x00 x00)
(T (W x50 x00 x00 x00 x44 x00 x00 x00)
(T (W xb8 x00 x00 x00 xac x00 x00 x00)
(L (W xff xff xff xff xff xff xff xff)) E)
(L (W xff xff xff xff xff xff xff xff)))
(T (W x18 x00 x00 x00 x10 x00 x00 x00)
(T (W xff xff xff xff xff xff xff xff)
(L (W x03 x00 x00 x00 xc8 x00 x00 x00)) E)
(L (W xff xff xff xff xc8 x00 x00 x00))))
(T (W xff xff xff xff xff xff xff xff)
(T (W x00 x00 x00 x00 x00 x00 x00 x00)
(T (W xff xff xff xff xff xff xff xff)
(L (W xff xff xff xff xc0 x00 x00 x00)) E)
(L (W x4f x84 x6f x8b xe8 xcb x63 xb7)))
(T (W x00 x00 x00 x00 x00 x00 x00 x00)
(L (W x3b x00 x00 x00 x3e x00 x00 x00))
(L (W x00 x00 x00 x00 x00 x00 x00 x00)))))
(T (W x00 x00 x00 x00 x00 x00 x00 x00)
(T (W xff xff xff xff xff xff xff xff)
(T (W x6c x00 x00 x00 x60 x00 x00 x00)
(T (W x00 x00 x00 x00 x00 x00 x00 x00)
(L (W x00 x00 x00 x00 x00 x00 x00 x00)) E)
(L (W x00 x00 x00 x00 x00 x00 x00 x00)))
(T (W x00 x00 x80 x3f x00 x00 x80 x3f)
(T (W x00 x00 x00 x00 x00 x00 x00 x00)
(L (W x50 x00 x54 x00 x58 x00 x5c x00)) E)
(L (W xff xff xff xff xff xff xff xff))))
(T (W x5a x3f xfc xff x74 x00 x00 x00)
(T (W x00 x00 x00 x00 xac xc2 xfc xff)
(T (W x00 x00 x00 x00 x12 x00 x00 x00)
(L (W x00 x00 x80 xbf x00 x00 x80 xbf)) E)
(L (W x00 x00 x00 x00 x00 x00 x00 x00)))
(T (W x00 x00 x00 x00 x00 x00 x00 x00)
(L (W xff xff xff xff xff xff xff xff))
(L (W x49 xa1 x68 x4a xeb x5f xdd x3d)))))))))))))
(T (W x78 x4d x04 x00 xcc x48 x04 x00)
(T (W x28 x05 x04 x00 x94 x00 x04 x00)
(T (W xb8 x3f x03 x00 x1c x3b x03 x00)
(T (W xe8 x46 x02 x00 xa4 x44 x02 x00)
(T (W x68 xfd x00 x00 x34 xfc x00 x00)
(T (W x00 x00 x00 x00 x00 x00 x00 x00)
(T (W x00 x00 x00 x00 x00 x00 x00 x00)
(T (W x00 x00 x00 x00 x00 x00 x00 x00)
(T (W x00 x00 x00 x00 x00 x00 x00 x00)
(T (W xff xff xff xff xff xff xff xff)
(T (W x00 x00 x00 x00 x00 x00 x00 x00)
(T (W xff xff xff xff xff xff xff xff)
(L (W x00 x00 x00 x00 xa2 x40 xff xff)) E)
(L (W x00 x00 x80 xbf x00 x00 x80 xbf)))
(T (W x00 x00 x00 x00 x00 x00 x00 x00)
(T (W xff xff xff xff xff xff xff xff)
(L (W x00 x00 x00 x00 x12 x00 x00 x00)) E)
(L (W x54 x02 x00 x00 x38 x01 x00 x00))))
(T (W x68 x00 x00 x00 x5c x00 x00 x00)
(T (W x00 x00 x00 x00 x00 x00 x00 x00)
(T (W xff xff xff xff xff xff xff xff)
(L (W xff xff xff xff xff xff xff xff)) E)
(L (W xff xff xff xff x9c x00 x00 x00)))
(T (W x00 x00 x00 x00 x00 x00 x00 x00)
(T (W xff xff xff xff xff xff xff xff)
(L (W xff xff xff xff xff xff xff xff)) E)
(L (W x6c x00 x00 x00 x60 x00 x00 x00)))))
(T (W x00 x00 x00 x00 x00 x00 x00 x00)
(T (W xff xff xff xff xff xff xff xff)
(T (W x00 x00 x00 x00 x00 x00 x00 x00)
(T (W x00 x00 x80 x3f x00 x00 x80 x3f)
(L (W x9c x64 xff xff x00 x01 x01 x01)) E)
(L (W x54 x00 x00 x00 x48 x00 x00 x00)))
(T (W x45 x26 x22 x84 xe4 x9c xf2 xcb)
(T (W x6c x00 x00 x00 x60 x00 x00 x00)
(L (W x00 x00 x80 xbf x00 x00 x80 xbf)) E)
(L (W x00 x00 x80 xbf x00 x00 x80 xbf))))
(T (W x00 x00 x80 x3f x00 x00 x80 x3f)
(T (W xff xff xff xff x9c x00 x00 x00)
(T (W x68 x00 x00 x00 x5c x00 x00 x00)
(L (W x00 x00 x80 xbf x00 x00 x80 xbf)) E)
(L (W x8f x01 x00 x00 xff xff xff xff)))
(T (W xff xff xff xff xff xff xff xff)
(L (W x45 x26 x22 x84 xe4 x9c xf2 xcb))
(L (W xff xff xff xff xff xff xff xff))))))
(T (W x45 x26 x22 x84 xe4 x9c xf2 xcb)
(T (W x04 x98 xfb xff x3e x00 x00 x00)
(T (W xff xff xff xff xff xff xff xff)
(T (W x45 x26 x22 x84 xe4 x9c xf2 xcb)
(T (W x9c x54 xfd xff x00 x01 x01 x01)
(L (W x00 x00 x80 xbf x00 x00 x80 xbf)) E)
(L (W x45 x26 x22 x84 xe4 x9c xf2 xcb)))
(T (W xff xff xff xff xff xff xff xff)
(T (W x5f x4e x53 x5f x30 x35 x5f x43)
(L (W x00 x00 x80 xbf x00 x00 x80 xbf)) E)
(L (W x00 x00 x00 x00 x00 x00 x00 x00))))
(T (W x45 x26 x22 x84 xe4 x9c xf2 xcb)
(T (W x00 x00 x80 x3f x00 x00 x80 x3f)
(T (W x00 x00 x80 x3f x00 x00 x80 x3f)
(L (W x00 x00 x00 x00 x00 x00 x00 x00)) E)
(L (W x00 x00 x00 x00 xa2 x90 xfe xff)))
(T (W x00 x00 x80 x3f x00 x00 x80 x3f)
(L (W x00 x00 x00 x00 x00 x00 x00 x00))
(L (W xb8 x00 x00 x00 x64 x00 x00 x00)))))
(T (W x01 x00 x00 x00 x04 x00 x00 x00)
(T (W xb8 x00 x00 x00 xac x00 x00 x00)
(T (W x00 x00 x80 x3f x00 x00 x80 x3f)
(T (W x00 x00 x00 x00 x00 x00 x00 x00)
(L (W xff xff xff xff xff xff xff xff)) E)
(L (W x50 x00 x00 x00 x44 x00 x00 x00)))
(T (W xff xff xff xff xff xff xff xff)
(T (W xff xff xff xff xff xff xff xff)
(L (W xff xff xff xff xff xff xff xff)) E)
(L (W xba xef xfe xff x74 x00 x00 x00))))
(T (W x00 x00 x80 x3f x00 x00 x80 x3f)
(T (W x00 x00 x00 x00 x00 x00 x00 x00)
(T (W x00 x00 x80 x3f x00 x00 x80 x3f)
(L (W x00 x00 x00 x00 x00 x00 x00 x00)) E)
(L (W xff xff xff xff xff xff xff xff)))
(T (W x73 x02 x00 x00 xff xff xff xff)
(L (W x50 x00 x00 x00 x44 x00 x00 x00))
(L (W xdc x00 x00 x00 xff xff xff xff)))))))
(T (W x00 x00 x00 x00 x00 x00 x00 x00)
(T (W x00 x00 x00 x00 x00 x00 x00 x00)
(T (W x00 x00 x00 x00 x00 x00 x00 x00)
(T (W xff xff xff xff xff xff xff xff)
(T (W x45 x26 x22 x84 xe4 x9c xf2 xcb)
(T (W x45 x26 x22 x84 xe4 x9c xf2 xcb)
(L (W x34 x53 xff xff x15 x00 x00 x00)) E)
(L (W x6c x00 x00 x00 x60 x00 x00 x00)))
(T (W x68 x00 x00 x00 x5c x00 x00 x00)
(T (W xff xff xff xff xff xff xff xff)
(L (W x45 x26 x22 x84 xe4 x9c xf2 xcb)) E)
(L (W x00 x00 x00 x00 xa2 xc8 xfe xff))))
(T (W x9c x0c xfc xff x00 x01 x01 x01)
(T (W x4f x84 x6f x8b xe8 xcb x63 xb7)
(T (W xff xff xff xff xff xff xff xff)
(L (W xff xff xff xff x01 x00 x00 x00)) E)
(L (W xff xff xff xff xff xff xff xff)))
(T (W x45 x26 x22 x84 xe4 x9c xf2 xcb)
(L (W x00 x00 x00 x00 x00 x00 x00 x00))
(L (W xff xff xff xff xb0 x00 x00 x00)))))
(T (W x00 x00 x00 x00 x00 x00 x00 x00)
(T (W xff xff xff xff xff xff xff xff)
(T (W x00 x00 x00 x00 x00 x00 x00 x00)
(T (W x00 x00 x00 x00 x00 x00 x00 x00)
(L (W x31 x00 x00 x00 x34 x00 x00 x00)) E)
(L (W x2f x00 x00 x00 x32 x00 x00 x00)))
(T (W x68 x00 x00 x00 x5c x00 x00 x00)
(T (W xff xff xff xff xa0 x00 x00 x00)
(L (W xff xff xff xff x9c x00 x00 x00)) E)
(L (W x9c xec xfe xff x00 x01 x01 x01))))
(T (W x54 x00 x00 x00 x48 x00 x00 x00)
(T (W xff xff xff xff xff xff xff xff)
(T (W x00 x00 x00 x00 x00 x00 x00 x00)
(L (W x03 x00 x00 x00 xd4 x00 x00 x00)) E)
(L (W x00 x00 x00 x00 x00 x00 x00 x00)))
(T (W xff xff xff xff xff xff xff xff)
(L (W x4f x84 x6f x8b xe8 xcb x63 xb7))
(L (W x04 x00 x00 x00 x6a x2a xff xff))))))
(T (W x45 x26 x22 x84 xe4 x9c xf2 xcb)
(T (W x00 x00 x00 x00 x00 x00 x00 x00)
(T (W xff xff xff xff xff xff xff xff)
(T (W x00 x00 x80 x3f x00 x00 x80 x3f)
(T (W x00 x00 x80 x3f x00 x00 x80 x3f)
(L (W x54 x00 x00 x00 x48 x00 x00 x00)) E)
(L (W x54 x00 x00 x00 x48 x00 x00 x00)))
(T (W x34 xe3 xfc xff x37 x00 x00 x00)
(T (W x00 x00 x00 x00 x00 x00 x00 x00)
(L (W x00 x00 x00 x00 x00 x00 x00 x00)) E)
(L (W x4f x84 x6f x8b xe8 xcb x63 xb7))))
(T (W x18 x00 x00 x00 x0c x00 x00 x00)
(T (W x18 x00 x00 x00 x0c x00 x00 x00)
(T (W xff xff xff xff xff xff xff xff)
(L (W x49 xa1 x68 x4a xeb x5f xdd x3d)) E)
(L (W x0e x00 x00 x00 x0c x00 x00 x00)))
(T (W x68 x00 x00 x00 x5c x00 x00 x00)
(L (W x00 x00 x80 xbf x00 x00 x80 xbf))
(L (W xff xff xff xff xff xff xff xff)))))
(T (W xff xff xff xff xff xff xff xff)
(T (W x45 x26 x22 x84 xe4 x9c xf2 xcb)
(T (W x00 x00 x00 x00 x00 x00 x00 x00)
(T (W x64 x00 x00 x00 x9c x00 x00 x00)
(L (W xff xff xff xff xff xff xff xff)) E)
(L (W x03 x00 x00 x00 xd0 x00 x00 x00)))
(T (W x02 x00 x00 x00 xff xff xff xff)
(T (W x00 x00 x00 x00 x0c xfb xfd xff)
(L (W x10 x00 x04 x00 x08 x00 x0c x00)) E)
(L (W x00 x00 x80 xbf x00 x00 x80 xbf))))
(T (W x45 x26 x22 x84 xe4 x9c xf2 xcb)
(T (W x00 x00 x00 x00 x00 x00 x00 x00)
(T (W x03 x00 x00 x00 xd0 x00 x00 x00)
(L (W x54 x02 x00 x00 x38 x01 x00 x00)) E)
(L (W xff xff xff xff xff xff xff xff)))
(T (W xff xff xff xff xff xff xff xff)
(L (W x1c x00 x00 x00 x10 x00 x00 x00))
(L (W x54 x02 x00 x00 x38 x01 x00 x00))))))))
(T (W xff xff xff xff xff xff xff xff)
(T (W xff xff xff xff xff xff xff xff)
(T (W xff xff xff xff xff xff xff xff)
(T (W xff xff xff xff xff xff xff xff)
(T (W x00 x00 x80 x3f x00 x00 x80 x3f)
(T (W xff xff xff xff xff xff xff xff)
(T (W x00 x00 x00 x00 x00 x00 x00 x00)
(L (W x54 x00 x00 x00 x48 x00 x00 x00)) E)
(L (W x5c x00 x00 x00 xff xff xff xff)))
(T (W xff xff xff xff xff xff xff xff)
(T (W x4f x84 x6f x8b xe8 xcb x63 xb7)
(L (W x45 x26 x22 x84 xe4 x9c xf2 xcb)) E)
(L (W x54 x00 x00 x00 x48 x00 x00 x00))))
(T (W x00 x00 x00 x00 x00 x00 x00 x00)
(T (W xff xff xff xff xff xff xff xff)
(T (W x00 x00 x00 x00 x00 x00 x00 x00)
(L (W x6c x00 x00 x00 x60 x00 x00 x00)) E)
(L (W x4f x84 x6f x8b xe8 xcb x63 xb7)))
(T (W x18 x00 x00 x00 x0c x00 x00 x00)
(L (W x00 x00 x80 xbf x00 x00 x80 xbf))
(L (W x69 x01 x00 x00 xff xff xff xff)))))
(T (W x68 x00 x00 x00 x5c x00 x00 x00)
(T (W x00 x00 x00 x00 x00 x00 x00 x00)
(T (W xba x63 xfc xff x74 x00 x00 x00)
(T (W xff xff xff xff xff xff xff xff)
(L (W x00 x00 x00 x00 x00 x00 x00 x00)) E)
(L (W x30 x35 x5f x43 x4c x45 x41 x52)))
(T (W xff xff xff xff xff xff xff xff)
(T (W x00 x00 x00 x00 x00 x00 x00 x00)
(L (W x00 x00 x00 x00 xfa xf1 xff xff)) E)
(L (W x00 x00 x00 x00 x00 x00 x00 x00))))
(T (W xff xff xff xff xff xff xff xff)
(T (W x00 x00 x00 x00 x00 x00 x00 x00)
(T (W x00 x00 x00 x00 x00 x00 x00 x00)
(L (W xff xff xff xff xff xff xff xff)) E)
(L (W x54 x00 x00 x00 x48 x00 x00 x00)))
(T (W x45 x26 x22 x84 xe4 x9c xf2 xcb)
(L (W xff xff xff xff x94 x00 x00 x00))
(L (W x00 x00 x80 xbf x00 x00 x80 xbf))))))
(T (W x64 x00 x00 x00 x9c x00 x00 x00)
(T (W x45 x26 x22 x84 xe4 x9c xf2 xcb)
(T (W x45 x26 x22 x84 xe4 x9c xf2 xcb)
(T (W xff xff xff xff x04 x00 x00 x00)
(T (W x00 x00 x00 x00 x02 x00 x00 x00)
(L (W x54 x02 x00 x00 x38 x01 x00 x00)) E)
(L (W xff xff xff xff xff xff xff xff)))
(T (W x00 x00 x80 x3f x00 x00 x80 x3f)
(T (W xff xff xff xff xff xff xff xff)
(L (W xcc x00 x00 x00 x01 x00 x00 x00)) E)
(L (W xff xff xff xff xff xff xff xff))))
(T (W x22 xcf xfd x95 xcc x14 x31 xdf)
(T (W x45 x44 x00 x00 x00 x00 x00 x00)
(T (W x34 x9f xfd xff x32 x00 x00 x00)
(L (W xff xff xff xff xff xff xff xff)) E)
(L (W x72 x95 xfe xff x78 x00 x00 x00)))
(T (W x80 x03 x00 x00 x54 x02 x00 x00)
(L (W xb0 x00 x00 x00 x64 x00 x00 x00))
(L (W x00 x00 x80 xbf x00 x00 x80 xbf)))))
(T (W x45 x26 x22 x84 xe4 x9c xf2 xcb)
(T (W x45 x26 x22 x84 xe4 x9c xf2 xcb)
(T (W x00 x00 x80 x3f x00 x00 x80 x3f)
(T (W x00 x00 x00 x00 x00 x00 x00 x00)
(L (W x00 x00 x80 xbf x00 x00 x80 xbf)) E)
(L (W x30 x35 x5f x43 x4c x45 x41 x52)))
(T (W x00 x00 x80 x3f x00 x00 x80 x3f)
(T (W x00 x00 x00 x00 x00 x00 x00 x00)
(L (W x00 x00 x00 x00 xc8 xf3 xff xff)) E)
(L (W x00 x00 x00 x00 x00 x00 x00 x00))))
(T (W xff xff xff xff xff xff xff xff)
(T (W x45 x26 x22 x84 xe4 x9c xf2 xcb)
(T (W x18 x00 x00 x00 x10 x00 x00 x00)
(L (W x00 x01 x01 x01 xf2 xc4 xff xff)) E)
(L (W x45 x26 x22 x84 xe4 x9c xf2 xcb)))
(T (W x00 x00 x80 x3f x00 x00 x80 x3f)
(L (W x46 x53 x59 x53 x5f x4e x53 x5f))
(L (W x54 x00 x00 x00 x48 x00 x00 x00)))))))
(T (W xff xff xff xff x03 x00 x00 x00)
(T (W xff xff xff xff xff xff xff xff)
(T (W xff xff xff xff xff xff xff xff)
(T (W x00 x00 x80 x3f x00 x00 x80 x3f)
(T (W xff xff xff xff xff xff xff xff)
(T (W x00 x00 x00 x00 x00 x00 x00 x00)
(L (W x21 x00 x00 x00 x24 x00 x00 x00)) E)
(L (W xff xff xff xff xff xff xff xff)))
(T (W x00 x00 x00 x00 x00 x00 x00 x00)
(T (W x00 x00 x00 x00 x0c xcf xfd xff)
(L (W xff xff xff xff xc8 x00 x00 x00)) E)
(L (W x45 x26 x22 x84 xe4 x9c xf2 xcb))))
(T (W x00 x00 x00 x00 x00 x00 x00 x00)
(T (W xff xff xff xff xff xff xff xff)
(T (W x00 x00 x80 x3f x00 x00 x80 x3f)
(L (W x72 x8d xff xff x78 x00 x00 x00)) E)
(L (W x00 x00 x80 xbf x00 x00 x80 xbf)))
(T (W xff xff xff xff xff xff xff xff)
(L (W x72 x0d xfe xff x78 x00 x00 x00))
(L (W x00 x00 x00 x00 x00 x00 x00 x00)))))
(T (W x00 x00 x80 x3f x00 x00 x80 x3f)
(T (W x45 x26 x22 x84 xe4 x9c xf2 xcb)
(T (W x40 x00 x00 x00 x9c x00 x00 x00)
(T (W x45 x26 x22 x84 xe4 x9c xf2 xcb)
(L (W x00 x00 x80 xbf x00 x00 x80 xbf)) E)
(L (W x00 x00 x00 x00 xfa x79 xfe xff)))
(T (W x00 x00 x00 x00 x00 x00 x00 x00)
(T (W x00 x00 x00 x00 x12 x00 x00 x00)
(L (W x00 x00 x80 xbf x00 x00 x80 xbf)) E)
(L (W x00 x00 x00 x00 x82 xf1 xfe xff))))
(T (W xff xff xff xff xff xff xff xff)
(T (W x00 x00 x80 x3f x00 x00 x80 x3f)
(T (W xb4 x00 x00 x00 x64 x00 x00 x00)
(L (W x00 x00 x00 x00 x0c xaf xff xff)) E)
(L (W x49 xa1 x68 x4a xeb x5f xdd x3d)))
(T (W x00 x00 x80 x3f x00 x00 x80 x3f)
(L (W x54 x02 x00 x00 x38 x01 x00 x00))
(L (W x00 x00 x80 xbf x00 x00 x80 xbf))))))
(T (W xff xff xff xff x03 x00 x00 x00)
(T (W x18 x00 x00 x00 x0c x00 x00 x00)
(T (W x00 x00 x00 x00 x00 x00 x00 x00)
(T (W x18 x00 x00 x00 x0c x00 x00 x00)
(T (W xff xff xff xff xff xff xff xff)
(L (W x00 x00 x00 x00 x12 x00 x00 x00)) E)
(L (W x04 x64 xfe xff x15 x00 x00 x00)))
(T (W xb0 x00 x00 x00 x64 x00 x00 x00)
(T (W xff xff xff xff xff xff xff xff)
(L (W xff xff xff xff xbc x00 x00 x00)) E)
(L (W xff xff xff xff xff xff xff xff))))
(T (W xa8 x01 x00 x00 xff xff xff xff)
(T (W x00 x00 x00 x00 x00 x00 x00 x00)
(T (W xff xff xff xff xff xff xff xff)
(L (W xff xff xff xff xff xff xff xff)) E)
(L (W x08 x9f xfe xff xf2 xac xfe xff)))
(T (W x12 x00 x00 x00 x46 x53 x59 x53)
(L (W xff xff xff xff xff xff xff xff))
(L (W x45 x26 x22 x84 xe4 x9c xf2 xcb)))))
(T (W x00 x00 x80 x3f x00 x00 x80 x3f)
(T (W x00 x00 x00 x00 x00 x00 x00 x00)
(T (W x9c x80 xfc xff x00 x01 x01 x01)
(T (W x00 x00 x00 x00 x00 x00 x00 x00)
(L (W x00 x00 x80 xbf x00 x00 x80 xbf)) E)
(L (W x00 x00 x00 x00 x00 x00 x00 x00)))
(T (W x00 x00 x80 x3f x00 x00 x80 x3f)
(T (W x00 x00 x00 x00 x00 x00 x00 x00)
(L (W x30 x35 x5f x43 x4c x45 x41 x52)) E)
(L (W xff xff xff xff xff xff xff xff))))
(T (W x5d x00 x00 x00 xff xff xff xff)
(T (W xff xff xff xff x9c x00 x00 x00)
(T (W x00 x00 x80 x3f x00 x00 x80 x3f)
(L (W x50 x00 x00 x00 x44 x00 x00 x00)) E)
(L (W x00 x00 x80 xbf x00 x00 x80 xbf)))
(T (W x00 x00 x80 x3f x00 x00 x80 x3f)
(L (W x30 x00 x00 x00 x0c x00 x00 x00))
(L (W x54 x00 x00 x00 x48 x00 x00 x00)))))))))
(T (W xff xff xff xff xff xff xff xff)
(T (W x00 x00 x80 x3f x00 x00 x80 x3f)
(T (W x50 x00 x00 x00 x44 x00 x00 x00)
(T (W x50 x00 x00 x00 x44 x00 x00 x00)
(T (W x00 x00 x80 x3f x00 x00 x80 x3f)
(T (W x00 x00 x00 x00 x00 x00 x00 x00)
(T (W xba x41 xfc xff x74 x00 x00 x00)
(T (W x00 x00 x00 x00 x02 x00 x00 x00)
(L (W x00 x00 x80 xbf x00 x00 x80 xbf)) E)
(L (W xff xff xff xff xff xff xff xff)))
(T (W x00 x00 x00 x00 x0c xc5 xfc xff)
(T (W x45 x44 x00 x00 x00 x00 x00 x00)
(L (W x00 x00 x80 xbf x00 x00 x80 xbf)) E)
(L (W x45 x26 x22 x84 xe4 x9c xf2 xcb))))
(T (W xff xff xff xff xff xff xff xff)
(T (W x00 x00 x80 x3f x00 x00 x80 x3f)
(T (W xf8 xcc x36 x97 x85 x2a x63 x5f)
(L (W x00 x00 x00 x00 x00 x00 x00 x00)) E)
(L (W x45 x44 x00 x00 x00 x00 x00 x00)))
(T (W x00 x00 x80 x3f x00 x00 x80 x3f)
(L (W x00 x00 x00 x00 x00 x00 x00 x00))
(L (W xff xff xff xff xc0 x00 x00 x00)))))
(T (W x00 x00 x00 x00 x00 x00 x00 x00)
(T (W x00 x00 x00 x00 x00 x00 x00 x00)
(T (W x00 x00 x80 x3f x00 x00 x80 x3f)
(T (W x9c x66 xfd xff x00 x01 x01 x01)
(L (W x00 x00 x01 x01 xaa x01 x00 x00)) E)
(L (W xb8 x00 x00 x00 x64 x00 x00 x00)))
(T (W xb8 x00 x00 x00 x64 x00 x00 x00)
(T (W xff xff xff xff xff xff xff xff)
(L (W xff xff xff xff xff xff xff xff)) E)
(L (W xff xff xff xff x9c x00 x00 x00))))
(T (W xff xff xff xff xff xff xff xff)
(T (W x00 x00 x00 x00 x00 x00 x00 x00)
(T (W xff xff xff xff xff xff xff xff)
(L (W x00 x00 x00 x00 x0c xa5 xff xff)) E)
(L (W x4f x84 x6f x8b xe8 xcb x63 xb7)))
(T (W x37 xec x60 x32 x34 x36 x1a x4f)
(L (W x00 x00 x80 xbf x00 x00 x80 xbf))
(L (W x00 x00 x00 x00 x12 x00 x00 x00))))))
(T (W x00 x00 x00 x00 x0c x75 xfb xff)
(T (W x00 x00 x80 x3f x00 x00 x80 x3f)
(T (W x00 x00 x00 x00 x00 x00 x00 x00)
(T (W x00 x00 x80 x3f x00 x00 x80 x3f)
(T (W xff xff xff xff xff xff xff xff)
(L (W xff xff xff xff xb0 x00 x00 x00)) E)
(L (W xff xff xff xff xb0 x00 x00 x00)))
(T (W x00 x00 x00 x00 x00 x00 x00 x00)
(T (W x00 x00 x80 xbf x00 x00 x80 xbf)
(L (W x00 x00 x00 x00 xa0 xd6 xff xff)) E)
(L (W x00 x00 x80 xbf x00 x00 x80 xbf))))
(T (W xb8 x00 x00 x00 xac x00 x00 x00)
(T (W xb0 x00 x00 x00 x64 x00 x00 x00)
(T (W x4e x45 x4c x4f x53 x00 x00 x00)
(L (W x00 x00 x00 x00 x0c x95 xff xff)) E)
(L (W x00 x00 x00 x00 x00 x00 x00 x00)))
(T (W xc0 x00 x00 x00 x01 x00 x00 x00)
(L (W x00 x00 x80 xbf x00 x00 x80 xbf))
(L (W x46 x53 x59 x53 x5f x4e x53 x5f)))))
(T (W x45 x26 x22 x84 xe4 x9c xf2 xcb)
(T (W x19 x01 x00 x00 xff xff xff xff)
(T (W x00 x00 x00 x00 x0d x00 x00 x00)
(T (W xff xff xff xff x03 x00 x00 x00)
(L (W x00 x00 x00 x00 x00 x00 x00 x00)) E)
(L (W xff xff xff xff xff xff xff xff)))
(T (W x5a x48 xfe xff x9c x01 x00 x00)
(T (W x00 x00 x01 x01 x43 x00 x00 x00)
(L (W x00 x00 x00 x00 x00 x00 x00 x00)) E)
(L (W xff xff xff xff xff xff xff xff))))
(T (W x18 x00 x00 x00 x10 x00 x00 x00)
(T (W x00 x00 x00 x00 x00 x00 x00 x00)
(T (W x5c x0a x00 x00 x48 x09 x00 x00)
(L (W x00 x00 x80 xbf x00 x00 x80 xbf)) E)
(L (W x00 x00 x00 x00 x00 x00 x00 x00)))
(T (W x00 x00 x00 x00 x00 x00 x00 x00)
(L (W xff xff xff xff xff xff xff xff))
(L (W x00 x00 x80 xbf x00 x00 x80 xbf)))))))
(T (W x00 x00 x80 x3f x00 x00 x80 x3f)
(T (W xba x69 xfb xff x74 x00 x00 x00)
(T (W x00 x00 x80 x3f x00 x00 x80 x3f)
(T (W x04 xd2 xfb xff x3e x00 x00 x00)
(T (W x00 x00 x80 x3f x00 x00 x80 x3f)
(T (W xff xff xff xff xff xff xff xff)
(L (W x00 x00 x80 xbf x00 x00 x80 xbf)) E)
(L (W xff xff xff xff xff xff xff xff)))
(T (W xff xff xff xff xff xff xff xff)
(T (W x00 x00 x00 x00 x00 x00 x00 x00)
(L (W x54 x00 x00 x00 x48 x00 x00 x00)) E)
(L (W x00 x00 x80 xbf x00 x00 x80 xbf))))
(T (W xff xff xff xff xff xff xff xff)
(T (W x9c x8e xfc xff x00 x01 x01 x01)
(T (W x00 x00 x00 x00 x00 x00 x00 x00)
(L (W x00 x00 x80 xbf x00 x00 x80 xbf)) E)
(L (W x00 x00 x00 x00 x00 x00 x00 x00)))
(T (W x00 x00 x80 x3f x00 x00 x80 x3f)
(L (W x00 x00 x00 x00 x00 x00 x00 x00))
(L (W xff xff xff xff xff xff xff xff)))))
(T (W x00 x00 x00 x00 x00 x00 x00 x00)
(T (W x92 x43 xa9 x09 x27 x63 xef x11)
(T (W x44 x00 x48 x00 x4c x00 x50 x00)
(T (W x00 x00 x80 x3f x00 x00 x80 x3f)
(L (W x00 x00 x00 x00 x00 x00 x00 x00)) E)
(L (W xff xff xff xff xff xff xff xff)))
(T (W xff xff xff xff xff xff xff xff)
(T (W xff xff xff xff xff xff xff xff)
(L (W x00 x00 x00 x00 x7a xf3 xff xff)) E)
(L (W xff xff xff xff xff xff xff xff))))
(T (W xff xff xff xff xff xff xff xff)
(T (W x00 x00 x00 x00 x00 x00 x00 x00)
(T (W x45 x26 x22 x84 xe4 x9c xf2 xcb)
(L (W x00 x00 x80 xbf x00 x00 x80 xbf)) E)
(L (W x00 x00 x00 x00 x60 x00 x64 x00)))
(T (W x00 x00 x00 x00 x00 x00 x00 x00)
(L (W xc4 x00 x00 x00 x01 x00 x00 x00))
(L (W x45 x26 x22 x84 xe4 x9c xf2 xcb))))))
(T (W x45 x26 x22 x84 xe4 x9c xf2 xcb)
(T (W x45 x26 x22 x84 xe4 x9c xf2 xcb)
(T (W x00 x00 x00 x00 x00 x00 x00 x00)
(T (W x00 x00 x80 x3f x00 x00 x80 x3f)
(T (W x45 x26 x22 x84 xe4 x9c xf2 xcb)
(L (W xff xff xff xff xc4 x00 x00 x00)) E)
(L (W xff xff xff xff xff xff xff xff)))
(T (W x00 x00 x80 x3f x00 x00 x80 x3f)
(T (W xba xd9 xfd xff x74 x00 x00 x00)
(L (W x00 x00 x80 xbf x00 x00 x80 xbf)) E)
(L (W xcc x00 x00 x00 x01 x00 x00 x00))))
(T (W xff xff xff xff xff xff xff xff)
(T (W xff xff xff xff xff xff xff xff)
(T (W x00 x00 x00 x00 x00 x00 x00 x00)
(L (W x72 x9b xff xff x78 x00 x00 x00)) E)
(L (W x00 x00 x80 xbf x00 x00 x80 xbf)))
(T (W xff xff xff xff xff xff xff xff)
(L (W x72 x1b xfe xff x78 x00 x00 x00))
(L (W x00 x00 x00 x00 x00 x00 x00 x00)))))
(T (W x00 x00 x00 x00 x00 x00 x00 x00)
(T (W x72 x6c xfe xff x00 x00 x01 x01)
(T (W x00 x00 x00 x00 x00 x00 x00 x00)
(T (W xff xff xff xff xff xff xff xff)
(L (W x00 x00 x00 x00 x12 x00 x00 x00)) E)
(L (W xff xff xff xff xff xff xff xff)))
(T (W x00 x00 x00 x00 x00 x00 x00 x00)
(T (W x22 x51 xfe xff x3b x02 x00 x00)
(L (W x00 x00 x80 xbf x00 x00 x80 xbf)) E)
(L (W xff xff xff xff xff xff xff xff))))
(T (W x01 x00 x00 x00 xa0 x00 x00 x00)
(T (W x00 x00 x80 x3f x00 x00 x80 x3f)
(T (W x67 x72 x6f x75 x70 x5f x6c x65)
(L (W x45 x26 x22 x84 xe4 x9c xf2 xcb)) E)
(L (W x00 x00 x00 x00 x12 x00 x00 x00)))
(T (W x00 x00 x00 x00 x00 x00 x00 x00)
(L (W xff xff xff xff xff xff xff xff))
(L (W x45 x26 x22 x84 xe4 x9c xf2 xcb))))))))
(T (W xff xff xff xff xff xff xff xff)
(T (W x73 x02 x00 x00 xff xff xff xff)
(T (W x00 x00 x80 x3f x00 x00 x80 x3f)
(T (W xff xff xff xff xff xff xff xff)
(T (W xff xff xff xff xff xff xff xff)
(T (W x00 x00 x00 x00 x00 x00 x00 x00)
(T (W x00 x00 x80 x3f x00 x00 x80 x3f)
(L (W xff xff xff xff xff xff xff xff)) E)
(L (W x46 x53 x59 x53 x5f x4e x53 x5f)))
(T (W x00 x00 x00 x00 x00 x00 x00 x00)
(T (W x54 x00 x00 x00 x48 x00 x00 x00)
(L (W x54 x02 x00 x00 x38 x01 x00 x00)) E)
(L (W xff xff xff xff xc8 x00 x00 x00))))
(T (W x00 x00 x80 x3f x00 x00 x80 x3f)
(T (W x00 x00 x00 x00 x7a x8f xfc xff)
(T (W x45 x26 x22 x84 xe4 x9c xf2 xcb)
(L (W xff xff xff xff xbc x00 x00 x00)) E)
(L (W x50 x00 x00 x00 x44 x00 x00 x00)))
(T (W xb2 x5e xfd xff x00 x00 x01 x01)
(L (W xff xff xff xff x9c x00 x00 x00))
(L (W x4f x84 x6f x8b xe8 xcb x63 xb7)))))
(T (W xff xff xff xff xff xff xff xff)
(T (W x00 x00 x80 x3f x00 x00 x80 x3f)
(T (W xff xff xff xff xff xff xff xff)
(T (W x00 x00 x00 x00 x02 x00 x00 x00)
(L (W x00 x00 x80 xbf x00 x00 x80 xbf)) E)
(L (W x49 xa1 x68 x4a xeb x5f xdd x3d)))
(T (W x49 xa1 x68 x4a xeb x5f xdd x3d)
(T (W x00 x00 x80 xbf x00 x00 x80 xbf)
(L (W x00 x00 x80 xbf x00 x00 x80 xbf)) E)
(L (W x00 x00 x00 x00 x00 x00 x00 x00))))
(T (W x00 x00 x00 x00 x00 x00 x00 x00)
(T (W x72 xa7 xfc xff x78 x00 x00 x00)
(T (W xff xff xff xff xff xff xff xff)
(L (W x00 x00 x00 x00 x7a xaf xff xff)) E)
(L (W xff xff xff xff xff xff xff xff)))
(T (W xb8 x00 x00 x00 x64 x00 x00 x00)
(L (W xff xff xff xff xff xff xff xff))
(L (W x45 x26 x22 x84 xe4 x9c xf2 xcb))))))
(T (W x01 x00 x00 x00 x04 x00 x00 x00)
(T (W xff xff xff xff xff xff xff xff)
(T (W x18 x00 x00 x00 x0c x00 x00 x00)
(T (W x00 x00 x00 x00 xd2 xed xff xff)
(T (W x00 x00 x00 x00 x00 x00 x00 x00)
(L (W x45 x26 x22 x84 xe4 x9c xf2 xcb)) E)
(L (W x00 x00 x00 x00 x00 x00 x00 x00)))
(T (W xff xff xff xff xff xff xff xff)
(T (W x00 x00 x00 x00 x00 x00 x00 x00)
(L (W xff xff xff xff xff xff xff xff)) E)
(L (W x45 x44 x00 x00 x00 x00 x00 x00))))
(T (W x00 x00 x80 x3f x00 x00 x80 x3f)
(T (W x4f x84 x6f x8b xe8 xcb x63 xb7)
(T (W x00 x00 x80 xbf x00 x00 x80 xbf)
(L (W x45 x44 x00 x00 x00 x00 x00 x00)) E)
(L (W xff xff xff xff xff xff xff xff)))
(T (W x00 x00 x80 x3f x00 x00 x80 x3f)
(L (W x00 x00 x00 x00 x00 x00 x00 x00))
(L (W x72 x17 xff xff x78 x00 x00 x00)))))
(T (W xff xff xff xff x03 x00 x00 x00)
(T (W x00 x00 x80 x3f x00 x00 x80 x3f)
(T (W xff xff xff xff xff xff xff xff)
(T (W x00 x00 x80 x3f x00 x00 x80 x3f)
(L (W x14 x00 x00 x00 x0c x00 x00 x00)) E)
(L (W x00 x00 x80 xbf x00 x00 x80 xbf)))
(T (W x9c xfa xfc xff x00 x01 x01 x01)
(T (W x00 x00 x80 xbf x00 x00 x80 xbf)
(L (W x00 x00 x80 xbf x00 x00 x80 xbf)) E)
(L (W x49 xa1 x68 x4a xeb x5f xdd x3d))))
(T (W x00 x00 x00 x00 x00 x00 x00 x00)
(T (W xff xff xff xff xff xff xff xff)
(T (W x45 x44 x00 x00 x00 x00 x00 x00)
(L (W x31 x00 x00 x00 x34 x00 x00 x00)) E)
(L (W x50 x00 x00 x00 x44 x00 x00 x00)))
(T (W x00 x00 x00 x00 x0c x39 xfd xff)
(L (W x54 x00 x00 x00 x48 x00 x00 x00))
(L (W x1c x00 x00 x00 x10 x00 x00 x00)))))))
(T (W x00 x00 x00 x00 x00 x00 x00 x00)
(T (W x34 x79 xfb xff x21 x00 x00 x00)
(T (W xff xff xff xff xff xff xff xff)
(T (W x45 x26 x22 x84 xe4 x9c xf2 xcb)
(T (W x1b x00 x00 x00 x10 x00 x00 x00)
(T (W x00 x00 x80 x3f x00 x00 x80 x3f)
(L (W x00 x00 x00 x00 x00 x00 x00 x00)) E)
(L (W x00 x00 x00 x00 x00 x00 x00 x00)))
(T (W x00 x00 x80 x3f x00 x00 x80 x3f)
(T (W xff xff xff xff xff xff xff xff)
(L (W x00 x00 x00 x00 xa2 xce xff xff)) E)
(L (W x00 x00 x01 x01 x40 x00 x00 x00))))
(T (W x45 x26 x22 x84 xe4 x9c xf2 xcb)
(T (W x00 x00 x00 x00 x00 x00 x00 x00)
(T (W xff xff xff xff xff xff xff xff)
(L (W xff xff xff xff xff xff xff xff)) E)
(L (W x45 x26 x22 x84 xe4 x9c xf2 xcb)))
(T (W x4c x45 x41 x52 x45 x44 x00 x00)
(L (W xff xff xff xff xff xff xff xff))
(L (W x00 x00 x80 xbf x00 x00 x80 xbf)))))
(T (W x64 x00 x00 x00 x9c x00 x00 x00)
(T (W x00 x00 x80 x3f x00 x00 x80 x3f)
(T (W xff xff xff xff xff xff xff xff)
(T (W xff xff xff xff xff xff xff xff)
(L (W x9c x72 xff xff x00 x01 x01 x01)) E)
(L (W x00 x00 x00 x00 x00 x00 x00 x00)))
(T (W x00 x00 x80 x3f x00 x00 x80 x3f)
(T (W x9c xf2 xfd xff x00 x01 x01 x01)
(L (W x6c x00 x00 x00 x60 x00 x00 x00)) E)
(L (W x00 x00 x00 x00 x00 x00 x00 x00))))
(T (W x00 x00 x00 x00 x00 x00 x00 x00)
(T (W xff xff xff xff x9c x00 x00 x00)
(T (W x46 x53 x59 x53 x5f x4e x53 x5f)
(L (W xff xff xff xff xff xff xff xff)) E)
(L (W xc4 x00 x00 x00 x01 x00 x00 x00)))
(T (W xbc x00 x00 x00 xb0 x00 x00 x00)
(L (W x45 x26 x22 x84 xe4 x9c xf2 xcb))
(L (W xbc x00 x00 x00 x32 x00 x00 x00))))))
(T (W xff xff xff xff xff xff xff xff)
(T (W xff xff xff xff xff xff xff xff)
(T (W x68 x00 x00 x00 x5c x00 x00 x00)
(T (W x1c x01 x00 x00 x04 x00 x00 x00)
(T (W x00 x00 x00 x00 x00 x00 x00 x00)
(L (W x00 x00 x80 xbf x00 x00 x80 xbf)) E)
(L (W x00 x00 x80 xbf x00 x00 x80 xbf)))
(T (W x09 x8d x83 x90 xa4 x1c x70 x04)
(T (W x00 x00 x00 x00 x00 x00 x00 x00)
(L (W x00 x00 x00 x00 x00 x00 x00 x00)) E)
(L (W x00 x00 x00 x00 x00 x00 x00 x00))))
(T (W x00 x00 x00 x00 x00 x00 x00 x00)
(T (W x00 x00 x80 x3f x00 x00 x80 x3f)
(T (W x00 x00 x00 x00 x00 x00 x00 x00)
(L (W x3e x00 x00 x00 x0c x00 x00 x00)) E)
(L (W xff xff xff xff xff xff xff xff)))
(T (W x68 x00 x00 x00 x5c x00 x00 x00)
(L (W x07 xd0 x30 xdc x00 xec x3d x2f))
(L (W x40 x00 x00 x00 x00 x00 x80 xbf)))))
(T (W xff xff xff xff xff xff xff xff)
(T (W x00 x00 x80 x3f x00 x00 x80 x3f)
(T (W xff xff xff xff xff xff xff xff)
(T (W x45 x26 x22 x84 xe4 x9c xf2 xcb)
(L (W xc4 x00 x00 x00 x01 x00 x00 x00)) E)
(L (W x00 x00 x80 xbf x00 x00 x80 xbf)))
(T (W xff xff xff xff xff xff xff xff)
(T (W x68 x00 x00 x00 x5c x00 x00 x00)
(L (W x00 x00 x01 x01 xbf x01 x00 x00)) E)
(L (W x00 x00 x00 x00 x00 x00 x00 x00))))
(T (W x00 x00 x00 x00 x00 x00 x00 x00)
(T (W x00 x00 x00 x00 x7a xc7 xfc xff)
(T (W x00 x00 x00 x00 x0c xc1 xfd xff)
(L (W xff xff xff xff xff xff xff xff)) E)
(L (W x45 x26 x22 x84 xe4 x9c xf2 xcb)))
(T (W x9c x42 xfd xff x00 x01 x01 x01)
(L (W x00 x00 x00 x00 x00 x00 x00 x00))
(L (W xff xff xff xff xc8 x00 x00 x00))))))))))
(T (W x30 x96 x01 x00 xfc x94 x01 x00)
(T (W xe8 x6a x00 x00 xb4 x69 x00 x00)
(T (W x00 x00 x80 x3f x00 x00 x80 x3f)
(T (W x45 x26 x22 x84 xe4 x9c xf2 xcb)
(T (W x45 x26 x22 x84 xe4 x9c xf2 xcb)
(T (W x00 x00 x80 x3f x00 x00 x80 x3f)
(T (W x01 x00 x00 x00 x04 x00 x00 x00)
(T (W x00 x00 x80 x3f x00 x00 x80 x3f)
(T (W xff xff xff xff xff xff xff xff)
(L (W x00 x00 x00 x00 x00 x00 x00 x00)) E)
(L (W xc4 x00 x00 x00 x01 x00 x00 x00)))
(T (W x00 x00 x80 x3f x00 x00 x80 x3f)
(T (W xff xff xff xff xff xff xff xff)
(L (W x00 x00 x00 x00 x00 x00 x00 x00)) E)
(L (W x00 x00 x00 x00 x00 x00 x00 x00))))
(T (W xb8 x00 x00 x00 xac x00 x00 x00)
(T (W x4f x84 x6f x8b xe8 xcb x63 xb7)
(T (W xff xff xff xff xff xff xff xff)
(L (W x00 x00 x00 x00 x00 x00 x00 x00)) E)
(L (W xff xff xff xff xff xff xff xff)))
(T (W x00 x00 x00 x00 x00 x00 x00 x00)
(T (W x5a x57 xff xff x3a x02 x00 x00)
(L (W x00 x00 x00 x00 x00 x00 x00 x00)) E)
(L (W x45 x26 x22 x84 xe4 x9c xf2 xcb)))))
(T (W x00 x00 x00 x00 x00 x00 x00 x00)
(T (W x20 x01 x00 x00 x04 x00 x00 x00)
(T (W x00 x00 x80 x3f x00 x00 x80 x3f)
(T (W x00 x00 x80 x3f x00 x00 x80 x3f)
(L (W xb8 x00 x00 x00 x64 x00 x00 x00)) E)
(L (W x9c x65 xfe xff x00 x01 x01 x01)))
(T (W x9c xe5 xfc xff x00 x01 x01 x01)
(T (W x18 x00 x00 x00 x10 x00 x00 x00)
(L (W xff xff xff xff xff xff xff xff)) E)
(L (W x6c x00 x00 x00 x60 x00 x00 x00))))
(T (W xc0 x00 x00 x00 xb4 x00 x00 x00)
(T (W xff xff xff xff xff xff xff xff)
(T (W x03 x00 x00 x00 xbc x00 x00 x00)
(L (W x00 x00 x80 xbf x00 x00 x80 xbf)) E)
(L (W x04 xa9 xfe xff x0b x00 x00 x00)))
(T (W xff xff xff xff xff xff xff xff)
(L (W x00 x00 x80 xbf x00 x00 x80 xbf))
(L (W x00 x00 x00 x00 x6a x23 xff xff))))))
(T (W x68 x00 x00 x00 x5c x00 x00 x00)
(T (W x00 x00 x00 x00 x00 x00 x00 x00)
(T (W x72 x43 xfe xff x00 x00 x01 x01)
(T (W x00 x00 x80 x3f x00 x00 x80 x3f)
(T (W x45 x26 x22 x84 xe4 x9c xf2 xcb)
(L (W x00 x00 x80 xbf x00 x00 x80 xbf)) E)
(L (W x1c x00 x00 x00 x10 x00 x00 x00)))
(T (W x04 x00 x00 x00 x7a xda xfc xff)
(T (W x00 x00 x00 x00 x00 x00 x00 x00)
(L (W x6c x00 x00 x00 x60 x00 x00 x00)) E)
(L (W x00 x00 x80 xbf x00 x00 x80 xbf))))
(T (W x01 x00 x00 x00 x9c x00 x00 x00)
(T (W x9c x95 xfc xff x00 x01 x01 x01)
(T (W x02 x00 x00 x00 xff xff xff xff)
(L (W x00 x00 x80 xbf x00 x00 x80 xbf)) E)
(L (W x00 x00 x00 x00 x00 x00 x00 x00)))
(T (W x45 x26 x22 x84 xe4 x9c xf2 xcb)
(L (W x4f x84 x6f x8b xe8 xcb x63 xb7))
(L (W x00 x00 x01 x01 xaa x01 x00 x00)))))
(T (W x00 x00 x00 x00 x00 x00 x00 x00)
(T (W xff xff xff xff xff xff xff xff)
(T (W x74 x02 x00 x00 xff xff xff xff)
(T (W x00 x00 x00 x00 x00 x00 x00 x00)
(L (W x00 x00 x00 x00 x00 x00 x00 x00)) E)
(L (W x03 x00 x00 x00 xd8 x00 x00 x00)))
(T (W xff xff xff xff xff xff xff xff)
(T (W xff xff xff xff xff xff xff xff)
(L (W x19 x01 x00 x00 xff xff xff xff)) E)
(L (W xff xff xff xff xff xff xff xff))))
(T (W x9c x35 xfc xff x00 x01 x01 x01)
(T (W x00 x00 x00 x00 x00 x00 x00 x00)
(T (W x45 x26 x22 x84 xe4 x9c xf2 xcb)
(L (W x00 x00 x00 x00 x00 x00 x00 x00)) E)
(L (W x00 x00 x00 x00 x00 x00 x00 x00)))
(T (W x00 x00 x00 x00 x00 x00 x00 x00)
(L (W xc4 x00 x00 x00 x01 x00 x00 x00))
(L (W x00 x00 x00 x00 x00 x00 x00 x00)))))))
(T (W x45 x26 x22 x84 xe4 x9c xf2 xcb)
(T (W x50 x00 x00 x00 x44 x00 x00 x00)
(T (W x45 x26 x22 x84 xe4 x9c xf2 xcb)
(T (W xff xff xff xff xff xff xff xff)
(T (W x45 x26 x22 x84 xe4 x9c xf2 xcb)
(T (W xff xff xff xff xff xff xff xff)
(L (W x49 xa1 x68 x4a xeb x5f xdd x3d)) E)
(L (W xff xff xff xff xa0 x00 x00 x00)))
(T (W xb0 x00 x00 x00 x64 x00 x00 x00)
(T (W x00 x00 x00 x00 x00 x00 x00 x00)
(L (W x00 x00 x80 xbf x00 x00 x80 xbf)) E)
(L (W x00 x00 x00 x00 x00 x00 x00 x00))))
(T (W x45 x26 x22 x84 xe4 x9c xf2 xcb)
(T (W x00 x00 x80 x3f x00 x00 x80 x3f)
(T (W x00 x00 x00 x00 x02 x00 x00 x00)
(L (W x00 x00 x00 x00 x00 x00 x00 x00)) E)
(L (W x00 x00 x00 x00 x00 x00 x00 x00)))
(T (W x00 x00 x80 x3f x00 x00 x80 x3f)
(L (W x00 x00 x00 x00 x00 x00 x00 x00))
(L (W xff xff xff xff xff xff xff xff)))))
(T (W x00 x00 x00 x00 x00 x00 x00 x00)
(T (W xff xff xff xff xff xff xff xff)
(T (W x00 x00 x00 x00 x0c x6c xfc xff)
(T (W x00 x00 x80 x3f x00 x00 x80 x3f)
(L (W xff xff xff xff xff xff xff xff)) E)
(L (W xff xff xff xff xff xff xff xff)))
(T (W x18 x00 x00 x00 x10 x00 x00 x00)
(T (W xff xff xff xff xff xff xff xff)
(L (W xff xff xff xff xff xff xff xff)) E)
(L (W xbc x00 x00 x00 x64 x00 x00 x00))))
(T (W xba x28 xfc xff x74 x00 x00 x00)
(T (W x00 x00 x00 x00 x00 x00 x00 x00)
(T (W x00 x00 x00 x00 x00 x00 x00 x00)
(L (W x24 x00 x28 x00 x2c x00 x30 x00)) E)
(L (W xba xa8 xfe xff x74 x00 x00 x00)))
(T (W x04 x31 xfd xff x33 x00 x00 x00)
(L (W x58 x00 x00 x00 x4c x00 x00 x00))
(L (W x00 x00 x00 x00 x12 x00 x00 x00))))))
(T (W x00 x00 x80 x3f x00 x00 x80 x3f)
(T (W x00 x00 x00 x00 x00 x00 x00 x00)
(T (W x00 x00 x00 x00 x00 x00 x00 x00)
(T (W x00 x00 x80 x3f x00 x00 x80 x3f)
(T (W x9c x5d xfd xff x00 x01 x01 x01)
(L (W x45 x26 x22 x84 xe4 x9c xf2 xcb)) E)
(L (W x45 x26 x22 x84 xe4 x9c xf2 xcb)))
(T (W x00 x00 x00 x00 x00 x00 x00 x00)
(T (W x00 x00 x80 xbf x00 x00 x80 xbf)
(L (W x49 xa1 x68 x4a xeb x5f xdd x3d)) E)
(L (W x00 x00 x80 xbf x00 x00 x80 xbf))))
(T (W x0a x00 x00 x00 x3e x00 x00 x00)
(T (W xff xff xff xff xff xff xff xff)
(T (W xe2 xf0 xfe xff x00 x00 x01 x01)
(L (W x00 x00 x80 xbf x00 x00 x80 xbf)) E)
(L (W x4f x84 x6f x8b xe8 xcb x63 xb7)))
(T (W xff xff xff xff xff xff xff xff)
(L (W x00 x00 x80 xbf x00 x00 x80 xbf))
(L (W x45 x44 x00 x00 x00 x00 x00 x00)))))
(T (W x04 xc1 xfb xff x27 x00 x00 x00)
(T (W xff xff xff xff xff xff xff xff)
(T (W x00 x00 x00 x00 x00 x00 x00 x00)
(T (W xff xff xff xff xff xff xff xff)
(L (W x04 x00 x00 x00 x6a x7b xff xff)) E)
(L (W xff xff xff xff xff xff xff xff)))
(T (W x4c x45 x41 x52 x45 x44 x00 x00)
(T (W xff xff xff xff xff xff xff xff)
(L (W x00 x00 x80 xbf x00 x00 x80 xbf)) E)
(L (W xba xf8 xfe xff x74 x00 x00 x00))))
(T (W x00 x00 x80 x3f x00 x00 x80 x3f)
(T (W x00 x00 x00 x00 x00 x00 x00 x00)
(T (W xff xff xff xff xff xff xff xff)
(L (W x00 x00 x00 x00 x00 x00 x00 x00)) E)
(L (W x00 x00 x00 x00 x00 x00 x00 x00)))
(T (W x00 x00 x00 x00 x02 x00 x00 x00)
(L (W xff xff xff xff xb0 x00 x00 x00))
(L (W x00 x00 x00 x00 x00 x00 x00 x00))))))))
(T (W xff xff xff xff xff xff xff xff)
(T (W xff xff xff xff xff xff xff xff)
(T (W x14 x00 x18 x00 x00 x00 x00 x00)
(T (W xff xff xff xff xff xff xff xff)
(T (W x68 x00 x00 x00 x5c x00 x00 x00)
(T (W x48 x03 x00 x00 x34 x02 x00 x00)
(T (W x00 x00 x80 x3f x00 x00 x80 x3f)
(L (W x45 x26 x22 x84 xe4 x9c xf2 xcb)) E)
(L (W x00 x00 x01 x01 x69 x01 x00 x00)))
(T (W x34 xd0 xfc xff x24 x00 x00 x00)
(T (W x00 x00 x80 x3f x00 x00 x80 x3f)
(L (W xff xff xff xff xc4 x00 x00 x00)) E)
(L (W x45 x26 x22 x84 xe4 x9c xf2 xcb))))
(T (W x00 x00 x00 x00 x00 x00 x00 x00)
(T (W xff xff xff xff xff xff xff xff)
(T (W x9c x89 xfd xff x00 x01 x01 x01)
(L (W x45 x26 x22 x84 xe4 x9c xf2 xcb)) E)
(L (W x00 x00 x80 xbf x00 x00 x80 xbf)))
(T (W xff xff xff xff xff xff xff xff)
(L (W x72 x06 xfe xff x78 x00 x00 x00))
(L (W x00 x00 x00 x00 x00 x00 x00 x00)))))
(T (W xff xff xff xff x04 x00 x00 x00)
(T (W x45 x26 x22 x84 xe4 x9c xf2 xcb)
(T (W xff xff xff xff x04 x00 x00 x00)
(T (W xff xff xff xff xff xff xff xff)
(L (W x00 x00 x80 xbf x00 x00 x80 xbf)) E)
(L (W x00 x00 x00 x00 x00 x00 x00 x00)))
(T (W x34 xf0 xfc xff x10 x00 x00 x00)
(T (W x00 x00 x80 xbf x00 x00 x80 xbf)
(L (W x46 x53 x59 x53 x5f x4e x53 x5f)) E)
(L (W x00 x00 x00 x00 x00 x00 x00 x00))))
(T (W x45 x73 xe3 xa1 x8a x0a x04 x32)
(T (W x00 x00 x80 x3f x00 x00 x80 x3f)
(T (W x00 x00 x80 xbf x00 x00 x80 xbf)
(L (W xff xff xff xff xff xff xff xff)) E)
(L (W x45 x26 x22 x84 xe4 x9c xf2 xcb)))
(T (W x9c x29 xfd xff x00 x01 x01 x01)
(L (W xff xff xff xff xff xff xff xff))
(L (W x6c x00 x00 x00 x60 x00 x00 x00))))))
(T (W xff xff xff xff xff xff xff xff)
(T (W xff xff xff xff xff xff xff xff)
(T (W x00 x00 x80 x3f x00 x00 x80 x3f)
(T (W xff xff xff xff xff xff xff xff)
(T (W x00 x00 x00 x00 x00 x00 x00 x00)
(L (W x00 x00 x00 x00 x00 x00 x00 x00)) E)
(L (W x2e x00 x00 x00 x0c x00 x00 x00)))
(T (W x00 x00 x00 x00 x0c xd8 xfc xff)
(T (W xff xff xff xff xff xff xff xff)
(L (W xff xff xff xff xff xff xff xff)) E)
(L (W xff xff xff xff xff xff xff xff))))
(T (W x00 x00 x00 x00 x00 x00 x00 x00)
(T (W x00 x00 x00 x00 x00 x00 x00 x00)
(T (W x00 x00 x00 x00 x00 x00 x00 x00)
(L (W xff xff xff xff xff xff xff xff)) E)
(L (W x1a x00 x00 x00 x1d x00 x00 x00)))
(T (W x00 x00 x00 x00 x00 x00 x00 x00)
(L (W xff xff xff xff xff xff xff xff))
(L (W x00 x00 x80 xbf x00 x00 x80 xbf)))))
(T (W x40 x00 x00 x00 x9c x00 x00 x00)
(T (W x00 x00 x80 x3f x00 x00 x80 x3f)
(T (W xff xff xff xff xb0 x00 x00 x00)
(T (W x00 x00 x80 x3f x00 x00 x80 x3f)
(L (W x00 x01 x01 x01 xf2 x85 xff xff)) E)
(L (W x00 x00 x00 x00 x00 x00 x00 x00)))
(T (W x50 x00 x00 x00 x44 x00 x00 x00)
(T (W x4f x84 x6f x8b xe8 xcb x63 xb7)
(L (W x00 x00 x62 x00 x74 x00 x08 x00)) E)
(L (W x00 x00 x00 x00 x00 x00 x00 x00))))
(T (W x00 x00 x00 x00 x00 x00 x00 x00)
(T (W xff xff xff xff xc8 x00 x00 x00)
(T (W xff xff xff xff xff xff xff xff)
(L (W x14 x00 x00 x00 x0c x00 x00 x00)) E)
(L (W x00 x00 x80 xbf x00 x00 x80 xbf)))
(T (W x6c x00 x00 x00 x60 x00 x00 x00)
(L (W x00 x00 x00 x00 x00 x00 x00 x00))
(L (W x08 x38 xff xff xf2 x45 xff xff)))))))
(T (W xff xff xff xff x01 x00 x00 x00)
(T (W xff xff xff xff xff xff xff xff)
(T (W xff xff xff xff xff xff xff xff)
(T (W x72 xce xfb xff x78 x00 x00 x00)
(T (W xff xff xff xff xff xff xff xff)
(T (W x00 x00 x00 x00 x00 x00 x00 x00)
(L (W xff xff xff xff xff xff xff xff)) E)
(L (W x30 x35 x5f x43 x4c x45 x41 x52)))
(T (W x45 x26 x22 x84 xe4 x9c xf2 xcb)
(T (W xff xff xff xff xb0 x00 x00 x00)
(L (W xff xff xff xff xff xff xff xff)) E)
(L (W xff xff xff xff xc4 x00 x00 x00))))
(T (W x00 x00 x00 x00 x00 x00 x00 x00)
(T (W x45 x44 x00 x00 x00 x00 x00 x00)
(T (W x00 x00 x80 x3f x00 x00 x80 x3f)
(L (W xff xff xff xff x9c x00 x00 x00)) E)
(L (W x00 x00 x80 xbf x00 x00 x80 xbf)))
(T (W x9c x01 x00 x00 xff xff xff xff)
(L (W xff xff xff xff x9c x00 x00 x00))
(L (W x00 x00 x00 x00 x00 x00 x00 x00)))))
(T (W x18 x00 x00 x00 x0c x00 x00 x00)
(T (W x00 x00 x80 x3f x00 x00 x80 x3f)
(T (W xff xff xff xff x03 x00 x00 x00)
(T (W xff xff xff xff xff xff xff xff)
(L (W x54 x00 x00 x00 x48 x00 x00 x00)) E)
(L (W x46 x53 x59 x53 x5f x4e x53 x5f)))
(T (W x00 x00 x00 x00 x00 x00 x00 x00)
(T (W x45 x26 x22 x84 xe4 x9c xf2 xcb)
(L (W x3c x00 x00 x00 x00 x00 x80 xbf)) E)
(L (W x00 x00 x00 x00 x12 x00 x00 x00))))
(T (W x02 x9e xfe xff x6c x00 x00 x00)
(T (W x72 xae xfc xff x78 x00 x00 x00)
(T (W x00 x00 x01 x01 xd4 x00 x00 x00)
(L (W xff xff xff xff xb0 x00 x00 x00)) E)
(L (W x00 x00 x80 xbf x00 x00 x80 xbf)))
(T (W x50 x00 x00 x00 x44 x00 x00 x00)
(L (W x00 x00 x00 x00 x00 x00 x00 x00))
(L (W x9c x31 xff xff x00 x01 x01 x01))))))
(T (W xff xff xff xff xff xff xff xff)
(T (W xb8 x00 x00 x00 xac x00 x00 x00)
(T (W x00 x00 x80 x3f x00 x00 x80 x3f)
(T (W xff xff xff xff xff xff xff xff)
(T (W x00 x00 x00 x00 x02 x00 x00 x00)
(L (W x45 x26 x22 x84 xe4 x9c xf2 xcb)) E)
(L (W x4f x84 x6f x8b xe8 xcb x63 xb7)))
(T (W xff xff xff xff xff xff xff xff)
(T (W x04 xe5 xfd xff x32 x00 x00 x00)
(L (W xff xff xff xff xff xff xff xff)) E)
(L (W x45 x44 x00 x00 x00 x00 x00 x00))))
(T (W x00 x00 x00 x00 x00 x00 x00 x00)
(T (W x00 x00 x80 x3f x00 x00 x80 x3f)
(T (W x00 x00 x00 x00 x01 x00 x00 x00)
(L (W xff xff xff xff xff xff xff xff)) E)
(L (W x1c x00 x00 x00 x10 x00 x00 x00)))
(T (W x00 x00 x00 x00 x00 x00 x00 x00)
(L (W xff xff xff xff xff xff xff xff))
(L (W x00 x00 x80 xbf x00 x00 x80 xbf)))))
(T (W x01 x00 x00 x00 x3e x00 x00 x00)
(T (W x00 x00 x80 x3f x00 x00 x80 x3f)
(T (W xb0 x00 x00 x00 x64 x00 x00 x00)
(T (W x00 x00 x00 x00 x00 x00 x00 x00)
(L (W x00 x00 x80 xbf x00 x00 x80 xbf)) E)
(L (W x00 x00 x80 xbf x00 x00 x80 xbf)))
(T (W x31 x00 x00 x00 x34 x00 x00 x00)
(T (W x45 x26 x22 x84 xe4 x9c xf2 xcb)
(L (W x72 xfe xff xff x78 x00 x00 x00)) E)
(L (W x00 x00 x00 x00 x00 x00 x00 x00))))
(T (W x00 x00 x00 x00 x00 x00 x00 x00)
(T (W xff xff xff xff xff xff xff xff)
(T (W x00 x00 x80 x3f x00 x00 x80 x3f)
(L (W xff xff xff xff xff xff xff xff)) E)
(L (W x54 x00 x00 x00 x48 x00 x00 x00)))
(T (W x00 x00 x80 x3f x00 x00 x80 x3f)
(L (W x00 x00 x00 x00 x00 x00 x00 x00))
(L (W x45 x26 x22 x84 xe4 x9c xf2 xcb)))))))))
(T (W x24 x00 x00 x00 x0c x00 x00 x00)
(T (W x40 x00 x00 x00 xa0 x00 x00 x00)
(T (W xba x52 xfb xff x74 x00 x00 x00)
(T (W x64 x00 x00 x00 x9c x00 x00 x00)
(T (W x01 x00 x00 x00 x3e x00 x00 x00)
(T (W x45 x26 x22 x84 xe4 x9c xf2 xcb)
(T (W xff xff xff xff xff xff xff xff)
(T (W x00 x00 x00 x00 x00 x00 x00 x00)
(L (W x00 x00 x80 xbf x00 x00 x80 xbf)) E)
(L (W xff xff xff xff xff xff xff xff)))
(T (W xff xff xff xff xff xff xff xff)
(T (W x00 x00 x00 x00 x00 x00 x00 x00)
(L (W x54 x00 x00 x00 x48 x00 x00 x00)) E)
(L (W x00 x00 x80 xbf x00 x00 x80 xbf))))
(T (W xce x83 xfd x71 x32 x5f x2f x97)
(T (W x18 x00 x00 x00 x0c x00 x00 x00)
(T (W x00 x00 x00 x00 x00 x00 x00 x00)
(L (W x00 x00 x80 xbf x00 x00 x80 xbf)) E)
(L (W x00 x00 x00 x00 x00 x00 x00 x00)))
(T (W xba x02 xfd xff x74 x00 x00 x00)
(L (W x00 x00 x80 xbf x00 x00 x80 xbf))
(L (W xff xff xff xff xff xff xff xff)))))
(T (W x00 x00 x80 x3f x00 x00 x80 x3f)
(T (W x00 x00 x00 x00 x00 x00 x00 x00)
(T (W x68 x00 x00 x00 x5c x00 x00 x00)
(T (W x45 x26 x22 x84 xe4 x9c xf2 xcb)
(L (W x46 x53 x59 x53 x5f x4e x53 x5f)) E)
(L (W xff xff xff xff xff xff xff xff)))
(T (W xff xff xff xff xff xff xff xff)
(T (W x30 x35 x5f x43 x4c x45 x41 x52)
(L (W x5c x00 x00 x00 xff xff xff xff)) E)
(L (W xff xff xff xff xff xff xff xff))))
(T (W xff xff xff xff xff xff xff xff)
(T (W x00 x00 x00 x00 x00 x00 x00 x00)
(T (W x34 xae xfd xff x39 x00 x00 x00)
(L (W xff xff xff xff xb0 x00 x00 x00)) E)
(L (W x00 x00 x80 xbf x00 x00 x80 xbf)))
(T (W x00 x00 x00 x00 x00 x00 x00 x00)
(L (W x74 x00 x00 x00 x68 x00 x00 x00))
(L (W x45 x26 x22 x84 xe4 x9c xf2 xcb))))))
(T (W x18 x00 x00 x00 x0c x00 x00 x00)
(T (W x72 x94 xfb xff x78 x00 x00 x00)
(T (W x00 x00 x00 x00 x00 x00 x00 x00)
(T (W xba x52 xfc xff x74 x00 x00 x00)
(T (W xff xff xff xff xff xff xff xff)
(L (W xff xff xff xff xff xff xff xff)) E)
(L (W xff xff xff xff xff xff xff xff)))
(T (W x00 x00 x00 x00 x00 x00 x00 x00)
(T (W xba xd2 xfd xff x74 x00 x00 x00)
(L (W xff xff xff xff x90 x00 x00 x00)) E)
(L (W xcc x00 x00 x00 x01 x00 x00 x00))))
(T (W xff xff xff xff xff xff xff xff)
(T (W xff xff xff xff xff xff xff xff)
(T (W xff xff xff xff xff xff xff xff)
(L (W x21 x00 x00 x00 x24 x00 x00 x00)) E)
(L (W x45 x26 x22 x84 xe4 x9c xf2 xcb)))
(T (W xff xff xff xff xff xff xff xff)
(L (W x9c x17 xfe xff x00 x01 x01 x01))
(L (W x00 x00 x00 x00 x00 x00 x00 x00)))))
(T (W x00 x00 x80 x3f x00 x00 x80 x3f)
(T (W x00 x00 x00 x00 x00 x00 x00 x00)
(T (W x49 xa1 x68 x4a xeb x5f xdd x3d)
(T (W x00 x00 x4c x00 x50 x00 x00 x00)
(L (W x00 x00 x00 x00 x00 x00 x00 x00)) E)
(L (W x00 x00 x01 x01 xb4 x01 x00 x00)))
(T (W x00 x00 x00 x00 x00 x00 x00 x00)
(T (W x30 x35 x5f x43 x4c x45 x41 x52)
(L (W x44 x00 x00 x00 x00 x00 x80 xbf)) E)
(L (W xff xff xff xff xff xff xff xff))))
(T (W xff xff xff xff xff xff xff xff)
(T (W x00 x00 x80 x3f x00 x00 x80 x3f)
(T (W x00 x00 x00 x00 x00 x00 x00 x00)
(L (W x54 x00 x00 x00 x48 x00 x00 x00)) E)
(L (W x00 x00 x00 x00 x00 x00 x00 x00)))
(T (W x45 x26 x22 x84 xe4 x9c xf2 xcb)
(L (W x04 x00 x00 x00 x02 x3e xfe xff))
(L (W x00 x00 x80 xbf x00 x00 x80 xbf)))))))
(T (W x01 x00 x00 x00 x9c x00 x00 x00)
(T (W x00 x00 x00 x00 x0c x6e xfb xff)
(T (W x68 x00 x00 x00 x5c x00 x00 x00)
(T (W x00 x00 x00 x00 x00 x00 x00 x00)
(T (W x18 x00 x00 x00 x0c x00 x00 x00)
(T (W x00 x00 x00 x00 x02 x00 x00 x00)
(L (W x72 x4c xff xff x78 x00 x00 x00)) E)
(L (W xff xff xff xff xff xff xff xff)))
(T (W xac xae xcd xf6 x6b x3e x3a x15)
(T (W x00 x00 x80 x3f x00 x00 x80 x3f)
(L (W x45 x26 x22 x84 xe4 x9c xf2 xcb)) E)
(L (W x54 x00 x00 x00 x48 x00 x00 x00))))
(T (W xdc x00 x00 x00 xff xff xff xff)
(T (W xb0 x00 x00 x00 x64 x00 x00 x00)
(T (W x00 x00 x00 x00 x00 x00 x00 x00)
(L (W x00 x00 x80 xbf x00 x00 x80 xbf)) E)
(L (W x00 x00 x00 x00 x00 x00 x00 x00)))
(T (W x03 x00 x00 x00 xd4 x00 x00 x00)
(L (W x00 x00 x80 xbf x00 x00 x80 xbf))
(L (W x00 x00 x00 x00 x00 x00 x00 x00)))))
(T (W x45 x26 x22 x84 xe4 x9c xf2 xcb)
(T (W x00 x00 x00 x00 x00 x00 x00 x00)
(T (W x45 x26 x22 x84 xe4 x9c xf2 xcb)
(T (W x9c x6f xfd xff x00 x01 x01 x01)
(L (W x00 x00 x00 x00 x00 x00 x00 x00)) E)
(L (W x63 x01 x00 x00 xff xff xff xff)))
(T (W x00 x00 x00 x00 x00 x00 x00 x00)
(T (W x00 x00 x00 x00 x6a xed xfd xff)
(L (W x00 x00 x00 x00 x00 x00 x00 x00)) E)
(L (W xff xff xff xff xff xff xff xff))))
(T (W xff xff xff xff xff xff xff xff)
(T (W x00 x00 x00 x00 x00 x00 x00 x00)
(T (W x9c xaf xfd xff x00 x01 x01 x01)
(L (W x00 x00 x80 x3f x00 x00 x80 x3f)) E)
(L (W x00 x00 x00 x00 x00 x00 x00 x00)))
(T (W x45 x26 x22 x84 xe4 x9c xf2 xcb)
(L (W xff xff xff xff xff xff xff xff))
(L (W x00 x00 x80 xbf x00 x00 x80 xbf))))))
(T (W x40 x00 x00 x00 x9c x00 x00 x00)
(T (W x00 x00 x80 x3f x00 x00 x80 x3f)
(T (W x00 x00 x00 x00 x00 x00 x00 x00)
(T (W x00 x00 x80 x3f x00 x00 x80 x3f)
(T (W xff xff xff xff xff xff xff xff)
(L (W x04 x00 x00 x00 x6a x5d xff xff)) E)
(L (W xff xff xff xff xff xff xff xff)))
(T (W x68 x00 x00 x00 x5c x00 x00 x00)
(T (W xff xff xff xff xff xff xff xff)
(L (W x45 x26 x22 x84 xe4 x9c xf2 xcb)) E)
(L (W xff xff xff xff xff xff xff xff))))
(T (W xff xff xff xff xff xff xff xff)
(T (W x00 x00 x00 x00 x7a xa4 xfc xff)
(T (W x18 x00 x00 x00 x0c x00 x00 x00)
(L (W x2c x00 x00 x00 x2f x00 x00 x00)) E)
(L (W x3c x00 x00 x00 x00 x00 x80 xbf)))
(T (W x00 x00 x00 x00 x00 x00 x00 x00)
(L (W xff xff xff xff xa0 x00 x00 x00))
(L (W x00 x00 x00 x00 x00 x00 x00 x00)))))
(T (W x00 x00 x80 x3f x00 x00 x80 x3f)
(T (W x00 x00 x00 x00 x00 x00 x00 x00)
(T (W x00 x00 x80 x3f x00 x00 x80 x3f)
(T (W x18 x00 x00 x00 x10 x00 x00 x00)
(L (W x45 x26 x22 x84 xe4 x9c xf2 xcb)) E)
(L (W x00 x00 x00 x00 x00 x00 x00 x00)))
(T (W x49 xa1 x68 x4a xeb x5f xdd x3d)
(T (W x00 x00 x00 x00 x00 x00 x00 x00)
(L (W xff xff xff xff xff xff xff xff)) E)
(L (W xff xff xff xff xff xff xff xff))))
(T (W xff xff xff xff x03 x00 x00 x00)
(T (W x72 xbc xfc xff x78 x00 x00 x00)
(T (W x00 x00 x00 x00 x00 x00 x00 x00)
(L (W x00 x00 x80 xbf x00 x00 x80 xbf)) E)
(L (W x00 x00 x00 x00 x00 x00 x00 x00)))
(T (W x00 x00 x00 x00 x00 x00 x00 x00)
(L (W xff xff xff xff xff xff xff xff))
(L (W x00 x00 x80 xbf x00 x00 x80 xbf))))))))
(T (W x00 x00 x00 x00 x01 x00 x00 x00)
(T (W x00 x00 x00 x00 x00 x00 x00 x00)
(T (W xff xff xff xff x01 x00 x00 x00)
(T (W x01 x00 x00 x00 x04 x00 x00 x00)
(T (W xff xff xff xff xff xff xff xff)
(T (W x00 x00 x00 x00 x00 x00 x00 x00)
(T (W x9c x4b xfd xff x00 x01 x01 x01)
(L (W xff xff xff xff xff xff xff xff)) E)
(L (W x00 x00 x00 x00 x00 x00 x00 x00)))
(T (W x00 x00 x80 x3f x00 x00 x80 x3f)
(T (W x18 x00 x00 x00 x10 x00 x00 x00)
(L (W x00 x00 x00 x00 x00 x00 x00 x00)) E)
(L (W xff xff xff xff xff xff xff xff))))
(T (W x68 x00 x00 x00 x5c x00 x00 x00)
(T (W x00 x00 x00 x00 x00 x00 x00 x00)
(T (W xff xff xff xff xff xff xff xff)
(L (W xff xff xff xff xff xff xff xff)) E)
(L (W x18 x00 x00 x00 x10 x00 x00 x00)))
(T (W x12 x00 x00 x00 x46 x53 x59 x53)
(L (W xff xff xff xff xff xff xff xff))
(L (W x00 x00 x80 xbf x00 x00 x80 xbf)))))
(T (W x20 x01 x00 x00 x04 x00 x00 x00)
(T (W x45 x26 x22 x84 xe4 x9c xf2 xcb)
(T (W x40 x00 x00 x00 x10 x00 x00 x00)
(T (W x00 x00 x00 x00 x00 x00 x00 x00)
(L (W x72 x68 xff xff x78 x00 x00 x00)) E)
(L (W x00 x00 x80 xbf x00 x00 x80 xbf)))
(T (W x00 x00 x80 x3f x00 x00 x80 x3f)
(T (W x72 xe8 xfd xff x78 x00 x00 x00)
(L (W x72 xe8 xff xff x78 x00 x00 x00)) E)
(L (W x45 x26 x22 x84 xe4 x9c xf2 xcb))))
(T (W x45 x26 x22 x84 xe4 x9c xf2 xcb)
(T (W xff xff xff xff x9c x00 x00 x00)
(T (W xff xff xff xff xff xff xff xff)
(L (W x00 x00 x00 x00 x00 x00 x00 x00)) E)
(L (W x00 x00 x00 x00 x00 x00 x00 x00)))
(T (W xff xff xff xff xff xff xff xff)
(L (W x00 x00 x00 x00 x00 x00 x00 x00))
(L (W xff xff xff xff xbc x00 x00 x00))))))
(T (W x00 x00 x00 x00 x00 x00 x00 x00)
(T (W x72 x09 xfe xff x00 x00 x01 x01)
(T (W xb8 x00 x00 x00 xac x00 x00 x00)
(T (W x00 x00 x00 x00 x00 x00 x00 x00)
(T (W x00 x00 x80 x3f x00 x00 x80 x3f)
(L (W x00 x00 x80 xbf x00 x00 x80 xbf)) E)
(L (W x45 x26 x22 x84 xe4 x9c xf2 xcb)))
(T (W xff xff xff xff xff xff xff xff)
(T (W x00 x00 x00 x00 x12 x00 x00 x00)
(L (W x30 x35 x5f x43 x4c x45 x41 x52)) E)
(L (W x00 x00 x00 x00 x00 x00 x00 x00))))
(T (W x00 x00 x80 x3f x00 x00 x80 x3f)
(T (W x00 x00 x80 x3f x00 x00 x80 x3f)
(T (W x45 x26 x22 x84 xe4 x9c xf2 xcb)
(L (W x00 x00 x00 x00 x00 x00 x00 x00)) E)
(L (W xff xff xff xff xff xff xff xff)))
(T (W x00 x00 x80 x3f x00 x00 x80 x3f)
(L (W x00 x00 x00 x00 x00 x00 x00 x00))
(L (W x26 x00 x00 x00 x29 x00 x00 x00)))))
(T (W xff xff xff xff xff xff xff xff)
(T (W x00 x00 x80 x3f x00 x00 x80 x3f)
(T (W xff xff xff xff xff xff xff xff)
(T (W x18 x00 x00 x00 x0c x00 x00 x00)
(L (W xff xff xff xff xb0 x00 x00 x00)) E)
(L (W x50 x00 x00 x00 x44 x00 x00 x00)))
(T (W xb0 x00 x00 x00 x64 x00 x00 x00)
(T (W x00 x00 x80 xbf x00 x00 x80 xbf)
(L (W xff xff xff xff xff xff xff xff)) E)
(L (W x00 x00 x80 xbf x00 x00 x80 xbf))))
(T (W x00 x00 x00 x00 x00 x00 x00 x00)
(T (W x69 x01 x00 x00 xff xff xff xff)
(T (W x00 x00 x80 x3f x00 x00 x80 x3f)
(L (W xff xff xff xff xff xff xff xff)) E)
(L (W xff xff xff xff xff xff xff xff)))
(T (W xff xff xff xff xff xff xff xff)
(L (W x45 x26 x22 x84 xe4 x9c xf2 xcb))
(L (W xff xff xff xff xff xff xff xff)))))))
(T (W x00 x00 x00 x00 x00 x00 x00 x00)
(T (W x00 x00 x00 x00 x00 x00 x00 x00)
(T (W xff xff xff xff xff xff xff xff)
(T (W xff xff xff xff xff xff xff xff)
(T (W x00 x00 x00 x00 x00 x00 x00 x00)
(T (W x00 x00 x80 x3f x00 x00 x80 x3f)
(L (W x00 x00 x00 x00 x00 x00 x00 x00)) E)
(L (W x54 x00 x00 x00 x48 x00 x00 x00)))
(T (W x18 x00 x00 x00 x10 x00 x00 x00)
(T (W xe2 x26 xff xff x00 x00 x01 x01)
(L (W x00 x00 x00 x00 x00 x00 x00 x00)) E)
(L (W x46 x53 x59 x53 x5f x4e x53 x5f))))
(T (W xba x0e xfc xff x74 x00 x00 x00)
(T (W x4f x84 x6f x8b xe8 xcb x63 xb7)
(T (W x6c x00 x04 x00 x60 x00 x08 x00)
(L (W x00 x00 x00 x00 x7a x98 xff xff)) E)
(L (W xff xff xff xff xff xff xff xff)))
(T (W x00 x00 x00 x00 x00 x00 x00 x00)
(L (W x00 x00 x00 x00 x7a x18 xfe xff))
(L (W x9c x13 xff xff x00 x01 x01 x01)))))
(T (W xff xff xff xff xff xff xff xff)
(T (W x68 x00 x00 x00 x5c x00 x00 x00)
(T (W x00 x00 x10 x00 x14 x00 x18 x00)
(T (W x00 x00 x00 x00 x02 x00 x00 x00)
(L (W xb0 x00 x00 x00 x64 x00 x00 x00)) E)
(L (W x00 x00 x80 xbf x00 x00 x80 xbf)))
(T (W x18 x00 x00 x00 x0c x00 x00 x00)
(T (W xb4 x00 x00 x00 x0a x00 x00 x00)
(L (W x45 x26 x22 x84 xe4 x9c xf2 xcb)) E)
(L (W x00 x00 x80 xbf x00 x00 x80 xbf))))
(T (W x00 x00 x00 x00 x00 x00 x00 x00)
(T (W xff xff xff xff xff xff xff xff)
(T (W x00 x00 x00 x00 x00 x00 x00 x00)
(L (W xff xff xff xff xff xff xff xff)) E)
(L (W xff xff xff xff xff xff xff xff)))
(T (W xff xff xff xff xff xff xff xff)
(L (W x00 x00 x80 xbf x00 x00 x80 xbf))
(L (W xff xff xff xff xff xff xff xff))))))
(T (W x04 x87 xfb xff x3c x00 x00 x00)
(T (W x00 x00 x00 x00 x00 x00 x00 x00)
(T (W xff xff xff xff x04 x00 x00 x00)
(T (W x00 x00 x00 x00 x00 x00 x00 x00)
(T (W x00 x00 x00 x00 x00 x00 x00 x00)
(L (W x00 x00 x80 xbf x00 x00 x80 xbf)) E)
(L (W x00 x00 x80 xbf x00 x00 x80 xbf)))
(T (W x00 x00 x00 x00 x00 x00 x00 x00)
(T (W x00 x00 x80 xbf x00 x00 x80 xbf)
(L (W x00 x00 x00 x00 x00 x00 x00 x00)) E)
(L (W x4f x84 x6f x8b xe8 xcb x63 xb7))))
(T (W x00 x00 x80 x3f x00 x00 x80 x3f)
(T (W x72 xa0 xfc xff x78 x00 x00 x00)
(T (W x00 x00 x80 xbf x00 x00 x80 xbf)
(L (W x4f x84 x6f x8b xe8 xcb x63 xb7)) E)
(L (W xff xff xff xff xff xff xff xff)))
(T (W xff xff xff xff x9c x00 x00 x00)
(L (W x00 x00 x00 x00 x00 x00 x00 x00))
(L (W xff xff xff xff xff xff xff xff)))))
(T (W xff xff xff xff xff xff xff xff)
(T (W x50 x00 x00 x00 x44 x00 x00 x00)
(T (W x45 x44 x00 x00 x00 x00 x00 x00)
(T (W x18 x00 x00 x00 x10 x00 x00 x00)
(L (W xff xff xff xff xff xff xff xff)) E)
(L (W x72 x80 xfe xff x78 x00 x00 x00)))
(T (W xff xff xff xff xff xff xff xff)
(T (W x18 x00 x00 x00 x10 x00 x00 x00)
(L (W x49 xa1 x68 x4a xeb x5f xdd x3d)) E)
(L (W x00 x00 x80 xbf x00 x00 x80 xbf))))
(T (W x00 x00 x00 x00 x00 x00 x00 x00)
(T (W x00 x00 x00 x00 x00 x00 x00 x00)
(T (W x32 x00 x00 x00 x35 x00 x00 x00)
(L (W x00 x00 x00 x00 x00 x00 x00 x00)) E)
(L (W xff xff xff xff xc4 x00 x00 x00)))
(T (W x45 x26 x22 x84 xe4 x9c xf2 xcb)
(L (W x00 x00 x80 xbf x00 x00 x80 xbf))
(L (W xff xff xff xff xff xff xff xff)))))))))))
(T (W xd0 xbb x02 x00 x1c xb7 x02 x00)
(T (W x28 xfd x01 x00 xe4 xfa x01 x00)
(T (W x28 xb4 x00 x00 xf4 xb2 x00 x00)
(T (W xff xff xff xff xff xff xff xff)
(T (W xff xff xff xff xff xff xff xff)
(T (W xff xff xff xff xff xff xff xff)
(T (W xff xff xff xff xff xff xff xff)
(T (W x00 x00 x80 x3f x00 x00 x80 x3f)
(T (W xff xff xff xff xff xff xff xff)
(T (W x00 x00 x80 x3f x00 x00 x80 x3f)
(L (W x3a x40 xff xff x74 x00 x00 x00)) E)
(L (W x18 x00 x00 x00 x0c x00 x00 x00)))
(T (W xff xff xff xff xff xff xff xff)
(T (W x00 x00 x80 x3f x00 x00 x80 x3f)
(L (W xb4 x00 x00 x00 x14 x00 x00 x00)) E)
(L (W x45 x26 x22 x84 xe4 x9c xf2 xcb))))
(T (W x00 x00 x00 x00 x00 x00 x00 x00)
(T (W x03 x00 x00 x00 xd0 x00 x00 x00)
(T (W x00 x00 x80 x3f x00 x00 x80 x3f)
(L (W x00 x00 x80 xbf x00 x00 x80 xbf)) E)
(L (W x00 x00 x00 x00 x00 x00 x00 x00)))
(T (W x00 x00 x00 x00 x8c x03 xfd xff)
(T (W x00 x00 x80 xbf x00 x00 x80 xbf)
(L (W x50 x00 x00 x00 x44 x00 x00 x00)) E)
(L (W x00 x00 x00 x00 x00 x00 x00 x00)))))
(T (W x45 x26 x22 x84 xe4 x9c xf2 xcb)
(T (W x00 x00 x80 x3f x00 x00 x80 x3f)
(T (W xff xff xff xff xff xff xff xff)
(T (W xff xff xff xff xff xff xff xff)
(L (W x00 x00 x00 x00 x12 x00 x00 x00)) E)
(L (W x00 x00 x00 x00 xea x62 xfe xff)))
(T (W x32 x39 xfd xff x00 x00 x01 x01)
(T (W x30 x35 x5f x43 x4c x45 x41 x52)
(L (W x00 x00 x0c x00 x10 x00 x14 x00)) E)
(L (W xff xff xff xff xff xff xff xff))))
(T (W xb4 x2b xfc xff x3c x00 x00 x00)
(T (W x00 x00 x00 x00 x00 x00 x00 x00)
(T (W x00 x00 x00 x00 x00 x00 x00 x00)
(L (W xff xff xff xff xff xff xff xff)) E)
(L (W x40 x00 x00 x00 x00 x00 x80 xbf)))
(T (W x49 xa1 x68 x4a xeb x5f xdd x3d)
(L (W xff xff xff xff xff xff xff xff))
(L (W x00 x00 x80 xbf x00 x00 x80 xbf))))))
(T (W xf6 x01 x00 x00 xff xff xff xff)
(T (W x18 x00 x00 x00 x0c x00 x00 x00)
(T (W x00 x00 x80 x3f x00 x00 x80 x3f)
(T (W xff xff xff xff xff xff xff xff)
(T (W x00 x00 x00 x00 x00 x00 x00 x00)
(L (W xff xff xff xff xff xff xff xff)) E)
(L (W x00 x00 x00 x00 x00 x00 x00 x00)))
(T (W x00 x00 x80 x3f x00 x00 x80 x3f)
(T (W xff xff xff xff x9c x00 x00 x00)
(L (W x00 x00 x00 x00 x62 xd4 xff xff)) E)
(L (W xff xff xff xff xff xff xff xff))))
(T (W x00 x00 x00 x00 x00 x00 x00 x00)
(T (W x02 x00 x00 x00 x30 x01 x00 x00)
(T (W x00 x00 x00 x00 x01 x00 x00 x00)
(L (W xff xff xff xff xff xff xff xff)) E)
(L (W xf2 x91 xfe xff x78 x00 x00 x00)))
(T (W x00 x00 x00 x00 x00 x00 x00 x00)
(L (W x03 x00 x00 x00 xd0 x00 x00 x00))
(L (W x45 x26 x22 x84 xe4 x9c xf2 xcb)))))
(T (W x3a xb0 xfb xff x74 x00 x00 x00)
(T (W x00 x00 x00 x00 x00 x00 x00 x00)
(T (W x95 x23 xa0 xe4 xaf x13 x9e xba)
(T (W x45 x26 x22 x84 xe4 x9c xf2 xcb)
(L (W x00 x00 x80 xbf x00 x00 x80 xbf)) E)
(L (W x00 x00 x00 x00 x00 x00 x00 x00)))
(T (W x00 x00 x80 x3f x00 x00 x80 x3f)
(T (W x00 x00 x80 xbf x00 x00 x80 xbf)
(L (W x00 x00 x80 xbf x00 x00 x80 xbf)) E)
(L (W x00 x00 x00 x00 x00 x00 x00 x00))))
(T (W x00 x00 x00 x00 x02 x00 x00 x00)
(T (W x45 x26 x22 x84 xe4 x9c xf2 xcb)
(T (W x00 x00 x00 x00 x00 x00 x00 x00)
(L (W x00 x00 x00 x00 x8c xb3 xff xff)) E)
(L (W x00 x00 x80 xbf x00 x00 x80 xbf)))
(T (W x50 x00 x00 x00 x44 x00 x00 x00)
(L (W x00 x00 x00 x00 x00 x00 x00 x00))
(L (W x68 x00 x00 x00 x5c x00 x00 x00)))))))
(T (W xff xff xff xff x04 x00 x00 x00)
(T (W x01 x00 x00 x00 xff xff xff xff)
(T (W xff xff xff xff x04 x00 x00 x00)
(T (W x00 x00 x80 x3f x00 x00 x80 x3f)
(T (W xff xff xff xff xff xff xff xff)
(T (W x00 x00 x00 x00 x00 x00 x00 x00)
(L (W x03 x00 x00 x00 xd4 x00 x00 x00)) E)
(L (W x30 x35 x5f x43 x4c x45 x41 x52)))
(T (W x00 x00 x00 x00 x00 x00 x00 x00)
(T (W x00 x00 x80 x3f x00 x00 x80 x3f)
(L (W xff xff xff xff xff xff xff xff)) E)
(L (W x3a xc8 xfe xff x74 x00 x00 x00))))
(T (W x00 x00 x00 x00 x00 x00 x00 x00)
(T (W xff xff xff xff xff xff xff xff)
(T (W x00 x00 x80 x3f x00 x00 x80 x3f)
(L (W x68 x00 x00 x00 x5c x00 x00 x00)) E)
(L (W x00 x00 x80 xbf x00 x00 x80 xbf)))
(T (W xff xff xff xff xff xff xff xff)
(L (W x45 x26 x22 x84 xe4 x9c xf2 xcb))
(L (W x00 x00 x00 x00 x00 x00 x00 x00)))))
(T (W x18 x00 x00 x00 x10 x00 x00 x00)
(T (W x00 x00 x80 x3f x00 x00 x80 x3f)
(T (W x00 x00 x00 x00 x00 x00 x00 x00)
(T (W xff xff xff xff xff xff xff xff)
(L (W x00 x00 x00 x00 x00 x00 x00 x00)) E)
(L (W x00 x00 x00 x00 x00 x00 x00 x00)))
(T (W x4c x45 x41 x52 x45 x44 x00 x00)
(T (W x00 x00 x00 x00 x00 x00 x00 x00)
(L (W x00 x00 x00 x00 x00 x00 x00 x00)) E)
(L (W x00 x00 x00 x00 x12 x00 x00 x00))))
(T (W x00 x00 x00 x00 x00 x00 x00 x00)
(T (W x00 x00 x80 x3f x00 x00 x80 x3f)
(T (W x45 x26 x22 x84 xe4 x9c xf2 xcb)
(L (W x49 xa1 x68 x4a xeb x5f xdd x3d)) E)
(L (W x62 x00 x00 x00 x00 x00 x01 x01)))
(T (W x00 x00 x80 x3f x00 x00 x80 x3f)
(L (W xff xff xff xff xff xff xff xff))
(L (W x1c x2d xff xff x00 x01 x01 x01))))))
(T (W xff xff xff xff xff xff xff xff)
(T (W x3a x98 xfb xff x74 x00 x00 x00)
(T (W x50 x00 x00 x00 x44 x00 x00 x00)
(T (W xff xff xff xff xff xff xff xff)
(T (W x00 x00 x00 x00 x02 x00 x00 x00)
(L (W x00 x00 x00 x00 x00 x00 x00 x00)) E)
(L (W x45 x44 x00 x00 x00 x00 x00 x00)))
(T (W x18 x00 x00 x00 x10 x00 x00 x00)
(T (W xff xff xff xff xff xff xff xff)
(L (W x03 x00 x00 x00 xd8 x00 x00 x00)) E)
(L (W xff xff xff xff xff xff xff xff))))
(T (W x00 x00 x00 x00 x00 x00 x00 x00)
(T (W x00 x00 x00 x00 x00 x00 x00 x00)
(T (W x00 x00 x80 xbf x00 x00 x80 xbf)
(L (W xff xff xff xff xff xff xff xff)) E)
(L (W x03 x00 x00 x00 xd0 x00 x00 x00)))
(T (W x00 x00 x00 x00 x00 x00 x00 x00)
(L (W xff xff xff xff xff xff xff xff))
(L (W x6c x00 x00 x00 x60 x00 x00 x00)))))
(T (W x00 x00 x80 x3f x00 x00 x80 x3f)
(T (W x00 x00 x00 x00 x00 x00 x00 x00)
(T (W x00 x00 x00 x00 x8c x7b xfc xff)
(T (W x00 x00 x00 x00 x00 x00 x00 x00)
(L (W x00 x00 x80 xbf x00 x00 x80 xbf)) E)
(L (W x4f x84 x6f x8b xe8 xcb x63 xb7)))
(T (W x68 x00 x00 x00 x5c x00 x00 x00)
(T (W x00 x00 x00 x00 x00 x00 x00 x00)
(L (W xff xff xff xff xff xff xff xff)) E)
(L (W x00 x00 x00 x00 x00 x00 x00 x00))))
(T (W xff xff xff xff xff xff xff xff)
(T (W xc4 x00 x00 x00 x01 x00 x00 x00)
(T (W x4f x84 x6f x8b xe8 xcb x63 xb7)
(L (W x45 x26 x22 x84 xe4 x9c xf2 xcb)) E)
(L (W x54 x00 x00 x00 x48 x00 x00 x00)))
(T (W x00 x00 x80 x3f x00 x00 x80 x3f)
(L (W x00 x00 x00 x00 x00 x00 x00 x00))
(L (W x45 x26 x22 x84 xe4 x9c xf2 xcb))))))))
(T (W x45 x26 x22 x84 xe4 x9c xf2 xcb)
(T (W x00 x00 x80 x3f x00 x00 x80 x3f)
(T (W x00 x00 x80 x3f x00 x00 x80 x3f)
(T (W x45 x26 x22 x84 xe4 x9c xf2 xcb)
(T (W x00 x00 x00 x00 x52 x5c xff xff)
(T (W x00 x00 x80 x3f x00 x00 x80 x3f)
(T (W xff xff xff xff xff xff xff xff)
(L (W x45 x44 x00 x00 x00 x00 x00 x00)) E)
(L (W x3c x00 x00 x00 x00 x00 x80 xbf)))
(T (W x00 x00 x80 x3f x00 x00 x80 x3f)
(T (W xff xff xff xff xff xff xff xff)
(L (W x00 x00 x00 x00 x00 x00 x00 x00)) E)
(L (W x00 x00 x00 x00 x00 x00 x00 x00))))
(T (W x64 x00 x00 x00 x9c x00 x00 x00)
(T (W x00 x00 x80 x3f x00 x00 x80 x3f)
(T (W x00 x00 x00 x00 x02 x00 x00 x00)
(L (W x00 x00 x00 x00 x00 x00 x00 x00)) E)
(L (W xff xff xff xff xff xff xff xff)))
(T (W x00 x00 x00 x00 x00 x00 x00 x00)
(L (W x00 x00 x00 x00 x82 x0f xfe xff))
(L (W x68 x00 x00 x00 x5c x00 x00 x00)))))
(T (W x00 x00 x00 x00 x00 x00 x00 x00)
(T (W xff xff xff xff xff xff xff xff)
(T (W x00 x00 x00 x00 x00 x00 x00 x00)
(T (W x00 x00 x80 x3f x00 x00 x80 x3f)
(L (W xff xff xff xff xff xff xff xff)) E)
(L (W xff xff xff xff xa0 x00 x00 x00)))
(T (W x00 x00 x80 x3f x00 x00 x80 x3f)
(T (W xff xff xff xff xff xff xff xff)
(L (W x00 x01 x01 x01 x7a xf0 xff xff)) E)
(L (W xf2 xe5 xfe xff x78 x00 x00 x00))))
(T (W x00 x00 x80 x3f x00 x00 x80 x3f)
(T (W xff xff xff xff xff xff xff xff)
(T (W xff xff xff xff xff xff xff xff)
(L (W x00 x00 x80 xbf x00 x00 x80 xbf)) E)
(L (W x45 x44 x00 x00 x00 x00 x00 x00)))
(T (W x32 x7d xfd xff x00 x00 x01 x01)
(L (W x00 x00 x00 x00 x00 x00 x00 x00))
(L (W xdd x00 x00 x00 xff xff xff xff))))))
(T (W x00 x00 x00 x00 x00 x00 x00 x00)
(T (W x00 x00 x00 x00 x00 x00 x00 x00)
(T (W xff xff xff xff xff xff xff xff)
(T (W x45 x26 x22 x84 xe4 x9c xf2 xcb)
(T (W x1c x59 xfd xff x00 x01 x01 x01)
(L (W x45 x26 x22 x84 xe4 x9c xf2 xcb)) E)
(L (W x00 x00 x80 xbf x00 x00 x80 xbf)))
(T (W x7e xaa xa6 xd7 x7a xaa x37 xd3)
(T (W x00 x00 x80 xbf x00 x00 x80 xbf)
(L (W x4f x84 x6f x8b xe8 xcb x63 xb7)) E)
(L (W x00 x00 x80 xbf x00 x00 x80 xbf))))
(T (W x1c x19 xfc xff x00 x01 x01 x01)
(T (W x18 x00 x00 x00 x10 x00 x00 x00)
(T (W xff xff xff xff x9c x00 x00 x00)
(L (W x00 x00 x80 xbf x00 x00 x80 xbf)) E)
(L (W x46 x53 x59 x53 x5f x4e x53 x5f)))
(T (W x18 x00 x00 x00 x0c x00 x00 x00)
(L (W x00 x00 x00 x00 x00 x00 x00 x00))
(L (W xff xff xff xff xff xff xff xff)))))
(T (W x00 x00 x00 x00 x00 x00 x00 x00)
(T (W xff xff xff xff xff xff xff xff)
(T (W x69 x23 x88 xb5 x85 xc2 xdc x80)
(T (W xff xff xff xff xff xff xff xff)
(L (W x04 x00 x00 x00 x7a x82 xff xff)) E)
(L (W x18 x00 x00 x00 x10 x00 x00 x00)))
(T (W xff xff xff xff xff xff xff xff)
(T (W x03 x00 x00 x00 xd0 x00 x00 x00)
(L (W x45 x26 x22 x84 xe4 x9c xf2 xcb)) E)
(L (W x3a xf4 xfe xff x74 x00 x00 x00))))
(T (W x50 x00 x00 x00 x44 x00 x00 x00)
(T (W x00 x00 x00 x00 x00 x00 x00 x00)
(T (W x00 x00 x00 x00 x00 x00 x00 x00)
(L (W x30 x35 x5f x43 x4c x45 x41 x52)) E)
(L (W xff xff xff xff xff xff xff xff)))
(T (W x00 x00 x01 x01 x3a x02 x00 x00)
(L (W xff xff xff xff x9c x00 x00 x00))
(L (W x00 x00 x00 x00 x00 x00 x00 x00)))))))
(T (W x45 x26 x22 x84 xe4 x9c xf2 xcb)
(T (W x45 x26 x22 x84 xe4 x9c xf2 xcb)
(T (W x00 x00 x80 x3f x00 x00 x80 x3f)
(T (W x1c x01 x00 x00 x04 x00 x00 x00)
(T (W x00 x00 x80 x3f x00 x00 x80 x3f)
(T (W x45 x26 x22 x84 xe4 x9c xf2 xcb)
(L (W x00 x00 x00 x00 x00 x00 x00 x00)) E)
(L (W x6c x00 x00 x00 x60 x00 x00 x00)))
(T (W xff xff xff xff xff xff xff xff)
(T (W x00 x00 x00 x00 x00 x00 x00 x00)
(L (W x45 x26 x22 x84 xe4 x9c xf2 xcb)) E)
(L (W x00 x00 x00 x00 x00 x00 x00 x00))))
(T (W xbc x00 x00 x00 xb0 x00 x00 x00)
(T (W x54 x00 x00 x00 x48 x00 x00 x00)
(T (W xff xff xff xff xff xff xff xff)
(L (W x46 x53 x59 x53 x5f x4e x53 x5f)) E)
(L (W xff xff xff xff xff xff xff xff)))
(T (W x00 x00 x80 x3f x00 x00 x80 x3f)
(L (W x46 x53 x59 x53 x5f x4e x53 x5f))
(L (W xff xff xff xff xb0 x00 x00 x00)))))
(T (W x3e x00 x00 x00 x10 x00 x00 x00)
(T (W xff xff xff xff xff xff xff xff)
(T (W x00 x00 x00 x00 x00 x00 x00 x00)
(T (W x00 x00 x00 x00 x00 x00 x00 x00)
(L (W xff xff xff xff xff xff xff xff)) E)
(L (W x00 x01 x01 x01 x7a x78 xfe xff)))
(T (W xc0 x00 x00 x00 x01 x00 x00 x00)
(T (W xb8 x00 x00 x00 x0a x00 x00 x00)
(L (W xff xff xff xff xff xff xff xff)) E)
(L (W x00 x00 x00 x00 x20 xf1 xfe xff))))
(T (W x00 x00 x80 x3f x00 x00 x80 x3f)
(T (W x04 x00 x00 x00 x82 xb7 xfc xff)
(T (W x00 x00 x00 x00 x00 x00 x00 x00)
(L (W x00 x00 x00 x00 x00 x00 x00 x00)) E)
(L (W xff xff xff xff xff xff xff xff)))
(T (W x82 x9d xff xff xc8 x02 x00 x00)
(L (W x45 x26 x22 x84 xe4 x9c xf2 xcb))
(L (W x00 x00 x00 x00 xea x2e xff xff))))))
(T (W x45 x26 x22 x84 xe4 x9c xf2 xcb)
(T (W x00 x00 x00 x00 x00 x00 x00 x00)
(T (W xff xff xff xff xff xff xff xff)
(T (W x00 x00 x00 x00 x00 x00 x00 x00)
(T (W x00 x00 x80 x3f x00 x00 x80 x3f)
(L (W xbc x00 x00 x00 x64 x00 x00 x00)) E)
(L (W x03 x00 x00 x00 xd0 x00 x00 x00)))
(T (W x00 x00 x00 x00 x00 x00 x00 x00)
(T (W x00 x00 x80 xbf x00 x00 x80 xbf)
(L (W x45 x26 x22 x84 xe4 x9c xf2 xcb)) E)
(L (W x54 x00 x00 x00 x48 x00 x00 x00))))
(T (W x50 x00 x00 x00 x44 x00 x00 x00)
(T (W xff xff xff xff xff xff xff xff)
(T (W x00 x00 x80 xbf x00 x00 x80 xbf)
(L (W x00 x00 x80 xbf x00 x00 x80 xbf)) E)
(L (W x00 x00 x00 x00 x00 x00 x00 x00)))
(T (W xb0 x00 x00 x00 x64 x00 x00 x00)
(L (W x49 xa1 x68 x4a xeb x5f xdd x3d))
(L (W xff xff xff xff xff xff xff xff)))))
(T (W x29 x00 x00 x00 x10 x00 x00 x00)
(T (W xff xff xff xff xff xff xff xff)
(T (W x00 x00 x00 x00 x12 x00 x00 x00)
(T (W x64 x00 x00 x00 x9c x00 x00 x00)
(L (W xff xff xff xff xff xff xff xff)) E)
(L (W xff xff xff xff xff xff xff xff)))
(T (W x8e xd3 x54 xf0 x7f x11 x65 xc2)
(T (W xff xff xff xff xff xff xff xff)
(L (W x64 x00 x68 x00 x62 x00 x00 x00)) E)
(L (W x00 x00 x80 xbf x00 x00 x80 xbf))))
(T (W x68 x00 x00 x00 x5c x00 x00 x00)
(T (W x00 x00 x00 x00 x00 x00 x00 x00)
(T (W xff xff xff xff xff xff xff xff)
(L (W x00 x00 x00 x00 x00 x00 x00 x00)) E)
(L (W xff xff xff xff xff xff xff xff)))
(T (W xff xff xff xff xff xff xff xff)
(L (W xff xff xff xff xa8 x00 x00 x00))
(L (W x00 x00 x00 x00 x00 x00 x00 x00)))))))))
(T (W x00 x00 x80 x3f x00 x00 x80 x3f)
(T (W x26 x21 x30 xf7 xb8 x77 xbf xec)
(T (W x00 x00 x00 x00 x00 x00 x00 x00)
(T (W x00 x00 x00 x00 x00 x00 x00 x00)
(T (W x3e x00 x00 x00 x10 x00 x00 x00)
(T (W xff xff xff xff x04 x00 x00 x00)
(T (W x00 x00 x00 x00 x00 x00 x00 x00)
(T (W x1c x47 xfd xff x00 x01 x01 x01)
(L (W xff xff xff xff xff xff xff xff)) E)
(L (W x00 x00 x80 xbf x00 x00 x80 xbf)))
(T (W x00 x00 x00 x00 x00 x00 x00 x00)
(T (W x18 x00 x00 x00 x10 x00 x00 x00)
(L (W xff xff xff xff xff xff xff xff)) E)
(L (W xff xff xff xff xff xff xff xff))))
(T (W x00 x00 x80 x3f x00 x00 x80 x3f)
(T (W x04 x00 x00 x00 x80 x03 x00 x00)
(T (W x45 x26 x22 x84 xe4 x9c xf2 xcb)
(L (W xff xff xff xff xff xff xff xff)) E)
(L (W x18 x00 x00 x00 x10 x00 x00 x00)))
(T (W xa2 x59 xfd xff x9d x01 x00 x00)
(L (W xff xff xff xff xff xff xff xff))
(L (W x45 x26 x22 x84 xe4 x9c xf2 xcb)))))
(T (W xff xff xff xff xff xff xff xff)
(T (W x18 x00 x00 x00 x10 x00 x00 x00)
(T (W xf2 xd4 xfe xff x00 x00 x01 x01)
(T (W x00 x00 x00 x00 x00 x00 x00 x00)
(L (W xf2 x63 xff xff x78 x00 x00 x00)) E)
(L (W x45 x26 x22 x84 xe4 x9c xf2 xcb)))
(T (W x45 x26 x22 x84 xe4 x9c xf2 xcb)
(T (W x6c x00 x00 x00 x60 x00 x00 x00)
(L (W x00 x00 x80 xbf x00 x00 x80 xbf)) E)
(L (W x00 x00 x00 x00 x00 x00 x00 x00))))
(T (W x00 x00 x80 x3f x00 x00 x80 x3f)
(T (W x45 x26 x22 x84 xe4 x9c xf2 xcb)
(T (W x00 x00 x80 xbf x00 x00 x80 xbf)
(L (W x00 x00 x00 x00 x00 x00 x00 x00)) E)
(L (W xff xff xff xff xff xff xff xff)))
(T (W x18 x00 x00 x00 x0c x00 x00 x00)
(L (W xff xff xff xff xff xff xff xff))
(L (W xbc x00 x00 x00 x14 x00 x00 x00))))))
(T (W x00 x00 x00 x00 x00 x00 x00 x00)
(T (W x1c x01 x00 x00 x04 x00 x00 x00)
(T (W x3a xd2 xfb xff x74 x00 x00 x00)
(T (W x01 x00 x00 x00 x04 x00 x00 x00)
(T (W x00 x00 x80 x3f x00 x00 x80 x3f)
(L (W x00 x00 x00 x00 x00 x00 x00 x00)) E)
(L (W x00 x00 x00 x00 x00 x00 x00 x00)))
(T (W xb0 x00 x00 x00 x64 x00 x00 x00)
(T (W x00 x00 x00 x00 x00 x00 x00 x00)
(L (W x46 x53 x59 x53 x5f x4e x53 x5f)) E)
(L (W x1b x00 x00 x00 x0c x00 x00 x00))))
(T (W x00 x00 x00 x00 x00 x00 x00 x00)
(T (W x00 x00 x00 x00 x00 x00 x00 x00)
(T (W x00 x00 x18 x00 x1c x00 x20 x00)
(L (W x00 x00 x00 x00 x00 x00 x00 x00)) E)
(L (W xff xff xff xff xff xff xff xff)))
(T (W x00 x00 x00 x00 x00 x00 x00 x00)
(L (W x02 x00 x00 x00 x30 x01 x00 x00))
(L (W x31 x00 x00 x00 x34 x00 x00 x00)))))
(T (W xff xff xff xff xff xff xff xff)
(T (W x50 x00 x00 x00 x44 x00 x00 x00)
(T (W xff xff xff xff xff xff xff xff)
(T (W x45 x26 x22 x84 xe4 x9c xf2 xcb)
(L (W xff xff xff xff xb0 x00 x00 x00)) E)
(L (W x00 x00 x80 xbf x00 x00 x80 xbf)))
(T (W x68 x00 x00 x00 x5c x00 x00 x00)
(T (W x6c x00 x00 x00 x60 x00 x00 x00)
(L (W xff xff xff xff xff xff xff xff)) E)
(L (W x00 x00 x80 xbf x00 x00 x80 xbf))))
(T (W x00 x00 x00 x00 x00 x00 x00 x00)
(T (W xff xff xff xff xff xff xff xff)
(T (W x32 x00 x00 x00 x35 x00 x00 x00)
(L (W xaa x01 x00 x00 xff xff xff xff)) E)
(L (W x18 x00 x00 x00 x0c x00 x00 x00)))
(T (W xff xff xff xff x03 x00 x00 x00)
(L (W x00 x00 x80 xbf x00 x00 x80 xbf))
(L (W xff xff xff xff xff xff xff xff)))))))
(T (W x84 x62 xfb xff x3e x00 x00 x00)
(T (W x00 x00 x00 x00 x00 x00 x00 x00)
(T (W x00 x00 x00 x00 x52 x22 xff xff)
(T (W x18 x00 x00 x00 x0c x00 x00 x00)
(T (W x84 x52 xfc xff x19 x00 x00 x00)
(T (W x00 x00 x80 x3f x00 x00 x80 x3f)
(L (W x00 x00 x01 x01 xc8 x02 x00 x00)) E)
(L (W x49 xa1 x68 x4a xeb x5f xdd x3d)))
(T (W x00 x00 x80 x3f x00 x00 x80 x3f)
(T (W xff xff xff xff xff xff xff xff)
(L (W x00 x00 x00 x00 x00 x00 x00 x00)) E)
(L (W xff xff xff xff xff xff xff xff))))
(T (W x00 x00 x80 x3f x00 x00 x80 x3f)
(T (W x00 x00 x00 x00 x12 x00 x00 x00)
(T (W x45 x26 x22 x84 xe4 x9c xf2 xcb)
(L (W xff xff xff xff xff xff xff xff)) E)
(L (W xc4 x00 x00 x00 x02 x00 x00 x00)))
(T (W xb4 x15 xfd xff x10 x00 x00 x00)
(L (W xff xff xff xff xff xff xff xff))
(L (W x00 x00 x80 xbf x00 x00 x80 xbf)))))
(T (W xff xff xff xff xff xff xff xff)
(T (W x40 x00 x00 x00 x9c x00 x00 x00)
(T (W xc0 x00 x00 x00 xb4 x00 x00 x00)
(T (W x00 x00 x00 x00 x02 x00 x00 x00)
(L (W x3a x6a xff xff x74 x00 x00 x00)) E)
(L (W x00 x00 x80 xbf x00 x00 x80 xbf)))
(T (W x00 x00 x80 x3f x00 x00 x80 x3f)
(T (W x00 x00 x80 xbf x00 x00 x80 xbf)
(L (W x68 x00 x00 x00 x5c x00 x00 x00)) E)
(L (W x00 x00 x80 xbf x00 x00 x80 xbf))))
(T (W x00 x00 x80 x3f x00 x00 x80 x3f)
(T (W xc4 x00 x00 x00 x01 x00 x00 x00)
(T (W x61 x72 x6c x69 x6b x65 x5f x6c)
(L (W xff xff xff xff xff xff xff xff)) E)
(L (W x3a xaa xfe xff x74 x00 x00 x00)))
(T (W xff xff xff xff xff xff xff xff)
(L (W x00 x00 x00 x00 x00 x00 x00 x00))
(L (W xff xff xff xff xff xff xff xff))))))
(T (W x00 x00 x00 x00 x00 x00 x00 x00)
(T (W xff xff xff xff xff xff xff xff)
(T (W x45 x26 x22 x84 xe4 x9c xf2 xcb)
(T (W xff xff xff xff xff xff xff xff)
(T (W x00 x00 x00 x00 x00 x00 x00 x00)
(L (W x45 x26 x22 x84 xe4 x9c xf2 xcb)) E)
(L (W x00 x00 x80 xbf x00 x00 x80 xbf)))
(T (W x04 x00 x00 x00 xfa xe3 xfc xff)
(T (W x00 x00 x00 x00 x00 x00 x00 x00)
(L (W xb3 xd2 xac x28 xbf xce x59 x6a)) E)
(L (W x4f x84 x6f x8b xe8 xcb x63 xb7))))
(T (W x45 x26 x22 x84 xe4 x9c xf2 xcb)
(T (W x00 x00 x80 x3f x00 x00 x80 x3f)
(T (W x00 x00 x00 x00 x00 x00 x00 x00)
(L (W x46 x53 x59 x53 x5f x4e x53 x5f)) E)
(L (W xff xff xff xff xff xff xff xff)))
(T (W x50 x00 x00 x00 x44 x00 x00 x00)
(L (W x46 x53 x59 x53 x5f x4e x53 x5f))
(L (W x21 x00 x00 x00 x24 x00 x00 x00)))))
(T (W xff xff xff xff xff xff xff xff)
(T (W x6c x00 x00 x00 x60 x00 x00 x00)
(T (W xff xff xff xff xff xff xff xff)
(T (W x00 x00 x80 x3f x00 x00 x80 x3f)
(L (W xbc x00 x00 x00 x64 x00 x00 x00)) E)
(L (W x00 x00 x80 xbf x00 x00 x80 xbf)))
(T (W xff xff xff xff xff xff xff xff)
(T (W x3a xfa xfd xff x74 x00 x00 x00)
(L (W x00 x00 x62 x00 x80 x00 x08 x00)) E)
(L (W x49 xa1 x68 x4a xeb x5f xdd x3d))))
(T (W x00 x00 x00 x00 x00 x00 x00 x00)
(T (W x04 x00 x00 x00 x82 xc5 xfc xff)
(T (W xff xff xff xff xb0 x00 x00 x00)
(L (W xff xff xff xff xff xff xff xff)) E)
(L (W xb4 x00 x00 x00 x14 x00 x00 x00)))
(T (W x45 x26 x22 x84 xe4 x9c xf2 xcb)
(L (W x00 x00 x80 xbf x00 x00 x80 xbf))
(L (W xff xff xff xff xff xff xff xff))))))))
(T (W x00 x00 x80 x3f x00 x00 x80 x3f)
(T (W x50 x00 x00 x00 x44 x00 x00 x00)
(T (W x18 x04 x00 x00 x04 x03 x00 x00)
(T (W x00 x00 x80 x3f x00 x00 x80 x3f)
(T (W x00 x00 x80 x3f x00 x00 x80 x3f)
(T (W x40 x00 x00 x00 x9c x00 x00 x00)
(T (W x00 x00 x00 x00 x02 x00 x00 x00)
(L (W x00 x00 x80 xbf x00 x00 x80 xbf)) E)
(L (W x26 x00 x00 x00 x29 x00 x00 x00)))
(T (W xff xff xff xff xff xff xff xff)
(T (W x45 x44 x00 x00 x00 x00 x00 x00)
(L (W x45 x26 x22 x84 xe4 x9c xf2 xcb)) E)
(L (W x45 x26 x22 x84 xe4 x9c xf2 xcb))))
(T (W x3a x9b xff xff xd9 x01 x00 x00)
(T (W x68 x00 x00 x00 x5c x00 x00 x00)
(T (W x00 x00 x00 x00 x00 x00 x00 x00)
(L (W x45 x26 x22 x84 xe4 x9c xf2 xcb)) E)
(L (W x00 x00 x00 x00 x00 x00 x00 x00)))
(T (W x1c x0b xfd xff x00 x01 x01 x01)
(L (W x00 x00 x00 x00 x00 x00 x00 x00))
(L (W xff xff xff xff xff xff xff xff)))))
(T (W x00 x00 x80 x3f x00 x00 x80 x3f)
(T (W x1d x00 x00 x00 x0c x00 x00 x00)
(T (W x00 x00 x80 x3f x00 x00 x80 x3f)
(T (W x1c x6b xfd xff x00 x01 x01 x01)
(L (W x00 x00 x01 x01 xbe x00 x00 x00)) E)
(L (W xff xff xff xff xff xff xff xff)))
(T (W xff xff xff xff xff xff xff xff)
(T (W x00 x00 x00 x00 x82 xf1 xfd xff)
(L (W x04 x00 x00 x00 x82 xf1 xff xff)) E)
(L (W xff xff xff xff xff xff xff xff))))
(T (W xff xff xff xff xff xff xff xff)
(T (W x46 x53 x59 x53 x5f x4e x53 x5f)
(T (W x00 x00 x80 x3f x00 x00 x80 x3f)
(L (W x68 x00 x00 x00 x5c x00 x00 x00)) E)
(L (W x00 x00 x80 xbf x00 x00 x80 xbf)))
(T (W x45 x26 x22 x84 xe4 x9c xf2 xcb)
(L (W x00 x00 x00 x00 x00 x00 x00 x00))
(L (W x00 x00 x00 x00 x00 x00 x00 x00))))))
(T (W x3a x76 xfb xff x74 x00 x00 x00)
(T (W x00 x00 x80 x3f x00 x00 x80 x3f)
(T (W x00 x00 x00 x00 x00 x00 x00 x00)
(T (W x68 x00 x00 x00 x5c x00 x00 x00)
(T (W xff xff xff xff xff xff xff xff)
(L (W xff xff xff xff xff xff xff xff)) E)
(L (W xff xff xff xff xff xff xff xff)))
(T (W x45 x26 x22 x84 xe4 x9c xf2 xcb)
(T (W x1c xdb xfd xff x00 x01 x01 x01)
(L (W x74 x00 x00 x00 x68 x00 x00 x00)) E)
(L (W x45 x26 x22 x84 xe4 x9c xf2 xcb))))
(T (W xff xff xff xff xff xff xff xff)
(T (W xff xff xff xff xff xff xff xff)
(T (W x52 x63 x6c x12 x83 xf4 x3a xc6)
(L (W x18 x00 x00 x00 x10 x00 x00 x00)) E)
(L (W x00 x00 x80 xbf x00 x00 x80 xbf)))
(T (W xff xff xff xff xff xff xff xff)
(L (W x3a x16 xfe xff x74 x00 x00 x00))
(L (W x46 x53 x59 x53 x5f x4e x53 x5f)))))
(T (W x45 x26 x22 x84 xe4 x9c xf2 xcb)
(T (W xff xff xff xff xff xff xff xff)
(T (W x00 x00 x80 x3f x00 x00 x80 x3f)
(T (W x36 x00 x00 x00 x10 x00 x00 x00)
(L (W x00 x00 x00 x00 x00 x00 x00 x00)) E)
(L (W xcc x01 x00 x00 xff xff xff xff)))
(T (W x12 x00 x00 x00 x46 x53 x59 x53)
(T (W xff xff xff xff xff xff xff xff)
(L (W x00 x00 x00 x00 x00 x00 x00 x00)) E)
(L (W xff xff xff xff xff xff xff xff))))
(T (W x00 x00 x00 x00 x8c x39 xfc xff)
(T (W x00 x00 x80 x3f x00 x00 x80 x3f)
(T (W xff xff xff xff xff xff xff xff)
(L (W x00 x00 x00 x00 x00 x00 x00 x00)) E)
(L (W x00 x00 x00 x00 x00 x00 x00 x00)))
(T (W x00 x00 x00 x00 x00 x00 x00 x00)
(L (W x00 x00 x00 x00 x00 x00 x00 x00))
(L (W x00 x00 x00 x00 x00 x00 x00 x00)))))))
(T (W x45 x26 x22 x84 xe4 x9c xf2 xcb)
(T (W x01 x00 x00 x00 xa0 x00 x00 x00)
(T (W x00 x00 x80 x3f x00 x00 x80 x3f)
(T (W x00 x00 x00 x00 x00 x00 x00 x00)
(T (W x01 x00 x00 x00 x3c x00 x00 x00)
(T (W xff xff xff xff xff xff xff xff)
(L (W x45 x26 x22 x84 xe4 x9c xf2 xcb)) E)
(L (W xff xff xff xff xff xff xff xff)))
(T (W xb4 xd9 xfc xff x24 x00 x00 x00)
(T (W x00 x00 x80 x3f x00 x00 x80 x3f)
(L (W x3a xce xff xff x74 x00 x00 x00)) E)
(L (W xf2 xcf xfe xff x78 x00 x00 x00))))
(T (W xb2 xa4 xff xff x00 x00 x01 x01)
(T (W x03 x00 x00 x00 xd0 x00 x00 x00)
(T (W x00 x00 x80 x3f x00 x00 x80 x3f)
(L (W x00 x00 x80 xbf x00 x00 x80 xbf)) E)
(L (W x00 x00 x00 x00 x00 x00 x00 x00)))
(T (W x18 x00 x00 x00 x10 x00 x00 x00)
(L (W x00 x00 x80 xbf x00 x00 x80 xbf))
(L (W x04 x00 x00 x00 xea x10 xff xff)))))
(T (W x00 x00 x00 x00 x00 x00 x00 x00)
(T (W xf2 x60 xfe xff x00 x00 x01 x01)
(T (W x45 x26 x22 x84 xe4 x9c xf2 xcb)
(T (W x00 x00 x80 x3f x00 x00 x80 x3f)
(L (W x00 x00 x00 x00 x12 x00 x00 x00)) E)
(L (W xff xff xff xff xff xff xff xff)))
(T (W x80 x03 x00 x00 x54 x02 x00 x00)
(T (W x00 x00 x00 x00 x12 x00 x00 x00)
(L (W x45 x44 x00 x00 x00 x00 x00 x00)) E)
(L (W xff xff xff xff xff xff xff xff))))
(T (W x64 x00 x00 x00 x9c x00 x00 x00)
(T (W x00 x00 x00 x00 x00 x00 x00 x00)
(T (W x32 x00 x00 x00 x35 x00 x00 x00)
(L (W x00 x00 x80 xbf x00 x00 x80 xbf)) E)
(L (W x00 x00 x00 x00 x00 x00 x00 x00)))
(T (W x00 x00 x00 x00 x00 x00 x00 x00)
(L (W xff xff xff xff xff xff xff xff))
(L (W x45 x26 x22 x84 xe4 x9c xf2 xcb))))))
(T (W x00 x00 x80 x3f x00 x00 x80 x3f)
(T (W x50 x00 x00 x00 x44 x00 x00 x00)
(T (W x00 x00 x00 x00 x00 x00 x00 x00)
(T (W xf2 x5f xfc xff x78 x00 x00 x00)
(T (W x45 x26 x22 x84 xe4 x9c xf2 xcb)
(L (W xff xff xff xff xff xff xff xff)) E)
(L (W xff xff xff xff xff xff xff xff)))
(T (W x00 x00 x00 x00 x8c xe1 xfc xff)
(T (W xff xff xff xff xff xff xff xff)
(L (W x00 x00 x00 x00 x8c xe1 xff xff)) E)
(L (W xcc x00 x00 x00 x01 x00 x00 x00))))
(T (W xff xff xff xff xff xff xff xff)
(T (W x00 x00 x00 x00 x82 xa9 xfc xff)
(T (W xff xff xff xff xff xff xff xff)
(L (W x03 x00 x00 x00 xd0 x00 x00 x00)) E)
(L (W x45 x26 x22 x84 xe4 x9c xf2 xcb)))
(T (W x4c x45 x41 x52 x45 x44 x00 x00)
(L (W x3b x00 x00 x00 x3e x00 x00 x00))
(L (W x84 x26 xff xff x1d x00 x00 x00)))))
(T (W x45 x26 x22 x84 xe4 x9c xf2 xcb)
(T (W xf0 x00 x00 x00 xff xff xff xff)
(T (W x54 x00 x00 x00 x48 x00 x00 x00)
(T (W x00 x00 x00 x00 x00 x00 x00 x00)
(L (W x00 x00 x00 x00 x00 x00 x00 x00)) E)
(L (W x00 x00 x00 x00 x82 x89 xfe xff)))
(T (W x00 x00 x80 x3f x00 x00 x80 x3f)
(T (W x4c x45 x41 x52 x45 x44 x00 x00)
(L (W x08 x00 x09 x00 x0c x00 x00 x00)) E)
(L (W xff xff xff xff xff xff xff xff))))
(T (W x18 x00 x00 x00 x0c x00 x00 x00)
(T (W x68 x00 x00 x00 x5c x00 x00 x00)
(T (W x00 x00 x00 x00 x00 x00 x00 x00)
(L (W x54 x00 x00 x00 x48 x00 x00 x00)) E)
(L (W x00 x00 x00 x00 x00 x00 x00 x00)))
(T (W x00 x00 x00 x00 x00 x00 x00 x00)
(L (W xff xff xff xff xff xff xff xff))
(L (W x45 x26 x22 x84 xe4 x9c xf2 xcb))))))))))
(T (W x90 x58 x01 x00 xe4 x53 x01 x00)
(T (W xe0 x20 x00 x00 x34 x1e x00 x00)
(T (W xff xff xff xff xff xff xff xff)
(T (W xff xff xff xff x01 x00 x00 x00)
(T (W xff xff xff xff x01 x00 x00 x00)
(T (W xff xff xff xff xff xff xff xff)
(T (W x3a xc1 xfb xff x74 x00 x00 x00)
(T (W x01 x00 x00 x00 x04 x00 x00 x00)
(T (W x00 x00 x80 x3f x00 x00 x80 x3f)
(L (W xff xff xff xff xff xff xff xff)) E)
(L (W x00 x00 x00 x00 x00 x00 x00 x00)))
(T (W xc3 xfa x2f x74 x1a xd7 x58 xe9)
(T (W x54 x00 x00 x00 x48 x00 x00 x00)
(L (W xff xff xff xff xff xff xff xff)) E)
(L (W xff xff xff xff xc8 x00 x00 x00))))
(T (W x00 x00 x00 x00 x00 x00 x00 x00)
(T (W xff xff xff xff xff xff xff xff)
(T (W x00 x00 x80 x3f x00 x00 x80 x3f)
(L (W x3a x81 xff xff x74 x00 x00 x00)) E)
(L (W x54 x00 x00 x00 x48 x00 x00 x00)))
(T (W xff xff xff xff xff xff xff xff)
(L (W x68 x00 x00 x00 x5c x00 x00 x00))
(L (W x00 x00 x00 x00 x00 x00 x00 x00)))))
(T (W x18 x00 x00 x00 x10 x00 x00 x00)
(T (W x1c xe6 xfb xff x00 x01 x01 x01)
(T (W xff xff xff xff xff xff xff xff)
(T (W x00 x00 x00 x00 x02 x00 x00 x00)
(L (W x45 x26 x22 x84 xe4 x9c xf2 xcb)) E)
(L (W x00 x00 x00 x00 x12 x00 x00 x00)))
(T (W x12 x00 x00 x00 x46 x53 x59 x53)
(T (W x00 x00 x00 x00 x00 x00 x00 x00)
(L (W x45 x26 x22 x84 xe4 x9c xf2 xcb)) E)
(L (W x30 x35 x5f x43 x4c x45 x41 x52))))
(T (W x45 x26 x22 x84 xe4 x9c xf2 xcb)
(T (W x00 x00 x80 x3f x00 x00 x80 x3f)
(T (W x45 x26 x22 x84 xe4 x9c xf2 xcb)
(L (W x00 x00 x00 x00 x00 x00 x00 x00)) E)
(L (W xcc x00 x00 x00 x01 x00 x00 x00)))
(T (W x00 x00 x80 x3f x00 x00 x80 x3f)
(L (W xff xff xff xff xff xff xff xff))
(L (W x1c x26 xff xff x00 x01 x01 x01))))))
(T (W x00 x00 x00 x00 x00 x00 x00 x00)
(T (W xff xff xff xff xff xff xff xff)
(T (W x68 x00 x00 x00 x5c x00 x00 x00)
(T (W xff xff xff xff xff xff xff xff)
(T (W x00 x00 x00 x00 x00 x00 x00 x00)
(L (W x84 x59 xff xff x26 x00 x00 x00)) E)
(L (W x00 x00 x00 x00 x00 x00 x00 x00)))
(T (W x68 x00 x00 x00 x5c x00 x00 x00)
(T (W xff xff xff xff xff xff xff xff)
(L (W x00 x00 x00 x00 x00 x00 x00 x00)) E)
(L (W xff xff xff xff xff xff xff xff))))
(T (W x00 x00 x00 x00 x00 x00 x00 x00)
(T (W x00 x00 x00 x00 x12 x00 x00 x00)
(T (W x10 x00 x14 x00 x18 x00 x1c x00)
(L (W x00 x00 x00 x00 x00 x00 x00 x00)) E)
(L (W x18 x00 x00 x00 x0c x00 x00 x00)))
(T (W x00 x00 x00 x00 x00 x00 x00 x00)
(L (W xff xff xff xff xff xff xff xff))
(L (W xf2 x12 xff xff x78 x00 x00 x00)))))
(T (W xff xff xff xff xff xff xff xff)
(T (W x00 x00 x80 x3f x00 x00 x80 x3f)
(T (W x54 x00 x00 x00 x48 x00 x00 x00)
(T (W x40 x00 x44 x00 x48 x00 x4c x00)
(L (W x00 x00 x00 x00 x8c x74 xff xff)) E)
(L (W x49 xa1 x68 x4a xeb x5f xdd x3d)))
(T (W x00 x00 x80 x3f x00 x00 x80 x3f)
(T (W x00 x00 x80 xbf x00 x00 x80 xbf)
(L (W x5c x00 x00 x00 x50 x00 x00 x00)) E)
(L (W x49 xa1 x68 x4a xeb x5f xdd x3d))))
(T (W x00 x00 x00 x00 x00 x00 x00 x00)
(T (W xc4 x00 x00 x00 x01 x00 x00 x00)
(T (W x00 x00 x00 x00 x00 x00 x00 x00)
(L (W xff xff xff xff xff xff xff xff)) E)
(L (W xf2 xb2 xfe xff x78 x00 x00 x00)))
(T (W x68 x00 x00 x00 x5c x00 x00 x00)
(L (W x00 x00 x00 x00 x00 x00 x00 x00))
(L (W xff xff xff xff xff xff xff xff)))))))
(T (W xff xff xff xff xff xff xff xff)
(T (W x00 x00 x00 x00 x00 x00 x00 x00)
(T (W xff xff xff xff xff xff xff xff)
(T (W x00 x00 x80 x3f x00 x00 x80 x3f)
(T (W xff xff xff xff xff xff xff xff)
(T (W x00 x00 x80 x3f x00 x00 x80 x3f)
(L (W xff xff xff xff xff xff xff xff)) E)
(L (W x00 x00 x00 x00 x00 x00 x00 x00)))
(T (W x00 x00 x00 x00 x00 x00 x00 x00)
(T (W x00 x00 x00 x00 x8c xcc xfd xff)
(L (W xa9 x01 x00 x00 xff xff xff xff)) E)
(L (W xff xff xff xff xff xff xff xff))))
(T (W x00 x00 x00 x00 x00 x00 x00 x00)
(T (W x02 x00 x00 x00 x30 x01 x00 x00)
(T (W x1c x8e xfd xff x00 x01 x01 x01)
(L (W xff xff xff xff xff xff xff xff)) E)
(L (W x45 x26 x22 x84 xe4 x9c xf2 xcb)))
(T (W xff xff xff xff xff xff xff xff)
(L (W xc4 x00 x00 x00 x01 x00 x00 x00))
(L (W x00 x00 x80 xbf x00 x00 x80 xbf)))))
(T (W xb8 x00 x00 x00 xac x00 x00 x00)
(T (W x00 x00 x80 x3f x00 x00 x80 x3f)
(T (W x00 x00 x00 x00 x00 x00 x00 x00)
(T (W xff xff xff xff xff xff xff xff)
(L (W x00 x00 x80 xbf x00 x00 x80 xbf)) E)
(L (W x45 x26 x22 x84 xe4 x9c xf2 xcb)))
(T (W x00 x00 x00 x00 x00 x00 x00 x00)
(T (W x00 x00 x80 xbf x00 x00 x80 xbf)
(L (W x00 x00 x80 xbf x00 x00 x80 xbf)) E)
(L (W x45 x26 x22 x84 xe4 x9c xf2 xcb))))
(T (W x00 x00 x00 x00 x00 x00 x00 x00)
(T (W x45 x26 x22 x84 xe4 x9c xf2 xcb)
(T (W xff xff xff xff xe0 x00 x00 x00)
(L (W xff xff xff xff xff xff xff xff)) E)
(L (W x5f x4e x53 x5f x30 x35 x5f x43)))
(T (W x01 x00 x00 x00 xa0 x00 x00 x00)
(L (W x00 x00 x00 x00 x00 x00 x00 x00))
(L (W xbc x00 x00 x00 x64 x00 x00 x00))))))
(T (W x48 x03 x00 x00 x34 x02 x00 x00)
(T (W xff xff xff xff x04 x00 x00 x00)
(T (W x3a xd9 xfb xff x74 x00 x00 x00)
(T (W xff xff xff xff xff xff xff xff)
(T (W x00 x00 x00 x00 x00 x00 x00 x00)
(L (W x00 x00 x00 x00 x00 x00 x00 x00)) E)
(L (W x00 x00 x00 x00 x00 x00 x00 x00)))
(T (W xff xff xff xff xff xff xff xff)
(T (W x00 x00 x00 x00 x00 x00 x00 x00)
(L (W xff xff xff xff xff xff xff xff)) E)
(L (W x80 x42 xbb x28 xbf xcc x6a x6a))))
(T (W x00 x00 x00 x00 x00 x00 x00 x00)
(T (W x00 x00 x80 x3f x00 x00 x80 x3f)
(T (W x3a x99 xfd xff x74 x00 x00 x00)
(L (W x00 x00 x01 x01 xbc x01 x00 x00)) E)
(L (W xff xff xff xff xff xff xff xff)))
(T (W x00 x00 x80 x3f x00 x00 x80 x3f)
(L (W x00 x00 x00 x00 x82 x24 xfe xff))
(L (W x14 x00 x00 x00 x0c x00 x00 x00)))))
(T (W x18 x00 x00 x00 x0c x00 x00 x00)
(T (W x00 x00 x80 x3f x00 x00 x80 x3f)
(T (W x26 x00 x00 x00 x29 x00 x00 x00)
(T (W x00 x00 x80 x3f x00 x00 x80 x3f)
(L (W x1c x7e xff xff x00 x01 x01 x01)) E)
(L (W x00 x00 x80 xbf x00 x00 x80 xbf)))
(T (W xff xff xff xff x9c x00 x00 x00)
(T (W x00 x00 x80 xbf x00 x00 x80 xbf)
(L (W xff xff xff xff xff xff xff xff)) E)
(L (W x00 x00 x00 x00 x00 x00 x00 x00))))
(T (W xb4 x44 xfc xff x3c x00 x00 x00)
(T (W xff xff xff xff xff xff xff xff)
(T (W x00 x00 x80 x3f x00 x00 x80 x3f)
(L (W xff xff xff xff xc8 x00 x00 x00)) E)
(L (W x1c xbe xfe xff x00 x01 x01 x01)))
(T (W x1c x3e xfd xff x00 x01 x01 x01)
(L (W x00 x00 x00 x00 x00 x00 x00 x00))
(L (W xff xff xff xff xc8 x00 x00 x00))))))))
(T (W x00 x00 x80 x3f x00 x00 x80 x3f)
(T (W x00 x00 x80 x3f x00 x00 x80 x3f)
(T (W xff xff xff xff xff xff xff xff)
(T (W x00 x00 x80 x3f x00 x00 x80 x3f)
(T (W x00 x00 x00 x00 x00 x00 x00 x00)
(T (W x45 x26 x22 x84 xe4 x9c xf2 xcb)
(T (W xff xff xff xff xff xff xff xff)
(L (W x00 x00 x00 x00 x00 x00 x00 x00)) E)
(L (W xf2 x46 xfe xff x78 x00 x00 x00)))
(T (W x18 x00 x00 x00 x10 x00 x00 x00)
(T (W xff xff xff xff xff xff xff xff)
(L (W x45 x26 x22 x84 xe4 x9c xf2 xcb)) E)
(L (W x00 x00 x00 x00 x00 x00 x00 x00))))
(T (W xff xff xff xff xff xff xff xff)
(T (W x00 x00 x80 x3f x00 x00 x80 x3f)
(T (W x00 x00 x00 x00 x00 x00 x00 x00)
(L (W x00 x00 x00 x00 x00 x00 x00 x00)) E)
(L (W xff xff xff xff xff xff xff xff)))
(T (W x45 x26 x22 x84 xe4 x9c xf2 xcb)
(L (W x46 x53 x59 x53 x5f x4e x53 x5f))
(L (W x03 x00 x00 x00 xd0 x00 x00 x00)))))
(T (W x45 x26 x22 x84 xe4 x9c xf2 xcb)
(T (W xff xff xff xff xff xff xff xff)
(T (W x45 x26 x22 x84 xe4 x9c xf2 xcb)
(T (W x00 x00 x80 x3f x00 x00 x80 x3f)
(L (W xff xff xff xff xff xff xff xff)) E)
(L (W xff xff xff xff xff xff xff xff)))
(T (W x03 x00 x00 x00 xd4 x00 x00 x00)
(T (W xff xff xff xff xff xff xff xff)
(L (W xff xff xff xff xc4 x00 x00 x00)) E)
(L (W x18 x00 x00 x00 x0c x00 x00 x00))))
(T (W x1c x2a xfc xff x00 x01 x01 x01)
(T (W x04 x00 x00 x00 x82 xb0 xfc xff)
(T (W xb4 xb0 xfd xff x2d x00 x00 x00)
(L (W x00 x00 x80 xbf x00 x00 x80 xbf)) E)
(L (W x00 x00 x00 x00 x00 x00 x00 x00)))
(T (W x12 x00 x00 x00 x46 x53 x59 x53)
(L (W x00 x00 x80 xbf x00 x00 x80 x3f))
(L (W x00 x00 x00 x00 x00 x00 x00 x00))))))
(T (W x00 x00 x80 x3f x00 x00 x80 x3f)
(T (W x00 x00 x80 x3f x00 x00 x80 x3f)
(T (W x3e x00 x00 x00 x10 x00 x00 x00)
(T (W x00 x00 x80 x3f x00 x00 x80 x3f)
(T (W x45 x26 x22 x84 xe4 x9c xf2 xcb)
(L (W xff xff xff xff xc8 x00 x00 x00)) E)
(L (W x18 x00 x00 x00 x0c x00 x00 x00)))
(T (W x00 x00 x00 x00 x00 x00 x00 x00)
(T (W x54 x00 x00 x00 x48 x00 x00 x00)
(L (W x00 x00 x80 xbf x00 x00 x80 xbf)) E)
(L (W x54 x00 x00 x00 x48 x00 x00 x00))))
(T (W xff xff xff xff xff xff xff xff)
(T (W x03 x00 x00 x00 xd0 x00 x00 x00)
(T (W xff xff xff xff xff xff xff xff)
(L (W x54 x00 x00 x00 x48 x00 x00 x00)) E)
(L (W x00 x00 x00 x00 x00 x00 x00 x00)))
(T (W xff xff xff xff xff xff xff xff)
(L (W x00 x00 x80 xbf x00 x00 x80 xbf))
(L (W x00 x00 x01 x01 x69 x01 x00 x00)))))
(T (W x00 x00 x00 x00 x00 x00 x00 x00)
(T (W xff xff xff xff xff xff xff xff)
(T (W x00 x00 x00 x00 x00 x00 x00 x00)
(T (W xff xff xff xff xff xff xff xff)
(L (W x30 x35 x5f x43 x4c x45 x41 x52)) E)
(L (W xff xff xff xff xff xff xff xff)))
(T (W x00 x00 x00 x00 x00 x00 x00 x00)
(T (W xff xff xff xff xff xff xff xff)
(L (W xff xff xff xff xff xff xff xff)) E)
(L (W xff xff xff xff xff xff xff xff))))
(T (W x3a x35 xfc xff x74 x00 x00 x00)
(T (W x45 x26 x22 x84 xe4 x9c xf2 xcb)
(T (W x54 x00 x00 x00 x48 x00 x00 x00)
(L (W x00 x00 x00 x00 x00 x00 x00 x00)) E)
(L (W xbe x00 x00 x00 xff xff xff xff)))
(T (W x00 x00 x00 x00 x00 x00 x00 x00)
(L (W xff xff xff xff xff xff xff xff))
(L (W x00 x00 x00 x00 x00 x00 x00 x00)))))))
(T (W x6c x00 x00 x00 x60 x00 x00 x00)
(T (W x00 x00 x80 x3f x00 x00 x80 x3f)
(T (W x00 x00 x80 x3f x00 x00 x80 x3f)
(T (W x00 x00 x00 x00 x00 x00 x00 x00)
(T (W x00 x00 x80 x3f x00 x00 x80 x3f)
(T (W xff xff xff xff xff xff xff xff)
(L (W x00 x00 x80 xbf x00 x00 x80 xbf)) E)
(L (W xff xff xff xff x9c x00 x00 x00)))
(T (W xff xff xff xff xff xff xff xff)
(T (W x00 x00 x00 x00 x00 x00 x00 x00)
(L (W x00 x00 x80 xbf x00 x00 x80 xbf)) E)
(L (W x45 x26 x22 x84 xe4 x9c xf2 xcb))))
(T (W xff xff xff xff xff xff xff xff)
(T (W x18 x00 x00 x00 x10 x00 x00 x00)
(T (W x02 x00 x00 x00 xdc x01 x00 x00)
(L (W x00 x00 x00 x00 x00 x00 x00 x00)) E)
(L (W x00 x00 x00 x00 x00 x00 x00 x00)))
(T (W x68 x00 x00 x00 x5c x00 x00 x00)
(L (W x00 x00 x00 x00 x00 x00 x00 x00))
(L (W xff xff xff xff xff xff xff xff)))))
(T (W x00 x00 x00 x00 x00 x00 x00 x00)
(T (W xff xff xff xff xff xff xff xff)
(T (W x45 x26 x22 x84 xe4 x9c xf2 xcb)
(T (W x00 x00 x80 x3f x00 x00 x80 x3f)
(L (W x00 x00 x00 x00 x00 x00 x00 x00)) E)
(L (W xff xff xff xff x94 x00 x00 x00)))
(T (W xff xff xff xff xff xff xff xff)
(T (W x44 x02 x00 x00 x30 x01 x00 x00)
(L (W x00 x00 x01 x01 xa9 x01 x00 x00)) E)
(L (W xb0 x00 x00 x00 x64 x00 x00 x00))))
(T (W x50 x00 x00 x00 x44 x00 x00 x00)
(T (W x46 x53 x59 x53 x5f x4e x53 x5f)
(T (W xf2 xae xfd xff x78 x00 x00 x00)
(L (W x00 x00 x00 x00 x00 x00 x00 x00)) E)
(L (W xed x44 x3f xdc x00 xed x4e x2f)))
(T (W x00 x00 x00 x00 x00 x00 x00 x00)
(L (W xff xff xff xff xc8 x00 x00 x00))
(L (W x00 x00 x00 x00 x12 x00 x00 x00))))))
(T (W x45 x26 x22 x84 xe4 x9c xf2 xcb)
(T (W x00 x00 x00 x00 x00 x00 x00 x00)
(T (W xf2 x4f xfe xff x00 x00 x01 x01)
(T (W x00 x00 x80 x3f x00 x00 x80 x3f)
(T (W x1c x62 xfd xff x00 x01 x01 x01)
(L (W xff xff xff xff xff xff xff xff)) E)
(L (W xff xff xff xff xff xff xff xff)))
(T (W x00 x00 x80 x3f x00 x00 x80 x3f)
(T (W xff xff xff xff xb0 x00 x00 x00)
(L (W x00 x00 x80 xbf x00 x00 x80 xbf)) E)
(L (W x45 x26 x22 x84 xe4 x9c xf2 xcb))))
(T (W x64 x00 x00 x00 x9c x00 x00 x00)
(T (W xff xff xff xff xff xff xff xff)
(T (W xac xf8 xff xff x01 x01 x01 x01)
(L (W x00 x00 x80 xbf x00 x00 x80 xbf)) E)
(L (W x00 x00 x00 x00 x00 x00 x00 x00)))
(T (W x02 x00 x00 x00 xff xff xff xff)
(L (W x00 x00 x80 xbf x00 x00 x80 xbf))
(L (W xdc x00 x00 x00 xff xff xff xff)))))
(T (W x00 x00 x00 x00 x00 x00 x00 x00)
(T (W xff xff xff xff xff xff xff xff)
(T (W x00 x00 x00 x00 x00 x00 x00 x00)
(T (W x5e xd0 x36 x97 x85 x2c x63 x5f)
(L (W x84 x85 xff xff x31 x00 x00 x00)) E)
(L (W xff xff xff xff xff xff xff xff)))
(T (W x00 x00 x00 x00 x00 x00 x00 x00)
(T (W x3a x02 x00 x00 xff xff xff xff)
(L (W x00 x00 x00 x00 x00 x00 x00 x00)) E)
(L (W x3a xfd xfe xff x74 x00 x00 x00))))
(T (W x00 x00 x00 x00 x8c x40 xfc xff)
(T (W x00 x00 x80 x3f x00 x00 x80 x3f)
(T (W x00 x00 x00 x00 x00 x00 x00 x00)
(L (W x00 x00 x80 xbf x00 x00 x80 xbf)) E)
(L (W x00 x00 x00 x00 x00 x00 x00 x00)))
(T (W x00 x00 x00 x00 x02 x00 x00 x00)
(L (W xff xff xff xff xff xff xff xff))
(L (W x00 x00 x00 x00 x00 x00 x00 x00)))))))))
(T (W x45 x26 x22 x84 xe4 x9c xf2 xcb)
(T (W x00 x00 x00 x00 x00 x00 x00 x00)
(T (W x00 x00 x00 x00 x00 x00 x00 x00)
(T (W x00 x00 x00 x00 x00 x00 x00 x00)
(T (W x00 x00 x00 x00 x00 x00 x00 x00)
(T (W xff xff xff xff xff xff xff xff)
(T (W x45 x26 x22 x84 xe4 x9c xf2 xcb)
(T (W x45 x26 x22 x84 xe4 x9c xf2 xcb)
(L (W xff xff xff xff xff xff xff xff)) E)
(L (W x00 x00 x80 xbf x00 x00 x80 xbf)))
(T (W x45 x26 x22 x84 xe4 x9c xf2 xcb)
(T (W x03 x00 x00 x00 xd0 x00 x00 x00)
(L (W x00 x00 x00 x00 x00 x00 x00 x00)) E)
(L (W xa9 x01 x00 x00 xff xff xff xff))))
(T (W x45 x26 x22 x84 xe4 x9c xf2 xcb)
(T (W x00 x00 x00 x00 x00 x00 x00 x00)
(T (W x18 x00 x00 x00 x10 x00 x00 x00)
(L (W xaa x01 x00 x00 xff xff xff xff)) E)
(L (W x03 x00 x00 x00 xd0 x00 x00 x00)))
(T (W x00 x00 x00 x00 x00 x00 x00 x00)
(L (W xff xff xff xff xff xff xff xff))
(L (W x00 x00 x80 xbf x00 x00 x80 xbf)))))
(T (W xf2 x15 xfe xff x00 x00 x01 x01)
(T (W xb8 x00 x00 x00 xac x00 x00 x00)
(T (W x00 x00 x00 x00 x00 x00 x00 x00)
(T (W x00 x00 x00 x00 x00 x00 x00 x00)
(L (W x31 x00 x00 x00 x34 x00 x00 x00)) E)
(L (W x6c x00 x00 x00 x60 x00 x00 x00)))
(T (W x00 x00 x80 x3f x00 x00 x80 x3f)
(T (W xff xff xff xff xa0 x00 x00 x00)
(L (W x54 x00 x00 x00 x48 x00 x00 x00)) E)
(L (W x00 x00 x80 xbf x00 x00 x80 xbf))))
(T (W x00 x00 x80 x3f x00 x00 x80 x3f)
(T (W xc4 x00 x00 x00 x01 x00 x00 x00)
(T (W xff xff xff xff x9c x00 x00 x00)
(L (W x00 x00 x00 x00 x00 x00 x00 x00)) E)
(L (W xff xff xff xff xff xff xff xff)))
(T (W xff xff xff xff xff xff xff xff)
(L (W x30 x35 x5f x43 x4c x45 x41 x52))
(L (W xff xff xff xff xff xff xff xff))))))
(T (W x00 x00 x00 x00 x00 x00 x00 x00)
(T (W x00 x00 x00 x00 x00 x00 x00 x00)
(T (W xff xff xff xff x04 x00 x00 x00)
(T (W x00 x00 x00 x00 x00 x00 x00 x00)
(T (W x00 x00 x80 x3f x00 x00 x80 x3f)
(L (W x00 x00 x80 xbf x00 x00 x80 xbf)) E)
(L (W x00 x00 x80 xbf x00 x00 x80 xbf)))
(T (W xff xff xff xff xff xff xff xff)
(T (W x00 x00 x00 x00 x00 x00 x00 x00)
(L (W x00 x00 x00 x00 x00 x00 x00 x00)) E)
(L (W x4f x84 x6f x8b xe8 xcb x63 xb7))))
(T (W x00 x00 x80 x3f x00 x00 x80 x3f)
(T (W x54 x00 x00 x00 x48 x00 x00 x00)
(T (W x00 x00 x80 x3f x00 x00 x80 x3f)
(L (W x00 x00 x00 x00 x00 x00 x00 x00)) E)
(L (W x00 x00 x01 x01 x19 x01 x00 x00)))
(T (W x00 x00 x80 x3f x00 x00 x80 x3f)
(L (W x00 x00 x00 x00 x12 x00 x00 x00))
(L (W xff xff xff xff xff xff xff xff)))))
(T (W x48 x03 x00 x00 x34 x02 x00 x00)
(T (W xff xff xff xff x03 x00 x00 x00)
(T (W xff xff xff xff xff xff xff xff)
(T (W x64 x00 x00 x00 x9c x00 x00 x00)
(L (W xff xff xff xff xff xff xff xff)) E)
(L (W x6c x00 x00 x00 x60 x00 x00 x00)))
(T (W xff xff xff xff xff xff xff xff)
(T (W x18 x00 x00 x00 x10 x00 x00 x00)
(L (W x00 x00 x00 x00 x00 x00 x00 x00)) E)
(L (W x00 x00 x80 xbf x00 x00 x80 xbf))))
(T (W x00 x00 x80 x3f x00 x00 x80 x3f)
(T (W x54 x02 x00 x00 x38 x01 x00 x00)
(T (W x5f x77 x69 x6c x64 x5f x70 x6f)
(L (W x00 x00 x00 x00 x7a xc1 xff xff)) E)
(L (W xff xff xff xff xff xff xff xff)))
(T (W xff xff xff xff xff xff xff xff)
(L (W xf2 x34 xfe xff x78 x00 x00 x00))
(L (W xff xff xff xff xff xff xff xff)))))))
(T (W x00 x00 x00 x00 x00 x00 x00 x00)
(T (W x00 x00 x00 x00 x00 x00 x00 x00)
(T (W x00 x00 x00 x00 x00 x00 x00 x00)
(T (W xff xff xff xff xff xff xff xff)
(T (W x00 x00 x00 x00 x00 x00 x00 x00)
(T (W x1c x50 xfd xff x00 x01 x01 x01)
(L (W x46 x53 x59 x53 x5f x4e x53 x5f)) E)
(L (W x00 x00 x80 xbf x00 x00 x80 xbf)))
(T (W x00 x00 x00 x00 x8c xce xfc xff)
(T (W x00 x00 x00 x00 x00 x00 x00 x00)
(L (W x00 x00 x00 x00 x00 x00 x00 x00)) E)
(L (W x00 x00 x00 x00 x00 x00 x00 x00))))
(T (W x50 x00 x00 x00 x44 x00 x00 x00)
(T (W x00 x00 x00 x00 x00 x00 x00 x00)
(T (W xff xff xff xff xff xff xff xff)
(L (W x00 x00 x00 x00 x82 x96 xff xff)) E)
(L (W xff xff xff xff xff xff xff xff)))
(T (W x49 xa1 x68 x4a xeb x5f xdd x3d)
(L (W x04 x00 x00 x00 x82 x16 xfe xff))
(L (W xf2 x0c xff xff x78 x00 x00 x00)))))
(T (W xff xff xff xff xff xff xff xff)
(T (W xc0 x00 x00 x00 xb4 x00 x00 x00)
(T (W x4c x00 x00 x00 x50 x00 x54 x00)
(T (W x00 x00 x00 x00 x00 x00 x00 x00)
(L (W xff xff xff xff xff xff xff xff)) E)
(L (W x54 x00 x00 x00 x48 x00 x00 x00)))
(T (W x45 x26 x22 x84 xe4 x9c xf2 xcb)
(T (W x1c xf0 xfd xff x00 x01 x01 x01)
(L (W xff xff xff xff xff xff xff xff)) E)
(L (W x00 x00 x80 xbf x00 x00 x80 xbf))))
(T (W x00 x00 x80 x3f x00 x00 x80 x3f)
(T (W xff xff xff xff xff xff xff xff)
(T (W x00 x00 x00 x00 x12 x00 x00 x00)
(L (W x00 x00 x00 x00 x00 x00 x00 x00)) E)
(L (W xff xff xff xff xff xff xff xff)))
(T (W xff xff xff xff xff xff xff xff)
(L (W x00 x00 x80 xbf x00 x00 x80 xbf))
(L (W xff xff xff xff xff xff xff xff))))))
(T (W x00 x00 x00 x00 x00 x00 x00 x00)
(T (W x40 x00 x00 x00 x10 x00 x00 x00)
(T (W x18 x00 x00 x00 x10 x00 x00 x00)
(T (W x84 x63 xfc xff x3c x00 x00 x00)
(T (W x00 x00 x80 x3f x00 x00 x80 x3f)
(L (W x1c x60 xff xff x00 x01 x01 x01)) E)
(L (W x00 x00 x80 xbf x00 x00 x80 xbf)))
(T (W x00 x00 x00 x00 x00 x00 x00 x00)
(T (W x00 x00 x80 xbf x00 x00 x80 xbf)
(L (W x00 x00 x00 x00 x00 x00 x00 x00)) E)
(L (W x00 x00 x80 xbf x00 x00 x80 xbf))))
(T (W x00 x00 x80 x3f x00 x00 x80 x3f)
(T (W x68 x00 x00 x00 x5c x00 x00 x00)
(T (W x00 x00 x00 x00 x00 x00 x00 x00)
(L (W x00 x00 x00 x00 x00 x00 x00 x00)) E)
(L (W x00 x00 x00 x00 x00 x00 x00 x00)))
(T (W x1c x20 xfd xff x00 x01 x01 x01)
(L (W x00 x00 x00 x00 x00 x00 x00 x00))
(L (W xff xff xff xff xff xff xff xff)))))
(T (W xff xff xff xff xff xff xff xff)
(T (W x00 x00 x00 x00 x8c xfe xfb xff)
(T (W x02 x00 x00 x00 x30 x01 x00 x00)
(T (W x18 x00 x00 x00 x0c x00 x00 x00)
(L (W xff xff xff xff xff xff xff xff)) E)
(L (W x00 x00 x00 x00 x8c x7e xfe xff)))
(T (W xff xff xff xff xff xff xff xff)
(T (W x18 x00 x00 x00 x0c x00 x00 x00)
(L (W x6c x00 x00 x00 x60 x00 x00 x00)) E)
(L (W x00 x00 x80 xbf x00 x00 x80 xbf))))
(T (W x45 x26 x22 x84 xe4 x9c xf2 xcb)
(T (W x46 x53 x59 x53 x5f x4e x53 x5f)
(T (W xff xff xff xff xff xff xff xff)
(L (W x42 x00 x00 x00 xff xff xff xff)) E)
(L (W xff xff xff xff xff xff xff xff)))
(T (W xff xff xff xff xff xff xff xff)
(L (W x00 x00 x80 xbf x00 x00 x80 xbf))
(L (W x5c x00 x00 x00 xff xff xff xff))))))))
(T (W x1c x54 xfb xff x00 x01 x01 x01)
(T (W x68 x00 x00 x00 x5c x00 x00 x00)
(T (W x6c x00 x00 x00 x60 x00 x00 x00)
(T (W x3a x87 xfb xff x74 x00 x00 x00)
(T (W x00 x00 x80 x3f x00 x00 x80 x3f)
(T (W xff xff xff xff x03 x00 x00 x00)
(T (W x00 x00 x00 x00 x00 x00 x00 x00)
(L (W x00 x00 x80 xbf x00 x00 x80 xbf)) E)
(L (W xff xff xff xff xff xff xff xff)))
(T (W x04 x00 x00 x00 xfa xd0 xfc xff)
(T (W x00 x00 x00 x00 x00 x00 x00 x00)
(L (W xff xff xff xff xc8 x00 x00 x00)) E)
(L (W x00 x00 x80 xbf x00 x00 x80 xbf))))
(T (W x00 x00 x00 x00 x00 x00 x00 x00)
(T (W x03 x00 x00 x00 xd0 x00 x00 x00)
(T (W x00 x00 x80 x3f x00 x00 x80 x3f)
(L (W x00 x00 x80 xbf x00 x00 x80 xbf)) E)
(L (W x00 x00 x00 x00 x00 x00 x00 x00)))
(T (W xb8 x00 x00 x00 x64 x00 x00 x00)
(L (W x00 x00 x80 xbf x00 x00 x80 xbf))
(L (W x06 x00 x00 x00 xc8 x05 x00 x00)))))
(T (W x1c xac xfb xff x00 x01 x01 x01)
(T (W x00 x00 x00 x00 x00 x00 x00 x00)
(T (W x18 x00 x00 x00 x0c x00 x00 x00)
(T (W x45 x26 x22 x84 xe4 x9c xf2 xcb)
(L (W x46 x53 x59 x53 x5f x4e x53 x5f)) E)
(L (W x9b x1d xb6 x28 xbf x5f x64 x6a)))
(T (W x9c x01 x00 x00 xff xff xff xff)
(T (W x46 x53 x59 x53 x5f x4e x53 x5f)
(L (W x46 x53 x59 x53 x5f x4e x53 x5f)) E)
(L (W x04 x00 x00 x00 xea xe9 xfe xff))))
(T (W xcf x01 x00 x00 xff xff xff xff)
(T (W x00 x00 x00 x00 x00 x00 x00 x00)
(T (W x54 x00 x00 x00 x48 x00 x00 x00)
(L (W x48 x00 x4c x00 x50 x00 x54 x00)) E)
(L (W x00 x00 x00 x00 x8c xaa xfe xff)))
(T (W x00 x00 x80 x3f x00 x00 x80 x3f)
(L (W x00 x00 x00 x00 x20 x2c xfe xff))
(L (W x45 x26 x22 x84 xe4 x9c xf2 xcb))))))
(T (W xff xff xff xff xff xff xff xff)
(T (W x68 x00 x00 x00 x5c x00 x00 x00)
(T (W x00 x00 x00 x00 x00 x00 x00 x00)
(T (W xff xff xff xff xff xff xff xff)
(T (W xff xff xff xff xff xff xff xff)
(L (W x63 x01 x00 x00 xff xff xff xff)) E)
(L (W xff xff xff xff xff xff xff xff)))
(T (W x00 x00 x80 x3f x00 x00 x80 x3f)
(T (W xb0 x00 x00 x00 x64 x00 x00 x00)
(L (W xff xff xff xff x98 x00 x00 x00)) E)
(L (W xcc x00 x00 x00 x01 x00 x00 x00))))
(T (W x00 x00 x00 x00 x04 x00 x00 x00)
(T (W x04 x00 x00 x00 x80 x03 x00 x00)
(T (W x00 x00 x00 x00 x00 x00 x00 x00)
(L (W x03 x00 x00 x00 xd8 x00 x00 x00)) E)
(L (W x00 x00 x80 xbf x00 x00 x80 xbf)))
(T (W xda x6d xfe xff x9c x01 x00 x00)
(L (W xff xff xff xff xff xff xff xff))
(L (W x00 x00 x00 x00 x00 x00 x00 x00)))))
(T (W x45 x26 x22 x84 xe4 x9c xf2 xcb)
(T (W x3e x00 x00 x00 x0c x00 x00 x00)
(T (W x00 x00 x80 x3f x00 x00 x80 x3f)
(T (W x00 x00 x00 x00 x00 x00 x00 x00)
(L (W x00 x00 x00 x00 x00 x00 x00 x00)) E)
(L (W x00 x00 x00 x00 x00 x00 x00 x00)))
(T (W x00 x00 x00 x00 x00 x00 x00 x00)
(T (W x00 x00 x00 x00 x00 x00 x00 x00)
(L (W x00 x00 x80 xbf x00 x00 x80 xbf)) E)
(L (W xff xff xff xff xff xff xff xff))))
(T (W xff xff xff xff xff xff xff xff)
(T (W x50 x00 x00 x00 x44 x00 x00 x00)
(T (W x77 x61 x72 x6c x69 x6b x65 x5f)
(L (W x00 x00 x80 xbf x00 x00 x80 xbf)) E)
(L (W x00 x00 x80 xbf x00 x00 x80 xbf)))
(T (W x00 x00 x80 x3f x00 x00 x80 x3f)
(L (W x00 x00 x00 x00 x00 x00 x00 x00))
(L (W x45 x26 x22 x84 xe4 x9c xf2 xcb)))))))
(T (W xbc x00 x00 x00 xb0 x00 x00 x00)
(T (W xff xff xff xff x03 x00 x00 x00)
(T (W x00 x00 x80 x3f x00 x00 x80 x3f)
(T (W x00 x00 x80 x3f x00 x00 x80 x3f)
(T (W xff xff xff xff xff xff xff xff)
(T (W x00 x00 x00 x00 x02 x00 x00 x00)
(L (W xff xff xff xff xff xff xff xff)) E)
(L (W x00 x00 x00 x00 x00 x00 x00 x00)))
(T (W x00 x00 x00 x00 x00 x00 x00 x00)
(T (W x3a xcf xfd xff x74 x00 x00 x00)
(L (W xff xff xff xff xff xff xff xff)) E)
(L (W x31 x00 x00 x00 x34 x00 x00 x00))))
(T (W x00 x00 x00 x00 x00 x00 x00 x00)
(T (W xff xff xff xff xff xff xff xff)
(T (W xff xff xff xff xff xff xff xff)
(L (W x68 x00 x00 x00 x5c x00 x00 x00)) E)
(L (W x00 x00 x80 xbf x00 x00 x80 xbf)))
(T (W xff xff xff xff xff xff xff xff)
(L (W x68 x00 x00 x00 x5c x00 x00 x00))
(L (W x00 x00 x00 x00 x12 x00 x00 x00)))))
(T (W x00 x00 x80 x3f x00 x00 x80 x3f)
(T (W x00 x00 x00 x00 x00 x00 x00 x00)
(T (W xff xff xff xff xff xff xff xff)
(T (W x1c x74 xfd xff x00 x01 x01 x01)
(L (W x00 x00 x00 x00 x00 x00 x00 x00)) E)
(L (W xcf x00 x00 x00 xff xff xff xff)))
(T (W x00 x00 x00 x00 x00 x00 x00 x00)
(T (W x00 x00 x00 x00 x00 x00 x00 x00)
(L (W x45 x26 x22 x84 xe4 x9c xf2 xcb)) E)
(L (W x00 x00 x00 x00 x00 x00 x00 x00))))
(T (W xff xff xff xff xff xff xff xff)
(T (W x00 x00 x80 x3f x00 x00 x80 x3f)
(T (W xff xff xff xff xff xff xff xff)
(L (W x00 x00 x80 x3f x00 x00 x80 x3f)) E)
(L (W x00 x00 x80 xbf x00 x00 x80 xbf)))
(T (W x45 x26 x22 x84 xe4 x9c xf2 xcb)
(L (W xaf x01 x00 x00 xff xff xff xff))
(L (W x00 x00 x80 xbf x00 x00 x80 xbf))))))
(T (W x18 x00 x00 x00 x0c x00 x00 x00)
(T (W x3a x9f xfb xff x74 x00 x00 x00)
(T (W x45 x26 x22 x84 xe4 x9c xf2 xcb)
(T (W x45 x26 x22 x84 xe4 x9c xf2 xcb)
(T (W xff xff xff xff xff xff xff xff)
(L (W x00 x00 x00 x00 xea x61 xff xff)) E)
(L (W x00 x00 x00 x00 x12 x7f xfe xff)))
(T (W xff xff xff xff xff xff xff xff)
(T (W x00 x00 x01 x01 x73 x02 x00 x00)
(L (W xff xff xff xff xff xff xff xff)) E)
(L (W xff xff xff xff xff xff xff xff))))
(T (W xff xff xff xff xff xff xff xff)
(T (W x46 x53 x59 x53 x5f x4e x53 x5f)
(T (W x00 x00 x01 x01 xdb x01 x00 x00)
(L (W xff xff xff xff xff xff xff xff)) E)
(L (W x00 x00 x80 xbf x00 x00 x80 xbf)))
(T (W x00 x00 x00 x00 x00 x00 x00 x00)
(L (W xff xff xff xff xff xff xff xff))
(L (W x00 x00 x80 xbf x00 x00 x80 xbf)))))
(T (W x00 x00 x80 x3f x00 x00 x80 x3f)
(T (W x00 x00 x00 x00 x00 x00 x00 x00)
(T (W x18 x00 x00 x00 x10 x00 x00 x00)
(T (W x00 x00 x00 x00 x00 x00 x00 x00)
(L (W x00 x00 x80 xbf x00 x00 x80 xbf)) E)
(L (W x46 x53 x59 x53 x5f x4e x53 x5f)))
(T (W x00 x00 x80 x3f x00 x00 x80 x3f)
(T (W x00 x00 x00 x00 x00 x00 x00 x00)
(L (W x18 x00 x1c x00 x20 x00 x24 x00)) E)
(L (W x64 x01 x00 x00 xff xff xff xff))))
(T (W x64 x00 x00 x00 x9c x00 x00 x00)
(T (W xb0 x00 x00 x00 x64 x00 x00 x00)
(T (W x00 x00 x00 x00 x00 x00 x00 x00)
(L (W x1c xc4 xff xff x00 x01 x01 x01)) E)
(L (W x45 x26 x22 x84 xe4 x9c xf2 xcb)))
(T (W x00 x00 x00 x00 x00 x00 x00 x00)
(L (W xff xff xff xff xff xff xff xff))
(L (W x00 x00 x80 xbf x00 x00 x80 xbf))))))))))))
(T (W x90 xa6 x03 x00 xf4 xa1 x03 x00)
(T (W xf8 xf3 x02 x00 x9c xf1 x02 x00)
(T (W x68 x21 x02 x00 x24 x1f x02 x00)
(T (W xc8 xd8 x00 x00 x94 xd7 x00 x00)
(T (W x02 x00 x00 x00 x1c x01 x00 x00)
(T (W xb2 xc2 xfd xff x00 x00 x01 x01)
(T (W x00 x00 x00 x00 x7a xed xfd xff)
(T (W x68 xab xef x51 x22 x6e x26 xaf)
(T (W x45 x26 x22 x84 xe4 x9c xf2 xcb)
(T (W x40 x00 x00 x00 x0c x00 x00 x00)
(T (W xdc x44 xfd xff x00 x01 x01 x01)
(L (W xff xff xff xff xff xff xff xff)) E)
(L (W x00 x00 x00 x00 x00 x00 x00 x00)))
(T (W x74 xcb xfc xff x24 x00 x00 x00)
(T (W x45 x26 x22 x84 xe4 x9c xf2 xcb)
(L (W xff xff xff xff xff xff xff xff)) E)
(L (W xff xff xff xff xff xff xff xff))))
(T (W x45 x26 x22 x84 xe4 x9c xf2 xcb)
(T (W xff xff xff xff xff xff xff xff)
(T (W x45 x26 x22 x84 xe4 x9c xf2 xcb)
(L (W xff xff xff xff xb0 x00 x00 x00)) E)
(L (W x00 x00 x80 xbf x00 x00 x80 xbf)))
(T (W xff xff xff xff xff xff xff xff)
(T (W x18 x00 x00 x00 x0c x00 x00 x00)
(L (W x04 x00 x00 x00 x00 x00 x2a x00)) E)
(L (W x45 x26 x22 x84 xe4 x9c xf2 xcb)))))
(T (W xff xff xff xff xff xff xff xff)
(T (W xfa xdf xfb xff x74 x00 x00 x00)
(T (W x00 x00 x00 x00 x04 x00 x00 x00)
(T (W x00 x00 x00 x00 x00 x00 x00 x00)
(L (W x00 x00 x80 xbf x00 x00 x80 xbf)) E)
(L (W x00 x00 x00 x00 x00 x00 x00 x00)))
(T (W x00 x00 x00 x00 x00 x00 x00 x00)
(T (W x49 xa1 x68 x4a xeb x5f xdd x3d)
(L (W x00 x00 x00 x00 x12 x00 x00 x00)) E)
(L (W x00 x00 x00 x00 x00 x00 x00 x00))))
(T (W x00 x00 x00 x00 x00 x00 x00 x00)
(T (W x00 x00 x80 x3f x00 x00 x80 x3f)
(T (W x45 x26 x22 x84 xe4 x9c xf2 xcb)
(L (W x00 x00 x00 x00 x00 x00 x00 x00)) E)
(L (W xff xff xff xff xb4 x00 x00 x00)))
(T (W x68 x00 x00 x00 x5c x00 x00 x00)
(L (W x00 x00 x00 x00 x00 x00 x00 x00))
(L (W x2f x00 x00 x00 x32 x00 x00 x00))))))
(T (W x00 x00 x00 x00 x00 x00 x00 x00)
(T (W xff xff xff xff xff xff xff xff)
(T (W x0a x00 x00 x00 x3e x00 x00 x00)
(T (W x00 x00 x00 x00 x00 x00 x00 x00)
(T (W x00 x00 x80 x3f x00 x00 x80 x3f)
(L (W x00 x00 x00 x00 x12 x00 x00 x00)) E)
(L (W x00 x00 x80 xbf x00 x00 x80 xbf)))
(T (W x00 x00 x00 x00 x4c xd3 xfc xff)
(T (W xff xff xff xff xff xff xff xff)
(L (W x00 x00 x00 x00 x00 x00 x00 x00)) E)
(L (W x00 x00 x00 x00 x42 xdb xfe xff))))
(T (W x00 x00 x80 x3f x00 x00 x80 x3f)
(T (W x00 x00 x00 x00 x00 x00 x00 x00)
(T (W x00 x00 x00 x00 x00 x00 x00 x00)
(L (W xf4 x06 x00 x00 xd8 x05 x00 x00)) E)
(L (W xff xff xff xff xff xff xff xff)))
(T (W x00 x00 x00 x00 x00 x00 x00 x00)
(L (W xff xff xff xff xff xff xff xff))
(L (W x50 x00 x00 x00 x44 x00 x00 x00)))))
(T (W xff xff xff xff xff xff xff xff)
(T (W x00 x00 x80 x3f x00 x00 x80 x3f)
(T (W x00 x00 x00 x00 x00 x00 x00 x00)
(T (W xff xff xff xff xff xff xff xff)
(L (W xc4 x00 x00 x00 x01 x00 x00 x00)) E)
(L (W x45 x26 x22 x84 xe4 x9c xf2 xcb)))
(T (W xfa xef xfc xff x74 x00 x00 x00)
(T (W xb2 xf1 xfd xff x78 x00 x00 x00)
(L (W x45 x26 x22 x84 xe4 x9c xf2 xcb)) E)
(L (W x00 x00 x80 xbf x00 x00 x80 xbf))))
(T (W x00 x00 x00 x00 x00 x00 x00 x00)
(T (W xff xff xff xff xff xff xff xff)
(T (W x00 x00 x00 x00 x00 x00 x00 x00)
(L (W xff xff xff xff xff xff xff xff)) E)
(L (W xff xff xff xff xb0 x00 x00 x00)))
(T (W xff xff xff xff x03 x00 x00 x00)
(L (W x45 x26 x22 x84 xe4 x9c xf2 xcb))
(L (W xff xff xff xff xc4 x00 x00 x00)))))))
(T (W xff xff xff xff x01 x00 x00 x00)
(T (W x3c x00 x40 x00 x44 x00 x48 x00)
(T (W xb4 x01 x00 x00 xff xff xff xff)
(T (W x01 x00 x00 x00 x9c x00 x00 x00)
(T (W x00 x00 x00 x00 x00 x00 x00 x00)
(T (W x00 x00 x80 x3f x00 x00 x80 x3f)
(L (W x01 x00 x00 x00 xff xff xff xff)) E)
(L (W x49 xa1 x68 x4a xeb x5f xdd x3d)))
(T (W x45 x26 x22 x84 xe4 x9c xf2 xcb)
(T (W xc4 x00 x00 x00 x02 x00 x00 x00)
(L (W x00 x00 x00 x00 x00 x00 x00 x00)) E)
(L (W xff xff xff xff xff xff xff xff))))
(T (W x00 x00 x80 x3f x00 x00 x80 x3f)
(T (W x45 x44 x00 x00 x00 x00 x00 x00)
(T (W x45 x26 x22 x84 xe4 x9c xf2 xcb)
(L (W xff xff xff xff xc4 x00 x00 x00)) E)
(L (W x31 x00 x00 x00 x34 x00 x00 x00)))
(T (W x00 x00 x00 x00 x00 x00 x00 x00)
(L (W xff xff xff xff xff xff xff xff))
(L (W x00 x00 x80 xbf x00 x00 x80 xbf)))))
(T (W xff xff xff xff xff xff xff xff)
(T (W xdc xec xfb xff x00 x01 x01 x01)
(T (W x00 x00 x0c x00 x10 x00 x14 x00)
(T (W x00 x00 x00 x00 x02 x00 x00 x00)
(L (W x00 x00 x80 xbf x00 x00 x80 xbf)) E)
(L (W x3c x00 x00 x00 x00 x00 x80 xbf)))
(T (W x49 xa1 x68 x4a xeb x5f xdd x3d)
(T (W x00 x00 x80 xbf x00 x00 x80 xbf)
(L (W x00 x00 x80 xbf x00 x00 x80 xbf)) E)
(L (W x00 x00 x80 xbf x00 x00 x80 xbf))))
(T (W x45 x26 x22 x84 xe4 x9c xf2 xcb)
(T (W x2d x00 x00 x00 x30 x00 x00 x00)
(T (W xff xff xff xff xff xff xff xff)
(L (W x68 x00 x00 x00 x5c x00 x00 x00)) E)
(L (W x28 x00 x2c x00 x30 x00 x34 x00)))
(T (W xb0 x00 x00 x00 x64 x00 x00 x00)
(L (W x45 x44 x00 x00 x00 x00 x00 x00))
(L (W xff xff xff xff xff xff xff xff))))))
(T (W x00 x00 x00 x00 x00 x00 x00 x00)
(T (W xff xff xff xff xff xff xff xff)
(T (W xc0 x00 x00 x00 xb4 x00 x00 x00)
(T (W x00 x00 x00 x00 x00 x00 x00 x00)
(T (W x00 x00 x00 x00 x00 x00 x00 x00)
(L (W x45 x26 x22 x84 xe4 x9c xf2 xcb)) E)
(L (W x4f x84 x6f x8b xe8 xcb x63 xb7)))
(T (W xff xff xff xff xff xff xff xff)
(T (W x44 xe0 xfd xff x37 x00 x00 x00)
(L (W xff xff xff xff xff xff xff xff)) E)
(L (W x45 x44 x00 x00 x00 x00 x00 x00))))
(T (W x00 x00 x80 x3f x00 x00 x80 x3f)
(T (W x00 x00 x80 x3f x00 x00 x80 x3f)
(T (W x6c xf3 xff xff x01 x01 x01 x01)
(L (W x30 x35 x5f x43 x4c x45 x41 x52)) E)
(L (W xff xff xff xff xff xff xff xff)))
(T (W x45 x26 x22 x84 xe4 x9c xf2 xcb)
(L (W x00 x00 x00 x00 x12 x00 x00 x00))
(L (W x03 x00 x00 x00 xd0 x00 x00 x00)))))
(T (W xb8 x00 x00 x00 xac x00 x00 x00)
(T (W x00 x00 x80 x3f x00 x00 x80 x3f)
(T (W xff xff xff xff xff xff xff xff)
(T (W x00 x00 x80 x3f x00 x00 x80 x3f)
(L (W xfa x77 xff xff x74 x00 x00 x00)) E)
(L (W x54 x00 x00 x00 x48 x00 x00 x00)))
(T (W x03 x00 x00 x00 xd4 x00 x00 x00)
(T (W x00 x00 x80 xbf x00 x00 x80 xbf)
(L (W x00 x00 x01 x01 x43 x00 x00 x00)) E)
(L (W x00 x00 x00 x00 x00 x00 x00 x00))))
(T (W x00 x00 x00 x00 x00 x00 x00 x00)
(T (W xff xff xff xff xff xff xff xff)
(T (W x54 x00 x00 x00 x48 x00 x00 x00)
(L (W xff xff xff xff xff xff xff xff)) E)
(L (W xbc x00 x00 x00 x64 x00 x00 x00)))
(T (W x45 x26 x22 x84 xe4 x9c xf2 xcb)
(L (W x00 x00 x80 xbf x00 x00 x80 xbf))
(L (W xff xff xff xff xff xff xff xff))))))))
(T (W x68 x00 x00 x00 x5c x00 x00 x00)
(T (W xdc x58 xfb xff x00 x01 x01 x01)
(T (W x18 x00 x00 x00 x0c x00 x00 x00)
(T (W x68 x00 x00 x00 x5c x00 x00 x00)
(T (W x00 x00 x00 x00 x00 x00 x00 x00)
(T (W x00 x00 x00 x00 x4c x47 xfc xff)
(T (W x00 x00 x00 x00 x02 x00 x00 x00)
(L (W x4f x84 x6f x8b xe8 xcb x63 xb7)) E)
(L (W xff xff xff xff xb0 x00 x00 x00)))
(T (W xb0 x00 x00 x00 x64 x00 x00 x00)
(T (W x45 x44 x00 x00 x00 x00 x00 x00)
(L (W x00 x00 x80 xbf x00 x00 x80 xbf)) E)
(L (W x45 x26 x22 x84 xe4 x9c xf2 xcb))))
(T (W xff xff xff xff xff xff xff xff)
(T (W xb2 x85 xfc xff x78 x00 x00 x00)
(T (W x21 x00 x00 x00 x67 x72 x6f x75)
(L (W x45 x26 x22 x84 xe4 x9c xf2 xcb)) E)
(L (W x45 x44 x00 x00 x00 x00 x00 x00)))
(T (W x00 x00 x80 x3f x00 x00 x80 x3f)
(L (W x00 x00 x00 x00 x00 x00 x00 x00))
(L (W xff xff xff xff xc4 x00 x00 x00)))))
(T (W x45 x26 x22 x84 xe4 x9c xf2 xcb)
(T (W x42 x55 xfe xff x19 x01 x00 x00)
(T (W x00 x00 x80 x3f x00 x00 x80 x3f)
(T (W xdc x68 xfd xff x00 x01 x01 x01)
(L (W x00 x00 x00 x00 x42 x6f xff xff)) E)
(L (W xff xff xff xff xff xff xff xff)))
(T (W xb0 x00 x00 x00 x64 x00 x00 x00)
(T (W x00 x00 x01 x01 xbe x00 x00 x00)
(L (W xff xff xff xff xff xff xff xff)) E)
(L (W xff xff xff xff xff xff xff xff))))
(T (W x18 x00 x00 x00 x10 x00 x00 x00)
(T (W x00 x00 x00 x00 x00 x00 x00 x00)
(T (W x2f x00 x00 x00 x10 x00 x00 x00)
(L (W xb2 xa5 xff xff x78 x00 x00 x00)) E)
(L (W x4f x84 x6f x8b xe8 xcb x63 xb7)))
(T (W x00 x00 x00 x00 x00 x00 x00 x00)
(L (W x00 x00 x80 xbf x00 x00 x80 xbf))
(L (W x00 x00 x00 x00 x00 x00 x00 x00))))))
(T (W x00 x00 x80 x3f x00 x00 x80 x3f)
(T (W x00 x00 x80 x3f x00 x00 x80 x3f)
(T (W x00 x00 x00 x00 x00 x00 x00 x00)
(T (W x50 x00 x00 x00 x44 x00 x00 x00)
(T (W xff xff xff xff xff xff xff xff)
(L (W xff xff xff xff xff xff xff xff)) E)
(L (W x26 x00 x00 x00 x29 x00 x00 x00)))
(T (W x00 x00 x00 x00 x00 x00 x00 x00)
(T (W xdc xd8 xfd xff x00 x01 x01 x01)
(L (W x54 x00 x00 x00 x48 x00 x00 x00)) E)
(L (W x18 x00 x00 x00 x10 x00 x00 x00))))
(T (W xff xff xff xff xff xff xff xff)
(T (W xff xff xff xff xff xff xff xff)
(T (W xff xff xff xff xff xff xff xff)
(L (W x45 x26 x22 x84 xe4 x9c xf2 xcb)) E)
(L (W x00 x00 x80 xbf x00 x00 x80 xbf)))
(T (W xff xff xff xff xff xff xff xff)
(L (W x00 x00 x80 xbf x00 x00 x80 xbf))
(L (W x46 x53 x59 x53 x5f x4e x53 x5f)))))
(T (W x00 x00 x80 x3f x00 x00 x80 x3f)
(T (W x00 x00 x00 x00 x00 x00 x00 x00)
(T (W x00 x00 x00 x00 x00 x00 x00 x00)
(T (W x38 x00 x00 x00 x10 x00 x00 x00)
(L (W x00 x00 x00 x00 x00 x00 x00 x00)) E)
(L (W xff xff xff xff xff xff xff xff)))
(T (W x12 x00 x00 x00 x46 x53 x59 x53)
(T (W xff xff xff xff xff xff xff xff)
(L (W x5c x00 x00 x00 x50 x00 x00 x00)) E)
(L (W xff xff xff xff xff xff xff xff))))
(T (W xc0 x00 x00 x00 xb4 x00 x00 x00)
(T (W x00 x00 x80 x3f x00 x00 x80 x3f)
(T (W x00 x00 x80 x3f x00 x00 x80 x3f)
(L (W x49 xa1 x68 x4a xeb x5f xdd x3d)) E)
(L (W x00 x00 x00 x00 x00 x00 x00 x00)))
(T (W x00 x00 x00 x00 x00 x00 x00 x00)
(L (W xff xff xff xff xff xff xff xff))
(L (W x00 x00 x00 x00 x00 x00 x00 x00)))))))
(T (W x50 x00 x00 x00 x44 x00 x00 x00)
(T (W x68 x00 x00 x00 x5c x00 x00 x00)
(T (W xfa x8b xfb xff x74 x00 x00 x00)
(T (W x00 x00 x00 x00 x00 x00 x00 x00)
(T (W x45 x26 x22 x84 xe4 x9c xf2 xcb)
(T (W xff xff xff xff xff xff xff xff)
(L (W x00 x00 x80 xbf x00 x00 x80 xbf)) E)
(L (W x03 x00 x00 x00 xd8 x00 x00 x00)))
(T (W x04 x00 x00 x00 xba xd5 xfc xff)
(T (W x00 x00 x80 x3f x00 x00 x80 x3f)
(L (W x6c x00 x00 x00 x60 x00 x00 x00)) E)
(L (W x00 x00 x80 xbf x00 x00 x80 xbf))))
(T (W xff xff xff xff xff xff xff xff)
(T (W xcc x00 x00 x00 x01 x00 x00 x00)
(T (W x00 x00 x00 x00 x00 x00 x00 x00)
(L (W x00 x00 x80 xbf x00 x00 x80 xbf)) E)
(L (W x00 x00 x00 x00 x00 x00 x00 x00)))
(T (W xff xff xff xff x9c x00 x00 x00)
(L (W x00 x00 x80 xbf x00 x00 x80 xbf))
(L (W xff xff xff xff xff xff xff xff)))))
(T (W x00 x00 x00 x00 x00 x00 x00 x00)
(T (W x00 x00 x00 x00 x00 x00 x00 x00)
(T (W x00 x00 x80 x3f x00 x00 x80 x3f)
(T (W x00 x00 x80 x3f x00 x00 x80 x3f)
(L (W x00 x00 x00 x00 x12 x00 x00 x00)) E)
(L (W xff xff xff xff xff xff xff xff)))
(T (W xff xff xff xff xff xff xff xff)
(T (W xff xff xff xff xff xff xff xff)
(L (W x00 x00 x00 x00 x12 x00 x00 x00)) E)
(L (W xff xff xff xff xff xff xff xff))))
(T (W xb8 x00 x00 x00 xac x00 x00 x00)
(T (W x00 x00 x00 x00 x00 x00 x00 x00)
(T (W x00 x00 x80 x3f x00 x00 x80 x3f)
(L (W x00 x00 x80 xbf x00 x00 x80 xbf)) E)
(L (W x30 x35 x5f x43 x4c x45 x41 x52)))
(T (W x00 x00 x00 x00 x00 x00 x00 x00)
(L (W xff xff xff xff xff xff xff xff))
(L (W x00 x00 x00 x00 x00 x00 x00 x00))))))
(T (W x50 x00 x00 x00 x44 x00 x00 x00)
(T (W x00 x00 x80 x3f x00 x00 x80 x3f)
(T (W x2c xcc x07 x3e xf7 xa7 xe4 x05)
(T (W x00 x00 x80 x3f x00 x00 x80 x3f)
(T (W x45 x26 x22 x84 xe4 x9c xf2 xcb)
(L (W xff xff xff xff xff xff xff xff)) E)
(L (W xff xff xff xff xff xff xff xff)))
(T (W x00 x00 x80 x3f x00 x00 x80 x3f)
(T (W x31 x00 x00 x00 x34 x00 x00 x00)
(L (W x50 x00 x00 x00 x44 x00 x00 x00)) E)
(L (W x03 x00 x00 x00 xd0 x00 x00 x00))))
(T (W xff xff xff xff x04 x00 x00 x00)
(T (W x00 x00 x01 x01 x6a x01 x00 x00)
(T (W x45 x26 x22 x84 xe4 x9c xf2 xcb)
(L (W xb2 x9d xff xff x78 x00 x00 x00)) E)
(L (W x45 x26 x22 x84 xe4 x9c xf2 xcb)))
(T (W xff xff xff xff xff xff xff xff)
(L (W x6c x00 x00 x00 x60 x00 x00 x00))
(L (W x00 x00 x00 x00 x00 x00 x00 x00)))))
(T (W x00 x00 x00 x00 x00 x00 x00 x00)
(T (W x48 x03 x00 x00 x34 x02 x00 x00)
(T (W x00 x00 x80 x3f x00 x00 x80 x3f)
(T (W xff xff xff xff xff xff xff xff)
(L (W x00 x00 x00 x00 x12 x00 x00 x00)) E)
(L (W x44 x02 x00 x00 x30 x01 x00 x00)))
(T (W x00 x00 x00 x00 x00 x00 x00 x00)
(T (W x9a x52 xff xff x3a x02 x00 x00)
(L (W x18 x00 x1c x00 x20 x00 x24 x00)) E)
(L (W xff xff xff xff xb0 x00 x00 x00))))
(T (W xff xff xff xff x03 x00 x00 x00)
(T (W x00 x00 x80 x3f x00 x00 x80 x3f)
(T (W x00 x00 x00 x00 x00 x00 x00 x00)
(L (W x45 x26 x22 x84 xe4 x9c xf2 xcb)) E)
(L (W x00 x00 x00 x00 x12 x00 x00 x00)))
(T (W x00 x00 x00 x00 x00 x00 x00 x00)
(L (W xff xff xff xff xff xff xff xff))
(L (W x45 x26 x22 x84 xe4 x9c xf2 xcb)))))))))
(T (W x64 x00 x00 x00 x9c x00 x00 x00)
(T (W x00 x00 x00 x00 x00 x00 x00 x00)
(T (W x45 x26 x22 x84 xe4 x9c xf2 xcb)
(T (W x45 x26 x22 x84 xe4 x9c xf2 xcb)
(T (W x00 x00 x00 x00 x00 x00 x00 x00)
(T (W x69 x01 x00 x00 xff xff xff xff)
(T (W x00 x00 x80 x3f x00 x00 x80 x3f)
(T (W xff xff xff xff xff xff xff xff)
(L (W x46 x53 x59 x53 x5f x4e x53 x5f)) E)
(L (W x45 x26 x22 x84 xe4 x9c xf2 xcb)))
(T (W x00 x00 x80 x3f x00 x00 x80 x3f)
(T (W xff xff xff xff xff xff xff xff)
(L (W x00 x00 x00 x00 x12 x00 x00 x00)) E)
(L (W x00 x00 x00 x00 x00 x00 x00 x00))))
(T (W x18 x00 x00 x00 x0c x00 x00 x00)
(T (W x00 x00 x00 x00 x00 x00 x00 x00)
(T (W xff xff xff xff xff xff xff xff)
(L (W x54 x02 x00 x00 x38 x01 x00 x00)) E)
(L (W xff xff xff xff xff xff xff xff)))
(T (W x00 x00 x00 x00 x00 x00 x00 x00)
(L (W x00 x00 x01 x01 x7d x00 x00 x00))
(L (W x54 x00 x00 x00 x48 x00 x00 x00)))))
(T (W x9b xb7 x1a x3f x27 xcb x41 xb5)
(T (W xff xff xff xff xff xff xff xff)
(T (W x00 x00 x00 x00 x00 x00 x00 x00)
(T (W x00 x00 x80 x3f x00 x00 x80 x3f)
(L (W xff xff xff xff xff xff xff xff)) E)
(L (W x50 x00 x00 x00 x44 x00 x00 x00)))
(T (W x50 x00 x00 x00 x44 x00 x00 x00)
(T (W x03 x00 x00 x00 xd8 x00 x00 x00)
(L (W x1c x00 x00 x00 x10 x00 x00 x00)) E)
(L (W x00 x00 x80 xbf x00 x00 x80 xbf))))
(T (W xfa x21 xfc xff x74 x00 x00 x00)
(T (W xff xff xff xff xff xff xff xff)
(T (W xb0 x00 x00 x00 x64 x00 x00 x00)
(L (W x00 x00 x80 xbf x00 x00 x80 xbf)) E)
(L (W x45 x44 x00 x00 x00 x00 x00 x00)))
(T (W xff xff xff xff xff xff xff xff)
(L (W x00 x00 x00 x00 x00 x00 x00 x00))
(L (W xff xff xff xff xff xff xff xff))))))
(T (W x00 x00 x80 x3f x00 x00 x80 x3f)
(T (W x00 x00 x00 x00 x00 x00 x00 x00)
(T (W xff xff xff xff xff xff xff xff)
(T (W x00 x00 x00 x00 x00 x00 x00 x00)
(T (W xdc x56 xfd xff x00 x01 x01 x01)
(L (W x00 x00 x80 xbf x00 x00 x80 xbf)) E)
(L (W x3c x00 x00 x00 x00 x00 x80 xbf)))
(T (W xff xff xff xff xff xff xff xff)
(T (W x00 x00 x00 x00 x00 x00 x00 x00)
(L (W x00 x00 x80 xbf x00 x00 x80 xbf)) E)
(L (W x00 x00 x00 x00 x00 x00 x00 x00))))
(T (W x00 x00 x80 x3f x00 x00 x80 x3f)
(T (W x00 x00 x80 x3f x00 x00 x80 x3f)
(T (W x00 x00 x00 x00 x00 x00 x00 x00)
(L (W x00 x00 x80 xbf x00 x00 x80 xbf)) E)
(L (W x00 x00 x00 x00 xba x9b xfe xff)))
(T (W x00 x00 x80 x3f x00 x00 x80 x3f)
(L (W x00 x00 x00 x00 x00 x00 x00 x00))
(L (W xff xff xff xff xff xff xff xff)))))
(T (W x00 x00 x00 x00 x00 x00 x00 x00)
(T (W xff xff xff xff x03 x00 x00 x00)
(T (W x00 x00 x01 x01 xc8 x02 x00 x00)
(T (W x54 x00 x00 x00 x48 x00 x00 x00)
(L (W xff xff xff xff xff xff xff xff)) E)
(L (W xff xff xff xff xa0 x00 x00 x00)))
(T (W xff xff xff xff xff xff xff xff)
(T (W xff xff xff xff xff xff xff xff)
(L (W x4c x00 x50 x00 x54 x00 x00 x00)) E)
(L (W x14 x00 x00 x00 x0c x00 x00 x00))))
(T (W x00 x00 x80 x3f x00 x00 x80 x3f)
(T (W x00 x00 x00 x00 x00 x00 x00 x00)
(T (W xff xff xff xff xff xff xff xff)
(L (W x00 x00 x00 x00 x00 x00 x00 x00)) E)
(L (W xff xff xff xff xff xff xff xff)))
(T (W xff xff xff xff x01 x00 x00 x00)
(L (W x00 x00 x00 x00 x4c x35 xfe xff))
(L (W x46 x53 x59 x53 x5f x4e x53 x5f)))))))
(T (W x00 x00 x00 x00 x00 x00 x00 x00)
(T (W x00 x00 x80 x3f x00 x00 x80 x3f)
(T (W x00 x00 x00 x00 x00 x00 x00 x00)
(T (W xff xff xff xff xff xff xff xff)
(T (W x00 x00 x00 x00 x00 x00 x00 x00)
(T (W x45 x26 x22 x84 xe4 x9c xf2 xcb)
(L (W x00 x00 x00 x00 x00 x00 x00 x00)) E)
(L (W x6c x00 x00 x00 x60 x00 x00 x00)))
(T (W x18 x00 x00 x00 x10 x00 x00 x00)
(T (W x61 x64 x65 x72 x5f x77 x69 x6c)
(L (W x45 x26 x22 x84 xe4 x9c xf2 xcb)) E)
(L (W x00 x00 x00 x00 x12 x00 x00 x00))))
(T (W xfa x09 xfc xff x74 x00 x00 x00)
(T (W x00 x00 x80 x3f x00 x00 x80 x3f)
(T (W xff xff xff xff xff xff xff xff)
(L (W x46 x53 x59 x53 x5f x4e x53 x5f)) E)
(L (W xff xff xff xff xff xff xff xff)))
(T (W x00 x00 x00 x00 x00 x00 x00 x00)
(L (W x00 x00 x00 x00 x00 x00 x00 x00))
(L (W xff xff xff xff xb0 x00 x00 x00)))))
(T (W x42 x1b xfe xff xa9 x01 x00 x00)
(T (W xff xff xff xff xff xff xff xff)
(T (W xff xff xff xff xff xff xff xff)
(T (W x00 x00 x00 x00 x00 x00 x00 x00)
(L (W xff xff xff xff xff xff xff xff)) E)
(L (W x1c x00 x00 x00 x10 x00 x00 x00)))
(T (W x2f x00 x00 x00 x32 x00 x00 x00)
(T (W x2f x00 x00 x00 x32 x00 x00 x00)
(L (W xff xff xff xff xff xff xff xff)) E)
(L (W xdc xee xfe xff x00 x01 x01 x01))))
(T (W xdc x2e xfc xff x00 x01 x01 x01)
(T (W xff xff xff xff xff xff xff xff)
(T (W x00 x00 x00 x00 x1b x00 x00 x00)
(L (W x00 x00 x00 x00 x00 x00 x00 x00)) E)
(L (W xff xff xff xff xff xff xff xff)))
(T (W xc9 x02 x00 x00 xff xff xff xff)
(L (W x00 x00 x80 x3f x00 x00 x80 x3f))
(L (W x00 x00 x00 x00 x00 x00 x00 x00))))))
(T (W x00 x00 x80 x3f x00 x00 x80 x3f)
(T (W x00 x00 x00 x00 x00 x00 x00 x00)
(T (W xff xff xff xff xff xff xff xff)
(T (W x00 x00 x00 x00 x00 x00 x00 x00)
(T (W x00 x00 x80 x3f x00 x00 x80 x3f)
(L (W x68 x00 x00 x00 x5c x00 x00 x00)) E)
(L (W xdc x5e xfe xff x00 x01 x01 x01)))
(T (W x00 x00 x00 x00 x00 x00 x00 x00)
(T (W x00 x00 x80 xbf x00 x00 x80 xbf)
(L (W x00 x00 x00 x00 x00 x00 x00 x00)) E)
(L (W x54 x00 x00 x00 x48 x00 x00 x00))))
(T (W x68 x00 x00 x00 x5c x00 x00 x00)
(T (W x18 x00 x00 x00 x0c x00 x00 x00)
(T (W x6c x00 x0c x00 x00 x00 x00 x00)
(L (W x00 x00 x80 xbf x00 x00 x80 xbf)) E)
(L (W x00 x00 x00 x00 x00 x00 x00 x00)))
(T (W xb8 x00 x00 x00 x64 x00 x00 x00)
(L (W x00 x00 x80 xbf x00 x00 x80 xbf))
(L (W xff xff xff xff xff xff xff xff)))))
(T (W xc7 x92 x2e x9f xa4 xc1 x28 xea)
(T (W xff xff xff xff xff xff xff xff)
(T (W x00 x00 x00 x00 x00 x00 x00 x00)
(T (W x64 x00 x00 x00 x9c x00 x00 x00)
(L (W xff xff xff xff xff xff xff xff)) E)
(L (W xc4 x00 x00 x00 x01 x00 x00 x00)))
(T (W x9c x01 x00 x00 xff xff xff xff)
(T (W xff xff xff xff xff xff xff xff)
(L (W x00 x00 x00 x00 x00 x00 x00 x00)) E)
(L (W x00 x01 x01 x01 x32 x0b xff xff))))
(T (W x00 x00 x80 x3f x00 x00 x80 x3f)
(T (W x00 x00 x00 x00 x00 x00 x00 x00)
(T (W xff xff xff xff xff xff xff xff)
(L (W x00 x00 x00 x00 x00 x00 x00 x00)) E)
(L (W xff xff xff xff xff xff xff xff)))
(T (W xff xff xff xff xff xff xff xff)
(L (W x00 x01 x01 x01 x3a x46 xfe xff))
(L (W x00 x00 x00 x00 x00 x00 x00 x00))))))))
(T (W x45 x26 x22 x84 xe4 x9c xf2 xcb)
(T (W xff xff xff xff x03 x00 x00 x00)
(T (W x00 x00 x00 x00 x00 x00 x00 x00)
(T (W x45 x26 x22 x84 xe4 x9c xf2 xcb)
(T (W xfa xc5 xfb xff x74 x00 x00 x00)
(T (W xff xff xff xff xff xff xff xff)
(T (W x00 x00 x00 x00 x00 x00 x00 x00)
(L (W xdc x4a xff xff x00 x01 x01 x01)) E)
(L (W xff xff xff xff xff xff xff xff)))
(T (W x44 x44 xb5 xa2 x7d x50 x09 x18)
(T (W x4f x84 x6f x8b xe8 xcb x63 xb7)
(L (W xff xff xff xff xff xff xff xff)) E)
(L (W x6c x00 x00 x00 x60 x00 x00 x00))))
(T (W x00 x00 x00 x00 x00 x00 x00 x00)
(T (W xff xff xff xff xff xff xff xff)
(T (W x00 x00 x80 x3f x00 x00 x80 x3f)
(L (W x50 x00 x00 x00 x44 x00 x00 x00)) E)
(L (W x4f x84 x6f x8b xe8 xcb x63 xb7)))
(T (W xff xff xff xff xff xff xff xff)
(L (W x00 x00 x80 xbf x00 x00 x80 xbf))
(L (W x45 x44 x00 x00 x00 x00 x00 x00)))))
(T (W xfa xa5 xfb xff x74 x00 x00 x00)
(T (W x00 x00 x00 x00 x00 x00 x00 x00)
(T (W x64 x00 x00 x00 x9c x00 x00 x00)
(T (W xff xff xff xff xff xff xff xff)
(L (W x00 x00 x00 x00 x00 x00 x00 x00)) E)
(L (W x30 x35 x5f x43 x4c x45 x41 x52)))
(T (W x4c x45 x41 x52 x45 x44 x00 x00)
(T (W x00 x00 x00 x00 x00 x00 x00 x00)
(L (W x00 x00 x00 x00 x00 x00 x00 x00)) E)
(L (W x00 x00 x00 x00 xba xef xfe xff))))
(T (W xb2 x98 xfe xff x00 x00 x01 x01)
(T (W x00 x00 x80 x3f x00 x00 x80 x3f)
(T (W xdc xaa xfd xff x00 x01 x01 x01)
(L (W xff xff xff xff xff xff xff xff)) E)
(L (W xff xff xff xff xac x00 x00 x00)))
(T (W x50 x00 x00 x00 x44 x00 x00 x00)
(L (W xff xff xff xff xb0 x00 x00 x00))
(L (W x00 x00 x80 xbf x00 x00 x80 xbf))))))
(T (W xff xff xff xff xff xff xff xff)
(T (W x0a x00 x00 x00 x3e x00 x00 x00)
(T (W x00 x00 x80 x3f x00 x00 x80 x3f)
(T (W xff xff xff xff xff xff xff xff)
(T (W x00 x00 x00 x00 x02 x00 x00 x00)
(L (W x00 x00 x00 x00 x00 x00 x00 x00)) E)
(L (W x00 x00 x00 x00 xba x5f xfe xff)))
(T (W x68 x00 x00 x00 x5c x00 x00 x00)
(T (W xff xff xff xff xff xff xff xff)
(L (W x03 x00 x00 x00 xd8 x00 x00 x00)) E)
(L (W xff xff xff xff xff xff xff xff))))
(T (W x00 x00 x00 x00 x00 x00 x00 x00)
(T (W x45 x44 x00 x00 x00 x00 x00 x00)
(T (W x00 x00 x00 x00 x00 x00 x00 x00)
(L (W xff xff xff xff xff xff xff xff)) E)
(L (W xb2 x97 xfe xff x78 x00 x00 x00)))
(T (W x00 x00 x00 x00 x00 x00 x00 x00)
(L (W xff xff xff xff xff xff xff xff))
(L (W x00 x00 x80 xbf x00 x00 x80 xbf)))))
(T (W x50 x00 x00 x00 x44 x00 x00 x00)
(T (W x00 x00 x00 x00 x00 x00 x00 x00)
(T (W xb2 x77 xfc xff x78 x00 x00 x00)
(T (W x00 x00 x00 x00 x00 x00 x00 x00)
(L (W x00 x00 x80 xbf x00 x00 x80 xbf)) E)
(L (W x00 x00 x00 x00 x00 x00 x00 x00)))
(T (W x00 x00 x80 x3f x00 x00 x80 x3f)
(T (W x00 x00 x00 x00 x00 x00 x00 x00)
(L (W x00 x00 x00 x00 x00 x00 x00 x00)) E)
(L (W x30 x35 x5f x43 x4c x45 x41 x52))))
(T (W xff xff xff xff xff xff xff xff)
(T (W x45 x26 x22 x84 xe4 x9c xf2 xcb)
(T (W x70 x5f x6c x65 x61 x64 x65 x72)
(L (W x44 x00 x00 x00 x00 x00 x80 xbf)) E)
(L (W x45 x26 x22 x84 xe4 x9c xf2 xcb)))
(T (W x00 x00 x80 x3f x00 x00 x80 x3f)
(L (W x00 x00 x00 x00 x00 x00 x00 x00))
(L (W x00 x00 x80 xbf x00 x00 x80 xbf)))))))
(T (W xff xff xff xff xff xff xff xff)
(T (W xff xff xff xff xff xff xff xff)
(T (W x01 x00 x00 x00 x9c x00 x00 x00)
(T (W x00 x00 x80 x3f x00 x00 x80 x3f)
(T (W xff xff xff xff xff xff xff xff)
(T (W x00 x00 x00 x00 x00 x00 x00 x00)
(L (W xff xff xff xff xff xff xff xff)) E)
(L (W x18 x00 x00 x00 x0c x00 x00 x00)))
(T (W x00 x00 x00 x00 x00 x00 x00 x00)
(T (W xfa xcd xfd xff x74 x00 x00 x00)
(L (W xff xff xff xff xff xff xff xff)) E)
(L (W xff xff xff xff xff xff xff xff))))
(T (W x00 x00 x00 x00 x00 x00 x00 x00)
(T (W xff xff xff xff xff xff xff xff)
(T (W xb8 x00 x00 x00 xac x00 x00 x00)
(L (W x18 x00 x00 x00 x0c x00 x00 x00)) E)
(L (W x00 x00 x80 xbf x00 x00 x80 xbf)))
(T (W xff xff xff xff xff xff xff xff)
(L (W x18 x00 x00 x00 x0c x00 x00 x00))
(L (W x00 x00 x00 x00 x00 x00 x00 x00)))))
(T (W x00 x00 x80 x3f x00 x00 x80 x3f)
(T (W x00 x00 x00 x00 x00 x00 x00 x00)
(T (W x68 x00 x00 x00 x5c x00 x00 x00)
(T (W x45 x26 x22 x84 xe4 x9c xf2 xcb)
(L (W x00 x00 x80 xbf x00 x00 x80 xbf)) E)
(L (W x01 x21 xb6 x28 xbf x61 x64 x6a)))
(T (W x00 x00 x00 x00 x00 x00 x00 x00)
(T (W x00 x00 x80 xbf x00 x00 x80 xbf)
(L (W x4f x84 x6f x8b xe8 xcb x63 xb7)) E)
(L (W x44 xf6 xfe xff x3b x00 x00 x00))))
(T (W xff xff xff xff xff xff xff xff)
(T (W x00 x00 x80 x3f x00 x00 x80 x3f)
(T (W xff xff xff xff xff xff xff xff)
(L (W xb2 xaf xff xff x78 x00 x00 x00)) E)
(L (W x00 x00 x80 xbf x00 x00 x80 xbf)))
(T (W x00 x00 x80 x3f x00 x00 x80 x3f)
(L (W x00 x00 x00 x00 x00 x00 x00 x00))
(L (W x54 x00 x00 x00 x48 x00 x00 x00))))))
(T (W xb8 x00 x00 x00 xac x00 x00 x00)
(T (W xc0 x00 x00 x00 xb4 x00 x00 x00)
(T (W x45 x26 x22 x84 xe4 x9c xf2 xcb)
(T (W xff xff xff xff xff xff xff xff)
(T (W xff xff xff xff xff xff xff xff)
(L (W x00 x00 x00 x00 x12 x00 x00 x00)) E)
(L (W x00 x00 x00 x00 x00 x00 x00 x00)))
(T (W xff xff xff xff xff xff xff xff)
(T (W x00 x00 x00 x00 x00 x00 x00 x00)
(L (W xff xff xff xff xff xff xff xff)) E)
(L (W xff xff xff xff xff xff xff xff))))
(T (W x40 x00 x00 x00 x10 x00 x00 x00)
(T (W x00 x00 x00 x00 x00 x00 x00 x00)
(T (W x04 x00 x00 x00 x3a xac xfd xff)
(L (W xff xff xff xff xff xff xff xff)) E)
(L (W x74 x00 x00 x00 x68 x00 x00 x00)))
(T (W x49 xa1 x68 x4a xeb x5f xdd x3d)
(L (W xff xff xff xff xff xff xff xff))
(L (W x00 x00 x00 x00 x00 x00 x00 x00)))))
(T (W x68 x00 x00 x00 x5c x00 x00 x00)
(T (W x00 x00 x00 x00 x00 x00 x00 x00)
(T (W xcc x00 x00 x00 x01 x00 x00 x00)
(T (W x00 x00 x80 x3f x00 x00 x80 x3f)
(L (W x00 x00 x80 xbf x00 x00 x80 xbf)) E)
(L (W x00 x00 x00 x00 x00 x00 x00 x00)))
(T (W x45 x26 x22 x84 xe4 x9c xf2 xcb)
(T (W x49 xa1 x68 x4a xeb x5f xdd x3d)
(L (W xff xff xff xff xff xff xff xff)) E)
(L (W x54 x02 x00 x00 x38 x01 x00 x00))))
(T (W xff xff xff xff xff xff xff xff)
(T (W xff xff xff xff xff xff xff xff)
(T (W x00 x00 x80 x3f x00 x00 x80 x3f)
(L (W xbc x00 x00 x00 x64 x00 x00 x00)) E)
(L (W x00 x00 x80 xbf x00 x00 x80 xbf)))
(T (W x00 x00 x80 x3f x00 x00 x80 x3f)
(L (W x00 x00 x00 x00 x42 x49 xfe xff))
(L (W x6c x00 x00 x00 x60 x00 x00 x00))))))))))
(T (W xf0 x82 x01 x00 xbc x81 x01 x00)
(T (W x50 x46 x00 x00 x04 x44 x00 x00)
(T (W x00 x00 x00 x00 x00 x00 x00 x00)
(T (W x00 x00 x00 x00 x00 x00 x00 x00)
(T (W x00 x00 x00 x00 x00 x00 x00 x00)
(T (W x00 x00 x00 x00 x00 x00 x00 x00)
(T (W xff xff xff xff xff xff xff xff)
(T (W x00 x00 x00 x00 x00 x00 x00 x00)
(T (W x45 x26 x22 x84 xe4 x9c xf2 xcb)
(L (W x04 x00 x00 x00 xc2 x46 xff xff)) E)
(L (W x54 x00 x00 x00 x48 x00 x00 x00)))
(T (W x00 x00 x00 x00 x00 x00 x00 x00)
(T (W xcc x00 x00 x00 x01 x00 x00 x00)
(L (W x00 x00 x00 x00 xaa xc3 xff xff)) E)
(L (W xaa x01 x00 x00 xff xff xff xff))))
(T (W x00 x00 x80 x3f x00 x00 x80 x3f)
(T (W x45 x44 x00 x00 x00 x00 x00 x00)
(T (W x18 x00 x00 x00 x10 x00 x00 x00)
(L (W xff xff xff xff xff xff xff xff)) E)
(L (W xcc x00 x00 x00 x01 x00 x00 x00)))
(T (W x80 x03 x00 x00 x54 x02 x00 x00)
(L (W xff xff xff xff xff xff xff xff))
(L (W x00 x00 x80 xbf x00 x00 x80 xbf)))))
(T (W xff xff xff xff xff xff xff xff)
(T (W xff xff xff xff xff xff xff xff)
(T (W x00 x00 x00 x00 x00 x00 x00 x00)
(T (W x00 x00 x00 x00 x00 x00 x00 x00)
(L (W x50 x00 x00 x00 x44 x00 x00 x00)) E)
(L (W x00 x00 x80 xbf x00 x00 x80 xbf)))
(T (W x00 x00 x80 x3f x00 x00 x80 x3f)
(T (W x00 x00 x80 xbf x00 x00 x80 xbf)
(L (W x48 xe4 xff xff x32 xf2 xff xff)) E)
(L (W x49 xa1 x68 x4a xeb x5f xdd x3d))))
(T (W x50 x00 x00 x00 x44 x00 x00 x00)
(T (W x2d x00 x00 x00 x30 x00 x00 x00)
(T (W x50 x00 x00 x00 x44 x00 x00 x00)
(L (W x00 x00 x00 x00 x00 x00 x00 x00)) E)
(L (W xff xff xff xff xff xff xff xff)))
(T (W x18 x00 x00 x00 x10 x00 x00 x00)
(L (W x00 x00 x00 x00 x12 x00 x00 x00))
(L (W xff xff xff xff xff xff xff xff))))))
(T (W x45 x26 x22 x84 xe4 x9c xf2 xcb)
(T (W x75 x41 x14 x21 xc8 x6d xc7 x22)
(T (W xff xff xff xff xff xff xff xff)
(T (W x00 x00 x00 x00 x00 x00 x00 x00)
(T (W x00 x00 x80 x3f x00 x00 x80 x3f)
(L (W x00 x00 x00 x00 x00 x00 x00 x00)) E)
(L (W x00 x00 x80 xbf x00 x00 x80 xbf)))
(T (W xff xff xff xff xff xff xff xff)
(T (W x34 x00 x00 x00 x10 x00 x00 x00)
(L (W x45 x26 x22 x84 xe4 x9c xf2 xcb)) E)
(L (W x46 x53 x59 x53 x5f x4e x53 x5f))))
(T (W x00 x00 x80 x3f x00 x00 x80 x3f)
(T (W x00 x00 x80 x3f x00 x00 x80 x3f)
(T (W x03 x00 x00 x00 x04 x01 x00 x00)
(L (W x00 x00 x00 x00 x00 x00 x00 x00)) E)
(L (W xff xff xff xff xff xff xff xff)))
(T (W x00 x00 x80 x3f x00 x00 x80 x3f)
(L (W x45 x44 x00 x00 x00 x00 x00 x00))
(L (W xff xff xff xff xff xff xff xff)))))
(T (W xb2 x23 xfe xff x00 x00 x01 x01)
(T (W x01 x00 x00 x00 xa0 x00 x00 x00)
(T (W xff xff xff xff xff xff xff xff)
(T (W x00 x00 x00 x00 x02 x00 x00 x00)
(L (W xff xff xff xff xff xff xff xff)) E)
(L (W x6c x00 x00 x00 x60 x00 x00 x00)))
(T (W x18 x00 x00 x00 x0c x00 x00 x00)
(T (W xff xff xff xff xa0 x00 x00 x00)
(L (W xff xff xff xff xc0 x00 x00 x00)) E)
(L (W x00 x01 x01 x01 x32 x02 xff xff))))
(T (W x00 x00 x80 x3f x00 x00 x80 x3f)
(T (W xff xff xff xff xff xff xff xff)
(T (W x00 x00 x80 x3f x00 x00 x80 x3f)
(L (W x64 x04 x00 x00 x60 x03 x00 x00)) E)
(L (W xff xff xff xff xff xff xff xff)))
(T (W xff xff xff xff xff xff xff xff)
(L (W x00 x00 x80 x3f x00 x00 x80 x3f))
(L (W x04 x00 x00 x00 xc2 x36 xff xff)))))))
(T (W x00 x00 x00 x00 x00 x00 x00 x00)
(T (W x45 x26 x22 x84 xe4 x9c xf2 xcb)
(T (W x00 x00 x00 x00 x00 x00 x00 x00)
(T (W xb8 x00 x00 x00 xac x00 x00 x00)
(T (W x00 x00 x00 x00 x00 x00 x00 x00)
(T (W xdc x4d xfd xff x00 x01 x01 x01)
(L (W x4c x45 x41 x52 x45 x44 x00 x00)) E)
(L (W x00 x00 x80 x3f x00 x00 x80 x3f)))
(T (W x00 x00 x80 x3f x00 x00 x80 x3f)
(T (W xff xff xff xff xff xff xff xff)
(L (W x00 x00 x00 x00 x00 x00 x00 x00)) E)
(L (W x04 x00 x00 x00 xaa xcb xfe xff))))
(T (W x00 x00 x80 x3f x00 x00 x80 x3f)
(T (W x00 x00 x00 x00 x00 x00 x00 x00)
(T (W xff xff xff xff xff xff xff xff)
(L (W x00 x00 x01 x01 xb5 x01 x00 x00)) E)
(L (W xff xff xff xff xff xff xff xff)))
(T (W x12 x00 x00 x00 x46 x53 x59 x53)
(L (W xff xff xff xff xff xff xff xff))
(L (W x00 x00 x00 x00 x4c x0c xff xff)))))
(T (W xff xff xff xff xff xff xff xff)
(T (W x18 x00 x00 x00 x10 x00 x00 x00)
(T (W x00 x00 x80 x3f x00 x00 x80 x3f)
(T (W x00 x00 x00 x00 x00 x00 x00 x00)
(L (W xff xff xff xff xb0 x00 x00 x00)) E)
(L (W x48 x6c xfe xff x32 x7a xfe xff)))
(T (W x00 x00 x80 x3f x00 x00 x80 x3f)
(T (W xb2 xea xfd xff x78 x00 x00 x00)
(L (W x18 x00 x00 x00 x0c x00 x00 x00)) E)
(L (W x54 x00 x00 x00 x48 x00 x00 x00))))
(T (W x00 x00 x80 x3f x00 x00 x80 x3f)
(T (W xff xff xff xff xff xff xff xff)
(T (W xf6 x01 x00 x00 xff xff xff xff)
(L (W x62 x00 x00 x00 x3a x02 x00 x00)) E)
(L (W x00 x00 x80 xbf x00 x00 x80 xbf)))
(T (W xff xff xff xff xff xff xff xff)
(L (W x45 x26 x22 x84 xe4 x9c xf2 xcb))
(L (W xff xff xff xff xff xff xff xff))))))
(T (W x00 x00 x00 x00 x00 x00 x00 x00)
(T (W xac x01 x00 x00 xff xff xff xff)
(T (W xff xff xff xff xff xff xff xff)
(T (W x00 x00 x00 x00 x00 x00 x00 x00)
(T (W x00 x00 x80 x3f x00 x00 x80 x3f)
(L (W x00 x00 x80 xbf x00 x00 x80 xbf)) E)
(L (W x00 x00 x80 xbf x00 x00 x80 xbf)))
(T (W x6b x2a x9c xe4 x92 x28 xa1 x01)
(T (W x00 x00 x00 x00 x00 x00 x00 x00)
(L (W x30 x35 x5f x43 x4c x45 x41 x52)) E)
(L (W x00 x00 x00 x00 x00 x00 x00 x00))))
(T (W x00 x00 x80 x3f x00 x00 x80 x3f)
(T (W xb2 x9a xfc xff x78 x00 x00 x00)
(T (W xff xff xff xff xff xff xff xff)
(L (W x00 x00 x00 x00 x00 x00 x00 x00)) E)
(L (W x45 x44 x00 x00 x00 x00 x00 x00)))
(T (W xdc x1d xfd xff x00 x01 x01 x01)
(L (W x00 x00 x00 x00 x00 x00 x00 x00))
(L (W xff xff xff xff xff xff xff xff)))))
(T (W xff xff xff xff xff xff xff xff)
(T (W xfa xf8 xfb xff x74 x00 x00 x00)
(T (W xff xff xff xff xff xff xff xff)
(T (W x18 x00 x00 x00 x0c x00 x00 x00)
(L (W xff xff xff xff xff xff xff xff)) E)
(L (W x45 x26 x22 x84 xe4 x9c xf2 xcb)))
(T (W xff xff xff xff xff xff xff xff)
(T (W x18 x00 x00 x00 x0c x00 x00 x00)
(L (W x46 x53 x59 x53 x5f x4e x53 x5f)) E)
(L (W x00 x00 x80 xbf x00 x00 x80 xbf))))
(T (W x00 x00 x00 x00 x00 x00 x00 x00)
(T (W x00 x00 x00 x00 x00 x00 x00 x00)
(T (W x45 x26 x22 x84 xe4 x9c xf2 xcb)
(L (W x43 x00 x00 x00 xff xff xff xff)) E)
(L (W xff xff xff xff xff xff xff xff)))
(T (W xff xff xff xff xff xff xff xff)
(L (W x3c x00 x00 x00 x00 x00 x80 xbf))
(L (W x5d x00 x00 x00 xff xff xff xff))))))))
(T (W xdc x51 xfb xff x00 x01 x01 x01)
(T (W x40 x00 x00 x00 x9c x00 x00 x00)
(T (W x00 x00 x00 x00 x00 x00 x5c x00)
(T (W xdc x89 xfb xff x00 x01 x01 x01)
(T (W x45 x26 x22 x84 xe4 x9c xf2 xcb)
(T (W xff xff xff xff xff xff xff xff)
(T (W x00 x00 x00 x00 x00 x00 x00 x00)
(L (W x00 x00 x80 xbf x00 x00 x80 xbf)) E)
(L (W xff xff xff xff xff xff xff xff)))
(T (W xff xff xff xff xff xff xff xff)
(T (W x00 x00 x00 x00 x00 x00 x00 x00)
(L (W x68 x00 x00 x00 x5c x00 x00 x00)) E)
(L (W x00 x00 x80 xbf x00 x00 x80 xbf))))
(T (W x3e x00 x00 x00 x10 x00 x00 x00)
(T (W x18 x00 x00 x00 x0c x00 x00 x00)
(T (W x00 x00 x80 x3f x00 x00 x80 x3f)
(L (W x00 x00 x80 xbf x00 x00 x80 xbf)) E)
(L (W x00 x00 x00 x00 x00 x00 x00 x00)))
(T (W x68 x00 x00 x00 x5c x00 x00 x00)
(L (W x00 x00 x80 xbf x00 x00 x80 xbf))
(L (W xff xff xff xff xff xff xff xff)))))
(T (W x54 x00 x00 x00 x48 x00 x00 x00)
(T (W x00 x00 x00 x00 x00 x00 x00 x00)
(T (W x50 x00 x00 x00 x44 x00 x00 x00)
(T (W x45 x26 x22 x84 xe4 x9c xf2 xcb)
(L (W x46 x53 x59 x53 x5f x4e x53 x5f)) E)
(L (W x00 x00 x01 x01 xb4 x01 x00 x00)))
(T (W x02 x00 x00 x00 xff xff xff xff)
(T (W x46 x53 x59 x53 x5f x4e x53 x5f)
(L (W xff xff xff xff xff xff xff xff)) E)
(L (W xff xff xff xff xff xff xff xff))))
(T (W xff xff xff xff xff xff xff xff)
(T (W x00 x00 x00 x00 x00 x00 x00 x00)
(T (W x00 x00 x00 x00 x00 x00 x00 x00)
(L (W x18 x00 x00 x00 x0c x00 x00 x00)) E)
(L (W x00 x00 x80 xbf x00 x00 x80 xbf)))
(T (W x00 x00 x80 x3f x00 x00 x80 x3f)
(L (W x1c x00 x00 x00 x10 x00 x00 x00))
(L (W x45 x26 x22 x84 xe4 x9c xf2 xcb))))))
(T (W x45 x26 x22 x84 xe4 x9c xf2 xcb)
(T (W x18 x00 x00 x00 x0c x00 x00 x00)
(T (W x00 x00 x00 x00 x00 x00 x00 x00)
(T (W xbc x00 x00 x00 xb0 x00 x00 x00)
(T (W xff xff xff xff xff xff xff xff)
(L (W x64 x01 x00 x00 xff xff xff xff)) E)
(L (W xff xff xff xff xff xff xff xff)))
(T (W x00 x00 x80 x3f x00 x00 x80 x3f)
(T (W xbc x00 x00 x00 x64 x00 x00 x00)
(L (W x18 x00 x00 x00 x10 x00 x00 x00)) E)
(L (W x03 x00 x00 x00 xd0 x00 x00 x00))))
(T (W x1c x01 x00 x00 x04 x00 x00 x00)
(T (W xff xff xff xff xff xff xff xff)
(T (W x2f x00 x00 x00 x10 x00 x00 x00)
(L (W xcc x00 x00 x00 x01 x00 x00 x00)) E)
(L (W x00 x00 x80 xbf x00 x00 x80 xbf)))
(T (W x62 x6c xfd xff x9d x01 x00 x00)
(L (W xff xff xff xff xb0 x00 x00 x00))
(L (W x00 x00 x00 x00 x00 x00 x00 x00)))))
(T (W x00 x00 x80 x3f x00 x00 x80 x3f)
(T (W x00 x00 x00 x00 x00 x00 x00 x00)
(T (W x00 x00 x80 x3f x00 x00 x80 x3f)
(T (W x00 x00 x00 x00 x00 x00 x00 x00)
(L (W x49 xa1 x68 x4a xeb x5f xdd x3d)) E)
(L (W x67 x24 xb6 x28 xbf x63 x64 x6a)))
(T (W x45 x26 x22 x84 xe4 x9c xf2 xcb)
(T (W x45 x44 x00 x00 x00 x00 x00 x00)
(L (W x58 x00 x00 x00 x00 x00 x5c x00)) E)
(L (W x04 x00 x00 x00 x3a x03 xff xff))))
(T (W xff xff xff xff xff xff xff xff)
(T (W x6c x00 x00 x00 x60 x00 x00 x00)
(T (W xcc x00 x00 x00 x01 x00 x00 x00)
(L (W x00 x00 x80 xbf x00 x00 x80 xbf)) E)
(L (W x00 x00 x00 x00 x00 x00 x00 x00)))
(T (W x45 x26 x22 x84 xe4 x9c xf2 xcb)
(L (W x1b x00 x00 x00 x0c x00 x00 x00))
(L (W x45 x26 x22 x84 xe4 x9c xf2 xcb)))))))
(T (W xff xff xff xff x03 x00 x00 x00)
(T (W xb8 x00 x00 x00 xac x00 x00 x00)
(T (W x45 x26 x22 x84 xe4 x9c xf2 xcb)
(T (W x00 x00 x80 x3f x00 x00 x80 x3f)
(T (W x64 x00 x00 x00 x9c x00 x00 x00)
(T (W x00 x00 x00 x00 x02 x00 x00 x00)
(L (W x21 x00 x00 x00 x24 x00 x00 x00)) E)
(L (W xff xff xff xff xff xff xff xff)))
(T (W x00 x00 x00 x00 x00 x00 x00 x00)
(T (W x00 x00 x80 x3f x00 x00 x80 x3f)
(L (W x18 x00 x00 x00 x0c x00 x00 x00)) E)
(L (W x68 x00 x00 x00 x5c x00 x00 x00))))
(T (W x00 x00 x00 x00 x12 xa5 xff xff)
(T (W xff xff xff xff xff xff xff xff)
(T (W x00 x00 x00 x00 x00 x00 x00 x00)
(L (W x00 x00 x80 xbf x00 x00 x80 xbf)) E)
(L (W x00 x00 x00 x00 x00 x00 x00 x00)))
(T (W xff xff xff xff xff xff xff xff)
(L (W x00 x00 x80 xbf x00 x00 x80 xbf))
(L (W x00 x00 x00 x00 x00 x00 x00 x00)))))
(T (W x00 x00 x80 x3f x00 x00 x80 x3f)
(T (W x00 x00 x00 x00 x00 x00 x00 x00)
(T (W x50 x00 x00 x00 x44 x00 x00 x00)
(T (W xdc x71 xfd xff x00 x01 x01 x01)
(L (W x45 x26 x22 x84 xe4 x9c xf2 xcb)) E)
(L (W xff xff xff xff xff xff xff xff)))
(T (W x00 x00 x00 x00 x00 x00 x00 x00)
(T (W x00 x00 x00 x00 x00 x00 x00 x00)
(L (W x00 x00 x00 x00 x00 x00 x00 x00)) E)
(L (W xff xff xff xff xff xff xff xff))))
(T (W xff xff xff xff xff xff xff xff)
(T (W x00 x00 x80 x3f x00 x00 x80 x3f)
(T (W xff xff xff xff xff xff xff xff)
(L (W x00 x00 x80 x3f x00 x00 x80 x3f)) E)
(L (W x00 x00 x00 x00 x00 x00 x00 x00)))
(T (W x45 x26 x22 x84 xe4 x9c xf2 xcb)
(L (W xb0 x01 x00 x00 xff xff xff xff))
(L (W x00 x00 x80 xbf x00 x00 x80 xbf))))))
(T (W x68 x00 x00 x00 x5c x00 x00 x00)
(T (W x00 x00 x80 x3f x00 x00 x80 x3f)
(T (W x00 x00 x00 x00 x00 x00 x00 x00)
(T (W xdc x61 xfc xff x00 x01 x01 x01)
(T (W xff xff xff xff xff xff xff xff)
(L (W x00 x00 x00 x00 x00 x00 x00 x00)) E)
(L (W x45 x44 x00 x00 x00 x00 x00 x00)))
(T (W x18 x00 x00 x00 x10 x00 x00 x00)
(T (W xff xff xff xff xff xff xff xff)
(L (W xc4 x00 x00 x00 x01 x00 x00 x00)) E)
(L (W xff xff xff xff xff xff xff xff))))
(T (W xff xff xff xff xff xff xff xff)
(T (W x46 x53 x59 x53 x5f x4e x53 x5f)
(T (W xff xff xff xff xff xff xff xff)
(L (W xff xff xff xff x9c x00 x00 x00)) E)
(L (W x00 x00 x80 xbf x00 x00 x80 xbf)))
(T (W x74 x28 xfd xff x10 x00 x00 x00)
(L (W x18 x00 x00 x00 x10 x00 x00 x00))
(L (W x00 x00 x00 x00 x00 x00 x00 x00)))))
(T (W x00 x00 x80 x3f x00 x00 x80 x3f)
(T (W x00 x00 x00 x00 x00 x00 x00 x00)
(T (W x00 x00 x80 x3f x00 x00 x80 x3f)
(T (W x72 x64 x5f x6c x76 x31 x00 x00)
(L (W x00 x00 x00 x00 x00 x00 x00 x00)) E)
(L (W x00 x00 x00 x00 x12 x00 x00 x00)))
(T (W x00 x00 x80 x3f x00 x00 x80 x3f)
(T (W x00 x00 x00 x00 x00 x00 x00 x00)
(L (W x00 x00 x80 xbf x00 x00 x80 xbf)) E)
(L (W xff xff xff xff xff xff xff xff))))
(T (W xff xff xff xff xff xff xff xff)
(T (W x18 x00 x00 x00 x0c x00 x00 x00)
(T (W x00 x00 x00 x00 x00 x00 x00 x00)
(L (W xdc xc1 xff xff x00 x01 x01 x01)) E)
(L (W x45 x26 x22 x84 xe4 x9c xf2 xcb)))
(T (W x00 x00 x00 x00 x00 x00 x00 x00)
(L (W x00 x00 x00 x00 xd2 x5c xfe xff))
(L (W x00 x00 x80 xbf x00 x00 x80 xbf)))))))))
(T (W xff xff xff xff xff xff xff xff)
(T (W x00 x00 x80 x3f x00 x00 x80 x3f)
(T (W x00 x00 x80 x3f x00 x00 x80 x3f)
(T (W x00 x00 x80 x3f x00 x00 x80 x3f)
(T (W x00 x00 x80 x3f x00 x00 x80 x3f)
(T (W x00 x00 x00 x00 x00 x00 x00 x00)
(T (W x6c x00 x00 x00 x60 x00 x00 x00)
(T (W xff xff xff xff xff xff xff xff)
(L (W x00 x00 x00 x00 x00 x00 x00 x00)) E)
(L (W x1c x00 x00 x00 x10 x00 x00 x00)))
(T (W x68 x00 x00 x00 x5c x00 x00 x00)
(T (W xff xff xff xff xff xff xff xff)
(L (W x45 x26 x22 x84 xe4 x9c xf2 xcb)) E)
(L (W x00 x00 x00 x00 x00 x00 x00 x00))))
(T (W xff xff xff xff xff xff xff xff)
(T (W x00 x00 x80 x3f x00 x00 x80 x3f)
(T (W xff xff xff xff xff xff xff xff)
(L (W x00 x00 x00 x00 x00 x00 x00 x00)) E)
(L (W xff xff xff xff xff xff xff xff)))
(T (W x00 x00 x80 x3f x00 x00 x80 x3f)
(L (W x46 x53 x59 x53 x5f x4e x53 x5f))
(L (W x45 x26 x22 x84 xe4 x9c xf2 xcb)))))
(T (W x00 x00 x00 x00 x00 x00 x00 x00)
(T (W xff xff xff xff xff xff xff xff)
(T (W x45 x26 x22 x84 xe4 x9c xf2 xcb)
(T (W x00 x00 x80 x3f x00 x00 x80 x3f)
(L (W xff xff xff xff xff xff xff xff)) E)
(L (W x03 x00 x00 x00 xd8 x00 x00 x00)))
(T (W xdc xe7 xfc xff x00 x01 x01 x01)
(T (W xff xff xff xff xff xff xff xff)
(L (W xff xff xff xff xb8 x00 x00 x00)) E)
(L (W xff xff xff xff xb0 x00 x00 x00))))
(T (W x45 x26 x22 x84 xe4 x9c xf2 xcb)
(T (W xff xff xff xff xff xff xff xff)
(T (W xff xff xff xff xff xff xff xff)
(L (W x00 x00 x80 xbf x00 x00 x80 xbf)) E)
(L (W x00 x00 x00 x00 x00 x00 x00 x00)))
(T (W x00 x00 x00 x00 xba x2c xfd xff)
(L (W x49 xa1 x68 x4a xeb x5f xdd x3d))
(L (W x00 x00 x00 x00 x00 x00 x00 x00))))))
(T (W x00 x00 x80 x3f x00 x00 x80 x3f)
(T (W x00 x00 x80 x3f x00 x00 x80 x3f)
(T (W x64 x01 x00 x00 xff xff xff xff)
(T (W x00 x00 x80 x3f x00 x00 x80 x3f)
(T (W x45 x26 x22 x84 xe4 x9c xf2 xcb)
(L (W xfa x52 xff xff x74 x00 x00 x00)) E)
(L (W x00 x01 x01 x01 x3a x5f xfe xff)))
(T (W x74 xde xfc xff x2d x00 x00 x00)
(T (W x00 x00 x80 xbf x00 x00 x80 xbf)
(L (W x00 x00 x80 xbf x00 x00 x80 xbf)) E)
(L (W x54 x00 x00 x00 x48 x00 x00 x00))))
(T (W x18 x00 x00 x00 x0c x00 x00 x00)
(T (W xcc x00 x00 x00 x01 x00 x00 x00)
(T (W x46 x01 x00 x00 x40 x03 x00 x00)
(L (W x00 x00 x80 xbf x00 x00 x80 xbf)) E)
(L (W x00 x00 x00 x00 x00 x00 x00 x00)))
(T (W x00 x00 x00 x00 x4c x16 xfd xff)
(L (W x00 x00 x80 xbf x00 x00 x80 xbf))
(L (W x00 x00 x00 x00 x42 x1e xff xff)))))
(T (W x00 x00 x00 x00 x00 x00 x00 x00)
(T (W x19 x01 x00 x00 xff xff xff xff)
(T (W x30 x35 x5f x43 x4c x45 x41 x52)
(T (W xff xff xff xff xff xff xff xff)
(L (W x00 x00 x00 x00 x00 x00 x00 x00)) E)
(L (W xff xff xff xff xff xff xff xff)))
(T (W xf2 x4b xfd xff x00 x00 x01 x01)
(T (W xff xff xff xff xff xff xff xff)
(L (W x00 x00 x00 x00 x00 x00 x00 x00)) E)
(L (W xff xff xff xff xb0 x00 x00 x00))))
(T (W x40 x00 x00 x00 x9c x00 x00 x00)
(T (W x00 x00 x00 x00 x00 x00 x00 x00)
(T (W x00 x00 x00 x00 x25 x00 x00 x00)
(L (W x00 x00 x00 x00 x00 x00 x00 x00)) E)
(L (W x00 x00 x00 x00 xba xbc xfe xff)))
(T (W x00 x00 x00 x00 x00 x00 x00 x00)
(L (W xff xff xff xff xff xff xff xff))
(L (W x00 x00 x00 x00 x00 x00 x00 x00)))))))
(T (W x00 x00 x80 x3f x00 x00 x80 x3f)
(T (W x00 x00 x80 x3f x00 x00 x80 x3f)
(T (W x45 x26 x22 x84 xe4 x9c xf2 xcb)
(T (W xa6 x77 x70 xbe x01 x2b x1d x96)
(T (W x00 x00 x80 x3f x00 x00 x80 x3f)
(T (W xff xff xff xff xff xff xff xff)
(L (W x00 x00 x80 xbf x00 x00 x80 xbf)) E)
(L (W x18 x00 x00 x00 x10 x00 x00 x00)))
(T (W xff xff xff xff xff xff xff xff)
(T (W x00 x00 x00 x00 x00 x00 x00 x00)
(L (W x00 x00 x80 xbf x00 x00 x80 xbf)) E)
(L (W x45 x26 x22 x84 xe4 x9c xf2 xcb))))
(T (W xff xff xff xff x04 x00 x00 x00)
(T (W x00 x00 x80 x3f x00 x00 x80 x3f)
(T (W x00 x00 x00 x00 x02 x00 x00 x00)
(L (W x00 x00 x00 x00 x00 x00 x00 x00)) E)
(L (W x00 x00 x00 x00 x00 x00 x00 x00)))
(T (W x68 x00 x00 x00 x5c x00 x00 x00)
(L (W x00 x00 x00 x00 x00 x00 x00 x00))
(L (W xff xff xff xff xff xff xff xff)))))
(T (W x00 x00 x00 x00 x00 x00 x00 x00)
(T (W xff xff xff xff xff xff xff xff)
(T (W x00 x00 x00 x00 x00 x00 x62 x00)
(T (W x00 x00 x80 x3f x00 x00 x80 x3f)
(L (W x04 x00 x00 x00 xaa x6d xff xff)) E)
(L (W xff xff xff xff xb8 x00 x00 x00)))
(T (W xff xff xff xff xff xff xff xff)
(T (W xff xff xff xff xff xff xff xff)
(L (W x3c x02 x00 x00 x30 x01 x00 x00)) E)
(L (W xb4 x00 x00 x00 x14 x00 x00 x00))))
(T (W x18 x00 x00 x00 x10 x00 x00 x00)
(T (W x00 x00 x00 x00 x00 x00 x00 x00)
(T (W x00 x00 x80 x3f x00 x00 x80 x3f)
(L (W x00 x00 x00 x00 x00 x00 x00 x00)) E)
(L (W x00 x00 x01 x01 x90 x01 x00 x00)))
(T (W x00 x00 x00 x00 x00 x00 x00 x00)
(L (W x00 x00 x00 x00 x4c x2e xfe xff))
(L (W x00 x00 x00 x00 x12 x00 x00 x00))))))
(T (W x00 x00 x80 x3f x00 x00 x80 x3f)
(T (W x00 x00 x00 x00 x00 x00 x00 x00)
(T (W xff xff xff xff xff xff xff xff)
(T (W x00 x00 x00 x00 x00 x00 x00 x00)
(T (W xdc x5f xfd xff x00 x01 x01 x01)
(L (W xff xff xff xff xff xff xff xff)) E)
(L (W xb0 x00 x00 x00 x64 x00 x00 x00)))
(T (W x45 x26 x22 x84 xe4 x9c xf2 xcb)
(T (W xb2 xdc xfd xff x78 x00 x00 x00)
(L (W x00 x00 x80 xbf x00 x00 x80 xbf)) E)
(L (W x18 x00 x00 x00 x10 x00 x00 x00))))
(T (W xfa x1a xfc xff x74 x00 x00 x00)
(T (W xff xff xff xff xff xff xff xff)
(T (W x00 x00 x80 xbf x00 x00 x80 xbf)
(L (W x00 x00 x80 xbf x00 x00 x80 xbf)) E)
(L (W x00 x00 x00 x00 x00 x00 x00 x00)))
(T (W xff xff xff xff xff xff xff xff)
(L (W x00 x00 x80 xbf x00 x00 x80 xbf))
(L (W x00 x00 x00 x00 x00 x00 x00 x00)))))
(T (W x00 x00 x00 x00 x00 x00 x00 x00)
(T (W xff xff xff xff xff xff xff xff)
(T (W x00 x00 x00 x00 x00 x00 x00 x00)
(T (W xff xff xff xff xff xff xff xff)
(L (W x00 x00 x00 x00 x00 x00 x00 x00)) E)
(L (W xff xff xff xff xff xff xff xff)))
(T (W x4c x45 x41 x52 x45 x44 x00 x00)
(T (W xff xff xff xff xff xff xff xff)
(L (W x21 x00 x00 x00 x24 x00 x00 x00)) E)
(L (W x14 x00 x00 x00 x0c x00 x00 x00))))
(T (W x50 x00 x00 x00 x44 x00 x00 x00)
(T (W x00 x00 x80 x3f x00 x00 x80 x3f)
(T (W x00 x00 x00 x00 x00 x00 x00 x00)
(L (W x00 x00 x00 x00 x00 x00 x00 x00)) E)
(L (W x00 x00 x00 x00 xaa xbd xfe xff)))
(T (W x00 x00 x00 x00 x02 x00 x00 x00)
(L (W x2d x00 x00 x00 x30 x00 x00 x00))
(L (W x00 x00 x00 x00 x00 x00 x00 x00))))))))
(T (W xff xff xff xff xff xff xff xff)
(T (W xff xff xff xff xff xff xff xff)
(T (W xff xff xff xff x03 x00 x00 x00)
(T (W xff xff xff xff xff xff xff xff)
(T (W x45 x26 x22 x84 xe4 x9c xf2 xcb)
(T (W x43 x00 x00 x00 xff xff xff xff)
(T (W x00 x00 x80 x3f x00 x00 x80 x3f)
(L (W xb0 x00 x00 x00 x64 x00 x00 x00)) E)
(L (W x44 x4f xfe xff x15 x00 x00 x00)))
(T (W x00 x00 x00 x00 x00 x00 x00 x00)
(T (W x00 x00 x80 x3f x00 x00 x80 x3f)
(L (W xaa x01 x00 x00 xff xff xff xff)) E)
(L (W x18 x00 x00 x00 x0c x00 x00 x00))))
(T (W x45 x26 x22 x84 xe4 x9c xf2 xcb)
(T (W xff xff xff xff xff xff xff xff)
(T (W xdc x8b xfd xff x00 x01 x01 x01)
(L (W x45 x26 x22 x84 xe4 x9c xf2 xcb)) E)
(L (W x00 x00 x80 xbf x00 x00 x80 xbf)))
(T (W xff xff xff xff xff xff xff xff)
(L (W x2f x00 x00 x00 x32 x00 x00 x00))
(L (W x00 x00 x00 x00 x00 x00 x00 x00)))))
(T (W xff xff xff xff xff xff xff xff)
(T (W x00 x00 x80 x3f x00 x00 x80 x3f)
(T (W xff xff xff xff xff xff xff xff)
(T (W xff xff xff xff xff xff xff xff)
(L (W x00 x00 x80 xbf x00 x00 x80 xbf)) E)
(L (W x00 x00 x00 x00 x00 x00 x00 x00)))
(T (W x00 x00 x00 x00 x00 x00 x00 x00)
(T (W x00 x00 x80 xbf x00 x00 x80 xbf)
(L (W x00 x00 x80 xbf x00 x00 x80 xbf)) E)
(L (W x00 x00 x00 x00 x00 x00 x00 x00))))
(T (W x00 x00 x00 x00 x00 x00 x00 x00)
(T (W x00 x00 x80 x3f x00 x00 x80 x3f)
(T (W xbc x00 x00 x00 x05 x00 x00 x00)
(L (W x1c x03 x00 x00 xfc x01 x00 x00)) E)
(L (W xff xff xff xff xff xff xff xff)))
(T (W xdc x2b xfd xff x00 x01 x01 x01)
(L (W xff xff xff xff xff xff xff xff))
(L (W x50 x00 x00 x00 x44 x00 x00 x00))))))
(T (W xb2 xe9 xfd xff x00 x00 x01 x01)
(T (W xff xff xff xff xff xff xff xff)
(T (W x00 x00 x80 x3f x00 x00 x80 x3f)
(T (W x72 xed xff xff x00 x00 x01 x01)
(T (W x00 x00 x00 x00 x00 x00 x00 x00)
(L (W x00 x00 x00 x00 x00 x00 x00 x00)) E)
(L (W x00 x00 x00 x00 x00 x00 x00 x00)))
(T (W xb0 x00 x00 x00 x64 x00 x00 x00)
(T (W xff xff xff xff xff xff xff xff)
(L (W xff xff xff xff xff xff xff xff)) E)
(L (W xff xff xff xff xff xff xff xff))))
(T (W x00 x00 x00 x00 x00 x00 x00 x00)
(T (W x00 x00 x00 x00 x00 x00 x00 x00)
(T (W x00 x00 x80 xbf x00 x00 x80 xbf)
(L (W xff xff xff xff xff xff xff xff)) E)
(L (W xff xff xff xff x9c x00 x00 x00)))
(T (W x00 x00 x00 x00 x00 x00 x00 x00)
(L (W x44 x02 x00 x00 x30 x01 x00 x00))
(L (W x00 x00 x80 xbf x00 x00 x80 xbf)))))
(T (W x68 x00 x00 x00 x5c x00 x00 x00)
(T (W x00 x00 x00 x00 x00 x00 x00 x00)
(T (W xff xff xff xff xb0 x00 x00 x00)
(T (W x00 x00 x80 x3f x00 x00 x80 x3f)
(L (W x00 x00 x80 xbf x00 x00 x80 xbf)) E)
(L (W x45 x26 x22 x84 xe4 x9c xf2 xcb)))
(T (W x00 x00 x80 x3f x00 x00 x80 x3f)
(T (W x00 x00 x00 x00 x00 x00 x00 x00)
(L (W xff xff xff xff xa0 x00 x00 x00)) E)
(L (W x00 x00 x00 x00 x00 x00 x00 x00))))
(T (W xb2 xa9 xfe xff x00 x00 x01 x01)
(T (W xff xff xff xff xbc x00 x00 x00)
(T (W x00 x00 x00 x00 x00 x00 x00 x00)
(L (W x45 x26 x22 x84 xe4 x9c xf2 xcb)) E)
(L (W xdc xbb xfe xff x00 x01 x01 x01)))
(T (W xb2 x38 xfd xff x78 x00 x00 x00)
(L (W x00 x00 x80 xbf x00 x00 x80 xbf))
(L (W x70 x00 x00 x00 x64 x00 x00 x00)))))))
(T (W xff xff xff xff xff xff xff xff)
(T (W xf6 x01 x00 x00 xff xff xff xff)
(T (W xb8 x00 x00 x00 xac x00 x00 x00)
(T (W x18 x00 x00 x00 x0c x00 x00 x00)
(T (W xfa xe3 xff xff x43 x00 x00 x00)
(T (W x00 x00 x00 x00 x00 x00 x00 x00)
(L (W x02 x00 x00 x00 x30 x01 x00 x00)) E)
(L (W x00 x00 x00 x00 x00 x00 x00 x00)))
(T (W x00 x00 x80 x3f x00 x00 x80 x3f)
(T (W xff xff xff xff xff xff xff xff)
(L (W xb4 x06 x00 x00 x98 x05 x00 x00)) E)
(L (W xff xff xff xff xff xff xff xff))))
(T (W x00 x00 x80 x3f x00 x00 x80 x3f)
(T (W x45 x44 x00 x00 x00 x00 x00 x00)
(T (W x00 x00 x00 x00 x00 x00 x00 x00)
(L (W xff xff xff xff xff xff xff xff)) E)
(L (W x18 x00 x00 x00 x0c x00 x00 x00)))
(T (W x2d x1f x10 x5c x6e x7b x7c x57)
(L (W xff xff xff xff xff xff xff xff))
(L (W x00 x00 x80 xbf x00 x00 x80 xbf)))))
(T (W x45 x26 x22 x84 xe4 x9c xf2 xcb)
(T (W x45 x26 x22 x84 xe4 x9c xf2 xcb)
(T (W x00 x00 x00 x00 x00 x00 x00 x00)
(T (W xff xff xff xff xff xff xff xff)
(L (W x00 x00 x80 xbf x00 x00 x80 xbf)) E)
(L (W x00 x00 x00 x00 x00 x00 x00 x00)))
(T (W x00 x00 x80 x3f x00 x00 x80 x3f)
(T (W x00 x00 x80 xbf x00 x00 x80 xbf)
(L (W x6c x00 x00 x00 x60 x00 x00 x00)) E)
(L (W x00 x00 x00 x00 x00 x00 x00 x00))))
(T (W x3e x00 x00 x00 x0c x00 x00 x00)
(T (W x35 x00 x00 x00 x38 x00 x00 x00)
(T (W x44 xb7 xfd xff x2d x00 x00 x00)
(L (W xff xff xff xff xb0 x00 x00 x00)) E)
(L (W x00 x00 x00 x00 x4c xb2 xfe xff)))
(T (W x68 x00 x00 x00 x5c x00 x00 x00)
(L (W x00 x00 x00 x00 x00 x00 x00 x00))
(L (W x45 x26 x22 x84 xe4 x9c xf2 xcb))))))
(T (W xff xff xff xff xff xff xff xff)
(T (W xff xff xff xff xff xff xff xff)
(T (W x54 x00 x00 x00 x48 x00 x00 x00)
(T (W xff xff xff xff xff xff xff xff)
(T (W x00 x00 x00 x00 x02 x00 x00 x00)
(L (W x00 x00 x00 x00 x00 x00 x00 x00)) E)
(L (W x00 x00 x00 x00 x00 x00 x00 x00)))
(T (W x04 x00 x00 x00 xba xe8 xfc xff)
(T (W x00 x00 x00 x00 x00 x00 x00 x00)
(L (W xc4 x04 x00 x00 xb8 x03 x00 x00)) E)
(L (W x45 x44 x00 x00 x00 x00 x00 x00))))
(T (W x00 x00 x00 x00 x00 x00 x00 x00)
(T (W x00 x00 x80 x3f x00 x00 x80 x3f)
(T (W x00 x00 x00 x00 x00 x00 x00 x00)
(L (W x45 x44 x00 x00 x00 x00 x00 x00)) E)
(L (W x45 x26 x22 x84 xe4 x9c xf2 xcb)))
(T (W x00 x00 x80 x3f x00 x00 x80 x3f)
(L (W x00 x00 x00 x00 x00 x00 x00 x00))
(L (W xb2 x20 xff xff x78 x00 x00 x00)))))
(T (W xdc xc3 xfb xff x00 x01 x01 x01)
(T (W x45 x26 x22 x84 xe4 x9c xf2 xcb)
(T (W xff xff xff xff xff xff xff xff)
(T (W x00 x00 x80 x3f x00 x00 x80 x3f)
(L (W x00 x00 x00 x00 x4c x82 xff xff)) E)
(L (W x00 x00 x80 xbf x00 x00 x80 xbf)))
(T (W xc0 x00 x00 x00 x01 x00 x00 x00)
(T (W x00 x00 x80 xbf x00 x00 x80 xbf)
(L (W x30 x35 x5f x43 x4c x45 x41 x52)) E)
(L (W x00 x00 x00 x00 x00 x00 x00 x00))))
(T (W xff xff xff xff xff xff xff xff)
(T (W xff xff xff xff xff xff xff xff)
(T (W x00 x00 x80 x3f x00 x00 x80 x3f)
(L (W xff xff xff xff xff xff xff xff)) E)
(L (W x68 x00 x00 x00 x5c x00 x00 x00)))
(T (W x00 x00 x80 x3f x00 x00 x80 x3f)
(L (W x46 x53 x59 x53 x5f x4e x53 x5f))
(L (W x18 x00 x00 x00 x0c x00 x00 x00)))))))))))
(T (W x08 x60 x02 x00 xcc x5e x02 x00)
(T (W x70 xcc x01 x00 xbc xc7 x01 x00)
(T (W x88 x8f x00 x00 x54 x8e x00 x00)
(T (W x5c x4d xfb xff x00 x01 x01 x01)
(T (W x68 x00 x00 x00 x5c x00 x00 x00)
(T (W x68 x00 x00 x00 x5c x00 x00 x00)
(T (W x45 x26 x22 x84 xe4 x9c xf2 xcb)
(T (W x00 x00 x00 x00 x00 x00 x00 x00)
(T (W x45 x26 x22 x84 xe4 x9c xf2 xcb)
(T (W x00 x00 x00 x00 x00 x00 x00 x00)
(L (W x00 x00 x80 xbf x00 x00 x80 xbf)) E)
(L (W xff xff xff xff xff xff xff xff)))
(T (W x18 x00 x00 x00 x10 x00 x00 x00)
(T (W x00 x00 x00 x00 x00 x00 x00 x00)
(L (W x00 x00 x80 xbf x00 x00 x80 xbf)) E)
(L (W x00 x00 x80 xbf x00 x00 x80 xbf))))
(T (W xff xff xff xff xff xff xff xff)
(T (W x54 x00 x00 x00 x48 x00 x00 x00)
(T (W x00 x00 x00 x00 x00 x00 x00 x00)
(L (W x00 x00 x00 x00 x00 x00 x00 x00)) E)
(L (W x1b x00 x00 x00 x0c x00 x00 x00)))
(T (W x00 x00 x80 x3f x00 x00 x80 x3f)
(T (W x00 x00 x00 x00 x00 x00 x00 x00)
(L (W x45 x26 x22 x84 xe4 x9c xf2 xcb)) E)
(L (W xff xff xff xff xff xff xff xff)))))
(T (W x00 x00 x80 x3f x00 x00 x80 x3f)
(T (W x00 x00 x00 x00 x00 x00 x00 x00)
(T (W x18 x00 x00 x00 x0c x00 x00 x00)
(T (W x45 x26 x22 x84 xe4 x9c xf2 xcb)
(L (W xff xff xff xff xff xff xff xff)) E)
(L (W xff xff xff xff xff xff xff xff)))
(T (W xff xff xff xff xff xff xff xff)
(T (W xff xff xff xff xff xff xff xff)
(L (W x00 x00 x00 x00 x00 x00 x00 x00)) E)
(L (W x03 x00 x00 x00 xd8 x00 x00 x00))))
(T (W xff xff xff xff xff xff xff xff)
(T (W x29 x00 x00 x00 x0c x00 x00 x00)
(T (W xff xff xff xff xff xff xff xff)
(L (W xc4 x00 x00 x00 x02 x00 x00 x00)) E)
(L (W x00 x00 x00 x00 x00 x00 x00 x00)))
(T (W x4c x45 x41 x52 x45 x44 x00 x00)
(L (W x45 x26 x22 x84 xe4 x9c xf2 xcb))
(L (W x00 x00 x00 x00 x00 x00 x00 x00))))))
(T (W xff xff xff xff x03 x00 x00 x00)
(T (W x00 x00 x80 x3f x00 x00 x80 x3f)
(T (W x00 x00 x00 x00 x00 x00 x00 x00)
(T (W x5c x55 xfc xff x00 x01 x01 x01)
(T (W xff xff xff xff xff xff xff xff)
(L (W xb0 x00 x00 x00 x64 x00 x00 x00)) E)
(L (W xff xff xff xff xff xff xff xff)))
(T (W x00 x00 x00 x00 x00 x00 x00 x00)
(T (W x00 x00 x80 xbf x00 x00 x80 xbf)
(L (W xff xff xff xff xff xff xff xff)) E)
(L (W x32 xd2 xfe xff x78 x00 x00 x00))))
(T (W xff xff xff xff xff xff xff xff)
(T (W xff xff xff xff xff xff xff xff)
(T (W x48 x00 x4c x00 x50 x00 x54 x00)
(L (W xff xff xff xff xb0 x00 x00 x00)) E)
(L (W x00 x00 x80 xbf x00 x00 x80 xbf)))
(T (W xff xff xff xff xff xff xff xff)
(L (W x54 x00 x00 x00 x48 x00 x00 x00))
(L (W x00 x00 x00 x00 x00 x00 x00 x00)))))
(T (W x00 x00 x80 x3f x00 x00 x80 x3f)
(T (W xf4 xfb xfb xff x1b x00 x00 x00)
(T (W x38 x00 x3c x00 x40 x00 x44 x00)
(T (W x00 x00 x80 x3f x00 x00 x80 x3f)
(L (W x00 x00 x00 x00 x00 x00 x00 x00)) E)
(L (W xff xff xff xff xff xff xff xff)))
(T (W x00 x00 x00 x00 x00 x00 x00 x00)
(T (W x46 x53 x59 x53 x5f x4e x53 x5f)
(L (W x00 x00 x00 x00 x00 x00 x00 x00)) E)
(L (W x04 x00 x00 x00 xba xfe xfe xff))))
(T (W xff xff xff xff xff xff xff xff)
(T (W x00 x00 x80 x3f x00 x00 x80 x3f)
(T (W xff xff xff xff xff xff xff xff)
(L (W x00 x00 x80 xbf x00 x00 x80 xbf)) E)
(L (W x00 x00 x00 x00 x00 x00 x00 x00)))
(T (W x45 x26 x22 x84 xe4 x9c xf2 xcb)
(L (W xff xff xff xff xff xff xff xff))
(L (W x45 x26 x22 x84 xe4 x9c xf2 xcb)))))))
(T (W x50 x00 x00 x00 x44 x00 x00 x00)
(T (W xc0 x00 x00 x00 xb4 x00 x00 x00)
(T (W x50 x00 x00 x00 x44 x00 x00 x00)
(T (W x00 x00 x00 x00 x00 x00 x00 x00)
(T (W x68 x00 x00 x00 x5c x00 x00 x00)
(T (W x00 x00 x00 x00 x02 x00 x00 x00)
(L (W x68 x00 x00 x00 x5c x00 x00 x00)) E)
(L (W xff xff xff xff xff xff xff xff)))
(T (W xff xff xff xff xff xff xff xff)
(T (W x00 x00 x00 x00 x00 x00 x00 x00)
(L (W x45 x26 x22 x84 xe4 x9c xf2 xcb)) E)
(L (W x00 x00 x80 xbf x00 x00 x80 xbf))))
(T (W xff xff xff xff xff xff xff xff)
(T (W x45 x26 x22 x84 xe4 x9c xf2 xcb)
(T (W x00 x00 x00 x00 x00 x00 x00 x00)
(L (W x45 x26 x22 x84 xe4 x9c xf2 xcb)) E)
(L (W x00 x00 x00 x00 x00 x00 x00 x00)))
(T (W x5c x0d xfd xff x00 x01 x01 x01)
(L (W x00 x00 x80 xbf x00 x00 x80 xbf))
(L (W x00 x00 x00 x00 x00 x00 x00 x00)))))
(T (W x00 x00 x80 x3f x00 x00 x80 x3f)
(T (W x00 x00 x00 x00 x00 x00 x00 x00)
(T (W xff xff xff xff xff xff xff xff)
(T (W x5c x6d xfd xff x00 x01 x01 x01)
(L (W xc4 x70 xff xff x31 x00 x00 x00)) E)
(L (W x00 x00 x00 x00 x00 x00 x00 x00)))
(T (W xff xff xff xff xff xff xff xff)
(T (W x00 x00 x01 x01 xbf x01 x00 x00)
(L (W x20 x00 x00 x00 x0c x00 x00 x00)) E)
(L (W xff xff xff xff xff xff xff xff))))
(T (W xff xff xff xff xff xff xff xff)
(T (W x00 x00 x00 x00 x00 x00 x00 x00)
(T (W x00 x00 x80 x3f x00 x00 x80 x3f)
(L (W x4c x45 x41 x52 x45 x44 x00 x00)) E)
(L (W xff xff xff xff xff xff xff xff)))
(T (W x00 x00 x00 x00 x00 x00 x00 x00)
(L (W x45 x26 x22 x84 xe4 x9c xf2 xcb))
(L (W x00 x00 x80 xbf x00 x00 x80 xbf))))))
(T (W x00 x00 x00 x00 xcc x7b xfb xff)
(T (W x00 x00 x80 x3f x00 x00 x80 x3f)
(T (W x45 x26 x22 x84 xe4 x9c xf2 xcb)
(T (W x45 x26 x22 x84 xe4 x9c xf2 xcb)
(T (W xff xff xff xff xff xff xff xff)
(L (W xff xff xff xff xff xff xff xff)) E)
(L (W xff xff xff xff xff xff xff xff)))
(T (W x00 x00 x80 x3f x00 x00 x80 x3f)
(T (W xff xff xff xff xb0 x00 x00 x00)
(L (W x74 x00 x00 x00 x68 x00 x00 x00)) E)
(L (W x18 x00 x00 x00 x10 x00 x00 x00))))
(T (W xff xff xff xff xff xff xff xff)
(T (W x00 x00 x00 x00 x62 x99 xfc xff)
(T (W x00 x00 x00 x00 x00 x00 x00 x00)
(L (W xff xff xff xff xa0 x00 x00 x00)) E)
(L (W x6c x00 x00 x00 x60 x00 x00 x00)))
(T (W x72 x71 xfd xff x00 x00 x01 x01)
(L (W xb4 x00 x00 x00 x14 x00 x00 x00))
(L (W x4f x84 x6f x8b xe8 xcb x63 xb7)))))
(T (W x00 x00 x00 x00 x00 x00 x00 x00)
(T (W x01 x00 x00 x00 x04 x00 x00 x00)
(T (W x00 x00 x80 x3f x00 x00 x80 x3f)
(T (W x36 x00 x00 x00 x10 x00 x00 x00)
(L (W x00 x00 x00 x00 x00 x00 x00 x00)) E)
(L (W x45 x44 x00 x00 x00 x00 x00 x00)))
(T (W x49 xa1 x68 x4a xeb x5f xdd x3d)
(T (W x80 x03 x00 x00 x54 x02 x00 x00)
(L (W x32 xfa xff xff x78 x00 x00 x00)) E)
(L (W xff xff xff xff xff xff xff xff))))
(T (W xb8 x00 x00 x00 xac x00 x00 x00)
(T (W x00 x00 x80 x3f x00 x00 x80 x3f)
(T (W x45 x44 x00 x00 x00 x00 x00 x00)
(L (W x00 x00 x80 xbf x00 x00 x80 xbf)) E)
(L (W x45 x26 x22 x84 xe4 x9c xf2 xcb)))
(T (W x00 x00 x00 x00 x00 x00 x00 x00)
(L (W xa9 x01 x00 x00 xff xff xff xff))
(L (W x00 x00 x80 xbf x00 x00 x80 xbf))))))))
(T (W x00 x00 x00 x00 x00 x00 x00 x00)
(T (W x00 x00 x00 x00 x00 x00 x00 x00)
(T (W x00 x00 x00 x00 x00 x00 x00 x00)
(T (W x00 x00 x00 x00 x00 x00 x00 x00)
(T (W xff xff xff xff xff xff xff xff)
(T (W x00 x00 x00 x00 x00 x00 x00 x00)
(T (W x5c x49 xfd xff x00 x01 x01 x01)
(L (W xff xff xff xff xff xff xff xff)) E)
(L (W x00 x00 x00 x00 x00 x00 x00 x00)))
(T (W x00 x00 x00 x00 x00 x00 x00 x00)
(T (W x45 x26 x22 x84 xe4 x9c xf2 xcb)
(L (W xab x01 x00 x00 xff xff xff xff)) E)
(L (W xff xff xff xff xff xff xff xff))))
(T (W x00 x00 x80 x3f x00 x00 x80 x3f)
(T (W x00 x00 x00 x00 x00 x00 x00 x00)
(T (W xff xff xff xff xff xff xff xff)
(L (W xff xff xff xff xff xff xff xff)) E)
(L (W x45 x26 x22 x84 xe4 x9c xf2 xcb)))
(T (W x1a x5b xfe xff x9c x01 x00 x00)
(L (W xff xff xff xff xff xff xff xff))
(L (W x45 x26 x22 x84 xe4 x9c xf2 xcb)))))
(T (W xaa x01 x00 x00 xff xff xff xff)
(T (W x50 x00 x00 x00 x44 x00 x00 x00)
(T (W x26 x00 x00 x00 xff xff xff xff)
(T (W x00 x00 x00 x00 x00 x00 x00 x00)
(L (W x32 x66 xff xff x78 x00 x00 x00)) E)
(L (W x00 x00 x80 xbf x00 x00 x80 xbf)))
(T (W x00 x00 x00 x00 x00 x00 x00 x00)
(T (W x32 xe6 xfd xff x78 x00 x00 x00)
(L (W x00 x00 x80 xbf x00 x00 x80 xbf)) E)
(L (W x00 x00 x80 xbf x00 x00 x80 xbf))))
(T (W x00 x00 x00 x00 x00 x00 x00 x00)
(T (W x00 x00 x00 x00 xcc xa7 xfc xff)
(T (W x28 x00 x00 x00 x1c x00 x00 x00)
(L (W x00 x00 x00 x00 x00 x00 x00 x00)) E)
(L (W xff xff xff xff xff xff xff xff)))
(T (W xff xff xff xff xff xff xff xff)
(L (W x10 x79 xc7 x28 xbf xc8 x78 x6a))
(L (W xff xff xff xff xc8 x00 x00 x00))))))
(T (W x40 x00 x00 x00 x0c x00 x00 x00)
(T (W x00 x00 x00 x00 x04 x00 x00 x00)
(T (W x64 x00 x00 x00 x9c x00 x00 x00)
(T (W x00 x00 x00 x00 x00 x00 x00 x00)
(T (W x00 x00 x80 x3f x00 x00 x80 x3f)
(L (W x00 x00 x80 xbf x00 x00 x80 xbf)) E)
(L (W x00 x00 x00 x00 x00 x00 x00 x00)))
(T (W xff xff xff xff xff xff xff xff)
(T (W x00 x00 x00 x00 x12 x00 x00 x00)
(L (W x45 x44 x00 x00 x00 x00 x00 x00)) E)
(L (W x00 x00 x00 x00 x00 x00 x00 x00))))
(T (W x00 x00 x80 x3f x00 x00 x80 x3f)
(T (W x00 x00 x80 x3f x00 x00 x80 x3f)
(T (W x00 x00 x80 xbf x00 x00 x80 xbf)
(L (W x00 x00 x00 x00 x00 x00 x00 x00)) E)
(L (W xff xff xff xff xff xff xff xff)))
(T (W x00 x00 x80 x3f x00 x00 x80 x3f)
(L (W xc4 x1c xfe xff x3b x00 x00 x00))
(L (W xff xff xff xff xa0 x00 x00 x00)))))
(T (W xff xff xff xff xff xff xff xff)
(T (W x00 x00 x00 x00 xcc xf7 xfb xff)
(T (W xff xff xff xff xff xff xff xff)
(T (W x18 x00 x00 x00 x0c x00 x00 x00)
(L (W xff xff xff xff xff xff xff xff)) E)
(L (W x00 x00 x80 xbf x00 x00 x80 xbf)))
(T (W xb8 x00 x00 x00 x64 x00 x00 x00)
(T (W x54 x00 x00 x00 x48 x00 x00 x00)
(L (W x00 x00 x00 x00 x00 x00 x00 x00)) E)
(L (W x00 x00 x80 xbf x00 x00 x80 xbf))))
(T (W x45 x26 x22 x84 xe4 x9c xf2 xcb)
(T (W x6a x01 x00 x00 xff xff xff xff)
(T (W x6c x76 x32 x00 x22 x00 x00 x00)
(L (W xff xff xff xff xff xff xff xff)) E)
(L (W x45 x26 x22 x84 xe4 x9c xf2 xcb)))
(T (W xff xff xff xff xff xff xff xff)
(L (W x00 x00 x80 xbf x00 x00 x80 xbf))
(L (W xff xff xff xff xff xff xff xff)))))))
(T (W x00 x00 x00 x00 x00 x00 x00 x00)
(T (W x00 x00 x00 x00 x00 x00 x00 x00)
(T (W x00 x00 x00 x00 x00 x00 x00 x00)
(T (W xff xff xff xff xff xff xff xff)
(T (W x00 x00 x00 x00 x00 x00 x00 x00)
(T (W x00 x00 x80 x3f x00 x00 x80 x3f)
(L (W xc4 x54 xff xff x15 x00 x00 x00)) E)
(L (W x49 xa1 x68 x4a xeb x5f xdd x3d)))
(T (W x68 x00 x00 x00 x5c x00 x00 x00)
(T (W xff xff xff xff xff xff xff xff)
(L (W x00 x00 x00 x00 x00 x00 x00 x00)) E)
(L (W xcb x01 x00 x00 xff xff xff xff))))
(T (W x00 x00 x80 x3f x00 x00 x80 x3f)
(T (W x4f x84 x6f x8b xe8 xcb x63 xb7)
(T (W x45 x26 x22 x84 xe4 x9c xf2 xcb)
(L (W xff xff xff xff xff xff xff xff)) E)
(L (W x31 x00 x00 x00 x34 x00 x00 x00)))
(T (W x00 x00 x00 x00 x00 x00 x00 x00)
(L (W xff xff xff xff xff xff xff xff))
(L (W x00 x00 x80 xbf x00 x00 x80 xbf)))))
(T (W xff xff xff xff xff xff xff xff)
(T (W x7a xec xfb xff x74 x00 x00 x00)
(T (W x25 x00 x00 x00 xff xff xff xff)
(T (W x00 x00 x00 x00 x02 x00 x00 x00)
(L (W xbc x00 x00 x00 x0a x00 x00 x00)) E)
(L (W x00 x00 x80 xbf x00 x00 x80 xbf)))
(T (W x00 x00 x80 x3f x00 x00 x80 x3f)
(T (W x50 x00 x00 x00 x44 x00 x00 x00)
(L (W xac x00 x00 x00 x64 x00 x00 x00)) E)
(L (W x00 x00 x80 xbf x00 x00 x80 xbf))))
(T (W x00 x00 x00 x00 x00 x00 x00 x00)
(T (W xff xff xff xff xff xff xff xff)
(T (W x6c x64 x5f x70 x6f x6b x65 x5f)
(L (W xff xff xff xff xff xff xff xff)) E)
(L (W x18 x00 x00 x00 x10 x00 x00 x00)))
(T (W xff xff xff xff xff xff xff xff)
(L (W x00 x00 x80 xbf x00 x00 x80 xbf))
(L (W xff xff xff xff xff xff xff xff))))))
(T (W x00 x00 x00 x00 x00 x00 x00 x00)
(T (W xff xff xff xff xff xff xff xff)
(T (W x5c xe1 xfb xff x00 x01 x01 x01)
(T (W xcc x08 x71 x15 xe5 x32 xd9 x87)
(T (W x00 x00 x00 x00 x00 x00 x00 x00)
(L (W x54 x00 x00 x00 x48 x00 x00 x00)) E)
(L (W x6c x00 x00 x00 x60 x00 x00 x00)))
(T (W xf4 xe7 xfc xff x26 x00 x00 x00)
(T (W x00 x00 x00 x00 x00 x00 x00 x00)
(L (W x00 x00 x00 x00 x00 x00 x00 x00)) E)
(L (W x4f x84 x6f x8b xe8 xcb x63 xb7))))
(T (W x45 x26 x22 x84 xe4 x9c xf2 xcb)
(T (W x32 x9e xfc xff x78 x00 x00 x00)
(T (W x00 x00 x00 x00 x00 x00 x00 x00)
(L (W x46 x53 x59 x53 x5f x4e x53 x5f)) E)
(L (W xff xff xff xff xff xff xff xff)))
(T (W x00 x00 x80 x3f x00 x00 x80 x3f)
(L (W x30 x35 x5f x43 x4c x45 x41 x52))
(L (W x45 x26 x22 x84 xe4 x9c xf2 xcb)))))
(T (W xff xff xff xff xff xff xff xff)
(T (W x45 x26 x22 x84 xe4 x9c xf2 xcb)
(T (W xff xff xff xff xff xff xff xff)
(T (W x00 x00 x80 x3f x00 x00 x80 x3f)
(L (W xb0 x00 x00 x00 x14 x00 x00 x00)) E)
(L (W x5c x81 xfe xff x00 x01 x01 x01)))
(T (W xff xff xff xff xff xff xff xff)
(T (W x68 x00 x00 x00 x5c x00 x00 x00)
(L (W xff xff xff xff xff xff xff xff)) E)
(L (W x00 x00 x00 x00 x00 x00 x00 x00))))
(T (W x45 x26 x22 x84 xe4 x9c xf2 xcb)
(T (W x24 x00 x00 x00 x0c x00 x00 x00)
(T (W xff xff xff xff xb0 x00 x00 x00)
(L (W x04 x00 x00 x00 x2a xbf xff xff)) E)
(L (W xbc x00 x00 x00 x64 x00 x00 x00)))
(T (W x45 x26 x22 x84 xe4 x9c xf2 xcb)
(L (W x00 x00 x80 xbf x00 x00 x80 xbf))
(L (W xff xff xff xff xff xff xff xff)))))))))
(T (W x00 x00 x00 x00 x00 x00 x00 x00)
(T (W xff xff xff xff xff xff xff xff)
(T (W xff xff xff xff xff xff xff xff)
(T (W xff xff xff xff xff xff xff xff)
(T (W xff xff xff xff xff xff xff xff)
(T (W x50 x00 x00 x00 x44 x00 x00 x00)
(T (W x32 xb5 xfe xff x00 x00 x01 x01)
(T (W x00 x00 x80 x3f x00 x00 x80 x3f)
(L (W x3b x00 x00 x00 x3e x00 x00 x00)) E)
(L (W x00 x00 x00 x00 x00 x00 x00 x00)))
(T (W x04 x00 x00 x00 x3a xcc xfc xff)
(T (W x00 x00 x80 x3f x00 x00 x80 x3f)
(L (W xbc x00 x00 x00 x05 x00 x00 x00)) E)
(L (W x45 x26 x22 x84 xe4 x9c xf2 xcb))))
(T (W x00 x00 x00 x00 x00 x00 x00 x00)
(T (W xff xff xff xff xff xff xff xff)
(T (W x00 x00 x80 x3f x00 x00 x80 x3f)
(L (W x45 x26 x22 x84 xe4 x9c xf2 xcb)) E)
(L (W x00 x00 x80 xbf x00 x00 x80 xbf)))
(T (W xff xff xff xff xff xff xff xff)
(L (W x32 x04 xfe xff x78 x00 x00 x00))
(L (W x00 x00 x00 x00 x00 x00 x00 x00)))))
(T (W x5c xa7 xfb xff x00 x01 x01 x01)
(T (W x00 x00 x80 x3f x00 x00 x80 x3f)
(T (W xff xff xff xff xff xff xff xff)
(T (W xff xff xff xff xff xff xff xff)
(L (W x00 x00 x80 xbf x00 x00 x80 xbf)) E)
(L (W x00 x00 x00 x00 x00 x00 x00 x00)))
(T (W x00 x00 x00 x00 x00 x00 x00 x00)
(T (W x49 xa1 x68 x4a xeb x5f xdd x3d)
(L (W x00 x00 x00 x00 x00 x00 x00 x00)) E)
(L (W x3e x00 x00 x00 x0c x00 x00 x00))))
(T (W x00 x00 x00 x00 x00 x00 x00 x00)
(T (W x00 x00 x80 x3f x00 x00 x80 x3f)
(T (W x00 x00 x00 x00 x00 x00 x00 x00)
(L (W xff xff xff xff xff xff xff xff)) E)
(L (W x18 x00 x00 x00 x10 x00 x00 x00)))
(T (W x00 x00 x80 x3f x00 x00 x80 x3f)
(L (W x03 x00 x00 x00 xd8 x00 x00 x00))
(L (W x54 x00 x00 x00 x48 x00 x00 x00))))))
(T (W xff xff xff xff xff xff xff xff)
(T (W xff xff xff xff xff xff xff xff)
(T (W x00 x00 x80 x3f x00 x00 x80 x3f)
(T (W xff xff xff xff xff xff xff xff)
(T (W x00 x00 x00 x00 x00 x00 x00 x00)
(L (W x00 x00 x00 x00 x00 x00 x00 x00)) E)
(L (W x00 x00 x01 x01 x69 x01 x00 x00)))
(T (W x00 x00 x80 x3f x00 x00 x80 x3f)
(T (W xff xff xff xff xff xff xff xff)
(L (W xff xff xff xff xff xff xff xff)) E)
(L (W xff xff xff xff xff xff xff xff))))
(T (W xc4 x1a xfc xff x3e x00 x00 x00)
(T (W xc4 x9a xfc xff x26 x00 x00 x00)
(T (W x74 x00 x09 x00 x0a x00 x0b x00)
(L (W xff xff xff xff xff xff xff xff)) E)
(L (W x68 x00 x00 x00 x5c x00 x00 x00)))
(T (W x00 x00 x00 x00 x00 x00 x00 x00)
(L (W xff xff xff xff xff xff xff xff))
(L (W x00 x00 x80 xbf x00 x00 x80 xbf)))))
(T (W x00 x00 x00 x00 xcc xb5 xfb xff)
(T (W x45 x26 x22 x84 xe4 x9c xf2 xcb)
(T (W x6c x00 x00 x00 x60 x00 x00 x00)
(T (W x00 x00 x00 x00 x00 x00 x00 x00)
(L (W x00 x00 x80 xbf x00 x00 x80 xbf)) E)
(L (W x00 x00 x00 x00 x00 x00 x00 x00)))
(T (W x45 x26 x22 x84 xe4 x9c xf2 xcb)
(T (W x49 xa1 x68 x4a xeb x5f xdd x3d)
(L (W xc4 x00 x00 x00 x02 x00 x00 x00)) E)
(L (W x00 x00 x00 x00 x00 x00 x00 x00))))
(T (W x69 x77 x79 xba x1f xca x8b xa1)
(T (W x00 x00 x00 x00 xcc xb5 xfc xff)
(T (W x00 x00 x80 x3f x00 x00 x80 x3f)
(L (W xff xff xff xff xb8 x00 x00 x00)) E)
(L (W x00 x00 x80 xbf x00 x00 x80 xbf)))
(T (W x54 x00 x00 x00 x48 x00 x00 x00)
(L (W x00 x00 x00 x00 x00 x00 x00 x00))
(L (W x2d x00 x00 x00 x30 x00 x00 x00)))))))
(T (W xff xff xff xff xff xff xff xff)
(T (W xff xff xff xff xff xff xff xff)
(T (W xff xff xff xff xff xff xff xff)
(T (W x00 x00 x80 x3f x00 x00 x80 x3f)
(T (W xff xff xff xff xff xff xff xff)
(T (W x00 x00 x00 x00 x00 x00 x00 x00)
(L (W xff xff xff xff xff xff xff xff)) E)
(L (W x30 x35 x5f x43 x4c x45 x41 x52)))
(T (W x00 x00 x00 x00 x00 x00 x00 x00)
(T (W xff xff xff xff xb0 x00 x00 x00)
(L (W xff xff xff xff xff xff xff xff)) E)
(L (W xbc x00 x00 x00 x64 x00 x00 x00))))
(T (W x00 x00 x00 x00 x00 x00 x00 x00)
(T (W xff xff xff xff xff xff xff xff)
(T (W x00 x00 x80 x3f x00 x00 x80 x3f)
(L (W x33 x00 x00 x00 x36 x00 x00 x00)) E)
(L (W x00 x00 x80 xbf x00 x00 x80 xbf)))
(T (W x02 x00 x00 x00 xff xff xff xff)
(L (W x00 x00 x00 x00 xcc x0d xfe xff))
(L (W x00 x00 x00 x00 x00 x00 x00 x00)))))
(T (W x50 x00 x00 x00 x44 x00 x00 x00)
(T (W x00 x00 x80 x3f x00 x00 x80 x3f)
(T (W x50 x00 x00 x00 x44 x00 x00 x00)
(T (W xff xff xff xff xff xff xff xff)
(L (W x00 x00 x80 xbf x00 x00 x80 xbf)) E)
(L (W x00 x00 x00 x00 x00 x00 x00 x00)))
(T (W x00 x00 x00 x00 x00 x00 x00 x00)
(T (W x00 x00 x00 x00 x00 x00 x00 x00)
(L (W x45 x26 x22 x84 xe4 x9c xf2 xcb)) E)
(L (W x00 x00 x00 x00 x12 x00 x00 x00))))
(T (W x00 x00 x00 x00 x00 x00 x00 x00)
(T (W x00 x00 x80 x3f x00 x00 x80 x3f)
(T (W xff xff xff xff xff xff xff xff)
(L (W xff xff xff xff xb0 x00 x00 x00)) E)
(L (W x00 x00 x80 xbf x00 x00 x80 xbf)))
(T (W x50 x00 x00 x00 x44 x00 x00 x00)
(L (W x00 x00 x00 x00 x00 x00 x00 x00))
(L (W x5c x2f xff xff x00 x01 x01 x01))))))
(T (W xff xff xff xff xff xff xff xff)
(T (W x64 x00 x00 x00 x9c x00 x00 x00)
(T (W x00 x00 x80 x3f x00 x00 x80 x3f)
(T (W xb8 x00 x00 x00 xac x00 x00 x00)
(T (W x00 x00 x00 x00 x02 x00 x00 x00)
(L (W x00 x00 x00 x00 x00 x00 x00 x00)) E)
(L (W x00 x00 x00 x00 x12 x00 x00 x00)))
(T (W xff xff xff xff xff xff xff xff)
(T (W x00 x00 x01 x01 x73 x02 x00 x00)
(L (W xff xff xff xff xff xff xff xff)) E)
(L (W x45 x44 x00 x00 x00 x00 x00 x00))))
(T (W x00 x00 x00 x00 x00 x00 x00 x00)
(T (W x00 x00 x00 x00 x00 x00 x00 x00)
(T (W xff xff xff xff xff xff xff xff)
(L (W xff xff xff xff xff xff xff xff)) E)
(L (W x18 x00 x00 x00 x1b x00 x00 x00)))
(T (W x45 x26 x22 x84 xe4 x9c xf2 xcb)
(L (W xff xff xff xff xff xff xff xff))
(L (W x3c x00 x00 x00 x00 x00 x80 xbf)))))
(T (W x45 x26 x22 x84 xe4 x9c xf2 xcb)
(T (W x45 x26 x22 x84 xe4 x9c xf2 xcb)
(T (W x45 x26 x22 x84 xe4 x9c xf2 xcb)
(T (W x00 x00 x00 x00 x00 x00 x00 x00)
(L (W x54 x00 x00 x00 x48 x00 x00 x00)) E)
(L (W x00 x00 x00 x00 x00 x00 x00 x00)))
(T (W x68 x00 x00 x00 x5c x00 x00 x00)
(T (W x00 x00 x80 xbf x00 x00 x80 xbf)
(L (W x58 x00 x5c x00 x60 x00 x64 x00)) E)
(L (W x30 x35 x5f x43 x4c x45 x41 x52))))
(T (W x5d x00 x00 x00 xff xff xff xff)
(T (W xff xff xff xff xff xff xff xff)
(T (W x00 x00 x80 x3f x00 x00 x80 x3f)
(L (W x45 x26 x22 x84 xe4 x9c xf2 xcb)) E)
(L (W x00 x00 x80 xbf x00 x00 x80 xbf)))
(T (W x00 x00 x80 x3f x00 x00 x80 x3f)
(L (W x46 x53 x59 x53 x5f x4e x53 x5f))
(L (W x45 x26 x22 x84 xe4 x9c xf2 xcb))))))))
(T (W x00 x00 x00 x00 x00 x00 x00 x00)
(T (W x45 x26 x22 x84 xe4 x9c xf2 xcb)
(T (W x40 x00 x44 x00 x48 x00 x4c x00)
(T (W x00 x00 x00 x00 x00 x00 x00 x00)
(T (W x00 x00 x00 x00 x00 x00 x00 x00)
(T (W x00 x00 x80 x3f x00 x00 x80 x3f)
(T (W xff xff xff xff xff xff xff xff)
(L (W x00 x00 x00 x00 x12 x00 x00 x00)) E)
(L (W x00 x00 x80 xbf x00 x00 x80 xbf)))
(T (W x00 x00 x00 x00 xcc xc9 xfc xff)
(T (W xff xff xff xff xff xff xff xff)
(L (W x00 x00 x80 xbf x00 x00 x80 xbf)) E)
(L (W x00 x00 x00 x00 x00 x00 x00 x00))))
(T (W xff xff xff xff xff xff xff xff)
(T (W x45 x26 x22 x84 xe4 x9c xf2 xcb)
(T (W x00 x00 x00 x00 x02 x00 x00 x00)
(L (W x00 x00 x00 x00 x00 x00 x00 x00)) E)
(L (W xff xff xff xff xff xff xff xff)))
(T (W x00 x00 x80 x3f x00 x00 x80 x3f)
(L (W x1d x00 x00 x00 x0c x00 x00 x00))
(L (W x45 x26 x22 x84 xe4 x9c xf2 xcb)))))
(T (W x00 x00 x00 x00 x00 x00 x00 x00)
(T (W xff xff xff xff xff xff xff xff)
(T (W x00 x00 x00 x00 x00 x00 x00 x00)
(T (W x00 x00 x80 x3f x00 x00 x80 x3f)
(L (W xff xff xff xff xff xff xff xff)) E)
(L (W x18 x00 x00 x00 x10 x00 x00 x00)))
(T (W xff xff xff xff x9c x00 x00 x00)
(T (W xff xff xff xff xff xff xff xff)
(L (W xff xff xff xff xff xff xff xff)) E)
(L (W x68 x00 x00 x00 x5c x00 x00 x00))))
(T (W x68 x00 x00 x00 x5c x00 x00 x00)
(T (W xff xff xff xff xff xff xff xff)
(T (W x12 x00 x00 x00 x46 x53 x59 x53)
(L (W x45 x26 x22 x84 xe4 x9c xf2 xcb)) E)
(L (W x00 x00 x00 x00 x00 x00 x00 x00)))
(T (W x00 x00 x00 x00 x00 x00 x00 x00)
(L (W x45 x26 x22 x84 xe4 x9c xf2 xcb))
(L (W xdc x00 x00 x00 xff xff xff xff))))))
(T (W x00 x00 x80 x3f x00 x00 x80 x3f)
(T (W x00 x00 x00 x00 x00 x00 x00 x00)
(T (W xff xff xff xff xff xff xff xff)
(T (W x45 x26 x22 x84 xe4 x9c xf2 xcb)
(T (W x5c x5b xfd xff x00 x01 x01 x01)
(L (W x45 x26 x22 x84 xe4 x9c xf2 xcb)) E)
(L (W x68 x00 x00 x00 x5c x00 x00 x00)))
(T (W x00 x00 x00 x00 x00 x00 x00 x00)
(T (W x00 x00 x80 xbf x00 x00 x80 xbf)
(L (W x49 xa1 x68 x4a xeb x5f xdd x3d)) E)
(L (W x00 x00 x80 xbf x00 x00 x80 xbf))))
(T (W x45 x26 x22 x84 xe4 x9c xf2 xcb)
(T (W x45 x26 x22 x84 xe4 x9c xf2 xcb)
(T (W xff xff xff xff xff xff xff xff)
(L (W x00 x00 x80 xbf x00 x00 x80 xbf)) E)
(L (W x46 x53 x59 x53 x5f x4e x53 x5f)))
(T (W x18 x00 x00 x00 x0c x00 x00 x00)
(L (W x00 x00 x80 xbf x00 x00 x80 xbf))
(L (W xff xff xff xff xff xff xff xff)))))
(T (W x00 x00 x00 x00 x00 x00 x00 x00)
(T (W x64 x00 x00 x00 x9c x00 x00 x00)
(T (W x00 x00 x00 x00 x00 x00 x00 x00)
(T (W xff xff xff xff xff xff xff xff)
(L (W xff xff xff xff xff xff xff xff)) E)
(L (W xff xff xff xff xbc x00 x00 x00)))
(T (W xff xff xff xff xff xff xff xff)
(T (W xc4 x00 x00 x00 x01 x00 x00 x00)
(L (W x00 x00 x48 x00 x4c x00 x00 x00)) E)
(L (W x14 x00 x00 x00 x0c x00 x00 x00))))
(T (W x00 x00 x80 x3f x00 x00 x80 x3f)
(T (W x00 x00 x00 x00 x00 x00 x00 x00)
(T (W xff xff xff xff xa0 x00 x00 x00)
(L (W x00 x00 x00 x00 x00 x00 x00 x00)) E)
(L (W x04 x00 x00 x00 x2a xb9 xfe xff)))
(T (W x04 x00 x00 x00 x72 xc5 xff xff)
(L (W xff xff xff xff xff xff xff xff))
(L (W x00 x00 x00 x00 xa2 x3a xff xff)))))))
(T (W x00 x00 x80 x3f x00 x00 x80 x3f)
(T (W x00 x00 x80 x3f x00 x00 x80 x3f)
(T (W x00 x00 x00 x00 x00 x00 x00 x00)
(T (W x00 x00 x00 x00 x04 x00 x00 x00)
(T (W x00 x00 x80 x3f x00 x00 x80 x3f)
(T (W x45 x26 x22 x84 xe4 x9c xf2 xcb)
(L (W x00 x00 x80 xbf x00 x00 x80 xbf)) E)
(L (W xc4 x00 x00 x00 x01 x00 x00 x00)))
(T (W xff xff xff xff xff xff xff xff)
(T (W x00 x00 x00 x00 x00 x00 x00 x00)
(L (W x00 x00 x80 xbf x00 x00 x80 xbf)) E)
(L (W x00 x00 x80 xbf x00 x00 x80 xbf))))
(T (W xff xff xff xff xff xff xff xff)
(T (W x54 x00 x00 x00 x48 x00 x00 x00)
(T (W x00 x00 x00 x00 x00 x00 x00 x00)
(L (W x00 x00 x00 x00 x00 x00 x00 x00)) E)
(L (W x04 x00 x00 x00 x80 x03 x00 x00)))
(T (W x00 x00 x80 x3f x00 x00 x80 x3f)
(L (W x00 x00 x00 x00 x00 x00 x00 x00))
(L (W xff xff xff xff xff xff xff xff)))))
(T (W x40 x00 x00 x00 x0c x00 x00 x00)
(T (W xff xff xff xff xff xff xff xff)
(T (W x00 x00 x00 x00 x00 x00 x00 x00)
(T (W x00 x00 x00 x00 x00 x00 x00 x00)
(L (W xff xff xff xff xff xff xff xff)) E)
(L (W x45 x26 x22 x84 xe4 x9c xf2 xcb)))
(T (W xff xff xff xff xff xff xff xff)
(T (W xff xff xff xff xff xff xff xff)
(L (W xff xff xff xff xff xff xff xff)) E)
(L (W xff xff xff xff xb0 x00 x00 x00))))
(T (W x00 x00 x80 x3f x00 x00 x80 x3f)
(T (W x29 x00 x00 x00 x0c x00 x00 x00)
(T (W x00 x00 x80 x3f x00 x00 x80 x3f)
(L (W x00 x00 x00 x00 x00 x00 x00 x00)) E)
(L (W x00 x00 x00 x00 x00 x00 x00 x00)))
(T (W x00 x00 x00 x00 xfa xbb xff xff)
(L (W x45 x26 x22 x84 xe4 x9c xf2 xcb))
(L (W x00 x00 x00 x00 x00 x00 x00 x00))))))
(T (W x00 x00 x00 x00 x00 x00 x00 x00)
(T (W x45 x26 x22 x84 xe4 x9c xf2 xcb)
(T (W xdb x01 x00 x00 xff xff xff xff)
(T (W x00 x00 x80 x3f x00 x00 x80 x3f)
(T (W x00 x00 x80 x3f x00 x00 x80 x3f)
(L (W xb4 x00 x00 x00 x14 x00 x00 x00)) E)
(L (W xff xff xff xff xa8 x00 x00 x00)))
(T (W x00 x00 x80 x3f x00 x00 x80 x3f)
(T (W x7a xde xfd xff x74 x00 x00 x00)
(L (W x00 x00 x80 xbf x00 x00 x80 xbf)) E)
(L (W x54 x00 x00 x00 x48 x00 x00 x00))))
(T (W x18 x00 x00 x00 x0c x00 x00 x00)
(T (W xff xff xff xff xff xff xff xff)
(T (W x01 x01 x01 x01 x22 xb9 xfd xff)
(L (W x54 x00 x00 x00 x48 x00 x00 x00)) E)
(L (W x00 x00 x00 x00 x00 x00 x00 x00)))
(T (W xff xff xff xff xff xff xff xff)
(L (W x3c x00 x00 x00 x00 x00 x80 xbf))
(L (W x00 x00 x01 x01 x64 x01 x00 x00)))))
(T (W x00 x00 x00 x00 x00 x00 x00 x00)
(T (W xff xff xff xff x03 x00 x00 x00)
(T (W x4f x84 x6f x8b xe8 xcb x63 xb7)
(T (W xff xff xff xff xff xff xff xff)
(L (W x00 x00 x00 x00 x00 x00 x00 x00)) E)
(L (W xff xff xff xff xff xff xff xff)))
(T (W x00 x00 x00 x00 x00 x00 x00 x00)
(T (W xff xff xff xff xff xff xff xff)
(L (W x6c x00 x00 x00 x60 x00 x00 x00)) E)
(L (W x45 x26 x22 x84 xe4 x9c xf2 xcb))))
(T (W x00 x00 x80 x3f x00 x00 x80 x3f)
(T (W x45 x26 x22 x84 xe4 x9c xf2 xcb)
(T (W xff xff xff xff xff xff xff xff)
(L (W x45 x26 x22 x84 xe4 x9c xf2 xcb)) E)
(L (W xbe x00 x00 x00 xff xff xff xff)))
(T (W xff xff xff xff xff xff xff xff)
(L (W x32 x40 xfe xff x78 x00 x00 x00))
(L (W x00 x00 x00 x00 x00 x00 x00 x00))))))))))
(T (W x08 x22 x01 x00 xd4 x20 x01 x00)
(T (W xf4 x50 xfb xff x3e x00 x00 x00)
(T (W x18 x00 x00 x00 x10 x00 x00 x00)
(T (W xff xff xff xff x04 x00 x00 x00)
(T (W xff xff xff xff x04 x00 x00 x00)
(T (W x64 x00 x00 x00 x9c x00 x00 x00)
(T (W x00 x00 x80 x3f x00 x00 x80 x3f)
(T (W xff xff xff xff xff xff xff xff)
(T (W x00 x00 x00 x00 x00 x00 x00 x00)
(L (W x00 x00 x00 x00 x60 x46 xff xff)) E)
(L (W x00 x00 x00 x00 x00 x00 x00 x00)))
(T (W xff xff xff xff xff xff xff xff)
(T (W x4f x84 x6f x8b xe8 xcb x63 xb7)
(L (W x5c xc6 xff xff x00 x01 x01 x01)) E)
(L (W x6c x00 x00 x00 x60 x00 x00 x00))))
(T (W xc4 x09 xfc xff x3c x00 x00 x00)
(T (W x45 x26 x22 x84 xe4 x9c xf2 xcb)
(T (W x00 x00 x00 x00 x00 x00 x00 x00)
(L (W x00 x00 x80 xbf x00 x00 x80 xbf)) E)
(L (W x4f x84 x6f x8b xe8 xcb x63 xb7)))
(T (W x18 x00 x00 x00 x0c x00 x00 x00)
(L (W x45 x26 x22 x84 xe4 x9c xf2 xcb))
(L (W x63 x01 x00 x00 xff xff xff xff)))))
(T (W x00 x00 x80 x3f x00 x00 x80 x3f)
(T (W x00 x00 x80 x3f x00 x00 x80 x3f)
(T (W x0a x00 x00 x00 x3c x00 x00 x00)
(T (W xff xff xff xff xff xff xff xff)
(L (W x00 x00 x00 x00 x00 x00 x00 x00)) E)
(L (W xff xff xff xff xff xff xff xff)))
(T (W xff xff xff xff xff xff xff xff)
(T (W x83 x85 xd4 x61 xf7 xdb xb2 x83)
(L (W x00 x00 x00 x00 x00 x00 x00 x00)) E)
(L (W xff xff xff xff xff xff xff xff))))
(T (W x00 x00 x00 x00 x00 x00 x00 x00)
(T (W x00 x00 x00 x00 x00 x00 x00 x00)
(T (W x00 x00 x00 x00 x00 x00 x00 x00)
(L (W xff xff xff xff xff xff xff xff)) E)
(L (W x54 x00 x00 x00 x48 x00 x00 x00)))
(T (W x00 x00 x00 x00 x00 x00 x00 x00)
(L (W xa4 x00 x00 x00 x14 x00 x00 x00))
(L (W x00 x00 x80 xbf x00 x00 x80 xbf))))))
(T (W xff xff xff xff xff xff xff xff)
(T (W x5c x96 xfb xff x00 x01 x01 x01)
(T (W x45 x26 x22 x84 xe4 x9c xf2 xcb)
(T (W x45 x26 x22 x84 xe4 x9c xf2 xcb)
(T (W x00 x00 x00 x00 x02 x00 x00 x00)
(L (W xff xff xff xff xff xff xff xff)) E)
(L (W x5c x00 x00 x00 xff xff xff xff)))
(T (W x45 x26 x22 x84 xe4 x9c xf2 xcb)
(T (W xff xff xff xff xac x00 x00 x00)
(L (W xff xff xff xff xff xff xff xff)) E)
(L (W xff xff xff xff x9c x00 x00 x00))))
(T (W xff xff xff xff xff xff xff xff)
(T (W xff xff xff xff xff xff xff xff)
(T (W x00 x00 x80 x3f x00 x00 x80 x3f)
(L (W xff xff xff xff xff xff xff xff)) E)
(L (W x00 x00 x80 xbf x00 x00 x80 xbf)))
(T (W xff xff xff xff xff xff xff xff)
(L (W x45 x26 x22 x84 xe4 x9c xf2 xcb))
(L (W x00 x00 x80 xbf x00 x00 x80 xbf)))))
(T (W x6c x00 x00 x00 x60 x00 x00 x00)
(T (W x00 x00 x00 x00 x00 x00 x00 x00)
(T (W x45 x26 x22 x84 xe4 x9c xf2 xcb)
(T (W xff xff xff xff x01 x00 x00 x00)
(L (W x00 x00 x80 xbf x00 x00 x80 xbf)) E)
(L (W x30 x35 x5f x43 x4c x45 x41 x52)))
(T (W x00 x00 x00 x00 x00 x00 x00 x00)
(T (W x00 x00 x00 x00 x00 x00 x00 x00)
(L (W x45 x26 x22 x84 xe4 x9c xf2 xcb)) E)
(L (W x30 x35 x5f x43 x4c x45 x41 x52))))
(T (W xff xff xff xff xff xff xff xff)
(T (W x00 x00 x80 x3f x00 x00 x80 x3f)
(T (W x18 x00 x00 x00 x08 x1c x00 x00)
(L (W x1c x00 x00 x00 x10 x00 x00 x00)) E)
(L (W x00 x00 x80 xbf x00 x00 x80 xbf)))
(T (W x45 x26 x22 x84 xe4 x9c xf2 xcb)
(L (W x00 x00 x00 x00 x00 x00 x00 x00))
(L (W x00 x00 x00 x00 x60 x36 xff xff)))))))
(T (W xb8 x00 x00 x00 xac x00 x00 x00)
(T (W xff xff xff xff xff xff xff xff)
(T (W xbc x00 x00 x00 xb0 x00 x00 x00)
(T (W x00 x00 x00 x00 x00 x00 x00 x00)
(T (W xb8 x00 x00 x00 xac x00 x00 x00)
(T (W x00 x00 x00 x00 x00 x00 x00 x00)
(L (W xff xff xff xff xa0 x00 x00 x00)) E)
(L (W x00 x00 x01 x01 x5c x00 x00 x00)))
(T (W xf4 xd4 xfc xff x31 x00 x00 x00)
(T (W x00 x00 x80 x3f x00 x00 x80 x3f)
(L (W xff xff xff xff xc0 x00 x00 x00)) E)
(L (W x5c xce xfe xff x00 x01 x01 x01))))
(T (W x01 x00 x00 x00 x04 x00 x00 x00)
(T (W xff xff xff xff xff xff xff xff)
(T (W x00 x00 x80 x3f x00 x00 x80 x3f)
(L (W x32 x8b xff xff x78 x00 x00 x00)) E)
(L (W x00 x00 x80 xbf x00 x00 x80 xbf)))
(T (W xb0 x00 x00 x00 x64 x00 x00 x00)
(L (W x00 x00 x80 xbf x00 x00 x80 xbf))
(L (W x00 x00 x00 x00 x00 x00 x00 x00)))))
(T (W x00 x00 x80 x3f x00 x00 x80 x3f)
(T (W x00 x00 x00 x00 x00 x00 x00 x00)
(T (W xf8 x02 x00 x00 xe4 x01 x00 x00)
(T (W x45 x26 x22 x84 xe4 x9c xf2 xcb)
(L (W x00 x00 x00 x00 x00 x00 x00 x00)) E)
(L (W x00 x00 x00 x00 x00 x00 x00 x00)))
(T (W x8f xf5 xac x6d x96 xa7 x0e xd8)
(T (W x46 x53 x59 x53 x5f x4e x53 x5f)
(L (W x00 x00 x00 x00 x00 x00 x00 x00)) E)
(L (W x00 x00 x00 x00 x00 x00 x00 x00))))
(T (W x20 x01 x00 x00 x04 x00 x00 x00)
(T (W x00 x00 x80 x3f x00 x00 x80 x3f)
(T (W x6c x00 x00 x00 x60 x00 x00 x00)
(L (W x32 xab xff xff x78 x00 x00 x00)) E)
(L (W x00 x00 x00 x00 x1c x00 x20 x00)))
(T (W x00 x00 x80 x3f x00 x00 x80 x3f)
(L (W xff xff xff xff xff xff xff xff))
(L (W x54 x00 x00 x00 x48 x00 x00 x00))))))
(T (W xff xff xff xff xff xff xff xff)
(T (W x50 x00 x00 x00 x44 x00 x00 x00)
(T (W x00 x00 x80 x3f x00 x00 x80 x3f)
(T (W x01 x00 x00 x00 x9c x00 x00 x00)
(T (W xff xff xff xff xff xff xff xff)
(L (W xbe x00 x00 x00 xff xff xff xff)) E)
(L (W x02 x00 x00 x00 x30 x01 x00 x00)))
(T (W x00 x00 x00 x00 xcc xdc xfc xff)
(T (W xff xff xff xff xff xff xff xff)
(L (W xff xff xff xff x94 x00 x00 x00)) E)
(L (W xff xff xff xff xff xff xff xff))))
(T (W x32 x8c xfe xff x00 x00 x01 x01)
(T (W x00 x00 x00 x00 x00 x00 x00 x00)
(T (W x00 x00 x80 xbf x00 x00 x80 xbf)
(L (W xff xff xff xff xff xff xff xff)) E)
(L (W x14 x00 x00 x00 x0c x00 x00 x00)))
(T (W x12 x00 x00 x00 x46 x53 x59 x53)
(L (W xff xff xff xff xff xff xff xff))
(L (W x00 x00 x80 xbf x00 x00 x80 xbf)))))
(T (W x00 x00 x80 x3f x00 x00 x80 x3f)
(T (W x00 x00 x00 x00 x00 x00 x00 x00)
(T (W x00 x00 x80 x3f x00 x00 x80 x3f)
(T (W x00 x00 x00 x00 x00 x00 x00 x00)
(L (W x00 x00 x80 xbf x00 x00 x80 xbf)) E)
(L (W x00 x00 x00 x00 x00 x00 x00 x00)))
(T (W x00 x00 x80 x3f x00 x00 x80 x3f)
(T (W x00 x00 x00 x00 x00 x00 x00 x00)
(L (W x2f x00 x00 x00 x32 x00 x00 x00)) E)
(L (W x04 x00 x00 x00 xba x07 xff xff))))
(T (W xff xff xff xff xff xff xff xff)
(T (W x00 x00 x00 x00 xcc xbc xfc xff)
(T (W x00 x00 x00 x00 x00 x00 x00 x00)
(L (W x6c x00 x00 x00 x60 x00 x00 x00)) E)
(L (W x00 x00 x80 xbf x00 x00 x80 xbf)))
(T (W x00 x00 x80 x3f x00 x00 x80 x3f)
(L (W x00 x00 x01 x01 xdd x00 x00 x00))
(L (W x6c x00 x00 x00 x60 x00 x00 x00))))))))
(T (W x00 x00 x00 x00 x00 x00 x00 x00)
(T (W x00 x00 x00 x00 x00 x00 x00 x00)
(T (W x00 x00 x00 x00 xcc x68 xfb xff)
(T (W x00 x00 x00 x00 x00 x00 x00 x00)
(T (W xf2 x5b xff xff x00 x00 x01 x01)
(T (W x00 x00 x80 x3f x00 x00 x80 x3f)
(T (W x45 x26 x22 x84 xe4 x9c xf2 xcb)
(L (W x02 x00 x00 x00 x30 x01 x00 x00)) E)
(L (W x00 x00 x80 xbf x00 x00 x80 xbf)))
(T (W x00 x00 x80 x3f x00 x00 x80 x3f)
(T (W xcc x00 x00 x00 x01 x00 x00 x00)
(L (W x00 x00 x00 x00 x00 x00 x00 x00)) E)
(L (W xa8 x01 x00 x00 xff xff xff xff))))
(T (W x01 x00 x00 x00 x3e x00 x00 x00)
(T (W x00 x00 x00 x00 x00 x00 x00 x00)
(T (W xff xff xff xff xff xff xff xff)
(L (W xa9 x01 x00 x00 xff xff xff xff)) E)
(L (W xc8 x00 x00 x00 x01 x00 x00 x00)))
(T (W x00 x00 x00 x00 x00 x00 x00 x00)
(L (W xff xff xff xff xff xff xff xff))
(L (W x54 x00 x00 x00 x48 x00 x00 x00)))))
(T (W x00 x00 x00 x00 x00 x00 x00 x00)
(T (W x64 x00 x00 x00 x9c x00 x00 x00)
(T (W x00 x00 x00 x00 x00 x00 x00 x00)
(T (W x00 x00 x00 x00 x00 x00 x00 x00)
(L (W xff xff xff xff xa0 x00 x00 x00)) E)
(L (W x6c x00 x00 x00 x60 x00 x00 x00)))
(T (W x68 x00 x00 x00 x5c x00 x00 x00)
(T (W x2f x00 x00 x00 x32 x00 x00 x00)
(L (W x2c x00 x30 x00 x34 x00 x38 x00)) E)
(L (W x00 x00 x80 xbf x00 x00 x80 xbf))))
(T (W x00 x00 x80 x3f x00 x00 x80 x3f)
(T (W xff xff xff xff xff xff xff xff)
(T (W x72 xfe xfd xff x00 x00 x01 x01)
(L (W x00 x00 x00 x00 x00 x00 x00 x00)) E)
(L (W x00 x00 x00 x00 x04 x00 x00 x00)))
(T (W xff xff xff xff xff xff xff xff)
(L (W x46 x53 x59 x53 x5f x4e x53 x5f))
(L (W xff xff xff xff xff xff xff xff))))))
(T (W x00 x00 x00 x00 x00 x00 x00 x00)
(T (W x00 x00 x00 x00 x00 x00 x00 x00)
(T (W xff xff xff xff xff xff xff xff)
(T (W x00 x00 x00 x00 x00 x00 x00 x00)
(T (W x00 x00 x80 x3f x00 x00 x80 x3f)
(L (W x6c x00 x00 x00 x60 x00 x00 x00)) E)
(L (W x00 x00 x80 xbf x00 x00 x80 xbf)))
(T (W x04 x00 x00 x00 x3a xdf xfc xff)
(T (W x45 x26 x22 x84 xe4 x9c xf2 xcb)
(L (W x00 x00 x00 x00 x00 x00 x00 x00)) E)
(L (W x4f x84 x6f x8b xe8 xcb x63 xb7))))
(T (W x32 x17 xfc xff x78 x00 x00 x00)
(T (W x54 x00 x00 x00 x48 x00 x00 x00)
(T (W x18 x00 x00 x00 x0c x00 x00 x00)
(L (W x4f x84 x6f x8b xe8 xcb x63 xb7)) E)
(L (W x00 x00 x00 x00 xc2 xa0 xfe xff)))
(T (W x7a x15 xfd xff x74 x00 x00 x00)
(L (W x00 x00 x00 x00 x00 x00 x00 x00))
(L (W xff xff xff xff xff xff xff xff)))))
(T (W x8f x01 x00 x00 xff xff xff xff)
(T (W x18 x00 x00 x00 x0c x00 x00 x00)
(T (W x00 x00 x00 x00 x00 x00 x00 x00)
(T (W x64 x00 x00 x00 x9c x00 x00 x00)
(L (W xff xff xff xff xff xff xff xff)) E)
(L (W x45 x26 x22 x84 xe4 x9c xf2 xcb)))
(T (W xff xff xff xff xff xff xff xff)
(T (W x45 x26 x22 x84 xe4 x9c xf2 xcb)
(L (W xff xff xff xff xb0 x00 x00 x00)) E)
(L (W x00 x01 x01 x01 xb2 x06 xff xff))))
(T (W x00 x00 x80 x3f x00 x00 x80 x3f)
(T (W x00 x00 x00 x00 x00 x00 x00 x00)
(T (W x4f x84 x6f x8b xe8 xcb x63 xb7)
(L (W xff xff xff xff xff xff xff xff)) E)
(L (W xff xff xff xff xbc x00 x00 x00)))
(T (W xff xff xff xff xff xff xff xff)
(L (W xc4 x00 x00 x00 x01 x00 x00 x00))
(L (W xff xff xff xff xff xff xff xff)))))))
(T (W x45 x26 x22 x84 xe4 x9c xf2 xcb)
(T (W x00 x00 x00 x00 x00 x00 x00 x00)
(T (W x00 x00 x00 x00 x00 x00 x00 x00)
(T (W xff xff xff xff xff xff xff xff)
(T (W x00 x00 x00 x00 x00 x00 x00 x00)
(T (W x5c x52 xfd xff x00 x01 x01 x01)
(L (W x00 x00 x00 x00 x00 x00 x00 x00)) E)
(L (W x00 x00 x80 x3f x00 x00 x80 x3f)))
(T (W xb0 x00 x00 x00 x64 x00 x00 x00)
(T (W x00 x00 x00 x00 x00 x00 x00 x00)
(L (W x00 x00 x00 x00 x00 x00 x00 x00)) E)
(L (W x00 x00 x00 x00 x00 x00 x00 x00))))
(T (W x68 x00 x00 x00 x5c x00 x00 x00)
(T (W x00 x00 x80 x3f x00 x00 x80 x3f)
(T (W x44 x00 x48 x00 x4c x00 x50 x00)
(L (W x3e x00 x00 x00 x0c x00 x00 x00)) E)
(L (W xff xff xff xff xff xff xff xff)))
(T (W x49 xa1 x68 x4a xeb x5f xdd x3d)
(L (W x32 x00 x00 x00 x0c x00 x00 x00))
(L (W x00 x00 x00 x00 xcc x10 xff xff)))))
(T (W xff xff xff xff xff xff xff xff)
(T (W x00 x00 x00 x00 xcc xf0 xfb xff)
(T (W x00 x00 x00 x00 x00 x00 x00 x00)
(T (W x00 x00 x00 x00 x00 x00 x00 x00)
(L (W xff xff xff xff xff xff xff xff)) E)
(L (W x00 x00 x80 xbf x00 x00 x80 xbf)))
(T (W x00 x00 x00 x00 xcc xf0 xfc xff)
(T (W xff xff xff xff xff xff xff xff)
(L (W xff xff xff xff xff xff xff xff)) E)
(L (W x40 x00 x00 x00 x00 x00 x80 xbf))))
(T (W x45 x26 x22 x84 xe4 x9c xf2 xcb)
(T (W xff xff xff xff xff xff xff xff)
(T (W x00 x00 x80 x3f x00 x00 x80 x3f)
(L (W x00 x00 x00 x00 x00 x00 x00 x00)) E)
(L (W xff xff xff xff xff xff xff xff)))
(T (W xff xff xff xff xff xff xff xff)
(L (W x6c x00 x00 x00 x60 x00 x00 x00))
(L (W xff xff xff xff xff xff xff xff))))))
(T (W x00 x00 x00 x00 x00 x00 x00 x00)
(T (W xf4 xa8 xfb xff x3c x00 x00 x00)
(T (W xff xff xff xff xff xff xff xff)
(T (W x00 x00 x00 x00 x00 x00 x00 x00)
(T (W x00 x00 x80 x3f x00 x00 x80 x3f)
(L (W x5c x62 xff xff x00 x01 x01 x01)) E)
(L (W x14 x00 x00 x00 x0c x00 x00 x00)))
(T (W x00 x00 x00 x00 x00 x00 x00 x00)
(T (W x00 x00 x80 xbf x00 x00 x80 xbf)
(L (W x00 x00 x00 x00 x00 x00 x00 x00)) E)
(L (W x00 x00 x80 xbf x00 x00 x80 xbf))))
(T (W x00 x00 x80 x3f x00 x00 x80 x3f)
(T (W x35 x00 x00 x00 x38 x00 x00 x00)
(T (W x00 x00 x80 xbf x00 x00 x80 xbf)
(L (W x00 x00 x00 x00 x00 x00 x00 x00)) E)
(L (W x00 x00 x00 x00 xa2 xa1 xfe xff)))
(T (W x03 x00 x00 x00 xd4 x00 x00 x00)
(L (W x00 x00 x00 x00 x00 x00 x00 x00))
(L (W xff xff xff xff xb4 x00 x00 x00)))))
(T (W x7a x52 xff xff xde x01 x00 x00)
(T (W x3e x00 x00 x00 x9c x00 x00 x00)
(T (W xc4 x85 xfc xff x27 x00 x00 x00)
(T (W xff xff xff xff xff xff xff xff)
(L (W xff xff xff xff xff xff xff xff)) E)
(L (W xb4 x00 x00 x00 x1e x00 x00 x00)))
(T (W x00 x00 x00 x00 x00 x00 x00 x00)
(T (W xff xff xff xff xff xff xff xff)
(L (W x2c x00 x30 x00 x34 x00 x38 x00)) E)
(L (W x00 x00 x80 xbf x00 x00 x80 xbf))))
(T (W x00 x00 x80 x3f x00 x00 x80 x3f)
(T (W x00 x00 x00 x00 x00 x00 x00 x00)
(T (W xff xff xff xff xff xff xff xff)
(L (W x00 x00 x00 x00 x12 x00 x00 x00)) E)
(L (W xff xff xff xff xff xff xff xff)))
(T (W xff xff xff xff xff xff xff xff)
(L (W x54 x00 x00 x00 x48 x00 x00 x00))
(L (W xdd x00 x00 x00 xff xff xff xff)))))))))
(T (W x00 x00 x80 x3f x00 x00 x80 x3f)
(T (W xc9 x02 x00 x00 xff xff xff xff)
(T (W x04 x00 x00 x00 x32 xed xff xff)
(T (W x40 x00 x00 x00 x0c x00 x00 x00)
(T (W x7a x18 xff xff xc0 x01 x00 x00)
(T (W xbc x00 x00 x00 xb0 x00 x00 x00)
(T (W x00 x00 x00 x00 x00 x00 x00 x00)
(T (W x00 x00 x80 x3f x00 x00 x80 x3f)
(L (W x03 x00 x00 x00 xd0 x00 x00 x00)) E)
(L (W x00 x00 x00 x00 x00 x00 x00 x00)))
(T (W x00 x00 x00 x00 x00 x00 x00 x00)
(T (W x54 x00 x00 x00 x48 x00 x00 x00)
(L (W xff xff xff xff xff xff xff xff)) E)
(L (W xff xff xff xff xc0 x00 x00 x00))))
(T (W x00 x00 x80 x3f x00 x00 x80 x3f)
(T (W x00 x00 x00 x00 x62 x84 xfc xff)
(T (W x00 x00 x80 x3f x00 x00 x80 x3f)
(L (W xff xff xff xff xc8 x00 x00 x00)) E)
(L (W x54 x00 x00 x00 x48 x00 x00 x00)))
(T (W xff xff xff xff xff xff xff xff)
(L (W x2f x00 x00 x00 x32 x00 x00 x00))
(L (W x00 x00 x00 x00 x00 x00 x00 x00)))))
(T (W xff xff xff xff xff xff xff xff)
(T (W x00 x00 x80 x3f x00 x00 x80 x3f)
(T (W xff xff xff xff xff xff xff xff)
(T (W x00 x00 x00 x00 x02 x00 x00 x00)
(L (W x00 x00 x80 xbf x00 x00 x80 xbf)) E)
(L (W x49 xa1 x68 x4a xeb x5f xdd x3d)))
(T (W x12 x00 x00 x00 x46 x53 x59 x53)
(T (W x00 x00 x80 xbf x00 x00 x80 xbf)
(L (W x00 x00 x00 x00 x00 x00 x00 x00)) E)
(L (W x00 x00 x00 x00 x00 x00 x00 x00))))
(T (W x00 x00 x00 x00 x00 x00 x00 x00)
(T (W x00 x00 x80 x3f x00 x00 x80 x3f)
(T (W x00 x00 x80 x3f x00 x00 x80 x3f)
(L (W x00 x00 x00 x00 x00 x00 x00 x00)) E)
(L (W x03 x00 x00 x00 xd0 x00 x00 x00)))
(T (W x68 x00 x00 x00 x5c x00 x00 x00)
(L (W xff xff xff xff xff xff xff xff))
(L (W x45 x26 x22 x84 xe4 x9c xf2 xcb))))))
(T (W xff xff xff xff xff xff xff xff)
(T (W xff xff xff xff xff xff xff xff)
(T (W x50 x00 x00 x00 x44 x00 x00 x00)
(T (W x40 x00 x00 x00 xff xff xff xff)
(T (W x00 x00 x00 x00 x00 x00 x00 x00)
(L (W x00 x00 x00 x00 x00 x00 x00 x00)) E)
(L (W x46 x53 x59 x53 x5f x4e x53 x5f)))
(T (W x18 x00 x00 x00 x10 x00 x00 x00)
(T (W x04 x00 x00 x00 x2a xd6 xfd xff)
(L (W xff xff xff xff xff xff xff xff)) E)
(L (W x45 x44 x00 x00 x00 x00 x00 x00))))
(T (W x00 x00 x00 x00 x00 x00 x00 x00)
(T (W x4f x84 x6f x8b xe8 xcb x63 xb7)
(T (W x00 x00 x00 x00 x00 x00 x00 x00)
(L (W x00 x00 x00 x00 x00 x00 x00 x00)) E)
(L (W xff xff xff xff xff xff xff xff)))
(T (W x00 x00 x00 x00 x00 x00 x00 x00)
(L (W xff xff xff xff xff xff xff xff))
(L (W x32 x15 xff xff x78 x00 x00 x00)))))
(T (W xff xff xff xff xff xff xff xff)
(T (W x68 x00 x00 x00 x5c x00 x00 x00)
(T (W x18 x00 x00 x00 x10 x00 x00 x00)
(T (W x00 x00 x80 x3f x00 x00 x80 x3f)
(L (W x7a x73 xff xff x74 x00 x00 x00)) E)
(L (W x49 xa1 x68 x4a xeb x5f xdd x3d)))
(T (W x5c xf8 xfc xff x00 x01 x01 x01)
(T (W x00 x00 x80 xbf x00 x00 x80 xbf)
(L (W xff xff xff xff xff xff xff xff)) E)
(L (W x00 x00 x00 x00 x00 x00 x00 x00))))
(T (W x00 x00 x00 x00 x00 x00 x00 x00)
(T (W xff xff xff xff xff xff xff xff)
(T (W xff xff xff xff xff xff xff xff)
(L (W xff xff xff xff xff xff xff xff)) E)
(L (W x6c x00 x00 x00 x60 x00 x00 x00)))
(T (W x7a x33 xfd xff x74 x00 x00 x00)
(L (W x00 x00 x80 xbf x00 x00 x80 xbf))
(L (W x03 x00 x00 x00 xc8 x00 x00 x00)))))))
(T (W xff xff xff xff x01 x00 x00 x00)
(T (W x32 xde xfd xff x00 x00 x01 x01)
(T (W xf2 x21 xff xff x00 x00 x01 x01)
(T (W x5c xd0 xfb xff x00 x01 x01 x01)
(T (W x0a xcc xeb xf8 x3c x9c xbe x88)
(T (W x00 x00 x80 x3f x00 x00 x80 x3f)
(L (W xff xff xff xff xff xff xff xff)) E)
(L (W x00 x00 x00 x00 x00 x00 x00 x00)))
(T (W x00 x00 x80 x3f x00 x00 x80 x3f)
(T (W xff xff xff xff xff xff xff xff)
(L (W xa8 x01 x00 x00 xff xff xff xff)) E)
(L (W xff xff xff xff xff xff xff xff))))
(T (W x45 x26 x22 x84 xe4 x9c xf2 xcb)
(T (W xc4 x93 xfc xff x26 x00 x00 x00)
(T (W x5c x90 xfd xff x00 x01 x01 x01)
(L (W xff xff xff xff xff xff xff xff)) E)
(L (W x00 x00 x00 x00 xcc x8e xfe xff)))
(T (W x4c x45 x41 x52 x45 x44 x00 x00)
(L (W xff xff xff xff xff xff xff xff))
(L (W x00 x00 x80 xbf x00 x00 x80 xbf)))))
(T (W x64 x00 x00 x00 x9c x00 x00 x00)
(T (W x50 x00 x00 x00 x44 x00 x00 x00)
(T (W xff xff xff xff xff xff xff xff)
(T (W xff xff xff xff xff xff xff xff)
(L (W x5c x70 xff xff x00 x01 x01 x01)) E)
(L (W x00 x00 x00 x00 x00 x00 x00 x00)))
(T (W x00 x00 x80 x3f x00 x00 x80 x3f)
(T (W x00 x00 x80 xbf x00 x00 x80 xbf)
(L (W x45 x26 x22 x84 xe4 x9c xf2 xcb)) E)
(L (W x00 x00 x00 x00 x00 x00 x00 x00))))
(T (W x00 x00 x00 x00 x00 x00 x00 x00)
(T (W x00 x00 x00 x00 xcc xae xfc xff)
(T (W xff xff xff xff xff xff xff xff)
(L (W xff xff xff xff xff xff xff xff)) E)
(L (W x6c x00 x00 x00 x60 x00 x00 x00)))
(T (W xb8 x00 x00 x00 xac x00 x00 x00)
(L (W x00 x00 x00 x00 x00 x00 x00 x00))
(L (W xb4 x00 x00 x00 x14 x00 x00 x00))))))
(T (W xcb x01 x00 x00 xff xff xff xff)
(T (W xff xff xff xff xff xff xff xff)
(T (W x00 x00 x80 x3f x00 x00 x80 x3f)
(T (W xff xff xff xff xff xff xff xff)
(T (W x00 x00 x00 x00 x00 x00 x00 x00)
(L (W x00 x00 x80 xbf x00 x00 x80 xbf)) E)
(L (W x00 x00 x00 x00 x00 x00 x00 x00)))
(T (W xff xff xff xff xff xff xff xff)
(T (W x46 x53 x59 x53 x5f x4e x53 x5f)
(L (W xbe x00 x00 x00 xff xff xff xff)) E)
(L (W x00 x00 x00 x00 x00 x00 x00 x00))))
(T (W x00 x00 x00 x00 x00 x00 x00 x00)
(T (W x45 x26 x22 x84 xe4 x9c xf2 xcb)
(T (W xc9 x49 x69 x12 x83 x6e x37 xc6)
(L (W x00 x00 x00 x00 xc2 xa6 xff xff)) E)
(L (W xff xff xff xff xff xff xff xff)))
(T (W x00 x00 x80 x3f x00 x00 x80 x3f)
(L (W x00 x00 x01 x01 xbe x00 x00 x00))
(L (W xc8 x1e xff xff xb2 x2c xff xff)))))
(T (W x64 x00 x00 x00 x9c x00 x00 x00)
(T (W x00 x00 x80 x3f x00 x00 x80 x3f)
(T (W xff xff xff xff xff xff xff xff)
(T (W x00 x00 x80 x3f x00 x00 x80 x3f)
(L (W x5c x80 xff xff x00 x01 x01 x01)) E)
(L (W x00 x00 x80 xbf x00 x00 x80 xbf)))
(T (W x18 x00 x00 x00 x10 x00 x00 x00)
(T (W x00 x00 x80 xbf x00 x00 x80 xbf)
(L (W x49 xa1 x68 x4a xeb x5f xdd x3d)) E)
(L (W x00 x00 x00 x00 x00 x00 x00 x00))))
(T (W x00 x00 x00 x00 x00 x00 x00 x00)
(T (W xff xff xff xff xff xff xff xff)
(T (W x32 xbd xfd xff x78 x00 x00 x00)
(L (W xff xff xff xff xbc x00 x00 x00)) E)
(L (W x5c xc0 xfe xff x00 x01 x01 x01)))
(T (W x5c x40 xfd xff x00 x01 x01 x01)
(L (W x00 x00 x00 x00 x00 x00 x00 x00))
(L (W xff xff xff xff xc0 x00 x00 x00))))))))
(T (W x00 x00 x80 x3f x00 x00 x80 x3f)
(T (W x45 x26 x22 x84 xe4 x9c xf2 xcb)
(T (W x45 x26 x22 x84 xe4 x9c xf2 xcb)
(T (W x00 x00 x80 x3f x00 x00 x80 x3f)
(T (W x00 x00 x00 x00 x00 x00 x00 x00)
(T (W x50 x00 x00 x00 x44 x00 x00 x00)
(T (W xff xff xff xff xff xff xff xff)
(L (W x00 x00 x00 x00 x00 x00 x00 x00)) E)
(L (W x03 x00 x00 x00 xd8 x00 x00 x00)))
(T (W xff xff xff xff xff xff xff xff)
(T (W x6c x76 x32 x00 x22 x00 x00 x00)
(L (W x6c x00 x00 x00 x60 x00 x00 x00)) E)
(L (W x00 x00 x00 x00 x00 x00 x00 x00))))
(T (W xff xff xff xff xff xff xff xff)
(T (W x54 x00 x00 x00 x48 x00 x00 x00)
(T (W x00 x00 x00 x00 x00 x00 x00 x00)
(L (W x00 x00 x00 x00 x00 x00 x00 x00)) E)
(L (W xac x00 xb3 x28 xbf xd7 x60 x6a)))
(T (W x50 x00 x00 x00 x44 x00 x00 x00)
(L (W x00 x00 x00 x00 x00 x00 x00 x00))
(L (W xff xff xff xff xff xff xff xff)))))
(T (W x00 x00 x80 x3f x00 x00 x80 x3f)
(T (W x00 x00 x00 x00 x02 x00 x00 x00)
(T (W x00 x00 x80 x3f x00 x00 x80 x3f)
(T (W x00 x00 x80 x3f x00 x00 x80 x3f)
(L (W xff xff xff xff xff xff xff xff)) E)
(L (W xff xff xff xff xff xff xff xff)))
(T (W xff xff xff xff xff xff xff xff)
(T (W xff xff xff xff xff xff xff xff)
(L (W xff xff xff xff xff xff xff xff)) E)
(L (W xff xff xff xff xff xff xff xff))))
(T (W xff xff xff xff x04 x00 x00 x00)
(T (W x29 x00 x00 x00 x0c x00 x00 x00)
(T (W x45 x26 x22 x84 xe4 x9c xf2 xcb)
(L (W x01 x00 x00 x00 xff xff xff xff)) E)
(L (W x00 x00 x80 xbf x00 x00 x80 xbf)))
(T (W x12 x00 x00 x00 x46 x53 x59 x53)
(L (W x5c x00 x00 x00 x50 x00 x00 x00))
(L (W x00 x00 x00 x00 x00 x00 x00 x00))))))
(T (W x6c x00 x00 x00 x60 x00 x00 x00)
(T (W x45 x26 x22 x84 xe4 x9c xf2 xcb)
(T (W xf4 xe2 xfb xff x22 x00 x00 x00)
(T (W x7a x57 xfc xff x74 x00 x00 x00)
(T (W x45 x26 x22 x84 xe4 x9c xf2 xcb)
(L (W xff xff xff xff xc0 x00 x00 x00)) E)
(L (W x03 x00 x00 x00 xd0 x00 x00 x00)))
(T (W x00 x00 x00 x00 x00 x00 x00 x00)
(T (W x00 x00 x80 x3f x00 x00 x80 x3f)
(L (W x00 x00 x80 xbf x00 x00 x80 xbf)) E)
(L (W x54 x00 x00 x00 x48 x00 x00 x00))))
(T (W xff xff xff xff xff xff xff xff)
(T (W xff xff xff xff xff xff xff xff)
(T (W x00 x00 x00 x00 x01 x00 x00 x00)
(L (W x6c x00 x00 x00 x60 x00 x00 x00)) E)
(L (W x00 x00 x00 x00 x00 x00 x00 x00)))
(T (W xff xff xff xff xff xff xff xff)
(L (W x5c x1c xfe xff x00 x01 x01 x01))
(L (W xc4 x1f xff xff x1d x00 x00 x00)))))
(T (W x00 x00 x00 x00 x00 x00 x00 x00)
(T (W xff xff xff xff xff xff xff xff)
(T (W x00 x00 x00 x00 x00 x00 x00 x00)
(T (W xff xff xff xff xff xff xff xff)
(L (W x00 x00 x00 x00 x00 x00 x00 x00)) E)
(L (W xff xff xff xff xff xff xff xff)))
(T (W xf4 x02 xfd xff x10 x00 x00 x00)
(T (W xff xff xff xff xff xff xff xff)
(L (W x00 x00 x00 x00 x00 x00 x00 x00)) E)
(L (W xff xff xff xff xb0 x00 x00 x00))))
(T (W x68 x00 x00 x00 x5c x00 x00 x00)
(T (W x45 x26 x22 x84 xe4 x9c xf2 xcb)
(T (W xff xff xff xff xff xff xff xff)
(L (W x00 x00 x00 x00 x00 x00 x00 x00)) E)
(L (W x00 x00 x00 x00 x12 x00 x00 x00)))
(T (W x00 x00 x00 x00 x00 x00 x00 x00)
(L (W xff xff xff xff xff xff xff xff))
(L (W x00 x00 x00 x00 x00 x00 x00 x00)))))))
(T (W x00 x00 x80 x3f x00 x00 x80 x3f)
(T (W x50 x00 x00 x00 x44 x00 x00 x00)
(T (W x00 x00 x00 x00 x00 x00 x00 x00)
(T (W x00 x00 x00 x00 x00 x00 x00 x00)
(T (W x68 x00 x00 x00 x5c x00 x00 x00)
(T (W xff xff xff xff xff xff xff xff)
(L (W x5c x54 xff xff x00 x01 x01 x01)) E)
(L (W xff xff xff xff xff xff xff xff)))
(T (W x88 xff x9c x14 x8e x86 x79 xf0)
(T (W x00 x00 x80 xbf x00 x00 x80 xbf)
(L (W xff xff xff xff xa8 x00 x00 x00)) E)
(L (W x00 x00 x80 xbf x00 x00 x80 xbf))))
(T (W xff xff xff xff xff xff xff xff)
(T (W x45 x26 x22 x84 xe4 x9c xf2 xcb)
(T (W x45 x26 x22 x84 xe4 x9c xf2 xcb)
(L (W x45 x26 x22 x84 xe4 x9c xf2 xcb)) E)
(L (W x00 x00 x00 x00 x00 x00 x00 x00)))
(T (W x2d x00 x00 x00 x30 x00 x00 x00)
(L (W x45 x26 x22 x84 xe4 x9c xf2 xcb))
(L (W xff xff xff xff xff xff xff xff)))))
(T (W x00 x00 x00 x00 x00 x00 x00 x00)
(T (W xff xff xff xff xff xff xff xff)
(T (W x00 x00 x00 x00 xcc x72 xfc xff)
(T (W x00 x00 x80 x3f x00 x00 x80 x3f)
(L (W xc4 x77 xff xff x2d x00 x00 x00)) E)
(L (W xff xff xff xff xbc x00 x00 x00)))
(T (W xe2 x46 xfd xff x9d x01 x00 x00)
(T (W x00 x00 x00 x00 xc2 xfa xfd xff)
(L (W x00 x00 x00 x00 x00 x00 x00 x00)) E)
(L (W xff xff xff xff xff xff xff xff))))
(T (W x45 x26 x22 x84 xe4 x9c xf2 xcb)
(T (W x00 x00 x00 x00 x00 x00 x00 x00)
(T (W x32 x00 x00 x00 x35 x00 x00 x00)
(L (W x00 x00 x00 x00 x00 x00 x00 x00)) E)
(L (W x00 x00 x00 x00 x00 x00 x00 x00)))
(T (W x00 x00 x00 x00 x00 x00 x00 x00)
(L (W xff xff xff xff xbc x00 x00 x00))
(L (W x00 x00 x00 x00 x00 x00 x00 x00))))))
(T (W x00 x00 x80 x3f x00 x00 x80 x3f)
(T (W x00 x00 x80 x3f x00 x00 x80 x3f)
(T (W x00 x00 x00 x00 x00 x00 x00 x00)
(T (W x00 x00 x80 x3f x00 x00 x80 x3f)
(T (W x5c x64 xfd xff x00 x01 x01 x01)
(L (W xff xff xff xff xff xff xff xff)) E)
(L (W xff xff xff xff xff xff xff xff)))
(T (W x68 x00 x00 x00 x5c x00 x00 x00)
(T (W xff xff xff xff xff xff xff xff)
(L (W x45 x26 x22 x84 xe4 x9c xf2 xcb)) E)
(L (W x18 x00 x00 x00 x10 x00 x00 x00))))
(T (W xb8 x00 x00 x00 xac x00 x00 x00)
(T (W xff xff xff xff xff xff xff xff)
(T (W xff xff xff xff xff xff xff xff)
(L (W x45 x26 x22 x84 xe4 x9c xf2 xcb)) E)
(L (W x00 x00 x00 x00 x00 x00 x00 x00)))
(T (W x9c x01 x00 x00 xff xff xff xff)
(L (W xc8 x22 xfe xff xb2 x30 xfe xff))
(L (W x46 x53 x59 x53 x5f x4e x53 x5f)))))
(T (W x00 x00 x00 x00 x00 x00 x00 x00)
(T (W xff xff xff xff xff xff xff xff)
(T (W x00 x00 x80 x3f x00 x00 x80 x3f)
(T (W x11 xd2 x36 x97 x85 x2d x63 x5f)
(L (W x00 x00 x00 x00 x00 x00 x00 x00)) E)
(L (W xff xff xff xff xff xff xff xff)))
(T (W x00 x00 x00 x00 x00 x00 x00 x00)
(T (W x7e x86 xfc x22 xd2 x09 x94 x6c)
(L (W x64 x00 x68 x00 x62 x00 x00 x00)) E)
(L (W xff xff xff xff xc8 x00 x00 x00))))
(T (W x00 x00 x80 x3f x00 x00 x80 x3f)
(T (W x00 x00 x80 x3f x00 x00 x80 x3f)
(T (W x00 x00 x00 x00 x00 x00 x00 x00)
(L (W x00 x00 x80 xbf x00 x00 x80 xbf)) E)
(L (W x00 x00 x00 x00 x00 x00 x00 x00)))
(T (W x00 x00 x00 x00 x02 x00 x00 x00)
(L (W xff xff xff xff x9c x00 x00 x00))
(L (W x00 x00 x00 x00 x00 x00 x00 x00))))))))))))))
(T (W x50 xa6 x04 x00 x0c x9f x04 x00)
(T (W xf0 x70 x04 x00 xdc x66 x04 x00)
(T (W x10 x11 x04 x00 xb4 x0e x04 x00)
(T (W x08 x57 x03 x00 x5c x52 x03 x00)
(T (W x60 x50 x02 x00 x74 x4e x02 x00)
(T (W x90 x06 x01 x00 x5c x05 x01 x00)
(T (W x00 x00 x00 x00 x00 x00 x00 x00)
(T (W x00 x00 x00 x00 x00 x00 x00 x00)
(T (W x45 x26 x22 x84 xe4 x9c xf2 xcb)
(T (W x00 x00 x00 x00 x00 x00 x00 x00)
(T (W xff xff xff xff xff xff xff xff)
(T (W x45 x26 x22 x84 xe4 x9c xf2 xcb)
(T (W xff xff xff xff xff xff xff xff)
(L (W x00 x00 x00 x00 x00 x00 x00 x00)) E)
(L (W x50 x00 x00 x00 x44 x00 x00 x00)))
(T (W x45 x26 x22 x84 xe4 x9c xf2 xcb)
(T (W xff xff xff xff xff xff xff xff)
(L (W x00 x00 x00 x00 x00 x00 x00 x00)) E)
(L (W xe4 x06 x00 x00 xc8 x05 x00 x00))))
(T (W x00 x00 x00 x00 xfc x02 xfc xff)
(T (W x00 x00 x00 x00 x00 x00 x00 x00)
(T (W xff xff xff xff xff xff xff xff)
(L (W xff xff xff xff xff xff xff xff)) E)
(L (W xff xff xff xff xbc x00 x00 x00)))
(T (W x4c x45 x41 x52 x45 x44 x00 x00)
(T (W xff xff xff xff xff xff xff xff)
(L (W xff xff xff xff xff xff xff xff)) E)
(L (W x00 x00 x00 x00 xfc x02 xff xff)))))
(T (W x00 x00 x00 x00 x00 x00 x00 x00)
(T (W xff xff xff xff xff xff xff xff)
(T (W x00 x00 x00 x00 x00 x00 x00 x00)
(T (W x00 x00 x80 x3f x00 x00 x80 x3f)
(L (W x18 x00 x00 x00 x0c x00 x00 x00)) E)
(L (W xf8 x62 xfe xff xe2 x70 xfe xff)))
(T (W x00 x00 x80 x3f x00 x00 x80 x3f)
(T (W x8c xe4 xfd xff x00 x01 x01 x01)
(L (W x00 x00 x80 xbf x00 x00 x80 xbf)) E)
(L (W x00 x00 x80 xbf x00 x00 x80 xbf))))
(T (W x68 x00 x00 x00 x5c x00 x00 x00)
(T (W xff xff xff xff xbc x00 x00 x00)
(T (W x1c xfb xff xff x01 x01 x01 x01)
(L (W x00 x00 x80 xbf x00 x00 x80 xbf)) E)
(L (W x00 x00 x00 x00 x00 x00 x00 x00)))
(T (W xff xff xff xff xff xff xff xff)
(L (W x00 x00 x80 xbf x00 x00 x80 xbf))
(L (W x64 x01 x00 x00 xff xff xff xff))))))
(T (W x00 x00 x80 x3f x00 x00 x80 x3f)
(T (W x00 x00 x00 x00 x00 x00 x00 x00)
(T (W xaa x64 xff xff xdd x01 x00 x00)
(T (W x00 x00 x80 x3f x00 x00 x80 x3f)
(T (W x18 x00 x00 x00 x0c x00 x00 x00)
(L (W x00 x00 x80 xbf x00 x00 x80 xbf)) E)
(L (W xff xff xff xff x90 x00 x00 x00)))
(T (W xff xff xff xff xff xff xff xff)
(T (W x00 x00 x00 x00 x00 x00 x00 x00)
(L (W x54 x00 x00 x00 x48 x00 x00 x00)) E)
(L (W x45 x26 x22 x84 xe4 x9c xf2 xcb))))
(T (W x3e x00 x00 x00 x9c x00 x00 x00)
(T (W x00 x00 x80 x3f x00 x00 x80 x3f)
(T (W x00 x00 x80 x3f x00 x00 x80 x3f)
(L (W x00 x00 x00 x00 x00 x00 x00 x00)) E)
(L (W x00 x00 x00 x00 x00 x00 x00 x00)))
(T (W x68 x00 x00 x00 x5c x00 x00 x00)
(L (W x00 x00 x00 x00 x00 x00 x00 x00))
(L (W xff xff xff xff xff xff xff xff)))))
(T (W x0e x00 x00 x00 x0c x00 x00 x00)
(T (W xff xff xff xff xff xff xff xff)
(T (W x00 x00 x80 x3f x00 x00 x80 x3f)
(T (W x00 x00 x00 x00 x00 x00 x00 x00)
(L (W x00 x00 x01 x01 x5d x00 x00 x00)) E)
(L (W xaa x6f xfe xff x74 x00 x00 x00)))
(T (W xff xff xff xff xff xff xff xff)
(T (W xff xff xff xff xff xff xff xff)
(L (W xff xff xff xff xff xff xff xff)) E)
(L (W x45 x26 x22 x84 xe4 x9c xf2 xcb))))
(T (W x00 x00 x80 x3f x00 x00 x80 x3f)
(T (W x30 x35 x5f x43 x4c x45 x41 x52)
(T (W x6c x00 x00 x00 x60 x00 x00 x00)
(L (W x45 x44 x00 x00 x00 x00 x00 x00)) E)
(L (W xff xff xff xff xff xff xff xff)))
(T (W x18 x01 x00 x00 x04 x00 x00 x00)
(L (W xaa x2f xfe xff x74 x00 x00 x00))
(L (W x00 x00 x00 x00 x00 x00 x00 x00)))))))
(T (W x00 x00 x00 x00 x00 x00 x00 x00)
(T (W x00 x00 x00 x00 x00 x00 x00 x00)
(T (W x00 x00 x00 x00 x00 x00 x00 x00)
(T (W x69 x01 x00 x00 xff xff xff xff)
(T (W x00 x00 x80 x3f x00 x00 x80 x3f)
(T (W x64 x00 x00 x00 x9c x00 x00 x00)
(L (W x00 x00 x00 x00 x00 x00 x00 x00)) E)
(L (W x8c x4c xfe xff x00 x01 x01 x01)))
(T (W x00 x00 x00 x00 xfc xca xfc xff)
(T (W x00 x00 x01 x01 x19 x00 x00 x00)
(L (W x00 x00 x80 xbf x00 x00 x80 xbf)) E)
(L (W x00 x00 x00 x00 x00 x00 x00 x00))))
(T (W x18 x00 x00 x00 x0c x00 x00 x00)
(T (W x00 x00 x80 x3f x00 x00 x80 x3f)
(T (W xff xff xff xff xff xff xff xff)
(L (W x00 x00 x00 x00 x00 x00 x00 x00)) E)
(L (W xff xff xff xff xff xff xff xff)))
(T (W x00 x00 x80 x3f x00 x00 x80 x3f)
(L (W x30 x35 x5f x43 x4c x45 x41 x52))
(L (W xcc x00 x00 x00 x01 x00 x00 x00)))))
(T (W x00 x00 x00 x00 x00 x00 x00 x00)
(T (W xff xff xff xff xff xff xff xff)
(T (W x00 x00 x00 x00 x00 x00 x00 x00)
(T (W x00 x00 x00 x00 x00 x00 x00 x00)
(L (W xff xff xff xff xc4 x00 x00 x00)) E)
(L (W x03 x00 x00 x00 xd0 x00 x00 x00)))
(T (W x8c xec xfc xff x00 x01 x01 x01)
(T (W xff xff xff xff xc0 x00 x00 x00)
(L (W xff xff xff xff xbc x00 x00 x00)) E)
(L (W x18 x00 x00 x00 x0c x00 x00 x00))))
(T (W x62 x29 xfc xff x78 x00 x00 x00)
(T (W xff xff xff xff xff xff xff xff)
(T (W x00 x00 x00 x00 x00 x00 x00 x00)
(L (W xff xff xff xff xff xff xff xff)) E)
(L (W x00 x00 x00 x00 x00 x00 x00 x00)))
(T (W x4a x7e xfe xff x9c x01 x00 x00)
(L (W x00 x00 x80 xbf x00 x00 x80 xbf))
(L (W x94 x04 x00 x00 x80 x03 x00 x00))))))
(T (W x00 x00 x80 x3f x00 x00 x80 x3f)
(T (W x00 x00 x00 x00 x00 x00 x00 x00)
(T (W x22 x6e xff xff x00 x00 x01 x01)
(T (W x00 x00 x80 x3f x00 x00 x80 x3f)
(T (W x00 x00 x80 x3f x00 x00 x80 x3f)
(L (W x62 x59 xff xff x78 x00 x00 x00)) E)
(L (W x62 x59 xfe xff x78 x00 x00 x00)))
(T (W x00 x00 x00 x00 x00 x00 x00 x00)
(T (W x45 x26 x22 x84 xe4 x9c xf2 xcb)
(L (W x00 x00 x00 x00 x00 x00 x00 x00)) E)
(L (W x00 x00 x80 xbf x00 x00 x80 xbf))))
(T (W x01 x00 x00 x00 x3e x00 x00 x00)
(T (W x31 x00 x00 x00 x34 x00 x00 x00)
(T (W xff xff xff xff xff xff xff xff)
(L (W x00 x00 x80 xbf x00 x00 x80 xbf)) E)
(L (W x00 x00 x00 x00 x00 x00 x00 x00)))
(T (W x00 x00 x00 x00 xfc x1a xfd xff)
(L (W x00 x00 x80 xbf x00 x00 x80 xbf))
(L (W x04 x00 x00 x00 x72 x1d xff xff)))))
(T (W x62 x2a xfe xff x00 x00 x01 x01)
(T (W x64 x00 x00 x00 x9c x00 x00 x00)
(T (W x45 x44 x00 x00 x00 x00 x00 x00)
(T (W xff xff xff xff xff xff xff xff)
(L (W xff xff xff xff xff xff xff xff)) E)
(L (W xff xff xff xff xff xff xff xff)))
(T (W xa2 x50 xfd xff x00 x00 x01 x01)
(T (W x18 x00 x00 x00 x10 x00 x00 x00)
(L (W x00 x00 x00 x00 x00 x00 x00 x00)) E)
(L (W x54 x00 x00 x00 x48 x00 x00 x00))))
(T (W x00 x00 x80 x3f x00 x00 x80 x3f)
(T (W x00 x00 x00 x00 x00 x00 x00 x00)
(T (W xff xff xff xff xff xff xff xff)
(L (W x08 xf3 xaf x28 xbf x58 x5d x6a)) E)
(L (W x00 x00 x00 x00 x92 xb8 xfe xff)))
(T (W xff xff xff xff xff xff xff xff)
(L (W xbc x00 x00 x00 x02 x00 x00 x00))
(L (W xe4 x06 x00 x00 xc8 x05 x00 x00))))))))
(T (W xff xff xff xff xff xff xff xff)
(T (W xff xff xff xff xff xff xff xff)
(T (W xff xff xff xff xff xff xff xff)
(T (W xff xff xff xff xff xff xff xff)
(T (W x6c x00 x00 x00 x60 x00 x00 x00)
(T (W xff xff xff xff xff xff xff xff)
(T (W x00 x00 x00 x00 x00 x00 x00 x00)
(L (W x62 x45 xff xff x78 x00 x00 x00)) E)
(L (W x00 x00 x00 x00 x00 x00 x00 x00)))
(T (W x04 x00 x00 x00 x6a xcd xfc xff)
(T (W x00 x00 x80 x3f x00 x00 x80 x3f)
(L (W xff xff xff xff xb0 x00 x00 x00)) E)
(L (W x62 xc5 xfe xff x78 x00 x00 x00))))
(T (W x00 x00 x00 x00 x00 x00 x00 x00)
(T (W xff xff xff xff xff xff xff xff)
(T (W x00 x00 x00 x00 x00 x00 x00 x00)
(L (W x00 x00 x00 x00 xfc x86 xff xff)) E)
(L (W x00 x00 x80 xbf x00 x00 x80 xbf)))
(T (W xc0 x00 x00 x00 x01 x00 x00 x00)
(L (W x6c x00 x00 x00 x60 x00 x00 x00))
(L (W x00 x00 x00 x00 x00 x00 x00 x00)))))
(T (W x8c xa8 xfb xff x00 x01 x01 x01)
(T (W x45 x26 x22 x84 xe4 x9c xf2 xcb)
(T (W x45 x26 x22 x84 xe4 x9c xf2 xcb)
(T (W xff xff xff xff xff xff xff xff)
(L (W x45 x26 x22 x84 xe4 x9c xf2 xcb)) E)
(L (W x00 x00 x00 x00 x12 x00 x00 x00)))
(T (W x4a x3a xfe xff x9c x01 x00 x00)
(T (W x45 x26 x22 x84 xe4 x9c xf2 xcb)
(L (W x00 x00 x00 x00 x00 x00 x00 x00)) E)
(L (W x45 x44 x00 x00 x00 x00 x00 x00))))
(T (W xff xff xff xff xff xff xff xff)
(T (W x49 xa1 x68 x4a xeb x5f xdd x3d)
(T (W x45 x26 x22 x84 xe4 x9c xf2 xcb)
(L (W xff xff xff xff xff xff xff xff)) E)
(L (W x62 xa5 xfe xff x78 x00 x00 x00)))
(T (W x00 x00 x80 x3f x00 x00 x80 x3f)
(L (W xb0 x00 x00 x00 x64 x00 x00 x00))
(L (W x00 x00 x80 xbf x00 x00 x80 xbf))))))
(T (W xff xff xff xff xff xff xff xff)
(T (W x64 x00 x00 x00 x9c x00 x00 x00)
(T (W x00 x00 x80 x3f x00 x00 x80 x3f)
(T (W xff xff xff xff xff xff xff xff)
(T (W x41 x00 x00 x00 x10 x00 x00 x00)
(L (W x06 x00 x00 x00 xc8 x05 x00 x00)) E)
(L (W x69 x01 x00 x00 xff xff xff xff)))
(T (W x00 x00 x80 x3f x00 x00 x80 x3f)
(T (W xff xff xff xff xff xff xff xff)
(L (W xff xff xff xff xff xff xff xff)) E)
(L (W xff xff xff xff xff xff xff xff))))
(T (W xf4 x1b xfc xff x3c x00 x00 x00)
(T (W x46 x53 x59 x53 x5f x4e x53 x5f)
(T (W x00 x00 x00 x00 x00 x00 x00 x00)
(L (W xff xff xff xff xff xff xff xff)) E)
(L (W x45 x26 x22 x84 xe4 x9c xf2 xcb)))
(T (W x1e xdb x03 x4d x64 x31 xc6 xac)
(L (W xff xff xff xff xff xff xff xff))
(L (W x00 x00 x80 xbf x00 x00 x80 xbf)))))
(T (W x40 x00 x00 x00 x9c x00 x00 x00)
(T (W x00 x00 x80 x3f x00 x00 x80 x3f)
(T (W x00 x00 x80 x3f x00 x00 x80 x3f)
(T (W x45 x26 x22 x84 xe4 x9c xf2 xcb)
(L (W x00 x00 x80 xbf x00 x00 x80 xbf)) E)
(L (W x00 x00 x00 x00 x12 x00 x00 x00)))
(T (W x00 x00 x80 x3f x00 x00 x80 x3f)
(T (W x00 x00 x00 x00 x00 x00 x00 x00)
(L (W x44 x00 x00 x00 x10 x00 x00 x00)) E)
(L (W x45 x44 x00 x00 x00 x00 x00 x00))))
(T (W x00 x00 x00 x00 x00 x00 x00 x00)
(T (W xff xff xff xff xb0 x00 x00 x00)
(T (W x32 x00 x00 x00 x35 x00 x00 x00)
(L (W x45 x26 x22 x84 xe4 x9c xf2 xcb)) E)
(L (W x00 x00 x80 xbf x00 x00 x80 xbf)))
(T (W x00 x00 x80 x3f x00 x00 x80 x3f)
(L (W x00 x00 x00 x00 x00 x00 x00 x00))
(L (W x00 x01 x01 x01 xe2 x44 xff xff)))))))
(T (W xff xff xff xff xff xff xff xff)
(T (W xff xff xff xff xff xff xff xff)
(T (W xff xff xff xff xff xff xff xff)
(T (W x00 x00 x80 x3f x00 x00 x80 x3f)
(T (W xff xff xff xff xff xff xff xff)
(T (W x00 x00 x00 x00 x00 x00 x00 x00)
(L (W xff xff xff xff xc4 x00 x00 x00)) E)
(L (W x00 x00 x00 x00 x5a x4e xfe xff)))
(T (W x00 x00 x00 x00 x00 x00 x00 x00)
(T (W x18 x00 x00 x00 x10 x00 x00 x00)
(L (W xff xff xff xff xff xff xff xff)) E)
(L (W xff xff xff xff xb0 x00 x00 x00))))
(T (W x00 x00 x00 x00 x00 x00 x00 x00)
(T (W x00 x00 x01 x01 x6a x01 x00 x00)
(T (W x00 x00 x80 x3f x00 x00 x80 x3f)
(L (W x45 x26 x22 x84 xe4 x9c xf2 xcb)) E)
(L (W x00 x00 x80 xbf x00 x00 x80 xbf)))
(T (W xff xff xff xff xff xff xff xff)
(L (W x45 x26 x22 x84 xe4 x9c xf2 xcb))
(L (W x00 x00 x00 x00 x00 x00 x00 x00)))))
(T (W x50 x00 x00 x00 x44 x00 x00 x00)
(T (W x00 x00 x80 x3f x00 x00 x80 x3f)
(T (W xc0 x00 x00 x00 xb4 x00 x00 x00)
(T (W x64 x00 x00 x00 x9c x00 x00 x00)
(L (W x00 x00 x80 xbf x00 x00 x80 xbf)) E)
(L (W x00 x00 x00 x00 x00 x00 x00 x00)))
(T (W x00 x00 x00 x00 x00 x00 x00 x00)
(T (W x00 x00 x00 x00 x00 x00 x00 x00)
(L (W x00 x00 x80 xbf x00 x00 x80 xbf)) E)
(L (W x00 x00 x00 x00 x00 x00 x00 x00))))
(T (W x62 x9e xfe xff x00 x00 x01 x01)
(T (W x00 x00 x80 x3f x00 x00 x80 x3f)
(T (W xff xff xff xff xff xff xff xff)
(L (W x18 x00 x00 x00 x10 x00 x00 x00)) E)
(L (W x00 x00 x80 xbf x00 x00 x80 xbf)))
(T (W x68 x00 x00 x00 x5c x00 x00 x00)
(L (W xb5 x8b xc4 x28 xbf x5c x75 x6a))
(L (W x6c x00 x00 x00 x60 x00 x00 x00))))))
(T (W xff xff xff xff xff xff xff xff)
(T (W xbc x00 x00 x00 xb0 x00 x00 x00)
(T (W x00 x00 x00 x00 x00 x00 x00 x00)
(T (W xb8 x00 x00 x00 xac x00 x00 x00)
(T (W xff xff xff xff xff xff xff xff)
(L (W x00 x00 x00 x00 x00 x00 x00 x00)) E)
(L (W x00 x00 x00 x00 x00 x00 x00 x00)))
(T (W xff xff xff xff xff xff xff xff)
(T (W x73 x02 x00 x00 xff xff xff xff)
(L (W xff xff xff xff xff xff xff xff)) E)
(L (W x00 x00 x00 x00 xf2 xe6 xfe xff))))
(T (W x01 x00 x00 x00 x04 x00 x00 x00)
(T (W x00 x00 x00 x00 x00 x00 x00 x00)
(T (W xff xff xff xff xff xff xff xff)
(L (W xff xff xff xff xff xff xff xff)) E)
(L (W x14 x00 x00 x00 x0c x00 x00 x00)))
(T (W x00 x00 x00 x00 x00 x00 x00 x00)
(L (W xff xff xff xff xff xff xff xff))
(L (W x00 x00 x80 xbf x00 x00 x80 xbf)))))
(T (W x50 x00 x00 x00 x44 x00 x00 x00)
(T (W x00 x00 x00 x00 x00 x00 x00 x00)
(T (W x18 x00 x00 x00 x0c x00 x00 x00)
(T (W x00 x00 x00 x00 x00 x00 x00 x00)
(L (W x00 x00 x80 xbf x00 x00 x80 xbf)) E)
(L (W x00 x00 x00 x00 x00 x00 x00 x00)))
(T (W x00 x00 x80 x3f x00 x00 x80 x3f)
(T (W x00 x00 x00 x00 x00 x00 x00 x00)
(L (W x00 x00 x00 x00 x12 x00 x00 x00)) E)
(L (W xff xff xff xff xff xff xff xff))))
(T (W x20 x01 x00 x00 x04 x00 x00 x00)
(T (W xff xff xff xff xbc x00 x00 x00)
(T (W x00 x00 x80 x3f x00 x00 x80 x3f)
(L (W xaa xbb xff xff x74 x00 x00 x00)) E)
(L (W x00 x00 x80 xbf x00 x00 x80 xbf)))
(T (W x00 x00 x80 x3f x00 x00 x80 x3f)
(L (W x00 x00 x00 x00 x00 x00 x00 x00))
(L (W x62 x3d xff xff x78 x00 x00 x00)))))))))
(T (W xff xff xff xff x01 x00 x00 x00)
(T (W x00 x00 x80 x3f x00 x00 x80 x3f)
(T (W xaa x51 xfb xff x74 x00 x00 x00)
(T (W xaa x61 xfb xff x74 x00 x00 x00)
(T (W x50 x00 x00 x00 x44 x00 x00 x00)
(T (W x00 x00 x00 x00 x00 x00 x00 x00)
(T (W x45 x26 x22 x84 xe4 x9c xf2 xcb)
(T (W x2f x00 x00 x00 x10 x00 x00 x00)
(L (W x00 x00 x80 xbf x00 x00 x80 xbf)) E)
(L (W xff xff xff xff xff xff xff xff)))
(T (W x18 x00 x00 x00 x10 x00 x00 x00)
(T (W x46 x53 x59 x53 x5f x4e x53 x5f)
(L (W x00 x00 x80 xbf x00 x00 x80 xbf)) E)
(L (W x00 x00 x80 xbf x00 x00 x80 xbf))))
(T (W xff xff xff xff xff xff xff xff)
(T (W x00 x00 x80 x3f x00 x00 x80 x3f)
(T (W x24 x8d xfd xff x33 x00 x00 x00)
(L (W x00 x00 x00 x00 x00 x00 x00 x00)) E)
(L (W x46 x53 x59 x53 x5f x4e x53 x5f)))
(T (W x00 x00 x80 x3f x00 x00 x80 x3f)
(L (W x00 x00 x00 x00 x00 x00 x00 x00))
(L (W xff xff xff xff xff xff xff xff)))))
(T (W x00 x00 x00 x00 x00 x00 x00 x00)
(T (W x00 x00 x00 x00 x00 x00 x00 x00)
(T (W x68 x00 x00 x00 x5c x00 x00 x00)
(T (W x18 x00 x00 x00 x0c x00 x00 x00)
(L (W x54 x02 x00 x00 x38 x01 x00 x00)) E)
(L (W xff xff xff xff xff xff xff xff)))
(T (W xff xff xff xff xff xff xff xff)
(T (W x04 x00 x00 x00 x5a xe4 xfd xff)
(L (W xff xff xff xff xff xff xff xff)) E)
(L (W xb8 x00 x00 x00 x32 x00 x00 x00))))
(T (W xff xff xff xff xff xff xff xff)
(T (W x30 x35 x5f x43 x4c x45 x41 x52)
(T (W x00 x00 x01 x01 xcc x01 x00 x00)
(L (W x18 x00 x00 x00 x10 x00 x00 x00)) E)
(L (W x00 x00 x80 xbf x00 x00 x80 xbf)))
(T (W xf4 x29 xfd xff x2b x00 x00 x00)
(L (W x54 x00 x00 x00 x48 x00 x00 x00))
(L (W x00 x00 x00 x00 x00 x00 x00 x00))))))
(T (W x18 x00 x00 x00 x10 x00 x00 x00)
(T (W x00 x00 x80 x3f x00 x00 x80 x3f)
(T (W x00 x00 x00 x00 x00 x00 x00 x00)
(T (W x00 x00 x80 x3f x00 x00 x80 x3f)
(T (W xff xff xff xff xff xff xff xff)
(L (W x03 x00 x00 x00 xd0 x00 x00 x00)) E)
(L (W xff xff xff xff xff xff xff xff)))
(T (W x00 x00 x00 x00 x00 x00 x00 x00)
(T (W x50 x00 x00 x00 x44 x00 x00 x00)
(L (W x1c x00 x00 x00 x10 x00 x00 x00)) E)
(L (W x50 x00 x00 x00 x44 x00 x00 x00))))
(T (W xff xff xff xff xff xff xff xff)
(T (W xff xff xff xff xff xff xff xff)
(T (W x5f x53 x50 x41 x57 x4e x5f x53)
(L (W x18 x00 x00 x00 x10 x00 x00 x00)) E)
(L (W x00 x00 x00 x00 x00 x00 x00 x00)))
(T (W xff xff xff xff xff xff xff xff)
(L (W x00 x00 x80 xbf x00 x00 x80 xbf))
(L (W x00 x00 x00 x00 x00 x00 x00 x00)))))
(T (W x00 x00 x80 x3f x00 x00 x80 x3f)
(T (W x00 x00 x00 x00 x00 x00 x00 x00)
(T (W x00 x00 x00 x00 x00 x00 x00 x00)
(T (W xff xff xff xff xff xff xff xff)
(L (W x00 x00 x00 x00 x00 x00 x00 x00)) E)
(L (W xff xff xff xff xff xff xff xff)))
(T (W x00 x00 x00 x00 x00 x00 x00 x00)
(T (W x00 x00 x00 x00 x00 x00 x00 x00)
(L (W x00 x00 x00 x00 x00 x00 x00 x00)) E)
(L (W xff xff xff xff xff xff xff xff))))
(T (W xb8 x00 x00 x00 xac x00 x00 x00)
(T (W x49 xa1 x68 x4a xeb x5f xdd x3d)
(T (W xfc x0e x00 x00 xe0 x0d x00 x00)
(L (W x3c x00 x00 x00 x00 x00 x80 xbf)) E)
(L (W x00 x00 x00 x00 x00 x00 x00 x00)))
(T (W x00 x00 x00 x00 x00 x00 x00 x00)
(L (W xff xff xff xff xff xff xff xff))
(L (W x00 x00 x80 xbf x00 x00 x80 xbf)))))))
(T (W x68 x00 x00 x00 x5c x00 x00 x00)
(T (W x45 x26 x22 x84 xe4 x9c xf2 xcb)
(T (W x6c x00 x00 x00 x60 x00 x00 x00)
(T (W x00 x00 x00 x00 x00 x00 x00 x00)
(T (W x68 x00 x00 x00 x5c x00 x00 x00)
(T (W xff xff xff xff xff xff xff xff)
(L (W x54 x00 x00 x00 x48 x00 x00 x00)) E)
(L (W xff xff xff xff xff xff xff xff)))
(T (W xff xff xff xff xff xff xff xff)
(T (W x00 x00 x00 x00 x00 x00 x00 x00)
(L (W x62 xcb xff xff x78 x00 x00 x00)) E)
(L (W x00 x00 x80 xbf x00 x00 x80 xbf))))
(T (W xff xff xff xff xff xff xff xff)
(T (W x18 x00 x00 x00 x0c x00 x00 x00)
(T (W x00 x00 x00 x00 x00 x00 x00 x00)
(L (W x00 x00 x80 xbf x00 x00 x80 xbf)) E)
(L (W x00 x00 x00 x00 x00 x00 x00 x00)))
(T (W x68 x00 x00 x00 x5c x00 x00 x00)
(L (W x49 xa1 x68 x4a xeb x5f xdd x3d))
(L (W xff xff xff xff xff xff xff xff)))))
(T (W x45 x26 x22 x84 xe4 x9c xf2 xcb)
(T (W x24 xf5 xfb xff x1b x00 x00 x00)
(T (W x24 x00 x28 x00 x2c x00 x30 x00)
(T (W x00 x00 x80 x3f x00 x00 x80 x3f)
(L (W x45 x44 x00 x00 x00 x00 x00 x00)) E)
(L (W xff xff xff xff xff xff xff xff)))
(T (W x02 x00 x00 x00 xff xff xff xff)
(T (W xbf x01 x00 x00 xff xff xff xff)
(L (W x00 x00 x00 x00 x00 x00 x00 x00)) E)
(L (W xff xff xff xff xff xff xff xff))))
(T (W xff xff xff xff xff xff xff xff)
(T (W x00 x00 x00 x00 x00 x00 x00 x00)
(T (W x00 x00 x80 x3f x00 x00 x80 x3f)
(L (W x00 x00 x80 xbf x00 x00 x80 xbf)) E)
(L (W x00 x00 x00 x00 x00 x00 x00 x00)))
(T (W x45 x26 x22 x84 xe4 x9c xf2 xcb)
(L (W xff xff xff xff xff xff xff xff))
(L (W x00 x00 x80 xbf x00 x00 x80 xbf))))))
(T (W x40 x00 x00 x00 x9c x00 x00 x00)
(T (W x00 x00 x80 x3f x00 x00 x80 x3f)
(T (W x00 x00 x00 x00 x00 x00 x00 x00)
(T (W x50 x00 x00 x00 x44 x00 x00 x00)
(T (W x64 x00 x00 x00 x9c x00 x00 x00)
(L (W xff xff xff xff xff xff xff xff)) E)
(L (W xff xff xff xff xff xff xff xff)))
(T (W x00 x00 x80 x3f x00 x00 x80 x3f)
(T (W x45 x26 x22 x84 xe4 x9c xf2 xcb)
(L (W x40 x00 x00 x00 x00 x00 x80 xbf)) E)
(L (W xff xff xff xff xff xff xff xff))))
(T (W xff xff xff xff xff xff xff xff)
(T (W xff xff xff xff xff xff xff xff)
(T (W x00 x00 x00 x00 x00 x00 x00 x00)
(L (W x45 x26 x22 x84 xe4 x9c xf2 xcb)) E)
(L (W x00 x00 x80 xbf x00 x00 x80 xbf)))
(T (W x12 x71 xfd xff x9d x01 x00 x00)
(L (W x45 x26 x22 x84 xe4 x9c xf2 xcb))
(L (W x00 x00 x00 x00 x00 x00 x00 x00)))))
(T (W x00 x00 x00 x00 x00 x00 x00 x00)
(T (W x00 x00 x00 x00 x02 x00 x00 x00)
(T (W x49 xa1 x68 x4a xeb x5f xdd x3d)
(T (W xf2 xea xff xff xa8 x01 x00 x00)
(L (W x00 x00 x00 x00 x00 x00 x00 x00)) E)
(L (W x00 x00 x01 x01 xcc x01 x00 x00)))
(T (W x45 x26 x22 x84 xe4 x9c xf2 xcb)
(T (W x00 x00 x00 x00 x00 x00 x00 x00)
(L (W x6c x00 x00 x00 x60 x00 x00 x00)) E)
(L (W xff xff xff xff xff xff xff xff))))
(T (W xff xff xff xff x04 x00 x00 x00)
(T (W x00 x00 x80 x3f x00 x00 x80 x3f)
(T (W x77 x61 x72 x6c x69 x6b x65 x5f)
(L (W x00 x00 x80 xbf x00 x00 x80 xbf)) E)
(L (W x00 x00 x00 x00 x00 x00 x00 x00)))
(T (W x00 x00 x00 x00 x00 x00 x00 x00)
(L (W xff xff xff xff xff xff xff xff))
(L (W x00 x00 x80 xbf x00 x00 x80 xbf))))))))
(T (W xff xff xff xff xff xff xff xff)
(T (W x00 x00 x00 x00 x00 x00 x00 x00)
(T (W x00 x00 x80 x3f x00 x00 x80 x3f)
(T (W xff xff xff xff xff xff xff xff)
(T (W xff xff xff xff xff xff xff xff)
(T (W x00 x00 x00 x00 x00 x00 x00 x00)
(T (W x00 x00 x80 x3f x00 x00 x80 x3f)
(L (W xff xff xff xff xff xff xff xff)) E)
(L (W x00 x00 x00 x00 x00 x00 x00 x00)))
(T (W x00 x00 x00 x00 x00 x00 x00 x00)
(T (W x62 xc7 xfd xff x78 x00 x00 x00)
(L (W xe4 x06 x00 x00 xc8 x05 x00 x00)) E)
(L (W xff xff xff xff xff xff xff xff))))
(T (W x68 x00 x00 x00 x5c x00 x00 x00)
(T (W x00 x00 x00 x00 x00 x00 x00 x00)
(T (W x64 x00 x00 x00 x9c x00 x00 x00)
(L (W xff xff xff xff xff xff xff xff)) E)
(L (W xaa x85 xfe xff x74 x00 x00 x00)))
(T (W x80 x03 x00 x00 x54 x02 x00 x00)
(L (W xff xff xff xff xbc x00 x00 x00))
(L (W x00 x00 x80 xbf x00 x00 x80 xbf)))))
(T (W xff xff xff xff xff xff xff xff)
(T (W x50 x00 x00 x00 x44 x00 x00 x00)
(T (W x25 x00 x00 x00 xff xff xff xff)
(T (W x13 x00 x00 x00 x10 x00 x00 x00)
(L (W x54 x00 x00 x00 x48 x00 x00 x00)) E)
(L (W x00 x00 x80 xbf x00 x00 x80 xbf)))
(T (W x00 x00 x80 x3f x00 x00 x80 x3f)
(T (W x6c x00 x00 x00 x60 x00 x00 x00)
(L (W x00 x00 x80 xbf x00 x00 x80 xbf)) E)
(L (W x00 x00 x00 x00 x00 x00 x00 x00))))
(T (W x00 x00 x00 x00 x00 x00 x00 x00)
(T (W x45 x26 x22 x84 xe4 x9c xf2 xcb)
(T (W xff xff xff xff xff xff xff xff)
(L (W x00 x00 x00 x00 x00 x00 x00 x00)) E)
(L (W xff xff xff xff xff xff xff xff)))
(T (W xff xff xff xff xff xff xff xff)
(L (W xc0 x01 x00 x00 xff xff xff xff))
(L (W xff xff xff xff xb0 x00 x00 x00))))))
(T (W x27 x00 x00 x00 x0c x00 x00 x00)
(T (W xaa x2a xff xff xb0 x01 x00 x00)
(T (W xbc x00 x00 x00 xb0 x00 x00 x00)
(T (W x00 x00 x00 x00 x00 x00 x00 x00)
(T (W x00 x00 x00 x00 x00 x00 x00 x00)
(L (W x00 x00 x80 xbf x00 x00 x80 xbf)) E)
(L (W x00 x00 x00 x00 x00 x00 x00 x00)))
(T (W xff xff xff xff xff xff xff xff)
(T (W x00 x00 x00 x00 x00 x00 x00 x00)
(L (W x00 x00 x00 x00 x72 xdb xff xff)) E)
(L (W x46 x53 x59 x53 x5f x4e x53 x5f))))
(T (W x00 x00 x80 x3f x00 x00 x80 x3f)
(T (W x00 x00 x80 x3f x00 x00 x80 x3f)
(T (W x00 x00 x80 xbf x00 x00 x80 xbf)
(L (W x46 x53 x59 x53 x5f x4e x53 x5f)) E)
(L (W xff xff xff xff xff xff xff xff)))
(T (W x00 x00 x80 x3f x00 x00 x80 x3f)
(L (W x45 x44 x00 x00 x00 x00 x00 x00))
(L (W x45 x26 x22 x84 xe4 x9c xf2 xcb)))))
(T (W xff xff xff xff xff xff xff xff)
(T (W x00 x00 x80 x3f x00 x00 x80 x3f)
(T (W xff xff xff xff xff xff xff xff)
(T (W x50 x00 x00 x00 x44 x00 x00 x00)
(L (W xa4 x00 x00 x00 x05 x00 x00 x00)) E)
(L (W x00 x00 x80 xbf x00 x00 x80 xbf)))
(T (W x18 x00 x00 x00 x0c x00 x00 x00)
(T (W x00 x00 x80 xbf x00 x00 x80 xbf)
(L (W x54 x00 x00 x00 x48 x00 x00 x00)) E)
(L (W x00 x00 x80 xbf x00 x00 x80 xbf))))
(T (W x00 x00 x00 x00 x00 x00 x00 x00)
(T (W xff xff xff xff xff xff xff xff)
(T (W x46 x53 x59 x53 x5f x4e x53 x5f)
(L (W x03 x00 x00 x00 xd8 x00 x00 x00)) E)
(L (W xaa xb5 xfe xff x74 x00 x00 x00)))
(T (W x18 x00 x00 x00 x10 x00 x00 x00)
(L (W x00 x01 x01 x01 xe2 x46 xfe xff))
(L (W x1d x00 x00 x00 x20 x00 x00 x00)))))))
(T (W x00 x00 x00 x00 x00 x00 x00 x00)
(T (W x00 x00 x00 x00 x00 x00 x00 x00)
(T (W xb4 x01 x00 x00 xff xff xff xff)
(T (W x64 x00 x00 x00 x9c x00 x00 x00)
(T (W x00 x00 x00 x00 x00 x00 x00 x00)
(T (W x00 x00 x80 x3f x00 x00 x80 x3f)
(L (W x30 x35 x5f x43 x4c x45 x41 x52)) E)
(L (W x45 x26 x22 x84 xe4 x9c xf2 xcb)))
(T (W x68 x00 x00 x00 x5c x00 x00 x00)
(T (W xff xff xff xff xff xff xff xff)
(L (W x00 x00 x00 x00 x00 x00 x00 x00)) E)
(L (W x54 x02 x00 x00 x38 x01 x00 x00))))
(T (W x00 x00 x80 x3f x00 x00 x80 x3f)
(T (W x00 x00 x00 x00 x00 x00 x00 x00)
(T (W x62 x00 x00 x00 x00 x00 x01 x01)
(L (W xff xff xff xff xff xff xff xff)) E)
(L (W xff xff xff xff x9c x00 x00 x00)))
(T (W x12 x00 x00 x00 x46 x53 x59 x53)
(L (W xff xff xff xff xff xff xff xff))
(L (W x00 x00 x80 xbf x00 x00 x80 xbf)))))
(T (W xff xff xff xff xff xff xff xff)
(T (W x00 x00 x80 x3f x00 x00 x80 x3f)
(T (W xff xff xff xff xff xff xff xff)
(T (W xff xff xff xff xff xff xff xff)
(L (W x18 x00 x00 x00 x0c x00 x00 x00)) E)
(L (W x00 x00 x00 x00 x00 x00 x00 x00)))
(T (W x00 x00 x80 x3f x00 x00 x80 x3f)
(T (W x18 x00 x00 x00 x0c x00 x00 x00)
(L (W x00 x00 x00 x00 x90 xf2 xff xff)) E)
(L (W x45 x26 x22 x84 xe4 x9c xf2 xcb))))
(T (W x00 x00 x00 x00 x00 x00 x00 x00)
(T (W xff xff xff xff xbc x00 x00 x00)
(T (W x00 x00 x00 x00 x00 x00 x00 x00)
(L (W xff xff xff xff xff xff xff xff)) E)
(L (W xff xff xff xff xff xff xff xff)))
(T (W xff xff xff xff xff xff xff xff)
(L (W x00 x00 x80 xbf x00 x00 x80 xbf))
(L (W xff xff xff xff xff xff xff xff))))))
(T (W x62 xf0 xfd xff x00 x00 x01 x01)
(T (W x22 x34 xff xff x00 x00 x01 x01)
(T (W x8c xe2 xfb xff x00 x01 x01 x01)
(T (W x7f x0a x71 x15 xe5 x33 xd9 x87)
(T (W x00 x00 x00 x00 x00 x00 x00 x00)
(L (W x00 x00 x80 xbf x00 x00 x80 xbf)) E)
(L (W x00 x00 x80 xbf x00 x00 x80 xbf)))
(T (W x24 xe9 xfc xff x24 x00 x00 x00)
(T (W x4f x84 x6f x8b xe8 xcb x63 xb7)
(L (W x30 x35 x5f x43 x4c x45 x41 x52)) E)
(L (W x00 x00 x00 x00 x00 x00 x00 x00))))
(T (W x45 x26 x22 x84 xe4 x9c xf2 xcb)
(T (W x6c x00 x00 x00 x60 x00 x00 x00)
(T (W x00 x00 x00 x00 x00 x00 x00 x00)
(L (W x00 x00 x00 x00 x00 x00 x00 x00)) E)
(L (W xff xff xff xff xff xff xff xff)))
(T (W x8c x22 xfd xff x00 x01 x01 x01)
(L (W xf4 x25 xfe xff x21 x00 x00 x00))
(L (W x70 x00 x00 x00 x64 x00 x00 x00)))))
(T (W xff xff xff xff xff xff xff xff)
(T (W x50 x00 x00 x00 x44 x00 x00 x00)
(T (W x00 x00 x01 x01 x6a x01 x00 x00)
(T (W x01 x00 x00 x00 x9c x00 x00 x00)
(L (W xff xff xff xff xff xff xff xff)) E)
(L (W x6c x00 x00 x00 x60 x00 x00 x00)))
(T (W xff xff xff xff xff xff xff xff)
(T (W x8c x02 xfe xff x00 x01 x01 x01)
(L (W x00 x00 x68 x00 x00 x00 x00 x00)) E)
(L (W x00 x00 x00 x00 x00 x00 x00 x00))))
(T (W x00 x00 x00 x00 x00 x00 x00 x00)
(T (W x00 x00 x00 x00 x00 x00 x00 x00)
(T (W x18 x00 x00 x00 x10 x00 x00 x00)
(L (W x00 x00 x00 x00 x92 xbe xff xff)) E)
(L (W xff xff xff xff xb0 x00 x00 x00)))
(T (W x18 x00 x00 x00 x0c x00 x00 x00)
(L (W x45 x26 x22 x84 xe4 x9c xf2 xcb))
(L (W xff xff xff xff xff xff xff xff))))))))))
(T (W x00 x9b x01 x00 xcc x99 x01 x00)
(T (W x10 x74 x00 x00 xdc x72 x00 x00)
(T (W x00 x00 x80 x3f x00 x00 x80 x3f)
(T (W x00 x00 x80 x3f x00 x00 x80 x3f)
(T (W x00 x00 x80 x3f x00 x00 x80 x3f)
(T (W x00 x00 x80 x3f x00 x00 x80 x3f)
(T (W x40 x00 x00 x00 x0c x00 x00 x00)
(T (W x00 x00 x80 x3f x00 x00 x80 x3f)
(T (W xff xff xff xff xff xff xff xff)
(L (W x00 x00 x00 x00 x00 x00 x00 x00)) E)
(L (W xff xff xff xff xff xff xff xff)))
(T (W x00 x00 x80 x3f x00 x00 x80 x3f)
(T (W x00 x00 x01 x01 x6d x01 x00 x00)
(L (W x45 x26 x22 x84 xe4 x9c xf2 xcb)) E)
(L (W x00 x00 x00 x00 x00 x00 x00 x00))))
(T (W xff xff xff xff xff xff xff xff)
(T (W x00 x00 x80 x3f x00 x00 x80 x3f)
(T (W xff xff xff xff xff xff xff xff)
(L (W x45 x44 x00 x00 x00 x00 x00 x00)) E)
(L (W x00 x00 x01 x01 xaa x01 x00 x00)))
(T (W x00 x00 x00 x00 x00 x00 x00 x00)
(T (W x00 x00 x00 x00 x00 x00 x00 x00)
(L (W x00 x00 x00 x00 x00 x00 x00 x00)) E)
(L (W xff xff xff xff xb0 x00 x00 x00)))))
(T (W x00 x00 x00 x00 x00 x00 x00 x00)
(T (W x00 x00 x00 x00 x04 x00 x00 x00)
(T (W x00 x00 x80 x3f x00 x00 x80 x3f)
(T (W x00 x00 x80 x3f x00 x00 x80 x3f)
(L (W xff xff xff xff xff xff xff xff)) E)
(L (W x18 x00 x00 x00 x0c x00 x00 x00)))
(T (W x18 x00 x00 x00 x0c x00 x00 x00)
(T (W xb0 x00 x00 x00 x64 x00 x00 x00)
(L (W xff xff xff xff xff xff xff xff)) E)
(L (W x8c xe5 xfe xff x00 x01 x01 x01))))
(T (W xff xff xff xff xff xff xff xff)
(T (W xff xff xff xff xff xff xff xff)
(T (W xff xff xff xff xff xff xff xff)
(L (W x6c x00 x00 x00 x60 x00 x00 x00)) E)
(L (W x00 x00 x00 x00 x00 x00 x00 x00)))
(T (W xff xff xff xff xff xff xff xff)
(L (W x00 x00 x80 xbf x00 x00 x80 xbf))
(L (W x00 x00 x00 x00 x00 x00 x00 x00))))))
(T (W x8c x75 xfb xff x00 x01 x01 x01)
(T (W x00 x00 x00 x00 x00 x00 x00 x00)
(T (W x00 x00 x00 x00 x00 x00 x00 x00)
(T (W x00 x00 x80 x3f x00 x00 x80 x3f)
(T (W x64 x00 x00 x00 x9c x00 x00 x00)
(L (W x68 x00 x00 x00 x5c x00 x00 x00)) E)
(L (W xbc x00 x00 x00 x02 x00 x00 x00)))
(T (W xa6 x53 xc1 xb1 x87 x7b xbf xc2)
(T (W x45 x26 x22 x84 xe4 x9c xf2 xcb)
(L (W x45 x26 x22 x84 xe4 x9c xf2 xcb)) E)
(L (W x00 x00 x80 xbf x00 x00 x80 xbf))))
(T (W xff xff xff xff x03 x00 x00 x00)
(T (W x18 x00 x00 x00 x0c x00 x00 x00)
(T (W x62 x00 x00 x00 x01 x01 x01 x01)
(L (W x54 x00 x00 x00 x48 x00 x00 x00)) E)
(L (W x00 x00 x00 x00 x00 x00 x00 x00)))
(T (W xff xff xff xff x9c x00 x00 x00)
(L (W x00 x00 x80 xbf x00 x00 x80 xbf))
(L (W x54 x02 x00 x00 x38 x01 x00 x00)))))
(T (W x00 x00 x00 x00 x00 x00 x00 x00)
(T (W x19 x01 x00 x00 xff xff xff xff)
(T (W x00 x00 x07 x00 x60 x00 x64 x00)
(T (W x00 x00 x00 x00 x00 x00 x00 x00)
(L (W x30 x35 x5f x43 x4c x45 x41 x52)) E)
(L (W xff xff xff xff xff xff xff xff)))
(T (W xff xff xff xff xff xff xff xff)
(T (W x6c x00 x00 x00 xff xff xff xff)
(L (W x00 x00 x00 x00 x00 x00 x00 x00)) E)
(L (W xff xff xff xff xff xff xff xff))))
(T (W x18 x00 x00 x00 x0c x00 x00 x00)
(T (W x00 x00 x00 x00 x00 x00 x00 x00)
(T (W xff xff xff xff x9c x00 x00 x00)
(L (W x00 x00 x00 x00 x00 x00 x00 x00)) E)
(L (W x45 x44 x00 x00 x00 x00 x00 x00)))
(T (W x00 x00 x00 x00 x00 x00 x00 x00)
(L (W xff xff xff xff xff xff xff xff))
(L (W x00 x00 x00 x00 x00 x00 x00 x00)))))))
(T (W x00 x00 x80 x3f x00 x00 x80 x3f)
(T (W xaa x68 xfb xff x74 x00 x00 x00)
(T (W x00 x00 x80 x3f x00 x00 x80 x3f)
(T (W x00 x00 x00 x00 x00 x00 x00 x00)
(T (W x00 x00 x80 x3f x00 x00 x80 x3f)
(T (W xff xff xff xff xff xff xff xff)
(L (W x00 x00 x80 xbf x00 x00 x80 xbf)) E)
(L (W xbc x00 x00 x00 x1e x00 x00 x00)))
(T (W xff xff xff xff xff xff xff xff)
(T (W x30 x35 x5f x43 x4c x45 x41 x52)
(L (W x00 x00 x80 xbf x00 x00 x80 xbf)) E)
(L (W x00 x00 x00 x00 x00 x00 x00 x00))))
(T (W x64 x00 x00 x00 x9c x00 x00 x00)
(T (W x00 x00 x80 x3f x00 x00 x80 x3f)
(T (W x18 x00 x00 x00 x10 x00 x00 x00)
(L (W x00 x00 x00 x00 x00 x00 x00 x00)) E)
(L (W x30 x35 x5f x43 x4c x45 x41 x52)))
(T (W x00 x00 x80 x3f x00 x00 x80 x3f)
(L (W x00 x00 x00 x00 x00 x00 x00 x00))
(L (W xff xff xff xff xff xff xff xff)))))
(T (W x00 x00 x00 x00 x00 x00 x00 x00)
(T (W xff xff xff xff xff xff xff xff)
(T (W x18 x00 x00 x00 x10 x00 x00 x00)
(T (W x00 x00 x80 x3f x00 x00 x80 x3f)
(L (W xff xff xff xff xff xff xff xff)) E)
(L (W xff xff xff xff xff xff xff xff)))
(T (W xb0 x00 x00 x00 x64 x00 x00 x00)
(T (W xff xff xff xff xff xff xff xff)
(L (W xff xff xff xff xff xff xff xff)) E)
(L (W xff xff xff xff xff xff xff xff))))
(T (W x45 x26 x22 x84 xe4 x9c xf2 xcb)
(T (W x30 x35 x5f x43 x4c x45 x41 x52)
(T (W x00 x00 x00 x00 x00 x00 x00 x00)
(L (W x14 x00 x18 x00 x00 x00 x00 x00)) E)
(L (W x45 x26 x22 x84 xe4 x9c xf2 xcb)))
(T (W x00 x00 x00 x00 x00 x00 x00 x00)
(L (W x3c x00 x40 x00 x28 x00 x00 x00))
(L (W x00 x00 x00 x00 x00 x00 x00 x00))))))
(T (W x00 x00 x80 x3f x00 x00 x80 x3f)
(T (W x00 x00 x00 x00 x00 x00 x00 x00)
(T (W x00 x00 x00 x00 x00 x00 x00 x00)
(T (W x00 x00 x80 x3f x00 x00 x80 x3f)
(T (W x18 x00 x00 x00 x0c x00 x00 x00)
(L (W xff xff xff xff xb0 x00 x00 x00)) E)
(L (W xff xff xff xff x9c x00 x00 x00)))
(T (W x00 x00 x00 x00 x00 x00 x00 x00)
(T (W x54 x00 x00 x00 x48 x00 x00 x00)
(L (W x00 x00 x80 xbf x00 x00 x80 xbf)) E)
(L (W x00 x00 x80 xbf x00 x00 x80 xbf))))
(T (W xff xff xff xff xff xff xff xff)
(T (W xff xff xff xff xff xff xff xff)
(T (W xc7 x5a x69 x12 x83 x78 x37 xc6)
(L (W x54 x00 x00 x00 x48 x00 x00 x00)) E)
(L (W x00 x00 x80 xbf x00 x00 x80 xbf)))
(T (W xff xff xff xff xff xff xff xff)
(L (W x6c x00 x00 x00 x60 x00 x00 x00))
(L (W x46 x53 x59 x53 x5f x4e x53 x5f)))))
(T (W x00 x00 x00 x00 x00 x00 x00 x00)
(T (W xff xff xff xff xff xff xff xff)
(T (W x00 x00 x00 x00 x00 x00 x00 x00)
(T (W xff xff xff xff xff xff xff xff)
(L (W x04 x00 x00 x00 x80 x03 x00 x00)) E)
(L (W xff xff xff xff xff xff xff xff)))
(T (W x12 x00 x00 x00 x46 x53 x59 x53)
(T (W xff xff xff xff xff xff xff xff)
(L (W x00 x00 x80 xbf x00 x00 x80 xbf)) E)
(L (W x45 x26 x22 x84 xe4 x9c xf2 xcb))))
(T (W x68 x00 x00 x00 x5c x00 x00 x00)
(T (W x49 xa1 x68 x4a xeb x5f xdd x3d)
(T (W xff xff xff xff xff xff xff xff)
(L (W x00 x00 x00 x00 x00 x00 x00 x00)) E)
(L (W x00 x00 x00 x00 x00 x00 x00 x00)))
(T (W x38 x00 x00 x00 x10 x00 x00 x00)
(L (W xff xff xff xff xff xff xff xff))
(L (W x00 x00 x00 x00 x00 x00 x00 x00))))))))
(T (W xff xff xff xff xff xff xff xff)
(T (W x01 x00 x00 x00 xff xff xff xff)
(T (W x74 x00 x04 x00 x68 x00 x08 x00)
(T (W xff xff xff xff xff xff xff xff)
(T (W x00 x00 x00 x00 xfc xc7 xfb xff)
(T (W x08 x7d x1b x75 x40 x49 xe9 xfd)
(T (W x00 x00 x80 x3f x00 x00 x80 x3f)
(L (W xff xff xff xff x9c x00 x00 x00)) E)
(L (W x00 x00 x00 x00 x00 x00 x00 x00)))
(T (W x00 x00 x00 x00 x00 x00 x00 x00)
(T (W x00 x00 x80 x3f x00 x00 x80 x3f)
(L (W xff xff xff xff xff xff xff xff)) E)
(L (W xff xff xff xff xb0 x00 x00 x00))))
(T (W x45 x26 x22 x84 xe4 x9c xf2 xcb)
(T (W xff xff xff xff xff xff xff xff)
(T (W x18 x00 x00 x00 x0c x00 x00 x00)
(L (W xff xff xff xff xb0 x00 x00 x00)) E)
(L (W x00 x00 x80 xbf x00 x00 x80 xbf)))
(T (W xff xff xff xff xff xff xff xff)
(L (W x45 x26 x22 x84 xe4 x9c xf2 xcb))
(L (W x00 x00 x00 x00 x00 x00 x00 x00)))))
(T (W xff xff xff xff xff xff xff xff)
(T (W x00 x00 x80 x3f x00 x00 x80 x3f)
(T (W xff xff xff xff xff xff xff xff)
(T (W xff xff xff xff xff xff xff xff)
(L (W x00 x00 x80 xbf x00 x00 x80 xbf)) E)
(L (W x45 x26 x22 x84 xe4 x9c xf2 xcb)))
(T (W x00 x00 x00 x00 x00 x00 x00 x00)
(T (W x00 x00 x80 xbf x00 x00 x80 xbf)
(L (W x00 x00 x00 x00 x00 x00 x00 x00)) E)
(L (W x00 x00 x00 x00 x00 x00 x00 x00))))
(T (W xf4 x2c xfc xff x3e x00 x00 x00)
(T (W x00 x00 x80 x3f x00 x00 x80 x3f)
(T (W x68 x00 x00 x00 x5c x00 x00 x00)
(L (W xff xff xff xff xff xff xff xff)) E)
(L (W xff xff xff xff x9c x00 x00 x00)))
(T (W x18 x00 x00 x00 x0c x00 x00 x00)
(L (W xff xff xff xff xff xff xff xff))
(L (W x00 x00 x00 x00 xfc x27 xff xff))))))
(T (W xff xff xff xff xff xff xff xff)
(T (W xff xff xff xff xff xff xff xff)
(T (W x50 x00 x00 x00 x44 x00 x00 x00)
(T (W x62 xc7 xfe xff x00 x00 x01 x01)
(T (W x00 x00 x00 x00 x00 x00 x00 x00)
(L (W x00 x00 x00 x00 x00 x00 x00 x00)) E)
(L (W x00 x00 x00 x00 x00 x00 x00 x00)))
(T (W x18 x00 x00 x00 x10 x00 x00 x00)
(T (W x00 x00 x00 x00 x92 xd5 xfd xff)
(L (W xff xff xff xff xff xff xff xff)) E)
(L (W x00 x00 x00 x00 xf2 xdf xfe xff))))
(T (W x00 x00 x00 x00 x00 x00 x00 x00)
(T (W x00 x00 x00 x00 x00 x00 x00 x00)
(T (W x45 x26 x22 x84 xe4 x9c xf2 xcb)
(L (W x00 x00 x01 x01 xdd x00 x00 x00)) E)
(L (W xff xff xff xff xc8 x00 x00 x00)))
(T (W x00 x00 x00 x00 x00 x00 x00 x00)
(L (W xff xff xff xff xff xff xff xff))
(L (W x54 x00 x00 x00 x48 x00 x00 x00)))))
(T (W xc0 x00 x00 x00 xb4 x00 x00 x00)
(T (W x00 x00 x80 x3f x00 x00 x80 x3f)
(T (W x03 x00 x00 x00 xd0 x00 x00 x00)
(T (W x00 x00 x80 x3f x00 x00 x80 x3f)
(L (W x45 x26 x22 x84 xe4 x9c xf2 xcb)) E)
(L (W x00 x00 x00 x00 x00 x00 x00 x00)))
(T (W xaa xf4 xfc xff x74 x00 x00 x00)
(T (W x00 x00 x80 xbf x00 x00 x80 xbf)
(L (W x00 x00 x00 x00 x02 x00 x00 x00)) E)
(L (W x00 x00 x00 x00 x00 x00 x00 x00))))
(T (W x00 x00 x00 x00 x00 x00 x00 x00)
(T (W xff xff xff xff xff xff xff xff)
(T (W x00 x00 x01 x01 xd7 x01 x00 x00)
(L (W xa4 x00 x00 x00 x14 x00 x00 x00)) E)
(L (W x00 x00 x80 xbf x00 x00 x80 xbf)))
(T (W x8c x39 xfd xff x00 x01 x01 x01)
(L (W x45 x26 x22 x84 xe4 x9c xf2 xcb))
(L (W x14 x00 x00 x00 x0c x00 x00 x00)))))))
(T (W x04 x00 x00 x00 x62 xf6 xff xff)
(T (W x62 xdf xfd xff x00 x00 x01 x01)
(T (W xff xff xff xff xff xff xff xff)
(T (W x45 x26 x22 x84 xe4 x9c xf2 xcb)
(T (W x43 x00 x00 x00 xff xff xff xff)
(T (W x00 x00 x00 x00 x00 x00 x00 x00)
(L (W xff xff xff xff xff xff xff xff)) E)
(L (W x00 x00 x00 x00 x12 x00 x00 x00)))
(T (W x00 x00 x80 x3f x00 x00 x80 x3f)
(T (W x03 x00 x00 x00 xd0 x00 x00 x00)
(L (W xff xff xff xff xff xff xff xff)) E)
(L (W xff xff xff xff xff xff xff xff))))
(T (W x45 x26 x22 x84 xe4 x9c xf2 xcb)
(T (W x46 x53 x59 x53 x5f x4e x53 x5f)
(T (W x00 x00 x80 x3f x00 x00 x80 x3f)
(L (W xff xff xff xff xbc x00 x00 x00)) E)
(L (W x68 x00 x00 x00 x5c x00 x00 x00)))
(T (W x00 x00 x00 x00 x00 x00 x00 x00)
(L (W xff xff xff xff xbc x00 x00 x00))
(L (W x4f x84 x6f x8b xe8 xcb x63 xb7)))))
(T (W xb8 x00 x00 x00 xac x00 x00 x00)
(T (W x00 x00 x80 x3f x00 x00 x80 x3f)
(T (W xff xff xff xff xff xff xff xff)
(T (W xff xff xff xff xff xff xff xff)
(L (W x62 x6e xff xff x78 x00 x00 x00)) E)
(L (W x00 x00 x00 x00 x00 x00 x00 x00)))
(T (W x49 xa1 x68 x4a xeb x5f xdd x3d)
(T (W x00 x00 x80 xbf x00 x00 x80 xbf)
(L (W x6c x00 x00 x00 x60 x00 x00 x00)) E)
(L (W x00 x00 x00 x00 x00 x00 x00 x00))))
(T (W x00 x00 x00 x00 x00 x00 x00 x00)
(T (W x45 x26 x22 x84 xe4 x9c xf2 xcb)
(T (W x61 x72 x6c x69 x6b x65 x5f x6c)
(L (W x03 x00 x00 x00 xd0 x00 x00 x00)) E)
(L (W x00 x00 x80 xbf x00 x00 x80 xbf)))
(T (W xaa x2c xfd xff x74 x00 x00 x00)
(L (W x00 x00 x00 x00 x00 x00 x00 x00))
(L (W x18 x00 x00 x00 x0c x00 x00 x00))))))
(T (W xff xff xff xff xff xff xff xff)
(T (W xff xff xff xff xff xff xff xff)
(T (W x00 x00 x80 x3f x00 x00 x80 x3f)
(T (W xff xff xff xff xff xff xff xff)
(T (W x38 x00 x00 x00 x10 x00 x00 x00)
(L (W x00 x00 x80 xbf x00 x00 x80 xbf)) E)
(L (W x00 x00 x80 xbf x00 x00 x80 xbf)))
(T (W xff xff xff xff xff xff xff xff)
(T (W x00 x00 x00 x00 x00 x00 x00 x00)
(L (W x00 x00 x01 x01 xc8 x02 x00 x00)) E)
(L (W x46 x53 x59 x53 x5f x4e x53 x5f))))
(T (W x00 x00 x00 x00 x00 x00 x00 x00)
(T (W x00 x00 x80 x3f x00 x00 x80 x3f)
(T (W x32 x00 x00 x00 x10 x00 x00 x00)
(L (W xbb x01 x00 x00 xff xff xff xff)) E)
(L (W x31 x00 x00 x00 x34 x00 x00 x00)))
(T (W x45 x26 x22 x84 xe4 x9c xf2 xcb)
(L (W xff xff xff xff xff xff xff xff))
(L (W x00 x00 x80 xbf x00 x00 x80 xbf)))))
(T (W xff xff xff xff x03 x00 x00 x00)
(T (W x00 x00 x80 x3f x00 x00 x80 x3f)
(T (W xff xff xff xff xff xff xff xff)
(T (W x45 x26 x22 x84 xe4 x9c xf2 xcb)
(L (W x68 x00 x00 x00 x5c x00 x00 x00)) E)
(L (W x00 x00 x80 xbf x00 x00 x80 xbf)))
(T (W x03 x00 x00 x00 xd4 x00 x00 x00)
(T (W x00 x00 x80 xbf x00 x00 x80 xbf)
(L (W x45 x26 x22 x84 xe4 x9c xf2 xcb)) E)
(L (W x45 x44 x00 x00 x00 x00 x00 x00))))
(T (W x00 x00 x00 x00 x00 x00 x00 x00)
(T (W xff xff xff xff xff xff xff xff)
(T (W x54 x00 x00 x00 x48 x00 x00 x00)
(L (W xff xff xff xff xff xff xff xff)) E)
(L (W x62 xbe xfe xff x78 x00 x00 x00)))
(T (W x00 x00 x80 x3f x00 x00 x80 x3f)
(L (W x00 x00 x00 x00 x00 x00 x00 x00))
(L (W xff xff xff xff xb0 x00 x00 x00)))))))))
(T (W x00 x00 x00 x00 x00 x00 x00 x00)
(T (W xc4 x00 x00 x00 xb8 x00 x00 x00)
(T (W x45 x26 x22 x84 xe4 x9c xf2 xcb)
(T (W xff xff xff xff x04 x00 x00 x00)
(T (W xff xff xff xff x03 x00 x00 x00)
(T (W x00 x00 x80 x3f x00 x00 x80 x3f)
(T (W xff xff xff xff xff xff xff xff)
(T (W x00 x00 x00 x00 x00 x00 x00 x00)
(L (W x54 x00 x00 x00 x48 x00 x00 x00)) E)
(L (W xff xff xff xff xff xff xff xff)))
(T (W xff xff xff xff xff xff xff xff)
(T (W x00 x00 x00 x00 x00 x00 x00 x00)
(L (W x62 xc4 xff xff x78 x00 x00 x00)) E)
(L (W x00 x00 x80 xbf x00 x00 x80 xbf))))
(T (W x24 x0e xfc xff x3e x00 x00 x00)
(T (W x2f x00 x00 x00 x32 x00 x00 x00)
(T (W x00 x00 x00 x00 x00 x00 x00 x00)
(L (W x00 x00 x80 xbf x00 x00 x80 xbf)) E)
(L (W x00 x00 x00 x00 x00 x00 x00 x00)))
(T (W x45 x26 x22 x84 xe4 x9c xf2 xcb)
(L (W x00 x00 x80 xbf x00 x00 x80 xbf))
(L (W xff xff xff xff xff xff xff xff)))))
(T (W x00 x00 x80 x3f x00 x00 x80 x3f)
(T (W x00 x00 x00 x00 x00 x00 x00 x00)
(T (W x8c x67 xfc xff x00 x01 x01 x01)
(T (W x64 x00 x00 x00 x9c x00 x00 x00)
(L (W x00 x00 x00 x00 x00 x00 x00 x00)) E)
(L (W x04 x00 x00 x00 x5a x65 xfe xff)))
(T (W xff xff xff xff xff xff xff xff)
(T (W x00 x00 x00 x00 x12 x00 x00 x00)
(L (W x00 x00 x00 x00 x00 x00 x00 x00)) E)
(L (W xff xff xff xff xff xff xff xff))))
(T (W xff xff xff xff xff xff xff xff)
(T (W x00 x00 x00 x00 x00 x00 x00 x00)
(T (W x00 x00 x00 x00 x00 x00 x00 x00)
(L (W x03 x00 x00 x00 xd0 x00 x00 x00)) E)
(L (W x00 x00 x80 xbf x00 x00 x80 xbf)))
(T (W x00 x00 x00 x00 x00 x00 x00 x00)
(L (W x00 x00 x00 x00 x90 x27 xfe xff))
(L (W x00 x00 x80 xbf x00 x00 x80 xbf))))))
(T (W xb8 x00 x00 x00 xac x00 x00 x00)
(T (W x45 x26 x22 x84 xe4 x9c xf2 xcb)
(T (W x00 x00 x00 x00 x00 x00 x00 x00)
(T (W x45 x26 x22 x84 xe4 x9c xf2 xcb)
(T (W xff xff xff xff xff xff xff xff)
(L (W xff xff xff xff xff xff xff xff)) E)
(L (W xff xff xff xff xff xff xff xff)))
(T (W x45 x26 x22 x84 xe4 x9c xf2 xcb)
(T (W x45 x26 x22 x84 xe4 x9c xf2 xcb)
(L (W xff xff xff xff xb0 x00 x00 x00)) E)
(L (W xff xff xff xff xff xff xff xff))))
(T (W xff xff xff xff xff xff xff xff)
(T (W x00 x00 x01 x01 x6a x01 x00 x00)
(T (W x7f x00 x00 x00 x7f x00 x00 x00)
(L (W x03 x00 x00 x00 xd8 x00 x00 x00)) E)
(L (W x00 x00 x80 xbf x00 x00 x80 xbf)))
(T (W xff xff xff xff xff xff xff xff)
(L (W x18 x00 x00 x00 x0c x00 x00 x00))
(L (W x45 x26 x22 x84 xe4 x9c xf2 xcb)))))
(T (W x00 x00 x80 x3f x00 x00 x80 x3f)
(T (W x00 x00 x00 x00 x00 x00 x00 x00)
(T (W x00 x00 x80 x3f x00 x00 x80 x3f)
(T (W x2c x00 x30 x00 x34 x00 x38 x00)
(L (W x4f x84 x6f x8b xe8 xcb x63 xb7)) E)
(L (W x00 x00 x00 x00 x00 x00 x00 x00)))
(T (W x00 x00 x00 x00 x00 x00 x00 x00)
(T (W x00 x00 x00 x00 x12 x00 x00 x00)
(L (W x74 x00 x00 x00 x68 x00 x00 x00)) E)
(L (W xff xff xff xff xff xff xff xff))))
(T (W xff xff xff xff xff xff xff xff)
(T (W x00 x00 x80 x3f x00 x00 x80 x3f)
(T (W x49 xa1 x68 x4a xeb x5f xdd x3d)
(L (W xf8 xb5 xff xff xe2 xc3 xff xff)) E)
(L (W x00 x00 x00 x00 x00 x00 x00 x00)))
(T (W x00 x00 x80 x3f x00 x00 x80 x3f)
(L (W x1b x8f xc4 x28 xbf x5e x75 x6a))
(L (W x54 x00 x00 x00 x48 x00 x00 x00)))))))
(T (W xff xff xff xff x04 x00 x00 x00)
(T (W x18 x00 x00 x00 x10 x00 x00 x00)
(T (W x00 x00 x00 x00 xfc x8d xfb xff)
(T (W x00 x00 x00 x00 x00 x00 x00 x00)
(T (W xb8 x00 x00 x00 xac x00 x00 x00)
(T (W x38 x00 x00 x00 x10 x00 x00 x00)
(L (W x45 x26 x22 x84 xe4 x9c xf2 xcb)) E)
(L (W xff xff xff xff xff xff xff xff)))
(T (W x24 xd6 xfc xff x24 x00 x00 x00)
(T (W x54 x00 x00 x00 x48 x00 x00 x00)
(L (W xff xff xff xff xb0 x00 x00 x00)) E)
(L (W x62 xcc xfe xff x78 x00 x00 x00))))
(T (W x01 x00 x00 x00 x04 x00 x00 x00)
(T (W xff xff xff xff xff xff xff xff)
(T (W x00 x00 x00 x00 x00 x00 x00 x00)
(L (W x6c x00 x00 x00 x60 x00 x00 x00)) E)
(L (W x49 xa1 x68 x4a xeb x5f xdd x3d)))
(T (W xff xff xff xff xff xff xff xff)
(L (W x00 x00 x80 xbf x00 x00 x80 xbf))
(L (W x45 x44 x00 x00 x00 x00 x00 x00)))))
(T (W x00 x00 x80 x3f x00 x00 x80 x3f)
(T (W x45 x26 x22 x84 xe4 x9c xf2 xcb)
(T (W x00 x00 x80 x3f x00 x00 x80 x3f)
(T (W x18 x00 x00 x00 x0c x00 x00 x00)
(L (W x00 x00 x00 x00 x00 x00 x00 x00)) E)
(L (W x00 x00 x00 x00 x00 x00 x00 x00)))
(T (W x4c x45 x41 x52 x45 x44 x00 x00)
(T (W x00 x00 x00 x00 x00 x00 x00 x00)
(L (W x00 x00 x00 x00 x00 x00 x00 x00)) E)
(L (W x00 x00 x00 x00 x6a xf4 xfe xff))))
(T (W xff xff xff xff xff xff xff xff)
(T (W x49 xa1 x68 x4a xeb x5f xdd x3d)
(T (W x18 x00 x00 x00 x0c x00 x00 x00)
(L (W x54 x00 x00 x00 x48 x00 x00 x00)) E)
(L (W x00 x00 x00 x00 x00 x00 x00 x00)))
(T (W x00 x00 x80 x3f x00 x00 x80 x3f)
(L (W xff xff xff xff xff xff xff xff))
(L (W x00 x00 x80 xbf x00 x00 x80 xbf))))))
(T (W xc0 x00 x00 x00 xb4 x00 x00 x00)
(T (W x50 x00 x00 x00 x44 x00 x00 x00)
(T (W x00 x00 x00 x00 x00 x00 x00 x00)
(T (W x68 x00 x00 x00 x5c x00 x00 x00)
(T (W xff xff xff xff xff xff xff xff)
(L (W x94 x04 x00 x00 x80 x03 x00 x00)) E)
(L (W x00 x00 x00 x00 x6a x64 xfe xff)))
(T (W x00 x00 x00 x00 xfc xdd xfc xff)
(T (W xff xff xff xff xff xff xff xff)
(L (W xff xff xff xff xb0 x00 x00 x00)) E)
(L (W xff xff xff xff xff xff xff xff))))
(T (W xff xff xff xff xff xff xff xff)
(T (W x00 x00 x00 x00 x00 x00 x00 x00)
(T (W xb0 x00 x00 x00 x64 x00 x00 x00)
(L (W xff xff xff xff xc8 x00 x00 x00)) E)
(L (W x6c x00 x00 x00 x60 x00 x00 x00)))
(T (W x00 x00 x00 x00 x00 x00 x00 x00)
(L (W xff xff xff xff xc0 x00 x00 x00))
(L (W x4f x84 x6f x8b xe8 xcb x63 xb7)))))
(T (W x00 x00 x80 x3f x00 x00 x80 x3f)
(T (W x00 x00 x00 x00 x00 x00 x00 x00)
(T (W x00 x00 x80 x3f x00 x00 x80 x3f)
(T (W x00 x00 x00 x00 x00 x00 x00 x00)
(L (W x00 x00 x80 xbf x00 x00 x80 xbf)) E)
(L (W x30 x35 x5f x43 x4c x45 x41 x52)))
(T (W x00 x00 x80 x3f x00 x00 x80 x3f)
(T (W x00 x00 x00 x00 x00 x00 x00 x00)
(L (W xff xff xff xff xff xff xff xff)) E)
(L (W xff xff xff xff xff xff xff xff))))
(T (W xff xff xff xff xff xff xff xff)
(T (W x45 x26 x22 x84 xe4 x9c xf2 xcb)
(T (W x4f x84 x6f x8b xe8 xcb x63 xb7)
(L (W x00 x00 x80 xbf x00 x00 x80 xbf)) E)
(L (W x45 x26 x22 x84 xe4 x9c xf2 xcb)))
(T (W x00 x00 x00 x00 x00 x00 x00 x00)
(L (W xdd x00 x00 x00 xff xff xff xff))
(L (W x00 x00 x80 xbf x00 x00 x80 xbf))))))))
(T (W x40 x00 x00 x00 x10 x00 x00 x00)
(T (W x00 x00 x00 x00 x00 x00 x00 x00)
(T (W x6c x00 x70 x00 x62 x00 x00 x00)
(T (W x40 x00 x00 x00 x0c x00 x00 x00)
(T (W xff xff xff xff xff xff xff xff)
(T (W x45 x26 x22 x84 xe4 x9c xf2 xcb)
(T (W x18 x00 x00 x00 x0c x00 x00 x00)
(L (W x00 x00 x00 x00 x6a x50 xff xff)) E)
(L (W x45 x26 x22 x84 xe4 x9c xf2 xcb)))
(T (W x00 x00 x80 x3f x00 x00 x80 x3f)
(T (W x32 x00 x00 x00 x35 x00 x00 x00)
(L (W x00 x00 x00 x00 x00 x00 x00 x00)) E)
(L (W xff xff xff xff xff xff xff xff))))
(T (W x00 x00 x00 x00 xfc x09 xfc xff)
(T (W x00 x00 x00 x00 x00 x00 x00 x00)
(T (W xff xff xff xff xff xff xff xff)
(L (W xff xff xff xff xff xff xff xff)) E)
(L (W x31 x00 x00 x00 x34 x00 x00 x00)))
(T (W x00 x00 x00 x00 x00 x00 x00 x00)
(L (W xff xff xff xff xff xff xff xff))
(L (W x00 x00 x80 x3f x00 x00 x80 xbf)))))
(T (W x00 x00 x00 x00 x04 x00 x00 x00)
(T (W x64 x00 x00 x00 x9c x00 x00 x00)
(T (W x00 x00 x00 x00 x00 x00 x00 x00)
(T (W x00 x00 x00 x00 x00 x00 x00 x00)
(L (W x45 x26 x22 x84 xe4 x9c xf2 xcb)) E)
(L (W x00 x00 x80 xbf x00 x00 x80 xbf)))
(T (W x50 x00 x00 x00 x44 x00 x00 x00)
(T (W x45 x26 x22 x84 xe4 x9c xf2 xcb)
(L (W x45 x26 x22 x84 xe4 x9c xf2 xcb)) E)
(L (W x00 x00 x80 xbf x00 x00 x80 xbf))))
(T (W x00 x00 x80 x3f x00 x00 x80 x3f)
(T (W xff xff xff xff xbc x00 x00 x00)
(T (W x12 xfe xfd xff xf7 x01 x00 x00)
(L (W x00 x00 x00 x00 x00 x00 x00 x00)) E)
(L (W x00 x00 x00 x00 x00 x00 x00 x00)))
(T (W xff xff xff xff xff xff xff xff)
(L (W x00 x00 x00 x00 x00 x00 x00 x00))
(L (W xff xff xff xff xff xff xff xff))))))
(T (W x00 x00 x00 x00 x00 x00 x00 x00)
(T (W x00 x00 x00 x00 x00 x00 x00 x00)
(T (W xff xff xff xff xff xff xff xff)
(T (W x00 x00 x00 x00 x00 x00 x00 x00)
(T (W x00 x00 x80 x3f x00 x00 x80 x3f)
(L (W x00 x00 x80 xbf x00 x00 x80 xbf)) E)
(L (W x00 x00 x80 xbf x00 x00 x80 xbf)))
(T (W x04 x00 x00 x00 x6a xe0 xfc xff)
(T (W x00 x00 x00 x00 x00 x00 x00 x00)
(L (W x00 x00 x00 x00 x12 x00 x00 x00)) E)
(L (W x00 x00 x00 x00 x00 x00 x00 x00))))
(T (W x00 x00 x80 x3f x00 x00 x80 x3f)
(T (W x00 x00 x80 x3f x00 x00 x80 x3f)
(T (W xff xff xff xff x9c x00 x00 x00)
(L (W x00 x00 x00 x00 x00 x00 x00 x00)) E)
(L (W x18 x01 x00 x00 xff xff xff xff)))
(T (W x00 x00 x80 x3f x00 x00 x80 x3f)
(L (W x00 x00 x00 x00 x00 x00 x00 x00))
(L (W xff xff xff xff xc4 x00 x00 x00)))))
(T (W xff xff xff xff xff xff xff xff)
(T (W x50 x00 x00 x00 x44 x00 x00 x00)
(T (W xff xff xff xff xff xff xff xff)
(T (W xb8 x00 x00 x00 xac x00 x00 x00)
(L (W x03 x00 x00 x00 xd0 x00 x00 x00)) E)
(L (W xaa x76 xfe xff x74 x00 x00 x00)))
(T (W xff xff xff xff xff xff xff xff)
(T (W x6c x00 x00 x00 x60 x00 x00 x00)
(L (W xcb x01 x00 x00 xff xff xff xff)) E)
(L (W x00 x00 x80 xbf x00 x00 x80 xbf))))
(T (W x00 x00 x00 x00 x00 x00 x00 x00)
(T (W x00 x00 x00 x00 x00 x00 x00 x00)
(T (W x54 x00 x00 x00 x48 x00 x00 x00)
(L (W xff xff xff xff xff xff xff xff)) E)
(L (W xff xff xff xff xff xff xff xff)))
(T (W xff xff xff xff xff xff xff xff)
(L (W xff xff xff xff x90 x00 x00 x00))
(L (W xff xff xff xff xff xff xff xff)))))))
(T (W x00 x00 x00 x00 x00 x00 x00 x00)
(T (W x45 x26 x22 x84 xe4 x9c xf2 xcb)
(T (W x00 x00 x00 x00 x00 x00 x00 x00)
(T (W xff xff xff xff xff xff xff xff)
(T (W x45 x26 x22 x84 xe4 x9c xf2 xcb)
(T (W x00 x00 x80 x3f x00 x00 x80 x3f)
(L (W x00 x00 x00 x00 x00 x00 x00 x00)) E)
(L (W x00 x01 x01 x01 xe2 x5f xfe xff)))
(T (W xb0 x00 x00 x00 x64 x00 x00 x00)
(T (W x00 x00 x00 x00 x02 x00 x00 x00)
(L (W x00 x00 x00 x00 x00 x00 x00 x00)) E)
(L (W x00 x00 x00 x00 x00 x00 x00 x00))))
(T (W x45 x26 x22 x84 xe4 x9c xf2 xcb)
(T (W x00 x00 x80 x3f x00 x00 x80 x3f)
(T (W x00 x00 x00 x00 x00 x00 x00 x00)
(L (W x00 x00 x00 x00 x00 x00 x00 x00)) E)
(L (W xff xff xff xff xff xff xff xff)))
(T (W x00 x00 x00 x00 x00 x00 x00 x00)
(L (W x00 x00 x00 x00 x00 x00 x00 x00))
(L (W x18 x00 x00 x00 x0c x00 x00 x00)))))
(T (W xff xff xff xff xff xff xff xff)
(T (W x8c xf3 xfb xff x00 x01 x01 x01)
(T (W x00 x00 x62 x00 x70 x00 x08 x00)
(T (W x20 x00 x00 x00 x10 x00 x00 x00)
(L (W xff xff xff xff xff xff xff xff)) E)
(L (W x00 x00 x80 xbf x00 x00 x80 xbf)))
(T (W x2f x00 x00 x00 x32 x00 x00 x00)
(T (W xff xff xff xff xff xff xff xff)
(L (W xff xff xff xff xc0 x00 x00 x00)) E)
(L (W x54 x00 x00 x00 x48 x00 x00 x00))))
(T (W x45 x26 x22 x84 xe4 x9c xf2 xcb)
(T (W xff xff xff xff xff xff xff xff)
(T (W x45 x26 x22 x84 xe4 x9c xf2 xcb)
(L (W xff xff xff xff xff xff xff xff)) E)
(L (W xff xff xff xff xff xff xff xff)))
(T (W xff xff xff xff xff xff xff xff)
(L (W x00 x00 x80 xbf x00 x00 x80 xbf))
(L (W xff xff xff xff xff xff xff xff))))))
(T (W x00 x00 x00 x00 x00 x00 x00 x00)
(T (W x00 x00 x00 x00 x00 x00 x00 x00)
(T (W xff xff xff xff xff xff xff xff)
(T (W x00 x00 x00 x00 x00 x00 x00 x00)
(T (W x00 x00 x00 x00 x00 x00 x00 x00)
(L (W x6c x00 x00 x00 x60 x00 x00 x00)) E)
(L (W x54 x00 x00 x00 x48 x00 x00 x00)))
(T (W x00 x00 x00 x00 x00 x00 x00 x00)
(T (W x00 x00 x80 xbf x00 x00 x80 xbf)
(L (W x00 x00 x00 x00 x00 x00 x00 x00)) E)
(L (W x00 x00 x80 xbf x00 x00 x80 xbf))))
(T (W x00 x00 x80 x3f x00 x00 x80 x3f)
(T (W x45 x26 x22 x84 xe4 x9c xf2 xcb)
(T (W x00 x00 x80 xbf x00 x00 x80 xbf)
(L (W x00 x00 x80 xbf x00 x00 x80 xbf)) E)
(L (W xff xff xff xff xff xff xff xff)))
(T (W xb8 x00 x00 x00 x64 x00 x00 x00)
(L (W x4f x84 x6f x8b xe8 xcb x63 xb7))
(L (W xff xff xff xff xff xff xff xff)))))
(T (W xff xff xff xff xff xff xff xff)
(T (W xaa xfe xfb xff x74 x00 x00 x00)
(T (W x46 x53 x59 x53 x5f x4e x53 x5f)
(T (W xb8 x00 x00 x00 xac x00 x00 x00)
(L (W xff xff xff xff xff xff xff xff)) E)
(L (W x45 x26 x22 x84 xe4 x9c xf2 xcb)))
(T (W x9c x01 x00 x00 xff xff xff xff)
(T (W xb0 x00 x00 x00 x64 x00 x00 x00)
(L (W x00 x00 x80 xbf x00 x00 x80 xbf)) E)
(L (W x00 x00 x80 xbf x00 x00 x80 xbf))))
(T (W x00 x00 x00 x00 x00 x00 x00 x00)
(T (W x00 x00 x00 x00 x00 x00 x00 x00)
(T (W x03 x00 x00 x00 xd8 x00 x00 x00)
(L (W x00 x00 x00 x00 x00 x00 x00 x00)) E)
(L (W xff xff xff xff xff xff xff xff)))
(T (W x64 x00 x00 x00 x9c x00 x00 x00)
(L (W x00 x00 x80 xbf x00 x00 x80 xbf))
(L (W xff xff xff xff xff xff xff xff)))))))))))
(T (W xf0 xc9 x02 x00 x44 xc5 x02 x00)
(T (W x38 x06 x02 x00 xf4 x03 x02 x00)
(T (W x50 xbd x00 x00 x1c xbc x00 x00)
(T (W xff xff xff xff xff xff xff xff)
(T (W xff xff xff xff xff xff xff xff)
(T (W xff xff xff xff xff xff xff xff)
(T (W xff xff xff xff xff xff xff xff)
(T (W x00 x00 x80 x3f x00 x00 x80 x3f)
(T (W xff xff xff xff xff xff xff xff)
(T (W x00 x00 x80 x3f x00 x00 x80 x3f)
(L (W x45 x26 x22 x84 xe4 x9c xf2 xcb)) E)
(L (W x00 x00 x00 x00 x00 x00 x00 x00)))
(T (W xff xff xff xff xff xff xff xff)
(T (W x00 x00 x80 x3f x00 x00 x80 x3f)
(L (W xff xff xff xff xff xff xff xff)) E)
(L (W xff xff xff xff xb0 x00 x00 x00))))
(T (W x00 x00 x00 x00 x00 x00 x00 x00)
(T (W xff xff xff xff xff xff xff xff)
(T (W x00 x00 x80 x3f x00 x00 x80 x3f)
(L (W x54 x00 x00 x00 x48 x00 x00 x00)) E)
(L (W x45 x26 x22 x84 xe4 x9c xf2 xcb)))
(T (W x18 x00 x00 x00 x10 x00 x00 x00)
(T (W x00 x00 x80 xbf x00 x00 x80 xbf)
(L (W x2a x00 x00 x00 x74 x00 x00 x00)) E)
(L (W x00 x00 x00 x00 x00 x00 x00 x00)))))
(T (W x01 x00 x00 x00 x9c x00 x00 x00)
(T (W x00 x00 x80 x3f x00 x00 x80 x3f)
(T (W xff xff xff xff xff xff xff xff)
(T (W xff xff xff xff xff xff xff xff)
(L (W x00 x00 x00 x00 x00 x00 x00 x00)) E)
(L (W x00 x00 x00 x00 x00 x00 x00 x00)))
(T (W x80 x03 x00 x00 x54 x02 x00 x00)
(T (W x00 x00 x00 x00 x12 x00 x00 x00)
(L (W x00 x00 x62 x00 x6c x00 x04 x00)) E)
(L (W x00 x00 x00 x00 xda xe2 xfe xff))))
(T (W x00 x00 x00 x00 x00 x00 x00 x00)
(T (W x45 x26 x22 x84 xe4 x9c xf2 xcb)
(T (W x00 x00 x00 x00 x00 x00 x00 x00)
(L (W x00 x00 x01 x01 xbe x00 x00 x00)) E)
(L (W x70 x00 x00 x00 x64 x00 x00 x00)))
(T (W x00 x00 x80 x3f x00 x00 x80 x3f)
(L (W xff xff xff xff xff xff xff xff))
(L (W x6c x00 x00 x00 x60 x00 x00 x00))))))
(T (W x20 x01 x00 x00 x04 x00 x00 x00)
(T (W xb8 x00 x00 x00 xac x00 x00 x00)
(T (W x68 x00 x00 x00 x5c x00 x00 x00)
(T (W xff xff xff xff xff xff xff xff)
(T (W x00 x00 x00 x00 x00 x00 x00 x00)
(L (W x00 x00 x00 x00 xea x59 xff xff)) E)
(L (W x00 x00 x00 x00 x00 x00 x00 x00)))
(T (W x00 x00 x80 x3f x00 x00 x80 x3f)
(T (W xff xff xff xff xbc x00 x00 x00)
(L (W x00 x00 x00 x00 x00 x00 x00 x00)) E)
(L (W xff xff xff xff xff xff xff xff))))
(T (W x00 x00 x00 x00 x00 x00 x00 x00)
(T (W x24 x00 x00 x00 x0c x00 x00 x00)
(T (W x46 x00 x00 x00 x10 x00 x00 x00)
(L (W xff xff xff xff xff xff xff xff)) E)
(L (W x45 x26 x22 x84 xe4 x9c xf2 xcb)))
(T (W x4c x45 x41 x52 x45 x44 x00 x00)
(L (W xff xff xff xff xff xff xff xff))
(L (W x00 x00 x80 xbf x00 x00 x80 xbf)))))
(T (W x45 x26 x22 x84 xe4 x9c xf2 xcb)
(T (W x45 x26 x22 x84 xe4 x9c xf2 xcb)
(T (W xa4 x7b xfc xff x31 x00 x00 x00)
(T (W x64 x00 x00 x00 x9c x00 x00 x00)
(L (W x6c x00 x00 x00 x60 x00 x00 x00)) E)
(L (W x00 x00 x00 x00 x00 x00 x00 x00)))
(T (W x00 x00 x80 x3f x00 x00 x80 x3f)
(T (W x00 x00 x80 xbf x00 x00 x80 xbf)
(L (W x00 x00 x80 xbf x00 x00 x80 xbf)) E)
(L (W x00 x00 x00 x00 x00 x00 x00 x00))))
(T (W x40 x00 x00 x00 x10 x00 x00 x00)
(T (W xff xff xff xff xa0 x00 x00 x00)
(T (W x30 x35 x5f x43 x4c x45 x41 x52)
(L (W x18 x00 x00 x00 x10 x00 x00 x00)) E)
(L (W x54 x00 x00 x00 x48 x00 x00 x00)))
(T (W x2a x30 xfd xff x74 x00 x00 x00)
(L (W x00 x00 x00 x00 x00 x00 x00 x00))
(L (W x00 x00 x00 x00 x7c x33 xff xff)))))))
(T (W xff xff xff xff xff xff xff xff)
(T (W x64 x00 x68 x00 x62 x00 x00 x00)
(T (W xff xff xff xff xff xff xff xff)
(T (W x50 x00 x00 x00 x44 x00 x00 x00)
(T (W xff xff xff xff xff xff xff xff)
(T (W x00 x00 x00 x00 x00 x00 x00 x00)
(L (W xff xff xff xff xff xff xff xff)) E)
(L (W x00 x00 x00 x00 x12 x00 x00 x00)))
(T (W x00 x00 x00 x00 x00 x00 x00 x00)
(T (W x6c x00 x00 x00 x60 x00 x00 x00)
(L (W xff xff xff xff xff xff xff xff)) E)
(L (W x45 x26 x22 x84 xe4 x9c xf2 xcb))))
(T (W x00 x00 x00 x00 x00 x00 x00 x00)
(T (W xff xff xff xff xff xff xff xff)
(T (W x00 x00 x80 x3f x00 x00 x80 x3f)
(L (W x00 x00 x00 x00 x7c x8b xff xff)) E)
(L (W x6c x00 x00 x00 x60 x00 x00 x00)))
(T (W xff xff xff xff xff xff xff xff)
(L (W xff xff xff xff xa0 x00 x00 x00))
(L (W x4f x84 x6f x8b xe8 xcb x63 xb7)))))
(T (W x0a x00 x00 x00 x3e x00 x00 x00)
(T (W x00 x00 x80 x3f x00 x00 x80 x3f)
(T (W x54 x00 x00 x00 x00 x00 x00 x00)
(T (W xff xff xff xff xff xff xff xff)
(L (W x45 x26 x22 x84 xe4 x9c xf2 xcb)) E)
(L (W x4f x84 x6f x8b xe8 xcb x63 xb7)))
(T (W x12 x00 x00 x00 x46 x53 x59 x53)
(T (W x45 x26 x22 x84 xe4 x9c xf2 xcb)
(L (W x45 x26 x22 x84 xe4 x9c xf2 xcb)) E)
(L (W x00 x00 x00 x00 x00 x00 x00 x00))))
(T (W x00 x00 x00 x00 x00 x00 x00 x00)
(T (W x6c x00 x00 x00 x60 x00 x00 x00)
(T (W xff xff xff xff xb0 x00 x00 x00)
(L (W x00 x00 x80 xbf x00 x00 x80 xbf)) E)
(L (W x00 x00 x00 x00 x00 x00 x64 x00)))
(T (W x68 x00 x00 x00 x5c x00 x00 x00)
(L (W xff xff xff xff xff xff xff xff))
(L (W x18 x00 x00 x00 x0c x00 x00 x00))))))
(T (W xff xff xff xff xff xff xff xff)
(T (W x45 x26 x22 x84 xe4 x9c xf2 xcb)
(T (W x2a xd8 xfb xff x74 x00 x00 x00)
(T (W xff xff xff xff xff xff xff xff)
(T (W x45 x00 x00 x00 x10 x00 x00 x00)
(L (W x00 x00 x00 x00 x00 x00 x00 x00)) E)
(L (W x46 x53 x59 x53 x5f x4e x53 x5f)))
(T (W xb0 x00 x00 x00 x64 x00 x00 x00)
(T (W xff xff xff xff xff xff xff xff)
(L (W xff xff xff xff xff xff xff xff)) E)
(L (W xff xff xff xff xff xff xff xff))))
(T (W x00 x00 x00 x00 x00 x00 x00 x00)
(T (W x00 x00 x00 x00 x00 x00 x00 x00)
(T (W x00 x00 x80 xbf x00 x00 x80 xbf)
(L (W xff xff xff xff xff xff xff xff)) E)
(L (W xff xff xff xff xff xff xff xff)))
(T (W x00 x00 x00 x00 x00 x00 x00 x00)
(L (W x00 x00 x00 x00 xea x21 xfe xff))
(L (W x00 x00 x00 x00 x10 x1d xff xff)))))
(T (W x68 x00 x00 x00 x5c x00 x00 x00)
(T (W x00 x00 x00 x00 x00 x00 x00 x00)
(T (W x18 x00 x00 x00 x10 x00 x00 x00)
(T (W x45 x26 x22 x84 xe4 x9c xf2 xcb)
(L (W x00 x00 x80 xbf x00 x00 x80 xbf)) E)
(L (W x00 x00 x80 xbf x00 x00 x80 xbf)))
(T (W x0c xfd xfc xff x00 x01 x01 x01)
(T (W x00 x00 x00 x00 x00 x00 x00 x00)
(L (W xff xff xff xff xff xff xff xff)) E)
(L (W x45 x44 x00 x00 x00 x00 x00 x00))))
(T (W xe2 xaa xfe xff x00 x00 x01 x01)
(T (W xff xff xff xff xff xff xff xff)
(T (W x00 x00 x80 x3f x00 x00 x80 x3f)
(L (W xff xff xff xff xb0 x00 x00 x00)) E)
(L (W xe2 xb9 xfe xff x78 x00 x00 x00)))
(T (W x00 x00 x80 x3f x00 x00 x80 x3f)
(L (W x00 x00 x00 x00 x00 x00 x00 x00))
(L (W xff xff xff xff xb0 x00 x00 x00))))))))
(T (W x00 x00 x80 x3f x00 x00 x80 x3f)
(T (W x00 x00 x80 x3f x00 x00 x80 x3f)
(T (W x00 x00 x80 x3f x00 x00 x80 x3f)
(T (W x00 x00 x80 x3f x00 x00 x80 x3f)
(T (W x00 x00 x00 x00 x00 x00 x00 x00)
(T (W x00 x00 x80 x3f x00 x00 x80 x3f)
(T (W xff xff xff xff xff xff xff xff)
(L (W x46 x53 x59 x53 x5f x4e x53 x5f)) E)
(L (W x6c x00 x00 x00 x60 x00 x00 x00)))
(T (W x68 x00 x00 x00 x5c x00 x00 x00)
(T (W xff xff xff xff xff xff xff xff)
(L (W x00 x00 x00 x00 x00 x00 x00 x00)) E)
(L (W x00 x00 x00 x00 x00 x00 x00 x00))))
(T (W xff xff xff xff x03 x00 x00 x00)
(T (W x00 x00 x80 x3f x00 x00 x80 x3f)
(T (W x36 x00 x00 x00 x10 x00 x00 x00)
(L (W x00 x00 x00 x00 x00 x00 x00 x00)) E)
(L (W xff xff xff xff xff xff xff xff)))
(T (W x00 x00 x00 x00 x00 x00 x00 x00)
(L (W x00 x00 x00 x00 x00 x00 x00 x00))
(L (W x00 x00 x00 x00 x7c x07 xff xff)))))
(T (W x00 x00 x00 x00 x00 x00 x00 x00)
(T (W xff xff xff xff xff xff xff xff)
(T (W x00 x00 x00 x00 x00 x00 x00 x00)
(T (W x00 x00 x80 x3f x00 x00 x80 x3f)
(L (W xff xff xff xff xff xff xff xff)) E)
(L (W xbc x00 x00 x00 x64 x00 x00 x00)))
(T (W x68 x00 x00 x00 x5c x00 x00 x00)
(T (W xff xff xff xff xff xff xff xff)
(L (W x45 x26 x22 x84 xe4 x9c xf2 xcb)) E)
(L (W x45 x26 x22 x84 xe4 x9c xf2 xcb))))
(T (W x00 x00 x80 x3f x00 x00 x80 x3f)
(T (W xff xff xff xff xff xff xff xff)
(T (W xff xff xff xff xff xff xff xff)
(L (W x00 x00 x80 xbf x00 x00 x80 xbf)) E)
(L (W x46 x53 x59 x53 x5f x4e x53 x5f)))
(T (W x80 x03 x00 x00 x54 x02 x00 x00)
(L (W x00 x00 x00 x00 x00 x00 x00 x00))
(L (W x00 x00 x00 x00 x00 x00 x00 x00))))))
(T (W x45 x26 x22 x84 xe4 x9c xf2 xcb)
(T (W x00 x00 x00 x00 x00 x00 x00 x00)
(T (W x63 x01 x00 x00 xff xff xff xff)
(T (W x00 x00 x80 x3f x00 x00 x80 x3f)
(T (W x18 x00 x00 x00 x0c x00 x00 x00)
(L (W xff xff xff xff xb0 x00 x00 x00)) E)
(L (W x58 x00 x00 x00 x4c x00 x00 x00)))
(T (W xa4 xdf xfc xff x24 x00 x00 x00)
(T (W x00 x00 x80 xbf x00 x00 x80 xbf)
(L (W x00 x00 x80 xbf x00 x00 x80 xbf)) E)
(L (W x00 x00 x80 xbf x00 x00 x80 xbf))))
(T (W x18 x00 x00 x00 x0c x00 x00 x00)
(T (W x31 x00 x00 x00 x34 x00 x00 x00)
(T (W x03 x00 x00 x00 xbc x00 x00 x00)
(L (W x00 x00 x80 xbf x00 x00 x80 xbf)) E)
(L (W x00 x00 x00 x00 x00 x00 x00 x00)))
(T (W x2d x00 x00 x00 x30 x00 x00 x00)
(L (W x45 x26 x22 x84 xe4 x9c xf2 xcb))
(L (W xa9 x01 x00 x00 xff xff xff xff)))))
(T (W x00 x00 x00 x00 x00 x00 x00 x00)
(T (W xff xff xff xff xff xff xff xff)
(T (W x74 x7c xfc xff x14 x00 x00 x00)
(T (W xff xff xff xff xff xff xff xff)
(L (W x04 x00 x00 x00 x58 x03 x00 x00)) E)
(L (W xb0 x00 x00 x00 x14 x00 x00 x00)))
(T (W x92 x4b xfd xff x9d x01 x00 x00)
(T (W xff xff xff xff xff xff xff xff)
(L (W x00 x00 x80 xbf x00 x00 x80 xbf)) E)
(L (W x45 x26 x22 x84 xe4 x9c xf2 xcb))))
(T (W x2a x34 xfc xff x74 x00 x00 x00)
(T (W x00 x00 x00 x00 x00 x00 x00 x00)
(T (W x00 x00 x00 x00 x00 x00 x00 x00)
(L (W x00 x00 x00 x00 x12 x00 x00 x00)) E)
(L (W xff xff xff xff xff xff xff xff)))
(T (W x02 x00 x00 x00 x20 x01 x00 x00)
(L (W xff xff xff xff xbc x00 x00 x00))
(L (W x30 x35 x5f x43 x4c x45 x41 x52)))))))
(T (W x00 x00 x80 x3f x00 x00 x80 x3f)
(T (W x00 x00 x80 x3f x00 x00 x80 x3f)
(T (W x00 x00 x80 x3f x00 x00 x80 x3f)
(T (W x59 x79 x70 xbe x01 x2c x1d x96)
(T (W x00 x00 x80 x3f x00 x00 x80 x3f)
(T (W x64 x00 x00 x00 x9c x00 x00 x00)
(L (W x45 x26 x22 x84 xe4 x9c xf2 xcb)) E)
(L (W x0c x51 xfe xff x00 x01 x01 x01)))
(T (W xff xff xff xff xff xff xff xff)
(T (W x00 x00 x00 x00 x00 x00 x00 x00)
(L (W x00 x00 x80 xbf x00 x00 x80 xbf)) E)
(L (W x00 x00 x00 x00 x00 x00 x00 x00))))
(T (W xff xff xff xff xff xff xff xff)
(T (W xe2 x8d xfc xff x78 x00 x00 x00)
(T (W xff xff xff xff xff xff xff xff)
(L (W x00 x00 x00 x00 x00 x00 x00 x00)) E)
(L (W x01 x00 x00 x00 xff xff xff xff)))
(T (W x50 x00 x00 x00 x44 x00 x00 x00)
(L (W x00 x00 x00 x00 x00 x00 x00 x00))
(L (W xcc x00 x00 x00 x01 x00 x00 x00)))))
(T (W x00 x00 x00 x00 x00 x00 x00 x00)
(T (W xff xff xff xff xff xff xff xff)
(T (W x45 x26 x22 x84 xe4 x9c xf2 xcb)
(T (W x00 x00 x00 x00 x00 x00 x00 x00)
(L (W x00 x00 x00 x00 x12 x6d xff xff)) E)
(L (W x45 x26 x22 x84 xe4 x9c xf2 xcb)))
(T (W xff xff xff xff xff xff xff xff)
(T (W xff xff xff xff xff xff xff xff)
(L (W x00 x00 x00 x00 x52 xf0 xff xff)) E)
(L (W x1c x00 x00 x00 x10 x00 x00 x00))))
(T (W x68 x00 x00 x00 x5c x00 x00 x00)
(T (W x67 x67 x26 xbf x88 x9a x0d xfe)
(T (W x45 x26 x22 x84 xe4 x9c xf2 xcb)
(L (W x00 x00 x00 x00 x00 x00 x00 x00)) E)
(L (W xff xff xff xff xff xff xff xff)))
(T (W x00 x00 x00 x00 x00 x00 x00 x00)
(L (W xff xff xff xff xb0 x00 x00 x00))
(L (W x00 x00 x00 x00 x00 x00 x00 x00))))))
(T (W x00 x00 x80 x3f x00 x00 x80 x3f)
(T (W x00 x00 x00 x00 x00 x00 x00 x00)
(T (W xff xff xff xff xff xff xff xff)
(T (W x00 x00 x00 x00 x00 x00 x00 x00)
(T (W x00 x00 x80 x3f x00 x00 x80 x3f)
(L (W xff xff xff xff xff xff xff xff)) E)
(L (W xff xff xff xff xff xff xff xff)))
(T (W x45 x26 x22 x84 xe4 x9c xf2 xcb)
(T (W x68 x00 x00 x00 x5c x00 x00 x00)
(L (W x00 x00 x80 xbf x00 x00 x80 xbf)) E)
(L (W xe2 xdd xfe xff x78 x00 x00 x00))))
(T (W x2a x1c xfc xff x74 x00 x00 x00)
(T (W xff xff xff xff xff xff xff xff)
(T (W x00 x00 x80 xbf x00 x00 x80 xbf)
(L (W x00 x00 x80 xbf x00 x00 x80 xbf)) E)
(L (W x00 x00 x00 x00 x00 x00 x00 x00)))
(T (W xff xff xff xff xff xff xff xff)
(L (W x00 x00 x80 xbf x00 x00 x80 xbf))
(L (W xff xff xff xff xff xff xff xff)))))
(T (W x00 x00 x00 x00 x00 x00 x00 x00)
(T (W xff xff xff xff xff xff xff xff)
(T (W x00 x00 x00 x00 x00 x00 x00 x00)
(T (W xff xff xff xff xff xff xff xff)
(L (W x00 x00 x00 x00 xea x85 xff xff)) E)
(L (W xff xff xff xff xff xff xff xff)))
(T (W xa4 x07 xfd xff x10 x00 x00 x00)
(T (W xff xff xff xff xff xff xff xff)
(L (W x00 x00 x00 x00 x00 x00 x00 x00)) E)
(L (W x54 x00 x00 x00 x48 x00 x00 x00))))
(T (W x0c x41 xfc xff x00 x01 x01 x01)
(T (W x45 x26 x22 x84 xe4 x9c xf2 xcb)
(T (W xff xff xff xff xff xff xff xff)
(L (W x00 x00 x00 x00 x00 x00 x00 x00)) E)
(L (W x00 x00 x00 x00 x12 xbd xfe xff)))
(T (W xff xff xff xff xff xff xff xff)
(L (W x03 x00 x00 x00 xc8 x00 x00 x00))
(L (W x00 x00 x00 x00 x00 x00 x00 x00)))))))))
(T (W x50 x00 x00 x00 x44 x00 x00 x00)
(T (W x74 x52 xfb xff x22 x00 x00 x00)
(T (W x00 x00 x00 x00 x00 x00 x00 x00)
(T (W x00 x00 x00 x00 x00 x00 x00 x00)
(T (W x00 x00 x00 x00 x00 x00 x00 x00)
(T (W xff xff xff xff xff xff xff xff)
(T (W x00 x00 x00 x00 x00 x00 x00 x00)
(T (W x18 x00 x00 x00 x0c x00 x00 x00)
(L (W xc8 x00 x00 x00 xff xff xff xff)) E)
(L (W x00 x00 x80 xbf x00 x00 x80 xbf)))
(T (W x00 x00 x00 x00 x00 x00 x00 x00)
(T (W x32 x00 x00 x00 x35 x00 x00 x00)
(L (W x00 x00 x00 x00 x12 xc3 xff xff)) E)
(L (W xff xff xff xff xff xff xff xff))))
(T (W x00 x00 x80 x3f x00 x00 x80 x3f)
(T (W x29 x00 x00 x00 x0c x00 x00 x00)
(T (W x01 x00 x00 x00 x9c x00 x00 x00)
(L (W xff xff xff xff xff xff xff xff)) E)
(L (W x31 x00 x00 x00 x34 x00 x00 x00)))
(T (W x00 x00 x00 x00 x00 x00 x00 x00)
(L (W xff xff xff xff xff xff xff xff))
(L (W x00 x00 x80 xbf x00 x00 x80 xbf)))))
(T (W xff xff xff xff xff xff xff xff)
(T (W x0a x00 x00 x00 x3e x00 x00 x00)
(T (W x00 x00 x00 x00 x00 x00 x00 x00)
(T (W x00 x00 x00 x00 x00 x00 x00 x00)
(L (W x45 x26 x22 x84 xe4 x9c xf2 xcb)) E)
(L (W x00 x00 x80 xbf x00 x00 x80 xbf)))
(T (W x00 x00 x80 x3f x00 x00 x80 x3f)
(T (W x0c xe7 xfd xff x00 x01 x01 x01)
(L (W x3c x00 x00 x00 x00 x00 x80 xbf)) E)
(L (W x45 x26 x22 x84 xe4 x9c xf2 xcb))))
(T (W x00 x00 x80 x3f x00 x00 x80 x3f)
(T (W xff xff xff xff xa0 x00 x00 x00)
(T (W x68 x00 x00 x00 x5c x00 x00 x00)
(L (W x00 x00 x00 x00 x00 x00 x00 x00)) E)
(L (W xff xff xff xff xff xff xff xff)))
(T (W x2b x00 x00 x00 x2e x00 x00 x00)
(L (W x00 x00 x00 x00 xf2 x27 xfe xff))
(L (W xff xff xff xff xff xff xff xff))))))
(T (W x00 x00 x00 x00 x00 x00 x00 x00)
(T (W xc2 x3f x14 x21 xc8 x6c xc7 x22)
(T (W x45 x26 x22 x84 xe4 x9c xf2 xcb)
(T (W x40 x00 x00 x00 x0c x00 x00 x00)
(T (W x00 x00 x80 x3f x00 x00 x80 x3f)
(L (W x4f x84 x6f x8b xe8 xcb x63 xb7)) E)
(L (W x45 x26 x22 x84 xe4 x9c xf2 xcb)))
(T (W xff xff xff xff xff xff xff xff)
(T (W x00 x00 x00 x00 x00 x00 x00 x00)
(L (W x00 x00 x00 x00 x00 x00 x00 x00)) E)
(L (W x00 x00 x00 x00 x00 x00 x00 x00))))
(T (W x45 x26 x22 x84 xe4 x9c xf2 xcb)
(T (W x45 x26 x22 x84 xe4 x9c xf2 xcb)
(T (W x00 x00 x62 x00 x90 x00 x0c x00)
(L (W x00 x00 x00 x00 x00 x00 x00 x00)) E)
(L (W xff xff xff xff xff xff xff xff)))
(T (W x49 xa1 x68 x4a xeb x5f xdd x3d)
(L (W x1d x00 x00 x00 x0c x00 x00 x00))
(L (W xff xff xff xff xc8 x00 x00 x00)))))
(T (W xff xff xff xff xff xff xff xff)
(T (W x2a xf2 xfb xff x74 x00 x00 x00)
(T (W xff xff xff xff xff xff xff xff)
(T (W x00 x00 x80 x3f x00 x00 x80 x3f)
(L (W x03 x00 x00 x00 xd0 x00 x00 x00)) E)
(L (W x54 x00 x00 x00 x48 x00 x00 x00)))
(T (W x00 x00 x00 x00 x7c xf5 xfc xff)
(T (W x0c xf7 xfd xff x00 x01 x01 x01)
(L (W x00 x00 x01 x01 x18 x01 x00 x00)) E)
(L (W x00 x00 x80 xbf x00 x00 x80 xbf))))
(T (W x00 x00 x00 x00 x00 x00 x00 x00)
(T (W xff xff xff xff xff xff xff xff)
(T (W x03 x00 x00 x00 xfc x00 x00 x00)
(L (W x00 x00 x00 x00 x00 x00 x00 x00)) E)
(L (W xc4 x00 x00 x00 x01 x00 x00 x00)))
(T (W xff xff xff xff xff xff xff xff)
(L (W x00 x00 x80 xbf x00 x00 x80 xbf))
(L (W xaa x01 x00 x00 xff xff xff xff)))))))
(T (W x00 x00 x00 x00 x00 x00 x00 x00)
(T (W x00 x00 x00 x00 x00 x00 x00 x00)
(T (W x00 x00 x00 x00 x00 x00 x00 x00)
(T (W xb8 x00 x00 x00 xac x00 x00 x00)
(T (W x00 x00 x00 x00 x00 x00 x00 x00)
(T (W x00 x00 x80 x3f x00 x00 x80 x3f)
(L (W x00 x00 x00 x00 x00 x00 x00 x00)) E)
(L (W x00 x00 x80 xbf x00 x00 x80 xbf)))
(T (W x00 x00 x80 x3f x00 x00 x80 x3f)
(T (W xff xff xff xff xff xff xff xff)
(L (W x00 x00 x00 x00 x00 x00 x00 x00)) E)
(L (W x00 x00 x00 x00 x12 xcb xfe xff))))
(T (W x00 x00 x80 x3f x00 x00 x80 x3f)
(T (W x00 x00 x00 x00 x00 x00 x00 x00)
(T (W x64 x00 x00 x00 x9c x00 x00 x00)
(L (W xb5 x01 x00 x00 xff xff xff xff)) E)
(L (W xff xff xff xff xff xff xff xff)))
(T (W x00 x00 x00 x00 x00 x00 x00 x00)
(L (W xff xff xff xff xff xff xff xff))
(L (W x54 x00 x00 x00 x48 x00 x00 x00)))))
(T (W xff xff xff xff xff xff xff xff)
(T (W xc0 x00 x00 x00 xb4 x00 x00 x00)
(T (W xff xff xff xff xff xff xff xff)
(T (W x36 x00 x00 x00 x10 x00 x00 x00)
(L (W x45 x26 x22 x84 xe4 x9c xf2 xcb)) E)
(L (W x3c x00 x00 x00 x00 x00 x80 xbf)))
(T (W x68 x00 x00 x00 x5c x00 x00 x00)
(T (W x6c x00 x00 x00 x60 x00 x00 x00)
(L (W x00 x00 x00 x00 x7c xed xff xff)) E)
(L (W x00 x00 x80 xbf x00 x00 x80 xbf))))
(T (W x00 x00 x80 x3f x00 x00 x80 x3f)
(T (W xff xff xff xff xff xff xff xff)
(T (W x61 x64 x65 x72 x5f x77 x69 x6c)
(L (W xff xff xff xff xff xff xff xff)) E)
(L (W x45 x26 x22 x84 xe4 x9c xf2 xcb)))
(T (W xff xff xff xff xff xff xff xff)
(L (W x49 xa1 x68 x4a xeb x5f xdd x3d))
(L (W xff xff xff xff xff xff xff xff))))))
(T (W x00 x00 x00 x00 x00 x00 x00 x00)
(T (W xab x01 x00 x00 xff xff xff xff)
(T (W x01 x00 x00 x00 x9c x00 x00 x00)
(T (W x00 x00 x00 x00 x00 x00 x00 x00)
(T (W x00 x00 x00 x00 x00 x00 x00 x00)
(L (W x00 x00 x80 xbf x00 x00 x80 xbf)) E)
(L (W x00 x00 x80 xbf x00 x00 x80 xbf)))
(T (W x4d xd6 x77 x47 x99 x33 x5b x2f)
(T (W x00 x00 x00 x00 x00 x00 x00 x00)
(L (W x74 xe2 xff xff x2b x00 x00 x00)) E)
(L (W x00 x00 x80 xbf x00 x00 x80 xbf))))
(T (W x00 x00 x80 x3f x00 x00 x80 x3f)
(T (W x00 x00 x80 x3f x00 x00 x80 x3f)
(T (W x4c x00 x50 x00 x54 x00 x00 x00)
(L (W x00 x00 x00 x00 x00 x00 x00 x00)) E)
(L (W xff xff xff xff xff xff xff xff)))
(T (W x2a x1a xfd xff x74 x00 x00 x00)
(L (W x00 x00 x00 x00 x00 x00 x00 x00))
(L (W x03 x00 x00 x00 xd0 x00 x00 x00)))))
(T (W xff xff xff xff xff xff xff xff)
(T (W x0c xff xfb xff x00 x01 x01 x01)
(T (W xff xff xff xff xff xff xff xff)
(T (W x50 x00 x00 x00 x44 x00 x00 x00)
(L (W xff xff xff xff xff xff xff xff)) E)
(L (W x6c x00 x00 x00 x60 x00 x00 x00)))
(T (W xff xff xff xff xff xff xff xff)
(T (W x45 x26 x22 x84 xe4 x9c xf2 xcb)
(L (W x00 x00 x00 x00 x00 x00 x00 x00)) E)
(L (W x00 x00 x80 xbf x00 x00 x80 xbf))))
(T (W x45 x26 x22 x84 xe4 x9c xf2 xcb)
(T (W x2b xef xfa x2c x64 xd2 xa3 xcd)
(T (W x03 x00 x00 x00 xd0 x00 x00 x00)
(L (W xff xff xff xff xff xff xff xff)) E)
(L (W xff xff xff xff xff xff xff xff)))
(T (W x64 x00 x00 x00 x9c x00 x00 x00)
(L (W x00 x00 x80 xbf x00 x00 x80 xbf))
(L (W xff xff xff xff xff xff xff xff))))))))
(T (W x00 x00 x80 x3f x00 x00 x80 x3f)
(T (W x2a x56 xfb xff x74 x00 x00 x00)
(T (W x0b x4a x91 xdf xe3 x04 xad x23)
(T (W x00 x00 x80 x3f x00 x00 x80 x3f)
(T (W x00 x00 x80 x3f x00 x00 x80 x3f)
(T (W xc0 x00 x00 x00 xb4 x00 x00 x00)
(T (W x39 x00 x00 x00 x10 x00 x00 x00)
(L (W x00 x00 x80 xbf x00 x00 x80 xbf)) E)
(L (W xff xff xff xff xc4 x00 x00 x00)))
(T (W xff xff xff xff xff xff xff xff)
(T (W x46 x53 x59 x53 x5f x4e x53 x5f)
(L (W xff xff xff xff xb0 x00 x00 x00)) E)
(L (W x00 x00 x80 xbf x00 x00 x80 xbf))))
(T (W x00 x00 x00 x00 x00 x00 x00 x00)
(T (W x00 x00 x00 x00 x7c x89 xfc xff)
(T (W x00 x00 x00 x00 x00 x00 x00 x00)
(L (W x00 x00 x80 xbf x00 x00 x80 xbf)) E)
(L (W x5f x4e x53 x5f x30 x35 x5f x43)))
(T (W x18 x00 x00 x00 x0c x00 x00 x00)
(L (W x45 x26 x22 x84 xe4 x9c xf2 xcb))
(L (W xff xff xff xff xff xff xff xff)))))
(T (W x00 x00 x80 x3f x00 x00 x80 x3f)
(T (W x00 x00 x00 x00 x00 x00 x00 x00)
(T (W x50 x00 x00 x00 x44 x00 x00 x00)
(T (W x18 x00 x00 x00 x0c x00 x00 x00)
(L (W x00 x00 x00 x00 x00 x00 x00 x00)) E)
(L (W xff xff xff xff xff xff xff xff)))
(T (W xff xff xff xff xff xff xff xff)
(T (W x00 x00 x00 x00 x00 x00 x00 x00)
(L (W x05 x45 x45 xdc x00 xdb x55 x2f)) E)
(L (W xff xff xff xff xff xff xff xff))))
(T (W xff xff xff xff xff xff xff xff)
(T (W x00 x00 x00 x00 x00 x00 x00 x00)
(T (W x00 x00 x80 x3f x00 x00 x80 x3f)
(L (W x00 x00 x00 x00 x7c xa9 xff xff)) E)
(L (W x50 x00 x00 x00 x44 x00 x00 x00)))
(T (W x00 x00 x80 x3f x00 x00 x80 x3f)
(L (W x10 x00 x14 x00 x18 x00 x1c x00))
(L (W x00 x00 x00 x00 x00 x00 x00 x00))))))
(T (W x45 x26 x22 x84 xe4 x9c xf2 xcb)
(T (W x68 x00 x00 x00 x5c x00 x00 x00)
(T (W x00 x00 x00 x00 x00 x00 x00 x00)
(T (W x00 x00 x00 x00 x7c x59 xfc xff)
(T (W xff xff xff xff xff xff xff xff)
(L (W xff xff xff xff xff xff xff xff)) E)
(L (W xff xff xff xff xff xff xff xff)))
(T (W x00 x00 x80 x3f x00 x00 x80 x3f)
(T (W x18 x00 x00 x00 x0c x00 x00 x00)
(L (W x00 x00 x00 x00 x10 xdb xff xff)) E)
(L (W xff xff xff xff xa0 x00 x00 x00))))
(T (W xff xff xff xff xff xff xff xff)
(T (W xff xff xff xff xff xff xff xff)
(T (W xa4 xa1 xfd xff x32 x00 x00 x00)
(L (W x3b x00 x00 x00 x3e x00 x00 x00)) E)
(L (W x00 x00 x80 xbf x00 x00 x80 xbf)))
(T (W xff xff xff xff xff xff xff xff)
(L (W x45 x26 x22 x84 xe4 x9c xf2 xcb))
(L (W x00 x00 x00 x00 x00 x00 x00 x00)))))
(T (W x00 x00 x80 x3f x00 x00 x80 x3f)
(T (W x72 x67 xfe xff x18 x01 x00 x00)
(T (W x00 x00 x80 x3f x00 x00 x80 x3f)
(T (W x00 x00 x00 x00 x00 x00 x00 x00)
(L (W x00 x00 x00 x00 x00 x00 x00 x00)) E)
(L (W x00 x00 x00 x00 x00 x00 x00 x00)))
(T (W x00 x00 x00 x00 x00 x00 x00 x00)
(T (W x00 x00 x01 x01 x8f x00 x00 x00)
(L (W x45 x44 x00 x00 x00 x00 x00 x00)) E)
(L (W xff xff xff xff xff xff xff xff))))
(T (W x18 x00 x00 x00 x10 x00 x00 x00)
(T (W x00 x00 x80 x3f x00 x00 x80 x3f)
(T (W xff xff xff xff xff xff xff xff)
(L (W x49 xa1 x68 x4a xeb x5f xdd x3d)) E)
(L (W x00 x00 x00 x00 x00 x00 x00 x00)))
(T (W x00 x00 x00 x00 x00 x00 x00 x00)
(L (W x30 x35 x5f x43 x4c x45 x41 x52))
(L (W x00 x00 x00 x00 x00 x00 x00 x00)))))))
(T (W x40 x00 x00 x00 xa0 x00 x00 x00)
(T (W xff xff xff xff x04 x00 x00 x00)
(T (W x50 x00 x00 x00 x44 x00 x00 x00)
(T (W x00 x00 x00 x00 x00 x00 x00 x00)
(T (W xff xff xff xff x03 x00 x00 x00)
(T (W xff xff xff xff xff xff xff xff)
(L (W xff xff xff xff x9c x00 x00 x00)) E)
(L (W x00 x00 x01 x01 x5d x00 x00 x00)))
(T (W x00 x00 x00 x00 x00 x00 x00 x00)
(T (W x00 x00 x80 x3f x00 x00 x80 x3f)
(L (W x45 x26 x22 x84 xe4 x9c xf2 xcb)) E)
(L (W x45 x26 x22 x84 xe4 x9c xf2 xcb))))
(T (W x48 x03 x00 x00 x34 x02 x00 x00)
(T (W xff xff xff xff xff xff xff xff)
(T (W x68 x00 x00 x00 x5c x00 x00 x00)
(L (W x00 x00 x80 xbf x00 x00 x80 xbf)) E)
(L (W x00 x00 x00 x00 x00 x00 x00 x00)))
(T (W xb0 x00 x00 x00 x64 x00 x00 x00)
(L (W x00 x00 x80 xbf x00 x00 x80 xbf))
(L (W x27 xf2 x39 xdc x00 x65 x48 x2f)))))
(T (W x45 x26 x22 x84 xe4 x9c xf2 xcb)
(T (W x0a x16 xfa x86 x8f xfe x0b xd3)
(T (W x00 x00 x80 x3f x00 x00 x80 x3f)
(T (W x00 x00 x80 x3f x00 x00 x80 x3f)
(L (W x00 x00 x00 x00 x00 x00 x00 x00)) E)
(L (W xff xff xff xff xff xff xff xff)))
(T (W x3b xb9 xba x38 x99 xcf xdf x1c)
(T (W x00 x00 x00 x00 x00 x00 x00 x00)
(L (W x46 x53 x59 x53 x5f x4e x53 x5f)) E)
(L (W xff xff xff xff xff xff xff xff))))
(T (W xff xff xff xff x04 x00 x00 x00)
(T (W x45 x26 x22 x84 xe4 x9c xf2 xcb)
(T (W xff xff xff xff xc4 x00 x00 x00)
(L (W x00 x00 x80 xbf x00 x00 x80 xbf)) E)
(L (W x49 xa1 x68 x4a xeb x5f xdd x3d)))
(T (W x45 x26 x22 x84 xe4 x9c xf2 xcb)
(L (W xff xff xff xff xff xff xff xff))
(L (W x00 x00 x80 xbf x00 x00 x80 xbf))))))
(T (W x68 x00 x00 x00 x5c x00 x00 x00)
(T (W x2a x9e xfb xff x74 x00 x00 x00)
(T (W x00 x00 x00 x00 x00 x00 x00 x00)
(T (W x45 x26 x22 x84 xe4 x9c xf2 xcb)
(T (W x64 x00 x00 x00 x9c x00 x00 x00)
(L (W x00 x00 x00 x00 xea x67 xff xff)) E)
(L (W xff xff xff xff xff xff xff xff)))
(T (W x18 x00 x00 x00 x10 x00 x00 x00)
(T (W xff xff xff xff xff xff xff xff)
(L (W x18 x00 x00 x00 x10 x00 x00 x00)) E)
(L (W xff xff xff xff xff xff xff xff))))
(T (W xff xff xff xff xff xff xff xff)
(T (W x00 x00 x00 x00 x00 x00 x00 x00)
(T (W xff xff xff xff xff xff xff xff)
(L (W xff xff xff xff xff xff xff xff)) E)
(L (W x00 x00 x80 xbf x00 x00 x80 xbf)))
(T (W x12 x00 x00 x00 x46 x53 x59 x53)
(L (W x03 x00 x00 x00 xd0 x00 x00 x00))
(L (W x00 x00 x00 x00 x00 x00 x00 x00)))))
(T (W x00 x00 x80 x3f x00 x00 x80 x3f)
(T (W x00 x00 x00 x00 x00 x00 x00 x00)
(T (W xe2 x7f xfc xff x78 x00 x00 x00)
(T (W x00 x00 x00 x00 x00 x00 x00 x00)
(L (W x49 xa1 x68 x4a xeb x5f xdd x3d)) E)
(L (W x00 x00 x00 x00 x00 x00 x00 x00)))
(T (W x00 x00 x80 x3f x00 x00 x80 x3f)
(T (W x12 x00 x00 x00 x46 x53 x59 x53)
(L (W x45 x26 x22 x84 xe4 x9c xf2 xcb)) E)
(L (W xff xff xff xff xff xff xff xff))))
(T (W xb8 x00 x00 x00 xac x00 x00 x00)
(T (W x00 x00 x00 x00 x7c xc1 xfc xff)
(T (W x00 x00 x00 x00 x00 x00 x00 x00)
(L (W xe2 xbf xff xff x78 x00 x00 x00)) E)
(L (W x00 x00 x00 x00 x00 x00 x00 x00)))
(T (W x00 x00 x00 x00 x00 x00 x00 x00)
(L (W xff xff xff xff xff xff xff xff))
(L (W x00 x00 x80 xbf x00 x00 x80 xbf))))))))))
(T (W xf0 x68 x01 x00 x44 x64 x01 x00)
(T (W xd8 x2a x00 x00 x8c x28 x00 x00)
(T (W xff xff xff xff xff xff xff xff)
(T (W x04 x00 x00 x00 x22 xe0 xfd xff)
(T (W x04 x00 x00 x00 x22 xf0 xfd xff)
(T (W xc0 x01 x00 x00 xff xff xff xff)
(T (W x45 x26 x22 x84 xe4 x9c xf2 xcb)
(T (W x3e x00 x00 x00 x0c x00 x00 x00)
(T (W x00 x00 x80 x3f x00 x00 x80 x3f)
(L (W xff xff xff xff xff xff xff xff)) E)
(L (W x49 xa1 x68 x4a xeb x5f xdd x3d)))
(T (W xa4 xcc xfc xff x2f x00 x00 x00)
(T (W xe2 xc2 xfd xff x78 x00 x00 x00)
(L (W xff xff xff xff xff xff xff xff)) E)
(L (W xff xff xff xff xff xff xff xff))))
(T (W x45 x26 x22 x84 xe4 x9c xf2 xcb)
(T (W xff xff xff xff xff xff xff xff)
(T (W x00 x00 x80 x3f x00 x00 x80 x3f)
(L (W x45 x26 x22 x84 xe4 x9c xf2 xcb)) E)
(L (W xe2 x82 xfe xff x78 x00 x00 x00)))
(T (W xff xff xff xff xff xff xff xff)
(L (W x00 x00 x00 x00 x7c x04 xfe xff))
(L (W x00 x00 x00 x00 x00 x00 x00 x00)))))
(T (W xb8 x00 x00 x00 xac x00 x00 x00)
(T (W x18 x00 x00 x00 x0c x00 x00 x00)
(T (W x2a xf6 xff xff x40 x00 x00 x00)
(T (W x42 x00 x00 x00 x10 x00 x00 x00)
(L (W x00 x00 x80 xbf x00 x00 x80 xbf)) E)
(L (W x00 x00 x00 x00 x00 x00 x00 x00)))
(T (W x00 x00 x00 x00 x00 x00 x00 x00)
(T (W x00 x00 x00 x00 x00 x00 x00 x00)
(L (W x00 x00 x80 xbf x00 x00 x80 xbf)) E)
(L (W x00 x00 x00 x00 x12 x00 x00 x00))))
(T (W x00 x00 x80 x3f x00 x00 x80 x3f)
(T (W x6c x00 x00 x00 x60 x00 x00 x00)
(T (W x00 x00 x80 xbf x00 x00 x80 xbf)
(L (W x30 x35 x5f x43 x4c x45 x41 x52)) E)
(L (W xff xff xff xff xff xff xff xff)))
(T (W x00 x00 x80 x3f x00 x00 x80 x3f)
(L (W x00 x00 x00 x00 x02 x41 xfe xff))
(L (W x18 x00 x00 x00 x0c x00 x00 x00))))))
(T (W x00 x00 x00 x00 x00 x00 x00 x00)
(T (W xff xff xff xff xff xff xff xff)
(T (W x0c xd6 xfb xff x00 x01 x01 x01)
(T (W xff xff xff xff xff xff xff xff)
(T (W x00 x00 x00 x00 x00 x00 x00 x00)
(L (W x00 x00 x00 x00 x00 x00 x00 x00)) E)
(L (W x00 x00 x00 x00 x00 x00 x00 x00)))
(T (W x00 x00 x00 x00 x7c xd4 xfc xff)
(T (W x02 x00 x00 x00 xff xff xff xff)
(L (W x00 x00 x00 x00 x00 x00 x00 x00)) E)
(L (W x3f x00 x00 x00 xff xff xff xff))))
(T (W x45 x26 x22 x84 xe4 x9c xf2 xcb)
(T (W x00 x00 x00 x00 x00 x00 x00 x00)
(T (W x00 x00 x2a x00 x3c x00 x2c x00)
(L (W x45 x44 x00 x00 x00 x00 x00 x00)) E)
(L (W xc4 x00 x00 x00 x02 x00 x00 x00)))
(T (W x00 x00 x00 x00 x00 x00 x00 x00)
(L (W xff xff xff xff xff xff xff xff))
(L (W x45 x26 x22 x84 xe4 x9c xf2 xcb)))))
(T (W xff xff xff xff xff xff xff xff)
(T (W x54 x00 x00 x00 x48 x00 x00 x00)
(T (W xe2 x72 xfc xff x78 x00 x00 x00)
(T (W x20 x00 x24 x00 x28 x00 x2c x00)
(L (W x18 x00 x00 x00 x10 x00 x00 x00)) E)
(L (W x00 x00 x80 xbf x00 x00 x80 xbf)))
(T (W x00 x00 x80 x3f x00 x00 x80 x3f)
(T (W x54 x00 x00 x00 x48 x00 x00 x00)
(L (W x78 xf4 xff xff x6a xfd xff xff)) E)
(L (W x00 x00 x80 xbf x00 x00 x80 xbf))))
(T (W x00 x00 x00 x00 x00 x00 x00 x00)
(T (W xff xff xff xff xff xff xff xff)
(T (W x00 x00 x00 x00 x00 x00 x00 x00)
(L (W xff xff xff xff xff xff xff xff)) E)
(L (W x45 x26 x22 x84 xe4 x9c xf2 xcb)))
(T (W x00 x00 x00 x00 x7c x34 xfd xff)
(L (W x49 xa1 x68 x4a xeb x5f xdd x3d))
(L (W xff xff xff xff xff xff xff xff)))))))
(T (W x00 x00 x01 x01 x3a x02 x00 x00)
(T (W x00 x00 x00 x00 x00 x00 x00 x00)
(T (W xe2 xfb xfd xff x00 x00 x01 x01)
(T (W x68 x00 x00 x00 x5c x00 x00 x00)
(T (W xe2 xbb xfe xff x00 x00 x01 x01)
(T (W x00 x00 x80 x3f x00 x00 x80 x3f)
(L (W xff xff xff xff xff xff xff xff)) E)
(L (W x45 x26 x22 x84 xe4 x9c xf2 xcb)))
(T (W x45 x26 x22 x84 xe4 x9c xf2 xcb)
(T (W x18 x00 x00 x00 x10 x00 x00 x00)
(L (W x00 x00 x00 x00 x00 x00 x00 x00)) E)
(L (W xff xff xff xff xff xff xff xff))))
(T (W x00 x00 x00 x00 x00 x00 x00 x00)
(T (W x20 x00 x00 x00 x0c x00 x00 x00)
(T (W x18 x00 x00 x00 x0c x00 x00 x00)
(L (W xff xff xff xff xff xff xff xff)) E)
(L (W xff xff xff xff xa0 x00 x00 x00)))
(T (W xca x5f xfe xff x9c x01 x00 x00)
(L (W xff xff xff xff xff xff xff xff))
(L (W x00 x00 x80 xbf x00 x00 x80 xbf)))))
(T (W xff xff xff xff xff xff xff xff)
(T (W x00 x00 x80 x3f x00 x00 x80 x3f)
(T (W x00 x00 x00 x00 x00 x00 x00 x00)
(T (W xff xff xff xff xff xff xff xff)
(L (W x54 x00 x00 x00 x48 x00 x00 x00)) E)
(L (W x00 x00 x80 xbf x00 x00 x80 xbf)))
(T (W x00 x00 x00 x00 x00 x00 x00 x00)
(T (W x00 x00 x80 xbf x00 x00 x80 xbf)
(L (W x00 x00 x80 xbf x00 x00 x80 xbf)) E)
(L (W x00 x00 x80 xbf x00 x00 x80 xbf))))
(T (W x00 x00 x00 x00 x00 x00 x00 x00)
(T (W xff xff xff xff xa0 x00 x00 x00)
(T (W xff xff xff xff xff xff xff xff)
(L (W xff xff xff xff xff xff xff xff)) E)
(L (W x00 x00 x00 x00 x00 x00 x00 x00)))
(T (W xff xff xff xff x03 x00 x00 x00)
(L (W x00 x00 x00 x00 x00 x00 x00 x00))
(L (W xff xff xff xff xff xff xff xff))))))
(T (W x70 x0d x1a x77 xa4 x87 x95 x1f)
(T (W xff xff xff xff xff xff xff xff)
(T (W x45 x26 x22 x84 xe4 x9c xf2 xcb)
(T (W x40 x00 x00 x00 xff xff xff xff)
(T (W x00 x00 x00 x00 x00 x00 x00 x00)
(L (W x00 x00 x00 x00 x00 x00 x00 x00)) E)
(L (W x00 x00 x00 x00 x00 x00 x00 x00)))
(T (W xff xff xff xff xff xff xff xff)
(T (W x45 x44 x00 x00 x00 x00 x00 x00)
(L (W xff xff xff xff xff xff xff xff)) E)
(L (W x74 xe1 xfe xff x18 x00 x00 x00))))
(T (W x45 x26 x22 x84 xe4 x9c xf2 xcb)
(T (W x00 x00 x80 x3f x00 x00 x80 x3f)
(T (W x45 x26 x22 x84 xe4 x9c xf2 xcb)
(L (W x00 x00 x00 x00 x00 x00 x00 x00)) E)
(L (W xff xff xff xff xff xff xff xff)))
(T (W x00 x00 x80 x3f x00 x00 x80 x3f)
(L (W x00 x00 x00 x00 x00 x00 x00 x00))
(L (W x3b x00 x00 x00 x3e x00 x00 x00)))))
(T (W xb8 x00 x00 x00 xac x00 x00 x00)
(T (W x00 x00 x80 x3f x00 x00 x80 x3f)
(T (W x03 x00 x00 x00 xd8 x00 x00 x00)
(T (W x00 x00 x80 x3f x00 x00 x80 x3f)
(L (W x18 x00 x00 x00 x0c x00 x00 x00)) E)
(L (W x00 x00 x80 xbf x00 x00 x80 xbf)))
(T (W xb8 x00 x00 x00 x64 x00 x00 x00)
(T (W x00 x00 x80 xbf x00 x00 x80 xbf)
(L (W x43 x00 x00 x00 xff xff xff xff)) E)
(L (W x00 x00 x00 x00 x00 x00 x00 x00))))
(T (W x00 x00 x00 x00 x00 x00 x00 x00)
(T (W xff xff xff xff xff xff xff xff)
(T (W x00 x00 x80 x3f x00 x00 x80 x3f)
(L (W xff xff xff xff xff xff xff xff)) E)
(L (W x18 x00 x00 x00 x0c x00 x00 x00)))
(T (W x18 x00 x00 x00 x0c x00 x00 x00)
(L (W x45 x26 x22 x84 xe4 x9c xf2 xcb))
(L (W xff xff xff xff xff xff xff xff))))))))
(T (W x00 x00 x80 x3f x00 x00 x80 x3f)
(T (W x50 x00 x00 x00 x44 x00 x00 x00)
(T (W xff xff xff xff xff xff xff xff)
(T (W x00 x00 x80 x3f x00 x00 x80 x3f)
(T (W x00 x00 x00 x00 x00 x00 x00 x00)
(T (W x40 x00 x00 x00 x9c x00 x00 x00)
(T (W xff xff xff xff xff xff xff xff)
(L (W x00 x00 x00 x00 x00 x00 x00 x00)) E)
(L (W x45 x26 x22 x84 xe4 x9c xf2 xcb)))
(T (W xb0 x00 x00 x00 x64 x00 x00 x00)
(T (W x00 x00 x01 x01 x1a x00 x00 x00)
(L (W x00 x00 x80 xbf x00 x00 x80 xbf)) E)
(L (W x00 x00 x00 x00 x00 x00 x00 x00))))
(T (W xd9 x01 x00 x00 xff xff xff xff)
(T (W x00 x00 x80 x3f x00 x00 x80 x3f)
(T (W x00 x00 x00 x00 x00 x00 x00 x00)
(L (W x00 x00 x00 x00 x00 x00 x00 x00)) E)
(L (W xd7 x00 x00 x00 xff xff xff xff)))
(T (W x00 x00 x80 x3f x00 x00 x80 x3f)
(L (W x00 x00 x00 x00 x00 x00 x00 x00))
(L (W xff xff xff xff xff xff xff xff)))))
(T (W x00 x00 x80 x3f x00 x00 x80 x3f)
(T (W x1a x01 x00 x00 xff xff xff xff)
(T (W x00 x00 x80 x3f x00 x00 x80 x3f)
(T (W x00 x00 x80 x3f x00 x00 x80 x3f)
(L (W xa9 x01 x00 x00 xff xff xff xff)) E)
(L (W xff xff xff xff xff xff xff xff)))
(T (W xff xff xff xff xff xff xff xff)
(T (W xbe x00 x00 x00 xff xff xff xff)
(L (W xff xff xff xff xe4 x00 x00 x00)) E)
(L (W xc4 x00 x00 x00 x01 x00 x00 x00))))
(T (W x18 x00 x00 x00 x0c x00 x00 x00)
(T (W x95 x3a x56 xf6 x11 x0e xd8 x96)
(T (W x00 x00 x00 x00 x00 x00 x00 x00)
(L (W x00 x00 x80 xbf x00 x00 x80 xbf)) E)
(L (W x00 x00 x00 x00 x00 x00 x00 x00)))
(T (W x00 x00 x00 x00 x00 x00 x00 x00)
(L (W x2c x00 x00 x00 x00 x00 x80 xbf))
(L (W x00 x00 x00 x00 x00 x00 x00 x00))))))
(T (W x00 x00 x80 x3f x00 x00 x80 x3f)
(T (W x00 x00 x80 x3f x00 x00 x80 x3f)
(T (W x00 x00 x00 x00 x00 x00 x00 x00)
(T (W x6c x00 x00 x00 x60 x00 x00 x00)
(T (W x64 x00 x00 x00 x9c x00 x00 x00)
(L (W xff xff xff xff xff xff xff xff)) E)
(L (W xc4 x00 x00 x00 x01 x00 x00 x00)))
(T (W x00 x00 x00 x00 x00 x00 x00 x00)
(T (W xe2 xd6 xfd xff x78 x00 x00 x00)
(L (W x00 x00 x80 xbf x00 x00 x80 xbf)) E)
(L (W xe2 xd6 xfe xff x78 x00 x00 x00))))
(T (W xff xff xff xff xff xff xff xff)
(T (W xff xff xff xff xff xff xff xff)
(T (W xff xff xff xff xff xff xff xff)
(L (W xe2 x96 xff xff x78 x00 x00 x00)) E)
(L (W x45 x26 x22 x84 xe4 x9c xf2 xcb)))
(T (W xff xff xff xff xff xff xff xff)
(L (W x54 x00 x00 x00 x48 x00 x00 x00))
(L (W x00 x00 x00 x00 x00 x00 x00 x00)))))
(T (W x45 x26 x22 x84 xe4 x9c xf2 xcb)
(T (W xff xff xff xff xff xff xff xff)
(T (W x4f x84 x6f x8b xe8 xcb x63 xb7)
(T (W x72 xe6 xff xff xcf x00 x00 x00)
(L (W x00 x00 x00 x00 x12 x00 x00 x00)) E)
(L (W xff xff xff xff xff xff xff xff)))
(T (W x00 x00 x00 x00 x00 x00 x00 x00)
(T (W xff xff xff xff xff xff xff xff)
(L (W xff xff xff xff xff xff xff xff)) E)
(L (W xff xff xff xff xff xff xff xff))))
(T (W x45 x26 x22 x84 xe4 x9c xf2 xcb)
(T (W x00 x00 x80 x3f x00 x00 x80 x3f)
(T (W xe2 xb6 xfd xff x78 x00 x00 x00)
(L (W x00 x00 x00 x00 x00 x00 x00 x00)) E)
(L (W x00 x00 x00 x00 x00 x00 x00 x00)))
(T (W x00 x00 x00 x00 x00 x00 x00 x00)
(L (W x00 x00 x01 x01 xaa x01 x00 x00))
(L (W x00 x00 x00 x00 x00 x00 x00 x00)))))))
(T (W x0c x62 xfb xff x00 x01 x01 x01)
(T (W x68 x00 x00 x00 x5c x00 x00 x00)
(T (W x00 x00 x80 x3f x00 x00 x80 x3f)
(T (W x00 x00 x00 x00 x00 x00 x00 x00)
(T (W x50 x00 x00 x00 x44 x00 x00 x00)
(T (W xff xff xff xff xff xff xff xff)
(L (W x6c x00 x00 x00 x60 x00 x00 x00)) E)
(L (W xb8 x00 x00 x00 x64 x00 x00 x00)))
(T (W x04 x00 x00 x00 xea xd6 xfc xff)
(T (W x4f x84 x6f x8b xe8 xcb x63 xb7)
(L (W x00 x00 x80 xbf x00 x00 x80 xbf)) E)
(L (W x00 x00 x80 xbf x00 x00 x80 xbf))))
(T (W xff xff xff xff xff xff xff xff)
(T (W x31 x00 x00 x00 x34 x00 x00 x00)
(T (W x1b x00 x00 x00 x0c x00 x00 x00)
(L (W x45 x26 x22 x84 xe4 x9c xf2 xcb)) E)
(L (W x4c x45 x41 x52 x45 x44 x00 x00)))
(T (W x0c x12 xfd xff x00 x01 x01 x01)
(L (W x45 x26 x22 x84 xe4 x9c xf2 xcb))
(L (W xff xff xff xff xff xff xff xff)))))
(T (W x00 x00 x00 x00 x00 x00 x00 x00)
(T (W xff xff xff xff xff xff xff xff)
(T (W x00 x00 x80 x3f x00 x00 x80 x3f)
(T (W x00 x00 x80 x3f x00 x00 x80 x3f)
(L (W x00 x00 x00 x00 x00 x00 x00 x00)) E)
(L (W xff xff xff xff xb4 x00 x00 x00)))
(T (W xff xff xff xff xff xff xff xff)
(T (W xc4 x06 x00 x00 xb0 x05 x00 x00)
(L (W x00 x00 x00 x00 x00 x00 x00 x00)) E)
(L (W xff xff xff xff xff xff xff xff))))
(T (W x2a x2d xfc xff x74 x00 x00 x00)
(T (W x00 x00 x00 x00 x00 x00 x00 x00)
(T (W x45 x26 x22 x84 xe4 x9c xf2 xcb)
(L (W x4f x84 x6f x8b xe8 xcb x63 xb7)) E)
(L (W x74 xb5 xfe xff x32 x00 x00 x00)))
(T (W x00 x00 x00 x00 x00 x00 x00 x00)
(L (W xff xff xff xff xff xff xff xff))
(L (W x00 x00 x00 x00 x00 x00 x00 x00))))))
(T (W x00 x00 x80 x3f x00 x00 x80 x3f)
(T (W x45 x26 x22 x84 xe4 x9c xf2 xcb)
(T (W x45 xd1 x07 x3e xf7 xaa xe4 x05)
(T (W x00 x00 x80 x3f x00 x00 x80 x3f)
(T (W x18 x00 x00 x00 x0c x00 x00 x00)
(L (W xff xff xff xff xff xff xff xff)) E)
(L (W xff xff xff xff xff xff xff xff)))
(T (W x00 x00 x80 x3f x00 x00 x80 x3f)
(T (W x03 x00 x00 x00 xd0 x00 x00 x00)
(L (W x6c x00 x00 x00 x60 x00 x00 x00)) E)
(L (W xff xff xff xff xa0 x00 x00 x00))))
(T (W xff xff xff xff x04 x00 x00 x00)
(T (W x6a x01 x00 x00 xff xff xff xff)
(T (W x18 x00 x00 x00 x0c x00 x00 x00)
(L (W x50 x00 x00 x00 x44 x00 x00 x00)) E)
(L (W x00 x00 x00 x00 x00 x00 x00 x00)))
(T (W x22 x76 xfd xff x00 x00 x01 x01)
(L (W x00 x00 x80 xbf x00 x00 x80 xbf))
(L (W x00 x00 x00 x00 x00 x00 x00 x00)))))
(T (W x45 x26 x22 x84 xe4 x9c xf2 xcb)
(T (W xff xff xff xff xff xff xff xff)
(T (W x45 x26 x22 x84 xe4 x9c xf2 xcb)
(T (W xa4 x88 xfd xff x34 x00 x00 x00)
(L (W x00 x00 x00 x00 x00 x00 x00 x00)) E)
(L (W x00 x00 x00 x00 xea x86 xfe xff)))
(T (W x49 xa1 x68 x4a xeb x5f xdd x3d)
(T (W x30 x01 x00 x00 x04 x00 x00 x00)
(L (W x00 x00 x00 x00 x00 x00 x00 x00)) E)
(L (W x45 x26 x22 x84 xe4 x9c xf2 xcb))))
(T (W x18 x00 x00 x00 x10 x00 x00 x00)
(T (W x00 x00 x80 x3f x00 x00 x80 x3f)
(T (W x45 x44 x00 x00 x00 x00 x00 x00)
(L (W x00 x00 x80 xbf x00 x00 x80 xbf)) E)
(L (W x00 x00 x00 x00 x00 x00 x00 x00)))
(T (W x38 x00 x00 x00 x10 x00 x00 x00)
(L (W xff xff xff xff xff xff xff xff))
(L (W x00 x00 x00 x00 x00 x00 x00 x00)))))))))
(T (W x64 x00 x00 x00 x9c x00 x00 x00)
(T (W x45 x26 x22 x84 xe4 x9c xf2 xcb)
(T (W x00 x00 x00 x00 x00 x00 x00 x00)
(T (W x45 x26 x22 x84 xe4 x9c xf2 xcb)
(T (W x45 x26 x22 x84 xe4 x9c xf2 xcb)
(T (W xe2 x35 xfe xff x00 x00 x01 x01)
(T (W x00 x00 x80 x3f x00 x00 x80 x3f)
(T (W x64 x00 x00 x00 x9c x00 x00 x00)
(L (W x00 x00 x00 x00 x72 x4e xff xff)) E)
(L (W x3c x00 x00 x00 x00 x00 x80 xbf)))
(T (W x00 x00 x80 x3f x00 x00 x80 x3f)
(T (W xff xff xff xff xff xff xff xff)
(L (W x00 x00 x00 x00 x00 x00 x00 x00)) E)
(L (W x00 x00 x00 x00 x00 x00 x00 x00))))
(T (W x01 x00 x00 x00 xa0 x00 x00 x00)
(T (W x00 x00 x00 x00 x00 x00 x00 x00)
(T (W xd0 x00 x00 x00 xac x00 x00 x00)
(L (W x00 x00 x00 x00 x00 x00 x00 x00)) E)
(L (W xff xff xff xff xff xff xff xff)))
(T (W x00 x00 x00 x00 x00 x00 x00 x00)
(L (W x7d x00 x00 x00 xff xff xff xff))
(L (W x00 x00 x80 xbf x00 x00 x80 xbf)))))
(T (W x4e xb9 x1a x3f x27 xcc x41 xb5)
(T (W xff xff xff xff xff xff xff xff)
(T (W x00 x00 x00 x00 x00 x00 x00 x00)
(T (W x00 x00 x00 x00 x00 x00 x00 x00)
(L (W xff xff xff xff xc8 x00 x00 x00)) E)
(L (W x0c x68 xfe xff x00 x01 x01 x01)))
(T (W x00 x00 x80 x3f x00 x00 x80 x3f)
(T (W xbc x00 x00 x00 x64 x00 x00 x00)
(L (W x78 xe6 xff xff x62 xf4 xff xff)) E)
(L (W x54 x00 x00 x00 x48 x00 x00 x00))))
(T (W x00 x00 x80 x3f x00 x00 x80 x3f)
(T (W xff xff xff xff xff xff xff xff)
(T (W x03 x00 x00 x00 xbc x00 x00 x00)
(L (W x4f x84 x6f x8b xe8 xcb x63 xb7)) E)
(L (W x00 x00 x00 x00 x72 xae xfe xff)))
(T (W xff xff xff xff xff xff xff xff)
(L (W x00 x00 x00 x00 x12 x00 x00 x00))
(L (W xff xff xff xff xff xff xff xff))))))
(T (W x00 x00 x00 x00 x00 x00 x00 x00)
(T (W x00 x00 x00 x00 x00 x00 x00 x00)
(T (W xff xff xff xff xff xff xff xff)
(T (W x00 x00 x00 x00 x00 x00 x00 x00)
(T (W x00 x00 x80 x3f x00 x00 x80 x3f)
(L (W x00 x00 x80 xbf x00 x00 x80 xbf)) E)
(L (W x00 x00 x80 xbf x00 x00 x80 xbf)))
(T (W xff xff xff xff xff xff xff xff)
(T (W x00 x00 x00 x00 x00 x00 x00 x00)
(L (W x00 x00 x00 x00 x00 x00 x00 x00)) E)
(L (W x00 x00 x80 xbf x00 x00 x80 xbf))))
(T (W x00 x00 x80 x3f x00 x00 x80 x3f)
(T (W xe2 x94 xfc xff x78 x00 x00 x00)
(T (W x68 x00 x00 x00 x5c x00 x00 x00)
(L (W x49 xa1 x68 x4a xeb x5f xdd x3d)) E)
(L (W x54 x02 x00 x00 x38 x01 x00 x00)))
(T (W x00 x00 x80 x3f x00 x00 x80 x3f)
(L (W x00 x00 x00 x00 x00 x00 x00 x00))
(L (W xff xff xff xff xff xff xff xff)))))
(T (W x93 x7b x3c x80 xf4 xaa xbd xaa)
(T (W xff xff xff xff xff xff xff xff)
(T (W xff xff xff xff xff xff xff xff)
(T (W xff xff xff xff xff xff xff xff)
(L (W xff xff xff xff xff xff xff xff)) E)
(L (W x0c x78 xfe xff x00 x01 x01 x01)))
(T (W xff xff xff xff xff xff xff xff)
(T (W xb4 x00 x00 x00 x64 x00 x00 x00)
(L (W x30 x35 x5f x43 x4c x45 x41 x52)) E)
(L (W x54 x00 x00 x00 x48 x00 x00 x00))))
(T (W x50 x00 x00 x00 x44 x00 x00 x00)
(T (W xc9 x51 xe2 xd8 x75 xc6 x72 xd0)
(T (W x25 x00 x00 x00 x67 x72 x6f x75)
(L (W x00 x00 x00 x00 x00 x00 x00 x00)) E)
(L (W xff xff xff xff xff xff xff xff)))
(T (W xff xff xff xff xff xff xff xff)
(L (W x45 x26 x22 x84 xe4 x9c xf2 xcb))
(L (W x00 x00 x00 x00 x6a x41 xff xff)))))))
(T (W x45 x26 x22 x84 xe4 x9c xf2 xcb)
(T (W x00 x00 x00 x00 x00 x00 x00 x00)
(T (W x00 x00 x00 x00 x00 x00 x00 x00)
(T (W xff xff xff xff xff xff xff xff)
(T (W x00 x00 x00 x00 x00 x00 x00 x00)
(T (W x18 x00 x00 x00 x0c x00 x00 x00)
(L (W x00 x00 x00 x00 x00 x00 x00 x00)) E)
(L (W x00 x00 x80 x3f x00 x00 x80 x3f)))
(T (W x18 x00 x00 x00 x10 x00 x00 x00)
(T (W x45 x44 x00 x00 x00 x00 x00 x00)
(L (W x00 x00 x00 x00 x00 x00 x00 x00)) E)
(L (W x00 x00 x00 x00 x00 x00 x00 x00))))
(T (W x2a x0b xfc xff x74 x00 x00 x00)
(T (W x45 x26 x22 x84 xe4 x9c xf2 xcb)
(T (W xff xff xff xff xff xff xff xff)
(L (W x00 x00 x00 x00 x00 x00 x00 x00)) E)
(L (W xff xff xff xff xff xff xff xff)))
(T (W x00 x00 x80 x3f x00 x00 x80 x3f)
(L (W x5b x88 xc7 x28 xbf xd1 x78 x6a))
(L (W x45 x26 x22 x84 xe4 x9c xf2 xcb)))))
(T (W xa1 x01 x00 x00 xff xff xff xff)
(T (W xff xff xff xff xff xff xff xff)
(T (W x30 x00 x34 x00 x38 x00 x3c x00)
(T (W x00 x00 x00 x00 x00 x00 x00 x00)
(L (W xff xff xff xff xff xff xff xff)) E)
(L (W x78 x6e xfe xff x62 x7c xfe xff)))
(T (W xff xff xff xff x9c x00 x00 x00)
(T (W x18 x00 x00 x00 x0c x00 x00 x00)
(L (W xff xff xff xff xff xff xff xff)) E)
(L (W x6c x00 x00 x00 x60 x00 x00 x00))))
(T (W x00 x00 x80 x3f x00 x00 x80 x3f)
(T (W xff xff xff xff xff xff xff xff)
(T (W x00 x00 x00 x00 x00 x00 x00 x00)
(L (W x45 x44 x00 x00 x00 x00 x00 x00)) E)
(L (W xff xff xff xff xff xff xff xff)))
(T (W xe2 x9d xff xff x00 x00 x01 x01)
(L (W x00 x00 x80 xbf x00 x00 x80 xbf))
(L (W x00 x00 x00 x00 xea x34 xff xff))))))
(T (W x45 x26 x22 x84 xe4 x9c xf2 xcb)
(T (W x00 x00 x00 x00 x00 x00 x00 x00)
(T (W xb8 x00 x00 x00 xac x00 x00 x00)
(T (W x00 x00 x00 x00 x00 x00 x00 x00)
(T (W x00 x00 x80 x3f x00 x00 x80 x3f)
(L (W x18 x00 x00 x00 x0c x00 x00 x00)) E)
(L (W x68 x00 x00 x00 x5c x00 x00 x00)))
(T (W x00 x00 x00 x00 x00 x00 x00 x00)
(T (W x00 x00 x80 xbf x00 x00 x80 xbf)
(L (W x00 x00 x00 x00 x00 x00 x00 x00)) E)
(L (W x00 x00 x80 xbf x00 x00 x80 xbf))))
(T (W x00 x00 x80 x3f x00 x00 x80 x3f)
(T (W x00 x00 x00 x00 x7c x9e xfc xff)
(T (W x00 x00 x00 x00 x00 x00 x00 x00)
(L (W x45 x26 x22 x84 xe4 x9c xf2 xcb)) E)
(L (W x45 x44 x00 x00 x00 x00 x00 x00)))
(T (W x18 x00 x00 x00 x0c x00 x00 x00)
(L (W x45 x26 x22 x84 xe4 x9c xf2 xcb))
(L (W xff xff xff xff xff xff xff xff)))))
(T (W xde x01 x00 x00 xff xff xff xff)
(T (W x18 x00 x00 x00 x10 x00 x00 x00)
(T (W x24 x00 x00 x00 x0c x00 x00 x00)
(T (W xb8 x00 x00 x00 xac x00 x00 x00)
(L (W xff xff xff xff xff xff xff xff)) E)
(L (W x18 x00 x00 x00 x10 x00 x00 x00)))
(T (W xff xff xff xff xff xff xff xff)
(T (W xc0 x00 x00 x00 x01 x00 x00 x00)
(L (W x0c x00 x00 x00 x00 x01 x01 x01)) E)
(L (W x00 x00 x80 xbf x00 x00 x80 xbf))))
(T (W x00 x00 x80 x3f x00 x00 x80 x3f)
(T (W x00 x00 x00 x00 x00 x00 x00 x00)
(T (W xff xff xff xff xff xff xff xff)
(L (W x00 x00 x00 x00 x00 x00 x00 x00)) E)
(L (W xff xff xff xff xff xff xff xff)))
(T (W xff xff xff xff xff xff xff xff)
(L (W x58 x00 x00 x00 x4c x00 x00 x00))
(L (W x00 x00 x00 x00 x00 x00 x00 x00))))))))
(T (W x18 x00 x00 x00 x0c x00 x00 x00)
(T (W x00 x00 x00 x00 x7c x5a xfb xff)
(T (W x0c x6c xfb xff x00 x01 x01 x01)
(T (W x45 x26 x22 x84 xe4 x9c xf2 xcb)
(T (W x00 x00 x80 x3f x00 x00 x80 x3f)
(T (W xff xff xff xff xff xff xff xff)
(T (W x00 x00 x00 x00 x00 x00 x00 x00)
(L (W x68 x00 x00 x00 x5c x00 x00 x00)) E)
(L (W x04 x00 x00 x00 xda x49 xfe xff)))
(T (W x5d x49 xb5 xa2 x7d x53 x09 x18)
(T (W x00 x00 x00 x00 x00 x00 x00 x00)
(L (W xff xff xff xff xff xff xff xff)) E)
(L (W x00 x00 x80 xbf x00 x00 x80 xbf))))
(T (W x00 x00 x00 x00 x00 x00 x00 x00)
(T (W xff xff xff xff xff xff xff xff)
(T (W x00 x00 x80 x3f x00 x00 x80 x3f)
(L (W x00 x00 x80 xbf x00 x00 x80 xbf)) E)
(L (W x00 x00 x00 x00 x00 x00 x00 x00)))
(T (W xff xff xff xff xff xff xff xff)
(L (W x6c x00 x00 x00 x60 x00 x00 x00))
(L (W x24 x00 x00 x00 x0c x00 x00 x00)))))
(T (W x18 x00 x00 x00 x0c x00 x00 x00)
(T (W x00 x00 x00 x00 x00 x00 x00 x00)
(T (W xbc x00 x00 x00 xb0 x00 x00 x00)
(T (W x64 x00 x00 x00 x9c x00 x00 x00)
(L (W x00 x00 x00 x00 x00 x00 x00 x00)) E)
(L (W x74 x6f xfe xff x18 x00 x00 x00)))
(T (W x00 x00 x00 x00 x00 x00 x00 x00)
(T (W x00 x00 x00 x00 x00 x00 x00 x00)
(L (W x00 x00 x00 x00 x00 x00 x00 x00)) E)
(L (W x94 x04 x00 x00 x80 x03 x00 x00))))
(T (W x1c x01 x00 x00 x04 x00 x00 x00)
(T (W x45 x26 x22 x84 xe4 x9c xf2 xcb)
(T (W xe2 xa8 xfd xff x78 x00 x00 x00)
(L (W x28 x00 x2c x00 x30 x00 x34 x00)) E)
(L (W x18 x00 x00 x00 x10 x00 x00 x00)))
(T (W x00 x00 x80 x3f x00 x00 x80 x3f)
(L (W x44 x00 x00 x00 x10 x00 x00 x00))
(L (W x00 x00 x80 xbf x00 x00 x80 xbf))))))
(T (W xff xff xff xff xff xff xff xff)
(T (W x0c x9c xfb xff x00 x01 x01 x01)
(T (W x45 x26 x22 x84 xe4 x9c xf2 xcb)
(T (W xff xff xff xff xff xff xff xff)
(T (W xff xff xff xff xff xff xff xff)
(L (W x00 x00 x00 x00 x00 x00 x00 x00)) E)
(L (W x04 x00 x00 x00 x72 x62 xfe xff)))
(T (W x68 x00 x00 x00 x5c x00 x00 x00)
(T (W xff xff xff xff xff xff xff xff)
(L (W xb4 x00 x00 x00 x64 x00 x00 x00)) E)
(L (W xff xff xff xff xff xff xff xff))))
(T (W x3e x00 x00 x00 x10 x00 x00 x00)
(T (W x29 x00 x00 x00 x0c x00 x00 x00)
(T (W x00 x00 x00 x00 x00 x00 x00 x00)
(L (W xff xff xff xff xff xff xff xff)) E)
(L (W x50 x00 x00 x00 x44 x00 x00 x00)))
(T (W x00 x00 x00 x00 x00 x00 x00 x00)
(L (W xff xff xff xff xff xff xff xff))
(L (W x45 x26 x22 x84 xe4 x9c xf2 xcb)))))
(T (W x00 x00 x80 x3f x00 x00 x80 x3f)
(T (W x00 x00 x00 x00 x00 x00 x00 x00)
(T (W x54 x00 x00 x00 x48 x00 x00 x00)
(T (W x00 x00 x00 x00 x00 x00 x00 x00)
(L (W x4f x84 x6f x8b xe8 xcb x63 xb7)) E)
(L (W x00 x00 x00 x00 x00 x00 x00 x00)))
(T (W x45 x26 x22 x84 xe4 x9c xf2 xcb)
(T (W x30 x35 x5f x43 x4c x45 x41 x52)
(L (W x54 x00 x00 x00 x48 x00 x00 x00)) E)
(L (W xff xff xff xff xff xff xff xff))))
(T (W xff xff xff xff xff xff xff xff)
(T (W x2a xb7 xfc xff x74 x00 x00 x00)
(T (W x67 x72 x6f x75 x70 x5f x77 x69)
(L (W x00 x00 x80 xbf x00 x00 x80 xbf)) E)
(L (W x00 x00 x80 xbf x00 x00 x80 xbf)))
(T (W x00 x00 x80 x3f x00 x00 x80 x3f)
(L (W x00 x00 x00 x00 x00 x00 x00 x00))
(L (W x00 x00 x80 xbf x00 x00 x80 xbf)))))))
(T (W xff xff xff xff xff xff xff xff)
(T (W xff xff xff xff xff xff xff xff)
(T (W x68 x00 x00 x00 x5c x00 x00 x00)
(T (W x00 x00 x80 x3f x00 x00 x80 x3f)
(T (W xff xff xff xff xff xff xff xff)
(T (W x36 x00 x00 x00 x10 x00 x00 x00)
(L (W xff xff xff xff xff xff xff xff)) E)
(L (W x30 x35 x5f x43 x4c x45 x41 x52)))
(T (W x00 x00 x00 x00 x00 x00 x00 x00)
(T (W x45 x26 x22 x84 xe4 x9c xf2 xcb)
(L (W xff xff xff xff xff xff xff xff)) E)
(L (W xff xff xff xff xc8 x00 x00 x00))))
(T (W x00 x00 x00 x00 x00 x00 x00 x00)
(T (W xff xff xff xff xff xff xff xff)
(T (W xff xff xff xff xff xff xff xff)
(L (W x00 x00 x00 x00 x7c x92 xff xff)) E)
(L (W x00 x00 x80 xbf x00 x00 x80 xbf)))
(T (W x02 x00 x00 x00 xff xff xff xff)
(L (W x00 x00 x00 x00 x7c x12 xfe xff))
(L (W x00 x00 x00 x00 x00 x00 x00 x00)))))
(T (W x00 x00 x80 x3f x00 x00 x80 x3f)
(T (W x00 x00 x00 x00 x00 x00 x00 x00)
(T (W xff xff xff xff xff xff xff xff)
(T (W x18 x00 x00 x00 x0c x00 x00 x00)
(L (W x45 x26 x22 x84 xe4 x9c xf2 xcb)) E)
(L (W x00 x00 x00 x00 x00 x00 x00 x00)))
(T (W x00 x00 x00 x00 x00 x00 x00 x00)
(T (W x45 x26 x22 x84 xe4 x9c xf2 xcb)
(L (W x00 x00 x80 xbf x00 x00 x80 xbf)) E)
(L (W x45 x44 x00 x00 x00 x00 x00 x00))))
(T (W xff xff xff xff xff xff xff xff)
(T (W x6c x00 x00 x00 x60 x00 x00 x00)
(T (W xff xff xff xff xff xff xff xff)
(L (W x54 x00 x00 x00 x48 x00 x00 x00)) E)
(L (W x00 x00 x80 xbf x00 x00 x80 xbf)))
(T (W x00 x00 x80 x3f x00 x00 x80 x3f)
(L (W x00 x00 x00 x00 x00 x00 x00 x00))
(L (W x00 x00 x80 xbf x00 x00 x80 xbf))))))
(T (W xb8 x00 x00 x00 xac x00 x00 x00)
(T (W x45 x26 x22 x84 xe4 x9c xf2 xcb)
(T (W x00 x00 x80 x3f x00 x00 x80 x3f)
(T (W x64 x00 x00 x00 x9c x00 x00 x00)
(T (W xff xff xff xff xff xff xff xff)
(L (W x00 x00 x00 x00 x00 x00 x00 x00)) E)
(L (W x00 x00 x00 x00 x00 x00 x00 x00)))
(T (W xff xff xff xff xff xff xff xff)
(T (W x02 x00 x00 x00 x30 x01 x00 x00)
(L (W xff xff xff xff xff xff xff xff)) E)
(L (W xff xff xff xff xff xff xff xff))))
(T (W x00 x00 x00 x00 x42 xb7 xff xff)
(T (W x00 x00 x00 x00 x00 x00 x00 x00)
(T (W x00 x00 x00 x00 x01 x00 x00 x00)
(L (W xff xff xff xff xff xff xff xff)) E)
(L (W x00 x00 x80 xbf x00 x00 x80 xbf)))
(T (W x45 x26 x22 x84 xe4 x9c xf2 xcb)
(L (W xff xff xff xff xff xff xff xff))
(L (W x00 x00 x80 xbf x00 x00 x80 xbf)))))
(T (W x00 x00 x80 x3f x00 x00 x80 x3f)
(T (W x00 x00 x00 x00 x00 x00 x00 x00)
(T (W x37 x00 x00 x00 x3a x00 x00 x00)
(T (W x00 x00 x00 x00 x00 x00 x00 x00)
(L (W x00 x00 x80 xbf x00 x00 x80 xbf)) E)
(L (W x00 x00 x00 x00 x00 x00 x00 x00)))
(T (W x68 x00 x00 x00 x5c x00 x00 x00)
(T (W x00 x00 x00 x00 x00 x00 x00 x00)
(L (W x00 x00 x0c x00 x10 x00 x14 x00)) E)
(L (W x00 x00 x00 x00 x00 x00 x00 x00))))
(T (W xff xff xff xff xff xff xff xff)
(T (W xff xff xff xff xff xff xff xff)
(T (W x49 xa1 x68 x4a xeb x5f xdd x3d)
(L (W x18 x00 x00 x00 x0c x00 x00 x00)) E)
(L (W x00 x00 x80 xbf x00 x00 x80 xbf)))
(T (W x00 x00 x00 x00 x00 x00 x00 x00)
(L (W x6a x01 x00 x00 xff xff xff xff))
(L (W x00 x00 x80 xbf x00 x00 x80 xbf))))))))))))
(T (W xe8 xb8 x03 x00 x64 xb4 x03 x00)
(T (W x08 x0d x03 x00 x0c x06 x03 x00)
(T (W x78 x2a x02 x00 x34 x28 x02 x00)
(T (W xf0 xe1 x00 x00 xbc xe0 x00 x00)
(T (W x40 x00 x00 x00 x0c x00 x00 x00)
(T (W x54 xce x69 xba x62 xfd x52 x90)
(T (W x00 x00 x00 x00 x00 x00 x00 x00)
(T (W x64 x8b xfb xff x3e x00 x00 x00)
(T (W x64 x00 x00 x00 x9c x00 x00 x00)
(T (W x00 x00 x00 x00 x00 x00 x00 x00)
(T (W x18 x00 x00 x00 x0c x00 x00 x00)
(L (W xff xff xff xff xff xff xff xff)) E)
(L (W x45 x26 x22 x84 xe4 x9c xf2 xcb)))
(T (W x00 x00 x00 x00 x00 x00 x00 x00)
(T (W xff xff xff xff xa0 x00 x00 x00)
(L (W x00 x00 x00 x00 xaa xc9 xff xff)) E)
(L (W xff xff xff xff xff xff xff xff))))
(T (W x00 x00 x80 x3f x00 x00 x80 x3f)
(T (W x00 x00 x00 x00 x32 x8b xfc xff)
(T (W x01 x00 x00 x00 x9c x00 x00 x00)
(L (W x03 x00 x00 x00 xd0 x00 x00 x00)) E)
(L (W x50 x00 x00 x00 x44 x00 x00 x00)))
(T (W xff xff xff xff xff xff xff xff)
(T (W xc0 x00 x00 x00 x01 x00 x00 x00)
(L (W x45 x26 x22 x84 xe4 x9c xf2 xcb)) E)
(L (W x00 x00 x80 xbf x00 x00 x80 xbf)))))
(T (W xff xff xff xff xff xff xff xff)
(T (W x45 x26 x22 x84 xe4 x9c xf2 xcb)
(T (W x0f x00 x00 x00 x10 x00 x00 x00)
(T (W x00 x00 x00 x00 x00 x00 x00 x00)
(L (W x00 x00 x80 xbf x00 x00 x80 xbf)) E)
(L (W x45 x26 x22 x84 xe4 x9c xf2 xcb)))
(T (W x00 x00 x00 x00 x00 x00 x00 x00)
(T (W x00 x00 x80 xbf x00 x00 x80 xbf)
(L (W x00 x00 x00 x00 x00 x00 x00 x00)) E)
(L (W x00 x00 x00 x00 x00 x00 x00 x00))))
(T (W x45 x26 x22 x84 xe4 x9c xf2 xcb)
(T (W x50 x00 x00 x00 x44 x00 x00 x00)
(T (W x00 x00 x80 xbf x00 x00 x80 xbf)
(L (W x00 x00 x00 x00 x00 x00 x00 x00)) E)
(L (W xff xff xff xff xff xff xff xff)))
(T (W xcc x24 xfd xff x00 x01 x01 x01)
(L (W x00 x00 x00 x00 x00 x00 x00 x00))
(L (W xff xff xff xff xc8 x00 x00 x00))))))
(T (W x00 x00 x00 x00 x00 x00 x00 x00)
(T (W xff xff xff xff xff xff xff xff)
(T (W xff xff xff xff xff xff xff xff)
(T (W x00 x00 x00 x00 x00 x00 x00 x00)
(T (W x00 x00 x80 x3f x00 x00 x80 x3f)
(L (W x00 x00 x00 x00 x00 x00 x00 x00)) E)
(L (W x00 x00 x80 xbf x00 x00 x80 xbf)))
(T (W x18 x00 x00 x00 x10 x00 x00 x00)
(T (W xff xff xff xff x02 x00 x00 x00)
(L (W x00 x00 x00 x00 x00 x00 x00 x00)) E)
(L (W x00 x00 x00 x00 x00 x00 x00 x00))))
(T (W x00 x00 x80 x3f x00 x00 x80 x3f)
(T (W x00 x00 x00 x00 x00 x00 x00 x00)
(T (W x00 x00 x00 x00 x00 x00 x00 x00)
(L (W x94 x0b x00 x00 x78 x0a x00 x00)) E)
(L (W xff xff xff xff xff xff xff xff)))
(T (W x49 xa1 x68 x4a xeb x5f xdd x3d)
(L (W x04 x00 x00 x00 x32 x1b xfe xff))
(L (W xea x0f xff xff x74 x00 x00 x00)))))
(T (W xff xff xff xff xff xff xff xff)
(T (W x68 x00 x00 x00 x5c x00 x00 x00)
(T (W x00 x00 x00 x00 x00 x00 x00 x00)
(T (W xff xff xff xff xff xff xff xff)
(L (W xff xff xff xff xff xff xff xff)) E)
(L (W x00 x00 x80 xbf x00 x00 x80 xbf)))
(T (W x45 x26 x22 x84 xe4 x9c xf2 xcb)
(T (W x45 x26 x22 x84 xe4 x9c xf2 xcb)
(L (W xff xff xff xff xb0 x00 x00 x00)) E)
(L (W x00 x00 x80 xbf x00 x00 x80 xbf))))
(T (W x00 x00 x00 x00 x00 x00 x00 x00)
(T (W xff xff xff xff xff xff xff xff)
(T (W x49 xa1 x68 x4a xeb x5f xdd x3d)
(L (W xff xff xff xff xff xff xff xff)) E)
(L (W x03 x00 x00 x00 xd0 x00 x00 x00)))
(T (W xff xff xff xff xff xff xff xff)
(L (W x00 x00 x80 xbf x00 x00 x80 xbf))
(L (W xff xff xff xff xff xff xff xff)))))))
(T (W x04 x00 x00 x00 xe2 xe6 xfd xff)
(T (W x1c x00 x20 x00 x24 x00 x28 x00)
(T (W x01 x00 x00 x00 x04 x00 x00 x00)
(T (W xff xff xff xff x03 x00 x00 x00)
(T (W x00 x00 x00 x00 x00 x00 x00 x00)
(T (W x00 x00 x80 x3f x00 x00 x80 x3f)
(L (W xe2 xa0 xff xff x00 x00 x01 x01)) E)
(L (W x00 x00 x80 xbf x00 x00 x80 xbf)))
(T (W x00 x00 x80 x3f x00 x00 x80 x3f)
(T (W xff xff xff xff xff xff xff xff)
(L (W x00 x00 x00 x00 x00 x00 x00 x00)) E)
(L (W xff xff xff xff xff xff xff xff))))
(T (W x00 x00 x80 x3f x00 x00 x80 x3f)
(T (W x46 x53 x59 x53 x5f x4e x53 x5f)
(T (W x64 x00 x00 x00 x9c x00 x00 x00)
(L (W xff xff xff xff xff xff xff xff)) E)
(L (W x03 x00 x00 x00 xd8 x00 x00 x00)))
(T (W x00 x00 x00 x00 x00 x00 x00 x00)
(L (W xff xff xff xff xff xff xff xff))
(L (W x54 x00 x00 x00 x48 x00 x00 x00)))))
(T (W xff xff xff xff xff xff xff xff)
(T (W x18 x00 x00 x00 x0c x00 x00 x00)
(T (W x00 x00 x62 x00 x70 x00 x04 x00)
(T (W x39 x00 x00 x00 x10 x00 x00 x00)
(L (W x68 x00 x00 x00 x5c x00 x00 x00)) E)
(L (W x6c x00 x00 x00 x60 x00 x00 x00)))
(T (W x00 x00 x80 x3f x00 x00 x80 x3f)
(T (W x54 x00 x00 x00 x48 x00 x00 x00)
(L (W x50 x00 x00 x00 x44 x00 x00 x00)) E)
(L (W x00 x00 x80 xbf x00 x00 x80 xbf))))
(T (W x00 x00 x80 x3f x00 x00 x80 x3f)
(T (W x03 x00 x00 x00 xd8 x00 x00 x00)
(T (W xff xff xff xff xff xff xff xff)
(L (W xcc xac xff xff x00 x01 x01 x01)) E)
(L (W x18 x00 x1c x00 x06 x00 x07 x00)))
(T (W xff xff xff xff xff xff xff xff)
(L (W x46 x53 x59 x53 x5f x4e x53 x5f))
(L (W xff xff xff xff xff xff xff xff))))))
(T (W x00 x00 x00 x00 x00 x00 x00 x00)
(T (W xff xff xff xff xff xff xff xff)
(T (W xff xff xff xff xff xff xff xff)
(T (W x00 x00 x00 x00 x00 x00 x00 x00)
(T (W x00 x00 x00 x00 x00 x00 x00 x00)
(L (W x00 x00 x80 xbf x00 x00 x80 xbf)) E)
(L (W x00 x00 x80 xbf x00 x00 x80 xbf)))
(T (W xff xff xff xff xff xff xff xff)
(T (W x00 x00 x00 x00 x00 x00 x00 x00)
(L (W x00 x00 x00 x00 xb2 xdd xff xff)) E)
(L (W x46 x53 x59 x53 x5f x4e x53 x5f))))
(T (W x00 x00 x80 x3f x00 x00 x80 x3f)
(T (W x00 x00 x80 x3f x00 x00 x80 x3f)
(T (W x18 x00 x00 x00 x0c x00 x00 x00)
(L (W x00 x00 x00 x00 x12 x00 x00 x00)) E)
(L (W x04 x00 x00 x00 xb2 x9d xfe xff)))
(T (W x00 x00 x80 x3f x00 x00 x80 x3f)
(L (W x00 x00 x00 x00 x00 x00 x00 x00))
(L (W xff xff xff xff xff xff xff xff)))))
(T (W xff xff xff xff xff xff xff xff)
(T (W x00 x00 x80 x3f x00 x00 x80 x3f)
(T (W xff xff xff xff xff xff xff xff)
(T (W x50 x00 x00 x00 x44 x00 x00 x00)
(L (W x45 x26 x22 x84 xe4 x9c xf2 xcb)) E)
(L (W xa2 x79 xfe xff x78 x00 x00 x00)))
(T (W xff xff xff xff xff xff xff xff)
(T (W x00 x00 x80 xbf x00 x00 x80 xbf)
(L (W xb4 x02 x00 x00 x38 x01 x00 x00)) E)
(L (W x4f x84 x6f x8b xe8 xcb x63 xb7))))
(T (W x00 x00 x00 x00 x00 x00 x00 x00)
(T (W x00 x00 x01 x01 xc8 x02 x00 x00)
(T (W xa2 xb9 xfd xff x78 x00 x00 x00)
(L (W xff xff xff xff xff xff xff xff)) E)
(L (W xff xff xff xff xff xff xff xff)))
(T (W x64 x00 x00 x00 x9c x00 x00 x00)
(L (W x3c x00 x00 x00 x00 x00 x80 xbf))
(L (W xff xff xff xff xff xff xff xff))))))))
(T (W x00 x00 x00 x00 x3c x4f xfb xff)
(T (W x18 x00 x00 x00 x0c x00 x00 x00)
(T (W xb8 x00 x00 x00 xac x00 x00 x00)
(T (W x00 x00 x00 x00 x3c x87 xfb xff)
(T (W x45 x26 x22 x84 xe4 x9c xf2 xcb)
(T (W x18 x00 x00 x00 x10 x00 x00 x00)
(T (W x17 x00 x00 x00 x10 x00 x00 x00)
(L (W x00 x00 x80 xbf x00 x00 x80 xbf)) E)
(L (W xff xff xff xff xff xff xff xff)))
(T (W xff xff xff xff xff xff xff xff)
(T (W x46 x53 x59 x53 x5f x4e x53 x5f)
(L (W x00 x00 x80 xbf x00 x00 x80 xbf)) E)
(L (W x00 x00 x80 xbf x00 x00 x80 xbf))))
(T (W xd9 x01 x00 x00 xff xff xff xff)
(T (W x45 x26 x22 x84 xe4 x9c xf2 xcb)
(T (W x6f x6b x65 x5f x63 x6f x77 x61)
(L (W x00 x00 x80 xbf x00 x00 x80 xbf)) E)
(L (W x46 x53 x59 x53 x5f x4e x53 x5f)))
(T (W x00 x00 x80 x3f x00 x00 x80 x3f)
(L (W x45 x26 x22 x84 xe4 x9c xf2 xcb))
(L (W xff xff xff xff xff xff xff xff)))))
(T (W x00 x00 x80 x3f x00 x00 x80 x3f)
(T (W x00 x00 x00 x00 x00 x00 x00 x00)
(T (W x00 x00 x80 x3f x00 x00 x80 x3f)
(T (W x18 x00 x00 x00 x0c x00 x00 x00)
(L (W x00 x00 x00 x00 x00 x00 x00 x00)) E)
(L (W xff xff xff xff xff xff xff xff)))
(T (W xff xff xff xff xff xff xff xff)
(T (W x00 x00 x00 x00 x00 x00 x00 x00)
(L (W xff xff xff xff xff xff xff xff)) E)
(L (W xff xff xff xff xff xff xff xff))))
(T (W xb8 x00 x00 x00 xac x00 x00 x00)
(T (W x30 x35 x5f x43 x4c x45 x41 x52)
(T (W x00 x00 x00 x00 x00 x00 x00 x00)
(L (W x45 x26 x22 x84 xe4 x9c xf2 xcb)) E)
(L (W x00 x00 x80 xbf x00 x00 x80 xbf)))
(T (W x00 x00 x00 x00 x00 x00 x00 x00)
(L (W x40 x00 x00 x00 x00 x00 x80 xbf))
(L (W x00 x00 x00 x00 x00 x00 x00 x00))))))
(T (W x50 x00 x00 x00 x44 x00 x00 x00)
(T (W x00 x00 x80 x3f x00 x00 x80 x3f)
(T (W x00 x00 x00 x00 x00 x00 x00 x00)
(T (W xea x53 xfc xff x74 x00 x00 x00)
(T (W xff xff xff xff xff xff xff xff)
(L (W xff xff xff xff xff xff xff xff)) E)
(L (W xff xff xff xff xbc x00 x00 x00)))
(T (W x00 x00 x00 x00 x00 x00 x00 x00)
(T (W x18 x00 x00 x00 x0c x00 x00 x00)
(L (W xa2 xd5 xff xff x78 x00 x00 x00)) E)
(L (W x31 x00 x00 x00 x34 x00 x00 x00))))
(T (W xff xff xff xff xff xff xff xff)
(T (W xff xff xff xff xff xff xff xff)
(T (W xff xff xff xff xff xff xff xff)
(L (W xff xff xff xff xa0 x00 x00 x00)) E)
(L (W x00 x00 x80 xbf x00 x00 x80 xbf)))
(T (W xff xff xff xff xff xff xff xff)
(L (W x68 x00 x00 x00 x5c x00 x00 x00))
(L (W x00 x00 x00 x00 x00 x00 x00 x00)))))
(T (W x00 x00 x80 x3f x00 x00 x80 x3f)
(T (W x00 x00 x00 x00 x00 x00 x00 x00)
(T (W x00 x00 x00 x00 x00 x00 x00 x00)
(T (W x00 x00 x00 x00 x00 x00 x00 x00)
(L (W x00 x00 x00 x00 x00 x00 x00 x00)) E)
(L (W xff xff xff xff xff xff xff xff)))
(T (W x00 x00 x00 x00 x00 x00 x00 x00)
(T (W x00 x00 x00 x00 x32 xff xfd xff)
(L (W x3c x00 x40 x00 x2a x00 x00 x00)) E)
(L (W xff xff xff xff xff xff xff xff))))
(T (W xff xff xff xff xff xff xff xff)
(T (W x00 x00 x80 x3f x00 x00 x80 x3f)
(T (W x00 x00 x80 x3f x00 x00 x80 x3f)
(L (W x00 x00 x80 xbf x00 x00 x80 xbf)) E)
(L (W x00 x00 x00 x00 x00 x00 x00 x00)))
(T (W x00 x00 x00 x00 x00 x00 x00 x00)
(L (W xc8 x02 x00 x00 xff xff xff xff))
(L (W x49 xa1 x68 x4a xeb x5f xdd x3d)))))))
(T (W xea x5b xfb xff x74 x00 x00 x00)
(T (W xcc x70 xfb xff x00 x01 x01 x01)
(T (W x45 x26 x22 x84 xe4 x9c xf2 xcb)
(T (W x00 x00 x00 x00 x00 x00 x00 x00)
(T (W x01 x00 x00 x00 xa0 x00 x00 x00)
(T (W xff xff xff xff xff xff xff xff)
(L (W x68 x00 x00 x00 x5c x00 x00 x00)) E)
(L (W xff xff xff xff xff xff xff xff)))
(T (W xea x22 x64 x5b x64 x93 xd4 xbe)
(T (W x00 x00 x80 x3f x00 x00 x80 x3f)
(L (W x00 x00 x00 x00 x3c xcf xff xff)) E)
(L (W x00 x00 x80 xbf x00 x00 x80 xbf))))
(T (W xa2 x7e xfe xff x00 x00 x01 x01)
(T (W xff xff xff xff xff xff xff xff)
(T (W x00 x00 x00 x00 x00 x00 x00 x00)
(L (W x00 x00 x80 xbf x00 x00 x80 xbf)) E)
(L (W x00 x00 x00 x00 x00 x00 x00 x00)))
(T (W xb8 x00 x00 x00 x64 x00 x00 x00)
(L (W x00 x00 x80 xbf x00 x00 x80 xbf))
(L (W xff xff xff xff xff xff xff xff)))))
(T (W x45 x26 x22 x84 xe4 x9c xf2 xcb)
(T (W x00 x00 x00 x00 x00 x00 x00 x00)
(T (W x50 x00 x00 x00 x44 x00 x00 x00)
(T (W x00 x00 x80 x3f x00 x00 x80 x3f)
(L (W x00 x00 x00 x00 x00 x00 x00 x00)) E)
(L (W xff xff xff xff xff xff xff xff)))
(T (W x9c x01 x00 x00 xff xff xff xff)
(T (W x00 x00 x00 x00 xd2 xec xfd xff)
(L (W x00 x00 x00 x00 x00 x00 x00 x00)) E)
(L (W xff xff xff xff xff xff xff xff))))
(T (W xff xff xff xff xff xff xff xff)
(T (W x00 x00 x00 x00 x00 x00 x00 x00)
(T (W x6c x00 x00 x00 x60 x00 x00 x00)
(L (W x00 x00 x80 xbf x00 x00 x80 xbf)) E)
(L (W x00 x00 x00 x00 x12 x00 x00 x00)))
(T (W x45 x26 x22 x84 xe4 x9c xf2 xcb)
(L (W xff xff xff xff xff xff xff xff))
(L (W x45 x26 x22 x84 xe4 x9c xf2 xcb))))))
(T (W xea x7b xfb xff x74 x00 x00 x00)
(T (W x00 x00 x80 x3f x00 x00 x80 x3f)
(T (W x34 xe4 xfb xff x3e x00 x00 x00)
(T (W x00 x00 x80 x3f x00 x00 x80 x3f)
(T (W x64 x00 x00 x00 x9c x00 x00 x00)
(L (W x00 x00 x00 x00 xd2 x5c xff xff)) E)
(L (W x04 x00 x00 x00 xb2 x61 xfe xff)))
(T (W x68 x00 x00 x00 x5c x00 x00 x00)
(T (W xff xff xff xff xc4 x00 x00 x00)
(L (W xea xdb xff xff x74 x00 x00 x00)) E)
(L (W xff xff xff xff xff xff xff xff))))
(T (W xff xff xff xff xff xff xff xff)
(T (W x54 x02 x00 x00 x38 x01 x00 x00)
(T (W xff xff xff xff x9c x00 x00 x00)
(L (W x45 x26 x22 x84 xe4 x9c xf2 xcb)) E)
(L (W x00 x00 x80 xbf x00 x00 x80 xbf)))
(T (W x8a x72 xfe xff x9c x01 x00 x00)
(L (W xcc x20 xfe xff x00 x01 x01 x01))
(L (W x00 x00 x00 x00 x00 x00 x00 x00)))))
(T (W x45 x26 x22 x84 xe4 x9c xf2 xcb)
(T (W x4c xfd x5b xe7 x6e x4b x46 x8a)
(T (W x00 x00 x80 x3f x00 x00 x80 x3f)
(T (W x32 xed xff xff xbe x00 x00 x00)
(L (W x00 x00 x00 x00 x00 x00 x00 x00)) E)
(L (W xcd x27 xb6 x28 xbf x65 x64 x6a)))
(T (W x00 x00 x00 x00 x00 x00 x00 x00)
(T (W x00 x00 x00 x00 x00 x00 x00 x00)
(L (W x00 x00 x0c x00 x10 x00 x14 x00)) E)
(L (W x03 x00 x00 x00 xd0 x00 x00 x00))))
(T (W xff xff xff xff xff xff xff xff)
(T (W x50 x00 x00 x00 x44 x00 x00 x00)
(T (W x00 x00 x00 x00 x00 x00 x00 x00)
(L (W x00 x00 x80 xbf x00 x00 x80 xbf)) E)
(L (W x00 x00 x00 x00 x00 x00 x00 x00)))
(T (W x00 x00 x00 x00 x00 x00 x00 x00)
(L (W xff xff xff xff xff xff xff xff))
(L (W x00 x00 x80 xbf x00 x00 x80 xbf)))))))))
(T (W xff xff xff xff x04 x00 x00 x00)
(T (W x00 x00 x00 x00 x00 x00 x00 x00)
(T (W x00 x00 x80 x3f x00 x00 x80 x3f)
(T (W x00 x00 x80 x3f x00 x00 x80 x3f)
(T (W x45 x26 x22 x84 xe4 x9c xf2 xcb)
(T (W x01 x00 x00 x00 x04 x00 x00 x00)
(T (W x00 x00 x80 x3f x00 x00 x80 x3f)
(T (W xff xff xff xff xff xff xff xff)
(L (W x00 x00 x00 x00 x00 x00 x00 x00)) E)
(L (W xff xff xff xff x90 x00 x00 x00)))
(T (W x00 x00 x80 x3f x00 x00 x80 x3f)
(T (W xff xff xff xff xff xff xff xff)
(L (W x00 x00 x00 x00 x00 x00 x00 x00)) E)
(L (W x00 x00 x00 x00 x00 x00 x00 x00))))
(T (W xb8 x00 x00 x00 xac x00 x00 x00)
(T (W x00 x00 x00 x00 x00 x00 x00 x00)
(T (W xff xff xff xff xff xff xff xff)
(L (W x06 x00 x00 x00 xc4 x05 x00 x00)) E)
(L (W xff xff xff xff xff xff xff xff)))
(T (W x00 x00 x00 x00 x00 x00 x00 x00)
(L (W x54 x02 x00 x00 x38 x01 x00 x00))
(L (W xa2 x03 xff xff x78 x00 x00 x00)))))
(T (W x34 xaa xfb xff x3e x00 x00 x00)
(T (W xff xff xff xff xff xff xff xff)
(T (W x45 x26 x22 x84 xe4 x9c xf2 xcb)
(T (W x00 x00 x80 x3f x00 x00 x80 x3f)
(L (W xff xff xff xff xff xff xff xff)) E)
(L (W xea x61 xfe xff x74 x00 x00 x00)))
(T (W xea xe1 xfc xff x74 x00 x00 x00)
(T (W xff xff xff xff xff xff xff xff)
(L (W x15 x00 x00 x00 x18 x00 x00 x00)) E)
(L (W x50 x00 x00 x00 x44 x00 x00 x00))))
(T (W x45 x26 x22 x84 xe4 x9c xf2 xcb)
(T (W xff xff xff xff xff xff xff xff)
(T (W xff xff xff xff xff xff xff xff)
(L (W x00 x00 x80 xbf x00 x00 x80 xbf)) E)
(L (W x46 x53 x59 x53 x5f x4e x53 x5f)))
(T (W xff xff xff xff xff xff xff xff)
(L (W x00 x00 x00 x00 x00 x00 x00 x00))
(L (W x00 x00 x00 x00 xd2 x22 xff xff))))))
(T (W x00 x00 x80 x3f x00 x00 x80 x3f)
(T (W x00 x00 x00 x00 x00 x00 x00 x00)
(T (W xff xff xff xff xff xff xff xff)
(T (W x00 x00 x00 x00 x00 x00 x00 x00)
(T (W x18 x00 x00 x00 x0c x00 x00 x00)
(L (W x54 x00 x00 x00 x48 x00 x00 x00)) E)
(L (W x6c x00 x00 x00 x60 x00 x00 x00)))
(T (W x04 x00 x00 x00 xaa xdb xfc xff)
(T (W x4f x84 x6f x8b xe8 xcb x63 xb7)
(L (W x00 x00 x80 xbf x00 x00 x80 xbf)) E)
(L (W x45 x26 x22 x84 xe4 x9c xf2 xcb))))
(T (W x68 x00 x00 x00 x5c x00 x00 x00)
(T (W x68 x00 x00 x00 x5c x00 x00 x00)
(T (W x45 x4c x4f x53 x00 x00 x00 x00)
(L (W x00 x00 x80 xbf x00 x00 x80 xbf)) E)
(L (W x00 x00 x00 x00 x00 x00 x00 x00)))
(T (W x68 x00 x00 x00 x5c x00 x00 x00)
(L (W x00 x00 x00 x00 x00 x00 x00 x00))
(L (W xaa x01 x00 x00 xff xff xff xff)))))
(T (W x00 x00 x00 x00 x00 x00 x00 x00)
(T (W xff xff xff xff xff xff xff xff)
(T (W x02 x00 x00 x00 x30 x01 x00 x00)
(T (W xa2 x73 xfd xff x78 x00 x00 x00)
(L (W xff xff xff xff xff xff xff xff)) E)
(L (W xbc x00 x00 x00 x64 x00 x00 x00)))
(T (W xff xff xff xff xff xff xff xff)
(T (W xff xff xff xff xff xff xff xff)
(L (W x2c x00 x30 x00 x34 x00 x38 x00)) E)
(L (W xa4 x00 x00 x00 x05 x00 x00 x00))))
(T (W x00 x00 x80 x3f x00 x00 x80 x3f)
(T (W x30 x35 x5f x43 x4c x45 x41 x52)
(T (W xff xff xff xff xff xff xff xff)
(L (W x00 x00 x00 x00 x00 x00 x00 x00)) E)
(L (W xff xff xff xff xff xff xff xff)))
(T (W x04 x00 x00 x00 xe2 xc0 xff xff)
(L (W x18 x00 x00 x00 x10 x00 x00 x00))
(L (W x00 x00 x00 x00 x00 x00 x00 x00)))))))
(T (W x45 x26 x22 x84 xe4 x9c xf2 xcb)
(T (W x00 x00 x80 x3f x00 x00 x80 x3f)
(T (W x45 x26 x22 x84 xe4 x9c xf2 xcb)
(T (W xff xff xff xff xff xff xff xff)
(T (W x45 x26 x22 x84 xe4 x9c xf2 xcb)
(T (W x64 x00 x00 x00 x9c x00 x00 x00)
(L (W x45 x26 x22 x84 xe4 x9c xf2 xcb)) E)
(L (W xcc x4e xfe xff x00 x01 x01 x01)))
(T (W xb0 x00 x00 x00 x64 x00 x00 x00)
(T (W x6c x76 x31 x00 x22 x00 x00 x00)
(L (W x00 x00 x80 xbf x00 x00 x80 xbf)) E)
(L (W x00 x00 x00 x00 x00 x00 x00 x00))))
(T (W x45 x26 x22 x84 xe4 x9c xf2 xcb)
(T (W x00 x00 x80 x3f x00 x00 x80 x3f)
(T (W xff xff xff xff xff xff xff xff)
(L (W x00 x00 x00 x00 x00 x00 x00 x00)) E)
(L (W x00 x00 x01 x01 xa9 x01 x00 x00)))
(T (W x45 x26 x22 x84 xe4 x9c xf2 xcb)
(L (W x30 x35 x5f x43 x4c x45 x41 x52))
(L (W x03 x00 x00 x00 xd0 x00 x00 x00)))))
(T (W x00 x00 x00 x00 x00 x00 x00 x00)
(T (W xff xff xff xff xff xff xff xff)
(T (W x62 x00 x00 x00 x00 x00 x01 x01)
(T (W x00 x00 x00 x00 x00 x00 x00 x00)
(L (W xff xff xff xff xff xff xff xff)) E)
(L (W x21 x00 x00 x00 x24 x00 x00 x00)))
(T (W x03 x00 x00 x00 xd4 x00 x00 x00)
(T (W xff xff xff xff xc8 x00 x00 x00)
(L (W xff xff xff xff xff xff xff xff)) E)
(L (W x18 x00 x00 x00 x0c x00 x00 x00))))
(T (W x18 x00 x00 x00 x0c x00 x00 x00)
(T (W x00 x00 x01 x01 x69 x01 x00 x00)
(T (W x00 x00 x00 x00 x00 x00 x00 x00)
(L (W x00 x00 x00 x00 x00 x00 x00 x00)) E)
(L (W xff xff xff xff xff xff xff xff)))
(T (W x00 x00 x00 x00 x00 x00 x00 x00)
(L (W x6c x00 x00 x00 x60 x00 x00 x00))
(L (W x00 x00 x00 x00 x00 x00 x00 x00))))))
(T (W x00 x00 x80 x3f x00 x00 x80 x3f)
(T (W x00 x00 x00 x00 x00 x00 x00 x00)
(T (W xff xff xff xff xff xff xff xff)
(T (W x45 x26 x22 x84 xe4 x9c xf2 xcb)
(T (W x00 x00 x80 x3f x00 x00 x80 x3f)
(L (W x00 x00 x00 x00 x3c x5d xff xff)) E)
(L (W x18 x00 x00 x00 x0c x00 x00 x00)))
(T (W x00 x00 x00 x00 x00 x00 x00 x00)
(T (W x00 x00 x80 xbf x00 x00 x80 xbf)
(L (W x00 x00 x00 x00 x00 x00 x00 x00)) E)
(L (W xa2 xdb xfe xff x78 x00 x00 x00))))
(T (W xcc x1e xfc xff x00 x01 x01 x01)
(T (W xc4 x00 x00 x00 x01 x00 x00 x00)
(T (W x01 x00 x00 x00 x68 x00 x00 x00)
(L (W x00 x00 x80 xbf x00 x00 x80 xbf)) E)
(L (W x00 x00 x00 x00 x00 x00 x00 x00)))
(T (W xff xff xff xff xff xff xff xff)
(L (W x00 x00 x80 xbf x00 x00 x80 xbf))
(L (W xff xff xff xff xff xff xff xff)))))
(T (W x64 xc5 xfb xff x3e x00 x00 x00)
(T (W xff xff xff xff xff xff xff xff)
(T (W x30 x35 x5f x43 x4c x45 x41 x52)
(T (W xff xff xff xff xff xff xff xff)
(L (W x00 x00 x00 x00 xd2 x7a xff xff)) E)
(L (W xff xff xff xff xff xff xff xff)))
(T (W x00 x00 x00 x00 x00 x00 x00 x00)
(T (W xff xff xff xff xff xff xff xff)
(L (W x45 x26 x22 x84 xe4 x9c xf2 xcb)) E)
(L (W x45 x26 x22 x84 xe4 x9c xf2 xcb))))
(T (W x54 x00 x00 x00 x48 x00 x00 x00)
(T (W x00 x00 x00 x00 x00 x00 x00 x00)
(T (W xff xff xff xff xff xff xff xff)
(L (W x00 x00 x00 x00 x00 x00 x00 x00)) E)
(L (W x00 x00 x00 x00 xaa xc3 xfe xff)))
(T (W xff xff xff xff xff xff xff xff)
(L (W x45 x26 x22 x84 xe4 x9c xf2 xcb))
(L (W x00 x00 x00 x00 x00 x00 x00 x00))))))))
(T (W x64 x00 x00 x00 x9c x00 x00 x00)
(T (W xff xff xff xff xff xff xff xff)
(T (W x00 x00 x00 x00 x00 x00 x00 x00)
(T (W x64 x00 x00 x00 x9c x00 x00 x00)
(T (W x45 x26 x22 x84 xe4 x9c xf2 xcb)
(T (W xff xff xff xff xff xff xff xff)
(T (W x00 x00 x00 x00 x00 x00 x00 x00)
(L (W x18 x00 x00 x00 x0c x00 x00 x00)) E)
(L (W x69 x01 x00 x00 xff xff xff xff)))
(T (W x64 xd1 xfc xff x2f x00 x00 x00)
(T (W x00 x00 x80 x3f x00 x00 x80 x3f)
(L (W xff xff xff xff xff xff xff xff)) E)
(L (W x00 x00 x00 x00 x3c xc9 xfe xff))))
(T (W x45 x26 x22 x84 xe4 x9c xf2 xcb)
(T (W xff xff xff xff xff xff xff xff)
(T (W x00 x00 x80 x3f x00 x00 x80 x3f)
(L (W xea x85 xff xff x74 x00 x00 x00)) E)
(L (W x00 x00 x80 xbf x00 x00 x80 xbf)))
(T (W xff xff xff xff xff xff xff xff)
(L (W x50 x00 x00 x00 x44 x00 x00 x00))
(L (W x46 x53 x59 x53 x5f x4e x53 x5f)))))
(T (W x45 x26 x22 x84 xe4 x9c xf2 xcb)
(T (W x45 x26 x22 x84 xe4 x9c xf2 xcb)
(T (W xff xff xff xff x04 x00 x00 x00)
(T (W xff xff xff xff xff xff xff xff)
(L (W x45 x26 x22 x84 xe4 x9c xf2 xcb)) E)
(L (W x00 x00 x00 x00 x12 x00 x00 x00)))
(T (W x12 x00 x00 x00 x46 x53 x59 x53)
(T (W x45 x26 x22 x84 xe4 x9c xf2 xcb)
(L (W x00 x00 x00 x00 x00 x00 x00 x00)) E)
(L (W x00 x00 x00 x00 x00 x00 x00 x00))))
(T (W x2c x6e xe3 xa1 x8a x07 x04 x32)
(T (W x00 x00 x80 x3f x00 x00 x80 x3f)
(T (W x18 x00 x00 x00 x0c x00 x00 x00)
(L (W xff xff xff xff xff xff xff xff)) E)
(L (W xc8 x00 x00 x00 x01 x00 x00 x00)))
(T (W xea x25 xfd xff x74 x00 x00 x00)
(L (W xff xff xff xff xd0 x00 x00 x00))
(L (W x00 x00 x80 xbf x00 x00 x80 xbf))))))
(T (W xff xff xff xff xff xff xff xff)
(T (W xff xff xff xff xff xff xff xff)
(T (W x00 x00 x80 x3f x00 x00 x80 x3f)
(T (W xff xff xff xff xff xff xff xff)
(T (W x29 x00 x00 x00 x10 x00 x00 x00)
(L (W x00 x00 x00 x00 x00 x00 x00 x00)) E)
(L (W x00 x00 x00 x00 x00 x00 x00 x00)))
(T (W x00 x00 x00 x00 x3c xd9 xfc xff)
(T (W xff xff xff xff xff xff xff xff)
(L (W xff xff xff xff xff xff xff xff)) E)
(L (W xff xff xff xff xff xff xff xff))))
(T (W x00 x00 x00 x00 x00 x00 x00 x00)
(T (W x46 x53 x59 x53 x5f x4e x53 x5f)
(T (W x00 x00 x00 x00 x00 x00 x00 x00)
(L (W xff xff xff xff xff xff xff xff)) E)
(L (W x45 x26 x22 x84 xe4 x9c xf2 xcb)))
(T (W x00 x00 x00 x00 x00 x00 x00 x00)
(L (W xff xff xff xff xff xff xff xff))
(L (W x00 x00 x80 xbf x00 x00 x80 xbf)))))
(T (W xea xb5 xfb xff x74 x00 x00 x00)
(T (W x00 x00 x00 x00 x00 x00 x00 x00)
(T (W x45 x26 x22 x84 xe4 x9c xf2 xcb)
(T (W x45 x26 x22 x84 xe4 x9c xf2 xcb)
(L (W x00 x00 x80 xbf x00 x00 x80 xbf)) E)
(L (W x00 x00 x00 x00 x00 x00 x00 x00)))
(T (W x00 x00 x80 x3f x00 x00 x80 x3f)
(T (W x00 x00 x00 x00 x00 x00 x00 x00)
(L (W x4f x84 x6f x8b xe8 xcb x63 xb7)) E)
(L (W x00 x00 x00 x00 x12 x00 x00 x00))))
(T (W xff xff xff xff xff xff xff xff)
(T (W xff xff xff xff xb0 x00 x00 x00)
(T (W x79 x61 x62 x75 x6e x00 x00 x00)
(L (W x74 x00 x00 x00 x68 x00 x00 x00)) E)
(L (W x00 x00 x80 xbf x00 x00 x80 xbf)))
(T (W x00 x00 x80 x3f x00 x00 x80 x3f)
(L (W x49 xa1 x68 x4a xeb x5f xdd x3d))
(L (W x44 x00 x00 x00 x00 x00 x80 xbf)))))))
(T (W xff xff xff xff xff xff xff xff)
(T (W xf6 x01 x00 x00 xff xff xff xff)
(T (W xff xff xff xff x03 x00 x00 x00)
(T (W x00 x00 x80 x3f x00 x00 x80 x3f)
(T (W x43 x00 x00 x00 xff xff xff xff)
(T (W x00 x00 x00 x00 x00 x00 x00 x00)
(L (W xff xff xff xff xff xff xff xff)) E)
(L (W x00 x00 x00 x00 x00 x00 x00 x00)))
(T (W x45 x26 x22 x84 xe4 x9c xf2 xcb)
(T (W x45 x26 x22 x84 xe4 x9c xf2 xcb)
(L (W xff xff xff xff xff xff xff xff)) E)
(L (W xff xff xff xff xff xff xff xff))))
(T (W x00 x00 x00 x00 x00 x00 x00 x00)
(T (W x00 x00 x00 x00 x32 x99 xfc xff)
(T (W xff xff xff xff xff xff xff xff)
(L (W xc4 x00 x00 x00 x01 x00 x00 x00)) E)
(L (W x00 x00 x80 xbf x00 x00 x80 xbf)))
(T (W xff xff xff xff xff xff xff xff)
(L (W xc4 x00 x00 x00 x01 x00 x00 x00))
(L (W x00 x00 x00 x00 x00 x00 x00 x00)))))
(T (W x50 x00 x00 x00 x44 x00 x00 x00)
(T (W x00 x00 x00 x00 x00 x00 x00 x00)
(T (W x00 x00 x00 x00 x3c x71 xfc xff)
(T (W x64 x00 x00 x00 x9c x00 x00 x00)
(L (W x00 x00 x80 xbf x00 x00 x80 xbf)) E)
(L (W x34 x76 xfe xff x2f x00 x00 x00)))
(T (W x00 x00 x00 x00 x00 x00 x00 x00)
(T (W x00 x00 x80 xbf x00 x00 x80 xbf)
(L (W x00 x00 x80 xbf x00 x00 x80 xbf)) E)
(L (W x00 x00 x00 x00 x00 x00 x00 x00))))
(T (W x5e x00 x00 x00 xff xff xff xff)
(T (W x50 x00 x00 x00 x44 x00 x00 x00)
(T (W xd4 x00 x00 x00 xff xff xff xff)
(L (W x45 x26 x22 x84 xe4 x9c xf2 xcb)) E)
(L (W x6c x00 x00 x00 x60 x00 x00 x00)))
(T (W x6c x00 x00 x00 x60 x00 x00 x00)
(L (W x00 x00 x00 x00 x00 x00 x00 x00))
(L (W xa2 x2f xff xff x78 x00 x00 x00))))))
(T (W xff xff xff xff xff xff xff xff)
(T (W xff xff xff xff xff xff xff xff)
(T (W x00 x00 x80 x3f x00 x00 x80 x3f)
(T (W xff xff xff xff xff xff xff xff)
(T (W xff xff xff xff xff xff xff xff)
(L (W x00 x00 x00 x00 x00 x00 x00 x00)) E)
(L (W x00 x00 x00 x00 x00 x00 x00 x00)))
(T (W xff xff xff xff xff xff xff xff)
(T (W x45 x44 x00 x00 x00 x00 x00 x00)
(L (W xff xff xff xff xff xff xff xff)) E)
(L (W x00 x00 x01 x01 xcc x01 x00 x00))))
(T (W x00 x00 x00 x00 x00 x00 x00 x00)
(T (W x45 x26 x22 x84 xe4 x9c xf2 xcb)
(T (W x63 x46 x69 x12 x83 x6c x37 xc6)
(L (W x04 x00 x00 x00 x32 xa9 xff xff)) E)
(L (W x45 x26 x22 x84 xe4 x9c xf2 xcb)))
(T (W x00 x00 x80 x3f x00 x00 x80 x3f)
(L (W xff xff xff xff xff xff xff xff))
(L (W x45 x26 x22 x84 xe4 x9c xf2 xcb)))))
(T (W x00 x00 x00 x00 x3c xc1 xfb xff)
(T (W x45 x26 x22 x84 xe4 x9c xf2 xcb)
(T (W xff xff xff xff xff xff xff xff)
(T (W x00 x00 x80 x3f x00 x00 x80 x3f)
(L (W x6c x00 x00 x00 x60 x00 x00 x00)) E)
(L (W x45 x26 x22 x84 xe4 x9c xf2 xcb)))
(T (W xff xff xff xff x9c x00 x00 x00)
(T (W x00 x00 x80 xbf x00 x00 x80 xbf)
(L (W xff xff xff xff xff xff xff xff)) E)
(L (W x06 x00 x00 x00 xc8 x05 x00 x00))))
(T (W xff xff xff xff xff xff xff xff)
(T (W xff xff xff xff xff xff xff xff)
(T (W x00 x00 x80 x3f x00 x00 x80 x3f)
(L (W xff xff xff xff xff xff xff xff)) E)
(L (W x00 x00 x80 xbf x00 x00 x80 xbf)))
(T (W x00 x00 x80 x3f x00 x00 x80 x3f)
(L (W x00 x00 x00 x00 x00 x00 x00 x00))
(L (W x00 x00 x00 x00 x3c x41 xff xff))))))))))
(T (W xc0 x87 x01 x00 x8c x86 x01 x00)
(T (W x78 x4f x00 x00 x2c x4d x00 x00)
(T (W x00 x00 x00 x00 x00 x00 x00 x00)
(T (W x00 x00 x00 x00 x00 x00 x00 x00)
(T (W x00 x00 x00 x00 x00 x00 x00 x00)
(T (W x00 x00 x00 x00 x00 x00 x00 x00)
(T (W xff xff xff xff xff xff xff xff)
(T (W x00 x00 x00 x00 x00 x00 x00 x00)
(T (W x64 x00 x00 x00 x9c x00 x00 x00)
(L (W x04 x00 x00 x00 x68 x03 x00 x00)) E)
(L (W x00 x01 x01 x01 x22 x52 xfe xff)))
(T (W x00 x00 x00 x00 x00 x00 x00 x00)
(T (W xff xff xff xff xff xff xff xff)
(L (W x00 x00 x00 x00 x00 x00 x00 x00)) E)
(L (W x00 x00 x00 x00 x00 x00 x00 x00))))
(T (W x68 x00 x00 x00 x5c x00 x00 x00)
(T (W x46 x53 x59 x53 x5f x4e x53 x5f)
(T (W xb8 x00 x00 x00 xac x00 x00 x00)
(L (W xff xff xff xff xff xff xff xff)) E)
(L (W xff xff xff xff xff xff xff xff)))
(T (W xb4 x8d xb1 x0f x51 xd5 x17 x8f)
(L (W xff xff xff xff xff xff xff xff))
(L (W x00 x00 x80 xbf x00 x00 x80 xbf)))))
(T (W xff xff xff xff xff xff xff xff)
(T (W xff xff xff xff xff xff xff xff)
(T (W x00 x00 x00 x00 x00 x00 x00 x00)
(T (W x00 x00 x00 x00 x00 x00 x00 x00)
(L (W xea x60 xff xff x74 x00 x00 x00)) E)
(L (W x00 x00 x80 xbf x00 x00 x80 xbf)))
(T (W x00 x00 x80 x3f x00 x00 x80 x3f)
(T (W x00 x00 x80 xbf x00 x00 x80 xbf)
(L (W x14 x00 x00 x00 x0c x00 x00 x00)) E)
(L (W x00 x00 x80 xbf x00 x00 x80 xbf))))
(T (W xea x20 xfc xff x74 x00 x00 x00)
(T (W x03 x00 x00 x00 xd8 x00 x00 x00)
(T (W xea xa0 xfd xff x74 x00 x00 x00)
(L (W x49 xa1 x68 x4a xeb x5f xdd x3d)) E)
(L (W x00 x00 x01 x01 x90 x01 x00 x00)))
(T (W xb0 x00 x00 x00 x64 x00 x00 x00)
(L (W x00 x00 x00 x00 x00 x00 x00 x00))
(L (W xff xff xff xff xff xff xff xff))))))
(T (W x00 x00 x80 x3f x00 x00 x80 x3f)
(T (W x34 x99 xfb xff x23 x00 x00 x00)
(T (W xff xff xff xff xff xff xff xff)
(T (W x00 x00 x00 x00 x00 x00 x00 x00)
(T (W x00 x00 x80 x3f x00 x00 x80 x3f)
(L (W x45 x26 x22 x84 xe4 x9c xf2 xcb)) E)
(L (W x3c x00 x00 x00 x00 x00 x80 xbf)))
(T (W xff xff xff xff xff xff xff xff)
(T (W x00 x00 x00 x00 x00 x00 x00 x00)
(L (W x00 x00 x80 xbf x00 x00 x80 xbf)) E)
(L (W x00 x00 x00 x00 x00 x00 x00 x00))))
(T (W x50 x00 x00 x00 x44 x00 x00 x00)
(T (W x00 x00 x80 x3f x00 x00 x80 x3f)
(T (W xff xff xff xff xff xff xff xff)
(L (W x4f x84 x6f x8b xe8 xcb x63 xb7)) E)
(L (W xff xff xff xff xff xff xff xff)))
(T (W x00 x00 x80 x3f x00 x00 x80 x3f)
(L (W x46 x53 x59 x53 x5f x4e x53 x5f))
(L (W xff xff xff xff xff xff xff xff)))))
(T (W x00 x00 x00 x00 x02 x00 x00 x00)
(T (W xff xff xff xff x04 x00 x00 x00)
(T (W xff xff xff xff xff xff xff xff)
(T (W x38 x00 x00 x00 x10 x00 x00 x00)
(L (W xff xff xff xff xff xff xff xff)) E)
(L (W xcc x75 xfe xff x00 x01 x01 x01)))
(T (W xc0 x00 x00 x00 x01 x00 x00 x00)
(T (W xff xff xff xff xc0 x00 x00 x00)
(L (W xff xff xff xff xff xff xff xff)) E)
(L (W x45 x26 x22 x84 xe4 x9c xf2 xcb))))
(T (W x00 x00 x80 x3f x00 x00 x80 x3f)
(T (W x00 x00 x01 x01 x69 x01 x00 x00)
(T (W x00 x00 x80 x3f x00 x00 x80 x3f)
(L (W x21 xf8 xaf x28 xbf x5b x5d x6a)) E)
(L (W xff xff xff xff xff xff xff xff)))
(T (W xff xff xff xff xff xff xff xff)
(L (W x6c x00 x00 x00 x60 x00 x00 x00))
(L (W x64 x04 x00 x00 x60 x03 x00 x00)))))))
(T (W x00 x00 x00 x00 x00 x00 x00 x00)
(T (W x00 x00 x80 x3f x00 x00 x80 x3f)
(T (W x00 x00 x00 x00 x00 x00 x00 x00)
(T (W xff xff xff xff xff xff xff xff)
(T (W x00 x00 x00 x00 x00 x00 x00 x00)
(T (W x18 x00 x00 x00 x0c x00 x00 x00)
(L (W x12 x00 x00 x00 x46 x53 x59 x53)) E)
(L (W x54 x00 x00 x00 x48 x00 x00 x00)))
(T (W x68 x00 x00 x00 x5c x00 x00 x00)
(T (W xff xff xff xff xff xff xff xff)
(L (W x00 x00 x00 x00 x00 x00 x00 x00)) E)
(L (W x04 x00 x00 x00 x88 x03 x00 x00))))
(T (W x00 x00 x80 x3f x00 x00 x80 x3f)
(T (W x00 x00 x00 x00 x00 x00 x00 x00)
(T (W xff xff xff xff xff xff xff xff)
(L (W x54 x02 x00 x00 x38 x01 x00 x00)) E)
(L (W xff xff xff xff xff xff xff xff)))
(T (W x00 x00 x00 x00 x00 x00 x00 x00)
(L (W x00 x00 x01 x01 xef x00 x00 x00))
(L (W x18 x00 x00 x00 x10 x00 x00 x00)))))
(T (W xa2 x1b xfe xff x00 x00 x01 x01)
(T (W xb8 x00 x00 x00 xac x00 x00 x00)
(T (W x00 x00 x80 x3f x00 x00 x80 x3f)
(T (W x00 x00 x00 x00 x00 x00 x00 x00)
(L (W x03 x00 x00 x00 xd0 x00 x00 x00)) E)
(L (W x14 x00 x00 x00 x0c x00 x00 x00)))
(T (W x00 x00 x80 x3f x00 x00 x80 x3f)
(T (W x45 x26 x22 x84 xe4 x9c xf2 xcb)
(L (W xc4 x00 x00 x00 x01 x00 x00 x00)) E)
(L (W xa2 xea xfe xff x78 x00 x00 x00))))
(T (W x00 x00 x80 x3f x00 x00 x80 x3f)
(T (W xff xff xff xff xff xff xff xff)
(T (W x00 x00 x00 x00 x00 x00 x00 x00)
(L (W x00 x00 x00 x00 x00 x00 x64 x00)) E)
(L (W x00 x00 x80 xbf x00 x00 x80 xbf)))
(T (W xff xff xff xff x01 x00 x00 x00)
(L (W x00 x00 x80 xbf x00 x00 x80 xbf))
(L (W x00 x00 x00 x00 xd2 x29 xff xff))))))
(T (W x00 x00 x00 x00 x00 x00 x00 x00)
(T (W x01 x00 x00 x00 x04 x00 x00 x00)
(T (W xff xff xff xff xff xff xff xff)
(T (W x00 x00 x00 x00 x00 x00 x00 x00)
(T (W x00 x00 x80 x3f x00 x00 x80 x3f)
(L (W x00 x00 x80 xbf x00 x00 x80 xbf)) E)
(L (W x00 x00 x80 xbf x00 x00 x80 xbf)))
(T (W x64 xe4 xfc xff x24 x00 x00 x00)
(T (W x4f x84 x6f x8b xe8 xcb x63 xb7)
(L (W x00 x00 x00 x00 x12 x00 x00 x00)) E)
(L (W x00 x00 x00 x00 x00 x00 x00 x00))))
(T (W x68 x00 x00 x00 x5c x00 x00 x00)
(T (W x45 x26 x22 x84 xe4 x9c xf2 xcb)
(T (W xff xff xff xff xff xff xff xff)
(L (W x45 x26 x22 x84 xe4 x9c xf2 xcb)) E)
(L (W x46 x53 x59 x53 x5f x4e x53 x5f)))
(T (W x18 x00 x00 x00 x0c x00 x00 x00)
(L (W x45 x26 x22 x84 xe4 x9c xf2 xcb))
(L (W xff xff xff xff xff xff xff xff)))))
(T (W xff xff xff xff xff xff xff xff)
(T (W x45 x26 x22 x84 xe4 x9c xf2 xcb)
(T (W xff xff xff xff xff xff xff xff)
(T (W xb8 x00 x00 x00 xac x00 x00 x00)
(L (W xff xff xff xff xff xff xff xff)) E)
(L (W xff xff xff xff xa0 x00 x00 x00)))
(T (W xff xff xff xff xff xff xff xff)
(T (W x31 x00 x00 x00 x34 x00 x00 x00)
(L (W x00 x00 x00 x00 x00 x00 x00 x00)) E)
(L (W x00 x00 x80 xbf x00 x00 x80 xbf))))
(T (W x45 x26 x22 x84 xe4 x9c xf2 xcb)
(T (W x30 x35 x5f x43 x4c x45 x41 x52)
(T (W xff xff xff xff xa0 x00 x00 x00)
(L (W x00 x00 x00 x00 x00 x00 x00 x00)) E)
(L (W xff xff xff xff xff xff xff xff)))
(T (W xff xff xff xff xff xff xff xff)
(L (W x6c x00 x00 x00 x60 x00 x00 x00))
(L (W x00 x00 x00 x00 x00 x00 x00 x00))))))))
(T (W x18 x00 x00 x00 x0c x00 x00 x00)
(T (W xc0 x00 x00 x00 xb4 x00 x00 x00)
(T (W x00 x00 x00 x00 x00 x00 x00 x00)
(T (W x18 x00 x00 x00 x0c x00 x00 x00)
(T (W x00 x00 x80 x3f x00 x00 x80 x3f)
(T (W xff xff xff xff xff xff xff xff)
(T (W x00 x00 x00 x00 x00 x00 x00 x00)
(L (W x00 x00 x80 xbf x00 x00 x80 xbf)) E)
(L (W xff xff xff xff xff xff xff xff)))
(T (W xff xff xff xff xff xff xff xff)
(T (W x00 x00 x00 x00 x00 x00 x00 x00)
(L (W x00 x00 x00 x00 x3c xc8 xff xff)) E)
(L (W x00 x00 x80 xbf x00 x00 x80 xbf))))
(T (W x00 x00 x00 x00 x00 x00 x00 x00)
(T (W xc4 x00 x00 x00 x01 x00 x00 x00)
(T (W x00 x00 x80 x3f x00 x00 x80 x3f)
(L (W x00 x00 x80 xbf x00 x00 x80 xbf)) E)
(L (W x00 x00 x00 x00 x00 x00 x00 x00)))
(T (W x00 x00 x00 x00 x3c x08 xfd xff)
(L (W x00 x00 x80 xbf x00 x00 x80 xbf))
(L (W x04 x00 x00 x00 x32 x10 xff xff)))))
(T (W xa2 xa6 xfb xff x78 x00 x00 x00)
(T (W x00 x00 x00 x00 x00 x00 x00 x00)
(T (W xea x64 xfc xff x74 x00 x00 x00)
(T (W x64 x00 x00 x00 x9c x00 x00 x00)
(L (W x00 x00 x00 x00 x00 x00 x00 x00)) E)
(L (W x00 x00 x00 x00 x00 x00 x00 x00)))
(T (W xe2 x3d xfd xff x00 x00 x01 x01)
(T (W x00 x00 x00 x00 x00 x00 x00 x00)
(L (W x69 x01 x00 x00 xff xff xff xff)) E)
(L (W xff xff xff xff xff xff xff xff))))
(T (W xff xff xff xff xff xff xff xff)
(T (W x00 x00 x00 x00 x00 x00 x00 x00)
(T (W x45 x26 x22 x84 xe4 x9c xf2 xcb)
(L (W xc4 x00 x00 x00 x01 x00 x00 x00)) E)
(L (W x00 x00 x80 xbf x00 x00 x80 xbf)))
(T (W x00 x00 x80 x3f x00 x00 x80 x3f)
(L (W xac x00 x00 x00 x01 x00 x00 x00))
(L (W x00 x00 x80 xbf x00 x00 x80 xbf))))))
(T (W x64 x00 x00 x00 x9c x00 x00 x00)
(T (W x01 x00 x00 x00 x3e x00 x00 x00)
(T (W x45 x26 x22 x84 xe4 x9c xf2 xcb)
(T (W xff xff xff xff xff xff xff xff)
(T (W xff xff xff xff xff xff xff xff)
(L (W x00 x00 x00 x00 x00 x00 x00 x00)) E)
(L (W xff xff xff xff xff xff xff xff)))
(T (W x00 x00 x80 x3f x00 x00 x80 x3f)
(T (W xff xff xff xff xff xff xff xff)
(L (W x2d x00 x00 x00 x30 x00 x00 x00)) E)
(L (W xff xff xff xff xff xff xff xff))))
(T (W xd5 xd0 xfd x95 xcc x15 x31 xdf)
(T (W x00 x00 x00 x00 x32 xa0 xfc xff)
(T (W x00 x00 x00 x00 x00 x00 x00 x00)
(L (W xff xff xff xff xff xff xff xff)) E)
(L (W x6c x00 x00 x00 x60 x00 x00 x00)))
(T (W x00 x00 x00 x00 x00 x00 x00 x00)
(L (W x03 x00 x00 x00 xd0 x00 x00 x00))
(L (W x45 x26 x22 x84 xe4 x9c xf2 xcb)))))
(T (W x50 x00 x00 x00 x44 x00 x00 x00)
(T (W x00 x00 x00 x00 x00 x00 x00 x00)
(T (W x54 x00 x00 x00 x48 x00 x00 x00)
(T (W x00 x00 x00 x00 x00 x00 x00 x00)
(L (W x00 x00 x80 xbf x00 x00 x80 xbf)) E)
(L (W x34 x7d xfe xff x2f x00 x00 x00)))
(T (W x00 x00 x80 x3f x00 x00 x80 x3f)
(T (W x46 x53 x59 x53 x5f x4e x53 x5f)
(L (W x3c x00 x40 x00 x44 x00 x48 x00)) E)
(L (W x04 x00 x00 x00 x58 x03 x00 x00))))
(T (W xff xff xff xff xff xff xff xff)
(T (W x00 x00 x00 x00 x3c xb8 xfc xff)
(T (W xff xff xff xff xff xff xff xff)
(L (W x00 x00 x80 xbf x00 x00 x80 xbf)) E)
(L (W x00 x00 x00 x00 x00 x00 x00 x00)))
(T (W x00 x00 x80 x3f x00 x00 x80 x3f)
(L (W x00 x00 x00 x00 x00 x00 x00 x00))
(L (W x00 x00 x80 xbf x00 x00 x80 xbf)))))))
(T (W xff xff xff xff xff xff xff xff)
(T (W xff xff xff xff xff xff xff xff)
(T (W x40 x00 x00 x00 x9c x00 x00 x00)
(T (W x00 x00 x80 x3f x00 x00 x80 x3f)
(T (W xff xff xff xff x03 x00 x00 x00)
(T (W x1b x00 x00 x00 x10 x00 x00 x00)
(L (W x03 x00 x00 x00 xd8 x00 x00 x00)) E)
(L (W xff xff xff xff xff xff xff xff)))
(T (W x00 x00 x00 x00 x00 x00 x00 x00)
(T (W x54 x00 x00 x00 x48 x00 x00 x00)
(L (W x35 x00 x00 x00 x38 x00 x00 x00)) E)
(L (W x00 x00 x00 x00 x3c xd0 xfe xff))))
(T (W x00 x00 x00 x00 x00 x00 x00 x00)
(T (W xff xff xff xff xff xff xff xff)
(T (W x00 x00 x00 x00 x00 x00 x00 x00)
(L (W x50 x00 x00 x00 x44 x00 x00 x00)) E)
(L (W x49 xa1 x68 x4a xeb x5f xdd x3d)))
(T (W xff xff xff xff xff xff xff xff)
(L (W x50 x00 x00 x00 x44 x00 x00 x00))
(L (W x45 x44 x00 x00 x00 x00 x00 x00)))))
(T (W x00 x00 x80 x3f x00 x00 x80 x3f)
(T (W x00 x00 x00 x00 x00 x00 x00 x00)
(T (W xea x6c xfc xff x74 x00 x00 x00)
(T (W x18 x00 x00 x00 x0c x00 x00 x00)
(L (W x00 x00 x80 xbf x00 x00 x80 xbf)) E)
(L (W x42 x00 x00 x00 xff xff xff xff)))
(T (W x4c x45 x41 x52 x45 x44 x00 x00)
(T (W x00 x00 x00 x00 x00 x00 x00 x00)
(L (W x45 x26 x22 x84 xe4 x9c xf2 xcb)) E)
(L (W x00 x00 x00 x00 x12 xf1 xfe xff))))
(T (W xff xff xff xff xff xff xff xff)
(T (W x00 x00 x80 x3f x00 x00 x80 x3f)
(T (W xff xff xff xff xff xff xff xff)
(L (W x54 x00 x00 x00 x48 x00 x00 x00)) E)
(L (W x00 x00 x00 x00 x00 x00 x00 x00)))
(T (W x00 x00 x80 x3f x00 x00 x80 x3f)
(L (W x00 x00 x00 x00 x00 x00 x00 x00))
(L (W x00 x00 x80 xbf x00 x00 x80 xbf))))))
(T (W x00 x00 x00 x00 x3c x80 xfb xff)
(T (W x68 x00 x00 x00 x5c x00 x00 x00)
(T (W x00 x00 x00 x00 x00 x00 x00 x00)
(T (W x18 x00 x00 x00 x0c x00 x00 x00)
(T (W xff xff xff xff xff xff xff xff)
(L (W x00 x00 x00 x00 x00 x00 x00 x00)) E)
(L (W x46 x53 x59 x53 x5f x4e x53 x5f)))
(T (W xb0 x00 x00 x00 x64 x00 x00 x00)
(T (W xff xff xff xff xff xff xff xff)
(L (W xff xff xff xff xff xff xff xff)) E)
(L (W xff xff xff xff xff xff xff xff))))
(T (W xbe x00 x00 x00 xff xff xff xff)
(T (W x00 x00 x00 x00 x00 x00 x00 x00)
(T (W xff xff xff xff xff xff xff xff)
(L (W xff xff xff xff xbc x00 x00 x00)) E)
(L (W x44 x00 x00 x00 x00 x00 x80 xbf)))
(T (W x00 x00 x00 x00 x00 x00 x00 x00)
(L (W xb0 x00 x00 x00 x64 x00 x00 x00))
(L (W x00 x00 x00 x00 x00 x00 x00 x00)))))
(T (W x68 x00 x00 x00 x5c x00 x00 x00)
(T (W x00 x00 x00 x00 x00 x00 x00 x00)
(T (W x68 x00 x00 x00 x5c x00 x00 x00)
(T (W x70 x5f x77 x69 x6c x64 x5f x70)
(L (W x45 x26 x22 x84 xe4 x9c xf2 xcb)) E)
(L (W x00 x00 x00 x00 x00 x00 x00 x00)))
(T (W x68 x00 x00 x00 x5c x00 x00 x00)
(T (W x00 x00 x00 x00 x00 x00 x00 x00)
(L (W x00 x00 x80 xbf x00 x00 x80 xbf)) E)
(L (W xff xff xff xff xff xff xff xff))))
(T (W xff xff xff xff xff xff xff xff)
(T (W xc4 x00 x00 x00 x01 x00 x00 x00)
(T (W x4f x84 x6f x8b xe8 xcb x63 xb7)
(L (W x18 x00 x00 x00 x0c x00 x00 x00)) E)
(L (W x00 x00 x80 xbf x00 x00 x80 xbf)))
(T (W x00 x00 x00 x00 x00 x00 x00 x00)
(L (W x00 x00 x00 x00 x00 x00 x00 x00))
(L (W x00 x00 x80 xbf x00 x00 x80 xbf)))))))))
(T (W xff xff xff xff xff xff xff xff)
(T (W x54 x00 x00 x00 x48 x00 x00 x00)
(T (W x00 x00 x80 x3f x00 x00 x80 x3f)
(T (W x50 x00 x00 x00 x44 x00 x00 x00)
(T (W x68 x00 x00 x00 x5c x00 x00 x00)
(T (W x00 x00 x00 x00 x00 x00 x00 x00)
(T (W xcc x47 xfc xff x00 x01 x01 x01)
(T (W xff xff xff xff xff xff xff xff)
(L (W x00 x00 x00 x00 x00 x00 x00 x00)) E)
(L (W xbc x00 x00 x00 x02 x00 x00 x00)))
(T (W x00 x00 x00 x00 x3c xc6 xfc xff)
(T (W x00 x00 x00 x00 x32 xce xfd xff)
(L (W x00 x00 x80 xbf x00 x00 x80 xbf)) E)
(L (W x00 x00 x00 x00 x00 x00 x00 x00))))
(T (W xff xff xff xff xff xff xff xff)
(T (W x00 x00 x80 x3f x00 x00 x80 x3f)
(T (W xff xff xff xff xff xff xff xff)
(L (W x00 x00 x00 x00 x00 x00 x00 x00)) E)
(L (W x00 x00 x00 x00 x32 x8e xfe xff)))
(T (W x00 x00 x80 x3f x00 x00 x80 x3f)
(L (W x00 x00 x00 x00 x00 x00 x00 x00))
(L (W xff xff xff xff xb0 x00 x00 x00)))))
(T (W x00 x00 x00 x00 x00 x00 x00 x00)
(T (W xa2 x55 xfe xff x00 x00 x01 x01)
(T (W x00 x00 x80 x3f x00 x00 x80 x3f)
(T (W x00 x00 x80 x3f x00 x00 x80 x3f)
(L (W xaa x01 x00 x00 xff xff xff xff)) E)
(L (W xff xff xff xff xff xff xff xff)))
(T (W x18 x00 x00 x00 x0c x00 x00 x00)
(T (W xff xff xff xff xff xff xff xff)
(L (W xff xff xff xff xff xff xff xff)) E)
(L (W x03 x00 x00 x00 xd0 x00 x00 x00))))
(T (W x01 x00 x00 x00 x9c x00 x00 x00)
(T (W x00 x00 x01 x01 x69 x01 x00 x00)
(T (W xff xff xff xff xff xff xff xff)
(L (W x54 x00 x00 x00 x48 x00 x00 x00)) E)
(L (W x00 x00 x00 x00 x00 x00 x00 x00)))
(T (W x00 x00 x00 x00 x00 x00 x00 x00)
(L (W x00 x00 x80 xbf x00 x00 x80 xbf))
(L (W x00 x00 x00 x00 x00 x00 x00 x00))))))
(T (W x00 x00 x80 x3f x00 x00 x80 x3f)
(T (W x00 x00 x80 x3f x00 x00 x80 x3f)
(T (W x01 x00 x00 x00 x04 x00 x00 x00)
(T (W x00 x00 x80 x3f x00 x00 x80 x3f)
(T (W x64 x00 x00 x00 x9c x00 x00 x00)
(L (W x45 x26 x22 x84 xe4 x9c xf2 xcb)) E)
(L (W x45 x26 x22 x84 xe4 x9c xf2 xcb)))
(T (W x00 x00 x00 x00 x00 x00 x00 x00)
(T (W x00 x00 x80 xbf x00 x00 x80 xbf)
(L (W x3c x00 x00 x00 x00 x00 x80 xbf)) E)
(L (W xa2 xd4 xfe xff x78 x00 x00 x00))))
(T (W xb8 x00 x00 x00 xac x00 x00 x00)
(T (W xff xff xff xff xff xff xff xff)
(T (W xc0 x00 x00 x00 x64 x00 x00 x00)
(L (W x6c x00 x00 x00 x60 x00 x00 x00)) E)
(L (W x00 x00 x00 x00 x00 x00 x00 x00)))
(T (W x18 x00 x00 x00 x10 x00 x00 x00)
(L (W x00 x00 x80 xbf x00 x00 x80 xbf))
(L (W x00 x00 x00 x00 x00 x00 x00 x00)))))
(T (W x00 x00 x00 x00 x00 x00 x00 x00)
(T (W x20 x01 x00 x00 x04 x00 x00 x00)
(T (W x00 x00 x00 x00 x12 x00 x00 x00)
(T (W xd7 x00 x00 x00 xff xff xff xff)
(L (W x45 x44 x00 x00 x00 x00 x00 x00)) E)
(L (W xff xff xff xff xff xff xff xff)))
(T (W x80 x03 x00 x00 x54 x02 x00 x00)
(T (W xff xff xff xff xff xff xff xff)
(L (W x49 xa1 x68 x4a xeb x5f xdd x3d)) E)
(L (W x03 x00 x00 x00 xd0 x00 x00 x00))))
(T (W xc0 x00 x00 x00 xb4 x00 x00 x00)
(T (W x00 x00 x00 x00 x00 x00 x00 x00)
(T (W x30 x35 x5f x43 x4c x45 x41 x52)
(L (W x45 x26 x22 x84 xe4 x9c xf2 xcb)) E)
(L (W x00 x00 x00 x00 x00 x00 x00 x00)))
(T (W x00 x00 x00 x00 x00 x00 x00 x00)
(L (W xff xff xff xff xff xff xff xff))
(L (W x00 x00 x00 x00 x00 x00 x00 x00)))))))
(T (W x50 x00 x00 x00 x44 x00 x00 x00)
(T (W x00 x00 x80 x3f x00 x00 x80 x3f)
(T (W x00 x00 x80 x3f x00 x00 x80 x3f)
(T (W x34 xd3 xfb xff x3c x00 x00 x00)
(T (W x00 x00 x80 x3f x00 x00 x80 x3f)
(T (W xff xff xff xff xff xff xff xff)
(L (W x00 x00 x80 xbf x00 x00 x80 xbf)) E)
(L (W xb4 x00 x00 x00 x14 x00 x00 x00)))
(T (W xff xff xff xff xff xff xff xff)
(T (W x4f x84 x6f x8b xe8 xcb x63 xb7)
(L (W x00 x00 x80 xbf x00 x00 x80 xbf)) E)
(L (W x00 x00 x80 xbf x00 x00 x80 xbf))))
(T (W xff xff xff xff xff xff xff xff)
(T (W x68 x00 x00 x00 x5c x00 x00 x00)
(T (W x34 x00 x00 x00 x10 x00 x00 x00)
(L (W x45 x26 x22 x84 xe4 x9c xf2 xcb)) E)
(L (W x30 x35 x5f x43 x4c x45 x41 x52)))
(T (W xcc x0f xfd xff x00 x01 x01 x01)
(L (W x00 x00 x00 x00 x00 x00 x00 x00))
(L (W xff xff xff xff xff xff xff xff)))))
(T (W x00 x00 x00 x00 x00 x00 x00 x00)
(T (W x00 x00 x00 x00 x00 x00 x00 x00)
(T (W x00 x00 x00 x00 x00 x00 x00 x00)
(T (W x00 x00 x80 x3f x00 x00 x80 x3f)
(L (W x04 x00 x00 x00 x80 x03 x00 x00)) E)
(L (W xff xff xff xff xff xff xff xff)))
(T (W xff xff xff xff xff xff xff xff)
(T (W xff xff xff xff xff xff xff xff)
(L (W x3c x07 x00 x00 xc8 x05 x00 x00)) E)
(L (W xff xff xff xff xff xff xff xff))))
(T (W x0a x00 x00 x00 x3e x00 x00 x00)
(T (W x30 x35 x5f x43 x4c x45 x41 x52)
(T (W x00 x00 x80 x3f x00 x00 x80 x3f)
(L (W x4f x84 x6f x8b xe8 xcb x63 xb7)) E)
(L (W x02 x00 x00 x00 x30 x01 x00 x00)))
(T (W x00 x00 x00 x00 x00 x00 x00 x00)
(L (W x18 x00 x00 x00 x10 x00 x00 x00))
(L (W x00 x00 x00 x00 x00 x00 x00 x00))))))
(T (W x50 x00 x00 x00 x44 x00 x00 x00)
(T (W x45 x26 x22 x84 xe4 x9c xf2 xcb)
(T (W xff xff xff xff xff xff xff xff)
(T (W x45 x26 x22 x84 xe4 x9c xf2 xcb)
(T (W x18 x00 x00 x00 x0c x00 x00 x00)
(L (W xff xff xff xff xff xff xff xff)) E)
(L (W xff xff xff xff xff xff xff xff)))
(T (W x00 x00 x80 x3f x00 x00 x80 x3f)
(T (W x45 x26 x22 x84 xe4 x9c xf2 xcb)
(L (W x00 x00 x80 xbf x00 x00 x80 xbf)) E)
(L (W x31 x00 x00 x00 x34 x00 x00 x00))))
(T (W x45 x26 x22 x84 xe4 x9c xf2 xcb)
(T (W xff xff xff xff xff xff xff xff)
(T (W x00 x00 x80 xbf x00 x00 x80 xbf)
(L (W x6c x00 x00 x00 x60 x00 x00 x00)) E)
(L (W x4f x84 x6f x8b xe8 xcb x63 xb7)))
(T (W xff xff xff xff xff xff xff xff)
(L (W x54 x00 x00 x00 x48 x00 x00 x00))
(L (W x45 x44 x00 x00 x00 x00 x00 x00)))))
(T (W x00 x00 x00 x00 x00 x00 x00 x00)
(T (W xff xff xff xff xff xff xff xff)
(T (W x00 x00 x00 x00 x00 x00 x00 x00)
(T (W xff xff xff xff xff xff xff xff)
(L (W x00 x00 x00 x00 x00 x00 x00 x00)) E)
(L (W xff xff xff xff xff xff xff xff)))
(T (W x12 x00 x00 x00 x46 x53 x59 x53)
(T (W xff xff xff xff xff xff xff xff)
(L (W x03 x00 x00 x00 xe8 x00 x00 x00)) E)
(L (W xa4 x00 x00 x00 x05 x00 x00 x00))))
(T (W xea x3a xfc xff x74 x00 x00 x00)
(T (W x00 x00 x80 x3f x00 x00 x80 x3f)
(T (W x45 x44 x00 x00 x00 x00 x00 x00)
(L (W x00 x00 x00 x00 x00 x00 x00 x00)) E)
(L (W x00 x00 x00 x00 x00 x00 x00 x00)))
(T (W x27 x00 x00 x00 x10 x00 x00 x00)
(L (W xff xff xff xff xbc x00 x00 x00))
(L (W x00 x00 x00 x00 x00 x00 x00 x00))))))))
(T (W xff xff xff xff xff xff xff xff)
(T (W xff xff xff xff xff xff xff xff)
(T (W xff xff xff xff xff xff xff xff)
(T (W xff xff xff xff xff xff xff xff)
(T (W x40 x00 x00 x00 x9c x00 x00 x00)
(T (W x00 x00 x00 x00 x00 x00 x00 x00)
(T (W x00 x00 x80 x3f x00 x00 x80 x3f)
(L (W xff xff xff xff xff xff xff xff)) E)
(L (W x00 x00 x00 x00 x00 x00 x00 x00)))
(T (W x00 x00 x00 x00 x00 x00 x00 x00)
(T (W x00 x00 x80 x3f x00 x00 x80 x3f)
(L (W x00 x00 x00 x00 x00 x00 x00 x00)) E)
(L (W x31 x00 x00 x00 x34 x00 x00 x00))))
(T (W x00 x00 x80 x3f x00 x00 x80 x3f)
(T (W x04 x00 x00 x00 x32 x92 xfc xff)
(T (W x18 x00 x00 x00 x0c x00 x00 x00)
(L (W xff xff xff xff xac x00 x00 x00)) E)
(L (W x00 x00 x80 xbf x00 x00 x80 xbf)))
(T (W x52 x5e xfd xff x9d x01 x00 x00)
(L (W x03 x00 x00 x00 xd8 x00 x00 x00))
(L (W x00 x00 x00 x00 x00 x00 x00 x00)))))
(T (W xff xff xff xff xff xff xff xff)
(T (W x00 x00 x80 x3f x00 x00 x80 x3f)
(T (W xff xff xff xff xff xff xff xff)
(T (W xff xff xff xff xff xff xff xff)
(L (W x00 x00 x80 xbf x00 x00 x80 xbf)) E)
(L (W x00 x00 x00 x00 x00 x00 x00 x00)))
(T (W x45 x26 x22 x84 xe4 x9c xf2 xcb)
(T (W x00 x00 x80 xbf x00 x00 x80 xbf)
(L (W x00 x00 x80 xbf x00 x00 x80 xbf)) E)
(L (W x00 x00 x00 x00 x00 x00 x00 x00))))
(T (W x00 x00 x00 x00 x00 x00 x00 x00)
(T (W x50 x00 x00 x00 x44 x00 x00 x00)
(T (W xff xff xff xff xff xff xff xff)
(L (W xac x07 x00 x00 x98 x06 x00 x00)) E)
(L (W xff xff xff xff xff xff xff xff)))
(T (W x18 x00 x00 x00 x0c x00 x00 x00)
(L (W xff xff xff xff xff xff xff xff))
(L (W xea x26 xff xff x74 x00 x00 x00))))))
(T (W x00 x00 x00 x00 x02 x00 x00 x00)
(T (W xff xff xff xff xff xff xff xff)
(T (W x68 x00 x00 x00 x5c x00 x00 x00)
(T (W x48 x03 x00 x00 x34 x02 x00 x00)
(T (W x00 x00 x00 x00 x00 x00 x00 x00)
(L (W x00 x00 x00 x00 x00 x00 x00 x00)) E)
(L (W x00 x00 x00 x00 x00 x00 x00 x00)))
(T (W xff xff xff xff xff xff xff xff)
(T (W x00 x00 x00 x00 xaa xe0 xfd xff)
(L (W xff xff xff xff xff xff xff xff)) E)
(L (W x00 x00 x01 x01 xcb x01 x00 x00))))
(T (W x00 x00 x00 x00 x00 x00 x00 x00)
(T (W x00 x00 x00 x00 x00 x00 x00 x00)
(T (W x00 x00 x80 xbf x00 x00 x80 xbf)
(L (W x00 x00 x00 x00 x9a x99 xff xff)) E)
(L (W xff xff xff xff xbc x00 x00 x00)))
(T (W x00 x00 x00 x00 x00 x00 x00 x00)
(L (W x06 x00 x00 x00 xb0 x05 x00 x00))
(L (W x68 x00 x00 x00 x5c x00 x00 x00)))))
(T (W x00 x00 x00 x00 x3c xba xfb xff)
(T (W x45 x26 x22 x84 xe4 x9c xf2 xcb)
(T (W xcc x00 x00 x00 x01 x00 x00 x00)
(T (W x00 x00 x80 x3f x00 x00 x80 x3f)
(L (W x54 x00 x00 x00 x48 x00 x00 x00)) E)
(L (W x00 x00 x80 xbf x00 x00 x80 xbf)))
(T (W x68 x00 x00 x00 x5c x00 x00 x00)
(T (W x49 xa1 x68 x4a xeb x5f xdd x3d)
(L (W xff xff xff xff xc0 x00 x00 x00)) E)
(L (W x00 x00 x00 x00 x00 x00 x00 x00))))
(T (W xfd x7f x19 x96 xc1 x54 xa4 x47)
(T (W xff xff xff xff xff xff xff xff)
(T (W x45 x26 x22 x84 xe4 x9c xf2 xcb)
(L (W xff xff xff xff x94 x00 x00 x00)) E)
(L (W x18 x00 x00 x00 x0c x00 x00 x00)))
(T (W x45 x26 x22 x84 xe4 x9c xf2 xcb)
(L (W x00 x00 x80 xbf x00 x00 x80 xbf))
(L (W x45 x26 x22 x84 xe4 x9c xf2 xcb)))))))
(T (W x00 x00 x01 x01 x3a x02 x00 x00)
(T (W x00 x00 x00 x00 x00 x00 x00 x00)
(T (W xff xff xff xff xff xff xff xff)
(T (W x01 x00 x00 x00 x3e x00 x00 x00)
(T (W x00 x00 x00 x00 x00 x00 x00 x00)
(T (W x00 x00 x00 x00 x00 x00 x00 x00)
(L (W x24 x00 x00 x00 x0c x00 x00 x00)) E)
(L (W x49 xa1 x68 x4a xeb x5f xdd x3d)))
(T (W x00 x00 x80 x3f x00 x00 x80 x3f)
(T (W xff xff xff xff xff xff xff xff)
(L (W x0a x00 x00 x00 x30 x0a x00 x00)) E)
(L (W x40 x00 x00 x00 xff xff xff xff))))
(T (W x00 x00 x80 x3f x00 x00 x80 x3f)
(T (W x46 x53 x59 x53 x5f x4e x53 x5f)
(T (W x40 x00 x44 x00 x00 x00 x48 x00)
(L (W xff xff xff xff xff xff xff xff)) E)
(L (W x1a x00 x00 x00 x1d x00 x00 x00)))
(T (W x64 x1a xfd xff x10 x00 x00 x00)
(L (W xff xff xff xff xff xff xff xff))
(L (W x00 x00 x80 xbf x00 x00 x80 xbf)))))
(T (W x64 x00 x00 x00 x9c x00 x00 x00)
(T (W x00 x00 x80 x3f x00 x00 x80 x3f)
(T (W x54 x00 x00 x00 x00 x00 x00 x00)
(T (W xff xff xff xff xff xff xff xff)
(L (W x68 x00 x00 x00 x5c x00 x00 x00)) E)
(L (W x00 x00 x00 x00 x00 x00 x00 x00)))
(T (W x00 x00 x80 x3f x00 x00 x80 x3f)
(T (W x6c x00 x00 x00 x60 x00 x00 x00)
(L (W x24 x00 x28 x00 x2c x00 x30 x00)) E)
(L (W x4f x84 x6f x8b xe8 xcb x63 xb7))))
(T (W x00 x00 x00 x00 x00 x00 x00 x00)
(T (W x03 x00 x00 x00 xd8 x00 x00 x00)
(T (W x00 x00 x00 x00 x00 x00 x00 x00)
(L (W xcc x00 x00 x00 x01 x00 x00 x00)) E)
(L (W x18 x00 x00 x00 x10 x00 x00 x00)))
(T (W x00 x00 x00 x00 x3c x32 xfd xff)
(L (W x00 x00 x00 x00 x00 x00 x00 x00))
(L (W xff xff xff xff xb0 x00 x00 x00))))))
(T (W xff xff xff xff xff xff xff xff)
(T (W xff xff xff xff xff xff xff xff)
(T (W xa2 xe0 xfb xff x78 x00 x00 x00)
(T (W xff xff xff xff xff xff xff xff)
(T (W x24 x00 x00 x00 x10 x00 x00 x00)
(L (W x45 x26 x22 x84 xe4 x9c xf2 xcb)) E)
(L (W x00 x00 x00 x00 x00 x00 x00 x00)))
(T (W xa7 xf7 xc8 x8e xb2 xf0 x8f x88)
(T (W x00 x00 x00 x00 x00 x00 x00 x00)
(L (W x20 x39 x45 xdc x00 xd4 x55 x2f)) E)
(L (W x46 x53 x59 x53 x5f x4e x53 x5f))))
(T (W x00 x00 x00 x00 x00 x00 x00 x00)
(T (W x00 x00 x80 x3f x00 x00 x80 x3f)
(T (W x00 x00 x00 x00 x00 x00 x00 x00)
(L (W x46 x53 x59 x53 x5f x4e x53 x5f)) E)
(L (W xff xff xff xff xb0 x00 x00 x00)))
(T (W x50 x00 x00 x00 x44 x00 x00 x00)
(L (W x45 x44 x00 x00 x00 x00 x00 x00))
(L (W x45 x26 x22 x84 xe4 x9c xf2 xcb)))))
(T (W x18 x00 x00 x00 x0c x00 x00 x00)
(T (W x00 x00 x80 x3f x00 x00 x80 x3f)
(T (W xff xff xff xff xff xff xff xff)
(T (W x00 x00 x80 x3f x00 x00 x80 x3f)
(L (W x18 x00 x00 x00 x10 x00 x00 x00)) E)
(L (W x00 x00 x80 xbf x00 x00 x80 xbf)))
(T (W xff xff xff xff xff xff xff xff)
(T (W x00 x00 x80 xbf x00 x00 x80 xbf)
(L (W x00 x00 x00 x00 x12 x00 x00 x00)) E)
(L (W x00 x00 x00 x00 x00 x00 x00 x00))))
(T (W x32 xb0 xfe xff x5c x00 x00 x00)
(T (W x04 x00 x00 x00 xaa xc8 xfc xff)
(T (W x6c x00 x00 x00 x60 x00 x00 x00)
(L (W xff xff xff xff xff xff xff xff)) E)
(L (W x00 x00 x00 x00 x3c xc2 xfe xff)))
(T (W x00 x00 x80 x3f x00 x00 x80 x3f)
(L (W x00 x00 x00 x00 x00 x00 x00 x00))
(L (W x1d x00 x00 x00 x20 x00 x00 x00)))))))))))
(T (W x90 x6d x02 x00 xcc x63 x02 x00)
(T (W x40 xdf x01 x00 x8c xda x01 x00)
(T (W xb0 x98 x00 x00 x7c x97 x00 x00)
(T (W x18 x00 x00 x00 x0c x00 x00 x00)
(T (W x4c x55 xfb xff x00 x01 x01 x01)
(T (W x00 x00 x00 x00 xbc x63 xfb xff)
(T (W x01 x00 x00 x00 xa0 x00 x00 x00)
(T (W x00 x00 x00 x00 x00 x00 x00 x00)
(T (W x64 x00 x00 x00 x9c x00 x00 x00)
(T (W x00 x00 x00 x00 x00 x00 x00 x00)
(L (W x00 x00 x80 xbf x00 x00 x80 xbf)) E)
(L (W x00 x00 x01 x01 x5d x00 x00 x00)))
(T (W xb0 x00 x00 x00 x64 x00 x00 x00)
(T (W x00 x00 x00 x00 x00 x00 x00 x00)
(L (W x6c x00 x00 x00 x60 x00 x00 x00)) E)
(L (W x00 x00 x80 xbf x00 x00 x80 xbf))))
(T (W x22 x73 xfe xff x00 x00 x01 x01)
(T (W x22 x82 xfc xff x78 x00 x00 x00)
(T (W x00 x00 x00 x00 x00 x00 x00 x00)
(L (W x4f x84 x6f x8b xe8 xcb x63 xb7)) E)
(L (W x00 x00 x00 x00 x00 x00 x00 x00)))
(T (W x00 x00 x80 x3f x00 x00 x80 x3f)
(T (W x00 x00 x00 x00 x00 x00 x00 x00)
(L (W x00 x00 x80 xbf x00 x00 x80 xbf)) E)
(L (W xff xff xff xff xff xff xff xff)))))
(T (W x00 x00 x80 x3f x00 x00 x80 x3f)
(T (W x00 x00 x00 x00 x00 x00 x00 x00)
(T (W x01 x00 x00 x00 x3c x00 x00 x00)
(T (W x64 x00 x00 x00 x9c x00 x00 x00)
(L (W x00 x00 x00 x00 x52 x61 xff xff)) E)
(L (W xff xff xff xff xff xff xff xff)))
(T (W xff xff xff xff xff xff xff xff)
(T (W xff xff xff xff xff xff xff xff)
(L (W x50 x00 x00 x00 x00 x00 x54 x00)) E)
(L (W xff xff xff xff xff xff xff xff))))
(T (W xe2 xb6 xff xff x00 x00 x01 x01)
(T (W x00 x00 x00 x00 x00 x00 x00 x00)
(T (W x04 x00 x00 x00 xb2 xab xfd xff)
(L (W xff xff xff xff xff xff xff xff)) E)
(L (W x45 x26 x22 x84 xe4 x9c xf2 xcb)))
(T (W x12 x00 x00 x00 x46 x53 x59 x53)
(L (W xff xff xff xff xa8 x00 x00 x00))
(L (W x45 x26 x22 x84 xe4 x9c xf2 xcb))))))
(T (W xff xff xff xff xff xff xff xff)
(T (W x00 x00 x80 x3f x00 x00 x80 x3f)
(T (W x45 x26 x22 x84 xe4 x9c xf2 xcb)
(T (W x18 x00 x00 x00 x0c x00 x00 x00)
(T (W xff xff xff xff xff xff xff xff)
(L (W xff xff xff xff xff xff xff xff)) E)
(L (W xff xff xff xff xff xff xff xff)))
(T (W x00 x00 x00 x00 x00 x00 x00 x00)
(T (W x50 x00 x00 x00 x44 x00 x00 x00)
(L (W xff xff xff xff xff xff xff xff)) E)
(L (W x45 x26 x22 x84 xe4 x9c xf2 xcb))))
(T (W xdc x00 x00 x00 xff xff xff xff)
(T (W xff xff xff xff xff xff xff xff)
(T (W x28 x00 x2c x00 x30 x00 x34 x00)
(L (W xcc x00 x00 x00 x01 x00 x00 x00)) E)
(L (W x00 x00 x80 xbf x00 x00 x80 xbf)))
(T (W xff xff xff xff xff xff xff xff)
(L (W x22 x12 xfe xff x78 x00 x00 x00))
(L (W x00 x00 x00 x00 x00 x00 x00 x00)))))
(T (W x00 x00 x80 x3f x00 x00 x80 x3f)
(T (W x00 x00 x00 x00 x00 x00 x00 x00)
(T (W x00 x00 x00 x00 x20 x00 x24 x00)
(T (W x00 x00 x80 x3f x00 x00 x80 x3f)
(L (W x49 xa1 x68 x4a xeb x5f xdd x3d)) E)
(L (W x04 x00 x00 x00 x1a x73 xfe xff)))
(T (W x00 x00 x00 x00 x00 x00 x00 x00)
(T (W x00 x00 x00 x00 x00 x00 x00 x00)
(L (W x00 x00 x00 x00 x00 x00 x00 x00)) E)
(L (W x04 x00 x00 x00 x58 x03 x00 x00))))
(T (W xff xff xff xff xff xff xff xff)
(T (W x00 x00 x80 x3f x00 x00 x80 x3f)
(T (W xff xff xff xff xff xff xff xff)
(L (W x00 x00 x80 xbf x00 x00 x80 xbf)) E)
(L (W x4f x84 x6f x8b xe8 xcb x63 xb7)))
(T (W x00 x00 x80 x3f x00 x00 x80 x3f)
(L (W x00 x00 x01 x01 xc8 x00 x00 x00))
(L (W x00 x00 x80 xbf x00 x00 x80 xbf)))))))
(T (W x6a x58 xfb xff x74 x00 x00 x00)
(T (W xff xff xff xff xff xff xff xff)
(T (W x6a x88 xfb xff x74 x00 x00 x00)
(T (W x45 x26 x22 x84 xe4 x9c xf2 xcb)
(T (W x00 x00 x00 x00 xbc x4b xfc xff)
(T (W x20 x00 x00 x00 x10 x00 x00 x00)
(L (W x4c x4d xff xff x00 x01 x01 x01)) E)
(L (W xff xff xff xff xff xff xff xff)))
(T (W x04 x00 x00 x00 x2a xd2 xfc xff)
(T (W x49 xa1 x68 x4a xeb x5f xdd x3d)
(L (W xff xff xff xff xb0 x00 x00 x00)) E)
(L (W x00 x00 x80 xbf x00 x00 x80 xbf))))
(T (W xff xff xff xff xff xff xff xff)
(T (W xff xff xff xff x9c x00 x00 x00)
(T (W x00 x00 x00 x00 x00 x00 x00 x00)
(L (W x00 x00 x80 xbf x00 x00 x80 xbf)) E)
(L (W x49 xa1 x68 x4a xeb x5f xdd x3d)))
(T (W x18 x00 x00 x00 x0c x00 x00 x00)
(L (W x00 x00 x80 xbf x00 x00 x80 xbf))
(L (W x45 x44 x00 x00 x00 x00 x00 x00)))))
(T (W x00 x00 x80 x3f x00 x00 x80 x3f)
(T (W x00 x00 x00 x00 x00 x00 x00 x00)
(T (W xff xff xff xff xff xff xff xff)
(T (W x18 x00 x00 x00 x0c x00 x00 x00)
(L (W x00 x00 x00 x00 x00 x00 x00 x00)) E)
(L (W x45 x44 x00 x00 x00 x00 x00 x00)))
(T (W xff xff xff xff xff xff xff xff)
(T (W x00 x00 x00 x00 x00 x00 x00 x00)
(L (W x00 x00 x00 x00 x00 x00 x00 x00)) E)
(L (W x00 x00 x00 x00 x52 xe9 xfe xff))))
(T (W xff xff xff xff xff xff xff xff)
(T (W x49 xa1 x68 x4a xeb x5f xdd x3d)
(T (W x00 x00 x80 x3f x00 x00 x80 x3f)
(L (W x12 x00 x00 x00 x46 x53 x59 x53)) E)
(L (W xff xff xff xff xff xff xff xff)))
(T (W x45 x26 x22 x84 xe4 x9c xf2 xcb)
(L (W xff xff xff xff xbc x00 x00 x00))
(L (W x00 x00 x80 xbf x00 x00 x80 xbf))))))
(T (W x18 x00 x00 x00 x10 x00 x00 x00)
(T (W x00 x00 x80 x3f x00 x00 x80 x3f)
(T (W x00 x00 x80 x3f x00 x00 x80 x3f)
(T (W x40 x00 x00 x00 x9c x00 x00 x00)
(T (W xff xff xff xff xff xff xff xff)
(L (W xff xff xff xff xff xff xff xff)) E)
(L (W xff xff xff xff xff xff xff xff)))
(T (W x00 x00 x80 x3f x00 x00 x80 x3f)
(T (W x03 x00 x00 x00 xd0 x00 x00 x00)
(L (W x00 x00 x00 x00 x50 xdd xff xff)) E)
(L (W x24 x00 x00 x00 x27 x00 x00 x00))))
(T (W x6a xad xff xff xad x01 x00 x00)
(T (W x00 x00 x00 x00 x00 x00 x00 x00)
(T (W x00 x00 x00 x00 x00 x00 x00 x00)
(L (W xbc x00 x00 x00 x14 x00 x00 x00)) E)
(L (W x00 x00 x00 x00 x50 x9d xfe xff)))
(T (W x80 x03 x00 x00 x54 x02 x00 x00)
(L (W xff xff xff xff xff xff xff xff))
(L (W x00 x00 x80 xbf x00 x00 x80 xbf)))))
(T (W x45 x26 x22 x84 xe4 x9c xf2 xcb)
(T (W x1d x00 x00 x00 x0c x00 x00 x00)
(T (W x00 x00 x80 x3f x00 x00 x80 x3f)
(T (W x00 x00 x00 x00 x00 x00 x00 x00)
(L (W x00 x00 x00 x00 x00 x00 x00 x00)) E)
(L (W x46 x53 x59 x53 x5f x4e x53 x5f)))
(T (W x00 x00 x80 x3f x00 x00 x80 x3f)
(T (W x18 x83 xfc x22 xd2 x07 x94 x6c)
(L (W x45 x26 x22 x84 xe4 x9c xf2 xcb)) E)
(L (W xff xff xff xff xff xff xff xff))))
(T (W xff xff xff xff xff xff xff xff)
(T (W x6c x00 x00 x00 x60 x00 x00 x00)
(T (W x46 x53 x59 x53 x5f x4e x53 x5f)
(L (W x00 x00 x80 xbf x00 x00 x80 xbf)) E)
(L (W x00 x00 x80 xbf x00 x00 x80 xbf)))
(T (W x00 x00 x00 x00 x00 x00 x00 x00)
(L (W x00 x00 x00 x00 x00 x00 x00 x00))
(L (W x00 x00 x80 xbf x00 x00 x80 xbf))))))))
(T (W x00 x00 x00 x00 x00 x00 x00 x00)
(T (W x00 x00 x00 x00 x00 x00 x00 x00)
(T (W x00 x00 x00 x00 x00 x00 x00 x00)
(T (W x00 x00 x00 x00 x00 x00 x00 x00)
(T (W xff xff xff xff xff xff xff xff)
(T (W x00 x00 x00 x00 x00 x00 x00 x00)
(T (W x18 x00 x00 x00 x0c x00 x00 x00)
(L (W xff xff xff xff xff xff xff xff)) E)
(L (W x45 x26 x22 x84 xe4 x9c xf2 xcb)))
(T (W x45 x26 x22 x84 xe4 x9c xf2 xcb)
(T (W xff xff xff xff xa0 x00 x00 x00)
(L (W x00 x00 x00 x00 x00 x00 x00 x00)) E)
(L (W xff xff xff xff xff xff xff xff))))
(T (W x50 x00 x00 x00 x44 x00 x00 x00)
(T (W x00 x00 x00 x00 x00 x00 x00 x00)
(T (W xff xff xff xff xff xff xff xff)
(L (W xff xff xff xff xff xff xff xff)) E)
(L (W xff xff xff xff x9c x00 x00 x00)))
(T (W x00 x00 x00 x00 x00 x00 x00 x00)
(L (W xff xff xff xff xff xff xff xff))
(L (W x00 x00 x80 xbf x00 x00 x80 xbf)))))
(T (W x1c x01 x00 x00 x04 x00 x00 x00)
(T (W x6a xe4 xfb xff x74 x00 x00 x00)
(T (W x01 x00 x00 x00 x04 x00 x00 x00)
(T (W x00 x00 x00 x00 x00 x00 x00 x00)
(L (W x45 x26 x22 x84 xe4 x9c xf2 xcb)) E)
(L (W x54 x00 x00 x00 x48 x00 x00 x00)))
(T (W x45 x26 x22 x84 xe4 x9c xf2 xcb)
(T (W x45 x26 x22 x84 xe4 x9c xf2 xcb)
(L (W x00 x00 x80 xbf x00 x00 x80 xbf)) E)
(L (W x00 x00 x80 xbf x00 x00 x80 xbf))))
(T (W x00 x00 x00 x00 x00 x00 x00 x00)
(T (W x18 x00 x00 x00 x10 x00 x00 x00)
(T (W xc0 x00 x00 x00 x64 x00 x00 x00)
(L (W x00 x00 x00 x00 x00 x00 x00 x00)) E)
(L (W xff xff xff xff xff xff xff xff)))
(T (W xff xff xff xff xff xff xff xff)
(L (W xb4 x2c xfe xff x2f x00 x00 x00))
(L (W xff xff xff xff xff xff xff xff))))))
(T (W x00 x00 x00 x00 x00 x00 x00 x00)
(T (W x25 x00 x00 x00 x10 x00 x00 x00)
(T (W xff xff xff xff x04 x00 x00 x00)
(T (W x00 x00 x00 x00 x00 x00 x00 x00)
(T (W x00 x00 x80 x3f x00 x00 x80 x3f)
(L (W x00 x00 x80 xbf x00 x00 x80 xbf)) E)
(L (W x45 x26 x22 x84 xe4 x9c xf2 xcb)))
(T (W xff xff xff xff xff xff xff xff)
(T (W x00 x00 x00 x00 x00 x00 x00 x00)
(L (W x46 x53 x59 x53 x5f x4e x53 x5f)) E)
(L (W x00 x00 x00 x00 x00 x00 x00 x00))))
(T (W x00 x00 x80 x3f x00 x00 x80 x3f)
(T (W x00 x00 x80 x3f x00 x00 x80 x3f)
(T (W x50 x00 x00 x00 x44 x00 x00 x00)
(L (W x00 x00 x00 x00 x00 x00 x00 x00)) E)
(L (W x19 x01 x00 x00 xff xff xff xff)))
(T (W x00 x00 x80 x3f x00 x00 x80 x3f)
(L (W x00 x00 x00 x00 x00 x00 x00 x00))
(L (W xff xff xff xff xc0 x00 x00 x00)))))
(T (W xff xff xff xff xff xff xff xff)
(T (W x18 x00 x00 x00 x10 x00 x00 x00)
(T (W xff xff xff xff xff xff xff xff)
(T (W xb8 x00 x00 x00 xac x00 x00 x00)
(L (W xff xff xff xff xff xff xff xff)) E)
(L (W x00 x00 x80 xbf x00 x00 x80 xbf)))
(T (W xff xff xff xff xff xff xff xff)
(T (W x22 xf6 xfd xff x78 x00 x00 x00)
(L (W x00 x00 x00 x00 x00 x00 x00 x00)) E)
(L (W x00 x00 x80 xbf x00 x00 x80 xbf))))
(T (W x00 x00 x80 x3f x00 x00 x80 x3f)
(T (W x00 x00 x00 x00 x00 x00 x00 x00)
(T (W x6c x64 x5f x70 x6f x6b x65 x5f)
(L (W xff xff xff xff xff xff xff xff)) E)
(L (W xff xff xff xff xb0 x00 x00 x00)))
(T (W xff xff xff xff xff xff xff xff)
(L (W x50 x00 x00 x00 x44 x00 x00 x00))
(L (W xff xff xff xff xff xff xff xff)))))))
(T (W x00 x00 x00 x00 x00 x00 x00 x00)
(T (W x00 x00 x00 x00 x00 x00 x00 x00)
(T (W x00 x00 x00 x00 x00 x00 x00 x00)
(T (W xff xff xff xff xff xff xff xff)
(T (W x00 x00 x00 x00 x00 x00 x00 x00)
(T (W x00 x00 x80 x3f x00 x00 x80 x3f)
(L (W x00 x00 x00 x00 x00 x00 x00 x00)) E)
(L (W x00 x00 x80 xbf x00 x00 x80 xbf)))
(T (W x00 x00 x00 x00 xbc xcf xfc xff)
(T (W xff xff xff xff xff xff xff xff)
(L (W x00 x00 x00 x00 x00 x00 x00 x00)) E)
(L (W x00 x00 x00 x00 x00 x00 x00 x00))))
(T (W x6c x00 x00 x00 x60 x00 x00 x00)
(T (W x00 x00 x80 x3f x00 x00 x80 x3f)
(T (W x64 x00 x00 x00 x9c x00 x00 x00)
(L (W xb4 x01 x00 x00 xff xff xff xff)) E)
(L (W x03 x00 x00 x00 xd4 x00 x00 x00)))
(T (W x45 x26 x22 x84 xe4 x9c xf2 xcb)
(L (W x7d x00 x00 x00 xff xff xff xff))
(L (W x54 x00 x00 x00 x48 x00 x00 x00)))))
(T (W xff xff xff xff xff xff xff xff)
(T (W x45 x26 x22 x84 xe4 x9c xf2 xcb)
(T (W x00 x00 x00 x00 x00 x00 x00 x00)
(T (W x31 x00 x00 x00 x10 x00 x00 x00)
(L (W xff xff xff xff xff xff xff xff)) E)
(L (W x00 x00 x80 xbf x00 x00 x80 xbf)))
(T (W x68 x00 x00 x00 x5c x00 x00 x00)
(T (W x6a xec xfd xff x74 x00 x00 x00)
(L (W xff xff xff xff xff xff xff xff)) E)
(L (W x00 x00 x80 xbf x00 x00 x80 xbf))))
(T (W x45 x26 x22 x84 xe4 x9c xf2 xcb)
(T (W xff xff xff xff xff xff xff xff)
(T (W x00 x00 x00 x00 x1b x00 x00 x00)
(L (W xff xff xff xff xff xff xff xff)) E)
(L (W xb0 x00 x00 x00 x64 x00 x00 x00)))
(T (W xff xff xff xff xff xff xff xff)
(L (W x00 x00 x80 xbf x00 x00 x80 xbf))
(L (W xff xff xff xff xff xff xff xff))))))
(T (W x00 x00 x00 x00 x00 x00 x00 x00)
(T (W x00 x00 x00 x00 x82 x34 xff xff)
(T (W x18 x00 x00 x00 x0c x00 x00 x00)
(T (W xb4 x64 xfc xff x0d x00 x00 x00)
(T (W x00 x00 x00 x00 x00 x00 x00 x00)
(L (W x22 x5e xff xff x78 x00 x00 x00)) E)
(L (W x00 x00 x00 x00 x50 x61 xfe xff)))
(T (W x00 x00 x00 x00 x00 x00 x00 x00)
(T (W x45 x26 x22 x84 xe4 x9c xf2 xcb)
(L (W x00 x00 x00 x00 x00 x00 x00 x00)) E)
(L (W x00 x00 x80 xbf x00 x00 x80 xbf))))
(T (W x00 x00 x80 x3f x00 x00 x80 x3f)
(T (W x45 x26 x22 x84 xe4 x9c xf2 xcb)
(T (W x00 x00 x00 x00 x00 x00 x00 x00)
(L (W x00 x00 x00 x00 x00 x00 x00 x00)) E)
(L (W xff xff xff xff xff xff xff xff)))
(T (W x68 x00 x00 x00 x5c x00 x00 x00)
(L (W x00 x00 x00 x00 x12 x00 x00 x00))
(L (W xff xff xff xff xb0 x00 x00 x00)))))
(T (W xde x01 x00 x00 xff xff xff xff)
(T (W x3e x00 x00 x00 x9c x00 x00 x00)
(T (W x00 x00 x00 x00 x2a x86 xfc xff)
(T (W x50 x00 x00 x00 x44 x00 x00 x00)
(L (W xff xff xff xff xff xff xff xff)) E)
(L (W x18 x00 x00 x00 x0c x00 x00 x00)))
(T (W x02 x00 x00 x00 xff xff xff xff)
(T (W x00 x00 x00 x00 xbc xff xfd xff)
(L (W xff xff xff xff xff xff xff xff)) E)
(L (W x4f x84 x6f x8b xe8 xcb x63 xb7))))
(T (W x00 x00 x80 x3f x00 x00 x80 x3f)
(T (W x00 x00 x00 x00 x00 x00 x00 x00)
(T (W xcc x00 x00 x00 x01 x00 x00 x00)
(L (W x94 x04 x00 x00 x80 x03 x00 x00)) E)
(L (W xff xff xff xff xff xff xff xff)))
(T (W x64 x00 x00 x00 x9c x00 x00 x00)
(L (W x54 x00 x00 x00 x48 x00 x00 x00))
(L (W xff xff xff xff xff xff xff xff)))))))))
(T (W x45 x26 x22 x84 xe4 x9c xf2 xcb)
(T (W xff xff xff xff xff xff xff xff)
(T (W xff xff xff xff xff xff xff xff)
(T (W xf6 x01 x00 x00 xff xff xff xff)
(T (W xc0 x01 x00 x00 xff xff xff xff)
(T (W x6a xc2 xfb xff x74 x00 x00 x00)
(T (W x00 x00 x00 x00 x02 x00 x00 x00)
(T (W x00 x00 x80 x3f x00 x00 x80 x3f)
(L (W xff xff xff xff xb8 x00 x00 x00)) E)
(L (W x00 x00 x00 x00 x00 x00 x00 x00)))
(T (W x10 xf9 x2f x74 x1a xd6 x58 xe9)
(T (W x00 x00 x80 x3f x00 x00 x80 x3f)
(L (W xff xff xff xff xff xff xff xff)) E)
(L (W xff xff xff xff xb0 x00 x00 x00))))
(T (W x00 x00 x00 x00 x00 x00 x00 x00)
(T (W xff xff xff xff xff xff xff xff)
(T (W x00 x00 x80 x3f x00 x00 x80 x3f)
(L (W xff xff xff xff xb0 x00 x00 x00)) E)
(L (W x00 x00 x80 xbf x00 x00 x80 xbf)))
(T (W xff xff xff xff xff xff xff xff)
(L (W x45 x26 x22 x84 xe4 x9c xf2 xcb))
(L (W x00 x00 x00 x00 x00 x00 x00 x00)))))
(T (W x18 x00 x00 x00 x0c x00 x00 x00)
(T (W x00 x00 x80 x3f x00 x00 x80 x3f)
(T (W xff xff xff xff xff xff xff xff)
(T (W xff xff xff xff xff xff xff xff)
(L (W x00 x00 x80 xbf x00 x00 x80 xbf)) E)
(L (W x00 x00 x00 x00 x00 x00 x00 x00)))
(T (W x00 x00 x00 x00 x00 x00 x00 x00)
(T (W x00 x00 x80 xbf x00 x00 x80 xbf)
(L (W x00 x00 x00 x00 x00 x00 x00 x00)) E)
(L (W x00 x00 x00 x00 x00 x00 x00 x00))))
(T (W x00 x00 x00 x00 x00 x00 x00 x00)
(T (W x00 x00 x80 x3f x00 x00 x80 x3f)
(T (W x45 x26 x22 x84 xe4 x9c xf2 xcb)
(L (W xff xff xff xff xff xff xff xff)) E)
(L (W x2d x00 x00 x00 x30 x00 x00 x00)))
(T (W x00 x00 x80 x3f x00 x00 x80 x3f)
(L (W xff xff xff xff xff xff xff xff))
(L (W x22 x24 xff xff x78 x00 x00 x00))))))
(T (W xff xff xff xff xff xff xff xff)
(T (W xff xff xff xff xff xff xff xff)
(T (W x00 x00 x80 x3f x00 x00 x80 x3f)
(T (W xff xff xff xff xff xff xff xff)
(T (W x00 x00 x00 x00 x00 x00 x00 x00)
(L (W x45 x44 x00 x00 x00 x00 x00 x00)) E)
(L (W x00 x00 x00 x00 x00 x00 x00 x00)))
(T (W x68 x00 x00 x00 x5c x00 x00 x00)
(T (W xff xff xff xff xff xff xff xff)
(L (W x5c x00 x00 x00 xff xff xff xff)) E)
(L (W x00 x00 x01 x01 xaa x01 x00 x00))))
(T (W x00 x00 x00 x00 x00 x00 x00 x00)
(T (W x00 x00 x00 x00 x00 x00 x00 x00)
(T (W x60 x00 x00 x00 x00 x00 x64 x00)
(L (W xff xff xff xff xff xff xff xff)) E)
(L (W x00 x00 x00 x00 xbc x95 xfe xff)))
(T (W x4c x45 x41 x52 x45 x44 x00 x00)
(L (W xff xff xff xff xff xff xff xff))
(L (W x6c x00 x00 x00 x60 x00 x00 x00)))))
(T (W x18 x00 x00 x00 x10 x00 x00 x00)
(T (W x00 x00 x80 x3f x00 x00 x80 x3f)
(T (W x4c x77 xfc xff x00 x01 x01 x01)
(T (W x00 x00 x00 x00 x00 x00 x00 x00)
(L (W x54 x00 x00 x00 x48 x00 x00 x00)) E)
(L (W x45 x26 x22 x84 xe4 x9c xf2 xcb)))
(T (W x00 x00 x80 x3f x00 x00 x80 x3f)
(T (W x00 x00 x80 xbf x00 x00 x80 xbf)
(L (W xff xff xff xff xff xff xff xff)) E)
(L (W x00 x00 x00 x00 x00 x00 x00 x00))))
(T (W xe4 x3d xfc xff x3c x00 x00 x00)
(T (W x18 x00 x00 x00 x10 x00 x00 x00)
(T (W x6c x00 x00 x00 x60 x00 x00 x00)
(L (W xff xff xff xff xff xff xff xff)) E)
(L (W x00 x00 x80 xbf x00 x00 x80 xbf)))
(T (W x22 x34 xfd xff x78 x00 x00 x00)
(L (W x00 x00 x00 x00 x00 x00 x00 x00))
(L (W xff xff xff xff xb8 x00 x00 x00)))))))
(T (W xff xff xff xff x01 x00 x00 x00)
(T (W xff xff xff xff xff xff xff xff)
(T (W xff xff xff xff xff xff xff xff)
(T (W x00 x00 x80 x3f x00 x00 x80 x3f)
(T (W xff xff xff xff xff xff xff xff)
(T (W x00 x00 x00 x00 x00 x00 x00 x00)
(L (W xff xff xff xff xff xff xff xff)) E)
(L (W x00 x00 x00 x00 x12 x00 x00 x00)))
(T (W x00 x00 x00 x00 x00 x00 x00 x00)
(T (W xcc x00 x00 x00 x01 x00 x00 x00)
(L (W xff xff xff xff xff xff xff xff)) E)
(L (W xff xff xff xff xff xff xff xff))))
(T (W x00 x00 x00 x00 x00 x00 x00 x00)
(T (W x00 x00 x00 x00 x2a x94 xfc xff)
(T (W x00 x00 x80 x3f x00 x00 x80 x3f)
(L (W xff xff xff xff xc8 x00 x00 x00)) E)
(L (W x6c x00 x00 x00 x60 x00 x00 x00)))
(T (W x62 x63 xfd xff x00 x00 x01 x01)
(L (W x18 x00 x00 x00 x10 x00 x00 x00))
(L (W x4f x84 x6f x8b xe8 xcb x63 xb7)))))
(T (W x6a xaa xfb xff x74 x00 x00 x00)
(T (W x50 x00 x00 x00 x44 x00 x00 x00)
(T (W x6a x6a xfc xff x74 x00 x00 x00)
(T (W xff xff xff xff xff xff xff xff)
(L (W x00 x00 x80 xbf x00 x00 x80 xbf)) E)
(L (W x00 x00 x00 x00 x00 x00 x00 x00)))
(T (W x49 xa1 x68 x4a xeb x5f xdd x3d)
(T (W x45 x26 x22 x84 xe4 x9c xf2 xcb)
(L (W x00 x00 x80 xbf x00 x00 x80 xbf)) E)
(L (W x00 x00 x00 x00 x00 x00 x00 x00))))
(T (W x00 x00 x00 x00 x00 x00 x00 x00)
(T (W x6c x00 x00 x00 x60 x00 x00 x00)
(T (W xff xff xff xff xff xff xff xff)
(L (W xcc x00 x00 x00 x01 x00 x00 x00)) E)
(L (W x00 x00 x80 xbf x00 x00 x80 xbf)))
(T (W x6a x2a xfd xff x74 x00 x00 x00)
(L (W x30 x35 x5f x43 x4c x45 x41 x52))
(L (W x18 x00 x00 x00 x0c x00 x00 x00))))))
(T (W xff xff xff xff xff xff xff xff)
(T (W xff xff xff xff x04 x00 x00 x00)
(T (W x00 x00 x80 x3f x00 x00 x80 x3f)
(T (W xff xff xff xff xff xff xff xff)
(T (W x42 x00 x00 x00 x10 x00 x00 x00)
(L (W x00 x00 x00 x00 x00 x00 x00 x00)) E)
(L (W x00 x00 x00 x00 x00 x00 x00 x00)))
(T (W xff xff xff xff xff xff xff xff)
(T (W x02 x00 x00 x00 x38 x01 x00 x00)
(L (W xff xff xff xff xff xff xff xff)) E)
(L (W x46 x53 x59 x53 x5f x4e x53 x5f))))
(T (W x00 x00 x00 x00 x00 x00 x00 x00)
(T (W x00 x00 x00 x00 x00 x00 x00 x00)
(T (W xff xff xff xff xff xff xff xff)
(L (W xbc x01 x00 x00 xff xff xff xff)) E)
(L (W x03 x00 x00 x00 xd0 x00 x00 x00)))
(T (W x00 x00 x80 x3f x00 x00 x80 x3f)
(L (W xa8 x01 x00 x00 xff xff xff xff))
(L (W x6c x00 x00 x00 x60 x00 x00 x00)))))
(T (W x01 x00 x00 x00 xa0 x00 x00 x00)
(T (W x00 x00 x80 x3f x00 x00 x80 x3f)
(T (W xff xff xff xff x9c x00 x00 x00)
(T (W x45 x26 x22 x84 xe4 x9c xf2 xcb)
(L (W x22 x7c xff xff x78 x00 x00 x00)) E)
(L (W x49 xa1 x68 x4a xeb x5f xdd x3d)))
(T (W x4c xff xfc xff x00 x01 x01 x01)
(T (W x00 x00 x80 xbf x00 x00 x80 xbf)
(L (W x3c x00 x40 x00 x44 x00 x48 x00)) E)
(L (W x00 x00 x00 x00 x12 x00 x00 x00))))
(T (W x00 x00 x00 x00 x00 x00 x00 x00)
(T (W xff xff xff xff xff xff xff xff)
(T (W x54 x00 x00 x00 x48 x00 x00 x00)
(L (W xff xff xff xff xb0 x00 x00 x00)) E)
(L (W x6c x00 x00 x00 x60 x00 x00 x00)))
(T (W x00 x00 x80 x3f x00 x00 x80 x3f)
(L (W x00 x00 x00 x00 x00 x00 x00 x00))
(L (W xff xff xff xff xb0 x00 x00 x00))))))))
(T (W x00 x00 x00 x00 x00 x00 x00 x00)
(T (W x00 x00 x80 x3f x00 x00 x80 x3f)
(T (W x20 x00 x24 x00 x28 x00 x2c x00)
(T (W x00 x00 x00 x00 x00 x00 x00 x00)
(T (W x00 x00 x00 x00 x00 x00 x00 x00)
(T (W x50 x00 x00 x00 x44 x00 x00 x00)
(T (W xff xff xff xff xff xff xff xff)
(L (W x00 x00 x00 x00 x00 x00 x00 x00)) E)
(L (W x68 x00 x00 x00 x5c x00 x00 x00)))
(T (W x18 x00 x00 x00 x10 x00 x00 x00)
(T (W xff xff xff xff xff xff xff xff)
(L (W x00 x00 x80 xbf x00 x00 x80 xbf)) E)
(L (W x00 x00 x00 x00 x00 x00 x00 x00))))
(T (W xff xff xff xff xff xff xff xff)
(T (W x00 x00 x80 x3f x00 x00 x80 x3f)
(T (W x41 x00 x00 x00 x10 x00 x00 x00)
(L (W x00 x00 x00 x00 x00 x00 x00 x00)) E)
(L (W xff xff xff xff xff xff xff xff)))
(T (W x00 x00 x80 x3f x00 x00 x80 x3f)
(L (W x00 x00 x00 x00 x00 x00 x00 x00))
(L (W xff xff xff xff x9c x00 x00 x00)))))
(T (W x00 x00 x00 x00 x00 x00 x00 x00)
(T (W xff xff xff xff xff xff xff xff)
(T (W x45 x26 x22 x84 xe4 x9c xf2 xcb)
(T (W x00 x00 x80 x3f x00 x00 x80 x3f)
(L (W xff xff xff xff xff xff xff xff)) E)
(L (W xb0 x00 x00 x00 x14 x00 x00 x00)))
(T (W xb8 x00 x00 x00 x64 x00 x00 x00)
(T (W xff xff xff xff xff xff xff xff)
(L (W xff xff xff xff xff xff xff xff)) E)
(L (W x00 x00 x00 x00 xbc xe9 xfe xff))))
(T (W x4c x2b xfc xff x00 x01 x01 x01)
(T (W xc8 x02 x00 x00 xff xff xff xff)
(T (W x00 x00 x00 x00 x00 x00 x00 x00)
(L (W x00 x00 x80 xbf x00 x00 x80 xbf)) E)
(L (W x4f x84 x6f x8b xe8 xcb x63 xb7)))
(T (W x00 x00 x00 x00 x00 x00 x00 x00)
(L (W x00 x00 x80 xbf x00 x00 x80 x3f))
(L (W x00 x00 x00 x00 x00 x00 x00 x00))))))
(T (W x00 x00 x80 x3f x00 x00 x80 x3f)
(T (W x45 x26 x22 x84 xe4 x9c xf2 xcb)
(T (W x00 x00 x00 x00 x82 x6e xff xff)
(T (W x00 x00 x80 x3f x00 x00 x80 x3f)
(T (W x18 x00 x00 x00 x0c x00 x00 x00)
(L (W xff xff xff xff xb0 x00 x00 x00)) E)
(L (W x00 x00 x00 x00 xbc x59 xfe xff)))
(T (W x00 x00 x00 x00 x00 x00 x00 x00)
(T (W x00 x00 x80 xbf x00 x00 x80 xbf)
(L (W x00 x00 x80 xbf x00 x00 x80 xbf)) E)
(L (W x00 x00 x80 xbf x00 x00 x80 xbf))))
(T (W x64 x00 x00 x00 x9c x00 x00 x00)
(T (W xff xff xff xff x9c x00 x00 x00)
(T (W xff xff xff xff xff xff xff xff)
(L (W x00 x00 x80 xbf x00 x00 x80 xbf)) E)
(L (W x00 x00 x00 x00 x00 x00 x00 x00)))
(T (W xc0 x00 x00 x00 x01 x00 x00 x00)
(L (W x00 x00 x80 xbf x00 x00 x80 xbf))
(L (W x69 x01 x00 x00 xff xff xff xff)))))
(T (W x00 x00 x00 x00 x00 x00 x00 x00)
(T (W xff xff xff xff xff xff xff xff)
(T (W x00 x00 x00 x00 x00 x00 x00 x00)
(T (W xff xff xff xff xff xff xff xff)
(L (W xff xff xff xff xff xff xff xff)) E)
(L (W xff xff xff xff xff xff xff xff)))
(T (W x0a x4d xfe xff x9c x01 x00 x00)
(T (W xff xff xff xff xff xff xff xff)
(L (W x28 x00 x2c x00 x30 x00 x34 x00)) E)
(L (W xa4 x00 x00 x00 x05 x00 x00 x00))))
(T (W x00 x00 x80 x3f x00 x00 x80 x3f)
(T (W x00 x00 x00 x00 x00 x00 x00 x00)
(T (W xbc x00 x00 x00 x0a x00 x00 x00)
(L (W x30 x35 x5f x43 x4c x45 x41 x52)) E)
(L (W x94 x04 x00 x00 x80 x03 x00 x00)))
(T (W xf4 x6f x2e x97 x85 x25 x59 x5f)
(L (W xff xff xff xff xff xff xff xff))
(L (W x00 x00 x00 x00 x00 x00 x00 x00)))))))
(T (W x00 x00 x80 x3f x00 x00 x80 x3f)
(T (W x54 x00 x00 x00 x48 x00 x00 x00)
(T (W x45 x26 x22 x84 xe4 x9c xf2 xcb)
(T (W x3e x00 x00 x00 x10 x00 x00 x00)
(T (W x68 x00 x00 x00 x5c x00 x00 x00)
(T (W x64 x00 x00 x00 x9c x00 x00 x00)
(L (W x00 x00 x80 xbf x00 x00 x80 xbf)) E)
(L (W xff xff xff xff xff xff xff xff)))
(T (W xff xff xff xff xff xff xff xff)
(T (W x00 x00 x00 x00 x00 x00 x00 x00)
(L (W x00 x00 x80 xbf x00 x00 x80 xbf)) E)
(L (W x00 x00 x80 xbf x00 x00 x80 xbf))))
(T (W xff xff xff xff xff xff xff xff)
(T (W x22 x90 xfc xff x78 x00 x00 x00)
(T (W x45 x26 x22 x84 xe4 x9c xf2 xcb)
(L (W x00 x00 x00 x00 x00 x00 x00 x00)) E)
(L (W x13 x00 x00 x00 x0c x00 x00 x00)))
(T (W x00 x00 x80 x3f x00 x00 x80 x3f)
(L (W x00 x00 x00 x00 x00 x00 x00 x00))
(L (W xff xff xff xff xff xff xff xff)))))
(T (W x00 x00 x00 x00 x00 x00 x00 x00)
(T (W xff xff xff xff xff xff xff xff)
(T (W x00 x00 x00 x00 x00 x00 x00 x00)
(T (W x00 x00 x00 x00 x00 x00 x00 x00)
(L (W x00 x00 x00 x00 x2a x78 xff xff)) E)
(L (W xff xff xff xff xb0 x00 x00 x00)))
(T (W xff xff xff xff xff xff xff xff)
(T (W x00 x00 x00 x00 x2a xf8 xfd xff)
(L (W xff xff xff xff xff xff xff xff)) E)
(L (W x03 x00 x00 x00 xd0 x00 x00 x00))))
(T (W x50 x00 x00 x00 x44 x00 x00 x00)
(T (W x00 x00 x00 x00 x00 x00 x00 x00)
(T (W x68 x00 x00 x00 x5c x00 x00 x00)
(L (W x00 x00 x00 x00 x00 x00 x00 x00)) E)
(L (W x30 x35 x5f x43 x4c x45 x41 x52)))
(T (W x00 x00 x00 x00 x00 x00 x00 x00)
(L (W xff xff xff xff xb0 x00 x00 x00))
(L (W x00 x00 x00 x00 x00 x00 x00 x00))))))
(T (W x45 x26 x22 x84 xe4 x9c xf2 xcb)
(T (W x00 x00 x80 x3f x00 x00 x80 x3f)
(T (W x1c x01 x00 x00 x04 x00 x00 x00)
(T (W x00 x00 x80 x3f x00 x00 x80 x3f)
(T (W x00 x00 x80 x3f x00 x00 x80 x3f)
(L (W xff xff xff xff xff xff xff xff)) E)
(L (W x03 x00 x00 x00 xc8 x00 x00 x00)))
(T (W x00 x00 x80 x3f x00 x00 x80 x3f)
(T (W x45 x26 x22 x84 xe4 x9c xf2 xcb)
(L (W x00 x00 x80 xbf x00 x00 x80 xbf)) E)
(L (W x22 xe0 xfe xff x78 x00 x00 x00))))
(T (W xbc x00 x00 x00 xb0 x00 x00 x00)
(T (W xff xff xff xff xff xff xff xff)
(T (W x45 x26 x22 x84 xe4 x9c xf2 xcb)
(L (W x22 xa0 xff xff x78 x00 x00 x00)) E)
(L (W x00 x00 x00 x00 x00 x00 x00 x00)))
(T (W xff xff xff xff xff xff xff xff)
(L (W x6c x00 x00 x00 x60 x00 x00 x00))
(L (W x54 x02 x00 x00 x38 x01 x00 x00)))))
(T (W x00 x00 x00 x00 x00 x00 x00 x00)
(T (W xff xff xff xff xff xff xff xff)
(T (W x00 x00 x80 x3f x00 x00 x80 x3f)
(T (W xff xff xff xff xff xff xff xff)
(L (W x30 x35 x5f x43 x4c x45 x41 x52)) E)
(L (W xff xff xff xff xff xff xff xff)))
(T (W x00 x00 x00 x00 x00 x00 x00 x00)
(T (W xff xff xff xff xff xff xff xff)
(L (W x38 x00 x3c x00 x40 x00 x44 x00)) E)
(L (W xff xff xff xff xb0 x00 x00 x00))))
(T (W x00 x00 x80 x3f x00 x00 x80 x3f)
(T (W x00 x00 x80 x3f x00 x00 x80 x3f)
(T (W xff xff xff xff xff xff xff xff)
(L (W x00 x00 x80 xbf x00 x00 x80 xbf)) E)
(L (W x00 x00 x00 x00 x00 x00 x00 x00)))
(T (W xff xff xff xff xff xff xff xff)
(L (W x45 x26 x22 x84 xe4 x9c xf2 xcb))
(L (W x00 x00 x00 x00 x00 x00 x00 x00))))))))))
(T (W xc0 x2c x01 x00 x1c x2b x01 x00)
(T (W xc0 x04 x00 x00 x74 x02 x00 x00)
(T (W xb8 x00 x00 x00 xac x00 x00 x00)
(T (W xff xff xff xff xff xff xff xff)
(T (W xff xff xff xff xff xff xff xff)
(T (W xff xff xff xff x03 x00 x00 x00)
(T (W x00 x00 x80 x3f x00 x00 x80 x3f)
(T (W xff xff xff xff xff xff xff xff)
(T (W x00 x00 x00 x00 x00 x00 x00 x00)
(L (W x1c x00 x00 x00 x10 x00 x00 x00)) E)
(L (W x30 x35 x5f x43 x4c x45 x41 x52)))
(T (W xff xff xff xff xff xff xff xff)
(T (W x00 x00 x80 x3f x00 x00 x80 x3f)
(L (W x18 x00 x00 x00 x0c x00 x00 x00)) E)
(L (W x00 x00 x00 x00 xbc xc4 xfe xff))))
(T (W x00 x00 x00 x00 x00 x00 x00 x00)
(T (W xff xff xff xff x9c x00 x00 x00)
(T (W x00 x00 x00 x00 x00 x00 x00 x00)
(L (W x00 x00 x80 xbf x00 x00 x80 xbf)) E)
(L (W x00 x00 x80 xbf x00 x00 x80 xbf)))
(T (W x31 x00 x00 x00 x34 x00 x00 x00)
(L (W x00 x00 x80 xbf x00 x00 x80 xbf))
(L (W x00 x00 x00 x00 x00 x00 x00 x00)))))
(T (W x00 x00 x80 x3f x00 x00 x80 x3f)
(T (W x00 x00 x80 x3f x00 x00 x80 x3f)
(T (W xff xff xff xff xff xff xff xff)
(T (W xff xff xff xff xff xff xff xff)
(L (W x00 x00 x00 x00 x00 x00 x00 x00)) E)
(L (W x00 x00 x00 x00 x52 x62 xfe xff)))
(T (W xd2 x38 xfd xff x9d x01 x00 x00)
(T (W xb4 xe9 xfd xff x18 x00 x00 x00)
(L (W x00 x00 x00 x00 x00 x00 x00 x00)) E)
(L (W xff xff xff xff xff xff xff xff))))
(T (W x00 x00 x00 x00 x00 x00 x00 x00)
(T (W x49 xa1 x68 x4a xeb x5f xdd x3d)
(T (W x00 x00 x00 x00 x00 x00 x00 x00)
(L (W xff xff xff xff xff xff xff xff)) E)
(L (W x22 xa3 xfe xff x78 x00 x00 x00)))
(T (W x00 x00 x00 x00 x00 x00 x00 x00)
(L (W xff xff xff xff xff xff xff xff))
(L (W x00 x00 x80 xbf x00 x00 x80 xbf))))))
(T (W xff xff xff xff xff xff xff xff)
(T (W x18 x00 x00 x00 x0c x00 x00 x00)
(T (W x00 x00 x80 x3f x00 x00 x80 x3f)
(T (W x64 x00 x00 x00 x9c x00 x00 x00)
(T (W x0e x00 x00 x00 x10 x00 x00 x00)
(L (W xff xff xff xff xff xff xff xff)) E)
(L (W x00 x00 x00 x00 x00 x00 x00 x00)))
(T (W x00 x00 x80 x3f x00 x00 x80 x3f)
(T (W x03 x00 x00 x00 xcc x00 x00 x00)
(L (W xff xff xff xff xff xff xff xff)) E)
(L (W xff xff xff xff xbc x00 x00 x00))))
(T (W x00 x00 x00 x00 x00 x00 x00 x00)
(T (W x00 x00 x00 x00 x2a x9b xfc xff)
(T (W x28 x00 x00 x00 x00 x00 x80 x3f)
(L (W xff xff xff xff xff xff xff xff)) E)
(L (W x00 x00 x80 xbf x00 x00 x80 xbf)))
(T (W x9c x01 x00 x00 xff xff xff xff)
(L (W xff xff xff xff x9c x00 x00 x00))
(L (W x00 x00 x80 xbf x00 x00 x80 xbf)))))
(T (W x4c xb6 xfb xff x00 x01 x01 x01)
(T (W x45 x26 x22 x84 xe4 x9c xf2 xcb)
(T (W x00 x00 x80 x3f x00 x00 x80 x3f)
(T (W x64 x00 x68 x00 x62 x00 x00 x00)
(L (W x00 x00 x80 xbf x00 x00 x80 xbf)) E)
(L (W x00 x00 x00 x00 x12 x00 x00 x00)))
(T (W x00 x00 x00 x00 x00 x00 x00 x00)
(T (W x45 x26 x22 x84 xe4 x9c xf2 xcb)
(L (W x00 x00 x80 xbf x00 x00 x80 xbf)) E)
(L (W x00 x00 x00 x00 x12 x00 x00 x00))))
(T (W xff xff xff xff xff xff xff xff)
(T (W x6c x00 x00 x00 x60 x00 x00 x00)
(T (W x30 x00 x00 x00 x0c x00 x00 x00)
(L (W x31 x00 x00 x00 x34 x00 x00 x00)) E)
(L (W x00 x00 x80 xbf x00 x00 x80 xbf)))
(T (W x00 x00 x80 x3f x00 x00 x80 x3f)
(L (W x30 x35 x5f x43 x4c x45 x41 x52))
(L (W x1c x00 x00 x00 x10 x00 x00 x00)))))))
(T (W xff xff xff xff xff xff xff xff)
(T (W xff xff xff xff xff xff xff xff)
(T (W xff xff xff xff xff xff xff xff)
(T (W x45 x26 x22 x84 xe4 x9c xf2 xcb)
(T (W xff xff xff xff xff xff xff xff)
(T (W x00 x00 x00 x00 x00 x00 x00 x00)
(L (W xbc x00 x00 x00 x1e x00 x00 x00)) E)
(L (W x00 x00 x00 x00 x00 x00 x00 x00)))
(T (W x00 x00 x00 x00 x00 x00 x00 x00)
(T (W x00 x00 x80 x3f x00 x00 x80 x3f)
(L (W xff xff xff xff xff xff xff xff)) E)
(L (W x18 x00 x00 x00 x0c x00 x00 x00))))
(T (W x3e x00 x00 x00 x0c x00 x00 x00)
(T (W xff xff xff xff xff xff xff xff)
(T (W x00 x00 x80 x3f x00 x00 x80 x3f)
(L (W x45 x26 x22 x84 xe4 x9c xf2 xcb)) E)
(L (W x00 x00 x80 xbf x00 x00 x80 xbf)))
(T (W xff xff xff xff xff xff xff xff)
(L (W x6c x00 x00 x00 x60 x00 x00 x00))
(L (W x00 x00 x00 x00 x00 x00 x00 x00)))))
(T (W x68 x00 x00 x00 x5c x00 x00 x00)
(T (W x00 x00 x00 x00 x00 x00 x00 x00)
(T (W x23 x32 x7d x2f xa5 xe1 x03 x6f)
(T (W x64 x00 x00 x00 x9c x00 x00 x00)
(L (W x4f x84 x6f x8b xe8 xcb x63 xb7)) E)
(L (W x00 x00 x00 x00 x00 x00 x00 x00)))
(T (W xe4 xf4 xfc xff x10 x00 x00 x00)
(T (W x00 x00 x00 x00 x00 x00 x00 x00)
(L (W x00 x00 x00 x00 x00 x00 x00 x00)) E)
(L (W x00 x00 x00 x00 x00 x00 x00 x00))))
(T (W x00 x00 x00 x00 x04 x00 x00 x00)
(T (W x00 x00 x80 x3f x00 x00 x80 x3f)
(T (W x00 x00 x00 x00 xbc xac xfd xff)
(L (W x45 x26 x22 x84 xe4 x9c xf2 xcb)) E)
(L (W x0c x00 x00 x00 x00 x00 x10 x00)))
(T (W x54 x00 x00 x00 x48 x00 x00 x00)
(L (W x00 x00 x01 x01 xc8 x00 x00 x00))
(L (W x22 x2b xff xff x78 x00 x00 x00))))))
(T (W xff xff xff xff xff xff xff xff)
(T (W x6a x99 xfb xff x74 x00 x00 x00)
(T (W x00 x00 x80 x3f x00 x00 x80 x3f)
(T (W xff xff xff xff x03 x00 x00 x00)
(T (W xff xff xff xff xff xff xff xff)
(L (W x00 x00 x00 x00 x00 x00 x00 x00)) E)
(L (W x2e x00 x00 x00 x0c x00 x00 x00)))
(T (W x18 x00 x00 x00 x10 x00 x00 x00)
(T (W xff xff xff xff xff xff xff xff)
(L (W xb0 x00 x00 x00 x3c x00 x00 x00)) E)
(L (W x00 x00 x01 x01 xaa x01 x00 x00))))
(T (W x00 x00 x00 x00 x00 x00 x00 x00)
(T (W x00 x00 x00 x00 x00 x00 x00 x00)
(T (W x00 x00 x80 xbf x00 x00 x80 xbf)
(L (W xff xff xff xff xff xff xff xff)) E)
(L (W x31 x00 x00 x00 x34 x00 x00 x00)))
(T (W x00 x00 x00 x00 x00 x00 x00 x00)
(L (W xff xff xff xff xff xff xff xff))
(L (W x00 x00 x80 xbf x00 x00 x80 xbf)))))
(T (W x00 x00 x80 x3f x00 x00 x80 x3f)
(T (W x00 x00 x00 x00 x00 x00 x00 x00)
(T (W x6c x00 x00 x00 x60 x00 x00 x00)
(T (W x00 x00 x00 x00 x00 x00 x00 x00)
(L (W x00 x00 x80 xbf x00 x00 x80 xbf)) E)
(L (W x00 x00 x00 x00 x00 x00 x00 x00)))
(T (W x50 x00 x00 x00 x44 x00 x00 x00)
(T (W x00 x00 x00 x00 x00 x00 x00 x00)
(L (W xff xff xff xff xc8 x00 x00 x00)) E)
(L (W x04 x00 x00 x00 x58 x03 x00 x00))))
(T (W x5d x00 x00 x00 xff xff xff xff)
(T (W x18 x00 x00 x00 x10 x00 x00 x00)
(T (W x00 x00 x00 x00 x00 x00 x00 x00)
(L (W x00 x00 x00 x00 xbc xbc xff xff)) E)
(L (W x00 x00 x80 xbf x00 x00 x80 xbf)))
(T (W x00 x00 x80 x3f x00 x00 x80 x3f)
(L (W x00 x00 x00 x00 x00 x00 x00 x00))
(L (W x00 x00 x00 x00 xbc x3c xff xff))))))))
(T (W x00 x00 x00 x00 x00 x00 x00 x00)
(T (W x45 x26 x22 x84 xe4 x9c xf2 xcb)
(T (W x18 x00 x00 x00 x10 x00 x00 x00)
(T (W x00 x00 x00 x00 x00 x00 x00 x00)
(T (W x48 x03 x00 x00 x34 x02 x00 x00)
(T (W x00 x00 x80 x3f x00 x00 x80 x3f)
(T (W x64 x00 x00 x00 x9c x00 x00 x00)
(L (W x24 x00 x00 x00 x0c x00 x00 x00)) E)
(L (W x00 x00 x80 xbf x00 x00 x80 xbf)))
(T (W x00 x00 x80 x3f x00 x00 x80 x3f)
(T (W xff xff xff xff xff xff xff xff)
(L (W x00 x00 x00 x00 x00 x00 x00 x00)) E)
(L (W x00 x00 x00 x00 x00 x00 x00 x00))))
(T (W xff xff xff xff x03 x00 x00 x00)
(T (W x00 x00 x00 x00 x00 x00 x00 x00)
(T (W xff xff xff xff xff xff xff xff)
(L (W x00 x00 x00 x00 x00 x00 x00 x00)) E)
(L (W xff xff xff xff xff xff xff xff)))
(T (W x00 x00 x00 x00 x00 x00 x00 x00)
(L (W xef x00 x00 x00 xff xff xff xff))
(L (W x22 x07 xff xff x78 x00 x00 x00)))))
(T (W x00 x00 x00 x00 x00 x00 x00 x00)
(T (W xff xff xff xff x04 x00 x00 x00)
(T (W x00 x00 x00 x00 x00 x00 x00 x00)
(T (W x00 x00 x00 x00 x00 x00 x00 x00)
(L (W xff xff xff xff xc0 x00 x00 x00)) E)
(L (W x4c x6a xfe xff x00 x01 x01 x01)))
(T (W x4c xea xfc xff x00 x01 x01 x01)
(T (W xff xff xff xff xc8 x00 x00 x00)
(L (W x10 x00 x14 x00 x18 x00 x1c x00)) E)
(L (W x00 x00 x80 xbf x00 x00 x80 xbf))))
(T (W x00 x00 x80 x3f x00 x00 x80 x3f)
(T (W xff xff xff xff xff xff xff xff)
(T (W x8c x03 x00 x00 x58 x02 x00 x00)
(L (W x00 x00 x00 x00 x00 x00 x00 x00)) E)
(L (W x1d x00 x00 x00 x10 x00 x00 x00)))
(T (W xd2 x7c xfd xff x9d x01 x00 x00)
(L (W x00 x00 x00 x00 x00 x00 x00 x00))
(L (W xff xff xff xff xff xff xff xff))))))
(T (W x00 x00 x00 x00 x00 x00 x00 x00)
(T (W x00 x00 x00 x00 x00 x00 x00 x00)
(T (W xff xff xff xff xff xff xff xff)
(T (W x45 x26 x22 x84 xe4 x9c xf2 xcb)
(T (W x00 x00 x80 x3f x00 x00 x80 x3f)
(L (W x00 x00 x00 x00 xbc x58 xff xff)) E)
(L (W x00 x00 x80 xbf x00 x00 x80 xbf)))
(T (W x5a x05 x26 x74 x82 xf3 xe3 x2a)
(T (W x00 x00 x80 xbf x00 x00 x80 xbf)
(L (W x00 x00 x00 x00 x00 x00 x00 x00)) E)
(L (W x00 x00 x80 xbf x00 x00 x80 xbf))))
(T (W x45 x26 x22 x84 xe4 x9c xf2 xcb)
(T (W x22 x97 xfc xff x78 x00 x00 x00)
(T (W xb0 x00 x00 x00 x64 x00 x00 x00)
(L (W x00 x00 x80 xbf x00 x00 x80 xbf)) E)
(L (W x00 x00 x00 x00 x00 x00 x00 x00)))
(T (W x45 x26 x22 x84 xe4 x9c xf2 xcb)
(L (W x4f x84 x6f x8b xe8 xcb x63 xb7))
(L (W xff xff xff xff xff xff xff xff)))))
(T (W x00 x00 x00 x00 x00 x00 x00 x00)
(T (W xb8 x00 x00 x00 xac x00 x00 x00)
(T (W x45 x44 x00 x00 x00 x00 x00 x00)
(T (W xff xff xff xff xff xff xff xff)
(L (W xff xff xff xff xff xff xff xff)) E)
(L (W xff xff xff xff xb0 x00 x00 x00)))
(T (W xff xff xff xff xff xff xff xff)
(T (W xff xff xff xff xa0 x00 x00 x00)
(L (W x03 x00 x00 x00 xd0 x00 x00 x00)) E)
(L (W x45 x26 x22 x84 xe4 x9c xf2 xcb))))
(T (W x00 x00 x80 x3f x00 x00 x80 x3f)
(T (W x00 x00 x00 x00 x00 x00 x00 x00)
(T (W x00 x00 x80 x3f x00 x00 x80 x3f)
(L (W xff xff xff xff xff xff xff xff)) E)
(L (W xff xff xff xff xff xff xff xff)))
(T (W xff xff xff xff xff xff xff xff)
(L (W xff xff xff xff xff xff xff xff))
(L (W xff xff xff xff xff xff xff xff)))))))
(T (W x00 x00 x80 x3f x00 x00 x80 x3f)
(T (W x45 x26 x22 x84 xe4 x9c xf2 xcb)
(T (W x00 x00 x00 x00 x00 x00 x00 x00)
(T (W xff xff xff xff xff xff xff xff)
(T (W x45 x26 x22 x84 xe4 x9c xf2 xcb)
(T (W x18 x00 x00 x00 x0c x00 x00 x00)
(L (W x49 xa1 x68 x4a xeb x5f xdd x3d)) E)
(L (W x50 x00 x00 x00 x44 x00 x00 x00)))
(T (W xff xff xff xff xff xff xff xff)
(T (W x45 x44 x00 x00 x00 x00 x00 x00)
(L (W x00 x00 x00 x00 x00 x00 x00 x00)) E)
(L (W x00 x00 x00 x00 x00 x00 x00 x00))))
(T (W x00 x00 x00 x00 xbc x10 xfc xff)
(T (W x00 x00 x80 x3f x00 x00 x80 x3f)
(T (W x24 x00 x28 x00 x2c x00 x30 x00)
(L (W x00 x00 x00 x00 x00 x00 x00 x00)) E)
(L (W xff xff xff xff xff xff xff xff)))
(T (W x00 x00 x80 x3f x00 x00 x80 x3f)
(L (W x00 x00 x00 x00 x00 x00 x00 x00))
(L (W x18 x00 x00 x00 x10 x00 x00 x00)))))
(T (W xb2 x1e xfe xff xa1 x01 x00 x00)
(T (W x18 x00 x00 x00 x10 x00 x00 x00)
(T (W x00 x00 x00 x00 x00 x00 x00 x00)
(T (W x00 x00 x00 x00 x00 x00 x00 x00)
(L (W xff xff xff xff xff xff xff xff)) E)
(L (W x40 x00 x00 x00 x00 x00 x80 xbf)))
(T (W x18 x00 x00 x00 x10 x00 x00 x00)
(T (W xff xff xff xff xff xff xff xff)
(L (W xff xff xff xff xff xff xff xff)) E)
(L (W x70 x00 x00 x00 x64 x00 x00 x00))))
(T (W x00 x00 x80 x3f x00 x00 x80 x3f)
(T (W xc8 x02 x00 x00 xff xff xff xff)
(T (W x00 x00 x80 x3f x00 x00 x80 x3f)
(L (W x45 x44 x00 x00 x00 x00 x00 x00)) E)
(L (W x00 x00 x01 x01 x64 x01 x00 x00)))
(T (W x00 x00 x01 x01 x74 x02 x00 x00)
(L (W x00 x00 x00 x00 xbc x30 xfe xff))
(L (W x00 x00 x00 x00 x52 x2e xff xff))))))
(T (W x00 x00 x00 x00 x00 x00 x00 x00)
(T (W x00 x00 x00 x00 x00 x00 x00 x00)
(T (W xff xff xff xff xff xff xff xff)
(T (W x00 x00 x00 x00 x00 x00 x00 x00)
(T (W x00 x00 x80 x3f x00 x00 x80 x3f)
(L (W x18 x00 x00 x00 x0c x00 x00 x00)) E)
(L (W x35 x00 x00 x00 x38 x00 x00 x00)))
(T (W x00 x00 x00 x00 x00 x00 x00 x00)
(T (W x54 x00 x00 x00 x48 x00 x00 x00)
(L (W x49 xa1 x68 x4a xeb x5f xdd x3d)) E)
(L (W x00 x00 x80 xbf x00 x00 x80 xbf))))
(T (W x50 x00 x00 x00 x44 x00 x00 x00)
(T (W xff xff xff xff xc8 x00 x00 x00)
(T (W x00 x00 x80 xbf x00 x00 x80 xbf)
(L (W x45 x26 x22 x84 xe4 x9c xf2 xcb)) E)
(L (W x00 x00 x00 x00 x00 x00 x00 x00)))
(T (W xff xff xff xff xff xff xff xff)
(L (W x00 x00 x00 x00 x00 x00 x00 x00))
(L (W xff xff xff xff xff xff xff xff)))))
(T (W x00 x00 x00 x00 x00 x00 x00 x00)
(T (W xc0 x00 x00 x00 xb4 x00 x00 x00)
(T (W x00 x00 x00 x00 x00 x00 x00 x00)
(T (W xff xff xff xff xff xff xff xff)
(L (W x00 x00 x01 x01 xaa x01 x00 x00)) E)
(L (W xff xff xff xff xff xff xff xff)))
(T (W x4c x45 x41 x52 x45 x44 x00 x00)
(T (W xff xff xff xff xff xff xff xff)
(L (W x06 x00 x07 x00 x00 x00 x00 x00)) E)
(L (W x00 x00 x80 xbf x00 x00 x80 xbf))))
(T (W x00 x00 x80 x3f x00 x00 x80 x3f)
(T (W x00 x00 x00 x00 x00 x00 x00 x00)
(T (W xff xff xff xff xff xff xff xff)
(L (W x00 x00 x00 x00 x00 x00 x00 x00)) E)
(L (W xff xff xff xff xff xff xff xff)))
(T (W xff xff xff xff xff xff xff xff)
(L (W xb8 x40 xfe xff xa2 x4e xfe xff))
(L (W x00 x00 x00 x00 x00 x00 x00 x00)))))))))
(T (W x00 x00 x80 x3f x00 x00 x80 x3f)
(T (W x00 x00 x00 x00 x00 x00 x00 x00)
(T (W x04 x00 x00 x00 x54 x03 x00 x00)
(T (W x00 x00 x00 x00 x00 x00 x00 x00)
(T (W x00 x00 x00 x00 x00 x00 x00 x00)
(T (W xff xff xff xff xff xff xff xff)
(T (W x00 x00 x00 x00 x00 x00 x00 x00)
(T (W x00 x00 x80 x3f x00 x00 x80 x3f)
(L (W xff xff xff xff xff xff xff xff)) E)
(L (W x00 x00 x00 x00 x00 x00 x00 x00)))
(T (W x00 x00 x00 x00 x00 x00 x00 x00)
(T (W x22 xc5 xfd xff x78 x00 x00 x00)
(L (W xff xff xff xff xff xff xff xff)) E)
(L (W xff xff xff xff xff xff xff xff))))
(T (W x00 x00 x80 x3f x00 x00 x80 x3f)
(T (W x00 x00 x00 x00 x00 x00 x00 x00)
(T (W x00 x00 x80 x3f x00 x00 x80 x3f)
(L (W xff xff xff xff xff xff xff xff)) E)
(L (W x22 x85 xfe xff x78 x00 x00 x00)))
(T (W xff xff xff xff xff xff xff xff)
(L (W xff xff xff xff xc8 x00 x00 x00))
(L (W x00 x00 x00 x00 x00 x00 x00 x00)))))
(T (W xff xff xff xff xff xff xff xff)
(T (W x68 x00 x00 x00 x5c x00 x00 x00)
(T (W xff xff xff xff xff xff xff xff)
(T (W x1d x00 x00 x00 x10 x00 x00 x00)
(L (W x6c x00 x00 x00 x60 x00 x00 x00)) E)
(L (W x00 x00 x80 xbf x00 x00 x80 xbf)))
(T (W x00 x00 x00 x00 x00 x00 x00 x00)
(T (W x54 x00 x00 x00 x48 x00 x00 x00)
(L (W x45 x26 x22 x84 xe4 x9c xf2 xcb)) E)
(L (W x4f x84 x6f x8b xe8 xcb x63 xb7))))
(T (W x00 x00 x00 x00 x00 x00 x00 x00)
(T (W x6c x00 x00 x00 x60 x00 x00 x00)
(T (W x50 x00 x00 x00 x44 x00 x00 x00)
(L (W x45 x44 x00 x00 x00 x00 x00 x00)) E)
(L (W xff xff xff xff xff xff xff xff)))
(T (W x00 x00 x00 x00 xbc x26 xfd xff)
(L (W xff xff xff xff xff xff xff xff))
(L (W xff xff xff xff xb0 x00 x00 x00))))))
(T (W xb2 xe4 xfd xff xf5 x01 x00 x00)
(T (W xff xff xff xff xff xff xff xff)
(T (W x6a xd3 xfb xff x74 x00 x00 x00)
(T (W x01 x00 x00 x00 x04 x00 x00 x00)
(T (W x00 x00 x00 x00 x00 x00 x00 x00)
(L (W x00 x00 x00 x00 x00 x00 x00 x00)) E)
(L (W x00 x00 x00 x00 x00 x00 x00 x00)))
(T (W xb0 x00 x00 x00 x64 x00 x00 x00)
(T (W x04 x00 x00 x00 x80 x03 x00 x00)
(L (W x00 x00 x01 x01 x85 x00 x00 x00)) E)
(L (W x46 x53 x59 x53 x5f x4e x53 x5f))))
(T (W x00 x00 x00 x00 x00 x00 x00 x00)
(T (W x00 x00 x80 x3f x00 x00 x80 x3f)
(T (W x0e x4c xac xeb x6f x4d xab x7a)
(L (W x30 x35 x5f x43 x4c x45 x41 x52)) E)
(L (W xff xff xff xff xff xff xff xff)))
(T (W x00 x00 x00 x00 x00 x00 x00 x00)
(L (W x00 x00 x00 x00 x2a x1d xfe xff))
(L (W x45 x26 x22 x84 xe4 x9c xf2 xcb)))))
(T (W xff xff xff xff xff xff xff xff)
(T (W x4c xf8 xfb xff x00 x01 x01 x01)
(T (W xb0 x00 x00 x00 x64 x00 x00 x00)
(T (W x50 x00 x00 x00 x44 x00 x00 x00)
(L (W x45 x26 x22 x84 xe4 x9c xf2 xcb)) E)
(L (W x00 x00 x80 xbf x00 x00 x80 xbf)))
(T (W x18 x00 x00 x00 x0c x00 x00 x00)
(T (W x00 x00 x80 xbf x00 x00 x80 xbf)
(L (W xff xff xff xff xff xff xff xff)) E)
(L (W x4f x84 x6f x8b xe8 xcb x63 xb7))))
(T (W x45 x26 x22 x84 xe4 x9c xf2 xcb)
(T (W xff xff xff xff xff xff xff xff)
(T (W xff xff xff xff xff xff xff xff)
(L (W xff xff xff xff xff xff xff xff)) E)
(L (W x00 x00 x00 x00 xbc xb6 xfe xff)))
(T (W x45 x26 x22 x84 xe4 x9c xf2 xcb)
(L (W x00 x00 x80 xbf x00 x00 x80 xbf))
(L (W xff xff xff xff xff xff xff xff)))))))
(T (W x00 x00 x00 x00 x00 x00 x00 x00)
(T (W xf1 xcd x64 xd4 xd9 xb6 xd3 xde)
(T (W x48 x03 x00 x00 x34 x02 x00 x00)
(T (W x18 x00 x00 x00 x0c x00 x00 x00)
(T (W xe4 x56 xfc xff x3c x00 x00 x00)
(T (W x00 x00 x80 x3f x00 x00 x80 x3f)
(L (W xc8 x02 x00 x00 xff xff xff xff)) E)
(L (W x00 x00 x00 x00 x00 x00 x00 x00)))
(T (W x00 x00 x80 x3f x00 x00 x80 x3f)
(T (W xff xff xff xff xff xff xff xff)
(L (W x00 x00 x00 x00 x00 x00 x00 x00)) E)
(L (W xff xff xff xff xff xff xff xff))))
(T (W x00 x00 x80 x3f x00 x00 x80 x3f)
(T (W x00 x00 x00 x00 x00 x00 x00 x00)
(T (W x18 x00 x00 x00 x0c x00 x00 x00)
(L (W xff xff xff xff xff xff xff xff)) E)
(L (W x18 x00 x00 x00 x10 x00 x00 x00)))
(T (W x12 x00 x00 x00 x46 x53 x59 x53)
(L (W xff xff xff xff xff xff xff xff))
(L (W x00 x00 x80 xbf x00 x00 x80 xbf)))))
(T (W xff xff xff xff x04 x00 x00 x00)
(T (W x6a xeb xfb xff x74 x00 x00 x00)
(T (W xff xff xff xff xff xff xff xff)
(T (W xff xff xff xff xff xff xff xff)
(L (W x18 x00 x00 x00 x0c x00 x00 x00)) E)
(L (W x45 x26 x22 x84 xe4 x9c xf2 xcb)))
(T (W x00 x00 x80 x3f x00 x00 x80 x3f)
(T (W x00 x00 x80 xbf x00 x00 x80 xbf)
(L (W xff xff xff xff xa8 x00 x00 x00)) E)
(L (W x45 x26 x22 x84 xe4 x9c xf2 xcb))))
(T (W x00 x00 x00 x00 x00 x00 x00 x00)
(T (W x18 x00 x00 x00 x10 x00 x00 x00)
(T (W x00 x00 x00 x00 x2a xb5 xfd xff)
(L (W xff xff xff xff xff xff xff xff)) E)
(L (W x4c xb0 xfe xff x00 x01 x01 x01)))
(T (W xff xff xff xff xff xff xff xff)
(L (W x00 x00 x00 x00 x00 x00 x00 x00))
(L (W xff xff xff xff xff xff xff xff))))))
(T (W x00 x00 x00 x00 x00 x00 x00 x00)
(T (W xff xff xff xff xff xff xff xff)
(T (W x00 x00 x80 x3f x00 x00 x80 x3f)
(T (W xff xff xff xff xff xff xff xff)
(T (W x00 x00 x00 x00 x00 x00 x00 x00)
(L (W x00 x00 x80 xbf x00 x00 x80 xbf)) E)
(L (W x45 x26 x22 x84 xe4 x9c xf2 xcb)))
(T (W x04 x00 x00 x00 x2a xe5 xfc xff)
(T (W x00 x00 x00 x00 x00 x00 x00 x00)
(L (W x00 x00 x00 x00 x00 x00 x00 x00)) E)
(L (W x00 x00 x00 x00 x00 x00 x00 x00))))
(T (W x00 x00 x00 x00 x00 x00 x00 x00)
(T (W x00 x00 x80 x3f x00 x00 x80 x3f)
(T (W xe4 xa6 xfd xff x32 x00 x00 x00)
(L (W x00 x00 x00 x00 x00 x00 x00 x00)) E)
(L (W xff xff xff xff xff xff xff xff)))
(T (W x00 x00 x80 x3f x00 x00 x80 x3f)
(L (W x00 x00 x00 x00 x00 x00 x00 x00))
(L (W x14 x00 x00 x00 x0c x00 x00 x00)))))
(T (W xff xff xff xff x03 x00 x00 x00)
(T (W x00 x00 x80 x3f x00 x00 x80 x3f)
(T (W xff xff xff xff xff xff xff xff)
(T (W x00 x00 x80 x3f x00 x00 x80 x3f)
(L (W x18 x00 x00 x00 x0c x00 x00 x00)) E)
(L (W x00 x00 x80 xbf x00 x00 x80 xbf)))
(T (W xb0 x00 x00 x00 x64 x00 x00 x00)
(T (W x00 x00 x80 xbf x00 x00 x80 xbf)
(L (W x00 x00 x80 xbf x00 x00 x80 xbf)) E)
(L (W x00 x00 x00 x00 x00 x00 x00 x00))))
(T (W x00 x00 x00 x00 x00 x00 x00 x00)
(T (W xc8 x02 x00 x00 xff xff xff xff)
(T (W x45 x26 x22 x84 xe4 x9c xf2 xcb)
(L (W xff xff xff xff xff xff xff xff)) E)
(L (W x18 x00 x00 x00 x0c x00 x00 x00)))
(T (W x18 x00 x00 x00 x0c x00 x00 x00)
(L (W x45 x26 x22 x84 xe4 x9c xf2 xcb))
(L (W xff xff xff xff xff xff xff xff))))))))
(T (W x00 x00 x80 x3f x00 x00 x80 x3f)
(T (W x00 x00 x80 x3f x00 x00 x80 x3f)
(T (W x00 x00 x80 x3f x00 x00 x80 x3f)
(T (W x00 x00 x80 x3f x00 x00 x80 x3f)
(T (W x00 x00 x00 x00 x00 x00 x00 x00)
(T (W x6a x47 xfc xff x74 x00 x00 x00)
(T (W xff xff xff xff xff xff xff xff)
(L (W x45 x26 x22 x84 xe4 x9c xf2 xcb)) E)
(L (W xff xff xff xff xff xff xff xff)))
(T (W xff xff xff xff xff xff xff xff)
(T (W x6c x64 x5f x70 x6f x6b x65 x5f)
(L (W x00 x00 x00 x00 xbc xca xff xff)) E)
(L (W x00 x00 x00 x00 x00 x00 x00 x00))))
(T (W xff xff xff xff xff xff xff xff)
(T (W x22 x89 xfc xff x78 x00 x00 x00)
(T (W x00 x00 x00 x00 x00 x00 x00 x00)
(L (W x00 x00 x00 x00 x00 x00 x00 x00)) E)
(L (W xb4 x8f xfe xff x18 x00 x00 x00)))
(T (W x6a x07 xfd xff x74 x00 x00 x00)
(L (W x49 xa1 x68 x4a xeb x5f xdd x3d))
(L (W xff xff xff xff xff xff xff xff)))))
(T (W x00 x00 x80 x3f x00 x00 x80 x3f)
(T (W x40 x00 x00 x00 x10 x00 x00 x00)
(T (W x00 x00 x80 x3f x00 x00 x80 x3f)
(T (W x00 x00 x80 x3f x00 x00 x80 x3f)
(L (W xbe x00 x00 x00 xff xff xff xff)) E)
(L (W xff xff xff xff xff xff xff xff)))
(T (W xff xff xff xff xff xff xff xff)
(T (W x42 x00 x00 x00 xff xff xff xff)
(L (W xdc x00 x00 x00 xff xff xff xff)) E)
(L (W xff xff xff xff xff xff xff xff))))
(T (W xff xff xff xff xff xff xff xff)
(T (W x00 x00 x00 x00 x00 x00 x00 x00)
(T (W x00 x00 x80 x3f x00 x00 x80 x3f)
(L (W x62 x00 x00 x00 x00 x00 x01 x01)) E)
(L (W x00 x00 x80 xbf x00 x00 x80 xbf)))
(T (W x00 x00 x00 x00 x00 x00 x00 x00)
(L (W x3c x00 x40 x00 x28 x00 x00 x00))
(L (W x00 x00 x00 x00 x00 x00 x00 x00))))))
(T (W x4c x7c xfb xff x00 x01 x01 x01)
(T (W x00 x00 x80 x3f x00 x00 x80 x3f)
(T (W x00 x00 x00 x00 x00 x00 x00 x00)
(T (W x45 x26 x22 x84 xe4 x9c xf2 xcb)
(T (W x64 x00 x00 x00 x9c x00 x00 x00)
(L (W xff xff xff xff xff xff xff xff)) E)
(L (W xff xff xff xff xff xff xff xff)))
(T (W x45 x26 x22 x84 xe4 x9c xf2 xcb)
(T (W x68 x00 x00 x00 x5c x00 x00 x00)
(L (W x44 x00 x00 x00 x00 x00 x80 xbf)) E)
(L (W x22 xd9 xfe xff x78 x00 x00 x00))))
(T (W xff xff xff xff xff xff xff xff)
(T (W xff xff xff xff xff xff xff xff)
(T (W x32 x00 x00 x00 x10 x00 x00 x00)
(L (W x4c x9c xff xff x00 x01 x01 x01)) E)
(L (W x45 x26 x22 x84 xe4 x9c xf2 xcb)))
(T (W xff xff xff xff xff xff xff xff)
(L (W x18 x00 x00 x00 x0c x00 x00 x00))
(L (W x00 x00 x00 x00 x00 x00 x00 x00)))))
(T (W x00 x00 x00 x00 x00 x00 x00 x00)
(T (W xff xff xff xff xff xff xff xff)
(T (W x4f x84 x6f x8b xe8 xcb x63 xb7)
(T (W xb2 xe8 xff xff xc8 x00 x00 x00)
(L (W x45 x44 x00 x00 x00 x00 x00 x00)) E)
(L (W x04 x00 x00 x00 xb2 x82 xfe xff)))
(T (W x00 x00 x00 x00 x00 x00 x00 x00)
(T (W xff xff xff xff xff xff xff xff)
(L (W x45 x26 x22 x84 xe4 x9c xf2 xcb)) E)
(L (W x03 x00 x00 x00 xd0 x00 x00 x00))))
(T (W x4c x3c xfc xff x00 x01 x01 x01)
(T (W x00 x00 x80 x3f x00 x00 x80 x3f)
(T (W x76 x32 x00 x00 xb2 xc2 xfd xff)
(L (W x00 x00 x00 x00 x00 x00 x00 x00)) E)
(L (W x00 x00 x00 x00 x00 x00 x00 x00)))
(T (W x00 x00 x00 x00 x00 x00 x00 x00)
(L (W xff xff xff xff xff xff xff xff))
(L (W x00 x00 x00 x00 x00 x00 x00 x00)))))))
(T (W x6c x00 x00 x00 x60 x00 x00 x00)
(T (W x6a x6f xfb xff x74 x00 x00 x00)
(T (W x45 x26 x22 x84 xe4 x9c xf2 xcb)
(T (W x00 x00 x00 x00 x00 x00 x00 x00)
(T (W x00 x00 x00 x00 xbc x52 xfc xff)
(T (W xff xff xff xff xff xff xff xff)
(L (W x18 x00 x00 x00 x0c x00 x00 x00)) E)
(L (W xff xff xff xff xff xff xff xff)))
(T (W xe4 xda xfc xff x24 x00 x00 x00)
(T (W x00 x00 x80 xbf x00 x00 x80 xbf)
(L (W xc4 x00 x00 x00 x01 x00 x00 x00)) E)
(L (W x6c x00 x00 x00 x60 x00 x00 x00))))
(T (W xff xff xff xff xff xff xff xff)
(T (W xff xff xff xff x9c x00 x00 x00)
(T (W x64 x00 x00 x00 x9c x00 x00 x00)
(L (W x00 x00 x80 xbf x00 x00 x80 xbf)) E)
(L (W x00 x00 x00 x00 x00 x00 x00 x00)))
(T (W x03 x00 x00 x00 xd4 x00 x00 x00)
(L (W x00 x00 x80 xbf x00 x00 x80 xbf))
(L (W x00 x00 x00 x00 x52 x10 xff xff)))))
(T (W x00 x00 x00 x00 x00 x00 x00 x00)
(T (W x22 x62 xfe xff x00 x00 x01 x01)
(T (W x18 x00 x00 x00 x10 x00 x00 x00)
(T (W x00 x00 x80 x3f x00 x00 x80 x3f)
(L (W x00 x00 x00 x00 x00 x00 x00 x00)) E)
(L (W xff xff xff xff xff xff xff xff)))
(T (W x00 x00 x00 x00 x00 x00 x00 x00)
(T (W x00 x00 x00 x00 x00 x00 x00 x00)
(L (W x00 x00 x00 x00 x00 x00 x00 x00)) E)
(L (W xff xff xff xff xff xff xff xff))))
(T (W x64 x00 x00 x00 x9c x00 x00 x00)
(T (W x49 xa1 x68 x4a xeb x5f xdd x3d)
(T (W x03 x00 x00 x00 xd8 x00 x00 x00)
(L (W x4f x84 x6f x8b xe8 xcb x63 xb7)) E)
(L (W x00 x00 x00 x00 x00 x00 x00 x00)))
(T (W x00 x00 x00 x00 x00 x00 x00 x00)
(L (W xff xff xff xff xff xff xff xff))
(L (W x00 x00 x00 x00 x00 x00 x00 x00))))))
(T (W x00 x00 x80 x3f x00 x00 x80 x3f)
(T (W x00 x00 x80 x3f x00 x00 x80 x3f)
(T (W x00 x00 x00 x00 x00 x00 x00 x00)
(T (W x00 x00 x80 x3f x00 x00 x80 x3f)
(T (W x18 x00 x00 x00 x0c x00 x00 x00)
(L (W xff xff xff xff xff xff xff xff)) E)
(L (W xff xff xff xff xff xff xff xff)))
(T (W x00 x00 x00 x00 xbc xe2 xfc xff)
(T (W xff xff xff xff xff xff xff xff)
(L (W xff xff xff xff xa8 x00 x00 x00)) E)
(L (W x31 x00 x00 x00 x34 x00 x00 x00))))
(T (W xff xff xff xff xff xff xff xff)
(T (W x69 x01 x00 x00 xff xff xff xff)
(T (W xff xff xff xff xff xff xff xff)
(L (W xff xff xff xff xa0 x00 x00 x00)) E)
(L (W x00 x00 x00 x00 x00 x00 x00 x00)))
(T (W x00 x00 x00 x00 x00 x00 x00 x00)
(L (W x14 x00 x00 x00 x0c x00 x00 x00))
(L (W x00 x00 x00 x00 x00 x00 x00 x00)))))
(T (W x00 x00 x00 x00 x00 x00 x00 x00)
(T (W xff xff xff xff xff xff xff xff)
(T (W x00 x00 x80 x3f x00 x00 x80 x3f)
(T (W xe4 x8a xfd xff x36 x00 x00 x00)
(L (W x00 x00 x00 x00 x00 x00 x00 x00)) E)
(L (W xb1 x01 x00 x00 xff xff xff xff)))
(T (W x49 xa1 x68 x4a xeb x5f xdd x3d)
(T (W xe4 x0a xfe xff x1a x00 x00 x00)
(L (W x00 x00 x00 x00 x00 x00 x00 x00)) E)
(L (W xff xff xff xff xff xff xff xff))))
(T (W x50 x00 x00 x00 x44 x00 x00 x00)
(T (W x68 x00 x00 x00 x5c x00 x00 x00)
(T (W x30 x35 x5f x43 x4c x45 x41 x52)
(L (W x00 x00 x80 xbf x00 x00 x80 xbf)) E)
(L (W x00 x00 x00 x00 x00 x00 x00 x00)))
(T (W x3a x00 x00 x00 x10 x00 x00 x00)
(L (W xff xff xff xff xbc x00 x00 x00))
(L (W x00 x00 x00 x00 x00 x00 x00 x00)))))))))))))
(T (W x88 x38 x04 x00 x04 x34 x04 x00)
(T (W x38 xe7 x03 x00 xec xdd x03 x00)
(T (W x78 x2f x03 x00 x1c x2d x03 x00)
(T (W xa0 x3d x02 x00 x5c x3b x02 x00)
(T (W x40 xf4 x00 x00 x0c xf3 x00 x00)
(T (W x00 x00 x00 x00 x00 x00 x00 x00)
(T (W x00 x00 x00 x00 x00 x00 x00 x00)
(T (W x00 x00 x00 x00 x00 x00 x00 x00)
(T (W x00 x00 x00 x00 x00 x00 x00 x00)
(T (W xff xff xff xff xff xff xff xff)
(T (W x00 x00 x00 x00 x00 x00 x00 x00)
(T (W xff xff xff xff xff xff xff xff)
(L (W xff xff xff xff xff xff xff xff)) E)
(L (W x00 x00 x80 xbf x00 x00 x80 xbf)))
(T (W x00 x00 x00 x00 x00 x00 x00 x00)
(T (W xff xff xff xff xff xff xff xff)
(L (W x30 x35 x5f x43 x4c x45 x41 x52)) E)
(L (W x00 x00 x01 x01 xaa x01 x00 x00))))
(T (W x00 x00 x80 x3f x00 x00 x80 x3f)
(T (W x00 x00 x00 x00 x00 x00 x00 x00)
(T (W xff xff xff xff xff xff xff xff)
(L (W xff xff xff xff xff xff xff xff)) E)
(L (W x45 x26 x22 x84 xe4 x9c xf2 xcb)))
(T (W x6a x56 xfe xff x9c x01 x00 x00)
(T (W xff xff xff xff xff xff xff xff)
(L (W xe8 x00 x00 x00 x1e x00 x00 x00)) E)
(L (W x00 x00 x80 xbf x00 x00 x80 xbf)))))
(T (W x00 x00 x00 x00 x00 x00 x00 x00)
(T (W xff xff xff xff x03 x00 x00 x00)
(T (W x00 x00 x00 x00 x00 x00 x00 x00)
(T (W x45 x26 x22 x84 xe4 x9c xf2 xcb)
(L (W x6c x00 x00 x00 x60 x00 x00 x00)) E)
(L (W x00 x00 x80 xbf x00 x00 x80 xbf)))
(T (W x00 x00 x00 x00 x00 x00 x00 x00)
(T (W x00 x00 x80 xbf x00 x00 x80 xbf)
(L (W x49 xa1 x68 x4a xeb x5f xdd x3d)) E)
(L (W x00 x00 x80 xbf x00 x00 x80 xbf))))
(T (W x00 x00 x80 x3f x00 x00 x80 x3f)
(T (W x45 x26 x22 x84 xe4 x9c xf2 xcb)
(T (W x00 x00 x80 xbf x00 x00 x80 xbf)
(L (W x00 x00 x80 xbf x00 x00 x80 xbf)) E)
(L (W xff xff xff xff xff xff xff xff)))
(T (W xc0 x00 x00 x00 x01 x00 x00 x00)
(L (W x00 x00 x00 x00 x00 x00 x00 x00))
(L (W xff xff xff xff xff xff xff xff))))))
(T (W x00 x00 x00 x00 x00 x00 x00 x00)
(T (W x5c x3c x14 x21 xc8 x6a xc7 x22)
(T (W xff xff xff xff xff xff xff xff)
(T (W x00 x00 x00 x00 x00 x00 x00 x00)
(T (W x68 x00 x00 x00 x5c x00 x00 x00)
(L (W x49 xa1 x68 x4a xeb x5f xdd x3d)) E)
(L (W x6c x00 x00 x00 x60 x00 x00 x00)))
(T (W xff xff xff xff xff xff xff xff)
(T (W x00 x00 x00 x00 x00 x00 x00 x00)
(L (W x00 x00 x80 xbf x00 x00 x80 xbf)) E)
(L (W x00 x00 x00 x00 x00 x00 x00 x00))))
(T (W xca x0f xfc xff x74 x00 x00 x00)
(T (W x00 x00 x80 x3f x00 x00 x80 x3f)
(T (W x00 x00 x80 x3f x00 x00 x80 x3f)
(L (W x14 x98 xff xff x14 x00 x00 x00)) E)
(L (W xff xff xff xff xff xff xff xff)))
(T (W x00 x00 x80 x3f x00 x00 x80 x3f)
(L (W x14 x18 xfe xff x1a x00 x00 x00))
(L (W xff xff xff xff x9c x00 x00 x00)))))
(T (W x8f x01 x00 x00 xff xff xff xff)
(T (W x18 x00 x00 x00 x0c x00 x00 x00)
(T (W x45 x26 x22 x84 xe4 x9c xf2 xcb)
(T (W x00 x00 x00 x00 x00 x00 x00 x00)
(L (W xff xff xff xff xff xff xff xff)) E)
(L (W x00 x00 x80 xbf x00 x00 x80 xbf)))
(T (W xb8 x00 x00 x00 x64 x00 x00 x00)
(T (W x03 x00 x00 x00 xd0 x00 x00 x00)
(L (W xff xff xff xff xff xff xff xff)) E)
(L (W x50 x00 x00 x00 x44 x00 x00 x00))))
(T (W x00 x00 x80 x3f x00 x00 x80 x3f)
(T (W x00 x00 x00 x00 xb2 xb0 xfc xff)
(T (W x00 x00 x80 x3f x00 x00 x80 x3f)
(L (W xc8 x00 x00 x00 xff xff xff xff)) E)
(L (W xff xff xff xff xff xff xff xff)))
(T (W xff xff xff xff xff xff xff xff)
(L (W x00 x00 x80 xbf x00 x00 x80 xbf))
(L (W xff xff xff xff xff xff xff xff)))))))
(T (W x44 x63 xfb xff x3e x00 x00 x00)
(T (W x00 x00 x62 x00 x78 x00 x04 x00)
(T (W x00 x00 x00 x00 x00 x00 x00 x00)
(T (W xff xff xff xff xff xff xff xff)
(T (W x00 x00 x00 x00 x00 x00 x00 x00)
(T (W xca x47 xfd xff x74 x00 x00 x00)
(L (W x1d x01 xdd x61 xf7 xf2 xbc x83)) E)
(L (W x00 x00 x80 x3f x00 x00 x80 x3f)))
(T (W x00 x00 x80 x3f x00 x00 x80 x3f)
(T (W xff xff xff xff xff xff xff xff)
(L (W x00 x00 x00 x00 x00 x00 x00 x00)) E)
(L (W xff xff xff xff xff xff xff xff))))
(T (W x68 x00 x00 x00 x5c x00 x00 x00)
(T (W x00 x00 x00 x00 x00 x00 x00 x00)
(T (W xff xff xff xff xff xff xff xff)
(L (W xff xff xff xff xff xff xff xff)) E)
(L (W xff xff xff xff xff xff xff xff)))
(T (W x00 x00 x00 x00 x00 x00 x00 x00)
(L (W x00 x00 x00 x00 xb2 x08 xfe xff))
(L (W x45 x26 x22 x84 xe4 x9c xf2 xcb)))))
(T (W x00 x00 x00 x00 x00 x00 x00 x00)
(T (W xff xff xff xff xff xff xff xff)
(T (W x00 x00 x00 x00 x00 x00 x00 x00)
(T (W x00 x00 x00 x00 x00 x00 x00 x00)
(L (W x18 x00 x00 x00 x10 x00 x00 x00)) E)
(L (W x1c x00 x00 x00 x10 x00 x00 x00)))
(T (W x00 x00 x80 x3f x00 x00 x80 x3f)
(T (W x45 x26 x22 x84 xe4 x9c xf2 xcb)
(L (W x45 x26 x22 x84 xe4 x9c xf2 xcb)) E)
(L (W x6c x00 x00 x00 x60 x00 x00 x00))))
(T (W x00 x00 x80 x3f x00 x00 x80 x3f)
(T (W xff xff xff xff xff xff xff xff)
(T (W x00 x00 x01 x01 xf6 x01 x00 x00)
(L (W x1a x00 x00 x00 x1d x00 x00 x00)) E)
(L (W x00 x00 x00 x00 x00 x00 x00 x00)))
(T (W xff xff xff xff xff xff xff xff)
(L (W x00 x00 x00 x00 x00 x00 x00 x00))
(L (W xff xff xff xff xff xff xff xff))))))
(T (W x00 x00 x00 x00 x00 x00 x00 x00)
(T (W x12 x09 xfe xff xaf x01 x00 x00)
(T (W xff xff xff xff xff xff xff xff)
(T (W x45 x26 x22 x84 xe4 x9c xf2 xcb)
(T (W x00 x00 x80 x3f x00 x00 x80 x3f)
(L (W x00 x00 x80 xbf x00 x00 x80 xbf)) E)
(L (W x00 x00 x80 xbf x00 x00 x80 xbf)))
(T (W xb8 x28 x9c xe4 x92 x27 xa1 x01)
(T (W x00 x00 x00 x00 x00 x00 x00 x00)
(L (W x00 x00 x00 x00 x00 x00 x00 x00)) E)
(L (W x00 x00 x00 x00 x00 x00 x00 x00))))
(T (W xac x1c xfc xff x00 x01 x01 x01)
(T (W xac x9c xfc xff x00 x01 x01 x01)
(T (W xff xff xff xff xff xff xff xff)
(L (W x00 x00 x00 x00 x00 x00 x00 x00)) E)
(L (W x08 x00 x00 x00 xe8 x07 x00 x00)))
(T (W x00 x00 x80 x3f x00 x00 x80 x3f)
(L (W x49 xa1 x68 x4a xeb x5f xdd x3d))
(L (W xff xff xff xff xff xff xff xff)))))
(T (W xff xff xff xff xff xff xff xff)
(T (W xca xf7 xfb xff x74 x00 x00 x00)
(T (W x6a x01 x00 x00 xff xff xff xff)
(T (W x45 x26 x22 x84 xe4 x9c xf2 xcb)
(L (W xff xff xff xff xbc x00 x00 x00)) E)
(L (W xff xff xff xff xb0 x00 x00 x00)))
(T (W xff xff xff xff xff xff xff xff)
(T (W x68 x00 x00 x00 x5c x00 x00 x00)
(L (W x1b x00 x00 x00 x0c x00 x00 x00)) E)
(L (W x00 x00 x80 xbf x00 x00 x80 xbf))))
(T (W x00 x00 x00 x00 x00 x00 x00 x00)
(T (W x24 x00 x00 x00 x0c x00 x00 x00)
(T (W xff xff xff xff xb0 x00 x00 x00)
(L (W x00 x00 x01 x01 x43 x00 x00 x00)) E)
(L (W xff xff xff xff xff xff xff xff)))
(T (W xff xff xff xff xff xff xff xff)
(L (W x00 x00 x00 x00 xb0 x3c xfe xff))
(L (W x00 x00 x01 x01 x5d x00 x00 x00))))))))
(T (W x0a x00 x00 x00 x3e x00 x00 x00)
(T (W xff xff xff xff x03 x00 x00 x00)
(T (W xff xff xff xff xff xff xff xff)
(T (W x0a x00 x00 x00 x3e x00 x00 x00)
(T (W x00 x00 x80 x3f x00 x00 x80 x3f)
(T (W xff xff xff xff xff xff xff xff)
(T (W x00 x00 x00 x00 x00 x00 x00 x00)
(L (W x00 x00 x80 xbf x00 x00 x80 xbf)) E)
(L (W xff xff xff xff xff xff xff xff)))
(T (W xff xff xff xff xff xff xff xff)
(T (W x00 x00 x00 x00 x00 x00 x00 x00)
(L (W x82 xc5 xff xff x78 x00 x00 x00)) E)
(L (W x00 x00 x80 xbf x00 x00 x80 xbf))))
(T (W x00 x00 x00 x00 x00 x00 x00 x00)
(T (W xbc x00 x00 x00 x64 x00 x00 x00)
(T (W x00 x00 x00 x00 x00 x00 x00 x00)
(L (W x00 x00 x80 xbf x00 x00 x80 xbf)) E)
(L (W x00 x00 x00 x00 x00 x00 x00 x00)))
(T (W xac x08 xfd xff x00 x01 x01 x01)
(L (W x00 x00 x80 xbf x00 x00 x80 xbf))
(L (W xff xff xff xff xff xff xff xff)))))
(T (W x00 x00 x80 x3f x00 x00 x80 x3f)
(T (W x00 x00 x00 x00 x00 x00 x00 x00)
(T (W x50 x00 x00 x00 x44 x00 x00 x00)
(T (W xff xff xff xff xff xff xff xff)
(L (W x00 x00 x00 x00 x00 x00 x00 x00)) E)
(L (W x00 x00 x00 x00 x00 x00 x00 x00)))
(T (W xff xff xff xff xff xff xff xff)
(T (W x00 x00 x00 x00 x00 x00 x00 x00)
(L (W xff xff xff xff xff xff xff xff)) E)
(L (W xcf x01 x00 x00 xff xff xff xff))))
(T (W xff xff xff xff xff xff xff xff)
(T (W x00 x00 x00 x00 x00 x00 x00 x00)
(T (W x00 x00 x00 x00 x00 x00 x00 x00)
(L (W xff xff xff xff xc0 x00 x00 x00)) E)
(L (W x00 x00 x80 xbf x00 x00 x80 xbf)))
(T (W x00 x00 x00 x00 x00 x00 x00 x00)
(L (W x45 x26 x22 x84 xe4 x9c xf2 xcb))
(L (W x00 x00 x80 xbf x00 x00 x80 xbf))))))
(T (W x45 x26 x22 x84 xe4 x9c xf2 xcb)
(T (W xca x93 xfb xff x74 x00 x00 x00)
(T (W x00 x00 x00 x00 x00 x00 x00 x00)
(T (W x64 x00 x00 x00 x9c x00 x00 x00)
(T (W x82 xc6 xff xff x00 x00 x01 x01)
(L (W x00 x00 x01 x01 x64 x01 x00 x00)) E)
(L (W xff xff xff xff xff xff xff xff)))
(T (W x00 x00 x80 x3f x00 x00 x80 x3f)
(T (W x03 x00 x00 x00 xd8 x00 x00 x00)
(L (W xff xff xff xff xb0 x00 x00 x00)) E)
(L (W xff xff xff xff xff xff xff xff))))
(T (W x82 x86 xfe xff x00 x00 x01 x01)
(T (W x00 x00 x00 x00 x00 x00 x00 x00)
(T (W xec x5f x6c x12 x83 xf2 x3a xc6)
(L (W xff xff xff xff xff xff xff xff)) E)
(L (W x54 x00 x00 x00 x48 x00 x00 x00)))
(T (W xc2 x6c xfd xff x00 x00 x01 x01)
(L (W x18 x00 x00 x00 x10 x00 x00 x00))
(L (W x4f x84 x6f x8b xe8 xcb x63 xb7)))))
(T (W xca xb3 xfb xff x74 x00 x00 x00)
(T (W x00 x00 x00 x00 x00 x00 x00 x00)
(T (W x00 x00 x80 x3f x00 x00 x80 x3f)
(T (W x00 x00 x00 x00 x00 x00 x00 x00)
(L (W x45 x26 x22 x84 xe4 x9c xf2 xcb)) E)
(L (W x00 x00 x00 x00 x00 x00 x00 x00)))
(T (W x49 xa1 x68 x4a xeb x5f xdd x3d)
(T (W x00 x00 x00 x00 x00 x00 x00 x00)
(L (W x4c x00 x04 x00 x08 x00 x0c x00)) E)
(L (W x6a x01 x00 x00 xff xff xff xff))))
(T (W xff xff xff xff xff xff xff xff)
(T (W x82 xb5 xfc xff x78 x00 x00 x00)
(T (W x00 x00 x00 x00 x1c xb7 xfd xff)
(L (W x54 x00 x00 x00 x48 x00 x00 x00)) E)
(L (W x00 x00 x00 x00 x00 x00 x00 x00)))
(T (W x45 x26 x22 x84 xe4 x9c xf2 xcb)
(L (W x45 x44 x00 x00 x00 x00 x00 x00))
(L (W x00 x00 x80 xbf x00 x00 x80 xbf)))))))
(T (W x64 x00 x00 x00 x9c x00 x00 x00)
(T (W xb8 x00 x00 x00 xac x00 x00 x00)
(T (W xc0 x00 x00 x00 xb4 x00 x00 x00)
(T (W x45 x26 x22 x84 xe4 x9c xf2 xcb)
(T (W xff xff xff xff xff xff xff xff)
(T (W x00 x00 x00 x00 x00 x00 x00 x00)
(L (W x18 x00 x00 x00 x10 x00 x00 x00)) E)
(L (W xff xff xff xff xff xff xff xff)))
(T (W x00 x00 x00 x00 x00 x00 x00 x00)
(T (W x6c x00 x00 x00 x60 x00 x00 x00)
(L (W x35 x00 x00 x00 x38 x00 x00 x00)) E)
(L (W x82 xcd xfe xff x78 x00 x00 x00))))
(T (W x3e x00 x00 x00 x10 x00 x00 x00)
(T (W xff xff xff xff xff xff xff xff)
(T (W x45 x26 x22 x84 xe4 x9c xf2 xcb)
(L (W x54 x00 x00 x00 x48 x00 x00 x00)) E)
(L (W x45 x26 x22 x84 xe4 x9c xf2 xcb)))
(T (W xff xff xff xff xff xff xff xff)
(L (W x54 x00 x00 x00 x48 x00 x00 x00))
(L (W x00 x00 x00 x00 x00 x00 x00 x00)))))
(T (W x00 x00 x80 x3f x00 x00 x80 x3f)
(T (W x00 x00 x00 x00 x00 x00 x00 x00)
(T (W x45 x26 x22 x84 xe4 x9c xf2 xcb)
(T (W xca x6b xfd xff x74 x00 x00 x00)
(L (W x49 xa1 x68 x4a xeb x5f xdd x3d)) E)
(L (W xff xff xff xff xff xff xff xff)))
(T (W x00 x00 x00 x00 x00 x00 x00 x00)
(T (W x30 x35 x5f x43 x4c x45 x41 x52)
(L (W x49 xa1 x68 x4a xeb x5f xdd x3d)) E)
(L (W xff xff xff xff xff xff xff xff))))
(T (W xff xff xff xff xff xff xff xff)
(T (W x45 x26 x22 x84 xe4 x9c xf2 xcb)
(T (W x18 x00 x00 x00 x10 x00 x00 x00)
(L (W x6c x00 x00 x00 x60 x00 x00 x00)) E)
(L (W x00 x00 x00 x00 x00 x00 x00 x00)))
(T (W x00 x00 x80 x3f x00 x00 x80 x3f)
(L (W x00 x00 x01 x01 xb0 x01 x00 x00))
(L (W x00 x00 x80 xbf x00 x00 x80 xbf))))))
(T (W x01 x00 x00 x00 x9c x00 x00 x00)
(T (W xac xa0 xfb xff x00 x01 x01 x01)
(T (W x00 x00 x00 x00 x00 x00 x00 x00)
(T (W xac x60 xfc xff x00 x01 x01 x01)
(T (W xff xff xff xff xff xff xff xff)
(L (W x30 x35 x5f x43 x4c x45 x41 x52)) E)
(L (W xfb x33 x42 xdc x00 x5a x52 x2f)))
(T (W x18 x00 x00 x00 x10 x00 x00 x00)
(T (W xff xff xff xff xff xff xff xff)
(L (W xff xff xff xff x9c x00 x00 x00)) E)
(L (W xff xff xff xff xff xff xff xff))))
(T (W xff xff xff xff xff xff xff xff)
(T (W x14 xa4 xfc xff x26 x00 x00 x00)
(T (W xff xff xff xff xff xff xff xff)
(L (W x03 x00 x00 x00 xd0 x00 x00 x00)) E)
(L (W x54 x00 x00 x00 x48 x00 x00 x00)))
(T (W x4c x45 x41 x52 x45 x44 x00 x00)
(L (W xc4 x00 x00 x00 x02 x00 x00 x00))
(L (W x00 x00 x00 x00 x00 x00 x00 x00)))))
(T (W x00 x00 x80 x3f x00 x00 x80 x3f)
(T (W x00 x00 x00 x00 x00 x00 x00 x00)
(T (W x6c x00 x00 x00 x60 x00 x00 x00)
(T (W x00 x00 x00 x00 x00 x00 x00 x00)
(L (W x49 xa1 x68 x4a xeb x5f xdd x3d)) E)
(L (W x00 x00 x00 x00 x00 x00 x00 x00)))
(T (W x00 x00 x80 x3f x00 x00 x80 x3f)
(T (W x12 x00 x00 x00 x46 x53 x59 x53)
(L (W x00 x00 x00 x00 x00 x00 x00 x00)) E)
(L (W xff xff xff xff xff xff xff xff))))
(T (W xff xff xff xff xff xff xff xff)
(T (W x45 x26 x22 x84 xe4 x9c xf2 xcb)
(T (W x45 x26 x22 x84 xe4 x9c xf2 xcb)
(L (W x00 x00 x80 xbf x00 x00 x80 xbf)) E)
(L (W x49 xa1 x68 x4a xeb x5f xdd x3d)))
(T (W x45 x26 x22 x84 xe4 x9c xf2 xcb)
(L (W x04 x00 x00 x00 x58 x03 x00 x00))
(L (W x00 x00 x80 xbf x00 x00 x80 xbf)))))))))
(T (W xff xff xff xff xff xff xff xff)
(T (W x00 x00 x80 x3f x00 x00 x80 x3f)
(T (W x00 x00 x80 x3f x00 x00 x80 x3f)
(T (W x00 x00 x80 x3f x00 x00 x80 x3f)
(T (W x00 x00 x80 x3f x00 x00 x80 x3f)
(T (W x00 x00 x00 x00 x00 x00 x00 x00)
(T (W x50 x00 x00 x00 x44 x00 x00 x00)
(T (W x82 xb4 xff xff x00 x00 x01 x01)
(L (W x4f x84 x6f x8b xe8 xcb x63 xb7)) E)
(L (W xff xff xff xff xff xff xff xff)))
(T (W x68 x00 x00 x00 x5c x00 x00 x00)
(T (W x00 x00 x00 x00 x00 x00 x00 x00)
(L (W x49 xa1 x68 x4a xeb x5f xdd x3d)) E)
(L (W x00 x00 x00 x00 x00 x00 x00 x00))))
(T (W xff xff xff xff xff xff xff xff)
(T (W x00 x00 x80 x3f x00 x00 x80 x3f)
(T (W x18 x01 x00 x00 x04 x00 x00 x00)
(L (W x00 x00 x00 x00 x00 x00 x00 x00)) E)
(L (W x00 x00 x00 x00 x00 x00 x00 x00)))
(T (W x00 x00 x80 x3f x00 x00 x80 x3f)
(L (W x14 x0a xfe xff x1a x00 x00 x00))
(L (W xff xff xff xff xa0 x00 x00 x00)))))
(T (W x00 x00 x00 x00 x00 x00 x00 x00)
(T (W x00 x00 x00 x00 x00 x00 x00 x00)
(T (W x00 x00 x80 x3f x00 x00 x80 x3f)
(T (W x68 x00 x00 x00 x5c x00 x00 x00)
(L (W xff xff xff xff xff xff xff xff)) E)
(L (W xff xff xff xff x9c x00 x00 x00)))
(T (W xff xff xff xff x9c x00 x00 x00)
(T (W xff xff xff xff xff xff xff xff)
(L (W xff xff xff xff xff xff xff xff)) E)
(L (W x45 x26 x22 x84 xe4 x9c xf2 xcb))))
(T (W xc0 x00 x00 x00 xb4 x00 x00 x00)
(T (W x00 x00 x00 x00 xb2 xa2 xfc xff)
(T (W xff xff xff xff xff xff xff xff)
(L (W x6c x00 x00 x00 x60 x00 x00 x00)) E)
(L (W x00 x00 x00 x00 x00 x00 x00 x00)))
(T (W x04 x00 x00 x00 x7a x24 xfd xff)
(L (W x00 x00 x80 xbf x00 x00 x80 xbf))
(L (W x30 x35 x5f x43 x4c x45 x41 x52))))))
(T (W x68 x00 x00 x00 x5c x00 x00 x00)
(T (W x45 x26 x22 x84 xe4 x9c xf2 xcb)
(T (W x12 x43 xfe xff x64 x01 x00 x00)
(T (W x00 x00 x80 x3f x00 x00 x80 x3f)
(T (W xff xff xff xff xff xff xff xff)
(L (W x45 x26 x22 x84 xe4 x9c xf2 xcb)) E)
(L (W xff xff xff xff x90 x00 x00 x00)))
(T (W x44 xdd xfc xff x24 x00 x00 x00)
(T (W x00 x00 x80 xbf x00 x00 x80 xbf)
(L (W x6c x00 x00 x00 x60 x00 x00 x00)) E)
(L (W x00 x00 x80 xbf x00 x00 x80 xbf))))
(T (W x18 x00 x00 x00 x10 x00 x00 x00)
(T (W x18 x00 x00 x00 x10 x00 x00 x00)
(T (W x00 x00 x00 x00 x1c x00 x00 x00)
(L (W x6c x00 x00 x00 x60 x00 x00 x00)) E)
(L (W x00 x00 x00 x00 x12 x00 x00 x00)))
(T (W x18 x00 x00 x00 x0c x00 x00 x00)
(L (W x00 x00 x80 xbf x00 x00 x80 xbf))
(L (W x45 x44 x00 x00 x00 x00 x00 x00)))))
(T (W x00 x00 x00 x00 x00 x00 x00 x00)
(T (W xff xff xff xff xff xff xff xff)
(T (W x65 x5f x73 x6b x79 x00 x00 x00)
(T (W x01 x00 x00 x00 xa0 x00 x00 x00)
(L (W x00 x00 x00 x00 x00 x00 x00 x00)) E)
(L (W xff xff xff xff xff xff xff xff)))
(T (W xff xff xff xff xff xff xff xff)
(T (W xff xff xff xff xff xff xff xff)
(L (W x6c x00 x0c x00 x00 x00 x00 x00)) E)
(L (W xff xff xff xff xff xff xff xff))))
(T (W x00 x00 x00 x00 x1c x35 xfc xff)
(T (W x00 x00 x00 x00 x00 x00 x00 x00)
(T (W xa4 x05 x00 x00 x50 x04 x00 x00)
(L (W x00 x00 x80 xbf x00 x00 x80 xbf)) E)
(L (W x00 x00 x00 x00 x00 x00 x00 x00)))
(T (W x14 x3a xfd xff x34 x00 x00 x00)
(L (W xff xff xff xff xff xff xff xff))
(L (W x4f x84 x6f x8b xe8 xcb x63 xb7)))))))
(T (W x00 x00 x80 x3f x00 x00 x80 x3f)
(T (W x50 x00 x00 x00 x44 x00 x00 x00)
(T (W x00 x00 x80 x3f x00 x00 x80 x3f)
(T (W xf3 x75 x70 xbe x01 x2a x1d x96)
(T (W x00 x00 x80 x3f x00 x00 x80 x3f)
(T (W xff xff xff xff xff xff xff xff)
(L (W x00 x00 x80 xbf x00 x00 x80 xbf)) E)
(L (W xc4 x00 x00 x00 x01 x00 x00 x00)))
(T (W xff xff xff xff xff xff xff xff)
(T (W x00 x00 x00 x00 x1b x00 x00 x00)
(L (W x00 x00 x80 xbf x00 x00 x80 xbf)) E)
(L (W x49 xa1 x68 x4a xeb x5f xdd x3d))))
(T (W xff xff xff xff x04 x00 x00 x00)
(T (W x6c x00 x00 x00 x60 x00 x00 x00)
(T (W x00 x00 x00 x00 x00 x00 x00 x00)
(L (W x4f x84 x6f x8b xe8 xcb x63 xb7)) E)
(L (W x00 x00 x00 x00 x00 x00 x00 x00)))
(T (W x00 x00 x80 x3f x00 x00 x80 x3f)
(L (W x00 x00 x00 x00 x00 x00 x00 x00))
(L (W xff xff xff xff xff xff xff xff)))))
(T (W x00 x00 x00 x00 x00 x00 x00 x00)
(T (W x48 x03 x00 x00 x34 x02 x00 x00)
(T (W x60 x00 x00 x00 x00 x00 x00 x00)
(T (W x00 x00 x80 x3f x00 x00 x80 x3f)
(L (W xbe x00 x00 x00 xff xff xff xff)) E)
(L (W xff xff xff xff xff xff xff xff)))
(T (W xff xff xff xff xff xff xff xff)
(T (W xff xff xff xff xff xff xff xff)
(L (W xff xff xff xff xff xff xff xff)) E)
(L (W xff xff xff xff xff xff xff xff))))
(T (W xff xff xff xff x03 x00 x00 x00)
(T (W x00 x00 x00 x00 x00 x00 x00 x00)
(T (W x00 x00 x00 x00 x00 x00 x00 x00)
(L (W x45 x26 x22 x84 xe4 x9c xf2 xcb)) E)
(L (W xff xff xff xff x01 x00 x00 x00)))
(T (W x00 x00 x00 x00 x00 x00 x00 x00)
(L (W x18 x00 x00 x00 x0c x00 x00 x00))
(L (W x00 x00 x00 x00 x00 x00 x00 x00))))))
(T (W xca x79 xfb xff x74 x00 x00 x00)
(T (W x00 x00 x00 x00 x00 x00 x00 x00)
(T (W x00 x00 x00 x00 x00 x00 x00 x00)
(T (W x00 x00 x80 x3f x00 x00 x80 x3f)
(T (W xca x59 xfd xff x74 x00 x00 x00)
(L (W x3b x00 x00 x00 x3e x00 x00 x00)) E)
(L (W xff xff xff xff xff xff xff xff)))
(T (W x45 x26 x22 x84 xe4 x9c xf2 xcb)
(T (W x50 x00 x00 x00 x44 x00 x00 x00)
(L (W x00 x00 x80 xbf x00 x00 x80 xbf)) E)
(L (W xff xff xff xff xb0 x00 x00 x00))))
(T (W xb8 x00 x00 x00 xac x00 x00 x00)
(T (W xff xff xff xff xff xff xff xff)
(T (W x00 x00 x00 x00 x00 x00 x00 x00)
(L (W x54 x00 x00 x00 x48 x00 x00 x00)) E)
(L (W x45 x26 x22 x84 xe4 x9c xf2 xcb)))
(T (W xff xff xff xff xff xff xff xff)
(L (W x54 x00 x00 x00 x48 x00 x00 x00))
(L (W x00 x00 x00 x00 x00 x00 x00 x00)))))
(T (W x00 x00 x00 x00 x00 x00 x00 x00)
(T (W xff xff xff xff xff xff xff xff)
(T (W x00 x00 x00 x00 x00 x00 x00 x00)
(T (W xff xff xff xff xff xff xff xff)
(L (W x30 x35 x5f x43 x4c x45 x41 x52)) E)
(L (W xff xff xff xff xff xff xff xff)))
(T (W x00 x00 x00 x00 x00 x00 x00 x00)
(T (W xff xff xff xff xff xff xff xff)
(L (W x00 x00 x80 xbf x00 x00 x80 xbf)) E)
(L (W x03 x00 x00 x00 xc8 x00 x00 x00))))
(T (W x45 x26 x22 x84 xe4 x9c xf2 xcb)
(T (W x45 x26 x22 x84 xe4 x9c xf2 xcb)
(T (W x64 x5f x70 x6f x6b x65 x5f x77)
(L (W x00 x00 x00 x00 x00 x00 x00 x00)) E)
(L (W x30 x35 x5f x43 x4c x45 x41 x52)))
(T (W x00 x00 x00 x00 x00 x00 x00 x00)
(L (W xcc x00 x00 x00 x02 x00 x00 x00))
(L (W x00 x00 x00 x00 x00 x00 x00 x00))))))))
(T (W xff xff xff xff xff xff xff xff)
(T (W xff xff xff xff xff xff xff xff)
(T (W x45 x26 x22 x84 xe4 x9c xf2 xcb)
(T (W xff xff xff xff xff xff xff xff)
(T (W xc0 x00 x00 x00 xb4 x00 x00 x00)
(T (W x00 x00 x00 x00 x00 x00 x00 x00)
(T (W x00 x00 x80 x3f x00 x00 x80 x3f)
(L (W xff xff xff xff xff xff xff xff)) E)
(L (W x45 x44 x00 x00 x00 x00 x00 x00)))
(T (W x00 x00 x00 x00 x00 x00 x00 x00)
(T (W x00 x00 x80 x3f x00 x00 x80 x3f)
(L (W x00 x00 x01 x01 xaa x01 x00 x00)) E)
(L (W x31 x00 x00 x00 x34 x00 x00 x00))))
(T (W x00 x00 x80 x3f x00 x00 x80 x3f)
(T (W xff xff xff xff xff xff xff xff)
(T (W xca x85 xfd xff x74 x00 x00 x00)
(L (W xff xff xff xff x9c x00 x00 x00)) E)
(L (W x00 x00 x80 xbf x00 x00 x80 xbf)))
(T (W x02 x00 x00 x00 xff xff xff xff)
(L (W x45 x26 x22 x84 xe4 x9c xf2 xcb))
(L (W x00 x00 x00 x00 x00 x00 x00 x00)))))
(T (W xff xff xff xff x03 x00 x00 x00)
(T (W x00 x00 x80 x3f x00 x00 x80 x3f)
(T (W xff xff xff xff xff xff xff xff)
(T (W x82 xd8 xff xff x00 x00 x01 x01)
(L (W x00 x00 x80 xbf x00 x00 x80 xbf)) E)
(L (W x00 x00 x00 x00 x00 x00 x00 x00)))
(T (W x00 x00 x00 x00 x00 x00 x00 x00)
(T (W x00 x00 x80 xbf x00 x00 x80 xbf)
(L (W x45 x26 x22 x84 xe4 x9c xf2 xcb)) E)
(L (W x00 x00 x00 x00 x12 x00 x00 x00))))
(T (W x00 x00 x00 x00 x00 x00 x00 x00)
(T (W x54 x00 x00 x00 x48 x00 x00 x00)
(T (W x03 x00 x00 x00 xd4 x00 x00 x00)
(L (W xff xff xff xff xff xff xff xff)) E)
(L (W xff xff xff xff xff xff xff xff)))
(T (W xff xff xff xff x9c x00 x00 x00)
(L (W xff xff xff xff xff xff xff xff))
(L (W x82 x27 xff xff x78 x00 x00 x00))))))
(T (W xcb x01 x00 x00 xff xff xff xff)
(T (W xff xff xff xff xff xff xff xff)
(T (W xac xda xfb xff x00 x01 x01 x01)
(T (W xff xff xff xff xff xff xff xff)
(T (W x00 x00 x00 x00 x00 x00 x00 x00)
(L (W x00 x00 x00 x00 x00 x00 x00 x00)) E)
(L (W x00 x00 x00 x00 x12 x00 x00 x00)))
(T (W xb0 x00 x00 x00 x64 x00 x00 x00)
(T (W x00 x00 x01 x01 x29 x00 x00 x00)
(L (W xff xff xff xff xff xff xff xff)) E)
(L (W x00 x00 x00 x00 x00 x00 x00 x00))))
(T (W x45 x26 x22 x84 xe4 x9c xf2 xcb)
(T (W x00 x00 x00 x00 x00 x00 x00 x00)
(T (W x00 x00 x80 xbf x00 x00 x80 xbf)
(L (W x00 x00 x00 x00 x00 x00 x00 x00)) E)
(L (W x03 x00 x00 x00 xd0 x00 x00 x00)))
(T (W x45 x26 x22 x84 xe4 x9c xf2 xcb)
(L (W xf2 x00 x00 x00 xff xff xff xff))
(L (W x54 x00 x00 x00 x48 x00 x00 x00)))))
(T (W x01 x00 x00 x00 x9c x00 x00 x00)
(T (W x00 x00 x80 x3f x00 x00 x80 x3f)
(T (W xff xff xff xff xc0 x00 x00 x00)
(T (W x00 x00 x80 x3f x00 x00 x80 x3f)
(L (W x18 x79 xff xff x02 x87 xff xff)) E)
(L (W x00 x00 x80 xbf x00 x00 x80 xbf)))
(T (W x68 x00 x00 x00 x5c x00 x00 x00)
(T (W x00 x00 x80 xbf x00 x00 x80 xbf)
(L (W x00 x00 x80 xbf x00 x00 x80 xbf)) E)
(L (W x00 x00 x00 x00 x00 x00 x00 x00))))
(T (W x00 x00 x00 x00 x00 x00 x00 x00)
(T (W xff xff xff xff xff xff xff xff)
(T (W x67 x72 x6f x75 x70 x5f x6c x65)
(L (W x1c x00 x00 x00 x10 x00 x00 x00)) E)
(L (W x00 x00 x80 xbf x00 x00 x80 xbf)))
(T (W x68 x00 x00 x00 x5c x00 x00 x00)
(L (W x00 x00 x80 xbf x00 x00 x80 xbf))
(L (W x00 x00 x00 x00 xb0 x3a xff xff)))))))
(T (W x00 x00 x00 x00 x02 xf6 xff xff)
(T (W x8b xca x64 xd4 xd9 xb4 xd3 xde)
(T (W xff xff xff xff xff xff xff xff)
(T (W xca xcd xfb xff x74 x00 x00 x00)
(T (W x00 x00 x00 x00 x04 x00 x00 x00)
(T (W x45 x26 x22 x84 xe4 x9c xf2 xcb)
(L (W x00 x00 x00 x00 xb2 x4e xff xff)) E)
(L (W x00 x00 x00 x00 x00 x00 x00 x00)))
(T (W x00 x00 x80 x3f x00 x00 x80 x3f)
(T (W xff xff xff xff xbc x00 x00 x00)
(L (W xff xff xff xff xff xff xff xff)) E)
(L (W xff xff xff xff xff xff xff xff))))
(T (W x00 x00 x00 x00 x00 x00 x00 x00)
(T (W x00 x00 x00 x00 x00 x00 x00 x00)
(T (W xff xff xff xff xff xff xff xff)
(L (W xff xff xff xff xff xff xff xff)) E)
(L (W xca x8d xfe xff x74 x00 x00 x00)))
(T (W x00 x00 x00 x00 x00 x00 x00 x00)
(L (W xff xff xff xff xff xff xff xff))
(L (W x45 x26 x22 x84 xe4 x9c xf2 xcb)))))
(T (W x45 x26 x22 x84 xe4 x9c xf2 xcb)
(T (W x45 x26 x22 x84 xe4 x9c xf2 xcb)
(T (W xb8 x00 x00 x00 xac x00 x00 x00)
(T (W xff xff xff xff xff xff xff xff)
(L (W x6c x00 x00 x00 x60 x00 x00 x00)) E)
(L (W x00 x00 x00 x00 x00 x00 x00 x00)))
(T (W x45 x26 x22 x84 xe4 x9c xf2 xcb)
(T (W x6c x00 x00 x00 x60 x00 x00 x00)
(L (W x3c x00 x00 x00 x00 x00 x80 xbf)) E)
(L (W x00 x00 x00 x00 x00 x00 x00 x00))))
(T (W x40 x00 x00 x00 x0c x00 x00 x00)
(T (W x45 x26 x22 x84 xe4 x9c xf2 xcb)
(T (W x45 x44 x00 x00 x00 x00 x00 x00)
(L (W xff xff xff xff xc0 x00 x00 x00)) E)
(L (W x18 x00 x00 x00 x0c x00 x00 x00)))
(T (W x18 x00 x00 x00 x0c x00 x00 x00)
(L (W x00 x00 x00 x00 x00 x00 x00 x00))
(L (W xff xff xff xff xa0 x00 x00 x00))))))
(T (W xff xff xff xff xff xff xff xff)
(T (W xff xff xff xff xff xff xff xff)
(T (W x00 x00 x80 x3f x00 x00 x80 x3f)
(T (W x40 x00 x00 x00 xff xff xff xff)
(T (W x00 x00 x00 x00 x00 x00 x00 x00)
(L (W x49 xa1 x68 x4a xeb x5f xdd x3d)) E)
(L (W x45 x26 x22 x84 xe4 x9c xf2 xcb)))
(T (W x04 x00 x00 x00 x8a xe7 xfc xff)
(T (W x00 x00 x00 x00 x00 x00 x00 x00)
(L (W x00 x00 x00 x00 x8a xe7 xff xff)) E)
(L (W x00 x00 x00 x00 x00 x00 x00 x00))))
(T (W x00 x00 x00 x00 x00 x00 x00 x00)
(T (W x00 x00 x80 x3f x00 x00 x80 x3f)
(T (W x00 x00 x00 x00 x00 x00 x00 x00)
(L (W x08 x00 x00 x00 xf0 x07 x00 x00)) E)
(L (W xb4 x00 x00 x00 x64 x00 x00 x00)))
(T (W x00 x00 x80 x3f x00 x00 x80 x3f)
(L (W x64 x04 x00 x00 x60 x03 x00 x00))
(L (W x00 x00 x80 xbf x00 x00 x80 xbf)))))
(T (W x0a x00 x00 x00 x3e x00 x00 x00)
(T (W x00 x00 x80 x3f x00 x00 x80 x3f)
(T (W xff xff xff xff xff xff xff xff)
(T (W xca x7d xfd xff x74 x00 x00 x00)
(L (W x18 x00 x00 x00 x0c x00 x00 x00)) E)
(L (W x00 x00 x80 xbf x00 x00 x80 xbf)))
(T (W xff xff xff xff xff xff xff xff)
(T (W x00 x00 x80 xbf x00 x00 x80 xbf)
(L (W xff xff xff xff xff xff xff xff)) E)
(L (W x00 x00 x00 x00 x00 x00 x00 x00))))
(T (W x00 x00 x00 x00 x00 x00 x00 x00)
(T (W xff xff xff xff xff xff xff xff)
(T (W x6c x00 x00 x00 x60 x00 x00 x00)
(L (W xff xff xff xff xff xff xff xff)) E)
(L (W x82 xbf xfe xff x78 x00 x00 x00)))
(T (W x68 x00 x00 x00 x5c x00 x00 x00)
(L (W x00 x00 x00 x00 x00 x00 x00 x00))
(L (W x35 x00 x00 x00 x38 x00 x00 x00))))))))))
(T (W x60 x91 x01 x00 x2c x90 x01 x00)
(T (W xc8 x61 x00 x00 x7c x5f x00 x00)
(T (W x45 x26 x22 x84 xe4 x9c xf2 xcb)
(T (W x00 x00 x00 x00 x00 x00 x00 x00)
(T (W x00 x00 x00 x00 x00 x00 x00 x00)
(T (W x00 x00 x80 x3f x00 x00 x80 x3f)
(T (W x6a x01 x00 x00 xff xff xff xff)
(T (W x00 x00 x80 x3f x00 x00 x80 x3f)
(T (W xff xff xff xff xff xff xff xff)
(L (W x00 x00 x00 x00 x00 x00 x00 x00)) E)
(L (W xff xff xff xff xa8 x00 x00 x00)))
(T (W x00 x00 x80 x3f x00 x00 x80 x3f)
(T (W xff xff xff xff xff xff xff xff)
(L (W x00 x00 x00 x00 x00 x00 x00 x00)) E)
(L (W x46 x53 x59 x53 x5f x4e x53 x5f))))
(T (W x18 x00 x00 x00 x0c x00 x00 x00)
(T (W x00 x00 x00 x00 x00 x00 x00 x00)
(T (W xff xff xff xff xff xff xff xff)
(L (W xea x00 x00 x00 xff xff xff xff)) E)
(L (W xff xff xff xff xff xff xff xff)))
(T (W x00 x00 x00 x00 x00 x00 x00 x00)
(L (W xff xff xff xff xff xff xff xff))
(L (W x82 x02 xff xff x78 x00 x00 x00)))))
(T (W x00 x00 x00 x00 x00 x00 x00 x00)
(T (W xdb x01 x00 x00 xff xff xff xff)
(T (W x00 x00 x80 x3f x00 x00 x80 x3f)
(T (W x00 x00 x80 x3f x00 x00 x80 x3f)
(L (W xff xff xff xff x9c x00 x00 x00)) E)
(L (W x6c x00 x00 x00 x60 x00 x00 x00)))
(T (W x68 x00 x00 x00 x5c x00 x00 x00)
(T (W x00 x00 x00 x00 x1c xe4 xfd xff)
(L (W xff xff xff xff xff xff xff xff)) E)
(L (W x00 x00 x80 xbf x00 x00 x80 xbf))))
(T (W x40 x00 x00 x00 x9c x00 x00 x00)
(T (W xff xff xff xff xff xff xff xff)
(T (W xff xff xff xff x9c x00 x00 x00)
(L (W x00 x00 x80 xbf x00 x00 x80 xbf)) E)
(L (W x78 x07 xb3 x28 xbf xdb x60 x6a)))
(T (W xff xff xff xff xff xff xff xff)
(L (W x49 xa1 x68 x4a xeb x5f xdd x3d))
(L (W xff xff xff xff xff xff xff xff))))))
(T (W x00 x00 x80 x3f x00 x00 x80 x3f)
(T (W x00 x00 x00 x00 x00 x00 x00 x00)
(T (W xff xff xff xff xff xff xff xff)
(T (W x45 x26 x22 x84 xe4 x9c xf2 xcb)
(T (W xca x50 xfd xff x74 x00 x00 x00)
(L (W x00 x00 x80 xbf x00 x00 x80 xbf)) E)
(L (W x00 x00 x00 x00 xb0 x55 xfe xff)))
(T (W xff xff xff xff xff xff xff xff)
(T (W x00 x00 x00 x00 x00 x00 x00 x00)
(L (W x3c x00 x00 x00 x00 x00 x80 xbf)) E)
(L (W x4f x84 x6f x8b xe8 xcb x63 xb7))))
(T (W x45 x26 x22 x84 xe4 x9c xf2 xcb)
(T (W x6c x00 x00 x00 x60 x00 x00 x00)
(T (W xff xff xff xff xff xff xff xff)
(L (W x00 x00 x80 xbf x00 x00 x80 xbf)) E)
(L (W x00 x00 x00 x00 x00 x00 x00 x00)))
(T (W xca x10 xfd xff x74 x00 x00 x00)
(L (W x00 x00 x00 x00 x00 x00 x00 x00))
(L (W xff xff xff xff xff xff xff xff)))))
(T (W x00 x00 x00 x00 x00 x00 x00 x00)
(T (W xff xff xff xff xff xff xff xff)
(T (W xff xff xff xff xff xff xff xff)
(T (W x00 x00 x00 x00 x00 x00 x00 x00)
(L (W x00 x00 x00 x00 x8a x7a xff xff)) E)
(L (W x31 x00 x00 x00 x34 x00 x00 x00)))
(T (W xff xff xff xff xff xff xff xff)
(T (W xff xff xff xff xff xff xff xff)
(L (W xff xff xff xff xff xff xff xff)) E)
(L (W x03 x00 x00 x00 xc8 x00 x00 x00))))
(T (W x6c x00 x00 x00 x60 x00 x00 x00)
(T (W x00 x00 x00 x00 x00 x00 x00 x00)
(T (W xca xb0 xfd xff x74 x00 x00 x00)
(L (W x00 x00 x00 x00 x00 x00 x00 x00)) E)
(L (W x63 x01 x00 x00 xff xff xff xff)))
(T (W xff xff xff xff xff xff xff xff)
(L (W x18 x00 x00 x00 x0c x00 x00 x00))
(L (W x14 x39 xff xff x18 x00 x00 x00)))))))
(T (W x00 x00 x00 x00 x00 x00 x00 x00)
(T (W x00 x00 x80 x3f x00 x00 x80 x3f)
(T (W x00 x00 x00 x00 x00 x00 x00 x00)
(T (W xff xff xff xff xff xff xff xff)
(T (W x00 x00 x00 x00 x00 x00 x00 x00)
(T (W xff xff xff xff xff xff xff xff)
(L (W x00 x00 x00 x00 x00 x00 x00 x00)) E)
(L (W x45 x26 x22 x84 xe4 x9c xf2 xcb)))
(T (W x18 x00 x00 x00 x10 x00 x00 x00)
(T (W x00 x00 x00 x00 x8a xd2 xfd xff)
(L (W x00 x00 x80 xbf x00 x00 x80 xbf)) E)
(L (W x00 x00 x00 x00 x00 x00 x00 x00))))
(T (W xca x08 xfc xff x74 x00 x00 x00)
(T (W x00 x00 x80 x3f x00 x00 x80 x3f)
(T (W x82 xfb xff xff x00 x00 x01 x01)
(L (W x14 x91 xff xff x1d x00 x00 x00)) E)
(L (W x00 x00 x00 x00 xb2 x89 xfe xff)))
(T (W x49 xa1 x68 x4a xeb x5f xdd x3d)
(L (W x00 x00 x00 x00 x00 x00 x00 x00))
(L (W xff xff xff xff xc8 x00 x00 x00)))))
(T (W x00 x00 x00 x00 x00 x00 x00 x00)
(T (W xff xff xff xff xff xff xff xff)
(T (W x68 x00 x00 x00 x5c x00 x00 x00)
(T (W x45 x26 x22 x84 xe4 x9c xf2 xcb)
(L (W xff xff xff xff xff xff xff xff)) E)
(L (W xff xff xff xff xb8 x00 x00 x00)))
(T (W x00 x00 x00 x00 x1c xec xfc xff)
(T (W xcc x00 x00 x00 x01 x00 x00 x00)
(L (W xff xff xff xff xff xff xff xff)) E)
(L (W xff xff xff xff xa0 x00 x00 x00))))
(T (W x50 x00 x00 x00 x44 x00 x00 x00)
(T (W x00 x00 x00 x00 xb2 xa9 xfc xff)
(T (W x46 x53 x59 x53 x5f x4e x53 x5f)
(L (W x44 x00 x48 x00 x00 x00 x4c x00)) E)
(L (W x50 x00 x00 x00 x44 x00 x00 x00)))
(T (W x9f x4f x2b x97 x85 x9b x55 x5f)
(L (W x00 x00 x80 xbf x00 x00 x80 xbf))
(L (W x30 x35 x5f x43 x4c x45 x41 x52))))))
(T (W x45 x26 x22 x84 xe4 x9c xf2 xcb)
(T (W x00 x00 x00 x00 x00 x00 x00 x00)
(T (W xff xff xff xff xff xff xff xff)
(T (W x00 x00 x80 x3f x00 x00 x80 x3f)
(T (W x68 x00 x00 x00 x5c x00 x00 x00)
(L (W x82 x5a xff xff x78 x00 x00 x00)) E)
(L (W xca x58 xfe xff x74 x00 x00 x00)))
(T (W x00 x00 x00 x00 x00 x00 x00 x00)
(T (W x00 x00 x80 xbf x00 x00 x80 xbf)
(L (W x00 x00 x00 x00 x00 x00 x00 x00)) E)
(L (W x00 x00 x80 xbf x00 x00 x80 xbf))))
(T (W x18 x00 x00 x00 x10 x00 x00 x00)
(T (W xbc x00 x00 x00 x64 x00 x00 x00)
(T (W x01 x00 x00 x00 xff xff xff xff)
(L (W x00 x00 x80 xbf x00 x00 x80 xbf)) E)
(L (W x00 x00 x00 x00 x00 x00 x00 x00)))
(T (W x03 x00 x00 x00 xd4 x00 x00 x00)
(L (W x00 x00 x80 xbf x00 x00 x80 xbf))
(L (W x00 x00 x00 x00 x00 x00 x00 x00)))))
(T (W x14 x91 x2e x9f xa4 xc0 x28 xea)
(T (W xff xff xff xff x04 x00 x00 x00)
(T (W x00 x00 x00 x00 x00 x00 x00 x00)
(T (W xff xff xff xff xff xff xff xff)
(L (W xff xff xff xff xff xff xff xff)) E)
(L (W xff xff xff xff xff xff xff xff)))
(T (W x00 x00 x00 x00 x00 x00 x00 x00)
(T (W xff xff xff xff xff xff xff xff)
(L (W x4f x84 x6f x8b xe8 xcb x63 xb7)) E)
(L (W x50 x00 x00 x00 x44 x00 x00 x00))))
(T (W x00 x00 x80 x3f x00 x00 x80 x3f)
(T (W x00 x00 x00 x00 x00 x00 x00 x00)
(T (W xff xff xff xff xff xff xff xff)
(L (W x46 x53 x59 x53 x5f x4e x53 x5f)) E)
(L (W x00 x00 x01 x01 x63 x01 x00 x00)))
(T (W x82 xab xff xff x00 x00 x01 x01)
(L (W xff xff xff xff x90 x00 x00 x00))
(L (W x46 x53 x59 x53 x5f x4e x53 x5f))))))))
(T (W xff xff xff xff xff xff xff xff)
(T (W xff xff xff xff xff xff xff xff)
(T (W x24 x00 x28 x00 x2c x00 x30 x00)
(T (W xff xff xff xff xff xff xff xff)
(T (W x00 x00 x80 x3f x00 x00 x80 x3f)
(T (W x42 xdb xff xff x00 x00 x01 x01)
(T (W x45 x26 x22 x84 xe4 x9c xf2 xcb)
(L (W xca x44 xff xff x74 x00 x00 x00)) E)
(L (W xff xff xff xff xff xff xff xff)))
(T (W xb0 x20 x12 x88 x4d x36 x5d xba)
(T (W x00 x00 x80 x3f x00 x00 x80 x3f)
(L (W x2b x00 x00 x00 x2e x00 x00 x00)) E)
(L (W x82 xc6 xfe xff x78 x00 x00 x00))))
(T (W x00 x00 x00 x00 x00 x00 x00 x00)
(T (W xff xff xff xff xff xff xff xff)
(T (W x68 x00 x00 x00 x5c x00 x00 x00)
(L (W x82 x86 xff xff x78 x00 x00 x00)) E)
(L (W x00 x00 x80 xbf x00 x00 x80 xbf)))
(T (W xb0 x00 x00 x00 x64 x00 x00 x00)
(L (W x54 x00 x00 x00 x48 x00 x00 x00))
(L (W x14 x0d xff xff x3b x00 x00 x00)))))
(T (W x01 x00 x00 x00 xa0 x00 x00 x00)
(T (W x00 x00 x00 x00 x00 x00 x00 x00)
(T (W x64 x00 x00 x00 x9c x00 x00 x00)
(T (W xff xff xff xff xff xff xff xff)
(L (W x4f x84 x6f x8b xe8 xcb x63 xb7)) E)
(L (W x00 x00 x00 x00 x00 x00 x00 x00)))
(T (W xbe x31 x16 xcf x9c x31 x15 x04)
(T (W x4f x84 x6f x8b xe8 xcb x63 xb7)
(L (W x45 x44 x00 x00 x00 x00 x00 x00)) E)
(L (W x00 x00 x00 x00 x00 x00 x00 x00))))
(T (W x82 x97 xfe xff x00 x00 x01 x01)
(T (W x45 x26 x22 x84 xe4 x9c xf2 xcb)
(T (W x00 x00 x80 xbf x00 x00 x80 xbf)
(L (W xff xff xff xff xff xff xff xff)) E)
(L (W xca xa4 xfe xff x74 x00 x00 x00)))
(T (W x68 x00 x00 x00 x5c x00 x00 x00)
(L (W xff xff xff xff xff xff xff xff))
(L (W x00 x00 x80 xbf x00 x00 x80 xbf))))))
(T (W xff xff xff xff xff xff xff xff)
(T (W xff xff xff xff xff xff xff xff)
(T (W x00 x00 x80 x3f x00 x00 x80 x3f)
(T (W xff xff xff xff xff xff xff xff)
(T (W x00 x00 x00 x00 x00 x00 x00 x00)
(L (W x46 x53 x59 x53 x5f x4e x53 x5f)) E)
(L (W x02 x00 x00 x00 x30 x01 x00 x00)))
(T (W x68 x00 x00 x00 x5c x00 x00 x00)
(T (W xff xff xff xff xff xff xff xff)
(L (W xff xff xff xff xff xff xff xff)) E)
(L (W xff xff xff xff xff xff xff xff))))
(T (W x00 x00 x00 x00 x00 x00 x00 x00)
(T (W x00 x00 x00 x00 x00 x00 x00 x00)
(T (W x00 x00 x00 x00 x00 x00 x00 x00)
(L (W xff xff xff xff xff xff xff xff)) E)
(L (W x18 x00 x00 x00 x10 x00 x00 x00)))
(T (W x12 x00 x00 x00 x46 x53 x59 x53)
(L (W xff xff xff xff xff xff xff xff))
(L (W x00 x00 x80 xbf x00 x00 x80 xbf)))))
(T (W x45 x26 x22 x84 xe4 x9c xf2 xcb)
(T (W x45 x26 x22 x84 xe4 x9c xf2 xcb)
(T (W x45 x26 x22 x84 xe4 x9c xf2 xcb)
(T (W x00 x00 x80 x3f x00 x00 x80 x3f)
(L (W x54 x00 x00 x00 x48 x00 x00 x00)) E)
(L (W x00 x00 x00 x00 x00 x00 x00 x00)))
(T (W x00 x00 x80 x3f x00 x00 x80 x3f)
(T (W x00 x00 x00 x00 x00 x00 x00 x00)
(L (W x00 x00 x10 x00 x14 x00 x18 x00)) E)
(L (W x00 x00 x00 x00 x00 x00 x00 x00))))
(T (W x5d x00 x00 x00 xff xff xff xff)
(T (W x2b x00 x00 x00 x2e x00 x00 x00)
(T (W xff xff xff xff xff xff xff xff)
(L (W x18 xb8 xff xff x02 xc6 xff xff)) E)
(L (W x00 x00 x80 xbf x00 x00 x80 xbf)))
(T (W x00 x00 x80 x3f x00 x00 x80 x3f)
(L (W x00 x00 x00 x00 x00 x00 x00 x00))
(L (W x54 x00 x00 x00 x48 x00 x00 x00)))))))
(T (W xff xff xff xff xff xff xff xff)
(T (W xff xff xff xff xff xff xff xff)
(T (W xff xff xff xff xff xff xff xff)
(T (W x54 x00 x00 x00 x48 x00 x00 x00)
(T (W xff xff xff xff xff xff xff xff)
(T (W x00 x00 x00 x00 x00 x00 x00 x00)
(L (W xff xff xff xff xff xff xff xff)) E)
(L (W x00 x00 x00 x00 x00 x00 x00 x00)))
(T (W x00 x00 x00 x00 x00 x00 x00 x00)
(T (W x45 x26 x22 x84 xe4 x9c xf2 xcb)
(L (W xff xff xff xff xff xff xff xff)) E)
(L (W x24 x00 x00 x00 x27 x00 x00 x00))))
(T (W x00 x00 x00 x00 x00 x00 x00 x00)
(T (W x00 x00 x00 x00 x00 x00 x00 x00)
(T (W x00 x00 x80 x3f x00 x00 x80 x3f)
(L (W x45 x26 x22 x84 xe4 x9c xf2 xcb)) E)
(L (W x00 x00 x80 xbf x00 x00 x80 xbf)))
(T (W xff xff xff xff xff xff xff xff)
(L (W x45 x26 x22 x84 xe4 x9c xf2 xcb))
(L (W x00 x00 x00 x00 x00 x00 x00 x00)))))
(T (W xac xb1 xfb xff x00 x01 x01 x01)
(T (W x45 x26 x22 x84 xe4 x9c xf2 xcb)
(T (W x01 x00 x00 x00 x9c x00 x00 x00)
(T (W xff xff xff xff xff xff xff xff)
(L (W x00 x00 x80 xbf x00 x00 x80 xbf)) E)
(L (W x45 x44 x00 x00 x00 x00 x00 x00)))
(T (W x00 x00 x00 x00 x00 x00 x00 x00)
(T (W x00 x00 x00 x00 x00 x00 x00 x00)
(L (W x00 x00 x80 xbf x00 x00 x80 xbf)) E)
(L (W x30 x35 x5f x43 x4c x45 x41 x52))))
(T (W xff xff xff xff xff xff xff xff)
(T (W x54 x00 x00 x00 x48 x00 x00 x00)
(T (W xff xff xff xff xff xff xff xff)
(L (W x45 x26 x22 x84 xe4 x9c xf2 xcb)) E)
(L (W x00 x00 x80 xbf x00 x00 x80 xbf)))
(T (W x00 x00 x80 x3f x00 x00 x80 x3f)
(L (W x46 x53 x59 x53 x5f x4e x53 x5f))
(L (W x6c x00 x00 x00 x60 x00 x00 x00))))))
(T (W xb8 x00 x00 x00 xac x00 x00 x00)
(T (W x18 x00 x00 x00 x10 x00 x00 x00)
(T (W x45 x26 x22 x84 xe4 x9c xf2 xcb)
(T (W xff xff xff xff xff xff xff xff)
(T (W x82 xcf xff xff x00 x00 x01 x01)
(L (W x00 x00 x00 x00 x00 x00 x00 x00)) E)
(L (W x00 x00 x00 x00 x00 x00 x00 x00)))
(T (W xff xff xff xff xff xff xff xff)
(T (W x7e x68 xca xc9 x03 x8e xa3 xbc)
(L (W xff xff xff xff xff xff xff xff)) E)
(L (W x00 x00 x00 x00 x00 x00 x00 x00))))
(T (W x3e x00 x00 x00 x0c x00 x00 x00)
(T (W x4f x84 x6f x8b xe8 xcb x63 xb7)
(T (W x00 x00 x01 x01 xc0 x01 x00 x00)
(L (W xff xff xff xff xff xff xff xff)) E)
(L (W x00 x00 x00 x00 xb0 xa1 xfe xff)))
(T (W x00 x00 x00 x00 x00 x00 x00 x00)
(L (W xff xff xff xff xff xff xff xff))
(L (W x00 x00 x80 xbf x00 x00 x80 xbf)))))
(T (W x18 x00 x00 x00 x0c x00 x00 x00)
(T (W x00 x00 x80 x3f x00 x00 x80 x3f)
(T (W x18 x00 x00 x00 x10 x00 x00 x00)
(T (W x00 x00 x00 x00 x00 x00 x00 x00)
(L (W x00 x00 x80 xbf x00 x00 x80 xbf)) E)
(L (W x49 xa1 x68 x4a xeb x5f xdd x3d)))
(T (W x18 x00 x00 x00 x0c x00 x00 x00)
(T (W x00 x00 x00 x00 x00 x00 x00 x00)
(L (W x54 x00 x00 x00 x48 x00 x00 x00)) E)
(L (W x6a x01 x00 x00 xff xff xff xff))))
(T (W xca xd1 xff xff x5d x00 x00 x00)
(T (W xff xff xff xff xff xff xff xff)
(T (W x00 x00 x80 x3f x00 x00 x80 x3f)
(L (W x03 x00 x00 x00 xd8 x00 x00 x00)) E)
(L (W x00 x00 x80 xbf x00 x00 x80 xbf)))
(T (W x00 x00 x80 x3f x00 x00 x80 x3f)
(L (W x00 x00 x00 x00 x12 x00 x00 x00))
(L (W x82 x3e xff xff x78 x00 x00 x00)))))))))
(T (W x01 x00 x00 x00 x04 x00 x00 x00)
(T (W x45 x26 x22 x84 xe4 x9c xf2 xcb)
(T (W x50 x00 x00 x00 x44 x00 x00 x00)
(T (W x45 x26 x22 x84 xe4 x9c xf2 xcb)
(T (W x18 x00 x00 x00 x0c x00 x00 x00)
(T (W x00 x00 x00 x00 x00 x00 x00 x00)
(T (W xbc x00 x00 x00 xb0 x00 x00 x00)
(T (W x00 x00 x00 x00 x00 x00 x00 x00)
(L (W x00 x00 x80 xbf x00 x00 x80 xbf)) E)
(L (W xff xff xff xff xff xff xff xff)))
(T (W xb0 x00 x00 x00 x64 x00 x00 x00)
(T (W x00 x00 x00 x00 x00 x00 x00 x00)
(L (W x00 x00 x80 xbf x00 x00 x80 xbf)) E)
(L (W x00 x00 x80 xbf x00 x00 x80 xbf))))
(T (W x1c x01 x00 x00 x04 x00 x00 x00)
(T (W xac x87 xfc xff x00 x01 x01 x01)
(T (W x00 x00 x00 x00 x00 x00 x00 x00)
(L (W x00 x00 x80 xbf x00 x00 x80 xbf)) E)
(L (W x00 x00 x00 x00 x00 x00 x00 x00)))
(T (W x50 x00 x00 x00 x44 x00 x00 x00)
(L (W x4f x84 x6f x8b xe8 xcb x63 xb7))
(L (W xff xff xff xff xff xff xff xff)))))
(T (W x45 x26 x22 x84 xe4 x9c xf2 xcb)
(T (W x00 x00 x00 x00 x00 x00 x00 x00)
(T (W x00 x00 x80 x3f x00 x00 x80 x3f)
(T (W xca x62 xfd xff x74 x00 x00 x00)
(L (W x45 x44 x00 x00 x00 x00 x00 x00)) E)
(L (W xff xff xff xff xff xff xff xff)))
(T (W xff xff xff xff xff xff xff xff)
(T (W x00 x00 x00 x00 x00 x00 x00 x00)
(L (W xff xff xff xff xff xff xff xff)) E)
(L (W xff xff xff xff xff xff xff xff))))
(T (W xff xff xff xff xff xff xff xff)
(T (W x00 x00 x00 x00 x00 x00 x00 x00)
(T (W x2f x4d x69 x12 x83 x70 x37 xc6)
(L (W x45 x26 x22 x84 xe4 x9c xf2 xcb)) E)
(L (W x00 x00 x80 xbf x00 x00 x80 xbf)))
(T (W x00 x00 x00 x00 x12 x00 x00 x00)
(L (W x44 x00 x00 x00 x00 x00 x80 xbf))
(L (W x00 x00 x00 x00 x00 x00 x00 x00))))))
(T (W xac x77 xfb xff x00 x01 x01 x01)
(T (W x54 x00 x00 x00 x48 x00 x00 x00)
(T (W x00 x00 x00 x00 x00 x00 x00 x00)
(T (W x50 x00 x00 x00 x44 x00 x00 x00)
(T (W xff xff xff xff xff xff xff xff)
(L (W xff xff xff xff xbc x00 x00 x00)) E)
(L (W xcc x00 x00 x00 x01 x00 x00 x00)))
(T (W x00 x00 x00 x00 x00 x00 x00 x00)
(T (W x50 x00 x00 x00 x44 x00 x00 x00)
(L (W x45 x26 x22 x84 xe4 x9c xf2 xcb)) E)
(L (W xff xff xff xff xb0 x00 x00 x00))))
(T (W xff xff xff xff xff xff xff xff)
(T (W xff xff xff xff xff xff xff xff)
(T (W xff xff xff xff xff xff xff xff)
(L (W x18 x00 x00 x00 x0c x00 x00 x00)) E)
(L (W x00 x00 x00 x00 x00 x00 x00 x00)))
(T (W xff xff xff xff xff xff xff xff)
(L (W x6c x00 x00 x00 x60 x00 x00 x00))
(L (W x00 x00 x00 x00 x00 x00 x00 x00)))))
(T (W x45 x26 x22 x84 xe4 x9c xf2 xcb)
(T (W x13 x00 x00 x00 x10 x00 x00 x00)
(T (W x00 x00 x00 x00 x00 x00 x00 x00)
(T (W x00 x00 x00 x00 x00 x00 x00 x00)
(L (W x00 x00 x00 x00 x00 x00 x00 x00)) E)
(L (W xff xff xff xff xff xff xff xff)))
(T (W x44 xfe xfc xff x10 x00 x00 x00)
(T (W x00 x00 x00 x00 x00 x00 x00 x00)
(L (W x00 x00 x80 xbf x00 x00 x80 xbf)) E)
(L (W xff xff xff xff xff xff xff xff))))
(T (W xff xff xff xff xff xff xff xff)
(T (W x45 x26 x22 x84 xe4 x9c xf2 xcb)
(T (W x00 x00 x00 x00 x00 x00 x00 x00)
(L (W x00 x00 x80 xbf x00 x00 x80 xbf)) E)
(L (W x00 x00 x00 x00 x12 x00 x00 x00)))
(T (W x00 x00 x00 x00 x00 x00 x00 x00)
(L (W xff xff xff xff xff xff xff xff))
(L (W x00 x00 x80 xbf x00 x00 x80 xbf)))))))
(T (W x45 x26 x22 x84 xe4 x9c xf2 xcb)
(T (W x68 x00 x00 x00 x5c x00 x00 x00)
(T (W x00 x00 x80 x3f x00 x00 x80 x3f)
(T (W x00 x00 x00 x00 x00 x00 x00 x00)
(T (W xac x4f xfc xff x00 x01 x01 x01)
(T (W x82 xbd xff xff x00 x00 x01 x01)
(L (W x54 x00 x00 x00 x48 x00 x00 x00)) E)
(L (W xff xff xff xff xff xff xff xff)))
(T (W x04 x00 x00 x00 x8a xd4 xfc xff)
(T (W x00 x00 x80 x3f x00 x00 x80 x3f)
(L (W x82 xcc xff xff x78 x00 x00 x00)) E)
(L (W x00 x00 x80 xbf x00 x00 x80 xbf))))
(T (W xff xff xff xff xff xff xff xff)
(T (W x18 x00 x00 x00 x10 x00 x00 x00)
(T (W x00 x00 x00 x00 x00 x00 x00 x00)
(L (W x00 x00 x80 xbf x00 x00 x80 xbf)) E)
(L (W x00 x00 x00 x00 x00 x00 x00 x00)))
(T (W x35 x00 x00 x00 x38 x00 x00 x00)
(L (W x45 x26 x22 x84 xe4 x9c xf2 xcb))
(L (W x63 x01 x00 x00 xff xff xff xff)))))
(T (W x00 x00 x00 x00 x00 x00 x00 x00)
(T (W x00 x00 x00 x00 x00 x00 x00 x00)
(T (W x00 x00 x00 x00 x00 x00 x00 x00)
(T (W x68 x00 x00 x00 x5c x00 x00 x00)
(L (W x00 x00 x00 x00 x00 x00 x00 x00)) E)
(L (W xff xff xff xff xff xff xff xff)))
(T (W x32 x42 xfd xff x9d x01 x00 x00)
(T (W xff xff xff xff xff xff xff xff)
(L (W x14 xf3 xff xff x10 x00 x00 x00)) E)
(L (W xff xff xff xff xff xff xff xff))))
(T (W xff xff xff xff xff xff xff xff)
(T (W x00 x00 x00 x00 x00 x00 x00 x00)
(T (W x6c x00 x00 x00 x60 x00 x00 x00)
(L (W x00 x00 x80 xbf x00 x00 x80 xbf)) E)
(L (W x00 x00 x00 x00 x00 x00 x00 x00)))
(T (W x00 x00 x00 x00 x00 x00 x00 x00)
(L (W xff xff xff xff xff xff xff xff))
(L (W x49 xa1 x68 x4a xeb x5f xdd x3d))))))
(T (W x45 x26 x22 x84 xe4 x9c xf2 xcb)
(T (W x00 x00 x80 x3f x00 x00 x80 x3f)
(T (W x00 x00 x00 x00 x00 x00 x00 x00)
(T (W x00 x00 x80 x3f x00 x00 x80 x3f)
(T (W xff xff xff xff xff xff xff xff)
(L (W xff xff xff xff xff xff xff xff)) E)
(L (W xff xff xff xff xff xff xff xff)))
(T (W x00 x00 x80 x3f x00 x00 x80 x3f)
(T (W xcc x00 x00 x00 x01 x00 x00 x00)
(L (W x82 xdc xff xff x78 x00 x00 x00)) E)
(L (W xff xff xff xff xff xff xff xff))))
(T (W xff xff xff xff xff xff xff xff)
(T (W xff xff xff xff xff xff xff xff)
(T (W x3c xf6 xff xff x01 x01 x01 x01)
(L (W x18 x00 x00 x00 x10 x00 x00 x00)) E)
(L (W x00 x00 x80 xbf x00 x00 x80 xbf)))
(T (W x9c x01 x00 x00 xff xff xff xff)
(L (W x45 x26 x22 x84 xe4 x9c xf2 xcb))
(L (W x00 x00 x00 x00 x00 x00 x00 x00)))))
(T (W x00 x00 x80 x3f x00 x00 x80 x3f)
(T (W x00 x00 x00 x00 xe2 x92 xff xff)
(T (W x00 x00 x80 x3f x00 x00 x80 x3f)
(T (W x00 x00 x00 x00 x02 x00 x00 x00)
(L (W x00 x00 x00 x00 x00 x00 x00 x00)) E)
(L (W x00 x00 x00 x00 x8a x84 xfe xff)))
(T (W x00 x00 x00 x00 x00 x00 x00 x00)
(T (W x00 x00 x00 x00 x00 x00 x00 x00)
(L (W xff xff xff xff xff xff xff xff)) E)
(L (W xff xff xff xff xff xff xff xff))))
(T (W x64 x00 x00 x00 x9c x00 x00 x00)
(T (W x54 x00 x00 x00 x48 x00 x00 x00)
(T (W x00 x00 x00 x00 x00 x00 x00 x00)
(L (W x00 x00 x80 xbf x00 x00 x80 xbf)) E)
(L (W x00 x00 x00 x00 x00 x00 x00 x00)))
(T (W x00 x00 x00 x00 x00 x00 x00 x00)
(L (W xff xff xff xff xff xff xff xff))
(L (W x00 x00 x80 xbf x00 x00 x80 xbf))))))))
(T (W x00 x00 x01 x01 x74 x02 x00 x00)
(T (W xff xff xff xff xff xff xff xff)
(T (W xff xff xff xff xff xff xff xff)
(T (W xb5 x01 x00 x00 xff xff xff xff)
(T (W xff xff xff xff xff xff xff xff)
(T (W x00 x00 x00 x00 x00 x00 x00 x00)
(T (W x68 x00 x00 x00 x5c x00 x00 x00)
(L (W xff xff xff xff xff xff xff xff)) E)
(L (W x00 x00 x00 x00 x00 x00 x00 x00)))
(T (W x45 x26 x22 x84 xe4 x9c xf2 xcb)
(T (W x00 x00 x00 x00 x1c xca xfd xff)
(L (W x46 x53 x59 x53 x5f x4e x53 x5f)) E)
(L (W xff xff xff xff xff xff xff xff))))
(T (W x00 x00 x80 x3f x00 x00 x80 x3f)
(T (W x14 x8f xfc xff x21 x00 x00 x00)
(T (W xff xff xff xff xff xff xff xff)
(L (W xff xff xff xff xff xff xff xff)) E)
(L (W x00 x00 x00 x00 x1c x8a xfe xff)))
(T (W x4c x45 x41 x52 x45 x44 x00 x00)
(L (W xff xff xff xff xff xff xff xff))
(L (W x00 x00 x80 xbf x00 x00 x80 xbf)))))
(T (W xaa x01 x00 x00 xff xff xff xff)
(T (W xca xe6 xfb xff x74 x00 x00 x00)
(T (W x00 x00 x00 x00 x02 x00 x00 x00)
(T (W x00 x00 x00 x00 x00 x00 x00 x00)
(L (W x54 x00 x00 x00 x48 x00 x00 x00)) E)
(L (W x00 x00 x80 xbf x00 x00 x80 xbf)))
(T (W x00 x00 x80 x3f x00 x00 x80 x3f)
(T (W x54 x00 x00 x00 x48 x00 x00 x00)
(L (W x54 x00 x00 x00 x48 x00 x00 x00)) E)
(L (W x00 x00 x00 x00 x00 x00 x00 x00))))
(T (W x00 x00 x00 x00 x00 x00 x00 x00)
(T (W x45 x26 x22 x84 xe4 x9c xf2 xcb)
(T (W xff xff xff xff xff xff xff xff)
(L (W x14 xaf xff xff x15 x00 x00 x00)) E)
(L (W xff xff xff xff x01 x00 x00 x00)))
(T (W xff xff xff xff xff xff xff xff)
(L (W x00 x00 x01 x01 xbf x01 x00 x00))
(L (W xff xff xff xff x9c x00 x00 x00))))))
(T (W x00 x00 x00 x00 x00 x00 x00 x00)
(T (W xff xff xff xff xff xff xff xff)
(T (W x18 x00 x00 x00 x10 x00 x00 x00)
(T (W x44 x62 xfc xff x3c x00 x00 x00)
(T (W x45 x26 x22 x84 xe4 x9c xf2 xcb)
(L (W x00 x00 x80 xbf x00 x00 x80 xbf)) E)
(L (W x00 x00 x00 x00 x00 x00 x00 x00)))
(T (W xff xff xff xff xff xff xff xff)
(T (W x30 x35 x5f x43 x4c x45 x41 x52)
(L (W x00 x00 x00 x00 x00 x00 x00 x00)) E)
(L (W x00 x00 x00 x00 x00 x00 x00 x00))))
(T (W x00 x00 x80 x3f x00 x00 x80 x3f)
(T (W x00 x00 x80 x3f x00 x00 x80 x3f)
(T (W xca x96 xfd xff x74 x00 x00 x00)
(L (W x00 x00 x00 x00 x00 x00 x00 x00)) E)
(L (W xff xff xff xff xff xff xff xff)))
(T (W x00 x00 x80 x3f x00 x00 x80 x3f)
(L (W x00 x00 x00 x00 x00 x00 x00 x00))
(L (W x18 x00 x00 x00 x10 x00 x00 x00)))))
(T (W xb8 x00 x00 x00 xac x00 x00 x00)
(T (W x00 x00 x80 x3f x00 x00 x80 x3f)
(T (W xff xff xff xff xff xff xff xff)
(T (W xac x7b xfd xff x00 x01 x01 x01)
(L (W x45 x26 x22 x84 xe4 x9c xf2 xcb)) E)
(L (W x00 x00 x80 xbf x00 x00 x80 xbf)))
(T (W x18 x00 x00 x00 x10 x00 x00 x00)
(T (W x00 x00 x80 xbf x00 x00 x80 xbf)
(L (W xff xff xff xff xff xff xff xff)) E)
(L (W x45 x26 x22 x84 xe4 x9c xf2 xcb))))
(T (W x00 x00 x00 x00 x00 x00 x00 x00)
(T (W xff xff xff xff xff xff xff xff)
(T (W x00 x00 x80 x3f x00 x00 x80 x3f)
(L (W xff xff xff xff xff xff xff xff)) E)
(L (W x03 x00 x00 x00 xd8 x00 x00 x00)))
(T (W xff xff xff xff x03 x00 x00 x00)
(L (W x6c x00 x00 x00 x60 x00 x00 x00))
(L (W xb0 x00 x00 x00 x64 x00 x00 x00)))))))
(T (W x00 x00 x00 x00 x00 x00 x00 x00)
(T (W x00 x00 x00 x00 x00 x00 x00 x00)
(T (W xff xff xff xff xff xff xff xff)
(T (W xff xff xff xff xff xff xff xff)
(T (W x00 x00 x00 x00 x00 x00 x00 x00)
(T (W x00 x00 x80 x3f x00 x00 x80 x3f)
(L (W x00 x00 x00 x00 x00 x00 x00 x00)) E)
(L (W x00 x00 x80 xbf x00 x00 x80 xbf)))
(T (W x00 x00 x00 x00 x1c xd2 xfc xff)
(T (W x02 x00 x00 x00 xff xff xff xff)
(L (W x00 x00 x00 x00 x00 x00 x00 x00)) E)
(L (W x45 x44 x00 x00 x00 x00 x00 x00))))
(T (W x50 x00 x00 x00 x44 x00 x00 x00)
(T (W x00 x00 x00 x00 x00 x00 x00 x00)
(T (W x10 x00 x14 x00 x00 x00 x00 x00)
(L (W xff xff xff xff xff xff xff xff)) E)
(L (W xff xff xff xff xff xff xff xff)))
(T (W x00 x00 x00 x00 x00 x00 x00 x00)
(L (W xff xff xff xff xff xff xff xff))
(L (W x6c x00 x00 x00 x60 x00 x00 x00)))))
(T (W xff xff xff xff xff xff xff xff)
(T (W x00 x00 x80 x3f x00 x00 x80 x3f)
(T (W x1c x00 x20 x00 x24 x00 x28 x00)
(T (W x82 xe1 xff xff x00 x00 x01 x01)
(L (W x18 x00 x00 x00 x10 x00 x00 x00)) E)
(L (W x00 x00 x80 xbf x00 x00 x80 xbf)))
(T (W xac xf3 xfc xff x00 x01 x01 x01)
(T (W x18 x00 x00 x00 x10 x00 x00 x00)
(L (W x00 x00 x2a x00 x50 x00 x3c x00)) E)
(L (W x00 x00 x80 xbf x00 x00 x80 xbf))))
(T (W x00 x00 x00 x00 x00 x00 x00 x00)
(T (W xff xff xff xff xff xff xff xff)
(T (W x00 x00 x00 x00 x00 x00 x00 x00)
(L (W xff xff xff xff xff xff xff xff)) E)
(L (W xff xff xff xff xff xff xff xff)))
(T (W xb8 x00 x00 x00 xac x00 x00 x00)
(L (W x00 x00 x80 xbf x00 x00 x80 xbf))
(L (W xff xff xff xff xff xff xff xff))))))
(T (W x1b xad xef x51 x22 x6f x26 xaf)
(T (W xff xff xff xff xff xff xff xff)
(T (W x01 x00 x00 x00 xa0 x00 x00 x00)
(T (W x00 x00 x00 x00 x00 x00 x00 x00)
(T (W x00 x00 x00 x00 x00 x00 x00 x00)
(L (W x00 x00 x80 xbf x00 x00 x80 xbf)) E)
(L (W x00 x00 x80 xbf x00 x00 x80 xbf)))
(T (W x00 x00 x00 x00 x00 x00 x00 x00)
(T (W x45 x26 x22 x84 xe4 x9c xf2 xcb)
(L (W x00 x00 x00 x00 x00 x00 x00 x00)) E)
(L (W x00 x00 x00 x00 x00 x00 x00 x00))))
(T (W x00 x00 x80 x3f x00 x00 x80 x3f)
(T (W x54 x00 x00 x00 x48 x00 x00 x00)
(T (W x45 x26 x22 x84 xe4 x9c xf2 xcb)
(L (W x00 x00 x00 x00 x00 x00 x00 x00)) E)
(L (W xff xff xff xff xff xff xff xff)))
(T (W x45 x26 x22 x84 xe4 x9c xf2 xcb)
(L (W x00 x00 x00 x00 x00 x00 x00 x00))
(L (W xcc x00 x00 x00 x01 x00 x00 x00)))))
(T (W xff xff xff xff xff xff xff xff)
(T (W x00 x00 x80 x3f x00 x00 x80 x3f)
(T (W x00 x00 x00 x00 x00 x00 x00 x00)
(T (W x00 x00 x00 x00 x1c x82 xfd xff)
(L (W xff xff xff xff xff xff xff xff)) E)
(L (W x54 x00 x00 x00 x48 x00 x00 x00)))
(T (W xff xff xff xff xff xff xff xff)
(T (W x00 x00 x00 x00 x1c x02 xfe xff)
(L (W x00 x00 x00 x00 x00 x00 x00 x00)) E)
(L (W x00 x00 x80 xbf x00 x00 x80 xbf))))
(T (W x00 x00 x00 x00 x00 x00 x00 x00)
(T (W x44 xca xfc xff x3b x00 x00 x00)
(T (W x18 x00 x00 x00 x0c x00 x00 x00)
(L (W x00 x00 x01 x01 x5c x00 x00 x00)) E)
(L (W x2f x00 x00 x00 x32 x00 x00 x00)))
(T (W xca x3e xfd xff x74 x00 x00 x00)
(L (W x4f x84 x6f x8b xe8 xcb x63 xb7))
(L (W xff xff xff xff xff xff xff xff)))))))))))
(T (W xc8 x9d x02 x00 x6c x9b x02 x00)
(T (W x10 xf4 x01 x00 xc4 xf1 x01 x00)
(T (W x00 xab x00 x00 xcc xa9 x00 x00)
(T (W xff xff xff xff xff xff xff xff)
(T (W xb8 x00 x00 x00 xac x00 x00 x00)
(T (W xb8 x00 x00 x00 xac x00 x00 x00)
(T (W xff xff xff xff xff xff xff xff)
(T (W x00 x00 x80 x3f x00 x00 x80 x3f)
(T (W xff xff xff xff xff xff xff xff)
(T (W x45 x26 x22 x84 xe4 x9c xf2 xcb)
(L (W x50 x00 x00 x00 x44 x00 x00 x00)) E)
(L (W x06 x00 x00 x00 x98 x05 x00 x00)))
(T (W xff xff xff xff xff xff xff xff)
(T (W x00 x00 x80 x3f x00 x00 x80 x3f)
(L (W x18 x00 x00 x00 x10 x00 x00 x00)) E)
(L (W x02 xc2 xfe xff x78 x00 x00 x00))))
(T (W x94 x08 xfc xff x3e x00 x00 x00)
(T (W xff xff xff xff xb0 x00 x00 x00)
(T (W x00 x00 x80 x3f x00 x00 x80 x3f)
(L (W x00 x00 x80 xbf x00 x00 x80 xbf)) E)
(L (W x00 x00 x00 x00 x00 x00 x00 x00)))
(T (W x68 x00 x00 x00 x5c x00 x00 x00)
(T (W x00 x00 x80 xbf x00 x00 x80 xbf)
(L (W x00 x00 x80 xbf x00 x00 x80 xbf)) E)
(L (W x00 x00 x00 x00 x92 x0b xff xff)))))
(T (W x4a xa0 xfb xff x74 x00 x00 x00)
(T (W x45 x26 x22 x84 xe4 x9c xf2 xcb)
(T (W xff xff xff xff xff xff xff xff)
(T (W xff xff xff xff xff xff xff xff)
(L (W x30 x35 x5f x43 x4c x45 x41 x52)) E)
(L (W xff xff xff xff xff xff xff xff)))
(T (W x02 x00 x00 x00 xff xff xff xff)
(T (W x00 x00 x00 x00 x00 x00 x00 x00)
(L (W x18 x00 x1c x00 x20 x00 x24 x00)) E)
(L (W xff xff xff xff xff xff xff xff))))
(T (W x44 x00 x70 x4f x4b x24 x03 x13)
(T (W x00 x00 x00 x00 x00 x00 x00 x00)
(T (W xc4 xab xfd xff x35 x00 x00 x00)
(L (W xff xff xff xff xff xff xff xff)) E)
(L (W x00 x00 x80 xbf x00 x00 x80 xbf)))
(T (W x00 x00 x00 x00 x00 x00 x00 x00)
(L (W xff xff xff xff xff xff xff xff))
(L (W x00 x00 x80 xbf x00 x00 x80 xbf))))))
(T (W xff xff xff xff xff xff xff xff)
(T (W x2c x95 xfb xff x00 x01 x01 x01)
(T (W x00 x00 x80 x3f x00 x00 x80 x3f)
(T (W xff xff xff xff xff xff xff xff)
(T (W x00 x00 x00 x00 x00 x00 x00 x00)
(L (W xff xff xff xff xff xff xff xff)) E)
(L (W x00 x00 x00 x00 x00 x00 x00 x00)))
(T (W x45 x26 x22 x84 xe4 x9c xf2 xcb)
(T (W x45 x26 x22 x84 xe4 x9c xf2 xcb)
(L (W xff xff xff xff xff xff xff xff)) E)
(L (W x03 x00 x00 x00 xd0 x00 x00 x00))))
(T (W x00 x00 x00 x00 x00 x00 x00 x00)
(T (W x00 x00 x01 x01 xc8 x02 x00 x00)
(T (W x7c x00 x08 x00 x70 x00 x0c x00)
(L (W xff xff xff xff xff xff xff xff)) E)
(L (W x54 x00 x00 x00 x48 x00 x00 x00)))
(T (W xb2 x67 xfd xff x9d x01 x00 x00)
(L (W xff xff xff xff xb0 x00 x00 x00))
(L (W x00 x00 x00 x00 x00 x00 x00 x00)))))
(T (W x50 x00 x00 x00 x44 x00 x00 x00)
(T (W x00 x00 x00 x00 x00 x00 x00 x00)
(T (W x68 x00 x00 x00 x00 x00 x62 x00)
(T (W x4a x70 xfd xff x74 x00 x00 x00)
(L (W x00 x00 x80 xbf x00 x00 x80 xbf)) E)
(L (W x20 x00 x00 x00 x0c x00 x00 x00)))
(T (W x45 x26 x22 x84 xe4 x9c xf2 xcb)
(T (W x4f x84 x6f x8b xe8 xcb x63 xb7)
(L (W x00 x00 x80 xbf x00 x00 x80 xbf)) E)
(L (W x00 x00 x00 x00 x00 x00 x00 x00))))
(T (W x02 xa3 xfe xff x00 x00 x01 x01)
(T (W x02 xb2 xfc xff x78 x00 x00 x00)
(T (W x00 x00 x00 x00 x32 xb1 xfd xff)
(L (W x68 x00 x00 x00 x5c x00 x00 x00)) E)
(L (W x00 x00 x80 xbf x00 x00 x80 xbf)))
(T (W x00 x00 x80 x3f x00 x00 x80 x3f)
(L (W x34 x00 x00 x00 x0c x00 x00 x00))
(L (W x00 x00 x80 xbf x00 x00 x80 xbf)))))))
(T (W x64 x00 x00 x00 x9c x00 x00 x00)
(T (W xff xff xff xff xff xff xff xff)
(T (W x64 x00 x00 x00 x9c x00 x00 x00)
(T (W x00 x00 x80 x3f x00 x00 x80 x3f)
(T (W xb8 x00 x00 x00 xac x00 x00 x00)
(T (W x00 x00 x00 x00 x00 x00 x00 x00)
(L (W x21 x00 x00 x00 x24 x00 x00 x00)) E)
(L (W x00 x00 x00 x00 x00 x00 x00 x00)))
(T (W xc4 xd3 xfc xff x24 x00 x00 x00)
(T (W x00 x00 x80 x3f x00 x00 x80 x3f)
(L (W xff xff xff xff xff xff xff xff)) E)
(L (W x50 x00 x00 x00 x44 x00 x00 x00))))
(T (W x00 x00 x00 x00 x00 x00 x00 x00)
(T (W xff xff xff xff xff xff xff xff)
(T (W x00 x00 x80 x3f x00 x00 x80 x3f)
(L (W x00 x00 x80 xbf x00 x00 x80 xbf)) E)
(L (W x00 x00 x80 xbf x00 x00 x80 xbf)))
(T (W xff xff xff xff xff xff xff xff)
(L (W x02 x0a xfe xff x78 x00 x00 x00))
(L (W x00 x00 x00 x00 x00 x00 x00 x00)))))
(T (W x00 x00 x00 x00 x9c xab xfb xff)
(T (W x45 x26 x22 x84 xe4 x9c xf2 xcb)
(T (W x5c x00 x60 x00 x62 x00 x00 x00)
(T (W xff xff xff xff xff xff xff xff)
(L (W x00 x00 x00 x00 x00 x00 x00 x00)) E)
(L (W x00 x00 x00 x00 x00 x00 x00 x00)))
(T (W x00 x00 x00 x00 x00 x00 x00 x00)
(T (W x00 x00 x00 x00 x00 x00 x00 x00)
(L (W x00 x00 x00 x00 x00 x00 x00 x00)) E)
(L (W x30 x35 x5f x43 x4c x45 x41 x52))))
(T (W xcf x01 x00 x00 xff xff xff xff)
(T (W x00 x00 x80 x3f x00 x00 x80 x3f)
(T (W x02 xaa xfd xff x78 x00 x00 x00)
(L (W x00 x00 x00 x00 x00 x00 x00 x00)) E)
(L (W x01 x00 x00 x00 xff xff xff xff)))
(T (W x00 x00 x80 x3f x00 x00 x80 x3f)
(L (W xff xff xff xff xff xff xff xff))
(L (W x6c x00 x00 x00 x60 x00 x00 x00))))))
(T (W xff xff xff xff xff xff xff xff)
(T (W x50 x00 x00 x00 x44 x00 x00 x00)
(T (W x00 x00 x80 x3f x00 x00 x80 x3f)
(T (W xff xff xff xff xff xff xff xff)
(T (W x02 xcb xff xff x00 x00 x01 x01)
(L (W x00 x00 x01 x01 xbe x00 x00 x00)) E)
(L (W x00 x00 x00 x00 x00 x00 x00 x00)))
(T (W x00 x00 x00 x00 x9c xdb xfc xff)
(T (W xff xff xff xff xff xff xff xff)
(L (W x2d x00 x00 x00 x30 x00 x00 x00)) E)
(L (W xff xff xff xff xff xff xff xff))))
(T (W x00 x00 x00 x00 x00 x00 x00 x00)
(T (W x00 x00 x00 x00 x12 x00 x00 x00)
(T (W x45 x26 x22 x84 xe4 x9c xf2 xcb)
(L (W xff xff xff xff xff xff xff xff)) E)
(L (W x31 x00 x00 x00 x34 x00 x00 x00)))
(T (W xc4 x23 xfd xff x10 x00 x00 x00)
(L (W xff xff xff xff xff xff xff xff))
(L (W x3c x00 x00 x00 x00 x00 x80 xbf)))))
(T (W x00 x00 x80 x3f x00 x00 x80 x3f)
(T (W x00 x00 x00 x00 x00 x00 x00 x00)
(T (W x6c x00 x00 x00 x60 x00 x00 x00)
(T (W x00 x00 x00 x00 x00 x00 x00 x00)
(L (W x45 x26 x22 x84 xe4 x9c xf2 xcb)) E)
(L (W x00 x00 x00 x00 x00 x00 x00 x00)))
(T (W x00 x00 x80 x3f x00 x00 x80 x3f)
(T (W x00 x00 x00 x00 x00 x00 x00 x00)
(L (W xcc x00 x00 x00 x01 x00 x00 x00)) E)
(L (W x6a x01 x00 x00 xff xff xff xff))))
(T (W xff xff xff xff xff xff xff xff)
(T (W x18 x00 x00 x00 x0c x00 x00 x00)
(T (W x00 x00 x00 x00 x00 x00 x00 x00)
(L (W x02 xba xff xff x78 x00 x00 x00)) E)
(L (W x00 x00 x80 xbf x00 x00 x80 xbf)))
(T (W x00 x00 x80 x3f x00 x00 x80 x3f)
(L (W x46 x53 x59 x53 x5f x4e x53 x5f))
(L (W x02 x3a xff xff x78 x00 x00 x00))))))))
(T (W x00 x00 x00 x00 x00 x00 x00 x00)
(T (W x45 x26 x22 x84 xe4 x9c xf2 xcb)
(T (W x00 x00 x80 x3f x00 x00 x80 x3f)
(T (W x00 x00 x00 x00 x00 x00 x00 x00)
(T (W xff xff xff xff xff xff xff xff)
(T (W x45 x26 x22 x84 xe4 x9c xf2 xcb)
(T (W xff xff xff xff xff xff xff xff)
(L (W x00 x00 x00 x00 x00 x00 x00 x00)) E)
(L (W x00 x00 x80 xbf x00 x00 x80 xbf)))
(T (W x00 x00 x80 x3f x00 x00 x80 x3f)
(T (W xff xff xff xff xff xff xff xff)
(L (W x46 x53 x59 x53 x5f x4e x53 x5f)) E)
(L (W x00 x00 x01 x01 xa8 x01 x00 x00))))
(T (W x45 x26 x22 x84 xe4 x9c xf2 xcb)
(T (W x45 x26 x22 x84 xe4 x9c xf2 xcb)
(T (W x02 xf7 xff xff x00 x00 x01 x01)
(L (W x00 x00 x00 x00 x92 x8f xff xff)) E)
(L (W xff xff xff xff xff xff xff xff)))
(T (W x12 x00 x00 x00 x46 x53 x59 x53)
(L (W xff xff xff xff xff xff xff xff))
(L (W x00 x00 x80 xbf x00 x00 x80 xbf)))))
(T (W xc4 xaf xfb xff x3e x00 x00 x00)
(T (W x64 x00 x00 x00 x9c x00 x00 x00)
(T (W x00 x00 x00 x00 x00 x00 x00 x00)
(T (W x45 x26 x22 x84 xe4 x9c xf2 xcb)
(L (W x03 x00 x00 x00 xd0 x00 x00 x00)) E)
(L (W x45 x26 x22 x84 xe4 x9c xf2 xcb)))
(T (W x00 x00 x80 x3f x00 x00 x80 x3f)
(T (W xcc x00 x00 x00 x01 x00 x00 x00)
(L (W x5c x00 x00 x00 x50 x00 x00 x00)) E)
(L (W x54 x00 x00 x00 x48 x00 x00 x00))))
(T (W x00 x00 x80 x3f x00 x00 x80 x3f)
(T (W xff xff xff xff xff xff xff xff)
(T (W xff xff xff xff xff xff xff xff)
(L (W x45 x26 x22 x84 xe4 x9c xf2 xcb)) E)
(L (W x00 x00 x00 x00 x00 x00 x00 x00)))
(T (W x02 x00 x00 x00 xff xff xff xff)
(L (W x00 x00 x00 x00 x00 x00 x00 x00))
(L (W xff xff xff xff xff xff xff xff))))))
(T (W x00 x00 x00 x00 x00 x00 x00 x00)
(T (W x00 x00 x00 x00 x00 x00 x00 x00)
(T (W xff xff xff xff xff xff xff xff)
(T (W x00 x00 x00 x00 x00 x00 x00 x00)
(T (W x68 x00 x00 x00 x5c x00 x00 x00)
(L (W x02 x56 xff xff x78 x00 x00 x00)) E)
(L (W x00 x00 x80 xbf x00 x00 x80 xbf)))
(T (W x04 x00 x00 x00 x0a xde xfc xff)
(T (W x49 xa1 x68 x4a xeb x5f xdd x3d)
(L (W x00 x00 x00 x00 x00 x00 x00 x00)) E)
(L (W x00 x00 x80 xbf x00 x00 x80 xbf))))
(T (W x68 x00 x00 x00 x5c x00 x00 x00)
(T (W x00 x00 x00 x00 x9c x97 xfc xff)
(T (W x45 x26 x22 x84 xe4 x9c xf2 xcb)
(L (W x00 x00 x80 xbf x00 x00 x80 xbf)) E)
(L (W x45 x44 x00 x00 x00 x00 x00 x00)))
(T (W x2c x19 xfd xff x00 x01 x01 x01)
(L (W x00 x00 x00 x00 x00 x00 x00 x00))
(L (W xff xff xff xff xff xff xff xff)))))
(T (W x00 x00 x00 x00 x00 x00 x00 x00)
(T (W xff xff xff xff xff xff xff xff)
(T (W x94 x04 x00 x00 x78 x03 x00 x00)
(T (W xff xff xff xff xff xff xff xff)
(L (W xff xff xff xff xff xff xff xff)) E)
(L (W x00 x00 x00 x00 x9c x77 xfe xff)))
(T (W xff xff xff xff xff xff xff xff)
(T (W xff xff xff xff xb0 x00 x00 x00)
(L (W x00 x00 x00 x00 x00 x00 x00 x00)) E)
(L (W x50 x00 x00 x00 x44 x00 x00 x00))))
(T (W x00 x00 x80 x3f x00 x00 x80 x3f)
(T (W x46 x53 x59 x53 x5f x4e x53 x5f)
(T (W x00 x00 x00 x00 x00 x00 x00 x00)
(L (W x00 x00 x00 x00 x00 x00 x00 x00)) E)
(L (W xff xff xff xff xff xff xff xff)))
(T (W xff xff xff xff xff xff xff xff)
(L (W x45 x26 x22 x84 xe4 x9c xf2 xcb))
(L (W x00 x00 x00 x00 x22 x54 xff xff)))))))
(T (W x00 x00 x00 x00 x00 x00 x00 x00)
(T (W x00 x00 x00 x00 x00 x00 x00 x00)
(T (W x45 x26 x22 x84 xe4 x9c xf2 xcb)
(T (W xdd x01 x00 x00 xff xff xff xff)
(T (W x00 x00 x80 x3f x00 x00 x80 x3f)
(T (W x4a x4c xfd xff x74 x00 x00 x00)
(L (W x00 x00 x00 x00 x00 x00 x00 x00)) E)
(L (W x00 x00 x80 x3f x00 x00 x80 x3f)))
(T (W xb0 x00 x00 x00 x64 x00 x00 x00)
(T (W x00 x00 x00 x00 x00 x00 x00 x00)
(L (W x00 x00 x00 x00 x00 x00 x00 x00)) E)
(L (W x46 x53 x59 x53 x5f x4e x53 x5f))))
(T (W x18 x00 x00 x00 x0c x00 x00 x00)
(T (W x00 x00 x80 x3f x00 x00 x80 x3f)
(T (W xff xff xff xff xff xff xff xff)
(L (W x45 x44 x00 x00 x00 x00 x00 x00)) E)
(L (W xff xff xff xff xff xff xff xff)))
(T (W x00 x00 x80 x3f x00 x00 x80 x3f)
(L (W x45 x44 x00 x00 x00 x00 x00 x00))
(L (W x45 x26 x22 x84 xe4 x9c xf2 xcb)))))
(T (W x00 x00 x00 x00 x02 x00 x00 x00)
(T (W xff xff xff xff x03 x00 x00 x00)
(T (W x00 x00 x00 x00 x00 x00 x00 x00)
(T (W x00 x00 x00 x00 x00 x00 x00 x00)
(L (W xff xff xff xff xff xff xff xff)) E)
(L (W x5c x00 x00 x00 x50 x00 x00 x00)))
(T (W x18 x00 x00 x00 x0c x00 x00 x00)
(T (W xff xff xff xff x9c x00 x00 x00)
(L (W xff xff xff xff xff xff xff xff)) E)
(L (W x74 x00 x00 x00 x68 x00 x00 x00))))
(T (W x00 x00 x80 x3f x00 x00 x80 x3f)
(T (W xff xff xff xff xff xff xff xff)
(T (W x00 x00 x00 x00 x00 x00 x00 x00)
(L (W x00 x00 x00 x00 x00 x00 x00 x00)) E)
(L (W xff xff xff xff xff xff xff xff)))
(T (W xff xff xff xff xff xff xff xff)
(L (W x02 x2e xfe xff x78 x00 x00 x00))
(L (W xff xff xff xff xff xff xff xff))))))
(T (W x00 x00 x00 x00 x00 x00 x00 x00)
(T (W x00 x00 x00 x00 x00 x00 x00 x00)
(T (W xff xff xff xff xff xff xff xff)
(T (W x00 x00 x00 x00 x00 x00 x00 x00)
(T (W x00 x00 x80 x3f x00 x00 x80 x3f)
(L (W xff xff xff xff xa0 x00 x00 x00)) E)
(L (W x35 x00 x00 x00 x38 x00 x00 x00)))
(T (W x00 x00 x00 x00 x00 x00 x00 x00)
(T (W x00 x00 x80 xbf x00 x00 x80 xbf)
(L (W x00 x00 x00 x00 x00 x00 x00 x00)) E)
(L (W x00 x00 x80 xbf x00 x00 x80 xbf))))
(T (W x00 x00 x80 x3f x00 x00 x80 x3f)
(T (W xcc x00 x00 x00 x01 x00 x00 x00)
(T (W x00 x00 x80 xbf x00 x00 x80 xbf)
(L (W x4f x84 x6f x8b xe8 xcb x63 xb7)) E)
(L (W x00 x00 x00 x00 x12 xa2 xfe xff)))
(T (W x18 x00 x00 x00 x10 x00 x00 x00)
(L (W x00 x00 x00 x00 x00 x00 x00 x00))
(L (W xff xff xff xff xff xff xff xff)))))
(T (W x00 x00 x00 x00 x04 x00 x00 x00)
(T (W xff xff xff xff xff xff xff xff)
(T (W x30 x35 x5f x43 x4c x45 x41 x52)
(T (W x45 x26 x22 x84 xe4 x9c xf2 xcb)
(L (W xff xff xff xff xff xff xff xff)) E)
(L (W xff xff xff xff xff xff xff xff)))
(T (W x80 x03 x00 x00 x54 x02 x00 x00)
(T (W xb0 x00 x00 x00 x64 x00 x00 x00)
(L (W xff xff xff xff xff xff xff xff)) E)
(L (W x00 x00 x80 xbf x00 x00 x80 xbf))))
(T (W x00 x00 x80 x3f x00 x00 x80 x3f)
(T (W x00 x00 x00 x00 x00 x00 x00 x00)
(T (W xff xff xff xff xff xff xff xff)
(L (W x18 x00 x00 x00 x0c x00 x00 x00)) E)
(L (W xff xff xff xff xff xff xff xff)))
(T (W xff xff xff xff xff xff xff xff)
(L (W x45 x26 x22 x84 xe4 x9c xf2 xcb))
(L (W x00 x00 x01 x01 xdd x00 x00 x00)))))))))
(T (W x00 x00 x80 x3f x00 x00 x80 x3f)
(T (W x40 x02 x00 x00 x28 x01 x00 x00)
(T (W xff xff xff xff x01 x00 x00 x00)
(T (W x23 x00 x00 x00 x0c x00 x00 x00)
(T (W x00 x00 x00 x00 x04 x00 x00 x00)
(T (W x64 x00 x00 x00 x9c x00 x00 x00)
(T (W x00 x00 x00 x00 x00 x00 x00 x00)
(T (W x68 x00 x00 x00 x5c x00 x00 x00)
(L (W xff xff xff xff xff xff xff xff)) E)
(L (W x45 x26 x22 x84 xe4 x9c xf2 xcb)))
(T (W x00 x00 x00 x00 x00 x00 x00 x00)
(T (W x00 x00 x00 x00 x9c xc5 xfd xff)
(L (W xff xff xff xff xff xff xff xff)) E)
(L (W xff xff xff xff xff xff xff xff))))
(T (W x00 x00 x80 x3f x00 x00 x80 x3f)
(T (W x04 x00 x00 x00 xfa x84 xfc xff)
(T (W x4a x82 xfd xff x74 x00 x00 x00)
(L (W xff xff xff xff xff xff xff xff)) E)
(L (W x00 x00 x00 x00 x9c x85 xfe xff)))
(T (W xff xff xff xff xff xff xff xff)
(L (W xcc x00 x00 x00 x01 x00 x00 x00))
(L (W x00 x00 x00 x00 x00 x00 x00 x00)))))
(T (W xff xff xff xff xff xff xff xff)
(T (W x00 x00 x00 x00 x9c xe5 xfb xff)
(T (W xff xff xff xff xff xff xff xff)
(T (W x00 x00 x00 x00 x00 x00 x00 x00)
(L (W x54 x00 x00 x00 x48 x00 x00 x00)) E)
(L (W x00 x00 x00 x00 x00 x00 x00 x00)))
(T (W x00 x00 x00 x00 x00 x00 x00 x00)
(T (W x00 x00 x80 xbf x00 x00 x80 xbf)
(L (W x00 x00 x80 xbf x00 x00 x80 xbf)) E)
(L (W x00 x00 x00 x00 x00 x00 x00 x00))))
(T (W x45 x26 x22 x84 xe4 x9c xf2 xcb)
(T (W x02 xa4 xfc xff x78 x00 x00 x00)
(T (W x00 x00 x80 xbf x00 x00 x80 xbf)
(L (W x00 x00 x00 x00 x00 x00 x00 x00)) E)
(L (W xff xff xff xff xff xff xff xff)))
(T (W x2c x27 xfd xff x00 x01 x01 x01)
(L (W xff xff xff xff xff xff xff xff))
(L (W xff xff xff xff xa0 x00 x00 x00))))))
(T (W x00 x00 x00 x00 x00 x00 x00 x00)
(T (W xb0 x01 x00 x00 xff xff xff xff)
(T (W x50 x00 x00 x00 x44 x00 x00 x00)
(T (W x41 x00 x00 x00 xff xff xff xff)
(T (W x45 x26 x22 x84 xe4 x9c xf2 xcb)
(L (W x00 x00 x00 x00 x00 x00 x00 x00)) E)
(L (W x00 x00 x00 x00 x00 x00 x00 x00)))
(T (W x18 x00 x00 x00 x10 x00 x00 x00)
(T (W xff xff xff xff x02 x00 x00 x00)
(L (W x45 x44 x00 x00 x00 x00 x00 x00)) E)
(L (W x06 x00 x00 x00 xc8 x05 x00 x00))))
(T (W x00 x00 x00 x00 x00 x00 x00 x00)
(T (W x00 x00 x00 x00 x00 x00 x00 x00)
(T (W x24 x00 x28 x00 x2c x00 x30 x00)
(L (W x00 x00 x00 x00 x00 x00 x00 x00)) E)
(L (W xb0 x00 x00 x00 x64 x00 x00 x00)))
(T (W x00 x00 x00 x00 x00 x00 x00 x00)
(L (W x00 x00 x01 x01 xef x00 x00 x00))
(L (W x18 x00 x00 x00 x10 x00 x00 x00)))))
(T (W xff xff xff xff xff xff xff xff)
(T (W x00 x00 x80 x3f x00 x00 x80 x3f)
(T (W xc4 x00 x00 x00 x01 x00 x00 x00)
(T (W x00 x00 x00 x00 x00 x00 x00 x00)
(L (W x45 x26 x22 x84 xe4 x9c xf2 xcb)) E)
(L (W x00 x00 x80 xbf x00 x00 x80 xbf)))
(T (W x00 x00 x80 x3f x00 x00 x80 x3f)
(T (W x00 x00 x80 xbf x00 x00 x80 xbf)
(L (W xff xff xff xff xff xff xff xff)) E)
(L (W x45 x26 x22 x84 xe4 x9c xf2 xcb))))
(T (W x00 x00 x00 x00 x00 x00 x00 x00)
(T (W xff xff xff xff xff xff xff xff)
(T (W x18 x00 x00 x00 x0c x00 x00 x00)
(L (W xff xff xff xff xff xff xff xff)) E)
(L (W x2c xb7 xfe xff x00 x01 x01 x01)))
(T (W x01 x00 x00 x00 xa0 x00 x00 x00)
(L (W x45 x26 x22 x84 xe4 x9c xf2 xcb))
(L (W xff xff xff xff xff xff xff xff)))))))
(T (W x3c x1e xe9 xe9 xf2 x23 x8d xf3)
(T (W x00 x00 x00 x00 x00 x00 x00 x00)
(T (W xff xff xff xff xff xff xff xff)
(T (W x2c xcf xfb xff x00 x01 x01 x01)
(T (W xbd xcd xeb xf8 x3c x9d xbe x88)
(T (W x00 x00 x80 x3f x00 x00 x80 x3f)
(L (W xff xff xff xff xff xff xff xff)) E)
(L (W x00 x00 x00 x00 x00 x00 x00 x00)))
(T (W x00 x00 x80 x3f x00 x00 x80 x3f)
(T (W xff xff xff xff xff xff xff xff)
(L (W x00 x00 x01 x01 xa8 x01 x00 x00)) E)
(L (W xff xff xff xff xff xff xff xff))))
(T (W x45 x26 x22 x84 xe4 x9c xf2 xcb)
(T (W x30 x35 x5f x43 x4c x45 x41 x52)
(T (W x4a x8a xfd xff x74 x00 x00 x00)
(L (W xff xff xff xff xff xff xff xff)) E)
(L (W x18 x00 x00 x00 x0c x00 x00 x00)))
(T (W x92 x45 x99 x81 x61 x09 x88 x67)
(L (W xff xff xff xff xff xff xff xff))
(L (W x00 x00 x80 xbf x00 x00 x80 xbf)))))
(T (W x64 x00 x00 x00 x9c x00 x00 x00)
(T (W x45 x26 x22 x84 xe4 x9c xf2 xcb)
(T (W x40 x00 x00 x00 x9c x00 x00 x00)
(T (W x02 xdd xff xff x00 x00 x01 x01)
(L (W x50 x00 x00 x00 x44 x00 x00 x00)) E)
(L (W x00 x00 x80 xbf x00 x00 x80 xbf)))
(T (W x00 x00 x80 x3f x00 x00 x80 x3f)
(T (W x00 x00 x80 xbf x00 x00 x80 xbf)
(L (W x00 x00 x80 xbf x00 x00 x80 xbf)) E)
(L (W x49 xa1 x68 x4a xeb x5f xdd x3d))))
(T (W x45 x26 x22 x84 xe4 x9c xf2 xcb)
(T (W x18 x00 x00 x00 x0c x00 x00 x00)
(T (W x00 x00 x01 x01 xf5 x01 x00 x00)
(L (W xff xff xff xff xff xff xff xff)) E)
(L (W x50 x00 x00 x00 x44 x00 x00 x00)))
(T (W x64 x00 x00 x00 x9c x00 x00 x00)
(L (W x00 x00 x00 x00 x00 x00 x00 x00))
(L (W xff xff xff xff xff xff xff xff))))))
(T (W x00 x00 x00 x00 x00 x00 x00 x00)
(T (W xff xff xff xff xff xff xff xff)
(T (W x4a xda xfb xff x74 x00 x00 x00)
(T (W xff xff xff xff xff xff xff xff)
(T (W x00 x00 x00 x00 x00 x00 x00 x00)
(L (W x00 x00 x00 x00 x00 x00 x00 x00)) E)
(L (W x49 xa1 x68 x4a xeb x5f xdd x3d)))
(T (W xff xff xff xff xff xff xff xff)
(T (W x00 x00 x00 x00 x00 x00 x00 x00)
(L (W x04 x00 x00 x00 x92 xe5 xff xff)) E)
(L (W x00 x00 x00 x00 x00 x00 x00 x00))))
(T (W x00 x00 x00 x00 x00 x00 x00 x00)
(T (W x00 x00 x80 x3f x00 x00 x80 x3f)
(T (W x00 x00 x60 x00 x00 x00 x00 x00)
(L (W x45 x44 x00 x00 x00 x00 x00 x00)) E)
(L (W xff xff xff xff xff xff xff xff)))
(T (W x00 x00 x80 x3f x00 x00 x80 x3f)
(L (W x45 x44 x00 x00 x00 x00 x00 x00))
(L (W x1c x00 x00 x00 x10 x00 x00 x00)))))
(T (W xff xff xff xff xff xff xff xff)
(T (W x00 x00 x80 x3f x00 x00 x80 x3f)
(T (W xff xff xff xff xff xff xff xff)
(T (W x00 x00 x80 x3f x00 x00 x80 x3f)
(L (W xff xff xff xff xa0 x00 x00 x00)) E)
(L (W x00 x00 x80 xbf x00 x00 x80 xbf)))
(T (W xc0 x00 x00 x00 x01 x00 x00 x00)
(T (W x50 x00 x00 x00 x44 x00 x00 x00)
(L (W x00 x00 x10 x00 x14 x00 x18 x00)) E)
(L (W x00 x00 x00 x00 x00 x00 x00 x00))))
(T (W x00 x00 x00 x00 x00 x00 x00 x00)
(T (W xff xff xff xff xff xff xff xff)
(T (W x45 x26 x22 x84 xe4 x9c xf2 xcb)
(L (W xff xff xff xff xff xff xff xff)) E)
(L (W x18 x00 x00 x00 x10 x00 x00 x00)))
(T (W x4a x3a xfd xff x74 x00 x00 x00)
(L (W x4f x84 x6f x8b xe8 xcb x63 xb7))
(L (W xff xff xff xff xff xff xff xff))))))))
(T (W x00 x00 x80 x3f x00 x00 x80 x3f)
(T (W x00 x00 x80 x3f x00 x00 x80 x3f)
(T (W x00 x00 x62 x00 x7c x00 x08 x00)
(T (W x00 x00 x80 x3f x00 x00 x80 x3f)
(T (W x45 x26 x22 x84 xe4 x9c xf2 xcb)
(T (W x45 x26 x22 x84 xe4 x9c xf2 xcb)
(T (W x02 xb9 xff xff x00 x00 x01 x01)
(L (W x49 xa1 x68 x4a xeb x5f xdd x3d)) E)
(L (W x18 x00 x00 x00 x10 x00 x00 x00)))
(T (W xff xff xff xff xff xff xff xff)
(T (W x00 x00 x00 x00 x00 x00 x00 x00)
(L (W x02 xc8 xff xff x78 x00 x00 x00)) E)
(L (W x00 x00 x00 x00 x00 x00 x00 x00))))
(T (W xff xff xff xff xff xff xff xff)
(T (W x00 x00 x80 x3f x00 x00 x80 x3f)
(T (W x00 x00 x00 x00 x00 x00 x00 x00)
(L (W x00 x00 x00 x00 x00 x00 x00 x00)) E)
(L (W x00 x00 x00 x00 x00 x00 x00 x00)))
(T (W x68 x00 x00 x00 x5c x00 x00 x00)
(L (W x00 x00 x00 x00 x00 x00 x00 x00))
(L (W xff xff xff xff xff xff xff xff)))))
(T (W x45 x26 x22 x84 xe4 x9c xf2 xcb)
(T (W x01 x00 x00 x00 x04 x00 x00 x00)
(T (W x00 x00 x80 x3f x00 x00 x80 x3f)
(T (W x68 x00 x00 x00 x5c x00 x00 x00)
(L (W xff xff xff xff xff xff xff xff)) E)
(L (W xff xff xff xff xff xff xff xff)))
(T (W xff xff xff xff xff xff xff xff)
(T (W xff xff xff xff xff xff xff xff)
(L (W xff xff xff xff xff xff xff xff)) E)
(L (W xb0 x00 x00 x00 x64 x00 x00 x00))))
(T (W xb8 x00 x00 x00 xac x00 x00 x00)
(T (W x45 x44 x00 x00 x00 x00 x00 x00)
(T (W x49 xa1 x68 x4a xeb x5f xdd x3d)
(L (W x00 x00 x80 xbf x00 x00 x80 xbf)) E)
(L (W x00 x00 x80 xbf x00 x00 x80 xbf)))
(T (W x00 x00 x00 x00 x00 x00 x00 x00)
(L (W x5c x00 x00 x00 x50 x00 x00 x00))
(L (W x46 x53 x59 x53 x5f x4e x53 x5f))))))
(T (W x50 x00 x00 x00 x44 x00 x00 x00)
(T (W x00 x00 x80 x3f x00 x00 x80 x3f)
(T (W x00 x00 x00 x00 x00 x00 x00 x00)
(T (W x00 x00 x80 x3f x00 x00 x80 x3f)
(T (W xff xff xff xff xff xff xff xff)
(L (W xff xff xff xff xff xff xff xff)) E)
(L (W xb0 x00 x00 x00 x64 x00 x00 x00)))
(T (W x00 x00 x00 x00 x00 x00 x00 x00)
(T (W x6c x00 x00 x00 x60 x00 x00 x00)
(L (W x44 x00 x00 x00 x00 x00 x80 xbf)) E)
(L (W x02 xd8 xfe xff x78 x00 x00 x00))))
(T (W xff xff xff xff xff xff xff xff)
(T (W xff xff xff xff xff xff xff xff)
(T (W x04 x00 x00 x00 x92 xa1 xfd xff)
(L (W x00 x00 x00 x00 x9c x99 xff xff)) E)
(L (W x4f x84 x6f x8b xe8 xcb x63 xb7)))
(T (W xff xff xff xff xff xff xff xff)
(L (W x50 x00 x00 x00 x44 x00 x00 x00))
(L (W x45 x44 x00 x00 x00 x00 x00 x00)))))
(T (W x00 x00 x00 x00 x00 x00 x00 x00)
(T (W xff xff xff xff xff xff xff xff)
(T (W x45 x26 x22 x84 xe4 x9c xf2 xcb)
(T (W x00 x00 x00 x00 x02 x00 x00 x00)
(L (W x00 x00 x00 x00 x00 x00 x00 x00)) E)
(L (W xff xff xff xff xff xff xff xff)))
(T (W x4c x45 x41 x52 x45 x44 x00 x00)
(T (W xff xff xff xff xff xff xff xff)
(L (W x64 x00 x08 x00 x00 x00 x00 x00)) E)
(L (W xff xff xff xff xff xff xff xff))))
(T (W x68 x00 x00 x00 x5c x00 x00 x00)
(T (W x00 x00 x80 x3f x00 x00 x80 x3f)
(T (W xff xff xff xff xff xff xff xff)
(L (W x00 x00 x00 x00 x00 x00 x00 x00)) E)
(L (W x24 x00 x00 x00 x0c x00 x00 x00)))
(T (W x00 x00 x00 x00 x00 x00 x00 x00)
(L (W x00 x00 x00 x00 x72 x3a xfe xff))
(L (W x00 x00 x00 x00 x12 x00 x00 x00)))))))
(T (W x02 x60 xfb xff x78 x00 x00 x00)
(T (W x45 x26 x22 x84 xe4 x9c xf2 xcb)
(T (W x00 x00 x80 x3f x00 x00 x80 x3f)
(T (W x00 x00 x00 x00 x00 x00 x00 x00)
(T (W x18 x00 x00 x00 x0c x00 x00 x00)
(T (W xff xff xff xff xff xff xff xff)
(L (W x4a x4e xff xff x74 x00 x00 x00)) E)
(L (W xff xff xff xff xff xff xff xff)))
(T (W xf7 xbf x06 xb0 x95 x50 xdf x46)
(T (W x45 x26 x22 x84 xe4 x9c xf2 xcb)
(L (W x50 x00 x00 x00 x44 x00 x00 x00)) E)
(L (W x54 x00 x00 x00 x48 x00 x00 x00))))
(T (W xff xff xff xff xff xff xff xff)
(T (W xff xff xff xff xb0 x00 x00 x00)
(T (W x00 x00 x80 x3f x00 x00 x80 x3f)
(L (W x00 x00 x80 xbf x00 x00 x80 xbf)) E)
(L (W x00 x00 x00 x00 x00 x00 x00 x00)))
(T (W x00 x00 x00 x00 x9c x11 xfd xff)
(L (W x00 x00 x80 xbf x00 x00 x80 xbf))
(L (W xff xff xff xff xff xff xff xff)))))
(T (W x00 x00 x00 x00 x00 x00 x00 x00)
(T (W xff xff xff xff xff xff xff xff)
(T (W x00 x00 x00 x00 x00 x00 x00 x00)
(T (W x00 x00 x80 x3f x00 x00 x80 x3f)
(L (W x30 x35 x5f x43 x4c x45 x41 x52)) E)
(L (W xff xff xff xff xff xff xff xff)))
(T (W x42 x47 xfd xff x00 x00 x01 x01)
(T (W x30 x35 x5f x43 x4c x45 x41 x52)
(L (W x00 x00 x00 x00 x00 x00 x00 x00)) E)
(L (W xff xff xff xff xff xff xff xff))))
(T (W x45 x26 x22 x84 xe4 x9c xf2 xcb)
(T (W x00 x00 x00 x00 x00 x00 x00 x00)
(T (W x18 x00 x00 x00 x10 x00 x00 x00)
(L (W x45 x26 x22 x84 xe4 x9c xf2 xcb)) E)
(L (W x00 x00 x00 x00 x00 x00 x00 x00)))
(T (W x00 x00 x00 x00 x00 x00 x00 x00)
(L (W xff xff xff xff xff xff xff xff))
(L (W x00 x00 x00 x00 x00 x00 x00 x00))))))
(T (W x00 x00 x80 x3f x00 x00 x80 x3f)
(T (W x00 x00 x80 x3f x00 x00 x80 x3f)
(T (W xc4 xe9 xfb xff x3e x00 x00 x00)
(T (W x54 x00 x00 x00 x48 x00 x00 x00)
(T (W x4a x5e xfd xff x74 x00 x00 x00)
(L (W xff xff xff xff xff xff xff xff)) E)
(L (W xff xff xff xff xff xff xff xff)))
(T (W x68 x00 x00 x00 x5c x00 x00 x00)
(T (W xff xff xff xff xbc x00 x00 x00)
(L (W x68 x00 x00 x00 x5c x00 x00 x00)) E)
(L (W xff xff xff xff xb0 x00 x00 x00))))
(T (W xff xff xff xff xff xff xff xff)
(T (W xff xff xff xff xff xff xff xff)
(T (W x03 x00 x00 x00 xbc x00 x00 x00)
(L (W xff xff xff xff xb0 x00 x00 x00)) E)
(L (W x00 x00 x00 x00 x00 x00 x00 x00)))
(T (W x00 x00 x00 x00 x00 x00 x00 x00)
(L (W x1c x00 x00 x00 x10 x00 x00 x00))
(L (W x0e xed x39 xdc x00 x62 x48 x2f)))))
(T (W x00 x00 x00 x00 x00 x00 x00 x00)
(T (W xff xff xff xff xff xff xff xff)
(T (W x00 x00 x80 x3f x00 x00 x80 x3f)
(T (W x00 x00 x00 x00 x00 x00 x00 x00)
(L (W x00 x00 x00 x00 x00 x00 x00 x00)) E)
(L (W xff xff xff xff xff xff xff xff)))
(T (W x00 x00 x80 x3f x00 x00 x80 x3f)
(T (W x00 x00 x00 x00 x00 x00 x00 x00)
(L (W x5c x00 x48 x00 x50 x00 x04 x00)) E)
(L (W xff xff xff xff xff xff xff xff))))
(T (W x2c x43 xfc xff x00 x01 x01 x01)
(T (W x00 x00 x80 x3f x00 x00 x80 x3f)
(T (W x00 x00 x00 x00 x00 x00 x00 x00)
(L (W x00 x00 x80 xbf x00 x00 x80 xbf)) E)
(L (W x46 x53 x59 x53 x5f x4e x53 x5f)))
(T (W x00 x00 x00 x00 x00 x00 x00 x00)
(L (W x03 x00 x00 x00 xd0 x00 x00 x00))
(L (W x00 x00 x00 x00 x00 x00 x00 x00))))))))))
(T (W x30 x48 x01 x00 xd4 x45 x01 x00)
(T (W x38 x17 x00 x00 xec x14 x00 x00)
(T (W xff xff xff xff xff xff xff xff)
(T (W xff xff xff xff xff xff xff xff)
(T (W xff xff xff xff xff xff xff xff)
(T (W xff xff xff xff xff xff xff xff)
(T (W x50 x00 x00 x00 x44 x00 x00 x00)
(T (W x43 x00 x00 x00 xff xff xff xff)
(T (W x00 x00 x80 x3f x00 x00 x80 x3f)
(L (W x03 x00 x00 x00 xd0 x00 x00 x00)) E)
(L (W x00 x00 x00 x00 x00 x00 x00 x00)))
(T (W x04 x00 x00 x00 x0a xcb xfc xff)
(T (W x00 x00 x80 x3f x00 x00 x80 x3f)
(L (W x03 x00 x00 x00 xd8 x00 x00 x00)) E)
(L (W x31 x00 x00 x00 x34 x00 x00 x00))))
(T (W x00 x00 x00 x00 x00 x00 x00 x00)
(T (W xff xff xff xff xff xff xff xff)
(T (W x00 x00 x80 x3f x00 x00 x80 x3f)
(L (W x50 x00 x00 x00 x44 x00 x00 x00)) E)
(L (W x00 x00 x80 xbf x00 x00 x80 xbf)))
(T (W xff xff xff xff xff xff xff xff)
(L (W x00 x00 x80 xbf x00 x00 x80 xbf))
(L (W x46 x53 x59 x53 x5f x4e x53 x5f)))))
(T (W x00 x00 x00 x00 x9c xa4 xfb xff)
(T (W x68 x00 x00 x00 x5c x00 x00 x00)
(T (W xff xff xff xff xff xff xff xff)
(T (W x02 xd4 xff xff x00 x00 x01 x01)
(L (W x00 x00 x00 x00 x00 x00 x00 x00)) E)
(L (W x30 x35 x5f x43 x4c x45 x41 x52)))
(T (W x4c x45 x41 x52 x45 x44 x00 x00)
(T (W x00 x00 x00 x00 x00 x00 x00 x00)
(L (W x00 x00 x00 x00 x00 x00 x00 x00)) E)
(L (W x00 x00 x00 x00 x00 x00 x00 x00))))
(T (W x00 x00 x00 x00 x00 x00 x00 x00)
(T (W x00 x00 x80 x3f x00 x00 x80 x3f)
(T (W x00 x00 x00 x00 x00 x00 x00 x00)
(L (W x00 x00 x00 x00 x0a xab xff xff)) E)
(L (W xff xff xff xff xb0 x00 x00 x00)))
(T (W x00 x00 x80 x3f x00 x00 x80 x3f)
(L (W xff xff xff xff xff xff xff xff))
(L (W x6c x00 x00 x00 x60 x00 x00 x00))))))
(T (W x4a x06 xff xff xf6 x01 x00 x00)
(T (W xff xff xff xff xff xff xff xff)
(T (W x00 x00 x80 x3f x00 x00 x80 x3f)
(T (W xff xff xff xff xff xff xff xff)
(T (W x00 x00 x00 x00 x00 x00 x00 x00)
(L (W xf5 xa1 xaa x28 xbf xd1 x56 x6a)) E)
(L (W x46 x53 x59 x53 x5f x4e x53 x5f)))
(T (W x00 x00 x80 x3f x00 x00 x80 x3f)
(T (W xff xff xff xff xff xff xff xff)
(L (W x00 x00 x01 x01 x5c x00 x00 x00)) E)
(L (W xff xff xff xff xff xff xff xff))))
(T (W x00 x00 x00 x00 x00 x00 x00 x00)
(T (W x30 x35 x5f x43 x4c x45 x41 x52)
(T (W x00 x00 x00 x00 x00 x00 x00 x00)
(L (W x64 x01 x00 x00 xff xff xff xff)) E)
(L (W x2c x96 xfe xff x00 x01 x01 x01)))
(T (W x00 x00 x00 x00 x00 x00 x00 x00)
(L (W xff xff xff xff xff xff xff xff))
(L (W x54 x00 x00 x00 x48 x00 x00 x00)))))
(T (W xbc x00 x00 x00 xb0 x00 x00 x00)
(T (W x00 x00 x80 x3f x00 x00 x80 x3f)
(T (W x00 x00 x80 x3f x00 x00 x80 x3f)
(T (W x5c x00 x00 x00 x00 x00 x00 x00)
(L (W x6c x00 x00 x00 x60 x00 x00 x00)) E)
(L (W x00 x00 x00 x00 x00 x00 x00 x00)))
(T (W x00 x00 x80 x3f x00 x00 x80 x3f)
(T (W x00 x00 x80 xbf x00 x00 x80 xbf)
(L (W x00 x00 x80 xbf x00 x00 x80 xbf)) E)
(L (W x00 x00 x00 x00 x00 x00 x00 x00))))
(T (W x00 x00 x00 x00 x00 x00 x00 x00)
(T (W x18 x00 x00 x00 x0c x00 x00 x00)
(T (W x00 x00 x00 x00 x00 x00 x00 x00)
(L (W xff xff xff xff xff xff xff xff)) E)
(L (W x54 x00 x00 x00 x48 x00 x00 x00)))
(T (W x00 x00 x80 x3f x00 x00 x80 x3f)
(L (W x00 x00 x00 x00 x00 x00 x00 x00))
(L (W x03 x00 x00 x00 xd0 x00 x00 x00)))))))
(T (W xff xff xff xff xff xff xff xff)
(T (W xf6 x01 x00 x00 xff xff xff xff)
(T (W xff xff xff xff xff xff xff xff)
(T (W x00 x00 x80 x3f x00 x00 x80 x3f)
(T (W xff xff xff xff xff xff xff xff)
(T (W x45 x26 x22 x84 xe4 x9c xf2 xcb)
(L (W xff xff xff xff xff xff xff xff)) E)
(L (W x00 x00 x00 x00 x00 x00 x00 x00)))
(T (W x00 x00 x00 x00 x00 x00 x00 x00)
(T (W x6c x00 x00 x00 x60 x00 x00 x00)
(L (W xff xff xff xff xff xff xff xff)) E)
(L (W x03 x00 x00 x00 xd8 x00 x00 x00))))
(T (W x00 x00 x00 x00 x00 x00 x00 x00)
(T (W x00 x00 x01 x01 xb4 x01 x00 x00)
(T (W x68 x00 x00 x00 x5c x00 x00 x00)
(L (W xcc x00 x00 x00 x01 x00 x00 x00)) E)
(L (W x02 x8b xfe xff x78 x00 x00 x00)))
(T (W xff xff xff xff xff xff xff xff)
(L (W x18 x00 x00 x00 x0c x00 x00 x00))
(L (W x45 x26 x22 x84 xe4 x9c xf2 xcb)))))
(T (W x18 x00 x00 x00 x0c x00 x00 x00)
(T (W x00 x00 x80 x3f x00 x00 x80 x3f)
(T (W x00 x00 x00 x00 x00 x00 x00 x00)
(T (W xff xff xff xff xff xff xff xff)
(L (W x00 x00 x80 xbf x00 x00 x80 xbf)) E)
(L (W x00 x00 x00 x00 x00 x00 x00 x00)))
(T (W x00 x00 x00 x00 x00 x00 x00 x00)
(T (W x4f x84 x6f x8b xe8 xcb x63 xb7)
(L (W x00 x00 x80 xbf x00 x00 x80 xbf)) E)
(L (W x00 x00 x00 x00 x00 x00 x00 x00))))
(T (W x00 x00 x00 x00 x00 x00 x00 x00)
(T (W x02 xab xfc xff x78 x00 x00 x00)
(T (W x32 x00 x00 x00 x35 x00 x00 x00)
(L (W xbc x00 x00 x00 x0a x00 x00 x00)) E)
(L (W x00 x00 x00 x00 x00 x00 x00 x00)))
(T (W x45 x26 x22 x84 xe4 x9c xf2 xcb)
(L (W x3e x00 x00 x00 x0c x00 x00 x00))
(L (W xff xff xff xff xa0 x00 x00 x00))))))
(T (W xc2 x0f xff xff x00 x00 x01 x01)
(T (W x64 x00 x00 x00 x9c x00 x00 x00)
(T (W x50 x00 x00 x00 x44 x00 x00 x00)
(T (W xff xff xff xff xff xff xff xff)
(T (W x00 x00 x00 x00 x00 x00 x00 x00)
(L (W x46 x53 x59 x53 x5f x4e x53 x5f)) E)
(L (W x00 x00 x00 x00 x00 x00 x00 x00)))
(T (W xff xff xff xff xff xff xff xff)
(T (W x73 x02 x00 x00 xff xff xff xff)
(L (W xff xff xff xff xff xff xff xff)) E)
(L (W xe4 x06 x00 x00 xc8 x05 x00 x00))))
(T (W x00 x00 x00 x00 x00 x00 x00 x00)
(T (W x45 x26 x22 x84 xe4 x9c xf2 xcb)
(T (W x50 x00 x00 x00 x44 x00 x00 x00)
(L (W xff xff xff xff xff xff xff xff)) E)
(L (W xff xff xff xff xff xff xff xff)))
(T (W x49 xa1 x68 x4a xeb x5f xdd x3d)
(L (W xff xff xff xff xff xff xff xff))
(L (W x98 x1c xff xff x82 x2a xff xff)))))
(T (W x2c xbe xfb xff x00 x01 x01 x01)
(T (W x45 x26 x22 x84 xe4 x9c xf2 xcb)
(T (W x18 x00 x00 x00 x0c x00 x00 x00)
(T (W x00 x00 x80 x3f x00 x00 x80 x3f)
(L (W x6c x00 x00 x00 x60 x00 x00 x00)) E)
(L (W x00 x00 x80 xbf x00 x00 x80 xbf)))
(T (W x45 x26 x22 x84 xe4 x9c xf2 xcb)
(T (W x00 x00 x80 xbf x00 x00 x80 xbf)
(L (W xff xff xff xff xff xff xff xff)) E)
(L (W x00 x00 x00 x00 x00 x00 x00 x00))))
(T (W x97 x7c x19 x96 xc1 x52 xa4 x47)
(T (W xff xff xff xff xff xff xff xff)
(T (W x00 x00 x80 x3f x00 x00 x80 x3f)
(L (W x2f x00 x00 x00 x32 x00 x00 x00)) E)
(L (W x6c x00 x00 x00 x60 x00 x00 x00)))
(T (W x68 x00 x00 x00 x5c x00 x00 x00)
(L (W x00 x00 x00 x00 x00 x00 x00 x00))
(L (W x35 x00 x00 x00 x38 x00 x00 x00))))))))
(T (W x45 x26 x22 x84 xe4 x9c xf2 xcb)
(T (W x00 x00 x80 x3f x00 x00 x80 x3f)
(T (W xff xff xff xff xff xff xff xff)
(T (W x45 x26 x22 x84 xe4 x9c xf2 xcb)
(T (W xc4 xd0 xfb xff x27 x00 x00 x00)
(T (W x4a x45 xfc xff x74 x00 x00 x00)
(T (W xff xff xff xff xff xff xff xff)
(L (W x00 x00 x00 x00 x00 x00 x00 x00)) E)
(L (W x54 x00 x00 x00 x48 x00 x00 x00)))
(T (W x00 x00 x00 x00 x9c xc8 xfc xff)
(T (W xff xff xff xff xff xff xff xff)
(L (W x00 x00 x00 x00 x00 x00 x00 x00)) E)
(L (W x46 x53 x59 x53 x5f x4e x53 x5f))))
(T (W xff xff xff xff xff xff xff xff)
(T (W x00 x00 x80 x3f x00 x00 x80 x3f)
(T (W x00 x00 x00 x00 x00 x00 x00 x00)
(L (W x46 x53 x59 x53 x5f x4e x53 x5f)) E)
(L (W xff xff xff xff xff xff xff xff)))
(T (W x00 x00 x00 x00 x00 x00 x00 x00)
(L (W x45 x44 x00 x00 x00 x00 x00 x00))
(L (W xff xff xff xff xb0 x00 x00 x00)))))
(T (W x00 x00 x00 x00 x00 x00 x00 x00)
(T (W xff xff xff xff xff xff xff xff)
(T (W x00 x00 x00 x00 x00 x00 x00 x00)
(T (W x00 x00 x80 x3f x00 x00 x80 x3f)
(L (W xff xff xff xff xff xff xff xff)) E)
(L (W xc4 x00 x00 x00 x02 x00 x00 x00)))
(T (W x3b x00 x00 x00 x3e x00 x00 x00)
(T (W xff xff xff xff xff xff xff xff)
(L (W x45 x26 x22 x84 xe4 x9c xf2 xcb)) E)
(L (W x2c xea xfe xff x00 x01 x01 x01))))
(T (W x68 x00 x00 x00 x5c x00 x00 x00)
(T (W xff xff xff xff xff xff xff xff)
(T (W x94 x04 x12 x3a xb1 x82 x66 xe3)
(L (W x00 x00 x80 xbf x00 x00 x80 xbf)) E)
(L (W x00 x00 x00 x00 x00 x00 x00 x00)))
(T (W x4c x45 x41 x52 x45 x44 x00 x00)
(L (W x4f x84 x6f x8b xe8 xcb x63 xb7))
(L (W x00 x00 x00 x00 x92 x30 xff xff))))))
(T (W x00 x00 x80 x3f x00 x00 x80 x3f)
(T (W x00 x00 x80 x3f x00 x00 x80 x3f)
(T (W x00 x00 x00 x00 x02 x00 x00 x00)
(T (W x00 x00 x80 x3f x00 x00 x80 x3f)
(T (W x4a x55 xfd xff x74 x00 x00 x00)
(L (W x3b x00 x00 x00 x3e x00 x00 x00)) E)
(L (W x2c x5a xfe xff x00 x01 x01 x01)))
(T (W x00 x00 x00 x00 x00 x00 x00 x00)
(T (W x00 x00 x80 x3f x00 x00 x80 xbf)
(L (W x00 x00 x80 xbf x00 x00 x80 xbf)) E)
(L (W x00 x00 x80 xbf x00 x00 x80 xbf))))
(T (W xff xff xff xff x04 x00 x00 x00)
(T (W xff xff xff xff xb0 x00 x00 x00)
(T (W xff xff xff xff xff xff xff xff)
(L (W x00 x00 x80 xbf x00 x00 x80 xbf)) E)
(L (W x00 x00 x00 x00 x00 x00 x00 x00)))
(T (W xb8 x00 x00 x00 x64 x00 x00 x00)
(L (W x00 x00 x80 xbf x00 x00 x80 xbf))
(L (W xff xff xff xff xff xff xff xff)))))
(T (W x00 x00 x00 x00 x00 x00 x00 x00)
(T (W xff xff xff xff xff xff xff xff)
(T (W x00 x00 x00 x00 x00 x00 x00 x00)
(T (W xff xff xff xff xff xff xff xff)
(L (W x00 x00 x00 x00 x00 x00 x00 x00)) E)
(L (W xff xff xff xff xff xff xff xff)))
(T (W x9c x01 x00 x00 xff xff xff xff)
(T (W xff xff xff xff xff xff xff xff)
(L (W xff xff xff xff xff xff xff xff)) E)
(L (W x03 x00 x00 x00 xc8 x00 x00 x00))))
(T (W x50 x00 x00 x00 x44 x00 x00 x00)
(T (W x00 x00 x00 x00 x00 x00 x00 x00)
(T (W x00 x00 x80 x3f x00 x00 x80 x3f)
(L (W x00 x00 x00 x00 x00 x00 x00 x00)) E)
(L (W xff xff xff xff xff xff xff xff)))
(T (W x00 x00 x00 x00 xca xc2 xff xff)
(L (W xff xff xff xff xff xff xff xff))
(L (W x00 x00 x00 x00 x12 x3b xff xff)))))))
(T (W x00 x00 x80 x3f x00 x00 x80 x3f)
(T (W x00 x00 x80 x3f x00 x00 x80 x3f)
(T (W x00 x00 x80 x3f x00 x00 x80 x3f)
(T (W x00 x00 x00 x00 x00 x00 x00 x00)
(T (W x00 x00 x80 x3f x00 x00 x80 x3f)
(T (W xff xff xff xff xff xff xff xff)
(L (W x00 x00 x80 xbf x00 x00 x80 xbf)) E)
(L (W x45 x26 x22 x84 xe4 x9c xf2 xcb)))
(T (W xff xff xff xff xff xff xff xff)
(T (W x00 x00 x00 x00 x00 x00 x00 x00)
(L (W x00 x00 x80 xbf x00 x00 x80 xbf)) E)
(L (W x00 x00 x00 x00 x00 x00 x00 x00))))
(T (W xb8 x00 x00 x00 xac x00 x00 x00)
(T (W x00 x00 x00 x00 x9c x90 xfc xff)
(T (W x70 x00 x08 x00 x68 x00 x0c x00)
(L (W x00 x00 x00 x00 x00 x00 x00 x00)) E)
(L (W xb2 xe4 xfe xff xd7 x00 x00 x00)))
(T (W x00 x00 x80 x3f x00 x00 x80 x3f)
(L (W x00 x00 x00 x00 x00 x00 x00 x00))
(L (W xff xff xff xff xc4 x00 x00 x00)))))
(T (W x00 x00 x00 x00 x00 x00 x00 x00)
(T (W xff xff xff xff xff xff xff xff)
(T (W x00 x00 x00 x00 x00 x00 x00 x00)
(T (W x45 x26 x22 x84 xe4 x9c xf2 xcb)
(L (W x00 x00 x01 x01 xbb x01 x00 x00)) E)
(L (W x45 x26 x22 x84 xe4 x9c xf2 xcb)))
(T (W xff xff xff xff xff xff xff xff)
(T (W x00 x00 x01 x01 xac x01 x00 x00)
(L (W xff xff xff xff xff xff xff xff)) E)
(L (W xff xff xff xff x94 x00 x00 x00))))
(T (W x00 x00 x80 x3f x00 x00 x80 x3f)
(T (W x45 x44 x00 x00 x00 x00 x00 x00)
(T (W x54 x00 x00 x00 x48 x00 x00 x00)
(L (W x00 x00 x00 x00 x00 x00 x00 x00)) E)
(L (W xc4 x06 x00 x00 xb0 x05 x00 x00)))
(T (W x39 x00 x00 x00 x0c x00 x00 x00)
(L (W x31 x00 x00 x00 x34 x00 x00 x00))
(L (W x30 x35 x5f x43 x4c x45 x41 x52))))))
(T (W x00 x00 x00 x00 x00 x00 x00 x00)
(T (W x00 x00 x00 x00 x00 x00 x00 x00)
(T (W xff xff xff xff xff xff xff xff)
(T (W x45 x26 x22 x84 xe4 x9c xf2 xcb)
(T (W x68 x00 x00 x00 x5c x00 x00 x00)
(L (W xff xff xff xff xff xff xff xff)) E)
(L (W xff xff xff xff xff xff xff xff)))
(T (W x00 x00 x80 x3f x00 x00 x80 x3f)
(T (W x45 x26 x22 x84 xe4 x9c xf2 xcb)
(L (W x00 x00 x80 xbf x00 x00 x80 xbf)) E)
(L (W x02 xdf xfe xff x78 x00 x00 x00))))
(T (W x45 x26 x22 x84 xe4 x9c xf2 xcb)
(T (W xff xff xff xff xff xff xff xff)
(T (W x68 x00 x00 x00 x5c x00 x00 x00)
(L (W x00 x00 x80 xbf x00 x00 x80 xbf)) E)
(L (W x00 x00 x00 x00 x12 x00 x00 x00)))
(T (W xff xff xff xff xff xff xff xff)
(L (W x00 x00 x80 xbf x00 x00 x80 xbf))
(L (W xff xff xff xff xff xff xff xff)))))
(T (W x00 x00 x00 x00 x00 x00 x00 x00)
(T (W xff xff xff xff xff xff xff xff)
(T (W x00 x00 x00 x00 x00 x00 x00 x00)
(T (W x18 x01 x00 x00 x04 x00 x00 x00)
(L (W x53 x83 xa7 x28 xbf x48 x53 x6a)) E)
(L (W xff xff xff xff xff xff xff xff)))
(T (W x00 x00 x00 x00 x00 x00 x00 x00)
(T (W xff xff xff xff xff xff xff xff)
(L (W x00 x00 x00 x00 x00 x00 x00 x00)) E)
(L (W x50 x00 x00 x00 x44 x00 x00 x00))))
(T (W x68 x00 x00 x00 x5c x00 x00 x00)
(T (W x00 x00 x80 x3f x00 x00 x80 x3f)
(T (W xd1 x01 x00 x00 xff xff xff xff)
(L (W x49 xa1 x68 x4a xeb x5f xdd x3d)) E)
(L (W x00 x00 x01 x01 xbe x00 x00 x00)))
(T (W x02 xb0 xff xff x00 x00 x01 x01)
(L (W xa4 x00 x00 x00 x05 x00 x00 x00))
(L (W x46 x53 x59 x53 x5f x4e x53 x5f)))))))))
(T (W x4a x47 xfb xff x74 x00 x00 x00)
(T (W x00 x00 x00 x00 x00 x00 x00 x00)
(T (W x00 x00 x00 x00 x00 x00 x00 x00)
(T (W x00 x00 x00 x00 x00 x00 x00 x00)
(T (W x00 x00 x00 x00 x00 x00 x00 x00)
(T (W xff xff xff xff xff xff xff xff)
(T (W x00 x00 x00 x00 x00 x00 x00 x00)
(T (W x4a x43 xfd xff x74 x00 x00 x00)
(L (W xff xff xff xff xff xff xff xff)) E)
(L (W x00 x00 x80 xbf x00 x00 x80 xbf)))
(T (W x00 x00 x00 x00 x00 x00 x00 x00)
(T (W xff xff xff xff xb0 x00 x00 x00)
(L (W x00 x00 x01 x01 xab x01 x00 x00)) E)
(L (W xff xff xff xff xff xff xff xff))))
(T (W x02 x05 xfc xff x78 x00 x00 x00)
(T (W x00 x00 x00 x00 x12 x00 x00 x00)
(T (W x00 x00 x00 x00 x9c x86 xfd xff)
(L (W xff xff xff xff xff xff xff xff)) E)
(L (W xff xff xff xff xb0 x00 x00 x00)))
(T (W x00 x00 x00 x00 x00 x00 x00 x00)
(L (W xff xff xff xff xff xff xff xff))
(L (W x00 x00 x80 xbf x00 x00 x80 xbf)))))
(T (W xff xff xff xff xff xff xff xff)
(T (W x18 x00 x00 x00 x0c x00 x00 x00)
(T (W x92 xd4 xfe xff x3f x00 x00 x00)
(T (W x00 x00 x00 x00 x00 x00 x00 x00)
(L (W x18 x00 x00 x00 x10 x00 x00 x00)) E)
(L (W x00 x00 x80 xbf x00 x00 x80 xbf)))
(T (W x49 xa1 x68 x4a xeb x5f xdd x3d)
(T (W x45 x26 x22 x84 xe4 x9c xf2 xcb)
(L (W x00 x00 x80 xbf x00 x00 x80 xbf)) E)
(L (W x00 x00 x80 xbf x00 x00 x80 xbf))))
(T (W x00 x00 x80 x3f x00 x00 x80 x3f)
(T (W x18 x00 x00 x00 x0c x00 x00 x00)
(T (W x45 x26 x22 x84 xe4 x9c xf2 xcb)
(L (W x00 x00 x00 x00 x00 x00 x00 x00)) E)
(L (W xff xff xff xff xff xff xff xff)))
(T (W xb0 x00 x00 x00 x64 x00 x00 x00)
(L (W x00 x00 x00 x00 x00 x00 x00 x00))
(L (W xff xff xff xff xff xff xff xff))))))
(T (W x00 x00 x00 x00 x00 x00 x00 x00)
(T (W x00 x00 x00 x00 x00 x00 x00 x00)
(T (W x64 x00 x00 x00 x9c x00 x00 x00)
(T (W x00 x00 x00 x00 x00 x00 x00 x00)
(T (W x00 x00 x80 x3f x00 x00 x80 x3f)
(L (W x45 x26 x22 x84 xe4 x9c xf2 xcb)) E)
(L (W x4f x84 x6f x8b xe8 xcb x63 xb7)))
(T (W xff xff xff xff xff xff xff xff)
(T (W x00 x00 x00 x00 x00 x00 x00 x00)
(L (W x00 x00 x00 x00 x00 x00 x00 x00)) E)
(L (W x00 x00 x00 x00 x00 x00 x00 x00))))
(T (W x00 x00 x80 x3f x00 x00 x80 x3f)
(T (W x00 x00 x80 x3f x00 x00 x80 x3f)
(T (W x00 x00 x80 x3f x00 x00 x80 x3f)
(L (W x00 x00 x00 x00 x00 x00 x00 x00)) E)
(L (W xff xff xff xff xff xff xff xff)))
(T (W x45 x26 x22 x84 xe4 x9c xf2 xcb)
(L (W x30 x35 x5f x43 x4c x45 x41 x52))
(L (W x03 x00 x00 x00 xd0 x00 x00 x00)))))
(T (W xc2 x49 xff xff x00 x00 x01 x01)
(T (W x01 x00 x00 x00 x1b x00 x00 x00)
(T (W xff xff xff xff xff xff xff xff)
(T (W x45 x26 x22 x84 xe4 x9c xf2 xcb)
(L (W xff xff xff xff xbc x00 x00 x00)) E)
(L (W x00 x00 x80 xbf x00 x00 x80 xbf)))
(T (W x03 x00 x00 x00 xd4 x00 x00 x00)
(T (W x00 x00 x00 x00 x9c xf6 xfd xff)
(L (W x00 x00 x00 x00 x0a xfd xff xff)) E)
(L (W x00 x00 x80 xbf x00 x00 x80 xbf))))
(T (W x00 x00 x80 x3f x00 x00 x80 x3f)
(T (W x00 x00 x01 x01 x6a x01 x00 x00)
(T (W x6b x65 x5f x6f x79 x61 x62 x75)
(L (W xff xff xff xff xff xff xff xff)) E)
(L (W xb4 x00 x00 x00 x64 x00 x00 x00)))
(T (W xff xff xff xff xff xff xff xff)
(L (W x54 x00 x00 x00 x48 x00 x00 x00))
(L (W xff xff xff xff xff xff xff xff)))))))
(T (W x00 x00 x00 x00 x00 x00 x00 x00)
(T (W x00 x00 x00 x00 x00 x00 x00 x00)
(T (W xc4 x96 xfb xff x1e x00 x00 x00)
(T (W xff xff xff xff xff xff xff xff)
(T (W x00 x00 x00 x00 x00 x00 x00 x00)
(T (W x68 x00 x00 x00 x5c x00 x00 x00)
(L (W x45 x44 x00 x00 x00 x00 x00 x00)) E)
(L (W x00 x00 x80 xbf x00 x00 x80 xbf)))
(T (W x68 x00 x00 x00 x5c x00 x00 x00)
(T (W xd2 x01 x00 x00 xff xff xff xff)
(L (W x46 x53 x59 x53 x5f x4e x53 x5f)) E)
(L (W x00 x00 x01 x01 xcb x01 x00 x00))))
(T (W x00 x00 x80 x3f x00 x00 x80 x3f)
(T (W x00 x00 x00 x00 x00 x00 x00 x00)
(T (W xff xff xff xff xff xff xff xff)
(L (W xff xff xff xff xff xff xff xff)) E)
(L (W xff xff xff xff xff xff xff xff)))
(T (W x00 x00 x00 x00 x00 x00 x00 x00)
(L (W xff xff xff xff xff xff xff xff))
(L (W x54 x00 x00 x00 x48 x00 x00 x00)))))
(T (W xff xff xff xff xff xff xff xff)
(T (W x40 x00 x00 x00 x9c x00 x00 x00)
(T (W x00 x00 x00 x00 x00 x00 x00 x00)
(T (W x00 x00 x00 x00 x00 x00 x00 x00)
(L (W x03 x00 x00 x00 xd8 x00 x00 x00)) E)
(L (W x00 x00 x80 xbf x00 x00 x80 xbf)))
(T (W x4a xeb xfc xff x74 x00 x00 x00)
(T (W x6c x00 x00 x00 x60 x00 x00 x00)
(L (W xff xff xff xff xff xff xff xff)) E)
(L (W x00 x00 x80 xbf x00 x00 x80 xbf))))
(T (W x00 x00 x80 x3f x00 x00 x80 x3f)
(T (W xff xff xff xff xff xff xff xff)
(T (W x30 x34 x5f x43 x4c x45 x41 x52)
(L (W x5d x00 x00 x00 xff xff xff xff)) E)
(L (W xc4 x00 x00 x00 x01 x00 x00 x00)))
(T (W xff xff xff xff xff xff xff xff)
(L (W x45 x26 x22 x84 xe4 x9c xf2 xcb))
(L (W xff xff xff xff xff xff xff xff))))))
(T (W x00 x00 x00 x00 x00 x00 x00 x00)
(T (W x00 x00 x00 x00 x02 x00 x00 x00)
(T (W x00 x00 x00 x00 x9c xde xfb xff)
(T (W xe5 x0d x71 x15 xe5 x35 xd9 x87)
(T (W x45 x26 x22 x84 xe4 x9c xf2 xcb)
(L (W x6c x00 x00 x00 x60 x00 x00 x00)) E)
(L (W x00 x00 x80 xbf x00 x00 x80 xbf)))
(T (W xc4 xe6 xfc xff x24 x00 x00 x00)
(T (W x4f x84 x6f x8b xe8 xcb x63 xb7)
(L (W x46 x53 x59 x53 x5f x4e x53 x5f)) E)
(L (W x00 x00 x80 xbf x00 x00 x80 xbf))))
(T (W x45 x26 x22 x84 xe4 x9c xf2 xcb)
(T (W x00 x00 x80 x3f x00 x00 x80 x3f)
(T (W x00 x00 x00 x00 x00 x00 x00 x00)
(L (W x00 x00 x00 x00 x00 x00 x00 x00)) E)
(L (W xa9 x01 x00 x00 xff xff xff xff)))
(T (W x68 x00 x00 x00 x5c x00 x00 x00)
(L (W x00 x00 x00 x00 x00 x00 x00 x00))
(L (W xff xff xff xff xb8 x00 x00 x00)))))
(T (W xff xff xff xff xff xff xff xff)
(T (W x68 x00 x00 x00 x5c x00 x00 x00)
(T (W x00 x00 x01 x01 xc8 x02 x00 x00)
(T (W x2c x80 xfd xff x00 x01 x01 x01)
(L (W xff xff xff xff xff xff xff xff)) E)
(L (W x68 x00 x00 x00 x5c x00 x00 x00)))
(T (W xff xff xff xff xff xff xff xff)
(T (W x2c x00 xfe xff x00 x01 x01 x01)
(L (W x00 x00 x80 xbf x00 x00 x80 xbf)) E)
(L (W x45 x26 x22 x84 xe4 x9c xf2 xcb))))
(T (W x00 x00 x00 x00 x00 x00 x00 x00)
(T (W x45 x44 x00 x00 x00 x00 x00 x00)
(T (W xff xff xff xff xc0 x00 x00 x00)
(L (W xff xff xff xff xff xff xff xff)) E)
(L (W x03 x00 x00 x00 xd8 x00 x00 x00)))
(T (W xff xff xff xff xff xff xff xff)
(L (W x00 x00 x80 xbf x00 x00 x80 xbf))
(L (W xff xff xff xff xff xff xff xff))))))))
(T (W x68 x00 x00 x00 x5c x00 x00 x00)
(T (W x00 x00 x80 x3f x00 x00 x80 x3f)
(T (W x00 x00 x80 x3f x00 x00 x80 x3f)
(T (W x50 x00 x00 x00 x44 x00 x00 x00)
(T (W x00 x00 x80 x3f x00 x00 x80 x3f)
(T (W x01 x00 x00 x00 x9c x00 x00 x00)
(T (W x00 x00 x00 x00 x00 x00 x00 x00)
(L (W x00 x00 x80 xbf x00 x00 x80 xbf)) E)
(L (W xff xff xff xff xff xff xff xff)))
(T (W xff xff xff xff xff xff xff xff)
(T (W x00 x00 x00 x00 x00 x00 x00 x00)
(L (W x35 x00 x00 x00 x38 x00 x00 x00)) E)
(L (W x00 x00 x80 xbf x00 x00 x80 xbf))))
(T (W x02 x7a xfe xff x00 x00 x01 x01)
(T (W xff xff xff xff xb0 x00 x00 x00)
(T (W x45 x26 x22 x84 xe4 x9c xf2 xcb)
(L (W x00 x00 x80 xbf x00 x00 x80 xbf)) E)
(L (W x00 x00 x00 x00 x00 x00 x00 x00)))
(T (W xff xff xff xff x9c x00 x00 x00)
(L (W x00 x00 x80 xbf x00 x00 x80 xbf))
(L (W x54 x02 x00 x00 x38 x01 x00 x00)))))
(T (W x68 x00 x00 x00 x5c x00 x00 x00)
(T (W x00 x00 x00 x00 x00 x00 x00 x00)
(T (W x2c x6c xfc xff x00 x01 x01 x01)
(T (W x4a x67 xfd xff x74 x00 x00 x00)
(L (W x45 x44 x00 x00 x00 x00 x00 x00)) E)
(L (W x74 x04 x00 x00 x68 x03 x00 x00)))
(T (W xff xff xff xff xff xff xff xff)
(T (W x45 x44 x00 x00 x00 x00 x00 x00)
(L (W x45 x44 x00 x00 x00 x00 x00 x00)) E)
(L (W xff xff xff xff xff xff xff xff))))
(T (W xff xff xff xff xff xff xff xff)
(T (W x00 x00 x00 x00 x00 x00 x00 x00)
(T (W x00 x00 x80 x3f x00 x00 x80 x3f)
(L (W x64 x00 x68 x00 x00 x00 x00 x00)) E)
(L (W x68 x00 x00 x00 x5c x00 x00 x00)))
(T (W x49 xa1 x68 x4a xeb x5f xdd x3d)
(L (W x44 x00 x4c x00 x04 x00 x08 x00))
(L (W x00 x00 x00 x00 x00 x00 x00 x00))))))
(T (W xbc x00 x00 x00 xb0 x00 x00 x00)
(T (W x00 x00 x80 x3f x00 x00 x80 x3f)
(T (W x00 x00 x00 x00 x00 x00 x00 x00)
(T (W xc0 x00 x00 x00 xb4 x00 x00 x00)
(T (W xff xff xff xff xff xff xff xff)
(L (W xff xff xff xff xff xff xff xff)) E)
(L (W xff xff xff xff xff xff xff xff)))
(T (W x00 x00 x80 x3f x00 x00 x80 x3f)
(T (W x18 x00 x00 x00 x10 x00 x00 x00)
(L (W x45 x26 x22 x84 xe4 x9c xf2 xcb)) E)
(L (W xff xff xff xff xb0 x00 x00 x00))))
(T (W x20 x01 x00 x00 x04 x00 x00 x00)
(T (W x04 x00 x00 x00 xfa x99 xfc xff)
(T (W x00 x00 x00 x00 x00 x00 x00 x00)
(L (W x1d x00 x00 x00 x20 x00 x00 x00)) E)
(L (W x00 x00 x80 xbf x00 x00 x80 xbf)))
(T (W xff xff xff xff xff xff xff xff)
(L (W xff xff xff xff xff xff xff xff))
(L (W x00 x00 x00 x00 x00 x00 x00 x00)))))
(T (W x00 x00 x00 x00 x00 x00 x00 x00)
(T (W x01 x00 x00 x00 x04 x00 x00 x00)
(T (W x00 x00 x80 x3f x00 x00 x80 x3f)
(T (W x00 x00 x00 x00 x00 x00 x00 x00)
(L (W x00 x00 x00 x00 x00 x00 x00 x00)) E)
(L (W x34 x00 x00 x00 x0c x00 x00 x00)))
(T (W x00 x00 x00 x00 x00 x00 x00 x00)
(T (W x00 x00 x00 x00 x0a x01 xfe xff)
(L (W x00 x00 x80 xbf x00 x00 x80 xbf)) E)
(L (W xff xff xff xff xff xff xff xff))))
(T (W xb8 x00 x00 x00 xac x00 x00 x00)
(T (W x00 x00 x80 x3f x00 x00 x80 x3f)
(T (W x67 x72 x6f x75 x70 x5f x6c x65)
(L (W x45 x26 x22 x84 xe4 x9c xf2 xcb)) E)
(L (W x49 xa1 x68 x4a xeb x5f xdd x3d)))
(T (W x45 x26 x22 x84 xe4 x9c xf2 xcb)
(L (W x00 x00 x00 x00 x00 x00 x00 x00))
(L (W x00 x00 x00 x00 x00 x00 x00 x00)))))))
(T (W x18 x00 x00 x00 x0c x00 x00 x00)
(T (W x64 x00 x00 x00 x9c x00 x00 x00)
(T (W x00 x00 x80 x3f x00 x00 x80 x3f)
(T (W x00 x00 x80 x3f x00 x00 x80 x3f)
(T (W x0a x00 x00 x00 x3c x00 x00 x00)
(T (W x02 xc2 xff xff x00 x00 x01 x01)
(L (W xff xff xff xff xff xff xff xff)) E)
(L (W x00 x00 x00 x00 x72 x53 xfe xff)))
(T (W x00 x00 x00 x00 x00 x00 x00 x00)
(T (W x50 x00 x00 x00 x44 x00 x00 x00)
(L (W xff xff xff xff xff xff xff xff)) E)
(L (W x18 x00 x00 x00 x10 x00 x00 x00))))
(T (W x00 x00 x00 x00 x00 x00 x00 x00)
(T (W xff xff xff xff xff xff xff xff)
(T (W xff xff xff xff xff xff xff xff)
(L (W x00 x00 x80 xbf x00 x00 x80 xbf)) E)
(L (W x00 x00 x80 xbf x00 x00 x80 xbf)))
(T (W xff xff xff xff xff xff xff xff)
(L (W x00 x00 x80 xbf x00 x00 x80 xbf))
(L (W x30 x35 x5f x43 x4c x45 x41 x52)))))
(T (W x00 x00 x80 x3f x00 x00 x80 x3f)
(T (W x94 xf7 xfb xff x11 x00 x00 x00)
(T (W xff xff xff xff xff xff xff xff)
(T (W x68 x00 x00 x00 x5c x00 x00 x00)
(L (W x00 x00 x00 x00 x00 x00 x00 x00)) E)
(L (W xff xff xff xff xff xff xff xff)))
(T (W x12 x00 x00 x00 x46 x53 x59 x53)
(T (W x00 x00 x00 x00 x00 x00 x00 x00)
(L (W x00 x00 x00 x00 x00 x00 x00 x00)) E)
(L (W x6a x01 x00 x00 xff xff xff xff))))
(T (W xff xff xff xff xff xff xff xff)
(T (W x00 x00 x80 x3f x00 x00 x80 x3f)
(T (W xff xff xff xff xff xff xff xff)
(L (W x00 x00 x80 xbf x00 x00 x80 xbf)) E)
(L (W x45 x26 x22 x84 xe4 x9c xf2 xcb)))
(T (W x00 x00 x00 x00 x00 x00 x00 x00)
(L (W xff xff xff xff xff xff xff xff))
(L (W x00 x00 x80 xbf x00 x00 x80 xbf))))))
(T (W x2c x84 xfb xff x00 x01 x01 x01)
(T (W x50 x00 x00 x00 x44 x00 x00 x00)
(T (W x00 x00 x00 x00 x00 x00 x00 x00)
(T (W x4a x5f xfc xff x74 x00 x00 x00)
(T (W xff xff xff xff xff xff xff xff)
(L (W xff xff xff xff xff xff xff xff)) E)
(L (W xff xff xff xff xff xff xff xff)))
(T (W xb0 x00 x00 x00 x64 x00 x00 x00)
(T (W xff xff xff xff xff xff xff xff)
(L (W xff xff xff xff xff xff xff xff)) E)
(L (W xff xff xff xff xff xff xff xff))))
(T (W xff xff xff xff xff xff xff xff)
(T (W x45 x44 x00 x00 x00 x00 x00 x00)
(T (W xff xff xff xff xff xff xff xff)
(L (W xff xff xff xff xff xff xff xff)) E)
(L (W x00 x00 x80 xbf x00 x00 x80 xbf)))
(T (W x00 x00 x00 x00 x00 x00 x00 x00)
(L (W xff xff xff xff xb8 x00 x00 x00))
(L (W x4f x84 x6f x8b xe8 xcb x63 xb7)))))
(T (W x45 x26 x22 x84 xe4 x9c xf2 xcb)
(T (W xff xff xff xff xff xff xff xff)
(T (W x00 x00 x00 x00 x9c x82 xfc xff)
(T (W x00 x00 x00 x00 x00 x00 x00 x00)
(L (W x45 x26 x22 x84 xe4 x9c xf2 xcb)) E)
(L (W x45 x44 x00 x00 x00 x00 x00 x00)))
(T (W x00 x00 x80 x3f x00 x00 x80 x3f)
(T (W x00 x00 x00 x00 x00 x00 x00 x00)
(L (W x38 x00 x3c x00 x40 x00 x44 x00)) E)
(L (W xff xff xff xff xff xff xff xff))))
(T (W x45 x26 x22 x84 xe4 x9c xf2 xcb)
(T (W x18 x00 x00 x00 x10 x00 x00 x00)
(T (W x00 x00 x00 x00 x00 x00 x00 x00)
(L (W x6c x00 x00 x00 x60 x00 x00 x00)) E)
(L (W x00 x00 x00 x00 x00 x00 x00 x00)))
(T (W x00 x00 x00 x00 x00 x00 x00 x00)
(L (W xff xff xff xff xff xff xff xff))
(L (W x00 x00 x80 xbf x00 x00 x80 xbf))))))))))))
(T (W x00 x8d x03 x00 x44 x88 x03 x00)
(T (W x38 xe8 x02 x00 x5c xe3 x02 x00)
(T (W x58 x18 x02 x00 x14 x16 x02 x00)
(T (W xa0 xcf x00 x00 x6c xce x00 x00)
(T (W x00 x00 x01 x01 xc9 x02 x00 x00)
(T (W xff xff xff xff xff xff xff xff)
(T (W x01 x00 x00 x00 xff xff xff xff)
(T (W x1c x01 x00 x00 x04 x00 x00 x00)
(T (W x0a xc0 xfb xff x74 x00 x00 x00)
(T (W x01 x00 x00 x00 x04 x00 x00 x00)
(T (W x68 x00 x00 x00 x5c x00 x00 x00)
(L (W xb8 x00 x00 x00 x64 x00 x00 x00)) E)
(L (W x00 x00 x00 x00 x00 x00 x00 x00)))
(T (W x2e x35 x73 x5a x2d x2a xf3 x16)
(T (W xc2 xc1 xfd xff x78 x00 x00 x00)
(L (W xff xff xff xff xff xff xff xff)) E)
(L (W xff xff xff xff xff xff xff xff))))
(T (W x00 x00 x00 x00 x00 x00 x00 x00)
(T (W xff xff xff xff xff xff xff xff)
(T (W x0a x80 xfd xff x74 x00 x00 x00)
(L (W x45 x26 x22 x84 xe4 x9c xf2 xcb)) E)
(L (W x00 x00 x80 xbf x00 x00 x80 xbf)))
(T (W xff xff xff xff xff xff xff xff)
(T (W xec x04 xfe xff x00 x01 x01 x01)
(L (W x08 x00 x0c x00 x10 x00 x14 x00)) E)
(L (W x00 x00 x00 x00 x00 x00 x00 x00)))))
(T (W xff xff xff xff xff xff xff xff)
(T (W x50 x00 x00 x00 x44 x00 x00 x00)
(T (W x20 x01 x00 x00 x04 x00 x00 x00)
(T (W x00 x00 x00 x00 x00 x00 x00 x00)
(L (W x49 xa1 x68 x4a xeb x5f xdd x3d)) E)
(L (W x00 x00 x00 x00 x00 x00 x00 x00)))
(T (W x84 xeb xfc xff x10 x00 x00 x00)
(T (W x00 x00 x00 x00 x00 x00 x00 x00)
(L (W x30 x35 x5f x43 x4c x45 x41 x52)) E)
(L (W x00 x00 x00 x00 x00 x00 x00 x00))))
(T (W x00 x00 x00 x00 x00 x00 x00 x00)
(T (W x00 x00 x80 x3f x00 x00 x80 x3f)
(T (W x00 x00 x00 x00 x00 x00 x00 x00)
(L (W x00 x00 x00 x00 x00 x00 x00 x00)) E)
(L (W xff xff xff xff x94 x00 x00 x00)))
(T (W x00 x00 x80 x3f x00 x00 x80 x3f)
(L (W x00 x00 x00 x00 x4a x2e xfe xff))
(L (W x18 x00 x00 x00 x10 x00 x00 x00))))))
(T (W x10 x00 x00 x00 x10 x00 x00 x00)
(T (W xff xff xff xff xff xff xff xff)
(T (W x18 x00 x00 x00 x10 x00 x00 x00)
(T (W xc2 xc2 xfe xff x00 x00 x01 x01)
(T (W x45 x26 x22 x84 xe4 x9c xf2 xcb)
(L (W x30 x35 x5f x43 x4c x45 x41 x52)) E)
(L (W x45 x26 x22 x84 xe4 x9c xf2 xcb)))
(T (W x68 x00 x00 x00 x5c x00 x00 x00)
(T (W xff xff xff xff xff xff xff xff)
(L (W x00 x00 x00 x00 x12 x00 x00 x00)) E)
(L (W xff xff xff xff xff xff xff xff))))
(T (W x00 x00 x80 x3f x00 x00 x80 x3f)
(T (W x00 x00 x00 x00 x00 x00 x00 x00)
(T (W x00 x00 x00 x00 x00 x00 x00 x00)
(L (W x54 x02 x00 x00 x38 x01 x00 x00)) E)
(L (W xbc x00 x00 x00 x32 x00 x00 x00)))
(T (W x00 x00 x00 x00 x00 x00 x00 x00)
(L (W xff xff xff xff xff xff xff xff))
(L (W x00 x00 x80 xbf x00 x00 x80 xbf)))))
(T (W xff xff xff xff x04 x00 x00 x00)
(T (W x00 x00 x80 x3f x00 x00 x80 x3f)
(T (W x00 x00 x00 x00 x00 x00 x00 x00)
(T (W xff xff xff xff xff xff xff xff)
(L (W x18 x00 x00 x00 x0c x00 x00 x00)) E)
(L (W x00 x00 x00 x00 x00 x00 x00 x00)))
(T (W x50 x00 x00 x00 x44 x00 x00 x00)
(T (W x54 x00 x00 x00 x48 x00 x00 x00)
(L (W x00 x01 x01 x01 x4a xfc xff xff)) E)
(L (W x45 x26 x22 x84 xe4 x9c xf2 xcb))))
(T (W x00 x00 x00 x00 x00 x00 x00 x00)
(T (W xff xff xff xff xff xff xff xff)
(T (W x00 x00 x00 x00 x00 x00 x00 x00)
(L (W xff xff xff xff xc4 x00 x00 x00)) E)
(L (W x45 x26 x22 x84 xe4 x9c xf2 xcb)))
(T (W x01 x00 x00 x00 x9c x00 x00 x00)
(L (W x00 x00 x00 x00 x00 x00 x00 x00))
(L (W x1d x00 x00 x00 x20 x00 x00 x00)))))))
(T (W xff xff xff xff xff xff xff xff)
(T (W x54 x00 x58 x00 x5c x00 x00 x00)
(T (W xff xff xff xff xff xff xff xff)
(T (W x45 x26 x22 x84 xe4 x9c xf2 xcb)
(T (W xff xff xff xff xff xff xff xff)
(T (W x00 x00 x80 x3f x00 x00 x80 x3f)
(L (W xff xff xff xff xff xff xff xff)) E)
(L (W x00 x00 x00 x00 x00 x00 x00 x00)))
(T (W x00 x00 x00 x00 x00 x00 x00 x00)
(T (W x18 x00 x00 x00 x0c x00 x00 x00)
(L (W x00 x00 x00 x00 x52 xd3 xff xff)) E)
(L (W xb8 x00 x00 x00 x64 x00 x00 x00))))
(T (W x45 x26 x22 x84 xe4 x9c xf2 xcb)
(T (W x00 x00 x00 x00 x00 x00 x00 x00)
(T (W x0a x88 xfd xff x74 x00 x00 x00)
(L (W x31 x00 x00 x00 x34 x00 x00 x00)) E)
(L (W x18 x00 x00 x00 x0c x00 x00 x00)))
(T (W x9c x01 x00 x00 xff xff xff xff)
(L (W xff xff xff xff xff xff xff xff))
(L (W x00 x00 x80 xbf x00 x00 x80 xbf)))))
(T (W xff xff xff xff xff xff xff xff)
(T (W x6c x00 x00 x00 x60 x00 x00 x00)
(T (W x18 x00 x1c x00 x20 x00 x24 x00)
(T (W xc2 xda xff xff x00 x00 x01 x01)
(L (W x00 x00 x80 xbf x00 x00 x80 xbf)) E)
(L (W x00 x00 x80 xbf x00 x00 x80 xbf)))
(T (W x00 x00 x00 x00 x00 x00 x00 x00)
(T (W x00 x00 x80 xbf x00 x00 x80 xbf)
(L (W x00 x00 x80 xbf x00 x00 x80 xbf)) E)
(L (W x49 xa1 x68 x4a xeb x5f xdd x3d))))
(T (W x00 x00 x00 x00 x00 x00 x00 x00)
(T (W x18 x00 x00 x00 x0c x00 x00 x00)
(T (W xff xff xff xff xff xff xff xff)
(L (W x00 x00 x80 xbf x00 x00 x80 xbf)) E)
(L (W x48 x00 x4c x00 x50 x00 x54 x00)))
(T (W x18 x00 x00 x00 x10 x00 x00 x00)
(L (W x00 x00 x00 x00 x00 x00 x00 x00))
(L (W x03 x00 x00 x00 xd8 x00 x00 x00))))))
(T (W x00 x00 x00 x00 x22 x10 xff xff)
(T (W xff xff xff xff xff xff xff xff)
(T (W x3e x00 x00 x00 x9c x00 x00 x00)
(T (W x00 x00 x00 x00 x00 x00 x00 x00)
(T (W x00 x00 x00 x00 x00 x00 x00 x00)
(L (W x00 x00 x00 x00 x00 x00 x00 x00)) E)
(L (W x00 x00 x00 x00 x00 x00 x00 x00)))
(T (W xff xff xff xff xff xff xff xff)
(T (W x18 x65 xca xc9 x03 x8c xa3 xbc)
(L (W xff xff xff xff xff xff xff xff)) E)
(L (W x00 x00 x00 x00 x00 x00 x00 x00))))
(T (W x00 x00 x80 x3f x00 x00 x80 x3f)
(T (W x00 x00 x80 x3f x00 x00 x80 x3f)
(T (W x68 x00 x00 x00 x5c x00 x00 x00)
(L (W x00 x00 x00 x00 x00 x00 x00 x00)) E)
(L (W xff xff xff xff xff xff xff xff)))
(T (W x00 x00 x00 x00 x00 x00 x00 x00)
(L (W x30 x35 x5f x43 x4c x45 x41 x52))
(L (W x3b x00 x00 x00 x3e x00 x00 x00)))))
(T (W x18 x00 x00 x00 x0c x00 x00 x00)
(T (W x00 x00 x80 x3f x00 x00 x80 x3f)
(T (W xff xff xff xff xc8 x00 x00 x00)
(T (W x00 x00 x80 x3f x00 x00 x80 x3f)
(L (W x50 x00 x00 x00 x44 x00 x00 x00)) E)
(L (W x00 x00 x80 xbf x00 x00 x80 xbf)))
(T (W x31 x00 x00 x00 x34 x00 x00 x00)
(T (W x45 x26 x22 x84 xe4 x9c xf2 xcb)
(L (W xff xff xff xff xff xff xff xff)) E)
(L (W x00 x00 x00 x00 x00 x00 x00 x00))))
(T (W x54 x40 xfc xff x16 x00 x00 x00)
(T (W xff xff xff xff xff xff xff xff)
(T (W x00 x00 x80 x3f x00 x00 x80 x3f)
(L (W xff xff xff xff xff xff xff xff)) E)
(L (W xff xff xff xff xa0 x00 x00 x00)))
(T (W x0a x38 xfd xff x74 x00 x00 x00)
(L (W x00 x00 x80 xbf x00 x00 x80 xbf))
(L (W xff xff xff xff xff xff xff xff))))))))
(T (W x00 x00 x80 x3f x00 x00 x80 x3f)
(T (W x6c x00 x00 x00 x60 x00 x00 x00)
(T (W xec x68 xfb xff x00 x01 x01 x01)
(T (W x00 x00 x80 x3f x00 x00 x80 x3f)
(T (W x00 x00 x00 x00 x00 x00 x00 x00)
(T (W x68 x00 x00 x00 x5c x00 x00 x00)
(T (W xc2 xb6 xff xff x00 x00 x01 x01)
(L (W x00 x00 x00 x00 x00 x00 x00 x00)) E)
(L (W xff xff xff xff x90 x00 x00 x00)))
(T (W x18 x00 x00 x00 x10 x00 x00 x00)
(T (W x00 x00 x00 x00 x00 x00 x00 x00)
(L (W x00 x00 x80 xbf x00 x00 x80 xbf)) E)
(L (W x00 x00 x00 x00 x00 x00 x00 x00))))
(T (W xff xff xff xff xff xff xff xff)
(T (W x54 x00 x00 x00 x48 x00 x00 x00)
(T (W x5f x77 x69 x6c x64 x5f x70 x6f)
(L (W x00 x00 x00 x00 x00 x00 x00 x00)) E)
(L (W x00 x00 x00 x00 x00 x00 x00 x00)))
(T (W x00 x00 x80 x3f x00 x00 x80 x3f)
(L (W x00 x00 x00 x00 x00 x00 x00 x00))
(L (W x26 x00 x00 x00 x29 x00 x00 x00)))))
(T (W x00 x00 x00 x00 x00 x00 x00 x00)
(T (W xff xff xff xff xff xff xff xff)
(T (W x45 x26 x22 x84 xe4 x9c xf2 xcb)
(T (W x68 x00 x00 x00 x5c x00 x00 x00)
(L (W xff xff xff xff xff xff xff xff)) E)
(L (W xff xff xff xff xff xff xff xff)))
(T (W x18 x00 x00 x00 x10 x00 x00 x00)
(T (W xff xff xff xff xff xff xff xff)
(L (W x03 x00 x00 x00 xd0 x00 x00 x00)) E)
(L (W xff xff xff xff xc0 x00 x00 x00))))
(T (W x00 x00 x00 x00 x5c x27 xfc xff)
(T (W x00 x00 x00 x00 xca xad xfc xff)
(T (W x00 x00 x00 x00 x01 x00 x00 x00)
(L (W x54 x00 x00 x00 x48 x00 x00 x00)) E)
(L (W x00 x00 x00 x00 x00 x00 x00 x00)))
(T (W x84 x2f xfd xff x10 x00 x00 x00)
(L (W x00 x00 x80 xbf x00 x00 x80 xbf))
(L (W x46 x53 x59 x53 x5f x4e x53 x5f))))))
(T (W x00 x00 x80 x3f x00 x00 x80 x3f)
(T (W x00 x00 x80 x3f x00 x00 x80 x3f)
(T (W x24 x00 x00 x00 x0c x00 x00 x00)
(T (W x00 x00 x80 x3f x00 x00 x80 x3f)
(T (W xff xff xff xff xff xff xff xff)
(L (W xff xff xff xff xff xff xff xff)) E)
(L (W x14 x00 x00 x00 x0c x00 x00 x00)))
(T (W x00 x00 x00 x00 x00 x00 x00 x00)
(T (W x6c x00 x00 x00 x60 x00 x00 x00)
(L (W x00 x00 x80 xbf x00 x00 x80 xbf)) E)
(L (W x00 x00 x00 x00 x5c xd7 xfe xff))))
(T (W xff xff xff xff xff xff xff xff)
(T (W xff xff xff xff xff xff xff xff)
(T (W xff xff xff xff xff xff xff xff)
(L (W xc2 x95 xff xff x78 x00 x00 x00)) E)
(L (W x4f x84 x6f x8b xe8 xcb x63 xb7)))
(T (W xff xff xff xff xff xff xff xff)
(L (W x00 x00 x80 xbf x00 x00 x80 xbf))
(L (W x45 x44 x00 x00 x00 x00 x00 x00)))))
(T (W x00 x00 x80 x3f x00 x00 x80 x3f)
(T (W x0a x89 xff xff x19 x01 x00 x00)
(T (W x00 x00 x00 x00 x00 x00 x00 x00)
(T (W x00 x00 x00 x00 x02 x00 x00 x00)
(L (W x00 x00 x00 x00 x00 x00 x00 x00)) E)
(L (W xff xff xff xff xff xff xff xff)))
(T (W x4c x45 x41 x52 x45 x44 x00 x00)
(T (W xff xff xff xff xff xff xff xff)
(L (W x00 x00 x80 xbf x00 x00 x80 xbf)) E)
(L (W xff xff xff xff xbc x00 x00 x00))))
(T (W x40 x00 x00 x00 x9c x00 x00 x00)
(T (W x00 x00 x80 x3f x00 x00 x80 x3f)
(T (W x00 x00 x80 x3f x00 x00 x80 x3f)
(L (W x00 x00 x00 x00 x00 x00 x00 x00)) E)
(L (W x00 x00 x00 x00 x52 xbf xfe xff)))
(T (W x00 x00 x00 x00 x00 x00 x00 x00)
(L (W xff xff xff xff xff xff xff xff))
(L (W x00 x00 x00 x00 x00 x00 x00 x00)))))))
(T (W x00 x00 x80 x3f x00 x00 x80 x3f)
(T (W x00 x00 x80 x3f x00 x00 x80 x3f)
(T (W x50 x00 x00 x00 x44 x00 x00 x00)
(T (W x00 x00 x00 x00 x00 x00 x00 x00)
(T (W xc2 x4d xfc xff x78 x00 x00 x00)
(T (W xff xff xff xff xff xff xff xff)
(L (W x00 x00 x80 xbf x00 x00 x80 xbf)) E)
(L (W x2d x00 x00 x00 x30 x00 x00 x00)))
(T (W xff xff xff xff xff xff xff xff)
(T (W x45 x26 x22 x84 xe4 x9c xf2 xcb)
(L (W x00 x00 x80 xbf x00 x00 x80 xbf)) E)
(L (W x00 x00 x80 xbf x00 x00 x80 xbf))))
(T (W xff xff xff xff xff xff xff xff)
(T (W xff xff xff xff xb0 x00 x00 x00)
(T (W x00 x00 x00 x00 x00 x00 x00 x00)
(L (W x4f x84 x6f x8b xe8 xcb x63 xb7)) E)
(L (W x00 x00 x00 x00 x00 x00 x00 x00)))
(T (W x45 x26 x22 x84 xe4 x9c xf2 xcb)
(L (W x4f x84 x6f x8b xe8 xcb x63 xb7))
(L (W xff xff xff xff xff xff xff xff)))))
(T (W x00 x00 x00 x00 x00 x00 x00 x00)
(T (W x19 x01 x00 x00 xff xff xff xff)
(T (W x00 x00 x80 x3f x00 x00 x80 x3f)
(T (W x00 x00 x80 x3f x00 x00 x80 x3f)
(L (W x30 x35 x5f x43 x4c x45 x41 x52)) E)
(L (W x03 x00 x00 x00 xd0 x00 x00 x00)))
(T (W xff xff xff xff xff xff xff xff)
(T (W xff xff xff xff xff xff xff xff)
(L (W x30 x35 x5f x43 x4c x45 x41 x52)) E)
(L (W x03 x00 x00 x00 xd8 x00 x00 x00))))
(T (W x18 x00 x00 x00 x0c x00 x00 x00)
(T (W x00 x00 x00 x00 x00 x00 x00 x00)
(T (W x00 x00 x80 x3f x00 x00 x80 x3f)
(L (W x45 x26 x22 x84 xe4 x9c xf2 xcb)) E)
(L (W x00 x00 x00 x00 x00 x00 x00 x00)))
(T (W x00 x00 x00 x00 x00 x00 x00 x00)
(L (W xff xff xff xff xff xff xff xff))
(L (W x00 x00 x00 x00 x00 x00 x00 x00))))))
(T (W x00 x00 x80 x3f x00 x00 x80 x3f)
(T (W x00 x00 x80 x3f x00 x00 x80 x3f)
(T (W xc2 x4e xfe xff x00 x00 x01 x01)
(T (W x00 x00 x80 x3f x00 x00 x80 x3f)
(T (W x0a x5c xfd xff x74 x00 x00 x00)
(L (W xff xff xff xff xff xff xff xff)) E)
(L (W xff xff xff xff xff xff xff xff)))
(T (W x00 x00 x80 x3f x00 x00 x80 x3f)
(T (W x18 x00 x00 x00 x10 x00 x00 x00)
(L (W x00 x00 x80 xbf x00 x00 x80 xbf)) E)
(L (W xff xff xff xff xb0 x00 x00 x00))))
(T (W x64 x00 x00 x00 x9c x00 x00 x00)
(T (W xff xff xff xff xff xff xff xff)
(T (W x0a x9c xfd xff x74 x00 x00 x00)
(L (W x54 x00 x00 x00 x48 x00 x00 x00)) E)
(L (W x00 x00 x00 x00 x00 x00 x00 x00)))
(T (W xff xff xff xff xff xff xff xff)
(L (W x00 x00 x80 xbf x00 x00 x80 xbf))
(L (W x00 x00 x00 x00 x4a x2a xff xff)))))
(T (W x00 x00 x00 x00 x00 x00 x00 x00)
(T (W x82 x92 xff xff x00 x00 x01 x01)
(T (W x49 xa1 x68 x4a xeb x5f xdd x3d)
(T (W xff xff xff xff xff xff xff xff)
(L (W x30 x35 x5f x43 x4c x45 x41 x52)) E)
(L (W x00 x00 x01 x01 x66 x01 x00 x00)))
(T (W x00 x00 x00 x00 x00 x00 x00 x00)
(T (W xff xff xff xff xff xff xff xff)
(L (W x38 x00 x3c x00 x40 x00 x44 x00)) E)
(L (W x45 x26 x22 x84 xe4 x9c xf2 xcb))))
(T (W x01 x00 x00 x00 x3c x00 x00 x00)
(T (W x00 x00 x80 x3f x00 x00 x80 x3f)
(T (W x00 x00 x00 x00 x00 x00 x00 x00)
(L (W x00 x00 x00 x00 x00 x00 x00 x00)) E)
(L (W x30 x35 x5f x43 x4c x45 x41 x52)))
(T (W x00 x00 x00 x00 x00 x00 x00 x00)
(L (W xff xff xff xff xff xff xff xff))
(L (W x00 x00 x00 x00 x00 x00 x00 x00)))))))))
(T (W x45 x26 x22 x84 xe4 x9c xf2 xcb)
(T (W x00 x00 x00 x00 x00 x00 x00 x00)
(T (W x00 x00 x00 x00 x00 x00 x00 x00)
(T (W x00 x00 x00 x00 x00 x00 x00 x00)
(T (W x00 x00 x00 x00 x00 x00 x00 x00)
(T (W xff xff xff xff xff xff xff xff)
(T (W x45 x26 x22 x84 xe4 x9c xf2 xcb)
(T (W xff xff xff xff xff xff xff xff)
(L (W x45 x44 x00 x00 x00 x00 x00 x00)) E)
(L (W x6c x00 x00 x00 x60 x00 x00 x00)))
(T (W x45 x26 x22 x84 xe4 x9c xf2 xcb)
(T (W xff xff xff xff xff xff xff xff)
(L (W x30 x35 x5f x43 x4c x45 x41 x52)) E)
(L (W x00 x00 x00 x00 x52 xcd xfe xff))))
(T (W xec x06 xfc xff x00 x01 x01 x01)
(T (W x00 x00 x00 x00 x00 x00 x00 x00)
(T (W xff xff xff xff xff xff xff xff)
(L (W x00 x00 x01 x01 xaa x01 x00 x00)) E)
(L (W xff xff xff xff xff xff xff xff)))
(T (W x12 x00 x00 x00 x46 x53 x59 x53)
(L (W xff xff xff xff xff xff xff xff))
(L (W x00 x00 x80 xbf x00 x00 x80 xbf)))))
(T (W xc2 x14 xfe xff x00 x00 x01 x01)
(T (W xff xff xff xff xff xff xff xff)
(T (W x00 x00 x00 x00 x00 x00 x00 x00)
(T (W x45 x26 x22 x84 xe4 x9c xf2 xcb)
(L (W xcc x00 x00 x00 x01 x00 x00 x00)) E)
(L (W x00 x00 x80 xbf x00 x00 x80 xbf)))
(T (W x00 x00 x80 x3f x00 x00 x80 x3f)
(T (W x2f x00 x00 x00 x32 x00 x00 x00)
(L (W x00 x00 x00 x00 xf0 xe6 xff xff)) E)
(L (W x00 x00 x80 xbf x00 x00 x80 xbf))))
(T (W x50 x00 x00 x00 x44 x00 x00 x00)
(T (W xff xff xff xff xff xff xff xff)
(T (W x18 x00 x00 x00 x0c x00 x00 x00)
(L (W x45 x26 x22 x84 xe4 x9c xf2 xcb)) E)
(L (W x00 x00 x00 x00 x00 x00 x00 x00)))
(T (W xff xff xff xff xff xff xff xff)
(L (W x00 x00 x00 x00 x00 x00 x00 x00))
(L (W xff xff xff xff xff xff xff xff))))))
(T (W x45 x26 x22 x84 xe4 x9c xf2 xcb)
(T (W x00 x00 x00 x00 x00 x00 x00 x00)
(T (W xff xff xff xff xff xff xff xff)
(T (W x00 x00 x00 x00 x00 x00 x00 x00)
(T (W x68 x00 x00 x00 x5c x00 x00 x00)
(L (W x00 x00 x80 xbf x00 x00 x80 xbf)) E)
(L (W x00 x00 x80 xbf x00 x00 x80 xbf)))
(T (W xff xff xff xff xff xff xff xff)
(T (W x00 x00 x00 x00 x00 x00 x00 x00)
(L (W x4f x84 x6f x8b xe8 xcb x63 xb7)) E)
(L (W x00 x00 x00 x00 x00 x00 x00 x00))))
(T (W x00 x00 x80 x3f x00 x00 x80 x3f)
(T (W x00 x00 x80 x3f x00 x00 x80 x3f)
(T (W x54 x9a xfd xff x46 x00 x00 x00)
(L (W x45 x26 x22 x84 xe4 x9c xf2 xcb)) E)
(L (W xff xff xff xff xff xff xff xff)))
(T (W x00 x00 x80 x3f x00 x00 x80 x3f)
(L (W x00 x00 x00 x00 x00 x00 x00 x00))
(L (W xff xff xff xff xff xff xff xff)))))
(T (W x00 x00 x00 x00 x22 x4a xff xff)
(T (W x64 x00 x00 x00 x9c x00 x00 x00)
(T (W xff xff xff xff xff xff xff xff)
(T (W x00 x00 x80 x3f x00 x00 x80 x3f)
(L (W xff xff xff xff xff xff xff xff)) E)
(L (W x45 x26 x22 x84 xe4 x9c xf2 xcb)))
(T (W xb0 x00 x00 x00 x64 x00 x00 x00)
(T (W xc4 x00 x00 x00 x01 x00 x00 x00)
(L (W x00 x00 x00 x00 x00 x00 x00 x00)) E)
(L (W x58 xf5 xfe xff x42 x03 xff xff))))
(T (W x00 x00 x80 x3f x00 x00 x80 x3f)
(T (W x00 x00 x00 x00 xca xbb xfc xff)
(T (W xff xff xff xff xff xff xff xff)
(L (W x46 x53 x59 x53 x5f x4e x53 x5f)) E)
(L (W xff xff xff xff xff xff xff xff)))
(T (W xff xff xff xff xff xff xff xff)
(L (W x68 x00 x00 x00 x5c x00 x00 x00))
(L (W x45 x44 x00 x00 x00 x00 x00 x00)))))))
(T (W x00 x00 x00 x00 x00 x00 x00 x00)
(T (W x45 x26 x22 x84 xe4 x9c xf2 xcb)
(T (W x00 x00 x00 x00 x00 x00 x00 x00)
(T (W xff xff xff xff xff xff xff xff)
(T (W x00 x00 x00 x00 x00 x00 x00 x00)
(T (W x0a x4a xfd xff x74 x00 x00 x00)
(L (W x00 x00 x00 x00 x00 x00 x00 x00)) E)
(L (W x00 x00 x80 x3f x00 x00 x80 x3f)))
(T (W x00 x00 x00 x00 x5c xcd xfc xff)
(T (W x61 x72 x6c x69 x6b x65 x5f x6c)
(L (W x00 x00 x00 x00 x00 x00 x00 x00)) E)
(L (W x30 x35 x5f x43 x4c x45 x41 x52))))
(T (W x50 x00 x00 x00 x44 x00 x00 x00)
(T (W x49 xa1 x68 x4a xeb x5f xdd x3d)
(T (W xff xff xff xff xff xff xff xff)
(L (W x45 x44 x00 x00 x00 x00 x00 x00)) E)
(L (W xff xff xff xff xff xff xff xff)))
(T (W x00 x00 x00 x00 x00 x00 x00 x00)
(L (W x00 x00 x00 x00 xca x13 xfe xff))
(L (W x45 x26 x22 x84 xe4 x9c xf2 xcb)))))
(T (W xff xff xff xff xff xff xff xff)
(T (W xff xff xff xff xff xff xff xff)
(T (W xff xff xff xff xff xff xff xff)
(T (W x00 x00 x00 x00 x00 x00 x00 x00)
(L (W xff xff xff xff xbc x00 x00 x00)) E)
(L (W x00 x00 x00 x00 xf0 x6e xfe xff)))
(T (W x18 x00 x00 x00 x0c x00 x00 x00)
(T (W x18 x00 x00 x00 x10 x00 x00 x00)
(L (W xb0 x00 x00 x00 x64 x00 x00 x00)) E)
(L (W x6c x00 x00 x00 x60 x00 x00 x00))))
(T (W x68 x00 x00 x00 x5c x00 x00 x00)
(T (W xff xff xff xff xff xff xff xff)
(T (W x6c x64 x5f x70 x6f x6b x65 x5f)
(L (W x00 x00 x00 x00 x00 x00 x00 x00)) E)
(L (W xff xff xff xff xbc x00 x00 x00)))
(T (W xff xff xff xff xff xff xff xff)
(L (W x00 x00 x80 xbf x00 x00 x80 xbf))
(L (W x00 x00 x01 x01 xa9 x01 x00 x00))))))
(T (W x00 x00 x80 x3f x00 x00 x80 x3f)
(T (W x3e x00 x00 x00 x0c x00 x00 x00)
(T (W xff xff xff xff xff xff xff xff)
(T (W x00 x00 x00 x00 x00 x00 x00 x00)
(T (W x00 x00 x80 x3f x00 x00 x80 x3f)
(L (W x00 x00 x80 xbf x00 x00 x80 xbf)) E)
(L (W x6c x00 x00 x00 x60 x00 x00 x00)))
(T (W x00 x00 x00 x00 x00 x00 x00 x00)
(T (W x45 x26 x22 x84 xe4 x9c xf2 xcb)
(L (W x00 x00 x00 x00 x00 x00 x00 x00)) E)
(L (W x00 x00 x80 xbf x00 x00 x80 xbf))))
(T (W x00 x00 x80 x3f x00 x00 x80 x3f)
(T (W xec x9e xfc xff x00 x01 x01 x01)
(T (W x05 x00 x06 x00 x07 x00 x00 x00)
(L (W x4f x84 x6f x8b xe8 xcb x63 xb7)) E)
(L (W x00 x00 x00 x00 x00 x00 x00 x00)))
(T (W xff xff xff xff x9c x00 x00 x00)
(L (W x4f x84 x6f x8b xe8 xcb x63 xb7))
(L (W xff xff xff xff xff xff xff xff)))))
(T (W x1c x01 x00 x00 x04 x00 x00 x00)
(T (W xbc x00 x00 x00 xb0 x00 x00 x00)
(T (W x00 x00 x00 x00 xf2 x7a xfc xff)
(T (W x45 x26 x22 x84 xe4 x9c xf2 xcb)
(L (W xff xff xff xff xff xff xff xff)) E)
(L (W x18 x00 x00 x00 x0c x00 x00 x00)))
(T (W xff xff xff xff xff xff xff xff)
(T (W xb8 x00 x00 x00 x05 x00 x00 x00)
(L (W x00 x00 x00 x00 x00 x00 x00 x00)) E)
(L (W x54 x00 x00 x00 x48 x00 x00 x00))))
(T (W x00 x00 x80 x3f x00 x00 x80 x3f)
(T (W x00 x00 x00 x00 x00 x00 x00 x00)
(T (W xff xff xff xff xff xff xff xff)
(L (W x00 x00 x00 x00 x52 xc5 xff xff)) E)
(L (W xff xff xff xff xff xff xff xff)))
(T (W xff xff xff xff xff xff xff xff)
(L (W x5c x00 x00 x00 x50 x00 x00 x00))
(L (W x00 x00 x00 x00 x52 x45 xff xff))))))))
(T (W x0a x4e xfb xff x74 x00 x00 x00)
(T (W x01 x00 x00 x00 x9c x00 x00 x00)
(T (W x00 x00 x00 x00 x00 x00 x00 x00)
(T (W x0a x86 xfb xff x74 x00 x00 x00)
(T (W x50 x00 x00 x00 x44 x00 x00 x00)
(T (W xff xff xff xff xff xff xff xff)
(T (W x00 x00 x00 x00 x00 x00 x00 x00)
(L (W x6c x00 x00 x00 x60 x00 x00 x00)) E)
(L (W xff xff xff xff xff xff xff xff)))
(T (W x04 x00 x00 x00 xca xcf xfc xff)
(T (W x00 x00 x00 x00 x00 x00 x00 x00)
(L (W xff xff xff xff xff xff xff xff)) E)
(L (W x00 x00 x80 xbf x00 x00 x80 xbf))))
(T (W x00 x00 x00 x00 x00 x00 x00 x00)
(T (W xb0 x00 x00 x00 x64 x00 x00 x00)
(T (W x00 x00 x80 x3f x00 x00 x80 x3f)
(L (W x00 x00 x80 xbf x00 x00 x80 xbf)) E)
(L (W x00 x00 x00 x00 x00 x00 x00 x00)))
(T (W x03 x00 x00 x00 xd4 x00 x00 x00)
(L (W x00 x00 x80 xbf x00 x00 x80 xbf))
(L (W x00 x00 x00 x00 x00 x00 x00 x00)))))
(T (W x50 x00 x00 x00 x44 x00 x00 x00)
(T (W x00 x00 x00 x00 x00 x00 x00 x00)
(T (W x45 x26 x22 x84 xe4 x9c xf2 xcb)
(T (W xff xff xff xff xff xff xff xff)
(L (W x00 x00 x00 x00 x00 x00 x00 x00)) E)
(L (W x00 x00 x00 x00 x00 x00 x00 x00)))
(T (W x00 x00 x00 x00 x00 x00 x00 x00)
(T (W x00 x00 x00 x00 x00 x00 x00 x00)
(L (W x00 x00 x00 x00 x00 x00 x00 x00)) E)
(L (W xff xff xff xff xff xff xff xff))))
(T (W xff xff xff xff xff xff xff xff)
(T (W x4f x84 x6f x8b xe8 xcb x63 xb7)
(T (W x68 x00 x00 x00 x5c x00 x00 x00)
(L (W xb0 x00 x00 x00 x14 x00 x00 x00)) E)
(L (W x45 x26 x22 x84 xe4 x9c xf2 xcb)))
(T (W x00 x00 x80 x3f x00 x00 x80 x3f)
(L (W x45 x26 x22 x84 xe4 x9c xf2 xcb))
(L (W x00 x00 x80 xbf x00 x00 x80 xbf))))))
(T (W xff xff xff xff x04 x00 x00 x00)
(T (W x18 x00 x00 x00 x10 x00 x00 x00)
(T (W x00 x00 x80 x3f x00 x00 x80 x3f)
(T (W xb8 x00 x00 x00 xac x00 x00 x00)
(T (W xc2 xc8 xff xff x00 x00 x01 x01)
(L (W x00 x00 x00 x00 x52 x61 xff xff)) E)
(L (W xff xff xff xff xff xff xff xff)))
(T (W x00 x00 x80 x3f x00 x00 x80 x3f)
(T (W xff xff xff xff xff xff xff xff)
(L (W x2d x00 x00 x00 x30 x00 x00 x00)) E)
(L (W xff xff xff xff xff xff xff xff))))
(T (W x00 x00 x00 x00 x00 x00 x00 x00)
(T (W x00 x00 x00 x00 x00 x00 x00 x00)
(T (W x00 x00 x00 x00 x00 x00 x00 x00)
(L (W xff xff xff xff xff xff xff xff)) E)
(L (W x54 x00 x00 x00 x48 x00 x00 x00)))
(T (W x00 x00 x00 x00 x00 x00 x00 x00)
(L (W xff xff xff xff xbc x00 x00 x00))
(L (W x4f x84 x6f x8b xe8 xcb x63 xb7)))))
(T (W x00 x00 x80 x3f x00 x00 x80 x3f)
(T (W x00 x00 x00 x00 x00 x00 x00 x00)
(T (W x54 x00 x00 x00 x48 x00 x00 x00)
(T (W x00 x00 x00 x00 x00 x00 x00 x00)
(L (W x45 x26 x22 x84 xe4 x9c xf2 xcb)) E)
(L (W x46 x53 x59 x53 x5f x4e x53 x5f)))
(T (W x49 xa1 x68 x4a xeb x5f xdd x3d)
(T (W x00 x00 x00 x00 x00 x00 x00 x00)
(L (W x00 x00 x00 x00 x00 x00 x00 x00)) E)
(L (W x00 x00 x00 x00 x00 x00 x00 x00))))
(T (W xff xff xff xff xff xff xff xff)
(T (W xc2 xb7 xfc xff x78 x00 x00 x00)
(T (W x6b x65 x5f x77 x61 x72 x6c x69)
(L (W x00 x00 x80 xbf x00 x00 x80 xbf)) E)
(L (W x00 x00 x00 x00 x00 x00 x00 x00)))
(T (W x45 x26 x22 x84 xe4 x9c xf2 xcb)
(L (W x00 x00 x00 x00 x00 x00 x00 x00))
(L (W x00 x00 x80 xbf x00 x00 x80 xbf)))))))
(T (W xff xff xff xff xff xff xff xff)
(T (W xff xff xff xff xff xff xff xff)
(T (W x45 x26 x22 x84 xe4 x9c xf2 xcb)
(T (W x00 x00 x80 x3f x00 x00 x80 x3f)
(T (W xff xff xff xff xff xff xff xff)
(T (W x00 x00 x00 x00 x00 x00 x00 x00)
(L (W xff xff xff xff xff xff xff xff)) E)
(L (W x06 x00 x00 x00 x98 x05 x00 x00)))
(T (W x00 x00 x00 x00 x00 x00 x00 x00)
(T (W x50 x00 x00 x00 x44 x00 x00 x00)
(L (W xb8 x00 x00 x00 x3c x00 x00 x00)) E)
(L (W xcc x00 x00 x00 x01 x00 x00 x00))))
(T (W x84 x19 xfc xff x1e x00 x00 x00)
(T (W xff xff xff xff xff xff xff xff)
(T (W x18 x00 x00 x00 x0c x00 x00 x00)
(L (W xec x92 xff xff x00 x01 x01 x01)) E)
(L (W x00 x00 x80 xbf x00 x00 x80 xbf)))
(T (W xff xff xff xff xff xff xff xff)
(L (W xec x12 xfe xff x00 x01 x01 x01))
(L (W x00 x00 x00 x00 x00 x00 x00 x00)))))
(T (W x00 x00 x80 x3f x00 x00 x80 x3f)
(T (W x00 x00 x00 x00 x00 x00 x00 x00)
(T (W x00 x00 x80 x3f x00 x00 x80 x3f)
(T (W x0a x6e xfd xff x74 x00 x00 x00)
(L (W x49 xa1 x68 x4a xeb x5f xdd x3d)) E)
(L (W x04 x00 x00 x00 x52 x79 xfe xff)))
(T (W x00 x00 x00 x00 x00 x00 x00 x00)
(T (W x49 xa1 x68 x4a xeb x5f xdd x3d)
(L (W x00 x00 x00 x00 x00 x00 x00 x00)) E)
(L (W x65 x4e xbb x28 xbf xd3 x6a x6a))))
(T (W xff xff xff xff xff xff xff xff)
(T (W x00 x00 x80 x3f x00 x00 x80 x3f)
(T (W xff xff xff xff xff xff xff xff)
(L (W x54 x00 x00 x00 x48 x00 x00 x00)) E)
(L (W x00 x00 x80 xbf x00 x00 x80 xbf)))
(T (W x00 x00 x80 x3f x00 x00 x80 x3f)
(L (W x00 x00 x00 x00 x52 x39 xfe xff))
(L (W x00 x00 x80 xbf x00 x00 x80 xbf))))))
(T (W x18 x00 x00 x00 x0c x00 x00 x00)
(T (W x40 x00 x00 x00 x9c x00 x00 x00)
(T (W x00 x00 x00 x00 x00 x00 x00 x00)
(T (W xff xff xff xff x04 x00 x00 x00)
(T (W xff xff xff xff xff xff xff xff)
(L (W x30 x35 x5f x43 x4c x45 x41 x52)) E)
(L (W x00 x00 x00 x00 x00 x00 x00 x00)))
(T (W xff xff xff xff xff xff xff xff)
(T (W x73 x02 x00 x00 xff xff xff xff)
(L (W xff xff xff xff xff xff xff xff)) E)
(L (W xff xff xff xff xff xff xff xff))))
(T (W x00 x00 x00 x00 x02 x00 x00 x00)
(T (W x00 x00 x00 x00 x00 x00 x00 x00)
(T (W xff xff xff xff xff xff xff xff)
(L (W xff xff xff xff xff xff xff xff)) E)
(L (W x44 x00 x00 x00 x00 x00 x80 xbf)))
(T (W x00 x00 x00 x00 x00 x00 x00 x00)
(L (W xff xff xff xff xff xff xff xff))
(L (W x00 x00 x00 x00 x00 x00 x00 x00)))))
(T (W x00 x00 x80 x3f x00 x00 x80 x3f)
(T (W x00 x00 x00 x00 x00 x00 x00 x00)
(T (W xff xff xff xff xb0 x00 x00 x00)
(T (W x00 x00 x80 x3f x00 x00 x80 x3f)
(L (W x00 x00 x80 xbf x00 x00 x80 xbf)) E)
(L (W x00 x00 x00 x00 x00 x00 x00 x00)))
(T (W x0a xfe xfc xff x74 x00 x00 x00)
(T (W x00 x00 x00 x00 x00 x00 x00 x00)
(L (W x04 x01 x00 x00 x01 x00 x00 x00)) E)
(L (W x00 x00 x01 x01 x64 x01 x00 x00))))
(T (W xff xff xff xff xff xff xff xff)
(T (W xb0 x00 x00 x00 x64 x00 x00 x00)
(T (W x45 x26 x22 x84 xe4 x9c xf2 xcb)
(L (W xff xff xff xff xa0 x00 x00 x00)) E)
(L (W x00 x00 x80 xbf x00 x00 x80 xbf)))
(T (W x45 x26 x22 x84 xe4 x9c xf2 xcb)
(L (W xff xff xff xff xff xff xff xff))
(L (W x00 x00 x80 xbf x00 x00 x80 xbf))))))))))
(T (W x20 x7e x01 x00 xec x7c x01 x00)
(T (W x28 x3d x00 x00 xdc x3a x00 x00)
(T (W x00 x00 x00 x00 x00 x00 x00 x00)
(T (W x54 x59 xfb xff x3e x00 x00 x00)
(T (W x84 x6c xfb xff x3e x00 x00 x00)
(T (W x00 x00 x00 x00 x00 x00 x00 x00)
(T (W xff xff xff xff x04 x00 x00 x00)
(T (W x00 x00 x00 x00 x00 x00 x00 x00)
(T (W x0a x41 xfd xff x74 x00 x00 x00)
(L (W xff xff xff xff xff xff xff xff)) E)
(L (W x00 x00 x80 xbf x00 x00 x80 xbf)))
(T (W x00 x00 x00 x00 x00 x00 x00 x00)
(T (W xff xff xff xff xb0 x00 x00 x00)
(L (W xff xff xff xff xff xff xff xff)) E)
(L (W xff xff xff xff xff xff xff xff))))
(T (W x00 x00 x80 x3f x00 x00 x80 x3f)
(T (W x00 x00 x00 x00 x00 x00 x00 x00)
(T (W x00 x00 x00 x00 x5c x84 xfd xff)
(L (W xff xff xff xff xbc x00 x00 x00)) E)
(L (W xff xff xff xff xb0 x00 x00 x00)))
(T (W x02 x5a xfd xff x00 x00 x01 x01)
(L (W xb0 x00 x00 x00 x64 x00 x00 x00))
(L (W x00 x00 x80 xbf x00 x00 x80 xbf)))))
(T (W xff xff xff xff xff xff xff xff)
(T (W xff xff xff xff x03 x00 x00 x00)
(T (W x00 x00 x00 x00 x00 x00 x00 x00)
(T (W x00 x00 x00 x00 x00 x00 x00 x00)
(L (W x00 x00 x80 xbf x00 x00 x80 xbf)) E)
(L (W x49 xa1 x68 x4a xeb x5f xdd x3d)))
(T (W x49 xa1 x68 x4a xeb x5f xdd x3d)
(T (W x00 x00 x80 xbf x00 x00 x80 xbf)
(L (W x54 x00 x00 x00 x48 x00 x00 x00)) E)
(L (W x00 x00 x00 x00 x00 x00 x00 x00))))
(T (W x00 x00 x80 x3f x00 x00 x80 x3f)
(T (W x18 x00 x00 x00 x0c x00 x00 x00)
(T (W x00 x00 x80 xbf x00 x00 x80 xbf)
(L (W x00 x00 x00 x00 x00 x00 x00 x00)) E)
(L (W xff xff xff xff xff xff xff xff)))
(T (W x00 x00 x00 x00 x5c x24 xfd xff)
(L (W x30 x35 x5f x43 x4c x45 x41 x52))
(L (W x03 x00 x00 x00 xd8 x00 x00 x00))))))
(T (W x00 x00 x00 x00 x00 x00 x00 x00)
(T (W xc2 x03 xfe xff x00 x00 x01 x01)
(T (W xb8 x00 x00 x00 xac x00 x00 x00)
(T (W x00 x00 x00 x00 x00 x00 x00 x00)
(T (W x00 x00 x80 x3f x00 x00 x80 x3f)
(L (W x00 x00 x00 x00 x00 x00 x00 x00)) E)
(L (W x00 x00 x80 xbf x00 x00 x80 xbf)))
(T (W xb0 x00 x00 x00 x64 x00 x00 x00)
(T (W x00 x00 x00 x00 x02 x00 x00 x00)
(L (W x00 x00 x00 x00 x00 x00 x00 x00)) E)
(L (W x45 x44 x00 x00 x00 x00 x00 x00))))
(T (W x00 x00 x80 x3f x00 x00 x80 x3f)
(T (W x49 xa1 x68 x4a xeb x5f xdd x3d)
(T (W xff xff xff xff xe4 x00 x00 x00)
(L (W x00 x00 x00 x00 x00 x00 x00 x00)) E)
(L (W xff xff xff xff xff xff xff xff)))
(T (W x00 x00 x80 x3f x00 x00 x80 x3f)
(L (W x00 x00 x00 x00 x00 x00 x00 x00))
(L (W xcc x00 x00 x00 x01 x00 x00 x00)))))
(T (W xff xff xff xff xff xff xff xff)
(T (W x45 x26 x22 x84 xe4 x9c xf2 xcb)
(T (W x64 x00 x00 x00 xa0 x00 x00 x00)
(T (W x00 x00 x62 x00 x74 x00 x08 x00)
(L (W xff xff xff xff xff xff xff xff)) E)
(L (W x00 x00 x80 xbf x00 x00 x80 xbf)))
(T (W xec xf5 xfc xff x00 x01 x01 x01)
(T (W x45 x26 x22 x84 xe4 x9c xf2 xcb)
(L (W x1a x00 x00 x00 x1d x00 x00 x00)) E)
(L (W x54 x00 x00 x00 x48 x00 x00 x00))))
(T (W x45 x26 x22 x84 xe4 x9c xf2 xcb)
(T (W xff xff xff xff xff xff xff xff)
(T (W x00 x00 x80 x3f x00 x00 x80 x3f)
(L (W x04 x00 x00 x00 xd2 xb6 xff xff)) E)
(L (W xff xff xff xff xc0 x00 x00 x00)))
(T (W xb8 x00 x00 x00 xac x00 x00 x00)
(L (W x00 x00 x80 xbf x00 x00 x80 xbf))
(L (W xff xff xff xff xff xff xff xff)))))))
(T (W x1d x00 x00 x00 x10 x00 x00 x00)
(T (W x00 x00 x00 x00 x00 x00 x00 x00)
(T (W x40 x00 x00 x00 x10 x00 x00 x00)
(T (W x18 x00 x00 x00 x10 x00 x00 x00)
(T (W x54 x51 xfc xff x3c x00 x00 x00)
(T (W x68 x00 x00 x00 x5c x00 x00 x00)
(L (W x00 x00 x00 x00 x00 x00 x00 x00)) E)
(L (W x00 x00 x80 xbf x00 x00 x80 xbf)))
(T (W x00 x00 x80 x3f x00 x00 x80 x3f)
(T (W xff xff xff xff xff xff xff xff)
(L (W x46 x53 x59 x53 x5f x4e x53 x5f)) E)
(L (W xff xff xff xff xff xff xff xff))))
(T (W x00 x00 x80 x3f x00 x00 x80 x3f)
(T (W x00 x00 x00 x00 x00 x00 x00 x00)
(T (W xff xff xff xff xff xff xff xff)
(L (W xff xff xff xff xff xff xff xff)) E)
(L (W xff xff xff xff xff xff xff xff)))
(T (W x4c x45 x41 x52 x45 x44 x00 x00)
(L (W xff xff xff xff xff xff xff xff))
(L (W x6c x00 x00 x00 x60 x00 x00 x00)))))
(T (W xff xff xff xff xff xff xff xff)
(T (W x00 x00 x00 x00 x5c xec xfb xff)
(T (W x45 x26 x22 x84 xe4 x9c xf2 xcb)
(T (W x00 x00 x00 x00 x00 x00 x00 x00)
(L (W x45 x26 x22 x84 xe4 x9c xf2 xcb)) E)
(L (W x54 x00 x00 x00 x48 x00 x00 x00)))
(T (W x00 x00 x80 x3f x00 x00 x80 x3f)
(T (W x54 x00 x00 x00 x48 x00 x00 x00)
(L (W xec xed xff xff x00 x01 x01 x01)) E)
(L (W x00 x00 x80 xbf x00 x00 x80 xbf))))
(T (W x45 x26 x22 x84 xe4 x9c xf2 xcb)
(T (W xff xff xff xff xff xff xff xff)
(T (W xff xff xff xff xff xff xff xff)
(L (W xff xff xff xff xff xff xff xff)) E)
(L (W x4f x84 x6f x8b xe8 xcb x63 xb7)))
(T (W xff xff xff xff xff xff xff xff)
(L (W x00 x00 x00 x00 x00 x00 x00 x00))
(L (W xff xff xff xff xff xff xff xff))))))
(T (W x00 x00 x00 x00 x00 x00 x00 x00)
(T (W xff xff xff xff xff xff xff xff)
(T (W xc0 x00 x00 x00 xb4 x00 x00 x00)
(T (W x00 x00 x00 x00 x00 x00 x00 x00)
(T (W x45 x26 x22 x84 xe4 x9c xf2 xcb)
(L (W x00 x00 x80 xbf x00 x00 x80 xbf)) E)
(L (W x00 x00 x80 xbf x00 x00 x80 xbf)))
(T (W x04 x00 x00 x00 xca xe2 xfc xff)
(T (W x00 x00 x00 x00 x00 x00 x00 x00)
(L (W x00 x00 x00 x00 x00 x00 x00 x00)) E)
(L (W x00 x00 x00 x00 x00 x00 x00 x00))))
(T (W x00 x00 x80 x3f x00 x00 x80 x3f)
(T (W x54 x00 x00 x00 x48 x00 x00 x00)
(T (W x03 x00 x00 x00 xbc x00 x00 x00)
(L (W x00 x00 x00 x00 x00 x00 x00 x00)) E)
(L (W x00 x00 x00 x00 x00 x00 x00 x00)))
(T (W x68 x00 x00 x00 x5c x00 x00 x00)
(L (W x00 x00 x00 x00 x00 x00 x00 x00))
(L (W xff xff xff xff xff xff xff xff)))))
(T (W xff xff xff xff xff xff xff xff)
(T (W x50 x00 x00 x00 x44 x00 x00 x00)
(T (W xff xff xff xff xff xff xff xff)
(T (W xec x7d xfd xff x00 x01 x01 x01)
(L (W x03 x00 x00 x00 xd8 x00 x00 x00)) E)
(L (W xc2 x7a xfe xff x78 x00 x00 x00)))
(T (W xff xff xff xff xff xff xff xff)
(T (W xec xfd xfd xff x00 x01 x01 x01)
(L (W x45 x44 x00 x00 x00 x00 x00 x00)) E)
(L (W x45 x26 x22 x84 xe4 x9c xf2 xcb))))
(T (W x00 x00 x00 x00 x00 x00 x00 x00)
(T (W x00 x00 x00 x00 xca xc2 xfc xff)
(T (W xc2 xba xfd xff x78 x00 x00 x00)
(L (W xff xff xff xff xff xff xff xff)) E)
(L (W xff xff xff xff xff xff xff xff)))
(T (W xff xff xff xff xff xff xff xff)
(L (W x00 x00 x80 xbf x00 x00 x80 xbf))
(L (W xff xff xff xff xff xff xff xff))))))))
(T (W x68 x00 x00 x00 x5c x00 x00 x00)
(T (W x45 x26 x22 x84 xe4 x9c xf2 xcb)
(T (W x62 x00 x00 x00 xf7 x01 x00 x00)
(T (W x68 x00 x00 x00 x5c x00 x00 x00)
(T (W x00 x00 x00 x00 x00 x00 x00 x00)
(T (W xff xff xff xff xff xff xff xff)
(T (W x00 x00 x00 x00 x00 x00 x00 x00)
(L (W x00 x00 x80 xbf x00 x00 x80 xbf)) E)
(L (W xcc x00 x00 x00 x01 x00 x00 x00)))
(T (W xff xff xff xff xff xff xff xff)
(T (W x00 x00 x00 x00 x00 x00 x00 x00)
(L (W x00 x00 x80 xbf x00 x00 x80 xbf)) E)
(L (W x00 x00 x80 xbf x00 x00 x80 xbf))))
(T (W x00 x00 x00 x00 x04 x00 x00 x00)
(T (W xec x89 xfc xff x00 x01 x01 x01)
(T (W x45 x26 x22 x84 xe4 x9c xf2 xcb)
(L (W x00 x00 x80 xbf x00 x00 x80 xbf)) E)
(L (W x00 x00 x00 x00 x00 x00 x00 x00)))
(T (W x00 x00 x80 x3f x00 x00 x80 x3f)
(L (W x4f x84 x6f x8b xe8 xcb x63 xb7))
(L (W xff xff xff xff xff xff xff xff)))))
(T (W x00 x00 x80 x3f x00 x00 x80 x3f)
(T (W x40 x00 x00 x00 x0c x00 x00 x00)
(T (W x00 x00 x80 x3f x00 x00 x80 x3f)
(T (W x0a x65 xfd xff x74 x00 x00 x00)
(L (W x45 x44 x00 x00 x00 x00 x00 x00)) E)
(L (W xff xff xff xff xff xff xff xff)))
(T (W xff xff xff xff xff xff xff xff)
(T (W x45 x44 x00 x00 x00 x00 x00 x00)
(L (W xff xff xff xff xff xff xff xff)) E)
(L (W xff xff xff xff xff xff xff xff))))
(T (W xff xff xff xff xff xff xff xff)
(T (W x00 x00 x00 x00 x00 x00 x00 x00)
(T (W x00 x00 x00 x00 x00 x00 x00 x00)
(L (W xec xa9 xff xff x00 x01 x01 x01)) E)
(L (W x00 x00 x80 xbf x00 x00 x80 xbf)))
(T (W x49 xa1 x68 x4a xeb x5f xdd x3d)
(L (W x00 x00 x00 x00 xf0 x29 xfe xff))
(L (W x00 x00 x00 x00 x00 x00 x00 x00))))))
(T (W x0a x75 xfb xff x74 x00 x00 x00)
(T (W xec x99 xfb xff x00 x01 x01 x01)
(T (W x00 x00 x00 x00 x00 x00 x00 x00)
(T (W x18 x00 x00 x00 x0c x00 x00 x00)
(T (W xff xff xff xff xff xff xff xff)
(L (W xff xff xff xff xff xff xff xff)) E)
(L (W xff xff xff xff xff xff xff xff)))
(T (W x45 x26 x22 x84 xe4 x9c xf2 xcb)
(T (W xff xff xff xff xa0 x00 x00 x00)
(L (W x00 x00 x00 x00 x5c xd8 xff xff)) E)
(L (W xff xff xff xff xb0 x00 x00 x00))))
(T (W xad x01 x00 x00 xff xff xff xff)
(T (W xff xff xff xff xff xff xff xff)
(T (W x00 x00 x00 x00 x01 x00 x00 x00)
(L (W xff xff xff xff xb0 x00 x00 x00)) E)
(L (W x00 x00 x80 xbf x00 x00 x80 xbf)))
(T (W xff xff xff xff xff xff xff xff)
(L (W x45 x26 x22 x84 xe4 x9c xf2 xcb))
(L (W x00 x00 x00 x00 x00 x00 x00 x00)))))
(T (W x00 x00 x80 x3f x00 x00 x80 x3f)
(T (W x00 x00 x00 x00 x00 x00 x00 x00)
(T (W x00 x00 x80 x3f x00 x00 x80 x3f)
(T (W x00 x00 x00 x00 x00 x00 x00 x00)
(L (W x00 x00 x00 x00 x00 x00 x00 x00)) E)
(L (W x04 x00 x00 x00 x52 x80 xfe xff)))
(T (W x00 x00 x00 x00 x00 x00 x00 x00)
(T (W x00 x00 x00 x00 x00 x00 x00 x00)
(L (W x00 x00 x00 x00 x00 x00 x00 x00)) E)
(L (W xff xff xff xff xff xff xff xff))))
(T (W xff xff xff xff x03 x00 x00 x00)
(T (W x00 x00 x80 x3f x00 x00 x80 x3f)
(T (W xff xff xff xff xb0 x00 x00 x00)
(L (W x45 x26 x22 x84 xe4 x9c xf2 xcb)) E)
(L (W x46 x53 x59 x53 x5f x4e x53 x5f)))
(T (W x00 x00 x00 x00 x00 x00 x00 x00)
(L (W x06 x00 x00 x00 x98 x05 x00 x00))
(L (W x00 x00 x00 x00 x00 x00 x00 x00)))))))
(T (W x01 x00 x00 x00 x3e x00 x00 x00)
(T (W x18 x00 x00 x00 x0c x00 x00 x00)
(T (W x0a x8d xfb xff x74 x00 x00 x00)
(T (W x45 x26 x22 x84 xe4 x9c xf2 xcb)
(T (W x45 x26 x22 x84 xe4 x9c xf2 xcb)
(T (W xc2 xbf xff xff x00 x00 x01 x01)
(L (W x18 x00 x00 x00 x0c x00 x00 x00)) E)
(L (W xff xff xff xff xff xff xff xff)))
(T (W x84 xd8 xfc xff x24 x00 x00 x00)
(T (W x00 x00 x80 x3f x00 x00 x80 x3f)
(L (W xec xd1 xff xff x00 x01 x01 x01)) E)
(L (W x00 x00 x80 xbf x00 x00 x80 xbf))))
(T (W xff xff xff xff xff xff xff xff)
(T (W xff xff xff xff xff xff xff xff)
(T (W x00 x00 x00 x00 x00 x00 x00 x00)
(L (W x00 x00 x80 xbf x00 x00 x80 xbf)) E)
(L (W x00 x00 x00 x00 x00 x00 x00 x00)))
(T (W xc0 x00 x00 x00 x01 x00 x00 x00)
(L (W x00 x00 x80 xbf x00 x00 x80 xbf))
(L (W x69 x01 x00 x00 xff xff xff xff)))))
(T (W x00 x00 x80 x3f x00 x00 x80 x3f)
(T (W x00 x00 x00 x00 x00 x00 x00 x00)
(T (W x00 x00 x80 x3f x00 x00 x80 x3f)
(T (W x68 x00 x00 x00 x5c x00 x00 x00)
(L (W x00 x00 x00 x00 x00 x00 x00 x00)) E)
(L (W xff xff xff xff xff xff xff xff)))
(T (W xaa x43 xfe xff x9c x01 x00 x00)
(T (W x32 x00 x00 x00 x0c x00 x00 x00)
(L (W x00 x00 x00 x00 x00 x00 x00 x00)) E)
(L (W xff xff xff xff xff xff xff xff))))
(T (W x64 x00 x00 x00 x9c x00 x00 x00)
(T (W x4f x84 x6f x8b xe8 xcb x63 xb7)
(T (W xcc x00 x00 x00 x01 x00 x00 x00)
(L (W x00 x00 x80 xbf x00 x00 x80 xbf)) E)
(L (W x00 x00 x00 x00 x00 x00 x00 x00)))
(T (W x00 x00 x00 x00 x00 x00 x00 x00)
(L (W xff xff xff xff xff xff xff xff))
(L (W x49 xa1 x68 x4a xeb x5f xdd x3d))))))
(T (W x00 x00 x80 x3f x00 x00 x80 x3f)
(T (W x00 x00 x80 x3f x00 x00 x80 x3f)
(T (W x00 x00 x00 x00 x00 x00 x00 x00)
(T (W x68 x00 x00 x00 x5c x00 x00 x00)
(T (W xff xff xff xff xff xff xff xff)
(L (W x00 x00 x01 x01 x63 x01 x00 x00)) E)
(L (W x00 x00 x00 x00 x00 x00 x00 x00)))
(T (W x00 x00 x00 x00 x5c xe0 xfc xff)
(T (W xff xff xff xff xff xff xff xff)
(L (W x18 x00 x00 x00 x0c x00 x00 x00)) E)
(L (W xff xff xff xff xff xff xff xff))))
(T (W xff xff xff xff xff xff xff xff)
(T (W x45 x44 x00 x00 x00 x00 x00 x00)
(T (W xff xff xff xff xff xff xff xff)
(L (W x45 x26 x22 x84 xe4 x9c xf2 xcb)) E)
(L (W x00 x00 x80 xbf x00 x00 x80 xbf)))
(T (W xe2 x0d xd7 xa2 x44 x69 xd7 x25)
(L (W x00 x00 x00 x00 x5c x20 xfe xff))
(L (W x46 x53 x59 x53 x5f x4e x53 x5f)))))
(T (W x00 x00 x80 x3f x00 x00 x80 x3f)
(T (W x00 x00 x00 x00 x00 x00 x00 x00)
(T (W x00 x00 x80 x3f x00 x00 x80 x3f)
(T (W x70 x5f x6c x65 x61 x64 x65 x72)
(L (W x00 x00 x00 x00 x00 x00 x00 x00)) E)
(L (W x30 x35 x5f x43 x4c x45 x41 x52)))
(T (W x00 x00 x80 x3f x00 x00 x80 x3f)
(T (W x84 x08 xfe xff x1a x00 x00 x00)
(L (W x45 x26 x22 x84 xe4 x9c xf2 xcb)) E)
(L (W xff xff xff xff xbc x00 x00 x00))))
(T (W xff xff xff xff xff xff xff xff)
(T (W xec xc1 xfc xff x00 x01 x01 x01)
(T (W x00 x00 x00 x00 x00 x00 x00 x00)
(L (W x6c x00 x00 x00 x60 x00 x00 x00)) E)
(L (W x00 x00 x00 x00 x00 x00 x00 x00)))
(T (W x00 x00 x00 x00 x00 x00 x00 x00)
(L (W xff xff xff xff xff xff xff xff))
(L (W x00 x00 x80 xbf x00 x00 x80 xbf)))))))))
(T (W xff xff xff xff xff xff xff xff)
(T (W x00 x00 x80 x3f x00 x00 x80 x3f)
(T (W x45 x26 x22 x84 xe4 x9c xf2 xcb)
(T (W x00 x00 x80 x3f x00 x00 x80 x3f)
(T (W x00 x00 x80 x3f x00 x00 x80 x3f)
(T (W x40 x00 x00 x00 x10 x00 x00 x00)
(T (W x00 x00 x80 x3f x00 x00 x80 x3f)
(T (W xff xff xff xff xff xff xff xff)
(L (W x00 x00 x00 x00 x00 x00 x00 x00)) E)
(L (W x00 x00 x00 x00 xf0 x47 xfe xff)))
(T (W x00 x00 x80 x3f x00 x00 x80 x3f)
(T (W xff xff xff xff xff xff xff xff)
(L (W x00 x00 x00 x00 x00 x00 x00 x00)) E)
(L (W x46 x53 x59 x53 x5f x4e x53 x5f))))
(T (W xff xff xff xff xff xff xff xff)
(T (W x00 x00 x80 x3f x00 x00 x80 x3f)
(T (W xff xff xff xff xff xff xff xff)
(L (W x46 x53 x59 x53 x5f x4e x53 x5f)) E)
(L (W xff xff xff xff xff xff xff xff)))
(T (W x45 x26 x22 x84 xe4 x9c xf2 xcb)
(L (W x45 x44 x00 x00 x00 x00 x00 x00))
(L (W xc2 x04 xff xff x78 x00 x00 x00)))))
(T (W x00 x00 x00 x00 x00 x00 x00 x00)
(T (W xff xff xff xff xff xff xff xff)
(T (W x00 x00 x00 x00 x00 x00 x00 x00)
(T (W x00 x00 x80 x3f x00 x00 x80 x3f)
(L (W xff xff xff xff xff xff xff xff)) E)
(L (W x3b x00 x00 x00 x3e x00 x00 x00)))
(T (W x68 x00 x00 x00 x5c x00 x00 x00)
(T (W xff xff xff xff xff xff xff xff)
(L (W x15 x00 x00 x00 x18 x00 x00 x00)) E)
(L (W x45 x26 x22 x84 xe4 x9c xf2 xcb))))
(T (W x0a x23 xfc xff x74 x00 x00 x00)
(T (W xff xff xff xff xff xff xff xff)
(T (W xff xff xff xff xff xff xff xff)
(L (W x00 x00 x80 xbf x00 x00 x80 xbf)) E)
(L (W x00 x00 x00 x00 x00 x00 x00 x00)))
(T (W xff xff xff xff xff xff xff xff)
(L (W x00 x00 x00 x00 x00 x00 x00 x00))
(L (W x00 x00 x01 x01 xdd x00 x00 x00))))))
(T (W x00 x00 x80 x3f x00 x00 x80 x3f)
(T (W x45 x26 x22 x84 xe4 x9c xf2 xcb)
(T (W xff xff xff xff xff xff xff xff)
(T (W x45 x26 x22 x84 xe4 x9c xf2 xcb)
(T (W x0a x53 xfd xff x74 x00 x00 x00)
(L (W x50 x00 x00 x00 x44 x00 x00 x00)) E)
(L (W x5c x00 x00 x00 x50 x00 x00 x00)))
(T (W x31 xac xa6 xd7 x7a xab x37 xd3)
(T (W x45 x26 x22 x84 xe4 x9c xf2 xcb)
(L (W x00 x00 x80 xbf x00 x00 x80 xbf)) E)
(L (W x00 x00 x80 xbf x00 x00 x80 xbf))))
(T (W xec x17 xfc xff x00 x01 x01 x01)
(T (W xff xff xff xff xb0 x00 x00 x00)
(T (W x18 x00 x00 x00 x10 x00 x00 x00)
(L (W x00 x00 x80 xbf x00 x00 x80 xbf)) E)
(L (W x54 x9b xfe xff x10 x00 x00 x00)))
(T (W x68 x00 x00 x00 x5c x00 x00 x00)
(L (W x49 xa1 x68 x4a xeb x5f xdd x3d))
(L (W xff xff xff xff xff xff xff xff)))))
(T (W x00 x00 x00 x00 x00 x00 x00 x00)
(T (W xff xff xff xff xff xff xff xff)
(T (W x00 x00 x00 x00 x00 x00 x00 x00)
(T (W xff xff xff xff xff xff xff xff)
(L (W x90 x01 x00 x00 xff xff xff xff)) E)
(L (W xc4 x00 x00 x00 x01 x00 x00 x00)))
(T (W x02 x00 x00 x00 xff xff xff xff)
(T (W xff xff xff xff xff xff xff xff)
(L (W x00 x00 x00 x00 x00 x00 x00 x00)) E)
(L (W x45 x26 x22 x84 xe4 x9c xf2 xcb))))
(T (W x45 x26 x22 x84 xe4 x9c xf2 xcb)
(T (W x00 x00 x00 x00 x00 x00 x00 x00)
(T (W x61 x64 x65 x72 x5f x77 x69 x6c)
(L (W x00 x00 x00 x00 x00 x00 x00 x00)) E)
(L (W xff xff xff xff xff xff xff xff)))
(T (W x3b x02 x00 x00 xff xff xff xff)
(L (W x03 x00 x00 x00 xd0 x00 x00 x00))
(L (W x00 x00 x00 x00 x00 x00 x00 x00)))))))
(T (W x00 x00 x80 x3f x00 x00 x80 x3f)
(T (W x45 x26 x22 x84 xe4 x9c xf2 xcb)
(T (W x00 x00 x00 x00 x00 x00 x00 x00)
(T (W xc2 x3d xfe xff x00 x00 x01 x01)
(T (W x00 x00 x80 x3f x00 x00 x80 x3f)
(T (W xff xff xff xff xff xff xff xff)
(L (W x4f x84 x6f x8b xe8 xcb x63 xb7)) E)
(L (W x00 x00 x00 x00 x5c x4e xfe xff)))
(T (W xff xff xff xff xff xff xff xff)
(T (W x00 x00 x00 x00 x00 x00 x00 x00)
(L (W x00 x00 x80 xbf x00 x00 x80 xbf)) E)
(L (W x00 x00 x00 x00 x00 x00 x00 x00))))
(T (W x64 x00 x00 x00 x9c x00 x00 x00)
(T (W x00 x00 x80 x3f x00 x00 x80 x3f)
(T (W xc2 xfd xff xff x00 x00 x01 x01)
(L (W x00 x00 x00 x00 x00 x00 x00 x00)) E)
(L (W x00 x00 x00 x00 xca x94 xfe xff)))
(T (W x00 x00 x80 x3f x00 x00 x80 x3f)
(L (W x00 x00 x00 x00 x00 x00 x00 x00))
(L (W xff xff xff xff xc0 x00 x00 x00)))))
(T (W x3e x00 x00 x00 x0c x00 x00 x00)
(T (W xff xff xff xff xff xff xff xff)
(T (W x00 x00 x00 x00 x00 x00 x0c x00)
(T (W x45 x26 x22 x84 xe4 x9c xf2 xcb)
(L (W xff xff xff xff xff xff xff xff)) E)
(L (W x21 x00 x00 x00 x24 x00 x00 x00)))
(T (W xff xff xff xff xff xff xff xff)
(T (W x03 x00 x00 x00 xd8 x00 x00 x00)
(L (W x00 x00 x01 x01 xaa x01 x00 x00)) E)
(L (W x18 x00 x00 x00 x10 x00 x00 x00))))
(T (W x00 x00 x00 x00 x5c x2e xfc xff)
(T (W x00 x00 x00 x00 xca xb4 xfc xff)
(T (W x49 xa1 x68 x4a xeb x5f xdd x3d)
(L (W x00 x00 x00 x00 x00 x00 x00 x00)) E)
(L (W xff xff xff xff xff xff xff xff)))
(T (W x24 x00 x00 x00 x10 x00 x00 x00)
(L (W x68 x00 x00 x00 x5c x00 x00 x00))
(L (W x30 x35 x5f x43 x4c x45 x41 x52))))))
(T (W x00 x00 x80 x3f x00 x00 x80 x3f)
(T (W x00 x00 x00 x00 x00 x00 x00 x00)
(T (W xff xff xff xff xff xff xff xff)
(T (W x00 x00 x00 x00 x00 x00 x00 x00)
(T (W x68 x00 x00 x00 x5c x00 x00 x00)
(L (W x03 x00 x00 x00 xd8 x00 x00 x00)) E)
(L (W x18 x00 x00 x00 x10 x00 x00 x00)))
(T (W x00 x00 x00 x00 x00 x00 x00 x00)
(T (W x54 x00 x00 x00 x48 x00 x00 x00)
(L (W x00 x00 x80 xbf x00 x00 x80 xbf)) E)
(L (W x00 x00 x00 x00 x5c xde xfe xff))))
(T (W x50 x00 x00 x00 x44 x00 x00 x00)
(T (W xb0 x00 x00 x00 x64 x00 x00 x00)
(T (W x00 x00 x80 xbf x00 x00 x80 xbf)
(L (W x00 x00 x80 xbf x00 x00 x80 xbf)) E)
(L (W x00 x00 x00 x00 x00 x00 x00 x00)))
(T (W xff xff xff xff xff xff xff xff)
(L (W x00 x00 x80 xbf x00 x00 x80 xbf))
(L (W x63 x01 x00 x00 xff xff xff xff)))))
(T (W x00 x00 x00 x00 x00 x00 x00 x00)
(T (W xff xff xff xff xff xff xff xff)
(T (W x00 x00 x00 x00 x00 x00 x00 x00)
(T (W xff xff xff xff xff xff xff xff)
(L (W x00 x00 x01 x01 x8f x01 x00 x00)) E)
(L (W xff xff xff xff xff xff xff xff)))
(T (W x00 x00 x00 x00 x00 x00 x00 x00)
(T (W xff xff xff xff xff xff xff xff)
(L (W x28 x00 x00 x00 x1c x00 x00 x00)) E)
(L (W x58 xfe xfe xff x42 x0c xff xff))))
(T (W x00 x00 x80 x3f x00 x00 x80 x3f)
(T (W x4f x84 x6f x8b xe8 xcb x63 xb7)
(T (W x7b x00 x00 x00 xff xff xff xff)
(L (W x46 x53 x59 x53 x5f x4e x53 x5f)) E)
(L (W xff xff xff xff xff xff xff xff)))
(T (W xc2 xad xff xff x00 x00 x01 x01)
(L (W x14 x00 x00 x00 x0c x00 x00 x00))
(L (W x46 x53 x59 x53 x5f x4e x53 x5f))))))))
(T (W xff xff xff xff xff xff xff xff)
(T (W xb8 x00 x00 x00 xac x00 x00 x00)
(T (W x01 x00 x00 x00 x3e x00 x00 x00)
(T (W xff xff xff xff x04 x00 x00 x00)
(T (W x0a xc7 xfb xff x74 x00 x00 x00)
(T (W xff xff xff xff xff xff xff xff)
(T (W x45 x26 x22 x84 xe4 x9c xf2 xcb)
(L (W x18 x00 x00 x00 x10 x00 x00 x00)) E)
(L (W xe7 x95 xc4 x28 xbf x62 x75 x6a)))
(T (W x00 x00 x00 x00 x00 x00 x00 x00)
(T (W x00 x00 x80 x3f x00 x00 x80 x3f)
(L (W xff xff xff xff xff xff xff xff)) E)
(L (W xec xcb xfe xff x00 x01 x01 x01))))
(T (W x00 x00 x00 x00 x00 x00 x00 x00)
(T (W xff xff xff xff xff xff xff xff)
(T (W x68 x00 x00 x00 x5c x00 x00 x00)
(L (W x0a x87 xff xff x74 x00 x00 x00)) E)
(L (W x00 x00 x80 xbf x00 x00 x80 xbf)))
(T (W xff xff xff xff xff xff xff xff)
(L (W x18 x00 x00 x00 x0c x00 x00 x00))
(L (W x00 x00 x00 x00 x00 x00 x00 x00)))))
(T (W xff xff xff xff x03 x00 x00 x00)
(T (W x00 x00 x80 x3f x00 x00 x80 x3f)
(T (W xff xff xff xff xff xff xff xff)
(T (W xff xff xff xff xff xff xff xff)
(L (W x4f x84 x6f x8b xe8 xcb x63 xb7)) E)
(L (W x00 x00 x00 x00 x00 x00 x00 x00)))
(T (W x00 x00 x00 x00 x00 x00 x00 x00)
(T (W x4f x84 x6f x8b xe8 xcb x63 xb7)
(L (W x4f x84 x6f x8b xe8 xcb x63 xb7)) E)
(L (W x54 xef xfe xff x21 x00 x00 x00))))
(T (W x84 x32 xfc xff x3e x00 x00 x00)
(T (W x00 x00 x80 x3f x00 x00 x80 x3f)
(T (W xff xff xff xff xa0 x00 x00 x00)
(L (W x80 x00 x08 x00 x78 x00 x0c x00)) E)
(L (W xff xff xff xff xc4 x00 x00 x00)))
(T (W x68 x00 x00 x00 x5c x00 x00 x00)
(L (W xff xff xff xff xff xff xff xff))
(L (W x00 x00 x80 xbf x00 x00 x80 xbf))))))
(T (W xff xff xff xff xff xff xff xff)
(T (W xb8 x00 x00 x00 xac x00 x00 x00)
(T (W x00 x00 x80 x3f x00 x00 x80 x3f)
(T (W xff xff xff xff xff xff xff xff)
(T (W x00 x00 x00 x00 x00 x00 x00 x00)
(L (W x46 x53 x59 x53 x5f x4e x53 x5f)) E)
(L (W x54 x5f xfe xff x2b x00 x00 x00)))
(T (W x18 x00 x00 x00 x10 x00 x00 x00)
(T (W xff xff xff xff xff xff xff xff)
(L (W xff xff xff xff xff xff xff xff)) E)
(L (W xff xff xff xff xff xff xff xff))))
(T (W x00 x00 x00 x00 x00 x00 x00 x00)
(T (W x00 x00 x00 x00 x00 x00 x00 x00)
(T (W x00 x00 x80 xbf x00 x00 x80 xbf)
(L (W xff xff xff xff xff xff xff xff)) E)
(L (W x45 x26 x22 x84 xe4 x9c xf2 xcb)))
(T (W x12 x00 x00 x00 x46 x53 x59 x53)
(L (W x00 x00 x01 x01 x85 x00 x00 x00))
(L (W x00 x00 x80 xbf x00 x00 x80 xbf)))))
(T (W x00 x00 x80 x3f x00 x00 x80 x3f)
(T (W x00 x00 x00 x00 x00 x00 x00 x00)
(T (W x45 x26 x22 x84 xe4 x9c xf2 xcb)
(T (W x00 x00 x80 x3f x00 x00 x80 x3f)
(L (W x00 x00 x80 xbf x00 x00 x80 xbf)) E)
(L (W x00 x00 x00 x00 x00 x00 x00 x00)))
(T (W x00 x00 x80 x3f x00 x00 x80 x3f)
(T (W x00 x00 x00 x00 x00 x00 x00 x00)
(L (W x45 x26 x22 x84 xe4 x9c xf2 xcb)) E)
(L (W x00 x00 x00 x00 x00 x00 x00 x00))))
(T (W xff xff xff xff xff xff xff xff)
(T (W xff xff xff xff x9c x00 x00 x00)
(T (W x00 x00 x00 x00 x00 x00 x00 x00)
(L (W x70 x00 x00 x00 x64 x00 x00 x00)) E)
(L (W x6c x00 x00 x00 x60 x00 x00 x00)))
(T (W x54 x00 x00 x00 x48 x00 x00 x00)
(L (W x45 x26 x22 x84 xe4 x9c xf2 xcb))
(L (W x40 x00 x00 x00 x00 x00 x80 xbf)))))))
(T (W xff xff xff xff xff xff xff xff)
(T (W xff xff xff xff xff xff xff xff)
(T (W x18 x00 x00 x00 x10 x00 x00 x00)
(T (W xec xd3 xfb xff x00 x01 x01 x01)
(T (W xff xff xff xff xff xff xff xff)
(T (W x00 x00 x00 x00 x00 x00 x00 x00)
(L (W x00 x00 x01 x01 xc8 x02 x00 x00)) E)
(L (W x00 x00 x00 x00 x00 x00 x00 x00)))
(T (W x00 x00 x80 x3f x00 x00 x80 x3f)
(T (W x03 x00 x00 x00 xcc x00 x00 x00)
(L (W x3c x02 x00 x00 x30 x01 x00 x00)) E)
(L (W xff xff xff xff xff xff xff xff))))
(T (W x45 x26 x22 x84 xe4 x9c xf2 xcb)
(T (W x00 x00 x00 x00 x00 x00 x00 x00)
(T (W x00 x00 x00 x00 x00 x00 x54 x00)
(L (W xb0 x00 x00 x00 x64 x00 x00 x00)) E)
(L (W xec x93 xfe xff x00 x01 x01 x01)))
(T (W x80 x03 x00 x00 x54 x02 x00 x00)
(L (W xb0 x00 x00 x00 x64 x00 x00 x00))
(L (W x49 xa1 x68 x4a xeb x5f xdd x3d)))))
(T (W x0a xaf xfb xff x74 x00 x00 x00)
(T (W x00 x00 x00 x00 x00 x00 x00 x00)
(T (W x5c x00 x60 x00 x62 x00 x00 x00)
(T (W xff xff xff xff xff xff xff xff)
(L (W x00 x00 x80 xbf x00 x00 x80 xbf)) E)
(L (W x46 x53 x59 x53 x5f x4e x53 x5f)))
(T (W x00 x00 x80 x3f x00 x00 x80 x3f)
(T (W x00 x00 x80 xbf x00 x00 x80 xbf)
(L (W x3c x00 x00 x00 x00 x00 x80 xbf)) E)
(L (W x00 x00 x00 x00 x00 x00 x00 x00))))
(T (W x01 x00 x00 x00 x04 x00 x00 x00)
(T (W x18 x00 x00 x00 x0c x00 x00 x00)
(T (W x47 x06 x12 x3a xb1 x83 x66 xe3)
(L (W x45 x26 x22 x84 xe4 x9c xf2 xcb)) E)
(L (W x6c x00 x00 x00 x60 x00 x00 x00)))
(T (W x00 x00 x80 x3f x00 x00 x80 x3f)
(L (W x46 x53 x59 x53 x5f x4e x53 x5f))
(L (W xc2 x30 xff xff x78 x00 x00 x00))))))
(T (W xff xff xff xff xff xff xff xff)
(T (W xc0 x00 x00 x00 xb4 x00 x00 x00)
(T (W x00 x00 x80 x3f x00 x00 x80 x3f)
(T (W xff xff xff xff xff xff xff xff)
(T (W xc2 xd1 xff xff x00 x00 x01 x01)
(L (W x00 x00 x00 x00 x00 x00 x00 x00)) E)
(L (W x00 x00 x00 x00 x12 x00 x00 x00)))
(T (W xff xff xff xff xff xff xff xff)
(T (W x00 x00 x00 x00 x00 x00 x00 x00)
(L (W x04 x00 x00 x00 x4a xed xff xff)) E)
(L (W x00 x00 x00 x00 x00 x00 x00 x00))))
(T (W x00 x00 x00 x00 x00 x00 x00 x00)
(T (W x4f x84 x6f x8b xe8 xcb x63 xb7)
(T (W x00 x00 x00 x00 x00 x00 x00 x00)
(L (W x00 x00 x00 x00 x00 x00 x00 x00)) E)
(L (W x00 x01 x01 x01 x4a xab xfe xff)))
(T (W x00 x00 x80 x3f x00 x00 x80 x3f)
(L (W x64 x01 x00 x00 xff xff xff xff))
(L (W x54 x00 x00 x00 x48 x00 x00 x00)))))
(T (W x68 x00 x00 x00 x5c x00 x00 x00)
(T (W x00 x00 x00 x00 x00 x00 x00 x00)
(T (W xff xff xff xff xff xff xff xff)
(T (W x00 x00 x80 x3f x00 x00 x80 x3f)
(L (W x6c x00 x00 x00 x60 x00 x00 x00)) E)
(L (W x4f x84 x6f x8b xe8 xcb x63 xb7)))
(T (W x18 x00 x00 x00 x0c x00 x00 x00)
(T (W x00 x00 x80 xbf x00 x00 x80 xbf)
(L (W x00 x00 x00 x00 x00 x00 x00 x00)) E)
(L (W x46 x53 x59 x53 x5f x4e x53 x5f))))
(T (W xff xff xff xff xff xff xff xff)
(T (W xff xff xff xff xff xff xff xff)
(T (W x00 x00 x80 x3f x00 x00 x80 x3f)
(L (W xff xff xff xff xff xff xff xff)) E)
(L (W x00 x00 x80 xbf x00 x00 x80 xbf)))
(T (W x00 x00 x80 x3f x00 x00 x80 x3f)
(L (W x45 x44 x00 x00 x00 x00 x00 x00))
(L (W xec x43 xff xff x00 x01 x01 x01)))))))))))
(T (W x18 x5b x02 x00 xdc x59 x02 x00)
(T (W xa0 xb9 x01 x00 xec xb4 x01 x00)
(T (W x60 x86 x00 x00 x2c x85 x00 x00)
(T (W x68 x00 x00 x00 x5c x00 x00 x00)
(T (W x00 x00 x80 x3f x00 x00 x80 x3f)
(T (W x00 x00 x80 x3f x00 x00 x80 x3f)
(T (W x42 x82 xfb xff x78 x00 x00 x00)
(T (W x00 x00 x00 x00 x00 x00 x00 x00)
(T (W x8a x40 xfc xff x74 x00 x00 x00)
(T (W x00 x00 x00 x00 x00 x00 x00 x00)
(L (W x45 x26 x22 x84 xe4 x9c xf2 xcb)) E)
(L (W xff xff xff xff xff xff xff xff)))
(T (W x00 x00 x00 x00 xdc xc3 xfc xff)
(T (W x00 x00 x00 x00 x00 x00 x00 x00)
(L (W x00 x00 x80 xbf x00 x00 x80 xbf)) E)
(L (W x00 x00 x80 xbf x00 x00 x80 xbf))))
(T (W xff xff xff xff xff xff xff xff)
(T (W x00 x00 x80 x3f x00 x00 x80 x3f)
(T (W x00 x00 x00 x00 x00 x00 x00 x00)
(L (W x00 x00 x00 x00 x00 x00 x00 x00)) E)
(L (W x06 x00 x00 x00 xc4 x05 x00 x00)))
(T (W x45 x26 x22 x84 xe4 x9c xf2 xcb)
(T (W x12 x00 x00 x00 x46 x53 x59 x53)
(L (W x00 x00 x00 x00 x00 x00 x00 x00)) E)
(L (W xff xff xff xff xff xff xff xff)))))
(T (W x00 x00 x80 x3f x00 x00 x80 x3f)
(T (W x00 x00 x00 x00 x00 x00 x00 x00)
(T (W x6c x65 xfc xff x00 x01 x01 x01)
(T (W x8a x60 xfd xff x74 x00 x00 x00)
(L (W xff xff xff xff xff xff xff xff)) E)
(L (W x03 x00 x00 x00 xd8 x00 x00 x00)))
(T (W x03 x00 x00 x00 xd4 x00 x00 x00)
(T (W xff xff xff xff xff xff xff xff)
(L (W x5c x00 x60 x00 x62 x00 x00 x00)) E)
(L (W x24 x00 x00 x00 x27 x00 x00 x00))))
(T (W xff xff xff xff xff xff xff xff)
(T (W x04 x00 x00 x00 x80 x03 x00 x00)
(T (W xff xff xff xff xff xff xff xff)
(L (W x18 x00 x00 x00 x0c x00 x00 x00)) E)
(L (W x00 x00 x00 x00 x00 x00 x00 x00)))
(T (W x00 x00 x00 x00 x00 x00 x00 x00)
(L (W x00 x01 x01 x01 xc2 x31 xfe xff))
(L (W x00 x00 x00 x00 x00 x00 x00 x00))))))
(T (W x01 x00 x00 x00 x21 x00 x00 x00)
(T (W x00 x00 x80 x3f x00 x00 x80 x3f)
(T (W x00 x00 x00 x00 x00 x00 x00 x00)
(T (W x68 x00 x00 x00 x5c x00 x00 x00)
(T (W xff xff xff xff xff xff xff xff)
(L (W x18 x00 x00 x00 x10 x00 x00 x00)) E)
(L (W xff xff xff xff xff xff xff xff)))
(T (W x00 x00 x00 x00 x00 x00 x00 x00)
(T (W x00 x00 x80 xbf x00 x00 x80 xbf)
(L (W xac x00 x00 x00 x64 x00 x00 x00)) E)
(L (W x54 x00 x00 x00 x48 x00 x00 x00))))
(T (W xff xff xff xff xff xff xff xff)
(T (W xff xff xff xff xff xff xff xff)
(T (W x00 x00 x60 x00 x00 x00 x00 x00)
(L (W x45 x26 x22 x84 xe4 x9c xf2 xcb)) E)
(L (W x45 x26 x22 x84 xe4 x9c xf2 xcb)))
(T (W xff xff xff xff xff xff xff xff)
(L (W x00 x00 x80 xbf x00 x00 x80 xbf))
(L (W x18 x00 x00 x00 x0c x00 x00 x00)))))
(T (W x45 x26 x22 x84 xe4 x9c xf2 xcb)
(T (W xa4 x12 xfa x86 x8f xfc x0b xd3)
(T (W x54 x00 x00 x00 x58 x00 x00 x00)
(T (W x00 x00 x80 x3f x00 x00 x80 x3f)
(L (W x00 x00 x00 x00 x00 x00 x00 x00)) E)
(L (W xff xff xff xff xff xff xff xff)))
(T (W x00 x00 x00 x00 x00 x00 x00 x00)
(T (W x45 x44 x00 x00 x00 x00 x00 x00)
(L (W x46 x53 x59 x53 x5f x4e x53 x5f)) E)
(L (W xff xff xff xff xff xff xff xff))))
(T (W xff xff xff xff xff xff xff xff)
(T (W x00 x00 x80 x3f x00 x00 x80 x3f)
(T (W xff xff xff xff xff xff xff xff)
(L (W x45 x26 x22 x84 xe4 x9c xf2 xcb)) E)
(L (W x00 x00 x00 x00 x00 x00 x00 x00)))
(T (W x00 x00 x00 x00 x00 x00 x00 x00)
(L (W xff xff xff xff xff xff xff xff))
(L (W x00 x00 x00 x00 x00 x00 x00 x00)))))))
(T (W x00 x00 x80 x3f x00 x00 x80 x3f)
(T (W x40 x00 x00 x00 x9c x00 x00 x00)
(T (W x00 x00 x80 x3f x00 x00 x80 x3f)
(T (W x00 x00 x00 x00 x00 x00 x00 x00)
(T (W x00 x00 x80 x3f x00 x00 x80 x3f)
(T (W x42 xbb xff xff x00 x00 x01 x01)
(L (W x00 x00 x80 xbf x00 x00 x80 xbf)) E)
(L (W xff xff xff xff xff xff xff xff)))
(T (W xff xff xff xff xff xff xff xff)
(T (W x00 x00 x00 x00 x00 x00 x00 x00)
(L (W x42 xca xff xff x78 x00 x00 x00)) E)
(L (W x45 x26 x22 x84 xe4 x9c xf2 xcb))))
(T (W xff xff xff xff xff xff xff xff)
(T (W x8a x88 xfc xff x74 x00 x00 x00)
(T (W x00 x00 x00 x00 x00 x00 x00 x00)
(L (W x00 x00 x00 x00 x00 x00 x00 x00)) E)
(L (W x00 x00 x00 x00 x00 x00 x00 x00)))
(T (W x68 x00 x00 x00 x5c x00 x00 x00)
(L (W x00 x00 x80 xbf x00 x00 x80 xbf))
(L (W x64 x01 x00 x00 xff xff xff xff)))))
(T (W x00 x00 x80 x3f x00 x00 x80 x3f)
(T (W x00 x00 x00 x00 x00 x00 x00 x00)
(T (W xff xff xff xff xff xff xff xff)
(T (W x68 x00 x00 x00 x5c x00 x00 x00)
(L (W x29 x9b xaa x28 xbf xcd x56 x6a)) E)
(L (W x64 x01 x00 x00 xff xff xff xff)))
(T (W xff xff xff xff xff xff xff xff)
(T (W xff xff xff xff xff xff xff xff)
(L (W x02 x00 x00 x00 x30 x01 x00 x00)) E)
(L (W xff xff xff xff xff xff xff xff))))
(T (W xff xff xff xff x03 x00 x00 x00)
(T (W x00 x00 x00 x00 x00 x00 x00 x00)
(T (W x00 x00 x80 x3f x00 x00 x80 x3f)
(L (W x00 x00 x00 x00 x00 x00 x00 x00)) E)
(L (W x03 x00 x00 x00 xcc x00 x00 x00)))
(T (W x00 x00 x00 x00 x00 x00 x00 x00)
(L (W x44 x00 x4c x00 x04 x00 x08 x00))
(L (W x49 xa1 x68 x4a xeb x5f xdd x3d))))))
(T (W x68 x00 x00 x00 x5c x00 x00 x00)
(T (W x45 x26 x22 x84 xe4 x9c xf2 xcb)
(T (W x00 x00 x00 x00 x00 x00 x00 x00)
(T (W x8a x58 xfc xff x74 x00 x00 x00)
(T (W xff xff xff xff xff xff xff xff)
(L (W xff xff xff xff xff xff xff xff)) E)
(L (W xff xff xff xff xff xff xff xff)))
(T (W x00 x00 x80 x3f x00 x00 x80 x3f)
(T (W x45 x26 x22 x84 xe4 x9c xf2 xcb)
(L (W x44 x00 x00 x00 x00 x00 x80 xbf)) E)
(L (W x00 x00 x00 x00 xdc xdb xfe xff))))
(T (W xff xff xff xff xff xff xff xff)
(T (W xff xff xff xff xff xff xff xff)
(T (W x00 x00 x00 x00 x00 x00 x00 x00)
(L (W x45 x26 x22 x84 xe4 x9c xf2 xcb)) E)
(L (W x3c x00 x00 x00 x00 x00 x80 xbf)))
(T (W x02 x00 x00 x00 xff xff xff xff)
(L (W x18 x00 x00 x00 x10 x00 x00 x00))
(L (W x00 x00 x00 x00 x00 x00 x00 x00)))))
(T (W x00 x00 x00 x00 x00 x00 x00 x00)
(T (W xf0 x00 x00 x00 xff xff xff xff)
(T (W x45 x26 x22 x84 xe4 x9c xf2 xcb)
(T (W x00 x00 x00 x00 x02 x00 x00 x00)
(L (W x00 x00 x00 x00 x00 x00 x00 x00)) E)
(L (W x00 x00 x00 x00 x00 x00 x00 x00)))
(T (W x00 x00 x00 x00 x00 x00 x00 x00)
(T (W x82 x51 xfe xff x00 x00 x01 x01)
(L (W x54 x00 x00 x00 x48 x00 x00 x00)) E)
(L (W xff xff xff xff xbc x00 x00 x00))))
(T (W x18 x00 x00 x00 x0c x00 x00 x00)
(T (W x00 x00 x80 x3f x00 x00 x80 x3f)
(T (W x00 x00 x00 x00 x00 x00 x00 x00)
(L (W x00 x00 x80 xbf x00 x00 x80 xbf)) E)
(L (W x00 x00 x00 x00 x00 x00 x00 x00)))
(T (W x00 x00 x00 x00 x00 x00 x00 x00)
(L (W xff xff xff xff xff xff xff xff))
(L (W x00 x00 x80 xbf x00 x00 x80 xbf))))))))
(T (W x42 xbf xfd xff x00 x00 x01 x01)
(T (W x00 x00 x00 x00 x00 x00 x00 x00)
(T (W x00 x00 x00 x00 x00 x00 x00 x00)
(T (W x42 xf7 xfd xff x00 x00 x01 x01)
(T (W xb8 x00 x00 x00 xac x00 x00 x00)
(T (W x00 x00 x00 x00 x00 x00 x00 x00)
(T (W x68 x00 x00 x00 x5c x00 x00 x00)
(L (W xff xff xff xff xff xff xff xff)) E)
(L (W x00 x00 x00 x00 x00 x00 x00 x00)))
(T (W x00 x00 x00 x00 x00 x00 x00 x00)
(T (W x42 xc6 xfd xff x78 x00 x00 x00)
(L (W xff xff xff xff xff xff xff xff)) E)
(L (W xff xff xff xff xff xff xff xff))))
(T (W x00 x00 x80 x3f x00 x00 x80 x3f)
(T (W x00 x00 x00 x00 x00 x00 x00 x00)
(T (W xff xff xff xff xff xff xff xff)
(L (W xff xff xff xff xff xff xff xff)) E)
(L (W x8a x84 xfe xff x74 x00 x00 x00)))
(T (W xff xff xff xff xff xff xff xff)
(L (W x03 x00 x00 x00 xd0 x00 x00 x00))
(L (W x00 x00 x00 x00 x00 x00 x00 x00)))))
(T (W xff xff xff xff xff xff xff xff)
(T (W x00 x00 x80 x3f x00 x00 x80 x3f)
(T (W xff xff xff xff xff xff xff xff)
(T (W x00 x00 x00 x00 x00 x00 x00 x00)
(L (W x54 x00 x00 x00 x48 x00 x00 x00)) E)
(L (W x00 x00 x80 xbf x00 x00 x80 xbf)))
(T (W x00 x00 x00 x00 x00 x00 x00 x00)
(T (W x54 x00 x00 x00 x48 x00 x00 x00)
(L (W x4f x84 x6f x8b xe8 xcb x63 xb7)) E)
(L (W x45 x26 x22 x84 xe4 x9c xf2 xcb))))
(T (W x00 x00 x00 x00 x00 x00 x00 x00)
(T (W x68 x00 x00 x00 x5c x00 x00 x00)
(T (W x00 x00 x00 x00 x0c x00 x08 x00)
(L (W x00 x00 x00 x00 x00 x00 x00 x00)) E)
(L (W xff xff xff xff xff xff xff xff)))
(T (W x03 x00 x00 x00 xd4 x00 x00 x00)
(L (W x3c x02 x00 x00 x18 x01 x00 x00))
(L (W x2f x00 x00 x00 x32 x00 x00 x00))))))
(T (W x01 x00 x00 x00 x04 x00 x00 x00)
(T (W x20 x01 x00 x00 x04 x00 x00 x00)
(T (W x45 x26 x22 x84 xe4 x9c xf2 xcb)
(T (W x40 x00 x00 x00 x10 x00 x00 x00)
(T (W x45 x26 x22 x84 xe4 x9c xf2 xcb)
(L (W x00 x00 x80 xbf x00 x00 x80 xbf)) E)
(L (W x00 x00 x00 x00 x00 x00 x00 x00)))
(T (W xff xff xff xff xff xff xff xff)
(T (W x30 x35 x5f x43 x4c x45 x41 x52)
(L (W x00 x00 x00 x00 x00 x00 x00 x00)) E)
(L (W x00 x00 x00 x00 x00 x00 x00 x00))))
(T (W x45 x26 x22 x84 xe4 x9c xf2 xcb)
(T (W x00 x00 x80 x3f x00 x00 x80 x3f)
(T (W x00 x00 x80 xbf x00 x00 x80 xbf)
(L (W x00 x00 x00 x00 x00 x00 x00 x00)) E)
(L (W xff xff xff xff xff xff xff xff)))
(T (W x00 x00 x80 x3f x00 x00 x80 x3f)
(L (W x8f x81 xc7 x28 xbf xcd x78 x6a))
(L (W x45 x26 x22 x84 xe4 x9c xf2 xcb)))))
(T (W xff xff xff xff xff xff xff xff)
(T (W x68 x00 x00 x00 x5c x00 x00 x00)
(T (W xff xff xff xff xff xff xff xff)
(T (W x6c x79 xfd xff x00 x01 x01 x01)
(L (W x03 x00 x00 x00 xc8 x00 x00 x00)) E)
(L (W x00 x00 x80 xbf x00 x00 x80 xbf)))
(T (W xff xff xff xff x9c x00 x00 x00)
(T (W x00 x00 x80 xbf x00 x00 x80 xbf)
(L (W x10 x00 x04 x00 x08 x00 x0c x00)) E)
(L (W x45 x26 x22 x84 xe4 x9c xf2 xcb))))
(T (W x00 x00 x00 x00 x00 x00 x00 x00)
(T (W xff xff xff xff xff xff xff xff)
(T (W x61 x64 x65 x72 x5f x77 x69 x6c)
(L (W xff xff xff xff xff xff xff xff)) E)
(L (W x42 xb6 xfe xff x78 x00 x00 x00)))
(T (W xbc x00 x00 x00 xb0 x00 x00 x00)
(L (W x00 x00 x80 xbf x00 x00 x80 xbf))
(L (W xff xff xff xff xff xff xff xff)))))))
(T (W x1d x00 x00 x00 x0c x00 x00 x00)
(T (W xd4 x74 xfb xff x0e x00 x00 x00)
(T (W x00 x00 x00 x00 x00 x00 x00 x00)
(T (W xff xff xff xff x04 x00 x00 x00)
(T (W x00 x00 x00 x00 x00 x00 x00 x00)
(T (W x00 x00 x80 x3f x00 x00 x80 x3f)
(L (W x8f x9e xaa x28 xbf xcf x56 x6a)) E)
(L (W x00 x00 x00 x00 x00 x00 x00 x00)))
(T (W x00 x00 x80 x3f x00 x00 x80 x3f)
(T (W xff xff xff xff xff xff xff xff)
(L (W x00 x00 x00 x00 x3a xcf xff xff)) E)
(L (W xff xff xff xff xff xff xff xff))))
(T (W x00 x00 x80 x3f x00 x00 x80 x3f)
(T (W x00 x00 x00 x00 x00 x00 x00 x00)
(T (W x8a x8c xfd xff x74 x00 x00 x00)
(L (W xff xff xff xff xff xff xff xff)) E)
(L (W x18 x00 x00 x00 x0c x00 x00 x00)))
(T (W x00 x00 x00 x00 x00 x00 x00 x00)
(L (W xff xff xff xff xff xff xff xff))
(L (W x00 x00 x80 xbf x00 x00 x80 xbf)))))
(T (W xff xff xff xff xff xff xff xff)
(T (W x50 x00 x00 x00 x44 x00 x00 x00)
(T (W xff xff xff xff xff xff xff xff)
(T (W x42 xdf xff xff x00 x00 x01 x01)
(L (W xff xff xff xff xa0 x00 x00 x00)) E)
(L (W x4f x84 x6f x8b xe8 xcb x63 xb7)))
(T (W x00 x00 x80 x3f x00 x00 x80 x3f)
(T (W x00 x00 x80 xbf x00 x00 x80 xbf)
(L (W xff xff xff xff x90 x00 x00 x00)) E)
(L (W x49 xa1 x68 x4a xeb x5f xdd x3d))))
(T (W x00 x00 x00 x00 x00 x00 x00 x00)
(T (W x03 x00 x00 x00 xd0 x00 x00 x00)
(T (W x6c x76 x31 x00 x22 x00 x00 x00)
(L (W xff xff xff xff xff xff xff xff)) E)
(L (W x00 x00 x00 x00 xdc xaf xfe xff)))
(T (W x64 x00 x00 x00 x9c x00 x00 x00)
(L (W x00 x00 x80 xbf x00 x00 x80 xbf))
(L (W x03 x00 x00 x00 xd8 x00 x00 x00))))))
(T (W xff xff xff xff xff xff xff xff)
(T (W xff xff xff xff xff xff xff xff)
(T (W x68 x00 x00 x00 x5c x00 x00 x00)
(T (W x42 xcf xfe xff x00 x00 x01 x01)
(T (W x00 x00 x00 x00 x00 x00 x00 x00)
(L (W x00 x00 x80 xbf x00 x00 x80 xbf)) E)
(L (W x3c x00 x00 x00 x00 x00 x80 xbf)))
(T (W x56 x8b x83 x90 xa4 x1b x70 x04)
(T (W x00 x00 x00 x00 x00 x00 x00 x00)
(L (W x24 x00 x00 x00 x0c x00 x00 x00)) E)
(L (W x00 x00 x00 x00 x00 x00 x00 x00))))
(T (W x00 x00 x00 x00 x00 x00 x00 x00)
(T (W x54 x00 x00 x00 x48 x00 x00 x00)
(T (W x00 x00 x00 x00 x00 x00 x00 x00)
(L (W x45 x44 x00 x00 x00 x00 x00 x00)) E)
(L (W xff xff xff xff xff xff xff xff)))
(T (W x00 x00 x80 x3f x00 x00 x80 x3f)
(L (W x00 x00 x00 x00 x00 x00 x00 x00))
(L (W x00 x01 x01 x01 xca x28 xff xff)))))
(T (W xff xff xff xff xff xff xff xff)
(T (W x8a xfc xfb xff x74 x00 x00 x00)
(T (W xff xff xff xff xff xff xff xff)
(T (W x00 x00 x80 x3f x00 x00 x80 x3f)
(L (W x18 x00 x00 x00 x10 x00 x00 x00)) E)
(L (W x6c x00 x00 x00 x60 x00 x00 x00)))
(T (W xff xff xff xff xff xff xff xff)
(T (W x00 x00 x80 xbf x00 x00 x80 xbf)
(L (W xbc x00 x00 x00 x14 x00 x00 x00)) E)
(L (W x00 x00 x00 x00 x00 x00 x00 x00))))
(T (W x00 x00 x00 x00 x00 x00 x00 x00)
(T (W x02 x00 x00 x00 x30 x01 x00 x00)
(T (W x45 x26 x22 x84 xe4 x9c xf2 xcb)
(L (W xff xff xff xff xff xff xff xff)) E)
(L (W xff xff xff xff xa0 x00 x00 x00)))
(T (W x8a x3c xfd xff x74 x00 x00 x00)
(L (W x00 x00 x80 xbf x00 x00 x80 xbf))
(L (W xff xff xff xff xff xff xff xff)))))))))
(T (W x00 x00 x00 x00 x00 x00 x00 x00)
(T (W xff xff xff xff xff xff xff xff)
(T (W xff xff xff xff x03 x00 x00 x00)
(T (W xff xff xff xff xff xff xff xff)
(T (W xff xff xff xff xff xff xff xff)
(T (W x00 x00 x80 x3f x00 x00 x80 x3f)
(T (W xff xff xff xff xff xff xff xff)
(T (W x45 x26 x22 x84 xe4 x9c xf2 xcb)
(L (W x14 x00 x00 x00 x0c x00 x00 x00)) E)
(L (W x00 x00 x00 x00 x00 x00 x00 x00)))
(T (W xff xff xff xff xff xff xff xff)
(T (W x00 x00 x80 x3f x00 x00 x80 x3f)
(L (W xff xff xff xff xa0 x00 x00 x00)) E)
(L (W x42 xc4 xfe xff x78 x00 x00 x00))))
(T (W x00 x00 x00 x00 x00 x00 x00 x00)
(T (W xff xff xff xff xff xff xff xff)
(T (W x00 x00 x80 x3f x00 x00 x80 x3f)
(L (W x42 x84 xff xff x78 x00 x00 x00)) E)
(L (W x00 x00 x80 xbf x00 x00 x80 xbf)))
(T (W xb8 x00 x00 x00 x64 x00 x00 x00)
(L (W x54 x00 x00 x00 x48 x00 x00 x00))
(L (W x00 x00 x01 x01 x69 x01 x00 x00)))))
(T (W x68 x00 x00 x00 x5c x00 x00 x00)
(T (W x00 x00 x80 x3f x00 x00 x80 x3f)
(T (W xb8 x00 x00 x00 xac x00 x00 x00)
(T (W xff xff xff xff xff xff xff xff)
(L (W x4f x84 x6f x8b xe8 xcb x63 xb7)) E)
(L (W x20 x00 x00 x00 x0c x00 x00 x00)))
(T (W x9c x01 x00 x00 xff xff xff xff)
(T (W x00 x00 x00 x00 x00 x00 x00 x00)
(L (W x46 x53 x59 x53 x5f x4e x53 x5f)) E)
(L (W x04 x00 x00 x00 x70 x03 x00 x00))))
(T (W x00 x00 x00 x00 x00 x00 x00 x00)
(T (W x00 x00 x80 x3f x00 x00 x80 x3f)
(T (W x00 x00 x00 x00 x00 x00 x00 x00)
(L (W xff xff xff xff xff xff xff xff)) E)
(L (W x00 x00 x00 x00 xdc xa5 xfe xff)))
(T (W x00 x00 x80 x3f x00 x00 x80 x3f)
(L (W x3b x00 x00 x00 x3e x00 x00 x00))
(L (W x00 x00 x80 xbf x00 x00 x80 xbf))))))
(T (W xff xff xff xff xff xff xff xff)
(T (W xff xff xff xff x04 x00 x00 x00)
(T (W x45 x26 x22 x84 xe4 x9c xf2 xcb)
(T (W xff xff xff xff x04 x00 x00 x00)
(T (W x00 x00 x00 x00 x00 x00 x00 x00)
(L (W x69 x01 x00 x00 xff xff xff xff)) E)
(L (W xff xff xff xff xff xff xff xff)))
(T (W x00 x00 x80 x3f x00 x00 x80 x3f)
(T (W xff xff xff xff xbc x00 x00 x00)
(L (W xff xff xff xff xff xff xff xff)) E)
(L (W xff xff xff xff xff xff xff xff))))
(T (W x6f xcd xfd x95 xcc x13 x31 xdf)
(T (W x8c x09 xaf xaa x7a xe8 xb9 xe3)
(T (W x7c x00 x80 x00 x62 x00 x00 x00)
(L (W xff xff xff xff xff xff xff xff)) E)
(L (W x00 x00 x80 xbf x00 x00 x80 xbf)))
(T (W x2a x69 xfe xff x9c x01 x00 x00)
(L (W xff xff xff xff xff xff xff xff))
(L (W x00 x00 x80 xbf x00 x00 x80 xbf)))))
(T (W x68 x00 x00 x00 x5c x00 x00 x00)
(T (W x00 x00 x00 x00 x00 x00 x00 x00)
(T (W x00 x00 x80 x3f x00 x00 x80 x3f)
(T (W x64 x00 x08 x00 x0c x00 x00 x00)
(L (W x00 x00 x80 xbf x00 x00 x80 xbf)) E)
(L (W x00 x00 x00 x00 x00 x00 x00 x00)))
(T (W x00 x00 x00 x00 x00 x00 x00 x00)
(T (W x00 x00 x00 x00 x00 x00 x00 x00)
(L (W x1c x00 x00 x00 x10 x00 x00 x00)) E)
(L (W x00 x00 x00 x00 x00 x00 x00 x00))))
(T (W x48 x03 x00 x00 x34 x02 x00 x00)
(T (W x68 x00 x00 x00 x5c x00 x00 x00)
(T (W x00 x00 x80 x3f x00 x00 x80 x3f)
(L (W x31 x00 x00 x00 x34 x00 x00 x00)) E)
(L (W x00 x00 x80 xbf x00 x00 x80 xbf)))
(T (W x00 x00 x80 x3f x00 x00 x80 x3f)
(L (W x00 x00 x00 x00 x00 x00 x00 x00))
(L (W x14 x00 x00 x00 x0c x00 x00 x00)))))))
(T (W xff xff xff xff xff xff xff xff)
(T (W xff xff xff xff xff xff xff xff)
(T (W xb8 x00 x00 x00 xac x00 x00 x00)
(T (W x00 x00 x80 x3f x00 x00 x80 x3f)
(T (W xff xff xff xff xff xff xff xff)
(T (W x00 x00 x00 x00 x00 x00 x00 x00)
(L (W xcc x00 x00 x00 x01 x00 x00 x00)) E)
(L (W x00 x00 x00 x00 x00 x00 x00 x00)))
(T (W x00 x00 x00 x00 x00 x00 x00 x00)
(T (W x45 x26 x22 x84 xe4 x9c xf2 xcb)
(L (W xff xff xff xff xff xff xff xff)) E)
(L (W xff xff xff xff xa0 x00 x00 x00))))
(T (W x00 x00 x00 x00 x00 x00 x00 x00)
(T (W xff xff xff xff xff xff xff xff)
(T (W x00 x00 x80 x3f x00 x00 x80 x3f)
(L (W x18 x00 x00 x00 x10 x00 x00 x00)) E)
(L (W x00 x00 x80 xbf x00 x00 x80 xbf)))
(T (W xff xff xff xff xff xff xff xff)
(L (W x68 x00 x00 x00 x5c x00 x00 x00))
(L (W x00 x00 x00 x00 x00 x00 x00 x00)))))
(T (W x00 x00 x80 x3f x00 x00 x80 x3f)
(T (W x00 x00 x80 x3f x00 x00 x80 x3f)
(T (W x00 x00 x80 x3f x00 x00 x80 x3f)
(T (W xff xff xff xff xff xff xff xff)
(L (W x45 x26 x22 x84 xe4 x9c xf2 xcb)) E)
(L (W x46 x53 x59 x53 x5f x4e x53 x5f)))
(T (W x00 x00 x00 x00 x00 x00 x00 x00)
(T (W x00 x00 x00 x00 x00 x00 x00 x00)
(L (W x00 x00 x00 x00 x00 x00 x00 x00)) E)
(L (W x30 x35 x5f x43 x4c x45 x41 x52))))
(T (W x00 x00 x00 x00 x00 x00 x00 x00)
(T (W x00 x00 x80 x3f x00 x00 x80 x3f)
(T (W xff xff xff xff xff xff xff xff)
(L (W x45 x26 x22 x84 xe4 x9c xf2 xcb)) E)
(L (W x45 x26 x22 x84 xe4 x9c xf2 xcb)))
(T (W x00 x00 x80 x3f x00 x00 x80 x3f)
(L (W x00 x00 x00 x00 x4a x34 xfe xff))
(L (W x6c x00 x00 x00 x60 x00 x00 x00))))))
(T (W xff xff xff xff xff xff xff xff)
(T (W x45 x26 x22 x84 xe4 x9c xf2 xcb)
(T (W x00 x00 x80 x3f x00 x00 x80 x3f)
(T (W x18 x00 x00 x00 x10 x00 x00 x00)
(T (W x42 xcd xff xff x00 x00 x01 x01)
(L (W xd4 x62 xff xff x21 x00 x00 x00)) E)
(L (W x30 x35 x5f x43 x4c x45 x41 x52)))
(T (W xb0 x00 x00 x00 x64 x00 x00 x00)
(T (W xff xff xff xff xff xff xff xff)
(L (W xff xff xff xff xff xff xff xff)) E)
(L (W x00 x00 x00 x00 x00 x00 x00 x00))))
(T (W xd2 x8b xfe xff xc8 x00 x00 x00)
(T (W x00 x00 x00 x00 x12 x00 x00 x00)
(T (W xff xff xff xff xff xff xff xff)
(L (W xff xff xff xff xff xff xff xff)) E)
(L (W x1c x00 x00 x00 x10 x00 x00 x00)))
(T (W x00 x00 x00 x00 x00 x00 x00 x00)
(L (W xff xff xff xff xff xff xff xff))
(L (W x00 x00 x80 xbf x00 x00 x80 xbf)))))
(T (W x42 xbc xfb xff x78 x00 x00 x00)
(T (W x00 x00 x00 x00 x00 x00 x00 x00)
(T (W x8a x7a xfc xff x74 x00 x00 x00)
(T (W x00 x00 x00 x00 x00 x00 x00 x00)
(L (W x00 x00 x80 xbf x00 x00 x80 xbf)) E)
(L (W x00 x00 x00 x00 x00 x00 x00 x00)))
(T (W x00 x00 x80 x3f x00 x00 x80 x3f)
(T (W x45 x26 x22 x84 xe4 x9c xf2 xcb)
(L (W x00 x00 x00 x00 x00 x00 x00 x00)) E)
(L (W x00 x00 x00 x00 x00 x00 x00 x00))))
(T (W xff xff xff xff xff xff xff xff)
(T (W x03 x00 x00 x00 xd0 x00 x00 x00)
(T (W x00 x00 x80 x3f x00 x00 x80 x3f)
(L (W x42 xbc xff xff x78 x00 x00 x00)) E)
(L (W x00 x00 x80 xbf x00 x00 x80 xbf)))
(T (W x00 x00 x80 x3f x00 x00 x80 x3f)
(L (W x45 x44 x00 x00 x00 x00 x00 x00))
(L (W x42 x3c xff xff x78 x00 x00 x00))))))))
(T (W x00 x00 x00 x00 x00 x00 x00 x00)
(T (W x00 x00 x00 x00 x00 x00 x00 x00)
(T (W x5c x00 x60 x00 x64 x00 x00 x00)
(T (W x00 x00 x00 x00 x00 x00 x00 x00)
(T (W x00 x00 x00 x00 x00 x00 x00 x00)
(T (W x00 x00 x80 x3f x00 x00 x80 x3f)
(T (W xff xff xff xff xff xff xff xff)
(L (W x30 x35 x5f x43 x4c x45 x41 x52)) E)
(L (W x00 x00 x80 xbf x00 x00 x80 xbf)))
(T (W x68 x00 x00 x00 x5c x00 x00 x00)
(T (W xff xff xff xff xff xff xff xff)
(L (W x00 x00 x80 xbf x00 x00 x80 xbf)) E)
(L (W x00 x00 x00 x00 x3a xc9 xfe xff))))
(T (W x0a x00 x00 x00 x3e x00 x00 x00)
(T (W x00 x00 x00 x00 x00 x00 x00 x00)
(T (W x42 xf9 xff xff x00 x00 x01 x01)
(L (W xd7 x00 x00 x00 xff xff xff xff)) E)
(L (W xff xff xff xff xff xff xff xff)))
(T (W x49 xa1 x68 x4a xeb x5f xdd x3d)
(L (W x04 x00 x00 x00 x80 x03 x00 x00))
(L (W x8a x06 xff xff x74 x00 x00 x00)))))
(T (W x00 x00 x00 x00 x00 x00 x00 x00)
(T (W xff xff xff xff xff xff xff xff)
(T (W x00 x00 x00 x00 x00 x00 x00 x00)
(T (W x45 x26 x22 x84 xe4 x9c xf2 xcb)
(L (W xcc x00 x00 x00 x01 x00 x00 x00)) E)
(L (W x00 x00 x00 x00 xdc x69 xfe xff)))
(T (W x45 x26 x22 x84 xe4 x9c xf2 xcb)
(T (W x03 x00 x00 x00 xd0 x00 x00 x00)
(L (W x03 x00 x00 x00 xd0 x00 x00 x00)) E)
(L (W x00 x00 x80 xbf x00 x00 x80 xbf))))
(T (W x00 x00 x80 x3f x00 x00 x80 x3f)
(T (W xff xff xff xff xff xff xff xff)
(T (W x4c x45 x41 x52 x45 x44 x00 x00)
(L (W x00 x00 x00 x00 x00 x00 x00 x00)) E)
(L (W x00 x00 x00 x00 x00 x00 x00 x00)))
(T (W x9c x01 x00 x00 xff xff xff xff)
(L (W x00 x00 x00 x00 x00 x00 x00 x00))
(L (W xff xff xff xff xff xff xff xff))))))
(T (W x45 x26 x22 x84 xe4 x9c xf2 xcb)
(T (W x00 x00 x00 x00 x00 x00 x00 x00)
(T (W xff xff xff xff xff xff xff xff)
(T (W x00 x00 x00 x00 x00 x00 x00 x00)
(T (W x68 x00 x00 x00 x5c x00 x00 x00)
(L (W x42 x58 xff xff x78 x00 x00 x00)) E)
(L (W x00 x00 x80 xbf x00 x00 x80 xbf)))
(T (W x04 xe2 xfc xff x24 x00 x00 x00)
(T (W x49 xa1 x68 x4a xeb x5f xdd x3d)
(L (W x00 x00 x00 x00 x00 x00 x00 x00)) E)
(L (W x00 x00 x80 xbf x00 x00 x80 xbf))))
(T (W x8a x16 xfc xff x74 x00 x00 x00)
(T (W x8a x96 xfc xff x74 x00 x00 x00)
(T (W xff xff xff xff xff xff xff xff)
(L (W x00 x00 x80 xbf x00 x00 x80 xbf)) E)
(L (W x45 x44 x00 x00 x00 x00 x00 x00)))
(T (W x6c x1b xfd xff x00 x01 x01 x01)
(L (W x45 x26 x22 x84 xe4 x9c xf2 xcb))
(L (W xff xff xff xff xff xff xff xff)))))
(T (W xff xff xff xff xff xff xff xff)
(T (W x45 x26 x22 x84 xe4 x9c xf2 xcb)
(T (W x00 x00 x00 x00 x00 x00 x00 x00)
(T (W xff xff xff xff xff xff xff xff)
(L (W xff xff xff xff xff xff xff xff)) E)
(L (W xff xff xff xff x9c x00 x00 x00)))
(T (W xff xff xff xff xff xff xff xff)
(T (W x18 x00 x00 x00 x0c x00 x00 x00)
(L (W x00 x00 x00 x00 x00 x00 x00 x00)) E)
(L (W xd8 xf9 xfe xff xc2 x07 xff xff))))
(T (W x45 x26 x22 x84 xe4 x9c xf2 xcb)
(T (W x46 x53 x59 x53 x5f x4e x53 x5f)
(T (W x45 x26 x22 x84 xe4 x9c xf2 xcb)
(L (W x00 x00 x00 x00 xb2 xba xff xff)) E)
(L (W xff xff xff xff xff xff xff xff)))
(T (W xff xff xff xff x02 x00 x00 x00)
(L (W xff xff xff xff xff xff xff xff))
(L (W xff xff xff xff xff xff xff xff)))))))
(T (W x00 x00 x80 x3f x00 x00 x80 x3f)
(T (W x00 x00 x80 x3f x00 x00 x80 x3f)
(T (W x00 x00 x00 x00 x00 x00 x00 x00)
(T (W x20 x01 x00 x00 x04 x00 x00 x00)
(T (W x00 x00 x80 x3f x00 x00 x80 x3f)
(T (W x8a x4e xfd xff x74 x00 x00 x00)
(L (W x00 x00 x80 xbf x00 x00 x80 xbf)) E)
(L (W xff xff xff xff xa8 x00 x00 x00)))
(T (W xff xff xff xff xff xff xff xff)
(T (W x00 x00 x00 x00 x00 x00 x00 x00)
(L (W x45 x26 x22 x84 xe4 x9c xf2 xcb)) E)
(L (W x4f x84 x6f x8b xe8 xcb x63 xb7))))
(T (W xc0 x00 x00 x00 xb4 x00 x00 x00)
(T (W x00 x00 x80 x3f x00 x00 x80 x3f)
(T (W x00 x00 x00 x00 x00 x00 x00 x00)
(L (W x00 x00 x00 x00 x12 x00 x00 x00)) E)
(L (W x04 x00 x00 x00 x3a x91 xfe xff)))
(T (W x00 x00 x80 x3f x00 x00 x80 x3f)
(L (W x00 x00 x00 x00 x12 x00 x00 x00))
(L (W x03 x00 x00 x00 xd8 x00 x00 x00)))))
(T (W x01 x00 x00 x00 x04 x00 x00 x00)
(T (W xb8 x00 x00 x00 xac x00 x00 x00)
(T (W xd4 x76 xfc xff x31 x00 x00 x00)
(T (W x00 x00 x00 x00 x00 x00 x00 x00)
(L (W xff xff xff xff xff xff xff xff)) E)
(L (W x42 x70 xfe xff x78 x00 x00 x00)))
(T (W xff xff xff xff xff xff xff xff)
(T (W xff xff xff xff xff xff xff xff)
(L (W xff xff xff xff xff xff xff xff)) E)
(L (W x45 x26 x22 x84 xe4 x9c xf2 xcb))))
(T (W x00 x00 x80 x3f x00 x00 x80 x3f)
(T (W x04 x00 x00 x00 x80 x03 x00 x00)
(T (W x00 x00 x80 x3f x00 x00 x80 x3f)
(L (W x00 x00 x00 x00 x00 x00 x00 x00)) E)
(L (W x00 x00 x00 x00 x4a xb8 xfe xff)))
(T (W x01 x00 x00 x00 xff xff xff xff)
(L (W x42 x30 xfe xff x78 x00 x00 x00))
(L (W x00 x00 x01 x01 xdc x00 x00 x00))))))
(T (W x00 x00 x00 x00 x00 x00 x00 x00)
(T (W x00 x00 x00 x00 x00 x00 x00 x00)
(T (W xff xff xff xff xff xff xff xff)
(T (W x45 x26 x22 x84 xe4 x9c xf2 xcb)
(T (W x00 x00 x80 x3f x00 x00 x80 x3f)
(L (W x18 x00 x00 x00 x10 x00 x00 x00)) E)
(L (W x45 x26 x22 x84 xe4 x9c xf2 xcb)))
(T (W x45 x26 x22 x84 xe4 x9c xf2 xcb)
(T (W x50 x00 x00 x00 x44 x00 x00 x00)
(L (W x45 x26 x22 x84 xe4 x9c xf2 xcb)) E)
(L (W x00 x00 x80 xbf x00 x00 x80 xbf))))
(T (W x6c x23 xfc xff x00 x01 x01 x01)
(T (W x03 x00 x00 x00 xd0 x00 x00 x00)
(T (W x58 x00 x00 x00 x4c x00 x00 x00)
(L (W x00 x00 x80 xbf x00 x00 x80 xbf)) E)
(L (W x00 x00 x00 x00 xca xac xfe xff)))
(T (W xff xff xff xff xff xff xff xff)
(L (W x00 x00 x80 xbf x00 x00 x80 xbf))
(L (W xff xff xff xff xff xff xff xff)))))
(T (W x42 x31 xfe xff x00 x00 x01 x01)
(T (W x01 x00 x00 x00 x9c x00 x00 x00)
(T (W x00 x00 x00 x00 x00 x00 x00 x00)
(T (W xff xff xff xff xff xff xff xff)
(L (W x00 x00 x00 x00 x4a x88 xff xff)) E)
(L (W x03 x00 x00 x00 xd0 x00 x00 x00)))
(T (W x00 x00 x00 x00 x00 x00 x00 x00)
(T (W xff xff xff xff xff xff xff xff)
(L (W x00 x00 x80 xbf x00 x00 x80 xbf)) E)
(L (W x42 x00 xff xff x78 x00 x00 x00))))
(T (W x00 x00 x80 x3f x00 x00 x80 x3f)
(T (W x00 x00 x00 x00 x00 x00 x00 x00)
(T (W xff xff xff xff xff xff xff xff)
(L (W x00 x00 x00 x00 x00 x00 x00 x00)) E)
(L (W xff xff xff xff xff xff xff xff)))
(T (W xff xff xff xff xff xff xff xff)
(L (W x54 x00 x00 x00 x48 x00 x00 x00))
(L (W x00 x00 x00 x00 x3a x41 xff xff))))))))))
(T (W xe0 x18 x01 x00 xac x17 x01 x00)
(T (W x3c xd4 x8f x13 xcf x3c x71 x9d)
(T (W x00 x00 x00 x00 xdc x4c xfb xff)
(T (W x01 x00 x00 x00 x9c x00 x00 x00)
(T (W x64 x00 x00 x00 x9c x00 x00 x00)
(T (W x45 x26 x22 x84 xe4 x9c xf2 xcb)
(T (W x45 x26 x22 x84 xe4 x9c xf2 xcb)
(T (W xff xff xff xff x04 x00 x00 x00)
(T (W x00 x00 x00 x00 x00 x00 x00 x00)
(L (W x6c x00 x00 x00 x60 x00 x00 x00)) E)
(L (W x00 x00 x00 x00 xb2 x45 xfe xff)))
(T (W xff xff xff xff xff xff xff xff)
(T (W x00 x00 x00 x00 x00 x00 x00 x00)
(L (W x6c x00 x00 x00 x60 x00 x00 x00)) E)
(L (W x00 x00 x80 xbf x00 x00 x80 xbf))))
(T (W x81 x85 xfd x71 x32 x60 x2f x97)
(T (W x8a x81 xfc xff x74 x00 x00 x00)
(T (W x00 x00 x00 x00 x00 x00 x00 x00)
(L (W x45 x26 x22 x84 xe4 x9c xf2 xcb)) E)
(L (W x00 x00 x00 x00 x00 x00 x00 x00)))
(T (W x6c x06 xfd xff x00 x01 x01 x01)
(L (W x00 x00 x00 x00 x00 x00 x00 x00))
(L (W xff xff xff xff xff xff xff xff)))))
(T (W x00 x00 x80 x3f x00 x00 x80 x3f)
(T (W x45 x26 x22 x84 xe4 x9c xf2 xcb)
(T (W x18 x00 x00 x00 x10 x00 x00 x00)
(T (W xff xff xff xff xff xff xff xff)
(L (W x1b x00 x00 x00 x0c x00 x00 x00)) E)
(L (W xff xff xff xff xff xff xff xff)))
(T (W xff xff xff xff xff xff xff xff)
(T (W x34 x09 x00 x00 x18 x08 x00 x00)
(L (W x00 x00 x00 x00 x52 xe7 xff xff)) E)
(L (W xff xff xff xff xff xff xff xff))))
(T (W xff xff xff xff xff xff xff xff)
(T (W x00 x00 x00 x00 x00 x00 x00 x00)
(T (W x35 x00 x00 x00 x10 x00 x00 x00)
(L (W xff xff xff xff xff xff xff xff)) E)
(L (W x00 x00 x80 xbf x00 x00 x80 xbf)))
(T (W x00 x00 x00 x00 x00 x00 x00 x00)
(L (W x14 x00 x00 x00 x0c x00 x00 x00))
(L (W x49 xa1 x68 x4a xeb x5f xdd x3d))))))
(T (W xff xff xff xff xff xff xff xff)
(T (W x68 x00 x00 x00 x5c x00 x00 x00)
(T (W x00 x00 x00 x00 x00 x00 x00 x00)
(T (W x8a x51 xfc xff x74 x00 x00 x00)
(T (W x42 xc4 xff xff x00 x00 x01 x01)
(L (W xff xff xff xff xff xff xff xff)) E)
(L (W xff xff xff xff xff xff xff xff)))
(T (W x00 x00 x00 x00 x00 x00 x00 x00)
(T (W x45 x26 x22 x84 xe4 x9c xf2 xcb)
(L (W xff xff xff xff xff xff xff xff)) E)
(L (W x45 x26 x22 x84 xe4 x9c xf2 xcb))))
(T (W xff xff xff xff xff xff xff xff)
(T (W xff xff xff xff xff xff xff xff)
(T (W x55 x6c xfc xf1 x99 x9e xc9 x88)
(L (W xff xff xff xff xc8 x00 x00 x00)) E)
(L (W x00 x00 x80 xbf x00 x00 x80 xbf)))
(T (W xff xff xff xff xff xff xff xff)
(L (W x8a x11 xfe xff x74 x00 x00 x00))
(L (W x4f x84 x6f x8b xe8 xcb x63 xb7)))))
(T (W x00 x00 x80 x3f x00 x00 x80 x3f)
(T (W x00 x00 x00 x00 x00 x00 x00 x00)
(T (W x00 x00 x00 x00 x00 x00 x00 x00)
(T (W xff xff xff xff xff xff xff xff)
(L (W x45 x26 x22 x84 xe4 x9c xf2 xcb)) E)
(L (W x00 x00 x00 x00 x00 x00 x00 x00)))
(T (W x12 x00 x00 x00 x46 x53 x59 x53)
(T (W x00 x00 x00 x00 x00 x00 x00 x00)
(L (W x00 x00 x00 x00 x00 x00 x00 x00)) E)
(L (W x00 x00 x00 x00 x00 x00 x00 x00))))
(T (W xff xff xff xff xff xff xff xff)
(T (W x00 x00 x80 x3f x00 x00 x80 x3f)
(T (W x8c x18 x00 x00 x40 x17 x00 x00)
(L (W x00 x00 x00 x00 x70 xb6 xff xff)) E)
(L (W x45 x26 x22 x84 xe4 x9c xf2 xcb)))
(T (W x00 x00 x00 x00 x00 x00 x00 x00)
(L (W x00 x00 x00 x00 x4a x3b xfe xff))
(L (W x6c x00 x00 x00 x60 x00 x00 x00)))))))
(T (W x18 x00 x00 x00 x0c x00 x00 x00)
(T (W xff xff xff xff x03 x00 x00 x00)
(T (W x18 x00 x00 x00 x0c x00 x00 x00)
(T (W x00 x00 x00 x00 x00 x00 x00 x00)
(T (W x18 x00 x00 x00 x0c x00 x00 x00)
(T (W x00 x00 x00 x00 x00 x00 x00 x00)
(L (W x45 x26 x22 x84 xe4 x9c xf2 xcb)) E)
(L (W xff xff xff xff xff xff xff xff)))
(T (W x5f xb0 xcd xf6 x6b x3f x3a x15)
(T (W x45 x26 x22 x84 xe4 x9c xf2 xcb)
(L (W xff xff xff xff xa0 x00 x00 x00)) E)
(L (W x6c x00 x00 x00 x60 x00 x00 x00))))
(T (W xdd x00 x00 x00 xff xff xff xff)
(T (W xff xff xff xff xff xff xff xff)
(T (W x45 x26 x22 x84 xe4 x9c xf2 xcb)
(L (W x54 x00 x00 x00 x48 x00 x00 x00)) E)
(L (W x00 x00 x80 xbf x00 x00 x80 xbf)))
(T (W x18 x00 x00 x00 x10 x00 x00 x00)
(L (W x00 x00 x80 xbf x00 x00 x80 xbf))
(L (W x00 x00 x00 x00 x00 x00 x00 x00)))))
(T (W x00 x00 x80 x3f x00 x00 x80 x3f)
(T (W x00 x00 x00 x00 x00 x00 x00 x00)
(T (W x78 x00 x08 x00 x70 x00 x0c x00)
(T (W x8a x69 xfd xff x74 x00 x00 x00)
(L (W x00 x00 x00 x00 x00 x00 x00 x00)) E)
(L (W x00 x00 x00 x00 x52 x6f xfe xff)))
(T (W x80 x03 x00 x00 x54 x02 x00 x00)
(T (W x45 x44 x00 x00 x00 x00 x00 x00)
(L (W x00 x00 x00 x00 x12 x00 x00 x00)) E)
(L (W x00 x00 x01 x01 x63 x01 x00 x00))))
(T (W xcf x01 x00 x00 xff xff xff xff)
(T (W x00 x00 x80 x3f x00 x00 x80 x3f)
(T (W x00 x00 x80 x3f x00 x00 x80 x3f)
(L (W x54 x00 x00 x00 x48 x00 x00 x00)) E)
(L (W x34 x00 x38 x00 x3c x00 x40 x00)))
(T (W x00 x00 x80 x3f x00 x00 x80 x3f)
(L (W xff xff xff xff xff xff xff xff))
(L (W x00 x00 x80 xbf x00 x00 x80 xbf))))))
(T (W xff xff xff xff xff xff xff xff)
(T (W x00 x00 x80 x3f x00 x00 x80 x3f)
(T (W x45 x26 x22 x84 xe4 x9c xf2 xcb)
(T (W x45 x26 x22 x84 xe4 x9c xf2 xcb)
(T (W xff xff xff xff xff xff xff xff)
(L (W xff xff xff xff xff xff xff xff)) E)
(L (W x00 x00 x01 x01 xbe x00 x00 x00)))
(T (W x68 x00 x00 x00 x5c x00 x00 x00)
(T (W xff xff xff xff xbc x00 x00 x00)
(L (W x45 x26 x22 x84 xe4 x9c xf2 xcb)) E)
(L (W xff xff xff xff xff xff xff xff))))
(T (W xff xff xff xff xff xff xff xff)
(T (W x00 x00 x00 x00 x00 x00 x00 x00)
(T (W x45 x26 x22 x84 xe4 x9c xf2 xcb)
(L (W xcc x00 x00 x00 x01 x00 x00 x00)) E)
(L (W xd8 x9c xfe xff xc2 xaa xfe xff)))
(T (W x4c x45 x41 x52 x45 x44 x00 x00)
(L (W x03 x00 x00 x00 xd0 x00 x00 x00))
(L (W x45 x26 x22 x84 xe4 x9c xf2 xcb)))))
(T (W x00 x00 x80 x3f x00 x00 x80 x3f)
(T (W x00 x00 x00 x00 x00 x00 x00 x00)
(T (W x00 x00 x80 x3f x00 x00 x80 x3f)
(T (W x00 x00 x00 x00 x00 x00 x00 x00)
(L (W x49 xa1 x68 x4a xeb x5f xdd x3d)) E)
(L (W x00 x00 x00 x00 x00 x00 x00 x00)))
(T (W x00 x00 x80 x3f x00 x00 x80 x3f)
(T (W x12 x00 x00 x00 x46 x53 x59 x53)
(L (W x18 x00 x00 x00 x10 x00 x00 x00)) E)
(L (W xff xff xff xff xff xff xff xff))))
(T (W xff xff xff xff xff xff xff xff)
(T (W x68 x00 x00 x00 x5c x00 x00 x00)
(T (W x00 x00 x00 x00 x00 x00 x00 x00)
(L (W x00 x00 x80 xbf x00 x00 x80 xbf)) E)
(L (W x49 xa1 x68 x4a xeb x5f xdd x3d)))
(T (W x45 x26 x22 x84 xe4 x9c xf2 xcb)
(L (W xff xff xff xff xff xff xff xff))
(L (W x00 x00 x80 xbf x00 x00 x80 xbf))))))))
(T (W x00 x00 x00 x00 x00 x00 x00 x00)
(T (W x00 x00 x00 x00 x00 x00 x00 x00)
(T (W x68 x00 x00 x00 x5c x00 x00 x00)
(T (W x00 x00 x00 x00 x00 x00 x00 x00)
(T (W xff xff xff xff xff xff xff xff)
(T (W x00 x00 x80 x3f x00 x00 x80 x3f)
(T (W x8a x45 xfd xff x74 x00 x00 x00)
(L (W x00 x00 x01 x01 xc8 x02 x00 x00)) E)
(L (W x4f x84 x6f x8b xe8 xcb x63 xb7)))
(T (W x00 x00 x80 x3f x00 x00 x80 x3f)
(T (W xff xff xff xff xb0 x00 x00 x00)
(L (W xd4 xcd xff xff x18 x00 x00 x00)) E)
(L (W xff xff xff xff xff xff xff xff))))
(T (W x18 x00 x00 x00 x0c x00 x00 x00)
(T (W x00 x00 x00 x00 x12 x00 x00 x00)
(T (W xff xff xff xff xff xff xff xff)
(L (W xff xff xff xff xff xff xff xff)) E)
(L (W xff xff xff xff xac x00 x00 x00)))
(T (W x04 x11 xfd xff x10 x00 x00 x00)
(L (W xff xff xff xff xff xff xff xff))
(L (W x00 x00 x80 x3f x00 x00 x80 xbf)))))
(T (W xaa x01 x00 x00 xff xff xff xff)
(T (W x45 x26 x22 x84 xe4 x9c xf2 xcb)
(T (W x3e x00 x00 x00 x0c x00 x00 x00)
(T (W x00 x00 x00 x00 x00 x00 x00 x00)
(L (W x45 x26 x22 x84 xe4 x9c xf2 xcb)) E)
(L (W x00 x00 x80 xbf x00 x00 x80 xbf)))
(T (W x00 x00 x80 x3f x00 x00 x80 x3f)
(T (W x18 x00 x00 x00 x10 x00 x00 x00)
(L (W x70 x00 x00 x00 x64 x00 x00 x00)) E)
(L (W x00 x00 x80 xbf x00 x00 x80 xbf))))
(T (W x45 x26 x22 x84 xe4 x9c xf2 xcb)
(T (W x03 x00 x00 x00 xd0 x00 x00 x00)
(T (W x01 x00 x00 x00 xff xff xff xff)
(L (W x00 x00 x00 x00 x12 x00 x00 x00)) E)
(L (W x38 x01 x00 x00 x04 x00 x00 x00)))
(T (W xff xff xff xff xff xff xff xff)
(L (W x45 x44 x00 x00 x00 x00 x00 x00))
(L (W xff xff xff xff xff xff xff xff))))))
(T (W x00 x00 x00 x00 x00 x00 x00 x00)
(T (W x00 x00 x00 x00 x00 x00 x00 x00)
(T (W xff xff xff xff xff xff xff xff)
(T (W x00 x00 x00 x00 x00 x00 x00 x00)
(T (W x00 x00 x80 x3f x00 x00 x80 x3f)
(L (W x00 x00 x80 xbf x00 x00 x80 xbf)) E)
(L (W x00 x00 x80 xbf x00 x00 x80 xbf)))
(T (W xff xff xff xff xff xff xff xff)
(T (W x00 x00 x00 x00 x00 x00 x00 x00)
(L (W x00 x00 x00 x00 x00 x00 x00 x00)) E)
(L (W x00 x00 x00 x00 x00 x00 x00 x00))))
(T (W x54 x00 x00 x00 x48 x00 x00 x00)
(T (W x00 x00 x80 x3f x00 x00 x80 x3f)
(T (W xfc xf0 xff xff x01 x01 x01 x01)
(L (W x00 x00 x00 x00 x00 x00 x00 x00)) E)
(L (W xff xff xff xff xff xff xff xff)))
(T (W x50 x00 x00 x00 x44 x00 x00 x00)
(L (W x00 x00 x00 x00 x00 x00 x00 x00))
(L (W xcc x00 x00 x00 x01 x00 x00 x00)))))
(T (W xff xff xff xff xff xff xff xff)
(T (W x6c xfa xfb xff x00 x01 x01 x01)
(T (W xbb x01 x00 x00 xff xff xff xff)
(T (W x45 x26 x22 x84 xe4 x9c xf2 xcb)
(L (W xff xff xff xff xff xff xff xff)) E)
(L (W x42 x77 xfe xff x78 x00 x00 x00)))
(T (W xff xff xff xff xff xff xff xff)
(T (W x42 xf7 xfd xff x78 x00 x00 x00)
(L (W x45 x26 x22 x84 xe4 x9c xf2 xcb)) E)
(L (W x54 x00 x00 x00 x48 x00 x00 x00))))
(T (W x45 x26 x22 x84 xe4 x9c xf2 xcb)
(T (W x00 x00 x00 x00 xd2 xc0 xfc xff)
(T (W x00 x00 x00 x00 x00 x00 x00 x00)
(L (W xff xff xff xff xff xff xff xff)) E)
(L (W xff xff xff xff x9c x00 x00 x00)))
(T (W xff xff xff xff xff xff xff xff)
(L (W xff xff xff xff xa8 x00 x00 x00))
(L (W xff xff xff xff xff xff xff xff)))))))
(T (W x00 x00 x00 x00 x00 x00 x00 x00)
(T (W x00 x00 x00 x00 x00 x00 x00 x00)
(T (W x00 x00 x00 x00 x00 x00 x00 x00)
(T (W xff xff xff xff xff xff xff xff)
(T (W x00 x00 x00 x00 x00 x00 x00 x00)
(T (W x68 x00 x00 x00 x5c x00 x00 x00)
(L (W x00 x00 x00 x00 x00 x00 x00 x00)) E)
(L (W x00 x00 x80 xbf x00 x00 x80 xbf)))
(T (W x18 x00 x00 x00 x10 x00 x00 x00)
(T (W x7d x00 x00 x00 xff xff xff xff)
(L (W x00 x00 x00 x00 x12 x00 x00 x00)) E)
(L (W xd4 xd5 xfe xff x0c x00 x00 x00))))
(T (W x00 x00 x80 x3f x00 x00 x80 x3f)
(T (W x00 x00 x80 x3f x00 x00 x80 x3f)
(T (W x00 x00 x00 x00 x00 x00 x00 x00)
(L (W x02 x00 x00 x00 x30 x01 x00 x00)) E)
(L (W xff xff xff xff xff xff xff xff)))
(T (W x00 x00 x00 x00 x00 x00 x00 x00)
(L (W x02 x00 x00 x00 x30 x01 x00 x00))
(L (W x68 x00 x00 x00 x5c x00 x00 x00)))))
(T (W xff xff xff xff xff xff xff xff)
(T (W x68 x00 x00 x00 x5c x00 x00 x00)
(T (W xff xff xff xff xff xff xff xff)
(T (W x00 x00 x00 x00 x00 x00 x00 x00)
(L (W xff xff xff xff xff xff xff xff)) E)
(L (W x00 x00 x80 xbf x00 x00 x80 xbf)))
(T (W x68 x00 x00 x00 x5c x00 x00 x00)
(T (W xff xff xff xff xff xff xff xff)
(L (W xbc x00 x00 x00 x02 x00 x00 x00)) E)
(L (W x00 x00 x80 xbf x00 x00 x80 xbf))))
(T (W x00 x00 x00 x00 x00 x00 x00 x00)
(T (W xff xff xff xff xff xff xff xff)
(T (W x4f x84 x6f x8b xe8 xcb x63 xb7)
(L (W x5c x00 x00 x00 xff xff xff xff)) E)
(L (W xff xff xff xff xff xff xff xff)))
(T (W xff xff xff xff xff xff xff xff)
(L (W x00 x00 x80 xbf x00 x00 x80 xbf))
(L (W xff xff xff xff xff xff xff xff))))))
(T (W xd4 x85 xfb xff x3e x00 x00 x00)
(T (W xfa xab x98 xa3 x58 x24 xb8 x05)
(T (W xb8 x00 x00 x00 xac x00 x00 x00)
(T (W x00 x00 x00 x00 x00 x00 x00 x00)
(T (W x45 x26 x22 x84 xe4 x9c xf2 xcb)
(L (W x6c x00 x00 x00 x60 x00 x00 x00)) E)
(L (W xd8 x60 xfe xff xc2 x6e xfe xff)))
(T (W x00 x00 x00 x00 x00 x00 x00 x00)
(T (W x00 x00 x80 xbf x00 x00 x80 xbf)
(L (W x00 x00 x00 x00 x00 x00 x00 x00)) E)
(L (W x00 x00 x80 xbf x00 x00 x80 xbf))))
(T (W x00 x00 x80 x3f x00 x00 x80 x3f)
(T (W x18 x00 x00 x00 x10 x00 x00 x00)
(T (W x45 x26 x22 x84 xe4 x9c xf2 xcb)
(L (W x00 x00 x00 x00 x00 x00 x00 x00)) E)
(L (W xff xff xff xff xff xff xff xff)))
(T (W x2b x00 x00 x00 x2e x00 x00 x00)
(L (W x00 x00 x00 x00 x00 x00 x00 x00))
(L (W xff xff xff xff x94 x00 x00 x00)))))
(T (W xff xff xff xff xff xff xff xff)
(T (W x45 x26 x22 x84 xe4 x9c xf2 xcb)
(T (W x87 x75 x5a x26 x96 x96 x06 x58)
(T (W xff xff xff xff xff xff xff xff)
(L (W xff xff xff xff xff xff xff xff)) E)
(L (W x18 x00 x00 x00 x10 x00 x00 x00)))
(T (W xf2 x54 xfd xff x9d x01 x00 x00)
(T (W xc0 x00 x00 x00 x01 x00 x00 x00)
(L (W x4c x00 x50 x00 x54 x00 x00 x00)) E)
(L (W x45 x26 x22 x84 xe4 x9c xf2 xcb))))
(T (W x45 x26 x22 x84 xe4 x9c xf2 xcb)
(T (W x00 x00 x00 x00 x12 x00 x00 x00)
(T (W xff xff xff xff xc8 x00 x00 x00)
(L (W x30 x35 x5f x43 x4c x45 x41 x52)) E)
(L (W xff xff xff xff xff xff xff xff)))
(T (W xff xff xff xff xff xff xff xff)
(L (W x00 x00 x80 xbf x00 x00 x80 xbf))
(L (W xff xff xff xff xff xff xff xff)))))))))
(T (W x00 x00 x80 x3f x00 x00 x80 x3f)
(T (W xff xff xff xff xff xff xff xff)
(T (W xff xff xff xff x01 x00 x00 x00)
(T (W x02 x00 x00 x00 x7c x01 x00 x00)
(T (W xff xff xff xff xff xff xff xff)
(T (W x18 x00 x00 x00 x0c x00 x00 x00)
(T (W x00 x00 x00 x00 xa2 xdb xff xff)
(T (W x00 x00 x80 x3f x00 x00 x80 x3f)
(L (W xff xff xff xff xb0 x00 x00 x00)) E)
(L (W x46 x53 x59 x53 x5f x4e x53 x5f)))
(T (W x04 xcf xfc xff x2f x00 x00 x00)
(T (W x00 x00 x80 x3f x00 x00 x80 x3f)
(L (W xff xff xff xff xff xff xff xff)) E)
(L (W xff xff xff xff xa0 x00 x00 x00))))
(T (W x00 x00 x80 x3f x00 x00 x80 x3f)
(T (W xff xff xff xff xff xff xff xff)
(T (W x00 x00 x80 x3f x00 x00 x80 x3f)
(L (W x31 x00 x00 x00 x34 x00 x00 x00)) E)
(L (W x00 x00 x80 xbf x00 x00 x80 xbf)))
(T (W xff xff xff xff xff xff xff xff)
(L (W x18 x00 x00 x00 x10 x00 x00 x00))
(L (W x46 x53 x59 x53 x5f x4e x53 x5f)))))
(T (W xb8 x00 x00 x00 xac x00 x00 x00)
(T (W x00 x00 x80 x3f x00 x00 x80 x3f)
(T (W xff xff xff xff xff xff xff xff)
(T (W x42 xd6 xff xff x00 x00 x01 x01)
(L (W x00 x00 x80 xbf x00 x00 x80 xbf)) E)
(L (W x00 x00 x00 x00 x00 x00 x00 x00)))
(T (W x4c x45 x41 x52 x45 x44 x00 x00)
(T (W x00 x00 x80 xbf x00 x00 x80 xbf)
(L (W x00 x00 x00 x00 x00 x00 x00 x00)) E)
(L (W x00 x00 x00 x00 x00 x00 x00 x00))))
(T (W x00 x00 x00 x00 x00 x00 x00 x00)
(T (W x00 x00 x80 x3f x00 x00 x80 x3f)
(T (W x00 x00 x80 xbf x00 x00 x80 xbf)
(L (W x71 x00 x00 x00 xff xff xff xff)) E)
(L (W xff xff xff xff xb0 x00 x00 x00)))
(T (W x00 x00 x80 x3f x00 x00 x80 x3f)
(L (W xff xff xff xff xff xff xff xff))
(L (W x42 x25 xff xff x78 x00 x00 x00))))))
(T (W xff xff xff xff xff xff xff xff)
(T (W xff xff xff xff xff xff xff xff)
(T (W x00 x00 x80 x3f x00 x00 x80 x3f)
(T (W xff xff xff xff xff xff xff xff)
(T (W x00 x00 x00 x00 x00 x00 x00 x00)
(L (W x00 x00 x00 x00 x00 x00 x00 x00)) E)
(L (W x45 x44 x00 x00 x00 x00 x00 x00)))
(T (W x00 x00 x00 x00 xdc xd6 xfc xff)
(T (W xff xff xff xff xff xff xff xff)
(L (W xff xff xff xff xff xff xff xff)) E)
(L (W x00 x00 x00 x00 x00 x00 x00 x00))))
(T (W x00 x00 x00 x00 x00 x00 x00 x00)
(T (W x00 x00 x00 x00 x00 x00 x00 x00)
(T (W x00 x00 x00 x00 x00 x00 x00 x00)
(L (W x00 x00 x00 x00 x72 x94 xff xff)) E)
(L (W xcc x00 x00 x00 x01 x00 x00 x00)))
(T (W x00 x00 x00 x00 x00 x00 x00 x00)
(L (W xff xff xff xff xff xff xff xff))
(L (W x54 x00 x00 x00 x48 x00 x00 x00)))))
(T (W xff xff xff xff xff xff xff xff)
(T (W x00 x00 x80 x3f x00 x00 x80 x3f)
(T (W x00 x00 x00 x00 xdc x76 xfc xff)
(T (W x00 x00 x80 x3f x00 x00 x80 x3f)
(L (W x50 x00 x00 x00 x44 x00 x00 x00)) E)
(L (W x00 x00 x00 x00 x00 x00 x00 x00)))
(T (W x68 x00 x00 x00 x5c x00 x00 x00)
(T (W x00 x00 x80 xbf x00 x00 x80 xbf)
(L (W xff xff xff xff xff xff xff xff)) E)
(L (W x00 x00 x00 x00 x00 x00 x00 x00))))
(T (W x00 x00 x00 x00 x00 x00 x00 x00)
(T (W xff xff xff xff xff xff xff xff)
(T (W xff xff xff xff xff xff xff xff)
(L (W x03 x00 x00 x00 xc8 x00 x00 x00)) E)
(L (W x00 x00 x80 xbf x00 x00 x80 xbf)))
(T (W x50 x00 x00 x00 x44 x00 x00 x00)
(L (W x4f x84 x6f x8b xe8 xcb x63 xb7))
(L (W xff xff xff xff xa8 x00 x00 x00)))))))
(T (W xff xff xff xff xff xff xff xff)
(T (W xff xff xff xff xff xff xff xff)
(T (W xff xff xff xff xff xff xff xff)
(T (W x68 x00 x00 x00 x5c x00 x00 x00)
(T (W x1c x01 x00 x00 x04 x00 x00 x00)
(T (W x45 x26 x22 x84 xe4 x9c xf2 xcb)
(L (W xff xff xff xff xff xff xff xff)) E)
(L (W x00 x00 x00 x00 x00 x00 x00 x00)))
(T (W x45 x26 x22 x84 xe4 x9c xf2 xcb)
(T (W xff xff xff xff xc8 x00 x00 x00)
(L (W xff xff xff xff xff xff xff xff)) E)
(L (W xff xff xff xff xff xff xff xff))))
(T (W x00 x00 x00 x00 x00 x00 x00 x00)
(T (W xc6 x01 xf6 xc4 xaa x64 xf9 x40)
(T (W x68 x00 x00 x00 x5c x00 x00 x00)
(L (W x03 x00 x00 x00 xd0 x00 x00 x00)) E)
(L (W x68 x00 x00 x00 x5c x00 x00 x00)))
(T (W x00 x00 x00 x00 x00 x00 x00 x00)
(L (W x03 x00 x00 x00 xd0 x00 x00 x00))
(L (W x45 x26 x22 x84 xe4 x9c xf2 xcb)))))
(T (W x45 x26 x22 x84 xe4 x9c xf2 xcb)
(T (W x00 x00 x80 x3f x00 x00 x80 x3f)
(T (W xff xff xff xff xff xff xff xff)
(T (W xff xff xff xff xff xff xff xff)
(L (W x6c x00 x00 x00 x60 x00 x00 x00)) E)
(L (W x00 x00 x00 x00 x00 x00 x00 x00)))
(T (W x00 x00 x80 x3f x00 x00 x80 x3f)
(T (W x49 xa1 x68 x4a xeb x5f xdd x3d)
(L (W x00 x01 x01 x01 xc2 xfc xff xff)) E)
(L (W x00 x00 x00 x00 x00 x00 x00 x00))))
(T (W x00 x00 x00 x00 x00 x00 x00 x00)
(T (W x68 x00 x00 x00 x5c x00 x00 x00)
(T (W xff xff xff xff xff xff xff xff)
(L (W xff xff xff xff xc8 x00 x00 x00)) E)
(L (W x00 x00 x80 xbf x00 x00 x80 xbf)))
(T (W x18 x00 x00 x00 x0c x00 x00 x00)
(L (W x00 x00 x00 x00 x00 x00 x00 x00))
(L (W x18 x00 x00 x00 x10 x00 x00 x00))))))
(T (W xff xff xff xff xff xff xff xff)
(T (W xff xff xff xff xff xff xff xff)
(T (W x00 x00 x80 x3f x00 x00 x80 x3f)
(T (W xff xff xff xff xff xff xff xff)
(T (W x00 x00 x00 x00 x00 x00 x00 x00)
(L (W x49 xa1 x68 x4a xeb x5f xdd x3d)) E)
(L (W x00 x00 x00 x00 x00 x00 x00 x00)))
(T (W xff xff xff xff xff xff xff xff)
(T (W x45 x44 x00 x00 x00 x00 x00 x00)
(L (W xff xff xff xff xff xff xff xff)) E)
(L (W x00 x00 x00 x00 x00 x00 x00 x00))))
(T (W x00 x00 x00 x00 x00 x00 x00 x00)
(T (W x00 x00 x00 x00 x00 x00 x00 x00)
(T (W x04 x00 x00 x00 xd2 xa6 xfd xff)
(L (W xff xff xff xff xff xff xff xff)) E)
(L (W xff xff xff xff xb8 x00 x00 x00)))
(T (W x49 xa1 x68 x4a xeb x5f xdd x3d)
(L (W xff xff xff xff xff xff xff xff))
(L (W x54 x00 x00 x00 x48 x00 x00 x00)))))
(T (W x45 x26 x22 x84 xe4 x9c xf2 xcb)
(T (W x45 x26 x22 x84 xe4 x9c xf2 xcb)
(T (W xff xff xff xff xff xff xff xff)
(T (W x00 x00 x80 x3f x00 x00 x80 x3f)
(L (W x6c x00 x00 x00 x60 x00 x00 x00)) E)
(L (W x45 x26 x22 x84 xe4 x9c xf2 xcb)))
(T (W x00 x00 x00 x00 xdc xfe xfc xff)
(T (W x00 x00 x80 xbf x00 x00 x80 xbf)
(L (W x00 x00 x00 x00 x00 x00 x00 x00)) E)
(L (W x00 x00 x00 x00 x00 x00 x00 x00))))
(T (W x18 x00 x00 x00 x10 x00 x00 x00)
(T (W xff xff xff xff xff xff xff xff)
(T (W x54 x00 x00 x00 x48 x00 x00 x00)
(L (W xff xff xff xff x9c x00 x00 x00)) E)
(L (W x6c x00 x00 x00 x60 x00 x00 x00)))
(T (W x68 x00 x00 x00 x5c x00 x00 x00)
(L (W x00 x00 x00 x00 x00 x00 x00 x00))
(L (W xff xff xff xff xa0 x00 x00 x00))))))))
(T (W x45 x26 x22 x84 xe4 x9c xf2 xcb)
(T (W x00 x00 x00 x00 x00 x00 x00 x00)
(T (W x00 x00 x00 x00 x00 x00 x00 x00)
(T (W x45 x26 x22 x84 xe4 x9c xf2 xcb)
(T (W x00 x00 x00 x00 x00 x00 x00 x00)
(T (W x00 x00 x80 x3f x00 x00 x80 x3f)
(T (W xff xff xff xff xff xff xff xff)
(L (W x00 x00 x00 x00 x00 x00 x00 x00)) E)
(L (W x2d x00 x00 x00 x30 x00 x00 x00)))
(T (W xb0 x00 x00 x00 x64 x00 x00 x00)
(T (W x61 x64 x65 x72 x5f x77 x69 x6c)
(L (W x00 x00 x80 xbf x00 x00 x80 xbf)) E)
(L (W x00 x00 x00 x00 x12 x00 x00 x00))))
(T (W xff xff xff xff xff xff xff xff)
(T (W x00 x00 x80 x3f x00 x00 x80 x3f)
(T (W x00 x00 x00 x00 x00 x00 x00 x00)
(L (W x5f x4e x53 x5f x30 x35 x5f x43)) E)
(L (W x90 x04 x00 x00 x80 x03 x00 x00)))
(T (W x00 x00 x80 x3f x00 x00 x80 x3f)
(L (W x00 x00 x00 x00 x00 x00 x00 x00))
(L (W xff xff xff xff xff xff xff xff)))))
(T (W x45 x26 x22 x84 xe4 x9c xf2 xcb)
(T (W x42 x5a xfe xff x00 x00 x01 x01)
(T (W x00 x00 x80 x3f x00 x00 x80 x3f)
(T (W x00 x00 x80 x3f x00 x00 x80 x3f)
(L (W xff xff xff xff xff xff xff xff)) E)
(L (W xff xff xff xff xff xff xff xff)))
(T (W xc0 x00 x00 x00 x01 x00 x00 x00)
(T (W xff xff xff xff xff xff xff xff)
(L (W xff xff xff xff xff xff xff xff)) E)
(L (W x03 x00 x00 x00 xd8 x00 x00 x00))))
(T (W x01 x00 x00 x00 xa0 x00 x00 x00)
(T (W x04 x00 x00 x00 x80 x03 x00 x00)
(T (W x00 x00 x00 x00 x00 x00 x00 x00)
(L (W xff xff xff xff xff xff xff xff)) E)
(L (W x45 x26 x22 x84 xe4 x9c xf2 xcb)))
(T (W x4c x45 x41 x52 x45 x44 x00 x00)
(L (W x00 x00 x80 xbf x00 x00 x80 xbf))
(L (W x1b x00 x00 x00 x0c x00 x00 x00))))))
(T (W x00 x00 x80 x3f x00 x00 x80 x3f)
(T (W x00 x00 x00 x00 x00 x00 x00 x00)
(T (W x5b x12 x1a x58 x58 x5a x86 x38)
(T (W x50 x00 x00 x00 x44 x00 x00 x00)
(T (W x8a x57 xfd xff x74 x00 x00 x00)
(L (W xff xff xff xff xa0 x00 x00 x00)) E)
(L (W xff xff xff xff xb0 x00 x00 x00)))
(T (W x00 x00 x00 x00 x00 x00 x00 x00)
(T (W x00 x00 x80 xbf x00 x00 x80 xbf)
(L (W x00 x00 x80 xbf x00 x00 x80 xbf)) E)
(L (W x00 x00 x80 xbf x00 x00 x80 xbf))))
(T (W xff xff xff xff xff xff xff xff)
(T (W xff xff xff xff xff xff xff xff)
(T (W x00 x00 x01 x01 x66 x01 x00 x00)
(L (W x00 x00 x80 xbf x00 x00 x80 xbf)) E)
(L (W x00 x00 x00 x00 x00 x00 x00 x00)))
(T (W xb0 x00 x00 x00 x64 x00 x00 x00)
(L (W x6c x00 x00 x00 x60 x00 x00 x00))
(L (W xc1 xee x39 xdc x00 x63 x48 x2f)))))
(T (W xd4 xbf xfb xff x3e x00 x00 x00)
(T (W xff xff xff xff xff xff xff xff)
(T (W x00 x00 x00 x00 x00 x00 x00 x00)
(T (W xff xff xff xff xff xff xff xff)
(L (W x6a x01 x00 x00 xff xff xff xff)) E)
(L (W xff xff xff xff xff xff xff xff)))
(T (W x9f x68 xea xc8 x7a xc7 xbc xc0)
(T (W xff xff xff xff xff xff xff xff)
(L (W x00 x00 x00 x00 x00 x00 x00 x00)) E)
(L (W x45 x26 x22 x84 xe4 x9c xf2 xcb))))
(T (W x00 x00 x80 x3f x00 x00 x80 x3f)
(T (W x00 x00 x00 x00 x00 x00 x00 x00)
(T (W xff xff xff xff xff xff xff xff)
(L (W x00 x00 x00 x00 x00 x00 x00 x00)) E)
(L (W x30 x35 x5f x43 x4c x45 x41 x52)))
(T (W x00 x00 x00 x00 x00 x00 x00 x00)
(L (W xff xff xff xff xff xff xff xff))
(L (W xd4 x3f xff xff x15 x00 x00 x00)))))))
(T (W x00 x00 x80 x3f x00 x00 x80 x3f)
(T (W x00 x00 x80 x3f x00 x00 x80 x3f)
(T (W x00 x00 x00 x00 x00 x00 x00 x00)
(T (W x00 x00 x00 x00 x00 x00 x00 x00)
(T (W x00 x00 x80 x3f x00 x00 x80 x3f)
(T (W xff xff xff xff xff xff xff xff)
(L (W x6c x00 x00 x00 x60 x00 x00 x00)) E)
(L (W xff xff xff xff xff xff xff xff)))
(T (W x04 x00 x00 x00 x4a xd9 xfc xff)
(T (W x4f x84 x6f x8b xe8 xcb x63 xb7)
(L (W x45 x26 x22 x84 xe4 x9c xf2 xcb)) E)
(L (W x00 x00 x80 xbf x00 x00 x80 xbf))))
(T (W xff xff xff xff xff xff xff xff)
(T (W x8a x8f xfc xff x74 x00 x00 x00)
(T (W x8a x8f xfd xff x74 x00 x00 x00)
(L (W x00 x00 x00 x00 x00 x00 x00 x00)) E)
(L (W x00 x00 x00 x00 x12 x00 x00 x00)))
(T (W x18 x00 x00 x00 x0c x00 x00 x00)
(L (W x00 x00 x00 x00 x00 x00 x00 x00))
(L (W xff xff xff xff xff xff xff xff)))))
(T (W x00 x00 x00 x00 x00 x00 x00 x00)
(T (W xff xff xff xff xff xff xff xff)
(T (W x6c x00 x00 x00 x60 x00 x00 x00)
(T (W x45 x26 x22 x84 xe4 x9c xf2 xcb)
(L (W x85 x8d xa7 x28 xbf x4e x53 x6a)) E)
(L (W xff xff xff xff x9c x00 x00 x00)))
(T (W xff xff xff xff xff xff xff xff)
(T (W xff xff xff xff xff xff xff xff)
(L (W x00 x00 x01 x01 x19 x01 x00 x00)) E)
(L (W xff xff xff xff xbc x00 x00 x00))))
(T (W x8a x2f xfc xff x74 x00 x00 x00)
(T (W x00 x00 x00 x00 x00 x00 x00 x00)
(T (W x18 x00 x00 x00 x0c x00 x00 x00)
(L (W x00 x00 x00 x00 x00 x00 x00 x00)) E)
(L (W x00 x00 x00 x00 x00 x00 x00 x00)))
(T (W x04 x3b xfd xff x33 x00 x00 x00)
(L (W xff xff xff xff x9c x00 x00 x00))
(L (W x46 x53 x59 x53 x5f x4e x53 x5f))))))
(T (W x00 x00 x80 x3f x00 x00 x80 x3f)
(T (W x45 x26 x22 x84 xe4 x9c xf2 xcb)
(T (W xdb x01 x00 x00 xff xff xff xff)
(T (W x00 x00 x80 x3f x00 x00 x80 x3f)
(T (W x68 x00 x00 x00 x5c x00 x00 x00)
(L (W x03 x00 x00 x00 xd8 x00 x00 x00)) E)
(L (W xa4 x00 x00 x00 x14 x00 x00 x00)))
(T (W x00 x00 x80 x3f x00 x00 x80 x3f)
(T (W xc4 x00 x00 x00 x01 x00 x00 x00)
(L (W x00 x01 x01 x01 xc2 xf0 xff xff)) E)
(L (W x00 x00 x00 x00 xdc xe2 xfe xff))))
(T (W x18 x00 x00 x00 x10 x00 x00 x00)
(T (W xff xff xff xff xff xff xff xff)
(T (W xb0 x00 x00 x00 x64 x00 x00 x00)
(L (W x42 xa1 xff xff x78 x00 x00 x00)) E)
(L (W x46 x53 x59 x53 x5f x4e x53 x5f)))
(T (W xff xff xff xff xff xff xff xff)
(L (W x54 x00 x00 x00 x48 x00 x00 x00))
(L (W x45 x44 x00 x00 x00 x00 x00 x00)))))
(T (W x00 x00 x00 x00 x00 x00 x00 x00)
(T (W xb8 x00 x00 x00 xac x00 x00 x00)
(T (W x00 x00 x80 x3f x00 x00 x80 x3f)
(T (W x18 x01 x00 x00 x04 x00 x00 x00)
(L (W x00 x00 x00 x00 x00 x00 x00 x00)) E)
(L (W xff xff xff xff xff xff xff xff)))
(T (W x00 x00 x00 x00 x00 x00 x00 x00)
(T (W x30 x01 x00 x00 x04 x00 x00 x00)
(L (W xff xff xff xff xff xff xff xff)) E)
(L (W x3b x00 x00 x00 x3e x00 x00 x00))))
(T (W x00 x00 x80 x3f x00 x00 x80 x3f)
(T (W x00 x00 x80 x3f x00 x00 x80 x3f)
(T (W x00 x00 x00 x00 x72 xc0 xfd xff)
(L (W x49 xa1 x68 x4a xeb x5f xdd x3d)) E)
(L (W xd4 xc7 xfe xff x18 x00 x00 x00)))
(T (W x42 xb2 xff xff x00 x00 x01 x01)
(L (W x45 x26 x22 x84 xe4 x9c xf2 xcb))
(L (W x00 x00 x00 x00 x12 x00 x00 x00)))))))))))))))
(T (W x04 x00 x00 x00 x70 x01 x00 x00)
(T (W x08 xab x04 x00 xac xa8 x04 x00)
(T (W x60 x7c x04 x00 xb4 x77 x04 x00)
(T (W x68 x1a x04 x00 x6c x13 x04 x00)
(T (W xc0 x64 x03 x00 x14 x60 x03 x00)
(T (W x50 x53 x02 x00 x14 x52 x02 x00)
(T (W x10 x0a x01 x00 xc4 x07 x01 x00)
(T (W x00 x00 x00 x00 x00 x00 x00 x00)
(T (W x00 x00 x00 x00 x00 x00 x00 x00)
(T (W x00 x00 x80 x3f x00 x00 x80 x3f)
(T (W x45 x26 x22 x84 xe4 x9c xf2 xcb)
(T (W xff xff xff xff xff xff xff xff)
(T (W x45 x26 x22 x84 xe4 x9c xf2 xcb)
(T (W xff xff xff xff xff xff xff xff)
(L (W x45 x44 x00 x00 x00 x00 x00 x00)) E)
(L (W x68 x00 x00 x00 x5c x00 x00 x00)))
(T (W x00 x00 x80 x3f x00 x00 x80 x3f)
(T (W xff xff xff xff xff xff xff xff)
(L (W x00 x00 x00 x00 x00 x00 x00 x00)) E)
(L (W x08 x00 x00 x00 x18 x08 x00 x00))))
(T (W x45 x26 x22 x84 xe4 x9c xf2 xcb)
(T (W x45 x26 x22 x84 xe4 x9c xf2 xcb)
(T (W xff xff xff xff xff xff xff xff)
(L (W x00 x00 x01 x01 xea x00 x00 x00)) E)
(L (W xff xff xff xff xff xff xff xff)))
(T (W x5f x4e x53 x5f x30 x35 x5f x43)
(T (W x01 x00 x00 x00 xff xff xff xff)
(L (W xff xff xff xff xff xff xff xff)) E)
(L (W x45 x26 x22 x84 xe4 x9c xf2 xcb)))))
(T (W x00 x00 x00 x00 x00 x00 x00 x00)
(T (W xff xff xff xff xff xff xff xff)
(T (W x00 x00 x00 x00 x00 x00 x00 x00)
(T (W x00 x00 x80 x3f x00 x00 x80 x3f)
(L (W xff xff xff xff xb0 x00 x00 x00)) E)
(L (W x45 x26 x22 x84 xe4 x9c xf2 xcb)))
(T (W x00 x00 x80 x3f x00 x00 x80 x3f)
(T (W x45 x26 x22 x84 xe4 x9c xf2 xcb)
(L (W x3c x00 x00 x00 x00 x00 x80 xbf)) E)
(L (W x54 x00 x00 x00 x48 x00 x00 x00))))
(T (W xa2 x1f xfc xff x74 x00 x00 x00)
(T (W xff xff xff xff xff xff xff xff)
(T (W x45 x26 x22 x84 xe4 x9c xf2 xcb)
(L (W x00 x00 x80 xbf x00 x00 x80 xbf)) E)
(L (W x00 x00 x00 x00 x00 x00 x00 x00)))
(T (W xff xff xff xff xff xff xff xff)
(L (W x00 x00 x80 xbf x00 x00 x80 xbf))
(L (W x00 x00 x00 x00 x8a x20 xff xff))))))
(T (W x00 x00 x80 x3f x00 x00 x80 x3f)
(T (W x00 x00 x00 x00 x00 x00 x00 x00)
(T (W x00 x00 x00 x00 x00 x00 x00 x00)
(T (W x00 x00 x80 x3f x00 x00 x80 x3f)
(T (W x01 x00 x00 x00 x9c x00 x00 x00)
(L (W x00 x00 x80 xbf x00 x00 x80 xbf)) E)
(L (W x2b x00 x00 x00 x2e x00 x00 x00)))
(T (W xff xff xff xff xff xff xff xff)
(T (W x00 x00 x00 x00 x00 x00 x00 x00)
(L (W x6c x00 x00 x00 x60 x00 x00 x00)) E)
(L (W x00 x00 x80 xbf x00 x00 x80 xbf))))
(T (W x0a x00 x00 x00 x3c x00 x00 x00)
(T (W x00 x00 x80 x3f x00 x00 x80 x3f)
(T (W x00 x00 x80 x3f x00 x00 x80 x3f)
(L (W x00 x00 x00 x00 x00 x00 x00 x00)) E)
(L (W x45 x44 x00 x00 x00 x00 x00 x00)))
(T (W xa2 x0f xfd xff x74 x00 x00 x00)
(L (W x00 x00 x00 x00 x00 x00 x00 x00))
(L (W xff xff xff xff xff xff xff xff)))))
(T (W xec xb7 xfb xff x0c x00 x00 x00)
(T (W xff xff xff xff xff xff xff xff)
(T (W x00 x00 x80 x3f x00 x00 x80 x3f)
(T (W x00 x00 x00 x00 x00 x00 x00 x00)
(L (W x04 x00 x00 x00 xea x7a xff xff)) E)
(L (W x00 x00 x00 x00 xf4 x72 xfe xff)))
(T (W xff xff xff xff xff xff xff xff)
(T (W xff xff xff xff xff xff xff xff)
(L (W xff xff xff xff xff xff xff xff)) E)
(L (W x18 x00 x00 x00 x10 x00 x00 x00))))
(T (W x00 x00 x80 x3f x00 x00 x80 x3f)
(T (W x46 x53 x59 x53 x5f x4e x53 x5f)
(T (W x5a xb1 xfd xff x78 x00 x00 x00)
(L (W x30 x35 x5f x43 x4c x45 x41 x52)) E)
(L (W x00 x00 x01 x01 x63 x01 x00 x00)))
(T (W x00 x00 x00 x00 x02 x00 x00 x00)
(L (W x00 x00 x00 x00 xf4 x32 xfe xff))
(L (W x00 x00 x00 x00 x00 x00 x00 x00)))))))
(T (W x00 x00 x00 x00 x00 x00 x00 x00)
(T (W x00 x00 x00 x00 x00 x00 x00 x00)
(T (W x00 x00 x00 x00 x00 x00 x00 x00)
(T (W x5a x3a xfe xff x00 x00 x01 x01)
(T (W x00 x00 x80 x3f x00 x00 x80 x3f)
(T (W xb8 x00 x00 x00 xac x00 x00 x00)
(L (W x00 x00 x00 x00 x00 x00 x00 x00)) E)
(L (W x45 x26 x22 x84 xe4 x9c xf2 xcb)))
(T (W x45 x26 x22 x84 xe4 x9c xf2 xcb)
(T (W x76 x32 x00 x00 xea xd2 xfd xff)
(L (W x00 x00 x80 xbf x00 x00 x80 xbf)) E)
(L (W x45 x44 x00 x00 x00 x00 x00 x00))))
(T (W x01 x00 x00 x00 x9c x00 x00 x00)
(T (W x00 x00 x80 x3f x00 x00 x80 x3f)
(T (W xff xff xff xff xff xff xff xff)
(L (W x00 x00 x00 x00 x00 x00 x00 x00)) E)
(L (W x00 x00 x01 x01 xaa x01 x00 x00)))
(T (W x00 x00 x80 x3f x00 x00 x80 x3f)
(L (W x46 x53 x59 x53 x5f x4e x53 x5f))
(L (W x03 x00 x00 x00 xd8 x00 x00 x00)))))
(T (W x00 x00 x00 x00 x00 x00 x00 x00)
(T (W xff xff xff xff xff xff xff xff)
(T (W x45 x26 x22 x84 xe4 x9c xf2 xcb)
(T (W x00 x00 x00 x00 x00 x00 x00 x00)
(L (W xff xff xff xff xff xff xff xff)) E)
(L (W xff xff xff xff xff xff xff xff)))
(T (W x45 x26 x22 x84 xe4 x9c xf2 xcb)
(T (W xff xff xff xff xff xff xff xff)
(L (W xff xff xff xff xff xff xff xff)) E)
(L (W xff xff xff xff xb0 x00 x00 x00))))
(T (W x84 x2c xfc xff x00 x01 x01 x01)
(T (W x00 x00 x01 x01 x6a x01 x00 x00)
(T (W x00 x00 x00 x00 x00 x00 x00 x00)
(L (W xff xff xff xff xff xff xff xff)) E)
(L (W x00 x00 x00 x00 x00 x00 x00 x00)))
(T (W x00 x00 x00 x00 x00 x00 x00 x00)
(L (W x00 x00 x80 xbf x00 x00 x80 xbf))
(L (W xe4 x06 x00 x00 xc8 x05 x00 x00))))))
(T (W x00 x00 x80 x3f x00 x00 x80 x3f)
(T (W x00 x00 x00 x00 x00 x00 x00 x00)
(T (W x20 x01 x00 x00 x04 x00 x00 x00)
(T (W x00 x00 x80 x3f x00 x00 x80 x3f)
(T (W x00 x00 x80 x3f x00 x00 x80 x3f)
(L (W x00 x00 x00 x00 xf4 x5a xff xff)) E)
(L (W x84 x5c xfe xff x00 x01 x01 x01)))
(T (W x00 x00 x00 x00 x00 x00 x00 x00)
(T (W x00 x00 x80 xbf x00 x00 x80 xbf)
(L (W x45 x26 x22 x84 xe4 x9c xf2 xcb)) E)
(L (W x00 x00 x80 xbf x00 x00 x80 xbf))))
(T (W xc0 x00 x00 x00 xb4 x00 x00 x00)
(T (W xcc x00 x00 x00 x01 x00 x00 x00)
(T (W xff xff xff xff xff xff xff xff)
(L (W x00 x00 x80 xbf x00 x00 x80 xbf)) E)
(L (W x00 x00 x00 x00 x00 x00 x00 x00)))
(T (W x45 x26 x22 x84 xe4 x9c xf2 xcb)
(L (W x00 x00 x80 xbf x00 x00 x80 xbf))
(L (W x3c x02 x00 x00 x30 x01 x00 x00)))))
(T (W x01 x00 x00 x00 x04 x00 x00 x00)
(T (W xb8 x00 x00 x00 xac x00 x00 x00)
(T (W x30 x35 x5f x43 x4c x45 x41 x52)
(T (W xff xff xff xff xff xff xff xff)
(L (W xff xff xff xff xff xff xff xff)) E)
(L (W xff xff xff xff xff xff xff xff)))
(T (W x38 x01 x00 x00 x04 x00 x00 x00)
(T (W xff xff xff xff x9c x00 x00 x00)
(L (W x00 x00 x00 x00 x00 x00 x00 x00)) E)
(L (W x6c x00 x00 x00 x60 x00 x00 x00))))
(T (W x00 x00 x80 x3f x00 x00 x80 x3f)
(T (W x00 x00 x00 x00 x00 x00 x00 x00)
(T (W xff xff xff xff xff xff xff xff)
(L (W x1b x00 x00 x00 x0c x00 x00 x00)) E)
(L (W x00 x00 x00 x00 x00 x00 x00 x00)))
(T (W x02 x00 x00 x00 xff xff xff xff)
(L (W x03 x00 x00 x00 xc8 x00 x00 x00))
(L (W x08 x00 x00 x00 x18 x08 x00 x00))))))))
(T (W xff xff xff xff xff xff xff xff)
(T (W xff xff xff xff xff xff xff xff)
(T (W xff xff xff xff x01 x00 x00 x00)
(T (W xff xff xff xff xff xff xff xff)
(T (W x5a xc5 xfb xff x78 x00 x00 x00)
(T (W xff xff xff xff xff xff xff xff)
(T (W x00 x00 x00 x00 x00 x00 x00 x00)
(L (W x84 x48 xff xff x00 x01 x01 x01)) E)
(L (W x00 x00 x00 x00 x00 x00 x00 x00)))
(T (W x00 x00 x00 x00 x01 x00 x00 x00)
(T (W x00 x00 x80 x3f x00 x00 x80 x3f)
(L (W x2b x00 x00 x00 x2e x00 x00 x00)) E)
(L (W x00 x00 x00 x00 xf4 xc6 xfe xff))))
(T (W x00 x00 x00 x00 x00 x00 x00 x00)
(T (W xff xff xff xff xff xff xff xff)
(T (W x45 x26 x22 x84 xe4 x9c xf2 xcb)
(L (W x45 x26 x22 x84 xe4 x9c xf2 xcb)) E)
(L (W x00 x00 x80 xbf x00 x00 x80 xbf)))
(T (W x03 x00 x00 x00 xcc x00 x00 x00)
(L (W x5a x05 xfe xff x78 x00 x00 x00))
(L (W x00 x00 x00 x00 x00 x00 x00 x00)))))
(T (W x45 x26 x22 x84 xe4 x9c xf2 xcb)
(T (W x00 x00 x80 x3f x00 x00 x80 x3f)
(T (W x18 x00 x00 x00 x10 x00 x00 x00)
(T (W xff xff xff xff xff xff xff xff)
(L (W x00 x00 x80 xbf x00 x00 x80 xbf)) E)
(L (W x00 x00 x00 x00 x00 x00 x00 x00)))
(T (W x00 x00 x00 x00 x00 x00 x00 x00)
(T (W x45 x26 x22 x84 xe4 x9c xf2 xcb)
(L (W x00 x00 x00 x00 x00 x00 x00 x00)) E)
(L (W x30 x35 x5f x43 x4c x45 x41 x52))))
(T (W xea x94 xfe xff xbe x00 x00 x00)
(T (W x00 x00 x80 x3f x00 x00 x80 x3f)
(T (W x45 x26 x22 x84 xe4 x9c xf2 xcb)
(L (W xff xff xff xff xff xff xff xff)) E)
(L (W x84 xa8 xfe xff x00 x01 x01 x01)))
(T (W x00 x00 x80 x3f x00 x00 x80 x3f)
(L (W xff xff xff xff xbc x00 x00 x00))
(L (W x00 x00 x80 xbf x00 x00 x80 xbf))))))
(T (W xff xff xff xff xff xff xff xff)
(T (W xb8 x00 x00 x00 xac x00 x00 x00)
(T (W x00 x00 x80 x3f x00 x00 x80 x3f)
(T (W xff xff xff xff xff xff xff xff)
(T (W x1c x5f xfd xff x3f x00 x00 x00)
(L (W x10 x96 xaa x28 xbf xca x56 x6a)) E)
(L (W x00 x00 x00 x00 xca x57 xfe xff)))
(T (W x50 x00 x00 x00 x44 x00 x00 x00)
(T (W xff xff xff xff xff xff xff xff)
(L (W xff xff xff xff xff xff xff xff)) E)
(L (W xff xff xff xff xff xff xff xff))))
(T (W x00 x00 x00 x00 x00 x00 x00 x00)
(T (W x00 x00 x00 x00 x12 x00 x00 x00)
(T (W x00 x00 x00 x00 x00 x00 x00 x00)
(L (W xff xff xff xff xff xff xff xff)) E)
(L (W x18 x00 x00 x00 x0c x00 x00 x00)))
(T (W x13 x00 x00 x00 x10 x00 x00 x00)
(L (W xff xff xff xff xff xff xff xff))
(L (W x00 x00 x80 xbf x00 x00 x80 xbf)))))
(T (W x01 x00 x00 x00 x3e x00 x00 x00)
(T (W x00 x00 x80 x3f x00 x00 x80 x3f)
(T (W x50 x00 x00 x00 x44 x00 x00 x00)
(T (W x45 x26 x22 x84 xe4 x9c xf2 xcb)
(L (W x00 x00 x80 xbf x00 x00 x80 xbf)) E)
(L (W x00 x00 x00 x00 x00 x00 x00 x00)))
(T (W x00 x00 x80 x3f x00 x00 x80 x3f)
(T (W x45 x26 x22 x84 xe4 x9c xf2 xcb)
(L (W xff xff xff xff xc8 x00 x00 x00)) E)
(L (W x30 x35 x5f x43 x4c x45 x41 x52))))
(T (W x00 x00 x00 x00 x00 x00 x00 x00)
(T (W x2b x00 x00 x00 x2e x00 x00 x00)
(T (W xbc x00 x00 x00 x0a x00 x00 x00)
(L (W x1c x00 x00 x00 x10 x00 x00 x00)) E)
(L (W x00 x00 x80 xbf x00 x00 x80 xbf)))
(T (W x00 x00 x80 x3f x00 x00 x80 x3f)
(L (W x00 x00 x00 x00 x00 x00 x00 x00))
(L (W x00 x00 x00 x00 x88 x38 xff xff)))))))
(T (W xff xff xff xff xff xff xff xff)
(T (W xff xff xff xff xff xff xff xff)
(T (W xff xff xff xff xff xff xff xff)
(T (W x00 x00 x80 x3f x00 x00 x80 x3f)
(T (W xff xff xff xff xff xff xff xff)
(T (W x00 x00 x00 x00 x00 x00 x00 x00)
(L (W xff xff xff xff xff xff xff xff)) E)
(L (W x00 x00 x00 x00 x00 x00 x00 x00)))
(T (W x00 x00 x00 x00 x00 x00 x00 x00)
(T (W xff xff xff xff xa0 x00 x00 x00)
(L (W xff xff xff xff xff xff xff xff)) E)
(L (W x24 x00 x00 x00 x27 x00 x00 x00))))
(T (W x00 x00 x00 x00 x00 x00 x00 x00)
(T (W x04 x00 x00 x00 x52 x8e xfc xff)
(T (W x00 x00 x80 x3f x00 x00 x80 x3f)
(L (W x18 x00 x00 x00 x0c x00 x00 x00)) E)
(L (W x00 x00 x80 xbf x00 x00 x80 xbf)))
(T (W xff xff xff xff x02 x00 x00 x00)
(L (W x18 x00 x00 x00 x0c x00 x00 x00))
(L (W x00 x00 x00 x00 x00 x00 x00 x00)))))
(T (W x68 x00 x00 x00 x5c x00 x00 x00)
(T (W x00 x00 x80 x3f x00 x00 x80 x3f)
(T (W xff xff xff xff xff xff xff xff)
(T (W xb8 x00 x00 x00 xac x00 x00 x00)
(L (W x00 x00 x80 xbf x00 x00 x80 xbf)) E)
(L (W x00 x00 x00 x00 x00 x00 x00 x00)))
(T (W x00 x00 x00 x00 x00 x00 x00 x00)
(T (W x00 x00 x00 x00 x00 x00 x00 x00)
(L (W x3c x00 x00 x00 x00 x00 x80 xbf)) E)
(L (W x00 x00 x00 x00 x00 x00 x00 x00))))
(T (W x00 x00 x00 x00 x00 x00 x00 x00)
(T (W x00 x00 x80 x3f x00 x00 x80 x3f)
(T (W xff xff xff xff xff xff xff xff)
(L (W xff xff xff xff xa0 x00 x00 x00)) E)
(L (W x00 x00 x80 xbf x00 x00 x80 xbf)))
(T (W xa2 x2b xfd xff x74 x00 x00 x00)
(L (W x25 x00 x00 x00 x0c x00 x00 x00))
(L (W x5a x2d xff xff x78 x00 x00 x00))))))
(T (W xff xff xff xff xff xff xff xff)
(T (W xff xff xff xff x04 x00 x00 x00)
(T (W x45 x26 x22 x84 xe4 x9c xf2 xcb)
(T (W xff xff xff xff x04 x00 x00 x00)
(T (W xff xff xff xff xff xff xff xff)
(L (W x00 x00 x00 x00 x00 x00 x00 x00)) E)
(L (W x00 x00 x00 x00 x00 x00 x00 x00)))
(T (W xff xff xff xff xff xff xff xff)
(T (W x00 x00 x00 x00 x8a xdc xfd xff)
(L (W xff xff xff xff xff xff xff xff)) E)
(L (W x00 x00 x00 x00 x00 x00 x00 x00))))
(T (W xae xa2 x0f xa7 x37 xdf x0e xb7)
(T (W x00 x00 x00 x00 x00 x00 x00 x00)
(T (W xff xff xff xff xff xff xff xff)
(L (W xff xff xff xff xff xff xff xff)) E)
(L (W xff xff xff xff x90 x00 x00 x00)))
(T (W x00 x00 x00 x00 x00 x00 x00 x00)
(L (W xff xff xff xff xff xff xff xff))
(L (W x00 x00 x80 xbf x00 x00 x80 xbf)))))
(T (W x68 x00 x00 x00 x5c x00 x00 x00)
(T (W x00 x00 x00 x00 x00 x00 x00 x00)
(T (W xff xff xff xff xb0 x00 x00 x00)
(T (W x45 x26 x22 x84 xe4 x9c xf2 xcb)
(L (W x00 x00 x80 xbf x00 x00 x80 xbf)) E)
(L (W x00 x00 x00 x00 x00 x00 x00 x00)))
(T (W x50 x00 x00 x00 x44 x00 x00 x00)
(T (W x4f x84 x6f x8b xe8 xcb x63 xb7)
(L (W x00 x00 x00 x00 x00 x00 x00 x00)) E)
(L (W x00 x00 x01 x01 x6a x01 x00 x00))))
(T (W x48 x03 x00 x00 x34 x02 x00 x00)
(T (W xff xff xff xff xff xff xff xff)
(T (W x00 x00 x80 x3f x00 x00 x80 x3f)
(L (W x00 x00 x00 x00 xf4 xbe xff xff)) E)
(L (W x00 x00 x80 xbf x00 x00 x80 xbf)))
(T (W x00 x00 x80 x3f x00 x00 x80 x3f)
(L (W x00 x00 x00 x00 x00 x00 x00 x00))
(L (W x00 x00 x00 x00 xf4 x3e xff xff)))))))))
(T (W x00 x00 x01 x01 xc9 x02 x00 x00)
(T (W x50 x00 x00 x00 x44 x00 x00 x00)
(T (W x84 x56 xfb xff x00 x01 x01 x01)
(T (W x84 x66 xfb xff x00 x01 x01 x01)
(T (W x68 x00 x00 x00 x5c x00 x00 x00)
(T (W x00 x00 x00 x00 x00 x00 x00 x00)
(T (W x18 x00 x00 x00 x0c x00 x00 x00)
(T (W x1c x4d xfd xff x2d x00 x00 x00)
(L (W x00 x00 x80 xbf x00 x00 x80 xbf)) E)
(L (W xff xff xff xff xff xff xff xff)))
(T (W xff xff xff xff x9c x00 x00 x00)
(T (W x00 x00 x00 x00 x12 x00 x00 x00)
(L (W x00 x00 x80 xbf x00 x00 x80 xbf)) E)
(L (W x00 x00 x80 xbf x00 x00 x80 xbf))))
(T (W xdd x00 x00 x00 xff xff xff xff)
(T (W x00 x00 x80 x3f x00 x00 x80 x3f)
(T (W x00 x00 x00 x00 x00 x00 x00 x00)
(L (W x00 x00 x00 x00 x00 x00 x00 x00)) E)
(L (W x00 x00 x00 x00 x12 x00 x00 x00)))
(T (W x50 x00 x00 x00 x44 x00 x00 x00)
(L (W x00 x00 x00 x00 x00 x00 x00 x00))
(L (W xff xff xff xff xff xff xff xff)))))
(T (W x45 x26 x22 x84 xe4 x9c xf2 xcb)
(T (W x00 x00 x00 x00 x00 x00 x00 x00)
(T (W xa2 x61 xfc xff x74 x00 x00 x00)
(T (W x01 x00 x00 x00 x9c x00 x00 x00)
(L (W x94 x04 x00 x00 x80 x03 x00 x00)) E)
(L (W xff xff xff xff xff xff xff xff)))
(T (W xff xff xff xff xff xff xff xff)
(T (W x54 x02 x00 x00 x38 x01 x00 x00)
(L (W xff xff xff xff xff xff xff xff)) E)
(L (W xff xff xff xff xc4 x00 x00 x00))))
(T (W xff xff xff xff xff xff xff xff)
(T (W x46 x53 x59 x53 x5f x4e x53 x5f)
(T (W x04 x00 x00 x00 xea xac xfd xff)
(L (W xff xff xff xff xa0 x00 x00 x00)) E)
(L (W x00 x00 x80 xbf x00 x00 x80 xbf)))
(T (W x00 x00 x00 x00 x00 x00 x00 x00)
(L (W x6c x00 x00 x00 x60 x00 x00 x00))
(L (W x00 x00 x00 x00 x00 x00 x00 x00))))))
(T (W x23 x00 x00 x00 x9c x00 x00 x00)
(T (W x00 x00 x80 x3f x00 x00 x80 x3f)
(T (W x00 x00 x00 x00 x00 x00 x00 x00)
(T (W x00 x00 x80 x3f x00 x00 x80 x3f)
(T (W xff xff xff xff xff xff xff xff)
(L (W xff xff xff xff xff xff xff xff)) E)
(L (W xff xff xff xff xff xff xff xff)))
(T (W x00 x00 x00 x00 x00 x00 x00 x00)
(T (W x68 x00 x00 x00 x5c x00 x00 x00)
(L (W xff xff xff xff xa8 x00 x00 x00)) E)
(L (W x68 x00 x00 x00 x5c x00 x00 x00))))
(T (W xff xff xff xff xff xff xff xff)
(T (W xff xff xff xff xff xff xff xff)
(T (W x19 x00 x00 x00 x46 x53 x59 x53)
(L (W xff xff xff xff xa0 x00 x00 x00)) E)
(L (W x4f x84 x6f x8b xe8 xcb x63 xb7)))
(T (W xff xff xff xff xff xff xff xff)
(L (W x00 x00 x80 xbf x00 x00 x80 xbf))
(L (W x00 x00 x00 x00 x00 x00 x00 x00)))))
(T (W x00 x00 x80 x3f x00 x00 x80 x3f)
(T (W x00 x00 x00 x00 x00 x00 x00 x00)
(T (W x00 x00 x00 x00 x00 x00 x00 x00)
(T (W xff xff xff xff xff xff xff xff)
(L (W x00 x00 x00 x00 x00 x00 x00 x00)) E)
(L (W xb5 x01 x00 x00 xff xff xff xff)))
(T (W x00 x00 x00 x00 x00 x00 x00 x00)
(T (W x00 x00 x00 x00 x00 x00 x00 x00)
(L (W x00 x00 x00 x00 x00 x00 x00 x00)) E)
(L (W xde x01 x00 x00 xff xff xff xff))))
(T (W xff xff xff xff x03 x00 x00 x00)
(T (W x00 x00 x80 x3f x00 x00 x80 x3f)
(T (W x4c x11 x00 x00 x30 x10 x00 x00)
(L (W x54 x00 x00 x00 x48 x00 x00 x00)) E)
(L (W x00 x00 x00 x00 x00 x00 x00 x00)))
(T (W x00 x00 x00 x00 x00 x00 x00 x00)
(L (W xff xff xff xff xff xff xff xff))
(L (W x00 x00 x80 xbf x00 x00 x80 xbf)))))))
(T (W xa2 x59 xfb xff x74 x00 x00 x00)
(T (W x18 x00 x00 x00 x0c x00 x00 x00)
(T (W x5a x8b xfb xff x78 x00 x00 x00)
(T (W x00 x00 x00 x00 x00 x00 x00 x00)
(T (W xa2 x49 xfc xff x74 x00 x00 x00)
(T (W xff xff xff xff xff xff xff xff)
(L (W x6c x00 x00 x00 x60 x00 x00 x00)) E)
(L (W xff xff xff xff xff xff xff xff)))
(T (W x6a x01 x00 x00 xff xff xff xff)
(T (W x00 x00 x00 x00 x00 x00 x00 x00)
(L (W x00 x00 x00 x00 xf4 xcc xff xff)) E)
(L (W x00 x00 x80 xbf x00 x00 x80 xbf))))
(T (W xff xff xff xff xff xff xff xff)
(T (W xff xff xff xff xb0 x00 x00 x00)
(T (W x00 x00 x00 x00 x00 x00 x00 x00)
(L (W x00 x00 x80 xbf x00 x00 x80 xbf)) E)
(L (W x00 x00 x00 x00 x00 x00 x00 x00)))
(T (W xa2 x09 xfd xff x74 x00 x00 x00)
(L (W x00 x00 x80 xbf x00 x00 x80 xbf))
(L (W x00 x00 x01 x01 x63 x01 x00 x00)))))
(T (W x00 x00 x80 x3f x00 x00 x80 x3f)
(T (W x00 x00 x00 x00 x00 x00 x00 x00)
(T (W x00 x00 x00 x00 x1c x00 x20 x00)
(T (W x00 x00 x80 x3f x00 x00 x80 x3f)
(L (W x30 x35 x5f x43 x4c x45 x41 x52)) E)
(L (W xff xff xff xff xff xff xff xff)))
(T (W x9d x01 x00 x00 xff xff xff xff)
(T (W x00 x00 x00 x00 x8a xea xfd xff)
(L (W x45 x44 x00 x00 x00 x00 x00 x00)) E)
(L (W xff xff xff xff xff xff xff xff))))
(T (W xff xff xff xff xff xff xff xff)
(T (W x00 x00 x00 x00 x00 x00 x00 x00)
(T (W x00 x00 x80 x3f x00 x00 x80 x3f)
(L (W x00 x00 x80 xbf x00 x00 x80 xbf)) E)
(L (W x00 x00 x58 x00 x00 x00 x00 x00)))
(T (W x45 x26 x22 x84 xe4 x9c xf2 xcb)
(L (W xff xff xff xff xff xff xff xff))
(L (W x00 x00 x80 xbf x00 x00 x80 xbf))))))
(T (W x01 x00 x00 x00 x3e x00 x00 x00)
(T (W x00 x00 x80 x3f x00 x00 x80 x3f)
(T (W x00 x00 x00 x00 x00 x00 x00 x00)
(T (W x68 x00 x00 x00 x5c x00 x00 x00)
(T (W xb8 x00 x00 x00 xac x00 x00 x00)
(L (W xff xff xff xff xff xff xff xff)) E)
(L (W xff xff xff xff xff xff xff xff)))
(T (W x00 x00 x80 x3f x00 x00 x80 x3f)
(T (W x18 x00 x00 x00 x10 x00 x00 x00)
(L (W x58 x00 x00 x00 x4c x00 x00 x00)) E)
(L (W xff xff xff xff xff xff xff xff))))
(T (W xff xff xff xff xff xff xff xff)
(T (W xff xff xff xff xff xff xff xff)
(T (W x00 x00 x00 x00 x00 x00 x00 x00)
(L (W x18 x00 x00 x00 x0c x00 x00 x00)) E)
(L (W x3c x00 x00 x00 x00 x00 x80 xbf)))
(T (W x00 x00 x00 x00 x00 x00 x00 x00)
(L (W x18 x00 x00 x00 x0c x00 x00 x00))
(L (W x00 x00 x00 x00 x00 x00 x00 x00)))))
(T (W x45 x26 x22 x84 xe4 x9c xf2 xcb)
(T (W x60 xb9 xe9 x03 xc8 x42 x65 xc5)
(T (W x00 x00 x80 x3f x00 x00 x80 x3f)
(T (W x00 x00 x00 x00 x00 x00 x00 x00)
(L (W x00 x00 x00 x00 x00 x00 x00 x00)) E)
(L (W x00 x00 x00 x00 xea x84 xfe xff)))
(T (W x45 x26 x22 x84 xe4 x9c xf2 xcb)
(T (W x00 x00 x00 x00 x00 x00 x00 x00)
(L (W x5a xfb xff xff x78 x00 x00 x00)) E)
(L (W xff xff xff xff xff xff xff xff))))
(T (W xff xff xff xff xff xff xff xff)
(T (W x00 x00 x80 x3f x00 x00 x80 x3f)
(T (W x6c x64 x5f x70 x6f x6b x65 x5f)
(L (W x00 x00 x80 xbf x00 x00 x80 xbf)) E)
(L (W x00 x00 x00 x00 x00 x00 x00 x00)))
(T (W x00 x00 x00 x00 x00 x00 x00 x00)
(L (W xff xff xff xff xff xff xff xff))
(L (W x00 x00 x80 xbf x00 x00 x80 xbf))))))))
(T (W xff xff xff xff xff xff xff xff)
(T (W x00 x00 x00 x00 x00 x00 x00 x00)
(T (W x00 x00 x80 x3f x00 x00 x80 x3f)
(T (W xff xff xff xff xff xff xff xff)
(T (W xff xff xff xff xff xff xff xff)
(T (W x00 x00 x00 x00 x00 x00 x00 x00)
(T (W x00 x00 x80 x3f x00 x00 x80 x3f)
(L (W xff xff xff xff xff xff xff xff)) E)
(L (W x00 x00 x00 x00 x00 x00 x00 x00)))
(T (W x45 x26 x22 x84 xe4 x9c xf2 xcb)
(T (W x84 xca xfd xff x00 x01 x01 x01)
(L (W x08 x00 x00 x00 x18 x08 x00 x00)) E)
(L (W xff xff xff xff xff xff xff xff))))
(T (W xa2 x05 xfc xff x74 x00 x00 x00)
(T (W x45 x44 x00 x00 x00 x00 x00 x00)
(T (W xb8 x00 x00 x00 xac x00 x00 x00)
(L (W xff xff xff xff xff xff xff xff)) E)
(L (W x84 x8a xfe xff x00 x01 x01 x01)))
(T (W x00 x00 x00 x00 x04 x00 x00 x00)
(L (W xff xff xff xff xff xff xff xff))
(L (W x00 x00 x80 xbf x00 x00 x80 xbf)))))
(T (W xff xff xff xff xff xff xff xff)
(T (W x68 x00 x00 x00 x5c x00 x00 x00)
(T (W x5a xd8 xfe xff x00 x00 x01 x01)
(T (W x1c x71 xfd xff x11 x00 x00 x00)
(L (W x6c x00 x00 x00 x60 x00 x00 x00)) E)
(L (W x00 x00 x80 xbf x00 x00 x80 xbf)))
(T (W x00 x00 x80 x3f x00 x00 x80 x3f)
(T (W x5a xe7 xfd xff x78 x00 x00 x00)
(L (W x00 x00 x80 xbf x00 x00 x80 xbf)) E)
(L (W x4f x84 x6f x8b xe8 xcb x63 xb7))))
(T (W x00 x00 x00 x00 x00 x00 x00 x00)
(T (W x18 x00 x00 x00 x0c x00 x00 x00)
(T (W xff xff xff xff xff xff xff xff)
(L (W x45 x44 x00 x00 x00 x00 x00 x00)) E)
(L (W x01 x00 x00 x00 xff xff xff xff)))
(T (W xff xff xff xff xff xff xff xff)
(L (W x00 x00 x00 x00 x62 x2f xfe xff))
(L (W xc4 x00 x00 x00 x02 x00 x00 x00))))))
(T (W xec x7d xfb xff x25 x00 x00 x00)
(T (W x00 x00 x00 x00 x00 x00 x00 x00)
(T (W xff xff xff xff x04 x00 x00 x00)
(T (W x00 x00 x00 x00 x00 x00 x00 x00)
(T (W x00 x00 x00 x00 x00 x00 x00 x00)
(L (W x00 x00 x80 xbf x00 x00 x80 xbf)) E)
(L (W x4f x84 x6f x8b xe8 xcb x63 xb7)))
(T (W xff xff xff xff xff xff xff xff)
(T (W x00 x00 x00 x00 x00 x00 x00 x00)
(L (W x00 x00 x00 x00 x00 x00 x00 x00)) E)
(L (W x00 x00 x00 x00 x12 x00 x00 x00))))
(T (W x00 x00 x80 x3f x00 x00 x80 x3f)
(T (W x00 x00 x80 x3f x00 x00 x80 x3f)
(T (W x50 x00 x00 x00 x44 x00 x00 x00)
(L (W x00 x00 x00 x00 x12 x00 x00 x00)) E)
(L (W xff xff xff xff xff xff xff xff)))
(T (W x00 x00 x80 x3f x00 x00 x80 x3f)
(L (W x30 x35 x5f x43 x4c x45 x41 x52))
(L (W x18 x00 x00 x00 x0c x00 x00 x00)))))
(T (W xff xff xff xff xff xff xff xff)
(T (W x50 x00 x00 x00 x44 x00 x00 x00)
(T (W xff xff xff xff xff xff xff xff)
(T (W x68 x00 x00 x00 x5c x00 x00 x00)
(L (W xff xff xff xff xb0 x00 x00 x00)) E)
(L (W x00 x00 x80 xbf x00 x00 x80 xbf)))
(T (W xff xff xff xff xac x00 x00 x00)
(T (W x00 x00 x80 xbf x00 x00 x80 xbf)
(L (W x6c x00 x00 x00 x60 x00 x00 x00)) E)
(L (W x00 x00 x80 xbf x00 x00 x80 xbf))))
(T (W x00 x00 x00 x00 x00 x00 x00 x00)
(T (W xff xff xff xff xff xff xff xff)
(T (W x00 x00 x00 x00 x12 x00 x00 x00)
(L (W xff xff xff xff xff xff xff xff)) E)
(L (W x00 x00 x00 x00 xf4 xb8 xfe xff)))
(T (W x64 x00 x00 x00 x9c x00 x00 x00)
(L (W x00 x00 x00 x00 x88 x3a xfe xff))
(L (W xcc x00 x00 x00 x02 x00 x00 x00)))))))
(T (W x00 x00 x00 x00 x00 x00 x00 x00)
(T (W x00 x00 x00 x00 x00 x00 x00 x00)
(T (W x5a x00 xfe xff x00 x00 x01 x01)
(T (W xb8 x00 x00 x00 xac x00 x00 x00)
(T (W x00 x00 x00 x00 x00 x00 x00 x00)
(T (W x00 x00 x80 x3f x00 x00 x80 x3f)
(L (W x46 x53 x59 x53 x5f x4e x53 x5f)) E)
(L (W x45 x26 x22 x84 xe4 x9c xf2 xcb)))
(T (W xa2 xcd xfc xff x74 x00 x00 x00)
(T (W xff xff xff xff xff xff xff xff)
(L (W x45 x44 x00 x00 x00 x00 x00 x00)) E)
(L (W x04 x00 x00 x00 x80 x03 x00 x00))))
(T (W x00 x00 x80 x3f x00 x00 x80 x3f)
(T (W x45 x26 x22 x84 xe4 x9c xf2 xcb)
(T (W x00 x00 x00 x00 x60 x00 x64 x00)
(L (W xff xff xff xff xff xff xff xff)) E)
(L (W x31 x00 x00 x00 x34 x00 x00 x00)))
(T (W x00 x00 x00 x00 x00 x00 x00 x00)
(L (W xff xff xff xff xff xff xff xff))
(L (W x00 x00 x80 xbf x00 x00 x80 xbf)))))
(T (W xff xff xff xff xff xff xff xff)
(T (W x00 x00 x80 x3f x00 x00 x80 x3f)
(T (W xff xff xff xff xff xff xff xff)
(T (W xff xff xff xff xff xff xff xff)
(L (W xff xff xff xff xb0 x00 x00 x00)) E)
(L (W x45 x26 x22 x84 xe4 x9c xf2 xcb)))
(T (W x00 x00 x80 x3f x00 x00 x80 x3f)
(T (W xff xff xff xff xb0 x00 x00 x00)
(L (W x45 x26 x22 x84 xe4 x9c xf2 xcb)) E)
(L (W x00 x00 x80 xbf x00 x00 x80 xbf))))
(T (W x00 x00 x00 x00 x00 x00 x00 x00)
(T (W xff xff xff xff xff xff xff xff)
(T (W x00 x00 x00 x00 x00 x00 x00 x00)
(L (W xff xff xff xff xff xff xff xff)) E)
(L (W xff xff xff xff xff xff xff xff)))
(T (W xff xff xff xff xff xff xff xff)
(L (W x00 x00 x80 xbf x00 x00 x80 xbf))
(L (W xff xff xff xff xff xff xff xff))))))
(T (W x01 x00 x00 x00 x04 x00 x00 x00)
(T (W x20 x01 x00 x00 x04 x00 x00 x00)
(T (W x45 x26 x22 x84 xe4 x9c xf2 xcb)
(T (W x3e x00 x00 x00 x10 x00 x00 x00)
(T (W x00 x00 x00 x00 x00 x00 x00 x00)
(L (W x00 x00 x80 xbf x00 x00 x80 xbf)) E)
(L (W x3c x00 x00 x00 x00 x00 x80 xbf)))
(T (W x00 x00 x00 x00 x00 x00 x00 x00)
(T (W x49 xa1 x68 x4a xeb x5f xdd x3d)
(L (W x46 x53 x59 x53 x5f x4e x53 x5f)) E)
(L (W x00 x00 x00 x00 x00 x00 x00 x00))))
(T (W x45 x26 x22 x84 xe4 x9c xf2 xcb)
(T (W x5a x9f xfc xff x78 x00 x00 x00)
(T (W x00 x00 x00 x00 x00 x00 x00 x00)
(L (W x00 x00 x00 x00 x00 x00 x00 x00)) E)
(L (W xff xff xff xff xff xff xff xff)))
(T (W x45 x26 x22 x84 xe4 x9c xf2 xcb)
(L (W x00 x00 x00 x00 x00 x00 x00 x00))
(L (W xf0 x20 xff xff x4a x38 xff xff)))))
(T (W xff xff xff xff xff xff xff xff)
(T (W x68 x00 x00 x00 x5c x00 x00 x00)
(T (W x04 x00 x00 x00 x52 x80 xfc xff)
(T (W xb8 x00 x00 x00 xac x00 x00 x00)
(L (W xff xff xff xff xff xff xff xff)) E)
(L (W x5a x7f xfe xff x78 x00 x00 x00)))
(T (W xff xff xff xff xff xff xff xff)
(T (W x45 x26 x22 x84 xe4 x9c xf2 xcb)
(L (W x00 x00 x00 x00 x00 x00 x00 x00)) E)
(L (W x00 x00 x00 x00 x00 x00 x00 x00))))
(T (W x00 x00 x00 x00 x00 x00 x00 x00)
(T (W x45 x44 x00 x00 x00 x00 x00 x00)
(T (W xff xff xff xff xa0 x00 x00 x00)
(L (W x00 x00 x00 x00 x00 x00 x00 x00)) E)
(L (W x2f x00 x00 x00 x32 x00 x00 x00)))
(T (W x01 x00 x00 x00 x9c x00 x00 x00)
(L (W x00 x00 x80 xbf x00 x00 x80 xbf))
(L (W xff xff xff xff xff xff xff xff))))))))))
(T (W x68 x9d x01 x00 x34 x9c x01 x00)
(T (W x90 x77 x00 x00 x44 x75 x00 x00)
(T (W x00 x00 x80 x3f x00 x00 x80 x3f)
(T (W x00 x00 x80 x3f x00 x00 x80 x3f)
(T (W x00 x00 x80 x3f x00 x00 x80 x3f)
(T (W x00 x00 x80 x3f x00 x00 x80 x3f)
(T (W xec xc8 xfb xff x3e x00 x00 x00)
(T (W x00 x00 x80 x3f x00 x00 x80 x3f)
(T (W xff xff xff xff xff xff xff xff)
(L (W x00 x00 x00 x00 x00 x00 x00 x00)) E)
(L (W xff xff xff xff xff xff xff xff)))
(T (W x50 x00 x00 x00 x44 x00 x00 x00)
(T (W x00 x00 x00 x00 x52 xc3 xfd xff)
(L (W x00 x00 x80 xbf x00 x00 x80 xbf)) E)
(L (W x00 x00 x00 x00 x00 x00 x00 x00))))
(T (W xff xff xff xff xff xff xff xff)
(T (W x00 x00 x80 x3f x00 x00 x80 x3f)
(T (W xea xf1 xff xff x71 x00 x00 x00)
(L (W x30 x35 x5f x43 x4c x45 x41 x52)) E)
(L (W x04 x00 x00 x00 x52 x83 xfe xff)))
(T (W x00 x00 x00 x00 x00 x00 x00 x00)
(T (W x00 x00 x00 x00 x00 x00 x00 x00)
(L (W x00 x00 x00 x00 x00 x00 x00 x00)) E)
(L (W xc4 x00 x00 x00 x02 x00 x00 x00)))))
(T (W x00 x00 x00 x00 x00 x00 x00 x00)
(T (W x36 x13 xaa x21 xd5 x61 x58 x2c)
(T (W x50 x00 x00 x00 x44 x00 x00 x00)
(T (W x00 x00 x80 x3f x00 x00 x80 x3f)
(L (W xff xff xff xff xff xff xff xff)) E)
(L (W xff xff xff xff xb0 x00 x00 x00)))
(T (W xff xff xff xff xac x00 x00 x00)
(T (W xff xff xff xff xbc x00 x00 x00)
(L (W xff xff xff xff xff xff xff xff)) E)
(L (W x45 x26 x22 x84 xe4 x9c xf2 xcb))))
(T (W xff xff xff xff xff xff xff xff)
(T (W x00 x00 x01 x01 x6a x01 x00 x00)
(T (W xff xff xff xff xff xff xff xff)
(L (W x5a xa2 xff xff x78 x00 x00 x00)) E)
(L (W x00 x00 x00 x00 x00 x00 x00 x00)))
(T (W xff xff xff xff x02 x00 x00 x00)
(L (W x3c x00 x00 x00 x00 x00 x80 xbf))
(L (W x00 x00 x00 x00 x00 x00 x00 x00))))))
(T (W x45 x26 x22 x84 xe4 x9c xf2 xcb)
(T (W x45 x26 x22 x84 xe4 x9c xf2 xcb)
(T (W x00 x00 x00 x00 x00 x00 x00 x00)
(T (W x00 x00 x80 x3f x00 x00 x80 x3f)
(T (W xb8 x00 x00 x00 xac x00 x00 x00)
(L (W xa2 x50 xff xff x74 x00 x00 x00)) E)
(L (W x03 x00 x00 x00 xc8 x00 x00 x00)))
(T (W x3a x00 x00 x00 x10 x00 x00 x00)
(T (W x45 x26 x22 x84 xe4 x9c xf2 xcb)
(L (W x14 x00 x00 x00 x0c x00 x00 x00)) E)
(L (W x00 x00 x80 xbf x00 x00 x80 xbf))))
(T (W xff xff xff xff xff xff xff xff)
(T (W xff xff xff xff xb0 x00 x00 x00)
(T (W x00 x00 x07 x00 x68 x00 x6c x00)
(L (W x6c x00 x00 x00 x60 x00 x00 x00)) E)
(L (W x00 x00 x00 x00 x00 x00 x00 x00)))
(T (W x2d x00 x00 x00 x30 x00 x00 x00)
(L (W x00 x00 x80 xbf x00 x00 x80 xbf))
(L (W x94 x04 x00 x00 x80 x03 x00 x00)))))
(T (W x00 x00 x00 x00 x00 x00 x00 x00)
(T (W x5a x63 xfe xff x00 x00 x01 x01)
(T (W x00 x00 x00 x00 x00 x00 x5c x00)
(T (W x00 x00 x00 x00 x00 x00 x00 x00)
(L (W x46 x53 x59 x53 x5f x4e x53 x5f)) E)
(L (W xff xff xff xff xff xff xff xff)))
(T (W x02 x00 x00 x00 xff xff xff xff)
(T (W x00 x00 x00 x00 x62 xfa xfd xff)
(L (W x00 x00 x00 x00 x00 x00 x00 x00)) E)
(L (W xff xff xff xff xff xff xff xff))))
(T (W x01 x00 x00 x00 xa0 x00 x00 x00)
(T (W x00 x00 x00 x00 x00 x00 x00 x00)
(T (W x32 x00 x00 x00 x35 x00 x00 x00)
(L (W x00 x00 x00 x00 x00 x00 x00 x00)) E)
(L (W x30 x35 x5f x43 x4c x45 x41 x52)))
(T (W x00 x00 x00 x00 x00 x00 x00 x00)
(L (W xff xff xff xff xff xff xff xff))
(L (W x00 x00 x00 x00 x00 x00 x00 x00)))))))
(T (W x00 x00 x80 x3f x00 x00 x80 x3f)
(T (W x00 x00 x00 x00 xf4 x6b xfb xff)
(T (W x00 x00 x80 x3f x00 x00 x80 x3f)
(T (W x00 x00 x00 x00 x00 x00 x00 x00)
(T (W x00 x00 x80 x3f x00 x00 x80 x3f)
(T (W xff xff xff xff xff xff xff xff)
(L (W x00 x00 x80 xbf x00 x00 x80 xbf)) E)
(L (W xff xff xff xff xc8 x00 x00 x00)))
(T (W xff xff xff xff xff xff xff xff)
(T (W x46 x53 x59 x53 x5f x4e x53 x5f)
(L (W x00 x00 x80 xbf x00 x00 x80 xbf)) E)
(L (W x00 x00 x00 x00 x00 x00 x00 x00))))
(T (W xb8 x00 x00 x00 xac x00 x00 x00)
(T (W x00 x00 x80 x3f x00 x00 x80 x3f)
(T (W x1c x94 xfd xff x16 x00 x00 x00)
(L (W x00 x00 x00 x00 x00 x00 x00 x00)) E)
(L (W x46 x53 x59 x53 x5f x4e x53 x5f)))
(T (W x00 x00 x80 x3f x00 x00 x80 x3f)
(L (W x00 x00 x00 x00 x00 x00 x00 x00))
(L (W xff xff xff xff xff xff xff xff)))))
(T (W x45 x26 x22 x84 xe4 x9c xf2 xcb)
(T (W x1a x01 x00 x00 xff xff xff xff)
(T (W x64 x00 x00 x00 x9c x00 x00 x00)
(T (W x00 x00 x80 x3f x00 x00 x80 x3f)
(L (W x00 x00 x01 x01 xbe x00 x00 x00)) E)
(L (W xff xff xff xff xff xff xff xff)))
(T (W xff xff xff xff xbc x00 x00 x00)
(T (W xff xff xff xff xff xff xff xff)
(L (W xff xff xff xff xff xff xff xff)) E)
(L (W xff xff xff xff xff xff xff xff))))
(T (W x18 x00 x00 x00 x10 x00 x00 x00)
(T (W x46 x53 x59 x53 x5f x4e x53 x5f)
(T (W x00 x00 x00 x00 x00 x00 x00 x00)
(L (W x0c x00 x00 x00 x00 x00 x10 x00)) E)
(L (W x18 x00 x00 x00 x0c x00 x00 x00)))
(T (W x00 x00 x00 x00 x00 x00 x00 x00)
(L (W x2c x00 x30 x00 x34 x00 x38 x00))
(L (W x00 x00 x00 x00 x00 x00 x00 x00))))))
(T (W x00 x00 x80 x3f x00 x00 x80 x3f)
(T (W x00 x00 x00 x00 x00 x00 x00 x00)
(T (W x00 x00 x00 x00 x00 x00 x00 x00)
(T (W x00 x00 x80 x3f x00 x00 x80 x3f)
(T (W x01 x00 x00 x00 x9c x00 x00 x00)
(L (W x3b x00 x00 x00 x3e x00 x00 x00)) E)
(L (W xb0 x00 x00 x00 x64 x00 x00 x00)))
(T (W x45 x26 x22 x84 xe4 x9c xf2 xcb)
(T (W x6c x00 x00 x00 x60 x00 x00 x00)
(L (W x00 x00 x80 xbf x00 x00 x80 xbf)) E)
(L (W x50 x00 x00 x00 x44 x00 x00 x00))))
(T (W xff xff xff xff xff xff xff xff)
(T (W xff xff xff xff xff xff xff xff)
(T (W x2e x00 x00 x00 x0c x00 x00 x00)
(L (W x6c x00 x00 x00 x60 x00 x00 x00)) E)
(L (W x00 x00 x80 xbf x00 x00 x80 xbf)))
(T (W xff xff xff xff xff xff xff xff)
(L (W x5a x1a xfe xff x78 x00 x00 x00))
(L (W x00 x00 x00 x00 x12 x00 x00 x00)))))
(T (W x00 x00 x00 x00 x00 x00 x00 x00)
(T (W xff xff xff xff xff xff xff xff)
(T (W x00 x00 x00 x00 x00 x00 x00 x00)
(T (W xa8 x01 x00 x00 xff xff xff xff)
(L (W x06 x85 xa7 x28 xbf x49 x53 x6a)) E)
(L (W xff xff xff xff xff xff xff xff)))
(T (W x00 x00 x00 x00 x00 x00 x00 x00)
(T (W xff xff xff xff xff xff xff xff)
(L (W x00 x00 x80 xbf x00 x00 x80 xbf)) E)
(L (W x18 x00 x00 x00 x10 x00 x00 x00))))
(T (W xa2 x38 xfc xff x74 x00 x00 x00)
(T (W x00 x00 x80 x3f x00 x00 x80 x3f)
(T (W xff xff xff xff xff xff xff xff)
(L (W x00 x00 x00 x00 x00 x00 x00 x00)) E)
(L (W x00 x00 x00 x00 x00 x00 x00 x00)))
(T (W x1c x44 xfd xff x36 x00 x00 x00)
(L (W xff xff xff xff xff xff xff xff))
(L (W x00 x00 x00 x00 x00 x00 x00 x00))))))))
(T (W xff xff xff xff xff xff xff xff)
(T (W x74 x02 x00 x00 xff xff xff xff)
(T (W x00 x00 x00 x00 x00 x00 x62 x00)
(T (W xff xff xff xff xff xff xff xff)
(T (W x45 x26 x22 x84 xe4 x9c xf2 xcb)
(T (W x3e x00 x00 x00 x10 x00 x00 x00)
(T (W x00 x00 x80 x3f x00 x00 x80 x3f)
(L (W xb0 x00 x00 x00 x64 x00 x00 x00)) E)
(L (W x00 x00 x00 x00 x00 x00 x00 x00)))
(T (W x00 x00 x00 x00 x00 x00 x00 x00)
(T (W x00 x00 x80 x3f x00 x00 x80 x3f)
(L (W xff xff xff xff xff xff xff xff)) E)
(L (W x31 x00 x00 x00 x34 x00 x00 x00))))
(T (W x45 x26 x22 x84 xe4 x9c xf2 xcb)
(T (W xff xff xff xff xff xff xff xff)
(T (W x01 x00 x00 x00 x9c x00 x00 x00)
(L (W xc4 x00 x00 x00 x02 x00 x00 x00)) E)
(L (W x00 x00 x80 xbf x00 x00 x80 xbf)))
(T (W xff xff xff xff xff xff xff xff)
(L (W x18 x00 x00 x00 x0c x00 x00 x00))
(L (W x00 x00 x00 x00 x00 x00 x00 x00)))))
(T (W xff xff xff xff xff xff xff xff)
(T (W x00 x00 x80 x3f x00 x00 x80 x3f)
(T (W xff xff xff xff xff xff xff xff)
(T (W xff xff xff xff xff xff xff xff)
(L (W x00 x00 x80 xbf x00 x00 x80 xbf)) E)
(L (W x45 x26 x22 x84 xe4 x9c xf2 xcb)))
(T (W x00 x00 x00 x00 x00 x00 x00 x00)
(T (W x00 x00 x80 xbf x00 x00 x80 xbf)
(L (W x00 x00 x00 x00 x00 x00 x00 x00)) E)
(L (W x00 x00 x00 x00 x00 x00 x00 x00))))
(T (W x00 x00 x00 x00 x00 x00 x00 x00)
(T (W x00 x00 x80 x3f x00 x00 x80 x3f)
(T (W xa2 xa4 xfd xff x74 x00 x00 x00)
(L (W xff xff xff xff xff xff xff xff)) E)
(L (W xb0 x00 x00 x00 x32 x00 x00 x00)))
(T (W xff xff xff xff xac x00 x00 x00)
(L (W xff xff xff xff xff xff xff xff))
(L (W x45 x26 x22 x84 xe4 x9c xf2 xcb))))))
(T (W xff xff xff xff xff xff xff xff)
(T (W xff xff xff xff xff xff xff xff)
(T (W x68 x00 x00 x00 x5c x00 x00 x00)
(T (W x1c x01 x00 x00 x04 x00 x00 x00)
(T (W x00 x00 x00 x00 x00 x00 x00 x00)
(L (W x00 x00 x00 x00 x00 x00 x00 x00)) E)
(L (W x00 x00 x00 x00 x00 x00 x00 x00)))
(T (W xff xff xff xff x9c x00 x00 x00)
(T (W x00 x00 x00 x00 x00 x00 x00 x00)
(L (W xff xff xff xff xff xff xff xff)) E)
(L (W x00 x00 x00 x00 x00 x00 x00 x00))))
(T (W x00 x00 x00 x00 x00 x00 x00 x00)
(T (W x45 x26 x22 x84 xe4 x9c xf2 xcb)
(T (W x45 x26 x22 x84 xe4 x9c xf2 xcb)
(L (W x00 x00 x00 x00 x52 x97 xff xff)) E)
(L (W xff xff xff xff xff xff xff xff)))
(T (W x4f x84 x6f x8b xe8 xcb x63 xb7)
(L (W x00 x00 x01 x01 xf2 x00 x00 x00))
(L (W x6c x00 x00 x00 x60 x00 x00 x00)))))
(T (W xff xff xff xff xff xff xff xff)
(T (W x00 x00 x80 x3f x00 x00 x80 x3f)
(T (W xff xff xff xff xff xff xff xff)
(T (W x50 x00 x00 x00 x44 x00 x00 x00)
(L (W x1c x00 x00 x00 x10 x00 x00 x00)) E)
(L (W x45 x26 x22 x84 xe4 x9c xf2 xcb)))
(T (W x00 x00 x00 x00 xf4 xf7 xfc xff)
(T (W x00 x00 x80 xbf x00 x00 x80 xbf)
(L (W xe5 xdc xac x28 xbf xd4 x59 x6a)) E)
(L (W x00 x00 x00 x00 x00 x00 x00 x00))))
(T (W x00 x00 x00 x00 x00 x00 x00 x00)
(T (W xff xff xff xff xff xff xff xff)
(T (W x76 x32 x00 x00 x52 xb7 xfd xff)
(L (W xff xff xff xff xb0 x00 x00 x00)) E)
(L (W x00 x00 x80 xbf x00 x00 x80 xbf)))
(T (W x45 x26 x22 x84 xe4 x9c xf2 xcb)
(L (W x45 x26 x22 x84 xe4 x9c xf2 xcb))
(L (W xff xff xff xff x90 x00 x00 x00)))))))
(T (W x44 x02 x00 x00 x28 x01 x00 x00)
(T (W x01 x00 x00 x00 x04 x00 x00 x00)
(T (W xff xff xff xff xff xff xff xff)
(T (W x18 x00 x00 x00 x0c x00 x00 x00)
(T (W x00 x00 x00 x00 xba xe4 xff xff)
(T (W x00 x00 x00 x00 x00 x00 x00 x00)
(L (W x00 x00 x01 x01 xc8 x02 x00 x00)) E)
(L (W x00 x00 x00 x00 x00 x00 x00 x00)))
(T (W x00 x00 x80 x3f x00 x00 x80 x3f)
(T (W xff xff xff xff xff xff xff xff)
(L (W xff xff xff xff xff xff xff xff)) E)
(L (W xff xff xff xff xff xff xff xff))))
(T (W x00 x00 x80 x3f x00 x00 x80 x3f)
(T (W x00 x00 x00 x00 x12 x00 x00 x00)
(T (W x00 x00 x80 x3f x00 x00 x80 x3f)
(L (W xff xff xff xff xff xff xff xff)) E)
(L (W xa2 x8c xfe xff x74 x00 x00 x00)))
(T (W x00 x00 x00 x00 x00 x00 x00 x00)
(L (W xff xff xff xff xff xff xff xff))
(L (W x49 xa1 x68 x4a xeb x5f xdd x3d)))))
(T (W xff xff xff xff x03 x00 x00 x00)
(T (W x00 x00 x80 x3f x00 x00 x80 x3f)
(T (W xff xff xff xff xff xff xff xff)
(T (W xff xff xff xff xff xff xff xff)
(L (W x00 x00 x00 x00 xf4 x6f xff xff)) E)
(L (W x00 x00 x00 x00 x00 x00 x00 x00)))
(T (W x00 x00 x80 x3f x00 x00 x80 x3f)
(T (W x00 x00 x80 xbf x00 x00 x80 xbf)
(L (W xf0 xef xff xff xda xfd xff xff)) E)
(L (W x00 x00 x00 x00 x00 x00 x00 x00))))
(T (W x00 x00 x00 x00 x00 x00 x00 x00)
(T (W x18 x00 x00 x00 x0c x00 x00 x00)
(T (W x64 x5f x70 x6f x6b x65 x5f x77)
(L (W xff xff xff xff xff xff xff xff)) E)
(L (W x50 x00 x00 x00 x44 x00 x00 x00)))
(T (W x00 x00 x00 x00 xf4 x2f xfd xff)
(L (W x00 x00 x00 x00 x00 x00 x00 x00))
(L (W xff xff xff xff xb0 x00 x00 x00))))))
(T (W xff xff xff xff xff xff xff xff)
(T (W xff xff xff xff xff xff xff xff)
(T (W x00 x00 x80 x3f x00 x00 x80 x3f)
(T (W xff xff xff xff xff xff xff xff)
(T (W x1c x68 xfd xff x36 x00 x00 x00)
(L (W x00 x00 x80 xbf x00 x00 x80 xbf)) E)
(L (W x00 x00 x80 xbf x00 x00 x80 xbf)))
(T (W x69 x01 x00 x00 xff xff xff xff)
(T (W x00 x00 x00 x00 x00 x00 x00 x00)
(L (W x04 x00 x00 x00 xea xe7 xff xff)) E)
(L (W x00 x00 x00 x00 x12 x00 x00 x00))))
(T (W x00 x00 x00 x00 x00 x00 x00 x00)
(T (W x00 x00 x80 x3f x00 x00 x80 x3f)
(T (W x1c xa8 xfd xff x32 x00 x00 x00)
(L (W x00 x00 x00 x00 x62 xa6 xff xff)) E)
(L (W xcc x00 x00 x00 x01 x00 x00 x00)))
(T (W x00 x00 x80 x3f x00 x00 x80 x3f)
(L (W xbe x00 x00 x00 xff xff xff xff))
(L (W x44 x00 x00 x00 x00 x00 x80 xbf)))))
(T (W xff xff xff xff xff xff xff xff)
(T (W x00 x00 x80 x3f x00 x00 x80 x3f)
(T (W xff xff xff xff xff xff xff xff)
(T (W x45 x26 x22 x84 xe4 x9c xf2 xcb)
(L (W xa2 x7c xff xff x74 x00 x00 x00)) E)
(L (W x00 x00 x80 xbf x00 x00 x80 xbf)))
(T (W xff xff xff xff xff xff xff xff)
(T (W x00 x00 x80 xbf x00 x00 x80 xbf)
(L (W x18 x00 x00 x00 x10 x00 x00 x00)) E)
(L (W x30 x35 x5f x43 x4c x45 x41 x52))))
(T (W x00 x00 x00 x00 x00 x00 x00 x00)
(T (W xff xff xff xff xff xff xff xff)
(T (W x6c x00 x00 x00 x60 x00 x00 x00)
(L (W xff xff xff xff xff xff xff xff)) E)
(L (W x00 x00 x00 x00 xf4 xbf xfe xff)))
(T (W x00 x00 x80 x3f x00 x00 x80 x3f)
(L (W x4f x84 x6f x8b xe8 xcb x63 xb7))
(L (W x35 x00 x00 x00 x38 x00 x00 x00)))))))))
(T (W x00 x00 x00 x00 x00 x00 x00 x00)
(T (W xff xff xff xff x03 x00 x00 x00)
(T (W x18 x00 x00 x00 x10 x00 x00 x00)
(T (W xff xff xff xff xff xff xff xff)
(T (W xff xff xff xff xff xff xff xff)
(T (W x00 x00 x80 x3f x00 x00 x80 x3f)
(T (W xff xff xff xff xff xff xff xff)
(T (W x00 x00 x00 x00 x00 x00 x00 x00)
(L (W x6c x00 x00 x00 x60 x00 x00 x00)) E)
(L (W xff xff xff xff xff xff xff xff)))
(T (W xff xff xff xff xff xff xff xff)
(T (W x45 x26 x22 x84 xe4 x9c xf2 xcb)
(L (W x00 x00 x00 x00 xf4 xc5 xff xff)) E)
(L (W x00 x00 x80 xbf x00 x00 x80 xbf))))
(T (W x00 x00 x00 x00 x00 x00 x00 x00)
(T (W xcc x00 x00 x00 x01 x00 x00 x00)
(T (W x00 x00 x00 x00 x00 x00 x00 x00)
(L (W x00 x00 x80 xbf x00 x00 x80 xbf)) E)
(L (W x45 x26 x22 x84 xe4 x9c xf2 xcb)))
(T (W x18 x00 x00 x00 x10 x00 x00 x00)
(L (W x00 x00 x80 xbf x00 x00 x80 xbf))
(L (W xff xff xff xff xff xff xff xff)))))
(T (W x00 x00 x80 x3f x00 x00 x80 x3f)
(T (W x45 x26 x22 x84 xe4 x9c xf2 xcb)
(T (W x45 x26 x22 x84 xe4 x9c xf2 xcb)
(T (W xb8 x00 x00 x00 xac x00 x00 x00)
(L (W x00 x00 x00 x00 x00 x00 x00 x00)) E)
(L (W x54 x02 x00 x00 x38 x01 x00 x00)))
(T (W xff xff xff xff xff xff xff xff)
(T (W x00 x00 x00 x00 x00 x00 x00 x00)
(L (W x00 x00 x00 x00 x00 x00 x00 x00)) E)
(L (W x00 x00 x01 x01 xcf x01 x00 x00))))
(T (W xff xff xff xff xff xff xff xff)
(T (W x00 x00 x00 x00 x00 x00 x00 x00)
(T (W x00 x00 x00 x00 x00 x00 x00 x00)
(L (W xff xff xff xff xff xff xff xff)) E)
(L (W x54 x00 x00 x00 x48 x00 x00 x00)))
(T (W x4f x84 x6f x8b xe8 xcb x63 xb7)
(L (W x45 x26 x22 x84 xe4 x9c xf2 xcb))
(L (W x00 x00 x80 xbf x00 x00 x80 xbf))))))
(T (W xff xff xff xff x03 x00 x00 x00)
(T (W x18 x00 x00 x00 x0c x00 x00 x00)
(T (W x00 x00 x00 x00 x00 x00 x00 x00)
(T (W x18 x00 x00 x00 x0c x00 x00 x00)
(T (W xff xff xff xff xff xff xff xff)
(L (W xff xff xff xff xff xff xff xff)) E)
(L (W xff xff xff xff xff xff xff xff)))
(T (W x00 x00 x80 x3f x00 x00 x80 x3f)
(T (W x18 x00 x00 x00 x10 x00 x00 x00)
(L (W xff xff xff xff xff xff xff xff)) E)
(L (W xff xff xff xff xff xff xff xff))))
(T (W xad x01 x00 x00 xff xff xff xff)
(T (W x04 x00 x00 x00 x52 x95 xfc xff)
(T (W x02 x00 x00 x00 xff xff xff xff)
(L (W xff xff xff xff xff xff xff xff)) E)
(L (W x00 x00 x80 xbf x00 x00 x80 xbf)))
(T (W xff xff xff xff xff xff xff xff)
(L (W xff xff xff xff xb0 x00 x00 x00))
(L (W x00 x00 x80 xbf x00 x00 x80 xbf)))))
(T (W x00 x00 x80 x3f x00 x00 x80 x3f)
(T (W x00 x00 x00 x00 x00 x00 x00 x00)
(T (W x00 x00 x80 x3f x00 x00 x80 x3f)
(T (W x1c x00 x20 x00 x24 x00 x28 x00)
(L (W x49 xa1 x68 x4a xeb x5f xdd x3d)) E)
(L (W x00 x00 x00 x00 x00 x00 x00 x00)))
(T (W x00 x00 x00 x00 x00 x00 x00 x00)
(T (W x00 x00 x00 x00 x00 x00 x00 x00)
(L (W x00 x01 x01 x01 xe2 xfe xff xff)) E)
(L (W x00 x00 x01 x01 x6a x01 x00 x00))))
(T (W x5e x00 x00 x00 xff xff xff xff)
(T (W x00 x00 x80 x3f x00 x00 x80 x3f)
(T (W x00 x00 x80 x3f x00 x00 x80 x3f)
(L (W x45 x26 x22 x84 xe4 x9c xf2 xcb)) E)
(L (W x4f x84 x6f x8b xe8 xcb x63 xb7)))
(T (W x00 x00 x80 x3f x00 x00 x80 x3f)
(L (W x24 x00 x00 x00 x0c x00 x00 x00))
(L (W x6c x00 x00 x00 x60 x00 x00 x00)))))))
(T (W xff xff xff xff xff xff xff xff)
(T (W x64 x00 x00 x00 x9c x00 x00 x00)
(T (W x45 x26 x22 x84 xe4 x9c xf2 xcb)
(T (W x45 x26 x22 x84 xe4 x9c xf2 xcb)
(T (W xff xff xff xff x04 x00 x00 x00)
(T (W x1c x56 xfd xff x36 x00 x00 x00)
(L (W x18 x00 x00 x00 x0c x00 x00 x00)) E)
(L (W x5c x00 x00 x00 xff xff xff xff)))
(T (W x00 x00 x00 x00 x00 x00 x00 x00)
(T (W x6c x00 x00 x00 x60 x00 x00 x00)
(L (W x35 x00 x00 x00 x38 x00 x00 x00)) E)
(L (W x00 x00 x00 x00 xf4 xcd xfe xff))))
(T (W xe5 x9a x1b xf2 x1e x20 x49 x87)
(T (W xff xff xff xff xff xff xff xff)
(T (W x00 x00 x00 x00 x00 x00 x00 x00)
(L (W x5a x8c xff xff x78 x00 x00 x00)) E)
(L (W x00 x00 x80 xbf x00 x00 x80 xbf)))
(T (W xff xff xff xff xff xff xff xff)
(L (W x00 x00 x80 xbf x00 x00 x80 xbf))
(L (W x30 x35 x5f x43 x4c x45 x41 x52)))))
(T (W x00 x00 x80 x3f x00 x00 x80 x3f)
(T (W x45 x26 x22 x84 xe4 x9c xf2 xcb)
(T (W x00 x00 x80 x3f x00 x00 x80 x3f)
(T (W x01 x00 x00 x00 x9c x00 x00 x00)
(L (W x00 x00 x00 x00 x00 x00 x00 x00)) E)
(L (W x00 x00 x00 x00 x00 x00 x00 x00)))
(T (W x5f x4e x53 x5f x30 x35 x5f x43)
(T (W x00 x00 x00 x00 x00 x00 x00 x00)
(L (W x00 x00 x00 x00 x00 x00 x00 x00)) E)
(L (W x00 x00 x00 x00 x00 x00 x00 x00))))
(T (W xff xff xff xff xff xff xff xff)
(T (W x00 x00 x80 x3f x00 x00 x80 x3f)
(T (W xff xff xff xff xb0 x00 x00 x00)
(L (W x6c x00 x00 x00 x60 x00 x00 x00)) E)
(L (W x00 x00 x00 x00 x00 x00 x00 x00)))
(T (W x00 x00 x80 x3f x00 x00 x80 x3f)
(L (W xff xff xff xff xff xff xff xff))
(L (W x00 x00 x80 xbf x00 x00 x80 xbf))))))
(T (W xff xff xff xff xff xff xff xff)
(T (W x68 x00 x00 x00 x5c x00 x00 x00)
(T (W x00 x00 x00 x00 x00 x00 x00 x00)
(T (W xa2 x5a xfc xff x74 x00 x00 x00)
(T (W xff xff xff xff xff xff xff xff)
(L (W x06 x00 x00 x00 xc8 x05 x00 x00)) E)
(L (W x00 x00 x00 x00 x00 x00 x00 x00)))
(T (W x45 x26 x22 x84 xe4 x9c xf2 xcb)
(T (W xff xff xff xff xff xff xff xff)
(L (W xc4 x00 x00 x00 x01 x00 x00 x00)) E)
(L (W xff xff xff xff xff xff xff xff))))
(T (W xff xff xff xff xff xff xff xff)
(T (W x45 x44 x00 x00 x00 x00 x00 x00)
(T (W x03 x00 x00 x00 xbc x00 x00 x00)
(L (W xff xff xff xff xff xff xff xff)) E)
(L (W x00 x01 x01 x01 xda xab xfe xff)))
(T (W x00 x00 x00 x00 x00 x00 x00 x00)
(L (W xff xff xff xff xff xff xff xff))
(L (W x49 xa1 x68 x4a xeb x5f xdd x3d)))))
(T (W x00 x00 x80 x3f x00 x00 x80 x3f)
(T (W x00 x00 x00 x00 x00 x00 x00 x00)
(T (W x00 x00 x80 x3f x00 x00 x80 x3f)
(T (W x00 x00 x00 x00 x00 x00 x00 x00)
(L (W x00 x00 x80 xbf x00 x00 x80 xbf)) E)
(L (W x46 x53 x59 x53 x5f x4e x53 x5f)))
(T (W x00 x00 x80 x3f x00 x00 x80 x3f)
(T (W x00 x00 x00 x00 x00 x00 x00 x00)
(L (W x00 x00 x01 x01 x42 x00 x00 x00)) E)
(L (W xde x01 x00 x00 xff xff xff xff))))
(T (W xff xff xff xff xff xff xff xff)
(T (W x18 x00 x00 x00 x0c x00 x00 x00)
(T (W x49 xa1 x68 x4a xeb x5f xdd x3d)
(L (W x00 x00 x80 xbf x00 x00 x80 xbf)) E)
(L (W x00 x00 x80 xbf x00 x00 x80 xbf)))
(T (W x00 x00 x00 x00 x00 x00 x00 x00)
(L (W x00 x00 x00 x00 xca x3e xfe xff))
(L (W x00 x00 x80 xbf x00 x00 x80 xbf))))))))
(T (W x1c x5a xfb xff x3e x00 x00 x00)
(T (W x00 x00 x00 x00 x00 x00 x00 x00)
(T (W x00 x00 x68 x00 x00 x00 x00 x00)
(T (W xec x8e xfb xff x3e x00 x00 x00)
(T (W xff xff xff xff xff xff xff xff)
(T (W x45 x26 x22 x84 xe4 x9c xf2 xcb)
(T (W x01 x00 x00 x00 x9c x00 x00 x00)
(L (W x00 x00 x00 x00 x00 x00 x00 x00)) E)
(L (W x00 x00 x80 xbf x00 x00 x80 xbf)))
(T (W x00 x00 x80 x3f x00 x00 x80 x3f)
(T (W xbc x00 x00 x00 x14 x00 x00 x00)
(L (W x00 x00 x00 x00 x00 x00 x00 x00)) E)
(L (W xff xff xff xff xff xff xff xff))))
(T (W x45 x26 x22 x84 xe4 x9c xf2 xcb)
(T (W x00 x00 x00 x00 x00 x00 x00 x00)
(T (W xff xff xff xff xff xff xff xff)
(L (W xff xff xff xff xff xff xff xff)) E)
(L (W xb8 x00 x00 x00 x64 x00 x00 x00)))
(T (W x00 x00 x00 x00 x00 x00 x00 x00)
(L (W x00 x00 x01 x01 x7d x00 x00 x00))
(L (W x00 x00 x80 x3f x00 x00 x80 x3f)))))
(T (W x6d x7c x32 xe8 xc0 x94 x7c x26)
(T (W xb8 x00 x00 x00 xac x00 x00 x00)
(T (W x00 x00 x00 x00 x00 x00 x00 x00)
(T (W x00 x00 x00 x00 x00 x00 x00 x00)
(L (W x18 x00 x00 x00 x0c x00 x00 x00)) E)
(L (W x50 x00 x00 x00 x44 x00 x00 x00)))
(T (W x68 x00 x00 x00 x5c x00 x00 x00)
(T (W x18 x00 x00 x00 x0c x00 x00 x00)
(L (W x18 x00 x00 x00 x0c x00 x00 x00)) E)
(L (W x00 x00 x80 xbf x00 x00 x80 xbf))))
(T (W x00 x00 x80 x3f x00 x00 x80 x3f)
(T (W xff xff xff xff xff xff xff xff)
(T (W x00 x00 x00 x00 x00 x00 x00 x00)
(L (W x00 x00 x00 x00 x00 x00 x00 x00)) E)
(L (W x4c x45 x41 x52 x45 x44 x00 x00)))
(T (W xff xff xff xff xff xff xff xff)
(L (W x00 x00 x00 x00 x00 x00 x00 x00))
(L (W xff xff xff xff xff xff xff xff))))))
(T (W x00 x00 x00 x00 x00 x00 x00 x00)
(T (W x00 x00 x00 x00 x00 x00 x00 x00)
(T (W xff xff xff xff xff xff xff xff)
(T (W x00 x00 x00 x00 x00 x00 x00 x00)
(T (W x00 x00 x80 x3f x00 x00 x80 x3f)
(L (W x00 x00 x80 xbf x00 x00 x80 xbf)) E)
(L (W x00 x00 x80 xbf x00 x00 x80 xbf)))
(T (W x00 x00 x00 x00 x01 x00 x00 x00)
(T (W x00 x00 x00 x00 x00 x00 x00 x00)
(L (W x00 x00 x00 x00 x00 x00 x00 x00)) E)
(L (W x00 x00 x00 x00 x00 x00 x00 x00))))
(T (W x00 x00 x80 x3f x00 x00 x80 x3f)
(T (W x00 x00 x80 x3f x00 x00 x80 x3f)
(T (W xb0 x00 x00 x00 x64 x00 x00 x00)
(L (W x45 x26 x22 x84 xe4 x9c xf2 xcb)) E)
(L (W x00 x00 x00 x00 x62 xa0 xfe xff)))
(T (W x50 x00 x00 x00 x44 x00 x00 x00)
(L (W x00 x00 x00 x00 x00 x00 x00 x00))
(L (W xff xff xff xff xff xff xff xff)))))
(T (W xff xff xff xff xff xff xff xff)
(T (W x68 x00 x00 x00 x5c x00 x00 x00)
(T (W xff xff xff xff xff xff xff xff)
(T (W xff xff xff xff x03 x00 x00 x00)
(L (W xff xff xff xff xff xff xff xff)) E)
(L (W x00 x00 x00 x00 xf4 x79 xfe xff)))
(T (W xff xff xff xff xff xff xff xff)
(T (W x5a xf8 xfd xff x78 x00 x00 x00)
(L (W x5c x00 x60 x00 x62 x00 x00 x00)) E)
(L (W x3c x00 x00 x00 x00 x00 x80 xbf))))
(T (W x00 x00 x00 x00 x00 x00 x00 x00)
(T (W x00 x00 x00 x00 x00 x00 x00 x00)
(T (W x6c x00 x00 x00 x60 x00 x00 x00)
(L (W xff xff xff xff xff xff xff xff)) E)
(L (W xff xff xff xff xff xff xff xff)))
(T (W xff xff xff xff xff xff xff xff)
(L (W x2d x00 x00 x00 x30 x00 x00 x00))
(L (W xff xff xff xff xff xff xff xff)))))))
(T (W x00 x00 x00 x00 x00 x00 x00 x00)
(T (W x45 x26 x22 x84 xe4 x9c xf2 xcb)
(T (W x00 x00 x00 x00 x00 x00 x00 x00)
(T (W xff xff xff xff xff xff xff xff)
(T (W x00 x00 x80 x3f x00 x00 x80 x3f)
(T (W x00 x00 x80 x3f x00 x00 x80 x3f)
(L (W x00 x00 x00 x00 x00 x00 x00 x00)) E)
(L (W x00 x00 x00 x00 x88 x53 xfe xff)))
(T (W xff xff xff xff xbc x00 x00 x00)
(T (W x0f x40 x54 x1d xca xa2 x99 xfd)
(L (W x00 x00 x00 x00 x00 x00 x00 x00)) E)
(L (W x00 x00 x00 x00 x00 x00 x00 x00))))
(T (W x18 x00 x00 x00 x0c x00 x00 x00)
(T (W x00 x00 x80 x3f x00 x00 x80 x3f)
(T (W x00 x00 x00 x00 x00 x00 x00 x00)
(L (W x45 x44 x00 x00 x00 x00 x00 x00)) E)
(L (W xff xff xff xff xff xff xff xff)))
(T (W x45 x26 x22 x84 xe4 x9c xf2 xcb)
(L (W x45 x44 x00 x00 x00 x00 x00 x00))
(L (W xff xff xff xff xb0 x00 x00 x00)))))
(T (W xff xff xff xff xff xff xff xff)
(T (W x45 x26 x22 x84 xe4 x9c xf2 xcb)
(T (W x01 x00 x00 x00 x68 x00 x00 x00)
(T (W x1c x7a xfd xff x1e x00 x00 x00)
(L (W xff xff xff xff xff xff xff xff)) E)
(L (W x00 x00 x80 xbf x00 x00 x80 xbf)))
(T (W xc8 x00 x00 x00 x01 x00 x00 x00)
(T (W xff xff xff xff xff xff xff xff)
(L (W xd4 x00 x00 x00 x14 x00 x00 x00)) E)
(L (W x6c x00 x00 x00 x60 x00 x00 x00))))
(T (W x45 x26 x22 x84 xe4 x9c xf2 xcb)
(T (W x00 x00 x01 x01 x6a x01 x00 x00)
(T (W x00 x00 x80 x3f x00 x00 x80 x3f)
(L (W xff xff xff xff xff xff xff xff)) E)
(L (W xff xff xff xff xff xff xff xff)))
(T (W xff xff xff xff xff xff xff xff)
(L (W x00 x00 x80 xbf x00 x00 x80 xbf))
(L (W xff xff xff xff xff xff xff xff))))))
(T (W x00 x00 x00 x00 x00 x00 x00 x00)
(T (W x00 x00 x00 x00 x00 x00 x00 x00)
(T (W xff xff xff xff xff xff xff xff)
(T (W x00 x00 x00 x00 x00 x00 x00 x00)
(T (W x00 x00 x00 x00 x00 x00 x00 x00)
(L (W x5a x60 xff xff x78 x00 x00 x00)) E)
(L (W x6c x00 x00 x00 x60 x00 x00 x00)))
(T (W x00 x00 x00 x00 x00 x00 x00 x00)
(T (W x00 x00 x80 xbf x00 x00 x80 xbf)
(L (W x00 x00 x00 x00 x00 x00 x00 x00)) E)
(L (W x00 x00 x80 xbf x00 x00 x80 xbf))))
(T (W x54 x00 x00 x00 x48 x00 x00 x00)
(T (W x18 x00 x00 x00 x0c x00 x00 x00)
(T (W x00 x00 x80 xbf x00 x00 x80 xbf)
(L (W x00 x00 x80 xbf x00 x00 x80 xbf)) E)
(L (W xff xff xff xff xff xff xff xff)))
(T (W xff xff xff xff xc4 x00 x00 x00)
(L (W x49 xa1 x68 x4a xeb x5f xdd x3d))
(L (W xff xff xff xff xff xff xff xff)))))
(T (W xff xff xff xff xff xff xff xff)
(T (W x84 x03 xfc xff x00 x01 x01 x01)
(T (W x00 x00 x00 x00 x12 x00 x00 x00)
(T (W xff xff xff xff xff xff xff xff)
(L (W xff xff xff xff xff xff xff xff)) E)
(L (W x18 x00 x00 x00 x0c x00 x00 x00)))
(T (W xca x56 xfe xff x00 x00 x01 x01)
(T (W xff xff xff xff xbc x00 x00 x00)
(L (W x00 x00 x80 xbf x00 x00 x80 xbf)) E)
(L (W x00 x00 x80 xbf x00 x00 x80 xbf))))
(T (W x45 x26 x22 x84 xe4 x9c xf2 xcb)
(T (W x00 x00 x00 x00 x00 x00 x00 x00)
(T (W xff xff xff xff xff xff xff xff)
(L (W x00 x00 x00 x00 x00 x00 x00 x00)) E)
(L (W xff xff xff xff xff xff xff xff)))
(T (W xb8 x00 x00 x00 xac x00 x00 x00)
(L (W x00 x00 x80 xbf x00 x00 x80 xbf))
(L (W xff xff xff xff xff xff xff xff)))))))))))
(T (W xa8 xce x02 x00 x4c xcc x02 x00)
(T (W xc0 x0a x02 x00 x7c x08 x02 x00)
(T (W xd0 xc0 x00 x00 x84 xbe x00 x00)
(T (W xff xff xff xff xff xff xff xff)
(T (W xff xff xff xff xff xff xff xff)
(T (W xff xff xff xff xff xff xff xff)
(T (W xff xff xff xff xff xff xff xff)
(T (W x00 x00 x80 x3f x00 x00 x80 x3f)
(T (W xff xff xff xff xff xff xff xff)
(T (W x00 x00 x80 x3f x00 x00 x80 x3f)
(L (W x18 x00 x00 x00 x10 x00 x00 x00)) E)
(L (W x00 x00 x00 x00 x00 x00 x00 x00)))
(T (W xcb x01 x00 x00 xff xff xff xff)
(T (W x00 x00 x80 x3f x00 x00 x80 x3f)
(L (W xff xff xff xff xff xff xff xff)) E)
(L (W x31 x00 x00 x00 x34 x00 x00 x00))))
(T (W x00 x00 x00 x00 x00 x00 x00 x00)
(T (W xff xff xff xff xff xff xff xff)
(T (W x00 x00 x80 x3f x00 x00 x80 x3f)
(L (W x6c x00 x00 x00 x60 x00 x00 x00)) E)
(L (W x45 x26 x22 x84 xe4 x9c xf2 xcb)))
(T (W xff xff xff xff x9c x00 x00 x00)
(T (W x50 x00 x00 x00 x44 x00 x00 x00)
(L (W x38 x00 x3c x00 x40 x00 x44 x00)) E)
(L (W x00 x00 x00 x00 x00 x00 x00 x00)))))
(T (W xb8 x00 x00 x00 xac x00 x00 x00)
(T (W x00 x00 x80 x3f x00 x00 x80 x3f)
(T (W xff xff xff xff xff xff xff xff)
(T (W xff xff xff xff xff xff xff xff)
(L (W x00 x00 x00 x00 x00 x00 x00 x00)) E)
(L (W x00 x00 x00 x00 x00 x00 x00 x00)))
(T (W x00 x00 x00 x00 x04 x00 x00 x00)
(T (W x00 x00 x00 x00 x00 x00 x00 x00)
(L (W x00 x00 x00 x00 x00 x00 x00 x00)) E)
(L (W x00 x00 x00 x00 x00 x00 x00 x00))))
(T (W x00 x00 x00 x00 x00 x00 x00 x00)
(T (W x45 x26 x22 x84 xe4 x9c xf2 xcb)
(T (W x00 x00 x00 x00 x00 x00 x00 x00)
(L (W x00 x00 x00 x00 x6a xab xff xff)) E)
(L (W x70 xa3 xfe xff xca xba xfe xff)))
(T (W x00 x00 x80 x3f x00 x00 x80 x3f)
(L (W xff xff xff xff xff xff xff xff))
(L (W xda x21 xff xff x78 x00 x00 x00))))))
(T (W x48 x03 x00 x00 x34 x02 x00 x00)
(T (W xff xff xff xff x04 x00 x00 x00)
(T (W x22 xd0 xfb xff x74 x00 x00 x00)
(T (W xff xff xff xff xff xff xff xff)
(T (W x00 x00 x00 x00 x00 x00 x00 x00)
(L (W x00 x00 x00 x00 x00 x00 x00 x00)) E)
(L (W x00 x00 x00 x00 x00 x00 x00 x00)))
(T (W x00 x00 x80 x3f x00 x00 x80 x3f)
(T (W xff xff xff xff xff xff xff xff)
(L (W x45 x44 x00 x00 x00 x00 x00 x00)) E)
(L (W xff xff xff xff xff xff xff xff))))
(T (W x00 x00 x00 x00 x00 x00 x00 x00)
(T (W x6c x98 xfc xff x21 x00 x00 x00)
(T (W x9c x9b xfd xff x46 x00 x00 x00)
(L (W xff xff xff xff xff xff xff xff)) E)
(L (W x18 x00 x00 x00 x10 x00 x00 x00)))
(T (W x5f x4e x53 x5f x30 x35 x5f x43)
(L (W xff xff xff xff xff xff xff xff))
(L (W x00 x00 x80 xbf x00 x00 x80 xbf)))))
(T (W x18 x00 x00 x00 x0c x00 x00 x00)
(T (W x00 x00 x80 x3f x00 x00 x80 x3f)
(T (W x65 x5f x73 x6b x79 x00 x00 x00)
(T (W xb8 x00 x00 x00 xac x00 x00 x00)
(L (W xda x71 xff xff x78 x00 x00 x00)) E)
(L (W x00 x00 x00 x00 x00 x00 x00 x00)))
(T (W x00 x00 x80 x3f x00 x00 x80 x3f)
(T (W x00 x00 x80 xbf x00 x00 x80 xbf)
(L (W x44 x00 x00 x00 x00 x00 x80 xbf)) E)
(L (W x00 x00 x00 x00 x00 x00 x00 x00))))
(T (W x9c x3b xfc xff x3e x00 x00 x00)
(T (W x35 x00 x00 x00 x38 x00 x00 x00)
(T (W x46 x53 x59 x53 x5f x4e x53 x5f)
(L (W xff xff xff xff x9c x00 x00 x00)) E)
(L (W x6c x00 x00 x00 x60 x00 x00 x00)))
(T (W x04 x35 xfd xff x00 x01 x01 x01)
(L (W x00 x00 x00 x00 x00 x00 x00 x00))
(L (W x45 x26 x22 x84 xe4 x9c xf2 xcb)))))))
(T (W xff xff xff xff xff xff xff xff)
(T (W x00 x00 x60 x00 x00 x00 x00 x00)
(T (W xff xff xff xff xff xff xff xff)
(T (W x68 x00 x00 x00 x5c x00 x00 x00)
(T (W xff xff xff xff xff xff xff xff)
(T (W x00 x00 x00 x00 x00 x00 x00 x00)
(L (W xff xff xff xff xff xff xff xff)) E)
(L (W x00 x00 x00 x00 x00 x00 x00 x00)))
(T (W x00 x00 x00 x00 x00 x00 x00 x00)
(T (W xda xc9 xfd xff x78 x00 x00 x00)
(L (W xff xff xff xff xff xff xff xff)) E)
(L (W x18 x00 x00 x00 x10 x00 x00 x00))))
(T (W x00 x00 x00 x00 x00 x00 x00 x00)
(T (W xff xff xff xff xff xff xff xff)
(T (W x00 x00 x80 x3f x00 x00 x80 x3f)
(L (W x45 x26 x22 x84 xe4 x9c xf2 xcb)) E)
(L (W xda x89 xfe xff x78 x00 x00 x00)))
(T (W xff xff xff xff xff xff xff xff)
(L (W x2f x00 x00 x00 x32 x00 x00 x00))
(L (W x49 xa1 x68 x4a xeb x5f xdd x3d)))))
(T (W xc0 x00 x00 x00 xb4 x00 x00 x00)
(T (W x00 x00 x80 x3f x00 x00 x80 x3f)
(T (W x48 x00 x4c x00 x50 x00 x00 x00)
(T (W xff xff xff xff xff xff xff xff)
(L (W x00 x00 x80 xbf x00 x00 x80 xbf)) E)
(L (W x49 xa1 x68 x4a xeb x5f xdd x3d)))
(T (W x00 x00 x00 x00 x00 x00 x00 x00)
(T (W x45 x26 x22 x84 xe4 x9c xf2 xcb)
(L (W x45 x26 x22 x84 xe4 x9c xf2 xcb)) E)
(L (W x00 x00 x00 x00 x00 x00 x00 x00))))
(T (W x00 x00 x00 x00 x00 x00 x00 x00)
(T (W xda xa9 xfc xff x78 x00 x00 x00)
(T (W x32 x00 x00 x00 x35 x00 x00 x00)
(L (W x00 x00 x80 xbf x00 x00 x80 xbf)) E)
(L (W x00 x00 x00 x00 x00 x00 x00 x00)))
(T (W x22 x28 xfd xff x74 x00 x00 x00)
(L (W xff xff xff xff xff xff xff xff))
(L (W xff xff xff xff xb0 x00 x00 x00))))))
(T (W xff xff xff xff xff xff xff xff)
(T (W x18 x00 x00 x00 x10 x00 x00 x00)
(T (W x04 xdd xfb xff x00 x01 x01 x01)
(T (W xff xff xff xff xff xff xff xff)
(T (W x9c x63 xfd xff x43 x00 x00 x00)
(L (W x00 x00 x00 x00 x00 x00 x00 x00)) E)
(L (W x00 x00 x00 x00 x12 x00 x00 x00)))
(T (W xff xff xff xff xbc x00 x00 x00)
(T (W x00 x00 x01 x01 x73 x02 x00 x00)
(L (W xff xff xff xff xff xff xff xff)) E)
(L (W xff xff xff xff xff xff xff xff))))
(T (W x45 x26 x22 x84 xe4 x9c xf2 xcb)
(T (W x4f x84 x6f x8b xe8 xcb x63 xb7)
(T (W x00 x00 x80 xbf x00 x00 x80 xbf)
(L (W xdc x00 x00 x00 xff xff xff xff)) E)
(L (W xff xff xff xff xff xff xff xff)))
(T (W x00 x00 x00 x00 x00 x00 x00 x00)
(L (W x00 x00 x00 x00 x00 x00 x00 x00))
(L (W x45 x26 x22 x84 xe4 x9c xf2 xcb)))))
(T (W x22 xb8 xfb xff x74 x00 x00 x00)
(T (W x00 x00 x00 x00 x00 x00 x00 x00)
(T (W xff xff xff xff xa0 x00 x00 x00)
(T (W x45 x26 x22 x84 xe4 x9c xf2 xcb)
(L (W x00 x00 x80 xbf x00 x00 x80 xbf)) E)
(L (W x00 x00 x80 xbf x00 x00 x80 xbf)))
(T (W x45 x26 x22 x84 xe4 x9c xf2 xcb)
(T (W x00 x00 x00 x00 x00 x00 x00 x00)
(L (W xff xff xff xff xff xff xff xff)) E)
(L (W x30 x35 x5f x43 x4c x45 x41 x52))))
(T (W x01 x00 x00 x00 x04 x00 x00 x00)
(T (W xff xff xff xff xff xff xff xff)
(T (W x00 x00 x80 x3f x00 x00 x80 x3f)
(L (W x2f x00 x00 x00 x32 x00 x00 x00)) E)
(L (W x00 x00 x00 x00 x74 xbb xfe xff)))
(T (W x00 x00 x80 x3f x00 x00 x80 x3f)
(L (W x00 x00 x00 x00 x00 x00 x00 x00))
(L (W x35 x00 x00 x00 x38 x00 x00 x00))))))))
(T (W x00 x00 x80 x3f x00 x00 x80 x3f)
(T (W x00 x00 x80 x3f x00 x00 x80 x3f)
(T (W x50 x00 x00 x00 x44 x00 x00 x00)
(T (W x00 x00 x80 x3f x00 x00 x80 x3f)
(T (W x00 x00 x00 x00 x00 x00 x00 x00)
(T (W x00 x00 x80 x3f x00 x00 x80 x3f)
(T (W xff xff xff xff xff xff xff xff)
(L (W x00 x00 x00 x00 x12 x00 x00 x00)) E)
(L (W x70 x47 xfe xff x5a x55 xfe xff)))
(T (W x22 xc4 xfc xff x74 x00 x00 x00)
(T (W xff xff xff xff xff xff xff xff)
(L (W x00 x00 x00 x00 x00 x00 x00 x00)) E)
(L (W x00 x00 x00 x00 x00 x00 x00 x00))))
(T (W xff xff xff xff xff xff xff xff)
(T (W x00 x00 x80 x3f x00 x00 x80 x3f)
(T (W x9c x8f xfd xff x34 x00 x00 x00)
(L (W x00 x00 x00 x00 x00 x00 x00 x00)) E)
(L (W xff xff xff xff xff xff xff xff)))
(T (W x4f x84 x6f x8b xe8 xcb x63 xb7)
(L (W x00 x00 x00 x00 x00 x00 x00 x00))
(L (W x45 x26 x22 x84 xe4 x9c xf2 xcb)))))
(T (W x00 x00 x00 x00 x00 x00 x00 x00)
(T (W xff xff xff xff xff xff xff xff)
(T (W x00 x00 x00 x00 x00 x00 x00 x00)
(T (W x00 x00 x80 x3f x00 x00 x80 x3f)
(L (W xff xff xff xff xff xff xff xff)) E)
(L (W xff xff xff xff xc8 x00 x00 x00)))
(T (W x22 xe4 xfc xff x74 x00 x00 x00)
(T (W xff xff xff xff xff xff xff xff)
(L (W x1c x00 x00 x00 x10 x00 x00 x00)) E)
(L (W x18 x00 x00 x00 x10 x00 x00 x00))))
(T (W x50 x00 x00 x00 x44 x00 x00 x00)
(T (W xff xff xff xff xff xff xff xff)
(T (W xff xff xff xff xff xff xff xff)
(L (W x00 x00 x80 xbf x00 x00 x80 xbf)) E)
(L (W x00 x00 x00 x00 x12 x00 x00 x00)))
(T (W x00 x00 x00 x00 x04 x00 x00 x00)
(L (W x45 x26 x22 x84 xe4 x9c xf2 xcb))
(L (W x00 x00 x00 x00 x00 x00 x00 x00))))))
(T (W x45 x26 x22 x84 xe4 x9c xf2 xcb)
(T (W x00 x00 x00 x00 x00 x00 x00 x00)
(T (W xda x46 xfe xff x00 x00 x01 x01)
(T (W x00 x00 x80 x3f x00 x00 x80 x3f)
(T (W x01 x00 x00 x00 x9c x00 x00 x00)
(L (W x3b x00 x00 x00 x3e x00 x00 x00)) E)
(L (W x70 x00 x00 x00 x64 x00 x00 x00)))
(T (W x00 x00 x00 x00 x00 x00 x00 x00)
(T (W x00 x00 x80 x3f x00 x00 x80 xbf)
(L (W x00 x00 x80 xbf x00 x00 x80 xbf)) E)
(L (W x54 x00 x00 x00 x48 x00 x00 x00))))
(T (W x64 x00 x00 x00 x9c x00 x00 x00)
(T (W xbc x00 x00 x00 x64 x00 x00 x00)
(T (W xff xff xff xff xff xff xff xff)
(L (W x00 x00 x80 xbf x00 x00 x80 xbf)) E)
(L (W x00 x00 x00 x00 x00 x00 x00 x00)))
(T (W xc8 x00 x00 x00 x01 x00 x00 x00)
(L (W x00 x00 x80 xbf x00 x00 x80 xbf))
(L (W x00 x00 x00 x00 xe2 x1d xff xff)))))
(T (W x00 x00 x00 x00 x00 x00 x00 x00)
(T (W xff xff xff xff xff xff xff xff)
(T (W x00 x00 x00 x00 x00 x00 x00 x00)
(T (W xcf x00 x00 x00 xff xff xff xff)
(L (W x6c x88 xa7 x28 xbf x4b x53 x6a)) E)
(L (W xff xff xff xff xbc x00 x00 x00)))
(T (W x00 x00 x00 x00 x00 x00 x00 x00)
(T (W xff xff xff xff xff xff xff xff)
(L (W x00 x00 x80 xbf x00 x00 x80 xbf)) E)
(L (W x18 x00 x00 x00 x10 x00 x00 x00))))
(T (W x00 x00 x00 x00 x74 x37 xfc xff)
(T (W x00 x00 x00 x00 x00 x00 x00 x00)
(T (W x45 x26 x22 x84 xe4 x9c xf2 xcb)
(L (W x00 x00 x00 x00 x00 x00 x00 x00)) E)
(L (W xff xff xff xff xff xff xff xff)))
(T (W xa7 x71 x2e x97 x85 x26 x59 x5f)
(L (W xff xff xff xff xff xff xff xff))
(L (W x46 x53 x59 x53 x5f x4e x53 x5f)))))))
(T (W x00 x00 x80 x3f x00 x00 x80 x3f)
(T (W x00 x00 x80 x3f x00 x00 x80 x3f)
(T (W x00 x00 x80 x3f x00 x00 x80 x3f)
(T (W x40 x00 x00 x00 x10 x00 x00 x00)
(T (W x00 x00 x80 x3f x00 x00 x80 x3f)
(T (W xb8 x00 x00 x00 xac x00 x00 x00)
(L (W x00 x00 x80 xbf x00 x00 x80 xbf)) E)
(L (W x45 x26 x22 x84 xe4 x9c xf2 xcb)))
(T (W xff xff xff xff xff xff xff xff)
(T (W x00 x00 x00 x00 x00 x00 x00 x00)
(L (W x00 x00 x80 xbf x00 x00 x80 xbf)) E)
(L (W x00 x00 x00 x00 x00 x00 x00 x00))))
(T (W xff xff xff xff xff xff xff xff)
(T (W x04 x91 xfc xff x00 x01 x01 x01)
(T (W xff xff xff xff xff xff xff xff)
(L (W x00 x00 x00 x00 x00 x00 x00 x00)) E)
(L (W xd7 x00 x00 x00 xff xff xff xff)))
(T (W x68 x00 x00 x00 x5c x00 x00 x00)
(L (W x00 x00 x00 x00 x00 x00 x00 x00))
(L (W x03 x00 x00 x00 xd8 x00 x00 x00)))))
(T (W x00 x00 x00 x00 x00 x00 x00 x00)
(T (W xff xff xff xff xff xff xff xff)
(T (W x45 x26 x22 x84 xe4 x9c xf2 xcb)
(T (W x00 x00 x00 x00 x00 x00 x00 x00)
(L (W x00 x00 x00 x00 x00 x00 x00 x00)) E)
(L (W x1c x00 x00 x00 x10 x00 x00 x00)))
(T (W xff xff xff xff xff xff xff xff)
(T (W xff xff xff xff xff xff xff xff)
(L (W x00 x00 x00 x00 x00 x00 x00 x00)) E)
(L (W xff xff xff xff xb0 x00 x00 x00))))
(T (W x22 x2c xfc xff x74 x00 x00 x00)
(T (W x24 x00 x00 x00 x0c x00 x00 x00)
(T (W x00 x00 x80 x3f x00 x00 x80 x3f)
(L (W x00 x00 x00 x00 x00 x00 x00 x00)) E)
(L (W x90 x01 x00 x00 xff xff xff xff)))
(T (W x00 x00 x00 x00 x00 x00 x00 x00)
(L (W x31 x00 x00 x00 x34 x00 x00 x00))
(L (W x00 x00 x00 x00 x00 x00 x00 x00))))))
(T (W x00 x00 x80 x3f x00 x00 x80 x3f)
(T (W x45 x26 x22 x84 xe4 x9c xf2 xcb)
(T (W xff xff xff xff xff xff xff xff)
(T (W x45 x26 x22 x84 xe4 x9c xf2 xcb)
(T (W x00 x00 x80 x3f x00 x00 x80 x3f)
(L (W xff xff xff xff xff xff xff xff)) E)
(L (W xff xff xff xff xff xff xff xff)))
(T (W x00 x00 x80 x3f x00 x00 x80 x3f)
(T (W x22 xdc xfd xff x74 x00 x00 x00)
(L (W x00 x00 x80 xbf x00 x00 x80 xbf)) E)
(L (W x04 xe1 xfe xff x00 x01 x01 x01))))
(T (W x04 x21 xfc xff x00 x01 x01 x01)
(T (W xff xff xff xff xff xff xff xff)
(T (W x00 x00 x80 xbf x00 x00 x80 xbf)
(L (W x00 x00 x80 xbf x00 x00 x80 xbf)) E)
(L (W x00 x00 x00 x00 x00 x00 x00 x00)))
(T (W xff xff xff xff xff xff xff xff)
(L (W x00 x00 x80 xbf x00 x00 x80 xbf))
(L (W xff xff xff xff xff xff xff xff)))))
(T (W x00 x00 x00 x00 x00 x00 x00 x00)
(T (W xff xff xff xff xff xff xff xff)
(T (W x00 x00 x00 x00 x00 x00 x00 x00)
(T (W xff xff xff xff xff xff xff xff)
(L (W x00 x00 x00 x00 x00 x00 x00 x00)) E)
(L (W xff xff xff xff xff xff xff xff)))
(T (W x00 x00 x00 x00 x00 x00 x00 x00)
(T (W xff xff xff xff xff xff xff xff)
(L (W x00 x00 x00 x00 x00 x00 x00 x00)) E)
(L (W x6c x00 x00 x00 x60 x00 x00 x00))))
(T (W x45 x26 x22 x84 xe4 x9c xf2 xcb)
(T (W x45 x26 x22 x84 xe4 x9c xf2 xcb)
(T (W xff xff xff xff xff xff xff xff)
(L (W x00 x00 x00 x00 x00 x00 x00 x00)) E)
(L (W x00 x00 x00 x00 x00 x00 x00 x00)))
(T (W xff xff xff xff xff xff xff xff)
(L (W xff xff xff xff xff xff xff xff))
(L (W x00 x00 x00 x00 x00 x00 x00 x00)))))))))
(T (W x68 x00 x00 x00 x5c x00 x00 x00)
(T (W x00 x00 x00 x00 x00 x00 x00 x00)
(T (W x00 x00 x00 x00 x00 x00 x00 x00)
(T (W x00 x00 x00 x00 x00 x00 x00 x00)
(T (W x00 x00 x00 x00 x00 x00 x00 x00)
(T (W xff xff xff xff xff xff xff xff)
(T (W x00 x00 x00 x00 x00 x00 x00 x00)
(T (W x01 x00 x00 x00 x9c x00 x00 x00)
(L (W x00 x00 x00 x00 x4a x46 xff xff)) E)
(L (W x00 x00 x80 xbf x00 x00 x80 xbf)))
(T (W x00 x00 x00 x00 x00 x00 x00 x00)
(T (W xbc x00 x00 x00 x50 x00 x00 x00)
(L (W x00 x00 x00 x00 x00 x00 x00 x00)) E)
(L (W xff xff xff xff xff xff xff xff))))
(T (W x50 x00 x00 x00 x44 x00 x00 x00)
(T (W x6c x8a xfc xff x26 x00 x00 x00)
(T (W xb8 x00 x00 x00 xac x00 x00 x00)
(L (W xff xff xff xff xff xff xff xff)) E)
(L (W xbc x00 x00 x00 x64 x00 x00 x00)))
(T (W x00 x00 x00 x00 x00 x00 x00 x00)
(L (W xff xff xff xff xff xff xff xff))
(L (W x00 x00 x80 xbf x00 x00 x80 xbf)))))
(T (W xff xff xff xff xff xff xff xff)
(T (W xc0 x00 x00 x00 xb4 x00 x00 x00)
(T (W x00 x00 x00 x00 x00 x00 x00 x00)
(T (W x00 x00 x00 x00 x00 x00 x00 x00)
(L (W x18 x00 x00 x00 x0c x00 x00 x00)) E)
(L (W x00 x00 x80 xbf x00 x00 x80 xbf)))
(T (W x00 x00 x80 x3f x00 x00 x80 x3f)
(T (W x45 x26 x22 x84 xe4 x9c xf2 xcb)
(L (W x54 x00 x00 x00 x48 x00 x00 x00)) E)
(L (W x45 x26 x22 x84 xe4 x9c xf2 xcb))))
(T (W x00 x00 x80 x3f x00 x00 x80 x3f)
(T (W x2d x00 x00 x00 x30 x00 x00 x00)
(T (W x22 xa2 xfd xff x74 x00 x00 x00)
(L (W x00 x00 x00 x00 x00 x00 x00 x00)) E)
(L (W xff xff xff xff xff xff xff xff)))
(T (W xcc x00 x00 x00 x01 x00 x00 x00)
(L (W x00 x00 x00 x00 x00 x00 x00 x00))
(L (W xff xff xff xff xff xff xff xff))))))
(T (W x00 x00 x00 x00 x00 x00 x00 x00)
(T (W x40 x00 x00 x00 x10 x00 x00 x00)
(T (W x18 x00 x00 x00 x10 x00 x00 x00)
(T (W x6c x5a xfc xff x3e x00 x00 x00)
(T (W x00 x00 x80 x3f x00 x00 x80 x3f)
(L (W x49 xa1 x68 x4a xeb x5f xdd x3d)) E)
(L (W x45 x26 x22 x84 xe4 x9c xf2 xcb)))
(T (W xff xff xff xff xff xff xff xff)
(T (W x4c x45 x41 x52 x45 x44 x00 x00)
(L (W x00 x00 x00 x00 x00 x00 x00 x00)) E)
(L (W x00 x00 x00 x00 x00 x00 x00 x00))))
(T (W x00 x00 x80 x3f x00 x00 x80 x3f)
(T (W x00 x00 x80 x3f x00 x00 x80 x3f)
(T (W x01 x00 x00 x00 x68 x00 x00 x00)
(L (W x00 x00 x00 x00 x00 x00 x00 x00)) E)
(L (W xff xff xff xff xff xff xff xff)))
(T (W x00 x00 x80 x3f x00 x00 x80 x3f)
(L (W x6c x1a xfe xff x1a x00 x00 x00))
(L (W xff xff xff xff xff xff xff xff)))))
(T (W xff xff xff xff xff xff xff xff)
(T (W x00 x00 x00 x00 x74 xf5 xfb xff)
(T (W xff xff xff xff xff xff xff xff)
(T (W x00 x00 x80 x3f x00 x00 x80 x3f)
(L (W xff xff xff xff xff xff xff xff)) E)
(L (W x6c x00 x00 x00 x60 x00 x00 x00)))
(T (W x45 x26 x22 x84 xe4 x9c xf2 xcb)
(T (W x45 x26 x22 x84 xe4 x9c xf2 xcb)
(L (W x64 x00 x68 x00 x62 x00 x00 x00)) E)
(L (W x3c x00 x00 x00 x00 x00 x80 xbf))))
(T (W x45 x26 x22 x84 xe4 x9c xf2 xcb)
(T (W xff xff xff xff xff xff xff xff)
(T (W xff xff xff xff xff xff xff xff)
(L (W x00 x00 x00 x00 x00 x00 x00 x00)) E)
(L (W x03 x00 x00 x00 xd0 x00 x00 x00)))
(T (W xff xff xff xff xff xff xff xff)
(L (W x00 x00 x80 x3f x00 x00 x80 x3f))
(L (W x00 x00 x00 x00 x4a x36 xff xff)))))))
(T (W x00 x00 x00 x00 x00 x00 x00 x00)
(T (W x00 x00 x00 x00 x00 x00 x00 x00)
(T (W x00 x00 x00 x00 x00 x00 x00 x00)
(T (W xff xff xff xff x04 x00 x00 x00)
(T (W x00 x00 x00 x00 x00 x00 x00 x00)
(T (W x00 x00 x80 x3f x00 x00 x80 x3f)
(L (W x00 x00 x00 x00 x00 x00 x00 x00)) E)
(L (W x00 x00 x80 xbf x00 x00 x80 xbf)))
(T (W x50 x00 x00 x00 x44 x00 x00 x00)
(T (W xff xff xff xff xff xff xff xff)
(L (W x00 x00 x00 x00 x00 x00 x00 x00)) E)
(L (W x00 x00 x00 x00 x00 x00 x00 x00))))
(T (W x00 x00 x80 x3f x00 x00 x80 x3f)
(T (W x00 x00 x00 x00 x00 x00 x00 x00)
(T (W xb8 x00 x00 x00 xac x00 x00 x00)
(L (W x00 x00 x00 x00 x0a x8b xff xff)) E)
(L (W xff xff xff xff xff xff xff xff)))
(T (W x00 x00 x00 x00 x00 x00 x00 x00)
(L (W xff xff xff xff xff xff xff xff))
(L (W x6c x00 x00 x00 x60 x00 x00 x00)))))
(T (W xff xff xff xff xff xff xff xff)
(T (W xff xff xff xff x03 x00 x00 x00)
(T (W xff xff xff xff xff xff xff xff)
(T (W x9c x75 xfd xff x34 x00 x00 x00)
(L (W x18 x00 x00 x00 x10 x00 x00 x00)) E)
(L (W x54 x00 x00 x00 x48 x00 x00 x00)))
(T (W x22 xea xfc xff x74 x00 x00 x00)
(T (W xda xeb xfd xff x78 x00 x00 x00)
(L (W x45 x26 x22 x84 xe4 x9c xf2 xcb)) E)
(L (W x00 x00 x80 xbf x00 x00 x80 xbf))))
(T (W x00 x00 x80 x3f x00 x00 x80 x3f)
(T (W xff xff xff xff xff xff xff xff)
(T (W x67 x72 x6f x75 x70 x5f x6c x65)
(L (W xff xff xff xff xff xff xff xff)) E)
(L (W x18 x00 x00 x00 x10 x00 x00 x00)))
(T (W xff xff xff xff xff xff xff xff)
(L (W x00 x00 x80 xbf x00 x00 x80 xbf))
(L (W xff xff xff xff xff xff xff xff))))))
(T (W x00 x00 x00 x00 x00 x00 x00 x00)
(T (W xda x0c xfe xff x00 x00 x01 x01)
(T (W xb8 x00 x00 x00 xac x00 x00 x00)
(T (W x00 x00 x00 x00 x00 x00 x00 x00)
(T (W x00 x00 x00 x00 x00 x00 x00 x00)
(L (W x00 x00 x80 xbf x00 x00 x80 xbf)) E)
(L (W x00 x00 x80 xbf x00 x00 x80 xbf)))
(T (W x29 x00 x00 x00 x10 x00 x00 x00)
(T (W x00 x00 x00 x00 x00 x00 x00 x00)
(L (W x00 x00 x00 x00 x00 x00 x00 x00)) E)
(L (W x00 x00 x80 xbf x00 x00 x80 xbf))))
(T (W x00 x00 x80 x3f x00 x00 x80 x3f)
(T (W x54 x00 x00 x00 x48 x00 x00 x00)
(T (W x3c x00 x40 x00 x44 x00 x48 x00)
(L (W x00 x00 x00 x00 x00 x00 x00 x00)) E)
(L (W x00 x00 x01 x01 xa9 x01 x00 x00)))
(T (W x00 x00 x00 x00 x74 x1d xfd xff)
(L (W x00 x00 x00 x00 x00 x00 x00 x00))
(L (W xff xff xff xff xff xff xff xff)))))
(T (W xff xff xff xff xff xff xff xff)
(T (W x45 x26 x22 x84 xe4 x9c xf2 xcb)
(T (W xff xff xff xff xff xff xff xff)
(T (W x68 x00 x00 x00 x5c x00 x00 x00)
(L (W xff xff xff xff xff xff xff xff)) E)
(L (W xda x7b xfe xff x78 x00 x00 x00)))
(T (W xff xff xff xff xff xff xff xff)
(T (W x18 x00 x00 x00 x10 x00 x00 x00)
(L (W x00 x00 x00 x00 x00 x00 x00 x00)) E)
(L (W x00 x00 x80 xbf x00 x00 x80 xbf))))
(T (W x45 x26 x22 x84 xe4 x9c xf2 xcb)
(T (W x24 x00 x00 x00 x0c x00 x00 x00)
(T (W xff xff xff xff xff xff xff xff)
(L (W xff xff xff xff xff xff xff xff)) E)
(L (W xff xff xff xff xff xff xff xff)))
(T (W xb8 x00 x00 x00 xac x00 x00 x00)
(L (W x00 x00 x80 xbf x00 x00 x80 xbf))
(L (W xff xff xff xff xff xff xff xff))))))))
(T (W x00 x00 x80 x3f x00 x00 x80 x3f)
(T (W x04 x5b xfb xff x00 x01 x01 x01)
(T (W x23 x00 x00 x00 x10 x00 x00 x00)
(T (W x00 x00 x80 x3f x00 x00 x80 x3f)
(T (W x00 x00 x80 x3f x00 x00 x80 x3f)
(T (W xff xff xff xff xff xff xff xff)
(T (W x9c x51 xfd xff x37 x00 x00 x00)
(L (W x00 x00 x80 xbf x00 x00 x80 xbf)) E)
(L (W xff xff xff xff xff xff xff xff)))
(T (W xff xff xff xff xff xff xff xff)
(T (W x00 x00 x00 x00 x12 x00 x00 x00)
(L (W x35 x00 x00 x00 x38 x00 x00 x00)) E)
(L (W x00 x00 x80 xbf x00 x00 x80 xbf))))
(T (W x00 x00 x00 x00 x00 x00 x00 x00)
(T (W x45 x26 x22 x84 xe4 x9c xf2 xcb)
(T (W x00 x00 x00 x00 x00 x00 x00 x00)
(L (W x00 x00 x80 xbf x00 x00 x80 xbf)) E)
(L (W x12 x00 x00 x00 x46 x53 x59 x53)))
(T (W xff xff xff xff xac x00 x00 x00)
(L (W x45 x26 x22 x84 xe4 x9c xf2 xcb))
(L (W xff xff xff xff xff xff xff xff)))))
(T (W x00 x00 x80 x3f x00 x00 x80 x3f)
(T (W x00 x00 x00 x00 x00 x00 x00 x00)
(T (W x68 x00 x00 x00 x5c x00 x00 x00)
(T (W x01 x00 x00 x00 x9c x00 x00 x00)
(L (W x00 x00 x00 x00 x00 x00 x00 x00)) E)
(L (W xb4 x01 x00 x00 xff xff xff xff)))
(T (W xff xff xff xff x02 x00 x00 x00)
(T (W x00 x00 x00 x00 x00 x00 x00 x00)
(L (W x20 x00 x00 x00 x0c x00 x00 x00)) E)
(L (W xff xff xff xff xff xff xff xff))))
(T (W xff xff xff xff xff xff xff xff)
(T (W x00 x00 x00 x00 x00 x00 x00 x00)
(T (W x00 x00 x80 x3f x00 x00 x80 x3f)
(L (W x45 x26 x22 x84 xe4 x9c xf2 xcb)) E)
(L (W x68 x00 x00 x00 x5c x00 x00 x00)))
(T (W x00 x00 x80 x3f x00 x00 x80 x3f)
(L (W x34 x00 x04 x00 x08 x00 x0c x00))
(L (W x00 x00 x00 x00 x00 x00 x00 x00))))))
(T (W x18 x00 x00 x00 x0c x00 x00 x00)
(T (W x22 x96 xfb xff x74 x00 x00 x00)
(T (W x45 x26 x22 x84 xe4 x9c xf2 xcb)
(T (W x45 x26 x22 x84 xe4 x9c xf2 xcb)
(T (W xff xff xff xff xff xff xff xff)
(L (W xff xff xff xff xff xff xff xff)) E)
(L (W xff xff xff xff xff xff xff xff)))
(T (W x00 x00 x80 x3f x00 x00 x80 x3f)
(T (W xff xff xff xff xb0 x00 x00 x00)
(L (W x45 x26 x22 x84 xe4 x9c xf2 xcb)) E)
(L (W xb4 x00 x00 x00 x14 x00 x00 x00))))
(T (W xff xff xff xff xff xff xff xff)
(T (W xff xff xff xff xff xff xff xff)
(T (W x00 x00 x00 x00 x00 x00 x00 x00)
(L (W xbc x00 x00 x00 x64 x00 x00 x00)) E)
(L (W x00 x00 x80 xbf x00 x00 x80 xbf)))
(T (W x02 x00 x00 x00 xff xff xff xff)
(L (W x18 x00 x00 x00 x10 x00 x00 x00))
(L (W x00 x00 x00 x00 x00 x00 x00 x00)))))
(T (W x00 x00 x80 x3f x00 x00 x80 x3f)
(T (W x00 x00 x00 x00 x00 x00 x00 x00)
(T (W x00 x00 x80 x3f x00 x00 x80 x3f)
(T (W x00 x00 x00 x00 x00 x00 x00 x00)
(L (W x00 x00 x00 x00 x00 x00 x00 x00)) E)
(L (W x00 x00 x00 x00 x00 x00 x00 x00)))
(T (W x00 x00 x00 x00 x00 x00 x00 x00)
(T (W x00 x00 x00 x00 x6a x01 xfe xff)
(L (W x30 x35 x5f x43 x4c x45 x41 x52)) E)
(L (W xde x01 x00 x00 xff xff xff xff))))
(T (W x64 x00 x00 x00 x9c x00 x00 x00)
(T (W x00 x00 x80 x3f x00 x00 x80 x3f)
(T (W xd7 x01 x00 x00 xff xff xff xff)
(L (W x00 x00 x80 xbf x00 x00 x80 xbf)) E)
(L (W x00 x00 x00 x00 x00 x00 x00 x00)))
(T (W x00 x00 x00 x00 x00 x00 x00 x00)
(L (W x46 x53 x59 x53 x5f x4e x53 x5f))
(L (W x4f x84 x6f x8b xe8 xcb x63 xb7)))))))
(T (W x0a x00 x00 x00 x3e x00 x00 x00)
(T (W xff xff xff xff xff xff xff xff)
(T (W x68 x00 x00 x00 x5c x00 x00 x00)
(T (W x00 x00 x00 x00 x00 x00 x00 x00)
(T (W xff xff xff xff xff xff xff xff)
(T (W xff xff xff xff xff xff xff xff)
(L (W x21 x00 x00 x00 x24 x00 x00 x00)) E)
(L (W x04 x00 x00 x00 xea x53 xfe xff)))
(T (W x00 x00 x00 x00 x00 x00 x00 x00)
(T (W x00 x00 x80 x3f x00 x00 x80 x3f)
(L (W x18 x00 x00 x00 x10 x00 x00 x00)) E)
(L (W x18 x00 x00 x00 x0c x00 x00 x00))))
(T (W x00 x00 x00 x00 x04 x00 x00 x00)
(T (W xff xff xff xff xff xff xff xff)
(T (W x22 x8e xfd xff x74 x00 x00 x00)
(L (W x54 x00 x00 x00 x48 x00 x00 x00)) E)
(L (W x00 x00 x00 x00 x00 x00 x00 x00)))
(T (W xff xff xff xff xbc x00 x00 x00)
(L (W x54 x00 x00 x00 x48 x00 x00 x00))
(L (W x1b x00 x00 x00 x0c x00 x00 x00)))))
(T (W x45 x26 x22 x84 xe4 x9c xf2 xcb)
(T (W x1d x00 x00 x00 x0c x00 x00 x00)
(T (W x00 x00 x80 x3f x00 x00 x80 x3f)
(T (W x00 x00 x80 x3f x00 x00 x80 x3f)
(L (W x00 x00 x00 x00 x00 x00 x00 x00)) E)
(L (W xff xff xff xff xff xff xff xff)))
(T (W x13 x00 x00 x00 x10 x00 x00 x00)
(T (W x00 x00 x00 x00 x00 x00 x00 x00)
(L (W x00 x00 x00 x00 x12 x00 x00 x00)) E)
(L (W x00 x00 x01 x01 x6a x01 x00 x00))))
(T (W xff xff xff xff xff xff xff xff)
(T (W x45 x26 x22 x84 xe4 x9c xf2 xcb)
(T (W xff xff xff xff xff xff xff xff)
(L (W x00 x00 x80 xbf x00 x00 x80 xbf)) E)
(L (W x00 x00 x80 xbf x00 x00 x80 xbf)))
(T (W x00 x00 x80 x3f x00 x00 x80 x3f)
(L (W xff xff xff xff xff xff xff xff))
(L (W x00 x00 x80 xbf x00 x00 x80 xbf))))))
(T (W x22 x7e xfb xff x74 x00 x00 x00)
(T (W x04 xa3 xfb xff x00 x01 x01 x01)
(T (W x00 x00 x00 x00 x00 x00 x00 x00)
(T (W x18 x00 x00 x00 x0c x00 x00 x00)
(T (W xb8 x00 x00 x00 xac x00 x00 x00)
(L (W x00 x00 x00 x00 x00 x00 x00 x00)) E)
(L (W x00 x00 x01 x01 x5c x00 x00 x00)))
(T (W xff xff xff xff x9c x00 x00 x00)
(T (W xff xff xff xff xff xff xff xff)
(L (W xff xff xff xff x9c x00 x00 x00)) E)
(L (W xff xff xff xff xff xff xff xff))))
(T (W xa8 x01 x00 x00 xff xff xff xff)
(T (W x00 x00 x00 x00 x00 x00 x00 x00)
(T (W xff xff xff xff xff xff xff xff)
(L (W xff xff xff xff xff xff xff xff)) E)
(L (W x00 x00 x80 xbf x00 x00 x80 xbf)))
(T (W x00 x00 x00 x00 x00 x00 x00 x00)
(L (W xff xff xff xff xff xff xff xff))
(L (W x00 x00 x00 x00 x00 x00 x00 x00)))))
(T (W x00 x00 x80 x3f x00 x00 x80 x3f)
(T (W x00 x00 x00 x00 x00 x00 x00 x00)
(T (W x04 x83 xfc xff x00 x01 x01 x01)
(T (W x00 x00 x00 x00 x00 x00 x00 x00)
(L (W x00 x00 x80 xbf x00 x00 x80 xbf)) E)
(L (W x00 x00 x00 x00 x00 x00 x00 x00)))
(T (W x00 x00 x80 x3f x00 x00 x80 x3f)
(T (W x00 x00 x00 x00 x00 x00 x00 x00)
(L (W x50 x00 x00 x00 x18 x00 x00 x00)) E)
(L (W xff xff xff xff xff xff xff xff))))
(T (W xff xff xff xff x03 x00 x00 x00)
(T (W x45 x26 x22 x84 xe4 x9c xf2 xcb)
(T (W x00 x00 x00 x00 x00 x00 x00 x00)
(L (W x00 x00 x00 x00 x74 xc1 xff xff)) E)
(L (W x00 x00 x00 x00 x00 x00 x00 x00)))
(T (W x00 x00 x00 x00 x00 x00 x00 x00)
(L (W xff xff xff xff xff xff xff xff))
(L (W x00 x00 x80 xbf x00 x00 x80 xbf))))))))))
(T (W xf8 x6f x01 x00 x4c x6b x01 x00)
(T (W x80 x30 x00 x00 x4c x2f x00 x00)
(T (W xff xff xff xff x01 x00 x00 x00)
(T (W x02 x00 x00 x00 x1c x01 x00 x00)
(T (W x00 x00 x00 x00 x01 x00 x00 x00)
(T (W x00 x00 x00 x00 x3a x19 xff xff)
(T (W x18 x00 x00 x00 x0c x00 x00 x00)
(T (W x6c x49 xfc xff x3c x00 x00 x00)
(T (W x00 x00 x80 x3f x00 x00 x80 x3f)
(L (W xff xff xff xff xff xff xff xff)) E)
(L (W x00 x00 x80 xbf x00 x00 x80 xbf)))
(T (W x00 x00 x00 x00 x00 x00 x00 x00)
(T (W x04 xc6 xfd xff x00 x01 x01 x01)
(L (W xff xff xff xff xff xff xff xff)) E)
(L (W xff xff xff xff xff xff xff xff))))
(T (W x00 x00 x80 x3f x00 x00 x80 x3f)
(T (W xff xff xff xff xff xff xff xff)
(T (W x50 x00 x00 x00 x44 x00 x00 x00)
(L (W x18 x00 x00 x00 x10 x00 x00 x00)) E)
(L (W x04 x86 xfe xff x00 x01 x01 x01)))
(T (W xff xff xff xff xff xff xff xff)
(L (W x45 x26 x22 x84 xe4 x9c xf2 xcb))
(L (W x00 x00 x00 x00 x00 x00 x00 x00)))))
(T (W xff xff xff xff xff xff xff xff)
(T (W x40 x00 x00 x00 x9c x00 x00 x00)
(T (W x00 x00 x00 x00 x00 x00 x00 x00)
(T (W x9c x6c xfd xff x40 x00 x00 x00)
(L (W x00 x00 x80 xbf x00 x00 x80 xbf)) E)
(L (W x00 x00 x00 x00 x00 x00 x00 x00)))
(T (W x00 x00 x00 x00 x00 x00 x00 x00)
(T (W x45 x26 x22 x84 xe4 x9c xf2 xcb)
(L (W x00 x00 x80 xbf x00 x00 x80 xbf)) E)
(L (W x00 x00 x00 x00 x00 x00 x00 x00))))
(T (W x00 x00 x80 x3f x00 x00 x80 x3f)
(T (W xda xa2 xfc xff x78 x00 x00 x00)
(T (W x00 x00 x80 xbf x00 x00 x80 xbf)
(L (W x46 x53 x59 x53 x5f x4e x53 x5f)) E)
(L (W xff xff xff xff xff xff xff xff)))
(T (W x50 x00 x00 x00 x44 x00 x00 x00)
(L (W x00 x00 x00 x00 x00 x00 x00 x00))
(L (W xff xff xff xff xb0 x00 x00 x00))))))
(T (W x00 x00 x00 x00 x00 x00 x00 x00)
(T (W xff xff xff xff xff xff xff xff)
(T (W x45 x26 x22 x84 xe4 x9c xf2 xcb)
(T (W xff xff xff xff xff xff xff xff)
(T (W x00 x00 x00 x00 x00 x00 x00 x00)
(L (W x00 x00 x00 x00 x00 x00 x00 x00)) E)
(L (W x00 x00 x00 x00 x00 x00 x00 x00)))
(T (W x45 x26 x22 x84 xe4 x9c xf2 xcb)
(T (W x26 x02 x00 x00 xff xff xff xff)
(L (W x00 x00 x00 x00 x00 x00 x00 x00)) E)
(L (W x00 x00 x00 x00 xe2 xda xfe xff))))
(T (W x45 x26 x22 x84 xe4 x9c xf2 xcb)
(T (W x00 x00 x00 x00 x00 x00 x00 x00)
(T (W x00 x00 x00 x00 x30 x91 xfd xff)
(L (W x30 x35 x5f x43 x4c x45 x41 x52)) E)
(L (W x03 x00 x00 x00 xd0 x00 x00 x00)))
(T (W x00 x00 x00 x00 x00 x00 x00 x00)
(L (W xff xff xff xff xff xff xff xff))
(L (W x18 x00 x00 x00 x0c x00 x00 x00)))))
(T (W xff xff xff xff xff xff xff xff)
(T (W x6c x00 x00 x00 x60 x00 x00 x00)
(T (W x00 x00 x00 x00 x74 x74 xfc xff)
(T (W x06 x00 x07 x00 x00 x00 x00 x00)
(L (W xff xff xff xff xa0 x00 x00 x00)) E)
(L (W x00 x00 x80 xbf x00 x00 x80 xbf)))
(T (W x50 x00 x00 x00 x44 x00 x00 x00)
(T (W x6c x00 x00 x00 x60 x00 x00 x00)
(L (W x45 x26 x22 x84 xe4 x9c xf2 xcb)) E)
(L (W x00 x00 x80 xbf x00 x00 x80 xbf))))
(T (W x00 x00 x00 x00 x00 x00 x00 x00)
(T (W xff xff xff xff xff xff xff xff)
(T (W x00 x00 x00 x00 x00 x00 x00 x00)
(L (W xff xff xff xff xff xff xff xff)) E)
(L (W x18 x00 x00 x00 x10 x00 x00 x00)))
(T (W x45 x26 x22 x84 xe4 x9c xf2 xcb)
(L (W x00 x00 x80 xbf x00 x00 x80 xbf))
(L (W xff xff xff xff xff xff xff xff)))))))
(T (W x04 x00 x00 x00 x1a xe8 xfd xff)
(T (W x00 x00 x00 x00 x00 x00 x00 x00)
(T (W x1c x01 x00 x00 x04 x00 x00 x00)
(T (W x22 xc9 xfb xff x74 x00 x00 x00)
(T (W x01 x00 x00 x00 x04 x00 x00 x00)
(T (W x00 x00 x80 x3f x00 x00 x80 x3f)
(L (W xff xff xff xff x01 x00 x00 x00)) E)
(L (W x45 x26 x22 x84 xe4 x9c xf2 xcb)))
(T (W x00 x00 x80 x3f x00 x00 x80 x3f)
(T (W xff xff xff xff xa0 x00 x00 x00)
(L (W x00 x00 x00 x00 x00 x00 x00 x00)) E)
(L (W xff xff xff xff xff xff xff xff))))
(T (W x00 x00 x00 x00 x00 x00 x00 x00)
(T (W x6c x91 xfc xff x1d x00 x00 x00)
(T (W x01 x00 x00 x00 x9c x00 x00 x00)
(L (W xff xff xff xff xff xff xff xff)) E)
(L (W x31 x00 x00 x00 x34 x00 x00 x00)))
(T (W x00 x00 x00 x00 x00 x00 x00 x00)
(L (W xff xff xff xff xff xff xff xff))
(L (W x00 x00 x80 xbf x00 x00 x80 xbf)))))
(T (W xff xff xff xff xff xff xff xff)
(T (W x50 x00 x00 x00 x44 x00 x00 x00)
(T (W x00 x00 x00 x00 x00 x00 x00 x00)
(T (W xff xff xff xff xff xff xff xff)
(L (W x6c x00 x00 x00 x60 x00 x00 x00)) E)
(L (W x00 x00 x80 xbf x00 x00 x80 xbf)))
(T (W x45 x26 x22 x84 xe4 x9c xf2 xcb)
(T (W x00 x00 x80 xbf x00 x00 x80 xbf)
(L (W x54 x00 x00 x00 x48 x00 x00 x00)) E)
(L (W x00 x00 x80 xbf x00 x00 x80 xbf))))
(T (W x00 x00 x00 x00 x00 x00 x00 x00)
(T (W x2d x00 x00 x00 x30 x00 x00 x00)
(T (W xff xff xff xff xff xff xff xff)
(L (W xff xff xff xff xff xff xff xff)) E)
(L (W x00 x00 x00 x00 x00 x00 x00 x00)))
(T (W xff xff xff xff xff xff xff xff)
(L (W x00 x00 x00 x00 x00 x00 x00 x00))
(L (W xff xff xff xff xff xff xff xff))))))
(T (W x27 x00 x00 x00 x10 x00 x00 x00)
(T (W xff xff xff xff xff xff xff xff)
(T (W x18 x00 x00 x00 x10 x00 x00 x00)
(T (W xda xcb xfe xff x00 x00 x01 x01)
(T (W x00 x00 x00 x00 x00 x00 x00 x00)
(L (W x00 x00 x00 x00 x00 x00 x00 x00)) E)
(L (W x00 x00 x00 x00 x00 x00 x00 x00)))
(T (W xff xff xff xff xff xff xff xff)
(T (W x30 x35 x5f x43 x4c x45 x41 x52)
(L (W xbe x00 x00 x00 xff xff xff xff)) E)
(L (W x00 x00 x00 x00 x00 x00 x00 x00))))
(T (W x00 x00 x80 x3f x00 x00 x80 x3f)
(T (W x00 x00 x80 x3f x00 x00 x80 x3f)
(T (W x18 x00 x00 x00 x0c x00 x00 x00)
(L (W x00 x00 x00 x00 x00 x00 x00 x00)) E)
(L (W xff xff xff xff xff xff xff xff)))
(T (W x00 x00 x80 x3f x00 x00 x80 x3f)
(L (W x00 x00 x00 x00 x00 x00 x00 x00))
(L (W xac x00 x00 x00 x64 x00 x00 x00)))))
(T (W xff xff xff xff x04 x00 x00 x00)
(T (W x00 x00 x80 x3f x00 x00 x80 x3f)
(T (W xff xff xff xff xff xff xff xff)
(T (W x50 x00 x00 x00 x44 x00 x00 x00)
(L (W xff xff xff xff xb0 x00 x00 x00)) E)
(L (W x00 x00 x80 xbf x00 x00 x80 xbf)))
(T (W xff xff xff xff xc4 x00 x00 x00)
(T (W x50 x00 x00 x00 x44 x00 x00 x00)
(L (W x00 x00 x00 x00 x0a xfa xff xff)) E)
(L (W x00 x00 x00 x00 x00 x00 x00 x00))))
(T (W x00 x00 x00 x00 x00 x00 x00 x00)
(T (W xff xff xff xff xff xff xff xff)
(T (W x00 x00 x80 x3f x00 x00 x80 x3f)
(L (W xff xff xff xff xff xff xff xff)) E)
(L (W xff xff xff xff xb0 x00 x00 x00)))
(T (W x01 x00 x00 x00 x9c x00 x00 x00)
(L (W x45 x26 x22 x84 xe4 x9c xf2 xcb))
(L (W xff xff xff xff xff xff xff xff))))))))
(T (W x00 x00 x80 x3f x00 x00 x80 x3f)
(T (W x68 x00 x00 x00 x5c x00 x00 x00)
(T (W xff xff xff xff xff xff xff xff)
(T (W x00 x00 x80 x3f x00 x00 x80 x3f)
(T (W x00 x00 x00 x00 x00 x00 x00 x00)
(T (W x01 x00 x00 x00 x3e x00 x00 x00)
(T (W xff xff xff xff xff xff xff xff)
(L (W x00 x00 x00 x00 x00 x00 x00 x00)) E)
(L (W x18 x00 x00 x00 x0c x00 x00 x00)))
(T (W xff xff xff xff xbc x00 x00 x00)
(T (W x00 x00 x00 x00 xd2 xc7 xfd xff)
(L (W x00 x00 x80 xbf x00 x00 x80 xbf)) E)
(L (W x00 x00 x00 x00 x00 x00 x00 x00))))
(T (W x9a x9b xff xff x00 x00 x01 x01)
(T (W x54 x00 x00 x00 x48 x00 x00 x00)
(T (W x00 x00 x00 x00 x00 x00 x00 x00)
(L (W x00 x00 x00 x00 x00 x00 x00 x00)) E)
(L (W x1a xde xfe xff x00 x00 x01 x01)))
(T (W x00 x00 x80 x3f x00 x00 x80 x3f)
(L (W x00 x00 x00 x00 x00 x00 x00 x00))
(L (W xff xff xff xff xff xff xff xff)))))
(T (W x00 x00 x80 x3f x00 x00 x80 x3f)
(T (W xda x57 xfe xff x00 x00 x01 x01)
(T (W x00 x00 x80 x3f x00 x00 x80 x3f)
(T (W x00 x00 x80 x3f x00 x00 x80 x3f)
(L (W x00 x00 x00 x00 xe2 x6e xff xff)) E)
(L (W xff xff xff xff xff xff xff xff)))
(T (W xff xff xff xff xff xff xff xff)
(T (W x00 x00 x00 x00 x0a xe6 xfd xff)
(L (W xff xff xff xff xff xff xff xff)) E)
(L (W x03 x00 x00 x00 xd0 x00 x00 x00))))
(T (W x64 x00 x00 x00 x9c x00 x00 x00)
(T (W x24 x00 x00 x00 x0c x00 x00 x00)
(T (W x00 x00 x00 x00 x00 x00 x00 x00)
(L (W x54 x00 x00 x00 x48 x00 x00 x00)) E)
(L (W x00 x00 x00 x00 x00 x00 x00 x00)))
(T (W x00 x00 x00 x00 x00 x00 x00 x00)
(L (W x44 x00 x00 x00 x38 x00 x00 x00))
(L (W x00 x00 x00 x00 x00 x00 x00 x00))))))
(T (W x00 x00 x80 x3f x00 x00 x80 x3f)
(T (W x50 x00 x00 x00 x44 x00 x00 x00)
(T (W x00 x00 x00 x00 x00 x00 x00 x00)
(T (W xda x56 xfc xff x78 x00 x00 x00)
(T (W xb8 x00 x00 x00 xac x00 x00 x00)
(L (W xff xff xff xff xff xff xff xff)) E)
(L (W x03 x00 x00 x00 xd0 x00 x00 x00)))
(T (W x00 x00 x00 x00 x00 x00 x00 x00)
(T (W x00 x00 x00 x00 x74 xd8 xfd xff)
(L (W x54 x00 x00 x00 x48 x00 x00 x00)) E)
(L (W x04 xda xfe xff x00 x01 x01 x01))))
(T (W xff xff xff xff xff xff xff xff)
(T (W xff xff xff xff xff xff xff xff)
(T (W xff xff xff xff xff xff xff xff)
(L (W x04 x9a xff xff x00 x01 x01 x01)) E)
(L (W x00 x00 x80 xbf x00 x00 x80 xbf)))
(T (W xff xff xff xff xff xff xff xff)
(L (W x6c x00 x00 x00 x60 x00 x00 x00))
(L (W x00 x00 x00 x00 x00 x00 x00 x00)))))
(T (W x45 x26 x22 x84 xe4 x9c xf2 xcb)
(T (W x18 x01 x00 x00 xff xff xff xff)
(T (W x49 xa1 x68 x4a xeb x5f xdd x3d)
(T (W x00 x00 x00 x00 x00 x00 x00 x00)
(L (W x00 x00 x00 x00 x00 x00 x00 x00)) E)
(L (W xff xff xff xff xff xff xff xff)))
(T (W x00 x00 x00 x00 x00 x00 x00 x00)
(T (W xff xff xff xff xff xff xff xff)
(L (W x00 x00 x01 x01 xcb x01 x00 x00)) E)
(L (W xff xff xff xff xff xff xff xff))))
(T (W x18 x00 x00 x00 x0c x00 x00 x00)
(T (W x00 x00 x80 x3f x00 x00 x80 x3f)
(T (W x04 xba xfd xff x00 x01 x01 x01)
(L (W x00 x00 x00 x00 x00 x00 x00 x00)) E)
(L (W x00 x00 x00 x00 x00 x00 x00 x00)))
(T (W x00 x00 x00 x00 x00 x00 x00 x00)
(L (W x04 x00 x00 x00 xea x3a xfe xff))
(L (W x00 x00 x00 x00 x00 x00 x00 x00)))))))
(T (W x45 x26 x22 x84 xe4 x9c xf2 xcb)
(T (W x22 x6d xfb xff x74 x00 x00 x00)
(T (W x00 x00 x80 x3f x00 x00 x80 x3f)
(T (W x00 x00 x00 x00 x00 x00 x00 x00)
(T (W x68 x00 x00 x00 x5c x00 x00 x00)
(T (W xff xff xff xff xff xff xff xff)
(L (W xda x4e xff xff x78 x00 x00 x00)) E)
(L (W xff xff xff xff xc4 x00 x00 x00)))
(T (W x00 x00 x00 x00 x01 x00 x00 x00)
(T (W x49 xa1 x68 x4a xeb x5f xdd x3d)
(L (W x54 x00 x00 x00 x48 x00 x00 x00)) E)
(L (W x00 x00 x80 xbf x00 x00 x80 xbf))))
(T (W xff xff xff xff xff xff xff xff)
(T (W xbc x00 x00 x00 x14 x00 x00 x00)
(T (W x6c x95 xfd xff x19 x00 x00 x00)
(L (W x45 x26 x22 x84 xe4 x9c xf2 xcb)) E)
(L (W x5f x4e x53 x5f x30 x35 x5f x43)))
(T (W x45 x26 x22 x84 xe4 x9c xf2 xcb)
(L (W x45 x26 x22 x84 xe4 x9c xf2 xcb))
(L (W xff xff xff xff xff xff xff xff)))))
(T (W x45 x26 x22 x84 xe4 x9c xf2 xcb)
(T (W xff xff xff xff xff xff xff xff)
(T (W x00 x00 x80 x3f x00 x00 x80 x3f)
(T (W x00 x00 x80 x3f x00 x00 x80 x3f)
(L (W x00 x00 x00 x00 x00 x00 x00 x00)) E)
(L (W xff xff xff xff xff xff xff xff)))
(T (W xff xff xff xff xff xff xff xff)
(T (W x04 x09 x00 x00 xf0 x07 x00 x00)
(L (W x00 x00 x00 x00 x00 x00 x00 x00)) E)
(L (W xff xff xff xff xff xff xff xff))))
(T (W x00 x00 x00 x00 x74 x30 xfc xff)
(T (W x00 x00 x00 x00 x00 x00 x00 x00)
(T (W x18 x00 x00 x00 x0c x00 x00 x00)
(L (W x49 xa1 x68 x4a xeb x5f xdd x3d)) E)
(L (W x00 x00 x00 x00 x00 x00 x00 x00)))
(T (W x00 x00 x00 x00 x00 x00 x00 x00)
(L (W xff xff xff xff xff xff xff xff))
(L (W x00 x00 x00 x00 x00 x00 x00 x00))))))
(T (W x00 x00 x80 x3f x00 x00 x80 x3f)
(T (W x00 x00 x80 x3f x00 x00 x80 x3f)
(T (W x1d x00 x00 x00 x0c x00 x00 x00)
(T (W x00 x00 x80 x3f x00 x00 x80 x3f)
(T (W x01 x00 x00 x00 x9c x00 x00 x00)
(L (W xff xff xff xff xff xff xff xff)) E)
(L (W xff xff xff xff xff xff xff xff)))
(T (W x50 x00 x00 x00 x44 x00 x00 x00)
(T (W xff xff xff xff xff xff xff xff)
(L (W xda xde xff xff x78 x00 x00 x00)) E)
(L (W xb4 x00 x00 x00 x14 x00 x00 x00))))
(T (W xff xff xff xff xff xff xff xff)
(T (W x00 x00 x00 x00 x0a x9e xfc xff)
(T (W xff xff xff xff x9c x00 x00 x00)
(L (W x68 x00 x00 x00 x5c x00 x00 x00)) E)
(L (W x4f x84 x6f x8b xe8 xcb x63 xb7)))
(T (W x38 x01 x00 x00 x04 x00 x00 x00)
(L (W x50 x00 x00 x00 x44 x00 x00 x00))
(L (W x00 x00 x00 x00 x00 x00 x00 x00)))))
(T (W x00 x00 x80 x3f x00 x00 x80 x3f)
(T (W x22 x92 xff xff x7e x00 x00 x00)
(T (W x00 x00 x80 x3f x00 x00 x80 x3f)
(T (W x64 x5f x6c x76 x31 x00 x00 x00)
(L (W x00 x00 x00 x00 x00 x00 x00 x00)) E)
(L (W x00 x00 x00 x00 x00 x00 x00 x00)))
(T (W x00 x00 x80 x3f x00 x00 x80 x3f)
(T (W x00 x00 x00 x00 x02 x00 x00 x00)
(L (W x00 x00 x00 x00 x00 x00 x00 x00)) E)
(L (W x18 x00 x00 x00 x10 x00 x00 x00))))
(T (W x3e x00 x00 x00 x9c x00 x00 x00)
(T (W x54 x00 x00 x00 x48 x00 x00 x00)
(T (W x30 x35 x5f x43 x4c x45 x41 x52)
(L (W x00 x00 x80 xbf x00 x00 x80 xbf)) E)
(L (W x00 x00 x00 x00 x00 x00 x00 x00)))
(T (W x9c x48 xfd xff x36 x00 x00 x00)
(L (W xff xff xff xff xff xff xff xff))
(L (W x00 x00 x00 x00 x00 x00 x00 x00)))))))))
(T (W xb8 x00 x00 x00 xac x00 x00 x00)
(T (W x45 x26 x22 x84 xe4 x9c xf2 xcb)
(T (W x00 x00 x00 x00 x00 x00 x00 x00)
(T (W x45 x26 x22 x84 xe4 x9c xf2 xcb)
(T (W x00 x00 x80 x3f x00 x00 x80 x3f)
(T (W x1c x01 x00 x00 x04 x00 x00 x00)
(T (W x00 x00 x80 x3f x00 x00 x80 x3f)
(T (W xb8 x00 x00 x00 xac x00 x00 x00)
(L (W x00 x00 x00 x00 x00 x00 x00 x00)) E)
(L (W x54 x00 x00 x00 x48 x00 x00 x00)))
(T (W x00 x00 x80 x3f x00 x00 x80 x3f)
(T (W xff xff xff xff xff xff xff xff)
(L (W x00 x00 x00 x00 x00 x00 x00 x00)) E)
(L (W x00 x00 x00 x00 x00 x00 x00 x00))))
(T (W xbc x00 x00 x00 xb0 x00 x00 x00)
(T (W x4f x84 x6f x8b xe8 xcb x63 xb7)
(T (W xff xff xff xff xff xff xff xff)
(L (W x00 x00 x00 x00 x00 x00 x00 x00)) E)
(L (W xff xff xff xff xff xff xff xff)))
(T (W x00 x00 x00 x00 x00 x00 x00 x00)
(L (W x00 x00 x00 x00 x0a x04 xfe xff))
(L (W x00 x00 x80 xbf x00 x00 x80 xbf)))))
(T (W x1b x00 x00 x00 x0c x00 x00 x00)
(T (W xff xff xff xff xff xff xff xff)
(T (W x00 x00 x00 x00 x00 x00 x00 x00)
(T (W x00 x00 x00 x00 x00 x00 x00 x00)
(L (W xff xff xff xff xff xff xff xff)) E)
(L (W x45 x26 x22 x84 xe4 x9c xf2 xcb)))
(T (W x00 x00 x80 x3f x00 x00 x80 x3f)
(T (W xff xff xff xff xc8 x00 x00 x00)
(L (W x45 x26 x22 x84 xe4 x9c xf2 xcb)) E)
(L (W x6c x00 x00 x00 x60 x00 x00 x00))))
(T (W x00 x00 x80 x3f x00 x00 x80 x3f)
(T (W xff xff xff xff xff xff xff xff)
(T (W xff xff xff xff xff xff xff xff)
(L (W x49 xa1 x68 x4a xeb x5f xdd x3d)) E)
(L (W x00 x00 x00 x00 x00 x00 x00 x00)))
(T (W xff xff xff xff xff xff xff xff)
(L (W x00 x00 x00 x00 x00 x00 x00 x00))
(L (W xff xff xff xff xff xff xff xff))))))
(T (W x45 x26 x22 x84 xe4 x9c xf2 xcb)
(T (W x00 x00 x00 x00 x00 x00 x00 x00)
(T (W xff xff xff xff xff xff xff xff)
(T (W x00 x00 x00 x00 x00 x00 x00 x00)
(T (W x00 x00 x80 x3f x00 x00 x80 x3f)
(L (W x00 x00 x80 xbf x00 x00 x80 xbf)) E)
(L (W x00 x00 x80 xbf x00 x00 x80 xbf)))
(T (W x6a x01 x00 x00 xff xff xff xff)
(T (W x00 x00 x00 x00 x00 x00 x00 x00)
(L (W x00 x00 x00 x00 x00 x00 x00 x00)) E)
(L (W x00 x00 x80 xbf x00 x00 x80 xbf))))
(T (W x50 x00 x00 x00 x44 x00 x00 x00)
(T (W x04 x98 xfc xff x00 x01 x01 x01)
(T (W x22 x93 xfd xff x74 x00 x00 x00)
(L (W x00 x00 x80 xbf x00 x00 x80 xbf)) E)
(L (W x04 x00 x00 x00 x80 x03 x00 x00)))
(T (W x00 x00 x80 x3f x00 x00 x80 x3f)
(L (W x00 x00 x00 x00 x00 x00 x00 x00))
(L (W xff xff xff xff xff xff xff xff)))))
(T (W x0e x00 x00 x00 x10 x00 x00 x00)
(T (W xff xff xff xff xff xff xff xff)
(T (W xc8 x02 x00 x00 xff xff xff xff)
(T (W xff xff xff xff xff xff xff xff)
(L (W xff xff xff xff xff xff xff xff)) E)
(L (W x45 x26 x22 x84 xe4 x9c xf2 xcb)))
(T (W xff xff xff xff xff xff xff xff)
(T (W xff xff xff xff xc0 x00 x00 x00)
(L (W x46 x53 x59 x53 x5f x4e x53 x5f)) E)
(L (W x6c x00 x00 x00 x60 x00 x00 x00))))
(T (W x68 x00 x00 x00 x5c x00 x00 x00)
(T (W x29 x00 x00 x00 x0c x00 x00 x00)
(T (W x79 x61 x62 x75 x6e x00 x00 x00)
(L (W x00 x00 x00 x00 x00 x00 x00 x00)) E)
(L (W xff xff xff xff xff xff xff xff)))
(T (W xff xff xff xff xff xff xff xff)
(L (W x18 x00 x00 x00 x0c x00 x00 x00))
(L (W x00 x00 x00 x00 x00 x00 x00 x00)))))))
(T (W x45 x26 x22 x84 xe4 x9c xf2 xcb)
(T (W x00 x00 x00 x00 x00 x00 x00 x00)
(T (W x00 x00 x00 x00 x00 x00 x00 x00)
(T (W xff xff xff xff xff xff xff xff)
(T (W x45 x26 x22 x84 xe4 x9c xf2 xcb)
(T (W x01 x00 x00 x00 x9c x00 x00 x00)
(L (W x00 x00 x00 x00 x00 x00 x00 x00)) E)
(L (W x54 x00 x00 x00 x48 x00 x00 x00)))
(T (W xff xff xff xff x9c x00 x00 x00)
(T (W x30 x35 x5f x43 x4c x45 x41 x52)
(L (W x00 x00 x00 x00 x00 x00 x00 x00)) E)
(L (W x00 x00 x00 x00 x00 x00 x00 x00))))
(T (W x04 x10 xfc xff x00 x01 x01 x01)
(T (W x00 x00 x80 x3f x00 x00 x80 x3f)
(T (W xff xff xff xff xff xff xff xff)
(L (W x00 x00 x00 x00 x00 x00 x00 x00)) E)
(L (W xff xff xff xff xff xff xff xff)))
(T (W x00 x00 x80 x3f x00 x00 x80 x3f)
(L (W x32 x00 x00 x00 x0c x00 x00 x00))
(L (W x18 x00 x00 x00 x10 x00 x00 x00)))))
(T (W xda x1d xfe xff x00 x00 x01 x01)
(T (W xff xff xff xff xff xff xff xff)
(T (W x20 x00 x24 x00 x28 x00 x2c x00)
(T (W x00 x00 x00 x00 x00 x00 x00 x00)
(L (W xff xff xff xff xff xff xff xff)) E)
(L (W x45 x26 x22 x84 xe4 x9c xf2 xcb)))
(T (W x2f x00 x00 x00 x32 x00 x00 x00)
(T (W xff xff xff xff xb0 x00 x00 x00)
(L (W xff xff xff xff xff xff xff xff)) E)
(L (W xda xec xfe xff x78 x00 x00 x00))))
(T (W x50 x00 x00 x00 x44 x00 x00 x00)
(T (W xff xff xff xff xff xff xff xff)
(T (W x00 x00 x00 x00 x00 x00 x00 x00)
(L (W x30 x35 x5f x43 x4c x45 x41 x52)) E)
(L (W xff xff xff xff xff xff xff xff)))
(T (W x18 x01 x00 x00 x04 x00 x00 x00)
(L (W x00 x00 x80 x3f x00 x00 x80 x3f))
(L (W x00 x00 x00 x00 x00 x00 x00 x00))))))
(T (W x45 x26 x22 x84 xe4 x9c xf2 xcb)
(T (W x00 x00 x00 x00 x00 x00 x00 x00)
(T (W xff xff xff xff xff xff xff xff)
(T (W x00 x00 x00 x00 x00 x00 x00 x00)
(T (W x00 x00 x80 x3f x00 x00 x80 x3f)
(L (W xff xff xff xff xb0 x00 x00 x00)) E)
(L (W x22 x5b xfe xff x74 x00 x00 x00)))
(T (W x00 x00 x00 x00 x00 x00 x00 x00)
(T (W x00 x00 x80 xbf x00 x00 x80 xbf)
(L (W x00 x00 x00 x00 x00 x00 x00 x00)) E)
(L (W x54 x00 x00 x00 x48 x00 x00 x00))))
(T (W x00 x00 x80 x3f x00 x00 x80 x3f)
(T (W x45 x26 x22 x84 xe4 x9c xf2 xcb)
(T (W x45 x26 x22 x84 xe4 x9c xf2 xcb)
(L (W x00 x00 x80 xbf x00 x00 x80 xbf)) E)
(L (W x30 x35 x5f x43 x4c x45 x41 x52)))
(T (W xff xff xff xff xac x00 x00 x00)
(L (W x45 x26 x22 x84 xe4 x9c xf2 xcb))
(L (W xff xff xff xff xff xff xff xff)))))
(T (W x00 x00 x00 x00 x3a x53 xff xff)
(T (W x64 x00 x00 x00 x9c x00 x00 x00)
(T (W x6c x83 xfc xff x21 x00 x00 x00)
(T (W xff xff xff xff x03 x00 x00 x00)
(L (W xff xff xff xff xff xff xff xff)) E)
(L (W xff xff xff xff x9c x00 x00 x00)))
(T (W xff xff xff xff x02 x00 x00 x00)
(T (W x03 x00 x00 x00 xcc x00 x00 x00)
(L (W x05 x00 x00 x00 x06 x00 x07 x00)) E)
(L (W x3c x00 x00 x00 x00 x00 x80 xbf))))
(T (W x00 x00 x80 x3f x00 x00 x80 x3f)
(T (W x00 x00 x00 x00 x00 x00 x00 x00)
(T (W xff xff xff xff xff xff xff xff)
(L (W x00 x00 x00 x00 x00 x00 x00 x00)) E)
(L (W xff xff xff xff xff xff xff xff)))
(T (W xff xff xff xff xff xff xff xff)
(L (W x70 x00 x00 x00 x64 x00 x00 x00))
(L (W x00 x00 x00 x00 x00 x00 x00 x00))))))))
(T (W x64 x00 x00 x00 x9c x00 x00 x00)
(T (W x45 x26 x22 x84 xe4 x9c xf2 xcb)
(T (W x45 x26 x22 x84 xe4 x9c xf2 xcb)
(T (W x18 x00 x00 x00 x0c x00 x00 x00)
(T (W x00 x00 x80 x3f x00 x00 x80 x3f)
(T (W xff xff xff xff xff xff xff xff)
(T (W x00 x00 x00 x00 x00 x00 x00 x00)
(L (W x22 x47 xff xff x74 x00 x00 x00)) E)
(L (W x54 x02 x00 x00 x38 x01 x00 x00)))
(T (W x32 x00 x00 x00 x10 x00 x00 x00)
(T (W x45 x26 x22 x84 xe4 x9c xf2 xcb)
(L (W xff xff xff xff xff xff xff xff)) E)
(L (W x54 x00 x00 x00 x48 x00 x00 x00))))
(T (W x00 x00 x00 x00 x00 x00 x00 x00)
(T (W xff xff xff xff xff xff xff xff)
(T (W x00 x00 x80 x3f x00 x00 x80 x3f)
(L (W x00 x00 x80 xbf x00 x00 x80 xbf)) E)
(L (W x45 x26 x22 x84 xe4 x9c xf2 xcb)))
(T (W xff xff xff xff xff xff xff xff)
(L (W xda x08 xfe xff x78 x00 x00 x00))
(L (W x6c x0f xff xff x21 x00 x00 x00)))))
(T (W x40 x00 x00 x00 x9c x00 x00 x00)
(T (W x00 x00 x00 x00 x00 x00 x00 x00)
(T (W xff xff xff xff x04 x00 x00 x00)
(T (W xb8 x00 x00 x00 xac x00 x00 x00)
(L (W x00 x00 x00 x00 x00 x00 x00 x00)) E)
(L (W x00 x00 x00 x00 x00 x00 x00 x00)))
(T (W x00 x00 x00 x00 x00 x00 x00 x00)
(T (W x00 x00 x00 x00 x00 x00 x00 x00)
(L (W x00 x00 x00 x00 x00 x00 x00 x00)) E)
(L (W x06 x00 x00 x00 xc8 x05 x00 x00))))
(T (W x00 x00 x00 x00 x02 x00 x00 x00)
(T (W x45 x26 x22 x84 xe4 x9c xf2 xcb)
(T (W x00 x00 x00 x00 x74 xaa xfd xff)
(L (W x00 x00 x00 x00 x20 x00 x24 x00)) E)
(L (W xff xff xff xff x9c x00 x00 x00)))
(T (W x00 x00 x80 x3f x00 x00 x80 x3f)
(L (W xff xff xff xff xd8 x00 x00 x00))
(L (W x00 x00 x80 xbf x00 x00 x80 xbf))))))
(T (W xff xff xff xff xff xff xff xff)
(T (W x45 x26 x22 x84 xe4 x9c xf2 xcb)
(T (W x00 x00 x80 x3f x00 x00 x80 x3f)
(T (W xff xff xff xff xff xff xff xff)
(T (W xff xff xff xff xff xff xff xff)
(L (W x00 x00 x00 x00 x00 x00 x00 x00)) E)
(L (W x02 x00 x00 x00 x30 x01 x00 x00)))
(T (W x22 xd7 xfc xff x74 x00 x00 x00)
(T (W xff xff xff xff xff xff xff xff)
(L (W xff xff xff xff xc0 x00 x00 x00)) E)
(L (W xff xff xff xff xff xff xff xff))))
(T (W x9c x22 xfc xff x3c x00 x00 x00)
(T (W x6c x9f xfc xff x26 x00 x00 x00)
(T (W x00 x00 x00 x00 x00 x00 x00 x00)
(L (W xff xff xff xff xff xff xff xff)) E)
(L (W x68 x00 x00 x00 x5c x00 x00 x00)))
(T (W x00 x00 x00 x00 x00 x00 x00 x00)
(L (W xff xff xff xff xff xff xff xff))
(L (W x00 x00 x80 xbf x00 x00 x80 xbf)))))
(T (W x00 x00 x80 x3f x00 x00 x80 x3f)
(T (W x00 x00 x00 x00 x00 x00 x00 x00)
(T (W x6c x00 x00 x00 x60 x00 x00 x00)
(T (W x45 x26 x22 x84 xe4 x9c xf2 xcb)
(L (W x49 xa1 x68 x4a xeb x5f xdd x3d)) E)
(L (W x00 x00 x00 x00 x00 x00 x00 x00)))
(T (W x00 x00 x80 x3f x00 x00 x80 x3f)
(T (W x46 x53 x59 x53 x5f x4e x53 x5f)
(L (W x6c x00 x00 x00 x60 x00 x00 x00)) E)
(L (W x00 x00 x01 x01 x6a x01 x00 x00))))
(T (W xff xff xff xff xff xff xff xff)
(T (W x00 x00 x00 x00 x74 xba xfc xff)
(T (W x00 x00 x00 x00 x1b x00 x00 x00)
(L (W x00 x00 x80 xbf x00 x00 x80 xbf)) E)
(L (W x00 x00 x80 xbf x00 x00 x80 xbf)))
(T (W x00 x00 x80 x3f x00 x00 x80 x3f)
(L (W x00 x00 x00 x00 x00 x00 x00 x00))
(L (W x00 x00 x80 xbf x00 x00 x80 xbf)))))))
(T (W xff xff xff xff xff xff xff xff)
(T (W xff xff xff xff xff xff xff xff)
(T (W x22 x8f xfb xff x74 x00 x00 x00)
(T (W x50 x00 x00 x00 x44 x00 x00 x00)
(T (W xff xff xff xff xff xff xff xff)
(T (W x9c x5a xfd xff x34 x00 x00 x00)
(L (W xff xff xff xff xff xff xff xff)) E)
(L (W x46 x53 x59 x53 x5f x4e x53 x5f)))
(T (W x45 x26 x22 x84 xe4 x9c xf2 xcb)
(T (W x18 x00 x00 x00 x0c x00 x00 x00)
(L (W xff xff xff xff xff xff xff xff)) E)
(L (W xff xff xff xff xff xff xff xff))))
(T (W x00 x00 x00 x00 x00 x00 x00 x00)
(T (W xff xff xff xff xff xff xff xff)
(T (W xff xff xff xff xff xff xff xff)
(L (W x45 x26 x22 x84 xe4 x9c xf2 xcb)) E)
(L (W x54 x00 x00 x00 x48 x00 x00 x00)))
(T (W x9d x01 x00 x00 xff xff xff xff)
(L (W x45 x26 x22 x84 xe4 x9c xf2 xcb))
(L (W x00 x00 x00 x00 x00 x00 x00 x00)))))
(T (W x00 x00 x80 x3f x00 x00 x80 x3f)
(T (W x00 x00 x00 x00 x00 x00 x00 x00)
(T (W xff xff xff xff xff xff xff xff)
(T (W x01 x00 x00 x00 x9c x00 x00 x00)
(L (W x00 x00 x80 xbf x00 x00 x80 xbf)) E)
(L (W x00 x00 x00 x00 x00 x00 x00 x00)))
(T (W x4f x84 x6f x8b xe8 xcb x63 xb7)
(T (W x00 x00 x80 xbf x00 x00 x80 xbf)
(L (W x00 x00 x80 xbf x00 x00 x80 xbf)) E)
(L (W x30 x35 x5f x43 x4c x45 x41 x52))))
(T (W xff xff xff xff xff xff xff xff)
(T (W xda xb0 xfc xff x78 x00 x00 x00)
(T (W x00 x00 x01 x01 xd4 x00 x00 x00)
(L (W x6c x00 x00 x00 x60 x00 x00 x00)) E)
(L (W x00 x00 x80 xbf x00 x00 x80 xbf)))
(T (W x00 x00 x80 x3f x00 x00 x80 x3f)
(L (W x00 x00 x00 x00 x00 x00 x00 x00))
(L (W x00 x00 x80 xbf x00 x00 x80 xbf))))))
(T (W xff xff xff xff x04 x00 x00 x00)
(T (W x18 x00 x00 x00 x10 x00 x00 x00)
(T (W x00 x00 x80 x3f x00 x00 x80 x3f)
(T (W xb8 x00 x00 x00 xac x00 x00 x00)
(T (W xff xff xff xff xff xff xff xff)
(L (W x00 x00 x00 x00 x00 x00 x00 x00)) E)
(L (W x45 x44 x00 x00 x00 x00 x00 x00)))
(T (W xff xff xff xff xff xff xff xff)
(T (W x31 x6a xca xc9 x03 x8f xa3 xbc)
(L (W xff xff xff xff xff xff xff xff)) E)
(L (W xff xff xff xff xff xff xff xff))))
(T (W x00 x00 x00 x00 x00 x00 x00 x00)
(T (W x00 x00 x00 x00 x00 x00 x00 x00)
(T (W xb0 x44 x69 x12 x83 x6b x37 xc6)
(L (W xff xff xff xff xff xff xff xff)) E)
(L (W x44 x00 x00 x00 x00 x00 x80 xbf)))
(T (W x45 x26 x22 x84 xe4 x9c xf2 xcb)
(L (W xff xff xff xff xff xff xff xff))
(L (W x00 x00 x80 xbf x00 x00 x80 xbf)))))
(T (W x00 x00 x80 x3f x00 x00 x80 x3f)
(T (W x00 x00 x00 x00 x00 x00 x00 x00)
(T (W xbc x00 x00 x00 x64 x00 x00 x00)
(T (W x45 x26 x22 x84 xe4 x9c xf2 xcb)
(L (W x00 x00 x80 xbf x00 x00 x80 xbf)) E)
(L (W x00 x00 x00 x00 x00 x00 x00 x00)))
(T (W x22 xff xfc xff x74 x00 x00 x00)
(T (W x45 x26 x22 x84 xe4 x9c xf2 xcb)
(L (W x6c x00 x08 x00 x00 x00 x00 x00)) E)
(L (W x00 x00 x00 x00 x00 x00 x00 x00))))
(T (W xff xff xff xff xff xff xff xff)
(T (W xff xff xff xff xff xff xff xff)
(T (W x00 x00 x80 x3f x00 x00 x80 x3f)
(L (W xff xff xff xff xb0 x00 x00 x00)) E)
(L (W x00 x00 x80 xbf x00 x00 x80 xbf)))
(T (W x00 x00 x00 x00 x00 x00 x00 x00)
(L (W x00 x00 x00 x00 xe2 x48 xfe xff))
(L (W x54 x00 x00 x00 x48 x00 x00 x00))))))))))))
(T (W x68 xc4 x03 x00 x6c xbd x03 x00)
(T (W x28 x16 x03 x00 xcc x13 x03 x00)
(T (W x00 x2f x02 x00 xbc x2c x02 x00)
(T (W x70 xe5 x00 x00 x24 xe3 x00 x00)
(T (W x2c x50 xfb xff x3e x00 x00 x00)
(T (W x35 x00 x00 x00 x0c x00 x00 x00)
(T (W x00 x00 x00 x00 x00 x00 x00 x00)
(T (W x00 x00 x00 x00 x00 x00 x00 x00)
(T (W xb8 x00 x00 x00 xac x00 x00 x00)
(T (W x00 x00 x00 x00 x00 x00 x00 x00)
(T (W x01 x00 x00 x00 x9c x00 x00 x00)
(L (W xff xff xff xff xff xff xff xff)) E)
(L (W x45 x26 x22 x84 xe4 x9c xf2 xcb)))
(T (W x00 x00 x00 x00 x00 x00 x00 x00)
(T (W x32 x00 x00 x00 x35 x00 x00 x00)
(L (W x00 x00 x00 x00 x00 x00 x00 x00)) E)
(L (W xff xff xff xff xff xff xff xff))))
(T (W x00 x00 x80 x3f x00 x00 x80 x3f)
(T (W x00 x00 x00 x00 x00 x00 x00 x00)
(T (W xb8 x00 x00 x00 xac x00 x00 x00)
(L (W xff xff xff xff xff xff xff xff)) E)
(L (W x68 x00 x00 x00 x5c x00 x00 x00)))
(T (W xff xff xff xff xff xff xff xff)
(T (W x03 x00 x00 x00 xcc x00 x00 x00)
(L (W x48 x00 x00 x00 x14 x00 x00 x00)) E)
(L (W x00 x00 x80 xbf x00 x00 x80 xbf)))))
(T (W xff xff xff xff xff xff xff xff)
(T (W x18 x00 x00 x00 x10 x00 x00 x00)
(T (W x5c x6b xfc xff x0d x00 x00 x00)
(T (W x00 x00 x00 x00 x00 x00 x00 x00)
(L (W x00 x00 x80 xbf x00 x00 x80 xbf)) E)
(L (W x00 x00 x80 xbf x00 x00 x80 xbf)))
(T (W x00 x00 x00 x00 x00 x00 x00 x00)
(T (W x00 x00 x80 xbf x00 x00 x80 xbf)
(L (W x00 x00 x00 x00 x00 x00 x00 x00)) E)
(L (W x45 x26 x22 x84 xe4 x9c xf2 xcb))))
(T (W x00 x00 x80 x3f x00 x00 x80 x3f)
(T (W x68 x00 x00 x00 x5c x00 x00 x00)
(T (W x00 x00 x80 xbf x00 x00 x80 xbf)
(L (W x00 x00 x00 x00 x00 x00 x00 x00)) E)
(L (W xff xff xff xff xff xff xff xff)))
(T (W x45 x26 x22 x84 xe4 x9c xf2 xcb)
(L (W x00 x00 x00 x00 x00 x00 x00 x00))
(L (W xff xff xff xff xff xff xff xff))))))
(T (W x00 x00 x00 x00 x00 x00 x00 x00)
(T (W xb0 x01 x00 x00 xff xff xff xff)
(T (W xff xff xff xff xff xff xff xff)
(T (W x00 x00 x00 x00 x00 x00 x00 x00)
(T (W x00 x00 x80 x3f x00 x00 x80 x3f)
(L (W x00 x00 x00 x00 x00 x00 x00 x00)) E)
(L (W x00 x00 x80 xbf x00 x00 x80 xbf)))
(T (W xff xff xff xff x9c x00 x00 x00)
(T (W x82 x26 xff xff x26 x02 x00 x00)
(L (W x4f x84 x6f x8b xe8 xcb x63 xb7)) E)
(L (W x00 x00 x00 x00 x00 x00 x00 x00))))
(T (W x00 x00 x80 x3f x00 x00 x80 x3f)
(T (W x00 x00 x00 x00 x00 x00 x00 x00)
(T (W x00 x00 x00 x00 x00 x00 x00 x00)
(L (W x0c x00 x00 x00 xc0 x0c x00 x00)) E)
(L (W xff xff xff xff xff xff xff xff)))
(T (W x00 x00 x80 x3f x00 x00 x80 x3f)
(L (W x02 x00 x00 x00 x30 x01 x00 x00))
(L (W x00 x00 x00 x00 x34 x13 xff xff)))))
(T (W xff xff xff xff xff xff xff xff)
(T (W xe2 xef xfb xff x74 x00 x00 x00)
(T (W x00 x00 x00 x00 x00 x00 x00 x00)
(T (W xff xff xff xff xff xff xff xff)
(L (W xff xff xff xff xff xff xff xff)) E)
(L (W x00 x00 x80 xbf x00 x00 x80 xbf)))
(T (W x18 x00 x00 x00 x10 x00 x00 x00)
(T (W x18 x00 x00 x00 x0c x00 x00 x00)
(L (W x1a x00 x00 x00 x1d x00 x00 x00)) E)
(L (W x00 x00 x80 xbf x00 x00 x80 xbf))))
(T (W x00 x00 x00 x00 x00 x00 x00 x00)
(T (W xff xff xff xff xff xff xff xff)
(T (W x00 x00 x80 x3f x00 x00 x80 x3f)
(L (W xff xff xff xff xff xff xff xff)) E)
(L (W xff xff xff xff xff xff xff xff)))
(T (W xff xff xff xff xff xff xff xff)
(L (W x00 x00 x80 xbf x00 x00 x80 xbf))
(L (W xff xff xff xff xff xff xff xff)))))))
(T (W x00 x00 x00 x00 x01 x00 x00 x00)
(T (W x00 x00 x00 x00 x00 x00 x00 x00)
(T (W xfa x0e x3b xd5 x81 xff x20 xbd)
(T (W xff xff xff xff xff xff xff xff)
(T (W x00 x00 x00 x00 x00 x00 x00 x00)
(T (W x00 x00 x80 x3f x00 x00 x80 x3f)
(L (W x38 x01 x00 x00 x04 x00 x00 x00)) E)
(L (W x00 x00 x80 xbf x00 x00 x80 xbf)))
(T (W x00 x00 x80 x3f x00 x00 x80 x3f)
(T (W xff xff xff xff xff xff xff xff)
(L (W x00 x00 x00 x00 x00 x00 x00 x00)) E)
(L (W xff xff xff xff xff xff xff xff))))
(T (W x00 x00 x80 x3f x00 x00 x80 x3f)
(T (W x00 x00 x00 x00 x12 x00 x00 x00)
(T (W xb8 x00 x00 x00 xac x00 x00 x00)
(L (W xff xff xff xff xff xff xff xff)) E)
(L (W xff xff xff xff xff xff xff xff)))
(T (W x00 x00 x00 x00 x00 x00 x00 x00)
(L (W xff xff xff xff xff xff xff xff))
(L (W x6c x00 x00 x00 x60 x00 x00 x00)))))
(T (W xff xff xff xff xff xff xff xff)
(T (W x01 x00 x00 x00 xa0 x00 x00 x00)
(T (W x00 x00 x00 x00 x00 x00 x00 x00)
(T (W x5c x73 xfd xff x37 x00 x00 x00)
(L (W xe2 x67 xff xff x74 x00 x00 x00)) E)
(L (W x00 x01 x01 x01 x1a x79 xfe xff)))
(T (W x00 x00 x80 x3f x00 x00 x80 x3f)
(T (W x6c x00 x00 x00 x60 x00 x00 x00)
(L (W x68 x00 x00 x00 x5c x00 x00 x00)) E)
(L (W x00 x00 x80 xbf x00 x00 x80 xbf))))
(T (W x00 x00 x80 x3f x00 x00 x80 x3f)
(T (W xff xff xff xff xff xff xff xff)
(T (W xff xff xff xff xff xff xff xff)
(L (W x45 x26 x22 x84 xe4 x9c xf2 xcb)) E)
(L (W x10 x00 x00 x00 x00 x00 x14 x00)))
(T (W xff xff xff xff xff xff xff xff)
(L (W x00 x00 x00 x00 x12 x00 x00 x00))
(L (W xff xff xff xff xff xff xff xff))))))
(T (W x00 x00 x00 x00 x00 x00 x00 x00)
(T (W xff xff xff xff xff xff xff xff)
(T (W xff xff xff xff xff xff xff xff)
(T (W x00 x00 x00 x00 x00 x00 x00 x00)
(T (W x00 x00 x00 x00 x00 x00 x00 x00)
(L (W x00 x00 x80 xbf x00 x00 x80 xbf)) E)
(L (W x00 x00 x80 xbf x00 x00 x80 xbf)))
(T (W x6a x01 x00 x00 xff xff xff xff)
(T (W x00 x00 x00 x00 x00 x00 x00 x00)
(L (W x00 x00 x00 x00 x00 x00 x00 x00)) E)
(L (W x00 x00 x00 x00 x12 x00 x00 x00))))
(T (W x50 x00 x00 x00 x44 x00 x00 x00)
(T (W x54 x00 x00 x00 x48 x00 x00 x00)
(T (W xff xff xff xff x9c x00 x00 x00)
(L (W x00 x00 x00 x00 x00 x00 x00 x00)) E)
(L (W x3c x02 x00 x00 x30 x01 x00 x00)))
(T (W x00 x00 x80 x3f x00 x00 x80 x3f)
(L (W x00 x00 x00 x00 x00 x00 x00 x00))
(L (W xff xff xff xff xff xff xff xff)))))
(T (W xff xff xff xff xff xff xff xff)
(T (W x00 x00 x80 x3f x00 x00 x80 x3f)
(T (W xff xff xff xff xff xff xff xff)
(T (W x68 x00 x00 x00 x5c x00 x00 x00)
(L (W x18 x00 x00 x00 x10 x00 x00 x00)) E)
(L (W xc4 x7c xfe xff x00 x01 x01 x01)))
(T (W xff xff xff xff xff xff xff xff)
(T (W x00 x00 x80 xbf x00 x00 x80 xbf)
(L (W xd4 x05 x00 x00 x58 x04 x00 x00)) E)
(L (W x49 xa1 x68 x4a xeb x5f xdd x3d))))
(T (W x00 x00 x00 x00 x00 x00 x00 x00)
(T (W x04 x00 x00 x00 x2a xc3 xfc xff)
(T (W xc4 xbc xfd xff x00 x01 x01 x01)
(L (W xff xff xff xff xff xff xff xff)) E)
(L (W xff xff xff xff xff xff xff xff)))
(T (W xb8 x00 x00 x00 xac x00 x00 x00)
(L (W x54 x00 x00 x00 x48 x00 x00 x00))
(L (W xff xff xff xff xff xff xff xff))))))))
(T (W x45 x26 x22 x84 xe4 x9c xf2 xcb)
(T (W x40 x00 x00 x00 xa0 x00 x00 x00)
(T (W xff xff xff xff x04 x00 x00 x00)
(T (W x45 x26 x22 x84 xe4 x9c xf2 xcb)
(T (W x00 x00 x80 x3f x00 x00 x80 x3f)
(T (W x64 x00 x00 x00 x9c x00 x00 x00)
(T (W x5c x4f xfd xff x15 x00 x00 x00)
(L (W x00 x00 x80 xbf x00 x00 x80 xbf)) E)
(L (W xff xff xff xff xff xff xff xff)))
(T (W xff xff xff xff xff xff xff xff)
(T (W x00 x00 x00 x00 x12 x00 x00 x00)
(L (W x00 x00 x80 xbf x00 x00 x80 xbf)) E)
(L (W x00 x00 x80 xbf x00 x00 x80 xbf))))
(T (W x00 x00 x00 x00 xfa x9b xff xff)
(T (W x18 x00 x00 x00 x10 x00 x00 x00)
(T (W x70 x5f x77 x69 x6c x64 x5f x70)
(L (W x00 x00 x80 xbf x00 x00 x80 xbf)) E)
(L (W x00 x00 x00 x00 x12 x00 x00 x00)))
(T (W x50 x00 x00 x00 x44 x00 x00 x00)
(L (W x00 x00 x80 xbf x00 x00 x80 xbf))
(L (W xff xff xff xff xff xff xff xff)))))
(T (W x00 x00 x80 x3f x00 x00 x80 x3f)
(T (W x00 x00 x00 x00 x00 x00 x00 x00)
(T (W x00 x00 x80 x3f x00 x00 x80 x3f)
(T (W x01 x00 x00 x00 x9c x00 x00 x00)
(L (W x00 x00 x00 x00 x00 x00 x00 x00)) E)
(L (W xb5 x01 x00 x00 xff xff xff xff)))
(T (W xff xff xff xff xff xff xff xff)
(T (W x00 x00 x00 x00 x00 x00 x00 x00)
(L (W xff xff xff xff xff xff xff xff)) E)
(L (W xff xff xff xff xff xff xff xff))))
(T (W xff xff xff xff xff xff xff xff)
(T (W x46 x53 x59 x53 x5f x4e x53 x5f)
(T (W x00 x00 x00 x00 x00 x00 x00 x00)
(L (W x18 x00 x00 x00 x10 x00 x00 x00)) E)
(L (W x00 x00 x80 xbf x00 x00 x80 xbf)))
(T (W x00 x00 x00 x00 x00 x00 x00 x00)
(L (W x58 x00 x00 x00 x4c x00 x00 x00))
(L (W x00 x00 x00 x00 x00 x00 x00 x00))))))
(T (W x68 x00 x00 x00 x5c x00 x00 x00)
(T (W x00 x00 x80 x3f x00 x00 x80 x3f)
(T (W x00 x00 x00 x00 x00 x00 x00 x00)
(T (W xc4 x58 xfc xff x00 x01 x01 x01)
(T (W xff xff xff xff xff xff xff xff)
(L (W xff xff xff xff xff xff xff xff)) E)
(L (W xff xff xff xff xff xff xff xff)))
(T (W x45 x26 x22 x84 xe4 x9c xf2 xcb)
(T (W xff xff xff xff xb0 x00 x00 x00)
(L (W xc4 xd8 xff xff x00 x01 x01 x01)) E)
(L (W xbc x00 x00 x00 x64 x00 x00 x00))))
(T (W xff xff xff xff xff xff xff xff)
(T (W xff xff xff xff xff xff xff xff)
(T (W x00 x00 x01 x01 x7d x00 x00 x00)
(L (W x21 x00 x00 x00 x24 x00 x00 x00)) E)
(L (W x00 x00 x80 xbf x00 x00 x80 xbf)))
(T (W xff xff xff xff xff xff xff xff)
(L (W xe2 x13 xfe xff x74 x00 x00 x00))
(L (W x00 x00 x00 x00 x00 x00 x00 x00)))))
(T (W x00 x00 x80 x3f x00 x00 x80 x3f)
(T (W x00 x00 x00 x00 x00 x00 x00 x00)
(T (W x45 x26 x22 x84 xe4 x9c xf2 xcb)
(T (W x00 x00 x00 x00 x00 x00 x00 x00)
(L (W x00 x00 x00 x00 x00 x00 x00 x00)) E)
(L (W xb4 x01 x00 x00 xff xff xff xff)))
(T (W x00 x00 x00 x00 x00 x00 x00 x00)
(T (W x00 x00 x00 x00 x00 x00 x00 x00)
(L (W x2c x00 x30 x00 x34 x00 x38 x00)) E)
(L (W xff xff xff xff xff xff xff xff))))
(T (W xff xff xff xff xff xff xff xff)
(T (W x00 x00 x80 x3f x00 x00 x80 x3f)
(T (W x54 x00 x00 x00 x48 x00 x00 x00)
(L (W x00 x00 x80 xbf x00 x00 x80 xbf)) E)
(L (W x00 x00 x00 x00 x00 x00 x00 x00)))
(T (W x00 x00 x00 x00 x00 x00 x00 x00)
(L (W x00 x00 x00 x00 xa2 x3d xfe xff))
(L (W x00 x00 x80 xbf x00 x00 x80 xbf)))))))
(T (W x00 x00 x00 x00 x34 x5f xfb xff)
(T (W x45 x26 x22 x84 xe4 x9c xf2 xcb)
(T (W x18 x00 x00 x00 x0c x00 x00 x00)
(T (W x00 x00 x00 x00 x00 x00 x00 x00)
(T (W xbc x00 x00 x00 xb0 x00 x00 x00)
(T (W xff xff xff xff xff xff xff xff)
(L (W xe2 x4b xff xff x74 x00 x00 x00)) E)
(L (W xff xff xff xff xff xff xff xff)))
(T (W x34 x00 x00 x00 x10 x00 x00 x00)
(T (W x00 x00 x80 x3f x00 x00 x80 x3f)
(L (W x45 x26 x22 x84 xe4 x9c xf2 xcb)) E)
(L (W x00 x00 x80 xbf x00 x00 x80 xbf))))
(T (W x1c x01 x00 x00 x04 x00 x00 x00)
(T (W xff xff xff xff xff xff xff xff)
(T (W x00 x00 x00 x00 x00 x00 x00 x00)
(L (W x00 x00 x80 xbf x00 x00 x80 xbf)) E)
(L (W x00 x00 x00 x00 x00 x00 x00 x00)))
(T (W xff xff xff xff xc4 x00 x00 x00)
(L (W x00 x00 x80 xbf x00 x00 x80 xbf))
(L (W xff xff xff xff xff xff xff xff)))))
(T (W x45 x26 x22 x84 xe4 x9c xf2 xcb)
(T (W x00 x00 x00 x00 x00 x00 x00 x00)
(T (W x68 x00 x00 x00 x5c x00 x00 x00)
(T (W x00 x00 x80 x3f x00 x00 x80 x3f)
(L (W x00 x00 x00 x00 x00 x00 x00 x00)) E)
(L (W xff xff xff xff xff xff xff xff)))
(T (W x0a x44 xfe xff x00 x00 x01 x01)
(T (W x00 x00 x00 x00 x00 x00 x00 x00)
(L (W x00 x00 x00 x00 x00 x00 x00 x00)) E)
(L (W xff xff xff xff xff xff xff xff))))
(T (W xff xff xff xff xff xff xff xff)
(T (W x00 x00 x00 x00 x00 x00 x00 x00)
(T (W x9a xad xfd xff x78 x00 x00 x00)
(L (W x00 x00 x80 x3f x00 x00 x80 x3f)) E)
(L (W x00 x00 x00 x00 x00 x00 x00 x00)))
(T (W x00 x00 x80 x3f x00 x00 x80 x3f)
(L (W xff xff xff xff xff xff xff xff))
(L (W x00 x00 x80 xbf x00 x00 x80 xbf))))))
(T (W xc4 x80 xfb xff x00 x01 x01 x01)
(T (W x54 x00 x00 x00 x48 x00 x00 x00)
(T (W x00 x00 x00 x00 x00 x00 x00 x00)
(T (W x50 x00 x00 x00 x44 x00 x00 x00)
(T (W xb8 x00 x00 x00 xac x00 x00 x00)
(L (W x00 x00 x00 x00 x00 x00 x00 x00)) E)
(L (W x3c x02 x00 x00 x30 x01 x00 x00)))
(T (W xe2 xdb xfc xff x74 x00 x00 x00)
(T (W xff xff xff xff xff xff xff xff)
(L (W x00 x00 x00 x00 x34 xdf xff xff)) E)
(L (W xff xff xff xff xff xff xff xff))))
(T (W xff xff xff xff xff xff xff xff)
(T (W x04 x00 x00 x00 x80 x03 x00 x00)
(T (W xb0 x00 x00 x00 x64 x00 x00 x00)
(L (W x18 x00 x00 x00 x0c x00 x00 x00)) E)
(L (W x00 x00 x80 xbf x00 x00 x80 xbf)))
(T (W x00 x00 x00 x00 x00 x00 x00 x00)
(L (W x45 x26 x22 x84 xe4 x9c xf2 xcb))
(L (W x00 x00 x00 x00 x00 x00 x00 x00)))))
(T (W x45 x26 x22 x84 xe4 x9c xf2 xcb)
(T (W x1d x00 x00 x00 x10 x00 x00 x00)
(T (W x00 x00 x80 x3f x00 x00 x80 x3f)
(T (W x00 x00 x00 x00 x00 x00 x00 x00)
(L (W x00 x00 x00 x00 x00 x00 x00 x00)) E)
(L (W x34 x00 x00 x00 x0c x00 x00 x00)))
(T (W x45 x26 x22 x84 xe4 x9c xf2 xcb)
(T (W x00 x00 x00 x00 x00 x00 x00 x00)
(L (W x6c x00 x08 x00 x00 x00 x00 x00)) E)
(L (W xff xff xff xff xff xff xff xff))))
(T (W xff xff xff xff xff xff xff xff)
(T (W x68 x00 x00 x00 x5c x00 x00 x00)
(T (W x00 x00 x00 x00 x00 x00 x00 x00)
(L (W x00 x00 x80 xbf x00 x00 x80 xbf)) E)
(L (W x00 x00 x00 x00 x00 x00 x00 x00)))
(T (W x00 x00 x00 x00 x00 x00 x00 x00)
(L (W x00 x00 x01 x01 xde x01 x00 x00))
(L (W x00 x00 x80 xbf x00 x00 x80 xbf)))))))))
(T (W xff xff xff xff xff xff xff xff)
(T (W x45 x26 x22 x84 xe4 x9c xf2 xcb)
(T (W x00 x00 x80 x3f x00 x00 x80 x3f)
(T (W x00 x00 x80 x3f x00 x00 x80 x3f)
(T (W x45 x26 x22 x84 xe4 x9c xf2 xcb)
(T (W xd0 x56 xa7 x10 xfe x78 xab x97)
(T (W x00 x00 x80 x3f x00 x00 x80 x3f)
(T (W xff xff xff xff xff xff xff xff)
(L (W x00 x00 x00 x00 x00 x00 x00 x00)) E)
(L (W x2d x00 x00 x00 x30 x00 x00 x00)))
(T (W x00 x00 x80 x3f x00 x00 x80 x3f)
(T (W xff xff xff xff xff xff xff xff)
(L (W x00 x00 x00 x00 x00 x00 x00 x00)) E)
(L (W x00 x00 x00 x00 x00 x00 x00 x00))))
(T (W xff xff xff xff x04 x00 x00 x00)
(T (W x00 x00 x00 x00 x00 x00 x00 x00)
(T (W xff xff xff xff xff xff xff xff)
(L (W xa0 x81 xa7 x28 xbf x47 x53 x6a)) E)
(L (W xff xff xff xff xff xff xff xff)))
(T (W x4f x84 x6f x8b xe8 xcb x63 xb7)
(L (W x04 x00 x00 x00 x80 x03 x00 x00))
(L (W x00 x00 x00 x00 x34 x05 xff xff)))))
(T (W x00 x00 x00 x00 x00 x00 x00 x00)
(T (W xff xff xff xff xff xff xff xff)
(T (W x00 x00 x80 x3f x00 x00 x80 x3f)
(T (W x00 x00 x80 x3f x00 x00 x80 x3f)
(L (W xff xff xff xff xff xff xff xff)) E)
(L (W x00 x00 x00 x00 x34 x65 xfe xff)))
(T (W x00 x00 x00 x00 x34 xe5 xfc xff)
(T (W xff xff xff xff xff xff xff xff)
(L (W xc4 x00 x00 x00 x02 x00 x00 x00)) E)
(L (W x68 x00 x00 x00 x5c x00 x00 x00))))
(T (W x18 x00 x00 x00 x10 x00 x00 x00)
(T (W xff xff xff xff xff xff xff xff)
(T (W xff xff xff xff xff xff xff xff)
(L (W x00 x00 x80 xbf x00 x00 x80 xbf)) E)
(L (W x00 x00 x00 x00 x12 x00 x00 x00)))
(T (W xff xff xff xff xff xff xff xff)
(L (W x45 x26 x22 x84 xe4 x9c xf2 xcb))
(L (W x00 x00 x00 x00 x00 x00 x00 x00))))))
(T (W x00 x00 x80 x3f x00 x00 x80 x3f)
(T (W x00 x00 x00 x00 x00 x00 x00 x00)
(T (W xff xff xff xff xff xff xff xff)
(T (W x00 x00 x00 x00 x00 x00 x00 x00)
(T (W x01 x00 x00 x00 x9c x00 x00 x00)
(L (W x6c x00 x00 x00 x60 x00 x00 x00)) E)
(L (W x30 x55 xfe xff x1a x63 xfe xff)))
(T (W x00 x00 x00 x00 x01 x00 x00 x00)
(T (W x49 xa1 x68 x4a xeb x5f xdd x3d)
(L (W x00 x00 x80 xbf x00 x00 x80 xbf)) E)
(L (W x45 x26 x22 x84 xe4 x9c xf2 xcb))))
(T (W xe2 x11 xfc xff x74 x00 x00 x00)
(T (W xe2 x91 xfc xff x74 x00 x00 x00)
(T (W x41 x57 x4e x5f x54 x4f x52 x4e)
(L (W x00 x00 x80 xbf x00 x00 x80 xbf)) E)
(L (W x45 x44 x00 x00 x00 x00 x00 x00)))
(T (W xe2 x11 xfd xff x74 x00 x00 x00)
(L (W x00 x00 x00 x00 x00 x00 x00 x00))
(L (W x00 x00 x00 x00 xca x12 xff xff)))))
(T (W x00 x00 x00 x00 x00 x00 x00 x00)
(T (W xff xff xff xff xff xff xff xff)
(T (W xd8 xb4 xf1 xdc x8a x8c x84 x82)
(T (W xc4 x76 xfd xff x00 x01 x01 x01)
(L (W x00 x00 x01 x01 x90 x01 x00 x00)) E)
(L (W xff xff xff xff xc8 x00 x00 x00)))
(T (W xff xff xff xff xff xff xff xff)
(T (W xff xff xff xff xff xff xff xff)
(L (W x1c x00 x20 x00 x24 x00 x28 x00)) E)
(L (W xff xff xff xff xb0 x00 x00 x00))))
(T (W x50 x00 x00 x00 x44 x00 x00 x00)
(T (W x46 x53 x59 x53 x5f x4e x53 x5f)
(T (W x00 x00 x01 x01 xc4 x00 x00 x00)
(L (W x00 x00 x00 x00 x00 x00 x00 x00)) E)
(L (W xff xff xff xff xff xff xff xff)))
(T (W x02 x00 x00 x00 x20 x01 x00 x00)
(L (W xff xff xff xff x9c x00 x00 x00))
(L (W x00 x00 x00 x00 x00 x00 x00 x00)))))))
(T (W x00 x00 x80 x3f x00 x00 x80 x3f)
(T (W x00 x00 x80 x3f x00 x00 x80 x3f)
(T (W x00 x00 x80 x3f x00 x00 x80 x3f)
(T (W xdd x01 x00 x00 xff xff xff xff)
(T (W x00 x00 x80 x3f x00 x00 x80 x3f)
(T (W xb8 x00 x00 x00 xac x00 x00 x00)
(L (W x45 x26 x22 x84 xe4 x9c xf2 xcb)) E)
(L (W x45 x26 x22 x84 xe4 x9c xf2 xcb)))
(T (W xff xff xff xff xbc x00 x00 x00)
(T (W x77 x61 x72 x6c x69 x6b x65 x5f)
(L (W x00 x00 x80 xbf x00 x00 x80 xbf)) E)
(L (W x00 x00 x00 x00 x00 x00 x00 x00))))
(T (W x18 x00 x00 x00 x0c x00 x00 x00)
(T (W x00 x00 x80 x3f x00 x00 x80 x3f)
(T (W xff xff xff xff xff xff xff xff)
(L (W x00 x00 x00 x00 x00 x00 x00 x00)) E)
(L (W x00 x00 x00 x00 x2a x95 xfe xff)))
(T (W x00 x00 x80 x3f x00 x00 x80 x3f)
(L (W x46 x53 x59 x53 x5f x4e x53 x5f))
(L (W xff xff xff xff xff xff xff xff)))))
(T (W x00 x00 x00 x00 x00 x00 x00 x00)
(T (W x1a x01 x00 x00 xff xff xff xff)
(T (W x00 x00 x00 x00 x68 x00 x6c x00)
(T (W x00 x00 x00 x00 x00 x00 x00 x00)
(L (W xff xff xff xff xff xff xff xff)) E)
(L (W xc4 x00 x00 x00 x02 x00 x00 x00)))
(T (W xff xff xff xff xff xff xff xff)
(T (W xff xff xff xff xff xff xff xff)
(L (W xff xff xff xff xff xff xff xff)) E)
(L (W xff xff xff xff xb0 x00 x00 x00))))
(T (W x40 x00 x00 x00 x9c x00 x00 x00)
(T (W x00 x00 x00 x00 x2a xb5 xfc xff)
(T (W x00 x00 x00 x00 x00 x00 x00 x00)
(L (W x00 x00 x00 x00 x00 x00 x00 x00)) E)
(L (W xff xff xff xff xff xff xff xff)))
(T (W x00 x00 x00 x00 x00 x00 x00 x00)
(L (W x9a x2b xfe xff x78 x00 x00 x00))
(L (W x00 x00 x00 x00 x00 x00 x00 x00))))))
(T (W x00 x00 x80 x3f x00 x00 x80 x3f)
(T (W x00 x00 x00 x00 x00 x00 x00 x00)
(T (W xff xff xff xff xff xff xff xff)
(T (W x45 x26 x22 x84 xe4 x9c xf2 xcb)
(T (W x00 x00 x80 x3f x00 x00 x80 x3f)
(L (W x45 x26 x22 x84 xe4 x9c xf2 xcb)) E)
(L (W xff xff xff xff xb0 x00 x00 x00)))
(T (W x00 x00 x00 x00 x00 x00 x00 x00)
(T (W x00 x00 x80 xbf x00 x00 x80 xbf)
(L (W x45 x26 x22 x84 xe4 x9c xf2 xcb)) E)
(L (W xc4 xde xfe xff x00 x01 x01 x01))))
(T (W x45 x26 x22 x84 xe4 x9c xf2 xcb)
(T (W x03 x00 x00 x00 xd0 x00 x00 x00)
(T (W x14 x59 x69 x12 x83 x77 x37 xc6)
(L (W x00 x00 x80 xbf x00 x00 x80 xbf)) E)
(L (W x00 x00 x00 x00 x00 x00 x00 x00)))
(T (W xff xff xff xff xff xff xff xff)
(L (W x00 x00 x80 xbf x00 x00 x80 xbf))
(L (W x00 x00 x01 x01 x63 x01 x00 x00)))))
(T (W x00 x00 x00 x00 x00 x00 x00 x00)
(T (W xff xff xff xff xff xff xff xff)
(T (W x46 x53 x59 x53 x5f x4e x53 x5f)
(T (W xff xff xff xff xff xff xff xff)
(L (W x00 x00 x00 x00 x00 x00 x00 x00)) E)
(L (W xff xff xff xff xff xff xff xff)))
(T (W x00 x00 x00 x00 x00 x00 x00 x00)
(T (W xff xff xff xff xff xff xff xff)
(L (W x00 x00 x80 xbf x00 x00 x80 xbf)) E)
(L (W x1c x00 x00 x00 x10 x00 x00 x00))))
(T (W x6c x00 x00 x00 x60 x00 x00 x00)
(T (W x00 x00 x00 x00 x00 x00 x00 x00)
(T (W x00 x00 x01 x01 x7b x00 x00 x00)
(L (W x00 x00 x00 x00 x00 x00 x00 x00)) E)
(L (W x00 x00 x00 x00 x00 x00 x00 x00)))
(T (W xff xff xff xff xff xff xff xff)
(L (W x1c x00 x00 x00 x10 x00 x00 x00))
(L (W x00 x00 x00 x00 x00 x00 x00 x00))))))))
(T (W xb8 x00 x00 x00 xac x00 x00 x00)
(T (W xff xff xff xff xff xff xff xff)
(T (W x00 x00 x00 x00 x00 x00 x00 x00)
(T (W xb8 x00 x00 x00 xac x00 x00 x00)
(T (W x18 x00 x00 x00 x0c x00 x00 x00)
(T (W xe2 xda xff xff x44 x00 x00 x00)
(T (W x00 x00 x00 x00 x00 x00 x00 x00)
(L (W xff xff xff xff xb0 x00 x00 x00)) E)
(L (W x00 x00 x00 x00 xca x46 xfe xff)))
(T (W x00 x00 x00 x00 x00 x00 x00 x00)
(T (W x00 x00 x80 x3f x00 x00 x80 x3f)
(L (W xff xff xff xff xff xff xff xff)) E)
(L (W x45 x26 x22 x84 xe4 x9c xf2 xcb))))
(T (W x00 x00 x80 x3f x00 x00 x80 x3f)
(T (W xff xff xff xff xff xff xff xff)
(T (W x00 x00 x80 x3f x00 x00 x80 x3f)
(L (W x00 x00 x00 x00 x34 x89 xff xff)) E)
(L (W x00 x00 x80 xbf x00 x00 x80 xbf)))
(T (W xff xff xff xff xff xff xff xff)
(L (W x68 x00 x00 x00 x5c x00 x00 x00))
(L (W x00 x00 x00 x00 x12 x00 x00 x00)))))
(T (W x18 x00 x00 x00 x10 x00 x00 x00)
(T (W x45 x26 x22 x84 xe4 x9c xf2 xcb)
(T (W xff xff xff xff xff xff xff xff)
(T (W xff xff xff xff xff xff xff xff)
(L (W x45 x26 x22 x84 xe4 x9c xf2 xcb)) E)
(L (W x00 x00 x00 x00 x00 x00 x00 x00)))
(T (W x00 x00 x00 x00 x00 x00 x00 x00)
(T (W x00 x00 x80 xbf x00 x00 x80 xbf)
(L (W x00 x00 x00 x00 x00 x00 x00 x00)) E)
(L (W x45 x44 x00 x00 x00 x00 x00 x00))))
(T (W x3e x00 x00 x00 x0c x00 x00 x00)
(T (W x00 x00 x80 x3f x00 x00 x80 x3f)
(T (W xff xff xff xff xac x00 x00 x00)
(L (W xff xff xff xff xff xff xff xff)) E)
(L (W x03 x00 x00 x00 xd4 x00 x00 x00)))
(T (W x00 x00 x00 x00 x34 x29 xfd xff)
(L (W xff xff xff xff xff xff xff xff))
(L (W x00 x00 x80 xbf x00 x00 x80 xbf))))))
(T (W xff xff xff xff xff xff xff xff)
(T (W xff xff xff xff xff xff xff xff)
(T (W x54 x00 x00 x00 x48 x00 x00 x00)
(T (W xff xff xff xff xff xff xff xff)
(T (W x5c x61 xfd xff x27 x00 x00 x00)
(L (W x00 x00 x00 x00 x00 x00 x00 x00)) E)
(L (W x45 x44 x00 x00 x00 x00 x00 x00)))
(T (W x45 x26 x22 x84 xe4 x9c xf2 xcb)
(T (W xff xff xff xff xff xff xff xff)
(L (W xff xff xff xff xff xff xff xff)) E)
(L (W xff xff xff xff xff xff xff xff))))
(T (W x00 x00 x00 x00 x00 x00 x00 x00)
(T (W x00 x00 x00 x00 x12 x00 x00 x00)
(T (W x45 x26 x22 x84 xe4 x9c xf2 xcb)
(L (W xff xff xff xff xff xff xff xff)) E)
(L (W x18 x00 x00 x00 x0c x00 x00 x00)))
(T (W x00 x00 x00 x00 x00 x00 x00 x00)
(L (W xff xff xff xff xff xff xff xff))
(L (W x00 x00 x80 xbf x00 x00 x80 xbf)))))
(T (W xc4 xba xfb xff x00 x01 x01 x01)
(T (W x45 x26 x22 x84 xe4 x9c xf2 xcb)
(T (W x18 x00 x00 x00 x10 x00 x00 x00)
(T (W x45 x26 x22 x84 xe4 x9c xf2 xcb)
(L (W x3c x00 x00 x00 x00 x00 x80 xbf)) E)
(L (W x00 x00 x00 x00 x00 x00 x00 x00)))
(T (W x00 x00 x80 x3f x00 x00 x80 x3f)
(T (W x00 x00 x00 x00 x00 x00 x00 x00)
(L (W x49 xa1 x68 x4a xeb x5f xdd x3d)) E)
(L (W x00 x00 x00 x00 x00 x00 x00 x00))))
(T (W xff xff xff xff xff xff xff xff)
(T (W xc4 x00 x00 x00 x01 x00 x00 x00)
(T (W x61 x72 x6c x69 x6b x65 x5f x6f)
(L (W x00 x01 x01 x01 x22 xc2 xff xff)) E)
(L (W x00 x00 x80 xbf x00 x00 x80 xbf)))
(T (W x00 x00 x80 x3f x00 x00 x80 x3f)
(L (W x00 x00 x80 xbf x00 x00 x80 xbf))
(L (W x5c x00 x00 x00 x50 x00 x00 x00)))))))
(T (W xff xff xff xff xff xff xff xff)
(T (W x9a xe0 xfd xff x00 x00 x01 x01)
(T (W xff xff xff xff xff xff xff xff)
(T (W x00 x00 x80 x3f x00 x00 x80 x3f)
(T (W x5a xe4 xff xff x00 x00 x01 x01)
(T (W x00 x00 x00 x00 x00 x00 x00 x00)
(L (W xff xff xff xff xff xff xff xff)) E)
(L (W x00 x00 x00 x00 x00 x00 x00 x00)))
(T (W x00 x00 x80 x3f x00 x00 x80 x3f)
(T (W x18 x00 x00 x00 x10 x00 x00 x00)
(L (W xff xff xff xff xff xff xff xff)) E)
(L (W xff xff xff xff xff xff xff xff))))
(T (W x00 x00 x00 x00 x00 x00 x00 x00)
(T (W x00 x00 x00 x00 x00 x00 x00 x00)
(T (W xff xff xff xff xff xff xff xff)
(L (W x03 x00 x00 x00 xd0 x00 x00 x00)) E)
(L (W x00 x00 x80 xbf x00 x00 x80 xbf)))
(T (W xff xff xff xff x02 x00 x00 x00)
(L (W x03 x00 x00 x00 xd0 x00 x00 x00))
(L (W x00 x00 x00 x00 x00 x00 x00 x00)))))
(T (W x68 x00 x00 x00 x5c x00 x00 x00)
(T (W x00 x00 x00 x00 x00 x00 x00 x00)
(T (W x45 x26 x22 x84 xe4 x9c xf2 xcb)
(T (W xb8 x00 x00 x00 xac x00 x00 x00)
(L (W x00 x00 x80 xbf x00 x00 x80 xbf)) E)
(L (W x00 x00 x00 x00 x00 x00 x00 x00)))
(T (W x00 x00 x00 x00 x00 x00 x00 x00)
(T (W x00 x00 x80 xbf x00 x00 x80 xbf)
(L (W x00 x00 x80 xbf x00 x00 x80 xbf)) E)
(L (W x00 x00 x00 x00 x00 x00 x00 x00))))
(T (W x9a xa0 xfe xff x00 x00 x01 x01)
(T (W x68 x00 x00 x00 x5c x00 x00 x00)
(T (W x00 x00 x00 x00 xca xae xfd xff)
(L (W x18 x00 x00 x00 x10 x00 x00 x00)) E)
(L (W x9a xaf xfe xff x78 x00 x00 x00)))
(T (W x9a x2f xfd xff x78 x00 x00 x00)
(L (W x00 x00 x00 x00 x00 x00 x00 x00))
(L (W x00 x00 x00 x00 x34 x31 xff xff))))))
(T (W xff xff xff xff xff xff xff xff)
(T (W xff xff xff xff xff xff xff xff)
(T (W x00 x00 x80 x3f x00 x00 x80 x3f)
(T (W xff xff xff xff xff xff xff xff)
(T (W xff xff xff xff xff xff xff xff)
(L (W x00 x00 x00 x00 x00 x00 x00 x00)) E)
(L (W x00 x00 x00 x00 x00 x00 x00 x00)))
(T (W xff xff xff xff xff xff xff xff)
(T (W x30 x35 x5f x43 x4c x45 x41 x52)
(L (W xff xff xff xff xff xff xff xff)) E)
(L (W x00 x00 x00 x00 x92 xe0 xfe xff))))
(T (W x00 x00 x00 x00 x00 x00 x00 x00)
(T (W x00 x00 x80 x3f x00 x00 x80 x3f)
(T (W x37 x00 x00 x00 x10 x00 x00 x00)
(L (W x44 x02 x00 x00 x30 x01 x00 x00)) E)
(L (W x14 x00 x00 x00 x0c x00 x00 x00)))
(T (W x00 x00 x80 x3f x00 x00 x80 x3f)
(L (W x00 x00 x01 x01 x64 x01 x00 x00))
(L (W x00 x00 x80 xbf x00 x00 x80 xbf)))))
(T (W x45 x26 x22 x84 xe4 x9c xf2 xcb)
(T (W x45 x26 x22 x84 xe4 x9c xf2 xcb)
(T (W xff xff xff xff xff xff xff xff)
(T (W x00 x00 x80 x3f x00 x00 x80 x3f)
(L (W x9a x7f xff xff x78 x00 x00 x00)) E)
(L (W x00 x00 x80 xbf x00 x00 x80 xbf)))
(T (W x31 x00 x00 x00 x34 x00 x00 x00)
(T (W x00 x00 x80 xbf x00 x00 x80 xbf)
(L (W xff xff xff xff xff xff xff xff)) E)
(L (W x10 xdc x39 xdc x00 x58 x48 x2f))))
(T (W x5c x00 x00 x00 xff xff xff xff)
(T (W xff xff xff xff xff xff xff xff)
(T (W x00 x00 x80 x3f x00 x00 x80 x3f)
(L (W xff xff xff xff xff xff xff xff)) E)
(L (W x00 x00 x80 xbf x00 x00 x80 xbf)))
(T (W x00 x00 x80 x3f x00 x00 x80 x3f)
(L (W x00 x00 x00 x00 x00 x00 x00 x00))
(L (W x45 x26 x22 x84 xe4 x9c xf2 xcb))))))))))
(T (W x28 x8a x01 x00 xf4 x88 x01 x00)
(T (W x20 x55 x00 x00 xec x53 x00 x00)
(T (W x00 x00 x00 x00 x00 x00 x00 x00)
(T (W x00 x00 x00 x00 x00 x00 x00 x00)
(T (W x00 x00 x00 x00 x00 x00 x00 x00)
(T (W x00 x00 x00 x00 x00 x00 x00 x00)
(T (W xff xff xff xff xff xff xff xff)
(T (W x00 x00 x00 x00 x00 x00 x00 x00)
(T (W xb8 x00 x00 x00 xac x00 x00 x00)
(L (W xc1 xa8 xaa x28 xbf xd5 x56 x6a)) E)
(L (W x00 x00 x00 x00 xc8 x45 xfe xff)))
(T (W x45 x26 x22 x84 xe4 x9c xf2 xcb)
(T (W xff xff xff xff xff xff xff xff)
(L (W x00 x00 x00 x00 x00 x00 x00 x00)) E)
(L (W x00 x00 x00 x00 x00 x00 x00 x00))))
(T (W xe2 x00 xfc xff x74 x00 x00 x00)
(T (W x00 x00 x00 x00 x12 x00 x00 x00)
(T (W xff xff xff xff xff xff xff xff)
(L (W xff xff xff xff xff xff xff xff)) E)
(L (W xff xff xff xff xff xff xff xff)))
(T (W x13 x00 x00 x00 x10 x00 x00 x00)
(L (W xff xff xff xff xff xff xff xff))
(L (W x00 x00 x80 xbf x00 x00 x80 xbf)))))
(T (W x2a x12 xfe xff xab x01 x00 x00)
(T (W xff xff xff xff xff xff xff xff)
(T (W x45 x26 x22 x84 xe4 x9c xf2 xcb)
(T (W x00 x00 x00 x00 x00 x00 x00 x00)
(L (W x00 x00 x00 x00 x34 x64 xff xff)) E)
(L (W x00 x00 x80 xbf x00 x00 x80 xbf)))
(T (W x00 x00 x80 x3f x00 x00 x80 x3f)
(T (W x50 x00 x00 x00 x44 x00 x00 x00)
(L (W xff xff xff xff x90 x00 x00 x00)) E)
(L (W x00 x00 x80 xbf x00 x00 x80 xbf))))
(T (W xc4 x25 xfc xff x00 x01 x01 x01)
(T (W xff xff xff xff xff xff xff xff)
(T (W x54 xfc xff xff x01 x01 x01 x01)
(L (W x00 x00 x80 xbf x00 x00 x80 xbf)) E)
(L (W x04 x00 x00 x00 x92 xa3 xfe xff)))
(T (W xff xff xff xff xbc x00 x00 x00)
(L (W x00 x00 x00 x00 x00 x00 x00 x00))
(L (W xff xff xff xff xff xff xff xff))))))
(T (W x00 x00 x80 x3f x00 x00 x80 x3f)
(T (W x00 x00 x00 x00 x00 x00 x00 x00)
(T (W xff xff xff xff xff xff xff xff)
(T (W x00 x00 x00 x00 x00 x00 x00 x00)
(T (W x00 x00 x80 x3f x00 x00 x80 x3f)
(L (W x00 x00 x80 xbf x00 x00 x80 xbf)) E)
(L (W x54 x00 x00 x00 x48 x00 x00 x00)))
(T (W xff xff xff xff xff xff xff xff)
(T (W x00 x00 x00 x00 x00 x00 x00 x00)
(L (W x00 x00 x80 xbf x00 x00 x80 xbf)) E)
(L (W x00 x00 x00 x00 x00 x00 x00 x00))))
(T (W x68 x00 x00 x00 x5c x00 x00 x00)
(T (W x00 x00 x80 x3f x00 x00 x80 x3f)
(T (W xff xff xff xff xff xff xff xff)
(L (W x49 xa1 x68 x4a xeb x5f xdd x3d)) E)
(L (W xff xff xff xff xff xff xff xff)))
(T (W x00 x00 x80 x3f x00 x00 x80 x3f)
(L (W x00 x00 x00 x00 x12 x00 x00 x00))
(L (W xff xff xff xff xff xff xff xff)))))
(T (W xb7 x50 xdd x29 xdd x43 xad xcf)
(T (W xff xff xff xff xff xff xff xff)
(T (W xff xff xff xff xff xff xff xff)
(T (W x5c x7c xfd xff x36 x00 x00 x00)
(L (W xff xff xff xff xff xff xff xff)) E)
(L (W x45 x26 x22 x84 xe4 x9c xf2 xcb)))
(T (W x03 x00 x00 x00 xcc x00 x00 x00)
(T (W xff xff xff xff xff xff xff xff)
(L (W xff xff xff xff xff xff xff xff)) E)
(L (W x1c x00 x00 x00 x10 x00 x00 x00))))
(T (W x00 x00 x80 x3f x00 x00 x80 x3f)
(T (W x00 x00 x00 x00 x2a xbc xfc xff)
(T (W x00 x00 x80 x3f x00 x00 x80 x3f)
(L (W x1b x00 x00 x00 x0c x00 x00 x00)) E)
(L (W xff xff xff xff xff xff xff xff)))
(T (W xff xff xff xff xff xff xff xff)
(L (W x9a x32 xfe xff x78 x00 x00 x00))
(L (W x06 x00 x00 x00 x98 x05 x00 x00)))))))
(T (W x00 x00 x00 x00 x00 x00 x00 x00)
(T (W x00 x00 x80 x3f x00 x00 x80 x3f)
(T (W x00 x00 x00 x00 x00 x00 x00 x00)
(T (W xff xff xff xff xff xff xff xff)
(T (W x00 x00 x00 x00 x00 x00 x00 x00)
(T (W x01 x00 x00 x00 x9c x00 x00 x00)
(L (W x00 x00 x00 x00 x00 x00 x00 x00)) E)
(L (W x6c x00 x00 x00 x60 x00 x00 x00)))
(T (W xe2 xc8 xfc xff x74 x00 x00 x00)
(T (W xff xff xff xff xff xff xff xff)
(L (W x00 x00 x00 x00 x00 x00 x00 x00)) E)
(L (W x97 x58 xbb x28 xbf xd9 x6a x6a))))
(T (W x00 x00 x80 x3f x00 x00 x80 x3f)
(T (W x00 x00 x00 x00 x00 x00 x00 x00)
(T (W xff xff xff xff xff xff xff xff)
(L (W x04 x00 x00 x00 x80 x03 x00 x00)) E)
(L (W xff xff xff xff xff xff xff xff)))
(T (W x00 x00 x00 x00 x00 x00 x00 x00)
(L (W x00 x00 x00 x00 x2a x14 xfe xff))
(L (W xff xff xff xff xa0 x00 x00 x00)))))
(T (W x00 x00 x00 x00 x00 x00 x00 x00)
(T (W xff xff xff xff x03 x00 x00 x00)
(T (W x00 x00 x80 x3f x00 x00 x80 x3f)
(T (W x00 x00 x00 x00 x00 x00 x00 x00)
(L (W xff xff xff xff xff xff xff xff)) E)
(L (W xff xff xff xff x90 x00 x00 x00)))
(T (W x50 x00 x00 x00 x44 x00 x00 x00)
(T (W x18 x00 x00 x00 x0c x00 x00 x00)
(L (W x03 x00 x00 x00 xd0 x00 x00 x00)) E)
(L (W x00 x00 x00 x00 x34 xec xfe xff))))
(T (W x00 x00 x80 x3f x00 x00 x80 x3f)
(T (W xff xff xff xff xff xff xff xff)
(T (W x00 x00 x00 x00 x00 x00 x00 x00)
(L (W x00 x00 x00 x00 x00 x00 x00 x00)) E)
(L (W x00 x00 x80 xbf x00 x00 x80 xbf)))
(T (W x00 x00 x01 x01 xc9 x02 x00 x00)
(L (W x00 x00 x80 xbf x00 x00 x80 xbf))
(L (W x00 x00 x00 x00 x00 x00 x00 x00))))))
(T (W x00 x00 x00 x00 x00 x00 x00 x00)
(T (W xa8 x91 x81 x86 xbc xda xbf x3f)
(T (W xff xff xff xff xff xff xff xff)
(T (W x00 x00 x00 x00 x00 x00 x00 x00)
(T (W x00 x00 x80 x3f x00 x00 x80 x3f)
(L (W x00 x00 x80 xbf x00 x00 x80 xbf)) E)
(L (W x00 x00 x80 xbf x00 x00 x80 xbf)))
(T (W x00 x00 x00 x00 x00 x00 x00 x00)
(T (W x49 xa1 x68 x4a xeb x5f xdd x3d)
(L (W x00 x00 x00 x00 x00 x00 x00 x00)) E)
(L (W x45 x26 x22 x84 xe4 x9c xf2 xcb))))
(T (W xe2 x18 xfc xff x74 x00 x00 x00)
(T (W x18 x00 x00 x00 x10 x00 x00 x00)
(T (W xff xff xff xff xff xff xff xff)
(L (W x45 x26 x22 x84 xe4 x9c xf2 xcb)) E)
(L (W x00 x00 x00 x00 x12 x00 x00 x00)))
(T (W xff xff xff xff xac x00 x00 x00)
(L (W x00 x00 x80 xbf x00 x00 x80 xbf))
(L (W xff xff xff xff xff xff xff xff)))))
(T (W x69 x01 x00 x00 xff xff xff xff)
(T (W x18 x00 x00 x00 x0c x00 x00 x00)
(T (W x00 x00 x01 x01 x69 x01 x00 x00)
(T (W xff xff xff xff x03 x00 x00 x00)
(L (W xff xff xff xff xff xff xff xff)) E)
(L (W xb4 x00 x00 x00 x64 x00 x00 x00)))
(T (W xff xff xff xff x02 x00 x00 x00)
(T (W xc8 x00 x00 x00 x01 x00 x00 x00)
(L (W x00 x00 x00 x00 x00 x00 x00 x00)) E)
(L (W x00 x00 x80 xbf x00 x00 x80 xbf))))
(T (W x00 x00 x80 x3f x00 x00 x80 x3f)
(T (W x46 x53 x59 x53 x5f x4e x53 x5f)
(T (W xb4 x00 x00 x00 x32 x00 x00 x00)
(L (W x00 x00 x00 x00 x00 x00 x00 x00)) E)
(L (W xff xff xff xff xff xff xff xff)))
(T (W xff xff xff xff xff xff xff xff)
(L (W x30 x3c xfe xff x1a x4a xfe xff))
(L (W x00 x00 x00 x00 x00 x00 x00 x00))))))))
(T (W x01 x00 x00 x00 x9c x00 x00 x00)
(T (W xff xff xff xff xff xff xff xff)
(T (W x54 x00 x00 x00 x58 x00 x00 x00)
(T (W x01 x00 x00 x00 x9c x00 x00 x00)
(T (W x00 x00 x80 x3f x00 x00 x80 x3f)
(T (W xff xff xff xff xff xff xff xff)
(T (W x00 x00 x00 x00 x00 x00 x00 x00)
(L (W x00 x00 x80 xbf x00 x00 x80 xbf)) E)
(L (W xff xff xff xff xff xff xff xff)))
(T (W xcb x01 x00 x00 xff xff xff xff)
(T (W x00 x00 x00 x00 x00 x00 x00 x00)
(L (W x45 x26 x22 x84 xe4 x9c xf2 xcb)) E)
(L (W x00 x00 x80 xbf x00 x00 x80 xbf))))
(T (W x00 x00 x00 x00 x00 x00 x00 x00)
(T (W x03 x00 x00 x00 xd0 x00 x00 x00)
(T (W x00 x00 x80 x3f x00 x00 x80 x3f)
(L (W x00 x00 x80 xbf x00 x00 x80 xbf)) E)
(L (W x00 x00 x00 x00 x00 x00 x00 x00)))
(T (W x45 x26 x22 x84 xe4 x9c xf2 xcb)
(L (W x00 x00 x80 xbf x00 x00 x80 xbf))
(L (W x02 x00 x00 x00 x30 x01 x00 x00)))))
(T (W xc4 xa9 xfb xff x00 x01 x01 x01)
(T (W x00 x00 x00 x00 x00 x00 x00 x00)
(T (W xc4 x69 xfc xff x00 x01 x01 x01)
(T (W xb8 x00 x00 x00 xac x00 x00 x00)
(L (W x00 x00 x00 x00 x00 x00 x00 x00)) E)
(L (W x00 x00 x00 x00 x00 x00 x00 x00)))
(T (W x38 x01 x00 x00 x04 x00 x00 x00)
(T (W x00 x00 x00 x00 x00 x00 x00 x00)
(L (W x00 x00 x00 x00 xa2 xee xff xff)) E)
(L (W xff xff xff xff xff xff xff xff))))
(T (W xff xff xff xff xff xff xff xff)
(T (W x00 x00 x00 x00 x00 x00 x00 x00)
(T (W x00 x00 x80 xbf x00 x00 x80 xbf)
(L (W x03 x00 x00 x00 xd0 x00 x00 x00)) E)
(L (W x00 x00 x80 xbf x00 x00 x80 xbf)))
(T (W x00 x00 x80 x3f x00 x00 x80 x3f)
(L (W x03 x00 x00 x00 xb8 x00 x00 x00))
(L (W x00 x00 x80 xbf x00 x00 x80 xbf))))))
(T (W xb8 x00 x00 x00 xac x00 x00 x00)
(T (W xc0 x00 x00 x00 xb4 x00 x00 x00)
(T (W x45 x26 x22 x84 xe4 x9c xf2 xcb)
(T (W xff xff xff xff xff xff xff xff)
(T (W xff xff xff xff xff xff xff xff)
(L (W x00 x00 x00 x00 x00 x00 x00 x00)) E)
(L (W xff xff xff xff xff xff xff xff)))
(T (W x00 x00 x80 x3f x00 x00 x80 x3f)
(T (W xff xff xff xff xff xff xff xff)
(L (W xbc x00 x00 x00 x0a x00 x00 x00)) E)
(L (W xff xff xff xff xff xff xff xff))))
(T (W x40 x00 x00 x00 x10 x00 x00 x00)
(T (W x00 x00 x00 x00 x00 x00 x00 x00)
(T (W x00 x00 x00 x00 x00 x00 x00 x00)
(L (W xff xff xff xff xff xff xff xff)) E)
(L (W x9a x96 xfe xff x78 x00 x00 x00)))
(T (W x00 x00 x00 x00 x00 x00 x00 x00)
(L (W xff xff xff xff xff xff xff xff))
(L (W x45 x26 x22 x84 xe4 x9c xf2 xcb)))))
(T (W x68 x00 x00 x00 x5c x00 x00 x00)
(T (W x00 x00 x00 x00 x00 x00 x00 x00)
(T (W x6c x00 x00 x00 x60 x00 x00 x00)
(T (W x45 x26 x22 x84 xe4 x9c xf2 xcb)
(L (W x00 x00 x80 xbf x00 x00 x80 xbf)) E)
(L (W x00 x00 x00 x00 x00 x00 x00 x00)))
(T (W x00 x00 x80 x3f x00 x00 x80 x3f)
(T (W x00 x00 x00 x00 x12 x00 x00 x00)
(L (W x2c x00 x30 x00 x34 x00 x38 x00)) E)
(L (W xff x4a xbb x28 xbf xd1 x6a x6a))))
(T (W xff xff xff xff xff xff xff xff)
(T (W x45 x26 x22 x84 xe4 x9c xf2 xcb)
(T (W xff xff xff xff xff xff xff xff)
(L (W x3c x00 x00 x00 x00 x00 x80 xbf)) E)
(L (W x00 x00 x00 x00 x00 x00 x00 x00)))
(T (W x00 x00 x80 x3f x00 x00 x80 x3f)
(L (W x00 x00 x00 x00 x00 x00 x00 x00))
(L (W x00 x00 x80 xbf x00 x00 x80 xbf)))))))
(T (W xff xff xff xff xff xff xff xff)
(T (W xff xff xff xff xff xff xff xff)
(T (W x0a x00 x00 x00 x3e x00 x00 x00)
(T (W x00 x00 x80 x3f x00 x00 x80 x3f)
(T (W xff xff xff xff xff xff xff xff)
(T (W x5c x58 xfd xff x19 x00 x00 x00)
(L (W xff xff xff xff xff xff xff xff)) E)
(L (W xc8 x00 x00 x00 xff xff xff xff)))
(T (W x00 x00 x00 x00 x00 x00 x00 x00)
(T (W x6c x00 x00 x00 x60 x00 x00 x00)
(L (W xcc x00 x00 x00 x02 x00 x00 x00)) E)
(L (W x45 x26 x22 x84 xe4 x9c xf2 xcb))))
(T (W x00 x00 x00 x00 x00 x00 x00 x00)
(T (W xff xff xff xff xff xff xff xff)
(T (W x00 x00 x00 x00 x00 x00 x00 x00)
(L (W x68 x00 x00 x00 x5c x00 x00 x00)) E)
(L (W x00 x00 x80 xbf x00 x00 x80 xbf)))
(T (W xff xff xff xff xff xff xff xff)
(L (W x68 x00 x00 x00 x5c x00 x00 x00))
(L (W x30 x35 x5f x43 x4c x45 x41 x52)))))
(T (W x50 x00 x00 x00 x44 x00 x00 x00)
(T (W x00 x00 x00 x00 x00 x00 x00 x00)
(T (W xc4 x71 xfc xff x00 x01 x01 x01)
(T (W x01 x00 x00 x00 x9c x00 x00 x00)
(L (W x00 x00 x80 xbf x00 x00 x80 xbf)) E)
(L (W x00 x00 x00 x00 xba x8c xfe xff)))
(T (W x5f x4e x53 x5f x30 x35 x5f x43)
(T (W x00 x00 x00 x00 x00 x00 x00 x00)
(L (W x45 x26 x22 x84 xe4 x9c xf2 xcb)) E)
(L (W x00 x00 x00 x00 x00 x00 x00 x00))))
(T (W xff xff xff xff xff xff xff xff)
(T (W x00 x00 x80 x3f x00 x00 x80 x3f)
(T (W xff xff xff xff xff xff xff xff)
(L (W x6c x00 x00 x00 x60 x00 x00 x00)) E)
(L (W x45 x26 x22 x84 xe4 x9c xf2 xcb)))
(T (W x00 x00 x80 x3f x00 x00 x80 x3f)
(L (W x00 x00 x00 x00 x00 x00 x00 x00))
(L (W x00 x00 x80 xbf x00 x00 x80 xbf))))))
(T (W x45 x26 x22 x84 xe4 x9c xf2 xcb)
(T (W xe2 x9c xfb xff x74 x00 x00 x00)
(T (W x00 x00 x00 x00 x00 x00 x00 x00)
(T (W x64 x00 x00 x00 x9c x00 x00 x00)
(T (W xff xff xff xff xff xff xff xff)
(L (W x00 x00 x00 x00 x00 x00 x00 x00)) E)
(L (W x00 x00 x00 x00 x12 x00 x00 x00)))
(T (W xff xff xff xff xbc x00 x00 x00)
(T (W x00 x00 x01 x01 x73 x02 x00 x00)
(L (W xff xff xff xff xff xff xff xff)) E)
(L (W xff xff xff xff xff xff xff xff))))
(T (W x9a x8f xfe xff x00 x00 x01 x01)
(T (W x00 x00 x00 x00 x00 x00 x00 x00)
(T (W xff xff xff xff xff xff xff xff)
(L (W xff xff xff xff xff xff xff xff)) E)
(L (W x5c x00 x00 x00 x50 x00 x00 x00)))
(T (W x00 x00 x00 x00 x00 x00 x00 x00)
(L (W xff xff xff xff xbc x00 x00 x00))
(L (W x00 x00 x00 x00 x00 x00 x00 x00)))))
(T (W xe2 xbc xfb xff x74 x00 x00 x00)
(T (W x00 x00 x00 x00 x00 x00 x00 x00)
(T (W xe2 x7c xfc xff x74 x00 x00 x00)
(T (W x1a x00 x00 x00 x67 x72 x6f x75)
(L (W x00 x00 x80 xbf x00 x00 x80 xbf)) E)
(L (W x00 x00 x00 x00 x00 x00 x00 x00)))
(T (W xe2 xfc xfc xff x74 x00 x00 x00)
(T (W x00 x00 x00 x00 x00 x00 x00 x00)
(L (W x00 x00 x80 xbf x00 x00 x80 xbf)) E)
(L (W xff xff xff xff xff xff xff xff))))
(T (W xff xff xff xff xff xff xff xff)
(T (W x03 x00 x00 x00 xd0 x00 x00 x00)
(T (W x49 xa1 x68 x4a xeb x5f xdd x3d)
(L (W xff xff xff xff xb0 x00 x00 x00)) E)
(L (W x00 x00 x80 xbf x00 x00 x80 xbf)))
(T (W x00 x00 x00 x00 x00 x00 x00 x00)
(L (W x45 x44 x00 x00 x00 x00 x00 x00))
(L (W x00 x00 x80 xbf x00 x00 x80 xbf)))))))))
(T (W xff xff xff xff xff xff xff xff)
(T (W x6c x00 x00 x00 x60 x00 x00 x00)
(T (W x00 x00 x80 x3f x00 x00 x80 x3f)
(T (W x68 x00 x00 x00 x5c x00 x00 x00)
(T (W xe2 x82 xfb xff x74 x00 x00 x00)
(T (W x00 x00 x00 x00 x00 x00 x00 x00)
(T (W x45 x26 x22 x84 xe4 x9c xf2 xcb)
(T (W xff xff xff xff xff xff xff xff)
(L (W x45 x26 x22 x84 xe4 x9c xf2 xcb)) E)
(L (W x03 x00 x00 x00 xc8 x00 x00 x00)))
(T (W x45 x26 x22 x84 xe4 x9c xf2 xcb)
(T (W x00 x00 x00 x00 x00 x00 x00 x00)
(L (W x00 x00 x80 xbf x00 x00 x80 xbf)) E)
(L (W x00 x00 x00 x00 x00 x00 x00 x00))))
(T (W xff xff xff xff xff xff xff xff)
(T (W x54 x00 x00 x00 x48 x00 x00 x00)
(T (W x2a xf4 xff xff xb8 x01 x00 x00)
(L (W x00 x00 x00 x00 x00 x00 x00 x00)) E)
(L (W x00 x00 x00 x00 x00 x00 x00 x00)))
(T (W x00 x00 x80 x3f x00 x00 x80 x3f)
(L (W x00 x00 x00 x00 x00 x00 x00 x00))
(L (W x26 x00 x00 x00 x29 x00 x00 x00)))))
(T (W x00 x00 x00 x00 x00 x00 x00 x00)
(T (W x00 x00 x00 x00 x00 x00 x00 x00)
(T (W x00 x00 x80 x3f x00 x00 x80 x3f)
(T (W x00 x00 x80 x3f x00 x00 x80 x3f)
(L (W x00 x00 x00 x00 xca x63 xff xff)) E)
(L (W xff xff xff xff xff xff xff xff)))
(T (W xff xff xff xff xac x00 x00 x00)
(T (W xab x01 x00 x00 xff xff xff xff)
(L (W xff xff xff xff xff xff xff xff)) E)
(L (W xff xff xff xff xff xff xff xff))))
(T (W xb8 x00 x00 x00 xac x00 x00 x00)
(T (W x00 x00 x00 x00 x2a xae xfc xff)
(T (W x00 x00 x01 x01 xde x01 x00 x00)
(L (W x6c x00 x00 x00 x60 x00 x00 x00)) E)
(L (W x45 x26 x22 x84 xe4 x9c xf2 xcb)))
(T (W x45 x44 x00 x00 x00 x00 x00 x00)
(L (W x00 x00 x80 xbf x00 x00 x80 xbf))
(L (W x00 x00 x00 x00 x00 x00 x00 x00))))))
(T (W x50 x00 x00 x00 x44 x00 x00 x00)
(T (W x00 x00 x80 x3f x00 x00 x80 x3f)
(T (W x35 xca x03 x75 xb1 xd3 x11 x74)
(T (W x00 x00 x80 x3f x00 x00 x80 x3f)
(T (W xb8 x00 x00 x00 xac x00 x00 x00)
(L (W x18 x00 x00 x00 x10 x00 x00 x00)) E)
(L (W x1c x00 x00 x00 x10 x00 x00 x00)))
(T (W x00 x00 x00 x00 x00 x00 x00 x00)
(T (W x00 x00 x80 xbf x00 x00 x80 xbf)
(L (W x54 x00 x00 x00 x48 x00 x00 x00)) E)
(L (W xc4 xd7 xfe xff x00 x01 x01 x01))))
(T (W xff xff xff xff x04 x00 x00 x00)
(T (W xff xff xff xff xff xff xff xff)
(T (W x03 x00 x00 x00 xcc x00 x00 x00)
(L (W x9a x94 xff xff x78 x00 x00 x00)) E)
(L (W x00 x00 x00 x00 x00 x00 x00 x00)))
(T (W xff xff xff xff x9c x00 x00 x00)
(L (W x00 x00 x80 xbf x00 x00 x80 xbf))
(L (W x00 x00 x00 x00 x00 x00 x00 x00)))))
(T (W x00 x00 x00 x00 x00 x00 x00 x00)
(T (W x48 x03 x00 x00 x34 x02 x00 x00)
(T (W x00 x00 x00 x00 x00 x00 x00 x00)
(T (W x5c x00 x60 x00 x62 x00 x00 x00)
(L (W x30 x35 x5f x43 x4c x45 x41 x52)) E)
(L (W xff xff xff xff xff xff xff xff)))
(T (W x00 x00 x00 x00 x04 x00 x00 x00)
(T (W x43 x00 x00 x00 xff xff xff xff)
(L (W x00 x00 x80 xbf x00 x00 x80 xbf)) E)
(L (W xff xff xff xff xff xff xff xff))))
(T (W xff xff xff xff x03 x00 x00 x00)
(T (W x00 x00 x00 x00 x00 x00 x00 x00)
(T (W x46 x53 x59 x53 x5f x4e x53 x5f)
(L (W x00 x00 x80 xbf x00 x00 x80 xbf)) E)
(L (W x45 x44 x00 x00 x00 x00 x00 x00)))
(T (W x00 x00 x00 x00 x00 x00 x00 x00)
(L (W xff xff xff xff xff xff xff xff))
(L (W x45 x26 x22 x84 xe4 x9c xf2 xcb)))))))
(T (W x68 x00 x00 x00 x5c x00 x00 x00)
(T (W x00 x00 x80 x3f x00 x00 x80 x3f)
(T (W x00 x00 x80 x3f x00 x00 x80 x3f)
(T (W x00 x00 x00 x00 x00 x00 x00 x00)
(T (W x50 x00 x00 x00 x44 x00 x00 x00)
(T (W xff xff xff xff xff xff xff xff)
(L (W x00 x00 x80 xbf x00 x00 x80 xbf)) E)
(L (W xff xff xff xff xc0 x00 x00 x00)))
(T (W xff xff xff xff xff xff xff xff)
(T (W x49 xa1 x68 x4a xeb x5f xdd x3d)
(L (W x00 x00 x80 xbf x00 x00 x80 xbf)) E)
(L (W x00 x00 x80 xbf x00 x00 x80 xbf))))
(T (W xff xff xff xff xff xff xff xff)
(T (W xe2 x8a xfc xff x74 x00 x00 x00)
(T (W x5c x96 xfd xff x32 x00 x00 x00)
(L (W x00 x00 x80 xbf x00 x00 x80 xbf)) E)
(L (W x46 x53 x59 x53 x5f x4e x53 x5f)))
(T (W x45 x26 x22 x84 xe4 x9c xf2 xcb)
(L (W x00 x00 x00 x00 x00 x00 x00 x00))
(L (W xff xff xff xff xff xff xff xff)))))
(T (W x00 x00 x00 x00 x00 x00 x00 x00)
(T (W x00 x00 x00 x00 x00 x00 x00 x00)
(T (W x00 x00 x00 x00 x00 x00 x00 x00)
(T (W x00 x00 x80 x3f x00 x00 x80 x3f)
(L (W xeb x90 xa7 x28 xbf x50 x53 x6a)) E)
(L (W xff xff xff xff xff xff xff xff)))
(T (W xff xff xff xff xff xff xff xff)
(T (W xff xff xff xff xff xff xff xff)
(L (W x08 x00 x00 x00 x68 x08 x00 x00)) E)
(L (W xff xff xff xff xff xff xff xff))))
(T (W xc0 x00 x00 x00 xb4 x00 x00 x00)
(T (W x46 x53 x59 x53 x5f x4e x53 x5f)
(T (W x00 x00 x80 x3f x00 x00 x80 x3f)
(L (W x49 xa1 x68 x4a xeb x5f xdd x3d)) E)
(L (W xaa x11 xb3 x28 xbf xe1 x60 x6a)))
(T (W x00 x00 x00 x00 x00 x00 x00 x00)
(L (W xff xff xff xff x9c x00 x00 x00))
(L (W x00 x00 x00 x00 x00 x00 x00 x00))))))
(T (W x68 x00 x00 x00 x5c x00 x00 x00)
(T (W x45 x26 x22 x84 xe4 x9c xf2 xcb)
(T (W x2a x4c xfe xff x63 x01 x00 x00)
(T (W x00 x00 x80 x3f x00 x00 x80 x3f)
(T (W x01 x00 x00 x00 x9c x00 x00 x00)
(L (W xff xff xff xff xff xff xff xff)) E)
(L (W xff xff xff xff xff xff xff xff)))
(T (W x00 x00 x80 x3f x00 x00 x80 x3f)
(T (W x18 x00 x00 x00 x0c x00 x00 x00)
(L (W x00 x00 x80 xbf x00 x00 x80 xbf)) E)
(L (W xbc x00 x00 x00 x64 x00 x00 x00))))
(T (W x18 x00 x00 x00 x10 x00 x00 x00)
(T (W xff xff xff xff xff xff xff xff)
(T (W x50 x00 x00 x00 x44 x00 x00 x00)
(L (W x9a x9c xff xff x78 x00 x00 x00)) E)
(L (W x49 xa1 x68 x4a xeb x5f xdd x3d)))
(T (W xff xff xff xff xff xff xff xff)
(L (W x6c x00 x00 x00 x60 x00 x00 x00))
(L (W x30 x35 x5f x43 x4c x45 x41 x52)))))
(T (W x00 x00 x00 x00 x00 x00 x00 x00)
(T (W xff xff xff xff xff xff xff xff)
(T (W x00 x00 x00 x00 x00 x00 x00 x00)
(T (W xbe x00 x00 x00 xff xff xff xff)
(L (W x00 x00 x00 x00 x00 x00 x00 x00)) E)
(L (W xff xff xff xff xff xff xff xff)))
(T (W x00 x00 x00 x00 x00 x00 x00 x00)
(T (W x01 x00 x00 x00 xff xff xff xff)
(L (W xff xff xff xff xff xff xff xff)) E)
(L (W xff xff xff xff xb0 x00 x00 x00))))
(T (W x00 x00 x00 x00 x34 x3e xfc xff)
(T (W x00 x00 x80 x3f x00 x00 x80 x3f)
(T (W x30 x35 x5f x43 x4c x45 x41 x52)
(L (W x00 x00 x00 x00 x00 x00 x00 x00)) E)
(L (W x00 x00 x00 x00 x00 x00 x00 x00)))
(T (W x5c x46 xfd xff x25 x00 x00 x00)
(L (W xff xff xff xff xff xff xff xff))
(L (W x00 x00 x00 x00 x00 x00 x00 x00))))))))
(T (W xff xff xff xff xff xff xff xff)
(T (W xff xff xff xff xff xff xff xff)
(T (W xff xff xff xff xff xff xff xff)
(T (W xff xff xff xff xff xff xff xff)
(T (W x0a x00 x00 x00 x3e x00 x00 x00)
(T (W x00 x00 x00 x00 x00 x00 x00 x00)
(T (W x00 x00 x80 x3f x00 x00 x80 x3f)
(L (W xff xff xff xff xff xff xff xff)) E)
(L (W x00 x00 x00 x00 x00 x00 x00 x00)))
(T (W x00 x00 x00 x00 x00 x00 x00 x00)
(T (W x54 x00 x00 x00 x48 x00 x00 x00)
(L (W x00 x00 x00 x00 x00 x00 x00 x00)) E)
(L (W xcc x00 x00 x00 x02 x00 x00 x00))))
(T (W x00 x00 x80 x3f x00 x00 x80 x3f)
(T (W x02 x00 x00 x00 x30 x01 x00 x00)
(T (W x01 x00 x00 x00 x9c x00 x00 x00)
(L (W x31 x00 x00 x00 x34 x00 x00 x00)) E)
(L (W x50 x00 x00 x00 x44 x00 x00 x00)))
(T (W x00 x00 x00 x00 x00 x00 x00 x00)
(L (W xff xff xff xff xff xff xff xff))
(L (W x00 x00 x00 x00 x00 x00 x00 x00)))))
(T (W xff xff xff xff xff xff xff xff)
(T (W x00 x00 x80 x3f x00 x00 x80 x3f)
(T (W x26 x00 x00 x00 xff xff xff xff)
(T (W xff xff xff xff xff xff xff xff)
(L (W x00 x00 x80 xbf x00 x00 x80 xbf)) E)
(L (W x45 x26 x22 x84 xe4 x9c xf2 xcb)))
(T (W x45 x26 x22 x84 xe4 x9c xf2 xcb)
(T (W x00 x00 x80 xbf x00 x00 x80 xbf)
(L (W x00 x00 x80 xbf x00 x00 x80 xbf)) E)
(L (W x00 x00 x00 x00 x00 x00 x00 x00))))
(T (W x00 x00 x00 x00 x00 x00 x00 x00)
(T (W x68 x00 x00 x00 x5c x00 x00 x00)
(T (W xff xff xff xff xff xff xff xff)
(L (W x08 x00 x00 x00 xe0 x08 x00 x00)) E)
(L (W xff xff xff xff xff xff xff xff)))
(T (W xff xff xff xff xac x00 x00 x00)
(L (W xff xff xff xff xff xff xff xff))
(L (W x00 x00 x00 x00 x34 x2a xff xff))))))
(T (W x3c xb7 x1b x07 x43 x4f x05 x39)
(T (W xff xff xff xff xff xff xff xff)
(T (W xe2 xd6 xfb xff x74 x00 x00 x00)
(T (W x00 x00 x00 x00 x04 x00 x00 x00)
(T (W x00 x00 x00 x00 x00 x00 x00 x00)
(L (W x00 x00 x00 x00 x00 x00 x00 x00)) E)
(L (W x00 x00 x00 x00 x00 x00 x00 x00)))
(T (W xff xff xff xff xff xff xff xff)
(T (W x00 x00 x00 x00 x00 x00 x00 x00)
(L (W xa8 x01 x00 x00 xff xff xff xff)) E)
(L (W x00 x00 x00 x00 x92 xd9 xfe xff))))
(T (W x00 x00 x00 x00 x00 x00 x00 x00)
(T (W x00 x00 x00 x00 x00 x00 x00 x00)
(T (W x00 x00 x80 xbf x00 x00 x80 xbf)
(L (W x00 x00 x00 x00 x00 x00 x00 x00)) E)
(L (W xff xff xff xff xff xff xff xff)))
(T (W x4f x84 x6f x8b xe8 xcb x63 xb7)
(L (W x54 xce x30 xdc x00 xeb x3d x2f))
(L (W xe2 x16 xff xff x74 x00 x00 x00)))))
(T (W x45 x26 x22 x84 xe4 x9c xf2 xcb)
(T (W x45 x26 x22 x84 xe4 x9c xf2 xcb)
(T (W x03 x00 x00 x00 xd8 x00 x00 x00)
(T (W x50 x00 x00 x00 x44 x00 x00 x00)
(L (W x6c x00 x00 x00 x60 x00 x00 x00)) E)
(L (W x00 x00 x80 xbf x00 x00 x80 xbf)))
(T (W xe2 xf6 xfc xff x74 x00 x00 x00)
(T (W x00 x00 x80 xbf x00 x00 x80 xbf)
(L (W xff xff xff xff xff xff xff xff)) E)
(L (W x00 x00 x00 x00 x00 x00 x00 x00))))
(T (W x3e x00 x00 x00 x0c x00 x00 x00)
(T (W xff xff xff xff xff xff xff xff)
(T (W x45 x26 x22 x84 xe4 x9c xf2 xcb)
(L (W x31 x00 x00 x00 x34 x00 x00 x00)) E)
(L (W xff xff xff xff xb0 x00 x00 x00)))
(T (W x18 x00 x00 x00 x0c x00 x00 x00)
(L (W x00 x00 x80 xbf x00 x00 x80 xbf))
(L (W x14 x00 x00 x00 x0c x00 x00 x00)))))))
(T (W x00 x00 x00 x00 xda xed xfd xff)
(T (W x00 x00 x00 x00 x00 x00 x00 x00)
(T (W xff xff xff xff xff xff xff xff)
(T (W xc0 x00 x00 x00 xb4 x00 x00 x00)
(T (W x00 x00 x00 x00 x00 x00 x00 x00)
(T (W x00 x00 x00 x00 x00 x00 x00 x00)
(L (W x2c x57 xff xff x21 x00 x00 x00)) E)
(L (W x00 x00 x80 xbf x00 x00 x80 xbf)))
(T (W x50 x00 x00 x00 x44 x00 x00 x00)
(T (W xff xff xff xff xff xff xff xff)
(L (W x39 x3e x45 xdc x00 xd7 x55 x2f)) E)
(L (W x00 x00 x00 x00 xca xcf xfe xff))))
(T (W x00 x00 x80 x3f x00 x00 x80 x3f)
(T (W x00 x00 x00 x00 x12 x00 x00 x00)
(T (W x30 x00 x34 x00 x38 x00 x3c x00)
(L (W xff xff xff xff xff xff xff xff)) E)
(L (W xcc x00 x00 x00 x01 x00 x00 x00)))
(T (W x00 x00 x00 x00 x00 x00 x00 x00)
(L (W xff xff xff xff xff xff xff xff))
(L (W x00 x00 x80 xbf x00 x00 x80 xbf)))))
(T (W xb8 x00 x00 x00 xac x00 x00 x00)
(T (W x00 x00 x80 x3f x00 x00 x80 x3f)
(T (W x00 x00 x4c x00 x50 x00 x00 x00)
(T (W xff xff xff xff xff xff xff xff)
(L (W xe2 x6e xff xff x74 x00 x00 x00)) E)
(L (W x00 x00 x00 x00 x00 x00 x00 x00)))
(T (W x50 x00 x00 x00 x44 x00 x00 x00)
(T (W x9a xf0 xfd xff x78 x00 x00 x00)
(L (W x00 x00 x18 x00 x1c x00 x20 x00)) E)
(L (W x49 xa1 x68 x4a xeb x5f xdd x3d))))
(T (W x00 x00 x00 x00 x00 x00 x00 x00)
(T (W xff xff xff xff xff xff xff xff)
(T (W x00 x00 x00 x00 x00 x00 x00 x00)
(L (W x03 x00 x00 x00 xd8 x00 x00 x00)) E)
(L (W xff xff xff xff xa0 x00 x00 x00)))
(T (W x45 x26 x22 x84 xe4 x9c xf2 xcb)
(L (W x00 x00 x00 x00 x00 x00 x00 x00))
(L (W x1d x00 x00 x00 x20 x00 x00 x00))))))
(T (W xbf x01 x00 x00 xff xff xff xff)
(T (W xff xff xff xff xff xff xff xff)
(T (W xc4 xe3 xfb xff x00 x01 x01 x01)
(T (W xff xff xff xff xff xff xff xff)
(T (W x5c x6a xfd xff x22 x00 x00 x00)
(L (W x00 x00 x80 xbf x00 x00 x80 xbf)) E)
(L (W x4f x84 x6f x8b xe8 xcb x63 xb7)))
(T (W x27 x00 x00 x00 x10 x00 x00 x00)
(T (W x00 x00 x00 x00 x00 x00 x00 x00)
(L (W x29 x00 x00 x00 x0c x00 x00 x00)) E)
(L (W x00 x00 x00 x00 x12 x00 x00 x00))))
(T (W x45 x26 x22 x84 xe4 x9c xf2 xcb)
(T (W x00 x00 x80 x3f x00 x00 x80 x3f)
(T (W x00 x00 x00 x00 x00 x00 x00 x00)
(L (W x00 x00 x00 x00 x12 x00 x00 x00)) E)
(L (W xc4 x00 x00 x00 x02 x00 x00 x00)))
(T (W x68 x00 x00 x00 x5c x00 x00 x00)
(L (W x30 x35 x5f x43 x4c x45 x41 x52))
(L (W x18 x00 x00 x00 x0c x00 x00 x00)))))
(T (W x01 x00 x00 x00 x9c x00 x00 x00)
(T (W x00 x00 x80 x3f x00 x00 x80 x3f)
(T (W xff xff xff xff xff xff xff xff)
(T (W x50 x00 x00 x00 x44 x00 x00 x00)
(L (W xff xff xff xff xa0 x00 x00 x00)) E)
(L (W x00 x00 x80 xbf x00 x00 x80 xbf)))
(T (W xff xff xff xff xff xff xff xff)
(T (W x50 x00 x00 x00 x44 x00 x00 x00)
(L (W x00 x00 x00 x00 x00 x00 x00 x00)) E)
(L (W x00 x00 x00 x00 x00 x00 x00 x00))))
(T (W x00 x00 x00 x00 x00 x00 x00 x00)
(T (W x00 x00 x00 x00 x01 x00 x00 x00)
(T (W x9a xc0 xfd xff x78 x00 x00 x00)
(L (W xff xff xff xff xff xff xff xff)) E)
(L (W x45 x26 x22 x84 xe4 x9c xf2 xcb)))
(T (W x00 x00 x80 x3f x00 x00 x80 x3f)
(L (W x00 x00 x00 x00 x00 x00 x00 x00))
(L (W xcc x00 x00 x00 x02 x00 x00 x00)))))))))))
(T (W x30 x8d x02 x00 xfc x6f x02 x00)
(T (W x58 xe6 x01 x00 xa4 xe1 x01 x00)
(T (W x30 x9c x00 x00 xe4 x99 x00 x00)
(T (W x01 x00 x00 x00 x9c x00 x00 x00)
(T (W x45 x26 x22 x84 xe4 x9c xf2 xcb)
(T (W x45 x26 x22 x84 xe4 x9c xf2 xcb)
(T (W xbc x00 x00 x00 xb0 x00 x00 x00)
(T (W x00 x00 x00 x00 x00 x00 x00 x00)
(T (W xb8 x00 x00 x00 xac x00 x00 x00)
(T (W x00 x00 x00 x00 x00 x00 x00 x00)
(L (W x00 x00 x80 xbf x00 x00 x80 xbf)) E)
(L (W x04 x00 x00 x00 x2a x46 xfe xff)))
(T (W xff xff xff xff xbc x00 x00 x00)
(T (W x00 x00 x00 x00 x00 x00 x00 x00)
(L (W x1a xc2 xff xff x78 x00 x00 x00)) E)
(L (W x00 x00 x80 xbf x00 x00 x80 xbf))))
(T (W x01 x00 x00 x00 x04 x00 x00 x00)
(T (W x44 x85 xfc xff x00 x01 x01 x01)
(T (W x00 x00 x00 x00 x00 x00 x00 x00)
(L (W x49 xa1 x68 x4a xeb x5f xdd x3d)) E)
(L (W x00 x00 x00 x00 x00 x00 x00 x00)))
(T (W x00 x00 x80 x3f x00 x00 x80 x3f)
(T (W x4f x84 x6f x8b xe8 xcb x63 xb7)
(L (W x00 x00 x80 xbf x00 x00 x80 xbf)) E)
(L (W xff xff xff xff xff xff xff xff)))))
(T (W x00 x00 x80 x3f x00 x00 x80 x3f)
(T (W x00 x00 x00 x00 x00 x00 x00 x00)
(T (W xc0 x00 x00 x00 xb4 x00 x00 x00)
(T (W xb8 x00 x00 x00 xac x00 x00 x00)
(L (W x00 x00 x00 x00 x00 x00 x00 x00)) E)
(L (W xff xff xff xff xff xff xff xff)))
(T (W xff xff xff xff xff xff xff xff)
(T (W x73 x02 x00 x00 xff xff xff xff)
(L (W x00 x00 x48 x00 x4c x00 x00 x00)) E)
(L (W xff xff xff xff xff xff xff xff))))
(T (W x20 x01 x00 x00 x04 x00 x00 x00)
(T (W x00 x00 x00 x00 x00 x00 x00 x00)
(T (W x00 x00 x00 x00 x01 x00 x00 x00)
(L (W xff xff xff xff xff xff xff xff)) E)
(L (W x00 x00 x80 xbf x00 x00 x80 xbf)))
(T (W x00 x00 x00 x00 x00 x00 x00 x00)
(L (W xbc x00 x00 x00 x02 x00 x00 x00))
(L (W x00 x00 x80 xbf x00 x00 x80 xbf))))))
(T (W xff xff xff xff xff xff xff xff)
(T (W x50 x00 x00 x00 x44 x00 x00 x00)
(T (W x00 x00 x80 x3f x00 x00 x80 x3f)
(T (W x01 x00 x00 x00 x9c x00 x00 x00)
(T (W xff xff xff xff xff xff xff xff)
(L (W xff xff xff xff xff xff xff xff)) E)
(L (W xff xff xff xff xff xff xff xff)))
(T (W x00 x00 x00 x00 x00 x00 x00 x00)
(T (W x68 x00 x00 x00 x5c x00 x00 x00)
(L (W xff xff xff xff xff xff xff xff)) E)
(L (W x18 x00 x00 x00 x0c x00 x00 x00))))
(T (W x1a x83 xfe xff x00 x00 x01 x01)
(T (W xff xff xff xff xff xff xff xff)
(T (W x06 x00 x00 x00 x20 x00 x24 x00)
(L (W x03 x00 x00 x00 xd8 x00 x00 x00)) E)
(L (W x00 x00 x80 xbf x00 x00 x80 xbf)))
(T (W xff xff xff xff xff xff xff xff)
(L (W x44 x15 xfe xff x00 x01 x01 x01))
(L (W x00 x00 x00 x00 x00 x00 x00 x00)))))
(T (W x00 x00 x80 x3f x00 x00 x80 x3f)
(T (W x00 x00 x00 x00 x00 x00 x00 x00)
(T (W x18 x00 x1c x00 x00 x00 x00 x00)
(T (W x00 x00 x80 x3f x00 x00 x80 x3f)
(L (W x00 x00 x80 xbf x00 x00 x80 xbf)) E)
(L (W x54 x02 x00 x00 x38 x01 x00 x00)))
(T (W x00 x00 x00 x00 x00 x00 x00 x00)
(T (W x00 x00 x00 x00 x00 x00 x00 x00)
(L (W x00 x00 x00 x00 x00 x00 x00 x00)) E)
(L (W x4c x49 xbb x28 xbf xd0 x6a x6a))))
(T (W xff xff xff xff xff xff xff xff)
(T (W x00 x00 x80 x3f x00 x00 x80 x3f)
(T (W xff xff xff xff xff xff xff xff)
(L (W x00 x00 x80 x3f x00 x00 x80 x3f)) E)
(L (W x49 xa1 x68 x4a xeb x5f xdd x3d)))
(T (W x00 x00 x80 x3f x00 x00 x80 x3f)
(L (W x04 x00 x00 x00 xaa x3b xfe xff))
(L (W x00 x00 x80 xbf x00 x00 x80 xbf)))))))
(T (W x44 x5d xfb xff x00 x01 x01 x01)
(T (W xff xff xff xff xff xff xff xff)
(T (W x44 x8d xfb xff x00 x01 x01 x01)
(T (W x45 x26 x22 x84 xe4 x9c xf2 xcb)
(T (W x45 x26 x22 x84 xe4 x9c xf2 xcb)
(T (W xdc x53 xfd xff x1e x00 x00 x00)
(L (W x45 x26 x22 x84 xe4 x9c xf2 xcb)) E)
(L (W x5d x00 x00 x00 xff xff xff xff)))
(T (W x00 x00 x00 x00 x01 x00 x00 x00)
(T (W x00 x00 x80 x3f x00 x00 x80 x3f)
(L (W xc4 x00 x00 x00 x02 x00 x00 x00)) E)
(L (W x00 x00 x80 xbf x00 x00 x80 xbf))))
(T (W xff xff xff xff xff xff xff xff)
(T (W xb0 x00 x00 x00 x64 x00 x00 x00)
(T (W x00 x00 x00 x00 x00 x00 x00 x00)
(L (W x00 x00 x80 xbf x00 x00 x80 xbf)) E)
(L (W x00 x00 x80 xbf x00 x00 x80 xbf)))
(T (W xff xff xff xff xac x00 x00 x00)
(L (W x00 x00 x80 xbf x00 x00 x80 xbf))
(L (W x30 x35 x5f x43 x4c x45 x41 x52)))))
(T (W x50 x00 x00 x00 x44 x00 x00 x00)
(T (W x00 x00 x00 x00 x00 x00 x00 x00)
(T (W xff xff xff xff xff xff xff xff)
(T (W x01 x00 x00 x00 x9c x00 x00 x00)
(L (W x00 x00 x00 x00 x00 x00 x00 x00)) E)
(L (W x30 x35 x5f x43 x4c x45 x41 x52)))
(T (W xff xff xff xff x02 x00 x00 x00)
(T (W x00 x00 x00 x00 x00 x00 x00 x00)
(L (W x00 x00 x00 x00 x00 x00 x00 x00)) E)
(L (W x00 x00 x00 x00 x00 x00 x00 x00))))
(T (W xff xff xff xff xff xff xff xff)
(T (W x00 x00 x80 x3f x00 x00 x80 x3f)
(T (W x00 x00 x80 x3f x00 x00 x80 x3f)
(L (W x00 x00 x00 x00 x00 x00 x00 x00)) E)
(L (W xff xff xff xff xff xff xff xff)))
(T (W x00 x00 x80 x3f x00 x00 x80 x3f)
(L (W xd0 x00 x00 x00 x64 x00 x00 x00))
(L (W x00 x00 x80 xbf x00 x00 x80 xbf))))))
(T (W x64 x00 x00 x00 x9c x00 x00 x00)
(T (W x00 x00 x80 x3f x00 x00 x80 x3f)
(T (W x00 x00 x80 x3f x00 x00 x80 x3f)
(T (W x0a x00 x00 x00 x3e x00 x00 x00)
(T (W xff xff xff xff xff xff xff xff)
(L (W xff xff xff xff xff xff xff xff)) E)
(L (W xff xff xff xff xff xff xff xff)))
(T (W x50 x00 x00 x00 x44 x00 x00 x00)
(T (W xff xff xff xff xff xff xff xff)
(L (W x45 x26 x22 x84 xe4 x9c xf2 xcb)) E)
(L (W xb8 x00 x00 x00 x64 x00 x00 x00))))
(T (W x00 x00 x00 x00 x00 x00 x00 x00)
(T (W x45 x44 x00 x00 x00 x00 x00 x00)
(T (W x00 x00 x00 x00 x00 x00 x00 x00)
(L (W xff xff xff xff xc8 x00 x00 x00)) E)
(L (W x45 x26 x22 x84 xe4 x9c xf2 xcb)))
(T (W x00 x00 x00 x00 x04 x00 x00 x00)
(L (W xff xff xff xff xff xff xff xff))
(L (W x00 x00 x80 xbf x00 x00 x80 xbf)))))
(T (W x00 x00 x80 x3f x00 x00 x80 x3f)
(T (W xac x00 xfc xff x1b x00 x00 x00)
(T (W x00 x00 x80 x3f x00 x00 x80 x3f)
(T (W x00 x00 x00 x00 x00 x00 x00 x00)
(L (W x00 x00 x00 x00 x00 x00 x00 x00)) E)
(L (W x00 x00 x00 x00 x12 x00 x00 x00)))
(T (W x00 x00 x80 x3f x00 x00 x80 x3f)
(T (W x1d x00 x00 x00 x10 x00 x00 x00)
(L (W x18 x00 x00 x00 x0c x00 x00 x00)) E)
(L (W xff xff xff xff xff xff xff xff))))
(T (W xff xff xff xff xff xff xff xff)
(T (W x1a xba xfc xff x78 x00 x00 x00)
(T (W x00 x00 x00 x00 x12 x00 x00 x00)
(L (W x00 x00 x80 xbf x00 x00 x80 xbf)) E)
(L (W x00 x00 x80 xbf x00 x00 x80 xbf)))
(T (W x00 x00 x00 x00 x00 x00 x00 x00)
(L (W x00 x00 x00 x00 x00 x00 x00 x00))
(L (W x00 x00 x80 xbf x00 x00 x80 xbf))))))))
(T (W x00 x00 x00 x00 x00 x00 x00 x00)
(T (W x00 x00 x00 x00 x00 x00 x00 x00)
(T (W x45 x26 x22 x84 xe4 x9c xf2 xcb)
(T (W x00 x00 x00 x00 x00 x00 x00 x00)
(T (W xff xff xff xff xff xff xff xff)
(T (W x00 x00 x00 x00 x00 x00 x00 x00)
(T (W x01 x00 x00 x00 x9c x00 x00 x00)
(L (W xff xff xff xff xff xff xff xff)) E)
(L (W x45 x26 x22 x84 xe4 x9c xf2 xcb)))
(T (W x00 x00 x80 x3f x00 x00 x80 x3f)
(T (W xb4 x00 x00 x00 x64 x00 x00 x00)
(L (W x00 x00 x00 x00 x00 x00 x00 x00)) E)
(L (W xff xff xff xff xff xff xff xff))))
(T (W x68 x00 x00 x00 x5c x00 x00 x00)
(T (W x00 x00 x00 x00 x00 x00 x00 x00)
(T (W xff xff xff xff xff xff xff xff)
(L (W xff xff xff xff xff xff xff xff)) E)
(L (W xb0 x00 x00 x00 x14 x00 x00 x00)))
(T (W x00 x00 x00 x00 x00 x00 x00 x00)
(L (W xff xff xff xff xff xff xff xff))
(L (W x00 x00 x80 xbf x00 x00 x80 xbf)))))
(T (W x00 x00 x00 x00 x02 x00 x00 x00)
(T (W x00 x00 x00 x00 xb4 xe7 xfb xff)
(T (W xcd xaf x1e xc1 x86 xfb x93 x14)
(T (W x00 x00 x00 x00 x00 x00 x00 x00)
(L (W x18 x00 x00 x00 x0c x00 x00 x00)) E)
(L (W x6c x00 x00 x00 x60 x00 x00 x00)))
(T (W x00 x00 x80 x3f x00 x00 x80 x3f)
(T (W x18 x00 x00 x00 x0c x00 x00 x00)
(L (W x00 x00 x80 xbf x00 x00 x80 xbf)) E)
(L (W x00 x00 x80 xbf x00 x00 x80 xbf))))
(T (W x45 x26 x22 x84 xe4 x9c xf2 xcb)
(T (W xff xff xff xff x9c x00 x00 x00)
(T (W x03 x00 x00 x00 xcc x00 x00 x00)
(L (W x00 x00 x00 x00 x00 x00 x00 x00)) E)
(L (W xff xff xff xff xff xff xff xff)))
(T (W xff xff xff xff xff xff xff xff)
(L (W x00 x00 x00 x00 x00 x00 x00 x00))
(L (W xff xff xff xff xff xff xff xff))))))
(T (W x00 x00 x00 x00 x00 x00 x00 x00)
(T (W xdc x9f xfb xff x23 x00 x00 x00)
(T (W xff xff xff xff xff xff xff xff)
(T (W x00 x00 x00 x00 x00 x00 x00 x00)
(T (W x00 x00 x80 x3f x00 x00 x80 x3f)
(L (W x00 x00 x80 xbf x00 x00 x80 xbf)) E)
(L (W x45 x26 x22 x84 xe4 x9c xf2 xcb)))
(T (W xff xff xff xff xff xff xff xff)
(T (W x00 x00 x00 x00 x00 x00 x00 x00)
(L (W x00 x00 x00 x00 x12 x00 x00 x00)) E)
(L (W x45 x26 x22 x84 xe4 x9c xf2 xcb))))
(T (W x00 x00 x80 x3f x00 x00 x80 x3f)
(T (W x54 x00 x00 x00 x48 x00 x00 x00)
(T (W x68 x00 x00 x00 x5c x00 x00 x00)
(L (W x00 x00 x00 x00 x00 x00 x00 x00)) E)
(L (W x00 x00 x00 x00 x4a x95 xfe xff)))
(T (W x50 x00 x00 x00 x44 x00 x00 x00)
(L (W x00 x00 x00 x00 x00 x00 x00 x00))
(L (W xff xff xff xff xff xff xff xff)))))
(T (W x62 x49 xff xff x90 x01 x00 x00)
(T (W x1d x00 x00 x00 x9c x00 x00 x00)
(T (W x00 x00 x01 x01 xbb x01 x00 x00)
(T (W xff xff xff xff x03 x00 x00 x00)
(L (W xff xff xff xff xff xff xff xff)) E)
(L (W x50 x00 x00 x00 x44 x00 x00 x00)))
(T (W xff xff xff xff xff xff xff xff)
(T (W x44 xf9 xfd xff x00 x01 x01 x01)
(L (W x00 x00 x00 x00 x00 x00 x00 x00)) E)
(L (W x00 x00 x80 xbf x00 x00 x80 xbf))))
(T (W x00 x00 x80 x3f x00 x00 x80 x3f)
(T (W x00 x00 x00 x00 x00 x00 x00 x00)
(T (W x67 x72 x6f x75 x70 x5f x77 x69)
(L (W xa9 x01 x00 x00 xff xff xff xff)) E)
(L (W xc4 x00 x00 x00 x02 x00 x00 x00)))
(T (W xff xff xff xff xff xff xff xff)
(L (W x68 x00 x00 x00 x5c x00 x00 x00))
(L (W xff xff xff xff xff xff xff xff)))))))
(T (W x00 x00 x00 x00 x00 x00 x00 x00)
(T (W x00 x00 x00 x00 x00 x00 x00 x00)
(T (W x00 x00 x00 x00 x00 x00 x00 x00)
(T (W xff xff xff xff xff xff xff xff)
(T (W x00 x00 x00 x00 x00 x00 x00 x00)
(T (W x00 x00 x80 x3f x00 x00 x80 x3f)
(L (W x00 x00 x00 x00 x00 x00 x00 x00)) E)
(L (W x00 x00 x80 xbf x00 x00 x80 xbf)))
(T (W x45 x26 x22 x84 xe4 x9c xf2 xcb)
(T (W x00 x00 x01 x01 x7d x00 x00 x00)
(L (W x00 x00 x00 x00 x00 x00 x00 x00)) E)
(L (W x00 x00 x00 x00 x00 x00 x00 x00))))
(T (W x1a x0e xfc xff x78 x00 x00 x00)
(T (W x00 x00 x80 x3f x00 x00 x80 x3f)
(T (W xb8 x00 x00 x00 xac x00 x00 x00)
(L (W x00 x00 x00 x00 x22 x96 xff xff)) E)
(L (W xff xff xff xff xff xff xff xff)))
(T (W x45 x26 x22 x84 xe4 x9c xf2 xcb)
(L (W x00 x00 x00 x00 x22 x16 xfe xff))
(L (W x6c x00 x00 x00 x60 x00 x00 x00)))))
(T (W xa1 x01 x00 x00 xff xff xff xff)
(T (W x18 x00 x00 x00 x0c x00 x00 x00)
(T (W x00 x00 x00 x00 x00 x00 x00 x00)
(T (W xdc x77 xfd xff x30 x00 x00 x00)
(L (W xff xff xff xff xff xff xff xff)) E)
(L (W x00 x00 x80 xbf x00 x00 x80 xbf)))
(T (W x62 xec xfc xff x74 x00 x00 x00)
(T (W x00 x00 x00 x00 xb4 xef xfd xff)
(L (W xff xff xff xff xff xff xff xff)) E)
(L (W x00 x00 x80 xbf x00 x00 x80 xbf))))
(T (W x00 x00 x80 x3f x00 x00 x80 x3f)
(T (W xff xff xff xff xff xff xff xff)
(T (W x00 x00 x00 x00 x00 x00 x00 x00)
(L (W x00 x00 x01 x01 x5c x00 x00 x00)) E)
(L (W xff xff xff xff xbc x00 x00 x00)))
(T (W xff xff xff xff xff xff xff xff)
(L (W x00 x00 x80 xbf x00 x00 x80 xbf))
(L (W xff xff xff xff xff xff xff xff))))))
(T (W x00 x00 x00 x00 x00 x00 x00 x00)
(T (W x00 x00 x00 x00 x00 x00 x00 x00)
(T (W x64 x00 x00 x00 x9c x00 x00 x00)
(T (W x00 x00 x00 x00 x00 x00 x00 x00)
(T (W x00 x00 x00 x00 x00 x00 x00 x00)
(L (W x00 x00 x00 x00 xb4 x5f xff xff)) E)
(L (W x45 x26 x22 x84 xe4 x9c xf2 xcb)))
(T (W x00 x00 x00 x00 x00 x00 x00 x00)
(T (W x00 x00 x80 xbf x00 x00 x80 xbf)
(L (W x00 x00 x00 x00 x00 x00 x00 x00)) E)
(L (W x00 x00 x80 xbf x00 x00 x80 xbf))))
(T (W x00 x00 x80 x3f x00 x00 x80 x3f)
(T (W x18 x00 x00 x00 x0c x00 x00 x00)
(T (W x00 x00 x00 x00 x00 x00 x00 x00)
(L (W x00 x00 x00 x00 x00 x00 x00 x00)) E)
(L (W xff xff xff xff xff xff xff xff)))
(T (W x62 x1c xfd xff x74 x00 x00 x00)
(L (W x00 x00 x00 x00 x00 x00 x00 x00))
(L (W xc4 x00 x00 x00 x02 x00 x00 x00)))))
(T (W xda x52 xff xff x00 x00 x01 x01)
(T (W x01 x00 x00 x00 x3c x00 x00 x00)
(T (W x00 x00 x00 x00 x00 x00 x00 x00)
(T (W x68 x00 x00 x00 x5c x00 x00 x00)
(L (W xff xff xff xff xff xff xff xff)) E)
(L (W xff xff xff xff xb0 x00 x00 x00)))
(T (W x9d x01 x00 x00 xff xff xff xff)
(T (W x45 x26 x22 x84 xe4 x9c xf2 xcb)
(L (W xff xff xff xff xff xff xff xff)) E)
(L (W x49 xa1 x68 x4a xeb x5f xdd x3d))))
(T (W x00 x00 x80 x3f x00 x00 x80 x3f)
(T (W x00 x00 x00 x00 x00 x00 x00 x00)
(T (W x03 x00 x00 x00 xd8 x00 x00 x00)
(L (W xe4 x06 x00 x00 xc8 x05 x00 x00)) E)
(L (W xff xff xff xff xff xff xff xff)))
(T (W xb8 x00 x00 x00 xac x00 x00 x00)
(L (W x6c x00 x00 x00 x60 x00 x00 x00))
(L (W xff xff xff xff xff xff xff xff)))))))))
(T (W x45 x26 x22 x84 xe4 x9c xf2 xcb)
(T (W xff xff xff xff x01 x00 x00 x00)
(T (W xff xff xff xff xff xff xff xff)
(T (W x1a xd5 xfd xff x00 x00 x01 x01)
(T (W xda x18 xff xff x00 x00 x01 x01)
(T (W x44 xc7 xfb xff x00 x01 x01 x01)
(T (W x04 x89 x7a x05 x59 x90 x58 x03)
(T (W x00 x00 x80 x3f x00 x00 x80 x3f)
(L (W xff xff xff xff xff xff xff xff)) E)
(L (W x00 x00 x00 x00 x00 x00 x00 x00)))
(T (W x27 x00 x00 x00 x10 x00 x00 x00)
(T (W x54 x00 x00 x00 x48 x00 x00 x00)
(L (W xff xff xff xff xff xff xff xff)) E)
(L (W xc4 x00 x00 x00 x02 x00 x00 x00))))
(T (W x45 x26 x22 x84 xe4 x9c xf2 xcb)
(T (W xff xff xff xff xff xff xff xff)
(T (W x00 x00 x80 x3f x00 x00 x80 x3f)
(L (W x31 x00 x00 x00 x34 x00 x00 x00)) E)
(L (W x54 x00 x00 x00 x48 x00 x00 x00)))
(T (W xff xff xff xff xff xff xff xff)
(L (W x18 x00 x00 x00 x0c x00 x00 x00))
(L (W x00 x00 x00 x00 x00 x00 x00 x00)))))
(T (W x64 x00 x00 x00 x9c x00 x00 x00)
(T (W x50 x00 x00 x00 x44 x00 x00 x00)
(T (W xff xff xff xff xff xff xff xff)
(T (W xff xff xff xff xff xff xff xff)
(L (W x00 x00 x80 xbf x00 x00 x80 xbf)) E)
(L (W x00 x00 x00 x00 x00 x00 x00 x00)))
(T (W x00 x00 x00 x00 x00 x00 x00 x00)
(T (W x00 x00 x80 xbf x00 x00 x80 xbf)
(L (W x00 x00 x00 x00 x00 x00 x00 x00)) E)
(L (W x00 x00 x00 x00 x00 x00 x00 x00))))
(T (W x00 x00 x00 x00 x00 x00 x00 x00)
(T (W x00 x00 x80 x3f x00 x00 x80 x3f)
(T (W x00 x00 x80 xbf x00 x00 x80 xbf)
(L (W x00 x00 x01 x01 x71 x00 x00 x00)) E)
(L (W xbc x00 x00 x00 x64 x00 x00 x00)))
(T (W x54 x00 x00 x00 x48 x00 x00 x00)
(L (W xff xff xff xff xff xff xff xff))
(L (W x00 x00 x00 x00 xb4 x25 xff xff))))))
(T (W xf5 x01 x00 x00 xff xff xff xff)
(T (W xff xff xff xff xff xff xff xff)
(T (W x00 x00 x80 x3f x00 x00 x80 x3f)
(T (W xff xff xff xff xff xff xff xff)
(T (W x00 x00 x00 x00 x00 x00 x00 x00)
(L (W x30 x35 x5f x43 x4c x45 x41 x52)) E)
(L (W x00 x00 x00 x00 x00 x00 x00 x00)))
(T (W x62 xd2 xfc xff x74 x00 x00 x00)
(T (W xff xff xff xff xff xff xff xff)
(L (W x00 x00 x00 x00 x3a xf2 xff xff)) E)
(L (W x04 x00 x00 x00 x12 xd5 xfe xff))))
(T (W x00 x00 x00 x00 x00 x00 x00 x00)
(T (W x00 x00 x00 x00 x00 x00 x00 x00)
(T (W x54 x00 x58 x00 x5c x00 x00 x00)
(L (W x00 x00 x01 x01 x63 x01 x00 x00)) E)
(L (W x45 x26 x22 x84 xe4 x9c xf2 xcb)))
(T (W x5f x4e x53 x5f x30 x35 x5f x43)
(L (W xff xff xff xff xff xff xff xff))
(L (W x1a x14 xff xff x78 x00 x00 x00)))))
(T (W x64 x00 x00 x00 x9c x00 x00 x00)
(T (W x00 x00 x80 x3f x00 x00 x80 x3f)
(T (W x45 x26 x22 x84 xe4 x9c xf2 xcb)
(T (W x00 x00 x00 x00 x00 x00 x00 x00)
(L (W x6c x00 x00 x00 x60 x00 x00 x00)) E)
(L (W x45 x26 x22 x84 xe4 x9c xf2 xcb)))
(T (W x00 x00 x80 x3f x00 x00 x80 x3f)
(T (W x00 x00 x80 xbf x00 x00 x80 xbf)
(L (W xff xff xff xff xff xff xff xff)) E)
(L (W x00 x00 x00 x00 x00 x00 x00 x00))))
(T (W x00 x00 x00 x00 x00 x00 x00 x00)
(T (W xff xff xff xff x9c x00 x00 x00)
(T (W x1a xb4 xfd xff x78 x00 x00 x00)
(L (W xff xff xff xff xff xff xff xff)) E)
(L (W x54 x00 x00 x00 x48 x00 x00 x00)))
(T (W x44 x37 xfd xff x00 x01 x01 x01)
(L (W x00 x00 x00 x00 x00 x00 x00 x00))
(L (W xff xff xff xff xff xff xff xff)))))))
(T (W x00 x00 x01 x01 x3b x02 x00 x00)
(T (W xff xff xff xff xff xff xff xff)
(T (W xff xff xff xff xff xff xff xff)
(T (W x50 x00 x00 x00 x44 x00 x00 x00)
(T (W x42 x00 x00 x00 xff xff xff xff)
(T (W x00 x00 x00 x00 x00 x00 x00 x00)
(L (W xff xff xff xff xff xff xff xff)) E)
(L (W x00 x00 x00 x00 x00 x00 x00 x00)))
(T (W x45 x26 x22 x84 xe4 x9c xf2 xcb)
(T (W x03 x00 x00 x00 xd8 x00 x00 x00)
(L (W xff xff xff xff xff xff xff xff)) E)
(L (W xff xff xff xff xff xff xff xff))))
(T (W x00 x00 x00 x00 x00 x00 x00 x00)
(T (W x00 x00 x00 x00 x00 x00 x00 x00)
(T (W x00 x00 x80 x3f x00 x00 x80 x3f)
(L (W xff xff xff xff xff xff xff xff)) E)
(L (W x1a x8c xfe xff x78 x00 x00 x00)))
(T (W x38 x01 x00 x00 x04 x00 x00 x00)
(L (W xff xff xff xff x9c x00 x00 x00))
(L (W x49 xa1 x68 x4a xeb x5f xdd x3d)))))
(T (W x00 x00 x00 x00 xb4 xad xfb xff)
(T (W x68 x00 x00 x00 x5c x00 x00 x00)
(T (W x44 x6f xfc xff x00 x01 x01 x01)
(T (W xff xff xff xff xff xff xff xff)
(L (W x00 x00 x80 xbf x00 x00 x80 xbf)) E)
(L (W x00 x00 x00 x00 x00 x00 x00 x00)))
(T (W x00 x00 x80 x3f x00 x00 x80 x3f)
(T (W x00 x00 x80 xbf x00 x00 x80 xbf)
(L (W x00 x00 x80 xbf x00 x00 x80 xbf)) E)
(L (W x00 x00 x00 x00 x00 x00 x00 x00))))
(T (W x00 x00 x00 x00 x00 x00 x00 x00)
(T (W x1a xac xfc xff x78 x00 x00 x00)
(T (W xff xff xff xff xff xff xff xff)
(L (W x03 x00 x00 x00 xd8 x00 x00 x00)) E)
(L (W x00 x00 x80 xbf x00 x00 x80 xbf)))
(T (W x00 x00 x00 x00 xb4 x2d xfd xff)
(L (W x46 x53 x59 x53 x5f x4e x53 x5f))
(L (W xff xff xff xff xb0 x00 x00 x00))))))
(T (W x62 x0f xff xff xcc x01 x00 x00)
(T (W xff xff xff xff xff xff xff xff)
(T (W x00 x00 x80 x3f x00 x00 x80 x3f)
(T (W xff xff xff xff xff xff xff xff)
(T (W xdc x65 xfd xff x40 x00 x00 x00)
(L (W x00 x00 x00 x00 x00 x00 x00 x00)) E)
(L (W x00 x00 x00 x00 x00 x00 x00 x00)))
(T (W xff xff xff xff xff xff xff xff)
(T (W xcb x66 xca xc9 x03 x8d xa3 xbc)
(L (W xff xff xff xff xff xff xff xff)) E)
(L (W x00 x00 x00 x00 x12 x00 x00 x00))))
(T (W x00 x00 x00 x00 x00 x00 x00 x00)
(T (W x4f x84 x6f x8b xe8 xcb x63 xb7)
(T (W xff xff xff xff xff xff xff xff)
(L (W x00 x00 x00 x00 x4a x9b xff xff)) E)
(L (W xff xff xff xff xff xff xff xff)))
(T (W x00 x00 x80 x3f x00 x00 x80 x3f)
(L (W x00 x00 x00 x00 x22 x24 xfe xff))
(L (W x00 x01 x01 x01 x9a x2b xff xff)))))
(T (W xbc x00 x00 x00 xb0 x00 x00 x00)
(T (W x00 x00 x80 x3f x00 x00 x80 x3f)
(T (W x26 x00 x00 x00 x29 x00 x00 x00)
(T (W x45 x26 x22 x84 xe4 x9c xf2 xcb)
(L (W x00 x00 x00 x00 xb4 x7d xff xff)) E)
(L (W x00 x00 x80 xbf x00 x00 x80 xbf)))
(T (W x45 x26 x22 x84 xe4 x9c xf2 xcb)
(T (W x00 x00 x80 xbf x00 x00 x80 xbf)
(L (W x2c x00 x30 x00 x34 x00 x38 x00)) E)
(L (W x00 x00 x00 x00 x00 x00 x00 x00))))
(T (W x00 x00 x00 x00 x00 x00 x00 x00)
(T (W xff xff xff xff xff xff xff xff)
(T (W x6c x00 x00 x00 x60 x00 x00 x00)
(L (W xc4 x00 x00 x00 x02 x00 x00 x00)) E)
(L (W x1a xbc xfe xff x78 x00 x00 x00)))
(T (W x00 x00 x80 x3f x00 x00 x80 x3f)
(L (W x00 x00 x00 x00 x00 x00 x00 x00))
(L (W xc4 x00 x00 x00 x02 x00 x00 x00))))))))
(T (W x00 x00 x00 x00 x00 x00 x00 x00)
(T (W x00 x00 x80 x3f x00 x00 x80 x3f)
(T (W x06 x00 x07 x00 x00 x00 x00 x00)
(T (W x00 x00 x00 x00 x00 x00 x00 x00)
(T (W x00 x00 x00 x00 x00 x00 x00 x00)
(T (W x68 x00 x00 x00 x5c x00 x00 x00)
(T (W xff xff xff xff xff xff xff xff)
(L (W x00 x00 x00 x00 x00 x00 x00 x00)) E)
(L (W x62 x46 xfe xff x74 x00 x00 x00)))
(T (W xff xff xff xff x9c x00 x00 x00)
(T (W xff xff xff xff xff xff xff xff)
(L (W x00 x00 x80 xbf x00 x00 x80 xbf)) E)
(L (W x00 x00 x00 x00 x00 x00 x00 x00))))
(T (W xff xff xff xff xff xff xff xff)
(T (W x00 x00 x80 x3f x00 x00 x80 x3f)
(T (W xdc x91 xfd xff x3f x00 x00 x00)
(L (W x00 x00 x00 x00 x00 x00 x00 x00)) E)
(L (W xff xff xff xff xff xff xff xff)))
(T (W x00 x00 x80 x3f x00 x00 x80 x3f)
(L (W x00 x00 x00 x00 x00 x00 x00 x00))
(L (W xb0 x00 x00 x00 x64 x00 x00 x00)))))
(T (W x00 x00 x00 x00 x00 x00 x00 x00)
(T (W xff xff xff xff xff xff xff xff)
(T (W x45 x26 x22 x84 xe4 x9c xf2 xcb)
(T (W x00 x00 x80 x3f x00 x00 x80 x3f)
(L (W xff xff xff xff xff xff xff xff)) E)
(L (W xff xff xff xff xbc x00 x00 x00)))
(T (W xff xff xff xff xc4 x00 x00 x00)
(T (W xff xff xff xff xff xff xff xff)
(L (W xff xff xff xff xff xff xff xff)) E)
(L (W x45 x26 x22 x84 xe4 x9c xf2 xcb))))
(T (W x45 x26 x22 x84 xe4 x9c xf2 xcb)
(T (W x00 x00 x00 x00 x22 xb0 xfc xff)
(T (W x00 x00 x00 x00 x00 x00 x00 x00)
(L (W x00 x00 x80 xbf x00 x00 x80 xbf)) E)
(L (W x49 xa1 x68 x4a xeb x5f xdd x3d)))
(T (W x00 x00 x00 x00 x00 x00 x00 x00)
(L (W x00 x00 x80 xbf x00 x00 x80 xbf))
(L (W x00 x00 x00 x00 x00 x00 x00 x00))))))
(T (W x00 x00 x80 x3f x00 x00 x80 x3f)
(T (W x00 x00 x80 x3f x00 x00 x80 x3f)
(T (W x00 x00 x00 x00 x00 x00 x00 x00)
(T (W x00 x00 x80 x3f x00 x00 x80 x3f)
(T (W x01 x00 x00 x00 x9c x00 x00 x00)
(L (W xc4 x00 x00 x00 x02 x00 x00 x00)) E)
(L (W x45 x26 x22 x84 xe4 x9c xf2 xcb)))
(T (W x00 x00 x00 x00 x00 x00 x00 x00)
(T (W x00 x00 x80 x3f x00 x00 x80 xbf)
(L (W x00 x00 x80 xbf x00 x00 x80 xbf)) E)
(L (W x00 x00 x80 xbf x00 x00 x80 xbf))))
(T (W xb8 x00 x00 x00 xac x00 x00 x00)
(T (W xb0 x00 x00 x00 x64 x00 x00 x00)
(T (W xff xff xff xff xff xff xff xff)
(L (W x54 x00 x00 x00 x48 x00 x00 x00)) E)
(L (W x00 x00 x00 x00 x00 x00 x00 x00)))
(T (W x03 x00 x00 x00 xcc x00 x00 x00)
(L (W x00 x00 x80 xbf x00 x00 x80 xbf))
(L (W x00 x00 x00 x00 x4a x17 xff xff)))))
(T (W x00 x00 x00 x00 x00 x00 x00 x00)
(T (W xff xff xff xff xff xff xff xff)
(T (W x00 x00 x00 x00 x00 x00 x00 x00)
(T (W xc8 x00 x00 x00 xff xff xff xff)
(L (W x00 x00 x01 x01 x6a x01 x00 x00)) E)
(L (W xff xff xff xff xff xff xff xff)))
(T (W x00 x00 x00 x00 x00 x00 x00 x00)
(T (W xff xff xff xff xff xff xff xff)
(L (W x18 x00 x1c x00 x20 x00 x24 x00)) E)
(L (W xff xff xff xff xb0 x00 x00 x00))))
(T (W x00 x00 x80 x3f x00 x00 x80 x3f)
(T (W x00 x00 x00 x00 x00 x00 x00 x00)
(T (W xff xff xff xff xe0 x00 x00 x00)
(L (W x46 x53 x59 x53 x5f x4e x53 x5f)) E)
(L (W xe4 x06 x00 x00 xc8 x05 x00 x00)))
(T (W x41 x00 x00 x00 x0c x00 x00 x00)
(L (W xff xff xff xff xff xff xff xff))
(L (W x45 x44 x00 x00 x00 x00 x00 x00)))))))
(T (W x00 x00 x80 x3f x00 x00 x80 x3f)
(T (W x6c x00 x00 x00 x60 x00 x00 x00)
(T (W x45 x26 x22 x84 xe4 x9c xf2 xcb)
(T (W xdc xd9 xfb xff x3c x00 x00 x00)
(T (W x62 x4e xfc xff x74 x00 x00 x00)
(T (W xb8 x00 x00 x00 xac x00 x00 x00)
(L (W x00 x00 x80 xbf x00 x00 x80 xbf)) E)
(L (W xff xff xff xff xff xff xff xff)))
(T (W xcb x01 x00 x00 xff xff xff xff)
(T (W x00 x00 x00 x00 x00 x00 x00 x00)
(L (W x00 x00 x80 xbf x00 x00 x80 xbf)) E)
(L (W x00 x00 x80 xbf x00 x00 x80 xbf))))
(T (W xff xff xff xff xff xff xff xff)
(T (W x44 x93 xfc xff x00 x01 x01 x01)
(T (W x00 x00 x80 x3f x00 x00 x80 x3f)
(L (W x4f x84 x6f x8b xe8 xcb x63 xb7)) E)
(L (W xac x96 xfe xff x10 x00 x00 x00)))
(T (W x50 x00 x00 x00 x44 x00 x00 x00)
(L (W x4f x84 x6f x8b xe8 xcb x63 xb7))
(L (W xff xff xff xff xff xff xff xff)))))
(T (W x00 x00 x00 x00 x00 x00 x00 x00)
(T (W xff xff xff xff xff xff xff xff)
(T (W x00 x00 x00 x00 x00 x00 x00 x00)
(T (W x00 x00 x00 x00 x00 x00 x00 x00)
(L (W x00 x00 x00 x00 x00 x00 x00 x00)) E)
(L (W xc4 x00 x00 x00 x01 x00 x00 x00)))
(T (W xff xff xff xff xff xff xff xff)
(T (W x00 x00 x00 x00 x00 x00 x00 x00)
(L (W xff xff xff xff xff xff xff xff)) E)
(L (W xff xff xff xff xff xff xff xff))))
(T (W x68 x00 x00 x00 x5c x00 x00 x00)
(T (W x00 x00 x00 x00 x00 x00 x00 x00)
(T (W x62 xae xfd xff x74 x00 x00 x00)
(L (W x00 x00 x00 x00 x00 x00 x00 x00)) E)
(L (W x46 x53 x59 x53 x5f x4e x53 x5f)))
(T (W x00 x00 x00 x00 x00 x00 x00 x00)
(L (W xc4 x00 x00 x00 x02 x00 x00 x00))
(L (W x00 x00 x00 x00 x00 x00 x00 x00))))))
(T (W x00 x00 x80 x3f x00 x00 x80 x3f)
(T (W x00 x00 x80 x3f x00 x00 x80 x3f)
(T (W x00 x00 x00 x00 x02 x00 x00 x00)
(T (W x00 x00 x80 x3f x00 x00 x80 x3f)
(T (W x00 x00 x80 x3f x00 x00 x80 x3f)
(L (W xff xff xff xff xff xff xff xff)) E)
(L (W xff xff xff xff xff xff xff xff)))
(T (W x00 x00 x80 x3f x00 x00 x80 x3f)
(T (W x18 x00 x00 x00 x10 x00 x00 x00)
(L (W x00 x00 x80 xbf x00 x00 x80 xbf)) E)
(L (W x44 xe3 xfe xff x00 x01 x01 x01))))
(T (W xff xff xff xff x04 x00 x00 x00)
(T (W xff xff xff xff xff xff xff xff)
(T (W x1c x00 x00 x00 x10 x00 x00 x00)
(L (W x44 xa3 xff xff x00 x01 x01 x01)) E)
(L (W x00 x00 x00 x00 x00 x00 x00 x00)))
(T (W xff xff xff xff x02 x00 x00 x00)
(L (W x00 x01 x01 x01 x9a x2f xfe xff))
(L (W xa4 x04 x00 x00 x88 x03 x00 x00)))))
(T (W x00 x00 x00 x00 x00 x00 x00 x00)
(T (W xff xff xff xff xff xff xff xff)
(T (W x00 x00 x80 x3f x00 x00 x80 x3f)
(T (W xaa xef xff xff x85 x00 x00 x00)
(L (W x46 x53 x59 x53 x5f x4e x53 x5f)) E)
(L (W xff xff xff xff xff xff xff xff)))
(T (W x00 x00 x00 x00 x00 x00 x00 x00)
(T (W xff xff xff xff x01 x00 x00 x00)
(L (W x28 x00 x2c x00 x30 x00 x34 x00)) E)
(L (W x3b x00 x00 x00 x3e x00 x00 x00))))
(T (W x50 x00 x00 x00 x44 x00 x00 x00)
(T (W x00 x00 x80 x3f x00 x00 x80 x3f)
(T (W x00 x00 x01 x01 x4e x00 x00 x00)
(L (W x00 x00 x80 xbf x00 x00 x80 xbf)) E)
(L (W x00 x00 x00 x00 x00 x00 x00 x00)))
(T (W xff xff xff xff xff xff xff xff)
(L (W x18 x00 x00 x00 x0c x00 x00 x00))
(L (W x00 x00 x00 x00 x00 x00 x00 x00))))))))))
(T (W xc8 x30 x01 x00 x6c x2e x01 x00)
(T (W x78 x0a x00 x00 x3c x09 x00 x00)
(T (W xff xff xff xff x03 x00 x00 x00)
(T (W xff xff xff xff xff xff xff xff)
(T (W xff xff xff xff xff xff xff xff)
(T (W xff xff xff xff xff xff xff xff)
(T (W x00 x00 x80 x3f x00 x00 x80 x3f)
(T (W xff xff xff xff xff xff xff xff)
(T (W x00 x00 x00 x00 x00 x00 x00 x00)
(L (W xff xff xff xff xa8 x00 x00 x00)) E)
(L (W x46 x53 x59 x53 x5f x4e x53 x5f)))
(T (W xff xff xff xff xff xff xff xff)
(T (W x00 x00 x80 x3f x00 x00 x80 x3f)
(L (W xff xff xff xff xb0 x00 x00 x00)) E)
(L (W x45 x26 x22 x84 xe4 x9c xf2 xcb))))
(T (W x00 x00 x00 x00 x00 x00 x00 x00)
(T (W xb0 x00 x00 x00 x64 x00 x00 x00)
(T (W x45 x26 x22 x84 xe4 x9c xf2 xcb)
(L (W x00 x00 x80 xbf x00 x00 x80 xbf)) E)
(L (W x00 x00 x80 xbf x00 x00 x80 xbf)))
(T (W xc8 x00 x00 x00 x01 x00 x00 x00)
(L (W x00 x00 x80 xbf x00 x00 x80 xbf))
(L (W x00 x00 x00 x00 x00 x00 x00 x00)))))
(T (W x50 x00 x00 x00 x44 x00 x00 x00)
(T (W x00 x00 x80 x3f x00 x00 x80 x3f)
(T (W xff xff xff xff xff xff xff xff)
(T (W xff xff xff xff xff xff xff xff)
(L (W x00 x00 x00 x00 x00 x00 x00 x00)) E)
(L (W x00 x00 x00 x00 x00 x00 x00 x00)))
(T (W x00 x00 x00 x00 x00 x00 x00 x00)
(T (W x00 x00 x00 x00 x00 x00 x00 x00)
(L (W x00 x00 x00 x00 x00 x00 x00 x00)) E)
(L (W xcb x01 x00 x00 xff xff xff xff))))
(T (W x00 x00 x00 x00 x00 x00 x00 x00)
(T (W x00 x00 x80 x3f x00 x00 x80 x3f)
(T (W x00 x00 x00 x00 x00 x00 x00 x00)
(L (W xff xff xff xff xff xff xff xff)) E)
(L (W x44 xa6 xfe xff x00 x01 x01 x01)))
(T (W x45 x26 x22 x84 xe4 x9c xf2 xcb)
(L (W xff xff xff xff xff xff xff xff))
(L (W x00 x00 x80 xbf x00 x00 x80 xbf))))))
(T (W xff xff xff xff xff xff xff xff)
(T (W x64 x00 x00 x00 x9c x00 x00 x00)
(T (W x00 x00 x80 x3f x00 x00 x80 x3f)
(T (W xb8 x00 x00 x00 xac x00 x00 x00)
(T (W xdc x5c xfd xff x0c x00 x00 x00)
(L (W x00 x00 x01 x01 x69 x01 x00 x00)) E)
(L (W x00 x00 x00 x00 x00 x00 x00 x00)))
(T (W x00 x00 x80 x3f x00 x00 x80 x3f)
(T (W xff xff xff xff xff xff xff xff)
(L (W xff xff xff xff xff xff xff xff)) E)
(L (W xff xff xff xff xff xff xff xff))))
(T (W x00 x00 x00 x00 x00 x00 x00 x00)
(T (W x00 x00 x00 x00 x00 x00 x00 x00)
(T (W x40 x00 x00 x00 x34 x00 x00 x00)
(L (W xff xff xff xff xff xff xff xff)) E)
(L (W x54 x00 x00 x00 x48 x00 x00 x00)))
(T (W x8a x69 xfe xff x00 x00 x01 x01)
(L (W xb0 x00 x00 x00 x64 x00 x00 x00))
(L (W x00 x00 x80 xbf x00 x00 x80 xbf)))))
(T (W x45 x26 x22 x84 xe4 x9c xf2 xcb)
(T (W x45 x26 x22 x84 xe4 x9c xf2 xcb)
(T (W x00 x00 x80 x3f x00 x00 x80 x3f)
(T (W x00 x00 x60 x00 x00 x00 x00 x00)
(L (W x00 x00 x80 xbf x00 x00 x80 xbf)) E)
(L (W x00 x00 x00 x00 x00 x00 x00 x00)))
(T (W x4f x84 x6f x8b xe8 xcb x63 xb7)
(T (W x45 x26 x22 x84 xe4 x9c xf2 xcb)
(L (W x00 x00 x80 xbf x00 x00 x80 xbf)) E)
(L (W x00 x00 x00 x00 x00 x00 x00 x00))))
(T (W x5e x00 x00 x00 xff xff xff xff)
(T (W x1a xb3 xfc xff x78 x00 x00 x00)
(T (W xac xb9 xfd xff x2d x00 x00 x00)
(L (W xc4 x00 x00 x00 x01 x00 x00 x00)) E)
(L (W x00 x00 x80 xbf x00 x00 x80 xbf)))
(T (W x00 x00 x80 x3f x00 x00 x80 x3f)
(L (W x46 x53 x59 x53 x5f x4e x53 x5f))
(L (W xff xff xff xff xa8 x00 x00 x00)))))))
(T (W xff xff xff xff xff xff xff xff)
(T (W xff xff xff xff xff xff xff xff)
(T (W xff xff xff xff xff xff xff xff)
(T (W x00 x00 x80 x3f x00 x00 x80 x3f)
(T (W xff xff xff xff xff xff xff xff)
(T (W x00 x00 x00 x00 x00 x00 x00 x00)
(L (W xff xff xff xff xc8 x00 x00 x00)) E)
(L (W x00 x00 x00 x00 x00 x00 x00 x00)))
(T (W x00 x00 x00 x00 x00 x00 x00 x00)
(T (W x00 x00 x80 x3f x00 x00 x80 x3f)
(L (W xff xff xff xff xff xff xff xff)) E)
(L (W xff xff xff xff xb0 x00 x00 x00))))
(T (W xac x11 xfc xff x3c x00 x00 x00)
(T (W xff xff xff xff xff xff xff xff)
(T (W x00 x00 x80 x3f x00 x00 x80 x3f)
(L (W x18 x00 x00 x00 x0c x00 x00 x00)) E)
(L (W x00 x00 x80 xbf x00 x00 x80 xbf)))
(T (W xff xff xff xff xff xff xff xff)
(L (W x1a x0b xfe xff x78 x00 x00 x00))
(L (W x00 x00 x00 x00 x00 x00 x00 x00)))))
(T (W x62 xa9 xfb xff x74 x00 x00 x00)
(T (W x45 x26 x22 x84 xe4 x9c xf2 xcb)
(T (W x3e x00 x00 x00 x0c x00 x00 x00)
(T (W xb8 x00 x00 x00 xac x00 x00 x00)
(L (W x49 xa1 x68 x4a xeb x5f xdd x3d)) E)
(L (W x00 x00 x00 x00 x00 x00 x00 x00)))
(T (W x00 x00 x00 x00 x00 x00 x00 x00)
(T (W x00 x00 x00 x00 x00 x00 x00 x00)
(L (W x4f x84 x6f x8b xe8 xcb x63 xb7)) E)
(L (W x00 x00 x00 x00 x00 x00 x00 x00))))
(T (W x0b xdc xfa x84 x25 x90 x9d xcd)
(T (W x00 x00 x80 x3f x00 x00 x80 x3f)
(T (W x45 x26 x22 x84 xe4 x9c xf2 xcb)
(L (W x18 x00 x00 x00 x10 x00 x00 x00)) E)
(L (W x74 x00 x04 x00 x68 x00 x08 x00)))
(T (W x6c x00 x00 x00 x60 x00 x00 x00)
(L (W x04 x00 x00 x00 xaa x34 xfe xff))
(L (W x00 x00 x00 x00 xb4 x2c xff xff))))))
(T (W xff xff xff xff xff xff xff xff)
(T (W x44 x9e xfb xff x00 x01 x01 x01)
(T (W x00 x00 x80 x3f x00 x00 x80 x3f)
(T (W xff xff xff xff xff xff xff xff)
(T (W xff xff xff xff xff xff xff xff)
(L (W x00 x00 x00 x00 x00 x00 x00 x00)) E)
(L (W xac x61 xfe xff x2b x00 x00 x00)))
(T (W xff xff xff xff x9c x00 x00 x00)
(T (W xff xff xff xff xff xff xff xff)
(L (W xff xff xff xff xbc x00 x00 x00)) E)
(L (W x04 x00 x00 x00 x12 xdc xfe xff))))
(T (W x00 x00 x00 x00 x00 x00 x00 x00)
(T (W x00 x00 x00 x00 x00 x00 x00 x00)
(T (W x00 x00 x80 xbf x00 x00 x80 xbf)
(L (W xff xff xff xff xff xff xff xff)) E)
(L (W xac x00 x00 x00 x64 x00 x00 x00)))
(T (W x00 x00 x00 x00 x00 x00 x00 x00)
(L (W xff xff xff xff xff xff xff xff))
(L (W x3c x00 x00 x00 x00 x00 x80 xbf)))))
(T (W x50 x00 x00 x00 x44 x00 x00 x00)
(T (W x00 x00 x00 x00 x00 x00 x00 x00)
(T (W x1a x7b xfc xff x78 x00 x00 x00)
(T (W x45 x26 x22 x84 xe4 x9c xf2 xcb)
(L (W x00 x00 x80 xbf x00 x00 x80 xbf)) E)
(L (W x00 x00 x00 x00 x00 x00 x00 x00)))
(T (W x68 x00 x00 x00 x5c x00 x00 x00)
(T (W x4f x84 x6f x8b xe8 xcb x63 xb7)
(L (W xff xff xff xff xff xff xff xff)) E)
(L (W x41 x1a xb9 x28 xbf xd4 x67 x6a))))
(T (W x1a xac xfe xff x00 x00 x01 x01)
(T (W xff xff xff xff x9c x00 x00 x00)
(T (W x00 x00 x00 x00 x00 x00 x00 x00)
(L (W x45 x26 x22 x84 xe4 x9c xf2 xcb)) E)
(L (W x00 x00 x80 xbf x00 x00 x80 xbf)))
(T (W x00 x00 x80 x3f x00 x00 x80 x3f)
(L (W x00 x00 x00 x00 x00 x00 x00 x00))
(L (W x45 x26 x22 x84 xe4 x9c xf2 xcb))))))))
(T (W x00 x00 x00 x00 x00 x00 x00 x00)
(T (W x45 x26 x22 x84 xe4 x9c xf2 xcb)
(T (W x64 x00 x00 x00 x9c x00 x00 x00)
(T (W x00 x00 x00 x00 x00 x00 x00 x00)
(T (W x00 x00 x00 x00 x04 x00 x00 x00)
(T (W x00 x00 x80 x3f x00 x00 x80 x3f)
(T (W xb8 x00 x00 x00 xac x00 x00 x00)
(L (W xac x4d xff xff x21 x00 x00 x00)) E)
(L (W x00 x00 x80 xbf x00 x00 x80 xbf)))
(T (W x50 x00 x00 x00 x44 x00 x00 x00)
(T (W xff xff xff xff xff xff xff xff)
(L (W x00 x00 x00 x00 x00 x00 x00 x00)) E)
(L (W x00 x00 x00 x00 x00 x00 x00 x00))))
(T (W xff xff xff xff xff xff xff xff)
(T (W x4f x84 x6f x8b xe8 xcb x63 xb7)
(T (W xff xff xff xff xff xff xff xff)
(L (W x00 x00 x00 x00 x00 x00 x00 x00)) E)
(L (W xff xff xff xff xff xff xff xff)))
(T (W x00 x00 x00 x00 x00 x00 x00 x00)
(L (W x00 x00 x00 x00 x22 x0f xfe xff))
(L (W x44 x0a xff xff x00 x01 x01 x01)))))
(T (W x00 x00 x00 x00 x00 x00 x00 x00)
(T (W xff xff xff xff xff xff xff xff)
(T (W x00 x00 x00 x00 x00 x00 x00 x00)
(T (W x00 x00 x00 x00 x00 x00 x00 x00)
(L (W xff xff xff xff xff xff xff xff)) E)
(L (W x45 x26 x22 x84 xe4 x9c xf2 xcb)))
(T (W x45 x26 x22 x84 xe4 x9c xf2 xcb)
(T (W xff xff xff xff xff xff xff xff)
(L (W x4c x00 x04 x00 x08 x00 x0c x00)) E)
(L (W x54 x00 x00 x00 x48 x00 x00 x00))))
(T (W x00 x00 x80 x3f x00 x00 x80 x3f)
(T (W xff xff xff xff xff xff xff xff)
(T (W x0c x06 x00 x00 xe0 x04 x00 x00)
(L (W x4f x84 x6f x8b xe8 xcb x63 xb7)) E)
(L (W xdc xb0 xfe xff x1a x00 x00 x00)))
(T (W x00 x00 x00 x00 x00 x00 x00 x00)
(L (W x00 x00 x00 x00 x00 x00 x00 x00))
(L (W xff xff xff xff xff xff xff xff))))))
(T (W x00 x00 x00 x00 x00 x00 x00 x00)
(T (W x45 x26 x22 x84 xe4 x9c xf2 xcb)
(T (W x64 x01 x00 x00 xff xff xff xff)
(T (W x00 x00 x80 x3f x00 x00 x80 x3f)
(T (W x00 x00 x80 x3f x00 x00 x80 x3f)
(L (W x45 x26 x22 x84 xe4 x9c xf2 xcb)) E)
(L (W x54 x00 x00 x00 x48 x00 x00 x00)))
(T (W x30 x00 x00 x00 x10 x00 x00 x00)
(T (W x00 x00 x80 xbf x00 x00 x80 xbf)
(L (W x45 x26 x22 x84 xe4 x9c xf2 xcb)) E)
(L (W x00 x00 x80 xbf x00 x00 x80 xbf))))
(T (W x18 x00 x00 x00 x0c x00 x00 x00)
(T (W x44 x9a xfc xff x00 x01 x01 x01)
(T (W x03 x00 x00 x00 xbc x00 x00 x00)
(L (W x00 x00 x80 xbf x00 x00 x80 xbf)) E)
(L (W x00 x00 x00 x00 x00 x00 x00 x00)))
(T (W x18 x00 x00 x00 x10 x00 x00 x00)
(L (W x49 xa1 x68 x4a xeb x5f xdd x3d))
(L (W xff xff xff xff xff xff xff xff)))))
(T (W x00 x00 x00 x00 x00 x00 x00 x00)
(T (W xff xff xff xff x03 x00 x00 x00)
(T (W x30 x35 x5f x43 x4c x45 x41 x52)
(T (W xff xff xff xff xff xff xff xff)
(L (W xde x01 x00 x00 xff xff xff xff)) E)
(L (W xc4 x00 x00 x00 x01 x00 x00 x00)))
(T (W xff xff xff xff xff xff xff xff)
(T (W xb4 x00 x00 x00 x0a x00 x00 x00)
(L (W xff xff xff xff xff xff xff xff)) E)
(L (W x1c x00 x00 x00 x10 x00 x00 x00))))
(T (W x00 x00 x80 x3f x00 x00 x80 x3f)
(T (W x00 x00 x00 x00 x00 x00 x00 x00)
(T (W x00 x00 x80 x3f x00 x00 x80 x3f)
(L (W x00 x00 x01 x01 xcf x00 x00 x00)) E)
(L (W xff xff xff xff xff xff xff xff)))
(T (W xff xff xff xff xff xff xff xff)
(L (W xff xff xff xff xff xff xff xff))
(L (W xff xff xff xff xff xff xff xff)))))))
(T (W x00 x00 x80 x3f x00 x00 x80 x3f)
(T (W x00 x00 x80 x3f x00 x00 x80 x3f)
(T (W x00 x00 x00 x00 x00 x00 x00 x00)
(T (W xff xff xff xff xff xff xff xff)
(T (W x45 x26 x22 x84 xe4 x9c xf2 xcb)
(T (W x01 x00 x00 x00 x9c x00 x00 x00)
(L (W x00 x00 x80 xbf x00 x00 x80 xbf)) E)
(L (W x68 x00 x00 x00 x5c x00 x00 x00)))
(T (W xff xff xff xff xff xff xff xff)
(T (W x30 x35 x5f x43 x4c x45 x41 x52)
(L (W x4f x84 x6f x8b xe8 xcb x63 xb7)) E)
(L (W x00 x00 x00 x00 x00 x00 x00 x00))))
(T (W x45 x26 x22 x84 xe4 x9c xf2 xcb)
(T (W x54 x00 x00 x00 x48 x00 x00 x00)
(T (W x00 x00 x00 x00 x1c x00 x20 x00)
(L (W x00 x00 x00 x00 x00 x00 x00 x00)) E)
(L (W xff xff xff xff xff xff xff xff)))
(T (W x00 x00 x80 x3f x00 x00 x80 x3f)
(L (W x00 x00 x00 x00 x00 x00 x00 x00))
(L (W xff xff xff xff x9c x00 x00 x00)))))
(T (W x00 x00 x00 x00 x00 x00 x00 x00)
(T (W x64 x00 x00 x00 x9c x00 x00 x00)
(T (W x00 x00 x00 x00 x00 x00 x00 x00)
(T (W x00 x00 x00 x00 x00 x00 x00 x00)
(L (W xff xff xff xff xff xff xff xff)) E)
(L (W x58 x00 x00 x00 x4c x00 x00 x00)))
(T (W xff xff xff xff x9c x00 x00 x00)
(T (W xff xff xff xff xff xff xff xff)
(L (W xff xff xff xff xff xff xff xff)) E)
(L (W xb0 xf0 xfe xff x0a x08 xff xff))))
(T (W x00 x00 x80 x3f x00 x00 x80 x3f)
(T (W x00 x00 x00 x00 x22 xb7 xfc xff)
(T (W x00 x00 x80 x3f x00 x00 x80 x3f)
(L (W x30 x35 x5f x43 x4c x45 x41 x52)) E)
(L (W x04 x00 x00 x00 xaa xb8 xfe xff)))
(T (W x04 x00 x00 x00 x5a xbc xff xff)
(L (W x45 x26 x22 x84 xe4 x9c xf2 xcb))
(L (W x00 x00 x00 x00 x00 x00 x00 x00))))))
(T (W x00 x00 x00 x00 x00 x00 x00 x00)
(T (W x00 x00 x00 x00 x00 x00 x00 x00)
(T (W xff xff xff xff xff xff xff xff)
(T (W x00 x00 x00 x00 x00 x00 x00 x00)
(T (W x00 x00 x80 x3f x00 x00 x80 x3f)
(L (W xff xff xff xff xb0 x00 x00 x00)) E)
(L (W xac x00 x00 x00 x64 x00 x00 x00)))
(T (W x45 x26 x22 x84 xe4 x9c xf2 xcb)
(T (W x6c x00 x00 x00 x60 x00 x00 x00)
(L (W x00 x00 x80 xbf x00 x00 x80 xbf)) E)
(L (W x00 x00 x80 xbf x00 x00 x80 xbf))))
(T (W x68 x00 x00 x00 x5c x00 x00 x00)
(T (W xff xff xff xff xff xff xff xff)
(T (W x00 x00 x80 xbf x00 x00 x80 xbf)
(L (W x45 x26 x22 x84 xe4 x9c xf2 xcb)) E)
(L (W x45 x44 x00 x00 x00 x00 x00 x00)))
(T (W xff xff xff xff xff xff xff xff)
(L (W x45 x26 x22 x84 xe4 x9c xf2 xcb))
(L (W xff xff xff xff xff xff xff xff)))))
(T (W x00 x00 x00 x00 x00 x00 x00 x00)
(T (W xff xff xff xff xff xff xff xff)
(T (W x00 x00 x00 x00 x00 x00 x00 x00)
(T (W xff xff xff xff xff xff xff xff)
(L (W x04 x00 x00 x00 xaa x88 xff xff)) E)
(L (W xff xff xff xff xff xff xff xff)))
(T (W x5f x4e x53 x5f x30 x35 x5f x43)
(T (W xff xff xff xff xff xff xff xff)
(L (W x00 x00 x10 x00 x14 x00 x18 x00)) E)
(L (W x00 x00 x80 xbf x00 x00 x80 xbf))))
(T (W x00 x00 x80 x3f x00 x00 x80 x3f)
(T (W x4f x84 x6f x8b xe8 xcb x63 xb7)
(T (W xff xff xff xff xff xff xff xff)
(L (W x00 x00 x00 x00 x00 x00 x00 x00)) E)
(L (W xff xff xff xff xff xff xff xff)))
(T (W xff xff xff xff xff xff xff xff)
(L (W x45 x26 x22 x84 xe4 x9c xf2 xcb))
(L (W x00 x00 x00 x00 x00 x00 x00 x00)))))))))
(T (W x00 x00 x80 x3f x00 x00 x80 x3f)
(T (W x00 x00 x00 x00 x00 x00 x00 x00)
(T (W xc3 xc3 x3a x2a x81 x66 x76 xec)
(T (W x00 x00 x00 x00 x00 x00 x00 x00)
(T (W x00 x00 x00 x00 x00 x00 x00 x00)
(T (W xff xff xff xff xff xff xff xff)
(T (W x00 x00 x00 x00 x00 x00 x00 x00)
(T (W x00 x00 x80 x3f x00 x00 x80 x3f)
(L (W xff xff xff xff xff xff xff xff)) E)
(L (W x00 x00 x00 x00 x00 x00 x00 x00)))
(T (W x00 x00 x00 x00 x00 x00 x00 x00)
(T (W x44 xc8 xfd xff x00 x01 x01 x01)
(L (W xff xff xff xff xff xff xff xff)) E)
(L (W xff xff xff xff xff xff xff xff))))
(T (W x00 x00 x80 x3f x00 x00 x80 x3f)
(T (W x45 x44 x00 x00 x00 x00 x00 x00)
(T (W x50 x00 x00 x00 x44 x00 x00 x00)
(L (W xff xff xff xff xff xff xff xff)) E)
(L (W x44 x88 xfe xff x00 x01 x01 x01)))
(T (W x02 x00 x00 x00 xff xff xff xff)
(L (W xff xff xff xff xff xff xff xff))
(L (W x00 x00 x00 x00 x00 x00 x00 x00)))))
(T (W xff xff xff xff xff xff xff xff)
(T (W x62 xe3 xfb xff x74 x00 x00 x00)
(T (W xff xff xff xff xff xff xff xff)
(T (W xdc x6e xfd xff x1b x00 x00 x00)
(L (W x1a x65 xff xff x78 x00 x00 x00)) E)
(L (W x00 x00 x80 xbf x00 x00 x80 xbf)))
(T (W x00 x00 x00 x00 x00 x00 x00 x00)
(T (W x6c x00 x00 x00 x60 x00 x00 x00)
(L (W x00 x00 x80 xbf x00 x00 x80 xbf)) E)
(L (W x49 xa1 x68 x4a xeb x5f xdd x3d))))
(T (W x00 x00 x00 x00 x00 x00 x00 x00)
(T (W x1a xa5 xfc xff x78 x00 x00 x00)
(T (W x68 x00 x00 x00 x5c x00 x00 x00)
(L (W x30 x35 x5f x43 x4c x45 x41 x52)) E)
(L (W xff xff xff xff xff xff xff xff)))
(T (W x45 x26 x22 x84 xe4 x9c xf2 xcb)
(L (W xdd x00 x00 x00 xff xff xff xff))
(L (W x2f x00 x00 x00 x32 x00 x00 x00))))))
(T (W x00 x00 x00 x00 x00 x00 x00 x00)
(T (W xff xff xff xff xff xff xff xff)
(T (W x44 xd8 xfb xff x00 x01 x01 x01)
(T (W x34 x8f x33 x48 x6d xc6 xc6 xcb)
(T (W x00 x00 x00 x00 x00 x00 x00 x00)
(L (W x00 x00 x00 x00 x00 x00 x00 x00)) E)
(L (W x00 x00 x00 x00 x00 x00 x00 x00)))
(T (W xff xff xff xff xbc x00 x00 x00)
(T (W x77 xd4 xae x42 xc4 x37 xb1 x7d)
(L (W x00 x00 x00 x00 x12 xd6 xff xff)) E)
(L (W x00 x00 x00 x00 x12 x00 x00 x00))))
(T (W x45 x26 x22 x84 xe4 x9c xf2 xcb)
(T (W x00 x00 x80 x3f x00 x00 x80 x3f)
(T (W x00 x00 x80 x3f x00 x00 x80 x3f)
(L (W x46 x53 x59 x53 x5f x4e x53 x5f)) E)
(L (W xff xff xff xff xff xff xff xff)))
(T (W x00 x00 x00 x00 x00 x00 x00 x00)
(L (W x00 x00 x00 x00 x00 x00 x00 x00))
(L (W x18 x00 x00 x00 x0c x00 x00 x00)))))
(T (W xff xff xff xff xff xff xff xff)
(T (W x45 x26 x22 x84 xe4 x9c xf2 xcb)
(T (W xff xff xff xff xbc x00 x00 x00)
(T (W x68 x00 x00 x00 x5c x00 x00 x00)
(L (W x18 x00 x00 x00 x10 x00 x00 x00)) E)
(L (W x00 x00 x80 xbf x00 x00 x80 xbf)))
(T (W xff xff xff xff xac x00 x00 x00)
(T (W x54 x00 x00 x00 x48 x00 x00 x00)
(L (W xff xff xff xff xff xff xff xff)) E)
(L (W x49 xa1 x68 x4a xeb x5f xdd x3d))))
(T (W x45 x26 x22 x84 xe4 x9c xf2 xcb)
(T (W xff xff xff xff xff xff xff xff)
(T (W xff xff xff xff xff xff xff xff)
(L (W xff xff xff xff xff xff xff xff)) E)
(L (W x45 x26 x22 x84 xe4 x9c xf2 xcb)))
(T (W x18 x00 x00 x00 x10 x00 x00 x00)
(L (W x00 x00 x80 xbf x00 x00 x80 xbf))
(L (W xff xff xff xff xff xff xff xff)))))))
(T (W x00 x00 x00 x00 x00 x00 x00 x00)
(T (W x23 x00 x00 x00 x0c x00 x00 x00)
(T (W x00 x00 x00 x00 x04 x00 x00 x00)
(T (W x64 x00 x00 x00 x9c x00 x00 x00)
(T (W x00 x00 x00 x00 x00 x00 x00 x00)
(T (W x00 x00 x80 x3f x00 x00 x80 x3f)
(L (W x00 x00 x00 x00 x4a x4c xff xff)) E)
(L (W x45 x26 x22 x84 xe4 x9c xf2 xcb)))
(T (W x00 x00 x80 x3f x00 x00 x80 x3f)
(T (W xff xff xff xff xff xff xff xff)
(L (W x00 x00 x00 x00 x00 x00 x00 x00)) E)
(L (W xff xff xff xff xff xff xff xff))))
(T (W x00 x00 x80 x3f x00 x00 x80 x3f)
(T (W x00 x00 x00 x00 x00 x00 x00 x00)
(T (W x01 x00 x00 x00 x9c x00 x00 x00)
(L (W xff xff xff xff xff xff xff xff)) E)
(L (W xff xff xff xff x9c x00 x00 x00)))
(T (W x00 x00 x00 x00 x00 x00 x00 x00)
(L (W xff xff xff xff xff xff xff xff))
(L (W x00 x00 x80 xbf x00 x00 x80 xbf)))))
(T (W xff xff xff xff xff xff xff xff)
(T (W x00 x00 x00 x00 xb4 xee xfb xff)
(T (W x62 x00 x00 x00 x26 x00 x00 x00)
(T (W xff xff xff xff xff xff xff xff)
(L (W xff xff xff xff xb0 x00 x00 x00)) E)
(L (W x00 x00 x80 xbf x00 x00 x80 xbf)))
(T (W x00 x00 x80 x3f x00 x00 x80 x3f)
(T (W x00 x00 x80 xbf x00 x00 x80 xbf)
(L (W x31 x00 x00 x00 x34 x00 x00 x00)) E)
(L (W x00 x00 x80 xbf x00 x00 x80 xbf))))
(T (W x45 x26 x22 x84 xe4 x9c xf2 xcb)
(T (W xff xff xff xff x9c x00 x00 x00)
(T (W x00 x00 x00 x00 x00 x00 x00 x00)
(L (W xff xff xff xff xff xff xff xff)) E)
(L (W x45 x26 x22 x84 xe4 x9c xf2 xcb)))
(T (W xff xff xff xff xff xff xff xff)
(L (W x00 x00 x00 x00 x00 x00 x00 x00))
(L (W xff xff xff xff xff xff xff xff))))))
(T (W x00 x00 x00 x00 x00 x00 x00 x00)
(T (W xac x01 x00 x00 xff xff xff xff)
(T (W x50 x00 x00 x00 x44 x00 x00 x00)
(T (W x40 x00 x00 x00 xff xff xff xff)
(T (W x00 x00 x00 x00 x00 x00 x00 x00)
(L (W x00 x00 x80 xbf x00 x00 x80 xbf)) E)
(L (W x00 x00 x80 xbf x00 x00 x80 xbf)))
(T (W x00 x00 x00 x00 x01 x00 x00 x00)
(T (W x00 x00 x00 x00 x00 x00 x00 x00)
(L (W x00 x00 x00 x00 x00 x00 x00 x00)) E)
(L (W x45 x26 x22 x84 xe4 x9c xf2 xcb))))
(T (W x00 x00 x00 x00 x00 x00 x00 x00)
(T (W x00 x00 x80 x3f x00 x00 x80 x3f)
(T (W x00 x00 x00 x00 x00 x00 x00 x00)
(L (W x00 x00 x00 x00 x00 x00 x00 x00)) E)
(L (W xff xff xff xff xff xff xff xff)))
(T (W x00 x00 x80 x3f x00 x00 x80 x3f)
(L (W x00 x00 x00 x00 x00 x00 x00 x00))
(L (W xff xff xff xff x90 x00 x00 x00)))))
(T (W xff xff xff xff xff xff xff xff)
(T (W x00 x00 x80 x3f x00 x00 x80 x3f)
(T (W xff xff xff xff xff xff xff xff)
(T (W x50 x00 x00 x00 x44 x00 x00 x00)
(L (W xff xff xff xff xb0 x00 x00 x00)) E)
(L (W x00 x00 x80 xbf x00 x00 x80 xbf)))
(T (W xff xff xff xff xbc x00 x00 x00)
(T (W x50 x00 x00 x00 x44 x00 x00 x00)
(L (W x00 x00 x80 xbf x00 x00 x80 xbf)) E)
(L (W x00 x00 x00 x00 x00 x00 x00 x00))))
(T (W x00 x00 x00 x00 x00 x00 x00 x00)
(T (W x00 x00 x00 x00 x22 xc5 xfc xff)
(T (W x18 x00 x00 x00 x10 x00 x00 x00)
(L (W xff xff xff xff xff xff xff xff)) E)
(L (W xff xff xff xff xb0 x00 x00 x00)))
(T (W x01 x00 x00 x00 x9c x00 x00 x00)
(L (W x45 x26 x22 x84 xe4 x9c xf2 xcb))
(L (W xff xff xff xff xff xff xff xff))))))))
(T (W x00 x00 x80 x3f x00 x00 x80 x3f)
(T (W x00 x00 x80 x3f x00 x00 x80 x3f)
(T (W x00 x00 x80 x3f x00 x00 x80 x3f)
(T (W x00 x00 x80 x3f x00 x00 x80 x3f)
(T (W x00 x00 x00 x00 x00 x00 x00 x00)
(T (W x44 x4c xfc xff x00 x01 x01 x01)
(T (W xff xff xff xff xff xff xff xff)
(L (W x00 x00 x80 xbf x00 x00 x80 xbf)) E)
(L (W xff xff xff xff xff xff xff xff)))
(T (W xff xff xff xff xff xff xff xff)
(T (W x67 x72 x6f x75 x70 x5f x77 x69)
(L (W x45 x26 x22 x84 xe4 x9c xf2 xcb)) E)
(L (W x4f x84 x6f x8b xe8 xcb x63 xb7))))
(T (W xff xff xff xff xff xff xff xff)
(T (W x44 x8c xfc xff x00 x01 x01 x01)
(T (W x00 x00 x00 x00 x00 x00 x00 x00)
(L (W x00 x00 x00 x00 x00 x00 x00 x00)) E)
(L (W x00 x00 x00 x00 x00 x00 x00 x00)))
(T (W x00 x00 x00 x00 xb4 x0a xfd xff)
(L (W x00 x00 x80 xbf x00 x00 x80 xbf))
(L (W xff xff xff xff xff xff xff xff)))))
(T (W x00 x00 x80 x3f x00 x00 x80 x3f)
(T (W xdc xf2 xfb xff x3e x00 x00 x00)
(T (W x54 x00 x00 x00 x48 x00 x00 x00)
(T (W x00 x00 x80 x3f x00 x00 x80 x3f)
(L (W x00 x00 x00 x00 x4a x68 xff xff)) E)
(L (W x00 x00 x01 x01 x64 x01 x00 x00)))
(T (W xff xff xff xff xff xff xff xff)
(T (W x00 x00 x00 x00 x22 xf1 xfd xff)
(L (W x00 x00 x00 x00 x22 xf1 xff xff)) E)
(L (W xff xff xff xff xff xff xff xff))))
(T (W xff xff xff xff xff xff xff xff)
(T (W x00 x00 x00 x00 x00 x00 x00 x00)
(T (W x00 x00 x80 x3f x00 x00 x80 x3f)
(L (W x00 x00 x00 x00 x70 x00 x74 x00)) E)
(L (W x00 x00 x80 xbf x00 x00 x80 xbf)))
(T (W x00 x00 x00 x00 x00 x00 x00 x00)
(L (W x2c x00 x30 x00 x34 x00 x38 x00))
(L (W x00 x00 x00 x00 x00 x00 x00 x00))))))
(T (W x45 x26 x22 x84 xe4 x9c xf2 xcb)
(T (W x00 x00 x80 x3f x00 x00 x80 x3f)
(T (W x00 x00 x00 x00 x00 x00 x00 x00)
(T (W x18 x00 x00 x00 x0c x00 x00 x00)
(T (W xb8 x00 x00 x00 xac x00 x00 x00)
(L (W xff xff xff xff xff xff xff xff)) E)
(L (W xff xff xff xff xff xff xff xff)))
(T (W x00 x00 x80 x3f x00 x00 x80 x3f)
(T (W x62 xd7 xfd xff x74 x00 x00 x00)
(L (W x5c x00 x00 x00 x50 x00 x00 x00)) E)
(L (W x44 xdc xfe xff x00 x01 x01 x01))))
(T (W xff xff xff xff xff xff xff xff)
(T (W xff xff xff xff xff xff xff xff)
(T (W xdc xa2 xfd xff x32 x00 x00 x00)
(L (W x45 x26 x22 x84 xe4 x9c xf2 xcb)) E)
(L (W x45 x26 x22 x84 xe4 x9c xf2 xcb)))
(T (W xff xff xff xff xff xff xff xff)
(L (W xff xff xff xff xb0 x00 x00 x00))
(L (W x00 x00 x00 x00 x00 x00 x00 x00)))))
(T (W x00 x00 x00 x00 x00 x00 x00 x00)
(T (W xff xff xff xff xff xff xff xff)
(T (W x49 xa1 x68 x4a xeb x5f xdd x3d)
(T (W x00 x00 x00 x00 x00 x00 x00 x00)
(L (W x30 x35 x5f x43 x4c x45 x41 x52)) E)
(L (W x44 x02 x00 x00 x30 x01 x00 x00)))
(T (W x00 x00 x00 x00 x00 x00 x00 x00)
(T (W xff xff xff xff xff xff xff xff)
(L (W x45 x26 x22 x84 xe4 x9c xf2 xcb)) E)
(L (W xff xff xff xff xff xff xff xff))))
(T (W x45 x26 x22 x84 xe4 x9c xf2 xcb)
(T (W x00 x00 x80 x3f x00 x00 x80 x3f)
(T (W x61 x72 x6c x69 x6b x65 x5f x6c)
(L (W x00 x00 x00 x00 x00 x00 x00 x00)) E)
(L (W x00 x00 x00 x00 x00 x00 x00 x00)))
(T (W x00 x00 x00 x00 x00 x00 x00 x00)
(L (W xff xff xff xff xff xff xff xff))
(L (W x00 x00 x00 x00 x00 x00 x00 x00)))))))
(T (W x1a x61 xfb xff x78 x00 x00 x00)
(T (W x00 x00 x00 x00 xb4 x72 xfb xff)
(T (W x00 x00 x80 x3f x00 x00 x80 x3f)
(T (W x45 x26 x22 x84 xe4 x9c xf2 xcb)
(T (W x45 x26 x22 x84 xe4 x9c xf2 xcb)
(T (W xff xff xff xff xff xff xff xff)
(L (W xff xff xff xff xb0 x00 x00 x00)) E)
(L (W xff xff xff xff xff xff xff xff)))
(T (W x00 x00 x00 x00 x00 x00 x00 x00)
(T (W x00 x00 x80 xbf x00 x00 x80 xbf)
(L (W x03 x00 x00 x00 xd0 x00 x00 x00)) E)
(L (W x1a xd1 xfe xff x78 x00 x00 x00))))
(T (W xff xff xff xff xff xff xff xff)
(T (W xb0 x00 x00 x00 x64 x00 x00 x00)
(T (W xb8 x00 x00 x00 xac x00 x00 x00)
(L (W x00 x00 x80 xbf x00 x00 x80 xbf)) E)
(L (W x4f x84 x6f x8b xe8 xcb x63 xb7)))
(T (W xff xff xff xff xff xff xff xff)
(L (W x00 x00 x80 xbf x00 x00 x80 xbf))
(L (W x00 x00 x00 x00 x00 x00 x00 x00)))))
(T (W x00 x00 x00 x00 x00 x00 x00 x00)
(T (W x01 x00 x00 x00 x04 x00 x00 x00)
(T (W x64 x00 x00 x00 xa0 x00 x00 x00)
(T (W x00 x00 x80 x3f x00 x00 x80 x3f)
(L (W x00 x00 x00 x00 x00 x00 x00 x00)) E)
(L (W xff xff xff xff xff xff xff xff)))
(T (W x00 x00 x00 x00 x00 x00 x00 x00)
(T (W x00 x00 x00 x00 x00 x00 x00 x00)
(L (W x00 x00 x00 x00 x00 x00 x00 x00)) E)
(L (W xff xff xff xff xff xff xff xff))))
(T (W xb8 x00 x00 x00 xac x00 x00 x00)
(T (W x00 x00 x80 x3f x00 x00 x80 x3f)
(T (W xff xff xff xff xff xff xff xff)
(L (W x49 xa1 x68 x4a xeb x5f xdd x3d)) E)
(L (W x00 x00 x00 x00 x00 x00 x00 x00)))
(T (W x00 x00 x00 x00 x00 x00 x00 x00)
(L (W xff xff xff xff xff xff xff xff))
(L (W x00 x00 x00 x00 x00 x00 x00 x00))))))
(T (W x50 x00 x00 x00 x44 x00 x00 x00)
(T (W x00 x00 x80 x3f x00 x00 x80 x3f)
(T (W x00 x00 x00 x00 x00 x00 x00 x00)
(T (W x00 x00 x80 x3f x00 x00 x80 x3f)
(T (W x01 x00 x00 x00 x9c x00 x00 x00)
(L (W xff xff xff xff xff xff xff xff)) E)
(L (W xff xff xff xff xff xff xff xff)))
(T (W x45 x26 x22 x84 xe4 x9c xf2 xcb)
(T (W xff xff xff xff xff xff xff xff)
(L (W xbc x00 x00 x00 x01 x00 x00 x00)) E)
(L (W xbc x00 x00 x00 x64 x00 x00 x00))))
(T (W xff xff xff xff xff xff xff xff)
(T (W x00 x00 x00 x00 x22 xa9 xfc xff)
(T (W xff xff xff xff xff xff xff xff)
(L (W xb4 x00 x00 x00 x64 x00 x00 x00)) E)
(L (W x00 x00 x00 x00 x00 x00 x00 x00)))
(T (W x00 x00 x00 x00 x00 x00 x00 x00)
(L (W xff xff xff xff x90 x00 x00 x00))
(L (W x00 x00 x00 x00 x00 x00 x00 x00)))))
(T (W x00 x00 x00 x00 x00 x00 x00 x00)
(T (W xff xff xff xff xff xff xff xff)
(T (W x54 x00 x00 x00 x48 x00 x00 x00)
(T (W x00 x00 x00 x00 x00 x00 x00 x00)
(L (W x00 x00 x00 x00 x00 x00 x00 x00)) E)
(L (W x00 x00 x00 x00 x22 x89 xfe xff)))
(T (W x00 x00 x80 x3f x00 x00 x80 x3f)
(T (W x00 x00 x00 x00 x00 x00 x00 x00)
(L (W x00 x00 x00 x00 x00 x00 x00 x00)) E)
(L (W xff xff xff xff xff xff xff xff))))
(T (W x68 x00 x00 x00 x5c x00 x00 x00)
(T (W x62 xbf xfc xff x74 x00 x00 x00)
(T (W x46 x53 x59 x53 x5f x4e x53 x5f)
(L (W x00 x00 x80 xbf x00 x00 x80 xbf)) E)
(L (W x00 x00 x00 x00 x00 x00 x00 x00)))
(T (W xdc x4a xfd xff x38 x00 x00 x00)
(L (W xff xff xff xff xff xff xff xff))
(L (W x4f x84 x6f x8b xe8 xcb x63 xb7)))))))))))))
(T (W xd0 x41 x04 x00 x34 x3d x04 x00)
(T (W x48 xf7 x03 x00 x84 xf0 x03 x00)
(T (W x80 x36 x03 x00 x24 x34 x03 x00)
(T (W x60 x42 x02 x00 xe4 x3f x02 x00)
(T (W xc0 xf7 x00 x00 x74 xf5 x00 x00)
(T (W x00 x00 x00 x00 x00 x00 x00 x00)
(T (W x00 x00 x00 x00 x00 x00 x00 x00)
(T (W x00 x00 x00 x00 x00 x00 x00 x00)
(T (W x00 x00 x00 x00 x00 x00 x00 x00)
(T (W xff xff xff xff xff xff xff xff)
(T (W x00 x00 x00 x00 x00 x00 x00 x00)
(T (W xff xff xff xff xff xff xff xff)
(L (W xdc x00 x00 x00 xff xff xff xff)) E)
(L (W x00 x00 x80 xbf x00 x00 x80 xbf)))
(T (W x00 x00 x00 x00 x00 x00 x00 x00)
(T (W xff xff xff xff xff xff xff xff)
(L (W x46 x53 x59 x53 x5f x4e x53 x5f)) E)
(L (W x04 x00 x00 x00 x72 xc2 xfe xff))))
(T (W x50 x00 x00 x00 x44 x00 x00 x00)
(T (W x00 x00 x00 x00 x00 x00 x00 x00)
(T (W xff xff xff xff xff xff xff xff)
(L (W xff xff xff xff xff xff xff xff)) E)
(L (W x18 x00 x00 x00 x10 x00 x00 x00)))
(T (W x00 x00 x00 x00 x00 x00 x00 x00)
(T (W xff xff xff xff xff xff xff xff)
(L (W xff xff xff xff xf4 x00 x00 x00)) E)
(L (W x54 x00 x00 x00 x48 x00 x00 x00)))))
(T (W x00 x00 x00 x00 x00 x00 x00 x00)
(T (W xff xff xff xff xff xff xff xff)
(T (W x00 x00 x00 x00 x00 x00 x00 x00)
(T (W x00 x00 x80 x3f x00 x00 x80 x3f)
(L (W x7a x61 xff xff x78 x00 x00 x00)) E)
(L (W x3c x00 x00 x00 x00 x00 x80 xbf)))
(T (W x45 x26 x22 x84 xe4 x9c xf2 xcb)
(T (W x54 x00 x00 x00 x48 x00 x00 x00)
(L (W x00 x00 x80 xbf x00 x00 x80 xbf)) E)
(L (W x00 x00 x80 xbf x00 x00 x80 xbf))))
(T (W x00 x00 x80 x3f x00 x00 x80 x3f)
(T (W x18 x00 x00 x00 x10 x00 x00 x00)
(T (W x50 x00 x00 x00 x44 x00 x00 x00)
(L (W x00 x00 x80 xbf x00 x00 x80 xbf)) E)
(L (W xff xff xff xff xff xff xff xff)))
(T (W x03 x00 x00 x00 xcc x00 x00 x00)
(L (W x45 x26 x22 x84 xe4 x9c xf2 xcb))
(L (W xff xff xff xff xff xff xff xff))))))
(T (W x00 x00 x00 x00 x00 x00 x00 x00)
(T (W x40 x00 x00 x00 x0c x00 x00 x00)
(T (W xff xff xff xff xff xff xff xff)
(T (W x45 x26 x22 x84 xe4 x9c xf2 xcb)
(T (W xc2 x4f xfd xff x74 x00 x00 x00)
(L (W x00 x00 x80 xbf x00 x00 x80 xbf)) E)
(L (W x10 x53 xfe xff xfa x60 xfe xff)))
(T (W xff xff xff xff xff xff xff xff)
(T (W x4c x45 x41 x52 x45 x44 x00 x00)
(L (W x00 x00 x80 xbf x00 x00 x80 xbf)) E)
(L (W x00 x00 x00 x00 x00 x00 x00 x00))))
(T (W x00 x00 x00 x00 x14 x13 xfc xff)
(T (W x00 x00 x80 x3f x00 x00 x80 x3f)
(T (W x00 x00 x80 x3f x00 x00 x80 x3f)
(L (W x00 x00 x00 x00 x00 x00 x00 x00)) E)
(L (W x19 x01 x00 x00 xff xff xff xff)))
(T (W x00 x00 x80 x3f x00 x00 x80 x3f)
(L (W x00 x00 x00 x00 x00 x00 x00 x00))
(L (W x26 x00 x00 x00 x29 x00 x00 x00)))))
(T (W x7a x22 xfe xff x00 x00 x01 x01)
(T (W x64 x00 x00 x00 x9c x00 x00 x00)
(T (W x00 x00 x80 x3f x00 x00 x80 x3f)
(T (W x00 x00 x00 x00 x00 x00 x00 x00)
(L (W xff xff xff xff xff xff xff xff)) E)
(L (W x00 x00 x80 xbf x00 x00 x80 xbf)))
(T (W xff xff xff xff xc4 x00 x00 x00)
(T (W xff xff xff xff xff xff xff xff)
(L (W xff xff xff xff xff xff xff xff)) E)
(L (W x68 x00 x00 x00 x5c x00 x00 x00))))
(T (W x00 x00 x80 x3f x00 x00 x80 x3f)
(T (W x00 x00 x00 x00 x00 x00 x00 x00)
(T (W x00 x00 x80 x3f x00 x00 x80 x3f)
(L (W x00 x00 x00 x00 xaa xb0 xff xff)) E)
(L (W xff xff xff xff xff xff xff xff)))
(T (W xff xff xff xff xff xff xff xff)
(L (W x00 x00 x80 xbf x00 x00 x80 xbf))
(L (W xff xff xff xff xff xff xff xff)))))))
(T (W x00 x00 x00 x00 x00 x00 x00 x00)
(T (W x00 x00 x00 x00 x00 x00 x00 x00)
(T (W x00 x00 x00 x00 x00 x00 x00 x00)
(T (W xff xff xff xff xff xff xff xff)
(T (W x00 x00 x00 x00 x00 x00 x00 x00)
(T (W x00 x00 x00 x00 x14 x4b xfd xff)
(L (W x18 x00 x00 x00 x10 x00 x00 x00)) E)
(L (W x54 x00 x00 x00 x48 x00 x00 x00)))
(T (W x50 x00 x00 x00 x44 x00 x00 x00)
(T (W xff xff xff xff xff xff xff xff)
(L (W x45 x26 x22 x84 xe4 x9c xf2 xcb)) E)
(L (W xbe x00 x00 x00 xff xff xff xff))))
(T (W xc2 x07 xfc xff x74 x00 x00 x00)
(T (W x00 x00 x00 x00 x00 x00 x00 x00)
(T (W xff xff xff xff xff xff xff xff)
(L (W xff xff xff xff xff xff xff xff)) E)
(L (W xff xff xff xff xff xff xff xff)))
(T (W x00 x00 x00 x00 x00 x00 x00 x00)
(L (W x00 x00 x00 x00 x00 x00 x00 x00))
(L (W x18 x00 x00 x00 x0c x00 x00 x00)))))
(T (W x00 x00 x00 x00 x00 x00 x00 x00)
(T (W xff xff xff xff xff xff xff xff)
(T (W x00 x00 x00 x00 x00 x00 x00 x00)
(T (W x00 x00 x00 x00 x00 x00 x00 x00)
(L (W xff xff xff xff x9c x00 x00 x00)) E)
(L (W xff xff xff xff xa8 x00 x00 x00)))
(T (W x50 x00 x00 x00 x44 x00 x00 x00)
(T (W x18 x00 x00 x00 x10 x00 x00 x00)
(L (W x18 x00 x00 x00 x10 x00 x00 x00)) E)
(L (W x7a xe9 xfe xff x78 x00 x00 x00))))
(T (W x00 x00 x80 x3f x00 x00 x80 x3f)
(T (W xff xff xff xff xff xff xff xff)
(T (W x00 x00 x00 x00 x72 xaa xfd xff)
(L (W xc8 x00 x00 x00 x01 x00 x00 x00)) E)
(L (W x00 x00 x00 x00 x00 x00 x00 x00)))
(T (W xff xff xff xff xff xff xff xff)
(L (W x00 x00 x00 x00 x00 x00 x00 x00))
(L (W x00 x00 x01 x01 xaa x01 x00 x00))))))
(T (W x45 x26 x22 x84 xe4 x9c xf2 xcb)
(T (W x00 x00 x00 x00 x00 x00 x00 x00)
(T (W xff xff xff xff xff xff xff xff)
(T (W x45 x26 x22 x84 xe4 x9c xf2 xcb)
(T (W x00 x00 x80 x3f x00 x00 x80 x3f)
(L (W x00 x00 x80 xbf x00 x00 x80 xbf)) E)
(L (W x00 x00 x80 xbf x00 x00 x80 xbf)))
(T (W x3a x00 x00 x00 x10 x00 x00 x00)
(T (W x00 x00 x00 x00 x00 x00 x00 x00)
(L (W x00 x00 x00 x00 x00 x00 x00 x00)) E)
(L (W x00 x00 x00 x00 x00 x00 x00 x00))))
(T (W x45 x26 x22 x84 xe4 x9c xf2 xcb)
(T (W x45 x26 x22 x84 xe4 x9c xf2 xcb)
(T (W xff xff xff xff xff xff xff xff)
(L (W x4f x84 x6f x8b xe8 xcb x63 xb7)) E)
(L (W x2b x09 xb3 x28 xbf xdc x60 x6a)))
(T (W x50 x00 x00 x00 x44 x00 x00 x00)
(L (W x00 x00 x80 xbf x00 x00 x80 xbf))
(L (W xff xff xff xff xff xff xff xff)))))
(T (W xff xff xff xff xff xff xff xff)
(T (W xa4 xfc xfb xff x00 x01 x01 x01)
(T (W x00 x00 x00 x00 xaa x78 xfc xff)
(T (W x18 x00 x00 x00 x10 x00 x00 x00)
(L (W xff xff xff xff xff xff xff xff)) E)
(L (W xc4 x00 x00 x00 x01 x00 x00 x00)))
(T (W xff xff xff xff xff xff xff xff)
(T (W xc2 xf7 xfd xff x74 x00 x00 x00)
(L (W x0c x00 x00 x00 x18 x00 x00 x00)) E)
(L (W x00 x00 x80 xbf x00 x00 x80 xbf))))
(T (W x45 x26 x22 x84 xe4 x9c xf2 xcb)
(T (W x0c xc0 xfc xff x21 x00 x00 x00)
(T (W xc4 x00 x00 x00 x01 x00 x00 x00)
(L (W x04 x00 x00 x00 x72 xba xff xff)) E)
(L (W xff xff xff xff xff xff xff xff)))
(T (W xff xff xff xff xff xff xff xff)
(L (W x45 x26 x22 x84 xe4 x9c xf2 xcb))
(L (W x04 x00 x00 x00 x72 x3a xff xff))))))))
(T (W xc0 x00 x00 x00 xb4 x00 x00 x00)
(T (W xff xff xff xff xff xff xff xff)
(T (W xff xff xff xff xff xff xff xff)
(T (W xc0 x00 x00 x00 xb4 x00 x00 x00)
(T (W x00 x00 x80 x3f x00 x00 x80 x3f)
(T (W xff xff xff xff xff xff xff xff)
(T (W x00 x00 x00 x00 x00 x00 x00 x00)
(L (W x00 x00 x80 xbf x00 x00 x80 xbf)) E)
(L (W xff xff xff xff xff xff xff xff)))
(T (W xff xff xff xff xff xff xff xff)
(T (W x00 x00 x00 x00 x00 x00 x00 x00)
(L (W xa4 xc8 xff xff x00 x01 x01 x01)) E)
(L (W x00 x00 x80 xbf x00 x00 x80 xbf))))
(T (W x00 x00 x00 x00 x00 x00 x00 x00)
(T (W xff xff xff xff xc8 x00 x00 x00)
(T (W x00 x00 x00 x00 x00 x00 x00 x00)
(L (W x54 x00 x00 x00 x48 x00 x00 x00)) E)
(L (W x00 x00 x00 x00 x00 x00 x00 x00)))
(T (W x45 x26 x22 x84 xe4 x9c xf2 xcb)
(L (W x00 x00 x80 xbf x00 x00 x80 xbf))
(L (W xff xff xff xff xff xff xff xff)))))
(T (W x50 x00 x00 x00 x44 x00 x00 x00)
(T (W x00 x00 x00 x00 x00 x00 x00 x00)
(T (W x68 x00 x00 x00 x5c x00 x00 x00)
(T (W xff xff xff xff xff xff xff xff)
(L (W x00 x00 x00 x00 x00 x00 x00 x00)) E)
(L (W x45 x44 x00 x00 x00 x00 x00 x00)))
(T (W xff xff xff xff xff xff xff xff)
(T (W x00 x00 x00 x00 x00 x00 x00 x00)
(L (W x00 x00 x01 x01 x69 x01 x00 x00)) E)
(L (W x00 x00 x00 x00 x82 xed xfe xff))))
(T (W xff xff xff xff xff xff xff xff)
(T (W x00 x00 x00 x00 x00 x00 x00 x00)
(T (W x00 x00 x00 x00 x00 x00 x00 x00)
(L (W xff xff xff xff xff xff xff xff)) E)
(L (W x00 x00 x80 xbf x00 x00 x80 xbf)))
(T (W x45 x26 x22 x84 xe4 x9c xf2 xcb)
(L (W x14 x00 x00 x00 x0c x00 x00 x00))
(L (W x00 x00 x80 xbf x00 x00 x80 xbf))))))
(T (W x18 x00 x00 x00 x10 x00 x00 x00)
(T (W x00 x00 x00 x00 x14 x97 xfb xff)
(T (W x00 x00 x00 x00 x00 x00 x00 x00)
(T (W xb8 x00 x00 x00 xac x00 x00 x00)
(T (W x18 x01 x00 x00 x04 x00 x00 x00)
(L (W x04 x00 x00 x00 x72 x56 xff xff)) E)
(L (W xff xff xff xff xff xff xff xff)))
(T (W x00 x00 x80 x3f x00 x00 x80 x3f)
(T (W xff xff xff xff xff xff xff xff)
(L (W x2d x00 x00 x00 x30 x00 x00 x00)) E)
(L (W xff xff xff xff xff xff xff xff))))
(T (W x01 x00 x00 x00 x04 x00 x00 x00)
(T (W x00 x00 x00 x00 x00 x00 x00 x00)
(T (W x32 x00 x00 x00 x10 x00 x00 x00)
(L (W xff xff xff xff xff xff xff xff)) E)
(L (W x6c x00 x00 x00 x60 x00 x00 x00)))
(T (W x38 x01 x00 x00 x04 x00 x00 x00)
(L (W xff xff xff xff x9c x00 x00 x00))
(L (W x49 xa1 x68 x4a xeb x5f xdd x3d)))))
(T (W xa4 xb8 xfb xff x00 x01 x01 x01)
(T (W x45 x26 x22 x84 xe4 x9c xf2 xcb)
(T (W x00 x00 x80 x3f x00 x00 x80 x3f)
(T (W x00 x00 x00 x00 x00 x00 x00 x00)
(L (W x45 x26 x22 x84 xe4 x9c xf2 xcb)) E)
(L (W x45 x44 x00 x00 x00 x00 x00 x00)))
(T (W x00 x00 x80 x3f x00 x00 x80 x3f)
(T (W x00 x00 x00 x00 x00 x00 x00 x00)
(L (W x00 x00 x2a x00 x58 x00 x44 x00)) E)
(L (W x00 x00 x00 x00 x82 xfd xfe xff))))
(T (W xff xff xff xff xff xff xff xff)
(T (W xa4 xb8 xfc xff x00 x01 x01 x01)
(T (W x45 x26 x22 x84 xe4 x9c xf2 xcb)
(L (W x6c x00 x00 x00 x60 x00 x00 x00)) E)
(L (W x45 x26 x22 x84 xe4 x9c xf2 xcb)))
(T (W x45 x26 x22 x84 xe4 x9c xf2 xcb)
(L (W x30 x35 x5f x43 x4c x45 x41 x52))
(L (W x3c x00 x00 x00 x00 x00 x80 xbf)))))))
(T (W xb8 x00 x00 x00 xac x00 x00 x00)
(T (W xff xff xff xff x04 x00 x00 x00)
(T (W xff xff xff xff x03 x00 x00 x00)
(T (W x00 x00 x80 x3f x00 x00 x80 x3f)
(T (W xff xff xff xff xff xff xff xff)
(T (W x00 x00 x00 x00 x00 x00 x00 x00)
(L (W xff xff xff xff x9c x00 x00 x00)) E)
(L (W xff xff xff xff xff xff xff xff)))
(T (W x00 x00 x00 x00 x00 x00 x00 x00)
(T (W x7a xcd xfd xff x78 x00 x00 x00)
(L (W xbc x00 x00 x00 x64 x00 x00 x00)) E)
(L (W xa4 xd0 xfe xff x00 x01 x01 x01))))
(T (W x3c x17 xfc xff x3c x00 x00 x00)
(T (W xff xff xff xff xff xff xff xff)
(T (W x00 x00 x80 x3f x00 x00 x80 x3f)
(L (W x6c x00 x00 x00 x60 x00 x00 x00)) E)
(L (W x00 x00 x80 xbf x00 x00 x80 xbf)))
(T (W xff xff xff xff xff xff xff xff)
(L (W x6c x00 x00 x00 x60 x00 x00 x00))
(L (W x00 x00 x00 x00 x00 x00 x00 x00)))))
(T (W x00 x00 x80 x3f x00 x00 x80 x3f)
(T (W x00 x00 x00 x00 x00 x00 x00 x00)
(T (W x18 x00 x00 x00 x10 x00 x00 x00)
(T (W x00 x00 x00 x00 x14 x6f xfd xff)
(L (W x00 x00 x80 xbf x00 x00 x80 xbf)) E)
(L (W x00 x00 x01 x01 x42 x00 x00 x00)))
(T (W x00 x00 x00 x00 x00 x00 x00 x00)
(T (W x46 x53 x59 x53 x5f x4e x53 x5f)
(L (W x00 x00 x80 xbf x00 x00 x80 xbf)) E)
(L (W x00 x00 x01 x01 x43 x00 x00 x00))))
(T (W xff xff xff xff xff xff xff xff)
(T (W x00 x00 x80 x3f x00 x00 x80 x3f)
(T (W xff xff xff xff xa0 x00 x00 x00)
(L (W x7a xad xff xff x78 x00 x00 x00)) E)
(L (W x4f x84 x6f x8b xe8 xcb x63 xb7)))
(T (W x00 x00 x80 x3f x00 x00 x80 x3f)
(L (W x04 x00 x00 x00 x72 x2e xfe xff))
(L (W x00 x00 x80 xbf x00 x00 x80 xbf))))))
(T (W xb8 x00 x00 x00 xac x00 x00 x00)
(T (W x45 x26 x22 x84 xe4 x9c xf2 xcb)
(T (W x00 x00 x00 x00 x00 x00 x00 x00)
(T (W x45 x26 x22 x84 xe4 x9c xf2 xcb)
(T (W xff xff xff xff xff xff xff xff)
(L (W x46 x53 x59 x53 x5f x4e x53 x5f)) E)
(L (W x18 x00 x00 x00 x0c x00 x00 x00)))
(T (W xff xff xff xff x9c x00 x00 x00)
(T (W xff xff xff xff xff xff xff xff)
(L (W xb0 x00 x00 x00 x64 x00 x00 x00)) E)
(L (W xff xff xff xff xff xff xff xff))))
(T (W xff xff xff xff xff xff xff xff)
(T (W x00 x00 x00 x00 x00 x00 x00 x00)
(T (W xff xff xff xff xff xff xff xff)
(L (W xff xff xff xff xff xff xff xff)) E)
(L (W x6c x00 x00 x00 x60 x00 x00 x00)))
(T (W x5f x4e x53 x5f x30 x35 x5f x43)
(L (W x03 x00 x00 x00 xd0 x00 x00 x00))
(L (W x45 x26 x22 x84 xe4 x9c xf2 xcb)))))
(T (W x00 x00 x80 x3f x00 x00 x80 x3f)
(T (W x00 x00 x00 x00 x00 x00 x00 x00)
(T (W x7a x7d xfc xff x78 x00 x00 x00)
(T (W x00 x00 x00 x00 x00 x00 x00 x00)
(L (W x00 x00 x80 xbf x00 x00 x80 xbf)) E)
(L (W x00 x00 x00 x00 x00 x00 x00 x00)))
(T (W x00 x00 x80 x3f x00 x00 x80 x3f)
(T (W x00 x00 x00 x00 x00 x00 x00 x00)
(L (W x45 x44 x00 x00 x00 x00 x00 x00)) E)
(L (W xff xff xff xff xff xff xff xff))))
(T (W xff xff xff xff xff xff xff xff)
(T (W x18 x00 x00 x00 x10 x00 x00 x00)
(T (W x45 x26 x22 x84 xe4 x9c xf2 xcb)
(L (W x00 x00 x80 xbf x00 x00 x80 xbf)) E)
(L (W x00 x00 x80 xbf x00 x00 x80 xbf)))
(T (W x00 x00 x80 x3f x00 x00 x80 x3f)
(L (W x81 x92 xc4 x28 xbf x60 x75 x6a))
(L (W x00 x00 x80 xbf x00 x00 x80 xbf)))))))))
(T (W xff xff xff xff xff xff xff xff)
(T (W x00 x00 x80 x3f x00 x00 x80 x3f)
(T (W x00 x00 x80 x3f x00 x00 x80 x3f)
(T (W x00 x00 x80 x3f x00 x00 x80 x3f)
(T (W x00 x00 x80 x3f x00 x00 x80 x3f)
(T (W x00 x00 x00 x00 x00 x00 x00 x00)
(T (W x68 x00 x00 x00 x5c x00 x00 x00)
(T (W x18 x01 x00 x00 x04 x00 x00 x00)
(L (W x49 xa1 x68 x4a xeb x5f xdd x3d)) E)
(L (W xff xff xff xff xff xff xff xff)))
(T (W xc2 xc1 xfc xff x74 x00 x00 x00)
(T (W x00 x00 x00 x00 x00 x00 x00 x00)
(L (W x00 x00 x80 xbf x00 x00 x80 xbf)) E)
(L (W x45 x26 x22 x84 xe4 x9c xf2 xcb))))
(T (W xff xff xff xff xff xff xff xff)
(T (W x00 x00 x80 x3f x00 x00 x80 x3f)
(T (W x00 x00 x00 x00 x02 x00 x00 x00)
(L (W x00 x00 x00 x00 x00 x00 x00 x00)) E)
(L (W x00 x00 x00 x00 x00 x00 x00 x00)))
(T (W x00 x00 x80 x3f x00 x00 x80 x3f)
(L (W x00 x00 x00 x00 x00 x00 x00 x00))
(L (W xb4 x00 x00 x00 x14 x00 x00 x00)))))
(T (W x00 x00 x00 x00 x00 x00 x00 x00)
(T (W x00 x00 x00 x00 x00 x00 x00 x00)
(T (W x00 x00 x80 x3f x00 x00 x80 x3f)
(T (W xc2 x61 xfd xff x74 x00 x00 x00)
(L (W xff xff xff xff xff xff xff xff)) E)
(L (W x26 x00 x00 x00 x29 x00 x00 x00)))
(T (W x3b x00 x00 x00 x3e x00 x00 x00)
(T (W xff xff xff xff xff xff xff xff)
(L (W xff xff xff xff xff xff xff xff)) E)
(L (W x18 x00 x00 x00 x10 x00 x00 x00))))
(T (W xff xff xff xff xff xff xff xff)
(T (W x00 x00 x00 x00 x00 x00 x00 x00)
(T (W xff xff xff xff xff xff xff xff)
(L (W x7a xa3 xff xff x78 x00 x00 x00)) E)
(L (W x00 x00 x00 x00 x00 x00 x00 x00)))
(T (W x02 x00 x00 x00 x38 x01 x00 x00)
(L (W x00 x00 x80 xbf x00 x00 x80 xbf))
(L (W x46 x53 x59 x53 x5f x4e x53 x5f))))))
(T (W xc2 x71 xfb xff x74 x00 x00 x00)
(T (W x00 x00 x80 x3f x00 x00 x80 x3f)
(T (W x00 x00 x00 x00 x00 x00 x00 x00)
(T (W x00 x00 x80 x3f x00 x00 x80 x3f)
(T (W xff xff xff xff xff xff xff xff)
(L (W x18 x00 x00 x00 x0c x00 x00 x00)) E)
(L (W xa4 x00 x00 x00 x14 x00 x00 x00)))
(T (W x00 x00 x00 x00 x00 x00 x00 x00)
(T (W x00 x00 x80 xbf x00 x00 x80 xbf)
(L (W x00 x01 x01 x01 xfa xe2 xff xff)) E)
(L (W x00 x00 x80 xbf x00 x00 x80 xbf))))
(T (W x64 x00 x00 x00 x9c x00 x00 x00)
(T (W xff xff xff xff x9c x00 x00 x00)
(T (W x04 x00 x00 x00 xe2 x97 x8f x3d)
(L (W x7a x93 xff xff x78 x00 x00 x00)) E)
(L (W x00 x00 x00 x00 x00 x00 x00 x00)))
(T (W xff xff xff xff xac x00 x00 x00)
(L (W x00 x00 x80 xbf x00 x00 x80 xbf))
(L (W x30 x35 x5f x43 x4c x45 x41 x52)))))
(T (W x45 x26 x22 x84 xe4 x9c xf2 xcb)
(T (W xff xff xff xff xff xff xff xff)
(T (W x77 x69 x6c x64 x5f x70 x6f x6b)
(T (W xbc x00 x00 x00 xb0 x00 x00 x00)
(L (W x00 x00 x00 x00 x00 x00 x00 x00)) E)
(L (W xff xff xff xff xff xff xff xff)))
(T (W xff xff xff xff x02 x00 x00 x00)
(T (W xff xff xff xff xff xff xff xff)
(L (W x00 x00 x62 x00 x78 x00 x08 x00)) E)
(L (W xff xff xff xff xff xff xff xff))))
(T (W x45 x26 x22 x84 xe4 x9c xf2 xcb)
(T (W x00 x00 x00 x00 x00 x00 x00 x00)
(T (W x1c x08 x00 x00 xd0 x06 x00 x00)
(L (W x00 x00 x80 xbf x00 x00 x80 xbf)) E)
(L (W x00 x00 x00 x00 x00 x00 x00 x00)))
(T (W x00 x00 x00 x00 x00 x00 x00 x00)
(L (W xff xff xff xff xff xff xff xff))
(L (W x49 xa1 x68 x4a xeb x5f xdd x3d)))))))
(T (W x00 x00 x80 x3f x00 x00 x80 x3f)
(T (W x68 x00 x00 x00 x5c x00 x00 x00)
(T (W x00 x00 x80 x3f x00 x00 x80 x3f)
(T (W x40 x00 x00 x00 x0c x00 x00 x00)
(T (W x00 x00 x80 x3f x00 x00 x80 x3f)
(T (W xff xff xff xff xff xff xff xff)
(L (W x00 x00 x80 xbf x00 x00 x80 xbf)) E)
(L (W x03 x00 x00 x00 xd0 x00 x00 x00)))
(T (W xff xff xff xff xff xff xff xff)
(T (W x00 x00 x00 x00 x00 x00 x00 x00)
(L (W x00 x00 x80 xbf x00 x00 x80 xbf)) E)
(L (W x00 x00 x80 xbf x00 x00 x80 xbf))))
(T (W xff xff xff xff xff xff xff xff)
(T (W x7a x8b xfc xff x78 x00 x00 x00)
(T (W x00 x00 x00 x00 x00 x00 x00 x00)
(L (W x49 xa1 x68 x4a xeb x5f xdd x3d)) E)
(L (W x00 x00 x00 x00 x00 x00 x00 x00)))
(T (W x00 x00 x80 x3f x00 x00 x80 x3f)
(L (W x00 x00 x00 x00 x00 x00 x00 x00))
(L (W xff xff xff xff xff xff xff xff)))))
(T (W x00 x00 x00 x00 x00 x00 x00 x00)
(T (W x00 x00 x00 x00 x04 x00 x00 x00)
(T (W x54 x00 x00 x00 x58 x00 x5c x00)
(T (W x00 x00 x80 x3f x00 x00 x80 x3f)
(L (W x00 x00 x00 x00 x82 x73 xff xff)) E)
(L (W xff xff xff xff xff xff xff xff)))
(T (W xff xff xff xff xff xff xff xff)
(T (W xff xff xff xff xff xff xff xff)
(L (W xdc x00 x00 x00 xff xff xff xff)) E)
(L (W xff xff xff xff xff xff xff xff))))
(T (W xff xff xff xff xff xff xff xff)
(T (W x00 x00 x00 x00 x00 x00 x00 x00)
(T (W x45 x26 x22 x84 xe4 x9c xf2 xcb)
(L (W x45 x26 x22 x84 xe4 x9c xf2 xcb)) E)
(L (W x62 x00 x00 x00 x3a x02 x00 x00)))
(T (W x00 x00 x00 x00 x00 x00 x00 x00)
(L (W xff xff xff xff xb0 x00 x00 x00))
(L (W x00 x00 x00 x00 x00 x00 x00 x00))))))
(T (W xa4 x7e xfb xff x00 x01 x01 x01)
(T (W x00 x00 x00 x00 x00 x00 x00 x00)
(T (W x00 x00 x00 x00 x00 x00 x00 x00)
(T (W x00 x00 x80 x3f x00 x00 x80 x3f)
(T (W x00 x00 x00 x00 x14 x5d xfd xff)
(L (W xb8 x00 x00 x00 x64 x00 x00 x00)) E)
(L (W xff xff xff xff xff xff xff xff)))
(T (W x00 x00 x80 x3f x00 x00 x80 x3f)
(T (W x68 x00 x00 x00 x5c x00 x00 x00)
(L (W x00 x00 x80 xbf x00 x00 x80 xbf)) E)
(L (W x31 x00 x00 x00 x34 x00 x00 x00))))
(T (W xff xff xff xff x03 x00 x00 x00)
(T (W xff xff xff xff xff xff xff xff)
(T (W x00 x00 x00 x00 x00 x00 x00 x00)
(L (W x6c x00 x00 x00 x60 x00 x00 x00)) E)
(L (W x00 x00 x80 xbf x00 x00 x80 xbf)))
(T (W xff xff xff xff xff xff xff xff)
(L (W x6c x00 x00 x00 x60 x00 x00 x00))
(L (W x00 x00 x00 x00 x00 x00 x00 x00)))))
(T (W x00 x00 x00 x00 x00 x00 x00 x00)
(T (W x7e x00 x00 x00 xff xff xff xff)
(T (W x00 x00 x00 x00 x00 x00 x00 x00)
(T (W xff xff xff xff xff xff xff xff)
(L (W x46 x53 x59 x53 x5f x4e x53 x5f)) E)
(L (W xff xff xff xff xff xff xff xff)))
(T (W x00 x00 x00 x00 x00 x00 x00 x00)
(T (W xff xff xff xff x01 x00 x00 x00)
(L (W x00 x00 x80 xbf x00 x00 x80 xbf)) E)
(L (W xff xff xff xff xff xff xff xff))))
(T (W x18 x00 x00 x00 x0c x00 x00 x00)
(T (W x00 x00 x80 x3f x00 x00 x80 x3f)
(T (W x61 x64 x65 x72 x5f x77 x69 x6c)
(L (W x45 x26 x22 x84 xe4 x9c xf2 xcb)) E)
(L (W x46 x53 x59 x53 x5f x4e x53 x5f)))
(T (W x00 x00 x00 x00 x00 x00 x00 x00)
(L (W x03 x00 x00 x00 xd8 x00 x00 x00))
(L (W x45 x26 x22 x84 xe4 x9c xf2 xcb))))))))
(T (W xff xff xff xff xff xff xff xff)
(T (W xff xff xff xff xff xff xff xff)
(T (W x00 x00 x80 x3f x00 x00 x80 x3f)
(T (W xff xff xff xff xff xff xff xff)
(T (W xff xff xff xff x03 x00 x00 x00)
(T (W x00 x00 x00 x00 x00 x00 x00 x00)
(T (W x00 x00 x80 x3f x00 x00 x80 x3f)
(L (W xff xff xff xff xff xff xff xff)) E)
(L (W x30 x35 x5f x43 x4c x45 x41 x52)))
(T (W x00 x00 x00 x00 x00 x00 x00 x00)
(T (W x00 x00 x80 x3f x00 x00 x80 x3f)
(L (W x04 x00 x00 x00 x72 xc8 xff xff)) E)
(L (W xbc x00 x00 x00 x64 x00 x00 x00))))
(T (W x00 x00 x80 x3f x00 x00 x80 x3f)
(T (W x69 x01 x00 x00 xff xff xff xff)
(T (W x00 x00 x00 x00 x14 x89 xfd xff)
(L (W xb0 x00 x00 x00 x14 x00 x00 x00)) E)
(L (W x00 x00 x80 xbf x00 x00 x80 xbf)))
(T (W x9d x01 x00 x00 xff xff xff xff)
(L (W x18 x00 x00 x00 x10 x00 x00 x00))
(L (W x00 x00 x00 x00 x00 x00 x00 x00)))))
(T (W xff xff xff xff xff xff xff xff)
(T (W x00 x00 x80 x3f x00 x00 x80 x3f)
(T (W xff xff xff xff xff xff xff xff)
(T (W x18 x01 x00 x00 x04 x00 x00 x00)
(L (W x00 x00 x80 xbf x00 x00 x80 xbf)) E)
(L (W x4f x84 x6f x8b xe8 xcb x63 xb7)))
(T (W x4f x84 x6f x8b xe8 xcb x63 xb7)
(T (W x00 x00 x80 xbf x00 x00 x80 xbf)
(L (W x00 x00 x80 xbf x00 x00 x80 xbf)) E)
(L (W x00 x00 x00 x00 x00 x00 x00 x00))))
(T (W x00 x00 x00 x00 x00 x00 x00 x00)
(T (W x6c x00 x00 x00 x60 x00 x00 x00)
(T (W xff xff xff xff xff xff xff xff)
(L (W xb8 x01 x00 x00 xff xff xff xff)) E)
(L (W xff xff xff xff xff xff xff xff)))
(T (W x2b x00 x00 x00 x2e x00 x00 x00)
(L (W xff xff xff xff xff xff xff xff))
(L (W xa4 x2a xff xff x00 x01 x01 x01))))))
(T (W x7a xe8 xfd xff x00 x00 x01 x01)
(T (W xff xff xff xff xff xff xff xff)
(T (W x45 x26 x22 x84 xe4 x9c xf2 xcb)
(T (W x41 x00 x00 x00 xff xff xff xff)
(T (W x00 x00 x00 x00 x00 x00 x00 x00)
(L (W x45 x26 x22 x84 xe4 x9c xf2 xcb)) E)
(L (W x00 x00 x00 x00 x00 x00 x00 x00)))
(T (W xff xff xff xff xbc x00 x00 x00)
(T (W x00 x00 x00 x00 x0a xe1 xfd xff)
(L (W xff xff xff xff xff xff xff xff)) E)
(L (W x00 x00 x00 x00 x00 x00 x00 x00))))
(T (W x45 x26 x22 x84 xe4 x9c xf2 xcb)
(T (W x00 x00 x00 x00 x00 x00 x00 x00)
(T (W x00 x00 x80 xbf x00 x00 x80 xbf)
(L (W x00 x00 x00 x00 x00 x00 x00 x00)) E)
(L (W xff xff xff xff xff xff xff xff)))
(T (W x45 x26 x22 x84 xe4 x9c xf2 xcb)
(L (W x00 x00 x00 x00 x82 x1f xfe xff))
(L (W x6c x00 x00 x00 x60 x00 x00 x00)))))
(T (W xb8 x00 x00 x00 xac x00 x00 x00)
(T (W x00 x00 x80 x3f x00 x00 x80 x3f)
(T (W xff xff xff xff xff xff xff xff)
(T (W x00 x00 x80 x3f x00 x00 x80 x3f)
(L (W x45 x26 x22 x84 xe4 x9c xf2 xcb)) E)
(L (W x00 x00 x80 xbf x00 x00 x80 xbf)))
(T (W xc2 xf5 xfc xff x74 x00 x00 x00)
(T (W x00 x00 x80 xbf x00 x00 x80 xbf)
(L (W x00 x00 x80 xbf x00 x00 x80 xbf)) E)
(L (W x4f x84 x6f x8b xe8 xcb x63 xb7))))
(T (W x00 x00 x00 x00 x00 x00 x00 x00)
(T (W xff xff xff xff xff xff xff xff)
(T (W x00 x00 x00 x00 x25 x00 x00 x00)
(L (W xff xff xff xff xb0 x00 x00 x00)) E)
(L (W x00 x00 x80 xbf x00 x00 x80 xbf)))
(T (W xc2 x35 xfd xff x74 x00 x00 x00)
(L (W x3c x00 x00 x00 x00 x00 x80 xbf))
(L (W x45 x26 x22 x84 xe4 x9c xf2 xcb)))))))
(T (W x00 x00 x00 x00 x00 x00 x00 x00)
(T (W x23 x00 x00 x00 x10 x00 x00 x00)
(T (W xff xff xff xff xff xff xff xff)
(T (W x00 x00 x00 x00 x14 xd1 xfb xff)
(T (W x7e x80 xd5 x15 x96 x13 x4a xc4)
(T (W x00 x00 x80 x3f x00 x00 x80 x3f)
(L (W x00 x00 x00 x00 x00 x00 x00 x00)) E)
(L (W x00 x00 x00 x00 x00 x00 x00 x00)))
(T (W x00 x00 x80 x3f x00 x00 x80 x3f)
(T (W xff xff xff xff xff xff xff xff)
(L (W xbe x00 x00 x00 xff xff xff xff)) E)
(L (W xff xff xff xff xff xff xff xff))))
(T (W x45 x26 x22 x84 xe4 x9c xf2 xcb)
(T (W x00 x00 x00 x00 x00 x00 x00 x00)
(T (W xff xff xff xff xff xff xff xff)
(L (W xff xff xff xff xff xff xff xff)) E)
(L (W x00 x00 x00 x00 x14 x91 xfe xff)))
(T (W x00 x00 x00 x00 x00 x00 x00 x00)
(L (W xff xff xff xff xff xff xff xff))
(L (W x00 x00 x80 xbf x00 x00 x80 xbf)))))
(T (W x18 x00 x00 x00 x10 x00 x00 x00)
(T (W x00 x00 x80 x3f x00 x00 x80 x3f)
(T (W xff xff xff xff xff xff xff xff)
(T (W xff xff xff xff xff xff xff xff)
(L (W x7a x6f xff xff x78 x00 x00 x00)) E)
(L (W x00 x00 x00 x00 x00 x00 x00 x00)))
(T (W x00 x00 x80 x3f x00 x00 x80 x3f)
(T (W x7a xef xfd xff x78 x00 x00 x00)
(L (W x54 x00 x00 x00 x48 x00 x00 x00)) E)
(L (W x00 x00 x00 x00 x00 x00 x00 x00))))
(T (W x0c x36 xfc xff x3e x00 x00 x00)
(T (W x18 x00 x00 x00 x10 x00 x00 x00)
(T (W x30 x35 x5f x43 x4c x45 x41 x52)
(L (W xff xff xff xff xff xff xff xff)) E)
(L (W xff xff xff xff xb0 x00 x00 x00)))
(T (W x01 x00 x00 x00 xa0 x00 x00 x00)
(L (W x45 x26 x22 x84 xe4 x9c xf2 xcb))
(L (W x31 x00 x00 x00 x34 x00 x00 x00))))))
(T (W xff xff xff xff xff xff xff xff)
(T (W xff xff xff xff xff xff xff xff)
(T (W x50 x00 x00 x00 x44 x00 x00 x00)
(T (W x7a xd0 xfe xff x00 x00 x01 x01)
(T (W x00 x00 x00 x00 x00 x00 x00 x00)
(L (W x00 x00 x80 xbf x00 x00 x80 xbf)) E)
(L (W x00 x00 x80 xbf x00 x00 x80 xbf)))
(T (W x00 x00 x00 x00 x01 x00 x00 x00)
(T (W x00 x00 x00 x00 x00 x00 x00 x00)
(L (W x00 x00 x00 x00 x00 x00 x00 x00)) E)
(L (W x00 x00 x00 x00 x00 x00 x00 x00))))
(T (W x00 x00 x00 x00 x00 x00 x00 x00)
(T (W x00 x00 x80 x3f x00 x00 x80 x3f)
(T (W x00 x00 x00 x00 x00 x00 x00 x00)
(L (W x87 xfb xaf x28 xbf x5d x5d x6a)) E)
(L (W xff xff xff xff xc0 x00 x00 x00)))
(T (W x50 x00 x00 x00 x44 x00 x00 x00)
(L (W x06 x00 x00 x00 x98 x05 x00 x00))
(L (W x00 x00 x80 xbf x00 x00 x80 xbf)))))
(T (W xc0 x00 x00 x00 xb4 x00 x00 x00)
(T (W x00 x00 x80 x3f x00 x00 x80 x3f)
(T (W xff xff xff xff xff xff xff xff)
(T (W xa4 x82 xfd xff x00 x01 x01 x01)
(L (W xff xff xff xff xb0 x00 x00 x00)) E)
(L (W x00 x00 x80 xbf x00 x00 x80 xbf)))
(T (W xff xff xff xff xff xff xff xff)
(T (W x50 x00 x00 x00 x44 x00 x00 x00)
(L (W xff xff xff xff xff xff xff xff)) E)
(L (W x00 x00 x00 x00 x00 x00 x00 x00))))
(T (W x00 x00 x00 x00 x00 x00 x00 x00)
(T (W xc8 x02 x00 x00 xff xff xff xff)
(T (W x7a xbf xfd xff x78 x00 x00 x00)
(L (W xff xff xff xff xff xff xff xff)) E)
(L (W xa4 xc2 xfe xff x00 x01 x01 x01)))
(T (W xc2 x3d xfd xff x74 x00 x00 x00)
(L (W x00 x00 x00 x00 x00 x00 x00 x00))
(L (W xbc x00 x00 x00 x64 x00 x00 x00))))))))))
(T (W xc8 x93 x01 x00 x94 x92 x01 x00)
(T (W x70 x67 x00 x00 x3c x66 x00 x00)
(T (W x00 x00 x80 x3f x00 x00 x80 x3f)
(T (W x45 x26 x22 x84 xe4 x9c xf2 xcb)
(T (W x45 x26 x22 x84 xe4 x9c xf2 xcb)
(T (W x00 x00 x80 x3f x00 x00 x80 x3f)
(T (W x7a x33 xfe xff x00 x00 x01 x01)
(T (W x00 x00 x80 x3f x00 x00 x80 x3f)
(T (W xff xff xff xff xff xff xff xff)
(L (W x00 x00 x00 x00 x00 x00 x00 x00)) E)
(L (W x2d x00 x00 x00 x30 x00 x00 x00)))
(T (W x00 x00 x80 x3f x00 x00 x80 x3f)
(T (W xff xff xff xff xff xff xff xff)
(L (W x00 x00 x00 x00 x00 x00 x00 x00)) E)
(L (W x00 x00 x00 x00 x12 x00 x00 x00))))
(T (W x64 x00 x00 x00 x9c x00 x00 x00)
(T (W x00 x00 x00 x00 x00 x00 x00 x00)
(T (W xff xff xff xff xff xff xff xff)
(L (W x00 x00 x00 x00 x82 x8a xff xff)) E)
(L (W xff xff xff xff xff xff xff xff)))
(T (W x00 x00 x00 x00 x00 x00 x00 x00)
(L (W xff xff xff xff x01 x00 x00 x00))
(L (W xa4 x05 xff xff x00 x01 x01 x01)))))
(T (W x00 x00 x00 x00 x00 x00 x00 x00)
(T (W x3a x77 xff xff x00 x00 x01 x01)
(T (W x00 x00 x80 x3f x00 x00 x80 x3f)
(T (W x00 x00 x80 x3f x00 x00 x80 x3f)
(L (W x2f x00 x00 x00 x32 x00 x00 x00)) E)
(L (W x7a x62 xfe xff x78 x00 x00 x00)))
(T (W xc2 xe0 xfc xff x74 x00 x00 x00)
(T (W x45 x26 x22 x84 xe4 x9c xf2 xcb)
(L (W xff xff xff xff xff xff xff xff)) E)
(L (W x54 x00 x00 x00 x48 x00 x00 x00))))
(T (W x01 x00 x00 x00 x3e x00 x00 x00)
(T (W xff xff xff xff xff xff xff xff)
(T (W xb0 x00 x00 x00 x64 x00 x00 x00)
(L (W x00 x00 x80 xbf x00 x00 x80 xbf)) E)
(L (W x0e x00 x00 x00 x0c x00 x00 x00)))
(T (W xff xff xff xff xff xff xff xff)
(L (W x00 x00 x80 xbf x00 x00 x80 xbf))
(L (W x00 x00 x01 x01 x63 x01 x00 x00))))))
(T (W x50 x00 x00 x00 x44 x00 x00 x00)
(T (W x00 x00 x00 x00 x00 x00 x00 x00)
(T (W x64 x01 x00 x00 xff xff xff xff)
(T (W x00 x00 x80 x3f x00 x00 x80 x3f)
(T (W x00 x00 x00 x00 x14 x54 xfd xff)
(L (W x00 x00 x80 xbf x00 x00 x80 xbf)) E)
(L (W x45 x26 x22 x84 xe4 x9c xf2 xcb)))
(T (W x6a x01 x00 x00 xff xff xff xff)
(T (W x00 x00 x00 x00 x00 x00 x00 x00)
(L (W x54 x00 x00 x00 x48 x00 x00 x00)) E)
(L (W x49 xa1 x68 x4a xeb x5f xdd x3d))))
(T (W x18 x00 x00 x00 x0c x00 x00 x00)
(T (W x7a x92 xfc xff x78 x00 x00 x00)
(T (W x7f x00 x00 x00 x7f x00 x00 x00)
(L (W x00 x00 x80 xbf x00 x00 x80 xbf)) E)
(L (W x00 x00 x00 x00 x00 x00 x00 x00)))
(T (W x00 x00 x00 x00 x14 x14 xfd xff)
(L (W x00 x00 x00 x00 x00 x00 x00 x00))
(L (W xff xff xff xff xff xff xff xff)))))
(T (W x00 x00 x00 x00 x00 x00 x00 x00)
(T (W xff xff xff xff xff xff xff xff)
(T (W x01 x00 x00 x00 xff xff xff xff)
(T (W x00 x00 x00 x00 x00 x00 x00 x00)
(L (W x00 x00 x00 x00 x00 x00 x00 x00)) E)
(L (W xcc x00 x00 x00 x01 x00 x00 x00)))
(T (W xff xff xff xff xff xff xff xff)
(T (W xff xff xff xff xff xff xff xff)
(L (W xff xff xff xff xff xff xff xff)) E)
(L (W xff xff xff xff xff xff xff xff))))
(T (W x7a x32 xfc xff x78 x00 x00 x00)
(T (W x00 x00 x00 x00 x00 x00 x00 x00)
(T (W x00 x00 x00 x00 x14 xb4 xfd xff)
(L (W x00 x00 x00 x00 x00 x00 x00 x00)) E)
(L (W x00 x00 x00 x00 x82 xba xfe xff)))
(T (W x0a xa2 xff xff x73 x02 x00 x00)
(L (W xff xff xff xff xb0 x00 x00 x00))
(L (W x00 x00 x00 x00 x00 x00 x00 x00)))))))
(T (W x00 x00 x00 x00 x00 x00 x00 x00)
(T (W x00 x00 x80 x3f x00 x00 x80 x3f)
(T (W x00 x00 x00 x00 x00 x00 x00 x00)
(T (W xff xff xff xff xff xff xff xff)
(T (W x45 x26 x22 x84 xe4 x9c xf2 xcb)
(T (W xff xff xff xff xff xff xff xff)
(L (W x4f x84 x6f x8b xe8 xcb x63 xb7)) E)
(L (W x18 x00 x00 x00 x10 x00 x00 x00)))
(T (W xff xff xff xff x9c x00 x00 x00)
(T (W x00 x00 x00 x00 x00 x00 x00 x00)
(L (W x00 x00 x80 xbf x00 x00 x80 xbf)) E)
(L (W x00 x00 x00 x00 x00 x00 x00 x00))))
(T (W x00 x00 x00 x00 x14 x0c xfc xff)
(T (W x00 x00 x80 x3f x00 x00 x80 x3f)
(T (W x18 x01 x00 x00 x04 x00 x00 x00)
(L (W x00 x00 x00 x00 x00 x00 x00 x00)) E)
(L (W x00 x00 x00 x00 x00 x00 x00 x00)))
(T (W x00 x00 x80 x3f x00 x00 x80 x3f)
(L (W x00 x00 x00 x00 x00 x00 x00 x00))
(L (W xff xff xff xff xff xff xff xff)))))
(T (W x00 x00 x00 x00 x00 x00 x00 x00)
(T (W xff xff xff xff xff xff xff xff)
(T (W xc2 x68 xfc xff x74 x00 x00 x00)
(T (W x00 x00 x80 x3f x00 x00 x80 x3f)
(L (W xff xff xff xff xff xff xff xff)) E)
(L (W xff xff xff xff xff xff xff xff)))
(T (W x45 x26 x22 x84 xe4 x9c xf2 xcb)
(T (W x03 x00 x00 x00 xd8 x00 x00 x00)
(L (W xff xff xff xff xff xff xff xff)) E)
(L (W x2f x00 x00 x00 x32 x00 x00 x00))))
(T (W x68 x00 x00 x00 x5c x00 x00 x00)
(T (W x00 x00 x00 x00 x00 x00 x00 x00)
(T (W x00 x00 x00 x00 x12 x00 x00 x00)
(L (W x34 x00 x38 x00 x3c x00 x40 x00)) E)
(L (W x68 x00 x00 x00 x5c x00 x00 x00)))
(T (W x35 x00 x00 x00 x0c x00 x00 x00)
(L (W x40 x00 x00 x00 x00 x00 x80 xbf))
(L (W x46 x53 x59 x53 x5f x4e x53 x5f))))))
(T (W x00 x00 x80 x3f x00 x00 x80 x3f)
(T (W x00 x00 x00 x00 x00 x00 x00 x00)
(T (W xc2 x6d xff xff x64 x01 x00 x00)
(T (W x00 x00 x80 x3f x00 x00 x80 x3f)
(T (W xc2 x58 xfd xff x74 x00 x00 x00)
(L (W xa4 x5d xff xff x00 x01 x01 x01)) E)
(L (W x00 x00 x00 x00 x14 x5c xfe xff)))
(T (W x00 x00 x00 x00 x00 x00 x00 x00)
(T (W x00 x00 x80 xbf x00 x00 x80 xbf)
(L (W x4f x84 x6f x8b xe8 xcb x63 xb7)) E)
(L (W x00 x00 x80 xbf x00 x00 x80 xbf))))
(T (W x40 x00 x00 x00 x9c x00 x00 x00)
(T (W xff xff xff xff xc8 x00 x00 x00)
(T (W xd7 x00 x00 x00 xff xff xff xff)
(L (W x00 x00 x80 xbf x00 x00 x80 xbf)) E)
(L (W x00 x00 x00 x00 x00 x00 x00 x00)))
(T (W xff xff xff xff xff xff xff xff)
(L (W x00 x00 x80 xbf x00 x00 x80 xbf))
(L (W x00 x00 x00 x00 x00 x00 x00 x00)))))
(T (W x29 x00 x00 x00 x0c x00 x00 x00)
(T (W xff xff xff xff xff xff xff xff)
(T (W x00 x00 x00 x00 x00 x00 x00 x00)
(T (W xff xff xff xff xff xff xff xff)
(L (W x00 x00 x01 x01 x90 x01 x00 x00)) E)
(L (W xff xff xff xff xff xff xff xff)))
(T (W x00 x00 x00 x00 x00 x00 x00 x00)
(T (W xff xff xff xff xff xff xff xff)
(L (W x49 xa1 x68 x4a xeb x5f xdd x3d)) E)
(L (W x68 x00 x00 x00 x5c x00 x00 x00))))
(T (W x00 x00 x80 x3f x00 x00 x80 x3f)
(T (W x00 x00 x00 x00 x00 x00 x00 x00)
(T (W xff xff xff xff xff xff xff xff)
(L (W x00 x00 x00 x00 x12 x00 x00 x00)) E)
(L (W x00 x00 x00 x00 x0a xc4 xfe xff)))
(T (W x18 x01 x00 x00 x04 x00 x00 x00)
(L (W xa4 x00 x00 x00 x14 x00 x00 x00))
(L (W x00 x00 x00 x00 x12 x00 x00 x00))))))))
(T (W xff xff xff xff xff xff xff xff)
(T (W xff xff xff xff xff xff xff xff)
(T (W x00 x00 x00 x00 x1c x00 x20 x00)
(T (W xff xff xff xff xff xff xff xff)
(T (W x50 x00 x00 x00 x44 x00 x00 x00)
(T (W x20 x01 x00 x00 x04 x00 x00 x00)
(T (W x00 x00 x80 x3f x00 x00 x80 x3f)
(L (W x00 x00 x00 x00 x14 x48 xff xff)) E)
(L (W xff xff xff xff xff xff xff xff)))
(T (W x27 x00 x00 x00 x10 x00 x00 x00)
(T (W x00 x00 x80 x3f x00 x00 x80 x3f)
(L (W xb8 x00 x00 x00 x64 x00 x00 x00)) E)
(L (W xa4 xc9 xfe xff x00 x01 x01 x01))))
(T (W x00 x00 x00 x00 x00 x00 x00 x00)
(T (W xff xff xff xff xff xff xff xff)
(T (W xc2 x84 xfd xff x74 x00 x00 x00)
(L (W xa4 x89 xff xff x00 x01 x01 x01)) E)
(L (W x00 x00 x80 xbf x00 x00 x80 xbf)))
(T (W xff xff xff xff xbc x00 x00 x00)
(L (W x6c x00 x00 x00 x60 x00 x00 x00))
(L (W x00 x00 x00 x00 x00 x00 x00 x00)))))
(T (W xbc x00 x00 x00 xb0 x00 x00 x00)
(T (W x00 x00 x00 x00 x00 x00 x00 x00)
(T (W xb8 x00 x00 x00 xac x00 x00 x00)
(T (W xff xff xff xff xff xff xff xff)
(L (W x49 xa1 x68 x4a xeb x5f xdd x3d)) E)
(L (W x00 x00 x00 x00 x00 x00 x00 x00)))
(T (W x13 x00 x00 x00 x10 x00 x00 x00)
(T (W x49 xa1 x68 x4a xeb x5f xdd x3d)
(L (W x30 x35 x5f x43 x4c x45 x41 x52)) E)
(L (W x00 x00 x00 x00 x00 x00 x00 x00))))
(T (W x01 x00 x00 x00 x04 x00 x00 x00)
(T (W x00 x00 x80 x3f x00 x00 x80 x3f)
(T (W x00 x00 x80 xbf x00 x00 x80 xbf)
(L (W xff xff xff xff xff xff xff xff)) E)
(L (W x00 x00 x00 x00 x14 xa8 xfe xff)))
(T (W xc2 x24 xfd xff x74 x00 x00 x00)
(L (W xff xff xff xff xff xff xff xff))
(L (W x54 x00 x00 x00 x48 x00 x00 x00))))))
(T (W xff xff xff xff xff xff xff xff)
(T (W xff xff xff xff xff xff xff xff)
(T (W x00 x00 x80 x3f x00 x00 x80 x3f)
(T (W xff xff xff xff xff xff xff xff)
(T (W x00 x00 x00 x00 x00 x00 x00 x00)
(L (W x00 x00 x00 x00 x12 x00 x00 x00)) E)
(L (W x4d x99 xc4 x28 xbf x64 x75 x6a)))
(T (W xc2 xd4 xfc xff x74 x00 x00 x00)
(T (W xff xff xff xff xff xff xff xff)
(L (W xff xff xff xff xff xff xff xff)) E)
(L (W xff xff xff xff xff xff xff xff))))
(T (W x00 x00 x00 x00 x00 x00 x00 x00)
(T (W x00 x00 x00 x00 x00 x00 x00 x00)
(T (W x00 x00 x00 x00 x00 x00 x00 x00)
(L (W xff xff xff xff xff xff xff xff)) E)
(L (W xff xff xff xff xa0 x00 x00 x00)))
(T (W x00 x00 x00 x00 x00 x00 x00 x00)
(L (W xff xff xff xff xff xff xff xff))
(L (W x00 x00 x80 xbf x00 x00 x80 xbf)))))
(T (W x18 x00 x00 x00 x10 x00 x00 x00)
(T (W x00 x00 x80 x3f x00 x00 x80 x3f)
(T (W x18 x00 x00 x00 x0c x00 x00 x00)
(T (W x00 x00 x80 x3f x00 x00 x80 x3f)
(L (W x6c x00 x00 x00 x60 x00 x00 x00)) E)
(L (W x00 x00 x00 x00 x00 x00 x00 x00)))
(T (W x00 x00 x80 x3f x00 x00 x80 x3f)
(T (W x00 x00 x00 x00 x00 x00 x00 x00)
(L (W x6c x00 x0c x00 x00 x00 x00 x00)) E)
(L (W x00 x00 x00 x00 x00 x00 x00 x00))))
(T (W x7a xa7 xfe xff x00 x00 x01 x01)
(T (W xbc x00 x00 x00 x64 x00 x00 x00)
(T (W xff xff xff xff xff xff xff xff)
(L (W x45 x26 x22 x84 xe4 x9c xf2 xcb)) E)
(L (W x00 x00 x80 xbf x00 x00 x80 xbf)))
(T (W x54 x00 x00 x00 x48 x00 x00 x00)
(L (W x00 x00 x00 x00 x00 x00 x00 x00))
(L (W x6c x00 x00 x00 x60 x00 x00 x00)))))))
(T (W xff xff xff xff xff xff xff xff)
(T (W xff xff xff xff xff xff xff xff)
(T (W xff xff xff xff xff xff xff xff)
(T (W x6c x00 x00 x00 x60 x00 x00 x00)
(T (W xff xff xff xff xff xff xff xff)
(T (W x00 x00 x00 x00 x00 x00 x00 x00)
(L (W xff xff xff xff xff xff xff xff)) E)
(L (W x45 x44 x00 x00 x00 x00 x00 x00)))
(T (W x45 x26 x22 x84 xe4 x9c xf2 xcb)
(T (W x18 x00 x00 x00 x0c x00 x00 x00)
(L (W xff xff xff xff xff xff xff xff)) E)
(L (W xb8 x00 x00 x00 x32 x00 x00 x00))))
(T (W x00 x00 x00 x00 x00 x00 x00 x00)
(T (W x00 x00 x00 x00 x00 x00 x00 x00)
(T (W x00 x00 x80 x3f x00 x00 x80 x3f)
(L (W x18 x00 x00 x00 x10 x00 x00 x00)) E)
(L (W x00 x00 x80 xbf x00 x00 x80 xbf)))
(T (W x02 x00 x00 x00 xff xff xff xff)
(L (W x18 x00 x00 x00 x10 x00 x00 x00))
(L (W x00 x00 x00 x00 x00 x00 x00 x00)))))
(T (W x45 x26 x22 x84 xe4 x9c xf2 xcb)
(T (W x45 x26 x22 x84 xe4 x9c xf2 xcb)
(T (W xb8 x00 x00 x00 xac x00 x00 x00)
(T (W xff xff xff xff xff xff xff xff)
(L (W x00 x00 x80 xbf x00 x00 x80 xbf)) E)
(L (W x30 x35 x5f x43 x4c x45 x41 x52)))
(T (W x00 x00 x00 x00 x00 x00 x00 x00)
(T (W x00 x00 x00 x00 x00 x00 x00 x00)
(L (W x00 x00 x80 xbf x00 x00 x80 xbf)) E)
(L (W x46 x53 x59 x53 x5f x4e x53 x5f))))
(T (W xff xff xff xff xff xff xff xff)
(T (W x6c x00 x00 x00 x60 x00 x00 x00)
(T (W xff xff xff xff xff xff xff xff)
(L (W x18 x00 x00 x00 x0c x00 x00 x00)) E)
(L (W x00 x00 x80 xbf x00 x00 x80 xbf)))
(T (W x00 x00 x80 x3f x00 x00 x80 x3f)
(L (W x00 x00 x00 x00 x12 x00 x00 x00))
(L (W x7a x2e xff xff x78 x00 x00 x00))))))
(T (W xff xff xff xff xff xff xff xff)
(T (W x64 x00 x00 x00 x9c x00 x00 x00)
(T (W x00 x00 x80 x3f x00 x00 x80 x3f)
(T (W xff xff xff xff xff xff xff xff)
(T (W x18 x01 x00 x00 x04 x00 x00 x00)
(L (W x00 x00 x00 x00 x00 x00 x00 x00)) E)
(L (W x00 x00 x00 x00 x00 x00 x00 x00)))
(T (W xff xff xff xff xff xff xff xff)
(T (W x35 x00 x00 x00 x0c x00 x00 x00)
(L (W xff xff xff xff xff xff xff xff)) E)
(L (W x00 x00 x00 x00 x00 x00 x00 x00))))
(T (W x0c x25 xfc xff x3c x00 x00 x00)
(T (W x49 xa1 x68 x4a xeb x5f xdd x3d)
(T (W x04 x00 x00 x00 x0a xa8 xfd xff)
(L (W xff xff xff xff xff xff xff xff)) E)
(L (W x45 x26 x22 x84 xe4 x9c xf2 xcb)))
(T (W x00 x00 x00 x00 x00 x00 x00 x00)
(L (W xff xff xff xff xff xff xff xff))
(L (W x00 x00 x80 xbf x00 x00 x80 xbf)))))
(T (W x40 x00 x00 x00 x9c x00 x00 x00)
(T (W x00 x00 x80 x3f x00 x00 x80 x3f)
(T (W xff xff xff xff x9c x00 x00 x00)
(T (W x00 x00 x00 x00 x00 x00 x00 x00)
(L (W x00 x00 x80 xbf x00 x00 x80 xbf)) E)
(L (W x00 x00 x80 xbf x00 x00 x80 xbf)))
(T (W xff xff xff xff xac x00 x00 x00)
(T (W x45 x26 x22 x84 xe4 x9c xf2 xcb)
(L (W x6c x00 x00 x00 x60 x00 x00 x00)) E)
(L (W x00 x00 x00 x00 x82 x06 xff xff))))
(T (W x00 x00 x00 x00 x00 x00 x00 x00)
(T (W xff xff xff xff xff xff xff xff)
(T (W x00 x00 x80 x3f x00 x00 x80 x3f)
(L (W xff xff xff xff xff xff xff xff)) E)
(L (W x00 x00 x80 xbf x00 x00 x80 xbf)))
(T (W x00 x00 x80 x3f x00 x00 x80 x3f)
(L (W x00 x00 x00 x00 x00 x00 x00 x00))
(L (W xa4 x41 xff xff x00 x01 x01 x01)))))))))
(T (W x55 xd9 x8f x13 xcf x3f x71 x9d)
(T (W x18 x00 x00 x00 x0c x00 x00 x00)
(T (W x68 x00 x00 x00 x5c x00 x00 x00)
(T (W x18 x00 x00 x00 x0c x00 x00 x00)
(T (W x40 x00 x00 x00 x9c x00 x00 x00)
(T (W x00 x00 x00 x00 x00 x00 x00 x00)
(T (W xff xff xff xff x04 x00 x00 x00)
(T (W x00 x00 x00 x00 x00 x00 x00 x00)
(L (W x00 x00 x80 xbf x00 x00 x80 xbf)) E)
(L (W xff xff xff xff xff xff xff xff)))
(T (W xff xff xff xff xbc x00 x00 x00)
(T (W x00 x00 x00 x00 x00 x00 x00 x00)
(L (W x00 x00 x80 xbf x00 x00 x80 xbf)) E)
(L (W x00 x00 x80 xbf x00 x00 x80 xbf))))
(T (W x00 x00 x00 x00 x02 x00 x00 x00)
(T (W x45 x26 x22 x84 xe4 x9c xf2 xcb)
(T (W x00 x00 x00 x00 x00 x00 x00 x00)
(L (W x00 x00 x80 xbf x00 x00 x80 xbf)) E)
(L (W x00 x00 x00 x00 x00 x00 x00 x00)))
(T (W x68 x00 x00 x00 x5c x00 x00 x00)
(L (W x49 xa1 x68 x4a xeb x5f xdd x3d))
(L (W xff xff xff xff xff xff xff xff)))))
(T (W x00 x00 x80 x3f x00 x00 x80 x3f)
(T (W x00 x00 x00 x00 x00 x00 x00 x00)
(T (W x50 x00 x00 x00 x44 x00 x00 x00)
(T (W x00 x00 x00 x00 x14 x66 xfd xff)
(L (W x30 x35 x5f x43 x4c x45 x41 x52)) E)
(L (W xff xff xff xff xff xff xff xff)))
(T (W xff xff xff xff xff xff xff xff)
(T (W x45 x44 x00 x00 x00 x00 x00 x00)
(L (W xff xff xff xff xff xff xff xff)) E)
(L (W xff xff xff xff xff xff xff xff))))
(T (W xff xff xff xff xff xff xff xff)
(T (W x00 x00 x00 x00 x00 x00 x00 x00)
(T (W x39 x00 x00 x00 x10 x00 x00 x00)
(L (W x18 x00 x00 x00 x0c x00 x00 x00)) E)
(L (W x00 x00 x80 xbf x00 x00 x80 xbf)))
(T (W x00 x00 x00 x00 x00 x00 x00 x00)
(L (W x5c x00 x00 x00 x50 x00 x00 x00))
(L (W x00 x00 x00 x00 x00 x00 x00 x00))))))
(T (W x45 x26 x22 x84 xe4 x9c xf2 xcb)
(T (W x6c x00 x00 x00 x60 x00 x00 x00)
(T (W x00 x00 x00 x00 x00 x00 x00 x00)
(T (W x68 x00 x00 x00 x5c x00 x00 x00)
(T (W xff xff xff xff xff xff xff xff)
(L (W xff xff xff xff xff xff xff xff)) E)
(L (W x03 x00 x00 x00 xd8 x00 x00 x00)))
(T (W x00 x00 x00 x00 x00 x00 x00 x00)
(T (W x68 x00 x00 x00 x5c x00 x00 x00)
(L (W x14 x00 x00 x00 x0c x00 x00 x00)) E)
(L (W x31 x00 x00 x00 x34 x00 x00 x00))))
(T (W xff xff xff xff xff xff xff xff)
(T (W xff xff xff xff xff xff xff xff)
(T (W xff xff xff xff xff xff xff xff)
(L (W xff xff xff xff xb0 x00 x00 x00)) E)
(L (W x45 x26 x22 x84 xe4 x9c xf2 xcb)))
(T (W xff xff xff xff xff xff xff xff)
(L (W x7a x14 xfe xff x78 x00 x00 x00))
(L (W x00 x00 x00 x00 x00 x00 x00 x00)))))
(T (W x00 x00 x80 x3f x00 x00 x80 x3f)
(T (W x3c xfe xfb xff x11 x00 x00 x00)
(T (W x4f x84 x6f x8b xe8 xcb x63 xb7)
(T (W x54 x00 x00 x00 x00 x00 x00 x00)
(L (W x00 x00 x00 x00 x00 x00 x00 x00)) E)
(L (W xff xff xff xff xff xff xff xff)))
(T (W x00 x00 x00 x00 x00 x00 x00 x00)
(T (W x45 x44 x00 x00 x00 x00 x00 x00)
(L (W x00 x00 x80 xbf x00 x00 x80 xbf)) E)
(L (W xff xff xff xff xff xff xff xff))))
(T (W xff xff xff xff xff xff xff xff)
(T (W x00 x00 x80 x3f x00 x00 x80 x3f)
(T (W x00 x00 x00 x00 x00 x00 x00 x00)
(L (W x3c x00 x00 x00 x00 x00 x80 xbf)) E)
(L (W x00 x00 x00 x00 x00 x00 x00 x00)))
(T (W x00 x00 x00 x00 x00 x00 x00 x00)
(L (W x00 x00 x01 x01 xc8 x02 x00 x00))
(L (W x00 x00 x80 xbf x00 x00 x80 xbf)))))))
(T (W x18 x00 x00 x00 x0c x00 x00 x00)
(T (W xc2 x6a xfb xff x74 x00 x00 x00)
(T (W x50 x00 x00 x00 x44 x00 x00 x00)
(T (W x00 x00 x00 x00 x00 x00 x00 x00)
(T (W x45 x26 x22 x84 xe4 x9c xf2 xcb)
(T (W x18 x01 x00 x00 x04 x00 x00 x00)
(L (W x6c x00 x00 x00 x60 x00 x00 x00)) E)
(L (W xff xff xff xff xff xff xff xff)))
(T (W x00 x00 x00 x00 x01 x00 x00 x00)
(T (W x00 x00 x80 x3f x00 x00 x80 x3f)
(L (W xa4 xcf xff xff x00 x01 x01 x01)) E)
(L (W x00 x00 x80 xbf x00 x00 x80 xbf))))
(T (W xff xff xff xff xff xff xff xff)
(T (W xff xff xff xff x9c x00 x00 x00)
(T (W x00 x00 x00 x00 x00 x00 x00 x00)
(L (W x00 x00 x80 xbf x00 x00 x80 xbf)) E)
(L (W x00 x00 x00 x00 x00 x00 x00 x00)))
(T (W xc8 x00 x00 x00 x01 x00 x00 x00)
(L (W x00 x00 x80 xbf x00 x00 x80 xbf))
(L (W x00 x00 x00 x00 x82 x14 xff xff)))))
(T (W x00 x00 x00 x00 x00 x00 x00 x00)
(T (W x00 x00 x00 x00 x00 x00 x00 x00)
(T (W x00 x00 x00 x00 x00 x00 x00 x00)
(T (W xc2 x6a xfd xff x74 x00 x00 x00)
(L (W x00 x00 x00 x00 x00 x00 x00 x00)) E)
(L (W xff xff xff xff xff xff xff xff)))
(T (W x00 x00 x00 x00 x00 x00 x00 x00)
(T (W x00 x00 x01 x01 xbe x01 x00 x00)
(L (W x00 x00 x00 x00 x00 x00 x00 x00)) E)
(L (W xff xff xff xff xff xff xff xff))))
(T (W xff xff xff xff xff xff xff xff)
(T (W x00 x00 x00 x00 x00 x00 x00 x00)
(T (W x7a xac xfd xff x78 x00 x00 x00)
(L (W x00 x00 x80 xbf x00 x00 x80 xbf)) E)
(L (W x00 x00 x00 x00 x00 x00 x00 x00)))
(T (W x00 x00 x00 x00 x00 x00 x00 x00)
(L (W xff xff xff xff xff xff xff xff))
(L (W x00 x00 x80 xbf x00 x00 x80 xbf))))))
(T (W x18 x00 x00 x00 x10 x00 x00 x00)
(T (W x00 x00 x80 x3f x00 x00 x80 x3f)
(T (W x00 x00 x00 x00 x00 x00 x00 x00)
(T (W x00 x00 x80 x3f x00 x00 x80 x3f)
(T (W xff xff xff xff xff xff xff xff)
(L (W x00 x00 x01 x01 x64 x01 x00 x00)) E)
(L (W xff xff xff xff xff xff xff xff)))
(T (W x50 x00 x00 x00 x44 x00 x00 x00)
(T (W x03 x00 x00 x00 xd8 x00 x00 x00)
(L (W xa4 xdf xff xff x00 x01 x01 x01)) E)
(L (W xff xff xff xff xff xff xff xff))))
(T (W xff xff xff xff xff xff xff xff)
(T (W x69 x01 x00 x00 xff xff xff xff)
(T (W x45 x26 x22 x84 xe4 x9c xf2 xcb)
(L (W xff xff xff xff xa0 x00 x00 x00)) E)
(L (W x00 x00 x80 xbf x00 x00 x80 xbf)))
(T (W xea x72 xfe xff x00 x00 x01 x01)
(L (W x18 x00 x00 x00 x10 x00 x00 x00))
(L (W x00 x00 x00 x00 x00 x00 x00 x00)))))
(T (W x00 x00 x80 x3f x00 x00 x80 x3f)
(T (W x00 x00 x00 x00 x00 x00 x00 x00)
(T (W x00 x00 x80 x3f x00 x00 x80 x3f)
(T (W xdf xc7 x36 x97 x85 x27 x63 x5f)
(L (W x00 x00 x00 x00 x00 x00 x00 x00)) E)
(L (W x00 x00 x00 x00 x00 x00 x00 x00)))
(T (W x4f x84 x6f x8b xe8 xcb x63 xb7)
(T (W x00 x00 x00 x00 x00 x00 x00 x00)
(L (W xff xff xff xff xff xff xff xff)) E)
(L (W xff xff xff xff xff xff xff xff))))
(T (W xb8 x00 x00 x00 xac x00 x00 x00)
(T (W x6c x00 x00 x00 x60 x00 x00 x00)
(T (W x00 x00 x00 x00 x00 x00 x00 x00)
(L (W x00 x00 x80 xbf x00 x00 x80 xbf)) E)
(L (W x00 x00 x00 x00 x00 x00 x00 x00)))
(T (W x00 x00 x00 x00 x00 x00 x00 x00)
(L (W xff xff xff xff xff xff xff xff))
(L (W x00 x00 x80 xbf x00 x00 x80 xbf))))))))
(T (W x04 x00 x00 x00 xba xdd xfd xff)
(T (W x0a xc8 xfd xff x73 x02 x00 x00)
(T (W xff xff xff xff xff xff xff xff)
(T (W x7a xf9 xfd xff x00 x00 x01 x01)
(T (W xff xff xff xff xff xff xff xff)
(T (W x00 x00 x00 x00 x00 x00 x00 x00)
(T (W xc2 x46 xfd xff x74 x00 x00 x00)
(L (W xff xff xff xff xff xff xff xff)) E)
(L (W x00 x00 x00 x00 x00 x00 x00 x00)))
(T (W x00 x00 x80 x3f x00 x00 x80 x3f)
(T (W x45 x26 x22 x84 xe4 x9c xf2 xcb)
(L (W x00 x00 x00 x00 x12 x00 x00 x00)) E)
(L (W xff xff xff xff xff xff xff xff))))
(T (W x50 x00 x00 x00 x44 x00 x00 x00)
(T (W x00 x00 x00 x00 x00 x00 x00 x00)
(T (W xff xff xff xff xff xff xff xff)
(L (W xff xff xff xff xff xff xff xff)) E)
(L (W x45 x26 x22 x84 xe4 x9c xf2 xcb)))
(T (W x5f x4e x53 x5f x30 x35 x5f x43)
(L (W xff xff xff xff xff xff xff xff))
(L (W x00 x00 x80 xbf x00 x00 x80 xbf)))))
(T (W x3a x3d xff xff x00 x00 x01 x01)
(T (W xa4 xeb xfb xff x00 x01 x01 x01)
(T (W x67 xac x1e xc1 x86 xf9 x93 x14)
(T (W x00 x00 x00 x00 x00 x00 x00 x00)
(L (W x6c x00 x00 x00 x60 x00 x00 x00)) E)
(L (W x00 x00 x80 xbf x00 x00 x80 xbf)))
(T (W x00 x00 x80 x3f x00 x00 x80 x3f)
(T (W x6c x00 x00 x00 x60 x00 x00 x00)
(L (W x6c x00 x00 x00 x60 x00 x00 x00)) E)
(L (W x45 x26 x22 x84 xe4 x9c xf2 xcb))))
(T (W x45 x26 x22 x84 xe4 x9c xf2 xcb)
(T (W x18 x00 x00 x00 x10 x00 x00 x00)
(T (W xff xff xff xff xff xff xff xff)
(L (W x00 x00 x00 x00 x00 x00 x00 x00)) E)
(L (W x2a xfe xfe xff x3b x02 x00 x00)))
(T (W xff xff xff xff xff xff xff xff)
(L (W x00 x00 x00 x00 x02 x35 xfe xff))
(L (W xb0 x00 x00 x00 x64 x00 x00 x00))))))
(T (W x00 x00 x00 x00 x00 x00 x00 x00)
(T (W xaf x01 x00 x00 xff xff xff xff)
(T (W x64 x00 x00 x00 x9c x00 x00 x00)
(T (W x00 x00 x00 x00 x00 x00 x00 x00)
(T (W x00 x00 x80 x3f x00 x00 x80 x3f)
(L (W x00 x00 x80 xbf x00 x00 x80 xbf)) E)
(L (W x45 x26 x22 x84 xe4 x9c xf2 xcb)))
(T (W xff xff xff xff xff xff xff xff)
(T (W x46 x53 x59 x53 x5f x4e x53 x5f)
(L (W x45 x44 x00 x00 x00 x00 x00 x00)) E)
(L (W x00 x00 x00 x00 x00 x00 x00 x00))))
(T (W x00 x00 x80 x3f x00 x00 x80 x3f)
(T (W x00 x00 x80 x3f x00 x00 x80 x3f)
(T (W x34 xf2 xff xff x01 x01 x01 x01)
(L (W x00 x00 x00 x00 x00 x00 x00 x00)) E)
(L (W xff xff xff xff xff xff xff xff)))
(T (W x00 x00 x80 x3f x00 x00 x80 x3f)
(L (W x00 x00 x00 x00 x00 x00 x00 x00))
(L (W xff xff xff xff x9c x00 x00 x00)))))
(T (W xff xff xff xff xff xff xff xff)
(T (W x00 x00 x80 x3f x00 x00 x80 x3f)
(T (W xff xff xff xff xff xff xff xff)
(T (W x45 x26 x22 x84 xe4 x9c xf2 xcb)
(L (W x18 x00 x00 x00 x0c x00 x00 x00)) E)
(L (W x00 x00 x80 xbf x00 x00 x80 xbf)))
(T (W xff xff xff xff x9c x00 x00 x00)
(T (W x00 x00 x80 xbf x00 x00 x80 xbf)
(L (W xff xff xff xff xff xff xff xff)) E)
(L (W x00 x00 x80 xbf x00 x00 x80 xbf))))
(T (W x00 x00 x00 x00 x00 x00 x00 x00)
(T (W xff xff xff xff xff xff xff xff)
(T (W x00 x00 x80 x3f x00 x00 x80 x3f)
(L (W xff xff xff xff xff xff xff xff)) E)
(L (W xff xff xff xff xff xff xff xff)))
(T (W xff xff xff xff xff xff xff xff)
(L (W x10 x3a xfe xff xfa x47 xfe xff))
(L (W xff xff xff xff xbc x00 x00 x00)))))))
(T (W x00 x00 x00 x00 x00 x00 x00 x00)
(T (W x00 x00 x00 x00 x00 x00 x00 x00)
(T (W xff xff xff xff xff xff xff xff)
(T (W xff xff xff xff xff xff xff xff)
(T (W x00 x00 x00 x00 x00 x00 x00 x00)
(T (W x00 x00 x80 x3f x00 x00 x80 x3f)
(L (W x00 x00 x00 x00 x00 x00 x00 x00)) E)
(L (W x3c x00 x00 x00 x00 x00 x80 xbf)))
(T (W x45 x26 x22 x84 xe4 x9c xf2 xcb)
(T (W x26 x02 x00 x00 xff xff xff xff)
(L (W x00 x00 x00 x00 x00 x00 x00 x00)) E)
(L (W x30 x35 x5f x43 x4c x45 x41 x52))))
(T (W x68 x00 x00 x00 x5c x00 x00 x00)
(T (W x00 x00 x00 x00 x00 x00 x00 x00)
(T (W x00 x00 x00 x00 x00 x00 x0c x00)
(L (W x4b x00 x00 x00 xff xff xff xff)) E)
(L (W xff xff xff xff xff xff xff xff)))
(T (W x00 x00 x00 x00 x00 x00 x00 x00)
(L (W x7d x00 x00 x00 xff xff xff xff))
(L (W x7a x10 xff xff x78 x00 x00 x00)))))
(T (W xff xff xff xff xff xff xff xff)
(T (W x50 x00 x00 x00 x44 x00 x00 x00)
(T (W x00 x00 x00 x00 x00 x00 x00 x00)
(T (W x18 x01 x00 x00 x04 x00 x00 x00)
(L (W xff xff xff xff x9c x00 x00 x00)) E)
(L (W x00 x00 x80 xbf x00 x00 x80 xbf)))
(T (W x45 x26 x22 x84 xe4 x9c xf2 xcb)
(T (W xff xff xff xff xa0 x00 x00 x00)
(L (W x00 x00 x00 x00 xd0 xee xff xff)) E)
(L (W x00 x00 x80 xbf x00 x00 x80 xbf))))
(T (W x00 x00 x00 x00 x00 x00 x00 x00)
(T (W xff xff xff xff xff xff xff xff)
(T (W x00 x00 x00 x00 x00 x00 x00 x00)
(L (W xff xff xff xff xff xff xff xff)) E)
(L (W xff xff xff xff xff xff xff xff)))
(T (W xff xff xff xff xff xff xff xff)
(L (W x00 x00 x80 xbf x00 x00 x80 xbf))
(L (W xff xff xff xff xff xff xff xff))))))
(T (W x3e x00 x00 x00 x0c x00 x00 x00)
(T (W xc2 x33 xff xff xac x01 x00 x00)
(T (W xbc x00 x00 x00 xb0 x00 x00 x00)
(T (W x00 x00 x00 x00 x00 x00 x00 x00)
(T (W x00 x00 x00 x00 x00 x00 x00 x00)
(L (W x00 x00 x80 xbf x00 x00 x80 xbf)) E)
(L (W x00 x00 x80 xbf x00 x00 x80 xbf)))
(T (W x00 x00 x00 x00 x00 x00 x00 x00)
(T (W x45 x26 x22 x84 xe4 x9c xf2 xcb)
(L (W x00 x00 x00 x00 x00 x00 x00 x00)) E)
(L (W x00 x00 x00 x00 x00 x00 x00 x00))))
(T (W x00 x00 x80 x3f x00 x00 x80 x3f)
(T (W x6c x00 x00 x00 x60 x00 x00 x00)
(T (W x45 x26 x22 x84 xe4 x9c xf2 xcb)
(L (W x00 x00 x00 x00 x00 x00 x00 x00)) E)
(L (W xff xff xff xff xff xff xff xff)))
(T (W x18 x00 x00 x00 x10 x00 x00 x00)
(L (W x00 x00 x00 x00 x00 x00 x00 x00))
(L (W x03 x00 x00 x00 xd8 x00 x00 x00)))))
(T (W xff xff xff xff xff xff xff xff)
(T (W x00 x00 x80 x3f x00 x00 x80 x3f)
(T (W x00 x00 x00 x00 x00 x00 x00 x00)
(T (W x45 x26 x22 x84 xe4 x9c xf2 xcb)
(L (W xff xff xff xff xff xff xff xff)) E)
(L (W x6c x00 x00 x00 x60 x00 x00 x00)))
(T (W xff xff xff xff xff xff xff xff)
(T (W x45 x26 x22 x84 xe4 x9c xf2 xcb)
(L (W x4f x84 x6f x8b xe8 xcb x63 xb7)) E)
(L (W x00 x00 x80 xbf x00 x00 x80 xbf))))
(T (W x00 x00 x00 x00 x00 x00 x00 x00)
(T (W x00 x00 x00 x00 x00 x00 x00 x00)
(T (W xff xff xff xff xb0 x00 x00 x00)
(L (W x00 x00 x00 x00 x0a xca xff xff)) E)
(L (W xb8 x00 x00 x00 x64 x00 x00 x00)))
(T (W x00 x00 x00 x00 x14 x42 xfd xff)
(L (W x49 xa1 x68 x4a xeb x5f xdd x3d))
(L (W xff xff xff xff xff xff xff xff)))))))))))
(T (W xc0 xab x02 x00 x24 xa0 x02 x00)
(T (W xa0 xf8 x01 x00 x5c xf6 x01 x00)
(T (W x80 xae x00 x00 x34 xac x00 x00)
(T (W xff xff xff xff xff xff xff xff)
(T (W xff xff xff xff x04 x00 x00 x00)
(T (W xff xff xff xff xff xff xff xff)
(T (W xff xff xff xff xff xff xff xff)
(T (W x00 x00 x80 x3f x00 x00 x80 x3f)
(T (W xff xff xff xff xff xff xff xff)
(T (W x00 x00 x80 x3f x00 x00 x80 x3f)
(L (W x68 x00 x00 x00 x5c x00 x00 x00)) E)
(L (W x18 xb3 x2d xdc x00 x64 x3a x2f)))
(T (W xff xff xff xff xff xff xff xff)
(T (W x00 x00 x80 x3f x00 x00 x80 x3f)
(L (W xff xff xff xff xa0 x00 x00 x00)) E)
(L (W x24 xc5 xfe xff x00 x01 x01 x01))))
(T (W x00 x00 x00 x00 x00 x00 x00 x00)
(T (W xc4 x00 x00 x00 x01 x00 x00 x00)
(T (W x00 x00 x80 x3f x00 x00 x80 x3f)
(L (W x00 x00 x80 xbf x00 x00 x80 xbf)) E)
(L (W x00 x00 x00 x00 x00 x00 x00 x00)))
(T (W x42 x00 xfd xff x74 x00 x00 x00)
(T (W x00 x00 x80 xbf x00 x00 x80 xbf)
(L (W x00 x00 x80 xbf x00 x00 x80 xbf)) E)
(L (W x00 x00 x00 x00 x00 x00 x00 x00)))))
(T (W x24 xa5 xfb xff x00 x01 x01 x01)
(T (W x45 x26 x22 x84 xe4 x9c xf2 xcb)
(T (W xff xff xff xff xff xff xff xff)
(T (W xff xff xff xff xff xff xff xff)
(L (W x46 x53 x59 x53 x5f x4e x53 x5f)) E)
(L (W x00 x00 x01 x01 x69 x01 x00 x00)))
(T (W x9d x01 x00 x00 xff xff xff xff)
(T (W x45 x44 x00 x00 x00 x00 x00 x00)
(L (W x00 x00 x00 x00 x00 x00 x00 x00)) E)
(L (W xff xff xff xff xff xff xff xff))))
(T (W x3e x00 x00 x00 x10 x00 x00 x00)
(T (W x00 x00 x00 x00 x00 x00 x00 x00)
(T (W x00 x00 x00 x00 x00 x00 x00 x00)
(L (W xff xff xff xff xff xff xff xff)) E)
(L (W x00 x00 x80 xbf x00 x00 x80 xbf)))
(T (W x4f x84 x6f x8b xe8 xcb x63 xb7)
(L (W xff xff xff xff xff xff xff xff))
(L (W x00 x00 x80 xbf x00 x00 x80 xbf))))))
(T (W xff xff xff xff xff xff xff xff)
(T (W x45 x26 x22 x84 xe4 x9c xf2 xcb)
(T (W x00 x00 x80 x3f x00 x00 x80 x3f)
(T (W xff xff xff xff xff xff xff xff)
(T (W x00 x00 x00 x00 x00 x00 x00 x00)
(L (W xff xff xff xff xff xff xff xff)) E)
(L (W x00 x00 x00 x00 x00 x00 x00 x00)))
(T (W x00 x00 x80 x3f x00 x00 x80 x3f)
(T (W x18 x00 x00 x00 x10 x00 x00 x00)
(L (W x5d x00 x00 x00 xff xff xff xff)) E)
(L (W xff xff xff xff xff xff xff xff))))
(T (W x00 x00 x00 x00 x00 x00 x00 x00)
(T (W x04 x00 x00 x00 x8a x9b xfc xff)
(T (W x68 x00 x00 x00 x00 x00 x62 x00)
(L (W xff xff xff xff xff xff xff xff)) E)
(L (W x6c x00 x00 x00 x60 x00 x00 x00)))
(T (W x00 x00 x00 x00 x00 x00 x00 x00)
(L (W xc4 x00 x00 x00 x01 x00 x00 x00))
(L (W x00 x00 x00 x00 x00 x00 x00 x00)))))
(T (W x68 x00 x00 x00 x5c x00 x00 x00)
(T (W x00 x00 x00 x00 x00 x00 x00 x00)
(T (W x00 x00 x00 x00 x01 x00 x00 x00)
(T (W x00 x00 x00 x00 x94 x73 xfd xff)
(L (W x00 x00 x80 xbf x00 x00 x80 xbf)) E)
(L (W x8c x78 xfe xff x1d x00 x00 x00)))
(T (W x45 x26 x22 x84 xe4 x9c xf2 xcb)
(T (W x49 xa1 x68 x4a xeb x5f xdd x3d)
(L (W x00 x00 x80 xbf x00 x00 x80 xbf)) E)
(L (W x00 x00 x00 x00 x00 x00 x00 x00))))
(T (W x1c x01 x00 x00 x04 x00 x00 x00)
(T (W x00 x00 x00 x00 x94 xb3 xfc xff)
(T (W x00 x00 x00 x00 x00 x00 x00 x00)
(L (W x42 xb0 xff xff x74 x00 x00 x00)) E)
(L (W x00 x00 x80 xbf x00 x00 x80 xbf)))
(T (W x00 x00 x80 x3f x00 x00 x80 x3f)
(L (W x8c x38 xfe xff x31 x00 x00 x00))
(L (W x50 x00 x00 x00 x44 x00 x00 x00)))))))
(T (W xb8 x00 x00 x00 xac x00 x00 x00)
(T (W xff xff xff xff xff xff xff xff)
(T (W xb8 x00 x00 x00 xac x00 x00 x00)
(T (W x00 x00 x80 x3f x00 x00 x80 x3f)
(T (W xff xff xff xff xff xff xff xff)
(T (W x00 x00 x00 x00 x00 x00 x00 x00)
(L (W xc8 x00 x00 x00 x01 x00 x00 x00)) E)
(L (W x45 x44 x00 x00 x00 x00 x00 x00)))
(T (W x00 x00 x00 x00 x00 x00 x00 x00)
(T (W x00 x00 x80 x3f x00 x00 x80 x3f)
(L (W xff xff xff xff xff xff xff xff)) E)
(L (W x68 x00 x00 x00 x5c x00 x00 x00))))
(T (W x00 x00 x00 x00 x00 x00 x00 x00)
(T (W xff xff xff xff xff xff xff xff)
(T (W x00 x00 x80 x3f x00 x00 x80 x3f)
(L (W x50 x00 x00 x00 x44 x00 x00 x00)) E)
(L (W x00 x00 x80 xbf x00 x00 x80 xbf)))
(T (W xff xff xff xff xff xff xff xff)
(L (W x00 x00 x00 x00 x94 x0b xfe xff))
(L (W x00 x00 x00 x00 x00 x00 x00 x00)))))
(T (W x45 x26 x22 x84 xe4 x9c xf2 xcb)
(T (W x00 x00 x80 x3f x00 x00 x80 x3f)
(T (W x00 x00 x58 x00 x00 x00 x00 x00)
(T (W xff xff xff xff xff xff xff xff)
(L (W x00 x00 x00 x00 x00 x00 x00 x00)) E)
(L (W x00 x00 x00 x00 x00 x00 x00 x00)))
(T (W x00 x00 x00 x00 x00 x00 x00 x00)
(T (W x00 x00 x00 x00 x00 x00 x00 x00)
(L (W x00 x00 x00 x00 x00 x00 x00 x00)) E)
(L (W x46 x53 x59 x53 x5f x4e x53 x5f))))
(T (W x00 x00 x00 x00 x5a xc0 xff xff)
(T (W x00 x00 x80 x3f x00 x00 x80 x3f)
(T (W x24 xad xfd xff x00 x01 x01 x01)
(L (W x4f x84 x6f x8b xe8 xcb x63 xb7)) E)
(L (W x3a x02 x00 x00 xff xff xff xff)))
(T (W x00 x00 x80 x3f x00 x00 x80 x3f)
(L (W xff xff xff xff xff xff xff xff))
(L (W xfa x29 xff xff x78 x00 x00 x00))))))
(T (W xff xff xff xff xff xff xff xff)
(T (W x68 x00 x00 x00 x5c x00 x00 x00)
(T (W x00 x00 x80 x3f x00 x00 x80 x3f)
(T (W xff xff xff xff xff xff xff xff)
(T (W x18 x01 x00 x00 x04 x00 x00 x00)
(L (W x00 x00 x00 x00 xf2 x5a xff xff)) E)
(L (W x00 x00 x00 x00 x00 x00 x00 x00)))
(T (W x45 x26 x22 x84 xe4 x9c xf2 xcb)
(T (W xff xff xff xff xff xff xff xff)
(L (W xcc x00 x00 x00 x02 x00 x00 x00)) E)
(L (W xff xff xff xff xff xff xff xff))))
(T (W x00 x00 x00 x00 x00 x00 x00 x00)
(T (W x00 x00 x00 x00 x00 x00 x00 x00)
(T (W x00 x00 x80 xbf x00 x00 x80 xbf)
(L (W xff xff xff xff xff xff xff xff)) E)
(L (W xc4 x00 x00 x00 x01 x00 x00 x00)))
(T (W x00 x00 x00 x00 x00 x00 x00 x00)
(L (W xff xff xff xff xff xff xff xff))
(L (W x54 x00 x00 x00 x48 x00 x00 x00)))))
(T (W x00 x00 x80 x3f x00 x00 x80 x3f)
(T (W x00 x00 x00 x00 x00 x00 x00 x00)
(T (W xfa x79 xfc xff x78 x00 x00 x00)
(T (W x00 x00 x00 x00 x00 x00 x00 x00)
(L (W x45 x26 x22 x84 xe4 x9c xf2 xcb)) E)
(L (W x00 x00 x00 x00 x00 x00 x00 x00)))
(T (W x50 x00 x00 x00 x44 x00 x00 x00)
(T (W x00 x00 x00 x00 x00 x00 x00 x00)
(L (W x03 x00 x00 x00 xd8 x00 x00 x00)) E)
(L (W x00 x00 x00 x00 x02 x02 xff xff))))
(T (W xff xff xff xff xff xff xff xff)
(T (W xff xff xff xff xb0 x00 x00 x00)
(T (W x00 x00 x00 x00 x00 x00 x00 x00)
(L (W x24 xbd xff xff x00 x01 x01 x01)) E)
(L (W x00 x00 x80 xbf x00 x00 x80 xbf)))
(T (W x00 x00 x80 x3f x00 x00 x80 x3f)
(L (W x00 x00 x00 x00 x12 x00 x00 x00))
(L (W x24 x3d xff xff x00 x01 x01 x01))))))))
(T (W x45 x26 x22 x84 xe4 x9c xf2 xcb)
(T (W x00 x00 x80 x3f x00 x00 x80 x3f)
(T (W x00 x00 x80 x3f x00 x00 x80 x3f)
(T (W x45 x26 x22 x84 xe4 x9c xf2 xcb)
(T (W x6a x01 x00 x00 xff xff xff xff)
(T (W x00 x00 x80 x3f x00 x00 x80 x3f)
(T (W xff xff xff xff xff xff xff xff)
(L (W x00 x00 x00 x00 x00 x00 x00 x00)) E)
(L (W x00 x00 x80 xbf x00 x00 x80 xbf)))
(T (W x00 x00 x80 x3f x00 x00 x80 x3f)
(T (W xff xff xff xff xff xff xff xff)
(L (W x00 x00 x00 x00 x12 x00 x00 x00)) E)
(L (W x00 x00 x00 x00 xf2 xc6 xfe xff))))
(T (W x18 x00 x00 x00 x10 x00 x00 x00)
(T (W x45 x26 x22 x84 xe4 x9c xf2 xcb)
(T (W x18 x01 x00 x00 x04 x00 x00 x00)
(L (W x00 x00 x00 x00 x00 x00 x00 x00)) E)
(L (W xff xff xff xff xff xff xff xff)))
(T (W x00 x00 x00 x00 x00 x00 x00 x00)
(L (W x00 x00 x01 x01 xef x00 x00 x00))
(L (W x50 x00 x00 x00 x44 x00 x00 x00)))))
(T (W x00 x00 x00 x00 x00 x00 x00 x00)
(T (W xb8 x00 x00 x00 xac x00 x00 x00)
(T (W x00 x00 x00 x00 x00 x00 x00 x00)
(T (W x00 x00 x80 x3f x00 x00 x80 x3f)
(L (W xff xff xff xff xff xff xff xff)) E)
(L (W x18 x00 x00 x00 x10 x00 x00 x00)))
(T (W x00 x00 x80 x3f x00 x00 x80 x3f)
(T (W x03 x00 x00 x00 xd8 x00 x00 x00)
(L (W x74 x00 x00 x00 x68 x00 x00 x00)) E)
(L (W x6c x00 x00 x00 x60 x00 x00 x00))))
(T (W x00 x00 x80 x3f x00 x00 x80 x3f)
(T (W xff xff xff xff xff xff xff xff)
(T (W xff xff xff xff xff xff xff xff)
(L (W x45 x26 x22 x84 xe4 x9c xf2 xcb)) E)
(L (W x00 x00 x00 x00 x00 x00 x00 x00)))
(T (W x9d x01 x00 x00 xff xff xff xff)
(L (W x00 x00 x00 x00 x00 x00 x00 x00))
(L (W xff xff xff xff xff xff xff xff))))))
(T (W x00 x00 x00 x00 x00 x00 x00 x00)
(T (W x00 x00 x00 x00 x00 x00 x00 x00)
(T (W xff xff xff xff xff xff xff xff)
(T (W x00 x00 x00 x00 x00 x00 x00 x00)
(T (W x42 x54 xfd xff x74 x00 x00 x00)
(L (W x24 x59 xff xff x00 x01 x01 x01)) E)
(L (W x00 x00 x80 xbf x00 x00 x80 xbf)))
(T (W x00 x00 x00 x00 x01 x00 x00 x00)
(T (W x00 x00 x80 xbf x00 x00 x80 xbf)
(L (W x00 x00 x00 x00 x00 x00 x00 x00)) E)
(L (W x00 x00 x80 xbf x00 x00 x80 xbf))))
(T (W x42 x14 xfc xff x74 x00 x00 x00)
(T (W x45 x26 x22 x84 xe4 x9c xf2 xcb)
(T (W x18 x00 x00 x00 x0c x00 x00 x00)
(L (W x00 x00 x80 xbf x00 x00 x80 xbf)) E)
(L (W x30 x35 x5f x43 x4c x45 x41 x52)))
(T (W x45 x26 x22 x84 xe4 x9c xf2 xcb)
(L (W x00 x00 x00 x00 x00 x00 x00 x00))
(L (W xff xff xff xff xff xff xff xff)))))
(T (W x00 x00 x00 x00 x00 x00 x00 x00)
(T (W xff xff xff xff xff xff xff xff)
(T (W x06 x00 x00 x00 xc8 x05 x00 x00)
(T (W xff xff xff xff xff xff xff xff)
(L (W x00 x00 x01 x01 xde x01 x00 x00)) E)
(L (W x45 x26 x22 x84 xe4 x9c xf2 xcb)))
(T (W xff xff xff xff xff xff xff xff)
(T (W xc4 x00 x00 x00 x01 x00 x00 x00)
(L (W x00 x00 x00 x00 x00 x00 x00 x00)) E)
(L (W x68 x00 x00 x00 x5c x00 x00 x00))))
(T (W x00 x00 x80 x3f x00 x00 x80 x3f)
(T (W x00 x00 x00 x00 x12 x00 x00 x00)
(T (W x00 x00 x00 x00 x00 x00 x00 x00)
(L (W x45 x44 x00 x00 x00 x00 x00 x00)) E)
(L (W xff xff xff xff xff xff xff xff)))
(T (W xff xff xff xff x01 x00 x00 x00)
(L (W x18 x00 x00 x00 x10 x00 x00 x00))
(L (W x00 x00 x00 x00 x00 x00 x00 x00)))))))
(T (W x00 x00 x00 x00 x00 x00 x00 x00)
(T (W x45 x26 x22 x84 xe4 x9c xf2 xcb)
(T (W x45 x26 x22 x84 xe4 x9c xf2 xcb)
(T (W xfa x3e xfe xff x00 x00 x01 x01)
(T (W x00 x00 x80 x3f x00 x00 x80 x3f)
(T (W x00 x00 x00 x00 x94 x4f xfd xff)
(L (W x00 x00 x00 x00 x00 x00 x00 x00)) E)
(L (W x54 x00 x00 x00 x48 x00 x00 x00)))
(T (W xff xff xff xff xbc x00 x00 x00)
(T (W x00 x00 x00 x00 x00 x00 x00 x00)
(L (W x45 x26 x22 x84 xe4 x9c xf2 xcb)) E)
(L (W x00 x00 x00 x00 x12 x00 x00 x00))))
(T (W x01 x00 x00 x00 xa0 x00 x00 x00)
(T (W x00 x00 x80 x3f x00 x00 x80 x3f)
(T (W xff xff xff xff xff xff xff xff)
(L (W x30 x35 x5f x43 x4c x45 x41 x52)) E)
(L (W xff xff xff xff xff xff xff xff)))
(T (W x00 x00 x80 x3f x00 x00 x80 x3f)
(L (W x30 x35 x5f x43 x4c x45 x41 x52))
(L (W x18 x00 x00 x00 x0c x00 x00 x00)))))
(T (W x32 x1f xb4 x81 x78 xae xb4 x44)
(T (W xff xff xff xff xff xff xff xff)
(T (W x00 x00 x00 x00 x00 x00 x00 x00)
(T (W x00 x00 x00 x00 x00 x00 x00 x00)
(L (W xff xff xff xff xff xff xff xff)) E)
(L (W x74 x00 x00 x00 x68 x00 x00 x00)))
(T (W xff xff xff xff xac x00 x00 x00)
(T (W x2f x00 x00 x00 x32 x00 x00 x00)
(L (W xff xff xff xff xff xff xff xff)) E)
(L (W x00 x01 x01 x01 x82 xf8 xfe xff))))
(T (W x00 x00 x80 x3f x00 x00 x80 x3f)
(T (W x00 x00 x01 x01 xc8 x02 x00 x00)
(T (W x00 x00 x00 x00 x00 x00 x00 x00)
(L (W x00 x00 x00 x00 x00 x00 x00 x00)) E)
(L (W xff xff xff xff xff xff xff xff)))
(T (W xff xff xff xff xff xff xff xff)
(L (W x24 x31 xfe xff x00 x01 x01 x01))
(L (W x00 x00 x01 x01 xdd x00 x00 x00))))))
(T (W x00 x00 x00 x00 x00 x00 x00 x00)
(T (W x00 x00 x00 x00 x00 x00 x00 x00)
(T (W xff xff xff xff xff xff xff xff)
(T (W x00 x00 x00 x00 x00 x00 x00 x00)
(T (W x00 x00 x80 x3f x00 x00 x80 x3f)
(L (W x2f x00 x00 x00 x32 x00 x00 x00)) E)
(L (W xc4 x00 x00 x00 x01 x00 x00 x00)))
(T (W x00 x00 x00 x00 x00 x00 x00 x00)
(T (W x00 x00 x80 xbf x00 x00 x80 xbf)
(L (W x00 x00 x00 x00 x00 x00 x00 x00)) E)
(L (W x00 x00 x80 xbf x00 x00 x80 xbf))))
(T (W x00 x00 x80 x3f x00 x00 x80 x3f)
(T (W x03 x00 x00 x00 xd8 x00 x00 x00)
(T (W x00 x00 x80 xbf x00 x00 x80 xbf)
(L (W x49 xa1 x68 x4a xeb x5f xdd x3d)) E)
(L (W x00 x00 x00 x00 x00 x00 x00 x00)))
(T (W xff xff xff xff x9c x00 x00 x00)
(L (W x4f x84 x6f x8b xe8 xcb x63 xb7))
(L (W xff xff xff xff xff xff xff xff)))))
(T (W x83 x31 xfe xf6 xc7 x29 xc7 xef)
(T (W xff xff xff xff xff xff xff xff)
(T (W x46 x53 x59 x53 x5f x4e x53 x5f)
(T (W x18 x00 x00 x00 x10 x00 x00 x00)
(L (W xff xff xff xff xff xff xff xff)) E)
(L (W xff xff xff xff xff xff xff xff)))
(T (W x00 x00 x00 x00 x04 x00 x00 x00)
(T (W xff xff xff xff xbc x00 x00 x00)
(L (W x42 x00 x00 x00 xff xff xff xff)) E)
(L (W x00 x00 x80 xbf x00 x00 x80 xbf))))
(T (W x50 x00 x00 x00 x44 x00 x00 x00)
(T (W x00 x00 x00 x00 x00 x00 x00 x00)
(T (W xff xff xff xff xff xff xff xff)
(L (W x8c xc4 xff xff x15 x00 x00 x00)) E)
(L (W xff xff xff xff xff xff xff xff)))
(T (W xff xff xff xff xff xff xff xff)
(L (W x1c x00 x00 x00 x10 x00 x00 x00))
(L (W x00 x00 x00 x00 xf2 x3e xff xff)))))))))
(T (W x00 x00 x80 x3f x00 x00 x80 x3f)
(T (W x04 x00 x00 x00 x54 x03 x00 x00)
(T (W x9a xed xff xff x74 x02 x00 x00)
(T (W x8c x6a xfb xff x21 x00 x00 x00)
(T (W x64 x88 x4e x6e x38 xb5 xd7 x5f)
(T (W xb8 x00 x00 x00 xac x00 x00 x00)
(T (W x00 x00 x00 x00 x00 x00 x00 x00)
(T (W x42 x42 xfd xff x74 x00 x00 x00)
(L (W xff xff xff xff xff xff xff xff)) E)
(L (W x45 x26 x22 x84 xe4 x9c xf2 xcb)))
(T (W x00 x00 x00 x00 x00 x00 x00 x00)
(T (W x45 x26 x22 x84 xe4 x9c xf2 xcb)
(L (W xff xff xff xff xff xff xff xff)) E)
(L (W xff xff xff xff xff xff xff xff))))
(T (W x00 x00 x80 x3f x00 x00 x80 x3f)
(T (W x54 x02 x00 x00 x38 x01 x00 x00)
(T (W x24 x87 xfd xff x00 x01 x01 x01)
(L (W xff xff xff xff xff xff xff xff)) E)
(L (W x45 x26 x22 x84 xe4 x9c xf2 xcb)))
(T (W xff xff xff xff x02 x00 x00 x00)
(L (W x03 x00 x00 x00 xd8 x00 x00 x00))
(L (W x00 x00 x00 x00 x00 x00 x00 x00)))))
(T (W xff xff xff xff xff xff xff xff)
(T (W x45 x26 x22 x84 xe4 x9c xf2 xcb)
(T (W x3f x00 x00 x00 xff xff xff xff)
(T (W x00 x00 x00 x00 x00 x00 x00 x00)
(L (W x6c x00 x00 x00 x60 x00 x00 x00)) E)
(L (W x00 x00 x00 x00 x00 x00 x00 x00)))
(T (W x00 x00 x00 x00 x00 x00 x00 x00)
(T (W x54 x00 x00 x00 x48 x00 x00 x00)
(L (W x00 x00 x80 xbf x00 x00 x80 xbf)) E)
(L (W x00 x00 x00 x00 x00 x00 x00 x00))))
(T (W x45 x26 x22 x84 xe4 x9c xf2 xcb)
(T (W x00 x00 x00 x00 x94 xa5 xfc xff)
(T (W x00 x00 x80 xbf x00 x00 x80 xbf)
(L (W x00 x00 x00 x00 x00 x00 x00 x00)) E)
(L (W xff xff xff xff xff xff xff xff)))
(T (W x45 x26 x22 x84 xe4 x9c xf2 xcb)
(L (W xff xff xff xff xff xff xff xff))
(L (W x21 x00 x00 x00 x24 x00 x00 x00))))))
(T (W x00 x00 x00 x00 x00 x00 x00 x00)
(T (W xfa x04 xfe xff x00 x00 x01 x01)
(T (W x68 x00 x00 x00 x5c x00 x00 x00)
(T (W xfa xc4 xfe xff x00 x00 x01 x01)
(T (W x00 x00 x80 x3f x00 x00 x80 x3f)
(L (W x00 x00 x00 x00 x00 x00 x00 x00)) E)
(L (W x00 x00 x00 x00 x00 x00 x00 x00)))
(T (W xff xff xff xff x9c x00 x00 x00)
(T (W xe2 x28 xff xff x26 x02 x00 x00)
(L (W x30 x35 x5f x43 x4c x45 x41 x52)) E)
(L (W x99 x47 xbb x28 xbf xcf x6a x6a))))
(T (W x00 x00 x00 x00 x00 x00 x00 x00)
(T (W x00 x00 x00 x00 x00 x00 x00 x00)
(T (W x05 x00 x06 x00 x07 x00 x00 x00)
(L (W x00 x00 x00 x00 x00 x00 x00 x00)) E)
(L (W xff xff xff xff xbc x00 x00 x00)))
(T (W x00 x00 x00 x00 x00 x00 x00 x00)
(L (W x04 x00 x00 x00 x8a x1d xfe xff))
(L (W xff xff xff xff xa0 x00 x00 x00)))))
(T (W xff xff xff xff xff xff xff xff)
(T (W x00 x00 x80 x3f x00 x00 x80 x3f)
(T (W x03 x00 x00 x00 xd0 x00 x00 x00)
(T (W x00 x00 x00 x00 x00 x00 x00 x00)
(L (W x18 x00 x00 x00 x0c x00 x00 x00)) E)
(L (W x00 x00 x80 xbf x00 x00 x80 xbf)))
(T (W x50 x00 x00 x00 x44 x00 x00 x00)
(T (W x54 x00 x00 x00 x48 x00 x00 x00)
(L (W xff xff xff xff xff xff xff xff)) E)
(L (W x00 x00 x80 xbf x00 x00 x80 xbf))))
(T (W x00 x00 x00 x00 x00 x00 x00 x00)
(T (W xff xff xff xff xff xff xff xff)
(T (W xff xff xff xff xb0 x00 x00 x00)
(L (W xff xff xff xff xff xff xff xff)) E)
(L (W x45 x26 x22 x84 xe4 x9c xf2 xcb)))
(T (W xbc x00 x00 x00 xb0 x00 x00 x00)
(L (W x00 x00 x80 xbf x00 x00 x80 xbf))
(L (W xff xff xff xff xff xff xff xff)))))))
(T (W x40 x00 x00 x00 x0c x00 x00 x00)
(T (W x00 x00 x00 x00 x00 x00 x00 x00)
(T (W xb5 x01 x00 x00 xff xff xff xff)
(T (W x45 x26 x22 x84 xe4 x9c xf2 xcb)
(T (W x1b x00 x00 x00 x0c x00 x00 x00)
(T (W x00 x00 x80 x3f x00 x00 x80 x3f)
(L (W xff xff xff xff xff xff xff xff)) E)
(L (W x4f x84 x6f x8b xe8 xcb x63 xb7)))
(T (W x00 x00 x80 x3f x00 x00 x80 x3f)
(T (W xff xff xff xff xff xff xff xff)
(L (W x00 x00 x00 x00 xf2 xcc xff xff)) E)
(L (W xff xff xff xff xff xff xff xff))))
(T (W x45 x26 x22 x84 xe4 x9c xf2 xcb)
(T (W x46 x53 x59 x53 x5f x4e x53 x5f)
(T (W x00 x00 x00 x00 x94 x8d xfd xff)
(L (W xff xff xff xff xff xff xff xff)) E)
(L (W xff xff xff xff xb0 x00 x00 x00)))
(T (W x13 x00 x00 x00 x10 x00 x00 x00)
(L (W xff xff xff xff xff xff xff xff))
(L (W x00 x00 x80 xbf x00 x00 x80 xbf)))))
(T (W xb8 x00 x00 x00 xac x00 x00 x00)
(T (W x18 x00 x00 x00 x0c x00 x00 x00)
(T (W x01 x00 x00 x00 x3e x00 x00 x00)
(T (W x18 x01 x00 x00 x04 x00 x00 x00)
(L (W x68 x00 x00 x00 x5c x00 x00 x00)) E)
(L (W x00 x00 x80 xbf x00 x00 x80 xbf)))
(T (W x00 x00 x80 x3f x00 x00 x80 x3f)
(T (W x00 x00 x80 xbf x00 x00 x80 xbf)
(L (W x50 x00 x00 x00 x44 x00 x00 x00)) E)
(L (W x00 x00 x80 xbf x00 x00 x80 xbf))))
(T (W x00 x00 x80 x3f x00 x00 x80 x3f)
(T (W xff xff xff xff xb0 x00 x00 x00)
(T (W x76 x32 x00 x00 x8a xb5 xfd xff)
(L (W xff xff xff xff xff xff xff xff)) E)
(L (W x68 x00 x00 x00 x5c x00 x00 x00)))
(T (W xb8 x00 x00 x00 xac x00 x00 x00)
(L (W x00 x00 x00 x00 x00 x00 x00 x00))
(L (W xff xff xff xff xff xff xff xff))))))
(T (W x00 x00 x00 x00 x00 x00 x00 x00)
(T (W xff xff xff xff xff xff xff xff)
(T (W x24 xdf xfb xff x00 x01 x01 x01)
(T (W xff xff xff xff xff xff xff xff)
(T (W x00 x00 x00 x00 x00 x00 x00 x00)
(L (W x45 x26 x22 x84 xe4 x9c xf2 xcb)) E)
(L (W x00 x00 x80 xbf x00 x00 x80 xbf)))
(T (W x69 x01 x00 x00 xff xff xff xff)
(T (W x00 x00 x00 x00 x00 x00 x00 x00)
(L (W x02 x00 x00 x00 x30 x01 x00 x00)) E)
(L (W x00 x00 x00 x00 x00 x00 x00 x00))))
(T (W x45 x26 x22 x84 xe4 x9c xf2 xcb)
(T (W x00 x00 x80 x3f x00 x00 x80 x3f)
(T (W x00 x00 x00 x00 x00 x00 x00 x00)
(L (W x30 x35 x5f x43 x4c x45 x41 x52)) E)
(L (W xff xff xff xff xff xff xff xff)))
(T (W x00 x00 x80 x3f x00 x00 x80 x3f)
(L (W x30 x35 x5f x43 x4c x45 x41 x52))
(L (W xff xff xff xff xa8 x00 x00 x00)))))
(T (W xff xff xff xff xff xff xff xff)
(T (W x54 x00 x00 x00 x48 x00 x00 x00)
(T (W xff xff xff xff xff xff xff xff)
(T (W x00 x00 x80 x3f x00 x00 x80 x3f)
(L (W x2d x00 x00 x00 x30 x00 x00 x00)) E)
(L (W x00 x00 x80 xbf x00 x00 x80 xbf)))
(T (W x03 x00 x00 x00 xcc x00 x00 x00)
(T (W x68 x00 x00 x00 x5c x00 x00 x00)
(L (W x74 x00 x0c x00 x00 x00 x00 x00)) E)
(L (W x4f x84 x6f x8b xe8 xcb x63 xb7))))
(T (W x00 x00 x00 x00 x00 x00 x00 x00)
(T (W x00 x00 x01 x01 xc8 x02 x00 x00)
(T (W x18 x00 x00 x00 x0c x00 x00 x00)
(L (W xff xff xff xff xff xff xff xff)) E)
(L (W xff xff xff xff xa0 x00 x00 x00)))
(T (W x00 x00 x00 x00 x94 x3d xfd xff)
(L (W x49 xa1 x68 x4a xeb x5f xdd x3d))
(L (W xff xff xff xff xff xff xff xff))))))))
(T (W x00 x00 x80 x3f x00 x00 x80 x3f)
(T (W x00 x00 x80 x3f x00 x00 x80 x3f)
(T (W xec x01 x00 x00 x68 x00 x00 x00)
(T (W x00 x00 x80 x3f x00 x00 x80 x3f)
(T (W x45 x26 x22 x84 xe4 x9c xf2 xcb)
(T (W x18 x00 x00 x00 x10 x00 x00 x00)
(T (W x18 x01 x00 x00 x04 x00 x00 x00)
(L (W x00 x00 x80 xbf x00 x00 x80 xbf)) E)
(L (W xff xff xff xff x9c x00 x00 x00)))
(T (W xff xff xff xff xff xff xff xff)
(T (W x00 x00 x00 x00 x00 x00 x00 x00)
(L (W x24 xcb xff xff x00 x01 x01 x01)) E)
(L (W x45 x26 x22 x84 xe4 x9c xf2 xcb))))
(T (W xff xff xff xff xff xff xff xff)
(T (W x50 x00 x00 x00 x44 x00 x00 x00)
(T (W x00 x00 x00 x00 x00 x00 x00 x00)
(L (W x00 x00 x00 x00 x00 x00 x00 x00)) E)
(L (W x00 x00 x00 x00 x00 x00 x00 x00)))
(T (W x42 x06 xfd xff x74 x00 x00 x00)
(L (W x00 x00 x00 x00 x00 x00 x00 x00))
(L (W xff xff xff xff xff xff xff xff)))))
(T (W x45 x26 x22 x84 xe4 x9c xf2 xcb)
(T (W xe9 x88 x4b xed x04 x1c x63 x38)
(T (W x00 x00 x80 x3f x00 x00 x80 x3f)
(T (W x42 x66 xfd xff x74 x00 x00 x00)
(L (W xff xff xff xff xff xff xff xff)) E)
(L (W xff xff xff xff xff xff xff xff)))
(T (W xff xff xff xff xff xff xff xff)
(T (W x00 x00 x01 x01 x42 x00 x00 x00)
(L (W x00 x00 x01 x01 xdc x00 x00 x00)) E)
(L (W xff xff xff xff xbc x00 x00 x00))))
(T (W xff xff xff xff x04 x00 x00 x00)
(T (W x30 x35 x5f x43 x4c x45 x41 x52)
(T (W x00 x00 x80 x3f x00 x00 x80 x3f)
(L (W x50 x00 x00 x00 x44 x00 x00 x00)) E)
(L (W x00 x00 x80 xbf x00 x00 x80 xbf)))
(T (W x00 x00 x00 x00 x00 x00 x00 x00)
(L (W x00 x00 x28 x00 x2a x00 x00 x00))
(L (W x00 x00 x00 x00 x12 x00 x00 x00))))))
(T (W x68 x00 x00 x00 x5c x00 x00 x00)
(T (W x00 x00 x80 x3f x00 x00 x80 x3f)
(T (W x00 x00 x00 x00 x00 x00 x00 x00)
(T (W x50 x00 x00 x00 x44 x00 x00 x00)
(T (W xff xff xff xff xff xff xff xff)
(L (W xff xff xff xff xff xff xff xff)) E)
(L (W xff xff xff xff xbc x00 x00 x00)))
(T (W x45 x26 x22 x84 xe4 x9c xf2 xcb)
(T (W xfa xd7 xfd xff x78 x00 x00 x00)
(L (W x5c x00 x00 x00 x50 x00 x00 x00)) E)
(L (W x00 x00 x00 x00 x94 xd9 xfe xff))))
(T (W xff xff xff xff xff xff xff xff)
(T (W xff xff xff xff xff xff xff xff)
(T (W x00 x00 x00 x00 x01 x00 x00 x00)
(L (W x45 x26 x22 x84 xe4 x9c xf2 xcb)) E)
(L (W x49 xa1 x68 x4a xeb x5f xdd x3d)))
(T (W xff xff xff xff xff xff xff xff)
(L (W x68 x00 x00 x00 x5c x00 x00 x00))
(L (W x30 x35 x5f x43 x4c x45 x41 x52)))))
(T (W x00 x00 x00 x00 x00 x00 x00 x00)
(T (W xff xff xff xff xff xff xff xff)
(T (W x45 x26 x22 x84 xe4 x9c xf2 xcb)
(T (W xee xbb x33 x97 x85 xa9 x5f x5f)
(L (W x00 x00 x00 x00 x00 x00 x00 x00)) E)
(L (W xff xff xff xff xff xff xff xff)))
(T (W x5f x4e x53 x5f x30 x35 x5f x43)
(T (W xff xff xff xff xff xff xff xff)
(L (W x00 x00 x62 x00 x70 x00 x04 x00)) E)
(L (W xff xff xff xff xff xff xff xff))))
(T (W x42 x36 xfc xff x74 x00 x00 x00)
(T (W x00 x00 x80 x3f x00 x00 x80 x3f)
(T (W xff xff xff xff xff xff xff xff)
(L (W x00 x00 x00 x00 x00 x00 x00 x00)) E)
(L (W x8c xbe xfe xff x21 x00 x00 x00)))
(T (W x00 x00 x00 x00 x00 x00 x00 x00)
(L (W x00 x00 x00 x00 x00 x00 x00 x00))
(L (W x00 x00 x00 x00 x00 x00 x00 x00)))))))
(T (W x00 x00 x00 x00 x94 x61 xfb xff)
(T (W x18 x00 x00 x00 x0c x00 x00 x00)
(T (W x00 x00 x80 x3f x00 x00 x80 x3f)
(T (W x00 x00 x00 x00 x00 x00 x00 x00)
(T (W x3e x00 x00 x00 x9c x00 x00 x00)
(T (W xff xff xff xff xff xff xff xff)
(L (W x00 x00 x00 x00 x94 x51 xff xff)) E)
(L (W xff xff xff xff xff xff xff xff)))
(T (W x27 x00 x00 x00 x10 x00 x00 x00)
(T (W x45 x26 x22 x84 xe4 x9c xf2 xcb)
(L (W x68 x00 x00 x00 x5c x00 x00 x00)) E)
(L (W x6c x00 x00 x00 x60 x00 x00 x00))))
(T (W xdd x00 x00 x00 xff xff xff xff)
(T (W xc4 x00 x00 x00 x01 x00 x00 x00)
(T (W x00 x00 x80 x3f x00 x00 x80 x3f)
(L (W x00 x00 x80 xbf x00 x00 x80 xbf)) E)
(L (W x00 x00 x00 x00 x00 x00 x00 x00)))
(T (W x45 x26 x22 x84 xe4 x9c xf2 xcb)
(L (W x00 x00 x80 xbf x00 x00 x80 xbf))
(L (W x00 x00 x01 x01 x69 x01 x00 x00)))))
(T (W x00 x00 x00 x00 x00 x00 x00 x00)
(T (W x19 x01 x00 x00 xff xff xff xff)
(T (W x45 x26 x22 x84 xe4 x9c xf2 xcb)
(T (W x00 x00 x80 x3f x00 x00 x80 x3f)
(L (W x46 x53 x59 x53 x5f x4e x53 x5f)) E)
(L (W xff xff xff xff xff xff xff xff)))
(T (W x38 x01 x00 x00 x04 x00 x00 x00)
(T (W x46 x53 x59 x53 x5f x4e x53 x5f)
(L (W x00 x00 x00 x00 x00 x00 x00 x00)) E)
(L (W xff xff xff xff xff xff xff xff))))
(T (W x18 x00 x00 x00 x0c x00 x00 x00)
(T (W x00 x00 x00 x00 x00 x00 x00 x00)
(T (W xff xff xff xff x9c x00 x00 x00)
(L (W x45 x26 x22 x84 xe4 x9c xf2 xcb)) E)
(L (W x00 x00 x00 x00 x00 x00 x00 x00)))
(T (W x00 x00 x00 x00 x00 x00 x00 x00)
(L (W xff xff xff xff xff xff xff xff))
(L (W x00 x00 x00 x00 x00 x00 x00 x00))))))
(T (W x00 x00 x80 x3f x00 x00 x80 x3f)
(T (W x00 x00 x80 x3f x00 x00 x80 x3f)
(T (W x00 x00 x00 x00 x00 x00 x00 x00)
(T (W x6c x00 x00 x00 x60 x00 x00 x00)
(T (W x00 x00 x00 x00 x94 x61 xfd xff)
(L (W xff xff xff xff xff xff xff xff)) E)
(L (W xff xff xff xff xff xff xff xff)))
(T (W x42 xde xfc xff x74 x00 x00 x00)
(T (W xff xff xff xff xff xff xff xff)
(L (W x42 xde xff xff x74 x00 x00 x00)) E)
(L (W x31 x00 x00 x00 x34 x00 x00 x00))))
(T (W xff xff xff xff xff xff xff xff)
(T (W x00 x00 x01 x01 x69 x01 x00 x00)
(T (W xff xff xff xff xff xff xff xff)
(L (W xc4 x00 x00 x00 x01 x00 x00 x00)) E)
(L (W x45 x26 x22 x84 xe4 x9c xf2 xcb)))
(T (W x00 x00 x00 x00 x00 x00 x00 x00)
(L (W xff xff xff xff xa8 x00 x00 x00))
(L (W x20 x00 x00 x00 x0c x00 x00 x00)))))
(T (W x45 x26 x22 x84 xe4 x9c xf2 xcb)
(T (W xff xff xff xff xff xff xff xff)
(T (W x00 x00 x80 x3f x00 x00 x80 x3f)
(T (W x00 x00 x00 x00 x00 x00 x00 x00)
(L (W x00 x00 x00 x00 x00 x00 x00 x00)) E)
(L (W x00 x00 x01 x01 xb1 x01 x00 x00)))
(T (W x00 x00 x80 x3f x00 x00 x80 x3f)
(T (W x00 x00 x00 x00 x00 x00 x00 x00)
(L (W x00 x00 x00 x01 x01 x01 x2a x00)) E)
(L (W xff xff xff xff xff xff xff xff))))
(T (W x45 x26 x22 x84 xe4 x9c xf2 xcb)
(T (W x50 x00 x00 x00 x44 x00 x00 x00)
(T (W x00 x00 x00 x00 x00 x00 x00 x00)
(L (W x00 x00 x80 xbf x00 x00 x80 xbf)) E)
(L (W x00 x00 x00 x00 x12 x00 x00 x00)))
(T (W x00 x00 x00 x00 x00 x00 x00 x00)
(L (W xff xff xff xff xff xff xff xff))
(L (W x45 x26 x22 x84 xe4 x9c xf2 xcb))))))))))
(T (W x38 x4f x01 x00 xdc x4c x01 x00)
(T (W x00 x1d x00 x00 xc4 x1b x00 x00)
(T (W xff xff xff xff xff xff xff xff)
(T (W xff xff xff xff xff xff xff xff)
(T (W xff xff xff xff xff xff xff xff)
(T (W xff xff xff xff xff xff xff xff)
(T (W x68 x00 x00 x00 x5c x00 x00 x00)
(T (W xfa xb3 xfe xff x00 x00 x01 x01)
(T (W x00 x00 x80 x3f x00 x00 x80 x3f)
(L (W xff xff xff xff xff xff xff xff)) E)
(L (W x00 x00 x00 x00 x00 x00 x00 x00)))
(T (W x00 x00 x00 x00 x01 x00 x00 x00)
(T (W x00 x00 x80 x3f x00 x00 x80 x3f)
(L (W xff xff xff xff xff xff xff xff)) E)
(L (W xbc x00 x00 x00 x64 x00 x00 x00))))
(T (W x00 x00 x00 x00 x00 x00 x00 x00)
(T (W xff xff xff xff xff xff xff xff)
(T (W x00 x00 x80 x3f x00 x00 x80 x3f)
(L (W x68 x00 x00 x00 x5c x00 x00 x00)) E)
(L (W x00 x00 x80 xbf x00 x00 x80 xbf)))
(T (W xff xff xff xff xff xff xff xff)
(L (W x50 x00 x00 x00 x44 x00 x00 x00))
(L (W x00 x00 x00 x00 x12 x00 x00 x00)))))
(T (W x45 x26 x22 x84 xe4 x9c xf2 xcb)
(T (W x42 xe1 xfb xff x74 x00 x00 x00)
(T (W xff xff xff xff xff xff xff xff)
(T (W x18 x01 x00 x00 x04 x00 x00 x00)
(L (W x00 x00 x00 x00 x00 x00 x00 x00)) E)
(L (W x46 x53 x59 x53 x5f x4e x53 x5f)))
(T (W x5f x4e x53 x5f x30 x35 x5f x43)
(T (W x00 x00 x00 x00 x00 x00 x00 x00)
(L (W x45 x26 x22 x84 xe4 x9c xf2 xcb)) E)
(L (W x45 x44 x00 x00 x00 x00 x00 x00))))
(T (W x00 x00 x00 x00 x00 x00 x00 x00)
(T (W x00 x00 x80 x3f x00 x00 x80 x3f)
(T (W x00 x00 x00 x00 x00 x00 x00 x00)
(L (W x00 x00 x00 x00 x00 x00 x00 x00)) E)
(L (W x2d x00 x00 x00 x30 x00 x00 x00)))
(T (W x00 x00 x80 x3f x00 x00 x80 x3f)
(L (W xff xff xff xff xff xff xff xff))
(L (W xfa x22 xff xff x78 x00 x00 x00))))))
(T (W x00 x00 x00 x00 x00 x00 x00 x00)
(T (W xff xff xff xff xff xff xff xff)
(T (W x50 x00 x00 x00 x44 x00 x00 x00)
(T (W xff xff xff xff xff xff xff xff)
(T (W x00 x00 x00 x00 x00 x00 x00 x00)
(L (W x29 x00 x00 x00 x0c x00 x00 x00)) E)
(L (W x00 x00 x00 x00 x12 x00 x00 x00)))
(T (W x50 x00 x00 x00 x44 x00 x00 x00)
(T (W xff xff xff xff xff xff xff xff)
(L (W x00 x00 x00 x00 x82 xdf xff xff)) E)
(L (W xff xff xff xff xff xff xff xff))))
(T (W x00 x00 x00 x00 x00 x00 x00 x00)
(T (W x46 x53 x59 x53 x5f x4e x53 x5f)
(T (W x20 x00 x24 x00 x00 x00 x00 x00)
(L (W x00 x00 x00 x00 x2a x92 xff xff)) E)
(L (W x45 x26 x22 x84 xe4 x9c xf2 xcb)))
(T (W x00 x00 x00 x00 x00 x00 x00 x00)
(L (W xff xff xff xff xff xff xff xff))
(L (W x6c x00 x00 x00 x60 x00 x00 x00)))))
(T (W xff xff xff xff x04 x00 x00 x00)
(T (W x00 x00 x80 x3f x00 x00 x80 x3f)
(T (W x00 x00 x80 x3f x00 x00 x80 x3f)
(T (W x50 x00 x54 x00 x58 x00 x00 x00)
(L (W xfa x72 xff xff x78 x00 x00 x00)) E)
(L (W x4f x84 x6f x8b xe8 xcb x63 xb7)))
(T (W x00 x00 x80 x3f x00 x00 x80 x3f)
(T (W x00 x00 x80 xbf x00 x00 x80 xbf)
(L (W x44 x00 x00 x00 x00 x00 x80 xbf)) E)
(L (W x4f x84 x6f x8b xe8 xcb x63 xb7))))
(T (W x00 x00 x00 x00 x00 x00 x00 x00)
(T (W xff xff xff xff xb0 x00 x00 x00)
(T (W x00 x00 x00 x00 x00 x00 x00 x00)
(L (W xff xff xff xff xff xff xff xff)) E)
(L (W x6c x00 x00 x00 x60 x00 x00 x00)))
(T (W x50 x00 x00 x00 x44 x00 x00 x00)
(L (W x00 x00 x00 x00 x00 x00 x00 x00))
(L (W xff xff xff xff xff xff xff xff)))))))
(T (W xff xff xff xff xff xff xff xff)
(T (W xfa xdb xfd xff x00 x00 x01 x01)
(T (W xff xff xff xff xff xff xff xff)
(T (W x00 x00 x80 x3f x00 x00 x80 x3f)
(T (W xff xff xff xff xff xff xff xff)
(T (W x00 x00 x80 x3f x00 x00 x80 x3f)
(L (W xff xff xff xff xff xff xff xff)) E)
(L (W x00 x00 x00 x00 x00 x00 x00 x00)))
(T (W x00 x00 x00 x00 x00 x00 x00 x00)
(T (W xfa xca xfd xff x78 x00 x00 x00)
(L (W xff xff xff xff xff xff xff xff)) E)
(L (W xff xff xff xff xff xff xff xff))))
(T (W x00 x00 x00 x00 x00 x00 x00 x00)
(T (W x04 x00 x00 x00 x8a x94 xfc xff)
(T (W x42 x89 xfd xff x74 x00 x00 x00)
(L (W x03 x00 x00 x00 xd8 x00 x00 x00)) E)
(L (W x00 x00 x00 x00 x94 x8c xfe xff)))
(T (W xff xff xff xff xff xff xff xff)
(L (W xff xff xff xff xb0 x00 x00 x00))
(L (W x00 x00 x80 xbf x00 x00 x80 xbf)))))
(T (W x01 x00 x00 x00 x9c x00 x00 x00)
(T (W x00 x00 x80 x3f x00 x00 x80 x3f)
(T (W x00 x00 x00 x00 x00 x00 x00 x00)
(T (W xff xff xff xff xff xff xff xff)
(L (W x00 x00 x80 xbf x00 x00 x80 xbf)) E)
(L (W x45 x26 x22 x84 xe4 x9c xf2 xcb)))
(T (W x00 x00 x00 x00 x00 x00 x00 x00)
(T (W x49 xa1 x68 x4a xeb x5f xdd x3d)
(L (W x00 x00 x80 xbf x00 x00 x80 xbf)) E)
(L (W x00 x00 x00 x00 x00 x00 x00 x00))))
(T (W x00 x00 x00 x00 x00 x00 x00 x00)
(T (W x00 x00 x00 x00 x94 xac xfc xff)
(T (W xbc x00 x00 x00 x32 x00 x00 x00)
(L (W xff xff xff xff xc8 x00 x00 x00)) E)
(L (W x4c x45 x41 x52 x45 x44 x00 x00)))
(T (W x18 x00 x00 x00 x0c x00 x00 x00)
(L (W x8c x31 xfe xff x3b x00 x00 x00))
(L (W x31 x00 x00 x00 x34 x00 x00 x00))))))
(T (W x20 x01 x00 x00 x04 x00 x00 x00)
(T (W xb8 x00 x00 x00 xac x00 x00 x00)
(T (W x68 x00 x00 x00 x5c x00 x00 x00)
(T (W xff xff xff xff xff xff xff xff)
(T (W x00 x00 x00 x00 x00 x00 x00 x00)
(L (W x00 x00 x00 x00 x12 x00 x00 x00)) E)
(L (W x00 x00 x00 x00 x00 x00 x00 x00)))
(T (W xff xff xff xff xff xff xff xff)
(T (W x00 x00 x00 x00 x02 xe3 xfd xff)
(L (W xff xff xff xff xff xff xff xff)) E)
(L (W x08 x00 x00 x00 x18 x08 x00 x00))))
(T (W x00 x00 x00 x00 x00 x00 x00 x00)
(T (W x45 x26 x22 x84 xe4 x9c xf2 xcb)
(T (W x68 x00 x00 x00 x5c x00 x00 x00)
(L (W xff xff xff xff xff xff xff xff)) E)
(L (W xff xff xff xff xff xff xff xff)))
(T (W x00 x00 x80 x3f x00 x00 x80 x3f)
(L (W x00 x00 x01 x01 xa8 x01 x00 x00))
(L (W x45 x26 x22 x84 xe4 x9c xf2 xcb)))))
(T (W x45 x26 x22 x84 xe4 x9c xf2 xcb)
(T (W x45 x26 x22 x84 xe4 x9c xf2 xcb)
(T (W xff xff xff xff xb0 x00 x00 x00)
(T (W x00 x00 x80 x3f x00 x00 x80 x3f)
(L (W xfa x7a xff xff x78 x00 x00 x00)) E)
(L (W x00 x00 x80 xbf x00 x00 x80 xbf)))
(T (W x18 x00 x00 x00 x10 x00 x00 x00)
(T (W x00 x00 x80 xbf x00 x00 x80 xbf)
(L (W xff xff xff xff xff xff xff xff)) E)
(L (W x00 x00 x00 x00 x00 x00 x00 x00))))
(T (W x3e x00 x00 x00 x10 x00 x00 x00)
(T (W xff xff xff xff xff xff xff xff)
(T (W x00 x00 x80 x3f x00 x00 x80 x3f)
(L (W xbc x00 x00 x00 x64 x00 x00 x00)) E)
(L (W xfa xba xfe xff x78 x00 x00 x00)))
(T (W x42 x39 xfd xff x74 x00 x00 x00)
(L (W x00 x00 x00 x00 x00 x00 x00 x00))
(L (W xbc x00 x00 x00 x64 x00 x00 x00))))))))
(T (W x00 x00 x80 x3f x00 x00 x80 x3f)
(T (W x00 x00 x80 x3f x00 x00 x80 x3f)
(T (W xff xff xff xff xff xff xff xff)
(T (W x00 x00 x80 x3f x00 x00 x80 x3f)
(T (W x00 x00 x00 x00 x00 x00 x00 x00)
(T (W x24 x4a xfc xff x00 x01 x01 x01)
(T (W xff xff xff xff xff xff xff xff)
(L (W x00 x00 x00 x00 x00 x00 x00 x00)) E)
(L (W x6c x00 x00 x00 x60 x00 x00 x00)))
(T (W x45 x26 x22 x84 xe4 x9c xf2 xcb)
(T (W xff xff xff xff xff xff xff xff)
(L (W x45 x26 x22 x84 xe4 x9c xf2 xcb)) E)
(L (W x00 x00 x00 x00 x12 x00 x00 x00))))
(T (W xff xff xff xff xff xff xff xff)
(T (W x00 x00 x80 x3f x00 x00 x80 x3f)
(T (W x00 x00 x00 x00 x00 x00 x00 x00)
(L (W x00 x00 x00 x00 x12 x00 x00 x00)) E)
(L (W xff xff xff xff xff xff xff xff)))
(T (W x45 x26 x22 x84 xe4 x9c xf2 xcb)
(L (W x30 x35 x5f x43 x4c x45 x41 x52))
(L (W xc4 x00 x00 x00 x01 x00 x00 x00)))))
(T (W x00 x00 x00 x00 x00 x00 x00 x00)
(T (W xff xff xff xff xff xff xff xff)
(T (W x00 x00 x00 x00 x00 x00 x00 x00)
(T (W x00 x00 x80 x3f x00 x00 x80 x3f)
(L (W xff xff xff xff xff xff xff xff)) E)
(L (W x03 x00 x00 x00 xd0 x00 x00 x00)))
(T (W xc8 x00 x00 x00 x01 x00 x00 x00)
(T (W xff xff xff xff xff xff xff xff)
(L (W x44 x00 x00 x00 x10 x00 x00 x00)) E)
(L (W x45 x26 x22 x84 xe4 x9c xf2 xcb))))
(T (W x42 x25 xfc xff x74 x00 x00 x00)
(T (W x00 x00 x01 x01 xc8 x02 x00 x00)
(T (W x30 x00 x00 x00 x10 x00 x00 x00)
(L (W x00 x00 x80 xbf x00 x00 x80 xbf)) E)
(L (W x00 x00 x00 x00 x00 x00 x00 x00)))
(T (W x5f x4e x53 x5f x30 x35 x5f x43)
(L (W x49 xa1 x68 x4a xeb x5f xdd x3d))
(L (W x00 x00 x00 x00 x00 x00 x00 x00))))))
(T (W x00 x00 x80 x3f x00 x00 x80 x3f)
(T (W x00 x00 x80 x3f x00 x00 x80 x3f)
(T (W xcf xc6 x03 x75 xb1 xd1 x11 x74)
(T (W x00 x00 x80 x3f x00 x00 x80 x3f)
(T (W x00 x00 x00 x00 x94 x58 xfd xff)
(L (W xbc x00 x00 x00 x64 x00 x00 x00)) E)
(L (W x45 x26 x22 x84 xe4 x9c xf2 xcb)))
(T (W x00 x00 x00 x00 x00 x00 x00 x00)
(T (W x00 x00 x80 x3f x00 x00 x80 x3f)
(L (W x00 x00 x80 xbf x00 x00 x80 xbf)) E)
(L (W x00 x00 x80 xbf x00 x00 x80 xbf))))
(T (W xff xff xff xff xff xff xff xff)
(T (W xc4 x00 x00 x00 x01 x00 x00 x00)
(T (W xff xff xff xff xff xff xff xff)
(L (W x00 x00 x80 xbf x00 x00 x80 xbf)) E)
(L (W x00 x00 x00 x00 x00 x00 x00 x00)))
(T (W xff xff xff xff xc4 x00 x00 x00)
(L (W x00 x00 x80 xbf x00 x00 x80 xbf))
(L (W xff xff xff xff xff xff xff xff)))))
(T (W x00 x00 x00 x00 x00 x00 x00 x00)
(T (W xff xff xff xff xff xff xff xff)
(T (W x00 x00 x00 x00 x00 x00 x00 x00)
(T (W xff xff xff xff xff xff xff xff)
(L (W x45 x44 x00 x00 x00 x00 x00 x00)) E)
(L (W xff xff xff xff xff xff xff xff)))
(T (W x6a x4d xfe xff x00 x00 x01 x01)
(T (W xff xff xff xff xff xff xff xff)
(L (W xff xff xff xff xff xff xff xff)) E)
(L (W xff xff xff xff xff xff xff xff))))
(T (W x68 x00 x00 x00 x5c x00 x00 x00)
(T (W x45 x26 x22 x84 xe4 x9c xf2 xcb)
(T (W x00 x00 x80 x3f x00 x00 x80 x3f)
(L (W x00 x00 x00 x00 x00 x00 x00 x00)) E)
(L (W xff xff xff xff xff xff xff xff)))
(T (W x00 x00 x00 x00 x00 x00 x00 x00)
(L (W xff xff xff xff xff xff xff xff))
(L (W x00 x00 x00 x00 x00 x00 x00 x00)))))))
(T (W x54 x00 x00 x00 x48 x00 x00 x00)
(T (W x00 x00 x80 x3f x00 x00 x80 x3f)
(T (W x00 x00 x80 x3f x00 x00 x80 x3f)
(T (W x00 x00 x00 x00 x00 x00 x00 x00)
(T (W x00 x00 x80 x3f x00 x00 x80 x3f)
(T (W xff xff xff xff xff xff xff xff)
(L (W x00 x00 x80 xbf x00 x00 x80 xbf)) E)
(L (W x18 x00 x00 x00 x10 x00 x00 x00)))
(T (W xff xff xff xff xff xff xff xff)
(T (W x00 x00 x00 x00 x00 x00 x00 x00)
(L (W x00 x00 x80 xbf x00 x00 x80 xbf)) E)
(L (W x45 x26 x22 x84 xe4 x9c xf2 xcb))))
(T (W xff xff xff xff x03 x00 x00 x00)
(T (W x45 x26 x22 x84 xe4 x9c xf2 xcb)
(T (W x68 x00 x00 x00 x00 x00 x62 x00)
(L (W x00 x00 x00 x00 x00 x00 x00 x00)) E)
(L (W x00 x00 x00 x00 x00 x00 x00 x00)))
(T (W x50 x00 x00 x00 x44 x00 x00 x00)
(L (W x00 x00 x00 x00 x00 x00 x00 x00))
(L (W xff xff xff xff xff xff xff xff)))))
(T (W x00 x00 x00 x00 x00 x00 x00 x00)
(T (W xff xff xff xff xff xff xff xff)
(T (W x00 x00 x00 x00 x00 x00 x00 x00)
(T (W x00 x00 x80 x3f x00 x00 x80 x3f)
(L (W x00 x00 x00 x00 x8a x78 xff xff)) E)
(L (W x14 x00 x00 x00 x0c x00 x00 x00)))
(T (W xff xff xff xff xff xff xff xff)
(T (W x04 x00 x00 x00 x8a xf8 xfd xff)
(L (W xff xff xff xff xff xff xff xff)) E)
(L (W x2f x00 x00 x00 x32 x00 x00 x00))))
(T (W x00 x00 x80 x3f x00 x00 x80 x3f)
(T (W x30 x35 x5f x43 x4c x45 x41 x52)
(T (W x6c x00 x00 x00 x60 x00 x00 x00)
(L (W x00 x00 x00 x00 x00 x00 x00 x00)) E)
(L (W x08 x00 x00 x00 xf0 x07 x00 x00)))
(T (W x8c x35 xfd xff x37 x00 x00 x00)
(L (W xbc x00 x00 x00 x64 x00 x00 x00))
(L (W x46 x53 x59 x53 x5f x4e x53 x5f))))))
(T (W x45 x26 x22 x84 xe4 x9c xf2 xcb)
(T (W x00 x00 x00 x00 x00 x00 x00 x00)
(T (W x19 x01 x00 x00 xff xff xff xff)
(T (W x00 x00 x80 x3f x00 x00 x80 x3f)
(T (W x42 x5d xfd xff x74 x00 x00 x00)
(L (W xff xff xff xff xff xff xff xff)) E)
(L (W xff xff xff xff xff xff xff xff)))
(T (W x00 x00 x80 x3f x00 x00 x80 x3f)
(T (W x18 x00 x00 x00 x0c x00 x00 x00)
(L (W x00 x00 x80 xbf x00 x00 x80 xbf)) E)
(L (W x00 x00 x00 x00 x94 xe0 xfe xff))))
(T (W x18 x00 x00 x00 x0c x00 x00 x00)
(T (W xff xff xff xff xff xff xff xff)
(T (W x42 x9d xfd xff x74 x00 x00 x00)
(L (W x00 x00 x80 xbf x00 x00 x80 xbf)) E)
(L (W x00 x00 x00 x00 x00 x00 x00 x00)))
(T (W xff xff xff xff xff xff xff xff)
(L (W x00 x00 x80 xbf x00 x00 x80 xbf))
(L (W xff xff xff xff xff xff xff xff)))))
(T (W x00 x00 x00 x00 x00 x00 x00 x00)
(T (W xff xff xff xff xff xff xff xff)
(T (W x00 x00 x00 x00 x00 x00 x00 x00)
(T (W x00 x00 x00 x00 x02 x00 x00 x00)
(L (W x34 x00 x00 x00 x0c x00 x00 x00)) E)
(L (W xff xff xff xff xff xff xff xff)))
(T (W x00 x00 x00 x00 x00 x00 x00 x00)
(T (W x01 x00 x00 x00 xff xff xff xff)
(L (W x00 x00 x00 x00 x00 x00 x00 x00)) E)
(L (W x68 x00 x00 x00 x5c x00 x00 x00))))
(T (W x42 x3d xfc xff x74 x00 x00 x00)
(T (W x00 x00 x80 x3f x00 x00 x80 x3f)
(T (W x00 x00 x00 x00 x2a xbe xfd xff)
(L (W x00 x00 x80 xbf x00 x00 x80 xbf)) E)
(L (W x00 x00 x00 x00 xf2 xbf xfe xff)))
(T (W x18 x01 x00 x00 x04 x00 x00 x00)
(L (W xff xff xff xff xb0 x00 x00 x00))
(L (W x00 x00 x00 x00 x12 x00 x00 x00)))))))))
(T (W x24 x4c xfb xff x00 x01 x01 x01)
(T (W x00 x00 x00 x00 x00 x00 x00 x00)
(T (W x00 x00 x00 x00 x00 x00 x00 x00)
(T (W x00 x00 x00 x00 x00 x00 x00 x00)
(T (W x00 x00 x00 x00 x00 x00 x00 x00)
(T (W xff xff xff xff xff xff xff xff)
(T (W x45 x26 x22 x84 xe4 x9c xf2 xcb)
(T (W x00 x00 x00 x00 x94 x46 xfd xff)
(L (W xff xff xff xff xff xff xff xff)) E)
(L (W x00 x00 x80 xbf x00 x00 x80 xbf)))
(T (W x45 x26 x22 x84 xe4 x9c xf2 xcb)
(T (W xc4 x00 x00 x00 x02 x00 x00 x00)
(L (W x00 x00 x00 x00 xf2 xc5 xff xff)) E)
(L (W xff xff xff xff xff xff xff xff))))
(T (W x24 x08 xfc xff x00 x01 x01 x01)
(T (W x00 x00 x00 x00 x00 x00 x00 x00)
(T (W x45 x26 x22 x84 xe4 x9c xf2 xcb)
(L (W xff xff xff xff xff xff xff xff)) E)
(L (W xc4 x00 x00 x00 x02 x00 x00 x00)))
(T (W x00 x00 x00 x00 x00 x00 x00 x00)
(L (W xff xff xff xff xff xff xff xff))
(L (W x00 x00 x80 xbf x00 x00 x80 xbf)))))
(T (W xa9 x01 x00 x00 xff xff xff xff)
(T (W x01 x00 x00 x00 x9c x00 x00 x00)
(T (W x00 x00 x00 x00 x00 x00 x00 x00)
(T (W x00 x00 x00 x00 x00 x00 x00 x00)
(L (W xff xff xff xff xa0 x00 x00 x00)) E)
(L (W x54 x00 x00 x00 x48 x00 x00 x00)))
(T (W x00 x00 x80 x3f x00 x00 x80 x3f)
(T (W x18 x00 x00 x00 x10 x00 x00 x00)
(L (W x3c x00 x00 x00 x00 x00 x80 xbf)) E)
(L (W x00 x00 x80 xbf x00 x00 x80 xbf))))
(T (W x00 x00 x80 x3f x00 x00 x80 x3f)
(T (W xff xff xff xff xb0 x00 x00 x00)
(T (W x18 x00 x00 x00 x0c x00 x00 x00)
(L (W x00 x00 x00 x00 x00 x00 x00 x00)) E)
(L (W xff xff xff xff xff xff xff xff)))
(T (W xff xff xff xff xbc x00 x00 x00)
(L (W x45 x44 x00 x00 x00 x00 x00 x00))
(L (W xff xff xff xff xff xff xff xff))))))
(T (W x00 x00 x00 x00 x00 x00 x00 x00)
(T (W x00 x00 x00 x00 x00 x00 x00 x00)
(T (W xb8 x00 x00 x00 xac x00 x00 x00)
(T (W x00 x00 x00 x00 x00 x00 x00 x00)
(T (W x00 x00 x80 x3f x00 x00 x80 x3f)
(L (W x45 x26 x22 x84 xe4 x9c xf2 xcb)) E)
(L (W x49 xa1 x68 x4a xeb x5f xdd x3d)))
(T (W xff xff xff xff xff xff xff xff)
(T (W x00 x00 x00 x00 x00 x00 x00 x00)
(L (W x00 x00 x00 x00 x00 x00 x00 x00)) E)
(L (W x00 x00 x00 x00 x00 x00 x00 x00))))
(T (W x00 x00 x80 x3f x00 x00 x80 x3f)
(T (W x00 x00 x80 x3f x00 x00 x80 x3f)
(T (W x00 x00 x80 x3f x00 x00 x80 x3f)
(L (W x00 x00 x00 x00 x00 x00 x00 x00)) E)
(L (W xff xff xff xff xff xff xff xff)))
(T (W x00 x00 x80 x3f x00 x00 x80 x3f)
(L (W x46 x53 x59 x53 x5f x4e x53 x5f))
(L (W xff xff xff xff xff xff xff xff)))))
(T (W x20 x01 x00 x00 x04 x00 x00 x00)
(T (W xc0 x00 x00 x00 xb4 x00 x00 x00)
(T (W xff xff xff xff xff xff xff xff)
(T (W x18 x00 x00 x00 x10 x00 x00 x00)
(L (W xff xff xff xff xff xff xff xff)) E)
(L (W x54 x00 x00 x00 x48 x00 x00 x00)))
(T (W xff xff xff xff xff xff xff xff)
(T (W x45 x26 x22 x84 xe4 x9c xf2 xcb)
(L (W x00 x00 x00 x00 x00 x00 x00 x00)) E)
(L (W x00 x00 x80 xbf x00 x00 x80 xbf))))
(T (W x00 x00 x80 x3f x00 x00 x80 x3f)
(T (W x04 x00 x00 x00 xf2 xb5 xfc xff)
(T (W x6b x65 x5f x77 x61 x72 x6c x69)
(L (W x00 x00 x01 x01 xa9 x01 x00 x00)) E)
(L (W xff xff xff xff xc0 x00 x00 x00)))
(T (W xff xff xff xff xff xff xff xff)
(L (W x6c x00 x00 x00 x60 x00 x00 x00))
(L (W xff xff xff xff xff xff xff xff)))))))
(T (W x00 x00 x00 x00 x00 x00 x00 x00)
(T (W x00 x00 x00 x00 x00 x00 x00 x00)
(T (W x00 x00 x00 x00 x00 x00 x00 x00)
(T (W xff xff xff xff xff xff xff xff)
(T (W x00 x00 x00 x00 x00 x00 x00 x00)
(T (W x42 x4b xfd xff x74 x00 x00 x00)
(L (W x30 x35 x5f x43 x4c x45 x41 x52)) E)
(L (W x00 x00 x80 xbf x00 x00 x80 xbf)))
(T (W x42 xcb xfc xff x74 x00 x00 x00)
(T (W x00 x00 x00 x00 x2a xcc xfd xff)
(L (W x00 x00 x00 x00 x12 x00 x00 x00)) E)
(L (W x00 x00 x00 x00 xf2 xcd xfe xff))))
(T (W x00 x00 x80 x3f x00 x00 x80 x3f)
(T (W x00 x00 x00 x00 x00 x00 x00 x00)
(T (W xff xff xff xff xff xff xff xff)
(L (W x00 x00 x01 x01 xb4 x01 x00 x00)) E)
(L (W xff xff xff xff xff xff xff xff)))
(T (W x4f x84 x6f x8b xe8 xcb x63 xb7)
(L (W x00 x00 x01 x01 x7d x00 x00 x00))
(L (W x6c x00 x00 x00 x60 x00 x00 x00)))))
(T (W xff xff xff xff xff xff xff xff)
(T (W x0a x00 x00 x00 x3e x00 x00 x00)
(T (W x58 x00 x00 x00 x00 x00 x00 x00)
(T (W x00 x00 x00 x00 x00 x00 x00 x00)
(L (W xff xff xff xff xff xff xff xff)) E)
(L (W x3c x00 x00 x00 x00 x00 x80 xbf)))
(T (W x00 x00 x00 x00 x94 xee xfc xff)
(T (W xfa xec xfd xff x78 x00 x00 x00)
(L (W xff xff xff xff xff xff xff xff)) E)
(L (W x00 x00 x80 xbf x00 x00 x80 xbf))))
(T (W x00 x00 x80 x3f x00 x00 x80 x3f)
(T (W xff xff xff xff xff xff xff xff)
(T (W x46 x53 x59 x53 x5f x4e x53 x5f)
(L (W x00 x00 x00 x00 x2a xac xff xff)) E)
(L (W x03 x00 x00 x00 xd0 x00 x00 x00)))
(T (W xff xff xff xff xff xff xff xff)
(L (W x00 x00 x80 xbf x00 x00 x80 xbf))
(L (W xff xff xff xff xff xff xff xff))))))
(T (W x00 x00 x00 x00 x00 x00 x00 x00)
(T (W x0e x95 x81 x86 xbc xdc xbf x3f)
(T (W x45 x26 x22 x84 xe4 x9c xf2 xcb)
(T (W x3e x00 x00 x00 x0c x00 x00 x00)
(T (W x00 x00 x80 x3f x00 x00 x80 x3f)
(L (W xfa x5c xff xff x78 x00 x00 x00)) E)
(L (W x00 x00 x80 xbf x00 x00 x80 xbf)))
(T (W x00 x00 x00 x00 x00 x00 x00 x00)
(T (W x49 xa1 x68 x4a xeb x5f xdd x3d)
(L (W x00 x00 x00 x00 x12 x00 x00 x00)) E)
(L (W x00 x00 x80 xbf x00 x00 x80 xbf))))
(T (W x45 x26 x22 x84 xe4 x9c xf2 xcb)
(T (W x50 x00 x00 x00 x44 x00 x00 x00)
(T (W x00 x00 x00 x00 x00 x00 x00 x00)
(L (W x00 x00 x00 x00 x00 x00 x00 x00)) E)
(L (W x00 x00 x00 x00 x6a x9f xfe xff)))
(T (W x42 x1b xfd xff x74 x00 x00 x00)
(L (W x00 x00 x00 x00 x00 x00 x00 x00))
(L (W xff xff xff xff xff xff xff xff)))))
(T (W xff xff xff xff xff xff xff xff)
(T (W x42 xfb xfb xff x74 x00 x00 x00)
(T (W x04 x00 x00 x00 x8a x86 xfc xff)
(T (W x45 x26 x22 x84 xe4 x9c xf2 xcb)
(L (W xff xff xff xff xff xff xff xff)) E)
(L (W x42 x7b xfe xff x74 x00 x00 x00)))
(T (W xff xff xff xff xff xff xff xff)
(T (W x45 x26 x22 x84 xe4 x9c xf2 xcb)
(L (W x54 x00 x00 x00 x48 x00 x00 x00)) E)
(L (W x00 x00 x80 xbf x00 x00 x80 xbf))))
(T (W x00 x00 x00 x00 x00 x00 x00 x00)
(T (W x30 x35 x5f x43 x4c x45 x41 x52)
(T (W xff xff xff xff xff xff xff xff)
(L (W xff xff xff xff xff xff xff xff)) E)
(L (W xff xff xff xff xff xff xff xff)))
(T (W xff xff xff xff xff xff xff xff)
(L (W x00 x00 x80 xbf x00 x00 x80 xbf))
(L (W xff xff xff xff xff xff xff xff))))))))
(T (W x42 x4f xfb xff x74 x00 x00 x00)
(T (W x50 x00 x00 x00 x44 x00 x00 x00)
(T (W x54 x00 x00 x00 x48 x00 x00 x00)
(T (W x68 x00 x00 x00 x5c x00 x00 x00)
(T (W x00 x00 x80 x3f x00 x00 x80 x3f)
(T (W xb8 x00 x00 x00 xac x00 x00 x00)
(T (W x00 x00 x00 x00 x00 x00 x00 x00)
(L (W x00 x00 x80 xbf x00 x00 x80 xbf)) E)
(L (W xff xff xff xff xff xff xff xff)))
(T (W x6a x01 x00 x00 xff xff xff xff)
(T (W x00 x00 x00 x00 x00 x00 x00 x00)
(L (W xbc x00 x00 x00 x64 x00 x00 x00)) E)
(L (W x00 x00 x80 xbf x00 x00 x80 xbf))))
(T (W x00 x00 x00 x00 x00 x00 x00 x00)
(T (W xc4 x00 x00 x00 x01 x00 x00 x00)
(T (W x00 x00 x80 x3f x00 x00 x80 x3f)
(L (W x00 x00 x80 xbf x00 x00 x80 xbf)) E)
(L (W x00 x00 x00 x00 x00 x00 x00 x00)))
(T (W x31 x00 x00 x00 x34 x00 x00 x00)
(L (W x00 x00 x80 xbf x00 x00 x80 xbf))
(L (W x94 x04 x00 x00 x80 x03 x00 x00)))))
(T (W x42 xa7 xfb xff x74 x00 x00 x00)
(T (W x00 x00 x00 x00 x00 x00 x00 x00)
(T (W x45 x26 x22 x84 xe4 x9c xf2 xcb)
(T (W x00 x00 x00 x00 x94 x6a xfd xff)
(L (W x30 x35 x5f x43 x4c x45 x41 x52)) E)
(L (W x06 x00 x00 x00 xa0 x05 x00 x00)))
(T (W x02 x00 x00 x00 xff xff xff xff)
(T (W x30 x35 x5f x43 x4c x45 x41 x52)
(L (W x30 x35 x5f x43 x4c x45 x41 x52)) E)
(L (W x00 x00 x01 x01 x64 x01 x00 x00))))
(T (W xff xff xff xff xff xff xff xff)
(T (W x00 x00 x00 x00 x00 x00 x00 x00)
(T (W x00 x00 x80 x3f x00 x00 x80 x3f)
(L (W x58 x00 x00 x00 x5c x00 x60 x00)) E)
(L (W x42 xa7 xfe xff x74 x00 x00 x00)))
(T (W x00 x00 x80 x3f x00 x00 x80 x3f)
(L (W x00 x01 x01 x01 x28 x00 x58 x00))
(L (W x00 x00 x00 x00 x00 x00 x00 x00))))))
(T (W xff xff xff xff x04 x00 x00 x00)
(T (W x50 x00 x00 x00 x44 x00 x00 x00)
(T (W x00 x00 x00 x00 x00 x00 x00 x00)
(T (W xff xff xff xff x03 x00 x00 x00)
(T (W xff xff xff xff xff xff xff xff)
(L (W xff xff xff xff xff xff xff xff)) E)
(L (W xff xff xff xff xff xff xff xff)))
(T (W x00 x00 x80 x3f x00 x00 x80 x3f)
(T (W xff xff xff xff x9c x00 x00 x00)
(L (W x14 x00 x00 x00 x0c x00 x00 x00)) E)
(L (W x24 x00 x00 x00 x27 x00 x00 x00))))
(T (W x48 x03 x00 x00 x34 x02 x00 x00)
(T (W x54 x02 x00 x00 x38 x01 x00 x00)
(T (W x00 x00 x00 x00 x00 x00 x00 x00)
(L (W xcc x00 x00 x00 x02 x00 x00 x00)) E)
(L (W x00 x00 x80 xbf x00 x00 x80 xbf)))
(T (W xff xff xff xff x02 x00 x00 x00)
(L (W xff xff xff xff xff xff xff xff))
(L (W x00 x00 x00 x00 x00 x00 x00 x00)))))
(T (W x45 x26 x22 x84 xe4 x9c xf2 xcb)
(T (W xc6 xbc xe9 x03 xc8 x44 x65 xc5)
(T (W x00 x00 x80 x3f x00 x00 x80 x3f)
(T (W x00 x00 x00 x00 x00 x00 x00 x00)
(L (W x00 x00 x00 x00 x00 x00 x00 x00)) E)
(L (W x8c x7f xfe xff x31 x00 x00 x00)))
(T (W x00 x00 x00 x00 x00 x00 x00 x00)
(T (W x00 x00 x00 x00 x00 x00 x00 x00)
(L (W x00 x00 x80 xbf x00 x00 x80 xbf)) E)
(L (W xff xff xff xff xff xff xff xff))))
(T (W xff xff xff xff x04 x00 x00 x00)
(T (W x00 x00 x80 x3f x00 x00 x80 x3f)
(T (W x6c x76 x32 x00 x22 x00 x00 x00)
(L (W x00 x00 x80 xbf x00 x00 x80 xbf)) E)
(L (W x00 x00 x80 xbf x00 x00 x80 xbf)))
(T (W x45 x26 x22 x84 xe4 x9c xf2 xcb)
(L (W x00 x00 x00 x00 x00 x00 x00 x00))
(L (W x45 x26 x22 x84 xe4 x9c xf2 xcb)))))))
(T (W x01 x00 x00 x00 xa0 x00 x00 x00)
(T (W xb8 x00 x00 x00 xac x00 x00 x00)
(T (W x00 x00 x80 x3f x00 x00 x80 x3f)
(T (W x00 x00 x80 x3f x00 x00 x80 x3f)
(T (W xc0 x00 x00 x00 xb4 x00 x00 x00)
(T (W x18 x01 x00 x00 x04 x00 x00 x00)
(L (W xff xff xff xff xff xff xff xff)) E)
(L (W x00 x00 x00 x00 x00 x00 x00 x00)))
(T (W x00 x00 x00 x00 x00 x00 x00 x00)
(T (W x68 x00 x00 x00 x5c x00 x00 x00)
(L (W xff xff xff xff xff xff xff xff)) E)
(L (W xff xff xff xff xa0 x00 x00 x00))))
(T (W x00 x00 x00 x00 x00 x00 x00 x00)
(T (W xff xff xff xff xff xff xff xff)
(T (W xff xff xff xff xff xff xff xff)
(L (W x50 x00 x00 x00 x44 x00 x00 x00)) E)
(L (W x00 x00 x80 xbf x00 x00 x80 xbf)))
(T (W xff xff xff xff xff xff xff xff)
(L (W x50 x00 x00 x00 x44 x00 x00 x00))
(L (W x46 x53 x59 x53 x5f x4e x53 x5f)))))
(T (W x00 x00 x80 x3f x00 x00 x80 x3f)
(T (W x00 x00 x00 x00 x00 x00 x00 x00)
(T (W xff xff xff xff xff xff xff xff)
(T (W x42 x6f xfd xff x74 x00 x00 x00)
(L (W x00 x00 x00 x00 x00 x00 x00 x00)) E)
(L (W xff xff xff xff xff xff xff xff)))
(T (W x00 x00 x00 x00 x00 x00 x00 x00)
(T (W x00 x00 x00 x00 x00 x00 x00 x00)
(L (W x00 x00 x00 x00 x00 x00 x00 x00)) E)
(L (W x00 x00 x00 x00 x02 xf9 xfe xff))))
(T (W xff xff xff xff xff xff xff xff)
(T (W x00 x00 x80 x3f x00 x00 x80 x3f)
(T (W xff xff xff xff xff xff xff xff)
(L (W x00 x00 x80 xbf x00 x00 x80 xbf)) E)
(L (W x00 x00 x80 xbf x00 x00 x80 xbf)))
(T (W x45 x26 x22 x84 xe4 x9c xf2 xcb)
(L (W xff xff xff xff xff xff xff xff))
(L (W x00 x00 x80 xbf x00 x00 x80 xbf))))))
(T (W x45 x26 x22 x84 xe4 x9c xf2 xcb)
(T (W x68 x00 x00 x00 x5c x00 x00 x00)
(T (W x00 x00 x00 x00 x00 x00 x00 x00)
(T (W x00 x00 x00 x00 x94 x62 xfc xff)
(T (W xff xff xff xff xff xff xff xff)
(L (W x00 x00 x01 x01 xbe x00 x00 x00)) E)
(L (W x5c x00 x00 x00 xff xff xff xff)))
(T (W xff xff xff xff xbc x00 x00 x00)
(T (W xff xff xff xff xff xff xff xff)
(L (W xff xff xff xff xff xff xff xff)) E)
(L (W xff xff xff xff xff xff xff xff))))
(T (W xff xff xff xff xff xff xff xff)
(T (W x30 x35 x5f x43 x4c x45 x41 x52)
(T (W xff xff xff xff xff xff xff xff)
(L (W xff xff xff xff xff xff xff xff)) E)
(L (W x00 x00 x80 xbf x00 x00 x80 xbf)))
(T (W x00 x00 x00 x00 x00 x00 x00 x00)
(L (W xff xff xff xff xff xff xff xff))
(L (W x49 xa1 x68 x4a xeb x5f xdd x3d)))))
(T (W x00 x00 x80 x3f x00 x00 x80 x3f)
(T (W x8a x70 xfe xff xf0 x00 x00 x00)
(T (W x45 x26 x22 x84 xe4 x9c xf2 xcb)
(T (W x00 x00 x00 x00 x00 x00 x00 x00)
(L (W x00 x00 x80 xbf x00 x00 x80 xbf)) E)
(L (W x30 x35 x5f x43 x4c x45 x41 x52)))
(T (W x00 x00 x80 x3f x00 x00 x80 x3f)
(T (W x00 x00 x00 x00 x00 x00 x00 x00)
(L (W x28 x00 x2c x00 x30 x00 x34 x00)) E)
(L (W xff xff xff xff xff xff xff xff))))
(T (W x18 x00 x00 x00 x10 x00 x00 x00)
(T (W xff xff xff xff x9c x00 x00 x00)
(T (W x00 x00 x00 x00 x00 x00 x00 x00)
(L (W xfa xc0 xff xff x78 x00 x00 x00)) E)
(L (W x45 x26 x22 x84 xe4 x9c xf2 xcb)))
(T (W x00 x00 x00 x00 x00 x00 x00 x00)
(L (W xff xff xff xff xff xff xff xff))
(L (W x00 x00 x80 xbf x00 x00 x80 xbf))))))))))))
(T (W xa8 x98 x03 x00 xac x91 x03 x00)
(T (W x40 xef x02 x00 x94 xea x02 x00)
(T (W xe0 x1c x02 x00 x9c x1a x02 x00)
(T (W x20 xd3 x00 x00 xd4 xd0 x00 x00)
(T (W x04 x00 x00 x00 xfa xd6 xfd xff)
(T (W x73 x02 x00 x00 xff xff xff xff)
(T (W x3a x02 x00 x00 xff xff xff xff)
(T (W x00 x00 x00 x00 x02 x00 x00 x00)
(T (W x00 x00 x00 x00 x54 xc3 xfb xff)
(T (W x6a x8c x7a x05 x59 x92 x58 x03)
(T (W x02 x40 xfd xff x74 x00 x00 x00)
(L (W xff xff xff xff xc4 x00 x00 x00)) E)
(L (W x00 x00 x00 x00 x00 x00 x00 x00)))
(T (W x27 x00 x00 x00 x10 x00 x00 x00)
(T (W x00 x00 x00 x00 x54 xc3 xfd xff)
(L (W xff xff xff xff xff xff xff xff)) E)
(L (W xff xff xff xff xff xff xff xff))))
(T (W x45 x26 x22 x84 xe4 x9c xf2 xcb)
(T (W xff xff xff xff xff xff xff xff)
(T (W xe4 x84 xfd xff x00 x01 x01 x01)
(L (W x18 x00 x00 x00 x0c x00 x00 x00)) E)
(L (W x00 x00 x80 xbf x00 x00 x80 xbf)))
(T (W xff xff xff xff xff xff xff xff)
(T (W x45 x26 x22 x84 xe4 x9c xf2 xcb)
(L (W x58 x00 x48 x00 x50 x00 x04 x00)) E)
(L (W x45 x26 x22 x84 xe4 x9c xf2 xcb)))))
(T (W xff xff xff xff xff xff xff xff)
(T (W x68 x00 x00 x00 x5c x00 x00 x00)
(T (W x48 x03 x00 x00 x34 x02 x00 x00)
(T (W x00 x00 x00 x00 x00 x00 x00 x00)
(L (W x00 x00 x80 xbf x00 x00 x80 xbf)) E)
(L (W x00 x00 x00 x00 x00 x00 x00 x00)))
(T (W x00 x00 x00 x00 x00 x00 x00 x00)
(T (W x4f x84 x6f x8b xe8 xcb x63 xb7)
(L (W x46 x53 x59 x53 x5f x4e x53 x5f)) E)
(L (W x00 x00 x00 x00 x00 x00 x00 x00))))
(T (W x00 x00 x00 x00 x00 x00 x00 x00)
(T (W x00 x00 x80 x3f x00 x00 x80 x3f)
(T (W x45 x26 x22 x84 xe4 x9c xf2 xcb)
(L (W x00 x00 x00 x00 x00 x00 x00 x00)) E)
(L (W xa8 x00 x00 x00 x32 x00 x00 x00)))
(T (W x50 x00 x00 x00 x44 x00 x00 x00)
(L (W x00 x00 x00 x00 x00 x00 x00 x00))
(L (W xff xff xff xff xa0 x00 x00 x00))))))
(T (W x7c x7b xfb xff x0e x00 x00 x00)
(T (W xff xff xff xff xff xff xff xff)
(T (W x40 x00 x00 x00 x9c x00 x00 x00)
(T (W x00 x00 x00 x00 x00 x00 x00 x00)
(T (W x00 x00 x80 x3f x00 x00 x80 x3f)
(L (W x46 x53 x59 x53 x5f x4e x53 x5f)) E)
(L (W x45 x26 x22 x84 xe4 x9c xf2 xcb)))
(T (W x02 xd0 xfc xff x74 x00 x00 x00)
(T (W xff xff xff xff xff xff xff xff)
(L (W x00 x00 x00 x00 x00 x00 x00 x00)) E)
(L (W x00 x00 x01 x01 x3f x00 x00 x00))))
(T (W x00 x00 x80 x3f x00 x00 x80 x3f)
(T (W x00 x00 x00 x00 x00 x00 x00 x00)
(T (W x00 x00 x00 x00 x00 x00 x00 x00)
(L (W xa4 x04 x00 x00 x88 x03 x00 x00)) E)
(L (W xff xff xff xff xc8 x00 x00 x00)))
(T (W x00 x00 x00 x00 x00 x00 x00 x00)
(L (W xff xff xff xff xff xff xff xff))
(L (W x00 x00 x80 xbf x00 x00 x80 xbf)))))
(T (W xff xff xff xff xff xff xff xff)
(T (W x00 x00 x80 x3f x00 x00 x80 x3f)
(T (W x00 x00 x00 x00 x00 x00 x00 x00)
(T (W xff xff xff xff xff xff xff xff)
(L (W xff xff xff xff xb0 x00 x00 x00)) E)
(L (W x00 x00 x00 x00 x00 x00 x00 x00)))
(T (W x68 x00 x00 x00 x5c x00 x00 x00)
(T (W x6c x00 x00 x00 x60 x00 x00 x00)
(L (W x00 x00 x00 x00 xe8 xf4 xff xff)) E)
(L (W x45 x26 x22 x84 xe4 x9c xf2 xcb))))
(T (W x00 x00 x00 x00 x00 x00 x00 x00)
(T (W xff xff xff xff xff xff xff xff)
(T (W x00 x00 x00 x00 x00 x00 x00 x00)
(L (W xff xff xff xff xff xff xff xff)) E)
(L (W x18 x00 x00 x00 x0c x00 x00 x00)))
(T (W xb8 x00 x00 x00 xac x00 x00 x00)
(L (W x00 x00 x00 x00 x00 x00 x00 x00))
(L (W xb8 x00 x00 x00 x64 x00 x00 x00)))))))
(T (W xff xff xff xff xff xff xff xff)
(T (W x00 x00 x4c x00 x50 x00 x00 x00)
(T (W xff xff xff xff xff xff xff xff)
(T (W x18 x00 x00 x00 x0c x00 x00 x00)
(T (W x4a xb9 xfe xff x43 x00 x00 x00)
(T (W x00 x00 x80 x3f x00 x00 x80 x3f)
(L (W xff xff xff xff xff xff xff xff)) E)
(L (W x4f x84 x6f x8b xe8 xcb x63 xb7)))
(T (W x45 x26 x22 x84 xe4 x9c xf2 xcb)
(T (W xff xff xff xff xb0 x00 x00 x00)
(L (W x00 x00 x00 x00 x00 x00 x00 x00)) E)
(L (W xff xff xff xff xc4 x00 x00 x00))))
(T (W x00 x00 x80 x3f x00 x00 x80 x3f)
(T (W x00 x00 x00 x00 x00 x00 x00 x00)
(T (W x00 x00 x00 x00 x54 x8b xfd xff)
(L (W xb8 x00 x00 x00 x64 x00 x00 x00)) E)
(L (W xff xff xff xff xb0 x00 x00 x00)))
(T (W x2a x60 xfe xff x00 x00 x01 x01)
(L (W xff xff xff xff xff xff xff xff))
(L (W x00 x00 x80 xbf x00 x00 x80 xbf)))))
(T (W xff xff xff xff xff xff xff xff)
(T (W xba xe9 xfb xff x78 x00 x00 x00)
(T (W x00 x00 x00 x00 x00 x00 x00 x00)
(T (W x18 x01 x00 x00 x04 x00 x00 x00)
(L (W x00 x00 x80 xbf x00 x00 x80 xbf)) E)
(L (W x00 x00 x80 xbf x00 x00 x80 xbf)))
(T (W x4f x84 x6f x8b xe8 xcb x63 xb7)
(T (W x00 x00 x80 xbf x00 x00 x80 xbf)
(L (W x00 x00 x80 xbf x00 x00 x80 xbf)) E)
(L (W x00 x00 x80 xbf x00 x00 x80 xbf))))
(T (W x00 x00 x00 x00 x00 x00 x00 x00)
(T (W xff xff xff xff xb0 x00 x00 x00)
(T (W xff xff xff xff xff xff xff xff)
(L (W x50 x00 x00 x00 x44 x00 x00 x00)) E)
(L (W x38 x00 x3c x00 x40 x00 x44 x00)))
(T (W xff xff xff xff x9c x00 x00 x00)
(L (W x00 x00 x00 x00 x00 x00 x00 x00))
(L (W xff xff xff xff xff xff xff xff))))))
(T (W x00 x00 x00 x00 x00 x00 x00 x00)
(T (W xff xff xff xff xff xff xff xff)
(T (W x01 x00 x00 x00 x3c x00 x00 x00)
(T (W x00 x00 x00 x00 x00 x00 x00 x00)
(T (W x00 x00 x00 x00 x00 x00 x00 x00)
(L (W x00 x00 x00 x00 x00 x00 x00 x00)) E)
(L (W x00 x00 x00 x00 x00 x00 x00 x00)))
(T (W xff xff xff xff xff xff xff xff)
(T (W x3a x00 x00 x00 x0c x00 x00 x00)
(L (W xff xff xff xff xff xff xff xff)) E)
(L (W x00 x00 x00 x00 x00 x00 x00 x00))))
(T (W x00 x00 x80 x3f x00 x00 x80 x3f)
(T (W x00 x00 x80 x3f x00 x00 x80 x3f)
(T (W x02 x98 xfd xff x74 x00 x00 x00)
(L (W x45 x44 x00 x00 x00 x00 x00 x00)) E)
(L (W xff xff xff xff xff xff xff xff)))
(T (W x45 x26 x22 x84 xe4 x9c xf2 xcb)
(L (W x46 x53 x59 x53 x5f x4e x53 x5f))
(L (W xc4 x00 x00 x00 x01 x00 x00 x00)))))
(T (W x64 x00 x00 x00 x9c x00 x00 x00)
(T (W x00 x00 x80 x3f x00 x00 x80 x3f)
(T (W xff xff xff xff xff xff xff xff)
(T (W x00 x00 x80 x3f x00 x00 x80 x3f)
(L (W x68 x00 x00 x00 x5c x00 x00 x00)) E)
(L (W x00 x00 x80 xbf x00 x00 x80 xbf)))
(T (W xc8 x00 x00 x00 x01 x00 x00 x00)
(T (W x00 x00 x80 xbf x00 x00 x80 xbf)
(L (W xff xff xff xff xff xff xff xff)) E)
(L (W x00 x00 x00 x00 x00 x00 x00 x00))))
(T (W x00 x00 x00 x00 x00 x00 x00 x00)
(T (W xff xff xff xff xff xff xff xff)
(T (W x00 x00 x80 x3f x00 x00 x80 x3f)
(L (W xff xff xff xff xff xff xff xff)) E)
(L (W x2f x00 x00 x00 x32 x00 x00 x00)))
(T (W x00 x00 x00 x00 x54 x3b xfd xff)
(L (W x00 x00 x80 xbf x00 x00 x80 xbf))
(L (W xff xff xff xff xff xff xff xff))))))))
(T (W x50 x00 x00 x00 x44 x00 x00 x00)
(T (W xba x55 xfb xff x78 x00 x00 x00)
(T (W x45 x26 x22 x84 xe4 x9c xf2 xcb)
(T (W x50 x00 x00 x00 x44 x00 x00 x00)
(T (W x00 x00 x00 x00 x00 x00 x00 x00)
(T (W x02 x44 xfc xff x74 x00 x00 x00)
(T (W x18 x01 x00 x00 x04 x00 x00 x00)
(L (W x00 x00 x00 x00 x00 x00 x00 x00)) E)
(L (W xa4 x00 x00 x00 x14 x00 x00 x00)))
(T (W xff xff xff xff x9c x00 x00 x00)
(T (W x00 x00 x00 x00 x00 x00 x00 x00)
(L (W x00 x00 x80 xbf x00 x00 x80 xbf)) E)
(L (W x00 x00 x00 x00 x00 x00 x00 x00))))
(T (W xff xff xff xff xff xff xff xff)
(T (W x6c x00 x00 x00 x60 x00 x00 x00)
(T (W x70 x5f x6c x65 x61 x64 x65 x72)
(L (W x45 x26 x22 x84 xe4 x9c xf2 xcb)) E)
(L (W x00 x00 x00 x00 x00 x00 x00 x00)))
(T (W x00 x00 x80 x3f x00 x00 x80 x3f)
(L (W x00 x00 x00 x00 x00 x00 x00 x00))
(L (W xb8 x00 x00 x00 x64 x00 x00 x00)))))
(T (W x45 x26 x22 x84 xe4 x9c xf2 xcb)
(T (W xff xff xff xff xff xff xff xff)
(T (W x45 x26 x22 x84 xe4 x9c xf2 xcb)
(T (W x02 x64 xfd xff x74 x00 x00 x00)
(L (W x00 x00 x01 x01 xa9 x01 x00 x00)) E)
(L (W xff xff xff xff xff xff xff xff)))
(T (W xff xff xff xff x9c x00 x00 x00)
(T (W xff xff xff xff xff xff xff xff)
(L (W xff xff xff xff xff xff xff xff)) E)
(L (W xff xff xff xff xff xff xff xff))))
(T (W x45 x26 x22 x84 xe4 x9c xf2 xcb)
(T (W x00 x00 x00 x00 x00 x00 x00 x00)
(T (W x7c x4b x69 x12 x83 x6f x37 xc6)
(L (W x6c x00 x00 x00 x60 x00 x00 x00)) E)
(L (W x00 x00 x00 x00 x00 x00 x00 x00)))
(T (W x00 x00 x00 x00 x00 x00 x00 x00)
(L (W x00 x00 x80 xbf x00 x00 x80 xbf))
(L (W x00 x00 x00 x00 x12 x00 x00 x00))))))
(T (W x00 x00 x80 x3f x00 x00 x80 x3f)
(T (W x00 x00 x80 x3f x00 x00 x80 x3f)
(T (W x4c xdc xfb xff x22 x00 x00 x00)
(T (W x00 x00 x80 x3f x00 x00 x80 x3f)
(T (W xff xff xff xff xff xff xff xff)
(L (W xff xff xff xff xff xff xff xff)) E)
(L (W xff xff xff xff x94 x00 x00 x00)))
(T (W x00 x00 x00 x00 x00 x00 x00 x00)
(T (W xba xd5 xfd xff x78 x00 x00 x00)
(L (W x00 x00 x80 xbf x00 x00 x80 xbf)) E)
(L (W x45 x26 x22 x84 xe4 x9c xf2 xcb))))
(T (W xff xff xff xff xff xff xff xff)
(T (W xff xff xff xff xff xff xff xff)
(T (W xff xff xff xff xff xff xff xff)
(L (W x00 x00 x00 x00 x54 x97 xff xff)) E)
(L (W x49 xa1 x68 x4a xeb x5f xdd x3d)))
(T (W xff xff xff xff xff xff xff xff)
(L (W x00 x00 x80 xbf x00 x00 x80 xbf))
(L (W x30 x35 x5f x43 x4c x45 x41 x52)))))
(T (W x00 x00 x80 x3f x00 x00 x80 x3f)
(T (W x00 x00 x00 x00 x00 x00 x00 x00)
(T (W x00 x00 x00 x00 x00 x00 x00 x00)
(T (W xa1 xbd x33 x97 x85 xaa x5f x5f)
(L (W x00 x00 x00 x00 x00 x00 x00 x00)) E)
(L (W xff xff xff xff xff xff xff xff)))
(T (W x5f x4e x53 x5f x30 x35 x5f x43)
(T (W xff xff xff xff xff xff xff xff)
(L (W x44 x00 x00 x00 x00 x00 x80 xbf)) E)
(L (W xff xff xff xff xff xff xff xff))))
(T (W x0a x00 x00 x00 x3e x00 x00 x00)
(T (W x00 x00 x80 x3f x00 x00 x80 x3f)
(T (W x00 x00 x80 x3f x00 x00 x80 x3f)
(L (W x4f x84 x6f x8b xe8 xcb x63 xb7)) E)
(L (W x00 x00 x00 x00 x00 x00 x00 x00)))
(T (W x00 x00 x00 x00 x00 x00 x00 x00)
(L (W xff xff xff xff xff xff xff xff))
(L (W x00 x00 x00 x00 x00 x00 x00 x00)))))))
(T (W x00 x00 x80 x3f x00 x00 x80 x3f)
(T (W x50 x00 x00 x00 x44 x00 x00 x00)
(T (W x68 x00 x00 x00 x5c x00 x00 x00)
(T (W x00 x00 x00 x00 x00 x00 x00 x00)
(T (W xe4 x50 xfc xff x00 x01 x01 x01)
(T (W xff xff xff xff xff xff xff xff)
(L (W x00 x00 x80 xbf x00 x00 x80 xbf)) E)
(L (W xcc x00 x00 x00 x01 x00 x00 x00)))
(T (W x6a x01 x00 x00 xff xff xff xff)
(T (W x00 x00 x80 x3f x00 x00 x80 x3f)
(L (W x54 x00 x00 x00 x48 x00 x00 x00)) E)
(L (W x00 x00 x80 xbf x00 x00 x80 xbf))))
(T (W xff xff xff xff xff xff xff xff)
(T (W x31 x00 x00 x00 x34 x00 x00 x00)
(T (W x00 x00 x00 x00 x00 x00 x00 x00)
(L (W x49 xa1 x68 x4a xeb x5f xdd x3d)) E)
(L (W x00 x00 x00 x00 x00 x00 x00 x00)))
(T (W x18 x00 x00 x00 x10 x00 x00 x00)
(L (W x49 xa1 x68 x4a xeb x5f xdd x3d))
(L (W xff xff xff xff xff xff xff xff)))))
(T (W x00 x00 x00 x00 x00 x00 x00 x00)
(T (W xba x5e xfe xff x00 x00 x01 x01)
(T (W x00 x00 x80 x3f x00 x00 x80 x3f)
(T (W x00 x00 x80 x3f x00 x00 x80 x3f)
(L (W x46 x53 x59 x53 x5f x4e x53 x5f)) E)
(L (W xff xff xff xff xff xff xff xff)))
(T (W xff xff xff xff xff xff xff xff)
(T (W xff xff xff xff xff xff xff xff)
(L (W x46 x53 x59 x53 x5f x4e x53 x5f)) E)
(L (W xff xff xff xff xff xff xff xff))))
(T (W x01 x00 x00 x00 x9c x00 x00 x00)
(T (W x00 x00 x00 x00 x00 x00 x00 x00)
(T (W x00 x00 x80 x3f x00 x00 x80 x3f)
(L (W x00 x00 x80 xbf x00 x00 x80 xbf)) E)
(L (W x45 x44 x00 x00 x00 x00 x00 x00)))
(T (W x00 x00 x00 x00 x00 x00 x00 x00)
(L (W xff xff xff xff xff xff xff xff))
(L (W x00 x00 x00 x00 x00 x00 x00 x00))))))
(T (W x00 x00 x80 x3f x00 x00 x80 x3f)
(T (W x00 x00 x80 x3f x00 x00 x80 x3f)
(T (W x01 x00 x00 x00 x04 x00 x00 x00)
(T (W x00 x00 x80 x3f x00 x00 x80 x3f)
(T (W x00 x00 x00 x00 x54 x5f xfd xff)
(L (W xff xff xff xff xff xff xff xff)) E)
(L (W xff xff xff xff xff xff xff xff)))
(T (W x00 x00 x80 x3f x00 x00 x80 x3f)
(T (W xff xff xff xff x9c x00 x00 x00)
(L (W x00 x00 x80 xbf x00 x00 x80 xbf)) E)
(L (W xc4 x00 x00 x00 x02 x00 x00 x00))))
(T (W xb8 x00 x00 x00 xac x00 x00 x00)
(T (W xff xff xff xff xff xff xff xff)
(T (W x74 xf7 xff xff x01 x01 x01 x01)
(L (W x6c x00 x00 x00 x60 x00 x00 x00)) E)
(L (W x45 x26 x22 x84 xe4 x9c xf2 xcb)))
(T (W xff xff xff xff xff xff xff xff)
(L (W x54 x00 x00 x00 x48 x00 x00 x00))
(L (W x00 x00 x00 x00 x00 x00 x00 x00)))))
(T (W x00 x00 x00 x00 x00 x00 x00 x00)
(T (W x20 x01 x00 x00 x04 x00 x00 x00)
(T (W x00 x00 x80 x3f x00 x00 x80 x3f)
(T (W xff xff xff xff xff xff xff xff)
(L (W x46 x53 x59 x53 x5f x4e x53 x5f)) E)
(L (W x04 x00 x00 x00 x4a x87 xfe xff)))
(T (W x00 x00 x00 x00 x00 x00 x00 x00)
(T (W xff xff xff xff x01 x00 x00 x00)
(L (W x28 x00 x2c x00 x30 x00 x34 x00)) E)
(L (W x18 x00 x00 x00 x0c x00 x00 x00))))
(T (W xc0 x00 x00 x00 xb4 x00 x00 x00)
(T (W x00 x00 x80 x3f x00 x00 x80 x3f)
(T (W x00 x00 x00 x00 x00 x00 x00 x00)
(L (W x00 x00 x00 x00 x00 x00 x00 x00)) E)
(L (W x46 x53 x59 x53 x5f x4e x53 x5f)))
(T (W x00 x00 x00 x00 x00 x00 x00 x00)
(L (W xff xff xff xff xff xff xff xff))
(L (W x00 x00 x00 x00 x00 x00 x00 x00)))))))))
(T (W x18 x00 x00 x00 x0c x00 x00 x00)
(T (W x00 x00 x00 x00 x00 x00 x00 x00)
(T (W x00 x00 x00 x00 x00 x00 x00 x00)
(T (W x00 x00 x00 x00 x00 x00 x00 x00)
(T (W x00 x00 x00 x00 x00 x00 x00 x00)
(T (W xff xff xff xff xff xff xff xff)
(T (W x45 x26 x22 x84 xe4 x9c xf2 xcb)
(T (W xff xff xff xff xff xff xff xff)
(L (W x30 x35 x5f x43 x4c x45 x41 x52)) E)
(L (W x50 x45 xfe xff x3a x53 xfe xff)))
(T (W x00 x00 x80 x3f x00 x00 x80 x3f)
(T (W xff xff xff xff xff xff xff xff)
(L (W x46 x53 x59 x53 x5f x4e x53 x5f)) E)
(L (W x00 x00 x00 x00 x00 x00 x00 x00))))
(T (W x45 x26 x22 x84 xe4 x9c xf2 xcb)
(T (W x00 x00 x00 x00 x00 x00 x00 x00)
(T (W xff xff xff xff xff xff xff xff)
(L (W x04 x00 x00 x00 xb2 x84 xff xff)) E)
(L (W xff xff xff xff xff xff xff xff)))
(T (W x00 x00 x00 x00 x00 x00 x00 x00)
(L (W xff xff xff xff xff xff xff xff))
(L (W x00 x00 x80 xbf x00 x00 x80 xbf)))))
(T (W x01 x00 x00 x00 x04 x00 x00 x00)
(T (W xff xff xff xff xff xff xff xff)
(T (W x00 x00 x00 x00 x00 x00 x00 x00)
(T (W x00 x00 x80 x3f x00 x00 x80 x3f)
(L (W x03 x00 x00 x00 xd8 x00 x00 x00)) E)
(L (W x00 x00 x80 xbf x00 x00 x80 xbf)))
(T (W x00 x00 x80 x3f x00 x00 x80 x3f)
(T (W xcc x00 x00 x00 x01 x00 x00 x00)
(L (W x45 x26 x22 x84 xe4 x9c xf2 xcb)) E)
(L (W x00 x00 x80 xbf x00 x00 x80 xbf))))
(T (W x68 x00 x00 x00 x5c x00 x00 x00)
(T (W xff xff xff xff xff xff xff xff)
(T (W xff xff xff xff x9c x00 x00 x00)
(L (W x00 x00 x80 xbf x00 x00 x80 xbf)) E)
(L (W x00 x00 x00 x00 x00 x00 x00 x00)))
(T (W xff xff xff xff xff xff xff xff)
(L (W x00 x00 x00 x00 x00 x00 x00 x00))
(L (W xff xff xff xff xff xff xff xff))))))
(T (W x00 x00 x80 x3f x00 x00 x80 x3f)
(T (W x00 x00 x00 x00 x00 x00 x00 x00)
(T (W xff xff xff xff xff xff xff xff)
(T (W x00 x00 x00 x00 x00 x00 x00 x00)
(T (W x02 x52 xfd xff x74 x00 x00 x00)
(L (W x00 x00 x80 xbf x00 x00 x80 xbf)) E)
(L (W x00 x00 x80 xbf x00 x00 x80 xbf)))
(T (W xff xff xff xff xff xff xff xff)
(T (W x00 x00 x00 x00 x00 x00 x00 x00)
(L (W x49 xa1 x68 x4a xeb x5f xdd x3d)) E)
(L (W x00 x00 x00 x00 x00 x00 x00 x00))))
(T (W x00 x00 x80 x3f x00 x00 x80 x3f)
(T (W x00 x00 x80 x3f x00 x00 x80 x3f)
(T (W x00 x00 x00 x00 x00 x00 x00 x00)
(L (W x00 x00 x80 xbf x00 x00 x80 xbf)) E)
(L (W x18 x01 x00 x00 xff xff xff xff)))
(T (W x00 x00 x80 x3f x00 x00 x80 x3f)
(L (W x00 x00 x00 x00 x00 x00 x00 x00))
(L (W xff xff xff xff xff xff xff xff)))))
(T (W x00 x00 x00 x00 x00 x00 x00 x00)
(T (W xb8 x00 x00 x00 xac x00 x00 x00)
(T (W xff xff xff xff xff xff xff xff)
(T (W x00 x00 x80 x3f x00 x00 x80 x3f)
(L (W xff xff xff xff xff xff xff xff)) E)
(L (W x18 x00 x00 x00 x10 x00 x00 x00)))
(T (W xff xff xff xff xbc x00 x00 x00)
(T (W x03 x00 x00 x00 xd0 x00 x00 x00)
(L (W x58 x00 x00 x00 x00 x00 x5c x00)) E)
(L (W x45 x26 x22 x84 xe4 x9c xf2 xcb))))
(T (W x00 x00 x80 x3f x00 x00 x80 x3f)
(T (W x00 x00 x00 x00 x00 x00 x00 x00)
(T (W xff xff xff xff xff xff xff xff)
(L (W x00 x00 x00 x00 x12 x00 x00 x00)) E)
(L (W xff xff xff xff xff xff xff xff)))
(T (W xff xff xff xff xff xff xff xff)
(L (W x02 x32 xfe xff x74 x00 x00 x00))
(L (W x30 x35 x5f x43 x4c x45 x41 x52)))))))
(T (W x00 x00 x00 x00 x00 x00 x00 x00)
(T (W x45 x26 x22 x84 xe4 x9c xf2 xcb)
(T (W x00 x00 x00 x00 x00 x00 x00 x00)
(T (W xff xff xff xff xff xff xff xff)
(T (W x00 x00 x00 x00 x00 x00 x00 x00)
(T (W x00 x00 x00 x00 x54 x4d xfd xff)
(L (W x00 x00 x00 x00 x00 x00 x00 x00)) E)
(L (W x54 x00 x00 x00 x48 x00 x00 x00)))
(T (W x45 x26 x22 x84 xe4 x9c xf2 xcb)
(T (W x64 x5f x70 x6f x6b x65 x5f x77)
(L (W x00 x00 x00 x00 x00 x00 x00 x00)) E)
(L (W x46 x53 x59 x53 x5f x4e x53 x5f))))
(T (W x68 x00 x00 x00 x5c x00 x00 x00)
(T (W x00 x00 x80 x3f x00 x00 x80 x3f)
(T (W xff xff xff xff xff xff xff xff)
(L (W x30 x35 x5f x43 x4c x45 x41 x52)) E)
(L (W xff xff xff xff xff xff xff xff)))
(T (W x00 x00 x00 x00 x00 x00 x00 x00)
(L (W x00 x00 x00 x00 x00 x00 x00 x00))
(L (W x18 x00 x00 x00 x0c x00 x00 x00)))))
(T (W xff xff xff xff xff xff xff xff)
(T (W xff xff xff xff xff xff xff xff)
(T (W xff xff xff xff xff xff xff xff)
(T (W x00 x00 x00 x00 x00 x00 x00 x00)
(L (W xff xff xff xff xff xff xff xff)) E)
(L (W x45 x26 x22 x84 xe4 x9c xf2 xcb)))
(T (W xff xff xff xff xac x00 x00 x00)
(T (W xff xff xff xff xa0 x00 x00 x00)
(L (W xff xff xff xff xbc x00 x00 x00)) E)
(L (W xba xeb xfe xff x78 x00 x00 x00))))
(T (W x02 x2a xfc xff x74 x00 x00 x00)
(T (W xff xff xff xff xff xff xff xff)
(T (W x67 x72 x6f x75 x70 x5f x77 x69)
(L (W x00 x00 x00 x00 x00 x00 x00 x00)) E)
(L (W xff xff xff xff xff xff xff xff)))
(T (W x01 x00 x00 x00 xff xff xff xff)
(L (W x00 x00 x80 x3f x00 x00 x80 x3f))
(L (W x00 x00 x00 x00 x4a x35 xff xff))))))
(T (W x00 x00 x80 x3f x00 x00 x80 x3f)
(T (W x4c xa2 xfb xff x3c x00 x00 x00)
(T (W xff xff xff xff xff xff xff xff)
(T (W x00 x00 x00 x00 x00 x00 x00 x00)
(T (W x00 x00 x80 x3f x00 x00 x80 x3f)
(L (W x50 x00 x00 x00 x44 x00 x00 x00)) E)
(L (W xba x5b xfe xff x78 x00 x00 x00)))
(T (W x00 x00 x00 x00 x00 x00 x00 x00)
(T (W x45 x26 x22 x84 xe4 x9c xf2 xcb)
(L (W x00 x00 x00 x00 x00 x00 x00 x00)) E)
(L (W x00 x00 x80 xbf x00 x00 x80 xbf))))
(T (W x50 x00 x00 x00 x44 x00 x00 x00)
(T (W x45 x26 x22 x84 xe4 x9c xf2 xcb)
(T (W x00 x00 x10 x00 x14 x00 x18 x00)
(L (W x49 xa1 x68 x4a xeb x5f xdd x3d)) E)
(L (W x00 x00 x00 x00 x00 x00 x00 x00)))
(T (W x2b x00 x00 x00 x2e x00 x00 x00)
(L (W x49 xa1 x68 x4a xeb x5f xdd x3d))
(L (W xff xff xff xff xff xff xff xff)))))
(T (W x00 x00 x00 x00 x02 x00 x00 x00)
(T (W xff xff xff xff x04 x00 x00 x00)
(T (W x00 x00 x00 x00 x00 x00 x00 x00)
(T (W x18 x00 x00 x00 x10 x00 x00 x00)
(L (W xff xff xff xff xff xff xff xff)) E)
(L (W xff xff xff xff xb0 x00 x00 x00)))
(T (W x02 x00 x00 x00 xff xff xff xff)
(T (W xff xff xff xff xc4 x00 x00 x00)
(L (W x00 x00 x00 x00 x00 x00 x00 x00)) E)
(L (W x6c x00 x00 x00 x60 x00 x00 x00))))
(T (W x00 x00 x80 x3f x00 x00 x80 x3f)
(T (W x00 x00 x00 x00 x00 x00 x00 x00)
(T (W xff xff xff xff xff xff xff xff)
(L (W x00 x00 x00 x00 x00 x00 x00 x00)) E)
(L (W xff xff xff xff xff xff xff xff)))
(T (W xff xff xff xff xff xff xff xff)
(L (W x74 x00 x00 x00 x68 x00 x00 x00))
(L (W x00 x00 x00 x00 x00 x00 x00 x00))))))))
(T (W x00 x00 x00 x00 x54 x51 xfb xff)
(T (W xb8 x00 x00 x00 xac x00 x00 x00)
(T (W x00 x00 x00 x00 x00 x00 x00 x00)
(T (W x00 x00 x00 x00 x54 x89 xfb xff)
(T (W x68 x00 x00 x00 x5c x00 x00 x00)
(T (W xff xff xff xff xff xff xff xff)
(T (W x00 x00 x00 x00 x00 x00 x00 x00)
(L (W xba x47 xff xff x78 x00 x00 x00)) E)
(L (W xff xff xff xff xff xff xff xff)))
(T (W x00 x00 x00 x00 x01 x00 x00 x00)
(T (W x00 x00 x00 x00 x00 x00 x00 x00)
(L (W xff xff xff xff xff xff xff xff)) E)
(L (W x54 x00 x00 x00 x48 x00 x00 x00))))
(T (W x00 x00 x00 x00 x00 x00 x00 x00)
(T (W xff xff xff xff xbc x00 x00 x00)
(T (W x00 x00 x80 x3f x00 x00 x80 x3f)
(L (W x00 x00 x80 xbf x00 x00 x80 xbf)) E)
(L (W x00 x00 x00 x00 x00 x00 x00 x00)))
(T (W xff xff xff xff xff xff xff xff)
(L (W x00 x00 x80 xbf x00 x00 x80 xbf))
(L (W x00 x00 x00 x00 x00 x00 x00 x00)))))
(T (W x68 x00 x00 x00 x5c x00 x00 x00)
(T (W x00 x00 x00 x00 x00 x00 x00 x00)
(T (W x18 x00 x00 x00 x0c x00 x00 x00)
(T (W xff xff xff xff xff xff xff xff)
(L (W x00 x00 x00 x00 x00 x00 x00 x00)) E)
(L (W x45 x44 x00 x00 x00 x00 x00 x00)))
(T (W x00 x00 x00 x00 x00 x00 x00 x00)
(T (W x00 x00 x00 x00 x00 x00 x00 x00)
(L (W x00 x00 x00 x00 x00 x00 x00 x00)) E)
(L (W x6c x00 x00 x00 xff xff xff xff))))
(T (W x6c x00 x00 x00 xff xff xff xff)
(T (W x49 xa1 x68 x4a xeb x5f xdd x3d)
(T (W x02 xa6 xfd xff x74 x00 x00 x00)
(L (W xff xff xff xff xbc x00 x00 x00)) E)
(L (W x18 x00 x00 x00 x0c x00 x00 x00)))
(T (W x00 x00 x80 x3f x00 x00 x80 x3f)
(L (W x44 x00 x00 x00 x10 x00 x00 x00))
(L (W x00 x00 x80 xbf x00 x00 x80 xbf))))))
(T (W xff xff xff xff xff xff xff xff)
(T (W x40 x00 x00 x00 x9c x00 x00 x00)
(T (W x00 x00 x80 x3f x00 x00 x80 x3f)
(T (W xff xff xff xff x03 x00 x00 x00)
(T (W x18 x01 x00 x00 x04 x00 x00 x00)
(L (W x00 x00 x00 x00 x00 x00 x00 x00)) E)
(L (W xdd x00 x00 x00 xff xff xff xff)))
(T (W x50 x00 x00 x00 x44 x00 x00 x00)
(T (W xff xff xff xff xff xff xff xff)
(L (W xcc x00 x00 x00 x01 x00 x00 x00)) E)
(L (W xff xff xff xff xff xff xff xff))))
(T (W x00 x00 x00 x00 x00 x00 x00 x00)
(T (W x00 x00 x00 x00 x00 x00 x00 x00)
(T (W x00 x00 x00 x00 x00 x00 x00 x00)
(L (W xff xff xff xff xff xff xff xff)) E)
(L (W x6c x00 x00 x00 x60 x00 x00 x00)))
(T (W x00 x00 x00 x00 x00 x00 x00 x00)
(L (W xff xff xff xff xff xff xff xff))
(L (W x49 xa1 x68 x4a xeb x5f xdd x3d)))))
(T (W x00 x00 x80 x3f x00 x00 x80 x3f)
(T (W x00 x00 x00 x00 x00 x00 x00 x00)
(T (W x6c x00 x00 x00 x60 x00 x00 x00)
(T (W x00 x00 x00 x00 x00 x00 x00 x00)
(L (W x00 x00 x80 xbf x00 x00 x80 xbf)) E)
(L (W x00 x00 x00 x00 x12 x00 x00 x00)))
(T (W x00 x00 x80 x3f x00 x00 x80 x3f)
(T (W x00 x00 x00 x00 x00 x00 x00 x00)
(L (W x00 x00 x00 x00 x00 x00 x00 x00)) E)
(L (W x45 x44 x00 x00 x00 x00 x00 x00))))
(T (W xff xff xff xff xff xff xff xff)
(T (W xe4 xba xfc xff x00 x01 x01 x01)
(T (W x5f x77 x69 x6c x64 x5f x70 x6f)
(L (W x00 x00 x80 xbf x00 x00 x80 xbf)) E)
(L (W x00 x00 x00 x00 x00 x00 x00 x00)))
(T (W x00 x00 x80 x3f x00 x00 x80 x3f)
(L (W x00 x00 x00 x00 x00 x00 x00 x00))
(L (W x00 x00 x80 xbf x00 x00 x80 xbf)))))))
(T (W xff xff xff xff xff xff xff xff)
(T (W xff xff xff xff xff xff xff xff)
(T (W x18 x00 x00 x00 x0c x00 x00 x00)
(T (W x00 x00 x80 x3f x00 x00 x80 x3f)
(T (W xff xff xff xff xff xff xff xff)
(T (W x00 x00 x00 x00 x00 x00 x00 x00)
(L (W xff xff xff xff xff xff xff xff)) E)
(L (W x4a xbd x2d xdc x00 x6a x3a x2f)))
(T (W x00 x00 x00 x00 x00 x00 x00 x00)
(T (W x68 x00 x00 x00 x5c x00 x00 x00)
(L (W xff xff xff xff xc4 x00 x00 x00)) E)
(L (W x03 x00 x00 x00 xd8 x00 x00 x00))))
(T (W x00 x00 x00 x00 x00 x00 x00 x00)
(T (W xff xff xff xff xff xff xff xff)
(T (W x01 x00 x00 x00 x9c x00 x00 x00)
(L (W x45 x26 x22 x84 xe4 x9c xf2 xcb)) E)
(L (W x00 x00 x80 xbf x00 x00 x80 xbf)))
(T (W xff xff xff xff xff xff xff xff)
(L (W x45 x26 x22 x84 xe4 x9c xf2 xcb))
(L (W x00 x00 x00 x00 x00 x00 x00 x00)))))
(T (W x00 x00 x80 x3f x00 x00 x80 x3f)
(T (W x00 x00 x00 x00 x00 x00 x00 x00)
(T (W x50 x00 x00 x00 x44 x00 x00 x00)
(T (W x00 x00 x00 x00 x54 x71 xfd xff)
(L (W x00 x00 x80 xbf x00 x00 x80 xbf)) E)
(L (W x02 x00 x00 x00 x30 x01 x00 x00)))
(T (W x00 x00 x00 x00 x00 x00 x00 x00)
(T (W x00 x00 x80 xbf x00 x00 x80 xbf)
(L (W x00 x00 x00 x00 x00 x00 x00 x00)) E)
(L (W x3e x00 x00 x00 x0c x00 x00 x00))))
(T (W xff xff xff xff xff xff xff xff)
(T (W x00 x00 x80 x3f x00 x00 x80 x3f)
(T (W xff xff xff xff xff xff xff xff)
(L (W x6c x00 x00 x00 x60 x00 x00 x00)) E)
(L (W x00 x00 x80 xbf x00 x00 x80 xbf)))
(T (W x00 x00 x80 x3f x00 x00 x80 x3f)
(L (W x00 x00 x00 x00 x00 x00 x00 x00))
(L (W x00 x00 x80 xbf x00 x00 x80 xbf))))))
(T (W x64 x00 x00 x00 x9c x00 x00 x00)
(T (W x01 x00 x00 x00 x3e x00 x00 x00)
(T (W x45 x26 x22 x84 xe4 x9c xf2 xcb)
(T (W xff xff xff xff xff xff xff xff)
(T (W xff xff xff xff xff xff xff xff)
(L (W x46 x53 x59 x53 x5f x4e x53 x5f)) E)
(L (W x00 x00 x00 x00 x00 x00 x00 x00)))
(T (W xff xff xff xff xff xff xff xff)
(T (W x00 x00 x00 x00 xc2 xe7 xfd xff)
(L (W xff xff xff xff xff xff xff xff)) E)
(L (W xff xff xff xff xff xff xff xff))))
(T (W x48 x9f x0f xa7 x37 xdd x0e xb7)
(T (W x00 x00 x00 x00 x00 x00 x00 x00)
(T (W x00 x00 x01 x01 x1a x01 x00 x00)
(L (W xff xff xff xff xff xff xff xff)) E)
(L (W x5c x00 x00 x00 x50 x00 x00 x00)))
(T (W x4f x84 x6f x8b xe8 xcb x63 xb7)
(L (W xff xff xff xff xff xff xff xff))
(L (W x00 x00 x00 x00 x00 x00 x00 x00)))))
(T (W x50 x00 x00 x00 x44 x00 x00 x00)
(T (W x00 x00 x00 x00 x00 x00 x00 x00)
(T (W x37 x00 x00 x00 x3a x00 x00 x00)
(T (W x00 x00 x80 x3f x00 x00 x80 x3f)
(L (W x00 x00 x80 xbf x00 x00 x80 xbf)) E)
(L (W x00 x00 x00 x00 x00 x00 x00 x00)))
(T (W x00 x00 x00 x00 x54 x01 xfd xff)
(T (W x4f x84 x6f x8b xe8 xcb x63 xb7)
(L (W x03 x00 x00 x00 x10 x01 x00 x00)) E)
(L (W x04 x00 x00 x00 xb2 x00 xff xff))))
(T (W xff xff xff xff xff xff xff xff)
(T (W xff xff xff xff xbc x00 x00 x00)
(T (W x00 x00 x80 x3f x00 x00 x80 x3f)
(L (W x2b x00 x00 x00 x2e x00 x00 x00)) E)
(L (W x00 x00 x80 xbf x00 x00 x80 xbf)))
(T (W x00 x00 x80 x3f x00 x00 x80 x3f)
(L (W x00 x00 x01 x01 x6a x01 x00 x00))
(L (W x54 x00 x00 x00 x48 x00 x00 x00))))))))))
(T (W x88 x80 x01 x00 x54 x7f x01 x00)
(T (W xd0 x42 x00 x00 x9c x41 x00 x00)
(T (W x00 x00 x00 x00 x00 x00 x00 x00)
(T (W x00 x00 x00 x00 x00 x00 x00 x00)
(T (W x00 x00 x00 x00 x00 x00 x00 x00)
(T (W x00 x00 x00 x00 x00 x00 x00 x00)
(T (W xff xff xff xff xff xff xff xff)
(T (W x00 x00 x00 x00 x00 x00 x00 x00)
(T (W x00 x00 x00 x00 x54 x44 xfd xff)
(L (W x00 x00 x01 x01 xc8 x00 x00 x00)) E)
(L (W x3c x00 x00 x00 x00 x00 x80 xbf)))
(T (W x00 x00 x00 x00 x00 x00 x00 x00)
(T (W x32 x00 x00 x00 x35 x00 x00 x00)
(L (W x00 x00 x01 x01 xac x01 x00 x00)) E)
(L (W xff xff xff xff xff xff xff xff))))
(T (W x00 x00 x80 x3f x00 x00 x80 x3f)
(T (W x00 x00 x00 x00 x00 x00 x00 x00)
(T (W x45 x26 x22 x84 xe4 x9c xf2 xcb)
(L (W xff xff xff xff xff xff xff xff)) E)
(L (W x31 x00 x00 x00 x34 x00 x00 x00)))
(T (W x38 x01 x00 x00 x04 x00 x00 x00)
(L (W xff xff xff xff xbc x00 x00 x00))
(L (W x00 x00 x80 xbf x00 x00 x80 xbf)))))
(T (W xff xff xff xff xff xff xff xff)
(T (W xff xff xff xff xff xff xff xff)
(T (W x00 x00 x00 x00 x00 x00 x00 x00)
(T (W x00 x00 x00 x00 x00 x00 x00 x00)
(L (W x00 x00 x80 xbf x00 x00 x80 xbf)) E)
(L (W x00 x00 x80 xbf x00 x00 x80 xbf)))
(T (W x00 x00 x80 x3f x00 x00 x80 x3f)
(T (W x00 x00 x80 xbf x00 x00 x80 xbf)
(L (W x6c x00 x00 x00 x60 x00 x00 x00)) E)
(L (W x4f x84 x6f x8b xe8 xcb x63 xb7))))
(T (W x00 x00 x80 x3f x00 x00 x80 x3f)
(T (W xff xff xff xff xb0 x00 x00 x00)
(T (W x00 x00 x80 xbf x00 x00 x80 xbf)
(L (W x00 x00 x00 x00 x00 x00 x00 x00)) E)
(L (W xff xff xff xff xff xff xff xff)))
(T (W x45 x26 x22 x84 xe4 x9c xf2 xcb)
(L (W x46 x53 x59 x53 x5f x4e x53 x5f))
(L (W xff xff xff xff xff xff xff xff))))))
(T (W x45 x26 x22 x84 xe4 x9c xf2 xcb)
(T (W x01 x00 x00 x00 x04 x00 x00 x00)
(T (W xff xff xff xff x03 x00 x00 x00)
(T (W x00 x00 x00 x00 x00 x00 x00 x00)
(T (W x00 x00 x80 x3f x00 x00 x80 x3f)
(L (W x00 x00 x00 x00 x00 x00 x00 x00)) E)
(L (W x00 x00 x80 xbf x00 x00 x80 xbf)))
(T (W xff xff xff xff xbc x00 x00 x00)
(T (W x75 x43 x54 x1d xca xa4 x99 xfd)
(L (W x00 x00 x00 x00 x00 x00 x00 x00)) E)
(L (W x30 x35 x5f x43 x4c x45 x41 x52))))
(T (W x00 x00 x80 x3f x00 x00 x80 x3f)
(T (W x00 x00 x80 x3f x00 x00 x80 x3f)
(T (W xf8 x00 x00 x00 x64 x00 x00 x00)
(L (W x00 x00 x00 x00 x00 x00 x00 x00)) E)
(L (W xff xff xff xff xff xff xff xff)))
(T (W x00 x00 x80 x3f x00 x00 x80 x3f)
(L (W x00 x00 x00 x00 x00 x00 x00 x00))
(L (W x03 x00 x00 x00 xd8 x00 x00 x00)))))
(T (W x90 x01 x00 x00 xff xff xff xff)
(T (W x18 x00 x00 x00 x0c x00 x00 x00)
(T (W xbc x00 x00 x00 xb0 x00 x00 x00)
(T (W xe4 x01 x00 x00 x68 x00 x00 x00)
(L (W xff xff xff xff xff xff xff xff)) E)
(L (W x54 x00 x00 x00 x48 x00 x00 x00)))
(T (W x45 x26 x22 x84 xe4 x9c xf2 xcb)
(T (W x18 x00 x00 x00 x10 x00 x00 x00)
(L (W xb4 x00 x00 x00 x32 x00 x00 x00)) E)
(L (W x6c x00 x00 x00 x60 x00 x00 x00))))
(T (W x00 x00 x80 x3f x00 x00 x80 x3f)
(T (W xff xff xff xff xff xff xff xff)
(T (W x00 x00 x80 x3f x00 x00 x80 x3f)
(L (W x3c x02 x00 x00 x30 x01 x00 x00)) E)
(L (W xff xff xff xff xff xff xff xff)))
(T (W xff xff xff xff xff xff xff xff)
(L (W x00 x00 x80 x3f x00 x00 x80 x3f))
(L (W x00 x00 x01 x01 xaa x01 x00 x00)))))))
(T (W x7c x64 xfb xff x1b x00 x00 x00)
(T (W x00 x00 x00 x00 x00 x00 x00 x00)
(T (W x7c x94 xfb xff x3e x00 x00 x00)
(T (W x64 x00 x00 x00 x9c x00 x00 x00)
(T (W x00 x00 x00 x00 x00 x00 x00 x00)
(T (W x02 x49 xfd xff x74 x00 x00 x00)
(L (W x00 x00 x00 x00 x00 x00 x00 x00)) E)
(L (W x00 x00 x80 xbf x00 x00 x80 xbf)))
(T (W x00 x00 x80 x3f x00 x00 x80 x3f)
(T (W xff xff xff xff xff xff xff xff)
(L (W x00 x00 x00 x00 x12 x00 x00 x00)) E)
(L (W x00 x00 x01 x01 xcc x01 x00 x00))))
(T (W x00 x00 x80 x3f x00 x00 x80 x3f)
(T (W x00 x00 x00 x00 x00 x00 x00 x00)
(T (W xff xff xff xff xff xff xff xff)
(L (W xff xff xff xff xff xff xff xff)) E)
(L (W xff xff xff xff xff xff xff xff)))
(T (W x5f x4e x53 x5f x30 x35 x5f x43)
(L (W xff xff xff xff xff xff xff xff))
(L (W xba x0a xff xff x78 x00 x00 x00)))))
(T (W xff xff xff xff xff xff xff xff)
(T (W x45 x26 x22 x84 xe4 x9c xf2 xcb)
(T (W x00 x00 x80 x3f x00 x00 x80 x3f)
(T (W x00 x00 x00 x00 x00 x00 x00 x00)
(L (W x18 x00 x00 x00 x0c x00 x00 x00)) E)
(L (W x6c x00 x00 x00 x60 x00 x00 x00)))
(T (W x00 x00 x80 x3f x00 x00 x80 x3f)
(T (W x6c x00 x00 x00 x60 x00 x00 x00)
(L (W x45 x26 x22 x84 xe4 x9c xf2 xcb)) E)
(L (W x00 x00 x80 xbf x00 x00 x80 xbf))))
(T (W x45 x26 x22 x84 xe4 x9c xf2 xcb)
(T (W xff xff xff xff xff xff xff xff)
(T (W xff xff xff xff xff xff xff xff)
(L (W xff xff xff xff x01 x00 x00 x00)) E)
(L (W x49 xa1 x68 x4a xeb x5f xdd x3d)))
(T (W xff xff xff xff xff xff xff xff)
(L (W x00 x00 x00 x00 x00 x00 x00 x00))
(L (W xff xff xff xff xff xff xff xff))))))
(T (W x00 x00 x00 x00 x00 x00 x00 x00)
(T (W xff xff xff xff xff xff xff xff)
(T (W xff xff xff xff xff xff xff xff)
(T (W x00 x00 x00 x00 x00 x00 x00 x00)
(T (W x00 x00 x80 x3f x00 x00 x80 x3f)
(L (W x00 x00 x80 xbf x00 x00 x80 xbf)) E)
(L (W x00 x00 x80 xbf x00 x00 x80 xbf)))
(T (W x00 x00 x00 x00 x01 x00 x00 x00)
(T (W x00 x00 x00 x00 x00 x00 x00 x00)
(L (W x45 x44 x00 x00 x00 x00 x00 x00)) E)
(L (W x00 x00 x00 x00 x00 x00 x00 x00))))
(T (W x00 x00 x80 x3f x00 x00 x80 x3f)
(T (W x6c x00 x00 x00 x60 x00 x00 x00)
(T (W xff xff xff xff xff xff xff xff)
(L (W x00 x00 x00 x00 x00 x00 x00 x00)) E)
(L (W x00 x00 x00 x00 x00 x00 x00 x00)))
(T (W x02 x19 xfd xff x74 x00 x00 x00)
(L (W x00 x00 x00 x00 x00 x00 x00 x00))
(L (W xff xff xff xff xff xff xff xff)))))
(T (W xff xff xff xff xff xff xff xff)
(T (W x68 x00 x00 x00 x5c x00 x00 x00)
(T (W xff xff xff xff xff xff xff xff)
(T (W x45 x26 x22 x84 xe4 x9c xf2 xcb)
(L (W xff xff xff xff xff xff xff xff)) E)
(L (W x00 x00 x00 x00 x54 x7c xfe xff)))
(T (W xff xff xff xff xff xff xff xff)
(T (W x45 x26 x22 x84 xe4 x9c xf2 xcb)
(L (W x30 x35 x5f x43 x4c x45 x41 x52)) E)
(L (W x45 x26 x22 x84 xe4 x9c xf2 xcb))))
(T (W x00 x00 x00 x00 x00 x00 x00 x00)
(T (W x00 x00 x00 x00 x00 x00 x00 x00)
(T (W x00 x00 x00 x00 x54 xbc xfd xff)
(L (W xff xff xff xff xff xff xff xff)) E)
(L (W xff xff xff xff xff xff xff xff)))
(T (W xff xff xff xff xff xff xff xff)
(L (W x00 x00 x80 xbf x00 x00 x80 xbf))
(L (W xff xff xff xff xff xff xff xff))))))))
(T (W x02 x4d xfb xff x74 x00 x00 x00)
(T (W x18 x00 x00 x00 x10 x00 x00 x00)
(T (W x00 x00 x00 x00 x60 x00 x64 x00)
(T (W x02 x85 xfb xff x74 x00 x00 x00)
(T (W x45 x26 x22 x84 xe4 x9c xf2 xcb)
(T (W xff xff xff xff xff xff xff xff)
(T (W x00 x00 x00 x00 x00 x00 x00 x00)
(L (W x00 x00 x80 xbf x00 x00 x80 xbf)) E)
(L (W x03 x00 x00 x00 xd8 x00 x00 x00)))
(T (W xff xff xff xff xff xff xff xff)
(T (W x00 x00 x00 x00 x00 x00 x00 x00)
(L (W x50 x00 x00 x00 x44 x00 x00 x00)) E)
(L (W x00 x00 x80 xbf x00 x00 x80 xbf))))
(T (W xba x9a x14 x8f xce xa6 x27 x5d)
(T (W x45 x26 x22 x84 xe4 x9c xf2 xcb)
(T (W x00 x00 x80 x3f x00 x00 x80 x3f)
(L (W x00 x00 x80 xbf x00 x00 x80 xbf)) E)
(L (W x00 x00 x00 x00 x00 x00 x00 x00)))
(T (W x50 x00 x00 x00 x44 x00 x00 x00)
(L (W x49 xa1 x68 x4a xeb x5f xdd x3d))
(L (W xff xff xff xff xff xff xff xff)))))
(T (W x00 x00 x80 x3f x00 x00 x80 x3f)
(T (W x4c xed xfb xff x3e x00 x00 x00)
(T (W x00 x00 x80 x3f x00 x00 x80 x3f)
(T (W x00 x00 x00 x00 x54 x68 xfd xff)
(L (W x30 x35 x5f x43 x4c x45 x41 x52)) E)
(L (W xff xff xff xff xff xff xff xff)))
(T (W xff xff xff xff xff xff xff xff)
(T (W x30 x35 x5f x43 x4c x45 x41 x52)
(L (W xff xff xff xff xff xff xff xff)) E)
(L (W xff xff xff xff xff xff xff xff))))
(T (W xff xff xff xff xff xff xff xff)
(T (W x00 x00 x00 x00 x00 x00 x00 x00)
(T (W x00 x00 x00 x00 x00 x00 x00 x00)
(L (W x45 x26 x22 x84 xe4 x9c xf2 xcb)) E)
(L (W x00 x00 x80 xbf x00 x00 x80 xbf)))
(T (W x00 x00 x80 x3f x00 x00 x80 x3f)
(L (W x45 x26 x22 x84 xe4 x9c xf2 xcb))
(L (W x45 x26 x22 x84 xe4 x9c xf2 xcb))))))
(T (W xe4 x79 xfb xff x00 x01 x01 x01)
(T (W x45 x26 x22 x84 xe4 x9c xf2 xcb)
(T (W x00 x00 x00 x00 x00 x00 x00 x00)
(T (W x01 x00 x00 x00 xa0 x00 x00 x00)
(T (W xff xff xff xff xff xff xff xff)
(L (W xff xff xff xff xff xff xff xff)) E)
(L (W xff xff xff xff xff xff xff xff)))
(T (W x00 x00 x80 x3f x00 x00 x80 x3f)
(T (W x33 x00 x00 x00 x36 x00 x00 x00)
(L (W x45 x26 x22 x84 xe4 x9c xf2 xcb)) E)
(L (W xc4 x00 x00 x00 x02 x00 x00 x00))))
(T (W xba x87 xfe xff x00 x00 x01 x01)
(T (W xff xff xff xff xff xff xff xff)
(T (W x9f x61 x6c x12 x83 xf3 x3a xc6)
(L (W x3b x00 x00 x00 x3e x00 x00 x00)) E)
(L (W x00 x00 x80 xbf x00 x00 x80 xbf)))
(T (W xff xff xff xff x02 x00 x00 x00)
(L (W x18 x00 x00 x00 x0c x00 x00 x00))
(L (W x00 x00 x00 x00 x00 x00 x00 x00)))))
(T (W x00 x00 x80 x3f x00 x00 x80 x3f)
(T (W x00 x00 x00 x00 x00 x00 x00 x00)
(T (W x00 x00 x80 x3f x00 x00 x80 x3f)
(T (W x00 x00 x00 x00 x00 x00 x00 x00)
(L (W x4f x84 x6f x8b xe8 xcb x63 xb7)) E)
(L (W x02 x00 x00 x00 x30 x01 x00 x00)))
(T (W x00 x00 x00 x00 x00 x00 x00 x00)
(T (W x00 x00 x00 x00 x00 x00 x00 x00)
(L (W x00 x00 x00 x00 x00 x00 x00 x00)) E)
(L (W x00 x00 x01 x01 xde x01 x00 x00))))
(T (W xff xff xff xff xff xff xff xff)
(T (W x54 x00 x00 x00 x48 x00 x00 x00)
(T (W x32 x00 x00 x00 x35 x00 x00 x00)
(L (W x00 x00 x80 xbf x00 x00 x80 xbf)) E)
(L (W x00 x00 x00 x00 x12 x00 x00 x00)))
(T (W x45 x26 x22 x84 xe4 x9c xf2 xcb)
(L (W x7e xb6 x2d xdc x00 x66 x3a x2f))
(L (W x45 x26 x22 x84 xe4 x9c xf2 xcb)))))))
(T (W xc4 x00 x00 x00 xb8 x00 x00 x00)
(T (W x64 x00 x00 x00 x9c x00 x00 x00)
(T (W x00 x00 x00 x00 x54 x90 xfb xff)
(T (W x45 x26 x22 x84 xe4 x9c xf2 xcb)
(T (W x18 x00 x00 x00 x10 x00 x00 x00)
(T (W x18 x01 x00 x00 x04 x00 x00 x00)
(L (W xff xff xff xff xb0 x00 x00 x00)) E)
(L (W xff xff xff xff xff xff xff xff)))
(T (W x00 x00 x00 x00 x00 x00 x00 x00)
(T (W x00 x00 x80 x3f x00 x00 x80 x3f)
(L (W x45 x26 x22 x84 xe4 x9c xf2 xcb)) E)
(L (W x50 x00 x00 x00 x44 x00 x00 x00))))
(T (W xdd x00 x00 x00 xff xff xff xff)
(T (W xff xff xff xff xff xff xff xff)
(T (W x00 x00 x00 x00 x00 x00 x00 x00)
(L (W x00 x00 x80 xbf x00 x00 x80 xbf)) E)
(L (W x00 x00 x00 x00 x00 x00 x00 x00)))
(T (W x03 x00 x00 x00 xcc x00 x00 x00)
(L (W x00 x00 x80 xbf x00 x00 x80 xbf))
(L (W x00 x00 x00 x00 xea x0d xff xff)))))
(T (W x00 x00 x80 x3f x00 x00 x80 x3f)
(T (W x00 x00 x00 x00 x00 x00 x00 x00)
(T (W x00 x00 x80 x3f x00 x00 x80 x3f)
(T (W x02 x6d xfd xff x74 x00 x00 x00)
(L (W x00 x00 x00 x00 x00 x00 x00 x00)) E)
(L (W xff xff xff xff xff xff xff xff)))
(T (W x00 x00 x00 x00 x00 x00 x00 x00)
(T (W x4c xf5 xfd xff x2f x00 x00 x00)
(L (W x00 x00 x00 x00 x00 x00 x00 x00)) E)
(L (W xff xff xff xff xff xff xff xff))))
(T (W xb8 x00 x00 x00 xac x00 x00 x00)
(T (W x49 xa1 x68 x4a xeb x5f xdd x3d)
(T (W x03 x00 x00 x00 xd8 x00 x00 x00)
(L (W x00 x00 x80 xbf x00 x00 x80 xbf)) E)
(L (W x00 x00 x00 x00 x00 x00 x00 x00)))
(T (W x00 x00 x00 x00 x00 x00 x00 x00)
(L (W xff xff xff xff xff xff xff xff))
(L (W x00 x00 x80 xbf x00 x00 x80 xbf))))))
(T (W x50 x00 x00 x00 x44 x00 x00 x00)
(T (W x00 x00 x80 x3f x00 x00 x80 x3f)
(T (W x00 x00 x00 x00 x00 x00 x00 x00)
(T (W x02 x5d xfc xff x74 x00 x00 x00)
(T (W xff xff xff xff xff xff xff xff)
(L (W x00 x00 x00 x00 x4a x68 xff xff)) E)
(L (W x00 x00 x00 x00 x00 x00 x00 x00)))
(T (W x45 x26 x22 x84 xe4 x9c xf2 xcb)
(T (W xff xff xff xff xff xff xff xff)
(L (W xff xff xff xff xb0 x00 x00 x00)) E)
(L (W xff xff xff xff xff xff xff xff))))
(T (W xff xff xff xff xff xff xff xff)
(T (W x30 x35 x5f x43 x4c x45 x41 x52)
(T (W xff xff xff xff xff xff xff xff)
(L (W x18 x00 x00 x00 x10 x00 x00 x00)) E)
(L (W x00 x00 x80 xbf x00 x00 x80 xbf)))
(T (W x13 x00 x00 x00 x10 x00 x00 x00)
(L (W x45 x26 x22 x84 xe4 x9c xf2 xcb))
(L (W x00 x00 x00 x00 x12 x00 x00 x00)))))
(T (W x00 x00 x80 x3f x00 x00 x80 x3f)
(T (W x00 x00 x00 x00 x00 x00 x00 x00)
(T (W x00 x00 x80 x3f x00 x00 x80 x3f)
(T (W x21 x00 x00 x00 x67 x72 x6f x75)
(L (W x00 x00 x00 x00 x00 x00 x00 x00)) E)
(L (W x46 x53 x59 x53 x5f x4e x53 x5f)))
(T (W x00 x00 x80 x3f x00 x00 x80 x3f)
(T (W x00 x00 x00 x00 x00 x00 x00 x00)
(L (W x45 x26 x22 x84 xe4 x9c xf2 xcb)) E)
(L (W xff xff xff xff xff xff xff xff))))
(T (W xff xff xff xff xff xff xff xff)
(T (W x45 x26 x22 x84 xe4 x9c xf2 xcb)
(T (W x00 x00 x00 x00 x00 x00 x00 x00)
(L (W xba xbe xff xff x78 x00 x00 x00)) E)
(L (W x00 x00 x00 x00 x00 x00 x00 x00)))
(T (W x00 x00 x00 x00 x00 x00 x00 x00)
(L (W xde x01 x00 x00 xff xff xff xff))
(L (W x00 x00 x80 xbf x00 x00 x80 xbf)))))))))
(T (W xff xff xff xff xff xff xff xff)
(T (W x00 x00 x80 x3f x00 x00 x80 x3f)
(T (W x45 x26 x22 x84 xe4 x9c xf2 xcb)
(T (W x00 x00 x80 x3f x00 x00 x80 x3f)
(T (W x00 x00 x80 x3f x00 x00 x80 x3f)
(T (W x7c xce xfb xff x3e x00 x00 x00)
(T (W x54 x00 x00 x00 x48 x00 x00 x00)
(T (W xff xff xff xff xff xff xff xff)
(L (W x00 x00 x00 x00 x00 x00 x00 x00)) E)
(L (W x45 x26 x22 x84 xe4 x9c xf2 xcb)))
(T (W x50 x00 x00 x00 x44 x00 x00 x00)
(T (W xff xff xff xff xff xff xff xff)
(L (W x00 x00 x00 x00 x00 x00 x00 x00)) E)
(L (W x00 x00 x00 x00 x12 x00 x00 x00))))
(T (W xff xff xff xff xff xff xff xff)
(T (W x00 x00 x80 x3f x00 x00 x80 x3f)
(T (W xff xff xff xff xff xff xff xff)
(L (W x00 x00 x00 x00 x12 x00 x00 x00)) E)
(L (W xff xff xff xff xff xff xff xff)))
(T (W x45 x26 x22 x84 xe4 x9c xf2 xcb)
(L (W x30 x35 x5f x43 x4c x45 x41 x52))
(L (W xe4 x07 xff xff x00 x01 x01 x01)))))
(T (W x00 x00 x00 x00 x00 x00 x00 x00)
(T (W xff xff xff xff xff xff xff xff)
(T (W x45 x26 x22 x84 xe4 x9c xf2 xcb)
(T (W x00 x00 x80 x3f x00 x00 x80 x3f)
(L (W xff xff xff xff xff xff xff xff)) E)
(L (W xcc x00 x00 x00 x01 x00 x00 x00)))
(T (W x02 xe3 xfc xff x74 x00 x00 x00)
(T (W xff xff xff xff xff xff xff xff)
(L (W xac x00 x00 x00 x14 x00 x00 x00)) E)
(L (W x18 x00 x00 x00 x0c x00 x00 x00))))
(T (W xe4 x27 xfc xff x00 x01 x01 x01)
(T (W xff xff xff xff xff xff xff xff)
(T (W xff xff xff xff xff xff xff xff)
(L (W x00 x00 x80 xbf x00 x00 x80 xbf)) E)
(L (W x00 x00 x00 x00 x00 x00 x00 x00)))
(T (W xbe x00 x00 x00 xff xff xff xff)
(L (W x4f x84 x6f x8b xe8 xcb x63 xb7))
(L (W x00 x00 x00 x00 xb2 x25 xff xff))))))
(T (W x00 x00 x80 x3f x00 x00 x80 x3f)
(T (W x45 x26 x22 x84 xe4 x9c xf2 xcb)
(T (W xff xff xff xff xff xff xff xff)
(T (W x45 x26 x22 x84 xe4 x9c xf2 xcb)
(T (W x00 x00 x00 x00 x54 x56 xfd xff)
(L (W x68 x00 x00 x00 x5c x00 x00 x00)) E)
(L (W x74 x00 x00 x00 x68 x00 x00 x00)))
(T (W x30 x00 x00 x00 x10 x00 x00 x00)
(T (W x45 x26 x22 x84 xe4 x9c xf2 xcb)
(L (W x00 x00 x80 xbf x00 x00 x80 xbf)) E)
(L (W x00 x00 x80 xbf x00 x00 x80 xbf))))
(T (W x45 x26 x22 x84 xe4 x9c xf2 xcb)
(T (W x31 x00 x00 x00 x34 x00 x00 x00)
(T (W x5f x00 x00 x00 x9c x00 x00 x00)
(L (W x00 x00 x80 xbf x00 x00 x80 xbf)) E)
(L (W x00 x00 x00 x00 x00 x00 x00 x00)))
(T (W x02 x13 xfd xff x74 x00 x00 x00)
(L (W x00 x00 x80 xbf x00 x00 x80 xbf))
(L (W x00 x00 x01 x01 xa9 x01 x00 x00)))))
(T (W x00 x00 x00 x00 x00 x00 x00 x00)
(T (W xff xff xff xff xff xff xff xff)
(T (W x45 x44 x00 x00 x00 x00 x00 x00)
(T (W xff xff xff xff xff xff xff xff)
(L (W x00 x00 x00 x00 xc2 x7c xff xff)) E)
(L (W x03 x00 x00 x00 xd0 x00 x00 x00)))
(T (W x9d x01 x00 x00 xff xff xff xff)
(T (W xff xff xff xff xff xff xff xff)
(L (W x00 x00 x00 x00 x00 x00 x00 x00)) E)
(L (W x18 x00 x00 x00 x0c x00 x00 x00))))
(T (W x18 x00 x00 x00 x0c x00 x00 x00)
(T (W x00 x00 x00 x00 x00 x00 x00 x00)
(T (W x67 x72 x6f x75 x70 x5f x6c x65)
(L (W x00 x00 x00 x00 x00 x00 x00 x00)) E)
(L (W xa8 x01 x00 x00 xff xff xff xff)))
(T (W x00 x00 x00 x00 x82 xc0 xff xff)
(L (W xff xff xff xff xff xff xff xff))
(L (W x00 x00 x00 x00 x00 x00 x00 x00)))))))
(T (W x00 x00 x80 x3f x00 x00 x80 x3f)
(T (W x00 x00 x80 x3f x00 x00 x80 x3f)
(T (W x45 x26 x22 x84 xe4 x9c xf2 xcb)
(T (W x01 x00 x00 x00 x04 x00 x00 x00)
(T (W x00 x00 x80 x3f x00 x00 x80 x3f)
(T (W xff xff xff xff xff xff xff xff)
(L (W x49 xa1 x68 x4a xeb x5f xdd x3d)) E)
(L (W x45 x26 x22 x84 xe4 x9c xf2 xcb)))
(T (W xff xff xff xff xff xff xff xff)
(T (W x00 x00 x00 x00 x00 x00 x00 x00)
(L (W x00 x00 x80 xbf x00 x00 x80 xbf)) E)
(L (W x00 x00 x00 x00 x00 x00 x00 x00))))
(T (W xb8 x00 x00 x00 xac x00 x00 x00)
(T (W x00 x00 x80 x3f x00 x00 x80 x3f)
(T (W x18 x01 x00 x00 x04 x00 x00 x00)
(L (W x00 x00 x00 x00 x00 x00 x00 x00)) E)
(L (W x00 x00 x00 x00 x00 x00 x00 x00)))
(T (W x50 x00 x00 x00 x44 x00 x00 x00)
(L (W x00 x00 x00 x00 x00 x00 x00 x00))
(L (W xff xff xff xff xff xff xff xff)))))
(T (W x4c xb3 xfb xff x3c x00 x00 x00)
(T (W xff xff xff xff xff xff xff xff)
(T (W x74 x00 x04 x00 x68 x00 x08 x00)
(T (W x00 x00 x80 x3f x00 x00 x80 x3f)
(L (W x00 x00 x01 x01 xbc x01 x00 x00)) E)
(L (W xac x00 x00 x00 x14 x00 x00 x00)))
(T (W xff xff xff xff xff xff xff xff)
(T (W xff xff xff xff xff xff xff xff)
(L (W x04 x00 x00 x00 xca xf0 xff xff)) E)
(L (W xff xff xff xff xa0 x00 x00 x00))))
(T (W x45 x26 x22 x84 xe4 x9c xf2 xcb)
(T (W x00 x00 x00 x00 x00 x00 x00 x00)
(T (W x00 x00 x80 x3f x00 x00 x80 x3f)
(L (W x00 x00 x00 x00 x00 x00 x00 x00)) E)
(L (W xff xff xff xff xff xff xff xff)))
(T (W x7c x36 xfd xff x22 x00 x00 x00)
(L (W x02 x2b xfe xff x74 x00 x00 x00))
(L (W x46 x53 x59 x53 x5f x4e x53 x5f))))))
(T (W x00 x00 x80 x3f x00 x00 x80 x3f)
(T (W x00 x00 x00 x00 x00 x00 x00 x00)
(T (W xff xff xff xff xff xff xff xff)
(T (W x00 x00 x00 x00 x00 x00 x00 x00)
(T (W x02 x5b xfd xff x74 x00 x00 x00)
(L (W xff xff xff xff xff xff xff xff)) E)
(L (W xff xff xff xff x9c x00 x00 x00)))
(T (W x45 x26 x22 x84 xe4 x9c xf2 xcb)
(T (W x6c x00 x00 x00 x60 x00 x00 x00)
(L (W x00 x00 x80 xbf x00 x00 x80 xbf)) E)
(L (W x45 x26 x22 x84 xe4 x9c xf2 xcb))))
(T (W x68 x00 x00 x00 x5c x00 x00 x00)
(T (W xff xff xff xff xbc x00 x00 x00)
(T (W x00 x00 x80 xbf x00 x00 x80 xbf)
(L (W x00 x00 x80 xbf x00 x00 x80 xbf)) E)
(L (W x00 x00 x00 x00 x00 x00 x00 x00)))
(T (W xff xff xff xff xff xff xff xff)
(L (W x00 x00 x80 xbf x00 x00 x80 xbf))
(L (W x00 x00 x00 x00 x2a x1f xff xff)))))
(T (W x00 x00 x00 x00 x00 x00 x00 x00)
(T (W xff xff xff xff xff xff xff xff)
(T (W x00 x00 x00 x00 x00 x00 x00 x00)
(T (W xff xff xff xff xff xff xff xff)
(L (W x00 x00 x00 x00 x4a x86 xff xff)) E)
(L (W xff xff xff xff xff xff xff xff)))
(T (W x00 x00 x00 x00 x00 x00 x00 x00)
(T (W xff xff xff xff xff xff xff xff)
(L (W xff xff xff xff xc0 x00 x00 x00)) E)
(L (W x45 x26 x22 x84 xe4 x9c xf2 xcb))))
(T (W x00 x00 x80 x3f x00 x00 x80 x3f)
(T (W x49 xa1 x68 x4a xeb x5f xdd x3d)
(T (W x00 x00 x00 x00 xc2 xc4 xfd xff)
(L (W x00 x00 x00 x00 x12 x00 x00 x00)) E)
(L (W x00 x00 x01 x01 xa8 x01 x00 x00)))
(T (W x18 x01 x00 x00 x04 x00 x00 x00)
(L (W xff xff xff xff x94 x00 x00 x00))
(L (W x00 x00 x00 x00 x12 x00 x00 x00))))))))
(T (W xff xff xff xff xff xff xff xff)
(T (W xff xff xff xff xff xff xff xff)
(T (W xc4 x00 x00 x00 xb8 x00 x00 x00)
(T (W xff xff xff xff xff xff xff xff)
(T (W x00 x00 x00 x00 x54 xca xfb xff)
(T (W xff xff xff xff xff xff xff xff)
(T (W x00 x00 x80 x3f x00 x00 x80 x3f)
(L (W xff xff xff xff x9c x00 x00 x00)) E)
(L (W x18 x00 x00 x00 x0c x00 x00 x00)))
(T (W x00 x00 x00 x00 x00 x00 x00 x00)
(T (W x00 x00 x80 x3f x00 x00 x80 x3f)
(L (W xff xff xff xff xff xff xff xff)) E)
(L (W x45 x26 x22 x84 xe4 x9c xf2 xcb))))
(T (W x45 x26 x22 x84 xe4 x9c xf2 xcb)
(T (W xff xff xff xff xff xff xff xff)
(T (W x02 x87 xfd xff x74 x00 x00 x00)
(L (W xe4 x8b xff xff x00 x01 x01 x01)) E)
(L (W x00 x00 x80 xbf x00 x00 x80 xbf)))
(T (W xff xff xff xff xff xff xff xff)
(L (W xff xff xff xff xb0 x00 x00 x00))
(L (W x00 x00 x00 x00 x00 x00 x00 x00)))))
(T (W xff xff xff xff xff xff xff xff)
(T (W x00 x00 x80 x3f x00 x00 x80 x3f)
(T (W xff xff xff xff xff xff xff xff)
(T (W xff xff xff xff xff xff xff xff)
(L (W x49 xa1 x68 x4a xeb x5f xdd x3d)) E)
(L (W x00 x00 x00 x00 x00 x00 x00 x00)))
(T (W x00 x00 x00 x00 x00 x00 x00 x00)
(T (W x49 xa1 x68 x4a xeb x5f xdd x3d)
(L (W x49 xa1 x68 x4a xeb x5f xdd x3d)) E)
(L (W x00 x00 x00 x00 x00 x00 x00 x00))))
(T (W x00 x00 x00 x00 x00 x00 x00 x00)
(T (W x00 x00 x80 x3f x00 x00 x80 x3f)
(T (W x37 x00 x00 x00 x3a x00 x00 x00)
(L (W x68 x00 x00 x00 x00 x00 x62 x00)) E)
(L (W xff xff xff xff xff xff xff xff)))
(T (W x02 x27 xfd xff x74 x00 x00 x00)
(L (W xff xff xff xff xff xff xff xff))
(L (W x00 x00 x80 xbf x00 x00 x80 xbf))))))
(T (W xcc x01 x00 x00 xff xff xff xff)
(T (W xff xff xff xff x03 x00 x00 x00)
(T (W x00 x00 x80 x3f x00 x00 x80 x3f)
(T (W x41 x00 x00 x00 xff xff xff xff)
(T (W x00 x00 x00 x00 x00 x00 x00 x00)
(L (W x00 x00 x00 x00 x12 x00 x00 x00)) E)
(L (W x00 x00 x00 x00 x00 x00 x00 x00)))
(T (W xff xff xff xff x9c x00 x00 x00)
(T (W xff xff xff xff xff xff xff xff)
(L (W xff xff xff xff xff xff xff xff)) E)
(L (W xff xff xff xff xff xff xff xff))))
(T (W x00 x00 x00 x00 x00 x00 x00 x00)
(T (W x00 x00 x00 x00 x00 x00 x00 x00)
(T (W x00 x00 x80 xbf x00 x00 x80 xbf)
(L (W xff xff xff xff xff xff xff xff)) E)
(L (W x18 x00 x00 x00 x10 x00 x00 x00)))
(T (W x00 x00 x00 x00 x00 x00 x00 x00)
(L (W x04 x00 x00 x00 x4a x22 xfe xff))
(L (W x00 x00 x80 xbf x00 x00 x80 xbf)))))
(T (W x50 x00 x00 x00 x44 x00 x00 x00)
(T (W x00 x00 x00 x00 x00 x00 x00 x00)
(T (W x18 x00 x00 x00 x0c x00 x00 x00)
(T (W x00 x00 x80 x3f x00 x00 x80 x3f)
(L (W x00 x00 x80 xbf x00 x00 x80 xbf)) E)
(L (W x00 x00 x00 x00 x00 x00 x00 x00)))
(T (W x00 x00 x80 x3f x00 x00 x80 x3f)
(T (W x00 x00 x00 x00 x00 x00 x00 x00)
(L (W x18 x00 x00 x00 x10 x00 x00 x00)) E)
(L (W x00 x00 x00 x00 x00 x00 x00 x00))))
(T (W x5d x00 x00 x00 xff xff xff xff)
(T (W xb0 x00 x00 x00 x64 x00 x00 x00)
(T (W x00 x00 x00 x00 x00 x00 x00 x00)
(L (W x50 xba xff xff xaa xd1 xff xff)) E)
(L (W xba xb8 xfe xff x78 x00 x00 x00)))
(T (W x6c x00 x00 x00 x60 x00 x00 x00)
(L (W x45 x26 x22 x84 xe4 x9c xf2 xcb))
(L (W x58 x00 x00 x00 x4c x00 x00 x00)))))))
(T (W xff xff xff xff xff xff xff xff)
(T (W xff xff xff xff xff xff xff xff)
(T (W x64 x00 x00 x00 x9c x00 x00 x00)
(T (W x45 x26 x22 x84 xe4 x9c xf2 xcb)
(T (W xff xff xff xff xff xff xff xff)
(T (W x00 x00 x00 x00 x00 x00 x00 x00)
(L (W x04 x00 x00 x00 x4a x5a xff xff)) E)
(L (W x00 x00 x00 x00 x00 x00 x00 x00)))
(T (W x00 x00 x80 x3f x00 x00 x80 x3f)
(T (W xff xff xff xff xff xff xff xff)
(L (W x64 x04 x00 x00 x60 x03 x00 x00)) E)
(L (W xff xff xff xff xff xff xff xff))))
(T (W x45 x26 x22 x84 xe4 x9c xf2 xcb)
(T (W x00 x00 x00 x00 x00 x00 x00 x00)
(T (W x00 x00 x00 x00 x00 x00 x00 x00)
(L (W xff xff xff xff xbc x00 x00 x00)) E)
(L (W x45 x26 x22 x84 xe4 x9c xf2 xcb)))
(T (W x00 x00 x00 x00 x04 x00 x00 x00)
(L (W xff xff xff xff xbc x00 x00 x00))
(L (W x00 x00 x80 xbf x00 x00 x80 xbf)))))
(T (W xe4 xb3 xfb xff x00 x01 x01 x01)
(T (W x45 x26 x22 x84 xe4 x9c xf2 xcb)
(T (W x00 x00 x58 x00 x00 x00 x07 x00)
(T (W xff xff xff xff xff xff xff xff)
(L (W x00 x00 x80 xbf x00 x00 x80 xbf)) E)
(L (W x00 x00 x00 x00 x12 x00 x00 x00)))
(T (W x00 x00 x80 x3f x00 x00 x80 x3f)
(T (W x00 x00 x80 xbf x00 x00 x80 xbf)
(L (W x54 x00 x00 x00 x48 x00 x00 x00)) E)
(L (W x00 x00 x00 x00 x00 x00 x00 x00))))
(T (W x32 x2a x34 x29 x3e x51 x68 xfc)
(T (W xff xff xff xff xb0 x00 x00 x00)
(T (W x30 x00 x00 x00 x0c x00 x00 x00)
(L (W x18 x00 x00 x00 x0c x00 x00 x00)) E)
(L (W xba xb0 xfe xff x78 x00 x00 x00)))
(T (W x50 x00 x00 x00 x44 x00 x00 x00)
(L (W x00 x00 x00 x00 x12 x00 x00 x00))
(L (W xe4 x33 xff xff x00 x01 x01 x01))))))
(T (W xff xff xff xff xff xff xff xff)
(T (W xff xff xff xff xff xff xff xff)
(T (W x00 x00 x80 x3f x00 x00 x80 x3f)
(T (W xff xff xff xff xff xff xff xff)
(T (W x18 x01 x00 x00 x04 x00 x00 x00)
(L (W x00 x00 x00 x00 x00 x00 x00 x00)) E)
(L (W x00 x00 x00 x00 x00 x00 x00 x00)))
(T (W xcb x01 x00 x00 xff xff xff xff)
(T (W x00 x00 x00 x00 x00 x00 x00 x00)
(L (W x8c x02 x00 x00 x88 x01 x00 x00)) E)
(L (W x00 x00 x00 x00 x00 x00 x00 x00))))
(T (W x00 x00 x00 x00 x00 x00 x00 x00)
(T (W x49 xa1 x68 x4a xeb x5f xdd x3d)
(T (W x00 x00 x00 x00 x00 x00 x00 x00)
(L (W x00 x00 x00 x00 x00 x00 x00 x00)) E)
(L (W x00 x00 x00 x00 xe8 xa3 xfe xff)))
(T (W x00 x00 x80 x3f x00 x00 x80 x3f)
(L (W x00 x00 x00 x00 x2a x23 xfe xff))
(L (W x6c x00 x00 x00 x60 x00 x00 x00)))))
(T (W x02 xbf xfb xff x74 x00 x00 x00)
(T (W x00 x00 x00 x00 x00 x00 x00 x00)
(T (W xff xff xff xff xff xff xff xff)
(T (W x00 x00 x80 x3f x00 x00 x80 x3f)
(L (W xba x80 xff xff x78 x00 x00 x00)) E)
(L (W x49 xa1 x68 x4a xeb x5f xdd x3d)))
(T (W xff xff xff xff xac x00 x00 x00)
(T (W x00 x00 x80 xbf x00 x00 x80 xbf)
(L (W x45 x44 x00 x00 x00 x00 x00 x00)) E)
(L (W x00 x00 x00 x00 x12 x00 x00 x00))))
(T (W xff xff xff xff xff xff xff xff)
(T (W xff xff xff xff xff xff xff xff)
(T (W x00 x00 x80 x3f x00 x00 x80 x3f)
(L (W xff xff xff xff xff xff xff xff)) E)
(L (W x50 x00 x00 x00 x44 x00 x00 x00)))
(T (W x00 x00 x80 x3f x00 x00 x80 x3f)
(L (W x30 x35 x5f x43 x4c x45 x41 x52))
(L (W x45 x26 x22 x84 xe4 x9c xf2 xcb)))))))))))
(T (W x90 x5d x02 x00 x54 x5c x02 x00)
(T (W x08 xc3 x01 x00 x54 xbe x01 x00)
(T (W xe0 x89 x00 x00 x94 x87 x00 x00)
(T (W x82 x48 xfb xff x74 x00 x00 x00)
(T (W x50 x00 x00 x00 x44 x00 x00 x00)
(T (W x50 x00 x00 x00 x44 x00 x00 x00)
(T (W x64 x85 xfb xff x00 x01 x01 x01)
(T (W x00 x00 x00 x00 x00 x00 x00 x00)
(T (W x64 x45 xfc xff x00 x01 x01 x01)
(T (W x00 x00 x00 x00 x00 x00 x00 x00)
(L (W x45 x26 x22 x84 xe4 x9c xf2 xcb)) E)
(L (W xff xff xff xff xff xff xff xff)))
(T (W x45 x26 x22 x84 xe4 x9c xf2 xcb)
(T (W x00 x00 x00 x00 x00 x00 x00 x00)
(L (W x00 x00 x80 xbf x00 x00 x80 xbf)) E)
(L (W x00 x00 x80 xbf x00 x00 x80 xbf))))
(T (W xff xff xff xff xff xff xff xff)
(T (W x00 x00 x80 x3f x00 x00 x80 x3f)
(T (W x00 x00 x00 x00 x00 x00 x00 x00)
(L (W x00 x00 x00 x00 x00 x00 x00 x00)) E)
(L (W x5f x02 xb3 x28 xbf xd8 x60 x6a)))
(T (W x00 x00 x80 x3f x00 x00 x80 x3f)
(T (W x00 x00 x00 x00 x00 x00 x00 x00)
(L (W x00 x00 x00 x00 x00 x00 x00 x00)) E)
(L (W xff xff xff xff xff xff xff xff)))))
(T (W x00 x00 x80 x3f x00 x00 x80 x3f)
(T (W x00 x00 x00 x00 x00 x00 x00 x00)
(T (W x45 x26 x22 x84 xe4 x9c xf2 xcb)
(T (W x00 x00 x00 x00 xd4 x63 xfd xff)
(L (W xff xff xff xff xff xff xff xff)) E)
(L (W xff xff xff xff xff xff xff xff)))
(T (W xff xff xff xff xff xff xff xff)
(T (W xff xff xff xff xff xff xff xff)
(L (W x00 x00 x58 x00 x00 x00 x00 x00)) E)
(L (W xcc x00 x00 x00 x01 x00 x00 x00))))
(T (W xff xff xff xff xff xff xff xff)
(T (W xe2 x38 x56 xf6 x11 x0d xd8 x96)
(T (W xff xff xff xff xff xff xff xff)
(L (W xff xff xff xff xb0 x00 x00 x00)) E)
(L (W x00 x00 x00 x00 x00 x00 x00 x00)))
(T (W x00 x00 x00 x00 x00 x00 x00 x00)
(L (W x00 x00 x00 x00 x68 x25 xfe xff))
(L (W x00 x00 x00 x00 x00 x00 x00 x00))))))
(T (W xc0 x00 x00 x00 xb4 x00 x00 x00)
(T (W x00 x00 x80 x3f x00 x00 x80 x3f)
(T (W x00 x00 x00 x00 x00 x00 x00 x00)
(T (W x82 x50 xfc xff x74 x00 x00 x00)
(T (W xff xff xff xff xff xff xff xff)
(L (W xff xff xff xff x9c x00 x00 x00)) E)
(L (W xff xff xff xff xff xff xff xff)))
(T (W x00 x00 x00 x00 x00 x00 x00 x00)
(T (W x00 x00 x80 xbf x00 x00 x80 xbf)
(L (W xff xff xff xff xb8 x00 x00 x00)) E)
(L (W x6c x00 x00 x00 x60 x00 x00 x00))))
(T (W xff xff xff xff xff xff xff xff)
(T (W xff xff xff xff xff xff xff xff)
(T (W x58 x00 x00 x00 x5c x00 x00 x00)
(L (W x18 x00 x00 x00 x0c x00 x00 x00)) E)
(L (W x45 x26 x22 x84 xe4 x9c xf2 xcb)))
(T (W xff xff xff xff xff xff xff xff)
(L (W x00 x00 x80 xbf x00 x00 x80 xbf))
(L (W xcc x18 xff xff x15 x00 x00 x00)))))
(T (W x45 x26 x22 x84 xe4 x9c xf2 xcb)
(T (W x1d x00 x00 x00 x10 x00 x00 x00)
(T (W x48 x00 x4c x00 x00 x00 x50 x00)
(T (W x00 x00 x80 x3f x00 x00 x80 x3f)
(L (W x00 x00 x00 x00 x00 x00 x00 x00)) E)
(L (W xff xff xff xff xff xff xff xff)))
(T (W x00 x00 x00 x00 x00 x00 x00 x00)
(T (W x30 x35 x5f x43 x4c x45 x41 x52)
(L (W x00 x00 x00 x00 x12 x00 x00 x00)) E)
(L (W x00 x00 x01 x01 xde x01 x00 x00))))
(T (W xff xff xff xff xff xff xff xff)
(T (W x00 x00 x80 x3f x00 x00 x80 x3f)
(T (W xff xff xff xff xff xff xff xff)
(L (W x00 x00 x80 xbf x00 x00 x80 xbf)) E)
(L (W x00 x00 x00 x00 x00 x00 x00 x00)))
(T (W x00 x00 x00 x00 x00 x00 x00 x00)
(L (W xff xff xff xff xff xff xff xff))
(L (W x45 x26 x22 x84 xe4 x9c xf2 xcb)))))))
(T (W x00 x00 x80 x3f x00 x00 x80 x3f)
(T (W x0a x00 x00 x00 x3e x00 x00 x00)
(T (W x00 x00 x80 x3f x00 x00 x80 x3f)
(T (W x00 x00 x00 x00 x00 x00 x00 x00)
(T (W x50 x00 x00 x00 x44 x00 x00 x00)
(T (W x18 x01 x00 x00 x04 x00 x00 x00)
(L (W x50 x00 x00 x00 x44 x00 x00 x00)) E)
(L (W xff xff xff xff xff xff xff xff)))
(T (W xff xff xff xff xff xff xff xff)
(T (W x00 x00 x00 x00 x00 x00 x00 x00)
(L (W x64 xcd xff xff x00 x01 x01 x01)) E)
(L (W x45 x26 x22 x84 xe4 x9c xf2 xcb))))
(T (W xff xff xff xff xff xff xff xff)
(T (W x00 x00 x00 x00 xd4 x8b xfc xff)
(T (W x00 x00 x00 x00 x00 x00 x00 x00)
(L (W x45 x26 x22 x84 xe4 x9c xf2 xcb)) E)
(L (W x00 x00 x00 x00 x00 x00 x00 x00)))
(T (W x82 x08 xfd xff x74 x00 x00 x00)
(L (W x00 x00 x80 xbf x00 x00 x80 xbf))
(L (W x00 x00 x00 x00 x6a x09 xff xff)))))
(T (W x00 x00 x80 x3f x00 x00 x80 x3f)
(T (W x00 x00 x00 x00 x00 x00 x00 x00)
(T (W xff xff xff xff xff xff xff xff)
(T (W x82 x68 xfd xff x74 x00 x00 x00)
(L (W x34 x00 x00 x00 x0c x00 x00 x00)) E)
(L (W x00 x00 x00 x00 xaa x6c xfe xff)))
(T (W xff xff xff xff xff xff xff xff)
(T (W xff xff xff xff xff xff xff xff)
(L (W x7f xd9 xac x28 xbf xd2 x59 x6a)) E)
(L (W xff xff xff xff xff xff xff xff))))
(T (W xff xff xff xff xff xff xff xff)
(T (W x00 x00 x00 x00 x00 x00 x00 x00)
(T (W x00 x00 x80 x3f x00 x00 x80 x3f)
(L (W x00 x00 x00 x00 x00 x00 x00 x00)) E)
(L (W xff xff xff xff xff xff xff xff)))
(T (W x00 x00 x00 x00 x00 x00 x00 x00)
(L (W xd0 x2b xfe xff x28 x00 x54 x00))
(L (W x00 x00 x80 xbf x00 x00 x80 xbf))))))
(T (W x82 x78 xfb xff x74 x00 x00 x00)
(T (W x45 x26 x22 x84 xe4 x9c xf2 xcb)
(T (W x00 x00 x00 x00 x00 x00 x00 x00)
(T (W x00 x00 x00 x00 xd4 x5b xfc xff)
(T (W xff xff xff xff xff xff xff xff)
(L (W xff xff xff xff xff xff xff xff)) E)
(L (W xff xff xff xff xff xff xff xff)))
(T (W x00 x00 x80 x3f x00 x00 x80 x3f)
(T (W x18 x00 x00 x00 x0c x00 x00 x00)
(L (W x5c x00 x00 x00 x50 x00 x00 x00)) E)
(L (W x45 x26 x22 x84 xe4 x9c xf2 xcb))))
(T (W xff xff xff xff xff xff xff xff)
(T (W x6a x01 x00 x00 xff xff xff xff)
(T (W x00 x00 x00 x00 x00 x00 x00 x00)
(L (W x18 x00 x00 x00 x10 x00 x00 x00)) E)
(L (W x54 x00 x00 x00 x48 x00 x00 x00)))
(T (W x9d x01 x00 x00 xff xff xff xff)
(L (W xff xff xff xff xa0 x00 x00 x00))
(L (W x00 x00 x00 x00 x00 x00 x00 x00)))))
(T (W x00 x00 x00 x00 x00 x00 x00 x00)
(T (W x3a x6b xfe xff x00 x00 x01 x01)
(T (W x00 x00 x80 x3f x00 x00 x80 x3f)
(T (W x2c xc6 x36 x97 x85 x26 x63 x5f)
(L (W x00 x00 x00 x00 x00 x00 x00 x00)) E)
(L (W x00 x00 x00 x00 x00 x00 x00 x00)))
(T (W x4f x84 x6f x8b xe8 xcb x63 xb7)
(T (W x38 x01 x00 x00 x04 x00 x00 x00)
(L (W x6c x00 x00 x00 x60 x00 x00 x00)) E)
(L (W xff xff xff xff xff xff xff xff))))
(T (W x64 x00 x00 x00 x9c x00 x00 x00)
(T (W x00 x00 x80 x3f x00 x00 x80 x3f)
(T (W x00 x00 x00 x00 x00 x00 x00 x00)
(L (W x00 x00 x80 xbf x00 x00 x80 xbf)) E)
(L (W x00 x00 x00 x00 x00 x00 x00 x00)))
(T (W x00 x00 x00 x00 x00 x00 x00 x00)
(L (W xff xff xff xff xff xff xff xff))
(L (W x00 x00 x80 xbf x00 x00 x80 xbf))))))))
(T (W x00 x00 x00 x00 x00 x00 x00 x00)
(T (W x00 x00 x00 x00 x00 x00 x00 x00)
(T (W x00 x00 x00 x00 x00 x00 x00 x00)
(T (W x00 x00 x00 x00 x00 x00 x00 x00)
(T (W xff xff xff xff x03 x00 x00 x00)
(T (W x00 x00 x00 x00 x00 x00 x00 x00)
(T (W x82 x44 xfd xff x74 x00 x00 x00)
(L (W xff xff xff xff xff xff xff xff)) E)
(L (W x00 x00 x00 x00 x00 x00 x00 x00)))
(T (W x00 x00 x00 x00 x00 x00 x00 x00)
(T (W x00 x00 x00 x00 xd4 xc7 xfd xff)
(L (W xff xff xff xff xff xff xff xff)) E)
(L (W xff xff xff xff xff xff xff xff))))
(T (W x00 x00 x80 x3f x00 x00 x80 x3f)
(T (W x00 x00 x00 x00 x00 x00 x00 x00)
(T (W xff xff xff xff xff xff xff xff)
(L (W xff xff xff xff xff xff xff xff)) E)
(L (W x00 x00 x00 x00 xd4 x87 xfe xff)))
(T (W xff xff xff xff x02 x00 x00 x00)
(L (W xff xff xff xff xff xff xff xff))
(L (W x45 x26 x22 x84 xe4 x9c xf2 xcb)))))
(T (W xff xff xff xff xff xff xff xff)
(T (W x00 x00 x80 x3f x00 x00 x80 x3f)
(T (W xff xff xff xff xff xff xff xff)
(T (W x00 x00 x00 x00 x00 x00 x00 x00)
(L (W x6c x00 x00 x00 x60 x00 x00 x00)) E)
(L (W x00 x00 x80 xbf x00 x00 x80 xbf)))
(T (W x00 x00 x00 x00 x00 x00 x00 x00)
(T (W x6c x00 x00 x00 x60 x00 x00 x00)
(L (W x49 xa1 x68 x4a xeb x5f xdd x3d)) E)
(L (W x45 x26 x22 x84 xe4 x9c xf2 xcb))))
(T (W x00 x00 x00 x00 x00 x00 x00 x00)
(T (W x82 xa4 xfc xff x74 x00 x00 x00)
(T (W x45 x26 x22 x84 xe4 x9c xf2 xcb)
(L (W x00 x00 x00 x00 x00 x00 x00 x00)) E)
(L (W xff xff xff xff xff xff xff xff)))
(T (W xff xff xff xff xff xff xff xff)
(L (W x04 x00 x00 x00 x90 x03 x00 x00))
(L (W xbc x00 x00 x00 x32 x00 x00 x00))))))
(T (W xa2 xba x1b x07 x43 x51 x05 x39)
(T (W x48 x03 x00 x00 x34 x02 x00 x00)
(T (W x18 x00 x00 x00 x0c x00 x00 x00)
(T (W xfc x5f xfc xff x3e x00 x00 x00)
(T (W x00 x00 x80 x3f x00 x00 x80 x3f)
(L (W x00 x00 x80 xbf x00 x00 x80 xbf)) E)
(L (W x00 x00 x00 x00 x00 x00 x00 x00)))
(T (W xff xff xff xff xff xff xff xff)
(T (W x46 x53 x59 x53 x5f x4e x53 x5f)
(L (W x00 x00 x00 x00 x00 x00 x00 x00)) E)
(L (W x00 x00 x00 x00 x00 x00 x00 x00))))
(T (W x00 x00 x80 x3f x00 x00 x80 x3f)
(T (W x00 x00 x80 x3f x00 x00 x80 x3f)
(T (W x00 x00 x80 xbf x00 x00 x80 xbf)
(L (W x00 x00 x00 x00 x00 x00 x00 x00)) E)
(L (W xff xff xff xff xff xff xff xff)))
(T (W x00 x00 x80 x3f x00 x00 x80 x3f)
(L (W x3e x00 x00 x00 x0c x00 x00 x00))
(L (W x18 x00 x00 x00 x10 x00 x00 x00)))))
(T (W xff xff xff xff xff xff xff xff)
(T (W x82 xf4 xfb xff x74 x00 x00 x00)
(T (W xff xff xff xff xff xff xff xff)
(T (W x45 x26 x22 x84 xe4 x9c xf2 xcb)
(L (W xff xff xff xff xff xff xff xff)) E)
(L (W x00 x00 x80 xbf x00 x00 x80 xbf)))
(T (W x2f x00 x00 x00 x32 x00 x00 x00)
(T (W x00 x00 x80 xbf x00 x00 x80 xbf)
(L (W x00 x00 x00 x00 x0c x00 x1c x00)) E)
(L (W x45 x26 x22 x84 xe4 x9c xf2 xcb))))
(T (W x00 x00 x00 x00 x00 x00 x00 x00)
(T (W xff xff xff xff xff xff xff xff)
(T (W x67 x72 x6f x75 x70 x5f x6c x65)
(L (W xff xff xff xff xff xff xff xff)) E)
(L (W x64 xb9 xfe xff x00 x01 x01 x01)))
(T (W xff xff xff xff x03 x00 x00 x00)
(L (W x00 x00 x80 xbf x00 x00 x80 xbf))
(L (W xff xff xff xff xff xff xff xff)))))))
(T (W xcc x64 xfb xff x1b x00 x00 x00)
(T (W x00 x00 x00 x00 x00 x00 x00 x00)
(T (W x00 x00 x00 x00 x00 x00 x00 x00)
(T (W xff xff xff xff xff xff xff xff)
(T (W x00 x00 x00 x00 x00 x00 x00 x00)
(T (W x00 x00 x80 x3f x00 x00 x80 x3f)
(L (W x18 x00 x00 x00 x0c x00 x00 x00)) E)
(L (W x4f x84 x6f x8b xe8 xcb x63 xb7)))
(T (W x50 x00 x00 x00 x44 x00 x00 x00)
(T (W xff xff xff xff xff xff xff xff)
(L (W x00 x00 x00 x00 x00 x00 x00 x00)) E)
(L (W xff xff xff xff xff xff xff xff))))
(T (W x00 x00 x80 x3f x00 x00 x80 x3f)
(T (W x00 x00 x00 x00 x00 x00 x00 x00)
(T (W x00 x00 x00 x00 xd4 x8f xfd xff)
(L (W xff xff xff xff xff xff xff xff)) E)
(L (W xff xff xff xff xac x00 x00 x00)))
(T (W x00 x00 x00 x00 x00 x00 x00 x00)
(L (W xff xff xff xff xff xff xff xff))
(L (W x00 x00 x80 xbf x00 x00 x80 xbf)))))
(T (W xff xff xff xff xff xff xff xff)
(T (W x68 x00 x00 x00 x5c x00 x00 x00)
(T (W xff xff xff xff xff xff xff xff)
(T (W x18 x01 x00 x00 x04 x00 x00 x00)
(L (W x2c x00 x00 x00 x2f x00 x00 x00)) E)
(L (W x49 xa1 x68 x4a xeb x5f xdd x3d)))
(T (W x00 x00 x80 x3f x00 x00 x80 x3f)
(T (W x00 x00 x80 xbf x00 x00 x80 xbf)
(L (W x31 x00 x00 x00 x34 x00 x00 x00)) E)
(L (W x00 x00 x80 xbf x00 x00 x80 xbf))))
(T (W x00 x00 x00 x00 x00 x00 x00 x00)
(T (W xff xff xff xff xff xff xff xff)
(T (W x77 x61 x72 x6c x69 x6b x65 x5f)
(L (W xff xff xff xff xff xff xff xff)) E)
(L (W x45 x26 x22 x84 xe4 x9c xf2 xcb)))
(T (W xb8 x00 x00 x00 xac x00 x00 x00)
(L (W x00 x00 x80 xbf x00 x00 x80 xbf))
(L (W xff xff xff xff xff xff xff xff))))))
(T (W xca xed xfd xff xcb x01 x00 x00)
(T (W xff xff xff xff xff xff xff xff)
(T (W x82 xdc xfb xff x74 x00 x00 x00)
(T (W x01 x00 x00 x00 x04 x00 x00 x00)
(T (W x00 x00 x00 x00 x00 x00 x00 x00)
(L (W x00 x00 x80 xbf x00 x00 x80 xbf)) E)
(L (W x54 x00 x00 x00 x48 x00 x00 x00)))
(T (W x29 x00 x00 x00 x10 x00 x00 x00)
(T (W x00 x00 x00 x00 x00 x00 x00 x00)
(L (W xcc xe4 xff xff x21 x00 x00 x00)) E)
(L (W x00 x00 x00 x00 x00 x00 x00 x00))))
(T (W x00 x00 x00 x00 x00 x00 x00 x00)
(T (W x6c x00 x00 x00 x60 x00 x00 x00)
(T (W x00 x00 x00 x00 x00 x00 x00 x00)
(L (W x30 x35 x5f x43 x4c x45 x41 x52)) E)
(L (W xff xff xff xff xff xff xff xff)))
(T (W x00 x00 x80 x3f x00 x00 x80 x3f)
(L (W x45 x44 x00 x00 x00 x00 x00 x00))
(L (W x00 x00 x00 x00 x68 x21 xff xff)))))
(T (W xff xff xff xff xff xff xff xff)
(T (W x64 x01 xfc xff x00 x01 x01 x01)
(T (W xff xff xff xff xff xff xff xff)
(T (W x00 x00 x80 x3f x00 x00 x80 x3f)
(L (W xff xff xff xff x9c x00 x00 x00)) E)
(L (W x3a x7e xfe xff x78 x00 x00 x00)))
(T (W xff xff xff xff xff xff xff xff)
(T (W x50 x00 x00 x00 x44 x00 x00 x00)
(L (W xff xff xff xff xc8 x00 x00 x00)) E)
(L (W x00 x00 x00 x00 x00 x00 x00 x00))))
(T (W x45 x26 x22 x84 xe4 x9c xf2 xcb)
(T (W x1c x56 xed x05 x5f x88 x68 xcc)
(T (W x18 x00 x00 x00 x0c x00 x00 x00)
(L (W x00 x00 x01 x01 x5d x00 x00 x00)) E)
(L (W x2f x00 x00 x00 x32 x00 x00 x00)))
(T (W x00 x00 x00 x00 xd4 x3f xfd xff)
(L (W x00 x00 x80 xbf x00 x00 x80 xbf))
(L (W xff xff xff xff xff xff xff xff)))))))))
(T (W x00 x00 x00 x00 x00 x00 x00 x00)
(T (W xff xff xff xff xff xff xff xff)
(T (W xff xff xff xff xff xff xff xff)
(T (W xff xff xff xff xff xff xff xff)
(T (W xff xff xff xff xff xff xff xff)
(T (W x00 x00 x80 x3f x00 x00 x80 x3f)
(T (W x44 x00 x00 x00 xff xff xff xff)
(T (W x00 x00 x80 x3f x00 x00 x80 x3f)
(L (W xff xff xff xff x90 x00 x00 x00)) E)
(L (W x00 x00 x00 x00 x00 x00 x00 x00)))
(T (W xcb x01 x00 x00 xff xff xff xff)
(T (W x00 x00 x80 x3f x00 x00 x80 x3f)
(L (W x2b x00 x00 x00 x2e x00 x00 x00)) E)
(L (W x64 xc7 xfe xff x00 x01 x01 x01))))
(T (W x00 x00 x00 x00 x00 x00 x00 x00)
(T (W xff xff xff xff xff xff xff xff)
(T (W x00 x00 x80 x3f x00 x00 x80 x3f)
(L (W x64 x87 xff xff x00 x01 x01 x01)) E)
(L (W x00 x00 x80 xbf x00 x00 x80 xbf)))
(T (W xff xff xff xff xc4 x00 x00 x00)
(L (W x6c x00 x00 x00 x60 x00 x00 x00))
(L (W x00 x00 x00 x00 x32 x05 xff xff)))))
(T (W x82 xa2 xfb xff x74 x00 x00 x00)
(T (W x00 x00 x80 x3f x00 x00 x80 x3f)
(T (W xff xff xff xff x03 x00 x00 x00)
(T (W xff xff xff xff xff xff xff xff)
(L (W x49 xa1 x68 x4a xeb x5f xdd x3d)) E)
(L (W xcc x6a xfe xff x1d x00 x00 x00)))
(T (W xaa x3a xfe xff x00 x00 x01 x01)
(T (W x4f x84 x6f x8b xe8 xcb x63 xb7)
(L (W x00 x00 x00 x00 x12 x00 x00 x00)) E)
(L (W x33 x44 xbb x28 xbf xcd x6a x6a))))
(T (W x00 x00 x00 x00 x00 x00 x00 x00)
(T (W x00 x00 x80 x3f x00 x00 x80 x3f)
(T (W x00 x00 x00 x00 x00 x00 x00 x00)
(L (W xff xff xff xff xff xff xff xff)) E)
(L (W x45 x26 x22 x84 xe4 x9c xf2 xcb)))
(T (W x00 x00 x80 x3f x00 x00 x80 x3f)
(L (W xcc x00 x00 x00 x01 x00 x00 x00))
(L (W x00 x00 x80 xbf x00 x00 x80 xbf))))))
(T (W xff xff xff xff xff xff xff xff)
(T (W xff xff xff xff xff xff xff xff)
(T (W x45 x26 x22 x84 xe4 x9c xf2 xcb)
(T (W xff xff xff xff xff xff xff xff)
(T (W x00 x00 x00 x00 x00 x00 x00 x00)
(L (W x00 x00 x00 x00 x42 x5c xff xff)) E)
(L (W xff xff xff xff xff xff xff xff)))
(T (W x00 x00 x80 x3f x00 x00 x80 x3f)
(T (W xff xff xff xff xff xff xff xff)
(L (W xff xff xff xff xff xff xff xff)) E)
(L (W xff xff xff xff xff xff xff xff))))
(T (W x40 x00 x00 x00 x0c x00 x00 x00)
(T (W x29 x00 x00 x00 x0c x00 x00 x00)
(T (W x00 x00 x78 x00 x00 x00 x00 x00)
(L (W xff xff xff xff xff xff xff xff)) E)
(L (W x50 x00 x00 x00 x44 x00 x00 x00)))
(T (W x00 x00 x00 x00 x00 x00 x00 x00)
(L (W xff xff xff xff xff xff xff xff))
(L (W x00 x00 x80 xbf x00 x00 x80 xbf)))))
(T (W x82 xb2 xfb xff x74 x00 x00 x00)
(T (W x00 x00 x00 x00 x00 x00 x00 x00)
(T (W x54 x00 x00 x00 x48 x00 x00 x00)
(T (W x00 x00 x62 x00 x70 x00 x04 x00)
(L (W x00 x00 x80 xbf x00 x00 x80 xbf)) E)
(L (W x00 x00 x00 x00 x00 x00 x00 x00)))
(T (W x45 x26 x22 x84 xe4 x9c xf2 xcb)
(T (W x4f x84 x6f x8b xe8 xcb x63 xb7)
(L (W xff xff xff xff xb0 x00 x00 x00)) E)
(L (W x00 x00 x00 x00 x00 x00 x00 x00))))
(T (W x00 x00 x00 x00 x04 x00 x00 x00)
(T (W x82 xb2 xfc xff x74 x00 x00 x00)
(T (W x00 x00 x80 x3f x00 x00 x80 x3f)
(L (W xac x00 x00 x00 x64 x00 x00 x00)) E)
(L (W x00 x00 x80 xbf x00 x00 x80 xbf)))
(T (W x00 x00 x80 x3f x00 x00 x80 x3f)
(L (W x00 x00 x00 x00 x00 x00 x00 x00))
(L (W xff xff xff xff x90 x00 x00 x00)))))))
(T (W xff xff xff xff xff xff xff xff)
(T (W xff xff xff xff xff xff xff xff)
(T (W xff xff xff xff x03 x00 x00 x00)
(T (W x00 x00 x80 x3f x00 x00 x80 x3f)
(T (W xff xff xff xff xff xff xff xff)
(T (W x00 x00 x00 x00 x00 x00 x00 x00)
(L (W x03 x00 x00 x00 xd8 x00 x00 x00)) E)
(L (W x45 x44 x00 x00 x00 x00 x00 x00)))
(T (W x00 x00 x00 x00 x00 x00 x00 x00)
(T (W x18 x00 x00 x00 x0c x00 x00 x00)
(L (W xff xff xff xff xff xff xff xff)) E)
(L (W x31 x00 x00 x00 x34 x00 x00 x00))))
(T (W x00 x00 x00 x00 x00 x00 x00 x00)
(T (W xff xff xff xff xff xff xff xff)
(T (W x00 x00 x80 x3f x00 x00 x80 x3f)
(L (W xff xff xff xff xa0 x00 x00 x00)) E)
(L (W x00 x00 x80 xbf x00 x00 x80 xbf)))
(T (W xff xff xff xff xff xff xff xff)
(L (W x82 x0a xfe xff x74 x00 x00 x00))
(L (W x00 x00 x00 x00 x00 x00 x00 x00)))))
(T (W x00 x00 x80 x3f x00 x00 x80 x3f)
(T (W x00 x00 x80 x3f x00 x00 x80 x3f)
(T (W x00 x00 x80 x3f x00 x00 x80 x3f)
(T (W xff xff xff xff xff xff xff xff)
(L (W x45 x26 x22 x84 xe4 x9c xf2 xcb)) E)
(L (W x00 x00 x00 x00 x12 x00 x00 x00)))
(T (W x00 x00 x00 x00 x00 x00 x00 x00)
(T (W x00 x00 x00 x00 x00 x00 x00 x00)
(L (W x45 x26 x22 x84 xe4 x9c xf2 xcb)) E)
(L (W x46 x53 x59 x53 x5f x4e x53 x5f))))
(T (W x00 x00 x00 x00 x00 x00 x00 x00)
(T (W x00 x00 x80 x3f x00 x00 x80 x3f)
(T (W xff xff xff xff xff xff xff xff)
(L (W x18 x00 x00 x00 x0c x00 x00 x00)) E)
(L (W x45 x26 x22 x84 xe4 x9c xf2 xcb)))
(T (W x00 x00 x80 x3f x00 x00 x80 x3f)
(L (W x00 x00 x00 x00 x00 x00 x00 x00))
(L (W x3a x2c xff xff x78 x00 x00 x00))))))
(T (W xff xff xff xff xff xff xff xff)
(T (W x18 x00 x00 x00 x0c x00 x00 x00)
(T (W x00 x00 x80 x3f x00 x00 x80 x3f)
(T (W x64 x00 x00 x00 x9c x00 x00 x00)
(T (W x18 x01 x00 x00 x04 x00 x00 x00)
(L (W x00 x00 x00 x00 x00 x00 x00 x00)) E)
(L (W x46 x53 x59 x53 x5f x4e x53 x5f)))
(T (W xff xff xff xff xbc x00 x00 x00)
(T (W xff xff xff xff xff xff xff xff)
(L (W xff xff xff xff xff xff xff xff)) E)
(L (W x00 x00 x00 x00 x00 x00 x00 x00))))
(T (W x00 x00 x00 x00 x00 x00 x00 x00)
(T (W x00 x00 x00 x00 x00 x00 x00 x00)
(T (W xff xff xff xff xff xff xff xff)
(L (W xff xff xff xff xff xff xff xff)) E)
(L (W xff xff xff xff xa8 x00 x00 x00)))
(T (W x00 x00 x00 x00 x00 x00 x00 x00)
(L (W xff xff xff xff xff xff xff xff))
(L (W x00 x00 x80 xbf x00 x00 x80 xbf)))))
(T (W x64 xbf xfb xff x00 x01 x01 x01)
(T (W x45 x26 x22 x84 xe4 x9c xf2 xcb)
(T (W x00 x00 x00 x00 xd4 x7d xfc xff)
(T (W x00 x00 x00 x00 x00 x00 x00 x00)
(L (W x00 x00 x80 xbf x00 x00 x80 xbf)) E)
(L (W x00 x00 x00 x00 x00 x00 x00 x00)))
(T (W x50 x00 x00 x00 x44 x00 x00 x00)
(T (W x45 x26 x22 x84 xe4 x9c xf2 xcb)
(L (W x00 x00 x00 x00 x00 x00 x00 x00)) E)
(L (W x45 x44 x00 x00 x00 x00 x00 x00))))
(T (W xff xff xff xff xff xff xff xff)
(T (W xff xff xff xff xff xff xff xff)
(T (W x00 x00 x80 x3f x00 x00 x80 x3f)
(L (W x64 xbf xff xff x00 x01 x01 x01)) E)
(L (W x00 x00 x80 xbf x00 x00 x80 xbf)))
(T (W x00 x00 x80 x3f x00 x00 x80 x3f)
(L (W x30 x35 x5f x43 x4c x45 x41 x52))
(L (W x64 x3f xff xff x00 x01 x01 x01))))))))
(T (W x00 x00 x00 x00 x00 x00 x00 x00)
(T (W x00 x00 x00 x00 x00 x00 x00 x00)
(T (W x50 x00 x54 x00 x58 x00 x00 x00)
(T (W x00 x00 x00 x00 x00 x00 x00 x00)
(T (W x00 x00 x00 x00 x00 x00 x00 x00)
(T (W x00 x00 x80 x3f x00 x00 x80 x3f)
(T (W xff xff xff xff xff xff xff xff)
(L (W x46 x53 x59 x53 x5f x4e x53 x5f)) E)
(L (W x00 x00 x80 xbf x00 x00 x80 xbf)))
(T (W x82 xc6 xfc xff x74 x00 x00 x00)
(T (W xff xff xff xff xff xff xff xff)
(L (W x00 x00 x80 xbf x00 x00 x80 xbf)) E)
(L (W x00 x00 x00 x00 x00 x00 x00 x00))))
(T (W xc0 x00 x00 x00 xb4 x00 x00 x00)
(T (W x45 x26 x22 x84 xe4 x9c xf2 xcb)
(T (W x18 x01 x00 x00 x04 x00 x00 x00)
(L (W x7a xdf xff xff x00 x00 x01 x01)) E)
(L (W xff xff xff xff xff xff xff xff)))
(T (W x00 x00 x80 x3f x00 x00 x80 x3f)
(L (W xa8 x86 xc7 x28 xbf xd0 x78 x6a))
(L (W x00 x00 x00 x00 xd4 x09 xff xff)))))
(T (W x00 x00 x00 x00 x00 x00 x00 x00)
(T (W xff xff xff xff xff xff xff xff)
(T (W x00 x00 x00 x00 x00 x00 x00 x00)
(T (W x00 x00 x80 x3f x00 x00 x80 x3f)
(L (W x03 x00 x00 x00 xd8 x00 x00 x00)) E)
(L (W x45 x26 x22 x84 xe4 x9c xf2 xcb)))
(T (W x18 x00 x00 x00 x10 x00 x00 x00)
(T (W xff xff xff xff xff xff xff xff)
(L (W xff xff xff xff xff xff xff xff)) E)
(L (W x50 x00 x00 x00 x44 x00 x00 x00))))
(T (W x50 x00 x00 x00 x44 x00 x00 x00)
(T (W xff xff xff xff xff xff xff xff)
(T (W x5f x4e x53 x5f x30 x34 x5f x43)
(L (W x45 x26 x22 x84 xe4 x9c xf2 xcb)) E)
(L (W x00 x00 x00 x00 x00 x00 x00 x00)))
(T (W xaa x7e xfe xff x00 x00 x01 x01)
(L (W x00 x00 x00 x00 x00 x00 x00 x00))
(L (W xff xff xff xff xff xff xff xff))))))
(T (W x45 x26 x22 x84 xe4 x9c xf2 xcb)
(T (W x00 x00 x00 x00 x00 x00 x00 x00)
(T (W xff xff xff xff xff xff xff xff)
(T (W x45 x26 x22 x84 xe4 x9c xf2 xcb)
(T (W x82 x56 xfd xff x74 x00 x00 x00)
(L (W x64 x5b xff xff x00 x01 x01 x01)) E)
(L (W x50 x00 x00 x00 x44 x00 x00 x00)))
(T (W x00 x00 x00 x00 x00 x00 x00 x00)
(T (W x00 x00 x80 xbf x00 x00 x80 xbf)
(L (W x4f x84 x6f x8b xe8 xcb x63 xb7)) E)
(L (W x00 x00 x80 xbf x00 x00 x80 xbf))))
(T (W x00 x00 x00 x00 xd4 x19 xfc xff)
(T (W x00 x00 x00 x00 xd4 x99 xfc xff)
(T (W xff xff xff xff xff xff xff xff)
(L (W x00 x00 x80 xbf x00 x00 x80 xbf)) E)
(L (W x30 x35 x5f x43 x4c x45 x41 x52)))
(T (W x45 x26 x22 x84 xe4 x9c xf2 xcb)
(L (W x45 x26 x22 x84 xe4 x9c xf2 xcb))
(L (W xff xff xff xff xff xff xff xff)))))
(T (W xca x27 xfe xff x8f x01 x00 x00)
(T (W x18 x00 x00 x00 x10 x00 x00 x00)
(T (W x00 x00 x00 x00 x00 x00 x00 x00)
(T (W xff xff xff xff xff xff xff xff)
(L (W xff xff xff xff xff xff xff xff)) E)
(L (W xb0 x00 x00 x00 x64 x00 x00 x00)))
(T (W xff xff xff xff xff xff xff xff)
(T (W xff xff xff xff xb0 x00 x00 x00)
(L (W x50 x00 x00 x00 x00 x00 x54 x00)) E)
(L (W x45 x26 x22 x84 xe4 x9c xf2 xcb))))
(T (W x00 x00 x80 x3f x00 x00 x80 x3f)
(T (W x00 x00 x00 x00 x12 x00 x00 x00)
(T (W x18 x00 x00 x00 x10 x00 x00 x00)
(L (W x00 x00 x00 x00 x00 x00 x00 x00)) E)
(L (W x00 x00 x01 x01 x64 x01 x00 x00)))
(T (W x00 x00 x01 x01 x26 x02 x00 x00)
(L (W xff xff xff xff xff xff xff xff))
(L (W xdc x00 x00 x00 xff xff xff xff)))))))
(T (W x00 x00 x80 x3f x00 x00 x80 x3f)
(T (W x00 x00 x80 x3f x00 x00 x80 x3f)
(T (W x00 x00 x00 x00 x00 x00 x00 x00)
(T (W x48 x03 x00 x00 x34 x02 x00 x00)
(T (W x00 x00 x80 x3f x00 x00 x80 x3f)
(T (W x00 x00 x00 x00 xd4 x51 xfd xff)
(L (W x00 x00 x80 xbf x00 x00 x80 xbf)) E)
(L (W x2b x00 x00 x00 x2e x00 x00 x00)))
(T (W xff xff xff xff xff xff xff xff)
(T (W x00 x00 x00 x00 x00 x00 x00 x00)
(L (W x45 x26 x22 x84 xe4 x9c xf2 xcb)) E)
(L (W x49 xa1 x68 x4a xeb x5f xdd x3d))))
(T (W xff xff xff xff x03 x00 x00 x00)
(T (W x00 x00 x80 x3f x00 x00 x80 x3f)
(T (W x00 x00 x00 x00 x00 x00 x00 x00)
(L (W x00 x00 x00 x00 x00 x00 x00 x00)) E)
(L (W x54 x02 x00 x00 x38 x01 x00 x00)))
(T (W x00 x00 x80 x3f x00 x00 x80 x3f)
(L (W x00 x00 x00 x00 x00 x00 x00 x00))
(L (W xff xff xff xff xff xff xff xff)))))
(T (W x1d x54 xdd x29 xdd x45 xad xcf)
(T (W xff xff xff xff x04 x00 x00 x00)
(T (W x00 x00 x00 x00 x00 x00 x00 x00)
(T (W x00 x00 x00 x00 x00 x00 x00 x00)
(L (W xff xff xff xff xff xff xff xff)) E)
(L (W x64 x73 xfe xff x00 x01 x01 x01)))
(T (W xff xff xff xff xff xff xff xff)
(T (W xff xff xff xff xff xff xff xff)
(L (W xff xff xff xff xff xff xff xff)) E)
(L (W x18 x00 x00 x00 x0c x00 x00 x00))))
(T (W x00 x00 x80 x3f x00 x00 x80 x3f)
(T (W x38 x12 x4c x74 x7d x90 xd8 x26)
(T (W x00 x00 x80 x3f x00 x00 x80 x3f)
(L (W x00 x00 x00 x00 x00 x00 x00 x00)) E)
(L (W x00 x00 x00 x00 x00 x00 x00 x00)))
(T (W x74 x02 x00 x00 xff xff xff xff)
(L (W x64 x33 xfe xff x00 x01 x01 x01))
(L (W x00 x00 x00 x00 x32 x31 xff xff))))))
(T (W x00 x00 x00 x00 x00 x00 x00 x00)
(T (W x00 x00 x00 x00 x00 x00 x00 x00)
(T (W xff xff xff xff xff xff xff xff)
(T (W x45 x26 x22 x84 xe4 x9c xf2 xcb)
(T (W x00 x00 x80 x3f x00 x00 x80 x3f)
(L (W xff xff xff xff xa0 x00 x00 x00)) E)
(L (W x1c x00 x00 x00 x10 x00 x00 x00)))
(T (W x00 x00 x80 x3f x00 x00 x80 x3f)
(T (W x68 x00 x00 x00 x5c x00 x00 x00)
(L (W x00 x00 x80 xbf x00 x00 x80 xbf)) E)
(L (W x00 x00 x80 xbf x00 x00 x80 xbf))))
(T (W x45 x26 x22 x84 xe4 x9c xf2 xcb)
(T (W xff xff xff xff xff xff xff xff)
(T (W x70 x00 x00 x00 x64 x00 x00 x00)
(L (W x00 x00 x80 xbf x00 x00 x80 xbf)) E)
(L (W x00 x00 x00 x00 x00 x00 x00 x00)))
(T (W xff xff xff xff xff xff xff xff)
(L (W x00 x00 x80 xbf x00 x00 x80 xbf))
(L (W xff xff xff xff xff xff xff xff)))))
(T (W x00 x00 x00 x00 x00 x00 x00 x00)
(T (W xb8 x00 x00 x00 xac x00 x00 x00)
(T (W x00 x00 x00 x00 x00 x00 x00 x00)
(T (W xff xff xff xff xff xff xff xff)
(L (W x00 x00 x00 x00 x00 x00 x00 x00)) E)
(L (W xff xff xff xff xff xff xff xff)))
(T (W x00 x00 x00 x00 x00 x00 x00 x00)
(T (W xff xff xff xff xff xff xff xff)
(L (W x54 x00 x00 x00 x48 x00 x00 x00)) E)
(L (W x64 x03 xff xff x00 x01 x01 x01))))
(T (W x00 x00 x80 x3f x00 x00 x80 x3f)
(T (W x45 x26 x22 x84 xe4 x9c xf2 xcb)
(T (W xff xff xff xff xff xff xff xff)
(L (W x00 x00 x00 x00 x00 x00 x00 x00)) E)
(L (W xff xff xff xff xff xff xff xff)))
(T (W xff xff xff xff xff xff xff xff)
(L (W x6c x00 x00 x00 x60 x00 x00 x00))
(L (W x00 x00 x00 x00 x00 x00 x00 x00))))))))))
(T (W x60 x1c x01 x00 x14 x1a x01 x00)
(T (W x40 x00 x00 x00 x10 x00 x00 x00)
(T (W x45 x26 x22 x84 xe4 x9c xf2 xcb)
(T (W xb8 x00 x00 x00 xac x00 x00 x00)
(T (W xb8 x00 x00 x00 xac x00 x00 x00)
(T (W x18 x00 x00 x00 x10 x00 x00 x00)
(T (W x45 x26 x22 x84 xe4 x9c xf2 xcb)
(T (W xff xff xff xff xff xff xff xff)
(T (W x00 x00 x00 x00 x00 x00 x00 x00)
(L (W x00 x01 x01 x01 xba x52 xff xff)) E)
(L (W x00 x00 x00 x00 x00 x00 x00 x00)))
(T (W xff xff xff xff xff xff xff xff)
(T (W x00 x00 x00 x00 x00 x00 x00 x00)
(L (W x3a xc3 xff xff x78 x00 x00 x00)) E)
(L (W x54 x00 x00 x00 x48 x00 x00 x00))))
(T (W x3e x00 x00 x00 x0c x00 x00 x00)
(T (W x00 x00 x00 x00 xd4 x84 xfc xff)
(T (W x00 x00 x00 x00 x00 x00 x00 x00)
(L (W x45 x26 x22 x84 xe4 x9c xf2 xcb)) E)
(L (W x00 x00 x00 x00 x00 x00 x00 x00)))
(T (W x45 x26 x22 x84 xe4 x9c xf2 xcb)
(L (W x45 x26 x22 x84 xe4 x9c xf2 xcb))
(L (W xff xff xff xff xff xff xff xff)))))
(T (W x00 x00 x80 x3f x00 x00 x80 x3f)
(T (W x00 x00 x80 x3f x00 x00 x80 x3f)
(T (W x3e x00 x00 x00 x9c x00 x00 x00)
(T (W xff xff xff xff xff xff xff xff)
(L (W xcc x69 xff xff x18 x00 x00 x00)) E)
(L (W xff xff xff xff xff xff xff xff)))
(T (W xff xff xff xff xff xff xff xff)
(T (W x0a x00 x00 x00 x68 x0a x00 x00)
(L (W x00 x00 x00 x00 x00 x00 x00 x00)) E)
(L (W xff xff xff xff xff xff xff xff))))
(T (W x82 xb6 xff xff xa8 x01 x00 x00)
(T (W x00 x00 x00 x00 x00 x00 x00 x00)
(T (W xfc xac xfd xff x35 x00 x00 x00)
(L (W xff xff xff xff xff xff xff xff)) E)
(L (W x00 x00 x80 xbf x00 x00 x80 xbf)))
(T (W x00 x00 x00 x00 x00 x00 x00 x00)
(L (W xff xff xff xff x90 x00 x00 x00))
(L (W x00 x00 x80 xbf x00 x00 x80 xbf))))))
(T (W xff xff xff xff xff xff xff xff)
(T (W x82 x91 xfb xff x74 x00 x00 x00)
(T (W x45 x26 x22 x84 xe4 x9c xf2 xcb)
(T (W x00 x00 x00 x00 xd4 x54 xfc xff)
(T (W x18 x01 x00 x00 x04 x00 x00 x00)
(L (W xff xff xff xff xff xff xff xff)) E)
(L (W xff xff xff xff xff xff xff xff)))
(T (W x45 x26 x22 x84 xe4 x9c xf2 xcb)
(T (W x18 x00 x00 x00 x0c x00 x00 x00)
(L (W xff xff xff xff xff xff xff xff)) E)
(L (W x18 x00 x00 x00 x10 x00 x00 x00))))
(T (W xff xff xff xff xff xff xff xff)
(T (W xff xff xff xff xff xff xff xff)
(T (W x55 x39 x81 x6a xc4 xc7 x74 x14)
(L (W xff xff xff xff xff xff xff xff)) E)
(L (W x00 x00 x80 xbf x00 x00 x80 xbf)))
(T (W xff xff xff xff xff xff xff xff)
(L (W x00 x00 x00 x00 xd4 x14 xfe xff))
(L (W x49 xa1 x68 x4a xeb x5f xdd x3d)))))
(T (W x54 x00 x00 x00 x48 x00 x00 x00)
(T (W x00 x00 x00 x00 x00 x00 x00 x00)
(T (W x00 x00 x00 x00 x00 x00 x00 x00)
(T (W xff xff xff xff xff xff xff xff)
(L (W x00 x00 x80 xbf x00 x00 x80 xbf)) E)
(L (W x45 x44 x00 x00 x00 x00 x00 x00)))
(T (W x00 x00 x00 x00 x00 x00 x00 x00)
(T (W x00 x00 x00 x00 x00 x00 x00 x00)
(L (W x00 x00 x00 x00 x00 x00 x00 x00)) E)
(L (W x45 x44 x00 x00 x00 x00 x00 x00))))
(T (W xff xff xff xff xff xff xff xff)
(T (W x00 x00 x80 x3f x00 x00 x80 x3f)
(T (W xdc x1a x00 x00 xc0 x19 x00 x00)
(L (W x45 x26 x22 x84 xe4 x9c xf2 xcb)) E)
(L (W x45 x26 x22 x84 xe4 x9c xf2 xcb)))
(T (W x45 x26 x22 x84 xe4 x9c xf2 xcb)
(L (W x00 x00 x00 x00 x00 x00 x00 x00))
(L (W x00 x01 x01 x01 xba x42 xff xff)))))))
(T (W x64 x00 x00 x00 x9c x00 x00 x00)
(T (W xff xff xff xff xff xff xff xff)
(T (W x01 x00 x00 x00 xa0 x00 x00 x00)
(T (W x00 x00 x00 x00 x00 x00 x00 x00)
(T (W x64 x00 x00 x00 x9c x00 x00 x00)
(T (W x00 x00 x00 x00 x00 x00 x00 x00)
(L (W x18 x00 x00 x00 x10 x00 x00 x00)) E)
(L (W xff xff xff xff xff xff xff xff)))
(T (W x34 x00 x00 x00 x10 x00 x00 x00)
(T (W x00 x00 x80 x3f x00 x00 x80 x3f)
(L (W xb4 x00 x00 x00 x14 x00 x00 x00)) E)
(L (W x3a xcb xfe xff x78 x00 x00 x00))))
(T (W x3a x7c xfe xff x00 x00 x01 x01)
(T (W xff xff xff xff xff xff xff xff)
(T (W x00 x00 x80 x3f x00 x00 x80 x3f)
(L (W x6c x00 x00 x00 x60 x00 x00 x00)) E)
(L (W x00 x00 x80 xbf x00 x00 x80 xbf)))
(T (W xff xff xff xff x9c x00 x00 x00)
(L (W x00 x00 x80 xbf x00 x00 x80 xbf))
(L (W x00 x00 x00 x00 x00 x00 x00 x00)))))
(T (W x00 x00 x80 x3f x00 x00 x80 x3f)
(T (W x00 x00 x00 x00 x00 x00 x00 x00)
(T (W x68 x00 x00 x00 x00 x00 x62 x00)
(T (W x00 x00 x00 x00 xd4 x6c xfd xff)
(L (W x00 x00 x00 x00 x00 x00 x00 x00)) E)
(L (W x00 x00 x00 x00 x00 x00 x00 x00)))
(T (W x00 x00 x00 x00 x04 x00 x00 x00)
(T (W x30 x35 x5f x43 x4c x45 x41 x52)
(L (W x00 x00 x00 x00 x00 x00 x00 x00)) E)
(L (W x00 x00 x00 x00 xca xf4 xfe xff))))
(T (W xfa xbf xff xff x00 x00 x01 x01)
(T (W x00 x00 x80 x3f x00 x00 x80 x3f)
(T (W x54 x00 x00 x00 x48 x00 x00 x00)
(L (W x6c x00 x00 x00 x60 x00 x00 x00)) E)
(L (W x24 x00 x28 x00 x2c x00 x30 x00)))
(T (W x00 x00 x80 x3f x00 x00 x80 x3f)
(L (W xff xff xff xff xff xff xff xff))
(L (W x00 x00 x80 xbf x00 x00 x80 xbf))))))
(T (W xff xff xff xff xff xff xff xff)
(T (W x00 x00 x80 x3f x00 x00 x80 x3f)
(T (W x45 x26 x22 x84 xe4 x9c xf2 xcb)
(T (W x18 x00 x00 x00 x0c x00 x00 x00)
(T (W xff xff xff xff xff xff xff xff)
(L (W xff xff xff xff xff xff xff xff)) E)
(L (W x04 x00 x00 x00 xca x64 xfe xff)))
(T (W x82 xd9 xfc xff x74 x00 x00 x00)
(T (W xff xff xff xff xff xff xff xff)
(L (W x14 x00 x00 x00 x0c x00 x00 x00)) E)
(L (W xff xff xff xff xff xff xff xff))))
(T (W xc8 x00 x00 x00 xff xff xff xff)
(T (W x00 x00 x00 x00 x00 x00 x00 x00)
(T (W x45 x26 x22 x84 xe4 x9c xf2 xcb)
(L (W x03 x00 x00 x00 xd8 x00 x00 x00)) E)
(L (W x45 x26 x22 x84 xe4 x9c xf2 xcb)))
(T (W x5f x4e x53 x5f x30 x35 x5f x43)
(L (W xff xff xff xff xff xff xff xff))
(L (W x00 x00 x80 xbf x00 x00 x80 xbf)))))
(T (W x00 x00 x80 x3f x00 x00 x80 x3f)
(T (W x00 x00 x00 x00 x00 x00 x00 x00)
(T (W x00 x00 x80 x3f x00 x00 x80 x3f)
(T (W x00 x00 x00 x00 x00 x00 x00 x00)
(L (W x00 x00 x80 xbf x00 x00 x80 xbf)) E)
(L (W x00 x00 x00 x00 x00 x00 x00 x00)))
(T (W x00 x00 x80 x3f x00 x00 x80 x3f)
(T (W x00 x00 x00 x00 x00 x00 x00 x00)
(L (W xff xff xff xff xa0 x00 x00 x00)) E)
(L (W x00 x00 x01 x01 xde x01 x00 x00))))
(T (W xff xff xff xff xff xff xff xff)
(T (W x82 xb9 xfc xff x74 x00 x00 x00)
(T (W x00 x00 x00 x00 x00 x00 x00 x00)
(L (W x54 x00 x00 x00 x48 x00 x00 x00)) E)
(L (W x00 x00 x80 xbf x00 x00 x80 xbf)))
(T (W x00 x00 x80 x3f x00 x00 x80 x3f)
(L (W xff xff xff xff xff xff xff xff))
(L (W x54 x00 x00 x00 x48 x00 x00 x00))))))))
(T (W x00 x00 x00 x00 x00 x00 x00 x00)
(T (W x00 x00 x00 x00 x00 x00 x00 x00)
(T (W x82 x65 xfb xff x74 x00 x00 x00)
(T (W x00 x00 x00 x00 x00 x00 x00 x00)
(T (W x6a x01 x00 x00 xff xff xff xff)
(T (W x00 x00 x80 x3f x00 x00 x80 x3f)
(T (W x00 x00 x00 x00 xd4 x48 xfd xff)
(L (W x04 x00 x00 x00 xca x50 xff xff)) E)
(L (W x49 xa1 x68 x4a xeb x5f xdd x3d)))
(T (W x00 x00 x80 x3f x00 x00 x80 x3f)
(T (W x32 x00 x00 x00 x35 x00 x00 x00)
(L (W x00 x00 x00 x00 x00 x00 x00 x00)) E)
(L (W xff xff xff xff xff xff xff xff))))
(T (W x40 x00 x00 x00 x9c x00 x00 x00)
(T (W x00 x00 x00 x00 x00 x00 x00 x00)
(T (W xff xff xff xff xff xff xff xff)
(L (W xff xff xff xff xff xff xff xff)) E)
(L (W x31 x00 x00 x00 x34 x00 x00 x00)))
(T (W x00 x00 x00 x00 x00 x00 x00 x00)
(L (W xff xff xff xff xff xff xff xff))
(L (W x00 x00 x80 x3f x00 x00 x80 x3f)))))
(T (W x00 x00 x00 x00 x9a x3d xff xff)
(T (W x18 x00 x00 x00 x0c x00 x00 x00)
(T (W xcc x6d xfc xff x3c x00 x00 x00)
(T (W x00 x00 x00 x00 x00 x00 x00 x00)
(L (W x18 x00 x00 x00 x10 x00 x00 x00)) E)
(L (W x54 x00 x00 x00 x48 x00 x00 x00)))
(T (W x50 x00 x00 x00 x44 x00 x00 x00)
(T (W xff xff xff xff xa0 x00 x00 x00)
(L (W x3c x00 x40 x00 x2a x00 x00 x00)) E)
(L (W x00 x00 x80 xbf x00 x00 x80 xbf))))
(T (W x00 x00 x80 x3f x00 x00 x80 x3f)
(T (W xff xff xff xff xff xff xff xff)
(T (W xf7 x01 x00 x00 xff xff xff xff)
(L (W x00 x00 x00 x00 x00 x00 x00 x00)) E)
(L (W x40 x04 x00 x00 xb4 x02 x00 x00)))
(T (W xff xff xff xff xff xff xff xff)
(L (W x30 x35 x5f x43 x4c x45 x41 x52))
(L (W xff xff xff xff xff xff xff xff))))))
(T (W x00 x00 x00 x00 x00 x00 x00 x00)
(T (W x00 x00 x00 x00 x00 x00 x00 x00)
(T (W xff xff xff xff xff xff xff xff)
(T (W x00 x00 x00 x00 x00 x00 x00 x00)
(T (W x00 x00 x80 x3f x00 x00 x80 x3f)
(L (W x54 x00 x00 x00 x48 x00 x00 x00)) E)
(L (W x00 x00 x80 xbf x00 x00 x80 xbf)))
(T (W x6a x01 x00 x00 xff xff xff xff)
(T (W x00 x00 x00 x00 x00 x00 x00 x00)
(L (W x00 x00 x00 x00 x00 x00 x00 x00)) E)
(L (W x00 x00 x00 x00 x00 x00 x00 x00))))
(T (W x6c x00 x00 x00 x60 x00 x00 x00)
(T (W x00 x00 x80 x3f x00 x00 x80 x3f)
(T (W x45 x26 x22 x84 xe4 x9c xf2 xcb)
(L (W x00 x00 x00 x00 x00 x00 x00 x00)) E)
(L (W x00 x00 x01 x01 x18 x01 x00 x00)))
(T (W x68 x00 x00 x00 x5c x00 x00 x00)
(L (W x00 x00 x00 x00 x00 x00 x00 x00))
(L (W x03 x00 x00 x00 xd8 x00 x00 x00)))))
(T (W xff xff xff xff xff xff xff xff)
(T (W x45 x26 x22 x84 xe4 x9c xf2 xcb)
(T (W x00 x00 x00 x00 x42 x7f xfc xff)
(T (W x18 x00 x00 x00 x10 x00 x00 x00)
(L (W xff xff xff xff xff xff xff xff)) E)
(L (W x64 x7a xfe xff x00 x01 x01 x01)))
(T (W xff xff xff xff xff xff xff xff)
(T (W x00 x00 x00 x00 xd4 xf8 xfd xff)
(L (W x18 x00 x00 x00 x0c x00 x00 x00)) E)
(L (W x6c x00 x00 x00 x60 x00 x00 x00))))
(T (W x45 x26 x22 x84 xe4 x9c xf2 xcb)
(T (W x00 x00 x00 x00 x00 x00 x00 x00)
(T (W x00 x00 x00 x00 x00 x00 x00 x00)
(L (W xff xff xff xff xff xff xff xff)) E)
(L (W xb0 x00 x00 x00 x64 x00 x00 x00)))
(T (W xff xff xff xff xff xff xff xff)
(L (W x2d x00 x00 x00 x30 x00 x00 x00))
(L (W xff xff xff xff xff xff xff xff)))))))
(T (W x45 x26 x22 x84 xe4 x9c xf2 xcb)
(T (W x00 x00 x00 x00 x00 x00 x00 x00)
(T (W x00 x00 x00 x00 x00 x00 x00 x00)
(T (W xff xff xff xff xff xff xff xff)
(T (W x00 x00 x00 x00 x00 x00 x00 x00)
(T (W x82 x4d xfd xff x74 x00 x00 x00)
(L (W x00 x00 x00 x00 x00 x00 x00 x00)) E)
(L (W x00 x00 x80 xbf x00 x00 x80 xbf)))
(T (W xff xff xff xff x9c x00 x00 x00)
(T (W x00 x00 x00 x00 x42 xd7 xfd xff)
(L (W x00 x00 x00 x00 x00 x00 x00 x00)) E)
(L (W x00 x00 x00 x00 x00 x00 x00 x00))))
(T (W x50 x00 x00 x00 x44 x00 x00 x00)
(T (W x00 x00 x80 x3f x00 x00 x80 x3f)
(T (W x54 x00 x00 x00 x58 x00 x00 x00)
(L (W x23 xe7 xaf x28 xbf x51 x5d x6a)) E)
(L (W xff xff xff xff xff xff xff xff)))
(T (W x4f x84 x6f x8b xe8 xcb x63 xb7)
(L (W x42 x83 xc7 x28 xbf xce x78 x6a))
(L (W x82 x0d xff xff x74 x00 x00 x00)))))
(T (W xff xff xff xff xff xff xff xff)
(T (W x82 xed xfb xff x74 x00 x00 x00)
(T (W xca xde xfe xff x25 x00 x00 x00)
(T (W x00 x00 x00 x00 x00 x00 x00 x00)
(L (W xff xff xff xff xff xff xff xff)) E)
(L (W x00 x00 x80 xbf x00 x00 x80 xbf)))
(T (W x82 xed xfc xff x74 x00 x00 x00)
(T (W xff xff xff xff xff xff xff xff)
(L (W x03 x00 x00 x00 xc8 x00 x00 x00)) E)
(L (W x00 x00 x80 xbf x00 x00 x80 xbf))))
(T (W x00 x00 x00 x00 x00 x00 x00 x00)
(T (W xff xff xff xff xff xff xff xff)
(T (W x49 xa1 x68 x4a xeb x5f xdd x3d)
(L (W x00 x00 x00 x00 x42 xb7 xff xff)) E)
(L (W xff xff xff xff xff xff xff xff)))
(T (W xff xff xff xff xff xff xff xff)
(L (W x54 x00 x00 x00 x48 x00 x00 x00))
(L (W xff xff xff xff xff xff xff xff))))))
(T (W x00 x00 x00 x00 x00 x00 x00 x00)
(T (W x3e x00 x00 x00 x10 x00 x00 x00)
(T (W xff xff xff xff x04 x00 x00 x00)
(T (W x00 x00 x00 x00 x00 x00 x00 x00)
(T (W x00 x00 x80 x3f x00 x00 x80 x3f)
(L (W x3a x5f xff xff x78 x00 x00 x00)) E)
(L (W x45 x26 x22 x84 xe4 x9c xf2 xcb)))
(T (W x00 x00 x00 x00 x00 x00 x00 x00)
(T (W x00 x00 x80 xbf x00 x00 x80 xbf)
(L (W x00 x00 x00 x00 x00 x00 x00 x00)) E)
(L (W x00 x00 x80 xbf x00 x00 x80 xbf))))
(T (W x00 x00 x80 x3f x00 x00 x80 x3f)
(T (W xff xff xff xff xa0 x00 x00 x00)
(T (W x00 x00 x80 xbf x00 x00 x80 xbf)
(L (W x00 x00 x00 x00 x00 x00 x00 x00)) E)
(L (W x90 x01 x00 x00 xff xff xff xff)))
(T (W xc8 x00 x00 x00 x01 x00 x00 x00)
(L (W x00 x00 x00 x00 x00 x00 x00 x00))
(L (W xa8 x00 x00 x00 x64 x00 x00 x00)))))
(T (W xff xff xff xff xff xff xff xff)
(T (W x18 x00 x00 x00 x10 x00 x00 x00)
(T (W x29 x00 x00 x00 x0c x00 x00 x00)
(T (W xff xff xff xff xff xff xff xff)
(L (W xff xff xff xff xff xff xff xff)) E)
(L (W xff xff xff xff xa0 x00 x00 x00)))
(T (W x00 x00 x00 x00 x00 x00 x00 x00)
(T (W x03 x00 x00 x00 xcc x00 x00 x00)
(L (W x3c x00 x40 x00 x44 x00 x48 x00)) E)
(L (W x45 x26 x22 x84 xe4 x9c xf2 xcb))))
(T (W x00 x00 x80 x3f x00 x00 x80 x3f)
(T (W x00 x00 x00 x00 x00 x00 x00 x00)
(T (W xff xff xff xff xff xff xff xff)
(L (W x46 x53 x59 x53 x5f x4e x53 x5f)) E)
(L (W xff xff xff xff xff xff xff xff)))
(T (W xff xff xff xff xff xff xff xff)
(L (W x3c x00 x00 x00 x00 x00 x80 xbf))
(L (W xff xff xff xff xff xff xff xff)))))))))
(T (W x00 x00 x80 x3f x00 x00 x80 x3f)
(T (W x01 x00 x00 x00 xff xff xff xff)
(T (W x00 x00 x01 x01 x74 x02 x00 x00)
(T (W xdf xdd x79 xfc x48 x7d x13 x88)
(T (W xff xff xff xff xff xff xff xff)
(T (W x01 x00 x00 x00 xa0 x00 x00 x00)
(T (W x00 x00 x00 x00 x00 x00 x00 x00)
(T (W x00 x00 x80 x3f x00 x00 x80 x3f)
(L (W xc4 x00 x00 x00 x01 x00 x00 x00)) E)
(L (W x00 x00 x00 x00 x12 x00 x00 x00)))
(T (W x00 x00 x00 x00 x00 x00 x00 x00)
(T (W x00 x00 x80 x3f x00 x00 x80 x3f)
(L (W xff xff xff xff xff xff xff xff)) E)
(L (W xb4 x00 x00 x00 x14 x00 x00 x00))))
(T (W x00 x00 x80 x3f x00 x00 x80 x3f)
(T (W x6a x01 x00 x00 xff xff xff xff)
(T (W x00 x00 x80 x3f x00 x00 x80 x3f)
(L (W xbc x00 x00 x00 x64 x00 x00 x00)) E)
(L (W x00 x00 x80 xbf x00 x00 x80 xbf)))
(T (W xff xff xff xff xff xff xff xff)
(L (W xff xff xff xff xa0 x00 x00 x00))
(L (W x00 x00 x00 x00 x12 x00 x00 x00)))))
(T (W xff xff xff xff x04 x00 x00 x00)
(T (W x00 x00 x80 x3f x00 x00 x80 x3f)
(T (W xff xff xff xff xff xff xff xff)
(T (W x18 x01 x00 x00 x04 x00 x00 x00)
(L (W x00 x00 x80 xbf x00 x00 x80 xbf)) E)
(L (W x4f x84 x6f x8b xe8 xcb x63 xb7)))
(T (W x5f x4e x53 x5f x30 x35 x5f x43)
(T (W x00 x00 x80 xbf x00 x00 x80 xbf)
(L (W x00 x00 x00 x00 x00 x00 x00 x00)) E)
(L (W x00 x00 x00 x00 x00 x00 x00 x00))))
(T (W x00 x00 x00 x00 x00 x00 x00 x00)
(T (W x00 x00 x80 x3f x00 x00 x80 x3f)
(T (W x00 x00 x80 xbf x00 x00 x80 xbf)
(L (W x00 x00 x00 x00 x42 xad xff xff)) E)
(L (W xc4 x00 x00 x00 x02 x00 x00 x00)))
(T (W x50 x00 x00 x00 x44 x00 x00 x00)
(L (W xff xff xff xff xff xff xff xff))
(L (W x64 x28 xff xff x00 x01 x01 x01))))))
(T (W xff xff xff xff xff xff xff xff)
(T (W xff xff xff xff xff xff xff xff)
(T (W x00 x00 x80 x3f x00 x00 x80 x3f)
(T (W xff xff xff xff xff xff xff xff)
(T (W x00 x00 x00 x00 x00 x00 x00 x00)
(L (W x00 x00 x00 x00 x00 x00 x00 x00)) E)
(L (W x30 x35 x5f x43 x4c x45 x41 x52)))
(T (W x45 x26 x22 x84 xe4 x9c xf2 xcb)
(T (W x00 x00 x01 x01 x2a x00 x00 x00)
(L (W xff xff xff xff xff xff xff xff)) E)
(L (W x00 x00 x00 x00 x00 x00 x00 x00))))
(T (W x00 x00 x00 x00 x00 x00 x00 x00)
(T (W x00 x00 x00 x00 x00 x00 x00 x00)
(T (W x00 x00 x00 x00 x00 x00 x00 x00)
(L (W x00 x00 x00 x00 x00 x00 x00 x00)) E)
(L (W x03 x00 x00 x00 xd8 x00 x00 x00)))
(T (W x00 x00 x00 x00 x00 x00 x00 x00)
(L (W xff xff xff xff xff xff xff xff))
(L (W x6c x00 x00 x00 x60 x00 x00 x00)))))
(T (W xff xff xff xff xff xff xff xff)
(T (W x50 x00 x00 x00 x44 x00 x00 x00)
(T (W x45 x26 x22 x84 xe4 x9c xf2 xcb)
(T (W x00 x00 x80 x3f x00 x00 x80 x3f)
(L (W x68 x00 x00 x00 x5c x00 x00 x00)) E)
(L (W x4f x84 x6f x8b xe8 xcb x63 xb7)))
(T (W x82 xf3 xfc xff x74 x00 x00 x00)
(T (W x00 x00 x80 xbf x00 x00 x80 xbf)
(L (W xff xff xff xff xff xff xff xff)) E)
(L (W x00 x00 x00 x00 x00 x00 x00 x00))))
(T (W x00 x00 x00 x00 x00 x00 x00 x00)
(T (W xff xff xff xff xff xff xff xff)
(T (W xff xff xff xff xff xff xff xff)
(L (W xff xff xff xff xff xff xff xff)) E)
(L (W x54 x00 x00 x00 x48 x00 x00 x00)))
(T (W x68 x00 x00 x00 x5c x00 x00 x00)
(L (W x49 xa1 x68 x4a xeb x5f xdd x3d))
(L (W xbc x00 x00 x00 x02 x00 x00 x00)))))))
(T (W xff xff xff xff xff xff xff xff)
(T (W xf6 x01 x00 x00 xff xff xff xff)
(T (W xb5 x01 x00 x00 xff xff xff xff)
(T (W x82 xcb xfb xff x74 x00 x00 x00)
(T (W x00 x00 x00 x00 x02 x00 x00 x00)
(T (W x00 x00 x80 x3f x00 x00 x80 x3f)
(L (W xff xff xff xff xff xff xff xff)) E)
(L (W x00 x00 x00 x00 x00 x00 x00 x00)))
(T (W x00 x00 x80 x3f x00 x00 x80 x3f)
(T (W xff xff xff xff xff xff xff xff)
(L (W xff xff xff xff xff xff xff xff)) E)
(L (W xff xff xff xff xff xff xff xff))))
(T (W x00 x00 x00 x00 x00 x00 x00 x00)
(T (W x29 x00 x00 x00 x0c x00 x00 x00)
(T (W x82 x8b xfd xff x74 x00 x00 x00)
(L (W xff xff xff xff xff xff xff xff)) E)
(L (W x82 x8b xfe xff x74 x00 x00 x00)))
(T (W x00 x00 x00 x00 x00 x00 x00 x00)
(L (W xff xff xff xff xff xff xff xff))
(L (W x45 x26 x22 x84 xe4 x9c xf2 xcb)))))
(T (W x18 x00 x00 x00 x0c x00 x00 x00)
(T (W x00 x00 x80 x3f x00 x00 x80 x3f)
(T (W xff xff xff xff xff xff xff xff)
(T (W xff xff xff xff xff xff xff xff)
(L (W x3a x6d xff xff x78 x00 x00 x00)) E)
(L (W x00 x00 x00 x00 x00 x00 x00 x00)))
(T (W x00 x00 x80 x3f x00 x00 x80 x3f)
(T (W x00 x00 x80 xbf x00 x00 x80 xbf)
(L (W x00 x00 x00 x00 x68 xf0 xff xff)) E)
(L (W x00 x00 x00 x00 x00 x00 x00 x00))))
(T (W x00 x00 x00 x00 x00 x00 x00 x00)
(T (W x82 xab xfc xff x74 x00 x00 x00)
(T (W xff xff xff xff xff xff xff xff)
(L (W xff xff xff xff xff xff xff xff)) E)
(L (W x54 x00 x00 x00 x48 x00 x00 x00)))
(T (W x01 x00 x00 x00 x9c x00 x00 x00)
(L (W x00 x00 x00 x00 x00 x00 x00 x00))
(L (W xff xff xff xff xa0 x00 x00 x00))))))
(T (W xff xff xff xff xff xff xff xff)
(T (W xff xff xff xff xff xff xff xff)
(T (W x00 x00 x80 x3f x00 x00 x80 x3f)
(T (W xff xff xff xff xff xff xff xff)
(T (W x00 x00 x00 x00 x00 x00 x00 x00)
(L (W x00 x00 x80 xbf x00 x00 x80 xbf)) E)
(L (W x00 x00 x00 x00 x00 x00 x00 x00)))
(T (W xff xff xff xff xff xff xff xff)
(T (W x30 x35 x5f x43 x4c x45 x41 x52)
(L (W xff xff xff xff xff xff xff xff)) E)
(L (W x00 x00 x00 x00 x00 x00 x00 x00))))
(T (W x00 x00 x00 x00 x00 x00 x00 x00)
(T (W x45 x26 x22 x84 xe4 x9c xf2 xcb)
(T (W x00 x00 x00 x00 x01 x00 x00 x00)
(L (W x00 x00 x01 x01 xbb x01 x00 x00)) E)
(L (W xff xff xff xff xff xff xff xff)))
(T (W x00 x00 x80 x3f x00 x00 x80 x3f)
(L (W xff xff xff xff xff xff xff xff))
(L (W x6c x00 x00 x00 x60 x00 x00 x00)))))
(T (W x18 x00 x00 x00 x10 x00 x00 x00)
(T (W x00 x00 x80 x3f x00 x00 x80 x3f)
(T (W xff xff xff xff xff xff xff xff)
(T (W x00 x00 x80 x3f x00 x00 x80 x3f)
(L (W x3a x7d xff xff x78 x00 x00 x00)) E)
(L (W x00 x00 x80 xbf x00 x00 x80 xbf)))
(T (W x45 x26 x22 x84 xe4 x9c xf2 xcb)
(T (W x00 x00 x80 xbf x00 x00 x80 xbf)
(L (W x4f x84 x6f x8b xe8 xcb x63 xb7)) E)
(L (W x00 x00 x00 x00 x00 x00 x00 x00))))
(T (W xfc x46 xfc xff x16 x00 x00 x00)
(T (W xff xff xff xff xff xff xff xff)
(T (W x6c x00 x00 x00 x60 x00 x00 x00)
(L (W xb0 x00 x00 x00 x14 x00 x00 x00)) E)
(L (W x3a xbd xfe xff x78 x00 x00 x00)))
(T (W x82 x3b xfd xff x74 x00 x00 x00)
(L (W x00 x00 x00 x00 x00 x00 x00 x00))
(L (W xb4 x00 x00 x00 x14 x00 x00 x00))))))))
(T (W x00 x00 x80 x3f x00 x00 x80 x3f)
(T (W x45 x26 x22 x84 xe4 x9c xf2 xcb)
(T (W x45 x26 x22 x84 xe4 x9c xf2 xcb)
(T (W x45 x26 x22 x84 xe4 x9c xf2 xcb)
(T (W x00 x00 x00 x00 x00 x00 x00 x00)
(T (W x00 x00 x80 x3f x00 x00 x80 x3f)
(T (W xff xff xff xff xff xff xff xff)
(L (W x00 x00 x00 x00 x00 x00 x00 x00)) E)
(L (W xcc x00 x00 x00 x01 x00 x00 x00)))
(T (W xff xff xff xff xbc x00 x00 x00)
(T (W x67 x72 x6f x75 x70 x5f x6c x65)
(L (W x54 x00 x00 x00 x48 x00 x00 x00)) E)
(L (W x00 x00 x00 x00 x00 x00 x00 x00))))
(T (W xff xff xff xff xff xff xff xff)
(T (W x00 x00 x80 x3f x00 x00 x80 x3f)
(T (W x00 x00 x00 x00 x00 x00 x00 x00)
(L (W x12 x00 x00 x00 x46 x53 x59 x53)) E)
(L (W x06 x00 x00 x00 xc4 x05 x00 x00)))
(T (W x00 x00 x80 x3f x00 x00 x80 x3f)
(L (W x00 x00 x00 x00 x00 x00 x00 x00))
(L (W xff xff xff xff xff xff xff xff)))))
(T (W x00 x00 x80 x3f x00 x00 x80 x3f)
(T (W x1c x01 x00 x00 x04 x00 x00 x00)
(T (W x00 x00 x80 x3f x00 x00 x80 x3f)
(T (W x00 x00 x80 x3f x00 x00 x80 x3f)
(L (W xff xff xff xff xff xff xff xff)) E)
(L (W xff xff xff xff xff xff xff xff)))
(T (W x03 x00 x00 x00 xcc x00 x00 x00)
(T (W xff xff xff xff xff xff xff xff)
(L (W xff xff xff xff xff xff xff xff)) E)
(L (W xff xff xff xff xff xff xff xff))))
(T (W xbc x00 x00 x00 xb0 x00 x00 x00)
(T (W x16 xca x33 xe6 x8d xc4 x48 xff)
(T (W x00 x00 x00 x00 x00 x00 x00 x00)
(L (W xff xff xff xff xff xff xff xff)) E)
(L (W x00 x00 x80 xbf x00 x00 x80 xbf)))
(T (W x5f x4e x53 x5f x30 x35 x5f x43)
(L (W x44 x00 x00 x00 x00 x00 x80 xbf))
(L (W xcc x2f xff xff x18 x00 x00 x00))))))
(T (W x54 x00 x00 x00 x48 x00 x00 x00)
(T (W x45 x26 x22 x84 xe4 x9c xf2 xcb)
(T (W x24 x00 x00 x00 x10 x00 x00 x00)
(T (W x68 x00 x00 x00 x5c x00 x00 x00)
(T (W x00 x00 x00 x00 xd4 x5a xfd xff)
(L (W xb4 x00 x00 x00 x14 x00 x00 x00)) E)
(L (W xc4 x00 x00 x00 x01 x00 x00 x00)))
(T (W x00 x00 x00 x00 x00 x00 x00 x00)
(T (W x00 x00 x80 x3f x00 x00 x80 xbf)
(L (W x00 x00 x80 xbf x00 x00 x80 xbf)) E)
(L (W x00 x00 x80 xbf x00 x00 x80 xbf))))
(T (W xff xff xff xff xff xff xff xff)
(T (W xff xff xff xff xff xff xff xff)
(T (W x04 x00 x00 x00 xca xa2 xfd xff)
(L (W x54 x00 x00 x00 x48 x00 x00 x00)) E)
(L (W x00 x00 x00 x00 x00 x00 x00 x00)))
(T (W xff xff xff xff xbc x00 x00 x00)
(L (W x3a x19 xfe xff x78 x00 x00 x00))
(L (W x20 x00 x00 x00 x0c x00 x00 x00)))))
(T (W x00 x00 x00 x00 x00 x00 x00 x00)
(T (W xff xff xff xff xff xff xff xff)
(T (W x00 x00 x00 x00 x00 x00 x00 x00)
(T (W xff xff xff xff xff xff xff xff)
(L (W x00 x00 x00 x00 x42 x81 xff xff)) E)
(L (W xff xff xff xff xff xff xff xff)))
(T (W x13 x00 x00 x00 x10 x00 x00 x00)
(T (W xff xff xff xff xff xff xff xff)
(L (W x00 x00 x00 x00 x00 x00 x00 x00)) E)
(L (W x18 x00 x00 x00 x0c x00 x00 x00))))
(T (W x50 x00 x00 x00 x44 x00 x00 x00)
(T (W x00 x00 x00 x00 x00 x00 x00 x00)
(T (W xff xff xff xff xff xff xff xff)
(L (W x00 x00 x00 x00 x00 x00 x00 x00)) E)
(L (W x46 x53 x59 x53 x5f x4e x53 x5f)))
(T (W x00 x00 x00 x00 x00 x00 x00 x00)
(L (W xff xff xff xff xff xff xff xff))
(L (W x00 x00 x00 x00 x00 x00 x00 x00)))))))
(T (W x00 x00 x80 x3f x00 x00 x80 x3f)
(T (W x00 x00 x80 x3f x00 x00 x80 x3f)
(T (W x00 x00 x00 x00 x00 x00 x00 x00)
(T (W x00 x00 x00 x00 x00 x00 x00 x00)
(T (W x50 x00 x00 x00 x44 x00 x00 x00)
(T (W xff xff xff xff xff xff xff xff)
(L (W x3a x51 xff xff x78 x00 x00 x00)) E)
(L (W xff xff xff xff xff xff xff xff)))
(T (W x00 x00 x00 x00 x01 x00 x00 x00)
(T (W x49 xa1 x68 x4a xeb x5f xdd x3d)
(L (W x1c x00 x00 x00 x10 x00 x00 x00)) E)
(L (W x00 x00 x80 xbf x00 x00 x80 xbf))))
(T (W xff xff xff xff xff xff xff xff)
(T (W x00 x00 x00 x00 xd4 x92 xfc xff)
(T (W x00 x00 x00 x00 xd4 x92 xfd xff)
(L (W x45 x26 x22 x84 xe4 x9c xf2 xcb)) E)
(L (W x00 x00 x00 x00 x00 x00 x00 x00)))
(T (W xff xff xff xff xac x00 x00 x00)
(L (W x45 x26 x22 x84 xe4 x9c xf2 xcb))
(L (W xff xff xff xff xff xff xff xff)))))
(T (W x00 x00 x00 x00 x00 x00 x00 x00)
(T (W xff xff xff xff xff xff xff xff)
(T (W x3a x71 xfc xff x78 x00 x00 x00)
(T (W x00 x00 x80 x3f x00 x00 x80 x3f)
(L (W x30 x00 x00 x00 x0c x00 x00 x00)) E)
(L (W xb0 x00 x00 x00 x64 x00 x00 x00)))
(T (W xff xff xff xff x02 x00 x00 x00)
(T (W x00 x00 x01 x01 x6c x00 x00 x00)
(L (W x00 x00 x00 x00 x4a xf5 xff xff)) E)
(L (W xff xff xff xff xff xff xff xff))))
(T (W x64 x34 xfc xff x00 x01 x01 x01)
(T (W x00 x00 x00 x00 x00 x00 x00 x00)
(T (W xff xff xff xff xb0 x00 x00 x00)
(L (W x00 x00 x00 x00 x00 x00 x00 x00)) E)
(L (W x00 x00 x00 x00 x00 x00 x00 x00)))
(T (W x00 x00 x00 x00 x00 x00 x00 x00)
(L (W xb0 x00 x00 x00 x14 x00 x00 x00))
(L (W x00 x00 x00 x00 x12 x00 x00 x00))))))
(T (W x00 x00 x80 x3f x00 x00 x80 x3f)
(T (W x45 x26 x22 x84 xe4 x9c xf2 xcb)
(T (W x00 x00 x00 x00 x9a x77 xff xff)
(T (W x00 x00 x80 x3f x00 x00 x80 x3f)
(T (W x82 x5f xfd xff x74 x00 x00 x00)
(L (W xff xff xff xff xff xff xff xff)) E)
(L (W xff xff xff xff xb0 x00 x00 x00)))
(T (W x50 x00 x00 x00 x44 x00 x00 x00)
(T (W x03 x00 x00 x00 xd0 x00 x00 x00)
(L (W x00 x00 x00 x00 x68 xe4 xff xff)) E)
(L (W x45 x26 x22 x84 xe4 x9c xf2 xcb))))
(T (W x64 x00 x00 x00 x9c x00 x00 x00)
(T (W xff xff xff xff xff xff xff xff)
(T (W x03 x00 x00 x00 xbc x00 x00 x00)
(L (W x00 x00 x00 x00 xd4 xa2 xff xff)) E)
(L (W x00 x00 x00 x00 x12 x00 x00 x00)))
(T (W x02 x00 x00 x00 xff xff xff xff)
(L (W x6c x00 x00 x00 x60 x00 x00 x00))
(L (W x30 x35 x5f x43 x4c x45 x41 x52)))))
(T (W x00 x00 x00 x00 x00 x00 x00 x00)
(T (W xff xff xff xff xff xff xff xff)
(T (W x00 x00 x80 x3f x00 x00 x80 x3f)
(T (W x00 x00 x00 x00 x02 x00 x00 x00)
(L (W x00 x00 x00 x00 x00 x00 x00 x00)) E)
(L (W xff xff xff xff xff xff xff xff)))
(T (W x00 x00 x00 x00 x00 x00 x00 x00)
(T (W x00 x00 x00 x00 x02 x00 x00 x00)
(L (W xbf x01 x00 x00 xff xff xff xff)) E)
(L (W xbc x00 x00 x00 x64 x00 x00 x00))))
(T (W x00 x00 x80 x3f x00 x00 x80 x3f)
(T (W x00 x00 x80 x3f x00 x00 x80 x3f)
(T (W x00 x00 x00 x00 x00 x00 x00 x00)
(L (W x00 x00 x80 xbf x00 x00 x80 xbf)) E)
(L (W x00 x00 x00 x00 x00 x00 x00 x00)))
(T (W x18 x01 x00 x00 x04 x00 x00 x00)
(L (W x18 x00 x00 x00 x10 x00 x00 x00))
(L (W x00 x00 x00 x00 x00 x00 x00 x00))))))))))))))
(T (W xb0 x9c x04 x00 x54 x9a x04 x00)
(T (W xc0 x5d x04 x00 xd4 x4f x04 x00)
(T (W x48 x0c x04 x00 x84 x07 x04 x00)
(T (W xb0 x4d x03 x00 xb4 x46 x03 x00)
(T (W x70 x4b x02 x00 x2c x49 x02 x00)
(T (W xe8 x00 x01 x00 x9c xfe x00 x00)
(T (W x00 x00 x00 x00 x00 x00 x00 x00)
(T (W x00 x00 x00 x00 x00 x00 x00 x00)
(T (W x45 x26 x22 x84 xe4 x9c xf2 xcb)
(T (W x00 x00 x00 x00 x00 x00 x00 x00)
(T (W xff xff xff xff xff xff xff xff)
(T (W x00 x00 x00 x00 x00 x00 x00 x00)
(T (W xff xff xff xff xff xff xff xff)
(L (W x00 x00 x00 x00 x00 x00 x00 x00)) E)
(L (W x00 x00 x80 xbf x00 x00 x80 xbf)))
(T (W x45 x26 x22 x84 xe4 x9c xf2 xcb)
(T (W xff xff xff xff xff xff xff xff)
(L (W x00 x00 x00 x00 x00 x00 x00 x00)) E)
(L (W x94 x04 x00 x00 x80 x03 x00 x00))))
(T (W xb2 xff xfb xff x74 x00 x00 x00)
(T (W x00 x00 x00 x00 x00 x00 x00 x00)
(T (W xff xff xff xff xff xff xff xff)
(L (W xff xff xff xff xff xff xff xff)) E)
(L (W xb0 x00 x00 x00 x64 x00 x00 x00)))
(T (W x00 x00 x00 x00 x00 x00 x00 x00)
(T (W xff xff xff xff xff xff xff xff)
(L (W xff xff xff xff xff xff xff xff)) E)
(L (W x6a x01 xff xff x78 x00 x00 x00)))))
(T (W x00 x00 x00 x00 x00 x00 x00 x00)
(T (W xff xff xff xff xff xff xff xff)
(T (W x00 x00 x00 x00 x00 x00 x00 x00)
(T (W x00 x00 x80 x3f x00 x00 x80 x3f)
(L (W x45 x26 x22 x84 xe4 x9c xf2 xcb)) E)
(L (W x6c x00 x00 x00 x60 x00 x00 x00)))
(T (W x00 x00 x80 x3f x00 x00 x80 x3f)
(T (W x6a xe1 xfd xff x78 x00 x00 x00)
(L (W x00 x00 x80 xbf x00 x00 x80 xbf)) E)
(L (W x00 x00 x80 xbf x00 x00 x80 xbf))))
(T (W x50 x00 x00 x00 x44 x00 x00 x00)
(T (W xb0 x00 x00 x00 x64 x00 x00 x00)
(T (W xb2 x9f xfd xff x74 x00 x00 x00)
(L (W x00 x00 x80 xbf x00 x00 x80 xbf)) E)
(L (W x00 x00 x00 x00 x8a xbf xfe xff)))
(T (W xff xff xff xff xff xff xff xff)
(L (W x00 x00 x80 xbf x00 x00 x80 xbf))
(L (W xff xff xff xff xff xff xff xff))))))
(T (W x45 x26 x22 x84 xe4 x9c xf2 xcb)
(T (W x00 x00 x00 x00 x00 x00 x00 x00)
(T (W xff xff xff xff xff xff xff xff)
(T (W x00 x00 x80 x3f x00 x00 x80 x3f)
(T (W x45 x26 x22 x84 xe4 x9c xf2 xcb)
(L (W x00 x00 x80 xbf x00 x00 x80 xbf)) E)
(L (W x14 x00 x00 x00 x0c x00 x00 x00)))
(T (W xff xff xff xff xff xff xff xff)
(T (W x12 x00 x00 x00 x46 x53 x59 x53)
(L (W x3c x00 x00 x00 x00 x00 x80 xbf)) E)
(L (W x45 x26 x22 x84 xe4 x9c xf2 xcb))))
(T (W x18 x00 x00 x00 x10 x00 x00 x00)
(T (W x00 x00 x80 x3f x00 x00 x80 x3f)
(T (W x00 x00 x80 x3f x00 x00 x80 x3f)
(L (W x00 x00 x00 x00 x00 x00 x00 x00)) E)
(L (W x00 x00 x00 x00 x00 x00 x00 x00)))
(T (W x50 x00 x00 x00 x44 x00 x00 x00)
(L (W x00 x00 x00 x00 x00 x00 x00 x00))
(L (W xff xff xff xff xc4 x00 x00 x00)))))
(T (W x04 x4f xdd x29 xdd x42 xad xcf)
(T (W xff xff xff xff x04 x00 x00 x00)
(T (W x00 x00 x80 x3f x00 x00 x80 x3f)
(T (W x00 x00 x00 x00 x00 x00 x00 x00)
(L (W xff xff xff xff xff xff xff xff)) E)
(L (W x68 x00 x00 x00 x5c x00 x00 x00)))
(T (W xff xff xff xff xff xff xff xff)
(T (W xff xff xff xff xff xff xff xff)
(L (W xff xff xff xff xff xff xff xff)) E)
(L (W x00 x00 x00 x00 x04 xf3 xfe xff))))
(T (W x00 x00 x80 x3f x00 x00 x80 x3f)
(T (W x45 x44 x00 x00 x00 x00 x00 x00)
(T (W x54 x00 x00 x00 x48 x00 x00 x00)
(L (W x00 x00 x00 x00 x00 x00 x00 x00)) E)
(L (W xff xff xff xff xff xff xff xff)))
(T (W x6a xa2 xff xff x00 x00 x01 x01)
(L (W x68 x00 x00 x00 x5c x00 x00 x00))
(L (W x00 x00 x00 x00 x9a x30 xff xff)))))))
(T (W x00 x00 x00 x00 x00 x00 x00 x00)
(T (W x00 x00 x00 x00 x00 x00 x00 x00)
(T (W x00 x00 x00 x00 x00 x00 x00 x00)
(T (W xff xff xff xff xff xff xff xff)
(T (W x45 x26 x22 x84 xe4 x9c xf2 xcb)
(T (W x18 x00 x00 x00 x10 x00 x00 x00)
(L (W x00 x00 x00 x00 x00 x00 x00 x00)) E)
(L (W x6a x49 xfe xff x78 x00 x00 x00)))
(T (W xb2 xc7 xfc xff x74 x00 x00 x00)
(T (W xff xff xff xff xff xff xff xff)
(L (W x00 x00 x80 xbf x00 x00 x80 xbf)) E)
(L (W x00 x00 x00 x00 x00 x00 x00 x00))))
(T (W x45 x26 x22 x84 xe4 x9c xf2 xcb)
(T (W x49 xa1 x68 x4a xeb x5f xdd x3d)
(T (W xff xff xff xff xff xff xff xff)
(L (W x1a xdf xff xff xd7 x00 x00 x00)) E)
(L (W xff xff xff xff xff xff xff xff)))
(T (W x45 x26 x22 x84 xe4 x9c xf2 xcb)
(L (W x45 x44 x00 x00 x00 x00 x00 x00))
(L (W x2f x00 x00 x00 x32 x00 x00 x00)))))
(T (W x00 x00 x00 x00 x00 x00 x00 x00)
(T (W xff xff xff xff xff xff xff xff)
(T (W x00 x00 x00 x00 x00 x00 x00 x00)
(T (W x00 x00 x00 x00 x00 x00 x00 x00)
(L (W xb8 x00 x00 x00 x64 x00 x00 x00)) E)
(L (W xc4 x00 x00 x00 x01 x00 x00 x00)))
(T (W xb2 xe7 xfc xff x74 x00 x00 x00)
(T (W xb4 x00 x00 x00 x64 x00 x00 x00)
(L (W xb0 x00 x00 x00 x64 x00 x00 x00)) E)
(L (W x45 x26 x22 x84 xe4 x9c xf2 xcb))))
(T (W x6c x00 x00 x00 x60 x00 x00 x00)
(T (W xff xff xff xff xff xff xff xff)
(T (W x00 x00 x00 x00 x00 x00 x00 x00)
(L (W xff xff xff xff xff xff xff xff)) E)
(L (W x00 x00 x00 x00 x00 x00 x00 x00)))
(T (W xff xff xff xff x02 x00 x00 x00)
(L (W x49 xa1 x68 x4a xeb x5f xdd x3d))
(L (W x54 x02 x00 x00 x38 x01 x00 x00))))))
(T (W x00 x00 x80 x3f x00 x00 x80 x3f)
(T (W x00 x00 x00 x00 x00 x00 x00 x00)
(T (W x64 x01 x00 x00 xff xff xff xff)
(T (W x00 x00 x80 x3f x00 x00 x80 x3f)
(T (W x00 x00 x80 x3f x00 x00 x80 x3f)
(L (W x6c x00 x00 x00 x60 x00 x00 x00)) E)
(L (W x6c x00 x00 x00 x60 x00 x00 x00)))
(T (W x00 x00 x00 x00 x00 x00 x00 x00)
(T (W x45 x26 x22 x84 xe4 x9c xf2 xcb)
(L (W x00 x00 x00 x00 x00 x00 x00 x00)) E)
(L (W x49 xa1 x68 x4a xeb x5f xdd x3d))))
(T (W x40 x00 x00 x00 x9c x00 x00 x00)
(T (W xff xff xff xff xb0 x00 x00 x00)
(T (W xff xff xff xff xff xff xff xff)
(L (W x00 x00 x80 xbf x00 x00 x80 xbf)) E)
(L (W xfc x9f xfe xff x0b x00 x00 x00)))
(T (W xb2 x17 xfd xff x74 x00 x00 x00)
(L (W x00 x00 x80 xbf x00 x00 x80 xbf))
(L (W x00 x00 x01 x01 x64 x01 x00 x00)))))
(T (W xde x01 x00 x00 xff xff xff xff)
(T (W x18 x00 x00 x00 x0c x00 x00 x00)
(T (W x00 x00 x00 x00 x00 x00 x00 x00)
(T (W xb8 x00 x00 x00 xac x00 x00 x00)
(L (W xff xff xff xff xff xff xff xff)) E)
(L (W xff xff xff xff xff xff xff xff)))
(T (W x9d x01 x00 x00 xff xff xff xff)
(T (W x45 x26 x22 x84 xe4 x9c xf2 xcb)
(L (W x00 x00 x00 x00 x0c x00 x18 x00)) E)
(L (W x00 x00 x80 xbf x00 x00 x80 xbf))))
(T (W x00 x00 x80 x3f x00 x00 x80 x3f)
(T (W x00 x00 x00 x00 x00 x00 x00 x00)
(T (W xff xff xff xff xff xff xff xff)
(L (W x04 x00 x00 x00 x80 x03 x00 x00)) E)
(L (W x64 x01 x00 x00 xff xff xff xff)))
(T (W xff xff xff xff xff xff xff xff)
(L (W xff xff xff xff xa8 x00 x00 x00))
(L (W x94 x04 x00 x00 x80 x03 x00 x00))))))))
(T (W xff xff xff xff xff xff xff xff)
(T (W xff xff xff xff xff xff xff xff)
(T (W xff xff xff xff xff xff xff xff)
(T (W xff xff xff xff xff xff xff xff)
(T (W x54 x00 x00 x00 x48 x00 x00 x00)
(T (W xff xff xff xff xff xff xff xff)
(T (W x00 x00 x00 x00 x00 x00 x00 x00)
(L (W x6c x00 x00 x00 x60 x00 x00 x00)) E)
(L (W x00 x00 x00 x00 x8a x63 xfe xff)))
(T (W x6a x01 x00 x00 xff xff xff xff)
(T (W x49 xa1 x68 x4a xeb x5f xdd x3d)
(L (W x18 x00 x00 x00 x0c x00 x00 x00)) E)
(L (W x6c x00 x00 x00 x60 x00 x00 x00))))
(T (W x00 x00 x00 x00 x00 x00 x00 x00)
(T (W xff xff xff xff xff xff xff xff)
(T (W x00 x00 x00 x00 x00 x00 x00 x00)
(L (W x6a x85 xff xff x78 x00 x00 x00)) E)
(L (W x49 xa1 x68 x4a xeb x5f xdd x3d)))
(T (W xff xff xff xff xac x00 x00 x00)
(L (W x54 x00 x00 x00 x48 x00 x00 x00))
(L (W x00 x00 x00 x00 x9a x04 xff xff)))))
(T (W xb2 xa3 xfb xff x74 x00 x00 x00)
(T (W x45 x26 x22 x84 xe4 x9c xf2 xcb)
(T (W x00 x00 x00 x00 x04 x67 xfc xff)
(T (W xff xff xff xff xff xff xff xff)
(L (W x45 x26 x22 x84 xe4 x9c xf2 xcb)) E)
(L (W x46 x53 x59 x53 x5f x4e x53 x5f)))
(T (W xff xff xff xff x02 x00 x00 x00)
(T (W x00 x00 x00 x00 x00 x00 x00 x00)
(L (W x00 x00 x00 x00 x00 x00 x00 x00)) E)
(L (W x00 x00 x00 x00 x00 x00 x00 x00))))
(T (W xff xff xff xff xff xff xff xff)
(T (W x4f x84 x6f x8b xe8 xcb x63 xb7)
(T (W x00 x00 x00 x00 x00 x00 x00 x00)
(L (W xff xff xff xff xff xff xff xff)) E)
(L (W x6c x00 x00 x00 x60 x00 x00 x00)))
(T (W x00 x00 x80 x3f x00 x00 x80 x3f)
(L (W x3b x00 x00 x00 x3e x00 x00 x00))
(L (W x00 x00 x80 xbf x00 x00 x80 xbf))))))
(T (W xb8 x00 x00 x00 xac x00 x00 x00)
(T (W x18 x00 x00 x00 x10 x00 x00 x00)
(T (W x45 x26 x22 x84 xe4 x9c xf2 xcb)
(T (W xff xff xff xff xff xff xff xff)
(T (W xe6 x99 x30 x97 x85 x1e x5c x5f)
(L (W x94 x04 x00 x00 x80 x03 x00 x00)) E)
(L (W xff xff xff xff xff xff xff xff)))
(T (W x00 x00 x80 x3f x00 x00 x80 x3f)
(T (W xff xff xff xff xff xff xff xff)
(L (W x03 x00 x00 x00 xd8 x00 x00 x00)) E)
(L (W xff xff xff xff xff xff xff xff))))
(T (W x3e x00 x00 x00 x0c x00 x00 x00)
(T (W x30 x35 x5f x43 x4c x45 x41 x52)
(T (W x00 x00 x00 x00 x00 x00 x00 x00)
(L (W xff xff xff xff xff xff xff xff)) E)
(L (W x94 x98 xfe xff x00 x01 x01 x01)))
(T (W x00 x00 x00 x00 x04 x00 x00 x00)
(L (W xff xff xff xff xbc x00 x00 x00))
(L (W x00 x00 x80 xbf x00 x00 x80 xbf)))))
(T (W x18 x00 x00 x00 x0c x00 x00 x00)
(T (W x00 x00 x80 x3f x00 x00 x80 x3f)
(T (W x00 x00 x80 x3f x00 x00 x80 x3f)
(T (W x00 x00 x00 x00 x00 x00 x00 x00)
(L (W x00 x00 x80 xbf x00 x00 x80 xbf)) E)
(L (W x46 x53 x59 x53 x5f x4e x53 x5f)))
(T (W x00 x00 x80 x3f x00 x00 x80 x3f)
(T (W x00 x00 x00 x00 x00 x00 x00 x00)
(L (W x45 x26 x22 x84 xe4 x9c xf2 xcb)) E)
(L (W x00 x00 x00 x00 x00 x00 x00 x00))))
(T (W xb2 xc8 xff xff x5e x00 x00 x00)
(T (W x18 x00 x00 x00 x0c x00 x00 x00)
(T (W xff xff xff xff xa0 x00 x00 x00)
(L (W x00 x00 x00 x00 x98 xb8 xff xff)) E)
(L (W x00 x00 x80 xbf x00 x00 x80 xbf)))
(T (W x00 x00 x80 x3f x00 x00 x80 x3f)
(L (W x00 x00 x00 x00 x12 x00 x00 x00))
(L (W x6c x00 x00 x00 x60 x00 x00 x00)))))))
(T (W xff xff xff xff xff xff xff xff)
(T (W xff xff xff xff xff xff xff xff)
(T (W xff xff xff xff xff xff xff xff)
(T (W x00 x00 x80 x3f x00 x00 x80 x3f)
(T (W xff xff xff xff xff xff xff xff)
(T (W x00 x00 x00 x00 x00 x00 x00 x00)
(L (W xb8 x00 x00 x00 x64 x00 x00 x00)) E)
(L (W x00 x00 x01 x01 xc8 x00 x00 x00)))
(T (W x00 x00 x00 x00 x00 x00 x00 x00)
(T (W x45 x26 x22 x84 xe4 x9c xf2 xcb)
(L (W xff xff xff xff xff xff xff xff)) E)
(L (W x18 x00 x00 x00 x0c x00 x00 x00))))
(T (W x00 x00 x00 x00 x00 x00 x00 x00)
(T (W xff xff xff xff xff xff xff xff)
(T (W x00 x00 x80 x3f x00 x00 x80 x3f)
(L (W x94 x90 xff xff x00 x01 x01 x01)) E)
(L (W x00 x00 x80 xbf x00 x00 x80 xbf)))
(T (W xff xff xff xff xff xff xff xff)
(L (W x94 x10 xfe xff x00 x01 x01 x01))
(L (W x00 x00 x00 x00 x00 x00 x00 x00)))))
(T (W x00 x00 x80 x3f x00 x00 x80 x3f)
(T (W x45 x26 x22 x84 xe4 x9c xf2 xcb)
(T (W x0a x00 x00 x00 x3e x00 x00 x00)
(T (W x18 x00 x00 x00 x10 x00 x00 x00)
(L (W x00 x00 x80 xbf x00 x00 x80 xbf)) E)
(L (W x00 x00 x00 x00 x00 x00 x00 x00)))
(T (W x00 x00 x00 x00 x00 x00 x00 x00)
(T (W x00 x00 x00 x00 x00 x00 x00 x00)
(L (W x00 x00 x80 xbf x00 x00 x80 xbf)) E)
(L (W x00 x00 x00 x00 x00 x00 x00 x00))))
(T (W x6c x00 x00 x00 xff xff xff xff)
(T (W x00 x00 x80 x3f x00 x00 x80 x3f)
(T (W xff xff xff xff xd8 x00 x00 x00)
(L (W x45 x26 x22 x84 xe4 x9c xf2 xcb)) E)
(L (W x00 x00 x80 xbf x00 x00 x80 xbf)))
(T (W x50 x00 x00 x00 x44 x00 x00 x00)
(L (W x04 x00 x00 x00 x80 x03 x00 x00))
(L (W x54 x00 x00 x00 x48 x00 x00 x00))))))
(T (W xff xff xff xff xff xff xff xff)
(T (W x01 x00 x00 x00 xa0 x00 x00 x00)
(T (W x00 x00 x00 x00 x00 x00 x00 x00)
(T (W x64 x00 x00 x00 x9c x00 x00 x00)
(T (W xff xff xff xff xff xff xff xff)
(L (W x00 x00 x00 x00 x00 x00 x00 x00)) E)
(L (W x00 x00 x00 x00 x00 x00 x00 x00)))
(T (W xff xff xff xff xbc x00 x00 x00)
(T (W xff xff xff xff xff xff xff xff)
(L (W xff xff xff xff xff xff xff xff)) E)
(L (W x00 x00 x01 x01 xa9 x01 x00 x00))))
(T (W x6a x8e xfe xff x00 x00 x01 x01)
(T (W x00 x00 x00 x00 x00 x00 x00 x00)
(T (W xff xff xff xff xff xff xff xff)
(L (W xff xff xff xff xff xff xff xff)) E)
(L (W x45 x26 x22 x84 xe4 x9c xf2 xcb)))
(T (W x00 x00 x00 x00 x00 x00 x00 x00)
(L (W xff xff xff xff xff xff xff xff))
(L (W x00 x00 x80 xbf x00 x00 x80 xbf)))))
(T (W x00 x00 x80 x3f x00 x00 x80 x3f)
(T (W x00 x00 x00 x00 x00 x00 x00 x00)
(T (W x45 x26 x22 x84 xe4 x9c xf2 xcb)
(T (W x00 x00 x00 x00 x00 x00 x00 x00)
(L (W x00 x00 x80 xbf x00 x00 x80 xbf)) E)
(L (W x00 x00 x00 x00 x00 x00 x00 x00)))
(T (W x00 x00 x80 x3f x00 x00 x80 x3f)
(T (W x00 x00 x00 x00 x00 x00 x00 x00)
(L (W x46 x53 x59 x53 x5f x4e x53 x5f)) E)
(L (W xff xff xff xff xff xff xff xff))))
(T (W x2a xd2 xff xff x00 x00 x01 x01)
(T (W xb0 x00 x00 x00 x64 x00 x00 x00)
(T (W x00 x00 x80 x3f x00 x00 x80 x3f)
(L (W x68 x00 x00 x00 x5c x00 x00 x00)) E)
(L (W x00 x00 x80 xbf x00 x00 x80 xbf)))
(T (W x00 x00 x80 x3f x00 x00 x80 x3f)
(L (W xfc x43 xfe xff x2d x00 x00 x00))
(L (W x6c x00 x00 x00 x60 x00 x00 x00)))))))))
(T (W xff xff xff xff xff xff xff xff)
(T (W x00 x00 x80 x3f x00 x00 x80 x3f)
(T (W x68 x00 x00 x00 x5c x00 x00 x00)
(T (W x68 x00 x00 x00 x5c x00 x00 x00)
(T (W x00 x00 x80 x3f x00 x00 x80 x3f)
(T (W x00 x00 x00 x00 x00 x00 x00 x00)
(T (W x94 x46 xfc xff x00 x01 x01 x01)
(T (W x75 x67 x2e x97 x85 x20 x59 x5f)
(L (W x00 x00 x80 xbf x00 x00 x80 xbf)) E)
(L (W xff xff xff xff xff xff xff xff)))
(T (W x45 x26 x22 x84 xe4 x9c xf2 xcb)
(T (W x30 x35 x5f x43 x4c x45 x41 x52)
(L (W x00 x00 x80 xbf x00 x00 x80 xbf)) E)
(L (W x00 x00 x80 xbf x00 x00 x80 xbf))))
(T (W xff xff xff xff xff xff xff xff)
(T (W x00 x00 x80 x3f x00 x00 x80 x3f)
(T (W x35 x00 x00 x00 x10 x00 x00 x00)
(L (W x00 x00 x00 x00 x00 x00 x00 x00)) E)
(L (W x30 x35 x5f x43 x4c x45 x41 x52)))
(T (W x00 x00 x80 x3f x00 x00 x80 x3f)
(L (W x00 x00 x00 x00 x00 x00 x00 x00))
(L (W xff xff xff xff xff xff xff xff)))))
(T (W x00 x00 x00 x00 x00 x00 x00 x00)
(T (W x00 x00 x00 x00 x00 x00 x00 x00)
(T (W x50 x00 x00 x00 x44 x00 x00 x00)
(T (W x45 x26 x22 x84 xe4 x9c xf2 xcb)
(L (W x04 x00 x00 x00 x62 x64 xff xff)) E)
(L (W xff xff xff xff xc4 x00 x00 x00)))
(T (W xff xff xff xff xc4 x00 x00 x00)
(T (W x00 x00 x01 x01 xab x01 x00 x00)
(L (W xff xff xff xff xff xff xff xff)) E)
(L (W x24 x00 x00 x00 x27 x00 x00 x00))))
(T (W xff xff xff xff xff xff xff xff)
(T (W x45 x44 x00 x00 x00 x00 x00 x00)
(T (W xff xff xff xff xff xff xff xff)
(L (W x45 x26 x22 x84 xe4 x9c xf2 xcb)) E)
(L (W x49 xa1 x68 x4a xeb x5f xdd x3d)))
(T (W x2e x00 x00 x00 x0c x00 x00 x00)
(L (W x3c x00 x00 x00 x00 x00 x80 xbf))
(L (W x00 x00 x00 x00 x00 x00 x00 x00))))))
(T (W x45 x26 x22 x84 xe4 x9c xf2 xcb)
(T (W x00 x00 x80 x3f x00 x00 x80 x3f)
(T (W x00 x00 x00 x00 x00 x00 x00 x00)
(T (W x00 x00 x80 x3f x00 x00 x80 x3f)
(T (W xff xff xff xff xff xff xff xff)
(L (W xc4 x00 x00 x00 x01 x00 x00 x00)) E)
(L (W xff xff xff xff xff xff xff xff)))
(T (W x00 x00 x00 x00 x00 x00 x00 x00)
(T (W x00 x00 x80 xbf x00 x00 x80 xbf)
(L (W x45 x26 x22 x84 xe4 x9c xf2 xcb)) E)
(L (W x00 x00 x80 xbf x00 x00 x80 xbf))))
(T (W xff xff xff xff xff xff xff xff)
(T (W xff xff xff xff xbc x00 x00 x00)
(T (W x54 x41 x52 x54 x5f x54 x4f x52)
(L (W x45 x26 x22 x84 xe4 x9c xf2 xcb)) E)
(L (W x00 x00 x00 x00 x00 x00 x00 x00)))
(T (W x03 x00 x00 x00 xcc x00 x00 x00)
(L (W x00 x00 x80 xbf x00 x00 x80 xbf))
(L (W x00 x00 x00 x00 x12 x00 x00 x00)))))
(T (W x00 x00 x80 x3f x00 x00 x80 x3f)
(T (W x00 x00 x00 x00 xca x89 xff xff)
(T (W x00 x00 x00 x00 x00 x00 x00 x00)
(T (W xff xff xff xff xff xff xff xff)
(L (W x00 x00 x00 x00 x00 x00 x00 x00)) E)
(L (W xff xff xff xff xff xff xff xff)))
(T (W x00 x00 x00 x00 x00 x00 x00 x00)
(T (W x00 x00 x00 x00 xfa xfc xfd xff)
(L (W x00 x00 x00 x00 x00 x00 x00 x00)) E)
(L (W xff xff xff xff xff xff xff xff))))
(T (W x64 x00 x00 x00 x9c x00 x00 x00)
(T (W x4f x84 x6f x8b xe8 xcb x63 xb7)
(T (W xac x0c x00 x00 x90 x0b x00 x00)
(L (W x00 x00 x80 xbf x00 x00 x80 xbf)) E)
(L (W x00 x00 x00 x00 x00 x00 x00 x00)))
(T (W x00 x00 x00 x00 x00 x00 x00 x00)
(L (W xff xff xff xff xff xff xff xff))
(L (W x00 x00 x80 xbf x00 x00 x80 xbf)))))))
(T (W x50 x00 x00 x00 x44 x00 x00 x00)
(T (W x94 x6e xfb xff x00 x01 x01 x01)
(T (W x54 x00 x00 x00 x48 x00 x00 x00)
(T (W x00 x00 x00 x00 x00 x00 x00 x00)
(T (W x50 x00 x00 x00 x44 x00 x00 x00)
(T (W xff xff xff xff xff xff xff xff)
(L (W x00 x00 x80 xbf x00 x00 x80 xbf)) E)
(L (W xff xff xff xff xff xff xff xff)))
(T (W xff xff xff xff xff xff xff xff)
(T (W x00 x00 x00 x00 x00 x00 x00 x00)
(L (W x6c x00 x00 x00 x60 x00 x00 x00)) E)
(L (W x00 x00 x80 xbf x00 x00 x80 xbf))))
(T (W xff xff xff xff xff xff xff xff)
(T (W x45 x26 x22 x84 xe4 x9c xf2 xcb)
(T (W x00 x00 x00 x00 x00 x00 x00 x00)
(L (W x00 x00 x80 xbf x00 x00 x80 xbf)) E)
(L (W x00 x00 x00 x00 x00 x00 x00 x00)))
(T (W x50 x00 x00 x00 x44 x00 x00 x00)
(L (W x4f x84 x6f x8b xe8 xcb x63 xb7))
(L (W xff xff xff xff xff xff xff xff)))))
(T (W x45 x26 x22 x84 xe4 x9c xf2 xcb)
(T (W x1d x00 x00 x00 x10 x00 x00 x00)
(T (W x34 x00 x38 x00 x3c x00 x40 x00)
(T (W x00 x00 x80 x3f x00 x00 x80 x3f)
(L (W x00 x00 x00 x00 x00 x00 x00 x00)) E)
(L (W xff xff xff xff xff xff xff xff)))
(T (W xff xff xff xff xff xff xff xff)
(T (W xff xff xff xff xff xff xff xff)
(L (W x00 x00 x00 x00 x00 x00 x00 x00)) E)
(L (W xff xff xff xff xff xff xff xff))))
(T (W xff xff xff xff xff xff xff xff)
(T (W x00 x00 x00 x00 x00 x00 x00 x00)
(T (W x00 x00 x80 x3f x00 x00 x80 x3f)
(L (W x00 x00 x80 xbf x00 x00 x80 xbf)) E)
(L (W x00 x00 x00 x00 x00 x00 x5c x00)))
(T (W x00 x00 x00 x00 x00 x00 x00 x00)
(L (W x03 x00 x00 x00 xd0 x00 x00 x00))
(L (W x45 x26 x22 x84 xe4 x9c xf2 xcb))))))
(T (W x18 x00 x00 x00 x0c x00 x00 x00)
(T (W x45 x26 x22 x84 xe4 x9c xf2 xcb)
(T (W x00 x00 x00 x00 x00 x00 x00 x00)
(T (W x00 x00 x80 x3f x00 x00 x80 x3f)
(T (W x18 x00 x00 x00 x10 x00 x00 x00)
(L (W xff xff xff xff xff xff xff xff)) E)
(L (W xff xff xff xff xff xff xff xff)))
(T (W x00 x00 x80 x3f x00 x00 x80 x3f)
(T (W x00 x00 x00 x00 x04 xdd xfd xff)
(L (W x00 x00 x80 xbf x00 x00 x80 xbf)) E)
(L (W x03 x00 x00 x00 xd8 x00 x00 x00))))
(T (W xff xff xff xff xff xff xff xff)
(T (W xff xff xff xff xff xff xff xff)
(T (W x00 x00 x00 x00 x00 x00 x00 x00)
(L (W x94 x9e xff xff x00 x01 x01 x01)) E)
(L (W x00 x00 x80 xbf x00 x00 x80 xbf)))
(T (W xff xff xff xff x02 x00 x00 x00)
(L (W x94 x1e xfe xff x00 x01 x01 x01))
(L (W x00 x00 x00 x00 x00 x00 x00 x00)))))
(T (W x00 x00 x00 x00 x00 x00 x00 x00)
(T (W x1c x01 x00 x00 x04 x00 x00 x00)
(T (W x4f x84 x6f x8b xe8 xcb x63 xb7)
(T (W xff xff xff xff xff xff xff xff)
(L (W x00 x00 x00 x00 x00 x00 x00 x00)) E)
(L (W xff xff xff xff xff xff xff xff)))
(T (W x00 x00 x00 x00 x00 x00 x00 x00)
(T (W x00 x00 x00 x00 x00 x00 x00 x00)
(L (W x54 x00 x00 x00 x48 x00 x00 x00)) E)
(L (W xff xff xff xff xff xff xff xff))))
(T (W xbc x00 x00 x00 xb0 x00 x00 x00)
(T (W x00 x00 x80 x3f x00 x00 x80 x3f)
(T (W x6c x76 x31 x00 x22 x00 x00 x00)
(L (W x00 x00 x80 xbf x00 x00 x80 xbf)) E)
(L (W x00 x00 x00 x00 x00 x00 x00 x00)))
(T (W x00 x00 x00 x00 x00 x00 x00 x00)
(L (W xff xff xff xff xff xff xff xff))
(L (W x00 x00 x80 xbf x00 x00 x80 xbf))))))))
(T (W xff xff xff xff xff xff xff xff)
(T (W x6a xc8 xfd xff x00 x00 x01 x01)
(T (W x00 x00 x80 x3f x00 x00 x80 x3f)
(T (W xff xff xff xff xff xff xff xff)
(T (W xff xff xff xff xff xff xff xff)
(T (W x00 x00 x00 x00 x00 x00 x00 x00)
(T (W x00 x00 x80 x3f x00 x00 x80 x3f)
(L (W xff xff xff xff xff xff xff xff)) E)
(L (W x00 x00 x00 x00 x12 x00 x00 x00)))
(T (W x00 x00 x00 x00 x00 x00 x00 x00)
(T (W x6c x00 x00 x00 x60 x00 x00 x00)
(L (W x94 x04 x00 x00 x80 x03 x00 x00)) E)
(L (W xff xff xff xff xff xff xff xff))))
(T (W x50 x00 x00 x00 x44 x00 x00 x00)
(T (W x00 x00 x00 x00 x00 x00 x00 x00)
(T (W x18 x00 x00 x00 x10 x00 x00 x00)
(L (W xff xff xff xff xff xff xff xff)) E)
(L (W x68 x00 x00 x00 x5c x00 x00 x00)))
(T (W x38 x01 x00 x00 x04 x00 x00 x00)
(L (W xb0 x00 x00 x00 x1e x00 x00 x00))
(L (W x49 xa1 x68 x4a xeb x5f xdd x3d)))))
(T (W xff xff xff xff xff xff xff xff)
(T (W x00 x00 x80 x3f x00 x00 x80 x3f)
(T (W xff xff xff xff xff xff xff xff)
(T (W x07 xc1 x33 x97 x85 xac x5f x5f)
(L (W x00 x00 x80 xbf x00 x00 x80 xbf)) E)
(L (W x00 x00 x80 xbf x00 x00 x80 xbf)))
(T (W x00 x00 x80 x3f x00 x00 x80 x3f)
(T (W x54 x00 x00 x00 x48 x00 x00 x00)
(L (W x00 x00 x80 xbf x00 x00 x80 xbf)) E)
(L (W x00 x00 x00 x00 x00 x00 x00 x00))))
(T (W x00 x00 x00 x00 x00 x00 x00 x00)
(T (W x94 xaa xfc xff x00 x01 x01 x01)
(T (W xff xff xff xff xff xff xff xff)
(L (W x00 x00 x00 x00 x00 x00 x00 x00)) E)
(L (W xff xff xff xff xff xff xff xff)))
(T (W xff xff xff xff xc4 x00 x00 x00)
(L (W xff xff xff xff xff xff xff xff))
(L (W x18 x00 x00 x00 x0c x00 x00 x00))))))
(T (W xef xb8 x1b x07 x43 x50 x05 x39)
(T (W xff xff xff xff xff xff xff xff)
(T (W x01 x00 x00 x00 xa0 x00 x00 x00)
(T (W x00 x00 x00 x00 x00 x00 x00 x00)
(T (W x00 x00 x00 x00 x00 x00 x00 x00)
(L (W x00 x00 x80 xbf x00 x00 x80 xbf)) E)
(L (W x00 x00 x00 x00 x00 x00 x00 x00)))
(T (W xff xff xff xff xff xff xff xff)
(T (W x00 x00 x00 x00 x00 x00 x00 x00)
(L (W x00 x00 x01 x01 xa8 x01 x00 x00)) E)
(L (W x30 x35 x5f x43 x4c x45 x41 x52))))
(T (W x00 x00 x80 x3f x00 x00 x80 x3f)
(T (W x49 xa1 x68 x4a xeb x5f xdd x3d)
(T (W x00 x00 x80 xbf x00 x00 x80 xbf)
(L (W x30 x35 x5f x43 x4c x45 x41 x52)) E)
(L (W xff xff xff xff xff xff xff xff)))
(T (W x00 x00 x80 x3f x00 x00 x80 x3f)
(L (W x00 x00 x00 x00 x00 x00 x00 x00))
(L (W x94 x1a xff xff x00 x01 x01 x01)))))
(T (W xff xff xff xff xff xff xff xff)
(T (W x00 x00 x80 x3f x00 x00 x80 x3f)
(T (W xff xff xff xff xff xff xff xff)
(T (W x00 x00 x80 x3f x00 x00 x80 x3f)
(L (W xff xff xff xff x90 x00 x00 x00)) E)
(L (W x00 x00 x80 xbf x00 x00 x80 xbf)))
(T (W x45 x26 x22 x84 xe4 x9c xf2 xcb)
(T (W x00 x00 x80 xbf x00 x00 x80 xbf)
(L (W x00 x00 x80 xbf x00 x00 x80 xbf)) E)
(L (W x00 x00 x80 xbf x00 x00 x80 xbf))))
(T (W x00 x00 x00 x00 x00 x00 x00 x00)
(T (W xff xff xff xff xff xff xff xff)
(T (W x30 x35 x5f x43 x4c x45 x41 x52)
(L (W xcc x00 x00 x00 x01 x00 x00 x00)) E)
(L (W x68 x00 x00 x00 x5c x00 x00 x00)))
(T (W x45 x26 x22 x84 xe4 x9c xf2 xcb)
(L (W x6c x00 x00 x00 x60 x00 x00 x00))
(L (W xff xff xff xff xb0 x00 x00 x00)))))))
(T (W x00 x00 x00 x00 x00 x00 x00 x00)
(T (W x00 x00 x00 x00 x00 x00 x00 x00)
(T (W xff xff xff xff xff xff xff xff)
(T (W x18 x00 x00 x00 x10 x00 x00 x00)
(T (W x2c x59 xfc xff x19 x00 x00 x00)
(T (W x00 x00 x80 x3f x00 x00 x80 x3f)
(L (W x45 x44 x00 x00 x00 x00 x00 x00)) E)
(L (W x00 x00 x00 x00 x00 x00 x00 x00)))
(T (W x50 x00 x00 x00 x44 x00 x00 x00)
(T (W xff xff xff xff xff xff xff xff)
(L (W x00 x00 x00 x00 x00 x00 x00 x00)) E)
(L (W x04 x00 x00 x00 x62 xd0 xfe xff))))
(T (W x00 x00 x80 x3f x00 x00 x80 x3f)
(T (W x00 x00 x00 x00 x00 x00 x00 x00)
(T (W x42 x00 x00 x00 xff xff xff xff)
(L (W xff xff xff xff xff xff xff xff)) E)
(L (W x18 x00 x00 x00 x10 x00 x00 x00)))
(T (W x5f x4e x53 x5f x30 x35 x5f x43)
(L (W xff xff xff xff xff xff xff xff))
(L (W x00 x00 x80 xbf x00 x00 x80 xbf)))))
(T (W xb8 x00 x00 x00 xac x00 x00 x00)
(T (W x00 x00 x80 x3f x00 x00 x80 x3f)
(T (W xff xff xff xff xff xff xff xff)
(T (W xff xff xff xff xff xff xff xff)
(L (W x45 x26 x22 x84 xe4 x9c xf2 xcb)) E)
(L (W x00 x00 x00 x00 x00 x00 x00 x00)))
(T (W x00 x00 x80 x3f x00 x00 x80 x3f)
(T (W x45 x26 x22 x84 xe4 x9c xf2 xcb)
(L (W x00 x01 x01 x01 xea xfe xff xff)) E)
(L (W x45 x26 x22 x84 xe4 x9c xf2 xcb))))
(T (W x00 x00 x00 x00 x00 x00 x00 x00)
(T (W xb0 x00 x00 x00 x64 x00 x00 x00)
(T (W x00 x00 x00 x00 x12 x00 x00 x00)
(L (W xff xff xff xff xff xff xff xff)) E)
(L (W x03 x00 x00 x00 xd0 x00 x00 x00)))
(T (W xff xff xff xff x03 x00 x00 x00)
(L (W x00 x00 x80 xbf x00 x00 x80 xbf))
(L (W xff xff xff xff xc8 x00 x00 x00))))))
(T (W xc0 x01 x00 x00 xff xff xff xff)
(T (W xac x01 x00 x00 xff xff xff xff)
(T (W xb2 xdd xfb xff x74 x00 x00 x00)
(T (W x00 x00 x00 x00 x02 x00 x00 x00)
(T (W x00 x00 x00 x00 x00 x00 x00 x00)
(L (W x00 x00 x80 xbf x00 x00 x80 xbf)) E)
(L (W x00 x00 x80 xbf x00 x00 x80 xbf)))
(T (W x27 x00 x00 x00 x10 x00 x00 x00)
(T (W x00 x00 x00 x00 x00 x00 x00 x00)
(L (W x45 x44 x00 x00 x00 x00 x00 x00)) E)
(L (W x00 x00 x00 x00 x00 x00 x00 x00))))
(T (W x00 x00 x00 x00 x00 x00 x00 x00)
(T (W x54 x00 x00 x00 x48 x00 x00 x00)
(T (W x00 x00 x00 x00 x00 x00 x00 x00)
(L (W xfc xa5 xff xff x3b x00 x00 x00)) E)
(L (W xff xff xff xff xff xff xff xff)))
(T (W xb2 x1d xfd xff x74 x00 x00 x00)
(L (W x24 x00 x00 x00 x0c x00 x00 x00))
(L (W x58 x00 x00 x00 x4c x00 x00 x00)))))
(T (W xff xff xff xff xff xff xff xff)
(T (W x00 x00 x80 x3f x00 x00 x80 x3f)
(T (W xff xff xff xff xff xff xff xff)
(T (W x18 x00 x00 x00 x0c x00 x00 x00)
(L (W x03 x00 x00 x00 xd0 x00 x00 x00)) E)
(L (W x54 x00 x00 x00 x48 x00 x00 x00)))
(T (W xff xff xff xff xff xff xff xff)
(T (W xb2 xfd xfd xff x74 x00 x00 x00)
(L (W x6c x00 x70 x00 x62 x00 x00 x00)) E)
(L (W x00 x00 x00 x00 x00 x00 x00 x00))))
(T (W x00 x00 x00 x00 x00 x00 x00 x00)
(T (W x00 x00 x00 x00 x00 x00 x00 x00)
(T (W x45 x26 x22 x84 xe4 x9c xf2 xcb)
(L (W x5d x00 x00 x00 xff xff xff xff)) E)
(L (W x18 x00 x00 x00 x0c x00 x00 x00)))
(T (W x45 x26 x22 x84 xe4 x9c xf2 xcb)
(L (W x45 x26 x22 x84 xe4 x9c xf2 xcb))
(L (W xff xff xff xff xff xff xff xff))))))))))
(T (W x98 x98 x01 x00 x64 x97 x01 x00)
(T (W x68 x6e x00 x00 x1c x6c x00 x00)
(T (W x00 x00 x80 x3f x00 x00 x80 x3f)
(T (W x00 x00 x80 x3f x00 x00 x80 x3f)
(T (W x00 x00 x80 x3f x00 x00 x80 x3f)
(T (W x00 x00 x80 x3f x00 x00 x80 x3f)
(T (W xe9 x5b xa7 x10 xfe x7b xab x97)
(T (W x00 x00 x80 x3f x00 x00 x80 x3f)
(T (W xff xff xff xff xff xff xff xff)
(L (W x00 x00 x00 x00 x00 x00 x00 x00)) E)
(L (W x03 x00 x00 x00 xd0 x00 x00 x00)))
(T (W x00 x00 x80 x3f x00 x00 x80 x3f)
(T (W xff xff xff xff xff xff xff xff)
(L (W x45 x26 x22 x84 xe4 x9c xf2 xcb)) E)
(L (W x00 x00 x00 x00 x00 x00 x00 x00))))
(T (W xff xff xff xff x04 x00 x00 x00)
(T (W x49 xa1 x68 x4a xeb x5f xdd x3d)
(T (W xff xff xff xff xff xff xff xff)
(L (W x00 x00 x00 x00 x00 x00 x00 x00)) E)
(L (W xff xff xff xff xff xff xff xff)))
(T (W x00 x00 x00 x00 x00 x00 x00 x00)
(T (W x00 x00 x00 x00 x00 x00 x00 x00)
(L (W x00 x00 x00 x00 x00 x00 x00 x00)) E)
(L (W x18 x00 x00 x00 x0c x00 x00 x00)))))
(T (W x00 x00 x00 x00 x00 x00 x00 x00)
(T (W x48 x03 x00 x00 x34 x02 x00 x00)
(T (W x00 x00 x80 x3f x00 x00 x80 x3f)
(T (W x00 x00 x80 x3f x00 x00 x80 x3f)
(L (W xff xff xff xff xc4 x00 x00 x00)) E)
(L (W x45 x26 x22 x84 xe4 x9c xf2 xcb)))
(T (W x45 x26 x22 x84 xe4 x9c xf2 xcb)
(T (W xff xff xff xff x9c x00 x00 x00)
(L (W xff xff xff xff xff xff xff xff)) E)
(L (W x6a xe2 xfe xff x78 x00 x00 x00))))
(T (W xff xff xff xff x03 x00 x00 x00)
(T (W xff xff xff xff xff xff xff xff)
(T (W xff xff xff xff xff xff xff xff)
(L (W x54 x00 x00 x00 x48 x00 x00 x00)) E)
(L (W x00 x00 x00 x00 x00 x00 x00 x00)))
(T (W xff xff xff xff xff xff xff xff)
(L (W x00 x00 x80 xbf x00 x00 x80 xbf))
(L (W x00 x00 x00 x00 x00 x00 x00 x00))))))
(T (W xb2 x70 xfb xff x74 x00 x00 x00)
(T (W x00 x00 x00 x00 x00 x00 x00 x00)
(T (W x00 x00 x00 x00 x00 x00 x00 x00)
(T (W x00 x00 x80 x3f x00 x00 x80 x3f)
(T (W x18 x00 x00 x00 x10 x00 x00 x00)
(L (W x50 x00 x00 x00 x44 x00 x00 x00)) E)
(L (W xff xff xff xff xa8 x00 x00 x00)))
(T (W x00 x00 x00 x00 x01 x00 x00 x00)
(T (W x00 x00 x00 x00 x00 x00 x00 x00)
(L (W x00 xd4 xff xff xea xe1 xff xff)) E)
(L (W x00 x00 x80 xbf x00 x00 x80 xbf))))
(T (W xb8 x00 x00 x00 xac x00 x00 x00)
(T (W x45 x26 x22 x84 xe4 x9c xf2 xcb)
(T (W x81 x02 x00 x00 xff xff xff xff)
(L (W x00 x00 x80 xbf x00 x00 x80 xbf)) E)
(L (W x00 x00 x00 x00 x00 x00 x00 x00)))
(T (W x18 x00 x00 x00 x10 x00 x00 x00)
(L (W x49 xa1 x68 x4a xeb x5f xdd x3d))
(L (W x04 x00 x00 x00 x62 x13 xff xff)))))
(T (W x00 x00 x00 x00 x00 x00 x00 x00)
(T (W xff xff xff xff xff xff xff xff)
(T (W x62 x00 x00 x00 x00 x00 x00 x01)
(T (W x00 x00 x00 x00 x00 x00 x00 x00)
(L (W x45 x44 x00 x00 x00 x00 x00 x00)) E)
(L (W xff xff xff xff xff xff xff xff)))
(T (W xff xff xff xff xff xff xff xff)
(T (W xff xff xff xff xff xff xff xff)
(L (W x00 x00 x00 x00 xda xf4 xff xff)) E)
(L (W xff xff xff xff xff xff xff xff))))
(T (W x45 x26 x22 x84 xe4 x9c xf2 xcb)
(T (W x00 x00 x00 x00 x00 x00 x00 x00)
(T (W x18 x00 x00 x00 x10 x00 x00 x00)
(L (W x00 x00 x00 x00 x00 x00 x00 x00)) E)
(L (W x00 x00 x00 x00 x00 x00 x00 x00)))
(T (W x00 x00 x00 x00 x00 x00 x00 x00)
(L (W x03 x00 x00 x00 xd0 x00 x00 x00))
(L (W x00 x00 x00 x00 x00 x00 x00 x00)))))))
(T (W x45 x26 x22 x84 xe4 x9c xf2 xcb)
(T (W x68 x00 x00 x00 x5c x00 x00 x00)
(T (W x45 x26 x22 x84 xe4 x9c xf2 xcb)
(T (W xfa x39 xfe xff x69 x01 x00 x00)
(T (W x00 x00 x80 x3f x00 x00 x80 x3f)
(T (W xff xff xff xff xff xff xff xff)
(L (W x00 x00 x80 xbf x00 x00 x80 xbf)) E)
(L (W x2d x00 x00 x00 x30 x00 x00 x00)))
(T (W xff xff xff xff xbc x00 x00 x00)
(T (W x45 x44 x00 x00 x00 x00 x00 x00)
(L (W x00 x00 x80 xbf x00 x00 x80 xbf)) E)
(L (W x00 x00 x00 x00 x00 x00 x00 x00))))
(T (W x18 x00 x00 x00 x10 x00 x00 x00)
(T (W x00 x00 x80 x3f x00 x00 x80 x3f)
(T (W xdd xd8 x36 x97 x85 x31 x63 x5f)
(L (W x00 x00 x00 x00 x00 x00 x00 x00)) E)
(L (W x45 x44 x00 x00 x00 x00 x00 x00)))
(T (W x00 x00 x80 x3f x00 x00 x80 x3f)
(L (W x00 x00 x00 x00 x00 x00 x00 x00))
(L (W xff xff xff xff xff xff xff xff)))))
(T (W x00 x00 x00 x00 x00 x00 x00 x00)
(T (W xff xff xff xff xff xff xff xff)
(T (W x45 x26 x22 x84 xe4 x9c xf2 xcb)
(T (W x00 x00 x80 x3f x00 x00 x80 x3f)
(L (W xff xff xff xff xff xff xff xff)) E)
(L (W xff xff xff xff xff xff xff xff)))
(T (W xff xff xff xff x9c x00 x00 x00)
(T (W xff xff xff xff xff xff xff xff)
(L (W xff xff xff xff xff xff xff xff)) E)
(L (W xff xff xff xff xc8 x00 x00 x00))))
(T (W x00 x00 x00 x00 x04 x2c xfc xff)
(T (W x45 x44 x00 x00 x00 x00 x00 x00)
(T (W x00 x00 x00 x00 x00 x00 x00 x00)
(L (W x00 x00 x00 x00 x1c x00 x20 x00)) E)
(L (W x94 xad xfe xff x00 x01 x01 x01)))
(T (W x00 x00 x00 x00 x00 x00 x00 x00)
(L (W x70 x00 x00 x00 x64 x00 x00 x00))
(L (W x00 x00 x00 x00 x00 x00 x00 x00))))))
(T (W x00 x00 x80 x3f x00 x00 x80 x3f)
(T (W x00 x00 x00 x00 x00 x00 x00 x00)
(T (W x00 x00 x00 x00 x00 x00 x00 x00)
(T (W x00 x00 x80 x3f x00 x00 x80 x3f)
(T (W x45 x26 x22 x84 xe4 x9c xf2 xcb)
(L (W x18 x00 x00 x00 x0c x00 x00 x00)) E)
(L (W x18 x00 x00 x00 x10 x00 x00 x00)))
(T (W x00 x00 x00 x00 x00 x00 x00 x00)
(T (W x00 x00 x80 xbf x00 x00 x80 xbf)
(L (W x00 x00 x80 xbf x00 x00 x80 xbf)) E)
(L (W x00 x00 x80 xbf x00 x00 x80 xbf))))
(T (W xc0 x00 x00 x00 xb4 x00 x00 x00)
(T (W xff xff xff xff xff xff xff xff)
(T (W x01 x00 x00 x00 x04 x00 x00 x00)
(L (W x00 x00 x80 xbf x00 x00 x80 xbf)) E)
(L (W x49 xa1 x68 x4a xeb x5f xdd x3d)))
(T (W xff xff xff xff xff xff xff xff)
(L (W x54 x00 x00 x00 x48 x00 x00 x00))
(L (W x30 x35 x5f x43 x4c x45 x41 x52)))))
(T (W x00 x00 x00 x00 x00 x00 x00 x00)
(T (W xff xff xff xff xff xff xff xff)
(T (W x00 x00 x00 x00 x00 x00 x00 x00)
(T (W xff xff xff xff xff xff xff xff)
(L (W x54 x02 x00 x00 x38 x01 x00 x00)) E)
(L (W xff xff xff xff xff xff xff xff)))
(T (W x5f x4e x53 x5f x30 x35 x5f x43)
(T (W xff xff xff xff xff xff xff xff)
(L (W x00 x00 x80 xbf x00 x00 x80 xbf)) E)
(L (W x00 x00 x00 x00 x04 xfc xfe xff))))
(T (W x50 x00 x00 x00 x44 x00 x00 x00)
(T (W x4f x84 x6f x8b xe8 xcb x63 xb7)
(T (W xff xff xff xff xff xff xff xff)
(L (W x00 x00 x00 x00 x00 x00 x00 x00)) E)
(L (W x00 x00 x00 x00 x00 x00 x00 x00)))
(T (W xa9 x60 x2e x97 x85 x1c x59 x5f)
(L (W xff xff xff xff xff xff xff xff))
(L (W x00 x00 x00 x00 x00 x00 x00 x00))))))))
(T (W xff xff xff xff xff xff xff xff)
(T (W xff xff xff xff xff xff xff xff)
(T (W x0c x00 x00 x00 x00 x00 x10 x00)
(T (W xff xff xff xff xff xff xff xff)
(T (W xb2 xc4 xfb xff x74 x00 x00 x00)
(T (W x00 x00 x00 x00 x04 x00 x00 x00)
(T (W x00 x00 x80 x3f x00 x00 x80 x3f)
(L (W x18 x00 x00 x00 x10 x00 x00 x00)) E)
(L (W x00 x00 x00 x00 x62 x47 xfe xff)))
(T (W x00 x00 x00 x00 x00 x00 x00 x00)
(T (W x00 x00 x80 x3f x00 x00 x80 x3f)
(L (W xff xff xff xff xff xff xff xff)) E)
(L (W x18 x00 x00 x00 x0c x00 x00 x00))))
(T (W x00 x00 x00 x00 x00 x00 x00 x00)
(T (W xff xff xff xff xff xff xff xff)
(T (W x45 x26 x22 x84 xe4 x9c xf2 xcb)
(L (W x18 x00 x00 x00 x0c x00 x00 x00)) E)
(L (W x00 x00 x80 xbf x00 x00 x80 xbf)))
(T (W xff xff xff xff xff xff xff xff)
(L (W x94 x09 xfe xff x00 x01 x01 x01))
(L (W x00 x00 x00 x00 x00 x00 x00 x00)))))
(T (W xff xff xff xff xff xff xff xff)
(T (W x45 x26 x22 x84 xe4 x9c xf2 xcb)
(T (W xff xff xff xff xff xff xff xff)
(T (W xff xff xff xff xff xff xff xff)
(L (W x00 x00 x80 xbf x00 x00 x80 xbf)) E)
(L (W x00 x00 x00 x00 x00 x00 x00 x00)))
(T (W x00 x00 x00 x00 x00 x00 x00 x00)
(T (W x00 x00 x80 xbf x00 x00 x80 xbf)
(L (W x00 x00 x00 x00 x12 x00 x00 x00)) E)
(L (W x00 x00 x00 x00 x00 x00 x00 x00))))
(T (W x40 x00 x00 x00 x0c x00 x00 x00)
(T (W x00 x00 x80 x3f x00 x00 x80 x3f)
(T (W x50 x00 x00 x00 x44 x00 x00 x00)
(L (W xff xff xff xff xff xff xff xff)) E)
(L (W x18 x00 x00 x00 x10 x00 x00 x00)))
(T (W x45 x26 x22 x84 xe4 x9c xf2 xcb)
(L (W xff xff xff xff xff xff xff xff))
(L (W x6a x26 xff xff x78 x00 x00 x00))))))
(T (W xff xff xff xff xff xff xff xff)
(T (W xff xff xff xff xff xff xff xff)
(T (W x00 x00 x80 x3f x00 x00 x80 x3f)
(T (W x41 x00 x00 x00 xff xff xff xff)
(T (W x00 x00 x00 x00 x00 x00 x00 x00)
(L (W x00 x00 x00 x00 x00 x00 x00 x00)) E)
(L (W xfc x5c xfe xff x2b x00 x00 x00)))
(T (W x45 x26 x22 x84 xe4 x9c xf2 xcb)
(T (W x2a x00 x00 x00 xff xff xff xff)
(L (W xff xff xff xff xff xff xff xff)) E)
(L (W x00 x00 x01 x01 xa9 x01 x00 x00))))
(T (W x00 x00 x00 x00 x00 x00 x00 x00)
(T (W x00 x00 x00 x00 x00 x00 x00 x00)
(T (W x00 x00 x00 x00 x00 x00 x00 x00)
(L (W xff xff xff xff xff xff xff xff)) E)
(L (W xbc x00 x00 x00 x32 x00 x00 x00)))
(T (W x00 x00 x00 x00 x00 x00 x00 x00)
(L (W xff xff xff xff xff xff xff xff))
(L (W x00 x00 x80 xbf x00 x00 x80 xbf)))))
(T (W x0a x00 x00 x00 x3e x00 x00 x00)
(T (W x00 x00 x80 x3f x00 x00 x80 x3f)
(T (W xc4 x00 x00 x00 x01 x00 x00 x00)
(T (W x00 x00 x80 x3f x00 x00 x80 x3f)
(L (W x00 x00 x00 x00 x98 x79 xff xff)) E)
(L (W x00 x00 x00 x00 x00 x00 x00 x00)))
(T (W x68 x00 x00 x00 x5c x00 x00 x00)
(T (W x49 xa1 x68 x4a xeb x5f xdd x3d)
(L (W xf4 x01 x00 x00 x68 x00 x00 x00)) E)
(L (W x00 x00 x00 x00 x00 x00 x00 x00))))
(T (W x00 x00 x00 x00 x00 x00 x00 x00)
(T (W xff xff xff xff xff xff xff xff)
(T (W xff xff xff xff xff xff xff xff)
(L (W xff xff xff xff x90 x00 x00 x00)) E)
(L (W x00 x00 x80 xbf x00 x00 x80 xbf)))
(T (W x6a x36 xfd xff x78 x00 x00 x00)
(L (W x00 x00 x00 x00 x00 x00 x00 x00))
(L (W x45 x26 x22 x84 xe4 x9c xf2 xcb)))))))
(T (W x00 x00 x01 x01 x3b x02 x00 x00)
(T (W xf5 x01 x00 x00 xff xff xff xff)
(T (W xff xff xff xff xff xff xff xff)
(T (W x94 xd1 xfb xff x00 x01 x01 x01)
(T (W xff xff xff xff xff xff xff xff)
(T (W x00 x00 x00 x00 x00 x00 x00 x00)
(L (W xff xff xff xff xff xff xff xff)) E)
(L (W x46 x53 x59 x53 x5f x4e x53 x5f)))
(T (W x00 x00 x80 x3f x00 x00 x80 x3f)
(T (W xc4 x00 x00 x00 x02 x00 x00 x00)
(L (W xff xff xff xff xff xff xff xff)) E)
(L (W xff xff xff xff xff xff xff xff))))
(T (W x45 x26 x22 x84 xe4 x9c xf2 xcb)
(T (W x30 x35 x5f x43 x4c x45 x41 x52)
(T (W x00 x00 x80 x3f x00 x00 x80 x3f)
(L (W xb0 x00 x00 x00 x14 x00 x00 x00)) E)
(L (W x50 x00 x00 x00 x44 x00 x00 x00)))
(T (W xda x64 xfe xff x00 x00 x01 x01)
(L (W xb0 x00 x00 x00 x64 x00 x00 x00))
(L (W x00 x00 x00 x00 x00 x00 x00 x00)))))
(T (W x01 x00 x00 x00 x9c x00 x00 x00)
(T (W x00 x00 x80 x3f x00 x00 x80 x3f)
(T (W xff xff xff xff xff xff xff xff)
(T (W xff xff xff xff xff xff xff xff)
(L (W x6c x00 x00 x00 x60 x00 x00 x00)) E)
(L (W x00 x00 x00 x00 x12 x00 x00 x00)))
(T (W x4f x84 x6f x8b xe8 xcb x63 xb7)
(T (W x45 x26 x22 x84 xe4 x9c xf2 xcb)
(L (W x54 x00 x00 x00 x48 x00 x00 x00)) E)
(L (W x00 x00 x00 x00 x00 x00 x00 x00))))
(T (W x00 x00 x00 x00 x00 x00 x00 x00)
(T (W x94 xb1 xfc xff x00 x01 x01 x01)
(T (W x76 x31 x00 x00 x62 xaf xfd xff)
(L (W xc4 x00 x00 x00 x01 x00 x00 x00)) E)
(L (W x00 x00 x80 xbf x00 x00 x80 xbf)))
(T (W x68 x00 x00 x00 x5c x00 x00 x00)
(L (W x00 x00 x00 x00 x00 x00 x00 x00))
(L (W x45 x26 x22 x84 xe4 x9c xf2 xcb))))))
(T (W xff xff xff xff xff xff xff xff)
(T (W xff xff xff xff x03 x00 x00 x00)
(T (W x00 x00 x80 x3f x00 x00 x80 x3f)
(T (W xff xff xff xff xff xff xff xff)
(T (W xb2 xa0 x30 x97 x85 x22 x5c x5f)
(L (W x45 x26 x22 x84 xe4 x9c xf2 xcb)) E)
(L (W x49 xa1 x68 x4a xeb x5f xdd x3d)))
(T (W xff xff xff xff xff xff xff xff)
(T (W x00 x00 x00 x00 x00 x00 x00 x00)
(L (W xff xff xff xff xff xff xff xff)) E)
(L (W x30 x35 x5f x43 x4c x45 x41 x52))))
(T (W x00 x00 x00 x00 x00 x00 x00 x00)
(T (W x00 x00 x80 x3f x00 x00 x80 x3f)
(T (W x16 x48 x69 x12 x83 x6d x37 xc6)
(L (W xff xff xff xff xff xff xff xff)) E)
(L (W xff xff xff xff xb0 x00 x00 x00)))
(T (W x45 x26 x22 x84 xe4 x9c xf2 xcb)
(L (W xff xff xff xff xff xff xff xff))
(L (W x00 x00 x80 xbf x00 x00 x80 xbf)))))
(T (W xc0 x00 x00 x00 xb4 x00 x00 x00)
(T (W x00 x00 x80 x3f x00 x00 x80 x3f)
(T (W xff xff xff xff xbc x00 x00 x00)
(T (W x00 x00 x00 x00 x00 x00 x00 x00)
(L (W x50 x00 x00 x00 x44 x00 x00 x00)) E)
(L (W x00 x00 x80 xbf x00 x00 x80 xbf)))
(T (W xc8 x00 x00 x00 x01 x00 x00 x00)
(T (W x00 x00 x80 xbf x00 x00 x80 xbf)
(L (W x04 x00 x04 x00 x04 x00 x00 x00)) E)
(L (W x00 x00 x00 x00 x00 x00 x00 x00))))
(T (W x00 x00 x00 x00 x00 x00 x00 x00)
(T (W xff xff xff xff xff xff xff xff)
(T (W x00 x00 x80 x3f x00 x00 x80 x3f)
(L (W xff xff xff xff xff xff xff xff)) E)
(L (W x6c x00 x00 x00 x60 x00 x00 x00)))
(T (W x00 x00 x80 x3f x00 x00 x80 x3f)
(L (W x00 x00 x00 x00 x00 x00 x00 x00))
(L (W x18 x00 x00 x00 x0c x00 x00 x00)))))))))
(T (W xfc x4e xfb xff x22 x00 x00 x00)
(T (W x01 x00 x00 x00 x3e x00 x00 x00)
(T (W x00 x00 x00 x00 x04 x56 xfb xff)
(T (W xb8 x00 x00 x00 xac x00 x00 x00)
(T (W xc0 x00 x00 x00 xb4 x00 x00 x00)
(T (W x45 x26 x22 x84 xe4 x9c xf2 xcb)
(T (W xff xff xff xff xff xff xff xff)
(T (W x00 x00 x00 x00 x00 x00 x00 x00)
(L (W x3c x00 x00 x00 x00 x00 x80 xbf)) E)
(L (W xff xff xff xff xff xff xff xff)))
(T (W xff xff xff xff xff xff xff xff)
(T (W x00 x00 x00 x00 x00 x00 x00 x00)
(L (W x6c x00 x00 x00 x60 x00 x00 x00)) E)
(L (W x00 x00 x80 xbf x00 x00 x80 xbf))))
(T (W x40 x00 x00 x00 x10 x00 x00 x00)
(T (W xff xff xff xff xb0 x00 x00 x00)
(T (W x00 x00 x00 x00 x00 x00 x00 x00)
(L (W x00 x00 x80 xbf x00 x00 x80 xbf)) E)
(L (W x00 x00 x00 x00 x00 x00 x00 x00)))
(T (W x00 x00 x00 x00 x04 x06 xfd xff)
(L (W x00 x00 x80 xbf x00 x00 x80 xbf))
(L (W xff xff xff xff xff xff xff xff)))))
(T (W x00 x00 x80 x3f x00 x00 x80 x3f)
(T (W x00 x00 x00 x00 x00 x00 x00 x00)
(T (W xb2 x62 xfc xff x74 x00 x00 x00)
(T (W x18 x00 x00 x00 x10 x00 x00 x00)
(L (W x00 x00 x00 x00 x12 x00 x00 x00)) E)
(L (W x00 x00 x01 x01 xb5 x01 x00 x00)))
(T (W xff xff xff xff xff xff xff xff)
(T (W x46 x53 x59 x53 x5f x4e x53 x5f)
(L (W x00 x00 x00 x00 xda xe6 xff xff)) E)
(L (W xff xff xff xff xff xff xff xff))))
(T (W xff xff xff xff xff xff xff xff)
(T (W x00 x00 x00 x00 x00 x00 x00 x00)
(T (W x00 x00 x00 x00 x00 x00 x00 x00)
(L (W xc4 x00 x00 x00 x01 x00 x00 x00)) E)
(L (W x00 x00 x80 xbf x00 x00 x80 xbf)))
(T (W x00 x00 x00 x00 x00 x00 x00 x00)
(L (W x00 x01 x01 x01 xf2 x2e xfe xff))
(L (W x45 x26 x22 x84 xe4 x9c xf2 xcb))))))
(T (W x01 x00 x00 x00 x9c x00 x00 x00)
(T (W x94 x97 xfb xff x00 x01 x01 x01)
(T (W x00 x00 x00 x00 x00 x00 x00 x00)
(T (W x94 x57 xfc xff x00 x01 x01 x01)
(T (W xff xff xff xff xff xff xff xff)
(L (W xff xff xff xff xff xff xff xff)) E)
(L (W xff xff xff xff xff xff xff xff)))
(T (W x45 x26 x22 x84 xe4 x9c xf2 xcb)
(T (W x00 x00 x00 x00 x04 xd6 xfd xff)
(L (W xa4 x00 x00 x00 x14 x00 x00 x00)) E)
(L (W x03 x00 x00 x00 xd8 x00 x00 x00))))
(T (W xff xff xff xff xff xff xff xff)
(T (W xff xff xff xff xff xff xff xff)
(T (W xff xff xff xff xff xff xff xff)
(L (W xcc x00 x00 x00 x02 x00 x00 x00)) E)
(L (W x00 x00 x80 xbf x00 x00 x80 xbf)))
(T (W xff xff xff xff xff xff xff xff)
(L (W x45 x26 x22 x84 xe4 x9c xf2 xcb))
(L (W x45 x26 x22 x84 xe4 x9c xf2 xcb)))))
(T (W x00 x00 x80 x3f x00 x00 x80 x3f)
(T (W x00 x00 x00 x00 x00 x00 x00 x00)
(T (W x00 x00 x80 x3f x00 x00 x80 x3f)
(T (W x3c x00 x40 x00 x44 x00 x48 x00)
(L (W x00 x00 x00 x00 x00 x00 x00 x00)) E)
(L (W x00 x00 x00 x00 xfa x7d xfe xff)))
(T (W x00 x00 x00 x00 x00 x00 x00 x00)
(T (W x46 x53 x59 x53 x5f x4e x53 x5f)
(L (W x5c x00 x00 x00 x50 x00 x00 x00)) E)
(L (W xff xff xff xff xff xff xff xff))))
(T (W xff xff xff xff xff xff xff xff)
(T (W x00 x00 x80 x3f x00 x00 x80 x3f)
(T (W x4f x84 x6f x8b xe8 xcb x63 xb7)
(L (W x6c x00 x00 x00 x60 x00 x00 x00)) E)
(L (W x00 x00 x00 x00 x00 x00 x00 x00)))
(T (W x45 x26 x22 x84 xe4 x9c xf2 xcb)
(L (W x02 x00 x00 x00 x30 x01 x00 x00))
(L (W x3c x00 x00 x00 x00 x00 x80 xbf)))))))
(T (W xb8 x00 x00 x00 xac x00 x00 x00)
(T (W x45 x26 x22 x84 xe4 x9c xf2 xcb)
(T (W xb2 x8a xfb xff x74 x00 x00 x00)
(T (W x00 x00 x00 x00 x00 x00 x00 x00)
(T (W x64 x00 x00 x00 x9c x00 x00 x00)
(T (W x4a xae x30 x97 x85 x2a x5c x5f)
(L (W x94 x4f xff xff x00 x01 x01 x01)) E)
(L (W xff xff xff xff xff xff xff xff)))
(T (W x27 x00 x00 x00 x10 x00 x00 x00)
(T (W x00 x00 x80 x3f x00 x00 x80 x3f)
(L (W x18 x00 x00 x00 x0c x00 x00 x00)) E)
(L (W x6c x00 x00 x00 x60 x00 x00 x00))))
(T (W x6a x7d xfe xff x00 x00 x01 x01)
(T (W xff xff xff xff xbc x00 x00 x00)
(T (W x00 x00 x00 x00 x00 x00 x00 x00)
(L (W x54 x00 x00 x00 x48 x00 x00 x00)) E)
(L (W x4f x84 x6f x8b xe8 xcb x63 xb7)))
(T (W xff xff xff xff xff xff xff xff)
(L (W x00 x00 x80 xbf x00 x00 x80 xbf))
(L (W x00 x00 x00 x00 x00 x00 x00 x00)))))
(T (W x45 x26 x22 x84 xe4 x9c xf2 xcb)
(T (W x00 x00 x00 x00 x00 x00 x00 x00)
(T (W x45 x26 x22 x84 xe4 x9c xf2 xcb)
(T (W x45 x26 x22 x84 xe4 x9c xf2 xcb)
(L (W x00 x00 x00 x00 x00 x00 x00 x00)) E)
(L (W x00 x00 x00 x00 xda x6e xfe xff)))
(T (W x00 x00 x00 x00 x00 x00 x00 x00)
(T (W x00 x00 x00 x00 x00 x00 x00 x00)
(L (W x00 x00 x00 x00 x00 x00 x00 x00)) E)
(L (W x63 x01 x00 x00 xff xff xff xff))))
(T (W xff xff xff xff xff xff xff xff)
(T (W x4f x84 x6f x8b xe8 xcb x63 xb7)
(T (W x45 x26 x22 x84 xe4 x9c xf2 xcb)
(L (W x00 x00 x80 x3f x00 x00 x80 x3f)) E)
(L (W x00 x00 x00 x00 x00 x00 x00 x00)))
(T (W x45 x26 x22 x84 xe4 x9c xf2 xcb)
(L (W xff xff xff xff xff xff xff xff))
(L (W x00 x00 x80 xbf x00 x00 x80 xbf))))))
(T (W x0a x00 x00 x00 x3e x00 x00 x00)
(T (W x00 x00 x80 x3f x00 x00 x80 x3f)
(T (W x00 x00 x00 x00 x00 x00 x00 x00)
(T (W x50 x00 x00 x00 x44 x00 x00 x00)
(T (W xff xff xff xff xff xff xff xff)
(L (W x54 x02 x00 x00 x38 x01 x00 x00)) E)
(L (W xbe x00 x00 x00 xff xff xff xff)))
(T (W xb2 xda xfc xff x74 x00 x00 x00)
(T (W xff xff xff xff xff xff xff xff)
(L (W x18 x00 x00 x00 x0c x00 x00 x00)) E)
(L (W xff xff xff xff xff xff xff xff))))
(T (W xff xff xff xff xff xff xff xff)
(T (W x00 x00 x00 x00 x00 x00 x00 x00)
(T (W xff xff xff xff x9c x00 x00 x00)
(L (W xbc x00 x00 x00 x0a x00 x00 x00)) E)
(L (W x54 x00 x00 x00 x48 x00 x00 x00)))
(T (W x00 x00 x00 x00 x00 x00 x00 x00)
(L (W xb4 x00 x00 x00 x64 x00 x00 x00))
(L (W x00 x00 x00 x00 x00 x00 x00 x00)))))
(T (W x00 x00 x80 x3f x00 x00 x80 x3f)
(T (W x00 x00 x00 x00 x00 x00 x00 x00)
(T (W x00 x00 x80 x3f x00 x00 x80 x3f)
(T (W x2c x86 xfd xff x16 x00 x00 x00)
(L (W x45 x26 x22 x84 xe4 x9c xf2 xcb)) E)
(L (W x45 x44 x00 x00 x00 x00 x00 x00)))
(T (W x00 x00 x80 x3f x00 x00 x80 x3f)
(T (W x00 x00 x00 x00 x00 x00 x00 x00)
(L (W xff xff xff xff xff xff xff xff)) E)
(L (W xff xff xff xff xff xff xff xff))))
(T (W xff xff xff xff xff xff xff xff)
(T (W x94 xbf xfc xff x00 x01 x01 x01)
(T (W x00 x00 x00 x00 x00 x00 x00 x00)
(L (W x00 x00 x80 xbf x00 x00 x80 xbf)) E)
(L (W x45 x26 x22 x84 xe4 x9c xf2 xcb)))
(T (W x00 x00 x00 x00 x00 x00 x00 x00)
(L (W xff xff xff xff xff xff xff xff))
(L (W x00 x00 x80 xbf x00 x00 x80 xbf))))))))
(T (W x6d xd3 x69 xba x62 x00 x53 x90)
(T (W x00 x00 x00 x00 x00 x00 x00 x00)
(T (W x00 x00 x01 x01 xf7 x01 x00 x00)
(T (W x47 x0d x3b xd5 x81 xfe x20 xbd)
(T (W xff xff xff xff xff xff xff xff)
(T (W x00 x00 x00 x00 x00 x00 x00 x00)
(T (W x45 x26 x22 x84 xe4 x9c xf2 xcb)
(L (W xc8 x02 x00 x00 xff xff xff xff)) E)
(L (W x45 x26 x22 x84 xe4 x9c xf2 xcb)))
(T (W x00 x00 x80 x3f x00 x00 x80 x3f)
(T (W xff xff xff xff xa0 x00 x00 x00)
(L (W x00 x00 x00 x00 x00 x00 x00 x00)) E)
(L (W xff xff xff xff xff xff xff xff))))
(T (W xb2 x06 xfc xff x74 x00 x00 x00)
(T (W x00 x00 x00 x00 x00 x00 x00 x00)
(T (W xff xff xff xff xff xff xff xff)
(L (W xff xff xff xff xff xff xff xff)) E)
(L (W xff xff xff xff x9c x00 x00 x00)))
(T (W x00 x00 x00 x00 x00 x00 x00 x00)
(L (W xff xff xff xff xff xff xff xff))
(L (W x00 x00 x80 xbf x00 x00 x80 xbf)))))
(T (W x48 x03 x00 x00 x34 x02 x00 x00)
(T (W x18 x00 x00 x00 x0c x00 x00 x00)
(T (W x2c x72 xfc xff x3e x00 x00 x00)
(T (W x00 x00 x00 x00 x00 x00 x00 x00)
(L (W x94 x6b xff xff x00 x01 x01 x01)) E)
(L (W x00 x00 x80 xbf x00 x00 x80 xbf)))
(T (W x00 x00 x80 x3f x00 x00 x80 x3f)
(T (W x94 xeb xfd xff x00 x01 x01 x01)
(L (W x94 xeb xff xff x00 x01 x01 x01)) E)
(L (W x00 x00 x80 xbf x00 x00 x80 xbf))))
(T (W x00 x00 x80 x3f x00 x00 x80 x3f)
(T (W xb0 x00 x00 x00 x64 x00 x00 x00)
(T (W xff xff xff xff x01 x00 x00 x00)
(L (W x00 x00 x00 x00 x00 x00 x00 x00)) E)
(L (W x00 x00 x00 x00 x00 x00 x00 x00)))
(T (W xff xff xff xff xff xff xff xff)
(L (W x00 x00 x00 x00 x00 x00 x00 x00))
(L (W xff xff xff xff xff xff xff xff))))))
(T (W x00 x00 x00 x00 x00 x00 x00 x00)
(T (W x00 x00 x00 x00 x00 x00 x00 x00)
(T (W xff xff xff xff x03 x00 x00 x00)
(T (W x00 x00 x00 x00 x00 x00 x00 x00)
(T (W x00 x00 x80 x3f x00 x00 x80 x3f)
(L (W x00 x00 x80 xbf x00 x00 x80 xbf)) E)
(L (W x00 x00 x80 xbf x00 x00 x80 xbf)))
(T (W xcb x01 x00 x00 xff xff xff xff)
(T (W x00 x00 x00 x00 x00 x00 x00 x00)
(L (W x46 x53 x59 x53 x5f x4e x53 x5f)) E)
(L (W x00 x00 x00 x00 x00 x00 x00 x00))))
(T (W x00 x00 x80 x3f x00 x00 x80 x3f)
(T (W x00 x00 x80 x3f x00 x00 x80 x3f)
(T (W x18 x00 x00 x00 x0c x00 x00 x00)
(L (W x00 x00 x00 x00 x00 x00 x00 x00)) E)
(L (W xff xff xff xff xff xff xff xff)))
(T (W x00 x00 x80 x3f x00 x00 x80 x3f)
(L (W x00 x00 x00 x00 x00 x00 x00 x00))
(L (W xb8 x00 x00 x00 x64 x00 x00 x00)))))
(T (W xff xff xff xff xff xff xff xff)
(T (W x00 x00 x80 x3f x00 x00 x80 x3f)
(T (W xff xff xff xff xff xff xff xff)
(T (W x01 x00 x00 x00 x9c x00 x00 x00)
(L (W xc4 x00 x00 x00 x01 x00 x00 x00)) E)
(L (W x68 x00 x00 x00 x5c x00 x00 x00)))
(T (W xff xff xff xff xbc x00 x00 x00)
(T (W x54 x00 x00 x00 x48 x00 x00 x00)
(L (W xff xff xff xff xff xff xff xff)) E)
(L (W x00 x00 x80 xbf x00 x00 x80 xbf))))
(T (W x00 x00 x00 x00 x00 x00 x00 x00)
(T (W x00 x00 x00 x00 x72 xc0 xfc xff)
(T (W x00 x00 x80 x3f x00 x00 x80 x3f)
(L (W xff xff xff xff xff xff xff xff)) E)
(L (W xff xff xff xff xff xff xff xff)))
(T (W xff xff xff xff xff xff xff xff)
(L (W x14 x00 x00 x00 x0c x00 x00 x00))
(L (W xff xff xff xff xff xff xff xff)))))))
(T (W x00 x00 x00 x00 x00 x00 x00 x00)
(T (W x00 x00 x00 x00 x00 x00 x00 x00)
(T (W xfa xff xfd xff xb4 x01 x00 x00)
(T (W xff xff xff xff xff xff xff xff)
(T (W x45 x26 x22 x84 xe4 x9c xf2 xcb)
(T (W x00 x00 x80 x3f x00 x00 x80 x3f)
(L (W x00 x00 x00 x00 x00 x00 x00 x00)) E)
(L (W x6c x00 x00 x00 x60 x00 x00 x00)))
(T (W xff xff xff xff x9c x00 x00 x00)
(T (W x30 x01 x00 x00 x04 x00 x00 x00)
(L (W x00 x00 x00 x00 x00 x00 x00 x00)) E)
(L (W x00 x00 x00 x00 x12 x00 x00 x00))))
(T (W x94 x13 xfc xff x00 x01 x01 x01)
(T (W x49 xa1 x68 x4a xeb x5f xdd x3d)
(T (W x00 x00 x00 x00 x00 x00 x62 x00)
(L (W x00 x00 x00 x00 x00 x00 x00 x00)) E)
(L (W xff xff xff xff xff xff xff xff)))
(T (W x00 x00 x00 x00 x00 x00 x00 x00)
(L (W x00 x00 x00 x00 x00 x00 x00 x00))
(L (W x45 x26 x22 x84 xe4 x9c xf2 xcb)))))
(T (W xff xff xff xff xff xff xff xff)
(T (W xb2 xee xfb xff x74 x00 x00 x00)
(T (W x64 x00 x0c x00 x00 x00 x00 x00)
(T (W x3b xba x33 x97 x85 xa8 x5f x5f)
(L (W xff xff xff xff xbc x00 x00 x00)) E)
(L (W x00 x00 x80 xbf x00 x00 x80 xbf)))
(T (W xff xff xff xff xac x00 x00 x00)
(T (W xff xff xff xff xc0 x00 x00 x00)
(L (W x44 x00 x00 x00 x10 x00 x00 x00)) E)
(L (W x00 x00 x80 xbf x00 x00 x80 xbf))))
(T (W x00 x00 x00 x00 x00 x00 x00 x00)
(T (W xff xff xff xff xff xff xff xff)
(T (W x45 x26 x22 x84 xe4 x9c xf2 xcb)
(L (W xff xff xff xff xff xff xff xff)) E)
(L (W xff xff xff xff xff xff xff xff)))
(T (W xff xff xff xff xff xff xff xff)
(L (W x00 x00 x80 xbf x00 x00 x80 xbf))
(L (W xff xff xff xff xff xff xff xff))))))
(T (W x00 x00 x00 x00 x00 x00 x00 x00)
(T (W x00 x00 x00 x00 x00 x00 x00 x00)
(T (W xff xff xff xff xff xff xff xff)
(T (W x00 x00 x00 x00 x00 x00 x00 x00)
(T (W x00 x00 x00 x00 x00 x00 x00 x00)
(L (W x54 x00 x00 x00 x48 x00 x00 x00)) E)
(L (W x3c x00 x00 x00 x00 x00 x80 xbf)))
(T (W x00 x00 x00 x00 x00 x00 x00 x00)
(T (W x00 x00 x80 xbf x00 x00 x80 xbf)
(L (W x00 x00 x00 x00 x00 x00 x00 x00)) E)
(L (W x49 xa1 x68 x4a xeb x5f xdd x3d))))
(T (W x00 x00 x80 x3f x00 x00 x80 x3f)
(T (W x94 xa3 xfc xff x00 x01 x01 x01)
(T (W x00 x00 x80 xbf x00 x00 x80 xbf)
(L (W x49 xa1 x68 x4a xeb x5f xdd x3d)) E)
(L (W xff xff xff xff xff xff xff xff)))
(T (W x2b x00 x00 x00 x2e x00 x00 x00)
(L (W x00 x00 x00 x00 x00 x00 x00 x00))
(L (W xff xff xff xff xff xff xff xff)))))
(T (W xff xff xff xff xff xff xff xff)
(T (W x68 x00 x00 x00 x5c x00 x00 x00)
(T (W x30 x35 x5f x43 x4c x45 x41 x52)
(T (W x64 x00 x00 x00 x9c x00 x00 x00)
(L (W xff xff xff xff xff xff xff xff)) E)
(L (W x94 x83 xfe xff x00 x01 x01 x01)))
(T (W x02 x00 x00 x00 xff xff xff xff)
(T (W xff xff xff xff x9c x00 x00 x00)
(L (W x00 x00 x80 xbf x00 x00 x80 xbf)) E)
(L (W x00 x00 x80 xbf x00 x00 x80 xbf))))
(T (W x00 x00 x00 x00 x00 x00 x00 x00)
(T (W x00 x00 x00 x00 x00 x00 x00 x00)
(T (W xcc x00 x00 x00 x01 x00 x00 x00)
(L (W x00 x00 x00 x00 x00 x00 x00 x00)) E)
(L (W xff xff xff xff xff xff xff xff)))
(T (W x18 x00 x00 x00 x10 x00 x00 x00)
(L (W x00 x00 x80 xbf x00 x00 x80 xbf))
(L (W xff xff xff xff xff xff xff xff)))))))))))
(T (W x98 xc0 x02 x00 x34 xbe x02 x00)
(T (W xb0 x01 x02 x00 x6c xff x01 x00)
(T (W xa8 xb7 x00 x00 x5c xb5 x00 x00)
(T (W xff xff xff xff xff xff xff xff)
(T (W xff xff xff xff xff xff xff xff)
(T (W xff xff xff xff xff xff xff xff)
(T (W xff xff xff xff xff xff xff xff)
(T (W x00 x00 x80 x3f x00 x00 x80 x3f)
(T (W xff xff xff xff xff xff xff xff)
(T (W x00 x00 x80 x3f x00 x00 x80 x3f)
(L (W x00 x00 x00 x00 x84 x43 xff xff)) E)
(L (W x7c x48 xfe xff x15 x00 x00 x00)))
(T (W xff xff xff xff xff xff xff xff)
(T (W x00 x00 x80 x3f x00 x00 x80 x3f)
(L (W xff xff xff xff xc0 x00 x00 x00)) E)
(L (W x18 x00 x00 x00 x0c x00 x00 x00))))
(T (W x00 x00 x00 x00 x00 x00 x00 x00)
(T (W xff xff xff xff xff xff xff xff)
(T (W x00 x00 x80 x3f x00 x00 x80 x3f)
(L (W x00 x00 x80 xbf x00 x00 x80 xbf)) E)
(L (W x00 x00 x00 x00 x00 x00 x00 x00)))
(T (W x45 x26 x22 x84 xe4 x9c xf2 xcb)
(T (W x00 x00 x80 xbf x00 x00 x80 xbf)
(L (W x68 x00 x00 x00 x5c x00 x00 x00)) E)
(L (W x00 x00 x00 x00 x00 x00 x00 x00)))))
(T (W x18 x00 x00 x00 x0c x00 x00 x00)
(T (W x00 x00 x80 x3f x00 x00 x80 x3f)
(T (W xff xff xff xff xff xff xff xff)
(T (W xff xff xff xff xff xff xff xff)
(L (W x00 x00 x00 x00 x00 x00 x00 x00)) E)
(L (W x00 x00 x00 x00 x00 x00 x00 x00)))
(T (W x38 x01 x00 x00 x04 x00 x00 x00)
(T (W x46 x53 x59 x53 x5f x4e x53 x5f)
(L (W x64 x00 x08 x00 x00 x00 x00 x00)) E)
(L (W x00 x00 x01 x01 xcb x01 x00 x00))))
(T (W x00 x00 x00 x00 x00 x00 x00 x00)
(T (W x00 x00 x00 x00 x00 x00 x00 x00)
(T (W x00 x00 x00 x00 x00 x00 x00 x00)
(L (W xff xff xff xff xff xff xff xff)) E)
(L (W x58 x00 x00 x00 x4c x00 x00 x00)))
(T (W x00 x00 x80 x3f x00 x00 x80 x3f)
(L (W xff xff xff xff xff xff xff xff))
(L (W x54 x00 x00 x00 x48 x00 x00 x00))))))
(T (W xaa x06 xff xff x00 x00 x01 x01)
(T (W x64 x00 x00 x00 x9c x00 x00 x00)
(T (W x50 x00 x00 x00 x44 x00 x00 x00)
(T (W xff xff xff xff xff xff xff xff)
(T (W x00 x00 x00 x00 x00 x00 x00 x00)
(L (W xc8 x02 x00 x00 xff xff xff xff)) E)
(L (W x00 x00 x00 x00 x00 x00 x00 x00)))
(T (W x00 x00 x80 x3f x00 x00 x80 x3f)
(T (W xb0 x00 x00 x00 x64 x00 x00 x00)
(L (W x00 x00 x00 x00 x00 x00 x00 x00)) E)
(L (W xff xff xff xff xff xff xff xff))))
(T (W x00 x00 x00 x00 x00 x00 x00 x00)
(T (W x7d x95 xd4 x99 x70 xbe xe3 x36)
(T (W x8c x74 x24 x4b xf1 xf3 xc9 x32)
(L (W xff xff xff xff xff xff xff xff)) E)
(L (W x00 x00 x00 x00 x84 x93 xfe xff)))
(T (W x00 x00 x00 x00 x00 x00 x00 x00)
(L (W xff xff xff xff xff xff xff xff))
(L (W x45 x26 x22 x84 xe4 x9c xf2 xcb)))))
(T (W x14 xb5 xfb xff x00 x01 x01 x01)
(T (W x45 x26 x22 x84 xe4 x9c xf2 xcb)
(T (W x34 x00 x00 x00 x10 x00 x00 x00)
(T (W x18 x00 x00 x00 x10 x00 x00 x00)
(L (W x54 x00 x00 x00 x48 x00 x00 x00)) E)
(L (W x00 x00 x00 x00 x00 x00 x00 x00)))
(T (W x00 x00 x80 x3f x00 x00 x80 x3f)
(T (W x00 x00 x80 xbf x00 x00 x80 xbf)
(L (W x00 x00 x80 xbf x00 x00 x80 xbf)) E)
(L (W x00 x00 x00 x00 x00 x00 x00 x00))))
(T (W xe5 x2b x34 x29 x3e x52 x68 xfc)
(T (W x18 x00 x00 x00 x10 x00 x00 x00)
(T (W x45 x44 x00 x00 x00 x00 x00 x00)
(L (W x45 x26 x22 x84 xe4 x9c xf2 xcb)) E)
(L (W x00 x00 x80 xbf x00 x00 x80 xbf)))
(T (W x68 x00 x00 x00 x5c x00 x00 x00)
(L (W x00 x00 x00 x00 x00 x00 x00 x00))
(L (W x32 x30 xff xff x74 x00 x00 x00)))))))
(T (W xff xff xff xff xff xff xff xff)
(T (W xf7 x01 x00 x00 xff xff xff xff)
(T (W xff xff xff xff xff xff xff xff)
(T (W x00 x00 x80 x3f x00 x00 x80 x3f)
(T (W xff xff xff xff xff xff xff xff)
(T (W x00 x00 x00 x00 x00 x00 x00 x00)
(L (W xff xff xff xff xff xff xff xff)) E)
(L (W x46 x53 x59 x53 x5f x4e x53 x5f)))
(T (W x00 x00 x00 x00 x00 x00 x00 x00)
(T (W x54 x00 x00 x00 x48 x00 x00 x00)
(L (W xff xff xff xff xff xff xff xff)) E)
(L (W x00 x00 x00 x00 x84 xcb xfe xff))))
(T (W x00 x00 x00 x00 x00 x00 x00 x00)
(T (W xff xff xff xff xff xff xff xff)
(T (W x00 x00 x80 x3f x00 x00 x80 x3f)
(L (W x32 x88 xff xff x74 x00 x00 x00)) E)
(L (W x54 x00 x00 x00 x48 x00 x00 x00)))
(T (W xff xff xff xff xff xff xff xff)
(L (W x18 x00 x00 x00 x10 x00 x00 x00))
(L (W x00 x00 x00 x00 x00 x00 x00 x00)))))
(T (W x40 x00 x00 x00 x9c x00 x00 x00)
(T (W x00 x00 x80 x3f x00 x00 x80 x3f)
(T (W x00 x00 x00 x00 x00 x00 x00 x00)
(T (W xff xff xff xff xff xff xff xff)
(L (W x45 x26 x22 x84 xe4 x9c xf2 xcb)) E)
(L (W x00 x00 x00 x00 x00 x00 x00 x00)))
(T (W x5f x4e x53 x5f x30 x35 x5f x43)
(T (W x00 x00 x00 x00 x00 x00 x00 x00)
(L (W x00 x00 x00 x00 x00 x00 x00 x00)) E)
(L (W x00 x00 x00 x00 x00 x00 x00 x00))))
(T (W x00 x00 x00 x00 x00 x00 x00 x00)
(T (W x54 x00 x00 x00 x48 x00 x00 x00)
(T (W x18 x00 x00 x00 x0c x00 x00 x00)
(L (W x00 x00 x80 xbf x00 x00 x80 xbf)) E)
(L (W x00 x00 x00 x00 x68 x00 x6c x00)))
(T (W x50 x00 x00 x00 x44 x00 x00 x00)
(L (W xff xff xff xff xff xff xff xff))
(L (W x45 x26 x22 x84 xe4 x9c xf2 xcb))))))
(T (W xff xff xff xff xff xff xff xff)
(T (W x00 x00 x00 x00 x84 x9b xfb xff)
(T (W x68 x00 x00 x00 x5c x00 x00 x00)
(T (W xff xff xff xff xff xff xff xff)
(T (W x4c x9d x30 x97 x85 x20 x5c x5f)
(L (W x00 x00 x00 x00 x00 x00 x00 x00)) E)
(L (W x30 x35 x5f x43 x4c x45 x41 x52)))
(T (W xff xff xff xff x9c x00 x00 x00)
(T (W xff xff xff xff xff xff xff xff)
(L (W xff xff xff xff xff xff xff xff)) E)
(L (W xff xff xff xff xff xff xff xff))))
(T (W x00 x00 x00 x00 x00 x00 x00 x00)
(T (W x00 x00 x00 x00 x00 x00 x00 x00)
(T (W x00 x00 x80 xbf x00 x00 x80 xbf)
(L (W xff xff xff xff xff xff xff xff)) E)
(L (W xff xff xff xff xff xff xff xff)))
(T (W x00 x00 x00 x00 x00 x00 x00 x00)
(L (W x85 x00 x00 x00 xff xff xff xff))
(L (W x00 x01 x01 x01 x6a x29 xff xff)))))
(T (W x50 x00 x00 x00 x44 x00 x00 x00)
(T (W x00 x00 x00 x00 x00 x00 x00 x00)
(T (W x45 x26 x22 x84 xe4 x9c xf2 xcb)
(T (W x00 x00 x00 x00 x00 x00 x00 x00)
(L (W x00 x00 x80 xbf x00 x00 x80 xbf)) E)
(L (W x49 xa1 x68 x4a xeb x5f xdd x3d)))
(T (W x32 xf8 xfc xff x74 x00 x00 x00)
(T (W x00 x00 x00 x00 x00 x00 x00 x00)
(L (W xff xff xff xff xff xff xff xff)) E)
(L (W x00 x00 x00 x00 x00 x00 x00 x00))))
(T (W x5c x00 x00 x00 xff xff xff xff)
(T (W x03 x00 x00 x00 xd0 x00 x00 x00)
(T (W x49 xa1 x68 x4a xeb x5f xdd x3d)
(L (W x18 x00 x00 x00 x0c x00 x00 x00)) E)
(L (W x6c x00 x00 x00 x60 x00 x00 x00)))
(T (W x00 x00 x80 x3f x00 x00 x80 x3f)
(L (W x00 x00 x00 x00 x00 x00 x00 x00))
(L (W x18 x00 x00 x00 x0c x00 x00 x00))))))))
(T (W x00 x00 x80 x3f x00 x00 x80 x3f)
(T (W x00 x00 x80 x3f x00 x00 x80 x3f)
(T (W x00 x00 x80 x3f x00 x00 x80 x3f)
(T (W x00 x00 x80 x3f x00 x00 x80 x3f)
(T (W x00 x00 x00 x00 x00 x00 x00 x00)
(T (W x00 x00 x80 x3f x00 x00 x80 x3f)
(T (W xff xff xff xff xff xff xff xff)
(L (W x30 x35 x5f x43 x4c x45 x41 x52)) E)
(L (W x54 x00 x00 x00 x48 x00 x00 x00)))
(T (W x50 x00 x00 x00 x44 x00 x00 x00)
(T (W xff xff xff xff xff xff xff xff)
(L (W x00 x00 x00 x00 x00 x00 x00 x00)) E)
(L (W x00 x00 x00 x00 x00 x00 x00 x00))))
(T (W xb8 x00 x00 x00 xac x00 x00 x00)
(T (W x00 x00 x80 x3f x00 x00 x80 x3f)
(T (W xab xce x36 x97 x85 x2b x63 x5f)
(L (W x00 x00 x00 x00 x00 x00 x00 x00)) E)
(L (W xff xff xff xff xff xff xff xff)))
(T (W x00 x00 x00 x00 x00 x00 x00 x00)
(L (W x00 x00 x00 x00 x00 x00 x00 x00))
(L (W x32 x04 xff xff x74 x00 x00 x00)))))
(T (W x00 x00 x00 x00 x00 x00 x00 x00)
(T (W xff xff xff xff xff xff xff xff)
(T (W x00 x00 x00 x00 x00 x00 x00 x00)
(T (W x00 x00 x80 x3f x00 x00 x80 x3f)
(L (W xff xff xff xff xff xff xff xff)) E)
(L (W x3b x00 x00 x00 x3e x00 x00 x00)))
(T (W x50 x00 x00 x00 x44 x00 x00 x00)
(T (W xff xff xff xff xff xff xff xff)
(L (W x00 x00 x00 x00 x18 xe9 xff xff)) E)
(L (W x00 x00 x00 x00 x84 xe7 xfe xff))))
(T (W x00 x00 x80 x3f x00 x00 x80 x3f)
(T (W xff xff xff xff xff xff xff xff)
(T (W xff xff xff xff xff xff xff xff)
(L (W x00 x00 x80 xbf x00 x00 x80 xbf)) E)
(L (W x30 x35 x5f x43 x4c x45 x41 x52)))
(T (W x38 x01 x00 x00 x04 x00 x00 x00)
(L (W x00 x00 x00 x00 x00 x00 x00 x00))
(L (W x00 x00 x00 x00 x1a x25 xff xff))))))
(T (W x00 x00 x00 x00 x00 x00 x00 x00)
(T (W x00 x00 x00 x00 x00 x00 x00 x00)
(T (W xff xff xff xff xff xff xff xff)
(T (W x45 x26 x22 x84 xe4 x9c xf2 xcb)
(T (W x45 x26 x22 x84 xe4 x9c xf2 xcb)
(L (W x18 x00 x00 x00 x0c x00 x00 x00)) E)
(L (W x40 x00 x00 x00 x00 x00 x80 xbf)))
(T (W x27 x00 x00 x00 x10 x00 x00 x00)
(T (W x00 x00 x80 xbf x00 x00 x80 xbf)
(L (W x49 xa1 x68 x4a xeb x5f xdd x3d)) E)
(L (W x00 x00 x80 xbf x00 x00 x80 xbf))))
(T (W x45 x26 x22 x84 xe4 x9c xf2 xcb)
(T (W xff xff xff xff xa0 x00 x00 x00)
(T (W xb0 x00 x00 x00 x64 x00 x00 x00)
(L (W x00 x00 x80 xbf x00 x00 x80 xbf)) E)
(L (W x00 x00 x00 x00 x12 x00 x00 x00)))
(T (W xff xff xff xff xac x00 x00 x00)
(L (W x45 x26 x22 x84 xe4 x9c xf2 xcb))
(L (W xff xff xff xff xff xff xff xff)))))
(T (W x00 x00 x00 x00 x00 x00 x00 x00)
(T (W xff xff xff xff xff xff xff xff)
(T (W x17 x00 x00 x00 x0c x00 x00 x00)
(T (W xff xff xff xff xff xff xff xff)
(L (W x2c x02 x00 x00 x28 x01 x00 x00)) E)
(L (W xff xff xff xff x9c x00 x00 x00)))
(T (W xff xff xff xff x02 x00 x00 x00)
(T (W xff xff xff xff xff xff xff xff)
(L (W x45 x26 x22 x84 xe4 x9c xf2 xcb)) E)
(L (W x00 x00 x00 x00 x84 xf7 xfe xff))))
(T (W x68 x00 x00 x00 x5c x00 x00 x00)
(T (W x00 x00 x00 x00 x00 x00 x00 x00)
(T (W x00 x00 x00 x00 x00 x00 x00 x00)
(L (W x46 x53 x59 x53 x5f x4e x53 x5f)) E)
(L (W xff xff xff xff xff xff xff xff)))
(T (W x04 x00 x00 x00 x2a xc3 xff xff)
(L (W xb0 x00 x00 x00 x64 x00 x00 x00))
(L (W x45 x44 x00 x00 x00 x00 x00 x00)))))))
(T (W x45 x26 x22 x84 xe4 x9c xf2 xcb)
(T (W x00 x00 x80 x3f x00 x00 x80 x3f)
(T (W x00 x00 x80 x3f x00 x00 x80 x3f)
(T (W x00 x00 x00 x00 x02 x00 x00 x00)
(T (W x00 x00 x80 x3f x00 x00 x80 x3f)
(T (W x18 x00 x00 x00 x10 x00 x00 x00)
(L (W x45 x26 x22 x84 xe4 x9c xf2 xcb)) E)
(L (W xea x4d xfe xff x78 x00 x00 x00)))
(T (W xff xff xff xff xff xff xff xff)
(T (W x00 x00 x00 x00 x00 x00 x00 x00)
(L (W x00 x00 x80 xbf x00 x00 x80 xbf)) E)
(L (W x00 x00 x00 x00 x00 x00 x00 x00))))
(T (W xff xff xff xff x04 x00 x00 x00)
(T (W x6c x00 x00 x00 x60 x00 x00 x00)
(T (W xff xff xff xff xff xff xff xff)
(L (W x00 x00 x00 x00 x12 x00 x00 x00)) E)
(L (W xff xff xff xff xff xff xff xff)))
(T (W x00 x00 x80 x3f x00 x00 x80 x3f)
(L (W x00 x00 x00 x00 x12 x00 x00 x00))
(L (W x26 x00 x00 x00 x29 x00 x00 x00)))))
(T (W xac xb7 xfb xff x3c x00 x00 x00)
(T (W xff xff xff xff xff xff xff xff)
(T (W x00 x00 x00 x00 x00 x00 x00 x00)
(T (W x00 x00 x00 x00 x00 x00 x00 x00)
(L (W xbc x01 x00 x00 xff xff xff xff)) E)
(L (W x00 x00 x00 x00 x18 x71 xfe xff)))
(T (W x03 x00 x00 x00 xcc x00 x00 x00)
(T (W xff xff xff xff xc4 x00 x00 x00)
(L (W xaa x01 x00 x00 xff xff xff xff)) E)
(L (W x45 x26 x22 x84 xe4 x9c xf2 xcb))))
(T (W x50 x00 x00 x00 x44 x00 x00 x00)
(T (W x02 x00 x00 x00 x30 x01 x00 x00)
(T (W x45 x26 x22 x84 xe4 x9c xf2 xcb)
(L (W x00 x00 x00 x00 x00 x00 x00 x00)) E)
(L (W xff xff xff xff xff xff xff xff)))
(T (W x00 x00 x00 x00 x00 x00 x00 x00)
(L (W x18 x00 x00 x00 x0c x00 x00 x00))
(L (W x00 x00 x00 x00 x00 x00 x00 x00))))))
(T (W x45 x26 x22 x84 xe4 x9c xf2 xcb)
(T (W x00 x00 x00 x00 x00 x00 x00 x00)
(T (W xff xff xff xff xff xff xff xff)
(T (W x00 x00 x00 x00 x00 x00 x00 x00)
(T (W x00 x00 x80 x3f x00 x00 x80 x3f)
(L (W xff xff xff xff xc8 x00 x00 x00)) E)
(L (W xff xff xff xff xff xff xff xff)))
(T (W x45 x26 x22 x84 xe4 x9c xf2 xcb)
(T (W x50 x00 x00 x00 x44 x00 x00 x00)
(L (W x45 x26 x22 x84 xe4 x9c xf2 xcb)) E)
(L (W x6c x00 x00 x00 x60 x00 x00 x00))))
(T (W x68 x00 x00 x00 x5c x00 x00 x00)
(T (W xff xff xff xff xff xff xff xff)
(T (W x00 x00 x80 xbf x00 x00 x80 xbf)
(L (W x00 x00 x80 xbf x00 x00 x80 xbf)) E)
(L (W x00 x00 x00 x00 x00 x00 x00 x00)))
(T (W xff xff xff xff xbc x00 x00 x00)
(L (W x00 x00 x80 xbf x00 x00 x80 xbf))
(L (W xff xff xff xff xff xff xff xff)))))
(T (W xac xc7 xfb xff x27 x00 x00 x00)
(T (W xff xff xff xff xff xff xff xff)
(T (W x00 x00 x00 x00 x00 x00 x00 x00)
(T (W xd0 x00 x00 x00 xac x00 x00 x00)
(L (W x8f x01 x00 x00 xff xff xff xff)) E)
(L (W xff xff xff xff xff xff xff xff)))
(T (W x13 x00 x00 x00 x10 x00 x00 x00)
(T (W xff xff xff xff xff xff xff xff)
(L (W x00 x00 x60 x00 x00 x00 x00 x00)) E)
(L (W x00 x00 x80 xbf x00 x00 x80 xbf))))
(T (W x32 x3c xfc xff x74 x00 x00 x00)
(T (W x00 x00 x00 x00 x00 x00 x00 x00)
(T (W xff xff xff xff xff xff xff xff)
(L (W x00 x00 x00 x00 x00 x00 x00 x00)) E)
(L (W xa8 x01 x00 x00 xff xff xff xff)))
(T (W xff xff xff xff xff xff xff xff)
(L (W xbc x00 x00 x00 x01 x00 x00 x00))
(L (W x00 x00 x00 x00 x00 x00 x00 x00)))))))))
(T (W x00 x00 x80 x3f x00 x00 x80 x3f)
(T (W x24 x00 x00 x00 x0c x00 x00 x00)
(T (W x00 x00 x00 x00 x00 x00 x00 x00)
(T (W x00 x00 x00 x00 x00 x00 x00 x00)
(T (W xac x8d xfb xff x3c x00 x00 x00)
(T (W xff xff xff xff xff xff xff xff)
(T (W x00 x00 x00 x00 x00 x00 x00 x00)
(T (W x45 x26 x22 x84 xe4 x9c xf2 xcb)
(L (W xff xff xff xff xff xff xff xff)) E)
(L (W x00 x00 x80 xbf x00 x00 x80 xbf)))
(T (W x00 x00 x00 x00 x00 x00 x00 x00)
(T (W xff xff xff xff xa0 x00 x00 x00)
(L (W xac x01 x00 x00 xff xff xff xff)) E)
(L (W xff xff xff xff xff xff xff xff))))
(T (W x00 x00 x80 x3f x00 x00 x80 x3f)
(T (W x63 x40 x8e x7f x40 xa2 xa4 xd9)
(T (W x18 x00 x00 x00 x0c x00 x00 x00)
(L (W xff xff xff xff xff xff xff xff)) E)
(L (W xff xff xff xff xa0 x00 x00 x00)))
(T (W x00 x00 x00 x00 x00 x00 x00 x00)
(L (W xff xff xff xff xff xff xff xff))
(L (W x45 x26 x22 x84 xe4 x9c xf2 xcb)))))
(T (W xff xff xff xff xff xff xff xff)
(T (W x40 x00 x00 x00 x9c x00 x00 x00)
(T (W x00 x00 x00 x00 x00 x00 x00 x00)
(T (W x00 x00 x00 x00 x00 x00 x00 x00)
(L (W x14 x67 xff xff x00 x01 x01 x01)) E)
(L (W x45 x26 x22 x84 xe4 x9c xf2 xcb)))
(T (W x45 x26 x22 x84 xe4 x9c xf2 xcb)
(T (W xea xe3 xfd xff x78 x00 x00 x00)
(L (W x00 x00 x80 xbf x00 x00 x80 xbf)) E)
(L (W x00 x00 x00 x00 x00 x00 x00 x00))))
(T (W x00 x00 x80 x3f x00 x00 x80 x3f)
(T (W x18 x00 x00 x00 x10 x00 x00 x00)
(T (W x50 x00 x00 x00 x44 x00 x00 x00)
(L (W x00 x00 x00 x00 x00 x00 x00 x00)) E)
(L (W xff xff xff xff xff xff xff xff)))
(T (W xff xff xff xff xb0 x00 x00 x00)
(L (W x00 x00 x01 x01 xdd x00 x00 x00))
(L (W xff xff xff xff xc8 x00 x00 x00))))))
(T (W x00 x00 x00 x00 x00 x00 x00 x00)
(T (W x00 x00 x00 x00 x02 x00 x00 x00)
(T (W x00 x00 x00 x00 x84 xd5 xfb xff)
(T (W x4d x94 x33 x48 x6d xc9 xc6 xcb)
(T (W x00 x00 x80 x3f x00 x00 x80 x3f)
(L (W x00 x00 x00 x00 x00 x00 x00 x00)) E)
(L (W x00 x00 x00 x00 x00 x00 x00 x00)))
(T (W xff xff xff xff xbc x00 x00 x00)
(T (W x00 x00 x00 x00 x00 x00 x00 x00)
(L (W x00 x00 x00 x00 x12 x00 x00 x00)) E)
(L (W x7c xda xfe xff x18 x00 x00 x00))))
(T (W x45 x26 x22 x84 xe4 x9c xf2 xcb)
(T (W x45 x26 x22 x84 xe4 x9c xf2 xcb)
(T (W x84 x00 x10 x00 x00 x00 x14 x00)
(L (W x00 x00 x00 x00 x00 x00 x00 x00)) E)
(L (W xff xff xff xff xff xff xff xff)))
(T (W x4f x84 x6f x8b xe8 xcb x63 xb7)
(L (W xdc x7f xc7 x28 xbf xcc x78 x6a))
(L (W xbc x00 x00 x00 x64 x00 x00 x00)))))
(T (W xff xff xff xff xff xff xff xff)
(T (W x68 x00 x00 x00 x5c x00 x00 x00)
(T (W xff xff xff xff xff xff xff xff)
(T (W x45 x26 x22 x84 xe4 x9c xf2 xcb)
(L (W xc4 x00 x00 x00 x01 x00 x00 x00)) E)
(L (W x00 x00 x80 xbf x00 x00 x80 xbf)))
(T (W x32 xf2 xfc xff x74 x00 x00 x00)
(T (W xea xf3 xfd xff x78 x00 x00 x00)
(L (W xff xff xff xff xff xff xff xff)) E)
(L (W x00 x00 x80 xbf x00 x00 x80 xbf))))
(T (W x00 x00 x00 x00 x00 x00 x00 x00)
(T (W xff xff xff xff xff xff xff xff)
(T (W xcc x00 x00 x00 x01 x00 x00 x00)
(L (W x00 x00 x00 x00 x5a xb6 xff xff)) E)
(L (W xff xff xff xff xb0 x00 x00 x00)))
(T (W xff xff xff xff xff xff xff xff)
(L (W x00 x00 x80 xbf x00 x00 x80 xbf))
(L (W xff xff xff xff xff xff xff xff)))))))
(T (W x00 x00 x00 x00 x00 x00 x00 x00)
(T (W x00 x00 x00 x00 x00 x00 x00 x00)
(T (W x00 x00 x00 x00 x00 x00 x00 x00)
(T (W x64 x00 x00 x00 x9c x00 x00 x00)
(T (W x00 x00 x00 x00 x00 x00 x00 x00)
(T (W x00 x00 x80 x3f x00 x00 x80 x3f)
(L (W x00 x00 x00 x00 xe2 x4c xff xff)) E)
(L (W x00 x00 x80 xbf x00 x00 x80 xbf)))
(T (W x00 x00 x80 x3f x00 x00 x80 x3f)
(T (W xff xff xff xff xff xff xff xff)
(L (W x00 x00 x00 x00 x00 x00 x00 x00)) E)
(L (W xcc x01 x00 x00 xff xff xff xff))))
(T (W x00 x00 x80 x3f x00 x00 x80 x3f)
(T (W x00 x00 x00 x00 x00 x00 x00 x00)
(T (W x18 x00 x00 x00 x10 x00 x00 x00)
(L (W xff xff xff xff xff xff xff xff)) E)
(L (W x03 x00 x00 x00 xd0 x00 x00 x00)))
(T (W x00 x00 x00 x00 x00 x00 x00 x00)
(L (W xff xff xff xff xff xff xff xff))
(L (W x00 x00 x80 xbf x00 x00 x80 xbf)))))
(T (W xff xff xff xff xff xff xff xff)
(T (W x01 x00 x00 x00 x3e x00 x00 x00)
(T (W xff xff xff xff x03 x00 x00 x00)
(T (W x6d xc4 x33 x97 x85 xae x5f x5f)
(L (W x00 x00 x00 x00 x84 x6d xff xff)) E)
(L (W x00 x00 x80 xbf x00 x00 x80 xbf)))
(T (W x50 x00 x00 x00 x44 x00 x00 x00)
(T (W x54 x00 x00 x00 x48 x00 x00 x00)
(L (W x32 xea xff xff x74 x00 x00 x00)) E)
(L (W x00 x00 x80 xbf x00 x00 x80 xbf))))
(T (W x00 x00 x80 x3f x00 x00 x80 x3f)
(T (W x03 x00 x00 x00 xd0 x00 x00 x00)
(T (W x64 x5f x70 x6f x6b x65 x5f x77)
(L (W xff xff xff xff xff xff xff xff)) E)
(L (W x00 x00 x00 x00 x84 xad xfe xff)))
(T (W xff xff xff xff xff xff xff xff)
(L (W x4f x84 x6f x8b xe8 xcb x63 xb7))
(L (W xff xff xff xff xff xff xff xff))))))
(T (W x00 x00 x00 x00 x00 x00 x00 x00)
(T (W xff xff xff xff xff xff xff xff)
(T (W x18 x00 x00 x00 x0c x00 x00 x00)
(T (W x7a xcb xfe xff x40 x00 x00 x00)
(T (W x00 x00 x00 x00 x00 x00 x00 x00)
(L (W x00 x00 x80 xbf x00 x00 x80 xbf)) E)
(L (W x00 x00 x80 xbf x00 x00 x80 xbf)))
(T (W x00 x00 x00 x00 x01 x00 x00 x00)
(T (W x00 x00 x00 x00 x00 x00 x00 x00)
(L (W x2e x00 x00 x00 x0c x00 x00 x00)) E)
(L (W x49 xa1 x68 x4a xeb x5f xdd x3d))))
(T (W x00 x00 x80 x3f x00 x00 x80 x3f)
(T (W x00 x00 x80 x3f x00 x00 x80 x3f)
(T (W x58 x00 x00 x00 x00 x00 x5c x00)
(L (W x00 x00 x00 x00 x12 x00 x00 x00)) E)
(L (W xff xff xff xff xff xff xff xff)))
(T (W x68 x00 x00 x00 x5c x00 x00 x00)
(L (W x00 x00 x00 x00 x12 x00 x00 x00))
(L (W xc4 x00 x00 x00 x02 x00 x00 x00)))))
(T (W xff xff xff xff xff xff xff xff)
(T (W xea xfb xfb xff x78 x00 x00 x00)
(T (W xff xff xff xff xff xff xff xff)
(T (W x00 x00 x80 x3f x00 x00 x80 x3f)
(L (W xff xff xff xff xc8 x00 x00 x00)) E)
(L (W x54 x00 x00 x00 x48 x00 x00 x00)))
(T (W xff xff xff xff xff xff xff xff)
(T (W x00 x00 x00 x00 x84 xfd xfd xff)
(L (W x00 x00 x00 x00 x00 x00 x00 x00)) E)
(L (W x00 x00 x80 xbf x00 x00 x80 xbf))))
(T (W x00 x00 x00 x00 x00 x00 x00 x00)
(T (W x02 x00 x00 x00 x30 x01 x00 x00)
(T (W xc4 x00 x00 x00 x01 x00 x00 x00)
(L (W xff xff xff xff xff xff xff xff)) E)
(L (W xff xff xff xff xc0 x00 x00 x00)))
(T (W x18 x00 x00 x00 x10 x00 x00 x00)
(L (W x00 x00 x80 xbf x00 x00 x80 xbf))
(L (W xff xff xff xff xff xff xff xff))))))))
(T (W x00 x00 x80 x3f x00 x00 x80 x3f)
(T (W x68 x00 x00 x00 x5c x00 x00 x00)
(T (W x00 x00 x00 x00 x04 x00 x00 x00)
(T (W x00 x00 x80 x3f x00 x00 x80 x3f)
(T (W x00 x00 x80 x3f x00 x00 x80 x3f)
(T (W x0a x00 x00 x00 x3e x00 x00 x00)
(T (W x0f x64 x2e x97 x85 x1e x59 x5f)
(L (W x00 x00 x80 xbf x00 x00 x80 xbf)) E)
(L (W xb8 x00 x00 x00 x64 x00 x00 x00)))
(T (W xff xff xff xff xff xff xff xff)
(T (W x30 x35 x5f x43 x4c x45 x41 x52)
(L (W x18 x00 x00 x00 x0c x00 x00 x00)) E)
(L (W x00 x00 x80 xbf x00 x00 x80 xbf))))
(T (W x00 x00 x00 x00 x00 x00 x00 x00)
(T (W x32 x86 xfc xff x74 x00 x00 x00)
(T (W x00 x00 x00 x00 x00 x00 x00 x00)
(L (W x45 x26 x22 x84 xe4 x9c xf2 xcb)) E)
(L (W x4c x45 x41 x52 x45 x44 x00 x00)))
(T (W x45 x26 x22 x84 xe4 x9c xf2 xcb)
(L (W x00 x00 x00 x00 x00 x00 x00 x00))
(L (W xff xff xff xff xff xff xff xff)))))
(T (W x00 x00 x80 x3f x00 x00 x80 x3f)
(T (W x7c xee xfb xff x1b x00 x00 x00)
(T (W x00 x00 x80 x3f x00 x00 x80 x3f)
(T (W x45 x26 x22 x84 xe4 x9c xf2 xcb)
(L (W x00 x00 x00 x00 xe2 x68 xff xff)) E)
(L (W xff xff xff xff xff xff xff xff)))
(T (W xff xff xff xff xff xff xff xff)
(T (W x00 x00 x00 x00 x00 x00 x00 x00)
(L (W x02 x00 x00 x00 x30 x01 x00 x00)) E)
(L (W xff xff xff xff xff xff xff xff))))
(T (W xff xff xff xff xff xff xff xff)
(T (W x00 x00 x00 x00 x12 x00 x00 x00)
(T (W x00 x00 x80 x3f x00 x00 x80 x3f)
(L (W x32 xa6 xff xff x74 x00 x00 x00)) E)
(L (W x00 x00 x80 xbf x00 x00 x80 xbf)))
(T (W x45 x26 x22 x84 xe4 x9c xf2 xcb)
(L (W x20 x00 x24 x00 x00 x00 x00 x00))
(L (W x00 x00 x00 x00 x00 x00 x00 x00))))))
(T (W x14 x7b xfb xff x00 x01 x01 x01)
(T (W x50 x00 x00 x00 x44 x00 x00 x00)
(T (W x00 x00 x00 x00 x00 x00 x00 x00)
(T (W x32 x56 xfc xff x74 x00 x00 x00)
(T (W xff xff xff xff xff xff xff xff)
(L (W xff xff xff xff xff xff xff xff)) E)
(L (W xff xff xff xff xff xff xff xff)))
(T (W x00 x00 x80 x3f x00 x00 x80 x3f)
(T (W x45 x26 x22 x84 xe4 x9c xf2 xcb)
(L (W x00 x01 x01 x01 x72 xe2 xff xff)) E)
(L (W x18 x00 x00 x00 x10 x00 x00 x00))))
(T (W xff xff xff xff xff xff xff xff)
(T (W xff xff xff xff xff xff xff xff)
(T (W x32 x00 x00 x00 x10 x00 x00 x00)
(L (W xff xff xff xff xa0 x00 x00 x00)) E)
(L (W x00 x00 x80 xbf x00 x00 x80 xbf)))
(T (W xff xff xff xff xff xff xff xff)
(L (W x00 x00 x00 x00 x84 x19 xfe xff))
(L (W x00 x00 x00 x00 x12 x00 x00 x00)))))
(T (W x45 x26 x22 x84 xe4 x9c xf2 xcb)
(T (W xff xff xff xff xff xff xff xff)
(T (W x00 x00 x80 x3f x00 x00 x80 x3f)
(T (W xac x81 xfd xff x34 x00 x00 x00)
(L (W x00 x00 x00 x00 x00 x00 x00 x00)) E)
(L (W x00 x00 x00 x00 xf2 x7f xfe xff)))
(T (W x00 x00 x00 x00 x00 x00 x00 x00)
(T (W xff xff xff xff xff xff xff xff)
(L (W x00 x00 x00 x00 x00 x00 x00 x00)) E)
(L (W xff xff xff xff xff xff xff xff))))
(T (W x45 x26 x22 x84 xe4 x9c xf2 xcb)
(T (W x00 x00 x80 x3f x00 x00 x80 x3f)
(T (W xff xff xff xff xff xff xff xff)
(L (W x4f x84 x6f x8b xe8 xcb x63 xb7)) E)
(L (W x00 x00 x00 x00 x00 x00 x00 x00)))
(T (W x00 x00 x00 x00 x00 x00 x00 x00)
(L (W x45 x44 x00 x00 x00 x00 x00 x00))
(L (W x00 x00 x00 x00 x00 x00 x00 x00)))))))
(T (W x18 x00 x00 x00 x10 x00 x00 x00)
(T (W xbc x00 x00 x00 xb0 x00 x00 x00)
(T (W x00 x00 x80 x3f x00 x00 x80 x3f)
(T (W x00 x00 x00 x00 x00 x00 x00 x00)
(T (W xc0 x00 x00 x00 xb4 x00 x00 x00)
(T (W xff xff xff xff xff xff xff xff)
(L (W x18 x00 x00 x00 x10 x00 x00 x00)) E)
(L (W xff xff xff xff xff xff xff xff)))
(T (W x00 x00 x00 x00 x00 x00 x00 x00)
(T (W x00 x00 x80 x3f x00 x00 x80 x3f)
(L (W x00 x00 x00 x00 x84 xd1 xff xff)) E)
(L (W x14 xd3 xfe xff x00 x01 x01 x01))))
(T (W x20 x01 x00 x00 x04 x00 x00 x00)
(T (W xff xff xff xff xff xff xff xff)
(T (W x50 x00 x00 x00 x44 x00 x00 x00)
(L (W x00 x00 x80 xbf x00 x00 x80 xbf)) E)
(L (W x00 x00 x00 x00 x00 x00 x00 x00)))
(T (W xff xff xff xff x9c x00 x00 x00)
(L (W x00 x00 x80 xbf x00 x00 x80 xbf))
(L (W x02 x00 x00 x00 x38 x01 x00 x00)))))
(T (W x00 x00 x00 x00 x00 x00 x00 x00)
(T (W x01 x00 x00 x00 x04 x00 x00 x00)
(T (W x00 x00 x80 x3f x00 x00 x80 x3f)
(T (W x00 x00 x80 x3f x00 x00 x80 x3f)
(L (W x00 x00 x00 x00 x00 x00 x00 x00)) E)
(L (W xff xff xff xff xff xff xff xff)))
(T (W x00 x00 x00 x00 x04 x00 x00 x00)
(T (W x00 x00 x00 x00 x00 x00 x00 x00)
(L (W x30 x35 x5f x43 x4c x45 x41 x52)) E)
(L (W xff xff xff xff xff xff xff xff))))
(T (W xb8 x00 x00 x00 xac x00 x00 x00)
(T (W x00 x00 x00 x00 x00 x00 x00 x00)
(T (W xb8 x00 x00 x00 x64 x00 x00 x00)
(L (W x00 x00 x80 xbf x00 x00 x80 xbf)) E)
(L (W x4f x84 x6f x8b xe8 xcb x63 xb7)))
(T (W x45 x26 x22 x84 xe4 x9c xf2 xcb)
(L (W xff xff xff xff xff xff xff xff))
(L (W x45 x26 x22 x84 xe4 x9c xf2 xcb))))))
(T (W x50 x00 x00 x00 x44 x00 x00 x00)
(T (W x68 x00 x00 x00 x5c x00 x00 x00)
(T (W x00 x00 x00 x00 x00 x00 x00 x00)
(T (W x14 x63 xfc xff x00 x01 x01 x01)
(T (W x18 x00 x00 x00 x10 x00 x00 x00)
(L (W x63 x01 x00 x00 xff xff xff xff)) E)
(L (W xff xff xff xff xff xff xff xff)))
(T (W x45 x26 x22 x84 xe4 x9c xf2 xcb)
(T (W xff xff xff xff xff xff xff xff)
(L (W x45 x26 x22 x84 xe4 x9c xf2 xcb)) E)
(L (W x03 x00 x00 x00 xd8 x00 x00 x00))))
(T (W xff xff xff xff xff xff xff xff)
(T (W x00 x00 x00 x00 x00 x00 x00 x00)
(T (W xff xff xff xff xff xff xff xff)
(L (W xff xff xff xff xff xff xff xff)) E)
(L (W x00 x00 x80 xbf x00 x00 x80 xbf)))
(T (W x5f x4e x53 x5f x30 x35 x5f x43)
(L (W xc4 x00 x00 x00 x01 x00 x00 x00))
(L (W x00 x00 x00 x00 x00 x00 x00 x00)))))
(T (W x00 x00 x80 x3f x00 x00 x80 x3f)
(T (W xea x70 xfe xff x00 x00 x01 x01)
(T (W x6c x00 x00 x00 x60 x00 x00 x00)
(T (W x00 x00 x00 x00 x00 x00 x00 x00)
(L (W x4f x84 x6f x8b xe8 xcb x63 xb7)) E)
(L (W x00 x00 x00 x00 x00 x00 x00 x00)))
(T (W x00 x00 x80 x3f x00 x00 x80 x3f)
(T (W x5f x4e x53 x5f x30 x35 x5f x43)
(L (W x0c x00 x0a x00 x07 x00 x00 x00)) E)
(L (W xff xff xff xff xff xff xff xff))))
(T (W x01 x00 x00 x00 x9c x00 x00 x00)
(T (W x32 xbe xfc xff x74 x00 x00 x00)
(T (W x00 x00 x00 x00 x00 x00 x00 x00)
(L (W x6c x00 x00 x00 x60 x00 x00 x00)) E)
(L (W x00 x00 x00 x00 x00 x00 x00 x00)))
(T (W x00 x00 x00 x00 x00 x00 x00 x00)
(L (W xff xff xff xff xff xff xff xff))
(L (W x00 x00 x80 xbf x00 x00 x80 xbf))))))))))
(T (W xe8 x61 x01 x00 x3c x5d x01 x00)
(T (W x58 x27 x00 x00 x24 x26 x00 x00)
(T (W xff xff xff xff xff xff xff xff)
(T (W x00 x00 x01 x01 x74 x02 x00 x00)
(T (W x00 x00 x01 x01 xf7 x01 x00 x00)
(T (W xff xff xff xff xff xff xff xff)
(T (W x14 xc6 xfb xff x00 x01 x01 x01)
(T (W xb7 x8a x7a x05 x59 x91 x58 x03)
(T (W x00 x00 x80 x3f x00 x00 x80 x3f)
(L (W xff xff xff xff xff xff xff xff)) E)
(L (W x4f x84 x6f x8b xe8 xcb x63 xb7)))
(T (W x32 x00 x00 x00 x10 x00 x00 x00)
(T (W x6c x00 x00 x00 x60 x00 x00 x00)
(L (W xff xff xff xff xff xff xff xff)) E)
(L (W xff xff xff xff xff xff xff xff))))
(T (W x45 x26 x22 x84 xe4 x9c xf2 xcb)
(T (W xff xff xff xff xff xff xff xff)
(T (W x00 x00 x80 x3f x00 x00 x80 x3f)
(L (W x00 x00 x00 x00 x84 x84 xff xff)) E)
(L (W x6c x00 x00 x00 x60 x00 x00 x00)))
(T (W xff xff xff xff xff xff xff xff)
(L (W x32 x01 xfe xff x74 x00 x00 x00))
(L (W x00 x00 x00 x00 x00 x00 x00 x00)))))
(T (W x64 x00 x00 x00 x9c x00 x00 x00)
(T (W x45 x26 x22 x84 xe4 x9c xf2 xcb)
(T (W xff xff xff xff xff xff xff xff)
(T (W x09 xb0 x33 x97 x85 xa2 x5f x5f)
(L (W x45 x26 x22 x84 xe4 x9c xf2 xcb)) E)
(L (W x00 x00 x00 x00 x00 x00 x00 x00)))
(T (W x00 x00 x00 x00 x00 x00 x00 x00)
(T (W x00 x00 x00 x00 x00 x00 x00 x00)
(L (W x00 x00 x80 xbf x00 x00 x80 xbf)) E)
(L (W x46 x53 x59 x53 x5f x4e x53 x5f))))
(T (W x45 x26 x22 x84 xe4 x9c xf2 xcb)
(T (W x54 x00 x00 x00 x48 x00 x00 x00)
(T (W x45 x26 x22 x84 xe4 x9c xf2 xcb)
(L (W x45 x44 x00 x00 x00 x00 x00 x00)) E)
(L (W x03 x00 x00 x00 xd8 x00 x00 x00)))
(T (W x00 x00 x80 x3f x00 x00 x80 x3f)
(L (W x63 x01 x00 x00 xff xff xff xff))
(L (W x45 x26 x22 x84 xe4 x9c xf2 xcb))))))
(T (W x00 x00 x00 x00 x00 x00 x00 x00)
(T (W xff xff xff xff xff xff xff xff)
(T (W x32 xd1 xfb xff x74 x00 x00 x00)
(T (W xff xff xff xff xff xff xff xff)
(T (W x00 x00 x00 x00 x00 x00 x00 x00)
(L (W x00 x00 x00 x00 x00 x00 x00 x00)) E)
(L (W x00 x00 x00 x00 x00 x00 x00 x00)))
(T (W x32 xd1 xfc xff x74 x00 x00 x00)
(T (W xff xff xff xff xff xff xff xff)
(L (W x00 x00 x00 x00 x00 x00 x00 x00)) E)
(L (W xff xff xff xff xff xff xff xff))))
(T (W x00 x00 x00 x00 x00 x00 x00 x00)
(T (W x00 x00 x00 x00 x00 x00 x00 x00)
(T (W x34 x00 x04 x00 x08 x00 x0c x00)
(L (W x00 x00 x00 x00 x00 x00 x00 x00)) E)
(L (W xff xff xff xff xb0 x00 x00 x00)))
(T (W x00 x00 x00 x00 x00 x00 x00 x00)
(L (W xff xff xff xff xff xff xff xff))
(L (W x14 x16 xff xff x00 x01 x01 x01)))))
(T (W xff xff xff xff xff xff xff xff)
(T (W x00 x00 x80 x3f x00 x00 x80 x3f)
(T (W x6c x00 x00 x00 x60 x00 x00 x00)
(T (W x30 x00 x34 x00 x38 x00 x3c x00)
(L (W x45 x26 x22 x84 xe4 x9c xf2 xcb)) E)
(L (W x00 x00 x80 xbf x00 x00 x80 xbf)))
(T (W x00 x00 x80 x3f x00 x00 x80 x3f)
(T (W x00 x00 x80 xbf x00 x00 x80 xbf)
(L (W x74 x00 x00 x00 x68 x00 x00 x00)) E)
(L (W x00 x00 x80 xbf x00 x00 x80 xbf))))
(T (W x00 x00 x00 x00 x00 x00 x00 x00)
(T (W x03 x00 x00 x00 xd0 x00 x00 x00)
(T (W x00 x00 x00 x00 x00 x00 x00 x00)
(L (W xff xff xff xff xff xff xff xff)) E)
(L (W x00 x00 x00 x00 x84 xb4 xfe xff)))
(T (W x32 x31 xfd xff x74 x00 x00 x00)
(L (W x4f x84 x6f x8b xe8 xcb x63 xb7))
(L (W xff xff xff xff xff xff xff xff)))))))
(T (W xff xff xff xff x01 x00 x00 x00)
(T (W x00 x00 x00 x00 x00 x00 x00 x00)
(T (W xb5 x01 x00 x00 xff xff xff xff)
(T (W x50 x00 x00 x00 x44 x00 x00 x00)
(T (W x43 x00 x00 x00 xff xff xff xff)
(T (W x00 x00 x80 x3f x00 x00 x80 x3f)
(L (W xff xff xff xff xff xff xff xff)) E)
(L (W x00 x00 x00 x00 x00 x00 x00 x00)))
(T (W x45 x26 x22 x84 xe4 x9c xf2 xcb)
(T (W x45 x26 x22 x84 xe4 x9c xf2 xcb)
(L (W x00 x00 x00 x00 xf2 xd2 xff xff)) E)
(L (W xff xff xff xff xff xff xff xff))))
(T (W x00 x00 x00 x00 x00 x00 x00 x00)
(T (W x57 x86 x76 x62 xa4 xfa xab x13)
(T (W x45 x26 x22 x84 xe4 x9c xf2 xcb)
(L (W xff xff xff xff xff xff xff xff)) E)
(L (W x18 x00 x00 x00 x10 x00 x00 x00)))
(T (W xff xff xff xff x02 x00 x00 x00)
(L (W x03 x00 x00 x00 xd0 x00 x00 x00))
(L (W x00 x00 x80 xbf x00 x00 x80 xbf)))))
(T (W xff xff xff xff x03 x00 x00 x00)
(T (W x00 x00 x80 x3f x00 x00 x80 x3f)
(T (W x00 x00 x00 x00 x00 x00 x00 x00)
(T (W xff xff xff xff xff xff xff xff)
(L (W x00 x00 x80 xbf x00 x00 x80 xbf)) E)
(L (W x00 x00 x80 xbf x00 x00 x80 xbf)))
(T (W x00 x00 x00 x00 x00 x00 x00 x00)
(T (W x00 x00 x80 xbf x00 x00 x80 xbf)
(L (W x00 x00 x80 xbf x00 x00 x80 xbf)) E)
(L (W x45 x26 x22 x84 xe4 x9c xf2 xcb))))
(T (W x00 x00 x00 x00 x00 x00 x00 x00)
(T (W x18 x00 x00 x00 x10 x00 x00 x00)
(T (W xff xff xff xff xff xff xff xff)
(L (W xff xff xff xff xff xff xff xff)) E)
(L (W x12 x00 x00 x00 x46 x53 x59 x53)))
(T (W xbc x00 x00 x00 xb0 x00 x00 x00)
(L (W x00 x00 x00 x00 x00 x00 x00 x00))
(L (W xff xff xff xff xc8 x00 x00 x00))))))
(T (W x00 x00 x00 x00 x04 x00 x00 x00)
(T (W xff xff xff xff xff xff xff xff)
(T (W x00 x00 x00 x00 x84 xdc xfb xff)
(T (W xff xff xff xff xff xff xff xff)
(T (W x00 x00 x00 x00 x00 x00 x00 x00)
(L (W x00 x00 x00 x00 x00 x00 x00 x00)) E)
(L (W x00 x00 x00 x00 x00 x00 x00 x00)))
(T (W xff xff xff xff xff xff xff xff)
(T (W x00 x00 x00 x00 x00 x00 x00 x00)
(L (W xff xff xff xff xff xff xff xff)) E)
(L (W x1b x00 x00 x00 x0c x00 x00 x00))))
(T (W x45 x26 x22 x84 xe4 x9c xf2 xcb)
(T (W x00 x00 x80 x3f x00 x00 x80 x3f)
(T (W xa4 xf4 xff xff x01 x01 x01 x01)
(L (W x00 x00 x00 x00 xe2 x9b xff xff)) E)
(L (W xff xff xff xff xff xff xff xff)))
(T (W x00 x00 x80 x3f x00 x00 x80 x3f)
(L (W x00 x00 x00 x00 x00 x00 x00 x00))
(L (W xff xff xff xff x90 x00 x00 x00)))))
(T (W x64 x00 x00 x00 x9c x00 x00 x00)
(T (W x00 x00 x80 x3f x00 x00 x80 x3f)
(T (W xcc x00 x00 x00 x01 x00 x00 x00)
(T (W x00 x00 x80 x3f x00 x00 x80 x3f)
(L (W x45 x26 x22 x84 xe4 x9c xf2 xcb)) E)
(L (W x00 x00 x80 xbf x00 x00 x80 xbf)))
(T (W x31 x00 x00 x00 x34 x00 x00 x00)
(T (W x00 x00 x80 xbf x00 x00 x80 xbf)
(L (W xff xff xff xff xff xff xff xff)) E)
(L (W x00 x00 x00 x00 x00 x00 x00 x00))))
(T (W x00 x00 x00 x00 x00 x00 x00 x00)
(T (W xff xff xff xff xff xff xff xff)
(T (W x00 x00 x80 x3f x00 x00 x80 x3f)
(L (W xff xff xff xff xff xff xff xff)) E)
(L (W x45 x26 x22 x84 xe4 x9c xf2 xcb)))
(T (W x45 x26 x22 x84 xe4 x9c xf2 xcb)
(L (W x00 x00 x00 x00 x00 x00 x00 x00))
(L (W xff xff xff xff xff xff xff xff))))))))
(T (W x00 x00 x80 x3f x00 x00 x80 x3f)
(T (W x00 x00 x80 x3f x00 x00 x80 x3f)
(T (W xff xff xff xff xff xff xff xff)
(T (W x00 x00 x80 x3f x00 x00 x80 x3f)
(T (W x00 x00 x00 x00 x00 x00 x00 x00)
(T (W x18 x00 x00 x00 x0c x00 x00 x00)
(T (W xff xff xff xff xff xff xff xff)
(L (W x00 x00 x00 x00 x00 x00 x00 x00)) E)
(L (W x14 x4a xfe xff x00 x01 x01 x01)))
(T (W xff xff xff xff x9c x00 x00 x00)
(T (W xff xff xff xff xff xff xff xff)
(L (W x00 x00 x80 xbf x00 x00 x80 xbf)) E)
(L (W x00 x00 x00 x00 x00 x00 x00 x00))))
(T (W xff xff xff xff xff xff xff xff)
(T (W x00 x00 x80 x3f x00 x00 x80 x3f)
(T (W x00 x00 x00 x00 x00 x00 x00 x00)
(L (W x00 x00 x00 x00 x00 x00 x00 x00)) E)
(L (W x01 x00 x00 x00 xff xff xff xff)))
(T (W x00 x00 x80 x3f x00 x00 x80 x3f)
(L (W x00 x00 x00 x00 x12 x00 x00 x00))
(L (W xff xff xff xff xff xff xff xff)))))
(T (W x45 x26 x22 x84 xe4 x9c xf2 xcb)
(T (W xff xff xff xff xff xff xff xff)
(T (W x45 x26 x22 x84 xe4 x9c xf2 xcb)
(T (W x00 x00 x80 x3f x00 x00 x80 x3f)
(L (W xff xff xff xff xff xff xff xff)) E)
(L (W xff xff xff xff xff xff xff xff)))
(T (W xff xff xff xff xff xff xff xff)
(T (W xff xff xff xff xff xff xff xff)
(L (W xd8 x00 x00 x00 x64 x00 x00 x00)) E)
(L (W xff xff xff xff xb0 x00 x00 x00))))
(T (W x45 x26 x22 x84 xe4 x9c xf2 xcb)
(T (W x02 x00 x00 x00 x30 x01 x00 x00)
(T (W x00 x00 x00 x00 x00 x00 x00 x00)
(L (W x00 x00 x80 xbf x00 x00 x80 xbf)) E)
(L (W x00 x00 x00 x00 x00 x00 x00 x00)))
(T (W x00 x00 x00 x00 x00 x00 x00 x00)
(L (W x00 x00 x80 xbf x00 x00 x80 xbf))
(L (W x00 x00 x00 x00 x00 x00 x00 x00))))))
(T (W x00 x00 x80 x3f x00 x00 x80 x3f)
(T (W x00 x00 x80 x3f x00 x00 x80 x3f)
(T (W xac xe0 xfb xff x3c x00 x00 x00)
(T (W x54 x00 x00 x00 x48 x00 x00 x00)
(T (W x18 x00 x00 x00 x10 x00 x00 x00)
(L (W xff xff xff xff xff xff xff xff)) E)
(L (W xff xff xff xff xb0 x00 x00 x00)))
(T (W x00 x00 x00 x00 x00 x00 x00 x00)
(T (W x6c x00 x00 x00 x60 x00 x00 x00)
(L (W x00 x00 x80 xbf x00 x00 x80 xbf)) E)
(L (W x6c x00 x00 x00 x60 x00 x00 x00))))
(T (W xff xff xff xff xff xff xff xff)
(T (W xff xff xff xff xff xff xff xff)
(T (W xff xff xff xff xff xff xff xff)
(L (W x6c x00 x00 x00 x60 x00 x00 x00)) E)
(L (W x45 x26 x22 x84 xe4 x9c xf2 xcb)))
(T (W xff xff xff xff xff xff xff xff)
(L (W x00 x00 x80 xbf x00 x00 x80 xbf))
(L (W x00 x00 x00 x00 xe2 x17 xff xff)))))
(T (W x00 x00 x00 x00 x00 x00 x00 x00)
(T (W xff xff xff xff xff xff xff xff)
(T (W x00 x00 x00 x00 x00 x00 x00 x00)
(T (W xff xff xff xff xff xff xff xff)
(L (W x46 x53 x59 x53 x5f x4e x53 x5f)) E)
(L (W xff xff xff xff xff xff xff xff)))
(T (W x00 x00 x00 x00 x00 x00 x00 x00)
(T (W xff xff xff xff xff xff xff xff)
(L (W xff xff xff xff xff xff xff xff)) E)
(L (W xff xff xff xff xff xff xff xff))))
(T (W x14 x3a xfc xff x00 x01 x01 x01)
(T (W x00 x00 x80 x3f x00 x00 x80 x3f)
(T (W x6c x00 x00 x00 x60 x00 x00 x00)
(L (W x00 x00 x00 x00 x00 x00 x00 x00)) E)
(L (W x00 x00 x00 x00 xf2 xbe xfe xff)))
(T (W x00 x00 x00 x00 x00 x00 x00 x00)
(L (W xff xff xff xff xff xff xff xff))
(L (W x00 x00 x00 x00 x00 x00 x00 x00)))))))
(T (W xea x5e xfb xff x78 x00 x00 x00)
(T (W x50 x00 x00 x00 x44 x00 x00 x00)
(T (W x00 x00 x80 x3f x00 x00 x80 x3f)
(T (W x00 x00 x00 x00 x00 x00 x00 x00)
(T (W x00 x00 x80 x3f x00 x00 x80 x3f)
(T (W xff xff xff xff xff xff xff xff)
(L (W x54 x00 x00 x00 x48 x00 x00 x00)) E)
(L (W x2d x00 x00 x00 x30 x00 x00 x00)))
(T (W xcb x01 x00 x00 xff xff xff xff)
(T (W x00 x00 x00 x00 x00 x00 x00 x00)
(L (W x00 x00 x80 xbf x00 x00 x80 xbf)) E)
(L (W x00 x00 x80 xbf x00 x00 x80 xbf))))
(T (W xff xff xff xff xff xff xff xff)
(T (W xff xff xff xff xa0 x00 x00 x00)
(T (W x77 xd5 x36 x97 x85 x2f x63 x5f)
(L (W x00 x00 x00 x00 x00 x00 x00 x00)) E)
(L (W x00 x00 x00 x00 x00 x00 x00 x00)))
(T (W x32 x0d xfd xff x74 x00 x00 x00)
(L (W x00 x00 x00 x00 x00 x00 x00 x00))
(L (W xff xff xff xff xff xff xff xff)))))
(T (W x00 x00 x00 x00 x00 x00 x00 x00)
(T (W xff xff xff xff xff xff xff xff)
(T (W x45 x26 x22 x84 xe4 x9c xf2 xcb)
(T (W x00 x00 x80 x3f x00 x00 x80 x3f)
(L (W x00 x00 x00 x00 x00 x00 x00 x00)) E)
(L (W xa8 x00 x00 x00 x64 x00 x00 x00)))
(T (W xff xff xff xff xff xff xff xff)
(T (W x84 x04 x00 x00 x70 x03 x00 x00)
(L (W x00 x00 x00 x00 x72 xfb xff xff)) E)
(L (W xff xff xff xff xbc x00 x00 x00))))
(T (W x68 x00 x00 x00 x5c x00 x00 x00)
(T (W x00 x00 x00 x00 x12 x00 x00 x00)
(T (W x14 xb2 xfd xff x00 x01 x01 x01)
(L (W x00 x00 x00 x00 x00 x00 x00 x00)) E)
(L (W x34 x00 x00 x00 x0c x00 x00 x00)))
(T (W x00 x00 x00 x00 x00 x00 x00 x00)
(L (W xff xff xff xff xff xff xff xff))
(L (W x00 x00 x00 x00 x00 x00 x00 x00))))))
(T (W x00 x00 x80 x3f x00 x00 x80 x3f)
(T (W x45 x26 x22 x84 xe4 x9c xf2 xcb)
(T (W x01 x00 x00 x00 x04 x00 x00 x00)
(T (W x00 x00 x80 x3f x00 x00 x80 x3f)
(T (W x45 x26 x22 x84 xe4 x9c xf2 xcb)
(L (W xff xff xff xff xff xff xff xff)) E)
(L (W xff xff xff xff xff xff xff xff)))
(T (W x00 x00 x80 x3f x00 x00 x80 x3f)
(T (W xc4 x00 x00 x00 x01 x00 x00 x00)
(L (W x54 x00 x00 x00 x48 x00 x00 x00)) E)
(L (W x18 x00 x00 x00 x10 x00 x00 x00))))
(T (W xb8 x00 x00 x00 xac x00 x00 x00)
(T (W xff xff xff xff xff xff xff xff)
(T (W x45 x26 x22 x84 xe4 x9c xf2 xcb)
(L (W x00 x00 x80 xbf x00 x00 x80 xbf)) E)
(L (W x00 x00 x00 x00 x00 x00 x00 x00)))
(T (W x9d x01 x00 x00 xff xff xff xff)
(L (W x00 x00 x80 xbf x00 x00 x80 xbf))
(L (W x00 x00 x00 x00 x0a x3d xff xff)))))
(T (W x45 x26 x22 x84 xe4 x9c xf2 xcb)
(T (W xff xff xff xff xff xff xff xff)
(T (W x45 x26 x22 x84 xe4 x9c xf2 xcb)
(T (W x36 x00 x00 x00 x10 x00 x00 x00)
(L (W x00 x00 x00 x00 x00 x00 x00 x00)) E)
(L (W x66 x01 x00 x00 xff xff xff xff)))
(T (W x4f x84 x6f x8b xe8 xcb x63 xb7)
(T (W x5a x55 xff xff x00 x00 x01 x01)
(L (W x00 x00 x00 x00 x00 x00 x00 x00)) E)
(L (W x00 x00 x00 x00 x84 x00 xff xff))))
(T (W x45 x26 x22 x84 xe4 x9c xf2 xcb)
(T (W x00 x00 x80 x3f x00 x00 x80 x3f)
(T (W x00 x00 x00 x00 x00 x00 x00 x00)
(L (W x00 x00 x80 xbf x00 x00 x80 xbf)) E)
(L (W x00 x00 x00 x00 x00 x00 x00 x00)))
(T (W x43 x5d x2e x97 x85 x1a x59 x5f)
(L (W xff xff xff xff xff xff xff xff))
(L (W x00 x00 x00 x00 x00 x00 x00 x00)))))))))
(T (W x18 x00 x00 x00 x0c x00 x00 x00)
(T (W x00 x00 x00 x00 x00 x00 x00 x00)
(T (W x00 x00 x00 x00 x00 x00 x00 x00)
(T (W x00 x00 x00 x00 x00 x00 x00 x00)
(T (W x45 x26 x22 x84 xe4 x9c xf2 xcb)
(T (W x6a x01 x00 x00 xff xff xff xff)
(T (W x00 x00 x80 x3f x00 x00 x80 x3f)
(T (W x18 x00 x00 x00 x10 x00 x00 x00)
(L (W x00 x00 x01 x01 xc8 x02 x00 x00)) E)
(L (W x00 x00 x80 xbf x00 x00 x80 xbf)))
(T (W x00 x00 x80 x3f x00 x00 x80 x3f)
(T (W xff xff xff xff xff xff xff xff)
(L (W x00 x00 x00 x00 x00 x00 x00 x00)) E)
(L (W x00 x00 x00 x00 xf2 xcc xfe xff))))
(T (W x18 x00 x00 x00 x0c x00 x00 x00)
(T (W x00 x00 x00 x00 x00 x00 x00 x00)
(T (W x64 x00 x00 x00 x9c x00 x00 x00)
(L (W x00 x00 x00 x00 x1a x84 xff xff)) E)
(L (W xff xff xff xff xff xff xff xff)))
(T (W x00 x00 x00 x00 x00 x00 x00 x00)
(L (W xff xff xff xff xff xff xff xff))
(L (W x00 x00 x80 xbf x00 x00 x80 xbf)))))
(T (W x01 x00 x00 x00 x04 x00 x00 x00)
(T (W xff xff xff xff x03 x00 x00 x00)
(T (W x00 x00 x00 x00 x00 x00 x00 x00)
(T (W x00 x00 x00 x00 x00 x00 x00 x00)
(L (W xbc x00 x00 x00 x64 x00 x00 x00)) E)
(L (W xea x64 xfe xff x78 x00 x00 x00)))
(T (W x00 x00 x80 x3f x00 x00 x80 x3f)
(T (W x2f x00 x00 x00 x32 x00 x00 x00)
(L (W x6c x00 x00 x00 x60 x00 x00 x00)) E)
(L (W x00 x00 x80 xbf x00 x00 x80 xbf))))
(T (W x00 x00 x80 x3f x00 x00 x80 x3f)
(T (W x03 x00 x00 x00 xd0 x00 x00 x00)
(T (W xb0 x00 x00 x00 x64 x00 x00 x00)
(L (W x00 x00 x00 x00 x00 x00 x00 x00)) E)
(L (W x00 x00 x01 x01 x8f x01 x00 x00)))
(T (W xff xff xff xff xff xff xff xff)
(L (W x46 x53 x59 x53 x5f x4e x53 x5f))
(L (W xff xff xff xff xff xff xff xff))))))
(T (W x00 x00 x00 x00 x00 x00 x00 x00)
(T (W x00 x00 x00 x00 x00 x00 x00 x00)
(T (W xff xff xff xff xff xff xff xff)
(T (W x00 x00 x00 x00 x00 x00 x00 x00)
(T (W x00 x00 x80 x3f x00 x00 x80 x3f)
(L (W x00 x00 x80 xbf x00 x00 x80 xbf)) E)
(L (W x00 x00 x80 xbf x00 x00 x80 xbf)))
(T (W xff xff xff xff xff xff xff xff)
(T (W x00 x00 x00 x00 x00 x00 x00 x00)
(L (W x00 x00 x00 x00 x00 x00 x00 x00)) E)
(L (W x49 xa1 x68 x4a xeb x5f xdd x3d))))
(T (W x00 x00 x80 x3f x00 x00 x80 x3f)
(T (W x6c x00 x00 x00 x60 x00 x00 x00)
(T (W x50 x00 x00 x00 x44 x00 x00 x00)
(L (W x4f x84 x6f x8b xe8 xcb x63 xb7)) E)
(L (W x04 x00 x00 x00 xe2 x95 xfe xff)))
(T (W x00 x00 x80 x3f x00 x00 x80 x3f)
(L (W x00 x00 x00 x00 x00 x00 x00 x00))
(L (W xff xff xff xff xff xff xff xff)))))
(T (W x00 x00 x00 x00 x04 x00 x00 x00)
(T (W xff xff xff xff xff xff xff xff)
(T (W xff xff xff xff xff xff xff xff)
(T (W xb8 x00 x00 x00 xac x00 x00 x00)
(L (W xff xff xff xff xff xff xff xff)) E)
(L (W xea x74 xfe xff x78 x00 x00 x00)))
(T (W xff xff xff xff xff xff xff xff)
(T (W xff xff xff xff xa0 x00 x00 x00)
(L (W x45 x44 x00 x00 x00 x00 x00 x00)) E)
(L (W x00 x00 x80 xbf x00 x00 x80 xbf))))
(T (W x00 x00 x80 x3f x00 x00 x80 x3f)
(T (W x04 x00 x00 x00 x80 x03 x00 x00)
(T (W x70 x5f x6c x65 x61 x64 x65 x72)
(L (W x00 x00 x00 x00 x00 x00 x00 x00)) E)
(L (W xff xff xff xff xff xff xff xff)))
(T (W xff xff xff xff xff xff xff xff)
(L (W x14 x38 xfe xff x00 x01 x01 x01))
(L (W x00 x00 x01 x01 xa9 x01 x00 x00)))))))
(T (W x00 x00 x00 x00 x00 x00 x00 x00)
(T (W x00 x00 x00 x00 x00 x00 x00 x00)
(T (W x00 x00 x00 x00 x00 x00 x00 x00)
(T (W xff xff xff xff xff xff xff xff)
(T (W x00 x00 x00 x00 x00 x00 x00 x00)
(T (W x45 x26 x22 x84 xe4 x9c xf2 xcb)
(L (W x00 x00 x00 x00 x12 x00 x00 x00)) E)
(L (W x00 x00 x80 x3f x00 x00 x80 x3f)))
(T (W x45 x26 x22 x84 xe4 x9c xf2 xcb)
(T (W x00 x00 x00 x00 x00 x00 x00 x00)
(L (W x00 x00 x00 x00 x00 x00 x00 x00)) E)
(L (W x00 x00 x00 x00 x00 x00 x00 x00))))
(T (W x68 x00 x00 x00 x5c x00 x00 x00)
(T (W x45 x26 x22 x84 xe4 x9c xf2 xcb)
(T (W xff xff xff xff xff xff xff xff)
(L (W x00 x00 x00 x00 x00 x00 x00 x00)) E)
(L (W xff xff xff xff xff xff xff xff)))
(T (W x00 x00 x80 x3f x00 x00 x80 x3f)
(L (W x02 x00 x00 x00 x30 x01 x00 x00))
(L (W x00 x00 x00 x00 x84 x0e xff xff)))))
(T (W xff xff xff xff xff xff xff xff)
(T (W xff xff xff xff xff xff xff xff)
(T (W x40 x00 x44 x00 x00 x00 x48 x00)
(T (W x00 x00 x00 x00 x00 x00 x00 x00)
(L (W xff xff xff xff xff xff xff xff)) E)
(L (W x6c x00 x00 x00 x60 x00 x00 x00)))
(T (W x18 x00 x00 x00 x10 x00 x00 x00)
(T (W x45 x26 x22 x84 xe4 x9c xf2 xcb)
(L (W xff xff xff xff xff xff xff xff)) E)
(L (W x54 x00 x00 x00 x48 x00 x00 x00))))
(T (W x00 x00 x80 x3f x00 x00 x80 x3f)
(T (W xff xff xff xff xff xff xff xff)
(T (W x00 x00 x00 x00 x00 x00 x00 x00)
(L (W x00 x00 x00 x00 x00 x00 x00 x00)) E)
(L (W xff xff xff xff xff xff xff xff)))
(T (W xc8 x02 x00 x00 xff xff xff xff)
(L (W x00 x00 x80 xbf x00 x00 x80 xbf))
(L (W xa9 x01 x00 x00 xff xff xff xff))))))
(T (W x00 x00 x00 x00 x00 x00 x00 x00)
(T (W xac xa6 xfb xff x3e x00 x00 x00)
(T (W x64 x00 x00 x00 x9c x00 x00 x00)
(T (W x00 x00 x00 x00 x00 x00 x00 x00)
(T (W x00 x00 x80 x3f x00 x00 x80 x3f)
(L (W x45 x26 x22 x84 xe4 x9c xf2 xcb)) E)
(L (W x50 x00 x00 x00 x44 x00 x00 x00)))
(T (W x00 x00 x00 x00 x00 x00 x00 x00)
(T (W x00 x00 x80 xbf x00 x00 x80 xbf)
(L (W x00 x00 x00 x00 x00 x00 x00 x00)) E)
(L (W x00 x00 x80 xbf x00 x00 x80 xbf))))
(T (W x00 x00 x80 x3f x00 x00 x80 x3f)
(T (W x32 x9b xfc xff x74 x00 x00 x00)
(T (W x00 x00 x00 x00 x00 x00 x00 x00)
(L (W x45 x26 x22 x84 xe4 x9c xf2 xcb)) E)
(L (W x00 x00 x00 x00 x00 x00 x00 x00)))
(T (W x45 x26 x22 x84 xe4 x9c xf2 xcb)
(L (W x00 x00 x00 x00 x00 x00 x00 x00))
(L (W xff xff xff xff xff xff xff xff)))))
(T (W xff xff xff xff xff xff xff xff)
(T (W x45 x26 x22 x84 xe4 x9c xf2 xcb)
(T (W xb6 x9b xd9 xc2 x9d xc0 xb2 xaf)
(T (W x01 x00 x00 x00 x9c x00 x00 x00)
(L (W xff xff xff xff xff xff xff xff)) E)
(L (W x45 x26 x22 x84 xe4 x9c xf2 xcb)))
(T (W xff xff xff xff xff xff xff xff)
(T (W xff xff xff xff xac x00 x00 x00)
(L (W xea xfc xff xff x78 x00 x00 x00)) E)
(L (W x00 x00 x80 xbf x00 x00 x80 xbf))))
(T (W x45 x26 x22 x84 xe4 x9c xf2 xcb)
(T (W x00 x00 x00 x00 x12 x00 x00 x00)
(T (W xff xff xff xff xff xff xff xff)
(L (W x00 x00 x00 x00 xf2 xc4 xff xff)) E)
(L (W xff xff xff xff xff xff xff xff)))
(T (W xff xff xff xff xff xff xff xff)
(L (W x40 x00 x00 x00 x00 x00 x80 xbf))
(L (W x00 x00 x00 x00 xf2 x44 xff xff))))))))
(T (W x45 x26 x22 x84 xe4 x9c xf2 xcb)
(T (W x32 x57 xfb xff x74 x00 x00 x00)
(T (W xea x68 xfb xff x78 x00 x00 x00)
(T (W x14 x8c xfb xff x00 x01 x01 x01)
(T (W x00 x00 x80 x3f x00 x00 x80 x3f)
(T (W xff xff xff xff xff xff xff xff)
(T (W x00 x00 x00 x00 x00 x00 x00 x00)
(L (W x50 x00 x00 x00 x44 x00 x00 x00)) E)
(L (W x00 x00 x01 x01 x5d x00 x00 x00)))
(T (W x00 x00 x00 x00 x01 x00 x00 x00)
(T (W x00 x00 x00 x00 x00 x00 x00 x00)
(L (W xff xff xff xff xff xff xff xff)) E)
(L (W x00 x00 x80 xbf x00 x00 x80 xbf))))
(T (W x00 x00 x00 x00 x00 x00 x00 x00)
(T (W xff xff xff xff xff xff xff xff)
(T (W x00 x00 x80 x3f x00 x00 x80 x3f)
(L (W x00 x00 x80 xbf x00 x00 x80 xbf)) E)
(L (W x00 x00 x00 x00 x00 x00 x00 x00)))
(T (W xff xff xff xff xc4 x00 x00 x00)
(L (W x54 x00 x00 x00 x48 x00 x00 x00))
(L (W xda xf3 x39 xdc x00 x66 x48 x2f)))))
(T (W x45 x26 x22 x84 xe4 x9c xf2 xcb)
(T (W x00 x00 x00 x00 x00 x00 x00 x00)
(T (W x01 x00 x00 x00 xa0 x00 x00 x00)
(T (W x18 x00 x00 x00 x10 x00 x00 x00)
(L (W x00 x00 x00 x00 x12 x00 x00 x00)) E)
(L (W x1b x00 x00 x00 x0c x00 x00 x00)))
(T (W x5a x3f xfe xff x00 x00 x01 x01)
(T (W x00 x00 x00 x00 x12 x00 x00 x00)
(L (W x00 x00 x00 x00 x12 x00 x00 x00)) E)
(L (W x54 x02 x00 x00 x38 x01 x00 x00))))
(T (W xea x99 xfe xff x00 x00 x01 x01)
(T (W x00 x00 x00 x00 x00 x00 x00 x00)
(T (W x6c x00 x00 x00 x60 x00 x00 x00)
(L (W x38 x00 x3c x00 x40 x00 x44 x00)) E)
(L (W x45 x26 x22 x84 xe4 x9c xf2 xcb)))
(T (W x00 x00 x80 x3f x00 x00 x80 x3f)
(L (W x45 x26 x22 x84 xe4 x9c xf2 xcb))
(L (W x45 x26 x22 x84 xe4 x9c xf2 xcb))))))
(T (W xff xff xff xff xff xff xff xff)
(T (W x32 x97 xfb xff x74 x00 x00 x00)
(T (W x45 x26 x22 x84 xe4 x9c xf2 xcb)
(T (W xff xff xff xff xff xff xff xff)
(T (W xff xff xff xff xff xff xff xff)
(L (W x00 x00 x00 x00 xf2 x60 xff xff)) E)
(L (W x00 x00 x01 x01 xbe x00 x00 x00)))
(T (W x50 x00 x00 x00 x44 x00 x00 x00)
(T (W xff xff xff xff xbc x00 x00 x00)
(L (W x2d x00 x00 x00 x30 x00 x00 x00)) E)
(L (W x03 x00 x00 x00 xd8 x00 x00 x00))))
(T (W x39 x77 x42 x3f xb5 x0e xb4 x03)
(T (W xdb x26 xbd x0b x81 x72 x54 x0f)
(T (W x00 x00 x00 x00 x00 x00 x00 x00)
(L (W xff xff xff xff xff xff xff xff)) E)
(L (W x00 x00 x80 xbf x00 x00 x80 xbf)))
(T (W x00 x00 x00 x00 x00 x00 x00 x00)
(L (W xff xff xff xff xff xff xff xff))
(L (W x45 x26 x22 x84 xe4 x9c xf2 xcb)))))
(T (W x00 x00 x80 x3f x00 x00 x80 x3f)
(T (W x7c xff xfb xff x3c x00 x00 x00)
(T (W x00 x00 x80 x3f x00 x00 x80 x3f)
(T (W x00 x00 x00 x00 x00 x00 x00 x00)
(L (W x00 x00 x00 x00 x00 x00 x00 x00)) E)
(L (W x00 x00 x00 x00 x00 x00 x00 x00)))
(T (W x45 x26 x22 x84 xe4 x9c xf2 xcb)
(T (W x45 x44 x00 x00 x00 x00 x00 x00)
(L (W x00 x00 x80 xbf x00 x00 x80 xbf)) E)
(L (W xff xff xff xff xff xff xff xff))))
(T (W xff xff xff xff xff xff xff xff)
(T (W x68 x00 x00 x00 x5c x00 x00 x00)
(T (W x6c x64 x5f x70 x6f x6b x65 x5f)
(L (W x00 x00 x80 xbf x00 x00 x80 xbf)) E)
(L (W x00 x00 x80 xbf x00 x00 x80 xbf)))
(T (W x00 x00 x80 x3f x00 x00 x80 x3f)
(L (W x00 x00 x00 x00 x00 x00 x00 x00))
(L (W x00 x00 x80 xbf x00 x00 x80 xbf)))))))
(T (W xff xff xff xff x03 x00 x00 x00)
(T (W xff xff xff xff xff xff xff xff)
(T (W x50 x00 x00 x00 x44 x00 x00 x00)
(T (W x00 x00 x80 x3f x00 x00 x80 x3f)
(T (W xff xff xff xff xff xff xff xff)
(T (W x80 x96 x30 x97 x85 x1c x5c x5f)
(L (W xff xff xff xff xff xff xff xff)) E)
(L (W x45 x44 x00 x00 x00 x00 x00 x00)))
(T (W x00 x00 x00 x00 x00 x00 x00 x00)
(T (W x14 xd4 xfd xff x00 x01 x01 x01)
(L (W xff xff xff xff xff xff xff xff)) E)
(L (W xbc x00 x00 x00 x64 x00 x00 x00))))
(T (W x00 x00 x00 x00 x00 x00 x00 x00)
(T (W xff xff xff xff xff xff xff xff)
(T (W xff xff xff xff xff xff xff xff)
(L (W x32 x8f xff xff x74 x00 x00 x00)) E)
(L (W x00 x00 x80 xbf x00 x00 x80 xbf)))
(T (W xff xff xff xff xff xff xff xff)
(L (W x32 x0f xfe xff x74 x00 x00 x00))
(L (W x00 x00 x00 x00 x00 x00 x00 x00)))))
(T (W x00 x00 x80 x3f x00 x00 x80 x3f)
(T (W x00 x00 x00 x00 x00 x00 x00 x00)
(T (W xff xff xff xff xff xff xff xff)
(T (W x45 x26 x22 x84 xe4 x9c xf2 xcb)
(L (W x45 x26 x22 x84 xe4 x9c xf2 xcb)) E)
(L (W x00 x00 x00 x00 xf2 x78 xfe xff)))
(T (W x00 x00 x00 x00 x00 x00 x00 x00)
(T (W x45 x26 x22 x84 xe4 x9c xf2 xcb)
(L (W x45 x26 x22 x84 xe4 x9c xf2 xcb)) E)
(L (W x00 x00 x00 x00 x00 x00 x00 x00))))
(T (W xff xff xff xff xff xff xff xff)
(T (W x54 x00 x00 x00 x48 x00 x00 x00)
(T (W xff xff xff xff xff xff xff xff)
(L (W x00 x00 x80 x3f x00 x00 x80 x3f)) E)
(L (W x00 x00 x80 xbf x00 x00 x80 xbf)))
(T (W x00 x00 x80 x3f x00 x00 x80 x3f)
(L (W x00 x00 x00 x00 xf2 x38 xfe xff))
(L (W x00 x00 x80 xbf x00 x00 x80 xbf))))))
(T (W x64 x00 x00 x00 x9c x00 x00 x00)
(T (W x00 x00 x00 x00 x84 xa2 xfb xff)
(T (W x45 x26 x22 x84 xe4 x9c xf2 xcb)
(T (W x18 x00 x00 x00 x10 x00 x00 x00)
(T (W xff xff xff xff xff xff xff xff)
(L (W x00 x00 x00 x00 x00 x00 x00 x00)) E)
(L (W x00 x00 x00 x00 x00 x00 x00 x00)))
(T (W xff xff xff xff xff xff xff xff)
(T (W x04 x00 x00 x00 x7a xea xfd xff)
(L (W xff xff xff xff xff xff xff xff)) E)
(L (W xff xff xff xff xff xff xff xff))))
(T (W xa8 x01 x00 x00 xff xff xff xff)
(T (W x00 x00 x00 x00 x12 x00 x00 x00)
(T (W x04 x00 x00 x00 x7a xaa xfd xff)
(L (W xff xff xff xff xff xff xff xff)) E)
(L (W x00 x00 x80 xbf x00 x00 x80 xbf)))
(T (W x00 x00 x00 x00 x00 x00 x00 x00)
(L (W xff xff xff xff xff xff xff xff))
(L (W x00 x00 x80 xbf x00 x00 x80 xbf)))))
(T (W x00 x00 x80 x3f x00 x00 x80 x3f)
(T (W x00 x00 x00 x00 x00 x00 x00 x00)
(T (W xff xff xff xff xa0 x00 x00 x00)
(T (W x00 x00 x00 x00 x00 x00 x00 x00)
(L (W x00 x00 x80 xbf x00 x00 x80 xbf)) E)
(L (W x00 x00 x00 x00 x12 x00 x00 x00)))
(T (W x50 x00 x00 x00 x44 x00 x00 x00)
(T (W x00 x00 x00 x00 x00 x00 x00 x00)
(L (W x00 x00 x00 x00 x00 x00 x00 x00)) E)
(L (W x00 x00 x00 x00 x1a x00 xff xff))))
(T (W xb8 x00 x00 x00 xac x00 x00 x00)
(T (W xff xff xff xff xbc x00 x00 x00)
(T (W x4f x84 x6f x8b xe8 xcb x63 xb7)
(L (W x45 x26 x22 x84 xe4 x9c xf2 xcb)) E)
(L (W x00 x00 x80 xbf x00 x00 x80 xbf)))
(T (W x00 x00 x00 x00 x00 x00 x00 x00)
(L (W xff xff xff xff xff xff xff xff))
(L (W x00 x00 x80 xbf x00 x00 x80 xbf))))))))))))
(T (W xe0 xaf x03 x00 x84 xad x03 x00)
(T (W x40 xff x02 x00 xbc xfa x02 x00)
(T (W xf0 x25 x02 x00 xac x23 x02 x00)
(T (W x48 xdc x00 x00 xfc xd9 x00 x00)
(T (W xa2 xd7 x8f x13 xcf x3e x71 x9d)
(T (W x01 x00 x00 x00 x04 x00 x00 x00)
(T (W x00 x00 x00 x00 x00 x00 x00 x00)
(T (W x40 x00 x00 x00 x10 x00 x00 x00)
(T (W x18 x00 x00 x00 x10 x00 x00 x00)
(T (W x3c x48 xfc xff x3e x00 x00 x00)
(T (W x45 x26 x22 x84 xe4 x9c xf2 xcb)
(L (W xff xff xff xff xff xff xff xff)) E)
(L (W x00 x00 x00 x00 x00 x00 x00 x00)))
(T (W x00 x00 x00 x00 x00 x00 x00 x00)
(T (W x18 x00 x00 x00 x10 x00 x00 x00)
(L (W x5c x00 x00 x00 xff xff xff xff)) E)
(L (W xff xff xff xff xff xff xff xff))))
(T (W x00 x00 x80 x3f x00 x00 x80 x3f)
(T (W x00 x00 x01 x01 x69 x01 x00 x00)
(T (W x18 x00 x00 x00 x0c x00 x00 x00)
(L (W xc4 x00 x00 x00 x01 x00 x00 x00)) E)
(L (W x00 x00 x80 xbf x00 x00 x80 xbf)))
(T (W xff xff xff xff xff xff xff xff)
(T (W xff xff xff xff xac x00 x00 x00)
(L (W x00 x00 x00 x00 x04 x00 x06 x00)) E)
(L (W x00 x00 x80 xbf x00 x00 x80 xbf)))))
(T (W xff xff xff xff xff xff xff xff)
(T (W x00 x00 x00 x00 x44 xe3 xfb xff)
(T (W xab xbb x17 xf7 x7f x3b xc0 x21)
(T (W x00 x00 x00 x00 x00 x00 x00 x00)
(L (W x00 x00 x80 xbf x00 x00 x80 xbf)) E)
(L (W x45 x26 x22 x84 xe4 x9c xf2 xcb)))
(T (W x00 x00 x00 x00 x00 x00 x00 x00)
(T (W x00 x00 x80 xbf x00 x00 x80 xbf)
(L (W x00 x00 x00 x00 x00 x00 x00 x00)) E)
(L (W x00 x00 x00 x00 x00 x00 x00 x00))))
(T (W x45 x26 x22 x84 xe4 x9c xf2 xcb)
(T (W x00 x00 x80 x3f x00 x00 x80 x3f)
(T (W x00 x00 x80 xbf x00 x00 x80 xbf)
(L (W x00 x00 x00 x00 x00 x00 x00 x00)) E)
(L (W xff xff xff xff xff xff xff xff)))
(T (W xf2 x1f xfd xff x74 x00 x00 x00)
(L (W x00 x00 x00 x00 x00 x00 x00 x00))
(L (W xbc x00 x00 x00 x64 x00 x00 x00))))))
(T (W x00 x00 x00 x00 x00 x00 x00 x00)
(T (W xff xff xff xff xff xff xff xff)
(T (W xc0 x00 x00 x00 xb4 x00 x00 x00)
(T (W x00 x00 x00 x00 x00 x00 x00 x00)
(T (W x00 x00 x80 x3f x00 x00 x80 x3f)
(L (W x00 x00 x00 x00 x00 x00 x00 x00)) E)
(L (W x00 x00 x80 xbf x00 x00 x80 xbf)))
(T (W x45 x26 x22 x84 xe4 x9c xf2 xcb)
(T (W xff xff xff xff xff xff xff xff)
(L (W x00 x00 x00 x00 x00 x00 x00 x00)) E)
(L (W x00 x00 x00 x00 x00 x00 x00 x00))))
(T (W x00 x00 x80 x3f x00 x00 x80 x3f)
(T (W x00 x00 x00 x00 x00 x00 x00 x00)
(T (W x00 x00 x00 x00 x00 x00 x00 x00)
(L (W x44 x09 x00 x00 x28 x08 x00 x00)) E)
(L (W xff xff xff xff xff xff xff xff)))
(T (W x4f x84 x6f x8b xe8 xcb x63 xb7)
(L (W x00 x00 x01 x01 xef x00 x00 x00))
(L (W x68 x00 x00 x00 x5c x00 x00 x00)))))
(T (W xff xff xff xff xff xff xff xff)
(T (W x50 x00 x00 x00 x44 x00 x00 x00)
(T (W x00 x00 x00 x00 x00 x00 x00 x00)
(T (W xff xff xff xff xff xff xff xff)
(L (W x03 x00 x00 x00 xd0 x00 x00 x00)) E)
(L (W x45 x26 x22 x84 xe4 x9c xf2 xcb)))
(T (W x00 x00 x00 x00 x44 xf3 xfc xff)
(T (W xd4 xf4 xfd xff x00 x01 x01 x01)
(L (W x1c x00 x00 x00 x10 x00 x00 x00)) E)
(L (W x00 x00 x80 xbf x00 x00 x80 xbf))))
(T (W x00 x00 x00 x00 x00 x00 x00 x00)
(T (W xff xff xff xff xff xff xff xff)
(T (W x4f x84 x6f x8b xe8 xcb x63 xb7)
(L (W xff xff xff xff xff xff xff xff)) E)
(L (W xc4 x00 x00 x00 x02 x00 x00 x00)))
(T (W xff xff xff xff xff xff xff xff)
(L (W x45 x26 x22 x84 xe4 x9c xf2 xcb))
(L (W xff xff xff xff xff xff xff xff)))))))
(T (W x00 x00 x01 x01 x3b x02 x00 x00)
(T (W x2c x00 x30 x00 x34 x00 x38 x00)
(T (W xaa xfa xfd xff x00 x00 x01 x01)
(T (W xb8 x00 x00 x00 xac x00 x00 x00)
(T (W x00 x00 x00 x00 x00 x00 x00 x00)
(T (W x00 x00 x80 x3f x00 x00 x80 x3f)
(L (W xc9 x02 x00 x00 xff xff xff xff)) E)
(L (W x00 x00 x80 xbf x00 x00 x80 xbf)))
(T (W x00 x00 x80 x3f x00 x00 x80 x3f)
(T (W x03 x00 x00 x00 xd0 x00 x00 x00)
(L (W x00 x00 x00 x00 x00 x00 x00 x00)) E)
(L (W xff xff xff xff xff xff xff xff))))
(T (W x00 x00 x80 x3f x00 x00 x80 x3f)
(T (W x30 x35 x5f x43 x4c x45 x41 x52)
(T (W x18 x00 x00 x00 x10 x00 x00 x00)
(L (W xff xff xff xff xff xff xff xff)) E)
(L (W xcc x00 x00 x00 x01 x00 x00 x00)))
(T (W x00 x00 x00 x00 x00 x00 x00 x00)
(L (W xff xff xff xff xff xff xff xff))
(L (W x00 x00 x80 xbf x00 x00 x80 xbf)))))
(T (W xff xff xff xff xff xff xff xff)
(T (W x45 x26 x22 x84 xe4 x9c xf2 xcb)
(T (W x64 x00 x08 x00 x00 x00 x00 x00)
(T (W x54 xbf x33 x97 x85 xab x5f x5f)
(L (W x50 x00 x00 x00 x44 x00 x00 x00)) E)
(L (W x54 x00 x00 x00 x48 x00 x00 x00)))
(T (W x00 x00 x80 x3f x00 x00 x80 x3f)
(T (W x00 x00 x80 xbf x00 x00 x80 xbf)
(L (W x00 x00 x80 xbf x00 x00 x80 xbf)) E)
(L (W x00 x00 x80 xbf x00 x00 x80 xbf))))
(T (W x45 x26 x22 x84 xe4 x9c xf2 xcb)
(T (W xcc x00 x00 x00 x01 x00 x00 x00)
(T (W xff xff xff xff xff xff xff xff)
(L (W xf2 xa7 xff xff x74 x00 x00 x00)) E)
(L (W x00 x00 x00 x00 x20 x00 x24 x00)))
(T (W xff xff xff xff xbc x00 x00 x00)
(L (W x30 x35 x5f x43 x4c x45 x41 x52))
(L (W xff xff xff xff xff xff xff xff))))))
(T (W x00 x00 x00 x00 x00 x00 x00 x00)
(T (W xff xff xff xff xff xff xff xff)
(T (W xff xff xff xff x03 x00 x00 x00)
(T (W x00 x00 x00 x00 x00 x00 x00 x00)
(T (W x00 x00 x00 x00 x00 x00 x00 x00)
(L (W x45 x26 x22 x84 xe4 x9c xf2 xcb)) E)
(L (W x49 xa1 x68 x4a xeb x5f xdd x3d)))
(T (W xff xff xff xff xff xff xff xff)
(T (W x00 x00 x00 x00 x00 x00 x00 x00)
(L (W x00 x00 x01 x01 xbe x00 x00 x00)) E)
(L (W x30 x35 x5f x43 x4c x45 x41 x52))))
(T (W x00 x00 x80 x3f x00 x00 x80 x3f)
(T (W x00 x00 x80 x3f x00 x00 x80 x3f)
(T (W x45 x26 x22 x84 xe4 x9c xf2 xcb)
(L (W x46 x53 x59 x53 x5f x4e x53 x5f)) E)
(L (W x00 x00 x01 x01 xaa x01 x00 x00)))
(T (W x00 x00 x80 x3f x00 x00 x80 x3f)
(L (W x00 x00 x00 x00 x00 x00 x00 x00))
(L (W xff xff xff xff xff xff xff xff)))))
(T (W xff xff xff xff x04 x00 x00 x00)
(T (W x00 x00 x80 x3f x00 x00 x80 x3f)
(T (W xff xff xff xff xff xff xff xff)
(T (W x00 x00 x80 x3f x00 x00 x80 x3f)
(L (W x00 x00 x00 x00 x44 x7b xff xff)) E)
(L (W x6c x00 x00 x00 x60 x00 x00 x00)))
(T (W xff xff xff xff xff xff xff xff)
(T (W x00 x00 x80 xbf x00 x00 x80 xbf)
(L (W x04 x00 x00 x00 xa2 xfa xff xff)) E)
(L (W x00 x00 x00 x00 x00 x00 x00 x00))))
(T (W x00 x00 x00 x00 x00 x00 x00 x00)
(T (W xff xff xff xff xff xff xff xff)
(T (W x6c x00 x00 x00 x60 x00 x00 x00)
(L (W xff xff xff xff xff xff xff xff)) E)
(L (W xff xff xff xff xc8 x00 x00 x00)))
(T (W x18 x00 x00 x00 x10 x00 x00 x00)
(L (W x00 x00 x80 xbf x00 x00 x80 xbf))
(L (W xff xff xff xff xff xff xff xff))))))))
(T (W xf2 x4b xfb xff x74 x00 x00 x00)
(T (W x45 x26 x22 x84 xe4 x9c xf2 xcb)
(T (W x01 x00 x00 x00 x9c x00 x00 x00)
(T (W xf2 x83 xfb xff x74 x00 x00 x00)
(T (W x45 x26 x22 x84 xe4 x9c xf2 xcb)
(T (W x45 x26 x22 x84 xe4 x9c xf2 xcb)
(T (W xc2 x65 x2e x97 x85 x1f x59 x5f)
(L (W x49 xa1 x68 x4a xeb x5f xdd x3d)) E)
(L (W xff xff xff xff xff xff xff xff)))
(T (W xff xff xff xff xbc x00 x00 x00)
(T (W x30 x35 x5f x43 x4c x45 x41 x52)
(L (W x00 x00 x80 xbf x00 x00 x80 xbf)) E)
(L (W x45 x26 x22 x84 xe4 x9c xf2 xcb))))
(T (W xff xff xff xff xff xff xff xff)
(T (W x00 x00 x00 x00 x44 x87 xfc xff)
(T (W x72 x64 x5f x6c x76 x31 x00 x00)
(L (W x00 x00 x80 xbf x00 x00 x80 xbf)) E)
(L (W x30 x35 x5f x43 x4c x45 x41 x52)))
(T (W x00 x00 x80 x3f x00 x00 x80 x3f)
(L (W x45 x26 x22 x84 xe4 x9c xf2 xcb))
(L (W xff xff xff xff xff xff xff xff)))))
(T (W x00 x00 x80 x3f x00 x00 x80 x3f)
(T (W x00 x00 x00 x00 x00 x00 x00 x00)
(T (W x00 x00 x80 x3f x00 x00 x80 x3f)
(T (W x45 x26 x22 x84 xe4 x9c xf2 xcb)
(L (W x00 x00 x00 x00 x00 x00 x00 x00)) E)
(L (W xff xff xff xff xff xff xff xff)))
(T (W xff xff xff xff xbc x00 x00 x00)
(T (W x00 x00 x00 x00 xa2 xe6 xfd xff)
(L (W xff xff xff xff xff xff xff xff)) E)
(L (W xff xff xff xff xff xff xff xff))))
(T (W x64 x00 x00 x00 x9c x00 x00 x00)
(T (W x45 x44 x00 x00 x00 x00 x00 x00)
(T (W x6c xaf xfd xff x2f x00 x00 x00)
(L (W x00 x00 x00 x00 x44 xa7 xff xff)) E)
(L (W x49 xa1 x68 x4a xeb x5f xdd x3d)))
(T (W x00 x00 x00 x00 x00 x00 x00 x00)
(L (W x00 x00 x80 xbf x00 x00 x80 xbf))
(L (W x00 x00 x00 x00 x00 x00 x00 x00))))))
(T (W x00 x00 x80 x3f x00 x00 x80 x3f)
(T (W x00 x00 x80 x3f x00 x00 x80 x3f)
(T (W x00 x00 x00 x00 x00 x00 x00 x00)
(T (W x68 x00 x00 x00 x5c x00 x00 x00)
(T (W xff xff xff xff xff xff xff xff)
(L (W xff xff xff xff xff xff xff xff)) E)
(L (W xb0 x00 x00 x00 x64 x00 x00 x00)))
(T (W x00 x00 x00 x00 x00 x00 x00 x00)
(T (W x45 x26 x22 x84 xe4 x9c xf2 xcb)
(L (W x6c x00 x00 x00 x60 x00 x00 x00)) E)
(L (W xff xff xff xff xa0 x00 x00 x00))))
(T (W xff xff xff xff xff xff xff xff)
(T (W xff xff xff xff xff xff xff xff)
(T (W xff xff xff xff xff xff xff xff)
(L (W x18 x00 x00 x00 x10 x00 x00 x00)) E)
(L (W x00 x00 x80 xbf x00 x00 x80 xbf)))
(T (W xff xff xff xff xff xff xff xff)
(L (W x50 x00 x00 x00 x44 x00 x00 x00))
(L (W x00 x00 x00 x00 x12 x00 x00 x00)))))
(T (W x00 x00 x80 x3f x00 x00 x80 x3f)
(T (W x00 x00 x00 x00 x00 x00 x00 x00)
(T (W x00 x00 x00 x00 x00 x00 x00 x00)
(T (W x6c x7f xfd xff x36 x00 x00 x00)
(L (W x00 x00 x00 x00 x00 x00 x00 x00)) E)
(L (W xff xff xff xff xff xff xff xff)))
(T (W x00 x00 x00 x00 x00 x00 x00 x00)
(T (W x00 x00 x01 x01 xc0 x01 x00 x00)
(L (W x74 x00 x00 x00 x68 x00 x00 x00)) E)
(L (W xff xff xff xff xff xff xff xff))))
(T (W xff xff xff xff xff xff xff xff)
(T (W x00 x00 x80 x3f x00 x00 x80 x3f)
(T (W x00 x00 x80 x3f x00 x00 x80 x3f)
(L (W x00 x00 x80 xbf x00 x00 x80 xbf)) E)
(L (W x00 x00 x00 x00 x00 x00 x00 x00)))
(T (W x00 x00 x00 x00 x00 x00 x00 x00)
(L (W xff xff xff xff xff xff xff xff))
(L (W x4f x84 x6f x8b xe8 xcb x63 xb7)))))))
(T (W x68 x00 x00 x00 x5c x00 x00 x00)
(T (W xf2 x6b xfb xff x74 x00 x00 x00)
(T (W xd4 x90 xfb xff x00 x01 x01 x01)
(T (W x00 x00 x00 x00 x00 x00 x00 x00)
(T (W x18 x00 x00 x00 x0c x00 x00 x00)
(T (W xff xff xff xff xff xff xff xff)
(L (W x50 x00 x00 x00 x44 x00 x00 x00)) E)
(L (W xff xff xff xff xff xff xff xff)))
(T (W x00 x00 x00 x00 x01 x00 x00 x00)
(T (W x00 x00 x80 x3f x00 x00 x80 x3f)
(L (W xaa xcd xff xff x78 x00 x00 x00)) E)
(L (W x00 x00 x80 xbf x00 x00 x80 xbf))))
(T (W xdd x00 x00 x00 xff xff xff xff)
(T (W x03 x00 x00 x00 xd8 x00 x00 x00)
(T (W x00 x00 x00 x00 x00 x00 x00 x00)
(L (W x00 x00 x80 xbf x00 x00 x80 xbf)) E)
(L (W x00 x00 x00 x00 x00 x00 x00 x00)))
(T (W x35 x00 x00 x00 x38 x00 x00 x00)
(L (W x00 x00 x80 xbf x00 x00 x80 xbf))
(L (W xff xff xff xff xff xff xff xff)))))
(T (W x00 x00 x00 x00 x00 x00 x00 x00)
(T (W x00 x00 x00 x00 x00 x00 x00 x00)
(T (W x00 x00 x80 x3f x00 x00 x80 x3f)
(T (W x00 x00 x80 x3f x00 x00 x80 x3f)
(L (W x00 x00 x00 x00 x00 x00 x00 x00)) E)
(L (W xff xff xff xff xff xff xff xff)))
(T (W x02 x00 x00 x00 xff xff xff xff)
(T (W xbe x01 x00 x00 xff xff xff xff)
(L (W x00 x00 x00 x00 x00 x00 x00 x00)) E)
(L (W xff xff xff xff xff xff xff xff))))
(T (W xff xff xff xff x03 x00 x00 x00)
(T (W x00 x00 x00 x00 x00 x00 x00 x00)
(T (W x54 x00 x00 x00 x48 x00 x00 x00)
(L (W x00 x00 x80 xbf x00 x00 x80 xbf)) E)
(L (W x46 x53 x59 x53 x5f x4e x53 x5f)))
(T (W x45 x26 x22 x84 xe4 x9c xf2 xcb)
(L (W xff xff xff xff xff xff xff xff))
(L (W x45 x26 x22 x84 xe4 x9c xf2 xcb))))))
(T (W x68 x00 x00 x00 x5c x00 x00 x00)
(T (W x00 x00 x80 x3f x00 x00 x80 x3f)
(T (W x40 x00 x00 x00 x0c x00 x00 x00)
(T (W x00 x00 x80 x3f x00 x00 x80 x3f)
(T (W x18 x00 x00 x00 x10 x00 x00 x00)
(L (W x64 x01 x00 x00 xff xff xff xff)) E)
(L (W x00 x00 x01 x01 x5d x00 x00 x00)))
(T (W x50 x00 x00 x00 x44 x00 x00 x00)
(T (W xb8 x00 x00 x00 x64 x00 x00 x00)
(L (W x68 x00 x00 x00 x5c x00 x00 x00)) E)
(L (W xff xff xff xff xff xff xff xff))))
(T (W xff xff xff xff xff xff xff xff)
(T (W x04 x00 x00 x00 xa2 x9e xfc xff)
(T (W x18 x00 x00 x00 x0c x00 x00 x00)
(L (W xd4 xa0 xff xff x00 x01 x01 x01)) E)
(L (W x00 x00 x80 xbf x00 x00 x80 xbf)))
(T (W xff xff xff xff x02 x00 x00 x00)
(L (W xaa x1d xfe xff x78 x00 x00 x00))
(L (W x00 x00 x00 x00 x00 x00 x00 x00)))))
(T (W x00 x00 x00 x00 x00 x00 x00 x00)
(T (W x00 x00 x00 x00 x04 x00 x00 x00)
(T (W x00 x00 x80 x3f x00 x00 x80 x3f)
(T (W xff xff xff xff xff xff xff xff)
(L (W x00 x00 x00 x00 x00 x00 x00 x00)) E)
(L (W x04 x00 x00 x00 x70 x03 x00 x00)))
(T (W x00 x00 x00 x00 x00 x00 x00 x00)
(T (W x00 x00 x00 x00 x00 x00 x00 x00)
(L (W x00 x00 x00 x00 x00 x00 x00 x00)) E)
(L (W xc4 x00 x00 x00 x01 x00 x00 x00))))
(T (W xff xff xff xff xff xff xff xff)
(T (W x00 x00 x80 x3f x00 x00 x80 x3f)
(T (W x00 x00 x00 x00 x00 x00 x00 x00)
(L (W x45 x26 x22 x84 xe4 x9c xf2 xcb)) E)
(L (W x00 x00 x00 x00 x00 x00 x00 x00)))
(T (W x00 x00 x00 x00 x00 x00 x00 x00)
(L (W xff xff xff xff xff xff xff xff))
(L (W x45 x26 x22 x84 xe4 x9c xf2 xcb)))))))))
(T (W xb8 x00 x00 x00 xac x00 x00 x00)
(T (W x00 x00 x00 x00 x00 x00 x00 x00)
(T (W x45 x26 x22 x84 xe4 x9c xf2 xcb)
(T (W x45 x26 x22 x84 xe4 x9c xf2 xcb)
(T (W x00 x00 x00 x00 x00 x00 x00 x00)
(T (W xaa x34 xfe xff x00 x00 x01 x01)
(T (W x00 x00 x80 x3f x00 x00 x80 x3f)
(T (W xff xff xff xff xff xff xff xff)
(L (W x00 x00 x00 x00 x12 x00 x00 x00)) E)
(L (W x14 x00 x00 x00 x0c x00 x00 x00)))
(T (W x00 x00 x80 x3f x00 x00 x80 x3f)
(T (W xff xff xff xff xff xff xff xff)
(L (W x00 x00 x00 x00 x00 x00 x00 x00)) E)
(L (W x00 x00 x00 x00 x00 x00 x00 x00))))
(T (W x64 x00 x00 x00 x9c x00 x00 x00)
(T (W x00 x00 x00 x00 x00 x00 x00 x00)
(T (W xff xff xff xff xff xff xff xff)
(L (W x90 x04 x00 x00 x80 x03 x00 x00)) E)
(L (W xff xff xff xff xff xff xff xff)))
(T (W x00 x00 x00 x00 x00 x00 x00 x00)
(L (W x04 x00 x00 x00 xa2 x04 xfe xff))
(L (W x6c x00 x00 x00 x60 x00 x00 x00)))))
(T (W x40 x00 x00 x00 x0c x00 x00 x00)
(T (W xff xff xff xff xff xff xff xff)
(T (W x45 x26 x22 x84 xe4 x9c xf2 xcb)
(T (W x00 x00 x80 x3f x00 x00 x80 x3f)
(L (W xff xff xff xff xff xff xff xff)) E)
(L (W x68 x00 x00 x00 x5c x00 x00 x00)))
(T (W x68 x00 x00 x00 x5c x00 x00 x00)
(T (W xff xff xff xff xff xff xff xff)
(L (W xff xff xff xff xa8 x00 x00 x00)) E)
(L (W x00 x00 x80 xbf x00 x00 x80 xbf))))
(T (W x00 x00 x00 x00 x44 x25 xfc xff)
(T (W xff xff xff xff xff xff xff xff)
(T (W x03 x00 x00 x00 xbc x00 x00 x00)
(L (W x00 x00 x80 xbf x00 x00 x80 xbf)) E)
(L (W x30 x35 x5f x43 x4c x45 x41 x52)))
(T (W xff xff xff xff xff xff xff xff)
(L (W x00 x00 x00 x00 x00 x00 x00 x00))
(L (W x63 x01 x00 x00 xff xff xff xff))))))
(T (W x00 x00 x80 x3f x00 x00 x80 x3f)
(T (W x00 x00 x00 x00 x00 x00 x00 x00)
(T (W xff xff xff xff xff xff xff xff)
(T (W x00 x00 x00 x00 x00 x00 x00 x00)
(T (W x45 x26 x22 x84 xe4 x9c xf2 xcb)
(L (W x00 x00 x80 xbf x00 x00 x80 xbf)) E)
(L (W x54 x00 x00 x00 x48 x00 x00 x00)))
(T (W xcb x01 x00 x00 xff xff xff xff)
(T (W x00 x00 x00 x00 x00 x00 x00 x00)
(L (W x00 x00 x80 xbf x00 x00 x80 xbf)) E)
(L (W x00 x00 x00 x00 x00 x00 x00 x00))))
(T (W x50 x00 x00 x00 x44 x00 x00 x00)
(T (W x50 x00 x00 x00 x44 x00 x00 x00)
(T (W x00 x00 x00 x00 x00 x00 x00 x00)
(L (W x00 x00 x80 xbf x00 x00 x80 xbf)) E)
(L (W x00 x00 x00 x00 x00 x00 x00 x00)))
(T (W x50 x00 x00 x00 x44 x00 x00 x00)
(L (W x00 x00 x00 x00 x00 x00 x00 x00))
(L (W xff xff xff xff xff xff xff xff)))))
(T (W x00 x00 x00 x00 x00 x00 x00 x00)
(T (W xff xff xff xff xff xff xff xff)
(T (W x04 x00 x00 x00 x3a x7d xfc xff)
(T (W x6c x00 x00 x00 x60 x00 x00 x00)
(L (W xff xff xff xff xff xff xff xff)) E)
(L (W x31 x00 x00 x00 x34 x00 x00 x00)))
(T (W xff xff xff xff xff xff xff xff)
(T (W xff xff xff xff xff xff xff xff)
(L (W x3c x00 x40 x00 x44 x00 x48 x00)) E)
(L (W xff xff xff xff x90 x00 x00 x00))))
(T (W x00 x00 x80 x3f x00 x00 x80 x3f)
(T (W x45 x44 x00 x00 x00 x00 x00 x00)
(T (W xff xff xff xff xff xff xff xff)
(L (W x00 x00 x00 x00 x00 x00 x00 x00)) E)
(L (W xff xff xff xff xff xff xff xff)))
(T (W x00 x00 x01 x01 x3b x02 x00 x00)
(L (W x45 x26 x22 x84 xe4 x9c xf2 xcb))
(L (W x00 x00 x00 x00 x12 x00 x00 x00)))))))
(T (W x45 x26 x22 x84 xe4 x9c xf2 xcb)
(T (W x00 x00 x80 x3f x00 x00 x80 x3f)
(T (W x45 x26 x22 x84 xe4 x9c xf2 xcb)
(T (W xff xff xff xff xff xff xff xff)
(T (W x45 x26 x22 x84 xe4 x9c xf2 xcb)
(T (W x18 x00 x00 x00 x10 x00 x00 x00)
(L (W x00 x00 x00 x00 x00 x00 x00 x00)) E)
(L (W xaa x4b xfe xff x78 x00 x00 x00)))
(T (W xff xff xff xff x9c x00 x00 x00)
(T (W x67 x72 x6f x75 x70 x5f x6c x65)
(L (W x45 x26 x22 x84 xe4 x9c xf2 xcb)) E)
(L (W x00 x00 x00 x00 x00 x00 x00 x00))))
(T (W xd4 x0e xfc xff x00 x01 x01 x01)
(T (W x00 x00 x80 x3f x00 x00 x80 x3f)
(T (W xff xff xff xff xff xff xff xff)
(L (W x00 x00 x00 x00 x12 x00 x00 x00)) E)
(L (W xff xff xff xff xff xff xff xff)))
(T (W x45 x26 x22 x84 xe4 x9c xf2 xcb)
(L (W x45 x44 x00 x00 x00 x00 x00 x00))
(L (W xc4 x00 x00 x00 x02 x00 x00 x00)))))
(T (W x00 x00 x00 x00 x00 x00 x00 x00)
(T (W xff xff xff xff xff xff xff xff)
(T (W x26 x00 x00 x00 xff xff xff xff)
(T (W x00 x00 x00 x00 x00 x00 x00 x00)
(L (W xff xff xff xff xff xff xff xff)) E)
(L (W xff xff xff xff xa8 x00 x00 x00)))
(T (W xc8 x00 x00 x00 x01 x00 x00 x00)
(T (W xbc x00 x00 x00 x0a x00 x00 x00)
(L (W xff xff xff xff xff xff xff xff)) E)
(L (W x45 x26 x22 x84 xe4 x9c xf2 xcb))))
(T (W x45 x26 x22 x84 xe4 x9c xf2 xcb)
(T (W xff xff xff xff xff xff xff xff)
(T (W x00 x00 x00 x00 x00 x00 x00 x00)
(L (W x00 x00 x00 x00 x00 x00 x00 x00)) E)
(L (W xff xff xff xff xff xff xff xff)))
(T (W x00 x00 x00 x00 x72 xb7 xff xff)
(L (W x54 x00 x00 x00 x48 x00 x00 x00))
(L (W x00 x00 x00 x00 x00 x00 x00 x00))))))
(T (W x00 x00 x80 x3f x00 x00 x80 x3f)
(T (W x00 x00 x00 x00 x00 x00 x00 x00)
(T (W xff xff xff xff xff xff xff xff)
(T (W x00 x00 x00 x00 x00 x00 x00 x00)
(T (W x00 x00 x80 x3f x00 x00 x80 x3f)
(L (W xf2 x59 xff xff x74 x00 x00 x00)) E)
(L (W x45 x26 x22 x84 xe4 x9c xf2 xcb)))
(T (W x00 x00 x00 x00 x00 x00 x00 x00)
(T (W x00 x00 x80 xbf x00 x00 x80 xbf)
(L (W x00 x00 x00 x00 x00 x00 x00 x00)) E)
(L (W x6c x00 x00 x00 x60 x00 x00 x00))))
(T (W xf2 x19 xfc xff x74 x00 x00 x00)
(T (W xff xff xff xff xb0 x00 x00 x00)
(T (W x00 x00 x62 x00 x74 x00 x08 x00)
(L (W x00 x00 x80 xbf x00 x00 x80 xbf)) E)
(L (W x00 x00 x00 x00 x00 x00 x00 x00)))
(T (W xff xff xff xff xc4 x00 x00 x00)
(L (W x00 x00 x80 xbf x00 x00 x80 xbf))
(L (W xff xff xff xff xff xff xff xff)))))
(T (W x40 x00 x00 x00 x10 x00 x00 x00)
(T (W xff xff xff xff xff xff xff xff)
(T (W x45 x44 x00 x00 x00 x00 x00 x00)
(T (W xb8 x00 x00 x00 xac x00 x00 x00)
(L (W x90 x01 x00 x00 xff xff xff xff)) E)
(L (W x03 x00 x00 x00 xd0 x00 x00 x00)))
(T (W x1a x52 xfe xff x00 x00 x01 x01)
(T (W xff xff xff xff xff xff xff xff)
(L (W x45 x26 x22 x84 xe4 x9c xf2 xcb)) E)
(L (W x00 x00 x00 x00 xd8 xfe xfe xff))))
(T (W x00 x00 x80 x3f x00 x00 x80 x3f)
(T (W x00 x00 x00 x00 x00 x00 x00 x00)
(T (W xff xff xff xff xff xff xff xff)
(L (W x00 x00 x00 x00 x00 x00 x00 x00)) E)
(L (W x63 x01 x00 x00 xff xff xff xff)))
(T (W xff xff xff xff xff xff xff xff)
(L (W x00 x00 x00 x00 xd8 x3e xfe xff))
(L (W x00 x00 x00 x00 x00 x00 x00 x00))))))))
(T (W x18 x00 x00 x00 x10 x00 x00 x00)
(T (W xff xff xff xff xff xff xff xff)
(T (W x00 x00 x00 x00 x00 x00 x00 x00)
(T (W x18 x00 x00 x00 x10 x00 x00 x00)
(T (W xd4 xca xfb xff x00 x01 x01 x01)
(T (W xff xff xff xff xff xff xff xff)
(T (W x00 x00 x00 x00 x00 x00 x00 x00)
(L (W x45 x26 x22 x84 xe4 x9c xf2 xcb)) E)
(L (W xff xff xff xff xff xff xff xff)))
(T (W x32 x00 x00 x00 x10 x00 x00 x00)
(T (W x49 xa1 x68 x4a xeb x5f xdd x3d)
(L (W xff xff xff xff xff xff xff xff)) E)
(L (W xaa xc7 xfe xff x78 x00 x00 x00))))
(T (W x45 x26 x22 x84 xe4 x9c xf2 xcb)
(T (W xff xff xff xff xff xff xff xff)
(T (W x00 x00 x80 x3f x00 x00 x80 x3f)
(L (W x68 x00 x00 x00 x5c x00 x00 x00)) E)
(L (W x49 xa1 x68 x4a xeb x5f xdd x3d)))
(T (W xff xff xff xff xff xff xff xff)
(L (W x00 x00 x80 xbf x00 x00 x80 xbf))
(L (W x30 x35 x5f x43 x4c x45 x41 x52)))))
(T (W x00 x00 x00 x00 x44 xa9 xfb xff)
(T (W x00 x00 x00 x00 x00 x00 x00 x00)
(T (W xb8 x00 x00 x00 xac x00 x00 x00)
(T (W xff xff xff xff xff xff xff xff)
(L (W x00 x00 x00 x00 x00 x00 x00 x00)) E)
(L (W x46 x53 x59 x53 x5f x4e x53 x5f)))
(T (W x5f x4e x53 x5f x30 x35 x5f x43)
(T (W x45 x26 x22 x84 xe4 x9c xf2 xcb)
(L (W x00 x00 x00 x00 x00 x00 x00 x00)) E)
(L (W x00 x00 x00 x00 x00 x00 x00 x00))))
(T (W x01 x00 x00 x00 x04 x00 x00 x00)
(T (W x00 x00 x80 x3f x00 x00 x80 x3f)
(T (W x45 x26 x22 x84 xe4 x9c xf2 xcb)
(L (W xff xff xff xff xff xff xff xff)) E)
(L (W x2d x00 x00 x00 x30 x00 x00 x00)))
(T (W x68 x00 x00 x00 x5c x00 x00 x00)
(L (W xc4 x00 x00 x00 x64 x00 x00 x00))
(L (W x00 x00 x80 xbf x00 x00 x80 xbf))))))
(T (W xff xff xff xff xff xff xff xff)
(T (W xc0 x00 x00 x00 xb4 x00 x00 x00)
(T (W x00 x00 x80 x3f x00 x00 x80 x3f)
(T (W xff xff xff xff xff xff xff xff)
(T (W x99 x9b x30 x97 x85 x1f x5c x5f)
(L (W x00 x00 x00 x00 x00 x00 x00 x00)) E)
(L (W x00 x00 x00 x00 x00 x00 x00 x00)))
(T (W xf2 xd5 xfc xff x74 x00 x00 x00)
(T (W xff xff xff xff xff xff xff xff)
(L (W xff xff xff xff xff xff xff xff)) E)
(L (W xff xff xff xff xff xff xff xff))))
(T (W x00 x00 x00 x00 x00 x00 x00 x00)
(T (W x30 x35 x5f x43 x4c x45 x41 x52)
(T (W x00 x00 x00 x00 x00 x00 x00 x00)
(L (W xff xff xff xff xff xff xff xff)) E)
(L (W xd4 x9a xfe xff x00 x01 x01 x01)))
(T (W x00 x00 x00 x00 x00 x00 x00 x00)
(L (W xff xff xff xff xff xff xff xff))
(L (W x00 x00 x80 xbf x00 x00 x80 xbf)))))
(T (W x68 x00 x00 x00 x5c x00 x00 x00)
(T (W x00 x00 x00 x00 x00 x00 x00 x00)
(T (W x00 x00 x00 x00 x44 x79 xfc xff)
(T (W x00 x00 x00 x00 x00 x00 x00 x00)
(L (W x00 x00 x80 xbf x00 x00 x80 xbf)) E)
(L (W x00 x00 x00 x00 x00 x00 x00 x00)))
(T (W x00 x00 x80 x3f x00 x00 x80 x3f)
(T (W x00 x00 x00 x00 x00 x00 x00 x00)
(L (W x00 x00 x00 x00 x00 x00 x00 x00)) E)
(L (W x46 x53 x59 x53 x5f x4e x53 x5f))))
(T (W xff xff xff xff xff xff xff xff)
(T (W x18 x00 x00 x00 x0c x00 x00 x00)
(T (W x25 x00 x00 x00 x67 x72 x6f x75)
(L (W x5c x00 x00 x00 x50 x00 x00 x00)) E)
(L (W x45 x26 x22 x84 xe4 x9c xf2 xcb)))
(T (W x00 x00 x80 x3f x00 x00 x80 x3f)
(L (W x4f x84 x6f x8b xe8 xcb x63 xb7))
(L (W x00 x00 x80 xbf x00 x00 x80 xbf)))))))
(T (W xff xff xff xff xff xff xff xff)
(T (W xff xff xff xff xff xff xff xff)
(T (W xb8 x00 x00 x00 xac x00 x00 x00)
(T (W x00 x00 x80 x3f x00 x00 x80 x3f)
(T (W xff xff xff xff xff xff xff xff)
(T (W x00 x00 x00 x00 x00 x00 x00 x00)
(L (W xff xff xff xff xff xff xff xff)) E)
(L (W x3c x56 xfe xff x15 x00 x00 x00)))
(T (W x45 x26 x22 x84 xe4 x9c xf2 xcb)
(T (W x00 x00 x00 x00 x44 xd1 xfd xff)
(L (W xff xff xff xff xff xff xff xff)) E)
(L (W xff xff xff xff xff xff xff xff))))
(T (W x00 x00 x00 x00 x00 x00 x00 x00)
(T (W x00 x00 x01 x01 x69 x01 x00 x00)
(T (W xff xff xff xff x03 x00 x00 x00)
(L (W xff xff xff xff xb0 x00 x00 x00)) E)
(L (W x00 x00 x80 xbf x00 x00 x80 xbf)))
(T (W xff xff xff xff xff xff xff xff)
(L (W xff xff xff xff xb0 x00 x00 x00))
(L (W x00 x00 x00 x00 x00 x00 x00 x00)))))
(T (W x00 x00 x80 x3f x00 x00 x80 x3f)
(T (W x00 x00 x00 x00 x00 x00 x00 x00)
(T (W xf2 x6d xfc xff x74 x00 x00 x00)
(T (W x18 x00 x00 x00 x10 x00 x00 x00)
(L (W x00 x00 x80 xbf x00 x00 x80 xbf)) E)
(L (W x32 x00 x00 x00 x0c x00 x00 x00)))
(T (W x00 x00 x00 x00 x00 x00 x00 x00)
(T (W x00 x00 x80 xbf x00 x00 x80 xbf)
(L (W x49 xa1 x68 x4a xeb x5f xdd x3d)) E)
(L (W x00 x00 x00 x00 x00 x00 x00 x00))))
(T (W xff xff xff xff xff xff xff xff)
(T (W x00 x00 x80 x3f x00 x00 x80 x3f)
(T (W xff xff xff xff xff xff xff xff)
(L (W x00 x00 x00 x00 x44 xb1 xff xff)) E)
(L (W x54 x00 x00 x00 x48 x00 x00 x00)))
(T (W x54 x00 x00 x00 x48 x00 x00 x00)
(L (W x00 x00 x00 x00 x00 x00 x00 x00))
(L (W x6c x00 x00 x00 x60 x00 x00 x00))))))
(T (W xff xff xff xff x04 x00 x00 x00)
(T (W xff xff xff xff x03 x00 x00 x00)
(T (W x00 x00 x80 x3f x00 x00 x80 x3f)
(T (W xff xff xff xff xff xff xff xff)
(T (W xff xff xff xff xff xff xff xff)
(L (W x00 x00 x00 x00 x00 x00 x00 x00)) E)
(L (W x00 x00 x00 x00 x00 x00 x00 x00)))
(T (W xff xff xff xff xff xff xff xff)
(T (W x00 x00 x00 x00 x00 x00 x00 x00)
(L (W xff xff xff xff xff xff xff xff)) E)
(L (W xff xff xff xff xff xff xff xff))))
(T (W x6c x29 xfc xff x3e x00 x00 x00)
(T (W x45 x26 x22 x84 xe4 x9c xf2 xcb)
(T (W x00 x00 x00 x00 x01 x00 x00 x00)
(L (W x00 x00 x01 x01 xa8 x01 x00 x00)) E)
(L (W x40 xa1 xfe xff x32 xaa xfe xff)))
(T (W x00 x00 x80 x3f x00 x00 x80 x3f)
(L (W xff xff xff xff xff xff xff xff))
(L (W x45 x26 x22 x84 xe4 x9c xf2 xcb)))))
(T (W xf2 xbd xfb xff x74 x00 x00 x00)
(T (W x00 x00 x00 x00 x00 x00 x00 x00)
(T (W x03 x00 x00 x00 xd8 x00 x00 x00)
(T (W x00 x00 x80 x3f x00 x00 x80 x3f)
(L (W x54 x00 x00 x00 x48 x00 x00 x00)) E)
(L (W x45 x26 x22 x84 xe4 x9c xf2 xcb)))
(T (W x18 x00 x00 x00 x10 x00 x00 x00)
(T (W x00 x00 x80 xbf x00 x00 x80 xbf)
(L (W xff xff xff xff xff xff xff xff)) E)
(L (W x94 x04 x00 x00 x80 x03 x00 x00))))
(T (W xff xff xff xff xff xff xff xff)
(T (W xff xff xff xff xff xff xff xff)
(T (W x00 x00 x80 x3f x00 x00 x80 x3f)
(L (W xff xff xff xff xc8 x00 x00 x00)) E)
(L (W x00 x00 x80 xbf x00 x00 x80 xbf)))
(T (W x00 x00 x80 x3f x00 x00 x80 x3f)
(L (W x00 x00 x00 x00 x00 x00 x00 x00))
(L (W xaa x3f xff xff x78 x00 x00 x00))))))))))
(T (W x58 x85 x01 x00 x24 x84 x01 x00)
(T (W xf8 x4b x00 x00 xc4 x4a x00 x00)
(T (W x00 x00 x00 x00 x00 x00 x00 x00)
(T (W x00 x00 x00 x00 x00 x00 x00 x00)
(T (W x00 x00 x00 x00 x00 x00 x00 x00)
(T (W x00 x00 x00 x00 x00 x00 x00 x00)
(T (W xff xff xff xff xff xff xff xff)
(T (W x00 x00 x00 x00 x00 x00 x00 x00)
(T (W x18 x00 x00 x00 x10 x00 x00 x00)
(L (W x3c x02 x00 x00 x30 x01 x00 x00)) E)
(L (W x6c x00 x00 x00 x60 x00 x00 x00)))
(T (W x00 x00 x00 x00 x00 x00 x00 x00)
(T (W x03 x00 x00 x00 xd8 x00 x00 x00)
(L (W x00 x00 x00 x00 x00 x00 x00 x00)) E)
(L (W x00 x00 x00 x00 xda xc1 xfe xff))))
(T (W x50 x00 x00 x00 x44 x00 x00 x00)
(T (W x30 x35 x5f x43 x4c x45 x41 x52)
(T (W x64 x00 x00 x00 x9c x00 x00 x00)
(L (W xff xff xff xff xff xff xff xff)) E)
(L (W x03 x00 x00 x00 xd8 x00 x00 x00)))
(T (W x00 x00 x00 x00 x04 x00 x00 x00)
(L (W xff xff xff xff xff xff xff xff))
(L (W x00 x00 x80 xbf x00 x00 x80 xbf)))))
(T (W xff xff xff xff xff xff xff xff)
(T (W xff xff xff xff xff xff xff xff)
(T (W x00 x00 x00 x00 x00 x00 x00 x00)
(T (W x00 x00 x00 x00 x00 x00 x00 x00)
(L (W x68 x00 x00 x00 x5c x00 x00 x00)) E)
(L (W x00 x00 x80 xbf x00 x00 x80 xbf)))
(T (W x00 x00 x80 x3f x00 x00 x80 x3f)
(T (W x00 x00 x80 xbf x00 x00 x80 xbf)
(L (W x45 x26 x22 x84 xe4 x9c xf2 xcb)) E)
(L (W x00 x00 x80 xbf x00 x00 x80 xbf))))
(T (W x68 x00 x00 x00 x5c x00 x00 x00)
(T (W xcc x00 x00 x00 x01 x00 x00 x00)
(T (W x68 x00 x00 x00 x5c x00 x00 x00)
(L (W x4f x84 x6f x8b xe8 xcb x63 xb7)) E)
(L (W xff xff xff xff xff xff xff xff)))
(T (W xff xff xff xff x9c x00 x00 x00)
(L (W x00 x00 x00 x00 x00 x00 x00 x00))
(L (W xff xff xff xff xff xff xff xff))))))
(T (W x00 x00 x80 x3f x00 x00 x80 x3f)
(T (W x25 x00 x00 x00 x0c x00 x00 x00)
(T (W xff xff xff xff xff xff xff xff)
(T (W x00 x00 x00 x00 x00 x00 x00 x00)
(T (W x00 x00 x80 x3f x00 x00 x80 x3f)
(L (W x45 x26 x22 x84 xe4 x9c xf2 xcb)) E)
(L (W x00 x00 x80 xbf x00 x00 x80 xbf)))
(T (W xff xff xff xff xff xff xff xff)
(T (W x6c xdc xfd xff x31 x00 x00 x00)
(L (W x45 x26 x22 x84 xe4 x9c xf2 xcb)) E)
(L (W x00 x00 x00 x00 x12 x00 x00 x00))))
(T (W x00 x00 x80 x3f x00 x00 x80 x3f)
(T (W x00 x00 x80 x3f x00 x00 x80 x3f)
(T (W xff xff xff xff xff xff xff xff)
(L (W x00 x00 x00 x00 x00 x00 x00 x00)) E)
(L (W xff xff xff xff xff xff xff xff)))
(T (W x00 x00 x80 x3f x00 x00 x80 x3f)
(L (W x30 x35 x5f x43 x4c x45 x41 x52))
(L (W xff xff xff xff xff xff xff xff)))))
(T (W x1c x01 x00 x00 x04 x00 x00 x00)
(T (W xbc x00 x00 x00 xb0 x00 x00 x00)
(T (W xff xff xff xff xff xff xff xff)
(T (W x88 xb8 x33 x97 x85 xa7 x5f x5f)
(L (W xff xff xff xff xff xff xff xff)) E)
(L (W xaa x72 xfe xff x78 x00 x00 x00)))
(T (W xff xff xff xff xac x00 x00 x00)
(T (W xb4 x00 x00 x00 x64 x00 x00 x00)
(L (W xff xff xff xff xff xff xff xff)) E)
(L (W x00 x00 x00 x00 xd8 xf5 xfe xff))))
(T (W x00 x00 x80 x3f x00 x00 x80 x3f)
(T (W xff xff xff xff xff xff xff xff)
(T (W x00 x00 x80 x3f x00 x00 x80 x3f)
(L (W x06 x00 x00 x00 x98 x05 x00 x00)) E)
(L (W xff xff xff xff xff xff xff xff)))
(T (W xff xff xff xff xff xff xff xff)
(L (W x54 x00 x00 x00 x48 x00 x00 x00))
(L (W x3c x02 x00 x00 x30 x01 x00 x00)))))))
(T (W x00 x00 x00 x00 x00 x00 x00 x00)
(T (W x45 x26 x22 x84 xe4 x9c xf2 xcb)
(T (W x00 x00 x00 x00 x00 x00 x00 x00)
(T (W xff xff xff xff xff xff xff xff)
(T (W x00 x00 x00 x00 x00 x00 x00 x00)
(T (W x45 x26 x22 x84 xe4 x9c xf2 xcb)
(L (W x5f x4e x53 x5f x30 x35 x5f x43)) E)
(L (W x00 x00 x80 x3f x00 x00 x80 x3f)))
(T (W x50 x00 x00 x00 x44 x00 x00 x00)
(T (W xff xff xff xff xff xff xff xff)
(L (W x00 x00 x00 x00 x00 x00 x00 x00)) E)
(L (W x54 x02 x00 x00 x38 x01 x00 x00))))
(T (W x00 x00 x80 x3f x00 x00 x80 x3f)
(T (W x00 x00 x00 x00 x00 x00 x00 x00)
(T (W xff xff xff xff xff xff xff xff)
(L (W x04 x00 x00 x00 xa2 x8b xff xff)) E)
(L (W xff xff xff xff xff xff xff xff)))
(T (W x00 x00 x00 x00 x00 x00 x00 x00)
(L (W xff xff xff xff xff xff xff xff))
(L (W x45 x26 x22 x84 xe4 x9c xf2 xcb)))))
(T (W xa9 x01 x00 x00 xff xff xff xff)
(T (W x64 x00 x00 x00 x9c x00 x00 x00)
(T (W x00 x00 x80 x3f x00 x00 x80 x3f)
(T (W x00 x00 x00 x00 x00 x00 x00 x00)
(L (W xc4 x00 x00 x00 x01 x00 x00 x00)) E)
(L (W x45 x26 x22 x84 xe4 x9c xf2 xcb)))
(T (W x00 x00 x80 x3f x00 x00 x80 x3f)
(T (W xd4 xed xfd xff x00 x01 x01 x01)
(L (W xff xff xff xff xb0 x00 x00 x00)) E)
(L (W x6c x00 x00 x00 x60 x00 x00 x00))))
(T (W x00 x00 x80 x3f x00 x00 x80 x3f)
(T (W xff xff xff xff xff xff xff xff)
(T (W x00 x00 x00 x00 xda xa9 xfd xff)
(L (W x00 x00 x00 x00 x68 x00 x6c x00)) E)
(L (W x00 x00 x80 xbf x00 x00 x80 xbf)))
(T (W xff xff xff xff xff xff xff xff)
(L (W x45 x26 x22 x84 xe4 x9c xf2 xcb))
(L (W xaa x01 x00 x00 xff xff xff xff))))))
(T (W x00 x00 x00 x00 x00 x00 x00 x00)
(T (W xaa x0b xfe xff x00 x00 x01 x01)
(T (W xff xff xff xff xff xff xff xff)
(T (W x00 x00 x00 x00 x00 x00 x00 x00)
(T (W x00 x00 x80 x3f x00 x00 x80 x3f)
(L (W x00 x00 x80 xbf x00 x00 x80 xbf)) E)
(L (W x00 x00 x80 xbf x00 x00 x80 xbf)))
(T (W x27 x00 x00 x00 x10 x00 x00 x00)
(T (W x00 x00 x00 x00 x00 x00 x00 x00)
(L (W x46 x53 x59 x53 x5f x4e x53 x5f)) E)
(L (W x00 x00 x00 x00 x00 x00 x00 x00))))
(T (W x50 x00 x00 x00 x44 x00 x00 x00)
(T (W x00 x00 x00 x00 x44 x9c xfc xff)
(T (W xff xff xff xff xff xff xff xff)
(L (W x00 x00 x00 x00 x00 x00 x00 x00)) E)
(L (W x30 x35 x5f x43 x4c x45 x41 x52)))
(T (W x45 x26 x22 x84 xe4 x9c xf2 xcb)
(L (W x45 x26 x22 x84 xe4 x9c xf2 xcb))
(L (W xff xff xff xff xff xff xff xff)))))
(T (W xff xff xff xff xff xff xff xff)
(T (W xd4 xfd xfb xff x00 x01 x01 x01)
(T (W xff xff xff xff xff xff xff xff)
(T (W x01 x00 x00 x00 x9c x00 x00 x00)
(L (W xff xff xff xff xff xff xff xff)) E)
(L (W x18 x00 x00 x00 x10 x00 x00 x00)))
(T (W xff xff xff xff xff xff xff xff)
(T (W xff xff xff xff xac x00 x00 x00)
(L (W x00 x00 x00 x00 x12 x00 x00 x00)) E)
(L (W x00 x00 x80 xbf x00 x00 x80 xbf))))
(T (W x45 x26 x22 x84 xe4 x9c xf2 xcb)
(T (W x45 x44 x00 x00 x00 x00 x00 x00)
(T (W x18 x00 x00 x00 x10 x00 x00 x00)
(L (W x00 x00 x00 x00 xda xb9 xff xff)) E)
(L (W xff xff xff xff xff xff xff xff)))
(T (W xff xff xff xff xff xff xff xff)
(L (W x54 x00 x00 x00 x48 x00 x00 x00))
(L (W x00 x00 x00 x00 xda x39 xff xff))))))))
(T (W x45 x26 x22 x84 xe4 x9c xf2 xcb)
(T (W x0a x00 x00 x00 x3e x00 x00 x00)
(T (W x00 x00 x00 x00 x00 x00 x00 x00)
(T (W x45 x26 x22 x84 xe4 x9c xf2 xcb)
(T (W x00 x00 x80 x3f x00 x00 x80 x3f)
(T (W xff xff xff xff xff xff xff xff)
(T (W x00 x00 x00 x00 x00 x00 x00 x00)
(L (W x00 x00 x80 xbf x00 x00 x80 xbf)) E)
(L (W xff xff xff xff xff xff xff xff)))
(T (W xff xff xff xff xff xff xff xff)
(T (W x00 x00 x00 x00 x00 x00 x00 x00)
(L (W xf2 xc4 xff xff x74 x00 x00 x00)) E)
(L (W x00 x00 x80 xbf x00 x00 x80 xbf))))
(T (W x6c x10 xfc xff x3c x00 x00 x00)
(T (W xff xff xff xff xb0 x00 x00 x00)
(T (W x00 x00 x80 x3f x00 x00 x80 x3f)
(L (W x00 x00 x80 xbf x00 x00 x80 xbf)) E)
(L (W x00 x00 x00 x00 x00 x00 x00 x00)))
(T (W xf2 x04 xfd xff x74 x00 x00 x00)
(L (W x00 x00 x80 xbf x00 x00 x80 xbf))
(L (W x00 x00 x01 x01 xc8 x00 x00 x00)))))
(T (W x6c x00 x00 x00 x60 x00 x00 x00)
(T (W x00 x00 x00 x00 x00 x00 x00 x00)
(T (W x68 x00 x00 x00 x5c x00 x00 x00)
(T (W x18 x00 x00 x00 x10 x00 x00 x00)
(L (W x00 x00 x00 x00 x12 x00 x00 x00)) E)
(L (W x00 x00 x00 x00 x3a x70 xfe xff)))
(T (W x9d x01 x00 x00 xff xff xff xff)
(T (W x00 x00 x00 x00 x12 x00 x00 x00)
(L (W xff xff xff xff xff xff xff xff)) E)
(L (W xff xff xff xff xff xff xff xff))))
(T (W xff xff xff xff xff xff xff xff)
(T (W x00 x00 x00 x00 x00 x00 x00 x00)
(T (W x45 x26 x22 x84 xe4 x9c xf2 xcb)
(L (W xff xff xff xff xb0 x00 x00 x00)) E)
(L (W x00 x00 x80 xbf x00 x00 x80 xbf)))
(T (W x00 x00 x80 x3f x00 x00 x80 x3f)
(L (W xff xff xff xff x98 x00 x00 x00))
(L (W x00 x00 x80 xbf x00 x00 x80 xbf))))))
(T (W x18 x00 x00 x00 x0c x00 x00 x00)
(T (W x40 x00 x00 x00 x9c x00 x00 x00)
(T (W x00 x00 x00 x00 x00 x00 x00 x00)
(T (W xff xff xff xff x04 x00 x00 x00)
(T (W xff xff xff xff xff xff xff xff)
(L (W x00 x00 x00 x00 xda x55 xff xff)) E)
(L (W xff xff xff xff xff xff xff xff)))
(T (W x00 x00 x80 x3f x00 x00 x80 x3f)
(T (W xff xff xff xff xc8 x00 x00 x00)
(L (W xff xff xff xff xa0 x00 x00 x00)) E)
(L (W xff xff xff xff xff xff xff xff))))
(T (W x00 x00 x00 x00 x02 x00 x00 x00)
(T (W x00 x00 x01 x01 x69 x01 x00 x00)
(T (W x6c xa0 xfd xff x2f x00 x00 x00)
(L (W x03 x00 x00 x00 xd8 x00 x00 x00)) E)
(L (W x54 x00 x00 x00 x48 x00 x00 x00)))
(T (W x00 x00 x00 x00 x00 x00 x00 x00)
(L (W xc4 x00 x00 x00 x01 x00 x00 x00))
(L (W x00 x00 x00 x00 x00 x00 x00 x00)))))
(T (W x00 x00 x80 x3f x00 x00 x80 x3f)
(T (W x00 x00 x00 x00 x00 x00 x00 x00)
(T (W x00 x00 x80 x3f x00 x00 x80 x3f)
(T (W x00 x00 x00 x00 x00 x00 x00 x00)
(L (W x00 x00 x80 xbf x00 x00 x80 xbf)) E)
(L (W x32 x00 x00 x00 x0c x00 x00 x00)))
(T (W x45 x26 x22 x84 xe4 x9c xf2 xcb)
(T (W x30 x35 x5f x43 x4c x45 x41 x52)
(L (W x4c x00 x50 x00 x54 x00 x00 x00)) E)
(L (W x2c x02 x00 x00 x28 x01 x00 x00))))
(T (W xff xff xff xff xff xff xff xff)
(T (W xaa xb6 xfc xff x78 x00 x00 x00)
(T (W x03 x00 x00 x00 xfc x00 x00 x00)
(L (W x00 x00 x80 xbf x00 x00 x80 xbf)) E)
(L (W x00 x00 x00 x00 x00 x00 x00 x00)))
(T (W x00 x00 x80 x3f x00 x00 x80 x3f)
(L (W x3c x3d xfe xff x18 x00 x00 x00))
(L (W x00 x00 x80 xbf x00 x00 x80 xbf)))))))
(T (W xff xff xff xff xff xff xff xff)
(T (W xff xff xff xff x04 x00 x00 x00)
(T (W x18 x00 x00 x00 x10 x00 x00 x00)
(T (W x00 x00 x80 x3f x00 x00 x80 x3f)
(T (W xb8 x00 x00 x00 xac x00 x00 x00)
(T (W xfd xaf x30 x97 x85 x2b x5c x5f)
(L (W xcc x00 x00 x00 x01 x00 x00 x00)) E)
(L (W xff xff xff xff xff xff xff xff)))
(T (W x00 x00 x00 x00 x00 x00 x00 x00)
(T (W x00 x00 x80 x3f x00 x00 x80 x3f)
(L (W xff xff xff xff xb0 x00 x00 x00)) E)
(L (W xf2 xcc xfe xff x74 x00 x00 x00))))
(T (W x00 x00 x00 x00 x00 x00 x00 x00)
(T (W xff xff xff xff xff xff xff xff)
(T (W x00 x00 x00 x00 x00 x00 x00 x00)
(L (W x00 x00 x80 xbf x00 x00 x80 xbf)) E)
(L (W x4f x84 x6f x8b xe8 xcb x63 xb7)))
(T (W xff xff xff xff xff xff xff xff)
(L (W x00 x00 x80 xbf x00 x00 x80 xbf))
(L (W x00 x00 x00 x00 x00 x00 x00 x00)))))
(T (W x00 x00 x80 x3f x00 x00 x80 x3f)
(T (W x00 x00 x00 x00 x00 x00 x00 x00)
(T (W x68 x00 x00 x00 x5c x00 x00 x00)
(T (W x45 x26 x22 x84 xe4 x9c xf2 xcb)
(L (W x45 x26 x22 x84 xe4 x9c xf2 xcb)) E)
(L (W xff xff xff xff xff xff xff xff)))
(T (W x00 x00 x00 x00 x00 x00 x00 x00)
(T (W x00 x00 x00 x00 x00 x00 x00 x00)
(L (W x00 x00 x00 x00 x00 x00 x00 x00)) E)
(L (W x43 x00 x00 x00 xff xff xff xff))))
(T (W xff xff xff xff xff xff xff xff)
(T (W x00 x00 x80 x3f x00 x00 x80 x3f)
(T (W xff xff xff xff xff xff xff xff)
(L (W x00 x00 x80 x3f x00 x00 x80 x3f)) E)
(L (W x00 x00 x00 x00 x00 x00 x00 x00)))
(T (W x45 x26 x22 x84 xe4 x9c xf2 xcb)
(L (W x00 x00 x00 x00 xda x2d xfe xff))
(L (W x00 x00 x80 xbf x00 x00 x80 xbf))))))
(T (W xf2 x7c xfb xff x74 x00 x00 x00)
(T (W x50 x00 x00 x00 x44 x00 x00 x00)
(T (W x00 x00 x00 x00 x00 x00 x00 x00)
(T (W x45 x26 x22 x84 xe4 x9c xf2 xcb)
(T (W xff xff xff xff xff xff xff xff)
(L (W x00 x00 x00 x00 x00 x00 x00 x00)) E)
(L (W x30 x35 x5f x43 x4c x45 x41 x52)))
(T (W xff xff xff xff x9c x00 x00 x00)
(T (W xff xff xff xff xff xff xff xff)
(L (W x03 x00 x00 x00 xd0 x00 x00 x00)) E)
(L (W xff xff xff xff xff xff xff xff))))
(T (W xff xff xff xff xff xff xff xff)
(T (W x00 x00 x00 x00 x12 x00 x00 x00)
(T (W xff xff xff xff xff xff xff xff)
(L (W xb0 x00 x00 x00 x1e x00 x00 x00)) E)
(L (W x00 x00 x80 xbf x00 x00 x80 xbf)))
(T (W x00 x00 x00 x00 x00 x00 x00 x00)
(L (W xff xff xff xff x9c x00 x00 x00))
(L (W x00 x00 x00 x00 x00 x00 x00 x00)))))
(T (W x50 x00 x00 x00 x44 x00 x00 x00)
(T (W x00 x00 x00 x00 x00 x00 x00 x00)
(T (W x50 x00 x00 x00 x44 x00 x00 x00)
(T (W x6f x6b x65 x5f x63 x6f x77 x61)
(L (W x45 x26 x22 x84 xe4 x9c xf2 xcb)) E)
(L (W x00 x00 x00 x00 x00 x00 x00 x00)))
(T (W x50 x00 x00 x00 x44 x00 x00 x00)
(T (W x00 x00 x00 x00 x00 x00 x00 x00)
(L (W x00 x00 x80 xbf x00 x00 x80 xbf)) E)
(L (W xff xff xff xff xff xff xff xff))))
(T (W xff xff xff xff xff xff xff xff)
(T (W xff xff xff xff xb0 x00 x00 x00)
(T (W x00 x00 x00 x00 x00 x00 x00 x00)
(L (W x45 x26 x22 x84 xe4 x9c xf2 xcb)) E)
(L (W x45 x26 x22 x84 xe4 x9c xf2 xcb)))
(T (W x00 x00 x00 x00 x00 x00 x00 x00)
(L (W x00 x00 x00 x00 x00 x00 x00 x00))
(L (W x00 x00 x80 xbf x00 x00 x80 xbf)))))))))
(T (W xff xff xff xff xff xff xff xff)
(T (W x00 x00 x80 x3f x00 x00 x80 x3f)
(T (W x00 x00 x80 x3f x00 x00 x80 x3f)
(T (W x00 x00 x80 x3f x00 x00 x80 x3f)
(T (W x50 x00 x00 x00 x44 x00 x00 x00)
(T (W x00 x00 x00 x00 x00 x00 x00 x00)
(T (W xaa x44 xfc xff x78 x00 x00 x00)
(T (W xff xff xff xff xff xff xff xff)
(L (W x00 x00 x00 x00 x00 x00 x00 x00)) E)
(L (W xff xff xff xff xa8 x00 x00 x00)))
(T (W xf2 xc2 xfc xff x74 x00 x00 x00)
(T (W x00 x00 x01 x01 x6c x01 x00 x00)
(L (W x45 x26 x22 x84 xe4 x9c xf2 xcb)) E)
(L (W x00 x00 x00 x00 x00 x00 x00 x00))))
(T (W xff xff xff xff xff xff xff xff)
(T (W x00 x00 x80 x3f x00 x00 x80 x3f)
(T (W xff xff xff xff xff xff xff xff)
(L (W x00 x00 x00 x00 x00 x00 x00 x00)) E)
(L (W x00 x00 x01 x01 xa9 x01 x00 x00)))
(T (W x00 x00 x80 x3f x00 x00 x80 x3f)
(L (W x00 x00 x00 x00 x12 x00 x00 x00))
(L (W x18 x00 x00 x00 x0c x00 x00 x00)))))
(T (W x00 x00 x00 x00 x00 x00 x00 x00)
(T (W x19 x01 x00 x00 xff xff xff xff)
(T (W x00 x00 x80 x3f x00 x00 x80 x3f)
(T (W x00 x00 x80 x3f x00 x00 x80 x3f)
(L (W xff xff xff xff xff xff xff xff)) E)
(L (W xff xff xff xff xff xff xff xff)))
(T (W x45 x26 x22 x84 xe4 x9c xf2 xcb)
(T (W xff xff xff xff xff xff xff xff)
(L (W xff xff xff xff xff xff xff xff)) E)
(L (W xc4 x00 x00 x00 x01 x00 x00 x00))))
(T (W x18 x00 x00 x00 x0c x00 x00 x00)
(T (W xff xff xff xff xff xff xff xff)
(T (W xff xff xff xff xff xff xff xff)
(L (W x00 x00 x80 xbf x00 x00 x80 xbf)) E)
(L (W x00 x00 x00 x00 x00 x00 x00 x00)))
(T (W x00 x00 x00 x00 x00 x00 x00 x00)
(L (W x00 x00 x80 xbf x00 x00 x80 xbf))
(L (W x00 x00 x00 x00 x00 x00 x00 x00))))))
(T (W x00 x00 x80 x3f x00 x00 x80 x3f)
(T (W x00 x00 x80 x3f x00 x00 x80 x3f)
(T (W xaa x45 xfe xff x00 x00 x01 x01)
(T (W x00 x00 x80 x3f x00 x00 x80 x3f)
(T (W x18 x00 x00 x00 x10 x00 x00 x00)
(L (W x00 x00 x00 x00 x44 x56 xff xff)) E)
(L (W x00 x00 x00 x00 xd8 x57 xfe xff)))
(T (W x00 x00 x00 x00 x00 x00 x00 x00)
(T (W x00 x00 x80 xbf x00 x00 x80 xbf)
(L (W x00 x00 x80 xbf x00 x00 x80 xbf)) E)
(L (W x6c x00 x00 x00 x60 x00 x00 x00))))
(T (W x64 x00 x00 x00 x9c x00 x00 x00)
(T (W x03 x00 x00 x00 xd8 x00 x00 x00)
(T (W xff xff xff xff x81 x00 x00 x00)
(L (W x54 x00 x00 x00 x48 x00 x00 x00)) E)
(L (W x00 x00 x00 x00 x00 x00 x00 x00)))
(T (W x45 x26 x22 x84 xe4 x9c xf2 xcb)
(L (W x00 x00 x80 xbf x00 x00 x80 xbf))
(L (W x00 x00 x00 x00 x00 x00 x00 x00)))))
(T (W x00 x00 x00 x00 x00 x00 x00 x00)
(T (W x6a x89 xff xff x00 x00 x01 x01)
(T (W x46 x53 x59 x53 x5f x4e x53 x5f)
(T (W x01 x00 x00 x00 xff xff xff xff)
(L (W x00 x00 x00 x00 x00 x00 x00 x00)) E)
(L (W xff xff xff xff xff xff xff xff)))
(T (W x38 x01 x00 x00 x04 x00 x00 x00)
(T (W xff xff xff xff xff xff xff xff)
(L (W x4f x84 x6f x8b xe8 xcb x63 xb7)) E)
(L (W xc4 x00 x00 x00 x01 x00 x00 x00))))
(T (W x01 x00 x00 x00 x3e x00 x00 x00)
(T (W x00 x00 x00 x00 x00 x00 x00 x00)
(T (W x45 x44 x00 x00 x00 x00 x00 x00)
(L (W x45 x26 x22 x84 xe4 x9c xf2 xcb)) E)
(L (W x00 x00 x00 x00 x00 x00 x00 x00)))
(T (W x00 x00 x00 x00 x00 x00 x00 x00)
(L (W xff xff xff xff xff xff xff xff))
(L (W x00 x00 x00 x00 x00 x00 x00 x00)))))))
(T (W x00 x00 x80 x3f x00 x00 x80 x3f)
(T (W x00 x00 x80 x3f x00 x00 x80 x3f)
(T (W x00 x00 x80 x3f x00 x00 x80 x3f)
(T (W x3e x00 x00 x00 x0c x00 x00 x00)
(T (W x00 x00 x80 x3f x00 x00 x80 x3f)
(T (W xff xff xff xff xff xff xff xff)
(L (W x00 x00 x80 xbf x00 x00 x80 xbf)) E)
(L (W xff xff xff xff xa0 x00 x00 x00)))
(T (W xff xff xff xff xff xff xff xff)
(T (W x00 x00 x00 x00 x00 x00 x00 x00)
(L (W x00 x00 x80 xbf x00 x00 x80 xbf)) E)
(L (W x45 x26 x22 x84 xe4 x9c xf2 xcb))))
(T (W xff xff xff xff xff xff xff xff)
(T (W x50 x00 x00 x00 x44 x00 x00 x00)
(T (W xc4 xd3 x36 x97 x85 x2e x63 x5f)
(L (W x45 x26 x22 x84 xe4 x9c xf2 xcb)) E)
(L (W x45 x44 x00 x00 x00 x00 x00 x00)))
(T (W xf2 x0a xfd xff x74 x00 x00 x00)
(L (W x00 x00 x00 x00 x00 x00 x00 x00))
(L (W xff xff xff xff xff xff xff xff)))))
(T (W x00 x00 x00 x00 x00 x00 x00 x00)
(T (W xf2 x7f xff xff x1a x01 x00 x00)
(T (W x00 x00 x00 x00 x00 x00 x00 x00)
(T (W x00 x00 x80 x3f x00 x00 x80 x3f)
(L (W x54 x02 x00 x00 x38 x01 x00 x00)) E)
(L (W xff xff xff xff xff xff xff xff)))
(T (W xff xff xff xff xff xff xff xff)
(T (W xff xff xff xff xff xff xff xff)
(L (W x94 x04 x00 x00 x60 x03 x00 x00)) E)
(L (W xff xff xff xff xc0 x00 x00 x00))))
(T (W x40 x00 x00 x00 x9c x00 x00 x00)
(T (W x45 x44 x00 x00 x00 x00 x00 x00)
(T (W x00 x00 x80 x3f x00 x00 x80 x3f)
(L (W x00 x00 x00 x00 x00 x00 x00 x00)) E)
(L (W x04 x00 x00 x00 x3a xb6 xfe xff)))
(T (W x00 x00 x00 x00 x00 x00 x00 x00)
(L (W x45 x26 x22 x84 xe4 x9c xf2 xcb))
(L (W x00 x00 x00 x00 x00 x00 x00 x00))))))
(T (W x00 x00 x80 x3f x00 x00 x80 x3f)
(T (W x00 x00 x00 x00 x00 x00 x00 x00)
(T (W xff xff xff xff xff xff xff xff)
(T (W x45 x26 x22 x84 xe4 x9c xf2 xcb)
(T (W x45 x26 x22 x84 xe4 x9c xf2 xcb)
(L (W xff xff xff xff xff xff xff xff)) E)
(L (W xff xff xff xff xbc x00 x00 x00)))
(T (W x00 x00 x80 x3f x00 x00 x80 x3f)
(T (W xd4 xdf xfd xff x00 x01 x01 x01)
(L (W x00 x00 x80 xbf x00 x00 x80 xbf)) E)
(L (W xff xff xff xff xa0 x00 x00 x00))))
(T (W x00 x00 x00 x00 x44 x1e xfc xff)
(T (W xff xff xff xff xff xff xff xff)
(T (W x00 x00 x80 xbf x00 x00 x80 xbf)
(L (W x54 x00 x00 x00 x48 x00 x00 x00)) E)
(L (W x00 x00 x00 x00 x00 x00 x00 x00)))
(T (W xff xff xff xff xff xff xff xff)
(L (W x00 x00 x80 xbf x00 x00 x80 xbf))
(L (W x00 x00 x00 x00 x00 x00 x00 x00)))))
(T (W x00 x00 x00 x00 x00 x00 x00 x00)
(T (W xff xff xff xff xff xff xff xff)
(T (W x00 x00 x00 x00 x00 x00 x00 x00)
(T (W xff xff xff xff xff xff xff xff)
(L (W x00 x00 x00 x00 x00 x00 x00 x00)) E)
(L (W xff xff xff xff xff xff xff xff)))
(T (W x5f x4e x53 x5f x30 x35 x5f x43)
(T (W xff xff xff xff xff xff xff xff)
(L (W xdc x00 x00 x00 x02 x00 x00 x00)) E)
(L (W xff xff xff xff x90 x00 x00 x00))))
(T (W x68 x00 x00 x00 x5c x00 x00 x00)
(T (W x00 x00 x80 x3f x00 x00 x80 x3f)
(T (W x00 x00 x00 x00 x00 x00 x00 x00)
(L (W x00 x00 x00 x00 x00 x00 x00 x00)) E)
(L (W x00 x00 x00 x00 x00 x00 x00 x00)))
(T (W xf6 x5e x2e x97 x85 x1b x59 x5f)
(L (W xb0 x00 x00 x00 x64 x00 x00 x00))
(L (W x00 x00 x00 x00 x00 x00 x00 x00))))))))
(T (W xff xff xff xff xff xff xff xff)
(T (W xff xff xff xff xff xff xff xff)
(T (W xff xff xff xff xff xff xff xff)
(T (W xff xff xff xff xff xff xff xff)
(T (W x18 x00 x00 x00 x10 x00 x00 x00)
(T (W xaa xb9 xfe xff x00 x00 x01 x01)
(T (W x00 x00 x80 x3f x00 x00 x80 x3f)
(L (W xff xff xff xff xbc x00 x00 x00)) E)
(L (W x00 x00 x00 x00 x00 x00 x00 x00)))
(T (W x00 x00 x00 x00 x00 x00 x00 x00)
(T (W x00 x00 x80 x3f x00 x00 x80 x3f)
(L (W x00 x00 x00 x00 xda xc7 xff xff)) E)
(L (W xff xff xff xff xb0 x00 x00 x00))))
(T (W x00 x00 x80 x3f x00 x00 x80 x3f)
(T (W x00 x00 x01 x01 xc8 x02 x00 x00)
(T (W x45 x26 x22 x84 xe4 x9c xf2 xcb)
(L (W x18 x00 x00 x00 x0c x00 x00 x00)) E)
(L (W x00 x00 x80 xbf x00 x00 x80 xbf)))
(T (W xff xff xff xff x02 x00 x00 x00)
(L (W xcc x00 x00 x00 x01 x00 x00 x00))
(L (W x00 x00 x00 x00 x00 x00 x00 x00)))))
(T (W xff xff xff xff xff xff xff xff)
(T (W x00 x00 x80 x3f x00 x00 x80 x3f)
(T (W xff xff xff xff xff xff xff xff)
(T (W xff xff xff xff xff xff xff xff)
(L (W x00 x00 x80 xbf x00 x00 x80 xbf)) E)
(L (W x00 x00 x00 x00 x00 x00 x00 x00)))
(T (W x00 x00 x00 x00 x00 x00 x00 x00)
(T (W x00 x00 x80 xbf x00 x00 x80 xbf)
(L (W x00 x00 x80 xbf x00 x00 x80 xbf)) E)
(L (W x00 x00 x00 x00 x00 x00 x00 x00))))
(T (W x00 x00 x00 x00 x00 x00 x00 x00)
(T (W x00 x00 x80 x3f x00 x00 x80 x3f)
(T (W xff xff xff xff xc8 x00 x00 x00)
(L (W x6c x05 x00 x00 x50 x04 x00 x00)) E)
(L (W xff xff xff xff xff xff xff xff)))
(T (W x45 x26 x22 x84 xe4 x9c xf2 xcb)
(L (W xff xff xff xff xff xff xff xff))
(L (W x68 x00 x00 x00 x5c x00 x00 x00))))))
(T (W x1c x01 x00 x00 x04 x00 x00 x00)
(T (W xff xff xff xff xff xff xff xff)
(T (W x50 x00 x00 x00 x44 x00 x00 x00)
(T (W x20 x01 x00 x00 x04 x00 x00 x00)
(T (W x00 x00 x00 x00 x00 x00 x00 x00)
(L (W x00 x00 x00 x00 x00 x00 x00 x00)) E)
(L (W x00 x00 x00 x00 x00 x00 x00 x00)))
(T (W xff xff xff xff xbc x00 x00 x00)
(T (W x29 x00 x00 x00 xff xff xff xff)
(L (W xff xff xff xff xff xff xff xff)) E)
(L (W xff xff xff xff xff xff xff xff))))
(T (W x00 x00 x00 x00 x00 x00 x00 x00)
(T (W x00 x00 x00 x00 x00 x00 x00 x00)
(T (W x00 x00 x80 xbf x00 x00 x80 xbf)
(L (W x00 x00 x01 x01 xdc x00 x00 x00)) E)
(L (W xb0 x00 x00 x00 x64 x00 x00 x00)))
(T (W x00 x00 x00 x00 x00 x00 x00 x00)
(L (W x84 x04 x00 x00 x70 x03 x00 x00))
(L (W x50 x00 x00 x00 x44 x00 x00 x00)))))
(T (W xf2 xb6 xfb xff x74 x00 x00 x00)
(T (W x00 x00 x00 x00 x00 x00 x00 x00)
(T (W x3b x00 x00 x00 x3e x00 x00 x00)
(T (W x00 x00 x80 x3f x00 x00 x80 x3f)
(L (W x00 x00 x80 xbf x00 x00 x80 xbf)) E)
(L (W x45 x26 x22 x84 xe4 x9c xf2 xcb)))
(T (W x50 x00 x00 x00 x44 x00 x00 x00)
(T (W x4f x84 x6f x8b xe8 xcb x63 xb7)
(L (W xb4 x00 x00 x00 x64 x00 x00 x00)) E)
(L (W x00 x00 x00 x00 x00 x00 x00 x00))))
(T (W x01 x00 x00 x00 x04 x00 x00 x00)
(T (W xff xff xff xff xff xff xff xff)
(T (W x00 x00 x00 x00 x00 x00 x00 x00)
(L (W x14 x00 x00 x00 x0c x00 x00 x00)) E)
(L (W x45 x26 x22 x84 xe4 x9c xf2 xcb)))
(T (W xd4 x3b xfd xff x00 x01 x01 x01)
(L (W x00 x00 x80 xbf x00 x00 x80 xbf))
(L (W x40 x3a xff xff x9a x51 xff xff)))))))
(T (W xff xff xff xff x01 x00 x00 x00)
(T (W x00 x00 x00 x00 x0a x07 xff xff)
(T (W xff xff xff xff xff xff xff xff)
(T (W x40 x00 x00 x00 x9c x00 x00 x00)
(T (W x00 x00 x00 x00 x00 x00 x00 x00)
(T (W x00 x00 x00 x00 x00 x00 x00 x00)
(L (W x42 xa0 xaa x28 xbf xd0 x56 x6a)) E)
(L (W x4f x84 x6f x8b xe8 xcb x63 xb7)))
(T (W x00 x00 x80 x3f x00 x00 x80 x3f)
(T (W xff xff xff xff xff xff xff xff)
(L (W xfc x08 x00 x00 xe8 x07 x00 x00)) E)
(L (W xff xff xff xff xff xff xff xff))))
(T (W x00 x00 x80 x3f x00 x00 x80 x3f)
(T (W x30 x35 x5f x43 x4c x45 x41 x52)
(T (W x4c x00 x00 x00 x50 x00 x00 x00)
(L (W xff xff xff xff xff xff xff xff)) E)
(L (W xff xff xff xff xb0 x00 x00 x00)))
(T (W x13 x00 x00 x00 x10 x00 x00 x00)
(L (W xff xff xff xff xff xff xff xff))
(L (W x00 x00 x80 xbf x00 x00 x80 xbf)))))
(T (W x18 x00 x00 x00 x0c x00 x00 x00)
(T (W x00 x00 x80 x3f x00 x00 x80 x3f)
(T (W x00 x00 x00 x00 x00 x00 x00 x00)
(T (W xff xff xff xff xff xff xff xff)
(L (W x50 x00 x00 x00 x44 x00 x00 x00)) E)
(L (W x00 x00 x00 x00 x00 x00 x00 x00)))
(T (W x00 x00 x80 x3f x00 x00 x80 x3f)
(T (W x54 x00 x00 x00 x48 x00 x00 x00)
(L (W x34 x00 x38 x00 x2a x00 x00 x00)) E)
(L (W x00 x00 x00 x00 x00 x00 x00 x00))))
(T (W x3c x37 xfc xff x3c x00 x00 x00)
(T (W xcc x00 x00 x00 x01 x00 x00 x00)
(T (W x00 x00 x00 x00 x00 x00 x00 x00)
(L (W x2d x00 x00 x00 x30 x00 x00 x00)) E)
(L (W x45 x26 x22 x84 xe4 x9c xf2 xcb)))
(T (W xf2 x2e xfd xff x74 x00 x00 x00)
(L (W x00 x00 x00 x00 x00 x00 x00 x00))
(L (W x18 x00 x00 x00 x0c x00 x00 x00))))))
(T (W xff xff xff xff xff xff xff xff)
(T (W xff xff xff xff xff xff xff xff)
(T (W x6c x00 x00 x00 x60 x00 x00 x00)
(T (W xff xff xff xff xff xff xff xff)
(T (W x65 xa2 x30 x97 x85 x23 x5c x5f)
(L (W x45 x26 x22 x84 xe4 x9c xf2 xcb)) E)
(L (W x00 x00 x00 x00 x00 x00 x00 x00)))
(T (W x00 x00 x00 x00 x01 x00 x00 x00)
(T (W x00 x00 x00 x00 x00 x00 x00 x00)
(L (W x06 x00 x00 x00 xf0 x05 x00 x00)) E)
(L (W x30 x35 x5f x43 x4c x45 x41 x52))))
(T (W x00 x00 x00 x00 x00 x00 x00 x00)
(T (W x00 x00 x80 x3f x00 x00 x80 x3f)
(T (W x00 x00 x00 x00 x00 x00 x00 x00)
(L (W x30 x35 x5f x43 x4c x45 x41 x52)) E)
(L (W x1c x00 x00 x00 x10 x00 x00 x00)))
(T (W x00 x00 x80 x3f x00 x00 x80 x3f)
(L (W x00 x00 x00 x00 x00 x00 x00 x00))
(L (W xd4 x23 xff xff x00 x01 x01 x01)))))
(T (W x45 x26 x22 x84 xe4 x9c xf2 xcb)
(T (W x45 x26 x22 x84 xe4 x9c xf2 xcb)
(T (W xff xff xff xff xff xff xff xff)
(T (W x00 x00 x80 x3f x00 x00 x80 x3f)
(L (W x45 x26 x22 x84 xe4 x9c xf2 xcb)) E)
(L (W x00 x00 x80 xbf x00 x00 x80 xbf)))
(T (W x03 x00 x00 x00 xcc x00 x00 x00)
(T (W x00 x00 x80 xbf x00 x00 x80 xbf)
(L (W x46 x53 x59 x53 x5f x4e x53 x5f)) E)
(L (W x00 x00 x00 x00 x00 x00 x00 x00))))
(T (W xff xff xff xff xff xff xff xff)
(T (W x6a x01 x00 x00 xff xff xff xff)
(T (W x54 x00 x00 x00 x48 x00 x00 x00)
(L (W xff xff xff xff xff xff xff xff)) E)
(L (W xf2 xbe xfe xff x74 x00 x00 x00)))
(T (W x00 x00 x80 x3f x00 x00 x80 x3f)
(L (W x00 x00 x00 x00 x12 x00 x00 x00))
(L (W xff xff xff xff xb0 x00 x00 x00)))))))))))
(T (W x80 x62 x02 x00 x44 x61 x02 x00)
(T (W xd8 xd5 x01 x00 x24 xd1 x01 x00)
(T (W x08 x93 x00 x00 xbc x90 x00 x00)
(T (W x45 x26 x22 x84 xe4 x9c xf2 xcb)
(T (W x72 x50 xfb xff x74 x00 x00 x00)
(T (W x72 x60 xfb xff x74 x00 x00 x00)
(T (W x18 x00 x00 x00 x0c x00 x00 x00)
(T (W x00 x00 x00 x00 x00 x00 x00 x00)
(T (W x18 x00 x00 x00 x0c x00 x00 x00)
(T (W x00 x00 x00 x00 x00 x00 x00 x00)
(L (W x00 x00 x80 xbf x00 x00 x80 xbf)) E)
(L (W xff xff xff xff xff xff xff xff)))
(T (W xff xff xff xff x9c x00 x00 x00)
(T (W x00 x00 x00 x00 x00 x00 x00 x00)
(L (W x54 x00 x00 x00 x48 x00 x00 x00)) E)
(L (W x00 x00 x80 xbf x00 x00 x80 xbf))))
(T (W xd9 x01 x00 x00 xff xff xff xff)
(T (W x6c x00 x00 x00 x60 x00 x00 x00)
(T (W x00 x00 x00 x00 x00 x00 x00 x00)
(L (W x00 x00 x00 x00 x00 x00 x00 x00)) E)
(L (W xbc x88 xfe xff x18 x00 x00 x00)))
(T (W x00 x00 x80 x3f x00 x00 x80 x3f)
(T (W x00 x00 x00 x00 x00 x00 x00 x00)
(L (W x45 x26 x22 x84 xe4 x9c xf2 xcb)) E)
(L (W xff xff xff xff xff xff xff xff)))))
(T (W x00 x00 x80 x3f x00 x00 x80 x3f)
(T (W x00 x00 x00 x00 x00 x00 x00 x00)
(T (W x3e x00 x00 x00 x9c x00 x00 x00)
(T (W x18 x00 x00 x00 x10 x00 x00 x00)
(L (W xbe x00 x00 x00 xff xff xff xff)) E)
(L (W xff xff xff xff xff xff xff xff)))
(T (W xff xff xff xff xff xff xff xff)
(T (W xff xff xff xff xff xff xff xff)
(L (W x00 x00 x00 x00 x00 x00 x00 x00)) E)
(L (W xff xff xff xff xff xff xff xff))))
(T (W xa8 x01 x00 x00 xff xff xff xff)
(T (W xbc xa8 xfc xff x26 x00 x00 x00)
(T (W x00 x00 x01 x01 xd9 x01 x00 x00)
(L (W x03 x00 x00 x00 xd0 x00 x00 x00)) E)
(L (W x45 x26 x22 x84 xe4 x9c xf2 xcb)))
(T (W x5f x4e x53 x5f x30 x35 x5f x43)
(L (W x1c x00 x00 x00 x10 x00 x00 x00))
(L (W x45 x26 x22 x84 xe4 x9c xf2 xcb))))))
(T (W xff xff xff xff xff xff xff xff)
(T (W x00 x00 x80 x3f x00 x00 x80 x3f)
(T (W x45 x26 x22 x84 xe4 x9c xf2 xcb)
(T (W x45 x26 x22 x84 xe4 x9c xf2 xcb)
(T (W xff xff xff xff xff xff xff xff)
(L (W xff xff xff xff xbc x00 x00 x00)) E)
(L (W xff xff xff xff xff xff xff xff)))
(T (W x00 x00 x00 x00 x00 x00 x00 x00)
(T (W x00 x00 x80 xbf x00 x00 x80 xbf)
(L (W xff xff xff xff xff xff xff xff)) E)
(L (W x54 xd5 xfe xff x00 x01 x01 x01))))
(T (W xff xff xff xff xff xff xff xff)
(T (W xff xff xff xff xff xff xff xff)
(T (W x38 x00 x3c x00 x40 x00 x44 x00)
(L (W x3b x00 x00 x00 x3e x00 x00 x00)) E)
(L (W x00 x00 x80 xbf x00 x00 x80 xbf)))
(T (W xff xff xff xff xff xff xff xff)
(L (W x6c x00 x00 x00 x60 x00 x00 x00))
(L (W x00 x00 x00 x00 x00 x00 x00 x00)))))
(T (W x00 x00 x80 x3f x00 x00 x80 x3f)
(T (W x00 x00 x00 x00 x00 x00 x00 x00)
(T (W x28 x00 x2c x00 x30 x00 x34 x00)
(T (W x00 x00 x80 x3f x00 x00 x80 x3f)
(L (W x4f x84 x6f x8b xe8 xcb x63 xb7)) E)
(L (W x00 x00 x01 x01 xb5 x01 x00 x00)))
(T (W x00 x00 x00 x00 x00 x00 x00 x00)
(T (W x00 x00 x00 x00 x12 x00 x00 x00)
(L (W x00 x00 x00 x00 x00 x00 x00 x00)) E)
(L (W x2c x02 x00 x00 x28 x01 x00 x00))))
(T (W xff xff xff xff xff xff xff xff)
(T (W x00 x00 x80 x3f x00 x00 x80 x3f)
(T (W xff xff xff xff xff xff xff xff)
(L (W x00 x00 x80 xbf x00 x00 x80 xbf)) E)
(L (W x00 x00 x00 x00 x00 x00 x00 x00)))
(T (W x45 x26 x22 x84 xe4 x9c xf2 xcb)
(L (W xff xff xff xff xff xff xff xff))
(L (W x00 x00 x80 xbf x00 x00 x80 xbf)))))))
(T (W x68 x00 x00 x00 x5c x00 x00 x00)
(T (W xff xff xff xff xff xff xff xff)
(T (W x68 x00 x00 x00 x5c x00 x00 x00)
(T (W x00 x00 x00 x00 x00 x00 x00 x00)
(T (W x72 x48 xfc xff x74 x00 x00 x00)
(T (W x5c x62 x2e x97 x85 x1d x59 x5f)
(L (W x72 x48 xff xff x74 x00 x00 x00)) E)
(L (W xff xff xff xff xff xff xff xff)))
(T (W xcb x01 x00 x00 xff xff xff xff)
(T (W x4f x84 x6f x8b xe8 xcb x63 xb7)
(L (W x18 x00 x00 x00 x0c x00 x00 x00)) E)
(L (W x00 x00 x80 xbf x00 x00 x80 xbf))))
(T (W xff xff xff xff xff xff xff xff)
(T (W x18 x00 x00 x00 x10 x00 x00 x00)
(T (W x00 x00 x00 x00 x00 x00 x00 x00)
(L (W x00 x00 x80 xbf x00 x00 x80 xbf)) E)
(L (W x4f x84 x6f x8b xe8 xcb x63 xb7)))
(T (W x45 x26 x22 x84 xe4 x9c xf2 xcb)
(L (W x00 x00 x80 xbf x00 x00 x80 xbf))
(L (W x00 x00 x00 x00 x00 x00 x00 x00)))))
(T (W x00 x00 x80 x3f x00 x00 x80 x3f)
(T (W x00 x00 x00 x00 x00 x00 x00 x00)
(T (W xff xff xff xff xff xff xff xff)
(T (W x45 x26 x22 x84 xe4 x9c xf2 xcb)
(L (W x00 x00 x00 x00 x00 x00 x00 x00)) E)
(L (W x00 x00 x00 x00 x00 x00 x00 x00)))
(T (W xff xff xff xff xff xff xff xff)
(T (W x00 x00 x00 x00 x22 xeb xfd xff)
(L (W xbc xf0 xff xff x1d x00 x00 x00)) E)
(L (W x64 x01 x00 x00 xff xff xff xff))))
(T (W xff xff xff xff xff xff xff xff)
(T (W x4f x84 x6f x8b xe8 xcb x63 xb7)
(T (W x00 x00 x80 x3f x00 x00 x80 x3f)
(L (W x5f x4e x53 x5f x30 x35 x5f x43)) E)
(L (W xff xff xff xff xff xff xff xff)))
(T (W x45 x26 x22 x84 xe4 x9c xf2 xcb)
(L (W x3c x00 x00 x00 x0c x00 x00 x00))
(L (W x00 x00 x80 xbf x00 x00 x80 xbf))))))
(T (W x45 x26 x22 x84 xe4 x9c xf2 xcb)
(T (W x00 x00 x80 x3f x00 x00 x80 x3f)
(T (W x45 x26 x22 x84 xe4 x9c xf2 xcb)
(T (W x18 x00 x00 x00 x10 x00 x00 x00)
(T (W xff xff xff xff xff xff xff xff)
(L (W xff xff xff xff xff xff xff xff)) E)
(L (W xff xff xff xff xff xff xff xff)))
(T (W x00 x00 x80 x3f x00 x00 x80 x3f)
(T (W xc4 x00 x00 x00 x01 x00 x00 x00)
(L (W x00 x01 x01 x01 xb2 xe4 xff xff)) E)
(L (W xff xff xff xff x9c x00 x00 x00))))
(T (W xff xff xff xff xff xff xff xff)
(T (W x00 x00 x00 x00 x00 x00 x00 x00)
(T (W x00 x00 x00 x00 x00 x00 x00 x00)
(L (W x1d x00 x00 x00 x20 x00 x00 x00)) E)
(L (W x00 x01 x01 x01 xaa xa9 xfe xff)))
(T (W x38 x01 x00 x00 x04 x00 x00 x00)
(L (W xff xff xff xff xc0 x00 x00 x00))
(L (W x49 xa1 x68 x4a xeb x5f xdd x3d)))))
(T (W x45 x26 x22 x84 xe4 x9c xf2 xcb)
(T (W x13 xbb xe9 x03 xc8 x43 x65 xc5)
(T (W x00 x00 x80 x3f x00 x00 x80 x3f)
(T (W xec x83 xfd xff x34 x00 x00 x00)
(L (W x00 x00 x00 x00 x00 x00 x00 x00)) E)
(L (W x30 x35 x5f x43 x4c x45 x41 x52)))
(T (W x00 x00 x80 x3f x00 x00 x80 x3f)
(T (W x00 x00 x00 x00 x04 x00 x00 x00)
(L (W x54 xfd xff xff x00 x01 x01 x01)) E)
(L (W xff xff xff xff xff xff xff xff))))
(T (W xff xff xff xff x04 x00 x00 x00)
(T (W x54 x00 x00 x00 x48 x00 x00 x00)
(T (W x30 x35 x5f x43 x4c x45 x41 x52)
(L (W x00 x00 x80 xbf x00 x00 x80 xbf)) E)
(L (W x45 x26 x22 x84 xe4 x9c xf2 xcb)))
(T (W x00 x00 x00 x00 x00 x00 x00 x00)
(L (W x00 x00 x00 x00 x4a x58 xfe xff))
(L (W x00 x00 x80 xbf x00 x00 x80 xbf))))))))
(T (W x00 x00 x00 x00 x00 x00 x00 x00)
(T (W x00 x00 x00 x00 x00 x00 x00 x00)
(T (W x00 x00 x00 x00 x00 x00 x00 x00)
(T (W x00 x00 x00 x00 x00 x00 x00 x00)
(T (W xff xff xff xff xff xff xff xff)
(T (W x00 x00 x00 x00 x00 x00 x00 x00)
(T (W x45 x26 x22 x84 xe4 x9c xf2 xcb)
(L (W xff xff xff xff xff xff xff xff)) E)
(L (W x00 x00 x00 x00 x00 x00 x00 x00)))
(T (W x45 x26 x22 x84 xe4 x9c xf2 xcb)
(T (W x18 x00 x00 x00 x10 x00 x00 x00)
(L (W x00 x00 x00 x00 x5a xc5 xff xff)) E)
(L (W xff xff xff xff xff xff xff xff))))
(T (W x00 x00 x80 x3f x00 x00 x80 x3f)
(T (W x00 x00 x00 x00 x00 x00 x00 x00)
(T (W xff xff xff xff xff xff xff xff)
(L (W xff xff xff xff xff xff xff xff)) E)
(L (W x18 x00 x00 x00 x10 x00 x00 x00)))
(T (W x00 x00 x00 x00 x00 x00 x00 x00)
(L (W xff xff xff xff xff xff xff xff))
(L (W x00 x00 x80 xbf x00 x00 x80 xbf)))))
(T (W x2a x17 xfe xff x00 x00 x01 x01)
(T (W x68 x00 x00 x00 x5c x00 x00 x00)
(T (W x2a xd7 xfe xff x00 x00 x01 x01)
(T (W x00 x00 x00 x00 x00 x00 x00 x00)
(L (W x54 x69 xff xff x00 x01 x01 x01)) E)
(L (W x00 x00 x80 xbf x00 x00 x80 xbf)))
(T (W x45 x26 x22 x84 xe4 x9c xf2 xcb)
(T (W x54 xe9 xfd xff x00 x01 x01 x01)
(L (W x00 x00 x80 xbf x00 x00 x80 xbf)) E)
(L (W x00 x00 x80 xbf x00 x00 x80 xbf))))
(T (W x00 x00 x00 x00 x00 x00 x00 x00)
(T (W x45 x26 x22 x84 xe4 x9c xf2 xcb)
(T (W xff xff xff xff xac x00 x00 x00)
(L (W x00 x00 x00 x00 x00 x00 x00 x00)) E)
(L (W xff xff xff xff xff xff xff xff)))
(T (W xff xff xff xff xff xff xff xff)
(L (W x32 x00 x00 x00 x0c x00 x00 x00))
(L (W xff xff xff xff xff xff xff xff))))))
(T (W xbc x7c xfb xff x3e x00 x00 x00)
(T (W xc6 x33 xb5 x90 xaf x25 x58 x1d)
(T (W xb8 x00 x00 x00 xac x00 x00 x00)
(T (W x00 x00 x00 x00 x00 x00 x00 x00)
(T (W x00 x00 x80 x3f x00 x00 x80 x3f)
(L (W x00 x00 x80 xbf x00 x00 x80 xbf)) E)
(L (W x00 x00 x00 x00 x00 x00 x00 x00)))
(T (W xff xff xff xff xff xff xff xff)
(T (W x00 x00 x00 x00 x00 x00 x00 x00)
(L (W x30 x35 x5f x43 x4c x45 x41 x52)) E)
(L (W x00 x00 x00 x00 x00 x00 x00 x00))))
(T (W x00 x00 x80 x3f x00 x00 x80 x3f)
(T (W x00 x00 x80 x3f x00 x00 x80 x3f)
(T (W x00 x00 x80 xbf x00 x00 x80 xbf)
(L (W x00 x00 x00 x00 x00 x00 x00 x00)) E)
(L (W xff xff xff xff xff xff xff xff)))
(T (W x00 x00 x80 x3f x00 x00 x80 x3f)
(L (W x00 x00 x00 x00 x00 x00 x00 x00))
(L (W xb4 x00 x00 x00 x14 x00 x00 x00)))))
(T (W xff xff xff xff xff xff xff xff)
(T (W x45 x26 x22 x84 xe4 x9c xf2 xcb)
(T (W xff xff xff xff xff xff xff xff)
(T (W x01 x00 x00 x00 x9c x00 x00 x00)
(L (W xff xff xff xff xff xff xff xff)) E)
(L (W x00 x00 x80 xbf x00 x00 x80 xbf)))
(T (W xff xff xff xff xc4 x00 x00 x00)
(T (W x6c x00 x00 x00 x60 x00 x00 x00)
(L (W x00 x00 x00 x00 x00 x00 x00 x00)) E)
(L (W x00 x00 x80 xbf x00 x00 x80 xbf))))
(T (W x45 x26 x22 x84 xe4 x9c xf2 xcb)
(T (W x00 x00 x00 x00 x5a xb5 xfc xff)
(T (W x77 x61 x72 x6c x69 x6b x65 x5f)
(L (W xff xff xff xff xff xff xff xff)) E)
(L (W x18 x00 x00 x00 x0c x00 x00 x00)))
(T (W xff xff xff xff xff xff xff xff)
(L (W x00 x00 x80 xbf x00 x00 x80 xbf))
(L (W xff xff xff xff xff xff xff xff)))))))
(T (W x00 x00 x00 x00 x00 x00 x00 x00)
(T (W x00 x00 x00 x00 x00 x00 x00 x00)
(T (W x00 x00 x00 x00 x00 x00 x00 x00)
(T (W xff xff xff xff xff xff xff xff)
(T (W x00 x00 x00 x00 x00 x00 x00 x00)
(T (W x00 x00 x80 x3f x00 x00 x80 x3f)
(L (W x00 x00 x00 x00 x00 x00 x00 x00)) E)
(L (W x00 x00 x80 xbf x00 x00 x80 xbf)))
(T (W x72 xcc xfc xff x74 x00 x00 x00)
(T (W xff xff xff xff xff xff xff xff)
(L (W x00 x00 x00 x00 x00 x00 x00 x00)) E)
(L (W x00 x00 x00 x00 x5a xcd xfe xff))))
(T (W x54 x00 x00 x00 x48 x00 x00 x00)
(T (W x49 xa1 x68 x4a xeb x5f xdd x3d)
(T (W x18 x00 x00 x00 x10 x00 x00 x00)
(L (W xff xff xff xff xff xff xff xff)) E)
(L (W xc8 x00 x00 x00 x01 x00 x00 x00)))
(T (W x00 x00 x00 x00 x00 x00 x00 x00)
(L (W xff xff xff xff xff xff xff xff))
(L (W x00 x00 x80 xbf x00 x00 x80 xbf)))))
(T (W xff xff xff xff xff xff xff xff)
(T (W x54 xf1 xfb xff x00 x01 x01 x01)
(T (W x2a xdf xfe xff x00 x00 x01 x01)
(T (W xba xc2 x33 x97 x85 xad x5f x5f)
(L (W xff xff xff xff xc8 x00 x00 x00)) E)
(L (W x00 x00 x80 xbf x00 x00 x80 xbf)))
(T (W x50 x00 x00 x00 x44 x00 x00 x00)
(T (W x68 x00 x00 x00 x5c x00 x00 x00)
(L (W xff xff xff xff xb8 x00 x00 x00)) E)
(L (W x00 x00 x80 xbf x00 x00 x80 xbf))))
(T (W x45 x26 x22 x84 xe4 x9c xf2 xcb)
(T (W xff xff xff xff xff xff xff xff)
(T (W x67 x72 x6f x75 x70 x5f x77 x69)
(L (W xff xff xff xff xff xff xff xff)) E)
(L (W xff xff xff xff x9c x00 x00 x00)))
(T (W xff xff xff xff xff xff xff xff)
(L (W x00 x00 x80 xbf x00 x00 x80 xbf))
(L (W xff xff xff xff xff xff xff xff))))))
(T (W x00 x00 x00 x00 x00 x00 x00 x00)
(T (W xac x01 x00 x00 xff xff xff xff)
(T (W x45 x26 x22 x84 xe4 x9c xf2 xcb)
(T (W x0f x00 x00 x00 x0c x00 x00 x00)
(T (W x00 x00 x00 x00 x00 x00 x00 x00)
(L (W x6c x00 x00 x00 x60 x00 x00 x00)) E)
(L (W x00 x01 x01 x01 xaa x6d xfe xff)))
(T (W x00 x00 x00 x00 x00 x00 x00 x00)
(T (W x45 x26 x22 x84 xe4 x9c xf2 xcb)
(L (W x00 x00 x00 x00 x00 x00 x00 x00)) E)
(L (W x49 xa1 x68 x4a xeb x5f xdd x3d))))
(T (W x45 x26 x22 x84 xe4 x9c xf2 xcb)
(T (W x54 xa1 xfc xff x00 x01 x01 x01)
(T (W x00 x00 x00 x00 x00 x00 x00 x00)
(L (W x00 x00 x00 x00 x12 x00 x00 x00)) E)
(L (W xff xff xff xff xff xff xff xff)))
(T (W x50 x00 x00 x00 x44 x00 x00 x00)
(L (W x46 x53 x59 x53 x5f x4e x53 x5f))
(L (W x1c x00 x00 x00 x10 x00 x00 x00)))))
(T (W xff xff xff xff xff xff xff xff)
(T (W x18 x00 x00 x00 x0c x00 x00 x00)
(T (W xc8 x02 x00 x00 xff xff xff xff)
(T (W x00 x00 x80 x3f x00 x00 x80 x3f)
(L (W xff xff xff xff xbc x00 x00 x00)) E)
(L (W x45 x26 x22 x84 xe4 x9c xf2 xcb)))
(T (W xff xff xff xff xff xff xff xff)
(T (W x72 xfc xfd xff x74 x00 x00 x00)
(L (W xff xff xff xff xff xff xff xff)) E)
(L (W x00 x00 x00 x00 x00 x00 x00 x00))))
(T (W x00 x00 x80 x3f x00 x00 x80 x3f)
(T (W xbc xc4 xfc xff x21 x00 x00 x00)
(T (W x32 x00 x00 x00 x35 x00 x00 x00)
(L (W x54 x02 x00 x00 x38 x01 x00 x00)) E)
(L (W xff xff xff xff xc8 x00 x00 x00)))
(T (W x18 x00 x00 x00 x10 x00 x00 x00)
(L (W x3c x00 x00 x00 x00 x00 x80 xbf))
(L (W xff xff xff xff xff xff xff xff)))))))))
(T (W x00 x00 x00 x00 x00 x00 x00 x00)
(T (W xff xff xff xff xff xff xff xff)
(T (W xff xff xff xff xff xff xff xff)
(T (W xff xff xff xff xff xff xff xff)
(T (W xff xff xff xff xff xff xff xff)
(T (W x68 x00 x00 x00 x5c x00 x00 x00)
(T (W x1c x01 x00 x00 x04 x00 x00 x00)
(T (W x00 x00 x80 x3f x00 x00 x80 x3f)
(L (W xac x00 x00 x00 x64 x00 x00 x00)) E)
(L (W x00 x00 x00 x00 x00 x00 x00 x00)))
(T (W x00 x00 x00 x00 x01 x00 x00 x00)
(T (W x00 x00 x80 x3f x00 x00 x80 x3f)
(L (W xff xff xff xff xc8 x00 x00 x00)) E)
(L (W x18 x00 x00 x00 x0c x00 x00 x00))))
(T (W x00 x00 x00 x00 x00 x00 x00 x00)
(T (W xff xff xff xff xff xff xff xff)
(T (W x00 x00 x80 x3f x00 x00 x80 x3f)
(L (W x18 x00 x00 x00 x0c x00 x00 x00)) E)
(L (W x00 x00 x80 xbf x00 x00 x80 xbf)))
(T (W xff xff xff xff xff xff xff xff)
(L (W x54 x07 xfe xff x00 x01 x01 x01))
(L (W x00 x00 x00 x00 x00 x00 x00 x00)))))
(T (W x45 x26 x22 x84 xe4 x9c xf2 xcb)
(T (W x00 x00 x80 x3f x00 x00 x80 x3f)
(T (W xff xff xff xff xff xff xff xff)
(T (W xff xff xff xff xff xff xff xff)
(L (W x00 x00 x80 xbf x00 x00 x80 xbf)) E)
(L (W x00 x00 x00 x00 x00 x00 x00 x00)))
(T (W x00 x00 x00 x00 x00 x00 x00 x00)
(T (W x00 x00 x80 xbf x00 x00 x80 xbf)
(L (W x00 x00 x00 x00 x00 x00 x00 x00)) E)
(L (W xbc xea xfe xff x3b x00 x00 x00))))
(T (W x00 x00 x00 x00 x00 x00 x00 x00)
(T (W x00 x00 x80 x3f x00 x00 x80 x3f)
(T (W x45 x26 x22 x84 xe4 x9c xf2 xcb)
(L (W xff xff xff xff xff xff xff xff)) E)
(L (W xff xff xff xff xa0 x00 x00 x00)))
(T (W x00 x00 x80 x3f x00 x00 x80 x3f)
(L (W xff xff xff xff xff xff xff xff))
(L (W x6c x00 x00 x00 x60 x00 x00 x00))))))
(T (W xff xff xff xff xff xff xff xff)
(T (W xff xff xff xff xff xff xff xff)
(T (W x00 x00 x80 x3f x00 x00 x80 x3f)
(T (W xff xff xff xff xff xff xff xff)
(T (W x00 x00 x00 x00 x00 x00 x00 x00)
(L (W x00 x00 x00 x00 x00 x00 x00 x00)) E)
(L (W x00 x00 x00 x00 x3a x58 xfe xff)))
(T (W x50 x00 x00 x00 x44 x00 x00 x00)
(T (W xff xff xff xff xff xff xff xff)
(L (W xff xff xff xff xff xff xff xff)) E)
(L (W xff xff xff xff xff xff xff xff))))
(T (W x00 x00 x00 x00 x00 x00 x00 x00)
(T (W x00 x00 x00 x00 x00 x00 x00 x00)
(T (W x08 x00 x68 x00 x6c x00 x70 x00)
(L (W xff xff xff xff xff xff xff xff)) E)
(L (W x72 x92 xfe xff x74 x00 x00 x00)))
(T (W x00 x00 x00 x00 x00 x00 x00 x00)
(L (W xff xff xff xff xff xff xff xff))
(L (W x54 x00 x00 x00 x48 x00 x00 x00)))))
(T (W x45 x26 x22 x84 xe4 x9c xf2 xcb)
(T (W x45 x26 x22 x84 xe4 x9c xf2 xcb)
(T (W x2a x74 xfc xff x78 x00 x00 x00)
(T (W x00 x00 x00 x00 x00 x00 x00 x00)
(L (W x00 x00 x80 xbf x00 x00 x80 xbf)) E)
(L (W x00 x00 x00 x00 x00 x00 x00 x00)))
(T (W x00 x00 x80 x3f x00 x00 x80 x3f)
(T (W x00 x00 x80 xbf x00 x00 x80 xbf)
(L (W x03 x00 x00 x00 xd0 x00 x00 x00)) E)
(L (W x00 x00 x00 x00 x00 x00 x00 x00))))
(T (W x3e x00 x00 x00 x10 x00 x00 x00)
(T (W x45 x26 x22 x84 xe4 x9c xf2 xcb)
(T (W x54 x00 x00 x00 x48 x00 x00 x00)
(L (W xff xff xff xff xff xff xff xff)) E)
(L (W x00 x00 x80 xbf x00 x00 x80 xbf)))
(T (W x6c x00 x00 x00 x60 x00 x00 x00)
(L (W x00 x00 x00 x00 x00 x00 x00 x00))
(L (W xac x00 x00 x00 x64 x00 x00 x00)))))))
(T (W xff xff xff xff xff xff xff xff)
(T (W xff xff xff xff xff xff xff xff)
(T (W xff xff xff xff xff xff xff xff)
(T (W x00 x00 x80 x3f x00 x00 x80 x3f)
(T (W xff xff xff xff xff xff xff xff)
(T (W x00 x00 x00 x00 x00 x00 x00 x00)
(L (W xff xff xff xff xff xff xff xff)) E)
(L (W x46 x53 x59 x53 x5f x4e x53 x5f)))
(T (W x00 x00 x00 x00 x00 x00 x00 x00)
(T (W x32 x00 x00 x00 x35 x00 x00 x00)
(L (W xff xff xff xff xff xff xff xff)) E)
(L (W xff xff xff xff xc8 x00 x00 x00))))
(T (W x00 x00 x00 x00 x00 x00 x00 x00)
(T (W xb4 x01 x00 x00 xff xff xff xff)
(T (W x00 x00 x80 x3f x00 x00 x80 x3f)
(L (W xbc x00 x00 x00 x64 x00 x00 x00)) E)
(L (W x54 x00 x00 x00 x48 x00 x00 x00)))
(T (W x9d x01 x00 x00 xff xff xff xff)
(L (W x45 x26 x22 x84 xe4 x9c xf2 xcb))
(L (W x00 x00 x00 x00 x00 x00 x00 x00)))))
(T (W x68 x00 x00 x00 x5c x00 x00 x00)
(T (W x00 x00 x80 x3f x00 x00 x80 x3f)
(T (W x68 x00 x00 x00 x5c x00 x00 x00)
(T (W xff xff xff xff xff xff xff xff)
(L (W x00 x00 x80 xbf x00 x00 x80 xbf)) E)
(L (W x00 x00 x00 x00 x00 x00 x00 x00)))
(T (W x4f x84 x6f x8b xe8 xcb x63 xb7)
(T (W x45 x26 x22 x84 xe4 x9c xf2 xcb)
(L (W x00 x00 x80 xbf x00 x00 x80 xbf)) E)
(L (W x00 x00 x00 x00 x00 x00 x00 x00))))
(T (W x00 x00 x00 x00 x00 x00 x00 x00)
(T (W x54 x00 x00 x00 x48 x00 x00 x00)
(T (W xff xff xff xff xff xff xff xff)
(L (W x2d x00 x00 x00 x30 x00 x00 x00)) E)
(L (W x00 x00 x80 xbf x00 x00 x80 xbf)))
(T (W x68 x00 x00 x00 x5c x00 x00 x00)
(L (W x45 x44 x00 x00 x00 x00 x00 x00))
(L (W x45 x26 x22 x84 xe4 x9c xf2 xcb))))))
(T (W xff xff xff xff xff xff xff xff)
(T (W xb8 x00 x00 x00 xac x00 x00 x00)
(T (W x00 x00 x80 x3f x00 x00 x80 x3f)
(T (W xff xff xff xff xff xff xff xff)
(T (W xff x9e x30 x97 x85 x21 x5c x5f)
(L (W x00 x00 x00 x00 x00 x00 x00 x00)) E)
(L (W x00 x00 x00 x00 x00 x00 x00 x00)))
(T (W xff xff xff xff xff xff xff xff)
(T (W x04 x00 x00 x00 x22 xdd xfd xff)
(L (W xff xff xff xff xff xff xff xff)) E)
(L (W x30 x35 x5f x43 x4c x45 x41 x52))))
(T (W x00 x00 x00 x00 x00 x00 x00 x00)
(T (W x00 x00 x00 x00 x00 x00 x00 x00)
(T (W xff xff xff xff xff xff xff xff)
(L (W xff xff xff xff xff xff xff xff)) E)
(L (W xc4 x00 x00 x00 x02 x00 x00 x00)))
(T (W x45 x26 x22 x84 xe4 x9c xf2 xcb)
(L (W xff xff xff xff xff xff xff xff))
(L (W x54 x00 x00 x00 x48 x00 x00 x00)))))
(T (W x18 x00 x00 x00 x0c x00 x00 x00)
(T (W x00 x00 x80 x3f x00 x00 x80 x3f)
(T (W x18 x00 x00 x00 x10 x00 x00 x00)
(T (W x00 x00 x00 x00 x00 x00 x00 x00)
(L (W x6c x00 x00 x00 x60 x00 x00 x00)) E)
(L (W x4f x84 x6f x8b xe8 xcb x63 xb7)))
(T (W x72 xfa xfc xff x74 x00 x00 x00)
(T (W x00 x00 x80 xbf x00 x00 x80 xbf)
(L (W x4c x00 x50 x00 x54 x00 x00 x00)) E)
(L (W x46 x53 x59 x53 x5f x4e x53 x5f))))
(T (W x00 x00 x00 x00 x8a xd2 xff xff)
(T (W xff xff xff xff xff xff xff xff)
(T (W x00 x00 x80 x3f x00 x00 x80 x3f)
(L (W x18 x00 x00 x00 x0c x00 x00 x00)) E)
(L (W x54 x00 x00 x00 x48 x00 x00 x00)))
(T (W x00 x00 x80 x3f x00 x00 x80 x3f)
(L (W x00 x00 x00 x00 x12 x00 x00 x00))
(L (W x18 x00 x00 x00 x0c x00 x00 x00))))))))
(T (W x00 x00 x00 x00 x00 x00 x00 x00)
(T (W x45 x26 x22 x84 xe4 x9c xf2 xcb)
(T (W x30 x00 x34 x00 x38 x00 x3c x00)
(T (W x00 x00 x00 x00 x00 x00 x00 x00)
(T (W x00 x00 x00 x00 x00 x00 x00 x00)
(T (W x00 x00 x80 x3f x00 x00 x80 x3f)
(T (W xff xff xff xff xff xff xff xff)
(L (W x00 x00 x00 x00 x00 x00 x00 x00)) E)
(L (W x50 x00 x00 x00 x44 x00 x00 x00)))
(T (W x45 x26 x22 x84 xe4 x9c xf2 xcb)
(T (W xff xff xff xff xff xff xff xff)
(L (W x00 x00 x80 xbf x00 x00 x80 xbf)) E)
(L (W x00 x00 x00 x00 x00 x00 x00 x00))))
(T (W xff xff xff xff xff xff xff xff)
(T (W x00 x00 x80 x3f x00 x00 x80 x3f)
(T (W x2a xd7 x36 x97 x85 x30 x63 x5f)
(L (W x00 x00 x00 x00 x00 x00 x00 x00)) E)
(L (W xff xff xff xff xff xff xff xff)))
(T (W x00 x00 x80 x3f x00 x00 x80 x3f)
(L (W xbc x0e xfe xff x1a x00 x00 x00))
(L (W x18 x00 x00 x00 x10 x00 x00 x00)))))
(T (W x00 x00 x00 x00 x00 x00 x00 x00)
(T (W xff xff xff xff xff xff xff xff)
(T (W x00 x00 x00 x00 x00 x00 x00 x00)
(T (W x00 x00 x80 x3f x00 x00 x80 x3f)
(L (W xff xff xff xff xff xff xff xff)) E)
(L (W xff xff xff xff x9c x00 x00 x00)))
(T (W x3b x00 x00 x00 x3e x00 x00 x00)
(T (W xff xff xff xff xff xff xff xff)
(L (W xff xff xff xff xff xff xff xff)) E)
(L (W x72 xe6 xfe xff x74 x00 x00 x00))))
(T (W x72 x26 xfc xff x74 x00 x00 x00)
(T (W xff xff xff xff xff xff xff xff)
(T (W x00 x00 x00 x00 x00 x00 x00 x00)
(L (W x00 x00 x80 xbf x00 x00 x80 xbf)) E)
(L (W x00 x00 x00 x00 x00 x00 x00 x00)))
(T (W x00 x00 x00 x00 x00 x00 x00 x00)
(L (W x45 x26 x22 x84 xe4 x9c xf2 xcb))
(L (W x00 x00 x00 x00 x32 x30 xff xff))))))
(T (W x00 x00 x80 x3f x00 x00 x80 x3f)
(T (W x45 x26 x22 x84 xe4 x9c xf2 xcb)
(T (W x64 x01 x00 x00 xff xff xff xff)
(T (W x00 x00 x80 x3f x00 x00 x80 x3f)
(T (W x45 x26 x22 x84 xe4 x9c xf2 xcb)
(L (W x18 x00 x00 x00 x0c x00 x00 x00)) E)
(L (W x72 x56 xfe xff x74 x00 x00 x00)))
(T (W x00 x00 x00 x00 x00 x00 x00 x00)
(T (W x00 x00 x80 xbf x00 x00 x80 xbf)
(L (W x00 x00 x80 xbf x00 x00 x80 xbf)) E)
(L (W x00 x00 x80 xbf x00 x00 x80 xbf))))
(T (W x18 x00 x00 x00 x10 x00 x00 x00)
(T (W x18 x00 x00 x00 x10 x00 x00 x00)
(T (W xff xff xff xff xff xff xff xff)
(L (W x00 x00 x80 xbf x00 x00 x80 xbf)) E)
(L (W x00 x00 x00 x00 x12 x00 x00 x00)))
(T (W xff xff xff xff xac x00 x00 x00)
(L (W x00 x00 x80 xbf x00 x00 x80 xbf))
(L (W xff xff xff xff xff xff xff xff)))))
(T (W x00 x00 x00 x00 x00 x00 x00 x00)
(T (W xb8 x00 x00 x00 xac x00 x00 x00)
(T (W x00 x00 x00 x00 x00 x00 x00 x00)
(T (W xff xff xff xff xff xff xff xff)
(L (W xff xff xff xff xff xff xff xff)) E)
(L (W xff xff xff xff xff xff xff xff)))
(T (W xff xff xff xff x02 x00 x00 x00)
(T (W x03 x00 x00 x00 xd0 x00 x00 x00)
(L (W x38 x00 x3c x00 x40 x00 x44 x00)) E)
(L (W xff xff xff xff x90 x00 x00 x00))))
(T (W x00 x00 x80 x3f x00 x00 x80 x3f)
(T (W x00 x00 x00 x00 x00 x00 x00 x00)
(T (W x32 x00 x00 x00 x35 x00 x00 x00)
(L (W x45 x44 x00 x00 x00 x00 x00 x00)) E)
(L (W x54 x02 x00 x00 x38 x01 x00 x00)))
(T (W x02 x00 x00 x00 x20 x01 x00 x00)
(L (W xff xff xff xff xff xff xff xff))
(L (W x00 x00 x00 x00 x00 x00 x00 x00)))))))
(T (W x00 x00 x80 x3f x00 x00 x80 x3f)
(T (W x00 x00 x80 x3f x00 x00 x80 x3f)
(T (W x00 x00 x00 x00 x00 x00 x00 x00)
(T (W x75 xac x2c x15 x19 xb3 x9a x71)
(T (W x50 x00 x00 x00 x44 x00 x00 x00)
(T (W x18 x00 x00 x00 x10 x00 x00 x00)
(L (W x00 x00 x80 xbf x00 x00 x80 xbf)) E)
(L (W x03 x00 x00 x00 xd0 x00 x00 x00)))
(T (W xff xff xff xff xff xff xff xff)
(T (W x00 x00 x00 x00 x00 x00 x00 x00)
(L (W x00 x00 x80 xbf x00 x00 x80 xbf)) E)
(L (W x00 x00 x80 xbf x00 x00 x80 xbf))))
(T (W xff xff xff xff xff xff xff xff)
(T (W x6c x00 x00 x00 x60 x00 x00 x00)
(T (W x45 x26 x22 x84 xe4 x9c xf2 xcb)
(L (W x00 x00 x00 x00 x00 x00 x00 x00)) E)
(L (W x91 x0c xb3 x28 xbf xde x60 x6a)))
(T (W x00 x00 x80 x3f x00 x00 x80 x3f)
(L (W x00 x00 x00 x00 x00 x00 x00 x00))
(L (W xff xff xff xff xff xff xff xff)))))
(T (W xbc xb6 xfb xff x3e x00 x00 x00)
(T (W xff xff xff xff xff xff xff xff)
(T (W x00 x00 x00 x00 x00 x00 x00 x00)
(T (W x00 x00 x00 x00 x00 x00 x00 x00)
(L (W xbb x01 x00 x00 xff xff xff xff)) E)
(L (W x18 x00 x00 x00 x0c x00 x00 x00)))
(T (W xff xff xff xff xff xff xff xff)
(T (W xac x01 x00 x00 xff xff xff xff)
(L (W xff xff xff xff xff xff xff xff)) E)
(L (W xc4 x00 x00 x00 x01 x00 x00 x00))))
(T (W x00 x00 x80 x3f x00 x00 x80 x3f)
(T (W xbc xb6 xfc xff x26 x00 x00 x00)
(T (W x50 x00 x00 x00 x44 x00 x00 x00)
(L (W x00 x00 x00 x00 x00 x00 x00 x00)) E)
(L (W x45 x44 x00 x00 x00 x00 x00 x00)))
(T (W x00 x00 x00 x00 x00 x00 x00 x00)
(L (W x18 x00 x00 x00 x0c x00 x00 x00))
(L (W x00 x00 x00 x00 x00 x00 x00 x00))))))
(T (W x45 x26 x22 x84 xe4 x9c xf2 xcb)
(T (W x45 x26 x22 x84 xe4 x9c xf2 xcb)
(T (W x2a x51 xfe xff x00 x00 x01 x01)
(T (W x00 x00 x80 x3f x00 x00 x80 x3f)
(T (W x00 x00 x80 x3f x00 x00 x80 x3f)
(L (W xff xff xff xff xc0 x00 x00 x00)) E)
(L (W xbc x00 x00 x00 x02 x00 x00 x00)))
(T (W x00 x00 x80 x3f x00 x00 x80 x3f)
(T (W x00 x00 x00 x00 xc4 xe1 xfd xff)
(L (W x00 x00 x80 xbf x00 x00 x80 xbf)) E)
(L (W x6c x00 x00 x00 x60 x00 x00 x00))))
(T (W x01 x00 x00 x00 xa0 x00 x00 x00)
(T (W xff xff xff xff xff xff xff xff)
(T (W x00 x00 x00 x00 xe8 xf9 xff xff)
(L (W x6c x00 x00 x00 x60 x00 x00 x00)) E)
(L (W x00 x00 x00 x00 x00 x00 x00 x00)))
(T (W xff xff xff xff xff xff xff xff)
(L (W x54 x00 x00 x00 x48 x00 x00 x00))
(L (W x04 x00 x00 x00 x22 x21 xff xff)))))
(T (W x00 x00 x00 x00 x00 x00 x00 x00)
(T (W xff xff xff xff xff xff xff xff)
(T (W x49 xa1 x68 x4a xeb x5f xdd x3d)
(T (W xff xff xff xff xff xff xff xff)
(L (W x45 x44 x00 x00 x00 x00 x00 x00)) E)
(L (W xff xff xff xff xff xff xff xff)))
(T (W x00 x00 x00 x00 x00 x00 x00 x00)
(T (W xff xff xff xff xff xff xff xff)
(L (W x2a x00 x00 x00 x78 x00 x00 x00)) E)
(L (W x18 x00 x00 x00 x0c x00 x00 x00))))
(T (W x00 x00 x80 x3f x00 x00 x80 x3f)
(T (W x00 x00 x80 x3f x00 x00 x80 x3f)
(T (W xff xff xff xff xff xff xff xff)
(L (W x45 x26 x22 x84 xe4 x9c xf2 xcb)) E)
(L (W x00 x00 x00 x00 x5a xbf xfe xff)))
(T (W xff xff xff xff xff xff xff xff)
(L (W x54 x43 xfe xff x00 x01 x01 x01))
(L (W x00 x00 x00 x00 x00 x00 x00 x00))))))))))
(T (W xe8 x25 x01 x00 x3c x23 x01 x00)
(T (W x40 x01 x00 x00 x04 x00 x00 x00)
(T (W x64 x00 x00 x00 x9c x00 x00 x00)
(T (W xff xff xff xff xff xff xff xff)
(T (W xff xff xff xff xff xff xff xff)
(T (W xb8 x00 x00 x00 xac x00 x00 x00)
(T (W x00 x00 x80 x3f x00 x00 x80 x3f)
(T (W xff xff xff xff xff xff xff xff)
(T (W x00 x00 x00 x00 x00 x00 x00 x00)
(L (W x45 x26 x22 x84 xe4 x9c xf2 xcb)) E)
(L (W x45 x44 x00 x00 x00 x00 x00 x00)))
(T (W xff xff xff xff xff xff xff xff)
(T (W x49 xa1 x68 x4a xeb x5f xdd x3d)
(L (W x45 x26 x22 x84 xe4 x9c xf2 xcb)) E)
(L (W x2a xc3 xfe xff x78 x00 x00 x00))))
(T (W x00 x00 x00 x00 x00 x00 x00 x00)
(T (W x18 x00 x00 x00 x10 x00 x00 x00)
(T (W x00 x00 x00 x00 x00 x00 x00 x00)
(L (W x00 x00 x80 xbf x00 x00 x80 xbf)) E)
(L (W x49 xa1 x68 x4a xeb x5f xdd x3d)))
(T (W xff xff xff xff xac x00 x00 x00)
(L (W x00 x00 x80 xbf x00 x00 x80 xbf))
(L (W x00 x00 x00 x00 x32 x0b xff xff)))))
(T (W x00 x00 x80 x3f x00 x00 x80 x3f)
(T (W x00 x00 x80 x3f x00 x00 x80 x3f)
(T (W xc0 x00 x00 x00 xb4 x00 x00 x00)
(T (W xff xff xff xff xff xff xff xff)
(L (W x00 x00 x00 x00 x00 x00 x00 x00)) E)
(L (W x69 x01 x00 x00 xff xff xff xff)))
(T (W xff xff xff xff x02 x00 x00 x00)
(T (W x1b x00 x00 x00 x0c x00 x00 x00)
(L (W x00 x00 x00 x00 x00 x00 x00 x00)) E)
(L (W xff xff xff xff xff xff xff xff))))
(T (W x00 x00 x00 x00 x00 x00 x00 x00)
(T (W x4f x84 x6f x8b xe8 xcb x63 xb7)
(T (W x00 x00 x00 x00 x00 x00 x00 x00)
(L (W xff xff xff xff xff xff xff xff)) E)
(L (W x6c x00 x00 x00 x60 x00 x00 x00)))
(T (W x00 x00 x00 x00 x00 x00 x00 x00)
(L (W xff xff xff xff xb0 x00 x00 x00))
(L (W x00 x00 x80 xbf x00 x00 x80 xbf))))))
(T (W xff xff xff xff xff xff xff xff)
(T (W x45 x26 x22 x84 xe4 x9c xf2 xcb)
(T (W x00 x00 x80 x3f x00 x00 x80 x3f)
(T (W x18 x00 x00 x00 x10 x00 x00 x00)
(T (W x33 x98 x30 x97 x85 x1d x5c x5f)
(L (W xff xff xff xff xff xff xff xff)) E)
(L (W x00 x00 x00 x00 x4a x71 xfe xff)))
(T (W x00 x00 x80 x3f x00 x00 x80 x3f)
(T (W xc0 x00 x00 x00 x01 x00 x00 x00)
(L (W xff xff xff xff xff xff xff xff)) E)
(L (W xb0 x00 x00 x00 x14 x00 x00 x00))))
(T (W xba x82 xfe xff xdc x00 x00 x00)
(T (W xc8 x02 x00 x00 xff xff xff xff)
(T (W x00 x00 x80 x3f x00 x00 x80 x3f)
(L (W xff xff xff xff xff xff xff xff)) E)
(L (W x00 x00 x80 xbf x00 x00 x80 xbf)))
(T (W x02 x00 x00 x00 xff xff xff xff)
(L (W x18 x00 x00 x00 x10 x00 x00 x00))
(L (W x00 x00 x80 xbf x00 x00 x80 xbf)))))
(T (W x2a xb3 xfb xff x78 x00 x00 x00)
(T (W x00 x00 x00 x00 x00 x00 x00 x00)
(T (W x45 x26 x22 x84 xe4 x9c xf2 xcb)
(T (W x00 x00 x01 x01 xd7 x00 x00 x00)
(L (W x00 x00 x80 xbf x00 x00 x80 xbf)) E)
(L (W x46 x53 x59 x53 x5f x4e x53 x5f)))
(T (W x00 x00 x00 x00 x00 x00 x00 x00)
(T (W x00 x00 x00 x00 x00 x00 x00 x00)
(L (W x45 x26 x22 x84 xe4 x9c xf2 xcb)) E)
(L (W x46 x53 x59 x53 x5f x4e x53 x5f))))
(T (W xff xff xff xff xff xff xff xff)
(T (W x54 x00 x00 x00 x48 x00 x00 x00)
(T (W xf1 xd9 xc3 xe9 xc1 xcf xae x64)
(L (W xff xff xff xff xa8 x00 x00 x00)) E)
(L (W x00 x00 x80 xbf x00 x00 x80 xbf)))
(T (W x00 x00 x80 x3f x00 x00 x80 x3f)
(L (W x45 x44 x00 x00 x00 x00 x00 x00))
(L (W x45 x26 x22 x84 xe4 x9c xf2 xcb)))))))
(T (W xff xff xff xff x04 x00 x00 x00)
(T (W xff xff xff xff xff xff xff xff)
(T (W xff xff xff xff x04 x00 x00 x00)
(T (W x45 x26 x22 x84 xe4 x9c xf2 xcb)
(T (W xff xff xff xff x04 x00 x00 x00)
(T (W x00 x00 x00 x00 x00 x00 x00 x00)
(L (W x2d x00 x00 x00 x30 x00 x00 x00)) E)
(L (W x00 x00 x00 x00 xba x54 xfe xff)))
(T (W x00 x00 x00 x00 x00 x00 x00 x00)
(T (W x00 x00 x80 x3f x00 x00 x80 x3f)
(L (W xff xff xff xff xff xff xff xff)) E)
(L (W x45 x26 x22 x84 xe4 x9c xf2 xcb))))
(T (W xcc x95 x1b xf2 x1e x1d x49 x87)
(T (W xff xff xff xff xff xff xff xff)
(T (W x00 x00 x80 x3f x00 x00 x80 x3f)
(L (W x54 x8e xff xff x00 x01 x01 x01)) E)
(L (W x00 x00 x80 xbf x00 x00 x80 xbf)))
(T (W xff xff xff xff xbc x00 x00 x00)
(L (W x54 x00 x00 x00 x48 x00 x00 x00))
(L (W x00 x00 x00 x00 x00 x00 x00 x00)))))
(T (W x50 x00 x00 x00 x44 x00 x00 x00)
(T (W x00 x00 x00 x00 x00 x00 x00 x00)
(T (W x04 x00 x00 x00 x0c x04 x00 x00)
(T (W x18 x00 x00 x00 x10 x00 x00 x00)
(L (W x00 x00 x00 x00 x00 x00 x00 x00)) E)
(L (W x00 x00 x00 x00 x00 x00 x00 x00)))
(T (W x13 x00 x00 x00 x10 x00 x00 x00)
(T (W x00 x00 x00 x00 x12 x00 x00 x00)
(L (W x00 x00 x00 x00 x00 x00 x00 x00)) E)
(L (W x00 x00 x00 x00 x00 x00 x00 x00))))
(T (W x48 x03 x00 x00 x34 x02 x00 x00)
(T (W x00 x00 x80 x3f x00 x00 x80 x3f)
(T (W x2a xab xfd xff x78 x00 x00 x00)
(L (W x00 x00 x00 x00 xc4 xac xff xff)) E)
(L (W x14 x00 x18 x00 x00 x00 x00 x00)))
(T (W x00 x00 x80 x3f x00 x00 x80 x3f)
(L (W xff xff xff xff xff xff xff xff))
(L (W x6c x00 x00 x00 x60 x00 x00 x00))))))
(T (W xff xff xff xff xff xff xff xff)
(T (W x68 x00 x00 x00 x5c x00 x00 x00)
(T (W x00 x00 x80 x3f x00 x00 x80 x3f)
(T (W xb8 x00 x00 x00 xac x00 x00 x00)
(T (W xff xff xff xff xff xff xff xff)
(L (W x00 x00 x00 x00 x5a x5a xff xff)) E)
(L (W x82 x18 xb6 x28 xbf x5c x64 x6a)))
(T (W x45 x26 x22 x84 xe4 x9c xf2 xcb)
(T (W xff xff xff xff xff xff xff xff)
(L (W x2d x00 x00 x00 x30 x00 x00 x00)) E)
(L (W xff xff xff xff xff xff xff xff))))
(T (W x00 x00 x00 x00 x00 x00 x00 x00)
(T (W x00 x00 x00 x00 x00 x00 x00 x00)
(T (W x00 x00 x80 xbf x00 x00 x80 xbf)
(L (W xff xff xff xff xff xff xff xff)) E)
(L (W xff xff xff xff x90 x00 x00 x00)))
(T (W x00 x00 x00 x00 x00 x00 x00 x00)
(L (W xff xff xff xff xff xff xff xff))
(L (W x00 x00 x80 xbf x00 x00 x80 xbf)))))
(T (W x00 x00 x80 x3f x00 x00 x80 x3f)
(T (W x00 x00 x00 x00 x00 x00 x00 x00)
(T (W x54 x00 x00 x00 x48 x00 x00 x00)
(T (W x00 x00 x00 x00 x00 x00 x00 x00)
(L (W x00 x00 x80 xbf x00 x00 x80 xbf)) E)
(L (W x00 x00 x00 x00 x00 x00 x00 x00)))
(T (W x00 x00 x80 x3f x00 x00 x80 x3f)
(T (W x00 x00 x00 x00 x00 x00 x00 x00)
(L (W xbc x00 x00 x00 x64 x00 x00 x00)) E)
(L (W x2c x02 x00 x00 x28 x01 x00 x00))))
(T (W xff xff xff xff xff xff xff xff)
(T (W x45 x26 x22 x84 xe4 x9c xf2 xcb)
(T (W x00 x00 x00 x00 x00 x00 x00 x00)
(L (W x2a xbb xff xff x78 x00 x00 x00)) E)
(L (W x00 x00 x80 xbf x00 x00 x80 xbf)))
(T (W x00 x00 x80 x3f x00 x00 x80 x3f)
(L (W x00 x00 x00 x00 x3a x3f xfe xff))
(L (W x2a x3b xff xff x78 x00 x00 x00))))))))
(T (W x00 x00 x00 x00 x00 x00 x00 x00)
(T (W x00 x00 x00 x00 x00 x00 x00 x00)
(T (W x45 x26 x22 x84 xe4 x9c xf2 xcb)
(T (W x00 x00 x00 x00 x00 x00 x00 x00)
(T (W x20 x01 x00 x00 x04 x00 x00 x00)
(T (W x00 x00 x80 x3f x00 x00 x80 x3f)
(T (W x18 x00 x00 x00 x10 x00 x00 x00)
(L (W xdc x9c xaa x28 xbf xce x56 x6a)) E)
(L (W x00 x00 x80 xbf x00 x00 x80 xbf)))
(T (W x00 x00 x80 x3f x00 x00 x80 x3f)
(T (W x03 x00 x00 x00 xd8 x00 x00 x00)
(L (W x00 x00 x00 x00 x00 x00 x00 x00)) E)
(L (W x00 x00 x00 x00 x5a xc6 xfe xff))))
(T (W xc0 x00 x00 x00 xb4 x00 x00 x00)
(T (W x00 x00 x00 x00 x00 x00 x00 x00)
(T (W xff xff xff xff xff xff xff xff)
(L (W x00 x00 x00 x00 x32 x8f xff xff)) E)
(L (W x03 x00 x00 x00 xd4 x00 x00 x00)))
(T (W x00 x00 x00 x00 x00 x00 x00 x00)
(L (W xff xff xff xff xff xff xff xff))
(L (W x6c x00 x00 x00 x60 x00 x00 x00)))))
(T (W x00 x00 x00 x00 x00 x00 x00 x00)
(T (W xb8 x00 x00 x00 xac x00 x00 x00)
(T (W x00 x00 x00 x00 x00 x00 x00 x00)
(T (W x00 x00 x00 x00 x00 x00 x00 x00)
(L (W xb4 x00 x00 x00 x14 x00 x00 x00)) E)
(L (W x2a x67 xfe xff x78 x00 x00 x00)))
(T (W x72 xe5 xfc xff x74 x00 x00 x00)
(T (W xbc x00 x00 x00 x64 x00 x00 x00)
(L (W x20 x00 x00 x00 x24 x00 x28 x00)) E)
(L (W x00 x00 x80 xbf x00 x00 x80 xbf))))
(T (W x00 x00 x80 x3f x00 x00 x80 x3f)
(T (W xff xff xff xff xff xff xff xff)
(T (W x38 x01 x00 x00 x04 x00 x00 x00)
(L (W x00 x00 x00 x00 x00 x00 x00 x00)) E)
(L (W x5d x13 xb3 x28 xbf xe2 x60 x6a)))
(T (W xff xff xff xff x02 x00 x00 x00)
(L (W x00 x00 x00 x00 x12 x00 x00 x00))
(L (W xff xff xff xff xff xff xff xff))))))
(T (W x00 x00 x00 x00 x00 x00 x00 x00)
(T (W x00 x00 x00 x00 x00 x00 x00 x00)
(T (W xff xff xff xff xff xff xff xff)
(T (W x45 x26 x22 x84 xe4 x9c xf2 xcb)
(T (W x00 x00 x80 x3f x00 x00 x80 x3f)
(L (W x2a x57 xff xff x78 x00 x00 x00)) E)
(L (W x00 x00 x80 xbf x00 x00 x80 xbf)))
(T (W x00 x00 x00 x00 x01 x00 x00 x00)
(T (W x45 x26 x22 x84 xe4 x9c xf2 xcb)
(L (W x00 x00 x00 x00 x00 x00 x00 x00)) E)
(L (W x49 xa1 x68 x4a xeb x5f xdd x3d))))
(T (W x54 x1a xfc xff x00 x01 x01 x01)
(T (W x6c x00 x00 x00 x60 x00 x00 x00)
(T (W xff xff xff xff x9c x00 x00 x00)
(L (W x49 xa1 x68 x4a xeb x5f xdd x3d)) E)
(L (W x00 x00 x00 x00 x00 x00 x00 x00)))
(T (W x00 x00 x00 x00 xc4 x18 xfd xff)
(L (W x00 x00 x00 x00 x00 x00 x00 x00))
(L (W xff xff xff xff xff xff xff xff)))))
(T (W x2a x28 xfe xff x00 x00 x01 x01)
(T (W x01 x00 x00 x00 x9c x00 x00 x00)
(T (W x00 x00 x00 x00 x00 x00 x00 x00)
(T (W xb8 x00 x00 x00 xac x00 x00 x00)
(L (W xff xff xff xff xff xff xff xff)) E)
(L (W x18 x00 x00 x00 x0c x00 x00 x00)))
(T (W xff xff xff xff xff xff xff xff)
(T (W x18 x00 x00 x00 x10 x00 x00 x00)
(L (W xc4 x00 x00 x00 x01 x00 x00 x00)) E)
(L (W x00 x00 x00 x00 x58 xfa xfe xff))))
(T (W x00 x00 x80 x3f x00 x00 x80 x3f)
(T (W x00 x00 x00 x00 x00 x00 x00 x00)
(T (W x49 xa1 x68 x4a xeb x5f xdd x3d)
(L (W xff xff xff xff xff xff xff xff)) E)
(L (W xff xff xff xff xff xff xff xff)))
(T (W xff xff xff xff xff xff xff xff)
(L (W x03 x00 x00 x00 xd0 x00 x00 x00))
(L (W xff xff xff xff xff xff xff xff)))))))
(T (W x00 x00 x80 x3f x00 x00 x80 x3f)
(T (W x45 x26 x22 x84 xe4 x9c xf2 xcb)
(T (W x00 x00 x00 x00 x00 x00 x00 x00)
(T (W xff xff xff xff xff xff xff xff)
(T (W x00 x00 x00 x00 x00 x00 x00 x00)
(T (W x45 x26 x22 x84 xe4 x9c xf2 xcb)
(L (W x4f x84 x6f x8b xe8 xcb x63 xb7)) E)
(L (W x00 x00 x80 x3f x00 x00 x80 x3f)))
(T (W xff xff xff xff xbc x00 x00 x00)
(T (W x00 x00 x00 x00 x00 x00 x00 x00)
(L (W x00 x00 x00 x00 x00 x00 x00 x00)) E)
(L (W x00 x00 x00 x00 x00 x00 x00 x00))))
(T (W x72 x0d xfc xff x74 x00 x00 x00)
(T (W x00 x00 x80 x3f x00 x00 x80 x3f)
(T (W x34 x00 x38 x00 x3c x00 x40 x00)
(L (W xbc x95 xff xff x3b x00 x00 x00)) E)
(L (W xff xff xff xff xff xff xff xff)))
(T (W x00 x00 x80 x3f x00 x00 x80 x3f)
(L (W xbc x15 xfe xff x2f x00 x00 x00))
(L (W x45 x26 x22 x84 xe4 x9c xf2 xcb)))))
(T (W xff xff xff xff xff xff xff xff)
(T (W x45 x26 x22 x84 xe4 x9c xf2 xcb)
(T (W x00 x00 x00 x00 x00 x00 x00 x00)
(T (W x00 x00 x00 x00 x00 x00 x00 x00)
(L (W xff xff xff xff xff xff xff xff)) E)
(L (W x00 x00 x80 xbf x00 x00 x80 xbf)))
(T (W x45 x26 x22 x84 xe4 x9c xf2 xcb)
(T (W xff xff xff xff xff xff xff xff)
(L (W xff xff xff xff xff xff xff xff)) E)
(L (W x58 x00 x00 x00 x4c x00 x00 x00))))
(T (W x45 x26 x22 x84 xe4 x9c xf2 xcb)
(T (W xff xff xff xff xff xff xff xff)
(T (W x00 x00 x80 x3f x00 x00 x80 x3f)
(L (W x00 x00 x00 x00 x00 x00 x00 x00)) E)
(L (W xff xff xff xff xff xff xff xff)))
(T (W xff xff xff xff x01 x00 x00 x00)
(L (W x2a x2f xfe xff x78 x00 x00 x00))
(L (W xdd x00 x00 x00 xff xff xff xff))))))
(T (W x00 x00 x00 x00 x00 x00 x00 x00)
(T (W x00 x00 x00 x00 x00 x00 x00 x00)
(T (W xff xff xff xff xff xff xff xff)
(T (W x00 x00 x00 x00 x00 x00 x00 x00)
(T (W x00 x00 x80 x3f x00 x00 x80 x3f)
(L (W x45 x26 x22 x84 xe4 x9c xf2 xcb)) E)
(L (W xff xff xff xff x90 x00 x00 x00)))
(T (W x00 x00 x00 x00 x00 x00 x00 x00)
(T (W x00 x00 x80 xbf x00 x00 x80 xbf)
(L (W x4f x84 x6f x8b xe8 xcb x63 xb7)) E)
(L (W x00 x00 x80 xbf x00 x00 x80 xbf))))
(T (W x00 x00 x80 x3f x00 x00 x80 x3f)
(T (W xbc x00 x00 x00 x64 x00 x00 x00)
(T (W x00 x00 x80 xbf x00 x00 x80 xbf)
(L (W x00 x00 x00 x00 x00 x00 x00 x00)) E)
(L (W x00 x00 x00 x00 x00 x00 x00 x00)))
(T (W xff xff xff xff xff xff xff xff)
(L (W x00 x00 x00 x00 x00 x00 x00 x00))
(L (W xff xff xff xff xff xff xff xff)))))
(T (W x00 x00 x00 x00 x00 x00 x00 x00)
(T (W x0a x00 x00 x00 x3c x00 x00 x00)
(T (W x00 x00 x00 x00 x00 x00 x00 x00)
(T (W xff xff xff xff xff xff xff xff)
(L (W xff xff xff xff xff xff xff xff)) E)
(L (W xff xff xff xff xc0 x00 x00 x00)))
(T (W x00 x00 x00 x00 x00 x00 x00 x00)
(T (W xff xff xff xff xff xff xff xff)
(L (W x1c x00 x20 x00 x24 x00 x28 x00)) E)
(L (W x00 x00 x80 xbf x00 x00 x80 xbf))))
(T (W x00 x00 x80 x3f x00 x00 x80 x3f)
(T (W x00 x00 x00 x00 x00 x00 x00 x00)
(T (W xff xff xff xff xff xff xff xff)
(L (W x00 x00 x00 x00 x00 x00 x00 x00)) E)
(L (W xff xff xff xff xff xff xff xff)))
(T (W xff xff xff xff xff xff xff xff)
(L (W x6c x00 x00 x00 x60 x00 x00 x00))
(L (W x00 x00 x00 x00 x5a x3e xff xff)))))))))
(T (W x00 x00 x80 x3f x00 x00 x80 x3f)
(T (W x00 x00 x00 x00 xaa xe3 xff xff)
(T (W x40 x02 x00 x00 x28 x01 x00 x00)
(T (W xbc x6b xfb xff x3e x00 x00 x00)
(T (W x00 x00 x00 x00 x00 x00 x00 x00)
(T (W xff xff xff xff x04 x00 x00 x00)
(T (W x00 x00 x00 x00 x00 x00 x00 x00)
(T (W x00 x00 x80 x3f x00 x00 x80 x3f)
(L (W xff xff xff xff xff xff xff xff)) E)
(L (W x00 x00 x00 x00 x00 x00 x00 x00)))
(T (W x00 x00 x00 x00 x00 x00 x00 x00)
(T (W x6c x00 x00 x00 x60 x00 x00 x00)
(L (W xff xff xff xff xff xff xff xff)) E)
(L (W xff xff xff xff xff xff xff xff))))
(T (W x00 x00 x80 x3f x00 x00 x80 x3f)
(T (W x00 x00 x00 x00 x00 x00 x00 x00)
(T (W x00 x00 x80 x3f x00 x00 x80 x3f)
(L (W xff xff xff xff xff xff xff xff)) E)
(L (W x6c x00 x00 x00 x60 x00 x00 x00)))
(T (W xff xff xff xff xff xff xff xff)
(L (W xbc x00 x00 x00 x64 x00 x00 x00))
(L (W x00 x00 x00 x00 x00 x00 x00 x00)))))
(T (W xff xff xff xff xff xff xff xff)
(T (W x50 x00 x00 x00 x44 x00 x00 x00)
(T (W xff xff xff xff xff xff xff xff)
(T (W x56 xae x33 x97 x85 xa1 x5f x5f)
(L (W x54 x00 x00 x00 x48 x00 x00 x00)) E)
(L (W x00 x00 x80 xbf x00 x00 x80 xbf)))
(T (W x00 x00 x00 x00 x00 x00 x00 x00)
(T (W x00 x00 x80 xbf x00 x00 x80 xbf)
(L (W x45 x26 x22 x84 xe4 x9c xf2 xcb)) E)
(L (W x00 x00 x00 x00 x00 x00 x00 x00))))
(T (W x00 x00 x00 x00 x00 x00 x00 x00)
(T (W x54 x00 x00 x00 x48 x00 x00 x00)
(T (W x00 x00 x80 x3f x00 x00 x80 x3f)
(L (W x00 x00 x00 x00 x00 x00 x00 x00)) E)
(L (W xff xff xff xff xff xff xff xff)))
(T (W x72 x23 xfd xff x74 x00 x00 x00)
(L (W xff xff xff xff xff xff xff xff))
(L (W x18 x00 x00 x00 x0c x00 x00 x00))))))
(T (W xff xff xff xff xff xff xff xff)
(T (W xff xff xff xff xff xff xff xff)
(T (W x68 x00 x00 x00 x5c x00 x00 x00)
(T (W x2a xc6 xfe xff x00 x00 x01 x01)
(T (W x00 x00 x00 x00 x00 x00 x00 x00)
(L (W x00 x00 x00 x00 x00 x00 x00 x00)) E)
(L (W x00 x00 x00 x00 x12 x00 x00 x00)))
(T (W xff xff xff xff x9c x00 x00 x00)
(T (W x54 x02 x00 x00 x38 x01 x00 x00)
(L (W xff xff xff xff xff xff xff xff)) E)
(L (W x30 x35 x5f x43 x4c x45 x41 x52))))
(T (W x00 x00 x00 x00 x00 x00 x00 x00)
(T (W x49 xa1 x68 x4a xeb x5f xdd x3d)
(T (W x55 x6c xfc xf1 x99 x9e xc9 x88)
(L (W x45 x44 x00 x00 x00 x00 x00 x00)) E)
(L (W xff xff xff xff xff xff xff xff)))
(T (W x00 x00 x00 x00 x00 x00 x00 x00)
(L (W xef x00 x00 x00 xff xff xff xff))
(L (W x54 x18 xff xff x00 x01 x01 x01)))))
(T (W xff xff xff xff xff xff xff xff)
(T (W x72 xf3 xfb xff x74 x00 x00 x00)
(T (W xff xff xff xff x9c x00 x00 x00)
(T (W x00 x00 x80 x3f x00 x00 x80 x3f)
(L (W x00 x00 x00 x00 xc4 x76 xff xff)) E)
(L (W x00 x00 x80 xbf x00 x00 x80 xbf)))
(T (W x45 x26 x22 x84 xe4 x9c xf2 xcb)
(T (W x00 x00 x80 xbf x00 x00 x80 xbf)
(L (W xff xff xff xff xff xff xff xff)) E)
(L (W x00 x00 x00 x00 x00 x00 x00 x00))))
(T (W x00 x00 x00 x00 x00 x00 x00 x00)
(T (W xff xff xff xff xff xff xff xff)
(T (W xff xff xff xff xff xff xff xff)
(L (W xff xff xff xff xff xff xff xff)) E)
(L (W x2a xb5 xfe xff x78 x00 x00 x00)))
(T (W x00 x00 x00 x00 xc4 x36 xfd xff)
(L (W x00 x00 x80 xbf x00 x00 x80 xbf))
(L (W xff xff xff xff xff xff xff xff)))))))
(T (W xca xf6 xff xff x3b x02 x00 x00)
(T (W x01 x00 x00 x00 x04 x00 x00 x00)
(T (W x20 x01 x00 x00 x04 x00 x00 x00)
(T (W x45 x26 x22 x84 xe4 x9c xf2 xcb)
(T (W x3e x00 x00 x00 x10 x00 x00 x00)
(T (W x00 x00 x80 x3f x00 x00 x80 x3f)
(L (W xff xff xff xff xff xff xff xff)) E)
(L (W x00 x00 x00 x00 x00 x00 x00 x00)))
(T (W x00 x00 x80 x3f x00 x00 x80 x3f)
(T (W xff xff xff xff xff xff xff xff)
(L (W x00 x00 x00 x00 x5a xcc xff xff)) E)
(L (W xff xff xff xff xff xff xff xff))))
(T (W x45 x26 x22 x84 xe4 x9c xf2 xcb)
(T (W x00 x00 x00 x00 x00 x00 x00 x00)
(T (W x45 x26 x22 x84 xe4 x9c xf2 xcb)
(L (W xff xff xff xff xff xff xff xff)) E)
(L (W x45 x26 x22 x84 xe4 x9c xf2 xcb)))
(T (W x5f x4e x53 x5f x30 x35 x5f x43)
(L (W xff xff xff xff xff xff xff xff))
(L (W x00 x00 x80 xbf x00 x00 x80 xbf)))))
(T (W xb8 x00 x00 x00 xac x00 x00 x00)
(T (W x68 x00 x00 x00 x5c x00 x00 x00)
(T (W xff xff xff xff xff xff xff xff)
(T (W xff xff xff xff xff xff xff xff)
(L (W x45 x26 x22 x84 xe4 x9c xf2 xcb)) E)
(L (W x45 x26 x22 x84 xe4 x9c xf2 xcb)))
(T (W x00 x00 x80 x3f x00 x00 x80 x3f)
(T (W x00 x00 x80 xbf x00 x00 x80 xbf)
(L (W x1c x00 x00 x00 x10 x00 x00 x00)) E)
(L (W x45 x26 x22 x84 xe4 x9c xf2 xcb))))
(T (W x00 x00 x00 x00 x00 x00 x00 x00)
(T (W x45 x26 x22 x84 xe4 x9c xf2 xcb)
(T (W xf5 x01 x00 x00 xff xff xff xff)
(L (W xff xff xff xff xff xff xff xff)) E)
(L (W x2a xad xfe xff x78 x00 x00 x00)))
(T (W xff xff xff xff x03 x00 x00 x00)
(L (W x00 x00 x00 x00 x00 x00 x00 x00))
(L (W xff xff xff xff xc0 x00 x00 x00))))))
(T (W x2a xee xfd xff x00 x00 x01 x01)
(T (W xff xff xff xff xff xff xff xff)
(T (W x00 x00 x80 x3f x00 x00 x80 x3f)
(T (W xff xff xff xff xff xff xff xff)
(T (W x00 x00 x00 x00 x00 x00 x00 x00)
(L (W x00 x00 x80 xbf x00 x00 x80 xbf)) E)
(L (W x45 x26 x22 x84 xe4 x9c xf2 xcb)))
(T (W xcb x01 x00 x00 xff xff xff xff)
(T (W x00 x00 x00 x00 x12 x00 x00 x00)
(L (W x00 x00 x00 x00 x32 xe5 xff xff)) E)
(L (W x00 x00 x00 x00 x00 x00 x00 x00))))
(T (W x00 x00 x00 x00 x00 x00 x00 x00)
(T (W x00 x00 x80 x3f x00 x00 x80 x3f)
(T (W x32 x00 x00 x00 x10 x00 x00 x00)
(L (W x00 x00 x00 x00 x00 x00 x00 x00)) E)
(L (W xff xff xff xff xff xff xff xff)))
(T (W x00 x00 x80 x3f x00 x00 x80 x3f)
(L (W x00 x00 x00 x00 xba x26 xfe xff))
(L (W x45 x26 x22 x84 xe4 x9c xf2 xcb)))))
(T (W xb8 x00 x00 x00 xac x00 x00 x00)
(T (W x00 x00 x80 x3f x00 x00 x80 x3f)
(T (W xff xff xff xff xff xff xff xff)
(T (W x00 x00 x80 x3f x00 x00 x80 x3f)
(L (W x45 x26 x22 x84 xe4 x9c xf2 xcb)) E)
(L (W x00 x00 x80 xbf x00 x00 x80 xbf)))
(T (W xff xff xff xff x9c x00 x00 x00)
(T (W x00 x00 x80 xbf x00 x00 x80 xbf)
(L (W x00 x00 x80 xbf x00 x00 x80 xbf)) E)
(L (W x00 x00 x00 x00 x00 x00 x00 x00))))
(T (W x00 x00 x00 x00 x00 x00 x00 x00)
(T (W xff xff xff xff xff xff xff xff)
(T (W x00 x00 x00 x00 xc4 xbe xfd xff)
(L (W xff xff xff xff xff xff xff xff)) E)
(L (W x45 x26 x22 x84 xe4 x9c xf2 xcb)))
(T (W x45 x26 x22 x84 xe4 x9c xf2 xcb)
(L (W x00 x00 x00 x00 x00 x00 x00 x00))
(L (W xff xff xff xff xff xff xff xff))))))))
(T (W x00 x00 x80 x3f x00 x00 x80 x3f)
(T (W x00 x00 x80 x3f x00 x00 x80 x3f)
(T (W x00 x00 x80 x3f x00 x00 x80 x3f)
(T (W x00 x00 x80 x3f x00 x00 x80 x3f)
(T (W x00 x00 x00 x00 x00 x00 x00 x00)
(T (W x68 x00 x00 x00 x5c x00 x00 x00)
(T (W xff xff xff xff xff xff xff xff)
(L (W x45 x26 x22 x84 xe4 x9c xf2 xcb)) E)
(L (W xff xff xff xff xff xff xff xff)))
(T (W xff xff xff xff xff xff xff xff)
(T (W x77 x61 x72 x6c x69 x6b x65 x5f)
(L (W x2a xc9 xff xff x78 x00 x00 x00)) E)
(L (W x00 x00 x00 x00 x00 x00 x00 x00))))
(T (W xff xff xff xff xff xff xff xff)
(T (W x6c x00 x00 x00 x60 x00 x00 x00)
(T (W x00 x00 x00 x00 x00 x00 x00 x00)
(L (W x00 x00 x00 x00 x00 x00 x00 x00)) E)
(L (W x1b x00 x00 x00 x0c x00 x00 x00)))
(T (W x68 x00 x00 x00 x5c x00 x00 x00)
(L (W x4f x84 x6f x8b xe8 xcb x63 xb7))
(L (W xff xff xff xff xff xff xff xff)))))
(T (W x00 x00 x80 x3f x00 x00 x80 x3f)
(T (W x36 x87 x4b xed x04 x1b x63 x38)
(T (W x00 x00 x80 x3f x00 x00 x80 x3f)
(T (W x00 x00 x80 x3f x00 x00 x80 x3f)
(L (W xff xff xff xff xff xff xff xff)) E)
(L (W xff xff xff xff xff xff xff xff)))
(T (W xff xff xff xff xff xff xff xff)
(T (W xff xff xff xff xff xff xff xff)
(L (W xff xff xff xff xff xff xff xff)) E)
(L (W xff xff xff xff xff xff xff xff))))
(T (W xff xff xff xff xff xff xff xff)
(T (W xbc xaf xfc xff x26 x00 x00 x00)
(T (W x45 x26 x22 x84 xe4 x9c xf2 xcb)
(L (W x3a x02 x00 x00 xff xff xff xff)) E)
(L (W x00 x00 x80 xbf x00 x00 x80 xbf)))
(T (W x00 x00 x00 x00 x00 x00 x00 x00)
(L (W x74 x00 x00 x00 x68 x00 x00 x00))
(L (W x00 x00 x00 x00 x00 x00 x00 x00))))))
(T (W x2a x79 xfb xff x78 x00 x00 x00)
(T (W x00 x00 x80 x3f x00 x00 x80 x3f)
(T (W x00 x00 x00 x00 x00 x00 x00 x00)
(T (W x54 x5c xfc xff x00 x01 x01 x01)
(T (W x18 x00 x00 x00 x10 x00 x00 x00)
(L (W xff xff xff xff xff xff xff xff)) E)
(L (W xff xff xff xff xff xff xff xff)))
(T (W x45 x26 x22 x84 xe4 x9c xf2 xcb)
(T (W x50 x00 x00 x00 x44 x00 x00 x00)
(L (W x00 x00 x80 xbf x00 x00 x80 xbf)) E)
(L (W x6c x00 x00 x00 x60 x00 x00 x00))))
(T (W xff xff xff xff xff xff xff xff)
(T (W xff xff xff xff xff xff xff xff)
(T (W x05 x65 x6c x12 x83 xf5 x3a xc6)
(L (W x2a x99 xff xff x78 x00 x00 x00)) E)
(L (W x00 x00 x00 x00 x00 x00 x00 x00)))
(T (W xff xff xff xff xff xff xff xff)
(L (W x45 x26 x22 x84 xe4 x9c xf2 xcb))
(L (W x00 x00 x00 x00 x00 x00 x00 x00)))))
(T (W x00 x00 x00 x00 x00 x00 x00 x00)
(T (W xff xff xff xff xff xff xff xff)
(T (W x00 x00 x00 x00 x00 x00 x00 x00)
(T (W xff xff xff xff xff xff xff xff)
(L (W x00 x00 x00 x00 x00 x00 x00 x00)) E)
(L (W x00 x00 x01 x01 xaa x01 x00 x00)))
(T (W x00 x00 x00 x00 x00 x00 x00 x00)
(T (W xff xff xff xff xff xff xff xff)
(L (W x00 x00 x00 x00 x00 x00 x00 x00)) E)
(L (W xc4 x00 x00 x00 x01 x00 x00 x00))))
(T (W x72 x37 xfc xff x74 x00 x00 x00)
(T (W x45 x26 x22 x84 xe4 x9c xf2 xcb)
(T (W x00 x00 x01 x01 x85 x00 x00 x00)
(L (W x00 x00 x00 x00 x00 x00 x00 x00)) E)
(L (W x00 x00 x00 x00 x00 x00 x00 x00)))
(T (W x00 x00 x00 x00 x00 x00 x00 x00)
(L (W xff xff xff xff xff xff xff xff))
(L (W x00 x00 x00 x00 x00 x00 x00 x00)))))))
(T (W x54 x00 x00 x00 x48 x00 x00 x00)
(T (W x68 x00 x00 x00 x5c x00 x00 x00)
(T (W x45 x26 x22 x84 xe4 x9c xf2 xcb)
(T (W x00 x00 x00 x00 x00 x00 x00 x00)
(T (W x72 x4f xfc xff x74 x00 x00 x00)
(T (W xff xff xff xff xff xff xff xff)
(L (W x45 x26 x22 x84 xe4 x9c xf2 xcb)) E)
(L (W xff xff xff xff xff xff xff xff)))
(T (W x27 x00 x00 x00 x10 x00 x00 x00)
(T (W x00 x00 x80 xbf x00 x00 x80 xbf)
(L (W x2d x00 x00 x00 x30 x00 x00 x00)) E)
(L (W x54 x00 x00 x00 x48 x00 x00 x00))))
(T (W xff xff xff xff xff xff xff xff)
(T (W x18 x00 x00 x00 x10 x00 x00 x00)
(T (W x18 x00 x00 x00 x10 x00 x00 x00)
(L (W x00 x00 x80 xbf x00 x00 x80 xbf)) E)
(L (W x00 x00 x00 x00 x00 x00 x00 x00)))
(T (W xc8 x00 x00 x00 x01 x00 x00 x00)
(L (W x00 x00 x80 xbf x00 x00 x80 xbf))
(L (W x69 x01 x00 x00 xff xff xff xff)))))
(T (W x00 x00 x00 x00 x00 x00 x00 x00)
(T (W x18 x01 x00 x00 xff xff xff xff)
(T (W x45 x26 x22 x84 xe4 x9c xf2 xcb)
(T (W x00 x00 x80 x3f x00 x00 x80 x3f)
(L (W x00 x00 x00 x00 x00 x00 x00 x00)) E)
(L (W xff xff xff xff xff xff xff xff)))
(T (W x00 x00 x00 x00 x00 x00 x00 x00)
(T (W x00 x00 x00 x00 x00 x00 x00 x00)
(L (W x00 x00 x00 x00 x00 x00 x00 x00)) E)
(L (W xff xff xff xff xff xff xff xff))))
(T (W x18 x00 x00 x00 x0c x00 x00 x00)
(T (W x4f x84 x6f x8b xe8 xcb x63 xb7)
(T (W xcc x00 x00 x00 x01 x00 x00 x00)
(L (W x00 x00 x00 x00 x00 x00 x00 x00)) E)
(L (W x00 x00 x00 x00 x00 x00 x00 x00)))
(T (W x00 x00 x00 x00 x00 x00 x00 x00)
(L (W xff xff xff xff xff xff xff xff))
(L (W x00 x00 x00 x00 x00 x00 x00 x00))))))
(T (W x00 x00 x80 x3f x00 x00 x80 x3f)
(T (W x00 x00 x80 x3f x00 x00 x80 x3f)
(T (W x00 x00 x00 x00 x00 x00 x00 x00)
(T (W x00 x00 x80 x3f x00 x00 x80 x3f)
(T (W x45 x26 x22 x84 xe4 x9c xf2 xcb)
(L (W xff xff xff xff xff xff xff xff)) E)
(L (W xff xff xff xff xff xff xff xff)))
(T (W x72 xdf xfc xff x74 x00 x00 x00)
(T (W xff xff xff xff xff xff xff xff)
(L (W x1c x00 x00 x00 x10 x00 x00 x00)) E)
(L (W xff xff xff xff xa0 x00 x00 x00))))
(T (W xff xff xff xff x03 x00 x00 x00)
(T (W xff xff xff xff xff xff xff xff)
(T (W xff xff xff xff xff xff xff xff)
(L (W x18 x00 x00 x00 x10 x00 x00 x00)) E)
(L (W x00 x00 x00 x00 x00 x00 x00 x00)))
(T (W x9a x77 xfe xff x00 x00 x01 x01)
(L (W x45 x26 x22 x84 xe4 x9c xf2 xcb))
(L (W x00 x00 x00 x00 x12 x00 x00 x00)))))
(T (W x00 x00 x00 x00 x00 x00 x00 x00)
(T (W xff xff xff xff xff xff xff xff)
(T (W x00 x00 x80 x3f x00 x00 x80 x3f)
(T (W x38 x00 x00 x00 x10 x00 x00 x00)
(L (W x00 x00 x00 x00 x00 x00 x00 x00)) E)
(L (W xff xff xff xff xff xff xff xff)))
(T (W x4f x84 x6f x8b xe8 xcb x63 xb7)
(T (W x1d x00 x00 x00 x10 x00 x00 x00)
(L (W x00 x00 x60 x00 x00 x00 x00 x00)) E)
(L (W xff xff xff xff xff xff xff xff))))
(T (W x00 x00 x80 x3f x00 x00 x80 x3f)
(T (W x50 x00 x00 x00 x44 x00 x00 x00)
(T (W x45 x44 x00 x00 x00 x00 x00 x00)
(L (W x00 x00 x80 xbf x00 x00 x80 xbf)) E)
(L (W x00 x00 x00 x00 x00 x00 x00 x00)))
(T (W x90 x5b x2e x97 x85 x19 x59 x5f)
(L (W xb0 x00 x00 x00 x64 x00 x00 x00))
(L (W x00 x00 x00 x00 x00 x00 x00 x00)))))))))))))
(T (W x68 x2f x04 x00 xbc x2a x04 x00)
(T (W x28 xd7 x03 x00 x2c xd0 x03 x00)
(T (W x58 x26 x03 x00 xac x21 x03 x00)
(T (W xe0 x38 x02 x00 x9c x36 x02 x00)
(T (W x98 xee x00 x00 x4c xec x00 x00)
(T (W x00 x00 x00 x00 x00 x00 x00 x00)
(T (W x00 x00 x00 x00 x00 x00 x00 x00)
(T (W x00 x00 x00 x00 x00 x00 x00 x00)
(T (W x00 x00 x00 x00 x00 x00 x00 x00)
(T (W xff xff xff xff xff xff xff xff)
(T (W x00 x00 x00 x00 x00 x00 x00 x00)
(T (W xff xff xff xff x03 x00 x00 x00)
(L (W xff xff xff xff xff xff xff xff)) E)
(L (W x00 x00 x80 xbf x00 x00 x80 xbf)))
(T (W x00 x00 x00 x00 x00 x00 x00 x00)
(T (W xff xff xff xff xc8 x00 x00 x00)
(L (W x45 x44 x00 x00 x00 x00 x00 x00)) E)
(L (W xff xff xff xff xff xff xff xff))))
(T (W x00 x00 x80 x3f x00 x00 x80 x3f)
(T (W x00 x00 x00 x00 x00 x00 x00 x00)
(T (W xff xff xff xff xff xff xff xff)
(L (W xff xff xff xff xff xff xff xff)) E)
(L (W x00 x00 x00 x00 x24 x83 xfe xff)))
(T (W xff xff xff xff x02 x00 x00 x00)
(T (W xff xff xff xff xff xff xff xff)
(L (W x2f x00 x00 x00 x32 x00 x00 x00)) E)
(L (W x00 x00 x80 xbf x00 x00 x80 xbf)))))
(T (W x8a x12 xfe xff x00 x00 x01 x01)
(T (W xb8 x00 x00 x00 xac x00 x00 x00)
(T (W x00 x00 x00 x00 x00 x00 x00 x00)
(T (W x45 x26 x22 x84 xe4 x9c xf2 xcb)
(L (W x54 x00 x00 x00 x48 x00 x00 x00)) E)
(L (W x00 x00 x80 xbf x00 x00 x80 xbf)))
(T (W x00 x00 x00 x00 x00 x00 x00 x00)
(T (W x00 x00 x80 xbf x00 x00 x80 xbf)
(L (W x4f x84 x6f x8b xe8 xcb x63 xb7)) E)
(L (W x00 x00 x80 xbf x00 x00 x80 xbf))))
(T (W x00 x00 x80 x3f x00 x00 x80 x3f)
(T (W x00 x00 x00 x00 x24 xa3 xfc xff)
(T (W x00 x00 x80 xbf x00 x00 x80 xbf)
(L (W x45 x26 x22 x84 xe4 x9c xf2 xcb)) E)
(L (W xff xff xff xff xff xff xff xff)))
(T (W xff xff xff xff xac x00 x00 x00)
(L (W x00 x00 x00 x00 x00 x00 x00 x00))
(L (W xff xff xff xff xff xff xff xff))))))
(T (W x00 x00 x00 x00 x00 x00 x00 x00)
(T (W x01 x00 x00 x00 x04 x00 x00 x00)
(T (W xff xff xff xff xff xff xff xff)
(T (W x00 x00 x00 x00 x00 x00 x00 x00)
(T (W x50 x00 x00 x00 x44 x00 x00 x00)
(L (W x4f x84 x6f x8b xe8 xcb x63 xb7)) E)
(L (W x54 x00 x00 x00 x48 x00 x00 x00)))
(T (W xff xff xff xff xbc x00 x00 x00)
(T (W x00 x00 x00 x00 x00 x00 x00 x00)
(L (W x00 x00 x80 xbf x00 x00 x80 xbf)) E)
(L (W x00 x00 x00 x00 x00 x00 x00 x00))))
(T (W x68 x00 x00 x00 x5c x00 x00 x00)
(T (W x45 x26 x22 x84 xe4 x9c xf2 xcb)
(T (W x45 x26 x22 x84 xe4 x9c xf2 xcb)
(L (W x17 x00 x00 x00 x0c x00 x00 x00)) E)
(L (W xff xff xff xff xff xff xff xff)))
(T (W x00 x00 x80 x3f x00 x00 x80 x3f)
(L (W x1d x00 x00 x00 x0c x00 x00 x00))
(L (W x18 x00 x00 x00 x10 x00 x00 x00)))))
(T (W xff xff xff xff xff xff xff xff)
(T (W x45 x26 x22 x84 xe4 x9c xf2 xcb)
(T (W x45 x26 x22 x84 xe4 x9c xf2 xcb)
(T (W x00 x00 x00 x00 x00 x00 x00 x00)
(L (W xff xff xff xff xff xff xff xff)) E)
(L (W x00 x00 x80 xbf x00 x00 x80 xbf)))
(T (W x2f x00 x00 x00 x32 x00 x00 x00)
(T (W xc4 x00 x00 x00 x01 x00 x00 x00)
(L (W x03 x00 x00 x00 xd8 x00 x00 x00)) E)
(L (W x00 x00 x80 xbf x00 x00 x80 xbf))))
(T (W x45 x26 x22 x84 xe4 x9c xf2 xcb)
(T (W x6a x01 x00 x00 xff xff xff xff)
(T (W x00 x00 x80 x3f x00 x00 x80 x3f)
(L (W xff xff xff xff xff xff xff xff)) E)
(L (W xff xff xff xff xff xff xff xff)))
(T (W xff xff xff xff xff xff xff xff)
(L (W x00 x00 x80 xbf x00 x00 x80 xbf))
(L (W xff xff xff xff xff xff xff xff)))))))
(T (W x40 x00 x00 x00 x10 x00 x00 x00)
(T (W x6c x00 x08 x00 x0c x00 x00 x00)
(T (W x1c x90 xfb xff x1e x00 x00 x00)
(T (W xff xff xff xff xff xff xff xff)
(T (W x00 x00 x00 x00 x00 x00 x00 x00)
(T (W x68 x00 x00 x00 x5c x00 x00 x00)
(L (W x00 x00 x00 x00 x04 x00 x00 x00)) E)
(L (W x00 x00 x80 x3f x00 x00 x80 x3f)))
(T (W x00 x00 x80 x3f x00 x00 x80 x3f)
(T (W xff xff xff xff xff xff xff xff)
(L (W x00 x00 x00 x00 x00 x00 x00 x00)) E)
(L (W xff xff xff xff xff xff xff xff))))
(T (W x50 x00 x00 x00 x44 x00 x00 x00)
(T (W x00 x00 x00 x00 x00 x00 x00 x00)
(T (W xff xff xff xff xff xff xff xff)
(L (W xff xff xff xff xff xff xff xff)) E)
(L (W xff xff xff xff xff xff xff xff)))
(T (W x00 x00 x00 x00 x00 x00 x00 x00)
(L (W x7d x00 x00 x00 xff xff xff xff))
(L (W xb4 x0c xff xff x00 x01 x01 x01)))))
(T (W x00 x00 x00 x00 x00 x00 x00 x00)
(T (W xff xff xff xff x04 x00 x00 x00)
(T (W x00 x00 x00 x00 x00 x00 x00 x00)
(T (W x00 x00 x00 x00 x00 x00 x00 x00)
(L (W x45 x26 x22 x84 xe4 x9c xf2 xcb)) E)
(L (W x45 x26 x22 x84 xe4 x9c xf2 xcb)))
(T (W x00 x00 x80 x3f x00 x00 x80 x3f)
(T (W x00 x00 x00 x00 x24 xeb xfd xff)
(L (W x00 x00 x00 x00 x24 xeb xff xff)) E)
(L (W x54 x00 x00 x00 x48 x00 x00 x00))))
(T (W x00 x00 x80 x3f x00 x00 x80 x3f)
(T (W xff xff xff xff xff xff xff xff)
(T (W xff xff xff xff xff xff xff xff)
(L (W xff xff xff xff xac x00 x00 x00)) E)
(L (W x00 x00 x00 x00 x00 x00 x62 x00)))
(T (W xff xff xff xff xff xff xff xff)
(L (W x00 x00 x00 x00 x00 x00 x00 x00))
(L (W xff xff xff xff xff xff xff xff))))))
(T (W x00 x00 x00 x00 x00 x00 x00 x00)
(T (W xff xff xff xff xff xff xff xff)
(T (W xff xff xff xff xff xff xff xff)
(T (W x00 x00 x00 x00 x00 x00 x00 x00)
(T (W x45 x26 x22 x84 xe4 x9c xf2 xcb)
(L (W x00 x00 x80 xbf x00 x00 x80 xbf)) E)
(L (W x00 x00 x80 xbf x00 x00 x80 xbf)))
(T (W x00 x00 x00 x00 x01 x00 x00 x00)
(T (W x00 x00 x00 x00 x00 x00 x00 x00)
(L (W x00 x00 x00 x00 x00 x00 x00 x00)) E)
(L (W x00 x00 x00 x00 x00 x00 x00 x00))))
(T (W xd2 x17 xfc xff x74 x00 x00 x00)
(T (W x8a x99 xfc xff x78 x00 x00 x00)
(T (W x03 x00 x00 x00 xbc x00 x00 x00)
(L (W x00 x00 x00 x00 x00 x00 x00 x00)) E)
(L (W xbc x06 x00 x00 xa8 x05 x00 x00)))
(T (W x00 x00 x80 x3f x00 x00 x80 x3f)
(L (W x4f x84 x6f x8b xe8 xcb x63 xb7))
(L (W xff xff xff xff xff xff xff xff)))))
(T (W xff xff xff xff xff xff xff xff)
(T (W x68 x00 x00 x00 x5c x00 x00 x00)
(T (W xff xff xff xff xff xff xff xff)
(T (W x00 x00 x00 x00 x24 x7b xfd xff)
(L (W xb0 x00 x00 x00 x64 x00 x00 x00)) E)
(L (W x18 x00 x00 x00 x0c x00 x00 x00)))
(T (W xff xff xff xff xff xff xff xff)
(T (W x50 x00 x00 x00 x44 x00 x00 x00)
(L (W x32 xdb xac x28 xbf xd3 x59 x6a)) E)
(L (W x00 x00 x80 xbf x00 x00 x80 xbf))))
(T (W x00 x00 x00 x00 x00 x00 x00 x00)
(T (W x5a x44 xd5 x77 x6f xdc xd8 xa4)
(T (W x18 x00 x00 x00 x0c x00 x00 x00)
(L (W xff xff xff xff xff xff xff xff)) E)
(L (W xff xff xff xff xff xff xff xff)))
(T (W xff xff xff xff xff xff xff xff)
(L (W x00 x01 x01 x01 x0a x49 xfe xff))
(L (W xff xff xff xff xff xff xff xff))))))))
(T (W x40 x00 x00 x00 x9c x00 x00 x00)
(T (W xc4 x00 x00 x00 xb8 x00 x00 x00)
(T (W xff xff xff xff xff xff xff xff)
(T (W x40 x00 x00 x00 x9c x00 x00 x00)
(T (W x00 x00 x80 x3f x00 x00 x80 x3f)
(T (W xff xff xff xff x03 x00 x00 x00)
(T (W x00 x00 x00 x00 x00 x00 x00 x00)
(L (W x00 x00 x80 xbf x00 x00 x80 xbf)) E)
(L (W xff xff xff xff xff xff xff xff)))
(T (W xff xff xff xff xff xff xff xff)
(T (W x00 x00 x00 x00 x00 x00 x00 x00)
(L (W x6c x00 x00 x00 x60 x00 x00 x00)) E)
(L (W x00 x00 x80 xbf x00 x00 x80 xbf))))
(T (W x00 x00 x00 x00 x00 x00 x00 x00)
(T (W x2f x00 x00 x00 x32 x00 x00 x00)
(T (W x00 x00 x00 x00 x00 x00 x00 x00)
(L (W x00 x00 x80 xbf x00 x00 x80 xbf)) E)
(L (W x00 x00 x00 x00 x00 x00 x00 x00)))
(T (W xd2 x03 xfd xff x74 x00 x00 x00)
(L (W x00 x00 x80 xbf x00 x00 x80 xbf))
(L (W xff xff xff xff xff xff xff xff)))))
(T (W x00 x00 x80 x3f x00 x00 x80 x3f)
(T (W x00 x00 x00 x00 x00 x00 x00 x00)
(T (W x00 x00 x80 x3f x00 x00 x80 x3f)
(T (W xff xff xff xff x03 x00 x00 x00)
(L (W x00 x00 x00 x00 x00 x00 x00 x00)) E)
(L (W x00 x00 x00 x00 x00 x00 x00 x00)))
(T (W xff xff xff xff xff xff xff xff)
(T (W x00 x00 x00 x00 x00 x00 x00 x00)
(L (W xff xff xff xff xff xff xff xff)) E)
(L (W xff xff xff xff xff xff xff xff))))
(T (W xff xff xff xff xff xff xff xff)
(T (W x00 x00 x00 x00 x00 x00 x00 x00)
(T (W x00 x00 x00 x00 x00 x00 x00 x00)
(L (W xb4 x00 x00 x00 x28 x00 x00 x00)) E)
(L (W x00 x00 x80 xbf x00 x00 x80 xbf)))
(T (W x00 x00 x00 x00 x00 x00 x00 x00)
(L (W x20 x27 xfe xff x7a x3e xfe xff))
(L (W x49 xa1 x68 x4a xeb x5f xdd x3d))))))
(T (W x00 x00 x00 x00 x24 x77 xfb xff)
(T (W x68 x00 x00 x00 x5c x00 x00 x00)
(T (W x00 x00 x00 x00 x00 x00 x00 x00)
(T (W x18 x00 x00 x00 x0c x00 x00 x00)
(T (W x6a x01 x00 x00 xff xff xff xff)
(L (W xff xff xff xff xff xff xff xff)) E)
(L (W xff xff xff xff xff xff xff xff)))
(T (W x00 x00 x80 x3f x00 x00 x80 x3f)
(T (W xcc x00 x00 x00 x01 x00 x00 x00)
(L (W x18 x00 x00 x00 x0c x00 x00 x00)) E)
(L (W xff xff xff xff xff xff xff xff))))
(T (W xc8 x00 x00 x00 xff xff xff xff)
(T (W x00 x00 x00 x00 xba x94 xfc xff)
(T (W x00 x00 x00 x00 x01 x00 x00 x00)
(L (W xff xff xff xff xc8 x00 x00 x00)) E)
(L (W x00 x00 x80 xbf x00 x00 x80 xbf)))
(T (W x9d x01 x00 x00 xff xff xff xff)
(L (W x45 x26 x22 x84 xe4 x9c xf2 xcb))
(L (W x00 x00 x00 x00 x00 x00 x00 x00)))))
(T (W x68 x00 x00 x00 x5c x00 x00 x00)
(T (W x00 x00 x00 x00 x00 x00 x00 x00)
(T (W x00 x00 x80 x3f x00 x00 x80 x3f)
(T (W x00 x00 x00 x00 x00 x00 x00 x00)
(L (W x00 x00 x00 x00 x00 x00 x00 x00)) E)
(L (W x00 x00 x00 x00 x00 x00 x00 x00)))
(T (W x4f x84 x6f x8b xe8 xcb x63 xb7)
(T (W x00 x00 x00 x00 x00 x00 x00 x00)
(L (W x10 x00 x14 x00 x18 x00 x1c x00)) E)
(L (W xff xff xff xff xff xff xff xff))))
(T (W xff xff xff xff xff xff xff xff)
(T (W x6c x00 x00 x00 x60 x00 x00 x00)
(T (W x8a xb5 xfd xff x78 x00 x00 x00)
(L (W x3c x00 x00 x00 x00 x00 x80 xbf)) E)
(L (W x00 x00 x00 x00 x00 x00 x00 x00)))
(T (W x00 x00 x00 x00 x00 x00 x00 x00)
(L (W x00 x00 x00 x00 x00 x00 x00 x00))
(L (W x00 x00 x80 xbf x00 x00 x80 xbf)))))))
(T (W x18 x00 x00 x00 x10 x00 x00 x00)
(T (W x64 x00 x00 x00 x9c x00 x00 x00)
(T (W x01 x00 x00 x00 x3e x00 x00 x00)
(T (W x45 x26 x22 x84 xe4 x9c xf2 xcb)
(T (W xff xff xff xff xff xff xff xff)
(T (W x00 x00 x00 x00 x00 x00 x00 x00)
(L (W x45 x26 x22 x84 xe4 x9c xf2 xcb)) E)
(L (W xff xff xff xff xff xff xff xff)))
(T (W x00 x00 x00 x00 x00 x00 x00 x00)
(T (W x54 x00 x00 x00 x48 x00 x00 x00)
(L (W xff xff xff xff xa0 x00 x00 x00)) E)
(L (W x6c x00 x00 x00 x60 x00 x00 x00))))
(T (W x32 x99 x1b xf2 x1e x1f x49 x87)
(T (W xff xff xff xff xff xff xff xff)
(T (W x45 x26 x22 x84 xe4 x9c xf2 xcb)
(L (W x00 x00 x80 xbf x00 x00 x80 xbf)) E)
(L (W x45 x26 x22 x84 xe4 x9c xf2 xcb)))
(T (W xff xff xff xff xff xff xff xff)
(L (W x00 x00 x80 xbf x00 x00 x80 xbf))
(L (W x00 x00 x00 x00 x82 x0e xff xff)))))
(T (W x00 x00 x80 x3f x00 x00 x80 x3f)
(T (W x00 x00 x00 x00 x00 x00 x00 x00)
(T (W x00 x00 x00 x00 x24 x6f xfc xff)
(T (W x68 x00 x00 x00 x5c x00 x00 x00)
(L (W x4f x84 x6f x8b xe8 xcb x63 xb7)) E)
(L (W xff xff xff xff xff xff xff xff)))
(T (W x00 x00 x00 x00 x00 x00 x00 x00)
(T (W x45 x44 x00 x00 x00 x00 x00 x00)
(L (W x4f x84 x6f x8b xe8 xcb x63 xb7)) E)
(L (W xff xff xff xff xff xff xff xff))))
(T (W xff xff xff xff xff xff xff xff)
(T (W x45 x26 x22 x84 xe4 x9c xf2 xcb)
(T (W x45 x26 x22 x84 xe4 x9c xf2 xcb)
(L (W x54 x00 x00 x00 x48 x00 x00 x00)) E)
(L (W x00 x00 x00 x00 x00 x00 x00 x00)))
(T (W x00 x00 x80 x3f x00 x00 x80 x3f)
(L (W xff xff xff xff xff xff xff xff))
(L (W x00 x00 x80 xbf x00 x00 x80 xbf))))))
(T (W x18 x00 x00 x00 x0c x00 x00 x00)
(T (W x8a x9d xfb xff x78 x00 x00 x00)
(T (W x00 x00 x00 x00 x00 x00 x00 x00)
(T (W xd2 x5b xfc xff x74 x00 x00 x00)
(T (W xff xff xff xff xff xff xff xff)
(L (W x45 x44 x00 x00 x00 x00 x00 x00)) E)
(L (W x06 x00 x00 x00 x98 x05 x00 x00)))
(T (W x45 x26 x22 x84 xe4 x9c xf2 xcb)
(T (W xff xff xff xff xff xff xff xff)
(L (W x18 x00 x00 x00 x10 x00 x00 x00)) E)
(L (W xff xff xff xff xff xff xff xff))))
(T (W xff xff xff xff xff xff xff xff)
(T (W x29 x00 x00 x00 x0c x00 x00 x00)
(T (W xff xff xff xff xff xff xff xff)
(L (W xc4 x00 x00 x00 x01 x00 x00 x00)) E)
(L (W x3c x00 x00 x00 x00 x00 x80 xbf)))
(T (W x00 x00 x00 x00 x00 x00 x00 x00)
(L (W xff xff xff xff xb0 x00 x00 x00))
(L (W x00 x00 x00 x00 x00 x00 x00 x00)))))
(T (W x00 x00 x80 x3f x00 x00 x80 x3f)
(T (W x00 x00 x00 x00 x00 x00 x00 x00)
(T (W x54 x00 x00 x00 x48 x00 x00 x00)
(T (W x00 x00 x00 x00 x00 x00 x00 x00)
(L (W x4f x84 x6f x8b xe8 xcb x63 xb7)) E)
(L (W x00 x00 x00 x00 x00 x00 x00 x00)))
(T (W x00 x00 x80 x3f x00 x00 x80 x3f)
(T (W x5f x4e x53 x5f x30 x35 x5f x43)
(L (W x00 x00 x00 x00 x00 x00 x00 x00)) E)
(L (W xff xff xff xff xff xff xff xff))))
(T (W xff xff xff xff xff xff xff xff)
(T (W x00 x00 x00 x00 x24 xbf xfc xff)
(T (W x00 x00 x00 x00 x00 x00 x00 x00)
(L (W x00 x00 x80 xbf x00 x00 x80 xbf)) E)
(L (W x4f x84 x6f x8b xe8 xcb x63 xb7)))
(T (W x45 x26 x22 x84 xe4 x9c xf2 xcb)
(L (W x2c x02 x00 x00 x28 x01 x00 x00))
(L (W x00 x00 x80 xbf x00 x00 x80 xbf)))))))))
(T (W xff xff xff xff xff xff xff xff)
(T (W x00 x00 x80 x3f x00 x00 x80 x3f)
(T (W x00 x00 x80 x3f x00 x00 x80 x3f)
(T (W x00 x00 x80 x3f x00 x00 x80 x3f)
(T (W x00 x00 x80 x3f x00 x00 x80 x3f)
(T (W x1c xca xfb xff x27 x00 x00 x00)
(T (W x00 x00 x80 x3f x00 x00 x80 x3f)
(T (W xbc x01 x00 x00 xff xff xff xff)
(L (W x00 x00 x00 x00 x00 x00 x00 x00)) E)
(L (W xff xff xff xff xb8 x00 x00 x00)))
(T (W x50 x00 x00 x00 x44 x00 x00 x00)
(T (W x00 x00 x00 x00 xba xc2 xfd xff)
(L (W x4f x84 x6f x8b xe8 xcb x63 xb7)) E)
(L (W x00 x00 x00 x00 x00 x00 x00 x00))))
(T (W xff xff xff xff xff xff xff xff)
(T (W x45 x26 x22 x84 xe4 x9c xf2 xcb)
(T (W x8a xf4 xff xff x00 x00 x01 x01)
(L (W x1c x8a xff xff x18 x00 x00 x00)) E)
(L (W x00 x00 x00 x00 xba x82 xfe xff)))
(T (W x00 x00 x80 x3f x00 x00 x80 x3f)
(L (W x1d x00 x00 x00 x0c x00 x00 x00))
(L (W x18 x00 x00 x00 x10 x00 x00 x00)))))
(T (W x00 x00 x00 x00 x00 x00 x00 x00)
(T (W x00 x00 x00 x00 x00 x00 x00 x00)
(T (W x00 x00 x80 x3f x00 x00 x80 x3f)
(T (W x50 x00 x00 x00 x44 x00 x00 x00)
(L (W xff xff xff xff xff xff xff xff)) E)
(L (W x18 x00 x00 x00 x10 x00 x00 x00)))
(T (W x18 x00 x00 x00 x10 x00 x00 x00)
(T (W xff xff xff xff xff xff xff xff)
(L (W xff xff xff xff xff xff xff xff)) E)
(L (W x00 x00 x00 x00 x24 xe5 xfe xff))))
(T (W x0a x00 x00 x00 x3e x00 x00 x00)
(T (W x6a x01 x00 x00 xff xff xff xff)
(T (W xff xff xff xff xff xff xff xff)
(L (W x54 x00 x00 x00 x48 x00 x00 x00)) E)
(L (W x00 x00 x00 x00 x00 x00 x00 x00)))
(T (W x00 x00 x01 x01 xbe x00 x00 x00)
(L (W x00 x00 x80 xbf x00 x00 x80 xbf))
(L (W x45 x44 x00 x00 x00 x00 x00 x00))))))
(T (W x50 x00 x00 x00 x44 x00 x00 x00)
(T (W x45 x26 x22 x84 xe4 x9c xf2 xcb)
(T (W xff xff xff xff xff xff xff xff)
(T (W x45 x26 x22 x84 xe4 x9c xf2 xcb)
(T (W xff xff xff xff x03 x00 x00 x00)
(L (W xb4 x56 xff xff x00 x01 x01 x01)) E)
(L (W x14 x00 x00 x00 x0c x00 x00 x00)))
(T (W x27 x00 x00 x00 x10 x00 x00 x00)
(T (W x00 x00 x80 xbf x00 x00 x80 xbf)
(L (W x54 x00 x00 x00 x48 x00 x00 x00)) E)
(L (W x00 x00 x80 xbf x00 x00 x80 xbf))))
(T (W x45 x26 x22 x84 xe4 x9c xf2 xcb)
(T (W x45 x26 x22 x84 xe4 x9c xf2 xcb)
(T (W x46 x4d x41 x50 x5f x43 x41 x4e)
(L (W x54 x00 x00 x00 x48 x00 x00 x00)) E)
(L (W x46 x53 x59 x53 x5f x4e x53 x5f)))
(T (W x45 x26 x22 x84 xe4 x9c xf2 xcb)
(L (W x45 x26 x22 x84 xe4 x9c xf2 xcb))
(L (W x00 x00 x00 x00 x00 x00 x00 x00)))))
(T (W x00 x00 x00 x00 x00 x00 x00 x00)
(T (W xff xff xff xff xff xff xff xff)
(T (W x1c x7a xfc xff x21 x00 x00 x00)
(T (W x18 x00 x00 x00 x0c x00 x00 x00)
(L (W x00 x00 x00 x00 x00 x00 x00 x00)) E)
(L (W xff xff xff xff xff xff xff xff)))
(T (W xff xff xff xff xff xff xff xff)
(T (W xff xff xff xff xff xff xff xff)
(L (W x00 x00 x10 x00 x14 x00 x18 x00)) E)
(L (W xff xff xff xff xff xff xff xff))))
(T (W xd2 x31 xfc xff x74 x00 x00 x00)
(T (W x00 x00 x00 x00 x00 x00 x00 x00)
(T (W xd4 x02 x00 x00 x80 x01 x00 x00)
(L (W x49 xa1 x68 x4a xeb x5f xdd x3d)) E)
(L (W x00 x00 x00 x00 x1a xbd xfe xff)))
(T (W x36 x00 x00 x00 x0c x00 x00 x00)
(L (W xff xff xff xff xbc x00 x00 x00))
(L (W x00 x00 x00 x00 x00 x00 x00 x00)))))))
(T (W x00 x00 x80 x3f x00 x00 x80 x3f)
(T (W x00 x00 x80 x3f x00 x00 x80 x3f)
(T (W x00 x00 x80 x3f x00 x00 x80 x3f)
(T (W x01 x00 x00 x00 x04 x00 x00 x00)
(T (W x00 x00 x80 x3f x00 x00 x80 x3f)
(T (W xff xff xff xff xff xff xff xff)
(L (W x00 x00 x80 xbf x00 x00 x80 xbf)) E)
(L (W xff xff xff xff xb0 x00 x00 x00)))
(T (W xff xff xff xff xff xff xff xff)
(T (W x67 x72 x6f x75 x70 x5f x77 x69)
(L (W x00 x00 x80 xbf x00 x00 x80 xbf)) E)
(L (W x4f x84 x6f x8b xe8 xcb x63 xb7))))
(T (W xb8 x00 x00 x00 xac x00 x00 x00)
(T (W x54 x00 x00 x00 x48 x00 x00 x00)
(T (W x00 x00 x00 x00 x00 x00 x00 x00)
(L (W x00 x00 x00 x00 x00 x00 x00 x00)) E)
(L (W x00 x00 x00 x00 x00 x00 x00 x00)))
(T (W x00 x00 x80 x3f x00 x00 x80 x3f)
(L (W x00 x00 x00 x00 x00 x00 x00 x00))
(L (W xff xff xff xff xff xff xff xff)))))
(T (W x00 x00 x00 x00 x00 x00 x00 x00)
(T (W x20 x01 x00 x00 x04 x00 x00 x00)
(T (W x00 x00 x00 x00 x00 x00 x00 x00)
(T (W x45 x26 x22 x84 xe4 x9c xf2 xcb)
(L (W xff xff xff xff xff xff xff xff)) E)
(L (W xff xff xff xff xff xff xff xff)))
(T (W xff xff xff xff xff xff xff xff)
(T (W xff xff xff xff xff xff xff xff)
(L (W xff xff xff xff xff xff xff xff)) E)
(L (W x03 x00 x00 x00 xd0 x00 x00 x00))))
(T (W xc0 x00 x00 x00 xb4 x00 x00 x00)
(T (W x00 x00 x00 x00 x00 x00 x00 x00)
(T (W x00 x00 x00 x00 x00 x00 x00 x00)
(L (W x00 x00 x00 x00 x00 x00 x00 x00)) E)
(L (W xff xff xff xff xff xff xff xff)))
(T (W x00 x00 x00 x00 x00 x00 x00 x00)
(L (W x45 x26 x22 x84 xe4 x9c xf2 xcb))
(L (W x00 x00 x00 x00 x00 x00 x00 x00))))))
(T (W x68 x00 x00 x00 x5c x00 x00 x00)
(T (W x00 x00 x00 x00 x00 x00 x00 x00)
(T (W x8a x4c xfe xff x00 x00 x01 x01)
(T (W x00 x00 x80 x3f x00 x00 x80 x3f)
(T (W x68 x00 x00 x00 x5c x00 x00 x00)
(L (W xff xff xff xff x9c x00 x00 x00)) E)
(L (W x03 x00 x00 x00 xd0 x00 x00 x00)))
(T (W x45 x26 x22 x84 xe4 x9c xf2 xcb)
(T (W x00 x00 x80 xbf x00 x00 x80 xbf)
(L (W x00 x00 x80 xbf x00 x00 x80 xbf)) E)
(L (W x18 x00 x00 x00 x0c x00 x00 x00))))
(T (W x01 x00 x00 x00 x9c x00 x00 x00)
(T (W xff xff xff xff xff xff xff xff)
(T (W x1c xa2 xfd xff x41 x00 x00 x00)
(L (W x00 x00 x80 xbf x00 x00 x80 xbf)) E)
(L (W x45 x26 x22 x84 xe4 x9c xf2 xcb)))
(T (W xff xff xff xff xff xff xff xff)
(L (W x00 x00 x80 xbf x00 x00 x80 xbf))
(L (W x00 x00 x00 x00 x00 x00 x00 x00)))))
(T (W x00 x00 x00 x00 x00 x00 x00 x00)
(T (W xff xff xff xff xff xff xff xff)
(T (W x00 x00 x00 x00 x00 x00 x00 x00)
(T (W xff xff xff xff xff xff xff xff)
(L (W x45 x44 x00 x00 x00 x00 x00 x00)) E)
(L (W xff xff xff xff xff xff xff xff)))
(T (W x00 x00 x00 x00 x00 x00 x00 x00)
(T (W xff xff xff xff xff xff xff xff)
(L (W x00 x00 x80 xbf x00 x00 x80 xbf)) E)
(L (W xbc x00 x00 x00 x01 x00 x00 x00))))
(T (W xb4 x3e xfc xff x00 x01 x01 x01)
(T (W x45 x26 x22 x84 xe4 x9c xf2 xcb)
(T (W x61 x72 x6c x69 x6b x65 x5f x6c)
(L (W x00 x00 x00 x00 x00 x00 x00 x00)) E)
(L (W x45 x44 x00 x00 x00 x00 x00 x00)))
(T (W x00 x00 x00 x00 x00 x00 x00 x00)
(L (W x2d x00 x00 x00 x30 x00 x00 x00))
(L (W x00 x00 x00 x00 x00 x00 x00 x00))))))))
(T (W xff xff xff xff xff xff xff xff)
(T (W xff xff xff xff xff xff xff xff)
(T (W x45 x26 x22 x84 xe4 x9c xf2 xcb)
(T (W xff xff xff xff xff xff xff xff)
(T (W x01 x00 x00 x00 x3e x00 x00 x00)
(T (W x00 x00 x00 x00 x00 x00 x00 x00)
(T (W x45 x26 x22 x84 xe4 x9c xf2 xcb)
(L (W x03 x00 x00 x00 xd0 x00 x00 x00)) E)
(L (W x00 x00 x00 x00 x00 x00 x00 x00)))
(T (W x00 x00 x00 x00 x00 x00 x00 x00)
(T (W x00 x00 x80 x3f x00 x00 x80 x3f)
(L (W xff xff xff xff xff xff xff xff)) E)
(L (W xff xff xff xff xa0 x00 x00 x00))))
(T (W x00 x00 x80 x3f x00 x00 x80 x3f)
(T (W xff xff xff xff xff xff xff xff)
(T (W x68 x00 x00 x00 x5c x00 x00 x00)
(L (W x18 x00 x00 x00 x10 x00 x00 x00)) E)
(L (W x00 x00 x80 xbf x00 x00 x80 xbf)))
(T (W xff xff xff xff xff xff xff xff)
(L (W x00 x00 x00 x00 x24 x09 xfe xff))
(L (W x00 x00 x00 x00 x00 x00 x00 x00)))))
(T (W xb8 x00 x00 x00 xac x00 x00 x00)
(T (W x00 x00 x80 x3f x00 x00 x80 x3f)
(T (W xff xff xff xff xff xff xff xff)
(T (W x18 x01 x00 x00 xff xff xff xff)
(L (W x00 x00 x80 xbf x00 x00 x80 xbf)) E)
(L (W x00 x00 x00 x00 x00 x00 x00 x00)))
(T (W x00 x00 x00 x00 x00 x00 x00 x00)
(T (W x00 x00 x80 xbf x00 x00 x80 xbf)
(L (W x45 x26 x22 x84 xe4 x9c xf2 xcb)) E)
(L (W x46 x53 x59 x53 x5f x4e x53 x5f))))
(T (W x00 x00 x00 x00 x00 x00 x00 x00)
(T (W x00 x00 x80 x3f x00 x00 x80 x3f)
(T (W xc8 x00 x00 x00 x01 x00 x00 x00)
(L (W xff xff xff xff xff xff xff xff)) E)
(L (W xff xff xff xff xff xff xff xff)))
(T (W x18 x00 x00 x00 x10 x00 x00 x00)
(L (W xff xff xff xff xff xff xff xff))
(L (W x6c x00 x00 x00 x60 x00 x00 x00))))))
(T (W xff xff xff xff xff xff xff xff)
(T (W xff xff xff xff xff xff xff xff)
(T (W x8a xd7 xfb xff x78 x00 x00 x00)
(T (W xff xff xff xff xff xff xff xff)
(T (W x00 x00 x00 x00 x00 x00 x00 x00)
(L (W x00 x00 x00 x00 x00 x00 x00 x00)) E)
(L (W x46 x53 x59 x53 x5f x4e x53 x5f)))
(T (W xff xff xff xff x9c x00 x00 x00)
(T (W xff xff xff xff xff xff xff xff)
(L (W xff xff xff xff xff xff xff xff)) E)
(L (W x00 x00 x00 x00 x92 xdf xfe xff))))
(T (W x00 x00 x00 x00 x00 x00 x00 x00)
(T (W x00 x00 x00 x00 x00 x00 x00 x00)
(T (W x00 x00 x80 xbf x00 x00 x80 xbf)
(L (W x00 x00 x00 x00 xba x96 xff xff)) E)
(L (W xc4 x00 x00 x00 x02 x00 x00 x00)))
(T (W x00 x00 x00 x00 x00 x00 x00 x00)
(L (W xff xff xff xff xff xff xff xff))
(L (W x00 x00 x80 xbf x00 x00 x80 xbf)))))
(T (W x18 x00 x00 x00 x0c x00 x00 x00)
(T (W x00 x00 x80 x3f x00 x00 x80 x3f)
(T (W xb4 x00 x00 x00 x14 x00 x00 x00)
(T (W x00 x00 x80 x3f x00 x00 x80 x3f)
(L (W x6c x00 x00 x00 x60 x00 x00 x00)) E)
(L (W x49 xa1 x68 x4a xeb x5f xdd x3d)))
(T (W x50 x00 x00 x00 x44 x00 x00 x00)
(T (W x45 x26 x22 x84 xe4 x9c xf2 xcb)
(L (W x00 x00 x80 xbf x00 x00 x80 xbf)) E)
(L (W x00 x00 x00 x00 x00 x00 x00 x00))))
(T (W x1a xa7 xfe xff x5d x00 x00 x00)
(T (W xff xff xff xff xff xff xff xff)
(T (W x61 x64 x65 x72 x5f x77 x69 x6c)
(L (W x45 x26 x22 x84 xe4 x9c xf2 xcb)) E)
(L (W x00 x00 x80 xbf x00 x00 x80 xbf)))
(T (W x50 x00 x00 x00 x44 x00 x00 x00)
(L (W x00 x00 x80 xbf x00 x00 x80 xbf))
(L (W x00 x01 x01 x01 x12 x42 xff xff)))))))
(T (W x3b x02 x00 x00 xff xff xff xff)
(T (W x00 x00 x00 x00 x02 x00 x00 x00)
(T (W xff xff xff xff xff xff xff xff)
(T (W x68 x00 x00 x00 x5c x00 x00 x00)
(T (W x48 x03 x00 x00 x34 x02 x00 x00)
(T (W x45 x26 x22 x84 xe4 x9c xf2 xcb)
(L (W xc8 x02 x00 x00 xff xff xff xff)) E)
(L (W x00 x00 x00 x00 x00 x00 x00 x00)))
(T (W x00 x00 x80 x3f x00 x00 x80 x3f)
(T (W xb0 x00 x00 x00 x64 x00 x00 x00)
(L (W xff xff xff xff xff xff xff xff)) E)
(L (W xff xff xff xff xff xff xff xff))))
(T (W x00 x00 x00 x00 x00 x00 x00 x00)
(T (W x00 x00 x00 x00 x00 x00 x00 x00)
(T (W xff xff xff xff xff xff xff xff)
(L (W xff xff xff xff xff xff xff xff)) E)
(L (W x68 x00 x00 x00 x5c x00 x00 x00)))
(T (W x00 x00 x00 x00 x00 x00 x00 x00)
(L (W xff xff xff xff xff xff xff xff))
(L (W x45 x26 x22 x84 xe4 x9c xf2 xcb)))))
(T (W x00 x00 x00 x00 x24 xb1 xfb xff)
(T (W x45 x26 x22 x84 xe4 x9c xf2 xcb)
(T (W x64 x00 x00 x00 x9c x00 x00 x00)
(T (W xff xff xff xff xff xff xff xff)
(L (W x54 x00 x00 x00 x48 x00 x00 x00)) E)
(L (W x00 x00 x00 x00 x00 x00 x00 x00)))
(T (W x45 x26 x22 x84 xe4 x9c xf2 xcb)
(T (W x54 x00 x00 x00 x48 x00 x00 x00)
(L (W x00 x00 x80 xbf x00 x00 x80 xbf)) E)
(L (W x00 x00 x00 x00 x00 x00 x00 x00))))
(T (W x7f x28 x34 x29 x3e x50 x68 xfc)
(T (W x00 x00 x00 x00 x24 xb1 xfc xff)
(T (W x00 x00 x00 x00 x00 x00 x00 x00)
(L (W xb4 x00 x00 x00 x14 x00 x00 x00)) E)
(L (W x45 x26 x22 x84 xe4 x9c xf2 xcb)))
(T (W x45 x26 x22 x84 xe4 x9c xf2 xcb)
(L (W x00 x00 x00 x00 x00 x00 x00 x00))
(L (W x18 x00 x00 x00 x10 x00 x00 x00))))))
(T (W xff xff xff xff xff xff xff xff)
(T (W xff xff xff xff xff xff xff xff)
(T (W x00 x00 x80 x3f x00 x00 x80 x3f)
(T (W xff xff xff xff xff xff xff xff)
(T (W x00 x00 x00 x00 x00 x00 x00 x00)
(L (W x4f x84 x6f x8b xe8 xcb x63 xb7)) E)
(L (W x45 x26 x22 x84 xe4 x9c xf2 xcb)))
(T (W xcb x01 x00 x00 xff xff xff xff)
(T (W x00 x00 x00 x00 x12 x00 x00 x00)
(L (W xc8 x02 x00 x00 xff xff xff xff)) E)
(L (W x00 x00 x00 x00 x00 x00 x00 x00))))
(T (W x00 x00 x00 x00 x00 x00 x00 x00)
(T (W x00 x00 x80 x3f x00 x00 x80 x3f)
(T (W x00 x00 x00 x00 x00 x00 x00 x00)
(L (W xc4 x06 x00 x00 xb0 x05 x00 x00)) E)
(L (W x31 x00 x00 x00 x34 x00 x00 x00)))
(T (W x00 x00 x80 x3f x00 x00 x80 x3f)
(L (W x3c x02 x00 x00 x30 x01 x00 x00))
(L (W x00 x00 x80 xbf x00 x00 x80 xbf)))))
(T (W x40 x00 x00 x00 x9c x00 x00 x00)
(T (W x00 x00 x80 x3f x00 x00 x80 x3f)
(T (W xff xff xff xff xff xff xff xff)
(T (W x68 x00 x00 x00 x5c x00 x00 x00)
(L (W x45 x26 x22 x84 xe4 x9c xf2 xcb)) E)
(L (W x00 x00 x80 xbf x00 x00 x80 xbf)))
(T (W xff xff xff xff xc4 x00 x00 x00)
(T (W x00 x00 x80 xbf x00 x00 x80 xbf)
(L (W xff xff xff xff xff xff xff xff)) E)
(L (W x1c x06 xff xff x21 x00 x00 x00))))
(T (W x00 x00 x00 x00 x00 x00 x00 x00)
(T (W xff xff xff xff xff xff xff xff)
(T (W x54 x00 x00 x00 x48 x00 x00 x00)
(L (W xff xff xff xff xff xff xff xff)) E)
(L (W x6c x00 x00 x00 x60 x00 x00 x00)))
(T (W x50 x00 x00 x00 x44 x00 x00 x00)
(L (W x00 x00 x00 x00 x00 x00 x00 x00))
(L (W xff xff xff xff xa0 x00 x00 x00))))))))))
(T (W xf8 x8e x01 x00 xc4 x8d x01 x00)
(T (W x48 x5e x00 x00 x14 x5d x00 x00)
(T (W x45 x26 x22 x84 xe4 x9c xf2 xcb)
(T (W x00 x00 x00 x00 x00 x00 x00 x00)
(T (W x00 x00 x00 x00 x00 x00 x00 x00)
(T (W x45 x26 x22 x84 xe4 x9c xf2 xcb)
(T (W xff xff xff xff xff xff xff xff)
(T (W x45 x26 x22 x84 xe4 x9c xf2 xcb)
(T (W xff xff xff xff xff xff xff xff)
(L (W x1c x49 xff xff x21 x00 x00 x00)) E)
(L (W x1c x00 x00 x00 x10 x00 x00 x00)))
(T (W x00 x00 x80 x3f x00 x00 x80 x3f)
(T (W xff xff xff xff xff xff xff xff)
(L (W x00 x00 x00 x00 x00 x00 x00 x00)) E)
(L (W x30 x35 x5f x43 x4c x45 x41 x52))))
(T (W x45 x26 x22 x84 xe4 x9c xf2 xcb)
(T (W x00 x00 x00 x00 x00 x00 x00 x00)
(T (W xff xff xff xff xff xff xff xff)
(L (W xff xff xff xff xff xff xff xff)) E)
(L (W xff xff xff xff xff xff xff xff)))
(T (W x00 x00 x00 x00 x00 x00 x00 x00)
(L (W xff xff xff xff xff xff xff xff))
(L (W x6c x00 x00 x00 x60 x00 x00 x00)))))
(T (W x00 x00 x00 x00 x00 x00 x00 x00)
(T (W xff xff xff xff xff xff xff xff)
(T (W x00 x00 x80 x3f x00 x00 x80 x3f)
(T (W x45 x26 x22 x84 xe4 x9c xf2 xcb)
(L (W x18 x00 x00 x00 x10 x00 x00 x00)) E)
(L (W x54 x00 x00 x00 x48 x00 x00 x00)))
(T (W x50 x00 x00 x00 x44 x00 x00 x00)
(T (W xd2 xe0 xfd xff x74 x00 x00 x00)
(L (W xff xff xff xff xb0 x00 x00 x00)) E)
(L (W x00 x00 x80 xbf x00 x00 x80 xbf))))
(T (W x18 x00 x00 x00 x0c x00 x00 x00)
(T (W xff xff xff xff xff xff xff xff)
(T (W x18 x00 x00 x00 x0c x00 x00 x00)
(L (W x00 x00 x80 xbf x00 x00 x80 xbf)) E)
(L (W x04 x00 x00 x00 x80 x03 x00 x00)))
(T (W xff xff xff xff xff xff xff xff)
(L (W x4f x84 x6f x8b xe8 xcb x63 xb7))
(L (W xff xff xff xff xff xff xff xff))))))
(T (W x00 x00 x80 x3f x00 x00 x80 x3f)
(T (W x00 x00 x00 x00 x00 x00 x00 x00)
(T (W xff xff xff xff xff xff xff xff)
(T (W x45 x26 x22 x84 xe4 x9c xf2 xcb)
(T (W x68 x00 x00 x00 x5c x00 x00 x00)
(L (W x00 x00 x80 xbf x00 x00 x80 xbf)) E)
(L (W x00 x01 x01 x01 x0a x62 xfe xff)))
(T (W xff xff xff xff xff xff xff xff)
(T (W x00 x00 x00 x00 x00 x00 x00 x00)
(L (W x00 x00 x80 xbf x00 x00 x80 xbf)) E)
(L (W x00 x00 x00 x00 x00 x00 x00 x00))))
(T (W xb4 x15 xfc xff x00 x01 x01 x01)
(T (W x54 x00 x00 x00 x48 x00 x00 x00)
(T (W xff xff xff xff xff xff xff xff)
(L (W x00 x00 x80 xbf x00 x00 x80 xbf)) E)
(L (W x00 x00 x00 x00 x1a x9c xfe xff)))
(T (W x68 x00 x00 x00 x5c x00 x00 x00)
(L (W x00 x00 x00 x00 x00 x00 x00 x00))
(L (W xff xff xff xff xff xff xff xff)))))
(T (W x4c xbc xfb xff x3e x00 x00 x00)
(T (W xff xff xff xff xff xff xff xff)
(T (W xff xff xff xff xff xff xff xff)
(T (W x00 x00 x00 x00 x00 x00 x00 x00)
(L (W x5d x00 x00 x00 xff xff xff xff)) E)
(L (W xff xff xff xff xb0 x00 x00 x00)))
(T (W xff xff xff xff xff xff xff xff)
(T (W xff xff xff xff xff xff xff xff)
(L (W xff xff xff xff xff xff xff xff)) E)
(L (W xbc x00 x00 x00 x01 x00 x00 x00))))
(T (W x54 x00 x00 x00 x48 x00 x00 x00)
(T (W x00 x00 x00 x00 x00 x00 x00 x00)
(T (W x68 x00 x00 x00 x5c x00 x00 x00)
(L (W x00 x00 x00 x00 x00 x00 x00 x00)) E)
(L (W xff xff xff xff xff xff xff xff)))
(T (W xff xff xff xff xff xff xff xff)
(L (W x45 x26 x22 x84 xe4 x9c xf2 xcb))
(L (W x1b x00 x00 x00 x0c x00 x00 x00)))))))
(T (W x00 x00 x00 x00 x00 x00 x00 x00)
(T (W x00 x00 x80 x3f x00 x00 x80 x3f)
(T (W x00 x00 x00 x00 x00 x00 x00 x00)
(T (W xff xff xff xff xff xff xff xff)
(T (W x00 x00 x00 x00 x00 x00 x00 x00)
(T (W xff xff xff xff x03 x00 x00 x00)
(L (W x00 x00 x00 x00 x00 x00 x00 x00)) E)
(L (W x00 x00 x00 x00 x24 x4c xfe xff)))
(T (W x45 x26 x22 x84 xe4 x9c xf2 xcb)
(T (W x19 x00 x00 x00 xff xff xff xff)
(L (W x49 xa1 x68 x4a xeb x5f xdd x3d)) E)
(L (W x1c xd1 xfe xff x21 x00 x00 x00))))
(T (W x68 x00 x00 x00 x5c x00 x00 x00)
(T (W x45 x26 x22 x84 xe4 x9c xf2 xcb)
(T (W x5c x00 x00 x00 xff xff xff xff)
(L (W x20 x00 x00 x00 x0c x00 x00 x00)) E)
(L (W xaa x01 x00 x00 xff xff xff xff)))
(T (W x4f x84 x6f x8b xe8 xcb x63 xb7)
(L (W x00 x00 x00 x00 x00 x00 x00 x00))
(L (W xbc x00 x00 x00 x64 x00 x00 x00)))))
(T (W x00 x00 x00 x00 x00 x00 x00 x00)
(T (W xff xff xff xff xff xff xff xff)
(T (W x50 x00 x00 x00 x44 x00 x00 x00)
(T (W x45 x26 x22 x84 xe4 x9c xf2 xcb)
(L (W xff xff xff xff xff xff xff xff)) E)
(L (W xac x00 x00 x00 x64 x00 x00 x00)))
(T (W xd2 xe8 xfc xff x74 x00 x00 x00)
(T (W x2f x00 x00 x00 x32 x00 x00 x00)
(L (W xff xff xff xff xff xff xff xff)) E)
(L (W x18 x00 x00 x00 x10 x00 x00 x00))))
(T (W x00 x00 x80 x3f x00 x00 x80 x3f)
(T (W x6a x01 x00 x00 xff xff xff xff)
(T (W x30 x34 x5f x43 x4c x45 x41 x52)
(L (W x50 x00 x00 x00 x54 x00 x58 x00)) E)
(L (W x00 x00 x80 x3f x00 x00 x80 x3f)))
(T (W x02 x00 x00 x00 x20 x01 x00 x00)
(L (W x00 x00 x80 xbf x00 x00 x80 xbf))
(L (W x45 x44 x00 x00 x00 x00 x00 x00))))))
(T (W x45 x26 x22 x84 xe4 x9c xf2 xcb)
(T (W x1c xa1 xfb xff x3e x00 x00 x00)
(T (W xff xff xff xff xff xff xff xff)
(T (W x45 x26 x22 x84 xe4 x9c xf2 xcb)
(T (W x50 x00 x00 x00 x44 x00 x00 x00)
(L (W x6c x00 x00 x00 x60 x00 x00 x00)) E)
(L (W x68 x00 x00 x00 x5c x00 x00 x00)))
(T (W x00 x00 x00 x00 x00 x00 x00 x00)
(T (W x00 x00 x80 xbf x00 x00 x80 xbf)
(L (W x00 x00 x00 x00 x00 x00 x00 x00)) E)
(L (W x00 x00 x80 xbf x00 x00 x80 xbf))))
(T (W x45 x26 x22 x84 xe4 x9c xf2 xcb)
(T (W x31 x00 x00 x00 x34 x00 x00 x00)
(T (W xff xff xff xff xff xff xff xff)
(L (W x00 x00 x80 xbf x00 x00 x80 xbf)) E)
(L (W x00 x00 x00 x00 x00 x00 x00 x00)))
(T (W xc8 x00 x00 x00 x01 x00 x00 x00)
(L (W x00 x00 x80 xbf x00 x00 x80 xbf))
(L (W x00 x00 x00 x00 xfa x1c xff xff)))))
(T (W x01 x00 x00 x00 x04 x00 x00 x00)
(T (W xb8 x00 x00 x00 xac x00 x00 x00)
(T (W x00 x00 x00 x00 x00 x00 x00 x00)
(T (W xff xff xff xff xff xff xff xff)
(L (W xff xff xff xff xff xff xff xff)) E)
(L (W xff xff xff xff xff xff xff xff)))
(T (W x00 x00 x00 x00 x00 x00 x00 x00)
(T (W xff xff xff xff xff xff xff xff)
(L (W x00 x00 x00 x00 x00 x00 x00 x00)) E)
(L (W x00 x00 x80 xbf x00 x00 x80 xbf))))
(T (W x00 x00 x80 x3f x00 x00 x80 x3f)
(T (W x00 x00 x00 x00 x00 x00 x00 x00)
(T (W xff xff xff xff xff xff xff xff)
(L (W x30 x35 x5f x43 x4c x45 x41 x52)) E)
(L (W xff xff xff xff xff xff xff xff)))
(T (W xcc x01 x00 x00 xff xff xff xff)
(L (W x14 x00 x00 x00 x0c x00 x00 x00))
(L (W x30 x35 x5f x43 x4c x45 x41 x52))))))))
(T (W xff xff xff xff x03 x00 x00 x00)
(T (W xff xff xff xff xff xff xff xff)
(T (W x34 x00 x38 x00 x3c x00 x40 x00)
(T (W xff xff xff xff x03 x00 x00 x00)
(T (W x00 x00 x80 x3f x00 x00 x80 x3f)
(T (W x44 x00 x00 x00 xff xff xff xff)
(T (W x45 x26 x22 x84 xe4 x9c xf2 xcb)
(L (W x68 x00 x00 x00 x5c x00 x00 x00)) E)
(L (W xff xff xff xff xff xff xff xff)))
(T (W x00 x00 x00 x00 x01 x00 x00 x00)
(T (W x45 x26 x22 x84 xe4 x9c xf2 xcb)
(L (W xff xff xff xff x9c x00 x00 x00)) E)
(L (W x6c x00 x00 x00 x60 x00 x00 x00))))
(T (W x00 x00 x00 x00 x00 x00 x00 x00)
(T (W xff xff xff xff xff xff xff xff)
(T (W x50 x00 x00 x00 x44 x00 x00 x00)
(L (W x6c x00 x00 x00 x60 x00 x00 x00)) E)
(L (W x45 x26 x22 x84 xe4 x9c xf2 xcb)))
(T (W xff xff xff xff x9c x00 x00 x00)
(L (W x00 x00 x80 xbf x00 x00 x80 xbf))
(L (W x3e x00 x00 x00 x0c x00 x00 x00)))))
(T (W x18 x00 x00 x00 x0c x00 x00 x00)
(T (W x00 x00 x00 x00 x00 x00 x00 x00)
(T (W x18 x00 x00 x00 x0c x00 x00 x00)
(T (W xff xff xff xff xff xff xff xff)
(L (W x00 x00 x00 x00 x00 x00 x00 x00)) E)
(L (W x00 x00 x00 x00 x00 x00 x00 x00)))
(T (W x00 x00 x00 x00 x04 x00 x00 x00)
(T (W x00 x00 x00 x00 x00 x00 x00 x00)
(L (W x00 x00 x00 x00 x00 x00 x00 x00)) E)
(L (W x00 x00 x00 x00 x1a xf0 xfe xff))))
(T (W xcf x01 x00 x00 xff xff xff xff)
(T (W x45 x26 x22 x84 xe4 x9c xf2 xcb)
(T (W x00 x00 x80 xbf x00 x00 x80 xbf)
(L (W xff xff xff xff xff xff xff xff)) E)
(L (W x68 x00 x00 x00 x5c x00 x00 x00)))
(T (W x50 x00 x00 x00 x44 x00 x00 x00)
(L (W xff xff xff xff xff xff xff xff))
(L (W x00 x00 x80 xbf x00 x00 x80 xbf))))))
(T (W xff xff xff xff xff xff xff xff)
(T (W xff xff xff xff xff xff xff xff)
(T (W x00 x00 x80 x3f x00 x00 x80 x3f)
(T (W xff xff xff xff xff xff xff xff)
(T (W x00 x00 x00 x00 x00 x00 x00 x00)
(L (W x30 x35 x5f x43 x4c x45 x41 x52)) E)
(L (W x04 x00 x00 x00 x1a x60 xfe xff)))
(T (W x50 x00 x00 x00 x44 x00 x00 x00)
(T (W xff xff xff xff xff xff xff xff)
(L (W xff xff xff xff xff xff xff xff)) E)
(L (W xff xff xff xff xff xff xff xff))))
(T (W x00 x00 x00 x00 x00 x00 x00 x00)
(T (W x00 x00 x00 x00 x00 x00 x00 x00)
(T (W x00 x00 x00 x00 x00 x00 x00 x00)
(L (W xff xff xff xff xff xff xff xff)) E)
(L (W x45 x26 x22 x84 xe4 x9c xf2 xcb)))
(T (W x5f x4e x53 x5f x30 x35 x5f x43)
(L (W xff xff xff xff xff xff xff xff))
(L (W x00 x00 x80 xbf x00 x00 x80 xbf)))))
(T (W x00 x00 x00 x00 x24 xb8 xfb xff)
(T (W x45 x26 x22 x84 xe4 x9c xf2 xcb)
(T (W xb4 x79 xfc xff x00 x01 x01 x01)
(T (W x00 x00 x80 x3f x00 x00 x80 x3f)
(L (W x3c x00 x00 x00 x00 x00 x80 xbf)) E)
(L (W x00 x00 x00 x00 x00 x00 x00 x00)))
(T (W x00 x00 x80 x3f x00 x00 x80 x3f)
(T (W x00 x00 x00 x00 x00 x00 x00 x00)
(L (W x06 x00 x07 x00 x00 x00 x00 x00)) E)
(L (W x1c xfd xfe xff x31 x00 x00 x00))))
(T (W xff xff xff xff xff xff xff xff)
(T (W xff xff xff xff xa0 x00 x00 x00)
(T (W xff xff xff xff xff xff xff xff)
(L (W x6c x00 x00 x00 x60 x00 x00 x00)) E)
(L (W x49 xa1 x68 x4a xeb x5f xdd x3d)))
(T (W x00 x00 x80 x3f x00 x00 x80 x3f)
(L (W x00 x00 x00 x00 x00 x00 x00 x00))
(L (W x3c x00 x00 x00 x00 x00 x80 xbf)))))))
(T (W xff xff xff xff xff xff xff xff)
(T (W xff xff xff xff xff xff xff xff)
(T (W xff xff xff xff xff xff xff xff)
(T (W x00 x00 x80 x3f x00 x00 x80 x3f)
(T (W xff xff xff xff xff xff xff xff)
(T (W x00 x00 x00 x00 x00 x00 x00 x00)
(L (W xff xff xff xff xff xff xff xff)) E)
(L (W x00 x00 x00 x00 x00 x00 x00 x00)))
(T (W x00 x00 x00 x00 x00 x00 x00 x00)
(T (W xb4 xd1 xfd xff x00 x01 x01 x01)
(L (W xff xff xff xff xff xff xff xff)) E)
(L (W xff xff xff xff x9c x00 x00 x00))))
(T (W x00 x00 x00 x00 x00 x00 x00 x00)
(T (W x00 x00 x00 x00 xba x8d xfc xff)
(T (W x45 x26 x22 x84 xe4 x9c xf2 xcb)
(L (W x00 x00 x00 x00 x24 x90 xff xff)) E)
(L (W x00 x00 x80 xbf x00 x00 x80 xbf)))
(T (W xff xff xff xff xff xff xff xff)
(L (W x00 x00 x00 x00 x24 x10 xfe xff))
(L (W x00 x00 x00 x00 x12 x00 x00 x00)))))
(T (W xd2 xac xfb xff x74 x00 x00 x00)
(T (W x00 x00 x00 x00 x00 x00 x00 x00)
(T (W x18 x00 x00 x00 x0c x00 x00 x00)
(T (W xff xff xff xff x03 x00 x00 x00)
(L (W x00 x00 x80 xbf x00 x00 x80 xbf)) E)
(L (W x00 x00 x00 x00 x00 x00 x00 x00)))
(T (W x00 x00 x00 x00 x00 x00 x00 x00)
(T (W x00 x00 x00 x00 x00 x00 x00 x00)
(L (W x00 x00 x80 xbf x00 x00 x80 xbf)) E)
(L (W x45 x44 x00 x00 x00 x00 x00 x00))))
(T (W xff xff xff xff xff xff xff xff)
(T (W x00 x00 x80 x3f x00 x00 x80 x3f)
(T (W xff xff xff xff xff xff xff xff)
(L (W xb4 xb1 xff xff x00 x01 x01 x01)) E)
(L (W x00 x00 x80 xbf x00 x00 x80 xbf)))
(T (W x00 x00 x80 x3f x00 x00 x80 x3f)
(L (W x30 x35 x5f x43 x4c x45 x41 x52))
(L (W x54 x00 x00 x00 x48 x00 x00 x00))))))
(T (W x64 x00 x00 x00 x9c x00 x00 x00)
(T (W x45 x26 x22 x84 xe4 x9c xf2 xcb)
(T (W x45 x26 x22 x84 xe4 x9c xf2 xcb)
(T (W xff xff xff xff x04 x00 x00 x00)
(T (W x64 x01 x00 x00 xff xff xff xff)
(L (W x00 x00 x00 x00 x00 x00 x00 x00)) E)
(L (W x00 x00 x00 x00 x00 x00 x00 x00)))
(T (W xff xff xff xff xff xff xff xff)
(T (W x02 x00 x00 x00 x30 x01 x00 x00)
(L (W xff xff xff xff xff xff xff xff)) E)
(L (W x00 x00 x00 x00 x92 xe6 xfe xff))))
(T (W xfb xa0 x0f xa7 x37 xde x0e xb7)
(T (W x00 x00 x00 x00 x00 x00 x00 x00)
(T (W xff xff xff xff xff xff xff xff)
(L (W xff xff xff xff xff xff xff xff)) E)
(L (W x00 x01 x01 x01 x12 xa9 xfe xff)))
(T (W x00 x00 x00 x00 x00 x00 x00 x00)
(L (W xff xff xff xff xff xff xff xff))
(L (W x49 xa1 x68 x4a xeb x5f xdd x3d)))))
(T (W x45 x26 x22 x84 xe4 x9c xf2 xcb)
(T (W x45 x26 x22 x84 xe4 x9c xf2 xcb)
(T (W x45 x26 x22 x84 xe4 x9c xf2 xcb)
(T (W x00 x00 x00 x00 x00 x00 x00 x00)
(L (W x00 x00 x80 xbf x00 x00 x80 xbf)) E)
(L (W x4f x84 x6f x8b xe8 xcb x63 xb7)))
(T (W x45 x26 x22 x84 xe4 x9c xf2 xcb)
(T (W x00 x00 x00 x00 x00 x00 x00 x00)
(L (W x00 x00 x80 xbf x00 x00 x80 xbf)) E)
(L (W xff xff xff xff xff xff xff xff))))
(T (W xff xff xff xff xff xff xff xff)
(T (W xff xff xff xff xff xff xff xff)
(T (W x00 x00 x80 x3f x00 x00 x80 x3f)
(L (W xcc x00 x00 x00 x01 x00 x00 x00)) E)
(L (W x00 x00 x80 xbf x00 x00 x80 xbf)))
(T (W x45 x26 x22 x84 xe4 x9c xf2 xcb)
(L (W x46 x53 x59 x53 x5f x4e x53 x5f))
(L (W x6c x00 x00 x00 x60 x00 x00 x00)))))))))
(T (W x8a xb9 xfd xff x00 x00 x01 x01)
(T (W xb4 x4f xfb xff x00 x01 x01 x01)
(T (W x00 x00 x80 x3f x00 x00 x80 x3f)
(T (W xb4 x67 xfb xff x00 x01 x01 x01)
(T (W x45 x26 x22 x84 xe4 x9c xf2 xcb)
(T (W x00 x00 x00 x00 x00 x00 x00 x00)
(T (W x01 x00 x00 x00 xa0 x00 x00 x00)
(T (W x00 x00 x00 x00 x00 x00 x00 x00)
(L (W x00 x00 x80 xbf x00 x00 x80 xbf)) E)
(L (W xff xff xff xff xff xff xff xff)))
(T (W xff xff xff xff x9c x00 x00 x00)
(T (W x00 x00 x00 x00 x00 x00 x00 x00)
(L (W x00 x00 x80 xbf x00 x00 x80 xbf)) E)
(L (W x49 xa1 x68 x4a xeb x5f xdd x3d))))
(T (W x8a x75 xfe xff x00 x00 x01 x01)
(T (W x8a x84 xfc xff x78 x00 x00 x00)
(T (W x00 x00 x00 x00 x00 x00 x00 x00)
(L (W x49 xa1 x68 x4a xeb x5f xdd x3d)) E)
(L (W x00 x00 x00 x00 x00 x00 x00 x00)))
(T (W x00 x00 x80 x3f x00 x00 x80 x3f)
(L (W x00 x00 x00 x00 x00 x00 x00 x00))
(L (W x03 x00 x00 x00 xd8 x00 x00 x00)))))
(T (W x45 x26 x22 x84 xe4 x9c xf2 xcb)
(T (W x00 x00 x00 x00 x00 x00 x00 x00)
(T (W x00 x00 x80 x3f x00 x00 x80 x3f)
(T (W x68 x00 x00 x00 x5c x00 x00 x00)
(L (W x00 x00 x00 x00 x00 x00 x00 x00)) E)
(L (W xff xff xff xff xff xff xff xff)))
(T (W x03 x00 x00 x00 xcc x00 x00 x00)
(T (W x00 x00 x00 x00 x00 x00 x00 x00)
(L (W xff xff xff xff xff xff xff xff)) E)
(L (W xff xff xff xff xff xff xff xff))))
(T (W xff xff xff xff xff xff xff xff)
(T (W x00 x00 x00 x00 x00 x00 x00 x00)
(T (W x00 x00 x00 x00 x01 x00 x00 x00)
(L (W xb4 xa7 xff xff x00 x01 x01 x01)) E)
(L (W x00 x00 x80 xbf x00 x00 x80 xbf)))
(T (W x46 x53 x59 x53 x5f x4e x53 x5f)
(L (W x00 x00 x80 xbf x00 x00 x80 xbf))
(L (W x00 x00 x00 x00 x00 x00 x00 x00))))))
(T (W xd2 x72 xfb xff x74 x00 x00 x00)
(T (W x00 x00 x80 x3f x00 x00 x80 x3f)
(T (W x1c xdb xfb xff x3c x00 x00 x00)
(T (W x00 x00 x80 x3f x00 x00 x80 x3f)
(T (W xff xff xff xff xff xff xff xff)
(L (W xb0 x00 x00 x00 x64 x00 x00 x00)) E)
(L (W x26 x00 x00 x00 x29 x00 x00 x00)))
(T (W x00 x00 x00 x00 x00 x00 x00 x00)
(T (W x00 x00 x80 xbf x00 x00 x80 xbf)
(L (W x20 xd6 xff xff x0a xe4 xff xff)) E)
(L (W x18 x00 x00 x00 x0c x00 x00 x00))))
(T (W xff xff xff xff xff xff xff xff)
(T (W xff xff xff xff xff xff xff xff)
(T (W xff xff xff xff xff xff xff xff)
(L (W x45 x26 x22 x84 xe4 x9c xf2 xcb)) E)
(L (W x00 x00 x00 x00 x00 x00 x00 x00)))
(T (W xff xff xff xff xbc x00 x00 x00)
(L (W x54 x00 x00 x00 x48 x00 x00 x00))
(L (W x00 x00 x00 x00 x00 x00 x00 x00)))))
(T (W x45 x26 x22 x84 xe4 x9c xf2 xcb)
(T (W xa8 x35 x9b x6a x79 xb5 x5a x22)
(T (W x00 x00 x00 x00 x00 x00 x00 x00)
(T (W x00 x00 x00 x00 x00 x00 x00 x00)
(L (W x00 x00 x00 x00 x12 x00 x00 x00)) E)
(L (W xff xff xff xff xff xff xff xff)))
(T (W x13 x00 x00 x00 x10 x00 x00 x00)
(T (W x00 x00 x00 x00 x00 x00 x00 x00)
(L (W x00 x00 x80 xbf x00 x00 x80 xbf)) E)
(L (W xff xff xff xff xff xff xff xff))))
(T (W xff xff xff xff xff xff xff xff)
(T (W x45 x26 x22 x84 xe4 x9c xf2 xcb)
(T (W x00 x00 x00 x00 x00 x00 x00 x00)
(L (W x00 x00 x80 xbf x00 x00 x80 xbf)) E)
(L (W x46 x53 x59 x53 x5f x4e x53 x5f)))
(T (W x00 x00 x00 x00 x00 x00 x00 x00)
(L (W xff xff xff xff xff xff xff xff))
(L (W x00 x00 x80 xbf x00 x00 x80 xbf)))))))
(T (W xb4 x5f xfb xff x00 x01 x01 x01)
(T (W x50 x00 x00 x00 x44 x00 x00 x00)
(T (W x00 x00 x80 x3f x00 x00 x80 x3f)
(T (W x00 x00 x00 x00 x00 x00 x00 x00)
(T (W xd2 x4a xfc xff x74 x00 x00 x00)
(T (W xaa x01 x00 x00 xff xff xff xff)
(L (W x00 x00 x80 xbf x00 x00 x80 xbf)) E)
(L (W xff xff xff xff xff xff xff xff)))
(T (W xcb x01 x00 x00 xff xff xff xff)
(T (W x00 x00 x80 x3f x00 x00 x80 x3f)
(L (W x6c x00 x00 x00 x60 x00 x00 x00)) E)
(L (W x00 x00 x80 xbf x00 x00 x80 xbf))))
(T (W xff xff xff xff xff xff xff xff)
(T (W x45 x26 x22 x84 xe4 x9c xf2 xcb)
(T (W x00 x00 x00 x00 x00 x00 x00 x00)
(L (W x00 x00 x80 xbf x00 x00 x80 xbf)) E)
(L (W x00 x00 x00 x00 x00 x00 x00 x00)))
(T (W xff xff xff xff xac x00 x00 x00)
(L (W x45 x26 x22 x84 xe4 x9c xf2 xcb))
(L (W xff xff xff xff xff xff xff xff)))))
(T (W x00 x00 x00 x00 x00 x00 x00 x00)
(T (W x00 x00 x00 x00 x00 x00 x00 x00)
(T (W x00 x00 x00 x00 x00 x00 x00 x00)
(T (W x50 x00 x00 x00 x44 x00 x00 x00)
(L (W x1c x73 xff xff x14 x00 x00 x00)) E)
(L (W xff xff xff xff xff xff xff xff)))
(T (W xff xff xff xff x02 x00 x00 x00)
(T (W xff xff xff xff xff xff xff xff)
(L (W x13 x00 x00 x00 x0c x00 x00 x00)) E)
(L (W xff xff xff xff xff xff xff xff))))
(T (W xff xff xff xff xff xff xff xff)
(T (W x00 x00 x00 x00 x00 x00 x00 x00)
(T (W x54 x00 x00 x00 x48 x00 x00 x00)
(L (W x00 x00 x80 xbf x00 x00 x80 xbf)) E)
(L (W x1c xb3 xfe xff x2d x00 x00 x00)))
(T (W x00 x00 x00 x00 x00 x00 x00 x00)
(L (W xff xff xff xff xbc x00 x00 x00))
(L (W x4f x84 x6f x8b xe8 xcb x63 xb7))))))
(T (W x00 x00 x00 x00 x24 x7e xfb xff)
(T (W x00 x00 x80 x3f x00 x00 x80 x3f)
(T (W x00 x00 x00 x00 x00 x00 x00 x00)
(T (W x00 x00 x80 x3f x00 x00 x80 x3f)
(T (W xff xff xff xff x03 x00 x00 x00)
(L (W xff xff xff xff xff xff xff xff)) E)
(L (W xff xff xff xff xff xff xff xff)))
(T (W x00 x00 x80 x3f x00 x00 x80 x3f)
(T (W x31 x00 x00 x00 x34 x00 x00 x00)
(L (W x6c x00 x00 x00 x60 x00 x00 x00)) E)
(L (W xff xff xff xff xff xff xff xff))))
(T (W xb8 x00 x00 x00 xac x00 x00 x00)
(T (W xff xff xff xff xff xff xff xff)
(T (W xd2 x9a xfd xff x74 x00 x00 x00)
(L (W x45 x26 x22 x84 xe4 x9c xf2 xcb)) E)
(L (W x00 x00 x80 xbf x00 x00 x80 xbf)))
(T (W x02 x00 x00 x00 xff xff xff xff)
(L (W x00 x00 x00 x00 x24 x1e xfe xff))
(L (W x00 x00 x00 x00 x12 x00 x00 x00)))))
(T (W x45 x26 x22 x84 xe4 x9c xf2 xcb)
(T (W x7e x00 x00 x00 xff xff xff xff)
(T (W x45 x26 x22 x84 xe4 x9c xf2 xcb)
(T (W x18 x01 x00 x00 x04 x00 x00 x00)
(L (W x00 x00 x00 x00 x00 x00 x00 x00)) E)
(L (W xcc x01 x00 x00 xff xff xff xff)))
(T (W x00 x00 x00 x00 x00 x00 x00 x00)
(T (W xfa x52 xff xff x00 x00 x01 x01)
(L (W xff xff xff xff xff xff xff xff)) E)
(L (W xff xff xff xff xff xff xff xff))))
(T (W x18 x00 x00 x00 x10 x00 x00 x00)
(T (W x00 x00 x80 x3f x00 x00 x80 x3f)
(T (W x00 x00 x00 x00 x12 x00 x00 x00)
(L (W x49 xa1 x68 x4a xeb x5f xdd x3d)) E)
(L (W x00 x00 x00 x00 x00 x00 x00 x00)))
(T (W x00 x00 x00 x00 x00 x00 x00 x00)
(L (W xff xff xff xff xff xff xff xff))
(L (W x49 xa1 x68 x4a xeb x5f xdd x3d))))))))
(T (W xff xff xff xff x01 x00 x00 x00)
(T (W xff xff xff xff xff xff xff xff)
(T (W xff xff xff xff xff xff xff xff)
(T (W xff xff xff xff xff xff xff xff)
(T (W xff xff xff xff xff xff xff xff)
(T (W x00 x00 x00 x00 x00 x00 x00 x00)
(T (W x50 x00 x00 x00 x44 x00 x00 x00)
(L (W xff xff xff xff xff xff xff xff)) E)
(L (W x00 x00 x00 x00 x00 x00 x00 x00)))
(T (W x45 x26 x22 x84 xe4 x9c xf2 xcb)
(T (W x8a xc8 xfd xff x78 x00 x00 x00)
(L (W x30 x35 x5f x43 x4c x45 x41 x52)) E)
(L (W xff xff xff xff xff xff xff xff))))
(T (W x00 x00 x80 x3f x00 x00 x80 x3f)
(T (W x24 x00 x00 x00 x0c x00 x00 x00)
(T (W xff xff xff xff x03 x00 x00 x00)
(L (W x03 x00 x00 x00 xd4 x00 x00 x00)) E)
(L (W xd2 x86 xfe xff x74 x00 x00 x00)))
(T (W x00 x00 x00 x00 x00 x00 x00 x00)
(L (W xff xff xff xff xff xff xff xff))
(L (W x45 x26 x22 x84 xe4 x9c xf2 xcb)))))
(T (W xff xff xff xff xff xff xff xff)
(T (W x68 x00 x00 x00 x5c x00 x00 x00)
(T (W x7c x01 x00 x00 x04 x00 x00 x00)
(T (W x00 x00 x00 x00 x00 x00 x00 x00)
(L (W x00 x00 x80 xbf x00 x00 x80 xbf)) E)
(L (W x00 x00 x80 xbf x00 x00 x80 xbf)))
(T (W x00 x00 x80 x3f x00 x00 x80 x3f)
(T (W x00 x00 x80 xbf x00 x00 x80 xbf)
(L (W x00 x00 x80 xbf x00 x00 x80 xbf)) E)
(L (W x00 x00 x00 x00 x00 x00 x00 x00))))
(T (W x00 x00 x00 x00 x00 x00 x00 x00)
(T (W x00 x00 x00 x00 x24 xaa xfc xff)
(T (W xff xff xff xff xff xff xff xff)
(L (W x18 x00 x00 x00 x0c x00 x00 x00)) E)
(L (W xff xff xff xff xff xff xff xff)))
(T (W x03 x00 x00 x00 xcc x00 x00 x00)
(L (W xff xff xff xff xff xff xff xff))
(L (W x18 x00 x00 x00 x10 x00 x00 x00))))))
(T (W x4c x82 xfb xff x3e x00 x00 x00)
(T (W xff xff xff xff xff xff xff xff)
(T (W x45 x26 x22 x84 xe4 x9c xf2 xcb)
(T (W x3e x00 x00 x00 x10 x00 x00 x00)
(T (W x45 x26 x22 x84 xe4 x9c xf2 xcb)
(L (W x49 xa1 x68 x4a xeb x5f xdd x3d)) E)
(L (W x00 x00 x00 x00 x00 x00 x00 x00)))
(T (W xff xff xff xff xff xff xff xff)
(T (W x45 x44 x00 x00 x00 x00 x00 x00)
(L (W x00 x00 x00 x00 x00 x00 x00 x00)) E)
(L (W x00 x00 x00 x00 x00 x00 x00 x00))))
(T (W x45 x26 x22 x84 xe4 x9c xf2 xcb)
(T (W x45 x26 x22 x84 xe4 x9c xf2 xcb)
(T (W x68 x00 x00 x00 x5c x00 x00 x00)
(L (W x00 x00 x00 x00 x00 x00 x00 x00)) E)
(L (W xff xff xff xff xff xff xff xff)))
(T (W x00 x00 x80 x3f x00 x00 x80 x3f)
(L (W x1c x1f xfe xff x3b x00 x00 x00))
(L (W x45 x26 x22 x84 xe4 x9c xf2 xcb)))))
(T (W x64 x00 x00 x00 x9c x00 x00 x00)
(T (W x00 x00 x80 x3f x00 x00 x80 x3f)
(T (W xff xff xff xff xff xff xff xff)
(T (W xd2 x76 xfd xff x74 x00 x00 x00)
(L (W xb4 x7b xff xff x00 x01 x01 x01)) E)
(L (W x00 x00 x80 xbf x00 x00 x80 xbf)))
(T (W x45 x26 x22 x84 xe4 x9c xf2 xcb)
(T (W x00 x00 x80 xbf x00 x00 x80 xbf)
(L (W xff xff xff xff xff xff xff xff)) E)
(L (W x45 x26 x22 x84 xe4 x9c xf2 xcb))))
(T (W x00 x00 x00 x00 x00 x00 x00 x00)
(T (W xff xff xff xff xff xff xff xff)
(T (W x00 x00 x80 x3f x00 x00 x80 x3f)
(L (W xff xff xff xff xbc x00 x00 x00)) E)
(L (W xcc x00 x00 x00 x01 x00 x00 x00)))
(T (W xbc x00 x00 x00 xb0 x00 x00 x00)
(L (W x54 x00 x00 x00 x48 x00 x00 x00))
(L (W x1d x00 x00 x00 x20 x00 x00 x00)))))))
(T (W x00 x00 x00 x00 x00 x00 x00 x00)
(T (W x00 x00 x00 x00 x00 x00 x00 x00)
(T (W xff xff xff xff xff xff xff xff)
(T (W xff xff xff xff xff xff xff xff)
(T (W x00 x00 x00 x00 x00 x00 x00 x00)
(T (W x45 x26 x22 x84 xe4 x9c xf2 xcb)
(L (W x00 x00 x00 x00 x00 x00 x00 x00)) E)
(L (W x00 x00 x80 xbf x00 x00 x80 xbf)))
(T (W xd2 xce xfc xff x74 x00 x00 x00)
(T (W xff xff xff xff xff xff xff xff)
(L (W x1c xd7 xff xff x15 x00 x00 x00)) E)
(L (W x00 x00 x00 x00 x00 x00 x00 x00))))
(T (W x00 x00 x80 x3f x00 x00 x80 x3f)
(T (W x00 x00 x00 x00 x00 x00 x00 x00)
(T (W x00 x00 x00 x00 x18 x00 x1c x00)
(L (W xff xff xff xff xff xff xff xff)) E)
(L (W xff xff xff xff xff xff xff xff)))
(T (W x00 x00 x00 x00 x00 x00 x00 x00)
(L (W xff xff xff xff xff xff xff xff))
(L (W x54 x00 x00 x00 x48 x00 x00 x00)))))
(T (W xff xff xff xff xff xff xff xff)
(T (W x00 x00 x80 x3f x00 x00 x80 x3f)
(T (W x2c x00 x30 x00 x34 x00 x38 x00)
(T (W xdc x00 x00 x00 xff xff xff xff)
(L (W x45 x26 x22 x84 xe4 x9c xf2 xcb)) E)
(L (W x49 xa1 x68 x4a xeb x5f xdd x3d)))
(T (W xd2 xee xfc xff x74 x00 x00 x00)
(T (W x45 x26 x22 x84 xe4 x9c xf2 xcb)
(L (W x44 x00 x04 x00 x08 x00 x0c x00)) E)
(L (W x00 x00 x80 xbf x00 x00 x80 xbf))))
(T (W x00 x00 x00 x00 x00 x00 x00 x00)
(T (W xff xff xff xff xff xff xff xff)
(T (W x00 x00 x00 x00 x00 x00 x00 x00)
(L (W xff xff xff xff xff xff xff xff)) E)
(L (W xff xff xff xff xc0 x00 x00 x00)))
(T (W x64 x00 x00 x00 x9c x00 x00 x00)
(L (W x49 xa1 x68 x4a xeb x5f xdd x3d))
(L (W x03 x00 x00 x00 xd8 x00 x00 x00))))))
(T (W x01 x00 x00 x00 x04 x00 x00 x00)
(T (W xff xff xff xff xff xff xff xff)
(T (W x18 x00 x00 x00 x0c x00 x00 x00)
(T (W x00 x00 x00 x00 xea xf6 xff xff)
(T (W x00 x00 x00 x00 x00 x00 x00 x00)
(L (W x00 x00 x80 xbf x00 x00 x80 xbf)) E)
(L (W x00 x00 x80 xbf x00 x00 x80 xbf)))
(T (W x00 x00 x00 x00 x00 x00 x00 x00)
(T (W x00 x00 x00 x00 x00 x00 x00 x00)
(L (W x00 x00 x00 x00 x00 x00 x00 x00)) E)
(L (W x00 x00 x00 x00 x00 x00 x00 x00))))
(T (W x00 x00 x80 x3f x00 x00 x80 x3f)
(T (W x00 x00 x80 x3f x00 x00 x80 x3f)
(T (W x00 x00 x00 x00 x00 x00 x00 x00)
(L (W x00 x00 x00 x00 x00 x00 x00 x00)) E)
(L (W xff xff xff xff xff xff xff xff)))
(T (W x00 x00 x00 x00 x24 x22 xfd xff)
(L (W x00 x00 x00 x00 x12 x00 x00 x00))
(L (W x2f x00 x00 x00 x32 x00 x00 x00)))))
(T (W xff xff xff xff x03 x00 x00 x00)
(T (W x00 x00 x80 x3f x00 x00 x80 x3f)
(T (W x00 x00 x00 x00 xba x7f xfc xff)
(T (W xd2 x7e xfd xff x74 x00 x00 x00)
(L (W xff xff xff xff xc0 x00 x00 x00)) E)
(L (W x00 x00 x80 xbf x00 x00 x80 xbf)))
(T (W xff xff xff xff xff xff xff xff)
(T (W xd2 xfe xfd xff x74 x00 x00 x00)
(L (W x00 x00 x00 x00 x00 x00 x00 x00)) E)
(L (W x49 xa1 x68 x4a xeb x5f xdd x3d))))
(T (W x00 x00 x00 x00 x00 x00 x00 x00)
(T (W x3e x00 x00 x00 x10 x00 x00 x00)
(T (W x45 x26 x22 x84 xe4 x9c xf2 xcb)
(L (W xff xff xff xff xff xff xff xff)) E)
(L (W xff xff xff xff x9c x00 x00 x00)))
(T (W x68 x00 x00 x00 x5c x00 x00 x00)
(L (W x00 x00 x00 x00 x00 x00 x00 x00))
(L (W xff xff xff xff xff xff xff xff)))))))))))
(T (W x00 x99 x02 x00 xa4 x96 x02 x00)
(T (W x78 xef x01 x00 x34 xed x01 x00)
(T (W x58 xa5 x00 x00 x0c xa3 x00 x00)
(T (W xff xff xff xff x04 x00 x00 x00)
(T (W x64 x00 x00 x00 x9c x00 x00 x00)
(T (W x64 x00 x00 x00 x9c x00 x00 x00)
(T (W xff xff xff xff xff xff xff xff)
(T (W x45 x26 x22 x84 xe4 x9c xf2 xcb)
(T (W xff xff xff xff xff xff xff xff)
(T (W x45 x26 x22 x84 xe4 x9c xf2 xcb)
(L (W x00 x00 x80 xbf x00 x00 x80 xbf)) E)
(L (W x64 x04 x00 x00 x60 x03 x00 x00)))
(T (W xff xff xff xff xff xff xff xff)
(T (W x45 x26 x22 x84 xe4 x9c xf2 xcb)
(L (W x45 x26 x22 x84 xe4 x9c xf2 xcb)) E)
(L (W x6c x00 x00 x00 x60 x00 x00 x00))))
(T (W x40 x00 x00 x00 x0c x00 x00 x00)
(T (W x18 x00 x00 x00 x0c x00 x00 x00)
(T (W x45 x26 x22 x84 xe4 x9c xf2 xcb)
(L (W x00 x00 x80 xbf x00 x00 x80 xbf)) E)
(L (W x00 x00 x00 x00 x00 x00 x00 x00)))
(T (W x50 x00 x00 x00 x44 x00 x00 x00)
(T (W x00 x00 x80 xbf x00 x00 x80 xbf)
(L (W x00 x00 x80 xbf x00 x00 x80 xbf)) E)
(L (W x00 x00 x01 x01 x63 x01 x00 x00)))))
(T (W x68 x00 x00 x00 x5c x00 x00 x00)
(T (W x00 x00 x00 x00 x00 x00 x00 x00)
(T (W xff xff xff xff xff xff xff xff)
(T (W xff xff xff xff xff xff xff xff)
(L (W x45 x44 x00 x00 x00 x00 x00 x00)) E)
(L (W xff xff xff xff xff xff xff xff)))
(T (W xff xff xff xff xff xff xff xff)
(T (W x00 x00 x00 x00 x00 x00 x00 x00)
(L (W x28 x00 x2c x00 x30 x00 x34 x00)) E)
(L (W xff xff xff xff xff xff xff xff))))
(T (W x00 x00 x00 x00 x04 x00 x00 x00)
(T (W x00 x00 x00 x00 x00 x00 x00 x00)
(T (W x35 x00 x00 x00 x10 x00 x00 x00)
(L (W xff xff xff xff xff xff xff xff)) E)
(L (W x00 x00 x80 xbf x00 x00 x80 xbf)))
(T (W x00 x00 x00 x00 x00 x00 x00 x00)
(L (W xff xff xff xff xff xff xff xff))
(L (W x00 x00 x80 xbf x00 x00 x80 xbf))))))
(T (W xff xff xff xff xff xff xff xff)
(T (W x52 x90 xfb xff x74 x00 x00 x00)
(T (W x00 x00 x80 x3f x00 x00 x80 x3f)
(T (W xff xff xff xff x03 x00 x00 x00)
(T (W x00 x00 x00 x00 x00 x00 x00 x00)
(L (W xff xff xff xff xff xff xff xff)) E)
(L (W x00 x00 x00 x00 x92 x5e xfe xff)))
(T (W x45 x26 x22 x84 xe4 x9c xf2 xcb)
(T (W x00 x00 x00 x00 xa4 xd3 xfd xff)
(L (W xff xff xff xff xff xff xff xff)) E)
(L (W xc4 x00 x00 x00 x01 x00 x00 x00))))
(T (W x00 x00 x00 x00 x00 x00 x00 x00)
(T (W xff xff xff xff xff xff xff xff)
(T (W x00 x00 x10 x00 x00 x00 x14 x00)
(L (W xff xff xff xff xff xff xff xff)) E)
(L (W x00 x00 x80 xbf x00 x00 x80 xbf)))
(T (W xff xff xff xff x02 x00 x00 x00)
(L (W x18 x00 x00 x00 x0c x00 x00 x00))
(L (W x00 x00 x00 x00 x00 x00 x00 x00)))))
(T (W x00 x00 x80 x3f x00 x00 x80 x3f)
(T (W x00 x00 x00 x00 x00 x00 x00 x00)
(T (W x74 x00 x08 x00 x68 x00 x0c x00)
(T (W x68 x00 x00 x00 x5c x00 x00 x00)
(L (W x00 x00 x80 xbf x00 x00 x80 xbf)) E)
(L (W xb4 x22 xb6 x28 xbf x62 x64 x6a)))
(T (W x00 x00 x00 x00 x00 x00 x00 x00)
(T (W x00 x00 x00 x00 x00 x00 x00 x00)
(L (W x49 xa1 x68 x4a xeb x5f xdd x3d)) E)
(L (W x9c xf8 xfe xff x3b x00 x00 x00))))
(T (W x5e x00 x00 x00 xff xff xff xff)
(T (W x6c x00 x00 x00 x60 x00 x00 x00)
(T (W xd4 x00 x00 x00 xff xff xff xff)
(L (W x50 x00 x00 x00 x44 x00 x00 x00)) E)
(L (W x00 x00 x80 xbf x00 x00 x80 xbf)))
(T (W x00 x00 x80 x3f x00 x00 x80 x3f)
(L (W x02 x8a xc4 x28 xbf x5b x75 x6a))
(L (W x00 x00 x80 xbf x00 x00 x80 xbf)))))))
(T (W x18 x00 x00 x00 x0c x00 x00 x00)
(T (W xff xff xff xff xff xff xff xff)
(T (W x18 x00 x00 x00 x0c x00 x00 x00)
(T (W x00 x00 x80 x3f x00 x00 x80 x3f)
(T (W x64 x00 x00 x00 x9c x00 x00 x00)
(T (W x00 x00 x00 x00 x00 x00 x00 x00)
(L (W xff xff xff xff xac x00 x00 x00)) E)
(L (W x00 x00 x00 x00 x00 x00 x00 x00)))
(T (W x27 x00 x00 x00 x10 x00 x00 x00)
(T (W x00 x00 x80 x3f x00 x00 x80 x3f)
(L (W xff xff xff xff xff xff xff xff)) E)
(L (W x00 x00 x80 xbf x00 x00 x80 xbf))))
(T (W x00 x00 x00 x00 x00 x00 x00 x00)
(T (W xff xff xff xff xff xff xff xff)
(T (W x45 x26 x22 x84 xe4 x9c xf2 xcb)
(L (W x00 x00 x80 xbf x00 x00 x80 xbf)) E)
(L (W x00 x00 x80 xbf x00 x00 x80 xbf)))
(T (W x03 x00 x00 x00 xcc x00 x00 x00)
(L (W x6c x00 x00 x00 x60 x00 x00 x00))
(L (W x00 x00 x00 x00 x12 x00 x00 x00)))))
(T (W x52 xa8 xfb xff x74 x00 x00 x00)
(T (W x45 x26 x22 x84 xe4 x9c xf2 xcb)
(T (W x26 x00 x00 x00 xff xff xff xff)
(T (W xff xff xff xff x03 x00 x00 x00)
(L (W x00 x00 x00 x00 x00 x00 x00 x00)) E)
(L (W x00 x00 x00 x00 x12 x00 x00 x00)))
(T (W x00 x00 x00 x00 x00 x00 x00 x00)
(T (W x00 x00 x00 x00 x00 x00 x00 x00)
(L (W x00 x00 x00 x00 x00 x00 x00 x00)) E)
(L (W x45 x44 x00 x00 x00 x00 x00 x00))))
(T (W xff xff xff xff xff xff xff xff)
(T (W x00 x00 x80 x3f x00 x00 x80 x3f)
(T (W x6c x00 x00 x00 x60 x00 x00 x00)
(L (W x00 x00 x00 x00 x00 x00 x00 x00)) E)
(L (W xff xff xff xff xff xff xff xff)))
(T (W x00 x00 x80 x3f x00 x00 x80 x3f)
(L (W xff xff xff xff xff xff xff xff))
(L (W x54 x00 x00 x00 x48 x00 x00 x00))))))
(T (W xff xff xff xff x03 x00 x00 x00)
(T (W x00 x00 x80 x3f x00 x00 x80 x3f)
(T (W x00 x00 x80 x3f x00 x00 x80 x3f)
(T (W xff xff xff xff xff xff xff xff)
(T (W x66 x01 x00 x00 xff xff xff xff)
(L (W xff xff xff xff xff xff xff xff)) E)
(L (W x00 x00 x00 x00 x12 x62 xfe xff)))
(T (W x52 xd8 xfc xff x74 x00 x00 x00)
(T (W xff xff xff xff xff xff xff xff)
(L (W xff xff xff xff xb0 x00 x00 x00)) E)
(L (W xff xff xff xff xff xff xff xff))))
(T (W x00 x00 x00 x00 x00 x00 x00 x00)
(T (W x46 x53 x59 x53 x5f x4e x53 x5f)
(T (W x45 x26 x22 x84 xe4 x9c xf2 xcb)
(L (W xff xff xff xff xff xff xff xff)) E)
(L (W xff xff xff xff xa8 x00 x00 x00)))
(T (W x13 x00 x00 x00 x10 x00 x00 x00)
(L (W xff xff xff xff xff xff xff xff))
(L (W x00 x00 x80 xbf x00 x00 x80 xbf)))))
(T (W x00 x00 x80 x3f x00 x00 x80 x3f)
(T (W x00 x00 x00 x00 x00 x00 x00 x00)
(T (W x54 x00 x00 x00 x48 x00 x00 x00)
(T (W x00 x00 x00 x00 x00 x00 x00 x00)
(L (W x00 x00 x00 x00 x00 x00 x00 x00)) E)
(L (W x00 x00 x00 x00 x00 x00 x00 x00)))
(T (W x00 x00 x80 x3f x00 x00 x80 x3f)
(T (W x00 x00 x00 x00 x00 x00 x00 x00)
(L (W x2f x00 x00 x00 x32 x00 x00 x00)) E)
(L (W xff xff xff xff xff xff xff xff))))
(T (W xff xff xff xff xff xff xff xff)
(T (W x45 x26 x22 x84 xe4 x9c xf2 xcb)
(T (W x00 x00 x00 x00 x00 x00 x00 x00)
(L (W x6c x00 x00 x00 x60 x00 x00 x00)) E)
(L (W x00 x00 x80 xbf x00 x00 x80 xbf)))
(T (W x45 x26 x22 x84 xe4 x9c xf2 xcb)
(L (W x30 x35 x5f x43 x4c x45 x41 x52))
(L (W x6c x00 x00 x00 x60 x00 x00 x00))))))))
(T (W x00 x00 x00 x00 x00 x00 x00 x00)
(T (W x45 x26 x22 x84 xe4 x9c xf2 xcb)
(T (W x00 x00 x80 x3f x00 x00 x80 x3f)
(T (W x00 x00 x00 x00 x00 x00 x00 x00)
(T (W xff xff xff xff xff xff xff xff)
(T (W x45 x26 x22 x84 xe4 x9c xf2 xcb)
(T (W xff xff xff xff x03 x00 x00 x00)
(L (W x00 x00 x00 x00 x12 x4e xff xff)) E)
(L (W x00 x00 x80 xbf x00 x00 x80 xbf)))
(T (W x00 x00 x80 x3f x00 x00 x80 x3f)
(T (W xff xff xff xff xff xff xff xff)
(L (W x30 x35 x5f x43 x4c x45 x41 x52)) E)
(L (W xff xff xff xff xff xff xff xff))))
(T (W x00 x00 x00 x00 xa4 x07 xfc xff)
(T (W x00 x00 x00 x00 x00 x00 x00 x00)
(T (W x6c x00 x00 x00 xff xff xff xff)
(L (W x00 x00 x01 x01 xa9 x01 x00 x00)) E)
(L (W xff xff xff xff xff xff xff xff)))
(T (W x5f x4e x53 x5f x30 x35 x5f x43)
(L (W xff xff xff xff xff xff xff xff))
(L (W x00 x00 x80 xbf x00 x00 x80 xbf)))))
(T (W x40 x00 x00 x00 x10 x00 x00 x00)
(T (W x18 x00 x00 x00 x10 x00 x00 x00)
(T (W x9c x6c xfc xff x3e x00 x00 x00)
(T (W x45 x26 x22 x84 xe4 x9c xf2 xcb)
(L (W xc4 x00 x00 x00 x02 x00 x00 x00)) E)
(L (W x00 x00 x00 x00 xa4 x67 xfe xff)))
(T (W x00 x00 x80 x3f x00 x00 x80 x3f)
(T (W x2f x00 x00 x00 x32 x00 x00 x00)
(L (W x44 x00 x00 x00 x00 x00 x80 xbf)) E)
(L (W x00 x00 x80 xbf x00 x00 x80 xbf))))
(T (W x00 x00 x80 x3f x00 x00 x80 x3f)
(T (W xff xff xff xff xbc x00 x00 x00)
(T (W xff xff xff xff xff xff xff xff)
(L (W x00 x00 x00 x00 x00 x00 x00 x00)) E)
(L (W x00 x00 x00 x00 x12 xae xfe xff)))
(T (W xff xff xff xff xff xff xff xff)
(L (W x00 x00 x00 x00 x00 x00 x00 x00))
(L (W xff xff xff xff xff xff xff xff))))))
(T (W x00 x00 x00 x00 x00 x00 x00 x00)
(T (W x00 x00 x00 x00 x00 x00 x00 x00)
(T (W xff xff xff xff xff xff xff xff)
(T (W x00 x00 x00 x00 x00 x00 x00 x00)
(T (W x50 x00 x00 x00 x44 x00 x00 x00)
(L (W x6c x00 x00 x00 x60 x00 x00 x00)) E)
(L (W x00 x00 x80 xbf x00 x00 x80 xbf)))
(T (W xcb x01 x00 x00 xff xff xff xff)
(T (W x4f x84 x6f x8b xe8 xcb x63 xb7)
(L (W x00 x00 x00 x00 x00 x00 x00 x00)) E)
(L (W x00 x00 x80 xbf x00 x00 x80 xbf))))
(T (W x50 x00 x00 x00 x44 x00 x00 x00)
(T (W x0a x96 xfc xff x78 x00 x00 x00)
(T (W xc4 xef xff xff x01 x01 x01 x01)
(L (W x45 x26 x22 x84 xe4 x9c xf2 xcb)) E)
(L (W x00 x00 x00 x00 x00 x00 x00 x00)))
(T (W x52 x14 xfd xff x74 x00 x00 x00)
(L (W x00 x00 x00 x00 x00 x00 x00 x00))
(L (W xff xff xff xff xff xff xff xff)))))
(T (W x00 x00 x00 x00 x00 x00 x00 x00)
(T (W xc0 x00 x00 x00 xb4 x00 x00 x00)
(T (W x44 x02 x00 x00 x30 x01 x00 x00)
(T (W xff xff xff xff xff xff xff xff)
(L (W xff xff xff xff xff xff xff xff)) E)
(L (W x52 x74 xfe xff x74 x00 x00 x00)))
(T (W xff xff xff xff xff xff xff xff)
(T (W x18 x00 x00 x00 x0c x00 x00 x00)
(L (W x00 x00 x00 x00 x00 x00 x00 x00)) E)
(L (W x00 x00 x80 xbf x00 x00 x80 xbf))))
(T (W x00 x00 x80 x3f x00 x00 x80 x3f)
(T (W x30 x35 x5f x43 x4c x45 x41 x52)
(T (W x00 x00 x00 x00 x00 x00 x00 x00)
(L (W x00 x00 x00 x00 x00 x00 x00 x00)) E)
(L (W xff xff xff xff xff xff xff xff)))
(T (W xff xff xff xff xff xff xff xff)
(L (W x00 x00 x00 x00 xa4 x37 xfe xff))
(L (W xa9 x01 x00 x00 xff xff xff xff)))))))
(T (W x00 x00 x00 x00 x00 x00 x00 x00)
(T (W x00 x00 x00 x00 x00 x00 x00 x00)
(T (W x00 x00 x00 x00 x00 x00 x00 x00)
(T (W xff xff xff xff xff xff xff xff)
(T (W x45 x26 x22 x84 xe4 x9c xf2 xcb)
(T (W x68 x00 x00 x00 x5c x00 x00 x00)
(L (W x00 x00 x00 x00 x00 x00 x00 x00)) E)
(L (W x00 x00 x80 x3f x00 x00 x80 x3f)))
(T (W xff xff xff xff x9c x00 x00 x00)
(T (W x00 x00 x00 x00 x00 x00 x00 x00)
(L (W x00 x00 x00 x00 x00 x00 x00 x00)) E)
(L (W x30 x35 x5f x43 x4c x45 x41 x52))))
(T (W x45 x26 x22 x84 xe4 x9c xf2 xcb)
(T (W x00 x00 x80 x3f x00 x00 x80 x3f)
(T (W xff xff xff xff xff xff xff xff)
(L (W x00 x00 x00 x00 x00 x00 x00 x00)) E)
(L (W xff xff xff xff xff xff xff xff)))
(T (W x00 x00 x80 x3f x00 x00 x80 x3f)
(L (W x00 x00 x00 x00 x00 x00 x00 x00))
(L (W x34 x11 xff xff x00 x01 x01 x01)))))
(T (W x18 x01 x00 x00 x04 x00 x00 x00)
(T (W xb8 x00 x00 x00 xac x00 x00 x00)
(T (W x00 x00 x00 x00 x00 x00 x00 x00)
(T (W x00 x00 x00 x00 x00 x00 x00 x00)
(L (W xff xff xff xff xff xff xff xff)) E)
(L (W x44 x00 x00 x00 x00 x00 x80 xbf)))
(T (W x45 x26 x22 x84 xe4 x9c xf2 xcb)
(T (W x18 x00 x00 x00 x10 x00 x00 x00)
(L (W xff xff xff xff xff xff xff xff)) E)
(L (W x5c x00 x00 x00 x50 x00 x00 x00))))
(T (W x00 x00 x80 x3f x00 x00 x80 x3f)
(T (W xff xff xff xff xff xff xff xff)
(T (W x00 x00 x00 x00 x00 x00 x00 x00)
(L (W x00 x00 x00 x00 x00 x00 x00 x00)) E)
(L (W xff xff xff xff xff xff xff xff)))
(T (W xff xff xff xff xff xff xff xff)
(L (W x6c x00 x00 x00 x60 x00 x00 x00))
(L (W xff xff xff xff xff xff xff xff))))))
(T (W x00 x00 x00 x00 x00 x00 x00 x00)
(T (W x00 x00 x00 x00 x00 x00 x00 x00)
(T (W xff xff xff xff x04 x00 x00 x00)
(T (W x00 x00 x00 x00 x00 x00 x00 x00)
(T (W x45 x26 x22 x84 xe4 x9c xf2 xcb)
(L (W x18 x00 x00 x00 x10 x00 x00 x00)) E)
(L (W xff xff xff xff xa8 x00 x00 x00)))
(T (W x00 x00 x00 x00 x00 x00 x00 x00)
(T (W x00 x00 x80 xbf x00 x00 x80 xbf)
(L (W x00 x00 x00 x00 x00 x00 x00 x00)) E)
(L (W x00 x00 x80 xbf x00 x00 x80 xbf))))
(T (W x00 x00 x80 x3f x00 x00 x80 x3f)
(T (W x35 x00 x00 x00 x38 x00 x00 x00)
(T (W x45 x26 x22 x84 xe4 x9c xf2 xcb)
(L (W x00 x00 x00 x00 x00 x00 x00 x00)) E)
(L (W x00 x00 x01 x01 x90 x01 x00 x00)))
(T (W x45 x26 x22 x84 xe4 x9c xf2 xcb)
(L (W x00 x00 x00 x00 x00 x00 x00 x00))
(L (W xff xff xff xff xff xff xff xff)))))
(T (W x48 x03 x00 x00 x34 x02 x00 x00)
(T (W xff xff xff xff x03 x00 x00 x00)
(T (W x45 x44 x00 x00 x00 x00 x00 x00)
(T (W x00 x00 x00 x00 xa4 x7f xfd xff)
(L (W xff xff xff xff xff xff xff xff)) E)
(L (W x03 x00 x00 x00 xd0 x00 x00 x00)))
(T (W x38 x01 x00 x00 x04 x00 x00 x00)
(T (W xff xff xff xff x9c x00 x00 x00)
(L (W xff xff xff xff xff xff xff xff)) E)
(L (W x00 x00 x80 xbf x00 x00 x80 xbf))))
(T (W x00 x00 x80 x3f x00 x00 x80 x3f)
(T (W x00 x00 x00 x00 x00 x00 x00 x00)
(T (W xff xff xff xff xff xff xff xff)
(L (W xbb xf4 xaf x28 xbf x59 x5d x6a)) E)
(L (W xff xff xff xff xff xff xff xff)))
(T (W xff xff xff xff xff xff xff xff)
(L (W x00 x00 x00 x00 x38 x41 xfe xff))
(L (W xff xff xff xff xff xff xff xff)))))))))
(T (W x00 x00 x80 x3f x00 x00 x80 x3f)
(T (W x04 x00 x00 x00 x0a xe4 xff xff)
(T (W xff xff xff xff xff xff xff xff)
(T (W x2c xdc x79 xfc x48 x7c x13 x88)
(T (W x48 x03 x00 x00 x34 x02 x00 x00)
(T (W x18 x00 x00 x00 x0c x00 x00 x00)
(T (W xcc x4d xfc xff x3e x00 x00 x00)
(T (W x50 x00 x00 x00 x44 x00 x00 x00)
(L (W xff xff xff xff xff xff xff xff)) E)
(L (W x00 x00 x00 x00 x00 x00 x00 x00)))
(T (W x00 x00 x00 x00 x00 x00 x00 x00)
(T (W x0a xc4 xfd xff x78 x00 x00 x00)
(L (W xff xff xff xff xff xff xff xff)) E)
(L (W xff xff xff xff xff xff xff xff))))
(T (W x00 x00 x80 x3f x00 x00 x80 x3f)
(T (W x00 x00 x01 x01 x6a x01 x00 x00)
(T (W x68 x00 x00 x00 x5c x00 x00 x00)
(L (W x03 x00 x00 x00 xd8 x00 x00 x00)) E)
(L (W x0a x84 xfe xff x78 x00 x00 x00)))
(T (W xff xff xff xff xff xff xff xff)
(L (W x2f x00 x00 x00 x32 x00 x00 x00))
(L (W x00 x00 x00 x00 x00 x00 x00 x00)))))
(T (W xff xff xff xff x04 x00 x00 x00)
(T (W x52 xe2 xfb xff x74 x00 x00 x00)
(T (W xff xff xff xff xff xff xff xff)
(T (W x00 x00 x00 x00 x00 x00 x00 x00)
(L (W x00 x00 x80 xbf x00 x00 x80 xbf)) E)
(L (W x00 x00 x00 x00 x00 x00 x00 x00)))
(T (W x00 x00 x00 x00 x00 x00 x00 x00)
(T (W x00 x00 x80 xbf x00 x00 x80 xbf)
(L (W x49 xa1 x68 x4a xeb x5f xdd x3d)) E)
(L (W x00 x00 x00 x00 x00 x00 x00 x00))))
(T (W x00 x00 x00 x00 x00 x00 x00 x00)
(T (W x6c x00 x00 x00 x60 x00 x00 x00)
(T (W x00 x00 x80 xbf x00 x00 x80 xbf)
(L (W x00 x00 x00 x00 x00 x00 x00 x00)) E)
(L (W xff xff xff xff xff xff xff xff)))
(T (W x0a x24 xfd xff x78 x00 x00 x00)
(L (W xff xff xff xff xff xff xff xff))
(L (W x18 x00 x00 x00 x10 x00 x00 x00))))))
(T (W x00 x00 x00 x00 x00 x00 x00 x00)
(T (W xff xff xff xff xff xff xff xff)
(T (W x00 x00 x80 x3f x00 x00 x80 x3f)
(T (W xff xff xff xff xff xff xff xff)
(T (W x45 x26 x22 x84 xe4 x9c xf2 xcb)
(L (W x00 x00 x00 x00 x12 x00 x00 x00)) E)
(L (W x00 x00 x00 x00 x00 x00 x00 x00)))
(T (W x45 x26 x22 x84 xe4 x9c xf2 xcb)
(T (W xff xff xff xff xff xff xff xff)
(L (W x00 x00 x00 x00 x00 x00 x00 x00)) E)
(L (W x94 x04 x00 x00 x80 x03 x00 x00))))
(T (W x00 x00 x00 x00 x00 x00 x00 x00)
(T (W x00 x00 x00 x00 x00 x00 x00 x00)
(T (W x34 x00 x38 x00 x3c x00 x40 x00)
(L (W x00 x00 x00 x00 x00 x00 x00 x00)) E)
(L (W xff xff xff xff x9c x00 x00 x00)))
(T (W x00 x00 x00 x00 x00 x00 x00 x00)
(L (W xff xff xff xff xff xff xff xff))
(L (W x45 x26 x22 x84 xe4 x9c xf2 xcb)))))
(T (W xff xff xff xff x03 x00 x00 x00)
(T (W x00 x00 x80 x3f x00 x00 x80 x3f)
(T (W xff xff xff xff xb0 x00 x00 x00)
(T (W x00 x00 x00 x00 x00 x00 x00 x00)
(L (W x34 x77 xff xff x00 x01 x01 x01)) E)
(L (W x00 x00 x80 xbf x00 x00 x80 xbf)))
(T (W x00 x00 x80 x3f x00 x00 x80 x3f)
(T (W x00 x00 x80 xbf x00 x00 x80 xbf)
(L (W xff xff xff xff xff xff xff xff)) E)
(L (W x45 x26 x22 x84 xe4 x9c xf2 xcb))))
(T (W x00 x00 x00 x00 x00 x00 x00 x00)
(T (W xff xff xff xff xbc x00 x00 x00)
(T (W x45 x26 x22 x84 xe4 x9c xf2 xcb)
(L (W xff xff xff xff xff xff xff xff)) E)
(L (W x0a xb4 xfe xff x78 x00 x00 x00)))
(T (W x18 x00 x00 x00 x0c x00 x00 x00)
(L (W x45 x26 x22 x84 xe4 x9c xf2 xcb))
(L (W xff xff xff xff xff xff xff xff)))))))
(T (W x02 x00 x00 x00 x1c x01 x00 x00)
(T (W x9a xdb xfd xff xf6 x01 x00 x00)
(T (W xff xff xff xff xff xff xff xff)
(T (W x52 xca xfb xff x74 x00 x00 x00)
(T (W x01 x00 x00 x00 x04 x00 x00 x00)
(T (W x45 x26 x22 x84 xe4 x9c xf2 xcb)
(L (W xff xff xff xff xff xff xff xff)) E)
(L (W x00 x00 x00 x00 x00 x00 x00 x00)))
(T (W x00 x00 x80 x3f x00 x00 x80 x3f)
(T (W xff xff xff xff xff xff xff xff)
(L (W xff xff xff xff xff xff xff xff)) E)
(L (W xff xff xff xff xff xff xff xff))))
(T (W x00 x00 x00 x00 x00 x00 x00 x00)
(T (W x45 x44 x00 x00 x00 x00 x00 x00)
(T (W x68 x00 x00 x00 x5c x00 x00 x00)
(L (W xff xff xff xff xff xff xff xff)) E)
(L (W x45 x26 x22 x84 xe4 x9c xf2 xcb)))
(T (W x00 x00 x00 x00 x04 x00 x00 x00)
(L (W xff xff xff xff xbc x00 x00 x00))
(L (W x00 x00 x80 xbf x00 x00 x80 xbf)))))
(T (W x18 x00 x00 x00 x10 x00 x00 x00)
(T (W x34 xef xfb xff x00 x01 x01 x01)
(T (W x18 x00 x00 x00 x0c x00 x00 x00)
(T (W xd9 x01 x00 x00 xff xff xff xff)
(L (W x00 x00 x80 xbf x00 x00 x80 xbf)) E)
(L (W x49 xa1 x68 x4a xeb x5f xdd x3d)))
(T (W x00 x00 x80 x3f x00 x00 x80 x3f)
(T (W x00 x00 x80 xbf x00 x00 x80 xbf)
(L (W x00 x00 x80 xbf x00 x00 x80 xbf)) E)
(L (W x4f x84 x6f x8b xe8 xcb x63 xb7))))
(T (W x45 x26 x22 x84 xe4 x9c xf2 xcb)
(T (W x45 x26 x22 x84 xe4 x9c xf2 xcb)
(T (W xff xff xff xff xff xff xff xff)
(L (W xff xff xff xff xff xff xff xff)) E)
(L (W x00 x00 x80 x3f x00 x00 x80 x3f)))
(T (W x18 x00 x00 x00 x10 x00 x00 x00)
(L (W x00 x00 x00 x00 x00 x00 x00 x00))
(L (W x03 x00 x00 x00 xd0 x00 x00 x00))))))
(T (W x00 x00 x00 x00 x00 x00 x00 x00)
(T (W xff xff xff xff xff xff xff xff)
(T (W x68 x00 x00 x00 x5c x00 x00 x00)
(T (W xff xff xff xff xff xff xff xff)
(T (W x00 x00 x00 x00 x00 x00 x00 x00)
(L (W x00 x00 x00 x00 x00 x00 x00 x00)) E)
(L (W x4f x84 x6f x8b xe8 xcb x63 xb7)))
(T (W xff xff xff xff xff xff xff xff)
(T (W x9c xe2 xfd xff x18 x00 x00 x00)
(L (W x00 x00 x01 x01 xbe x00 x00 x00)) E)
(L (W x00 x00 x00 x00 x00 x00 x00 x00))))
(T (W x00 x00 x00 x00 x00 x00 x00 x00)
(T (W x00 x00 x80 x3f x00 x00 x80 x3f)
(T (W x64 x00 x68 x00 x62 x00 x00 x00)
(L (W x00 x00 x00 x00 x00 x00 x00 x00)) E)
(L (W xff xff xff xff xff xff xff xff)))
(T (W x00 x00 x80 x3f x00 x00 x80 x3f)
(L (W x00 x00 x00 x00 x00 x00 x00 x00))
(L (W x45 x26 x22 x84 xe4 x9c xf2 xcb)))))
(T (W xff xff xff xff xff xff xff xff)
(T (W x00 x00 x80 x3f x00 x00 x80 x3f)
(T (W xff xff xff xff xc4 x00 x00 x00)
(T (W x00 x00 x80 x3f x00 x00 x80 x3f)
(L (W x18 x00 x00 x00 x10 x00 x00 x00)) E)
(L (W x00 x00 x80 xbf x00 x00 x80 xbf)))
(T (W xff xff xff xff xac x00 x00 x00)
(T (W x00 x00 x80 xbf x00 x00 x80 xbf)
(L (W x06 x00 x07 x00 x00 x00 x00 x00)) E)
(L (W x00 x00 x00 x00 x00 x00 x00 x00))))
(T (W x00 x00 x00 x00 x00 x00 x00 x00)
(T (W xff xff xff xff xff xff xff xff)
(T (W x34 xbf xfd xff x00 x01 x01 x01)
(L (W xff xff xff xff xff xff xff xff)) E)
(L (W x45 x26 x22 x84 xe4 x9c xf2 xcb)))
(T (W x68 x00 x00 x00 x5c x00 x00 x00)
(L (W x00 x00 x00 x00 x00 x00 x00 x00))
(L (W xff xff xff xff xff xff xff xff))))))))
(T (W x45 x26 x22 x84 xe4 x9c xf2 xcb)
(T (W x00 x00 x80 x3f x00 x00 x80 x3f)
(T (W x74 x00 x0c x00 x10 x00 x00 x00)
(T (W x45 x26 x22 x84 xe4 x9c xf2 xcb)
(T (W x00 x00 x00 x00 x00 x00 x00 x00)
(T (W x00 x00 x00 x00 xa4 x49 xfc xff)
(T (W xb5 x01 x00 x00 xff xff xff xff)
(L (W x4f x84 x6f x8b xe8 xcb x63 xb7)) E)
(L (W x45 x26 x22 x84 xe4 x9c xf2 xcb)))
(T (W xff xff xff xff xbc x00 x00 x00)
(T (W x00 x00 x00 x00 x3a xc7 xfd xff)
(L (W x6c x00 x00 x00 x60 x00 x00 x00)) E)
(L (W x00 x00 x00 x00 x00 x00 x00 x00))))
(T (W xff xff xff xff xff xff xff xff)
(T (W x00 x00 x80 x3f x00 x00 x80 x3f)
(T (W x00 x00 x00 x00 x00 x00 x00 x00)
(L (W x00 x00 x00 x00 x00 x00 x00 x00)) E)
(L (W xba xdd xfe xff xd7 x00 x00 x00)))
(T (W x50 x00 x00 x00 x44 x00 x00 x00)
(L (W x00 x00 x00 x00 x00 x00 x00 x00))
(L (W xff xff xff xff xff xff xff xff)))))
(T (W x00 x00 x00 x00 x00 x00 x00 x00)
(T (W x0a x59 xfe xff x00 x00 x01 x01)
(T (W x00 x00 x80 x3f x00 x00 x80 x3f)
(T (W x50 x00 x00 x00 x44 x00 x00 x00)
(L (W xff xff xff xff xff xff xff xff)) E)
(L (W xff xff xff xff xff xff xff xff)))
(T (W xff xff xff xff xff xff xff xff)
(T (W xff xff xff xff xff xff xff xff)
(L (W xff xff xff xff xff xff xff xff)) E)
(L (W xff xff xff xff x9c x00 x00 x00))))
(T (W x64 x00 x00 x00 x9c x00 x00 x00)
(T (W x00 x00 x00 x00 x00 x00 x00 x00)
(T (W x4f x84 x6f x8b xe8 xcb x63 xb7)
(L (W x00 x00 x80 xbf x00 x00 x80 xbf)) E)
(L (W x00 x00 x80 xbf x00 x00 x80 xbf)))
(T (W x00 x00 x00 x00 x00 x00 x00 x00)
(L (W x44 x00 x00 x00 x38 x00 x00 x00))
(L (W x30 x35 x5f x43 x4c x45 x41 x52))))))
(T (W x00 x00 x80 x3f x00 x00 x80 x3f)
(T (W x00 x00 x80 x3f x00 x00 x80 x3f)
(T (W x00 x00 x00 x00 x00 x00 x00 x00)
(T (W x00 x00 x80 x3f x00 x00 x80 x3f)
(T (W xff xff xff xff x03 x00 x00 x00)
(L (W xff xff xff xff xff xff xff xff)) E)
(L (W xff xff xff xff x9c x00 x00 x00)))
(T (W x00 x00 x00 x00 x00 x00 x00 x00)
(T (W x54 x00 x00 x00 x48 x00 x00 x00)
(L (W x00 x00 x80 xbf x00 x00 x80 xbf)) E)
(L (W x6c x00 x00 x00 x60 x00 x00 x00))))
(T (W xff xff xff xff xff xff xff xff)
(T (W xff xff xff xff xff xff xff xff)
(T (W x00 x00 x01 x01 xdd x00 x00 x00)
(L (W x0a x98 xff xff x78 x00 x00 x00)) E)
(L (W x00 x00 x00 x00 x00 x00 x00 x00)))
(T (W xff xff xff xff xff xff xff xff)
(L (W x00 x00 x80 xbf x00 x00 x80 xbf))
(L (W x00 x00 x00 x00 x00 x00 x00 x00)))))
(T (W x00 x00 x00 x00 x00 x00 x00 x00)
(T (W xff xff xff xff xff xff xff xff)
(T (W x00 x00 x00 x00 x00 x00 x00 x00)
(T (W x18 x01 x00 x00 x04 x00 x00 x00)
(L (W x00 x00 x00 x00 x00 x00 x00 x00)) E)
(L (W xff xff xff xff xff xff xff xff)))
(T (W x00 x00 x00 x00 x00 x00 x00 x00)
(T (W xff xff xff xff xff xff xff xff)
(L (W x00 x00 x0c x00 x10 x00 x14 x00)) E)
(L (W xff xff xff xff xff xff xff xff))))
(T (W x50 x00 x00 x00 x44 x00 x00 x00)
(T (W x49 xa1 x68 x4a xeb x5f xdd x3d)
(T (W xff xff xff xff xff xff xff xff)
(L (W x00 x00 x00 x00 x00 x00 x00 x00)) E)
(L (W x3a x43 x3f xdc x00 xec x4e x2f)))
(T (W x00 x00 x00 x00 x00 x00 x00 x00)
(L (W xaa x01 x00 x00 xff xff xff xff))
(L (W x46 x53 x59 x53 x5f x4e x53 x5f)))))))
(T (W x6c x00 x00 x00 x60 x00 x00 x00)
(T (W x34 x73 xfb xff x00 x01 x01 x01)
(T (W x00 x00 x80 x3f x00 x00 x80 x3f)
(T (W x00 x00 x00 x00 x00 x00 x00 x00)
(T (W x45 x26 x22 x84 xe4 x9c xf2 xcb)
(T (W xff xff xff xff xff xff xff xff)
(L (W x68 x00 x00 x00 x5c x00 x00 x00)) E)
(L (W xff xff xff xff xff xff xff xff)))
(T (W x00 x00 x00 x00 x01 x00 x00 x00)
(T (W x00 x00 x00 x00 x00 x00 x00 x00)
(L (W x00 x00 x80 xbf x00 x00 x80 xbf)) E)
(L (W x00 x00 x80 xbf x00 x00 x80 xbf))))
(T (W xff xff xff xff xff xff xff xff)
(T (W x18 x00 x00 x00 x0c x00 x00 x00)
(T (W x00 x00 x80 x3f x00 x00 x80 x3f)
(L (W x00 x00 x80 xbf x00 x00 x80 xbf)) E)
(L (W x00 x00 x00 x00 x00 x00 x00 x00)))
(T (W x52 x0e xfd xff x74 x00 x00 x00)
(L (W x00 x00 x80 xbf x00 x00 x80 xbf))
(L (W xff xff xff xff xff xff xff xff)))))
(T (W x00 x00 x00 x00 x00 x00 x00 x00)
(T (W xff xff xff xff xff xff xff xff)
(T (W x00 x00 x00 x00 x00 x00 x00 x00)
(T (W x45 x26 x22 x84 xe4 x9c xf2 xcb)
(L (W x45 x44 x00 x00 x00 x00 x00 x00)) E)
(L (W xff xff xff xff xff xff xff xff)))
(T (W x9d x01 x00 x00 xff xff xff xff)
(T (W x45 x44 x00 x00 x00 x00 x00 x00)
(L (W x00 x00 x00 x00 x12 xf8 xff xff)) E)
(L (W xff xff xff xff xff xff xff xff))))
(T (W x34 x33 xfc xff x00 x01 x01 x01)
(T (W x00 x00 x00 x00 x00 x00 x00 x00)
(T (W x45 x26 x22 x84 xe4 x9c xf2 xcb)
(L (W x00 x00 x00 x00 x00 x00 x00 x00)) E)
(L (W x00 x00 x00 x00 x00 x00 x00 x00)))
(T (W x00 x00 x00 x00 x00 x00 x00 x00)
(L (W xff xff xff xff xff xff xff xff))
(L (W x00 x00 x00 x00 x00 x00 x00 x00))))))
(T (W x00 x00 x80 x3f x00 x00 x80 x3f)
(T (W x00 x00 x80 x3f x00 x00 x80 x3f)
(T (W x40 x00 x00 x00 x10 x00 x00 x00)
(T (W x00 x00 x80 x3f x00 x00 x80 x3f)
(T (W x68 x00 x00 x00 x5c x00 x00 x00)
(L (W xff xff xff xff xff xff xff xff)) E)
(L (W xff xff xff xff xff xff xff xff)))
(T (W x50 x00 x00 x00 x44 x00 x00 x00)
(T (W xb0 x00 x00 x00 x64 x00 x00 x00)
(L (W x50 x00 x00 x00 x44 x00 x00 x00)) E)
(L (W x18 x00 x00 x00 x0c x00 x00 x00))))
(T (W xff xff xff xff xff xff xff xff)
(T (W xff xff xff xff xff xff xff xff)
(T (W xb0 x00 x00 x00 x64 x00 x00 x00)
(L (W x18 x00 x00 x00 x0c x00 x00 x00)) E)
(L (W x00 x00 x00 x00 x00 x00 x00 x00)))
(T (W x00 x00 x00 x00 x00 x00 x00 x00)
(L (W x45 x26 x22 x84 xe4 x9c xf2 xcb))
(L (W x08 x00 x00 x00 x20 x08 x00 x00)))))
(T (W x00 x00 x00 x00 x00 x00 x00 x00)
(T (W xff xff xff xff xff xff xff xff)
(T (W x00 x00 x80 x3f x00 x00 x80 x3f)
(T (W x00 x00 x00 x00 x00 x00 x00 x00)
(L (W x00 x00 x00 x00 x00 x00 x00 x00)) E)
(L (W xff xff xff xff xff xff xff xff)))
(T (W x45 x26 x22 x84 xe4 x9c xf2 xcb)
(T (W x00 x00 x00 x00 x00 x00 x00 x00)
(L (W x08 x00 x0c x00 x10 x00 x14 x00)) E)
(L (W x03 x00 x00 x00 xd8 x00 x00 x00))))
(T (W x52 x3e xfc xff x74 x00 x00 x00)
(T (W x00 x00 x80 x3f x00 x00 x80 x3f)
(T (W x00 x00 x00 x00 x00 x00 x00 x00)
(L (W x00 x00 x80 xbf x00 x00 x80 xbf)) E)
(L (W x30 x35 x5f x43 x4c x45 x41 x52)))
(T (W x00 x00 x00 x00 x00 x00 x00 x00)
(L (W xc4 x00 x00 x00 x01 x00 x00 x00))
(L (W x00 x00 x00 x00 x00 x00 x00 x00))))))))))
(T (W x78 x43 x01 x00 xcc x3e x01 x00)
(T (W xb0 x13 x00 x00 x74 x12 x00 x00)
(T (W xff xff xff xff xff xff xff xff)
(T (W xff xff xff xff xff xff xff xff)
(T (W xff xff xff xff xff xff xff xff)
(T (W xff xff xff xff xff xff xff xff)
(T (W x00 x00 x80 x3f x00 x00 x80 x3f)
(T (W xff xff xff xff xff xff xff xff)
(T (W x45 x26 x22 x84 xe4 x9c xf2 xcb)
(L (W xc4 x00 x00 x00 x01 x00 x00 x00)) E)
(L (W x00 x00 x00 x00 x00 x00 x00 x00)))
(T (W x6a x01 x00 x00 xff xff xff xff)
(T (W x00 x00 x80 x3f x00 x00 x80 x3f)
(L (W xcc x00 x00 x00 x01 x00 x00 x00)) E)
(L (W xff xff xff xff xa0 x00 x00 x00))))
(T (W x00 x00 x00 x00 x00 x00 x00 x00)
(T (W xff xff xff xff xff xff xff xff)
(T (W x00 x00 x80 x3f x00 x00 x80 x3f)
(L (W x00 x00 x80 xbf x00 x00 x80 xbf)) E)
(L (W x00 x00 x80 xbf x00 x00 x80 xbf)))
(T (W xff xff xff xff xff xff xff xff)
(L (W x00 x00 x80 xbf x00 x00 x80 xbf))
(L (W x30 x35 x5f x43 x4c x45 x41 x52)))))
(T (W x52 xa1 xfb xff x74 x00 x00 x00)
(T (W x50 x00 x00 x00 x44 x00 x00 x00)
(T (W xff xff xff xff xff xff xff xff)
(T (W x1a x01 x00 x00 xff xff xff xff)
(L (W x00 x00 x00 x00 x00 x00 x00 x00)) E)
(L (W x45 x44 x00 x00 x00 x00 x00 x00)))
(T (W x00 x00 x00 x00 x00 x00 x00 x00)
(T (W x00 x00 x00 x00 x00 x00 x00 x00)
(L (W x00 x00 x00 x00 x00 x00 x00 x00)) E)
(L (W x00 x00 x00 x00 x00 x00 x00 x00))))
(T (W x00 x00 x00 x00 x00 x00 x00 x00)
(T (W x00 x00 x80 x3f x00 x00 x80 x3f)
(T (W x00 x00 x00 x00 x00 x00 x00 x00)
(L (W xbe x00 x00 x00 xff xff xff xff)) E)
(L (W x18 x00 x00 x00 x0c x00 x00 x00)))
(T (W x00 x00 x80 x3f x00 x00 x80 x3f)
(L (W xff xff xff xff xff xff xff xff))
(L (W x54 x00 x00 x00 x48 x00 x00 x00))))))
(T (W xff xff xff xff xff xff xff xff)
(T (W xff xff xff xff x04 x00 x00 x00)
(T (W x00 x00 x80 x3f x00 x00 x80 x3f)
(T (W xff xff xff xff xff xff xff xff)
(T (W x00 x00 x00 x00 x00 x00 x00 x00)
(L (W x02 x00 x00 x00 x30 x01 x00 x00)) E)
(L (W x30 x35 x5f x43 x4c x45 x41 x52)))
(T (W x00 x00 x80 x3f x00 x00 x80 x3f)
(T (W xff xff xff xff xff xff xff xff)
(L (W xff xff xff xff xff xff xff xff)) E)
(L (W xff xff xff xff xff xff xff xff))))
(T (W x00 x00 x00 x00 x00 x00 x00 x00)
(T (W x45 x44 x00 x00 x00 x00 x00 x00)
(T (W x00 x00 x28 x00 x2a x00 x00 x00)
(L (W xff xff xff xff xff xff xff xff)) E)
(L (W x0a x93 xfe xff x78 x00 x00 x00)))
(T (W x00 x00 x00 x00 x00 x00 x00 x00)
(L (W xff xff xff xff xff xff xff xff))
(L (W x00 x00 x80 xbf x00 x00 x80 xbf)))))
(T (W x01 x00 x00 x00 xa0 x00 x00 x00)
(T (W x00 x00 x80 x3f x00 x00 x80 x3f)
(T (W x00 x00 x80 x3f x00 x00 x80 x3f)
(T (W x00 x00 x00 x00 x00 x00 x00 x00)
(L (W x54 x00 x00 x00 x48 x00 x00 x00)) E)
(L (W x00 x00 x00 x00 x00 x00 x00 x00)))
(T (W x00 x00 x80 x3f x00 x00 x80 x3f)
(T (W x00 x00 x80 xbf x00 x00 x80 xbf)
(L (W x00 x00 x80 xbf x00 x00 x80 xbf)) E)
(L (W x00 x00 x00 x00 x00 x00 x00 x00))))
(T (W x00 x00 x00 x00 x00 x00 x00 x00)
(T (W x45 x26 x22 x84 xe4 x9c xf2 xcb)
(T (W x00 x00 x00 x00 x00 x00 x00 x00)
(L (W xff xff xff xff xff xff xff xff)) E)
(L (W x00 x00 x80 xbf x00 x00 x80 xbf)))
(T (W x00 x00 x80 x3f x00 x00 x80 x3f)
(L (W x00 x00 x00 x00 x00 x00 x00 x00))
(L (W xc4 x00 x00 x00 x01 x00 x00 x00)))))))
(T (W xff xff xff xff xff xff xff xff)
(T (W xff xff xff xff xff xff xff xff)
(T (W xff xff xff xff xff xff xff xff)
(T (W x00 x00 x80 x3f x00 x00 x80 x3f)
(T (W xff xff xff xff xff xff xff xff)
(T (W x45 x26 x22 x84 xe4 x9c xf2 xcb)
(L (W xff xff xff xff xff xff xff xff)) E)
(L (W x00 x00 x00 x00 x00 x00 x00 x00)))
(T (W x00 x00 x00 x00 x00 x00 x00 x00)
(T (W x54 x00 x00 x00 x48 x00 x00 x00)
(L (W xff xff xff xff xff xff xff xff)) E)
(L (W xcc x00 x00 x00 x01 x00 x00 x00))))
(T (W x00 x00 x00 x00 x00 x00 x00 x00)
(T (W xff xff xff xff xff xff xff xff)
(T (W x50 x00 x00 x00 x44 x00 x00 x00)
(L (W x33 x00 x00 x00 x36 x00 x00 x00)) E)
(L (W x6c x00 x00 x00 x60 x00 x00 x00)))
(T (W xff xff xff xff xff xff xff xff)
(L (W x45 x26 x22 x84 xe4 x9c xf2 xcb))
(L (W x45 x26 x22 x84 xe4 x9c xf2 xcb)))))
(T (W x45 x26 x22 x84 xe4 x9c xf2 xcb)
(T (W x00 x00 x80 x3f x00 x00 x80 x3f)
(T (W x00 x00 x00 x00 x00 x00 x00 x00)
(T (W xff xff xff xff xff xff xff xff)
(L (W x00 x00 x80 xbf x00 x00 x80 xbf)) E)
(L (W x00 x00 x00 x00 x00 x00 x00 x00)))
(T (W x00 x00 x00 x00 x00 x00 x00 x00)
(T (W x00 x00 x00 x00 x00 x00 x00 x00)
(L (W x00 x00 x80 xbf x00 x00 x80 xbf)) E)
(L (W x00 x00 x00 x00 x00 x00 x00 x00))))
(T (W xcc x34 xfc xff x3c x00 x00 x00)
(T (W x6c x00 x00 x00 x60 x00 x00 x00)
(T (W xff xff xff xff xa0 x00 x00 x00)
(L (W x1a x00 x00 x00 x1d x00 x00 x00)) E)
(L (W x00 x00 x00 x00 x00 x00 x00 x00)))
(T (W x34 x2e xfd xff x00 x01 x01 x01)
(L (W xc3 x7a xc7 x28 xbf xc9 x78 x6a))
(L (W x18 x00 x00 x00 x10 x00 x00 x00))))))
(T (W xcc x01 x00 x00 xff xff xff xff)
(T (W x18 x00 x00 x00 x0c x00 x00 x00)
(T (W x00 x00 x80 x3f x00 x00 x80 x3f)
(T (W xff xff xff xff xff xff xff xff)
(T (W x00 x00 x00 x00 x00 x00 x00 x00)
(L (W x30 x35 x5f x43 x4c x45 x41 x52)) E)
(L (W x00 x00 x00 x00 x00 x00 x00 x00)))
(T (W xff xff xff xff xbc x00 x00 x00)
(T (W xff xff xff xff xff xff xff xff)
(L (W xff xff xff xff xff xff xff xff)) E)
(L (W x94 x04 x00 x00 x80 x03 x00 x00))))
(T (W x00 x00 x00 x00 x00 x00 x00 x00)
(T (W x00 x00 x00 x00 x00 x00 x00 x00)
(T (W x00 x00 x80 xbf x00 x00 x80 xbf)
(L (W xff xff xff xff xff xff xff xff)) E)
(L (W xff xff xff xff xff xff xff xff)))
(T (W x4f x84 x6f x8b xe8 xcb x63 xb7)
(L (W xff xff xff xff xff xff xff xff))
(L (W x6c x00 x00 x00 x60 x00 x00 x00)))))
(T (W x52 xb9 xfb xff x74 x00 x00 x00)
(T (W x00 x00 x00 x00 x00 x00 x00 x00)
(T (W x45 x26 x22 x84 xe4 x9c xf2 xcb)
(T (W x00 x00 x80 x3f x00 x00 x80 x3f)
(L (W x54 x00 x00 x00 x48 x00 x00 x00)) E)
(L (W x45 x26 x22 x84 xe4 x9c xf2 xcb)))
(T (W x00 x00 x00 x00 xa4 xfc xfc xff)
(T (W x00 x00 x80 xbf x00 x00 x80 xbf)
(L (W xff xff xff xff xff xff xff xff)) E)
(L (W x9c x01 xff xff x2d x00 x00 x00))))
(T (W x00 x00 x00 x00 x02 x00 x00 x00)
(T (W xff xff xff xff xbc x00 x00 x00)
(T (W x45 x26 x22 x84 xe4 x9c xf2 xcb)
(L (W xff xff xff xff xa0 x00 x00 x00)) E)
(L (W x54 x00 x00 x00 x48 x00 x00 x00)))
(T (W x50 x00 x00 x00 x44 x00 x00 x00)
(L (W x00 x00 x00 x00 x00 x00 x00 x00))
(L (W xff xff xff xff xa0 x00 x00 x00))))))))
(T (W x45 x26 x22 x84 xe4 x9c xf2 xcb)
(T (W x00 x00 x80 x3f x00 x00 x80 x3f)
(T (W xff xff xff xff x03 x00 x00 x00)
(T (W x45 x26 x22 x84 xe4 x9c xf2 xcb)
(T (W x29 x00 x00 x00 x10 x00 x00 x00)
(T (W x68 x00 x00 x00 x5c x00 x00 x00)
(T (W xff xff xff xff xff xff xff xff)
(L (W x00 x00 x00 x00 x00 x00 x00 x00)) E)
(L (W x00 x00 x80 xbf x00 x00 x80 xbf)))
(T (W x52 xc5 xfc xff x74 x00 x00 x00)
(T (W xff xff xff xff xff xff xff xff)
(L (W x00 x00 x00 x00 x00 x00 x00 x00)) E)
(L (W x30 x35 x5f x43 x4c x45 x41 x52))))
(T (W xff xff xff xff xff xff xff xff)
(T (W x00 x00 x80 x3f x00 x00 x80 x3f)
(T (W x00 x00 x00 x00 x00 x00 x00 x00)
(L (W x30 x35 x5f x43 x4c x45 x41 x52)) E)
(L (W xff xff xff xff xff xff xff xff)))
(T (W x00 x00 x00 x00 x00 x00 x00 x00)
(L (W x00 x00 x00 x00 x00 x00 x00 x00))
(L (W x18 x00 x00 x00 x0c x00 x00 x00)))))
(T (W x00 x00 x00 x00 x00 x00 x00 x00)
(T (W xff xff xff xff xff xff xff xff)
(T (W x00 x00 x00 x00 x00 x00 x00 x00)
(T (W x45 x26 x22 x84 xe4 x9c xf2 xcb)
(L (W xff xff xff xff xff xff xff xff)) E)
(L (W xff xff xff xff xb0 x00 x00 x00)))
(T (W xff xff xff xff xac x00 x00 x00)
(T (W xff xff xff xff xff xff xff xff)
(L (W x00 x00 x00 x00 x60 xe5 xff xff)) E)
(L (W x0a xe7 xfe xff x78 x00 x00 x00))))
(T (W x50 x00 x00 x00 x44 x00 x00 x00)
(T (W xff xff xff xff xff xff xff xff)
(T (W x00 x00 x00 x00 x08 x00 x00 x00)
(L (W x00 x00 x80 xbf x00 x00 x80 xbf)) E)
(L (W x00 x00 x00 x00 x00 x00 x00 x00)))
(T (W x00 x00 x00 x00 x00 x00 x00 x00)
(L (W x00 x00 x00 x00 x00 x00 x00 x00))
(L (W x00 x00 x01 x01 xdc x00 x00 x00))))))
(T (W x45 x26 x22 x84 xe4 x9c xf2 xcb)
(T (W x00 x00 x80 x3f x00 x00 x80 x3f)
(T (W x1c x01 x00 x00 x04 x00 x00 x00)
(T (W x00 x00 x80 x3f x00 x00 x80 x3f)
(T (W x68 x00 x00 x00 x5c x00 x00 x00)
(L (W xff xff xff xff xa0 x00 x00 x00)) E)
(L (W x0a x57 xfe xff x78 x00 x00 x00)))
(T (W x00 x00 x00 x00 x00 x00 x00 x00)
(T (W x00 x00 x80 xbf x00 x00 x80 xbf)
(L (W x00 x00 x80 xbf x00 x00 x80 xbf)) E)
(L (W x00 x00 x80 xbf x00 x00 x80 xbf))))
(T (W xbc x00 x00 x00 xb0 x00 x00 x00)
(T (W x18 x00 x00 x00 x0c x00 x00 x00)
(T (W xff xff xff xff xff xff xff xff)
(L (W x00 x00 x80 xbf x00 x00 x80 xbf)) E)
(L (W x00 x00 x00 x00 x00 x00 x00 x00)))
(T (W x2d x00 x00 x00 x30 x00 x00 x00)
(L (W x00 x00 x80 xbf x00 x00 x80 xbf))
(L (W xff xff xff xff xff xff xff xff)))))
(T (W x00 x00 x00 x00 x00 x00 x00 x00)
(T (W xff xff xff xff xff xff xff xff)
(T (W x00 x00 x00 x00 x12 x00 x00 x00)
(T (W xff xff xff xff xff xff xff xff)
(L (W x00 x00 x00 x00 x00 x00 x00 x00)) E)
(L (W xff xff xff xff xff xff xff xff)))
(T (W x02 x00 x00 x00 xff xff xff xff)
(T (W xff xff xff xff xff xff xff xff)
(L (W xff xff xff xff xff xff xff xff)) E)
(L (W xbc x00 x00 x00 x01 x00 x00 x00))))
(T (W x00 x00 x80 x3f x00 x00 x80 x3f)
(T (W x00 x00 x00 x00 x00 x00 x00 x00)
(T (W x00 x00 x80 x3f x00 x00 x80 x3f)
(L (W x00 x00 x00 x00 x00 x00 x00 x00)) E)
(L (W xff xff xff xff xff xff xff xff)))
(T (W x3a x02 x00 x00 xff xff xff xff)
(L (W xff xff xff xff xff xff xff xff))
(L (W x00 x00 x01 x01 xdc x00 x00 x00)))))))
(T (W x00 x00 x80 x3f x00 x00 x80 x3f)
(T (W x00 x00 x80 x3f x00 x00 x80 x3f)
(T (W x45 x26 x22 x84 xe4 x9c xf2 xcb)
(T (W x00 x00 x00 x00 x6a x65 xff xff)
(T (W x00 x00 x80 x3f x00 x00 x80 x3f)
(T (W xff xff xff xff x03 x00 x00 x00)
(L (W x00 x00 x80 xbf x00 x00 x80 xbf)) E)
(L (W x00 x00 x00 x00 xa4 x50 xfe xff)))
(T (W xff xff xff xff xff xff xff xff)
(T (W x00 x00 x00 x00 x12 x00 x00 x00)
(L (W x00 x00 x80 xbf x00 x00 x80 xbf)) E)
(L (W x00 x00 x00 x00 x00 x00 x00 x00))))
(T (W x64 x00 x00 x00 x9c x00 x00 x00)
(T (W x0a x8f xfc xff x78 x00 x00 x00)
(T (W x00 x00 x00 x00 x00 x00 x10 x00)
(L (W x00 x00 x00 x00 x00 x00 x00 x00)) E)
(L (W xff xff xff xff x01 x00 x00 x00)))
(T (W x00 x00 x80 x3f x00 x00 x80 x3f)
(L (W x00 x00 x00 x00 x00 x00 x00 x00))
(L (W xb8 x00 x00 x00 x64 x00 x00 x00)))))
(T (W x00 x00 x00 x00 x00 x00 x00 x00)
(T (W xff xff xff xff xff xff xff xff)
(T (W x00 x00 x00 x00 x00 x00 x00 x00)
(T (W x45 x26 x22 x84 xe4 x9c xf2 xcb)
(L (W xff xff xff xff xff xff xff xff)) E)
(L (W xa0 x70 xfe xff xfa x87 xfe xff)))
(T (W xff xff xff xff xbc x00 x00 x00)
(T (W xff xff xff xff xff xff xff xff)
(L (W xff xff xff xff xff xff xff xff)) E)
(L (W x14 x00 x00 x00 x0c x00 x00 x00))))
(T (W x00 x00 x80 x3f x00 x00 x80 x3f)
(T (W x00 x00 x00 x00 x00 x00 x00 x00)
(T (W x00 x00 x80 x3f x00 x00 x80 x3f)
(L (W x00 x00 x00 x00 x12 x00 x00 x00)) E)
(L (W x84 x04 x00 x00 x70 x03 x00 x00)))
(T (W x39 x4c x2b x97 x85 x99 x55 x5f)
(L (W xff xff xff xff xa0 x00 x00 x00))
(L (W x45 x44 x00 x00 x00 x00 x00 x00))))))
(T (W x00 x00 x00 x00 x00 x00 x00 x00)
(T (W x00 x00 x00 x00 x00 x00 x00 x00)
(T (W xff xff xff xff xff xff xff xff)
(T (W x45 x26 x22 x84 xe4 x9c xf2 xcb)
(T (W x50 x00 x00 x00 x44 x00 x00 x00)
(L (W x03 x00 x00 x00 xd0 x00 x00 x00)) E)
(L (W xff xff xff xff xff xff xff xff)))
(T (W x00 x00 x80 x3f x00 x00 x80 x3f)
(T (W x34 xe2 xfd xff x00 x01 x01 x01)
(L (W x00 x00 x80 xbf x00 x00 x80 xbf)) E)
(L (W x6c x00 x00 x00 x60 x00 x00 x00))))
(T (W x34 x22 xfc xff x00 x01 x01 x01)
(T (W xff xff xff xff xff xff xff xff)
(T (W x50 x00 x00 x00 x44 x00 x00 x00)
(L (W x00 x00 x80 xbf x00 x00 x80 xbf)) E)
(L (W x46 x53 x59 x53 x5f x4e x53 x5f)))
(T (W xff xff xff xff xff xff xff xff)
(L (W x00 x00 x80 xbf x00 x00 x80 xbf))
(L (W xff xff xff xff xff xff xff xff)))))
(T (W x00 x00 x00 x00 x00 x00 x00 x00)
(T (W xff xff xff xff xff xff xff xff)
(T (W x00 x00 x00 x00 x00 x00 x00 x00)
(T (W x0a xf0 xff xff x00 x00 x01 x01)
(L (W x04 x00 x00 x00 x70 x03 x00 x00)) E)
(L (W xff xff xff xff xff xff xff xff)))
(T (W x00 x00 x00 x00 x00 x00 x00 x00)
(T (W xff xff xff xff xff xff xff xff)
(L (W x00 x00 x62 x00 x7c x00 x08 x00)) E)
(L (W x00 x00 x80 xbf x00 x00 x80 xbf))))
(T (W x50 x00 x00 x00 x44 x00 x00 x00)
(T (W x00 x00 x80 x3f x00 x00 x80 x3f)
(T (W xff xff xff xff xff xff xff xff)
(L (W x4f x84 x6f x8b xe8 xcb x63 xb7)) E)
(L (W xff xff xff xff xff xff xff xff)))
(T (W xbf x01 x00 x00 xff xff xff xff)
(L (W xff xff xff xff x90 x00 x00 x00))
(L (W x30 x35 x5f x43 x4c x45 x41 x52)))))))))
(T (W x68 x00 x00 x00 x5c x00 x00 x00)
(T (W x00 x00 x00 x00 x00 x00 x00 x00)
(T (W x9c x5b xfb xff x33 x00 x00 x00)
(T (W x00 x00 x00 x00 x00 x00 x00 x00)
(T (W x00 x00 x00 x00 x00 x00 x00 x00)
(T (W xff xff xff xff xff xff xff xff)
(T (W x00 x00 x00 x00 x00 x00 x00 x00)
(T (W x68 x00 x00 x00 x5c x00 x00 x00)
(L (W xff xff xff xff xff xff xff xff)) E)
(L (W x49 xa1 x68 x4a xeb x5f xdd x3d)))
(T (W x00 x00 x00 x00 x00 x00 x00 x00)
(T (W x18 x00 x00 x00 x0c x00 x00 x00)
(L (W xff xff xff xff xff xff xff xff)) E)
(L (W xff xff xff xff xff xff xff xff))))
(T (W x6c x00 x00 x00 x60 x00 x00 x00)
(T (W x46 x53 x59 x53 x5f x4e x53 x5f)
(T (W x52 x83 xfd xff x74 x00 x00 x00)
(L (W xff xff xff xff xff xff xff xff)) E)
(L (W x18 x00 x00 x00 x0c x00 x00 x00)))
(T (W x7a x5b xfe xff x00 x00 x01 x01)
(L (W xff xff xff xff xff xff xff xff))
(L (W x49 xa1 x68 x4a xeb x5f xdd x3d)))))
(T (W xff xff xff xff xff xff xff xff)
(T (W x45 x26 x22 x84 xe4 x9c xf2 xcb)
(T (W xff xff xff xff xff xff xff xff)
(T (W x00 x00 x00 x00 x00 x00 x00 x00)
(L (W x45 x26 x22 x84 xe4 x9c xf2 xcb)) E)
(L (W x00 x00 x80 xbf x00 x00 x80 xbf)))
(T (W x4f x84 x6f x8b xe8 xcb x63 xb7)
(T (W x00 x00 x00 x00 xa4 xe6 xfd xff)
(L (W x00 x00 x80 xbf x00 x00 x80 xbf)) E)
(L (W x00 x00 x80 xbf x00 x00 x80 xbf))))
(T (W x45 x26 x22 x84 xe4 x9c xf2 xcb)
(T (W x45 x26 x22 x84 xe4 x9c xf2 xcb)
(T (W xc4 xfe xff xff x01 x01 x01 x01)
(L (W x00 x00 x00 x00 x12 x00 x00 x00)) E)
(L (W xff xff xff xff xff xff xff xff)))
(T (W xff xff xff xff x9c x00 x00 x00)
(L (W x00 x00 x00 x00 x00 x00 x00 x00))
(L (W x03 x00 x00 x00 xd8 x00 x00 x00))))))
(T (W x00 x00 x00 x00 x00 x00 x00 x00)
(T (W x00 x00 x00 x00 x6a x2b xff xff)
(T (W x18 x00 x00 x00 x0c x00 x00 x00)
(T (W x9c x5b xfc xff x3c x00 x00 x00)
(T (W x45 x26 x22 x84 xe4 x9c xf2 xcb)
(L (W x00 x00 x00 x00 x00 x00 x00 x00)) E)
(L (W x00 x00 x00 x00 x00 x00 x00 x00)))
(T (W xff xff xff xff xff xff xff xff)
(T (W x9c xdb xfd xff x12 x00 x00 x00)
(L (W x00 x00 x00 x00 x00 x00 x00 x00)) E)
(L (W x00 x00 x00 x00 x00 x00 x00 x00))))
(T (W x00 x00 x80 x3f x00 x00 x80 x3f)
(T (W x00 x00 x80 x3f x00 x00 x80 x3f)
(T (W x00 x00 x80 x3f x00 x00 x80 x3f)
(L (W x00 x00 x00 x00 x00 x00 x00 x00)) E)
(L (W xff xff xff xff xff xff xff xff)))
(T (W x45 x26 x22 x84 xe4 x9c xf2 xcb)
(L (W x45 x44 x00 x00 x00 x00 x00 x00))
(L (W xc4 x00 x00 x00 x02 x00 x00 x00)))))
(T (W x90 x01 x00 x00 xff xff xff xff)
(T (W x1d x00 x00 x00 x9c x00 x00 x00)
(T (W xff xff xff xff xff xff xff xff)
(T (W x00 x00 x00 x00 xa4 x76 xfd xff)
(L (W xb0 x00 x00 x00 x64 x00 x00 x00)) E)
(L (W x00 x00 x80 xbf x00 x00 x80 xbf)))
(T (W xc8 x00 x00 x00 x01 x00 x00 x00)
(T (W x0a xf5 xfd xff x78 x00 x00 x00)
(L (W x18 x01 x00 x00 xff xff xff xff)) E)
(L (W x00 x00 x80 xbf x00 x00 x80 xbf))))
(T (W x00 x00 x80 x3f x00 x00 x80 x3f)
(T (W xff xff xff xff xff xff xff xff)
(T (W x6e x00 x00 x00 x3a xb4 xfd xff)
(L (W xff xff xff xff xff xff xff xff)) E)
(L (W xff xff xff xff xa0 x00 x00 x00)))
(T (W xb8 x00 x00 x00 xac x00 x00 x00)
(L (W x00 x00 x80 xbf x00 x00 x80 xbf))
(L (W xff xff xff xff xff xff xff xff)))))))
(T (W x00 x00 x00 x00 x00 x00 x00 x00)
(T (W x00 x00 x00 x00 x00 x00 x00 x00)
(T (W x20 x00 x00 x00 x10 x00 x00 x00)
(T (W xff xff xff xff x04 x00 x00 x00)
(T (W x00 x00 x00 x00 x00 x00 x00 x00)
(T (W x50 x00 x00 x00 x44 x00 x00 x00)
(L (W x00 x00 x00 x00 x00 x00 x00 x00)) E)
(L (W x00 x00 x80 xbf x00 x00 x80 xbf)))
(T (W x50 x00 x00 x00 x44 x00 x00 x00)
(T (W xff xff xff xff xff xff xff xff)
(L (W x30 x35 x5f x43 x4c x45 x41 x52)) E)
(L (W xff xff xff xff xff xff xff xff))))
(T (W x00 x00 x80 x3f x00 x00 x80 x3f)
(T (W x00 x00 x00 x00 x00 x00 x00 x00)
(T (W xff xff xff xff x03 x00 x00 x00)
(L (W xff xff xff xff xff xff xff xff)) E)
(L (W xff xff xff xff xbc x00 x00 x00)))
(T (W x00 x00 x00 x00 x00 x00 x00 x00)
(L (W xff xff xff xff xff xff xff xff))
(L (W x00 x00 x80 xbf x00 x00 x80 xbf)))))
(T (W xff xff xff xff xff xff xff xff)
(T (W x18 x00 x00 x00 x10 x00 x00 x00)
(T (W x00 x00 x00 x00 x00 x00 x5c x00)
(T (W x00 x00 x00 x00 x00 x00 x00 x00)
(L (W xcc x00 x00 x00 x01 x00 x00 x00)) E)
(L (W x00 x00 x80 xbf x00 x00 x80 xbf)))
(T (W x68 x00 x00 x00 x5c x00 x00 x00)
(T (W x54 x00 x00 x00 x48 x00 x00 x00)
(L (W x03 x00 x00 x00 xd0 x00 x00 x00)) E)
(L (W x00 x00 x80 xbf x00 x00 x80 xbf))))
(T (W x00 x00 x80 x3f x00 x00 x80 x3f)
(T (W xff xff xff xff xbc x00 x00 x00)
(T (W x45 x44 x00 x00 x00 x00 x00 x00)
(L (W xff xff xff xff xff xff xff xff)) E)
(L (W xff xff xff xff xb0 x00 x00 x00)))
(T (W xff xff xff xff xff xff xff xff)
(L (W x45 x26 x22 x84 xe4 x9c xf2 xcb))
(L (W xff xff xff xff xff xff xff xff))))))
(T (W x00 x00 x00 x00 x00 x00 x00 x00)
(T (W x1c x01 x00 x00 x04 x00 x00 x00)
(T (W x52 xdb xfb xff x74 x00 x00 x00)
(T (W x01 x00 x00 x00 x04 x00 x00 x00)
(T (W x45 x26 x22 x84 xe4 x9c xf2 xcb)
(L (W x54 x00 x00 x00 x48 x00 x00 x00)) E)
(L (W x00 x00 x80 xbf x00 x00 x80 xbf)))
(T (W x27 x00 x00 x00 x10 x00 x00 x00)
(T (W x00 x00 x00 x00 x00 x00 x00 x00)
(L (W x30 x35 x5f x43 x4c x45 x41 x52)) E)
(L (W x00 x00 x80 xbf x00 x00 x80 xbf))))
(T (W x00 x00 x00 x00 x00 x00 x00 x00)
(T (W x00 x00 x80 x3f x00 x00 x80 x3f)
(T (W x00 x00 x00 x00 x00 x00 x00 x00)
(L (W x00 x00 x00 x00 x00 x00 x00 x00)) E)
(L (W xff xff xff xff xff xff xff xff)))
(T (W x50 x00 x00 x00 x44 x00 x00 x00)
(L (W x00 x00 x00 x00 x00 x00 x00 x00))
(L (W xac x00 x00 x00 x14 x00 x00 x00)))))
(T (W xff xff xff xff xff xff xff xff)
(T (W x50 x00 x00 x00 x44 x00 x00 x00)
(T (W xff xff xff xff xff xff xff xff)
(T (W x52 x7b xfd xff x74 x00 x00 x00)
(L (W x03 x00 x00 x00 xd0 x00 x00 x00)) E)
(L (W x50 x00 x00 x00 x44 x00 x00 x00)))
(T (W xff xff xff xff xff xff xff xff)
(T (W x52 xfb xfd xff x74 x00 x00 x00)
(L (W x00 x00 x80 xbf x00 x00 x80 xbf)) E)
(L (W x45 x26 x22 x84 xe4 x9c xf2 xcb))))
(T (W x00 x00 x00 x00 x00 x00 x00 x00)
(T (W x00 x00 x00 x00 x00 x00 x00 x00)
(T (W xb4 x00 x00 x00 x64 x00 x00 x00)
(L (W xff xff xff xff xff xff xff xff)) E)
(L (W xcc x00 x00 x00 x01 x00 x00 x00)))
(T (W xff xff xff xff x03 x00 x00 x00)
(L (W x00 x00 x80 xbf x00 x00 x80 xbf))
(L (W xff xff xff xff xff xff xff xff))))))))
(T (W x50 x00 x00 x00 x44 x00 x00 x00)
(T (W x00 x00 x80 x3f x00 x00 x80 x3f)
(T (W x00 x00 x80 x3f x00 x00 x80 x3f)
(T (W x00 x00 x80 x3f x00 x00 x80 x3f)
(T (W x45 x26 x22 x84 xe4 x9c xf2 xcb)
(T (W x18 x00 x00 x00 x0c x00 x00 x00)
(T (W x00 x00 x00 x00 x00 x00 x00 x00)
(L (W x00 x00 x80 xbf x00 x00 x80 xbf)) E)
(L (W xff xff xff xff xff xff xff xff)))
(T (W xff xff xff xff xff xff xff xff)
(T (W x00 x00 x00 x00 x00 x00 x00 x00)
(L (W xff xff xff xff xa0 x00 x00 x00)) E)
(L (W x00 x00 x80 xbf x00 x00 x80 xbf))))
(T (W xdd x00 x00 x00 xff xff xff xff)
(T (W x18 x00 x00 x00 x0c x00 x00 x00)
(T (W x45 x26 x22 x84 xe4 x9c xf2 xcb)
(L (W x49 xa1 x68 x4a xeb x5f xdd x3d)) E)
(L (W x00 x00 x00 x00 x00 x00 x00 x00)))
(T (W x18 x00 x00 x00 x10 x00 x00 x00)
(L (W x00 x00 x80 xbf x00 x00 x80 xbf))
(L (W x04 x00 x00 x00 x02 x0a xff xff)))))
(T (W x50 x00 x00 x00 x44 x00 x00 x00)
(T (W x00 x00 x00 x00 x00 x00 x00 x00)
(T (W x0a x69 xfc xff x78 x00 x00 x00)
(T (W x68 x00 x00 x00 x5c x00 x00 x00)
(L (W x00 x00 x00 x00 x00 x00 x00 x00)) E)
(L (W x3c x02 x00 x00 x30 x01 x00 x00)))
(T (W xff xff xff xff xff xff xff xff)
(T (W x00 x00 x00 x00 x00 x00 x00 x00)
(L (W x00 x00 x00 x00 x00 x00 x00 x00)) E)
(L (W xff xff xff xff xff xff xff xff))))
(T (W xff xff xff xff xff xff xff xff)
(T (W x00 x00 x00 x00 x00 x00 x00 x00)
(T (W x00 x00 x80 x3f x00 x00 x80 x3f)
(L (W x00 x00 x00 x00 x00 x00 x00 x00)) E)
(L (W x50 x00 x00 x00 x44 x00 x00 x00)))
(T (W x4f x84 x6f x8b xe8 xcb x63 xb7)
(L (W x0c x00 x10 x00 x14 x00 x18 x00))
(L (W x00 x00 x00 x00 x00 x00 x00 x00))))))
(T (W x01 x00 x00 x00 xa0 x00 x00 x00)
(T (W x00 x00 x80 x3f x00 x00 x80 x3f)
(T (W x00 x00 x00 x00 x00 x00 x00 x00)
(T (W x01 x00 x00 x00 x3e x00 x00 x00)
(T (W xff xff xff xff xff xff xff xff)
(L (W xff xff xff xff xff xff xff xff)) E)
(L (W xff xff xff xff xff xff xff xff)))
(T (W x00 x00 x80 x3f x00 x00 x80 x3f)
(T (W x45 x26 x22 x84 xe4 x9c xf2 xcb)
(L (W xa0 xda xff xff x92 xe3 xff xff)) E)
(L (W x18 x00 x00 x00 x0c x00 x00 x00))))
(T (W xca xad xff xff x00 x00 x01 x01)
(T (W x00 x00 x01 x01 x6a x01 x00 x00)
(T (W x00 x00 x00 x00 x00 x00 x00 x00)
(L (W xff xff xff xff xb0 x00 x00 x00)) E)
(L (W x00 x00 x80 xbf x00 x00 x80 xbf)))
(T (W xff xff xff xff xff xff xff xff)
(L (W x03 x00 x00 x00 xd0 x00 x00 x00))
(L (W x00 x00 x00 x00 x00 x00 x00 x00)))))
(T (W x00 x00 x00 x00 x00 x00 x00 x00)
(T (W x0a x6a xfe xff x00 x00 x01 x01)
(T (W x00 x00 x80 x3f x00 x00 x80 x3f)
(T (W x00 x00 x00 x00 x00 x00 x00 x00)
(L (W x00 x00 x00 x00 x12 x00 x00 x00)) E)
(L (W x1a x26 xb6 x28 xbf x64 x64 x6a)))
(T (W x00 x00 x00 x00 x00 x00 x00 x00)
(T (W x8f x00 x00 x00 xff xff xff xff)
(L (W x00 x00 x80 xbf x00 x00 x80 xbf)) E)
(L (W xff xff xff xff xff xff xff xff))))
(T (W x64 x00 x00 x00 x9c x00 x00 x00)
(T (W x00 x00 x80 x3f x00 x00 x80 x3f)
(T (W x61 x64 x65 x72 x5f x77 x69 x6c)
(L (W x45 x26 x22 x84 xe4 x9c xf2 xcb)) E)
(L (W x4f x84 x6f x8b xe8 xcb x63 xb7)))
(T (W x00 x00 x00 x00 x00 x00 x00 x00)
(L (W x00 x00 x00 x00 x92 x45 xfe xff))
(L (W x00 x00 x00 x00 x00 x00 x00 x00)))))))
(T (W x45 x26 x22 x84 xe4 x9c xf2 xcb)
(T (W x18 x00 x00 x00 x10 x00 x00 x00)
(T (W x00 x00 x80 x3f x00 x00 x80 x3f)
(T (W x00 x00 x80 x3f x00 x00 x80 x3f)
(T (W x3e x00 x00 x00 x9c x00 x00 x00)
(T (W x90 x01 x00 x00 xff xff xff xff)
(L (W x03 x00 x00 x00 xd0 x00 x00 x00)) E)
(L (W x5d x00 x00 x00 xff xff xff xff)))
(T (W x00 x00 x00 x00 x00 x00 x00 x00)
(T (W x00 x00 x80 xbf x00 x00 x80 xbf)
(L (W xff xff xff xff xff xff xff xff)) E)
(L (W x45 x26 x22 x84 xe4 x9c xf2 xcb))))
(T (W x52 xa4 xff xff xdd x00 x00 x00)
(T (W xff xff xff xff xff xff xff xff)
(T (W xff xff xff xff xff xff xff xff)
(L (W x00 x00 x80 xbf x00 x00 x80 xbf)) E)
(L (W x00 x00 x80 xbf x00 x00 x80 xbf)))
(T (W xff xff xff xff xff xff xff xff)
(L (W x00 x00 x80 xbf x00 x00 x80 xbf))
(L (W x45 x44 x00 x00 x00 x00 x00 x00)))))
(T (W x45 x26 x22 x84 xe4 x9c xf2 xcb)
(T (W x13 x00 x00 x00 x0c x00 x00 x00)
(T (W xff xff xff xff xff xff xff xff)
(T (W x50 x00 x00 x00 x44 x00 x00 x00)
(L (W x00 x00 x00 x00 x00 x00 x00 x00)) E)
(L (W xff xff xff xff xff xff xff xff)))
(T (W x5f x4e x53 x5f x30 x35 x5f x43)
(T (W x00 x00 x00 x00 x00 x00 x00 x00)
(L (W x00 x00 x00 x00 x00 x00 x00 x00)) E)
(L (W xff xff xff xff xff xff xff xff))))
(T (W xff xff xff xff xff xff xff xff)
(T (W x00 x00 x80 x3f x00 x00 x80 x3f)
(T (W xff xff xff xff xff xff xff xff)
(L (W x00 x00 x80 xbf x00 x00 x80 xbf)) E)
(L (W x45 x26 x22 x84 xe4 x9c xf2 xcb)))
(T (W x00 x00 x00 x00 x00 x00 x00 x00)
(L (W xff xff xff xff xff xff xff xff))
(L (W x49 xa1 x68 x4a xeb x5f xdd x3d))))))
(T (W x52 x7f xfb xff x74 x00 x00 x00)
(T (W x00 x00 x80 x3f x00 x00 x80 x3f)
(T (W x00 x00 x00 x00 x00 x00 x00 x00)
(T (W x68 x00 x00 x00 x5c x00 x00 x00)
(T (W xff xff xff xff x03 x00 x00 x00)
(L (W xff xff xff xff xff xff xff xff)) E)
(L (W xff xff xff xff xff xff xff xff)))
(T (W xff xff xff xff x9c x00 x00 x00)
(T (W xff xff xff xff xff xff xff xff)
(L (W xff xff xff xff xff xff xff xff)) E)
(L (W xff xff xff xff xff xff xff xff))))
(T (W xff xff xff xff xff xff xff xff)
(T (W x00 x00 x00 x00 x00 x00 x00 x00)
(T (W xff xff xff xff xff xff xff xff)
(L (W xff xff xff xff xff xff xff xff)) E)
(L (W x49 xa1 x68 x4a xeb x5f xdd x3d)))
(T (W x00 x00 x00 x00 x00 x00 x00 x00)
(L (W xac x00 x00 x00 x64 x00 x00 x00))
(L (W x00 x00 x00 x00 x00 x00 x00 x00)))))
(T (W x45 x26 x22 x84 xe4 x9c xf2 xcb)
(T (W xff xff xff xff xff xff xff xff)
(T (W x0a x81 xfc xff x78 x00 x00 x00)
(T (W x00 x00 x00 x00 x00 x00 x00 x00)
(L (W x45 x26 x22 x84 xe4 x9c xf2 xcb)) E)
(L (W x00 x00 x00 x00 x00 x00 x00 x00)))
(T (W x00 x00 x80 x3f x00 x00 x80 x3f)
(T (W x00 x00 x00 x00 x00 x00 x00 x00)
(L (W x00 x00 x48 x00 x4c x00 x00 x00)) E)
(L (W xff xff xff xff xff xff xff xff))))
(T (W x00 x00 x00 x00 xa4 x42 xfc xff)
(T (W x45 x26 x22 x84 xe4 x9c xf2 xcb)
(T (W x00 x00 x00 x00 x00 x00 x00 x00)
(L (W x54 x00 x00 x00 x48 x00 x00 x00)) E)
(L (W x00 x00 x00 x00 x00 x00 x00 x00)))
(T (W x00 x00 x00 x00 x00 x00 x00 x00)
(L (W xff xff xff xff xff xff xff xff))
(L (W x00 x00 x80 xbf x00 x00 x80 xbf))))))))))))
(T (W xf8 x7e x03 x00 xac x75 x03 x00)
(T (W x98 xdc x02 x00 xbc xd5 x02 x00)
(T (W xd0 x13 x02 x00 x8c x11 x02 x00)
(T (W xf8 xc9 x00 x00 xac xc7 x00 x00)
(T (W xff xff xff xff x01 x00 x00 x00)
(T (W xff xff xff xff xff xff xff xff)
(T (W xff xff xff xff xff xff xff xff)
(T (W xca xf2 xfd xff x00 x00 x01 x01)
(T (W x68 x00 x00 x00 x5c x00 x00 x00)
(T (W xca xb2 xfe xff x00 x00 x01 x01)
(T (W x50 x00 x00 x00 x44 x00 x00 x00)
(L (W x1d x00 x00 x00 x20 x00 x00 x00)) E)
(L (W x00 x00 x00 x00 x00 x00 x00 x00)))
(T (W x00 x00 x00 x00 x01 x00 x00 x00)
(T (W x6c x00 x00 x00 x60 x00 x00 x00)
(L (W xff xff xff xff xff xff xff xff)) E)
(L (W x03 x00 x00 x00 xd8 x00 x00 x00))))
(T (W x00 x00 x00 x00 x00 x00 x00 x00)
(T (W xff xff xff xff xff xff xff xff)
(T (W x68 x00 x00 x00 x5c x00 x00 x00)
(L (W xf4 x84 xff xff x00 x01 x01 x01)) E)
(L (W x00 x00 x80 xbf x00 x00 x80 xbf)))
(T (W xff xff xff xff xbc x00 x00 x00)
(T (W x12 x00 xfe xff x74 x00 x00 x00)
(L (W x18 x00 x1c x00 x20 x00 x24 x00)) E)
(L (W x00 x00 x00 x00 x00 x00 x00 x00)))))
(T (W xff xff xff xff xff xff xff xff)
(T (W x00 x00 x80 x3f x00 x00 x80 x3f)
(T (W x8a xf6 xff xff x00 x00 x01 x01)
(T (W x00 x00 x00 x00 x00 x00 x00 x00)
(L (W x4f x84 x6f x8b xe8 xcb x63 xb7)) E)
(L (W x00 x00 x00 x00 x00 x00 x00 x00)))
(T (W x13 x00 x00 x00 x10 x00 x00 x00)
(T (W x00 x00 x00 x00 x00 x00 x00 x00)
(L (W x45 x44 x00 x00 x00 x00 x00 x00)) E)
(L (W x00 x00 x00 x00 x00 x00 x00 x00))))
(T (W x00 x00 x00 x00 x00 x00 x00 x00)
(T (W x00 x00 x80 x3f x00 x00 x80 x3f)
(T (W x00 x00 x00 x00 x00 x00 x00 x00)
(L (W x00 x00 x00 x00 x00 x00 x00 x00)) E)
(L (W x14 x00 x00 x00 x0c x00 x00 x00)))
(T (W x00 x00 x80 x3f x00 x00 x80 x3f)
(L (W x00 x00 x01 x01 x63 x01 x00 x00))
(L (W x45 x26 x22 x84 xe4 x9c xf2 xcb))))))
(T (W x5f x5e x4d xf1 x3e x2d x3a x43)
(T (W xff xff xff xff xff xff xff xff)
(T (W x45 x26 x22 x84 xe4 x9c xf2 xcb)
(T (W x42 x00 x00 x00 xff xff xff xff)
(T (W x45 x26 x22 x84 xe4 x9c xf2 xcb)
(L (W x45 x44 x00 x00 x00 x00 x00 x00)) E)
(L (W x00 x00 x00 x00 x00 x00 x00 x00)))
(T (W x50 x00 x00 x00 x44 x00 x00 x00)
(T (W xff xff xff xff xff xff xff xff)
(L (W x46 x53 x59 x53 x5f x4e x53 x5f)) E)
(L (W xff xff xff xff xff xff xff xff))))
(T (W x45 x26 x22 x84 xe4 x9c xf2 xcb)
(T (W x00 x00 x00 x00 x00 x00 x00 x00)
(T (W x00 x00 x00 x00 x00 x00 x00 x00)
(L (W x04 x00 x00 x00 xc2 x92 xff xff)) E)
(L (W x1a x00 x00 x00 x1d x00 x00 x00)))
(T (W x00 x00 x00 x00 x00 x00 x00 x00)
(L (W xff xff xff xff xff xff xff xff))
(L (W x00 x00 x80 xbf x00 x00 x80 xbf)))))
(T (W xb8 x00 x00 x00 xac x00 x00 x00)
(T (W x00 x00 x80 x3f x00 x00 x80 x3f)
(T (W x00 x00 x00 x00 x0d x00 x00 x00)
(T (W xff xff xff xff xff xff xff xff)
(L (W x45 x26 x22 x84 xe4 x9c xf2 xcb)) E)
(L (W x00 x00 x00 x00 x00 x00 x00 x00)))
(T (W x00 x00 x80 x3f x00 x00 x80 x3f)
(T (W x00 x00 x80 xbf x00 x00 x80 xbf)
(L (W x74 x00 x00 x00 x68 x00 x00 x00)) E)
(L (W x00 x00 x00 x00 x00 x00 x00 x00))))
(T (W x00 x00 x00 x00 x00 x00 x00 x00)
(T (W xff xff xff xff xc8 x00 x00 x00)
(T (W x00 x00 x00 x00 x00 x00 x00 x00)
(L (W xb8 x00 x00 x00 x64 x00 x00 x00)) E)
(L (W xf4 xb4 xfe xff x00 x01 x01 x01)))
(T (W x18 x00 x00 x00 x0c x00 x00 x00)
(L (W x00 x00 x00 x00 x00 x00 x00 x00))
(L (W xff xff xff xff x9c x00 x00 x00)))))))
(T (W xff xff xff xff xff xff xff xff)
(T (W x00 x00 x00 x00 x00 x00 x00 x00)
(T (W xff xff xff xff xff xff xff xff)
(T (W xf4 xcc xfb xff x00 x01 x01 x01)
(T (W xff xff xff xff xff xff xff xff)
(T (W x45 x26 x22 x84 xe4 x9c xf2 xcb)
(L (W xff xff xff xff xff xff xff xff)) E)
(L (W x00 x00 x00 x00 x00 x00 x00 x00)))
(T (W x00 x00 x00 x00 x00 x00 x00 x00)
(T (W x45 x26 x22 x84 xe4 x9c xf2 xcb)
(L (W x00 x00 x01 x01 xa9 x01 x00 x00)) E)
(L (W x31 x00 x00 x00 x34 x00 x00 x00))))
(T (W x45 x26 x22 x84 xe4 x9c xf2 xcb)
(T (W x00 x00 x00 x00 xd2 x91 xfc xff)
(T (W x68 x00 x00 x00 x5c x00 x00 x00)
(L (W xff xff xff xff x9c x00 x00 x00)) E)
(L (W x45 x26 x22 x84 xe4 x9c xf2 xcb)))
(T (W x02 x00 x00 x00 xff xff xff xff)
(L (W xff xff xff xff xc8 x00 x00 x00))
(L (W x00 x00 x80 xbf x00 x00 x80 xbf)))))
(T (W xff xff xff xff xff xff xff xff)
(T (W x54 x00 x00 x00 x48 x00 x00 x00)
(T (W x28 x00 x2c x00 x30 x00 x34 x00)
(T (W xea x00 x00 x00 xff xff xff xff)
(L (W x00 x00 x80 xbf x00 x00 x80 xbf)) E)
(L (W x00 x00 x80 xbf x00 x00 x80 xbf)))
(T (W x00 x00 x00 x00 x00 x00 x00 x00)
(T (W x00 x00 x80 xbf x00 x00 x80 xbf)
(L (W x00 x00 x80 xbf x00 x00 x80 xbf)) E)
(L (W x4f x84 x6f x8b xe8 xcb x63 xb7))))
(T (W x00 x00 x00 x00 x00 x00 x00 x00)
(T (W x45 x26 x22 x84 xe4 x9c xf2 xcb)
(T (W x03 x00 x00 x00 xd8 x00 x00 x00)
(L (W x00 x00 x80 xbf x00 x00 x80 xbf)) E)
(L (W x58 x00 x00 x00 x5c x00 x00 x00)))
(T (W x45 x26 x22 x84 xe4 x9c xf2 xcb)
(L (W x00 x00 x00 x00 xea x47 xfe xff))
(L (W xcc x00 x00 x00 x01 x00 x00 x00))))))
(T (W xcc x01 x00 x00 xff xff xff xff)
(T (W xb8 x00 x00 x00 xac x00 x00 x00)
(T (W x18 x00 x00 x00 x0c x00 x00 x00)
(T (W x12 xed xff xff x41 x00 x00 x00)
(T (W x00 x00 x00 x00 x00 x00 x00 x00)
(L (W x00 x00 x00 x00 x00 x00 x00 x00)) E)
(L (W x00 x00 x00 x00 x00 x00 x00 x00)))
(T (W xff xff xff xff xff xff xff xff)
(T (W x02 x00 x00 x00 x30 x01 x00 x00)
(L (W xff xff xff xff xff xff xff xff)) E)
(L (W x00 x00 x00 x00 xfa xd8 xfe xff))))
(T (W x00 x00 x80 x3f x00 x00 x80 x3f)
(T (W x00 x00 x80 x3f x00 x00 x80 x3f)
(T (W x50 x00 x00 x00 x44 x00 x00 x00)
(L (W x00 x00 x00 x00 x00 x00 x00 x00)) E)
(L (W xff xff xff xff xff xff xff xff)))
(T (W x00 x00 x00 x00 x00 x00 x00 x00)
(L (W x45 x44 x00 x00 x00 x00 x00 x00))
(L (W xff xff xff xff xa8 x00 x00 x00)))))
(T (W x45 x26 x22 x84 xe4 x9c xf2 xcb)
(T (W x45 x26 x22 x84 xe4 x9c xf2 xcb)
(T (W xbc x00 x00 x00 x64 x00 x00 x00)
(T (W x00 x00 x80 x3f x00 x00 x80 x3f)
(L (W x00 x00 x80 xbf x00 x00 x80 xbf)) E)
(L (W x00 x00 x80 xbf x00 x00 x80 xbf)))
(T (W xff xff xff xff xac x00 x00 x00)
(T (W x45 x26 x22 x84 xe4 x9c xf2 xcb)
(L (W xff xff xff xff xff xff xff xff)) E)
(L (W x00 x00 x00 x00 x12 x00 x00 x00))))
(T (W x18 x00 x00 x00 x0c x00 x00 x00)
(T (W xff xff xff xff xff xff xff xff)
(T (W x00 x00 x80 x3f x00 x00 x80 x3f)
(L (W x03 x00 x00 x00 xd8 x00 x00 x00)) E)
(L (W x18 x00 x00 x00 x10 x00 x00 x00)))
(T (W x68 x00 x00 x00 x5c x00 x00 x00)
(L (W x49 xa1 x68 x4a xeb x5f xdd x3d))
(L (W x03 x00 x00 x00 xd8 x00 x00 x00))))))))
(T (W x00 x00 x80 x3f x00 x00 x80 x3f)
(T (W x54 x00 x00 x00 x48 x00 x00 x00)
(T (W x12 x64 xfb xff x74 x00 x00 x00)
(T (W x00 x00 x80 x3f x00 x00 x80 x3f)
(T (W x00 x00 x00 x00 x00 x00 x00 x00)
(T (W x50 x00 x00 x00 x44 x00 x00 x00)
(T (W xbb x01 x00 x00 xff xff xff xff)
(L (W x00 x00 x00 x00 x00 x00 x00 x00)) E)
(L (W x14 x00 x00 x00 x0c x00 x00 x00)))
(T (W x45 x26 x22 x84 xe4 x9c xf2 xcb)
(T (W x00 x00 x00 x00 xd2 xcd xfd xff)
(L (W x49 xa1 x68 x4a xeb x5f xdd x3d)) E)
(L (W x00 x00 x00 x00 x00 x00 x00 x00))))
(T (W xff xff xff xff xff xff xff xff)
(T (W x00 x00 x80 x3f x00 x00 x80 x3f)
(T (W x6b x65 x5f x63 x6f x77 x61 x72)
(L (W x00 x00 x00 x00 x00 x00 x00 x00)) E)
(L (W x00 x00 x00 x00 xd2 x8d xfe xff)))
(T (W x00 x00 x80 x3f x00 x00 x80 x3f)
(L (W x00 x00 x00 x00 x00 x00 x00 x00))
(L (W xff xff xff xff x9c x00 x00 x00)))))
(T (W x00 x00 x00 x00 x00 x00 x00 x00)
(T (W xff xff xff xff xff xff xff xff)
(T (W x00 x00 x00 x00 x00 x00 x00 x00)
(T (W x50 x00 x00 x00 x44 x00 x00 x00)
(L (W xff xff xff xff xff xff xff xff)) E)
(L (W xff xff xff xff xff xff xff xff)))
(T (W x45 x26 x22 x84 xe4 x9c xf2 xcb)
(T (W xff xff xff xff xff xff xff xff)
(L (W xc4 x00 x00 x00 x01 x00 x00 x00)) E)
(L (W xb4 x00 x00 x00 x0a x00 x00 x00))))
(T (W x12 x24 xfc xff x74 x00 x00 x00)
(T (W x69 x01 x00 x00 xff xff xff xff)
(T (W x04 x00 x00 x00 x52 xb2 xfd xff)
(L (W x00 x00 x80 xbf x00 x00 x80 xbf)) E)
(L (W x00 x00 x00 x00 x00 x00 x00 x00)))
(T (W x13 x00 x00 x00 x10 x00 x00 x00)
(L (W x00 x00 x80 xbf x00 x00 x80 xbf))
(L (W x30 x35 x5f x43 x4c x45 x41 x52))))))
(T (W x00 x00 x80 x3f x00 x00 x80 x3f)
(T (W x45 x26 x22 x84 xe4 x9c xf2 xcb)
(T (W x1c xc5 x03 x75 xb1 xd0 x11 x74)
(T (W x00 x00 x80 x3f x00 x00 x80 x3f)
(T (W xff xff xff xff x03 x00 x00 x00)
(L (W x03 x00 x00 x00 xd8 x00 x00 x00)) E)
(L (W x45 x26 x22 x84 xe4 x9c xf2 xcb)))
(T (W x00 x00 x00 x00 x00 x00 x00 x00)
(T (W x54 x00 x00 x00 x48 x00 x00 x00)
(L (W x00 x00 x80 xbf x00 x00 x80 xbf)) E)
(L (W xca xd5 xfe xff x78 x00 x00 x00))))
(T (W xff xff xff xff x04 x00 x00 x00)
(T (W xff xff xff xff xff xff xff xff)
(T (W xff xff xff xff xff xff xff xff)
(L (W x6c x00 x00 x00 x60 x00 x00 x00)) E)
(L (W x00 x00 x00 x00 x00 x00 x00 x00)))
(T (W xff xff xff xff xff xff xff xff)
(L (W x00 x00 x80 xbf x00 x00 x80 xbf))
(L (W x00 x00 x00 x00 x00 x00 x00 x00)))))
(T (W x45 x26 x22 x84 xe4 x9c xf2 xcb)
(T (W xff xff xff xff xff xff xff xff)
(T (W x00 x00 x00 x00 x00 x00 x00 x00)
(T (W x18 x01 x00 x00 x04 x00 x00 x00)
(L (W x5c x7c xff xff x35 x00 x00 x00)) E)
(L (W xff xff xff xff xff xff xff xff)))
(T (W x00 x00 x00 x00 x00 x00 x00 x00)
(T (W xff xff xff xff xff xff xff xff)
(L (W x00 x00 x80 xbf x00 x00 x80 xbf)) E)
(L (W xb0 x00 x00 x00 x64 x00 x00 x00))))
(T (W x18 x00 x00 x00 x10 x00 x00 x00)
(T (W x49 xa1 x68 x4a xeb x5f xdd x3d)
(T (W x00 x00 x80 x3f x00 x00 x80 x3f)
(L (W x00 x00 x00 x00 x00 x00 x00 x00)) E)
(L (W x00 x00 x01 x01 xbe x00 x00 x00)))
(T (W x5c x3c xfd xff x1b x00 x00 x00)
(L (W xff xff xff xff xff xff xff xff))
(L (W x00 x00 x00 x00 x00 x00 x00 x00)))))))
(T (W x00 x00 x80 x3f x00 x00 x80 x3f)
(T (W x00 x00 x80 x3f x00 x00 x80 x3f)
(T (W x00 x00 x80 x3f x00 x00 x80 x3f)
(T (W x00 x00 x00 x00 x00 x00 x00 x00)
(T (W x6c x00 x00 x00 x60 x00 x00 x00)
(T (W xff xff xff xff xff xff xff xff)
(L (W x00 x00 x80 xbf x00 x00 x80 xbf)) E)
(L (W xff xff xff xff xb0 x00 x00 x00)))
(T (W xff xff xff xff xff xff xff xff)
(T (W x45 x26 x22 x84 xe4 x9c xf2 xcb)
(L (W x00 x00 x80 xbf x00 x00 x80 xbf)) E)
(L (W x49 xa1 x68 x4a xeb x5f xdd x3d))))
(T (W xff xff xff xff xff xff xff xff)
(T (W x18 x00 x00 x00 x0c x00 x00 x00)
(T (W x00 x00 x00 x00 x00 x00 x00 x00)
(L (W x00 x00 x00 x00 x00 x00 x00 x00)) E)
(L (W x00 x00 x00 x00 x00 x00 x00 x00)))
(T (W x00 x00 x00 x00 x64 x0f xfd xff)
(L (W x00 x00 x00 x00 x00 x00 x00 x00))
(L (W xff xff xff xff xff xff xff xff)))))
(T (W x00 x00 x00 x00 x00 x00 x00 x00)
(T (W xff xff xff xff xff xff xff xff)
(T (W x00 x00 x80 x3f x00 x00 x80 x3f)
(T (W x45 x26 x22 x84 xe4 x9c xf2 xcb)
(L (W x45 x44 x00 x00 x00 x00 x00 x00)) E)
(L (W xc4 x00 x00 x00 x02 x00 x00 x00)))
(T (W xff xff xff xff xff xff xff xff)
(T (W xff xff xff xff xff xff xff xff)
(L (W x45 x44 x00 x00 x00 x00 x00 x00)) E)
(L (W xcc x00 x00 x00 x01 x00 x00 x00))))
(T (W x45 x26 x22 x84 xe4 x9c xf2 xcb)
(T (W x00 x00 x00 x00 x00 x00 x00 x00)
(T (W x00 x00 x80 x3f x00 x00 x80 x3f)
(L (W x45 x26 x22 x84 xe4 x9c xf2 xcb)) E)
(L (W x00 x00 x00 x00 x00 x00 x00 x00)))
(T (W x00 x00 x00 x00 x00 x00 x00 x00)
(L (W x03 x00 x00 x00 xd8 x00 x00 x00))
(L (W x00 x00 x00 x00 x00 x00 x00 x00))))))
(T (W x00 x00 x80 x3f x00 x00 x80 x3f)
(T (W x00 x00 x80 x3f x00 x00 x80 x3f)
(T (W xdb x01 x00 x00 xff xff xff xff)
(T (W x00 x00 x80 x3f x00 x00 x80 x3f)
(T (W x68 x00 x00 x00 x5c x00 x00 x00)
(L (W xff xff xff xff xff xff xff xff)) E)
(L (W xff xff xff xff xff xff xff xff)))
(T (W x00 x00 x80 x3f x00 x00 x80 x3f)
(T (W x45 x26 x22 x84 xe4 x9c xf2 xcb)
(L (W x00 x00 x80 xbf x00 x00 x80 xbf)) E)
(L (W x18 x00 x00 x00 x0c x00 x00 x00))))
(T (W x18 x00 x00 x00 x0c x00 x00 x00)
(T (W xff xff xff xff xff xff xff xff)
(T (W x68 x00 x00 x00 x5c x00 x00 x00)
(L (W x00 x00 x80 xbf x00 x00 x80 xbf)) E)
(L (W x00 x00 x00 x00 x00 x00 x00 x00)))
(T (W xff xff xff xff xff xff xff xff)
(L (W x00 x00 x80 xbf x00 x00 x80 xbf))
(L (W x00 x00 x01 x01 xdc x00 x00 x00)))))
(T (W x00 x00 x00 x00 x00 x00 x00 x00)
(T (W x7e x00 x00 x00 xff xff xff xff)
(T (W x4f x84 x6f x8b xe8 xcb x63 xb7)
(T (W xff xff xff xff xff xff xff xff)
(L (W x45 x44 x00 x00 x00 x00 x00 x00)) E)
(L (W xff xff xff xff xff xff xff xff)))
(T (W x00 x00 x00 x00 x00 x00 x00 x00)
(T (W xff xff xff xff xff xff xff xff)
(L (W x00 x00 x48 x00 x4c x00 x00 x00)) E)
(L (W xf4 x00 xff xff x00 x01 x01 x01))))
(T (W x3e x00 x00 x00 x9c x00 x00 x00)
(T (W x00 x00 x80 x3f x00 x00 x80 x3f)
(T (W x00 x00 x00 x00 xc2 xbe xfd xff)
(L (W x00 x00 x00 x00 x00 x00 x00 x00)) E)
(L (W x45 x44 x00 x00 x00 x00 x00 x00)))
(T (W x00 x00 x00 x00 x00 x00 x00 x00)
(L (W xff xff xff xff xff xff xff xff))
(L (W x00 x00 x00 x00 x00 x00 x00 x00)))))))))
(T (W xf4 x4a xfb xff x00 x01 x01 x01)
(T (W x00 x00 x00 x00 x00 x00 x00 x00)
(T (W x00 x00 x00 x00 x00 x00 x00 x00)
(T (W x00 x00 x00 x00 x00 x00 x00 x00)
(T (W x00 x00 x00 x00 x00 x00 x00 x00)
(T (W xff xff xff xff xff xff xff xff)
(T (W x00 x00 x00 x00 x00 x00 x00 x00)
(T (W xff xff xff xff x03 x00 x00 x00)
(L (W x00 x00 x00 x00 x00 x00 x00 x00)) E)
(L (W x54 x00 x00 x00 x48 x00 x00 x00)))
(T (W x45 x26 x22 x84 xe4 x9c xf2 xcb)
(T (W xff xff xff xff xff xff xff xff)
(L (W x45 x44 x00 x00 x00 x00 x00 x00)) E)
(L (W x00 x00 x01 x01 xa9 x01 x00 x00))))
(T (W x12 x02 xfc xff x74 x00 x00 x00)
(T (W x00 x00 x00 x00 x00 x00 x00 x00)
(T (W xff xff xff xff xff xff xff xff)
(L (W xff xff xff xff xff xff xff xff)) E)
(L (W xff xff xff xff xff xff xff xff)))
(T (W x5f x4e x53 x5f x30 x35 x5f x43)
(L (W xff xff xff xff xff xff xff xff))
(L (W x00 x00 x80 xbf x00 x00 x80 xbf)))))
(T (W xaa x01 x00 x00 xff xff xff xff)
(T (W xff xff xff xff xff xff xff xff)
(T (W x00 x00 x00 x00 x00 x00 x00 x00)
(T (W x45 x26 x22 x84 xe4 x9c xf2 xcb)
(L (W x31 x00 x00 x00 x34 x00 x00 x00)) E)
(L (W x00 x00 x80 xbf x00 x00 x80 xbf)))
(T (W x00 x00 x80 x3f x00 x00 x80 x3f)
(T (W xff xff xff xff xb0 x00 x00 x00)
(L (W x00 x01 x01 x01 x4a xf3 xff xff)) E)
(L (W x00 x00 x80 xbf x00 x00 x80 xbf))))
(T (W x00 x00 x80 x3f x00 x00 x80 x3f)
(T (W xff xff xff xff xc8 x00 x00 x00)
(T (W x45 x26 x22 x84 xe4 x9c xf2 xcb)
(L (W x45 x26 x22 x84 xe4 x9c xf2 xcb)) E)
(L (W x00 x00 x00 x00 xfa xa2 xfe xff)))
(T (W xff xff xff xff xff xff xff xff)
(L (W x00 x00 x00 x00 x00 x00 x00 x00))
(L (W xff xff xff xff xff xff xff xff))))))
(T (W x45 x26 x22 x84 xe4 x9c xf2 xcb)
(T (W x00 x00 x00 x00 x00 x00 x00 x00)
(T (W xb8 x00 x00 x00 xac x00 x00 x00)
(T (W x00 x00 x00 x00 x00 x00 x00 x00)
(T (W x50 x00 x00 x00 x44 x00 x00 x00)
(L (W x00 x00 x80 xbf x00 x00 x80 xbf)) E)
(L (W x00 x00 x80 xbf x00 x00 x80 xbf)))
(T (W xff xff xff xff xff xff xff xff)
(T (W x12 x00 x00 x00 x46 x53 x59 x53)
(L (W x00 x00 x00 x00 x00 x00 x00 x00)) E)
(L (W x00 x00 x00 x00 x00 x00 x00 x00))))
(T (W x00 x00 x80 x3f x00 x00 x80 x3f)
(T (W x00 x00 x80 x3f x00 x00 x80 x3f)
(T (W x46 x00 x00 x00 x0c x00 x00 x00)
(L (W x45 x26 x22 x84 xe4 x9c xf2 xcb)) E)
(L (W xff xff xff xff xff xff xff xff)))
(T (W x00 x00 x80 x3f x00 x00 x80 x3f)
(L (W x00 x00 x00 x00 x00 x00 x00 x00))
(L (W xff xff xff xff xff xff xff xff)))))
(T (W x90 x01 x00 x00 xff xff xff xff)
(T (W x18 x00 x00 x00 x10 x00 x00 x00)
(T (W xff xff xff xff xff xff xff xff)
(T (W x00 x00 x80 x3f x00 x00 x80 x3f)
(L (W xff xff xff xff xff xff xff xff)) E)
(L (W x00 x00 x00 x00 x64 x75 xfe xff)))
(T (W xff xff xff xff x9c x00 x00 x00)
(T (W xff xff xff xff xb0 x00 x00 x00)
(L (W x00 x00 x00 x00 x00 x00 x00 x00)) E)
(L (W x6c x00 x00 x00 x60 x00 x00 x00))))
(T (W x00 x00 x80 x3f x00 x00 x80 x3f)
(T (W x69 x01 x00 x00 xff xff xff xff)
(T (W xff xff xff xff xff xff xff xff)
(L (W x30 x35 x5f x43 x4c x45 x41 x52)) E)
(L (W xff xff xff xff xff xff xff xff)))
(T (W xff xff xff xff xff xff xff xff)
(L (W x50 x00 x00 x00 x44 x00 x00 x00))
(L (W x00 x00 x00 x00 x00 x00 x00 x00)))))))
(T (W x00 x00 x00 x00 x00 x00 x00 x00)
(T (W x00 x00 x00 x00 x00 x00 x00 x00)
(T (W x00 x00 x00 x00 x00 x00 x00 x00)
(T (W xff xff xff xff xff xff xff xff)
(T (W x00 x00 x00 x00 x00 x00 x00 x00)
(T (W x68 x00 x00 x00 x5c x00 x00 x00)
(L (W x00 x00 x00 x00 x00 x00 x00 x00)) E)
(L (W x00 x00 x80 x3f x00 x00 x80 x3f)))
(T (W x12 xca xfc xff x74 x00 x00 x00)
(T (W x76 x31 x00 x00 xc2 xcc xfd xff)
(L (W x00 x00 x00 x00 x00 x00 x00 x00)) E)
(L (W x45 x44 x00 x00 x00 x00 x00 x00))))
(T (W x00 x00 x80 x3f x00 x00 x80 x3f)
(T (W x4f x84 x6f x8b xe8 xcb x63 xb7)
(T (W xff xff xff xff xff xff xff xff)
(L (W x00 x00 x00 x00 x00 x00 x00 x00)) E)
(L (W xff xff xff xff xff xff xff xff)))
(T (W x00 x00 x00 x00 x00 x00 x00 x00)
(L (W xef x00 x00 x00 xff xff xff xff))
(L (W xf4 x0e xff xff x00 x01 x01 x01)))))
(T (W xff xff xff xff xff xff xff xff)
(T (W xff xff xff xff xff xff xff xff)
(T (W xff xff xff xff xff xff xff xff)
(T (W x00 x00 x00 x00 x00 x00 x00 x00)
(L (W xb0 x00 x00 x00 x64 x00 x00 x00)) E)
(L (W x00 x01 x01 x01 x4a x7b xfe xff)))
(T (W x45 x26 x22 x84 xe4 x9c xf2 xcb)
(T (W x45 x26 x22 x84 xe4 x9c xf2 xcb)
(L (W xff xff xff xff x9c x00 x00 x00)) E)
(L (W x54 x00 x00 x00 x48 x00 x00 x00))))
(T (W x50 x00 x00 x00 x44 x00 x00 x00)
(T (W xff xff xff xff xff xff xff xff)
(T (W x77 x61 x72 x6c x69 x6b x65 x5f)
(L (W x00 x00 x00 x00 xc2 xac xff xff)) E)
(L (W xb0 x00 x00 x00 x64 x00 x00 x00)))
(T (W xff xff xff xff xff xff xff xff)
(L (W x00 x00 x80 xbf x00 x00 x80 xbf))
(L (W xff xff xff xff xff xff xff xff))))))
(T (W x45 x26 x22 x84 xe4 x9c xf2 xcb)
(T (W xc1 x96 x81 x86 xbc xdd xbf x3f)
(T (W xff xff xff xff xff xff xff xff)
(T (W x00 x00 x00 x00 x00 x00 x00 x00)
(T (W x45 x26 x22 x84 xe4 x9c xf2 xcb)
(L (W x00 x00 x80 xbf x00 x00 x80 xbf)) E)
(L (W x54 x00 x00 x00 x48 x00 x00 x00)))
(T (W x00 x00 x00 x00 x00 x00 x00 x00)
(T (W x00 x00 x00 x00 x00 x00 x00 x00)
(L (W x00 x00 x00 x00 x00 x00 x00 x00)) E)
(L (W x00 x00 x80 xbf x00 x00 x80 xbf))))
(T (W x00 x00 x80 x3f x00 x00 x80 x3f)
(T (W xca x9b xfc xff x78 x00 x00 x00)
(T (W x1c x00 x20 x00 x24 x00 x28 x00)
(L (W x00 x00 x00 x00 x00 x00 x00 x00)) E)
(L (W x00 x00 x00 x00 x00 x00 x00 x00)))
(T (W x18 x00 x00 x00 x10 x00 x00 x00)
(L (W x00 x00 x00 x00 x00 x00 x00 x00))
(L (W xff xff xff xff xff xff xff xff)))))
(T (W xca x2c xfe xff x00 x00 x01 x01)
(T (W x01 x00 x00 x00 xa0 x00 x00 x00)
(T (W x69 x01 x00 x00 xff xff xff xff)
(T (W x00 x00 x00 x00 x64 x7d xfd xff)
(L (W xff xff xff xff xff xff xff xff)) E)
(L (W x45 x26 x22 x84 xe4 x9c xf2 xcb)))
(T (W xff xff xff xff xff xff xff xff)
(T (W x31 x00 x00 x00 x34 x00 x00 x00)
(L (W x00 x00 x00 x00 x00 x00 x00 x00)) E)
(L (W x3c x00 x00 x00 x00 x00 x80 xbf))))
(T (W x00 x00 x80 x3f x00 x00 x80 x3f)
(T (W x00 x00 x00 x00 x00 x00 x00 x00)
(T (W xff xff xff xff xff xff xff xff)
(L (W x00 x00 x01 x01 x42 x00 x00 x00)) E)
(L (W xff xff xff xff xff xff xff xff)))
(T (W xff xff xff xff xff xff xff xff)
(L (W x44 x00 x00 x00 x00 x00 x80 xbf))
(L (W x00 x00 x01 x01 x5c x00 x00 x00))))))))
(T (W x68 x00 x00 x00 x5c x00 x00 x00)
(T (W x18 x00 x00 x00 x0c x00 x00 x00)
(T (W x00 x00 x00 x00 x00 x00 x00 x00)
(T (W x68 x00 x00 x00 x5c x00 x00 x00)
(T (W x00 x00 x80 x3f x00 x00 x80 x3f)
(T (W xff xff xff xff xff xff xff xff)
(T (W x00 x00 x00 x00 x00 x00 x00 x00)
(L (W x54 x00 x00 x00 x48 x00 x00 x00)) E)
(L (W xff xff xff xff xff xff xff xff)))
(T (W xcc x01 x00 x00 xff xff xff xff)
(T (W x00 x00 x00 x00 x00 x00 x00 x00)
(L (W x03 x00 x00 x00 xd8 x00 x00 x00)) E)
(L (W x00 x00 x80 xbf x00 x00 x80 xbf))))
(T (W x00 x00 x00 x00 x00 x00 x00 x00)
(T (W xff xff xff xff x9c x00 x00 x00)
(T (W x45 x26 x22 x84 xe4 x9c xf2 xcb)
(L (W x00 x00 x80 xbf x00 x00 x80 xbf)) E)
(L (W x00 x00 x00 x00 x00 x00 x00 x00)))
(T (W xc8 x00 x00 x00 x01 x00 x00 x00)
(L (W x00 x00 x80 xbf x00 x00 x80 xbf))
(L (W x00 x00 x00 x00 xd2 x0f xff xff)))))
(T (W x00 x00 x80 x3f x00 x00 x80 x3f)
(T (W x00 x00 x00 x00 x00 x00 x00 x00)
(T (W xf4 x6a xfc xff x00 x01 x01 x01)
(T (W xff xff xff xff x03 x00 x00 x00)
(L (W x00 x00 x00 x00 x00 x00 x00 x00)) E)
(L (W x00 x00 x00 x00 x00 x00 x00 x00)))
(T (W x00 x00 x00 x00 x00 x00 x00 x00)
(T (W x00 x00 x00 x00 x00 x00 x00 x00)
(L (W x00 x00 x00 x00 x00 x00 x00 x00)) E)
(L (W xff xff xff xff xff xff xff xff))))
(T (W xff xff xff xff xff xff xff xff)
(T (W x00 x00 x00 x00 x00 x00 x00 x00)
(T (W x50 x00 x00 x00 x44 x00 x00 x00)
(L (W xff xff xff xff x9c x00 x00 x00)) E)
(L (W xf4 xaa xfe xff x00 x01 x01 x01)))
(T (W x00 x00 x80 x3f x00 x00 x80 x3f)
(L (W x00 x00 x00 x00 x20 x26 xfe xff))
(L (W x49 xa1 x68 x4a xeb x5f xdd x3d))))))
(T (W xb8 x00 x00 x00 xac x00 x00 x00)
(T (W x45 x26 x22 x84 xe4 x9c xf2 xcb)
(T (W x00 x00 x80 x3f x00 x00 x80 x3f)
(T (W x64 x00 x00 x00 x9c x00 x00 x00)
(T (W x69 x01 x00 x00 xff xff xff xff)
(L (W x00 x00 x01 x01 x63 x01 x00 x00)) E)
(L (W xff xff xff xff xff xff xff xff)))
(T (W x00 x00 x80 x3f x00 x00 x80 x3f)
(T (W x03 x00 x00 x00 xd0 x00 x00 x00)
(L (W xff xff xff xff xb0 x00 x00 x00)) E)
(L (W xff xff xff xff xff xff xff xff))))
(T (W x00 x00 x00 x00 x2a xae xff xff)
(T (W x00 x00 x00 x00 xd2 x9f xfc xff)
(T (W x00 x00 x00 x00 x00 x00 x00 x00)
(L (W xff xff xff xff xff xff xff xff)) E)
(L (W x00 x00 x80 xbf x00 x00 x80 xbf)))
(T (W x3a x6e xfe xff x00 x00 x01 x01)
(L (W xb0 x00 x00 x00 x64 x00 x00 x00))
(L (W x00 x00 x00 x00 x00 x00 x00 x00)))))
(T (W x00 x00 x80 x3f x00 x00 x80 x3f)
(T (W x00 x00 x00 x00 x00 x00 x00 x00)
(T (W x00 x00 x80 x3f x00 x00 x80 x3f)
(T (W x00 x00 x00 x00 x00 x00 x00 x00)
(L (W x45 x26 x22 x84 xe4 x9c xf2 xcb)) E)
(L (W x30 x35 x5f x43 x4c x45 x41 x52)))
(T (W x4f x84 x6f x8b xe8 xcb x63 xb7)
(T (W x00 x00 x00 x00 x00 x00 x00 x00)
(L (W x00 x00 x00 x00 x12 x00 x00 x00)) E)
(L (W x00 x00 x00 x00 x00 x00 x00 x00))))
(T (W xff xff xff xff xff xff xff xff)
(T (W x6c x00 x00 x00 x60 x00 x00 x00)
(T (W x6b x65 x5f x6f x79 x61 x62 x75)
(L (W x00 x00 x80 xbf x00 x00 x80 xbf)) E)
(L (W x00 x00 x00 x00 x00 x00 x00 x00)))
(T (W x45 x26 x22 x84 xe4 x9c xf2 xcb)
(L (W x00 x00 x00 x00 x00 x00 x00 x00))
(L (W x00 x00 x80 xbf x00 x00 x80 xbf)))))))
(T (W xff xff xff xff xff xff xff xff)
(T (W xff xff xff xff xff xff xff xff)
(T (W xf4 x92 xfb xff x00 x01 x01 x01)
(T (W x45 x26 x22 x84 xe4 x9c xf2 xcb)
(T (W xff xff xff xff xff xff xff xff)
(T (W x00 x00 x00 x00 x00 x00 x00 x00)
(L (W xff xff xff xff xc4 x00 x00 x00)) E)
(L (W x64 x04 x00 x00 x60 x03 x00 x00)))
(T (W x00 x00 x00 x00 x00 x00 x00 x00)
(T (W x00 x00 x80 x3f x00 x00 x80 x3f)
(L (W x35 x00 x00 x00 x38 x00 x00 x00)) E)
(L (W x31 x00 x00 x00 x34 x00 x00 x00))))
(T (W x20 x00 x00 x00 x10 x00 x00 x00)
(T (W xff xff xff xff xff xff xff xff)
(T (W x45 x26 x22 x84 xe4 x9c xf2 xcb)
(L (W xca x8f xff xff x78 x00 x00 x00)) E)
(L (W x45 x26 x22 x84 xe4 x9c xf2 xcb)))
(T (W xff xff xff xff xff xff xff xff)
(L (W xca x0f xfe xff x78 x00 x00 x00))
(L (W x00 x00 x00 x00 x00 x00 x00 x00)))))
(T (W x00 x00 x80 x3f x00 x00 x80 x3f)
(T (W x00 x00 x00 x00 x00 x00 x00 x00)
(T (W x00 x00 x80 x3f x00 x00 x80 x3f)
(T (W x68 x00 x00 x00 x5c x00 x00 x00)
(L (W x4f x84 x6f x8b xe8 xcb x63 xb7)) E)
(L (W x00 x00 x01 x01 xcf x00 x00 x00)))
(T (W x00 x00 x00 x00 x00 x00 x00 x00)
(T (W x4f x84 x6f x8b xe8 xcb x63 xb7)
(L (W x00 x00 x00 x00 x00 x00 x00 x00)) E)
(L (W x02 x00 x00 x00 x30 x01 x00 x00))))
(T (W xff xff xff xff xff xff xff xff)
(T (W x00 x00 x80 x3f x00 x00 x80 x3f)
(T (W xff xff xff xff xff xff xff xff)
(L (W x00 x00 x80 x3f x00 x00 x80 x3f)) E)
(L (W x00 x00 x80 xbf x00 x00 x80 xbf)))
(T (W x00 x00 x80 x3f x00 x00 x80 x3f)
(L (W x00 x00 x01 x01 xaf x01 x00 x00))
(L (W x00 x00 x80 xbf x00 x00 x80 xbf))))))
(T (W x45 x26 x22 x84 xe4 x9c xf2 xcb)
(T (W x18 x00 x00 x00 x0c x00 x00 x00)
(T (W x00 x00 x00 x00 x00 x00 x00 x00)
(T (W xbc x00 x00 x00 xb0 x00 x00 x00)
(T (W xff xff xff xff xff xff xff xff)
(L (W x45 x44 x00 x00 x00 x00 x00 x00)) E)
(L (W x00 x00 x00 x00 x00 x00 x00 x00)))
(T (W xff xff xff xff xbc x00 x00 x00)
(T (W xff xff xff xff xff xff xff xff)
(L (W xff xff xff xff xbc x00 x00 x00)) E)
(L (W xff xff xff xff xff xff xff xff))))
(T (W x1c x01 x00 x00 x04 x00 x00 x00)
(T (W x00 x00 x00 x00 x00 x00 x00 x00)
(T (W xff xff xff xff xff xff xff xff)
(L (W xff xff xff xff xff xff xff xff)) E)
(L (W x00 x00 x80 xbf x00 x00 x80 xbf)))
(T (W x00 x00 x00 x00 x00 x00 x00 x00)
(L (W xff xff xff xff xff xff xff xff))
(L (W x00 x00 x00 x00 x00 x00 x00 x00)))))
(T (W x00 x00 x80 x3f x00 x00 x80 x3f)
(T (W x00 x00 x00 x00 x00 x00 x00 x00)
(T (W x18 x00 x00 x00 x0c x00 x00 x00)
(T (W x45 x26 x22 x84 xe4 x9c xf2 xcb)
(L (W x00 x00 x80 xbf x00 x00 x80 xbf)) E)
(L (W x00 x00 x00 x00 x00 x00 x00 x00)))
(T (W x68 x00 x00 x00 x5c x00 x00 x00)
(T (W x00 x00 x00 x00 x00 x00 x00 x00)
(L (W x2f x00 x00 x00 x32 x00 x00 x00)) E)
(L (W xff xff xff xff xff xff xff xff))))
(T (W xff xff xff xff xff xff xff xff)
(T (W xff xff xff xff x9c x00 x00 x00)
(T (W x45 x26 x22 x84 xe4 x9c xf2 xcb)
(L (W x18 x00 x00 x00 x10 x00 x00 x00)) E)
(L (W x49 xa1 x68 x4a xeb x5f xdd x3d)))
(T (W x45 x26 x22 x84 xe4 x9c xf2 xcb)
(L (W xff xff xff xff xff xff xff xff))
(L (W x00 x00 x80 xbf x00 x00 x80 xbf))))))))))
(T (W xb8 x7b x01 x00 x5c x79 x01 x00)
(T (W xa8 x39 x00 x00 x74 x38 x00 x00)
(T (W x00 x00 x00 x00 x00 x00 x00 x00)
(T (W x40 x00 x00 x00 x0c x00 x00 x00)
(T (W x40 x00 x00 x00 x10 x00 x00 x00)
(T (W x00 x00 x00 x00 x00 x00 x00 x00)
(T (W xb8 x00 x00 x00 xac x00 x00 x00)
(T (W x00 x00 x00 x00 x00 x00 x00 x00)
(T (W x68 x00 x00 x00 x5c x00 x00 x00)
(L (W xff xff xff xff xff xff xff xff)) E)
(L (W x00 x00 x80 xbf x00 x00 x80 xbf)))
(T (W x00 x00 x00 x00 x00 x00 x00 x00)
(T (W x18 x00 x00 x00 x0c x00 x00 x00)
(L (W xff xff xff xff xff xff xff xff)) E)
(L (W xff xff xff xff xff xff xff xff))))
(T (W x00 x00 x80 x3f x00 x00 x80 x3f)
(T (W x00 x00 x00 x00 xd2 x8a xfc xff)
(T (W x12 x81 xfd xff x74 x00 x00 x00)
(L (W xb0 x00 x00 x00 x64 x00 x00 x00)) E)
(L (W x18 x00 x00 x00 x0c x00 x00 x00)))
(T (W x9d x01 x00 x00 xff xff xff xff)
(L (W xff xff xff xff x9c x00 x00 x00))
(L (W x49 xa1 x68 x4a xeb x5f xdd x3d)))))
(T (W xff xff xff xff xff xff xff xff)
(T (W xc0 x00 x00 x00 xb4 x00 x00 x00)
(T (W x00 x00 x00 x00 x00 x00 x00 x00)
(T (W x00 x00 x00 x00 x00 x00 x00 x00)
(L (W x00 x00 x80 xbf x00 x00 x80 xbf)) E)
(L (W x4f x84 x6f x8b xe8 xcb x63 xb7)))
(T (W x4f x84 x6f x8b xe8 xcb x63 xb7)
(T (W x00 x00 x80 xbf x00 x00 x80 xbf)
(L (W x3c x00 x00 x00 x00 x00 x80 xbf)) E)
(L (W x00 x00 x00 x00 x00 x00 x00 x00))))
(T (W x00 x00 x80 x3f x00 x00 x80 x3f)
(T (W x45 x26 x22 x84 xe4 x9c xf2 xcb)
(T (W x00 x00 x80 xbf x00 x00 x80 xbf)
(L (W x00 x00 x00 x00 x00 x00 x00 x00)) E)
(L (W xff xff xff xff xff xff xff xff)))
(T (W x12 x21 xfd xff x74 x00 x00 x00)
(L (W x45 x44 x00 x00 x00 x00 x00 x00))
(L (W xcc x00 x00 x00 x02 x00 x00 x00))))))
(T (W x00 x00 x00 x00 x00 x00 x00 x00)
(T (W xaf x01 x00 x00 xff xff xff xff)
(T (W x01 x00 x00 x00 x9c x00 x00 x00)
(T (W x00 x00 x00 x00 x00 x00 x00 x00)
(T (W x45 x26 x22 x84 xe4 x9c xf2 xcb)
(L (W x00 x00 x00 x00 x00 x00 x00 x00)) E)
(L (W x49 xa1 x68 x4a xeb x5f xdd x3d)))
(T (W xff xff xff xff x9c x00 x00 x00)
(T (W x30 x01 x00 x00 x04 x00 x00 x00)
(L (W x00 x00 x00 x00 x00 x00 x00 x00)) E)
(L (W x00 x00 x00 x00 x00 x00 x00 x00))))
(T (W x00 x00 x80 x3f x00 x00 x80 x3f)
(T (W x4f x84 x6f x8b xe8 xcb x63 xb7)
(T (W x44 x00 x00 x00 x10 x00 x00 x00)
(L (W x00 x00 x00 x00 x12 x00 x00 x00)) E)
(L (W xff xff xff xff xff xff xff xff)))
(T (W x45 x26 x22 x84 xe4 x9c xf2 xcb)
(L (W x00 x00 x00 x00 xd2 x1a xfe xff))
(L (W x31 x00 x00 x00 x34 x00 x00 x00)))))
(T (W xff xff xff xff xff xff xff xff)
(T (W xf4 xf5 xfb xff x00 x01 x01 x01)
(T (W x18 x00 x00 x00 x10 x00 x00 x00)
(T (W x6c x00 x0c x00 x10 x00 x00 x00)
(L (W xff xff xff xff xc0 x00 x00 x00)) E)
(L (W x00 x00 x80 xbf x00 x00 x80 xbf)))
(T (W x12 xf1 xfc xff x74 x00 x00 x00)
(T (W x00 x00 x00 x00 x64 xf4 xfd xff)
(L (W xff xff xff xff x98 x00 x00 x00)) E)
(L (W x3c x00 x00 x00 x00 x00 x80 xbf))))
(T (W x45 x26 x22 x84 xe4 x9c xf2 xcb)
(T (W xff xff xff xff xff xff xff xff)
(T (W x45 x26 x22 x84 xe4 x9c xf2 xcb)
(L (W x00 x00 x01 x01 xaa x01 x00 x00)) E)
(L (W xb4 x00 x00 x00 x14 x00 x00 x00)))
(T (W x64 x00 x00 x00 x9c x00 x00 x00)
(L (W x00 x00 x80 xbf x00 x00 x80 xbf))
(L (W xff xff xff xff xff xff xff xff)))))))
(T (W xef x1f xe9 xe9 xf2 x24 x8d xf3)
(T (W x00 x00 x00 x00 x00 x00 x00 x00)
(T (W xad x10 x3b xd5 x81 x00 x21 xbd)
(T (W x45 x26 x22 x84 xe4 x9c xf2 xcb)
(T (W x3e x00 x00 x00 x0c x00 x00 x00)
(T (W x50 x00 x00 x00 x44 x00 x00 x00)
(L (W x00 x00 x00 x00 x00 x00 x00 x00)) E)
(L (W x00 x00 x80 xbf x00 x00 x80 xbf)))
(T (W x00 x00 x80 x3f x00 x00 x80 x3f)
(T (W xff xff xff xff xd8 x00 x00 x00)
(L (W x30 x35 x5f x43 x4c x45 x41 x52)) E)
(L (W xff xff xff xff xff xff xff xff))))
(T (W x45 x26 x22 x84 xe4 x9c xf2 xcb)
(T (W x00 x00 x00 x00 x00 x00 x00 x00)
(T (W xff xff xff xff x03 x00 x00 x00)
(L (W xff xff xff xff xff xff xff xff)) E)
(L (W xff xff xff xff xc8 x00 x00 x00)))
(T (W x00 x00 x00 x00 x00 x00 x00 x00)
(L (W xff xff xff xff xff xff xff xff))
(L (W x54 x00 x00 x00 x48 x00 x00 x00)))))
(T (W xff xff xff xff xff xff xff xff)
(T (W x12 xe9 xfb xff x74 x00 x00 x00)
(T (W x45 x26 x22 x84 xe4 x9c xf2 xcb)
(T (W x00 x00 x00 x00 x00 x00 x00 x00)
(L (W xf4 x6d xff xff x00 x01 x01 x01)) E)
(L (W x3c x00 x00 x00 x00 x00 x80 xbf)))
(T (W x00 x00 x80 x3f x00 x00 x80 x3f)
(T (W x00 x00 x80 xbf x00 x00 x80 xbf)
(L (W xca xea xff xff x78 x00 x00 x00)) E)
(L (W x00 x00 x80 xbf x00 x00 x80 xbf))))
(T (W x00 x00 x00 x00 x00 x00 x00 x00)
(T (W xff xff xff xff xc8 x00 x00 x00)
(T (W xff xff xff xff xff xff xff xff)
(L (W xff xff xff xff xff xff xff xff)) E)
(L (W x00 x00 x00 x00 x00 x00 x00 x00)))
(T (W xff xff xff xff xff xff xff xff)
(L (W x00 x00 x00 x00 x00 x00 x00 x00))
(L (W xff xff xff xff xff xff xff xff))))))
(T (W x00 x00 x00 x00 x00 x00 x00 x00)
(T (W xff xff xff xff xff xff xff xff)
(T (W x0a x00 x00 x00 x3c x00 x00 x00)
(T (W x00 x00 x00 x00 x00 x00 x00 x00)
(T (W x45 x26 x22 x84 xe4 x9c xf2 xcb)
(L (W x49 xa1 x68 x4a xeb x5f xdd x3d)) E)
(L (W x45 x26 x22 x84 xe4 x9c xf2 xcb)))
(T (W xcb x01 x00 x00 xff xff xff xff)
(T (W x00 x00 x00 x00 x12 x00 x00 x00)
(L (W x00 x00 x00 x00 x00 x00 x00 x00)) E)
(L (W x00 x00 x00 x00 x00 x00 x00 x00))))
(T (W x00 x00 x80 x3f x00 x00 x80 x3f)
(T (W x00 x00 x80 x3f x00 x00 x80 x3f)
(T (W xb0 x00 x00 x00 x64 x00 x00 x00)
(L (W x00 x00 x00 x00 x00 x00 x00 x00)) E)
(L (W x00 x00 x00 x00 x3a x9d xfe xff)))
(T (W x50 x00 x00 x00 x44 x00 x00 x00)
(L (W x00 x00 x00 x00 x00 x00 x00 x00))
(L (W xff xff xff xff xff xff xff xff)))))
(T (W xff xff xff xff xff xff xff xff)
(T (W x00 x00 x80 x3f x00 x00 x80 x3f)
(T (W xff xff xff xff xff xff xff xff)
(T (W x12 x79 xfd xff x74 x00 x00 x00)
(L (W xcc x00 x00 x00 x01 x00 x00 x00)) E)
(L (W x6c x00 x00 x00 x60 x00 x00 x00)))
(T (W xff xff xff xff xff xff xff xff)
(T (W x12 xf9 xfd xff x74 x00 x00 x00)
(L (W x00 x00 x00 x00 x00 x00 x00 x00)) E)
(L (W x00 x00 x00 x00 x00 x00 x00 x00))))
(T (W x00 x00 x00 x00 x00 x00 x00 x00)
(T (W xc8 x02 x00 x00 xff xff xff xff)
(T (W x6c x00 x00 x00 x60 x00 x00 x00)
(L (W xff xff xff xff xff xff xff xff)) E)
(L (W x03 x00 x00 x00 xd0 x00 x00 x00)))
(T (W xff xff xff xff x03 x00 x00 x00)
(L (W x00 x00 x80 xbf x00 x00 x80 xbf))
(L (W xff xff xff xff xff xff xff xff))))))))
(T (W x50 x00 x00 x00 x44 x00 x00 x00)
(T (W x00 x00 x00 x00 x64 x58 xfb xff)
(T (W xff xff xff xff x01 x00 x00 x00)
(T (W x50 x00 x00 x00 x44 x00 x00 x00)
(T (W x00 x00 x00 x00 x00 x00 x00 x00)
(T (W xff xff xff xff x03 x00 x00 x00)
(T (W x00 x00 x00 x00 x00 x00 x00 x00)
(L (W x45 x26 x22 x84 xe4 x9c xf2 xcb)) E)
(L (W x26 x00 x00 x00 x29 x00 x00 x00)))
(T (W xff xff xff xff xff xff xff xff)
(T (W x00 x00 x00 x00 x00 x00 x00 x00)
(L (W x00 x00 x80 xbf x00 x00 x80 xbf)) E)
(L (W x49 xa1 x68 x4a xeb x5f xdd x3d))))
(T (W x48 x03 x00 x00 x34 x02 x00 x00)
(T (W xca x86 xfc xff x78 x00 x00 x00)
(T (W x45 x26 x22 x84 xe4 x9c xf2 xcb)
(L (W x49 xa1 x68 x4a xeb x5f xdd x3d)) E)
(L (W x00 x00 x00 x00 x00 x00 x00 x00)))
(T (W x00 x00 x80 x3f x00 x00 x80 x3f)
(L (W x00 x00 x00 x00 x00 x00 x00 x00))
(L (W xff xff xff xff xff xff xff xff)))))
(T (W x00 x00 x80 x3f x00 x00 x80 x3f)
(T (W xd0 x83 x4b xed x04 x19 x63 x38)
(T (W x00 x00 x80 x3f x00 x00 x80 x3f)
(T (W x68 x00 x00 x00 x5c x00 x00 x00)
(L (W x00 x00 x00 x00 x00 x00 x00 x00)) E)
(L (W xff xff xff xff xff xff xff xff)))
(T (W xff xff xff xff xff xff xff xff)
(T (W x00 x00 x00 x00 x00 x00 x00 x00)
(L (W xff xff xff xff xff xff xff xff)) E)
(L (W xff xff xff xff xff xff xff xff))))
(T (W xff xff xff xff x04 x00 x00 x00)
(T (W x00 x00 x00 x00 x00 x00 x00 x00)
(T (W x00 x00 x00 x00 x00 x00 x00 x00)
(L (W xca xa6 xff xff x78 x00 x00 x00)) E)
(L (W x45 x26 x22 x84 xe4 x9c xf2 xcb)))
(T (W x4f x84 x6f x8b xe8 xcb x63 xb7)
(L (W x00 x01 x01 x01 xfa xfe xff xff))
(L (W x00 x00 x00 x00 x00 x00 x00 x00))))))
(T (W x68 x00 x00 x00 x5c x00 x00 x00)
(T (W x12 x95 xfb xff x74 x00 x00 x00)
(T (W x00 x00 x00 x00 x00 x00 x00 x00)
(T (W x45 x26 x22 x84 xe4 x9c xf2 xcb)
(T (W xff xff xff xff xff xff xff xff)
(L (W xff xff xff xff xff xff xff xff)) E)
(L (W xff xff xff xff xff xff xff xff)))
(T (W x45 x26 x22 x84 xe4 x9c xf2 xcb)
(T (W x18 x00 x00 x00 x10 x00 x00 x00)
(L (W xca xd6 xff xff x78 x00 x00 x00)) E)
(L (W x18 x00 x00 x00 x0c x00 x00 x00))))
(T (W xff xff xff xff xff xff xff xff)
(T (W xff xff xff xff xff xff xff xff)
(T (W x04 x00 x00 x00 x5a xa0 xfd xff)
(L (W x18 x00 x00 x00 x0c x00 x00 x00)) E)
(L (W x00 x00 x80 xbf x00 x00 x80 xbf)))
(T (W xff xff xff xff xff xff xff xff)
(L (W xf4 x19 xfe xff x00 x01 x01 x01))
(L (W x00 x00 x00 x00 x00 x00 x00 x00)))))
(T (W x00 x00 x80 x3f x00 x00 x80 x3f)
(T (W x00 x00 x00 x00 x00 x00 x00 x00)
(T (W x00 x00 x80 x3f x00 x00 x80 x3f)
(T (W x00 x00 x00 x00 x00 x00 x00 x00)
(L (W x00 x00 x00 x00 x00 x00 x00 x00)) E)
(L (W x00 x00 x01 x01 xcc x01 x00 x00)))
(T (W x00 x00 x00 x00 x00 x00 x00 x00)
(T (W x00 x00 x00 x00 xd2 xfe xfd xff)
(L (W x00 x00 x60 x00 x00 x00 x00 x00)) E)
(L (W xff xff xff xff xff xff xff xff))))
(T (W xb8 x00 x00 x00 xac x00 x00 x00)
(T (W x00 x00 x80 x3f x00 x00 x80 x3f)
(T (W x18 x00 x00 x00 x0c x00 x00 x00)
(L (W x45 x26 x22 x84 xe4 x9c xf2 xcb)) E)
(L (W x30 x35 x5f x43 x4c x45 x41 x52)))
(T (W x00 x00 x00 x00 x00 x00 x00 x00)
(L (W x64 x04 x00 x00 x60 x03 x00 x00))
(L (W x00 x00 x00 x00 x00 x00 x00 x00)))))))
(T (W x40 x00 x00 x00 xa0 x00 x00 x00)
(T (W x45 x26 x22 x84 xe4 x9c xf2 xcb)
(T (W x68 x00 x00 x00 x5c x00 x00 x00)
(T (W x00 x00 x00 x00 x00 x00 x00 x00)
(T (W x00 x00 x00 x00 x64 x50 xfc xff)
(T (W xa9 x01 x00 x00 xff xff xff xff)
(L (W x45 x26 x22 x84 xe4 x9c xf2 xcb)) E)
(L (W xff xff xff xff xff xff xff xff)))
(T (W x27 x00 x00 x00 x10 x00 x00 x00)
(T (W x00 x00 x80 x3f x00 x00 x80 x3f)
(L (W xca xce xff xff x78 x00 x00 x00)) E)
(L (W x00 x00 x80 xbf x00 x00 x80 xbf))))
(T (W xff xff xff xff xff xff xff xff)
(T (W xff xff xff xff xff xff xff xff)
(T (W x00 x00 x00 x00 x00 x00 x00 x00)
(L (W x00 x00 x80 xbf x00 x00 x80 xbf)) E)
(L (W x00 x00 x00 x00 x00 x00 x00 x00)))
(T (W xff xff xff xff xac x00 x00 x00)
(L (W x00 x00 x80 xbf x00 x00 x80 xbf))
(L (W xff xff xff xff xff xff xff xff)))))
(T (W x00 x00 x80 x3f x00 x00 x80 x3f)
(T (W x5a x5e xfe xff x19 x01 x00 x00)
(T (W x00 x00 x80 x3f x00 x00 x80 x3f)
(T (W x50 x00 x00 x00 x44 x00 x00 x00)
(L (W x00 x00 x00 x00 x00 x00 x00 x00)) E)
(L (W xff xff xff xff xff xff xff xff)))
(T (W xff xff xff xff x02 x00 x00 x00)
(T (W xd0 x83 xd4 x61 xf7 xda xb2 x83)
(L (W x00 x00 x00 x00 x00 x00 x00 x00)) E)
(L (W xff xff xff xff xff xff xff xff))))
(T (W x18 x00 x00 x00 x10 x00 x00 x00)
(T (W x00 x00 x00 x00 x00 x00 x00 x00)
(T (W x32 x00 x00 x00 x35 x00 x00 x00)
(L (W x00 x00 x80 xbf x00 x00 x80 xbf)) E)
(L (W x00 x00 x00 x00 x00 x00 x00 x00)))
(T (W x00 x00 x00 x00 x00 x00 x00 x00)
(L (W xff xff xff xff xff xff xff xff))
(L (W x4f x84 x6f x8b xe8 xcb x63 xb7))))))
(T (W x00 x00 x80 x3f x00 x00 x80 x3f)
(T (W x00 x00 x80 x3f x00 x00 x80 x3f)
(T (W x00 x00 x00 x00 x00 x00 x00 x00)
(T (W x50 x00 x00 x00 x44 x00 x00 x00)
(T (W xff xff xff xff x03 x00 x00 x00)
(L (W xff xff xff xff xff xff xff xff)) E)
(L (W x00 x00 x00 x00 x3a x61 xfe xff)))
(T (W x12 xdd xfc xff x74 x00 x00 x00)
(T (W xff xff xff xff xff xff xff xff)
(L (W x45 x26 x22 x84 xe4 x9c xf2 xcb)) E)
(L (W xff xff xff xff xff xff xff xff))))
(T (W xff xff xff xff xff xff xff xff)
(T (W x00 x00 x00 x00 x00 x00 x00 x00)
(T (W x03 x00 x00 x00 xbc x00 x00 x00)
(L (W x00 x00 x00 x00 x64 xa0 xff xff)) E)
(L (W x00 x00 x80 xbf x00 x00 x80 xbf)))
(T (W x00 x00 x00 x00 x04 x00 x00 x00)
(L (W x12 x1d xfe xff x74 x00 x00 x00))
(L (W x30 x35 x5f x43 x4c x45 x41 x52)))))
(T (W x00 x00 x80 x3f x00 x00 x80 x3f)
(T (W x00 x00 x00 x00 x00 x00 x00 x00)
(T (W x00 x00 x80 x3f x00 x00 x80 x3f)
(T (W x5f x77 x69 x6c x64 x5f x70 x6f)
(L (W x00 x00 x00 x00 x00 x00 x00 x00)) E)
(L (W x45 x44 x00 x00 x00 x00 x00 x00)))
(T (W x00 x00 x80 x3f x00 x00 x80 x3f)
(T (W x1d x00 x00 x00 x10 x00 x00 x00)
(L (W x00 x00 x00 x00 x00 x00 x00 x00)) E)
(L (W xb0 x00 x00 x00 x64 x00 x00 x00))))
(T (W xc0 x00 x00 x00 xb4 x00 x00 x00)
(T (W xca xbe xfc xff x78 x00 x00 x00)
(T (W x00 x00 x00 x00 x12 x00 x00 x00)
(L (W x54 x00 x00 x00 x48 x00 x00 x00)) E)
(L (W x00 x00 x00 x00 x00 x00 x00 x00)))
(T (W x00 x00 x00 x00 x00 x00 x00 x00)
(L (W xff xff xff xff xff xff xff xff))
(L (W x49 xa1 x68 x4a xeb x5f xdd x3d)))))))))
(T (W xff xff xff xff xff xff xff xff)
(T (W x00 x00 x80 x3f x00 x00 x80 x3f)
(T (W x00 x00 x00 x00 x00 x00 x00 x00)
(T (W x00 x00 x80 x3f x00 x00 x80 x3f)
(T (W x00 x00 x80 x3f x00 x00 x80 x3f)
(T (W x83 x58 xa7 x10 xfe x79 xab x97)
(T (W x00 x00 x80 x3f x00 x00 x80 x3f)
(T (W xff xff xff xff xff xff xff xff)
(L (W x00 x00 x00 x00 x00 x00 x00 x00)) E)
(L (W x00 x01 x01 x01 x4a x54 xfe xff)))
(T (W x00 x00 x80 x3f x00 x00 x80 x3f)
(T (W xff xff xff xff xff xff xff xff)
(L (W x00 x00 x00 x00 x00 x00 x00 x00)) E)
(L (W x30 x35 x5f x43 x4c x45 x41 x52))))
(T (W xff xff xff xff xff xff xff xff)
(T (W x00 x00 x80 x3f x00 x00 x80 x3f)
(T (W xff xff xff xff xff xff xff xff)
(L (W x30 x35 x5f x43 x4c x45 x41 x52)) E)
(L (W xff xff xff xff xff xff xff xff)))
(T (W x00 x00 x00 x00 x00 x00 x00 x00)
(L (W x00 x00 x00 x00 x00 x00 x00 x00))
(L (W x6c x00 x00 x00 x60 x00 x00 x00)))))
(T (W x00 x00 x00 x00 x00 x00 x00 x00)
(T (W xff xff xff xff xff xff xff xff)
(T (W x00 x00 x00 x00 x00 x00 x00 x00)
(T (W x45 x26 x22 x84 xe4 x9c xf2 xcb)
(L (W xff xff xff xff xff xff xff xff)) E)
(L (W xff xff xff xff xb0 x00 x00 x00)))
(T (W x50 x00 x00 x00 x44 x00 x00 x00)
(T (W xff xff xff xff xff xff xff xff)
(L (W xff xff xff xff x90 x00 x00 x00)) E)
(L (W xf4 xe7 xfe xff x00 x01 x01 x01))))
(T (W x68 x00 x00 x00 x5c x00 x00 x00)
(T (W xff xff xff xff xff xff xff xff)
(T (W xff xff xff xff xff xff xff xff)
(L (W x00 x00 x80 xbf x00 x00 x80 xbf)) E)
(L (W x00 x00 x00 x00 x00 x00 x00 x00)))
(T (W xff xff xff xff xff xff xff xff)
(L (W x00 x00 x00 x00 x00 x00 x00 x00))
(L (W xff xff xff xff xff xff xff xff))))))
(T (W x00 x00 x80 x3f x00 x00 x80 x3f)
(T (W x00 x00 x00 x00 x00 x00 x00 x00)
(T (W xff xff xff xff xff xff xff xff)
(T (W x00 x00 x00 x00 x00 x00 x00 x00)
(T (W x68 x00 x00 x00 x5c x00 x00 x00)
(L (W x00 x00 x80 xbf x00 x00 x80 xbf)) E)
(L (W x44 x00 x00 x00 x00 x00 x80 xbf)))
(T (W x00 x00 x00 x00 x01 x00 x00 x00)
(T (W x00 x00 x00 x00 x00 x00 x00 x00)
(L (W x45 x26 x22 x84 xe4 x9c xf2 xcb)) E)
(L (W x00 x00 x80 xbf x00 x00 x80 xbf))))
(T (W x12 x13 xfc xff x74 x00 x00 x00)
(T (W x18 x00 x00 x00 x0c x00 x00 x00)
(T (W x45 x26 x22 x84 xe4 x9c xf2 xcb)
(L (W x00 x00 x80 xbf x00 x00 x80 xbf)) E)
(L (W x13 x00 x00 x00 x0c x00 x00 x00)))
(T (W x50 x00 x00 x00 x44 x00 x00 x00)
(L (W x4f x84 x6f x8b xe8 xcb x63 xb7))
(L (W xff xff xff xff xff xff xff xff)))))
(T (W x00 x00 x00 x00 x00 x00 x00 x00)
(T (W xff xff xff xff xff xff xff xff)
(T (W x00 x00 x00 x00 x00 x00 x00 x00)
(T (W xff xff xff xff xff xff xff xff)
(L (W xff xff xff xff xff xff xff xff)) E)
(L (W xff xff xff xff xb0 x00 x00 x00)))
(T (W xff xff xff xff xff xff xff xff)
(T (W xff xff xff xff xff xff xff xff)
(L (W x00 x00 x00 x00 x00 x00 x00 x00)) E)
(L (W xf4 xf7 xfe xff x00 x01 x01 x01))))
(T (W xf4 x37 xfc xff x00 x01 x01 x01)
(T (W x00 x00 x00 x00 x00 x00 x00 x00)
(T (W x64 x5f x70 x6f x6b x65 x5f x77)
(L (W x00 x00 x00 x00 x00 x00 x00 x00)) E)
(L (W xff xff xff xff xff xff xff xff)))
(T (W x01 x00 x00 x00 xff xff xff xff)
(L (W xc4 x00 x00 x00 x01 x00 x00 x00))
(L (W x00 x00 x00 x00 x00 x00 x00 x00)))))))
(T (W x00 x00 x80 x3f x00 x00 x80 x3f)
(T (W x45 x26 x22 x84 xe4 x9c xf2 xcb)
(T (W x00 x00 x00 x00 x00 x00 x00 x00)
(T (W x64 x01 x00 x00 xff xff xff xff)
(T (W x00 x00 x80 x3f x00 x00 x80 x3f)
(T (W xff xff xff xff x03 x00 x00 x00)
(L (W x00 x00 x00 x00 x00 x00 x00 x00)) E)
(L (W xca x4c xfe xff x78 x00 x00 x00)))
(T (W xff xff xff xff xbc x00 x00 x00)
(T (W x00 x00 x00 x00 x12 x00 x00 x00)
(L (W x49 xa1 x68 x4a xeb x5f xdd x3d)) E)
(L (W x00 x00 x00 x00 x00 x00 x00 x00))))
(T (W x18 x00 x00 x00 x0c x00 x00 x00)
(T (W x00 x00 x80 x3f x00 x00 x80 x3f)
(T (W x43 x00 x00 x00 xff xff xff xff)
(L (W x00 x00 x00 x00 x00 x00 x00 x00)) E)
(L (W xa9 x01 x00 x00 xff xff xff xff)))
(T (W x00 x00 x80 x3f x00 x00 x80 x3f)
(L (W x00 x00 x00 x00 x00 x00 x00 x00))
(L (W xb4 x00 x00 x00 x14 x00 x00 x00)))))
(T (W xd6 x23 xe4 xd7 x58 xe6 x32 xbe)
(T (W xff xff xff xff xff xff xff xff)
(T (W x10 x00 x14 x00 x00 x00 x00 x00)
(T (W x45 x26 x22 x84 xe4 x9c xf2 xcb)
(L (W xff xff xff xff xff xff xff xff)) E)
(L (W xff xff xff xff x90 x00 x00 x00)))
(T (W xff xff xff xff xc4 x00 x00 x00)
(T (W xcc x00 x00 x00 x01 x00 x00 x00)
(L (W xff xff xff xff xff xff xff xff)) E)
(L (W x45 x26 x22 x84 xe4 x9c xf2 xcb))))
(T (W x12 x2b xfc xff x74 x00 x00 x00)
(T (W x69 x01 x00 x00 xff xff xff xff)
(T (W x4f x84 x6f x8b xe8 xcb x63 xb7)
(L (W x00 x00 x00 x00 x12 x00 x00 x00)) E)
(L (W xff xff xff xff xff xff xff xff)))
(T (W x86 x4a x2b x97 x85 x98 x55 x5f)
(L (W x50 x00 x00 x00 x44 x00 x00 x00))
(L (W x45 x44 x00 x00 x00 x00 x00 x00))))))
(T (W x00 x00 x80 x3f x00 x00 x80 x3f)
(T (W x00 x00 x00 x00 x00 x00 x00 x00)
(T (W xff xff xff xff xff xff xff xff)
(T (W x00 x00 x00 x00 x00 x00 x00 x00)
(T (W x50 x00 x00 x00 x44 x00 x00 x00)
(L (W xcc x00 x00 x00 x01 x00 x00 x00)) E)
(L (W x45 x26 x22 x84 xe4 x9c xf2 xcb)))
(T (W x00 x00 x00 x00 x00 x00 x00 x00)
(T (W x00 x00 x80 xbf x00 x00 x80 xbf)
(L (W x49 xa1 x68 x4a xeb x5f xdd x3d)) E)
(L (W xca xdc xfe xff x78 x00 x00 x00))))
(T (W x00 x00 x80 x3f x00 x00 x80 x3f)
(T (W xff xff xff xff x9c x00 x00 x00)
(T (W x00 x00 x80 xbf x00 x00 x80 xbf)
(L (W x00 x00 x80 xbf x00 x00 x80 xbf)) E)
(L (W x00 x00 x00 x00 x12 x00 x00 x00)))
(T (W x03 x00 x00 x00 xcc x00 x00 x00)
(L (W x00 x00 x80 xbf x00 x00 x80 xbf))
(L (W xff xff xff xff xff xff xff xff)))))
(T (W x00 x00 x00 x00 x00 x00 x00 x00)
(T (W xff xff xff xff x03 x00 x00 x00)
(T (W x00 x00 x00 x00 x00 x00 x00 x00)
(T (W xff xff xff xff xff xff xff xff)
(L (W xff xff xff xff xff xff xff xff)) E)
(L (W xff xff xff xff xbc x00 x00 x00)))
(T (W x00 x00 x00 x00 x00 x00 x00 x00)
(T (W xff xff xff xff xff xff xff xff)
(L (W x45 x26 x22 x84 xe4 x9c xf2 xcb)) E)
(L (W x6c x00 x00 x00 x60 x00 x00 x00))))
(T (W x00 x00 x80 x3f x00 x00 x80 x3f)
(T (W x00 x00 x00 x00 x00 x00 x00 x00)
(T (W xff xff xff xff xff xff xff xff)
(L (W x30 x35 x5f x43 x4c x45 x41 x52)) E)
(L (W xff xff xff xff xff xff xff xff)))
(T (W xcb x01 x00 x00 xff xff xff xff)
(L (W x45 x26 x22 x84 xe4 x9c xf2 xcb))
(L (W x30 x35 x5f x43 x4c x45 x41 x52))))))))
(T (W xff xff xff xff x04 x00 x00 x00)
(T (W x64 x00 x00 x00 x9c x00 x00 x00)
(T (W x40 x00 x00 x00 xa0 x00 x00 x00)
(T (W xb8 x00 x00 x00 xac x00 x00 x00)
(T (W x68 x00 x00 x00 x5c x00 x00 x00)
(T (W xff xff xff xff xff xff xff xff)
(T (W x45 x26 x22 x84 xe4 x9c xf2 xcb)
(L (W x45 x26 x22 x84 xe4 x9c xf2 xcb)) E)
(L (W x06 x00 x00 x00 xc8 x05 x00 x00)))
(T (W x00 x00 x00 x00 x00 x00 x00 x00)
(T (W x00 x00 x80 x3f x00 x00 x80 x3f)
(L (W xff xff xff xff xff xff xff xff)) E)
(L (W xca xc8 xfe xff x78 x00 x00 x00))))
(T (W x00 x00 x00 x00 x00 x00 x00 x00)
(T (W xff xff xff xff xff xff xff xff)
(T (W x50 x00 x00 x00 x44 x00 x00 x00)
(L (W x68 x00 x00 x00 x5c x00 x00 x00)) E)
(L (W x00 x00 x80 xbf x00 x00 x80 xbf)))
(T (W xff xff xff xff xff xff xff xff)
(L (W x45 x26 x22 x84 xe4 x9c xf2 xcb))
(L (W x00 x00 x00 x00 x00 x00 x00 x00)))))
(T (W xc0 x00 x00 x00 xb4 x00 x00 x00)
(T (W x45 x26 x22 x84 xe4 x9c xf2 xcb)
(T (W xff xff xff xff xff xff xff xff)
(T (W xff xff xff xff xff xff xff xff)
(L (W x00 x00 x00 x00 x00 x00 x00 x00)) E)
(L (W x00 x00 x00 x00 x00 x00 x00 x00)))
(T (W x00 x00 x00 x00 x00 x00 x00 x00)
(T (W x00 x00 x00 x00 x00 x00 x00 x00)
(L (W x00 x00 x00 x00 x00 x00 x00 x00)) E)
(L (W x24 x00 x00 x00 x0c x00 x00 x00))))
(T (W x40 x00 x00 x00 x10 x00 x00 x00)
(T (W x00 x00 x80 x3f x00 x00 x80 x3f)
(T (W x18 x00 x00 x00 x10 x00 x00 x00)
(L (W x10 x00 x00 x00 x00 x00 x14 x00)) E)
(L (W xb8 x00 x00 x00 x05 x00 x00 x00)))
(T (W x50 x00 x00 x00 x44 x00 x00 x00)
(L (W x03 x00 x00 x00 xf8 x00 x00 x00))
(L (W x00 x00 x80 xbf x00 x00 x80 xbf))))))
(T (W xff xff xff xff xff xff xff xff)
(T (W x01 x00 x00 x00 x9c x00 x00 x00)
(T (W x00 x00 x80 x3f x00 x00 x80 x3f)
(T (W xff xff xff xff xff xff xff xff)
(T (W x00 x00 x00 x00 x00 x00 x00 x00)
(L (W x30 x35 x5f x43 x4c x45 x41 x52)) E)
(L (W x2e x00 x00 x00 x0c x00 x00 x00)))
(T (W x45 x26 x22 x84 xe4 x9c xf2 xcb)
(T (W xff xff xff xff xff xff xff xff)
(L (W xff xff xff xff xff xff xff xff)) E)
(L (W xff xff xff xff xff xff xff xff))))
(T (W x00 x00 x00 x00 x00 x00 x00 x00)
(T (W x00 x00 x00 x00 x00 x00 x00 x00)
(T (W x45 x26 x22 x84 xe4 x9c xf2 xcb)
(L (W xff xff xff xff xff xff xff xff)) E)
(L (W x00 x00 x00 x00 x64 x9a xfe xff)))
(T (W x5f x4e x53 x5f x30 x35 x5f x43)
(L (W xff xff xff xff xff xff xff xff))
(L (W x00 x00 x80 xbf x00 x00 x80 xbf)))))
(T (W x00 x00 x80 x3f x00 x00 x80 x3f)
(T (W x00 x00 x00 x00 x00 x00 x00 x00)
(T (W xf4 x7b xfc xff x00 x01 x01 x01)
(T (W x00 x00 x80 x3f x00 x00 x80 x3f)
(L (W x00 x00 x80 xbf x00 x00 x80 xbf)) E)
(L (W x00 x00 x00 x00 x00 x00 x00 x00)))
(T (W x00 x00 x80 x3f x00 x00 x80 x3f)
(T (W x00 x00 x00 x00 x00 x00 x00 x00)
(L (W x00 x00 x00 x00 x64 xfa xff xff)) E)
(L (W x00 x00 x00 x00 x00 x00 x00 x00))))
(T (W xff xff xff xff xff xff xff xff)
(T (W x18 x00 x00 x00 x10 x00 x00 x00)
(T (W x00 x00 x00 x00 x00 x00 x00 x00)
(L (W x58 x00 x00 x00 x4c x00 x00 x00)) E)
(L (W x54 x00 x00 x00 x48 x00 x00 x00)))
(T (W x00 x00 x80 x3f x00 x00 x80 x3f)
(L (W x00 x00 x00 x00 x00 x00 x00 x00))
(L (W x00 x00 x80 xbf x00 x00 x80 xbf)))))))
(T (W xff xff xff xff xff xff xff xff)
(T (W xff xff xff xff xff xff xff xff)
(T (W x45 x26 x22 x84 xe4 x9c xf2 xcb)
(T (W x12 xcf xfb xff x74 x00 x00 x00)
(T (W xff xff xff xff xff xff xff xff)
(T (W x00 x00 x00 x00 x00 x00 x00 x00)
(L (W xff xff xff xff xff xff xff xff)) E)
(L (W x00 x00 x00 x00 x00 x00 x00 x00)))
(T (W x00 x00 x80 x3f x00 x00 x80 x3f)
(T (W xc0 x00 x00 x00 x01 x00 x00 x00)
(L (W x04 x00 x00 x00 xda xd4 xff xff)) E)
(L (W xff xff xff xff xff xff xff xff))))
(T (W x00 x00 x00 x00 x00 x00 x00 x00)
(T (W x00 x00 x00 x00 xd2 x98 xfc xff)
(T (W x00 x00 x00 x00 x58 x00 x5c x00)
(L (W xff xff xff xff x9c x00 x00 x00)) E)
(L (W xca x90 xfe xff x78 x00 x00 x00)))
(T (W x38 x01 x00 x00 x04 x00 x00 x00)
(L (W xff xff xff xff x9c x00 x00 x00))
(L (W x4f x84 x6f x8b xe8 xcb x63 xb7)))))
(T (W x68 x00 x00 x00 x5c x00 x00 x00)
(T (W x00 x00 x00 x00 x00 x00 x00 x00)
(T (W x00 x00 x00 x01 xa9 x00 x00 x00)
(T (W xff xff xff xff x03 x00 x00 x00)
(L (W x00 x00 x80 xbf x00 x00 x80 xbf)) E)
(L (W x30 x35 x5f x43 x4c x45 x41 x52)))
(T (W x00 x00 x80 x3f x00 x00 x80 x3f)
(T (W x00 x00 x80 xbf x00 x00 x80 xbf)
(L (W x00 x00 x80 xbf x00 x00 x80 xbf)) E)
(L (W x00 x00 x00 x00 x12 x00 x00 x00))))
(T (W xca xa1 xfe xff x00 x00 x01 x01)
(T (W x45 x26 x22 x84 xe4 x9c xf2 xcb)
(T (W x02 x00 x00 x00 x38 x01 x00 x00)
(L (W xf4 xb3 xff xff x00 x01 x01 x01)) E)
(L (W x54 x00 x00 x00 x48 x00 x00 x00)))
(T (W x00 x00 x80 x3f x00 x00 x80 x3f)
(L (W x30 x35 x5f x43 x4c x45 x41 x52))
(L (W x6c x00 x00 x00 x60 x00 x00 x00))))))
(T (W xff xff xff xff xff xff xff xff)
(T (W x0a x00 x00 x00 x3e x00 x00 x00)
(T (W x00 x00 x80 x3f x00 x00 x80 x3f)
(T (W xff xff xff xff xff xff xff xff)
(T (W x63 x01 x00 x00 xff xff xff xff)
(L (W x00 x00 x00 x00 x00 x00 x00 x00)) E)
(L (W x46 x53 x59 x53 x5f x4e x53 x5f)))
(T (W xff xff xff xff xff xff xff xff)
(T (W x5c xe7 xfd xff x31 x00 x00 x00)
(L (W x00 x00 x01 x01 x5d x00 x00 x00)) E)
(L (W x00 x00 x00 x00 xfa xdf xfe xff))))
(T (W x00 x00 x00 x00 x00 x00 x00 x00)
(T (W x00 x00 x00 x00 x00 x00 x00 x00)
(T (W x8c xaa xfd xff x32 x00 x00 x00)
(L (W x00 x00 x00 x00 xd2 xa8 xff xff)) E)
(L (W x74 x00 x00 x00 x68 x00 x00 x00)))
(T (W x00 x00 x80 x3f x00 x00 x80 x3f)
(L (W xff xff xff xff xff xff xff xff))
(L (W x00 x00 x80 xbf x00 x00 x80 xbf)))))
(T (W x50 x00 x00 x00 x44 x00 x00 x00)
(T (W x00 x00 x00 x00 x00 x00 x00 x00)
(T (W xff xff xff xff xff xff xff xff)
(T (W x00 x00 x80 x3f x00 x00 x80 x3f)
(L (W x54 x00 x00 x00 x48 x00 x00 x00)) E)
(L (W x00 x00 x00 x00 x00 x00 x00 x00)))
(T (W x45 x26 x22 x84 xe4 x9c xf2 xcb)
(T (W x00 x00 x80 xbf x00 x00 x80 xbf)
(L (W x00 x00 x00 x00 x00 x00 x00 x00)) E)
(L (W x30 x35 x5f x43 x4c x45 x41 x52))))
(T (W xff xff xff xff xff xff xff xff)
(T (W xff xff xff xff xff xff xff xff)
(T (W x00 x00 x80 x3f x00 x00 x80 x3f)
(L (W x03 x00 x00 x00 xd0 x00 x00 x00)) E)
(L (W x00 x00 x80 xbf x00 x00 x80 xbf)))
(T (W x45 x26 x22 x84 xe4 x9c xf2 xcb)
(L (W x00 x00 x00 x00 x00 x00 x00 x00))
(L (W xca x40 xff xff x78 x00 x00 x00)))))))))))
(T (W x40 x58 x02 x00 x04 x57 x02 x00)
(T (W x38 xb0 x01 x00 x84 xab x01 x00)
(T (W xb8 x80 x00 x00 x6c x7e x00 x00)
(T (W x50 x00 x00 x00 x44 x00 x00 x00)
(T (W x00 x00 x80 x3f x00 x00 x80 x3f)
(T (W x00 x00 x80 x3f x00 x00 x80 x3f)
(T (W x6c x00 x00 x00 x60 x00 x00 x00)
(T (W x00 x00 x00 x00 x00 x00 x00 x00)
(T (W x68 x00 x00 x00 x5c x00 x00 x00)
(T (W x00 x00 x00 x00 x00 x00 x00 x00)
(L (W x00 x00 x00 x00 x00 x00 x00 x00)) E)
(L (W xff xff xff xff xff xff xff xff)))
(T (W x92 xc0 xfc xff x74 x00 x00 x00)
(T (W x00 x00 x00 x00 x00 x00 x00 x00)
(L (W x00 x00 x80 xbf x00 x00 x80 xbf)) E)
(L (W x49 xa1 x68 x4a xeb x5f xdd x3d))))
(T (W xff xff xff xff xff xff xff xff)
(T (W x00 x00 x80 x3f x00 x00 x80 x3f)
(T (W x00 x00 x00 x00 x00 x00 x00 x00)
(L (W x00 x00 x00 x00 x12 x00 x00 x00)) E)
(L (W x90 x04 x00 x00 x80 x03 x00 x00)))
(T (W x45 x26 x22 x84 xe4 x9c xf2 xcb)
(T (W x5f x4e x53 x5f x30 x35 x5f x43)
(L (W x00 x00 x00 x00 x00 x00 x00 x00)) E)
(L (W xff xff xff xff xff xff xff xff)))))
(T (W x45 x26 x22 x84 xe4 x9c xf2 xcb)
(T (W x0c xec xfb xff x1b x00 x00 x00)
(T (W x92 x60 xfc xff x74 x00 x00 x00)
(T (W x68 x00 x00 x00 x5c x00 x00 x00)
(L (W xff xff xff xff xff xff xff xff)) E)
(L (W xcc x00 x00 x00 x01 x00 x00 x00)))
(T (W xc8 x00 x00 x00 x01 x00 x00 x00)
(T (W xff xff xff xff xff xff xff xff)
(L (W x5d x00 x00 x00 xff xff xff xff)) E)
(L (W xff xff xff xff xb0 x00 x00 x00))))
(T (W xff xff xff xff xff xff xff xff)
(T (W x54 x02 x00 x00 x38 x01 x00 x00)
(T (W xff xff xff xff xff xff xff xff)
(L (W x45 x26 x22 x84 xe4 x9c xf2 xcb)) E)
(L (W x00 x00 x00 x00 x00 x00 x00 x00)))
(T (W x00 x00 x00 x00 x00 x00 x00 x00)
(L (W x6c x00 x00 x00 x60 x00 x00 x00))
(L (W x00 x00 x00 x00 x00 x00 x00 x00))))))
(T (W x23 x00 x00 x00 x9c x00 x00 x00)
(T (W x00 x00 x80 x3f x00 x00 x80 x3f)
(T (W x00 x00 x00 x00 x00 x00 x00 x00)
(T (W x50 x00 x00 x00 x44 x00 x00 x00)
(T (W xff xff xff xff xff xff xff xff)
(L (W x45 x26 x22 x84 xe4 x9c xf2 xcb)) E)
(L (W xff xff xff xff xff xff xff xff)))
(T (W x00 x00 x00 x00 x00 x00 x00 x00)
(T (W x00 x00 x80 xbf x00 x00 x80 xbf)
(L (W x2d x00 x00 x00 x30 x00 x00 x00)) E)
(L (W x00 x00 x80 xbf x00 x00 x80 xbf))))
(T (W xff xff xff xff xff xff xff xff)
(T (W x03 x00 x00 x00 xd0 x00 x00 x00)
(T (W x00 x00 x00 x00 x00 x00 x00 x00)
(L (W x74 x95 xff xff x00 x01 x01 x01)) E)
(L (W x00 x00 x00 x00 x00 x00 x00 x00)))
(T (W xff xff xff xff xc4 x00 x00 x00)
(L (W x00 x00 x80 xbf x00 x00 x80 xbf))
(L (W x74 xf0 x39 xdc x00 x64 x48 x2f)))))
(T (W x00 x00 x00 x00 x00 x00 x00 x00)
(T (W x00 x00 x00 x00 x02 x00 x00 x00)
(T (W x00 x00 x00 x00 x00 x00 x00 x00)
(T (W x45 x26 x22 x84 xe4 x9c xf2 xcb)
(L (W x00 x00 x00 x00 x00 x00 x00 x00)) E)
(L (W xff xff xff xff xff xff xff xff)))
(T (W xba x48 xfe xff x00 x00 x01 x01)
(T (W x00 x00 x00 x00 x00 x00 x00 x00)
(L (W x30 x35 x5f x43 x4c x45 x41 x52)) E)
(L (W xff xff xff xff xff xff xff xff))))
(T (W xff xff xff xff x04 x00 x00 x00)
(T (W x45 x26 x22 x84 xe4 x9c xf2 xcb)
(T (W xff xff xff xff xc4 x00 x00 x00)
(L (W x45 x26 x22 x84 xe4 x9c xf2 xcb)) E)
(L (W x00 x00 x00 x00 x12 x00 x00 x00)))
(T (W x00 x00 x00 x00 x00 x00 x00 x00)
(L (W xff xff xff xff xff xff xff xff))
(L (W x00 x00 x00 x00 x00 x00 x00 x00)))))))
(T (W x00 x00 x80 x3f x00 x00 x80 x3f)
(T (W x18 x00 x00 x00 x10 x00 x00 x00)
(T (W x00 x00 x80 x3f x00 x00 x80 x3f)
(T (W x00 x00 x00 x00 x00 x00 x00 x00)
(T (W x00 x00 x80 x3f x00 x00 x80 x3f)
(T (W xb4 x01 x00 x00 xff xff xff xff)
(L (W x00 x00 x80 xbf x00 x00 x80 xbf)) E)
(L (W xff xff xff xff xff xff xff xff)))
(T (W xff xff xff xff xff xff xff xff)
(T (W x00 x00 x00 x00 x00 x00 x00 x00)
(L (W x6c x00 x00 x00 x60 x00 x00 x00)) E)
(L (W x00 x00 x00 x00 x00 x00 x00 x00))))
(T (W xff xff xff xff xff xff xff xff)
(T (W x68 x00 x00 x00 x5c x00 x00 x00)
(T (W x00 x00 x00 x00 x00 x00 x00 x00)
(L (W x00 x00 x00 x00 x00 x00 x00 x00)) E)
(L (W x00 x00 x00 x00 x00 x00 x00 x00)))
(T (W x50 x00 x00 x00 x44 x00 x00 x00)
(L (W x45 x26 x22 x84 xe4 x9c xf2 xcb))
(L (W xff xff xff xff xff xff xff xff)))))
(T (W x00 x00 x80 x3f x00 x00 x80 x3f)
(T (W x00 x00 x00 x00 x00 x00 x00 x00)
(T (W xff xff xff xff x03 x00 x00 x00)
(T (W x50 x00 x00 x00 x44 x00 x00 x00)
(L (W x02 x00 x00 x00 x30 x01 x00 x00)) E)
(L (W xff xff xff xff xff xff xff xff)))
(T (W xff xff xff xff xff xff xff xff)
(T (W xff xff xff xff xff xff xff xff)
(L (W x04 x00 x00 x00 xda xf3 xff xff)) E)
(L (W xff xff xff xff xff xff xff xff))))
(T (W xb8 x00 x00 x00 xac x00 x00 x00)
(T (W x00 x00 x00 x00 x00 x00 x00 x00)
(T (W x49 xa1 x68 x4a xeb x5f xdd x3d)
(L (W x00 x00 x00 x00 x00 x00 x62 x00)) E)
(L (W xc0 x00 x00 x00 x01 x00 x00 x00)))
(T (W x00 x00 x00 x00 x00 x00 x00 x00)
(L (W x0c x00 x10 x00 x14 x00 x18 x00))
(L (W x4f x84 x6f x8b xe8 xcb x63 xb7))))))
(T (W x50 x00 x00 x00 x44 x00 x00 x00)
(T (W x00 x00 x00 x00 x00 x00 x00 x00)
(T (W x00 x00 x00 x00 x00 x00 x00 x00)
(T (W x68 x00 x00 x00 x5c x00 x00 x00)
(T (W xff xff xff xff x03 x00 x00 x00)
(L (W x03 x00 x00 x00 xd8 x00 x00 x00)) E)
(L (W xff xff xff xff xff xff xff xff)))
(T (W x00 x00 x80 x3f x00 x00 x80 x3f)
(T (W x74 xdd xfd xff x00 x01 x01 x01)
(L (W x00 x00 x80 xbf x00 x00 x80 xbf)) E)
(L (W x92 xd8 xfe xff x74 x00 x00 x00))))
(T (W xff xff xff xff xff xff xff xff)
(T (W xff xff xff xff xff xff xff xff)
(T (W x00 x00 x00 x00 x00 x00 x00 x00)
(L (W x00 x00 x00 x00 xe4 x9b xff xff)) E)
(L (W x00 x00 x80 xbf x00 x00 x80 xbf)))
(T (W xff xff xff xff xff xff xff xff)
(L (W x45 x26 x22 x84 xe4 x9c xf2 xcb))
(L (W x00 x00 x00 x00 x00 x00 x00 x00)))))
(T (W x00 x00 x00 x00 x00 x00 x00 x00)
(T (W xff xff xff xff xff xff xff xff)
(T (W x45 x26 x22 x84 xe4 x9c xf2 xcb)
(T (W x18 x01 x00 x00 x04 x00 x00 x00)
(L (W xdc x80 xff xff x0b x00 x00 x00)) E)
(L (W x00 x00 x00 x00 x52 x82 xfe xff)))
(T (W x00 x00 x00 x00 x00 x00 x00 x00)
(T (W x3b x02 x00 x00 xff xff xff xff)
(L (W x00 x00 x80 xbf x00 x00 x80 xbf)) E)
(L (W xb0 x00 x00 x00 x64 x00 x00 x00))))
(T (W x45 x26 x22 x84 xe4 x9c xf2 xcb)
(T (W x00 x00 x80 x3f x00 x00 x80 x3f)
(T (W x00 x00 x00 x00 x52 xc2 xfd xff)
(L (W x49 xa1 x68 x4a xeb x5f xdd x3d)) E)
(L (W x00 x00 x00 x00 x00 x00 x00 x00)))
(T (W x00 x00 x00 x00 x00 x00 x00 x00)
(L (W xff xff xff xff xff xff xff xff))
(L (W x49 xa1 x68 x4a xeb x5f xdd x3d))))))))
(T (W xc8 x02 x00 x00 xff xff xff xff)
(T (W x00 x00 x00 x00 x00 x00 x00 x00)
(T (W x00 x00 x00 x00 x00 x00 x00 x00)
(T (W xbf x01 x00 x00 xff xff xff xff)
(T (W x64 x00 x00 x00 x9c x00 x00 x00)
(T (W x00 x00 x00 x00 x00 x00 x00 x00)
(T (W x50 x00 x00 x00 x44 x00 x00 x00)
(L (W xff xff xff xff xff xff xff xff)) E)
(L (W x00 x00 x00 x00 x00 x00 x00 x00)))
(T (W x00 x00 x00 x00 x00 x00 x00 x00)
(T (W x6c x00 x00 x00 x60 x00 x00 x00)
(L (W xff xff xff xff xff xff xff xff)) E)
(L (W x03 x00 x00 x00 xd8 x00 x00 x00))))
(T (W x00 x00 x80 x3f x00 x00 x80 x3f)
(T (W x00 x00 x00 x00 xda x8f xfc xff)
(T (W xff xff xff xff x03 x00 x00 x00)
(L (W xff xff xff xff xff xff xff xff)) E)
(L (W x68 x00 x00 x00 x5c x00 x00 x00)))
(T (W xff xff xff xff xff xff xff xff)
(L (W xc4 x00 x00 x00 x01 x00 x00 x00))
(L (W x00 x00 x00 x00 x00 x00 x00 x00)))))
(T (W xff xff xff xff xff xff xff xff)
(T (W x00 x00 x80 x3f x00 x00 x80 x3f)
(T (W xff xff xff xff xff xff xff xff)
(T (W x00 x00 x00 x00 x00 x00 x00 x00)
(L (W x00 x00 x80 xbf x00 x00 x80 xbf)) E)
(L (W x00 x00 x80 xbf x00 x00 x80 xbf)))
(T (W x00 x00 x00 x00 x00 x00 x00 x00)
(T (W x00 x00 x80 xbf x00 x00 x80 xbf)
(L (W x00 x00 x00 x00 x00 x00 x00 x00)) E)
(L (W x00 x00 x00 x00 x00 x00 x00 x00))))
(T (W x00 x00 x00 x00 x00 x00 x00 x00)
(T (W x50 x00 x00 x00 x44 x00 x00 x00)
(T (W x04 x00 x05 x00 x06 x00 x07 x00)
(L (W x00 x00 x00 x00 xda xaf xff xff)) E)
(L (W xff xff xff xff xff xff xff xff)))
(T (W xc8 x00 x00 x00 x01 x00 x00 x00)
(L (W x04 x00 x00 x00 xd2 x32 xfe xff))
(L (W xff xff xff xff xa0 x00 x00 x00))))))
(T (W x4a xe7 xfd xff x00 x00 x01 x01)
(T (W x0a x2b xff xff x00 x00 x01 x01)
(T (W x74 xd9 xfb xff x00 x01 x01 x01)
(T (W xe7 x90 x33 x48 x6d xc7 xc6 xcb)
(T (W x45 x26 x22 x84 xe4 x9c xf2 xcb)
(L (W x49 xa1 x68 x4a xeb x5f xdd x3d)) E)
(L (W x00 x00 x00 x00 x00 x00 x00 x00)))
(T (W xff xff xff xff xbc x00 x00 x00)
(T (W x45 x44 x00 x00 x00 x00 x00 x00)
(L (W x00 x00 x00 x00 x7a xd5 xff xff)) E)
(L (W x00 x00 x00 x00 x00 x00 x00 x00))))
(T (W x45 x26 x22 x84 xe4 x9c xf2 xcb)
(T (W x00 x00 x80 x3f x00 x00 x80 x3f)
(T (W x00 x00 x80 xbf x00 x00 x80 xbf)
(L (W x00 x00 x00 x00 x00 x00 x00 x00)) E)
(L (W xff xff xff xff xff xff xff xff)))
(T (W x00 x00 x80 x3f x00 x00 x80 x3f)
(L (W x02 x00 x00 x00 x30 x01 x00 x00))
(L (W x00 x00 x00 x00 xe4 x17 xff xff)))))
(T (W xff xff xff xff xff xff xff xff)
(T (W x50 x00 x00 x00 x44 x00 x00 x00)
(T (W xff xff xff xff xff xff xff xff)
(T (W x92 x74 xfd xff x74 x00 x00 x00)
(L (W xbc x00 x00 x00 x01 x00 x00 x00)) E)
(L (W x00 x00 x80 xbf x00 x00 x80 xbf)))
(T (W x18 x00 x00 x00 x10 x00 x00 x00)
(T (W x00 x00 x80 xbf x00 x00 x80 xbf)
(L (W x0c x00 x00 x00 x24 x00 x00 x00)) E)
(L (W x00 x00 x00 x00 x00 x00 x00 x00))))
(T (W x00 x00 x00 x00 x00 x00 x00 x00)
(T (W xff xff xff xff xff xff xff xff)
(T (W x64 x5f x70 x6f x6b x65 x5f x77)
(L (W xff xff xff xff xff xff xff xff)) E)
(L (W x6c x00 x00 x00 x60 x00 x00 x00)))
(T (W x01 x00 x00 x00 xa0 x00 x00 x00)
(L (W x00 x00 x80 xbf x00 x00 x80 xbf))
(L (W xff xff xff xff xb0 x00 x00 x00)))))))
(T (W x70 x74 xe7 x59 x54 x5c x1d xda)
(T (W x10 x00 x00 x00 x0c x00 x00 x00)
(T (W x92 x21 xff xff xb5 x01 x00 x00)
(T (W xbc x00 x00 x00 xb0 x00 x00 x00)
(T (W x00 x00 x00 x00 x00 x00 x00 x00)
(T (W x45 x26 x22 x84 xe4 x9c xf2 xcb)
(L (W x02 x00 x00 x00 x38 x01 x00 x00)) E)
(L (W x00 x00 x00 x00 x00 x00 x00 x00)))
(T (W x00 x00 x80 x3f x00 x00 x80 x3f)
(T (W xff xff xff xff xff xff xff xff)
(L (W x00 x00 x01 x01 xbe x00 x00 x00)) E)
(L (W xff xff xff xff xff xff xff xff))))
(T (W x00 x00 x80 x3f x00 x00 x80 x3f)
(T (W x00 x00 x00 x00 x00 x00 x00 x00)
(T (W x68 x00 x00 x00 x5c x00 x00 x00)
(L (W xff xff xff xff xff xff xff xff)) E)
(L (W x45 x26 x22 x84 xe4 x9c xf2 xcb)))
(T (W x00 x00 x00 x00 x00 x00 x00 x00)
(L (W xff xff xff xff xff xff xff xff))
(L (W x00 x00 x80 xbf x00 x00 x80 xbf)))))
(T (W xff xff xff xff xff xff xff xff)
(T (W x00 x00 x80 x3f x00 x00 x80 x3f)
(T (W xff xff xff xff xff xff xff xff)
(T (W xdd x00 x00 x00 xff xff xff xff)
(L (W x18 x00 x00 x00 x10 x00 x00 x00)) E)
(L (W x00 x00 x00 x00 x00 x00 x00 x00)))
(T (W x00 x00 x80 x3f x00 x00 x80 x3f)
(T (W x00 x00 x80 xbf x00 x00 x80 xbf)
(L (W x14 x00 x00 x00 x0c x00 x00 x00)) E)
(L (W x4f x84 x6f x8b xe8 xcb x63 xb7))))
(T (W x00 x00 x00 x00 x00 x00 x00 x00)
(T (W xc4 x00 x00 x00 x01 x00 x00 x00)
(T (W x67 x72 x6f x75 x70 x5f x6c x65)
(L (W xff xff xff xff xff xff xff xff)) E)
(L (W x92 xac xfe xff x74 x00 x00 x00)))
(T (W x18 x00 x00 x00 x10 x00 x00 x00)
(L (W x49 xa1 x68 x4a xeb x5f xdd x3d))
(L (W xcc x00 x00 x00 x01 x00 x00 x00))))))
(T (W xff xff xff xff xff xff xff xff)
(T (W xff xff xff xff xff xff xff xff)
(T (W x50 x00 x00 x00 x44 x00 x00 x00)
(T (W x3f x00 x00 x00 xff xff xff xff)
(T (W x00 x00 x00 x00 x00 x00 x00 x00)
(L (W x00 x00 x80 xbf x00 x00 x80 xbf)) E)
(L (W x00 x00 x80 xbf x00 x00 x80 xbf)))
(T (W x00 x00 x00 x00 x01 x00 x00 x00)
(T (W x00 x00 x00 x00 x00 x00 x00 x00)
(L (W x00 xd1 xac x28 xbf xcd x59 x6a)) E)
(L (W x00 x00 x00 x00 x00 x00 x00 x00))))
(T (W x00 x00 x00 x00 x00 x00 x00 x00)
(T (W x00 x00 x80 x3f x00 x00 x80 x3f)
(T (W x00 x00 x00 x00 x00 x00 x00 x00)
(L (W x00 x00 x00 x00 x00 x00 x00 x00)) E)
(L (W xff xff xff xff xff xff xff xff)))
(T (W x00 x00 x80 x3f x00 x00 x80 x3f)
(L (W x00 x00 x00 x00 x00 x00 x00 x00))
(L (W x74 x00 x00 x00 x68 x00 x00 x00)))))
(T (W xff xff xff xff xff xff xff xff)
(T (W x68 x00 x00 x00 x5c x00 x00 x00)
(T (W xff xff xff xff xff xff xff xff)
(T (W x00 x00 x80 x3f x00 x00 x80 x3f)
(L (W x45 x26 x22 x84 xe4 x9c xf2 xcb)) E)
(L (W x54 x00 x00 x00 x48 x00 x00 x00)))
(T (W xff xff xff xff xff xff xff xff)
(T (W x00 x00 x80 xbf x00 x00 x80 xbf)
(L (W x21 x00 x00 x00 x24 x00 x00 x00)) E)
(L (W x00 x00 x00 x00 x12 x00 x00 x00))))
(T (W x00 x00 x00 x00 x00 x00 x00 x00)
(T (W x04 x00 x00 x00 xda xc7 xfc xff)
(T (W x74 xc1 xfd xff x00 x01 x01 x01)
(L (W xff xff xff xff xff xff xff xff)) E)
(L (W x18 x00 x00 x00 x10 x00 x00 x00)))
(T (W x68 x00 x00 x00 x5c x00 x00 x00)
(L (W x00 x00 x80 xbf x00 x00 x80 xbf))
(L (W x03 x00 x00 x00 xd8 x00 x00 x00)))))))))
(T (W x00 x00 x00 x00 x00 x00 x00 x00)
(T (W xff xff xff xff xff xff xff xff)
(T (W xb8 x00 x00 x00 xac x00 x00 x00)
(T (W xff xff xff xff xff xff xff xff)
(T (W xff xff xff xff xff xff xff xff)
(T (W x00 x00 x80 x3f x00 x00 x80 x3f)
(T (W xff xff xff xff xff xff xff xff)
(T (W x45 x26 x22 x84 xe4 x9c xf2 xcb)
(L (W x45 x26 x22 x84 xe4 x9c xf2 xcb)) E)
(L (W x00 x00 x00 x00 xd2 x50 xfe xff)))
(T (W xff xff xff xff xff xff xff xff)
(T (W x00 x00 x80 x3f x00 x00 x80 x3f)
(L (W x18 x00 x00 x00 x10 x00 x00 x00)) E)
(L (W x6c x00 x00 x00 x60 x00 x00 x00))))
(T (W x00 x00 x00 x00 x00 x00 x00 x00)
(T (W xff xff xff xff xff xff xff xff)
(T (W x45 x26 x22 x84 xe4 x9c xf2 xcb)
(L (W x6c x00 x00 x00 x60 x00 x00 x00)) E)
(L (W x00 x00 x80 xbf x00 x00 x80 xbf)))
(T (W x31 x00 x00 x00 x34 x00 x00 x00)
(L (W x00 x00 x80 xbf x00 x00 x80 xbf))
(L (W xff xff xff xff xff xff xff xff)))))
(T (W x50 x00 x00 x00 x44 x00 x00 x00)
(T (W x00 x00 x80 x3f x00 x00 x80 x3f)
(T (W x01 x00 x00 x00 x9c x00 x00 x00)
(T (W xff xff xff xff xff xff xff xff)
(L (W x00 x00 x00 x00 x00 x00 x00 x00)) E)
(L (W xe8 x1b xb6 x28 xbf x5e x64 x6a)))
(T (W x02 x00 x00 x00 xff xff xff xff)
(T (W x00 x00 x00 x00 x00 x00 x00 x00)
(L (W x30 x35 x5f x43 x4c x45 x41 x52)) E)
(L (W x44 x02 x00 x00 x30 x01 x00 x00))))
(T (W x4a x95 xfe xff x00 x00 x01 x01)
(T (W x45 x26 x22 x84 xe4 x9c xf2 xcb)
(T (W x00 x00 x00 x00 x00 x00 x00 x00)
(L (W xff xff xff xff xff xff xff xff)) E)
(L (W x4a xa4 xfe xff x78 x00 x00 x00)))
(T (W x00 x00 x80 x3f x00 x00 x80 x3f)
(L (W xff xff xff xff xb0 x00 x00 x00))
(L (W x00 x00 x80 xbf x00 x00 x80 xbf))))))
(T (W xff xff xff xff xff xff xff xff)
(T (W xbc x00 x00 x00 xb0 x00 x00 x00)
(T (W x00 x00 x00 x00 x00 x00 x00 x00)
(T (W xb8 x00 x00 x00 xac x00 x00 x00)
(T (W x00 x00 x00 x00 x00 x00 x00 x00)
(L (W xff xff xff xff xff xff xff xff)) E)
(L (W xff xff xff xff xff xff xff xff)))
(T (W x00 x00 x80 x3f x00 x00 x80 x3f)
(T (W xb0 x00 x00 x00 x64 x00 x00 x00)
(L (W xff xff xff xff xff xff xff xff)) E)
(L (W xff xff xff xff xff xff xff xff))))
(T (W x01 x00 x00 x00 x04 x00 x00 x00)
(T (W x04 x00 x00 x00 x80 x03 x00 x00)
(T (W x00 x01 x01 x01 x01 x01 x01 x01)
(L (W xff xff xff xff xff xff xff xff)) E)
(L (W x00 x00 x80 xbf x00 x00 x80 xbf)))
(T (W xff xff xff xff x02 x00 x00 x00)
(L (W x03 x00 x00 x00 xd0 x00 x00 x00))
(L (W x00 x00 x80 xbf x00 x00 x80 xbf)))))
(T (W x50 x00 x00 x00 x44 x00 x00 x00)
(T (W x00 x00 x00 x00 x00 x00 x00 x00)
(T (W x00 x00 x80 x3f x00 x00 x80 x3f)
(T (W x00 x00 x10 x00 x14 x00 x18 x00)
(L (W x00 x00 x80 xbf x00 x00 x80 xbf)) E)
(L (W x00 x00 x00 x00 x00 x00 x00 x00)))
(T (W x00 x00 x00 x00 x00 x00 x00 x00)
(T (W x00 x00 x00 x00 x00 x00 x00 x00)
(L (W x45 x26 x22 x84 xe4 x9c xf2 xcb)) E)
(L (W x00 x00 x00 x00 x00 x00 x00 x00))))
(T (W x20 x01 x00 x00 x04 x00 x00 x00)
(T (W x50 x00 x00 x00 x44 x00 x00 x00)
(T (W x00 x00 x80 x3f x00 x00 x80 x3f)
(L (W xff xff xff xff x90 x00 x00 x00)) E)
(L (W x00 x00 x80 xbf x00 x00 x80 xbf)))
(T (W x00 x00 x80 x3f x00 x00 x80 x3f)
(L (W x00 x00 x00 x00 x00 x00 x00 x00))
(L (W x45 x26 x22 x84 xe4 x9c xf2 xcb)))))))
(T (W xff xff xff xff xff xff xff xff)
(T (W xff xff xff xff xff xff xff xff)
(T (W x64 x00 x00 x00 x9c x00 x00 x00)
(T (W x00 x00 x80 x3f x00 x00 x80 x3f)
(T (W xff xff xff xff xff xff xff xff)
(T (W x00 x00 x00 x00 x00 x00 x00 x00)
(L (W x21 x00 x00 x00 x24 x00 x00 x00)) E)
(L (W x00 x00 x00 x00 x00 x00 x00 x00)))
(T (W x00 x00 x00 x00 x00 x00 x00 x00)
(T (W x74 xcf xfd xff x00 x01 x01 x01)
(L (W x03 x00 x00 x00 xd8 x00 x00 x00)) E)
(L (W x18 x00 x00 x00 x10 x00 x00 x00))))
(T (W xdc x12 xfc xff x1e x00 x00 x00)
(T (W xff xff xff xff xff xff xff xff)
(T (W x45 x26 x22 x84 xe4 x9c xf2 xcb)
(L (W x45 x26 x22 x84 xe4 x9c xf2 xcb)) E)
(L (W x00 x00 x80 xbf x00 x00 x80 xbf)))
(T (W xff xff xff xff xff xff xff xff)
(L (W x50 x00 x00 x00 x44 x00 x00 x00))
(L (W x00 x00 x00 x00 x12 x00 x00 x00)))))
(T (W x00 x00 x80 x3f x00 x00 x80 x3f)
(T (W x00 x00 x80 x3f x00 x00 x80 x3f)
(T (W x00 x00 x80 x3f x00 x00 x80 x3f)
(T (W xff xff xff xff x03 x00 x00 x00)
(L (W x00 x00 x00 x00 x00 x00 x00 x00)) E)
(L (W x30 x35 x5f x43 x4c x45 x41 x52)))
(T (W x00 x00 x00 x00 x00 x00 x00 x00)
(T (W x00 x00 x00 x00 x00 x00 x00 x00)
(L (W x00 x00 x00 x00 x00 x00 x00 x00)) E)
(L (W x45 x44 x00 x00 x00 x00 x00 x00))))
(T (W x00 x00 x00 x00 x00 x00 x00 x00)
(T (W x00 x00 x80 x3f x00 x00 x80 x3f)
(T (W x03 x00 x00 x00 xd0 x00 x00 x00)
(L (W x74 xaf xff xff x00 x01 x01 x01)) E)
(L (W x00 x00 x00 x00 x00 x00 x00 x00)))
(T (W x00 x00 x80 x3f x00 x00 x80 x3f)
(L (W xc8 x00 x00 x00 xff xff xff xff))
(L (W x54 x00 x00 x00 x48 x00 x00 x00))))))
(T (W xff xff xff xff xff xff xff xff)
(T (W x74 x9f xfb xff x00 x01 x01 x01)
(T (W x45 x26 x22 x84 xe4 x9c xf2 xcb)
(T (W x45 x26 x22 x84 xe4 x9c xf2 xcb)
(T (W xb1 x01 x00 x00 xff xff xff xff)
(L (W x24 x00 x00 x00 x0c x00 x00 x00)) E)
(L (W x45 x44 x00 x00 x00 x00 x00 x00)))
(T (W xff xff xff xff x9c x00 x00 x00)
(T (W xff xff xff xff xff xff xff xff)
(L (W xff xff xff xff xff xff xff xff)) E)
(L (W x00 x00 x00 x00 x7a xdb xfe xff))))
(T (W xff xff xff xff xff xff xff xff)
(T (W x46 x53 x59 x53 x5f x4e x53 x5f)
(T (W xff xff xff xff xff xff xff xff)
(L (W xff xff xff xff xff xff xff xff)) E)
(L (W x45 x26 x22 x84 xe4 x9c xf2 xcb)))
(T (W x00 x00 x00 x00 x00 x00 x00 x00)
(L (W xff xff xff xff xff xff xff xff))
(L (W x00 x00 x80 xbf x00 x00 x80 xbf)))))
(T (W x6c x00 x00 x00 x60 x00 x00 x00)
(T (W x00 x00 x00 x00 x00 x00 x00 x00)
(T (W x68 x00 x00 x00 x5c x00 x00 x00)
(T (W x00 x00 x00 x00 x00 x00 x00 x00)
(L (W x00 x00 x80 xbf x00 x00 x80 xbf)) E)
(L (W x00 x00 x00 x00 x00 x00 x00 x00)))
(T (W x00 x00 x80 x3f x00 x00 x80 x3f)
(T (W x00 x00 x00 x00 x00 x00 x00 x00)
(L (W x00 x00 x68 x00 x00 x00 x00 x00)) E)
(L (W x00 x00 x00 x00 x00 x00 x00 x00))))
(T (W xff xff xff xff xff xff xff xff)
(T (W xc4 x00 x00 x00 x01 x00 x00 x00)
(T (W x00 x00 x80 x3f x00 x00 x80 x3f)
(L (W x6c x00 x00 x00 x60 x00 x00 x00)) E)
(L (W x00 x00 x80 xbf x00 x00 x80 xbf)))
(T (W x45 x26 x22 x84 xe4 x9c xf2 xcb)
(L (W x00 x00 x00 x00 x00 x00 x00 x00))
(L (W x6c x00 x00 x00 x60 x00 x00 x00))))))))
(T (W x00 x00 x00 x00 x00 x00 x00 x00)
(T (W x00 x00 x00 x00 x00 x00 x00 x00)
(T (W x00 x00 x00 x00 x00 x00 x00 x00)
(T (W x00 x00 x00 x00 x00 x00 x00 x00)
(T (W x92 x5b xff xff x6a x01 x00 x00)
(T (W x00 x00 x80 x3f x00 x00 x80 x3f)
(T (W xff xff xff xff x03 x00 x00 x00)
(L (W x45 x44 x00 x00 x00 x00 x00 x00)) E)
(L (W x00 x00 x80 xbf x00 x00 x80 xbf)))
(T (W x50 x00 x00 x00 x44 x00 x00 x00)
(T (W xff xff xff xff xff xff xff xff)
(L (W x49 xa1 x68 x4a xeb x5f xdd x3d)) E)
(L (W x00 x00 x01 x01 xbe x00 x00 x00))))
(T (W x40 x00 x00 x00 x9c x00 x00 x00)
(T (W x00 x00 x00 x00 x00 x00 x00 x00)
(T (W x5d x00 x00 x00 xff xff xff xff)
(L (W x01 x00 x00 x00 xff xff xff xff)) E)
(L (W xff xff xff xff xff xff xff xff)))
(T (W x4f x84 x6f x8b xe8 xcb x63 xb7)
(L (W x54 x02 x00 x00 x38 x01 x00 x00))
(L (W x68 x00 x00 x00 x5c x00 x00 x00)))))
(T (W x0c xb2 xfb xff x19 x00 x00 x00)
(T (W xff xff xff xff xff xff xff xff)
(T (W x00 x00 x00 x00 x00 x00 x00 x00)
(T (W x45 x26 x22 x84 xe4 x9c xf2 xcb)
(L (W x31 x00 x00 x00 x34 x00 x00 x00)) E)
(L (W x92 x66 xfe xff x74 x00 x00 x00)))
(T (W x00 x00 x00 x00 xe4 xe9 xfc xff)
(T (W xc4 x00 x00 x00 x01 x00 x00 x00)
(L (W xc4 x00 x00 x00 x01 x00 x00 x00)) E)
(L (W x00 x00 x80 xbf x00 x00 x80 xbf))))
(T (W x00 x00 x80 x3f x00 x00 x80 x3f)
(T (W xff xff xff xff xff xff xff xff)
(T (W x00 x00 x00 x00 x00 x00 x00 x00)
(L (W x00 x00 x00 x00 x00 x00 x00 x00)) E)
(L (W x12 x00 x00 x00 x46 x53 x59 x53)))
(T (W x02 x00 x00 x00 xff xff xff xff)
(L (W x00 x00 x00 x00 x00 x00 x00 x00))
(L (W xff xff xff xff xff xff xff xff))))))
(T (W x00 x00 x00 x00 x00 x00 x00 x00)
(T (W x00 x00 x00 x00 x00 x00 x00 x00)
(T (W xff xff xff xff xff xff xff xff)
(T (W x00 x00 x00 x00 x00 x00 x00 x00)
(T (W x50 x00 x00 x00 x44 x00 x00 x00)
(L (W x6c x00 x00 x00 x60 x00 x00 x00)) E)
(L (W x00 x00 x80 xbf x00 x00 x80 xbf)))
(T (W x27 x00 x00 x00 x10 x00 x00 x00)
(T (W x4f x84 x6f x8b xe8 xcb x63 xb7)
(L (W x00 x00 x00 x00 x00 x00 x00 x00)) E)
(L (W x45 x26 x22 x84 xe4 x9c xf2 xcb))))
(T (W x68 x00 x00 x00 x5c x00 x00 x00)
(T (W x68 x00 x00 x00 x5c x00 x00 x00)
(T (W xff xff xff xff xff xff xff xff)
(L (W x00 x00 x80 xbf x00 x00 x80 xbf)) E)
(L (W x00 x00 x00 x00 x00 x00 x00 x00)))
(T (W x92 x16 xfd xff x74 x00 x00 x00)
(L (W x00 x00 x00 x00 x00 x00 x00 x00))
(L (W xff xff xff xff xff xff xff xff)))))
(T (W xff xff xff xff xff xff xff xff)
(T (W x00 x00 x00 x00 xe4 xf9 xfb xff)
(T (W x00 x00 x00 x00 x42 x79 xfc xff)
(T (W xff xff xff xff xff xff xff xff)
(L (W xff xff xff xff xff xff xff xff)) E)
(L (W x18 x00 x00 x00 x10 x00 x00 x00)))
(T (W xff xff xff xff xff xff xff xff)
(T (W x45 x26 x22 x84 xe4 x9c xf2 xcb)
(L (W x00 x00 x00 x00 x00 x00 x00 x00)) E)
(L (W x6c x00 x00 x00 x60 x00 x00 x00))))
(T (W x45 x26 x22 x84 xe4 x9c xf2 xcb)
(T (W x30 x35 x5f x43 x4c x45 x41 x52)
(T (W x00 x00 x00 x00 xe4 xb9 xfd xff)
(L (W xcf x00 x00 x00 xff xff xff xff)) E)
(L (W xff xff xff xff xff xff xff xff)))
(T (W xff xff xff xff xff xff xff xff)
(L (W xff xff xff xff xb8 x00 x00 x00))
(L (W xff xff xff xff xff xff xff xff)))))))
(T (W x45 x26 x22 x84 xe4 x9c xf2 xcb)
(T (W x00 x00 x80 x3f x00 x00 x80 x3f)
(T (W x00 x00 x00 x00 x00 x00 x00 x00)
(T (W x0a x65 xff xff x00 x00 x01 x01)
(T (W x00 x00 x80 x3f x00 x00 x80 x3f)
(T (W x68 x00 x00 x00 x5c x00 x00 x00)
(L (W x45 x26 x22 x84 xe4 x9c xf2 xcb)) E)
(L (W x1c x00 x00 x00 x10 x00 x00 x00)))
(T (W xff xff xff xff xff xff xff xff)
(T (W x0c xda xfd xff x35 x00 x00 x00)
(L (W x00 x00 x00 x00 x00 x00 x00 x00)) E)
(L (W x00 x00 x00 x00 x00 x00 x00 x00))))
(T (W x01 x00 x00 x00 x3c x00 x00 x00)
(T (W x00 x00 x80 x3f x00 x00 x80 x3f)
(T (W x00 x00 x00 x00 x00 x00 x00 x00)
(L (W x46 x53 x59 x53 x5f x4e x53 x5f)) E)
(L (W x00 x00 x01 x01 x19 x01 x00 x00)))
(T (W x00 x00 x80 x3f x00 x00 x80 x3f)
(L (W x46 x53 x59 x53 x5f x4e x53 x5f))
(L (W xcc x00 x00 x00 x01 x00 x00 x00)))))
(T (W x4a x21 xfe xff x00 x00 x01 x01)
(T (W x64 x00 x00 x00 x9c x00 x00 x00)
(T (W x34 x00 x00 x00 x0c x00 x00 x00)
(T (W x00 x00 x00 x00 x00 x00 x00 x00)
(L (W xff xff xff xff xff xff xff xff)) E)
(L (W x6c x00 x00 x00 x60 x00 x00 x00)))
(T (W xff xff xff xff xff xff xff xff)
(T (W xff xff xff xff xff xff xff xff)
(L (W xff xff xff xff xff xff xff xff)) E)
(L (W x74 xf3 xfe xff x00 x01 x01 x01))))
(T (W x00 x00 x80 x3f x00 x00 x80 x3f)
(T (W x54 x02 x00 x00 x38 x01 x00 x00)
(T (W x00 x00 x80 x3f x00 x00 x80 x3f)
(L (W x00 x00 x00 x00 x42 xb1 xff xff)) E)
(L (W x64 x01 x00 x00 xff xff xff xff)))
(T (W xff xff xff xff xff xff xff xff)
(L (W x6c x00 x00 x00 x60 x00 x00 x00))
(L (W xff xff xff xff xff xff xff xff))))))
(T (W x00 x00 x00 x00 x00 x00 x00 x00)
(T (W x00 x00 x00 x00 x00 x00 x00 x00)
(T (W xff xff xff xff xff xff xff xff)
(T (W x00 x00 x00 x00 x00 x00 x00 x00)
(T (W x45 x26 x22 x84 xe4 x9c xf2 xcb)
(L (W x45 x26 x22 x84 xe4 x9c xf2 xcb)) E)
(L (W x00 x00 x00 x00 x78 x63 xfe xff)))
(T (W x45 x26 x22 x84 xe4 x9c xf2 xcb)
(T (W x00 x00 x80 xbf x00 x00 x80 xbf)
(L (W x45 x26 x22 x84 xe4 x9c xf2 xcb)) E)
(L (W x00 x00 x80 xbf x00 x00 x80 xbf))))
(T (W x4a x20 xfc xff x78 x00 x00 x00)
(T (W xc4 x00 x00 x00 x01 x00 x00 x00)
(T (W x40 x00 x00 x00 x00 x00 x80 xbf)
(L (W x00 x00 x80 xbf x00 x00 x80 xbf)) E)
(L (W x00 x00 x01 x01 x8f x01 x00 x00)))
(T (W xff xff xff xff xff xff xff xff)
(L (W x00 x00 x80 xbf x00 x00 x80 xbf))
(L (W xff xff xff xff xff xff xff xff)))))
(T (W x69 x01 x00 x00 xff xff xff xff)
(T (W x18 x00 x00 x00 x0c x00 x00 x00)
(T (W x00 x00 x00 x00 x00 x00 x00 x00)
(T (W xff xff xff xff xff xff xff xff)
(L (W xaa x01 x00 x00 xff xff xff xff)) E)
(L (W xc4 x00 x00 x00 x01 x00 x00 x00)))
(T (W x00 x00 x00 x00 x00 x00 x00 x00)
(T (W xff xff xff xff xff xff xff xff)
(L (W x00 x00 x80 xbf x00 x00 x80 xbf)) E)
(L (W x6c x00 x00 x00 x60 x00 x00 x00))))
(T (W x00 x00 x80 x3f x00 x00 x80 x3f)
(T (W x00 x00 x00 x00 x00 x00 x00 x00)
(T (W xff xff xff xff xff xff xff xff)
(L (W x00 x00 x00 x00 x00 x00 x00 x00)) E)
(L (W xff xff xff xff xff xff xff xff)))
(T (W xff xff xff xff xff xff xff xff)
(L (W x00 x00 x80 xbf x00 x00 x80 xbf))
(L (W x00 x00 x01 x01 xdc x00 x00 x00))))))))))
(T (W x38 x13 x01 x00 xec x10 x01 x00)
(T (W x00 x00 x00 x00 x01 x00 x00 x00)
(T (W x92 x49 xfb xff x74 x00 x00 x00)
(T (W x18 x00 x00 x00 x0c x00 x00 x00)
(T (W x18 x00 x00 x00 x0c x00 x00 x00)
(T (W x00 x00 x00 x00 xe4 x84 xfb xff)
(T (W x00 x00 x00 x00 x00 x00 x00 x00)
(T (W xb8 x00 x00 x00 xac x00 x00 x00)
(T (W x00 x00 x00 x00 x00 x00 x00 x00)
(L (W x54 x00 x00 x00 x48 x00 x00 x00)) E)
(L (W x5d x00 x00 x00 xff xff xff xff)))
(T (W xff xff xff xff xbc x00 x00 x00)
(T (W x00 x00 x00 x00 x00 x00 x00 x00)
(L (W x54 x00 x00 x00 x48 x00 x00 x00)) E)
(L (W x00 x00 x80 xbf x00 x00 x80 xbf))))
(T (W x01 x00 x00 x00 x04 x00 x00 x00)
(T (W x68 x00 x00 x00 x5c x00 x00 x00)
(T (W x00 x00 x00 x00 x00 x00 x00 x00)
(L (W x00 x00 x00 x00 x00 x00 x00 x00)) E)
(L (W x00 x00 x00 x00 x00 x00 x00 x00)))
(T (W x92 x01 xfd xff x74 x00 x00 x00)
(L (W x00 x00 x00 x00 x00 x00 x00 x00))
(L (W xff xff xff xff xff xff xff xff)))))
(T (W x00 x00 x80 x3f x00 x00 x80 x3f)
(T (W x45 x26 x22 x84 xe4 x9c xf2 xcb)
(T (W x45 x26 x22 x84 xe4 x9c xf2 xcb)
(T (W xff xff xff xff x03 x00 x00 x00)
(L (W x76 x99 xaa x28 xbf xcc x56 x6a)) E)
(L (W xff xff xff xff xff xff xff xff)))
(T (W xff xff xff xff xff xff xff xff)
(T (W xe4 x06 x00 x00 xd0 x05 x00 x00)
(L (W x00 x00 x01 x01 x5c x00 x00 x00)) E)
(L (W xff xff xff xff xff xff xff xff))))
(T (W xff xff xff xff xff xff xff xff)
(T (W x00 x00 x00 x00 x00 x00 x00 x00)
(T (W xe2 x4e x69 x12 x83 x71 x37 xc6)
(L (W xff xff xff xff xc0 x00 x00 x00)) E)
(L (W x00 x00 x80 xbf x00 x00 x80 xbf)))
(T (W x00 x00 x00 x00 x00 x00 x00 x00)
(L (W x45 x26 x22 x84 xe4 x9c xf2 xcb))
(L (W x4f x84 x6f x8b xe8 xcb x63 xb7))))))
(T (W xc0 x00 x00 x00 xb4 x00 x00 x00)
(T (W x50 x00 x00 x00 x44 x00 x00 x00)
(T (W x00 x00 x00 x00 x00 x00 x00 x00)
(T (W x68 x00 x00 x00 x5c x00 x00 x00)
(T (W x8f x01 x00 x00 xff xff xff xff)
(L (W xff xff xff xff xff xff xff xff)) E)
(L (W xff xff xff xff xff xff xff xff)))
(T (W x00 x00 x00 x00 x00 x00 x00 x00)
(T (W x74 xd6 xfd xff x00 x01 x01 x01)
(L (W x03 x00 x00 x00 xc8 x00 x00 x00)) E)
(L (W x00 x00 x00 x00 xe4 xd4 xfe xff))))
(T (W xff xff xff xff xff xff xff xff)
(T (W xff xff xff xff xff xff xff xff)
(T (W x00 x00 x00 x00 x00 x00 x00 x00)
(L (W xbc x00 x00 x00 x64 x00 x00 x00)) E)
(L (W x00 x00 x80 xbf x00 x00 x80 xbf)))
(T (W xff xff xff xff xff xff xff xff)
(L (W x68 x00 x00 x00 x5c x00 x00 x00))
(L (W x00 x00 x00 x00 x00 x00 x00 x00)))))
(T (W x00 x00 x80 x3f x00 x00 x80 x3f)
(T (W x00 x00 x00 x00 x00 x00 x00 x00)
(T (W x00 x00 x00 x00 x00 x00 x00 x00)
(T (W xff xff xff xff xff xff xff xff)
(L (W x45 x26 x22 x84 xe4 x9c xf2 xcb)) E)
(L (W x00 x00 x00 x00 x00 x00 x00 x00)))
(T (W x5f x4e x53 x5f x30 x35 x5f x43)
(T (W x00 x00 x00 x00 x00 x00 x00 x00)
(L (W x00 x00 x00 x00 x00 x00 x00 x00)) E)
(L (W x00 x00 x00 x00 x00 x00 x00 x00))))
(T (W xff xff xff xff xff xff xff xff)
(T (W x00 x00 x80 x3f x00 x00 x80 x3f)
(T (W x14 x16 x00 x00 xc0 x14 x00 x00)
(L (W x00 x01 x01 x01 xca xc2 xff xff)) E)
(L (W x00 x00 x00 x00 x00 x00 x00 x00)))
(T (W x00 x00 x00 x00 x00 x00 x00 x00)
(L (W xc8 x00 x00 x00 xff xff xff xff))
(L (W x54 x00 x00 x00 x48 x00 x00 x00)))))))
(T (W x45 x26 x22 x84 xe4 x9c xf2 xcb)
(T (W xb8 x00 x00 x00 xac x00 x00 x00)
(T (W x45 x26 x22 x84 xe4 x9c xf2 xcb)
(T (W x00 x00 x00 x00 x00 x00 x00 x00)
(T (W x45 x26 x22 x84 xe4 x9c xf2 xcb)
(T (W x00 x00 x00 x00 x00 x00 x00 x00)
(L (W x00 x00 x00 x00 xe4 x4c xff xff)) E)
(L (W xff xff xff xff xff xff xff xff)))
(T (W x00 x00 x00 x00 x01 x00 x00 x00)
(T (W x45 x26 x22 x84 xe4 x9c xf2 xcb)
(L (W x18 x00 x00 x00 x10 x00 x00 x00)) E)
(L (W x54 x00 x00 x00 x48 x00 x00 x00))))
(T (W xff xff xff xff xff xff xff xff)
(T (W x03 x00 x00 x00 xd0 x00 x00 x00)
(T (W x45 x26 x22 x84 xe4 x9c xf2 xcb)
(L (W x00 x00 x80 xbf x00 x00 x80 xbf)) E)
(L (W x45 x26 x22 x84 xe4 x9c xf2 xcb)))
(T (W x45 x26 x22 x84 xe4 x9c xf2 xcb)
(L (W x00 x00 x80 xbf x00 x00 x80 xbf))
(L (W x00 x00 x00 x00 x00 x00 x00 x00)))))
(T (W x00 x00 x80 x3f x00 x00 x80 x3f)
(T (W x00 x00 x00 x00 x00 x00 x00 x00)
(T (W x00 x00 x00 x00 x00 x00 x10 x00)
(T (W x68 x00 x00 x00 x5c x00 x00 x00)
(L (W x00 x00 x00 x00 x12 x00 x00 x00)) E)
(L (W x00 x00 x01 x01 x63 x01 x00 x00)))
(T (W x38 x01 x00 x00 x04 x00 x00 x00)
(T (W x00 x00 x00 x00 x00 x00 x00 x00)
(L (W x46 x53 x59 x53 x5f x4e x53 x5f)) E)
(L (W xff xff xff xff xff xff xff xff))))
(T (W xff xff xff xff xff xff xff xff)
(T (W x45 x26 x22 x84 xe4 x9c xf2 xcb)
(T (W x00 x00 x80 x3f x00 x00 x80 x3f)
(L (W x00 x00 x80 xbf x00 x00 x80 xbf)) E)
(L (W x44 x00 x48 x00 x00 x00 x4c x00)))
(T (W x00 x00 x80 x3f x00 x00 x80 x3f)
(L (W xff xff xff xff xff xff xff xff))
(L (W x00 x00 x80 xbf x00 x00 x80 xbf))))))
(T (W xff xff xff xff x03 x00 x00 x00)
(T (W x00 x00 x80 x3f x00 x00 x80 x3f)
(T (W x00 x00 x00 x00 x00 x00 x00 x00)
(T (W x74 x5e xfc xff x00 x01 x01 x01)
(T (W xff xff xff xff xff xff xff xff)
(L (W xff xff xff xff xff xff xff xff)) E)
(L (W xff xff xff xff xff xff xff xff)))
(T (W x50 x00 x00 x00 x44 x00 x00 x00)
(T (W xb0 x00 x00 x00 x64 x00 x00 x00)
(L (W xe0 xdc xff xff x3a xf4 xff xff)) E)
(L (W xff xff xff xff xff xff xff xff))))
(T (W xff xff xff xff xff xff xff xff)
(T (W x00 x00 x00 x00 xda xa4 xfc xff)
(T (W x00 x00 x00 x00 x00 x00 x00 x00)
(L (W x2c x00 x00 x00 x2f x00 x00 x00)) E)
(L (W x6c x00 x00 x00 x60 x00 x00 x00)))
(T (W x00 x00 x00 x00 x00 x00 x00 x00)
(L (W xc4 x00 x00 x00 x01 x00 x00 x00))
(L (W x45 x26 x22 x84 xe4 x9c xf2 xcb)))))
(T (W x00 x00 x80 x3f x00 x00 x80 x3f)
(T (W x0c x05 xfc xff x3c x00 x00 x00)
(T (W x00 x00 x80 x3f x00 x00 x80 x3f)
(T (W x00 x00 x00 x00 x00 x00 x00 x00)
(L (W x4f x84 x6f x8b xe8 xcb x63 xb7)) E)
(L (W x00 x00 x00 x00 x00 x00 x00 x00)))
(T (W x00 x00 x80 x3f x00 x00 x80 x3f)
(T (W x5f x4e x53 x5f x30 x35 x5f x43)
(L (W x45 x26 x22 x84 xe4 x9c xf2 xcb)) E)
(L (W xff xff xff xff xff xff xff xff))))
(T (W xff xff xff xff xff xff xff xff)
(T (W x50 x00 x00 x00 x44 x00 x00 x00)
(T (W x00 x00 x00 x00 x1b x00 x00 x00)
(L (W x00 x00 x80 xbf x00 x00 x80 xbf)) E)
(L (W x4f x84 x6f x8b xe8 xcb x63 xb7)))
(T (W x45 x26 x22 x84 xe4 x9c xf2 xcb)
(L (W xff xff xff xff xff xff xff xff))
(L (W x00 x00 x80 xbf x00 x00 x80 xbf))))))))
(T (W x00 x00 x00 x00 x00 x00 x00 x00)
(T (W x00 x00 x00 x00 x00 x00 x00 x00)
(T (W x50 x00 x00 x00 x44 x00 x00 x00)
(T (W x00 x00 x00 x00 x00 x00 x00 x00)
(T (W xff xff xff xff xff xff xff xff)
(T (W x45 x26 x22 x84 xe4 x9c xf2 xcb)
(T (W x68 x00 x00 x00 x5c x00 x00 x00)
(L (W xff xff xff xff xff xff xff xff)) E)
(L (W x00 x00 x00 x00 x00 x00 x00 x00)))
(T (W x00 x00 x80 x3f x00 x00 x80 x3f)
(T (W x18 x00 x00 x00 x0c x00 x00 x00)
(L (W x1b x00 x00 x00 x0c x00 x00 x00)) E)
(L (W xff xff xff xff xff xff xff xff))))
(T (W x45 x26 x22 x84 xe4 x9c xf2 xcb)
(T (W x46 x53 x59 x53 x5f x4e x53 x5f)
(T (W xff xff xff xff xff xff xff xff)
(L (W xff xff xff xff xff xff xff xff)) E)
(L (W x18 x00 x00 x00 x0c x00 x00 x00)))
(T (W x13 x00 x00 x00 x10 x00 x00 x00)
(L (W xff xff xff xff xff xff xff xff))
(L (W x00 x00 x80 xbf x00 x00 x80 xbf)))))
(T (W xff xff xff xff xff xff xff xff)
(T (W x74 xea xfb xff x00 x01 x01 x01)
(T (W xb4 xaa x1e xc1 x86 xf8 x93 x14)
(T (W x00 x00 x00 x00 x00 x00 x00 x00)
(L (W x00 x00 x00 x00 xe4 x68 xff xff)) E)
(L (W x00 x00 x80 xbf x00 x00 x80 xbf)))
(T (W x00 x00 x80 x3f x00 x00 x80 x3f)
(T (W x45 x26 x22 x84 xe4 x9c xf2 xcb)
(L (W x58 x00 x00 x00 x4c x00 x00 x00)) E)
(L (W x00 x00 x80 xbf x00 x00 x80 xbf))))
(T (W x45 x26 x22 x84 xe4 x9c xf2 xcb)
(T (W xc4 x00 x00 x00 x01 x00 x00 x00)
(T (W xff xff xff xff xff xff xff xff)
(L (W x46 x53 x59 x53 x5f x4e x53 x5f)) E)
(L (W x8a xfe xfe xff x00 x00 x01 x01)))
(T (W xff xff xff xff xff xff xff xff)
(L (W x00 x00 x00 x00 x00 x00 x00 x00))
(L (W xff xff xff xff xff xff xff xff))))))
(T (W x00 x00 x00 x00 x00 x00 x00 x00)
(T (W x00 x00 x00 x00 x00 x00 x00 x00)
(T (W xff xff xff xff xff xff xff xff)
(T (W x00 x00 x00 x00 x00 x00 x00 x00)
(T (W x45 x26 x22 x84 xe4 x9c xf2 xcb)
(L (W x00 x00 x80 xbf x00 x00 x80 xbf)) E)
(L (W x00 x00 x80 xbf x00 x00 x80 xbf)))
(T (W xff xff xff xff xff xff xff xff)
(T (W x00 x00 x00 x00 x00 x00 x00 x00)
(L (W x00 x00 x00 x00 x00 x00 x00 x00)) E)
(L (W x00 x00 x00 x00 x00 x00 x00 x00))))
(T (W x00 x00 x80 x3f x00 x00 x80 x3f)
(T (W x00 x00 x80 x3f x00 x00 x80 x3f)
(T (W x92 x95 xfd xff x74 x00 x00 x00)
(L (W x00 x00 x00 x00 x00 x00 x00 x00)) E)
(L (W xff xff xff xff xff xff xff xff)))
(T (W x00 x00 x80 x3f x00 x00 x80 x3f)
(L (W x00 x00 x00 x00 x12 x00 x00 x00))
(L (W x26 x00 x00 x00 x29 x00 x00 x00)))))
(T (W xff xff xff xff xff xff xff xff)
(T (W x92 xf5 xfb xff x74 x00 x00 x00)
(T (W xff xff xff xff xff xff xff xff)
(T (W x00 x00 x00 x00 xe4 x78 xfd xff)
(L (W xff xff xff xff xff xff xff xff)) E)
(L (W x6c x00 x00 x00 x60 x00 x00 x00)))
(T (W x03 x00 x00 x00 xcc x00 x00 x00)
(T (W x6c x00 x00 x00 x60 x00 x00 x00)
(L (W x74 xfa xff xff x00 x01 x01 x01)) E)
(L (W x3c x00 x00 x00 x00 x00 x80 xbf))))
(T (W x00 x00 x00 x00 x00 x00 x00 x00)
(T (W x00 x00 x01 x01 x69 x01 x00 x00)
(T (W x00 x00 x00 x00 x00 x00 x00 x00)
(L (W xff xff xff xff xff xff xff xff)) E)
(L (W x18 x00 x00 x00 x10 x00 x00 x00)))
(T (W xff xff xff xff xff xff xff xff)
(L (W x1c x00 x00 x00 x10 x00 x00 x00))
(L (W xff xff xff xff xff xff xff xff)))))))
(T (W x00 x00 x00 x00 x00 x00 x00 x00)
(T (W x00 x00 x00 x00 x00 x00 x00 x00)
(T (W x00 x00 x00 x00 x00 x00 x00 x00)
(T (W xff xff xff xff xff xff xff xff)
(T (W x00 x00 x00 x00 x00 x00 x00 x00)
(T (W x50 x00 x00 x00 x44 x00 x00 x00)
(L (W x00 x00 x00 x00 x00 x00 x00 x00)) E)
(L (W x00 x00 x80 xbf x00 x00 x80 xbf)))
(T (W x45 x26 x22 x84 xe4 x9c xf2 xcb)
(T (W xff xff xff xff xff xff xff xff)
(L (W x46 x53 x59 x53 x5f x4e x53 x5f)) E)
(L (W x0f x00 x00 x00 x0c x00 x00 x00))))
(T (W x00 x00 x80 x3f x00 x00 x80 x3f)
(T (W x00 x00 x80 x3f x00 x00 x80 x3f)
(T (W x00 x00 x00 x00 x00 x00 x00 x00)
(L (W x04 x00 x00 x00 xda x98 xff xff)) E)
(L (W xff xff xff xff xc4 x00 x00 x00)))
(T (W x00 x00 x00 x00 x00 x00 x00 x00)
(L (W x04 x00 x00 x00 xda x18 xfe xff))
(L (W x50 x00 x00 x00 x44 x00 x00 x00)))))
(T (W xff xff xff xff xff xff xff xff)
(T (W x50 x00 x00 x00 x44 x00 x00 x00)
(T (W xff xff xff xff xff xff xff xff)
(T (W x00 x00 x00 x00 x00 x00 x00 x00)
(L (W x03 x00 x00 x00 xd0 x00 x00 x00)) E)
(L (W x00 x00 x80 xbf x00 x00 x80 xbf)))
(T (W x50 x00 x00 x00 x44 x00 x00 x00)
(T (W x03 x00 x00 x00 xd0 x00 x00 x00)
(L (W xff xff xff xff xa8 x00 x00 x00)) E)
(L (W x00 x00 x80 xbf x00 x00 x80 xbf))))
(T (W x00 x00 x00 x00 x00 x00 x00 x00)
(T (W xff xff xff xff xff xff xff xff)
(T (W x00 x00 x00 x00 x00 x00 x00 x00)
(L (W xff xff xff xff xff xff xff xff)) E)
(L (W xff xff xff xff xff xff xff xff)))
(T (W xff xff xff xff xff xff xff xff)
(L (W x00 x00 x80 xbf x00 x00 x80 xbf))
(L (W xff xff xff xff xff xff xff xff))))))
(T (W x40 x00 x00 x00 x0c x00 x00 x00)
(T (W x00 x00 x00 x00 x04 x00 x00 x00)
(T (W x64 x00 x00 x00 x9c x00 x00 x00)
(T (W x00 x00 x00 x00 x00 x00 x00 x00)
(T (W x45 x26 x22 x84 xe4 x9c xf2 xcb)
(L (W x54 x00 x00 x00 x48 x00 x00 x00)) E)
(L (W x6c x00 x00 x00 x60 x00 x00 x00)))
(T (W x00 x00 x00 x00 x00 x00 x00 x00)
(T (W x00 x00 x80 xbf x00 x00 x80 xbf)
(L (W x00 x00 x00 x00 x00 x00 x00 x00)) E)
(L (W x45 x26 x22 x84 xe4 x9c xf2 xcb))))
(T (W x00 x00 x80 x3f x00 x00 x80 x3f)
(T (W x45 x26 x22 x84 xe4 x9c xf2 xcb)
(T (W x45 x26 x22 x84 xe4 x9c xf2 xcb)
(L (W x00 x00 x00 x00 x00 x00 x00 x00)) E)
(L (W xff xff xff xff xff xff xff xff)))
(T (W xff xff xff xff xac x00 x00 x00)
(L (W x00 x00 x00 x00 x00 x00 x00 x00))
(L (W x14 x00 x00 x00 x0c x00 x00 x00)))))
(T (W xff xff xff xff xff xff xff xff)
(T (W x00 x00 x00 x00 xe4 x00 xfc xff)
(T (W x04 x00 x00 x00 x80 x03 x00 x00)
(T (W xff xff xff xff xff xff xff xff)
(L (W xff xff xff xff xff xff xff xff)) E)
(L (W x45 x26 x22 x84 xe4 x9c xf2 xcb)))
(T (W xff xff xff xff x02 x00 x00 x00)
(T (W xff xff xff xff xac x00 x00 x00)
(L (W x58 x00 x5c x00 x60 x00 x64 x00)) E)
(L (W x00 x00 x00 x00 x00 x00 x00 x00))))
(T (W x45 x26 x22 x84 xe4 x9c xf2 xcb)
(T (W x46 x53 x59 x53 x5f x4e x53 x5f)
(T (W xbc x00 x00 x00 x28 x00 x00 x00)
(L (W x45 x44 x00 x00 x00 x00 x00 x00)) E)
(L (W x03 x00 x00 x00 xd8 x00 x00 x00)))
(T (W xff xff xff xff x03 x00 x00 x00)
(L (W x00 x00 x80 xbf x00 x00 x80 xbf))
(L (W xff xff xff xff xff xff xff xff)))))))))
(T (W x45 x26 x22 x84 xe4 x9c xf2 xcb)
(T (W xff xff xff xff xff xff xff xff)
(T (W xff xff xff xff xff xff xff xff)
(T (W x04 x00 x00 x00 x8a xf2 xfd xff)
(T (W xff xff xff xff xff xff xff xff)
(T (W x45 x26 x22 x84 xe4 x9c xf2 xcb)
(T (W x44 x00 x00 x00 xff xff xff xff)
(T (W x45 x26 x22 x84 xe4 x9c xf2 xcb)
(L (W x18 x00 x00 x00 x0c x00 x00 x00)) E)
(L (W x30 x35 x5f x43 x4c x45 x41 x52)))
(T (W x32 x00 x00 x00 x10 x00 x00 x00)
(T (W x00 x00 x80 x3f x00 x00 x80 x3f)
(L (W x03 x00 x00 x00 xd8 x00 x00 x00)) E)
(L (W x18 x00 x00 x00 x10 x00 x00 x00))))
(T (W x45 x26 x22 x84 xe4 x9c xf2 xcb)
(T (W xff xff xff xff xff xff xff xff)
(T (W x00 x00 x80 x3f x00 x00 x80 x3f)
(L (W xff xff xff xff xa0 x00 x00 x00)) E)
(L (W x00 x00 x80 xbf x00 x00 x80 xbf)))
(T (W xff xff xff xff xff xff xff xff)
(L (W x45 x26 x22 x84 xe4 x9c xf2 xcb))
(L (W x30 x35 x5f x43 x4c x45 x41 x52)))))
(T (W x64 x00 x00 x00 x9c x00 x00 x00)
(T (W x00 x00 x80 x3f x00 x00 x80 x3f)
(T (W xb8 x00 x00 x00 xac x00 x00 x00)
(T (W x19 x01 x00 x00 xff xff xff xff)
(L (W x00 x00 x80 xbf x00 x00 x80 xbf)) E)
(L (W x00 x00 x00 x00 x00 x00 x00 x00)))
(T (W x00 x00 x00 x00 x00 x00 x00 x00)
(T (W x00 x00 x80 xbf x00 x00 x80 xbf)
(L (W x00 x00 x00 x00 x00 x00 x00 x00)) E)
(L (W x00 x00 x00 x00 x12 x00 x00 x00))))
(T (W x00 x00 x00 x00 x00 x00 x00 x00)
(T (W x00 x00 x80 x3f x00 x00 x80 x3f)
(T (W x00 x00 x80 xbf x00 x00 x80 xbf)
(L (W xff xff xff xff xff xff xff xff)) E)
(L (W x18 x00 x00 x00 x0c x00 x00 x00)))
(T (W x00 x00 x80 x3f x00 x00 x80 x3f)
(L (W xff xff xff xff xff xff xff xff))
(L (W x6c x00 x00 x00 x60 x00 x00 x00))))))
(T (W xff xff xff xff xff xff xff xff)
(T (W xff xff xff xff xff xff xff xff)
(T (W x00 x00 x80 x3f x00 x00 x80 x3f)
(T (W xff xff xff xff xff xff xff xff)
(T (W x00 x00 x00 x00 x00 x00 x00 x00)
(L (W xdc x5b xff xff x21 x00 x00 x00)) E)
(L (W x00 x00 x00 x00 x00 x00 x00 x00)))
(T (W x92 xd3 xfc xff x74 x00 x00 x00)
(T (W xff xff xff xff xff xff xff xff)
(L (W xff xff xff xff xff xff xff xff)) E)
(L (W x00 x00 x00 x00 x7a xd4 xfe xff))))
(T (W x00 x00 x00 x00 x00 x00 x00 x00)
(T (W x00 x00 x00 x00 x00 x00 x00 x00)
(T (W x00 x00 x00 x00 x00 x00 x00 x00)
(L (W x63 x01 x00 x00 xff xff xff xff)) E)
(L (W x1a x00 x00 x00 x1d x00 x00 x00)))
(T (W x00 x00 x00 x00 x00 x00 x00 x00)
(L (W xff xff xff xff xff xff xff xff))
(L (W x00 x00 x80 xbf x00 x00 x80 xbf)))))
(T (W xff xff xff xff x03 x00 x00 x00)
(T (W x00 x00 x80 x3f x00 x00 x80 x3f)
(T (W x92 x73 xfc xff x74 x00 x00 x00)
(T (W x00 x00 x80 x3f x00 x00 x80 x3f)
(L (W x00 x00 x80 xbf x00 x00 x80 xbf)) E)
(L (W x00 x00 x00 x00 x00 x00 x00 x00)))
(T (W x50 x00 x00 x00 x44 x00 x00 x00)
(T (W x00 x00 x80 xbf x00 x00 x80 xbf)
(L (W xff xff xff xff xe8 x00 x00 x00)) E)
(L (W x00 x00 x00 x00 x12 x00 x00 x00))))
(T (W x00 x00 x00 x00 x00 x00 x00 x00)
(T (W x03 x00 x00 x00 xd8 x00 x00 x00)
(T (W xff xff xff xff xff xff xff xff)
(L (W xbc x00 x00 x00 x02 x00 x00 x00)) E)
(L (W x00 x00 x80 xbf x00 x00 x80 xbf)))
(T (W x00 x00 x80 x3f x00 x00 x80 x3f)
(L (W x00 x00 x00 x00 x00 x00 x00 x00))
(L (W x1c x00 x00 x00 x10 x00 x00 x00)))))))
(T (W xff xff xff xff xff xff xff xff)
(T (W xff xff xff xff xff xff xff xff)
(T (W xff xff xff xff xff xff xff xff)
(T (W x50 x00 x00 x00 x44 x00 x00 x00)
(T (W x4a xbe xfe xff x00 x00 x01 x01)
(T (W x45 x26 x22 x84 xe4 x9c xf2 xcb)
(L (W xff xff xff xff xff xff xff xff)) E)
(L (W x00 x00 x00 x00 x00 x00 x00 x00)))
(T (W x45 x26 x22 x84 xe4 x9c xf2 xcb)
(T (W xbc x00 x00 x00 x0a x00 x00 x00)
(L (W xff xff xff xff xff xff xff xff)) E)
(L (W x03 x00 x00 x00 xd8 x00 x00 x00))))
(T (W x00 x00 x00 x00 x00 x00 x00 x00)
(T (W x04 x00 x00 x00 x80 x03 x00 x00)
(T (W x50 x00 x00 x00 x44 x00 x00 x00)
(L (W xc4 x00 x00 x00 x02 x00 x00 x00)) E)
(L (W x50 x00 x00 x00 x44 x00 x00 x00)))
(T (W x00 x00 x00 x00 x00 x00 x00 x00)
(L (W xc4 x00 x00 x00 x01 x00 x00 x00))
(L (W x00 x00 x00 x00 x00 x00 x00 x00)))))
(T (W x74 xb0 xfb xff x00 x01 x01 x01)
(T (W x00 x00 x80 x3f x00 x00 x80 x3f)
(T (W xff xff xff xff xff xff xff xff)
(T (W xff xff xff xff xff xff xff xff)
(L (W x54 x00 x00 x00 x48 x00 x00 x00)) E)
(L (W x00 x00 x00 x00 x00 x00 x00 x00)))
(T (W x45 x26 x22 x84 xe4 x9c xf2 xcb)
(T (W x4f x84 x6f x8b xe8 xcb x63 xb7)
(L (W x6c x00 x00 x00 x60 x00 x00 x00)) E)
(L (W x00 x00 x00 x00 x00 x00 x00 x00))))
(T (W x00 x00 x00 x00 x00 x00 x00 x00)
(T (W x50 x00 x00 x00 x44 x00 x00 x00)
(T (W xff xff xff xff xff xff xff xff)
(L (W xbc x00 x00 x00 x28 x00 x00 x00)) E)
(L (W x00 x00 x80 xbf x00 x00 x80 xbf)))
(T (W x45 x26 x22 x84 xe4 x9c xf2 xcb)
(L (W x00 x00 x00 x00 x00 x00 x00 x00))
(L (W x45 x26 x22 x84 xe4 x9c xf2 xcb))))))
(T (W xff xff xff xff xff xff xff xff)
(T (W xff xff xff xff xff xff xff xff)
(T (W x00 x00 x80 x3f x00 x00 x80 x3f)
(T (W xff xff xff xff xff xff xff xff)
(T (W x00 x00 x00 x00 x00 x00 x00 x00)
(L (W x4f x84 x6f x8b xe8 xcb x63 xb7)) E)
(L (W x00 x00 x00 x00 x00 x00 x00 x00)))
(T (W xff xff xff xff xff xff xff xff)
(T (W x00 x00 x00 x00 x00 x00 x00 x00)
(L (W xff xff xff xff xff xff xff xff)) E)
(L (W x00 x00 x00 x00 x00 x00 x00 x00))))
(T (W xdc x23 xfc xff x3e x00 x00 x00)
(T (W x00 x00 x00 x00 x00 x00 x00 x00)
(T (W x00 x00 x01 x01 x44 x00 x00 x00)
(L (W xff xff xff xff xff xff xff xff)) E)
(L (W xac x00 x00 x00 x14 x00 x00 x00)))
(T (W x4f x84 x6f x8b xe8 xcb x63 xb7)
(L (W xff xff xff xff xff xff xff xff))
(L (W x3c x00 x00 x00 x00 x00 x80 xbf)))))
(T (W x00 x00 x00 x00 xe4 xbe xfb xff)
(T (W x45 x26 x22 x84 xe4 x9c xf2 xcb)
(T (W x03 x00 x00 x00 xd0 x00 x00 x00)
(T (W x00 x00 x80 x3f x00 x00 x80 x3f)
(L (W x54 x00 x00 x00 x48 x00 x00 x00)) E)
(L (W x45 x26 x22 x84 xe4 x9c xf2 xcb)))
(T (W x92 xfb xfc xff x74 x00 x00 x00)
(T (W x00 x00 x80 xbf x00 x00 x80 xbf)
(L (W x00 x00 x00 x00 x00 x00 x00 x00)) E)
(L (W x00 x00 x00 x00 x00 x00 x00 x00))))
(T (W x73 xa7 x78 xec xd8 xb9 xb4 x22)
(T (W xff xff xff xff xff xff xff xff)
(T (W x00 x00 x80 x3f x00 x00 x80 x3f)
(L (W x18 x00 x00 x00 x10 x00 x00 x00)) E)
(L (W x54 x00 x00 x00 x48 x00 x00 x00)))
(T (W x50 x00 x00 x00 x44 x00 x00 x00)
(L (W x00 x00 x00 x00 x00 x00 x00 x00))
(L (W x18 x00 x00 x00 x10 x00 x00 x00))))))))
(T (W x45 x26 x22 x84 xe4 x9c xf2 xcb)
(T (W x00 x00 x00 x00 x00 x00 x00 x00)
(T (W x00 x00 x00 x00 x00 x00 x00 x00)
(T (W x00 x00 x00 x00 x00 x00 x00 x00)
(T (W x00 x00 x00 x00 x00 x00 x00 x00)
(T (W x00 x00 x80 x3f x00 x00 x80 x3f)
(T (W xff xff xff xff xff xff xff xff)
(L (W x00 x00 x00 x00 x00 x00 x00 x00)) E)
(L (W xff xff xff xff xb0 x00 x00 x00)))
(T (W xff xff xff xff x9c x00 x00 x00)
(T (W x64 x5f x70 x6f x6b x65 x5f x77)
(L (W x00 x00 x80 xbf x00 x00 x80 xbf)) E)
(L (W x46 x53 x59 x53 x5f x4e x53 x5f))))
(T (W xff xff xff xff x03 x00 x00 x00)
(T (W x00 x00 x80 x3f x00 x00 x80 x3f)
(T (W x00 x00 x00 x00 x00 x00 x00 x00)
(L (W x4c x45 x41 x52 x45 x44 x00 x00)) E)
(L (W x54 x02 x00 x00 x38 x01 x00 x00)))
(T (W x00 x00 x80 x3f x00 x00 x80 x3f)
(L (W x00 x00 x00 x00 x00 x00 x00 x00))
(L (W xff xff xff xff xff xff xff xff)))))
(T (W x45 x26 x22 x84 xe4 x9c xf2 xcb)
(T (W x1a x01 x00 x00 xff xff xff xff)
(T (W x00 x00 x80 x3f x00 x00 x80 x3f)
(T (W x45 x26 x22 x84 xe4 x9c xf2 xcb)
(L (W xff xff xff xff xff xff xff xff)) E)
(L (W xff xff xff xff xff xff xff xff)))
(T (W xff xff xff xff xac x00 x00 x00)
(T (W xff xff xff xff xff xff xff xff)
(L (W xff xff xff xff xff xff xff xff)) E)
(L (W xcc x00 x00 x00 x01 x00 x00 x00))))
(T (W x18 x00 x00 x00 x0c x00 x00 x00)
(T (W x54 x02 x00 x00 x38 x01 x00 x00)
(T (W x00 x00 x00 x00 x00 x00 x00 x00)
(L (W xff xff xff xff xff xff xff xff)) E)
(L (W x45 x26 x22 x84 xe4 x9c xf2 xcb)))
(T (W x00 x00 x00 x00 x00 x00 x00 x00)
(L (W x00 x00 x80 xbf x00 x00 x80 xbf))
(L (W x5b xeb x39 xdc x00 x61 x48 x2f))))))
(T (W x00 x00 x80 x3f x00 x00 x80 x3f)
(T (W x00 x00 x00 x00 x00 x00 x00 x00)
(T (W x00 x00 x00 x00 x04 x00 x00 x00)
(T (W x00 x00 x80 x3f x00 x00 x80 x3f)
(T (W x68 x00 x00 x00 x5c x00 x00 x00)
(L (W x18 x00 x00 x00 x10 x00 x00 x00)) E)
(L (W x18 x00 x00 x00 x0c x00 x00 x00)))
(T (W x00 x00 x00 x00 x00 x00 x00 x00)
(T (W x00 x00 x80 xbf x00 x00 x80 xbf)
(L (W x00 x00 x80 xbf x00 x00 x80 xbf)) E)
(L (W x00 x00 x80 xbf x00 x00 x80 xbf))))
(T (W xff xff xff xff xff xff xff xff)
(T (W xff xff xff xff xff xff xff xff)
(T (W xff xff xff xff xff xff xff xff)
(L (W x00 x00 x80 xbf x00 x00 x80 xbf)) E)
(L (W x00 x00 x00 x00 x00 x00 x00 x00)))
(T (W xff xff xff xff x9c x00 x00 x00)
(L (W x54 x00 x00 x00 x48 x00 x00 x00))
(L (W x06 x00 x00 x00 xa0 x05 x00 x00)))))
(T (W x40 x00 x00 x00 x0c x00 x00 x00)
(T (W xff xff xff xff xff xff xff xff)
(T (W x00 x00 x00 x00 x12 x00 x00 x00)
(T (W xff xff xff xff xff xff xff xff)
(L (W xff xff xff xff xff xff xff xff)) E)
(L (W xff xff xff xff xff xff xff xff)))
(T (W x00 x00 x00 x00 x04 x00 x00 x00)
(T (W xff xff xff xff xbc x00 x00 x00)
(L (W x00 x00 x00 x00 x00 x00 x00 x00)) E)
(L (W x74 xfc xfe xff x00 x01 x01 x01))))
(T (W x00 x00 x80 x3f x00 x00 x80 x3f)
(T (W x00 x00 x00 x00 x00 x00 x00 x00)
(T (W xff xff xff xff xff xff xff xff)
(L (W x00 x00 x00 x00 x00 x00 x00 x00)) E)
(L (W x45 x44 x00 x00 x00 x00 x00 x00)))
(T (W x00 x00 x00 x00 x12 xc5 xff xff)
(L (W xff xff xff xff xff xff xff xff))
(L (W x18 x00 x00 x00 x0c x00 x00 x00)))))))
(T (W x00 x00 x80 x3f x00 x00 x80 x3f)
(T (W x00 x00 x80 x3f x00 x00 x80 x3f)
(T (W x00 x00 x00 x00 x00 x00 x00 x00)
(T (W x00 x00 x00 x00 x00 x00 x00 x00)
(T (W x00 x00 x80 x3f x00 x00 x80 x3f)
(T (W xff xff xff xff x03 x00 x00 x00)
(L (W x54 x00 x00 x00 x48 x00 x00 x00)) E)
(L (W xff xff xff xff xb8 x00 x00 x00)))
(T (W xcb x01 x00 x00 xff xff xff xff)
(T (W x00 x00 x00 x00 x00 x00 x00 x00)
(L (W x00 x00 x00 x00 x78 xd4 xff xff)) E)
(L (W x00 x00 x80 xbf x00 x00 x80 xbf))))
(T (W xff xff xff xff xff xff xff xff)
(T (W x68 x00 x00 x00 x5c x00 x00 x00)
(T (W x68 x00 x00 x00 x5c x00 x00 x00)
(L (W x00 x00 x00 x00 x00 x00 x00 x00)) E)
(L (W x46 x53 x59 x53 x5f x4e x53 x5f)))
(T (W x45 x26 x22 x84 xe4 x9c xf2 xcb)
(L (W x00 x00 x00 x00 x00 x00 x00 x00))
(L (W xff xff xff xff xff xff xff xff)))))
(T (W x00 x00 x00 x00 x00 x00 x00 x00)
(T (W xff xff xff xff xff xff xff xff)
(T (W x54 x00 x00 x00 x48 x00 x00 x00)
(T (W x45 x26 x22 x84 xe4 x9c xf2 xcb)
(L (W x04 x00 x00 x00 x70 x03 x00 x00)) E)
(L (W x18 x00 x00 x00 x10 x00 x00 x00)))
(T (W xff xff xff xff xff xff xff xff)
(T (W xff xff xff xff xff xff xff xff)
(L (W xff xff xff xff xff xff xff xff)) E)
(L (W xb0 x00 x00 x00 x64 x00 x00 x00))))
(T (W x68 x00 x00 x00 x5c x00 x00 x00)
(T (W x00 x00 x00 x00 x00 x00 x00 x00)
(T (W x45 x26 x22 x84 xe4 x9c xf2 xcb)
(L (W x00 x00 x00 x00 x12 x00 x00 x00)) E)
(L (W x00 x00 x00 x00 x00 x00 x00 x00)))
(T (W x35 x00 x00 x00 x10 x00 x00 x00)
(L (W x18 x00 x00 x00 x10 x00 x00 x00))
(L (W x30 x35 x5f x43 x4c x45 x41 x52))))))
(T (W x00 x00 x80 x3f x00 x00 x80 x3f)
(T (W x00 x00 x00 x00 x00 x00 x00 x00)
(T (W xff xff xff xff xff xff xff xff)
(T (W x45 x26 x22 x84 xe4 x9c xf2 xcb)
(T (W x50 x00 x00 x00 x44 x00 x00 x00)
(L (W xcc x00 x00 x00 x01 x00 x00 x00)) E)
(L (W xff xff xff xff x90 x00 x00 x00)))
(T (W x00 x00 x80 x3f x00 x00 x80 x3f)
(T (W xff xff xff xff xb0 x00 x00 x00)
(L (W x6c x00 x00 x00 x60 x00 x00 x00)) E)
(L (W x4a xe1 xfe xff x78 x00 x00 x00))))
(T (W x45 x26 x22 x84 xe4 x9c xf2 xcb)
(T (W xff xff xff xff xff xff xff xff)
(T (W xff xff xff xff x9c x00 x00 x00)
(L (W x6c x00 x00 x00 x60 x00 x00 x00)) E)
(L (W x30 x35 x5f x43 x4c x45 x41 x52)))
(T (W xff xff xff xff xff xff xff xff)
(L (W x3c x00 x00 x00 x00 x00 x80 xbf))
(L (W x00 x00 x00 x00 x00 x00 x00 x00)))))
(T (W x00 x00 x00 x00 x00 x00 x00 x00)
(T (W x64 x00 x00 x00 x9c x00 x00 x00)
(T (W x00 x00 x80 x3f x00 x00 x80 x3f)
(T (W x4a xf2 xff xff x00 x00 x01 x01)
(L (W x00 x00 x00 x00 x00 x00 x00 x00)) E)
(L (W xff xff xff xff xff xff xff xff)))
(T (W x00 x00 x00 x00 x00 x00 x00 x00)
(T (W xba x57 xff xff x00 x00 x01 x01)
(L (W xff xff xff xff xff xff xff xff)) E)
(L (W xff xff xff xff xa0 x00 x00 x00))))
(T (W x00 x00 x80 x3f x00 x00 x80 x3f)
(T (W x00 x00 x80 x3f x00 x00 x80 x3f)
(T (W x4e x00 x00 x00 xff xff xff xff)
(L (W x4f x84 x6f x8b xe8 xcb x63 xb7)) E)
(L (W x1b x00 x00 x00 x0c x00 x00 x00)))
(T (W xbe x01 x00 x00 xff xff xff xff)
(L (W x00 x00 x00 x00 xe4 x42 xfe xff))
(L (W x46 x53 x59 x53 x5f x4e x53 x5f)))))))))))))))).
