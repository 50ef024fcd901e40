(** Generated by tools/gen_la.py from resources/encount/la/ha_area02_encounter.bin. *)
From Coq Require Import NArith Strings.Byte.
From Verif Require Import Model.Trie.
Definition area_2_size : N := 429072%N.
Definition area_2_trie : trie :=
(T (W x10 x00 x00 x00 x00 x00 x00 x00)
(T (W x00 x00 x06 x00 x08 x00 x04 x00)
(T (W x81 x01 x00 x00 x3c x82 x06 x00)
(T (W xe8 x4c x06 x00 x9c x43 x06 x00)
(T (W x60 xda x05 x00 x64 xd3 x05 x00)
(T (W xa0 xdb x04 x00 x54 xd2 x04 x00)
(T (W x88 x8c x03 x00 x4c x8b x03 x00)
(T (W x48 x9e x01 x00 xcc x96 x01 x00)
(T (W xff xff xff xff xff xff xff xff)
(T (W x54 x00 x00 x00 x48 x00 x00 x00)
(T (W xff xff xff xff xff xff xff xff)
(T (W x00 x00 x00 x00 x00 x00 x00 x00)
(T (W x50 x00 x00 x00 x44 x00 x00 x00)
(T (W xff xff xff xff xff xff xff xff)
(T (W x00 x00 x00 x00 x00 x00 x00 x00)
(L (W x4f x84 x6f x8b xe8 xcb x63 xb7))
(L (W x94 x04 x00 x00 x80 x03 x00 x00)))
(T (W x45 x26 x22 x84 xe4 x9c xf2 xcb)
(L (W x03 x00 x00 x00 xd0 x00 x00 x00)) E))
(T (W x00 x00 x00 x00 x00 x00 x00 x00)
(T (W x00 x00 x80 x3f x00 x00 x80 x3f)
(L (W x00 x00 x00 x00 x00 x00 x00 x00))
(L (W x00 x00 x00 x00 x00 x00 x00 x00)))
(T (W x21 x00 x00 x00 xa0 x00 x00 x00)
(L (W xff xff xff xff xff xff xff xff)) E)))
(T (W x04 x47 xfa xff x3e x00 x00 x00)
(T (W x00 x00 x00 x00 x00 x00 x00 x00)
(T (W x00 x00 x00 x00 x00 x00 x00 x00)
(L (W x00 x00 x80 xbf x00 x00 x80 xbf))
(L (W x54 x00 x00 x00 x48 x00 x00 x00)))
(T (W x00 x00 x00 x00 x00 x00 x00 x00)
(L (W x00 x00 x00 x00 x00 x00 x00 x00)) E))
(T (W xff xff xff xff xff xff xff xff)
(T (W x4f x84 x6f x8b xe8 xcb x63 xb7)
(L (W xff xff xff xff xff xff xff xff)) E)
(T (W x00 x00 x80 xbf x00 x00 x80 xbf)
(L (W x00 x00 x00 x00 x00 x00 x00 x00)) E))))
(T (W x00 x00 x80 x3f x00 x00 x80 x3f)
(T (W x64 x00 x00 x00 x9c x00 x00 x00)
(T (W x04 xa7 xfa xff x21 x00 x00 x00)
(T (W x7c xfe x79 xbd x74 x65 x83 x83)
(L (W x49 xa1 x68 x4a xeb x5f xdd x3d))
(L (W x54 x00 x00 x00 x48 x00 x00 x00)))
(T (W xff xff xff xff xff xff xff xff)
(L (W x00 x00 x01 x01 x5c x00 x00 x00)) E))
(T (W x00 x00 x00 x00 x00 x00 x00 x00)
(T (W x45 x26 x22 x84 xe4 x9c xf2 xcb)
(L (W x54 x00 x00 x00 x48 x00 x00 x00)) E)
(T (W x00 x00 x80 xbf x00 x00 x80 xbf)
(L (W x00 x00 x00 x00 x12 x00 x00 x00)) E)))
(T (W x67 x48 xfb xd7 x29 xaf x66 x3f)
(T (W x00 x00 x00 x00 x00 x00 x00 x00)
(T (W x34 x01 x00 x00 x04 x00 x00 x00)
(L (W x00 x00 x80 xbf x00 x00 x80 xbf))
(L (W xc4 x00 x00 x00 x02 x00 x00 x00)))
(T (W x00 x00 x00 x00 x00 x00 x00 x00)
(L (W x00 x00 x80 xbf x00 x00 x80 xbf)) E))
(T (W x00 x00 x00 x00 x00 x00 x00 x00)
(T (W x18 x00 x00 x00 x0c x00 x00 x00)
(L (W x00 x00 x00 x00 x00 x00 x00 x00)) E)
(T (W x1d xc2 x1c x76 x80 xbf xf7 x18)
(L (W xff xff xff xff xb0 x00 x00 x00)) E)))))
(T (W xc9 x00 x00 x00 xff xff xff xff)
(T (W x45 x26 x22 x84 xe4 x9c xf2 xcb)
(T (W xaa x04 xfa xff x74 x00 x00 x00)
(T (W xff xff xff xff xff xff xff xff)
(T (W x18 x00 x00 x00 x0c x00 x00 x00)
(L (W x12 x00 x00 x00 x46 x53 x59 x53))
(L (W x00 x00 x00 x00 x00 x00 x00 x00)))
(T (W x00 x00 x00 x00 x00 x00 x00 x00)
(L (W xff xff xff xff xff xff xff xff)) E))
(T (W x00 x00 x80 x3f x00 x00 x80 x3f)
(T (W x00 x00 x80 x3f x00 x00 x80 x3f)
(L (W x00 x00 x00 x00 x00 x00 x00 x00)) E)
(T (W xff xff xff xff xff xff xff xff)
(L (W xff xff xff xff xff xff xff xff)) E)))
(T (W x00 x00 x00 x00 x00 x00 x00 x00)
(T (W x00 x00 x00 x00 x00 x00 x00 x00)
(T (W xcc x00 x00 x00 xc0 x00 x00 x00)
(L (W x00 x00 x80 xbf x00 x00 x80 xbf))
(L (W x7c xc9 xff xff x00 x01 x01 x01)))
(T (W xff xff xff xff xa4 x00 x00 x00)
(L (W x00 x00 x00 x00 x00 x00 x00 x00)) E))
(T (W x00 x00 x80 x3f x00 x00 x80 x3f)
(T (W x6c x00 x00 x00 x60 x00 x00 x00)
(L (W x2f x00 x00 x00 xff xff xff xff)) E)
(T (W x45 x26 x22 x84 xe4 x9c xf2 xcb)
(L (W x54 x00 x00 x00 x48 x00 x00 x00)) E))))
(T (W x00 x00 x80 x3f x00 x00 x80 x3f)
(T (W x45 x26 x22 x84 xe4 x9c xf2 xcb)
(T (W x45 x26 x22 x84 xe4 x9c xf2 xcb)
(T (W xff xff xff xff x9c x00 x00 x00)
(L (W x68 x00 x00 x00 x5c x00 x00 x00))
(L (W x00 x00 x00 x00 x00 x00 x00 x00)))
(T (W x00 x00 x00 x00 x00 x00 x00 x00)
(L (W x00 x00 x00 x00 x4a xa7 xfe xff)) E))
(T (W x00 x00 x80 x3f x00 x00 x80 x3f)
(T (W x00 x00 x00 x00 x00 x00 x00 x00)
(L (W xbc x00 x00 x00 x1e x00 x00 x00)) E)
(T (W x45 x44 x00 x00 x00 x00 x00 x00)
(L (W x46 x53 x59 x53 x5f x4e x53 x5f)) E)))
(T (W x12 x79 xfd xff x00 x00 x01 x01)
(T (W x40 x00 x00 x00 x10 x00 x00 x00)
(T (W x00 x00 x00 x00 x00 x00 x00 x00)
(L (W xff xff xff xff xff xff xff xff))
(L (W xff xff xff xff xff xff xff xff)))
(T (W x69 x6b x65 x5f x6c x76 x32 x00)
(L (W x18 x00 x00 x00 x10 x00 x00 x00)) E))
(T (W xaa x64 xfb xff x74 x00 x00 x00)
(T (W x45 x26 x22 x84 xe4 x9c xf2 xcb)
(L (W x00 x00 x80 xbf x00 x00 x80 xbf)) E)
(T (W x00 x00 x00 x00 x00 x00 x00 x00)
(L (W xff xff xff xff xff xff xff xff)) E))))))
(T (W x00 x00 x00 x00 x00 x00 x00 x00)
(T (W x00 x00 x80 x3f x00 x00 x80 x3f)
(T (W xbc x00 x00 x00 xb0 x00 x00 x00)
(T (W x68 x00 x00 x00 x5c x00 x00 x00)
(T (W xb8 x00 x00 x00 xac x00 x00 x00)
(T (W x00 x00 x80 x3f x00 x00 x80 x3f)
(L (W x00 x00 x80 xbf x00 x00 x80 xbf))
(L (W x46 x53 x59 x53 x5f x4e x53 x5f)))
(T (W x00 x00 x00 x00 x00 x00 x00 x00)
(L (W xff xff xff xff xff xff xff xff)) E))
(T (W xff xff xff xff x01 x00 x00 x00)
(T (W x54 x00 x00 x00 x48 x00 x00 x00)
(L (W x46 x53 x59 x53 x5f x4e x53 x5f))
(L (W xff xff xff xff xa0 x00 x00 x00)))
(T (W x00 x00 x00 x00 x00 x00 x00 x00)
(L (W xff xff xff xff xff xff xff xff)) E)))
(T (W x00 x00 x00 x00 x00 x00 x00 x00)
(T (W x00 x00 x00 x00 x00 x00 x00 x00)
(T (W x50 x00 x00 x00 x44 x00 x00 x00)
(L (W x14 x00 x18 x00 x00 x00 x00 x00))
(L (W x5a xbe xff xff x78 x00 x00 x00)))
(T (W x00 x00 x00 x00 x00 x00 x00 x00)
(L (W x00 x00 x00 x00 x00 x00 x00 x00)) E))
(T (W x1e x00 x00 x00 x10 x00 x00 x00)
(T (W x00 x00 x80 x3f x00 x00 x80 x3f)
(L (W xff xff xff xff xff xff xff xff)) E)
(T (W x50 x00 x00 x00 x44 x00 x00 x00)
(L (W x00 x00 x80 xbf x00 x00 x80 xbf)) E))))
(T (W x6c x00 x00 x00 x60 x00 x00 x00)
(T (W x6f x6b x65 x5f x6d x69 x6c x64)
(T (W x00 x00 x80 x3f x00 x00 x80 x3f)
(T (W x49 xa1 x68 x4a xeb x5f xdd x3d)
(L (W x00 x00 x80 xbf x00 x00 x80 xbf))
(L (W x5c x00 x00 x00 x50 x00 x00 x00)))
(T (W x00 x00 x00 x00 x00 x00 x00 x00)
(L (W x00 x00 x00 x00 x8a x9d xfe xff)) E))
(T (W x00 x00 x00 x00 x00 x00 x00 x00)
(T (W xff xff xff xff xff xff xff xff)
(L (W x45 x26 x22 x84 xe4 x9c xf2 xcb)) E)
(T (W x00 x00 x00 x00 x62 x7e xfd xff)
(L (W x00 x00 x00 x00 x00 x00 x00 x00)) E)))
(T (W x97 x01 x00 x00 xff xff xff xff)
(T (W x00 x00 x00 x00 x00 x00 x00 x00)
(T (W x45 x44 x00 x00 x00 x00 x00 x00)
(L (W x58 x00 x00 x00 x4c x00 x00 x00))
(L (W xff xff xff xff xff xff xff xff)))
(T (W x00 x00 x00 x00 x00 x00 x00 x00)
(L (W x00 x00 x80 xbf x00 x00 x80 xbf)) E))
(T (W x00 x00 x80 x3f x00 x00 x80 x3f)
(T (W xb0 x00 x00 x00 x64 x00 x00 x00)
(L (W x00 x00 x80 xbf x00 x00 x80 xbf)) E)
(T (W x00 x00 x00 x00 x12 x00 x00 x00)
(L (W xff xff xff xff xff xff xff xff)) E)))))
(T (W x5a xae xf9 xff x78 x00 x00 x00)
(T (W xff xff xff xff xff xff xff xff)
(T (W x00 x00 x80 x3f x00 x00 x80 x3f)
(T (W xff xff xff xff xff xff xff xff)
(T (W xff xff xff xff xff xff xff xff)
(L (W x00 x00 x00 x00 x00 x00 x00 x00))
(L (W x00 x00 x80 xbf x00 x00 x80 xbf)))
(T (W x92 x9f xff xff xd9 x00 x00 x00)
(L (W xff xff xff xff xff xff xff xff)) E))
(T (W x00 x00 x80 x3f x00 x00 x80 x3f)
(T (W x18 x00 x00 x00 x0c x00 x00 x00)
(L (W x00 x00 x80 xbf x00 x00 x80 xbf)) E)
(T (W x18 x00 x00 x00 x0c x00 x00 x00)
(L (W xff xff xff xff xff xff xff xff)) E)))
(T (W x00 x00 x00 x00 x00 x00 x00 x00)
(T (W x00 x00 x00 x00 x00 x00 x00 x00)
(T (W xff xff xff xff xff xff xff xff)
(L (W x00 x00 x80 xbf x00 x00 x80 xbf))
(L (W x22 x00 x00 x00 x25 x00 x00 x00)))
(T (W x03 x00 x00 x00 xd0 x00 x00 x00)
(L (W x45 x26 x22 x84 xe4 x9c xf2 xcb)) E))
(T (W xff xff xff xff xff xff xff xff)
(T (W x50 x00 x00 x00 x44 x00 x00 x00)
(L (W x00 x00 x00 x00 x00 x00 x00 x00)) E)
(T (W xff xff xff xff xff xff xff xff)
(L (W x45 x26 x22 x84 xe4 x9c xf2 xcb)) E))))
(T (W xaa xec xf9 xff x74 x00 x00 x00)
(T (W x00 x00 x00 x00 x00 x00 x00 x00)
(T (W x00 x00 x00 x00 x00 x00 x00 x00)
(T (W x00 x00 x01 x01 x9c x01 x00 x00)
(L (W x12 xf0 xff xff xc9 x00 x00 x00))
(L (W x00 x00 x80 xbf x00 x00 x80 xbf)))
(T (W x00 x00 x80 x3f x00 x00 x80 x3f)
(L (W x00 x00 x00 x00 x00 x00 x00 x00)) E))
(T (W xff xff xff xff x03 x00 x00 x00)
(T (W x00 x00 x00 x00 x00 x00 x00 x00)
(L (W xff xff xff xff xff xff xff xff)) E)
(T (W x00 x00 x00 x00 x00 x00 x00 x00)
(L (W x00 x00 x00 x00 x00 x00 x00 x00)) E)))
(T (W xff xff xff xff xff xff xff xff)
(T (W x12 x01 xfe xff x00 x00 x01 x01)
(T (W x4f x84 x6f x8b xe8 xcb x63 xb7)
(L (W xff xff xff xff xff xff xff xff))
(L (W xff xff xff xff xff xff xff xff)))
(T (W x00 x00 x80 x3f x00 x00 x80 x3f)
(L (W xff xff xff xff xff xff xff xff)) E))
(T (W xa1 x01 x00 x00 xff xff xff xff)
(T (W x45 x26 x22 x84 xe4 x9c xf2 xcb)
(L (W x18 x00 x00 x00 x10 x00 x00 x00)) E)
(T (W x00 x00 x80 xbf x00 x00 x80 xbf)
(L (W x00 x00 x00 x00 xda x73 xff xff)) E)))))))
(T (W x00 x00 x00 x00 x00 x00 x00 x00)
(T (W xff xff xff xff xff xff xff xff)
(T (W x00 x00 x00 x00 x00 x00 x00 x00)
(T (W x00 x00 x80 x3f x00 x00 x80 x3f)
(T (W x2e xf4 x31 x47 xbc xcd x7a x6d)
(T (W x45 x26 x22 x84 xe4 x9c xf2 xcb)
(T (W xcc x00 x00 x00 xc0 x00 x00 x00)
(L (W x03 x00 x00 x00 xd0 x00 x00 x00))
(L (W x6c x00 x00 x00 x60 x00 x00 x00)))
(T (W xff xff xff xff xff xff xff xff)
(L (W x00 x00 x00 x00 x00 x00 x00 x00)) E))
(T (W x00 x00 x00 x00 x00 x00 x00 x00)
(T (W x4b x00 x00 x00 xff xff xff xff)
(L (W x21 x00 x00 x00 x24 x00 x00 x00))
(L (W x46 x53 x59 x53 x5f x4e x53 x5f)))
(T (W xb7 x8a x02 x4c x84 x25 x7f x61)
(L (W x00 x00 x00 x00 x00 x00 x00 x00)) E)))
(T (W x45 x26 x22 x84 xe4 x9c xf2 xcb)
(T (W xff xff xff xff x03 x00 x00 x00)
(T (W xff xff xff xff xff xff xff xff)
(L (W xb0 x00 x00 x00 x64 x00 x00 x00))
(L (W xe4 x06 x00 x00 xc8 x05 x00 x00)))
(T (W x64 x00 x00 x00 x9c x00 x00 x00)
(L (W xb4 x00 x00 x00 x50 x00 x00 x00)) E))
(T (W x00 x00 x80 x3f x00 x00 x80 x3f)
(T (W xff xff xff xff xff xff xff xff)
(L (W x00 x00 x80 xbf x00 x00 x80 xbf)) E)
(T (W x00 x00 x01 x01 xc7 x01 x00 x00)
(L (W xff xff xff xff xff xff xff xff)) E))))
(T (W xff xff xff xff xff xff xff xff)
(T (W x45 x26 x22 x84 xe4 x9c xf2 xcb)
(T (W xff xff xff xff xff xff xff xff)
(T (W x00 x00 x00 x00 xec x9b xfb xff)
(L (W xff xff xff xff xff xff xff xff))
(L (W xff xff xff xff xff xff xff xff)))
(T (W x45 x26 x22 x84 xe4 x9c xf2 xcb)
(L (W x00 x00 x80 xbf x00 x00 x80 xbf)) E))
(T (W x21 x00 x00 x00 x24 x00 x00 x00)
(T (W x4f x84 x6f x8b xe8 xcb x63 xb7)
(L (W x8f x01 x00 x00 xff xff xff xff)) E)
(T (W x00 x00 x80 xbf x00 x00 x80 xbf)
(L (W x18 x00 x00 x00 x0c x00 x00 x00)) E)))
(T (W x00 x00 x80 x3f x00 x00 x80 x3f)
(T (W x00 x00 x80 x3f x00 x00 x80 x3f)
(T (W x00 x00 x80 x3f x00 x00 x80 x3f)
(L (W x16 x00 x00 x00 x0c x00 x00 x00))
(L (W x00 x00 x80 xbf x00 x00 x80 xbf)))
(T (W x45 x26 x22 x84 xe4 x9c xf2 xcb)
(L (W x00 x00 x00 x00 x00 x00 x00 x00)) E))
(T (W x45 x26 x22 x84 xe4 x9c xf2 xcb)
(T (W x70 x5f x6c x65 x61 x64 x65 x72)
(L (W x03 x00 x00 x00 xd8 x00 x00 x00)) E)
(T (W xaa x58 xfd xff x74 x00 x00 x00)
(L (W x00 x00 x00 x00 x00 x00 x00 x00)) E)))))
(T (W x45 x26 x22 x84 xe4 x9c xf2 xcb)
(T (W x7c xcd xf9 xff x00 x01 x01 x01)
(T (W xff xff xff xff xff xff xff xff)
(T (W x00 x00 x00 x00 x00 x00 x00 x00)
(T (W x00 x00 x00 x00 x00 x00 x00 x00)
(L (W xc0 x00 x00 x00 x01 x00 x00 x00))
(L (W xff xff xff xff x9c x00 x00 x00)))
(T (W x50 x00 x00 x00 x44 x00 x00 x00)
(L (W x00 x00 x00 x00 x00 x00 x00 x00)) E))
(T (W xff xff xff xff xff xff xff xff)
(T (W x00 x00 x00 x00 x12 x00 x00 x00)
(L (W xff xff xff xff xff xff xff xff)) E)
(T (W x04 xef xff xff x01 x01 x01 x01)
(L (W x00 x00 x80 xbf x00 x00 x80 xbf)) E)))
(T (W x68 x00 x00 x00 x5c x00 x00 x00)
(T (W x18 x00 x00 x00 x0c x00 x00 x00)
(T (W x00 x00 x00 x00 x00 x00 x00 x00)
(L (W xff xff xff xff xff xff xff xff))
(L (W x00 x00 x00 x00 x00 x00 x00 x00)))
(T (W x00 x00 x80 x3f x00 x00 x80 x3f)
(L (W xff xff xff xff xff xff xff xff)) E))
(T (W x00 x00 x00 x00 x00 x00 x00 x00)
(T (W x00 x00 x00 x00 x04 x00 x00 x00)
(L (W x18 x00 x00 x00 x0c x00 x00 x00)) E)
(T (W x00 x00 x00 x00 x00 x00 x00 x00)
(L (W x06 x00 x00 x00 xd0 x05 x00 x00)) E))))
(T (W xff xff xff xff xff xff xff xff)
(T (W x45 x26 x22 x84 xe4 x9c xf2 xcb)
(T (W xff xff xff xff xff xff xff xff)
(T (W x4f x84 x6f x8b xe8 xcb x63 xb7)
(L (W xff xff xff xff xff xff xff xff))
(L (W xff xff xff xff xff xff xff xff)))
(T (W xff xff xff xff xff xff xff xff)
(L (W x00 x00 x80 xbf x00 x00 x80 xbf)) E))
(T (W x00 x00 x00 x00 x00 x00 x00 x00)
(T (W x00 x00 x80 x3f x00 x00 x80 x3f)
(L (W x00 x00 x00 x00 x12 x00 x00 x00)) E)
(T (W xff xff xff xff xb0 x00 x00 x00)
(L (W x03 x00 x00 x00 xd8 x00 x00 x00)) E)))
(T (W x00 x00 x80 x3f x00 x00 x80 x3f)
(T (W xaa xe8 xfa xff x74 x00 x00 x00)
(T (W xb8 x00 x00 x00 x28 x00 x00 x00)
(L (W x00 x00 x80 xbf x00 x00 x80 xbf))
(L (W x00 x00 x80 xbf x00 x00 x80 xbf)))
(T (W x1e x00 x00 x00 x9c x00 x00 x00)
(L (W x4f x84 x6f x8b xe8 xcb x63 xb7)) E))
(T (W x4f x84 x6f x8b xe8 xcb x63 xb7)
(T (W xff xff xff xff xff xff xff xff)
(L (W x08 x00 x00 x00 x20 x08 x00 x00)) E)
(T (W xff xff xff xff xff xff xff xff)
(L (W x45 x26 x22 x84 xe4 x9c xf2 xcb)) E))))))
(T (W x6c x00 x00 x00 x60 x00 x00 x00)
(T (W x64 x00 x00 x00 xa0 x00 x00 x00)
(T (W x00 x00 x00 x00 x22 x5d xfd xff)
(T (W xc3 x01 x00 x00 xff xff xff xff)
(T (W x00 x00 x80 x3f x00 x00 x80 x3f)
(T (W xff xff xff xff xff xff xff xff)
(L (W x45 x26 x22 x84 xe4 x9c xf2 xcb))
(L (W x5a x82 xff xff x78 x00 x00 x00)))
(T (W xb8 x00 x00 x00 xac x00 x00 x00)
(L (W x00 x00 x00 x00 x00 x00 x00 x00)) E))
(T (W x00 x00 x80 x3f x00 x00 x80 x3f)
(T (W x74 x03 x00 x00 x4c x02 x00 x00)
(L (W xff xff xff xff xff xff xff xff))
(L (W x00 x00 x00 x00 x00 x00 x00 x00)))
(T (W x17 x00 x00 x00 x10 x00 x00 x00)
(L (W x00 x00 x80 xbf x00 x00 x80 xbf)) E)))
(T (W x18 x00 x00 x00 x0c x00 x00 x00)
(T (W xff xff xff xff xff xff xff xff)
(T (W x5f x4e x53 x5f x30 x32 x5f x43)
(L (W xff xff xff xff xff xff xff xff))
(L (W x00 x00 x00 x00 x00 x00 x00 x00)))
(T (W x18 x00 x00 x00 x0c x00 x00 x00)
(L (W xff xff xff xff xff xff xff xff)) E))
(T (W xff xff xff xff xff xff xff xff)
(T (W x00 x00 x00 x00 xda x47 xfc xff)
(L (W x6c x00 x00 x00 x60 x00 x00 x00)) E)
(T (W x00 x00 x00 x00 x00 x00 x00 x00)
(L (W x00 x00 x00 x00 x00 x00 x00 x00)) E))))
(T (W xff xff xff xff x01 x00 x00 x00)
(T (W xb8 x00 x00 x00 xac x00 x00 x00)
(T (W xff xff xff xff xff xff xff xff)
(T (W x00 x00 x00 x00 x02 x00 x00 x00)
(L (W x00 x00 x00 x00 x00 x00 x00 x00))
(L (W x70 x00 x00 x00 x64 x00 x00 x00)))
(T (W xff xff xff xff xff xff xff xff)
(L (W x7c xa5 xfe xff x00 x01 x01 x01)) E))
(T (W xff xff xff xff xff xff xff xff)
(T (W x00 x00 x80 x3f x00 x00 x80 x3f)
(L (W x00 x00 x00 x00 x00 x00 x00 x00)) E)
(T (W x00 x00 x80 xbf x00 x00 x80 xbf)
(L (W xb4 x00 x00 x00 x1e x00 x00 x00)) E)))
(T (W x00 x00 x80 x3f x00 x00 x80 x3f)
(T (W x68 x00 x00 x00 x5c x00 x00 x00)
(T (W x6c x00 x00 x00 x60 x00 x00 x00)
(L (W x00 x00 x00 x00 x12 x00 x00 x00))
(L (W x00 x00 x80 xbf x00 x00 x80 xbf)))
(T (W x6e x00 x00 x00 x25 x00 x00 x00)
(L (W x00 x00 x00 x00 x00 x00 x00 x00)) E))
(T (W x22 x00 x00 x00 x67 x72 x6f x75)
(T (W x00 x00 x00 x00 x00 x00 x00 x00)
(L (W xff xff xff xff xff xff xff xff)) E)
(T (W x03 x00 x00 x00 xd0 x00 x00 x00)
(L (W x00 x00 x00 x00 x00 x00 x00 x00)) E)))))
(T (W xff xff xff xff xff xff xff xff)
(T (W x00 x00 x00 x00 x00 x00 x00 x00)
(T (W x00 x00 x00 x00 x00 x00 x00 x00)
(T (W x00 x00 x00 x00 x00 x00 x00 x00)
(T (W x00 x00 x80 x3f x00 x00 x80 x3f)
(L (W xff xff xff xff xff xff xff xff))
(L (W xff xff xff xff xff xff xff xff)))
(T (W x00 x00 x80 x3f x00 x00 x80 x3f)
(L (W x00 x00 x80 xbf x00 x00 x80 xbf)) E))
(T (W x00 x00 x00 x00 x12 x00 x00 x00)
(T (W x45 x26 x22 x84 xe4 x9c xf2 xcb)
(L (W x00 x00 x01 x01 x5d x00 x00 x00)) E)
(T (W x00 x00 x80 xbf x00 x00 x80 xbf)
(L (W xff xff xff xff xa0 x00 x00 x00)) E)))
(T (W x00 x00 x80 x3f x00 x00 x80 x3f)
(T (W xaa xd0 xfa xff x74 x00 x00 x00)
(T (W x00 x00 x80 x3f x00 x00 x80 x3f)
(L (W x00 x00 x00 x00 x00 x00 x00 x00))
(L (W x4f x84 x6f x8b xe8 xcb x63 xb7)))
(T (W x00 x00 x80 x3f x00 x00 x80 x3f)
(L (W x00 x00 x00 x00 xda xd7 xfe xff)) E))
(T (W x00 x00 x80 x3f x00 x00 x80 x3f)
(T (W x45 x44 x00 x00 x00 x00 x00 x00)
(L (W x00 x00 x00 x00 xec x53 xfe xff)) E)
(T (W x6c x00 x00 x00 x60 x00 x00 x00)
(L (W x00 x00 x00 x00 x00 x00 x00 x00)) E))))
(T (W x00 x00 x00 x00 x00 x00 x00 x00)
(T (W x68 x00 x00 x00 x5c x00 x00 x00)
(T (W xff xff xff xff xff xff xff xff)
(T (W x00 x00 x00 x00 xec xb3 xfb xff)
(L (W x00 x00 x00 x00 x00 x00 x00 x00))
(L (W x00 x00 x00 x00 x8a xb1 xff xff)))
(T (W xff xff xff xff xff xff xff xff)
(L (W x45 x26 x22 x84 xe4 x9c xf2 xcb)) E))
(T (W x00 x00 x00 x00 x00 x00 x00 x00)
(T (W x45 x26 x22 x84 xe4 x9c xf2 xcb)
(L (W x45 x26 x22 x84 xe4 x9c xf2 xcb)) E)
(T (W xff xff xff xff xff xff xff xff)
(L (W xff xff xff xff x94 x00 x00 x00)) E)))
(T (W x00 x00 x80 x3f x00 x00 x80 x3f)
(T (W xff xff xff xff xff xff xff xff)
(T (W x24 x00 x00 x00 xb0 x00 x00 x00)
(L (W x7c xf5 xfd xff x00 x01 x01 x01))
(L (W x45 x26 x22 x84 xe4 x9c xf2 xcb)))
(T (W x1b x00 x00 x00 x67 x72 x6f x75)
(L (W x45 x26 x22 x84 xe4 x9c xf2 xcb)) E))
(T (W xaa x70 xfb xff x74 x00 x00 x00)
(T (W xff xff xff xff x03 x00 x00 x00)
(L (W x30 x32 x5f x43 x4c x45 x41 x52)) E)
(T (W xff xff xff xff xff xff xff xff)
(L (W x00 x00 x80 xbf x00 x00 x80 xbf)) E))))))))
(T (W x80 x6a x00 x00 x34 x68 x00 x00)
(T (W x00 x00 x01 x01 xc9 x00 x00 x00)
(T (W x64 x00 x00 x00 xa0 x00 x00 x00)
(T (W x00 x00 x00 x00 x00 x00 x00 x00)
(T (W x45 x26 x22 x84 xe4 x9c xf2 xcb)
(T (W xb8 x00 x00 x00 xac x00 x00 x00)
(T (W x00 x00 x00 x00 x00 x00 x00 x00)
(T (W x00 x00 x80 x3f x00 x00 x80 x3f)
(L (W x54 x00 x00 x00 x48 x00 x00 x00))
(L (W x00 x00 x80 xbf x00 x00 x80 xbf)))
(T (W x50 x00 x00 x00 x44 x00 x00 x00)
(L (W xff xff xff xff xff xff xff xff)) E))
(T (W xff xff xff xff xff xff xff xff)
(T (W x00 x00 x00 x00 xec xf9 xfb xff)
(L (W x45 x26 x22 x84 xe4 x9c xf2 xcb))
(L (W x45 x26 x22 x84 xe4 x9c xf2 xcb)))
(T (W x00 x00 x80 x3f x00 x00 x80 x3f)
(L (W x45 x44 x00 x00 x00 x00 x00 x00)) E)))
(T (W x00 x00 x80 x3f x00 x00 x80 x3f)
(T (W x00 x00 x80 x3f x00 x00 x80 x3f)
(T (W x7c xbb xfb xff x00 x01 x01 x01)
(L (W x00 x00 x00 x00 xec xb9 xfd xff))
(L (W xc4 x00 x00 x00 x02 x00 x00 x00)))
(T (W x00 x00 x80 x3f x00 x00 x80 x3f)
(L (W x00 x00 x80 xbf x00 x00 x80 xbf)) E))
(T (W x30 x32 x5f x43 x4c x45 x41 x52)
(T (W x18 x00 x00 x00 x0c x00 x00 x00)
(L (W x45 x44 x00 x00 x00 x00 x00 x00)) E)
(T (W xff xff xff xff xb0 x00 x00 x00)
(L (W x00 x00 x80 xbf x00 x00 x80 xbf)) E))))
(T (W x68 x00 x00 x00 x5c x00 x00 x00)
(T (W x01 x00 x00 x00 x04 x00 x00 x00)
(T (W x0a x00 x00 x00 x3e x00 x00 x00)
(T (W x45 x26 x22 x84 xe4 x9c xf2 xcb)
(L (W x7c x9b xfd xff x00 x01 x01 x01))
(L (W xb4 x00 x00 x00 x32 x00 x00 x00)))
(T (W x00 x00 x00 x00 x00 x00 x00 x00)
(L (W x00 x00 x00 x00 x00 x00 x00 x00)) E))
(T (W x45 x26 x22 x84 xe4 x9c xf2 xcb)
(T (W x30 x32 x5f x43 x4c x45 x41 x52)
(L (W xff xff xff xff xc8 x00 x00 x00)) E)
(T (W x03 x00 x00 x00 xbc x00 x00 x00)
(L (W x00 x00 x80 xbf x00 x00 x80 xbf)) E)))
(T (W x45 x26 x22 x84 xe4 x9c xf2 xcb)
(T (W x00 x00 x80 x3f x00 x00 x80 x3f)
(T (W x45 x26 x22 x84 xe4 x9c xf2 xcb)
(L (W xff xff xff xff xff xff xff xff))
(L (W xe4 x06 x00 x00 xc8 x05 x00 x00)))
(T (W x00 x00 x00 x00 x00 x00 x00 x00)
(L (W x45 x26 x22 x84 xe4 x9c xf2 xcb)) E))
(T (W x00 x00 x80 x3f x00 x00 x80 x3f)
(T (W xff xff xff xff xff xff xff xff)
(L (W x54 x00 x00 x00 x48 x00 x00 x00)) E)
(T (W x00 x00 x80 xbf x00 x00 x80 xbf)
(L (W xff xff xff xff xff xff xff xff)) E)))))
(T (W x00 x00 x00 x00 x00 x00 x00 x00)
(T (W x00 x00 x80 x3f x00 x00 x80 x3f)
(T (W x01 x00 x00 x00 x9c x00 x00 x00)
(T (W xd5 x01 x00 x00 xff xff xff xff)
(T (W xff xff xff xff xff xff xff xff)
(L (W x00 x00 x80 xbf x00 x00 x80 xbf))
(L (W x00 x00 x80 xbf x00 x00 x80 xbf)))
(T (W x45 x26 x22 x84 xe4 x9c xf2 xcb)
(L (W x00 x00 x00 x00 x4a x89 xfe xff)) E))
(T (W xaa x06 xfb xff x74 x00 x00 x00)
(T (W xff xff xff xff xff xff xff xff)
(L (W x00 x00 x80 xbf x00 x00 x80 xbf)) E)
(T (W x00 x00 x00 x00 x00 x00 x00 x00)
(L (W x00 x00 x00 x00 x00 x00 x00 x00)) E)))
(T (W x00 x00 x00 x00 x00 x00 x00 x00)
(T (W x45 x26 x22 x84 xe4 x9c xf2 xcb)
(T (W xff xff xff xff xff xff xff xff)
(L (W x45 x26 x22 x84 xe4 x9c xf2 xcb))
(L (W x00 x00 x01 x01 x5d x00 x00 x00)))
(T (W x00 x00 x80 x3f x00 x00 x80 x3f)
(L (W xff xff xff xff xa0 x00 x00 x00)) E))
(T (W xff xff xff xff xff xff xff xff)
(T (W xff xff xff xff x03 x00 x00 x00)
(L (W x00 x00 x00 x00 x00 x00 x00 x00)) E)
(T (W xff xff xff xff xff xff xff xff)
(L (W x03 x00 x00 x00 xd0 x00 x00 x00)) E))))
(T (W xff xff xff xff xff xff xff xff)
(T (W x00 x00 x80 x3f x00 x00 x80 x3f)
(T (W xaa xa6 xfa xff x74 x00 x00 x00)
(T (W x12 xea xfd xff x9c x01 x00 x00)
(L (W x18 x00 x00 x00 x10 x00 x00 x00))
(L (W xcc x00 x00 x00 x01 x00 x00 x00)))
(T (W x00 x00 x80 x3f x00 x00 x80 x3f)
(L (W x00 x00 x00 x00 x00 x00 x00 x00)) E))
(T (W xbc x00 x00 x00 x14 x00 x00 x00)
(T (W x00 x00 x00 x00 x00 x00 x00 x00)
(L (W xff xff xff xff xff xff xff xff)) E)
(T (W x00 x00 x80 xbf x00 x00 x80 xbf)
(L (W x00 x00 x80 xbf x00 x00 x80 xbf)) E)))
(T (W x00 x00 x00 x00 x00 x00 x00 x00)
(T (W x00 x00 x00 x00 x00 x00 x00 x00)
(T (W x00 x00 x80 x3f x00 x00 x80 x3f)
(L (W x00 x00 x00 x00 x00 x00 x00 x00))
(L (W x00 x00 x00 x00 x00 x00 x00 x00)))
(T (W x00 x00 x80 x3f x00 x00 x80 x3f)
(L (W xff xff xff xff xff xff xff xff)) E))
(T (W xa1 x01 x00 x00 xff xff xff xff)
(T (W x68 x00 x00 x00 x5c x00 x00 x00)
(L (W x17 x00 x00 x00 x1a x00 x00 x00)) E)
(T (W xaa x66 xfd xff x74 x00 x00 x00)
(L (W x00 x00 x00 x00 x00 x00 x00 x00)) E))))))
(T (W x00 x00 x80 x3f x00 x00 x80 x3f)
(T (W x6c x00 x00 x00 x60 x00 x00 x00)
(T (W xff xff xff xff xff xff xff xff)
(T (W x45 x26 x22 x84 xe4 x9c xf2 xcb)
(T (W x2a x14 xf0 x75 xcd xf2 x0e xc8)
(T (W xff xff xff xff xc4 x00 x00 x00)
(L (W x68 x00 x00 x00 x5c x00 x00 x00))
(L (W x00 x00 x80 xbf x00 x00 x80 xbf)))
(T (W x00 x00 x80 x3f x00 x00 x80 x3f)
(L (W x00 x00 x00 x00 x00 x00 x00 x00)) E))
(T (W x00 x00 x00 x00 x00 x00 x00 x00)
(T (W xcc x00 x00 x00 xc0 x00 x00 x00)
(L (W x5a x00 xfe xff x78 x00 x00 x00))
(L (W x00 x00 x80 xbf x00 x00 x80 xbf)))
(T (W x5c x00 x00 x00 x50 x00 x00 x00)
(L (W x00 x00 x00 x00 x00 x00 x00 x00)) E)))
(T (W x45 x26 x22 x84 xe4 x9c xf2 xcb)
(T (W x00 x00 x80 x3f x00 x00 x80 x3f)
(T (W xff xff xff xff xff xff xff xff)
(L (W x00 x00 x80 xbf x00 x00 x80 xbf))
(L (W xff xff xff xff xff xff xff xff)))
(T (W x00 x00 x80 x3f x00 x00 x80 x3f)
(L (W x00 x00 x80 xbf x00 x00 x80 xbf)) E))
(T (W x45 x26 x22 x84 xe4 x9c xf2 xcb)
(T (W x45 x26 x22 x84 xe4 x9c xf2 xcb)
(L (W x00 x00 x00 x00 x00 x00 x00 x00)) E)
(T (W xff xff xff xff xff xff xff xff)
(L (W x00 x00 x00 x00 xec x41 xff xff)) E))))
(T (W xbc x00 x00 x00 xb0 x00 x00 x00)
(T (W x00 x00 x80 x3f x00 x00 x80 x3f)
(T (W xc0 x00 x00 x00 xb4 x00 x00 x00)
(T (W xff xff xff xff x03 x00 x00 x00)
(L (W x62 x00 x00 x00 x00 x00 x01 x01))
(L (W x64 x00 x68 x00 x62 x00 x00 x00)))
(T (W x01 x00 x00 x00 x9c x00 x00 x00)
(L (W x00 x00 x00 x00 x00 x00 x00 x00)) E))
(T (W x7c x23 xfb xff x00 x01 x01 x01)
(T (W x00 x00 x00 x00 x00 x00 x00 x00)
(L (W xff xff xff xff xff xff xff xff)) E)
(T (W x00 x00 x00 x00 x00 x00 x00 x00)
(L (W x54 x00 x00 x00 x48 x00 x00 x00)) E)))
(T (W x45 x26 x22 x84 xe4 x9c xf2 xcb)
(T (W x00 x00 x80 x3f x00 x00 x80 x3f)
(T (W x00 x00 x00 x00 x00 x00 x00 x00)
(L (W xff xff xff xff xff xff xff xff))
(L (W x00 x00 x00 x00 x00 x00 x00 x00)))
(T (W x45 x26 x22 x84 xe4 x9c xf2 xcb)
(L (W xff xff xff xff xff xff xff xff)) E))
(T (W xff xff xff xff xff xff xff xff)
(T (W xff xff xff xff xff xff xff xff)
(L (W x45 x26 x22 x84 xe4 x9c xf2 xcb)) E)
(T (W x54 x00 x00 x00 x48 x00 x00 x00)
(L (W x00 x00 x00 x00 xda x65 xff xff)) E)))))
(T (W xbc x00 x00 x00 xb0 x00 x00 x00)
(T (W x00 x00 x00 x00 x9a x6c xfd xff)
(T (W xff xff xff xff xff xff xff xff)
(T (W xff xff xff xff xff xff xff xff)
(T (W x4c x45 x41 x52 x45 x44 x00 x00)
(L (W x50 x00 x00 x00 x44 x00 x00 x00))
(L (W x45 x26 x22 x84 xe4 x9c xf2 xcb)))
(T (W x00 x00 x00 x00 x00 x00 x00 x00)
(L (W x30 x32 x5f x43 x4c x45 x41 x52)) E))
(T (W x18 x00 x00 x00 x10 x00 x00 x00)
(T (W x34 x01 x00 x00 x04 x00 x00 x00)
(L (W x7c x13 xfe xff x00 x01 x01 x01)) E)
(T (W x00 x00 x00 x00 x01 x00 x00 x00)
(L (W x00 x00 x00 x00 x00 x00 x00 x00)) E)))
(T (W x00 x00 x00 x00 x00 x00 x00 x00)
(T (W x00 x00 x80 x3f x00 x00 x80 x3f)
(T (W x00 x00 x00 x00 x12 x00 x00 x00)
(L (W xff xff xff xff xff xff xff xff))
(L (W xff xff xff xff xff xff xff xff)))
(T (W x67 x72 x6f x75 x70 x5f x6c x65)
(L (W xff xff xff xff xc8 x00 x00 x00)) E))
(T (W x00 x00 x00 x00 x00 x00 x00 x00)
(T (W xff xff xff xff xff xff xff xff)
(L (W x00 x00 x80 xbf x00 x00 x80 xbf)) E)
(T (W x00 x00 x00 x00 x00 x00 x00 x00)
(L (W xff xff xff xff xff xff xff xff)) E))))
(T (W xff xff xff xff xff xff xff xff)
(T (W x00 x00 x80 x3f x00 x00 x80 x3f)
(T (W x7c xb3 xfa xff x00 x01 x01 x01)
(T (W x00 x00 x00 x00 x00 x00 x00 x00)
(L (W x00 x00 x00 x00 x00 x00 x00 x00))
(L (W xff xff xff xff xff xff xff xff)))
(T (W x18 x00 x00 x00 x0c x00 x00 x00)
(L (W x00 x00 x00 x00 x00 x00 x00 x00)) E))
(T (W xa4 x01 x00 x00 xff xff xff xff)
(T (W x45 x26 x22 x84 xe4 x9c xf2 xcb)
(L (W x00 x00 x00 x00 x6a x37 xfe xff)) E)
(T (W x00 x00 x80 xbf x00 x00 x80 xbf)
(L (W x00 x00 x80 xbf x00 x00 x80 xbf)) E)))
(T (W x00 x00 x00 x00 x00 x00 x00 x00)
(T (W x45 x26 x22 x84 xe4 x9c xf2 xcb)
(T (W x00 x00 x80 x3f x00 x00 x80 x3f)
(L (W x00 x00 x80 xbf x00 x00 x80 xbf))
(L (W x00 x00 x80 xbf x00 x00 x80 xbf)))
(T (W xff xff xff xff xff xff xff xff)
(L (W x00 x00 x00 x00 x6a xf7 xfe xff)) E))
(T (W x00 x00 x00 x00 x00 x00 x00 x00)
(T (W x50 x00 x00 x00 x44 x00 x00 x00)
(L (W xff xff xff xff xff xff xff xff)) E)
(T (W x1c x00 x20 x00 x24 x00 x28 x00)
(L (W x00 x00 x00 x00 x00 x00 x00 x00)) E)))))))
(T (W x00 x00 x80 x3f x00 x00 x80 x3f)
(T (W x00 x00 x00 x00 x9a x28 xfd xff)
(T (W x84 x11 x00 x00 x70 x10 x00 x00)
(T (W x5a xbc xf9 xff x78 x00 x00 x00)
(T (W x00 x00 x00 x00 x00 x00 x00 x00)
(T (W x45 x26 x22 x84 xe4 x9c xf2 xcb)
(T (W x04 x8d xfb xff x10 x00 x00 x00)
(L (W x04 x00 x00 x00 x80 x03 x00 x00))
(L (W xff xff xff xff xbc x00 x00 x00)))
(T (W x92 x8d xff xff xa1 x01 x00 x00)
(L (W x00 x00 x80 xbf x00 x00 x80 xbf)) E))
(T (W xd0 x00 x00 x00 xc4 x00 x00 x00)
(T (W x00 x00 x00 x00 x12 x00 x00 x00)
(L (W xff xff xff xff xff xff xff xff))
(L (W x6c x00 x70 x00 x62 x00 x00 x00)))
(T (W x54 x00 x00 x00 x48 x00 x00 x00)
(L (W x00 x00 x80 xbf x00 x00 x80 xbf)) E)))
(T (W xff xff xff xff xff xff xff xff)
(T (W x00 x00 x00 x00 x00 x00 x00 x00)
(T (W x00 x00 x00 x00 x00 x00 x00 x00)
(L (W xff xff xff xff xff xff xff xff))
(L (W x00 x00 x80 xbf x00 x00 x80 xbf)))
(T (W xff xff xff xff xff xff xff xff)
(L (W xff xff xff xff xff xff xff xff)) E))
(T (W xff xff xff xff xff xff xff xff)
(T (W x00 x00 x00 x00 x00 x00 x00 x00)
(L (W xff xff xff xff xb0 x00 x00 x00)) E)
(T (W x00 x00 x00 x00 x00 x00 x00 x00)
(L (W x00 x00 x00 x00 x00 x00 x00 x00)) E))))
(T (W x00 x00 x00 x00 x00 x00 x00 x00)
(T (W xff xff xff xff xff xff xff xff)
(T (W x00 x00 x00 x00 x00 x00 x00 x00)
(T (W x00 x00 x00 x00 x00 x00 x00 x00)
(L (W x5f x4e x53 x5f x30 x32 x5f x43))
(L (W x49 xa1 x68 x4a xeb x5f xdd x3d)))
(T (W xff xff xff xff xff xff xff xff)
(L (W x18 x00 x00 x00 x10 x00 x00 x00)) E))
(T (W x00 x00 x00 x00 x00 x00 x00 x00)
(T (W x18 x00 x00 x00 x0c x00 x00 x00)
(L (W x00 x00 x80 xbf x00 x00 x80 xbf)) E)
(T (W xff xff xff xff xff xff xff xff)
(L (W xff xff xff xff xff xff xff xff)) E)))
(T (W xb8 x00 x00 x00 xac x00 x00 x00)
(T (W xff xff xff xff xff xff xff xff)
(T (W xff xff xff xff xff xff xff xff)
(L (W x00 x00 x80 xbf x00 x00 x80 xbf))
(L (W x5a xdc xff xff x78 x00 x00 x00)))
(T (W xff xff xff xff xff xff xff xff)
(L (W x00 x00 x00 x00 x00 x00 x00 x00)) E))
(T (W x30 x32 x5f x43 x4c x45 x41 x52)
(T (W x68 x00 x00 x00 x5c x00 x00 x00)
(L (W x15 x00 x00 x00 x0c x00 x00 x00)) E)
(T (W xff xff xff xff xff xff xff xff)
(L (W x5a x5c xff xff x78 x00 x00 x00)) E)))))
(T (W x00 x00 x80 x3f x00 x00 x80 x3f)
(T (W xff xff xff xff x03 x00 x00 x00)
(T (W x00 x00 x00 x00 x00 x00 x00 x00)
(T (W x00 x00 x80 x3f x00 x00 x80 x3f)
(T (W x45 x26 x22 x84 xe4 x9c xf2 xcb)
(L (W xc9 x00 x00 x00 xff xff xff xff))
(L (W x00 x00 x00 x00 xda x91 xff xff)))
(T (W xff xff xff xff xff xff xff xff)
(L (W x18 x00 x00 x00 x10 x00 x00 x00)) E))
(T (W x00 x00 x00 x00 x00 x00 x00 x00)
(T (W x00 x00 x80 x3f x00 x00 x80 x3f)
(L (W x46 x53 x59 x53 x5f x4e x53 x5f)) E)
(T (W x00 x00 x01 x01 x6f x00 x00 x00)
(L (W xff xff xff xff xb0 x00 x00 x00)) E)))
(T (W xff xff xff xff xff xff xff xff)
(T (W xff xff xff xff xff xff xff xff)
(T (W x00 x00 x00 x00 xec xcd xfb xff)
(L (W x00 x00 x00 x00 x00 x00 x00 x00))
(L (W x00 x00 x80 xbf x00 x00 x80 xbf)))
(T (W x00 x00 x00 x00 x00 x00 x00 x00)
(L (W x46 x53 x59 x53 x5f x4e x53 x5f)) E))
(T (W x00 x00 x80 x3f x00 x00 x80 x3f)
(T (W x00 x00 x80 x3f x00 x00 x80 x3f)
(L (W xff xff xff xff xff xff xff xff)) E)
(T (W x00 x00 x80 xbf x00 x00 x80 xbf)
(L (W x00 x00 x80 xbf x00 x00 x80 xbf)) E))))
(T (W x00 x00 x00 x00 x00 x00 x00 x00)
(T (W x12 x3f xfd xff x00 x00 x01 x01)
(T (W x92 xbd xfd xff x72 x00 x00 x00)
(T (W x18 x00 x00 x00 x0c x00 x00 x00)
(L (W xff xff xff xff xff xff xff xff))
(L (W x00 x00 x00 x00 x00 x00 x00 x00)))
(T (W x00 x00 x00 x00 x00 x00 x00 x00)
(L (W xff xff xff xff xff xff xff xff)) E))
(T (W x00 x00 x80 x3f x00 x00 x80 x3f)
(T (W xff xff xff xff xff xff xff xff)
(L (W x7c x2f xfe xff x00 x01 x01 x01)) E)
(T (W xff xff xff xff xff xff xff xff)
(L (W x00 x00 x01 x01 x5c x00 x00 x00)) E)))
(T (W x68 x00 x00 x00 x5c x00 x00 x00)
(T (W x18 x00 x00 x00 x10 x00 x00 x00)
(T (W xff xff xff xff xff xff xff xff)
(L (W xbc x00 x00 x00 x32 x00 x00 x00))
(L (W xb4 x00 x00 x00 x50 x00 x00 x00)))
(T (W xff xff xff xff xff xff xff xff)
(L (W x6c x00 x00 x00 x60 x00 x00 x00)) E))
(T (W x00 x00 x80 x3f x00 x00 x80 x3f)
(T (W x00 x00 x00 x00 x00 x00 x00 x00)
(L (W x00 x00 x80 xbf x00 x00 x80 xbf)) E)
(T (W x00 x00 x00 x00 x12 x00 x00 x00)
(L (W xaa x6a xff xff x74 x00 x00 x00)) E))))))
(T (W xbc x00 x00 x00 xb0 x00 x00 x00)
(T (W xff xff xff xff xff xff xff xff)
(T (W x00 x00 x00 x00 x00 x00 x00 x00)
(T (W x00 x00 x00 x00 x00 x00 x00 x00)
(T (W x18 x00 x00 x00 x0c x00 x00 x00)
(T (W x46 x53 x59 x53 x5f x4e x53 x5f)
(L (W xff xff xff xff xff xff xff xff))
(L (W xff xff xff xff xff xff xff xff)))
(T (W xff xff xff xff xff xff xff xff)
(L (W x5a x84 xfe xff x78 x00 x00 x00)) E))
(T (W x00 x00 x00 x00 xda x09 xfb xff)
(T (W x45 x26 x22 x84 xe4 x9c xf2 xcb)
(L (W x00 x00 x01 x01 x4b x00 x00 x00)) E)
(T (W x50 x00 x00 x00 x44 x00 x00 x00)
(L (W x45 x26 x22 x84 xe4 x9c xf2 xcb)) E)))
(T (W xff xff xff xff xff xff xff xff)
(T (W x48 x03 x00 x00 x34 x02 x00 x00)
(T (W x54 x00 x00 x00 x48 x00 x00 x00)
(L (W x00 x00 x00 x00 x12 x00 x00 x00))
(L (W x00 x00 x80 xbf x00 x00 x80 xbf)))
(T (W xff xff xff xff xff xff xff xff)
(L (W x00 x00 x00 x00 x4a xc5 xfe xff)) E))
(T (W x5f x4e x53 x5f x30 x32 x5f x43)
(T (W x00 x00 x00 x00 x00 x00 x00 x00)
(L (W xff xff xff xff xc0 x00 x00 x00)) E)
(T (W x00 x00 x80 xbf x00 x00 x80 xbf)
(L (W x00 x00 x00 x00 x00 x00 x00 x00)) E))))
(T (W x00 x00 x00 x00 x00 x00 x00 x00)
(T (W xb5 x01 x00 x00 xff xff xff xff)
(T (W x72 x15 x55 xd0 xce xeb x29 x78)
(T (W x00 x00 x00 x00 x00 x00 x00 x00)
(L (W x00 x00 x80 xbf x00 x00 x80 xbf))
(L (W xff xff xff xff xff xff xff xff)))
(T (W xac xab xfc xff x1a x00 x00 x00)
(L (W xff xff xff xff xff xff xff xff)) E))
(T (W x00 x00 x00 x00 x00 x00 x00 x00)
(T (W x45 x26 x22 x84 xe4 x9c xf2 xcb)
(L (W x45 x26 x22 x84 xe4 x9c xf2 xcb)) E)
(T (W xff xff xff xff xff xff xff xff)
(L (W xff xff xff xff xff xff xff xff)) E)))
(T (W x45 x26 x22 x84 xe4 x9c xf2 xcb)
(T (W xff xff xff xff x04 x00 x00 x00)
(T (W xff xff xff xff xff xff xff xff)
(L (W x00 x00 x80 xbf x00 x00 x80 xbf))
(L (W x18 x00 x00 x00 x0c x00 x00 x00)))
(T (W x68 x00 x00 x00 x5c x00 x00 x00)
(L (W x00 x00 x80 xbf x00 x00 x80 xbf)) E))
(T (W x00 x00 x80 x3f x00 x00 x80 x3f)
(T (W xff xff xff xff xff xff xff xff)
(L (W x00 x00 x00 x00 x00 x00 x00 x00)) E)
(T (W x02 x00 x00 x00 x30 x01 x00 x00)
(L (W x45 x26 x22 x84 xe4 x9c xf2 xcb)) E)))))
(T (W x00 x00 x01 x01 xc9 x00 x00 x00)
(T (W x45 x26 x22 x84 xe4 x9c xf2 xcb)
(T (W x00 x00 x80 x3f x00 x00 x80 x3f)
(T (W x68 x00 x00 x00 x5c x00 x00 x00)
(T (W x18 x00 x00 x00 x0c x00 x00 x00)
(L (W x00 x00 x00 x00 x00 x00 x00 x00))
(L (W x00 x00 x00 x00 x00 x00 x00 x00)))
(T (W xb8 x00 x00 x00 xac x00 x00 x00)
(L (W x45 x26 x22 x84 xe4 x9c xf2 xcb)) E))
(T (W xff xff xff xff xff xff xff xff)
(T (W x00 x00 x80 x3f x00 x00 x80 x3f)
(L (W x00 x00 x00 x00 x00 x00 x00 x00)) E)
(T (W x03 x00 x00 x00 xbc x00 x00 x00)
(L (W xff xff xff xff xff xff xff xff)) E)))
(T (W xff xff xff xff xff xff xff xff)
(T (W xff xff xff xff xff xff xff xff)
(T (W x6c x00 x00 x00 x60 x00 x00 x00)
(L (W x00 x00 x00 x00 x00 x00 x00 x00))
(L (W x54 x00 x00 x00 x48 x00 x00 x00)))
(T (W xff xff xff xff xff xff xff xff)
(L (W x00 x00 x00 x00 x00 x00 x00 x00)) E))
(T (W xff xff xff xff xff xff xff xff)
(T (W x00 x00 x80 x3f x00 x00 x80 x3f)
(L (W x00 x00 x00 x00 x00 x00 x00 x00)) E)
(T (W xff xff xff xff xff xff xff xff)
(L (W x00 x00 x80 xbf x00 x00 x80 xbf)) E))))
(T (W x00 x00 x00 x00 x00 x00 x00 x00)
(T (W xff xff xff xff xff xff xff xff)
(T (W x00 x00 x00 x00 x00 x00 x00 x00)
(T (W xff xff xff xff xff xff xff xff)
(L (W x00 x00 x80 xbf x00 x00 x80 xbf))
(L (W x00 x00 x00 x00 x00 x00 x00 x00)))
(T (W x18 x00 x00 x00 x10 x00 x00 x00)
(L (W xff xff xff xff xff xff xff xff)) E))
(T (W x00 x00 x00 x00 xec x35 xfb xff)
(T (W x30 x32 x5f x43 x4c x45 x41 x52)
(L (W x68 x00 x00 x00 x5c x00 x00 x00)) E)
(T (W x45 x44 x00 x00 x00 x00 x00 x00)
(L (W x00 x00 x00 x00 x00 x00 x00 x00)) E)))
(T (W x7c x77 xfa xff x00 x01 x01 x01)
(T (W x00 x00 x00 x00 x00 x00 x00 x00)
(T (W xac xfb xfb xff x15 x00 x00 x00)
(L (W xff xff xff xff xff xff xff xff))
(L (W xff xff xff xff xff xff xff xff)))
(T (W x00 x00 x80 x3f x00 x00 x80 x3f)
(L (W x00 x00 x80 xbf x00 x00 x80 xbf)) E))
(T (W xff xff xff xff xbc x00 x00 x00)
(T (W x6b x65 x5f x6c x76 x32 x00 x00)
(L (W x54 x00 x00 x00 x48 x00 x00 x00)) E)
(T (W x45 x44 x00 x00 x00 x00 x00 x00)
(L (W xff xff xff xff xb0 x00 x00 x00)) E)))))))))
(T (W x48 xcc x02 x00 xa4 xc7 x02 x00)
(T (W xd8 xfb x00 x00 xa4 xfa x00 x00)
(T (W xff xff xff xff xff xff xff xff)
(T (W x7c x8a xf9 xff x00 x01 x01 x01)
(T (W xff xff xff xff x03 x00 x00 x00)
(T (W x00 x00 x00 x00 x00 x00 x00 x00)
(T (W x68 x00 x00 x00 x5c x00 x00 x00)
(T (W xdc x00 x00 x00 xff xff xff xff)
(T (W x00 x00 x80 x3f x00 x00 x80 x3f)
(L (W x00 x00 x80 xbf x00 x00 x80 xbf))
(L (W x00 x00 x00 x00 x00 x00 x00 x00)))
(T (W x00 x00 x80 x3f x00 x00 x80 x3f)
(L (W xff xff xff xff xff xff xff xff)) E))
(T (W x00 x00 x80 x3f x00 x00 x80 x3f)
(T (W x00 x00 x80 x3f x00 x00 x80 x3f)
(L (W x00 x00 x00 x00 x00 x00 x00 x00))
(L (W x00 x00 x00 x00 x00 x00 x00 x00)))
(T (W x00 x00 x00 x00 x00 x00 x10 x00)
(L (W xff xff xff xff xff xff xff xff)) E)))
(T (W x00 x00 x00 x00 x00 x00 x00 x00)
(T (W x45 x26 x22 x84 xe4 x9c xf2 xcb)
(T (W x00 x00 x80 x3f x00 x00 x80 x3f)
(L (W x68 x00 x00 x00 x5c x00 x00 x00))
(L (W x45 x26 x22 x84 xe4 x9c xf2 xcb)))
(T (W x00 x00 x80 x3f x00 x00 x80 x3f)
(L (W x00 x00 x00 x00 x00 x00 x00 x00)) E))
(T (W x12 x4a xfe xff x00 x00 x01 x01)
(T (W x00 x00 x80 x3f x00 x00 x80 x3f)
(L (W xff xff xff xff xff xff xff xff)) E)
(T (W x00 x00 x80 xbf x00 x00 x80 xbf)
(L (W x00 x00 x80 xbf x00 x00 x80 xbf)) E))))
(T (W x50 x00 x00 x00 x44 x00 x00 x00)
(T (W xff xff xff xff xff xff xff xff)
(T (W x45 x26 x22 x84 xe4 x9c xf2 xcb)
(T (W x00 x00 x00 x00 x00 x00 x00 x00)
(L (W x00 x00 x80 xbf x00 x00 x80 xbf))
(L (W x7c x9a xff xff x00 x01 x01 x01)))
(T (W x92 xa8 xff xff xc1 x00 x00 x00)
(L (W x30 x32 x5f x43 x4c x45 x41 x52)) E))
(T (W x00 x00 x00 x00 x00 x00 x00 x00)
(T (W x4b x00 x00 x00 xff xff xff xff)
(L (W x45 x26 x22 x84 xe4 x9c xf2 xcb)) E)
(T (W x68 x00 x00 x00 x5c x00 x00 x00)
(L (W x45 x26 x22 x84 xe4 x9c xf2 xcb)) E)))
(T (W x00 x00 x00 x00 x00 x00 x00 x00)
(T (W x00 x00 x80 x3f x00 x00 x80 x3f)
(T (W x00 x00 x00 x00 x12 x00 x00 x00)
(L (W x00 x00 x00 x00 xec xd8 xfd xff))
(L (W xff xff xff xff xff xff xff xff)))
(T (W x00 x00 x00 x00 x00 x00 x00 x00)
(L (W x5a xd7 xfe xff x78 x00 x00 x00)) E))
(T (W x49 xa1 x68 x4a xeb x5f xdd x3d)
(T (W xff xff xff xff xff xff xff xff)
(L (W x00 x00 x80 xbf x00 x00 x80 xbf)) E)
(T (W x00 x00 x00 x00 x00 x00 x00 x00)
(L (W xff xff xff xff xff xff xff xff)) E)))))
(T (W x00 x00 x00 x00 x00 x00 x00 x00)
(T (W x00 x00 x80 x3f x00 x00 x80 x3f)
(T (W x45 x26 x22 x84 xe4 x9c xf2 xcb)
(T (W xff xff xff xff xff xff xff xff)
(T (W xff xff xff xff xff xff xff xff)
(L (W x4f x84 x6f x8b xe8 xcb x63 xb7))
(L (W x49 xa1 x68 x4a xeb x5f xdd x3d)))
(T (W x00 x00 x00 x00 x00 x00 x00 x00)
(L (W xff xff xff xff xff xff xff xff)) E))
(T (W x00 x00 x80 x3f x00 x00 x80 x3f)
(T (W x01 x00 x00 x00 xb0 x00 x00 x00)
(L (W x00 x00 x80 xbf x00 x00 x80 xbf)) E)
(T (W x25 x00 x00 x00 x10 x00 x00 x00)
(L (W xe4 x06 x00 x00 xc8 x05 x00 x00)) E)))
(T (W x00 x00 x00 x00 x00 x00 x00 x00)
(T (W x45 x26 x22 x84 xe4 x9c xf2 xcb)
(T (W xff xff xff xff xff xff xff xff)
(L (W x6c x00 x00 x00 x60 x00 x00 x00))
(L (W xb0 x00 x00 x00 x64 x00 x00 x00)))
(T (W x00 x00 x10 x00 x00 x00 x14 x00)
(L (W x6c x00 x00 x00 x60 x00 x00 x00)) E))
(T (W x68 x00 x00 x00 x5c x00 x00 x00)
(T (W xff xff xff xff x9c x00 x00 x00)
(L (W x00 x00 x00 x00 x00 x00 x00 x00)) E)
(T (W xff xff xff xff xbc x00 x00 x00)
(L (W x18 x00 x00 x00 x10 x00 x00 x00)) E))))
(T (W xc4 x00 x00 x00 xb8 x00 x00 x00)
(T (W x00 x00 x80 x3f x00 x00 x80 x3f)
(T (W x54 x00 x00 x00 x48 x00 x00 x00)
(T (W xff xff xff xff xff xff xff xff)
(L (W x00 x00 x00 x00 xec xa8 xfd xff))
(L (W x00 x00 x80 xbf x00 x00 x80 xbf)))
(T (W x00 x00 x80 x3f x00 x00 x80 x3f)
(L (W x46 x53 x59 x53 x5f x4e x53 x5f)) E))
(T (W x7c x2a xfb xff x00 x01 x01 x01)
(T (W x00 x00 x00 x00 x00 x00 x00 x00)
(L (W xff xff xff xff xff xff xff xff)) E)
(T (W x00 x00 x00 x00 x00 x00 x00 x00)
(L (W x00 x00 x00 x00 x00 x00 x00 x00)) E)))
(T (W x00 x00 x00 x00 x00 x00 x00 x00)
(T (W x00 x00 x00 x00 x00 x00 x00 x00)
(T (W x00 x00 x00 x00 x00 x00 x00 x00)
(L (W x30 x32 x5f x43 x4c x45 x41 x52))
(L (W x00 x00 x00 x00 xda xec xff xff)))
(T (W x00 x00 x00 x00 x00 x00 x00 x00)
(L (W x03 x00 x00 x00 xd0 x00 x00 x00)) E))
(T (W xff xff xff xff xff xff xff xff)
(T (W x50 x00 x00 x00 x44 x00 x00 x00)
(L (W x00 x00 x00 x00 xec x68 xfe xff)) E)
(T (W x00 x00 x80 xbf x00 x00 x80 xbf)
(L (W x29 x00 x00 x00 xff xff xff xff)) E))))))
(T (W x45 x26 x22 x84 xe4 x9c xf2 xcb)
(T (W x00 x00 x80 x3f x00 x00 x80 x3f)
(T (W xff xff xff xff xff xff xff xff)
(T (W x7c x02 xfa xff x00 x01 x01 x01)
(T (W xff xff xff xff xff xff xff xff)
(T (W x45 x26 x22 x84 xe4 x9c xf2 xcb)
(L (W x00 x00 x80 xbf x00 x00 x80 xbf))
(L (W x00 x00 x00 x00 x00 x00 x00 x00)))
(T (W x45 x26 x22 x84 xe4 x9c xf2 xcb)
(L (W xff xff xff xff xff xff xff xff)) E))
(T (W x00 x00 x00 x00 x00 x00 x00 x00)
(T (W x18 x00 x00 x00 x10 x00 x00 x00)
(L (W x00 x00 x00 x00 x00 x00 x00 x00))
(L (W x00 x00 x00 x00 x00 x00 x00 x00)))
(T (W x00 x00 x00 x00 x00 x00 x00 x00)
(L (W x00 x00 x00 x00 xda x04 xff xff)) E)))
(T (W x00 x00 x00 x00 x00 x00 x00 x00)
(T (W x00 x00 x00 x00 x00 x00 x00 x00)
(T (W xc8 x00 x00 x00 xbc x00 x00 x00)
(L (W x00 x00 x80 xbf x00 x00 x80 xbf))
(L (W xff xff xff xff xb0 x00 x00 x00)))
(T (W x00 x00 x00 x00 x00 x00 x00 x00)
(L (W x00 x00 x80 xbf x00 x00 x80 xbf)) E))
(T (W x00 x00 x00 x00 x00 x00 x00 x00)
(T (W x54 x00 x00 x00 x48 x00 x00 x00)
(L (W x00 x00 x00 x00 x8a x3e xfe xff)) E)
(T (W xc4 x00 x00 x00 x02 x00 x00 x00)
(L (W x00 x00 x80 xbf x00 x00 x80 xbf)) E))))
(T (W x45 x26 x22 x84 xe4 x9c xf2 xcb)
(T (W x00 x00 x80 x3f x00 x00 x80 x3f)
(T (W x00 x00 x80 x3f x00 x00 x80 x3f)
(T (W x00 x00 x80 x3f x00 x00 x80 x3f)
(L (W x68 x00 x00 x00 x5c x00 x00 x00))
(L (W x45 x26 x22 x84 xe4 x9c xf2 xcb)))
(T (W x45 x26 x22 x84 xe4 x9c xf2 xcb)
(L (W x00 x00 x00 x00 x00 x00 x00 x00)) E))
(T (W x45 x26 x22 x84 xe4 x9c xf2 xcb)
(T (W x4a x00 x00 x00 xff xff xff xff)
(L (W xff xff xff xff xc8 x00 x00 x00)) E)
(T (W x30 x32 x5f x43 x4c x45 x41 x52)
(L (W x00 x00 x80 xbf x00 x00 x80 xbf)) E)))
(T (W x00 x00 x00 x00 x00 x00 x00 x00)
(T (W x00 x00 x00 x00 x00 x00 x00 x00)
(T (W x00 x00 x00 x00 x00 x00 x00 x00)
(L (W xff xff xff xff xff xff xff xff))
(L (W xff xff xff xff xff xff xff xff)))
(T (W x00 x00 x00 x00 x00 x00 x00 x00)
(L (W x00 x00 x00 x00 xec xe0 xfe xff)) E))
(T (W x68 x00 x00 x00 x5c x00 x00 x00)
(T (W xff xff xff xff xff xff xff xff)
(L (W x54 x00 x00 x00 x48 x00 x00 x00)) E)
(T (W x00 x00 x00 x00 x00 x00 x00 x00)
(L (W xff xff xff xff xff xff xff xff)) E)))))
(T (W x45 x26 x22 x84 xe4 x9c xf2 xcb)
(T (W x04 x00 x00 x00 xff xff xff xff)
(T (W xff xff xff xff xff xff xff xff)
(T (W xff xff xff xff xff xff xff xff)
(T (W x00 x00 x01 x01 x9c x01 x00 x00)
(L (W x00 x00 x80 xbf x00 x00 x80 xbf))
(L (W x6c x00 x00 x00 x60 x00 x00 x00)))
(T (W x00 x00 x00 x00 x00 x00 x00 x00)
(L (W x00 x00 x01 x01 x91 x01 x00 x00)) E))
(T (W x6c x00 x00 x00 x60 x00 x00 x00)
(T (W xff xff xff xff xff xff xff xff)
(L (W x54 x00 x00 x00 x48 x00 x00 x00)) E)
(T (W xff xff xff xff xff xff xff xff)
(L (W x00 x00 x00 x00 x00 x00 x00 x00)) E)))
(T (W x00 x00 x00 x00 x00 x00 x00 x00)
(T (W x45 x26 x22 x84 xe4 x9c xf2 xcb)
(T (W x34 x01 x00 x00 x04 x00 x00 x00)
(L (W x18 x00 x00 x00 x0c x00 x00 x00))
(L (W xff xff xff xff xff xff xff xff)))
(T (W xff xff xff xff xff xff xff xff)
(L (W x45 x26 x22 x84 xe4 x9c xf2 xcb)) E))
(T (W x6b x65 x5f x77 x61 x72 x6c x69)
(T (W xff xff xff xff x03 x00 x00 x00)
(L (W x00 x00 x00 x00 x00 x00 x00 x00)) E)
(T (W x31 x6a xca xc9 x03 x8f xa3 xbc)
(L (W xc4 x00 x00 x00 x02 x00 x00 x00)) E))))
(T (W x45 x26 x22 x84 xe4 x9c xf2 xcb)
(T (W x00 x00 x80 x3f x00 x00 x80 x3f)
(T (W x00 x00 x80 x3f x00 x00 x80 x3f)
(T (W x4c x45 x41 x52 x45 x44 x00 x00)
(L (W x00 x00 x00 x00 x00 x00 x00 x00))
(L (W x18 x00 x00 x00 x0c x00 x00 x00)))
(T (W x00 x00 x80 x3f x00 x00 x80 x3f)
(L (W x00 x00 x00 x00 x00 x00 x00 x00)) E))
(T (W xff xff xff xff xff xff xff xff)
(T (W x00 x00 x00 x00 x00 x00 x00 x00)
(L (W xff xff xff xff xff xff xff xff)) E)
(T (W x00 x00 x80 xbf x00 x00 x80 xbf)
(L (W x49 xa1 x68 x4a xeb x5f xdd x3d)) E)))
(T (W x55 x5d x29 xfe xb2 x10 xf2 x48)
(T (W x00 x00 x00 x00 x00 x00 x00 x00)
(T (W x00 x00 x80 x3f x00 x00 x80 x3f)
(L (W x04 x00 xfe xff x14 x00 x00 x00))
(L (W x10 x00 x04 x00 x08 x00 x0c x00)))
(T (W xff xff xff xff xff xff xff xff)
(L (W xff xff xff xff xff xff xff xff)) E))
(T (W x30 x32 x5f x43 x4c x45 x41 x52)
(T (W x45 x26 x22 x84 xe4 x9c xf2 xcb)
(L (W x03 x00 x00 x00 xd8 x00 x00 x00)) E)
(T (W xaa x6d xfd xff x74 x00 x00 x00)
(L (W x00 x00 x00 x00 x00 x00 x00 x00)) E)))))))
(T (W x00 x00 x00 x00 x00 x00 x00 x00)
(T (W xff xff xff xff xff xff xff xff)
(T (W x45 x26 x22 x84 xe4 x9c xf2 xcb)
(T (W x54 x00 x00 x00 x48 x00 x00 x00)
(T (W x00 x00 x00 x00 x00 x00 x00 x00)
(T (W xaa x79 xfa xff x74 x00 x00 x00)
(T (W xff xff xff xff xff xff xff xff)
(L (W xff xff xff xff xff xff xff xff))
(L (W x45 x26 x22 x84 xe4 x9c xf2 xcb)))
(T (W xff xff xff xff xff xff xff xff)
(L (W x4f x84 x6f x8b xe8 xcb x63 xb7)) E))
(T (W x00 x00 x80 x3f x00 x00 x80 x3f)
(T (W x00 x00 x00 x00 x00 x00 x00 x00)
(L (W xff xff xff xff xff xff xff xff))
(L (W x00 x00 x00 x00 xec xfc xff xff)))
(T (W x00 x00 x00 x00 x00 x00 x00 x00)
(L (W x00 x00 x80 xbf x00 x00 x80 xbf)) E)))
(T (W xff xff xff xff xff xff xff xff)
(T (W x70 x00 x00 x00 xff xff xff xff)
(T (W x45 x44 x00 x00 x00 x00 x00 x00)
(L (W xff xff xff xff xff xff xff xff))
(L (W x00 x00 x00 x00 x00 x00 x00 x00)))
(T (W xff xff xff xff xff xff xff xff)
(L (W xff xff xff xff xff xff xff xff)) E))
(T (W x00 x00 x00 x00 xec x3c xfb xff)
(T (W x4a x00 x00 x00 xff xff xff xff)
(L (W x00 x00 x00 x00 xec x3c xfe xff)) E)
(T (W x30 x32 x5f x43 x4c x45 x41 x52)
(L (W x00 x00 x00 x00 x00 x00 x00 x00)) E))))
(T (W x04 xec xf9 xff x3e x00 x00 x00)
(T (W x00 x00 x80 x3f x00 x00 x80 x3f)
(T (W x9c x00 x00 x00 xff xff xff xff)
(T (W xff xff xff xff xff xff xff xff)
(L (W x62 xfb xff xff x00 x00 x01 x01))
(L (W x00 x00 x00 x00 x00 x00 x00 x00)))
(T (W xff xff xff xff x03 x00 x00 x00)
(L (W x6c x00 x00 x00 x60 x00 x00 x00)) E))
(T (W xff xff xff xff xff xff xff xff)
(T (W x00 x00 x80 x3f x00 x00 x80 x3f)
(L (W x00 x00 x00 x00 x00 x00 x00 x00)) E)
(T (W x04 x00 x05 x00 x06 x00 x07 x00)
(L (W xff xff xff xff xff xff xff xff)) E)))
(T (W x68 x00 x00 x00 x5c x00 x00 x00)
(T (W x18 x00 x00 x00 x0c x00 x00 x00)
(T (W xff xff xff xff x03 x00 x00 x00)
(L (W x00 x00 x00 x00 x00 x00 x00 x00))
(L (W x00 x00 x80 xbf x00 x00 x80 xbf)))
(T (W xff xff xff xff xc8 x00 x00 x00)
(L (W x00 x00 x00 x00 x00 x00 x00 x00)) E))
(T (W xa1 x01 x00 x00 xff xff xff xff)
(T (W x00 x00 x80 x3f x00 x00 x80 x3f)
(L (W xff xff xff xff xff xff xff xff)) E)
(T (W xff xff xff xff xff xff xff xff)
(L (W x00 x00 x80 xbf x00 x00 x80 xbf)) E)))))
(T (W x00 x00 x80 x3f x00 x00 x80 x3f)
(T (W x18 x00 x00 x00 x10 x00 x00 x00)
(T (W x3c xb1 x62 x14 x77 xc4 x0a x98)
(T (W x00 x00 x80 x3f x00 x00 x80 x3f)
(T (W x00 x00 x00 x00 x12 x00 x00 x00)
(L (W xff xff xff xff xff xff xff xff))
(L (W xff xff xff xff xff xff xff xff)))
(T (W xb8 x00 x00 x00 xac x00 x00 x00)
(L (W x54 x00 x00 x00 x48 x00 x00 x00)) E))
(T (W x00 x00 x00 x00 x00 x00 x00 x00)
(T (W x45 x26 x22 x84 xe4 x9c xf2 xcb)
(L (W x00 x00 x01 x01 x5c x00 x00 x00)) E)
(T (W xff xff xff xff xff xff xff xff)
(L (W x5a x0b xff xff x78 x00 x00 x00)) E)))
(T (W xff xff xff xff x04 x00 x00 x00)
(T (W xff xff xff xff xff xff xff xff)
(T (W x00 x00 x80 x3f x00 x00 x80 x3f)
(L (W x2f x00 x00 x00 xff xff xff xff))
(L (W x00 x00 x80 xbf x00 x00 x80 xbf)))
(T (W x00 x00 x00 x00 x70 x00 x74 x00)
(L (W x00 x00 x00 x00 x4a xcc xfe xff)) E))
(T (W x00 x00 x80 x3f x00 x00 x80 x3f)
(T (W x00 x00 x00 x00 x00 x00 x00 x00)
(L (W xff xff xff xff xff xff xff xff)) E)
(T (W x00 x00 x80 xbf x00 x00 x80 xbf)
(L (W x00 x00 x00 x00 x00 x00 x00 x00)) E))))
(T (W x40 x00 x00 x00 x10 x00 x00 x00)
(T (W xff xff xff xff xff xff xff xff)
(T (W xff xff xff xff xff xff xff xff)
(T (W x00 x00 x80 x3f x00 x00 x80 x3f)
(L (W xff xff xff xff xff xff xff xff))
(L (W x45 x44 x00 x00 x00 x00 x00 x00)))
(T (W x1c x00 x00 x00 x10 x00 x00 x00)
(L (W x19 x00 x00 x00 x1c x00 x00 x00)) E))
(T (W x00 x00 x00 x00 x00 x00 x00 x00)
(T (W x68 x00 x00 x00 x5c x00 x00 x00)
(L (W x45 x26 x22 x84 xe4 x9c xf2 xcb)) E)
(T (W xff xff xff xff xff xff xff xff)
(L (W xff xff xff xff xff xff xff xff)) E)))
(T (W x50 x00 x00 x00 x44 x00 x00 x00)
(T (W x45 x26 x22 x84 xe4 x9c xf2 xcb)
(T (W xff xff xff xff xff xff xff xff)
(L (W x7c xee xfd xff x00 x01 x01 x01))
(L (W x7c xee xff xff x00 x01 x01 x01)))
(T (W xff xff xff xff x03 x00 x00 x00)
(L (W x00 x00 x80 xbf x00 x00 x80 xbf)) E))
(T (W x00 x00 x80 x3f x00 x00 x80 x3f)
(T (W xc7 x01 x00 x00 xff xff xff xff)
(L (W x00 x00 x00 x00 x00 x00 x00 x00)) E)
(T (W x00 x00 x00 x00 x00 x00 x00 x00)
(L (W x00 x00 x80 xbf x00 x00 x80 xbf)) E))))))
(T (W x45 x26 x22 x84 xe4 x9c xf2 xcb)
(T (W xff xff xff xff xff xff xff xff)
(T (W x00 x00 x00 x00 x00 x00 x00 x00)
(T (W x00 x00 x00 x00 x00 x00 x00 x00)
(T (W x00 x00 x80 x3f x00 x00 x80 x3f)
(T (W x0a x8c xfe xff x00 x00 x01 x01)
(L (W xff xff xff xff xff xff xff xff))
(L (W x17 x00 x00 x00 x1a x00 x00 x00)))
(T (W xff xff xff xff xff xff xff xff)
(L (W x45 x26 x22 x84 xe4 x9c xf2 xcb)) E))
(T (W xff xff xff xff xff xff xff xff)
(T (W x00 x00 x00 x00 x00 x00 x00 x00)
(L (W xff xff xff xff xff xff xff xff)) E)
(T (W x00 x00 x00 x00 x00 x00 x00 x00)
(L (W x00 x00 x80 xbf x00 x00 x80 xbf)) E)))
(T (W xb8 x00 x00 x00 xac x00 x00 x00)
(T (W xff xff xff xff xff xff xff xff)
(T (W x00 x00 x00 x00 x00 x00 x00 x00)
(L (W x00 x00 x00 x00 x6a xca xfd xff))
(L (W x00 x00 x00 x00 x00 x00 x00 x00)))
(T (W x64 x00 x00 x00 x9c x00 x00 x00)
(L (W xff xff xff xff xff xff xff xff)) E))
(T (W x76 x31 x00 x00 x9a xdf xfe xff)
(T (W x00 x00 x00 x00 x00 x00 x00 x00)
(L (W x45 x26 x22 x84 xe4 x9c xf2 xcb)) E)
(T (W x00 x00 x80 xbf x00 x00 x80 xbf)
(L (W x00 x00 x00 x00 x00 x00 x00 x00)) E))))
(T (W x00 x00 x00 x00 x00 x00 x00 x00)
(T (W xff xff xff xff xff xff xff xff)
(T (W xff xff xff xff xff xff xff xff)
(T (W x00 x00 x00 x00 x12 x00 x00 x00)
(L (W x00 x00 x80 xbf x00 x00 x80 xbf))
(L (W xff xff xff xff xff xff xff xff)))
(T (W xff xff xff xff xff xff xff xff)
(L (W xbc x00 x00 x00 x1e x00 x00 x00)) E))
(T (W x00 x00 x00 x00 x00 x00 x00 x00)
(T (W x54 x00 x00 x00 x48 x00 x00 x00)
(L (W x00 x00 x00 x00 x00 x00 x00 x00)) E)
(T (W x18 x00 x00 x00 x0c x00 x00 x00)
(L (W xff xff xff xff xff xff xff xff)) E)))
(T (W x00 x00 x80 x3f x00 x00 x80 x3f)
(T (W xaa xe1 xfa xff x74 x00 x00 x00)
(T (W xff xff xff xff x9c x00 x00 x00)
(L (W x45 x26 x22 x84 xe4 x9c xf2 xcb))
(L (W x5a xe3 xff xff x78 x00 x00 x00)))
(T (W x00 x00 x00 x00 x00 x00 x00 x00)
(L (W x00 x00 x00 x00 x00 x00 x00 x00)) E))
(T (W x00 x00 x00 x00 x00 x00 x00 x00)
(T (W x00 x00 x00 x00 x00 x00 x00 x00)
(L (W xa9 x0c xb9 x28 xbf xcc x67 x6a)) E)
(T (W xff xff xff xff xff xff xff xff)
(L (W x45 x26 x22 x84 xe4 x9c xf2 xcb)) E)))))
(T (W xff xff xff xff xff xff xff xff)
(T (W x00 x00 x00 x00 x00 x00 x00 x00)
(T (W x45 x26 x22 x84 xe4 x9c xf2 xcb)
(T (W x00 x00 x80 x3f x00 x00 x80 x3f)
(T (W x00 x00 x00 x00 xec x94 xfb xff)
(L (W xff xff xff xff xff xff xff xff))
(L (W x6f x00 x00 x00 xff xff xff xff)))
(T (W x50 x00 x00 x00 x44 x00 x00 x00)
(L (W x6c x00 x00 x00 x60 x00 x00 x00)) E))
(T (W x45 x26 x22 x84 xe4 x9c xf2 xcb)
(T (W x00 x00 x80 x3f x00 x00 x80 x3f)
(L (W x46 x53 x59 x53 x5f x4e x53 x5f)) E)
(T (W x70 x00 x00 x00 x64 x00 x00 x00)
(L (W xff xff xff xff xff xff xff xff)) E)))
(T (W x45 x26 x22 x84 xe4 x9c xf2 xcb)
(T (W xff xff xff xff x04 x00 x00 x00)
(T (W x00 x00 x80 x3f x00 x00 x80 x3f)
(L (W x00 x00 x00 x00 x00 x00 x00 x00))
(L (W x00 x00 x80 xbf x00 x00 x80 xbf)))
(T (W x18 x00 x00 x00 x0c x00 x00 x00)
(L (W x00 x00 x00 x00 x00 x00 x00 x00)) E))
(T (W x00 x00 x80 x3f x00 x00 x80 x3f)
(T (W x00 x00 x00 x00 x00 x00 x00 x00)
(L (W xff xff xff xff xff xff xff xff)) E)
(T (W xff xff xff xff xa0 x00 x00 x00)
(L (W x00 x00 x80 xbf x00 x00 x80 xbf)) E))))
(T (W x00 x00 x00 x00 x00 x00 x00 x00)
(T (W xb8 x00 x00 x00 xac x00 x00 x00)
(T (W xff xff xff xff xff xff xff xff)
(T (W xff xff xff xff xff xff xff xff)
(L (W x45 x26 x22 x84 xe4 x9c xf2 xcb))
(L (W x00 x00 x00 x00 x00 x00 x00 x00)))
(T (W xff xff xff xff xff xff xff xff)
(L (W xff xff xff xff xc8 x00 x00 x00)) E))
(T (W x00 x00 x80 x3f x00 x00 x80 x3f)
(T (W x4b x00 x00 x00 xff xff xff xff)
(L (W x00 x00 x80 xbf x00 x00 x80 xbf)) E)
(T (W xff xff xff xff xff xff xff xff)
(L (W xff xff xff xff xff xff xff xff)) E)))
(T (W x68 x00 x00 x00 x5c x00 x00 x00)
(T (W x82 xfa xfd xff x2f x00 x00 x00)
(T (W xff xff xff xff xff xff xff xff)
(L (W xbc x00 x00 x00 x46 x00 x00 x00))
(L (W xff xff xff xff xc8 x00 x00 x00)))
(T (W x00 x00 x80 x3f x00 x00 x80 x3f)
(L (W x00 x00 x80 xbf x00 x00 x80 xbf)) E))
(T (W x45 x26 x22 x84 xe4 x9c xf2 xcb)
(T (W xff xff xff xff xff xff xff xff)
(L (W x00 x00 x00 x00 x00 x00 x00 x00)) E)
(T (W xff xff xff xff xff xff xff xff)
(L (W x5a x73 xff xff x78 x00 x00 x00)) E))))))))
(T (W xff xff xff xff x04 x00 x00 x00)
(T (W x00 x00 x00 x00 x00 x00 x00 x00)
(T (W xff xff xff xff xff xff xff xff)
(T (W x00 x00 x00 x00 x00 x00 x00 x00)
(T (W x00 x00 x80 x3f x00 x00 x80 x3f)
(T (W xff xff xff xff xff xff xff xff)
(T (W x00 x00 x00 x00 x00 x00 x00 x00)
(T (W x50 x00 x00 x00 x44 x00 x00 x00)
(L (W x18 x00 x00 x00 x10 x00 x00 x00))
(L (W x00 x00 x80 xbf x00 x00 x80 xbf)))
(T (W xb8 x00 x00 x00 xac x00 x00 x00)
(L (W x45 x44 x00 x00 x00 x00 x00 x00)) E))
(T (W x65 x5f x73 x6b x79 x00 x00 x00)
(T (W xff xff xff xff xff xff xff xff)
(L (W x5a xf9 xfd xff x78 x00 x00 x00))
(L (W x00 x00 x01 x01 x5c x00 x00 x00)))
(T (W xff xff xff xff xff xff xff xff)
(L (W x00 x00 x00 x00 x00 x00 x00 x00)) E)))
(T (W x5a x39 xfa xff x78 x00 x00 x00)
(T (W x01 x00 x00 x00 xa0 x00 x00 x00)
(T (W xb0 x00 x00 x00 x64 x00 x00 x00)
(L (W x18 x00 x00 x00 x10 x00 x00 x00))
(L (W xff xff xff xff xff xff xff xff)))
(T (W x18 x00 x00 x00 x0c x00 x00 x00)
(L (W x7c xbc xfe xff x00 x01 x01 x01)) E))
(T (W x00 x00 x00 x00 x00 x00 x00 x00)
(T (W xff xff xff xff xff xff xff xff)
(L (W x00 x00 x00 x00 x00 x00 x00 x00)) E)
(T (W xff xff xff xff xff xff xff xff)
(L (W x45 x26 x22 x84 xe4 x9c xf2 xcb)) E))))
(T (W xff xff xff xff x04 x00 x00 x00)
(T (W x00 x00 x00 x00 x00 x00 x00 x00)
(T (W xff xff xff xff xff xff xff xff)
(T (W x00 x00 x80 x3f x00 x00 x80 x3f)
(L (W x03 x00 x00 x00 xcc x00 x00 x00))
(L (W xff xff xff xff xff xff xff xff)))
(T (W x00 x00 x00 x00 x00 x00 x00 x00)
(L (W x49 xa1 x68 x4a xeb x5f xdd x3d)) E))
(T (W x5a x19 xfb xff x78 x00 x00 x00)
(T (W x00 x00 x00 x00 x00 x00 x00 x00)
(L (W xff xff xff xff xff xff xff xff)) E)
(T (W x05 x00 x06 x00 x00 x00 x00 x00)
(L (W x6c x00 x00 x00 x60 x00 x00 x00)) E)))
(T (W x00 x00 x80 x3f x00 x00 x80 x3f)
(T (W x00 x00 x80 x3f x00 x00 x80 x3f)
(T (W x00 x00 x80 x3f x00 x00 x80 x3f)
(L (W xff xff xff xff xff xff xff xff))
(L (W x00 x00 x00 x00 x00 x00 x00 x00)))
(T (W x00 x00 x80 x3f x00 x00 x80 x3f)
(L (W xff xff xff xff xff xff xff xff)) E))
(T (W x54 x00 x00 x00 x48 x00 x00 x00)
(T (W xff xff xff xff xff xff xff xff)
(L (W x18 x00 x00 x00 x10 x00 x00 x00)) E)
(T (W x00 x00 x80 xbf x00 x00 x80 xbf)
(L (W x00 x00 x00 x00 x00 x00 x00 x00)) E)))))
(T (W x00 x00 x00 x00 x00 x00 x00 x00)
(T (W x54 x00 x00 x00 x48 x00 x00 x00)
(T (W xb8 x00 x00 x00 xac x00 x00 x00)
(T (W x00 x00 x00 x00 x00 x00 x00 x00)
(T (W xa4 x01 x00 x00 xff xff xff xff)
(L (W xaa x87 xfd xff x74 x00 x00 x00))
(L (W x6c x00 x00 x00 x60 x00 x00 x00)))
(T (W x00 x00 x80 x3f x00 x00 x80 x3f)
(L (W x46 x53 x59 x53 x5f x4e x53 x5f)) E))
(T (W xff xff xff xff x9c x00 x00 x00)
(T (W x34 x01 x00 x00 x04 x00 x00 x00)
(L (W x03 x00 x00 x00 xd8 x00 x00 x00)) E)
(T (W x00 x00 x80 xbf x00 x00 x80 xbf)
(L (W x00 x00 x80 xbf x00 x00 x80 xbf)) E)))
(T (W x00 x00 x80 x3f x00 x00 x80 x3f)
(T (W x00 x00 x80 x3f x00 x00 x80 x3f)
(T (W x00 x00 x00 x00 x8a xc8 xfb xff)
(L (W xff xff xff xff xc0 x00 x00 x00))
(L (W x46 x53 x59 x53 x5f x4e x53 x5f)))
(T (W x54 x00 x58 x00 x5c x00 x00 x00)
(L (W xff xff xff xff xff xff xff xff)) E))
(T (W x00 x00 x00 x00 x00 x00 x00 x00)
(T (W xff xff xff xff xff xff xff xff)
(L (W x00 x00 x80 xbf x00 x00 x80 xbf)) E)
(T (W x00 x00 x00 x00 x00 x00 x00 x00)
(L (W xff xff xff xff xff xff xff xff)) E))))
(T (W xff xff xff xff xff xff xff xff)
(T (W x00 x00 x80 x3f x00 x00 x80 x3f)
(T (W xff xff xff xff xff xff xff xff)
(T (W x00 x00 x00 x00 x00 x00 x00 x00)
(L (W xb0 x00 x00 x00 x64 x00 x00 x00))
(L (W xff xff xff xff xff xff xff xff)))
(T (W xff xff xff xff xff xff xff xff)
(L (W x49 xa1 x68 x4a xeb x5f xdd x3d)) E))
(T (W xff xff xff xff xff xff xff xff)
(T (W x45 x26 x22 x84 xe4 x9c xf2 xcb)
(L (W x00 x00 x00 x00 x6a x30 xfe xff)) E)
(T (W x00 x00 x00 x00 xec x2a xfd xff)
(L (W x00 x00 x80 xbf x00 x00 x80 xbf)) E)))
(T (W x00 x00 x80 x3f x00 x00 x80 x3f)
(T (W x50 x00 x00 x00 x44 x00 x00 x00)
(T (W x7c xec xfb xff x00 x01 x01 x01)
(L (W x00 x00 x80 xbf x00 x00 x80 xbf))
(L (W x00 x00 x00 x00 x00 x00 x00 x00)))
(T (W x7c xec xfc xff x00 x01 x01 x01)
(L (W x0a x00 x00 x00 x70 x0a x00 x00)) E))
(T (W x00 x00 x00 x00 x00 x00 x00 x00)
(T (W xff xff xff xff x03 x00 x00 x00)
(L (W xff xff xff xff xff xff xff xff)) E)
(T (W xff xff xff xff xff xff xff xff)
(L (W x00 x00 x00 x00 x00 x00 x00 x00)) E))))))
(T (W x00 x00 x80 x3f x00 x00 x80 x3f)
(T (W x45 x26 x22 x84 xe4 x9c xf2 xcb)
(T (W xff xff xff xff xff xff xff xff)
(T (W xff xff xff xff xff xff xff xff)
(T (W x00 x00 x00 x00 x00 x00 x00 x00)
(T (W xff xff xff xff xff xff xff xff)
(L (W xc0 x28 x00 x00 xac x27 x00 x00))
(L (W x00 x00 x80 xbf x00 x00 x80 xbf)))
(T (W x50 x00 x00 x00 x44 x00 x00 x00)
(L (W x00 x00 x00 x00 x00 x00 x00 x00)) E))
(T (W x00 x00 x80 x3f x00 x00 x80 x3f)
(T (W xff xff xff xff xff xff xff xff)
(L (W x1b x00 x00 x00 x1e x00 x00 x00))
(L (W xff xff xff xff xff xff xff xff)))
(T (W xff xff xff xff xff xff xff xff)
(L (W x00 x00 x00 x00 x00 x00 x00 x00)) E)))
(T (W x00 x00 x80 x3f x00 x00 x80 x3f)
(T (W xaa xbf xfa xff x74 x00 x00 x00)
(T (W x04 x00 x00 x00 x9a x5d xff xff)
(L (W xff xff xff xff xff xff xff xff))
(L (W xff xff xff xff xff xff xff xff)))
(T (W x00 x00 x80 x3f x00 x00 x80 x3f)
(L (W x00 x00 x00 x00 xec xc2 xfe xff)) E))
(T (W x1e x00 x00 x00 xb0 x00 x00 x00)
(T (W xff xff xff xff xff xff xff xff)
(L (W x00 x00 x80 xbf x00 x00 x80 xbf)) E)
(T (W x94 x04 x00 x00 x80 x03 x00 x00)
(L (W xff xff xff xff xff xff xff xff)) E))))
(T (W xff xff xff xff xff xff xff xff)
(T (W x68 x00 x00 x00 x5c x00 x00 x00)
(T (W xff xff xff xff xff xff xff xff)
(T (W xff xff xff xff xff xff xff xff)
(L (W x46 x53 x59 x53 x5f x4e x53 x5f))
(L (W x46 x53 x59 x53 x5f x4e x53 x5f)))
(T (W xb8 x00 x00 x00 xac x00 x00 x00)
(L (W x45 x26 x22 x84 xe4 x9c xf2 xcb)) E))
(T (W xb8 x00 x00 x00 x14 x00 x00 x00)
(T (W x49 xa1 x68 x4a xeb x5f xdd x3d)
(L (W x00 x00 x00 x00 xda x26 xfe xff)) E)
(T (W x00 x00 x80 xbf x00 x00 x80 xbf)
(L (W x7c x24 xff xff x00 x01 x01 x01)) E)))
(T (W x00 x00 x80 x3f x00 x00 x80 x3f)
(T (W x00 x00 x80 x3f x00 x00 x80 x3f)
(T (W x00 x00 x80 x3f x00 x00 x80 x3f)
(L (W x00 x00 x00 x00 x6a xe8 xfd xff))
(L (W x00 x00 x00 x00 x00 x00 x00 x00)))
(T (W xff xff xff xff xff xff xff xff)
(L (W x00 x00 x00 x00 x00 x00 x00 x00)) E))
(T (W xff xff xff xff xff xff xff xff)
(T (W xac x68 xfc xff x15 x00 x00 x00)
(L (W xcc x00 x00 x00 x02 x00 x00 x00)) E)
(T (W x18 x00 x00 x00 x10 x00 x00 x00)
(L (W x00 x00 x00 x00 x00 x00 x00 x00)) E)))))
(T (W xff xff xff xff xff xff xff xff)
(T (W x00 x00 x00 x00 x00 x00 x00 x00)
(T (W x69 x6b x65 x5f x6c x76 x32 x00)
(T (W x6e xea x4c x70 xaf xb6 x89 x4e)
(T (W x00 x00 x00 x00 x00 x00 x00 x00)
(L (W x18 x00 x00 x00 x0c x00 x00 x00))
(L (W xff xff xff xff xc0 x00 x00 x00)))
(T (W x45 x26 x22 x84 xe4 x9c xf2 xcb)
(L (W x00 x00 x00 x00 x00 x00 x00 x00)) E))
(T (W x34 x01 x00 x00 x04 x00 x00 x00)
(T (W x00 x00 x00 x00 x12 x00 x00 x00)
(L (W xb0 x00 x00 x00 x64 x00 x00 x00)) E)
(T (W x00 x00 x00 x00 x00 x00 x00 x00)
(L (W x6c x00 x00 x00 x60 x00 x00 x00)) E)))
(T (W x45 x26 x22 x84 xe4 x9c xf2 xcb)
(T (W x00 x00 x80 x3f x00 x00 x80 x3f)
(T (W x45 x26 x22 x84 xe4 x9c xf2 xcb)
(L (W xff xff xff xff xff xff xff xff))
(L (W x18 x00 x00 x00 x0c x00 x00 x00)))
(T (W x00 x00 x00 x00 x00 x00 x00 x00)
(L (W xff xff xff xff xff xff xff xff)) E))
(T (W x45 x26 x22 x84 xe4 x9c xf2 xcb)
(T (W x4a x00 x00 x00 xff xff xff xff)
(L (W x00 x00 x80 xbf x00 x00 x80 xbf)) E)
(T (W x45 x26 x22 x84 xe4 x9c xf2 xcb)
(L (W xe4 x06 x00 x00 xc8 x05 x00 x00)) E))))
(T (W x01 x00 x00 x00 xff xff xff xff)
(T (W x50 x00 x00 x00 x44 x00 x00 x00)
(T (W x18 x00 x00 x00 x10 x00 x00 x00)
(T (W x00 x00 x80 x3f x00 x00 x80 x3f)
(L (W x00 x00 x00 x00 x00 x00 x00 x00))
(L (W xff xff xff xff xff xff xff xff)))
(T (W x64 x00 x00 x00 x9c x00 x00 x00)
(L (W x00 x00 x80 xbf x00 x00 x80 xbf)) E))
(T (W x45 x44 x00 x00 x00 x00 x00 x00)
(T (W x54 x00 x00 x00 x48 x00 x00 x00)
(L (W x00 x00 x00 x00 x12 x00 x00 x00)) E)
(T (W x18 x00 x00 x00 x0c x00 x00 x00)
(L (W x74 x00 x00 x00 x68 x00 x00 x00)) E)))
(T (W x00 x00 x00 x00 x00 x00 x00 x00)
(T (W x64 x00 x00 x00 x9c x00 x00 x00)
(T (W x00 x00 x00 x00 xec xf2 xfb xff)
(L (W x00 x00 x80 xbf x00 x00 x80 xbf))
(L (W x54 x00 x00 x00 x48 x00 x00 x00)))
(T (W x82 xf8 xff xff xac x01 x00 x00)
(L (W x00 x00 x00 x00 x12 x00 x00 x00)) E))
(T (W x00 x00 x80 x3f x00 x00 x80 x3f)
(T (W x68 x00 x00 x00 x5c x00 x00 x00)
(L (W x00 x00 x01 x01 x91 x01 x00 x00)) E)
(T (W x00 x00 x80 xbf x00 x00 x80 xbf)
(L (W x45 x26 x22 x84 xe4 x9c xf2 xcb)) E)))))))
(T (W x00 x00 x80 x3f x00 x00 x80 x3f)
(T (W x00 x00 x00 x00 x00 x00 x00 x00)
(T (W x00 x00 x80 x3f x00 x00 x80 x3f)
(T (W x18 x00 x00 x00 x0c x00 x00 x00)
(T (W x00 x00 x80 x3f x00 x00 x80 x3f)
(T (W x01 x00 x00 x00 x9c x00 x00 x00)
(T (W x00 x00 x00 x00 x00 x00 x00 x00)
(L (W x00 x00 x00 x00 x00 x00 x00 x00))
(L (W x00 x00 x01 x01 x2a x00 x00 x00)))
(T (W x00 x00 x00 x00 x00 x00 x00 x00)
(L (W xff xff xff xff xb0 x00 x00 x00)) E))
(T (W xff xff xff xff xff xff xff xff)
(T (W x00 x00 x00 x00 x00 x00 x00 x00)
(L (W x00 x00 x01 x01 x24 x02 x00 x00))
(L (W x00 x00 x00 x00 x00 x00 x00 x00)))
(T (W xff xff xff xff xff xff xff xff)
(L (W xaa xfb xfe xff x74 x00 x00 x00)) E)))
(T (W x12 x50 xfd xff x00 x00 x01 x01)
(T (W x00 x00 x00 x00 x00 x00 x00 x00)
(T (W x00 x00 x80 x3f x00 x00 x80 x3f)
(L (W xff xff xff xff xff xff xff xff))
(L (W x00 x00 x80 xbf x00 x00 x80 xbf)))
(T (W x16 x00 x00 x00 x10 x00 x00 x00)
(L (W x1a x00 x00 x00 x0c x00 x00 x00)) E))
(T (W xff xff xff xff xff xff xff xff)
(T (W x49 xa1 x68 x4a xeb x5f xdd x3d)
(L (W xff xff xff xff xff xff xff xff)) E)
(T (W x00 x00 x80 xbf x00 x00 x80 xbf)
(L (W x00 x00 x00 x00 x00 x00 x00 x00)) E))))
(T (W x45 x26 x22 x84 xe4 x9c xf2 xcb)
(T (W xff xff xff xff xff xff xff xff)
(T (W x00 x00 x00 x00 x00 x00 x00 x00)
(T (W x00 x00 x00 x00 x00 x00 x00 x00)
(L (W x00 x00 x00 x00 x00 x00 x00 x00))
(L (W x00 x00 x80 xbf x00 x00 x80 xbf)))
(T (W x64 x5f x6c x76 x31 x00 x00 x00)
(L (W xff xff xff xff xff xff xff xff)) E))
(T (W x00 x00 x00 x00 x00 x00 x00 x00)
(T (W xff xff xff xff xff xff xff xff)
(L (W x54 x00 x00 x00 x48 x00 x00 x00)) E)
(T (W xc7 x01 x00 x00 xff xff xff xff)
(L (W x00 x00 x00 x00 x8a x1c xff xff)) E)))
(T (W xff xff xff xff xff xff xff xff)
(T (W x1c x01 x00 x00 x04 x00 x00 x00)
(T (W x4a x00 x00 x00 xff xff xff xff)
(L (W x00 x00 x80 xbf x00 x00 x80 xbf))
(L (W xff xff xff xff xb0 x00 x00 x00)))
(T (W x00 x00 x00 x00 xda xe2 xfc xff)
(L (W x00 x00 x80 xbf x00 x00 x80 xbf)) E))
(T (W x00 x00 x00 x00 x00 x00 x00 x00)
(T (W x7c x60 xfc xff x00 x01 x01 x01)
(L (W x4f x84 x6f x8b xe8 xcb x63 xb7)) E)
(T (W x00 x00 x00 x00 x00 x00 x00 x00)
(L (W x18 x00 x00 x00 x0c x00 x00 x00)) E)))))
(T (W x00 x00 x80 x3f x00 x00 x80 x3f)
(T (W xff xff xff xff xff xff xff xff)
(T (W x00 x00 x80 x3f x00 x00 x80 x3f)
(T (W xc0 x00 x00 x00 xb4 x00 x00 x00)
(T (W x18 x00 x00 x00 x0c x00 x00 x00)
(L (W x4c x45 x41 x52 x45 x44 x00 x00))
(L (W x00 x00 x00 x00 x00 x00 x00 x00)))
(T (W xff xff xff xff xff xff xff xff)
(L (W x03 x00 x00 x00 xd8 x00 x00 x00)) E))
(T (W x00 x00 x00 x00 x00 x00 x00 x00)
(T (W x00 x00 x80 x3f x00 x00 x80 x3f)
(L (W x00 x00 x00 x00 x00 x00 x00 x00)) E)
(T (W x00 x00 x00 x00 x00 x00 x00 x00)
(L (W xff xff xff xff xff xff xff xff)) E)))
(T (W x20 x01 x00 x00 x04 x00 x00 x00)
(T (W x3e x00 x00 x00 x10 x00 x00 x00)
(T (W x18 x00 x00 x00 x0c x00 x00 x00)
(L (W x00 x00 x00 x00 x00 x00 x00 x00))
(L (W x5a xcd xff xff x78 x00 x00 x00)))
(T (W x18 x00 x00 x00 x10 x00 x00 x00)
(L (W x00 x00 x00 x00 x00 x00 x00 x00)) E))
(T (W xd4 x00 x00 x00 xc8 x00 x00 x00)
(T (W x00 x00 x80 x3f x00 x00 x80 x3f)
(L (W x00 x00 x00 x00 x00 x00 x00 x00)) E)
(T (W x44 x00 x04 x00 x08 x00 x0c x00)
(L (W x00 x00 x80 xbf x00 x00 x80 xbf)) E))))
(T (W x00 x00 x80 x3f x00 x00 x80 x3f)
(T (W x00 x00 x00 x00 x00 x00 x00 x00)
(T (W x00 x00 x00 x00 x00 x00 x00 x00)
(T (W xff xff xff xff xff xff xff xff)
(L (W xff xff xff xff xff xff xff xff))
(L (W x00 x00 x00 x00 x00 x00 x00 x00)))
(T (W x00 x00 x00 x00 x00 x00 x00 x00)
(L (W xff xff xff xff xff xff xff xff)) E))
(T (W xaa x2b xfb xff x74 x00 x00 x00)
(T (W x00 x00 x00 x00 x00 x00 x00 x00)
(L (W xbc x00 x00 x00 x1e x00 x00 x00)) E)
(T (W x00 x00 x00 x00 x00 x00 x00 x00)
(L (W x30 x32 x5f x43 x4c x45 x41 x52)) E)))
(T (W xb8 x00 x00 x00 xac x00 x00 x00)
(T (W xff xff xff xff xff xff xff xff)
(T (W x16 x00 x00 x00 x10 x00 x00 x00)
(L (W xff xff xff xff xff xff xff xff))
(L (W xff xff xff xff xff xff xff xff)))
(T (W x14 x00 x18 x00 x06 x00 x07 x00)
(L (W xff xff xff xff xa0 x00 x00 x00)) E))
(T (W x00 x00 x00 x00 xec x6e xfb xff)
(T (W x00 x00 x00 x00 x00 x00 x00 x00)
(L (W x54 x00 x00 x00 x48 x00 x00 x00)) E)
(T (W x00 x00 x00 x00 x00 x00 x00 x00)
(L (W xff xff xff xff xff xff xff xff)) E))))))
(T (W xff xff xff xff xff xff xff xff)
(T (W xff xff xff xff xff xff xff xff)
(T (W x00 x00 x00 x00 x00 x00 x00 x00)
(T (W x45 x26 x22 x84 xe4 x9c xf2 xcb)
(T (W x0a x00 x00 x00 x3e x00 x00 x00)
(T (W x00 x00 x00 x00 x00 x00 x00 x00)
(L (W x00 x00 x00 x00 x00 x00 x00 x00))
(L (W x30 x32 x5f x43 x4c x45 x41 x52)))
(T (W x92 x96 xff xff x84 x01 x00 x00)
(L (W xff xff xff xff xa0 x00 x00 x00)) E))
(T (W x00 x00 x00 x00 x00 x00 x00 x00)
(T (W x00 x00 x80 x3f x00 x00 x80 x3f)
(L (W x46 x53 x59 x53 x5f x4e x53 x5f)) E)
(T (W xb0 x00 x00 x00 x64 x00 x00 x00)
(L (W xc4 x00 x00 x00 x02 x00 x00 x00)) E)))
(T (W x00 x00 x00 x00 x00 x00 x00 x00)
(T (W x00 x00 x00 x00 x00 x00 x00 x00)
(T (W x18 x00 x00 x00 x10 x00 x00 x00)
(L (W x45 x26 x22 x84 xe4 x9c xf2 xcb))
(L (W x54 x00 x00 x00 x48 x00 x00 x00)))
(T (W x00 x00 x00 x00 x00 x00 x00 x00)
(L (W x46 x53 x59 x53 x5f x4e x53 x5f)) E))
(T (W x00 x00 x00 x00 x00 x00 x00 x00)
(T (W x45 x26 x22 x84 xe4 x9c xf2 xcb)
(L (W xff xff xff xff xff xff xff xff)) E)
(T (W x6c x00 x00 x00 x60 x00 x00 x00)
(L (W x00 x00 x80 xbf x00 x00 x80 xbf)) E))))
(T (W x00 x00 x80 x3f x00 x00 x80 x3f)
(T (W x00 x00 x00 x00 x00 x00 x00 x00)
(T (W x00 x00 x00 x00 x00 x00 x00 x00)
(T (W xaa xa3 xfb xff x74 x00 x00 x00)
(L (W x00 x00 x80 xbf x00 x00 x80 xbf))
(L (W xff xff xff xff xff xff xff xff)))
(T (W x00 x00 x00 x00 x00 x00 x00 x00)
(L (W xff xff xff xff xff xff xff xff)) E))
(T (W x00 x00 x00 x00 x00 x00 x00 x00)
(T (W xff xff xff xff xff xff xff xff)
(L (W x7c x28 xfe xff x00 x01 x01 x01)) E)
(T (W xff xff xff xff xff xff xff xff)
(L (W x00 x00 x01 x01 x2f x00 x00 x00)) E)))
(T (W xff xff xff xff xff xff xff xff)
(T (W xff xff xff xff xff xff xff xff)
(T (W x00 x00 x00 x00 x00 x00 x00 x00)
(L (W x00 x00 x80 xbf x00 x00 x80 xbf))
(L (W xff xff xff xff xff xff xff xff)))
(T (W xff xff xff xff xff xff xff xff)
(L (W x54 x00 x00 x00 x48 x00 x00 x00)) E))
(T (W x00 x00 x80 x3f x00 x00 x80 x3f)
(T (W x1c x00 x20 x00 x24 x00 x28 x00)
(L (W x00 x00 x80 xbf x00 x00 x80 xbf)) E)
(T (W x00 x00 x00 x00 x12 x00 x00 x00)
(L (W xff xff xff xff xc8 x00 x00 x00)) E)))))
(T (W x00 x00 x00 x00 x00 x00 x00 x00)
(T (W x00 x00 x80 x3f x00 x00 x80 x3f)
(T (W x18 x00 x00 x00 x0c x00 x00 x00)
(T (W xff xff xff xff xff xff xff xff)
(T (W xff xff xff xff xff xff xff xff)
(L (W x00 x00 x00 x00 x00 x00 x00 x00))
(L (W x00 x00 x80 xbf x00 x00 x80 xbf)))
(T (W xff xff xff xff xff xff xff xff)
(L (W xff xff xff xff xbc x00 x00 x00)) E))
(T (W xff xff xff xff x01 x00 x00 x00)
(T (W x54 x00 x00 x00 x48 x00 x00 x00)
(L (W x00 x00 x80 xbf x00 x00 x80 xbf)) E)
(T (W x05 x00 x06 x00 x00 x00 x00 x00)
(L (W x00 x00 x00 x00 x6a x1c xff xff)) E)))
(T (W xff xff xff xff xff xff xff xff)
(T (W x00 x00 x00 x00 xba xe4 xff xff)
(T (W xff xff xff xff x9c x00 x00 x00)
(L (W x00 x00 x80 xbf x00 x00 x80 xbf))
(L (W x45 x26 x22 x84 xe4 x9c xf2 xcb)))
(T (W xff xff xff xff xff xff xff xff)
(L (W x00 x00 x80 xbf x00 x00 x80 xbf)) E))
(T (W x00 x00 x00 x00 xda x5a xfb xff)
(T (W x00 x00 x00 x00 xec x56 xfc xff)
(L (W x00 x00 x00 x00 x00 x00 x00 x00)) E)
(T (W xff xff xff xff xff xff xff xff)
(L (W x5a x55 xff xff x78 x00 x00 x00)) E))))
(T (W x45 x26 x22 x84 xe4 x9c xf2 xcb)
(T (W xff xff xff xff xff xff xff xff)
(T (W x00 x00 x00 x00 x00 x00 x00 x00)
(T (W x13 x00 x00 x00 x10 x00 x00 x00)
(L (W x00 x00 x80 xbf x00 x00 x80 xbf))
(L (W x45 x26 x22 x84 xe4 x9c xf2 xcb)))
(T (W x00 x00 x00 x00 x00 x00 x00 x00)
(L (W x00 x00 x00 x00 xda xba xfe xff)) E))
(T (W xff xff xff xff xff xff xff xff)
(T (W x00 x00 x00 x00 x00 x00 x00 x00)
(L (W xff xff xff xff xff xff xff xff)) E)
(T (W x00 x00 x00 x00 x00 x00 x00 x00)
(L (W x00 x00 x00 x00 x00 x00 x00 x00)) E)))
(T (W x45 x26 x22 x84 xe4 x9c xf2 xcb)
(T (W x00 x00 x00 x00 x00 x00 x00 x00)
(T (W x4f x84 x6f x8b xe8 xcb x63 xb7)
(L (W x2f x00 x00 x00 xff xff xff xff))
(L (W x00 x00 x00 x00 xda xfa xff xff)))
(T (W xaa xf3 xfc xff x74 x00 x00 x00)
(L (W xff xff xff xff xff xff xff xff)) E))
(T (W x00 x00 x00 x00 x04 x00 x00 x00)
(T (W x00 x00 x00 x00 x00 x00 x00 x00)
(L (W x18 x00 x00 x00 x10 x00 x00 x00)) E)
(T (W x00 x00 x00 x00 x00 x00 x00 x00)
(L (W xff xff xff xff xff xff xff xff)) E))))))))))
(T (W x48 xd0 x03 x00 x5c xc9 x03 x00)
(T (W x88 x24 x03 x00 x0c x22 x03 x00)
(T (W xe8 x45 x01 x00 xb4 x44 x01 x00)
(T (W x00 x00 x80 x3f x00 x00 x80 x3f)
(T (W x00 x00 x00 x00 x00 x00 x00 x00)
(T (W x00 x00 x80 x3f x00 x00 x80 x3f)
(T (W x01 x00 x00 x00 xa0 x00 x00 x00)
(T (W x00 x00 x00 x00 x00 x00 x00 x00)
(T (W x00 x00 x80 x3f x00 x00 x80 x3f)
(T (W xff xff xff xff xff xff xff xff)
(L (W xff xff xff xff xff xff xff xff))
(L (W x18 x00 x00 x00 x0c x00 x00 x00)))
(T (W xff xff xff xff xff xff xff xff)
(L (W x4f x84 x6f x8b xe8 xcb x63 xb7)) E))
(T (W xff xff xff xff xff xff xff xff)
(T (W xff xff xff xff xff xff xff xff)
(L (W x45 x26 x22 x84 xe4 x9c xf2 xcb))
(L (W x18 x00 x00 x00 x0c x00 x00 x00)))
(T (W x00 x00 x00 x00 x00 x00 x00 x00)
(L (W x00 x00 x80 xbf x00 x00 x80 xbf)) E)))
(T (W x18 x00 x00 x00 x0c x00 x00 x00)
(T (W xff xff xff xff xff xff xff xff)
(T (W xff xff xff xff xff xff xff xff)
(L (W x92 xf8 xff xff xc9 x00 x00 x00))
(L (W x45 x44 x00 x00 x00 x00 x00 x00)))
(T (W xff xff xff xff xff xff xff xff)
(L (W xff xff xff xff xb0 x00 x00 x00)) E))
(T (W x00 x00 x80 x3f x00 x00 x80 x3f)
(T (W xff xff xff xff xff xff xff xff)
(L (W x00 x00 x80 xbf x00 x00 x80 xbf)) E)
(T (W xff xff xff xff xff xff xff xff)
(L (W xff xff xff xff xff xff xff xff)) E))))
(T (W xc9 x00 x00 x00 xff xff xff xff)
(T (W x00 x00 x00 x00 x00 x00 x00 x00)
(T (W xc4 x00 x00 x00 xb8 x00 x00 x00)
(T (W x45 x26 x22 x84 xe4 x9c xf2 xcb)
(L (W xff xff xff xff xff xff xff xff))
(L (W x00 x00 x00 x00 x00 x00 x00 x00)))
(T (W x00 x00 x80 x3f x00 x00 x80 x3f)
(L (W x6c x00 x00 x00 x60 x00 x00 x00)) E))
(T (W x45 x26 x22 x84 xe4 x9c xf2 xcb)
(T (W x00 x00 x00 x00 x00 x00 x00 x00)
(L (W x00 x00 x00 x00 x00 x00 x00 x00)) E)
(T (W x00 x00 x01 x01 x5f x00 x00 x00)
(L (W xbc x00 x00 x00 x28 x00 x00 x00)) E)))
(T (W x1f x00 x00 x00 x9c x00 x00 x00)
(T (W xff xff xff xff xff xff xff xff)
(T (W xfc xd9 xfb xff x00 x01 x01 x01)
(L (W x00 x00 x00 x00 x00 x00 x00 x00))
(L (W x00 x00 x00 x00 x00 x00 x00 x00)))
(T (W x00 x00 x00 x00 x6c xd8 xfc xff)
(L (W x00 x00 x00 x00 x00 x00 x00 x00)) E))
(T (W xff xff xff xff x03 x00 x00 x00)
(T (W x00 x00 x00 x00 x00 x00 x00 x00)
(L (W xff xff xff xff xff xff xff xff)) E)
(T (W xff xff xff xff xb0 x00 x00 x00)
(L (W x00 x00 x00 x00 x00 x00 x00 x00)) E)))))
(T (W x54 x00 x00 x00 x48 x00 x00 x00)
(T (W xff xff xff xff xff xff xff xff)
(T (W x00 x00 x00 x00 x00 x00 x00 x00)
(T (W x45 x26 x22 x84 xe4 x9c xf2 xcb)
(T (W x00 x00 x00 x00 x00 x00 x00 x00)
(L (W x03 x00 x00 x00 xcc x00 x00 x00))
(L (W xff xff xff xff xff xff xff xff)))
(T (W xb8 x00 x00 x00 xac x00 x00 x00)
(L (W x00 x00 x80 xbf x00 x00 x80 xbf)) E))
(T (W xff xff xff xff xff xff xff xff)
(T (W x2c x0e xfc xff x21 x00 x00 x00)
(L (W xff xff xff xff xff xff xff xff)) E)
(T (W x00 x00 x80 xbf x00 x00 x80 xbf)
(L (W x00 x00 x80 xbf x00 x00 x80 xbf)) E)))
(T (W x45 x26 x22 x84 xe4 x9c xf2 xcb)
(T (W xff xff xff xff x03 x00 x00 x00)
(T (W x00 x00 x00 x00 x00 x00 x00 x00)
(L (W x84 x01 x00 x00 xff xff xff xff))
(L (W x00 x00 x00 x00 x12 x00 x00 x00)))
(T (W x00 x00 x00 x00 x00 x00 x00 x00)
(L (W xff xff xff xff xff xff xff xff)) E))
(T (W x00 x00 x00 x00 x0a x46 xfb xff)
(T (W x30 x32 x5f x43 x4c x45 x41 x52)
(L (W x6c x00 x00 x00 x60 x00 x00 x00)) E)
(T (W x00 x00 x00 x00 x00 x00 x00 x00)
(L (W x45 x44 x00 x00 x00 x00 x00 x00)) E))))
(T (W x84 xf7 xf9 xff x25 x00 x00 x00)
(T (W xff xff xff xff xff xff xff xff)
(T (W xd1 x01 x00 x00 xff xff xff xff)
(T (W x00 x00 x00 x00 x00 x00 x00 x00)
(L (W x00 x00 x00 x00 x00 x00 x00 x00))
(L (W xff xff xff xff xff xff xff xff)))
(T (W xff xff xff xff xff xff xff xff)
(L (W xda xa6 xfe xff x78 x00 x00 x00)) E))
(T (W x34 x01 x00 x00 x04 x00 x00 x00)
(T (W x00 x00 x00 x00 x6c x28 xfc xff)
(L (W x45 x26 x22 x84 xe4 x9c xf2 xcb)) E)
(T (W x45 x26 x22 x84 xe4 x9c xf2 xcb)
(L (W x18 x00 x00 x00 x1b x00 x00 x00)) E)))
(T (W x6c x00 x00 x00 x60 x00 x00 x00)
(T (W x18 x00 x00 x00 x0c x00 x00 x00)
(T (W x01 x00 x00 x00 xb0 x00 x00 x00)
(L (W x6c x00 x00 x00 x60 x00 x00 x00))
(L (W x00 x00 x80 xbf x00 x00 x80 xbf)))
(T (W xc8 x00 x00 x00 xbc x00 x00 x00)
(L (W x00 x00 x00 x00 x00 x00 x00 x00)) E))
(T (W x00 x00 x00 x00 x00 x00 x00 x00)
(T (W xc0 x02 x00 x00 xff xff xff xff)
(L (W x00 x00 x00 x00 x00 x00 x00 x00)) E)
(T (W xff xff xff xff xff xff xff xff)
(L (W x00 x00 x80 xbf x00 x00 x80 xbf)) E))))))
(T (W xff xff xff xff x04 x00 x00 x00)
(T (W xff xff xff xff xff xff xff xff)
(T (W x00 x00 x00 x00 x00 x00 x00 x00)
(T (W x00 x00 x00 x00 x00 x00 x00 x00)
(T (W x00 x00 x00 x00 x00 x00 x00 x00)
(T (W x74 x03 x00 x00 x4c x02 x00 x00)
(L (W xff xff xff xff xff xff xff xff))
(L (W x17 x00 x00 x00 x1a x00 x00 x00)))
(T (W xff xff xff xff xff xff xff xff)
(L (W x00 x00 x80 xbf x00 x00 x80 xbf)) E))
(T (W x50 x00 x00 x00 x44 x00 x00 x00)
(T (W x45 x44 x00 x00 x00 x00 x00 x00)
(L (W x21 x00 x00 x00 x24 x00 x00 x00))
(L (W x00 x00 x00 x00 x00 x00 x00 x00)))
(T (W xff xff xff xff xa0 x00 x00 x00)
(L (W x00 x00 x80 xbf x00 x00 x80 xbf)) E)))
(T (W x2a x3d xfa xff x74 x00 x00 x00)
(T (W x64 x00 x00 x00 x9c x00 x00 x00)
(T (W x00 x00 x00 x00 x00 x00 x00 x00)
(L (W xff xff xff xff xff xff xff xff))
(L (W x00 x00 x00 x00 x00 x00 x00 x00)))
(T (W x64 x00 x00 x00 x9c x00 x00 x00)
(L (W xff xff xff xff xff xff xff xff)) E))
(T (W x18 x00 x00 x00 x0c x00 x00 x00)
(T (W x4a x00 x00 x00 xff xff xff xff)
(L (W x00 x00 x80 xbf x00 x00 x80 xbf)) E)
(T (W x00 x00 x00 x00 x00 x00 x00 x00)
(L (W xff xff xff xff xff xff xff xff)) E))))
(T (W x00 x00 x00 x00 x00 x00 x00 x00)
(T (W xff xff xff xff xff xff xff xff)
(T (W xff xff xff xff xff xff xff xff)
(T (W xff xff xff xff xff xff xff xff)
(L (W xc9 x00 x00 x00 xff xff xff xff))
(L (W x45 x44 x00 x00 x00 x00 x00 x00)))
(T (W xff xff xff xff xff xff xff xff)
(L (W x6c x00 x00 x00 x60 x00 x00 x00)) E))
(T (W xff xff xff xff xff xff xff xff)
(T (W x00 x00 x80 x3f x00 x00 x80 x3f)
(L (W x00 x00 x00 x00 x00 x00 x00 x00)) E)
(T (W x00 x01 x01 x01 x8a xd1 xff xff)
(L (W xff xff xff xff xff xff xff xff)) E)))
(T (W x50 x00 x00 x00 x44 x00 x00 x00)
(T (W x45 x26 x22 x84 xe4 x9c xf2 xcb)
(T (W x45 x26 x22 x84 xe4 x9c xf2 xcb)
(L (W x00 x00 x00 x00 x00 x00 x00 x00))
(L (W x00 x00 x80 xbf x00 x00 x80 xbf)))
(T (W x18 x00 x00 x00 x0c x00 x00 x00)
(L (W x00 x00 x00 x00 x00 x00 x00 x00)) E))
(T (W x92 xa0 xfd xff x9c x01 x00 x00)
(T (W x00 x00 x00 x00 x00 x00 x00 x00)
(L (W xff xff xff xff xff xff xff xff)) E)
(T (W xb0 x00 x00 x00 x64 x00 x00 x00)
(L (W x45 x26 x22 x84 xe4 x9c xf2 xcb)) E)))))
(T (W x00 x00 x00 x00 x00 x00 x00 x00)
(T (W x00 x00 x80 x3f x00 x00 x80 x3f)
(T (W x70 x5f x6c x65 x61 x64 x65 x72)
(T (W x00 x00 x80 x3f x00 x00 x80 x3f)
(T (W x00 x00 x80 x3f x00 x00 x80 x3f)
(L (W xff xff xff xff xff xff xff xff))
(L (W x5d x00 x00 x00 xff xff xff xff)))
(T (W x50 x00 x00 x00 x44 x00 x00 x00)
(L (W x00 x00 x80 xbf x00 x00 x80 xbf)) E))
(T (W x92 x21 xfe xff x00 x00 x01 x01)
(T (W x00 x00 x00 x00 x00 x00 x00 x00)
(L (W xff xff xff xff xff xff xff xff)) E)
(T (W x00 x00 x00 x00 x00 x00 x00 x00)
(L (W x00 x00 x80 xbf x00 x00 x80 xbf)) E)))
(T (W x18 x00 x00 x00 x10 x00 x00 x00)
(T (W xff xff xff xff xff xff xff xff)
(T (W x45 x26 x22 x84 xe4 x9c xf2 xcb)
(L (W xa4 x04 x00 x00 x88 x03 x00 x00))
(L (W x00 x00 x00 x00 x00 x00 x00 x00)))
(T (W x4f x84 x6f x8b xe8 xcb x63 xb7)
(L (W x54 x02 x00 x00 x38 x01 x00 x00)) E))
(T (W x00 x00 x80 x3f x00 x00 x80 x3f)
(T (W x00 x00 x00 x00 x00 x00 x00 x00)
(L (W x19 x00 x00 x00 x1c x00 x00 x00)) E)
(T (W x00 x00 x80 xbf x00 x00 x80 xbf)
(L (W x00 x00 x00 x00 x00 x00 x00 x00)) E))))
(T (W x00 x00 x00 x00 x00 x00 x00 x00)
(T (W xff xff xff xff xff xff xff xff)
(T (W xff xff xff xff xff xff xff xff)
(T (W x68 x00 x00 x00 x5c x00 x00 x00)
(L (W x68 x00 x00 x00 x5c x00 x00 x00))
(L (W x94 x04 x00 x00 x80 x03 x00 x00)))
(T (W xff xff xff xff xff xff xff xff)
(L (W x00 x00 x00 x00 x6c xb0 xfe xff)) E))
(T (W x49 xa1 x68 x4a xeb x5f xdd x3d)
(T (W x18 x00 x00 x00 x0c x00 x00 x00)
(L (W x00 x00 x80 xbf x00 x00 x80 xbf)) E)
(T (W xff xff xff xff xff xff xff xff)
(L (W x03 x00 x00 x00 xd8 x00 x00 x00)) E)))
(T (W x00 x00 x80 x3f x00 x00 x80 x3f)
(T (W x68 x00 x00 x00 x5c x00 x00 x00)
(T (W xff xff xff xff xff xff xff xff)
(L (W x00 x00 x80 xbf x00 x00 x80 xbf))
(L (W x00 x00 x80 xbf x00 x00 x80 xbf)))
(T (W x10 x00 x14 x00 x00 x00 x00 x00)
(L (W x00 x00 x80 xbf x00 x00 x80 xbf)) E))
(T (W x6c x00 x00 x00 x60 x00 x00 x00)
(T (W xff xff xff xff xff xff xff xff)
(L (W x00 x00 x00 x00 x00 x00 x00 x00)) E)
(T (W x00 x00 x00 x00 x00 x00 x00 x00)
(L (W xda x6e xff xff x78 x00 x00 x00)) E)))))))
(T (W xbc x00 x00 x00 xb0 x00 x00 x00)
(T (W x00 x00 x80 x3f x00 x00 x80 x3f)
(T (W xff xff xff xff x04 x00 x00 x00)
(T (W xff xff xff xff x0d x00 x00 x00)
(T (W x45 x26 x22 x84 xe4 x9c xf2 xcb)
(T (W x8a x83 xfd xff x00 x00 x01 x01)
(T (W x00 x00 x00 x00 x00 x00 x00 x00)
(L (W x4f x84 x6f x8b xe8 xcb x63 xb7))
(L (W x00 x00 x00 x00 x00 x00 x00 x00)))
(T (W x45 x26 x22 x84 xe4 x9c xf2 xcb)
(L (W x03 x00 x00 x00 xd0 x00 x00 x00)) E))
(T (W xff xff xff xff xff xff xff xff)
(T (W x68 x00 x00 x00 x5c x00 x00 x00)
(L (W x00 x00 x00 x00 x00 x00 x00 x00))
(L (W x00 x00 x60 x00 x00 x00 x00 x00)))
(T (W x00 x00 x00 x00 x6c xfc xfc xff)
(L (W xff xff xff xff xff xff xff xff)) E)))
(T (W x00 x00 x00 x00 x00 x00 x00 x00)
(T (W x45 x26 x22 x84 xe4 x9c xf2 xcb)
(T (W x54 x00 x00 x00 x48 x00 x00 x00)
(L (W x00 x00 x00 x00 x00 x00 x00 x00))
(L (W xff xff xff xff xb0 x00 x00 x00)))
(T (W x00 x00 x00 x00 x00 x00 x00 x00)
(L (W x00 x00 x00 x00 x00 x00 x00 x00)) E))
(T (W x00 x00 x00 x00 x00 x00 x00 x00)
(T (W x00 x00 x80 x3f x00 x00 x80 x3f)
(L (W x00 x00 x00 x00 x00 x00 x00 x00)) E)
(T (W x6c x00 x00 x00 x60 x00 x00 x00)
(L (W x00 x00 x80 xbf x00 x00 x80 xbf)) E))))
(T (W x00 x00 x80 x3f x00 x00 x80 x3f)
(T (W xff xff xff xff xff xff xff xff)
(T (W x00 x00 x80 x3f x00 x00 x80 x3f)
(T (W x00 x00 x00 x00 x00 x00 x00 x00)
(L (W x00 x00 x80 xbf x00 x00 x80 xbf))
(L (W x50 x00 x00 x00 x44 x00 x00 x00)))
(T (W x6c x76 x31 x5f x74 x6f x5f x63)
(L (W x00 x00 x01 x01 x2e x00 x00 x00)) E))
(T (W x00 x00 x00 x00 x00 x00 x00 x00)
(T (W xff xff xff xff xff xff xff xff)
(L (W x50 x00 x00 x00 x44 x00 x00 x00)) E)
(T (W x04 x00 x00 x00 xe2 x7a xfd xff)
(L (W x00 x00 x00 x00 x00 x00 x00 x00)) E)))
(T (W x92 x6d xfd xff x00 x00 x01 x01)
(T (W x84 xeb xfa xff x3c x00 x00 x00)
(T (W x16 x00 x00 x00 x10 x00 x00 x00)
(L (W xff xff xff xff xb0 x00 x00 x00))
(L (W xff xff xff xff xff xff xff xff)))
(T (W x00 x00 x00 x00 x00 x00 x00 x00)
(L (W x00 x00 x00 x00 x6c xdc xfe xff)) E))
(T (W x00 x00 x00 x00 x00 x00 x00 x00)
(T (W xff xff xff xff xff xff xff xff)
(L (W x49 xa1 x68 x4a xeb x5f xdd x3d)) E)
(T (W x00 x00 x00 x00 x00 x00 x00 x00)
(L (W xff xff xff xff xff xff xff xff)) E)))))
(T (W xff xff xff xff xff xff xff xff)
(T (W x00 x00 x00 x00 x00 x00 x00 x00)
(T (W x00 x00 x80 x3f x00 x00 x80 x3f)
(T (W xff xff xff xff xff xff xff xff)
(T (W xfc x8d xfb xff x00 x01 x01 x01)
(L (W x00 x00 x00 x00 x00 x00 x00 x00))
(L (W x00 x00 x00 x00 x00 x00 x00 x00)))
(T (W x00 x00 x00 x00 x00 x00 x00 x00)
(L (W xff xff xff xff xff xff xff xff)) E))
(T (W x00 x00 x80 x3f x00 x00 x80 x3f)
(T (W xb8 x00 x00 x00 x28 x00 x00 x00)
(L (W x00 x00 x80 xbf x00 x00 x80 xbf)) E)
(T (W x00 x00 x00 x00 x00 x00 x00 x00)
(L (W x00 x00 x00 x00 x00 x00 x00 x00)) E)))
(T (W x00 x00 x00 x00 x00 x00 x00 x00)
(T (W x00 x00 x00 x00 x00 x00 x00 x00)
(T (W xff xff xff xff xff xff xff xff)
(L (W x00 x00 x80 xbf x00 x00 x80 xbf))
(L (W xff xff xff xff xff xff xff xff)))
(T (W x5c x0a x00 x00 x40 x09 x00 x00)
(L (W x00 x00 x80 xbf x00 x00 x80 xbf)) E))
(T (W xff xff xff xff xff xff xff xff)
(T (W x18 x00 x00 x00 x0c x00 x00 x00)
(L (W x00 x00 x00 x00 x00 x00 x00 x00)) E)
(T (W xff xff xff xff xff xff xff xff)
(L (W xff xff xff xff xb0 x00 x00 x00)) E))))
(T (W x00 x00 x80 x3f x00 x00 x80 x3f)
(T (W x00 x00 x00 x00 x00 x00 x00 x00)
(T (W x00 x00 x80 x3f x00 x00 x80 x3f)
(T (W xff xff xff xff xff xff xff xff)
(L (W x45 x26 x22 x84 xe4 x9c xf2 xcb))
(L (W x54 x00 x00 x00 x48 x00 x00 x00)))
(T (W x00 x00 x80 x3f x00 x00 x80 x3f)
(L (W x29 x9b xaa x28 xbf xcd x56 x6a)) E))
(T (W x00 x00 x00 x00 x6c x2c xfb xff)
(T (W xb6 x01 x00 x00 xff xff xff xff)
(L (W xb8 x00 x00 x00 x64 x00 x00 x00)) E)
(T (W x00 x00 x00 x00 x00 x00 x00 x00)
(L (W x49 xa1 x68 x4a xeb x5f xdd x3d)) E)))
(T (W xd9 x00 x00 x00 xff xff xff xff)
(T (W x00 x00 x00 x00 x00 x00 x00 x00)
(T (W x45 x26 x22 x84 xe4 x9c xf2 xcb)
(L (W x00 x00 x00 x00 xea xf1 xfd xff))
(L (W x44 x02 x00 x00 x30 x01 x00 x00)))
(T (W x00 x00 x00 x00 x00 x00 x00 x00)
(L (W xff xff xff xff xff xff xff xff)) E))
(T (W xff xff xff xff xff xff xff xff)
(T (W x45 x26 x22 x84 xe4 x9c xf2 xcb)
(L (W x17 x00 x00 x00 x1a x00 x00 x00)) E)
(T (W x54 x00 x00 x00 x48 x00 x00 x00)
(L (W xff xff xff xff xff xff xff xff)) E))))))
(T (W x00 x00 x00 x00 x00 x00 x00 x00)
(T (W x00 x00 x00 x00 x00 x00 x00 x00)
(T (W x6c x00 x00 x00 x60 x00 x00 x00)
(T (W x50 x00 x00 x00 x44 x00 x00 x00)
(T (W xff xff xff xff xff xff xff xff)
(T (W x00 x00 x80 x3f x00 x00 x80 x3f)
(L (W x00 x00 x00 x00 x00 x00 x00 x00))
(L (W x46 x53 x59 x53 x5f x4e x53 x5f)))
(T (W x00 x00 x00 x00 x00 x00 x00 x00)
(L (W xff xff xff xff xff xff xff xff)) E))
(T (W x70 x5f x6c x65 x61 x64 x65 x72)
(T (W x45 x26 x22 x84 xe4 x9c xf2 xcb)
(L (W x00 x00 x80 xbf x00 x00 x80 xbf)) E)
(T (W x45 x26 x22 x84 xe4 x9c xf2 xcb)
(L (W xff xff xff xff xff xff xff xff)) E)))
(T (W x00 x00 x00 x00 x00 x00 x00 x00)
(T (W x45 x26 x22 x84 xe4 x9c xf2 xcb)
(T (W xff xff xff xff x9c x00 x00 x00)
(L (W x00 x00 x80 xbf x00 x00 x80 xbf))
(L (W x45 x26 x22 x84 xe4 x9c xf2 xcb)))
(T (W x00 x00 x00 x00 x00 x00 x00 x00)
(L (W x00 x00 x80 xbf x00 x00 x80 xbf)) E))
(T (W x00 x00 x80 x3f x00 x00 x80 x3f)
(T (W x2a x41 xfc xff x74 x00 x00 x00)
(L (W x00 x00 x00 x00 x00 x00 x00 x00)) E)
(T (W xff xff xff xff xff xff xff xff)
(L (W x00 x00 x00 x00 x6c x44 xff xff)) E))))
(T (W x50 x00 x00 x00 x44 x00 x00 x00)
(T (W x00 x00 x00 x00 x00 x00 x00 x00)
(T (W x00 x00 x80 x3f x00 x00 x80 x3f)
(T (W xfc xa5 xfb xff x00 x01 x01 x01)
(L (W xff xff xff xff xff xff xff xff))
(L (W x00 x00 x00 x00 x00 x00 x00 x00)))
(T (W x00 x00 x80 x3f x00 x00 x80 x3f)
(L (W x00 x00 x00 x00 x12 x00 x00 x00)) E))
(T (W x00 x00 x80 x3f x00 x00 x80 x3f)
(T (W x4a x00 x00 x00 xff xff xff xff)
(L (W x18 x00 x00 x00 x0c x00 x00 x00)) E)
(T (W x24 x00 x00 x00 x0c x00 x00 x00)
(L (W x00 x00 x00 x00 x00 x00 x00 x00)) E)))
(T (W xff xff xff xff xff xff xff xff)
(T (W x00 x00 x00 x00 x00 x00 x00 x00)
(T (W x30 x32 x5f x43 x4c x45 x41 x52)
(L (W xbc x00 x00 x00 x64 x00 x00 x00))
(L (W x00 x00 x00 x00 x5a xe8 xff xff)))
(T (W x0a x00 x00 x00 x19 x00 x00 x00)
(L (W x15 x00 x00 x00 x18 x00 x00 x00)) E))
(T (W x01 x00 x00 x00 x21 x00 x00 x00)
(T (W xb8 x00 x00 x00 xac x00 x00 x00)
(L (W x00 x00 x80 xbf x00 x00 x80 xbf)) E)
(T (W x4f x84 x6f x8b xe8 xcb x63 xb7)
(L (W xff xff xff xff xff xff xff xff)) E)))))
(T (W x00 x00 x80 x3f x00 x00 x80 x3f)
(T (W xbc x00 x00 x00 xb0 x00 x00 x00)
(T (W xff xff xff xff xff xff xff xff)
(T (W xff xff xff xff xff xff xff xff)
(T (W x00 x00 x00 x00 x00 x00 x00 x00)
(L (W x00 x00 x80 xbf x00 x00 x80 xbf))
(L (W x00 x00 x80 xbf x00 x00 x80 xbf)))
(T (W x12 xa4 xff xff xc6 x00 x00 x00)
(L (W x00 x00 x00 x00 x0a x92 xfe xff)) E))
(T (W xb8 x00 x00 x00 x14 x00 x00 x00)
(T (W xff xff xff xff xff xff xff xff)
(L (W xda x12 xfe xff x78 x00 x00 x00)) E)
(T (W x00 x01 x01 x01 x97 x01 x00 x00)
(L (W x00 x00 x00 x00 x00 x00 x00 x00)) E)))
(T (W x11 x00 x00 x00 x0c x00 x00 x00)
(T (W x00 x00 x00 x00 x00 x00 x00 x00)
(T (W xff xff xff xff xff xff xff xff)
(L (W x00 x00 x00 x00 x6c xd4 xfd xff))
(L (W xff xff xff xff xff xff xff xff)))
(T (W x64 x5f x70 x6f x6b x65 x5f x77)
(L (W xda xd2 xfe xff x78 x00 x00 x00)) E))
(T (W xff xff xff xff xff xff xff xff)
(T (W x45 x26 x22 x84 xe4 x9c xf2 xcb)
(L (W x00 x00 x00 x00 x00 x00 x00 x00)) E)
(T (W x30 x32 x5f x43 x4c x45 x41 x52)
(L (W xff xff xff xff xff xff xff xff)) E))))
(T (W x2a xf1 xf9 xff x74 x00 x00 x00)
(T (W x00 x00 x00 x00 x00 x00 x00 x00)
(T (W x00 x00 x80 x3f x00 x00 x80 x3f)
(T (W x00 x00 x00 x00 x00 x00 x00 x00)
(L (W xff xff xff xff xff xff xff xff))
(L (W x6c x00 x00 x00 x60 x00 x00 x00)))
(T (W x00 x00 x80 x3f x00 x00 x80 x3f)
(L (W x00 x00 x00 x00 x00 x00 x00 x00)) E))
(T (W xff xff xff xff xff xff xff xff)
(T (W x00 x00 x00 x00 x00 x00 x00 x00)
(L (W xff xff xff xff xff xff xff xff)) E)
(T (W x45 x26 x22 x84 xe4 x9c xf2 xcb)
(L (W x00 x00 x00 x00 x00 x00 x00 x00)) E)))
(T (W x02 x7a xfd xff xd9 x00 x00 x00)
(T (W x00 x00 x80 x3f x00 x00 x80 x3f)
(T (W x00 x00 x00 x00 x00 x00 x00 x00)
(L (W x00 x00 x00 x00 x12 x00 x00 x00))
(L (W x00 x00 x00 x00 x00 x00 x00 x00)))
(T (W xff xff xff xff xff xff xff xff)
(L (W xff xff xff xff xff xff xff xff)) E))
(T (W x00 x00 x00 x00 x00 x00 x00 x00)
(T (W x45 x26 x22 x84 xe4 x9c xf2 xcb)
(L (W x18 x00 x00 x00 x10 x00 x00 x00)) E)
(T (W x00 x00 x80 xbf x00 x00 x80 xbf)
(L (W x00 x00 x00 x00 x5a x78 xff xff)) E))))))))
(T (W x54 x0d x00 x00 x38 x0c x00 x00)
(T (W x6c x00 x00 x00 x60 x00 x00 x00)
(T (W x00 x00 x00 x00 x00 x00 x00 x00)
(T (W xfc x9b xf9 xff x00 x01 x01 x01)
(T (W xff xff xff xff xff xff xff xff)
(T (W x00 x00 x00 x00 x00 x00 x00 x00)
(T (W xbc x00 x00 x00 xb0 x00 x00 x00)
(T (W xa4 x01 x00 x00 xff xff xff xff)
(L (W x45 x44 x00 x00 x00 x00 x00 x00))
(L (W xff xff xff xff xff xff xff xff)))
(T (W x00 x00 x00 x00 x00 x00 x00 x00)
(L (W x54 x00 x00 x00 x48 x00 x00 x00)) E))
(T (W x00 x00 x80 x3f x00 x00 x80 x3f)
(T (W x00 x00 x00 x00 x00 x00 x00 x00)
(L (W x00 x00 x01 x01 x5d x00 x00 x00))
(L (W x5c x08 x00 x00 x98 x06 x00 x00)))
(T (W x74 x00 x04 x00 x68 x00 x08 x00)
(L (W x45 x26 x22 x84 xe4 x9c xf2 xcb)) E)))
(T (W x1c x01 x00 x00 x04 x00 x00 x00)
(T (W x2c xc0 xfa xff x3c x00 x00 x00)
(T (W x12 x00 x00 x00 x46 x53 x59 x53)
(L (W x00 x00 x00 x00 x00 x00 x00 x00))
(L (W x00 x00 x00 x00 x00 x00 x00 x00)))
(T (W x18 x00 x00 x00 x10 x00 x00 x00)
(L (W x44 x02 x00 x00 x30 x01 x00 x00)) E))
(T (W x18 x00 x00 x00 x10 x00 x00 x00)
(T (W x00 x00 x00 x00 x00 x00 x00 x00)
(L (W x45 x26 x22 x84 xe4 x9c xf2 xcb)) E)
(T (W x00 x00 x00 x00 x00 x00 x00 x00)
(L (W x00 x00 x00 x00 x00 x00 x00 x00)) E))))
(T (W x00 x00 x00 x00 x00 x00 x00 x00)
(T (W x2a x17 xfa xff x74 x00 x00 x00)
(T (W x00 x00 x00 x00 x00 x00 x00 x00)
(T (W xff xff xff xff xff xff xff xff)
(L (W x12 x00 x00 x00 x46 x53 x59 x53))
(L (W x00 x00 x00 x00 x00 x00 x00 x00)))
(T (W xb8 x00 x00 x00 xac x00 x00 x00)
(L (W x03 x00 x00 x00 xd8 x00 x00 x00)) E))
(T (W x8a x21 xfe xff x00 x00 x01 x01)
(T (W xff xff xff xff x9c x00 x00 x00)
(L (W x45 x26 x22 x84 xe4 x9c xf2 xcb)) E)
(T (W x45 x26 x22 x84 xe4 x9c xf2 xcb)
(L (W xac x00 x00 x00 xff xff xff xff)) E)))
(T (W xff xff xff xff xff xff xff xff)
(T (W xff xff xff xff xff xff xff xff)
(T (W xff xff xff xff xff xff xff xff)
(L (W x00 x00 x80 xbf x00 x00 x80 xbf))
(L (W xff xff xff xff xb0 x00 x00 x00)))
(T (W xff xff xff xff xff xff xff xff)
(L (W x00 x00 x00 x00 x00 x00 x00 x00)) E))
(T (W x9f x01 x00 x00 xff xff xff xff)
(T (W x00 x00 x80 x3f x00 x00 x80 x3f)
(L (W x45 x44 x00 x00 x00 x00 x00 x00)) E)
(T (W xff xff xff xff xff xff xff xff)
(L (W x00 x00 x80 xbf x00 x00 x80 xbf)) E)))))
(T (W x18 x00 x00 x00 x10 x00 x00 x00)
(T (W xc9 x00 x00 x00 xff xff xff xff)
(T (W x00 x00 x00 x00 x00 x00 x00 x00)
(T (W x50 x00 x00 x00 x44 x00 x00 x00)
(T (W x00 x00 x80 x3f x00 x00 x80 x3f)
(L (W xe2 xe8 xff xff x00 x00 x01 x01))
(L (W xff xff xff xff xff xff xff xff)))
(T (W xff xff xff xff xff xff xff xff)
(L (W xda x88 xfe xff x78 x00 x00 x00)) E))
(T (W x5f x4e x53 x5f x30 x32 x5f x43)
(T (W x00 x00 x80 x3f x00 x00 x80 x3f)
(L (W x0e x00 x00 x00 x0c x00 x00 x00)) E)
(T (W xff xff xff xff xff xff xff xff)
(L (W xff xff xff xff xff xff xff xff)) E)))
(T (W xff xff xff xff xff xff xff xff)
(T (W xff xff xff xff xff xff xff xff)
(T (W x00 x00 x80 x3f x00 x00 x80 x3f)
(L (W x00 x00 x00 x00 x00 x00 x00 x00))
(L (W xda xc8 xff xff x78 x00 x00 x00)))
(T (W x41 x57 x4e x5f x46 x41 x49 x52)
(L (W x00 x00 x00 x00 x00 x00 x00 x00)) E))
(T (W x00 x00 x80 x3f x00 x00 x80 x3f)
(T (W x4f x84 x6f x8b xe8 xcb x63 xb7)
(L (W xff xff xff xff xff xff xff xff)) E)
(T (W x00 x00 x80 xbf x00 x00 x80 xbf)
(L (W x4f x84 x6f x8b xe8 xcb x63 xb7)) E))))
(T (W x00 x00 x80 x3f x00 x00 x80 x3f)
(T (W xff xff xff xff xff xff xff xff)
(T (W x00 x00 x00 x00 x00 x00 x00 x00)
(T (W x68 x00 x00 x00 x5c x00 x00 x00)
(L (W x00 x00 x00 x00 x00 x00 x00 x00))
(L (W x4f x84 x6f x8b xe8 xcb x63 xb7)))
(T (W x6f x6b x65 x5f x63 x6f x77 x61)
(L (W xff xff xff xff xff xff xff xff)) E))
(T (W x45 x26 x22 x84 xe4 x9c xf2 xcb)
(T (W xff xff xff xff xff xff xff xff)
(L (W x00 x00 x80 xbf x00 x00 x80 xbf)) E)
(T (W x00 x00 x00 x00 x00 x00 x00 x00)
(L (W xff xff xff xff xff xff xff xff)) E)))
(T (W xff xff xff xff xff xff xff xff)
(T (W xff xff xff xff xff xff xff xff)
(T (W x34 x01 x00 x00 x04 x00 x00 x00)
(L (W xff xff xff xff xff xff xff xff))
(L (W xff xff xff xff xb0 x00 x00 x00)))
(T (W x6b x65 x5f x77 x61 x72 x6c x69)
(L (W x00 x00 x80 xbf x00 x00 x80 xbf)) E))
(T (W x68 x00 x00 x00 x5c x00 x00 x00)
(T (W x00 x00 x00 x00 x00 x00 x00 x00)
(L (W x00 x00 x00 x00 x00 x00 x00 x00)) E)
(T (W x00 x00 x00 x00 x00 x00 x00 x00)
(L (W x45 x26 x22 x84 xe4 x9c xf2 xcb)) E))))))
(T (W xff xff xff xff xff xff xff xff)
(T (W x00 x00 x00 x00 x00 x00 x00 x00)
(T (W x00 x00 x80 x3f x00 x00 x80 x3f)
(T (W x00 x00 x00 x00 x00 x00 x00 x00)
(T (W xfc x83 xfa xff x00 x01 x01 x01)
(T (W x45 x26 x22 x84 xe4 x9c xf2 xcb)
(L (W x00 x00 x00 x00 x00 x00 x00 x00))
(L (W xff xff xff xff xff xff xff xff)))
(T (W x12 x92 xff xff x92 x01 x00 x00)
(L (W xda x80 xfe xff x78 x00 x00 x00)) E))
(T (W xff xff xff xff xff xff xff xff)
(T (W x00 x00 x00 x00 x00 x00 x00 x00)
(L (W x46 x53 x59 x53 x5f x4e x53 x5f))
(L (W x64 x00 x08 x00 x00 x00 x00 x00)))
(T (W x67 x72 x6f x75 x70 x5f x77 x69)
(L (W xff xff xff xff xb0 x00 x00 x00)) E)))
(T (W xff xff xff xff xff xff xff xff)
(T (W x01 x00 x00 x00 x04 x00 x00 x00)
(T (W x00 x00 x80 x3f x00 x00 x80 x3f)
(L (W x83 x85 xd4 x61 xf7 xdb xb2 x83))
(L (W x00 x00 x80 xbf x00 x00 x80 xbf)))
(T (W xff xff xff xff xff xff xff xff)
(L (W x00 x00 x00 x00 x00 x00 x00 x00)) E))
(T (W xf0 xa7 x81 x7f x6f xbd x3a xeb)
(T (W x00 x00 x00 x00 x00 x00 x00 x00)
(L (W xff xff xff xff xff xff xff xff)) E)
(T (W x00 x00 x80 xbf x00 x00 x80 xbf)
(L (W x00 x00 x00 x00 x00 x00 x00 x00)) E))))
(T (W x00 x00 x00 x00 x00 x00 x00 x00)
(T (W x92 x33 xfd xff x00 x00 x01 x01)
(T (W x45 x26 x22 x84 xe4 x9c xf2 xcb)
(T (W x4f x84 x6f x8b xe8 xcb x63 xb7)
(L (W xda xa0 xfd xff x78 x00 x00 x00))
(L (W x00 x01 x01 x01 x12 xfb xff xff)))
(T (W x00 x00 x00 x00 x00 x00 x00 x00)
(L (W xff xff xff xff xbc x00 x00 x00)) E))
(T (W x00 x00 x00 x00 x12 x00 x00 x00)
(T (W xff xff xff xff x03 x00 x00 x00)
(L (W x00 x00 x80 xbf x00 x00 x80 xbf)) E)
(T (W xff xff xff xff xff xff xff xff)
(L (W x00 x00 x00 x00 x00 x00 x00 x00)) E)))
(T (W xff xff xff xff xff xff xff xff)
(T (W xff xff xff xff xff xff xff xff)
(T (W xff xff xff xff xff xff xff xff)
(L (W x00 x00 x80 xbf x00 x00 x80 xbf))
(L (W x2a xdf xff xff x74 x00 x00 x00)))
(T (W xf0 x12 x00 x00 xc4 x11 x00 x00)
(L (W x00 x00 x80 xbf x00 x00 x80 xbf)) E))
(T (W x00 x00 x80 x3f x00 x00 x80 x3f)
(T (W x00 x00 x80 x3f x00 x00 x80 x3f)
(L (W x00 x00 x00 x00 x00 x00 x00 x00)) E)
(T (W x45 x44 x00 x00 x00 x00 x00 x00)
(L (W xda x60 xff xff x78 x00 x00 x00)) E)))))
(T (W x00 x00 x00 x00 x00 x00 x00 x00)
(T (W xda xd0 xf9 xff x78 x00 x00 x00)
(T (W x00 x00 x80 x3f x00 x00 x80 x3f)
(T (W x00 x00 x80 x3f x00 x00 x80 x3f)
(T (W x18 x00 x00 x00 x10 x00 x00 x00)
(L (W x00 x00 x00 x00 x00 x00 x00 x00))
(L (W x00 x00 x00 x00 x00 x00 x00 x00)))
(T (W xff xff xff xff xff xff xff xff)
(L (W x18 x00 x00 x00 x10 x00 x00 x00)) E))
(T (W x00 x00 x00 x00 x00 x00 x00 x00)
(T (W xfc x13 xfc xff x00 x01 x01 x01)
(L (W x00 x00 x00 x00 x12 x00 x00 x00)) E)
(T (W x84 xf5 xff xff x01 x01 x01 x01)
(L (W xff xff xff xff xff xff xff xff)) E)))
(T (W xff xff xff xff xff xff xff xff)
(T (W xff xff xff xff xff xff xff xff)
(T (W xb8 x00 x00 x00 x28 x00 x00 x00)
(L (W x00 x00 x80 xbf x00 x00 x80 xbf))
(L (W x00 x00 x80 xbf x00 x00 x80 xbf)))
(T (W xff xff xff xff xb0 x00 x00 x00)
(L (W x45 x26 x22 x84 xe4 x9c xf2 xcb)) E))
(T (W xff xff xff xff xc4 x00 x00 x00)
(T (W x00 x00 x80 x3f x00 x00 x80 x3f)
(L (W xff xff xff xff xff xff xff xff)) E)
(T (W xff xff xff xff xbc x00 x00 x00)
(L (W x00 x00 x80 xbf x00 x00 x80 xbf)) E))))
(T (W x00 x00 x80 x3f x00 x00 x80 x3f)
(T (W xb2 x01 x00 x00 xff xff xff xff)
(T (W x00 x00 x00 x00 x00 x00 x00 x00)
(T (W xff xff xff xff xff xff xff xff)
(L (W x18 x00 x00 x00 x10 x00 x00 x00))
(L (W x00 x00 x80 xbf x00 x00 x80 xbf)))
(T (W x00 x00 x00 x00 x00 x00 x00 x00)
(L (W xff xff xff xff xff xff xff xff)) E))
(T (W x54 x00 x00 x00 x48 x00 x00 x00)
(T (W xb6 x01 x00 x00 xff xff xff xff)
(L (W xfc x33 xfe xff x00 x01 x01 x01)) E)
(T (W x1c x00 x00 x00 x0c x00 x00 x00)
(L (W xff xff xff xff xff xff xff xff)) E)))
(T (W x64 x00 x00 x00 x9c x00 x00 x00)
(T (W x48 x00 x4c x00 x50 x00 x00 x00)
(T (W x00 x00 x00 x00 x00 x00 x00 x00)
(L (W xff xff xff xff xff xff xff xff))
(L (W xff xff xff xff xff xff xff xff)))
(T (W x00 x00 x80 x3f x00 x00 x80 x3f)
(L (W xfc xf3 xfe xff x00 x01 x01 x01)) E))
(T (W xff xff xff xff xff xff xff xff)
(T (W x00 x00 x00 x00 x00 x00 x00 x00)
(L (W x00 x00 x80 xbf x00 x00 x80 xbf)) E)
(T (W xff xff xff xff xff xff xff xff)
(L (W xff xff xff xff xff xff xff xff)) E)))))))
(T (W xff xff xff xff xff xff xff xff)
(T (W xda x8c xf9 xff x78 x00 x00 x00)
(T (W xff xff xff xff xff xff xff xff)
(T (W x00 x00 x00 x00 x00 x00 x00 x00)
(T (W xff xff xff xff xff xff xff xff)
(T (W x00 x00 x00 x00 x00 x00 x00 x00)
(T (W x01 x00 x00 x00 xac x00 x00 x00)
(L (W x18 x00 x00 x00 x0c x00 x00 x00))
(L (W x45 x26 x22 x84 xe4 x9c xf2 xcb)))
(T (W x50 x00 x00 x00 x44 x00 x00 x00)
(L (W x06 x00 x00 x00 xc0 x05 x00 x00)) E))
(T (W x4f x84 x6f x8b xe8 xcb x63 xb7)
(T (W xb0 x00 x00 x00 x64 x00 x00 x00)
(L (W x00 x00 x80 xbf x00 x00 x80 xbf))
(L (W x00 x00 x00 x00 x0c x00 x08 x00)))
(T (W x67 x72 x6f x75 x70 x5f x77 x69)
(L (W x00 x00 x00 x00 x00 x00 x00 x00)) E)))
(T (W x00 x00 x80 x3f x00 x00 x80 x3f)
(T (W x00 x00 x00 x00 x6c xbe xfa xff)
(T (W xff xff xff xff xff xff xff xff)
(L (W x00 x00 x80 xbf x00 x00 x80 xbf))
(L (W xff xff xff xff xff xff xff xff)))
(T (W x00 x00 x80 x3f x00 x00 x80 x3f)
(L (W x00 x00 x80 xbf x00 x00 x80 xbf)) E))
(T (W x00 x00 x80 x3f x00 x00 x80 x3f)
(T (W xff xff xff xff x03 x00 x00 x00)
(L (W x00 x00 x00 x00 x00 x00 x00 x00)) E)
(T (W xff xff xff xff xff xff xff xff)
(L (W xff xff xff xff xb0 x00 x00 x00)) E))))
(T (W xff xff xff xff x03 x00 x00 x00)
(T (W x00 x00 x80 x3f x00 x00 x80 x3f)
(T (W x64 x00 x00 x00 x9c x00 x00 x00)
(T (W x2a x9b xfb xff x74 x00 x00 x00)
(L (W xc0 x00 x00 x00 x01 x00 x00 x00))
(L (W xff xff xff xff xff xff xff xff)))
(T (W x45 x26 x22 x84 xe4 x9c xf2 xcb)
(L (W x00 x00 x00 x00 x00 x00 x00 x00)) E))
(T (W x00 x00 x00 x00 x6c x1e xfb xff)
(T (W x00 x00 x00 x00 x00 x00 x00 x00)
(L (W xff xff xff xff xff xff xff xff)) E)
(T (W x00 x00 x80 xbf x00 x00 x80 xbf)
(L (W x00 x00 x80 xbf x00 x00 x80 xbf)) E)))
(T (W x00 x00 x00 x00 x00 x00 x00 x00)
(T (W x00 x00 x80 x3f x00 x00 x80 x3f)
(T (W x00 x00 x80 x3f x00 x00 x80 x3f)
(L (W xff xff xff xff xff xff xff xff))
(L (W x00 x00 x00 x00 x00 x00 x00 x00)))
(T (W x00 x00 x80 x3f x00 x00 x80 x3f)
(L (W xff xff xff xff xff xff xff xff)) E))
(T (W xff xff xff xff xa0 x00 x00 x00)
(T (W x00 x00 x00 x00 x00 x00 x00 x00)
(L (W xcc x00 x00 x00 x01 x00 x00 x00)) E)
(T (W x54 x00 x00 x00 x48 x00 x00 x00)
(L (W x00 x00 x00 x00 x00 x00 x00 x00)) E)))))
(T (W x14 x00 x00 x00 xff xff xff xff)
(T (W x45 x26 x22 x84 xe4 x9c xf2 xcb)
(T (W xff xff xff xff xff xff xff xff)
(T (W x2c x94 xfa xff x3c x00 x00 x00)
(T (W x00 x00 x00 x00 x04 x00 x00 x00)
(L (W x68 x00 x00 x00 x5c x00 x00 x00))
(L (W x2a x8b xff xff x74 x00 x00 x00)))
(T (W x45 x26 x22 x84 xe4 x9c xf2 xcb)
(L (W x00 x00 x00 x00 x00 x00 x00 x00)) E))
(T (W x01 x00 x00 x00 xb0 x00 x00 x00)
(T (W xff xff xff xff xff xff xff xff)
(L (W x15 x00 x00 x00 x18 x00 x00 x00)) E)
(T (W x68 x00 x00 x00 x5c x00 x00 x00)
(L (W x00 x00 x00 x00 x00 x00 x00 x00)) E)))
(T (W x00 x00 x80 x3f x00 x00 x80 x3f)
(T (W x00 x00 x80 x3f x00 x00 x80 x3f)
(T (W x00 x00 x00 x00 x00 x00 x00 x00)
(L (W x18 x00 x00 x00 x0c x00 x00 x00))
(L (W x00 x00 x01 x01 xb3 x01 x00 x00)))
(T (W x00 x00 x00 x00 x00 x00 x00 x00)
(L (W xff xff xff xff xa0 x00 x00 x00)) E))
(T (W x14 x00 x00 x00 x10 x00 x00 x00)
(T (W xff xff xff xff xff xff xff xff)
(L (W x00 x00 x80 xbf x00 x00 x80 xbf)) E)
(T (W x00 x00 x01 x01 xc6 x00 x00 x00)
(L (W xff xff xff xff xff xff xff xff)) E))))
(T (W xff xff xff xff xff xff xff xff)
(T (W x6c x00 x00 x00 x60 x00 x00 x00)
(T (W x50 x00 x00 x00 x44 x00 x00 x00)
(T (W x00 x00 x00 x00 x00 x00 x00 x00)
(L (W x00 x00 x80 xbf x00 x00 x80 xbf))
(L (W xc4 x00 x00 x00 x02 x00 x00 x00)))
(T (W x64 x00 x00 x00 x9c x00 x00 x00)
(L (W x00 x00 x80 xbf x00 x00 x80 xbf)) E))
(T (W x00 x00 x00 x00 x5a x32 xfb xff)
(T (W x00 x00 x80 x3f x00 x00 x80 x3f)
(L (W x00 x00 x00 x00 x12 x00 x00 x00)) E)
(T (W x00 x00 x80 xbf x00 x00 x80 xbf)
(L (W x6c x00 x00 x00 x60 x00 x00 x00)) E)))
(T (W x00 x00 x00 x00 x00 x00 x00 x00)
(T (W x00 x00 x00 x00 x00 x00 x00 x00)
(T (W x00 x00 x80 x3f x00 x00 x80 x3f)
(L (W x45 x26 x22 x84 xe4 x9c xf2 xcb))
(L (W x00 x00 x00 x00 x00 x00 x00 x00)))
(T (W x00 x00 x80 x3f x00 x00 x80 x3f)
(L (W x30 x32 x5f x43 x4c x45 x41 x52)) E))
(T (W x00 x00 x00 x00 x00 x00 x00 x00)
(T (W x68 x00 x00 x00 x5c x00 x00 x00)
(L (W xff xff xff xff xff xff xff xff)) E)
(T (W xb0 x00 x00 x00 x64 x00 x00 x00)
(L (W x00 x00 x00 x00 x00 x00 x00 x00)) E))))))
(T (W x00 x00 x00 x00 x00 x00 x00 x00)
(T (W x00 x00 x80 x3f x00 x00 x80 x3f)
(T (W x64 x00 x00 x00 xa0 x00 x00 x00)
(T (W xff xff xff xff xff xff xff xff)
(T (W x00 x00 x00 x00 x00 x00 x00 x00)
(T (W x15 x00 x00 x00 x18 x00 x00 x00)
(L (W x00 x00 x80 xbf x00 x00 x80 xbf))
(L (W x6c x00 x00 x00 x60 x00 x00 x00)))
(T (W x00 x00 x80 x3f x00 x00 x80 x3f)
(L (W x46 x53 x59 x53 x5f x4e x53 x5f)) E))
(T (W xda x04 xfb xff x78 x00 x00 x00)
(T (W xff xff xff xff xff xff xff xff)
(L (W xda x04 xfe xff x78 x00 x00 x00)) E)
(T (W x00 x00 x00 x00 x00 x00 x00 x00)
(L (W x00 x00 x00 x00 x00 x00 x00 x00)) E)))
(T (W x50 x00 x00 x00 x44 x00 x00 x00)
(T (W x45 x26 x22 x84 xe4 x9c xf2 xcb)
(T (W x45 x44 x00 x00 x00 x00 x00 x00)
(L (W xbc x00 x00 x00 x5a x00 x00 x00))
(L (W x5c x00 x00 x00 xff xff xff xff)))
(T (W x00 x00 x80 x3f x00 x00 x80 x3f)
(L (W xda xc4 xfe xff x78 x00 x00 x00)) E))
(T (W xff xff xff xff x9c x00 x00 x00)
(T (W xff xff xff xff xbc x00 x00 x00)
(L (W x45 x26 x22 x84 xe4 x9c xf2 xcb)) E)
(T (W x00 x00 x00 x00 x0a x44 xfd xff)
(L (W xff xff xff xff xff xff xff xff)) E))))
(T (W xff xff xff xff xff xff xff xff)
(T (W x50 x00 x00 x00 x44 x00 x00 x00)
(T (W xfc xa7 xfa xff x00 x01 x01 x01)
(T (W x04 x00 x00 x00 x1a x41 xff xff)
(L (W xff xff xff xff xff xff xff xff))
(L (W x00 x00 x80 xbf x00 x00 x80 xbf)))
(T (W x01 x00 x00 x00 x9c x00 x00 x00)
(L (W x00 x00 x80 xbf x00 x00 x80 xbf)) E))
(T (W x01 x00 x00 x00 xb0 x00 x00 x00)
(T (W x00 x00 x00 x00 x00 x00 x00 x00)
(L (W x04 x00 x00 x00 xea x2b xfe xff)) E)
(T (W x45 x26 x22 x84 xe4 x9c xf2 xcb)
(L (W x00 x00 x80 xbf x00 x00 x80 xbf)) E)))
(T (W x00 x00 x00 x00 x00 x00 x00 x00)
(T (W x45 x26 x22 x84 xe4 x9c xf2 xcb)
(T (W x00 x00 x80 x3f x00 x00 x80 x3f)
(L (W xff xff xff xff xff xff xff xff))
(L (W x00 x00 x00 x00 x00 x00 x00 x00)))
(T (W x4c x45 x41 x52 x45 x44 x00 x00)
(L (W xff xff xff xff xff xff xff xff)) E))
(T (W xff xff xff xff xff xff xff xff)
(T (W x00 x00 x80 x3f x00 x00 x80 x3f)
(L (W xff xff xff xff xff xff xff xff)) E)
(T (W xfc x67 xfd xff x00 x01 x01 x01)
(L (W x00 x00 x00 x00 x00 x00 x00 x00)) E)))))
(T (W x6c x00 x00 x00 x60 x00 x00 x00)
(T (W xff xff xff xff xff xff xff xff)
(T (W x3e x00 x00 x00 x10 x00 x00 x00)
(T (W x00 x00 x00 x00 x00 x00 x00 x00)
(T (W x00 x00 x00 x00 x00 x00 x00 x00)
(L (W x45 x26 x22 x84 xe4 x9c xf2 xcb))
(L (W xff xff xff xff xff xff xff xff)))
(T (W x00 x00 x00 x00 x00 x00 x00 x00)
(L (W x00 x00 x00 x00 x00 x00 x00 x00)) E))
(T (W x00 x00 x80 x3f x00 x00 x80 x3f)
(T (W xb6 x01 x00 x00 xff xff xff xff)
(L (W xff xff xff xff xff xff xff xff)) E)
(T (W x45 x26 x22 x84 xe4 x9c xf2 xcb)
(L (W x00 x00 x80 xbf x00 x00 x80 xbf)) E)))
(T (W x00 x00 x80 x3f x00 x00 x80 x3f)
(T (W x00 x00 x80 x3f x00 x00 x80 x3f)
(T (W x30 x32 x5f x43 x4c x45 x41 x52)
(L (W xff xff xff xff xff xff xff xff))
(L (W x45 x44 x00 x00 x00 x00 x00 x00)))
(T (W x00 x00 x80 x3f x00 x00 x80 x3f)
(L (W xff xff xff xff xff xff xff xff)) E))
(T (W x00 x00 x80 x3f x00 x00 x80 x3f)
(T (W x00 x00 x00 x00 x00 x00 x00 x00)
(L (W x00 x00 x00 x00 x6c x56 xfe xff)) E)
(T (W x49 xa1 x68 x4a xeb x5f xdd x3d)
(L (W x00 x00 x00 x00 x00 x00 x00 x00)) E))))
(T (W xff xff xff xff xff xff xff xff)
(T (W x00 x00 x80 x3f x00 x00 x80 x3f)
(T (W x2a xb3 xfa xff x74 x00 x00 x00)
(T (W x00 x00 x80 x3f x00 x00 x80 x3f)
(L (W xff xff xff xff xff xff xff xff))
(L (W xff xff xff xff xbc x00 x00 x00)))
(T (W x18 x00 x00 x00 x0c x00 x00 x00)
(L (W x00 x00 x80 xbf x00 x00 x80 xbf)) E))
(T (W x00 x00 x00 x00 x00 x00 x00 x00)
(T (W xff xff xff xff x9c x00 x00 x00)
(L (W x00 x00 x00 x00 x00 x00 x00 x00)) E)
(T (W x45 x26 x22 x84 xe4 x9c xf2 xcb)
(L (W x45 x26 x22 x84 xe4 x9c xf2 xcb)) E)))
(T (W x00 x00 x00 x00 x00 x00 x00 x00)
(T (W xfc xf7 xfa xff x00 x01 x01 x01)
(T (W xd4 x00 x00 x00 xc8 x00 x00 x00)
(L (W x00 x00 x80 xbf x00 x00 x80 xbf))
(L (W x00 x00 x80 xbf x00 x00 x80 xbf)))
(T (W x8a xfd xff xff x00 x00 x01 x01)
(L (W x84 x05 xff xff x13 x00 x00 x00)) E))
(T (W x45 x26 x22 x84 xe4 x9c xf2 xcb)
(T (W xb8 x00 x00 x00 xac x00 x00 x00)
(L (W x45 x44 x00 x00 x00 x00 x00 x00)) E)
(T (W x18 x00 x00 x00 x10 x00 x00 x00)
(L (W x00 x00 x00 x00 x00 x00 x00 x00)) E)))))))))
(T (W xe8 x31 x02 x00 x8c x2f x02 x00)
(T (W xa0 xb2 x00 x00 x54 xb0 x00 x00)
(T (W x00 x00 x80 x3f x00 x00 x80 x3f)
(T (W x00 x00 x00 x00 x00 x00 x00 x00)
(T (W x54 x00 x00 x00 x48 x00 x00 x00)
(T (W xff xff xff xff xff xff xff xff)
(T (W x00 x00 x00 x00 x00 x00 x00 x00)
(T (W x50 x00 x00 x00 x44 x00 x00 x00)
(T (W xff xff xff xff xff xff xff xff)
(L (W xff xff xff xff xff xff xff xff))
(L (W xff xff xff xff xff xff xff xff)))
(T (W x12 x89 xff xff xb3 x01 x00 x00)
(L (W x00 x00 x80 xbf x00 x00 x80 xbf)) E))
(T (W x01 x00 x00 x00 x68 x00 x00 x00)
(T (W x00 x00 x00 x00 x00 x00 x00 x00)
(L (W xff xff xff xff xbc x00 x00 x00))
(L (W xff xff xff xff xff xff xff xff)))
(T (W xff xff xff xff xff xff xff xff)
(L (W x54 x00 x00 x00 x48 x00 x00 x00)) E)))
(T (W xff xff xff xff xff xff xff xff)
(T (W xff xff xff xff xff xff xff xff)
(T (W x61 x72 x6c x69 x6b x65 x5f x6c)
(L (W x00 x00 x00 x00 x00 x00 x00 x00))
(L (W x00 x00 x00 x00 x00 x00 x00 x00)))
(T (W xff xff xff xff xff xff xff xff)
(L (W xff xff xff xff xff xff xff xff)) E))
(T (W x6c x00 x00 x00 x60 x00 x00 x00)
(T (W x00 x00 x00 x00 x04 x00 x00 x00)
(L (W x54 x00 x00 x00 x48 x00 x00 x00)) E)
(T (W x84 x48 xfd xff x19 x00 x00 x00)
(L (W xff xff xff xff xff xff xff xff)) E))))
(T (W x00 x00 x00 x00 x00 x00 x00 x00)
(T (W x00 x00 x80 x3f x00 x00 x80 x3f)
(T (W x00 x00 x4c x00 x50 x00 x00 x00)
(T (W xff xff xff xff xbc x00 x00 x00)
(L (W x00 x00 x00 x00 x00 x00 x00 x00))
(L (W x00 x00 x00 x00 x12 x00 x00 x00)))
(T (W x50 x00 x00 x00 x44 x00 x00 x00)
(L (W x18 x00 x00 x00 x10 x00 x00 x00)) E))
(T (W xff xff xff xff xbc x00 x00 x00)
(T (W x6c x00 x00 x00 x60 x00 x00 x00)
(L (W x00 x00 x00 x00 x00 x00 x00 x00)) E)
(T (W x00 x00 x00 x00 x00 x00 x00 x00)
(L (W xff xff xff xff xff xff xff xff)) E)))
(T (W xc0 x00 x00 x00 xb4 x00 x00 x00)
(T (W xff xff xff xff xff xff xff xff)
(T (W xb8 x00 x00 x00 x28 x00 x00 x00)
(L (W x00 x00 x00 x00 x00 x00 x00 x00))
(L (W x00 x00 x80 xbf x00 x00 x80 xbf)))
(T (W xff xff xff xff xb0 x00 x00 x00)
(L (W x00 x00 x00 x00 x00 x00 x00 x00)) E))
(T (W xff xff xff xff xff xff xff xff)
(T (W x45 x26 x22 x84 xe4 x9c xf2 xcb)
(L (W xff xff xff xff xff xff xff xff)) E)
(T (W xff xff xff xff xff xff xff xff)
(L (W x00 x00 x80 xbf x00 x00 x80 xbf)) E)))))
(T (W xfc xaa xf9 xff x00 x01 x01 x01)
(T (W xff xff xff xff xff xff xff xff)
(T (W x00 x00 x00 x00 x00 x00 x00 x00)
(T (W x00 x00 x80 x3f x00 x00 x80 x3f)
(T (W x00 x00 x80 x3f x00 x00 x80 x3f)
(L (W xff xff xff xff xff xff xff xff))
(L (W xff xff xff xff xff xff xff xff)))
(T (W xff xff xff xff xff xff xff xff)
(L (W x00 x00 x80 xbf x00 x00 x80 xbf)) E))
(T (W x00 x00 x00 x00 x1a xa4 xfe xff)
(T (W x00 x00 x00 x00 x00 x00 x00 x00)
(L (W xff xff xff xff xff xff xff xff)) E)
(T (W x18 x00 x00 x00 x0c x00 x00 x00)
(L (W xff xff xff xff xb0 x00 x00 x00)) E)))
(T (W x18 x00 x00 x00 x10 x00 x00 x00)
(T (W xff xff xff xff xff xff xff xff)
(T (W x00 x00 x80 x3f x00 x00 x80 x3f)
(L (W x00 x00 x00 x00 x00 x00 x00 x00))
(L (W x00 x00 x00 x00 x00 x00 x00 x00)))
(T (W xff xff xff xff xff xff xff xff)
(L (W x30 x32 x5f x43 x4c x45 x41 x52)) E))
(T (W x00 x00 x00 x00 x00 x00 x00 x00)
(T (W x00 x00 x00 x00 x00 x00 x00 x00)
(L (W x18 x00 x00 x00 x0c x00 x00 x00)) E)
(T (W x45 x26 x22 x84 xe4 x9c xf2 xcb)
(L (W x00 x00 x00 x00 x00 x00 x00 x00)) E))))
(T (W x45 x26 x22 x84 xe4 x9c xf2 xcb)
(T (W xff xff xff xff xff xff xff xff)
(T (W x00 x00 x00 x00 x00 x00 x00 x00)
(T (W x00 x00 x80 x3f x00 x00 x80 x3f)
(L (W x00 x00 x00 x00 x00 x00 x00 x00))
(L (W x18 x00 x00 x00 x0c x00 x00 x00)))
(T (W xff xff xff xff xff xff xff xff)
(L (W xff xff xff xff xa0 x00 x00 x00)) E))
(T (W x00 x00 x00 x00 x12 x00 x00 x00)
(T (W x18 x00 x00 x00 x0c x00 x00 x00)
(L (W x00 x00 x80 xbf x00 x00 x80 xbf)) E)
(T (W xff xff xff xff xff xff xff xff)
(L (W xff xff xff xff xff xff xff xff)) E)))
(T (W x00 x00 x00 x00 x6c x69 xfa xff)
(T (W xb8 x00 x00 x00 xac x00 x00 x00)
(T (W xff xff xff xff xff xff xff xff)
(L (W xff xff xff xff xa0 x00 x00 x00))
(L (W xda xe7 xff xff x78 x00 x00 x00)))
(T (W xff xff xff xff xff xff xff xff)
(L (W x4f x84 x6f x8b xe8 xcb x63 xb7)) E))
(T (W x00 x00 x80 x3f x00 x00 x80 x3f)
(T (W x00 x00 x00 x00 x00 x00 x00 x00)
(L (W x00 x00 x00 x00 x00 x00 x00 x00)) E)
(T (W x00 x00 x00 x00 x00 x00 x00 x00)
(L (W x54 x00 x00 x00 x48 x00 x00 x00)) E))))))
(T (W xff xff xff xff xff xff xff xff)
(T (W x00 x00 x00 x00 xa2 x3a xfd xff)
(T (W x00 x00 x80 x3f x00 x00 x80 x3f)
(T (W x00 x00 x00 x00 x00 x00 x00 x00)
(T (W x00 x00 x80 x3f x00 x00 x80 x3f)
(T (W x00 x00 x00 x00 x00 x00 x00 x00)
(L (W x00 x00 x00 x00 x0a x7f xfd xff))
(L (W xff xff xff xff xff xff xff xff)))
(T (W xff xff xff xff xff xff xff xff)
(L (W x00 x00 x80 xbf x00 x00 x80 xbf)) E))
(T (W x45 x26 x22 x84 xe4 x9c xf2 xcb)
(T (W x00 x00 x00 x00 x00 x00 x00 x00)
(L (W x00 x00 x01 x01 x5d x00 x00 x00))
(L (W x50 x00 x00 x00 x18 x00 x00 x00)))
(T (W x04 x00 x00 x00 x5a x5e xfd xff)
(L (W xda xff xfe xff x78 x00 x00 x00)) E)))
(T (W xff xff xff xff x04 x00 x00 x00)
(T (W xff xff xff xff xff xff xff xff)
(T (W x00 x00 x00 x00 x00 x00 x00 x00)
(L (W xff xff xff xff xff xff xff xff))
(L (W x00 x00 x00 x00 x00 x00 x00 x00)))
(T (W xff xff xff xff xff xff xff xff)
(L (W xff xff xff xff xff xff xff xff)) E))
(T (W xff xff xff xff xff xff xff xff)
(T (W x45 x44 x00 x00 x00 x00 x00 x00)
(L (W x68 x00 x00 x00 x5c x00 x00 x00)) E)
(T (W x00 x00 x00 x00 x00 x00 x00 x00)
(L (W x00 x00 x00 x00 x00 x00 x00 x00)) E))))
(T (W x00 x00 x00 x00 x00 x00 x00 x00)
(T (W xff xff xff xff xff xff xff xff)
(T (W x2c xa7 xfa xff x0e x00 x00 x00)
(T (W x6b x65 x5f x77 x61 x72 x6c x69)
(L (W x4c x45 x41 x52 x45 x44 x00 x00))
(L (W x00 x00 x00 x00 x00 x00 x00 x00)))
(T (W x2c xa7 xfc xff x1e x00 x00 x00)
(L (W x45 x26 x22 x84 xe4 x9c xf2 xcb)) E))
(T (W x34 x01 x00 x00 x04 x00 x00 x00)
(T (W x50 x00 x00 x00 x44 x00 x00 x00)
(L (W x45 x26 x22 x84 xe4 x9c xf2 xcb)) E)
(T (W x14 x00 x00 x00 x0c x00 x00 x00)
(L (W x5c x00 x00 x00 xff xff xff xff)) E)))
(T (W xff xff xff xff x03 x00 x00 x00)
(T (W xff xff xff xff xff xff xff xff)
(T (W x01 x00 x00 x00 x29 x00 x00 x00)
(L (W x00 x00 x80 xbf x00 x00 x80 xbf))
(L (W x00 x00 x80 xbf x00 x00 x80 xbf)))
(T (W xff xff xff xff xff xff xff xff)
(L (W x00 x00 x00 x00 x00 x00 x00 x00)) E))
(T (W x00 x00 x00 x00 x00 x00 x00 x00)
(T (W x00 x00 x80 x3f x00 x00 x80 x3f)
(L (W x45 x44 x00 x00 x00 x00 x00 x00)) E)
(T (W xff xff xff xff xff xff xff xff)
(L (W x00 x00 x80 xbf x00 x00 x80 xbf)) E)))))
(T (W x00 x00 x00 x00 x00 x00 x00 x00)
(T (W x00 x00 x80 x3f x00 x00 x80 x3f)
(T (W x00 x00 x80 x3f x00 x00 x80 x3f)
(T (W x00 x00 x80 x3f x00 x00 x80 x3f)
(T (W x68 x00 x00 x00 x5c x00 x00 x00)
(L (W x0f x00 x00 x00 xff xff xff xff))
(L (W x00 x00 x00 x00 x00 x00 x00 x00)))
(T (W xb8 x00 x00 x00 xac x00 x00 x00)
(L (W x6c x00 x00 x00 x60 x00 x00 x00)) E))
(T (W x30 x32 x5f x43 x4c x45 x41 x52)
(T (W x45 x26 x22 x84 xe4 x9c xf2 xcb)
(L (W x00 x00 x00 x00 x00 x00 x00 x00)) E)
(T (W x00 x00 x80 xbf x00 x00 x80 xbf)
(L (W x45 x26 x22 x84 xe4 x9c xf2 xcb)) E)))
(T (W xb8 x00 x00 x00 xac x00 x00 x00)
(T (W xff xff xff xff xff xff xff xff)
(T (W xfc xd2 xfb xff x00 x01 x01 x01)
(L (W x00 x00 x00 x00 x00 x00 x00 x00))
(L (W x00 x00 x80 xbf x00 x00 x80 xbf)))
(T (W x00 x00 x80 x3f x00 x00 x80 x3f)
(L (W x00 x00 x00 x00 x00 x00 x00 x00)) E))
(T (W x45 x26 x22 x84 xe4 x9c xf2 xcb)
(T (W x49 xa1 x68 x4a xeb x5f xdd x3d)
(L (W xff xff xff xff xff xff xff xff)) E)
(T (W x45 x26 x22 x84 xe4 x9c xf2 xcb)
(L (W x00 x00 x00 x00 x00 x00 x00 x00)) E))))
(T (W x00 x00 x00 x00 x00 x00 x00 x00)
(T (W xff xff xff xff xff xff xff xff)
(T (W x00 x00 x00 x00 x02 x00 x00 x00)
(T (W x18 x00 x00 x00 x10 x00 x00 x00)
(L (W x00 x00 x00 x00 x6c xb1 xfd xff))
(L (W x00 x00 x00 x00 x00 x00 x00 x00)))
(T (W x1d x00 x00 x00 x10 x00 x00 x00)
(L (W xff xff xff xff xb0 x00 x00 x00)) E))
(T (W x00 x00 x80 x3f x00 x00 x80 x3f)
(T (W xff xff xff xff xff xff xff xff)
(L (W x00 x00 x80 xbf x00 x00 x80 xbf)) E)
(T (W xff xff xff xff xff xff xff xff)
(L (W xff xff xff xff xff xff xff xff)) E)))
(T (W x45 x26 x22 x84 xe4 x9c xf2 xcb)
(T (W xff xff xff xff x04 x00 x00 x00)
(T (W xff xff xff xff xff xff xff xff)
(L (W xff xff xff xff xff xff xff xff))
(L (W xff xff xff xff xff xff xff xff)))
(T (W x00 x00 x80 x3f x00 x00 x80 x3f)
(L (W x00 x00 x80 xbf x00 x00 x80 xbf)) E))
(T (W xff xff xff xff x9c x00 x00 x00)
(T (W xc5 x01 x00 x00 xff xff xff xff)
(L (W x49 xa1 x68 x4a xeb x5f xdd x3d)) E)
(T (W x00 x00 x00 x00 x00 x00 x00 x00)
(L (W x18 x00 x00 x00 x0c x00 x00 x00)) E)))))))
(T (W xff xff xff xff xff xff xff xff)
(T (W x00 x00 x80 x3f x00 x00 x80 x3f)
(T (W x84 x34 x00 x00 x70 x33 x00 x00)
(T (W x00 x00 x00 x00 x00 x00 x00 x00)
(T (W x64 x00 x00 x00 x9c x00 x00 x00)
(T (W x00 x00 x00 x00 x00 x00 x00 x00)
(T (W x00 x00 x80 x3f x00 x00 x80 x3f)
(L (W x00 x00 x80 xbf x00 x00 x80 xbf))
(L (W x00 x00 x00 x00 x00 x00 x00 x00)))
(T (W x00 x00 x80 x3f x00 x00 x80 x3f)
(L (W xff xff xff xff xff xff xff xff)) E))
(T (W x84 x0c xfb xff x10 x00 x00 x00)
(T (W xfc xfe xfb xff x00 x01 x01 x01)
(L (W x00 x00 x80 xbf x00 x00 x80 xbf))
(L (W x00 x00 x00 x00 x00 x00 x00 x00)))
(T (W xff xff xff xff xff xff xff xff)
(L (W xff xff xff xff xff xff xff xff)) E)))
(T (W x00 x00 x80 x3f x00 x00 x80 x3f)
(T (W x68 x00 x00 x00 x5c x00 x00 x00)
(T (W x18 x00 x00 x00 x10 x00 x00 x00)
(L (W x45 x26 x22 x84 xe4 x9c xf2 xcb))
(L (W xff xff xff xff xff xff xff xff)))
(T (W x00 x00 x80 x3f x00 x00 x80 x3f)
(L (W x00 x00 x80 xbf x00 x00 x80 xbf)) E))
(T (W x00 x00 x00 x00 x00 x00 x00 x00)
(T (W x50 x00 x00 x00 x44 x00 x00 x00)
(L (W x00 x00 x00 x00 x00 x00 x00 x00)) E)
(T (W x18 x00 x00 x00 x10 x00 x00 x00)
(L (W x00 x00 x00 x00 x6c x3d xff xff)) E))))
(T (W x01 x00 x00 x00 x9c x00 x00 x00)
(T (W x70 x5f x6c x65 x61 x64 x65 x72)
(T (W x50 x00 x00 x00 x44 x00 x00 x00)
(T (W x00 x00 x80 x3f x00 x00 x80 x3f)
(L (W x2a x9a xfd xff x74 x00 x00 x00))
(L (W xff xff xff xff xff xff xff xff)))
(T (W x45 x26 x22 x84 xe4 x9c xf2 xcb)
(L (W x30 x32 x5f x43 x4c x45 x41 x52)) E))
(T (W x00 x00 x80 x3f x00 x00 x80 x3f)
(T (W x00 x00 x00 x00 x04 x00 x00 x00)
(L (W xff xff xff xff xff xff xff xff)) E)
(T (W x00 x00 x00 x00 x00 x00 x00 x00)
(L (W x00 x00 x80 xbf x00 x00 x80 xbf)) E)))
(T (W x00 x00 x00 x00 x00 x00 x00 x00)
(T (W x00 x00 x00 x00 x00 x00 x00 x00)
(T (W x49 xa1 x68 x4a xeb x5f xdd x3d)
(L (W xff xff xff xff xff xff xff xff))
(L (W x00 x00 x00 x00 x00 x00 x00 x00)))
(T (W x45 x26 x22 x84 xe4 x9c xf2 xcb)
(L (W x12 x00 x00 x00 x15 x00 x00 x00)) E))
(T (W x6c x00 x00 x00 x60 x00 x00 x00)
(T (W x4b x00 x00 x00 xff xff xff xff)
(L (W x00 x00 x80 xbf x00 x00 x80 xbf)) E)
(T (W x00 x00 x80 xbf x00 x00 x80 xbf)
(L (W x00 x00 x00 x00 x5a x61 xff xff)) E)))))
(T (W xff xff xff xff xff xff xff xff)
(T (W x00 x00 x00 x00 x00 x00 x00 x00)
(T (W xfc x0e xfa xff x00 x01 x01 x01)
(T (W xff xff xff xff xff xff xff xff)
(T (W xb8 x00 x00 x00 x14 x00 x00 x00)
(L (W x00 x00 x80 xbf x00 x00 x80 xbf))
(L (W x00 x00 x80 xbf x00 x00 x80 xbf)))
(T (W x00 x00 x00 x00 x00 x00 x00 x00)
(L (W x45 x44 x00 x00 x00 x00 x00 x00)) E))
(T (W x45 x26 x22 x84 xe4 x9c xf2 xcb)
(T (W xff xff xff xff xff xff xff xff)
(L (W xda x0b xfe xff x78 x00 x00 x00)) E)
(T (W x00 x00 x80 xbf x00 x00 x80 xbf)
(L (W x00 x00 x00 x00 x00 x00 x00 x00)) E)))
(T (W x45 x26 x22 x84 xe4 x9c xf2 xcb)
(T (W x00 x00 x80 x3f x00 x00 x80 x3f)
(T (W x00 x00 x00 x00 x00 x00 x00 x00)
(L (W x6c x00 x00 x00 x60 x00 x00 x00))
(L (W xff xff xff xff xff xff xff xff)))
(T (W x45 x26 x22 x84 xe4 x9c xf2 xcb)
(L (W xda xcb xfe xff x78 x00 x00 x00)) E))
(T (W xff xff xff xff xff xff xff xff)
(T (W xff xff xff xff xff xff xff xff)
(L (W x00 x00 x80 xbf x00 x00 x80 xbf)) E)
(T (W xff xff xff xff xff xff xff xff)
(L (W xff xff xff xff xff xff xff xff)) E))))
(T (W x18 x00 x00 x00 x0c x00 x00 x00)
(T (W x00 x00 x80 x3f x00 x00 x80 x3f)
(T (W x00 x00 x80 x3f x00 x00 x80 x3f)
(T (W x00 x00 x00 x00 x04 x00 x00 x00)
(L (W x00 x00 x80 xbf x00 x00 x80 xbf))
(L (W x45 x26 x22 x84 xe4 x9c xf2 xcb)))
(T (W x18 x00 x00 x00 x0c x00 x00 x00)
(L (W x00 x00 x00 x00 x00 x00 x00 x00)) E))
(T (W xff xff xff xff xff xff xff xff)
(T (W x00 x00 x00 x00 x00 x00 x00 x00)
(L (W x04 x00 x00 x00 xea x32 xfe xff)) E)
(T (W x00 x00 x80 xbf x00 x00 x80 xbf)
(L (W x00 x00 x80 xbf x00 x00 x80 xbf)) E)))
(T (W x00 x00 x00 x00 x00 x00 x00 x00)
(T (W x00 x00 x00 x00 x00 x00 x00 x00)
(T (W x00 x00 x80 x3f x00 x00 x80 x3f)
(L (W x00 x00 x00 x00 x12 x00 x00 x00))
(L (W x00 x00 x00 x00 x12 x00 x00 x00)))
(T (W x49 xa1 x68 x4a xeb x5f xdd x3d)
(L (W xff xff xff xff xff xff xff xff)) E))
(T (W xff xff xff xff xff xff xff xff)
(T (W x50 x00 x00 x00 x44 x00 x00 x00)
(L (W xff xff xff xff xff xff xff xff)) E)
(T (W xfc x6e xfd xff x00 x01 x01 x01)
(L (W x00 x00 x00 x00 x5a x71 xff xff)) E))))))
(T (W x00 x00 x00 x00 x00 x00 x00 x00)
(T (W x45 x26 x22 x84 xe4 x9c xf2 xcb)
(T (W x45 x26 x22 x84 xe4 x9c xf2 xcb)
(T (W xbc x00 x00 x00 xb0 x00 x00 x00)
(T (W x00 x00 x00 x00 x04 x00 x00 x00)
(T (W xda x83 xfb xff x78 x00 x00 x00)
(L (W x49 xa1 x68 x4a xeb x5f xdd x3d))
(L (W x00 x00 x00 x00 x00 x00 x00 x00)))
(T (W x45 x26 x22 x84 xe4 x9c xf2 xcb)
(L (W x04 x00 x00 x00 xca x84 xfe xff)) E))
(T (W x00 x00 x80 x3f x00 x00 x80 x3f)
(T (W xff xff xff xff xc4 x00 x00 x00)
(L (W x00 x00 x80 xbf x00 x00 x80 xbf)) E)
(T (W xff xff xff xff xff xff xff xff)
(L (W x00 x00 x00 x00 x00 x00 x00 x00)) E)))
(T (W x00 x00 x00 x00 x00 x00 x00 x00)
(T (W x00 x00 x80 x3f x00 x00 x80 x3f)
(T (W xff xff xff xff xff xff xff xff)
(L (W xfc xc6 xfd xff x00 x01 x01 x01))
(L (W xff xff xff xff xff xff xff xff)))
(T (W x00 x00 x00 x00 x00 x00 x00 x00)
(L (W x00 x00 x80 xbf x00 x00 x80 xbf)) E))
(T (W x2a x42 xfb xff x74 x00 x00 x00)
(T (W x45 x26 x22 x84 xe4 x9c xf2 xcb)
(L (W x00 x00 x00 x00 x00 x00 x00 x00)) E)
(T (W xff xff xff xff xff xff xff xff)
(L (W x12 x00 x00 x00 x15 x00 x00 x00)) E))))
(T (W x64 x00 x00 x00 x9c x00 x00 x00)
(T (W x00 x00 x80 x3f x00 x00 x80 x3f)
(T (W x00 x00 x80 x3f x00 x00 x80 x3f)
(T (W xb0 x00 x00 x00 x64 x00 x00 x00)
(L (W xff xff xff xff xff xff xff xff))
(L (W x49 xa1 x68 x4a xeb x5f xdd x3d)))
(T (W x00 x00 x80 x3f x00 x00 x80 x3f)
(L (W x45 x26 x22 x84 xe4 x9c xf2 xcb)) E))
(T (W x45 x26 x22 x84 xe4 x9c xf2 xcb)
(T (W x45 x44 x00 x00 x00 x00 x00 x00)
(L (W xff xff xff xff xff xff xff xff)) E)
(T (W x00 x00 x00 x00 x00 x00 x00 x00)
(L (W x00 x00 x80 xbf x00 x00 x80 xbf)) E)))
(T (W x40 x00 x00 x00 x0c x00 x00 x00)
(T (W x00 x00 x00 x00 x00 x00 x00 x00)
(T (W x00 x00 x00 x00 x00 x00 x00 x00)
(L (W xff xff xff xff xff xff xff xff))
(L (W x00 x00 x00 x00 x00 x00 x00 x00)))
(T (W xc5 x00 x00 x00 xff xff xff xff)
(L (W xff xff xff xff xff xff xff xff)) E))
(T (W xff xff xff xff xff xff xff xff)
(T (W x06 x00 x07 x00 x00 x00 x00 x00)
(L (W x17 x00 x00 x00 x1a x00 x00 x00)) E)
(T (W x00 x00 x80 xbf x00 x00 x80 xbf)
(L (W x54 x02 x00 x00 x38 x01 x00 x00)) E)))))
(T (W x00 x00 x80 x3f x00 x00 x80 x3f)
(T (W xff xff xff xff xff xff xff xff)
(T (W xff xff xff xff xff xff xff xff)
(T (W x00 x00 x01 x01 x9d x00 x00 x00)
(T (W x00 x00 x00 x00 x00 x00 x00 x00)
(L (W x00 x00 x80 xbf x00 x00 x80 xbf))
(L (W x68 x00 x00 x00 x5c x00 x00 x00)))
(T (W x00 x00 x00 x00 x00 x00 x00 x00)
(L (W x00 x00 x00 x00 x00 x00 x00 x00)) E))
(T (W x06 x00 x07 x00 x00 x00 x00 x00)
(T (W xff xff xff xff xff xff xff xff)
(L (W x21 x00 x00 x00 x24 x00 x00 x00)) E)
(T (W x00 x00 x00 x00 x00 x00 x00 x00)
(L (W x00 x00 x80 xbf x00 x00 x80 xbf)) E)))
(T (W x00 x00 x00 x00 x00 x00 x00 x00)
(T (W x45 x26 x22 x84 xe4 x9c xf2 xcb)
(T (W xb6 x01 x00 x00 xff xff xff xff)
(L (W x1b x00 x00 x00 x1e x00 x00 x00))
(L (W xff xff xff xff xff xff xff xff)))
(T (W x00 x00 x00 x00 x00 x00 x00 x00)
(L (W xff xff xff xff xb0 x00 x00 x00)) E))
(T (W x70 x5f x6c x65 x61 x64 x65 x72)
(T (W xff xff xff xff xff xff xff xff)
(L (W x00 x00 x80 xbf x00 x00 x80 xbf)) E)
(T (W x00 x00 x00 x00 x00 x00 x00 x00)
(L (W xff xff xff xff xff xff xff xff)) E))))
(T (W x00 x00 x00 x00 x6c xf5 xf9 xff)
(T (W x00 x00 x00 x00 x00 x00 x00 x00)
(T (W x50 x00 x00 x00 x44 x00 x00 x00)
(T (W x00 x00 x80 x3f x00 x00 x80 x3f)
(L (W xff xff xff xff xff xff xff xff))
(L (W x45 x26 x22 x84 xe4 x9c xf2 xcb)))
(T (W x00 x00 x80 x3f x00 x00 x80 x3f)
(L (W x45 x26 x22 x84 xe4 x9c xf2 xcb)) E))
(T (W x00 x00 x00 x00 x00 x00 x00 x00)
(T (W x6c x00 x00 x00 x60 x00 x00 x00)
(L (W x96 x01 x00 x00 xff xff xff xff)) E)
(T (W x54 x00 x00 x00 x48 x00 x00 x00)
(L (W x00 x00 x80 xbf x00 x00 x80 xbf)) E)))
(T (W x00 x00 x00 x00 x00 x00 x00 x00)
(T (W x68 x00 x00 x00 x5c x00 x00 x00)
(T (W x00 x00 x80 x3f x00 x00 x80 x3f)
(L (W x45 x26 x22 x84 xe4 x9c xf2 xcb))
(L (W x45 x26 x22 x84 xe4 x9c xf2 xcb)))
(T (W xff xff xff xff xff xff xff xff)
(L (W xff xff xff xff xff xff xff xff)) E))
(T (W x00 x00 x00 x00 x00 x00 x00 x00)
(T (W x45 x26 x22 x84 xe4 x9c xf2 xcb)
(L (W xff xff xff xff xff xff xff xff)) E)
(T (W x54 x00 x00 x00 x48 x00 x00 x00)
(L (W x00 x00 x00 x00 x00 x00 x00 x00)) E))))))))
(T (W x45 x26 x22 x84 xe4 x9c xf2 xcb)
(T (W x45 x26 x22 x84 xe4 x9c xf2 xcb)
(T (W x45 x26 x22 x84 xe4 x9c xf2 xcb)
(T (W x64 x00 x00 x00 x9c x00 x00 x00)
(T (W xff xff xff xff xff xff xff xff)
(T (W x00 x00 x80 x3f x00 x00 x80 x3f)
(T (W xff xff xff xff xff xff xff xff)
(T (W x00 x00 x00 x00 x00 x00 x00 x00)
(L (W x00 x00 x00 x00 x00 x00 x00 x00))
(L (W x00 x00 x00 x00 x0a x79 xff xff)))
(T (W x00 x00 x00 x00 x00 x00 x00 x00)
(L (W x18 x00 x00 x00 x10 x00 x00 x00)) E))
(T (W xcc x00 x00 x00 xc0 x00 x00 x00)
(T (W x00 x00 x80 x3f x00 x00 x80 x3f)
(L (W x46 x53 x59 x53 x5f x4e x53 x5f))
(L (W xda xf9 xff xff x78 x00 x00 x00)))
(T (W x00 x00 x80 x3f x00 x00 x80 x3f)
(L (W xc4 x00 x00 x00 x02 x00 x00 x00)) E)))
(T (W x00 x00 x00 x00 x00 x00 x00 x00)
(T (W x00 x00 x00 x00 x00 x00 x00 x00)
(T (W x00 x00 x00 x00 x00 x00 x00 x00)
(L (W x00 x00 x00 x00 x00 x00 x00 x00))
(L (W x00 x00 x80 xbf x00 x00 x80 xbf)))
(T (W x00 x00 x00 x00 x00 x00 x00 x00)
(L (W x00 x00 x00 x00 x12 x00 x00 x00)) E))
(T (W xff xff xff xff xff xff xff xff)
(T (W x00 x00 x80 x3f x00 x00 x80 x3f)
(L (W xff xff xff xff xff xff xff xff)) E)
(T (W x00 x00 x80 xbf x00 x00 x80 xbf)
(L (W x00 x00 x00 x00 x00 x00 x00 x00)) E))))
(T (W x45 x26 x22 x84 xe4 x9c xf2 xcb)
(T (W xff xff xff xff xff xff xff xff)
(T (W x45 x26 x22 x84 xe4 x9c xf2 xcb)
(T (W x00 x00 x00 x00 x00 x00 x00 x00)
(L (W x4f x84 x6f x8b xe8 xcb x63 xb7))
(L (W x00 x00 x80 xbf x00 x00 x80 xbf)))
(T (W xff xff xff xff xff xff xff xff)
(L (W xff xff xff xff xff xff xff xff)) E))
(T (W x46 x53 x59 x53 x5f x4e x53 x5f)
(T (W xff xff xff xff x03 x00 x00 x00)
(L (W x00 x00 x80 xbf x00 x00 x80 xbf)) E)
(T (W xff xff xff xff xff xff xff xff)
(L (W x00 x00 x00 x00 x00 x00 x00 x00)) E)))
(T (W xff xff xff xff xff xff xff xff)
(T (W xff xff xff xff xff xff xff xff)
(T (W xff xff xff xff xff xff xff xff)
(L (W x00 x00 x80 xbf x00 x00 x80 xbf))
(L (W xff xff xff xff xff xff xff xff)))
(T (W x54 x02 x00 x00 x38 x01 x00 x00)
(L (W x00 x00 x80 xbf x00 x00 x80 xbf)) E))
(T (W x45 x44 x00 x00 x00 x00 x00 x00)
(T (W x00 x00 x80 x3f x00 x00 x80 x3f)
(L (W x00 x00 x00 x00 x00 x00 x00 x00)) E)
(T (W x00 x00 x00 x00 x00 x00 x00 x00)
(L (W x2a x58 xff xff x74 x00 x00 x00)) E)))))
(T (W xff xff xff xff x03 x00 x00 x00)
(T (W x00 x00 x00 x00 x00 x00 x00 x00)
(T (W x00 x00 x00 x00 x00 x00 x00 x00)
(T (W x64 x00 x00 x00 x9c x00 x00 x00)
(T (W x50 x00 x00 x00 x44 x00 x00 x00)
(L (W x5f x4e x53 x5f x30 x32 x5f x43))
(L (W x30 x32 x5f x43 x4c x45 x41 x52)))
(T (W x12 x9b xff xff x3b x01 x00 x00)
(L (W xff xff xff xff x9c x00 x00 x00)) E))
(T (W x00 x00 x00 x00 x00 x00 x00 x00)
(T (W xfc x0c xfc xff x00 x01 x01 x01)
(L (W x49 xa1 x68 x4a xeb x5f xdd x3d)) E)
(T (W x00 x00 x00 x00 x01 x00 x00 x00)
(L (W xff xff xff xff xff xff xff xff)) E)))
(T (W x92 x5c xfd xff x00 x00 x01 x01)
(T (W x84 xda xfa xff x3c x00 x00 x00)
(T (W x68 x00 x00 x00 x5c x00 x00 x00)
(L (W x45 x26 x22 x84 xe4 x9c xf2 xcb))
(L (W x19 x00 x00 x00 x1c x00 x00 x00)))
(T (W x03 x00 x00 x00 xcc x00 x00 x00)
(L (W x00 x00 x80 xbf x00 x00 x80 xbf)) E))
(T (W x00 x00 x00 x00 x6c x4b xfb xff)
(T (W x00 x00 x80 x3f x00 x00 x80 x3f)
(L (W xa4 x04 x00 x00 x88 x03 x00 x00)) E)
(T (W x00 x00 x00 x00 x6c x4b xfd xff)
(L (W x00 x00 x80 xbf x00 x00 x80 xbf)) E))))
(T (W x00 x00 x80 x3f x00 x00 x80 x3f)
(T (W x40 x00 x00 x00 x0c x00 x00 x00)
(T (W x00 x00 x80 x3f x00 x00 x80 x3f)
(T (W xff xff xff xff x03 x00 x00 x00)
(L (W x00 x00 x00 x00 x00 x00 x00 x00))
(L (W x00 x00 x80 xbf x00 x00 x80 xbf)))
(T (W x00 x00 x80 x3f x00 x00 x80 x3f)
(L (W xff xff xff xff xff xff xff xff)) E))
(T (W x00 x00 x80 x3f x00 x00 x80 x3f)
(T (W xff xff xff xff xff xff xff xff)
(L (W xfc x2c xfe xff x00 x01 x01 x01)) E)
(T (W x00 x00 x00 x00 x00 x00 x00 x00)
(L (W x18 x00 x00 x00 x0c x00 x00 x00)) E)))
(T (W xff xff xff xff xff xff xff xff)
(T (W x00 x00 x00 x00 x00 x00 x00 x00)
(T (W x00 x00 x00 x00 x12 x00 x00 x00)
(L (W xff xff xff xff xff xff xff xff))
(L (W xff xff xff xff xff xff xff xff)))
(T (W x12 x00 x00 x00 x46 x53 x59 x53)
(L (W xcc x00 x00 x00 x01 x00 x00 x00)) E))
(T (W xd4 x00 x00 x00 xc8 x00 x00 x00)
(T (W x45 x26 x22 x84 xe4 x9c xf2 xcb)
(L (W x00 x00 x80 xbf x00 x00 x80 xbf)) E)
(T (W x00 x00 x80 xbf x00 x00 x80 xbf)
(L (W xff xff xff xff xc8 x00 x00 x00)) E))))))
(T (W x00 x00 x01 x01 xc9 x00 x00 x00)
(T (W x00 x00 x00 x00 x00 x00 x00 x00)
(T (W x00 x00 x80 x3f x00 x00 x80 x3f)
(T (W x00 x00 x80 x3f x00 x00 x80 x3f)
(T (W xff xff xff xff xff xff xff xff)
(T (W x00 x00 x80 x3f x00 x00 x80 x3f)
(L (W x88 x03 x00 x00 x5c x02 x00 x00))
(L (W x00 x00 x01 x01 x6c x00 x00 x00)))
(T (W x00 x00 x00 x00 x00 x00 x00 x00)
(L (W x18 x00 x00 x00 x0c x00 x00 x00)) E))
(T (W xff xff xff xff xff xff xff xff)
(T (W x00 x00 x80 x3f x00 x00 x80 x3f)
(L (W x00 x00 x00 x00 x00 x00 x00 x00))
(L (W x2a x00 x00 x00 x74 x00 x00 x00)))
(T (W x45 x26 x22 x84 xe4 x9c xf2 xcb)
(L (W xff xff xff xff xff xff xff xff)) E)))
(T (W x40 x00 x00 x00 x10 x00 x00 x00)
(T (W x00 x00 x00 x00 x00 x00 x00 x00)
(T (W x2a xc0 xfb xff x74 x00 x00 x00)
(L (W x00 x00 x80 xbf x00 x00 x80 xbf))
(L (W x00 x00 x80 xbf x00 x00 x80 xbf)))
(T (W x16 x00 x00 x00 x10 x00 x00 x00)
(L (W x00 x00 x00 x00 x00 x00 x00 x00)) E))
(T (W x00 x00 x00 x00 x00 x00 x00 x00)
(T (W x00 x00 x80 x3f x00 x00 x80 x3f)
(L (W x2a x00 x00 x00 xff xff xff xff)) E)
(T (W x18 x00 x00 x00 x0c x00 x00 x00)
(L (W x00 x00 x80 xbf x00 x00 x80 xbf)) E))))
(T (W x45 x26 x22 x84 xe4 x9c xf2 xcb)
(T (W x00 x00 x00 x00 x00 x00 x00 x00)
(T (W x00 x00 x80 x3f x00 x00 x80 x3f)
(T (W x00 x00 x80 x3f x00 x00 x80 x3f)
(L (W xc0 x00 x00 x00 x01 x00 x00 x00))
(L (W x00 x00 x58 x00 x00 x00 x00 x00)))
(T (W x00 x00 x00 x00 x00 x00 x00 x00)
(L (W x04 x00 x00 x00 xea xa8 xfe xff)) E))
(T (W x45 x26 x22 x84 xe4 x9c xf2 xcb)
(T (W xff xff xff xff xff xff xff xff)
(L (W xda x21 xfe xff x78 x00 x00 x00)) E)
(T (W xff xff xff xff xff xff xff xff)
(L (W x00 x00 x00 x00 x12 x00 x00 x00)) E)))
(T (W xff xff xff xff xff xff xff xff)
(T (W x92 xf4 xfd xff x00 x00 x01 x01)
(T (W x4a x00 x00 x00 xff xff xff xff)
(L (W xfc xe4 xfd xff x00 x01 x01 x01))
(L (W xff xff xff xff xff xff xff xff)))
(T (W x00 x00 x80 x3f x00 x00 x80 x3f)
(L (W x00 x00 x00 x00 x6c xe3 xfe xff)) E))
(T (W x50 x00 x00 x00 x44 x00 x00 x00)
(T (W x01 x00 x00 x00 x9c x00 x00 x00)
(L (W x4f x84 x6f x8b xe8 xcb x63 xb7)) E)
(T (W x00 x00 x00 x00 x00 x00 x00 x00)
(L (W x18 x00 x00 x00 x0c x00 x00 x00)) E)))))
(T (W x45 x26 x22 x84 xe4 x9c xf2 xcb)
(T (W x45 x26 x22 x84 xe4 x9c xf2 xcb)
(T (W xb8 x00 x00 x00 xac x00 x00 x00)
(T (W x45 x26 x22 x84 xe4 x9c xf2 xcb)
(T (W xff xff xff xff xff xff xff xff)
(L (W x00 x00 x00 x00 x00 x00 x00 x00))
(L (W x45 x26 x22 x84 xe4 x9c xf2 xcb)))
(T (W xff xff xff xff xff xff xff xff)
(L (W xff xff xff xff xff xff xff xff)) E))
(T (W xfc x14 xfb xff x00 x01 x01 x01)
(T (W xb8 x00 x00 x00 x28 x00 x00 x00)
(L (W x00 x00 x00 x00 x00 x00 x00 x00)) E)
(T (W xff xff xff xff xff xff xff xff)
(L (W x30 x32 x5f x43 x4c x45 x41 x52)) E)))
(T (W xff xff xff xff xff xff xff xff)
(T (W x01 x00 x00 x00 x04 x00 x00 x00)
(T (W xff xff xff xff xff xff xff xff)
(L (W x00 x00 x80 xbf x00 x00 x80 xbf))
(L (W xcc x00 x00 x00 x01 x00 x00 x00)))
(T (W xff xff xff xff xff xff xff xff)
(L (W x00 x00 x80 xbf x00 x00 x80 xbf)) E))
(T (W xff xff xff xff xff xff xff xff)
(T (W x54 x00 x00 x00 x48 x00 x00 x00)
(L (W x00 x00 x00 x00 x00 x00 x00 x00)) E)
(T (W xff xff xff xff xff xff xff xff)
(L (W xff xff xff xff xb0 x00 x00 x00)) E))))
(T (W x50 x00 x00 x00 x44 x00 x00 x00)
(T (W x00 x00 x00 x00 x00 x00 x00 x00)
(T (W x00 x00 x00 x00 x00 x00 x00 x00)
(T (W x00 x00 x00 x00 x00 x00 x00 x00)
(L (W xb0 x00 x00 x00 x64 x00 x00 x00))
(L (W x00 x00 x80 xbf x00 x00 x80 xbf)))
(T (W x00 x00 x00 x00 x00 x00 x00 x00)
(L (W x54 x02 x00 x00 x38 x01 x00 x00)) E))
(T (W x45 x26 x22 x84 xe4 x9c xf2 xcb)
(T (W x45 x44 x00 x00 x00 x00 x00 x00)
(L (W xbc x00 x00 x00 x32 x00 x00 x00)) E)
(T (W x00 x00 x00 x00 x00 x00 x00 x00)
(L (W x30 x32 x5f x43 x4c x45 x41 x52)) E)))
(T (W xff xff xff xff xff xff xff xff)
(T (W x00 x00 x00 x00 x00 x00 x00 x00)
(T (W x00 x00 x00 x00 x00 x00 x00 x00)
(L (W x00 x00 x00 x00 xea xf8 xfd xff))
(L (W x00 x00 x00 x00 x00 x00 x00 x00)))
(T (W x68 x00 x00 x00 x5c x00 x00 x00)
(L (W xbc x00 x00 x00 x64 x00 x00 x00)) E))
(T (W x00 x00 x00 x00 x5a x77 xfb xff)
(T (W x00 x00 x00 x00 x00 x00 x00 x00)
(L (W x6c x00 x00 x00 x60 x00 x00 x00)) E)
(T (W x14 x00 x18 x00 x05 x00 x06 x00)
(L (W xff xff xff xff xff xff xff xff)) E)))))))
(T (W xff xff xff xff x13 x00 x00 x00)
(T (W x18 x00 x00 x00 x0c x00 x00 x00)
(T (W xff xff xff xff xff xff xff xff)
(T (W x00 x00 x00 x00 x00 x00 x00 x00)
(T (W x02 x05 xfd xff xc6 x01 x00 x00)
(T (W x00 x00 x00 x00 x00 x00 x00 x00)
(T (W xff xff xff xff xff xff xff xff)
(L (W xff xff xff xff xff xff xff xff))
(L (W xda x7d xff xff x78 x00 x00 x00)))
(T (W xb8 x00 x00 x00 xac x00 x00 x00)
(L (W x00 x00 x00 x00 x00 x00 x00 x00)) E))
(T (W x00 x00 x80 x3f x00 x00 x80 x3f)
(T (W xff xff xff xff xff xff xff xff)
(L (W xda xfd xfd xff x78 x00 x00 x00))
(L (W x50 x00 x54 x00 x58 x00 x5c x00)))
(T (W x00 x00 x80 xbf x00 x00 x80 xbf)
(L (W x00 x00 x00 x00 x00 x00 x00 x00)) E)))
(T (W x68 x00 x00 x00 x5c x00 x00 x00)
(T (W x18 x00 x00 x00 x0c x00 x00 x00)
(T (W xff xff xff xff x01 x00 x00 x00)
(L (W x00 x00 x80 xbf x00 x00 x80 xbf))
(L (W x00 x00 x00 x00 x00 x00 x00 x00)))
(T (W x18 x00 x00 x00 x0c x00 x00 x00)
(L (W xff xff xff xff xb0 x00 x00 x00)) E))
(T (W x00 x00 x80 x3f x00 x00 x80 x3f)
(T (W xff xff xff xff xff xff xff xff)
(L (W x00 x00 x80 xbf x00 x00 x80 xbf)) E)
(T (W xc7 x01 x00 x00 xff xff xff xff)
(L (W xff xff xff xff xff xff xff xff)) E))))
(T (W xff xff xff xff x01 x00 x00 x00)
(T (W x00 x00 x80 x3f x00 x00 x80 x3f)
(T (W xff xff xff xff xff xff xff xff)
(T (W xff xff xff xff xff xff xff xff)
(L (W xff xff xff xff xff xff xff xff))
(L (W xff xff xff xff xff xff xff xff)))
(T (W xb8 x00 x00 x00 xac x00 x00 x00)
(L (W x00 x00 x80 xbf x00 x00 x80 xbf)) E))
(T (W x18 x00 x00 x00 x0c x00 x00 x00)
(T (W x00 x00 x80 x3f x00 x00 x80 x3f)
(L (W x00 x00 x00 x00 x00 x00 x00 x00)) E)
(T (W x44 x00 x00 x00 x00 x00 x80 xbf)
(L (W x68 x00 x00 x00 x5c x00 x00 x00)) E)))
(T (W x00 x00 x80 x3f x00 x00 x80 x3f)
(T (W xda xdd xfa xff x78 x00 x00 x00)
(T (W x54 x00 x00 x00 x48 x00 x00 x00)
(L (W x00 x00 x00 x00 x5a x3c xfe xff))
(L (W x00 x00 x00 x00 x00 x00 x00 x00)))
(T (W xda xdd xfc xff x78 x00 x00 x00)
(L (W xff xff xff xff xff xff xff xff)) E))
(T (W xff xff xff xff xff xff xff xff)
(T (W x00 x00 x00 x00 x12 x00 x00 x00)
(L (W xff xff xff xff xff xff xff xff)) E)
(T (W xfc x60 xfd xff x00 x01 x01 x01)
(L (W x00 x00 x00 x00 x00 x00 x00 x00)) E)))))
(T (W x00 x00 x00 x00 x1a x4a xfd xff)
(T (W x00 x00 x80 x3f x00 x00 x80 x3f)
(T (W xff xff xff xff xff xff xff xff)
(T (W x45 x26 x22 x84 xe4 x9c xf2 xcb)
(T (W x00 x00 x00 x00 x00 x00 x00 x00)
(L (W xff xff xff xff xac x00 x00 x00))
(L (W xff xff xff xff xff xff xff xff)))
(T (W x00 x00 x80 x3f x00 x00 x80 x3f)
(L (W x49 xa1 x68 x4a xeb x5f xdd x3d)) E))
(T (W xff xff xff xff xff xff xff xff)
(T (W x1c x00 x00 x00 x10 x00 x00 x00)
(L (W xff xff xff xff xff xff xff xff)) E)
(T (W x00 x00 x00 x00 x00 x00 x00 x00)
(L (W x00 x00 x80 xbf x00 x00 x80 xbf)) E)))
(T (W xfc x50 xfa xff x00 x01 x01 x01)
(T (W x01 x00 x00 x00 x3e x00 x00 x00)
(T (W x00 x00 x00 x00 x00 x00 x00 x00)
(L (W xff xff xff xff xff xff xff xff))
(L (W x46 x53 x59 x53 x5f x4e x53 x5f)))
(T (W x00 x00 x00 x00 x00 x00 x00 x00)
(L (W xff xff xff xff xbc x00 x00 x00)) E))
(T (W x4f x84 x6f x8b xe8 xcb x63 xb7)
(T (W x4a x00 x00 x00 xff xff xff xff)
(L (W x00 x00 x00 x00 x6c x4f xfe xff)) E)
(T (W x00 x00 x00 x00 x00 x00 x00 x00)
(L (W x00 x00 x00 x00 x00 x00 x00 x00)) E))))
(T (W x04 x00 x00 x00 x1a x8a xfd xff)
(T (W x00 x00 x00 x00 x6c x2f xfa xff)
(T (W x64 x00 x00 x00 x9c x00 x00 x00)
(T (W x00 x00 x80 x3f x00 x00 x80 x3f)
(L (W x00 x00 x80 xbf x00 x00 x80 xbf))
(L (W xff xff xff xff xff xff xff xff)))
(T (W xff xff xff xff xff xff xff xff)
(L (W x00 x00 x80 xbf x00 x00 x80 xbf)) E))
(T (W x00 x00 x00 x00 x00 x00 x00 x00)
(T (W x00 x00 x00 x00 x6c x2f xfc xff)
(L (W x45 x26 x22 x84 xe4 x9c xf2 xcb)) E)
(T (W x00 x00 x00 x00 x6c x2f xfd xff)
(L (W x18 x00 x00 x00 x10 x00 x00 x00)) E)))
(T (W x00 x00 x00 x00 x00 x00 x00 x00)
(T (W x00 x00 x80 x3f x00 x00 x80 x3f)
(T (W xd4 x00 x00 x00 xc8 x00 x00 x00)
(L (W x00 x00 x80 xbf x00 x00 x80 xbf))
(L (W x00 x00 x80 xbf x00 x00 x80 xbf)))
(T (W xff xff xff xff xff xff xff xff)
(L (W x00 x00 x00 x00 x00 x00 x00 x00)) E))
(T (W x00 x00 x00 x00 x00 x00 x00 x00)
(T (W xff xff xff xff x03 x00 x00 x00)
(L (W x45 x44 x00 x00 x00 x00 x00 x00)) E)
(T (W xff xff xff xff xff xff xff xff)
(L (W x00 x00 x80 xbf x00 x00 x80 xbf)) E))))))
(T (W x00 x00 x80 x3f x00 x00 x80 x3f)
(T (W x00 x00 x80 x3f x00 x00 x80 x3f)
(T (W xff xff xff xff xff xff xff xff)
(T (W x8a x0e xfd xff x00 x00 x01 x01)
(T (W x00 x00 x00 x00 x00 x00 x00 x00)
(T (W xb4 x05 x00 x00 x84 x04 x00 x00)
(L (W xfc x88 xfd xff x00 x01 x01 x01))
(L (W xff xff xff xff xa0 x00 x00 x00)))
(T (W x50 x00 x00 x00 x44 x00 x00 x00)
(L (W x00 x00 x00 x00 x00 x00 x00 x00)) E))
(T (W xff xff xff xff xff xff xff xff)
(T (W xff xff xff xff xff xff xff xff)
(L (W x1b x00 x00 x00 x1e x00 x00 x00)) E)
(T (W x00 x00 x00 x00 x00 x00 x00 x00)
(L (W x00 x00 x00 x00 x00 x00 x00 x00)) E)))
(T (W x2a x44 xfa xff x74 x00 x00 x00)
(T (W x40 x00 x00 x00 x9c x00 x00 x00)
(T (W x00 x00 x00 x00 x00 x00 x00 x00)
(L (W xff xff xff xff xff xff xff xff))
(L (W x00 x00 x00 x00 x00 x00 x00 x00)))
(T (W x00 x00 x60 x00 x00 x00 x00 x00)
(L (W xff xff xff xff x9c x00 x00 x00)) E))
(T (W xff xff xff xff xff xff xff xff)
(T (W x4b x00 x00 x00 xff xff xff xff)
(L (W x00 x00 x80 xbf x00 x00 x80 xbf)) E)
(T (W x00 x00 x00 x00 x00 x00 x00 x00)
(L (W xff xff xff xff xff xff xff xff)) E))))
(T (W xff xff xff xff xff xff xff xff)
(T (W xff xff xff xff x03 x00 x00 x00)
(T (W xff xff xff xff xff xff xff xff)
(T (W x5f x4e x53 x5f x30 x32 x5f x43)
(L (W x92 xe7 xff xff xc9 x00 x00 x00))
(L (W x10 x00 x14 x00 x18 x00 x1c x00)))
(T (W xb8 x00 x00 x00 xac x00 x00 x00)
(L (W x00 x00 x80 xbf x00 x00 x80 xbf)) E))
(T (W xff xff xff xff xff xff xff xff)
(T (W x00 x00 x80 x3f x00 x00 x80 x3f)
(L (W x00 x00 x00 x00 x12 x00 x00 x00)) E)
(T (W x54 x00 x00 x00 x48 x00 x00 x00)
(L (W xda x25 xff xff x78 x00 x00 x00)) E)))
(T (W x00 x00 x80 x3f x00 x00 x80 x3f)
(T (W x00 x00 x80 x3f x00 x00 x80 x3f)
(T (W x45 x26 x22 x84 xe4 x9c xf2 xcb)
(L (W x6f x6b x65 x5f x63 x6f x77 x61))
(L (W x45 x26 x22 x84 xe4 x9c xf2 xcb)))
(T (W x00 x00 x80 x3f x00 x00 x80 x3f)
(L (W x45 x44 x00 x00 x00 x00 x00 x00)) E))
(T (W x00 x00 x00 x00 x00 x00 x00 x00)
(T (W xff xff xff xff xff xff xff xff)
(L (W xff xff xff xff xff xff xff xff)) E)
(T (W xb0 x00 x00 x00 x64 x00 x00 x00)
(L (W x45 x26 x22 x84 xe4 x9c xf2 xcb)) E)))))
(T (W x00 x00 x00 x00 x6c xb7 xf9 xff)
(T (W xff xff xff xff xff xff xff xff)
(T (W x00 x00 x00 x00 x00 x00 x00 x00)
(T (W x00 x00 x80 x3f x00 x00 x80 x3f)
(T (W x45 x26 x22 x84 xe4 x9c xf2 xcb)
(L (W xff xff xff xff xff xff xff xff))
(L (W xff xff xff xff xff xff xff xff)))
(T (W x45 x26 x22 x84 xe4 x9c xf2 xcb)
(L (W x45 x26 x22 x84 xe4 x9c xf2 xcb)) E))
(T (W x6c x00 x00 x00 x60 x00 x00 x00)
(T (W x45 x44 x00 x00 x00 x00 x00 x00)
(L (W xff xff xff xff xff xff xff xff)) E)
(T (W xff xff xff xff xff xff xff xff)
(L (W xfc x18 xff xff x00 x01 x01 x01)) E)))
(T (W x00 x00 x80 x3f x00 x00 x80 x3f)
(T (W x68 x00 x00 x00 x5c x00 x00 x00)
(T (W x00 x00 x00 x00 x00 x00 x00 x00)
(L (W xff xff xff xff xff xff xff xff))
(L (W x00 x00 x00 x00 x00 x00 x00 x00)))
(T (W x00 x00 x80 x3f x00 x00 x80 x3f)
(L (W xff xff xff xff xff xff xff xff)) E))
(T (W x2a x54 xfb xff x74 x00 x00 x00)
(T (W x00 x00 x00 x00 x00 x00 x00 x00)
(L (W x12 x00 x00 x00 x15 x00 x00 x00)) E)
(T (W x00 x00 x80 xbf x00 x00 x80 xbf)
(L (W x00 x00 x00 x00 x00 x00 x00 x00)) E))))
(T (W xc7 x01 x00 x00 xff xff xff xff)
(T (W x00 x00 x80 x3f x00 x00 x80 x3f)
(T (W x00 x00 x00 x00 x6c xb7 xfa xff)
(T (W x01 x00 x00 x00 x14 x00 x00 x00)
(L (W xff xff xff xff xff xff xff xff))
(L (W xff xff xff xff xff xff xff xff)))
(T (W x64 x00 x00 x00 x9c x00 x00 x00)
(L (W xda xb5 xfe xff x78 x00 x00 x00)) E))
(T (W x00 x00 x80 x3f x00 x00 x80 x3f)
(T (W xff xff xff xff x03 x00 x00 x00)
(L (W x49 xa1 x68 x4a xeb x5f xdd x3d)) E)
(T (W xff xff xff xff xff xff xff xff)
(L (W xc4 x00 x00 x00 x02 x00 x00 x00)) E)))
(T (W x00 x00 x00 x00 x00 x00 x00 x00)
(T (W x45 x26 x22 x84 xe4 x9c xf2 xcb)
(T (W xff xff xff xff xff xff xff xff)
(L (W x6c x00 x00 x00 x60 x00 x00 x00))
(L (W xda xf5 xff xff x78 x00 x00 x00)))
(T (W x5f x4e x53 x5f x30 x32 x5f x43)
(L (W x49 xa1 x68 x4a xeb x5f xdd x3d)) E))
(T (W x18 x00 x00 x00 x0c x00 x00 x00)
(T (W xff xff xff xff xff xff xff xff)
(L (W x00 x00 x00 x00 x00 x00 x00 x00)) E)
(T (W x03 x00 x00 x00 xd0 x00 x00 x00)
(L (W x00 x00 x80 xbf x00 x00 x80 xbf)) E)))))))))))
(T (W xe0 x4a x05 x00 x34 x46 x05 x00)
(T (W x60 x60 x04 x00 x14 x57 x04 x00)
(T (W x38 x49 x03 x00 xf4 x46 x03 x00)
(T (W x88 x6a x01 x00 x54 x69 x01 x00)
(T (W xbc x81 xf9 xff x00 x01 x01 x01)
(T (W x45 x26 x22 x84 xe4 x9c xf2 xcb)
(T (W x18 x00 x00 x00 x0c x00 x00 x00)
(T (W xff xff xff xff xff xff xff xff)
(T (W x45 x26 x22 x84 xe4 x9c xf2 xcb)
(T (W xea x74 xfa xff x74 x00 x00 x00)
(T (W x00 x00 x00 x00 x1a x7c xfb xff)
(L (W x45 x44 x00 x00 x00 x00 x00 x00))
(L (W xff xff xff xff xff xff xff xff)))
(T (W x00 x00 x00 x00 x00 x00 x00 x00)
(L (W x54 x00 x00 x00 x48 x00 x00 x00)) E))
(T (W x00 x00 x00 x00 x01 x00 x00 x00)
(T (W x00 x00 x00 x00 x00 x00 x00 x00)
(L (W xff xff xff xff xff xff xff xff))
(L (W xff xff xff xff xff xff xff xff)))
(T (W x00 x00 x80 x3f x00 x00 x80 x3f)
(L (W x18 x00 x00 x00 x10 x00 x00 x00)) E)))
(T (W xff xff xff xff xff xff xff xff)
(T (W x52 xc9 xfd xff x00 x00 x01 x01)
(T (W x00 x00 x00 x00 x00 x00 x00 x00)
(L (W x00 x00 x00 x00 x00 x00 x00 x00))
(L (W x4f x84 x6f x8b xe8 xcb x63 xb7)))
(T (W x1b x00 x00 x00 x10 x00 x00 x00)
(L (W xff xff xff xff xff xff xff xff)) E))
(T (W x21 x00 x00 x00 x24 x00 x00 x00)
(T (W x45 x44 x00 x00 x00 x00 x00 x00)
(L (W x18 x00 x00 x00 x10 x00 x00 x00)) E)
(T (W x00 x00 x00 x00 x12 x00 x00 x00)
(L (W x00 x00 x00 x00 x00 x00 x00 x00)) E))))
(T (W x00 x00 x00 x00 x00 x00 x00 x00)
(T (W x00 x00 x80 x3f x00 x00 x80 x3f)
(T (W xff xff xff xff xff xff xff xff)
(T (W xff xff xff xff xff xff xff xff)
(L (W x4c x45 x41 x52 x45 x44 x00 x00))
(L (W x45 x26 x22 x84 xe4 x9c xf2 xcb)))
(T (W xb8 x00 x00 x00 xac x00 x00 x00)
(L (W xff xff xff xff xff xff xff xff)) E))
(T (W xff xff xff xff xff xff xff xff)
(T (W x00 x00 x80 x3f x00 x00 x80 x3f)
(L (W x45 x26 x22 x84 xe4 x9c xf2 xcb)) E)
(T (W x00 x00 x00 x00 x00 x00 x00 x00)
(L (W xff xff xff xff xff xff xff xff)) E)))
(T (W xff xff xff xff xff xff xff xff)
(T (W x4a xdf xfd xff x00 x00 x01 x01)
(T (W xff xff xff xff xff xff xff xff)
(L (W x00 x00 x00 x00 x00 x00 x00 x00))
(L (W x00 x00 x80 xbf x00 x00 x80 xbf)))
(T (W xff xff xff xff xff xff xff xff)
(L (W x00 x00 x00 x00 x00 x00 x00 x00)) E))
(T (W xa0 x01 x00 x00 xff xff xff xff)
(T (W x00 x00 x80 x3f x00 x00 x80 x3f)
(L (W x00 x00 x00 x00 x00 x00 x00 x00)) E)
(T (W xff xff xff xff xff xff xff xff)
(L (W x00 x00 x80 xbf x00 x00 x80 xbf)) E)))))
(T (W xff xff xff xff xff xff xff xff)
(T (W x00 x00 x00 x00 x00 x00 x00 x00)
(T (W x00 x00 x80 x3f x00 x00 x80 x3f)
(T (W x68 x00 x00 x00 x5c x00 x00 x00)
(T (W x00 x00 x80 x3f x00 x00 x80 x3f)
(L (W x17 x00 x00 x00 xff xff xff xff))
(L (W x00 x00 x01 x01 x5c x00 x00 x00)))
(T (W xff xff xff xff xff xff xff xff)
(L (W x9a x86 xfe xff x78 x00 x00 x00)) E))
(T (W x5f x4e x53 x5f x30 x32 x5f x43)
(T (W x00 x00 x00 x00 x00 x00 x00 x00)
(L (W x00 x00 x00 x00 x8a x07 xfe xff)) E)
(T (W xff xff xff xff x9c x00 x00 x00)
(L (W x00 x00 x00 x00 x2c x08 xff xff)) E)))
(T (W xff xff xff xff xff xff xff xff)
(T (W x6c x00 x00 x00 xff xff xff xff)
(T (W x00 x00 x80 x3f x00 x00 x80 x3f)
(L (W x00 x00 x00 x00 x00 x00 x00 x00))
(L (W x00 x00 x80 xbf x00 x00 x80 xbf)))
(T (W x00 x00 x80 x3f x00 x00 x80 x3f)
(L (W x14 x00 x00 x00 x10 x00 x00 x00)) E))
(T (W x00 x00 x00 x00 x00 x00 x00 x00)
(T (W x49 xa1 x68 x4a xeb x5f xdd x3d)
(L (W xff xff xff xff xc8 x00 x00 x00)) E)
(T (W x00 x00 x80 xbf x00 x00 x80 xbf)
(L (W x4f x84 x6f x8b xe8 xcb x63 xb7)) E))))
(T (W x00 x00 x00 x00 x00 x00 x00 x00)
(T (W x00 x00 x00 x00 x00 x00 x00 x00)
(T (W x00 x00 x00 x00 x00 x00 x00 x00)
(T (W x00 x00 x80 x3f x00 x00 x80 x3f)
(L (W x45 x26 x22 x84 xe4 x9c xf2 xcb))
(L (W x00 x00 x00 x00 xca xa5 xff xff)))
(T (W xec xad xfc xff x17 x00 x00 x00)
(L (W xff xff xff xff xff xff xff xff)) E))
(T (W x00 x00 x00 x00 x00 x00 x00 x00)
(T (W xff xff xff xff xff xff xff xff)
(L (W x54 x00 x00 x00 x48 x00 x00 x00)) E)
(T (W xff xff xff xff xff xff xff xff)
(L (W xff xff xff xff xff xff xff xff)) E)))
(T (W xff xff xff xff xff xff xff xff)
(T (W xff xff xff xff xff xff xff xff)
(T (W xff xff xff xff xff xff xff xff)
(L (W x03 x00 x00 x00 xd8 x00 x00 x00))
(L (W x18 x00 x00 x00 x0c x00 x00 x00)))
(T (W xff xff xff xff xff xff xff xff)
(L (W x00 x00 x80 xbf x00 x00 x80 xbf)) E))
(T (W x00 x00 x80 x3f x00 x00 x80 x3f)
(T (W x00 x00 x00 x00 x00 x00 x00 x00)
(L (W x00 x00 x00 x00 x00 x00 x00 x00)) E)
(T (W x44 x77 xfd xff x15 x00 x00 x00)
(L (W x45 x26 x22 x84 xe4 x9c xf2 xcb)) E))))))
(T (W xff xff xff xff x0b x00 x00 x00)
(T (W x00 x00 x00 x00 x00 x00 x00 x00)
(T (W x00 x00 x80 x3f x00 x00 x80 x3f)
(T (W x45 x26 x22 x84 xe4 x9c xf2 xcb)
(T (W x00 x00 x80 x3f x00 x00 x80 x3f)
(T (W x00 x00 x00 x00 x00 x00 x00 x00)
(L (W x00 x00 x00 x00 x00 x00 x00 x00))
(L (W xff xff xff xff xff xff xff xff)))
(T (W xd2 x8f xff xff x9f x01 x00 x00)
(L (W x00 x00 x00 x00 x2c x80 xfe xff)) E))
(T (W xff xff xff xff x03 x00 x00 x00)
(T (W x4f x84 x6f x8b xe8 xcb x63 xb7)
(L (W xff xff xff xff xff xff xff xff))
(L (W x00 x00 x80 xbf x00 x00 x80 xbf)))
(T (W xff xff xff xff xff xff xff xff)
(L (W x18 x00 x00 x00 x0c x00 x00 x00)) E)))
(T (W xff xff xff xff xff xff xff xff)
(T (W xff xff xff xff xff xff xff xff)
(T (W x45 x26 x22 x84 xe4 x9c xf2 xcb)
(L (W x00 x00 x00 x00 x00 x00 x5c x00))
(L (W x00 x00 x80 xbf x00 x00 x80 xbf)))
(T (W xff xff xff xff xff xff xff xff)
(L (W x00 x00 x00 x00 x00 x00 x00 x00)) E))
(T (W xff xff xff xff xff xff xff xff)
(T (W x00 x00 x00 x00 x00 x00 x00 x00)
(L (W x18 x00 x00 x00 x0c x00 x00 x00)) E)
(T (W x45 x26 x22 x84 xe4 x9c xf2 xcb)
(L (W x00 x00 x00 x00 x00 x00 x00 x00)) E))))
(T (W x45 x26 x22 x84 xe4 x9c xf2 xcb)
(T (W x6f x77 x61 x72 x64 x00 x00 x00)
(T (W x00 x00 x00 x00 x00 x00 x00 x00)
(T (W x30 x32 x5f x43 x4c x45 x41 x52)
(L (W x00 x00 x00 x00 x00 x00 x00 x00))
(L (W x4f x84 x6f x8b xe8 xcb x63 xb7)))
(T (W xd2 xaf xff xff xaf x00 x00 x00)
(L (W xff xff xff xff xff xff xff xff)) E))
(T (W x00 x00 x00 x00 xca x1d xfb xff)
(T (W x45 x26 x22 x84 xe4 x9c xf2 xcb)
(L (W x00 x00 x80 xbf x00 x00 x80 xbf)) E)
(T (W xff xff xff xff xff xff xff xff)
(L (W x84 x04 x00 x00 x70 x03 x00 x00)) E)))
(T (W xff xff xff xff x03 x00 x00 x00)
(T (W xff xff xff xff xff xff xff xff)
(T (W xff xff xff xff xff xff xff xff)
(L (W x45 x26 x22 x84 xe4 x9c xf2 xcb))
(L (W x00 x00 x00 x00 x2c xe0 xff xff)))
(T (W xff xff xff xff xff xff xff xff)
(L (W x00 x00 x00 x00 x00 x00 x00 x00)) E))
(T (W x00 x00 x00 x00 x00 x00 x00 x00)
(T (W x00 x00 x80 x3f x00 x00 x80 x3f)
(L (W x00 x00 x00 x00 x00 x00 x00 x00)) E)
(T (W xff xff xff xff xff xff xff xff)
(L (W x6c x00 x00 x00 x60 x00 x00 x00)) E)))))
(T (W x00 x00 x80 x3f x00 x00 x80 x3f)
(T (W x18 x00 x00 x00 x0c x00 x00 x00)
(T (W x00 x00 x00 x00 x00 x00 x00 x00)
(T (W xea x8c xfa xff x74 x00 x00 x00)
(T (W x9a x8e xfb xff x78 x00 x00 x00)
(L (W x00 x00 x00 x00 x00 x00 x00 x00))
(L (W x00 x00 x00 x00 x00 x00 x00 x00)))
(T (W xff xff xff xff xff xff xff xff)
(L (W xff xff xff xff xa0 x00 x00 x00)) E))
(T (W x00 x00 x00 x00 x00 x00 x00 x00)
(T (W x00 x00 x80 x3f x00 x00 x80 x3f)
(L (W x00 x00 x00 x00 x12 x00 x00 x00)) E)
(T (W x00 x00 x80 xbf x00 x00 x80 xbf)
(L (W x14 x00 x00 x00 x17 x00 x00 x00)) E)))
(T (W xff xff xff xff xff xff xff xff)
(T (W xc2 xd5 xfd xff xd0 x00 x00 x00)
(T (W x68 x00 x00 x00 x5c x00 x00 x00)
(L (W x00 x00 x00 x00 x00 x00 x00 x00))
(L (W x00 x00 x80 xbf x00 x00 x80 xbf)))
(T (W x54 x00 x00 x00 x48 x00 x00 x00)
(L (W x00 x00 x00 x00 x00 x00 x00 x00)) E))
(T (W x18 x00 x00 x00 x10 x00 x00 x00)
(T (W x45 x26 x22 x84 xe4 x9c xf2 xcb)
(L (W xff xff xff xff xff xff xff xff)) E)
(T (W x44 x00 x04 x00 x08 x00 x0c x00)
(L (W x00 x00 x80 xbf x00 x00 x80 xbf)) E))))
(T (W x00 x00 x80 x3f x00 x00 x80 x3f)
(T (W x48 x03 x00 x00 x34 x02 x00 x00)
(T (W x3e x00 x00 x00 x0c x00 x00 x00)
(T (W xff xff xff xff xff xff xff xff)
(L (W xff xff xff xff xff xff xff xff))
(L (W x00 x00 x00 x00 x00 x00 x00 x00)))
(T (W x00 x00 x00 x00 x00 x00 x00 x00)
(L (W xff xff xff xff xff xff xff xff)) E))
(T (W x6c x00 x00 x00 x60 x00 x00 x00)
(T (W xff xff xff xff xff xff xff xff)
(L (W xbc x31 xfe xff x00 x01 x01 x01)) E)
(T (W x04 x00 x00 x00 x8a x2f xfd xff)
(L (W xff xff xff xff xff xff xff xff)) E)))
(T (W x18 x00 x00 x00 x0c x00 x00 x00)
(T (W xff xff xff xff xff xff xff xff)
(T (W x45 x44 x00 x00 x00 x00 x00 x00)
(L (W xb0 x00 x00 x00 x64 x00 x00 x00))
(L (W xff xff xff xff xa0 x00 x00 x00)))
(T (W x12 x00 x00 x00 x46 x53 x59 x53)
(L (W x9a xee xfe xff x78 x00 x00 x00)) E))
(T (W xff xff xff xff x03 x00 x00 x00)
(T (W x00 x00 x00 x00 x00 x00 x00 x00)
(L (W x00 x00 x80 xbf x00 x00 x80 xbf)) E)
(T (W x00 x00 x00 x00 x00 x00 x00 x00)
(L (W xff xff xff xff xff xff xff xff)) E)))))))
(T (W xff xff xff xff xff xff xff xff)
(T (W x45 x26 x22 x84 xe4 x9c xf2 xcb)
(T (W xc9 x00 x00 x00 xff xff xff xff)
(T (W x00 x00 x00 x00 x00 x00 x00 x00)
(T (W xff xff xff xff xff xff xff xff)
(T (W x00 x00 x00 x00 x00 x00 x00 x00)
(T (W x00 x00 x80 x3f x00 x00 x80 x3f)
(L (W x54 x00 x00 x00 x48 x00 x00 x00))
(L (W x45 x26 x22 x84 xe4 x9c xf2 xcb)))
(T (W x50 x00 x00 x00 x44 x00 x00 x00)
(L (W xff xff xff xff xff xff xff xff)) E))
(T (W x00 x00 x00 x00 x00 x00 x00 x00)
(T (W xff xff xff xff xc4 x00 x00 x00)
(L (W x00 x00 x80 xbf x00 x00 x80 xbf))
(L (W x00 x00 x00 x00 x00 x00 x00 x00)))
(T (W xff xff xff xff xff xff xff xff)
(L (W x00 x00 x00 x00 x00 x00 x00 x00)) E)))
(T (W x00 x00 x80 x3f x00 x00 x80 x3f)
(T (W x50 x00 x00 x00 x44 x00 x00 x00)
(T (W xd4 x00 x00 x00 xc8 x00 x00 x00)
(L (W x00 x00 x80 xbf x00 x00 x80 xbf))
(L (W xff xff xff xff xff xff xff xff)))
(T (W x00 x00 x80 x3f x00 x00 x80 x3f)
(L (W x00 x00 x80 xbf x00 x00 x80 xbf)) E))
(T (W x00 x00 x00 x00 x00 x00 x00 x00)
(T (W x45 x26 x22 x84 xe4 x9c xf2 xcb)
(L (W x00 x00 x00 x00 x00 x00 x00 x00)) E)
(T (W xff xff xff xff xff xff xff xff)
(L (W xff xff xff xff xb0 x00 x00 x00)) E))))
(T (W xb8 x00 x00 x00 xac x00 x00 x00)
(T (W x00 x00 x00 x00 x00 x00 x00 x00)
(T (W xea x98 xfa xff x74 x00 x00 x00)
(T (W x00 x00 x80 x3f x00 x00 x80 x3f)
(L (W x18 x00 x00 x00 x0c x00 x00 x00))
(L (W xb8 x00 x00 x00 x64 x00 x00 x00)))
(T (W x70 x5f x77 x69 x6c x64 x5f x70)
(L (W x00 x00 x00 x00 x00 x00 x00 x00)) E))
(T (W x00 x00 x80 x3f x00 x00 x80 x3f)
(T (W x45 x44 x00 x00 x00 x00 x00 x00)
(L (W xff xff xff xff xbc x00 x00 x00)) E)
(T (W x00 x00 x00 x00 x00 x00 x00 x00)
(L (W x00 x00 x80 xbf x00 x00 x80 xbf)) E)))
(T (W x00 x00 x00 x00 x00 x00 x00 x00)
(T (W x00 x00 x00 x00 x00 x00 x00 x00)
(T (W x00 x00 x00 x00 x00 x00 x00 x00)
(L (W xff xff xff xff xff xff xff xff))
(L (W x00 x00 x00 x00 x00 x00 x00 x00)))
(T (W x00 x00 x80 x3f x00 x00 x80 x3f)
(L (W xff xff xff xff xff xff xff xff)) E))
(T (W x00 x00 x80 x3f x00 x00 x80 x3f)
(T (W x74 x03 x00 x00 x4c x02 x00 x00)
(L (W x6c x00 x00 x00 x60 x00 x00 x00)) E)
(T (W x00 x00 x80 xbf x00 x00 x80 xbf)
(L (W x94 x04 x00 x00 x80 x03 x00 x00)) E)))))
(T (W x00 x00 x00 x00 x00 x00 x00 x00)
(T (W x00 x00 x80 x3f x00 x00 x80 x3f)
(T (W x18 x00 x00 x00 x0c x00 x00 x00)
(T (W x40 x00 x00 x00 x10 x00 x00 x00)
(T (W xff xff xff xff xff xff xff xff)
(L (W x00 x00 x80 xbf x00 x00 x80 xbf))
(L (W x00 x00 x80 xbf x00 x00 x80 xbf)))
(T (W x45 x26 x22 x84 xe4 x9c xf2 xcb)
(L (W x09 x00 x00 x00 x0c x00 x00 x00)) E))
(T (W x01 x00 x00 x00 x29 x00 x00 x00)
(T (W xff xff xff xff xff xff xff xff)
(L (W xff xff xff xff xa0 x00 x00 x00)) E)
(T (W x00 x00 x80 xbf x00 x00 x80 xbf)
(L (W x00 x00 x00 x00 x00 x00 x00 x00)) E)))
(T (W x45 x26 x22 x84 xe4 x9c xf2 xcb)
(T (W x00 x00 x80 x3f x00 x00 x80 x3f)
(T (W xb6 x9b xd9 xc2 x9d xc0 xb2 xaf)
(L (W x45 x26 x22 x84 xe4 x9c xf2 xcb))
(L (W x00 x00 x00 x00 x8a xcb xff xff)))
(T (W x00 x00 x00 x00 x00 x00 x00 x00)
(L (W x19 x00 x00 x00 x1c x00 x00 x00)) E))
(T (W x76 x31 x00 x00 xda xe6 xfe xff)
(T (W xff xff xff xff xff xff xff xff)
(L (W x00 x00 x80 xbf x00 x00 x80 xbf)) E)
(T (W x3c x02 x00 x00 x30 x01 x00 x00)
(L (W xff xff xff xff xff xff xff xff)) E))))
(T (W x64 x00 x00 x00 x9c x00 x00 x00)
(T (W x00 x00 x80 x3f x00 x00 x80 x3f)
(T (W x18 x00 x00 x00 x10 x00 x00 x00)
(T (W x00 x00 x00 x00 x00 x00 x00 x00)
(L (W x68 x00 x00 x00 x5c x00 x00 x00))
(L (W x03 x00 x00 x00 xd0 x00 x00 x00)))
(T (W x64 x00 x00 x00 x9c x00 x00 x00)
(L (W x00 x00 x00 x00 x00 x00 x00 x00)) E))
(T (W xff xff xff xff xff xff xff xff)
(T (W x00 x00 x00 x00 x00 x00 x00 x00)
(L (W xff xff xff xff xff xff xff xff)) E)
(T (W x00 x00 x80 xbf x00 x00 x80 xbf)
(L (W x6c x00 x00 x00 x60 x00 x00 x00)) E)))
(T (W x00 x00 x00 x00 x00 x00 x00 x00)
(T (W x00 x00 x80 x3f x00 x00 x80 x3f)
(T (W x50 x00 x00 x00 x44 x00 x00 x00)
(L (W x00 x00 x00 x00 x00 x00 x00 x00))
(L (W x00 x00 x00 x00 x00 x00 x00 x00)))
(T (W x00 x00 x80 x3f x00 x00 x80 x3f)
(L (W x45 x44 x00 x00 x00 x00 x00 x00)) E))
(T (W x45 x44 x00 x00 x00 x00 x00 x00)
(T (W x68 x00 x00 x00 x5c x00 x00 x00)
(L (W xff xff xff xff xff xff xff xff)) E)
(T (W xbc x00 x00 x00 x0a x00 x00 x00)
(L (W x00 x00 x00 x00 x00 x00 x00 x00)) E))))))
(T (W x45 x26 x22 x84 xe4 x9c xf2 xcb)
(T (W x00 x00 x80 x3f x00 x00 x80 x3f)
(T (W xff xff xff xff xff xff xff xff)
(T (W xff xff xff xff x04 x00 x00 x00)
(T (W x00 x00 x00 x00 x00 x00 x00 x00)
(T (W xb0 x00 x00 x00 x64 x00 x00 x00)
(L (W x00 x00 x80 xbf x00 x00 x80 xbf))
(L (W x00 x00 x80 xbf x00 x00 x80 xbf)))
(T (W x00 x00 x80 x3f x00 x00 x80 x3f)
(L (W x00 x00 x00 x00 xca x81 xfe xff)) E))
(T (W x00 x00 x00 x00 x00 x00 x00 x00)
(T (W xff xff xff xff xff xff xff xff)
(L (W x9a x02 xfe xff x78 x00 x00 x00)) E)
(T (W xff xff xff xff xff xff xff xff)
(L (W x00 x00 x00 x00 x00 x00 x00 x00)) E)))
(T (W x00 x00 x80 x3f x00 x00 x80 x3f)
(T (W x6c x00 x00 x00 x60 x00 x00 x00)
(T (W xff xff xff xff xff xff xff xff)
(L (W x21 x00 x00 x00 x24 x00 x00 x00))
(L (W xff xff xff xff xff xff xff xff)))
(T (W x00 x00 x80 x3f x00 x00 x80 x3f)
(L (W xbc xc5 xfe xff x00 x01 x01 x01)) E))
(T (W x00 x00 x00 x00 x2c x44 xfb xff)
(T (W xff xff xff xff xff xff xff xff)
(L (W x45 x26 x22 x84 xe4 x9c xf2 xcb)) E)
(T (W x00 x00 x00 x00 x1a x48 xfd xff)
(L (W xff xff xff xff xff xff xff xff)) E))))
(T (W xff xff xff xff x04 x00 x00 x00)
(T (W x00 x00 x80 x3f x00 x00 x80 x3f)
(T (W x45 x26 x22 x84 xe4 x9c xf2 xcb)
(T (W xff xff xff xff xff xff xff xff)
(L (W x00 x00 x00 x00 x00 x00 x00 x00))
(L (W x45 x26 x22 x84 xe4 x9c xf2 xcb)))
(T (W x01 x00 x00 x00 x9c x00 x00 x00)
(L (W x00 x00 x80 xbf x00 x00 x80 xbf)) E))
(T (W x01 x00 x00 x00 x21 x00 x00 x00)
(T (W x00 x00 x00 x00 x00 x00 x00 x00)
(L (W xff xff xff xff xff xff xff xff)) E)
(T (W x00 x00 x00 x00 x00 x00 x00 x00)
(L (W x00 x00 x80 xbf x00 x00 x80 xbf)) E)))
(T (W x00 x00 x00 x00 x00 x00 x00 x00)
(T (W x45 x26 x22 x84 xe4 x9c xf2 xcb)
(T (W x49 xa1 x68 x4a xeb x5f xdd x3d)
(L (W xff xff xff xff xff xff xff xff))
(L (W x00 x00 x00 x00 x00 x00 x00 x00)))
(T (W xff xff xff xff xff xff xff xff)
(L (W xff xff xff xff xff xff xff xff)) E))
(T (W xff xff xff xff xff xff xff xff)
(T (W xff xff xff xff xff xff xff xff)
(L (W x18 x00 x00 x00 x10 x00 x00 x00)) E)
(T (W x54 x00 x00 x00 x48 x00 x00 x00)
(L (W x00 x00 x00 x00 xca x61 xff xff)) E)))))
(T (W x45 x26 x22 x84 xe4 x9c xf2 xcb)
(T (W xff xff xff xff xff xff xff xff)
(T (W xd2 x23 xfd xff xc1 x01 x00 x00)
(T (W x01 x00 x00 x00 x04 x00 x00 x00)
(T (W x00 x00 x00 x00 x00 x00 x00 x00)
(L (W xea x90 xfd xff x74 x00 x00 x00))
(L (W x45 x26 x22 x84 xe4 x9c xf2 xcb)))
(T (W x00 x00 x00 x00 x00 x00 x00 x00)
(L (W x00 x00 x00 x00 x00 x00 x00 x00)) E))
(T (W xff xff xff xff xff xff xff xff)
(T (W x00 x00 x00 x00 x00 x00 x00 x00)
(L (W xff xff xff xff xff xff xff xff)) E)
(T (W x00 x00 x00 x00 x00 x00 x00 x00)
(L (W x00 x00 x80 xbf x00 x00 x80 xbf)) E)))
(T (W x00 x00 x00 x00 x00 x00 x00 x00)
(T (W x00 x00 x80 x3f x00 x00 x80 x3f)
(T (W x46 x53 x59 x53 x5f x4e x53 x5f)
(L (W xff xff xff xff xff xff xff xff))
(L (W x45 x44 x00 x00 x00 x00 x00 x00)))
(T (W x00 x00 x00 x00 x00 x00 x00 x00)
(L (W xff xff xff xff xff xff xff xff)) E))
(T (W x00 x00 x00 x00 x12 x00 x00 x00)
(T (W xff xff xff xff xff xff xff xff)
(L (W x00 x00 x80 xbf x00 x00 x80 xbf)) E)
(T (W x49 xa1 x68 x4a xeb x5f xdd x3d)
(L (W x00 x00 x00 x00 x00 x00 x00 x00)) E))))
(T (W xff xff xff xff xff xff xff xff)
(T (W x45 x26 x22 x84 xe4 x9c xf2 xcb)
(T (W x40 x00 x00 x00 x9c x00 x00 x00)
(T (W x00 x00 x80 x3f x00 x00 x80 x3f)
(L (W x52 xf4 xff xff xc9 x00 x00 x00))
(L (W xff xff xff xff xff xff xff xff)))
(T (W x18 x00 x00 x00 x0c x00 x00 x00)
(L (W x00 x00 x80 xbf x00 x00 x80 xbf)) E))
(T (W x00 x00 x00 x00 x06 x00 x00 x00)
(T (W x00 x00 x80 x3f x00 x00 x80 x3f)
(L (W x00 x00 x00 x00 x00 x00 x00 x00)) E)
(T (W x68 x00 x00 x00 x5c x00 x00 x00)
(L (W x00 x00 x80 xbf x00 x00 x80 xbf)) E)))
(T (W x00 x00 x00 x00 x00 x00 x00 x00)
(T (W x01 x00 x00 x00 x3e x00 x00 x00)
(T (W x00 x00 x80 x3f x00 x00 x80 x3f)
(L (W x00 x00 x80 xbf x00 x00 x80 xbf))
(L (W x00 x00 x80 xbf x00 x00 x80 xbf)))
(T (W x6b x65 x5f x6c x76 x32 x00 x00)
(L (W x00 x00 x00 x00 x00 x00 x00 x00)) E))
(T (W x00 x00 x80 x3f x00 x00 x80 x3f)
(T (W x50 x00 x00 x00 x44 x00 x00 x00)
(L (W xff xff xff xff xff xff xff xff)) E)
(T (W x45 x26 x22 x84 xe4 x9c xf2 xcb)
(L (W x00 x00 x00 x00 x00 x00 x00 x00)) E))))))))
(T (W x1c x00 x00 x00 xf4 x1d x00 x00)
(T (W xff xff xff xff xff xff xff xff)
(T (W x00 x00 x80 x3f x00 x00 x80 x3f)
(T (W xff xff xff xff xff xff xff xff)
(T (W x00 x00 x00 x00 x00 x00 x00 x00)
(T (W x00 x00 x80 x3f x00 x00 x80 x3f)
(T (W xff xff xff xff xff xff xff xff)
(T (W x00 x00 x00 x00 x00 x00 x00 x00)
(L (W x4f x84 x6f x8b xe8 xcb x63 xb7))
(L (W x00 x00 x00 x00 x00 x00 x00 x00)))
(T (W x45 x26 x22 x84 xe4 x9c xf2 xcb)
(L (W xcc x00 x00 x00 x01 x00 x00 x00)) E))
(T (W x64 x00 x00 x00 xa0 x00 x00 x00)
(T (W x00 x00 x80 x3f x00 x00 x80 x3f)
(L (W x00 x00 x00 x00 x00 x00 x00 x00))
(L (W x00 x00 x00 x00 x00 x00 x00 x00)))
(T (W x00 x00 x00 x00 x00 x00 x00 x00)
(L (W xff xff xff xff xff xff xff xff)) E)))
(T (W x00 x00 x00 x00 x00 x00 x00 x00)
(T (W x00 x00 x00 x00 x00 x00 x00 x00)
(T (W x00 x00 x80 x3f x00 x00 x80 x3f)
(L (W x00 x00 x80 xbf x00 x00 x80 xbf))
(L (W x00 x00 x80 xbf x00 x00 x80 xbf)))
(T (W x00 x00 x00 x00 x00 x00 x00 x00)
(L (W x00 x00 x00 x00 x00 x00 x00 x00)) E))
(T (W xff xff xff xff xff xff xff xff)
(T (W x00 x00 x80 x3f x00 x00 x80 x3f)
(L (W xff xff xff xff xff xff xff xff)) E)
(T (W x00 x00 x80 xbf x00 x00 x80 xbf)
(L (W x00 x00 x00 x00 x00 x00 x00 x00)) E))))
(T (W x45 x26 x22 x84 xe4 x9c xf2 xcb)
(T (W xff xff xff xff xff xff xff xff)
(T (W x00 x00 x80 x3f x00 x00 x80 x3f)
(T (W x00 x00 x00 x00 x00 x00 x00 x00)
(L (W x00 x00 x80 xbf x00 x00 x80 xbf))
(L (W x00 x00 x80 xbf x00 x00 x80 xbf)))
(T (W xff xff xff xff xff xff xff xff)
(L (W xff xff xff xff xff xff xff xff)) E))
(T (W x00 x00 x00 x00 x00 x00 x00 x00)
(T (W xff xff xff xff xff xff xff xff)
(L (W x6c x00 x00 x00 x60 x00 x00 x00)) E)
(T (W x50 x00 x00 x00 x44 x00 x00 x00)
(L (W x00 x00 x00 x00 x00 x00 x00 x00)) E)))
(T (W x00 x00 x00 x00 x00 x00 x00 x00)
(T (W x00 x00 x00 x00 x00 x00 x00 x00)
(T (W x00 x00 x00 x00 x00 x00 x00 x00)
(L (W x9a xd8 xfd xff x78 x00 x00 x00))
(L (W xff xff xff xff xff xff xff xff)))
(T (W x00 x00 x00 x00 x00 x00 x00 x00)
(L (W x00 x00 x80 xbf x00 x00 x80 xbf)) E))
(T (W x00 x00 x00 x00 x00 x00 x00 x00)
(T (W xbc x5b xfc xff x00 x01 x01 x01)
(L (W x4f x84 x6f x8b xe8 xcb x63 xb7)) E)
(T (W x00 x00 x00 x00 x00 x00 x00 x00)
(L (W xff xff xff xff xb0 x00 x00 x00)) E)))))
(T (W xff xff xff xff xff xff xff xff)
(T (W x00 x00 x00 x00 x00 x00 x00 x00)
(T (W x00 x00 x80 x3f x00 x00 x80 x3f)
(T (W xff xff xff xff x04 x00 x00 x00)
(T (W x45 x26 x22 x84 xe4 x9c xf2 xcb)
(L (W x00 x00 x00 x00 x00 x00 x00 x00))
(L (W x00 x00 x00 x00 x00 x00 x00 x00)))
(T (W x00 x00 x00 x00 x00 x00 x00 x00)
(L (W xff xff xff xff xff xff xff xff)) E))
(T (W x00 x00 x80 x3f x00 x00 x80 x3f)
(T (W xea x06 xfc xff x74 x00 x00 x00)
(L (W x00 x00 x00 x00 x00 x00 x00 x00)) E)
(T (W x39 x5e x6c x12 x83 xf1 x3a xc6)
(L (W x00 x00 x00 x00 x00 x00 x00 x00)) E)))
(T (W xa9 xd8 x80 x5b x99 x56 x9f x15)
(T (W x00 x00 x00 x00 x00 x00 x00 x00)
(T (W x18 x00 x00 x00 x0c x00 x00 x00)
(L (W x00 x00 x80 xbf x00 x00 x80 xbf))
(L (W xff xff xff xff xff xff xff xff)))
(T (W x1a x00 x00 x00 x46 x53 x59 x53)
(L (W x00 x00 x80 xbf x00 x00 x80 xbf)) E))
(T (W x1e x00 x00 x00 xb0 x00 x00 x00)
(T (W x54 x00 x00 x00 x48 x00 x00 x00)
(L (W x00 x00 x00 x00 x1a x4e xfe xff)) E)
(T (W xc4 x00 x00 x00 x02 x00 x00 x00)
(L (W x54 x00 x00 x00 x48 x00 x00 x00)) E))))
(T (W x00 x00 x00 x00 x2c xea xf9 xff)
(T (W x00 x00 x00 x00 x00 x00 x00 x00)
(T (W x00 x00 x80 x3f x00 x00 x80 x3f)
(T (W xff xff xff xff xff xff xff xff)
(L (W x00 x00 x80 xbf x00 x00 x80 xbf))
(L (W x54 x00 x00 x00 x48 x00 x00 x00)))
(T (W x00 x00 x00 x00 x00 x00 x00 x00)
(L (W x00 x00 x01 x01 x96 x01 x00 x00)) E))
(T (W x54 x00 x00 x00 x48 x00 x00 x00)
(T (W x00 x00 x00 x00 xca x27 xfc xff)
(L (W xb4 x00 x00 x00 x32 x00 x00 x00)) E)
(T (W x00 x00 x00 x00 x00 x00 x00 x00)
(L (W x46 x53 x59 x53 x5f x4e x53 x5f)) E)))
(T (W x48 x03 x00 x00 x34 x02 x00 x00)
(T (W xec xef xfa xff x1e x00 x00 x00)
(T (W x00 x00 x00 x00 x00 x00 x00 x00)
(L (W x00 x00 x01 x01 x29 x00 x00 x00))
(L (W xff xff xff xff xff xff xff xff)))
(T (W x00 x00 x00 x00 x00 x00 x00 x00)
(L (W x45 x26 x22 x84 xe4 x9c xf2 xcb)) E))
(T (W xff xff xff xff xc4 x00 x00 x00)
(T (W x45 x26 x22 x84 xe4 x9c xf2 xcb)
(L (W x00 x00 x80 xbf x00 x00 x80 xbf)) E)
(T (W x00 x00 x80 xbf x00 x00 x80 xbf)
(L (W xff xff xff xff xff xff xff xff)) E))))))
(T (W x00 x00 x00 x00 x00 x00 x00 x00)
(T (W x45 x26 x22 x84 xe4 x9c xf2 xcb)
(T (W x45 x26 x22 x84 xe4 x9c xf2 xcb)
(T (W x00 x00 x80 x3f x00 x00 x80 x3f)
(T (W xff xff xff xff xff xff xff xff)
(T (W x68 x00 x00 x00 x5c x00 x00 x00)
(L (W x45 x26 x22 x84 xe4 x9c xf2 xcb))
(L (W x46 x53 x59 x53 x5f x4e x53 x5f)))
(T (W x00 x00 x00 x00 x00 x00 x00 x00)
(L (W xff xff xff xff xff xff xff xff)) E))
(T (W x00 x00 x00 x00 x02 x00 x00 x00)
(T (W x00 x00 x80 x3f x00 x00 x80 x3f)
(L (W x00 x00 x80 xbf x00 x00 x80 xbf))
(L (W x00 x00 x00 x00 x00 x00 x00 x00)))
(T (W x45 x26 x22 x84 xe4 x9c xf2 xcb)
(L (W xff xff xff xff xff xff xff xff)) E)))
(T (W x00 x00 x00 x00 x00 x00 x00 x00)
(T (W x00 x00 x00 x00 x00 x00 x00 x00)
(T (W x00 x00 x00 x00 x2c xc2 xfb xff)
(L (W x00 x00 x00 x00 x00 x00 x00 x00))
(L (W x00 x00 x00 x00 x2c xc2 xff xff)))
(T (W x00 x00 x00 x00 x00 x00 x00 x00)
(L (W x00 x00 x00 x00 x00 x00 x00 x00)) E))
(T (W x00 x00 x00 x00 x00 x00 x00 x00)
(T (W x00 x00 x80 x3f x00 x00 x80 x3f)
(L (W x54 x02 x00 x00 x38 x01 x00 x00)) E)
(T (W x00 x00 x00 x00 x2c x42 xfd xff)
(L (W x00 x00 x80 xbf x00 x00 x80 xbf)) E))))
(T (W x00 x00 x80 x3f x00 x00 x80 x3f)
(T (W x00 x00 x00 x00 x00 x00 x00 x00)
(T (W x50 x00 x00 x00 x44 x00 x00 x00)
(T (W x50 x00 x00 x00 x44 x00 x00 x00)
(L (W xff xff xff xff xff xff xff xff))
(L (W xff xff xff xff xff xff xff xff)))
(T (W x00 x00 x80 x3f x00 x00 x80 x3f)
(L (W x3b x01 x00 x00 xff xff xff xff)) E))
(T (W x00 x00 x80 x3f x00 x00 x80 x3f)
(T (W x4b x00 x00 x00 xff xff xff xff)
(L (W x18 x00 x00 x00 x0c x00 x00 x00)) E)
(T (W x04 x00 x00 x00 x8a x21 xfd xff)
(L (W x45 x26 x22 x84 xe4 x9c xf2 xcb)) E)))
(T (W x00 x00 x00 x00 x00 x00 x00 x00)
(T (W x00 x00 x00 x00 x00 x00 x00 x00)
(T (W x00 x00 x00 x00 x00 x00 x00 x00)
(L (W x29 x00 x00 x00 x2c x00 x00 x00))
(L (W xff xff xff xff xff xff xff xff)))
(T (W x00 x00 x00 x00 x00 x00 x00 x00)
(L (W xff xff xff xff xb0 x00 x00 x00)) E))
(T (W xbc x63 xfb xff x00 x01 x01 x01)
(T (W xb8 x00 x00 x00 xac x00 x00 x00)
(L (W x00 x00 x80 xbf x00 x00 x80 xbf)) E)
(T (W x4f x84 x6f x8b xe8 xcb x63 xb7)
(L (W xff xff xff xff xff xff xff xff)) E)))))
(T (W x00 x00 x80 x3f x00 x00 x80 x3f)
(T (W xff xff xff xff xff xff xff xff)
(T (W x40 x00 x00 x00 x9c x00 x00 x00)
(T (W x18 x00 x00 x00 x10 x00 x00 x00)
(T (W xff xff xff xff xff xff xff xff)
(L (W x4f x84 x6f x8b xe8 xcb x63 xb7))
(L (W x00 x00 x80 xbf x00 x00 x80 xbf)))
(T (W xd2 xa1 xff xff xd8 x00 x00 x00)
(L (W xff xff xff xff xff xff xff xff)) E))
(T (W x00 x00 x80 x3f x00 x00 x80 x3f)
(T (W xff xff xff xff xff xff xff xff)
(L (W x00 x00 x80 xbf x00 x00 x80 xbf)) E)
(T (W xff xff xff xff xff xff xff xff)
(L (W x0c x00 x00 x00 xc0 x0c x00 x00)) E)))
(T (W xd2 x61 xfd xff x84 x01 x00 x00)
(T (W x00 x00 x00 x00 x00 x00 x00 x00)
(T (W xff xff xff xff xff xff xff xff)
(L (W x9a xd0 xfd xff x78 x00 x00 x00))
(L (W xff xff xff xff x9c x00 x00 x00)))
(T (W xff xff xff xff xff xff xff xff)
(L (W x6c x00 x00 x00 x60 x00 x00 x00)) E))
(T (W xa0 x01 x00 x00 xff xff xff xff)
(T (W xff xff xff xff x9c x00 x00 x00)
(L (W x00 x00 x00 x00 x00 x00 x00 x00)) E)
(T (W xc7 x01 x00 x00 xff xff xff xff)
(L (W x00 x00 x00 x00 x2c x52 xff xff)) E))))
(T (W x18 x00 x00 x00 x0c x00 x00 x00)
(T (W x00 x00 x00 x00 x00 x00 x00 x00)
(T (W x00 x00 x80 x3f x00 x00 x80 x3f)
(T (W x11 xb8 xb2 x05 x4b x73 x91 x53)
(L (W xff xff xff xff xff xff xff xff))
(L (W x9a xb0 xff xff x78 x00 x00 x00)))
(T (W x00 x00 x80 x3f x00 x00 x80 x3f)
(L (W x00 x00 x00 x00 x00 x00 x00 x00)) E))
(T (W xff xff xff xff x03 x00 x00 x00)
(T (W x00 x00 x00 x00 x00 x00 x00 x00)
(L (W xff xff xff xff xff xff xff xff)) E)
(T (W x00 x00 x00 x00 x00 x00 x00 x00)
(L (W x00 x00 x00 x00 x00 x00 x00 x00)) E)))
(T (W xff xff xff xff xff xff xff xff)
(T (W x00 x00 x00 x00 x00 x00 x00 x00)
(T (W x00 x00 x00 x00 x00 x00 x00 x00)
(L (W x46 x53 x59 x53 x5f x4e x53 x5f))
(L (W x00 x00 x00 x00 x12 x00 x00 x00)))
(T (W x18 x00 x00 x00 x0c x00 x00 x00)
(L (W xff xff xff xff xff xff xff xff)) E))
(T (W x5f x77 x69 x6c x64 x5f x70 x6f)
(T (W x45 x26 x22 x84 xe4 x9c xf2 xcb)
(L (W xff xff xff xff xa0 x00 x00 x00)) E)
(T (W x6c x00 x70 x00 x62 x00 x00 x00)
(L (W x00 x00 x00 x00 xca x6f xff xff)) E)))))))
(T (W x00 x00 x00 x00 x00 x00 x00 x00)
(T (W xff xff xff xff xff xff xff xff)
(T (W x04 x00 x00 x00 xda x38 xfd xff)
(T (W x00 x00 x80 x3f x00 x00 x80 x3f)
(T (W x24 x00 x00 x00 x10 x00 x00 x00)
(T (W x00 x00 x80 x3f x00 x00 x80 x3f)
(T (W xff xff xff xff xff xff xff xff)
(L (W xff xff xff xff xff xff xff xff))
(L (W x50 x00 x00 x00 x44 x00 x00 x00)))
(T (W xff xff xff xff xff xff xff xff)
(L (W x00 x00 x00 x00 x00 x00 x00 x00)) E))
(T (W x50 x00 x00 x00 x44 x00 x00 x00)
(T (W xff xff xff xff xff xff xff xff)
(L (W xff xff xff xff xa0 x00 x00 x00))
(L (W xff xff xff xff xff xff xff xff)))
(T (W x45 x26 x22 x84 xe4 x9c xf2 xcb)
(L (W x00 x00 x00 x00 x00 x00 x00 x00)) E)))
(T (W x0a x00 x00 x00 x3e x00 x00 x00)
(T (W xff xff xff xff xff xff xff xff)
(T (W x64 x5f x70 x6f x6b x65 x5f x77)
(L (W x00 x00 x00 x00 x2c xbe xfd xff))
(L (W x00 x00 x00 x00 x00 x00 x00 x00)))
(T (W x64 x00 x00 x00 x9c x00 x00 x00)
(L (W xff xff xff xff x9c x00 x00 x00)) E))
(T (W xea x3a xfb xff x74 x00 x00 x00)
(T (W x4b x00 x00 x00 xff xff xff xff)
(L (W x00 x00 x80 xbf x00 x00 x80 xbf)) E)
(T (W xfd x70 xca xc9 x03 x93 xa3 xbc)
(L (W xff xff xff xff xff xff xff xff)) E))))
(T (W xff xff xff xff x01 x00 x00 x00)
(T (W x18 x00 x00 x00 x0c x00 x00 x00)
(T (W xff xff xff xff xff xff xff xff)
(T (W xff xff xff xff xff xff xff xff)
(L (W xff xff xff xff xff xff xff xff))
(L (W x30 x32 x5f x43 x4c x45 x41 x52)))
(T (W x68 x00 x00 x00 x5c x00 x00 x00)
(L (W x00 x00 x80 xbf x00 x00 x80 xbf)) E))
(T (W xff xff xff xff xff xff xff xff)
(T (W x00 x00 x80 x3f x00 x00 x80 x3f)
(L (W x00 x00 x00 x00 x12 x00 x00 x00)) E)
(T (W x45 x26 x22 x84 xe4 x9c xf2 xcb)
(L (W x18 x00 x00 x00 x0c x00 x00 x00)) E)))
(T (W x00 x00 x80 x3f x00 x00 x80 x3f)
(T (W xbc xdf xfa xff x00 x01 x01 x01)
(T (W xff xff xff xff x9c x00 x00 x00)
(L (W x00 x00 x00 x00 x00 x00 x00 x00))
(L (W x00 x00 x80 xbf x00 x00 x80 xbf)))
(T (W x18 x00 x00 x00 x0c x00 x00 x00)
(L (W x00 x00 x00 x00 x00 x00 x00 x00)) E))
(T (W xff xff xff xff xff xff xff xff)
(T (W x45 x26 x22 x84 xe4 x9c xf2 xcb)
(L (W xff xff xff xff xff xff xff xff)) E)
(T (W xbc x00 x00 x00 x28 x00 x00 x00)
(L (W x00 x00 x80 xbf x00 x00 x80 xbf)) E)))))
(T (W x00 x00 x00 x00 x00 x00 x00 x00)
(T (W x54 x00 x00 x00 x48 x00 x00 x00)
(T (W x1c x01 x00 x00 x04 x00 x00 x00)
(T (W x00 x00 x00 x00 x00 x00 x00 x00)
(T (W x22 x00 x00 x00 x67 x72 x6f x75)
(L (W xff xff xff xff xff xff xff xff))
(L (W xff xff xff xff xff xff xff xff)))
(T (W x50 x00 x00 x00 x44 x00 x00 x00)
(L (W x00 x00 x80 xbf x00 x00 x80 xbf)) E))
(T (W xff xff xff xff xff xff xff xff)
(T (W x46 x53 x59 x53 x5f x4e x53 x5f)
(L (W xff xff xff xff xff xff xff xff)) E)
(T (W xff xff xff xff xff xff xff xff)
(L (W x00 x00 x80 xbf x00 x00 x80 xbf)) E)))
(T (W xea x4a xfa xff x74 x00 x00 x00)
(T (W x64 x00 x00 x00 x9c x00 x00 x00)
(T (W x00 x00 x80 x3f x00 x00 x80 x3f)
(L (W xff xff xff xff xff xff xff xff))
(L (W x00 x00 x00 x00 x00 x00 x00 x00)))
(T (W x0c x00 x00 x00 x00 x00 x10 x00)
(L (W xff xff xff xff xff xff xff xff)) E))
(T (W x00 x00 x00 x00 x00 x00 x00 x00)
(T (W x00 x00 x00 x00 x00 x00 x00 x00)
(L (W xff xff xff xff xb0 x00 x00 x00)) E)
(T (W x00 x00 x00 x00 x00 x00 x00 x00)
(L (W x00 x00 x00 x00 x00 x00 x00 x00)) E))))
(T (W x66 xd9 xd8 x75 xef xf1 x20 x1a)
(T (W xff xff xff xff xff xff xff xff)
(T (W xff xff xff xff xff xff xff xff)
(T (W x00 x00 x80 x3f x00 x00 x80 x3f)
(L (W x18 x00 x00 x00 x10 x00 x00 x00))
(L (W xff xff xff xff xff xff xff xff)))
(T (W xff xff xff xff xff xff xff xff)
(L (W x45 x26 x22 x84 xe4 x9c xf2 xcb)) E))
(T (W x00 x00 x00 x00 x00 x00 x00 x00)
(T (W x1c x00 x00 x00 xb0 x00 x00 x00)
(L (W x00 x00 x80 xbf x00 x00 x80 xbf)) E)
(T (W xff xff xff xff xb0 x00 x00 x00)
(L (W xff xff xff xff xff xff xff xff)) E)))
(T (W x45 x26 x22 x84 xe4 x9c xf2 xcb)
(T (W x00 x00 x80 x3f x00 x00 x80 x3f)
(T (W xff xff xff xff x9c x00 x00 x00)
(L (W x54 x00 x00 x00 x48 x00 x00 x00))
(L (W x00 x00 x80 xbf x00 x00 x80 xbf)))
(T (W x18 x00 x00 x00 x10 x00 x00 x00)
(L (W x49 xa1 x68 x4a xeb x5f xdd x3d)) E))
(T (W x00 x00 x00 x00 x00 x00 x00 x00)
(T (W xff xff xff xff xff xff xff xff)
(L (W x00 x00 x00 x00 x00 x00 x00 x00)) E)
(T (W xff xff xff xff xff xff xff xff)
(L (W x00 x00 x80 xbf x00 x00 x80 xbf)) E))))))
(T (W x00 x00 x80 x3f x00 x00 x80 x3f)
(T (W x00 x00 x00 x00 x2c xa6 xf9 xff)
(T (W xff xff xff xff xff xff xff xff)
(T (W x00 x00 x00 x00 xfa x13 xff xff)
(T (W x00 x00 x80 x3f x00 x00 x80 x3f)
(T (W xff xff xff xff xff xff xff xff)
(L (W xff xff xff xff xac x00 x00 x00))
(L (W x03 x00 x00 x00 xd8 x00 x00 x00)))
(T (W xb8 x00 x00 x00 xac x00 x00 x00)
(L (W x00 x00 x80 xbf x00 x00 x80 xbf)) E))
(T (W xff xff xff xff xff xff xff xff)
(T (W x00 x00 x00 x00 x00 x00 x00 x00)
(L (W xff xff xff xff xff xff xff xff)) E)
(T (W x45 x26 x22 x84 xe4 x9c xf2 xcb)
(L (W x00 x00 x80 xbf x00 x00 x80 xbf)) E)))
(T (W xc0 x00 x00 x00 xb4 x00 x00 x00)
(T (W xff xff xff xff xff xff xff xff)
(T (W x4f x84 x6f x8b xe8 xcb x63 xb7)
(L (W xff xff xff xff xff xff xff xff))
(L (W x00 x00 x00 x00 x00 x00 x00 x00)))
(T (W x18 x00 x00 x00 x10 x00 x00 x00)
(L (W xff xff xff xff xff xff xff xff)) E))
(T (W xff xff xff xff xff xff xff xff)
(T (W x4a x00 x00 x00 xff xff xff xff)
(L (W x54 x00 x00 x00 x48 x00 x00 x00)) E)
(T (W x00 x00 x00 x00 x00 x00 x00 x00)
(L (W x00 x00 x00 x00 x00 x00 x00 x00)) E))))
(T (W x3e x00 x00 x00 x0c x00 x00 x00)
(T (W xff xff xff xff x03 x00 x00 x00)
(T (W xff xff xff xff xff xff xff xff)
(T (W x70 x5f x6c x65 x61 x64 x65 x72)
(L (W x00 x00 x00 x00 x00 x00 x00 x00))
(L (W x18 x00 x00 x00 x10 x00 x00 x00)))
(T (W xff xff xff xff xff xff xff xff)
(L (W xbc xa7 xfe xff x00 x01 x01 x01)) E))
(T (W xff xff xff xff xff xff xff xff)
(T (W x00 x00 x80 x3f x00 x00 x80 x3f)
(L (W x00 x00 x00 x00 x00 x00 x00 x00)) E)
(T (W x68 x00 x00 x00 x5c x00 x00 x00)
(L (W xff xff xff xff xa0 x00 x00 x00)) E)))
(T (W x00 x00 x80 x3f x00 x00 x80 x3f)
(T (W x50 x00 x00 x00 x44 x00 x00 x00)
(T (W x01 x00 x00 x00 x29 x00 x00 x00)
(L (W x00 x00 x00 x00 x12 x00 x00 x00))
(L (W x00 x00 x80 xbf x00 x00 x80 xbf)))
(T (W x49 xa1 x68 x4a xeb x5f xdd x3d)
(L (W x00 x00 x00 x00 x00 x00 x00 x00)) E))
(T (W x00 x00 x00 x00 x00 x00 x00 x00)
(T (W xbc x67 xfc xff x00 x01 x01 x01)
(L (W x00 x00 x00 x00 x00 x00 x00 x00)) E)
(T (W xff xff xff xff xff xff xff xff)
(L (W x00 x00 x80 xbf x00 x00 x80 xbf)) E)))))
(T (W xff xff xff xff xff xff xff xff)
(T (W x00 x00 x00 x00 x00 x00 x00 x00)
(T (W x00 x00 x00 x00 x00 x00 x00 x00)
(T (W x45 x26 x22 x84 xe4 x9c xf2 xcb)
(T (W x00 x00 x80 x3f x00 x00 x80 x3f)
(L (W xff xff xff xff xff xff xff xff))
(L (W x04 x00 x00 x00 xaa x9b xff xff)))
(T (W x00 x00 x80 x3f x00 x00 x80 x3f)
(L (W x00 x00 x80 xbf x00 x00 x80 xbf)) E))
(T (W x45 x26 x22 x84 xe4 x9c xf2 xcb)
(T (W x00 x00 x00 x00 x00 x00 x00 x00)
(L (W x00 x00 x00 x00 xaa x1b xfe xff)) E)
(T (W x50 x00 x00 x00 x44 x00 x00 x00)
(L (W x15 x00 x00 x00 x18 x00 x00 x00)) E)))
(T (W xbc x57 xfa xff x00 x01 x01 x01)
(T (W xbc x00 x00 x00 xb0 x00 x00 x00)
(T (W x49 xa1 x68 x4a xeb x5f xdd x3d)
(L (W x00 x00 x00 x00 x00 x00 x00 x00))
(L (W x4f x84 x6f x8b xe8 xcb x63 xb7)))
(T (W x9a xd4 xfc xff x78 x00 x00 x00)
(L (W x00 x00 x00 x00 x00 x00 x00 x00)) E))
(T (W x18 x00 x00 x00 x0c x00 x00 x00)
(T (W x00 x00 x00 x00 x00 x00 x00 x00)
(L (W xff xff xff xff xff xff xff xff)) E)
(T (W x6c x00 x00 x00 x60 x00 x00 x00)
(L (W x00 x00 x00 x00 x00 x00 x00 x00)) E))))
(T (W x52 x07 xfd xff x00 x00 x01 x01)
(T (W x01 x00 x00 x00 x9c x00 x00 x00)
(T (W xff xff xff xff xff xff xff xff)
(T (W xff xff xff xff x9c x00 x00 x00)
(L (W x00 x00 x00 x00 x00 x00 x00 x00))
(L (W x72 x00 x00 x00 xff xff xff xff)))
(T (W xff xff xff xff xff xff xff xff)
(L (W x18 x00 x00 x00 x0c x00 x00 x00)) E))
(T (W x00 x00 x80 x3f x00 x00 x80 x3f)
(T (W xff xff xff xff xff xff xff xff)
(L (W x45 x26 x22 x84 xe4 x9c xf2 xcb)) E)
(T (W xff xff xff xff xff xff xff xff)
(L (W xff xff xff xff xff xff xff xff)) E)))
(T (W x00 x00 x80 x3f x00 x00 x80 x3f)
(T (W xff xff xff xff xff xff xff xff)
(T (W xff xff xff xff xff xff xff xff)
(L (W x45 x26 x22 x84 xe4 x9c xf2 xcb))
(L (W x18 x00 x00 x00 x0c x00 x00 x00)))
(T (W x00 x00 x00 x00 x00 x00 x00 x00)
(L (W x00 x00 x00 x00 x00 x00 x00 x00)) E))
(T (W x50 x00 x00 x00 x44 x00 x00 x00)
(T (W xff xff xff xff xff xff xff xff)
(L (W x4f x84 x6f x8b xe8 xcb x63 xb7)) E)
(T (W xff xff xff xff xff xff xff xff)
(L (W x00 x00 x80 xbf x00 x00 x80 xbf)) E)))))))))
(T (W x00 x84 x02 x00 x5c x7f x02 x00)
(T (W x38 xd7 x00 x00 x04 xd6 x00 x00)
(T (W x64 x00 x00 x00 xa0 x00 x00 x00)
(T (W x00 x00 x80 x3f x00 x00 x80 x3f)
(T (W xff xff xff xff x04 x00 x00 x00)
(T (W xc9 x00 x00 x00 xff xff xff xff)
(T (W x45 x26 x22 x84 xe4 x9c xf2 xcb)
(T (W xff xff xff xff x04 x00 x00 x00)
(T (W x00 x00 x00 x00 x00 x00 x00 x00)
(L (W x00 x00 x00 x00 x00 x00 x00 x00))
(L (W x00 x00 x00 x00 x1a x7d xff xff)))
(T (W x00 x00 x00 x00 x00 x00 x00 x00)
(L (W x45 x26 x22 x84 xe4 x9c xf2 xcb)) E))
(T (W x00 x00 x00 x00 x00 x00 x00 x00)
(T (W x00 x00 x00 x00 x00 x00 x00 x00)
(L (W x2e x00 x00 x00 xff xff xff xff))
(L (W x00 x00 x00 x00 xca xf6 xff xff)))
(T (W x00 x00 x00 x00 x00 x00 x00 x00)
(L (W x03 x00 x00 x00 xd0 x00 x00 x00)) E)))
(T (W x8f x14 xeb x1b x9e xb5 x47 x16)
(T (W x00 x00 x00 x00 x00 x00 x00 x00)
(T (W x00 x00 x00 x00 x00 x00 x00 x00)
(L (W x45 x26 x22 x84 xe4 x9c xf2 xcb))
(L (W x00 x00 x80 xbf x00 x00 x80 xbf)))
(T (W x00 x00 x00 x00 x00 x00 x00 x00)
(L (W x00 x00 x00 x00 x00 x00 x00 x00)) E))
(T (W xff xff xff xff xff xff xff xff)
(T (W x00 x00 x00 x00 x00 x00 x00 x00)
(L (W x03 x00 x00 x00 xd0 x00 x00 x00)) E)
(T (W x00 x00 x00 x00 x00 x00 x00 x00)
(L (W x00 x00 x00 x00 x00 x00 x00 x00)) E))))
(T (W x45 x26 x22 x84 xe4 x9c xf2 xcb)
(T (W x45 x26 x22 x84 xe4 x9c xf2 xcb)
(T (W x00 x00 x00 x00 x00 x00 x00 x00)
(T (W xff xff xff xff x01 x00 x00 x00)
(L (W x00 x00 x00 x00 x00 x00 x00 x00))
(L (W x00 x00 x80 xbf x00 x00 x80 xbf)))
(T (W xff xff xff xff xff xff xff xff)
(L (W xff xff xff xff xff xff xff xff)) E))
(T (W xff xff xff xff x01 x00 x00 x00)
(T (W xff xff xff xff x03 x00 x00 x00)
(L (W x00 x00 x80 xbf x00 x00 x80 xbf)) E)
(T (W x45 x26 x22 x84 xe4 x9c xf2 xcb)
(L (W x00 x00 x00 x00 x00 x00 x00 x00)) E)))
(T (W xff xff xff xff xff xff xff xff)
(T (W x00 x00 x00 x00 x00 x00 x00 x00)
(T (W xff xff xff xff xff xff xff xff)
(L (W x00 x00 x80 xbf x00 x00 x80 xbf))
(L (W x00 x00 x00 x00 x2c xd9 xff xff)))
(T (W xff xff xff xff xff xff xff xff)
(L (W x00 x00 x80 xbf x00 x00 x80 xbf)) E))
(T (W x30 x32 x5f x43 x4c x45 x41 x52)
(T (W x68 x00 x00 x00 x5c x00 x00 x00)
(L (W x00 x00 x00 x00 x00 x00 x00 x00)) E)
(T (W x00 x00 x00 x00 x00 x00 x00 x00)
(L (W x00 x00 x00 x00 x2c x59 xff xff)) E)))))
(T (W xff xff xff xff xff xff xff xff)
(T (W x00 x00 x00 x00 x00 x00 x00 x00)
(T (W x00 x00 x80 x3f x00 x00 x80 x3f)
(T (W xea x85 xfa xff x74 x00 x00 x00)
(T (W xea x85 xfb xff x74 x00 x00 x00)
(L (W x00 x00 x00 x00 x00 x00 x00 x00))
(L (W x30 x32 x5f x43 x4c x45 x41 x52)))
(T (W xd2 x98 xff xff x83 x01 x00 x00)
(L (W x18 x00 x00 x00 x1b x00 x00 x00)) E))
(T (W x00 x00 x00 x00 x00 x00 x00 x00)
(T (W x00 x00 x80 x3f x00 x00 x80 x3f)
(L (W x46 x53 x59 x53 x5f x4e x53 x5f)) E)
(T (W xff xff xff xff xff xff xff xff)
(L (W xff xff xff xff xff xff xff xff)) E)))
(T (W xff xff xff xff xff xff xff xff)
(T (W x00 x00 x00 x00 x00 x00 x00 x00)
(T (W x00 x00 x00 x00 x2c xc9 xfb xff)
(L (W x45 x26 x22 x84 xe4 x9c xf2 xcb))
(L (W x00 x00 x80 xbf x00 x00 x80 xbf)))
(T (W x00 x00 x00 x00 x00 x00 x00 x00)
(L (W x49 xa1 x68 x4a xeb x5f xdd x3d)) E))
(T (W x45 x26 x22 x84 xe4 x9c xf2 xcb)
(T (W x00 x00 x80 x3f x00 x00 x80 x3f)
(L (W xff xff xff xff xff xff xff xff)) E)
(T (W x50 x00 x00 x00 x44 x00 x00 x00)
(L (W x00 x00 x80 xbf x00 x00 x80 xbf)) E))))
(T (W x54 x00 x00 x00 x48 x00 x00 x00)
(T (W x00 x00 x00 x00 x00 x00 x00 x00)
(T (W x45 x26 x22 x84 xe4 x9c xf2 xcb)
(T (W x18 x00 x00 x00 x0c x00 x00 x00)
(L (W x00 x00 x80 xbf x00 x00 x80 xbf))
(L (W x00 x00 x00 x00 x00 x00 x00 x00)))
(T (W x00 x00 x00 x00 x00 x00 x00 x00)
(L (W xff xff xff xff xff xff xff xff)) E))
(T (W x00 x00 x80 x3f x00 x00 x80 x3f)
(T (W xff xff xff xff xff xff xff xff)
(L (W xbc x2a xfe xff x00 x01 x01 x01)) E)
(T (W x06 x00 x00 x00 xc8 x05 x00 x00)
(L (W x00 x00 x00 x00 x8a x28 xff xff)) E)))
(T (W xff xff xff xff xff xff xff xff)
(T (W xff xff xff xff xff xff xff xff)
(T (W x00 x00 x00 x00 x00 x00 x00 x00)
(L (W xff xff xff xff xff xff xff xff))
(L (W xff xff xff xff xff xff xff xff)))
(T (W x00 x00 x00 x00 x00 x00 x00 x00)
(L (W x54 x00 x00 x00 x48 x00 x00 x00)) E))
(T (W x45 x26 x22 x84 xe4 x9c xf2 xcb)
(T (W x45 x26 x22 x84 xe4 x9c xf2 xcb)
(L (W x00 x00 x80 xbf x00 x00 x80 xbf)) E)
(T (W x00 x00 x00 x00 x00 x00 x00 x00)
(L (W xff xff xff xff xc0 x00 x00 x00)) E))))))
(T (W x00 x00 x00 x00 x00 x00 x00 x00)
(T (W x00 x00 x00 x00 x00 x00 x00 x00)
(T (W x9a xbf xf9 xff x78 x00 x00 x00)
(T (W x00 x00 x80 x3f x00 x00 x80 x3f)
(T (W x18 x00 x00 x00 x0c x00 x00 x00)
(T (W x00 x00 x80 x3f x00 x00 x80 x3f)
(L (W x00 x00 x00 x00 x00 x00 x00 x00))
(L (W x00 x00 x00 x00 x8a x80 xff xff)))
(T (W x00 x00 x00 x00 x00 x00 x00 x00)
(L (W xff xff xff xff xb0 x00 x00 x00)) E))
(T (W xff xff xff xff xff xff xff xff)
(T (W x00 x00 x80 x3f x00 x00 x80 x3f)
(L (W x44 x10 xfe xff x15 x00 x00 x00))
(L (W xff xff xff xff xff xff xff xff)))
(T (W x63 x6f x77 x61 x72 x64 x5f x63)
(L (W xff xff xff xff xff xff xff xff)) E)))
(T (W x92 x01 x00 x00 xff xff xff xff)
(T (W x40 x00 x00 x00 x0c x00 x00 x00)
(T (W x00 x00 x80 x3f x00 x00 x80 x3f)
(L (W x00 x00 x00 x00 x00 x00 x00 x00))
(L (W x00 x00 x80 xbf x00 x00 x80 xbf)))
(T (W x1a x00 x00 x00 x10 x00 x00 x00)
(L (W x00 x00 x00 x00 x00 x00 x00 x00)) E))
(T (W x00 x00 x00 x00 xca x3e xfb xff)
(T (W x4f x84 x6f x8b xe8 xcb x63 xb7)
(L (W xff xff xff xff xff xff xff xff)) E)
(T (W x00 x00 x80 xbf x00 x00 x80 xbf)
(L (W x00 x00 x00 x00 x00 x00 x00 x00)) E))))
(T (W x00 x00 x80 x3f x00 x00 x80 x3f)
(T (W x00 x00 x00 x00 x00 x00 x00 x00)
(T (W x00 x00 x00 x00 x00 x00 x00 x00)
(T (W x00 x00 x00 x00 x00 x00 x00 x00)
(L (W x49 xa1 x68 x4a xeb x5f xdd x3d))
(L (W x00 x00 x80 xbf x00 x00 x80 xbf)))
(T (W x70 x5f x77 x69 x6c x64 x5f x70)
(L (W xff xff xff xff xff xff xff xff)) E))
(T (W x00 x00 x00 x00 x00 x00 x00 x00)
(T (W xff xff xff xff xbc x00 x00 x00)
(L (W x6c x00 x00 x00 x60 x00 x00 x00)) E)
(T (W xff xff xff xff xff xff xff xff)
(L (W x00 x00 x00 x00 x00 x00 x00 x00)) E)))
(T (W x97 x01 x00 x00 xff xff xff xff)
(T (W x00 x00 x00 x00 x04 x00 x00 x00)
(T (W xff xff xff xff xff xff xff xff)
(L (W x9a xdf xfd xff x78 x00 x00 x00))
(L (W xff xff xff xff xb0 x00 x00 x00)))
(T (W x00 x00 x00 x00 xca xde xfc xff)
(L (W x00 x00 x80 xbf x00 x00 x80 xbf)) E))
(T (W x45 x26 x22 x84 xe4 x9c xf2 xcb)
(T (W x01 x00 x00 x00 x9c x00 x00 x00)
(L (W x4f x84 x6f x8b xe8 xcb x63 xb7)) E)
(T (W x44 x70 xfd xff x1a x00 x00 x00)
(L (W x18 x00 x00 x00 x0c x00 x00 x00)) E)))))
(T (W x00 x00 x80 x3f x00 x00 x80 x3f)
(T (W xbc x00 x00 x00 xb0 x00 x00 x00)
(T (W x45 x26 x22 x84 xe4 x9c xf2 xcb)
(T (W x45 x26 x22 x84 xe4 x9c xf2 xcb)
(T (W xff xff xff xff xff xff xff xff)
(L (W x12 x00 x00 x00 x46 x53 x59 x53))
(L (W x45 x26 x22 x84 xe4 x9c xf2 xcb)))
(T (W xff xff xff xff xff xff xff xff)
(L (W xff xff xff xff xff xff xff xff)) E))
(T (W x49 xa1 x68 x4a xeb x5f xdd x3d)
(T (W x68 x00 x00 x00 x5c x00 x00 x00)
(L (W x45 x26 x22 x84 xe4 x9c xf2 xcb)) E)
(T (W x45 x26 x22 x84 xe4 x9c xf2 xcb)
(L (W xff xff xff xff xff xff xff xff)) E)))
(T (W xff xff xff xff xff xff xff xff)
(T (W x00 x00 x00 x00 x00 x00 x00 x00)
(T (W xff xff xff xff xff xff xff xff)
(L (W x00 x00 x80 xbf x00 x00 x80 xbf))
(L (W x9a xcf xff xff x78 x00 x00 x00)))
(T (W x45 x26 x22 x84 xe4 x9c xf2 xcb)
(L (W x00 x00 x80 xbf x00 x00 x80 xbf)) E))
(T (W xff xff xff xff xff xff xff xff)
(T (W x6c x00 x00 x00 x60 x00 x00 x00)
(L (W x00 x00 x00 x00 x00 x00 x00 x00)) E)
(T (W xff xff xff xff xff xff xff xff)
(L (W x00 x00 x80 xbf x00 x00 x80 xbf)) E))))
(T (W x00 x00 x80 x3f x00 x00 x80 x3f)
(T (W x00 x00 x00 x00 x00 x00 x00 x00)
(T (W x00 x00 x00 x00 x00 x00 x00 x00)
(T (W xff xff xff xff xff xff xff xff)
(L (W xff xff xff xff xff xff xff xff))
(L (W x00 x00 x80 xbf x00 x00 x80 xbf)))
(T (W x00 x00 x00 x00 x00 x00 x00 x00)
(L (W xff xff xff xff xff xff xff xff)) E))
(T (W xff xff xff xff x9c x00 x00 x00)
(T (W x00 x00 x00 x00 xca x2e xfc xff)
(L (W xb4 x00 x00 x00 x46 x00 x00 x00)) E)
(T (W x46 x53 x59 x53 x5f x4e x53 x5f)
(L (W x30 x32 x5f x43 x4c x45 x41 x52)) E)))
(T (W xff xff xff xff xff xff xff xff)
(T (W x2f x00 x00 x00 xff xff xff xff)
(T (W x00 x00 x00 x00 x00 x00 x00 x00)
(L (W x00 x00 x01 x01 x5d x00 x00 x00))
(L (W x04 x00 x00 x00 xaa xf6 xff xff)))
(T (W xea xed xfc xff x74 x00 x00 x00)
(L (W x15 x00 x00 x00 x18 x00 x00 x00)) E))
(T (W xff xff xff xff xff xff xff xff)
(T (W x00 x00 x00 x00 x00 x00 x00 x00)
(L (W x6c x00 x00 x00 x60 x00 x00 x00)) E)
(T (W x00 x00 x80 xbf x00 x00 x80 xbf)
(L (W xff xff xff xff xff xff xff xff)) E)))))))
(T (W x00 x00 x00 x00 xda x1f xfd xff)
(T (W xbc x00 x00 x00 xb0 x00 x00 x00)
(T (W x00 x00 x00 x00 x00 x00 x00 x00)
(T (W x45 x26 x22 x84 xe4 x9c xf2 xcb)
(T (W xff xff xff xff xff xff xff xff)
(T (W x00 x00 x80 x3f x00 x00 x80 x3f)
(T (W x00 x00 x00 x00 x2c x7d xfb xff)
(L (W x45 x26 x22 x84 xe4 x9c xf2 xcb))
(L (W x00 x00 x80 xbf x00 x00 x80 xbf)))
(T (W xb8 x00 x00 x00 xac x00 x00 x00)
(L (W x45 x44 x00 x00 x00 x00 x00 x00)) E))
(T (W x00 x00 x00 x00 x00 x00 x00 x00)
(T (W xff xff xff xff xff xff xff xff)
(L (W x9a xfb xfd xff x78 x00 x00 x00))
(L (W x00 x00 x80 xbf x00 x00 x80 xbf)))
(T (W x00 x00 x00 x00 x00 x00 x00 x00)
(L (W x00 x00 x00 x00 x00 x00 x00 x00)) E)))
(T (W x18 x00 x00 x00 x0c x00 x00 x00)
(T (W xff xff xff xff x03 x00 x00 x00)
(T (W xff xff xff xff xff xff xff xff)
(L (W x68 x00 x00 x00 x5c x00 x00 x00))
(L (W x00 x00 x00 x00 x00 x00 x00 x00)))
(T (W x18 x00 x00 x00 x0c x00 x00 x00)
(L (W x9a xbb xfe xff x78 x00 x00 x00)) E))
(T (W x00 x00 x80 x3f x00 x00 x80 x3f)
(T (W xff xff xff xff xbc x00 x00 x00)
(L (W x00 x00 x80 xbf x00 x00 x80 xbf)) E)
(T (W xff xff xff xff xff xff xff xff)
(L (W xff xff xff xff xff xff xff xff)) E))))
(T (W xff xff xff xff xff xff xff xff)
(T (W x00 x00 x00 x00 x00 x00 x00 x00)
(T (W xff xff xff xff x04 x00 x00 x00)
(T (W x01 x00 x00 x00 xac x00 x00 x00)
(L (W xff xff xff xff xff xff xff xff))
(L (W x00 x00 x01 x01 x5c x00 x00 x00)))
(T (W x50 x00 x00 x00 x44 x00 x00 x00)
(L (W x49 xa1 x68 x4a xeb x5f xdd x3d)) E))
(T (W x24 x00 x00 x00 xb0 x00 x00 x00)
(T (W x00 x00 x00 x00 x00 x00 x00 x00)
(L (W x04 x00 x00 x00 xaa x22 xfe xff)) E)
(T (W x00 x00 x80 xbf x00 x00 x80 xbf)
(L (W x9a x1b xff xff x78 x00 x00 x00)) E)))
(T (W x45 x26 x22 x84 xe4 x9c xf2 xcb)
(T (W x00 x00 x80 x3f x00 x00 x80 x3f)
(T (W x6c x00 x00 x00 x60 x00 x00 x00)
(L (W x00 x00 x00 x00 x00 x00 x00 x00))
(L (W x00 x00 x00 x00 x00 x00 x00 x00)))
(T (W x6c x00 x00 x00 x60 x00 x00 x00)
(L (W xff xff xff xff xff xff xff xff)) E))
(T (W xff xff xff xff x03 x00 x00 x00)
(T (W x00 x00 x00 x00 x00 x00 x00 x00)
(L (W xff xff xff xff x9c x00 x00 x00)) E)
(T (W xbc x5e xfd xff x00 x01 x01 x01)
(L (W x00 x00 x00 x00 x00 x00 x00 x00)) E)))))
(T (W x00 x00 x00 x00 x00 x00 x00 x00)
(T (W x00 x00 x80 x3f x00 x00 x80 x3f)
(T (W xff xff xff xff xff xff xff xff)
(T (W x00 x00 x00 x00 x00 x00 x00 x00)
(T (W xff xff xff xff xff xff xff xff)
(L (W x45 x26 x22 x84 xe4 x9c xf2 xcb))
(L (W x18 x00 x00 x00 x0c x00 x00 x00)))
(T (W x00 x00 x80 x3f x00 x00 x80 x3f)
(L (W x4f x84 x6f x8b xe8 xcb x63 xb7)) E))
(T (W xff xff xff xff xff xff xff xff)
(T (W x00 x00 x00 x00 x00 x00 x00 x00)
(L (W xff xff xff xff xff xff xff xff)) E)
(T (W xea x09 xfd xff x74 x00 x00 x00)
(L (W x00 x00 x80 xbf x00 x00 x80 xbf)) E)))
(T (W x54 x00 x00 x00 x48 x00 x00 x00)
(T (W x45 x26 x22 x84 xe4 x9c xf2 xcb)
(T (W x00 x00 x00 x00 x00 x00 x00 x00)
(L (W xff xff xff xff xc8 x00 x00 x00))
(L (W x46 x53 x59 x53 x5f x4e x53 x5f)))
(T (W xff xff xff xff xff xff xff xff)
(L (W xff xff xff xff xff xff xff xff)) E))
(T (W x5f x4e x53 x5f x30 x32 x5f x43)
(T (W x00 x00 x00 x00 x1a x51 xfc xff)
(L (W x9a x4b xfe xff x78 x00 x00 x00)) E)
(T (W x00 x00 x00 x00 x12 x00 x00 x00)
(L (W x00 x00 x00 x00 x00 x00 x00 x00)) E))))
(T (W xff xff xff xff xff xff xff xff)
(T (W xea x29 xfa xff x74 x00 x00 x00)
(T (W xb8 x00 x00 x00 xac x00 x00 x00)
(T (W x00 x00 x00 x00 x00 x00 x00 x00)
(L (W x00 x00 x00 x00 x2c xad xfd xff))
(L (W xff xff xff xff xff xff xff xff)))
(T (W xff xff xff xff xff xff xff xff)
(L (W x00 x00 x80 xbf x00 x00 x80 xbf)) E))
(T (W xdc x05 x00 x00 xb4 x04 x00 x00)
(T (W x45 x26 x22 x84 xe4 x9c xf2 xcb)
(L (W x00 x00 x00 x00 x00 x00 x00 x00)) E)
(T (W x9a x2b xfd xff x78 x00 x00 x00)
(L (W xff xff xff xff xa0 x00 x00 x00)) E)))
(T (W x45 x26 x22 x84 xe4 x9c xf2 xcb)
(T (W x00 x00 x80 x3f x00 x00 x80 x3f)
(T (W x9a xeb xfb xff x78 x00 x00 x00)
(L (W x00 x00 x80 xbf x00 x00 x80 xbf))
(L (W x00 x00 x80 xbf x00 x00 x80 xbf)))
(T (W x68 x00 x00 x00 x5c x00 x00 x00)
(L (W x00 x00 x00 x00 x00 x00 x00 x00)) E))
(T (W x00 x00 x00 x00 x00 x00 x00 x00)
(T (W xff xff xff xff x03 x00 x00 x00)
(L (W x00 x00 x00 x00 x00 x00 x00 x00)) E)
(T (W xff xff xff xff xff xff xff xff)
(L (W x00 x00 x00 x00 x00 x00 x00 x00)) E))))))
(T (W x00 x00 x80 x3f x00 x00 x80 x3f)
(T (W x6c x00 x00 x00 x60 x00 x00 x00)
(T (W xff xff xff xff xff xff xff xff)
(T (W xff xff xff xff xff xff xff xff)
(T (W x00 x00 x00 x00 x00 x00 x00 x00)
(T (W xff xff xff xff xff xff xff xff)
(L (W x68 x00 x00 x00 x5c x00 x00 x00))
(L (W x00 x00 x80 xbf x00 x00 x80 xbf)))
(T (W x50 x00 x00 x00 x44 x00 x00 x00)
(L (W x00 x00 x00 x00 x00 x00 x00 x00)) E))
(T (W x18 x00 x00 x00 x0c x00 x00 x00)
(T (W x4b x00 x00 x00 xff xff xff xff)
(L (W xff xff xff xff xa0 x00 x00 x00)) E)
(T (W x6f x79 x61 x62 x75 x6e x00 x00)
(L (W x00 x00 x00 x00 x00 x00 x00 x00)) E)))
(T (W x00 x00 x80 x3f x00 x00 x80 x3f)
(T (W x00 x00 x00 x00 x2c xc5 xfa xff)
(T (W x18 x00 x00 x00 x10 x00 x00 x00)
(L (W xff xff xff xff xff xff xff xff))
(L (W x04 x00 x00 x00 x70 x03 x00 x00)))
(T (W x00 x00 x80 x3f x00 x00 x80 x3f)
(L (W xb4 x00 x00 x00 x50 x00 x00 x00)) E))
(T (W xff xff xff xff xff xff xff xff)
(T (W xff xff xff xff xff xff xff xff)
(L (W x00 x00 x80 xbf x00 x00 x80 xbf)) E)
(T (W x00 x00 x00 x00 x00 x00 x00 x00)
(L (W xff xff xff xff xff xff xff xff)) E))))
(T (W xff xff xff xff xff xff xff xff)
(T (W x01 x00 x00 x00 xa0 x00 x00 x00)
(T (W x18 x00 x00 x00 x10 x00 x00 x00)
(T (W xff xff xff xff xff xff xff xff)
(L (W x00 x00 x00 x00 x00 x00 x00 x00))
(L (W x6c x00 x00 x00 x60 x00 x00 x00)))
(T (W xb8 x00 x00 x00 xac x00 x00 x00)
(L (W x54 x00 x00 x00 x48 x00 x00 x00)) E))
(T (W xff xff xff xff xff xff xff xff)
(T (W x4f x84 x6f x8b xe8 xcb x63 xb7)
(L (W x00 x00 x00 x00 xca x22 xfe xff)) E)
(T (W x00 x00 x80 xbf x00 x00 x80 xbf)
(L (W x9a x23 xff xff x78 x00 x00 x00)) E)))
(T (W x00 x00 x00 x00 x00 x00 x00 x00)
(T (W x00 x00 x80 x3f x00 x00 x80 x3f)
(T (W x00 x00 x80 x3f x00 x00 x80 x3f)
(L (W x00 x00 x00 x00 x00 x00 x00 x00))
(L (W x00 x00 x80 xbf x00 x00 x80 xbf)))
(T (W x6f x6b x65 x5f x77 x61 x72 x6c)
(L (W x00 x00 x00 x00 x00 x00 x00 x00)) E))
(T (W x00 x00 x00 x00 x00 x00 x00 x00)
(T (W xec x6a xfc xff x28 x00 x00 x00)
(L (W xff xff xff xff xff xff xff xff)) E)
(T (W x45 x26 x22 x84 xe4 x9c xf2 xcb)
(L (W x00 x00 x00 x00 x00 x00 x00 x00)) E)))))
(T (W x64 x00 x00 x00 xa0 x00 x00 x00)
(T (W x00 x00 x00 x00 x62 x6e xfd xff)
(T (W x00 x00 x00 x00 x00 x00 x00 x00)
(T (W x00 x00 x00 x00 x00 x00 x00 x00)
(T (W x00 x00 x80 x3f x00 x00 x80 x3f)
(L (W xc0 x00 x00 x00 x01 x00 x00 x00))
(L (W xff xff xff xff xc4 x00 x00 x00)))
(T (W x45 x26 x22 x84 xe4 x9c xf2 xcb)
(L (W x45 x26 x22 x84 xe4 x9c xf2 xcb)) E))
(T (W x22 x00 x00 x00 x67 x72 x6f x75)
(T (W x46 x53 x59 x53 x5f x4e x53 x5f)
(L (W xff xff xff xff xff xff xff xff)) E)
(T (W x45 x26 x22 x84 xe4 x9c xf2 xcb)
(L (W x9a x13 xff xff x78 x00 x00 x00)) E)))
(T (W x00 x00 x80 x3f x00 x00 x80 x3f)
(T (W x50 x00 x00 x00 x44 x00 x00 x00)
(T (W x00 x00 x00 x00 x00 x00 x00 x00)
(L (W xff xff xff xff xff xff xff xff))
(L (W x00 x00 x00 x00 x00 x00 x00 x00)))
(T (W x00 x00 x80 x3f x00 x00 x80 x3f)
(L (W xff xff xff xff xff xff xff xff)) E))
(T (W x00 x00 x00 x00 x00 x00 x00 x00)
(T (W x00 x00 x00 x00 x06 x00 x00 x00)
(L (W xff xff xff xff xb0 x00 x00 x00)) E)
(T (W x00 x00 x80 xbf x00 x00 x80 xbf)
(L (W x00 x00 x00 x00 x00 x00 x00 x00)) E))))
(T (W xff xff xff xff xff xff xff xff)
(T (W x00 x00 x80 x3f x00 x00 x80 x3f)
(T (W xc0 x00 x00 x00 xb4 x00 x00 x00)
(T (W xea xb1 xfb xff x74 x00 x00 x00)
(L (W x00 x00 x00 x00 x00 x00 x00 x00))
(L (W xff xff xff xff xff xff xff xff)))
(T (W x64 x00 x00 x00 x9c x00 x00 x00)
(L (W x6c x00 x00 x00 x60 x00 x00 x00)) E))
(T (W x00 x00 x00 x00 x00 x00 x00 x00)
(T (W xff xff xff xff x03 x00 x00 x00)
(L (W x00 x00 x00 x00 x00 x00 x00 x00)) E)
(T (W x03 x00 x00 x00 xd0 x00 x00 x00)
(L (W x1b x00 x00 x00 x1e x00 x00 x00)) E)))
(T (W x45 x26 x22 x84 xe4 x9c xf2 xcb)
(T (W xff xff xff xff xff xff xff xff)
(T (W x00 x00 x00 x00 x2c xf5 xfb xff)
(L (W x54 x00 x00 x00 x48 x00 x00 x00))
(L (W x6c x00 x00 x00 x60 x00 x00 x00)))
(T (W x12 x00 x00 x00 x46 x53 x59 x53)
(L (W x00 x00 x00 x00 x12 x00 x00 x00)) E))
(T (W x00 x00 x80 x3f x00 x00 x80 x3f)
(T (W x68 x00 x00 x00 x5c x00 x00 x00)
(L (W x0e xa7 xaa x28 xbf xd4 x56 x6a)) E)
(T (W xcc x00 x00 x00 x01 x00 x00 x00)
(L (W x00 x00 x80 xbf x00 x00 x80 xbf)) E))))))))
(T (W x54 x00 x00 x00 x48 x00 x00 x00)
(T (W xff xff xff xff xff xff xff xff)
(T (W x6c x00 x00 x00 x60 x00 x00 x00)
(T (W xff xff xff xff xff xff xff xff)
(T (W x00 x00 x00 x00 x00 x00 x00 x00)
(T (W x18 x00 x00 x00 x0c x00 x00 x00)
(T (W x00 x00 x00 x00 xfa x88 xff xff)
(T (W x45 x26 x22 x84 xe4 x9c xf2 xcb)
(L (W x00 x00 x80 xbf x00 x00 x80 xbf))
(L (W x00 x00 x00 x00 x00 x00 x00 x00)))
(T (W x00 x00 x80 x3f x00 x00 x80 x3f)
(L (W xff xff xff xff xff xff xff xff)) E))
(T (W xff xff xff xff xff xff xff xff)
(T (W x45 x26 x22 x84 xe4 x9c xf2 xcb)
(L (W x00 x00 x80 xbf x00 x00 x80 xbf))
(L (W xff xff xff xff xff xff xff xff)))
(T (W x18 x00 x00 x00 x10 x00 x00 x00)
(L (W xff xff xff xff xff xff xff xff)) E)))
(T (W x00 x00 x80 x3f x00 x00 x80 x3f)
(T (W x00 x00 x80 x3f x00 x00 x80 x3f)
(T (W x00 x00 x80 x3f x00 x00 x80 x3f)
(L (W x00 x00 x80 xbf x00 x00 x80 xbf))
(L (W x00 x00 x00 x00 x2c xbb xff xff)))
(T (W x00 x00 x80 x3f x00 x00 x80 x3f)
(L (W x00 x00 x80 xbf x00 x00 x80 xbf)) E))
(T (W x01 x06 x03 x1d x69 xd3 xed xbd)
(T (W xea x37 xfc xff x74 x00 x00 x00)
(L (W x06 x00 x00 x00 xc0 x05 x00 x00)) E)
(T (W xea x37 xfd xff x74 x00 x00 x00)
(L (W x00 x00 x80 xbf x00 x00 x80 xbf)) E))))
(T (W x50 x00 x00 x00 x44 x00 x00 x00)
(T (W x52 x2c xfd xff x00 x00 x01 x01)
(T (W x68 x00 x00 x00 x5c x00 x00 x00)
(T (W x00 x00 x00 x00 x00 x00 x00 x00)
(L (W x50 x00 x00 x00 x44 x00 x00 x00))
(L (W xbc x9c xff xff x00 x01 x01 x01)))
(T (W xd2 xaa xff xff xb9 x00 x00 x00)
(L (W x30 x32 x5f x43 x4c x45 x41 x52)) E))
(T (W x00 x00 x80 x3f x00 x00 x80 x3f)
(T (W x4a x00 x00 x00 xff xff xff xff)
(L (W x45 x26 x22 x84 xe4 x9c xf2 xcb)) E)
(T (W x00 x00 x60 x00 x00 x00 x00 x00)
(L (W x45 x26 x22 x84 xe4 x9c xf2 xcb)) E)))
(T (W x00 x00 x00 x00 x00 x00 x00 x00)
(T (W x00 x00 x00 x00 x00 x00 x00 x00)
(T (W x46 x53 x59 x53 x5f x4e x53 x5f)
(L (W xff xff xff xff x9c x00 x00 x00))
(L (W x00 x00 x00 x00 x00 x00 x00 x00)))
(T (W x00 x00 x00 x00 x00 x00 x00 x00)
(L (W xff xff xff xff xb0 x00 x00 x00)) E))
(T (W x4f x84 x6f x8b xe8 xcb x63 xb7)
(T (W xb0 x00 x00 x00 x14 x00 x00 x00)
(L (W x00 x00 x80 xbf x00 x00 x80 xbf)) E)
(T (W x00 x00 x00 x00 x00 x00 x00 x00)
(L (W xff xff xff xff xff xff xff xff)) E)))))
(T (W xff xff xff xff x15 x00 x00 x00)
(T (W x45 x26 x22 x84 xe4 x9c xf2 xcb)
(T (W x00 x00 x80 x3f x00 x00 x80 x3f)
(T (W xff xff xff xff xff xff xff xff)
(T (W xff xff xff xff xbc x00 x00 x00)
(L (W x00 x00 x80 xbf x00 x00 x80 xbf))
(L (W x49 xa1 x68 x4a xeb x5f xdd x3d)))
(T (W x00 x00 x00 x00 x00 x00 x00 x00)
(L (W xff xff xff xff xff xff xff xff)) E))
(T (W x00 x00 x80 x3f x00 x00 x80 x3f)
(T (W xff xff xff xff xff xff xff xff)
(L (W x6c x00 x00 x00 x60 x00 x00 x00)) E)
(T (W x00 x00 x00 x00 x00 x00 x00 x00)
(L (W x00 x00 x00 x00 x00 x00 x00 x00)) E)))
(T (W x00 x00 x00 x00 x00 x00 x00 x00)
(T (W x00 x00 x00 x00 x00 x00 x00 x00)
(T (W xff xff xff xff xff xff xff xff)
(L (W x54 x00 x00 x00 x48 x00 x00 x00))
(L (W xff xff xff xff xff xff xff xff)))
(T (W x02 x00 x00 x00 xff xff xff xff)
(L (W x9a xc9 xfe xff x78 x00 x00 x00)) E))
(T (W xff xff xff xff xff xff xff xff)
(T (W x45 x26 x22 x84 xe4 x9c xf2 xcb)
(L (W x00 x00 x00 x00 x00 x00 x00 x00)) E)
(T (W xff xff xff xff xff xff xff xff)
(L (W x45 x26 x22 x84 xe4 x9c xf2 xcb)) E))))
(T (W x18 x00 x00 x00 x0c x00 x00 x00)
(T (W x00 x00 x00 x00 x00 x00 x00 x00)
(T (W xbc xac xfa xff x00 x01 x01 x01)
(T (W xff xff xff xff x01 x00 x00 x00)
(L (W x00 x00 x80 xbf x00 x00 x80 xbf))
(L (W x18 x00 x00 x00 x10 x00 x00 x00)))
(T (W x18 x00 x00 x00 x0c x00 x00 x00)
(L (W x30 x32 x5f x43 x4c x45 x41 x52)) E))
(T (W xc8 x00 x00 x00 xbc x00 x00 x00)
(T (W x00 x00 x00 x00 x00 x00 x00 x00)
(L (W xff xff xff xff xff xff xff xff)) E)
(T (W x00 x00 x80 xbf x00 x00 x80 xbf)
(L (W x00 x00 x00 x00 x00 x00 x00 x00)) E)))
(T (W x00 x00 x00 x00 x00 x00 x00 x00)
(T (W x45 x26 x22 x84 xe4 x9c xf2 xcb)
(T (W x00 x00 x80 x3f x00 x00 x80 x3f)
(L (W x46 x53 x59 x53 x5f x4e x53 x5f))
(L (W x00 x00 x00 x00 x00 x00 x00 x00)))
(T (W x00 x00 x80 x3f x00 x00 x80 x3f)
(L (W xff xff xff xff xff xff xff xff)) E))
(T (W xff xff xff xff xff xff xff xff)
(T (W x50 x00 x00 x00 x44 x00 x00 x00)
(L (W x45 x26 x22 x84 xe4 x9c xf2 xcb)) E)
(T (W xbc x6c xfd xff x00 x01 x01 x01)
(L (W xb9 x00 x00 x00 xff xff xff xff)) E))))))
(T (W x00 x00 x00 x00 x00 x00 x00 x00)
(T (W x00 x00 x80 x3f x00 x00 x80 x3f)
(T (W xbc x00 x00 x00 xb0 x00 x00 x00)
(T (W xea xff xf9 xff x74 x00 x00 x00)
(T (W x1c x01 x00 x00 x04 x00 x00 x00)
(T (W xbc x84 xfb xff x00 x01 x01 x01)
(L (W x48 x16 x00 x00 x1c x15 x00 x00))
(L (W x00 x00 x00 x00 x00 x00 x00 x00)))
(T (W x45 x26 x22 x84 xe4 x9c xf2 xcb)
(L (W xff xff xff xff xff xff xff xff)) E))
(T (W x00 x00 x00 x00 x12 x00 x00 x00)
(T (W x00 x00 x00 x00 x2c x03 xfc xff)
(L (W x00 x00 x80 xbf x00 x00 x80 xbf))
(L (W x45 x26 x22 x84 xe4 x9c xf2 xcb)))
(T (W x28 x03 xfd xff x4a xb4 xff xff)
(L (W x00 x00 x00 x00 x00 x00 x00 x00)) E)))
(T (W x00 x00 x00 x00 x00 x00 x00 x00)
(T (W x00 x00 x80 x3f x00 x00 x80 x3f)
(T (W xff xff xff xff xff xff xff xff)
(L (W x9a xc1 xfd xff x78 x00 x00 x00))
(L (W x21 x00 x00 x00 x24 x00 x00 x00)))
(T (W x00 x00 x00 x00 x00 x00 x00 x00)
(L (W x00 x00 x80 xbf x00 x00 x80 xbf)) E))
(T (W x00 x00 x80 x3f x00 x00 x80 x3f)
(T (W x18 x00 x00 x00 x0c x00 x00 x00)
(L (W x00 x00 x00 x00 x00 x00 x00 x00)) E)
(T (W xff xff xff xff xff xff xff xff)
(L (W xff xff xff xff xb0 x00 x00 x00)) E))))
(T (W x68 x00 x00 x00 x5c x00 x00 x00)
(T (W x45 x26 x22 x84 xe4 x9c xf2 xcb)
(T (W xea x9f xfa xff x74 x00 x00 x00)
(T (W x45 x26 x22 x84 xe4 x9c xf2 xcb)
(L (W xff xff xff xff xff xff xff xff))
(L (W x00 x00 x00 x00 x00 x00 x00 x00)))
(T (W x00 x00 x80 x3f x00 x00 x80 x3f)
(L (W x00 x00 x00 x00 x00 x00 x00 x00)) E))
(T (W x50 x00 x00 x00 x44 x00 x00 x00)
(T (W x30 x32 x5f x43 x4c x45 x41 x52)
(L (W xff xff xff xff xff xff xff xff)) E)
(T (W x46 x53 x59 x53 x5f x4e x53 x5f)
(L (W x00 x00 x80 xbf x00 x00 x80 xbf)) E)))
(T (W x00 x00 x00 x00 x00 x00 x00 x00)
(T (W x00 x00 x00 x00 x00 x00 x00 x00)
(T (W x00 x00 x00 x00 x00 x00 x00 x00)
(L (W xff xff xff xff xff xff xff xff))
(L (W x94 x04 x00 x00 x80 x03 x00 x00)))
(T (W xea xdf xfc xff x74 x00 x00 x00)
(L (W xff xff xff xff xff xff xff xff)) E))
(T (W xb8 x00 x00 x00 x14 x00 x00 x00)
(T (W xff xff xff xff xff xff xff xff)
(L (W x54 x00 x00 x00 x48 x00 x00 x00)) E)
(T (W x00 x00 x80 xbf x00 x00 x80 xbf)
(L (W xff xff xff xff xff xff xff xff)) E)))))
(T (W x6c x00 x00 x00 x60 x00 x00 x00)
(T (W xff xff xff xff xff xff xff xff)
(T (W xff xff xff xff xff xff xff xff)
(T (W xff xff xff xff xff xff xff xff)
(T (W x2f x00 x7a xbd x74 x66 x83 x83)
(L (W x00 x00 x80 xbf x00 x00 x80 xbf))
(L (W x54 x00 x00 x00 x48 x00 x00 x00)))
(T (W x00 x00 x00 x00 x00 x00 x00 x00)
(L (W x42 xa0 xaa x28 xbf xd0 x56 x6a)) E))
(T (W xff xff xff xff xff xff xff xff)
(T (W xff xff xff xff xff xff xff xff)
(L (W x00 x00 x80 xbf x00 x00 x80 xbf)) E)
(T (W x04 x00 x00 x00 x5a xf8 xff xff)
(L (W x49 xa1 x68 x4a xeb x5f xdd x3d)) E)))
(T (W x00 x00 x00 x00 x00 x00 x00 x00)
(T (W x00 x00 x00 x00 x00 x00 x00 x00)
(T (W x00 x00 x00 x00 x00 x00 x00 x00)
(L (W xff xff xff xff xb0 x00 x00 x00))
(L (W xff xff xff xff xff xff xff xff)))
(T (W x00 x00 x00 x00 x00 x00 x00 x00)
(L (W x18 x00 x00 x00 x0c x00 x00 x00)) E))
(T (W x00 x00 x00 x00 x00 x00 x00 x00)
(T (W xff xff xff xff x03 x00 x00 x00)
(L (W x00 x00 x00 x00 x00 x00 x00 x00)) E)
(T (W x00 x00 x00 x00 x00 x00 x00 x00)
(L (W xff xff xff xff xff xff xff xff)) E))))
(T (W xc0 x00 x00 x00 xb4 x00 x00 x00)
(T (W x45 x26 x22 x84 xe4 x9c xf2 xcb)
(T (W x00 x00 x80 x3f x00 x00 x80 x3f)
(T (W x00 x00 x00 x00 x00 x00 x00 x00)
(L (W xff xff xff xff xff xff xff xff))
(L (W x18 x00 x00 x00 x0c x00 x00 x00)))
(T (W x00 x00 x80 x3f x00 x00 x80 x3f)
(L (W x00 x00 x00 x00 x00 x00 x00 x00)) E))
(T (W xff xff xff xff xff xff xff xff)
(T (W x4f x84 x6f x8b xe8 xcb x63 xb7)
(L (W xff xff xff xff xff xff xff xff)) E)
(T (W x00 x00 x80 xbf x00 x00 x80 xbf)
(L (W x49 xa1 x68 x4a xeb x5f xdd x3d)) E)))
(T (W x1d x00 x00 x00 x10 x00 x00 x00)
(T (W x00 x00 x80 x3f x00 x00 x80 x3f)
(T (W x00 x00 x80 x3f x00 x00 x80 x3f)
(L (W x00 x00 x00 x00 x00 x00 x00 x00))
(L (W x45 x26 x22 x84 xe4 x9c xf2 xcb)))
(T (W xff xff xff xff xff xff xff xff)
(L (W xff xff xff xff xff xff xff xff)) E))
(T (W x00 x00 x00 x00 x00 x00 x00 x00)
(T (W x45 x26 x22 x84 xe4 x9c xf2 xcb)
(L (W xff xff xff xff xff xff xff xff)) E)
(T (W x12 x00 x00 x00 x46 x53 x59 x53)
(L (W x00 x00 x00 x00 x00 x00 x00 x00)) E)))))))
(T (W x00 x00 x00 x00 x00 x00 x00 x00)
(T (W xff xff xff xff xff xff xff xff)
(T (W x00 x00 x00 x00 x00 x00 x00 x00)
(T (W x00 x00 x80 x3f x00 x00 x80 x3f)
(T (W x00 x00 x00 x00 x00 x00 x00 x00)
(T (W x00 x00 x80 x3f x00 x00 x80 x3f)
(T (W x00 x00 x00 x00 x00 x00 x00 x00)
(L (W x00 x00 x00 x00 x1a x83 xfd xff))
(L (W xff xff xff xff xff xff xff xff)))
(T (W xff xff xff xff xff xff xff xff)
(L (W x00 x00 x80 xbf x00 x00 x80 xbf)) E))
(T (W x18 x00 x00 x00 x10 x00 x00 x00)
(T (W xec x04 xfc xff x15 x00 x00 x00)
(L (W xff xff xff xff xff xff xff xff))
(L (W x00 x00 x62 x00 x74 x00 x04 x00)))
(T (W x00 x00 x00 x00 x2c xff xfc xff)
(L (W x00 x00 x80 xbf x00 x00 x80 xbf)) E)))
(T (W xff xff xff xff xff xff xff xff)
(T (W xff xff xff xff xff xff xff xff)
(T (W x00 x00 x00 x00 x00 x00 x00 x00)
(L (W x18 x00 x00 x00 x10 x00 x00 x00))
(L (W x00 x00 x00 x00 x00 x00 x00 x00)))
(T (W xff xff xff xff xff xff xff xff)
(L (W xff xff xff xff xff xff xff xff)) E))
(T (W xff xff xff xff x9c x00 x00 x00)
(T (W x30 x32 x5f x43 x4c x45 x41 x52)
(L (W x9a x3d xfe xff x78 x00 x00 x00)) E)
(T (W x00 x00 x00 x00 x00 x00 x00 x00)
(L (W x00 x00 x00 x00 x00 x00 x00 x00)) E))))
(T (W x00 x00 x00 x00 x00 x00 x00 x00)
(T (W x0a x00 x00 x00 x3e x00 x00 x00)
(T (W x23 x00 x00 x00 x10 x00 x00 x00)
(T (W x52 xb0 xfe xff x00 x00 x01 x01)
(L (W x00 x00 x00 x00 x00 x00 x00 x00))
(L (W x00 x00 x00 x00 x00 x00 x00 x00)))
(T (W xff xff xff xff xff xff xff xff)
(L (W x18 x00 x00 x00 x0c x00 x00 x00)) E))
(T (W xff xff xff xff xff xff xff xff)
(T (W xea x1b xfc xff x74 x00 x00 x00)
(L (W x45 x26 x22 x84 xe4 x9c xf2 xcb)) E)
(T (W xff xff xff xff xb8 x00 x00 x00)
(L (W xff xff xff xff xff xff xff xff)) E)))
(T (W x01 x00 x00 x00 xa0 x00 x00 x00)
(T (W xff xff xff xff xff xff xff xff)
(T (W xff xff xff xff x03 x00 x00 x00)
(L (W x00 x00 x00 x00 x00 x00 x00 x00))
(L (W x00 x00 x80 xbf x00 x00 x80 xbf)))
(T (W xff xff xff xff xff xff xff xff)
(L (W x00 x00 x00 x00 x00 x00 x00 x00)) E))
(T (W x61 x64 x65 x72 x5f x77 x69 x6c)
(T (W x00 x00 x80 x3f x00 x00 x80 x3f)
(L (W x45 x44 x00 x00 x00 x00 x00 x00)) E)
(T (W xff xff xff xff xff xff xff xff)
(L (W x00 x00 x80 xbf x00 x00 x80 xbf)) E)))))
(T (W x00 x00 x00 x00 x00 x00 x00 x00)
(T (W x9a xcd xf9 xff x78 x00 x00 x00)
(T (W x00 x00 x00 x00 x00 x00 x00 x00)
(T (W x50 x00 x00 x00 x44 x00 x00 x00)
(T (W x00 x00 x80 x3f x00 x00 x80 x3f)
(L (W xff xff xff xff xff xff xff xff))
(L (W x54 x02 x00 x00 x38 x01 x00 x00)))
(T (W xb8 x00 x00 x00 xac x00 x00 x00)
(L (W x6c x00 x00 x00 x60 x00 x00 x00)) E))
(T (W x00 x00 x00 x00 x00 x00 x00 x00)
(T (W x00 x00 x00 x00 x00 x00 x00 x00)
(L (W x00 x00 x00 x00 xaa x14 xfe xff)) E)
(T (W x10 x00 x00 x00 x00 x00 x14 x00)
(L (W x00 x00 x00 x00 x2c x0f xff xff)) E)))
(T (W xff xff xff xff xff xff xff xff)
(T (W xff xff xff xff xff xff xff xff)
(T (W x00 x00 x80 x3f x00 x00 x80 x3f)
(L (W x00 x00 x00 x00 x1a xd3 xfd xff))
(L (W x00 x00 x80 xbf x00 x00 x80 xbf)))
(T (W x00 x00 x80 x3f x00 x00 x80 x3f)
(L (W x9f x01 x00 x00 xff xff xff xff)) E))
(T (W x54 x00 x00 x00 x48 x00 x00 x00)
(T (W x00 x00 x00 x00 x00 x00 x00 x00)
(L (W xff xff xff xff xff xff xff xff)) E)
(T (W x00 x00 x80 xbf x00 x00 x80 xbf)
(L (W x00 x00 x00 x00 x00 x00 x00 x00)) E))))
(T (W x00 x00 x00 x00 x00 x00 x00 x00)
(T (W xff xff xff xff xff xff xff xff)
(T (W xff xff xff xff xff xff xff xff)
(T (W x9a xad xfb xff x78 x00 x00 x00)
(L (W xb0 x00 x00 x00 x64 x00 x00 x00))
(L (W x00 x00 x00 x00 x00 x00 x00 x00)))
(T (W x25 x00 x00 x00 x10 x00 x00 x00)
(L (W xc4 x00 x00 x00 x02 x00 x00 x00)) E))
(T (W x00 x00 x80 x3f x00 x00 x80 x3f)
(T (W xff xff xff xff xff xff xff xff)
(L (W x54 x00 x00 x00 x48 x00 x00 x00)) E)
(T (W xff xff xff xff xff xff xff xff)
(L (W xff xff xff xff xff xff xff xff)) E)))
(T (W x00 x00 x80 x3f x00 x00 x80 x3f)
(T (W xbc xf0 xfa xff x00 x01 x01 x01)
(T (W xff xff xff xff xff xff xff xff)
(L (W xbc xf0 xfd xff x00 x01 x01 x01))
(L (W x9a xed xff xff x78 x00 x00 x00)))
(T (W x00 x00 x00 x00 x00 x00 x5c x00)
(L (W x00 x00 x80 xbf x00 x00 x80 xbf)) E))
(T (W x00 x00 x80 x3f x00 x00 x80 x3f)
(T (W xc6 x01 x00 x00 xff xff xff xff)
(L (W x4f x84 x6f x8b xe8 xcb x63 xb7)) E)
(T (W x44 x7e xfd xff x13 x00 x00 x00)
(L (W x18 x00 x00 x00 x0c x00 x00 x00)) E))))))
(T (W x9a x95 xf9 xff x78 x00 x00 x00)
(T (W x01 x00 x00 x00 xa0 x00 x00 x00)
(T (W x00 x00 x01 x01 xc9 x00 x00 x00)
(T (W x00 x00 x00 x00 x00 x00 x00 x00)
(T (W x00 x00 x80 x3f x00 x00 x80 x3f)
(T (W x70 x5f x6c x65 x61 x64 x65 x72)
(L (W xff xff xff xff xff xff xff xff))
(L (W xff xff xff xff xff xff xff xff)))
(T (W xff xff xff xff xff xff xff xff)
(L (W x00 x00 x80 xbf x00 x00 x80 xbf)) E))
(T (W x00 x00 x01 x01 x9d x01 x00 x00)
(T (W x00 x00 x00 x00 x12 x00 x00 x00)
(L (W xff xff xff xff xff xff xff xff)) E)
(T (W x00 x00 x80 xbf x00 x00 x80 xbf)
(L (W x00 x00 x80 xbf x00 x00 x80 xbf)) E)))
(T (W xff xff xff xff xff xff xff xff)
(T (W xff xff xff xff xff xff xff xff)
(T (W x00 x00 x80 x3f x00 x00 x80 x3f)
(L (W x00 x00 x00 x00 x00 x00 x00 x00))
(L (W x45 x26 x22 x84 xe4 x9c xf2 xcb)))
(T (W x7c x00 x08 x00 x70 x00 x0c x00)
(L (W xff xff xff xff xff xff xff xff)) E))
(T (W x14 x00 x00 x00 x10 x00 x00 x00)
(T (W x00 x00 x00 x00 x00 x00 x00 x00)
(L (W x45 x26 x22 x84 xe4 x9c xf2 xcb)) E)
(T (W x45 x26 x22 x84 xe4 x9c xf2 xcb)
(L (W x00 x00 x00 x00 x00 x00 x00 x00)) E))))
(T (W x00 x00 x00 x00 x00 x00 x00 x00)
(T (W xb5 x01 x00 x00 xff xff xff xff)
(T (W x52 xb8 xfd xff x00 x00 x01 x01)
(T (W x00 x00 x80 x3f x00 x00 x80 x3f)
(L (W x00 x00 x00 x00 x00 x00 x00 x00))
(L (W x03 x00 x00 x00 xf8 x00 x00 x00)))
(T (W xff xff xff xff xff xff xff xff)
(L (W xb4 x00 x00 x00 x46 x00 x00 x00)) E))
(T (W x00 x00 x00 x00 x00 x00 x00 x00)
(T (W x1c x00 x00 x00 xb0 x00 x00 x00)
(L (W x00 x00 x80 xbf x00 x00 x80 xbf)) E)
(T (W x03 x00 x00 x00 xd0 x00 x00 x00)
(L (W xff xff xff xff xff xff xff xff)) E)))
(T (W xea x63 xfa xff x74 x00 x00 x00)
(T (W x64 x00 x00 x00 x9c x00 x00 x00)
(T (W xff xff xff xff xff xff xff xff)
(L (W x00 x00 x00 x00 x00 x00 x00 x00))
(L (W x6c x00 x00 x00 x60 x00 x00 x00)))
(T (W x1c x00 x00 x00 x9c x00 x00 x00)
(L (W x4f x84 x6f x8b xe8 xcb x63 xb7)) E))
(T (W x00 x00 x00 x00 x00 x00 x00 x00)
(T (W x5c x00 x60 x00 x62 x00 x00 x00)
(L (W x00 x00 x00 x00 x00 x00 x00 x00)) E)
(T (W xff xff xff xff xff xff xff xff)
(L (W x6c x00 x00 x00 x60 x00 x00 x00)) E)))))
(T (W xff xff xff xff xff xff xff xff)
(T (W x00 x00 x00 x00 x00 x00 x00 x00)
(T (W x00 x00 x80 x3f x00 x00 x80 x3f)
(T (W xb8 x00 x00 x00 xac x00 x00 x00)
(T (W x68 x00 x00 x00 x5c x00 x00 x00)
(L (W xc9 x00 x00 x00 xff xff xff xff))
(L (W x00 x00 x00 x00 x12 x00 x00 x00)))
(T (W x50 x00 x00 x00 x44 x00 x00 x00)
(L (W x50 x00 x00 x00 x44 x00 x00 x00)) E))
(T (W xff xff xff xff xc8 x00 x00 x00)
(T (W x4f x84 x6f x8b xe8 xcb x63 xb7)
(L (W x00 x00 x00 x00 x12 x00 x00 x00)) E)
(T (W x00 x00 x60 x00 x00 x00 x00 x00)
(L (W xff xff xff xff xff xff xff xff)) E)))
(T (W x18 x00 x00 x00 x10 x00 x00 x00)
(T (W xff xff xff xff xff xff xff xff)
(T (W x00 x00 x80 x3f x00 x00 x80 x3f)
(L (W x00 x00 x00 x00 x00 x00 x00 x00))
(L (W x00 x00 x80 xbf x00 x00 x80 xbf)))
(T (W xff xff xff xff xb0 x00 x00 x00)
(L (W x00 x00 x00 x00 x00 x00 x00 x00)) E))
(T (W xff xff xff xff xff xff xff xff)
(T (W x00 x00 x80 x3f x00 x00 x80 x3f)
(L (W xff xff xff xff xff xff xff xff)) E)
(T (W x18 x00 x00 x00 x10 x00 x00 x00)
(L (W x00 x00 x80 xbf x00 x00 x80 xbf)) E))))
(T (W x00 x00 x00 x00 x00 x00 x00 x00)
(T (W xb8 x00 x00 x00 xac x00 x00 x00)
(T (W xff xff xff xff xff xff xff xff)
(T (W xff xff xff xff xff xff xff xff)
(L (W x00 x00 x00 x00 x00 x00 x00 x00))
(L (W x00 x00 x00 x00 x00 x00 x00 x00)))
(T (W xff xff xff xff xff xff xff xff)
(L (W xff xff xff xff xff xff xff xff)) E))
(T (W x9a x35 xfb xff x78 x00 x00 x00)
(T (W x4a x00 x00 x00 xff xff xff xff)
(L (W x6c x00 x00 x00 x60 x00 x00 x00)) E)
(T (W x02 x00 x00 x00 x30 x01 x00 x00)
(L (W xff xff xff xff xff xff xff xff)) E)))
(T (W x00 x00 x80 x3f x00 x00 x80 x3f)
(T (W xff xff xff xff xff xff xff xff)
(T (W x45 x44 x00 x00 x00 x00 x00 x00)
(L (W xff xff xff xff xc8 x00 x00 x00))
(L (W xff xff xff xff xff xff xff xff)))
(T (W x00 x00 x80 x3f x00 x00 x80 x3f)
(L (W x6c x00 x00 x00 x60 x00 x00 x00)) E))
(T (W xff xff xff xff xff xff xff xff)
(T (W xd2 x86 xff xff xc1 x01 x00 x00)
(L (W x00 x00 x80 xbf x00 x00 x80 xbf)) E)
(T (W xff xff xff xff xff xff xff xff)
(L (W x00 x00 x00 x00 x2c x77 xff xff)) E))))))))))
(T (W x08 xa1 x03 x00 xcc x9f x03 x00)
(T (W xc8 xff x02 x00 x84 xfd x02 x00)
(T (W x48 x21 x01 x00 x14 x20 x01 x00)
(T (W x00 x00 x00 x00 x00 x00 x00 x00)
(T (W xff xff xff xff xff xff xff xff)
(T (W x00 x00 x00 x00 x00 x00 x00 x00)
(T (W x00 x00 x80 x3f x00 x00 x80 x3f)
(T (W xff xff xff xff xff xff xff xff)
(T (W x00 x00 x00 x00 x00 x00 x00 x00)
(T (W x6a x75 xfb xff x74 x00 x00 x00)
(L (W x45 x26 x22 x84 xe4 x9c xf2 xcb))
(L (W x00 x00 x80 xbf x00 x00 x80 xbf)))
(T (W xb8 x00 x00 x00 xac x00 x00 x00)
(L (W x45 x44 x00 x00 x00 x00 x00 x00)) E))
(T (W x1a xf7 xfa xff x78 x00 x00 x00)
(T (W xcc x00 x00 x00 xc0 x00 x00 x00)
(L (W x00 x00 x80 xbf x00 x00 x80 xbf))
(L (W x00 x00 x80 xbf x00 x00 x80 xbf)))
(T (W x77 x61 x72 x6c x69 x6b x65 x5f)
(L (W x00 x00 x00 x00 x00 x00 x00 x00)) E)))
(T (W x00 x00 x80 x3f x00 x00 x80 x3f)
(T (W x68 x00 x00 x00 x5c x00 x00 x00)
(T (W x45 x26 x22 x84 xe4 x9c xf2 xcb)
(L (W xff xff xff xff xff xff xff xff))
(L (W xff xff xff xff xff xff xff xff)))
(T (W x18 x00 x00 x00 x0c x00 x00 x00)
(L (W x00 x00 x80 xbf x00 x00 x80 xbf)) E))
(T (W x00 x00 x00 x00 x00 x00 x00 x00)
(T (W x45 x26 x22 x84 xe4 x9c xf2 xcb)
(L (W x00 x00 x00 x00 x00 x00 x00 x00)) E)
(T (W xb0 x00 x00 x00 x64 x00 x00 x00)
(L (W x00 x00 x00 x00 xac x38 xff xff)) E))))
(T (W xff xff xff xff x03 x00 x00 x00)
(T (W x40 x00 x00 x00 x0c x00 x00 x00)
(T (W x54 x00 x00 x00 x48 x00 x00 x00)
(T (W x00 x00 x80 x3f x00 x00 x80 x3f)
(L (W xff xff xff xff xac x00 x00 x00))
(L (W xff xff xff xff xff xff xff xff)))
(T (W x00 x00 x00 x00 x00 x00 x00 x00)
(L (W x49 xa1 x68 x4a xeb x5f xdd x3d)) E))
(T (W x00 x00 x80 x3f x00 x00 x80 x3f)
(T (W x6b x65 x5f x6c x76 x31 x00 x00)
(L (W xff xff xff xff xff xff xff xff)) E)
(T (W xff xff xff xff xff xff xff xff)
(L (W x54 x00 x00 x00 x48 x00 x00 x00)) E)))
(T (W x00 x00 x80 x3f x00 x00 x80 x3f)
(T (W x6a xd5 xfa xff x74 x00 x00 x00)
(T (W x00 x00 x80 x3f x00 x00 x80 x3f)
(L (W xff xff xff xff xff xff xff xff))
(L (W x00 x00 x00 x00 x00 x00 x00 x00)))
(T (W x00 x00 x80 x3f x00 x00 x80 x3f)
(L (W xff xff xff xff xff xff xff xff)) E))
(T (W x6c x00 x00 x00 x60 x00 x00 x00)
(T (W x00 x00 x00 x00 x4a x56 xfc xff)
(L (W x45 x26 x22 x84 xe4 x9c xf2 xcb)) E)
(T (W x00 x00 x80 xbf x00 x00 x80 xbf)
(L (W x00 x00 x00 x00 x00 x00 x00 x00)) E)))))
(T (W x45 x26 x22 x84 xe4 x9c xf2 xcb)
(T (W x00 x00 x00 x00 xac xc8 xf9 xff)
(T (W xff xff xff xff xff xff xff xff)
(T (W x00 x00 x00 x00 x00 x00 x00 x00)
(T (W x00 x00 x00 x00 x9a x8c xfb xff)
(L (W x50 x00 x00 x00 x44 x00 x00 x00))
(L (W x6c x00 x00 x00 x60 x00 x00 x00)))
(T (W x00 x00 x80 x3f x00 x00 x80 x3f)
(L (W x46 x53 x59 x53 x5f x4e x53 x5f)) E))
(T (W x29 x00 x00 x00 x2c x00 x00 x00)
(T (W xff xff xff xff xff xff xff xff)
(L (W x1a x07 xfe xff x78 x00 x00 x00)) E)
(T (W x00 x00 x00 x00 x00 x00 x00 x00)
(L (W x00 x00 x00 x00 x00 x00 x00 x00)) E)))
(T (W x00 x00 x80 x3f x00 x00 x80 x3f)
(T (W x50 x00 x00 x00 x44 x00 x00 x00)
(T (W x00 x00 x00 x00 x00 x00 x00 x00)
(L (W xff xff xff xff xc8 x00 x00 x00))
(L (W xff xff xff xff xff xff xff xff)))
(T (W x74 x5f x70 x6f x6b x65 x5f x70)
(L (W x03 x00 x00 x00 xd8 x00 x00 x00)) E))
(T (W xff xff xff xff xff xff xff xff)
(T (W xff xff xff xff xff xff xff xff)
(L (W x45 x26 x22 x84 xe4 x9c xf2 xcb)) E)
(T (W xc1 x00 x00 x00 xff xff xff xff)
(L (W xff xff xff xff xff xff xff xff)) E))))
(T (W xff xff xff xff xff xff xff xff)
(T (W x00 x00 x00 x00 xac x28 xfa xff)
(T (W xff xff xff xff x04 x00 x00 x00)
(T (W x13 x00 x00 x00 x0c x00 x00 x00)
(L (W xff xff xff xff xff xff xff xff))
(L (W x4c x00 x04 x00 x08 x00 x0c x00)))
(T (W x01 x00 x00 x00 x9c x00 x00 x00)
(L (W x00 x00 x80 xbf x00 x00 x80 xbf)) E))
(T (W xff xff xff xff xff xff xff xff)
(T (W x00 x00 x80 x3f x00 x00 x80 x3f)
(L (W x00 x00 x00 x00 x00 x00 x00 x00)) E)
(T (W x00 x00 x80 xbf x00 x00 x80 xbf)
(L (W x00 x00 x80 xbf x00 x00 x80 xbf)) E)))
(T (W x45 x26 x22 x84 xe4 x9c xf2 xcb)
(T (W x00 x00 x80 x3f x00 x00 x80 x3f)
(T (W x00 x00 x80 x3f x00 x00 x80 x3f)
(L (W x49 xa1 x68 x4a xeb x5f xdd x3d))
(L (W x00 x00 x00 x00 x00 x00 x00 x00)))
(T (W x00 x00 x80 x3f x00 x00 x80 x3f)
(L (W xff xff xff xff xff xff xff xff)) E))
(T (W x9c x03 x00 x00 x6c x02 x00 x00)
(T (W xff xff xff xff x03 x00 x00 x00)
(L (W xff xff xff xff xff xff xff xff)) E)
(T (W xff xff xff xff xb0 x00 x00 x00)
(L (W x00 x00 x00 x00 x00 x00 x00 x00)) E))))))
(T (W x54 x00 x00 x00 x48 x00 x00 x00)
(T (W xbc x00 x00 x00 xb0 x00 x00 x00)
(T (W x00 x00 x00 x00 x5a x5b xfd xff)
(T (W xff xff xff xff xff xff xff xff)
(T (W xc4 x8f xfa xff x3e x00 x00 x00)
(T (W xff xff xff xff xff xff xff xff)
(L (W x18 x00 x00 x00 x0c x00 x00 x00))
(L (W x00 x00 x80 xbf x00 x00 x80 xbf)))
(T (W x50 x00 x00 x00 x44 x00 x00 x00)
(L (W x00 x00 x00 x00 x00 x00 x00 x00)) E))
(T (W x4f x84 x6f x8b xe8 xcb x63 xb7)
(T (W xff xff xff xff xff xff xff xff)
(L (W x00 x00 x80 xbf x00 x00 x80 xbf))
(L (W x6c x00 x0c x00 x00 x00 x00 x00)))
(T (W x00 x00 x80 xbf x00 x00 x80 xbf)
(L (W x00 x00 x00 x00 x00 x00 x00 x00)) E)))
(T (W x00 x00 x80 x3f x00 x00 x80 x3f)
(T (W x00 x00 x80 x3f x00 x00 x80 x3f)
(T (W xff xff xff xff xff xff xff xff)
(L (W x00 x00 x00 x00 xac xc0 xfd xff))
(L (W xff xff xff xff xff xff xff xff)))
(T (W x00 x00 x80 x3f x00 x00 x80 x3f)
(L (W x1a xbf xfe xff x78 x00 x00 x00)) E))
(T (W x00 x00 x80 x3f x00 x00 x80 x3f)
(T (W xff xff xff xff x03 x00 x00 x00)
(L (W x00 x00 x00 x00 x00 x00 x00 x00)) E)
(T (W xff xff xff xff xff xff xff xff)
(L (W xff xff xff xff xb0 x00 x00 x00)) E))))
(T (W xff xff xff xff xff xff xff xff)
(T (W x6a x1d xfa xff x74 x00 x00 x00)
(T (W xb8 x00 x00 x00 xac x00 x00 x00)
(T (W x18 x00 x00 x00 x10 x00 x00 x00)
(L (W xff xff xff xff xff xff xff xff))
(L (W xff xff xff xff xff xff xff xff)))
(T (W x50 x00 x00 x00 x44 x00 x00 x00)
(L (W x45 x26 x22 x84 xe4 x9c xf2 xcb)) E))
(T (W x68 x00 x00 x00 x5c x00 x00 x00)
(T (W x00 x00 x00 x00 x00 x00 x00 x00)
(L (W x5c x00 x00 x00 xff xff xff xff)) E)
(T (W x49 xa1 x68 x4a xeb x5f xdd x3d)
(L (W x45 x26 x22 x84 xe4 x9c xf2 xcb)) E)))
(T (W x45 x26 x22 x84 xe4 x9c xf2 xcb)
(T (W x00 x00 x80 x3f x00 x00 x80 x3f)
(T (W x00 x00 x80 x3f x00 x00 x80 x3f)
(L (W x00 x00 x01 x01 x2a x00 x00 x00))
(L (W x00 x00 x00 x00 x00 x00 x00 x00)))
(T (W x00 x00 x80 x3f x00 x00 x80 x3f)
(L (W xff xff xff xff xff xff xff xff)) E))
(T (W xff xff xff xff xff xff xff xff)
(T (W x6c x66 xfc xff x26 x00 x00 x00)
(L (W x03 x00 x00 x00 xd0 x00 x00 x00)) E)
(T (W x00 x00 x80 xbf x00 x00 x80 xbf)
(L (W x00 x00 x00 x00 x00 x00 x00 x00)) E)))))
(T (W xff xff xff xff xff xff xff xff)
(T (W x00 x00 x00 x00 x00 x00 x00 x00)
(T (W x80 x03 x00 x00 x6c x02 x00 x00)
(T (W x00 x00 x00 x00 x00 x00 x00 x00)
(T (W x00 x00 x00 x00 x00 x00 x00 x00)
(L (W x3c x92 xfd xff x00 x01 x01 x01))
(L (W xff xff xff xff xc8 x00 x00 x00)))
(T (W x45 x26 x22 x84 xe4 x9c xf2 xcb)
(L (W x00 x00 x00 x00 x00 x00 x00 x00)) E))
(T (W xff xff xff xff xff xff xff xff)
(T (W x00 x00 x00 x00 x4a x0e xfc xff)
(L (W xbc x00 x00 x00 x32 x00 x00 x00)) E)
(T (W xc7 x5a x69 x12 x83 x78 x37 xc6)
(L (W x00 x00 x00 x00 x00 x00 x00 x00)) E)))
(T (W x00 x00 x80 x3f x00 x00 x80 x3f)
(T (W x68 x00 x00 x00 x5c x00 x00 x00)
(T (W x00 x00 x00 x00 x00 x00 x00 x00)
(L (W xff xff xff xff xff xff xff xff))
(L (W x00 x00 x00 x00 x0a xd0 xff xff)))
(T (W x45 x44 x00 x00 x00 x00 x00 x00)
(L (W xff xff xff xff xff xff xff xff)) E))
(T (W x00 x00 x00 x00 x00 x00 x00 x00)
(T (W x4b x00 x00 x00 xff xff xff xff)
(L (W x00 x00 x80 xbf x00 x00 x80 xbf)) E)
(T (W x00 x00 x00 x00 x00 x00 x00 x00)
(L (W xff xff xff xff xff xff xff xff)) E))))
(T (W xff xff xff xff xff xff xff xff)
(T (W x45 x26 x22 x84 xe4 x9c xf2 xcb)
(T (W x45 x26 x22 x84 xe4 x9c xf2 xcb)
(T (W x49 xa1 x68 x4a xeb x5f xdd x3d)
(L (W x45 x26 x22 x84 xe4 x9c xf2 xcb))
(L (W xff xff xff xff xff xff xff xff)))
(T (W x64 x00 x00 x00 x9c x00 x00 x00)
(L (W x00 x00 x80 xbf x00 x00 x80 xbf)) E))
(T (W x30 x32 x5f x43 x4c x45 x41 x52)
(T (W x00 x00 x80 x3f x00 x00 x80 x3f)
(L (W x00 x00 x00 x00 x12 x00 x00 x00)) E)
(T (W x1a x2f xfd xff x78 x00 x00 x00)
(L (W x74 x00 x00 x00 x68 x00 x00 x00)) E)))
(T (W x00 x00 x00 x00 x00 x00 x00 x00)
(T (W x45 x26 x22 x84 xe4 x9c xf2 xcb)
(T (W x18 x00 x00 x00 x10 x00 x00 x00)
(L (W x00 x00 x00 x00 x00 x00 x00 x00))
(L (W x00 x00 x00 x00 x00 x00 x00 x00)))
(T (W x00 x00 x00 x00 x00 x00 x54 x00)
(L (W x46 x53 x59 x53 x5f x4e x53 x5f)) E))
(T (W x49 xa1 x68 x4a xeb x5f xdd x3d)
(T (W x68 x00 x00 x00 x5c x00 x00 x00)
(L (W xff xff xff xff xff xff xff xff)) E)
(T (W xff xff xff xff xff xff xff xff)
(L (W x00 x00 x80 xbf x00 x00 x80 xbf)) E)))))))
(T (W x00 x00 x80 x3f x00 x00 x80 x3f)
(T (W x00 x00 x00 x00 x00 x00 x00 x00)
(T (W x50 x00 x00 x00 x44 x00 x00 x00)
(T (W xff xff xff xff x03 x00 x00 x00)
(T (W x00 x00 x80 x3f x00 x00 x80 x3f)
(T (W xff xff xff xff xff xff xff xff)
(T (W x00 x00 x00 x00 x00 x00 x00 x00)
(L (W x45 x44 x00 x00 x00 x00 x00 x00))
(L (W xff xff xff xff xff xff xff xff)))
(T (W x00 x00 x00 x00 x00 x00 x00 x00)
(L (W x54 x00 x00 x00 x48 x00 x00 x00)) E))
(T (W x00 x00 x00 x00 xac xfc xfa xff)
(T (W x45 x26 x22 x84 xe4 x9c xf2 xcb)
(L (W x00 x00 x00 x00 x0a xfc xfd xff))
(L (W xff xff xff xff xff xff xff xff)))
(T (W x00 x00 x80 xbf x00 x00 x80 xbf)
(L (W x00 x00 x00 x00 xac xfc xfe xff)) E)))
(T (W x00 x00 x00 x00 x04 x00 x00 x00)
(T (W x00 x00 x00 x00 x00 x00 x00 x00)
(T (W x4f x84 x6f x8b xe8 xcb x63 xb7)
(L (W xd2 xfc xff xff xc9 x00 x00 x00))
(L (W x00 x00 x80 xbf x00 x00 x80 xbf)))
(T (W x23 x00 x00 x00 x10 x00 x00 x00)
(L (W x00 x00 x00 x00 x0a xbc xfe xff)) E))
(T (W xff xff xff xff xff xff xff xff)
(T (W x00 x00 x00 x00 x00 x00 x00 x00)
(L (W xff xff xff xff xff xff xff xff)) E)
(T (W x49 xa1 x68 x4a xeb x5f xdd x3d)
(L (W x00 x00 x00 x00 x00 x00 x00 x00)) E))))
(T (W x00 x00 x00 x00 x00 x00 x00 x00)
(T (W x00 x00 x00 x00 xac x1c xfa xff)
(T (W x00 x00 x00 x00 x00 x00 x00 x00)
(T (W xc4 xab xfb xff x10 x00 x00 x00)
(L (W x00 x00 x00 x00 x00 x00 x00 x00))
(L (W x45 x26 x22 x84 xe4 x9c xf2 xcb)))
(T (W xb6 x01 x00 x00 xff xff xff xff)
(L (W xff xff xff xff xff xff xff xff)) E))
(T (W x70 x5f x6c x65 x61 x64 x65 x72)
(T (W x45 x26 x22 x84 xe4 x9c xf2 xcb)
(L (W x45 x26 x22 x84 xe4 x9c xf2 xcb)) E)
(T (W xff xff xff xff xff xff xff xff)
(L (W x00 x00 x00 x00 x9a x20 xff xff)) E)))
(T (W xff xff xff xff xff xff xff xff)
(T (W xff xff xff xff xff xff xff xff)
(T (W x4b x00 x00 x00 xff xff xff xff)
(L (W x00 x00 x80 xbf x00 x00 x80 xbf))
(L (W xff xff xff xff xb0 x00 x00 x00)))
(T (W xda x01 x00 x00 xff xff xff xff)
(L (W x00 x00 x80 xbf x00 x00 x80 xbf)) E))
(T (W x6b x65 x5f x6c x76 x31 x00 x00)
(T (W x45 x26 x22 x84 xe4 x9c xf2 xcb)
(L (W x30 x32 x5f x43 x4c x45 x41 x52)) E)
(T (W x04 x00 x00 x00 x2a x62 xfd xff)
(L (W x18 x00 x00 x00 x0c x00 x00 x00)) E)))))
(T (W x1a xab xf9 xff x78 x00 x00 x00)
(T (W xff xff xff xff xff xff xff xff)
(T (W x00 x00 x00 x00 x00 x00 x00 x00)
(T (W x18 x00 x00 x00 x0c x00 x00 x00)
(T (W x00 x00 x80 x3f x00 x00 x80 x3f)
(L (W x00 x00 x00 x00 x00 x00 x00 x00))
(L (W x16 x00 x00 x00 x0c x00 x00 x00)))
(T (W xff xff xff xff xff xff xff xff)
(L (W xcc x00 x00 x00 x02 x00 x00 x00)) E))
(T (W x00 x00 x00 x00 x00 x00 x00 x00)
(T (W x50 x00 x00 x00 x44 x00 x00 x00)
(L (W x00 x00 x00 x00 x00 x00 x00 x00)) E)
(T (W x04 x00 x00 x00 xda xf1 xff xff)
(L (W xff xff xff xff xff xff xff xff)) E)))
(T (W x85 x01 x00 x00 xff xff xff xff)
(T (W x33 x7f x9e x72 x96 xac x52 x46)
(T (W x1c x00 x00 x00 xb0 x00 x00 x00)
(L (W x00 x00 x00 x00 x00 x00 x00 x00))
(L (W x1a xcb xff xff x78 x00 x00 x00)))
(T (W x00 x00 x00 x00 x20 x00 x24 x00)
(L (W x00 x00 x00 x00 x00 x00 x00 x00)) E))
(T (W x6a x49 xfb xff x74 x00 x00 x00)
(T (W x00 x00 x80 x3f x00 x00 x80 x3f)
(L (W x00 x00 x00 x00 x9a x50 xfe xff)) E)
(T (W x00 x00 x00 x00 x40 x4e xfd xff)
(L (W x00 x00 x80 xbf x00 x00 x80 xbf)) E))))
(T (W x00 x00 x00 x00 x00 x00 x00 x00)
(T (W x01 x00 x00 x00 x04 x00 x00 x00)
(T (W x00 x00 x00 x00 x00 x00 x00 x00)
(T (W x45 x26 x22 x84 xe4 x9c xf2 xcb)
(L (W x00 x00 x00 x00 x00 x00 x00 x00))
(L (W x4f x84 x6f x8b xe8 xcb x63 xb7)))
(T (W x00 x00 x00 x00 x00 x00 x00 x00)
(L (W xff xff xff xff xff xff xff xff)) E))
(T (W x00 x00 x80 x3f x00 x00 x80 x3f)
(T (W xff xff xff xff xc4 x00 x00 x00)
(L (W x50 x00 x00 x00 x44 x00 x00 x00)) E)
(T (W x00 x00 x00 x00 x00 x00 x00 x00)
(L (W x30 x32 x5f x43 x4c x45 x41 x52)) E)))
(T (W xff xff xff xff x03 x00 x00 x00)
(T (W xff xff xff xff xff xff xff xff)
(T (W x00 x00 x00 x00 x00 x00 x00 x00)
(L (W xff xff xff xff xff xff xff xff))
(L (W xff xff xff xff xff xff xff xff)))
(T (W x95 x01 x00 x00 xff xff xff xff)
(L (W x18 x00 x00 x00 x10 x00 x00 x00)) E))
(T (W x18 x00 x00 x00 x10 x00 x00 x00)
(T (W x00 x00 x00 x00 x00 x00 x00 x00)
(L (W x00 x00 x80 xbf x00 x00 x80 xbf)) E)
(T (W x45 x26 x22 x84 xe4 x9c xf2 xcb)
(L (W x18 x00 x00 x00 x0c x00 x00 x00)) E))))))
(T (W xff xff xff xff xff xff xff xff)
(T (W x00 x00 x01 x01 xc9 x00 x00 x00)
(T (W x45 x26 x22 x84 xe4 x9c xf2 xcb)
(T (W x45 x26 x22 x84 xe4 x9c xf2 xcb)
(T (W x45 x26 x22 x84 xe4 x9c xf2 xcb)
(T (W x00 x00 x00 x00 x00 x00 x00 x00)
(L (W xc9 x00 x00 x00 xff xff xff xff))
(L (W xff xff xff xff xff xff xff xff)))
(T (W x52 x94 xff xff x91 x01 x00 x00)
(L (W x68 x00 x00 x00 x5c x00 x00 x00)) E))
(T (W xe8 x05 x00 x00 xc0 x04 x00 x00)
(T (W x00 x00 x80 x3f x00 x00 x80 x3f)
(L (W x46 x53 x59 x53 x5f x4e x53 x5f)) E)
(T (W x00 x00 x80 xbf x00 x00 x80 xbf)
(L (W x21 x00 x00 x00 x24 x00 x00 x00)) E)))
(T (W xff xff xff xff xff xff xff xff)
(T (W x00 x00 x00 x00 x00 x00 x00 x00)
(T (W x00 x00 x80 x3f x00 x00 x80 x3f)
(L (W x00 x00 x00 x00 x00 x00 x00 x00))
(L (W x00 x00 x80 xbf x00 x00 x80 xbf)))
(T (W xff xff xff xff xff xff xff xff)
(L (W x00 x00 x00 x00 x12 x00 x00 x00)) E))
(T (W x00 x00 x00 x00 x00 x00 x00 x00)
(T (W x00 x00 x80 x3f x00 x00 x80 x3f)
(L (W xff xff xff xff xff xff xff xff)) E)
(T (W x1a x43 xfd xff x78 x00 x00 x00)
(L (W x00 x00 x80 xbf x00 x00 x80 xbf)) E))))
(T (W x45 x26 x22 x84 xe4 x9c xf2 xcb)
(T (W x6c x2a xfa xff x3e x00 x00 x00)
(T (W x00 x00 x00 x00 x00 x00 x00 x00)
(T (W x00 x00 x80 x3f x00 x00 x80 x3f)
(L (W x00 x00 x00 x00 xac xa4 xfd xff))
(L (W x00 x00 x01 x01 x5c x00 x00 x00)))
(T (W x00 x00 x00 x00 x00 x00 x00 x00)
(L (W xff xff xff xff xff xff xff xff)) E))
(T (W x00 x00 x00 x00 x00 x00 x00 x00)
(T (W xff xff xff xff x03 x00 x00 x00)
(L (W x00 x00 x80 xbf x00 x00 x80 xbf)) E)
(T (W xff xff xff xff xff xff xff xff)
(L (W x00 x00 x00 x00 x0a x24 xff xff)) E)))
(T (W x64 x00 x00 x00 x9c x00 x00 x00)
(T (W xff xff xff xff xff xff xff xff)
(T (W xff xff xff xff xff xff xff xff)
(L (W x54 x00 x00 x00 x48 x00 x00 x00))
(L (W xff xff xff xff xff xff xff xff)))
(T (W x00 x00 x80 x3f x00 x00 x80 x3f)
(L (W x00 x00 x80 xbf x00 x00 x80 xbf)) E))
(T (W x00 x00 x80 x3f x00 x00 x80 x3f)
(T (W x00 x00 x80 x3f x00 x00 x80 x3f)
(L (W x00 x00 x00 x00 x00 x00 x00 x00)) E)
(T (W x45 x44 x00 x00 x00 x00 x00 x00)
(L (W x68 x00 x00 x00 x5c x00 x00 x00)) E)))))
(T (W x00 x00 x00 x00 x00 x00 x00 x00)
(T (W x00 x00 x80 x3f x00 x00 x80 x3f)
(T (W x50 x00 x00 x00 x44 x00 x00 x00)
(T (W x6a x91 xfa xff x74 x00 x00 x00)
(T (W xff xff xff xff xff xff xff xff)
(L (W x5f x4e x53 x5f x30 x32 x5f x43))
(L (W x00 x00 x00 x00 x00 x00 x00 x00)))
(T (W xff xff xff xff xff xff xff xff)
(L (W xff xff xff xff xff xff xff xff)) E))
(T (W x50 x00 x00 x00 x44 x00 x00 x00)
(T (W x1a x13 xfc xff x78 x00 x00 x00)
(L (W x00 x00 x80 xbf x00 x00 x80 xbf)) E)
(T (W xff xff xff xff xff xff xff xff)
(L (W x00 x00 x01 x01 x5c x00 x00 x00)) E)))
(T (W xff xff xff xff xff xff xff xff)
(T (W x5d x00 x00 x00 xff xff xff xff)
(T (W xff xff xff xff x9c x00 x00 x00)
(L (W x00 x00 x80 xbf x00 x00 x80 xbf))
(L (W x18 x00 x00 x00 x10 x00 x00 x00)))
(T (W xff xff xff xff xff xff xff xff)
(L (W x00 x00 x80 xbf x00 x00 x80 xbf)) E))
(T (W xb0 x00 x00 x00 x64 x00 x00 x00)
(T (W x00 x00 x80 x3f x00 x00 x80 x3f)
(L (W xf4 x06 x00 x00 xd8 x05 x00 x00)) E)
(T (W xff xff xff xff xff xff xff xff)
(L (W x00 x00 x00 x00 xac x54 xff xff)) E))))
(T (W x00 x00 x80 x3f x00 x00 x80 x3f)
(T (W xff xff xff xff xff xff xff xff)
(T (W x00 x00 x00 x00 x00 x00 x00 x00)
(T (W x76 x31 x00 x00 x5a x4f xff xff)
(L (W x68 x00 x00 x00 x5c x00 x00 x00))
(L (W x45 x26 x22 x84 xe4 x9c xf2 xcb)))
(T (W x00 x00 x00 x00 x00 x00 x00 x00)
(L (W x2a x00 x00 x00 xff xff xff xff)) E))
(T (W x24 x00 x00 x00 xb0 x00 x00 x00)
(T (W x6b x65 x5f x6c x76 x31 x00 x00)
(L (W x45 x26 x22 x84 xe4 x9c xf2 xcb)) E)
(T (W x00 x00 x00 x00 x00 x00 x00 x00)
(L (W x3a xfd xaf x28 xbf x5e x5d x6a)) E)))
(T (W xff xff xff xff xff xff xff xff)
(T (W x00 x00 x00 x00 x00 x00 x00 x00)
(T (W x00 x00 x00 x00 x00 x00 x00 x00)
(L (W xff xff xff xff xff xff xff xff))
(L (W x5c x00 x00 x00 xff xff xff xff)))
(T (W x3c xf6 xfc xff x00 x01 x01 x01)
(L (W x3c xf6 xfe xff x00 x01 x01 x01)) E))
(T (W xff xff xff xff xff xff xff xff)
(T (W x00 x00 x00 x00 x00 x00 x00 x00)
(L (W x00 x00 x80 xbf x00 x00 x80 xbf)) E)
(T (W x00 x00 x00 x00 x00 x00 x00 x00)
(L (W xff xff xff xff xff xff xff xff)) E))))))))
(T (W xff xff xff xff x1b x00 x00 x00)
(T (W x45 x26 x22 x84 xe4 x9c xf2 xcb)
(T (W x00 x00 x01 x01 xc9 x00 x00 x00)
(T (W x00 x00 x80 x3f x00 x00 x80 x3f)
(T (W x3c xbc xf9 xff x00 x01 x01 x01)
(T (W xc4 x09 xfa xff x22 x00 x00 x00)
(T (W x00 x00 x80 x3f x00 x00 x80 x3f)
(T (W xff xff xff xff xbc x00 x00 x00)
(L (W xff xff xff xff xff xff xff xff))
(L (W x18 x00 x00 x00 x0c x00 x00 x00)))
(T (W xff xff xff xff xff xff xff xff)
(L (W x4f x84 x6f x8b xe8 xcb x63 xb7)) E))
(T (W x00 x00 x00 x00 x00 x00 x00 x00)
(T (W x74 x03 x00 x00 x4c x02 x00 x00)
(L (W xff xff xff xff xff xff xff xff))
(L (W x2c x00 x30 x00 x34 x00 x38 x00)))
(T (W x58 x00 x00 x00 x00 x00 x00 x00)
(L (W x00 x00 x80 xbf x00 x00 x80 xbf)) E)))
(T (W xff xff xff xff xff xff xff xff)
(T (W xff xff xff xff xff xff xff xff)
(T (W xff xff xff xff xff xff xff xff)
(L (W xff xff xff xff xff xff xff xff))
(L (W x00 x00 x00 x00 x00 x00 x00 x00)))
(T (W xff xff xff xff xff xff xff xff)
(L (W xff xff xff xff xff xff xff xff)) E))
(T (W x00 x00 x80 x3f x00 x00 x80 x3f)
(T (W x00 x00 x00 x00 x9a x3e xfc xff)
(L (W x00 x00 x80 xbf x00 x00 x80 xbf)) E)
(T (W x00 x00 x00 x00 x00 x00 x00 x00)
(L (W xff xff xff xff xff xff xff xff)) E))))
(T (W xff xff xff xff x01 x00 x00 x00)
(T (W x00 x00 x80 x3f x00 x00 x80 x3f)
(T (W xd2 xab xfd xff x00 x00 x01 x01)
(T (W xcc x00 x00 x00 xc0 x00 x00 x00)
(L (W x07 x00 x00 x00 xff xff xff xff))
(L (W x00 x00 x00 x00 x2a xa0 xff xff)))
(T (W x00 x00 x80 x3f x00 x00 x80 x3f)
(L (W x6c x00 x00 x00 x60 x00 x00 x00)) E))
(T (W xff xff xff xff xff xff xff xff)
(T (W x00 x00 x80 x3f x00 x00 x80 x3f)
(L (W x00 x00 x00 x00 x00 x00 x00 x00)) E)
(T (W x00 x00 x00 x00 x00 x00 x00 x00)
(L (W xff xff xff xff xc8 x00 x00 x00)) E)))
(T (W x6a x57 xfa xff x74 x00 x00 x00)
(T (W x01 x00 x00 x00 x9c x00 x00 x00)
(T (W x1a xd9 xfb xff x78 x00 x00 x00)
(L (W x46 x53 x59 x53 x5f x4e x53 x5f))
(L (W x00 x00 x80 xbf x00 x00 x80 xbf)))
(T (W x6a xd7 xfc xff x74 x00 x00 x00)
(L (W x06 x00 x00 x00 xd0 x05 x00 x00)) E))
(T (W xff xff xff xff x03 x00 x00 x00)
(T (W x00 x00 x00 x00 x12 x00 x00 x00)
(L (W xff xff xff xff xff xff xff xff)) E)
(T (W xff xff xff xff xb0 x00 x00 x00)
(L (W x00 x00 x00 x00 x00 x00 x00 x00)) E)))))
(T (W x00 x00 x80 x3f x00 x00 x80 x3f)
(T (W xff xff xff xff xff xff xff xff)
(T (W xff xff xff xff xff xff xff xff)
(T (W x45 x26 x22 x84 xe4 x9c xf2 xcb)
(T (W x00 x00 x00 x00 x00 x00 x00 x00)
(L (W xff xff xff xff xff xff xff xff))
(L (W x03 x00 x00 x00 xd8 x00 x00 x00)))
(T (W xb8 x00 x00 x00 xac x00 x00 x00)
(L (W x00 x00 x80 xbf x00 x00 x80 xbf)) E))
(T (W xff xff xff xff xff xff xff xff)
(T (W x00 x00 x00 x00 x00 x00 x00 x00)
(L (W xff xff xff xff xff xff xff xff)) E)
(T (W x45 x26 x22 x84 xe4 x9c xf2 xcb)
(L (W x00 x00 x00 x00 xac x0a xff xff)) E)))
(T (W x3c x4c xfa xff x00 x01 x01 x01)
(T (W xb8 x00 x00 x00 xac x00 x00 x00)
(T (W x00 x00 x00 x00 x00 x00 x00 x00)
(L (W x83 x01 x00 x00 xff xff xff xff))
(L (W x00 x00 x80 xbf x00 x00 x80 xbf)))
(T (W x01 x00 x00 x00 x68 x00 x00 x00)
(L (W x00 x00 x01 x01 xa0 x01 x00 x00)) E))
(T (W x00 x00 x00 x00 x00 x00 x00 x00)
(T (W x45 x44 x00 x00 x00 x00 x00 x00)
(L (W x6a x47 xfe xff x74 x00 x00 x00)) E)
(T (W x00 x00 x00 x00 x00 x00 x00 x00)
(L (W x45 x44 x00 x00 x00 x00 x00 x00)) E))))
(T (W x00 x00 x00 x00 x00 x00 x00 x00)
(T (W x64 x00 x00 x00 x9c x00 x00 x00)
(T (W x20 x01 x00 x00 x04 x00 x00 x00)
(T (W x45 x26 x22 x84 xe4 x9c xf2 xcb)
(L (W xff xff xff xff xff xff xff xff))
(L (W x45 x44 x00 x00 x00 x00 x00 x00)))
(T (W x2c x00 x00 x00 x10 x00 x00 x00)
(L (W x6c x00 x00 x00 x60 x00 x00 x00)) E))
(T (W x00 x00 x00 x00 x22 x00 x00 x00)
(T (W x68 x00 x00 x00 x5c x00 x00 x00)
(L (W x00 x00 x00 x00 x00 x00 x00 x00)) E)
(T (W xff xff xff xff xff xff xff xff)
(L (W xff xff xff xff x9c x00 x00 x00)) E)))
(T (W x45 x26 x22 x84 xe4 x9c xf2 xcb)
(T (W xc0 x00 x00 x00 xb4 x00 x00 x00)
(T (W xff xff xff xff xff xff xff xff)
(L (W x1a xe9 xfd xff x78 x00 x00 x00))
(L (W x00 x00 x80 xbf x00 x00 x80 xbf)))
(T (W xff xff xff xff xff xff xff xff)
(L (W x00 x00 x00 x00 x00 x00 x00 x00)) E))
(T (W x45 x26 x22 x84 xe4 x9c xf2 xcb)
(T (W x24 x02 x00 x00 xff xff xff xff)
(L (W x00 x00 x00 x00 x00 x00 x00 x00)) E)
(T (W x04 x00 x00 x00 x2a x70 xfd xff)
(L (W x00 x00 x80 xbf x00 x00 x80 xbf)) E))))))
(T (W x64 x00 x00 x00 xa0 x00 x00 x00)
(T (W xff xff xff xff xff xff xff xff)
(T (W x00 x00 x00 x00 x00 x00 x00 x00)
(T (W x01 x00 x00 x00 x04 x00 x00 x00)
(T (W x00 x00 x80 x3f x00 x00 x80 x3f)
(T (W x00 x00 x00 x00 x00 x00 x00 x00)
(L (W x00 x3a x00 x00 xec x38 x00 x00))
(L (W xff xff xff xff xa0 x00 x00 x00)))
(T (W xff xff xff xff xff xff xff xff)
(L (W x00 x00 x80 xbf x00 x00 x80 xbf)) E))
(T (W x3c x04 xfb xff x00 x01 x01 x01)
(T (W x00 x00 x00 x00 x00 x00 x00 x00)
(L (W xff xff xff xff xff xff xff xff))
(L (W x00 x00 x00 x00 x00 x00 x00 x00)))
(T (W x62 x6a xff x4b x84 x9b x7b x61)
(L (W x00 x00 x80 xbf x00 x00 x80 xbf)) E)))
(T (W x64 x00 x00 x00 x9c x00 x00 x00)
(T (W xff xff xff xff xff xff xff xff)
(T (W x00 x00 x00 x00 x00 x00 x00 x00)
(L (W x00 x00 x01 x01 x5d x00 x00 x00))
(L (W x00 x00 x00 x00 x00 x00 x00 x00)))
(T (W x64 x00 x00 x00 x9c x00 x00 x00)
(L (W xff xff xff xff xff xff xff xff)) E))
(T (W xff xff xff xff xff xff xff xff)
(T (W x00 x00 x00 x00 x04 x00 x00 x00)
(L (W x45 x26 x22 x84 xe4 x9c xf2 xcb)) E)
(T (W x00 x00 x00 x00 x00 x00 x00 x00)
(L (W xf4 x06 x00 x00 xd8 x05 x00 x00)) E))))
(T (W x00 x00 x00 x00 xe2 x7b xfd xff)
(T (W xff xff xff xff xff xff xff xff)
(T (W x00 x00 x00 x00 x00 x00 x00 x00)
(T (W x00 x00 x00 x00 x00 x00 x00 x00)
(L (W x00 x00 x80 xbf x00 x00 x80 xbf))
(L (W x00 x00 x80 xbf x00 x00 x80 xbf)))
(T (W xff xff xff xff xff xff xff xff)
(L (W x50 x00 x00 x00 x44 x00 x00 x00)) E))
(T (W xff xff xff xff xff xff xff xff)
(T (W x6c x00 x00 x00 x60 x00 x00 x00)
(L (W x00 x00 x00 x00 x00 x00 x00 x00)) E)
(T (W x1a x21 xfd xff x78 x00 x00 x00)
(L (W xff xff xff xff xff xff xff xff)) E)))
(T (W x00 x00 x00 x00 xac x62 xfa xff)
(T (W x0a x00 x00 x00 x3c x00 x00 x00)
(T (W x45 x26 x22 x84 xe4 x9c xf2 xcb)
(L (W x00 x00 x00 x00 x00 x00 x00 x00))
(L (W x00 x00 x80 xbf x00 x00 x80 xbf)))
(T (W xca xe9 xff xff x00 x00 x01 x01)
(L (W x00 x00 x00 x00 x00 x00 x00 x00)) E))
(T (W x00 x00 x00 x00 x12 x00 x00 x00)
(T (W x00 x00 x00 x00 x00 x00 x00 x00)
(L (W xff xff xff xff xff xff xff xff)) E)
(T (W xff xff xff xff xff xff xff xff)
(L (W x00 x00 x80 xbf x00 x00 x80 xbf)) E)))))
(T (W x00 x00 x00 x00 xe2 x4b xfd xff)
(T (W x00 x00 x80 x3f x00 x00 x80 x3f)
(T (W x00 x00 x00 x00 x00 x00 x00 x00)
(T (W x00 x00 x00 x00 x00 x00 x00 x00)
(T (W x00 x00 x80 x3f x00 x00 x80 x3f)
(L (W xff xff xff xff xff xff xff xff))
(L (W x5c x00 x00 x00 xff xff xff xff)))
(T (W x50 x00 x00 x00 x44 x00 x00 x00)
(L (W x00 x00 x80 xbf x00 x00 x80 xbf)) E))
(T (W x6b x65 x5f x77 x61 x72 x6c x69)
(T (W x00 x00 x80 x3f x00 x00 x80 x3f)
(L (W xff xff xff xff xff xff xff xff)) E)
(T (W x00 x00 x80 xbf x00 x00 x80 xbf)
(L (W x03 x00 x00 x00 xd8 x00 x00 x00)) E)))
(T (W x50 x00 x00 x00 x44 x00 x00 x00)
(T (W x45 x26 x22 x84 xe4 x9c xf2 xcb)
(T (W x50 x00 x00 x00 x44 x00 x00 x00)
(L (W x00 x00 x00 x00 x00 x00 x00 x00))
(L (W x00 x00 x00 x00 x00 x00 x00 x00)))
(T (W x00 x00 x80 x3f x00 x00 x80 x3f)
(L (W x00 x00 x00 x00 x00 x00 x00 x00)) E))
(T (W x68 x00 x00 x00 x5c x00 x00 x00)
(T (W x00 x00 x00 x00 x00 x00 x00 x00)
(L (W xc4 x00 x00 x00 x02 x00 x00 x00)) E)
(T (W x50 x00 x00 x00 x44 x00 x00 x00)
(L (W x00 x00 x00 x00 x00 x00 x00 x00)) E))))
(T (W x00 x00 x00 x00 x00 x00 x00 x00)
(T (W xff xff xff xff x03 x00 x00 x00)
(T (W xff xff xff xff xff xff xff xff)
(T (W x16 x00 x00 x00 xb0 x00 x00 x00)
(L (W x00 x00 x80 xbf x00 x00 x80 xbf))
(L (W x00 x00 x00 x00 x00 x00 x00 x00)))
(T (W xff xff xff xff xff xff xff xff)
(L (W x6a xaf xfe xff x74 x00 x00 x00)) E))
(T (W x4f x84 x6f x8b xe8 xcb x63 xb7)
(T (W xff xff xff xff x03 x00 x00 x00)
(L (W x00 x00 x80 xbf x00 x00 x80 xbf)) E)
(T (W xff xff xff xff xff xff xff xff)
(L (W x03 x00 x00 x00 xd8 x00 x00 x00)) E)))
(T (W x00 x00 x80 x3f x00 x00 x80 x3f)
(T (W xff xff xff xff xff xff xff xff)
(T (W xff xff xff xff xff xff xff xff)
(L (W x29 x00 x00 x00 x2c x00 x00 x00))
(L (W xbc x00 x00 x00 x1e x00 x00 x00)))
(T (W x00 x00 x00 x00 x00 x00 x00 x00)
(L (W x00 x00 x80 xbf x00 x00 x80 xbf)) E))
(T (W x18 x00 x00 x00 x0c x00 x00 x00)
(T (W xff xff xff xff xff xff xff xff)
(L (W x00 x00 x00 x00 x00 x00 x00 x00)) E)
(T (W x3c x74 xfd xff x00 x01 x01 x01)
(L (W x6c x00 x00 x00 x60 x00 x00 x00)) E)))))))
(T (W x18 x00 x00 x00 x0c x00 x00 x00)
(T (W x00 x00 x80 x3f x00 x00 x80 x3f)
(T (W x1a x9d xf9 xff x78 x00 x00 x00)
(T (W xff xff xff xff xff xff xff xff)
(T (W x01 x00 x00 x00 x3e x00 x00 x00)
(T (W xff xff xff xff xff xff xff xff)
(T (W x00 x00 x80 x3f x00 x00 x80 x3f)
(L (W x00 x00 x80 xbf x00 x00 x80 xbf))
(L (W x00 x00 x00 x00 x00 x00 x00 x00)))
(T (W x45 x26 x22 x84 xe4 x9c xf2 xcb)
(L (W xff xff xff xff xff xff xff xff)) E))
(T (W x00 x00 x00 x00 x00 x00 x00 x00)
(T (W x00 x00 x80 x3f x00 x00 x80 x3f)
(L (W x00 x00 x00 x00 x00 x00 x00 x00))
(L (W x00 x00 x80 xbf x00 x00 x80 xbf)))
(T (W x1f x7d x02 x4c x84 x1d x7f x61)
(L (W xff xff xff xff xff xff xff xff)) E)))
(T (W x00 x00 x00 x00 x00 x00 x00 x00)
(T (W x00 x00 x80 x3f x00 x00 x80 x3f)
(T (W x45 x26 x22 x84 xe4 x9c xf2 xcb)
(L (W x00 x00 x00 x00 x00 x00 x00 x00))
(L (W xff xff xff xff xb0 x00 x00 x00)))
(T (W x00 x00 x00 x00 x00 x00 x00 x00)
(L (W x00 x00 x00 x00 x00 x00 x00 x00)) E))
(T (W x5f x4e x53 x5f x30 x32 x5f x43)
(T (W x6c x00 x00 x00 x60 x00 x00 x00)
(L (W x00 x00 x00 x00 x00 x00 x00 x00)) E)
(T (W x45 x26 x22 x84 xe4 x9c xf2 xcb)
(L (W x00 x00 x80 xbf x00 x00 x80 xbf)) E))))
(T (W x50 x00 x00 x00 x44 x00 x00 x00)
(T (W x00 x00 x00 x00 x00 x00 x00 x00)
(T (W x00 x00 x80 x3f x00 x00 x80 x3f)
(T (W x00 x00 x80 x3f x00 x00 x80 x3f)
(L (W x00 x00 x80 xbf x00 x00 x80 xbf))
(L (W x18 x00 x00 x00 x10 x00 x00 x00)))
(T (W x1a x00 x00 x00 x67 x72 x6f x75)
(L (W x10 x96 xaa x28 xbf xca x56 x6a)) E))
(T (W x00 x00 x80 x3f x00 x00 x80 x3f)
(T (W x00 x00 x00 x00 x9a x22 xfc xff)
(L (W xbc x00 x00 x00 x1e x00 x00 x00)) E)
(T (W x00 x00 x00 x00 x00 x00 x00 x00)
(L (W x00 x00 x00 x00 x00 x00 x00 x00)) E)))
(T (W x6c x64 xfa xff x3e x00 x00 x00)
(T (W x00 x00 x00 x00 x00 x00 x00 x00)
(T (W x00 x00 x00 x00 x00 x00 x00 x00)
(L (W x1c x00 x00 x00 x10 x00 x00 x00))
(L (W xff xff xff xff xff xff xff xff)))
(T (W x00 x00 x00 x00 x00 x00 x00 x00)
(L (W x45 x26 x22 x84 xe4 x9c xf2 xcb)) E))
(T (W x00 x00 x80 x3f x00 x00 x80 x3f)
(T (W xff xff xff xff xff xff xff xff)
(L (W x54 x00 x00 x00 x48 x00 x00 x00)) E)
(T (W x45 x26 x22 x84 xe4 x9c xf2 xcb)
(L (W xff xff xff xff xff xff xff xff)) E)))))
(T (W xbc x00 x00 x00 xb0 x00 x00 x00)
(T (W x00 x00 x00 x00 x00 x00 x00 x00)
(T (W x1a x0d xfa xff x78 x00 x00 x00)
(T (W xff xff xff xff xff xff xff xff)
(T (W xff xff xff xff xff xff xff xff)
(L (W x49 xa1 x68 x4a xeb x5f xdd x3d))
(L (W x00 x00 x80 xbf x00 x00 x80 xbf)))
(T (W x00 x00 x00 x00 x00 x00 x00 x00)
(L (W xff xff xff xff xff xff xff xff)) E))
(T (W x00 x00 x80 x3f x00 x00 x80 x3f)
(T (W xff xff xff xff x9c x00 x00 x00)
(L (W x00 x00 x80 xbf x00 x00 x80 xbf)) E)
(T (W x45 x26 x22 x84 xe4 x9c xf2 xcb)
(L (W x00 x00 x00 x00 x00 x00 x00 x00)) E)))
(T (W x00 x00 x00 x00 x00 x00 x00 x00)
(T (W x00 x00 x00 x00 x00 x00 x00 x00)
(T (W xff xff xff xff xff xff xff xff)
(L (W x00 x00 x80 xbf x00 x00 x80 xbf))
(L (W xff xff xff xff xff xff xff xff)))
(T (W xff xff xff xff xff xff xff xff)
(L (W x00 x00 x80 xbf x00 x00 x80 xbf)) E))
(T (W xff xff xff xff xff xff xff xff)
(T (W x45 x26 x22 x84 xe4 x9c xf2 xcb)
(L (W x00 x00 x00 x00 x00 x00 x00 x00)) E)
(T (W xff xff xff xff xff xff xff xff)
(L (W x11 x00 x00 x00 x14 x00 x00 x00)) E))))
(T (W x3c xf0 xf9 xff x00 x01 x01 x01)
(T (W x45 x26 x22 x84 xe4 x9c xf2 xcb)
(T (W x45 x26 x22 x84 xe4 x9c xf2 xcb)
(T (W x00 x00 x00 x00 x9a xb2 xfb xff)
(L (W x00 x00 x00 x00 x00 x00 x00 x00))
(L (W x00 x00 x80 xbf x00 x00 x80 xbf)))
(T (W x00 x00 x80 x3f x00 x00 x80 x3f)
(L (W x00 x00 x00 x00 x00 x00 x00 x00)) E))
(T (W xff xff xff xff xff xff xff xff)
(T (W x00 x00 x00 x00 x00 x00 x00 x00)
(L (W xff xff xff xff xff xff xff xff)) E)
(T (W x00 x00 x00 x00 x00 x00 x00 x00)
(L (W x49 xa1 x68 x4a xeb x5f xdd x3d)) E)))
(T (W xff xff xff xff xff xff xff xff)
(T (W x9a x4e x04 xe9 x94 xde x2e x70)
(T (W x00 x00 x00 x00 x00 x00 x00 x00)
(L (W x00 x00 x00 x00 x00 x00 x00 x00))
(L (W x00 x00 x00 x00 x0a xee xff xff)))
(T (W x00 x00 x00 x00 x00 x00 x00 x00)
(L (W xff xff xff xff xff xff xff xff)) E))
(T (W xff xff xff xff xff xff xff xff)
(T (W x45 x26 x22 x84 xe4 x9c xf2 xcb)
(L (W xcc x00 x00 x00 x02 x00 x00 x00)) E)
(T (W x00 x00 x80 xbf x00 x00 x80 xbf)
(L (W x94 x04 x00 x00 x80 x03 x00 x00)) E))))))
(T (W x00 x00 x00 x00 x5a x31 xfd xff)
(T (W x00 x00 x00 x00 x00 x00 x00 x00)
(T (W x00 x00 x80 x3f x00 x00 x80 x3f)
(T (W x68 x00 x00 x00 x5c x00 x00 x00)
(T (W xff xff xff xff xff xff xff xff)
(T (W x00 x00 x80 x3f x00 x00 x80 x3f)
(L (W x00 x00 x00 x00 x00 x00 x00 x00))
(L (W x49 xa1 x68 x4a xeb x5f xdd x3d)))
(T (W x00 x00 x00 x00 x00 x00 x00 x00)
(L (W xff xff xff xff xff xff xff xff)) E))
(T (W x00 x00 x80 x3f x00 x00 x80 x3f)
(T (W x3c x08 xfc xff x00 x01 x01 x01)
(L (W x00 x00 x80 xbf x00 x00 x80 xbf)) E)
(T (W xff xff xff xff xff xff xff xff)
(L (W xff xff xff xff xff xff xff xff)) E)))
(T (W x45 x26 x22 x84 xe4 x9c xf2 xcb)
(T (W x00 x00 x80 x3f x00 x00 x80 x3f)
(T (W xff xff xff xff xff xff xff xff)
(L (W x54 x00 x00 x00 x48 x00 x00 x00))
(L (W xff xff xff xff xc0 x00 x00 x00)))
(T (W x15 x00 x00 x00 x46 x53 x59 x53)
(L (W x00 x00 x80 xbf x00 x00 x80 xbf)) E))
(T (W x00 x00 x80 x3f x00 x00 x80 x3f)
(T (W x50 x00 x00 x00 x44 x00 x00 x00)
(L (W x00 x00 x00 x00 x00 x00 x00 x00)) E)
(T (W xff xff xff xff xff xff xff xff)
(L (W x45 x26 x22 x84 xe4 x9c xf2 xcb)) E))))
(T (W x18 x00 x00 x00 x0c x00 x00 x00)
(T (W x45 x26 x22 x84 xe4 x9c xf2 xcb)
(T (W x00 x00 x80 x3f x00 x00 x80 x3f)
(T (W xff xff xff xff xff xff xff xff)
(L (W xb0 x00 x00 x00 x64 x00 x00 x00))
(L (W x00 x00 x00 x00 x00 x00 x00 x00)))
(T (W x00 x00 x80 x3f x00 x00 x80 x3f)
(L (W x00 x00 x00 x00 x12 x00 x00 x00)) E))
(T (W x00 x00 x80 x3f x00 x00 x80 x3f)
(T (W x00 x00 x00 x00 x06 x00 x00 x00)
(L (W xff xff xff xff xff xff xff xff)) E)
(T (W x00 x00 x00 x00 x00 x00 x00 x00)
(L (W x00 x00 x00 x00 x00 x00 x00 x00)) E)))
(T (W x01 x00 x00 x00 x04 x00 x00 x00)
(T (W x00 x00 x00 x00 x00 x00 x00 x00)
(T (W x00 x00 x00 x00 x00 x00 x00 x00)
(L (W xb0 x00 x00 x00 x64 x00 x00 x00))
(L (W x00 x00 x00 x00 x4a xe4 xff xff)))
(T (W x67 x72 x6f x75 x70 x5f x6c x65)
(L (W xcc x00 x00 x00 x01 x00 x00 x00)) E))
(T (W x01 x00 x00 x00 xb0 x00 x00 x00)
(T (W x00 x00 x00 x00 x00 x00 x00 x00)
(L (W x45 x26 x22 x84 xe4 x9c xf2 xcb)) E)
(T (W x00 x00 x80 xbf x00 x00 x80 xbf)
(L (W x2a x00 x00 x00 xff xff xff xff)) E)))))
(T (W x45 x26 x22 x84 xe4 x9c xf2 xcb)
(T (W x45 x26 x22 x84 xe4 x9c xf2 xcb)
(T (W xff xff xff xff xff xff xff xff)
(T (W x44 x00 x48 x00 x4c x00 x50 x00)
(T (W x00 x00 x00 x00 x4a x94 xfb xff)
(L (W x00 x00 x80 xbf x00 x00 x80 xbf))
(L (W x3c x98 xff xff x00 x01 x01 x01)))
(T (W x52 xa6 xff xff xd5 x01 x00 x00)
(L (W x36 x00 x00 x00 xff xff xff xff)) E))
(T (W x00 x00 x00 x00 x00 x00 x00 x00)
(T (W xff xff xff xff x03 x00 x00 x00)
(L (W x3c x18 xfe xff x00 x01 x01 x01)) E)
(T (W x00 x00 x00 x00 x00 x00 x00 x00)
(L (W x00 x00 x00 x00 x00 x00 x00 x00)) E)))
(T (W x00 x00 x00 x00 x00 x00 x00 x00)
(T (W x00 x00 x00 x00 x00 x00 x00 x00)
(T (W xff xff xff xff xff xff xff xff)
(L (W x45 x26 x22 x84 xe4 x9c xf2 xcb))
(L (W xff xff xff xff xff xff xff xff)))
(T (W x00 x00 x00 x00 x00 x00 x00 x00)
(L (W x00 x00 x00 x00 xac xd6 xfe xff)) E))
(T (W x00 x00 x00 x00 x00 x00 x00 x00)
(T (W xff xff xff xff xff xff xff xff)
(L (W x00 x00 x80 xbf x00 x00 x80 xbf)) E)
(T (W x30 x32 x5f x43 x4c x45 x41 x52)
(L (W xff xff xff xff xff xff xff xff)) E))))
(T (W x68 x00 x00 x00 x5c x00 x00 x00)
(T (W x00 x00 x00 x00 x00 x00 x00 x00)
(T (W x00 x00 x80 x3f x00 x00 x80 x3f)
(T (W x00 x00 x00 x00 x00 x00 x00 x00)
(L (W x18 x00 x00 x00 x10 x00 x00 x00))
(L (W x50 x00 x00 x00 x44 x00 x00 x00)))
(T (W x00 x00 x80 x3f x00 x00 x80 x3f)
(L (W x00 x00 x00 x00 x00 x00 x00 x00)) E))
(T (W xca x3d xfe xff x00 x00 x01 x01)
(T (W x00 x00 x80 x3f x00 x00 x80 x3f)
(L (W x00 x00 x01 x01 x2a x00 x00 x00)) E)
(T (W x00 x00 x80 xbf x00 x00 x80 xbf)
(L (W x00 x00 x80 xbf x00 x00 x80 xbf)) E)))
(T (W xff xff xff xff xff xff xff xff)
(T (W x00 x00 x80 x3f x00 x00 x80 x3f)
(T (W x54 x00 x00 x00 x48 x00 x00 x00)
(L (W x00 x00 x00 x00 x00 x00 x00 x00))
(L (W x00 x00 x00 x00 x00 x00 x00 x00)))
(T (W xff xff xff xff xff xff xff xff)
(L (W x00 x00 x01 x01 x5c x00 x00 x00)) E))
(T (W x22 x00 x00 x00 x67 x72 x6f x75)
(T (W x00 x00 x80 x3f x00 x00 x80 x3f)
(L (W xff xff xff xff xff xff xff xff)) E)
(T (W x00 x00 x80 xbf x00 x00 x80 xbf)
(L (W x00 x00 x00 x00 x00 x00 x00 x00)) E)))))))))
(T (W x28 xfb x01 x00 xfc xf3 x01 x00)
(T (W x30 x8f x00 x00 xfc x8d x00 x00)
(T (W x00 x00 x00 x00 x00 x00 x00 x00)
(T (W xff xff xff xff xff xff xff xff)
(T (W x45 x26 x22 x84 xe4 x9c xf2 xcb)
(T (W x54 x00 x00 x00 x48 x00 x00 x00)
(T (W xff xff xff xff xff xff xff xff)
(T (W x45 x26 x22 x84 xe4 x9c xf2 xcb)
(T (W x45 x26 x22 x84 xe4 x9c xf2 xcb)
(L (W xcc x00 x00 x00 x01 x00 x00 x00))
(L (W x1a x78 xff xff x78 x00 x00 x00)))
(T (W xff xff xff xff xff xff xff xff)
(L (W x00 x00 x00 x00 x00 x00 x00 x00)) E))
(T (W x00 x00 x4c x00 x50 x00 x00 x00)
(T (W xff xff xff xff xff xff xff xff)
(L (W x50 x00 x00 x00 x44 x00 x00 x00))
(L (W x6c x00 x00 x00 x60 x00 x00 x00)))
(T (W x18 x00 x00 x00 x0c x00 x00 x00)
(L (W x4f x84 x6f x8b xe8 xcb x63 xb7)) E)))
(T (W x3c x3b xfa xff x00 x01 x01 x01)
(T (W xb8 x00 x00 x00 xac x00 x00 x00)
(T (W xff xff xff xff xff xff xff xff)
(L (W xff xff xff xff xff xff xff xff))
(L (W xff xff xff xff xff xff xff xff)))
(T (W x64 x00 x00 x00 x9c x00 x00 x00)
(L (W x00 x00 x00 x00 xac xb9 xfe xff)) E))
(T (W x49 xa1 x68 x4a xeb x5f xdd x3d)
(T (W xff xff xff xff xff xff xff xff)
(L (W x4f x84 x6f x8b xe8 xcb x63 xb7)) E)
(T (W xff xff xff xff xff xff xff xff)
(L (W x1a x00 x00 x00 x1d x00 x00 x00)) E))))
(T (W xff xff xff xff xff xff xff xff)
(T (W x00 x00 x00 x00 x00 x00 x00 x00)
(T (W xff xff xff xff xff xff xff xff)
(T (W x50 x00 x00 x00 x44 x00 x00 x00)
(L (W xff xff xff xff xff xff xff xff))
(L (W xff xff xff xff xff xff xff xff)))
(T (W x45 x26 x22 x84 xe4 x9c xf2 xcb)
(L (W x00 x00 x80 xbf x00 x00 x80 xbf)) E))
(T (W x50 x00 x00 x00 x44 x00 x00 x00)
(T (W x49 xa1 x68 x4a xeb x5f xdd x3d)
(L (W x90 x01 x00 x00 xff xff xff xff)) E)
(T (W xff xff xff xff xff xff xff xff)
(L (W x45 x26 x22 x84 xe4 x9c xf2 xcb)) E)))
(T (W x50 x00 x00 x00 x44 x00 x00 x00)
(T (W x45 x26 x22 x84 xe4 x9c xf2 xcb)
(T (W x50 x00 x00 x00 x44 x00 x00 x00)
(L (W x04 x00 x00 x00 x0a xd9 xfd xff))
(L (W x00 x00 x00 x00 x00 x00 x00 x00)))
(T (W x00 x00 x80 x3f x00 x00 x80 x3f)
(L (W xff xff xff xff xff xff xff xff)) E))
(T (W xff xff xff xff x9c x00 x00 x00)
(T (W x00 x00 x00 x00 x00 x00 x00 x00)
(L (W xcc x00 x00 x00 x01 x00 x00 x00)) E)
(T (W x00 x00 x00 x00 xac x59 xfd xff)
(L (W x00 x00 x00 x00 x00 x00 x00 x00)) E)))))
(T (W x00 x00 x80 x3f x00 x00 x80 x3f)
(T (W x01 x00 x00 x00 xa0 x00 x00 x00)
(T (W xff xff xff xff xff xff xff xff)
(T (W x00 x00 x00 x00 x00 x00 x00 x00)
(T (W x00 x00 x00 x00 x00 x00 x00 x00)
(L (W x18 x00 x00 x00 x0c x00 x00 x00))
(L (W x18 x00 x00 x00 x10 x00 x00 x00)))
(T (W x50 x00 x00 x00 x44 x00 x00 x00)
(L (W x00 x00 x00 x00 x00 x00 x00 x00)) E))
(T (W xff xff xff xff xff xff xff xff)
(T (W x00 x00 x00 x00 x00 x00 x00 x00)
(L (W xff xff xff xff x9c x00 x00 x00)) E)
(T (W x00 x00 x80 xbf x00 x00 x80 xbf)
(L (W x00 x00 x80 xbf x00 x00 x80 xbf)) E)))
(T (W x00 x00 x80 x3f x00 x00 x80 x3f)
(T (W x68 x00 x00 x00 x5c x00 x00 x00)
(T (W x00 x00 x00 x00 x00 x00 x00 x00)
(L (W xff xff xff xff xff xff xff xff))
(L (W xc4 xd8 xff xff x15 x00 x00 x00)))
(T (W x18 x00 x00 x00 x10 x00 x00 x00)
(L (W xff xff xff xff xff xff xff xff)) E))
(T (W x9f x68 xea xc8 x7a xc7 xbc xc0)
(T (W x4a x00 x00 x00 xff xff xff xff)
(L (W x00 x00 x80 xbf x00 x00 x80 xbf)) E)
(T (W x00 x00 x00 x00 x00 x00 x00 x00)
(L (W xff xff xff xff xff xff xff xff)) E))))
(T (W x00 x00 x00 x00 x00 x00 x00 x00)
(T (W x18 x00 x00 x00 x0c x00 x00 x00)
(T (W xff xff xff xff xff xff xff xff)
(T (W x00 x00 x00 x00 x00 x00 x00 x00)
(L (W xff xff xff xff xff xff xff xff))
(L (W xff xff xff xff xff xff xff xff)))
(T (W xd0 x00 x00 x00 xac x00 x00 x00)
(L (W x00 x00 x80 xbf x00 x00 x80 xbf)) E))
(T (W xff xff xff xff xff xff xff xff)
(T (W x00 x00 x80 x3f x00 x00 x80 x3f)
(L (W x00 x00 x00 x00 x12 x00 x00 x00)) E)
(T (W xff xff xff xff xb0 x00 x00 x00)
(L (W x1a x28 xff xff x78 x00 x00 x00)) E)))
(T (W x00 x00 x80 x3f x00 x00 x80 x3f)
(T (W x00 x00 x80 x3f x00 x00 x80 x3f)
(T (W x6a xe6 xfb xff x74 x00 x00 x00)
(L (W x00 x00 x80 xbf x00 x00 x80 xbf))
(L (W x00 x00 x80 xbf x00 x00 x80 xbf)))
(T (W x6a xe6 xfc xff x74 x00 x00 x00)
(L (W x45 x44 x00 x00 x00 x00 x00 x00)) E))
(T (W x00 x00 x00 x00 x00 x00 x00 x00)
(T (W xff xff xff xff xff xff xff xff)
(L (W xff xff xff xff xff xff xff xff)) E)
(T (W xff xff xff xff xff xff xff xff)
(L (W x45 x26 x22 x84 xe4 x9c xf2 xcb)) E))))))
(T (W x3c x93 xf9 xff x00 x01 x01 x01)
(T (W xff xff xff xff xff xff xff xff)
(T (W x00 x00 x00 x00 x00 x00 x00 x00)
(T (W xff xff xff xff xff xff xff xff)
(T (W x00 x00 x00 x00 x00 x00 x00 x00)
(T (W xa5 x01 x00 x00 xff xff xff xff)
(L (W xff xff xff xff xff xff xff xff))
(L (W x1a x80 xff xff x78 x00 x00 x00)))
(T (W xb8 x00 x00 x00 xac x00 x00 x00)
(L (W x00 x00 x00 x00 x00 x00 x00 x00)) E))
(T (W x00 x00 x80 x3f x00 x00 x80 x3f)
(T (W xff xff xff xff xff xff xff xff)
(L (W xff xff xff xff xff xff xff xff))
(L (W x28 x00 x2c x00 x30 x00 x34 x00)))
(T (W xff xff xff xff xff xff xff xff)
(L (W x00 x00 x80 xbf x00 x00 x80 xbf)) E)))
(T (W x50 x00 x00 x00 x44 x00 x00 x00)
(T (W x45 x26 x22 x84 xe4 x9c xf2 xcb)
(T (W x00 x00 x00 x00 x00 x00 x00 x00)
(L (W x18 x00 x00 x00 x10 x00 x00 x00))
(L (W x00 x00 x00 x00 x00 x00 x00 x00)))
(T (W x18 x00 x00 x00 x0c x00 x00 x00)
(L (W xff xff xff xff xb0 x00 x00 x00)) E))
(T (W x68 x00 x00 x00 x5c x00 x00 x00)
(T (W xff xff xff xff xff xff xff xff)
(L (W x45 x26 x22 x84 xe4 x9c xf2 xcb)) E)
(T (W x00 x00 x00 x00 x00 x00 x00 x00)
(L (W xff xff xff xff xff xff xff xff)) E))))
(T (W xff xff xff xff xff xff xff xff)
(T (W x00 x00 x00 x00 xac x21 xfa xff)
(T (W xff xff xff xff xff xff xff xff)
(T (W xff xff xff xff x01 x00 x00 x00)
(L (W x28 x00 x2c x00 x30 x00 x34 x00))
(L (W x1c x00 x20 x00 x24 x00 x28 x00)))
(T (W xff xff xff xff xff xff xff xff)
(L (W x00 x00 x80 xbf x00 x00 x80 xbf)) E))
(T (W xff xff xff xff xff xff xff xff)
(T (W x45 x26 x22 x84 xe4 x9c xf2 xcb)
(L (W x00 x00 x00 x00 x00 x00 x00 x00)) E)
(T (W x00 x00 x80 xbf x00 x00 x80 xbf)
(L (W xff xff xff xff xc0 x00 x00 x00)) E)))
(T (W x68 x00 x00 x00 x5c x00 x00 x00)
(T (W x18 x00 x00 x00 x0c x00 x00 x00)
(T (W x00 x00 x80 x3f x00 x00 x80 x3f)
(L (W x46 x53 x59 x53 x5f x4e x53 x5f))
(L (W x00 x00 x00 x00 x00 x00 x00 x00)))
(T (W x68 x00 x00 x00 x5c x00 x00 x00)
(L (W xf4 x06 x00 x00 xd8 x05 x00 x00)) E))
(T (W x34 x01 x00 x00 x04 x00 x00 x00)
(T (W x00 x00 x00 x00 x00 x00 x00 x00)
(L (W xff xff xff xff xff xff xff xff)) E)
(T (W xcc x00 x00 x00 x01 x00 x00 x00)
(L (W x00 x00 x00 x00 x00 x00 x00 x00)) E)))))
(T (W xff xff xff xff xff xff xff xff)
(T (W x00 x00 x00 x00 x00 x00 x00 x00)
(T (W x00 x00 x00 x00 x00 x00 x00 x00)
(T (W x00 x00 x00 x00 x00 x00 x00 x00)
(T (W x49 xa1 x68 x4a xeb x5f xdd x3d)
(L (W x03 x00 x00 x00 xcc x00 x00 x00))
(L (W xff xff xff xff xff xff xff xff)))
(T (W x00 x00 x80 x3f x00 x00 x80 x3f)
(L (W x49 xa1 x68 x4a xeb x5f xdd x3d)) E))
(T (W xff xff xff xff xff xff xff xff)
(T (W x00 x00 x00 x00 x00 x00 x00 x00)
(L (W xff xff xff xff xff xff xff xff)) E)
(T (W x00 x00 x00 x00 x00 x00 x00 x00)
(L (W x00 x00 x80 xbf x00 x00 x80 xbf)) E)))
(T (W x00 x00 x80 x3f x00 x00 x80 x3f)
(T (W x3c xd3 xfa xff x00 x01 x01 x01)
(T (W x00 x00 x80 x3f x00 x00 x80 x3f)
(L (W x00 x00 x00 x00 x9a xd5 xfd xff))
(L (W x46 x53 x59 x53 x5f x4e x53 x5f)))
(T (W x00 x00 x00 x00 x00 x00 x00 x00)
(L (W xa0 x01 x00 x00 xff xff xff xff)) E))
(T (W x00 x00 x80 x3f x00 x00 x80 x3f)
(T (W x30 x32 x5f x43 x4c x45 x41 x52)
(L (W x45 x26 x22 x84 xe4 x9c xf2 xcb)) E)
(T (W x00 x00 x80 xbf x00 x00 x80 xbf)
(L (W x00 x00 x00 x00 x00 x00 x00 x00)) E))))
(T (W x04 x00 x00 x00 x54 x03 x00 x00)
(T (W x40 x00 x00 x00 x9c x00 x00 x00)
(T (W xff xff xff xff xff xff xff xff)
(T (W x00 x00 x80 x3f x00 x00 x80 x3f)
(L (W x00 x00 x80 xbf x00 x00 x80 xbf))
(L (W x00 x00 x00 x00 x9a xb5 xff xff)))
(T (W xff xff xff xff xff xff xff xff)
(L (W x00 x00 x80 xbf x00 x00 x80 xbf)) E))
(T (W x00 x00 x00 x00 x00 x00 x00 x00)
(T (W x68 x00 x00 x00 x5c x00 x00 x00)
(L (W x00 x00 x00 x00 x00 x00 x00 x00)) E)
(T (W xff xff xff xff x9c x00 x00 x00)
(L (W xff xff xff xff x98 x00 x00 x00)) E)))
(T (W x00 x00 x80 x3f x00 x00 x80 x3f)
(T (W x54 x00 x00 x00 x48 x00 x00 x00)
(T (W xcc x00 x00 x00 xc0 x00 x00 x00)
(L (W x1a xf0 xfd xff x78 x00 x00 x00))
(L (W x3c xf3 xff xff x00 x01 x01 x01)))
(T (W x00 x00 x00 x00 x00 x00 x00 x00)
(L (W x00 x00 x00 x00 x00 x00 x00 x00)) E))
(T (W x00 x00 x80 x3f x00 x00 x80 x3f)
(T (W xff xff xff xff x03 x00 x00 x00)
(L (W x30 x32 x5f x43 x4c x45 x41 x52)) E)
(T (W xdc x08 x00 x00 xa8 x07 x00 x00)
(L (W x00 x00 x80 xbf x00 x00 x80 xbf)) E)))))))
(T (W x1a x84 xf9 xff x78 x00 x00 x00)
(T (W x00 x00 x00 x00 x00 x00 x00 x00)
(T (W x04 x23 x00 x00 xf0 x21 x00 x00)
(T (W xff xff xff xff xff xff xff xff)
(T (W x00 x00 x80 x3f x00 x00 x80 x3f)
(T (W xff xff xff xff xff xff xff xff)
(T (W x00 x00 x00 x00 x00 x00 x00 x00)
(L (W x00 x00 x00 x00 x00 x00 x00 x00))
(L (W xa1 x01 x00 x00 xff xff xff xff)))
(T (W x00 x00 x00 x00 x00 x00 x00 x00)
(L (W x45 x26 x22 x84 xe4 x9c xf2 xcb)) E))
(T (W xff xff xff xff xff xff xff xff)
(T (W x00 x00 x80 x3f x00 x00 x80 x3f)
(L (W x46 x53 x59 x53 x5f x4e x53 x5f))
(L (W x1c x00 x20 x00 x24 x00 x28 x00)))
(T (W xff xff xff xff xb0 x00 x00 x00)
(L (W xff xff xff xff xb0 x00 x00 x00)) E)))
(T (W x00 x00 x00 x00 x00 x00 x00 x00)
(T (W x45 x26 x22 x84 xe4 x9c xf2 xcb)
(T (W x00 x00 x80 x3f x00 x00 x80 x3f)
(L (W x00 x00 x00 x00 x00 x00 x00 x00))
(L (W x00 x00 x00 x00 xac xbd xff xff)))
(T (W x00 x00 x00 x00 x00 x00 x00 x00)
(L (W x46 x53 x59 x53 x5f x4e x53 x5f)) E))
(T (W x76 x31 x00 x00 x5a xd8 xfe xff)
(T (W x45 x26 x22 x84 xe4 x9c xf2 xcb)
(L (W xff xff xff xff xff xff xff xff)) E)
(T (W x00 x00 x80 xbf x00 x00 x80 xbf)
(L (W x00 x00 x80 xbf x00 x00 x80 xbf)) E))))
(T (W x00 x00 x80 x3f x00 x00 x80 x3f)
(T (W x00 x00 x00 x00 x04 x00 x00 x00)
(T (W x45 x26 x22 x84 xe4 x9c xf2 xcb)
(T (W x00 x00 x00 x00 x00 x00 x00 x00)
(L (W x00 x00 x80 xbf x00 x00 x80 xbf))
(L (W x6c x00 x00 x00 x60 x00 x00 x00)))
(T (W x00 x00 x00 x00 x00 x00 x00 x00)
(L (W xff xff xff xff xff xff xff xff)) E))
(T (W x00 x00 x00 x00 x00 x00 x00 x00)
(T (W xff xff xff xff xff xff xff xff)
(L (W x3c x1f xfe xff x00 x01 x01 x01)) E)
(T (W x04 x00 x00 x00 x60 x03 x00 x00)
(L (W x00 x00 x00 x00 x00 x00 x00 x00)) E)))
(T (W xff xff xff xff xff xff xff xff)
(T (W xe4 x7a x19 x96 xc1 x51 xa4 x47)
(T (W x30 x32 x5f x43 x4c x45 x41 x52)
(L (W x1a xdc xfd xff x78 x00 x00 x00))
(L (W xff xff xff xff xff xff xff xff)))
(T (W x00 x00 x00 x00 x00 x00 x00 x00)
(L (W x00 x00 x80 xbf x00 x00 x80 xbf)) E))
(T (W x49 xa1 x68 x4a xeb x5f xdd x3d)
(T (W xff xff xff xff xc4 x00 x00 x00)
(L (W x00 x00 x00 x00 x00 x00 x00 x00)) E)
(T (W x00 x00 x00 x00 x12 x00 x00 x00)
(L (W xff xff xff xff xff xff xff xff)) E)))))
(T (W x18 x00 x00 x00 x0c x00 x00 x00)
(T (W xff xff xff xff x05 x00 x00 x00)
(T (W x00 x00 x80 x3f x00 x00 x80 x3f)
(T (W xb8 x00 x00 x00 xac x00 x00 x00)
(T (W x50 x00 x00 x00 x44 x00 x00 x00)
(L (W x00 x00 x00 x00 x00 x00 x00 x00))
(L (W x00 x00 x00 x00 x00 x00 x00 x00)))
(T (W x52 x9d xff xff x96 x01 x00 x00)
(L (W xff xff xff xff xff xff xff xff)) E))
(T (W x00 x00 x80 x3f x00 x00 x80 x3f)
(T (W x1a x0c xfc xff x78 x00 x00 x00)
(L (W x00 x00 x80 xbf x00 x00 x80 xbf)) E)
(T (W x00 x00 x00 x00 x00 x00 x00 x00)
(L (W xff xff xff xff xff xff xff xff)) E)))
(T (W x00 x00 x00 x00 x00 x00 x00 x00)
(T (W x00 x00 x00 x00 x00 x00 x00 x00)
(T (W xff xff xff xff xff xff xff xff)
(L (W x45 x26 x22 x84 xe4 x9c xf2 xcb))
(L (W xff xff xff xff xa0 x00 x00 x00)))
(T (W x00 x00 x80 x3f x00 x00 x80 x3f)
(L (W x00 x00 x80 xbf x00 x00 x80 xbf)) E))
(T (W xff xff xff xff x9c x00 x00 x00)
(T (W x6a x4a xfc xff x74 x00 x00 x00)
(L (W x00 x00 x00 x00 x00 x00 x00 x00)) E)
(T (W xac x00 x00 x00 x64 x00 x00 x00)
(L (W x00 x00 x00 x00 xac x4d xff xff)) E))))
(T (W x00 x00 x80 x3f x00 x00 x80 x3f)
(T (W x00 x00 x00 x00 x00 x00 x00 x00)
(T (W x00 x00 x00 x00 x00 x00 x00 x00)
(T (W xff xff xff xff xff xff xff xff)
(L (W x00 x00 x00 x00 x00 x00 x00 x00))
(L (W x00 x00 x80 xbf x00 x00 x80 xbf)))
(T (W x00 x00 x80 x3f x00 x00 x80 x3f)
(L (W x00 x00 x00 x00 x00 x00 x00 x00)) E))
(T (W x18 x00 x00 x00 x0c x00 x00 x00)
(T (W x95 x3a x56 xf6 x11 x0e xd8 x96)
(L (W xff xff xff xff xff xff xff xff)) E)
(T (W x00 x00 x00 x00 x00 x00 x00 x00)
(L (W x00 x00 x00 x00 x00 x00 x00 x00)) E)))
(T (W xff xff xff xff xff xff xff xff)
(T (W xff xff xff xff xff xff xff xff)
(T (W x46 x53 x59 x53 x5f x4e x53 x5f)
(L (W xff xff xff xff xff xff xff xff))
(L (W xff xff xff xff xff xff xff xff)))
(T (W x4c x45 x41 x52 x45 x44 x00 x00)
(L (W x03 x00 x00 x00 xd8 x00 x00 x00)) E))
(T (W xcc x00 x00 x00 xc0 x00 x00 x00)
(T (W x45 x26 x22 x84 xe4 x9c xf2 xcb)
(L (W x45 x26 x22 x84 xe4 x9c xf2 xcb)) E)
(T (W x00 x00 x80 xbf x00 x00 x80 xbf)
(L (W xff xff xff xff xff xff xff xff)) E))))))
(T (W xff xff xff xff xff xff xff xff)
(T (W x00 x00 x00 x00 x00 x00 x00 x00)
(T (W x00 x00 x80 x3f x00 x00 x80 x3f)
(T (W x00 x00 x80 x3f x00 x00 x80 x3f)
(T (W xff xff xff xff xff xff xff xff)
(T (W x00 x00 x80 x3f x00 x00 x80 x3f)
(L (W x4c x45 x41 x52 x45 x44 x00 x00))
(L (W xc4 x94 xff xff x15 x00 x00 x00)))
(T (W x00 x00 x00 x00 x00 x00 x00 x00)
(L (W xff xff xff xff xff xff xff xff)) E))
(T (W x00 x00 x00 x00 x00 x00 x00 x00)
(T (W x68 x00 x00 x00 x5c x00 x00 x00)
(L (W x00 x00 x00 x00 x00 x00 x00 x00)) E)
(T (W x03 x00 x00 x00 xbc x00 x00 x00)
(L (W xff xff xff xff xff xff xff xff)) E)))
(T (W x6c x4b xfa xff x07 x00 x00 x00)
(T (W x00 x00 x00 x00 x00 x00 x00 x00)
(T (W xd4 x00 x00 x00 xc8 x00 x00 x00)
(L (W x00 x00 x80 xbf x00 x00 x80 xbf))
(L (W x45 x26 x22 x84 xe4 x9c xf2 xcb)))
(T (W x3c x00 x00 x00 x0c x00 x00 x00)
(L (W x00 x00 x00 x00 x00 x00 x00 x00)) E))
(T (W x00 x00 x80 x3f x00 x00 x80 x3f)
(T (W x00 x00 x80 x3f x00 x00 x80 x3f)
(L (W x29 x00 x00 x00 xff xff xff xff)) E)
(T (W x18 x00 x00 x00 x0c x00 x00 x00)
(L (W x00 x00 x80 xbf x00 x00 x80 xbf)) E))))
(T (W x00 x00 x80 x3f x00 x00 x80 x3f)
(T (W x00 x00 x00 x00 x00 x00 x00 x00)
(T (W x00 x00 x00 x00 x00 x00 x00 x00)
(T (W x00 x00 x80 x3f x00 x00 x80 x3f)
(L (W x18 x00 x00 x00 x10 x00 x00 x00))
(L (W x30 x32 x5f x43 x4c x45 x41 x52)))
(T (W x00 x00 x00 x00 x00 x00 x00 x00)
(L (W x00 x00 x00 x00 x00 x00 x00 x00)) E))
(T (W x00 x00 x80 x3f x00 x00 x80 x3f)
(T (W xff xff xff xff xff xff xff xff)
(L (W x68 x00 x00 x00 x5c x00 x00 x00)) E)
(T (W x00 x00 x00 x00 x4a x23 xfd xff)
(L (W x46 x53 x59 x53 x5f x4e x53 x5f)) E)))
(T (W xff xff xff xff xff xff xff xff)
(T (W x37 x00 x00 x00 xff xff xff xff)
(T (W x18 x00 x00 x00 x10 x00 x00 x00)
(L (W x3c xe7 xfd xff x00 x01 x01 x01))
(L (W xff xff xff xff xff xff xff xff)))
(T (W xff xff xff xff x03 x00 x00 x00)
(L (W x45 x26 x22 x84 xe4 x9c xf2 xcb)) E))
(T (W x45 x26 x22 x84 xe4 x9c xf2 xcb)
(T (W x00 x00 x60 x00 x00 x00 x00 x00)
(L (W x00 x00 x80 xbf x00 x00 x80 xbf)) E)
(T (W x00 x00 x00 x00 x00 x00 x00 x00)
(L (W xff xff xff xff xff xff xff xff)) E)))))
(T (W x00 x00 x00 x00 x00 x00 x00 x00)
(T (W x6c x00 x00 x00 x60 x00 x00 x00)
(T (W x64 x00 x00 x00 x9c x00 x00 x00)
(T (W xff xff xff xff xff xff xff xff)
(T (W xff xff xff xff xff xff xff xff)
(L (W x00 x00 x00 x00 x00 x00 x00 x00))
(L (W x45 x26 x22 x84 xe4 x9c xf2 xcb)))
(T (W xff xff xff xff xff xff xff xff)
(L (W xff xff xff xff xff xff xff xff)) E))
(T (W x00 x00 x68 x00 x00 x00 x00 x00)
(T (W xff xff xff xff x9c x00 x00 x00)
(L (W x00 x00 x80 xbf x00 x00 x80 xbf)) E)
(T (W xff xff xff xff xff xff xff xff)
(L (W x46 x53 x59 x53 x5f x4e x53 x5f)) E)))
(T (W x00 x00 x00 x00 x02 x00 x00 x00)
(T (W x00 x00 x00 x00 x00 x00 x00 x00)
(T (W xff xff xff xff x03 x00 x00 x00)
(L (W x00 x00 x80 xbf x00 x00 x80 xbf))
(L (W x03 x00 x00 x00 xd0 x00 x00 x00)))
(T (W x00 x00 x00 x00 x9a xd9 xfc xff)
(L (W x00 x00 x80 xbf x00 x00 x80 xbf)) E))
(T (W xdc x05 x00 x00 xb4 x04 x00 x00)
(T (W x1c x00 x00 x00 xb0 x00 x00 x00)
(L (W x00 x00 x00 x00 x00 x00 x00 x00)) E)
(T (W x00 x00 x01 x01 x53 x01 x00 x00)
(L (W xff xff xff xff xb0 x00 x00 x00)) E))))
(T (W x00 x00 x80 x3f x00 x00 x80 x3f)
(T (W x6c x3b xfa xff x3c x00 x00 x00)
(T (W x45 x26 x22 x84 xe4 x9c xf2 xcb)
(T (W x5f x4e x53 x5f x30 x32 x5f x43)
(L (W x00 x00 x00 x00 xac xb5 xfd xff))
(L (W x00 x00 x80 xbf x00 x00 x80 xbf)))
(T (W x00 x00 x00 x00 x00 x00 x00 x00)
(L (W x00 x00 x00 x00 x00 x00 x00 x00)) E))
(T (W xff xff xff xff xff xff xff xff)
(T (W x49 xa1 x68 x4a xeb x5f xdd x3d)
(L (W xff xff xff xff xc4 x00 x00 x00)) E)
(T (W x4f x84 x6f x8b xe8 xcb x63 xb7)
(L (W x00 x00 x00 x00 x00 x00 x00 x00)) E)))
(T (W xff xff xff xff xff xff xff xff)
(T (W x45 x26 x22 x84 xe4 x9c xf2 xcb)
(T (W x00 x00 x00 x00 x00 x00 x00 x00)
(L (W x00 x00 x00 x00 x00 x00 x00 x00))
(L (W x00 x00 x00 x00 x00 x00 x00 x00)))
(T (W x64 x00 x00 x00 x1c x00 x00 x00)
(L (W xb0 x00 x00 x00 x28 x00 x00 x00)) E))
(T (W x9f x01 x00 x00 xff xff xff xff)
(T (W x1b x00 x00 x00 x67 x72 x6f x75)
(L (W xcc x00 x00 x00 x01 x00 x00 x00)) E)
(T (W x4f x84 x6f x8b xe8 xcb x63 xb7)
(L (W xff xff xff xff xff xff xff xff)) E))))))))
(T (W x00 x00 x00 x00 x00 x00 x00 x00)
(T (W x00 x00 x80 x3f x00 x00 x80 x3f)
(T (W x00 x00 x00 x00 x00 x00 x00 x00)
(T (W x00 x00 x80 x3f x00 x00 x80 x3f)
(T (W x18 x00 x00 x00 x10 x00 x00 x00)
(T (W x00 x00 x00 x00 x00 x00 x00 x00)
(T (W x68 x00 x00 x00 x5c x00 x00 x00)
(T (W xff xff xff xff xff xff xff xff)
(L (W xff xff xff xff xff xff xff xff))
(L (W xff xff xff xff xff xff xff xff)))
(T (W x52 x8b xff xff xb2 x01 x00 x00)
(L (W x00 x00 x80 xbf x00 x00 x80 xbf)) E))
(T (W x00 x00 x80 x3f x00 x00 x80 x3f)
(T (W x00 x00 x00 x00 x00 x00 x00 x00)
(L (W xff xff xff xff xff xff xff xff))
(L (W x00 x00 x80 xbf x00 x00 x80 xbf)))
(T (W x00 x00 x00 x00 x00 x00 x00 x00)
(L (W x00 x00 x80 xbf x00 x00 x80 xbf)) E)))
(T (W xff xff xff xff xff xff xff xff)
(T (W x70 x00 x00 x00 xff xff xff xff)
(T (W x6c xc1 xfb xff x10 x00 x00 x00)
(L (W xff xff xff xff xff xff xff xff))
(L (W x00 x00 x00 x00 x00 x00 x00 x00)))
(T (W xff xff xff xff xff xff xff xff)
(L (W xff xff xff xff xff xff xff xff)) E))
(T (W x24 x00 x00 x00 xb0 x00 x00 x00)
(T (W x00 x00 x00 x00 x00 x00 x00 x00)
(L (W xff xff xff xff xb0 x00 x00 x00)) E)
(T (W x00 x00 x00 x00 x00 x00 x00 x00)
(L (W x06 x00 x00 x00 xc8 x05 x00 x00)) E))))
(T (W x00 x00 x00 x00 x00 x00 x00 x00)
(T (W x6c x00 x00 x00 x60 x00 x00 x00)
(T (W x00 x00 x00 x00 x00 x00 x00 x00)
(T (W xff xff xff xff xff xff xff xff)
(L (W x00 x00 x00 x00 x00 x00 x00 x00))
(L (W x00 x00 x00 x00 x12 x00 x00 x00)))
(T (W x50 x00 x00 x00 x44 x00 x00 x00)
(L (W xff xff xff xff xa0 x00 x00 x00)) E))
(T (W xff xff xff xff xff xff xff xff)
(T (W x54 x00 x00 x00 x48 x00 x00 x00)
(L (W x00 x00 x00 x00 x00 x00 x00 x00)) E)
(T (W xc4 xfe xff xff x01 x01 x01 x01)
(L (W xff xff xff xff xff xff xff xff)) E)))
(T (W x00 x00 x00 x00 xac x5b xfa xff)
(T (W xb8 x00 x00 x00 xac x00 x00 x00)
(T (W xff xff xff xff x9c x00 x00 x00)
(L (W x00 x00 x00 x00 x00 x00 x00 x00))
(L (W x00 x00 x00 x00 xac xdb xff xff)))
(T (W xff xff xff xff xff xff xff xff)
(L (W x00 x00 x00 x00 x00 x00 x00 x00)) E))
(T (W xff xff xff xff xff xff xff xff)
(T (W x00 x00 x00 x00 x00 x00 x00 x00)
(L (W xff xff xff xff xff xff xff xff)) E)
(T (W xff xff xff xff xff xff xff xff)
(L (W x00 x00 x80 xbf x00 x00 x80 xbf)) E)))))
(T (W x54 x00 x00 x00 x48 x00 x00 x00)
(T (W xff xff xff xff xff xff xff xff)
(T (W xc4 x1a xfa xff x3e x00 x00 x00)
(T (W x00 x00 x80 x3f x00 x00 x80 x3f)
(T (W x45 x26 x22 x84 xe4 x9c xf2 xcb)
(L (W xff xff xff xff xff xff xff xff))
(L (W xff xff xff xff xff xff xff xff)))
(T (W xff xff xff xff xff xff xff xff)
(L (W x00 x00 x80 xbf x00 x00 x80 xbf)) E))
(T (W x18 x00 x00 x00 x10 x00 x00 x00)
(T (W x00 x00 x80 x3f x00 x00 x80 x3f)
(L (W x30 x32 x5f x43 x4c x45 x41 x52)) E)
(T (W xff xff xff xff xff xff xff xff)
(L (W xff xff xff xff xb0 x00 x00 x00)) E)))
(T (W xff xff xff xff xff xff xff xff)
(T (W xff xff xff xff xff xff xff xff)
(T (W x45 x26 x22 x84 xe4 x9c xf2 xcb)
(L (W x00 x00 x00 x00 x00 x00 x00 x00))
(L (W x00 x00 x80 xbf x00 x00 x80 xbf)))
(T (W x6a xc8 xfc xff x74 x00 x00 x00)
(L (W x46 x53 x59 x53 x5f x4e x53 x5f)) E))
(T (W x00 x00 x80 x3f x00 x00 x80 x3f)
(T (W x00 x00 x00 x00 x00 x00 x00 x00)
(L (W xff xff xff xff xff xff xff xff)) E)
(T (W x00 x00 x80 xbf x00 x00 x80 xbf)
(L (W x00 x00 x00 x00 x00 x00 x00 x00)) E))))
(T (W x00 x00 x00 x00 x00 x00 x00 x00)
(T (W xff xff xff xff xff xff xff xff)
(T (W x00 x00 x00 x00 x00 x00 x00 x00)
(T (W x50 x00 x00 x00 x44 x00 x00 x00)
(L (W xd2 xeb xff xff xc9 x00 x00 x00))
(L (W x00 x00 x00 x00 x00 x00 x00 x00)))
(T (W x00 x00 x00 x00 x00 x00 x00 x00)
(L (W x18 x00 x00 x00 x10 x00 x00 x00)) E))
(T (W x00 x00 x00 x00 x00 x00 x00 x00)
(T (W x45 x26 x22 x84 xe4 x9c xf2 xcb)
(L (W x00 x00 x80 xbf x00 x00 x80 xbf)) E)
(T (W xff xff xff xff xff xff xff xff)
(L (W xff xff xff xff xff xff xff xff)) E)))
(T (W x40 x00 x00 x00 x9c x00 x00 x00)
(T (W xff xff xff xff xff xff xff xff)
(T (W xff xff xff xff xff xff xff xff)
(L (W x15 x00 x00 x00 x18 x00 x00 x00))
(L (W x00 x00 x00 x00 xac xeb xff xff)))
(T (W xff xff xff xff xff xff xff xff)
(L (W x54 x00 x00 x00 x48 x00 x00 x00)) E))
(T (W x54 x00 x00 x00 x48 x00 x00 x00)
(T (W x00 x00 x00 x00 x00 x00 x00 x00)
(L (W x00 x00 x00 x00 x00 x00 x00 x00)) E)
(T (W x00 x00 x00 x00 x12 x00 x00 x00)
(L (W x6c x00 x00 x00 x60 x00 x00 x00)) E))))))
(T (W xff xff xff xff xff xff xff xff)
(T (W xff xff xff xff xff xff xff xff)
(T (W x00 x00 x00 x00 x00 x00 x00 x00)
(T (W x00 x00 x00 x00 x00 x00 x00 x00)
(T (W x1a x82 xfa xff x78 x00 x00 x00)
(T (W x00 x00 x00 x00 x12 x00 x00 x00)
(L (W xff xff xff xff xff xff xff xff))
(L (W xff xff xff xff xff xff xff xff)))
(T (W xff xff xff xff xff xff xff xff)
(L (W x00 x00 x80 xbf x00 x00 x80 xbf)) E))
(T (W xb0 x00 x00 x00 x64 x00 x00 x00)
(T (W x00 x00 x00 x00 x00 x00 x00 x00)
(L (W x00 x00 x00 x00 x0a x03 xfe xff))
(L (W x00 x00 x80 xbf x00 x00 x80 xbf)))
(T (W x00 x00 x00 x00 x26 x00 x00 x00)
(L (W x00 x00 x00 x00 xac x03 xff xff)) E)))
(T (W xff xff xff xff xff xff xff xff)
(T (W xd2 xd4 xfd xff x00 x00 x01 x01)
(T (W x00 x00 x80 x3f x00 x00 x80 x3f)
(L (W x46 x53 x59 x53 x5f x4e x53 x5f))
(L (W x00 x00 x00 x00 x00 x00 x00 x00)))
(T (W xff xff xff xff xff xff xff xff)
(L (W x44 x02 x00 x00 x30 x01 x00 x00)) E))
(T (W x00 x00 x00 x00 x00 x00 x00 x00)
(T (W x00 x00 x00 x00 x00 x00 x00 x00)
(L (W xff xff xff xff xc8 x00 x00 x00)) E)
(T (W x00 x00 x80 xbf x00 x00 x80 xbf)
(L (W x00 x00 x00 x00 x00 x00 x00 x00)) E))))
(T (W x00 x00 x00 x00 x00 x00 x00 x00)
(T (W xff xff xff xff xff xff xff xff)
(T (W x00 x00 x00 x00 x00 x00 x00 x00)
(T (W x00 x00 x00 x00 x00 x00 x00 x00)
(L (W x00 x00 x80 xbf x00 x00 x80 xbf))
(L (W xff xff xff xff xff xff xff xff)))
(T (W x6c xa9 xfc xff x15 x00 x00 x00)
(L (W xff xff xff xff xff xff xff xff)) E))
(T (W x22 x00 x00 x00 x67 x72 x6f x75)
(T (W xff xff xff xff x9c x00 x00 x00)
(L (W x00 x00 x80 xbf x00 x00 x80 xbf)) E)
(T (W xff xff xff xff x9c x00 x00 x00)
(L (W xff xff xff xff xff xff xff xff)) E)))
(T (W x18 x00 x00 x00 x0c x00 x00 x00)
(T (W xff xff xff xff xff xff xff xff)
(T (W xff xff xff xff x03 x00 x00 x00)
(L (W x00 x00 x80 xbf x00 x00 x80 xbf))
(L (W x18 x00 x00 x00 x0c x00 x00 x00)))
(T (W x5f x4e x53 x5f x30 x32 x5f x43)
(L (W x00 x00 x80 xbf x00 x00 x80 xbf)) E))
(T (W x45 x26 x22 x84 xe4 x9c xf2 xcb)
(T (W x00 x00 x80 x3f x00 x00 x80 x3f)
(L (W x45 x44 x00 x00 x00 x00 x00 x00)) E)
(T (W xff xff xff xff xff xff xff xff)
(L (W x00 x00 x80 xbf x00 x00 x80 xbf)) E)))))
(T (W x00 x00 x00 x00 x00 x00 x00 x00)
(T (W x00 x00 x80 x3f x00 x00 x80 x3f)
(T (W x00 x00 x80 x3f x00 x00 x80 x3f)
(T (W x00 x00 x80 x3f x00 x00 x80 x3f)
(T (W x24 x00 x00 x00 xb0 x00 x00 x00)
(L (W x22 xf2 xff xff x00 x00 x01 x01))
(L (W x00 x00 x00 x00 x00 x00 x00 x00)))
(T (W xb8 x00 x00 x00 xac x00 x00 x00)
(L (W x18 x00 x00 x00 x0c x00 x00 x00)) E))
(T (W x00 x00 x80 x3f x00 x00 x80 x3f)
(T (W x50 x00 x00 x00 x44 x00 x00 x00)
(L (W xc4 x22 xfe xff x0b x00 x00 x00)) E)
(T (W x6a x10 xfd xff x74 x00 x00 x00)
(L (W xff xff xff xff xff xff xff xff)) E)))
(T (W x64 x00 x00 x00 x9c x00 x00 x00)
(T (W xff xff xff xff xff xff xff xff)
(T (W x1a xd2 xfb xff x78 x00 x00 x00)
(L (W x00 x00 x00 x00 x00 x00 x00 x00))
(L (W x54 x00 x00 x00 x48 x00 x00 x00)))
(T (W x1a xd2 xfc xff x78 x00 x00 x00)
(L (W x00 x00 x00 x00 x00 x00 x00 x00)) E))
(T (W x3c x55 xfb xff x00 x01 x01 x01)
(T (W x4f x84 x6f x8b xe8 xcb x63 xb7)
(L (W xff xff xff xff xff xff xff xff)) E)
(T (W x03 x00 x00 x00 xd8 x00 x00 x00)
(L (W x00 x00 x80 xbf x00 x00 x80 xbf)) E))))
(T (W x45 x26 x22 x84 xe4 x9c xf2 xcb)
(T (W xff xff xff xff xff xff xff xff)
(T (W x73 x90 x01 x26 x0a x43 x62 xde)
(T (W xff xff xff xff xff xff xff xff)
(L (W x00 x00 x80 xbf x00 x00 x80 xbf))
(L (W x00 x00 x00 x00 x00 x00 x00 x00)))
(T (W x1b x00 x00 x00 x10 x00 x00 x00)
(L (W xff xff xff xff xff xff xff xff)) E))
(T (W x00 x00 x80 x3f x00 x00 x80 x3f)
(T (W xff xff xff xff xff xff xff xff)
(L (W x54 x00 x00 x00 x48 x00 x00 x00)) E)
(T (W x00 x00 x00 x00 x4a x31 xfd xff)
(L (W xff xff xff xff xff xff xff xff)) E)))
(T (W x01 x00 x00 x00 x3c x00 x00 x00)
(T (W x17 x00 x00 x00 x10 x00 x00 x00)
(T (W xff xff xff xff xff xff xff xff)
(L (W xff xff xff xff xff xff xff xff))
(L (W xff xff xff xff xff xff xff xff)))
(T (W x45 x26 x22 x84 xe4 x9c xf2 xcb)
(L (W x54 x00 x00 x00 x48 x00 x00 x00)) E))
(T (W xff xff xff xff xff xff xff xff)
(T (W xc2 x01 x00 x00 xff xff xff xff)
(L (W x49 xa1 x68 x4a xeb x5f xdd x3d)) E)
(T (W x00 x00 x00 x00 x00 x00 x64 x00)
(L (W x18 x00 x00 x00 x0c x00 x00 x00)) E)))))))
(T (W xff xff xff xff x04 x00 x00 x00)
(T (W x00 x00 x80 x3f x00 x00 x80 x3f)
(T (W x45 x26 x22 x84 xe4 x9c xf2 xcb)
(T (W x0c x00 x00 x00 xff xff xff xff)
(T (W xff xff xff xff xff xff xff xff)
(T (W xff xff xff xff xff xff xff xff)
(T (W x6a x7c xfb xff x74 x00 x00 x00)
(L (W x1a x7e xfd xff x78 x00 x00 x00))
(L (W x00 x00 x80 xbf x00 x00 x80 xbf)))
(T (W x00 x00 x80 x3f x00 x00 x80 x3f)
(L (W x00 x00 x00 x00 x00 x00 x00 x00)) E))
(T (W x00 x00 x00 x00 x00 x00 x00 x00)
(T (W xd4 x00 x00 x00 xc8 x00 x00 x00)
(L (W x00 x00 x80 xbf x00 x00 x80 xbf))
(L (W xff xff xff xff xff xff xff xff)))
(T (W x00 x00 x00 x00 x00 x00 x00 x00)
(L (W xa4 x04 x00 x00 x88 x03 x00 x00)) E)))
(T (W x45 x26 x22 x84 xe4 x9c xf2 xcb)
(T (W x00 x00 x80 x3f x00 x00 x80 x3f)
(T (W xff xff xff xff xbc x00 x00 x00)
(L (W x00 x00 x00 x00 x00 x00 x00 x00))
(L (W xff xff xff xff xff xff xff xff)))
(T (W x00 x00 x80 x3f x00 x00 x80 x3f)
(L (W x00 x00 x80 xbf x00 x00 x80 xbf)) E))
(T (W x00 x00 x00 x00 x00 x00 x00 x00)
(T (W xff xff xff xff x9c x00 x00 x00)
(L (W x00 x00 x00 x00 x00 x00 x00 x00)) E)
(T (W xff xff xff xff xbc x00 x00 x00)
(L (W x1a x3e xff xff x78 x00 x00 x00)) E))))
(T (W xff xff xff xff x03 x00 x00 x00)
(T (W x00 x00 x00 x00 x00 x00 x00 x00)
(T (W x18 x00 x00 x00 x0c x00 x00 x00)
(T (W x6c x00 x00 x00 x60 x00 x00 x00)
(L (W x45 x26 x22 x84 xe4 x9c xf2 xcb))
(L (W x03 x00 x00 x00 xd0 x00 x00 x00)))
(T (W x00 x00 x80 x3f x00 x00 x80 x3f)
(L (W x00 x00 x00 x00 x00 x00 x00 x00)) E))
(T (W x00 x00 x80 x3f x00 x00 x80 x3f)
(T (W x00 x00 x00 x00 x00 x00 x00 x00)
(L (W xff xff xff xff xff xff xff xff)) E)
(T (W x00 x00 x00 x00 x00 x00 x00 x00)
(L (W x45 x26 x22 x84 xe4 x9c xf2 xcb)) E)))
(T (W x00 x00 x00 x00 x00 x00 x00 x00)
(T (W x00 x00 x80 x3f x00 x00 x80 x3f)
(T (W x4f x84 x6f x8b xe8 xcb x63 xb7)
(L (W xff xff xff xff xff xff xff xff))
(L (W x00 x00 x00 x00 x00 x00 x00 x00)))
(T (W x00 x00 x80 x3f x00 x00 x80 x3f)
(L (W xc4 x00 x00 x00 x02 x00 x00 x00)) E))
(T (W x18 x00 x00 x00 x0c x00 x00 x00)
(T (W xff xff xff xff xff xff xff xff)
(L (W x18 x00 x00 x00 x10 x00 x00 x00)) E)
(T (W x00 x00 x80 xbf x00 x00 x80 xbf)
(L (W x00 x00 x00 x00 x4a x5d xff xff)) E)))))
(T (W xff xff xff xff xff xff xff xff)
(T (W x00 x00 x00 x00 x00 x00 x00 x00)
(T (W x45 x26 x22 x84 xe4 x9c xf2 xcb)
(T (W x00 x00 x00 x00 x00 x00 x00 x00)
(T (W x00 x00 x00 x00 x9a x93 xfb xff)
(L (W x00 x00 x80 xbf x00 x00 x80 xbf))
(L (W x45 x26 x22 x84 xe4 x9c xf2 xcb)))
(T (W x00 x00 x00 x00 x00 x00 x00 x00)
(L (W x30 x32 x5f x43 x4c x45 x41 x52)) E))
(T (W x6a x0c xfb xff x74 x00 x00 x00)
(T (W xff xff xff xff xff xff xff xff)
(L (W x3c x11 xfe xff x00 x01 x01 x01)) E)
(T (W xff xff xff xff xff xff xff xff)
(L (W x00 x00 x00 x00 x00 x00 x00 x00)) E)))
(T (W x00 x00 x80 x3f x00 x00 x80 x3f)
(T (W x00 x00 x80 x3f x00 x00 x80 x3f)
(T (W x00 x00 x00 x00 x4a xcd xfb xff)
(L (W x6a xcc xfd xff x74 x00 x00 x00))
(L (W xff xff xff xff xff xff xff xff)))
(T (W xff xff xff xff xff xff xff xff)
(L (W x50 x00 x00 x00 x44 x00 x00 x00)) E))
(T (W x45 x44 x00 x00 x00 x00 x00 x00)
(T (W xff xff xff xff xbc x00 x00 x00)
(L (W x00 x00 x80 xbf x00 x00 x80 xbf)) E)
(T (W x00 x00 x00 x00 x4a x4d xfd xff)
(L (W xff xff xff xff xff xff xff xff)) E))))
(T (W xff xff xff xff xff xff xff xff)
(T (W x00 x00 x80 x3f x00 x00 x80 x3f)
(T (W x00 x00 x80 x3f x00 x00 x80 x3f)
(T (W x00 x00 x00 x00 x00 x00 x00 x00)
(L (W x00 x00 x00 x00 x00 x00 x00 x00))
(L (W x00 x00 x00 x00 xac xaf xff xff)))
(T (W x18 x00 x00 x00 x0c x00 x00 x00)
(L (W x00 x00 x00 x00 x00 x00 x00 x00)) E))
(T (W xa5 x01 x00 x00 xff xff xff xff)
(T (W x00 x00 x80 x3f x00 x00 x80 x3f)
(L (W x00 x00 x00 x00 x00 x00 x00 x00)) E)
(T (W x00 x00 x80 xbf x00 x00 x80 xbf)
(L (W x00 x00 x80 xbf x00 x00 x80 xbf)) E)))
(T (W xc4 x7e xfa xff x1b x00 x00 x00)
(T (W x00 x00 x00 x00 x00 x00 x00 x00)
(T (W x54 x00 x00 x00 x48 x00 x00 x00)
(L (W x00 x00 x00 x00 x12 x00 x00 x00))
(L (W x46 x53 x59 x53 x5f x4e x53 x5f)))
(T (W x3c xf1 xfc xff x00 x01 x01 x01)
(L (W x00 x00 x01 x01 x3b x01 x00 x00)) E))
(T (W x6c x75 xfb xff x11 x00 x00 x00)
(T (W x50 x00 x00 x00 x44 x00 x00 x00)
(L (W xff xff xff xff xff xff xff xff)) E)
(T (W xff xff xff xff xb0 x00 x00 x00)
(L (W x00 x00 x00 x00 x00 x00 x00 x00)) E))))))
(T (W x00 x00 x00 x00 x00 x00 x00 x00)
(T (W x00 x00 x00 x00 x00 x00 x00 x00)
(T (W x6c x00 x00 x00 x60 x00 x00 x00)
(T (W xff xff xff xff xff xff xff xff)
(T (W xd2 x98 xfd xff x00 x00 x01 x01)
(T (W xff xff xff xff xff xff xff xff)
(L (W x00 x00 x80 xbf x00 x00 x80 xbf))
(L (W x00 x00 x80 xbf x00 x00 x80 xbf)))
(T (W x45 x26 x22 x84 xe4 x9c xf2 xcb)
(L (W x00 x00 x01 x01 x2f x00 x00 x00)) E))
(T (W x6a x04 xfb xff x74 x00 x00 x00)
(T (W xb0 x00 x00 x00 x64 x00 x00 x00)
(L (W x00 x00 x80 xbf x00 x00 x80 xbf)) E)
(T (W x6c x0d xfd xff x2e x00 x00 x00)
(L (W x00 x00 x00 x00 x00 x00 x00 x00)) E)))
(T (W x00 x00 x80 x3f x00 x00 x80 x3f)
(T (W x00 x00 x80 x3f x00 x00 x80 x3f)
(T (W xff xff xff xff xff xff xff xff)
(L (W x45 x26 x22 x84 xe4 x9c xf2 xcb))
(L (W xff xff xff xff xff xff xff xff)))
(T (W xff xff xff xff xff xff xff xff)
(L (W x00 x00 x80 xbf x00 x00 x80 xbf)) E))
(T (W x18 x00 x00 x00 x0c x00 x00 x00)
(T (W xff xff xff xff x03 x00 x00 x00)
(L (W x00 x00 x00 x00 x00 x00 x00 x00)) E)
(T (W xff xff xff xff xff xff xff xff)
(L (W xcc x00 x00 x00 x01 x00 x00 x00)) E))))
(T (W xb8 x00 x00 x00 xac x00 x00 x00)
(T (W x68 x00 x00 x00 x5c x00 x00 x00)
(T (W x68 x00 x00 x00 x5c x00 x00 x00)
(T (W xff xff xff xff xff xff xff xff)
(L (W xff xff xff xff xff xff xff xff))
(L (W x00 x00 x80 xbf x00 x00 x80 xbf)))
(T (W x00 x00 x80 x3f x00 x00 x80 x3f)
(L (W x00 x00 x00 x00 x00 x00 x00 x00)) E))
(T (W x6a x24 xfb xff x74 x00 x00 x00)
(T (W x00 x00 x00 x00 x00 x00 x00 x00)
(L (W xff xff xff xff xff xff xff xff)) E)
(T (W x4f x84 x6f x8b xe8 xcb x63 xb7)
(L (W x00 x00 x80 xbf x00 x00 x80 xbf)) E)))
(T (W x00 x00 x00 x00 x00 x00 x00 x00)
(T (W x00 x00 x00 x00 x00 x00 x00 x00)
(T (W x00 x00 x80 x3f x00 x00 x80 x3f)
(L (W x17 x00 x00 x00 x0c x00 x00 x00))
(L (W x00 x00 x00 x00 x00 x00 x00 x00)))
(T (W x00 x00 x00 x00 x00 x00 x00 x00)
(L (W xff xff xff xff xff xff xff xff)) E))
(T (W xff xff xff xff xff xff xff xff)
(T (W x68 x00 x00 x00 x5c x00 x00 x00)
(L (W xc4 x00 x00 x00 x02 x00 x00 x00)) E)
(T (W x00 x00 x80 xbf x00 x00 x80 xbf)
(L (W x00 x00 x00 x00 x00 x00 x00 x00)) E)))))
(T (W x00 x00 x80 x3f x00 x00 x80 x3f)
(T (W x64 x00 x00 x00 x9c x00 x00 x00)
(T (W xff xff xff xff xff xff xff xff)
(T (W x00 x00 x00 x00 x00 x00 x00 x00)
(T (W x00 x00 x00 x00 x00 x00 x00 x00)
(L (W x68 x00 x00 x00 x5c x00 x00 x00))
(L (W xbc x00 x00 x00 x1e x00 x00 x00)))
(T (W x00 x00 x00 x00 x00 x00 x00 x00)
(L (W x00 x00 x00 x00 x00 x00 x00 x00)) E))
(T (W x45 x26 x22 x84 xe4 x9c xf2 xcb)
(T (W xff xff xff xff xff xff xff xff)
(L (W xbc x00 x00 x00 x46 x00 x00 x00)) E)
(T (W x00 x00 x00 x00 xc8 xfa xff xff)
(L (W x00 x00 x80 xbf x00 x00 x80 xbf)) E)))
(T (W x00 x00 x00 x00 x00 x00 x00 x00)
(T (W x45 x26 x22 x84 xe4 x9c xf2 xcb)
(T (W x5f x77 x69 x6c x64 x5f x70 x6f)
(L (W xc4 x00 x00 x00 x02 x00 x00 x00))
(L (W xff xff xff xff xff xff xff xff)))
(T (W x00 x00 x00 x00 x00 x00 x00 x00)
(L (W xff xff xff xff xb0 x00 x00 x00)) E))
(T (W x00 x00 x80 x3f x00 x00 x80 x3f)
(T (W xff xff xff xff xff xff xff xff)
(L (W x00 x00 x80 xbf x00 x00 x80 xbf)) E)
(T (W x00 x00 x00 x00 x00 x00 x00 x00)
(L (W xff xff xff xff xff xff xff xff)) E))))
(T (W xff xff xff xff x03 x00 x00 x00)
(T (W x00 x00 x00 x00 x00 x00 x00 x00)
(T (W x00 x00 x80 x3f x00 x00 x80 x3f)
(T (W x00 x00 x80 x3f x00 x00 x80 x3f)
(L (W xb0 x00 x00 x00 x64 x00 x00 x00))
(L (W x03 x00 x00 x00 xd0 x00 x00 x00)))
(T (W x00 x00 x80 x3f x00 x00 x80 x3f)
(L (W x00 x00 x80 xbf x00 x00 x80 xbf)) E))
(T (W x46 x53 x59 x53 x5f x4e x53 x5f)
(T (W x54 x00 x00 x00 x48 x00 x00 x00)
(L (W x30 x32 x5f x43 x4c x45 x41 x52)) E)
(T (W x3c x39 xfd xff x00 x01 x01 x01)
(L (W x00 x00 x80 xbf x00 x00 x80 xbf)) E)))
(T (W x01 x00 x00 x00 x04 x00 x00 x00)
(T (W x00 x00 x80 x3f x00 x00 x80 x3f)
(T (W x18 x00 x00 x00 x10 x00 x00 x00)
(L (W x45 x26 x22 x84 xe4 x9c xf2 xcb))
(L (W x00 x00 x80 xbf x00 x00 x80 xbf)))
(T (W xff xff xff xff xff xff xff xff)
(L (W x30 x32 x5f x43 x4c x45 x41 x52)) E))
(T (W x00 x00 x80 x3f x00 x00 x80 x3f)
(T (W x50 x00 x00 x00 x44 x00 x00 x00)
(L (W xff xff xff xff xff xff xff xff)) E)
(T (W x54 x00 x00 x00 x48 x00 x00 x00)
(L (W x00 x00 x00 x00 x00 x00 x00 x00)) E))))))))))))
(T (W xb8 x16 x06 x00 x54 x14 x06 x00)
(T (W x40 x90 x05 x00 xf4 x86 x05 x00)
(T (W xa0 x9a x04 x00 x54 x91 x04 x00)
(T (W xd0 x81 x03 x00 x2c x68 x03 x00)
(T (W x48 x7d x01 x00 x04 x7c x01 x00)
(T (W xbc x00 x00 x00 xb0 x00 x00 x00)
(T (W x00 x00 x80 x3f x00 x00 x80 x3f)
(T (W xff xff xff xff xff xff xff xff)
(T (W x00 x00 x00 x00 xba x52 xfd xff)
(T (W x00 x00 x80 x3f x00 x00 x80 x3f)
(T (W x64 x00 x00 x00 x9c x00 x00 x00)
(T (W x30 x32 x5f x43 x4c x45 x41 x52)
(L (W x00 x00 x00 x00 x00 x00 x00 x00))
(L (W xff xff xff xff xff xff xff xff)))
(T (W x00 x00 x00 x00 x00 x00 x00 x00)
(L (W x45 x26 x22 x84 xe4 x9c xf2 xcb)) E))
(T (W x00 x00 x00 x00 x00 x00 x00 x00)
(T (W x45 x26 x22 x84 xe4 x9c xf2 xcb)
(L (W xff xff xff xff xff xff xff xff))
(L (W x00 x00 x01 x01 x8f x01 x00 x00)))
(T (W x7a xf6 xfc xff x78 x00 x00 x00)
(L (W xff xff xff xff xff xff xff xff)) E)))
(T (W x32 x49 xfd xff x00 x00 x01 x01)
(T (W x24 xc7 xfa xff x3c x00 x00 x00)
(T (W x00 x00 x00 x00 x12 x00 x00 x00)
(L (W x00 x00 x80 xbf x00 x00 x80 xbf))
(L (W x00 x00 x80 xbf x00 x00 x80 xbf)))
(T (W x00 x00 x00 x00 x00 x00 x00 x00)
(L (W x00 x00 x01 x01 x92 x01 x00 x00)) E))
(T (W xff xff xff xff xff xff xff xff)
(T (W x00 x00 x00 x00 x00 x00 x00 x00)
(L (W xff xff xff xff xff xff xff xff)) E)
(T (W x00 x00 x00 x00 x00 x00 x00 x00)
(L (W x00 x00 x00 x00 x12 x00 x00 x00)) E))))
(T (W x00 x00 x80 x3f x00 x00 x80 x3f)
(T (W xca x14 xfa xff x74 x00 x00 x00)
(T (W xa0 x02 x00 x00 x88 x01 x00 x00)
(T (W xff xff xff xff x01 x00 x00 x00)
(L (W x00 x00 x00 x00 x00 x00 x00 x00))
(L (W x00 x00 x80 xbf x00 x00 x80 xbf)))
(T (W xff xff xff xff xff xff xff xff)
(L (W xff xff xff xff xff xff xff xff)) E))
(T (W xff xff xff xff x01 x00 x00 x00)
(T (W x50 x00 x00 x00 x44 x00 x00 x00)
(L (W x00 x00 x80 xbf x00 x00 x80 xbf)) E)
(T (W x00 x00 x00 x00 x00 x00 x00 x00)
(L (W x00 x00 x00 x00 x00 x00 x00 x00)) E)))
(T (W x2a x5f xfd xff x00 x00 x01 x01)
(T (W x69 x77 x79 xba x1f xca x8b xa1)
(T (W xff xff xff xff xff xff xff xff)
(L (W x00 x00 x80 xbf x00 x00 x80 xbf))
(L (W x9c xd9 xff xff x00 x01 x01 x01)))
(T (W xff xff xff xff xff xff xff xff)
(L (W x00 x00 x80 xbf x00 x00 x80 xbf)) E))
(T (W x5f x77 x69 x6c x64 x5f x70 x6f)
(T (W x6c x00 x00 x00 x60 x00 x00 x00)
(L (W x00 x00 x00 x00 x12 x00 x00 x00)) E)
(T (W x00 x00 x01 x01 x54 x01 x00 x00)
(L (W x7a x56 xff xff x78 x00 x00 x00)) E)))))
(T (W xff xff xff xff xff xff xff xff)
(T (W x00 x00 x00 x00 x00 x00 x00 x00)
(T (W x00 x00 x80 x3f x00 x00 x80 x3f)
(T (W x18 x00 x00 x00 x0c x00 x00 x00)
(T (W x6c x00 x00 x00 x60 x00 x00 x00)
(L (W x00 x00 x00 x00 x00 x00 x00 x00))
(L (W x00 x00 x00 x00 x00 x00 x00 x00)))
(T (W x00 x00 x00 x00 x02 x00 x00 x00)
(L (W xff xff xff xff xb0 x00 x00 x00)) E))
(T (W x00 x00 x00 x00 x00 x00 x00 x00)
(T (W x00 x00 x80 x3f x00 x00 x80 x3f)
(L (W x00 x00 x00 x00 x00 x00 x00 x00)) E)
(T (W xff xff xff xff xff xff xff xff)
(L (W xb0 x00 x00 x00 x64 x00 x00 x00)) E)))
(T (W x91 x01 x00 x00 xff xff xff xff)
(T (W x00 x00 x00 x00 x00 x00 x00 x00)
(T (W x9c xc9 xfb xff x00 x01 x01 x01)
(L (W x4f x84 x6f x8b xe8 xcb x63 xb7))
(L (W x00 x00 x80 xbf x00 x00 x80 xbf)))
(T (W x7a xc6 xfc xff x78 x00 x00 x00)
(L (W x00 x00 x00 x00 x00 x00 x00 x00)) E))
(T (W x49 xa1 x68 x4a xeb x5f xdd x3d)
(T (W x00 x00 x80 x3f x00 x00 x80 x3f)
(L (W xff xff xff xff xff xff xff xff)) E)
(T (W x54 x00 x00 x00 x48 x00 x00 x00)
(L (W x00 x00 x80 xbf x00 x00 x80 xbf)) E))))
(T (W x00 x00 x80 x3f x00 x00 x80 x3f)
(T (W x00 x00 x00 x00 x00 x00 x00 x00)
(T (W x00 x00 x00 x00 x00 x00 x00 x00)
(T (W xca xa4 xfb xff x74 x00 x00 x00)
(L (W x00 x00 x80 xbf x00 x00 x80 xbf))
(L (W x30 x32 x5f x43 x4c x45 x41 x52)))
(T (W x00 x00 x00 x00 x00 x00 x00 x00)
(L (W xff xff xff xff xff xff xff xff)) E))
(T (W x00 x00 x00 x00 x00 x00 x00 x00)
(T (W xff xff xff xff xff xff xff xff)
(L (W x45 x26 x22 x84 xe4 x9c xf2 xcb)) E)
(T (W xc1 x00 x00 x00 xff xff xff xff)
(L (W x00 x00 x00 x00 x00 x00 x00 x00)) E)))
(T (W xff xff xff xff xff xff xff xff)
(T (W x32 xf9 xfd xff x00 x00 x01 x01)
(T (W x00 x00 x00 x00 x00 x00 x00 x00)
(L (W xff xff xff xff xff xff xff xff))
(L (W x03 x00 x00 x00 xd8 x00 x00 x00)))
(T (W x6b x65 x5f x77 x61 x72 x6c x69)
(L (W x6c x00 x00 x00 x60 x00 x00 x00)) E))
(T (W x00 x00 x80 x3f x00 x00 x80 x3f)
(T (W x00 x00 x00 x00 x00 x00 x00 x00)
(L (W x00 x00 x80 xbf x00 x00 x80 xbf)) E)
(T (W x00 x00 x00 x00 x00 x00 x00 x00)
(L (W x03 x00 x00 x00 xd0 x00 x00 x00)) E))))))
(T (W x00 x00 x00 x00 x00 x00 x00 x00)
(T (W x45 x26 x22 x84 xe4 x9c xf2 xcb)
(T (W x00 x00 x00 x00 x0c xc0 xf9 xff)
(T (W x00 x00 x80 x3f x00 x00 x80 x3f)
(T (W x00 x00 x00 x00 x0c x80 xfa xff)
(T (W x00 x00 x00 x00 x00 x00 x00 x00)
(L (W x00 x00 x00 x00 x00 x00 x00 x00))
(L (W x00 x00 x00 x00 x00 x00 x00 x00)))
(T (W x00 x00 x00 x00 x00 x00 x00 x00)
(L (W x19 x00 x00 x00 x1c x00 x00 x00)) E))
(T (W xff xff xff xff xff xff xff xff)
(T (W x00 x00 x80 x3f x00 x00 x80 x3f)
(L (W x00 x00 x00 x00 x00 x00 x00 x00))
(L (W x7a xfe xff xff x78 x00 x00 x00)))
(T (W x00 x00 x00 x00 x01 x00 x00 x00)
(L (W x03 x00 x00 x00 xd8 x00 x00 x00)) E)))
(T (W xff xff xff xff xff xff xff xff)
(T (W x00 x00 x00 x00 x00 x00 x00 x00)
(T (W x00 x00 x80 x3f x00 x00 x80 x3f)
(L (W x44 x00 x48 x00 x00 x00 x4c x00))
(L (W x00 x00 x80 xbf x00 x00 x80 xbf)))
(T (W x00 x00 x00 x00 x00 x00 x00 x00)
(L (W x46 x53 x59 x53 x5f x4e x53 x5f)) E))
(T (W x32 x51 xfe xff x00 x00 x01 x01)
(T (W x00 x00 x80 x3f x00 x00 x80 x3f)
(L (W xff xff xff xff xff xff xff xff)) E)
(T (W x00 x00 x80 xbf x00 x00 x80 xbf)
(L (W x00 x00 x00 x00 x00 x00 x00 x00)) E))))
(T (W x00 x00 x80 x3f x00 x00 x80 x3f)
(T (W x70 x5f x6c x65 x61 x64 x65 x72)
(T (W x45 x26 x22 x84 xe4 x9c xf2 xcb)
(T (W x00 x00 x00 x00 x00 x00 x00 x00)
(L (W x4f x84 x6f x8b xe8 xcb x63 xb7))
(L (W x00 x00 x80 xbf x00 x00 x80 xbf)))
(T (W x00 x00 x00 x00 x00 x00 x00 x00)
(L (W xff xff xff xff xff xff xff xff)) E))
(T (W x30 x32 x5f x43 x4c x45 x41 x52)
(T (W xff xff xff xff x03 x00 x00 x00)
(L (W x54 x00 x00 x00 x48 x00 x00 x00)) E)
(T (W xff xff xff xff xff xff xff xff)
(L (W x70 xe5 xaf x28 xbf x50 x5d x6a)) E)))
(T (W xff xff xff xff xff xff xff xff)
(T (W x5d x00 x00 x00 xff xff xff xff)
(T (W x4a x00 x00 x00 xff xff xff xff)
(L (W x00 x00 x80 xbf x00 x00 x80 xbf))
(L (W x22 x00 x00 x00 x25 x00 x00 x00)))
(T (W x00 x00 x01 x01 x89 x00 x00 x00)
(L (W x00 x00 x80 xbf x00 x00 x80 xbf)) E))
(T (W x49 xa1 x68 x4a xeb x5f xdd x3d)
(T (W x00 x00 x00 x00 x0c x60 xfc xff)
(L (W x45 x26 x22 x84 xe4 x9c xf2 xcb)) E)
(T (W x00 x00 x00 x00 x00 x00 x00 x00)
(L (W x18 x00 x00 x00 x10 x00 x00 x00)) E)))))
(T (W x00 x00 x80 x3f x00 x00 x80 x3f)
(T (W xff xff xff xff xff xff xff xff)
(T (W x45 x26 x22 x84 xe4 x9c xf2 xcb)
(T (W x40 x00 x00 x00 x9c x00 x00 x00)
(T (W xff xff xff xff xa0 x00 x00 x00)
(L (W x5f x4e x53 x5f x30 x32 x5f x43))
(L (W x4f x84 x6f x8b xe8 xcb x63 xb7)))
(T (W xff xff xff xff xff xff xff xff)
(L (W xff xff xff xff xff xff xff xff)) E))
(T (W x00 x00 x00 x00 x00 x00 x00 x00)
(T (W x6c x00 x00 x00 x60 x00 x00 x00)
(L (W x00 x00 x00 x00 x00 x00 x00 x00)) E)
(T (W x68 x00 x00 x00 x5c x00 x00 x00)
(L (W xff xff xff xff xff xff xff xff)) E)))
(T (W xa2 x55 xfd xff x85 x01 x00 x00)
(T (W x00 x00 x00 x00 x00 x00 x00 x00)
(T (W x18 x00 x00 x00 x10 x00 x00 x00)
(L (W x00 x00 x00 x00 x00 x00 x00 x00))
(L (W x00 x00 x00 x00 x0c xd0 xff xff)))
(T (W x45 x26 x22 x84 xe4 x9c xf2 xcb)
(L (W x00 x00 x00 x00 x00 x00 x00 x00)) E))
(T (W xff xff xff xff xc4 x00 x00 x00)
(T (W x00 x00 x80 x3f x00 x00 x80 x3f)
(L (W x00 x00 x00 x00 x8a x55 xfe xff)) E)
(T (W x44 x00 x00 x00 x10 x00 x00 x00)
(L (W x54 x00 x00 x00 x48 x00 x00 x00)) E))))
(T (W x00 x00 x80 x3f x00 x00 x80 x3f)
(T (W xcc x35 xfa xff x1f x00 x00 x00)
(T (W x00 x00 x00 x00 x00 x00 x00 x00)
(T (W xff xff xff xff xff xff xff xff)
(L (W xff xff xff xff xff xff xff xff))
(L (W x00 x00 x00 x00 x00 x00 x00 x00)))
(T (W x45 x26 x22 x84 xe4 x9c xf2 xcb)
(L (W xff xff xff xff xff xff xff xff)) E))
(T (W x18 x00 x00 x00 x0c x00 x00 x00)
(T (W x32 x41 xff xff x00 x00 x01 x01)
(L (W xc4 x00 x00 x00 x02 x00 x00 x00)) E)
(T (W x24 x3f xfd xff x21 x00 x00 x00)
(L (W x00 x00 x00 x00 x00 x00 x00 x00)) E)))
(T (W xff xff xff xff xff xff xff xff)
(T (W xff xff xff xff xff xff xff xff)
(T (W x00 x00 x00 x00 x00 x00 x00 x00)
(L (W xff xff xff xff xff xff xff xff))
(L (W xff xff xff xff xff xff xff xff)))
(T (W x00 x00 x00 x00 x00 x00 x00 x00)
(L (W xff xff xff xff xb0 x00 x00 x00)) E))
(T (W xff xff xff xff xff xff xff xff)
(T (W x00 x00 x00 x00 x00 x00 x00 x00)
(L (W x6c x00 x00 x00 x60 x00 x00 x00)) E)
(T (W x00 x00 x80 xbf x00 x00 x80 xbf)
(L (W xff xff xff xff xff xff xff xff)) E)))))))
(T (W x00 x00 x00 x00 x00 x00 x00 x00)
(T (W xff xff xff xff x04 x00 x00 x00)
(T (W x00 x00 x00 x00 x00 x00 x00 x00)
(T (W x45 x26 x22 x84 xe4 x9c xf2 xcb)
(T (W xc6 x01 x00 x00 xff xff xff xff)
(T (W x00 x00 x00 x00 x00 x00 x00 x00)
(T (W x9c x7d xfb xff x00 x01 x01 x01)
(L (W x45 x26 x22 x84 xe4 x9c xf2 xcb))
(L (W x00 x00 x80 xbf x00 x00 x80 xbf)))
(T (W x45 x26 x22 x84 xe4 x9c xf2 xcb)
(L (W x00 x00 x00 x00 x00 x00 x00 x00)) E))
(T (W x00 x00 x00 x00 x12 x00 x00 x00)
(T (W xff xff xff xff xff xff xff xff)
(L (W x00 x00 x00 x00 x0c xfc xfd xff))
(L (W x00 x00 x00 x00 x00 x00 x00 x00)))
(T (W xff xff xff xff xff xff xff xff)
(L (W x00 x00 x00 x00 x12 x00 x00 x00)) E)))
(T (W x50 x00 x00 x00 x44 x00 x00 x00)
(T (W x45 x26 x22 x84 xe4 x9c xf2 xcb)
(T (W xff xff xff xff xff xff xff xff)
(L (W x00 x00 x00 x00 x0c xbc xfd xff))
(L (W x00 x00 x01 x01 x5d x00 x00 x00)))
(T (W xca xb8 xfc xff x74 x00 x00 x00)
(L (W x00 x00 x00 x00 x0c xbc xfe xff)) E))
(T (W x00 x00 x80 x3f x00 x00 x80 x3f)
(T (W xff xff xff xff x03 x00 x00 x00)
(L (W x00 x00 x80 xbf x00 x00 x80 xbf)) E)
(T (W xff xff xff xff xff xff xff xff)
(L (W xff xff xff xff xff xff xff xff)) E))))
(T (W xff xff xff xff xff xff xff xff)
(T (W x00 x00 x00 x00 x00 x00 x00 x00)
(T (W x64 x00 x00 x00 x9c x00 x00 x00)
(T (W x00 x00 x80 x3f x00 x00 x80 x3f)
(L (W xff xff xff xff xff xff xff xff))
(L (W xff xff xff xff xff xff xff xff)))
(T (W x00 x00 x00 x00 x00 x00 x00 x00)
(L (W x00 x00 x80 xbf x00 x00 x80 xbf)) E))
(T (W x00 x00 x00 x00 x0c x1c xfb xff)
(T (W x00 x00 x00 x00 x00 x00 x00 x00)
(L (W xff xff xff xff xff xff xff xff)) E)
(T (W x00 x00 x00 x00 x00 x00 x00 x00)
(L (W x6c x00 x00 x00 x60 x00 x00 x00)) E)))
(T (W x00 x00 x00 x00 x00 x00 x00 x00)
(T (W x00 x00 x80 x3f x00 x00 x80 x3f)
(T (W x00 x00 x80 x3f x00 x00 x80 x3f)
(L (W x04 x00 x00 x00 x6a xdb xfd xff))
(L (W x00 x00 x00 x00 x00 x00 x00 x00)))
(T (W x54 x00 x00 x00 x48 x00 x00 x00)
(L (W xff xff xff xff xff xff xff xff)) E))
(T (W x50 x00 x00 x00 x44 x00 x00 x00)
(T (W xcc x61 xfc xff x15 x00 x00 x00)
(L (W x18 x00 x00 x00 x0c x00 x00 x00)) E)
(T (W x00 x00 x80 xbf x00 x00 x80 xbf)
(L (W x18 x00 x00 x00 x0c x00 x00 x00)) E)))))
(T (W x00 x00 x00 x00 x00 x00 x00 x00)
(T (W x00 x00 x80 x3f x00 x00 x80 x3f)
(T (W xff xff xff xff xff xff xff xff)
(T (W x00 x00 x00 x00 x00 x00 x00 x00)
(T (W xff xff xff xff xff xff xff xff)
(L (W x9c x8d xfd xff x00 x01 x01 x01))
(L (W xca x88 xff xff x74 x00 x00 x00)))
(T (W x00 x00 x80 x3f x00 x00 x80 x3f)
(L (W x00 x00 x00 x00 x00 x00 x00 x00)) E))
(T (W xff xff xff xff xff xff xff xff)
(T (W x00 x00 x00 x00 x00 x00 x00 x00)
(L (W xff xff xff xff xff xff xff xff)) E)
(T (W x00 x00 x80 xbf x00 x00 x80 xbf)
(L (W x00 x00 x80 xbf x00 x00 x80 xbf)) E)))
(T (W x00 x00 x80 x3f x00 x00 x80 x3f)
(T (W x68 x00 x00 x00 x5c x00 x00 x00)
(T (W x6b x65 x5f x77 x61 x72 x6c x69)
(L (W xcc x00 x00 x00 x01 x00 x00 x00))
(L (W x00 x00 x00 x00 x00 x00 x00 x00)))
(T (W x00 x00 x00 x00 x00 x00 x00 x00)
(L (W xff xff xff xff xff xff xff xff)) E))
(T (W x67 x72 x6f x75 x70 x5f x6c x65)
(T (W x4b x00 x00 x00 xff xff xff xff)
(L (W x6c x00 x00 x00 x60 x00 x00 x00)) E)
(T (W x24 x5b xfd xff x29 x00 x00 x00)
(L (W x00 x00 x01 x01 x5c x00 x00 x00)) E))))
(T (W xff xff xff xff xff xff xff xff)
(T (W x50 x00 x00 x00 x44 x00 x00 x00)
(T (W xff xff xff xff xff xff xff xff)
(T (W x00 x00 x00 x00 x00 x00 x00 x00)
(L (W x18 x00 x00 x00 x10 x00 x00 x00))
(L (W xff xff xff xff xff xff xff xff)))
(T (W xff xff xff xff xff xff xff xff)
(L (W x45 x26 x22 x84 xe4 x9c xf2 xcb)) E))
(T (W xff xff xff xff xff xff xff xff)
(T (W x4f x84 x6f x8b xe8 xcb x63 xb7)
(L (W x00 x00 x00 x00 x00 x00 x00 x00)) E)
(T (W x7a x2a xfd xff x78 x00 x00 x00)
(L (W x18 x00 x00 x00 x0c x00 x00 x00)) E)))
(T (W x00 x00 x80 x3f x00 x00 x80 x3f)
(T (W x00 x00 x80 x3f x00 x00 x80 x3f)
(T (W x45 x26 x22 x84 xe4 x9c xf2 xcb)
(L (W x00 x00 x80 xbf x00 x00 x80 xbf))
(L (W x00 x00 x00 x00 x00 x00 x00 x00)))
(T (W xca xe8 xfc xff x74 x00 x00 x00)
(L (W x00 x00 x00 x00 x00 x00 x00 x00)) E))
(T (W x00 x00 x00 x00 x00 x00 x00 x00)
(T (W x18 x00 x00 x00 x10 x00 x00 x00)
(L (W x04 x00 x00 x00 x8a x71 xfe xff)) E)
(T (W xff xff xff xff xff xff xff xff)
(L (W x00 x00 x00 x00 x00 x00 x00 x00)) E))))))
(T (W x00 x00 x80 x3f x00 x00 x80 x3f)
(T (W x7a xa2 xf9 xff x78 x00 x00 x00)
(T (W xff xff xff xff xff xff xff xff)
(T (W xff xff xff xff xff xff xff xff)
(T (W x00 x00 x00 x00 x00 x00 x00 x00)
(T (W xff xff xff xff xff xff xff xff)
(L (W x50 x00 x00 x00 x44 x00 x00 x00))
(L (W x00 x00 x80 xbf x00 x00 x80 xbf)))
(T (W x9c x85 xfc xff x00 x01 x01 x01)
(L (W x30 x32 x5f x43 x4c x45 x41 x52)) E))
(T (W x00 x00 x80 x3f x00 x00 x80 x3f)
(T (W xff xff xff xff xff xff xff xff)
(L (W xff xff xff xff xb0 x00 x00 x00)) E)
(T (W xc1 x01 x00 x00 xff xff xff xff)
(L (W x00 x00 x00 x00 x00 x00 x00 x00)) E)))
(T (W x6c x00 x00 x00 x60 x00 x00 x00)
(T (W x18 x00 x00 x00 x0c x00 x00 x00)
(T (W x00 x00 x00 x00 x00 x00 x00 x00)
(L (W xff xff xff xff xff xff xff xff))
(L (W xff xff xff xff xff xff xff xff)))
(T (W x68 x00 x00 x00 x5c x00 x00 x00)
(L (W xc4 x00 x00 x00 x01 x00 x00 x00)) E))
(T (W x1b x00 x00 x00 x1e x00 x00 x00)
(T (W xff xff xff xff xff xff xff xff)
(L (W x00 x00 x80 xbf x00 x00 x80 xbf)) E)
(T (W x30 x32 x5f x43 x4c x45 x41 x52)
(L (W xff xff xff xff xff xff xff xff)) E))))
(T (W xff xff xff xff xff xff xff xff)
(T (W x9c x25 xfa xff x00 x01 x01 x01)
(T (W xff xff xff xff x03 x00 x00 x00)
(T (W xff xff xff xff xff xff xff xff)
(L (W x12 x00 x00 x00 x46 x53 x59 x53))
(L (W x00 x00 x80 xbf x00 x00 x80 xbf)))
(T (W xff xff xff xff xff xff xff xff)
(L (W x00 x00 x80 xbf x00 x00 x80 xbf)) E))
(T (W xff xff xff xff xff xff xff xff)
(T (W x00 x00 x80 x3f x00 x00 x80 x3f)
(L (W x00 x00 x01 x01 x2e x00 x00 x00)) E)
(T (W x00 x00 x80 xbf x00 x00 x80 xbf)
(L (W x00 x00 x00 x00 x0c x24 xff xff)) E)))
(T (W x45 x26 x22 x84 xe4 x9c xf2 xcb)
(T (W x00 x00 x80 x3f x00 x00 x80 x3f)
(T (W x00 x00 x80 x3f x00 x00 x80 x3f)
(L (W x00 x00 x00 x00 x00 x00 x00 x00))
(L (W x49 xa1 x68 x4a xeb x5f xdd x3d)))
(T (W x61 x72 x6c x69 x6b x65 x5f x6f)
(L (W x00 x00 x00 x00 x8a xe9 xfe xff)) E))
(T (W x6b x65 x5f x6c x76 x31 x00 x00)
(T (W x00 x00 x00 x00 x00 x00 x00 x00)
(L (W xff xff xff xff xc4 x00 x00 x00)) E)
(T (W x45 x26 x22 x84 xe4 x9c xf2 xcb)
(L (W x30 x32 x5f x43 x4c x45 x41 x52)) E)))))
(T (W xff xff xff xff x03 x00 x00 x00)
(T (W x00 x00 x00 x00 x00 x00 x00 x00)
(T (W x00 x00 x00 x00 x00 x00 x00 x00)
(T (W x00 x00 x00 x00 x00 x00 x00 x00)
(T (W x00 x00 x80 x3f x00 x00 x80 x3f)
(L (W xff xff xff xff xac x00 x00 x00))
(L (W xcc x00 x00 x00 x02 x00 x00 x00)))
(T (W x00 x00 x80 x3f x00 x00 x80 x3f)
(L (W x49 xa1 x68 x4a xeb x5f xdd x3d)) E))
(T (W x00 x00 x00 x00 x00 x00 x00 x00)
(T (W x00 x00 x00 x00 x00 x00 x00 x00)
(L (W xff xff xff xff xff xff xff xff)) E)
(T (W x00 x00 x00 x00 x00 x00 x00 x00)
(L (W x7a x12 xff xff x78 x00 x00 x00)) E)))
(T (W x00 x00 x80 x3f x00 x00 x80 x3f)
(T (W x00 x00 x80 x3f x00 x00 x80 x3f)
(T (W x00 x00 x00 x00 x00 x00 x00 x00)
(L (W xff xff xff xff xff xff xff xff))
(L (W x00 x00 x00 x00 x00 x00 x00 x00)))
(T (W x00 x00 x00 x00 x00 x00 x00 x00)
(L (W xff xff xff xff xff xff xff xff)) E))
(T (W x00 x00 x00 x00 x00 x00 x00 x00)
(T (W x4a x00 x00 x00 xff xff xff xff)
(L (W x00 x00 x80 xbf x00 x00 x80 xbf)) E)
(T (W x00 x00 x80 xbf x00 x00 x80 xbf)
(L (W x46 x53 x59 x53 x5f x4e x53 x5f)) E))))
(T (W xff xff xff xff xff xff xff xff)
(T (W x00 x00 x80 x3f x00 x00 x80 x3f)
(T (W xff xff xff xff xff xff xff xff)
(T (W x00 x00 x80 x3f x00 x00 x80 x3f)
(L (W x00 x00 x00 x00 x00 x00 x00 x00))
(L (W xff xff xff xff xff xff xff xff)))
(T (W xff xff xff xff xff xff xff xff)
(L (W x54 x00 x00 x00 x48 x00 x00 x00)) E))
(T (W x00 x00 x00 x00 x00 x00 x00 x00)
(T (W x50 x00 x00 x00 x44 x00 x00 x00)
(L (W x00 x00 x00 x00 x00 x00 x00 x00)) E)
(T (W x18 x00 x00 x00 x10 x00 x00 x00)
(L (W x70 x00 x00 x00 x64 x00 x00 x00)) E)))
(T (W x00 x00 x80 x3f x00 x00 x80 x3f)
(T (W xff xff xff xff xff xff xff xff)
(T (W x7a xf2 xfb xff x78 x00 x00 x00)
(L (W x00 x00 x80 xbf x00 x00 x80 xbf))
(L (W x54 x00 x00 x00 x48 x00 x00 x00)))
(T (W x22 x00 x00 x00 x67 x72 x6f x75)
(L (W x00 x00 x00 x00 x00 x00 x00 x00)) E))
(T (W x00 x00 x80 x3f x00 x00 x80 x3f)
(T (W x45 x26 x22 x84 xe4 x9c xf2 xcb)
(L (W x00 x00 x00 x00 xaa x71 xfe xff)) E)
(T (W xbc x00 x00 x00 x02 x00 x00 x00)
(L (W x49 xa1 x68 x4a xeb x5f xdd x3d)) E))))))))
(T (W x28 x1f x00 x00 x04 x00 x00 x00)
(T (W xff xff xff xff xff xff xff xff)
(T (W x7a x88 xf9 xff x78 x00 x00 x00)
(T (W xff xff xff xff xff xff xff xff)
(T (W x00 x00 x00 x00 x00 x00 x00 x00)
(T (W x9c xfb xf9 xff x00 x01 x01 x01)
(T (W x00 x00 x00 x00 x02 x00 x00 x00)
(T (W x4f x84 x6f x8b xe8 xcb x63 xb7)
(L (W x00 x00 x80 xbf x00 x00 x80 xbf))
(L (W x00 x00 x00 x00 x00 x00 x00 x00)))
(T (W x00 x00 x80 x3f x00 x00 x80 x3f)
(L (W xff xff xff xff xff xff xff xff)) E))
(T (W xff xff xff xff xff xff xff xff)
(T (W x00 x00 x80 x3f x00 x00 x80 x3f)
(L (W x00 x00 x00 x00 x00 x00 x00 x00))
(L (W x00 x00 x00 x00 x00 x00 x00 x00)))
(T (W x49 xa1 x68 x4a xeb x5f xdd x3d)
(L (W x3b x01 x00 x00 xff xff xff xff)) E)))
(T (W x00 x00 x00 x00 x00 x00 x00 x00)
(T (W x00 x00 x80 x3f x00 x00 x80 x3f)
(T (W x00 x00 x80 x3f x00 x00 x80 x3f)
(L (W x00 x00 x80 xbf x00 x00 x80 xbf))
(L (W x9c xbb xff xff x00 x01 x01 x01)))
(T (W x00 x00 x80 x3f x00 x00 x80 x3f)
(L (W x00 x00 x00 x00 x00 x00 x00 x00)) E))
(T (W x00 x00 x00 x00 xaa x37 xfb xff)
(T (W x6c x00 x00 x00 x60 x00 x00 x00)
(L (W x4b x00 x00 x00 xff xff xff xff)) E)
(T (W x7a x38 xfd xff x78 x00 x00 x00)
(L (W x00 x00 x80 xbf x00 x00 x80 xbf)) E))))
(T (W x00 x00 x80 x3f x00 x00 x80 x3f)
(T (W xff xff xff xff xff xff xff xff)
(T (W x00 x00 x00 x00 x0c x9a xfa xff)
(T (W x00 x00 x00 x00 x00 x00 x00 x00)
(L (W x00 x00 x80 xbf x00 x00 x80 xbf))
(L (W x00 x00 x00 x00 x0c x9a xff xff)))
(T (W x00 x00 x00 x00 x02 x00 x00 x00)
(L (W x00 x00 x00 x00 x00 x00 x00 x00)) E))
(T (W x00 x00 x00 x00 x00 x00 x00 x00)
(T (W x00 x00 x00 x00 xfa x1d xfc xff)
(L (W x18 x00 x00 x00 x10 x00 x00 x00)) E)
(T (W x45 x26 x22 x84 xe4 x9c xf2 xcb)
(L (W x4f x84 x6f x8b xe8 xcb x63 xb7)) E)))
(T (W x00 x00 x00 x00 x00 x00 x00 x00)
(T (W x45 x26 x22 x84 xe4 x9c xf2 xcb)
(T (W x00 x00 x00 x00 x00 x00 x00 x00)
(L (W xff xff xff xff xb0 x00 x00 x00))
(L (W x00 x00 x01 x01 x5d x00 x00 x00)))
(T (W x46 x53 x59 x53 x5f x4e x53 x5f)
(L (W x50 x00 x00 x00 x44 x00 x00 x00)) E))
(T (W x00 x00 x80 x3f x00 x00 x80 x3f)
(T (W xcc x00 x00 x00 xc0 x00 x00 x00)
(L (W x00 x00 x80 xbf x00 x00 x80 xbf)) E)
(T (W x00 x00 x00 x00 x00 x00 x00 x00)
(L (W xff xff xff xff xff xff xff xff)) E)))))
(T (W x00 x00 x00 x00 x42 x43 xfd xff)
(T (W x00 x00 x80 x3f x00 x00 x80 x3f)
(T (W xca x06 xfa xff x74 x00 x00 x00)
(T (W xff xff xff xff xff xff xff xff)
(T (W xff xff xff xff x03 x00 x00 x00)
(L (W x49 xa1 x68 x4a xeb x5f xdd x3d))
(L (W x45 x26 x22 x84 xe4 x9c xf2 xcb)))
(T (W x00 x00 x00 x00 x00 x00 x00 x00)
(L (W xff xff xff xff xff xff xff xff)) E))
(T (W x00 x00 x80 x3f x00 x00 x80 x3f)
(T (W xff xff xff xff x9c x00 x00 x00)
(L (W x00 x00 x80 xbf x00 x00 x80 xbf)) E)
(T (W x00 x00 x00 x00 x00 x00 x00 x00)
(L (W x46 x53 x59 x53 x5f x4e x53 x5f)) E)))
(T (W x00 x00 x00 x00 x00 x00 x00 x00)
(T (W x00 x00 x00 x00 x00 x00 x00 x00)
(T (W xff xff xff xff xff xff xff xff)
(L (W x54 x00 x00 x00 x48 x00 x00 x00))
(L (W xff xff xff xff xff xff xff xff)))
(T (W x55 x39 x81 x6a xc4 xc7 x74 x14)
(L (W x7a xc8 xfe xff x78 x00 x00 x00)) E))
(T (W xff xff xff xff xff xff xff xff)
(T (W x45 x26 x22 x84 xe4 x9c xf2 xcb)
(L (W x30 x32 x5f x43 x4c x45 x41 x52)) E)
(T (W xff xff xff xff xff xff xff xff)
(L (W x45 x26 x22 x84 xe4 x9c xf2 xcb)) E))))
(T (W x0a x00 x00 x00 x3c x00 x00 x00)
(T (W x45 x26 x22 x84 xe4 x9c xf2 xcb)
(T (W x00 x00 x80 x3f x00 x00 x80 x3f)
(T (W xff xff xff xff xff xff xff xff)
(L (W x68 x00 x00 x00 x5c x00 x00 x00))
(L (W x45 x26 x22 x84 xe4 x9c xf2 xcb)))
(T (W x00 x00 x80 x3f x00 x00 x80 x3f)
(L (W x00 x00 x00 x00 x00 x00 x00 x00)) E))
(T (W x45 x26 x22 x84 xe4 x9c xf2 xcb)
(T (W x30 x32 x5f x43 x4c x45 x41 x52)
(L (W xff xff xff xff xff xff xff xff)) E)
(T (W x00 x00 x80 xbf x00 x00 x80 xbf)
(L (W x00 x00 x00 x00 x00 x00 x00 x00)) E)))
(T (W xcc x6f xfa xff x3c x00 x00 x00)
(T (W x00 x00 x00 x00 x00 x00 x00 x00)
(T (W x00 x00 x00 x00 x00 x00 x00 x00)
(L (W x00 x00 x00 x00 x00 x00 x00 x00))
(L (W x00 x00 x01 x01 x36 x00 x00 x00)))
(T (W x00 x00 x00 x00 x00 x00 x00 x00)
(L (W xff xff xff xff xbc x00 x00 x00)) E))
(T (W xff xff xff xff xff xff xff xff)
(T (W x00 x00 x80 x3f x00 x00 x80 x3f)
(L (W x9c x6b xfe xff x00 x01 x01 x01)) E)
(T (W x00 x00 x80 xbf x00 x00 x80 xbf)
(L (W xff xff xff xff xff xff xff xff)) E))))))
(T (W x00 x00 x00 x00 x00 x00 x00 x00)
(T (W x00 x00 x80 x3f x00 x00 x80 x3f)
(T (W xff xff xff xff xff xff xff xff)
(T (W x50 x00 x00 x00 x44 x00 x00 x00)
(T (W xff xff xff xff xff xff xff xff)
(T (W x18 x00 x00 x00 x10 x00 x00 x00)
(L (W x00 x00 x80 xbf x00 x00 x80 xbf))
(L (W x00 x00 x00 x00 x00 x00 x00 x00)))
(T (W x00 x00 x80 x3f x00 x00 x80 x3f)
(L (W xff xff xff xff xff xff xff xff)) E))
(T (W x00 x00 x00 x00 x00 x00 x00 x00)
(T (W x9c x03 xfc xff x00 x01 x01 x01)
(L (W x00 x00 x80 xbf x00 x00 x80 xbf))
(L (W x4f x84 x6f x8b xe8 xcb x63 xb7)))
(T (W x00 x00 x80 xbf x00 x00 x80 xbf)
(L (W x00 x00 x01 x01 x5c x00 x00 x00)) E)))
(T (W x00 x00 x00 x00 x00 x00 x00 x00)
(T (W x45 x26 x22 x84 xe4 x9c xf2 xcb)
(T (W xb0 x00 x00 x00 x64 x00 x00 x00)
(L (W x45 x26 x22 x84 xe4 x9c xf2 xcb))
(L (W x25 x00 x00 x00 x28 x00 x00 x00)))
(T (W x45 x26 x22 x84 xe4 x9c xf2 xcb)
(L (W x00 x00 x80 xbf x00 x00 x80 xbf)) E))
(T (W x00 x00 x00 x00 x00 x00 x00 x00)
(T (W x50 x00 x00 x00 x44 x00 x00 x00)
(L (W x75 x13 xb9 x28 xbf xd0 x67 x6a)) E)
(T (W xb0 x00 x00 x00 x64 x00 x00 x00)
(L (W x00 x00 x80 xbf x00 x00 x80 xbf)) E))))
(T (W x9c xe3 xf9 xff x00 x01 x01 x01)
(T (W x00 x00 x00 x00 x00 x00 x00 x00)
(T (W x45 x26 x22 x84 xe4 x9c xf2 xcb)
(T (W x45 x26 x22 x84 xe4 x9c xf2 xcb)
(L (W xff xff xff xff xff xff xff xff))
(L (W xff xff xff xff xff xff xff xff)))
(T (W xca x9e xfc xff x74 x00 x00 x00)
(L (W x45 x44 x00 x00 x00 x00 x00 x00)) E))
(T (W x00 x00 x80 x3f x00 x00 x80 x3f)
(T (W x00 x00 x00 x00 x04 x00 x00 x00)
(L (W x03 x00 x00 x00 xd8 x00 x00 x00)) E)
(T (W x24 x31 xfd xff x21 x00 x00 x00)
(L (W x00 x00 x80 xbf x00 x00 x80 xbf)) E)))
(T (W x00 x00 x00 x00 x00 x00 x00 x00)
(T (W x45 x26 x22 x84 xe4 x9c xf2 xcb)
(T (W x12 x00 x00 x00 x46 x53 x59 x53)
(L (W xff xff xff xff xff xff xff xff))
(L (W xff xff xff xff xff xff xff xff)))
(T (W x00 x00 x00 x00 x00 x00 x00 x00)
(L (W xff xff xff xff xff xff xff xff)) E))
(T (W x01 x00 x00 x00 x21 x00 x00 x00)
(T (W xff xff xff xff xff xff xff xff)
(L (W x54 x00 x00 x00 x48 x00 x00 x00)) E)
(T (W x00 x00 x80 xbf x00 x00 x80 xbf)
(L (W xff xff xff xff xff xff xff xff)) E)))))
(T (W x9c xb3 xf9 xff x00 x01 x01 x01)
(T (W xff xff xff xff xff xff xff xff)
(T (W xff xff xff xff xff xff xff xff)
(T (W xff xff xff xff xff xff xff xff)
(T (W x32 xd2 xfd xff x9c x01 x00 x00)
(L (W x00 x00 x80 xbf x00 x00 x80 xbf))
(L (W x54 x00 x00 x00 x48 x00 x00 x00)))
(T (W x00 x00 x00 x00 x00 x00 x00 x00)
(L (W x00 x00 x00 x00 xaa x8f xfe xff)) E))
(T (W x68 x00 x00 x00 x5c x00 x00 x00)
(T (W xff xff xff xff xff xff xff xff)
(L (W x00 x00 x80 xbf x00 x00 x80 xbf)) E)
(T (W xff xff xff xff xff xff xff xff)
(L (W x00 x00 x00 x00 x00 x00 x00 x00)) E)))
(T (W x00 x00 x00 x00 x00 x00 x00 x00)
(T (W x00 x00 x00 x00 x00 x00 x00 x00)
(T (W x00 x00 x00 x00 x00 x00 x00 x00)
(L (W xff xff xff xff xa0 x00 x00 x00))
(L (W xff xff xff xff xff xff xff xff)))
(T (W x76 x32 x00 x00 x6a xd1 xfc xff)
(L (W x18 x00 x00 x00 x10 x00 x00 x00)) E))
(T (W x45 x44 x00 x00 x00 x00 x00 x00)
(T (W xff xff xff xff xff xff xff xff)
(L (W x45 x26 x22 x84 xe4 x9c xf2 xcb)) E)
(T (W x45 x44 x00 x00 x00 x00 x00 x00)
(L (W xb0 x00 x00 x00 x64 x00 x00 x00)) E))))
(T (W xff xff xff xff x03 x00 x00 x00)
(T (W x00 x00 x80 x3f x00 x00 x80 x3f)
(T (W x00 x00 x80 x3f x00 x00 x80 x3f)
(T (W x00 x00 x00 x00 x00 x00 x00 x00)
(L (W x32 xf2 xff xff xc9 x00 x00 x00))
(L (W xff xff xff xff xa0 x00 x00 x00)))
(T (W x68 x00 x00 x00 x5c x00 x00 x00)
(L (W x46 x53 x59 x53 x5f x4e x53 x5f)) E))
(T (W xff xff xff xff xff xff xff xff)
(T (W x00 x00 x00 x00 x00 x00 x00 x00)
(L (W xff xff xff xff xff xff xff xff)) E)
(T (W x00 x00 x80 xbf x00 x00 x80 xbf)
(L (W x45 x26 x22 x84 xe4 x9c xf2 xcb)) E)))
(T (W x00 x00 x00 x00 x00 x00 x00 x00)
(T (W x00 x00 x00 x00 x00 x00 x00 x00)
(T (W x00 x00 x80 x3f x00 x00 x80 x3f)
(L (W x00 x00 x00 x00 x00 x00 x00 x00))
(L (W x00 x00 x00 x00 x00 x00 x00 x00)))
(T (W xff xff xff xff x03 x00 x00 x00)
(L (W xff xff xff xff xff xff xff xff)) E))
(T (W x00 x00 x00 x00 x00 x00 x00 x00)
(T (W x00 x00 x80 x3f x00 x00 x80 x3f)
(L (W xff xff xff xff xff xff xff xff)) E)
(T (W x58 x00 x5c x00 x60 x00 x64 x00)
(L (W x30 x32 x5f x43 x4c x45 x41 x52)) E)))))))
(T (W x00 x00 x00 x00 x00 x00 x00 x00)
(T (W xff xff xff xff xff xff xff xff)
(T (W xc4 x08 x00 x00 xb0 x07 x00 x00)
(T (W x00 x00 x80 x3f x00 x00 x80 x3f)
(T (W x00 x00 x00 x00 x00 x00 x00 x00)
(T (W x50 x00 x00 x00 x44 x00 x00 x00)
(T (W x04 x00 x00 x00 xba x18 xff xff)
(L (W xff xff xff xff xff xff xff xff))
(L (W x45 x26 x22 x84 xe4 x9c xf2 xcb)))
(T (W xff xff xff xff xff xff xff xff)
(L (W x45 x26 x22 x84 xe4 x9c xf2 xcb)) E))
(T (W x45 x26 x22 x84 xe4 x9c xf2 xcb)
(T (W x00 x00 x00 x00 x00 x00 x00 x00)
(L (W xff xff xff xff xff xff xff xff))
(L (W xff xff xff xff xff xff xff xff)))
(T (W x00 x00 x80 xbf x00 x00 x80 xbf)
(L (W x00 x00 x80 xbf x00 x00 x80 xbf)) E)))
(T (W xff xff xff xff xff xff xff xff)
(T (W xff xff xff xff xff xff xff xff)
(T (W x00 x00 x00 x00 x00 x00 x00 x00)
(L (W xb0 x00 x00 x00 x64 x00 x00 x00))
(L (W x00 x00 x00 x00 x00 x00 x00 x00)))
(T (W xff xff xff xff xff xff xff xff)
(L (W xff xff xff xff xff xff xff xff)) E))
(T (W x01 x00 x00 x00 xac x00 x00 x00)
(T (W x00 x00 x00 x00 x04 x00 x00 x00)
(L (W x7a x3c xfe xff x78 x00 x00 x00)) E)
(T (W x00 x00 x00 x00 x00 x00 x00 x00)
(L (W x00 x00 x00 x00 x6a x3d xff xff)) E))))
(T (W x00 x00 x00 x00 x00 x00 x00 x00)
(T (W xff xff xff xff x03 x00 x00 x00)
(T (W x01 x00 x00 x00 x04 x00 x00 x00)
(T (W xff xff xff xff xff xff xff xff)
(L (W x00 x00 x00 x00 x00 x00 x00 x00))
(L (W x00 x00 x00 x00 x00 x00 x00 x00)))
(T (W x18 x00 x00 x00 x10 x00 x00 x00)
(L (W x68 x00 x00 x00 x5c x00 x00 x00)) E))
(T (W xff xff xff xff xff xff xff xff)
(T (W x6c x00 x00 x00 x60 x00 x00 x00)
(L (W x00 x00 x00 x00 x00 x00 x00 x00)) E)
(T (W x03 x00 x00 x00 xd0 x00 x00 x00)
(L (W xff xff xff xff xff xff xff xff)) E)))
(T (W x9c x5f xfa xff x00 x01 x01 x01)
(T (W xb8 x00 x00 x00 xac x00 x00 x00)
(T (W xff xff xff xff xff xff xff xff)
(L (W x00 x00 x00 x00 x00 x00 x00 x00))
(L (W x00 x00 x80 xbf x00 x00 x80 xbf)))
(T (W x03 x00 x00 x00 xd8 x00 x00 x00)
(L (W x00 x00 x00 x00 x12 x00 x00 x00)) E))
(T (W x00 x00 x00 x00 xfa x61 xfb xff)
(T (W x00 x00 x80 x3f x00 x00 x80 x3f)
(L (W x54 x02 x00 x00 x38 x01 x00 x00)) E)
(T (W xff xff xff xff xff xff xff xff)
(L (W x00 x00 x80 xbf x00 x00 x80 xbf)) E)))))
(T (W x45 x26 x22 x84 xe4 x9c xf2 xcb)
(T (W x45 x26 x22 x84 xe4 x9c xf2 xcb)
(T (W xcc x13 xfa xff x3e x00 x00 x00)
(T (W x00 x00 x80 x3f x00 x00 x80 x3f)
(T (W x00 x00 x00 x00 x00 x00 x00 x00)
(L (W xff xff xff xff xff xff xff xff))
(L (W xff xff xff xff xff xff xff xff)))
(T (W x45 x26 x22 x84 xe4 x9c xf2 xcb)
(L (W x6c x00 x00 x00 x60 x00 x00 x00)) E))
(T (W x00 x00 x00 x00 x00 x00 x00 x00)
(T (W x00 x00 x00 x00 x00 x00 x00 x00)
(L (W x00 x00 x00 x00 x00 x00 x00 x00)) E)
(T (W xff xff xff xff xff xff xff xff)
(L (W x7a x0c xff xff x78 x00 x00 x00)) E)))
(T (W x64 x00 x00 x00 x9c x00 x00 x00)
(T (W xff xff xff xff xff xff xff xff)
(T (W x00 x00 x80 x3f x00 x00 x80 x3f)
(L (W xff xff xff xff xff xff xff xff))
(L (W x00 x00 x80 xbf x00 x00 x80 xbf)))
(T (W x00 x00 x00 x00 x00 x00 x00 x00)
(L (W x00 x00 x00 x00 x00 x00 x00 x00)) E))
(T (W x00 x00 x80 x3f x00 x00 x80 x3f)
(T (W x00 x00 x00 x00 x00 x00 x00 x00)
(L (W xff xff xff xff xff xff xff xff)) E)
(T (W x00 x00 x80 xbf x00 x00 x80 xbf)
(L (W x00 x00 x00 x00 x00 x00 x00 x00)) E))))
(T (W x00 x00 x00 x00 x00 x00 x00 x00)
(T (W xff xff xff xff xff xff xff xff)
(T (W xff xff xff xff xff xff xff xff)
(T (W x6c x00 x00 x00 x60 x00 x00 x00)
(L (W xff xff xff xff xff xff xff xff))
(L (W x00 x00 x00 x00 x00 x00 x00 x00)))
(T (W x00 x00 x00 x00 x00 x00 x00 x00)
(L (W xbc x00 x00 x00 x1e x00 x00 x00)) E))
(T (W x49 xa1 x68 x4a xeb x5f xdd x3d)
(T (W xff xff xff xff xff xff xff xff)
(L (W x00 x00 x80 xbf x00 x00 x80 xbf)) E)
(T (W xff xff xff xff xff xff xff xff)
(L (W xff xff xff xff xff xff xff xff)) E)))
(T (W x00 x00 x80 x3f x00 x00 x80 x3f)
(T (W x68 x00 x00 x00 x5c x00 x00 x00)
(T (W xff xff xff xff xff xff xff xff)
(L (W x45 x26 x22 x84 xe4 x9c xf2 xcb))
(L (W x00 x00 x00 x00 x0c xee xff xff)))
(T (W xff xff xff xff xff xff xff xff)
(L (W x00 x00 x80 xbf x00 x00 x80 xbf)) E))
(T (W x00 x00 x80 x3f x00 x00 x80 x3f)
(T (W xff xff xff xff xff xff xff xff)
(L (W x45 x26 x22 x84 xe4 x9c xf2 xcb)) E)
(T (W x00 x00 x00 x00 x00 x00 x00 x00)
(L (W x00 x00 x80 xbf x00 x00 x80 xbf)) E))))))
(T (W x9c x97 xf9 xff x00 x01 x01 x01)
(T (W xbc x00 x00 x00 xb0 x00 x00 x00)
(T (W x00 x00 x00 x00 x00 x00 x00 x00)
(T (W x00 x00 x00 x00 x00 x00 x00 x00)
(T (W x68 x00 x00 x00 x5c x00 x00 x00)
(T (W x00 x00 x00 x00 x00 x00 x00 x00)
(L (W xff xff xff xff xff xff xff xff))
(L (W xff xff xff xff xff xff xff xff)))
(T (W xff xff xff xff xff xff xff xff)
(L (W x00 x00 x80 xbf x00 x00 x80 xbf)) E))
(T (W xff xff xff xff xff xff xff xff)
(T (W x00 x00 x00 x00 x00 x00 x00 x00)
(L (W xff xff xff xff xff xff xff xff)) E)
(T (W x00 x00 x80 xbf x00 x00 x80 xbf)
(L (W x54 x00 x00 x00 x48 x00 x00 x00)) E)))
(T (W xff xff xff xff xff xff xff xff)
(T (W xff xff xff xff xff xff xff xff)
(T (W x00 x00 x80 x3f x00 x00 x80 x3f)
(L (W x00 x00 x00 x00 x00 x00 x00 x00))
(L (W x4f x84 x6f x8b xe8 xcb x63 xb7)))
(T (W xff xff xff xff xff xff xff xff)
(L (W xff xff xff xff xff xff xff xff)) E))
(T (W x00 x00 x00 x00 x00 x00 x00 x00)
(T (W x45 x44 x00 x00 x00 x00 x00 x00)
(L (W x45 x26 x22 x84 xe4 x9c xf2 xcb)) E)
(T (W x49 xa1 x68 x4a xeb x5f xdd x3d)
(L (W x00 x00 x00 x00 x12 x00 x00 x00)) E))))
(T (W x00 x00 x00 x00 x00 x00 x00 x00)
(T (W xff xff xff xff xff xff xff xff)
(T (W xff xff xff xff xff xff xff xff)
(T (W x00 x00 x00 x00 x00 x00 x00 x00)
(L (W x45 x26 x22 x84 xe4 x9c xf2 xcb))
(L (W xff xff xff xff xff xff xff xff)))
(T (W x18 x01 x00 x00 x04 x00 x00 x00)
(L (W xc4 x00 x00 x00 x02 x00 x00 x00)) E))
(T (W x00 x00 x00 x00 x00 x00 x00 x00)
(T (W x50 x00 x00 x00 x44 x00 x00 x00)
(L (W x00 x00 x00 x00 x00 x00 x00 x00)) E)
(T (W x18 x00 x00 x00 x10 x00 x00 x00)
(L (W xff xff xff xff xff xff xff xff)) E)))
(T (W x50 x00 x00 x00 x44 x00 x00 x00)
(T (W x45 x26 x22 x84 xe4 x9c xf2 xcb)
(T (W xff xff xff xff xff xff xff xff)
(L (W x00 x00 x00 x00 x00 x00 x00 x00))
(L (W x6c x00 x00 x00 x60 x00 x00 x00)))
(T (W x00 x00 x80 x3f x00 x00 x80 x3f)
(L (W x45 x26 x22 x84 xe4 x9c xf2 xcb)) E))
(T (W x45 x26 x22 x84 xe4 x9c xf2 xcb)
(T (W xbc x00 x00 x00 xb0 x00 x00 x00)
(L (W x00 x00 x00 x00 x12 x00 x00 x00)) E)
(T (W xff xff xff xff xff xff xff xff)
(L (W x54 x00 x00 x00 x48 x00 x00 x00)) E)))))
(T (W xff xff xff xff xff xff xff xff)
(T (W x00 x00 x00 x00 x00 x00 x00 x00)
(T (W x00 x00 x80 x3f x00 x00 x80 x3f)
(T (W x00 x00 x80 x3f x00 x00 x80 x3f)
(T (W x6c x00 x00 x00 x60 x00 x00 x00)
(L (W x0b x00 x00 x00 xff xff xff xff))
(L (W x7d xea xac x28 xbf xdc x59 x6a)))
(T (W x9c x97 xfc xff x00 x01 x01 x01)
(L (W x54 x00 x00 x00 x48 x00 x00 x00)) E))
(T (W xd0 x00 x00 x00 xc4 x00 x00 x00)
(T (W x00 x00 x80 x3f x00 x00 x80 x3f)
(L (W x00 x00 x00 x00 x00 x00 x00 x00)) E)
(T (W x45 x26 x22 x84 xe4 x9c xf2 xcb)
(L (W xff xff xff xff xff xff xff xff)) E)))
(T (W xbc x00 x00 x00 xb0 x00 x00 x00)
(T (W xff xff xff xff xff xff xff xff)
(T (W x00 x00 x80 x3f x00 x00 x80 x3f)
(L (W x00 x00 x00 x00 x12 x00 x00 x00))
(L (W x00 x00 x80 xbf x00 x00 x80 xbf)))
(T (W xff xff xff xff xa0 x00 x00 x00)
(L (W x46 x53 x59 x53 x5f x4e x53 x5f)) E))
(T (W xff xff xff xff x03 x00 x00 x00)
(T (W x00 x00 x80 x3f x00 x00 x80 x3f)
(L (W xff xff xff xff xff xff xff xff)) E)
(T (W x18 x00 x00 x00 x0c x00 x00 x00)
(L (W x00 x00 x80 xbf x00 x00 x80 xbf)) E))))
(T (W x24 x05 xfa xff x3c x00 x00 x00)
(T (W xff xff xff xff xff xff xff xff)
(T (W xff xff xff xff xff xff xff xff)
(T (W xff xff xff xff xff xff xff xff)
(L (W x00 x00 x00 x00 x00 x00 x00 x00))
(L (W x45 x44 x00 x00 x00 x00 x00 x00)))
(T (W x32 xc7 xff xff x00 x00 x01 x01)
(L (W x03 x00 x00 x00 xd8 x00 x00 x00)) E))
(T (W x00 x00 x80 x3f x00 x00 x80 x3f)
(T (W x00 x00 x00 x00 xfa x39 xfc xff)
(L (W x00 x00 x80 xbf x00 x00 x80 xbf)) E)
(T (W xc7 x01 x00 x00 xff xff xff xff)
(L (W xff xff xff xff xff xff xff xff)) E)))
(T (W x00 x00 x80 x3f x00 x00 x80 x3f)
(T (W xff xff xff xff xff xff xff xff)
(T (W x74 x03 x00 x00 x4c x02 x00 x00)
(L (W xcc x00 x00 x00 x01 x00 x00 x00))
(L (W x03 x00 x00 x00 xd8 x00 x00 x00)))
(T (W x00 x00 x80 x3f x00 x00 x80 x3f)
(L (W x00 x00 x80 xbf x00 x00 x80 xbf)) E))
(T (W x45 x26 x22 x84 xe4 x9c xf2 xcb)
(T (W x00 x00 x00 x00 x02 x00 x00 x00)
(L (W x00 x00 x80 xbf x00 x00 x80 xbf)) E)
(T (W x5d x00 x00 x00 xff xff xff xff)
(L (W x7a x74 xff xff x78 x00 x00 x00)) E)))))))))
(T (W xe8 xa6 x02 x00 x44 xa2 x02 x00)
(T (W x88 xe9 x00 x00 x54 xe8 x00 x00)
(T (W xff xff xff xff xff xff xff xff)
(T (W x00 x00 x80 x3f x00 x00 x80 x3f)
(T (W xff xff xff xff xff xff xff xff)
(T (W x00 x00 x00 x00 x00 x00 x00 x00)
(T (W x00 x00 x80 x3f x00 x00 x80 x3f)
(T (W xff xff xff xff xff xff xff xff)
(T (W x00 x00 x00 x00 x00 x00 x00 x00)
(L (W x45 x26 x22 x84 xe4 x9c xf2 xcb))
(L (W x30 x32 x5f x43 x4c x45 x41 x52)))
(T (W x00 x00 x80 x3f x00 x00 x80 x3f)
(L (W xff xff xff xff xc0 x00 x00 x00)) E))
(T (W x00 x00 x00 x00 x00 x00 x00 x00)
(T (W x00 x00 x80 x3f x00 x00 x80 x3f)
(L (W x45 x44 x00 x00 x00 x00 x00 x00))
(L (W x30 x32 x5f x43 x4c x45 x41 x52)))
(T (W x34 x00 x38 x00 x3c x00 x40 x00)
(L (W xff xff xff xff xff xff xff xff)) E)))
(T (W x00 x00 x00 x00 x00 x00 x00 x00)
(T (W x00 x00 x00 x00 x00 x00 x00 x00)
(T (W x45 x26 x22 x84 xe4 x9c xf2 xcb)
(L (W x00 x00 x80 xbf x00 x00 x80 xbf))
(L (W x54 x00 x00 x00 x48 x00 x00 x00)))
(T (W x45 x26 x22 x84 xe4 x9c xf2 xcb)
(L (W x46 x53 x59 x53 x5f x4e x53 x5f)) E))
(T (W xff xff xff xff xff xff xff xff)
(T (W x45 x26 x22 x84 xe4 x9c xf2 xcb)
(L (W xff xff xff xff xff xff xff xff)) E)
(T (W x00 x00 x80 xbf x00 x00 x80 xbf)
(L (W x00 x00 x00 x00 x00 x00 x00 x00)) E))))
(T (W x00 x00 x80 x3f x00 x00 x80 x3f)
(T (W xff xff xff xff x04 x00 x00 x00)
(T (W x00 x00 x00 x00 x00 x00 x00 x00)
(T (W x00 x00 x00 x00 x00 x00 x00 x00)
(L (W x00 x00 x80 xbf x00 x00 x80 xbf))
(L (W x00 x00 x80 xbf x00 x00 x80 xbf)))
(T (W xff xff xff xff xff xff xff xff)
(L (W x00 x00 x00 x00 xaa x96 xfe xff)) E))
(T (W x00 x00 x00 x00 x00 x00 x00 x00)
(T (W xff xff xff xff xff xff xff xff)
(L (W x54 x00 x00 x00 x48 x00 x00 x00)) E)
(T (W x00 x00 x80 xbf x00 x00 x80 xbf)
(L (W x00 x00 x00 x00 x00 x00 x00 x00)) E)))
(T (W x00 x00 x00 x00 x00 x00 x00 x00)
(T (W x00 x00 x00 x00 x00 x00 x00 x00)
(T (W x00 x00 x00 x00 x00 x00 x00 x00)
(L (W x00 x00 x80 xbf x00 x00 x80 xbf))
(L (W xb0 x00 x00 x00 x64 x00 x00 x00)))
(T (W x00 x00 x00 x00 x6a xd8 xfc xff)
(L (W x00 x00 x80 xbf x00 x00 x80 xbf)) E))
(T (W x00 x00 x00 x00 x00 x00 x00 x00)
(T (W x18 x00 x00 x00 x10 x00 x00 x00)
(L (W x45 x26 x22 x84 xe4 x9c xf2 xcb)) E)
(T (W x46 x53 x59 x53 x5f x4e x53 x5f)
(L (W x19 x00 x00 x00 x1c x00 x00 x00)) E)))))
(T (W xff xff xff xff xff xff xff xff)
(T (W x00 x00 x00 x00 x00 x00 x00 x00)
(T (W x50 x00 x00 x00 x44 x00 x00 x00)
(T (W x64 x00 x00 x00 x9c x00 x00 x00)
(T (W xff xff xff xff x9c x00 x00 x00)
(L (W x00 x00 x00 x00 x00 x00 x00 x00))
(L (W x00 x00 x00 x00 x00 x00 x00 x00)))
(T (W x00 x00 x00 x00 x00 x00 x00 x00)
(L (W xff xff xff xff xff xff xff xff)) E))
(T (W x00 x00 x80 x3f x00 x00 x80 x3f)
(T (W x7a x07 xfc xff x78 x00 x00 x00)
(L (W x00 x00 x00 x00 x00 x00 x00 x00)) E)
(T (W x00 x01 x01 x01 x1a x00 x00 x00)
(L (W x00 x00 x01 x01 x2a x00 x00 x00)) E)))
(T (W x00 x00 x00 x00 x00 x00 x00 x00)
(T (W x00 x00 x00 x00 x00 x00 x00 x00)
(T (W xb0 x00 x00 x00 x64 x00 x00 x00)
(L (W x00 x00 x80 xbf x00 x00 x80 xbf))
(L (W x00 x00 x00 x00 x0c xc9 xff xff)))
(T (W x38 x00 x3c x00 x40 x00 x44 x00)
(L (W x00 x00 x80 xbf x00 x00 x80 xbf)) E))
(T (W x00 x00 x80 x3f x00 x00 x80 x3f)
(T (W xca x45 xfc xff x74 x00 x00 x00)
(L (W xff xff xff xff xff xff xff xff)) E)
(T (W x45 x26 x22 x84 xe4 x9c xf2 xcb)
(L (W x6c x00 x00 x00 x60 x00 x00 x00)) E))))
(T (W x45 x26 x22 x84 xe4 x9c xf2 xcb)
(T (W x00 x00 x00 x00 x00 x00 x00 x00)
(T (W x00 x00 x80 x3f x00 x00 x80 x3f)
(T (W xff xff xff xff xff xff xff xff)
(L (W x00 x00 x80 xbf x00 x00 x80 xbf))
(L (W x00 x00 x80 xbf x00 x00 x80 xbf)))
(T (W x00 x00 x80 x3f x00 x00 x80 x3f)
(L (W x00 x00 x00 x00 x00 x00 x00 x00)) E))
(T (W x00 x00 x80 x3f x00 x00 x80 x3f)
(T (W x32 x3a xff xff x00 x00 x01 x01)
(L (W xc4 x00 x00 x00 x02 x00 x00 x00)) E)
(T (W x00 x00 x00 x00 x00 x00 x00 x00)
(L (W x00 x00 x00 x00 x00 x00 x00 x00)) E)))
(T (W xff xff xff xff xff xff xff xff)
(T (W x00 x00 x00 x00 x00 x00 x00 x00)
(T (W x46 x53 x59 x53 x5f x4e x53 x5f)
(L (W x00 x00 x00 x00 xfa xec xfd xff))
(L (W xff xff xff xff xff xff xff xff)))
(T (W x12 x00 x00 x00 x46 x53 x59 x53)
(L (W x45 x26 x22 x84 xe4 x9c xf2 xcb)) E))
(T (W xd4 x00 x00 x00 xc8 x00 x00 x00)
(T (W x00 x00 x80 x3f x00 x00 x80 x3f)
(L (W x00 x00 x80 xbf x00 x00 x80 xbf)) E)
(T (W x00 x00 x80 xbf x00 x00 x80 xbf)
(L (W xff xff xff xff xff xff xff xff)) E))))))
(T (W x00 x00 x00 x00 x00 x00 x00 x00)
(T (W x00 x00 x80 x3f x00 x00 x80 x3f)
(T (W x01 x00 x00 x00 xa0 x00 x00 x00)
(T (W x00 x00 x80 x3f x00 x00 x80 x3f)
(T (W xff xff xff xff xff xff xff xff)
(T (W x54 x00 x00 x00 x48 x00 x00 x00)
(L (W x49 xa1 x68 x4a xeb x5f xdd x3d))
(L (W x00 x00 x00 x00 x00 x00 x00 x00)))
(T (W x00 x00 x00 x00 x00 x00 x00 x00)
(L (W xff xff xff xff xff xff xff xff)) E))
(T (W xff xff xff xff x01 x00 x00 x00)
(T (W x68 x00 x00 x00 x5c x00 x00 x00)
(L (W x00 x00 x00 x00 x00 x00 x00 x00))
(L (W x00 x00 x01 x01 x8f x01 x00 x00)))
(T (W x00 x00 x00 x00 x00 x00 x00 x00)
(L (W xff xff xff xff xff xff xff xff)) E)))
(T (W x40 x00 x00 x00 x0c x00 x00 x00)
(T (W x00 x00 x00 x00 x00 x00 x00 x00)
(T (W x9c xc2 xfb xff x00 x01 x01 x01)
(L (W x00 x00 x00 x00 x00 x00 x00 x00))
(L (W x7a xbf xff xff x78 x00 x00 x00)))
(T (W x00 x00 x00 x00 x00 x00 x00 x00)
(L (W x00 x00 x00 x00 x00 x00 x00 x00)) E))
(T (W x30 x32 x5f x43 x4c x45 x41 x52)
(T (W x00 x00 x80 x3f x00 x00 x80 x3f)
(L (W xff xff xff xff xff xff xff xff)) E)
(T (W x9c x42 xfd xff x00 x01 x01 x01)
(L (W x00 x00 x80 xbf x00 x00 x80 xbf)) E))))
(T (W x54 x00 x00 x00 x48 x00 x00 x00)
(T (W x00 x00 x00 x00 x00 x00 x00 x00)
(T (W x00 x00 x80 x3f x00 x00 x80 x3f)
(T (W x45 x26 x22 x84 xe4 x9c xf2 xcb)
(L (W x00 x00 x80 xbf x00 x00 x80 xbf))
(L (W x44 x00 x00 x00 x00 x00 x80 xbf)))
(T (W x00 x00 x00 x00 x00 x00 x00 x00)
(L (W xff xff xff xff xff xff xff xff)) E))
(T (W x00 x00 x00 x00 x00 x00 x00 x00)
(T (W xff xff xff xff xff xff xff xff)
(L (W x18 x00 x00 x00 x10 x00 x00 x00)) E)
(T (W x00 x00 x00 x00 xfa x7d xfd xff)
(L (W x4f x84 x6f x8b xe8 xcb x63 xb7)) E)))
(T (W x00 x00 x00 x00 x04 x00 x00 x00)
(T (W x00 x00 x00 x00 x00 x00 x00 x00)
(T (W x00 x00 x00 x00 x00 x00 x00 x00)
(L (W xff xff xff xff xb0 x00 x00 x00))
(L (W xff xff xff xff xff xff xff xff)))
(T (W x30 x32 x5f x43 x4c x45 x41 x52)
(L (W x00 x00 x80 xbf x00 x00 x80 xbf)) E))
(T (W x00 x00 x80 x3f x00 x00 x80 x3f)
(T (W xff xff xff xff xff xff xff xff)
(L (W x00 x00 x80 xbf x00 x00 x80 xbf)) E)
(T (W x00 x00 x00 x00 x00 x00 x00 x00)
(L (W x03 x00 x00 x00 xd8 x00 x00 x00)) E)))))
(T (W x54 x00 x00 x00 x48 x00 x00 x00)
(T (W xff xff xff xff xff xff xff xff)
(T (W xc0 x00 x00 x00 xb4 x00 x00 x00)
(T (W xff xff xff xff x03 x00 x00 x00)
(T (W xff xff xff xff xff xff xff xff)
(L (W x00 x00 x00 x00 x00 x00 x00 x00))
(L (W x00 x00 x80 xbf x00 x00 x80 xbf)))
(T (W x00 x00 x00 x00 x02 x00 x00 x00)
(L (W xff xff xff xff xff xff xff xff)) E))
(T (W x00 x00 x80 x3f x00 x00 x80 x3f)
(T (W x18 x00 x00 x00 x10 x00 x00 x00)
(L (W x00 x00 x80 xbf x00 x00 x80 xbf)) E)
(T (W x03 x00 x00 x00 xbc x00 x00 x00)
(L (W xff xff xff xff xff xff xff xff)) E)))
(T (W x00 x00 x00 x00 x00 x00 x00 x00)
(T (W x00 x00 x00 x00 x00 x00 x00 x00)
(T (W xff xff xff xff xff xff xff xff)
(L (W x6c x00 x00 x00 x60 x00 x00 x00))
(L (W xff xff xff xff xb0 x00 x00 x00)))
(T (W xff xff xff xff xd8 x00 x00 x00)
(L (W x54 x00 x00 x00 x48 x00 x00 x00)) E))
(T (W xff xff xff xff xff xff xff xff)
(T (W x18 x00 x00 x00 x0c x00 x00 x00)
(L (W x00 x00 x00 x00 x12 x00 x00 x00)) E)
(T (W xff xff xff xff xff xff xff xff)
(L (W x9c x52 xff xff x00 x01 x01 x01)) E))))
(T (W x50 x00 x00 x00 x44 x00 x00 x00)
(T (W x45 x26 x22 x84 xe4 x9c xf2 xcb)
(T (W x45 x26 x22 x84 xe4 x9c xf2 xcb)
(T (W x32 xf1 xfd xff x9c x01 x00 x00)
(L (W xff xff xff xff xff xff xff xff))
(L (W x6c x00 x00 x00 x60 x00 x00 x00)))
(T (W x00 x00 x80 x3f x00 x00 x80 x3f)
(L (W x00 x00 x00 x00 x6a xb0 xfe xff)) E))
(T (W xff xff xff xff xff xff xff xff)
(T (W x30 x32 x5f x43 x4c x45 x41 x52)
(L (W xff xff xff xff xff xff xff xff)) E)
(T (W x00 x00 x00 x00 x00 x00 x00 x00)
(L (W x00 x00 x00 x00 x00 x00 x00 x00)) E)))
(T (W xd9 x00 x00 x00 xff xff xff xff)
(T (W x34 x4b x04 xe9 x94 xdc x2e x70)
(T (W x45 x26 x22 x84 xe4 x9c xf2 xcb)
(L (W xf4 x06 x00 x00 xd8 x05 x00 x00))
(L (W x08 x00 x00 x00 x20 x08 x00 x00)))
(T (W x64 x00 x00 x00 x9c x00 x00 x00)
(L (W xff xff xff xff xff xff xff xff)) E))
(T (W x00 x00 x00 x00 xfa x74 xfb xff)
(T (W x00 x00 x00 x00 x00 x00 x00 x00)
(L (W x18 x00 x00 x00 x0c x00 x00 x00)) E)
(T (W x00 x00 x80 xbf x00 x00 x80 xbf)
(L (W x00 x00 x01 x01 x5c x00 x00 x00)) E)))))))
(T (W x00 x00 x00 x00 x00 x00 x00 x00)
(T (W xff xff xff xff xff xff xff xff)
(T (W x00 x00 x00 x00 x00 x00 x00 x00)
(T (W x00 x00 x80 x3f x00 x00 x80 x3f)
(T (W x00 x00 x00 x00 x00 x00 x00 x00)
(T (W x00 x00 x80 x3f x00 x00 x80 x3f)
(T (W xb0 x00 x00 x00 x64 x00 x00 x00)
(L (W xff xff xff xff xbc x00 x00 x00))
(L (W x54 x00 x00 x00 x48 x00 x00 x00)))
(T (W xff xff xff xff xff xff xff xff)
(L (W x00 x00 x00 x00 x00 x00 x00 x00)) E))
(T (W x00 x00 x00 x00 x00 x00 x00 x00)
(T (W xff xff xff xff xff xff xff xff)
(L (W xff xff xff xff xb0 x00 x00 x00))
(L (W x00 x00 x80 xbf x00 x00 x80 xbf)))
(T (W x6c x64 x5f x70 x6f x6b x65 x5f)
(L (W x00 x00 x00 x00 x00 x00 x00 x00)) E)))
(T (W xff xff xff xff x03 x00 x00 x00)
(T (W xff xff xff xff xff xff xff xff)
(T (W xa1 x01 x00 x00 xff xff xff xff)
(L (W x18 x00 x00 x00 x10 x00 x00 x00))
(L (W x46 x53 x59 x53 x5f x4e x53 x5f)))
(T (W xff xff xff xff xff xff xff xff)
(L (W xff xff xff xff xb0 x00 x00 x00)) E))
(T (W x00 x00 x80 x3f x00 x00 x80 x3f)
(T (W xff xff xff xff xff xff xff xff)
(L (W x00 x00 x80 xbf x00 x00 x80 xbf)) E)
(T (W x00 x00 x00 x00 xaa x3a xfd xff)
(L (W xff xff xff xff xff xff xff xff)) E))))
(T (W x04 x00 x00 x00 xba x77 xfd xff)
(T (W x00 x00 x00 x00 x00 x00 x00 x00)
(T (W xff xff xff xff xff xff xff xff)
(T (W xff xff xff xff xff xff xff xff)
(L (W xff xff xff xff xff xff xff xff))
(L (W x06 x00 x00 x00 x68 x06 x00 x00)))
(T (W x45 x26 x22 x84 xe4 x9c xf2 xcb)
(L (W x00 x00 x80 xbf x00 x00 x80 xbf)) E))
(T (W xff xff xff xff xff xff xff xff)
(T (W x45 x26 x22 x84 xe4 x9c xf2 xcb)
(L (W x08 x00 x00 x00 x20 x08 x00 x00)) E)
(T (W x50 x00 x00 x00 x44 x00 x00 x00)
(L (W xff xff xff xff xa0 x00 x00 x00)) E)))
(T (W x00 x00 x80 x3f x00 x00 x80 x3f)
(T (W x68 x00 x00 x00 x5c x00 x00 x00)
(T (W x18 x00 x00 x00 x0c x00 x00 x00)
(L (W x46 x53 x59 x53 x5f x4e x53 x5f))
(L (W x00 x00 x80 xbf x00 x00 x80 xbf)))
(T (W x18 x00 x00 x00 x10 x00 x00 x00)
(L (W x00 x00 x00 x00 x8a xe2 xfe xff)) E))
(T (W xff xff xff xff xff xff xff xff)
(T (W x4f x84 x6f x8b xe8 xcb x63 xb7)
(L (W xff xff xff xff xff xff xff xff)) E)
(T (W x21 x00 x00 x00 x24 x00 x00 x00)
(L (W x49 xa1 x68 x4a xeb x5f xdd x3d)) E)))))
(T (W x00 x00 x00 x00 x00 x00 x00 x00)
(T (W x6c x00 x00 x00 x60 x00 x00 x00)
(T (W xff xff xff xff xff xff xff xff)
(T (W x45 x26 x22 x84 xe4 x9c xf2 xcb)
(T (W x00 x00 x00 x00 x00 x00 x00 x00)
(L (W x03 x00 x00 x00 xcc x00 x00 x00))
(L (W xff xff xff xff xff xff xff xff)))
(T (W x9c x8e xfc xff x00 x01 x01 x01)
(L (W x00 x00 x80 xbf x00 x00 x80 xbf)) E))
(T (W xff xff xff xff xff xff xff xff)
(T (W x00 x00 x00 x00 x00 x00 x00 x00)
(L (W xff xff xff xff xff xff xff xff)) E)
(T (W xff xff xff xff x9c x00 x00 x00)
(L (W x00 x00 x80 xbf x00 x00 x80 xbf)) E)))
(T (W x45 x26 x22 x84 xe4 x9c xf2 xcb)
(T (W xff xff xff xff x04 x00 x00 x00)
(T (W x00 x00 x80 x3f x00 x00 x80 x3f)
(L (W xff xff xff xff xff xff xff xff))
(L (W x00 x00 x00 x00 x00 x00 x00 x00)))
(T (W xff xff xff xff xff xff xff xff)
(L (W xff xff xff xff xff xff xff xff)) E))
(T (W x00 x00 x00 x00 x00 x00 x00 x00)
(T (W x30 x32 x5f x43 x4c x45 x41 x52)
(L (W xff xff xff xff xa0 x00 x00 x00)) E)
(T (W x00 x00 x00 x00 x00 x00 x00 x00)
(L (W x46 x53 x59 x53 x5f x4e x53 x5f)) E))))
(T (W x00 x00 x01 x01 x25 x02 x00 x00)
(T (W x64 x00 x00 x00 x9c x00 x00 x00)
(T (W xff xff xff xff xff xff xff xff)
(T (W x45 x26 x22 x84 xe4 x9c xf2 xcb)
(L (W xb0 x00 x00 x00 x64 x00 x00 x00))
(L (W x5c x00 x00 x00 xff xff xff xff)))
(T (W x32 xbe xff xff x00 x00 x01 x01)
(L (W x9c xae xfe xff x00 x01 x01 x01)) E))
(T (W xcc x32 xfb xff x15 x00 x00 x00)
(T (W x00 x00 x80 x3f x00 x00 x80 x3f)
(L (W x00 x00 x00 x00 x00 x00 x00 x00)) E)
(T (W xff xff xff xff xa0 x00 x00 x00)
(L (W xff xff xff xff xff xff xff xff)) E)))
(T (W x00 x00 x80 x3f x00 x00 x80 x3f)
(T (W x50 x00 x00 x00 x44 x00 x00 x00)
(T (W x01 x00 x00 x00 xb0 x00 x00 x00)
(L (W x00 x00 x80 xbf x00 x00 x80 xbf))
(L (W x00 x00 x80 xbf x00 x00 x80 xbf)))
(T (W x18 x00 x00 x00 x0c x00 x00 x00)
(L (W x45 x26 x22 x84 xe4 x9c xf2 xcb)) E))
(T (W x45 x26 x22 x84 xe4 x9c xf2 xcb)
(T (W xff xff xff xff xff xff xff xff)
(L (W x00 x00 x00 x00 x12 x00 x00 x00)) E)
(T (W xff xff xff xff xff xff xff xff)
(L (W x49 xa1 x68 x4a xeb x5f xdd x3d)) E))))))
(T (W x54 x00 x00 x00 x48 x00 x00 x00)
(T (W x18 x00 x00 x00 x0c x00 x00 x00)
(T (W xff xff xff xff x09 x00 x00 x00)
(T (W x00 x00 x00 x00 x02 x00 x00 x00)
(T (W x45 x26 x22 x84 xe4 x9c xf2 xcb)
(T (W xff xff xff xff xff xff xff xff)
(L (W x18 x00 x00 x00 x0c x00 x00 x00))
(L (W x00 x00 x00 x00 x0c x85 xff xff)))
(T (W x45 x26 x22 x84 xe4 x9c xf2 xcb)
(L (W x00 x00 x00 x00 x00 x00 x00 x00)) E))
(T (W xff xff xff xff x03 x00 x00 x00)
(T (W x45 x44 x00 x00 x00 x00 x00 x00)
(L (W xff xff xff xff xff xff xff xff)) E)
(T (W x67 x72 x6f x75 x70 x5f x77 x69)
(L (W x00 x00 x80 xbf x00 x00 x80 xbf)) E)))
(T (W x00 x00 x00 x00 x0c x45 xfa xff)
(T (W xb8 x00 x00 x00 xac x00 x00 x00)
(T (W x00 x00 x00 x00 x00 x00 x00 x00)
(L (W xff xff xff xff xff xff xff xff))
(L (W x00 x00 x00 x00 x00 x00 x00 x00)))
(T (W xca xc1 xfc xff x74 x00 x00 x00)
(L (W xff xff xff xff xff xff xff xff)) E))
(T (W xff xff xff xff xff xff xff xff)
(T (W x4a x00 x00 x00 xff xff xff xff)
(L (W x54 x00 x00 x00 x48 x00 x00 x00)) E)
(T (W x00 x00 x00 x00 x00 x00 x00 x00)
(L (W x00 x00 x00 x00 x8a x4a xff xff)) E))))
(T (W x01 x00 x00 x00 x04 x00 x00 x00)
(T (W xff xff xff xff xff xff xff xff)
(T (W xff xff xff xff xff xff xff xff)
(T (W x00 x00 x00 x00 x00 x00 x00 x00)
(L (W x00 x00 x00 x00 x00 x00 x00 x00))
(L (W x18 x00 x00 x00 x0c x00 x00 x00)))
(T (W xff xff xff xff xff xff xff xff)
(L (W x45 x26 x22 x84 xe4 x9c xf2 xcb)) E))
(T (W xff xff xff xff xff xff xff xff)
(T (W x00 x00 x80 x3f x00 x00 x80 x3f)
(L (W x30 x32 x5f x43 x4c x45 x41 x52)) E)
(T (W x6c x00 x00 x00 x60 x00 x00 x00)
(L (W xff xff xff xff xb0 x00 x00 x00)) E)))
(T (W x00 x00 x80 x3f x00 x00 x80 x3f)
(T (W x00 x00 x80 x3f x00 x00 x80 x3f)
(T (W xca xe1 xfb xff x74 x00 x00 x00)
(L (W x00 x00 x00 x00 x00 x00 x00 x00))
(L (W x00 x00 x80 xbf x00 x00 x80 xbf)))
(T (W x00 x00 x00 x00 x00 x00 x00 x00)
(L (W x00 x00 x00 x00 x12 x00 x00 x00)) E))
(T (W x00 x00 x00 x00 x12 x00 x00 x00)
(T (W x00 x00 x00 x00 x00 x00 x00 x00)
(L (W x04 x00 x00 x00 x8a x6a xfe xff)) E)
(T (W xff xff xff xff xbc x00 x00 x00)
(L (W x00 x00 x00 x00 x00 x00 x00 x00)) E)))))
(T (W xff xff xff xff xff xff xff xff)
(T (W x00 x00 x00 x00 x00 x00 x00 x00)
(T (W x00 x00 x00 x00 x00 x00 x00 x00)
(T (W x00 x00 x00 x00 x00 x00 x00 x00)
(T (W x00 x00 x80 x3f x00 x00 x80 x3f)
(L (W xff xff xff xff xff xff xff xff))
(L (W xff xff xff xff xff xff xff xff)))
(T (W x00 x00 x80 x3f x00 x00 x80 x3f)
(L (W x00 x00 x80 xbf x00 x00 x80 xbf)) E))
(T (W x00 x00 x00 x00 x00 x00 x00 x00)
(T (W x00 x00 x00 x00 x00 x00 x00 x00)
(L (W x00 x00 x00 x00 x00 x00 x00 x00)) E)
(T (W x00 x00 x80 xbf x00 x00 x80 xbf)
(L (W xff xff xff xff xb0 x00 x00 x00)) E)))
(T (W x50 x00 x00 x00 x44 x00 x00 x00)
(T (W x45 x26 x22 x84 xe4 x9c xf2 xcb)
(T (W x00 x00 x80 x3f x00 x00 x80 x3f)
(L (W x00 x00 x00 x00 x8a xda xfd xff))
(L (W x45 x26 x22 x84 xe4 x9c xf2 xcb)))
(T (W x6c x00 x00 x00 x60 x00 x00 x00)
(L (W x00 x00 x01 x01 x5c x00 x00 x00)) E))
(T (W x00 x00 x80 x3f x00 x00 x80 x3f)
(T (W x00 x00 x00 x00 x00 x00 x00 x00)
(L (W xff xff xff xff xff xff xff xff)) E)
(T (W x7a x53 xfd xff x78 x00 x00 x00)
(L (W x00 x00 x00 x00 x00 x00 x00 x00)) E))))
(T (W xff xff xff xff xff xff xff xff)
(T (W x9c x36 xfa xff x00 x01 x01 x01)
(T (W xff xff xff xff xff xff xff xff)
(T (W x01 x00 x00 x00 xac x00 x00 x00)
(L (W x00 x00 x00 x00 x00 x00 x00 x00))
(L (W xff xff xff xff xff xff xff xff)))
(T (W xff xff xff xff xff xff xff xff)
(L (W x18 x00 x00 x00 x10 x00 x00 x00)) E))
(T (W x00 x00 x80 x3f x00 x00 x80 x3f)
(T (W xff xff xff xff xff xff xff xff)
(L (W x4f x84 x6f x8b xe8 xcb x63 xb7)) E)
(T (W xff xff xff xff xff xff xff xff)
(L (W xff xff xff xff xff xff xff xff)) E)))
(T (W x00 x00 x80 x3f x00 x00 x80 x3f)
(T (W xff xff xff xff xff xff xff xff)
(T (W x21 x00 x00 x00 x24 x00 x00 x00)
(L (W x45 x26 x22 x84 xe4 x9c xf2 xcb))
(L (W x18 x00 x00 x00 x10 x00 x00 x00)))
(T (W x00 x00 x00 x00 x00 x00 x00 x00)
(L (W x00 x00 x00 x00 x00 x00 x00 x00)) E))
(T (W x54 x00 x00 x00 x48 x00 x00 x00)
(T (W x18 x00 x00 x00 x10 x00 x00 x00)
(L (W x00 x00 x00 x00 x00 x00 x00 x00)) E)
(T (W xff xff xff xff xff xff xff xff)
(L (W x00 x00 x80 xbf x00 x00 x80 xbf)) E))))))))
(T (W x45 x26 x22 x84 xe4 x9c xf2 xcb)
(T (W xff xff xff xff x17 x00 x00 x00)
(T (W x18 x00 x00 x00 x0c x00 x00 x00)
(T (W x00 x00 x00 x00 xba x35 xfd xff)
(T (W x00 x00 x00 x00 x00 x00 x00 x00)
(T (W xff xff xff xff xff xff xff xff)
(T (W x00 x00 x00 x00 x00 x00 x00 x00)
(T (W x00 x00 x80 x3f x00 x00 x80 x3f)
(L (W x6c x00 x00 x00 x60 x00 x00 x00))
(L (W x49 xa1 x68 x4a xeb x5f xdd x3d)))
(T (W x9c x7c xfc xff x00 x01 x01 x01)
(L (W x4b x00 x00 x00 xff xff xff xff)) E))
(T (W x00 x00 x00 x00 x02 x00 x00 x00)
(T (W xd4 x00 x00 x00 xc8 x00 x00 x00)
(L (W x00 x00 x80 xbf x00 x00 x80 xbf))
(L (W xff xff xff xff xff xff xff xff)))
(T (W xff xff xff xff xff xff xff xff)
(L (W x00 x00 x00 x00 x00 x00 x00 x00)) E)))
(T (W x00 x00 x80 x3f x00 x00 x80 x3f)
(T (W x7a xb9 xfa xff x78 x00 x00 x00)
(T (W x00 x00 x00 x00 x0c xbb xfb xff)
(L (W x68 x00 x00 x00 x5c x00 x00 x00))
(L (W xb0 x00 x00 x00 x64 x00 x00 x00)))
(T (W x68 x00 x00 x00 x5c x00 x00 x00)
(L (W x00 x00 x80 xbf x00 x00 x80 xbf)) E))
(T (W x00 x00 x00 x00 x00 x00 x00 x00)
(T (W xff xff xff xff x9c x00 x00 x00)
(L (W x00 x00 x00 x00 x00 x00 x00 x00)) E)
(T (W xff xff xff xff x9c x00 x00 x00)
(L (W x50 x00 x00 x00 x44 x00 x00 x00)) E))))
(T (W x45 x26 x22 x84 xe4 x9c xf2 xcb)
(T (W x40 x00 x00 x00 x10 x00 x00 x00)
(T (W x18 x00 x00 x00 x0c x00 x00 x00)
(T (W x00 x00 x80 x3f x00 x00 x80 x3f)
(L (W x45 x26 x22 x84 xe4 x9c xf2 xcb))
(L (W x17 x00 x00 x00 x1a x00 x00 x00)))
(T (W x00 x00 x00 x00 x00 x00 x00 x00)
(L (W x00 x00 x00 x00 x00 x00 x00 x00)) E))
(T (W x00 x00 x80 x3f x00 x00 x80 x3f)
(T (W x00 x00 x00 x00 x00 x00 x00 x00)
(L (W x03 x00 x00 x00 xd0 x00 x00 x00)) E)
(T (W x4c x00 x50 x00 x54 x00 x07 x00)
(L (W x00 x00 x80 xbf x00 x00 x80 xbf)) E)))
(T (W x00 x00 x00 x00 x00 x00 x00 x00)
(T (W x00 x00 x80 x3f x00 x00 x80 x3f)
(T (W x00 x00 x00 x00 x00 x00 x00 x00)
(L (W xff xff xff xff xff xff xff xff))
(L (W x46 x53 x59 x53 x5f x4e x53 x5f)))
(T (W x00 x00 x00 x00 x00 x00 x00 x00)
(L (W xff xff xff xff xff xff xff xff)) E))
(T (W x00 x00 x80 x3f x00 x00 x80 x3f)
(T (W xff xff xff xff xff xff xff xff)
(L (W x6c x00 x00 x00 x60 x00 x00 x00)) E)
(T (W x00 x00 x80 xbf x00 x00 x80 xbf)
(L (W xff xff xff xff xff xff xff xff)) E)))))
(T (W x00 x00 x00 x00 x00 x00 x00 x00)
(T (W x00 x00 x80 x3f x00 x00 x80 x3f)
(T (W x00 x00 x00 x00 x0c x0b xfa xff)
(T (W x01 x00 x00 x00 x04 x00 x00 x00)
(T (W xff xff xff xff xff xff xff xff)
(L (W x00 x00 x80 xbf x00 x00 x80 xbf))
(L (W x00 x00 x80 xbf x00 x00 x80 xbf)))
(T (W x00 x00 x80 x3f x00 x00 x80 x3f)
(L (W x00 x00 x00 x00 x00 x00 x00 x00)) E))
(T (W xca x07 xfb xff x74 x00 x00 x00)
(T (W xff xff xff xff xff xff xff xff)
(L (W x18 x00 x00 x00 x0c x00 x00 x00)) E)
(T (W x45 x26 x22 x84 xe4 x9c xf2 xcb)
(L (W x00 x00 x00 x00 x00 x00 x00 x00)) E)))
(T (W x00 x00 x00 x00 x00 x00 x00 x00)
(T (W x00 x00 x80 x3f x00 x00 x80 x3f)
(T (W xff xff xff xff xff xff xff xff)
(L (W x45 x26 x22 x84 xe4 x9c xf2 xcb))
(L (W x00 x00 x00 x00 x00 x00 x00 x00)))
(T (W x0b x00 x78 x00 x00 x00 x00 x00)
(L (W xff xff xff xff xb0 x00 x00 x00)) E))
(T (W xff xff xff xff xff xff xff xff)
(T (W xff xff xff xff xbc x00 x00 x00)
(L (W x00 x00 x00 x00 x00 x00 x00 x00)) E)
(T (W xff xff xff xff xff xff xff xff)
(L (W xff xff xff xff xbc x00 x00 x00)) E))))
(T (W xff xff xff xff xff xff xff xff)
(T (W x00 x00 x80 x3f x00 x00 x80 x3f)
(T (W x01 x00 x00 x00 x3e x00 x00 x00)
(T (W xa9 xd3 x3b x67 xfe xec x4e x63)
(L (W x00 x00 x00 x00 x0c xab xfd xff))
(L (W xff xff xff xff xc8 x00 x00 x00)))
(T (W xff xff xff xff xff xff xff xff)
(L (W x00 x00 x00 x00 x00 x00 x00 x00)) E))
(T (W xff xff xff xff xff xff xff xff)
(T (W x00 x00 x00 x00 x00 x00 x00 x00)
(L (W xff xff xff xff xff xff xff xff)) E)
(T (W x00 x00 x80 xbf x00 x00 x80 xbf)
(L (W x00 x00 x80 xbf x00 x00 x80 xbf)) E)))
(T (W x45 x26 x22 x84 xe4 x9c xf2 xcb)
(T (W x00 x00 x80 x3f x00 x00 x80 x3f)
(T (W x00 x00 x80 x3f x00 x00 x80 x3f)
(L (W x00 x00 x00 x00 x00 x00 x00 x00))
(L (W x46 x53 x59 x53 x5f x4e x53 x5f)))
(T (W x00 x00 x80 x3f x00 x00 x80 x3f)
(L (W x54 x02 x00 x00 x38 x01 x00 x00)) E))
(T (W x6b x65 x5f x77 x61 x72 x6c x69)
(T (W x45 x26 x22 x84 xe4 x9c xf2 xcb)
(L (W xb8 x00 x00 x00 x64 x00 x00 x00)) E)
(T (W x21 x00 x00 x00 x24 x00 x00 x00)
(L (W x45 x44 x00 x00 x00 x00 x00 x00)) E))))))
(T (W x00 x00 x80 x3f x00 x00 x80 x3f)
(T (W x54 x00 x00 x00 x48 x00 x00 x00)
(T (W xff xff xff xff xff xff xff xff)
(T (W x64 x00 x00 x00 x9c x00 x00 x00)
(T (W xcc x88 xfa xff x3e x00 x00 x00)
(T (W xcc x00 x00 x00 xc0 x00 x00 x00)
(L (W x0c x20 x00 x00 xdc x1e x00 x00))
(L (W x00 x00 x80 xbf x00 x00 x80 xbf)))
(T (W x00 x00 x80 x3f x00 x00 x80 x3f)
(L (W x00 x00 x01 x01 xc5 x01 x00 x00)) E))
(T (W x00 x00 x00 x00 x00 x00 x00 x00)
(T (W xb0 x00 x00 x00 x64 x00 x00 x00)
(L (W x00 x00 x00 x00 x0c x03 xfe xff))
(L (W xff xff xff xff xec x00 x00 x00)))
(T (W xa4 x00 x00 x00 x64 x00 x00 x00)
(L (W x46 x53 x59 x53 x5f x4e x53 x5f)) E)))
(T (W x00 x00 x80 x3f x00 x00 x80 x3f)
(T (W x00 x00 x80 x3f x00 x00 x80 x3f)
(T (W xff xff xff xff xff xff xff xff)
(L (W xff xff xff xff xb0 x00 x00 x00))
(L (W xff xff xff xff xff xff xff xff)))
(T (W x00 x00 x80 x3f x00 x00 x80 x3f)
(L (W x00 x00 x80 xbf x00 x00 x80 xbf)) E))
(T (W x7a x41 xfb xff x78 x00 x00 x00)
(T (W xff xff xff xff x03 x00 x00 x00)
(L (W x4f x84 x6f x8b xe8 xcb x63 xb7)) E)
(T (W xff xff xff xff xff xff xff xff)
(L (W xff xff xff xff xff xff xff xff)) E))))
(T (W x18 x00 x00 x00 x10 x00 x00 x00)
(T (W x00 x00 x80 x3f x00 x00 x80 x3f)
(T (W x23 x00 x00 x00 x9c x00 x00 x00)
(T (W xff xff xff xff xbc x00 x00 x00)
(L (W x00 x00 x00 x00 x00 x00 x00 x00))
(L (W x00 x00 x00 x00 x00 x00 x00 x00)))
(T (W x00 x00 x00 x00 x0c xa3 xfc xff)
(L (W x00 x00 x00 x00 x00 x00 x00 x00)) E))
(T (W x45 x26 x22 x84 xe4 x9c xf2 xcb)
(T (W x00 x00 x00 x00 x00 x00 x00 x00)
(L (W xff xff xff xff xff xff xff xff)) E)
(T (W x00 x00 x00 x00 x00 x00 x00 x00)
(L (W x00 x00 x80 xbf x00 x00 x80 xbf)) E)))
(T (W x00 x00 x00 x00 x00 x00 x00 x00)
(T (W x00 x00 x80 x3f x00 x00 x80 x3f)
(T (W x4f x84 x6f x8b xe8 xcb x63 xb7)
(L (W xff xff xff xff xff xff xff xff))
(L (W x18 x00 x00 x00 x0c x00 x00 x00)))
(T (W x1c x00 x00 x00 xac x00 x00 x00)
(L (W xff xff xff xff xff xff xff xff)) E))
(T (W xff xff xff xff xff xff xff xff)
(T (W x18 x01 x00 x00 x04 x00 x00 x00)
(L (W x45 x26 x22 x84 xe4 x9c xf2 xcb)) E)
(T (W x6c x00 x00 x00 x60 x00 x00 x00)
(L (W x00 x00 x01 x01 x4a x00 x00 x00)) E)))))
(T (W x18 x00 x00 x00 x10 x00 x00 x00)
(T (W xc9 x00 x00 x00 xff xff xff xff)
(T (W x6b x65 x5f x77 x61 x72 x6c x69)
(T (W xff xff xff xff x01 x00 x00 x00)
(T (W x00 x00 x00 x00 x00 x00 x00 x00)
(L (W x68 x00 x00 x00 x5c x00 x00 x00))
(L (W x45 x26 x22 x84 xe4 x9c xf2 xcb)))
(T (W x00 x00 x00 x00 x00 x00 x00 x00)
(L (W x00 x00 x00 x00 x00 x00 x00 x00)) E))
(T (W xff xff xff xff xff xff xff xff)
(T (W x00 x00 x00 x00 x00 x00 x00 x00)
(L (W x00 x00 x00 x00 x0c x13 xfe xff)) E)
(T (W xcc x18 xfd xff x2b x00 x00 x00)
(L (W x00 x00 x80 xbf x00 x00 x80 xbf)) E)))
(T (W x00 x00 x00 x00 x00 x00 x00 x00)
(T (W x45 x26 x22 x84 xe4 x9c xf2 xcb)
(T (W x00 x00 x00 x00 x00 x00 x00 x00)
(L (W xff xff xff xff xff xff xff xff))
(L (W x54 x02 x00 x00 x38 x01 x00 x00)))
(T (W x46 x53 x59 x53 x5f x4e x53 x5f)
(L (W x03 x00 x00 x00 xd8 x00 x00 x00)) E))
(T (W x00 x00 x00 x00 x00 x00 x00 x00)
(T (W xff xff xff xff xff xff xff xff)
(L (W x00 x00 x80 xbf x00 x00 x80 xbf)) E)
(T (W x00 x00 x00 x00 x00 x00 x00 x00)
(L (W x00 x00 x01 x01 x2a x00 x00 x00)) E))))
(T (W xff xff xff xff xff xff xff xff)
(T (W x00 x00 x80 x3f x00 x00 x80 x3f)
(T (W x68 x00 x00 x00 x5c x00 x00 x00)
(T (W x00 x00 x80 x3f x00 x00 x80 x3f)
(L (W x00 x00 x00 x00 x00 x00 x00 x00))
(L (W xff xff xff xff xff xff xff xff)))
(T (W xca xaf xfc xff x74 x00 x00 x00)
(L (W x00 x00 x00 x00 x00 x00 x00 x00)) E))
(T (W xa4 x01 x00 x00 xff xff xff xff)
(T (W x00 x00 x80 x3f x00 x00 x80 x3f)
(L (W x00 x00 x00 x00 x00 x00 x00 x00)) E)
(T (W x6c x00 x00 x00 x60 x00 x00 x00)
(L (W x00 x00 x80 xbf x00 x00 x80 xbf)) E)))
(T (W x00 x00 x00 x00 x00 x00 x00 x00)
(T (W xca xef xfa xff x74 x00 x00 x00)
(T (W x00 x00 x80 x3f x00 x00 x80 x3f)
(L (W x00 x00 x80 xbf x00 x00 x80 xbf))
(L (W x00 x00 x80 xbf x00 x00 x80 xbf)))
(T (W xff xff xff xff xff xff xff xff)
(L (W x00 x00 x00 x00 x00 x00 x00 x00)) E))
(T (W x49 xa1 x68 x4a xeb x5f xdd x3d)
(T (W x00 x00 x80 x3f x00 x00 x80 x3f)
(L (W xff xff xff xff xff xff xff xff)) E)
(T (W x00 x00 x00 x00 x00 x00 x00 x00)
(L (W x00 x00 x00 x00 x00 x00 x00 x00)) E)))))))
(T (W x45 x26 x22 x84 xe4 x9c xf2 xcb)
(T (W x00 x00 x01 x01 xc9 x00 x00 x00)
(T (W x00 x00 x00 x00 x00 x00 x00 x00)
(T (W x6c x00 x00 x00 x60 x00 x00 x00)
(T (W x00 x00 x80 x3f x00 x00 x80 x3f)
(T (W xca x7b xfa xff x74 x00 x00 x00)
(T (W x5f x4e x53 x5f x30 x32 x5f x43)
(L (W x30 x32 x5f x43 x4c x45 x41 x52))
(L (W xff xff xff xff xff xff xff xff)))
(T (W x00 x00 x00 x00 x02 x00 x00 x00)
(L (W x7a x7d xfe xff x78 x00 x00 x00)) E))
(T (W xff xff xff xff xc8 x00 x00 x00)
(T (W x00 x00 x00 x00 x00 x00 x00 x00)
(L (W xff xff xff xff xff xff xff xff))
(L (W x30 x32 x5f x43 x4c x45 x41 x52)))
(T (W xb4 x00 x00 x00 x64 x00 x00 x00)
(L (W x00 x00 x80 xbf x00 x00 x80 xbf)) E)))
(T (W xff xff xff xff xff xff xff xff)
(T (W x32 xd0 xfd xff x00 x00 x01 x01)
(T (W x4f x84 x6f x8b xe8 xcb x63 xb7)
(L (W xff xff xff xff xff xff xff xff))
(L (W x00 x00 x80 xbf x00 x00 x80 xbf)))
(T (W x32 xd0 xff xff x00 x00 x01 x01)
(L (W x04 x00 x00 x00 x6a xbe xfe xff)) E))
(T (W xff xff xff xff xff xff xff xff)
(T (W x00 x00 x00 x00 x00 x00 x00 x00)
(L (W xff xff xff xff xa0 x00 x00 x00)) E)
(T (W x4f x84 x6f x8b xe8 xcb x63 xb7)
(L (W x46 x53 x59 x53 x5f x4e x53 x5f)) E))))
(T (W x00 x00 x00 x00 x00 x00 x00 x00)
(T (W xff xff xff xff xff xff xff xff)
(T (W x00 x00 x00 x00 x00 x00 x00 x00)
(T (W x14 x00 x00 x00 x10 x00 x00 x00)
(L (W x12 x00 x00 x00 x46 x53 x59 x53))
(L (W x45 x26 x22 x84 xe4 x9c xf2 xcb)))
(T (W x00 x00 x00 x00 x02 x00 x00 x00)
(L (W xff xff xff xff xff xff xff xff)) E))
(T (W x32 x30 xfe xff x00 x00 x01 x01)
(T (W xff xff xff xff x9c x00 x00 x00)
(L (W x00 x00 x80 xbf x00 x00 x80 xbf)) E)
(T (W xff xff xff xff xff xff xff xff)
(L (W xff xff xff xff xff xff xff xff)) E)))
(T (W xff xff xff xff xff xff xff xff)
(T (W xff xff xff xff xff xff xff xff)
(T (W xff xff xff xff xff xff xff xff)
(L (W x49 xa1 x68 x4a xeb x5f xdd x3d))
(L (W x7a xdd xff xff x78 x00 x00 x00)))
(T (W xff xff xff xff xff xff xff xff)
(L (W x45 x26 x22 x84 xe4 x9c xf2 xcb)) E))
(T (W x00 x00 x00 x00 x00 x00 x00 x00)
(T (W x00 x00 x80 x3f x00 x00 x80 x3f)
(L (W x00 x00 x00 x00 x00 x00 x00 x00)) E)
(T (W xff xff xff xff xff xff xff xff)
(L (W x6c x00 x00 x00 x60 x00 x00 x00)) E)))))
(T (W x00 x00 x80 x3f x00 x00 x80 x3f)
(T (W x64 x00 x00 x00 xa0 x00 x00 x00)
(T (W x00 x00 x00 x00 x00 x00 x00 x00)
(T (W x45 x26 x22 x84 xe4 x9c xf2 xcb)
(T (W x6c x00 x00 x00 x60 x00 x00 x00)
(L (W x82 xed xff xff x00 x00 x01 x01))
(L (W x18 x00 x00 x00 x0c x00 x00 x00)))
(T (W xff xff xff xff xff xff xff xff)
(L (W x18 x00 x00 x00 x0c x00 x00 x00)) E))
(T (W x46 x53 x59 x53 x5f x4e x53 x5f)
(T (W x00 x00 x80 x3f x00 x00 x80 x3f)
(L (W x00 x00 x00 x00 x00 x00 x00 x00)) E)
(T (W x05 x65 x6c x12 x83 xf5 x3a xc6)
(L (W x18 x00 x00 x00 x1b x00 x00 x00)) E)))
(T (W xff xff xff xff xff xff xff xff)
(T (W x20 x01 x00 x00 x04 x00 x00 x00)
(T (W x6c x00 x00 x00 x60 x00 x00 x00)
(L (W x30 x32 x5f x43 x4c x45 x41 x52))
(L (W x00 x00 x80 xbf x00 x00 x80 xbf)))
(T (W x6c x00 x00 x00 x60 x00 x00 x00)
(L (W x00 x00 x00 x00 x00 x00 x00 x00)) E))
(T (W x45 x26 x22 x84 xe4 x9c xf2 xcb)
(T (W x4f x84 x6f x8b xe8 xcb x63 xb7)
(L (W xff xff xff xff xff xff xff xff)) E)
(T (W x34 x00 x38 x00 x2a x00 x00 x00)
(L (W x00 x00 x80 xbf x00 x00 x80 xbf)) E))))
(T (W x00 x00 x00 x00 x00 x00 x00 x00)
(T (W xff xff xff xff xff xff xff xff)
(T (W x01 x00 x00 x00 x04 x00 x00 x00)
(T (W xff xff xff xff xa0 x00 x00 x00)
(L (W xff xff xff xff xff xff xff xff))
(L (W x00 x00 x00 x00 x12 x00 x00 x00)))
(T (W x00 x00 x00 x00 x00 x00 x00 x00)
(L (W xff xff xff xff xff xff xff xff)) E))
(T (W x00 x00 x80 x3f x00 x00 x80 x3f)
(T (W xff xff xff xff xff xff xff xff)
(L (W x45 x26 x22 x84 xe4 x9c xf2 xcb)) E)
(T (W xff xff xff xff xff xff xff xff)
(L (W x00 x00 x00 x00 xaa x2c xff xff)) E)))
(T (W x9c x70 xfa xff x00 x01 x01 x01)
(T (W xb8 x00 x00 x00 xac x00 x00 x00)
(T (W x74 x03 x00 x00 x4c x02 x00 x00)
(L (W xc4 x00 x00 x00 x02 x00 x00 x00))
(L (W xff xff xff xff xb0 x00 x00 x00)))
(T (W x44 x00 x48 x00 x4c x00 x50 x00)
(L (W x7a xed xfe xff x78 x00 x00 x00)) E))
(T (W x00 x00 x80 x3f x00 x00 x80 x3f)
(T (W xa9 x60 x2e x97 x85 x1c x59 x5f)
(L (W x00 x00 x80 xbf x00 x00 x80 xbf)) E)
(T (W x00 x00 x00 x00 x00 x00 x00 x00)
(L (W x03 x00 x00 x00 xd8 x00 x00 x00)) E))))))
(T (W x64 x00 x00 x00 xa0 x00 x00 x00)
(T (W xff xff xff xff xff xff xff xff)
(T (W x00 x00 x00 x00 x00 x00 x00 x00)
(T (W x00 x00 x00 x00 x00 x00 x00 x00)
(T (W x00 x00 x00 x00 x0c x87 xfa xff)
(T (W x00 x00 x00 x00 x00 x00 x00 x00)
(L (W xff xff xff xff xff xff xff xff))
(L (W x00 x00 x00 x00 xfa x8a xff xff)))
(T (W xff xff xff xff xff xff xff xff)
(L (W x7a x85 xfe xff x78 x00 x00 x00)) E))
(T (W x61 x64 x65 x72 x5f x77 x69 x6c)
(T (W x00 x00 x00 x00 x00 x00 x00 x00)
(L (W x00 x00 x00 x00 x00 x00 x00 x00)) E)
(T (W x24 xea xff xff x01 x01 x01 x01)
(L (W x9c x08 xff xff x00 x01 x01 x01)) E)))
(T (W xff xff xff xff xff xff xff xff)
(T (W x00 x00 x00 x00 x00 x00 x00 x00)
(T (W x68 x00 x00 x00 x5c x00 x00 x00)
(L (W x00 x00 x00 x00 x00 x00 x00 x00))
(L (W x00 x00 x80 xbf x00 x00 x80 xbf)))
(T (W x46 x00 x00 x00 x10 x00 x00 x00)
(L (W x00 x00 x00 x00 x00 x00 x00 x00)) E))
(T (W x00 x00 x00 x00 x00 x00 x00 x00)
(T (W x00 x00 x00 x00 x00 x00 x00 x00)
(L (W xcc x00 x00 x00 x01 x00 x00 x00)) E)
(T (W x00 x00 x80 xbf x00 x00 x80 xbf)
(L (W x45 x26 x22 x84 xe4 x9c xf2 xcb)) E))))
(T (W x45 x26 x22 x84 xe4 x9c xf2 xcb)
(T (W x00 x00 x00 x00 x04 x00 x00 x00)
(T (W x24 xb6 xfa xff x3c x00 x00 x00)
(T (W x00 x00 x80 x3f x00 x00 x80 x3f)
(L (W x00 x00 x80 xbf x00 x00 x80 xbf))
(L (W xff xff xff xff xff xff xff xff)))
(T (W x00 x00 x00 x00 x00 x00 x00 x00)
(L (W xff xff xff xff xff xff xff xff)) E))
(T (W x46 x53 x59 x53 x5f x4e x53 x5f)
(T (W xff xff xff xff xff xff xff xff)
(L (W x00 x00 x80 xbf x00 x00 x80 xbf)) E)
(T (W xff xff xff xff xff xff xff xff)
(L (W xff xff xff xff xff xff xff xff)) E)))
(T (W x64 x00 x00 x00 x9c x00 x00 x00)
(T (W xff xff xff xff xff xff xff xff)
(T (W xff xff xff xff xff xff xff xff)
(L (W x00 x00 x80 xbf x00 x00 x80 xbf))
(L (W x18 x00 x00 x00 x10 x00 x00 x00)))
(T (W xff xff xff xff xff xff xff xff)
(L (W x00 x00 x80 xbf x00 x00 x80 xbf)) E))
(T (W x00 x00 x80 x3f x00 x00 x80 x3f)
(T (W x54 x00 x00 x00 x00 x00 x00 x00)
(L (W x45 x26 x22 x84 xe4 x9c xf2 xcb)) E)
(T (W x00 x00 x00 x00 x00 x00 x00 x00)
(L (W x18 x00 x00 x00 x10 x00 x00 x00)) E)))))
(T (W x10 x00 x00 x00 xff xff xff xff)
(T (W x45 x26 x22 x84 xe4 x9c xf2 xcb)
(T (W x68 x00 x00 x00 x5c x00 x00 x00)
(T (W xff xff xff xff xff xff xff xff)
(T (W x18 x00 x00 x00 x10 x00 x00 x00)
(L (W x00 x00 x00 x00 x00 x00 x00 x00))
(L (W x00 x00 x00 x00 x00 x00 x00 x00)))
(T (W x45 x26 x22 x84 xe4 x9c xf2 xcb)
(L (W x45 x26 x22 x84 xe4 x9c xf2 xcb)) E))
(T (W xff xff xff xff xff xff xff xff)
(T (W x00 x00 x80 x3f x00 x00 x80 x3f)
(L (W x00 x00 x00 x00 x00 x00 x00 x00)) E)
(T (W x4c x00 x50 x00 x54 x00 x07 x00)
(L (W xff xff xff xff xff xff xff xff)) E)))
(T (W xff xff xff xff xff xff xff xff)
(T (W xff xff xff xff xff xff xff xff)
(T (W xca xd3 xfb xff x74 x00 x00 x00)
(L (W x45 x26 x22 x84 xe4 x9c xf2 xcb))
(L (W x54 x00 x00 x00 x48 x00 x00 x00)))
(T (W xff xff xff xff xff xff xff xff)
(L (W x00 x00 x00 x00 x00 x00 x00 x00)) E))
(T (W xff xff xff xff xff xff xff xff)
(T (W x00 x00 x80 x3f x00 x00 x80 x3f)
(L (W x00 x00 x00 x00 x8a x5c xfe xff)) E)
(T (W xff xff xff xff xff xff xff xff)
(L (W x00 x00 x80 xbf x00 x00 x80 xbf)) E))))
(T (W x00 x00 x00 x00 x00 x00 x00 x00)
(T (W xff xff xff xff xff xff xff xff)
(T (W xff xff xff xff xff xff xff xff)
(T (W x34 x01 x00 x00 x04 x00 x00 x00)
(L (W x45 x26 x22 x84 xe4 x9c xf2 xcb))
(L (W x00 x00 x00 x00 x00 x00 x00 x00)))
(T (W x00 x00 x00 x00 x00 x00 x00 x00)
(L (W xff xff xff xff xff xff xff xff)) E))
(T (W x24 x00 x00 x00 xb0 x00 x00 x00)
(T (W x00 x00 x00 x00 x00 x00 x00 x00)
(L (W x18 x00 x00 x00 x0c x00 x00 x00)) E)
(T (W x00 x00 x00 x00 x00 x00 x00 x00)
(L (W x00 x00 x00 x00 x00 x00 x00 x00)) E)))
(T (W x50 x00 x00 x00 x44 x00 x00 x00)
(T (W xb2 x06 xfe xff x2e x00 x00 x00)
(T (W x00 x00 x00 x00 x00 x00 x00 x00)
(L (W xff xff xff xff xff xff xff xff))
(L (W xff xff xff xff xff xff xff xff)))
(T (W x00 x00 x80 x3f x00 x00 x80 x3f)
(L (W x18 x00 x00 x00 x0c x00 x00 x00)) E))
(T (W xa5 x01 x00 x00 xff xff xff xff)
(T (W x00 x00 x00 x00 x00 x00 x00 x00)
(L (W x6c x00 x00 x00 x60 x00 x00 x00)) E)
(T (W x00 x00 x00 x00 x00 x00 x00 x00)
(L (W x21 x00 x00 x00 x24 x00 x00 x00)) E))))))))))
(T (W xd8 xb8 x03 x00 x7c xb6 x03 x00)
(T (W xe8 x11 x03 x00 xa4 x0f x03 x00)
(T (W x98 x33 x01 x00 x64 x32 x01 x00)
(T (W x00 x00 x00 x00 x00 x00 x00 x00)
(T (W xff xff xff xff xff xff xff xff)
(T (W x45 x26 x22 x84 xe4 x9c xf2 xcb)
(T (W xfa xb6 xf9 xff x78 x00 x00 x00)
(T (W xff xff xff xff xff xff xff xff)
(T (W x00 x00 x00 x00 x00 x00 x00 x00)
(T (W xff xff xff xff x9c x00 x00 x00)
(L (W xff xff xff xff xc0 x00 x00 x00))
(L (W x6c x00 x00 x00 x60 x00 x00 x00)))
(T (W xff xff xff xff xff xff xff xff)
(L (W x00 x00 x00 x00 x00 x00 x00 x00)) E))
(T (W x64 x00 x00 x00 xa0 x00 x00 x00)
(T (W xff xff xff xff xff xff xff xff)
(L (W x54 x00 x00 x00 x48 x00 x00 x00))
(L (W x6c x00 x00 x00 x60 x00 x00 x00)))
(T (W x00 x00 x00 x00 x00 x00 x00 x00)
(L (W x45 x26 x22 x84 xe4 x9c xf2 xcb)) E)))
(T (W x68 x00 x00 x00 x5c x00 x00 x00)
(T (W x18 x00 x00 x00 x0c x00 x00 x00)
(T (W xbc x00 x00 x00 x14 x00 x00 x00)
(L (W xff xff xff xff xff xff xff xff))
(L (W x5c x00 x00 x00 xff xff xff xff)))
(T (W xff xff xff xff xff xff xff xff)
(L (W xfa xb6 xfe xff x78 x00 x00 x00)) E))
(T (W x00 x00 x80 x3f x00 x00 x80 x3f)
(T (W xff xff xff xff xbc x00 x00 x00)
(L (W x45 x26 x22 x84 xe4 x9c xf2 xcb)) E)
(T (W xff xff xff xff xff xff xff xff)
(L (W xb4 x00 x00 x00 x32 x00 x00 x00)) E))))
(T (W xff xff xff xff xff xff xff xff)
(T (W x00 x00 x00 x00 x00 x00 x00 x00)
(T (W x45 x26 x22 x84 xe4 x9c xf2 xcb)
(T (W x50 x00 x00 x00 x44 x00 x00 x00)
(L (W xff xff xff xff xff xff xff xff))
(L (W xff xff xff xff xff xff xff xff)))
(T (W x00 x00 x80 x3f x00 x00 x80 x3f)
(L (W x00 x00 x80 xbf x00 x00 x80 xbf)) E))
(T (W x50 x00 x00 x00 x44 x00 x00 x00)
(T (W x22 x00 x00 x00 x67 x72 x6f x75)
(L (W xff xff xff xff xff xff xff xff)) E)
(T (W xff xff xff xff xff xff xff xff)
(L (W x45 x26 x22 x84 xe4 x9c xf2 xcb)) E)))
(T (W x4a x55 xfa xff x74 x00 x00 x00)
(T (W x40 x00 x00 x00 x9c x00 x00 x00)
(T (W x00 x00 x80 x3f x00 x00 x80 x3f)
(L (W xff xff xff xff xff xff xff xff))
(L (W x00 x00 x00 x00 x12 x00 x00 x00)))
(T (W x00 x00 x80 x3f x00 x00 x80 x3f)
(L (W xff xff xff xff xff xff xff xff)) E))
(T (W x18 x00 x00 x00 x0c x00 x00 x00)
(T (W x30 x32 x5f x43 x4c x45 x41 x52)
(L (W xbc x00 x00 x00 x46 x00 x00 x00)) E)
(T (W xfa x56 xfd xff x78 x00 x00 x00)
(L (W x46 x53 x59 x53 x5f x4e x53 x5f)) E)))))
(T (W x00 x00 x80 x3f x00 x00 x80 x3f)
(T (W xbc x00 x00 x00 xb0 x00 x00 x00)
(T (W xff xff xff xff xff xff xff xff)
(T (W x00 x00 x00 x00 x00 x00 x00 x00)
(T (W x30 x32 x5f x43 x4c x45 x41 x52)
(L (W x45 x26 x22 x84 xe4 x9c xf2 xcb))
(L (W x18 x00 x00 x00 x0c x00 x00 x00)))
(T (W x1c x8a xfc xff x00 x01 x01 x01)
(L (W x00 x00 x00 x00 x00 x00 x00 x00)) E))
(T (W xff xff xff xff xff xff xff xff)
(T (W x2c x01 x00 x00 x04 x00 x00 x00)
(L (W xff xff xff xff xb0 x00 x00 x00)) E)
(T (W x00 x00 x80 xbf x00 x00 x80 xbf)
(L (W x00 x00 x00 x00 x00 x00 x00 x00)) E)))
(T (W x50 x00 x00 x00 x44 x00 x00 x00)
(T (W x45 x26 x22 x84 xe4 x9c xf2 xcb)
(T (W x00 x00 x00 x00 x12 x00 x00 x00)
(L (W xff xff xff xff xff xff xff xff))
(L (W x00 x00 x00 x00 x00 x00 x00 x00)))
(T (W x63 x68 x61 x70 x37 x62 x00 x00)
(L (W xff xff xff xff xff xff xff xff)) E))
(T (W xff xff xff xff xff xff xff xff)
(T (W x00 x00 x00 x00 x7a x4c xfc xff)
(L (W x00 x00 x80 xbf x00 x00 x80 xbf)) E)
(T (W x45 x44 x00 x00 x00 x00 x00 x00)
(L (W x92 x01 x00 x00 xff xff xff xff)) E))))
(T (W x40 x02 x00 x00 x28 x01 x00 x00)
(T (W x0a x00 x00 x00 x3e x00 x00 x00)
(T (W xff xff xff xff xff xff xff xff)
(T (W x00 x00 x00 x00 x00 x00 x00 x00)
(L (W xff xff xff xff xff xff xff xff))
(L (W x44 x00 x00 x00 x10 x00 x00 x00)))
(T (W xff xff xff xff xff xff xff xff)
(L (W x00 x00 x80 xbf x00 x00 x80 xbf)) E))
(T (W xff xff xff xff xff xff xff xff)
(T (W x00 x00 x80 x3f x00 x00 x80 x3f)
(L (W x00 x00 x00 x00 x00 x00 x00 x00)) E)
(T (W x50 x00 x00 x00 x44 x00 x00 x00)
(L (W x00 x00 x00 x00 x8c x28 xff xff)) E)))
(T (W x00 x00 x80 x3f x00 x00 x80 x3f)
(T (W x6c x00 x00 x00 x60 x00 x00 x00)
(T (W xfa xe6 xfb xff x78 x00 x00 x00)
(L (W x00 x00 x80 xbf x00 x00 x80 xbf))
(L (W x49 xa1 x68 x4a xeb x5f xdd x3d)))
(T (W x1c xea xfc xff x00 x01 x01 x01)
(L (W x00 x00 x00 x00 x00 x00 x00 x00)) E))
(T (W x14 x00 x00 x00 x10 x00 x00 x00)
(T (W xff xff xff xff xff xff xff xff)
(L (W xff xff xff xff xff xff xff xff)) E)
(T (W xff xff xff xff xff xff xff xff)
(L (W x4f x84 x6f x8b xe8 xcb x63 xb7)) E))))))
(T (W x45 x26 x22 x84 xe4 x9c xf2 xcb)
(T (W xff xff xff xff xff xff xff xff)
(T (W x00 x00 x00 x00 x00 x00 x00 x00)
(T (W xff xff xff xff xff xff xff xff)
(T (W x00 x00 x00 x00 x00 x00 x00 x00)
(T (W xff xff xff xff xff xff xff xff)
(L (W xff xff xff xff xff xff xff xff))
(L (W x00 x00 x00 x00 x8c x80 xff xff)))
(T (W x45 x26 x22 x84 xe4 x9c xf2 xcb)
(L (W x00 x00 x00 x00 x00 x00 x00 x00)) E))
(T (W x00 x00 x80 x3f x00 x00 x80 x3f)
(T (W x4b x00 x00 x00 xff xff xff xff)
(L (W x00 x00 x00 x00 x8c x00 xfe xff))
(L (W x00 x00 x00 x00 x00 x00 x00 x00)))
(T (W xfa xfe xfc xff x78 x00 x00 x00)
(L (W x49 xa1 x68 x4a xeb x5f xdd x3d)) E)))
(T (W x00 x00 x80 x3f x00 x00 x80 x3f)
(T (W x4a xbd xfa xff x74 x00 x00 x00)
(T (W x02 x00 x00 x00 x2c x01 x00 x00)
(L (W xb4 x00 x00 x00 x64 x00 x00 x00))
(L (W x00 x00 x01 x01 xc6 x01 x00 x00)))
(T (W x4a xbd xfc xff x74 x00 x00 x00)
(L (W xff xff xff xff xa0 x00 x00 x00)) E))
(T (W x6c x00 x00 x00 x60 x00 x00 x00)
(T (W xff xff xff xff xff xff xff xff)
(L (W x49 xa1 x68 x4a xeb x5f xdd x3d)) E)
(T (W x02 x00 x00 x00 x30 x01 x00 x00)
(L (W xff xff xff xff xff xff xff xff)) E))))
(T (W x01 x00 x00 x00 xff xff xff xff)
(T (W x01 x00 x00 x00 x9c x00 x00 x00)
(T (W xff xff xff xff xff xff xff xff)
(T (W xff xff xff xff xff xff xff xff)
(L (W xff xff xff xff xff xff xff xff))
(L (W x3b x01 x00 x00 xff xff xff xff)))
(T (W x45 x26 x22 x84 xe4 x9c xf2 xcb)
(L (W x00 x00 x80 xbf x00 x00 x80 xbf)) E))
(T (W x18 x00 x00 x00 x10 x00 x00 x00)
(T (W x4f x84 x6f x8b xe8 xcb x63 xb7)
(L (W x45 x44 x00 x00 x00 x00 x00 x00)) E)
(T (W x00 x00 x80 xbf x00 x00 x80 xbf)
(L (W x03 x00 x00 x00 xd0 x00 x00 x00)) E)))
(T (W x00 x00 x80 x3f x00 x00 x80 x3f)
(T (W x50 x00 x00 x00 x44 x00 x00 x00)
(T (W x50 x00 x00 x00 x44 x00 x00 x00)
(L (W x06 x00 x00 x00 xd0 x05 x00 x00))
(L (W x00 x00 x00 x00 x00 x00 x00 x00)))
(T (W x6c x00 x00 x00 x60 x00 x00 x00)
(L (W xff xff xff xff xff xff xff xff)) E))
(T (W xff xff xff xff xff xff xff xff)
(T (W x00 x00 x00 x00 x00 x00 x00 x00)
(L (W xff xff xff xff xff xff xff xff)) E)
(T (W x00 x00 x00 x00 x8c x60 xfd xff)
(L (W x00 x00 x00 x00 x00 x00 x00 x00)) E)))))
(T (W xc9 x00 x00 x00 xff xff xff xff)
(T (W x45 x26 x22 x84 xe4 x9c xf2 xcb)
(T (W x4c x16 xfa xff x1f x00 x00 x00)
(T (W x00 x00 x00 x00 x00 x00 x00 x00)
(T (W x00 x00 x00 x00 x00 x00 x00 x00)
(L (W xc0 x00 x00 x00 x01 x00 x00 x00))
(L (W xff xff xff xff xff xff xff xff)))
(T (W x00 x00 x80 x3f x00 x00 x80 x3f)
(L (W x00 x00 x80 xbf x00 x00 x80 xbf)) E))
(T (W xff xff xff xff xff xff xff xff)
(T (W x30 x32 x5f x43 x4c x45 x41 x52)
(L (W xff xff xff xff xff xff xff xff)) E)
(T (W x00 x00 x00 x00 x00 x00 x00 x00)
(L (W x00 x00 x80 xbf x00 x00 x80 xbf)) E)))
(T (W x68 x00 x00 x00 x5c x00 x00 x00)
(T (W x18 x00 x00 x00 x10 x00 x00 x00)
(T (W x00 x00 x00 x00 x00 x00 x00 x00)
(L (W xff xff xff xff xff xff xff xff))
(L (W x00 x00 x00 x00 x00 x00 x00 x00)))
(T (W x00 x00 x00 x00 x00 x00 x00 x00)
(L (W xff xff xff xff xff xff xff xff)) E))
(T (W x45 x26 x22 x84 xe4 x9c xf2 xcb)
(T (W x00 x00 x00 x00 x04 x00 x00 x00)
(L (W x1c x52 xfe xff x00 x01 x01 x01)) E)
(T (W x45 x26 x22 x84 xe4 x9c xf2 xcb)
(L (W x00 x00 x00 x00 x00 x00 x00 x00)) E))))
(T (W xff xff xff xff x01 x00 x00 x00)
(T (W xc0 x00 x00 x00 xb4 x00 x00 x00)
(T (W xff xff xff xff x04 x00 x00 x00)
(T (W x00 x00 x80 x3f x00 x00 x80 x3f)
(L (W x00 x00 x80 xbf x00 x00 x80 xbf))
(L (W xff xff xff xff xff xff xff xff)))
(T (W xff xff xff xff xff xff xff xff)
(L (W x00 x00 x80 xbf x00 x00 x80 xbf)) E))
(T (W x00 x00 x00 x00 x00 x00 x00 x00)
(T (W x6c x00 x00 x00 x60 x00 x00 x00)
(L (W x00 x00 x00 x00 x00 x00 x00 x00)) E)
(T (W xff xff xff xff xb0 x00 x00 x00)
(L (W x1c x00 x00 x00 x10 x00 x00 x00)) E)))
(T (W x45 x26 x22 x84 xe4 x9c xf2 xcb)
(T (W x00 x00 x80 x3f x00 x00 x80 x3f)
(T (W xff xff xff xff xc4 x00 x00 x00)
(L (W x00 x00 x80 xbf x00 x00 x80 xbf))
(L (W x00 x00 x80 xbf x00 x00 x80 xbf)))
(T (W x40 x00 x44 x00 x00 x00 x48 x00)
(L (W x00 x00 x00 x00 x00 x00 x00 x00)) E))
(T (W x00 x00 x80 x3f x00 x00 x80 x3f)
(T (W x18 x00 x00 x00 x10 x00 x00 x00)
(L (W x00 x00 x00 x00 x00 x00 x00 x00)) E)
(T (W xff xff xff xff xff xff xff xff)
(L (W x00 x00 x80 xbf x00 x00 x80 xbf)) E)))))))
(T (W x1c x86 xf9 xff x00 x01 x01 x01)
(T (W x45 x26 x22 x84 xe4 x9c xf2 xcb)
(T (W x45 x26 x22 x84 xe4 x9c xf2 xcb)
(T (W xff xff xff xff xff xff xff xff)
(T (W x54 x00 x00 x00 x48 x00 x00 x00)
(T (W xff xff xff xff xff xff xff xff)
(T (W x00 x00 x00 x00 x12 x00 x00 x00)
(L (W x00 x00 x00 x00 x00 x00 x00 x00))
(L (W xff xff xff xff xff xff xff xff)))
(T (W x00 x00 x00 x00 x00 x00 x00 x00)
(L (W x45 x26 x22 x84 xe4 x9c xf2 xcb)) E))
(T (W xb0 x00 x00 x00 x64 x00 x00 x00)
(T (W x00 x00 x80 x3f x00 x00 x80 x3f)
(L (W x00 x00 x00 x00 x00 x00 x00 x00))
(L (W xff xff xff xff xff xff xff xff)))
(T (W x00 x00 x80 xbf x00 x00 x80 xbf)
(L (W xb4 x00 x00 x00 x64 x00 x00 x00)) E)))
(T (W x00 x00 x00 x00 x00 x00 x00 x00)
(T (W x00 x00 x00 x00 x00 x00 x00 x00)
(T (W x00 x00 x80 x3f x00 x00 x80 x3f)
(L (W x00 x00 x00 x00 x00 x00 x00 x00))
(L (W xfa xba xff xff x78 x00 x00 x00)))
(T (W x00 x00 x00 x00 x00 x00 x00 x00)
(L (W x00 x00 x00 x00 x00 x00 x00 x00)) E))
(T (W xff xff xff xff xff xff xff xff)
(T (W x4f x84 x6f x8b xe8 xcb x63 xb7)
(L (W xff xff xff xff xff xff xff xff)) E)
(T (W x00 x00 x80 xbf x00 x00 x80 xbf)
(L (W x00 x00 x80 xbf x00 x00 x80 xbf)) E))))
(T (W x00 x00 x80 x3f x00 x00 x80 x3f)
(T (W xd8 x00 x00 x00 xac x00 x00 x00)
(T (W x00 x00 x00 x00 x00 x00 x00 x00)
(T (W x70 x5f x6c x65 x61 x64 x65 x72)
(L (W x49 xa1 x68 x4a xeb x5f xdd x3d))
(L (W x00 x00 x80 xbf x00 x00 x80 xbf)))
(T (W x07 xc1 x33 x97 x85 xac x5f x5f)
(L (W xff xff xff xff xff xff xff xff)) E))
(T (W x00 x00 x00 x00 x00 x00 x00 x00)
(T (W xff xff xff xff xbc x00 x00 x00)
(L (W x00 x00 x80 xbf x00 x00 x80 xbf)) E)
(T (W xff xff xff xff xff xff xff xff)
(L (W x30 x32 x5f x43 x4c x45 x41 x52)) E)))
(T (W xff xff xff xff xff xff xff xff)
(T (W xb2 xed xfd xff x00 x00 x01 x01)
(T (W xb0 x05 x00 x00 x84 x04 x00 x00)
(L (W xfa xda xfd xff x78 x00 x00 x00))
(L (W xff xff xff xff xff xff xff xff)))
(T (W x45 x44 x00 x00 x00 x00 x00 x00)
(L (W x00 x00 x80 xbf x00 x00 x80 xbf)) E))
(T (W x22 x00 x00 x00 x67 x72 x6f x75)
(T (W xd4 x00 x00 x00 xc8 x00 x00 x00)
(L (W x00 x00 x00 x00 x00 x00 x00 x00)) E)
(T (W x1d x00 x00 x00 x0c x00 x00 x00)
(L (W x03 x00 x00 x00 xd8 x00 x00 x00)) E)))))
(T (W x64 x00 x00 x00 xa0 x00 x00 x00)
(T (W x00 x00 x00 x00 xc2 x65 xfd xff)
(T (W x45 x26 x22 x84 xe4 x9c xf2 xcb)
(T (W xff xff xff xff xff xff xff xff)
(T (W x00 x00 x80 x3f x00 x00 x80 x3f)
(L (W x12 x00 x00 x00 x46 x53 x59 x53))
(L (W x00 x00 x00 x00 x00 x00 x00 x00)))
(T (W x00 x00 x00 x00 x02 x00 x00 x00)
(L (W xff xff xff xff xff xff xff xff)) E))
(T (W x00 x00 x80 x3f x00 x00 x80 x3f)
(T (W x45 x26 x22 x84 xe4 x9c xf2 xcb)
(L (W x00 x00 x80 xbf x00 x00 x80 xbf)) E)
(T (W x4c x12 xfd xff x1a x00 x00 x00)
(L (W xff xff xff xff xff xff xff xff)) E)))
(T (W x43 xd5 x80 x5b x99 x54 x9f x15)
(T (W x00 x00 x00 x00 x00 x00 x00 x00)
(T (W xff xff xff xff xff xff xff xff)
(L (W x4f x84 x6f x8b xe8 xcb x63 xb7))
(L (W xff xff xff xff xb0 x00 x00 x00)))
(T (W x68 x00 x00 x00 x00 x00 x62 x00)
(L (W x00 x00 x80 xbf x00 x00 x80 xbf)) E))
(T (W x01 x00 x00 x00 xac x00 x00 x00)
(T (W x6c x00 x00 x00 x60 x00 x00 x00)
(L (W x30 x32 x5f x43 x4c x45 x41 x52)) E)
(T (W xc4 x00 x00 x00 x02 x00 x00 x00)
(L (W xfa x4a xff xff x78 x00 x00 x00)) E))))
(T (W x00 x00 x80 x3f x00 x00 x80 x3f)
(T (W x00 x00 x00 x00 x00 x00 x00 x00)
(T (W x45 x26 x22 x84 xe4 x9c xf2 xcb)
(T (W xff xff xff xff xbc x00 x00 x00)
(L (W x00 x00 x00 x00 x00 x00 x00 x00))
(L (W x00 x00 x80 xbf x00 x00 x80 xbf)))
(T (W x00 x00 x80 x3f x00 x00 x80 x3f)
(L (W x04 x00 x00 x00 x0a xb2 xfe xff)) E))
(T (W x00 x00 x80 x3f x00 x00 x80 x3f)
(T (W xff xff xff xff xff xff xff xff)
(L (W x45 x26 x22 x84 xe4 x9c xf2 xcb)) E)
(T (W x46 x53 x59 x53 x5f x4e x53 x5f)
(L (W x00 x00 x00 x00 x00 x00 x00 x00)) E)))
(T (W xff xff xff xff xff xff xff xff)
(T (W x36 x00 x00 x00 xff xff xff xff)
(T (W x00 x00 x00 x00 x00 x00 x00 x00)
(L (W xff xff xff xff xff xff xff xff))
(L (W xff xff xff xff xff xff xff xff)))
(T (W x00 x00 x00 x00 x00 x00 x00 x00)
(L (W xff xff xff xff xc8 x00 x00 x00)) E))
(T (W xff xff xff xff xc4 x00 x00 x00)
(T (W x00 x00 x00 x00 x00 x00 x00 x00)
(L (W x1c x6e xfe xff x00 x01 x01 x01)) E)
(T (W x00 x00 x80 xbf x00 x00 x80 xbf)
(L (W x03 x00 x00 x00 xd8 x00 x00 x00)) E))))))
(T (W xff xff xff xff x07 x00 x00 x00)
(T (W x00 x00 x00 x00 x00 x00 x00 x00)
(T (W x00 x00 x80 x3f x00 x00 x80 x3f)
(T (W x00 x00 x80 x3f x00 x00 x80 x3f)
(T (W xff xff xff xff x03 x00 x00 x00)
(T (W x00 x00 x80 x3f x00 x00 x80 x3f)
(L (W x00 x00 x00 x00 x00 x00 x00 x00))
(L (W x00 x00 x00 x00 x00 x00 x00 x00)))
(T (W x00 x00 x00 x00 x00 x00 x00 x00)
(L (W x18 x00 x00 x00 x10 x00 x00 x00)) E))
(T (W x4c x0a xfb xff x10 x00 x00 x00)
(T (W x54 x00 x00 x00 x48 x00 x00 x00)
(L (W x00 x00 x00 x00 x00 x00 x00 x00)) E)
(T (W x54 x00 x00 x00 x48 x00 x00 x00)
(L (W xff xff xff xff xff xff xff xff)) E)))
(T (W x00 x00 x00 x00 x00 x00 x00 x00)
(T (W x00 x00 x00 x00 x00 x00 x00 x00)
(T (W x4a xc1 xfb xff x74 x00 x00 x00)
(L (W x00 x00 x80 xbf x00 x00 x80 xbf))
(L (W x50 x00 x00 x00 x44 x00 x00 x00)))
(T (W x00 x00 x00 x00 x00 x00 x00 x00)
(L (W x00 x00 x00 x00 x00 x00 x00 x00)) E))
(T (W x00 x00 x00 x00 x00 x00 x00 x00)
(T (W x00 x00 x80 x3f x00 x00 x80 x3f)
(L (W xff xff xff xff xff xff xff xff)) E)
(T (W xff xff xff xff xa0 x00 x00 x00)
(L (W x00 x00 x80 xbf x00 x00 x80 xbf)) E))))
(T (W x00 x00 x80 x3f x00 x00 x80 x3f)
(T (W x00 x00 x00 x00 x00 x00 x00 x00)
(T (W x45 x26 x22 x84 xe4 x9c xf2 xcb)
(T (W x00 x00 x80 x3f x00 x00 x80 x3f)
(L (W xb0 x00 x00 x00 x64 x00 x00 x00))
(L (W xca xe8 xac x28 xbf xdb x59 x6a)))
(T (W x00 x00 x80 x3f x00 x00 x80 x3f)
(L (W x00 x00 x00 x00 x00 x00 x00 x00)) E))
(T (W x00 x00 x80 x3f x00 x00 x80 x3f)
(T (W xff xff xff xff xff xff xff xff)
(L (W x6c x00 x00 x00 x60 x00 x00 x00)) E)
(T (W x00 x00 x01 x01 xc7 x01 x00 x00)
(L (W x00 x00 x00 x00 x00 x00 x00 x00)) E)))
(T (W xff xff xff xff xff xff xff xff)
(T (W xff xff xff xff xff xff xff xff)
(T (W x00 x00 x00 x00 x7a xe8 xfb xff)
(L (W x45 x26 x22 x84 xe4 x9c xf2 xcb))
(L (W xff xff xff xff xff xff xff xff)))
(T (W x00 x00 x00 x00 x8c xe4 xfc xff)
(L (W x1c xe6 xfe xff x00 x01 x01 x01)) E))
(T (W x1c x66 xfb xff x00 x01 x01 x01)
(T (W x00 x00 x00 x00 x8c x64 xfc xff)
(L (W x45 x26 x22 x84 xe4 x9c xf2 xcb)) E)
(T (W x00 x00 x00 x00 x00 x00 x00 x00)
(L (W x18 x00 x00 x00 x10 x00 x00 x00)) E)))))
(T (W x45 x26 x22 x84 xe4 x9c xf2 xcb)
(T (W x1c xd6 xf9 xff x00 x01 x01 x01)
(T (W x45 x26 x22 x84 xe4 x9c xf2 xcb)
(T (W x64 x00 x00 x00 x9c x00 x00 x00)
(T (W xff xff xff xff xff xff xff xff)
(L (W x00 x00 x00 x00 x00 x00 x00 x00))
(L (W x4f x84 x6f x8b xe8 xcb x63 xb7)))
(T (W xff xff xff xff xff xff xff xff)
(L (W xff xff xff xff xff xff xff xff)) E))
(T (W x45 x26 x22 x84 xe4 x9c xf2 xcb)
(T (W x01 x00 x00 x00 xb0 x00 x00 x00)
(L (W x00 x00 x80 xbf x00 x00 x80 xbf)) E)
(T (W xff xff xff xff xff xff xff xff)
(L (W x00 x00 x00 x00 x00 x00 x00 x00)) E)))
(T (W x83 x01 x00 x00 xff xff xff xff)
(T (W x3e x00 x00 x00 x0c x00 x00 x00)
(T (W xff xff xff xff xff xff xff xff)
(L (W x00 x00 x80 xbf x00 x00 x80 xbf))
(L (W xff xff xff xff xc8 x00 x00 x00)))
(T (W xff xff xff xff xff xff xff xff)
(L (W x00 x00 x80 xbf x00 x00 x80 xbf)) E))
(T (W xff xff xff xff xff xff xff xff)
(T (W x50 x00 x00 x00 x44 x00 x00 x00)
(L (W xa4 x63 xfe xff x06 x00 x00 x00)) E)
(T (W x00 x00 x00 x00 x7a x58 xfd xff)
(L (W x17 x00 x00 x00 x1a x00 x00 x00)) E))))
(T (W x00 x00 x80 x3f x00 x00 x80 x3f)
(T (W xd6 x23 xe4 xd7 x58 xe6 x32 xbe)
(T (W x00 x00 x80 x3f x00 x00 x80 x3f)
(T (W x67 x72 x6f x75 x70 x5f x6c x65)
(L (W x18 x00 x00 x00 x10 x00 x00 x00))
(L (W x00 x00 x80 xbf x00 x00 x80 xbf)))
(T (W x45 x26 x22 x84 xe4 x9c xf2 xcb)
(L (W x45 x44 x00 x00 x00 x00 x00 x00)) E))
(T (W xff xff xff xff xff xff xff xff)
(T (W x22 x00 x00 x00 x67 x72 x6f x75)
(L (W xcc x00 x00 x00 x02 x00 x00 x00)) E)
(T (W x00 x00 x00 x00 x00 x00 x00 x00)
(L (W x00 x00 x00 x00 x00 x00 x00 x00)) E)))
(T (W xff xff xff xff xff xff xff xff)
(T (W x00 x00 x80 x3f x00 x00 x80 x3f)
(T (W x46 x53 x59 x53 x5f x4e x53 x5f)
(L (W x00 x00 x00 x00 x00 x00 x00 x00))
(L (W x45 x44 x00 x00 x00 x00 x00 x00)))
(T (W x01 x00 x00 x00 x1c x00 x00 x00)
(L (W xc4 x00 x00 x00 x01 x00 x00 x00)) E))
(T (W x9f x01 x00 x00 xff xff xff xff)
(T (W x00 x00 x00 x00 x00 x00 x00 x00)
(L (W x68 x00 x00 x00 x5c x00 x00 x00)) E)
(T (W x45 x26 x22 x84 xe4 x9c xf2 xcb)
(L (W xff xff xff xff xff xff xff xff)) E))))))))
(T (W x74 x04 x00 x00 x58 x03 x00 x00)
(T (W x00 x00 x80 x3f x00 x00 x80 x3f)
(T (W x00 x00 x00 x00 x00 x00 x00 x00)
(T (W x00 x00 x80 x3f x00 x00 x80 x3f)
(T (W xbc x00 x00 x00 xb0 x00 x00 x00)
(T (W x00 x00 x00 x00 x00 x00 x00 x00)
(T (W x1c x7c xfa xff x00 x01 x01 x01)
(T (W xff xff xff xff xff xff xff xff)
(L (W x19 x01 x00 x00 xff xff xff xff))
(L (W xff xff xff xff xff xff xff xff)))
(T (W x00 x00 x00 x00 x02 x00 x00 x00)
(L (W x00 x00 x80 xbf x00 x00 x80 xbf)) E))
(T (W x00 x00 x80 x3f x00 x00 x80 x3f)
(T (W x4c x00 xfc xff x15 x00 x00 x00)
(L (W xff xff xff xff xff xff xff xff))
(L (W x74 x00 x0c x00 x00 x00 x00 x00)))
(T (W x20 x00 x24 x00 x28 x00 x2c x00)
(L (W x54 x00 x00 x00 x48 x00 x00 x00)) E)))
(T (W xff xff xff xff xff xff xff xff)
(T (W x1c x01 x00 x00 x04 x00 x00 x00)
(T (W x00 x00 x00 x00 x00 x00 x00 x00)
(L (W xb2 xfa xff xff xc9 x00 x00 x00))
(L (W x00 x00 x00 x00 x12 x00 x00 x00)))
(T (W xb2 xcb xff xff x00 x00 x01 x01)
(L (W xff xff xff xff xff xff xff xff)) E))
(T (W x68 x00 x00 x00 x5c x00 x00 x00)
(T (W x30 x32 x5f x43 x4c x45 x41 x52)
(L (W x50 x00 x00 x00 x44 x00 x00 x00)) E)
(T (W x46 x53 x59 x53 x5f x4e x53 x5f)
(L (W xff xff xff xff xff xff xff xff)) E))))
(T (W xd4 x3c x23 xde x87 x66 x31 xc9)
(T (W x00 x00 x80 x3f x00 x00 x80 x3f)
(T (W x00 x00 x00 x00 x00 x00 x00 x00)
(T (W xff xff xff xff xff xff xff xff)
(L (W x00 x00 x00 x00 x00 x00 x00 x00))
(L (W x00 x00 x00 x00 x00 x00 x00 x00)))
(T (W x1c x9c xfc xff x00 x01 x01 x01)
(L (W x18 x00 x00 x00 x0c x00 x00 x00)) E))
(T (W xff xff xff xff xff xff xff xff)
(T (W x4a x17 xfc xff x74 x00 x00 x00)
(L (W x00 x00 x00 x00 x00 x00 x00 x00)) E)
(T (W x00 x00 x00 x00 x00 x00 x00 x00)
(L (W xff xff xff xff xff xff xff xff)) E)))
(T (W x01 x00 x00 x00 x9c x00 x00 x00)
(T (W xff xff xff xff xff xff xff xff)
(T (W x01 x00 x00 x00 xb0 x00 x00 x00)
(L (W x00 x00 x00 x00 x00 x00 x00 x00))
(L (W xfa xd8 xff xff x78 x00 x00 x00)))
(T (W xff xff xff xff x9c x00 x00 x00)
(L (W x00 x00 x00 x00 x00 x00 x00 x00)) E))
(T (W xff xff xff xff xff xff xff xff)
(T (W x00 x00 x00 x00 x00 x00 x00 x00)
(L (W x92 x01 x00 x00 xff xff xff xff)) E)
(T (W xff xff xff xff xff xff xff xff)
(L (W x00 x00 x80 xbf x00 x00 x80 xbf)) E)))))
(T (W x6c x00 x00 x00 x60 x00 x00 x00)
(T (W xff xff xff xff xff xff xff xff)
(T (W x00 x00 x00 x00 x00 x00 x00 x00)
(T (W x00 x00 x80 x3f x00 x00 x80 x3f)
(T (W x4f x84 x6f x8b xe8 xcb x63 xb7)
(L (W xff xff xff xff xff xff xff xff))
(L (W xff xff xff xff xff xff xff xff)))
(T (W xff xff xff xff xff xff xff xff)
(L (W x00 x00 x80 xbf x00 x00 x80 xbf)) E))
(T (W x00 x00 x00 x00 x00 x00 x00 x00)
(T (W x00 x00 x00 x00 x00 x00 x00 x00)
(L (W xa4 x04 x00 x00 x88 x03 x00 x00)) E)
(T (W x03 x00 x00 x00 xbc x00 x00 x00)
(L (W x17 x00 x00 x00 x1a x00 x00 x00)) E)))
(T (W xb8 x00 x00 x00 xac x00 x00 x00)
(T (W xff xff xff xff xff xff xff xff)
(T (W x49 xa1 x68 x4a xeb x5f xdd x3d)
(L (W x45 x44 x00 x00 x00 x00 x00 x00))
(L (W x00 x00 x80 xbf x00 x00 x80 xbf)))
(T (W x00 x00 x00 x00 x00 x00 x00 x00)
(L (W x00 x00 x00 x00 x00 x00 x00 x00)) E))
(T (W x00 x00 x80 x3f x00 x00 x80 x3f)
(T (W x00 x00 x00 x00 x00 x00 x00 x00)
(L (W xff xff xff xff x9c x00 x00 x00)) E)
(T (W x00 x00 x80 xbf x00 x00 x80 xbf)
(L (W x00 x00 x00 x00 x00 x00 x00 x00)) E))))
(T (W x00 x00 x00 x00 x00 x00 x00 x00)
(T (W xff xff xff xff xff xff xff xff)
(T (W x3e x00 x00 x00 x10 x00 x00 x00)
(T (W x00 x00 x80 x3f x00 x00 x80 x3f)
(L (W x00 x00 x00 x00 x00 x00 x00 x00))
(L (W x00 x00 x00 x00 x00 x00 x00 x00)))
(T (W x5f x77 x69 x6c x64 x5f x70 x6f)
(L (W x18 x00 x00 x00 x0c x00 x00 x00)) E))
(T (W x00 x00 x00 x00 x00 x00 x00 x00)
(T (W x18 x00 x00 x00 x10 x00 x00 x00)
(L (W x00 x00 x80 xbf x00 x00 x80 xbf)) E)
(T (W xff xff xff xff xff xff xff xff)
(L (W xff xff xff xff xff xff xff xff)) E)))
(T (W xc0 x00 x00 x00 xb4 x00 x00 x00)
(T (W xff xff xff xff xff xff xff xff)
(T (W xff xff xff xff xff xff xff xff)
(L (W xff xff xff xff xb0 x00 x00 x00))
(L (W xfa xe8 xff xff x78 x00 x00 x00)))
(T (W xff xff xff xff xff xff xff xff)
(L (W x45 x26 x22 x84 xe4 x9c xf2 xcb)) E))
(T (W x00 x00 x80 x3f x00 x00 x80 x3f)
(T (W xa7 x71 x2e x97 x85 x26 x59 x5f)
(L (W x00 x00 x00 x00 x12 x00 x00 x00)) E)
(T (W x1d x00 x00 x00 x0c x00 x00 x00)
(L (W x54 x00 x00 x00 x48 x00 x00 x00)) E))))))
(T (W xff xff xff xff xff xff xff xff)
(T (W xff xff xff xff x19 x00 x00 x00)
(T (W x45 x26 x22 x84 xe4 x9c xf2 xcb)
(T (W x00 x00 x00 x00 x00 x00 x00 x00)
(T (W x00 x00 x80 x3f x00 x00 x80 x3f)
(T (W x00 x00 x00 x00 x00 x00 x00 x00)
(L (W x36 x87 xd4 x61 xf7 xdc xb2 x83))
(L (W xff xff xff xff xff xff xff xff)))
(T (W xff xff xff xff xff xff xff xff)
(L (W x00 x00 x80 xbf x00 x00 x80 xbf)) E))
(T (W xcc x00 x00 x00 xc0 x00 x00 x00)
(T (W x00 x00 x00 x00 x12 x00 x00 x00)
(L (W x00 x00 x00 x00 x00 x00 x00 x00))
(L (W x28 x00 x2c x00 x30 x00 x34 x00)))
(T (W x6f x79 x61 x62 x75 x6e x00 x00)
(L (W xfa x00 xff xff x78 x00 x00 x00)) E)))
(T (W xff xff xff xff xff xff xff xff)
(T (W xff xff xff xff xff xff xff xff)
(T (W x00 x00 x00 x00 x00 x00 x00 x00)
(L (W xf4 x06 x00 x00 xd8 x05 x00 x00))
(L (W x00 x00 x00 x00 x00 x00 x00 x00)))
(T (W xff xff xff xff xff xff xff xff)
(L (W xff xff xff xff xff xff xff xff)) E))
(T (W xaa x49 xfe xff x00 x00 x01 x01)
(T (W x00 x00 x00 x00 x00 x00 x00 x00)
(L (W xcc x00 x00 x00 x01 x00 x00 x00)) E)
(T (W x00 x00 x00 x00 x00 x00 x00 x00)
(L (W xa4 x51 xff xff x06 x00 x00 x00)) E))))
(T (W x00 x00 x00 x00 x00 x00 x00 x00)
(T (W xff xff xff xff xff xff xff xff)
(T (W x00 x00 x00 x00 x00 x00 x00 x00)
(T (W x00 x00 x00 x00 x00 x00 x00 x00)
(L (W x00 x00 x80 xbf x00 x00 x80 xbf))
(L (W x00 x00 x80 xbf x00 x00 x80 xbf)))
(T (W x00 x00 x00 x00 x00 x00 x00 x00)
(L (W x45 x26 x22 x84 xe4 x9c xf2 xcb)) E))
(T (W x00 x00 x00 x00 x00 x00 x00 x00)
(T (W x18 x00 x00 x00 x0c x00 x00 x00)
(L (W x49 xa1 x68 x4a xeb x5f xdd x3d)) E)
(T (W xff xff xff xff xb0 x00 x00 x00)
(L (W xff xff xff xff xff xff xff xff)) E)))
(T (W x0a x00 x00 x00 x3e x00 x00 x00)
(T (W xff xff xff xff xff xff xff xff)
(T (W xd0 x00 x00 x00 xc4 x00 x00 x00)
(L (W x00 x00 x80 xbf x00 x00 x80 xbf))
(L (W x00 x00 x80 xbf x00 x00 x80 xbf)))
(T (W x10 x09 x00 x00 xec x07 x00 x00)
(L (W x00 x00 x80 xbf x00 x00 x80 xbf)) E))
(T (W x00 x00 x00 x00 x00 x00 x00 x00)
(T (W x00 x00 x80 x3f x00 x00 x80 x3f)
(L (W x00 x00 x00 x00 x00 x00 x00 x00)) E)
(T (W x54 x01 x00 x00 xff xff xff xff)
(L (W x00 x00 x80 xbf x00 x00 x80 xbf)) E)))))
(T (W x00 x00 x00 x00 x00 x00 x00 x00)
(T (W x00 x00 x80 x3f x00 x00 x80 x3f)
(T (W x00 x00 x80 x3f x00 x00 x80 x3f)
(T (W x45 x26 x22 x84 xe4 x9c xf2 xcb)
(T (W x68 x00 x00 x00 x5c x00 x00 x00)
(L (W xc9 x00 x00 x00 xff xff xff xff))
(L (W x45 x44 x00 x00 x00 x00 x00 x00)))
(T (W x45 x26 x22 x84 xe4 x9c xf2 xcb)
(L (W x68 x00 x00 x00 x5c x00 x00 x00)) E))
(T (W x00 x00 x00 x00 x00 x00 x00 x00)
(T (W x00 x00 x80 x3f x00 x00 x80 x3f)
(L (W x00 x00 x00 x00 x00 x00 x00 x00)) E)
(T (W x00 x00 x80 xbf x00 x00 x80 xbf)
(L (W xff xff xff xff xff xff xff xff)) E)))
(T (W x45 x26 x22 x84 xe4 x9c xf2 xcb)
(T (W xff xff xff xff xff xff xff xff)
(T (W x45 x26 x22 x84 xe4 x9c xf2 xcb)
(L (W x00 x00 x00 x00 x00 x00 x00 x00))
(L (W x00 x00 x80 xbf x00 x00 x80 xbf)))
(T (W xfa xd0 xfc xff x78 x00 x00 x00)
(L (W x00 x00 x00 x00 x00 x00 x00 x00)) E))
(T (W x18 x00 x00 x00 x10 x00 x00 x00)
(T (W x00 x00 x80 x3f x00 x00 x80 x3f)
(L (W xff xff xff xff xff xff xff xff)) E)
(T (W x45 x26 x22 x84 xe4 x9c xf2 xcb)
(L (W x00 x00 x00 x00 x00 x00 x00 x00)) E))))
(T (W x45 x26 x22 x84 xe4 x9c xf2 xcb)
(T (W xff xff xff xff xff xff xff xff)
(T (W x00 x00 x00 x00 x5a xc0 xff xff)
(T (W xff xff xff xff xff xff xff xff)
(L (W x68 x00 x00 x00 x5c x00 x00 x00))
(L (W x00 x00 x00 x00 x00 x00 x00 x00)))
(T (W x00 x00 x00 x00 x00 x00 x00 x00)
(L (W xff xff xff xff x9c x00 x00 x00)) E))
(T (W x00 x00 x80 x3f x00 x00 x80 x3f)
(T (W xff xff xff xff xff xff xff xff)
(L (W x00 x00 x80 xbf x00 x00 x80 xbf)) E)
(T (W x00 x00 x01 x01 xc7 x01 x00 x00)
(L (W xff xff xff xff xff xff xff xff)) E)))
(T (W x4a x6f xfa xff x74 x00 x00 x00)
(T (W x00 x00 x58 x00 x00 x00 x00 x00)
(T (W xff xff xff xff xff xff xff xff)
(L (W xff xff xff xff xff xff xff xff))
(L (W xff xff xff xff xff xff xff xff)))
(T (W x49 xa1 x68 x4a xeb x5f xdd x3d)
(L (W x00 x00 x80 xbf x00 x00 x80 xbf)) E))
(T (W xff xff xff xff x03 x00 x00 x00)
(T (W xff xff xff xff xff xff xff xff)
(L (W x00 x00 x80 xbf x00 x00 x80 xbf)) E)
(T (W x3c x00 x00 x00 x3c x00 x00 x00)
(L (W x18 x00 x00 x00 x10 x00 x00 x00)) E)))))))
(T (W xff xff xff xff xff xff xff xff)
(T (W x00 x00 x80 x3f x00 x00 x80 x3f)
(T (W x01 x00 x00 x00 xa0 x00 x00 x00)
(T (W x00 x00 x01 x01 xc9 x00 x00 x00)
(T (W xff xff xff xff xff xff xff xff)
(T (W x00 x00 x00 x00 x00 x00 x00 x00)
(T (W x4a x7b xfb xff x74 x00 x00 x00)
(L (W x6c x00 x00 x00 x60 x00 x00 x00))
(L (W x00 x00 x00 x00 x00 x00 x00 x00)))
(T (W x00 x00 x80 x3f x00 x00 x80 x3f)
(L (W x00 x00 x01 x01 x5d x00 x00 x00)) E))
(T (W x00 x00 x00 x00 x00 x00 x00 x00)
(T (W x00 x00 x00 x00 x8c xfe xfb xff)
(L (W x00 x00 x80 xbf x00 x00 x80 xbf))
(L (W x6c x00 x00 x00 x60 x00 x00 x00)))
(T (W x6f x79 x61 x62 x75 x6e x00 x00)
(L (W xff xff xff xff xff xff xff xff)) E)))
(T (W x00 x00 x80 x3f x00 x00 x80 x3f)
(T (W x00 x00 x80 x3f x00 x00 x80 x3f)
(T (W xff xff xff xff x03 x00 x00 x00)
(L (W x00 x00 x00 x00 x00 x00 x00 x00))
(L (W xff xff xff xff xff xff xff xff)))
(T (W x00 x00 x80 x3f x00 x00 x80 x3f)
(L (W x00 x00 x80 xbf x00 x00 x80 xbf)) E))
(T (W x00 x00 x00 x00 x00 x00 x00 x00)
(T (W x18 x00 x00 x00 x0c x00 x00 x00)
(L (W x46 x53 x59 x53 x5f x4e x53 x5f)) E)
(T (W x03 x00 x00 x00 xd0 x00 x00 x00)
(L (W xfa x3c xff xff x78 x00 x00 x00)) E))))
(T (W x45 x26 x22 x84 xe4 x9c xf2 xcb)
(T (W x45 x26 x22 x84 xe4 x9c xf2 xcb)
(T (W x4a x9b xfa xff x74 x00 x00 x00)
(T (W x00 x00 x80 x3f x00 x00 x80 x3f)
(L (W x1c xa0 xfd xff x00 x01 x01 x01))
(L (W xff xff xff xff xff xff xff xff)))
(T (W x00 x00 x00 x00 x00 x00 x00 x00)
(L (W x00 x00 x00 x00 x00 x00 x00 x00)) E))
(T (W x00 x00 x80 x3f x00 x00 x80 x3f)
(T (W x30 x32 x5f x43 x4c x45 x41 x52)
(L (W xff xff xff xff xff xff xff xff)) E)
(T (W x4f x84 x6f x8b xe8 xcb x63 xb7)
(L (W x49 xa1 x68 x4a xeb x5f xdd x3d)) E)))
(T (W x00 x00 x00 x00 x00 x00 x00 x00)
(T (W x00 x00 x00 x00 x00 x00 x00 x00)
(T (W x00 x00 x80 x3f x00 x00 x80 x3f)
(L (W xff xff xff xff xff xff xff xff))
(L (W x00 x00 x01 x01 xc2 x01 x00 x00)))
(T (W x49 xa1 x68 x4a xeb x5f xdd x3d)
(L (W xbc x00 x00 x00 x64 x00 x00 x00)) E))
(T (W xfa x5c xfb xff x78 x00 x00 x00)
(T (W xff xff xff xff xff xff xff xff)
(L (W x45 x26 x22 x84 xe4 x9c xf2 xcb)) E)
(T (W x00 x00 x80 xbf x00 x00 x80 xbf)
(L (W x00 x00 x01 x01 x5c x00 x00 x00)) E)))))
(T (W xff xff xff xff xff xff xff xff)
(T (W x00 x00 x00 x00 x00 x00 x00 x00)
(T (W x01 x00 x00 x00 xa0 x00 x00 x00)
(T (W x48 x03 x00 x00 x34 x02 x00 x00)
(T (W xa1 x01 x00 x00 xff xff xff xff)
(L (W x00 x00 x80 xbf x00 x00 x80 xbf))
(L (W x00 x00 x80 xbf x00 x00 x80 xbf)))
(T (W x00 x00 x00 x00 x00 x00 x00 x00)
(L (W x00 x00 x00 x00 x00 x00 x00 x00)) E))
(T (W xfa x0c xfb xff x78 x00 x00 x00)
(T (W xff xff xff xff xff xff xff xff)
(L (W x00 x00 x00 x00 x8c x0e xfe xff)) E)
(T (W x00 x00 x80 xbf x00 x00 x80 xbf)
(L (W x46 x53 x59 x53 x5f x4e x53 x5f)) E)))
(T (W x00 x00 x00 x00 x00 x00 x00 x00)
(T (W x00 x00 x80 x3f x00 x00 x80 x3f)
(T (W xb2 xdf xfe xff x00 x00 x01 x01)
(L (W x6c x00 x00 x00 x60 x00 x00 x00))
(L (W xff xff xff xff xff xff xff xff)))
(T (W xff xff xff xff x01 x00 x00 x00)
(L (W xfa xcc xfe xff x78 x00 x00 x00)) E))
(T (W x9c x03 x00 x00 x6c x02 x00 x00)
(T (W xff xff xff xff x03 x00 x00 x00)
(L (W x00 x00 x80 xbf x00 x00 x80 xbf)) E)
(T (W xff xff xff xff xff xff xff xff)
(L (W xff xff xff xff xff xff xff xff)) E))))
(T (W xb8 x00 x00 x00 xac x00 x00 x00)
(T (W x00 x00 x80 x3f x00 x00 x80 x3f)
(T (W x00 x00 x80 x3f x00 x00 x80 x3f)
(T (W x30 x32 x5f x43 x4c x45 x41 x52)
(L (W x45 x26 x22 x84 xe4 x9c xf2 xcb))
(L (W x1c xb0 xff xff x00 x01 x01 x01)))
(T (W x4a xab xfc xff x74 x00 x00 x00)
(L (W x45 x26 x22 x84 xe4 x9c xf2 xcb)) E))
(T (W xff xff xff xff xff xff xff xff)
(T (W x00 x00 x80 x3f x00 x00 x80 x3f)
(L (W x00 x00 x00 x00 x00 x00 x00 x00)) E)
(T (W x00 x00 x80 xbf x00 x00 x80 xbf)
(L (W x00 x00 x80 xbf x00 x00 x80 xbf)) E)))
(T (W xef x59 x29 xfe xb2 x0e xf2 x48)
(T (W x00 x00 x00 x00 x00 x00 x00 x00)
(T (W x00 x00 x80 x3f x00 x00 x80 x3f)
(L (W x00 x00 x00 x00 x00 x00 x00 x00))
(L (W x00 x00 x00 x00 x00 x00 x00 x00)))
(T (W x45 x26 x22 x84 xe4 x9c xf2 xcb)
(L (W x00 x00 x00 x00 x7a xf2 xfe xff)) E))
(T (W xff xff xff xff xff xff xff xff)
(T (W x00 x00 x80 x3f x00 x00 x80 x3f)
(L (W xff xff xff xff xff xff xff xff)) E)
(T (W x00 x00 x00 x00 x8c x6e xfd xff)
(L (W x18 x00 x00 x00 x0c x00 x00 x00)) E))))))
(T (W x00 x00 x00 x00 x00 x00 x00 x00)
(T (W x00 x00 x00 x00 x00 x00 x00 x00)
(T (W xfa xc4 xf9 xff x78 x00 x00 x00)
(T (W x18 x00 x00 x00 x10 x00 x00 x00)
(T (W x00 x00 x00 x00 x00 x00 x00 x00)
(T (W x00 x00 x00 x00 x8c x86 xfb xff)
(L (W x00 x00 x80 xbf x00 x00 x80 xbf))
(L (W x00 x00 x80 xbf x00 x00 x80 xbf)))
(T (W x00 x00 x80 x3f x00 x00 x80 x3f)
(L (W x00 x00 x00 x00 x00 x00 x00 x00)) E))
(T (W x00 x00 x80 x3f x00 x00 x80 x3f)
(T (W xcc x00 x00 x00 xc0 x00 x00 x00)
(L (W x00 x00 x80 xbf x00 x00 x80 xbf)) E)
(T (W x00 x00 x00 x00 x01 x00 x00 x00)
(L (W x00 x00 x00 x00 x00 x00 x00 x00)) E)))
(T (W x00 x00 x80 x3f x00 x00 x80 x3f)
(T (W x50 x00 x00 x00 x44 x00 x00 x00)
(T (W x4b x00 x00 x00 xff xff xff xff)
(L (W x45 x26 x22 x84 xe4 x9c xf2 xcb))
(L (W xff xff xff xff xff xff xff xff)))
(T (W x55 x39 x81 x6a xc4 xc7 x74 x14)
(L (W x00 x00 x80 xbf x00 x00 x80 xbf)) E))
(T (W x4a x43 xfb xff x74 x00 x00 x00)
(T (W x45 x26 x22 x84 xe4 x9c xf2 xcb)
(L (W x00 x00 x00 x00 x00 x00 x00 x00)) E)
(T (W xff xff xff xff xff xff xff xff)
(L (W xbc x00 x00 x00 x46 x00 x00 x00)) E))))
(T (W xff xff xff xff xff xff xff xff)
(T (W x00 x00 x80 x3f x00 x00 x80 x3f)
(T (W x00 x00 x80 x3f x00 x00 x80 x3f)
(T (W xff xff xff xff xff xff xff xff)
(L (W xff xff xff xff xff xff xff xff))
(L (W x45 x26 x22 x84 xe4 x9c xf2 xcb)))
(T (W x4a xa3 xfc xff x74 x00 x00 x00)
(L (W x00 x00 x00 x00 x00 x00 x00 x00)) E))
(T (W xfa x24 xfb xff x78 x00 x00 x00)
(T (W x00 x00 x00 x00 x00 x00 x00 x00)
(L (W xff xff xff xff xff xff xff xff)) E)
(T (W x00 x00 x00 x00 x00 x00 x00 x00)
(L (W x00 x00 x80 xbf x00 x00 x80 xbf)) E)))
(T (W x00 x00 x00 x00 x00 x00 x00 x00)
(T (W x00 x00 x00 x00 x00 x00 x00 x00)
(T (W x00 x00 x80 x3f x00 x00 x80 x3f)
(L (W xff xff xff xff xff xff xff xff))
(L (W x30 x32 x5f x43 x4c x45 x41 x52)))
(T (W x5f x77 x69 x6c x64 x5f x70 x6f)
(L (W xff xff xff xff xff xff xff xff)) E))
(T (W xff xff xff xff xff xff xff xff)
(T (W x00 x00 x00 x00 x00 x00 x00 x00)
(L (W xbc x00 x00 x00 x1e x00 x00 x00)) E)
(T (W x00 x00 x80 xbf x00 x00 x80 xbf)
(L (W x45 x44 x00 x00 x00 x00 x00 x00)) E)))))
(T (W x00 x00 x80 x3f x00 x00 x80 x3f)
(T (W xff xff xff xff x03 x00 x00 x00)
(T (W xb2 x27 xfd xff x00 x00 x01 x01)
(T (W x14 x00 x18 x00 x00 x00 x00 x00)
(T (W x30 x32 x5f x43 x4c x45 x41 x52)
(L (W x50 x00 x00 x00 x44 x00 x00 x00))
(L (W x17 x00 x00 x00 x1a x00 x00 x00)))
(T (W x00 x00 x00 x00 x00 x00 x00 x00)
(L (W x45 x44 x00 x00 x00 x00 x00 x00)) E))
(T (W x4f x84 x6f x8b xe8 xcb x63 xb7)
(T (W xff xff xff xff xff xff xff xff)
(L (W x15 x00 x00 x00 x18 x00 x00 x00)) E)
(T (W x00 x00 x00 x00 x00 x00 x00 x00)
(L (W x00 x00 x80 xbf x00 x00 x80 xbf)) E)))
(T (W x00 x00 x00 x00 x00 x00 x00 x00)
(T (W x00 x00 x80 x3f x00 x00 x80 x3f)
(T (W x00 x00 x00 x00 x7a xda xfb xff)
(L (W xbc x00 x00 x00 x32 x00 x00 x00))
(L (W x5c x00 x00 x00 xff xff xff xff)))
(T (W x00 x00 x00 x00 x00 x00 x00 x00)
(L (W x15 x00 x00 x00 x18 x00 x00 x00)) E))
(T (W x49 xa1 x68 x4a xeb x5f xdd x3d)
(T (W xff xff xff xff xff xff xff xff)
(L (W x00 x00 x80 xbf x00 x00 x80 xbf)) E)
(T (W x00 x00 x00 x00 x00 x00 x00 x00)
(L (W xff xff xff xff xff xff xff xff)) E))))
(T (W x18 x00 x00 x00 x0c x00 x00 x00)
(T (W x00 x00 x80 x3f x00 x00 x80 x3f)
(T (W x00 x00 x80 x3f x00 x00 x80 x3f)
(T (W x00 x00 x80 x3f x00 x00 x80 x3f)
(L (W xff xff xff xff xff xff xff xff))
(L (W x45 x26 x22 x84 xe4 x9c xf2 xcb)))
(T (W x68 x00 x00 x00 x5c x00 x00 x00)
(L (W x49 xa1 x68 x4a xeb x5f xdd x3d)) E))
(T (W x70 x5f x6c x65 x61 x64 x65 x72)
(T (W x4a x33 xfc xff x74 x00 x00 x00)
(L (W x0f x10 xb9 x28 xbf xce x67 x6a)) E)
(T (W x50 x00 x00 x00 x44 x00 x00 x00)
(L (W x54 x00 x00 x00 x48 x00 x00 x00)) E)))
(T (W x32 x86 xfd xff xd8 x00 x00 x00)
(T (W x00 x00 x80 x3f x00 x00 x80 x3f)
(T (W x45 x26 x22 x84 xe4 x9c xf2 xcb)
(L (W x4f x84 x6f x8b xe8 xcb x63 xb7))
(L (W x49 xa1 x68 x4a xeb x5f xdd x3d)))
(T (W xff xff xff xff xff xff xff xff)
(L (W xc4 x06 x00 x00 xb0 x05 x00 x00)) E))
(T (W x00 x00 x00 x00 x00 x00 x00 x00)
(T (W x1c x78 xfc xff x00 x01 x01 x01)
(L (W x5d x00 x00 x00 xff xff xff xff)) E)
(T (W x6c x00 x00 x00 x60 x00 x00 x00)
(L (W x46 x53 x59 x53 x5f x4e x53 x5f)) E)))))))))
(T (W xa8 x1e x02 x00 x4c x1c x02 x00)
(T (W x08 xa0 x00 x00 x74 x9d x00 x00)
(T (W x00 x00 x80 x3f x00 x00 x80 x3f)
(T (W x00 x00 x00 x00 x3a x24 xfd xff)
(T (W x00 x00 x80 x3f x00 x00 x80 x3f)
(T (W x45 x26 x22 x84 xe4 x9c xf2 xcb)
(T (W xc8 xf0 x31 x47 xbc xcb x7a x6d)
(T (W x00 x00 x80 x3f x00 x00 x80 x3f)
(T (W xff xff xff xff x03 x00 x00 x00)
(L (W xff xff xff xff xff xff xff xff))
(L (W xff xff xff xff xa0 x00 x00 x00)))
(T (W xff xff xff xff xff xff xff xff)
(L (W x45 x26 x22 x84 xe4 x9c xf2 xcb)) E))
(T (W x00 x00 x00 x00 x00 x00 x00 x00)
(T (W xff xff xff xff xff xff xff xff)
(L (W x45 x26 x22 x84 xe4 x9c xf2 xcb))
(L (W x18 x00 x00 x00 x10 x00 x00 x00)))
(T (W xff xff xff xff x03 x00 x00 x00)
(L (W x00 x00 x80 xbf x00 x00 x80 xbf)) E)))
(T (W xb8 x00 x00 x00 xac x00 x00 x00)
(T (W xff xff xff xff xff xff xff xff)
(T (W xff xff xff xff xff xff xff xff)
(L (W xff xff xff xff xff xff xff xff))
(L (W x00 x00 x00 x00 x00 x00 x00 x00)))
(T (W xff xff xff xff xff xff xff xff)
(L (W x29 x00 x00 x00 x2c x00 x00 x00)) E))
(T (W x00 x00 x80 x3f x00 x00 x80 x3f)
(T (W x4b x00 x00 x00 xff xff xff xff)
(L (W x00 x00 x80 xbf x00 x00 x80 xbf)) E)
(T (W x04 x00 x00 x00 xea x38 xfd xff)
(L (W xff xff xff xff xff xff xff xff)) E))))
(T (W xff xff xff xff xff xff xff xff)
(T (W x45 x26 x22 x84 xe4 x9c xf2 xcb)
(T (W x00 x00 x60 x00 x00 x00 x00 x00)
(T (W x45 x26 x22 x84 xe4 x9c xf2 xcb)
(L (W xff xff xff xff xff xff xff xff))
(L (W x00 x00 x00 x00 x00 x00 x00 x00)))
(T (W x00 x00 x80 x3f x00 x00 x80 x3f)
(L (W x6c x00 x00 x00 x60 x00 x00 x00)) E))
(T (W x45 x26 x22 x84 xe4 x9c xf2 xcb)
(T (W x00 x00 x80 x3f x00 x00 x80 x3f)
(L (W x45 x44 x00 x00 x00 x00 x00 x00)) E)
(T (W xe2 x4e x69 x12 x83 x71 x37 xc6)
(L (W xcc x00 x00 x00 x01 x00 x00 x00)) E)))
(T (W x45 x26 x22 x84 xe4 x9c xf2 xcb)
(T (W xc0 x00 x00 x00 xb4 x00 x00 x00)
(T (W x45 x26 x22 x84 xe4 x9c xf2 xcb)
(L (W xa4 xe8 xfd xff x11 x00 x00 x00))
(L (W x00 x00 x00 x00 x00 x00 x00 x00)))
(T (W xfa xd7 xfc xff x78 x00 x00 x00)
(L (W x9f x01 x00 x00 xff xff xff xff)) E))
(T (W xff xff xff xff xff xff xff xff)
(T (W x00 x00 x00 x00 x00 x00 x00 x00)
(L (W xff xff xff xff xff xff xff xff)) E)
(T (W x21 x00 x00 x00 x24 x00 x00 x00)
(L (W x00 x00 x00 x00 x00 x00 x00 x00)) E)))))
(T (W x00 x00 x80 x3f x00 x00 x80 x3f)
(T (W xff xff xff xff xff xff xff xff)
(T (W x00 x00 x00 x00 x00 x00 x00 x00)
(T (W x00 x00 x00 x00 x00 x00 x00 x00)
(T (W x00 x00 x00 x00 x00 x00 x00 x00)
(L (W xff xff xff xff xff xff xff xff))
(L (W xff xff xff xff xff xff xff xff)))
(T (W x45 x26 x22 x84 xe4 x9c xf2 xcb)
(L (W x00 x00 x80 xbf x00 x00 x80 xbf)) E))
(T (W xff xff xff xff xff xff xff xff)
(T (W x46 x53 x59 x53 x5f x4e x53 x5f)
(L (W xff xff xff xff xff xff xff xff)) E)
(T (W x68 x00 x00 x00 x5c x00 x00 x00)
(L (W xfa x07 xff xff x78 x00 x00 x00)) E)))
(T (W x68 x00 x00 x00 x5c x00 x00 x00)
(T (W x18 x00 x00 x00 x10 x00 x00 x00)
(T (W x00 x00 x00 x00 x00 x00 x00 x00)
(L (W xff xff xff xff xff xff xff xff))
(L (W x00 x00 x00 x00 x00 x00 x00 x00)))
(T (W xff xff xff xff xff xff xff xff)
(L (W x00 x00 x00 x00 x7a xcd xfe xff)) E))
(T (W x6b x65 x5f x77 x61 x72 x6c x69)
(T (W x00 x00 x00 x00 x00 x00 x00 x00)
(L (W x6c x00 x00 x00 x60 x00 x00 x00)) E)
(T (W x00 x00 x00 x00 x00 x00 x00 x00)
(L (W x00 x00 x00 x00 x00 x00 x00 x00)) E))))
(T (W x00 x00 x00 x00 x00 x00 x00 x00)
(T (W xff xff xff xff xff xff xff xff)
(T (W xff xff xff xff xff xff xff xff)
(T (W x49 xa1 x68 x4a xeb x5f xdd x3d)
(L (W xb2 xe9 xff xff xc9 x00 x00 x00))
(L (W x54 x02 x00 x00 x38 x01 x00 x00)))
(T (W xff xff xff xff xff xff xff xff)
(L (W xfa xa7 xfe xff x78 x00 x00 x00)) E))
(T (W x00 x00 x00 x00 x00 x00 x00 x00)
(T (W x6c x00 x00 x00 x60 x00 x00 x00)
(L (W x00 x00 x00 x00 x00 x00 x00 x00)) E)
(T (W xff xff xff xff xff xff xff xff)
(L (W xff xff xff xff xb0 x00 x00 x00)) E)))
(T (W x00 x00 x80 x3f x00 x00 x80 x3f)
(T (W x00 x00 x00 x00 x8c xe9 xfa xff)
(T (W xff xff xff xff x9c x00 x00 x00)
(L (W xfa xe7 xfd xff x78 x00 x00 x00))
(L (W x00 x00 x80 xbf x00 x00 x80 xbf)))
(T (W x32 x00 x00 x00 x9c x00 x00 x00)
(L (W x00 x00 x00 x00 x00 x00 x00 x00)) E))
(T (W x4f x84 x6f x8b xe8 xcb x63 xb7)
(T (W xff xff xff xff xff xff xff xff)
(L (W x00 x00 x00 x00 x0a x6f xfe xff)) E)
(T (W xff xff xff xff xff xff xff xff)
(L (W x00 x00 x80 xbf x00 x00 x80 xbf)) E))))))
(T (W xbc x00 x00 x00 xb0 x00 x00 x00)
(T (W xff xff xff xff xff xff xff xff)
(T (W x00 x00 x00 x00 x00 x00 x00 x00)
(T (W x32 x11 xfd xff xc5 x01 x00 x00)
(T (W x45 x26 x22 x84 xe4 x9c xf2 xcb)
(T (W x45 x44 x00 x00 x00 x00 x00 x00)
(L (W xff xff xff xff xff xff xff xff))
(L (W xff xff xff xff xb0 x00 x00 x00)))
(T (W xff xff xff xff xff xff xff xff)
(L (W x00 x00 x80 xbf x00 x00 x80 xbf)) E))
(T (W x50 x00 x00 x00 x44 x00 x00 x00)
(T (W x00 x00 x00 x00 x00 x00 x00 x00)
(L (W xff xff xff xff xff xff xff xff))
(L (W x00 x00 x00 x01 x01 x01 x2a x00)))
(T (W xff xff xff xff xff xff xff xff)
(L (W x00 x00 x80 xbf x00 x00 x80 xbf)) E)))
(T (W x45 x26 x22 x84 xe4 x9c xf2 xcb)
(T (W xff xff xff xff x04 x00 x00 x00)
(T (W x12 x00 x00 x00 x46 x53 x59 x53)
(L (W xff xff xff xff xff xff xff xff))
(L (W x46 x53 x59 x53 x5f x4e x53 x5f)))
(T (W xff xff xff xff xff xff xff xff)
(L (W xff xff xff xff xff xff xff xff)) E))
(T (W x18 x00 x00 x00 x10 x00 x00 x00)
(T (W x4a x00 x00 x00 xff xff xff xff)
(L (W x00 x00 x80 xbf x00 x00 x80 xbf)) E)
(T (W x00 x00 x00 x00 x12 x00 x00 x00)
(L (W xff xff xff xff xff xff xff xff)) E))))
(T (W x00 x00 x00 x00 x00 x00 x00 x00)
(T (W xb8 x00 x00 x00 xac x00 x00 x00)
(T (W x48 x03 x00 x00 x34 x02 x00 x00)
(T (W x1e xdb x03 x4d x64 x31 xc6 xac)
(L (W x78 x00 x08 x00 x70 x00 x0c x00))
(L (W x00 x00 x62 x00 x78 x00 x08 x00)))
(T (W x18 x01 x00 x00 x04 x00 x00 x00)
(L (W x54 x00 x00 x00 x48 x00 x00 x00)) E))
(T (W xff xff xff xff xff xff xff xff)
(T (W x00 x00 x80 x3f x00 x00 x80 x3f)
(L (W x00 x00 x00 x00 x00 x00 x00 x00)) E)
(T (W x50 x00 x00 x00 x44 x00 x00 x00)
(L (W xff xff xff xff xff xff xff xff)) E)))
(T (W x18 x00 x00 x00 x0c x00 x00 x00)
(T (W xff xff xff xff x03 x00 x00 x00)
(T (W x1c xe3 xfb xff x00 x01 x01 x01)
(L (W x00 x00 x00 x00 x00 x00 x00 x00))
(L (W x00 x00 x80 xbf x00 x00 x80 xbf)))
(T (W x18 x00 x00 x00 x10 x00 x00 x00)
(L (W xa4 xf0 xfe xff x10 x00 x00 x00)) E))
(T (W xff xc1 xa4 xc6 x45 x49 x02 xba)
(T (W x00 x00 x80 x3f x00 x00 x80 x3f)
(L (W x29 x00 x00 x00 xff xff xff xff)) E)
(T (W xff xff xff xff xff xff xff xff)
(L (W x49 xa1 x68 x4a xeb x5f xdd x3d)) E)))))
(T (W x00 x00 x00 x00 x00 x00 x00 x00)
(T (W x00 x00 x80 x3f x00 x00 x80 x3f)
(T (W x45 x26 x22 x84 xe4 x9c xf2 xcb)
(T (W x45 x26 x22 x84 xe4 x9c xf2 xcb)
(T (W x00 x00 x80 x3f x00 x00 x80 x3f)
(L (W xff xff xff xff xff xff xff xff))
(L (W xff xff xff xff xff xff xff xff)))
(T (W x1c x93 xfc xff x00 x01 x01 x01)
(L (W x00 x00 x80 xbf x00 x00 x80 xbf)) E))
(T (W x00 x00 x00 x00 x2a x0f xfb xff)
(T (W x00 x00 x00 x00 x00 x00 x00 x00)
(L (W xff xff xff xff xff xff xff xff)) E)
(T (W x45 x26 x22 x84 xe4 x9c xf2 xcb)
(L (W x50 x00 x00 x00 x44 x00 x00 x00)) E)))
(T (W x1c x53 xfa xff x00 x01 x01 x01)
(T (W xb8 x00 x00 x00 xac x00 x00 x00)
(T (W x00 x00 x80 x3f x00 x00 x80 x3f)
(L (W x30 x32 x5f x43 x4c x45 x41 x52))
(L (W x00 x00 x00 x00 x00 x00 x00 x00)))
(T (W x45 x26 x22 x84 xe4 x9c xf2 xcb)
(L (W x45 x44 x00 x00 x00 x00 x00 x00)) E))
(T (W x54 x00 x00 x00 x48 x00 x00 x00)
(T (W x00 x00 x00 x00 x00 x00 x00 x00)
(L (W xbc x00 x00 x00 x32 x00 x00 x00)) E)
(T (W x54 x00 x00 x00 x48 x00 x00 x00)
(L (W x00 x00 x00 x00 x12 x00 x00 x00)) E))))
(T (W x00 x00 x00 x00 x00 x00 x00 x00)
(T (W xff xff xff xff xff xff xff xff)
(T (W xff xff xff xff xff xff xff xff)
(T (W x68 x00 x00 x00 x5c x00 x00 x00)
(L (W x00 x00 x80 xbf x00 x00 x80 xbf))
(L (W x30 x32 x5f x43 x4c x45 x41 x52)))
(T (W xb2 xc2 xff xff x00 x00 x01 x01)
(L (W xfa xaf xfe xff x78 x00 x00 x00)) E))
(T (W x00 x00 x80 x3f x00 x00 x80 x3f)
(T (W x18 x00 x00 x00 x10 x00 x00 x00)
(L (W x00 x00 x80 xbf x00 x00 x80 xbf)) E)
(T (W xff xff xff xff xff xff xff xff)
(L (W xff xff xff xff xff xff xff xff)) E)))
(T (W x54 x00 x00 x00 x48 x00 x00 x00)
(T (W x45 x26 x22 x84 xe4 x9c xf2 xcb)
(T (W xff xff xff xff xff xff xff xff)
(L (W xff xff xff xff xb0 x00 x00 x00))
(L (W x19 x00 x00 x00 x1c x00 x00 x00)))
(T (W x00 x00 x00 x00 x00 x00 x00 x00)
(L (W x00 x00 x80 xbf x00 x00 x80 xbf)) E))
(T (W x4a x6e xfb xff x74 x00 x00 x00)
(T (W xff xff xff xff xff xff xff xff)
(L (W x00 x00 x00 x00 x00 x00 x00 x00)) E)
(T (W x13 x00 x00 x00 x10 x00 x00 x00)
(L (W x6c x00 x00 x00 x60 x00 x00 x00)) E)))))))
(T (W x64 x00 x00 x00 xa0 x00 x00 x00)
(T (W x00 x00 x80 x3f x00 x00 x80 x3f)
(T (W xc4 x2b x00 x00 xb0 x2a x00 x00)
(T (W xff xff xff xff xff xff xff xff)
(T (W x4a xfa xf9 xff x74 x00 x00 x00)
(T (W xff xff xff xff xff xff xff xff)
(T (W x00 x00 x00 x00 x00 x00 x00 x00)
(L (W x45 x26 x22 x84 xe4 x9c xf2 xcb))
(L (W x45 x44 x00 x00 x00 x00 x00 x00)))
(T (W x00 x00 x80 x3f x00 x00 x80 x3f)
(L (W xff xff xff xff xbc x00 x00 x00)) E))
(T (W x54 x02 x00 x00 x34 x01 x00 x00)
(T (W x00 x00 x80 x3f x00 x00 x80 x3f)
(L (W x00 x00 x00 x00 x00 x00 x00 x00))
(L (W x00 x00 x62 x00 x80 x00 x08 x00)))
(T (W xff xff xff xff xff xff xff xff)
(L (W xff xff xff xff xff xff xff xff)) E)))
(T (W x45 x26 x22 x84 xe4 x9c xf2 xcb)
(T (W x00 x00 x80 x3f x00 x00 x80 x3f)
(T (W x6c x00 x00 x00 x60 x00 x00 x00)
(L (W x00 x00 x00 x00 x00 x00 x00 x00))
(L (W x21 x00 x00 x00 x24 x00 x00 x00)))
(T (W x45 x26 x22 x84 xe4 x9c xf2 xcb)
(L (W x00 x00 x00 x00 x00 x00 x00 x00)) E))
(T (W x67 x72 x6f x75 x70 x5f x6c x65)
(T (W x00 x00 x80 x3f x00 x00 x80 x3f)
(L (W x00 x00 x00 x00 xea x3c xfe xff)) E)
(T (W x68 x00 x00 x00 x5c x00 x00 x00)
(L (W x00 x00 x80 xbf x00 x00 x80 xbf)) E))))
(T (W x4a xda xf9 xff x74 x00 x00 x00)
(T (W x6f x77 x61 x72 x64 x00 x00 x00)
(T (W x00 x00 x80 x3f x00 x00 x80 x3f)
(T (W x00 x00 x80 x3f x00 x00 x80 x3f)
(L (W x00 x00 x80 xbf x00 x00 x80 xbf))
(L (W x18 x00 x00 x00 x0c x00 x00 x00)))
(T (W x00 x00 x00 x00 x00 x00 x00 x00)
(L (W x00 x00 x00 x00 x2a x9b xfe xff)) E))
(T (W x00 x00 x80 x3f x00 x00 x80 x3f)
(T (W x4b x00 x00 x00 xff xff xff xff)
(L (W x21 x00 x00 x00 x24 x00 x00 x00)) E)
(T (W x00 x00 x00 x00 x00 x00 x00 x00)
(L (W x00 x00 x00 x00 x00 x00 x00 x00)) E)))
(T (W x21 x0a x0d xf4 xa1 x5b xe8 x10)
(T (W x00 x00 x00 x00 x00 x00 x00 x00)
(T (W x00 x00 x00 x00 x00 x00 x00 x00)
(L (W xff xff xff xff xa0 x00 x00 x00))
(L (W xff xff xff xff xff xff xff xff)))
(T (W x00 x00 x00 x00 x00 x00 x00 x00)
(L (W x1c xdf xfe xff x00 x01 x01 x01)) E))
(T (W x00 x00 x80 x3f x00 x00 x80 x3f)
(T (W xff xff xff xff xff xff xff xff)
(L (W x00 x00 x80 xbf x00 x00 x80 xbf)) E)
(T (W x00 x00 x00 x00 x00 x00 x00 x00)
(L (W xff xff xff xff xff xff xff xff)) E)))))
(T (W xff xff xff xff xff xff xff xff)
(T (W x00 x00 x00 x00 x00 x00 x00 x00)
(T (W x00 x00 x80 x3f x00 x00 x80 x3f)
(T (W xff xff xff xff xff xff xff xff)
(T (W x45 x26 x22 x84 xe4 x9c xf2 xcb)
(L (W x4f x84 x6f x8b xe8 xcb x63 xb7))
(L (W x49 xa1 x68 x4a xeb x5f xdd x3d)))
(T (W x00 x00 x00 x00 x00 x00 x00 x00)
(L (W x5c x00 x00 x00 xff xff xff xff)) E))
(T (W x50 x00 x00 x00 x44 x00 x00 x00)
(T (W x01 x00 x00 x00 xb0 x00 x00 x00)
(L (W x00 x00 x80 xbf x00 x00 x80 xbf)) E)
(T (W x00 x00 x00 x00 x00 x00 x00 x00)
(L (W x00 x00 x01 x01 x2f x00 x00 x00)) E)))
(T (W x00 x00 x00 x00 x00 x00 x00 x00)
(T (W x45 x26 x22 x84 xe4 x9c xf2 xcb)
(T (W xff xff xff xff xff xff xff xff)
(L (W x00 x00 x80 xbf x00 x00 x80 xbf))
(L (W xff xff xff xff xff xff xff xff)))
(T (W x50 x00 x00 x00 x44 x00 x00 x00)
(L (W x00 x00 x80 xbf x00 x00 x80 xbf)) E))
(T (W xff xff xff xff xff xff xff xff)
(T (W xff xff xff xff x9c x00 x00 x00)
(L (W x00 x00 x00 x00 x00 x00 x00 x00)) E)
(T (W xff xff xff xff xff xff xff xff)
(L (W x11 x00 x00 x00 x14 x00 x00 x00)) E))))
(T (W x68 x00 x00 x00 x5c x00 x00 x00)
(T (W x00 x00 x00 x00 x00 x00 x00 x00)
(T (W x00 x00 x80 x3f x00 x00 x80 x3f)
(T (W xa1 x01 x00 x00 xff xff xff xff)
(L (W x00 x00 x00 x00 x00 x00 x00 x00))
(L (W x54 x00 x00 x00 x48 x00 x00 x00)))
(T (W x68 x00 x00 x00 x5c x00 x00 x00)
(L (W x00 x00 x00 x00 x12 x00 x00 x00)) E))
(T (W xff xff xff xff x03 x00 x00 x00)
(T (W x6b x65 x5f x77 x61 x72 x6c x69)
(L (W xff xff xff xff xff xff xff xff)) E)
(T (W x00 x00 x00 x00 x00 x00 x00 x00)
(L (W x00 x00 x80 xbf x00 x00 x80 xbf)) E)))
(T (W xff xff xff xff xff xff xff xff)
(T (W x00 x00 x00 x00 x00 x00 x00 x00)
(T (W x00 x00 x00 x00 x00 x00 x00 x00)
(L (W x00 x00 x00 x00 x00 x00 x00 x00))
(L (W x00 x00 x00 x00 x00 x00 x00 x00)))
(T (W x00 x00 x00 x00 x00 x00 x00 x00)
(L (W xff xff xff xff xff xff xff xff)) E))
(T (W xff xff xff xff xff xff xff xff)
(T (W x00 x00 x80 x3f x00 x00 x80 x3f)
(L (W xbc x00 x00 x00 x1e x00 x00 x00)) E)
(T (W x00 x00 x80 xbf x00 x00 x80 xbf)
(L (W xff xff xff xff xff xff xff xff)) E))))))
(T (W x00 x00 x00 x00 x00 x00 x00 x00)
(T (W x00 x00 x00 x00 x00 x00 x00 x00)
(T (W x54 x00 x00 x00 x48 x00 x00 x00)
(T (W x1c x07 xfa xff x00 x01 x01 x01)
(T (W xae x01 x00 x00 xff xff xff xff)
(T (W x00 x00 x80 x3f x00 x00 x80 x3f)
(L (W x00 x00 x00 x00 x00 x00 x00 x00))
(L (W x00 x00 x00 x00 x00 x00 x00 x00)))
(T (W x00 x00 x00 x00 x00 x00 x00 x00)
(L (W xff xff xff xff xff xff xff xff)) E))
(T (W x49 xa1 x68 x4a xeb x5f xdd x3d)
(T (W x18 x00 x00 x00 x10 x00 x00 x00)
(L (W x00 x00 x80 xbf x00 x00 x80 xbf)) E)
(T (W xff xff xff xff xff xff xff xff)
(L (W xff xff xff xff xff xff xff xff)) E)))
(T (W x00 x00 x00 x00 x00 x00 x00 x00)
(T (W x00 x00 x00 x00 x00 x00 x00 x00)
(T (W xff xff xff xff xff xff xff xff)
(L (W x00 x00 x80 xbf x00 x00 x80 xbf))
(L (W x03 x00 x00 x00 xd0 x00 x00 x00)))
(T (W x00 x00 x00 x00 x00 x00 x00 x00)
(L (W x00 x00 x80 xbf x00 x00 x80 xbf)) E))
(T (W x00 x00 x80 x3f x00 x00 x80 x3f)
(T (W x54 x00 x00 x00 x48 x00 x00 x00)
(L (W x45 x44 x00 x00 x00 x00 x00 x00)) E)
(T (W xff xff xff xff xff xff xff xff)
(L (W x1c x47 xff xff x00 x01 x01 x01)) E))))
(T (W x4a xe2 xf9 xff x74 x00 x00 x00)
(T (W x00 x00 x80 x3f x00 x00 x80 x3f)
(T (W x45 x26 x22 x84 xe4 x9c xf2 xcb)
(T (W x00 x00 x00 x00 x8c xa5 xfb xff)
(L (W xff xff xff xff xff xff xff xff))
(L (W x00 x00 x00 x00 x00 x00 x00 x00)))
(T (W x00 x00 x80 x3f x00 x00 x80 x3f)
(L (W x00 x00 x00 x00 x00 x00 x00 x00)) E))
(T (W x50 x00 x00 x00 x44 x00 x00 x00)
(T (W x4a x00 x00 x00 xff xff xff xff)
(L (W x18 x00 x00 x00 x10 x00 x00 x00)) E)
(T (W x30 x32 x5f x43 x4c x45 x41 x52)
(L (W x00 x00 x00 x00 x00 x00 x00 x00)) E)))
(T (W x85 x03 x00 x00 xff xff xff xff)
(T (W x40 x00 x00 x00 x0c x00 x00 x00)
(T (W x00 x00 x00 x00 x00 x00 x00 x00)
(L (W xc4 x00 x00 x00 x02 x00 x00 x00))
(L (W x00 x00 x01 x01 x5c x00 x00 x00)))
(T (W xff xff xff xff xff xff xff xff)
(L (W xbc x00 x00 x00 x3c x00 x00 x00)) E))
(T (W xb8 x00 x00 x00 x14 x00 x00 x00)
(T (W x50 x00 x54 x00 x58 x00 x00 x00)
(L (W x1c x67 xfe xff x00 x01 x01 x01)) E)
(T (W x45 x26 x22 x84 xe4 x9c xf2 xcb)
(L (W xff xff xff xff xff xff xff xff)) E)))))
(T (W x00 x00 x80 x3f x00 x00 x80 x3f)
(T (W x18 x00 x00 x00 x10 x00 x00 x00)
(T (W xff xff xff xff xff xff xff xff)
(T (W xff xff xff xff xff xff xff xff)
(T (W xb2 xa6 xfe xff x00 x00 x01 x01)
(L (W x00 x00 x80 xbf x00 x00 x80 xbf))
(L (W x00 x00 x80 xbf x00 x00 x80 xbf)))
(T (W x00 x00 x00 x00 x02 x00 x00 x00)
(L (W xff xff xff xff xff xff xff xff)) E))
(T (W x50 x00 x54 x00 x58 x00 x00 x00)
(T (W xff xff xff xff xff xff xff xff)
(L (W x00 x00 x00 x00 x8c x15 xfe xff)) E)
(T (W x63 x46 x69 x12 x83 x6c x37 xc6)
(L (W x00 x00 x00 x00 x00 x00 x00 x00)) E)))
(T (W x00 x00 x00 x00 x00 x00 x00 x00)
(T (W x00 x00 x00 x00 x00 x00 x00 x00)
(T (W xff xff xff xff xff xff xff xff)
(L (W x1c xd7 xfd xff x00 x01 x01 x01))
(L (W xff xff xff xff xff xff xff xff)))
(T (W x30 x32 x5f x43 x4c x45 x41 x52)
(L (W xfa xd3 xfe xff x78 x00 x00 x00)) E))
(T (W x4c x5b xfb xff x11 x00 x00 x00)
(T (W xff xff xff xff xff xff xff xff)
(L (W x00 x00 x80 xbf x00 x00 x80 xbf)) E)
(T (W x00 x00 x00 x00 x00 x00 x00 x00)
(L (W xff xff xff xff xff xff xff xff)) E))))
(T (W x00 x00 x80 x3f x00 x00 x80 x3f)
(T (W x00 x00 x00 x00 x00 x00 x00 x00)
(T (W x00 x00 x80 x3f x00 x00 x80 x3f)
(T (W x00 x00 x00 x00 x00 x00 x00 x00)
(L (W xb0 x00 x00 x00 x64 x00 x00 x00))
(L (W x54 x00 x00 x00 x48 x00 x00 x00)))
(T (W x00 x00 x80 x3f x00 x00 x80 x3f)
(L (W x00 x00 x00 x00 x00 x00 x00 x00)) E))
(T (W xff xff xff xff xff xff xff xff)
(T (W x00 x00 x80 x3f x00 x00 x80 x3f)
(L (W xff xff xff xff xff xff xff xff)) E)
(T (W x00 x00 x80 xbf x00 x00 x80 xbf)
(L (W x00 x00 x80 xbf x00 x00 x80 xbf)) E)))
(T (W xff xff xff xff xff xff xff xff)
(T (W x00 x00 x80 x3f x00 x00 x80 x3f)
(T (W x00 x00 x00 x00 x00 x00 x00 x00)
(L (W x00 x00 x00 x00 x00 x00 x00 x00))
(L (W x00 x00 x00 x00 x00 x00 x00 x00)))
(T (W xff xff xff xff xff xff xff xff)
(L (W xff xff xff xff xff xff xff xff)) E))
(T (W x45 x44 x00 x00 x00 x00 x00 x00)
(T (W x00 x00 x00 x00 x00 x00 x00 x00)
(L (W xff xff xff xff xff xff xff xff)) E)
(T (W x00 x00 x80 xbf x00 x00 x80 xbf)
(L (W x00 x00 x01 x01 xa1 x01 x00 x00)) E))))))))
(T (W x00 x00 x00 x00 x00 x00 x00 x00)
(T (W x54 x00 x00 x00 x48 x00 x00 x00)
(T (W x00 x00 x00 x00 x00 x00 x00 x00)
(T (W x4a x98 xf9 xff x74 x00 x00 x00)
(T (W xff xff xff xff xff xff xff xff)
(T (W x45 x26 x22 x84 xe4 x9c xf2 xcb)
(T (W x18 x00 x00 x00 x10 x00 x00 x00)
(T (W x00 x00 x00 x00 x02 x00 x00 x00)
(L (W x00 x00 x00 x00 x00 x00 x00 x00))
(L (W xff xff xff xff xff xff xff xff)))
(T (W x00 x00 x00 x00 x00 x00 x00 x00)
(L (W x6c x00 x00 x00 x60 x00 x00 x00)) E))
(T (W x1c xfd xfa xff x00 x01 x01 x01)
(T (W x4f x84 x6f x8b xe8 xcb x63 xb7)
(L (W x00 x00 x00 x00 x00 x00 x00 x00))
(L (W x00 x00 x80 xbf x00 x00 x80 xbf)))
(T (W x45 x26 x22 x84 xe4 x9c xf2 xcb)
(L (W x1c xfd xfe xff x00 x01 x01 x01)) E)))
(T (W x3b x01 x00 x00 xff xff xff xff)
(T (W x00 x00 x00 x00 x00 x00 x00 x00)
(T (W x00 x00 x00 x00 x00 x00 x00 x00)
(L (W x00 x00 x00 x00 x00 x00 x00 x00))
(L (W x00 x00 x00 x00 x00 x00 x00 x00)))
(T (W x00 x00 x00 x00 x00 x00 x00 x00)
(L (W x00 x00 x00 x00 x00 x00 x00 x00)) E))
(T (W xff xff xff xff xff xff xff xff)
(T (W x00 x00 x00 x00 x00 x00 x00 x00)
(L (W xff xff xff xff xff xff xff xff)) E)
(T (W x00 x00 x00 x00 x00 x00 x00 x00)
(L (W x00 x00 x00 x00 x00 x00 x00 x00)) E))))
(T (W x00 x00 x00 x00 x00 x00 x00 x00)
(T (W x18 x00 x00 x00 x0c x00 x00 x00)
(T (W x00 x00 x00 x00 x00 x00 x00 x00)
(T (W xff xff xff xff xff xff xff xff)
(L (W x00 x00 x00 x00 x00 x00 x00 x00))
(L (W x00 x00 x00 x00 x00 x00 x00 x00)))
(T (W x45 x26 x22 x84 xe4 x9c xf2 xcb)
(L (W xff xff xff xff xff xff xff xff)) E))
(T (W x00 x00 x00 x00 x00 x00 x00 x00)
(T (W x45 x26 x22 x84 xe4 x9c xf2 xcb)
(L (W x4f x84 x6f x8b xe8 xcb x63 xb7)) E)
(T (W xb0 x00 x00 x00 x64 x00 x00 x00)
(L (W xff xff xff xff xff xff xff xff)) E)))
(T (W xb8 x00 x00 x00 xac x00 x00 x00)
(T (W xff xff xff xff xff xff xff xff)
(T (W xff xff xff xff xff xff xff xff)
(L (W x00 x00 x80 xbf x00 x00 x80 xbf))
(L (W x19 x00 x00 x00 x1c x00 x00 x00)))
(T (W xff xff xff xff xff xff xff xff)
(L (W x00 x00 x80 xbf x00 x00 x80 xbf)) E))
(T (W x9f x01 x00 x00 xff xff xff xff)
(T (W x00 x00 x80 x3f x00 x00 x80 x3f)
(L (W x00 x00 x00 x00 x00 x00 x00 x00)) E)
(T (W xff xff xff xff xff xff xff xff)
(L (W x00 x00 x80 xbf x00 x00 x80 xbf)) E)))))
(T (W x45 x26 x22 x84 xe4 x9c xf2 xcb)
(T (W xff xff xff xff xff xff xff xff)
(T (W x00 x00 x00 x00 x00 x00 x00 x00)
(T (W x4a x88 xfa xff x74 x00 x00 x00)
(T (W x00 x00 x80 x3f x00 x00 x80 x3f)
(L (W x00 x00 x00 x00 x00 x00 x00 x00))
(L (W x00 x00 x00 x00 x7a x8f xff xff)))
(T (W xff xff xff xff xff xff xff xff)
(L (W x4a x88 xfe xff x74 x00 x00 x00)) E))
(T (W x00 x00 x00 x00 x00 x00 x00 x00)
(T (W x00 x00 x80 x3f x00 x00 x80 x3f)
(L (W x00 x00 x00 x00 x00 x00 x00 x00)) E)
(T (W xff xff xff xff xff xff xff xff)
(L (W xff xff xff xff xff xff xff xff)) E)))
(T (W xff xff xff xff xff xff xff xff)
(T (W xb2 xdc xfd xff x00 x00 x01 x01)
(T (W x00 x00 x80 x3f x00 x00 x80 x3f)
(L (W x00 x00 x00 x00 x00 x00 x00 x00))
(L (W x00 x00 x00 x00 x8c xcb xff xff)))
(T (W x40 x03 x00 x00 x9c x00 x00 x00)
(L (W x00 x00 x00 x00 x00 x00 x00 x00)) E))
(T (W x00 x00 x80 x3f x00 x00 x80 x3f)
(T (W x45 x26 x22 x84 xe4 x9c xf2 xcb)
(L (W xff xff xff xff xff xff xff xff)) E)
(T (W x00 x00 x80 xbf x00 x00 x80 xbf)
(L (W x45 x26 x22 x84 xe4 x9c xf2 xcb)) E))))
(T (W x45 x26 x22 x84 xe4 x9c xf2 xcb)
(T (W xb3 x01 x00 x00 xff xff xff xff)
(T (W x00 x00 x00 x00 x00 x00 x00 x00)
(T (W x45 x26 x22 x84 xe4 x9c xf2 xcb)
(L (W x00 x00 x00 x00 x00 x00 x00 x00))
(L (W x45 x26 x22 x84 xe4 x9c xf2 xcb)))
(T (W x45 x26 x22 x84 xe4 x9c xf2 xcb)
(L (W xff xff xff xff xff xff xff xff)) E))
(T (W x00 x00 x80 x3f x00 x00 x80 x3f)
(T (W xd4 x00 x00 x00 xc8 x00 x00 x00)
(L (W x00 x00 x80 xbf x00 x00 x80 xbf)) E)
(T (W x00 x00 x00 x00 xea x2a xfd xff)
(L (W x94 x04 x00 x00 x80 x03 x00 x00)) E)))
(T (W xff xff xff xff xff xff xff xff)
(T (W xff xff xff xff xff xff xff xff)
(T (W x00 x00 x00 x00 x00 x00 x00 x00)
(L (W xff xff xff xff xff xff xff xff))
(L (W x1d x00 x00 x00 x20 x00 x00 x00)))
(T (W x00 x00 x00 x00 x00 x00 x00 x00)
(L (W x45 x26 x22 x84 xe4 x9c xf2 xcb)) E))
(T (W x45 x26 x22 x84 xe4 x9c xf2 xcb)
(T (W x00 x00 x00 x00 x00 x00 x00 x00)
(L (W x45 x26 x22 x84 xe4 x9c xf2 xcb)) E)
(T (W x00 x00 x00 x00 x00 x00 x00 x00)
(L (W x18 x00 x00 x00 x10 x00 x00 x00)) E))))))
(T (W xff xff xff xff xff xff xff xff)
(T (W x00 x00 x00 x00 x00 x00 x00 x00)
(T (W x00 x00 x80 x3f x00 x00 x80 x3f)
(T (W x00 x00 x00 x00 x00 x00 x00 x00)
(T (W x01 x00 x00 x00 xa0 x00 x00 x00)
(T (W x00 x00 x00 x00 x00 x00 x00 x00)
(L (W x1b x00 x00 x00 xff xff xff xff))
(L (W xff xff xff xff xff xff xff xff)))
(T (W x00 x00 x00 x00 x02 x00 x00 x00)
(L (W x6c x00 x00 x00 x60 x00 x00 x00)) E))
(T (W xff xff xff xff xff xff xff xff)
(T (W x00 x00 x00 x00 x00 x00 x00 x00)
(L (W x00 x00 x00 x00 x00 x00 x00 x00))
(L (W x00 x00 x80 xbf x00 x00 x80 xbf)))
(T (W x00 x00 x00 x00 x00 x00 x00 x00)
(L (W x15 x00 x00 x00 x18 x00 x00 x00)) E)))
(T (W xb2 x54 xfd xff x00 x00 x01 x01)
(T (W x40 x00 x00 x00 x10 x00 x00 x00)
(T (W x00 x00 x80 x3f x00 x00 x80 x3f)
(L (W x00 x00 x00 x00 x00 x00 x00 x00))
(L (W x00 x00 x80 xbf x00 x00 x80 xbf)))
(T (W xb2 xd4 xff xff x00 x00 x01 x01)
(L (W xa4 xd2 xfe xff x19 x00 x00 x00)) E))
(T (W x46 x53 x59 x53 x5f x4e x53 x5f)
(T (W x49 xa1 x68 x4a xeb x5f xdd x3d)
(L (W xff xff xff xff xff xff xff xff)) E)
(T (W x6c x00 x00 x00 x60 x00 x00 x00)
(L (W x00 x00 x80 xbf x00 x00 x80 xbf)) E))))
(T (W x00 x00 x00 x00 x00 x00 x00 x00)
(T (W xfa x0e x3b xd5 x81 xff x20 xbd)
(T (W x00 x00 x00 x00 x00 x00 x00 x00)
(T (W x45 x26 x22 x84 xe4 x9c xf2 xcb)
(L (W x1c xa5 xfd xff x00 x01 x01 x01))
(L (W xff xff xff xff xff xff xff xff)))
(T (W x00 x00 x00 x00 x00 x00 x00 x00)
(L (W xff xff xff xff xff xff xff xff)) E))
(T (W x00 x00 x00 x00 x00 x00 x00 x00)
(T (W xff xff xff xff xff xff xff xff)
(L (W x00 x00 x80 xbf x00 x00 x80 xbf)) E)
(T (W xff xff xff xff xff xff xff xff)
(L (W x00 x00 x00 x00 x00 x00 x00 x00)) E)))
(T (W xff xff xff xff xff xff xff xff)
(T (W xff xff xff xff xff xff xff xff)
(T (W xff xff xff xff xff xff xff xff)
(L (W x00 x00 x80 xbf x00 x00 x80 xbf))
(L (W x03 x00 x00 x00 xd8 x00 x00 x00)))
(T (W x00 x00 x00 x00 x00 x00 x00 x00)
(L (W x00 x00 x80 xbf x00 x00 x80 xbf)) E))
(T (W x00 x00 x80 x3f x00 x00 x80 x3f)
(T (W x4a x60 xfc xff x74 x00 x00 x00)
(L (W x00 x00 x00 x00 x00 x00 x00 x00)) E)
(T (W x00 x00 x00 x00 x00 x00 x00 x00)
(L (W x6c x00 x00 x00 x60 x00 x00 x00)) E)))))
(T (W x00 x00 x00 x00 x00 x00 x00 x00)
(T (W x54 x00 x00 x00 x48 x00 x00 x00)
(T (W x1c x15 xfa xff x00 x01 x01 x01)
(T (W x50 x00 x00 x00 x44 x00 x00 x00)
(T (W xff xff xff xff xff xff xff xff)
(L (W x4c x45 x41 x52 x45 x44 x00 x00))
(L (W x00 x00 x00 x00 x00 x00 x00 x00)))
(T (W xff xff xff xff xff xff xff xff)
(L (W xff xff xff xff xff xff xff xff)) E))
(T (W x00 x00 x80 x3f x00 x00 x80 x3f)
(T (W x45 x26 x22 x84 xe4 x9c xf2 xcb)
(L (W x00 x00 x00 x00 x00 x00 x00 x00)) E)
(T (W xff xff xff xff x9c x00 x00 x00)
(L (W x00 x00 x00 x00 x7a x17 xff xff)) E)))
(T (W xff xff xff xff xff xff xff xff)
(T (W xff xff xff xff xff xff xff xff)
(T (W x01 x00 x00 x00 xb0 x00 x00 x00)
(L (W x00 x00 x80 xbf x00 x00 x80 xbf))
(L (W x45 x26 x22 x84 xe4 x9c xf2 xcb)))
(T (W xff xff xff xff xa0 x00 x00 x00)
(L (W x49 xa1 x68 x4a xeb x5f xdd x3d)) E))
(T (W xcc x00 x00 x00 xc0 x00 x00 x00)
(T (W x00 x00 x80 x3f x00 x00 x80 x3f)
(L (W xff xff xff xff xff xff xff xff)) E)
(T (W xff xff xff xff xff xff xff xff)
(L (W xfa x51 xff xff x78 x00 x00 x00)) E))))
(T (W x00 x00 x80 x3f x00 x00 x80 x3f)
(T (W xff xff xff xff xff xff xff xff)
(T (W x00 x00 x00 x00 x00 x00 x00 x00)
(T (W xff xff xff xff xff xff xff xff)
(L (W x00 x00 x00 x00 x8c xb3 xfd xff))
(L (W x49 xa1 x68 x4a xeb x5f xdd x3d)))
(T (W x00 x00 x00 x00 x00 x00 x00 x00)
(L (W xff xff xff xff xff xff xff xff)) E))
(T (W x50 x00 x00 x00 x44 x00 x00 x00)
(T (W xb6 x01 x00 x00 xff xff xff xff)
(L (W x45 x26 x22 x84 xe4 x9c xf2 xcb)) E)
(T (W x30 x32 x5f x43 x4c x45 x41 x52)
(L (W x00 x00 x00 x00 x62 x34 xff xff)) E)))
(T (W xff xff xff xff xff xff xff xff)
(T (W x00 x00 x00 x00 x00 x00 x00 x00)
(T (W xaa xfa xfe xff x00 x00 x01 x01)
(L (W xff xff xff xff xff xff xff xff))
(L (W xff xff xff xff xff xff xff xff)))
(T (W x00 x00 x80 x3f x00 x00 x80 x3f)
(L (W x45 x26 x22 x84 xe4 x9c xf2 xcb)) E))
(T (W xff xff xff xff xff xff xff xff)
(T (W x43 x5d x2e x97 x85 x1a x59 x5f)
(L (W x00 x00 x80 xbf x00 x00 x80 xbf)) E)
(T (W x44 x00 x48 x00 x00 x00 x4c x00)
(L (W x03 x00 x00 x00 xd8 x00 x00 x00)) E)))))))
(T (W xff xff xff xff xff xff xff xff)
(T (W x6c x00 x00 x00 x60 x00 x00 x00)
(T (W xff xff xff xff xff xff xff xff)
(T (W x00 x00 x00 x00 x00 x00 x00 x00)
(T (W xff xff xff xff xff xff xff xff)
(T (W x00 x00 x00 x00 x00 x00 x00 x00)
(T (W xff xff xff xff x9c x00 x00 x00)
(L (W xff xff xff xff xa0 x00 x00 x00))
(L (W x00 x00 x80 xbf x00 x00 x80 xbf)))
(T (W x1c x81 xfc xff x00 x01 x01 x01)
(L (W x46 x53 x59 x53 x5f x4e x53 x5f)) E))
(T (W x45 x26 x22 x84 xe4 x9c xf2 xcb)
(T (W xff xff xff xff xff xff xff xff)
(L (W x00 x00 x80 xbf x00 x00 x80 xbf))
(L (W x64 x00 x68 x00 x62 x00 x00 x00)))
(T (W x00 x00 x00 x00 x00 x00 x00 x00)
(L (W x17 x00 x00 x00 x0c x00 x00 x00)) E)))
(T (W x00 x00 x80 x3f x00 x00 x80 x3f)
(T (W x68 x00 x00 x00 x5c x00 x00 x00)
(T (W xff xff xff xff xff xff xff xff)
(L (W x45 x26 x22 x84 xe4 x9c xf2 xcb))
(L (W xff xff xff xff xff xff xff xff)))
(T (W x68 x00 x00 x00 x5c x00 x00 x00)
(L (W xfa xbd xfe xff x78 x00 x00 x00)) E))
(T (W x00 x00 x80 x3f x00 x00 x80 x3f)
(T (W xff xff xff xff xff xff xff xff)
(L (W x00 x00 x00 x00 x00 x00 x00 x00)) E)
(T (W xff xff xff xff xff xff xff xff)
(L (W xff xff xff xff xa0 x00 x00 x00)) E))))
(T (W xff xff xff xff xff xff xff xff)
(T (W x00 x00 x80 x3f x00 x00 x80 x3f)
(T (W xff xff xff xff xff xff xff xff)
(T (W x18 x00 x00 x00 x0c x00 x00 x00)
(L (W x03 x00 x00 x00 xcc x00 x00 x00))
(L (W xff xff xff xff xff xff xff xff)))
(T (W x1c xa1 xfc xff x00 x01 x01 x01)
(L (W x49 xa1 x68 x4a xeb x5f xdd x3d)) E))
(T (W x6c x00 x00 x00 x60 x00 x00 x00)
(T (W x00 x00 x00 x00 x00 x00 x00 x00)
(L (W xff xff xff xff xff xff xff xff)) E)
(T (W x00 x00 x80 xbf x00 x00 x80 xbf)
(L (W x00 x00 x80 xbf x00 x00 x80 xbf)) E)))
(T (W x00 x00 x80 x3f x00 x00 x80 x3f)
(T (W x00 x00 x80 x3f x00 x00 x80 x3f)
(T (W x00 x00 x80 x3f x00 x00 x80 x3f)
(L (W xff xff xff xff xff xff xff xff))
(L (W x46 x53 x59 x53 x5f x4e x53 x5f)))
(T (W x00 x00 x80 x3f x00 x00 x80 x3f)
(L (W xff xff xff xff xff xff xff xff)) E))
(T (W xff xff xff xff xff xff xff xff)
(T (W x00 x00 x00 x00 x00 x00 x00 x00)
(L (W xff xff xff xff xc8 x00 x00 x00)) E)
(T (W x00 x00 x80 xbf x00 x00 x80 xbf)
(L (W x30 x32 x5f x43 x4c x45 x41 x52)) E)))))
(T (W xff xff xff xff xff xff xff xff)
(T (W x00 x00 x00 x00 x00 x00 x00 x00)
(T (W xff xff xff xff x03 x00 x00 x00)
(T (W x00 x00 x00 x00 x00 x00 x00 x00)
(T (W x30 x32 x5f x43 x4c x45 x41 x52)
(L (W x4a x8c xfd xff x74 x00 x00 x00))
(L (W xcc x00 x00 x00 x01 x00 x00 x00)))
(T (W x00 x00 x80 x3f x00 x00 x80 x3f)
(L (W x00 x00 x00 x00 x00 x00 x00 x00)) E))
(T (W xff xff xff xff x9c x00 x00 x00)
(T (W xb2 x20 xff xff x00 x00 x01 x01)
(L (W x1b x00 x00 x00 x1e x00 x00 x00)) E)
(T (W xc1 x02 x00 x00 xff xff xff xff)
(L (W x00 x00 x00 x00 x00 x00 x00 x00)) E)))
(T (W x00 x00 x80 x3f x00 x00 x80 x3f)
(T (W x1c xd1 xfa xff x00 x01 x01 x01)
(T (W x30 x32 x5f x43 x4c x45 x41 x52)
(L (W xff xff xff xff x9c x00 x00 x00))
(L (W x00 x00 x00 x00 x00 x00 x00 x00)))
(T (W x00 x00 x00 x00 x00 x00 x00 x00)
(L (W x45 x26 x22 x84 xe4 x9c xf2 xcb)) E))
(T (W x00 x00 x00 x00 x00 x00 x00 x00)
(T (W xff xff xff xff xff xff xff xff)
(L (W x00 x00 x80 xbf x00 x00 x80 xbf)) E)
(T (W x30 x32 x5f x43 x4c x45 x41 x52)
(L (W xff xff xff xff xff xff xff xff)) E))))
(T (W xff xff xff xff xff xff xff xff)
(T (W x00 x00 x80 x3f x00 x00 x80 x3f)
(T (W x4a xac xfa xff x74 x00 x00 x00)
(T (W x00 x00 x00 x00 x00 x00 x00 x00)
(L (W x00 x00 x80 xbf x00 x00 x80 xbf))
(L (W xb0 x00 x00 x00 x64 x00 x00 x00)))
(T (W xff xff xff xff xff xff xff xff)
(L (W x00 x00 x80 xbf x00 x00 x80 xbf)) E))
(T (W x5f x77 x69 x6c x64 x5f x70 x6f)
(T (W x00 x00 x80 x3f x00 x00 x80 x3f)
(L (W x00 x00 x00 x00 x00 x00 x00 x00)) E)
(T (W x00 x00 x80 xbf x00 x00 x80 xbf)
(L (W x6c x00 x00 x00 x60 x00 x00 x00)) E)))
(T (W x00 x00 x00 x00 x00 x00 x00 x00)
(T (W x00 x00 x00 x00 x00 x00 x00 x00)
(T (W x45 x26 x22 x84 xe4 x9c xf2 xcb)
(L (W x00 x00 x00 x00 x00 x00 x00 x00))
(L (W x00 x00 x00 x00 x00 x00 x00 x00)))
(T (W xc8 x00 x00 x00 xbc x00 x00 x00)
(L (W x00 x00 x00 x00 x00 x00 x00 x00)) E))
(T (W x70 x5f x6c x65 x61 x64 x65 x72)
(T (W x45 x26 x22 x84 xe4 x9c xf2 xcb)
(L (W x29 x00 x00 x00 xff xff xff xff)) E)
(T (W xff xff xff xff xff xff xff xff)
(L (W x49 xa1 x68 x4a xeb x5f xdd x3d)) E))))))
(T (W x00 x00 x00 x00 x00 x00 x00 x00)
(T (W x00 x00 x80 x3f x00 x00 x80 x3f)
(T (W x18 x00 x00 x00 x0c x00 x00 x00)
(T (W xff xff xff xff xff xff xff xff)
(T (W x00 x00 x00 x00 x00 x00 x00 x00)
(T (W xa5 x01 x00 x00 xff xff xff xff)
(L (W x00 x00 x80 xbf x00 x00 x80 xbf))
(L (W xfa x85 xff xff x78 x00 x00 x00)))
(T (W x00 x00 x80 x3f x00 x00 x80 x3f)
(L (W x00 x00 x00 x00 x00 x00 x00 x00)) E))
(T (W x2c x00 x00 x00 xac x00 x00 x00)
(T (W xff xff xff xff xff xff xff xff)
(L (W x00 x00 x00 x00 x8c x07 xfe xff)) E)
(T (W x00 x00 x00 x00 x00 x00 x00 x00)
(L (W x00 x00 x00 x00 x12 x00 x00 x00)) E)))
(T (W x00 x00 x80 x3f x00 x00 x80 x3f)
(T (W x4a xc4 xfa xff x74 x00 x00 x00)
(T (W x00 x00 x00 x00 x00 x00 x00 x00)
(L (W xcc x00 x00 x00 x01 x00 x00 x00))
(L (W xff xff xff xff xff xff xff xff)))
(T (W x62 x00 x00 x00 x00 x01 x01 x01)
(L (W x4a xc4 xfe xff x74 x00 x00 x00)) E))
(T (W xff xff xff xff xff xff xff xff)
(T (W xff xff xff xff xff xff xff xff)
(L (W x4f x84 x6f x8b xe8 xcb x63 xb7)) E)
(T (W xff xff xff xff xff xff xff xff)
(L (W xff xff xff xff xff xff xff xff)) E))))
(T (W xff xff xff xff xff xff xff xff)
(T (W x18 x00 x00 x00 x0c x00 x00 x00)
(T (W x18 x00 x00 x00 x0c x00 x00 x00)
(T (W x00 x00 x00 x00 x00 x00 x00 x00)
(L (W xff xff xff xff xff xff xff xff))
(L (W x74 x00 x00 x00 x68 x00 x00 x00)))
(T (W x00 x00 x00 x00 x8c xa7 xfc xff)
(L (W x00 x00 x80 xbf x00 x00 x80 xbf)) E))
(T (W xff xff xff xff x9c x00 x00 x00)
(T (W x00 x00 x80 x3f x00 x00 x80 x3f)
(L (W x00 x00 x00 x00 x00 x00 x00 x00)) E)
(T (W x00 x00 x80 xbf x00 x00 x80 xbf)
(L (W x00 x00 x80 xbf x00 x00 x80 xbf)) E)))
(T (W x00 x00 x00 x00 x00 x00 x00 x00)
(T (W x00 x00 x80 x3f x00 x00 x80 x3f)
(T (W x50 x00 x00 x00 x44 x00 x00 x00)
(L (W x5f x77 x69 x6c x64 x5f x70 x6f))
(L (W x00 x00 x00 x00 x00 x00 x00 x00)))
(T (W x00 x00 x80 x3f x00 x00 x80 x3f)
(L (W x19 x01 x00 x00 xff xff xff xff)) E))
(T (W xff xff xff xff xff xff xff xff)
(T (W x18 x00 x00 x00 x10 x00 x00 x00)
(L (W xff xff xff xff xff xff xff xff)) E)
(T (W x00 x00 x00 x00 x8c x67 xfd xff)
(L (W x00 x00 x00 x00 x00 x00 x00 x00)) E)))))
(T (W x00 x00 x80 x3f x00 x00 x80 x3f)
(T (W xff xff xff xff xff xff xff xff)
(T (W x00 x00 x00 x00 x00 x00 x00 x00)
(T (W x00 x00 x80 x3f x00 x00 x80 x3f)
(T (W x00 x00 x00 x00 x00 x00 x00 x00)
(L (W x18 x00 x00 x00 x0c x00 x00 x00))
(L (W xff xff xff xff xff xff xff xff)))
(T (W x00 x00 x00 x00 x00 x00 x00 x00)
(L (W x00 x00 x00 x00 x00 x00 x00 x00)) E))
(T (W x00 x00 x80 x3f x00 x00 x80 x3f)
(T (W xb6 x01 x00 x00 xff xff xff xff)
(L (W xff xff xff xff xff xff xff xff)) E)
(T (W xa8 x00 x00 x00 x64 x00 x00 x00)
(L (W x00 x00 x80 xbf x00 x00 x80 xbf)) E)))
(T (W x45 x26 x22 x84 xe4 x9c xf2 xcb)
(T (W x00 x00 x80 x3f x00 x00 x80 x3f)
(T (W x00 x00 x00 x00 x00 x00 x00 x00)
(L (W xff xff xff xff xff xff xff xff))
(L (W x00 x00 x00 x00 x00 x00 x00 x00)))
(T (W x00 x00 x80 x3f x00 x00 x80 x3f)
(L (W xff xff xff xff xff xff xff xff)) E))
(T (W x00 x00 x80 x3f x00 x00 x80 x3f)
(T (W xb2 x68 xff xff x00 x00 x01 x01)
(L (W x1c x59 xfe xff x00 x01 x01 x01)) E)
(T (W x45 x26 x22 x84 xe4 x9c xf2 xcb)
(L (W x00 x00 x01 x01 x4b x00 x00 x00)) E))))
(T (W xff xff xff xff xff xff xff xff)
(T (W x00 x00 x80 x3f x00 x00 x80 x3f)
(T (W x00 x00 x80 x3f x00 x00 x80 x3f)
(T (W x1c xb9 xfb xff x00 x01 x01 x01)
(L (W xff xff xff xff xff xff xff xff))
(L (W xff xff xff xff xff xff xff xff)))
(T (W x4a xb4 xfc xff x74 x00 x00 x00)
(L (W x00 x00 x80 xbf x00 x00 x80 xbf)) E))
(T (W x00 x00 x00 x00 x00 x00 x00 x00)
(T (W x45 x26 x22 x84 xe4 x9c xf2 xcb)
(L (W x00 x00 x00 x00 x00 x00 x00 x00)) E)
(T (W xc4 x00 x00 x00 x02 x00 x00 x00)
(L (W x1c x39 xff xff x00 x01 x01 x01)) E)))
(T (W x00 x00 x00 x00 x00 x00 x00 x00)
(T (W x50 x00 x00 x00 x44 x00 x00 x00)
(T (W xff xff xff xff xc4 x00 x00 x00)
(L (W x00 x00 x80 xbf x00 x00 x80 xbf))
(L (W x00 x00 x80 xbf x00 x00 x80 xbf)))
(T (W x00 x00 x00 x00 x00 x00 x00 x00)
(L (W x00 x00 x00 x00 x00 x00 x00 x00)) E))
(T (W x6c x00 x00 x00 x60 x00 x00 x00)
(T (W x45 x26 x22 x84 xe4 x9c xf2 xcb)
(L (W x00 x00 x00 x00 x00 x00 x00 x00)) E)
(T (W x45 x26 x22 x84 xe4 x9c xf2 xcb)
(L (W x00 x00 x00 x00 x00 x00 x00 x00)) E)))))))))))
(T (W x50 x1a x05 x00 x54 x13 x05 x00)
(T (W xe0 xee x03 x00 x84 xec x03 x00)
(T (W x18 x37 x03 x00 xd4 x34 x03 x00)
(T (W x38 x58 x01 x00 x04 x57 x01 x00)
(T (W x00 x00 x80 x3f x00 x00 x80 x3f)
(T (W x00 x00 x00 x00 x00 x00 x00 x00)
(T (W x6c x00 x00 x00 x60 x00 x00 x00)
(T (W xff xff xff xff xff xff xff xff)
(T (W x00 x00 x00 x00 x00 x00 x00 x00)
(T (W x00 x00 x80 x3f x00 x00 x80 x3f)
(T (W xff xff xff xff xff xff xff xff)
(L (W x5c x00 x00 x00 xff xff xff xff))
(L (W x03 x00 x00 x00 xd8 x00 x00 x00)))
(T (W x00 x00 x00 x00 x02 x00 x00 x00)
(L (W x00 x00 x80 xbf x00 x00 x80 xbf)) E))
(T (W xff xff xff xff xff xff xff xff)
(T (W x00 x00 x00 x00 x00 x00 x00 x00)
(L (W x03 x00 x00 x00 xd0 x00 x00 x00))
(L (W xff xff xff xff xff xff xff xff)))
(T (W x00 x00 x80 x3f x00 x00 x80 x3f)
(L (W x6c x00 x00 x00 x60 x00 x00 x00)) E)))
(T (W xff xff xff xff xff xff xff xff)
(T (W xff xff xff xff xff xff xff xff)
(T (W xff xff xff xff xff xff xff xff)
(L (W x00 x00 x00 x00 x00 x00 x00 x00))
(L (W x00 x00 x00 x00 x00 x00 x00 x00)))
(T (W x72 xc9 xff xff x00 x00 x01 x01)
(L (W xff xff xff xff xff xff xff xff)) E))
(T (W x00 x00 x00 x00 x4c x38 xfb xff)
(T (W x4a x00 x00 x00 xff xff xff xff)
(L (W x6c x00 x00 x00 x60 x00 x00 x00)) E)
(T (W x00 x00 x00 x00 x00 x00 x00 x00)
(L (W xff xff xff xff xff xff xff xff)) E))))
(T (W x00 x00 x00 x00 x00 x00 x00 x00)
(T (W x00 x00 x80 x3f x00 x00 x80 x3f)
(T (W xff xff xff xff xff xff xff xff)
(T (W xff xff xff xff x03 x00 x00 x00)
(L (W xc2 xf6 xff xff x00 x00 x01 x01))
(L (W x00 x00 x00 x00 x00 x00 x00 x00)))
(T (W xdc x99 xfc xff x00 x01 x01 x01)
(L (W x18 x00 x00 x00 x0c x00 x00 x00)) E))
(T (W xff xff xff xff x03 x00 x00 x00)
(T (W x45 x26 x22 x84 xe4 x9c xf2 xcb)
(L (W x00 x00 x00 x00 x00 x00 x00 x00)) E)
(T (W x23 x00 x00 x00 x10 x00 x00 x00)
(L (W xff xff xff xff xff xff xff xff)) E)))
(T (W xff xff xff xff xff xff xff xff)
(T (W xff xff xff xff xff xff xff xff)
(T (W x01 x00 x00 x00 x29 x00 x00 x00)
(L (W x00 x00 x00 x00 x12 x00 x00 x00))
(L (W x00 x00 x80 xbf x00 x00 x80 xbf)))
(T (W x19 x00 x00 x00 x1c x00 x00 x00)
(L (W x46 x53 x59 x53 x5f x4e x53 x5f)) E))
(T (W xff xff xff xff xff xff xff xff)
(T (W x49 xa1 x68 x4a xeb x5f xdd x3d)
(L (W xff xff xff xff xff xff xff xff)) E)
(T (W xff xff xff xff xff xff xff xff)
(L (W x00 x00 x80 xbf x00 x00 x80 xbf)) E)))))
(T (W x45 x26 x22 x84 xe4 x9c xf2 xcb)
(T (W x08 x00 x00 x00 xff xff xff xff)
(T (W x00 x00 x00 x00 x00 x00 x00 x00)
(T (W x00 x00 x80 x3f x00 x00 x80 x3f)
(T (W x49 xa1 x68 x4a xeb x5f xdd x3d)
(L (W xff xff xff xff xff xff xff xff))
(L (W xff xff xff xff xff xff xff xff)))
(T (W xff xff xff xff xff xff xff xff)
(L (W x00 x00 x80 xbf x00 x00 x80 xbf)) E))
(T (W x00 x00 x00 x00 x00 x00 x00 x00)
(T (W x00 x00 x00 x00 x00 x00 x00 x00)
(L (W xff xff xff xff xff xff xff xff)) E)
(T (W x0a x05 xfd xff x74 x00 x00 x00)
(L (W x00 x00 x80 xbf x00 x00 x80 xbf)) E)))
(T (W xff xff xff xff x03 x00 x00 x00)
(T (W xff xff xff xff xff xff xff xff)
(T (W x00 x00 x80 x3f x00 x00 x80 x3f)
(L (W x45 x44 x00 x00 x00 x00 x00 x00))
(L (W x00 x00 x00 x00 x00 x00 x00 x00)))
(T (W x00 x00 x80 x3f x00 x00 x80 x3f)
(L (W xa4 x04 x00 x00 x88 x03 x00 x00)) E))
(T (W x30 x32 x5f x43 x4c x45 x41 x52)
(T (W x00 x00 x00 x00 x00 x00 x00 x00)
(L (W x18 x00 x00 x00 x10 x00 x00 x00)) E)
(T (W x4f x84 x6f x8b xe8 xcb x63 xb7)
(L (W x00 x00 x00 x00 x00 x00 x00 x00)) E))))
(T (W x00 x00 x00 x00 x00 x00 x00 x00)
(T (W xff xff xff xff xff xff xff xff)
(T (W x0c x12 x55 xd0 xce xe9 x29 x78)
(T (W x00 x00 x80 x3f x00 x00 x80 x3f)
(L (W x00 x00 x00 x00 x00 x00 x00 x00))
(L (W xff xff xff xff xff xff xff xff)))
(T (W x18 x01 x00 x00 x04 x00 x00 x00)
(L (W xff xff xff xff xb0 x00 x00 x00)) E))
(T (W x13 x00 x00 x00 x10 x00 x00 x00)
(T (W x19 x00 x00 x00 x1c x00 x00 x00)
(L (W x00 x00 x80 xbf x00 x00 x80 xbf)) E)
(T (W xff xff xff xff xbc x00 x00 x00)
(L (W xff xff xff xff xff xff xff xff)) E)))
(T (W x18 x00 x00 x00 x0c x00 x00 x00)
(T (W xff xff xff xff xff xff xff xff)
(T (W xff xff xff xff xff xff xff xff)
(L (W x18 x00 x00 x00 x0c x00 x00 x00))
(L (W x6c x00 x00 x00 x60 x00 x00 x00)))
(T (W xff xff xff xff xff xff xff xff)
(L (W x45 x26 x22 x84 xe4 x9c xf2 xcb)) E))
(T (W x00 x00 x00 x00 x00 x00 x00 x00)
(T (W xd3 x48 x2b x97 x85 x97 x55 x5f)
(L (W x00 x00 x00 x00 x12 x00 x00 x00)) E)
(T (W x04 x00 x00 x00 xaa x67 xfd xff)
(L (W x54 x00 x00 x00 x48 x00 x00 x00)) E))))))
(T (W xff xff xff xff xff xff xff xff)
(T (W x00 x00 x00 x00 x00 x00 x00 x00)
(T (W x00 x00 x80 x3f x00 x00 x80 x3f)
(T (W x00 x00 x00 x00 x00 x00 x00 x00)
(T (W x00 x00 x80 x3f x00 x00 x80 x3f)
(T (W x16 x00 x00 x00 x10 x00 x00 x00)
(L (W x00 x00 x01 x01 x83 x01 x00 x00))
(L (W xff xff xff xff xff xff xff xff)))
(T (W xff xff xff xff xff xff xff xff)
(L (W x00 x00 x80 xbf x00 x00 x80 xbf)) E))
(T (W x45 x26 x22 x84 xe4 x9c xf2 xcb)
(T (W x00 x00 x00 x00 x00 x00 x00 x00)
(L (W xff xff xff xff xff xff xff xff))
(L (W x00 x00 x80 xbf x00 x00 x80 xbf)))
(T (W xff xff xff xff xff xff xff xff)
(L (W x6c x00 x00 x00 x60 x00 x00 x00)) E)))
(T (W x64 x00 x00 x00 x9c x00 x00 x00)
(T (W xff xff xff xff xff xff xff xff)
(T (W x00 x00 x00 x00 x00 x00 x00 x00)
(L (W xff xff xff xff xff xff xff xff))
(L (W x00 x00 x00 x00 x00 x00 x00 x00)))
(T (W xff xff xff xff xff xff xff xff)
(L (W xff xff xff xff xff xff xff xff)) E))
(T (W xff xff xff xff xff xff xff xff)
(T (W x00 x00 x00 x00 x00 x00 x00 x00)
(L (W x6c x00 x00 x00 x60 x00 x00 x00)) E)
(T (W x00 x00 x00 x00 x00 x00 x00 x00)
(L (W x00 x00 x01 x01 x24 x02 x00 x00)) E))))
(T (W x00 x00 x00 x00 x00 x00 x00 x00)
(T (W xff xff xff xff xff xff xff xff)
(T (W x00 x00 x00 x00 x00 x00 x00 x00)
(T (W x00 x00 x00 x00 xea x9d xfb xff)
(L (W x00 x00 x00 x00 x00 x00 x00 x00))
(L (W x00 x00 x00 x00 x00 x00 x00 x00)))
(T (W xff xff xff xff xff xff xff xff)
(L (W x18 x00 x00 x00 x10 x00 x00 x00)) E))
(T (W xff xff xff xff xff xff xff xff)
(T (W x54 x00 x00 x00 x48 x00 x00 x00)
(L (W x4f x84 x6f x8b xe8 xcb x63 xb7)) E)
(T (W xff xff xff xff xa8 x00 x00 x00)
(L (W xff xff xff xff xff xff xff xff)) E)))
(T (W x45 x26 x22 x84 xe4 x9c xf2 xcb)
(T (W xff xff xff xff x03 x00 x00 x00)
(T (W xff xff xff xff xbc x00 x00 x00)
(L (W x00 x00 x00 x00 x00 x00 x00 x00))
(L (W x00 x00 x80 xbf x00 x00 x80 xbf)))
(T (W xff xff xff xff xff xff xff xff)
(L (W x00 x00 x00 x00 x12 x00 x00 x00)) E))
(T (W x4c x45 x41 x52 x45 x44 x00 x00)
(T (W x00 x00 x80 x3f x00 x00 x80 x3f)
(L (W x00 x00 x00 x00 x00 x00 x00 x00)) E)
(T (W xff xff xff xff xff xff xff xff)
(L (W x00 x00 x80 xbf x00 x00 x80 xbf)) E)))))
(T (W x00 x00 x00 x00 x00 x00 x00 x00)
(T (W x6c x00 x00 x00 x60 x00 x00 x00)
(T (W x70 x5f x77 x69 x6c x64 x5f x70)
(T (W x00 x00 x80 x3f x00 x00 x80 x3f)
(T (W x00 x00 x80 x3f x00 x00 x80 x3f)
(L (W xff xff xff xff xff xff xff xff))
(L (W x45 x44 x00 x00 x00 x00 x00 x00)))
(T (W x45 x26 x22 x84 xe4 x9c xf2 xcb)
(L (W xba x8e xfe xff x78 x00 x00 x00)) E))
(T (W x2c x00 x00 x00 x10 x00 x00 x00)
(T (W x49 xa1 x68 x4a xeb x5f xdd x3d)
(L (W x00 x00 x00 x00 x00 x00 x00 x00)) E)
(T (W x45 x26 x22 x84 xe4 x9c xf2 xcb)
(L (W xdc x11 xff xff x00 x01 x01 x01)) E)))
(T (W xff xff xff xff xff xff xff xff)
(T (W xff xff xff xff xff xff xff xff)
(T (W x00 x00 x80 x3f x00 x00 x80 x3f)
(L (W x17 x00 x00 x00 x0c x00 x00 x00))
(L (W x00 x00 x80 xbf x00 x00 x80 xbf)))
(T (W x00 x00 x80 x3f x00 x00 x80 x3f)
(L (W x00 x00 x00 x00 x09 x00 x00 x00)) E))
(T (W x68 x00 x00 x00 x5c x00 x00 x00)
(T (W x00 x00 x00 x00 x00 x00 x00 x00)
(L (W xff xff xff xff xff xff xff xff)) E)
(T (W x34 x00 x38 x00 x2a x00 x00 x00)
(L (W x45 x26 x22 x84 xe4 x9c xf2 xcb)) E))))
(T (W x00 x00 x00 x00 x00 x00 x00 x00)
(T (W xff xff xff xff xff xff xff xff)
(T (W x70 x00 x00 x00 xff xff xff xff)
(T (W x18 x00 x00 x00 x0c x00 x00 x00)
(L (W x18 x00 x00 x00 x10 x00 x00 x00))
(L (W x64 xbf xff xff x15 x00 x00 x00)))
(T (W x00 x00 x00 x00 x00 x00 x00 x00)
(L (W xb4 x00 x00 x00 x32 x00 x00 x00)) E))
(T (W x00 x00 x80 x3f x00 x00 x80 x3f)
(T (W xff xff xff xff xff xff xff xff)
(L (W x00 x00 x80 xbf x00 x00 x80 xbf)) E)
(T (W xff xff xff xff xff xff xff xff)
(L (W xff xff xff xff xff xff xff xff)) E)))
(T (W x68 x00 x00 x00 x5c x00 x00 x00)
(T (W x18 x00 x00 x00 x0c x00 x00 x00)
(T (W x4b x00 x00 x00 xff xff xff xff)
(L (W x00 x00 x00 x00 x4c xf0 xfd xff))
(L (W xba xee xff xff x78 x00 x00 x00)))
(T (W x00 x00 x00 x00 x00 x00 x00 x00)
(L (W x00 x00 x80 xbf x00 x00 x80 xbf)) E))
(T (W x18 x00 x00 x00 x0c x00 x00 x00)
(T (W xff xff xff xff xff xff xff xff)
(L (W x45 x26 x22 x84 xe4 x9c xf2 xcb)) E)
(T (W x46 x53 x59 x53 x5f x4e x53 x5f)
(L (W xff xff xff xff xa0 x00 x00 x00)) E)))))))
(T (W xff xff xff xff xff xff xff xff)
(T (W x54 x00 x00 x00 x48 x00 x00 x00)
(T (W xff xff xff xff xff xff xff xff)
(T (W x00 x00 x00 x00 x00 x00 x00 x00)
(T (W xff xff xff xff x04 x00 x00 x00)
(T (W xd6 x9d x4b x48 xff x56 xc7 x00)
(T (W x00 x00 x80 x3f x00 x00 x80 x3f)
(L (W x00 x00 x80 xbf x00 x00 x80 xbf))
(L (W x00 x00 x00 x00 x00 x00 x00 x00)))
(T (W x00 x00 x80 x3f x00 x00 x80 x3f)
(L (W xff xff xff xff xff xff xff xff)) E))
(T (W xff xff xff xff xff xff xff xff)
(T (W x18 x00 x00 x00 x10 x00 x00 x00)
(L (W x00 x00 x80 xbf x00 x00 x80 xbf))
(L (W x00 x00 x48 x00 x4c x00 x00 x00)))
(T (W xb4 x00 x00 x00 x64 x00 x00 x00)
(L (W xff xff xff xff xff xff xff xff)) E)))
(T (W x45 x26 x22 x84 xe4 x9c xf2 xcb)
(T (W x00 x00 x80 x3f x00 x00 x80 x3f)
(T (W x45 x26 x22 x84 xe4 x9c xf2 xcb)
(L (W x00 x00 x80 xbf x00 x00 x80 xbf))
(L (W xff xff xff xff xff xff xff xff)))
(T (W x00 x00 x80 x3f x00 x00 x80 x3f)
(L (W x00 x00 x80 xbf x00 x00 x80 xbf)) E))
(T (W x46 x53 x59 x53 x5f x4e x53 x5f)
(T (W x54 x00 x00 x00 x48 x00 x00 x00)
(L (W x46 x53 x59 x53 x5f x4e x53 x5f)) E)
(T (W x18 x00 x00 x00 x0c x00 x00 x00)
(L (W xba x3a xff xff x78 x00 x00 x00)) E))))
(T (W xdc xdd xf9 xff x00 x01 x01 x01)
(T (W xff xff xff xff xff xff xff xff)
(T (W x00 x00 x80 x3f x00 x00 x80 x3f)
(T (W x00 x00 x00 x00 x00 x00 x00 x00)
(L (W x68 x00 x00 x00 x5c x00 x00 x00))
(L (W x45 x26 x22 x84 xe4 x9c xf2 xcb)))
(T (W x29 x00 x00 x00 x67 x72 x6f x75)
(L (W x00 x00 x00 x00 x00 x00 x00 x00)) E))
(T (W x00 x00 x80 x3f x00 x00 x80 x3f)
(T (W x4a x00 x00 x00 xff xff xff xff)
(L (W x45 x26 x22 x84 xe4 x9c xf2 xcb)) E)
(T (W x0c x22 xfd xff x1e x00 x00 x00)
(L (W x49 xa1 x68 x4a xeb x5f xdd x3d)) E)))
(T (W x64 x6b xfa xff x3e x00 x00 x00)
(T (W x00 x00 x00 x00 x00 x00 x00 x00)
(T (W x00 x00 x00 x00 x00 x00 x00 x00)
(L (W xff xff xff xff xff xff xff xff))
(L (W x00 x00 x00 x00 xaa xdb xff xff)))
(T (W x4f x84 x6f x8b xe8 xcb x63 xb7)
(L (W x19 x00 x00 x00 x1c x00 x00 x00)) E))
(T (W x45 x26 x22 x84 xe4 x9c xf2 xcb)
(T (W xff xff xff xff xff xff xff xff)
(L (W x00 x00 x80 xbf x00 x00 x80 xbf)) E)
(T (W x00 x00 x00 x00 x00 x00 x00 x00)
(L (W xff xff xff xff xff xff xff xff)) E)))))
(T (W xff xff xff xff xff xff xff xff)
(T (W x00 x00 x00 x00 x00 x00 x00 x00)
(T (W x68 x00 x00 x00 x5c x00 x00 x00)
(T (W x72 x9d xfd xff x00 x00 x01 x01)
(T (W x01 x00 x00 x00 x15 x00 x00 x00)
(L (W x00 x00 x80 xbf x00 x00 x80 xbf))
(L (W x00 x00 x80 xbf x00 x00 x80 xbf)))
(T (W x00 x00 x00 x00 x00 x00 x00 x00)
(L (W x54 x02 x00 x00 x38 x01 x00 x00)) E))
(T (W xdc x0d xfb xff x00 x01 x01 x01)
(T (W xff xff xff xff xff xff xff xff)
(L (W xba x0a xfe xff x78 x00 x00 x00)) E)
(T (W x00 x00 x00 x00 x00 x00 x00 x00)
(L (W x46 x53 x59 x53 x5f x4e x53 x5f)) E)))
(T (W x00 x00 x00 x00 x00 x00 x00 x00)
(T (W x45 x26 x22 x84 xe4 x9c xf2 xcb)
(T (W x6a xd3 xfe xff x00 x00 x01 x01)
(L (W x54 x00 x00 x00 x48 x00 x00 x00))
(L (W xff xff xff xff xff xff xff xff)))
(T (W x17 x00 x00 x00 x0c x00 x00 x00)
(L (W x00 x00 x00 x00 x4c xcc xfe xff)) E))
(T (W xff xff xff xff xff xff xff xff)
(T (W xff xff xff xff x03 x00 x00 x00)
(L (W x49 xa1 x68 x4a xeb x5f xdd x3d)) E)
(T (W xff xff xff xff xff xff xff xff)
(L (W xff xff xff xff xff xff xff xff)) E))))
(T (W x0a xe9 xf9 xff x74 x00 x00 x00)
(T (W x45 x26 x22 x84 xe4 x9c xf2 xcb)
(T (W x68 x00 x00 x00 x5c x00 x00 x00)
(T (W xff xff xff xff x01 x00 x00 x00)
(L (W x00 x00 x80 xbf x00 x00 x80 xbf))
(L (W x45 x26 x22 x84 xe4 x9c xf2 xcb)))
(T (W x0a xa9 xfc xff x74 x00 x00 x00)
(L (W x00 x00 x00 x00 x00 x00 x00 x00)) E))
(T (W xb0 x00 x00 x00 x64 x00 x00 x00)
(T (W x45 x44 x00 x00 x00 x00 x00 x00)
(L (W xff xff xff xff xff xff xff xff)) E)
(T (W x00 x00 x80 xbf x00 x00 x80 xbf)
(L (W x00 x00 x80 xbf x00 x00 x80 xbf)) E)))
(T (W x00 x00 x00 x00 x00 x00 x00 x00)
(T (W x00 x00 x00 x00 x00 x00 x00 x00)
(T (W x00 x00 x80 x3f x00 x00 x80 x3f)
(L (W x00 x00 x00 x00 x00 x00 x00 x00))
(L (W x64 xfb xff xff x11 x00 x00 x00)))
(T (W x00 x00 x80 x3f x00 x00 x80 x3f)
(L (W x5d x00 x00 x00 xff xff xff xff)) E))
(T (W xa0 x01 x00 x00 xff xff xff xff)
(T (W x00 x00 x80 x3f x00 x00 x80 x3f)
(L (W xff xff xff xff xff xff xff xff)) E)
(T (W x45 x26 x22 x84 xe4 x9c xf2 xcb)
(L (W xff xff xff xff xff xff xff xff)) E))))))
(T (W x00 x00 x00 x00 x00 x00 x00 x00)
(T (W x00 x00 x80 x3f x00 x00 x80 x3f)
(T (W x18 x00 x00 x00 x10 x00 x00 x00)
(T (W x45 x26 x22 x84 xe4 x9c xf2 xcb)
(T (W xae x01 x00 x00 xff xff xff xff)
(T (W x00 x00 x00 x00 x4c x84 xfb xff)
(L (W x4f x84 x6f x8b xe8 xcb x63 xb7))
(L (W x00 x00 x00 x00 x00 x00 x00 x00)))
(T (W x00 x00 x80 x3f x00 x00 x80 x3f)
(L (W xff xff xff xff xff xff xff xff)) E))
(T (W x00 x00 x00 x00 x00 x00 x00 x00)
(T (W xd4 x00 x00 x00 xc8 x00 x00 x00)
(L (W x00 x00 x80 xbf x00 x00 x80 xbf)) E)
(T (W xff xff xff xff xe4 x00 x00 x00)
(L (W x00 x00 x00 x00 xca x09 xff xff)) E)))
(T (W x45 x26 x22 x84 xe4 x9c xf2 xcb)
(T (W x00 x00 x80 x3f x00 x00 x80 x3f)
(T (W xff xff xff xff xff xff xff xff)
(L (W x00 x00 x00 x00 x4c xc4 xfd xff))
(L (W xb8 x00 x00 x00 x64 x00 x00 x00)))
(T (W x45 x26 x22 x84 xe4 x9c xf2 xcb)
(L (W x00 x00 x80 xbf x00 x00 x80 xbf)) E))
(T (W x00 x00 x80 x3f x00 x00 x80 x3f)
(T (W xff xff xff xff x9c x00 x00 x00)
(L (W x00 x00 x00 x00 x00 x00 x00 x00)) E)
(T (W xff xff xff xff xff xff xff xff)
(L (W x16 x00 x00 x00 x19 x00 x00 x00)) E))))
(T (W x45 x26 x22 x84 xe4 x9c xf2 xcb)
(T (W x00 x00 x80 x3f x00 x00 x80 x3f)
(T (W x50 x00 x00 x00 x44 x00 x00 x00)
(T (W xcc x00 x00 x00 xc0 x00 x00 x00)
(L (W xff xff xff xff xff xff xff xff))
(L (W x00 x00 x00 x00 x00 x00 x00 x00)))
(T (W x0a xa1 xfc xff x74 x00 x00 x00)
(L (W x00 x00 x00 x00 x00 x00 x00 x00)) E))
(T (W xdc x25 xfb xff x00 x01 x01 x01)
(T (W x00 x00 x00 x00 x00 x00 x00 x00)
(L (W xff xff xff xff xff xff xff xff)) E)
(T (W x00 x00 x00 x00 x00 x00 x00 x00)
(L (W x00 x00 x80 xbf x00 x00 x80 xbf)) E)))
(T (W x00 x00 x00 x00 x00 x00 x00 x00)
(T (W x00 x00 x00 x00 x00 x00 x00 x00)
(T (W x00 x00 x00 x00 x00 x00 x00 x00)
(L (W xff xff xff xff xff xff xff xff))
(L (W x30 x32 x5f x43 x4c x45 x41 x52)))
(T (W xff xff xff xff xff xff xff xff)
(L (W xff xff xff xff xff xff xff xff)) E))
(T (W xff xff xff xff xff xff xff xff)
(T (W xff xff xff xff xff xff xff xff)
(L (W x68 x00 x00 x00 x5c x00 x00 x00)) E)
(T (W x00 x00 x80 xbf x00 x00 x80 xbf)
(L (W xff xff xff xff xff xff xff xff)) E)))))
(T (W x54 x00 x00 x00 x48 x00 x00 x00)
(T (W xff xff xff xff xff xff xff xff)
(T (W xff xff xff xff xff xff xff xff)
(T (W xff xff xff xff xff xff xff xff)
(T (W x46 x53 x59 x53 x5f x4e x53 x5f)
(L (W x00 x00 x80 xbf x00 x00 x80 xbf))
(L (W x54 x00 x00 x00 x48 x00 x00 x00)))
(T (W x00 x00 x00 x00 x00 x00 x00 x00)
(L (W x30 x32 x5f x43 x4c x45 x41 x52)) E))
(T (W xff xff xff xff xff xff xff xff)
(T (W xff xff xff xff xff xff xff xff)
(L (W xff xff xff xff xb0 x00 x00 x00)) E)
(T (W x1e x00 x00 x00 x10 x00 x00 x00)
(L (W x00 x00 x80 xbf x00 x00 x80 xbf)) E)))
(T (W x00 x00 x00 x00 x00 x00 x00 x00)
(T (W x00 x00 x00 x00 x00 x00 x00 x00)
(T (W x00 x00 x00 x00 x00 x00 x00 x00)
(L (W x15 x00 x00 x00 x18 x00 x00 x00))
(L (W x5d x00 x00 x00 xff xff xff xff)))
(T (W x77 x61 x72 x6c x69 x6b x65 x5f)
(L (W xff xff xff xff xa0 x00 x00 x00)) E))
(T (W x00 x00 x00 x00 x00 x00 x00 x00)
(T (W xff xff xff xff xbc x00 x00 x00)
(L (W x00 x00 x00 x00 x00 x00 x00 x00)) E)
(T (W x00 x00 x00 x00 x00 x00 x00 x00)
(L (W xff xff xff xff xff xff xff xff)) E))))
(T (W x01 x00 x00 x00 x9c x00 x00 x00)
(T (W x00 x00 x00 x00 x00 x00 x00 x00)
(T (W x0a xb1 xfa xff x74 x00 x00 x00)
(T (W x00 x00 x00 x00 x00 x00 x00 x00)
(L (W xff xff xff xff xff xff xff xff))
(L (W x18 x00 x00 x00 x10 x00 x00 x00)))
(T (W x68 x00 x00 x00 x5c x00 x00 x00)
(L (W x4f x84 x6f x8b xe8 xcb x63 xb7)) E))
(T (W x6a x3b xfe xff x00 x00 x01 x01)
(T (W x45 x26 x22 x84 xe4 x9c xf2 xcb)
(L (W xff xff xff xff xff xff xff xff)) E)
(T (W x00 x00 x80 xbf x00 x00 x80 xbf)
(L (W x45 x26 x22 x84 xe4 x9c xf2 xcb)) E)))
(T (W x00 x00 x00 x00 x00 x00 x00 x00)
(T (W xdc xf5 xfa xff x00 x01 x01 x01)
(T (W x00 x00 x80 x3f x00 x00 x80 x3f)
(L (W x00 x00 x00 x00 x00 x00 x00 x00))
(L (W x4f x84 x6f x8b xe8 xcb x63 xb7)))
(T (W xff xff xff xff xff xff xff xff)
(L (W xff xff xff xff xff xff xff xff)) E))
(T (W x00 x00 x00 x00 x00 x00 x00 x00)
(T (W x00 x00 x80 x3f x00 x00 x80 x3f)
(L (W xff xff xff xff xff xff xff xff)) E)
(T (W x54 x00 x00 x00 x48 x00 x00 x00)
(L (W x30 x32 x5f x43 x4c x45 x41 x52)) E))))))))
(T (W x34 x16 x00 x00 x18 x15 x00 x00)
(T (W x18 x00 x00 x00 x0c x00 x00 x00)
(T (W x00 x00 x80 x3f x00 x00 x80 x3f)
(T (W xbc x00 x00 x00 xb0 x00 x00 x00)
(T (W xff xff xff xff xff xff xff xff)
(T (W x00 x00 x80 x3f x00 x00 x80 x3f)
(T (W xff xff xff xff xff xff xff xff)
(T (W x45 x44 x00 x00 x00 x00 x00 x00)
(L (W x00 x00 x00 x00 x00 x00 x00 x00))
(L (W x00 x00 x01 x01 x5c x00 x00 x00)))
(T (W x00 x00 x00 x00 x00 x00 x00 x00)
(L (W x45 x26 x22 x84 xe4 x9c xf2 xcb)) E))
(T (W xba xf8 xfa xff x78 x00 x00 x00)
(T (W x00 x00 x00 x00 x00 x00 x00 x00)
(L (W x06 x00 x00 x00 xc8 x05 x00 x00))
(L (W x0c x00 x00 x00 x0b x00 x00 x00)))
(T (W x4c x45 x41 x52 x45 x44 x00 x00)
(L (W xff xff xff xff xc0 x00 x00 x00)) E)))
(T (W x0c x40 xfa xff x3e x00 x00 x00)
(T (W x00 x00 x00 x00 x00 x00 x00 x00)
(T (W x00 x00 x00 x00 x00 x00 x00 x00)
(L (W x00 x00 x00 x00 x00 x00 x00 x00))
(L (W x00 x00 x80 xbf x00 x00 x80 xbf)))
(T (W x00 x00 x00 x00 x00 x00 x00 x00)
(L (W x64 xc9 xfe xff x19 x00 x00 x00)) E))
(T (W xff xff xff xff xff xff xff xff)
(T (W x49 xa1 x68 x4a xeb x5f xdd x3d)
(L (W xff xff xff xff xbc x00 x00 x00)) E)
(T (W x00 x00 x80 xbf x00 x00 x80 xbf)
(L (W x00 x00 x00 x00 x12 x00 x00 x00)) E))))
(T (W x00 x00 x00 x00 x00 x00 x00 x00)
(T (W x64 x00 x00 x00 x9c x00 x00 x00)
(T (W x00 x00 x80 x3f x00 x00 x80 x3f)
(T (W x00 x00 x00 x00 x02 x00 x00 x00)
(L (W x00 x00 x00 x00 x00 x00 x00 x00))
(L (W x00 x00 x80 xbf x00 x00 x80 xbf)))
(T (W xff xff xff xff xff xff xff xff)
(L (W xff xff xff xff xff xff xff xff)) E))
(T (W x00 x00 x00 x00 x06 x00 x00 x00)
(T (W xff xff xff xff xff xff xff xff)
(L (W x00 x00 x80 xbf x00 x00 x80 xbf)) E)
(T (W x00 x00 x80 xbf x00 x00 x80 xbf)
(L (W x45 x44 x00 x00 x00 x00 x00 x00)) E)))
(T (W xff xff xff xff xff xff xff xff)
(T (W x00 x00 x00 x00 x00 x00 x00 x00)
(T (W xff xff xff xff xff xff xff xff)
(L (W x00 x00 x80 xbf x00 x00 x80 xbf))
(L (W xff xff xff xff xff xff xff xff)))
(T (W xff xff xff xff xff xff xff xff)
(L (W x45 x26 x22 x84 xe4 x9c xf2 xcb)) E))
(T (W x00 x00 x00 x00 x00 x00 x00 x00)
(T (W x00 x00 x80 x3f x00 x00 x80 x3f)
(L (W x00 x00 x00 x00 x00 x00 x00 x00)) E)
(T (W x00 x00 x00 x00 xaa x59 xfd xff)
(L (W xba x58 xff xff x78 x00 x00 x00)) E)))))
(T (W xff xff xff xff xff xff xff xff)
(T (W x00 x00 x00 x00 x00 x00 x00 x00)
(T (W x00 x00 x80 x3f x00 x00 x80 x3f)
(T (W x45 x26 x22 x84 xe4 x9c xf2 xcb)
(T (W x54 x00 x00 x00 x48 x00 x00 x00)
(L (W x4c x45 x41 x52 x45 x44 x00 x00))
(L (W x00 x00 x00 x00 x00 x00 x00 x00)))
(T (W x00 x00 x00 x00 x02 x00 x00 x00)
(L (W xff xff xff xff xb0 x00 x00 x00)) E))
(T (W x00 x00 x00 x00 x00 x00 x00 x00)
(T (W x00 x00 x80 x3f x00 x00 x80 x3f)
(L (W x00 x00 x00 x00 x00 x00 x00 x00)) E)
(T (W xff xff xff xff xff xff xff xff)
(L (W xff xff xff xff xff xff xff xff)) E)))
(T (W xff xff xff xff xff xff xff xff)
(T (W x99 x82 x9e x72 x96 xae x52 x46)
(T (W x6c x00 x00 x00 x60 x00 x00 x00)
(L (W x4f x84 x6f x8b xe8 xcb x63 xb7))
(L (W xff xff xff xff xb0 x00 x00 x00)))
(T (W x04 x00 x00 x00 xe2 x97 x8f x3d)
(L (W x00 x00 x80 xbf x00 x00 x80 xbf)) E))
(T (W xba x48 xfb xff x78 x00 x00 x00)
(T (W x00 x00 x80 x3f x00 x00 x80 x3f)
(L (W xff xff xff xff xff xff xff xff)) E)
(T (W xdc x4b xfd xff x00 x01 x01 x01)
(L (W x00 x00 x80 xbf x00 x00 x80 xbf)) E))))
(T (W x00 x00 x80 x3f x00 x00 x80 x3f)
(T (W x00 x00 x00 x00 x00 x00 x00 x00)
(T (W x00 x00 x00 x00 x00 x00 x00 x00)
(T (W x18 x00 x00 x00 x10 x00 x00 x00)
(L (W x45 x26 x22 x84 xe4 x9c xf2 xcb))
(L (W x00 x00 x80 xbf x00 x00 x80 xbf)))
(T (W x00 x00 x00 x00 x00 x00 x00 x00)
(L (W xff xff xff xff xff xff xff xff)) E))
(T (W x00 x00 x80 x3f x00 x00 x80 x3f)
(T (W xff xff xff xff xff xff xff xff)
(L (W x00 x00 x00 x00 x4c x2a xfe xff)) E)
(T (W x46 x53 x59 x53 x5f x4e x53 x5f)
(L (W x00 x00 x00 x00 x00 x00 x00 x00)) E)))
(T (W xff xff xff xff xff xff xff xff)
(T (W x48 x03 x00 x00 x34 x02 x00 x00)
(T (W x18 x00 x00 x00 x10 x00 x00 x00)
(L (W xff xff xff xff xff xff xff xff))
(L (W xff xff xff xff xff xff xff xff)))
(T (W x69 x6b x65 x5f x6c x76 x31 x00)
(L (W x50 x00 x00 x00 x44 x00 x00 x00)) E))
(T (W x18 x00 x00 x00 x10 x00 x00 x00)
(T (W x00 x00 x00 x00 x00 x00 x00 x00)
(L (W x00 x00 x80 xbf x00 x00 x80 xbf)) E)
(T (W x00 x00 x00 x00 x00 x00 x00 x00)
(L (W xcc x00 x00 x00 x01 x00 x00 x00)) E))))))
(T (W x00 x00 x00 x00 xfa x2c xfd xff)
(T (W x00 x00 x00 x00 x00 x00 x00 x00)
(T (W x54 x00 x00 x00 x48 x00 x00 x00)
(T (W x45 x26 x22 x84 xe4 x9c xf2 xcb)
(T (W xb8 x00 x00 x00 xac x00 x00 x00)
(T (W x00 x00 x80 x3f x00 x00 x80 x3f)
(L (W x00 x00 x00 x00 x00 x00 x00 x00))
(L (W x00 x00 x00 x00 x00 x00 x00 x00)))
(T (W x00 x00 x00 x00 x00 x00 x00 x00)
(L (W xff xff xff xff xa0 x00 x00 x00)) E))
(T (W xff xff xff xff xff xff xff xff)
(T (W x00 x00 x80 x3f x00 x00 x80 x3f)
(L (W x00 x00 x00 x00 x00 x00 x00 x00))
(L (W x45 x44 x00 x00 x00 x00 x00 x00)))
(T (W x00 x00 x00 x00 x00 x00 x00 x00)
(L (W xff xff xff xff xff xff xff xff)) E)))
(T (W x01 x00 x00 x00 x04 x00 x00 x00)
(T (W x00 x00 x00 x00 x00 x00 x00 x00)
(T (W x00 x00 x80 x3f x00 x00 x80 x3f)
(L (W x00 x00 x00 x00 x00 x00 x00 x00))
(L (W x00 x00 x80 xbf x00 x00 x80 xbf)))
(T (W x00 x00 x00 x00 x00 x00 x00 x00)
(L (W x46 x53 x59 x53 x5f x4e x53 x5f)) E))
(T (W x6b x65 x5f x77 x61 x72 x6c x69)
(T (W x45 x26 x22 x84 xe4 x9c xf2 xcb)
(L (W xff xff xff xff xff xff xff xff)) E)
(T (W x00 x00 x80 xbf x00 x00 x80 xbf)
(L (W x00 x00 x00 x00 x00 x00 x00 x00)) E))))
(T (W x00 x00 x80 x3f x00 x00 x80 x3f)
(T (W x64 x31 xfa xff x3e x00 x00 x00)
(T (W x00 x00 x80 x3f x00 x00 x80 x3f)
(T (W x00 x00 x80 x3f x00 x00 x80 x3f)
(L (W xff xff xff xff xb0 x00 x00 x00))
(L (W xff xff xff xff xb0 x00 x00 x00)))
(T (W x00 x00 x80 x3f x00 x00 x80 x3f)
(L (W xff xff xff xff xff xff xff xff)) E))
(T (W x00 x00 x00 x00 x00 x00 x00 x00)
(T (W xff xff xff xff xff xff xff xff)
(L (W x6c x00 x00 x00 x60 x00 x00 x00)) E)
(T (W xff xff xff xff xff xff xff xff)
(L (W x00 x00 x00 x00 x00 x00 x00 x00)) E)))
(T (W xff xff xff xff xff xff xff xff)
(T (W x00 x00 x00 x00 x00 x00 x00 x00)
(T (W xff xff xff xff xff xff xff xff)
(L (W x00 x00 x00 x00 x4c xe2 xfd xff))
(L (W xff xff xff xff x9c x00 x00 x00)))
(T (W xf1 xd9 xc3 xe9 xc1 xcf xae x64)
(L (W xba xe0 xfe xff x78 x00 x00 x00)) E))
(T (W x00 x00 x80 x3f x00 x00 x80 x3f)
(T (W x00 x00 x00 x00 x4c x62 xfc xff)
(L (W x45 x26 x22 x84 xe4 x9c xf2 xcb)) E)
(T (W x00 x00 x00 x00 x00 x00 x00 x00)
(L (W xff xff xff xff xa0 x00 x00 x00)) E)))))
(T (W x00 x00 x80 x3f x00 x00 x80 x3f)
(T (W x01 x00 x00 x00 xa0 x00 x00 x00)
(T (W x0a x0f xfa xff x74 x00 x00 x00)
(T (W x68 x00 x00 x00 x5c x00 x00 x00)
(T (W xff xff xff xff xff xff xff xff)
(L (W x00 x00 x00 x00 x00 x00 x00 x00))
(L (W x4f x84 x6f x8b xe8 xcb x63 xb7)))
(T (W xff xff xff xff xff xff xff xff)
(L (W xff xff xff xff xff xff xff xff)) E))
(T (W x45 x26 x22 x84 xe4 x9c xf2 xcb)
(T (W x01 x00 x00 x00 x19 x00 x00 x00)
(L (W x00 x00 x00 x00 x00 x00 x00 x00)) E)
(T (W xb0 x00 x00 x00 x64 x00 x00 x00)
(L (W xa4 x04 x00 x00 x88 x03 x00 x00)) E)))
(T (W xff xff xff xff xff xff xff xff)
(T (W xf2 xe1 xfd xff x5f x00 x00 x00)
(T (W xff xff xff xff xff xff xff xff)
(L (W x00 x00 x80 xbf x00 x00 x80 xbf))
(L (W x0a xcf xff xff x74 x00 x00 x00)))
(T (W xff xff xff xff xff xff xff xff)
(L (W x00 x00 x80 xbf x00 x00 x80 xbf)) E))
(T (W xff xff xff xff xff xff xff xff)
(T (W x0a x4f xfc xff x74 x00 x00 x00)
(L (W x00 x00 x00 x00 x00 x00 x00 x00)) E)
(T (W xff xff xff xff xff xff xff xff)
(L (W x00 x00 x80 xbf x00 x00 x80 xbf)) E))))
(T (W x6c x00 x00 x00 x60 x00 x00 x00)
(T (W x00 x00 x00 x00 x00 x00 x00 x00)
(T (W x00 x00 x00 x00 x00 x00 x00 x00)
(T (W x6a xb9 xfe xff x00 x00 x01 x01)
(L (W xff xff xff xff xff xff xff xff))
(L (W x00 x00 x80 xbf x00 x00 x80 xbf)))
(T (W x45 x26 x22 x84 xe4 x9c xf2 xcb)
(L (W xff xff xff xff xff xff xff xff)) E))
(T (W x45 x26 x22 x84 xe4 x9c xf2 xcb)
(T (W xc9 xcb x33 xe6 x8d xc5 x48 xff)
(L (W x21 x00 x00 x00 x24 x00 x00 x00)) E)
(T (W x00 x00 x00 x00 x00 x00 x00 x00)
(L (W x00 x00 x00 x00 x00 x00 x00 x00)) E)))
(T (W xff xff xff xff xff xff xff xff)
(T (W x00 x00 x00 x00 x00 x00 x00 x00)
(T (W x00 x00 x00 x00 x12 x00 x00 x00)
(L (W x00 x00 x00 x00 x00 x00 x00 x00))
(L (W x00 x00 x00 x00 x00 x00 x00 x00)))
(T (W x68 x00 x00 x00 x5c x00 x00 x00)
(L (W x15 x00 x00 x00 x18 x00 x00 x00)) E))
(T (W xa0 x01 x00 x00 xff xff xff xff)
(T (W x00 x00 x00 x00 x00 x00 x00 x00)
(L (W xba x70 xfe xff x78 x00 x00 x00)) E)
(T (W xff xff xff xff xff xff xff xff)
(L (W xff xff xff xff xff xff xff xff)) E)))))))
(T (W x00 x00 x01 x01 xc9 x00 x00 x00)
(T (W x64 x00 x00 x00 xa0 x00 x00 x00)
(T (W xff xff xff xff xff xff xff xff)
(T (W x00 x00 x00 x00 x00 x00 x00 x00)
(T (W x20 x01 x00 x00 x04 x00 x00 x00)
(T (W x45 x26 x22 x84 xe4 x9c xf2 xcb)
(T (W xff xff xff xff xff xff xff xff)
(L (W x03 x00 x00 x00 xd8 x00 x00 x00))
(L (W x00 x00 x80 xbf x00 x00 x80 xbf)))
(T (W x45 x26 x22 x84 xe4 x9c xf2 xcb)
(L (W x00 x00 x00 x00 x00 x00 x00 x00)) E))
(T (W x00 x00 x80 x3f x00 x00 x80 x3f)
(T (W xff xff xff xff xff xff xff xff)
(L (W xba xfc xfd xff x78 x00 x00 x00))
(L (W x13 x00 x00 x00 x16 x00 x00 x00)))
(T (W x00 x00 x00 x00 x00 x00 x00 x00)
(L (W x46 x53 x59 x53 x5f x4e x53 x5f)) E)))
(T (W x00 x00 x00 x00 x4c x3e xfa xff)
(T (W x0a x00 x00 x00 x3c x00 x00 x00)
(T (W xff xff xff xff x01 x00 x00 x00)
(L (W x00 x00 x80 xbf x00 x00 x80 xbf))
(L (W x00 x00 x00 x00 xaa xbd xff xff)))
(T (W x0a xbb xfc xff x74 x00 x00 x00)
(L (W x0a xbb xfe xff x74 x00 x00 x00)) E))
(T (W x00 x00 x80 x3f x00 x00 x80 x3f)
(T (W xff xff xff xff xff xff xff xff)
(L (W x00 x00 x80 xbf x00 x00 x80 xbf)) E)
(T (W xff xff xff xff xff xff xff xff)
(L (W xff xff xff xff xff xff xff xff)) E))))
(T (W xff xff xff xff xff xff xff xff)
(T (W x68 x00 x00 x00 x5c x00 x00 x00)
(T (W xff xff xff xff xff xff xff xff)
(T (W xff xff xff xff x9c x00 x00 x00)
(L (W xff xff xff xff xff xff xff xff))
(L (W x00 x00 x00 x00 xea x9b xff xff)))
(T (W x00 x00 x80 x3f x00 x00 x80 x3f)
(L (W x45 x26 x22 x84 xe4 x9c xf2 xcb)) E))
(T (W x21 x00 x00 x00 x24 x00 x00 x00)
(T (W x49 xa1 x68 x4a xeb x5f xdd x3d)
(L (W x00 x00 x00 x00 x00 x00 x00 x00)) E)
(T (W x5c x00 x00 x00 x50 x00 x00 x00)
(L (W x6c x00 x00 x00 x60 x00 x00 x00)) E)))
(T (W x00 x00 x80 x3f x00 x00 x80 x3f)
(T (W x00 x00 x80 x3f x00 x00 x80 x3f)
(T (W x0a xdb xfb xff x74 x00 x00 x00)
(L (W x00 x00 x01 x01 x96 x01 x00 x00))
(L (W x00 x00 x00 x00 x00 x00 x00 x00)))
(T (W x6c x00 x00 x00 x60 x00 x00 x00)
(L (W xff xff xff xff xff xff xff xff)) E))
(T (W xff xff xff xff xff xff xff xff)
(T (W x00 x00 x00 x00 x00 x00 x00 x00)
(L (W xff xff xff xff xff xff xff xff)) E)
(T (W x45 x26 x22 x84 xe4 x9c xf2 xcb)
(L (W x00 x00 x00 x00 x00 x00 x00 x00)) E)))))
(T (W x00 x00 x00 x00 x00 x00 x00 x00)
(T (W x00 x00 x80 x3f x00 x00 x80 x3f)
(T (W xff xff xff xff xff xff xff xff)
(T (W x00 x00 x00 x00 x00 x00 x00 x00)
(T (W x6b x65 x5f x6c x76 x31 x00 x00)
(L (W x18 x00 x00 x00 x0c x00 x00 x00))
(L (W xff xff xff xff x9c x00 x00 x00)))
(T (W x00 x00 x80 x3f x00 x00 x80 x3f)
(L (W x45 x26 x22 x84 xe4 x9c xf2 xcb)) E))
(T (W xff xff xff xff xff xff xff xff)
(T (W x00 x00 x00 x00 x00 x00 x00 x00)
(L (W xff xff xff xff xff xff xff xff)) E)
(T (W x18 x00 x00 x00 x0c x00 x00 x00)
(L (W x00 x00 x80 xbf x00 x00 x80 xbf)) E)))
(T (W x00 x00 x80 x3f x00 x00 x80 x3f)
(T (W x0a xcb xfa xff x74 x00 x00 x00)
(T (W x00 x00 x00 x00 x00 x00 x00 x00)
(L (W x03 x00 x00 x00 xd8 x00 x00 x00))
(L (W x00 x00 x00 x00 x00 x00 x00 x00)))
(T (W x34 x00 x38 x00 x3c x00 x40 x00)
(L (W xff xff xff xff xff xff xff xff)) E))
(T (W x00 x00 x00 x00 x00 x00 x00 x00)
(T (W x4a x00 x00 x00 xff xff xff xff)
(L (W xba x4c xfe xff x78 x00 x00 x00)) E)
(T (W x00 x00 x00 x00 x00 x00 x00 x00)
(L (W x00 x00 x00 x00 xca x53 xff xff)) E))))
(T (W xff xff xff xff xff xff xff xff)
(T (W x18 x00 x00 x00 x0c x00 x00 x00)
(T (W x45 x26 x22 x84 xe4 x9c xf2 xcb)
(T (W x49 xa1 x68 x4a xeb x5f xdd x3d)
(L (W x68 x00 x00 x00 x5c x00 x00 x00))
(L (W xff xff xff xff xff xff xff xff)))
(T (W xff xff xff xff xff xff xff xff)
(L (W x54 x00 x00 x00 x48 x00 x00 x00)) E))
(T (W x30 x32 x5f x43 x4c x45 x41 x52)
(T (W xba x2c xfc xff x78 x00 x00 x00)
(L (W x00 x00 x00 x00 x00 x00 x00 x00)) E)
(T (W xba x2c xfd xff x78 x00 x00 x00)
(L (W x18 x00 x00 x00 x0c x00 x00 x00)) E)))
(T (W x00 x00 x00 x00 x00 x00 x00 x00)
(T (W x45 x26 x22 x84 xe4 x9c xf2 xcb)
(T (W x0a xeb xfb xff x74 x00 x00 x00)
(L (W x00 x00 x80 xbf x00 x00 x80 xbf))
(L (W x00 x00 x80 xbf x00 x00 x80 xbf)))
(T (W x68 x00 x00 x00 x5c x00 x00 x00)
(L (W x00 x00 x00 x00 x00 x00 x00 x00)) E))
(T (W x00 x00 x00 x00 x12 x00 x00 x00)
(T (W x18 x00 x00 x00 x10 x00 x00 x00)
(L (W x00 x00 x00 x00 x00 x00 x00 x00)) E)
(T (W xff xff xff xff xff xff xff xff)
(L (W x00 x00 x00 x00 x00 x00 x00 x00)) E))))))
(T (W x00 x00 x80 x3f x00 x00 x80 x3f)
(T (W x00 x00 x80 x3f x00 x00 x80 x3f)
(T (W xff xff xff xff xff xff xff xff)
(T (W xff xff xff xff xff xff xff xff)
(T (W x45 x26 x22 x84 xe4 x9c xf2 xcb)
(T (W xff xff xff xff xff xff xff xff)
(L (W x0a x83 xfd xff x74 x00 x00 x00))
(L (W x18 x00 x00 x00 x0c x00 x00 x00)))
(T (W xdc x87 xfc xff x00 x01 x01 x01)
(L (W x00 x00 x00 x00 x00 x00 x00 x00)) E))
(T (W xff xff xff xff xa0 x00 x00 x00)
(T (W xff xff xff xff xff xff xff xff)
(L (W xff xff xff xff xb0 x00 x00 x00)) E)
(T (W x00 x00 x00 x00 x00 x00 x00 x00)
(L (W x45 x26 x22 x84 xe4 x9c xf2 xcb)) E)))
(T (W x45 x26 x22 x84 xe4 x9c xf2 xcb)
(T (W xc0 x00 x00 x00 xb4 x00 x00 x00)
(T (W x00 x00 x00 x00 x00 x00 x00 x00)
(L (W xff xff xff xff xff xff xff xff))
(L (W x45 x44 x00 x00 x00 x00 x00 x00)))
(T (W x7c x00 x00 x00 x5c x00 x00 x00)
(L (W xff xff xff xff xb0 x00 x00 x00)) E))
(T (W xff xff xff xff xff xff xff xff)
(T (W xff xff xff xff xff xff xff xff)
(L (W x00 x00 x80 xbf x00 x00 x80 xbf)) E)
(T (W x30 x32 x5f x43 x4c x45 x41 x52)
(L (W xff xff xff xff xff xff xff xff)) E))))
(T (W x00 x00 x01 x01 xc1 x02 x00 x00)
(T (W x45 x26 x22 x84 xe4 x9c xf2 xcb)
(T (W xb8 x00 x00 x00 xac x00 x00 x00)
(T (W x64 xb5 xfb xff x10 x00 x00 x00)
(L (W x00 x00 x00 x00 x00 x00 x00 x00))
(L (W x6c x00 x00 x00 x60 x00 x00 x00)))
(T (W xff xff xff xff xff xff xff xff)
(L (W x00 x00 x80 xbf x00 x00 x80 xbf)) E))
(T (W xff xff xff xff xff xff xff xff)
(T (W x45 x26 x22 x84 xe4 x9c xf2 xcb)
(L (W x41 x1a xb9 x28 xbf xd4 x67 x6a)) E)
(T (W x00 x00 x80 xbf x00 x00 x80 xbf)
(L (W xba x24 xff xff x78 x00 x00 x00)) E)))
(T (W x45 x26 x22 x84 xe4 x9c xf2 xcb)
(T (W x00 x00 x80 x3f x00 x00 x80 x3f)
(T (W xdc xe7 xfb xff x00 x01 x01 x01)
(L (W x00 x00 x00 x00 x00 x00 x00 x00))
(L (W x49 xa1 x68 x4a xeb x5f xdd x3d)))
(T (W x00 x00 x00 x00 x00 x00 x00 x00)
(L (W x00 x00 x00 x00 x00 x00 x00 x00)) E))
(T (W x00 x00 x00 x00 x00 x00 x00 x00)
(T (W x00 x00 x80 x3f x00 x00 x80 x3f)
(L (W xff xff xff xff xff xff xff xff)) E)
(T (W xc4 x00 x00 x00 x02 x00 x00 x00)
(L (W x4f x84 x6f x8b xe8 xcb x63 xb7)) E)))))
(T (W x18 x00 x00 x00 x0c x00 x00 x00)
(T (W xff xff xff xff x01 x00 x00 x00)
(T (W x00 x00 x00 x00 x00 x00 x00 x00)
(T (W x00 x00 x00 x00 x00 x00 x00 x00)
(T (W x49 xa1 x68 x4a xeb x5f xdd x3d)
(L (W x03 x00 x00 x00 xcc x00 x00 x00))
(L (W xff xff xff xff xff xff xff xff)))
(T (W x00 x00 x80 x3f x00 x00 x80 x3f)
(L (W x4f x84 x6f x8b xe8 xcb x63 xb7)) E))
(T (W x50 x00 x00 x00 x44 x00 x00 x00)
(T (W x00 x00 x00 x00 x00 x00 x00 x00)
(L (W xff xff xff xff xff xff xff xff)) E)
(T (W x00 x00 x80 xbf x00 x00 x80 xbf)
(L (W x00 x00 x00 x00 x4c x16 xff xff)) E)))
(T (W x00 x00 x80 x3f x00 x00 x80 x3f)
(T (W xdc xd7 xfa xff x00 x01 x01 x01)
(T (W x00 x00 x00 x00 x00 x00 x00 x00)
(L (W xff xff xff xff xff xff xff xff))
(L (W x00 x00 x00 x00 x00 x00 x00 x00)))
(T (W x00 x00 x80 x3f x00 x00 x80 x3f)
(L (W xff xff xff xff xff xff xff xff)) E))
(T (W x6c x00 x00 x00 x60 x00 x00 x00)
(T (W x46 x53 x59 x53 x5f x4e x53 x5f)
(L (W x17 x00 x00 x00 x1a x00 x00 x00)) E)
(T (W x00 x00 x80 xbf x00 x00 x80 xbf)
(L (W x46 x53 x59 x53 x5f x4e x53 x5f)) E))))
(T (W xff xff xff xff xff xff xff xff)
(T (W x0a x33 xfa xff x74 x00 x00 x00)
(T (W x01 x00 x00 x00 x9c x00 x00 x00)
(T (W x0a xb3 xfb xff x74 x00 x00 x00)
(L (W x72 xf6 xff xff xc9 x00 x00 x00))
(L (W xff xff xff xff xff xff xff xff)))
(T (W xff xff xff xff xff xff xff xff)
(L (W x6c x00 x00 x00 x60 x00 x00 x00)) E))
(T (W x00 x00 x00 x00 x00 x00 x00 x00)
(T (W xff xff xff xff xff xff xff xff)
(L (W x00 x00 x00 x00 x00 x00 x00 x00)) E)
(T (W xff xff xff xff xbc x00 x00 x00)
(L (W xbc x00 x00 x00 x1e x00 x00 x00)) E)))
(T (W x00 x00 x00 x00 x00 x00 x00 x00)
(T (W xb8 x00 x00 x00 xac x00 x00 x00)
(T (W xff xff xff xff xff xff xff xff)
(L (W x54 x00 x00 x00 x48 x00 x00 x00))
(L (W x6c x00 x00 x00 x60 x00 x00 x00)))
(T (W x00 x00 x00 x00 x00 x00 x00 x00)
(L (W x00 x00 x00 x00 x00 x00 x00 x00)) E))
(T (W x00 x00 x80 x3f x00 x00 x80 x3f)
(T (W xff xff xff xff xff xff xff xff)
(L (W x00 x00 x00 x00 x00 x00 x00 x00)) E)
(T (W xff xff xff xff xc8 x00 x00 x00)
(L (W x00 x00 x80 xbf x00 x00 x80 xbf)) E)))))))))
(T (W x70 x55 x02 x00 xcc x50 x02 x00)
(T (W xe8 xc4 x00 x00 xb4 xc3 x00 x00)
(T (W xba x7f xf9 xff x78 x00 x00 x00)
(T (W x00 x00 x00 x00 x00 x00 x00 x00)
(T (W x45 x26 x22 x84 xe4 x9c xf2 xcb)
(T (W xff xff xff xff xff xff xff xff)
(T (W x00 x00 x00 x00 x00 x00 x00 x00)
(T (W x45 x26 x22 x84 xe4 x9c xf2 xcb)
(T (W xa4 x01 x00 x00 xff xff xff xff)
(L (W x00 x00 x00 x00 x00 x00 x00 x00))
(L (W xff xff xff xff xff xff xff xff)))
(T (W x00 x00 x00 x00 x00 x00 x00 x00)
(L (W x54 x00 x00 x00 x48 x00 x00 x00)) E))
(T (W x65 x5f x73 x6b x79 x00 x00 x00)
(T (W x00 x00 x00 x00 x12 x00 x00 x00)
(L (W xff xff xff xff xff xff xff xff))
(L (W xff xff xff xff xff xff xff xff)))
(T (W xa3 x01 x00 x00 xff xff xff xff)
(L (W x45 x26 x22 x84 xe4 x9c xf2 xcb)) E)))
(T (W xff xff xff xff xff xff xff xff)
(T (W xb6 x73 x36 xfe x02 x9b xeb x70)
(T (W x00 x00 x00 x00 x22 x00 x00 x00)
(L (W x00 x00 x00 x00 x00 x00 x00 x00))
(L (W x45 x26 x22 x84 xe4 x9c xf2 xcb)))
(T (W x00 x00 x00 x00 x00 x00 x00 x00)
(L (W xff xff xff xff xff xff xff xff)) E))
(T (W x18 x00 x00 x00 x0c x00 x00 x00)
(T (W x00 x00 x00 x00 x00 x00 x00 x00)
(L (W x45 x26 x22 x84 xe4 x9c xf2 xcb)) E)
(T (W x00 x00 x00 x00 x00 x00 x00 x00)
(L (W x00 x00 x00 x00 xca x3e xff xff)) E))))
(T (W x00 x00 x00 x00 x00 x00 x00 x00)
(T (W x50 x00 x00 x00 x44 x00 x00 x00)
(T (W x00 x00 x00 x00 x00 x00 x00 x00)
(T (W xff xff xff xff xff xff xff xff)
(L (W x5f x4e x53 x5f x30 x32 x5f x43))
(L (W x00 x00 x00 x00 x00 x00 x00 x00)))
(T (W x45 x26 x22 x84 xe4 x9c xf2 xcb)
(L (W xff xff xff xff xff xff xff xff)) E))
(T (W xff xff xff xff xff xff xff xff)
(T (W x18 x00 x00 x00 x0c x00 x00 x00)
(L (W x4f x84 x6f x8b xe8 xcb x63 xb7)) E)
(T (W x00 x00 x00 x00 x00 x00 x00 x00)
(L (W xff xff xff xff xff xff xff xff)) E)))
(T (W xff xff xff xff xff xff xff xff)
(T (W xff xff xff xff xff xff xff xff)
(T (W xff xff xff xff xff xff xff xff)
(L (W x00 x00 x00 x00 x00 x00 x00 x00))
(L (W x00 x00 x80 xbf x00 x00 x80 xbf)))
(T (W xff xff xff xff xff xff xff xff)
(L (W x00 x00 x00 x00 x00 x00 x00 x00)) E))
(T (W x00 x00 x00 x00 x3a x5d xfb xff)
(T (W x00 x00 x80 x3f x00 x00 x80 x3f)
(L (W x00 x00 x00 x00 x00 x00 x00 x00)) E)
(T (W xff xff xff xff xff xff xff xff)
(L (W x00 x00 x80 xbf x00 x00 x80 xbf)) E)))))
(T (W xbc x00 x00 x00 xb0 x00 x00 x00)
(T (W x00 x00 x00 x00 xfa x63 xfd xff)
(T (W x45 x26 x22 x84 xe4 x9c xf2 xcb)
(T (W x00 x00 x80 x3f x00 x00 x80 x3f)
(T (W x00 x00 x80 x3f x00 x00 x80 x3f)
(L (W xc9 x00 x00 x00 xff xff xff xff))
(L (W x00 x00 x00 x00 xea x86 xff xff)))
(T (W xff xff xff xff xff xff xff xff)
(L (W x00 x00 x00 x00 x4c x89 xfe xff)) E))
(T (W x00 x00 x00 x00 x00 x00 x00 x00)
(T (W x00 x00 x80 x3f x00 x00 x80 x3f)
(L (W x00 x00 x00 x00 x00 x00 x00 x00)) E)
(T (W xff xff xff xff xff xff xff xff)
(L (W xff xff xff xff xff xff xff xff)) E)))
(T (W xff xff xff xff xff xff xff xff)
(T (W xff xff xff xff xff xff xff xff)
(T (W x00 x00 x80 x3f x00 x00 x80 x3f)
(L (W x00 x00 x00 x00 x00 x00 x00 x00))
(L (W x00 x00 x80 xbf x00 x00 x80 xbf)))
(T (W x89 x03 x00 x00 xff xff xff xff)
(L (W x00 x00 x00 x00 x00 x00 x00 x00)) E))
(T (W x00 x00 x00 x00 x00 x00 x00 x00)
(T (W x00 x00 x80 x3f x00 x00 x80 x3f)
(L (W x03 x00 x00 x00 xd8 x00 x00 x00)) E)
(T (W x00 x00 x80 xbf x00 x00 x80 xbf)
(L (W x45 x26 x22 x84 xe4 x9c xf2 xcb)) E))))
(T (W x00 x00 x80 x3f x00 x00 x80 x3f)
(T (W x72 x3a xfd xff x00 x00 x01 x01)
(T (W x00 x00 x00 x00 x00 x00 x00 x00)
(T (W x68 x00 x00 x00 x5c x00 x00 x00)
(L (W x00 x00 x00 x00 x00 x00 x00 x00))
(L (W x00 x00 x00 x00 x00 x00 x00 x00)))
(T (W x00 x00 x00 x00 x00 x00 x00 x00)
(L (W xff xff xff xff xff xff xff xff)) E))
(T (W x00 x00 x00 x00 x00 x00 x00 x00)
(T (W xff xff xff xff xff xff xff xff)
(L (W x00 x00 x80 xbf x00 x00 x80 xbf)) E)
(T (W x00 x00 x01 x01 x5d x00 x00 x00)
(L (W xff xff xff xff xff xff xff xff)) E)))
(T (W xb8 x00 x00 x00 xac x00 x00 x00)
(T (W xff xff xff xff xff xff xff xff)
(T (W xff xff xff xff xff xff xff xff)
(L (W xff xff xff xff xff xff xff xff))
(L (W xff xff xff xff xa0 x00 x00 x00)))
(T (W xff xff xff xff xff xff xff xff)
(L (W x00 x00 x80 xbf x00 x00 x80 xbf)) E))
(T (W x54 x00 x00 x00 x48 x00 x00 x00)
(T (W x00 x00 x00 x00 x00 x00 x00 x00)
(L (W x00 x00 x00 x00 x00 x00 x00 x00)) E)
(T (W x46 x53 x59 x53 x5f x4e x53 x5f)
(L (W x45 x26 x22 x84 xe4 x9c xf2 xcb)) E))))))
(T (W xff xff xff xff xff xff xff xff)
(T (W x00 x00 x00 x00 x00 x00 x00 x00)
(T (W x00 x00 x80 x3f x00 x00 x80 x3f)
(T (W x00 x00 x00 x00 x00 x00 x00 x00)
(T (W x68 x00 x00 x00 x5c x00 x00 x00)
(T (W x4f x84 x6f x8b xe8 xcb x63 xb7)
(L (W x30 x32 x5f x43 x4c x45 x41 x52))
(L (W xff xff xff xff xff xff xff xff)))
(T (W x00 x00 x00 x00 x02 x00 x00 x00)
(L (W xba x7f xfe xff x78 x00 x00 x00)) E))
(T (W xff xff xff xff xbc x00 x00 x00)
(T (W x45 x26 x22 x84 xe4 x9c xf2 xcb)
(L (W xe4 x06 x00 x00 xc8 x05 x00 x00))
(L (W xff xff xff xff xff xff xff xff)))
(T (W x0c x07 xfd xff x19 x00 x00 x00)
(L (W xff xff xff xff xa0 x00 x00 x00)) E)))
(T (W xff xff xff xff xff xff xff xff)
(T (W xcf x01 x00 x00 xff xff xff xff)
(T (W x00 x00 x80 x3f x00 x00 x80 x3f)
(L (W x00 x00 x00 x00 xea xbe xfd xff))
(L (W x00 x00 x80 xbf x00 x00 x80 xbf)))
(T (W x72 xd2 xff xff x00 x00 x01 x01)
(L (W x00 x00 x01 x01 x4b x00 x00 x00)) E))
(T (W xff xff xff xff xff xff xff xff)
(T (W x00 x00 x00 x00 x00 x00 x00 x00)
(L (W x18 x00 x00 x00 x10 x00 x00 x00)) E)
(T (W x00 x00 x80 xbf x00 x00 x80 xbf)
(L (W x46 x53 x59 x53 x5f x4e x53 x5f)) E))))
(T (W x45 x26 x22 x84 xe4 x9c xf2 xcb)
(T (W xff xff xff xff xff xff xff xff)
(T (W x00 x00 x00 x00 x00 x00 x00 x00)
(T (W x00 x00 x00 x00 x00 x00 x00 x00)
(L (W x00 x00 x00 x00 x00 x00 x00 x00))
(L (W x00 x00 x00 x00 x00 x00 x00 x00)))
(T (W x70 x5f x6c x65 x61 x64 x65 x72)
(L (W x03 x00 x00 x00 xd0 x00 x00 x00)) E))
(T (W x9d x7b x23 x82 xa4 xda x61 xf2)
(T (W x45 x26 x22 x84 xe4 x9c xf2 xcb)
(L (W x00 x00 x80 xbf x00 x00 x80 xbf)) E)
(T (W xff xff xff xff xff xff xff xff)
(L (W x45 x44 x00 x00 x00 x00 x00 x00)) E)))
(T (W xff xff xff xff xff xff xff xff)
(T (W x5d x00 x00 x00 xff xff xff xff)
(T (W xff xff xff xff xff xff xff xff)
(L (W x00 x00 x80 xbf x00 x00 x80 xbf))
(L (W xba xdf xff xff x78 x00 x00 x00)))
(T (W xff xff xff xff xff xff xff xff)
(L (W x00 x00 x00 x00 x00 x00 x00 x00)) E))
(T (W x00 x00 x00 x00 x00 x00 x00 x00)
(T (W x0a x5e xfc xff x74 x00 x00 x00)
(L (W x00 x00 x00 x00 x00 x00 x00 x00)) E)
(T (W x54 x02 x00 x00 x38 x01 x00 x00)
(L (W x6c x00 x00 x00 x60 x00 x00 x00)) E)))))
(T (W x45 x26 x22 x84 xe4 x9c xf2 xcb)
(T (W x00 x00 x00 x00 x4c xd1 xf9 xff)
(T (W x50 x00 x00 x00 x44 x00 x00 x00)
(T (W x50 x00 x00 x00 x44 x00 x00 x00)
(T (W x18 x00 x00 x00 x0c x00 x00 x00)
(L (W x00 x00 x00 x00 x00 x00 x00 x00))
(L (W x00 x00 x00 x00 x00 x00 x00 x00)))
(T (W xff xff xff xff xff xff xff xff)
(L (W x18 x00 x00 x00 x0c x00 x00 x00)) E))
(T (W x00 x00 x00 x00 x00 x00 x00 x00)
(T (W x00 x00 x80 x3f x00 x00 x80 x3f)
(L (W x00 x00 x00 x00 x00 x00 x00 x00)) E)
(T (W x50 x00 x00 x00 x44 x00 x00 x00)
(L (W xb8 x00 x00 x00 x64 x00 x00 x00)) E)))
(T (W xff xff xff xff xff xff xff xff)
(T (W xff xff xff xff xff xff xff xff)
(T (W x01 x00 x00 x00 x29 x00 x00 x00)
(L (W x49 xa1 x68 x4a xeb x5f xdd x3d))
(L (W x00 x00 x80 xbf x00 x00 x80 xbf)))
(T (W x54 x00 x00 x00 x48 x00 x00 x00)
(L (W x4f x84 x6f x8b xe8 xcb x63 xb7)) E))
(T (W xd4 x00 x00 x00 xc8 x00 x00 x00)
(T (W x00 x00 x80 x3f x00 x00 x80 x3f)
(L (W xff xff xff xff xff xff xff xff)) E)
(T (W x03 x00 x00 x00 xd0 x00 x00 x00)
(L (W x00 x00 x80 xbf x00 x00 x80 xbf)) E))))
(T (W x45 x26 x22 x84 xe4 x9c xf2 xcb)
(T (W x00 x00 x00 x00 x00 x00 x00 x00)
(T (W x00 x00 x00 x00 x00 x00 x00 x00)
(T (W xff xff xff xff xff xff xff xff)
(L (W xb0 x00 x00 x00 x64 x00 x00 x00))
(L (W x49 xa1 x68 x4a xeb x5f xdd x3d)))
(T (W x00 x00 x00 x00 x00 x00 x00 x00)
(L (W xff xff xff xff xff xff xff xff)) E))
(T (W x0a x2e xfb xff x74 x00 x00 x00)
(T (W xff xff xff xff xff xff xff xff)
(L (W x00 x00 x00 x00 x4c x31 xfe xff)) E)
(T (W x00 x00 x00 x00 x00 x00 x00 x00)
(L (W x00 x00 x00 x00 x22 x32 xff xff)) E)))
(T (W xff xff xff xff x04 x00 x00 x00)
(T (W xff xff xff xff xff xff xff xff)
(T (W x00 x00 x00 x00 x00 x00 x00 x00)
(L (W xff xff xff xff xff xff xff xff))
(L (W xff xff xff xff xff xff xff xff)))
(T (W x00 x00 x80 x3f x00 x00 x80 x3f)
(L (W x00 x00 x00 x00 x4c xf1 xfe xff)) E))
(T (W xff xff xff xff xff xff xff xff)
(T (W xf6 x5e x2e x97 x85 x1b x59 x5f)
(L (W x00 x00 x80 xbf x00 x00 x80 xbf)) E)
(T (W x00 x00 x00 x00 x00 x00 x00 x00)
(L (W xff xff xff xff xff xff xff xff)) E)))))))
(T (W xff xff xff xff xff xff xff xff)
(T (W xdc x8e xf9 xff x00 x01 x01 x01)
(T (W x38 x00 x00 x00 x24 x3c x00 x00)
(T (W x00 x00 x00 x00 x00 x00 x00 x00)
(T (W xff xff xff xff xff xff xff xff)
(T (W x00 x00 x00 x00 x00 x00 x00 x00)
(T (W x00 x00 x80 x3f x00 x00 x80 x3f)
(L (W x50 x00 x00 x00 x44 x00 x00 x00))
(L (W x4f x84 x6f x8b xe8 xcb x63 xb7)))
(T (W xdc x7e xfc xff x00 x01 x01 x01)
(L (W x4a x00 x00 x00 xff xff xff xff)) E))
(T (W x70 x5f x6c x65 x61 x64 x65 x72)
(T (W xcc x00 x00 x00 xc0 x00 x00 x00)
(L (W x00 x00 x80 xbf x00 x00 x80 xbf))
(L (W x00 x00 x00 x00 x00 x00 x00 x00)))
(T (W x00 x00 x00 x00 x01 x00 x00 x00)
(L (W x00 x00 x00 x00 xaa xfc xfe xff)) E)))
(T (W x68 x00 x00 x00 x5c x00 x00 x00)
(T (W x18 x00 x00 x00 x0c x00 x00 x00)
(T (W xff xff xff xff xc8 x00 x00 x00)
(L (W x00 x00 x80 xbf x00 x00 x80 xbf))
(L (W xff xff xff xff xff xff xff xff)))
(T (W x68 x00 x00 x00 x5c x00 x00 x00)
(L (W x00 x00 x80 xbf x00 x00 x80 xbf)) E))
(T (W x00 x00 x00 x00 x00 x00 x00 x00)
(T (W x45 x26 x22 x84 xe4 x9c xf2 xcb)
(L (W x00 x00 x00 x00 x00 x00 x00 x00)) E)
(T (W xff xff xff xff xff xff xff xff)
(L (W x21 x00 x00 x00 x24 x00 x00 x00)) E))))
(T (W xff xff xff xff xff xff xff xff)
(T (W x6f x6b x65 x5f x6d x69 x6c x64)
(T (W x45 x26 x22 x84 xe4 x9c xf2 xcb)
(T (W x0a x9a xfb xff x74 x00 x00 x00)
(L (W xff xff xff xff xac x00 x00 x00))
(L (W xff xff xff xff xff xff xff xff)))
(T (W x00 x00 x80 x3f x00 x00 x80 x3f)
(L (W x00 x00 x00 x00 x00 x00 x00 x00)) E))
(T (W xba x1b xfb xff x78 x00 x00 x00)
(T (W x00 x00 x00 x00 x00 x00 x00 x00)
(L (W xff xff xff xff xff xff xff xff)) E)
(T (W x45 x26 x22 x84 xe4 x9c xf2 xcb)
(L (W x00 x00 x80 xbf x00 x00 x80 xbf)) E)))
(T (W x00 x00 x00 x00 x00 x00 x00 x00)
(T (W x45 x26 x22 x84 xe4 x9c xf2 xcb)
(T (W x00 x00 x80 x3f x00 x00 x80 x3f)
(L (W xff xff xff xff xff xff xff xff))
(L (W x46 x53 x59 x53 x5f x4e x53 x5f)))
(T (W x00 x00 x80 x3f x00 x00 x80 x3f)
(L (W xff xff xff xff xff xff xff xff)) E))
(T (W x18 x00 x00 x00 x0c x00 x00 x00)
(T (W x45 x44 x00 x00 x00 x00 x00 x00)
(L (W x0a x5a xfe xff x74 x00 x00 x00)) E)
(T (W x00 x00 x80 xbf x00 x00 x80 xbf)
(L (W x30 x32 x5f x43 x4c x45 x41 x52)) E)))))
(T (W x00 x00 x01 x01 xc9 x00 x00 x00)
(T (W x45 x26 x22 x84 xe4 x9c xf2 xcb)
(T (W xb8 x00 x00 x00 xac x00 x00 x00)
(T (W x00 x00 x00 x00 x00 x00 x00 x00)
(T (W xff xff xff xff xff xff xff xff)
(L (W x50 x00 x00 x00 x44 x00 x00 x00))
(L (W x6c x00 x00 x00 x60 x00 x00 x00)))
(T (W x00 x00 x80 x3f x00 x00 x80 x3f)
(L (W x00 x00 x00 x00 x00 x00 x00 x00)) E))
(T (W xb8 x00 x00 x00 x14 x00 x00 x00)
(T (W xff xff xff xff xff xff xff xff)
(L (W xff xff xff xff xb0 x00 x00 x00)) E)
(T (W x00 x00 x80 xbf x00 x00 x80 xbf)
(L (W x00 x00 x00 x00 x00 x00 x00 x00)) E)))
(T (W x00 x00 x80 x3f x00 x00 x80 x3f)
(T (W x54 x00 x00 x00 x48 x00 x00 x00)
(T (W x46 x53 x59 x53 x5f x4e x53 x5f)
(L (W x18 x00 x00 x00 x10 x00 x00 x00))
(L (W x00 x00 x00 x00 x00 x00 x00 x00)))
(T (W xc8 x00 x00 x00 x01 x00 x00 x00)
(L (W xff xff xff xff xb0 x00 x00 x00)) E))
(T (W x00 x00 x00 x00 x00 x00 x00 x00)
(T (W xff xff xff xff xff xff xff xff)
(L (W x00 x00 x80 xbf x00 x00 x80 xbf)) E)
(T (W x00 x00 x00 x00 x00 x00 x00 x00)
(L (W xff xff xff xff xff xff xff xff)) E))))
(T (W xff xff xff xff xff xff xff xff)
(T (W x00 x00 x80 x3f x00 x00 x80 x3f)
(T (W xdc xae xfa xff x00 x01 x01 x01)
(T (W x00 x00 x00 x00 x00 x00 x00 x00)
(L (W x00 x00 x80 xbf x00 x00 x80 xbf))
(L (W xff xff xff xff xc0 x00 x00 x00)))
(T (W xff xff xff xff xff xff xff xff)
(L (W x00 x00 x80 xbf x00 x00 x80 xbf)) E))
(T (W xa1 x01 x00 x00 xff xff xff xff)
(T (W x00 x00 x00 x00 x00 x00 x00 x00)
(L (W x08 x00 x00 x00 x18 x08 x00 x00)) E)
(T (W x00 x00 x80 xbf x00 x00 x80 xbf)
(L (W xba x2b xff xff x78 x00 x00 x00)) E)))
(T (W x00 x00 x00 x00 x00 x00 x00 x00)
(T (W x45 x26 x22 x84 xe4 x9c xf2 xcb)
(T (W x00 x00 x80 x3f x00 x00 x80 x3f)
(L (W x00 x00 x00 x00 x00 x00 x00 x00))
(L (W x00 x00 x00 x00 x00 x00 x00 x00)))
(T (W x00 x00 x80 x3f x00 x00 x80 x3f)
(L (W x00 x00 x00 x00 x00 x00 x00 x00)) E))
(T (W x00 x00 x00 x00 x00 x00 x00 x00)
(T (W x45 x26 x22 x84 xe4 x9c xf2 xcb)
(L (W xff xff xff xff xff xff xff xff)) E)
(T (W xc4 x00 x00 x00 x02 x00 x00 x00)
(L (W x30 x32 x5f x43 x4c x45 x41 x52)) E))))))
(T (W x45 x26 x22 x84 xe4 x9c xf2 xcb)
(T (W x00 x00 x80 x3f x00 x00 x80 x3f)
(T (W xff xff xff xff x03 x00 x00 x00)
(T (W xff xff xff xff xff xff xff xff)
(T (W x00 x00 x00 x00 x00 x00 x00 x00)
(T (W x18 x00 x00 x00 xb0 x00 x00 x00)
(L (W x00 x00 x80 xbf x00 x00 x80 xbf))
(L (W x00 x00 x80 xbf x00 x00 x80 xbf)))
(T (W x00 x00 x80 x3f x00 x00 x80 x3f)
(L (W xdc x9c xaa x28 xbf xce x56 x6a)) E))
(T (W x6c x00 x00 x00 x60 x00 x00 x00)
(T (W xff xff xff xff xff xff xff xff)
(L (W xba x03 xfe xff x78 x00 x00 x00)) E)
(T (W x9d x72 x6c x12 x83 xfd x3a xc6)
(L (W x00 x00 x00 x00 x12 x00 x00 x00)) E)))
(T (W x00 x00 x80 x3f x00 x00 x80 x3f)
(T (W x00 x00 x80 x3f x00 x00 x80 x3f)
(T (W x74 x03 x00 x00 x4c x02 x00 x00)
(L (W x15 x00 x00 x00 x18 x00 x00 x00))
(L (W xff xff xff xff xff xff xff xff)))
(T (W x00 x00 x80 x3f x00 x00 x80 x3f)
(L (W x00 x00 x00 x00 x4c xc5 xfe xff)) E))
(T (W x01 x00 x00 x00 xac x00 x00 x00)
(T (W xff xff xff xff x03 x00 x00 x00)
(L (W x4f x84 x6f x8b xe8 xcb x63 xb7)) E)
(T (W x00 x00 x01 x01 x5c x00 x00 x00)
(L (W xff xff xff xff xff xff xff xff)) E))))
(T (W xff xff xff xff xff xff xff xff)
(T (W xba x23 xfa xff x78 x00 x00 x00)
(T (W x68 x00 x00 x00 x5c x00 x00 x00)
(T (W xff xff xff xff xff xff xff xff)
(L (W x72 xe5 xff xff xc9 x00 x00 x00))
(L (W x00 x00 x80 xbf x00 x00 x80 xbf)))
(T (W x00 x00 x00 x00 x4c xa5 xfc xff)
(L (W x00 x00 x80 xbf x00 x00 x80 xbf)) E))
(T (W xb8 x00 x00 x00 x14 x00 x00 x00)
(T (W x00 x00 x00 x00 x00 x00 x00 x00)
(L (W xff xff xff xff xff xff xff xff)) E)
(T (W x49 xa1 x68 x4a xeb x5f xdd x3d)
(L (W x00 x00 x80 xbf x00 x00 x80 xbf)) E)))
(T (W x00 x00 x00 x00 x00 x00 x00 x00)
(T (W x00 x00 x00 x00 x00 x00 x00 x00)
(T (W x00 x00 x80 x3f x00 x00 x80 x3f)
(L (W xff xff xff xff xff xff xff xff))
(L (W x00 x00 x00 x00 x00 x00 x00 x00)))
(T (W x5f x77 x69 x6c x64 x5f x70 x6f)
(L (W xff xff xff xff xff xff xff xff)) E))
(T (W xff xff xff xff xff xff xff xff)
(T (W xe4 x01 x00 x00 x68 x00 x00 x00)
(L (W xff xff xff xff xff xff xff xff)) E)
(T (W x50 x00 x00 x00 x44 x00 x00 x00)
(L (W x5c x54 x48 xdc x00 x5b x59 x2f)) E)))))
(T (W xba xb3 xf9 xff x78 x00 x00 x00)
(T (W xff xff xff xff xff xff xff xff)
(T (W x01 x00 x00 x00 x04 x00 x00 x00)
(T (W x40 x00 x00 x00 x0c x00 x00 x00)
(T (W x00 x00 x00 x00 x00 x00 x00 x00)
(L (W xdc x96 xfd xff x00 x01 x01 x01))
(L (W x18 x00 x00 x00 x10 x00 x00 x00)))
(T (W x00 x00 x00 x00 x00 x00 x00 x00)
(L (W x00 x00 x00 x00 x00 x00 x00 x00)) E))
(T (W x6b x65 x5f x6c x76 x31 x00 x00)
(T (W x00 x00 x00 x00 x00 x00 x00 x00)
(L (W xff xff xff xff xff xff xff xff)) E)
(T (W x00 x00 x00 x00 x00 x00 x00 x00)
(L (W x00 x00 x80 xbf x00 x00 x80 xbf)) E)))
(T (W x45 x26 x22 x84 xe4 x9c xf2 xcb)
(T (W x00 x00 x80 x3f x00 x00 x80 x3f)
(T (W x00 x00 x00 x00 x00 x00 x00 x00)
(L (W xff xff xff xff xff xff xff xff))
(L (W x00 x00 x00 x00 x00 x00 x00 x00)))
(T (W x49 xa1 x68 x4a xeb x5f xdd x3d)
(L (W xff xff xff xff xff xff xff xff)) E))
(T (W x00 x00 x00 x00 x00 x00 x00 x00)
(T (W x6a x5c xff xff x00 x00 x01 x01)
(L (W xba x53 xfe xff x78 x00 x00 x00)) E)
(T (W x00 x00 x80 xbf x00 x00 x80 xbf)
(L (W x00 x00 x00 x00 xaa x54 xff xff)) E))))
(T (W xb8 x00 x00 x00 xac x00 x00 x00)
(T (W x00 x00 x80 x3f x00 x00 x80 x3f)
(T (W x45 x26 x22 x84 xe4 x9c xf2 xcb)
(T (W x00 x00 x80 x3f x00 x00 x80 x3f)
(L (W xff xff xff xff xff xff xff xff))
(L (W x03 x00 x00 x00 xd0 x00 x00 x00)))
(T (W x0a xb2 xfc xff x74 x00 x00 x00)
(L (W x00 x00 x80 xbf x00 x00 x80 xbf)) E))
(T (W x46 x53 x59 x53 x5f x4e x53 x5f)
(T (W x18 x00 x00 x00 x0c x00 x00 x00)
(L (W x45 x44 x00 x00 x00 x00 x00 x00)) E)
(T (W x45 x26 x22 x84 xe4 x9c xf2 xcb)
(L (W xdc x36 xff xff x00 x01 x01 x01)) E)))
(T (W x00 x00 x00 x00 x00 x00 x00 x00)
(T (W x18 x00 x00 x00 x10 x00 x00 x00)
(T (W x00 x00 x80 x3f x00 x00 x80 x3f)
(L (W x00 x00 x80 xbf x00 x00 x80 xbf))
(L (W x00 x00 x80 xbf x00 x00 x80 xbf)))
(T (W x00 x00 x00 x00 x00 x00 x00 x00)
(L (W x00 x00 x00 x00 x00 x00 x00 x00)) E))
(T (W x4f x84 x6f x8b xe8 xcb x63 xb7)
(T (W x00 x00 x80 x3f x00 x00 x80 x3f)
(L (W x54 x02 x00 x00 x38 x01 x00 x00)) E)
(T (W x45 x26 x22 x84 xe4 x9c xf2 xcb)
(L (W x00 x00 x00 x00 x00 x00 x00 x00)) E))))))))
(T (W x00 x00 x80 x3f x00 x00 x80 x3f)
(T (W xff xff xff xff x04 x00 x00 x00)
(T (W x00 x00 x80 x3f x00 x00 x80 x3f)
(T (W xff xff xff xff xff xff xff xff)
(T (W x00 x00 x00 x00 x82 x54 xfd xff)
(T (W x68 x00 x00 x00 x5c x00 x00 x00)
(T (W xff xff xff xff xff xff xff xff)
(T (W x00 x00 x00 x00 x00 x00 x00 x00)
(L (W x45 x26 x22 x84 xe4 x9c xf2 xcb))
(L (W x30 x32 x5f x43 x4c x45 x41 x52)))
(T (W x00 x00 x80 x3f x00 x00 x80 x3f)
(L (W xff xff xff xff xc8 x00 x00 x00)) E))
(T (W xff xff xff xff xff xff xff xff)
(T (W x54 x00 x00 x00 x48 x00 x00 x00)
(L (W x00 x00 x00 x00 x00 x00 x00 x00))
(L (W xff xff xff xff xb0 x00 x00 x00)))
(T (W x68 x00 x00 x00 x5c x00 x00 x00)
(L (W xff xff xff xff xff xff xff xff)) E)))
(T (W x00 x00 x00 x00 x00 x00 x00 x00)
(T (W x00 x00 x80 x3f x00 x00 x80 x3f)
(T (W x00 x00 x80 x3f x00 x00 x80 x3f)
(L (W x45 x26 x22 x84 xe4 x9c xf2 xcb))
(L (W x00 x00 x80 xbf x00 x00 x80 xbf)))
(T (W x45 x26 x22 x84 xe4 x9c xf2 xcb)
(L (W x00 x00 x00 x00 x00 x00 x00 x00)) E))
(T (W x6a x42 xfe xff x00 x00 x01 x01)
(T (W x00 x00 x80 x3f x00 x00 x80 x3f)
(L (W x00 x00 x01 x01 x5d x00 x00 x00)) E)
(T (W x00 x00 x80 xbf x00 x00 x80 xbf)
(L (W x45 x26 x22 x84 xe4 x9c xf2 xcb)) E))))
(T (W x00 x00 x80 x3f x00 x00 x80 x3f)
(T (W xff xff xff xff xff xff xff xff)
(T (W x00 x00 x80 x3f x00 x00 x80 x3f)
(T (W x00 x00 x00 x00 x12 x00 x00 x00)
(L (W x00 x00 x80 xbf x00 x00 x80 xbf))
(L (W x00 x00 x80 xbf x00 x00 x80 xbf)))
(T (W xff xff xff xff xff xff xff xff)
(L (W x00 x00 x00 x00 x3a x9f xfe xff)) E))
(T (W x00 x00 x00 x00 x00 x00 x00 x00)
(T (W xff xff xff xff xff xff xff xff)
(L (W x54 x00 x00 x00 x48 x00 x00 x00)) E)
(T (W xff xff xff xff xff xff xff xff)
(L (W x00 x00 x00 x00 x00 x00 x00 x00)) E)))
(T (W xff xff xff xff xff xff xff xff)
(T (W x00 x00 x00 x00 x00 x00 x00 x00)
(T (W x00 x00 x00 x00 x00 x00 x00 x00)
(L (W x0a xd8 xfd xff x74 x00 x00 x00))
(L (W xff xff xff xff xff xff xff xff)))
(T (W x17 x00 x00 x00 x0c x00 x00 x00)
(L (W xba xd9 xfe xff x78 x00 x00 x00)) E))
(T (W x00 x00 x00 x00 x00 x00 x00 x00)
(T (W x00 x00 x00 x00 x4c x5b xfc xff)
(L (W x45 x26 x22 x84 xe4 x9c xf2 xcb)) E)
(T (W x46 x53 x59 x53 x5f x4e x53 x5f)
(L (W xff xff xff xff x9c x00 x00 x00)) E)))))
(T (W xff xff xff xff xff xff xff xff)
(T (W x00 x00 x00 x00 x00 x00 x00 x00)
(T (W x00 x00 x80 x3f x00 x00 x80 x3f)
(T (W xff xff xff xff xff xff xff xff)
(T (W x45 x26 x22 x84 xe4 x9c xf2 xcb)
(L (W x00 x00 x00 x00 x00 x00 x00 x00))
(L (W x00 x00 x00 x00 x00 x00 x00 x00)))
(T (W x00 x00 x00 x00 x00 x00 x00 x00)
(L (W xff xff xff xff xff xff xff xff)) E))
(T (W x00 x00 x80 x3f x00 x00 x80 x3f)
(T (W x01 x00 x00 x00 x21 x00 x00 x00)
(L (W x00 x00 x80 xbf x00 x00 x80 xbf)) E)
(T (W x00 x00 x00 x00 x00 x00 x00 x00)
(L (W x00 x00 x00 x00 xaa x0a xff xff)) E)))
(T (W x64 x5a xfa xff x1d x00 x00 x00)
(T (W x00 x00 x00 x00 x00 x00 x00 x00)
(T (W x18 x00 x00 x00 x10 x00 x00 x00)
(L (W x00 x00 x80 xbf x00 x00 x80 xbf))
(L (W xff xff xff xff xff xff xff xff)))
(T (W xff xff xff xff xff xff xff xff)
(L (W x00 x00 x80 xbf x00 x00 x80 xbf)) E))
(T (W x1b x00 x00 x00 x1e x00 x00 x00)
(T (W x50 x00 x00 x00 x44 x00 x00 x00)
(L (W x09 x00 x00 x00 x0c x00 x00 x00)) E)
(T (W xb0 x00 x00 x00 x64 x00 x00 x00)
(L (W x50 x00 x00 x00 x44 x00 x00 x00)) E))))
(T (W x68 x00 x00 x00 x5c x00 x00 x00)
(T (W x00 x00 x00 x00 x00 x00 x00 x00)
(T (W x00 x00 x80 x3f x00 x00 x80 x3f)
(T (W xff xff xff xff xff xff xff xff)
(L (W x00 x00 x80 xbf x00 x00 x80 xbf))
(L (W x6c x00 x00 x00 x60 x00 x00 x00)))
(T (W x68 x00 x00 x00 x5c x00 x00 x00)
(L (W x00 x00 x00 x00 xea xa8 xfe xff)) E))
(T (W xdc x2c xfb xff x00 x01 x01 x01)
(T (W xff xff xff xff xff xff xff xff)
(L (W x21 x00 x00 x00 x24 x00 x00 x00)) E)
(T (W x00 x00 x00 x00 x00 x00 x00 x00)
(L (W x00 x00 x00 x00 x00 x00 x00 x00)) E)))
(T (W x00 x00 x00 x00 x00 x00 x00 x00)
(T (W x00 x00 x00 x00 x00 x00 x00 x00)
(T (W x00 x00 x00 x00 x00 x00 x00 x00)
(L (W x00 x00 x00 x00 x00 x00 x00 x00))
(L (W xff xff xff xff xff xff xff xff)))
(T (W x00 x00 x00 x00 x00 x00 x00 x00)
(L (W xff xff xff xff xff xff xff xff)) E))
(T (W xff xff xff xff xff xff xff xff)
(T (W x00 x00 x80 x3f x00 x00 x80 x3f)
(L (W x50 x00 x00 x00 x44 x00 x00 x00)) E)
(T (W x00 x00 x80 xbf x00 x00 x80 xbf)
(L (W xff xff xff xff xff xff xff xff)) E))))))
(T (W x00 x00 x00 x00 x00 x00 x00 x00)
(T (W x45 x26 x22 x84 xe4 x9c xf2 xcb)
(T (W xdc xc4 xf9 xff x00 x01 x01 x01)
(T (W x00 x00 x80 x3f x00 x00 x80 x3f)
(T (W xff xff xff xff xff xff xff xff)
(T (W x00 x00 x80 x3f x00 x00 x80 x3f)
(L (W xe8 x0c x00 x00 xbc x0b x00 x00))
(L (W x00 x00 x00 x00 x00 x00 x00 x00)))
(T (W x00 x00 x00 x00 x00 x00 x00 x00)
(L (W xff xff xff xff xff xff xff xff)) E))
(T (W x00 x00 x00 x00 x00 x00 x00 x00)
(T (W x00 x00 x80 x3f x00 x00 x80 x3f)
(L (W x00 x00 x80 xbf x00 x00 x80 xbf))
(L (W x08 x00 x0c x00 x10 x00 x14 x00)))
(T (W x00 x00 x80 xbf x00 x00 x80 xbf)
(L (W xff xff xff xff xff xff xff xff)) E)))
(T (W x00 x00 x00 x00 x00 x00 x00 x00)
(T (W x00 x00 x00 x00 x00 x00 x00 x00)
(T (W x01 x00 x00 x00 xac x00 x00 x00)
(L (W x00 x00 x80 xbf x00 x00 x80 xbf))
(L (W xdc xc4 xff xff x00 x01 x01 x01)))
(T (W x00 x00 x00 x00 x00 x00 x00 x00)
(L (W x00 x00 x00 x00 x00 x00 x00 x00)) E))
(T (W x00 x00 x80 x3f x00 x00 x80 x3f)
(T (W x6c x00 x00 x00 x60 x00 x00 x00)
(L (W x45 x44 x00 x00 x00 x00 x00 x00)) E)
(T (W x03 x00 x00 x00 xd8 x00 x00 x00)
(L (W xba x41 xff xff x78 x00 x00 x00)) E))))
(T (W x00 x00 x80 x3f x00 x00 x80 x3f)
(T (W x00 x00 x00 x00 x00 x00 x00 x00)
(T (W x00 x00 x80 x3f x00 x00 x80 x3f)
(T (W x50 x00 x00 x00 x44 x00 x00 x00)
(L (W xff xff xff xff xff xff xff xff))
(L (W x00 x00 x48 x00 x4c x00 x00 x00)))
(T (W x00 x00 x80 x3f x00 x00 x80 x3f)
(L (W x08 x00 x00 x00 x00 x08 x00 x00)) E))
(T (W x00 x00 x80 x3f x00 x00 x80 x3f)
(T (W x00 x00 x00 x00 x3a x27 xfc xff)
(L (W xff xff xff xff xa0 x00 x00 x00)) E)
(T (W x00 x00 x00 x00 x00 x00 x00 x00)
(L (W x00 x00 x00 x00 x00 x00 x00 x00)) E)))
(T (W x72 x74 xfd xff x00 x00 x01 x01)
(T (W x00 x00 x00 x00 x00 x00 x00 x00)
(T (W x00 x00 x00 x00 x00 x00 x00 x00)
(L (W x12 x00 x00 x00 x15 x00 x00 x00))
(L (W xff xff xff xff xff xff xff xff)))
(T (W x00 x00 x80 x3f x00 x00 x80 x3f)
(L (W x19 x00 x00 x00 x1c x00 x00 x00)) E))
(T (W x45 x26 x22 x84 xe4 x9c xf2 xcb)
(T (W xff xff xff xff xff xff xff xff)
(L (W x00 x00 x80 xbf x00 x00 x80 xbf)) E)
(T (W x45 x26 x22 x84 xe4 x9c xf2 xcb)
(L (W xff xff xff xff xff xff xff xff)) E)))))
(T (W x00 x00 x80 x3f x00 x00 x80 x3f)
(T (W xff xff xff xff xff xff xff xff)
(T (W xff xff xff xff xff xff xff xff)
(T (W xff xff xff xff x04 x00 x00 x00)
(T (W x6a x9a xfe xff x00 x00 x01 x01)
(L (W x49 xa1 x68 x4a xeb x5f xdd x3d))
(L (W x00 x00 x80 xbf x00 x00 x80 xbf)))
(T (W x00 x00 x00 x00 x02 x00 x00 x00)
(L (W x00 x00 x01 x01 x5c x00 x00 x00)) E))
(T (W x01 x00 x00 x00 x29 x00 x00 x00)
(T (W xff xff xff xff xff xff xff xff)
(L (W x00 x00 x80 xbf x00 x00 x80 xbf)) E)
(T (W xff xff xff xff xff xff xff xff)
(L (W x00 x00 x00 x00 x00 x00 x00 x00)) E)))
(T (W x01 x00 x00 x00 x04 x00 x00 x00)
(T (W x00 x00 x00 x00 x00 x00 x00 x00)
(T (W xff xff xff xff xff xff xff xff)
(L (W xba xd1 xfd xff x78 x00 x00 x00))
(L (W xff xff xff xff xff xff xff xff)))
(T (W xff xff xff xff xff xff xff xff)
(L (W x6c x00 x00 x00 x60 x00 x00 x00)) E))
(T (W xff xff xff xff xff xff xff xff)
(T (W x45 x26 x22 x84 xe4 x9c xf2 xcb)
(L (W x00 x00 x00 x00 x12 x00 x00 x00)) E)
(T (W x04 x00 x00 x00 x80 x03 x00 x00)
(L (W xff xff xff xff xff xff xff xff)) E))))
(T (W x45 x26 x22 x84 xe4 x9c xf2 xcb)
(T (W x00 x00 x00 x00 x00 x00 x00 x00)
(T (W x45 x26 x22 x84 xe4 x9c xf2 xcb)
(T (W x46 x53 x59 x53 x5f x4e x53 x5f)
(L (W xff xff xff xff xff xff xff xff))
(L (W x6c x00 x00 x00 x60 x00 x00 x00)))
(T (W x00 x00 x80 x3f x00 x00 x80 x3f)
(L (W x18 x00 x00 x00 x0c x00 x00 x00)) E))
(T (W xff xff xff xff xbc x00 x00 x00)
(T (W x00 x00 x00 x00 x00 x00 x00 x00)
(L (W xff xff xff xff xff xff xff xff)) E)
(T (W x49 xa1 x68 x4a xeb x5f xdd x3d)
(L (W x00 x00 x00 x00 x00 x00 x00 x00)) E)))
(T (W x20 x01 x00 x00 x04 x00 x00 x00)
(T (W x00 x00 x80 x3f x00 x00 x80 x3f)
(T (W x00 x00 x00 x00 x00 x00 x00 x00)
(L (W x00 x00 x00 x00 x00 x00 x00 x00))
(L (W x00 x00 x00 x00 x00 x00 x00 x00)))
(T (W x18 x00 x00 x00 x10 x00 x00 x00)
(L (W xff xff xff xff xff xff xff xff)) E))
(T (W x30 x32 x5f x43 x4c x45 x41 x52)
(T (W x00 x00 x00 x00 x00 x00 x00 x00)
(L (W x18 x00 x00 x00 x0c x00 x00 x00)) E)
(T (W x00 x00 x00 x00 x00 x00 x00 x00)
(L (W xff xff xff xff xff xff xff xff)) E)))))))
(T (W x00 x00 x00 x00 x00 x00 x00 x00)
(T (W xff xff xff xff xff xff xff xff)
(T (W xc9 x00 x00 x00 xff xff xff xff)
(T (W x45 x26 x22 x84 xe4 x9c xf2 xcb)
(T (W x00 x00 x00 x00 x00 x00 x00 x00)
(T (W x00 x00 x80 x3f x00 x00 x80 x3f)
(T (W xff xff xff xff xff xff xff xff)
(L (W xff xff xff xff xff xff xff xff))
(L (W xff xff xff xff xb0 x00 x00 x00)))
(T (W xff xff xff xff xff xff xff xff)
(L (W x00 x00 x80 xbf x00 x00 x80 xbf)) E))
(T (W x6c x00 x00 x00 x60 x00 x00 x00)
(T (W x74 x03 x00 x00 x4c x02 x00 x00)
(L (W xff xff xff xff xb0 x00 x00 x00))
(L (W x18 x00 x1c x00 x20 x00 x24 x00)))
(T (W x00 x00 x80 xbf x00 x00 x80 xbf)
(L (W x00 x00 x00 x00 x00 x00 x00 x00)) E)))
(T (W x18 x00 x00 x00 x0c x00 x00 x00)
(T (W xff xff xff xff xff xff xff xff)
(T (W x00 x00 x00 x00 x00 x00 x00 x00)
(L (W x68 x00 x00 x00 x5c x00 x00 x00))
(L (W x46 x53 x59 x53 x5f x4e x53 x5f)))
(T (W xff xff xff xff xff xff xff xff)
(L (W xff xff xff xff xff xff xff xff)) E))
(T (W x0a x3c xfb xff x74 x00 x00 x00)
(T (W x00 x00 x00 x00 x3a x43 xfc xff)
(L (W x00 x00 x80 xbf x00 x00 x80 xbf)) E)
(T (W x45 x44 x00 x00 x00 x00 x00 x00)
(L (W xff xff xff xff xff xff xff xff)) E))))
(T (W x04 x00 x00 x00 x60 x03 x00 x00)
(T (W x00 x00 x00 x00 x4c x1f xfa xff)
(T (W x72 xb0 xfd xff x00 x00 x01 x01)
(T (W xff xff xff xff xff xff xff xff)
(L (W x03 x00 x00 x00 xff xff xff xff))
(L (W x00 x00 x00 x00 x00 x00 x00 x00)))
(T (W xff xff xff xff xff xff xff xff)
(L (W x6c x00 x00 x00 x60 x00 x00 x00)) E))
(T (W xff xff xff xff xff xff xff xff)
(T (W x00 x00 x80 x3f x00 x00 x80 x3f)
(L (W x00 x00 x00 x00 x00 x00 x00 x00)) E)
(T (W x45 x26 x22 x84 xe4 x9c xf2 xcb)
(L (W x18 x00 x00 x00 x10 x00 x00 x00)) E)))
(T (W xba x5d xfa xff x78 x00 x00 x00)
(T (W x01 x00 x00 x00 xa0 x00 x00 x00)
(T (W x45 x26 x22 x84 xe4 x9c xf2 xcb)
(L (W x30 x32 x5f x43 x4c x45 x41 x52))
(L (W x00 x00 x80 xbf x00 x00 x80 xbf)))
(T (W xff xff xff xff xa0 x00 x00 x00)
(L (W x00 x00 x00 x00 x00 x00 x00 x00)) E))
(T (W x00 x00 x01 x01 x9c x01 x00 x00)
(T (W x00 x00 x00 x00 x00 x00 x00 x00)
(L (W x2a x00 x00 x00 xff xff xff xff)) E)
(T (W xc4 x00 x00 x00 x02 x00 x00 x00)
(L (W x49 xa1 x68 x4a xeb x5f xdd x3d)) E)))))
(T (W x00 x00 x00 x00 x00 x00 x00 x00)
(T (W x00 x00 x80 x3f x00 x00 x80 x3f)
(T (W xc2 x01 x00 x00 xff xff xff xff)
(T (W x00 x00 x80 x3f x00 x00 x80 x3f)
(T (W x49 xa1 x68 x4a xeb x5f xdd x3d)
(L (W xff xff xff xff xff xff xff xff))
(L (W xff xff xff xff xff xff xff xff)))
(T (W xdc x90 xfc xff x00 x01 x01 x01)
(L (W x00 x00 x80 xbf x00 x00 x80 xbf)) E))
(T (W xff xff xff xff xff xff xff xff)
(T (W x00 x00 x00 x00 x00 x00 x00 x00)
(L (W xff xff xff xff xff xff xff xff)) E)
(T (W x38 x00 x3c x00 x40 x00 x44 x00)
(L (W x00 x00 x80 xbf x00 x00 x80 xbf)) E)))
(T (W x01 x00 x00 x00 x3e x00 x00 x00)
(T (W xff xff xff xff xff xff xff xff)
(T (W x49 xa1 x68 x4a xeb x5f xdd x3d)
(L (W xff xff xff xff xff xff xff xff))
(L (W x00 x00 x00 x00 x00 x00 x00 x00)))
(T (W x45 x26 x22 x84 xe4 x9c xf2 xcb)
(L (W xff xff xff xff xff xff xff xff)) E))
(T (W x00 x00 x80 x3f x00 x00 x80 x3f)
(T (W x45 x44 x00 x00 x00 x00 x00 x00)
(L (W x12 x00 x00 x00 x15 x00 x00 x00)) E)
(T (W x49 xa1 x68 x4a xeb x5f xdd x3d)
(L (W x00 x00 x00 x00 x12 x00 x00 x00)) E))))
(T (W x64 xfe xf9 xff x3e x00 x00 x00)
(T (W xb8 x00 x00 x00 xac x00 x00 x00)
(T (W xff xff xff xff xff xff xff xff)
(T (W x00 x00 x80 x3f x00 x00 x80 x3f)
(L (W x00 x00 x00 x00 x4c xaf xfd xff))
(L (W xff xff xff xff xff xff xff xff)))
(T (W x72 xc0 xff xff x00 x00 x01 x01)
(L (W xdc xb0 xfe xff x00 x01 x01 x01)) E))
(T (W x00 x00 x00 x00 x00 x00 x00 x00)
(T (W x19 x00 x00 x00 x1c x00 x00 x00)
(L (W x00 x00 x80 xbf x00 x00 x80 xbf)) E)
(T (W x21 x00 x00 x00 x24 x00 x00 x00)
(L (W xff xff xff xff xff xff xff xff)) E)))
(T (W x00 x00 x80 x3f x00 x00 x80 x3f)
(T (W x00 x00 x80 x3f x00 x00 x80 x3f)
(T (W xff xff xff xff xff xff xff xff)
(L (W x00 x00 x80 xbf x00 x00 x80 xbf))
(L (W x00 x00 x80 xbf x00 x00 x80 xbf)))
(T (W xff xff xff xff xff xff xff xff)
(L (W x00 x00 x80 xbf x00 x00 x80 xbf)) E))
(T (W x00 x00 x00 x00 x00 x00 x00 x00)
(T (W xff xff xff xff xff xff xff xff)
(L (W x00 x00 x00 x00 x00 x00 x00 x00)) E)
(T (W x04 x00 x00 x00 xaa x6e xfd xff)
(L (W x6c x00 x00 x00 x60 x00 x00 x00)) E))))))
(T (W x00 x00 x80 x3f x00 x00 x80 x3f)
(T (W xba xa5 xf9 xff x78 x00 x00 x00)
(T (W xff xff xff xff xff xff xff xff)
(T (W x08 x1d x1e xff x9e x3d xd7 x30)
(T (W x00 x00 x80 x3f x00 x00 x80 x3f)
(T (W x0c x8d xfb xff x14 x00 x00 x00)
(L (W xc0 x00 x00 x00 x01 x00 x00 x00))
(L (W xff xff xff xff xff xff xff xff)))
(T (W x45 x26 x22 x84 xe4 x9c xf2 xcb)
(L (W x00 x00 x80 xbf x00 x00 x80 xbf)) E))
(T (W xff xff xff xff xff xff xff xff)
(T (W x00 x00 x00 x00 x00 x00 x00 x00)
(L (W xff xff xff xff xff xff xff xff)) E)
(T (W x00 x00 x80 xbf x00 x00 x80 xbf)
(L (W x00 x00 x80 xbf x00 x00 x80 xbf)) E)))
(T (W x40 x00 x00 x00 x9c x00 x00 x00)
(T (W xff xff xff xff xff xff xff xff)
(T (W x45 x26 x22 x84 xe4 x9c xf2 xcb)
(L (W xff xff xff xff xff xff xff xff))
(L (W x00 x00 x00 x00 x00 x00 x00 x00)))
(T (W x28 x00 x2c x00 x30 x00 x34 x00)
(L (W xff xff xff xff xff xff xff xff)) E))
(T (W x72 x58 xfe xff x00 x00 x01 x01)
(T (W x00 x00 x00 x00 x04 x00 x00 x00)
(L (W x54 x00 x00 x00 x48 x00 x00 x00)) E)
(T (W x00 x00 x00 x00 x00 x00 x00 x00)
(L (W x00 x00 x00 x00 x00 x00 x00 x00)) E))))
(T (W x00 x00 x00 x00 x00 x00 x00 x00)
(T (W xff xff xff xff xff xff xff xff)
(T (W xff xff xff xff xff xff xff xff)
(T (W x00 x00 x00 x00 x00 x00 x00 x00)
(L (W x00 x00 x00 x00 x00 x00 x00 x00))
(L (W x45 x26 x22 x84 xe4 x9c xf2 xcb)))
(T (W xff xff xff xff xff xff xff xff)
(L (W x00 x00 x00 x00 x4c xa7 xfe xff)) E))
(T (W xff xff xff xff xff xff xff xff)
(T (W xba x25 xfc xff x78 x00 x00 x00)
(L (W x00 x00 x00 x00 x00 x00 x00 x00)) E)
(T (W x45 x26 x22 x84 xe4 x9c xf2 xcb)
(L (W xff xff xff xff xb0 x00 x00 x00)) E)))
(T (W x00 x00 x80 x3f x00 x00 x80 x3f)
(T (W x0a xe4 xfa xff x74 x00 x00 x00)
(T (W xb8 x00 x00 x00 x28 x00 x00 x00)
(L (W x00 x00 x00 x00 x00 x00 x00 x00))
(L (W x00 x00 x80 xbf x00 x00 x80 xbf)))
(T (W x0a xe4 xfc xff x74 x00 x00 x00)
(L (W x00 x00 x00 x00 x00 x00 x00 x00)) E))
(T (W x46 x53 x59 x53 x5f x4e x53 x5f)
(T (W xff xff xff xff xff xff xff xff)
(L (W x00 x00 x00 x00 x00 x00 x00 x00)) E)
(T (W xff xff xff xff xff xff xff xff)
(L (W x00 x00 x80 xbf x00 x00 x80 xbf)) E)))))
(T (W xbc x00 x00 x00 xb0 x00 x00 x00)
(T (W x00 x00 x00 x00 x00 x00 x00 x00)
(T (W x45 x26 x22 x84 xe4 x9c xf2 xcb)
(T (W x00 x00 x00 x00 x4c x97 xfa xff)
(T (W x00 x00 x80 x3f x00 x00 x80 x3f)
(L (W xff xff xff xff xff xff xff xff))
(L (W x00 x00 x00 x00 x00 x00 x00 x00)))
(T (W x00 x00 x80 x3f x00 x00 x80 x3f)
(L (W x00 x00 x80 xbf x00 x00 x80 xbf)) E))
(T (W x18 x00 x00 x00 x10 x00 x00 x00)
(T (W x00 x00 x00 x00 x00 x00 x00 x00)
(L (W x00 x00 x00 x00 x00 x00 x00 x00)) E)
(T (W xff xff xff xff xff xff xff xff)
(L (W x29 x00 x00 x00 x2c x00 x00 x00)) E)))
(T (W x68 x00 x00 x00 x5c x00 x00 x00)
(T (W x18 x00 x00 x00 x10 x00 x00 x00)
(T (W x00 x00 x80 x3f x00 x00 x80 x3f)
(L (W x00 x00 x00 x00 x00 x00 x00 x00))
(L (W x45 x26 x22 x84 xe4 x9c xf2 xcb)))
(T (W xba xd5 xfc xff x78 x00 x00 x00)
(L (W x00 x00 x00 x00 xaa xd6 xfe xff)) E))
(T (W xff xff xff xff x9c x00 x00 x00)
(T (W x00 x00 x00 x00 x00 x00 x00 x00)
(L (W xff xff xff xff xff xff xff xff)) E)
(T (W x68 x00 x00 x00 x5c x00 x00 x00)
(L (W x00 x00 x00 x00 x00 x00 x00 x00)) E))))
(T (W x64 x82 x63 xc0 x47 x75 xd6 x72)
(T (W x00 x00 x00 x00 x4c x37 xfa xff)
(T (W xb8 x00 x00 x00 xac x00 x00 x00)
(T (W xff xff xff xff xff xff xff xff)
(L (W x00 x00 x00 x00 x00 x00 x00 x00))
(L (W x04 x00 x00 x00 x70 x03 x00 x00)))
(T (W xff xff xff xff xff xff xff xff)
(L (W xff xff xff xff xa0 x00 x00 x00)) E))
(T (W x00 x00 x80 x3f x00 x00 x80 x3f)
(T (W xff xff xff xff xff xff xff xff)
(L (W x00 x00 x80 xbf x00 x00 x80 xbf)) E)
(T (W xff xff xff xff xff xff xff xff)
(L (W xff xff xff xff xff xff xff xff)) E)))
(T (W x45 x26 x22 x84 xe4 x9c xf2 xcb)
(T (W xff xff xff xff xff xff xff xff)
(T (W x4b x00 x00 x00 xff xff xff xff)
(L (W x18 x00 x00 x00 x10 x00 x00 x00))
(L (W xff xff xff xff xa0 x00 x00 x00)))
(T (W x00 x00 x00 x00 x00 x00 x00 x00)
(L (W x00 x00 x80 xbf x00 x00 x80 xbf)) E))
(T (W xff xff xff xff x03 x00 x00 x00)
(T (W xff xff xff xff xff xff xff xff)
(L (W x45 x26 x22 x84 xe4 x9c xf2 xcb)) E)
(T (W xff xff xff xff xff xff xff xff)
(L (W x00 x00 x80 xbf x00 x00 x80 xbf)) E))))))))))
(T (W xd0 x96 x03 x00 x2c x95 x03 x00)
(T (W x70 xed x02 x00 x5c xea x02 x00)
(T (W x28 x0e x01 x00 xf4 x0c x01 x00)
(T (W x00 x00 x00 x00 x7a x1b xfd xff)
(T (W xbc x00 x00 x00 xb0 x00 x00 x00)
(T (W x00 x00 x00 x00 x00 x00 x00 x00)
(T (W x00 x00 x80 x3f x00 x00 x80 x3f)
(T (W x18 x00 x00 x00 x10 x00 x00 x00)
(T (W x20 x00 x00 x00 x0c x00 x00 x00)
(T (W x00 x00 x80 x3f x00 x00 x80 x3f)
(L (W x54 x00 x00 x00 x48 x00 x00 x00))
(L (W x49 xa1 x68 x4a xeb x5f xdd x3d)))
(T (W x5c x7a xfc xff x00 x01 x01 x01)
(L (W x5c x00 x00 x00 xff xff xff xff)) E))
(T (W x00 x00 x80 x3f x00 x00 x80 x3f)
(T (W x5c xfa xfb xff x00 x01 x01 x01)
(L (W x4f x84 x6f x8b xe8 xcb x63 xb7))
(L (W x49 xa1 x68 x4a xeb x5f xdd x3d)))
(T (W x64 x5f x70 x6f x6b x65 x5f x77)
(L (W x00 x00 x00 x00 x00 x00 x00 x00)) E)))
(T (W x45 x26 x22 x84 xe4 x9c xf2 xcb)
(T (W x00 x00 x80 x3f x00 x00 x80 x3f)
(T (W x54 x00 x00 x00 x48 x00 x00 x00)
(L (W x18 x00 x00 x00 x10 x00 x00 x00))
(L (W xff xff xff xff xc0 x00 x00 x00)))
(T (W x68 x00 x00 x00 x5c x00 x00 x00)
(L (W x00 x00 x80 xbf x00 x00 x80 xbf)) E))
(T (W x00 x00 x00 x00 x00 x00 x00 x00)
(T (W x50 x00 x00 x00 x44 x00 x00 x00)
(L (W x00 x00 x00 x00 x00 x00 x00 x00)) E)
(T (W x00 x00 x00 x00 xcc x38 xfd xff)
(L (W x00 x00 x80 xbf x00 x00 x80 xbf)) E))))
(T (W x45 x26 x22 x84 xe4 x9c xf2 xcb)
(T (W xb9 x00 x00 x00 xff xff xff xff)
(T (W x00 x00 x80 x3f x00 x00 x80 x3f)
(T (W x4f x84 x6f x8b xe8 xcb x63 xb7)
(L (W x8a x95 xfd xff x74 x00 x00 x00))
(L (W xc4 x00 x00 x00 x02 x00 x00 x00)))
(T (W x00 x00 x00 x00 x00 x00 x00 x00)
(L (W x00 x00 x00 x00 x00 x00 x00 x00)) E))
(T (W x4f x84 x6f x8b xe8 xcb x63 xb7)
(T (W x00 x00 x00 x00 x04 x00 x00 x00)
(L (W xcc x00 x00 x00 x01 x00 x00 x00)) E)
(T (W x18 x00 x00 x00 x0c x00 x00 x00)
(L (W x00 x00 x80 xbf x00 x00 x80 xbf)) E)))
(T (W x00 x00 x80 x3f x00 x00 x80 x3f)
(T (W x00 x00 x80 x3f x00 x00 x80 x3f)
(T (W x00 x00 x00 x00 x00 x00 x00 x00)
(L (W xb0 x00 x00 x00 x64 x00 x00 x00))
(L (W xff xff xff xff xff xff xff xff)))
(T (W x00 x00 x00 x00 x00 x00 x00 x00)
(L (W xff xff xff xff xa0 x00 x00 x00)) E))
(T (W x00 x00 x80 x3f x00 x00 x80 x3f)
(T (W xff xff xff xff xff xff xff xff)
(L (W x54 x00 x00 x00 x48 x00 x00 x00)) E)
(T (W x00 x00 x80 xbf x00 x00 x80 xbf)
(L (W xff xff xff xff xff xff xff xff)) E)))))
(T (W x00 x00 x00 x00 x00 x00 x00 x00)
(T (W x00 x00 x80 x3f x00 x00 x80 x3f)
(T (W xc0 x00 x00 x00 xb4 x00 x00 x00)
(T (W xff xff xff xff xff xff xff xff)
(T (W xff xff xff xff xff xff xff xff)
(L (W x00 x00 x80 xbf x00 x00 x80 xbf))
(L (W x00 x00 x80 xbf x00 x00 x80 xbf)))
(T (W x00 x00 x80 x3f x00 x00 x80 x3f)
(L (W x00 x00 x00 x00 x00 x00 x00 x00)) E))
(T (W x00 x00 x00 x00 xcc x08 xfb xff)
(T (W xff xff xff xff xff xff xff xff)
(L (W x00 x00 x80 xbf x00 x00 x80 xbf)) E)
(T (W x00 x00 x00 x00 x00 x00 x00 x00)
(L (W xe4 x17 xff xff x12 x00 x00 x00)) E)))
(T (W x45 x26 x22 x84 xe4 x9c xf2 xcb)
(T (W x00 x00 x80 x3f x00 x00 x80 x3f)
(T (W xff xff xff xff xff xff xff xff)
(L (W x18 x00 x00 x00 x10 x00 x00 x00))
(L (W xff xff xff xff xff xff xff xff)))
(T (W x36 x36 x22 x4b xf1 xee xc6 x32)
(L (W x18 x00 x00 x00 x0c x00 x00 x00)) E))
(T (W x18 x00 x00 x00 x10 x00 x00 x00)
(T (W xff xff xff xff xff xff xff xff)
(L (W x00 x00 x00 x00 x00 x00 x00 x00)) E)
(T (W xff xff xff xff xff xff xff xff)
(L (W xff xff xff xff xc8 x00 x00 x00)) E))))
(T (W xff xff xff xff xff xff xff xff)
(T (W x00 x00 x80 x3f x00 x00 x80 x3f)
(T (W x45 x26 x22 x84 xe4 x9c xf2 xcb)
(T (W x00 x00 x01 x01 x9c x01 x00 x00)
(L (W xb0 x00 x00 x00 x64 x00 x00 x00))
(L (W x3c x00 x40 x00 x2a x00 x00 x00)))
(T (W x8a xa5 xfc xff x74 x00 x00 x00)
(L (W x00 x00 x00 x00 x00 x00 x00 x00)) E))
(T (W x01 x00 x00 x00 x21 x00 x00 x00)
(T (W x00 x00 x00 x00 x00 x00 x00 x00)
(L (W xff xff xff xff xff xff xff xff)) E)
(T (W x45 x26 x22 x84 xe4 x9c xf2 xcb)
(L (W x00 x00 x80 xbf x00 x00 x80 xbf)) E)))
(T (W x00 x00 x00 x00 x00 x00 x00 x00)
(T (W x45 x26 x22 x84 xe4 x9c xf2 xcb)
(T (W x00 x00 x80 x3f x00 x00 x80 x3f)
(L (W x00 x00 x00 x00 x00 x00 x00 x00))
(L (W x30 x32 x5f x43 x4c x45 x41 x52)))
(T (W x00 x00 x80 x3f x00 x00 x80 x3f)
(L (W xff xff xff xff xff xff xff xff)) E))
(T (W xff xff xff xff xff xff xff xff)
(T (W x45 x26 x22 x84 xe4 x9c xf2 xcb)
(L (W xb4 x00 x00 x00 x32 x00 x00 x00)) E)
(T (W x3a x67 xfd xff x78 x00 x00 x00)
(L (W x45 x44 x00 x00 x00 x00 x00 x00)) E))))))
(T (W x00 x00 x80 x3f x00 x00 x80 x3f)
(T (W x5c xa2 xf9 xff x00 x01 x01 x01)
(T (W xff xff xff xff xff xff xff xff)
(T (W xb8 x00 x00 x00 xac x00 x00 x00)
(T (W xf2 x91 xfd xff x00 x00 x01 x01)
(T (W xd4 x00 x00 x00 xc8 x00 x00 x00)
(L (W x6c x00 x00 x00 x60 x00 x00 x00))
(L (W x00 x00 x80 xbf x00 x00 x80 xbf)))
(T (W x00 x00 x80 x3f x00 x00 x80 x3f)
(L (W x00 x00 x00 x00 x2a x80 xfe xff)) E))
(T (W x00 x00 x00 x00 x00 x00 x00 x00)
(T (W xff xff xff xff xc4 x00 x00 x00)
(L (W x00 x00 x80 xbf x00 x00 x80 xbf))
(L (W x2c x00 x30 x00 x34 x00 x38 x00)))
(T (W x00 x00 x80 xbf x00 x00 x80 xbf)
(L (W x30 x32 x5f x43 x4c x45 x41 x52)) E)))
(T (W x00 x00 x00 x00 x00 x00 x00 x00)
(T (W x00 x00 x80 x3f x00 x00 x80 x3f)
(T (W xff xff xff xff xff xff xff xff)
(L (W x00 x00 x80 xbf x00 x00 x80 xbf))
(L (W xff xff xff xff xff xff xff xff)))
(T (W x00 x00 x80 x3f x00 x00 x80 x3f)
(L (W x00 x00 x80 xbf x00 x00 x80 xbf)) E))
(T (W x49 xa1 x68 x4a xeb x5f xdd x3d)
(T (W x45 x26 x22 x84 xe4 x9c xf2 xcb)
(L (W x30 x32 x5f x43 x4c x45 x41 x52)) E)
(T (W xff xff xff xff xff xff xff xff)
(L (W x3a x3f xff xff x78 x00 x00 x00)) E))))
(T (W xc4 x00 x00 x00 xb8 x00 x00 x00)
(T (W x00 x00 x80 x3f x00 x00 x80 x3f)
(T (W x00 x00 x00 x00 xcc xa0 xfa xff)
(T (W x68 x00 x00 x00 x5c x00 x00 x00)
(L (W x18 x00 x00 x00 x0c x00 x00 x00))
(L (W xff xff xff xff xb8 x00 x00 x00)))
(T (W x00 x00 x80 x3f x00 x00 x80 x3f)
(L (W x00 x00 x00 x00 x00 x00 x00 x00)) E))
(T (W x00 x00 x80 x3f x00 x00 x80 x3f)
(T (W x45 x44 x00 x00 x00 x00 x00 x00)
(L (W xff xff xff xff xff xff xff xff)) E)
(T (W x00 x00 x00 x00 x00 x00 x00 x00)
(L (W x54 x00 x00 x00 x48 x00 x00 x00)) E)))
(T (W x00 x00 x00 x00 x00 x00 x00 x00)
(T (W x45 x26 x22 x84 xe4 x9c xf2 xcb)
(T (W x45 x26 x22 x84 xe4 x9c xf2 xcb)
(L (W xff xff xff xff xff xff xff xff))
(L (W x00 x00 x00 x00 x2a xe0 xff xff)))
(T (W x49 xa1 x68 x4a xeb x5f xdd x3d)
(L (W xb0 x00 x00 x00 x64 x00 x00 x00)) E))
(T (W x18 x00 x00 x00 x10 x00 x00 x00)
(T (W x18 x01 x00 x00 x04 x00 x00 x00)
(L (W x45 x26 x22 x84 xe4 x9c xf2 xcb)) E)
(T (W x00 x00 x80 xbf x00 x00 x80 xbf)
(L (W xff xff xff xff xff xff xff xff)) E)))))
(T (W xff xff xff xff xff xff xff xff)
(T (W x00 x00 x00 x00 x00 x00 x00 x00)
(T (W xff xff xff xff xff xff xff xff)
(T (W xc1 x00 x00 x00 xff xff xff xff)
(T (W x61 x64 x65 x72 x5f x77 x69 x6c)
(L (W x00 x00 x80 xbf x00 x00 x80 xbf))
(L (W x18 x00 x00 x00 x10 x00 x00 x00)))
(T (W x00 x00 x00 x00 x00 x00 x00 x00)
(L (W x00 x00 x00 x00 x00 x00 x00 x00)) E))
(T (W x18 x00 x00 x00 x0c x00 x00 x00)
(T (W xff xff xff xff xff xff xff xff)
(L (W x45 x26 x22 x84 xe4 x9c xf2 xcb)) E)
(T (W xff xff xff xff xff xff xff xff)
(L (W x00 x00 x00 x00 x12 x00 x00 x00)) E)))
(T (W x45 x26 x22 x84 xe4 x9c xf2 xcb)
(T (W x00 x00 x80 x3f x00 x00 x80 x3f)
(T (W xd4 x73 x5a x26 x96 x95 x06 x58)
(L (W x03 x00 x00 x00 xd8 x00 x00 x00))
(L (W xff xff xff xff xff xff xff xff)))
(T (W x9c x00 x00 x00 xff xff xff xff)
(L (W xcc x00 x00 x00 x01 x00 x00 x00)) E))
(T (W x00 x00 x00 x00 x00 x00 x00 x00)
(T (W xff xff xff xff xff xff xff xff)
(L (W x00 x00 x80 xbf x00 x00 x80 xbf)) E)
(T (W x00 x00 x00 x00 x00 x00 x00 x00)
(L (W xff xff xff xff xff xff xff xff)) E))))
(T (W xff xff xff xff x03 x00 x00 x00)
(T (W x50 x00 x00 x00 x44 x00 x00 x00)
(T (W x50 x00 x00 x00 x44 x00 x00 x00)
(T (W x00 x00 x00 x00 x00 x00 x00 x00)
(L (W x00 x00 x00 x00 x00 x00 x00 x00))
(L (W x03 x00 x00 x00 xd8 x00 x00 x00)))
(T (W x8a xad xfc xff x74 x00 x00 x00)
(L (W x00 x00 x00 x00 x00 x00 x00 x00)) E))
(T (W x00 x00 x00 x00 xba x34 xfb xff)
(T (W x49 xa1 x68 x4a xeb x5f xdd x3d)
(L (W x00 x00 x00 x00 x00 x00 x00 x00)) E)
(T (W x00 x00 x80 xbf x00 x00 x80 xbf)
(L (W x00 x00 x80 xbf x00 x00 x80 xbf)) E)))
(T (W x00 x00 x00 x00 x00 x00 x00 x00)
(T (W x00 x00 x00 x00 x00 x00 x00 x00)
(T (W x68 x00 x00 x00 x5c x00 x00 x00)
(L (W x00 x00 x00 x00 x00 x00 x00 x00))
(L (W x00 x00 x00 x00 x00 x00 x00 x00)))
(T (W xff xff xff xff xff xff xff xff)
(L (W x00 x00 x00 x00 x00 x00 x00 x00)) E))
(T (W x00 x00 x00 x00 x00 x00 x00 x00)
(T (W x00 x00 x80 x3f x00 x00 x80 x3f)
(L (W xff xff xff xff xff xff xff xff)) E)
(T (W xff xff xff xff x9c x00 x00 x00)
(L (W x00 x00 x00 x00 x00 x00 x00 x00)) E)))))))
(T (W x00 x00 x80 x3f x00 x00 x80 x3f)
(T (W x00 x00 x00 x00 x00 x00 x00 x00)
(T (W x00 x00 x80 x3f x00 x00 x80 x3f)
(T (W x45 x26 x22 x84 xe4 x9c xf2 xcb)
(T (W x45 x26 x22 x84 xe4 x9c xf2 xcb)
(T (W x3e x00 x00 x00 x9c x00 x00 x00)
(T (W xff xff xff xff xff xff xff xff)
(L (W x18 x01 x00 x00 xff xff xff xff))
(L (W x03 x00 x00 x00 xd0 x00 x00 x00)))
(T (W x00 x00 x00 x00 x02 x00 x00 x00)
(L (W x00 x00 x80 xbf x00 x00 x80 xbf)) E))
(T (W x00 x00 x80 x3f x00 x00 x80 x3f)
(T (W x00 x00 x00 x00 x00 x00 x00 x00)
(L (W xff xff xff xff xff xff xff xff))
(L (W x13 x00 x00 x00 x16 x00 x00 x00)))
(T (W x00 x00 x00 x00 x00 x00 x00 x00)
(L (W x00 x00 x80 xbf x00 x00 x80 xbf)) E)))
(T (W x3b x01 x00 x00 xff xff xff xff)
(T (W x00 x00 x00 x00 x04 x00 x00 x00)
(T (W x00 x00 x00 x00 x00 x00 x00 x00)
(L (W xff xff xff xff xff xff xff xff))
(L (W x00 x00 x80 xbf x00 x00 x80 xbf)))
(T (W xf2 xcd xff xff x00 x00 x01 x01)
(L (W xff xff xff xff xff xff xff xff)) E))
(T (W x21 x00 x00 x00 x24 x00 x00 x00)
(T (W x45 x44 x00 x00 x00 x00 x00 x00)
(L (W x19 x00 x00 x00 x1c x00 x00 x00)) E)
(T (W x00 x00 x00 x00 x00 x00 x00 x00)
(L (W x46 x53 x59 x53 x5f x4e x53 x5f)) E))))
(T (W x00 x00 x00 x00 x00 x00 x00 x00)
(T (W x00 x00 x80 x3f x00 x00 x80 x3f)
(T (W x23 x00 x00 x00 x0c x00 x00 x00)
(T (W x04 x00 x00 x00 x7a x37 xff xff)
(L (W x4c x45 x41 x52 x45 x44 x00 x00))
(L (W x00 x00 x00 x00 x00 x00 x00 x00)))
(T (W xff xff xff xff xff xff xff xff)
(L (W x18 x00 x00 x00 x0c x00 x00 x00)) E))
(T (W xea x23 xfe xff x00 x00 x01 x01)
(T (W x50 x00 x00 x00 x44 x00 x00 x00)
(L (W x00 x00 x00 x00 x00 x00 x00 x00)) E)
(T (W xff xff xff xff xac x00 x00 x00)
(L (W xff xff xff xff xff xff xff xff)) E)))
(T (W x18 x00 x00 x00 x0c x00 x00 x00)
(T (W xff xff xff xff xff xff xff xff)
(T (W xff xff xff xff xff xff xff xff)
(L (W x00 x00 x80 xbf x00 x00 x80 xbf))
(L (W x3a xdb xff xff x78 x00 x00 x00)))
(T (W xff xff xff xff xff xff xff xff)
(L (W x00 x00 x00 x00 x00 x00 x00 x00)) E))
(T (W x00 x00 x00 x00 x04 x00 x00 x00)
(T (W x54 x00 x00 x00 x48 x00 x00 x00)
(L (W x00 x00 x00 x00 xba x60 xfe xff)) E)
(T (W xff xff xff xff xff xff xff xff)
(L (W x6c x00 x00 x00 x60 x00 x00 x00)) E)))))
(T (W x00 x00 x80 x3f x00 x00 x80 x3f)
(T (W xff xff xff xff xff xff xff xff)
(T (W x00 x00 x00 x00 x00 x00 x00 x00)
(T (W x6c x00 x00 x00 x60 x00 x00 x00)
(T (W x00 x00 x00 x00 x00 x00 x00 x00)
(L (W x13 x00 x00 x00 xff xff xff xff))
(L (W x00 x00 x01 x01 x6f x00 x00 x00)))
(T (W xff xff xff xff xff xff xff xff)
(L (W x45 x26 x22 x84 xe4 x9c xf2 xcb)) E))
(T (W x00 x00 x00 x00 x12 x00 x00 x00)
(T (W x00 x00 x80 x3f x00 x00 x80 x3f)
(L (W x00 x00 x00 x00 x00 x00 x00 x00)) E)
(T (W xff xff xff xff xff xff xff xff)
(L (W xff xff xff xff xa0 x00 x00 x00)) E)))
(T (W xff xff xff xff xff xff xff xff)
(T (W xd0 x00 x00 x00 xff xff xff xff)
(T (W x3a xcb xfb xff x78 x00 x00 x00)
(L (W x45 x44 x00 x00 x00 x00 x00 x00))
(L (W x00 x00 x80 xbf x00 x00 x80 xbf)))
(T (W x58 x00 x00 x00 x5c x00 x60 x00)
(L (W x00 x00 x00 x00 x00 x00 x00 x00)) E))
(T (W x00 x00 x80 x3f x00 x00 x80 x3f)
(T (W x49 xa1 x68 x4a xeb x5f xdd x3d)
(L (W xff xff xff xff xff xff xff xff)) E)
(T (W x44 x00 x00 x00 x00 x00 x80 xbf)
(L (W x00 x00 x80 xbf x00 x00 x80 xbf)) E))))
(T (W x00 x00 x00 x00 x00 x00 x00 x00)
(T (W xff xff xff xff xff xff xff xff)
(T (W x00 x00 x00 x00 x00 x00 x00 x00)
(T (W x50 x00 x00 x00 x44 x00 x00 x00)
(L (W xff xff xff xff xff xff xff xff))
(L (W x00 x00 x00 x00 x00 x00 x00 x00)))
(T (W x00 x00 x00 x00 x00 x00 x00 x00)
(L (W xff xff xff xff xff xff xff xff)) E))
(T (W x00 x00 x00 x00 x00 x00 x00 x00)
(T (W x18 x00 x00 x00 x10 x00 x00 x00)
(L (W x00 x00 x80 xbf x00 x00 x80 xbf)) E)
(T (W xff xff xff xff xff xff xff xff)
(L (W x00 x00 x00 x00 xba x30 xff xff)) E)))
(T (W x45 x26 x22 x84 xe4 x9c xf2 xcb)
(T (W xff xff xff xff x03 x00 x00 x00)
(T (W xff xff xff xff xff xff xff xff)
(L (W x29 x00 x00 x00 x2c x00 x00 x00))
(L (W xc4 x00 x00 x00 x02 x00 x00 x00)))
(T (W xff xff xff xff xff xff xff xff)
(L (W x6c x00 x00 x00 x60 x00 x00 x00)) E))
(T (W x68 x00 x00 x00 x5c x00 x00 x00)
(T (W xf4 x6f x2e x97 x85 x25 x59 x5f)
(L (W x00 x00 x80 xbf x00 x00 x80 xbf)) E)
(T (W x00 x00 x00 x00 x00 x00 x00 x00)
(L (W x6c x00 x00 x00 x60 x00 x00 x00)) E))))))
(T (W xff xff xff xff x04 x00 x00 x00)
(T (W xff xff xff xff xff xff xff xff)
(T (W x00 x00 x00 x00 x00 x00 x00 x00)
(T (W x00 x00 x00 x00 x00 x00 x00 x00)
(T (W x50 x00 x00 x00 x44 x00 x00 x00)
(T (W x00 x00 x00 x00 x00 x00 x00 x00)
(L (W xff xff xff xff xff xff xff xff))
(L (W xff xff xff xff xff xff xff xff)))
(T (W xff xff xff xff xff xff xff xff)
(L (W x00 x00 x80 xbf x00 x00 x80 xbf)) E))
(T (W xa1 x01 x00 x00 xff xff xff xff)
(T (W x4f x84 x6f x8b xe8 xcb x63 xb7)
(L (W x00 x00 x00 x00 x00 x00 x00 x00)) E)
(T (W x45 x26 x22 x84 xe4 x9c xf2 xcb)
(L (W x5c x06 xff xff x00 x01 x01 x01)) E)))
(T (W xff xff xff xff xff xff xff xff)
(T (W xff xff xff xff xff xff xff xff)
(T (W x00 x00 x80 x3f x00 x00 x80 x3f)
(L (W x00 x00 x00 x00 x00 x00 x00 x00))
(L (W x45 x26 x22 x84 xe4 x9c xf2 xcb)))
(T (W xff xff xff xff xff xff xff xff)
(L (W x00 x00 x00 x00 x00 x00 x00 x00)) E))
(T (W x67 x72 x6f x75 x70 x5f x6c x65)
(T (W x00 x00 x00 x00 x00 x00 x00 x00)
(L (W x03 x00 x00 x00 xd0 x00 x00 x00)) E)
(T (W x00 x00 x80 xbf x00 x00 x80 xbf)
(L (W x00 x00 x00 x00 x00 x00 x00 x00)) E))))
(T (W x00 x00 x00 x00 x00 x00 x00 x00)
(T (W x1c x01 x00 x00 x04 x00 x00 x00)
(T (W x00 x00 x00 x00 x00 x00 x00 x00)
(T (W x00 x00 x00 x00 x00 x00 x00 x00)
(L (W x00 x00 x80 xbf x00 x00 x80 xbf))
(L (W xff xff xff xff xff xff xff xff)))
(T (W x00 x00 x00 x00 x00 x00 x00 x00)
(L (W xff xff xff xff xff xff xff xff)) E))
(T (W x00 x00 x00 x00 x12 x00 x00 x00)
(T (W x45 x26 x22 x84 xe4 x9c xf2 xcb)
(L (W x49 xa1 x68 x4a xeb x5f xdd x3d)) E)
(T (W xff xff xff xff xff xff xff xff)
(L (W xff xff xff xff xff xff xff xff)) E)))
(T (W x8a x61 xfa xff x74 x00 x00 x00)
(T (W x64 x00 x00 x00 x9c x00 x00 x00)
(T (W xff xff xff xff xff xff xff xff)
(L (W x00 x00 x80 xbf x00 x00 x80 xbf))
(L (W xff xff xff xff xa0 x00 x00 x00)))
(T (W x00 x00 x80 x3f x00 x00 x80 x3f)
(L (W x00 x00 x80 xbf x00 x00 x80 xbf)) E))
(T (W x00 x00 x80 x3f x00 x00 x80 x3f)
(T (W x00 x00 x80 x3f x00 x00 x80 x3f)
(L (W x00 x00 x00 x00 x00 x00 x00 x00)) E)
(T (W x53 x01 x00 x00 xff xff xff xff)
(L (W x00 x00 x80 xbf x00 x00 x80 xbf)) E)))))
(T (W x00 x00 x00 x00 x00 x00 x00 x00)
(T (W x00 x00 x80 x3f x00 x00 x80 x3f)
(T (W x00 x00 x80 x3f x00 x00 x80 x3f)
(T (W x00 x00 x80 x3f x00 x00 x80 x3f)
(T (W x21 x00 x00 x00 x24 x00 x00 x00)
(L (W x00 x00 x00 x00 x00 x00 x00 x00))
(L (W x45 x44 x00 x00 x00 x00 x00 x00)))
(T (W x45 x26 x22 x84 xe4 x9c xf2 xcb)
(L (W x18 x00 x00 x00 x10 x00 x00 x00)) E))
(T (W x00 x00 x80 x3f x00 x00 x80 x3f)
(T (W x00 x00 x80 x3f x00 x00 x80 x3f)
(L (W x00 x00 x00 x00 x00 x00 x00 x00)) E)
(T (W x1c x00 x00 x00 x10 x00 x00 x00)
(L (W xff xff xff xff xff xff xff xff)) E)))
(T (W xff xff xff xff x04 x00 x00 x00)
(T (W xff xff xff xff xff xff xff xff)
(T (W x8a xd1 xfb xff x74 x00 x00 x00)
(L (W x00 x00 x00 x00 x00 x00 x00 x00))
(L (W x6c x00 x00 x00 x60 x00 x00 x00)))
(T (W x03 x00 x00 x00 xd8 x00 x00 x00)
(L (W x00 x00 x00 x00 x00 x00 x00 x00)) E))
(T (W x00 x00 x00 x00 xcc x54 xfb xff)
(T (W x45 x26 x22 x84 xe4 x9c xf2 xcb)
(L (W x00 x00 x01 x01 x2a x00 x00 x00)) E)
(T (W xff xff xff xff xff xff xff xff)
(L (W x00 x00 x80 xbf x00 x00 x80 xbf)) E))))
(T (W x00 x00 x00 x00 x00 x00 x00 x00)
(T (W xff xff xff xff xff xff xff xff)
(T (W x00 x00 x00 x00 x00 x00 x00 x00)
(T (W xff xff xff xff xff xff xff xff)
(L (W x00 x00 x80 xbf x00 x00 x80 xbf))
(L (W x00 x00 x00 x00 x00 x00 x00 x00)))
(T (W x00 x00 x00 x00 x00 x00 x00 x00)
(L (W xff xff xff xff xff xff xff xff)) E))
(T (W x3a x33 xfb xff x78 x00 x00 x00)
(T (W x00 x00 x00 x00 x04 x00 x00 x00)
(L (W x54 x00 x00 x00 x48 x00 x00 x00)) E)
(T (W x99 x5c xca xc9 x03 x87 xa3 xbc)
(L (W x04 x00 x00 x00 x4a x3a xff xff)) E)))
(T (W x18 x00 x00 x00 x10 x00 x00 x00)
(T (W x00 x00 x00 x00 x00 x00 x00 x00)
(T (W xff xff xff xff xff xff xff xff)
(L (W xff xff xff xff xff xff xff xff))
(L (W xff xff xff xff xff xff xff xff)))
(T (W x00 x00 x80 x3f x00 x00 x80 x3f)
(L (W x00 x00 x80 xbf x00 x00 x80 xbf)) E))
(T (W xff xff xff xff x03 x00 x00 x00)
(T (W xff xff xff xff xff xff xff xff)
(L (W x45 x26 x22 x84 xe4 x9c xf2 xcb)) E)
(T (W x00 x00 x00 x00 x00 x00 x00 x00)
(L (W xff xff xff xff xa0 x00 x00 x00)) E))))))))
(T (W xff xff xff xff xff xff xff xff)
(T (W x00 x00 x00 x00 x00 x00 x00 x00)
(T (W xff xff xff xff xff xff xff xff)
(T (W x00 x00 x00 x00 x00 x00 x00 x00)
(T (W x00 x00 x80 x3f x00 x00 x80 x3f)
(T (W xf2 x0b xfd xff x00 x00 x01 x01)
(T (W x00 x00 x80 x3f x00 x00 x80 x3f)
(T (W x45 x26 x22 x84 xe4 x9c xf2 xcb)
(L (W xff xff xff xff xc8 x00 x00 x00))
(L (W x6c x00 x00 x00 x60 x00 x00 x00)))
(T (W xff xff xff xff xff xff xff xff)
(L (W x00 x00 x00 x00 x00 x00 x00 x00)) E))
(T (W x00 x00 x00 x00 x00 x00 x00 x00)
(T (W xff xff xff xff xff xff xff xff)
(L (W xff xff xff xff xb0 x00 x00 x00))
(L (W x00 x00 x00 x00 x00 x00 x00 x00)))
(T (W x62 x00 x00 x00 xa3 x01 x00 x00)
(L (W x45 x26 x22 x84 xe4 x9c xf2 xcb)) E)))
(T (W x01 x00 x00 x00 xa0 x00 x00 x00)
(T (W xff xff xff xff xff xff xff xff)
(T (W xff xff xff xff xff xff xff xff)
(L (W xff xff xff xff xff xff xff xff))
(L (W xff xff xff xff xff xff xff xff)))
(T (W xff xff xff xff xff xff xff xff)
(L (W xc4 x00 x00 x00 x01 x00 x00 x00)) E))
(T (W x45 x26 x22 x84 xe4 x9c xf2 xcb)
(T (W xff xff xff xff xff xff xff xff)
(L (W x45 x26 x22 x84 xe4 x9c xf2 xcb)) E)
(T (W xff xff xff xff xff xff xff xff)
(L (W xb8 x00 x00 x00 x64 x00 x00 x00)) E))))
(T (W xff xff xff xff xff xff xff xff)
(T (W x00 x00 x00 x00 x00 x00 x00 x00)
(T (W xff xff xff xff xff xff xff xff)
(T (W x5c x9c xfb xff x00 x01 x01 x01)
(L (W xff xff xff xff xff xff xff xff))
(L (W xff xff xff xff xff xff xff xff)))
(T (W x00 x00 x80 x3f x00 x00 x80 x3f)
(L (W x00 x00 x80 xbf x00 x00 x80 xbf)) E))
(T (W x24 x00 x00 x00 xb0 x00 x00 x00)
(T (W x00 x00 x80 x3f x00 x00 x80 x3f)
(L (W xff xff xff xff xff xff xff xff)) E)
(T (W x01 x00 x00 x00 x68 x00 x00 x00)
(L (W x18 x00 x00 x00 x10 x00 x00 x00)) E)))
(T (W x00 x00 x80 x3f x00 x00 x80 x3f)
(T (W x8a xd7 xfa xff x74 x00 x00 x00)
(T (W x00 x00 x80 x3f x00 x00 x80 x3f)
(L (W x00 x00 x00 x00 x00 x00 x00 x00))
(L (W x00 x00 x80 xbf x00 x00 x80 xbf)))
(T (W x00 x00 x80 x3f x00 x00 x80 x3f)
(L (W x00 x00 x01 x01 x2a x00 x00 x00)) E))
(T (W x45 x26 x22 x84 xe4 x9c xf2 xcb)
(T (W x00 x00 x00 x00 x00 x00 x00 x00)
(L (W xff xff xff xff xc8 x00 x00 x00)) E)
(T (W x3a x59 xfd xff x78 x00 x00 x00)
(L (W x46 x53 x59 x53 x5f x4e x53 x5f)) E)))))
(T (W x45 x26 x22 x84 xe4 x9c xf2 xcb)
(T (W x45 x26 x22 x84 xe4 x9c xf2 xcb)
(T (W xff xff xff xff xff xff xff xff)
(T (W x00 x00 x00 x00 x00 x00 x00 x00)
(T (W x45 x44 x00 x00 x00 x00 x00 x00)
(L (W xff xff xff xff xac x00 x00 x00))
(L (W x18 x00 x00 x00 x0c x00 x00 x00)))
(T (W x5c x8c xfc xff x00 x01 x01 x01)
(L (W x00 x00 x00 x00 x00 x00 x00 x00)) E))
(T (W xff xff xff xff xff xff xff xff)
(T (W x18 x00 x00 x00 x10 x00 x00 x00)
(L (W xff xff xff xff xff xff xff xff)) E)
(T (W x50 x00 x00 x00 x44 x00 x00 x00)
(L (W x00 x00 x80 xbf x00 x00 x80 xbf)) E)))
(T (W x00 x00 x80 x3f x00 x00 x80 x3f)
(T (W x5c xcc xfa xff x00 x01 x01 x01)
(T (W x30 x32 x5f x43 x4c x45 x41 x52)
(L (W xff xff xff xff xff xff xff xff))
(L (W x00 x00 x00 x00 x00 x00 x00 x00)))
(T (W x04 x00 x05 x00 x06 x00 x00 x00)
(L (W xff xff xff xff xff xff xff xff)) E))
(T (W x46 x53 x59 x53 x5f x4e x53 x5f)
(T (W x4a x00 x00 x00 xff xff xff xff)
(L (W x00 x00 x80 xbf x00 x00 x80 xbf)) E)
(T (W x00 x00 x00 x00 x12 x00 x00 x00)
(L (W x91 x01 x00 x00 xff xff xff xff)) E))))
(T (W xf2 xfb xfc xff x00 x00 x01 x01)
(T (W x8a x27 xfa xff x74 x00 x00 x00)
(T (W xff xff xff xff xff xff xff xff)
(T (W x00 x00 x00 x00 x00 x00 x00 x00)
(L (W xff xff xff xff xff xff xff xff))
(L (W x5d x00 x00 x00 xff xff xff xff)))
(T (W xf2 xbb xff xff x00 x00 x01 x01)
(L (W x00 x00 x80 xbf x00 x00 x80 xbf)) E))
(T (W x61 x72 x6c x69 x6b x65 x5f x6c)
(T (W x00 x00 x80 x3f x00 x00 x80 x3f)
(L (W x00 x00 x00 x00 x00 x00 x00 x00)) E)
(T (W x21 x00 x00 x00 x24 x00 x00 x00)
(L (W x8a x27 xff xff x74 x00 x00 x00)) E)))
(T (W x50 x00 x00 x00 x44 x00 x00 x00)
(T (W x45 x26 x22 x84 xe4 x9c xf2 xcb)
(T (W x01 x00 x00 x00 x21 x00 x00 x00)
(L (W x00 x00 x80 xbf x00 x00 x80 xbf))
(L (W x00 x00 x80 xbf x00 x00 x80 xbf)))
(T (W xc8 x00 x00 x00 xbc x00 x00 x00)
(L (W x00 x00 x00 x00 x00 x00 x00 x00)) E))
(T (W x00 x00 x00 x00 x00 x00 x00 x00)
(T (W xff xff xff xff xff xff xff xff)
(L (W xff xff xff xff xff xff xff xff)) E)
(T (W xff xff xff xff xff xff xff xff)
(L (W x4f x84 x6f x8b xe8 xcb x63 xb7)) E))))))
(T (W x3a x91 xf9 xff x78 x00 x00 x00)
(T (W xff xff xff xff x03 x00 x00 x00)
(T (W x00 x00 x00 x00 x00 x00 x00 x00)
(T (W xff xff xff xff xff xff xff xff)
(T (W x00 x00 x00 x00 x00 x00 x00 x00)
(T (W xff xff xff xff xff xff xff xff)
(L (W x60 x31 x00 x00 x4c x30 x00 x00))
(L (W x3a x81 xff xff x78 x00 x00 x00)))
(T (W x45 x26 x22 x84 xe4 x9c xf2 xcb)
(L (W x00 x00 x00 x00 x00 x00 x00 x00)) E))
(T (W x00 x00 x80 x3f x00 x00 x80 x3f)
(T (W xff xff xff xff xff xff xff xff)
(L (W xff xff xff xff xff xff xff xff))
(L (W x8f x01 x00 x00 xff xff xff xff)))
(T (W xff xff xff xff xff xff xff xff)
(L (W x00 x00 x80 xbf x00 x00 x80 xbf)) E)))
(T (W x8a x3f xfa xff x74 x00 x00 x00)
(T (W x64 x00 x00 x00 x9c x00 x00 x00)
(T (W xe4 xd1 xfb xff x10 x00 x00 x00)
(L (W xff xff xff xff xff xff xff xff))
(L (W x00 x00 x00 x00 x4a xc8 xff xff)))
(T (W x8a xbf xfc xff x74 x00 x00 x00)
(L (W x19 x00 x00 x00 x1c x00 x00 x00)) E))
(T (W xff xff xff xff xff xff xff xff)
(T (W x4b x00 x00 x00 xff xff xff xff)
(L (W x54 x00 x00 x00 x48 x00 x00 x00)) E)
(T (W xe4 x51 xfd xff x15 x00 x00 x00)
(L (W x00 x00 x01 x01 x2a x00 x00 x00)) E))))
(T (W xff xff xff xff xff xff xff xff)
(T (W x18 x00 x00 x00 x0c x00 x00 x00)
(T (W xff xff xff xff xff xff xff xff)
(T (W xff xff xff xff x01 x00 x00 x00)
(L (W x00 x00 x00 x00 x00 x00 x00 x00))
(L (W x00 x00 x00 x00 x00 x00 x00 x00)))
(T (W xff xff xff xff xff xff xff xff)
(L (W x00 x00 x80 xbf x00 x00 x80 xbf)) E))
(T (W xff xff xff xff xff xff xff xff)
(T (W x00 x00 x80 x3f x00 x00 x80 x3f)
(L (W x30 x32 x5f x43 x4c x45 x41 x52)) E)
(T (W x00 x00 x80 xbf x00 x00 x80 xbf)
(L (W xc4 x00 x00 x00 x01 x00 x00 x00)) E)))
(T (W x00 x00 x80 x3f x00 x00 x80 x3f)
(T (W x00 x00 x00 x00 xcc xe2 xfa xff)
(T (W x50 x00 x00 x00 x44 x00 x00 x00)
(L (W x00 x00 x00 x00 x00 x00 x00 x00))
(L (W x00 x00 x00 x00 x00 x00 x00 x00)))
(T (W xff xff xff xff xff xff xff xff)
(L (W x46 x53 x59 x53 x5f x4e x53 x5f)) E))
(T (W x00 x00 x00 x00 x00 x00 x00 x00)
(T (W x00 x00 x00 x00 x00 x00 x00 x00)
(L (W xff xff xff xff xff xff xff xff)) E)
(T (W xff xff xff xff xc8 x00 x00 x00)
(L (W x00 x00 x00 x00 x00 x00 x00 x00)) E)))))
(T (W xff xff xff xff xff xff xff xff)
(T (W x00 x00 x00 x00 x00 x00 x00 x00)
(T (W x00 x00 x00 x00 x00 x00 x00 x00)
(T (W x00 x00 x00 x00 x00 x00 x00 x00)
(T (W x45 x26 x22 x84 xe4 x9c xf2 xcb)
(L (W xff xff xff xff xff xff xff xff))
(L (W xff xff xff xff xff xff xff xff)))
(T (W x00 x00 x80 x3f x00 x00 x80 x3f)
(L (W x45 x26 x22 x84 xe4 x9c xf2 xcb)) E))
(T (W x3b xb9 xba x38 x99 xcf xdf x1c)
(T (W x00 x00 x00 x00 x00 x00 x00 x00)
(L (W xff xff xff xff xff xff xff xff)) E)
(T (W x00 x00 x00 x00 x00 x00 x00 x00)
(L (W x18 x00 x00 x00 x0c x00 x00 x00)) E)))
(T (W x00 x00 x80 x3f x00 x00 x80 x3f)
(T (W x50 x00 x00 x00 x44 x00 x00 x00)
(T (W x00 x00 x80 x3f x00 x00 x80 x3f)
(L (W x00 x00 x01 x01 x5c x00 x00 x00))
(L (W x00 x00 x00 x00 x00 x00 x00 x00)))
(T (W x00 x00 x80 x3f x00 x00 x80 x3f)
(L (W xff xff xff xff xff xff xff xff)) E))
(T (W x00 x00 x80 x3f x00 x00 x80 x3f)
(T (W x00 x00 x00 x00 x00 x00 x00 x00)
(L (W x5c x54 xfe xff x00 x01 x01 x01)) E)
(T (W x00 x00 x80 xbf x00 x00 x80 xbf)
(L (W xe4 x61 xff xff x12 x00 x00 x00)) E))))
(T (W x00 x00 x00 x00 x00 x00 x00 x00)
(T (W x45 x26 x22 x84 xe4 x9c xf2 xcb)
(T (W xff xff xff xff xff xff xff xff)
(T (W x3a xb1 xfb xff x78 x00 x00 x00)
(L (W x45 x26 x22 x84 xe4 x9c xf2 xcb))
(L (W x00 x00 x01 x01 x5c x00 x00 x00)))
(T (W xff xff xff xff xff xff xff xff)
(L (W x00 x00 x80 xbf x00 x00 x80 xbf)) E))
(T (W x00 x00 x00 x00 x00 x00 x00 x00)
(T (W x45 x26 x22 x84 xe4 x9c xf2 xcb)
(L (W x00 x00 x00 x00 x00 x00 x00 x00)) E)
(T (W xff xff xff xff xff xff xff xff)
(L (W x1c x00 x00 x00 x10 x00 x00 x00)) E)))
(T (W x00 x00 x80 x3f x00 x00 x80 x3f)
(T (W xff xff xff xff xff xff xff xff)
(T (W xb0 x00 x00 x00 x64 x00 x00 x00)
(L (W x00 x00 x00 x00 xcc xf2 xfd xff))
(L (W x45 x26 x22 x84 xe4 x9c xf2 xcb)))
(T (W x4c x45 x41 x52 x45 x44 x00 x00)
(L (W x00 x00 x00 x00 x00 x00 x00 x00)) E))
(T (W x6c x00 x00 x00 x60 x00 x00 x00)
(T (W x18 x00 x00 x00 x10 x00 x00 x00)
(L (W x00 x00 x00 x00 x00 x00 x00 x00)) E)
(T (W x00 x00 x80 xbf x00 x00 x80 xbf)
(L (W x00 x00 x80 xbf x00 x00 x80 xbf)) E)))))))
(T (W x6c x00 x00 x00 x60 x00 x00 x00)
(T (W x00 x00 x00 x00 x00 x00 x00 x00)
(T (W x00 x00 x80 x3f x00 x00 x80 x3f)
(T (W xff xff xff xff xff xff xff xff)
(T (W x5c x00 xfa xff x00 x01 x01 x01)
(T (W xff xff xff xff xff xff xff xff)
(T (W x00 x00 x80 x3f x00 x00 x80 x3f)
(L (W x49 xa1 x68 x4a xeb x5f xdd x3d))
(L (W x06 x00 x00 x00 xc8 x05 x00 x00)))
(T (W x00 x00 x00 x00 x00 x00 x00 x00)
(L (W xff xff xff xff xff xff xff xff)) E))
(T (W xff xff xff xff x01 x00 x00 x00)
(T (W x00 x00 x80 x3f x00 x00 x80 x3f)
(L (W x00 x00 x00 x00 x00 x00 x00 x00))
(L (W x49 xa1 x68 x4a xeb x5f xdd x3d)))
(T (W xff xff xff xff xff xff xff xff)
(L (W xff xff xff xff x9c x00 x00 x00)) E)))
(T (W x00 x00 x00 x00 x00 x00 x00 x00)
(T (W x00 x00 x00 x00 x00 x00 x00 x00)
(T (W x50 x00 x00 x00 x44 x00 x00 x00)
(L (W xf2 xfe xff xff xc9 x00 x00 x00))
(L (W x3a xbd xff xff x78 x00 x00 x00)))
(T (W x00 x00 x00 x00 x00 x00 x00 x00)
(L (W x00 x00 x00 x00 x00 x00 x00 x00)) E))
(T (W x00 x00 x00 x00 x00 x00 x00 x00)
(T (W x00 x00 x80 x3f x00 x00 x80 x3f)
(L (W xff xff xff xff xff xff xff xff)) E)
(T (W x54 x00 x00 x00 x48 x00 x00 x00)
(L (W x00 x00 x80 xbf x00 x00 x80 xbf)) E))))
(T (W x00 x00 x80 x3f x00 x00 x80 x3f)
(T (W x00 x00 x00 x00 x00 x00 x00 x00)
(T (W x00 x00 x80 x3f x00 x00 x80 x3f)
(T (W x00 x00 x00 x00 x00 x00 x00 x00)
(L (W x00 x00 x80 xbf x00 x00 x80 xbf))
(L (W x6c x00 x00 x00 x60 x00 x00 x00)))
(T (W x21 x00 x00 x00 x67 x72 x6f x75)
(L (W x00 x00 x01 x01 x2a x00 x00 x00)) E))
(T (W x00 x00 x00 x00 x00 x00 x00 x00)
(T (W xff xff xff xff xff xff xff xff)
(L (W x45 x26 x22 x84 xe4 x9c xf2 xcb)) E)
(T (W x45 x44 x00 x00 x00 x00 x00 x00)
(L (W x30 x32 x5f x43 x4c x45 x41 x52)) E)))
(T (W x1c x01 x00 x00 x04 x00 x00 x00)
(T (W x8c xe4 xfa xff x3c x00 x00 x00)
(T (W x00 x00 x00 x00 x00 x00 x00 x00)
(L (W x74 x00 x00 x00 x68 x00 x00 x00))
(L (W xff xff xff xff xff xff xff xff)))
(T (W x30 x32 x5f x43 x4c x45 x41 x52)
(L (W x54 x00 x00 x00 x48 x00 x00 x00)) E))
(T (W x00 x00 x80 x3f x00 x00 x80 x3f)
(T (W xcc x00 x00 x00 xc0 x00 x00 x00)
(L (W x00 x00 x80 xbf x00 x00 x80 xbf)) E)
(T (W x00 x00 x00 x00 x00 x00 x00 x00)
(L (W xff xff xff xff xff xff xff xff)) E)))))
(T (W x00 x00 x00 x00 xcc xae xf9 xff)
(T (W xff xff xff xff xff xff xff xff)
(T (W x00 x00 x80 x3f x00 x00 x80 x3f)
(T (W xff xff xff xff xff xff xff xff)
(T (W xff xff xff xff x03 x00 x00 x00)
(L (W x00 x00 x00 x00 x00 x00 x00 x00))
(L (W x00 x00 x00 x00 x00 x00 x00 x00)))
(T (W x00 x00 x00 x00 x02 x00 x00 x00)
(L (W xff xff xff xff xff xff xff xff)) E))
(T (W x00 x00 x80 x3f x00 x00 x80 x3f)
(T (W x8a x0b xfc xff x74 x00 x00 x00)
(L (W x00 x00 x80 xbf x00 x00 x80 xbf)) E)
(T (W x00 x00 x00 x00 x00 x00 x00 x00)
(L (W xff xff xff xff xff xff xff xff)) E)))
(T (W x1f x00 x00 x00 x10 x00 x00 x00)
(T (W x00 x00 x00 x00 x00 x00 x00 x00)
(T (W xff xff xff xff xff xff xff xff)
(L (W x49 xa1 x68 x4a xeb x5f xdd x3d))
(L (W xff xff xff xff xb0 x00 x00 x00)))
(T (W xff xff xff xff xc8 x00 x00 x00)
(L (W x00 x00 x80 xbf x00 x00 x80 xbf)) E))
(T (W xff xff xff xff xff xff xff xff)
(T (W x54 x00 x00 x00 x48 x00 x00 x00)
(L (W x46 x53 x59 x53 x5f x4e x53 x5f)) E)
(T (W x44 x00 x00 x00 x0c x00 x00 x00)
(L (W x5c x50 xff xff x00 x01 x01 x01)) E))))
(T (W x00 x00 x80 x3f x00 x00 x80 x3f)
(T (W x00 x00 x00 x00 x00 x00 x00 x00)
(T (W x00 x00 x00 x00 x00 x00 x00 x00)
(T (W xff xff xff xff xff xff xff xff)
(L (W x00 x00 x00 x00 x00 x00 x00 x00))
(L (W x00 x00 x80 xbf x00 x00 x80 xbf)))
(T (W x00 x00 x80 x3f x00 x00 x80 x3f)
(L (W x00 x00 x00 x00 x00 x00 x00 x00)) E))
(T (W xff xff xff xff x9c x00 x00 x00)
(T (W x46 x53 x59 x53 x5f x4e x53 x5f)
(L (W xff xff xff xff xff xff xff xff)) E)
(T (W x46 x53 x59 x53 x5f x4e x53 x5f)
(L (W x00 x00 x00 x00 x00 x00 x00 x00)) E)))
(T (W xff xff xff xff xff xff xff xff)
(T (W xff xff xff xff xff xff xff xff)
(T (W x00 x00 x00 x00 x00 x00 x00 x00)
(L (W xff xff xff xff xff xff xff xff))
(L (W xff xff xff xff xff xff xff xff)))
(T (W x00 x00 x00 x00 x00 x00 x00 x00)
(L (W xff xff xff xff xff xff xff xff)) E))
(T (W xb0 x00 x00 x00 x64 x00 x00 x00)
(T (W x00 x00 x00 x00 x00 x00 x00 x00)
(L (W x45 x26 x22 x84 xe4 x9c xf2 xcb)) E)
(T (W x00 x00 x80 xbf x00 x00 x80 xbf)
(L (W xff xff xff xff xff xff xff xff)) E))))))
(T (W xff xff xff xff xff xff xff xff)
(T (W x00 x00 x00 x00 x7a x41 xfd xff)
(T (W x00 x00 x80 x3f x00 x00 x80 x3f)
(T (W x00 x00 x80 x3f x00 x00 x80 x3f)
(T (W xff xff xff xff xff xff xff xff)
(T (W x00 x00 x80 x3f x00 x00 x80 x3f)
(L (W x5f x4e x53 x5f x30 x32 x5f x43))
(L (W x00 x00 x00 x00 x00 x00 x00 x00)))
(T (W x00 x00 x00 x00 x00 x00 x00 x00)
(L (W xff xff xff xff xff xff xff xff)) E))
(T (W x00 x00 x00 x00 x00 x00 x00 x00)
(T (W x00 x00 x80 x3f x00 x00 x80 x3f)
(L (W x00 x00 x00 x00 x00 x00 x00 x00)) E)
(T (W xff xff xff xff xff xff xff xff)
(L (W xff xff xff xff xff xff xff xff)) E)))
(T (W x00 x00 x00 x00 x00 x00 x00 x00)
(T (W x45 x26 x22 x84 xe4 x9c xf2 xcb)
(T (W xff xff xff xff xc4 x00 x00 x00)
(L (W x00 x00 x80 xbf x00 x00 x80 xbf))
(L (W x45 x26 x22 x84 xe4 x9c xf2 xcb)))
(T (W xe2 x97 x8f x3d x00 x00 x00 x00)
(L (W x00 x00 x00 x00 x00 x00 x00 x00)) E))
(T (W x00 x00 x80 x3f x00 x00 x80 x3f)
(T (W x00 x00 x80 x3f x00 x00 x80 x3f)
(L (W xff xff xff xff xff xff xff xff)) E)
(T (W x18 x00 x00 x00 x10 x00 x00 x00)
(L (W x54 x00 x00 x00 x48 x00 x00 x00)) E))))
(T (W x68 x00 x00 x00 x5c x00 x00 x00)
(T (W x00 x00 x00 x00 x00 x00 x00 x00)
(T (W x00 x00 x00 x00 x00 x00 x00 x00)
(T (W x01 x00 x00 x00 xac x00 x00 x00)
(L (W x00 x00 x00 x00 xcc xa6 xfd xff))
(L (W x00 x00 x00 x00 x00 x00 x00 x00)))
(T (W x00 x00 x80 x3f x00 x00 x80 x3f)
(L (W x00 x00 x00 x00 x00 x00 x00 x00)) E))
(T (W x00 x00 x80 x3f x00 x00 x80 x3f)
(T (W xea x2d xff xff x00 x00 x01 x01)
(L (W x21 x00 x00 x00 x24 x00 x00 x00)) E)
(T (W x8e x2d xc8 xc9 x03 x8b xa0 xbc)
(L (W x00 x00 x00 x00 x00 x00 x00 x00)) E)))
(T (W xff xff xff xff xff xff xff xff)
(T (W x01 x00 x00 x00 x04 x00 x00 x00)
(T (W x00 x00 x00 x00 x12 x00 x00 x00)
(L (W x00 x00 x00 x00 xcc xe6 xfd xff))
(L (W xff xff xff xff xff xff xff xff)))
(T (W x79 x61 x62 x75 x6e x00 x00 x00)
(L (W x45 x26 x22 x84 xe4 x9c xf2 xcb)) E))
(T (W x3a x65 xfb xff x78 x00 x00 x00)
(T (W x00 x00 x62 x00 x70 x00 x04 x00)
(L (W x54 x00 x00 x00 x48 x00 x00 x00)) E)
(T (W x00 x00 x00 x00 x00 x00 x00 x00)
(L (W xff xff xff xff xff xff xff xff)) E)))))
(T (W x00 x00 x00 x00 x00 x00 x00 x00)
(T (W x54 x00 x00 x00 x48 x00 x00 x00)
(T (W xff xff xff xff xff xff xff xff)
(T (W x00 x00 x00 x00 x00 x00 x5c x00)
(T (W xff xff xff xff xff xff xff xff)
(L (W x4f x84 x6f x8b xe8 xcb x63 xb7))
(L (W x00 x00 x80 xbf x00 x00 x80 xbf)))
(T (W xff xff xff xff xff xff xff xff)
(L (W xff xff xff xff xff xff xff xff)) E))
(T (W x00 x00 x00 x00 x00 x00 x00 x00)
(T (W x45 x26 x22 x84 xe4 x9c xf2 xcb)
(L (W x00 x00 x80 xbf x00 x00 x80 xbf)) E)
(T (W x01 x00 x00 x00 x68 x00 x00 x00)
(L (W x00 x00 x00 x00 x00 x00 x00 x00)) E)))
(T (W x00 x00 x00 x00 x9a x64 xff xff)
(T (W x00 x00 x00 x00 x00 x00 x00 x00)
(T (W xff xff xff xff xff xff xff xff)
(L (W x54 x00 x00 x00 x48 x00 x00 x00))
(L (W xff xff xff xff xc0 x00 x00 x00)))
(T (W x00 x00 x01 x01 xe9 x00 x00 x00)
(L (W x00 x00 x80 xbf x00 x00 x80 xbf)) E))
(T (W x30 x32 x5f x43 x4c x45 x41 x52)
(T (W x19 x00 x00 x00 x1c x00 x00 x00)
(L (W x00 x00 x00 x00 x00 x00 x00 x00)) E)
(T (W x00 x00 x00 x00 x6a x54 xfd xff)
(L (W xff xff xff xff xa0 x00 x00 x00)) E))))
(T (W x00 x00 x80 x3f x00 x00 x80 x3f)
(T (W x00 x00 x00 x00 x00 x00 x00 x00)
(T (W x00 x00 x00 x00 x00 x00 x00 x00)
(T (W x00 x00 x00 x00 x00 x00 x00 x00)
(L (W x68 x00 x00 x00 x5c x00 x00 x00))
(L (W x00 x00 x80 xbf x00 x00 x80 xbf)))
(T (W x45 x26 x22 x84 xe4 x9c xf2 xcb)
(L (W x30 x32 x5f x43 x4c x45 x41 x52)) E))
(T (W xff xff xff xff xff xff xff xff)
(T (W x00 x00 x80 x3f x00 x00 x80 x3f)
(L (W xff xff xff xff xff xff xff xff)) E)
(T (W x45 x26 x22 x84 xe4 x9c xf2 xcb)
(L (W x45 x26 x22 x84 xe4 x9c xf2 xcb)) E)))
(T (W xff xff xff xff xff xff xff xff)
(T (W x00 x00 x00 x00 x00 x00 x00 x00)
(T (W x00 x00 x80 x3f x00 x00 x80 x3f)
(L (W x45 x44 x00 x00 x00 x00 x00 x00))
(L (W x30 x32 x5f x43 x4c x45 x41 x52)))
(T (W x21 x00 x00 x00 xac x00 x00 x00)
(L (W xff xff xff xff xff xff xff xff)) E))
(T (W x6b x65 x5f x6c x76 x31 x00 x00)
(T (W x00 x00 x80 x3f x00 x00 x80 x3f)
(L (W xff xff xff xff xc8 x00 x00 x00)) E)
(T (W x45 x26 x22 x84 xe4 x9c xf2 xcb)
(L (W xff xff xff xff xff xff xff xff)) E)))))))))
(T (W x58 xcb x01 x00 x8c xc6 x01 x00)
(T (W xe0 x7c x00 x00 xac x7b x00 x00)
(T (W x00 x00 x00 x00 x00 x00 x00 x00)
(T (W xff xff xff xff xff xff xff xff)
(T (W x00 x00 x00 x00 x00 x00 x00 x00)
(T (W x00 x00 x80 x3f x00 x00 x80 x3f)
(T (W xff xff xff xff xff xff xff xff)
(T (W x00 x00 x00 x00 x00 x00 x00 x00)
(T (W x54 x00 x00 x00 x48 x00 x00 x00)
(L (W x45 x26 x22 x84 xe4 x9c xf2 xcb))
(L (W x00 x00 x80 xbf x00 x00 x80 xbf)))
(T (W x45 x26 x22 x84 xe4 x9c xf2 xcb)
(L (W x00 x00 x00 x00 x00 x00 x00 x00)) E))
(T (W x00 x00 x58 x00 x00 x00 x07 x00)
(T (W xb0 x00 x00 x00 x64 x00 x00 x00)
(L (W x00 x00 x80 xbf x00 x00 x80 xbf))
(L (W x00 x00 x80 xbf x00 x00 x80 xbf)))
(T (W x68 x00 x00 x00 x5c x00 x00 x00)
(L (W x00 x00 x00 x00 x00 x00 x00 x00)) E)))
(T (W x00 x00 x80 x3f x00 x00 x80 x3f)
(T (W x5c xbb xfa xff x00 x01 x01 x01)
(T (W xc8 x00 x00 x00 xbc x00 x00 x00)
(L (W xb0 x00 x00 x00 x64 x00 x00 x00))
(L (W xff xff xff xff xff xff xff xff)))
(T (W x8a xb6 xfc xff x74 x00 x00 x00)
(L (W x00 x00 x80 xbf x00 x00 x80 xbf)) E))
(T (W x00 x00 x00 x00 x00 x00 x00 x00)
(T (W xff xff xff xff x03 x00 x00 x00)
(L (W x00 x00 x00 x00 x00 x00 x00 x00)) E)
(T (W xff xff xff xff xff xff xff xff)
(L (W x5c x3b xff xff x00 x01 x01 x01)) E))))
(T (W x18 x00 x00 x00 x10 x00 x00 x00)
(T (W x00 x00 x00 x00 x00 x00 x00 x00)
(T (W xff xff xff xff xff xff xff xff)
(T (W x00 x00 x80 x3f x00 x00 x80 x3f)
(L (W xc0 x00 x00 x00 x01 x00 x00 x00))
(L (W xff xff xff xff xff xff xff xff)))
(T (W x00 x00 x00 x00 x00 x00 x00 x00)
(L (W x45 x26 x22 x84 xe4 x9c xf2 xcb)) E))
(T (W x00 x00 x80 x3f x00 x00 x80 x3f)
(T (W x00 x00 x00 x00 x00 x00 x00 x00)
(L (W xff xff xff xff xff xff xff xff)) E)
(T (W xff xff xff xff xff xff xff xff)
(L (W x54 x00 x00 x00 x48 x00 x00 x00)) E)))
(T (W x00 x00 x80 x3f x00 x00 x80 x3f)
(T (W x50 x00 x00 x00 x44 x00 x00 x00)
(T (W x00 x00 x80 x3f x00 x00 x80 x3f)
(L (W xff xff xff xff xff xff xff xff))
(L (W xe4 xe8 xff xff x15 x00 x00 x00)))
(T (W x00 x00 x80 x3f x00 x00 x80 x3f)
(L (W xff xff xff xff xbc x00 x00 x00)) E))
(T (W x8a x56 xfb xff x74 x00 x00 x00)
(T (W xff xff xff xff xff xff xff xff)
(L (W x45 x26 x22 x84 xe4 x9c xf2 xcb)) E)
(T (W x00 x00 x80 xbf x00 x00 x80 xbf)
(L (W x00 x00 x00 x00 x2a x59 xff xff)) E)))))
(T (W x00 x00 x00 x00 x00 x00 x00 x00)
(T (W x3a xc8 xf9 xff x78 x00 x00 x00)
(T (W xff xff xff xff xff xff xff xff)
(T (W x40 x00 x00 x00 x0c x00 x00 x00)
(T (W xa4 x01 x00 x00 xff xff xff xff)
(L (W x68 x00 x00 x00 x5c x00 x00 x00))
(L (W x6c x00 x00 x00 x60 x00 x00 x00)))
(T (W x00 x00 x80 x3f x00 x00 x80 x3f)
(L (W x00 x00 x00 x00 x00 x00 x00 x00)) E))
(T (W x01 x00 x00 x00 xac x00 x00 x00)
(T (W xff xff xff xff xff xff xff xff)
(L (W x8a x06 xfe xff x74 x00 x00 x00)) E)
(T (W x45 x26 x22 x84 xe4 x9c xf2 xcb)
(L (W x00 x00 x80 xbf x00 x00 x80 xbf)) E)))
(T (W x45 x26 x22 x84 xe4 x9c xf2 xcb)
(T (W x00 x00 x80 x3f x00 x00 x80 x3f)
(T (W xf2 xda xfe xff x00 x00 x01 x01)
(L (W x03 x00 x00 x00 xd0 x00 x00 x00))
(L (W xe4 x06 x00 x00 xc8 x05 x00 x00)))
(T (W x80 x00 x00 x00 x5c x00 x00 x00)
(L (W xff xff xff xff xff xff xff xff)) E))
(T (W xea x50 xfe xff x00 x00 x01 x01)
(T (W xff xff xff xff xff xff xff xff)
(L (W x49 xa1 x68 x4a xeb x5f xdd x3d)) E)
(T (W x02 x00 x00 x00 x30 x01 x00 x00)
(L (W xff xff xff xff xff xff xff xff)) E))))
(T (W xff xff xff xff xff xff xff xff)
(T (W x68 x00 x00 x00 x5c x00 x00 x00)
(T (W x64 x00 x00 x00 x9c x00 x00 x00)
(T (W x4c x45 x41 x52 x45 x44 x00 x00)
(L (W xff xff xff xff xff xff xff xff))
(L (W xff xff xff xff xff xff xff xff)))
(T (W x00 x00 x00 x00 xcc xa9 xfc xff)
(L (W x00 x00 x80 xbf x00 x00 x80 xbf)) E))
(T (W xff xff xff xff xff xff xff xff)
(T (W x49 xa1 x68 x4a xeb x5f xdd x3d)
(L (W x00 x00 x00 x00 x00 x00 x00 x00)) E)
(T (W x3a x28 xfd xff x78 x00 x00 x00)
(L (W x00 x00 x80 xbf x00 x00 x80 xbf)) E)))
(T (W x00 x00 x00 x00 x00 x00 x00 x00)
(T (W x00 x00 x80 x3f x00 x00 x80 x3f)
(T (W x00 x00 x80 x3f x00 x00 x80 x3f)
(L (W x00 x00 x80 xbf x00 x00 x80 xbf))
(L (W x00 x00 x00 x00 x00 x00 x00 x00)))
(T (W x00 x00 x80 x3f x00 x00 x80 x3f)
(L (W x18 x01 x00 x00 xff xff xff xff)) E))
(T (W x45 x44 x00 x00 x00 x00 x00 x00)
(T (W x18 x00 x00 x00 x10 x00 x00 x00)
(L (W xff xff xff xff xff xff xff xff)) E)
(T (W xff xff xff xff x9c x00 x00 x00)
(L (W x00 x00 x00 x00 x00 x00 x00 x00)) E))))))
(T (W x00 x00 x80 x3f x00 x00 x80 x3f)
(T (W x18 x00 x00 x00 x10 x00 x00 x00)
(T (W xc9 x00 x00 x00 xff xff xff xff)
(T (W xff xff xff xff xff xff xff xff)
(T (W x00 x00 x00 x00 x00 x00 x00 x00)
(T (W xff xff xff xff xff xff xff xff)
(L (W x18 x00 x00 x00 x10 x00 x00 x00))
(L (W x00 x00 x80 xbf x00 x00 x80 xbf)))
(T (W x5c x83 xfc xff x00 x01 x01 x01)
(L (W x46 x53 x59 x53 x5f x4e x53 x5f)) E))
(T (W x45 x26 x22 x84 xe4 x9c xf2 xcb)
(T (W xff xff xff xff xff xff xff xff)
(L (W xff xff xff xff xb0 x00 x00 x00))
(L (W x54 x00 x00 x00 x48 x00 x00 x00)))
(T (W x14 x00 x00 x00 x0c x00 x00 x00)
(L (W x00 x00 x00 x00 x00 x00 x00 x00)) E)))
(T (W x00 x00 x80 x3f x00 x00 x80 x3f)
(T (W x50 x00 x00 x00 x44 x00 x00 x00)
(T (W xff xff xff xff xff xff xff xff)
(L (W x68 x00 x00 x00 x5c x00 x00 x00))
(L (W xff xff xff xff xff xff xff xff)))
(T (W x68 x00 x00 x00 x5c x00 x00 x00)
(L (W x3a xc0 xfe xff x78 x00 x00 x00)) E))
(T (W x00 x00 x80 x3f x00 x00 x80 x3f)
(T (W xff xff xff xff xbc x00 x00 x00)
(L (W x00 x00 x00 x00 x00 x00 x00 x00)) E)
(T (W xff xff xff xff xff xff xff xff)
(L (W x21 x00 x00 x00 x24 x00 x00 x00)) E))))
(T (W xff xff xff xff xff xff xff xff)
(T (W x00 x00 x80 x3f x00 x00 x80 x3f)
(T (W xff xff xff xff xff xff xff xff)
(T (W xff xff xff xff xff xff xff xff)
(L (W x00 x00 x60 x00 x00 x00 x00 x00))
(L (W x58 x00 x00 x00 x00 x00 x5c x00)))
(T (W xff xff xff xff xff xff xff xff)
(L (W x4f x84 x6f x8b xe8 xcb x63 xb7)) E))
(T (W x01 x00 x00 x00 x21 x00 x00 x00)
(T (W x00 x00 x00 x00 x00 x00 x00 x00)
(L (W xff xff xff xff xff xff xff xff)) E)
(T (W x00 x00 x00 x00 x00 x00 x00 x00)
(L (W x45 x26 x22 x84 xe4 x9c xf2 xcb)) E)))
(T (W x00 x00 x80 x3f x00 x00 x80 x3f)
(T (W x68 x00 x00 x00 x5c x00 x00 x00)
(T (W x00 x00 x80 x3f x00 x00 x80 x3f)
(L (W x00 x00 x00 x00 x00 x00 x00 x00))
(L (W x46 x53 x59 x53 x5f x4e x53 x5f)))
(T (W x00 x00 x80 x3f x00 x00 x80 x3f)
(L (W x00 x00 x01 x01 x5d x00 x00 x00)) E))
(T (W xff xff xff xff xff xff xff xff)
(T (W x00 x00 x00 x00 x00 x00 x00 x00)
(L (W xff xff xff xff xc0 x00 x00 x00)) E)
(T (W x45 x26 x22 x84 xe4 x9c xf2 xcb)
(L (W x30 x32 x5f x43 x4c x45 x41 x52)) E)))))
(T (W xff xff xff xff xff xff xff xff)
(T (W x00 x00 x00 x00 x00 x00 x00 x00)
(T (W x00 x00 x00 x00 x00 x00 x00 x00)
(T (W x00 x00 x00 x00 x00 x00 x00 x00)
(T (W x00 x00 x00 x00 x00 x00 x00 x00)
(L (W x45 x26 x22 x84 xe4 x9c xf2 xcb))
(L (W x03 x00 x00 x00 xd0 x00 x00 x00)))
(T (W x00 x00 x80 x3f x00 x00 x80 x3f)
(L (W x00 x00 x00 x00 x00 x00 x00 x00)) E))
(T (W xff xff xff xff xff xff xff xff)
(T (W x28 x25 xbd x0b x81 x71 x54 x0f)
(L (W xc4 x00 x00 x00 x02 x00 x00 x00)) E)
(T (W x00 x00 x00 x00 x00 x00 x00 x00)
(L (W x45 x26 x22 x84 xe4 x9c xf2 xcb)) E)))
(T (W x00 x00 x80 x3f x00 x00 x80 x3f)
(T (W x00 x00 x80 x3f x00 x00 x80 x3f)
(T (W x00 x00 x00 x00 x00 x00 x00 x00)
(L (W xff xff xff xff xff xff xff xff))
(L (W x00 x00 x00 x00 x00 x00 x00 x00)))
(T (W x67 x72 x6f x75 x70 x5f x77 x69)
(L (W xff xff xff xff xff xff xff xff)) E))
(T (W x4f x84 x6f x8b xe8 xcb x63 xb7)
(T (W x00 x00 x00 x00 xba x55 xfc xff)
(L (W x54 x00 x00 x00 x48 x00 x00 x00)) E)
(T (W x4f x84 x6f x8b xe8 xcb x63 xb7)
(L (W xff xff xff xff xff xff xff xff)) E))))
(T (W xff xff xff xff x01 x00 x00 x00)
(T (W x8a x2e xfa xff x74 x00 x00 x00)
(T (W xbc x00 x00 x00 xb0 x00 x00 x00)
(T (W x45 x26 x22 x84 xe4 x9c xf2 xcb)
(L (W x00 x00 x00 x00 x00 x00 x00 x00))
(L (W xff xff xff xff xff xff xff xff)))
(T (W xff xff xff xff xff xff xff xff)
(L (W x00 x00 x80 xbf x00 x00 x80 xbf)) E))
(T (W x00 x00 x00 x00 x00 x00 x00 x00)
(T (W x00 x00 x80 x3f x00 x00 x80 x3f)
(L (W x00 x00 x00 x00 x00 x00 x00 x00)) E)
(T (W x8a x2e xfd xff x74 x00 x00 x00)
(L (W x74 x00 x00 x00 x68 x00 x00 x00)) E)))
(T (W x45 x26 x22 x84 xe4 x9c xf2 xcb)
(T (W x00 x00 x80 x3f x00 x00 x80 x3f)
(T (W x5c xf3 xfb xff x00 x01 x01 x01)
(L (W x00 x00 x80 xbf x00 x00 x80 xbf))
(L (W x00 x00 x80 xbf x00 x00 x80 xbf)))
(T (W xac x01 x00 x00 xff xff xff xff)
(L (W x00 x00 x00 x00 x00 x00 x00 x00)) E))
(T (W x00 x00 x80 x3f x00 x00 x80 x3f)
(T (W x45 x26 x22 x84 xe4 x9c xf2 xcb)
(L (W x00 x00 x00 x00 xba x75 xfe xff)) E)
(T (W x00 x00 x62 x00 x7c x00 x08 x00)
(L (W x49 xa1 x68 x4a xeb x5f xdd x3d)) E)))))))
(T (W x00 x00 x80 x3f x00 x00 x80 x3f)
(T (W x00 x00 x00 x00 x00 x00 x00 x00)
(T (W x44 x1a x00 x00 x30 x19 x00 x00)
(T (W x64 x00 x00 x00 xa0 x00 x00 x00)
(T (W x00 x00 x80 x3f x00 x00 x80 x3f)
(T (W xc0 x00 x00 x00 xb4 x00 x00 x00)
(T (W x70 x5f x6c x65 x61 x64 x65 x72)
(L (W x00 x00 x00 x00 x00 x00 x00 x00))
(L (W xff xff xff xff xff xff xff xff)))
(T (W x00 x00 x00 x00 x00 x00 x00 x00)
(L (W x50 x00 x00 x00 x44 x00 x00 x00)) E))
(T (W xff xff xff xff xff xff xff xff)
(T (W x00 x00 x00 x00 x00 x00 x00 x00)
(L (W x00 x00 x00 x00 x00 x00 x00 x00))
(L (W x58 x00 x5c x00 x60 x00 x64 x00)))
(T (W x00 x00 x00 x00 x06 x00 x07 x00)
(L (W x3a xfc xfe xff x78 x00 x00 x00)) E)))
(T (W x00 x00 x00 x00 x00 x00 x00 x00)
(T (W x00 x00 x00 x00 x00 x00 x00 x00)
(T (W x45 x26 x22 x84 xe4 x9c xf2 xcb)
(L (W xff xff xff xff xff xff xff xff))
(L (W x00 x00 x80 xbf x00 x00 x80 xbf)))
(T (W x00 x00 x00 x00 x00 x00 x00 x00)
(L (W x00 x00 x00 x00 x00 x00 x00 x00)) E))
(T (W xff xff xff xff xff xff xff xff)
(T (W x00 x00 x00 x00 x00 x00 x00 x00)
(L (W xff xff xff xff xff xff xff xff)) E)
(T (W x45 x26 x22 x84 xe4 x9c xf2 xcb)
(L (W x00 x00 x00 x00 x00 x00 x00 x00)) E))))
(T (W x00 x00 x80 x3f x00 x00 x80 x3f)
(T (W xb9 x00 x00 x00 xff xff xff xff)
(T (W x00 x00 x00 x00 x00 x00 x00 x00)
(T (W x5f x4e x53 x5f x30 x32 x5f x43)
(L (W x00 x00 x00 x00 x00 x00 x00 x00))
(L (W x00 x00 x80 xbf x00 x00 x80 xbf)))
(T (W xff xff xff xff xff xff xff xff)
(L (W xff xff xff xff xff xff xff xff)) E))
(T (W x46 x53 x59 x53 x5f x4e x53 x5f)
(T (W xff xff xff xff x03 x00 x00 x00)
(L (W x00 x00 x80 xbf x00 x00 x80 xbf)) E)
(T (W xff xff xff xff xff xff xff xff)
(L (W x00 x00 x01 x01 x2e x00 x00 x00)) E)))
(T (W xff xff xff xff xff xff xff xff)
(T (W xff xff xff xff xff xff xff xff)
(T (W x00 x00 x00 x00 xba xe1 xfb xff)
(L (W x00 x00 x80 xbf x00 x00 x80 xbf))
(L (W xff xff xff xff xa0 x00 x00 x00)))
(T (W xff xff xff xff xff xff xff xff)
(L (W x00 x00 x80 xbf x00 x00 x80 xbf)) E))
(T (W x00 x00 x00 x00 x00 x00 x00 x00)
(T (W x18 x00 x00 x00 x10 x00 x00 x00)
(L (W x00 x00 x00 x00 x00 x00 x00 x00)) E)
(T (W x00 x00 x00 x00 x00 x00 x00 x00)
(L (W xff xff xff xff xa0 x00 x00 x00)) E)))))
(T (W x6c x00 x00 x00 x60 x00 x00 x00)
(T (W xff xff xff xff xff xff xff xff)
(T (W x00 x00 x00 x00 x00 x00 x00 x00)
(T (W x00 x00 x00 x00 xcc x8d xfa xff)
(T (W x00 x00 x80 x3f x00 x00 x80 x3f)
(L (W x00 x00 x00 x00 x00 x00 x00 x00))
(L (W x30 x32 x5f x43 x4c x45 x41 x52)))
(T (W xff xff xff xff xff xff xff xff)
(L (W xff xff xff xff xc8 x00 x00 x00)) E))
(T (W x45 x26 x22 x84 xe4 x9c xf2 xcb)
(T (W x00 x00 x80 x3f x00 x00 x80 x3f)
(L (W x00 x00 x00 x00 x00 x00 x00 x00)) E)
(T (W x1e x00 x00 x00 x10 x00 x00 x00)
(L (W xff xff xff xff xff xff xff xff)) E)))
(T (W xff xff xff xff xff xff xff xff)
(T (W x00 x00 x00 x00 x00 x00 x00 x00)
(T (W x19 x00 x00 x00 x1c x00 x00 x00)
(L (W x00 x00 x00 x00 x00 x00 x00 x00))
(L (W x3a xcc xff xff x78 x00 x00 x00)))
(T (W x4f x84 x6f x8b xe8 xcb x63 xb7)
(L (W x00 x00 x00 x00 x00 x00 x00 x00)) E))
(T (W x8a x4a xfb xff x74 x00 x00 x00)
(T (W x00 x00 x80 x3f x00 x00 x80 x3f)
(L (W x00 x00 x01 x01 x29 x00 x00 x00)) E)
(T (W xc8 x4d xfd xff x72 xa6 xfd xff)
(L (W x00 x00 x80 xbf x00 x00 x80 xbf)) E))))
(T (W x45 x26 x22 x84 xe4 x9c xf2 xcb)
(T (W x40 x00 x00 x00 x10 x00 x00 x00)
(T (W x00 x00 x00 x00 x00 x00 x00 x00)
(T (W xff xff xff xff x03 x00 x00 x00)
(L (W xf2 xed xff xff xc9 x00 x00 x00))
(L (W x45 x26 x22 x84 xe4 x9c xf2 xcb)))
(T (W x45 x26 x22 x84 xe4 x9c xf2 xcb)
(L (W xff xff xff xff xff xff xff xff)) E))
(T (W x6c x00 x00 x00 x60 x00 x00 x00)
(T (W xea x34 xff xff x00 x00 x01 x01)
(L (W x21 x00 x00 x00 x24 x00 x00 x00)) E)
(T (W x00 x00 x01 x01 xc1 x00 x00 x00)
(L (W x00 x00 x00 x00 x00 x00 x00 x00)) E)))
(T (W x18 x00 x00 x00 x10 x00 x00 x00)
(T (W xff xff xff xff xff xff xff xff)
(T (W x00 x00 x00 x00 x00 x00 x00 x00)
(L (W xff xff xff xff xff xff xff xff))
(L (W xff xff xff xff xff xff xff xff)))
(T (W x62 xf3 xff xff x95 x01 x00 x00)
(L (W x18 x00 x00 x00 x0c x00 x00 x00)) E))
(T (W x5c x6f xfb xff x00 x01 x01 x01)
(T (W x00 x00 x00 x00 x00 x00 x00 x00)
(L (W x54 x00 x00 x00 x48 x00 x00 x00)) E)
(T (W x00 x00 x00 x00 x00 x00 x00 x00)
(L (W xff xff xff xff x9c x00 x00 x00)) E))))))
(T (W xff xff xff xff xff xff xff xff)
(T (W x18 x00 x00 x00 xff xff xff xff)
(T (W x45 x26 x22 x84 xe4 x9c xf2 xcb)
(T (W x00 x00 x80 x3f x00 x00 x80 x3f)
(T (W xff xff xff xff x03 x00 x00 x00)
(T (W x00 x00 x00 x00 x00 x00 x00 x00)
(L (W x42 xe4 xff xff x00 x00 x01 x01))
(L (W x94 x04 x00 x00 x80 x03 x00 x00)))
(T (W x00 x00 x00 x00 x02 x00 x00 x00)
(L (W xff xff xff xff xb0 x00 x00 x00)) E))
(T (W x30 x32 x5f x43 x4c x45 x41 x52)
(T (W x00 x00 x80 x3f x00 x00 x80 x3f)
(L (W x00 x00 x00 x00 x00 x00 x00 x00)) E)
(T (W x45 x26 x22 x84 xe4 x9c xf2 xcb)
(L (W xbc x00 x00 x00 x32 x00 x00 x00)) E)))
(T (W x48 x03 x00 x00 x34 x02 x00 x00)
(T (W x8c xcb xfa xff x3c x00 x00 x00)
(T (W x45 x26 x22 x84 xe4 x9c xf2 xcb)
(L (W x00 x00 x00 x00 x00 x00 x00 x00))
(L (W x54 x00 x00 x00 x48 x00 x00 x00)))
(T (W xba x01 x00 x00 xff xff xff xff)
(L (W x00 x00 x00 x00 x00 x00 x00 x00)) E))
(T (W x00 x00 x00 x00 x00 x00 x00 x00)
(T (W x4f x84 x6f x8b xe8 xcb x63 xb7)
(L (W xff xff xff xff xff xff xff xff)) E)
(T (W x6c x00 x00 x00 x60 x00 x00 x00)
(L (W x00 x00 x80 xbf x00 x00 x80 xbf)) E))))
(T (W x00 x00 x80 x3f x00 x00 x80 x3f)
(T (W x00 x00 x00 x00 x00 x00 x00 x00)
(T (W x00 x00 x00 x00 x00 x00 x00 x00)
(T (W x00 x00 x80 x3f x00 x00 x80 x3f)
(L (W x68 x00 x00 x00 x5c x00 x00 x00))
(L (W x00 x00 x00 x00 x6a xa3 xff xff)))
(T (W x00 x00 x00 x00 x00 x00 x00 x00)
(L (W xff xff xff xff xff xff xff xff)) E))
(T (W x45 x26 x22 x84 xe4 x9c xf2 xcb)
(T (W xff xff xff xff xbc x00 x00 x00)
(L (W x00 x00 x80 xbf x00 x00 x80 xbf)) E)
(T (W xff xff xff xff xff xff xff xff)
(L (W x00 x00 x00 x00 x00 x00 x00 x00)) E)))
(T (W xff xff xff xff x04 x00 x00 x00)
(T (W xff xff xff xff xff xff xff xff)
(T (W x34 x01 x00 x00 x04 x00 x00 x00)
(L (W x00 x00 x80 xbf x00 x00 x80 xbf))
(L (W xff xff xff xff xff xff xff xff)))
(T (W x18 x00 x00 x00 x0c x00 x00 x00)
(L (W x54 x00 x00 x00 x48 x00 x00 x00)) E))
(T (W x50 x00 x00 x00 x44 x00 x00 x00)
(T (W xff xff xff xff xff xff xff xff)
(L (W x00 x00 x80 xbf x00 x00 x80 xbf)) E)
(T (W x00 x00 x00 x00 x00 x00 x00 x00)
(L (W xcc x00 x00 x00 x01 x00 x00 x00)) E)))))
(T (W x00 x00 x00 x00 x00 x00 x00 x00)
(T (W x00 x00 x80 x3f x00 x00 x80 x3f)
(T (W x8a x12 xfa xff x74 x00 x00 x00)
(T (W x18 x00 x00 x00 x0c x00 x00 x00)
(T (W xff xff xff xff xff xff xff xff)
(L (W x12 x00 x00 x00 x46 x53 x59 x53))
(L (W x00 x00 x00 x00 x00 x00 x00 x00)))
(T (W xff xff xff xff xff xff xff xff)
(L (W x03 x00 x00 x00 xd0 x00 x00 x00)) E))
(T (W xff xff xff xff xff xff xff xff)
(T (W x8a x12 xfc xff x74 x00 x00 x00)
(L (W x00 x00 x80 xbf x00 x00 x80 xbf)) E)
(T (W xff xff xff xff xff xff xff xff)
(L (W x00 x00 x00 x00 x00 x00 x00 x00)) E)))
(T (W xff xff xff xff xff xff xff xff)
(T (W x00 x00 x00 x00 x02 x00 x00 x00)
(T (W x18 x00 x00 x00 x0c x00 x00 x00)
(L (W x00 x00 x80 xbf x00 x00 x80 xbf))
(L (W x45 x26 x22 x84 xe4 x9c xf2 xcb)))
(T (W xff xff xff xff xff xff xff xff)
(L (W x00 x00 x80 xbf x00 x00 x80 xbf)) E))
(T (W xa1 x01 x00 x00 xff xff xff xff)
(T (W x3a x54 xfc xff x78 x00 x00 x00)
(L (W x46 x53 x59 x53 x5f x4e x53 x5f)) E)
(T (W xff xff xff xff xff xff xff xff)
(L (W x3a x54 xff xff x78 x00 x00 x00)) E))))
(T (W x00 x00 x00 x00 x00 x00 x00 x00)
(T (W x18 x01 x00 x00 x04 x00 x00 x00)
(T (W x00 x00 x00 x00 x00 x00 x00 x00)
(T (W x00 x00 x00 x00 x00 x00 x00 x00)
(L (W x00 x00 x80 xbf x00 x00 x80 xbf))
(L (W x4f x84 x6f x8b xe8 xcb x63 xb7)))
(T (W x00 x00 x00 x00 x00 x00 x00 x00)
(L (W xff xff xff xff xff xff xff xff)) E))
(T (W x21 x00 x00 x00 x24 x00 x00 x00)
(T (W x00 x00 x00 x00 x00 x00 x00 x00)
(L (W x18 x00 x00 x00 x10 x00 x00 x00)) E)
(T (W x00 x00 x00 x00 x00 x00 x00 x00)
(L (W x00 x00 x00 x00 x12 x00 x00 x00)) E)))
(T (W xb8 x00 x00 x00 xac x00 x00 x00)
(T (W x00 x00 x00 x00 x00 x00 x00 x00)
(T (W x70 x5f x6c x65 x61 x64 x65 x72)
(L (W xff xff xff xff xff xff xff xff))
(L (W xff xff xff xff xff xff xff xff)))
(T (W x00 x00 x00 x00 xcc xf5 xfc xff)
(L (W x00 x00 x00 x00 xcc xf5 xfe xff)) E))
(T (W xff xff xff xff xff xff xff xff)
(T (W x22 x00 x00 x00 x67 x72 x6f x75)
(L (W x45 x26 x22 x84 xe4 x9c xf2 xcb)) E)
(T (W x00 x00 x00 x00 x00 x00 x00 x00)
(L (W xff xff xff xff xff xff xff xff)) E))))))))
(T (W xff xff xff xff xff xff xff xff)
(T (W x45 x26 x22 x84 xe4 x9c xf2 xcb)
(T (W xff xff xff xff x0f x00 x00 x00)
(T (W x00 x00 x80 x3f x00 x00 x80 x3f)
(T (W x6c x00 x00 x00 x60 x00 x00 x00)
(T (W x00 x00 x00 x00 x00 x00 x00 x00)
(T (W x00 x00 x80 x3f x00 x00 x80 x3f)
(T (W xff xff xff xff xff xff xff xff)
(L (W xff xff xff xff xff xff xff xff))
(L (W x18 x00 x00 x00 x10 x00 x00 x00)))
(T (W xff xff xff xff xff xff xff xff)
(L (W x45 x26 x22 x84 xe4 x9c xf2 xcb)) E))
(T (W x00 x00 x80 x3f x00 x00 x80 x3f)
(T (W x45 x44 x00 x00 x00 x00 x00 x00)
(L (W xff xff xff xff xff xff xff xff))
(L (W x00 x00 x00 x00 x00 x00 x00 x00)))
(T (W x00 x00 x00 x00 x00 x00 x00 x00)
(L (W x00 x00 x80 xbf x00 x00 x80 xbf)) E)))
(T (W xff xff xff xff x03 x00 x00 x00)
(T (W xff xff xff xff xff xff xff xff)
(T (W x98 x03 x00 x00 x70 x02 x00 x00)
(L (W xff xff xff xff xff xff xff xff))
(L (W xe4 xca xff xff x15 x00 x00 x00)))
(T (W xff xff xff xff xff xff xff xff)
(L (W xff xff xff xff xff xff xff xff)) E))
(T (W x3a x3a xfb xff x78 x00 x00 x00)
(T (W x4a x00 x00 x00 xff xff xff xff)
(L (W x3a x3a xfe xff x78 x00 x00 x00)) E)
(T (W x1a x00 x00 x00 x0c x00 x00 x00)
(L (W x00 x00 x01 x01 x5d x00 x00 x00)) E))))
(T (W x00 x00 x00 x00 x01 x00 x00 x00)
(T (W x00 x00 x80 x3f x00 x00 x80 x3f)
(T (W xff xff xff xff xff xff xff xff)
(T (W xb0 x00 x00 x00 x64 x00 x00 x00)
(L (W xc9 x00 x00 x00 xff xff xff xff))
(L (W x00 x00 x00 x00 x00 x00 x00 x00)))
(T (W x00 x00 x80 x3f x00 x00 x80 x3f)
(L (W x3a x9a xfe xff x78 x00 x00 x00)) E))
(T (W xff xff xff xff xff xff xff xff)
(T (W x00 x00 x80 x3f x00 x00 x80 x3f)
(L (W x45 x44 x00 x00 x00 x00 x00 x00)) E)
(T (W x00 x00 x80 xbf x00 x00 x80 xbf)
(L (W x03 x00 x00 x00 xd8 x00 x00 x00)) E)))
(T (W x00 x00 x80 x3f x00 x00 x80 x3f)
(T (W x00 x00 x00 x00 xcc xdb xfa xff)
(T (W x8a xd8 xfb xff x74 x00 x00 x00)
(L (W x00 x00 x00 x00 x00 x00 x00 x00))
(L (W x00 x00 x80 xbf x00 x00 x80 xbf)))
(T (W xcc x00 x00 x00 x01 x00 x00 x00)
(L (W x46 x53 x59 x53 x5f x4e x53 x5f)) E))
(T (W xff xff xff xff xbc x00 x00 x00)
(T (W x00 x00 x00 x00 x00 x00 x00 x00)
(L (W xff xff xff xff xff xff xff xff)) E)
(T (W xff xff xff xff x9c x00 x00 x00)
(L (W x00 x00 x00 x00 x00 x00 x00 x00)) E)))))
(T (W x00 x00 x80 x3f x00 x00 x80 x3f)
(T (W xbc x00 x00 x00 xb0 x00 x00 x00)
(T (W xf2 x1c xfd xff x00 x00 x01 x01)
(T (W x00 x00 x80 x3f x00 x00 x80 x3f)
(T (W x00 x00 x00 x00 x00 x00 x00 x00)
(L (W xff xff xff xff xff xff xff xff))
(L (W xff xff xff xff xff xff xff xff)))
(T (W x45 x26 x22 x84 xe4 x9c xf2 xcb)
(L (W x00 x00 x80 xbf x00 x00 x80 xbf)) E))
(T (W x34 x01 x00 x00 x04 x00 x00 x00)
(T (W x00 x00 x00 x00 x00 x00 x00 x00)
(L (W x00 x00 x00 x00 xba x0f xfe xff)) E)
(T (W xb0 x00 x00 x00 x64 x00 x00 x00)
(L (W x3a x0a xff xff x78 x00 x00 x00)) E)))
(T (W x18 x00 x00 x00 x0c x00 x00 x00)
(T (W xff xff xff xff xff xff xff xff)
(T (W x00 x00 x00 x00 x00 x00 x00 x00)
(L (W xff xff xff xff xff xff xff xff))
(L (W x00 x00 x80 xbf x00 x00 x80 xbf)))
(T (W x00 x00 x80 x3f x00 x00 x80 x3f)
(L (W x00 x00 x00 x00 x00 x00 x00 x00)) E))
(T (W x00 x00 x00 x00 x00 x00 x00 x00)
(T (W x00 x00 x00 x00 x00 x00 x00 x00)
(L (W x03 x00 x00 x00 xd8 x00 x00 x00)) E)
(T (W x00 x00 x00 x00 x00 x00 x00 x00)
(L (W x00 x00 x00 x00 x00 x00 x00 x00)) E))))
(T (W x00 x00 x00 x00 x00 x00 x00 x00)
(T (W xff xff xff xff x04 x00 x00 x00)
(T (W x62 xb1 xfd xff xd1 x01 x00 x00)
(T (W x00 x00 x80 x3f x00 x00 x80 x3f)
(L (W xff xff xff xff xff xff xff xff))
(L (W x00 x00 x00 x00 x00 x00 x00 x00)))
(T (W x00 x00 x00 x00 x00 x00 x00 x00)
(L (W x68 x00 x00 x00 x5c x00 x00 x00)) E))
(T (W x12 x00 x00 x00 x46 x53 x59 x53)
(T (W x54 x00 x00 x00 x48 x00 x00 x00)
(L (W x00 x00 x00 x00 x00 x00 x00 x00)) E)
(T (W xff xff xff xff xff xff xff xff)
(L (W xff xff xff xff xff xff xff xff)) E)))
(T (W x8a x68 xfa xff x74 x00 x00 x00)
(T (W x40 x00 x00 x00 x9c x00 x00 x00)
(T (W xff xff xff xff xff xff xff xff)
(L (W x00 x00 x00 x00 xcc xeb xfd xff))
(L (W x00 x00 x80 xbf x00 x00 x80 xbf)))
(T (W xff xff xff xff xff xff xff xff)
(L (W x00 x00 x80 xbf x00 x00 x80 xbf)) E))
(T (W x00 x00 x80 x3f x00 x00 x80 x3f)
(T (W xff xff xff xff xff xff xff xff)
(L (W x00 x00 x00 x00 x00 x00 x00 x00)) E)
(T (W x00 x00 x00 x00 x00 x00 x00 x00)
(L (W x00 x00 x80 xbf x00 x00 x80 xbf)) E))))))
(T (W x18 x00 x00 x00 x0c x00 x00 x00)
(T (W xff xff xff xff xff xff xff xff)
(T (W x00 x00 x00 x00 x00 x00 x00 x00)
(T (W x27 x00 x00 x00 x0c x00 x00 x00)
(T (W x00 x00 x80 x3f x00 x00 x80 x3f)
(T (W x00 x00 x00 x00 x00 x00 x00 x00)
(L (W x03 x00 x00 x00 xcc x00 x00 x00))
(L (W xff xff xff xff xb0 x00 x00 x00)))
(T (W xff xff xff xff xff xff xff xff)
(L (W x49 xa1 x68 x4a xeb x5f xdd x3d)) E))
(T (W x00 x00 x00 x00 xcc x03 xfb xff)
(T (W x8c x09 xfc xff x15 x00 x00 x00)
(L (W xff xff xff xff xff xff xff xff))
(L (W x00 x00 x00 x00 x00 x00 x00 x00)))
(T (W x61 x6c x6c x68 x65 x6c x70 x5f)
(L (W x00 x00 x80 xbf x00 x00 x80 xbf)) E)))
(T (W xff xff xff xff xff xff xff xff)
(T (W xff xff xff xff xff xff xff xff)
(T (W x00 x00 x00 x00 x00 x00 x00 x00)
(L (W x00 x00 x00 x00 x00 x00 x00 x00))
(L (W x00 x00 x00 x00 x12 x00 x00 x00)))
(T (W xff xff xff xff xff xff xff xff)
(L (W xff xff xff xff xff xff xff xff)) E))
(T (W xff xff xff xff xff xff xff xff)
(T (W x30 x32 x5f x43 x4c x45 x41 x52)
(L (W x18 x00 x00 x00 x10 x00 x00 x00)) E)
(T (W x49 xa1 x68 x4a xeb x5f xdd x3d)
(L (W x46 x53 x59 x53 x5f x4e x53 x5f)) E))))
(T (W x3a x02 xc5 x1b x64 xde x14 xc6)
(T (W xff xff xff xff xff xff xff xff)
(T (W x9b x00 x00 x00 xff xff xff xff)
(T (W x00 x00 x00 x00 x00 x00 x00 x00)
(L (W x00 x00 x80 xbf x00 x00 x80 xbf))
(L (W xff xff xff xff x94 x00 x00 x00)))
(T (W x18 x01 x00 x00 x04 x00 x00 x00)
(L (W x19 x00 x00 x00 x1c x00 x00 x00)) E))
(T (W x6b x65 x5f x6c x76 x31 x00 x00)
(T (W x8a x20 xfc xff x74 x00 x00 x00)
(L (W x00 x00 x00 x00 x00 x00 x00 x00)) E)
(T (W x8a x20 xfd xff x74 x00 x00 x00)
(L (W xff xff xff xff xff xff xff xff)) E)))
(T (W x68 x00 x00 x00 x5c x00 x00 x00)
(T (W x18 x00 x00 x00 x0c x00 x00 x00)
(T (W x18 x00 x00 x00 x0c x00 x00 x00)
(L (W x00 x00 x00 x00 x00 x00 x00 x00))
(L (W x6c x00 x00 x00 x60 x00 x00 x00)))
(T (W x70 x5f x6c x65 x61 x64 x65 x72)
(L (W x00 x00 x00 x00 x00 x00 x00 x00)) E))
(T (W x00 x00 x00 x00 x00 x00 x00 x00)
(T (W x00 x00 x80 x3f x00 x00 x80 x3f)
(L (W x6f x00 x00 x00 xff xff xff xff)) E)
(T (W xff xff xff xff xff xff xff xff)
(L (W x49 xa1 x68 x4a xeb x5f xdd x3d)) E)))))
(T (W xff xff xff xff x11 x00 x00 x00)
(T (W x45 x26 x22 x84 xe4 x9c xf2 xcb)
(T (W x00 x00 x80 x3f x00 x00 x80 x3f)
(T (W x45 x26 x22 x84 xe4 x9c xf2 xcb)
(T (W x3a x92 xfb xff x78 x00 x00 x00)
(L (W xff xff xff xff xff xff xff xff))
(L (W xff xff xff xff xff xff xff xff)))
(T (W x5c x95 xfc xff x00 x01 x01 x01)
(L (W x6c x00 x00 x00 x60 x00 x00 x00)) E))
(T (W x00 x00 x00 x00 x00 x00 x00 x00)
(T (W x00 x00 x80 x3f x00 x00 x80 x3f)
(L (W xf4 x06 x00 x00 xd8 x05 x00 x00)) E)
(T (W x00 x00 x80 xbf x00 x00 x80 xbf)
(L (W xff xff xff xff xff xff xff xff)) E)))
(T (W x8a x50 xfa xff x74 x00 x00 x00)
(T (W x64 x00 x00 x00 x9c x00 x00 x00)
(T (W x00 x00 x80 x3f x00 x00 x80 x3f)
(L (W x46 x53 x59 x53 x5f x4e x53 x5f))
(L (W x00 x00 x80 xbf x00 x00 x80 xbf)))
(T (W x00 x00 x80 x3f x00 x00 x80 x3f)
(L (W x30 x32 x5f x43 x4c x45 x41 x52)) E))
(T (W x00 x00 x80 x3f x00 x00 x80 x3f)
(T (W x00 x00 x00 x00 x00 x00 x00 x00)
(L (W xb0 x00 x00 x00 x64 x00 x00 x00)) E)
(T (W x18 x00 x00 x00 x0c x00 x00 x00)
(L (W x00 x00 x80 xbf x00 x00 x80 xbf)) E))))
(T (W x00 x00 x00 x00 x00 x00 x00 x00)
(T (W x18 x00 x00 x00 x10 x00 x00 x00)
(T (W xea xba xfd xff x00 x00 x01 x01)
(T (W x14 x00 x00 x00 x16 x00 x00 x00)
(L (W x00 x00 x80 xbf x00 x00 x80 xbf))
(L (W x30 x32 x5f x43 x4c x45 x41 x52)))
(T (W xf2 xc4 xff xff x00 x00 x01 x01)
(L (W xcc x00 x00 x00 x01 x00 x00 x00)) E))
(T (W x45 x26 x22 x84 xe4 x9c xf2 xcb)
(T (W xff xff xff xff xbc x00 x00 x00)
(L (W x00 x00 x80 xbf x00 x00 x80 xbf)) E)
(T (W xff xff xff xff xff xff xff xff)
(L (W xff xff xff xff xff xff xff xff)) E)))
(T (W x5c x75 xfa xff x00 x01 x01 x01)
(T (W x20 x01 x00 x00 x04 x00 x00 x00)
(T (W xff xff xff xff xff xff xff xff)
(L (W x15 x00 x00 x00 x18 x00 x00 x00))
(L (W xcc x00 x00 x00 x02 x00 x00 x00)))
(T (W x00 x00 x00 x00 x00 x00 x00 x00)
(L (W x00 x00 x80 xbf x00 x00 x80 xbf)) E))
(T (W xff xff xff xff x9c x00 x00 x00)
(T (W xff xff xff xff xff xff xff xff)
(L (W x00 x00 x00 x00 x00 x00 x00 x00)) E)
(T (W xff xff xff xff xff xff xff xff)
(L (W x6c x00 x00 x00 x60 x00 x00 x00)) E)))))))
(T (W x45 x26 x22 x84 xe4 x9c xf2 xcb)
(T (W x45 x26 x22 x84 xe4 x9c xf2 xcb)
(T (W x54 x00 x00 x00 x48 x00 x00 x00)
(T (W xff xff xff xff xff xff xff xff)
(T (W x18 x00 x00 x00 x10 x00 x00 x00)
(T (W xff xff xff xff xff xff xff xff)
(T (W x00 x00 x80 x3f x00 x00 x80 x3f)
(L (W x00 x00 x80 xbf x00 x00 x80 xbf))
(L (W x00 x00 x00 x00 x00 x00 x00 x00)))
(T (W x00 x00 x80 x3f x00 x00 x80 x3f)
(L (W xff xff xff xff xff xff xff xff)) E))
(T (W x00 x00 x00 x00 x00 x00 x00 x00)
(T (W x45 x26 x22 x84 xe4 x9c xf2 xcb)
(L (W x00 x00 x00 x00 x00 x00 x00 x00))
(L (W xff xff xff xff xff xff xff xff)))
(T (W x6c x64 x5f x70 x6f x6b x65 x5f)
(L (W xff xff xff xff xff xff xff xff)) E)))
(T (W x00 x00 x00 x00 x00 x00 x00 x00)
(T (W x45 x26 x22 x84 xe4 x9c xf2 xcb)
(T (W x45 x26 x22 x84 xe4 x9c xf2 xcb)
(L (W x00 x00 x00 x00 x00 x00 x00 x00))
(L (W xff xff xff xff xa0 x00 x00 x00)))
(T (W x45 x26 x22 x84 xe4 x9c xf2 xcb)
(L (W x00 x00 x80 xbf x00 x00 x80 xbf)) E))
(T (W x00 x00 x00 x00 x00 x00 x00 x00)
(T (W x8a x3c xfc xff x74 x00 x00 x00)
(L (W x00 x00 x01 x01 xb2 x01 x00 x00)) E)
(T (W x45 x26 x22 x84 xe4 x9c xf2 xcb)
(L (W x00 x00 x80 xbf x00 x00 x80 xbf)) E))))
(T (W x18 x00 x00 x00 x0c x00 x00 x00)
(T (W x00 x00 x00 x00 x00 x00 x00 x00)
(T (W x6c x00 x00 x00 x60 x00 x00 x00)
(T (W x00 x00 x80 x3f x00 x00 x80 x3f)
(L (W x50 x00 x00 x00 x44 x00 x00 x00))
(L (W x45 x26 x22 x84 xe4 x9c xf2 xcb)))
(T (W x00 x00 x80 x3f x00 x00 x80 x3f)
(L (W x30 x32 x5f x43 x4c x45 x41 x52)) E))
(T (W x49 xa1 x68 x4a xeb x5f xdd x3d)
(T (W x4a x00 x00 x00 xff xff xff xff)
(L (W xcc x00 x00 x00 x02 x00 x00 x00)) E)
(T (W x00 x00 x00 x00 x00 x00 x00 x00)
(L (W x00 x00 x00 x00 x00 x00 x00 x00)) E)))
(T (W x00 x00 x00 x00 x00 x00 x00 x00)
(T (W x00 x00 x00 x00 x00 x00 x00 x00)
(T (W x00 x00 x00 x00 x00 x00 x00 x00)
(L (W x14 x00 x00 x00 x0c x00 x00 x00))
(L (W xff xff xff xff xff xff xff xff)))
(T (W x00 x00 x00 x00 x00 x00 x00 x00)
(L (W x5c xe1 xfe xff x00 x01 x01 x01)) E))
(T (W x68 x00 x00 x00 x5c x00 x00 x00)
(T (W xff xff xff xff xff xff xff xff)
(L (W x6c x00 x00 x00 x60 x00 x00 x00)) E)
(T (W x00 x00 x00 x00 x00 x00 x00 x00)
(L (W xff xff xff xff xff xff xff xff)) E)))))
(T (W x01 x00 x00 x00 xa0 x00 x00 x00)
(T (W x00 x00 x01 x01 xc9 x00 x00 x00)
(T (W x50 x00 x00 x00 x44 x00 x00 x00)
(T (W xff xff xff xff xff xff xff xff)
(T (W xff xff xff xff xff xff xff xff)
(L (W x00 x00 x80 xbf x00 x00 x80 xbf))
(L (W x54 x00 x00 x00 x48 x00 x00 x00)))
(T (W x00 x00 x00 x00 x00 x00 x00 x00)
(L (W x00 x00 x00 x00 xba x93 xfe xff)) E))
(T (W x00 x00 x80 x3f x00 x00 x80 x3f)
(T (W xff xff xff xff xff xff xff xff)
(L (W x00 x00 x80 xbf x00 x00 x80 xbf)) E)
(T (W xff xff xff xff xff xff xff xff)
(L (W x00 x00 x00 x00 x4a x15 xff xff)) E)))
(T (W x00 x00 x00 x00 x00 x00 x00 x00)
(T (W x00 x00 x80 x3f x00 x00 x80 x3f)
(T (W xff xff xff xff xff xff xff xff)
(L (W x00 x00 x80 xbf x00 x00 x80 xbf))
(L (W xff xff xff xff xff xff xff xff)))
(T (W xff xff xff xff xff xff xff xff)
(L (W x00 x00 x80 xbf x00 x00 x80 xbf)) E))
(T (W xa1 x01 x00 x00 xff xff xff xff)
(T (W x45 x26 x22 x84 xe4 x9c xf2 xcb)
(L (W x00 x00 x00 x00 x00 x00 x00 x00)) E)
(T (W xff xff xff xff xff xff xff xff)
(L (W xbc x00 x00 x00 x32 x00 x00 x00)) E))))
(T (W x01 x00 x00 x00 x9c x00 x00 x00)
(T (W x00 x00 x00 x00 x00 x00 x00 x00)
(T (W x00 x00 x80 x3f x00 x00 x80 x3f)
(T (W x61 x64 x65 x72 x5f x77 x69 x6c)
(L (W x00 x00 x00 x00 x00 x00 x00 x00))
(L (W x00 x00 x80 xbf x00 x00 x80 xbf)))
(T (W x68 x00 x00 x00 x5c x00 x00 x00)
(L (W x00 x00 x00 x00 x12 x00 x00 x00)) E))
(T (W xff xff xff xff xff xff xff xff)
(T (W x00 x00 x00 x00 x00 x00 x00 x00)
(L (W xff xff xff xff xff xff xff xff)) E)
(T (W x00 x00 x00 x00 x00 x00 x00 x00)
(L (W x45 x26 x22 x84 xe4 x9c xf2 xcb)) E)))
(T (W xf2 x80 xfd xff x00 x00 x01 x01)
(T (W xe4 xfe xfa xff x15 x00 x00 x00)
(T (W x00 x00 x80 x3f x00 x00 x80 x3f)
(L (W x00 x00 x00 x00 x00 x00 x00 x00))
(L (W x00 x00 x00 x00 x00 x00 x00 x00)))
(T (W x00 x00 x80 x3f x00 x00 x80 x3f)
(L (W xff xff xff xff xff xff xff xff)) E))
(T (W xdc x05 x00 x00 xb4 x04 x00 x00)
(T (W x00 x00 x80 x3f x00 x00 x80 x3f)
(L (W xff xff xff xff xc8 x00 x00 x00)) E)
(T (W x3a x6e xfd xff x78 x00 x00 x00)
(L (W x30 x32 x5f x43 x4c x45 x41 x52)) E))))))
(T (W x00 x00 x01 x01 xc9 x00 x00 x00)
(T (W x00 x00 x00 x00 x00 x00 x00 x00)
(T (W x00 x00 x80 x3f x00 x00 x80 x3f)
(T (W x40 x00 x00 x00 x9c x00 x00 x00)
(T (W xff xff xff xff xff xff xff xff)
(T (W xff xff xff xff x03 x00 x00 x00)
(L (W x00 x00 x00 x00 x00 x00 x00 x00))
(L (W x00 x00 x80 xbf x00 x00 x80 xbf)))
(T (W x00 x00 x00 x00 x00 x00 x00 x00)
(L (W xff xff xff xff xff xff xff xff)) E))
(T (W x00 x00 x80 x3f x00 x00 x80 x3f)
(T (W x00 x00 x00 x00 xcc x07 xfc xff)
(L (W x00 x00 x80 xbf x00 x00 x80 xbf)) E)
(T (W x04 x00 x00 x00 x2a x07 xfd xff)
(L (W xff xff xff xff xff xff xff xff)) E)))
(T (W x00 x00 x00 x00 x00 x00 x00 x00)
(T (W x00 x00 x80 x3f x00 x00 x80 x3f)
(T (W xff xff xff xff xff xff xff xff)
(L (W x54 x00 x00 x00 x48 x00 x00 x00))
(L (W xc4 x00 x00 x00 x02 x00 x00 x00)))
(T (W xff xff xff xff xff xff xff xff)
(L (W x00 x00 x80 xbf x00 x00 x80 xbf)) E))
(T (W x6c x00 x00 x00 x60 x00 x00 x00)
(T (W x18 x00 x00 x00 x0c x00 x00 x00)
(L (W x45 x44 x00 x00 x00 x00 x00 x00)) E)
(T (W x03 x00 x00 x00 xd0 x00 x00 x00)
(L (W x45 x26 x22 x84 xe4 x9c xf2 xcb)) E))))
(T (W x00 x00 x00 x00 xcc xe7 xf9 xff)
(T (W x00 x00 x80 x3f x00 x00 x80 x3f)
(T (W x00 x00 x80 x3f x00 x00 x80 x3f)
(T (W xff xff xff xff xff xff xff xff)
(L (W x18 x00 x00 x00 x10 x00 x00 x00))
(L (W x49 xa1 x68 x4a xeb x5f xdd x3d)))
(T (W x00 x00 x80 x3f x00 x00 x80 x3f)
(L (W x00 x00 x00 x00 x00 x00 x00 x00)) E))
(T (W x00 x00 x80 x3f x00 x00 x80 x3f)
(T (W x46 x53 x59 x53 x5f x4e x53 x5f)
(L (W xff xff xff xff xff xff xff xff)) E)
(T (W x00 x00 x00 x00 x00 x00 x00 x00)
(L (W x00 x00 x00 x00 x00 x00 x00 x00)) E)))
(T (W x40 x00 x00 x00 x10 x00 x00 x00)
(T (W x00 x00 x00 x00 x00 x00 x00 x00)
(T (W x45 x26 x22 x84 xe4 x9c xf2 xcb)
(L (W xa4 x04 x00 x00 x88 x03 x00 x00))
(L (W xff xff xff xff xff xff xff xff)))
(T (W x00 x00 x00 x00 x00 x00 x00 x00)
(L (W xff xff xff xff xc8 x00 x00 x00)) E))
(T (W xff xff xff xff x9c x00 x00 x00)
(T (W x00 x00 x80 x3f x00 x00 x80 x3f)
(L (W x5c x69 xfe xff x00 x01 x01 x01)) E)
(T (W x00 x00 x80 xbf x00 x00 x80 xbf)
(L (W xff xff xff xff xff xff xff xff)) E)))))
(T (W x00 x00 x00 x00 x00 x00 x00 x00)
(T (W x8a xd4 xf9 xff x74 x00 x00 x00)
(T (W xff xff xff xff xff xff xff xff)
(T (W x00 x00 x00 x00 x00 x00 x00 x00)
(T (W x6b x65 x5f x77 x61 x72 x6c x69)
(L (W x00 x00 x80 xbf x00 x00 x80 xbf))
(L (W x45 x26 x22 x84 xe4 x9c xf2 xcb)))
(T (W x00 x00 x00 x00 x02 x00 x00 x00)
(L (W x06 x00 x00 x00 xc0 x05 x00 x00)) E))
(T (W x00 x00 x00 x00 x00 x00 x00 x00)
(T (W xff xff xff xff xbc x00 x00 x00)
(L (W x45 x26 x22 x84 xe4 x9c xf2 xcb)) E)
(T (W x38 x00 x00 x00 x00 x00 x80 xbf)
(L (W x00 x00 x00 x00 x00 x00 x00 x00)) E)))
(T (W x00 x00 x00 x00 x00 x00 x00 x00)
(T (W x00 x00 x00 x00 x00 x00 x00 x00)
(T (W x18 x00 x00 x00 x10 x00 x00 x00)
(L (W x5c xd9 xfd xff x00 x01 x01 x01))
(L (W xff xff xff xff xff xff xff xff)))
(T (W x46 x53 x59 x53 x5f x4e x53 x5f)
(L (W x3a xd6 xfe xff x78 x00 x00 x00)) E))
(T (W x00 x00 x00 x00 x00 x00 x00 x00)
(T (W xff xff xff xff xff xff xff xff)
(L (W x00 x00 x80 xbf x00 x00 x80 xbf)) E)
(T (W x00 x00 x00 x00 x00 x00 x00 x00)
(L (W xff xff xff xff xff xff xff xff)) E))))
(T (W x45 x26 x22 x84 xe4 x9c xf2 xcb)
(T (W x00 x00 x00 x00 x00 x00 x00 x00)
(T (W x00 x00 x00 x00 x00 x00 x00 x00)
(T (W x00 x00 x80 x3f x00 x00 x80 x3f)
(L (W x00 x00 x00 x00 xcc xb7 xfd xff))
(L (W x45 x26 x22 x84 xe4 x9c xf2 xcb)))
(T (W x00 x00 x80 x3f x00 x00 x80 x3f)
(L (W x00 x00 x00 x00 x00 x00 x00 x00)) E))
(T (W x00 x00 x00 x00 x00 x00 x00 x00)
(T (W x00 x00 x80 x3f x00 x00 x80 x3f)
(L (W x00 x00 x00 x00 x6a x35 xfe xff)) E)
(T (W x00 x00 x80 xbf x00 x00 x80 xbf)
(L (W x00 x00 x80 xbf x00 x00 x80 xbf)) E)))
(T (W xff xff xff xff xff xff xff xff)
(T (W x45 x26 x22 x84 xe4 x9c xf2 xcb)
(T (W x68 x00 x00 x00 x5c x00 x00 x00)
(L (W x00 x00 x00 x00 x00 x00 x00 x00))
(L (W x00 x00 x00 x00 x00 x00 x00 x00)))
(T (W xff xff xff xff xff xff xff xff)
(L (W x00 x00 x00 x00 x6a xf5 xfe xff)) E))
(T (W x49 xa1 x68 x4a xeb x5f xdd x3d)
(T (W x00 x00 x80 x3f x00 x00 x80 x3f)
(L (W xff xff xff xff xff xff xff xff)) E)
(T (W x00 x00 x80 xbf x00 x00 x80 xbf)
(L (W xe4 x86 xff xff x15 x00 x00 x00)) E)))))))))))))
(T (W xe8 x6a x06 x00 xac x61 x06 x00)
(T (W x28 x31 x06 x00 x3c x2c x06 x00)
(T (W x20 xbc x05 x00 xe4 xb2 x05 x00)
(T (W x80 xbd x04 x00 x34 xb4 x04 x00)
(T (W x50 x87 x03 x00 xf4 x85 x03 x00)
(T (W x90 x88 x01 x00 x14 x86 x01 x00)
(T (W xff xff xff xff xff xff xff xff)
(T (W x00 x00 x80 x3f x00 x00 x80 x3f)
(T (W xff xff xff xff xff xff xff xff)
(T (W x00 x00 x00 x00 x00 x00 x00 x00)
(T (W x00 x00 x80 x3f x00 x00 x80 x3f)
(T (W xff xff xff xff x04 x00 x00 x00)
(T (W x00 x00 x00 x00 x12 x00 x00 x00)
(L (W x00 x00 x00 x00 x00 x00 x00 x00))
(L (W x04 x00 x00 x00 x7a x7d xff xff)))
(T (W x00 x00 x00 x00 x00 x00 x00 x00)
(L (W xff xff xff xff xb0 x00 x00 x00)) E))
(T (W x00 x00 x00 x00 x00 x00 x00 x00)
(T (W x00 x00 x80 x3f x00 x00 x80 x3f)
(L (W x00 x00 x00 x00 x5a xf7 xfd xff))
(L (W x00 x00 x00 x00 x00 x00 x00 x00)))
(T (W x45 x26 x22 x84 xe4 x9c xf2 xcb)
(L (W xff xff xff xff xff xff xff xff)) E)))
(T (W x42 x16 xeb x1b x9e xb6 x47 x16)
(T (W x00 x00 x00 x00 x00 x00 x00 x00)
(T (W x00 x00 x00 x00 x00 x00 x00 x00)
(L (W x00 x00 x80 xbf x00 x00 x80 xbf))
(L (W x00 x00 x80 xbf x00 x00 x80 xbf)))
(T (W x00 x00 x00 x00 x00 x00 x00 x00)
(L (W x00 x00 x00 x00 x00 x00 x00 x00)) E))
(T (W xff xff xff xff xff xff xff xff)
(T (W x00 x00 x00 x00 x00 x00 x00 x00)
(L (W xff xff xff xff xff xff xff xff)) E)
(T (W x49 xa1 x68 x4a xeb x5f xdd x3d)
(L (W x00 x00 x00 x00 x00 x00 x00 x00)) E))))
(T (W x00 x00 x80 x3f x00 x00 x80 x3f)
(T (W x45 x26 x22 x84 xe4 x9c xf2 xcb)
(T (W x04 xf3 xab x00 xc8 xfb xf8 x53)
(T (W x04 x00 x00 x00 xaa x32 xff xff)
(L (W x00 x00 x00 x00 x00 x00 x00 x00))
(L (W x00 x00 x80 xbf x00 x00 x80 xbf)))
(T (W xff xff xff xff xff xff xff xff)
(L (W xff xff xff xff xff xff xff xff)) E))
(T (W x00 x00 x00 x00 xaa xb2 xfe xff)
(T (W xba x14 xfc xff x74 x00 x00 x00)
(L (W x00 x00 x80 xbf x00 x00 x80 xbf)) E)
(T (W x45 x26 x22 x84 xe4 x9c xf2 xcb)
(L (W x30 x32 x5f x43 x4c x45 x41 x52)) E)))
(T (W x48 x03 x00 x00 x34 x02 x00 x00)
(T (W xbc xdd xfa xff x3c x00 x00 x00)
(T (W x4b x00 x00 x00 xff xff xff xff)
(L (W x00 x00 x80 xbf x00 x00 x80 xbf))
(L (W x18 x00 x00 x00 x0c x00 x00 x00)))
(T (W xe9 x00 x00 x00 xff xff xff xff)
(L (W x00 x00 x80 xbf x00 x00 x80 xbf)) E))
(T (W x22 x00 x00 x00 x67 x72 x6f x75)
(T (W x8c x59 xfc xff x00 x01 x01 x01)
(L (W x00 x00 x00 x00 x00 x00 x00 x00)) E)
(T (W x54 x02 x00 x00 x38 x01 x00 x00)
(L (W x45 x26 x22 x84 xe4 x9c xf2 xcb)) E)))))
(T (W xff xff xff xff xff xff xff xff)
(T (W x00 x00 x00 x00 x00 x00 x00 x00)
(T (W x50 x00 x00 x00 x44 x00 x00 x00)
(T (W xb8 x00 x00 x00 xac x00 x00 x00)
(T (W x8c x89 xfb xff x00 x01 x01 x01)
(L (W x4c x45 x41 x52 x45 x44 x00 x00))
(L (W x00 x00 x00 x00 x00 x00 x00 x00)))
(T (W x0d x00 x00 x00 x10 x00 x00 x00)
(L (W xcc x00 x00 x00 x01 x00 x00 x00)) E))
(T (W x4f x84 x6f x8b xe8 xcb x63 xb7)
(T (W x00 x00 x80 x3f x00 x00 x80 x3f)
(L (W x00 x00 x00 x00 x00 x00 x00 x00)) E)
(T (W xff xff xff xff xff xff xff xff)
(L (W xff xff xff xff xff xff xff xff)) E)))
(T (W x00 x00 x00 x00 x00 x00 x00 x00)
(T (W x00 x00 x00 x00 x00 x00 x00 x00)
(T (W x18 x00 x00 x00 x0c x00 x00 x00)
(L (W x00 x00 x80 xbf x00 x00 x80 xbf))
(L (W x6c x00 x00 x00 x60 x00 x00 x00)))
(T (W x45 x26 x22 x84 xe4 x9c xf2 xcb)
(L (W x00 x00 x00 x00 x00 x00 x00 x00)) E))
(T (W x00 x00 x80 x3f x00 x00 x80 x3f)
(T (W x00 x00 x80 x3f x00 x00 x80 x3f)
(L (W xff xff xff xff xff xff xff xff)) E)
(T (W x6a x46 xfd xff x78 x00 x00 x00)
(L (W x00 x00 x80 xbf x00 x00 x80 xbf)) E))))
(T (W x00 x00 x80 x3f x00 x00 x80 x3f)
(T (W x00 x00 x00 x00 x00 x00 x00 x00)
(T (W x00 x00 x00 x00 x00 x00 x00 x00)
(T (W x45 x26 x22 x84 xe4 x9c xf2 xcb)
(L (W x00 x00 x80 xbf x00 x00 x80 xbf))
(L (W x00 x00 x00 x00 x12 x00 x00 x00)))
(T (W x00 x00 x00 x00 x00 x00 x00 x00)
(L (W xff xff xff xff xff xff xff xff)) E))
(T (W x45 x26 x22 x84 xe4 x9c xf2 xcb)
(T (W x4b x00 x00 x00 xff xff xff xff)
(L (W xff xff xff xff xa0 x00 x00 x00)) E)
(T (W x00 x00 x00 x00 x00 x00 x00 x00)
(L (W x45 x44 x00 x00 x00 x00 x00 x00)) E)))
(T (W xff xff xff xff xff xff xff xff)
(T (W x00 x00 x00 x00 x02 x00 x00 x00)
(T (W x00 x00 x00 x00 x00 x00 x00 x00)
(L (W xff xff xff xff xff xff xff xff))
(L (W xff xff xff xff xff xff xff xff)))
(T (W x70 x5f x6c x65 x61 x64 x65 x72)
(L (W x00 x00 x00 x00 xfc xe7 xfe xff)) E))
(T (W x50 x00 x00 x00 x44 x00 x00 x00)
(T (W x00 x00 x00 x00 x00 x00 x00 x00)
(L (W x00 x00 x80 xbf x00 x00 x80 xbf)) E)
(T (W x00 x00 x00 x00 x00 x00 x00 x00)
(L (W xff xff xff xff xff xff xff xff)) E))))))
(T (W x00 x00 x00 x00 x00 x00 x00 x00)
(T (W x00 x00 x80 x3f x00 x00 x80 x3f)
(T (W x18 x00 x00 x00 x10 x00 x00 x00)
(T (W x00 x00 x80 x3f x00 x00 x80 x3f)
(T (W x18 x00 x00 x00 x10 x00 x00 x00)
(T (W x45 x26 x22 x84 xe4 x9c xf2 xcb)
(L (W x45 x26 x22 x84 xe4 x9c xf2 xcb))
(L (W x45 x44 x00 x00 x00 x00 x00 x00)))
(T (W x00 x00 x00 x00 x00 x00 x00 x00)
(L (W xff xff xff xff xc8 x00 x00 x00)) E))
(T (W xff xff xff xff xff xff xff xff)
(T (W x00 x00 x80 x3f x00 x00 x80 x3f)
(L (W x45 x44 x00 x00 x00 x00 x00 x00))
(L (W x45 x26 x22 x84 xe4 x9c xf2 xcb)))
(T (W x18 x00 x00 x00 x10 x00 x00 x00)
(L (W xff xff xff xff xff xff xff xff)) E)))
(T (W xa2 x4f xfd xff x96 x01 x00 x00)
(T (W x00 x00 x00 x00 x00 x00 x00 x00)
(T (W x00 x00 x80 x3f x00 x00 x80 x3f)
(L (W x24 x00 x28 x00 x2c x00 x30 x00))
(L (W x54 x00 x00 x00 x48 x00 x00 x00)))
(T (W x00 x00 x00 x00 x00 x00 x00 x00)
(L (W x00 x00 x00 x00 x00 x00 x00 x00)) E))
(T (W x00 x00 x00 x00 x02 x00 x00 x00)
(T (W x00 x00 x80 x3f x00 x00 x80 x3f)
(L (W xff xff xff xff xff xff xff xff)) E)
(T (W x00 x00 x80 xbf x00 x00 x80 xbf)
(L (W x45 x26 x22 x84 xe4 x9c xf2 xcb)) E))))
(T (W x00 x00 x80 x3f x00 x00 x80 x3f)
(T (W x63 x6f x77 x61 x72 x64 x00 x00)
(T (W x00 x00 x80 x3f x00 x00 x80 x3f)
(T (W x00 x00 x00 x00 x00 x00 x00 x00)
(L (W x00 x00 x80 xbf x00 x00 x80 xbf))
(L (W x00 x00 x80 xbf x00 x00 x80 xbf)))
(T (W x00 x00 x00 x00 x00 x00 x00 x00)
(L (W xff xff xff xff xff xff xff xff)) E))
(T (W x00 x00 x00 x00 x12 x00 x00 x00)
(T (W xff xff xff xff xff xff xff xff)
(L (W x6a x1e xfe xff x78 x00 x00 x00)) E)
(T (W xff xff xff xff xff xff xff xff)
(L (W x14 x2f xff xff x11 x00 x00 x00)) E)))
(T (W xff xff xff xff xff xff xff xff)
(T (W x00 x00 x00 x00 x00 x00 x00 x00)
(T (W x00 x00 x00 x00 x00 x00 x00 x00)
(L (W x00 x00 x80 xbf x00 x00 x80 xbf))
(L (W xff xff xff xff xc8 x00 x00 x00)))
(T (W x00 x00 x00 x00 x00 x00 x00 x00)
(L (W x00 x00 x80 xbf x00 x00 x80 xbf)) E))
(T (W x00 x00 x80 x3f x00 x00 x80 x3f)
(T (W x18 x00 x00 x00 x10 x00 x00 x00)
(L (W x00 x00 x80 xbf x00 x00 x80 xbf)) E)
(T (W x30 x32 x5f x43 x4c x45 x41 x52)
(L (W xb4 x00 x00 x00 x46 x00 x00 x00)) E)))))
(T (W x54 x00 x00 x00 x48 x00 x00 x00)
(T (W xff xff xff xff xff xff xff xff)
(T (W x00 x00 x80 x3f x00 x00 x80 x3f)
(T (W xc0 x00 x00 x00 xb4 x00 x00 x00)
(T (W xbc x00 x00 x00 x14 x00 x00 x00)
(L (W x00 x00 x00 x00 x00 x00 x00 x00))
(L (W x00 x00 x80 xbf x00 x00 x80 xbf)))
(T (W xff xff xff xff xff xff xff xff)
(L (W xff xff xff xff xff xff xff xff)) E))
(T (W x45 x26 x22 x84 xe4 x9c xf2 xcb)
(T (W x8c x11 xfc xff x00 x01 x01 x01)
(L (W x49 xa1 x68 x4a xeb x5f xdd x3d)) E)
(T (W x14 xf3 xff xff x01 x01 x01 x01)
(L (W xff xff xff xff xff xff xff xff)) E)))
(T (W x00 x00 x00 x00 x00 x00 x00 x00)
(T (W x00 x00 x00 x00 x00 x00 x00 x00)
(T (W xb0 x00 x00 x00 x64 x00 x00 x00)
(L (W x45 x26 x22 x84 xe4 x9c xf2 xcb))
(L (W x18 x00 x00 x00 x10 x00 x00 x00)))
(T (W xff xff xff xff xb0 x00 x00 x00)
(L (W x00 x00 x00 x00 x00 x00 x00 x00)) E))
(T (W xff xff xff xff xff xff xff xff)
(T (W x00 x00 x80 x3f x00 x00 x80 x3f)
(L (W x00 x00 x00 x00 x00 x00 x00 x00)) E)
(T (W xd0 x00 x00 x00 x64 x00 x00 x00)
(L (W x6a x4e xff xff x78 x00 x00 x00)) E))))
(T (W x50 x00 x00 x00 x44 x00 x00 x00)
(T (W x00 x00 x00 x00 x00 x00 x00 x00)
(T (W x00 x00 x00 x00 x00 x00 x00 x00)
(T (W xff xff xff xff xff xff xff xff)
(L (W xff xff xff xff xff xff xff xff))
(L (W x45 x26 x22 x84 xe4 x9c xf2 xcb)))
(T (W x00 x00 x80 x3f x00 x00 x80 x3f)
(L (W x00 x00 x00 x00 x9a xad xfe xff)) E))
(T (W x01 x00 x00 x00 x21 x00 x00 x00)
(T (W x00 x00 x00 x00 x00 x00 x00 x00)
(L (W xff xff xff xff xff xff xff xff)) E)
(T (W x00 x00 x00 x00 x00 x00 x00 x00)
(L (W x00 x00 x00 x00 x00 x00 x00 x00)) E)))
(T (W xff xff xff xff xff xff xff xff)
(T (W xff xff xff xff xff xff xff xff)
(T (W x00 x00 x00 x00 x00 x00 x00 x00)
(L (W xff xff xff xff xff xff xff xff))
(L (W xff xff xff xff xff xff xff xff)))
(T (W x49 xa1 x68 x4a xeb x5f xdd x3d)
(L (W xcc x00 x00 x00 x01 x00 x00 x00)) E))
(T (W xff xff xff xff xff xff xff xff)
(T (W x00 x00 x00 x00 x00 x00 x00 x00)
(L (W x00 x00 x00 x00 xfc x6f xfe xff)) E)
(T (W x00 x00 x80 xbf x00 x00 x80 xbf)
(L (W xff xff xff xff xff xff xff xff)) E)))))))
(T (W x00 x00 x00 x00 x00 x00 x00 x00)
(T (W xff xff xff xff xff xff xff xff)
(T (W x00 x00 x00 x00 x00 x00 x00 x00)
(T (W x00 x00 x80 x3f x00 x00 x80 x3f)
(T (W x1c x01 x00 x00 x04 x00 x00 x00)
(T (W x00 x00 x00 x00 x00 x00 x00 x00)
(T (W x18 x00 x00 x00 x0c x00 x00 x00)
(L (W xff xff xff xff xb0 x00 x00 x00))
(L (W x00 x00 x80 xbf x00 x00 x80 xbf)))
(T (W x64 x00 x00 x00 x9c x00 x00 x00)
(L (W x00 x00 x00 x00 x00 x00 x00 x00)) E))
(T (W x00 x00 x00 x00 x00 x00 x00 x00)
(T (W xff xff xff xff xff xff xff xff)
(L (W x18 x00 x00 x00 x10 x00 x00 x00))
(L (W x45 x44 x00 x00 x00 x00 x00 x00)))
(T (W x04 x00 x00 x00 x9a xf9 xfc xff)
(L (W x00 x00 x00 x00 x00 x00 x00 x00)) E)))
(T (W xba x38 xfa xff x74 x00 x00 x00)
(T (W x64 x00 x00 x00 x9c x00 x00 x00)
(T (W xff xff xff xff xff xff xff xff)
(L (W x18 x00 x00 x00 x10 x00 x00 x00))
(L (W x54 x02 x00 x00 x38 x01 x00 x00)))
(T (W x45 x26 x22 x84 xe4 x9c xf2 xcb)
(L (W x18 x00 x00 x00 x10 x00 x00 x00)) E))
(T (W x00 x00 x80 x3f x00 x00 x80 x3f)
(T (W xff xff xff xff xff xff xff xff)
(L (W x00 x00 x80 xbf x00 x00 x80 xbf)) E)
(T (W xff xff xff xff xff xff xff xff)
(L (W xff xff xff xff xff xff xff xff)) E))))
(T (W xff xff xff xff xff xff xff xff)
(T (W x00 x00 x00 x00 x00 x00 x00 x00)
(T (W xff xff xff xff xff xff xff xff)
(T (W x68 x00 x00 x00 x5c x00 x00 x00)
(L (W xff xff xff xff xff xff xff xff))
(L (W xff xff xff xff xff xff xff xff)))
(T (W x00 x00 x00 x00 x00 x00 x00 x00)
(L (W x00 x00 x80 xbf x00 x00 x80 xbf)) E))
(T (W x18 x00 x00 x00 x10 x00 x00 x00)
(T (W x00 x00 x00 x00 x00 x00 x00 x00)
(L (W xff xff xff xff xff xff xff xff)) E)
(T (W x45 x26 x22 x84 xe4 x9c xf2 xcb)
(L (W x8c x1d xff xff x00 x01 x01 x01)) E)))
(T (W x45 x26 x22 x84 xe4 x9c xf2 xcb)
(T (W x00 x00 x80 x3f x00 x00 x80 x3f)
(T (W x00 x00 x80 x3f x00 x00 x80 x3f)
(L (W x04 x00 x00 x00 x70 x03 x00 x00))
(L (W x45 x26 x22 x84 xe4 x9c xf2 xcb)))
(T (W x6a xda xfc xff x78 x00 x00 x00)
(L (W x2a x00 x00 x00 xff xff xff xff)) E))
(T (W xba x58 xfb xff x74 x00 x00 x00)
(T (W x6b x65 x5f x77 x61 x72 x6c x69)
(L (W x05 x00 x00 x00 x06 x00 x00 x00)) E)
(T (W x50 x00 x00 x00 x44 x00 x00 x00)
(L (W x00 x00 x00 x00 x00 x00 x00 x00)) E)))))
(T (W x00 x00 x00 x00 x00 x00 x00 x00)
(T (W x6c x00 x00 x00 x60 x00 x00 x00)
(T (W xff xff xff xff xff xff xff xff)
(T (W x00 x00 x00 x00 x00 x00 x00 x00)
(T (W xa1 x01 x00 x00 xff xff xff xff)
(L (W x18 x00 x00 x00 x0c x00 x00 x00))
(L (W x45 x26 x22 x84 xe4 x9c xf2 xcb)))
(T (W x00 x00 x80 x3f x00 x00 x80 x3f)
(L (W x00 x00 x00 x00 x00 x00 x00 x00)) E))
(T (W xff xff xff xff xff xff xff xff)
(T (W x30 x32 x5f x43 x4c x45 x41 x52)
(L (W xff xff xff xff xff xff xff xff)) E)
(T (W x68 x00 x00 x00 x5c x00 x00 x00)
(L (W x00 x00 x80 xbf x00 x00 x80 xbf)) E)))
(T (W x00 x00 x80 x3f x00 x00 x80 x3f)
(T (W x8c xcd xfa xff x00 x01 x01 x01)
(T (W x70 x5f x6c x65 x61 x64 x65 x72)
(L (W xff xff xff xff xff xff xff xff))
(L (W x00 x00 x00 x00 x00 x00 x00 x00)))
(T (W x55 x6c xfc xf1 x99 x9e xc9 x88)
(L (W xff xff xff xff xff xff xff xff)) E))
(T (W x00 x00 x00 x00 x00 x00 x00 x00)
(T (W x34 x01 x00 x00 x04 x00 x00 x00)
(L (W x8c x4d xfe xff x00 x01 x01 x01)) E)
(T (W x00 x00 x00 x00 x00 x00 x00 x00)
(L (W x54 x02 x00 x00 x38 x01 x00 x00)) E))))
(T (W xff xff xff xff xff xff xff xff)
(T (W xba x28 xfa xff x74 x00 x00 x00)
(T (W xff xff xff xff xff xff xff xff)
(T (W x00 x00 x00 x00 x00 x00 x00 x00)
(L (W xb0 x00 x00 x00 x64 x00 x00 x00))
(L (W xff xff xff xff xff xff xff xff)))
(T (W xff xff xff xff xff xff xff xff)
(L (W x00 x00 x80 xbf x00 x00 x80 xbf)) E))
(T (W x22 x6c xfd xff x9c x01 x00 x00)
(T (W x00 x00 x80 x3f x00 x00 x80 x3f)
(L (W x30 x32 x5f x43 x4c x45 x41 x52)) E)
(T (W x45 x26 x22 x84 xe4 x9c xf2 xcb)
(L (W x21 x00 x00 x00 x24 x00 x00 x00)) E)))
(T (W x00 x00 x80 x3f x00 x00 x80 x3f)
(T (W x50 x00 x00 x00 x44 x00 x00 x00)
(T (W xff xff xff xff x9c x00 x00 x00)
(L (W x00 x00 x80 xbf x00 x00 x80 xbf))
(L (W x45 x26 x22 x84 xe4 x9c xf2 xcb)))
(T (W x45 x26 x22 x84 xe4 x9c xf2 xcb)
(L (W x00 x00 x00 x00 x00 x00 x00 x00)) E))
(T (W x00 x00 x00 x00 x00 x00 x00 x00)
(T (W xb8 x00 x00 x00 xac x00 x00 x00)
(L (W xa4 x04 x00 x00 x88 x03 x00 x00)) E)
(T (W xff xff xff xff xff xff xff xff)
(L (W x00 x00 x00 x00 x00 x00 x00 x00)) E))))))
(T (W x00 x00 x80 x3f x00 x00 x80 x3f)
(T (W x45 x26 x22 x84 xe4 x9c xf2 xcb)
(T (W x0a x00 x00 x00 xff xff xff xff)
(T (W xff xff xff xff xff xff xff xff)
(T (W x45 x26 x22 x84 xe4 x9c xf2 xcb)
(T (W xff xff xff xff xff xff xff xff)
(L (W xba x80 xfd xff x74 x00 x00 x00))
(L (W x54 x00 x00 x00 x48 x00 x00 x00)))
(T (W x18 x00 x00 x00 x0c x00 x00 x00)
(L (W x00 x00 x00 x00 x12 x00 x00 x00)) E))
(T (W x00 x00 x80 x3f x00 x00 x80 x3f)
(T (W x1a x0b xff xff x00 x00 x01 x01)
(L (W x03 x00 x00 x00 xd0 x00 x00 x00))
(L (W x00 x00 x00 x00 x00 x00 x00 x00)))
(T (W x00 x00 x00 x00 x01 x00 x00 x00)
(L (W x45 x26 x22 x84 xe4 x9c xf2 xcb)) E)))
(T (W x8c x45 xfa xff x00 x01 x01 x01)
(T (W xbc x00 x00 x00 xb0 x00 x00 x00)
(T (W x00 x00 x00 x00 x00 x00 x00 x00)
(L (W xff xff xff xff xff xff xff xff))
(L (W x00 x00 x00 x00 xea xc7 xff xff)))
(T (W x8c xc5 xfc xff x00 x01 x01 x01)
(L (W xff xff xff xff xff xff xff xff)) E))
(T (W xff xff xff xff xc8 x00 x00 x00)
(T (W xff xff xff xff xff xff xff xff)
(L (W x00 x00 x80 xbf x00 x00 x80 xbf)) E)
(T (W x00 x00 x00 x00 x12 x00 x00 x00)
(L (W x2a x00 x00 x00 xff xff xff xff)) E))))
(T (W xff xff xff xff xff xff xff xff)
(T (W x18 x00 x00 x00 x0c x00 x00 x00)
(T (W xff xff xff xff xff xff xff xff)
(T (W x22 xb5 xfe xff x00 x00 x01 x01)
(L (W x00 x00 x00 x00 x00 x00 x00 x00))
(L (W x40 x00 x00 x00 x00 x00 x80 xbf)))
(T (W xff xff xff xff xff xff xff xff)
(L (W x6c x00 x00 x00 x60 x00 x00 x00)) E))
(T (W xff xff xff xff xff xff xff xff)
(T (W x00 x00 x80 x3f x00 x00 x80 x3f)
(L (W x00 x00 x00 x00 x00 x00 x00 x00)) E)
(T (W x00 x00 x80 xbf x00 x00 x80 xbf)
(L (W x18 x00 x00 x00 x10 x00 x00 x00)) E)))
(T (W x00 x00 x80 x3f x00 x00 x80 x3f)
(T (W x00 x00 x80 x3f x00 x00 x80 x3f)
(T (W x00 x00 x80 x3f x00 x00 x80 x3f)
(L (W x30 x32 x5f x43 x4c x45 x41 x52))
(L (W x00 x00 x80 xbf x00 x00 x80 xbf)))
(T (W x61 x64 x65 x72 x5f x77 x69 x6c)
(L (W x00 x00 x00 x00 x00 x00 x00 x00)) E))
(T (W x5f x77 x69 x6c x64 x5f x70 x6f)
(T (W x00 x00 x00 x00 x00 x00 x00 x00)
(L (W xff xff xff xff xff xff xff xff)) E)
(T (W xff xff xff xff xb0 x00 x00 x00)
(L (W x00 x00 x00 x00 x12 x00 x00 x00)) E)))))
(T (W xff xff xff xff xff xff xff xff)
(T (W x00 x00 x00 x00 x00 x00 x00 x00)
(T (W x00 x00 x00 x00 x00 x00 x00 x00)
(T (W x00 x00 x00 x00 x00 x00 x00 x00)
(T (W x00 x00 x80 x3f x00 x00 x80 x3f)
(L (W x03 x00 x00 x00 xcc x00 x00 x00))
(L (W xff xff xff xff xff xff xff xff)))
(T (W x00 x00 x80 x3f x00 x00 x80 x3f)
(L (W x00 x00 x80 xbf x00 x00 x80 xbf)) E))
(T (W x30 x32 x5f x43 x4c x45 x41 x52)
(T (W x00 x00 x00 x00 x00 x00 x00 x00)
(L (W xff xff xff xff xff xff xff xff)) E)
(T (W x45 x26 x22 x84 xe4 x9c xf2 xcb)
(L (W x45 x26 x22 x84 xe4 x9c xf2 xcb)) E)))
(T (W x00 x00 x80 x3f x00 x00 x80 x3f)
(T (W x50 x00 x00 x00 x44 x00 x00 x00)
(T (W x4f x84 x6f x8b xe8 xcb x63 xb7)
(L (W x5c x00 x00 x00 xff xff xff xff))
(L (W x00 x00 x00 x00 x00 x00 x00 x00)))
(T (W x45 x26 x22 x84 xe4 x9c xf2 xcb)
(L (W xff xff xff xff xff xff xff xff)) E))
(T (W x49 xa1 x68 x4a xeb x5f xdd x3d)
(T (W x00 x00 x00 x00 x00 x00 x00 x00)
(L (W x68 x00 x00 x00 x5c x00 x00 x00)) E)
(T (W x00 x00 x80 xbf x00 x00 x80 xbf)
(L (W x00 x00 x00 x00 x00 x00 x00 x00)) E))))
(T (W x24 x02 x00 x00 xff xff xff xff)
(T (W x00 x00 x80 x3f x00 x00 x80 x3f)
(T (W xff xff xff xff xff xff xff xff)
(T (W x6c x00 x00 x00 x60 x00 x00 x00)
(L (W x00 x00 x00 x00 x00 x00 x00 x00))
(L (W xff xff xff xff xff xff xff xff)))
(T (W xff xff xff xff xff xff xff xff)
(L (W x6a xb2 xfe xff x78 x00 x00 x00)) E))
(T (W x00 x00 x00 x00 x00 x00 x00 x00)
(T (W xba x30 xfc xff x74 x00 x00 x00)
(L (W x00 x00 x00 x00 x00 x00 x00 x00)) E)
(T (W xb0 x00 x00 x00 x64 x00 x00 x00)
(L (W x45 x26 x22 x84 xe4 x9c xf2 xcb)) E)))
(T (W x00 x00 x80 x3f x00 x00 x80 x3f)
(T (W xff xff xff xff xff xff xff xff)
(T (W x45 x26 x22 x84 xe4 x9c xf2 xcb)
(L (W x6c x00 x00 x00 x60 x00 x00 x00))
(L (W x6a xf2 xff xff x78 x00 x00 x00)))
(T (W x6f x6b x65 x5f x77 x61 x72 x6c)
(L (W x00 x00 x00 x00 x00 x00 x00 x00)) E))
(T (W x50 x00 x00 x00 x44 x00 x00 x00)
(T (W x01 x00 x00 x00 x9c x00 x00 x00)
(L (W x00 x00 x00 x00 x00 x00 x00 x00)) E)
(T (W xff xff xff xff xff xff xff xff)
(L (W x00 x00 x80 xbf x00 x00 x80 xbf)) E))))))))
(T (W x38 x61 x00 x00 xec x5e x00 x00)
(T (W xff xff xff xff xff xff xff xff)
(T (W x45 x26 x22 x84 xe4 x9c xf2 xcb)
(T (W x00 x00 x01 x01 xc9 x00 x00 x00)
(T (W x00 x00 x00 x00 x00 x00 x00 x00)
(T (W x18 x00 x00 x00 x0c x00 x00 x00)
(T (W x3e x00 x00 x00 x10 x00 x00 x00)
(T (W x00 x00 x80 x3f x00 x00 x80 x3f)
(L (W x00 x00 x80 xbf x00 x00 x80 xbf))
(L (W x45 x26 x22 x84 xe4 x9c xf2 xcb)))
(T (W x00 x00 x80 x3f x00 x00 x80 x3f)
(L (W xff xff xff xff xff xff xff xff)) E))
(T (W xff xff xff xff xff xff xff xff)
(T (W x68 x00 x00 x00 x5c x00 x00 x00)
(L (W x00 x00 x00 x00 x00 x00 x00 x00))
(L (W x00 x00 x00 x00 x00 x00 x00 x00)))
(T (W x00 x00 x80 x3f x00 x00 x80 x3f)
(L (W x00 x00 x00 x00 x00 x00 x00 x00)) E)))
(T (W x45 x26 x22 x84 xe4 x9c xf2 xcb)
(T (W x00 x00 x80 x3f x00 x00 x80 x3f)
(T (W x68 x00 x00 x00 x5c x00 x00 x00)
(L (W x68 x00 x00 x00 x5c x00 x00 x00))
(L (W x18 x00 x00 x00 x0c x00 x00 x00)))
(T (W x00 x00 x80 x3f x00 x00 x80 x3f)
(L (W x45 x26 x22 x84 xe4 x9c xf2 xcb)) E))
(T (W x00 x00 x00 x00 x00 x00 x00 x00)
(T (W x8c x3b xfc xff x00 x01 x01 x01)
(L (W x00 x00 x00 x00 x00 x00 x00 x00)) E)
(T (W x45 x26 x22 x84 xe4 x9c xf2 xcb)
(L (W x00 x00 x80 xbf x00 x00 x80 xbf)) E))))
(T (W x00 x00 x80 x3f x00 x00 x80 x3f)
(T (W xb6 x01 x00 x00 xff xff xff xff)
(T (W x18 x00 x00 x00 x10 x00 x00 x00)
(T (W x00 x00 x00 x00 x00 x00 x00 x00)
(L (W x68 x00 x00 x00 x5c x00 x00 x00))
(L (W x18 x00 x00 x00 x10 x00 x00 x00)))
(T (W x1d x00 x00 x00 x10 x00 x00 x00)
(L (W x00 x00 x00 x00 x00 x00 x00 x00)) E))
(T (W x00 x00 x00 x00 x00 x00 x00 x00)
(T (W x00 x00 x00 x00 x00 x00 x00 x00)
(L (W x21 x00 x00 x00 x24 x00 x00 x00)) E)
(T (W xff xff xff xff x9c x00 x00 x00)
(L (W x00 x00 x80 xbf x00 x00 x80 xbf)) E)))
(T (W x00 x00 x00 x00 x00 x00 x00 x00)
(T (W x00 x00 x80 x3f x00 x00 x80 x3f)
(T (W x00 x00 x00 x00 x00 x00 x00 x00)
(L (W x03 x00 x00 x00 xd0 x00 x00 x00))
(L (W x54 x02 x00 x00 x38 x01 x00 x00)))
(T (W x00 x00 x00 x00 x00 x00 x00 x00)
(L (W xba xd6 xfe xff x74 x00 x00 x00)) E))
(T (W x00 x00 x80 x3f x00 x00 x80 x3f)
(T (W xff xff xff xff xff xff xff xff)
(L (W x00 x00 x80 xbf x00 x00 x80 xbf)) E)
(T (W x45 x26 x22 x84 xe4 x9c xf2 xcb)
(L (W xff xff xff xff xff xff xff xff)) E)))))
(T (W x00 x00 x00 x00 x00 x00 x00 x00)
(T (W x00 x00 x80 x3f x00 x00 x80 x3f)
(T (W x45 x26 x22 x84 xe4 x9c xf2 xcb)
(T (W xff xff xff xff xff xff xff xff)
(T (W xff xff xff xff xff xff xff xff)
(L (W x00 x00 x80 xbf x00 x00 x80 xbf))
(L (W x00 x00 x80 xbf x00 x00 x80 xbf)))
(T (W x00 x00 x00 x00 x00 x00 x00 x00)
(L (W xff xff xff xff xff xff xff xff)) E))
(T (W x50 x00 x00 x00 x44 x00 x00 x00)
(T (W xff xff xff xff xbc x00 x00 x00)
(L (W x00 x00 x80 xbf x00 x00 x80 xbf)) E)
(T (W x00 x00 x00 x00 x00 x00 x00 x00)
(L (W x00 x00 x00 x00 x00 x00 x00 x00)) E)))
(T (W x00 x00 x00 x00 x00 x00 x00 x00)
(T (W x00 x00 x00 x00 x00 x00 x00 x00)
(T (W xff xff xff xff xff xff xff xff)
(L (W x6a xc8 xfd xff x78 x00 x00 x00))
(L (W xff xff xff xff xff xff xff xff)))
(T (W x00 x00 x80 x3f x00 x00 x80 x3f)
(L (W x45 x26 x22 x84 xe4 x9c xf2 xcb)) E))
(T (W xff xff xff xff xff xff xff xff)
(T (W x01 x00 x00 x00 xb0 x00 x00 x00)
(L (W x00 x00 x00 x00 x12 x00 x00 x00)) E)
(T (W xff xff xff xff xff xff xff xff)
(L (W xff xff xff xff xb0 x00 x00 x00)) E))))
(T (W xff xff xff xff xff xff xff xff)
(T (W x00 x00 x80 x3f x00 x00 x80 x3f)
(T (W x50 x00 x00 x00 x44 x00 x00 x00)
(T (W xff xff xff xff xff xff xff xff)
(L (W x00 x00 x00 x00 xfc xa9 xfd xff))
(L (W xff xff xff xff xb0 x00 x00 x00)))
(T (W x00 x00 x80 x3f x00 x00 x80 x3f)
(L (W x00 x00 x00 x00 x00 x00 x00 x00)) E))
(T (W xff xff xff xff xa0 x00 x00 x00)
(T (W x00 x00 x00 x00 x12 x00 x00 x00)
(L (W xff xff xff xff xff xff xff xff)) E)
(T (W x00 x00 x80 xbf x00 x00 x80 xbf)
(L (W x4f x84 x6f x8b xe8 xcb x63 xb7)) E)))
(T (W x00 x00 x00 x00 x00 x00 x00 x00)
(T (W x00 x00 x00 x00 x00 x00 x00 x00)
(T (W x45 x26 x22 x84 xe4 x9c xf2 xcb)
(L (W x00 x00 x00 x00 x00 x00 x00 x00))
(L (W x00 x00 x00 x00 x00 x00 x00 x00)))
(T (W x45 x26 x22 x84 xe4 x9c xf2 xcb)
(L (W xff xff xff xff xff xff xff xff)) E))
(T (W xff xff xff xff xff xff xff xff)
(T (W x00 x00 x80 x3f x00 x00 x80 x3f)
(L (W x18 x00 x00 x00 x0c x00 x00 x00)) E)
(T (W x50 x00 x00 x00 x44 x00 x00 x00)
(L (W x00 x00 x01 x01 xb9 x00 x00 x00)) E))))))
(T (W x45 x26 x22 x84 xe4 x9c xf2 xcb)
(T (W x00 x00 x80 x3f x00 x00 x80 x3f)
(T (W xff xff xff xff xff xff xff xff)
(T (W xba xfe xf9 xff x74 x00 x00 x00)
(T (W x22 x93 xfd xff x00 x00 x01 x01)
(T (W x19 x00 x00 x00 x1c x00 x00 x00)
(L (W x00 x00 x80 xbf x00 x00 x80 xbf))
(L (W x4f x84 x6f x8b xe8 xcb x63 xb7)))
(T (W x00 x00 x80 x3f x00 x00 x80 x3f)
(L (W x5c x00 x00 x00 xff xff xff xff)) E))
(T (W x00 x00 x00 x00 x00 x00 x00 x00)
(T (W x18 x00 x00 x00 x0c x00 x00 x00)
(L (W x54 x00 x00 x00 x48 x00 x00 x00))
(L (W x00 x00 x80 xbf x00 x00 x80 xbf)))
(T (W x00 x00 x80 xbf x00 x00 x80 xbf)
(L (W x00 x00 x00 x00 x00 x00 x00 x00)) E)))
(T (W x00 x00 x00 x00 x00 x00 x00 x00)
(T (W x00 x00 x80 x3f x00 x00 x80 x3f)
(T (W xff xff xff xff xff xff xff xff)
(L (W x00 x00 x80 xbf x00 x00 x80 xbf))
(L (W xff xff xff xff xc8 x00 x00 x00)))
(T (W x00 x00 x80 x3f x00 x00 x80 x3f)
(L (W x00 x00 x80 xbf x00 x00 x80 xbf)) E))
(T (W x00 x00 x00 x00 x00 x00 x00 x00)
(T (W xba x3e xfc xff x74 x00 x00 x00)
(L (W x14 x51 xfe xff x12 x00 x00 x00)) E)
(T (W xff xff xff xff xff xff xff xff)
(L (W x68 x00 x00 x00 x5c x00 x00 x00)) E))))
(T (W x18 x00 x00 x00 x0c x00 x00 x00)
(T (W x45 x26 x22 x84 xe4 x9c xf2 xcb)
(T (W x23 x00 x00 x00 x9c x00 x00 x00)
(T (W x01 x00 x00 x00 xac x00 x00 x00)
(L (W x01 x00 x00 x00 xff xff xff xff))
(L (W xff xff xff xff xff xff xff xff)))
(T (W x45 x26 x22 x84 xe4 x9c xf2 xcb)
(L (W x46 x53 x59 x53 x5f x4e x53 x5f)) E))
(T (W x6c x00 x00 x00 x60 x00 x00 x00)
(T (W x18 x00 x00 x00 x10 x00 x00 x00)
(L (W xff xff xff xff xff xff xff xff)) E)
(T (W x00 x00 x00 x00 x00 x00 x00 x00)
(L (W x00 x00 x80 xbf x00 x00 x80 xbf)) E)))
(T (W x00 x00 x00 x00 x00 x00 x00 x00)
(T (W x00 x00 x80 x3f x00 x00 x80 x3f)
(T (W x00 x00 x00 x00 x00 x00 x00 x00)
(L (W xff xff xff xff xff xff xff xff))
(L (W xc1 x01 x00 x00 xff xff xff xff)))
(T (W x00 x00 x00 x00 x00 x00 x00 x00)
(L (W xff xff xff xff xff xff xff xff)) E))
(T (W xff xff xff xff x03 x00 x00 x00)
(T (W xff xff xff xff xff xff xff xff)
(L (W x6a x60 xfe xff x78 x00 x00 x00)) E)
(T (W x00 x00 x80 xbf x00 x00 x80 xbf)
(L (W xff xff xff xff xff xff xff xff)) E)))))
(T (W x18 x00 x00 x00 x0c x00 x00 x00)
(T (W xff xff xff xff x03 x00 x00 x00)
(T (W xff xff xff xff xff xff xff xff)
(T (W xff xff xff xff xff xff xff xff)
(T (W x00 x00 x00 x00 x00 x00 x00 x00)
(L (W x00 x00 x80 xbf x00 x00 x80 xbf))
(L (W x6a x90 xff xff x78 x00 x00 x00)))
(T (W x00 x00 x00 x00 x00 x00 x00 x00)
(L (W x00 x00 x00 x00 x00 x00 x00 x00)) E))
(T (W x00 x00 x00 x00 xfc x11 xfb xff)
(T (W x4b x00 x00 x00 xff xff xff xff)
(L (W x6c x00 x00 x00 x60 x00 x00 x00)) E)
(T (W x00 x00 x01 x01 x54 x01 x00 x00)
(L (W x00 x00 x00 x00 x00 x00 x00 x00)) E)))
(T (W x00 x00 x00 x00 x00 x00 x00 x00)
(T (W x45 x26 x22 x84 xe4 x9c xf2 xcb)
(T (W x30 x32 x5f x43 x4c x45 x41 x52)
(L (W xbc x00 x00 x00 x1e x00 x00 x00))
(L (W xff xff xff xff xff xff xff xff)))
(T (W x64 x5f x70 x6f x6b x65 x5f x77)
(L (W x21 x00 x00 x00 x24 x00 x00 x00)) E))
(T (W x46 x53 x59 x53 x5f x4e x53 x5f)
(T (W xff xff xff xff xff xff xff xff)
(L (W x00 x00 x80 xbf x00 x00 x80 xbf)) E)
(T (W x46 x53 x59 x53 x5f x4e x53 x5f)
(L (W xff xff xff xff xff xff xff xff)) E))))
(T (W xff xff xff xff xff xff xff xff)
(T (W x00 x00 x80 x3f x00 x00 x80 x3f)
(T (W x6c x00 x00 x00 x60 x00 x00 x00)
(T (W x00 x00 x00 x00 x00 x00 x00 x00)
(L (W x00 x00 x00 x00 x00 x00 x00 x00))
(L (W xbc x00 x00 x00 x1e x00 x00 x00)))
(T (W x8c xb3 xfc xff x00 x01 x01 x01)
(L (W x00 x00 x00 x00 x00 x00 x00 x00)) E))
(T (W xff xff xff xff xff xff xff xff)
(T (W x00 x00 x00 x00 x00 x00 x00 x00)
(L (W xff xff xff xff xff xff xff xff)) E)
(T (W x00 x00 x80 xbf x00 x00 x80 xbf)
(L (W x00 x00 x80 xbf x00 x00 x80 xbf)) E)))
(T (W x00 x00 x00 x00 x00 x00 x00 x00)
(T (W x00 x00 x00 x00 x00 x00 x00 x00)
(T (W x00 x00 x80 x3f x00 x00 x80 x3f)
(L (W x4f x84 x6f x8b xe8 xcb x63 xb7))
(L (W x49 xa1 x68 x4a xeb x5f xdd x3d)))
(T (W xff xff xff xff xff xff xff xff)
(L (W xff xff xff xff xff xff xff xff)) E))
(T (W x00 x00 x00 x00 x00 x00 x00 x00)
(T (W x00 x00 x80 x3f x00 x00 x80 x3f)
(L (W xff xff xff xff xff xff xff xff)) E)
(T (W x3c x00 x40 x00 x44 x00 x48 x00)
(L (W x00 x00 x00 x00 x12 x00 x00 x00)) E)))))))
(T (W x45 x26 x22 x84 xe4 x9c xf2 xcb)
(T (W xff xff xff xff x0d x00 x00 x00)
(T (W x24 x0d x00 x00 x10 x0c x00 x00)
(T (W x54 x00 x00 x00 x48 x00 x00 x00)
(T (W x00 x00 x00 x00 x00 x00 x00 x00)
(T (W xba x7a xfa xff x74 x00 x00 x00)
(T (W xb4 x8d xb1 x0f x51 xd5 x17 x8f)
(L (W x04 x00 x00 x00 x7a x83 xfd xff))
(L (W xff xff xff xff x9c x00 x00 x00)))
(T (W xff xff xff xff xff xff xff xff)
(L (W x00 x00 x80 xbf x00 x00 x80 xbf)) E))
(T (W x1c x00 x00 x00 xac x00 x00 x00)
(T (W x30 x32 x5f x43 x4c x45 x41 x52)
(L (W xff xff xff xff xff xff xff xff))
(L (W xff xff xff xff xff xff xff xff)))
(T (W x00 x00 x80 xbf x00 x00 x80 xbf)
(L (W x00 x00 x80 xbf x00 x00 x80 xbf)) E)))
(T (W xff xff xff xff xff xff xff xff)
(T (W x92 xc3 xfd xff x70 x00 x00 x00)
(T (W x00 x00 x00 x00 x00 x00 x00 x00)
(L (W xff xff xff xff xff xff xff xff))
(L (W x45 x26 x22 x84 xe4 x9c xf2 xcb)))
(T (W xff xff xff xff xff xff xff xff)
(L (W xff xff xff xff xff xff xff xff)) E))
(T (W xff xff xff xff x03 x00 x00 x00)
(T (W x18 x00 x00 x00 x10 x00 x00 x00)
(L (W x45 x26 x22 x84 xe4 x9c xf2 xcb)) E)
(T (W x00 x00 x00 x00 x00 x00 x00 x00)
(L (W x00 x00 x00 x00 x00 x00 x00 x00)) E))))
(T (W x00 x00 x00 x00 x00 x00 x00 x00)
(T (W xff xff xff xff xff xff xff xff)
(T (W x10 x00 x00 x00 x0c x00 x00 x00)
(T (W xff xff xff xff x01 x00 x00 x00)
(L (W x00 x00 x00 x00 x00 x00 x00 x00))
(L (W x00 x00 x00 x00 x00 x00 x00 x00)))
(T (W xd0 x00 x00 x00 xac x00 x00 x00)
(L (W x00 x00 x00 x00 xfc x9d xfe xff)) E))
(T (W xa5 x01 x00 x00 xff xff xff xff)
(T (W x8c x1f xfc xff x00 x01 x01 x01)
(L (W x49 xa1 x68 x4a xeb x5f xdd x3d)) E)
(T (W xff xff xff xff xff xff xff xff)
(L (W xff xff xff xff xff xff xff xff)) E)))
(T (W x18 x00 x00 x00 x0c x00 x00 x00)
(T (W xff xff xff xff xff xff xff xff)
(T (W xff xff xff xff xff xff xff xff)
(L (W x45 x26 x22 x84 xe4 x9c xf2 xcb))
(L (W x54 x00 x00 x00 x48 x00 x00 x00)))
(T (W xff xff xff xff xff xff xff xff)
(L (W x00 x00 x00 x00 x00 x00 x00 x00)) E))
(T (W x00 x00 x00 x00 x00 x00 x00 x00)
(T (W x00 x00 x80 x3f x00 x00 x80 x3f)
(L (W x06 x00 x00 x00 xc8 x05 x00 x00)) E)
(T (W xff xff xff xff xff xff xff xff)
(L (W x54 x00 x00 x00 x48 x00 x00 x00)) E)))))
(T (W x00 x00 x80 x3f x00 x00 x80 x3f)
(T (W x01 x00 x00 x00 xa0 x00 x00 x00)
(T (W x00 x00 x00 x00 x00 x00 x00 x00)
(T (W x00 x00 x80 x3f x00 x00 x80 x3f)
(T (W x00 x00 x00 x00 x00 x00 x00 x00)
(L (W xff xff xff xff xff xff xff xff))
(L (W xff xff xff xff xff xff xff xff)))
(T (W x64 x00 x00 x00 x9c x00 x00 x00)
(L (W x00 x00 x00 x00 xfc x8d xfe xff)) E))
(T (W x00 x00 x00 x00 x00 x00 x00 x00)
(T (W x4f x84 x6f x8b xe8 xcb x63 xb7)
(L (W x45 x44 x00 x00 x00 x00 x00 x00)) E)
(T (W xff xff xff xff xff xff xff xff)
(L (W x45 x26 x22 x84 xe4 x9c xf2 xcb)) E)))
(T (W xff xff xff xff x03 x00 x00 x00)
(T (W xff xff xff xff xff xff xff xff)
(T (W x68 x00 x00 x00 x5c x00 x00 x00)
(L (W x00 x00 x00 x00 x7a xd3 xfd xff))
(L (W x00 x00 x80 xbf x00 x00 x80 xbf)))
(T (W x5f x4e x53 x5f x30 x32 x5f x43)
(L (W x45 x44 x00 x00 x00 x00 x00 x00)) E))
(T (W x00 x00 x80 x3f x00 x00 x80 x3f)
(T (W x45 x26 x22 x84 xe4 x9c xf2 xcb)
(L (W xff xff xff xff xff xff xff xff)) E)
(T (W x00 x00 x80 xbf x00 x00 x80 xbf)
(L (W x45 x26 x22 x84 xe4 x9c xf2 xcb)) E))))
(T (W x00 x00 x00 x00 x00 x00 x00 x00)
(T (W xff xff xff xff xff xff xff xff)
(T (W xff xff xff xff xff xff xff xff)
(T (W x8c xaf xfb xff x00 x01 x01 x01)
(L (W xff xff xff xff xff xff xff xff))
(L (W x00 x00 x00 x00 x00 x00 x00 x00)))
(T (W x00 x00 x00 x00 x00 x00 x00 x00)
(L (W xff xff xff xff xff xff xff xff)) E))
(T (W x00 x00 x80 x3f x00 x00 x80 x3f)
(T (W xff xff xff xff xff xff xff xff)
(L (W x6c x00 x00 x00 x60 x00 x00 x00)) E)
(T (W xff xff xff xff xff xff xff xff)
(L (W xff xff xff xff xff xff xff xff)) E)))
(T (W x00 x00 x80 x3f x00 x00 x80 x3f)
(T (W x00 x00 x00 x00 xfc xed xfa xff)
(T (W xff xff xff xff xff xff xff xff)
(L (W xff xff xff xff xa0 x00 x00 x00))
(L (W x18 x00 x00 x00 x10 x00 x00 x00)))
(T (W xff xff xff xff xff xff xff xff)
(L (W x00 x00 x80 xbf x00 x00 x80 xbf)) E))
(T (W x00 x00 x80 x3f x00 x00 x80 x3f)
(T (W xff xff xff xff xff xff xff xff)
(L (W x00 x00 x80 xbf x00 x00 x80 xbf)) E)
(T (W x30 x32 x5f x43 x4c x45 x41 x52)
(L (W x50 x00 x00 x00 x44 x00 x00 x00)) E))))))
(T (W x18 x00 x00 x00 x0c x00 x00 x00)
(T (W xff xff xff xff xff xff xff xff)
(T (W x00 x00 x00 x00 x00 x00 x00 x00)
(T (W x00 x00 x00 x00 x00 x00 x00 x00)
(T (W x8c x87 xfa xff x00 x01 x01 x01)
(T (W x45 x44 x00 x00 x00 x00 x00 x00)
(L (W xff xff xff xff xff xff xff xff))
(L (W xff xff xff xff xff xff xff xff)))
(T (W xff xff xff xff xff xff xff xff)
(L (W x54 x00 x00 x00 x48 x00 x00 x00)) E))
(T (W xff xff xff xff xff xff xff xff)
(T (W x00 x00 x00 x00 x00 x00 x00 x00)
(L (W xff xff xff xff xff xff xff xff)) E)
(T (W x00 x00 x80 xbf x00 x00 x80 xbf)
(L (W x6a x04 xff xff x78 x00 x00 x00)) E)))
(T (W xff xff xff xff xff xff xff xff)
(T (W x1a xcd xfd xff x00 x00 x01 x01)
(T (W x00 x00 x80 x3f x00 x00 x80 x3f)
(L (W x30 x32 x5f x43 x4c x45 x41 x52))
(L (W x00 x00 x80 xbf x00 x00 x80 xbf)))
(T (W xff xff xff xff xff xff xff xff)
(L (W xff xff xff xff xff xff xff xff)) E))
(T (W x00 x00 x00 x00 x00 x00 x00 x00)
(T (W x46 x53 x59 x53 x5f x4e x53 x5f)
(L (W xff xff xff xff xa0 x00 x00 x00)) E)
(T (W x00 x00 x80 xbf x00 x00 x80 xbf)
(L (W x00 x00 x00 x00 x00 x00 x00 x00)) E))))
(T (W x00 x00 x00 x00 x00 x00 x00 x00)
(T (W xff xff xff xff xff xff xff xff)
(T (W x22 xb7 xfd xff x00 x00 x01 x01)
(T (W x00 x00 x00 x00 x00 x00 x00 x00)
(L (W x00 x00 x80 xbf x00 x00 x80 xbf))
(L (W xff xff xff xff xff xff xff xff)))
(T (W x3b xba x33 x97 x85 xa8 x5f x5f)
(L (W xff xff xff xff xff xff xff xff)) E))
(T (W x00 x00 x00 x00 x00 x00 x00 x00)
(T (W xba x22 xfc xff x74 x00 x00 x00)
(L (W x00 x00 x00 x00 x00 x00 x00 x00)) E)
(T (W xb0 x00 x00 x00 x64 x00 x00 x00)
(L (W xff xff xff xff xff xff xff xff)) E)))
(T (W xba x62 xfa xff x74 x00 x00 x00)
(T (W x64 x00 x00 x00 x9c x00 x00 x00)
(T (W xff xff xff xff xff xff xff xff)
(L (W x49 xa1 x68 x4a xeb x5f xdd x3d))
(L (W x8c xe7 xff xff x00 x01 x01 x01)))
(T (W x00 x00 x80 x3f x00 x00 x80 x3f)
(L (W x00 x00 x80 xbf x00 x00 x80 xbf)) E))
(T (W x00 x00 x80 x3f x00 x00 x80 x3f)
(T (W xff xff xff xff xff xff xff xff)
(L (W x00 x00 x00 x00 x00 x00 x00 x00)) E)
(T (W x00 x00 x01 x01 x53 x01 x00 x00)
(L (W x6a x64 xff xff x78 x00 x00 x00)) E)))))
(T (W xff xff xff xff xff xff xff xff)
(T (W x00 x00 x00 x00 x00 x00 x00 x00)
(T (W x00 x00 x80 x3f x00 x00 x80 x3f)
(T (W x00 x00 x80 x3f x00 x00 x80 x3f)
(T (W x8c x97 xfb xff x00 x01 x01 x01)
(L (W x72 xf4 xff xff x00 x00 x01 x01))
(L (W x14 xa5 xff xff x12 x00 x00 x00)))
(T (W x18 x00 x00 x00 x0c x00 x00 x00)
(L (W x6a x94 xfe xff x78 x00 x00 x00)) E))
(T (W xff xff xff xff xff xff xff xff)
(T (W x00 x00 x80 x3f x00 x00 x80 x3f)
(L (W x00 x00 x00 x00 x00 x00 x00 x00)) E)
(T (W xff xff xff xff x9c x00 x00 x00)
(L (W xff xff xff xff xff xff xff xff)) E)))
(T (W xff xff xff xff xff xff xff xff)
(T (W xff xff xff xff xff xff xff xff)
(T (W x00 x00 x80 x3f x00 x00 x80 x3f)
(L (W x00 x00 x00 x00 x00 x00 x00 x00))
(L (W x00 x00 x80 xbf x00 x00 x80 xbf)))
(T (W xbc x00 x00 x00 x05 x00 x00 x00)
(L (W x00 x00 x00 x00 x00 x00 x00 x00)) E))
(T (W xff xff xff xff xff xff xff xff)
(T (W x00 x00 x80 x3f x00 x00 x80 x3f)
(L (W x2a x00 x00 x00 xff xff xff xff)) E)
(T (W xc4 x00 x00 x00 x02 x00 x00 x00)
(L (W x00 x00 x80 xbf x00 x00 x80 xbf)) E))))
(T (W x00 x00 x00 x00 x00 x00 x00 x00)
(T (W xff xff xff xff xff xff xff xff)
(T (W x70 x00 x00 x00 xff xff xff xff)
(T (W xff xff xff xff xff xff xff xff)
(L (W x45 x26 x22 x84 xe4 x9c xf2 xcb))
(L (W x46 x53 x59 x53 x5f x4e x53 x5f)))
(T (W x00 x00 x00 x00 x02 x00 x00 x00)
(L (W xff xff xff xff xff xff xff xff)) E))
(T (W x68 x00 x00 x00 x5c x00 x00 x00)
(T (W x00 x00 x00 x00 x00 x00 x00 x00)
(L (W x00 x00 x80 xbf x00 x00 x80 xbf)) E)
(T (W x00 x00 x00 x00 x00 x00 x00 x00)
(L (W x00 x00 x00 x00 xea x39 xff xff)) E)))
(T (W x68 x00 x00 x00 x5c x00 x00 x00)
(T (W x22 x07 xfe xff x00 x00 x01 x01)
(T (W x39 x34 xa4 xf1 x93 x26 x82 x3c)
(L (W xff xff xff xff xff xff xff xff))
(L (W xff xff xff xff xff xff xff xff)))
(T (W x00 x00 x80 x3f x00 x00 x80 x3f)
(L (W x00 x00 x80 xbf x00 x00 x80 xbf)) E))
(T (W xff xff xff xff x9c x00 x00 x00)
(T (W x18 x00 x00 x00 x10 x00 x00 x00)
(L (W x00 x00 x80 xbf x00 x00 x80 xbf)) E)
(T (W x00 x00 x00 x00 x00 x00 x00 x00)
(L (W x45 x26 x22 x84 xe4 x9c xf2 xcb)) E)))))))))
(T (W xb8 xb9 x02 x00 x3c xb7 x02 x00)
(T (W xb0 xf2 x00 x00 x7c xf1 x00 x00)
(T (W xff xff xff xff xff xff xff xff)
(T (W x6c x00 x00 x00 x60 x00 x00 x00)
(T (W xff xff xff xff xff xff xff xff)
(T (W x00 x00 x00 x00 x00 x00 x00 x00)
(T (W x00 x00 x80 x3f x00 x00 x80 x3f)
(T (W xff xff xff xff xff xff xff xff)
(T (W x45 x26 x22 x84 xe4 x9c xf2 xcb)
(L (W x00 x00 x80 xbf x00 x00 x80 xbf))
(L (W x00 x00 x00 x00 x12 x00 x00 x00)))
(T (W x00 x00 x80 x3f x00 x00 x80 x3f)
(L (W xff xff xff xff xff xff xff xff)) E))
(T (W x45 x26 x22 x84 xe4 x9c xf2 xcb)
(T (W x00 x00 x80 x3f x00 x00 x80 x3f)
(L (W x46 x53 x59 x53 x5f x4e x53 x5f))
(L (W x00 x00 x00 x00 x12 x00 x00 x00)))
(T (W x00 x00 x00 x00 x1c x00 x20 x00)
(L (W xff xff xff xff xff xff xff xff)) E)))
(T (W x00 x00 x00 x00 x00 x00 x00 x00)
(T (W x00 x00 x00 x00 x00 x00 x00 x00)
(T (W x00 x00 x80 x3f x00 x00 x80 x3f)
(L (W x00 x00 x80 xbf x00 x00 x80 xbf))
(L (W x6a xb7 xff xff x78 x00 x00 x00)))
(T (W x00 x00 x80 x3f x00 x00 x80 x3f)
(L (W x00 x00 x00 x00 x00 x00 x00 x00)) E))
(T (W xff xff xff xff xff xff xff xff)
(T (W x00 x00 x80 x3f x00 x00 x80 x3f)
(L (W xff xff xff xff xff xff xff xff)) E)
(T (W x00 x00 x80 xbf x00 x00 x80 xbf)
(L (W x45 x26 x22 x84 xe4 x9c xf2 xcb)) E))))
(T (W x00 x00 x80 x3f x00 x00 x80 x3f)
(T (W xff xff xff xff xff xff xff xff)
(T (W x00 x00 x00 x00 x00 x00 x00 x00)
(T (W x5f x4e x53 x5f x30 x32 x5f x43)
(L (W x00 x00 x80 xbf x00 x00 x80 xbf))
(L (W x6c x00 x00 x00 x60 x00 x00 x00)))
(T (W xff xff xff xff xff xff xff xff)
(L (W x00 x00 x00 x00 x00 x00 x00 x00)) E))
(T (W x5f x4e x53 x5f x30 x32 x5f x43)
(T (W xff xff xff xff xff xff xff xff)
(L (W x6a x17 xfe xff x78 x00 x00 x00)) E)
(T (W x00 x00 x80 xbf x00 x00 x80 xbf)
(L (W x00 x00 x00 x00 x00 x00 x00 x00)) E)))
(T (W x00 x00 x00 x00 x00 x00 x00 x00)
(T (W x45 x26 x22 x84 xe4 x9c xf2 xcb)
(T (W x30 x32 x5f x43 x4c x45 x41 x52)
(L (W x68 x00 x00 x00 x5c x00 x00 x00))
(L (W xff xff xff xff xff xff xff xff)))
(T (W x00 x00 x00 x00 x00 x00 x00 x00)
(L (W x54 x00 x00 x00 x48 x00 x00 x00)) E))
(T (W x00 x00 x00 x00 x00 x00 x00 x00)
(T (W xb0 x00 x00 x00 x64 x00 x00 x00)
(L (W x00 x00 x80 xbf x00 x00 x80 xbf)) E)
(T (W x00 x00 x00 x00 x00 x00 x00 x00)
(L (W xff xff xff xff xc8 x00 x00 x00)) E)))))
(T (W x00 x00 x01 x01 xc9 x00 x00 x00)
(T (W x45 x26 x22 x84 xe4 x9c xf2 xcb)
(T (W xba x05 xfa xff x74 x00 x00 x00)
(T (W xff xff xff xff xff xff xff xff)
(T (W xb8 x00 x00 x00 x14 x00 x00 x00)
(L (W x00 x00 x00 x00 x00 x00 x00 x00))
(L (W x00 x00 x00 x00 x00 x00 x00 x00)))
(T (W x00 x00 x00 x00 x00 x00 x00 x00)
(L (W xff xff xff xff xff xff xff xff)) E))
(T (W x00 x00 x80 x3f x00 x00 x80 x3f)
(T (W x45 x26 x22 x84 xe4 x9c xf2 xcb)
(L (W x4f x84 x6f x8b xe8 xcb x63 xb7)) E)
(T (W x00 x00 x00 x00 x01 x00 x00 x00)
(L (W x54 x02 x00 x00 x38 x01 x00 x00)) E)))
(T (W x00 x00 x00 x00 x00 x00 x00 x00)
(T (W x00 x00 x00 x00 x00 x00 x00 x00)
(T (W xff xff xff xff xff xff xff xff)
(L (W x00 x00 x80 xbf x00 x00 x80 xbf))
(L (W x18 x00 x00 x00 x10 x00 x00 x00)))
(T (W x06 x00 x00 x00 x20 x00 x24 x00)
(L (W x00 x00 x80 xbf x00 x00 x80 xbf)) E))
(T (W x00 x00 x80 x3f x00 x00 x80 x3f)
(T (W x45 x26 x22 x84 xe4 x9c xf2 xcb)
(L (W x00 x00 x00 x00 x7a x4e xfe xff)) E)
(T (W xff xff xff xff x9c x00 x00 x00)
(L (W x00 x00 x00 x00 xfc x48 xff xff)) E))))
(T (W x3e x00 x00 x00 xa0 x00 x00 x00)
(T (W x45 x26 x22 x84 xe4 x9c xf2 xcb)
(T (W x00 x00 x80 x3f x00 x00 x80 x3f)
(T (W xff xff xff xff xff xff xff xff)
(L (W x68 x00 x00 x00 x5c x00 x00 x00))
(L (W x00 x00 x80 xbf x00 x00 x80 xbf)))
(T (W x00 x00 x80 x3f x00 x00 x80 x3f)
(L (W x45 x44 x00 x00 x00 x00 x00 x00)) E))
(T (W x6c x00 x00 x00 x60 x00 x00 x00)
(T (W x00 x00 x00 x00 x00 x00 x00 x00)
(L (W xff xff xff xff xff xff xff xff)) E)
(T (W x00 x00 x00 x00 x00 x00 x00 x00)
(L (W x00 x00 x00 x00 x00 x00 x00 x00)) E)))
(T (W x00 x00 x00 x00 xca x76 xff xff)
(T (W x00 x00 x00 x00 x00 x00 x00 x00)
(T (W x00 x00 x00 x00 x00 x00 x00 x00)
(L (W x00 x00 x00 x00 x00 x00 x00 x00))
(L (W xff xff xff xff xff xff xff xff)))
(T (W x00 x00 x00 x00 x00 x00 x00 x00)
(L (W xff xff xff xff xb0 x00 x00 x00)) E))
(T (W xff xff xff xff xff xff xff xff)
(T (W x00 x00 x80 x3f x00 x00 x80 x3f)
(L (W x6c x00 x00 x00 x60 x00 x00 x00)) E)
(T (W x00 x00 x80 xbf x00 x00 x80 xbf)
(L (W xff xff xff xff xff xff xff xff)) E))))))
(T (W x00 x00 x00 x00 x00 x00 x00 x00)
(T (W x00 x00 x80 x3f x00 x00 x80 x3f)
(T (W xff xff xff xff x03 x00 x00 x00)
(T (W x68 x00 x00 x00 x5c x00 x00 x00)
(T (W xff xff xff xff xff xff xff xff)
(T (W x6a x7f xfb xff x78 x00 x00 x00)
(L (W x00 x00 x80 xbf x00 x00 x80 xbf))
(L (W x00 x00 x00 x00 x00 x00 x00 x00)))
(T (W x00 x00 x00 x00 x00 x00 x00 x00)
(L (W xff xff xff xff xff xff xff xff)) E))
(T (W x00 x00 x00 x00 x00 x00 x00 x00)
(T (W x00 x00 x00 x00 xfc x00 xfc xff)
(L (W x00 x00 x00 x00 x00 x00 x00 x00))
(L (W x00 x00 x60 x00 x00 x00 x00 x00)))
(T (W x00 x00 x00 x00 x00 x00 x00 x00)
(L (W xff xff xff xff xff xff xff xff)) E)))
(T (W x00 x00 x00 x00 x00 x00 x00 x00)
(T (W x00 x00 x00 x00 x00 x00 x00 x00)
(T (W x18 x00 x00 x00 x0c x00 x00 x00)
(L (W x45 x26 x22 x84 xe4 x9c xf2 xcb))
(L (W x45 x26 x22 x84 xe4 x9c xf2 xcb)))
(T (W x00 x00 x00 x00 x00 x00 x00 x00)
(L (W x45 x26 x22 x84 xe4 x9c xf2 xcb)) E))
(T (W x00 x00 x00 x00 x12 x00 x00 x00)
(T (W x00 x00 x80 x3f x00 x00 x80 x3f)
(L (W xff xff xff xff xff xff xff xff)) E)
(T (W x18 x00 x00 x00 x0c x00 x00 x00)
(L (W x00 x00 x80 xbf x00 x00 x80 xbf)) E))))
(T (W x6a xdf xf9 xff x78 x00 x00 x00)
(T (W x45 x26 x22 x84 xe4 x9c xf2 xcb)
(T (W x00 x00 x80 x3f x00 x00 x80 x3f)
(T (W x00 x00 x80 x3f x00 x00 x80 x3f)
(L (W x00 x00 x80 xbf x00 x00 x80 xbf))
(L (W x74 x00 x00 x00 x68 x00 x00 x00)))
(T (W x00 x00 x00 x00 x00 x00 x00 x00)
(L (W x00 x00 x00 x00 x5a xa0 xfe xff)) E))
(T (W x00 x00 x00 x00 x00 x00 x00 x00)
(T (W xff xff xff xff xff xff xff xff)
(L (W x15 x00 x00 x00 x18 x00 x00 x00)) E)
(T (W x00 x00 x00 x00 x00 x00 x00 x00)
(L (W x00 x00 x80 xbf x00 x00 x80 xbf)) E)))
(T (W x3e x00 x00 x00 x10 x00 x00 x00)
(T (W x00 x00 x00 x00 x00 x00 x00 x00)
(T (W x00 x00 x00 x00 x00 x00 x00 x00)
(L (W xcc x00 x00 x00 x02 x00 x00 x00))
(L (W xff xff xff xff xff xff xff xff)))
(T (W x00 x00 x00 x00 x12 x00 x00 x00)
(L (W x68 x00 x00 x00 x5c x00 x00 x00)) E))
(T (W x00 x00 x80 x3f x00 x00 x80 x3f)
(T (W xff xff xff xff xff xff xff xff)
(L (W x00 x00 x80 xbf x00 x00 x80 xbf)) E)
(T (W x00 x00 x00 x00 x00 x00 x00 x00)
(L (W xff xff xff xff xff xff xff xff)) E)))))
(T (W x6a xaf xf9 xff x78 x00 x00 x00)
(T (W xff xff xff xff xff xff xff xff)
(T (W xff xff xff xff xff xff xff xff)
(T (W xff xff xff xff xff xff xff xff)
(T (W xff xff xff xff xff xff xff xff)
(L (W x49 xa1 x68 x4a xeb x5f xdd x3d))
(L (W x00 x00 x80 xbf x00 x00 x80 xbf)))
(T (W x1d x00 x00 x00 x10 x00 x00 x00)
(L (W xff xff xff xff xff xff xff xff)) E))
(T (W x00 x00 x80 x3f x00 x00 x80 x3f)
(T (W xb0 x00 x00 x00 x28 x00 x00 x00)
(L (W x00 x00 x80 xbf x00 x00 x80 xbf)) E)
(T (W xff xff xff xff xff xff xff xff)
(L (W x00 x00 x00 x00 xea x14 xff xff)) E)))
(T (W x00 x00 x00 x00 x00 x00 x00 x00)
(T (W x00 x00 x00 x00 x00 x00 x00 x00)
(T (W x4b x00 x00 x00 xff xff xff xff)
(L (W x8c xd2 xfd xff x00 x01 x01 x01))
(L (W x03 x00 x00 x00 xd0 x00 x00 x00)))
(T (W xff xff xff xff xff xff xff xff)
(L (W x6a xcf xfe xff x78 x00 x00 x00)) E))
(T (W x1a x58 xfe xff x00 x00 x01 x01)
(T (W x01 x00 x00 x00 x19 x00 x00 x00)
(L (W x00 x00 x00 x00 x00 x00 x00 x00)) E)
(T (W x04 x00 x00 x00 x5a x50 xfd xff)
(L (W x18 x00 x00 x00 x0c x00 x00 x00)) E))))
(T (W xba xed xf9 xff x74 x00 x00 x00)
(T (W x00 x00 x80 x3f x00 x00 x80 x3f)
(T (W x00 x00 x80 x3f x00 x00 x80 x3f)
(T (W x00 x00 x00 x00 x00 x00 x00 x00)
(L (W x22 xf1 xff xff xc9 x00 x00 x00))
(L (W x8c xb2 xff xff x00 x01 x01 x01)))
(T (W x00 x00 x80 x3f x00 x00 x80 x3f)
(L (W x00 x00 x00 x00 x00 x00 x00 x00)) E))
(T (W xff xff xff xff xff xff xff xff)
(T (W x00 x00 x00 x00 x12 x00 x00 x00)
(L (W xff xff xff xff xff xff xff xff)) E)
(T (W x4f x84 x6f x8b xe8 xcb x63 xb7)
(L (W x00 x00 x00 x00 x00 x00 x00 x00)) E)))
(T (W x1c x01 x00 x00 x04 x00 x00 x00)
(T (W xbc xf6 xfa xff x3e x00 x00 x00)
(T (W x00 x00 x80 x3f x00 x00 x80 x3f)
(L (W xca x2e x3c xdc x00 x69 x4b x2f))
(L (W x0e x00 x00 x00 x0c x00 x00 x00)))
(T (W xff xff xff xff xff xff xff xff)
(L (W xff xff xff xff xff xff xff xff)) E))
(T (W x00 x00 x00 x00 x00 x00 x00 x00)
(T (W x00 x00 x00 x00 x00 x00 x00 x00)
(L (W x17 x00 x00 x00 x1a x00 x00 x00)) E)
(T (W x50 x00 x00 x00 x44 x00 x00 x00)
(L (W x00 x00 x00 x00 x00 x00 x00 x00)) E)))))))
(T (W x00 x00 x00 x00 x00 x00 x00 x00)
(T (W xff xff xff xff xff xff xff xff)
(T (W x00 x00 x00 x00 x00 x00 x00 x00)
(T (W x00 x00 x80 x3f x00 x00 x80 x3f)
(T (W x00 x00 x00 x00 x00 x00 x00 x00)
(T (W x50 x00 x00 x00 x44 x00 x00 x00)
(T (W xff xff xff xff xff xff xff xff)
(L (W xff xff xff xff xff xff xff xff))
(L (W x6a x7b xff xff x78 x00 x00 x00)))
(T (W xff xff xff xff xff xff xff xff)
(L (W x00 x00 x00 x00 x00 x00 x00 x00)) E))
(T (W x45 x26 x22 x84 xe4 x9c xf2 xcb)
(T (W x22 x0e xff xff x00 x00 x01 x01)
(L (W x03 x00 x00 x00 xd0 x00 x00 x00))
(L (W x6c x00 x00 x00 x60 x00 x00 x00)))
(T (W x00 x00 x00 x00 x26 x00 x00 x00)
(L (W x45 x26 x22 x84 xe4 x9c xf2 xcb)) E)))
(T (W xff xff xff xff xff xff xff xff)
(T (W xff xff xff xff xff xff xff xff)
(T (W x00 x00 x00 x00 x00 x00 x00 x00)
(L (W xb0 x00 x00 x00 x64 x00 x00 x00))
(L (W x00 x00 x00 x00 x00 x00 x00 x00)))
(T (W xff xff xff xff xff xff xff xff)
(L (W x03 x00 x00 x00 xd0 x00 x00 x00)) E))
(T (W x6c x00 x00 x00 x60 x00 x00 x00)
(T (W xff xff xff xff xff xff xff xff)
(L (W x6c x00 x00 x00 x60 x00 x00 x00)) E)
(T (W x00 x00 x00 x00 x00 x00 x00 x00)
(L (W x5d x00 x00 x00 xff xff xff xff)) E))))
(T (W x3a x40 x23 xde x87 x68 x31 xc9)
(T (W x45 x26 x22 x84 xe4 x9c xf2 xcb)
(T (W xff xff xff xff xff xff xff xff)
(T (W xff xff xff xff xff xff xff xff)
(L (W x05 x00 x00 x00 xff xff xff xff))
(L (W x16 x00 x00 x00 x0c x00 x00 x00)))
(T (W x01 x00 x00 x00 x9c x00 x00 x00)
(L (W x00 x00 x80 xbf x00 x00 x80 xbf)) E))
(T (W xff xff xff xff xff xff xff xff)
(T (W x00 x00 x80 x3f x00 x00 x80 x3f)
(L (W x17 x00 x00 x00 x0c x00 x00 x00)) E)
(T (W xba x19 xfd xff x74 x00 x00 x00)
(L (W xbc x00 x00 x00 x32 x00 x00 x00)) E)))
(T (W x00 x00 x80 x3f x00 x00 x80 x3f)
(T (W x8c xde xfa xff x00 x01 x01 x01)
(T (W x01 x00 x00 x00 x29 x00 x00 x00)
(L (W x00 x00 x00 x00 x00 x00 x00 x00))
(L (W x00 x00 x80 xbf x00 x00 x80 xbf)))
(T (W x1e x00 x00 x00 x21 x00 x00 x00)
(L (W x00 x00 x00 x00 x00 x00 x00 x00)) E))
(T (W xff xff xff xff xff xff xff xff)
(T (W x00 x00 x80 x3f x00 x00 x80 x3f)
(L (W xff xff xff xff xff xff xff xff)) E)
(T (W x03 x00 x00 x00 xd8 x00 x00 x00)
(L (W x00 x00 x80 xbf x00 x00 x80 xbf)) E)))))
(T (W x45 x26 x22 x84 xe4 x9c xf2 xcb)
(T (W x00 x00 x00 x00 xfc xcc xf9 xff)
(T (W x22 x1e xfd xff x00 x00 x01 x01)
(T (W x00 x00 x80 x3f x00 x00 x80 x3f)
(T (W x30 x32 x5f x43 x4c x45 x41 x52)
(L (W xff xff xff xff xff xff xff xff))
(L (W xff xff xff xff xff xff xff xff)))
(T (W x18 x00 x00 x00 x0c x00 x00 x00)
(L (W x00 x00 x80 xbf x00 x00 x80 xbf)) E))
(T (W x00 x00 x00 x00 xea x10 xfb xff)
(T (W x00 x00 x00 x00 x00 x00 x00 x00)
(L (W xff xff xff xff xff xff xff xff)) E)
(T (W x03 x00 x00 x00 xbc x00 x00 x00)
(L (W x54 x00 x00 x00 x48 x00 x00 x00)) E)))
(T (W x01 x00 x00 x00 xa0 x00 x00 x00)
(T (W xff xff xff xff xff xff xff xff)
(T (W x00 x00 x80 x3f x00 x00 x80 x3f)
(L (W xff xff xff xff xff xff xff xff))
(L (W x4f x84 x6f x8b xe8 xcb x63 xb7)))
(T (W x9d x00 x00 x00 xff xff xff xff)
(L (W xff xff xff xff xff xff xff xff)) E))
(T (W x4f x84 x6f x8b xe8 xcb x63 xb7)
(T (W x00 x00 x00 x00 x12 x00 x00 x00)
(L (W xbc x00 x00 x00 x1e x00 x00 x00)) E)
(T (W x49 xa1 x68 x4a xeb x5f xdd x3d)
(L (W x00 x00 x00 x00 x00 x00 x00 x00)) E))))
(T (W x00 x00 x00 x00 x01 x00 x00 x00)
(T (W xff xff xff xff x04 x00 x00 x00)
(T (W xff xff xff xff xff xff xff xff)
(T (W x00 x00 x80 x3f x00 x00 x80 x3f)
(L (W xff xff xff xff xff xff xff xff))
(L (W x00 x00 x00 x00 x00 x00 x00 x00)))
(T (W x00 x00 x00 x00 x02 x00 x00 x00)
(L (W x18 x00 x00 x00 x0c x00 x00 x00)) E))
(T (W x00 x00 x00 x00 x00 x00 x00 x00)
(T (W x00 x00 x80 x3f x00 x00 x80 x3f)
(L (W x00 x00 x00 x00 x00 x00 x00 x00)) E)
(T (W xff xff xff xff xc0 x00 x00 x00)
(L (W xff xff xff xff xff xff xff xff)) E)))
(T (W x00 x00 x80 x3f x00 x00 x80 x3f)
(T (W xba xe9 xfa xff x74 x00 x00 x00)
(T (W xff xff xff xff x03 x00 x00 x00)
(L (W x6c x00 x00 x00 x60 x00 x00 x00))
(L (W x6c x00 x00 x00 x60 x00 x00 x00)))
(T (W x01 x00 x00 x00 x1e x00 x00 x00)
(L (W x00 x00 x80 xbf x00 x00 x80 xbf)) E))
(T (W x00 x00 x80 x3f x00 x00 x80 x3f)
(T (W xff xff xff xff xff xff xff xff)
(L (W x00 x00 x00 x00 x00 x00 x00 x00)) E)
(T (W x00 x00 x01 x01 x53 x01 x00 x00)
(L (W x00 x00 x80 xbf x00 x00 x80 xbf)) E))))))
(T (W x6a x93 xf9 xff x78 x00 x00 x00)
(T (W xbc x00 x00 x00 xb0 x00 x00 x00)
(T (W x00 x00 x00 x00 xaa x5f xfd xff)
(T (W x40 x00 x00 x00 x10 x00 x00 x00)
(T (W x00 x00 x80 x3f x00 x00 x80 x3f)
(T (W xff xff xff xff xff xff xff xff)
(L (W xc0 x00 x00 x00 x01 x00 x00 x00))
(L (W x18 x00 x00 x00 x10 x00 x00 x00)))
(T (W x64 x00 x00 x00 x9c x00 x00 x00)
(L (W x00 x00 x00 x00 x00 x00 x00 x00)) E))
(T (W xff xff xff xff xff xff xff xff)
(T (W x46 x53 x59 x53 x5f x4e x53 x5f)
(L (W xff xff xff xff xff xff xff xff)) E)
(T (W x00 x00 x00 x00 x00 x00 x00 x00)
(L (W x00 x00 x80 xbf x00 x00 x80 xbf)) E)))
(T (W x18 x00 x00 x00 x10 x00 x00 x00)
(T (W xff xff xff xff xff xff xff xff)
(T (W x00 x00 x00 x00 x00 x00 x00 x00)
(L (W xff xff xff xff xff xff xff xff))
(L (W x00 x00 x00 x00 x00 x00 x00 x00)))
(T (W x45 x26 x22 x84 xe4 x9c xf2 xcb)
(L (W xff xff xff xff xff xff xff xff)) E))
(T (W xff xff xff xff x01 x00 x00 x00)
(T (W x00 x00 x00 x00 x00 x00 x00 x00)
(L (W x6a x43 xfe xff x78 x00 x00 x00)) E)
(T (W x45 x26 x22 x84 xe4 x9c xf2 xcb)
(L (W x00 x00 x00 x00 x00 x00 x00 x00)) E))))
(T (W x27 x00 x00 x00 x0c x00 x00 x00)
(T (W xff xff xff xff xff xff xff xff)
(T (W xff xff xff xff xff xff xff xff)
(T (W x30 x32 x5f x43 x4c x45 x41 x52)
(L (W x45 x26 x22 x84 xe4 x9c xf2 xcb))
(L (W xc4 x00 x00 x00 x02 x00 x00 x00)))
(T (W xff xff xff xff xff xff xff xff)
(L (W xff xff xff xff xa0 x00 x00 x00)) E))
(T (W x00 x00 x00 x00 xea x28 xfb xff)
(T (W x00 x00 x80 x3f x00 x00 x80 x3f)
(L (W x00 x00 x00 x00 x12 x00 x00 x00)) E)
(T (W x8c x26 xfd xff x00 x01 x01 x01)
(L (W x03 x00 x00 x00 xd0 x00 x00 x00)) E)))
(T (W x00 x00 x80 x3f x00 x00 x80 x3f)
(T (W x50 x00 x00 x00 x44 x00 x00 x00)
(T (W x45 x26 x22 x84 xe4 x9c xf2 xcb)
(L (W x00 x00 x00 x00 x00 x00 x00 x00))
(L (W x54 x00 x00 x00 x48 x00 x00 x00)))
(T (W x00 x00 x00 x00 x00 x00 x00 x00)
(L (W x00 x00 x00 x00 x00 x00 x00 x00)) E))
(T (W x00 x00 x00 x00 x00 x00 x00 x00)
(T (W x00 x00 x00 x00 x00 x00 x00 x00)
(L (W x94 x04 x00 x00 x80 x03 x00 x00)) E)
(T (W xff xff xff xff xff xff xff xff)
(L (W x00 x00 x00 x00 x00 x00 x00 x00)) E)))))
(T (W xff xff xff xff xff xff xff xff)
(T (W x00 x00 x00 x00 x00 x00 x00 x00)
(T (W x00 x00 x00 x00 x00 x00 x00 x00)
(T (W x45 x26 x22 x84 xe4 x9c xf2 xcb)
(T (W x68 x00 x00 x00 x5c x00 x00 x00)
(L (W xff xff xff xff xff xff xff xff))
(L (W xff xff xff xff xff xff xff xff)))
(T (W x00 x00 x80 x3f x00 x00 x80 x3f)
(L (W x00 x00 x80 xbf x00 x00 x80 xbf)) E))
(T (W x00 x00 x00 x00 x00 x00 x00 x00)
(T (W x4f x84 x6f x8b xe8 xcb x63 xb7)
(L (W x45 x44 x00 x00 x00 x00 x00 x00)) E)
(T (W x40 x00 x00 x00 x00 x00 x80 xbf)
(L (W xcc x00 x00 x00 x02 x00 x00 x00)) E)))
(T (W xba x51 xfa xff x74 x00 x00 x00)
(T (W x64 x00 x00 x00 x9c x00 x00 x00)
(T (W x00 x00 x80 x3f x00 x00 x80 x3f)
(L (W x00 x00 x00 x00 x00 x00 x00 x00))
(L (W x00 x00 x80 xbf x00 x00 x80 xbf)))
(T (W x8c xd6 xfc xff x00 x01 x01 x01)
(L (W x00 x00 x00 x00 x00 x00 x00 x00)) E))
(T (W x00 x00 x80 x3f x00 x00 x80 x3f)
(T (W x00 x00 x00 x00 x00 x00 x00 x00)
(L (W xff xff xff xff xff xff xff xff)) E)
(T (W x45 x26 x22 x84 xe4 x9c xf2 xcb)
(L (W x45 x26 x22 x84 xe4 x9c xf2 xcb)) E))))
(T (W x00 x00 x00 x00 x00 x00 x00 x00)
(T (W x18 x00 x00 x00 x0c x00 x00 x00)
(T (W xff xff xff xff xff xff xff xff)
(T (W xff xff xff xff x03 x00 x00 x00)
(L (W x00 x00 x00 x00 x00 x00 x00 x00))
(L (W x00 x00 x00 x00 x5a xb4 xff xff)))
(T (W xff xff xff xff xff xff xff xff)
(L (W x29 x00 x00 x00 x2c x00 x00 x00)) E))
(T (W x00 x00 x80 x3f x00 x00 x80 x3f)
(T (W xff xff xff xff xff xff xff xff)
(L (W x00 x00 x80 xbf x00 x00 x80 xbf)) E)
(T (W xff xff xff xff xff xff xff xff)
(L (W xff xff xff xff xff xff xff xff)) E)))
(T (W x00 x00 x80 x3f x00 x00 x80 x3f)
(T (W xff xff xff xff xff xff xff xff)
(T (W xff xff xff xff xc4 x00 x00 x00)
(L (W xff xff xff xff xa0 x00 x00 x00))
(L (W x15 x00 x00 x00 x18 x00 x00 x00)))
(T (W x49 xa1 x68 x4a xeb x5f xdd x3d)
(L (W x49 xa1 x68 x4a xeb x5f xdd x3d)) E))
(T (W x6a x73 xfb xff x78 x00 x00 x00)
(T (W xd0 x00 x00 x00 xac x00 x00 x00)
(L (W x00 x00 x00 x00 x00 x00 x00 x00)) E)
(T (W xff xff xff xff xff xff xff xff)
(L (W x54 x00 x00 x00 x48 x00 x00 x00)) E))))))))
(T (W x64 x00 x00 x00 xa0 x00 x00 x00)
(T (W x00 x00 x00 x00 xaa x1d xfd xff)
(T (W xbc x00 x00 x00 xb0 x00 x00 x00)
(T (W x00 x00 x00 x00 x00 x00 x00 x00)
(T (W x45 x26 x22 x84 xe4 x9c xf2 xcb)
(T (W xff xff xff xff xff xff xff xff)
(T (W x00 x00 x00 x00 x00 x00 x00 x00)
(T (W x00 x00 x80 x3f x00 x00 x80 x3f)
(L (W x00 x00 x00 x00 xfc x7a xfd xff))
(L (W x00 x00 x80 xbf x00 x00 x80 xbf)))
(T (W x18 x00 x00 x00 x0c x00 x00 x00)
(L (W x00 x00 x00 x00 x00 x00 x00 x00)) E))
(T (W x16 x00 x00 x00 x10 x00 x00 x00)
(T (W xff xff xff xff xff xff xff xff)
(L (W x54 x00 x00 x00 x48 x00 x00 x00))
(L (W xff xff xff xff xff xff xff xff)))
(T (W xff xff xff xff xff xff xff xff)
(L (W x00 x00 x00 x00 x00 x00 x00 x00)) E)))
(T (W x54 x00 x00 x00 x48 x00 x00 x00)
(T (W x45 x26 x22 x84 xe4 x9c xf2 xcb)
(T (W x18 x00 x00 x00 x10 x00 x00 x00)
(L (W x00 x00 x00 x00 xfc xba xfd xff))
(L (W xff xff xff xff xff xff xff xff)))
(T (W x8c xbc xfc xff x00 x01 x01 x01)
(L (W x6c x00 x00 x00 x60 x00 x00 x00)) E))
(T (W x00 x00 x00 x00 x00 x00 x00 x00)
(T (W xb8 x00 x00 x00 x28 x00 x00 x00)
(L (W x00 x00 x00 x00 x00 x00 x00 x00)) E)
(T (W xff xff xff xff xbc x00 x00 x00)
(L (W xba x37 xff xff x74 x00 x00 x00)) E))))
(T (W x64 x00 x00 x00 x9c x00 x00 x00)
(T (W x00 x00 x00 x00 x00 x00 x00 x00)
(T (W xb8 x00 x00 x00 xac x00 x00 x00)
(T (W x00 x00 x80 x3f x00 x00 x80 x3f)
(L (W xff xff xff xff xac x00 x00 x00))
(L (W x03 x00 x00 x00 xd8 x00 x00 x00)))
(T (W x00 x00 x00 x00 x00 x00 x00 x00)
(L (W x00 x00 x00 x00 x00 x00 x00 x00)) E))
(T (W x54 x00 x00 x00 x48 x00 x00 x00)
(T (W x00 x00 x00 x00 x00 x00 x00 x00)
(L (W xff xff xff xff xff xff xff xff)) E)
(T (W x2c x00 x30 x00 x34 x00 x38 x00)
(L (W x00 x00 x80 xbf x00 x00 x80 xbf)) E)))
(T (W x45 x26 x22 x84 xe4 x9c xf2 xcb)
(T (W x00 x00 x80 x3f x00 x00 x80 x3f)
(T (W x4f x84 x6f x8b xe8 xcb x63 xb7)
(L (W xff xff xff xff xff xff xff xff))
(L (W x00 x00 x00 x00 x00 x00 x00 x00)))
(T (W x45 x26 x22 x84 xe4 x9c xf2 xcb)
(L (W xff xff xff xff xff xff xff xff)) E))
(T (W x00 x00 x80 x3f x00 x00 x80 x3f)
(T (W xff xff xff xff xff xff xff xff)
(L (W x00 x00 x00 x00 xfc x5a xfe xff)) E)
(T (W x00 x00 x80 xbf x00 x00 x80 xbf)
(L (W x4a x00 x00 x00 xff xff xff xff)) E)))))
(T (W x00 x00 x00 x00 x00 x00 x00 x00)
(T (W x00 x00 x80 x3f x00 x00 x80 x3f)
(T (W x18 x00 x00 x00 x10 x00 x00 x00)
(T (W x3e x00 x00 x00 x0c x00 x00 x00)
(T (W xff xff xff xff xff xff xff xff)
(L (W x50 x00 x00 x00 x44 x00 x00 x00))
(L (W x00 x00 x80 xbf x00 x00 x80 xbf)))
(T (W x00 x00 x80 x3f x00 x00 x80 x3f)
(L (W x45 x44 x00 x00 x00 x00 x00 x00)) E))
(T (W x45 x26 x22 x84 xe4 x9c xf2 xcb)
(T (W x4b x00 x00 x00 xff xff xff xff)
(L (W x1b x00 x00 x00 x1e x00 x00 x00)) E)
(T (W x00 x00 x80 xbf x00 x00 x80 xbf)
(L (W x45 x26 x22 x84 xe4 x9c xf2 xcb)) E)))
(T (W x45 x26 x22 x84 xe4 x9c xf2 xcb)
(T (W x00 x00 x80 x3f x00 x00 x80 x3f)
(T (W xff xff xff xff xff xff xff xff)
(L (W xff xff xff xff xa0 x00 x00 x00))
(L (W x45 x44 x00 x00 x00 x00 x00 x00)))
(T (W x07 x00 x68 x00 x6c x00 x70 x00)
(L (W xcc x00 x00 x00 x01 x00 x00 x00)) E))
(T (W xa1 x01 x00 x00 xff xff xff xff)
(T (W xff xff xff xff xff xff xff xff)
(L (W x45 x26 x22 x84 xe4 x9c xf2 xcb)) E)
(T (W x00 x00 x00 x00 x9a x48 xfd xff)
(L (W xff xff xff xff xff xff xff xff)) E))))
(T (W xff xff xff xff xff xff xff xff)
(T (W x00 x00 x80 x3f x00 x00 x80 x3f)
(T (W xff xff xff xff x03 x00 x00 x00)
(T (W x14 xba xfb xff x10 x00 x00 x00)
(L (W x18 x00 x00 x00 x10 x00 x00 x00))
(L (W xff xff xff xff xff xff xff xff)))
(T (W xff xff xff xff xff xff xff xff)
(L (W x00 x00 x00 x00 x00 x00 x00 x00)) E))
(T (W xff xff xff xff xff xff xff xff)
(T (W x00 x00 x00 x00 x00 x00 x00 x00)
(L (W xff xff xff xff xff xff xff xff)) E)
(T (W x6c x00 x00 x00 x60 x00 x00 x00)
(L (W x00 x00 x80 xbf x00 x00 x80 xbf)) E)))
(T (W x00 x00 x80 x3f x00 x00 x80 x3f)
(T (W x00 x00 x80 x3f x00 x00 x80 x3f)
(T (W x6c x00 x00 x00 x60 x00 x00 x00)
(L (W x4f x84 x6f x8b xe8 xcb x63 xb7))
(L (W x00 x00 x00 x00 x00 x00 x00 x00)))
(T (W x68 x00 x00 x00 x5c x00 x00 x00)
(L (W xf4 x06 x00 x00 xd8 x05 x00 x00)) E))
(T (W x70 x5f x6c x65 x61 x64 x65 x72)
(T (W x01 x00 x00 x00 x9c x00 x00 x00)
(L (W xff xff xff xff xff xff xff xff)) E)
(T (W x03 x00 x00 x00 xd8 x00 x00 x00)
(L (W x46 x53 x59 x53 x5f x4e x53 x5f)) E))))))
(T (W x00 x00 x80 x3f x00 x00 x80 x3f)
(T (W x6a xa1 xf9 xff x78 x00 x00 x00)
(T (W xff xff xff xff xff xff xff xff)
(T (W xff xff xff xff x04 x00 x00 x00)
(T (W x00 x00 x00 x00 x00 x00 x00 x00)
(T (W xff xff xff xff xff xff xff xff)
(L (W x70 x24 x00 x00 x5c x23 x00 x00))
(L (W x00 x00 x80 xbf x00 x00 x80 xbf)))
(T (W x00 x00 x80 x3f x00 x00 x80 x3f)
(L (W x00 x00 x00 x00 x00 x00 x00 x00)) E))
(T (W x49 xa1 x68 x4a xeb x5f xdd x3d)
(T (W xff xff xff xff xff xff xff xff)
(L (W x18 x00 x00 x00 x10 x00 x00 x00))
(L (W xff xff xff xff xff xff xff xff)))
(T (W xff xff xff xff xff xff xff xff)
(L (W x00 x00 x00 x00 x00 x00 x00 x00)) E)))
(T (W x00 x00 x80 x3f x00 x00 x80 x3f)
(T (W x50 x00 x00 x00 x44 x00 x00 x00)
(T (W xff xff xff xff x01 x00 x00 x00)
(L (W xcc x00 x00 x00 x01 x00 x00 x00))
(L (W xff xff xff xff xff xff xff xff)))
(T (W x00 x00 x80 x3f x00 x00 x80 x3f)
(L (W x68 x00 x00 x00 x5c x00 x00 x00)) E))
(T (W x45 x26 x22 x84 xe4 x9c xf2 xcb)
(T (W xff xff xff xff xff xff xff xff)
(L (W x00 x00 x80 xbf x00 x00 x80 xbf)) E)
(T (W x04 x00 x00 x00 x7a x48 xfd xff)
(L (W xff xff xff xff xff xff xff xff)) E))))
(T (W xb8 x00 x00 x00 xac x00 x00 x00)
(T (W x00 x00 x80 x3f x00 x00 x80 x3f)
(T (W xc0 x00 x00 x00 xb4 x00 x00 x00)
(T (W xff xff xff xff xff xff xff xff)
(L (W x45 x44 x00 x00 x00 x00 x00 x00))
(L (W x45 x44 x00 x00 x00 x00 x00 x00)))
(T (W x18 x00 x00 x00 x10 x00 x00 x00)
(L (W x00 x00 x00 x00 x00 x00 x00 x00)) E))
(T (W xff xff xff xff x9c x00 x00 x00)
(T (W x00 x00 x00 x00 x00 x00 x00 x00)
(L (W xff xff xff xff xff xff xff xff)) E)
(T (W x4f x84 x6f x8b xe8 xcb x63 xb7)
(L (W x6c x00 x00 x00 x60 x00 x00 x00)) E)))
(T (W x45 x26 x22 x84 xe4 x9c xf2 xcb)
(T (W x00 x00 x80 x3f x00 x00 x80 x3f)
(T (W x00 x00 x80 x3f x00 x00 x80 x3f)
(L (W xff xff xff xff xff xff xff xff))
(L (W x00 x00 x00 x00 x00 x00 x00 x00)))
(T (W xf4 x00 x00 x00 xc4 x00 x00 x00)
(L (W x5d x00 x00 x00 xff xff xff xff)) E))
(T (W xff xff xff xff xff xff xff xff)
(T (W x39 x4c x2b x97 x85 x99 x55 x5f)
(L (W xff xff xff xff xb0 x00 x00 x00)) E)
(T (W x00 x00 x00 x00 xfc x62 xfd xff)
(L (W x00 x00 x00 x00 x00 x00 x00 x00)) E)))))
(T (W xbc x00 x00 x00 xb0 x00 x00 x00)
(T (W x00 x00 x00 x00 x00 x00 x00 x00)
(T (W x70 x5f x6c x65 x61 x64 x65 x72)
(T (W x04 x00 x00 x00 xaa x2d xfe xff)
(T (W x00 x00 x00 x00 x00 x00 x00 x00)
(L (W x8c x94 xfd xff x00 x01 x01 x01))
(L (W xff xff xff xff xa0 x00 x00 x00)))
(T (W x00 x00 x00 x00 x00 x00 x00 x00)
(L (W x00 x00 x00 x00 x00 x00 x00 x00)) E))
(T (W xa1 x01 x00 x00 xff xff xff xff)
(T (W x30 x32 x5f x43 x4c x45 x41 x52)
(L (W x18 x00 x00 x00 x10 x00 x00 x00)) E)
(T (W x00 x00 x00 x00 x00 x00 x00 x00)
(L (W x00 x00 x80 xbf x00 x00 x80 xbf)) E)))
(T (W x00 x00 x00 x00 x00 x00 x00 x00)
(T (W x00 x00 x80 x3f x00 x00 x80 x3f)
(T (W x00 x00 x00 x00 x00 x00 x00 x00)
(L (W xff xff xff xff xff xff xff xff))
(L (W x06 x00 x00 x00 xc0 x05 x00 x00)))
(T (W x00 x00 x00 x00 x00 x00 x00 x00)
(L (W xff xff xff xff xff xff xff xff)) E))
(T (W x00 x00 x00 x00 x00 x00 x00 x00)
(T (W xff xff xff xff xff xff xff xff)
(L (W x00 x00 x80 xbf x00 x00 x80 xbf)) E)
(T (W x00 x00 x00 x00 x00 x00 x00 x00)
(L (W x54 x02 x00 x00 x38 x01 x00 x00)) E))))
(T (W xff xff xff xff xff xff xff xff)
(T (W x00 x00 x80 x3f x00 x00 x80 x3f)
(T (W x00 x00 x00 x00 xfc xb2 xfa xff)
(T (W x00 x00 x80 x3f x00 x00 x80 x3f)
(L (W x00 x00 x00 x00 x00 x00 x00 x00))
(L (W xff xff xff xff xff xff xff xff)))
(T (W x45 x26 x22 x84 xe4 x9c xf2 xcb)
(L (W x45 x26 x22 x84 xe4 x9c xf2 xcb)) E))
(T (W x00 x00 x00 x00 x00 x00 x00 x00)
(T (W x00 x00 x80 x3f x00 x00 x80 x3f)
(L (W x30 x32 x5f x43 x4c x45 x41 x52)) E)
(T (W x8c x34 xfd xff x00 x01 x01 x01)
(L (W x44 x00 x00 x00 x00 x00 x80 xbf)) E)))
(T (W x00 x00 x00 x00 x00 x00 x00 x00)
(T (W x45 x26 x22 x84 xe4 x9c xf2 xcb)
(T (W x68 x00 x00 x00 x5c x00 x00 x00)
(L (W x00 x00 x80 xbf x00 x00 x80 xbf))
(L (W x00 x00 x80 xbf x00 x00 x80 xbf)))
(T (W xff xff xff xff xff xff xff xff)
(L (W x30 x32 x5f x43 x4c x45 x41 x52)) E))
(T (W x00 x00 x80 x3f x00 x00 x80 x3f)
(T (W x00 x00 x80 x3f x00 x00 x80 x3f)
(L (W xff xff xff xff xff xff xff xff)) E)
(T (W x49 xa1 x68 x4a xeb x5f xdd x3d)
(L (W x00 x00 x00 x00 x00 x00 x00 x00)) E)))))))
(T (W x00 x00 x80 x3f x00 x00 x80 x3f)
(T (W x00 x00 x00 x00 x00 x00 x00 x00)
(T (W x45 x26 x22 x84 xe4 x9c xf2 xcb)
(T (W x8c xc0 xf9 xff x00 x01 x01 x01)
(T (W x00 x00 x80 x3f x00 x00 x80 x3f)
(T (W x45 x26 x22 x84 xe4 x9c xf2 xcb)
(T (W x00 x00 x00 x00 x00 x00 x00 x00)
(L (W x00 x00 x00 x00 x12 x00 x00 x00))
(L (W xff xff xff xff xff xff xff xff)))
(T (W x14 x00 x00 x00 x10 x00 x00 x00)
(L (W x45 x26 x22 x84 xe4 x9c xf2 xcb)) E))
(T (W xff xff xff xff xff xff xff xff)
(T (W x00 x00 x00 x00 x00 x00 x00 x00)
(L (W xff xff xff xff xff xff xff xff))
(L (W x00 x00 x00 x00 x12 x00 x00 x00)))
(T (W xff xff xff xff xff xff xff xff)
(L (W x50 x00 x00 x00 x44 x00 x00 x00)) E)))
(T (W xff xff xff xff xff xff xff xff)
(T (W x00 x00 x00 x00 x00 x00 x00 x00)
(T (W x00 x00 x80 x3f x00 x00 x80 x3f)
(L (W xff xff xff xff xff xff xff xff))
(L (W x00 x00 x80 xbf x00 x00 x80 xbf)))
(T (W x00 x00 x00 x00 x02 x00 x00 x00)
(L (W x04 x00 x00 x00 x78 x03 x00 x00)) E))
(T (W xff xff xff xff xff xff xff xff)
(T (W x00 x00 x00 x00 x00 x00 x00 x00)
(L (W xff xff xff xff xc0 x00 x00 x00)) E)
(T (W x00 x00 x80 xbf x00 x00 x80 xbf)
(L (W x00 x00 x00 x00 x00 x00 x00 x00)) E))))
(T (W x00 x00 x00 x00 x00 x00 x00 x00)
(T (W xff xff xff xff xff xff xff xff)
(T (W x00 x00 x00 x00 x00 x00 x00 x00)
(T (W x00 x00 x00 x00 x00 x00 x00 x00)
(L (W x00 x00 x00 x00 x00 x00 x00 x00))
(L (W x00 x00 x80 xbf x00 x00 x80 xbf)))
(T (W x28 x00 x00 x00 x10 x00 x00 x00)
(L (W xff xff xff xff xff xff xff xff)) E))
(T (W x00 x00 x00 x00 x00 x00 x00 x00)
(T (W xb8 x00 x00 x00 x28 x00 x00 x00)
(L (W x00 x00 x80 xbf x00 x00 x80 xbf)) E)
(T (W xff xff xff xff xff xff xff xff)
(L (W xff xff xff xff xff xff xff xff)) E)))
(T (W xff xff xff xff xff xff xff xff)
(T (W x5d x00 x00 x00 xff xff xff xff)
(T (W xff xff xff xff xff xff xff xff)
(L (W x00 x00 x80 xbf x00 x00 x80 xbf))
(L (W x45 x26 x22 x84 xe4 x9c xf2 xcb)))
(T (W xff xff xff xff xff xff xff xff)
(L (W x00 x00 x80 xbf x00 x00 x80 xbf)) E))
(T (W x00 x00 x00 x00 x00 x00 x00 x00)
(T (W x6c x00 x00 x00 x60 x00 x00 x00)
(L (W x00 x00 x00 x00 x00 x00 x00 x00)) E)
(T (W x00 x00 x01 x01 x53 x01 x00 x00)
(L (W x8c x60 xff xff x00 x01 x01 x01)) E)))))
(T (W x00 x00 x80 x3f x00 x00 x80 x3f)
(T (W xff xff xff xff xff xff xff xff)
(T (W x45 x26 x22 x84 xe4 x9c xf2 xcb)
(T (W x40 x00 x00 x00 x9c x00 x00 x00)
(T (W x8c x90 xfb xff x00 x01 x01 x01)
(L (W x00 x00 x00 x00 x00 x00 x00 x00))
(L (W x00 x00 x00 x00 x00 x00 x00 x00)))
(T (W xff xff xff xff xff xff xff xff)
(L (W x13 x00 x00 x00 x16 x00 x00 x00)) E))
(T (W x00 x00 x00 x00 x00 x00 x00 x00)
(T (W x00 x00 x80 x3f x00 x00 x80 x3f)
(L (W x00 x00 x00 x00 x00 x00 x00 x00)) E)
(T (W xbc x14 xfd xff x23 x00 x00 x00)
(L (W xff xff xff xff xc8 x00 x00 x00)) E)))
(T (W x85 x01 x00 x00 xff xff xff xff)
(T (W x00 x00 x00 x00 x04 x00 x00 x00)
(T (W x8c xd0 xfb xff x00 x01 x01 x01)
(L (W x00 x00 x00 x00 x12 x00 x00 x00))
(L (W x54 x00 x00 x00 x48 x00 x00 x00)))
(T (W x00 x00 x00 x00 xfc xce xfc xff)
(L (W x00 x00 x00 x00 x00 x00 x00 x00)) E))
(T (W x24 x00 x00 x00 xb0 x00 x00 x00)
(T (W x00 x00 x80 x3f x00 x00 x80 x3f)
(L (W x29 x00 x00 x00 xff xff xff xff)) E)
(T (W x00 x00 x18 x00 x1c x00 x20 x00)
(L (W x00 x00 x80 xbf x00 x00 x80 xbf)) E))))
(T (W x45 x26 x22 x84 xe4 x9c xf2 xcb)
(T (W x00 x00 x00 x00 xca x3c xff xff)
(T (W x40 x00 x00 x00 x0c x00 x00 x00)
(T (W xbc x00 x00 x00 x14 x00 x00 x00)
(L (W xff xff xff xff xff xff xff xff))
(L (W x00 x00 x00 x00 x00 x00 x00 x00)))
(T (W x00 x00 x00 x00 x00 x00 x00 x00)
(L (W xff xff xff xff xff xff xff xff)) E))
(T (W x50 x00 x00 x00 x44 x00 x00 x00)
(T (W x4b x00 x00 x00 xff xff xff xff)
(L (W xff xff xff xff xa0 x00 x00 x00)) E)
(T (W xc1 x00 x00 x00 xff xff xff xff)
(L (W x00 x00 x00 x00 x00 x00 x00 x00)) E)))
(T (W x18 x00 x00 x00 x0c x00 x00 x00)
(T (W xff xff xff xff xff xff xff xff)
(T (W x00 x00 x00 x00 x06 x00 x00 x00)
(L (W xff xff xff xff xff xff xff xff))
(L (W x03 x00 x00 x00 xd0 x00 x00 x00)))
(T (W x24 x00 x28 x00 x2c x00 x30 x00)
(L (W x45 x26 x22 x84 xe4 x9c xf2 xcb)) E))
(T (W x68 x00 x00 x00 x5c x00 x00 x00)
(T (W xbc x74 xfc xff x26 x00 x00 x00)
(L (W x00 x00 x80 xbf x00 x00 x80 xbf)) E)
(T (W x00 x00 x00 x00 x00 x00 x00 x00)
(L (W xff xff xff xff xff xff xff xff)) E))))))
(T (W xff xff xff xff x04 x00 x00 x00)
(T (W xff xff xff xff xff xff xff xff)
(T (W x00 x00 x00 x00 x00 x00 x00 x00)
(T (W x00 x00 x00 x00 x00 x00 x00 x00)
(T (W x18 x00 x00 x00 x10 x00 x00 x00)
(T (W x00 x00 x00 x00 x00 x00 x00 x00)
(L (W xc9 x00 x00 x00 xff xff xff xff))
(L (W x00 x00 x00 x00 x00 x00 x00 x00)))
(T (W xff xff xff xff xff xff xff xff)
(L (W x45 x26 x22 x84 xe4 x9c xf2 xcb)) E))
(T (W x00 x00 x00 x00 x22 x00 x00 x00)
(T (W x49 xa1 x68 x4a xeb x5f xdd x3d)
(L (W x45 x44 x00 x00 x00 x00 x00 x00)) E)
(T (W x18 x00 x00 x00 x0c x00 x00 x00)
(L (W x18 x00 x00 x00 x0c x00 x00 x00)) E)))
(T (W xff xff xff xff xff xff xff xff)
(T (W x00 x00 x00 x00 x00 x00 x00 x00)
(T (W x00 x00 x00 x00 xfc xc6 xfb xff)
(L (W x00 x00 x00 x00 x00 x00 x00 x00))
(L (W x00 x00 x80 xbf x00 x00 x80 xbf)))
(T (W x00 x00 x00 x00 x00 x00 x00 x00)
(L (W x45 x44 x00 x00 x00 x00 x00 x00)) E))
(T (W x00 x00 x00 x00 x00 x00 x00 x00)
(T (W x00 x00 x00 x00 x00 x00 x00 x00)
(L (W xff xff xff xff xff xff xff xff)) E)
(T (W x00 x00 x80 xbf x00 x00 x80 xbf)
(L (W x00 x00 x80 xbf x00 x00 x80 xbf)) E))))
(T (W x00 x00 x80 x3f x00 x00 x80 x3f)
(T (W x20 x00 x00 x00 x10 x00 x00 x00)
(T (W x00 x00 x00 x00 x00 x00 x00 x00)
(T (W x50 x00 x00 x00 x44 x00 x00 x00)
(L (W x00 x00 x80 xbf x00 x00 x80 xbf))
(L (W xff xff xff xff xff xff xff xff)))
(T (W x00 x00 x00 x00 x00 x00 x00 x00)
(L (W xff xff xff xff xff xff xff xff)) E))
(T (W x00 x00 x00 x00 x00 x00 x00 x00)
(T (W xff xff xff xff xff xff xff xff)
(L (W x6c x00 x00 x00 x60 x00 x00 x00)) E)
(T (W xff xff xff xff xff xff xff xff)
(L (W xff xff xff xff xff xff xff xff)) E)))
(T (W xff xff xff xff x04 x00 x00 x00)
(T (W xff xff xff xff xff xff xff xff)
(T (W x00 x00 x00 x00 xea xea xfb xff)
(L (W x00 x00 x80 xbf x00 x00 x80 xbf))
(L (W xb4 x00 x00 x00 x46 x00 x00 x00)))
(T (W xff xff xff xff xff xff xff xff)
(L (W x00 x00 x80 xbf x00 x00 x80 xbf)) E))
(T (W x00 x00 x80 x3f x00 x00 x80 x3f)
(T (W x3c x00 x40 x00 x44 x00 x48 x00)
(L (W x00 x00 x80 xbf x00 x00 x80 xbf)) E)
(T (W x30 x32 x5f x43 x4c x45 x41 x52)
(L (W x19 x00 x00 x00 x1c x00 x00 x00)) E)))))
(T (W x00 x00 x00 x00 x32 x50 xfd xff)
(T (W x00 x00 x80 x3f x00 x00 x80 x3f)
(T (W x8c x18 xfa xff x00 x01 x01 x01)
(T (W xff xff xff xff xff xff xff xff)
(T (W xb0 x00 x00 x00 x64 x00 x00 x00)
(L (W x5f x4e x53 x5f x30 x32 x5f x43))
(L (W x49 xa1 x68 x4a xeb x5f xdd x3d)))
(T (W x64 x00 x00 x00 x9c x00 x00 x00)
(L (W xff xff xff xff x9c x00 x00 x00)) E))
(T (W xff xff xff xff xff xff xff xff)
(T (W x00 x00 x80 x3f x00 x00 x80 x3f)
(L (W x49 xa1 x68 x4a xeb x5f xdd x3d)) E)
(T (W x2c x00 x30 x00 x34 x00 x38 x00)
(L (W xff xff xff xff xff xff xff xff)) E)))
(T (W xff xff xff xff xff xff xff xff)
(T (W xff xff xff xff xff xff xff xff)
(T (W x45 x26 x22 x84 xe4 x9c xf2 xcb)
(L (W x00 x00 x80 xbf x00 x00 x80 xbf))
(L (W x6a xd5 xff xff x78 x00 x00 x00)))
(T (W xff xff xff xff xff xff xff xff)
(L (W x45 x26 x22 x84 xe4 x9c xf2 xcb)) E))
(T (W xff xff xff xff xff xff xff xff)
(T (W x68 x00 x00 x00 x5c x00 x00 x00)
(L (W x00 x00 x00 x00 x00 x00 x00 x00)) E)
(T (W xff xff xff xff xff xff xff xff)
(L (W x54 x00 x00 x00 x48 x00 x00 x00)) E))))
(T (W x00 x00 x00 x00 x00 x00 x00 x00)
(T (W xff xff xff xff xff xff xff xff)
(T (W x00 x00 x00 x00 x00 x00 x00 x00)
(T (W x00 x00 x00 x00 x04 x00 x00 x00)
(L (W x00 x00 x80 xbf x00 x00 x80 xbf))
(L (W x00 x00 x00 x00 x00 x00 x00 x00)))
(T (W x00 x00 x00 x00 x00 x00 x00 x00)
(L (W xff xff xff xff xff xff xff xff)) E))
(T (W xd4 x00 x00 x00 xc8 x00 x00 x00)
(T (W x00 x00 x00 x00 x00 x00 x00 x00)
(L (W xc4 x00 x00 x00 x01 x00 x00 x00)) E)
(T (W x00 x00 x00 x00 x00 x00 x00 x00)
(L (W x00 x00 x00 x00 x00 x00 x00 x00)) E)))
(T (W xba x73 xfa xff x74 x00 x00 x00)
(T (W x00 x00 x00 x00 x00 x00 x00 x00)
(T (W x00 x00 x00 x00 x00 x00 x00 x00)
(L (W xff xff xff xff xff xff xff xff))
(L (W xff xff xff xff xff xff xff xff)))
(T (W x50 x00 x00 x00 x44 x00 x00 x00)
(L (W xc4 x00 x00 x00 x02 x00 x00 x00)) E))
(T (W x34 x01 x00 x00 x04 x00 x00 x00)
(T (W x00 x00 x00 x00 x00 x00 x00 x00)
(L (W x00 x00 x00 x00 xfc x76 xfe xff)) E)
(T (W x00 x00 x00 x00 x00 x00 x00 x00)
(L (W xff xff xff xff xc4 x00 x00 x00)) E))))))))))
(T (W x48 xc2 x03 x00 xec xbf x03 x00)
(T (W xf8 x1a x03 x00 xb4 x18 x03 x00)
(T (W xc0 x3c x01 x00 x8c x3b x01 x00)
(T (W x45 x26 x22 x84 xe4 x9c xf2 xcb)
(T (W x00 x00 x01 x01 xc9 x00 x00 x00)
(T (W x00 x00 x80 x3f x00 x00 x80 x3f)
(T (W x45 x26 x22 x84 xe4 x9c xf2 xcb)
(T (W xff xff xff xff xff xff xff xff)
(T (W x45 x26 x22 x84 xe4 x9c xf2 xcb)
(T (W xb8 x00 x00 x00 x14 x00 x00 x00)
(L (W xff xff xff xff xff xff xff xff))
(L (W x0c x7a xff xff x00 x01 x01 x01)))
(T (W xff xff xff xff xff xff xff xff)
(L (W x00 x00 x00 x00 x00 x00 x00 x00)) E))
(T (W xff xff xff xff xff xff xff xff)
(T (W xff xff xff xff xff xff xff xff)
(L (W xea xf6 xfd xff x78 x00 x00 x00))
(L (W x0c xfa xff xff x00 x01 x01 x01)))
(T (W x00 x00 x00 x00 x00 x00 x00 x00)
(L (W x00 x00 x80 xbf x00 x00 x80 xbf)) E)))
(T (W x0c x3a xfa xff x00 x01 x01 x01)
(T (W xb8 x00 x00 x00 xac x00 x00 x00)
(T (W xff xff xff xff xff xff xff xff)
(L (W xff xff xff xff xff xff xff xff))
(L (W x00 x00 x00 x00 x00 x00 x00 x00)))
(T (W xff xff xff xff xff xff xff xff)
(L (W x45 x26 x22 x84 xe4 x9c xf2 xcb)) E))
(T (W x00 x00 x80 x3f x00 x00 x80 x3f)
(T (W xff xff xff xff xff xff xff xff)
(L (W x00 x00 x80 xbf x00 x00 x80 xbf)) E)
(T (W xff xff xff xff xff xff xff xff)
(L (W xff xff xff xff xff xff xff xff)) E))))
(T (W xff xff xff xff xff xff xff xff)
(T (W x00 x00 x00 x00 x00 x00 x00 x00)
(T (W x40 x00 x00 x00 xa0 x00 x00 x00)
(T (W x3a x95 xfb xff x74 x00 x00 x00)
(L (W xff xff xff xff xff xff xff xff))
(L (W x00 x00 x01 x01 x29 x00 x00 x00)))
(T (W x00 x00 x80 x3f x00 x00 x80 x3f)
(L (W x00 x00 x80 xbf x00 x00 x80 xbf)) E))
(T (W x3a x15 xfb xff x74 x00 x00 x00)
(T (W x00 x00 x00 x00 x00 x00 x00 x00)
(L (W x00 x00 x01 x01 x90 x01 x00 x00)) E)
(T (W xff xff xff xff xff xff xff xff)
(L (W xff xff xff xff xa0 x00 x00 x00)) E)))
(T (W x45 x26 x22 x84 xe4 x9c xf2 xcb)
(T (W xc0 x00 x00 x00 xb4 x00 x00 x00)
(T (W x6c x00 x00 x00 x60 x00 x00 x00)
(L (W x00 x00 x00 x00 x1a xd6 xfd xff))
(L (W x00 x00 x00 x00 x00 x00 x00 x00)))
(T (W x6c x00 x00 x00 x60 x00 x00 x00)
(L (W x9f x01 x00 x00 xff xff xff xff)) E))
(T (W x01 x00 x00 x00 x21 x00 x00 x00)
(T (W x00 x00 x00 x00 x12 x00 x00 x00)
(L (W xff xff xff xff xff xff xff xff)) E)
(T (W x45 x26 x22 x84 xe4 x9c xf2 xcb)
(L (W x00 x00 x00 x00 x00 x00 x00 x00)) E)))))
(T (W x00 x00 x80 x3f x00 x00 x80 x3f)
(T (W xff xff xff xff xff xff xff xff)
(T (W x00 x00 x00 x00 x00 x00 x00 x00)
(T (W x00 x00 x00 x00 x00 x00 x00 x00)
(T (W x00 x00 x00 x00 x12 x00 x00 x00)
(L (W xff xff xff xff xac x00 x00 x00))
(L (W xc4 x00 x00 x00 x02 x00 x00 x00)))
(T (W x18 x00 x00 x00 x0c x00 x00 x00)
(L (W x4f x84 x6f x8b xe8 xcb x63 xb7)) E))
(T (W xff xff xff xff xff xff xff xff)
(T (W xca x93 xd4 x99 x70 xbd xe3 x36)
(L (W x03 x00 x00 x00 xd0 x00 x00 x00)) E)
(T (W x00 x00 x80 xbf x00 x00 x80 xbf)
(L (W x45 x26 x22 x84 xe4 x9c xf2 xcb)) E)))
(T (W x3a x45 xfa xff x74 x00 x00 x00)
(T (W x01 x00 x00 x00 x9c x00 x00 x00)
(T (W x00 x00 x00 x00 x00 x00 x00 x00)
(L (W xff xff xff xff xff xff xff xff))
(L (W x30 x32 x5f x43 x4c x45 x41 x52)))
(T (W x36 x30 x00 x00 x02 x00 x00 x00)
(L (W xff xff xff xff xff xff xff xff)) E))
(T (W xff xff xff xff xff xff xff xff)
(T (W x00 x00 x00 x00 x00 x00 x00 x00)
(L (W x00 x00 x80 xbf x00 x00 x80 xbf)) E)
(T (W x46 x53 x59 x53 x5f x4e x53 x5f)
(L (W x00 x00 x00 x00 x00 x00 x00 x00)) E))))
(T (W xf8 xad xf5 xfd x41 x94 xd5 xea)
(T (W xff xff xff xff xff xff xff xff)
(T (W xff xff xff xff xff xff xff xff)
(T (W x00 x00 x00 x00 x00 x00 x00 x00)
(L (W xa2 xe8 xff xff xc9 x00 x00 x00))
(L (W xd8 x00 x00 x00 x64 x00 x00 x00)))
(T (W xff xff xff xff xff xff xff xff)
(L (W x54 x00 x00 x00 x48 x00 x00 x00)) E))
(T (W xa1 x01 x00 x00 xff xff xff xff)
(T (W x68 x00 x00 x00 x5c x00 x00 x00)
(L (W x00 x00 x00 x00 x00 x00 x00 x00)) E)
(T (W x3a x25 xfd xff x74 x00 x00 x00)
(L (W x18 x00 x00 x00 x10 x00 x00 x00)) E)))
(T (W x00 x00 x80 x3f x00 x00 x80 x3f)
(T (W x0c xea xfa xff x00 x01 x01 x01)
(T (W x45 x26 x22 x84 xe4 x9c xf2 xcb)
(L (W x00 x00 x80 xbf x00 x00 x80 xbf))
(L (W x00 x00 x80 xbf x00 x00 x80 xbf)))
(T (W x18 x00 x00 x00 x0c x00 x00 x00)
(L (W x00 x00 x00 x00 x00 x00 x00 x00)) E))
(T (W x00 x00 x00 x00 x00 x00 x00 x00)
(T (W xff xff xff xff xff xff xff xff)
(L (W x00 x00 x00 x00 x1a x66 xfe xff)) E)
(T (W xff xff xff xff xff xff xff xff)
(L (W x00 x00 x80 xbf x00 x00 x80 xbf)) E))))))
(T (W x64 x00 x00 x00 xa0 x00 x00 x00)
(T (W xff xff xff xff xff xff xff xff)
(T (W x00 x00 x00 x00 x00 x00 x00 x00)
(T (W xa2 x11 xfd xff x00 x00 x01 x01)
(T (W x00 x00 x00 x00 x00 x00 x00 x00)
(T (W x9a x87 xfe xff x00 x00 x01 x01)
(L (W xff xff xff xff xff xff xff xff))
(L (W x18 x00 x00 x00 x10 x00 x00 x00)))
(T (W x64 x00 x00 x00 x9c x00 x00 x00)
(L (W x45 x26 x22 x84 xe4 x9c xf2 xcb)) E))
(T (W x00 x00 x80 x3f x00 x00 x80 x3f)
(T (W x00 x00 x00 x00 x00 x00 x00 x00)
(L (W x18 x00 x00 x00 x10 x00 x00 x00))
(L (W x00 x00 x00 x00 x00 x00 x00 x00)))
(T (W x45 x26 x22 x84 xe4 x9c xf2 xcb)
(L (W x00 x00 x80 xbf x00 x00 x80 xbf)) E)))
(T (W x50 x00 x00 x00 x44 x00 x00 x00)
(T (W x45 x26 x22 x84 xe4 x9c xf2 xcb)
(T (W x13 x00 x00 x00 x0c x00 x00 x00)
(L (W xff xff xff xff xff xff xff xff))
(L (W x00 x00 x00 x00 x00 x00 x00 x00)))
(T (W x45 x26 x22 x84 xe4 x9c xf2 xcb)
(L (W xff xff xff xff xc0 x00 x00 x00)) E))
(T (W x0c x42 xfb xff x00 x01 x01 x01)
(T (W xff xff xff xff xff xff xff xff)
(L (W x00 x00 x80 xbf x00 x00 x80 xbf)) E)
(T (W x16 x00 x00 x00 x0c x00 x00 x00)
(L (W xff xff xff xff xff xff xff xff)) E))))
(T (W x00 x00 x00 x00 x4a x47 xff xff)
(T (W xff xff xff xff x03 x00 x00 x00)
(T (W xff xff xff xff xff xff xff xff)
(T (W xff xff xff xff xff xff xff xff)
(L (W xff xff xff xff xff xff xff xff))
(L (W x00 x00 x00 x00 x00 x00 x00 x00)))
(T (W x64 x00 x00 x00 x9c x00 x00 x00)
(L (W x00 x00 x80 xbf x00 x00 x80 xbf)) E))
(T (W xb0 x00 x00 x00 x64 x00 x00 x00)
(T (W x00 x00 x80 x3f x00 x00 x80 x3f)
(L (W x46 x53 x59 x53 x5f x4e x53 x5f)) E)
(T (W x54 x00 x00 x00 x48 x00 x00 x00)
(L (W xff xff xff xff xff xff xff xff)) E)))
(T (W x00 x00 x80 x3f x00 x00 x80 x3f)
(T (W x3a xdd xfa xff x74 x00 x00 x00)
(T (W x3a xdd xfb xff x74 x00 x00 x00)
(L (W x14 x00 x00 x00 x0c x00 x00 x00))
(L (W x45 x26 x22 x84 xe4 x9c xf2 xcb)))
(T (W x0c xe2 xfc xff x00 x01 x01 x01)
(L (W x00 x00 x00 x00 x1a xde xfe xff)) E))
(T (W xff xff xff xff xff xff xff xff)
(T (W x00 x00 x00 x00 x00 x00 x00 x00)
(L (W xff xff xff xff xff xff xff xff)) E)
(T (W x18 x00 x00 x00 x10 x00 x00 x00)
(L (W x00 x00 x00 x00 x00 x00 x00 x00)) E)))))
(T (W x00 x00 x00 x00 x00 x00 x00 x00)
(T (W x00 x00 x80 x3f x00 x00 x80 x3f)
(T (W x6b x65 x5f x77 x61 x72 x6c x69)
(T (W x45 x26 x22 x84 xe4 x9c xf2 xcb)
(T (W x45 x26 x22 x84 xe4 x9c xf2 xcb)
(L (W xff xff xff xff xff xff xff xff))
(L (W xff xff xff xff xff xff xff xff)))
(T (W x00 x00 x80 x3f x00 x00 x80 x3f)
(L (W x00 x00 x80 xbf x00 x00 x80 xbf)) E))
(T (W xff xff xff xff xff xff xff xff)
(T (W x00 x00 x00 x00 x12 x00 x00 x00)
(L (W xff xff xff xff xff xff xff xff)) E)
(T (W x00 x00 x00 x00 x00 x00 x00 x00)
(L (W x00 x00 x80 xbf x00 x00 x80 xbf)) E)))
(T (W x00 x00 x00 x00 x7c x50 xfa xff)
(T (W x0a x00 x00 x00 x3e x00 x00 x00)
(T (W x00 x00 x00 x00 x00 x00 x00 x00)
(L (W x04 x00 x00 x00 xfa xd5 xfd xff))
(L (W x00 x00 x00 x00 x00 x00 x00 x00)))
(T (W x00 x00 x00 x00 x00 x00 x00 x00)
(L (W x00 x00 x01 x01 xa0 x01 x00 x00)) E))
(T (W x00 x00 x80 x3f x00 x00 x80 x3f)
(T (W x18 x00 x00 x00 x10 x00 x00 x00)
(L (W x18 x00 x00 x00 x0c x00 x00 x00)) E)
(T (W x00 x00 x80 xbf x00 x00 x80 xbf)
(L (W x00 x00 x00 x00 x00 x00 x00 x00)) E))))
(T (W x00 x00 x00 x00 x00 x00 x00 x00)
(T (W xff xff xff xff xff xff xff xff)
(T (W xff xff xff xff xff xff xff xff)
(T (W x00 x00 x80 x3f x00 x00 x80 x3f)
(L (W x00 x00 x80 xbf x00 x00 x80 xbf))
(L (W x04 x00 x00 x00 xfa xb5 xff xff)))
(T (W xff xff xff xff xff xff xff xff)
(L (W x6c x00 x00 x00 x60 x00 x00 x00)) E))
(T (W x00 x00 x00 x00 x00 x00 x00 x00)
(T (W x0c x32 xfc xff x00 x01 x01 x01)
(L (W x49 xa1 x68 x4a xeb x5f xdd x3d)) E)
(T (W x03 x00 x00 x00 xd0 x00 x00 x00)
(L (W x21 x00 x00 x00 x24 x00 x00 x00)) E)))
(T (W x00 x00 x80 x3f x00 x00 x80 x3f)
(T (W x00 x00 x80 x3f x00 x00 x80 x3f)
(T (W xff xff xff xff xff xff xff xff)
(L (W x00 x00 x80 xbf x00 x00 x80 xbf))
(L (W x00 x00 x80 xbf x00 x00 x80 xbf)))
(T (W x20 x00 x24 x00 x28 x00 x2c x00)
(L (W x4f x84 x6f x8b xe8 xcb x63 xb7)) E))
(T (W x00 x00 x80 x3f x00 x00 x80 x3f)
(T (W xb8 x00 x00 x00 xac x00 x00 x00)
(L (W x00 x00 x00 x00 x00 x00 x00 x00)) E)
(T (W x53 x01 x00 x00 xff xff xff xff)
(L (W x54 x00 x00 x00 x48 x00 x00 x00)) E)))))))
(T (W x18 x00 x00 x00 x0c x00 x00 x00)
(T (W x00 x00 x80 x3f x00 x00 x80 x3f)
(T (W x64 x00 x00 x00 x9c x00 x00 x00)
(T (W xff xff xff xff xff xff xff xff)
(T (W xea xfa xf9 xff x78 x00 x00 x00)
(T (W xff xff xff xff xff xff xff xff)
(T (W x00 x00 x00 x00 x00 x00 x00 x00)
(L (W x00 x00 x00 x00 x00 x00 x00 x00))
(L (W x00 x00 x00 x00 xda x7b xff xff)))
(T (W x00 x00 x00 x00 x00 x00 x00 x00)
(L (W xff xff xff xff xb0 x00 x00 x00)) E))
(T (W xff xff xff xff xff xff xff xff)
(T (W x00 x00 x80 x3f x00 x00 x80 x3f)
(L (W x00 x00 x00 x00 x00 x00 x00 x00))
(L (W x5c x00 x00 x00 xff xff xff xff)))
(T (W x6c x00 x00 x00 x60 x00 x00 x00)
(L (W xff xff xff xff xff xff xff xff)) E)))
(T (W x00 x00 x00 x00 x00 x00 x00 x00)
(T (W x00 x00 x00 x00 x00 x00 x00 x00)
(T (W x00 x00 x80 x3f x00 x00 x80 x3f)
(L (W x00 x00 x00 x00 x00 x00 x00 x00))
(L (W x45 x26 x22 x84 xe4 x9c xf2 xcb)))
(T (W x00 x00 x00 x00 x00 x00 x00 x00)
(L (W x00 x00 x00 x00 x00 x00 x00 x00)) E))
(T (W xa1 x01 x00 x00 xff xff xff xff)
(T (W x00 x00 x80 x3f x00 x00 x80 x3f)
(L (W x5d x00 x00 x00 xff xff xff xff)) E)
(T (W x00 x00 x80 xbf x00 x00 x80 xbf)
(L (W x00 x00 x80 xbf x00 x00 x80 xbf)) E))))
(T (W x00 x00 x80 x3f x00 x00 x80 x3f)
(T (W xff xff xff xff xff xff xff xff)
(T (W x45 x26 x22 x84 xe4 x9c xf2 xcb)
(T (W x00 x00 x00 x00 x00 x00 x00 x00)
(L (W x00 x00 x80 xbf x00 x00 x80 xbf))
(L (W x00 x00 x80 xbf x00 x00 x80 xbf)))
(T (W x3c xa2 xfc xff x18 x00 x00 x00)
(L (W xff xff xff xff xff xff xff xff)) E))
(T (W x00 x00 x00 x00 x00 x00 x00 x00)
(T (W xff xff xff xff xff xff xff xff)
(L (W x00 x00 x80 xbf x00 x00 x80 xbf)) E)
(T (W xff xff xff xff xff xff xff xff)
(L (W x00 x00 x00 x00 x12 x00 x00 x00)) E)))
(T (W xff xff xff xff xff xff xff xff)
(T (W xfd x7f x19 x96 xc1 x54 xa4 x47)
(T (W x00 x00 x00 x00 x08 x00 x00 x00)
(L (W x45 x26 x22 x84 xe4 x9c xf2 xcb))
(L (W xff xff xff xff xff xff xff xff)))
(T (W x46 x53 x59 x53 x5f x4e x53 x5f)
(L (W x6c x00 x00 x00 x60 x00 x00 x00)) E))
(T (W x00 x00 x00 x00 x00 x00 x00 x00)
(T (W xff xff xff xff xff xff xff xff)
(L (W x00 x00 x00 x00 x00 x00 x00 x00)) E)
(T (W x00 x00 x00 x00 x00 x00 x00 x00)
(L (W xff xff xff xff xff xff xff xff)) E)))))
(T (W xff xff xff xff xff xff xff xff)
(T (W x00 x00 x00 x00 x00 x00 x00 x00)
(T (W x00 x00 x80 x3f x00 x00 x80 x3f)
(T (W xff xff xff xff xff xff xff xff)
(T (W x6c x00 x00 x00 x60 x00 x00 x00)
(L (W x00 x00 x00 x00 x00 x00 x00 x00))
(L (W x00 x00 x00 x00 x00 x00 x00 x00)))
(T (W x14 x00 x00 x00 x10 x00 x00 x00)
(L (W xff xff xff xff xff xff xff xff)) E))
(T (W x00 x00 x80 x3f x00 x00 x80 x3f)
(T (W xff xff xff xff x9c x00 x00 x00)
(L (W x00 x00 x80 xbf x00 x00 x80 xbf)) E)
(T (W x00 x00 x00 x00 x00 x00 x00 x00)
(L (W x29 x00 x00 x00 xff xff xff xff)) E)))
(T (W x3c x52 xfa xff x3e x00 x00 x00)
(T (W x00 x00 x00 x00 x00 x00 x00 x00)
(T (W xff xff xff xff xff xff xff xff)
(L (W x00 x00 x80 xbf x00 x00 x80 xbf))
(L (W x03 x00 x00 x00 xd0 x00 x00 x00)))
(T (W x94 x05 x00 x00 x48 x04 x00 x00)
(L (W x00 x00 x80 xbf x00 x00 x80 xbf)) E))
(T (W xff xff xff xff x03 x00 x00 x00)
(T (W x0c x4e xfc xff x00 x01 x01 x01)
(L (W x00 x00 x00 x00 x12 x00 x00 x00)) E)
(T (W xff xff xff xff xff xff xff xff)
(L (W x45 x26 x22 x84 xe4 x9c xf2 xcb)) E))))
(T (W x00 x00 x80 x3f x00 x00 x80 x3f)
(T (W x00 x00 x00 x00 x00 x00 x00 x00)
(T (W x00 x00 x80 x3f x00 x00 x80 x3f)
(T (W xff xff xff xff xff xff xff xff)
(L (W x00 x00 x00 x00 x00 x00 x00 x00))
(L (W x00 x00 x80 xbf x00 x00 x80 xbf)))
(T (W x00 x00 x80 x3f x00 x00 x80 x3f)
(L (W x94 x04 x00 x00 x80 x03 x00 x00)) E))
(T (W x68 x00 x00 x00 x5c x00 x00 x00)
(T (W xff xff xff xff xff xff xff xff)
(L (W xff xff xff xff x9c x00 x00 x00)) E)
(T (W x00 x00 x00 x00 x00 x00 x00 x00)
(L (W x00 x00 x00 x00 x00 x00 x00 x00)) E)))
(T (W xff xff xff xff xff xff xff xff)
(T (W x00 x00 x00 x00 x00 x00 x00 x00)
(T (W x00 x00 x00 x00 x00 x00 x00 x00)
(L (W xff xff xff xff xff xff xff xff))
(L (W x00 x00 x01 x01 x5c x00 x00 x00)))
(T (W x00 x00 x00 x00 x00 x00 x00 x00)
(L (W xff xff xff xff xff xff xff xff)) E))
(T (W xff xff xff xff xff xff xff xff)
(T (W x00 x00 x00 x00 x00 x00 x00 x00)
(L (W x18 x00 x00 x00 x0c x00 x00 x00)) E)
(T (W x00 x00 x80 xbf x00 x00 x80 xbf)
(L (W xff xff xff xff xff xff xff xff)) E))))))
(T (W x00 x00 x00 x00 x2a x2f xfd xff)
(T (W x00 x00 x00 x00 x00 x00 x00 x00)
(T (W x00 x00 x80 x3f x00 x00 x80 x3f)
(T (W x00 x00 x80 x3f x00 x00 x80 x3f)
(T (W xff xff xff xff xff xff xff xff)
(T (W x00 x00 x80 x3f x00 x00 x80 x3f)
(L (W x5f x4e x53 x5f x30 x32 x5f x43))
(L (W x45 x44 x00 x00 x00 x00 x00 x00)))
(T (W x00 x00 x00 x00 x00 x00 x00 x00)
(L (W xb0 x00 x00 x00 x64 x00 x00 x00)) E))
(T (W x6b x65 x5f x77 x61 x72 x6c x69)
(T (W xea x02 xfc xff x78 x00 x00 x00)
(L (W x4f x84 x6f x8b xe8 xcb x63 xb7)) E)
(T (W xea x02 xfd xff x78 x00 x00 x00)
(L (W xff xff xff xff xff xff xff xff)) E)))
(T (W x00 x00 x00 x00 x00 x00 x00 x00)
(T (W x00 x00 x00 x00 x00 x00 x00 x00)
(T (W x45 x26 x22 x84 xe4 x9c xf2 xcb)
(L (W x00 x00 x80 xbf x00 x00 x80 xbf))
(L (W x3a xc1 xff xff x74 x00 x00 x00)))
(T (W x00 x00 x00 x00 x00 x00 x00 x00)
(L (W x49 xa1 x68 x4a xeb x5f xdd x3d)) E))
(T (W x45 x26 x22 x84 xe4 x9c xf2 xcb)
(T (W x50 x00 x00 x00 x44 x00 x00 x00)
(L (W x00 x00 x00 x00 xda x43 xfe xff)) E)
(T (W xbc x00 x00 x00 x1e x00 x00 x00)
(L (W x6c x00 x00 x00 x60 x00 x00 x00)) E))))
(T (W x00 x00 x80 x3f x00 x00 x80 x3f)
(T (W x00 x00 x00 x00 x00 x00 x00 x00)
(T (W x00 x00 x80 x3f x00 x00 x80 x3f)
(T (W x6c x00 x00 x00 x60 x00 x00 x00)
(L (W xff xff xff xff xff xff xff xff))
(L (W x94 xb3 xff xff x11 x00 x00 x00)))
(T (W x00 x00 x80 x3f x00 x00 x80 x3f)
(L (W x30 x32 x5f x43 x4c x45 x41 x52)) E))
(T (W x00 x00 x80 x3f x00 x00 x80 x3f)
(T (W xff xff xff xff xff xff xff xff)
(L (W x0c x26 xfe xff x00 x01 x01 x01)) E)
(T (W x02 x00 x00 x00 x30 x01 x00 x00)
(L (W x00 x00 x00 x00 x00 x00 x00 x00)) E)))
(T (W xff xff xff xff xff xff xff xff)
(T (W x22 xf4 xfd xff x5c x00 x00 x00)
(T (W x00 x00 x00 x00 x00 x00 x00 x00)
(L (W xff xff xff xff xa0 x00 x00 x00))
(L (W xff xff xff xff xff xff xff xff)))
(T (W x18 x00 x00 x00 x10 x00 x00 x00)
(L (W x18 x00 x00 x00 x0c x00 x00 x00)) E))
(T (W x18 x00 x00 x00 x0c x00 x00 x00)
(T (W x18 x00 x00 x00 x10 x00 x00 x00)
(L (W x00 x00 x80 xbf x00 x00 x80 xbf)) E)
(T (W x00 x00 x00 x00 x00 x00 x00 x00)
(L (W xb0 x00 x00 x00 x64 x00 x00 x00)) E)))))
(T (W x00 x00 x80 x3f x00 x00 x80 x3f)
(T (W x18 x00 x00 x00 x0c x00 x00 x00)
(T (W x64 x00 x00 x00 x9c x00 x00 x00)
(T (W xff xff xff xff x04 x00 x00 x00)
(T (W xa0 x01 x00 x00 xff xff xff xff)
(L (W x4f x84 x6f x8b xe8 xcb x63 xb7))
(L (W x00 x00 x80 xbf x00 x00 x80 xbf)))
(T (W xff xff xff xff xff xff xff xff)
(L (W xff xff xff xff xff xff xff xff)) E))
(T (W xff xff xff xff x9c x00 x00 x00)
(T (W xff xff xff xff x03 x00 x00 x00)
(L (W x54 x00 x00 x00 x48 x00 x00 x00)) E)
(T (W xff xff xff xff xff xff xff xff)
(L (W x00 x00 x00 x00 x00 x00 x00 x00)) E)))
(T (W x01 x00 x00 x00 x04 x00 x00 x00)
(T (W x00 x00 x00 x00 x00 x00 x00 x00)
(T (W xff xff xff xff xff xff xff xff)
(L (W x6c x00 x00 x00 x60 x00 x00 x00))
(L (W xff xff xff xff xff xff xff xff)))
(T (W x76 x31 x00 x00 xfa xd9 xfc xff)
(L (W x54 x00 x00 x00 x48 x00 x00 x00)) E))
(T (W xff xff xff xff xff xff xff xff)
(T (W x3a x51 xfc xff x74 x00 x00 x00)
(L (W x00 x00 x00 x00 x00 x00 x00 x00)) E)
(T (W x00 x00 x00 x00 x00 x00 x00 x00)
(L (W xff xff xff xff xc8 x00 x00 x00)) E))))
(T (W x50 x00 x00 x00 x44 x00 x00 x00)
(T (W x94 x43 xfa xff x3c x00 x00 x00)
(T (W x00 x00 x80 x3f x00 x00 x80 x3f)
(T (W x00 x00 x00 x00 x00 x00 x00 x00)
(L (W xb0 x00 x00 x00 x64 x00 x00 x00))
(L (W x00 x00 x80 xbf x00 x00 x80 xbf)))
(T (W x00 x00 x80 x3f x00 x00 x80 x3f)
(L (W x46 x53 x59 x53 x5f x4e x53 x5f)) E))
(T (W xff xff xff xff xff xff xff xff)
(T (W x00 x00 x00 x00 x00 x00 x00 x00)
(L (W xff xff xff xff xff xff xff xff)) E)
(T (W x00 x00 x00 x00 x00 x00 x00 x00)
(L (W x00 x00 x00 x00 x00 x00 x00 x00)) E)))
(T (W xff xff xff xff xff xff xff xff)
(T (W x00 x00 x80 x3f x00 x00 x80 x3f)
(T (W x00 x00 x00 x00 x00 x00 x00 x00)
(L (W x30 x32 x5f x43 x4c x45 x41 x52))
(L (W x46 x53 x59 x53 x5f x4e x53 x5f)))
(T (W xff xff xff xff x03 x00 x00 x00)
(L (W xff xff xff xff xff xff xff xff)) E))
(T (W x00 x00 x00 x00 x00 x00 x00 x00)
(T (W x00 x00 x00 x00 x00 x00 x00 x00)
(L (W x00 x00 x00 x00 x7c x74 xfe xff)) E)
(T (W x00 x00 x80 xbf x00 x00 x80 xbf)
(L (W xff xff xff xff xff xff xff xff)) E))))))))
(T (W xe4 x08 x00 x00 xc8 x07 x00 x00)
(T (W x00 x00 x80 x3f x00 x00 x80 x3f)
(T (W x00 x00 x00 x00 x00 x00 x00 x00)
(T (W x6c x00 x00 x00 x60 x00 x00 x00)
(T (W xff xff xff xff xff xff xff xff)
(T (W x00 x00 x00 x00 x00 x00 x00 x00)
(T (W x18 x00 x00 x00 x0c x00 x00 x00)
(T (W xff xff xff xff xff xff xff xff)
(L (W x00 x00 x00 x00 x00 x00 x00 x00))
(L (W xff xff xff xff xff xff xff xff)))
(T (W x1a x00 x00 x00 x10 x00 x00 x00)
(L (W x00 x00 x80 xbf x00 x00 x80 xbf)) E))
(T (W x00 x00 x80 x3f x00 x00 x80 x3f)
(T (W x00 x00 x00 x00 x00 x00 x00 x00)
(L (W xff xff xff xff xff xff xff xff))
(L (W xfc x01 x00 x00 x68 x00 x00 x00)))
(T (W x10 x00 x14 x00 x00 x00 x00 x00)
(L (W xea xf8 xfe xff x78 x00 x00 x00)) E)))
(T (W x3b x01 x00 x00 xff xff xff xff)
(T (W x69 x75 x36 xfe x02 x9c xeb x70)
(T (W x4c x45 x41 x52 x45 x44 x00 x00)
(L (W x00 x00 x00 x00 x00 x00 x00 x00))
(L (W x00 x00 x00 x00 x00 x00 x00 x00)))
(T (W x00 x00 x00 x00 x02 x00 x00 x00)
(L (W x00 x00 x01 x01 x2a x00 x00 x00)) E))
(T (W x00 x00 x00 x00 x7c x3a xfb xff)
(T (W x00 x00 x00 x00 x12 x00 x00 x00)
(L (W x3a x37 xfe xff x74 x00 x00 x00)) E)
(T (W x00 x00 x00 x00 x00 x00 x00 x00)
(L (W x00 x00 x00 x00 x6a x3e xff xff)) E))))
(T (W x3c xe0 xf9 xff x3e x00 x00 x00)
(T (W x50 x00 x00 x00 x44 x00 x00 x00)
(T (W x00 x00 x00 x00 x00 x00 x00 x00)
(T (W xff xff xff xff xff xff xff xff)
(L (W x4c x45 x41 x52 x45 x44 x00 x00))
(L (W x00 x00 x00 x00 x00 x00 x00 x00)))
(T (W x18 x00 x00 x00 x0c x00 x00 x00)
(L (W x18 x00 x00 x00 x1b x00 x00 x00)) E))
(T (W xff xff xff xff xff xff xff xff)
(T (W x45 x26 x22 x84 xe4 x9c xf2 xcb)
(L (W x00 x00 x00 x00 x00 x00 x00 x00)) E)
(T (W x00 x00 x00 x00 x00 x00 x00 x00)
(L (W xff xff xff xff xff xff xff xff)) E)))
(T (W xff xff xff xff x03 x00 x00 x00)
(T (W xff xff xff xff xff xff xff xff)
(T (W xff xff xff xff x03 x00 x00 x00)
(L (W x4f x84 x6f x8b xe8 xcb x63 xb7))
(L (W x45 x26 x22 x84 xe4 x9c xf2 xcb)))
(T (W xff xff xff xff xbc x00 x00 x00)
(L (W x00 x00 x00 x00 x00 x00 x00 x00)) E))
(T (W xff xff xff xff xff xff xff xff)
(T (W x49 xa1 x68 x4a xeb x5f xdd x3d)
(L (W x00 x00 x00 x00 x00 x00 x00 x00)) E)
(T (W xff xff xff xff xff xff xff xff)
(L (W x00 x00 x80 xbf x00 x00 x80 xbf)) E)))))
(T (W x00 x00 x00 x00 x7c xaa xf9 xff)
(T (W xff xff xff xff xff xff xff xff)
(T (W x00 x00 x00 x00 x00 x00 x00 x00)
(T (W x00 x00 x80 x3f x00 x00 x80 x3f)
(T (W x00 x00 x80 x3f x00 x00 x80 x3f)
(L (W x15 x00 x00 x00 xff xff xff xff))
(L (W xff xff xff xff xff xff xff xff)))
(T (W xff xff xff xff xff xff xff xff)
(L (W x54 x00 x00 x00 x48 x00 x00 x00)) E))
(T (W x00 x00 x00 x00 x00 x00 x00 x00)
(T (W x45 x26 x22 x84 xe4 x9c xf2 xcb)
(L (W x08 x00 x00 x00 x20 x08 x00 x00)) E)
(T (W xff xff xff xff xff xff xff xff)
(L (W xff xff xff xff xc8 x00 x00 x00)) E)))
(T (W xff xff xff xff xff xff xff xff)
(T (W xff xff xff xff xff xff xff xff)
(T (W x00 x00 x80 x3f x00 x00 x80 x3f)
(L (W x46 x53 x59 x53 x5f x4e x53 x5f))
(L (W x54 x00 x00 x00 x48 x00 x00 x00)))
(T (W x00 x00 x00 x00 x00 x00 x00 x00)
(L (W x00 x00 x00 x00 x00 x00 x00 x00)) E))
(T (W x00 x00 x80 x3f x00 x00 x80 x3f)
(T (W x00 x00 x00 x00 x00 x00 x00 x00)
(L (W xb8 x00 x00 x00 x64 x00 x00 x00)) E)
(T (W x00 x00 x80 xbf x00 x00 x80 xbf)
(L (W x00 x00 x00 x00 x00 x00 x00 x00)) E))))
(T (W x45 x26 x22 x84 xe4 x9c xf2 xcb)
(T (W xff xff xff xff xff xff xff xff)
(T (W x00 x00 x00 x00 x00 x00 x00 x00)
(T (W x00 x00 x80 x3f x00 x00 x80 x3f)
(L (W x00 x00 x00 x00 x00 x00 x00 x00))
(L (W x00 x00 x00 x00 x00 x00 x00 x00)))
(T (W x21 x00 x00 x00 x67 x72 x6f x75)
(L (W xc4 x00 x00 x00 x02 x00 x00 x00)) E))
(T (W x00 x00 x00 x00 x00 x00 x00 x00)
(T (W xb0 x00 x00 x00 x64 x00 x00 x00)
(L (W x00 x00 x80 xbf x00 x00 x80 xbf)) E)
(T (W x5d x00 x00 x00 xff xff xff xff)
(L (W xff xff xff xff xff xff xff xff)) E)))
(T (W xff xff xff xff xff xff xff xff)
(T (W xff xff xff xff xff xff xff xff)
(T (W x4b x00 x00 x00 xff xff xff xff)
(L (W xcc x00 x00 x00 x02 x00 x00 x00))
(L (W x45 x26 x22 x84 xe4 x9c xf2 xcb)))
(T (W xa2 xfb xff xff x00 x00 x01 x01)
(L (W x00 x00 x80 xbf x00 x00 x80 xbf)) E))
(T (W x00 x00 x80 x3f x00 x00 x80 x3f)
(T (W x3c x70 xfc xff x26 x00 x00 x00)
(L (W x00 x00 x00 x00 x00 x00 x00 x00)) E)
(T (W x00 x00 x00 x00 x00 x00 x00 x00)
(L (W xea x68 xff xff x78 x00 x00 x00)) E))))))
(T (W xff xff xff xff xff xff xff xff)
(T (W x00 x00 x00 x00 x2a x3d xfd xff)
(T (W x00 x00 x80 x3f x00 x00 x80 x3f)
(T (W x00 x00 x00 x00 x00 x00 x00 x00)
(T (W x68 x00 x00 x00 x5c x00 x00 x00)
(T (W x00 x00 x00 x00 x00 x00 x00 x00)
(L (W x3c x88 xfd xff x19 x00 x00 x00))
(L (W xff xff xff xff xff xff xff xff)))
(T (W xff xff xff xff xff xff xff xff)
(L (W x54 x00 x00 x00 x48 x00 x00 x00)) E))
(T (W xff xff xff xff xff xff xff xff)
(T (W x00 x00 x00 x00 x00 x00 x00 x00)
(L (W x45 x44 x00 x00 x00 x00 x00 x00))
(L (W x00 x00 x00 x00 x00 x00 x00 x00)))
(T (W x63 x6f x77 x61 x72 x64 x5f x63)
(L (W x45 x26 x22 x84 xe4 x9c xf2 xcb)) E)))
(T (W xff xff xff xff xff xff xff xff)
(T (W x6c x00 x00 x00 xff xff xff xff)
(T (W x45 x26 x22 x84 xe4 x9c xf2 xcb)
(L (W x84 x0b x00 x00 x68 x0a x00 x00))
(L (W x45 x26 x22 x84 xe4 x9c xf2 xcb)))
(T (W xff xff xff xff xff xff xff xff)
(L (W x4b x00 x00 x00 xff xff xff xff)) E))
(T (W x98 x03 x00 x00 x70 x02 x00 x00)
(T (W x00 x00 x00 x00 x00 x00 x00 x00)
(L (W xff xff xff xff xff xff xff xff)) E)
(T (W x45 x26 x22 x84 xe4 x9c xf2 xcb)
(L (W x00 x00 x00 x00 x00 x00 x00 x00)) E))))
(T (W x00 x00 x00 x00 x00 x00 x00 x00)
(T (W xff xff xff xff xff xff xff xff)
(T (W x00 x00 x00 x00 x00 x00 x00 x00)
(T (W x00 x00 x00 x00 x00 x00 x00 x00)
(L (W x54 x00 x00 x00 x48 x00 x00 x00))
(L (W x5c x00 x00 x00 x50 x00 x00 x00)))
(T (W x00 x00 x00 x00 x00 x00 x00 x00)
(L (W xff xff xff xff x9c x00 x00 x00)) E))
(T (W x30 x32 x5f x43 x4c x45 x41 x52)
(T (W x01 x00 x00 x00 x19 x00 x00 x00)
(L (W x00 x00 x80 xbf x00 x00 x80 xbf)) E)
(T (W x03 x00 x00 x00 xd0 x00 x00 x00)
(L (W x00 x00 x01 x01 x19 x00 x00 x00)) E)))
(T (W xff xff xff xff xff xff xff xff)
(T (W xff xff xff xff xff xff xff xff)
(T (W xff xff xff xff xff xff xff xff)
(L (W x00 x00 x80 xbf x00 x00 x80 xbf))
(L (W x50 x00 x00 x00 x44 x00 x00 x00)))
(T (W x40 x0e x00 x00 xbc x0c x00 x00)
(L (W x00 x00 x80 xbf x00 x00 x80 xbf)) E))
(T (W x49 xa1 x68 x4a xeb x5f xdd x3d)
(T (W x00 x00 x80 x3f x00 x00 x80 x3f)
(L (W x00 x00 x00 x00 x00 x00 x00 x00)) E)
(T (W x00 x00 x00 x00 x00 x00 x00 x00)
(L (W x54 x00 x00 x00 x48 x00 x00 x00)) E)))))
(T (W x00 x00 x00 x00 x00 x00 x00 x00)
(T (W x54 x00 x00 x00 x48 x00 x00 x00)
(T (W x00 x00 x80 x3f x00 x00 x80 x3f)
(T (W x00 x00 x80 x3f x00 x00 x80 x3f)
(T (W x00 x00 x00 x00 x7c x92 xfb xff)
(L (W x00 x00 x00 x00 x00 x00 x00 x00))
(L (W x46 x53 x59 x53 x5f x4e x53 x5f)))
(T (W x64 x00 x00 x00 x9c x00 x00 x00)
(L (W x00 x00 x00 x00 x7c x92 xfe xff)) E))
(T (W x00 x00 x00 x00 x00 x00 x00 x00)
(T (W x6c x00 x00 x00 x60 x00 x00 x00)
(L (W x30 x32 x5f x43 x4c x45 x41 x52)) E)
(T (W x68 x00 x00 x00 x5c x00 x00 x00)
(L (W xff xff xff xff xff xff xff xff)) E)))
(T (W x64 x00 x00 x00 x9c x00 x00 x00)
(T (W xff xff xff xff xff xff xff xff)
(T (W xff xff xff xff x9c x00 x00 x00)
(L (W x45 x26 x22 x84 xe4 x9c xf2 xcb))
(L (W x00 x00 x80 xbf x00 x00 x80 xbf)))
(T (W x45 x26 x22 x84 xe4 x9c xf2 xcb)
(L (W x00 x00 x00 x00 x00 x00 x00 x00)) E))
(T (W x21 x00 x00 x00 x24 x00 x00 x00)
(T (W x00 x00 x80 x3f x00 x00 x80 x3f)
(L (W xff xff xff xff xff xff xff xff)) E)
(T (W xff xff xff xff x9c x00 x00 x00)
(L (W x45 x26 x22 x84 xe4 x9c xf2 xcb)) E))))
(T (W x00 x00 x80 x3f x00 x00 x80 x3f)
(T (W xff xff xff xff xff xff xff xff)
(T (W x00 x00 x00 x00 x00 x00 x00 x00)
(T (W xff xff xff xff xff xff xff xff)
(L (W x00 x00 x00 x00 x7c xb2 xfd xff))
(L (W x45 x26 x22 x84 xe4 x9c xf2 xcb)))
(T (W x00 x00 x00 x00 x00 x00 x00 x00)
(L (W xff xff xff xff xbc x00 x00 x00)) E))
(T (W x00 x00 x80 x3f x00 x00 x80 x3f)
(T (W xff xff xff xff xff xff xff xff)
(L (W x6c x00 x00 x00 x60 x00 x00 x00)) E)
(T (W x02 x00 x00 x00 x30 x01 x00 x00)
(L (W xff xff xff xff xff xff xff xff)) E)))
(T (W x45 x26 x22 x84 xe4 x9c xf2 xcb)
(T (W x00 x00 x00 x00 x00 x00 x00 x00)
(T (W x00 x00 x00 x00 x1a xf0 xfb xff)
(L (W xff xff xff xff xff xff xff xff))
(L (W xff xff xff xff xff xff xff xff)))
(T (W x00 x00 x80 x3f x00 x00 x80 x3f)
(L (W x6c x00 x00 x00 x60 x00 x00 x00)) E))
(T (W xff xff xff xff xff xff xff xff)
(T (W xff xff xff xff xff xff xff xff)
(L (W x00 x00 x80 xbf x00 x00 x80 xbf)) E)
(T (W x03 x00 x00 x00 xd4 x00 x00 x00)
(L (W xb4 x00 x00 x00 x46 x00 x00 x00)) E)))))))
(T (W xff xff xff xff xff xff xff xff)
(T (W x54 x00 x00 x00 x48 x00 x00 x00)
(T (W xff xff xff xff x03 x00 x00 x00)
(T (W x00 x00 x00 x00 x00 x00 x00 x00)
(T (W xff xff xff xff xff xff xff xff)
(T (W x00 x00 x00 x00 x00 x00 x00 x00)
(T (W x45 x26 x22 x84 xe4 x9c xf2 xcb)
(L (W x0c x80 xfd xff x00 x01 x01 x01))
(L (W x00 x00 x00 x00 x00 x00 x00 x00)))
(T (W x00 x00 x80 x3f x00 x00 x80 x3f)
(L (W x54 x02 x00 x00 x38 x01 x00 x00)) E))
(T (W x00 x00 x00 x00 x00 x00 x00 x00)
(T (W x18 x00 x00 x00 x10 x00 x00 x00)
(L (W x00 x00 x80 xbf x00 x00 x80 xbf))
(L (W x0c x00 x00 x00 x00 x01 x01 x01)))
(T (W x63 x6f x77 x61 x72 x64 x5f x63)
(L (W x18 x01 x00 x00 xff xff xff xff)) E)))
(T (W x00 x00 x80 x3f x00 x00 x80 x3f)
(T (W x68 x00 x00 x00 x5c x00 x00 x00)
(T (W xff xff xff xff xff xff xff xff)
(L (W x45 x26 x22 x84 xe4 x9c xf2 xcb))
(L (W xff xff xff xff xff xff xff xff)))
(T (W x00 x00 x80 x3f x00 x00 x80 x3f)
(L (W x00 x00 x80 xbf x00 x00 x80 xbf)) E))
(T (W x4f x84 x6f x8b xe8 xcb x63 xb7)
(T (W x01 x00 x00 x00 x22 x00 x00 x00)
(L (W x00 x00 x00 x00 x00 x00 x00 x00)) E)
(T (W xff xff xff xff xff xff xff xff)
(L (W x45 x26 x22 x84 xe4 x9c xf2 xcb)) E))))
(T (W x64 x00 x00 x00 x9c x00 x00 x00)
(T (W x00 x00 x80 x3f x00 x00 x80 x3f)
(T (W x45 x26 x22 x84 xe4 x9c xf2 xcb)
(T (W x50 x00 x00 x00 x44 x00 x00 x00)
(L (W x18 x00 x00 x00 x0c x00 x00 x00))
(L (W xff xff xff xff xff xff xff xff)))
(T (W x00 x00 x00 x00 x00 x00 x00 x00)
(L (W x00 x00 x00 x00 x00 x00 x00 x00)) E))
(T (W x68 x00 x00 x00 x5c x00 x00 x00)
(T (W x00 x00 x00 x00 x12 x00 x00 x00)
(L (W xff xff xff xff xff xff xff xff)) E)
(T (W x00 x00 x80 xbf x00 x00 x80 xbf)
(L (W x00 x00 x80 xbf x00 x00 x80 xbf)) E)))
(T (W x00 x00 x00 x00 x00 x00 x00 x00)
(T (W x45 x26 x22 x84 xe4 x9c xf2 xcb)
(T (W x00 x00 x80 x3f x00 x00 x80 x3f)
(L (W xff xff xff xff xff xff xff xff))
(L (W x00 x00 x00 x00 x00 x00 x00 x00)))
(T (W x00 x00 x80 x3f x00 x00 x80 x3f)
(L (W xff xff xff xff xff xff xff xff)) E))
(T (W x45 x26 x22 x84 xe4 x9c xf2 xcb)
(T (W xa2 x6f xff xff x00 x00 x01 x01)
(L (W xff xff xff xff xb0 x00 x00 x00)) E)
(T (W x00 x00 x80 xbf x00 x00 x80 xbf)
(L (W x00 x00 x00 x00 x00 x00 x00 x00)) E)))))
(T (W xff xff xff xff xff xff xff xff)
(T (W x00 x00 x00 x00 x00 x00 x00 x00)
(T (W xff xff xff xff x04 x00 x00 x00)
(T (W xff xb5 x07 x73 x55 x67 xb2 xeb)
(T (W x34 x01 x00 x00 x04 x00 x00 x00)
(L (W x00 x00 x80 xbf x00 x00 x80 xbf))
(L (W x50 x00 x00 x00 x44 x00 x00 x00)))
(T (W x00 x00 x00 x00 x00 x00 x00 x00)
(L (W x00 x00 x00 x00 x00 x00 x00 x00)) E))
(T (W x45 x26 x22 x84 xe4 x9c xf2 xcb)
(T (W xff xff xff xff xff xff xff xff)
(L (W x18 x00 x00 x00 x10 x00 x00 x00)) E)
(T (W x00 x00 x80 xbf x00 x00 x80 xbf)
(L (W x00 x00 x00 x00 x00 x00 x00 x00)) E)))
(T (W x45 x26 x22 x84 xe4 x9c xf2 xcb)
(T (W x00 x00 x80 x3f x00 x00 x80 x3f)
(T (W x00 x00 x00 x00 x00 x00 x00 x00)
(L (W x0c xd0 xfd xff x00 x01 x01 x01))
(L (W xff xff xff xff xff xff xff xff)))
(T (W x00 x00 x00 x00 x68 x00 x6c x00)
(L (W x45 x26 x22 x84 xe4 x9c xf2 xcb)) E))
(T (W x00 x00 x00 x00 x06 x00 x00 x00)
(T (W xff xff xff xff xff xff xff xff)
(L (W x00 x00 x80 xbf x00 x00 x80 xbf)) E)
(T (W xff xff xff xff xff xff xff xff)
(L (W xff xff xff xff xff xff xff xff)) E))))
(T (W xff xff xff xff xff xff xff xff)
(T (W x00 x00 x80 x3f x00 x00 x80 x3f)
(T (W x00 x00 x80 x3f x00 x00 x80 x3f)
(T (W x00 x00 x00 x00 x12 x00 x00 x00)
(L (W x00 x00 x80 xbf x00 x00 x80 xbf))
(L (W x18 x00 x00 x00 x0c x00 x00 x00)))
(T (W x45 x26 x22 x84 xe4 x9c xf2 xcb)
(L (W x00 x00 x80 xbf x00 x00 x80 xbf)) E))
(T (W xff xff xff xff xff xff xff xff)
(T (W x00 x00 x80 x3f x00 x00 x80 x3f)
(L (W x30 x32 x5f x43 x4c x45 x41 x52)) E)
(T (W x00 x00 x80 xbf x00 x00 x80 xbf)
(L (W x00 x00 x80 xbf x00 x00 x80 xbf)) E)))
(T (W x94 x7d xfa xff x3c x00 x00 x00)
(T (W x00 x00 x00 x00 x00 x00 x00 x00)
(T (W x00 x00 x80 x3f x00 x00 x80 x3f)
(L (W x00 x00 x00 x00 x00 x00 x00 x00))
(L (W x00 x00 x00 x00 x00 x00 x00 x00)))
(T (W x00 x00 x80 x3f x00 x00 x80 x3f)
(L (W x00 x00 x00 x00 x00 x00 x00 x00)) E))
(T (W x00 x00 x00 x00 x1a x6c xfb xff)
(T (W x00 x00 x80 x3f x00 x00 x80 x3f)
(L (W xff xff xff xff xff xff xff xff)) E)
(T (W x18 x00 x00 x00 x10 x00 x00 x00)
(L (W x00 x00 x00 x00 x00 x00 x00 x00)) E))))))
(T (W x00 x00 x00 x00 x00 x00 x00 x00)
(T (W x45 x26 x22 x84 xe4 x9c xf2 xcb)
(T (W x45 x26 x22 x84 xe4 x9c xf2 xcb)
(T (W xb8 x00 x00 x00 xac x00 x00 x00)
(T (W x00 x00 x00 x00 x00 x00 x00 x00)
(T (W x18 x00 x00 x00 x10 x00 x00 x00)
(L (W x00 x00 x80 xbf x00 x00 x80 xbf))
(L (W x00 x00 x80 xbf x00 x00 x80 xbf)))
(T (W x00 x00 x80 x3f x00 x00 x80 x3f)
(L (W x45 x44 x00 x00 x00 x00 x00 x00)) E))
(T (W x54 x00 x00 x00 x48 x00 x00 x00)
(T (W xff xff xff xff xff xff xff xff)
(L (W x54 x00 x00 x00 x48 x00 x00 x00)) E)
(T (W x2d x00 x00 x00 x10 x00 x00 x00)
(L (W x00 x00 x00 x00 x00 x00 x00 x00)) E)))
(T (W x00 x00 x80 x3f x00 x00 x80 x3f)
(T (W x3a xc3 xfa xff x74 x00 x00 x00)
(T (W x00 x00 x00 x00 x00 x00 x00 x00)
(L (W xff xff xff xff xa0 x00 x00 x00))
(L (W xff xff xff xff xff xff xff xff)))
(T (W x00 x00 x80 x3f x00 x00 x80 x3f)
(L (W x54 x00 x00 x00 x48 x00 x00 x00)) E))
(T (W x45 x26 x22 x84 xe4 x9c xf2 xcb)
(T (W xff xff xff xff x9c x00 x00 x00)
(L (W x00 x00 x00 x00 x00 x00 x00 x00)) E)
(T (W xff xff xff xff xff xff xff xff)
(L (W xff xff xff xff xff xff xff xff)) E))))
(T (W xff xff xff xff xff xff xff xff)
(T (W x00 x00 x80 x3f x00 x00 x80 x3f)
(T (W x68 x00 x00 x00 x5c x00 x00 x00)
(T (W xff xff xff xff x01 x00 x00 x00)
(L (W xff xff xff xff xff xff xff xff))
(L (W x00 x00 x80 xbf x00 x00 x80 xbf)))
(T (W x45 x26 x22 x84 xe4 x9c xf2 xcb)
(L (W x49 xa1 x68 x4a xeb x5f xdd x3d)) E))
(T (W x45 x26 x22 x84 xe4 x9c xf2 xcb)
(T (W x00 x00 x00 x00 x00 x00 x00 x00)
(L (W xff xff xff xff xff xff xff xff)) E)
(T (W x00 x00 x00 x00 x00 x00 x00 x00)
(L (W x00 x00 x80 xbf x00 x00 x80 xbf)) E)))
(T (W x00 x00 x00 x00 x00 x00 x00 x00)
(T (W x00 x00 x00 x00 x00 x00 x00 x00)
(T (W x00 x00 x80 x3f x00 x00 x80 x3f)
(L (W xff xff xff xff xff xff xff xff))
(L (W x00 x00 x00 x00 x12 x00 x00 x00)))
(T (W x25 x00 x00 x00 x67 x72 x6f x75)
(L (W xff xff xff xff xff xff xff xff)) E))
(T (W xff xff xff xff xff xff xff xff)
(T (W x45 x26 x22 x84 xe4 x9c xf2 xcb)
(L (W xff xff xff xff xff xff xff xff)) E)
(T (W x6c x00 x00 x00 x60 x00 x00 x00)
(L (W x46 x53 x59 x53 x5f x4e x53 x5f)) E)))))
(T (W x00 x00 x80 x3f x00 x00 x80 x3f)
(T (W xff xff xff xff xff xff xff xff)
(T (W x00 x00 x00 x00 x02 x00 x00 x00)
(T (W x74 x00 x04 x00 x68 x00 x08 x00)
(T (W x00 x00 x00 x00 x12 x00 x00 x00)
(L (W x3a x93 xfd xff x74 x00 x00 x00))
(L (W x03 x00 x00 x00 xd8 x00 x00 x00)))
(T (W x00 x00 x00 x00 x00 x00 x00 x00)
(L (W x46 x53 x59 x53 x5f x4e x53 x5f)) E))
(T (W x00 x00 x80 x3f x00 x00 x80 x3f)
(T (W xff xff xff xff xff xff xff xff)
(L (W x03 x00 x00 x00 xd8 x00 x00 x00)) E)
(T (W x00 x00 x00 x00 x00 x00 x00 x00)
(L (W x00 x00 x80 xbf x00 x00 x80 xbf)) E)))
(T (W x45 x26 x22 x84 xe4 x9c xf2 xcb)
(T (W x00 x00 x80 x3f x00 x00 x80 x3f)
(T (W x00 x00 x00 x00 x00 x00 x00 x00)
(L (W xff xff xff xff xff xff xff xff))
(L (W x00 x00 x00 x00 x00 x00 x00 x00)))
(T (W x45 x26 x22 x84 xe4 x9c xf2 xcb)
(L (W xff xff xff xff xc8 x00 x00 x00)) E))
(T (W x00 x00 x80 x3f x00 x00 x80 x3f)
(T (W x4b x00 x00 x00 xff xff xff xff)
(L (W x6c x00 x00 x00 x60 x00 x00 x00)) E)
(T (W x00 x00 x00 x00 x00 x00 x00 x00)
(L (W x29 x00 x00 x00 xff xff xff xff)) E))))
(T (W xb8 x00 x00 x00 xac x00 x00 x00)
(T (W x00 x00 x80 x3f x00 x00 x80 x3f)
(T (W x50 x00 x00 x00 x44 x00 x00 x00)
(T (W x00 x00 x80 x3f x00 x00 x80 x3f)
(L (W xff xff xff xff xff xff xff xff))
(L (W xff xff xff xff x9c x00 x00 x00)))
(T (W x0c xb8 xfc xff x00 x01 x01 x01)
(L (W x00 x00 x80 xbf x00 x00 x80 xbf)) E))
(T (W x00 x00 x00 x00 x00 x00 x00 x00)
(T (W x45 x26 x22 x84 xe4 x9c xf2 xcb)
(L (W x94 x45 xfe xff x19 x00 x00 x00)) E)
(T (W x3a x33 xfd xff x74 x00 x00 x00)
(L (W xea x34 xff xff x78 x00 x00 x00)) E)))
(T (W x00 x00 x00 x00 x00 x00 x00 x00)
(T (W x68 x00 x00 x00 x5c x00 x00 x00)
(T (W x24 x00 x00 x00 xb0 x00 x00 x00)
(L (W x00 x00 x80 xbf x00 x00 x80 xbf))
(L (W x00 x00 x80 xbf x00 x00 x80 xbf)))
(T (W xff xff xff xff xff xff xff xff)
(L (W x53 x83 xa7 x28 xbf x48 x53 x6a)) E))
(T (W x00 x00 x00 x00 x00 x00 x00 x00)
(T (W x18 x00 x00 x00 x0c x00 x00 x00)
(L (W x00 x00 x00 x00 x00 x00 x00 x00)) E)
(T (W x00 x00 x00 x00 x7c x76 xfd xff)
(L (W x00 x00 x00 x00 x00 x00 x00 x00)) E)))))))))
(T (W x58 x28 x02 x00 xfc x25 x02 x00)
(T (W x78 xa9 x00 x00 x2c xa7 x00 x00)
(T (W x00 x00 x80 x3f x00 x00 x80 x3f)
(T (W x00 x00 x00 x00 x00 x00 x00 x00)
(T (W x00 x00 x80 x3f x00 x00 x80 x3f)
(T (W x64 x00 x00 x00 xa0 x00 x00 x00)
(T (W x94 x08 xfa xff x3e x00 x00 x00)
(T (W x00 x00 x80 x3f x00 x00 x80 x3f)
(T (W xff xff xff xff xff xff xff xff)
(L (W xff xff xff xff xff xff xff xff))
(L (W xbc x00 x00 x00 x1e x00 x00 x00)))
(T (W xff xff xff xff xff xff xff xff)
(L (W x00 x00 x80 xbf x00 x00 x80 xbf)) E))
(T (W x64 x00 x0c x00 x00 x00 x00 x00)
(T (W x00 x00 x00 x00 x1a xf7 xfb xff)
(L (W xff xff xff xff x9c x00 x00 x00))
(L (W xb4 x00 x00 x00 x64 x00 x00 x00)))
(T (W xff xff xff xff xff xff xff xff)
(L (W x00 x00 x80 xbf x00 x00 x80 xbf)) E)))
(T (W xff xff xff xff xff xff xff xff)
(T (W xff xff xff xff xff xff xff xff)
(T (W x00 x00 x01 x01 x9c x01 x00 x00)
(L (W xa2 xf9 xff xff xc9 x00 x00 x00))
(L (W x00 x00 x00 x00 x00 x00 x00 x00)))
(T (W xff xff xff xff xff xff xff xff)
(L (W xff xff xff xff xc4 x00 x00 x00)) E))
(T (W x00 x00 x80 x3f x00 x00 x80 x3f)
(T (W x34 x01 x00 x00 x04 x00 x00 x00)
(L (W x00 x00 x80 xbf x00 x00 x80 xbf)) E)
(T (W x97 x6d xca xc9 x03 x91 xa3 xbc)
(L (W xff xff xff xff xff xff xff xff)) E))))
(T (W xff xff xff xff xff xff xff xff)
(T (W x00 x00 x80 x3f x00 x00 x80 x3f)
(T (W x00 x00 x00 x00 x00 x00 x00 x00)
(T (W xff xff xff xff x9c x00 x00 x00)
(L (W xc9 x00 x00 x00 xff xff xff xff))
(L (W x30 x32 x5f x43 x4c x45 x41 x52)))
(T (W x00 x00 x80 x3f x00 x00 x80 x3f)
(L (W x00 x00 x00 x00 x7c x99 xfe xff)) E))
(T (W xff xff xff xff x9c x00 x00 x00)
(T (W x00 x00 x80 x3f x00 x00 x80 x3f)
(L (W x46 x53 x59 x53 x5f x4e x53 x5f)) E)
(T (W x3c x1f xfd xff x1e x00 x00 x00)
(L (W xff xff xff xff xff xff xff xff)) E)))
(T (W x1f x00 x00 x00 x9c x00 x00 x00)
(T (W xff xff xff xff xff xff xff xff)
(T (W xff xff xff xff x9c x00 x00 x00)
(L (W x00 x00 x00 x00 x00 x00 x00 x00))
(L (W x45 x26 x22 x84 xe4 x9c xf2 xcb)))
(T (W x45 x26 x22 x84 xe4 x9c xf2 xcb)
(L (W x00 x00 x00 x00 x00 x00 x00 x00)) E))
(T (W xff xff xff xff xff xff xff xff)
(T (W x00 x00 x00 x00 x00 x00 x00 x00)
(L (W xff xff xff xff xff xff xff xff)) E)
(T (W xff xff xff xff xc8 x00 x00 x00)
(L (W x45 x26 x22 x84 xe4 x9c xf2 xcb)) E)))))
(T (W x6c x00 x00 x00 x60 x00 x00 x00)
(T (W xff xff xff xff xff xff xff xff)
(T (W x00 x00 x00 x00 x00 x00 x00 x00)
(T (W x45 x26 x22 x84 xe4 x9c xf2 xcb)
(T (W x45 x26 x22 x84 xe4 x9c xf2 xcb)
(L (W xff xff xff xff xff xff xff xff))
(L (W xff xff xff xff xff xff xff xff)))
(T (W x64 x00 x00 x00 x9c x00 x00 x00)
(L (W x00 x00 x80 xbf x00 x00 x80 xbf)) E))
(T (W xff xff xff xff x01 x00 x00 x00)
(T (W x00 x00 x00 x00 x00 x00 x00 x00)
(L (W xff xff xff xff xff xff xff xff)) E)
(T (W x94 xec xff xff x01 x01 x01 x01)
(L (W x45 x26 x22 x84 xe4 x9c xf2 xcb)) E)))
(T (W x00 x00 x00 x00 x7c x49 xfa xff)
(T (W xb8 x00 x00 x00 xac x00 x00 x00)
(T (W x45 x26 x22 x84 xe4 x9c xf2 xcb)
(L (W x00 x00 x00 x00 xda xc8 xfd xff))
(L (W x00 x00 x00 x00 x00 x00 x00 x00)))
(T (W xff xff xff xff xff xff xff xff)
(L (W x00 x00 x00 x00 x00 x00 x00 x00)) E))
(T (W x70 x5f x6c x65 x61 x64 x65 x72)
(T (W x00 x00 x00 x00 x00 x00 x00 x00)
(L (W x0c x4b xfe xff x00 x01 x01 x01)) E)
(T (W x00 x00 x00 x00 x00 x00 x00 x00)
(L (W x00 x00 x00 x00 x00 x00 x00 x00)) E))))
(T (W x00 x00 x00 x00 x00 x00 x00 x00)
(T (W xff xff xff xff xff xff xff xff)
(T (W xd1 x01 x00 x00 xff xff xff xff)
(T (W x00 x00 x80 x3f x00 x00 x80 x3f)
(L (W x00 x00 x00 x00 x00 x00 x00 x00))
(L (W x06 x00 x00 x00 xc0 x05 x00 x00)))
(T (W xff xff xff xff xff xff xff xff)
(L (W x45 x26 x22 x84 xe4 x9c xf2 xcb)) E))
(T (W x30 x32 x5f x43 x4c x45 x41 x52)
(T (W x0c x2b xfc xff x00 x01 x01 x01)
(L (W x49 xa1 x68 x4a xeb x5f xdd x3d)) E)
(T (W xff xff xff xff xff xff xff xff)
(L (W x03 x00 x00 x00 xd0 x00 x00 x00)) E)))
(T (W x68 x00 x00 x00 x5c x00 x00 x00)
(T (W x18 x00 x00 x00 x10 x00 x00 x00)
(T (W xff xff xff xff xbc x00 x00 x00)
(L (W x45 x26 x22 x84 xe4 x9c xf2 xcb))
(L (W x54 x00 x00 x00 x48 x00 x00 x00)))
(T (W xff xff xff xff xff xff xff xff)
(L (W x00 x00 x00 x00 x00 x00 x00 x00)) E))
(T (W x00 x00 x80 x3f x00 x00 x80 x3f)
(T (W xff xff xff xff xff xff xff xff)
(L (W x00 x00 x00 x00 x00 x00 x00 x00)) E)
(T (W x53 x01 x00 x00 xff xff xff xff)
(L (W x00 x00 x80 xbf x00 x00 x80 xbf)) E))))))
(T (W xff xff xff xff xff xff xff xff)
(T (W x1a x00 x00 x00 xff xff xff xff)
(T (W x45 x26 x22 x84 xe4 x9c xf2 xcb)
(T (W x00 x00 x00 x00 x00 x00 x00 x00)
(T (W x00 x00 x80 x3f x00 x00 x80 x3f)
(T (W x46 x53 x59 x53 x5f x4e x53 x5f)
(L (W xff xff xff xff xff xff xff xff))
(L (W x03 x00 x00 x00 xd0 x00 x00 x00)))
(T (W xff xff xff xff xff xff xff xff)
(L (W x00 x00 x80 xbf x00 x00 x80 xbf)) E))
(T (W x3a xfe xfa xff x74 x00 x00 x00)
(T (W x00 x00 x00 x00 x00 x00 x00 x00)
(L (W xff xff xff xff xff xff xff xff))
(L (W x0c x00 x0a x00 x07 x00 x00 x00)))
(T (W xff xff xff xff xff xff xff xff)
(L (W x54 x00 x00 x00 x48 x00 x00 x00)) E)))
(T (W x64 x00 x00 x00 x9c x00 x00 x00)
(T (W xff xff xff xff xff xff xff xff)
(T (W x00 x00 x00 x00 x00 x00 x00 x00)
(L (W xff xff xff xff xff xff xff xff))
(L (W x00 x00 x00 x00 x00 x00 x00 x00)))
(T (W xff xff xff xff xff xff xff xff)
(L (W xff xff xff xff xff xff xff xff)) E))
(T (W xb0 x00 x00 x00 x64 x00 x00 x00)
(T (W x00 x00 x00 x00 x00 x00 x00 x00)
(L (W x00 x00 x80 xbf x00 x00 x80 xbf)) E)
(T (W x00 x00 x00 x00 x00 x00 x00 x00)
(L (W x24 x02 x00 x00 xff xff xff xff)) E))))
(T (W x00 x00 x00 x00 x00 x00 x00 x00)
(T (W xff xff xff xff xff xff xff xff)
(T (W xf0 x96 xae xaa xaa x04 xc4 x1a)
(T (W x94 xb0 xfb xff x10 x00 x00 x00)
(L (W x00 x00 x00 x00 x00 x00 x00 x00))
(L (W x00 x00 x00 x00 x00 x00 x00 x00)))
(T (W x6d xc4 x33 x97 x85 xae x5f x5f)
(L (W xea x9f xfe xff x78 x00 x00 x00)) E))
(T (W xa1 x01 x00 x00 xff xff xff xff)
(T (W x00 x00 x80 x3f x00 x00 x80 x3f)
(L (W x00 x00 x00 x00 x00 x00 x00 x00)) E)
(T (W x78 x21 xfd xff x5a xd1 xff xff)
(L (W xff xff xff xff xff xff xff xff)) E)))
(T (W x01 x00 x00 x00 x3e x00 x00 x00)
(T (W xff xff xff xff xff xff xff xff)
(T (W x18 x00 x00 x00 x0c x00 x00 x00)
(L (W x4f x84 x6f x8b xe8 xcb x63 xb7))
(L (W x00 x00 x80 xbf x00 x00 x80 xbf)))
(T (W xb0 x00 x00 x00 x64 x00 x00 x00)
(L (W x00 x00 x00 x00 x00 x00 x00 x00)) E))
(T (W x3c x67 xfb xff x15 x00 x00 x00)
(T (W x00 x00 x80 x3f x00 x00 x80 x3f)
(L (W x00 x00 x00 x00 x00 x00 x00 x00)) E)
(T (W xff xff xff xff xff xff xff xff)
(L (W x00 x00 x80 xbf x00 x00 x80 xbf)) E)))))
(T (W x00 x00 x00 x00 x00 x00 x00 x00)
(T (W x00 x00 x80 x3f x00 x00 x80 x3f)
(T (W x00 x00 x80 x3f x00 x00 x80 x3f)
(T (W x00 x00 x80 x3f x00 x00 x80 x3f)
(T (W x00 x00 x80 x3f x00 x00 x80 x3f)
(L (W xff xff xff xff xff xff xff xff))
(L (W x00 x00 x00 x00 xda x90 xff xff)))
(T (W x18 x00 x00 x00 x0c x00 x00 x00)
(L (W x00 x00 x80 xbf x00 x00 x80 xbf)) E))
(T (W x00 x00 x00 x00 x00 x00 x00 x00)
(T (W x00 x00 x00 x00 x00 x00 x00 x00)
(L (W x00 x00 x01 x01 x8f x01 x00 x00)) E)
(T (W x00 x00 x80 xbf x00 x00 x80 xbf)
(L (W x3a x0e xff xff x74 x00 x00 x00)) E)))
(T (W x18 x00 x00 x00 x0c x00 x00 x00)
(T (W xff xff xff xff xff xff xff xff)
(T (W x6c x00 x00 x00 x60 x00 x00 x00)
(L (W x00 x00 x00 x00 x12 x00 x00 x00))
(L (W x4f x84 x6f x8b xe8 xcb x63 xb7)))
(T (W x00 x00 x80 x3f x00 x00 x80 x3f)
(L (W x46 x53 x59 x53 x5f x4e x53 x5f)) E))
(T (W xea x4f xfb xff x78 x00 x00 x00)
(T (W x00 x00 x00 x00 x00 x00 x00 x00)
(L (W xff xff xff xff xff xff xff xff)) E)
(T (W xea x4f xfd xff x78 x00 x00 x00)
(L (W x00 x00 x00 x00 x00 x00 x00 x00)) E))))
(T (W x00 x00 x00 x00 x00 x00 x00 x00)
(T (W xff xff xff xff xff xff xff xff)
(T (W xa2 xc2 xfd xff x00 x00 x01 x01)
(T (W x00 x00 x00 x00 x7c xb1 xfb xff)
(L (W x68 x00 x00 x00 x5c x00 x00 x00))
(L (W x00 x00 x00 x00 x12 x00 x00 x00)))
(T (W x00 x00 x00 x00 x02 x00 x00 x00)
(L (W x45 x26 x22 x84 xe4 x9c xf2 xcb)) E))
(T (W x00 x00 x80 x3f x00 x00 x80 x3f)
(T (W xb0 x00 x00 x00 x64 x00 x00 x00)
(L (W x00 x00 x80 xbf x00 x00 x80 xbf)) E)
(T (W xff xff xff xff xff xff xff xff)
(L (W xff xff xff xff xff xff xff xff)) E)))
(T (W xea x6f xfa xff x78 x00 x00 x00)
(T (W x01 x00 x00 x00 xa0 x00 x00 x00)
(T (W xff xff xff xff xff xff xff xff)
(L (W xcc x00 x00 x00 x01 x00 x00 x00))
(L (W x03 x00 x00 x00 xd8 x00 x00 x00)))
(T (W x45 x26 x22 x84 xe4 x9c xf2 xcb)
(L (W x00 x00 x80 xbf x00 x00 x80 xbf)) E))
(T (W x45 x26 x22 x84 xe4 x9c xf2 xcb)
(T (W xff xff xff xff xff xff xff xff)
(L (W x00 x00 x00 x00 x00 x00 x00 x00)) E)
(T (W x00 x00 x00 x00 x00 x00 x00 x00)
(L (W x0c x73 xff xff x00 x01 x01 x01)) E)))))))
(T (W xff xff xff xff x04 x00 x00 x00)
(T (W x00 x00 x80 x3f x00 x00 x80 x3f)
(T (W x24 x30 x00 x00 x10 x2f x00 x00)
(T (W xc9 x00 x00 x00 xff xff xff xff)
(T (W x45 x26 x22 x84 xe4 x9c xf2 xcb)
(T (W x00 x00 x00 x00 x00 x00 x00 x00)
(T (W x45 x26 x22 x84 xe4 x9c xf2 xcb)
(L (W x00 x00 x80 xbf x00 x00 x80 xbf))
(L (W x46 x53 x59 x53 x5f x4e x53 x5f)))
(T (W x00 x00 x80 x3f x00 x00 x80 x3f)
(L (W xff xff xff xff xff xff xff xff)) E))
(T (W xbe x31 x16 xcf x9c x31 x15 x04)
(T (W x6c x00 x00 x00 x60 x00 x00 x00)
(L (W x4f x84 x6f x8b xe8 xcb x63 xb7))
(L (W x00 x00 x00 x00 x00 x00 x00 x00)))
(T (W xff xff xff xff xff xff xff xff)
(L (W xff xff xff xff xff xff xff xff)) E)))
(T (W x00 x00 x80 x3f x00 x00 x80 x3f)
(T (W x00 x00 x80 x3f x00 x00 x80 x3f)
(T (W x00 x00 x00 x00 x7c xbd xfb xff)
(L (W x00 x00 x00 x00 x00 x00 x00 x00))
(L (W xff xff xff xff xc8 x00 x00 x00)))
(T (W x00 x00 x80 x3f x00 x00 x80 x3f)
(L (W x4f x84 x6f x8b xe8 xcb x63 xb7)) E))
(T (W x00 x00 x00 x00 x00 x00 x00 x00)
(T (W x00 x00 x80 x3f x00 x00 x80 x3f)
(L (W x00 x00 x00 x00 x00 x00 x00 x00)) E)
(T (W x00 x00 x00 x00 x7c x3d xfd xff)
(L (W x6c x00 x00 x00 x60 x00 x00 x00)) E))))
(T (W x45 x26 x22 x84 xe4 x9c xf2 xcb)
(T (W x6b x65 x5f x6d x69 x6c x64 x5f)
(T (W x00 x00 x80 x3f x00 x00 x80 x3f)
(T (W x00 x00 x80 x3f x00 x00 x80 x3f)
(L (W x50 x00 x00 x00 x44 x00 x00 x00))
(L (W xc4 x00 x00 x00 x02 x00 x00 x00)))
(T (W x00 x00 x00 x00 x00 x00 x00 x00)
(L (W x00 x00 x00 x00 x00 x00 x00 x00)) E))
(T (W x00 x00 x80 x3f x00 x00 x80 x3f)
(T (W x34 x01 x00 x00 x04 x00 x00 x00)
(L (W x03 x00 x00 x00 xd8 x00 x00 x00)) E)
(T (W x00 x00 x00 x00 x00 x00 x00 x00)
(L (W x45 x26 x22 x84 xe4 x9c xf2 xcb)) E)))
(T (W x94 x6c xfa xff x3c x00 x00 x00)
(T (W x00 x00 x00 x00 x00 x00 x00 x00)
(T (W x00 x00 x00 x00 x00 x00 x00 x00)
(L (W xff xff xff xff xc0 x00 x00 x00))
(L (W x5c x00 x00 x00 xff xff xff xff)))
(T (W x00 x00 x00 x00 x00 x00 x00 x00)
(L (W x18 x00 x00 x00 x0c x00 x00 x00)) E))
(T (W x00 x00 x80 x3f x00 x00 x80 x3f)
(T (W xff xff xff xff xff xff xff xff)
(L (W x00 x00 x80 xbf x00 x00 x80 xbf)) E)
(T (W x49 xa1 x68 x4a xeb x5f xdd x3d)
(L (W xff xff xff xff xff xff xff xff)) E)))))
(T (W xff xff xff xff xff xff xff xff)
(T (W x00 x00 x00 x00 x00 x00 x00 x00)
(T (W x68 x00 x00 x00 x5c x00 x00 x00)
(T (W xff xff xff xff xff xff xff xff)
(T (W xff xff xff xff x9c x00 x00 x00)
(L (W x00 x00 x80 xbf x00 x00 x80 xbf))
(L (W x00 x00 x80 xbf x00 x00 x80 xbf)))
(T (W x00 x00 x00 x00 x00 x00 x00 x00)
(L (W x00 x00 x00 x00 x00 x00 x00 x00)) E))
(T (W x3a x0a xfb xff x74 x00 x00 x00)
(T (W xff xff xff xff x03 x00 x00 x00)
(L (W x54 x00 x00 x00 x48 x00 x00 x00)) E)
(T (W x45 x26 x22 x84 xe4 x9c xf2 xcb)
(L (W x00 x00 x00 x00 x00 x00 x00 x00)) E)))
(T (W x00 x00 x00 x00 x00 x00 x00 x00)
(T (W x00 x00 x80 x3f x00 x00 x80 x3f)
(T (W x4b x00 x00 x00 xff xff xff xff)
(L (W x00 x00 x80 xbf x00 x00 x80 xbf))
(L (W xff xff xff xff xff xff xff xff)))
(T (W x3a xca xfc xff x74 x00 x00 x00)
(L (W x54 x00 x00 x00 x48 x00 x00 x00)) E))
(T (W xff xff xff xff xff xff xff xff)
(T (W xb8 x00 x00 x00 x28 x00 x00 x00)
(L (W x45 x26 x22 x84 xe4 x9c xf2 xcb)) E)
(T (W xff xff xff xff xff xff xff xff)
(L (W xff xff xff xff xc8 x00 x00 x00)) E))))
(T (W x0c xef xf9 xff x00 x01 x01 x01)
(T (W x45 x26 x22 x84 xe4 x9c xf2 xcb)
(T (W x00 x00 x80 x3f x00 x00 x80 x3f)
(T (W x34 x01 x00 x00 x04 x00 x00 x00)
(L (W x45 x26 x22 x84 xe4 x9c xf2 xcb))
(L (W xea xab xff xff x78 x00 x00 x00)))
(T (W x0c xaf xfc xff x00 x01 x01 x01)
(L (W x00 x00 x00 x00 x00 x00 x00 x00)) E))
(T (W xff xff xff xff xff xff xff xff)
(T (W x70 x5f x6c x65 x61 x64 x65 x72)
(L (W xff xff xff xff xff xff xff xff)) E)
(T (W x45 x26 x22 x84 xe4 x9c xf2 xcb)
(L (W x00 x00 x80 xbf x00 x00 x80 xbf)) E)))
(T (W xff xff xff xff xff xff xff xff)
(T (W x00 x00 x00 x00 x00 x00 x00 x00)
(T (W x4f x84 x6f x8b xe8 xcb x63 xb7)
(L (W x30 x32 x5f x43 x4c x45 x41 x52))
(L (W x30 x32 x5f x43 x4c x45 x41 x52)))
(T (W x00 x00 x00 x00 x00 x00 x00 x00)
(L (W xff xff xff xff xff xff xff xff)) E))
(T (W xff xff xff xff xff xff xff xff)
(T (W x00 x00 x80 x3f x00 x00 x80 x3f)
(L (W xff xff xff xff xff xff xff xff)) E)
(T (W x6c x00 x00 x00 x60 x00 x00 x00)
(L (W xff xff xff xff xff xff xff xff)) E))))))
(T (W x00 x00 x00 x00 x00 x00 x00 x00)
(T (W x00 x00 x00 x00 x00 x00 x00 x00)
(T (W xea xc3 xf9 xff x78 x00 x00 x00)
(T (W x18 x00 x00 x00 x0c x00 x00 x00)
(T (W x20 x01 x00 x00 x04 x00 x00 x00)
(T (W x54 x00 x00 x00 x48 x00 x00 x00)
(L (W x00 x00 x00 x00 x00 x00 x00 x00))
(L (W x00 x00 x00 x00 x00 x00 x00 x00)))
(T (W x00 x00 x00 x00 x00 x00 x00 x00)
(L (W xff xff xff xff xff xff xff xff)) E))
(T (W x00 x00 x80 x3f x00 x00 x80 x3f)
(T (W x21 x00 x00 x00 x24 x00 x00 x00)
(L (W x00 x00 x80 xbf x00 x00 x80 xbf)) E)
(T (W xff xff xff xff xff xff xff xff)
(L (W x00 x00 x00 x00 x6a x09 xff xff)) E)))
(T (W x00 x00 x00 x00 x00 x00 x00 x00)
(T (W x45 x26 x22 x84 xe4 x9c xf2 xcb)
(T (W xff xff xff xff xff xff xff xff)
(L (W x6c x00 x00 x00 x60 x00 x00 x00))
(L (W xff xff xff xff xff xff xff xff)))
(T (W x00 x00 x00 x00 x00 x00 x00 x00)
(L (W x00 x00 x80 xbf x00 x00 x80 xbf)) E))
(T (W x50 x00 x00 x00 x44 x00 x00 x00)
(T (W xea x43 xfc xff x78 x00 x00 x00)
(L (W x46 x53 x59 x53 x5f x4e x53 x5f)) E)
(T (W xff xff xff xff xff xff xff xff)
(L (W x18 x00 x00 x00 x0c x00 x00 x00)) E))))
(T (W x45 x26 x22 x84 xe4 x9c xf2 xcb)
(T (W x00 x00 x80 x3f x00 x00 x80 x3f)
(T (W x00 x00 x80 x3f x00 x00 x80 x3f)
(T (W x18 x00 x00 x00 x10 x00 x00 x00)
(L (W xff xff xff xff xff xff xff xff))
(L (W x00 x00 x00 x00 x00 x00 x00 x00)))
(T (W x00 x00 x80 x3f x00 x00 x80 x3f)
(L (W x00 x00 x00 x00 x00 x00 x00 x00)) E))
(T (W x3a x22 xfb xff x74 x00 x00 x00)
(T (W x00 x00 x00 x00 x00 x00 x00 x00)
(L (W xb0 x00 x00 x00 x64 x00 x00 x00)) E)
(T (W x00 x00 x00 x00 x12 x00 x00 x00)
(L (W x4f x84 x6f x8b xe8 xcb x63 xb7)) E)))
(T (W x01 x00 x00 x00 x04 x00 x00 x00)
(T (W x00 x00 x00 x00 x00 x00 x00 x00)
(T (W x00 x00 x00 x00 x00 x00 x00 x00)
(L (W xff xff xff xff xff xff xff xff))
(L (W x00 x00 x00 x00 x00 x00 x00 x00)))
(T (W xff xff xff xff xff xff xff xff)
(L (W xff xff xff xff xff xff xff xff)) E))
(T (W xff xff xff xff xff xff xff xff)
(T (W x30 x00 x34 x00 x38 x00 x3c x00)
(L (W x18 x00 x00 x00 x0c x00 x00 x00)) E)
(T (W x00 x00 x80 xbf x00 x00 x80 xbf)
(L (W x00 x00 x01 x01 x2a x00 x00 x00)) E)))))
(T (W x00 x00 x80 x3f x00 x00 x80 x3f)
(T (W xbc x00 x00 x00 xb0 x00 x00 x00)
(T (W xff xff xff xff xff xff xff xff)
(T (W xff xff xff xff xff xff xff xff)
(T (W x00 x00 x00 x00 x00 x00 x00 x00)
(L (W x00 x00 x80 xbf x00 x00 x80 xbf))
(L (W x00 x00 x80 xbf x00 x00 x80 xbf)))
(T (W x20 x00 x00 x00 x10 x00 x00 x00)
(L (W x00 x00 x00 x00 xda x94 xfe xff)) E))
(T (W x30 x00 x34 x00 x38 x00 x3c x00)
(T (W xff xff xff xff xff xff xff xff)
(L (W x18 x00 x00 x00 x10 x00 x00 x00)) E)
(T (W x3c x1b xfd xff x25 x00 x00 x00)
(L (W x4f x84 x6f x8b xe8 xcb x63 xb7)) E)))
(T (W x00 x00 x00 x00 x00 x00 x00 x00)
(T (W x00 x00 x00 x00 x00 x00 x00 x00)
(T (W xff xff xff xff xff xff xff xff)
(L (W x18 x00 x00 x00 x0c x00 x00 x00))
(L (W xff xff xff xff xff xff xff xff)))
(T (W x00 x00 x00 x00 x12 x00 x00 x00)
(L (W x45 x26 x22 x84 xe4 x9c xf2 xcb)) E))
(T (W x6b x65 x5f x77 x61 x72 x6c x69)
(T (W xff xff xff xff xff xff xff xff)
(L (W x00 x00 x80 xbf x00 x00 x80 xbf)) E)
(T (W x00 x00 x00 x00 x00 x00 x00 x00)
(L (W xff xff xff xff xff xff xff xff)) E))))
(T (W x68 x00 x00 x00 x5c x00 x00 x00)
(T (W x00 x00 x00 x00 x00 x00 x00 x00)
(T (W x00 x00 x80 x3f x00 x00 x80 x3f)
(T (W x4f x84 x6f x8b xe8 xcb x63 xb7)
(L (W xff xff xff xff xff xff xff xff))
(L (W xea xb3 xff xff x78 x00 x00 x00)))
(T (W x00 x00 x80 x3f x00 x00 x80 x3f)
(L (W x00 x00 x00 x00 x00 x00 x00 x00)) E))
(T (W xa1 x01 x00 x00 xff xff xff xff)
(T (W x00 x00 x80 x3f x00 x00 x80 x3f)
(L (W xff xff xff xff xff xff xff xff)) E)
(T (W x00 x00 x80 xbf x00 x00 x80 xbf)
(L (W x00 x00 x80 xbf x00 x00 x80 xbf)) E)))
(T (W xa2 x86 xfd xff x00 x00 x01 x01)
(T (W x00 x00 x80 x3f x00 x00 x80 x3f)
(T (W x45 x26 x22 x84 xe4 x9c xf2 xcb)
(L (W x00 x00 x00 x00 x00 x00 x00 x00))
(L (W x00 x00 x00 x00 x00 x00 x00 x00)))
(T (W xff xff xff xff xff xff xff xff)
(L (W xff xff xff xff xff xff xff xff)) E))
(T (W x46 x53 x59 x53 x5f x4e x53 x5f)
(T (W x00 x00 x00 x00 x00 x00 x00 x00)
(L (W xff xff xff xff xff xff xff xff)) E)
(T (W x00 x00 x80 xbf x00 x00 x80 xbf)
(L (W x00 x00 x00 x00 x00 x00 x00 x00)) E))))))))
(T (W x00 x00 x00 x00 x00 x00 x00 x00)
(T (W xea x81 xf9 xff x78 x00 x00 x00)
(T (W x00 x00 x00 x00 x00 x00 x00 x00)
(T (W x45 x26 x22 x84 xe4 x9c xf2 xcb)
(T (W xff xff xff xff xff xff xff xff)
(T (W x00 x00 x80 x3f x00 x00 x80 x3f)
(T (W xb8 x00 x00 x00 xac x00 x00 x00)
(T (W x16 x00 x00 x00 x10 x00 x00 x00)
(L (W x00 x00 x00 x00 x00 x00 x00 x00))
(L (W xff xff xff xff xff xff xff xff)))
(T (W x00 x00 x00 x00 x00 x00 x00 x00)
(L (W x00 x00 x00 x00 x7c x7b xfe xff)) E))
(T (W x18 x00 x00 x00 x0c x00 x00 x00)
(T (W x00 x00 x80 x3f x00 x00 x80 x3f)
(L (W x45 x44 x00 x00 x00 x00 x00 x00))
(L (W x54 x00 x00 x00 x48 x00 x00 x00)))
(T (W x00 x00 x80 x3f x00 x00 x80 x3f)
(L (W x18 x00 x00 x00 x0c x00 x00 x00)) E)))
(T (W x00 x00 x00 x00 x00 x00 x00 x00)
(T (W x00 x00 x00 x00 x00 x00 x00 x00)
(T (W x00 x00 x00 x00 x00 x00 x00 x00)
(L (W x00 x00 x00 x00 x00 x00 x00 x00))
(L (W x45 x26 x22 x84 xe4 x9c xf2 xcb)))
(T (W x00 x00 x00 x00 x00 x00 x00 x00)
(L (W x30 x32 x5f x43 x4c x45 x41 x52)) E))
(T (W xff xff xff xff xff xff xff xff)
(T (W x45 x26 x22 x84 xe4 x9c xf2 xcb)
(L (W xff xff xff xff xff xff xff xff)) E)
(T (W x45 x26 x22 x84 xe4 x9c xf2 xcb)
(L (W x00 x00 x00 x00 x00 x00 x00 x00)) E))))
(T (W x00 x00 x00 x00 x00 x00 x00 x00)
(T (W xbc x00 x00 x00 xb0 x00 x00 x00)
(T (W x00 x00 x00 x00 x00 x00 x00 x00)
(T (W x00 x00 x00 x00 x1a x99 xfb xff)
(L (W x00 x00 x00 x00 x00 x00 x00 x00))
(L (W x49 xa1 x68 x4a xeb x5f xdd x3d)))
(T (W x64 x00 x00 x00 x9c x00 x00 x00)
(L (W xff xff xff xff xff xff xff xff)) E))
(T (W x45 x44 x00 x00 x00 x00 x00 x00)
(T (W x01 x00 x00 x00 xb0 x00 x00 x00)
(L (W x00 x00 x80 xbf x00 x00 x80 xbf)) E)
(T (W xff xff xff xff xff xff xff xff)
(L (W x00 x00 x00 x00 xfa x20 xff xff)) E)))
(T (W xff xff xff xff xff xff xff xff)
(T (W xff xff xff xff xff xff xff xff)
(T (W xff xff xff xff xff xff xff xff)
(L (W x00 x00 x80 xbf x00 x00 x80 xbf))
(L (W xff xff xff xff xc8 x00 x00 x00)))
(T (W x00 x00 x01 x01 xda x01 x00 x00)
(L (W x00 x00 x80 xbf x00 x00 x80 xbf)) E))
(T (W x00 x00 x00 x00 x00 x00 x00 x00)
(T (W x00 x00 x80 x3f x00 x00 x80 x3f)
(L (W x00 x00 x00 x00 x00 x00 x00 x00)) E)
(T (W x53 x01 x00 x00 xff xff xff xff)
(L (W x50 x00 x00 x00 x44 x00 x00 x00)) E)))))
(T (W x01 x00 x00 x00 xa0 x00 x00 x00)
(T (W x00 x00 x01 x01 xc9 x00 x00 x00)
(T (W x00 x00 x00 x00 x00 x00 x00 x00)
(T (W x45 x26 x22 x84 xe4 x9c xf2 xcb)
(T (W x00 x00 x80 x3f x00 x00 x80 x3f)
(L (W x00 x00 x00 x00 x00 x00 x00 x00))
(L (W x00 x00 x00 x00 x00 x00 x00 x00)))
(T (W xff xff xff xff xff xff xff xff)
(L (W x45 x26 x22 x84 xe4 x9c xf2 xcb)) E))
(T (W x00 x00 x00 x00 x00 x00 x00 x00)
(T (W x6c x00 x00 x00 x60 x00 x00 x00)
(L (W x00 x00 x00 x00 x00 x00 x00 x00)) E)
(T (W x00 x01 x01 x01 xc6 x01 x00 x00)
(L (W xff xff xff xff xff xff xff xff)) E)))
(T (W xff xff xff xff xff xff xff xff)
(T (W x80 x7d x9e x72 x96 xab x52 x46)
(T (W x00 x00 x80 x3f x00 x00 x80 x3f)
(L (W x00 x00 x00 x00 x00 x00 x00 x00))
(L (W x18 x00 x00 x00 x10 x00 x00 x00)))
(T (W xff xff xff xff x81 x00 x00 x00)
(L (W x4f x84 x6f x8b xe8 xcb x63 xb7)) E))
(T (W x6c x00 x00 x00 x60 x00 x00 x00)
(T (W x00 x00 x80 x3f x00 x00 x80 x3f)
(L (W x04 x00 x00 x00 xfa x50 xfe xff)) E)
(T (W x68 x00 x00 x00 x5c x00 x00 x00)
(L (W x00 x00 x80 xbf x00 x00 x80 xbf)) E))))
(T (W x00 x00 x80 x3f x00 x00 x80 x3f)
(T (W x01 x00 x00 x00 x04 x00 x00 x00)
(T (W x45 x26 x22 x84 xe4 x9c xf2 xcb)
(T (W x01 x00 x00 x00 xac x00 x00 x00)
(L (W x00 x00 x00 x00 x00 x00 x00 x00))
(L (W x00 x00 x80 xbf x00 x00 x80 xbf)))
(T (W x00 x00 x80 x3f x00 x00 x80 x3f)
(L (W xff xff xff xff xff xff xff xff)) E))
(T (W x00 x00 x80 x3f x00 x00 x80 x3f)
(T (W xff xff xff xff xff xff xff xff)
(L (W x6c x00 x00 x00 x60 x00 x00 x00)) E)
(T (W x00 x00 x00 x00 x00 x00 x00 x00)
(L (W x08 x00 x00 x00 x10 x08 x00 x00)) E)))
(T (W xff xff xff xff xff xff xff xff)
(T (W xff xff xff xff xff xff xff xff)
(T (W x30 x32 x5f x43 x4c x45 x41 x52)
(L (W xff xff xff xff xff xff xff xff))
(L (W xff xff xff xff xc4 x00 x00 x00)))
(T (W x4c x45 x41 x52 x45 x44 x00 x00)
(L (W xff xff xff xff xb0 x00 x00 x00)) E))
(T (W x24 x00 x00 x00 xb0 x00 x00 x00)
(T (W x00 x00 x00 x00 x00 x00 x00 x00)
(L (W x00 x00 x80 xbf x00 x00 x80 xbf)) E)
(T (W x49 xa1 x68 x4a xeb x5f xdd x3d)
(L (W x19 x00 x00 x00 x1c x00 x00 x00)) E))))))
(T (W xff xff xff xff xff xff xff xff)
(T (W x00 x00 x00 x00 x00 x00 x00 x00)
(T (W x00 x00 x80 x3f x00 x00 x80 x3f)
(T (W x45 x26 x22 x84 xe4 x9c xf2 xcb)
(T (W xff xff xff xff x04 x00 x00 x00)
(T (W x49 xa1 x68 x4a xeb x5f xdd x3d)
(L (W xf2 xe1 xff xff x00 x00 x01 x01))
(L (W xff xff xff xff xff xff xff xff)))
(T (W x09 x00 x00 x00 x10 x00 x00 x00)
(L (W x0c x85 xfe xff x00 x01 x01 x01)) E))
(T (W xff xff xff xff xff xff xff xff)
(T (W x45 x26 x22 x84 xe4 x9c xf2 xcb)
(L (W x00 x00 x00 x00 x00 x00 x00 x00))
(L (W x50 x00 x00 x00 x44 x00 x00 x00)))
(T (W x00 x00 x00 x00 x00 x00 x00 x00)
(L (W xff xff xff xff xc8 x00 x00 x00)) E)))
(T (W x00 x00 x00 x00 x02 x00 x00 x00)
(T (W x00 x00 x00 x00 x00 x00 x00 x00)
(T (W x50 x00 x00 x00 x44 x00 x00 x00)
(L (W x4f x84 x6f x8b xe8 xcb x63 xb7))
(L (W x00 x00 x80 xbf x00 x00 x80 xbf)))
(T (W x00 x00 x00 x00 x02 x00 x00 x00)
(L (W x00 x00 x00 x00 x00 x00 x00 x00)) E))
(T (W x00 x00 x00 x00 x00 x00 x00 x00)
(T (W x00 x00 x80 x3f x00 x00 x80 x3f)
(L (W xff xff xff xff xff xff xff xff)) E)
(T (W x0c x45 xfd xff x00 x01 x01 x01)
(L (W x00 x00 x80 xbf x00 x00 x80 xbf)) E))))
(T (W x00 x00 x00 x00 x00 x00 x00 x00)
(T (W x94 x32 xfa xff x1e x00 x00 x00)
(T (W x45 x26 x22 x84 xe4 x9c xf2 xcb)
(T (W x00 x00 x80 x3f x00 x00 x80 x3f)
(L (W x18 x00 x00 x00 x0c x00 x00 x00))
(L (W x96 x01 x00 x00 xff xff xff xff)))
(T (W x00 x00 x00 x00 x00 x00 x00 x00)
(L (W xff xff xff xff xff xff xff xff)) E))
(T (W x00 x00 x00 x00 x00 x00 x00 x00)
(T (W xff xff xff xff xff xff xff xff)
(L (W x54 x00 x00 x00 x48 x00 x00 x00)) E)
(T (W xff xff xff xff xff xff xff xff)
(L (W x30 x32 x5f x43 x4c x45 x41 x52)) E)))
(T (W xff xff xff xff xff xff xff xff)
(T (W xff xff xff xff xff xff xff xff)
(T (W xff xff xff xff xff xff xff xff)
(L (W x6c x00 x00 x00 x60 x00 x00 x00))
(L (W xff xff xff xff xff xff xff xff)))
(T (W x4f x84 x6f x8b xe8 xcb x63 xb7)
(L (W x6c x00 x00 x00 x60 x00 x00 x00)) E))
(T (W x00 x00 x80 x3f x00 x00 x80 x3f)
(T (W x45 x26 x22 x84 xe4 x9c xf2 xcb)
(L (W x00 x00 x00 x00 x00 x00 x00 x00)) E)
(T (W x00 x00 x00 x00 x00 x00 x00 x00)
(L (W x0c x65 xff xff x00 x01 x01 x01)) E)))))
(T (W x00 x00 x00 x00 x00 x00 x00 x00)
(T (W xea xd1 xf9 xff x78 x00 x00 x00)
(T (W x18 x00 x00 x00 x0c x00 x00 x00)
(T (W x3a x90 xfa xff x74 x00 x00 x00)
(T (W xff xff xff xff xff xff xff xff)
(L (W x12 x00 x00 x00 x46 x53 x59 x53))
(L (W x00 x00 x00 x00 x00 x00 x00 x00)))
(T (W xff xff xff xff xff xff xff xff)
(L (W xff xff xff xff xff xff xff xff)) E))
(T (W x6c x00 x00 x00 x60 x00 x00 x00)
(T (W xff xff xff xff x9c x00 x00 x00)
(L (W x00 x00 x00 x00 x00 x00 x00 x00)) E)
(T (W x03 x00 x00 x00 xbc x00 x00 x00)
(L (W x00 x00 x00 x00 x00 x00 x00 x00)) E)))
(T (W xff xff xff xff xff xff xff xff)
(T (W x5e x00 x00 x00 xff xff xff xff)
(T (W xff xff xff xff x03 x00 x00 x00)
(L (W x00 x00 x80 xbf x00 x00 x80 xbf))
(L (W xff xff xff xff xb0 x00 x00 x00)))
(T (W xff xff xff xff xd8 x00 x00 x00)
(L (W x00 x00 x80 xbf x00 x00 x80 xbf)) E))
(T (W xff xff xff xff xff xff xff xff)
(T (W x00 x00 x80 x3f x00 x00 x80 x3f)
(L (W x00 x00 x00 x00 x1a x51 xfe xff)) E)
(T (W xff xff xff xff xff xff xff xff)
(L (W x45 x26 x22 x84 xe4 x9c xf2 xcb)) E))))
(T (W x00 x00 x80 x3f x00 x00 x80 x3f)
(T (W xff xff xff xff xff xff xff xff)
(T (W x00 x00 x00 x00 x00 x00 x00 x00)
(T (W xa1 x01 x00 x00 xff xff xff xff)
(L (W x18 x00 x00 x00 x10 x00 x00 x00))
(L (W x00 x00 x80 xbf x00 x00 x80 xbf)))
(T (W x00 x00 x00 x00 x00 x00 x00 x00)
(L (W x00 x00 x01 x01 x2a x00 x00 x00)) E))
(T (W x3a x30 xfb xff x74 x00 x00 x00)
(T (W x00 x00 x00 x00 x00 x00 x00 x00)
(L (W xff xff xff xff xa0 x00 x00 x00)) E)
(T (W x00 x00 x00 x00 x12 x00 x00 x00)
(L (W x00 x00 x00 x00 x00 x00 x00 x00)) E)))
(T (W xff xff xff xff xff xff xff xff)
(T (W x00 x00 x00 x00 x00 x00 x00 x00)
(T (W x00 x00 x00 x00 x00 x00 x00 x00)
(L (W xff xff xff xff xff xff xff xff))
(L (W x00 x00 x01 x01 x5c x00 x00 x00)))
(T (W x00 x00 x80 x3f x00 x00 x80 x3f)
(L (W xff xff xff xff xa0 x00 x00 x00)) E))
(T (W xff xff xff xff xff xff xff xff)
(T (W x3c x79 xfc xff x26 x00 x00 x00)
(L (W x00 x00 x80 xbf x00 x00 x80 xbf)) E)
(T (W x24 x00 x28 x00 x2c x00 x30 x00)
(L (W xff xff xff xff xff xff xff xff)) E)))))))
(T (W xff xff xff xff xff xff xff xff)
(T (W x0c x91 xf9 xff x00 x01 x01 x01)
(T (W xff xff xff xff xff xff xff xff)
(T (W x00 x00 x00 x00 x00 x00 x00 x00)
(T (W xff xff xff xff xff xff xff xff)
(T (W x00 x00 x00 x00 x00 x00 x00 x00)
(T (W xff xff xff xff xbc x00 x00 x00)
(L (W xbc x00 x00 x00 x03 x00 x00 x00))
(L (W x54 x00 x00 x00 x48 x00 x00 x00)))
(T (W x18 x00 x00 x00 x0c x00 x00 x00)
(L (W x00 x00 x00 x00 x00 x00 x00 x00)) E))
(T (W x00 x00 x80 x3f x00 x00 x80 x3f)
(T (W xff xff xff xff xff xff xff xff)
(L (W x54 x00 x00 x00 x48 x00 x00 x00))
(L (W x00 x00 x00 x00 x00 x00 x00 x00)))
(T (W x45 x26 x22 x84 xe4 x9c xf2 xcb)
(L (W x00 x00 x00 x00 x00 x00 x00 x00)) E)))
(T (W x00 x00 x80 x3f x00 x00 x80 x3f)
(T (W x0c xc1 xfa xff x00 x01 x01 x01)
(T (W xff xff xff xff xff xff xff xff)
(L (W x00 x00 x80 xbf x00 x00 x80 xbf))
(L (W x5c x00 x00 x00 xff xff xff xff)))
(T (W x0c xc1 xfc xff x00 x01 x01 x01)
(L (W x45 x26 x22 x84 xe4 x9c xf2 xcb)) E))
(T (W x00 x00 x80 x3f x00 x00 x80 x3f)
(T (W xff xff xff xff xff xff xff xff)
(L (W x45 x26 x22 x84 xe4 x9c xf2 xcb)) E)
(T (W xff xff xff xff xff xff xff xff)
(L (W xff xff xff xff xc0 x00 x00 x00)) E))))
(T (W xff xff xff xff xff xff xff xff)
(T (W x00 x00 x80 x3f x00 x00 x80 x3f)
(T (W xff xff xff xff xff xff xff xff)
(T (W xcc x00 x00 x00 xc0 x00 x00 x00)
(L (W xff xff xff xff xff xff xff xff))
(L (W xff xff xff xff xff xff xff xff)))
(T (W x18 x00 x00 x00 x0c x00 x00 x00)
(L (W x00 x00 x80 xbf x00 x00 x80 xbf)) E))
(T (W x0c x21 xfb xff x00 x01 x01 x01)
(T (W x45 x26 x22 x84 xe4 x9c xf2 xcb)
(L (W x00 x00 x01 x01 x5c x00 x00 x00)) E)
(T (W x00 x00 x80 xbf x00 x00 x80 xbf)
(L (W x00 x00 x80 xbf x00 x00 x80 xbf)) E)))
(T (W x00 x00 x80 x3f x00 x00 x80 x3f)
(T (W x54 x00 x00 x00 x48 x00 x00 x00)
(T (W x00 x00 x80 x3f x00 x00 x80 x3f)
(L (W xff xff xff xff xff xff xff xff))
(L (W x00 x00 x00 x00 x00 x00 x00 x00)))
(T (W x54 x00 x00 x00 x48 x00 x00 x00)
(L (W xff xff xff xff xff xff xff xff)) E))
(T (W xff xff xff xff xff xff xff xff)
(T (W x30 x32 x5f x43 x4c x45 x41 x52)
(L (W xff xff xff xff xff xff xff xff)) E)
(T (W x6c x00 x00 x00 x60 x00 x00 x00)
(L (W x00 x00 x00 x00 x12 x00 x00 x00)) E)))))
(T (W xff xff xff xff x13 x00 x00 x00)
(T (W x45 x26 x22 x84 xe4 x9c xf2 xcb)
(T (W xff xff xff xff xff xff xff xff)
(T (W x00 x00 x00 x00 x00 x00 x00 x00)
(T (W x00 x00 x00 x00 x12 x00 x00 x00)
(L (W x45 x26 x22 x84 xe4 x9c xf2 xcb))
(L (W xff xff xff xff xff xff xff xff)))
(T (W x00 x00 x80 x3f x00 x00 x80 x3f)
(L (W x00 x00 x00 x00 x00 x00 x00 x00)) E))
(T (W xff xff xff xff xbc x00 x00 x00)
(T (W x00 x00 x00 x00 x02 x00 x00 x00)
(L (W x03 x00 x00 x00 xd8 x00 x00 x00)) E)
(T (W x00 x00 x00 x00 x68 x00 x6c x00)
(L (W x45 x26 x22 x84 xe4 x9c xf2 xcb)) E)))
(T (W x68 x00 x00 x00 x5c x00 x00 x00)
(T (W x18 x00 x00 x00 x0c x00 x00 x00)
(T (W x00 x00 x00 x00 x12 x00 x00 x00)
(L (W xb8 x00 x00 x00 x64 x00 x00 x00))
(L (W x45 x44 x00 x00 x00 x00 x00 x00)))
(T (W x00 x00 x00 x00 x00 x00 x00 x00)
(L (W xff xff xff xff x9c x00 x00 x00)) E))
(T (W x00 x00 x00 x00 x00 x00 x00 x00)
(T (W xff xff xff xff xff xff xff xff)
(L (W x6c x00 x00 x00 x60 x00 x00 x00)) E)
(T (W x00 x00 x00 x00 x12 x00 x00 x00)
(L (W x00 x00 x00 x00 x6a x53 xff xff)) E))))
(T (W xff xff xff xff x01 x00 x00 x00)
(T (W x68 x00 x00 x00 x5c x00 x00 x00)
(T (W x45 x26 x22 x84 xe4 x9c xf2 xcb)
(T (W x45 x26 x22 x84 xe4 x9c xf2 xcb)
(L (W x00 x00 x80 xbf x00 x00 x80 xbf))
(L (W xff xff xff xff xff xff xff xff)))
(T (W xff xff xff xff xff xff xff xff)
(L (W x00 x00 x80 xbf x00 x00 x80 xbf)) E))
(T (W x22 x00 x00 x00 x67 x72 x6f x75)
(T (W x68 x00 x00 x00 x5c x00 x00 x00)
(L (W x00 x00 x00 x00 x00 x00 x00 x00)) E)
(T (W x68 x00 x00 x00 x5c x00 x00 x00)
(L (W x00 x00 x00 x00 x7c x2f xff xff)) E)))
(T (W x00 x00 x00 x00 x00 x00 x00 x00)
(T (W x45 x26 x22 x84 xe4 x9c xf2 xcb)
(T (W x24 x00 x00 x00 xb0 x00 x00 x00)
(L (W x49 xa1 x68 x4a xeb x5f xdd x3d))
(L (W x4f x84 x6f x8b xe8 xcb x63 xb7)))
(T (W xff xff xff xff xff xff xff xff)
(L (W x00 x00 x00 x00 x00 x00 x00 x00)) E))
(T (W x00 x00 x00 x00 x00 x00 x00 x00)
(T (W x01 x00 x00 x00 x9c x00 x00 x00)
(L (W x00 x00 x00 x00 x00 x00 x00 x00)) E)
(T (W xff xff xff xff xff xff xff xff)
(L (W x00 x00 x80 xbf x00 x00 x80 xbf)) E))))))
(T (W x45 x26 x22 x84 xe4 x9c xf2 xcb)
(T (W x00 x00 x80 x3f x00 x00 x80 x3f)
(T (W xbc x00 x00 x00 xb0 x00 x00 x00)
(T (W xff xff xff xff xff xff xff xff)
(T (W x00 x00 x00 x00 x00 x00 x00 x00)
(T (W x34 x01 x00 x00 x04 x00 x00 x00)
(L (W x68 x00 x00 x00 x5c x00 x00 x00))
(L (W x45 x26 x22 x84 xe4 x9c xf2 xcb)))
(T (W x00 x00 x80 x3f x00 x00 x80 x3f)
(L (W x00 x00 x00 x00 x00 x00 x00 x00)) E))
(T (W xd0 x00 x00 x00 xc4 x00 x00 x00)
(T (W xff xff xff xff xff xff xff xff)
(L (W x18 x00 x00 x00 x10 x00 x00 x00)) E)
(T (W x00 x00 x00 x00 x00 x00 x00 x00)
(L (W x00 x00 x00 x00 x00 x00 x00 x00)) E)))
(T (W x50 x00 x00 x00 x44 x00 x00 x00)
(T (W x45 x26 x22 x84 xe4 x9c xf2 xcb)
(T (W x00 x00 x00 x00 x00 x00 x00 x00)
(L (W xff xff xff xff xff xff xff xff))
(L (W x00 x00 x01 x01 xc5 x01 x00 x00)))
(T (W x00 x00 x00 x00 x00 x00 x64 x00)
(L (W x45 x26 x22 x84 xe4 x9c xf2 xcb)) E))
(T (W xff xff xff xff xff xff xff xff)
(T (W xff xff xff xff xff xff xff xff)
(L (W x00 x00 x80 xbf x00 x00 x80 xbf)) E)
(T (W x00 x00 x00 x00 xda x46 xfd xff)
(L (W xff xff xff xff xff xff xff xff)) E))))
(T (W xff xff xff xff xff xff xff xff)
(T (W x01 x00 x00 x00 x3e x00 x00 x00)
(T (W xb8 x00 x00 x00 xac x00 x00 x00)
(T (W x00 x00 x00 x00 x00 x00 x00 x00)
(L (W xff xff xff xff xff xff xff xff))
(L (W x2c x00 x30 x00 x34 x00 x38 x00)))
(T (W x18 x00 x00 x00 x10 x00 x00 x00)
(L (W x00 x00 x80 xbf x00 x00 x80 xbf)) E))
(T (W xff xff xff xff xbc x00 x00 x00)
(T (W x00 x00 x80 x3f x00 x00 x80 x3f)
(L (W x30 x32 x5f x43 x4c x45 x41 x52)) E)
(T (W x00 x00 x80 xbf x00 x00 x80 xbf)
(L (W x54 x00 x00 x00 x48 x00 x00 x00)) E)))
(T (W x45 x26 x22 x84 xe4 x9c xf2 xcb)
(T (W x00 x00 x80 x3f x00 x00 x80 x3f)
(T (W x3a xe4 xfb xff x74 x00 x00 x00)
(L (W x21 x00 x00 x00 x67 x72 x6f x75))
(L (W x00 x00 x00 x00 x00 x00 x00 x00)))
(T (W x00 x00 x80 x3f x00 x00 x80 x3f)
(L (W x00 x00 x00 x00 x00 x00 x00 x00)) E))
(T (W xa4 x01 x00 x00 xff xff xff xff)
(T (W xb8 x00 x00 x00 xac x00 x00 x00)
(L (W xff xff xff xff xff xff xff xff)) E)
(T (W x18 x00 x00 x00 x10 x00 x00 x00)
(L (W x00 x00 x00 x00 x00 x00 x00 x00)) E)))))
(T (W x6c x00 x00 x00 x60 x00 x00 x00)
(T (W xff xff xff xff xff xff xff xff)
(T (W x00 x00 x00 x00 x00 x00 x00 x00)
(T (W x00 x00 x80 x3f x00 x00 x80 x3f)
(T (W x00 x00 x00 x00 x00 x00 x00 x00)
(L (W xc0 x00 x00 x00 x01 x00 x00 x00))
(L (W xff xff xff xff xff xff xff xff)))
(T (W x00 x00 x00 x00 x00 x00 x00 x00)
(L (W x00 x00 x00 x00 x00 x00 x00 x00)) E))
(T (W x00 x00 x80 x3f x00 x00 x80 x3f)
(T (W x00 x00 x00 x00 x00 x00 x00 x00)
(L (W xff xff xff xff xff xff xff xff)) E)
(T (W xff xff xff xff xff xff xff xff)
(L (W x6c x00 x00 x00 x60 x00 x00 x00)) E)))
(T (W x00 x00 x80 x3f x00 x00 x80 x3f)
(T (W x00 x00 x80 x3f x00 x00 x80 x3f)
(T (W x00 x00 x00 x00 x00 x00 x00 x00)
(L (W xff xff xff xff xff xff xff xff))
(L (W x00 x00 x00 x00 x00 x00 x00 x00)))
(T (W x00 x00 x80 x3f x00 x00 x80 x3f)
(L (W xff xff xff xff xff xff xff xff)) E))
(T (W x50 x00 x00 x00 x44 x00 x00 x00)
(T (W x00 x00 x00 x00 x00 x00 x00 x00)
(L (W x18 x00 x00 x00 x0c x00 x00 x00)) E)
(T (W x00 x00 x80 xbf x00 x00 x80 xbf)
(L (W x00 x00 x00 x00 x00 x00 x00 x00)) E))))
(T (W xff xff xff xff xff xff xff xff)
(T (W x00 x00 x80 x3f x00 x00 x80 x3f)
(T (W x68 x00 x00 x00 x5c x00 x00 x00)
(T (W x18 x00 x00 x00 x0c x00 x00 x00)
(L (W xff xff xff xff xff xff xff xff))
(L (W xff xff xff xff xff xff xff xff)))
(T (W x45 x26 x22 x84 xe4 x9c xf2 xcb)
(L (W x54 x00 x00 x00 x48 x00 x00 x00)) E))
(T (W x4f x84 x6f x8b xe8 xcb x63 xb7)
(T (W x01 x00 x00 x00 xb0 x00 x00 x00)
(L (W x00 x00 x00 x00 x00 x00 x00 x00)) E)
(T (W xff xff xff xff xff xff xff xff)
(L (W x18 x00 x00 x00 x0c x00 x00 x00)) E)))
(T (W x00 x00 x00 x00 x00 x00 x00 x00)
(T (W x3a xf4 xfa xff x74 x00 x00 x00)
(T (W xff xff xff xff xff xff xff xff)
(L (W x00 x00 x80 xbf x00 x00 x80 xbf))
(L (W x54 x00 x00 x00 x48 x00 x00 x00)))
(T (W x00 x00 x00 x00 x00 x00 x00 x00)
(L (W x00 x00 x00 x00 x00 x00 x00 x00)) E))
(T (W x0c x79 xfb xff x00 x01 x01 x01)
(T (W x64 x00 x00 x00 x9c x00 x00 x00)
(L (W x00 x00 x00 x00 x00 x00 x00 x00)) E)
(T (W xff xff xff xff xb0 x00 x00 x00)
(L (W x45 x26 x22 x84 xe4 x9c xf2 xcb)) E)))))))))))
(T (W xa0 x33 x05 x00 x74 x2a x05 x00)
(T (W x98 x04 x04 x00 x44 xf8 x03 x00)
(T (W x28 x40 x03 x00 xe4 x3d x03 x00)
(T (W x60 x61 x01 x00 x2c x60 x01 x00)
(T (W x6c x00 x00 x00 x60 x00 x00 x00)
(T (W x00 x00 x00 x00 x00 x00 x00 x00)
(T (W xcc x99 xf9 xff x00 x01 x01 x01)
(T (W xff xff xff xff xff xff xff xff)
(T (W x00 x00 x00 x00 x00 x00 x00 x00)
(T (W x50 x00 x00 x00 x44 x00 x00 x00)
(T (W xff xff xff xff xff xff xff xff)
(L (W x00 x00 x00 x00 x00 x00 x00 x00))
(L (W xff xff xff xff xff xff xff xff)))
(T (W x28 x00 x00 x00 x10 x00 x00 x00)
(L (W x00 x00 x80 xbf x00 x00 x80 xbf)) E))
(T (W x00 x00 x00 x01 xb0 x00 x00 x00)
(T (W x00 x00 x00 x00 x00 x00 x00 x00)
(L (W xff xff xff xff xff xff xff xff))
(L (W xff xff xff xff xff xff xff xff)))
(T (W x00 x00 x80 x3f x00 x00 x80 x3f)
(L (W x00 x00 x00 x00 x3c xf8 xfe xff)) E)))
(T (W xff xff xff xff xff xff xff xff)
(T (W xff xff xff xff xff xff xff xff)
(T (W x00 x00 x00 x00 x2a xbc xfb xff)
(L (W x00 x00 x00 x00 x00 x00 x00 x00))
(L (W x00 x00 x00 x00 x00 x00 x00 x00)))
(T (W x00 x00 x00 x00 x02 x00 x00 x00)
(L (W xff xff xff xff xff xff xff xff)) E))
(T (W x18 x00 x00 x00 x10 x00 x00 x00)
(T (W x00 x00 x00 x00 x00 x00 x00 x00)
(L (W x00 x00 x00 x00 x3c x38 xfe xff)) E)
(T (W x30 x32 x5f x43 x4c x45 x41 x52)
(L (W x00 x00 x00 x00 xda x35 xff xff)) E))))
(T (W x00 x00 x00 x00 x00 x00 x00 x00)
(T (W x00 x00 x80 x3f x00 x00 x80 x3f)
(T (W xff xff xff xff xff xff xff xff)
(T (W xff xff xff xff xff xff xff xff)
(L (W x00 x00 x00 x00 x00 x00 x00 x00))
(L (W x00 x00 x00 x00 x00 x00 x00 x00)))
(T (W x18 x00 x00 x00 x0c x00 x00 x00)
(L (W xc4 x00 x00 x00 x02 x00 x00 x00)) E))
(T (W xff xff xff xff xff xff xff xff)
(T (W x00 x00 x80 x3f x00 x00 x80 x3f)
(L (W x00 x00 x00 x00 x00 x00 x00 x00)) E)
(T (W x00 x00 x00 x00 x00 x00 x00 x00)
(L (W xff xff xff xff xff xff xff xff)) E)))
(T (W xff xff xff xff xff xff xff xff)
(T (W xff xff xff xff xff xff xff xff)
(T (W xff xff xff xff x03 x00 x00 x00)
(L (W x00 x00 x00 x00 x00 x00 x00 x00))
(L (W x00 x00 x80 xbf x00 x00 x80 xbf)))
(T (W xff xff xff xff xc8 x00 x00 x00)
(L (W x00 x00 x00 x00 x00 x00 x00 x00)) E))
(T (W xff xff xff xff xff xff xff xff)
(T (W x00 x00 x80 x3f x00 x00 x80 x3f)
(L (W x00 x00 x00 x00 x2a x5c xfe xff)) E)
(T (W xff xff xff xff xff xff xff xff)
(L (W x00 x00 x80 xbf x00 x00 x80 xbf)) E)))))
(T (W x64 x00 x00 x00 xa0 x00 x00 x00)
(T (W x00 x00 x00 x00 x72 x61 xfd xff)
(T (W x45 x26 x22 x84 xe4 x9c xf2 xcb)
(T (W x00 x00 x80 x3f x00 x00 x80 x3f)
(T (W x00 x00 x80 x3f x00 x00 x80 x3f)
(L (W xff xff xff xff xff xff xff xff))
(L (W xff xff xff xff xff xff xff xff)))
(T (W xff xff xff xff xff xff xff xff)
(L (W x54 x00 x00 x00 x48 x00 x00 x00)) E))
(T (W x00 x00 x00 x00 x00 x00 x00 x00)
(T (W x00 x00 x00 x00 x00 x00 x00 x00)
(L (W xff xff xff xff xff xff xff xff)) E)
(T (W x45 x26 x22 x84 xe4 x9c xf2 xcb)
(L (W x68 x00 x00 x00 x5c x00 x00 x00)) E)))
(T (W xff xff xff xff xff xff xff xff)
(T (W xff xff xff xff xff xff xff xff)
(T (W x00 x00 x80 x3f x00 x00 x80 x3f)
(L (W x46 x53 x59 x53 x5f x4e x53 x5f))
(L (W x49 xa1 x68 x4a xeb x5f xdd x3d)))
(T (W x00 x00 x80 x3f x00 x00 x80 x3f)
(L (W x00 x00 x00 x00 x07 x00 x00 x00)) E))
(T (W x00 x00 x00 x00 x12 x00 x00 x00)
(T (W x00 x00 x00 x00 x00 x00 x00 x00)
(L (W x19 x00 x00 x00 x1c x00 x00 x00)) E)
(T (W x00 x00 x80 xbf x00 x00 x80 xbf)
(L (W x00 x00 x00 x00 x00 x00 x00 x00)) E))))
(T (W x00 x00 x00 x00 x00 x00 x00 x00)
(T (W xd2 x2d xfd xff xb5 x01 x00 x00)
(T (W xfc xad xfa xff x3e x00 x00 x00)
(T (W x00 x00 x80 x3f x00 x00 x80 x3f)
(L (W x00 x00 x00 x00 x00 x00 x00 x00))
(L (W xff xff xff xff xff xff xff xff)))
(T (W x88 xb8 x33 x97 x85 xa7 x5f x5f)
(L (W x03 x00 x00 x00 xd0 x00 x00 x00)) E))
(T (W x00 x00 x00 x00 x00 x00 x00 x00)
(T (W xff xff xff xff xc4 x00 x00 x00)
(L (W x00 x00 x80 xbf x00 x00 x80 xbf)) E)
(T (W xff xff xff xff xff xff xff xff)
(L (W xff xff xff xff xff xff xff xff)) E)))
(T (W xbc x00 x00 x00 xb0 x00 x00 x00)
(T (W xff xff xff xff xff xff xff xff)
(T (W xff xff xff xff xff xff xff xff)
(L (W x29 x00 x00 x00 x2c x00 x00 x00))
(L (W xcc xe9 xff xff x00 x01 x01 x01)))
(T (W xff xff xff xff xff xff xff xff)
(L (W x00 x00 x80 xbf x00 x00 x80 xbf)) E))
(T (W x45 x26 x22 x84 xe4 x9c xf2 xcb)
(T (W xfc x6d xfc xff x25 x00 x00 x00)
(L (W x00 x00 x00 x00 x00 x00 x00 x00)) E)
(T (W x0f x40 x54 x1d xca xa2 x99 xfd)
(L (W xaa x66 xff xff x78 x00 x00 x00)) E))))))
(T (W xff xff xff xff xff xff xff xff)
(T (W x00 x00 x00 x00 x00 x00 x00 x00)
(T (W x00 x00 x80 x3f x00 x00 x80 x3f)
(T (W x00 x00 x00 x00 x00 x00 x00 x00)
(T (W x00 x00 x80 x3f x00 x00 x80 x3f)
(T (W x00 x00 x00 x00 x00 x00 x00 x00)
(L (W x00 x00 x00 x00 x00 x00 x00 x00))
(L (W xff xff xff xff xff xff xff xff)))
(T (W xff xff xff xff xff xff xff xff)
(L (W x6c x00 x00 x00 x60 x00 x00 x00)) E))
(T (W x01 x00 x00 x00 xac x00 x00 x00)
(T (W x00 x00 x00 x00 x00 x00 x00 x00)
(L (W xff xff xff xff xff xff xff xff))
(L (W x00 x00 x80 xbf x00 x00 x80 xbf)))
(T (W xff xff xff xff xff xff xff xff)
(L (W xcc x01 xff xff x00 x01 x01 x01)) E)))
(T (W xff xff xff xff xff xff xff xff)
(T (W xff xff xff xff xff xff xff xff)
(T (W x00 x00 x00 x00 x00 x00 x00 x00)
(L (W x62 x00 x00 x00 xc9 x00 x00 x00))
(L (W x45 x26 x22 x84 xe4 x9c xf2 xcb)))
(T (W xff xff xff xff xff xff xff xff)
(L (W x2a x00 x00 x00 xff xff xff xff)) E))
(T (W xff xff xff xff xff xff xff xff)
(T (W x00 x00 x00 x00 x00 x00 x00 x00)
(L (W xcc x41 xfe xff x00 x01 x01 x01)) E)
(T (W x00 x00 x00 x00 x00 x00 x00 x00)
(L (W x00 x00 x00 x00 x00 x00 x00 x00)) E))))
(T (W x00 x00 x00 x00 x00 x00 x00 x00)
(T (W xb6 x01 x00 x00 xff xff xff xff)
(T (W x00 x00 x00 x00 x00 x00 x00 x00)
(T (W x00 x00 x00 x00 x00 x00 x00 x00)
(L (W x5f x4e x53 x5f x30 x32 x5f x43))
(L (W x00 x00 x00 x00 x00 x00 x00 x00)))
(T (W xff xff xff xff xff xff xff xff)
(L (W xb4 x00 x00 x00 x50 x00 x00 x00)) E))
(T (W xff xff xff xff xff xff xff xff)
(T (W xaa x1e xfc xff x78 x00 x00 x00)
(L (W x00 x00 x80 xbf x00 x00 x80 xbf)) E)
(T (W x03 x00 x00 x00 xc8 x00 x00 x00)
(L (W x04 x00 x00 x00 x9a x1f xff xff)) E)))
(T (W x64 x00 x00 x00 x9c x00 x00 x00)
(T (W xff xff xff xff xff xff xff xff)
(T (W xff xff xff xff xff xff xff xff)
(L (W x00 x00 x00 x00 x00 x00 x00 x00))
(L (W x6c x00 x00 x00 x60 x00 x00 x00)))
(T (W xff xff xff xff xff xff xff xff)
(L (W x00 x00 x00 x00 x00 x00 x00 x00)) E))
(T (W x12 x00 x00 x00 x46 x53 x59 x53)
(T (W x00 x00 x80 x3f x00 x00 x80 x3f)
(L (W x00 x00 x00 x00 x00 x00 x00 x00)) E)
(T (W xff xff xff xff xff xff xff xff)
(L (W x00 x00 x80 xbf x00 x00 x80 xbf)) E)))))
(T (W x45 x26 x22 x84 xe4 x9c xf2 xcb)
(T (W xcc xd1 xf9 xff x00 x01 x01 x01)
(T (W x00 x00 x00 x00 x00 x00 x00 x00)
(T (W x50 x00 x00 x00 x44 x00 x00 x00)
(T (W x54 x00 x00 x00 x48 x00 x00 x00)
(L (W xc9 x00 x00 x00 xff xff xff xff))
(L (W x46 x53 x59 x53 x5f x4e x53 x5f)))
(T (W x64 x00 x00 x00 x9c x00 x00 x00)
(L (W x45 x26 x22 x84 xe4 x9c xf2 xcb)) E))
(T (W x00 x00 x00 x00 x00 x00 x00 x00)
(T (W x00 x00 x80 x3f x00 x00 x80 x3f)
(L (W x30 x32 x5f x43 x4c x45 x41 x52)) E)
(T (W x00 x00 x80 xbf x00 x00 x80 xbf)
(L (W x18 x00 x00 x00 x0c x00 x00 x00)) E)))
(T (W xff xff xff xff xff xff xff xff)
(T (W xff xff xff xff xff xff xff xff)
(T (W x00 x00 x80 x3f x00 x00 x80 x3f)
(L (W x00 x00 x00 x00 x00 x00 x00 x00))
(L (W x00 x00 x80 xbf x00 x00 x80 xbf)))
(T (W x00 x00 x80 x3f x00 x00 x80 x3f)
(L (W x14 x00 x00 x00 x10 x00 x00 x00)) E))
(T (W x00 x00 x00 x00 x3c x50 xfb xff)
(T (W x00 x00 x00 x00 x00 x00 x00 x00)
(L (W xff xff xff xff xff xff xff xff)) E)
(T (W x00 x00 x18 x00 x1c x00 x20 x00)
(L (W x00 x00 x80 xbf x00 x00 x80 xbf)) E))))
(T (W x45 x26 x22 x84 xe4 x9c xf2 xcb)
(T (W x5a x37 xfd xff x00 x00 x01 x01)
(T (W x01 x00 x00 x00 x04 x00 x00 x00)
(T (W xc8 x00 x00 x00 xbc x00 x00 x00)
(L (W xb0 x00 x00 x00 x64 x00 x00 x00))
(L (W x00 x00 x00 x00 x00 x00 x00 x00)))
(T (W x00 x00 x00 x00 x00 x00 x00 x00)
(L (W xff xff xff xff xff xff xff xff)) E))
(T (W x00 x00 x80 x3f x00 x00 x80 x3f)
(T (W xff xff xff xff xff xff xff xff)
(L (W x6c x00 x00 x00 x60 x00 x00 x00)) E)
(T (W xff xff xff xff xff xff xff xff)
(L (W xff xff xff xff xff xff xff xff)) E)))
(T (W xcc x71 xfa xff x00 x01 x01 x01)
(T (W xb8 x00 x00 x00 xac x00 x00 x00)
(T (W x00 x00 x00 x00 x00 x00 x00 x00)
(L (W x18 x00 x00 x00 x10 x00 x00 x00))
(L (W x45 x26 x22 x84 xe4 x9c xf2 xcb)))
(T (W x4c x45 x41 x52 x45 x44 x00 x00)
(L (W x54 x00 x00 x00 x48 x00 x00 x00)) E))
(T (W x01 x00 x00 x00 x21 x00 x00 x00)
(T (W xff xff xff xff xff xff xff xff)
(L (W x00 x00 x80 xbf x00 x00 x80 xbf)) E)
(T (W x00 x00 x00 x00 x00 x00 x00 x00)
(L (W xbc x00 x00 x00 x1e x00 x00 x00)) E)))))))
(T (W xff xff xff xff xff xff xff xff)
(T (W xaa x8a xf9 xff x78 x00 x00 x00)
(T (W xff xff xff xff xff xff xff xff)
(T (W x00 x00 x00 x00 x00 x00 x00 x00)
(T (W xff xff xff xff xff xff xff xff)
(T (W xfc x81 xfa xff x1e x00 x00 x00)
(T (W x00 x00 x80 x3f x00 x00 x80 x3f)
(L (W x00 x00 x80 xbf x00 x00 x80 xbf))
(L (W x00 x00 x00 x00 x00 x00 x00 x00)))
(T (W x00 x00 x80 x3f x00 x00 x80 x3f)
(L (W xff xff xff xff xff xff xff xff)) E))
(T (W x00 x00 x00 x00 xda xf9 xfa xff)
(T (W x1b x00 x00 x00 x1e x00 x00 x00)
(L (W x00 x00 x80 xbf x00 x00 x80 xbf))
(L (W x28 x00 x2c x00 x30 x00 x34 x00)))
(T (W xff xff xff xff xff xff xff xff)
(L (W x00 x00 x00 x00 xda xf9 xfe xff)) E)))
(T (W x00 x00 x80 x3f x00 x00 x80 x3f)
(T (W x00 x00 x80 x3f x00 x00 x80 x3f)
(T (W x16 x00 x00 x00 xb0 x00 x00 x00)
(L (W x00 x00 x80 xbf x00 x00 x80 xbf))
(L (W xff xff xff xff xff xff xff xff)))
(T (W x00 x00 x80 x3f x00 x00 x80 x3f)
(L (W x00 x00 x80 xbf x00 x00 x80 xbf)) E))
(T (W x00 x00 x00 x00 x00 x00 x00 x00)
(T (W xaa x3a xfc xff x78 x00 x00 x00)
(L (W x00 x00 x00 x00 x00 x00 x00 x00)) E)
(T (W xc4 x00 x00 x00 x02 x00 x00 x00)
(L (W x45 x26 x22 x84 xe4 x9c xf2 xcb)) E))))
(T (W x18 x00 x00 x00 x0c x00 x00 x00)
(T (W x00 x00 x00 x00 x0a x2a xff xff)
(T (W x50 x00 x00 x00 x44 x00 x00 x00)
(T (W x45 x26 x22 x84 xe4 x9c xf2 xcb)
(L (W xcc x9d xfd xff x00 x01 x01 x01))
(L (W xff xff xff xff x9c x00 x00 x00)))
(T (W x5f x6c x76 x31 x5f x74 x6f x5f)
(L (W x00 x00 x00 x00 x00 x00 x00 x00)) E))
(T (W x00 x00 x80 x3f x00 x00 x80 x3f)
(T (W x00 x00 x00 x00 x00 x00 x00 x00)
(L (W xff xff xff xff x9c x00 x00 x00)) E)
(T (W x00 x00 x00 x00 x00 x00 x00 x00)
(L (W x00 x00 x80 xbf x00 x00 x80 xbf)) E)))
(T (W x00 x00 x00 x00 x00 x00 x00 x00)
(T (W x00 x00 x00 x00 x00 x00 x00 x00)
(T (W x00 x00 x00 x00 x00 x00 x00 x00)
(L (W xff xff xff xff xff xff xff xff))
(L (W x00 x00 x00 x00 x00 x00 x00 x00)))
(T (W x00 x00 x80 x3f x00 x00 x80 x3f)
(L (W xff xff xff xff xc8 x00 x00 x00)) E))
(T (W x00 x00 x80 x3f x00 x00 x80 x3f)
(T (W x5a x63 xff xff x00 x00 x01 x01)
(L (W x00 x00 x80 xbf x00 x00 x80 xbf)) E)
(T (W x45 x26 x22 x84 xe4 x9c xf2 xcb)
(L (W x04 x00 x00 x00 xba x61 xff xff)) E)))))
(T (W xc9 x00 x00 x00 xff xff xff xff)
(T (W x45 x26 x22 x84 xe4 x9c xf2 xcb)
(T (W xcc x0d xfa xff x00 x01 x01 x01)
(T (W x00 x00 x00 x00 x02 x00 x00 x00)
(T (W xff xff xff xff x03 x00 x00 x00)
(L (W x00 x00 x80 xbf x00 x00 x80 xbf))
(L (W x00 x00 x80 xbf x00 x00 x80 xbf)))
(T (W x00 x00 x00 x00 x00 x00 x00 x00)
(L (W x06 x00 x00 x00 xd0 x05 x00 x00)) E))
(T (W x18 x00 x00 x00 x0c x00 x00 x00)
(T (W xff xff xff xff xff xff xff xff)
(L (W x45 x26 x22 x84 xe4 x9c xf2 xcb)) E)
(T (W x45 x26 x22 x84 xe4 x9c xf2 xcb)
(L (W x00 x00 x00 x00 x00 x00 x00 x00)) E)))
(T (W x00 x00 x00 x00 x00 x00 x00 x00)
(T (W x00 x00 x80 x3f x00 x00 x80 x3f)
(T (W x74 x03 x00 x00 x4c x02 x00 x00)
(L (W xaa xca xfd xff x78 x00 x00 x00))
(L (W xff xff xff xff xff xff xff xff)))
(T (W x00 x00 x00 x00 x00 x00 x00 x00)
(L (W x18 x00 x00 x00 x10 x00 x00 x00)) E))
(T (W xff xff xff xff x01 x00 x00 x00)
(T (W xff xff xff xff xff xff xff xff)
(L (W x00 x00 x80 xbf x00 x00 x80 xbf)) E)
(T (W x00 x00 x01 x01 xc7 x01 x00 x00)
(L (W xff xff xff xff xff xff xff xff)) E))))
(T (W x45 x26 x22 x84 xe4 x9c xf2 xcb)
(T (W x00 x00 x80 x3f x00 x00 x80 x3f)
(T (W x00 x00 x00 x00 x3c xac xfa xff)
(T (W x00 x00 x00 x00 x00 x00 x00 x00)
(L (W x00 x00 x80 xbf x00 x00 x80 xbf))
(L (W xff xff xff xff xb0 x00 x00 x00)))
(T (W x45 x26 x22 x84 xe4 x9c xf2 xcb)
(L (W x00 x00 x00 x00 x00 x00 x00 x00)) E))
(T (W xff xff xff xff xff xff xff xff)
(T (W x46 x53 x59 x53 x5f x4e x53 x5f)
(L (W xff xff xff xff xff xff xff xff)) E)
(T (W x00 x00 x80 xbf x00 x00 x80 xbf)
(L (W x00 x00 x80 xbf x00 x00 x80 xbf)) E)))
(T (W x00 x00 x00 x00 x00 x00 x00 x00)
(T (W x45 x26 x22 x84 xe4 x9c xf2 xcb)
(T (W x00 x00 x80 x3f x00 x00 x80 x3f)
(L (W x00 x00 x00 x00 x00 x00 x00 x00))
(L (W x00 x00 x00 x00 x00 x00 x00 x00)))
(T (W x00 x00 x80 x3f x00 x00 x80 x3f)
(L (W x00 x00 x00 x00 x00 x00 x00 x00)) E))
(T (W x00 x00 x00 x00 x00 x00 x00 x00)
(T (W x00 x00 x80 x3f x00 x00 x80 x3f)
(L (W xff xff xff xff xff xff xff xff)) E)
(T (W xff xff xff xff xa0 x00 x00 x00)
(L (W x00 x00 x00 x00 xba x71 xff xff)) E))))))
(T (W x00 x00 x00 x00 x00 x00 x00 x00)
(T (W x00 x00 x80 x3f x00 x00 x80 x3f)
(T (W xbc x00 x00 x00 xb0 x00 x00 x00)
(T (W x64 x00 x00 x00 x9c x00 x00 x00)
(T (W x00 x00 x00 x00 x00 x00 x00 x00)
(T (W x18 x00 x00 x00 x10 x00 x00 x00)
(L (W x00 x00 x80 xbf x00 x00 x80 xbf))
(L (W x4f x84 x6f x8b xe8 xcb x63 xb7)))
(T (W x00 x00 x80 x3f x00 x00 x80 x3f)
(L (W xff xff xff xff xff xff xff xff)) E))
(T (W x00 x00 x00 x00 x00 x00 x00 x00)
(T (W xff xff xff xff xff xff xff xff)
(L (W x54 x00 x00 x00 x48 x00 x00 x00)) E)
(T (W xff xff xff xff xff xff xff xff)
(L (W x00 x00 x00 x00 x00 x00 x00 x00)) E)))
(T (W x00 x00 x80 x3f x00 x00 x80 x3f)
(T (W x00 x00 x80 x3f x00 x00 x80 x3f)
(T (W xff xff xff xff xff xff xff xff)
(L (W x18 x00 x00 x00 x10 x00 x00 x00))
(L (W xff xff xff xff xff xff xff xff)))
(T (W x00 x00 x80 x3f x00 x00 x80 x3f)
(L (W x6c x00 x00 x00 x60 x00 x00 x00)) E))
(T (W x6c x00 x00 x00 x60 x00 x00 x00)
(T (W xb8 x00 x00 x00 x28 x00 x00 x00)
(L (W x00 x00 x00 x00 x00 x00 x00 x00)) E)
(T (W xff xff xff xff xff xff xff xff)
(L (W xff xff xff xff xc8 x00 x00 x00)) E))))
(T (W x64 x00 x00 x00 x9c x00 x00 x00)
(T (W x00 x00 x80 x3f x00 x00 x80 x3f)
(T (W xfa xa0 xfa xff x74 x00 x00 x00)
(T (W xff xff xff xff xff xff xff xff)
(L (W x62 xe4 xff xff xc9 x00 x00 x00))
(L (W x00 x00 x00 x00 x00 x00 x00 x00)))
(T (W x45 x26 x22 x84 xe4 x9c xf2 xcb)
(L (W x49 xa1 x68 x4a xeb x5f xdd x3d)) E))
(T (W x18 x00 x00 x00 x0c x00 x00 x00)
(T (W x00 x00 x00 x00 x00 x00 x00 x00)
(L (W xff xff xff xff xff xff xff xff)) E)
(T (W x00 x00 x00 x00 x00 x00 x00 x00)
(L (W x00 x00 x80 xbf x00 x00 x80 xbf)) E)))
(T (W x00 x00 x00 x00 x00 x00 x00 x00)
(T (W x00 x00 x00 x00 x00 x00 x00 x00)
(T (W x00 x00 x00 x00 x00 x00 x00 x00)
(L (W xff xff xff xff xff xff xff xff))
(L (W x00 x00 x00 x00 x12 x00 x00 x00)))
(T (W xff xff xff xff xff xff xff xff)
(L (W xff xff xff xff xff xff xff xff)) E))
(T (W xff xff xff xff xff xff xff xff)
(T (W xff xff xff xff xff xff xff xff)
(L (W x00 x00 x00 x00 x3c x64 xfe xff)) E)
(T (W x00 x00 x80 xbf x00 x00 x80 xbf)
(L (W xff xff xff xff xff xff xff xff)) E)))))
(T (W xaa xb2 xf9 xff x78 x00 x00 x00)
(T (W xff xff xff xff xff xff xff xff)
(T (W xff xff xff xff xff xff xff xff)
(T (W x9c x00 x00 x00 xff xff xff xff)
(T (W x00 x00 x00 x00 x00 x00 x00 x00)
(L (W x50 x00 x00 x00 x44 x00 x00 x00))
(L (W xaa x92 xff xff x78 x00 x00 x00)))
(T (W x00 x00 x00 x00 x00 x00 x00 x00)
(L (W x00 x00 x00 x00 x12 x00 x00 x00)) E))
(T (W xff xff xff xff xff xff xff xff)
(T (W x4a x00 x00 x00 xff xff xff xff)
(L (W xcc x00 x00 x00 x01 x00 x00 x00)) E)
(T (W x00 x00 x00 x00 x00 x00 x00 x00)
(L (W x00 x00 x80 xbf x00 x00 x80 xbf)) E)))
(T (W x00 x00 x00 x00 x00 x00 x00 x00)
(T (W x45 x26 x22 x84 xe4 x9c xf2 xcb)
(T (W x45 x44 x00 x00 x00 x00 x00 x00)
(L (W xff xff xff xff xc8 x00 x00 x00))
(L (W x00 x00 x00 x00 x00 x00 x00 x00)))
(T (W x67 x72 x6f x75 x70 x5f x77 x69)
(L (W xbc x00 x00 x00 x3c x00 x00 x00)) E))
(T (W x30 x32 x5f x43 x4c x45 x41 x52)
(T (W xff xff xff xff xff xff xff xff)
(L (W x45 x26 x22 x84 xe4 x9c xf2 xcb)) E)
(T (W x00 x00 x00 x00 x00 x00 x00 x00)
(L (W x2a x00 x00 x00 xff xff xff xff)) E))))
(T (W xff xff xff xff x03 x00 x00 x00)
(T (W x00 x00 x00 x00 x00 x00 x00 x00)
(T (W x45 x26 x22 x84 xe4 x9c xf2 xcb)
(T (W x45 x26 x22 x84 xe4 x9c xf2 xcb)
(L (W xff xff xff xff xff xff xff xff))
(L (W xb4 x00 x00 x00 x32 x00 x00 x00)))
(T (W xcc xb5 xfc xff x00 x01 x01 x01)
(L (W x00 x00 x80 xbf x00 x00 x80 xbf)) E))
(T (W x9c x03 x00 x00 x6c x02 x00 x00)
(T (W x00 x00 x80 x3f x00 x00 x80 x3f)
(L (W x00 x00 x01 x01 x96 x01 x00 x00)) E)
(T (W x00 x00 x80 xbf x00 x00 x80 xbf)
(L (W x00 x00 x80 xbf x00 x00 x80 xbf)) E)))
(T (W x00 x00 x00 x00 x00 x00 x00 x00)
(T (W x18 x00 x00 x00 x0c x00 x00 x00)
(T (W x00 x00 x80 x3f x00 x00 x80 x3f)
(L (W x49 xa1 x68 x4a xeb x5f xdd x3d))
(L (W x00 x00 x80 xbf x00 x00 x80 xbf)))
(T (W xaa x01 x00 x00 xff xff xff xff)
(L (W x00 x00 x01 x01 x18 x01 x00 x00)) E))
(T (W x45 x26 x22 x84 xe4 x9c xf2 xcb)
(T (W x00 x00 x80 x3f x00 x00 x80 x3f)
(L (W xff xff xff xff xff xff xff xff)) E)
(T (W xaa x72 xfd xff x78 x00 x00 x00)
(L (W x00 x00 x00 x00 x12 x00 x00 x00)) E))))))))
(T (W xa4 x1a x00 x00 x88 x19 x00 x00)
(T (W xbc x00 x00 x00 xb0 x00 x00 x00)
(T (W x00 x00 x80 x3f x00 x00 x80 x3f)
(T (W xff xff xff xff xff xff xff xff)
(T (W x00 x00 x01 x01 xc9 x00 x00 x00)
(T (W x00 x00 x80 x3f x00 x00 x80 x3f)
(T (W xff xff xff xff xff xff xff xff)
(T (W x46 x53 x59 x53 x5f x4e x53 x5f)
(L (W x00 x00 x00 x00 x00 x00 x00 x00))
(L (W x00 x00 x00 x00 x00 x00 x00 x00)))
(T (W x00 x00 x00 x00 x00 x00 x00 x00)
(L (W xff xff xff xff xb0 x00 x00 x00)) E))
(T (W x45 x26 x22 x84 xe4 x9c xf2 xcb)
(T (W x45 x26 x22 x84 xe4 x9c xf2 xcb)
(L (W x18 x00 x00 x00 x0c x00 x00 x00))
(L (W x00 x00 x00 x00 x0c x00 x1c x00)))
(T (W x12 x00 x00 x00 x46 x53 x59 x53)
(L (W xff xff xff xff xff xff xff xff)) E)))
(T (W x00 x00 x00 x00 x00 x00 x00 x00)
(T (W x00 x00 x00 x00 x00 x00 x00 x00)
(T (W x49 xa1 x68 x4a xeb x5f xdd x3d)
(L (W x45 x26 x22 x84 xe4 x9c xf2 xcb))
(L (W x00 x00 x80 xbf x00 x00 x80 xbf)))
(T (W x00 x00 x00 x00 x00 x00 x00 x00)
(L (W x00 x00 x00 x00 x00 x00 x00 x00)) E))
(T (W xff xff xff xff xff xff xff xff)
(T (W x00 x00 x80 x3f x00 x00 x80 x3f)
(L (W xff xff xff xff xff xff xff xff)) E)
(T (W x00 x00 x80 xbf x00 x00 x80 xbf)
(L (W x00 x00 x00 x00 x00 x00 x00 x00)) E))))
(T (W x00 x00 x00 x00 x00 x00 x00 x00)
(T (W xff xff xff xff x04 x00 x00 x00)
(T (W x00 x00 x80 x3f x00 x00 x80 x3f)
(T (W x14 x00 x00 x00 x10 x00 x00 x00)
(L (W x49 xa1 x68 x4a xeb x5f xdd x3d))
(L (W x00 x00 x80 xbf x00 x00 x80 xbf)))
(T (W xff xff xff xff xff xff xff xff)
(L (W xff xff xff xff xff xff xff xff)) E))
(T (W x18 x00 x00 x00 x10 x00 x00 x00)
(T (W xff xff xff xff xff xff xff xff)
(L (W x00 x00 x80 xbf x00 x00 x80 xbf)) E)
(T (W x00 x00 x80 xbf x00 x00 x80 xbf)
(L (W x46 x53 x59 x53 x5f x4e x53 x5f)) E)))
(T (W x83 x01 x00 x00 xff xff xff xff)
(T (W x00 x00 x00 x00 x00 x00 x00 x00)
(T (W x4a x00 x00 x00 xff xff xff xff)
(L (W x54 x00 x00 x00 x48 x00 x00 x00))
(L (W xff xff xff xff xff xff xff xff)))
(T (W x89 x00 x00 x00 xff xff xff xff)
(L (W x00 x00 x80 xbf x00 x00 x80 xbf)) E))
(T (W x00 x00 x00 x00 x00 x00 x00 x00)
(T (W x6c x00 x00 x00 x60 x00 x00 x00)
(L (W x00 x00 x00 x00 x00 x00 x00 x00)) E)
(T (W x00 x00 x00 x00 x00 x00 x00 x00)
(L (W x45 x26 x22 x84 xe4 x9c xf2 xcb)) E)))))
(T (W xff xff xff xff xff xff xff xff)
(T (W x00 x00 x00 x00 x00 x00 x00 x00)
(T (W x00 x00 x80 x3f x00 x00 x80 x3f)
(T (W x64 x00 x00 x00 x9c x00 x00 x00)
(T (W xaa x88 xfb xff x78 x00 x00 x00)
(L (W x12 x00 x00 x00 x46 x53 x59 x53))
(L (W x00 x00 x00 x00 x00 x00 x00 x00)))
(T (W x17 x00 x00 x00 x10 x00 x00 x00)
(L (W x03 x00 x00 x00 xd0 x00 x00 x00)) E))
(T (W x4f x84 x6f x8b xe8 xcb x63 xb7)
(T (W x50 x00 x00 x00 x44 x00 x00 x00)
(L (W x00 x00 x00 x00 x00 x00 x00 x00)) E)
(T (W x04 x00 x00 x00 x9a x09 xfd xff)
(L (W x2a x00 x00 x00 xff xff xff xff)) E)))
(T (W x62 x5b xfd xff x00 x00 x01 x01)
(T (W x54 xd9 xfa xff x3e x00 x00 x00)
(T (W xcc xcb xfb xff x00 x01 x01 x01)
(L (W x00 x00 x80 xbf x00 x00 x80 xbf))
(L (W xcc x00 x00 x00 x01 x00 x00 x00)))
(T (W x54 x41 x52 x54 x5f x46 x41 x49)
(L (W x00 x00 x80 xbf x00 x00 x80 xbf)) E))
(T (W x45 x26 x22 x84 xe4 x9c xf2 xcb)
(T (W x00 x00 x80 x3f x00 x00 x80 x3f)
(L (W xff xff xff xff xff xff xff xff)) E)
(T (W x18 x00 x00 x00 x0c x00 x00 x00)
(L (W x00 x00 x80 xbf x00 x00 x80 xbf)) E))))
(T (W x68 x00 x00 x00 x5c x00 x00 x00)
(T (W x00 x00 x00 x00 x00 x00 x00 x00)
(T (W x45 x26 x22 x84 xe4 x9c xf2 xcb)
(T (W xb0 x00 x00 x00 x64 x00 x00 x00)
(L (W x00 x00 x80 xbf x00 x00 x80 xbf))
(L (W x00 x00 x80 xbf x00 x00 x80 xbf)))
(T (W x00 x00 x00 x00 x00 x00 x00 x00)
(L (W xff xff xff xff xff xff xff xff)) E))
(T (W x00 x00 x80 x3f x00 x00 x80 x3f)
(T (W xff xff xff xff xff xff xff xff)
(L (W x18 x00 x00 x00 x10 x00 x00 x00)) E)
(T (W x00 x00 x00 x00 x00 x00 x00 x00)
(L (W x45 x44 x00 x00 x00 x00 x00 x00)) E)))
(T (W x5a x71 xfd xff x00 x00 x01 x01)
(T (W x91 x75 x22 x92 xcc x2e x88 x0b)
(T (W x00 x00 x00 x00 x00 x00 x00 x00)
(L (W xff xff xff xff xff xff xff xff))
(L (W xff xff xff xff xff xff xff xff)))
(T (W x70 x5f x77 x69 x6c x64 x5f x70)
(L (W xfa xe6 xfe xff x74 x00 x00 x00)) E))
(T (W x21 x00 x00 x00 x24 x00 x00 x00)
(T (W x00 x00 x00 x00 x00 x00 x00 x00)
(L (W x00 x00 x80 xbf x00 x00 x80 xbf)) E)
(T (W x45 x26 x22 x84 xe4 x9c xf2 xcb)
(L (W xff xff xff xff xff xff xff xff)) E))))))
(T (W x00 x00 x00 x00 x00 x00 x00 x00)
(T (W x00 x00 x00 x00 x00 x00 x00 x00)
(T (W xaa xc0 xf9 xff x78 x00 x00 x00)
(T (W x00 x00 x80 x3f x00 x00 x80 x3f)
(T (W xff xff xff xff xff xff xff xff)
(T (W x00 x00 x80 x3f x00 x00 x80 x3f)
(L (W x00 x00 x00 x00 x00 x00 x00 x00))
(L (W x45 x44 x00 x00 x00 x00 x00 x00)))
(T (W x00 x00 x00 x00 x00 x00 x00 x00)
(L (W xff xff xff xff xc0 x00 x00 x00)) E))
(T (W x62 x13 xfe xff x00 x00 x01 x01)
(T (W x00 x00 x80 x3f x00 x00 x80 x3f)
(L (W x4f x84 x6f x8b xe8 xcb x63 xb7))
(L (W x46 x53 x59 x53 x5f x4e x53 x5f)))
(T (W x00 x00 x00 x00 x00 x00 x00 x00)
(L (W xff xff xff xff xff xff xff xff)) E)))
(T (W x09 x00 x00 x00 x0c x00 x00 x00)
(T (W x00 x00 x00 x00 x00 x00 x00 x00)
(T (W x68 x00 x00 x00 x5c x00 x00 x00)
(L (W x00 x00 x00 x00 x00 x00 x00 x00))
(L (W x6c x00 x00 x00 x60 x00 x00 x00)))
(T (W x00 x00 x00 x00 x00 x00 x00 x00)
(L (W x00 x00 x00 x00 x00 x00 x00 x00)) E))
(T (W x70 x5f x6c x65 x61 x64 x65 x72)
(T (W x00 x00 x80 x3f x00 x00 x80 x3f)
(L (W x00 x00 x01 x01 x2a x00 x00 x00)) E)
(T (W x68 x00 x00 x00 x5c x00 x00 x00)
(L (W x45 x26 x22 x84 xe4 x9c xf2 xcb)) E))))
(T (W x00 x00 x80 x3f x00 x00 x80 x3f)
(T (W x00 x00 x00 x00 x00 x00 x00 x00)
(T (W x00 x00 x80 x3f x00 x00 x80 x3f)
(T (W x00 x00 x80 x3f x00 x00 x80 x3f)
(L (W x03 x00 x00 x00 xd0 x00 x00 x00))
(L (W x03 x00 x00 x00 xd0 x00 x00 x00)))
(T (W x00 x00 x80 x3f x00 x00 x80 x3f)
(L (W xff xff xff xff xff xff xff xff)) E))
(T (W x49 xa1 x68 x4a xeb x5f xdd x3d)
(T (W xff xff xff xff xff xff xff xff)
(L (W xcc x23 xfe xff x00 x01 x01 x01)) E)
(T (W xff xff xff xff xff xff xff xff)
(L (W x00 x00 x00 x00 x00 x00 x00 x00)) E)))
(T (W xd2 x67 xfd xff x97 x01 x00 x00)
(T (W x00 x00 x00 x00 x00 x00 x00 x00)
(T (W x5a xe9 xfe xff x00 x00 x01 x01)
(L (W x18 x00 x00 x00 x10 x00 x00 x00))
(L (W xff xff xff xff xbc x00 x00 x00)))
(T (W xfc xe7 xfc xff x14 x00 x00 x00)
(L (W x45 x26 x22 x84 xe4 x9c xf2 xcb)) E))
(T (W x6c x00 x00 x00 x60 x00 x00 x00)
(T (W x18 x00 x00 x00 x10 x00 x00 x00)
(L (W x00 x00 x80 xbf x00 x00 x80 xbf)) E)
(T (W x00 x00 x00 x00 x00 x00 x00 x00)
(L (W xbc x00 x00 x00 x32 x00 x00 x00)) E)))))
(T (W x00 x00 x80 x3f x00 x00 x80 x3f)
(T (W xff xff xff xff x03 x00 x00 x00)
(T (W x45 x26 x22 x84 xe4 x9c xf2 xcb)
(T (W x00 x00 x00 x00 x3c x92 xfa xff)
(T (W xff xff xff xff xff xff xff xff)
(L (W x00 x00 x00 x00 x00 x00 x00 x00))
(L (W x00 x00 x80 xbf x00 x00 x80 xbf)))
(T (W xff xff xff xff xff xff xff xff)
(L (W xff xff xff xff xff xff xff xff)) E))
(T (W x00 x00 x80 x3f x00 x00 x80 x3f)
(T (W xff xff xff xff x03 x00 x00 x00)
(L (W x49 xa1 x68 x4a xeb x5f xdd x3d)) E)
(T (W xff xff xff xff xff xff xff xff)
(L (W x44 x09 x00 x00 x28 x08 x00 x00)) E)))
(T (W xff xff xff xff xff xff xff xff)
(T (W x00 x00 x00 x00 x00 x00 x00 x00)
(T (W xff xff xff xff xff xff xff xff)
(L (W x54 x00 x00 x00 x48 x00 x00 x00))
(L (W x45 x26 x22 x84 xe4 x9c xf2 xcb)))
(T (W xff xff xff xff xff xff xff xff)
(L (W x00 x00 x80 xbf x00 x00 x80 xbf)) E))
(T (W xff xff xff xff xff xff xff xff)
(T (W x45 x26 x22 x84 xe4 x9c xf2 xcb)
(L (W x00 x00 x00 x00 x00 x00 x00 x00)) E)
(T (W xff xff xff xff xff xff xff xff)
(L (W x68 x00 x00 x00 x5c x00 x00 x00)) E))))
(T (W xcc xf3 xf9 xff x00 x01 x01 x01)
(T (W x00 x00 x00 x00 x00 x00 x00 x00)
(T (W x45 x26 x22 x84 xe4 x9c xf2 xcb)
(T (W x98 x03 x00 x00 x70 x02 x00 x00)
(L (W xff xff xff xff xff xff xff xff))
(L (W x54 x00 x00 x00 x48 x00 x00 x00)))
(T (W x00 x00 x80 x3f x00 x00 x80 x3f)
(L (W xc5 x01 x00 x00 xff xff xff xff)) E))
(T (W x01 x00 x00 x00 xb0 x00 x00 x00)
(T (W xfc x37 xfc xff x14 x00 x00 x00)
(L (W x03 x00 x00 x00 xd8 x00 x00 x00)) E)
(T (W x00 x00 x00 x00 x00 x00 x00 x00)
(L (W x00 x00 x00 x00 x00 x00 x00 x00)) E)))
(T (W xff xff xff xff xff xff xff xff)
(T (W x64 x00 x08 x00 x00 x00 x00 x00)
(T (W x00 x00 x00 x00 x00 x00 x00 x00)
(L (W x45 x44 x00 x00 x00 x00 x00 x00))
(L (W x30 x32 x5f x43 x4c x45 x41 x52)))
(T (W xcc xf3 xfc xff x00 x01 x01 x01)
(L (W x03 x00 x00 x00 xd8 x00 x00 x00)) E))
(T (W x6b x65 x5f x6c x76 x31 x00 x00)
(T (W x00 x00 x00 x00 x00 x00 x00 x00)
(L (W x45 x26 x22 x84 xe4 x9c xf2 xcb)) E)
(T (W xff xff xff xff xff xff xff xff)
(L (W xff xff xff xff xff xff xff xff)) E)))))))
(T (W x00 x00 x00 x00 x00 x00 x00 x00)
(T (W xff xff xff xff x04 x00 x00 x00)
(T (W xff xff xff xff x1b x00 x00 x00)
(T (W x45 x26 x22 x84 xe4 x9c xf2 xcb)
(T (W x00 x00 x00 x00 x04 x00 x00 x00)
(T (W x00 x00 x80 x3f x00 x00 x80 x3f)
(T (W xff xff xff xff xff xff xff xff)
(L (W xff xff xff xff xff xff xff xff))
(L (W x00 x00 x80 xbf x00 x00 x80 xbf)))
(T (W x64 x00 x00 x00 x9c x00 x00 x00)
(L (W x00 x00 x00 x00 x00 x00 x00 x00)) E))
(T (W x00 x00 x80 x3f x00 x00 x80 x3f)
(T (W xff xff xff xff xff xff xff xff)
(L (W x45 x26 x22 x84 xe4 x9c xf2 xcb))
(L (W x03 x00 x00 x00 xe8 x00 x00 x00)))
(T (W x00 x00 x00 x00 x00 x00 x00 x00)
(L (W x00 x00 x00 x00 x00 x00 x00 x00)) E)))
(T (W x18 x00 x00 x00 x10 x00 x00 x00)
(T (W xff xff xff xff xff xff xff xff)
(T (W x76 x31 x00 x00 xea x58 xff xff)
(L (W x68 x00 x00 x00 x5c x00 x00 x00))
(L (W x00 x00 x00 x00 x00 x00 x00 x00)))
(T (W x45 x26 x22 x84 xe4 x9c xf2 xcb)
(L (W x45 x26 x22 x84 xe4 x9c xf2 xcb)) E))
(T (W x50 x00 x00 x00 x44 x00 x00 x00)
(T (W xff xff xff xff xff xff xff xff)
(L (W x00 x00 x80 xbf x00 x00 x80 xbf)) E)
(T (W x04 x00 x00 x00 x9a x3d xfd xff)
(L (W xff xff xff xff xff xff xff xff)) E))))
(T (W xff xff xff xff xff xff xff xff)
(T (W xcc x1f xfa xff x00 x01 x01 x01)
(T (W xff xff xff xff xff xff xff xff)
(T (W xff xff xff xff xbc x00 x00 x00)
(L (W xff xff xff xff xff xff xff xff))
(L (W x00 x00 x00 x00 x00 x00 x00 x00)))
(T (W x00 x00 x80 x3f x00 x00 x80 x3f)
(L (W x00 x00 x80 xbf x00 x00 x80 xbf)) E))
(T (W xff xff xff xff xc4 x00 x00 x00)
(T (W x00 x00 x80 x3f x00 x00 x80 x3f)
(L (W x30 x32 x5f x43 x4c x45 x41 x52)) E)
(T (W x00 x01 x01 x01 xe2 x76 xfd xff)
(L (W xcc x1f xff xff x00 x01 x01 x01)) E)))
(T (W x00 x00 x80 x3f x00 x00 x80 x3f)
(T (W x68 x00 x00 x00 x5c x00 x00 x00)
(T (W x45 x26 x22 x84 xe4 x9c xf2 xcb)
(L (W x00 x00 x00 x00 x00 x00 x00 x00))
(L (W x45 x26 x22 x84 xe4 x9c xf2 xcb)))
(T (W xcc xdf xfc xff x00 x01 x01 x01)
(L (W x00 x00 x00 x00 x2a xe2 xfe xff)) E))
(T (W xff xff xff xff xff xff xff xff)
(T (W x00 x00 x00 x00 x00 x00 x00 x00)
(L (W xff xff xff xff xff xff xff xff)) E)
(T (W xff xff xff xff xa0 x00 x00 x00)
(L (W x45 x26 x22 x84 xe4 x9c xf2 xcb)) E)))))
(T (W x00 x00 x00 x00 x00 x00 x00 x00)
(T (W x00 x00 x80 x3f x00 x00 x80 x3f)
(T (W xc2 x01 x00 x00 xff xff xff xff)
(T (W x00 x00 x00 x00 x00 x00 x00 x00)
(T (W x5f x77 x69 x6c x64 x5f x70 x6f)
(L (W xc0 x00 x00 x00 x01 x00 x00 x00))
(L (W xb8 x00 x00 x00 x64 x00 x00 x00)))
(T (W x00 x00 x80 x3f x00 x00 x80 x3f)
(L (W x00 x00 x80 xbf x00 x00 x80 xbf)) E))
(T (W xff xff xff xff xff xff xff xff)
(T (W x45 x44 x00 x00 x00 x00 x00 x00)
(L (W xff xff xff xff xff xff xff xff)) E)
(T (W xb0 x00 x00 x00 x64 x00 x00 x00)
(L (W x00 x00 x80 xbf x00 x00 x80 xbf)) E)))
(T (W x50 x00 x00 x00 x44 x00 x00 x00)
(T (W x45 x26 x22 x84 xe4 x9c xf2 xcb)
(T (W x45 x26 x22 x84 xe4 x9c xf2 xcb)
(L (W xff xff xff xff xff xff xff xff))
(L (W x00 x00 x00 x00 x00 x00 x00 x00)))
(T (W x00 x00 x00 x00 x1c x00 x20 x00)
(L (W xff xff xff xff xff xff xff xff)) E))
(T (W x00 x00 x00 x00 x00 x00 x00 x00)
(T (W x00 x00 x00 x00 x00 x00 x00 x00)
(L (W x45 x26 x22 x84 xe4 x9c xf2 xcb)) E)
(T (W x00 x00 x00 x00 x00 x00 x00 x00)
(L (W x00 x00 x00 x00 x00 x00 x00 x00)) E))))
(T (W x62 xff xfc xff x00 x00 x01 x01)
(T (W xbc x00 x00 x00 xb0 x00 x00 x00)
(T (W x64 x00 x00 x00 x9c x00 x00 x00)
(T (W x00 x00 x80 x3f x00 x00 x80 x3f)
(L (W x00 x00 x00 x00 x3c xae xfd xff))
(L (W xff xff xff xff xff xff xff xff)))
(T (W xff xff xff xff xff xff xff xff)
(L (W xaa xac xfe xff x78 x00 x00 x00)) E))
(T (W x00 x00 x00 x00 x12 x00 x00 x00)
(T (W x45 x26 x22 x84 xe4 x9c xf2 xcb)
(L (W x49 xa1 x68 x4a xeb x5f xdd x3d)) E)
(T (W x45 x26 x22 x84 xe4 x9c xf2 xcb)
(L (W xc4 x00 x00 x00 x02 x00 x00 x00)) E)))
(T (W x00 x00 x00 x00 x00 x00 x00 x00)
(T (W x00 x00 x80 x3f x00 x00 x80 x3f)
(T (W x45 x26 x22 x84 xe4 x9c xf2 xcb)
(L (W x00 x00 x80 xbf x00 x00 x80 xbf))
(L (W x00 x00 x80 xbf x00 x00 x80 xbf)))
(T (W x00 x00 x00 x00 x3c xee xfc xff)
(L (W x00 x00 x00 x00 x00 x00 x00 x00)) E))
(T (W x00 x00 x00 x00 x00 x00 x00 x00)
(T (W xb8 x00 x00 x00 xac x00 x00 x00)
(L (W x00 x00 x00 x00 x00 x00 x00 x00)) E)
(T (W xff xff xff xff xff xff xff xff)
(L (W x45 x26 x22 x84 xe4 x9c xf2 xcb)) E))))))
(T (W x00 x00 x80 x3f x00 x00 x80 x3f)
(T (W x6c x00 x00 x00 x60 x00 x00 x00)
(T (W xff xff xff xff xff xff xff xff)
(T (W xff xff xff xff xff xff xff xff)
(T (W x00 x00 x80 x3f x00 x00 x80 x3f)
(T (W xff xff xff xff xff xff xff xff)
(L (W x45 x26 x22 x84 xe4 x9c xf2 xcb))
(L (W x19 x00 x00 x00 x1c x00 x00 x00)))
(T (W x18 x00 x00 x00 x0c x00 x00 x00)
(L (W x4f x84 x6f x8b xe8 xcb x63 xb7)) E))
(T (W xbc x00 x00 x00 x14 x00 x00 x00)
(T (W x62 x17 xff xff x00 x00 x01 x01)
(L (W xcc x00 x00 x00 x01 x00 x00 x00)) E)
(T (W x00 x00 x00 x00 x00 x00 x00 x00)
(L (W x00 x00 x80 xbf x00 x00 x80 xbf)) E)))
(T (W x40 x00 x00 x00 x9c x00 x00 x00)
(T (W xff xff xff xff xff xff xff xff)
(T (W x00 x00 x00 x00 x00 x00 x00 x00)
(L (W xff xff xff xff xff xff xff xff))
(L (W x46 x53 x59 x53 x5f x4e x53 x5f)))
(T (W x00 x00 x00 x00 x3c xc6 xfc xff)
(L (W x03 x00 x00 x00 xd0 x00 x00 x00)) E))
(T (W xff xff xff xff xff xff xff xff)
(T (W xff xff xff xff xff xff xff xff)
(L (W x00 x00 x80 xbf x00 x00 x80 xbf)) E)
(T (W x00 x00 x00 x00 x12 x00 x00 x00)
(L (W x00 x00 x00 x00 x2a x4a xff xff)) E))))
(T (W x02 x00 x00 x00 x1c x01 x00 x00)
(T (W x64 x00 x00 x00 x9c x00 x00 x00)
(T (W xff xff xff xff xff xff xff xff)
(T (W x6b x65 x5f x77 x61 x72 x6c x69)
(L (W x00 x00 x00 x00 x00 x00 x00 x00))
(L (W x00 x00 x00 x00 x3c xa6 xff xff)))
(T (W xff xff xff xff xff xff xff xff)
(L (W x6c x00 x00 x00 x60 x00 x00 x00)) E))
(T (W xff xff xff xff xff xff xff xff)
(T (W x00 x00 x80 x3f x00 x00 x80 x3f)
(L (W x54 x35 xfe xff x15 x00 x00 x00)) E)
(T (W x00 x00 x80 xbf x00 x00 x80 xbf)
(L (W x45 x26 x22 x84 xe4 x9c xf2 xcb)) E)))
(T (W x00 x00 x80 x3f x00 x00 x80 x3f)
(T (W x00 x00 x80 x3f x00 x00 x80 x3f)
(T (W x18 x00 x00 x00 x0c x00 x00 x00)
(L (W x30 x32 x5f x43 x4c x45 x41 x52))
(L (W x00 x00 x80 xbf x00 x00 x80 xbf)))
(T (W x00 x00 x00 x00 x00 x00 x00 x00)
(L (W x00 x00 x00 x00 x00 x00 x00 x00)) E))
(T (W x00 x00 x00 x00 x00 x00 x00 x00)
(T (W x6c x00 x00 x00 x60 x00 x00 x00)
(L (W x00 x00 x00 x00 x2a x6a xfe xff)) E)
(T (W xff xff xff xff xff xff xff xff)
(L (W x00 x00 x80 xbf x00 x00 x80 xbf)) E)))))
(T (W xbc x00 x00 x00 xb0 x00 x00 x00)
(T (W x00 x00 x00 x00 xea x70 xfd xff)
(T (W x00 x00 x00 x00 x00 x00 x00 x00)
(T (W x00 x00 x00 x00 x00 x00 x00 x00)
(T (W x00 x00 x80 x3f x00 x00 x80 x3f)
(L (W xff xff xff xff xff xff xff xff))
(L (W xff xff xff xff xff xff xff xff)))
(T (W x00 x00 x80 x3f x00 x00 x80 x3f)
(L (W x00 x00 x80 xbf x00 x00 x80 xbf)) E))
(T (W xfa x12 xfb xff x74 x00 x00 x00)
(T (W x00 x00 x00 x00 x00 x00 x00 x00)
(L (W xff xff xff xff xff xff xff xff)) E)
(T (W x00 x00 x80 xbf x00 x00 x80 xbf)
(L (W x18 x00 x00 x00 x10 x00 x00 x00)) E)))
(T (W x6c x00 x00 x00 x60 x00 x00 x00)
(T (W x18 x00 x00 x00 x0c x00 x00 x00)
(T (W x00 x00 x00 x00 x00 x00 x00 x00)
(L (W x00 x00 x00 x00 x2a xda xfd xff))
(L (W x00 x00 x00 x00 x00 x00 x00 x00)))
(T (W x54 x00 x00 x00 x48 x00 x00 x00)
(L (W x5c x00 x00 x00 xff xff xff xff)) E))
(T (W xcc x57 xfb xff x00 x01 x01 x01)
(T (W x00 x00 x00 x00 x00 x00 x00 x00)
(L (W xff xff xff xff xc8 x00 x00 x00)) E)
(T (W x00 x00 x80 xbf x00 x00 x80 xbf)
(L (W x00 x00 x00 x00 x00 x00 x00 x00)) E))))
(T (W xff xff xff xff xff xff xff xff)
(T (W x45 x26 x22 x84 xe4 x9c xf2 xcb)
(T (W xff xff xff xff x03 x00 x00 x00)
(T (W x45 x26 x22 x84 xe4 x9c xf2 xcb)
(L (W x00 x00 x00 x00 x00 x00 x00 x00))
(L (W xff xff xff xff xff xff xff xff)))
(T (W xff xff xff xff xff xff xff xff)
(L (W xcc xb7 xfe xff x00 x01 x01 x01)) E))
(T (W x45 x26 x22 x84 xe4 x9c xf2 xcb)
(T (W xff xff xff xff xff xff xff xff)
(L (W x00 x00 x00 x00 x00 x00 x00 x00)) E)
(T (W xff xff xff xff xff xff xff xff)
(L (W xff xff xff xff xff xff xff xff)) E)))
(T (W x45 x26 x22 x84 xe4 x9c xf2 xcb)
(T (W xff xff xff xff xff xff xff xff)
(T (W xff xff xff xff xff xff xff xff)
(L (W xaa xf4 xfd xff x78 x00 x00 x00))
(L (W xcc xf7 xff xff x00 x01 x01 x01)))
(T (W x00 x00 x00 x00 x00 x00 x00 x00)
(L (W x00 x00 x00 x00 x00 x00 x00 x00)) E))
(T (W x00 x00 x80 x3f x00 x00 x80 x3f)
(T (W xff xff xff xff xff xff xff xff)
(L (W x00 x00 x00 x00 x00 x00 x00 x00)) E)
(T (W xff xff xff xff xff xff xff xff)
(L (W x00 x00 x80 xbf x00 x00 x80 xbf)) E)))))))))
(T (W x08 x6f x02 x00 x64 x6a x02 x00)
(T (W x10 xce x00 x00 xdc xcc x00 x00)
(T (W x45 x26 x22 x84 xe4 x9c xf2 xcb)
(T (W x45 x26 x22 x84 xe4 x9c xf2 xcb)
(T (W x64 x00 x00 x00 xa0 x00 x00 x00)
(T (W xff xff xff xff xff xff xff xff)
(T (W x00 x00 x00 x00 x00 x00 x00 x00)
(T (W x64 x00 x00 x00 x9c x00 x00 x00)
(T (W x00 x00 x00 x00 x00 x00 x00 x00)
(L (W x00 x00 x00 x00 x00 x00 x00 x00))
(L (W xff xff xff xff xff xff xff xff)))
(T (W x00 x00 x00 x00 x00 x00 x00 x00)
(L (W xaa x77 xfe xff x78 x00 x00 x00)) E))
(T (W x00 x00 x00 x00 x0d x00 x00 x00)
(T (W x00 x00 x00 x00 x00 x00 x00 x00)
(L (W xff xff xff xff xff xff xff xff))
(L (W xff xff xff xff xff xff xff xff)))
(T (W x00 x00 x00 x00 x68 x00 x6c x00)
(L (W xff xff xff xff xb0 x00 x00 x00)) E)))
(T (W x62 x4a xfd xff x00 x00 x01 x01)
(T (W x54 xc8 xfa xff x27 x00 x00 x00)
(T (W x00 x00 x00 x00 x00 x00 x00 x00)
(L (W x00 x00 x00 x00 x00 x00 x00 x00))
(L (W x00 x00 x80 xbf x00 x00 x80 xbf)))
(T (W x00 x00 x00 x00 x00 x00 x00 x00)
(L (W x92 x01 x00 x00 xff xff xff xff)) E))
(T (W xcc x00 x00 x00 xc0 x00 x00 x00)
(T (W x00 x00 x00 x00 x00 x00 x00 x00)
(L (W xff xff xff xff xb0 x00 x00 x00)) E)
(T (W x00 x00 x00 x00 x00 x00 x00 x00)
(L (W x00 x00 x00 x00 x00 x00 x00 x00)) E))))
(T (W x00 x00 x00 x00 x00 x00 x00 x00)
(T (W xfa x15 xfa xff x74 x00 x00 x00)
(T (W x6c x00 x08 x00 x0c x00 x00 x00)
(T (W xff xff xff xff xff xff xff xff)
(L (W x00 x00 x00 x00 x00 x00 x00 x00))
(L (W x49 xa1 x68 x4a xeb x5f xdd x3d)))
(T (W x64 x00 x00 x00 x9c x00 x00 x00)
(L (W xff xff xff xff xff xff xff xff)) E))
(T (W xff xff xff xff xff xff xff xff)
(T (W x01 x00 x00 x00 x19 x00 x00 x00)
(L (W x00 x00 x80 xbf x00 x00 x80 xbf)) E)
(T (W x00 x00 x00 x00 x00 x00 x00 x00)
(L (W x00 x00 x01 x01 xac x00 x00 x00)) E)))
(T (W xff xff xff xff xff xff xff xff)
(T (W x00 x00 x00 x00 x00 x00 x00 x00)
(T (W xff xff xff xff xff xff xff xff)
(L (W x45 x26 x22 x84 xe4 x9c xf2 xcb))
(L (W x68 x00 x00 x00 x5c x00 x00 x00)))
(T (W xff xff xff xff xff xff xff xff)
(L (W x45 x26 x22 x84 xe4 x9c xf2 xcb)) E))
(T (W x00 x00 x00 x00 x00 x00 x00 x00)
(T (W x00 x00 x80 x3f x00 x00 x80 x3f)
(L (W x00 x00 x00 x00 x00 x00 x00 x00)) E)
(T (W x54 x01 x00 x00 xff xff xff xff)
(L (W x6c x00 x00 x00 x60 x00 x00 x00)) E)))))
(T (W xff xff xff xff xff xff xff xff)
(T (W x00 x00 x00 x00 x00 x00 x00 x00)
(T (W x00 x00 x80 x3f x00 x00 x80 x3f)
(T (W x50 x00 x00 x00 x44 x00 x00 x00)
(T (W x50 x00 x00 x00 x44 x00 x00 x00)
(L (W x00 x00 x00 x00 x00 x00 x00 x00))
(L (W x00 x00 x00 x00 x00 x00 x00 x00)))
(T (W xff xff xff xff xff xff xff xff)
(L (W x18 x00 x00 x00 x10 x00 x00 x00)) E))
(T (W x00 x00 x00 x00 x00 x00 x00 x00)
(T (W x00 x00 x80 x3f x00 x00 x80 x3f)
(L (W x45 x44 x00 x00 x00 x00 x00 x00)) E)
(T (W xff xff xff xff xff xff xff xff)
(L (W xff xff xff xff xff xff xff xff)) E)))
(T (W xff xff xff xff xff xff xff xff)
(T (W xff xff xff xff xff xff xff xff)
(T (W x68 x00 x00 x00 x5c x00 x00 x00)
(L (W x00 x00 x00 x00 x00 x00 x00 x00))
(L (W x00 x00 x80 xbf x00 x00 x80 xbf)))
(T (W x00 x00 x07 x00 x68 x00 x6c x00)
(L (W x00 x00 x00 x00 x00 x00 x00 x00)) E))
(T (W x00 x00 x00 x00 x00 x00 x00 x00)
(T (W x00 x00 x80 x3f x00 x00 x80 x3f)
(L (W xff xff xff xff xff xff xff xff)) E)
(T (W x00 x00 x80 xbf x00 x00 x80 xbf)
(L (W x00 x00 x80 xbf x00 x00 x80 xbf)) E))))
(T (W x00 x00 x80 x3f x00 x00 x80 x3f)
(T (W x00 x00 x00 x00 x00 x00 x00 x00)
(T (W x00 x00 x00 x00 x00 x00 x00 x00)
(T (W xcc xaa xfb xff x00 x01 x01 x01)
(L (W x45 x26 x22 x84 xe4 x9c xf2 xcb))
(L (W x00 x00 x00 x00 x00 x00 x00 x00)))
(T (W x00 x00 x00 x00 x00 x00 x00 x00)
(L (W xff xff xff xff xff xff xff xff)) E))
(T (W x49 xa1 x68 x4a xeb x5f xdd x3d)
(T (W xff xff xff xff xff xff xff xff)
(L (W x6c x00 x00 x00 x60 x00 x00 x00)) E)
(T (W x54 x02 x00 x00 x38 x01 x00 x00)
(L (W xff xff xff xff xff xff xff xff)) E)))
(T (W xff xff xff xff xff xff xff xff)
(T (W xff xff xff xff xff xff xff xff)
(T (W x4a x00 x00 x00 xff xff xff xff)
(L (W xff xff xff xff xff xff xff xff))
(L (W xbc x00 x00 x00 x32 x00 x00 x00)))
(T (W xe2 xf8 xff xff x85 x00 x00 x00)
(L (W x00 x00 x80 xbf x00 x00 x80 xbf)) E))
(T (W xaa x67 xfb xff x78 x00 x00 x00)
(T (W x00 x00 x00 x00 x00 x00 x00 x00)
(L (W x45 x26 x22 x84 xe4 x9c xf2 xcb)) E)
(T (W x00 x00 x00 x00 x00 x00 x00 x00)
(L (W xff xff xff xff xa0 x00 x00 x00)) E))))))
(T (W x00 x00 x01 x01 xc9 x00 x00 x00)
(T (W x00 x00 x00 x00 x00 x00 x00 x00)
(T (W x54 x00 x00 x00 x48 x00 x00 x00)
(T (W x45 x26 x22 x84 xe4 x9c xf2 xcb)
(T (W xcc x82 xfa xff x00 x01 x01 x01)
(T (W x00 x00 x80 x3f x00 x00 x80 x3f)
(L (W x00 x00 x00 x00 x12 x00 x00 x00))
(L (W xff xff xff xff xff xff xff xff)))
(T (W x16 x00 x00 x00 x10 x00 x00 x00)
(L (W x45 x26 x22 x84 xe4 x9c xf2 xcb)) E))
(T (W xff xff xff xff xff xff xff xff)
(T (W x00 x00 x80 x3f x00 x00 x80 x3f)
(L (W xb2 x4c xbb x28 xbf xd2 x6a x6a))
(L (W xff xff xff xff xff xff xff xff)))
(T (W x6f x79 x61 x62 x75 x6e x00 x00)
(L (W xbc x00 x00 x00 x1e x00 x00 x00)) E)))
(T (W xff xff xff xff xff xff xff xff)
(T (W x01 x00 x00 x00 x04 x00 x00 x00)
(T (W x00 x00 x80 x3f x00 x00 x80 x3f)
(L (W x00 x00 x00 x00 x00 x00 x00 x00))
(L (W x00 x00 x80 xbf x00 x00 x80 xbf)))
(T (W x00 x00 x00 x00 x02 x00 x00 x00)
(L (W x00 x00 x00 x00 x00 x00 x00 x00)) E))
(T (W xff xff xff xff xff xff xff xff)
(T (W x00 x00 x00 x00 x00 x00 x00 x00)
(L (W xb0 x00 x00 x00 x64 x00 x00 x00)) E)
(T (W x00 x00 x80 xbf x00 x00 x80 xbf)
(L (W x00 x00 x00 x00 x00 x00 x00 x00)) E))))
(T (W x00 x00 x80 x3f x00 x00 x80 x3f)
(T (W x00 x00 x00 x00 x00 x00 x00 x00)
(T (W x00 x00 x00 x00 x00 x00 x00 x00)
(T (W x00 x00 x00 x00 x00 x00 x00 x00)
(L (W x00 x00 x00 x00 x00 x00 x00 x00))
(L (W x45 x26 x22 x84 xe4 x9c xf2 xcb)))
(T (W x72 x64 x5f x6c x76 x31 x00 x00)
(L (W xff xff xff xff xff xff xff xff)) E))
(T (W xfc x26 xfb xff x15 x00 x00 x00)
(T (W xff xff xff xff x9c x00 x00 x00)
(L (W x00 x00 x80 xbf x00 x00 x80 xbf)) E)
(T (W xff xff xff xff xff xff xff xff)
(L (W x46 x53 x59 x53 x5f x4e x53 x5f)) E)))
(T (W xff xff xff xff xff xff xff xff)
(T (W x20 x01 x00 x00 x04 x00 x00 x00)
(T (W xff xff xff xff xff xff xff xff)
(L (W x54 x00 x00 x00 x48 x00 x00 x00))
(L (W x45 x26 x22 x84 xe4 x9c xf2 xcb)))
(T (W xff xff xff xff xff xff xff xff)
(L (W x45 x26 x22 x84 xe4 x9c xf2 xcb)) E))
(T (W x00 x00 x00 x00 x00 x00 x00 x00)
(T (W x45 x26 x22 x84 xe4 x9c xf2 xcb)
(L (W x00 x00 x00 x00 x00 x00 x00 x00)) E)
(T (W xb7 xbe x1c x76 x80 xbd xf7 x18)
(L (W xcc x62 xff xff x00 x01 x01 x01)) E)))))
(T (W x00 x00 x80 x3f x00 x00 x80 x3f)
(T (W x18 x00 x00 x00 x10 x00 x00 x00)
(T (W xfa x0d xfa xff x74 x00 x00 x00)
(T (W xfa x8d xfa xff x74 x00 x00 x00)
(T (W xc8 x00 x00 x00 xbc x00 x00 x00)
(L (W x4c x45 x41 x52 x45 x44 x00 x00))
(L (W x00 x00 x00 x00 x00 x00 x00 x00)))
(T (W xff xff xff xff xff xff xff xff)
(L (W xc4 x00 x00 x00 x02 x00 x00 x00)) E))
(T (W x00 x00 x00 x00 x00 x00 x00 x00)
(T (W x00 x00 x80 x3f x00 x00 x80 x3f)
(L (W x00 x00 x00 x00 x00 x00 x00 x00)) E)
(T (W xfa x0d xfd xff x74 x00 x00 x00)
(L (W xff xff xff xff xff xff xff xff)) E)))
(T (W xff xff xff xff xff xff xff xff)
(T (W x62 xe2 xfd xff x00 x00 x01 x01)
(T (W xff xff xff xff x03 x00 x00 x00)
(L (W x00 x00 x80 xbf x00 x00 x80 xbf))
(L (W x54 x00 x00 x00 x48 x00 x00 x00)))
(T (W xaa xcf xfc xff x78 x00 x00 x00)
(L (W x00 x00 x80 xbf x00 x00 x80 xbf)) E))
(T (W xff xff xff xff xff xff xff xff)
(T (W x00 x00 x80 x3f x00 x00 x80 x3f)
(L (W x00 x00 x00 x00 x2a x55 xfe xff)) E)
(T (W xff xff xff xff xff xff xff xff)
(L (W x00 x00 x80 xbf x00 x00 x80 xbf)) E))))
(T (W x00 x00 x80 x3f x00 x00 x80 x3f)
(T (W x00 x00 x00 x00 x00 x00 x00 x00)
(T (W x00 x00 x00 x00 x00 x00 x00 x00)
(T (W xff xff xff xff xff xff xff xff)
(L (W xff xff xff xff xff xff xff xff))
(L (W x00 x00 x80 xbf x00 x00 x80 xbf)))
(T (W x00 x00 x00 x00 x00 x00 x00 x00)
(L (W xff xff xff xff xff xff xff xff)) E))
(T (W x45 x26 x22 x84 xe4 x9c xf2 xcb)
(T (W xff xff xff xff xff xff xff xff)
(L (W x18 x00 x00 x00 x10 x00 x00 x00)) E)
(T (W x45 x44 x00 x00 x00 x00 x00 x00)
(L (W x00 x00 x00 x00 x00 x00 x00 x00)) E)))
(T (W xff xff xff xff xff xff xff xff)
(T (W xff xff xff xff xff xff xff xff)
(T (W x00 x00 x00 x00 x00 x00 x00 x00)
(L (W xff xff xff xff xff xff xff xff))
(L (W xff xff xff xff xff xff xff xff)))
(T (W x50 x00 x00 x00 x44 x00 x00 x00)
(L (W x18 x00 x00 x00 x10 x00 x00 x00)) E))
(T (W xff xff xff xff xff xff xff xff)
(T (W xfc x76 xfc xff x15 x00 x00 x00)
(L (W x00 x00 x80 xbf x00 x00 x80 xbf)) E)
(T (W x45 x26 x22 x84 xe4 x9c xf2 xcb)
(L (W xff xff xff xff xff xff xff xff)) E)))))))
(T (W xff xff xff xff x15 x00 x00 x00)
(T (W x18 x00 x00 x00 x0c x00 x00 x00)
(T (W x3e x00 x00 x00 x0c x00 x00 x00)
(T (W x00 x00 x00 x00 x00 x00 x00 x00)
(T (W xff xff xff xff xff xff xff xff)
(T (W x45 x26 x22 x84 xe4 x9c xf2 xcb)
(T (W x68 x00 x00 x00 x5c x00 x00 x00)
(L (W xfa x79 xfd xff x74 x00 x00 x00))
(L (W x00 x00 x80 xbf x00 x00 x80 xbf)))
(T (W x18 x00 x00 x00 x0c x00 x00 x00)
(L (W x00 x00 x00 x00 x00 x00 x00 x00)) E))
(T (W x00 x00 x00 x00 x00 x00 x00 x00)
(T (W xff xff xff xff xff xff xff xff)
(L (W x54 x00 x00 x00 x48 x00 x00 x00))
(L (W x45 x26 x22 x84 xe4 x9c xf2 xcb)))
(T (W x16 x00 x00 x00 x10 x00 x00 x00)
(L (W x00 x00 x00 x00 x00 x00 x00 x00)) E)))
(T (W xcc x3e xfa xff x00 x01 x01 x01)
(T (W x01 x00 x00 x00 x3c x00 x00 x00)
(T (W xff xff xff xff xff xff xff xff)
(L (W x00 x00 x80 xbf x00 x00 x80 xbf))
(L (W x5d x00 x00 x00 xff xff xff xff)))
(T (W xcc xbe xfc xff x00 x01 x01 x01)
(L (W x54 x00 x00 x00 x48 x00 x00 x00)) E))
(T (W x45 x26 x22 x84 xe4 x9c xf2 xcb)
(T (W xff xff xff xff x9c x00 x00 x00)
(L (W x45 x26 x22 x84 xe4 x9c xf2 xcb)) E)
(T (W xff xff xff xff xff xff xff xff)
(L (W xff xff xff xff xc8 x00 x00 x00)) E))))
(T (W xff xff xff xff xff xff xff xff)
(T (W x22 x00 x00 x00 x67 x72 x6f x75)
(T (W x64 x00 x00 x00 x9c x00 x00 x00)
(T (W x45 x26 x22 x84 xe4 x9c xf2 xcb)
(L (W x03 x00 x00 x00 xcc x00 x00 x00))
(L (W xff xff xff xff xff xff xff xff)))
(T (W x00 x00 x80 x3f x00 x00 x80 x3f)
(L (W x00 x00 x00 x00 x00 x00 x00 x00)) E))
(T (W x45 x26 x22 x84 xe4 x9c xf2 xcb)
(T (W x00 x00 x00 x00 x00 x00 x00 x00)
(L (W xff xff xff xff xff xff xff xff)) E)
(T (W x00 x00 x80 xbf x00 x00 x80 xbf)
(L (W x54 x00 x00 x00 x48 x00 x00 x00)) E)))
(T (W x00 x00 x00 x00 x00 x00 x00 x00)
(T (W x00 x00 x80 x3f x00 x00 x80 x3f)
(T (W x00 x00 x80 x3f x00 x00 x80 x3f)
(L (W x5c x00 x00 x00 xff xff xff xff))
(L (W x00 x00 x00 x00 x00 x00 x00 x00)))
(T (W x00 x00 x80 x3f x00 x00 x80 x3f)
(L (W xff xff xff xff xff xff xff xff)) E))
(T (W x01 x00 x00 x00 x21 x00 x00 x00)
(T (W x46 x53 x59 x53 x5f x4e x53 x5f)
(L (W x45 x26 x22 x84 xe4 x9c xf2 xcb)) E)
(T (W x6c x00 x00 x00 x60 x00 x00 x00)
(L (W x00 x00 x00 x00 x12 x00 x00 x00)) E)))))
(T (W x00 x00 x00 x00 x00 x00 x00 x00)
(T (W x00 x00 x80 x3f x00 x00 x80 x3f)
(T (W xff xff xff xff xff xff xff xff)
(T (W x00 x00 x00 x00 x00 x00 x00 x00)
(T (W xff xff xff xff xff xff xff xff)
(L (W xfa x89 xfd xff x74 x00 x00 x00))
(L (W xcc x8e xff xff x00 x01 x01 x01)))
(T (W x00 x00 x80 x3f x00 x00 x80 x3f)
(L (W x00 x00 x00 x00 x00 x00 x00 x00)) E))
(T (W xff xff xff xff xff xff xff xff)
(T (W x4a x00 x00 x00 xff xff xff xff)
(L (W xcc x00 x00 x00 x02 x00 x00 x00)) E)
(T (W x50 x00 x00 x00 x44 x00 x00 x00)
(L (W x45 x26 x22 x84 xe4 x9c xf2 xcb)) E)))
(T (W x00 x00 x80 x3f x00 x00 x80 x3f)
(T (W xaa xcb xfa xff x78 x00 x00 x00)
(T (W x00 x00 x00 x00 x00 x00 x00 x00)
(L (W x21 x00 x00 x00 x24 x00 x00 x00))
(L (W x45 x44 x00 x00 x00 x00 x00 x00)))
(T (W xff xff xff xff xff xff xff xff)
(L (W x03 x00 x00 x00 xd0 x00 x00 x00)) E))
(T (W x00 x00 x00 x00 x00 x00 x00 x00)
(T (W xff xff xff xff xff xff xff xff)
(L (W x54 x00 x00 x00 x48 x00 x00 x00)) E)
(T (W x30 x32 x5f x43 x4c x45 x41 x52)
(L (W x5c x00 x00 x00 xff xff xff xff)) E))))
(T (W xff xff xff xff xff xff xff xff)
(T (W x50 x00 x00 x00 x44 x00 x00 x00)
(T (W x18 x00 x00 x00 x0c x00 x00 x00)
(T (W x00 x00 x00 x00 x00 x00 x00 x00)
(L (W x68 x00 x00 x00 x5c x00 x00 x00))
(L (W xff xff xff xff xff xff xff xff)))
(T (W xff xff xff xff xff xff xff xff)
(L (W x00 x00 x80 xbf x00 x00 x80 xbf)) E))
(T (W x34 x01 x00 x00 x04 x00 x00 x00)
(T (W x00 x00 x00 x00 x00 x00 x00 x00)
(L (W x18 x00 x00 x00 x0c x00 x00 x00)) E)
(T (W x54 x00 x00 x00 x48 x00 x00 x00)
(L (W x45 x26 x22 x84 xe4 x9c xf2 xcb)) E)))
(T (W x00 x00 x00 x00 x00 x00 x00 x00)
(T (W x00 x00 x80 x3f x00 x00 x80 x3f)
(T (W x54 x00 x00 x00 x48 x00 x00 x00)
(L (W x49 xa1 x68 x4a xeb x5f xdd x3d))
(L (W x49 xa1 x68 x4a xeb x5f xdd x3d)))
(T (W x00 x00 x80 x3f x00 x00 x80 x3f)
(L (W x00 x00 x00 x00 x00 x00 x00 x00)) E))
(T (W x00 x00 x00 x00 x00 x00 x00 x00)
(T (W x01 x00 x00 x00 x9c x00 x00 x00)
(L (W x00 x00 x00 x00 x2a x71 xfe xff)) E)
(T (W xff xff xff xff xff xff xff xff)
(L (W x00 x00 x00 x00 x12 x00 x00 x00)) E))))))
(T (W x00 x00 x80 x3f x00 x00 x80 x3f)
(T (W x00 x00 x80 x3f x00 x00 x80 x3f)
(T (W xff xff xff xff xff xff xff xff)
(T (W xff xff xff xff xff xff xff xff)
(T (W x00 x00 x00 x00 x00 x00 x00 x00)
(T (W xd4 x00 x00 x00 xc8 x00 x00 x00)
(L (W x00 x00 x80 xbf x00 x00 x80 xbf))
(L (W x00 x00 x80 xbf x00 x00 x80 xbf)))
(T (W x00 x00 x80 x3f x00 x00 x80 x3f)
(L (W x54 x94 xfe xff x13 x00 x00 x00)) E))
(T (W xcc x06 xfb xff x00 x01 x01 x01)
(T (W xff xff xff xff xff xff xff xff)
(L (W x45 x26 x22 x84 xe4 x9c xf2 xcb)) E)
(T (W xfc x0a xfd xff x28 x00 x00 x00)
(L (W x00 x00 x00 x00 x00 x00 x00 x00)) E)))
(T (W x00 x00 x80 x3f x00 x00 x80 x3f)
(T (W x68 x00 x00 x00 x5c x00 x00 x00)
(T (W x00 x00 x00 x00 x06 x00 x00 x00)
(L (W x03 x00 x00 x00 xd8 x00 x00 x00))
(L (W x04 x00 x00 x00 x9a xc4 xff xff)))
(T (W x00 x00 x80 x3f x00 x00 x80 x3f)
(L (W x18 x00 x00 x00 x10 x00 x00 x00)) E))
(T (W xff xff xff xff x03 x00 x00 x00)
(T (W xff xff xff xff xff xff xff xff)
(L (W x00 x00 x80 xbf x00 x00 x80 xbf)) E)
(T (W x00 x00 x00 x00 x00 x00 x00 x00)
(L (W xff xff xff xff xff xff xff xff)) E))))
(T (W xff xff xff xff xff xff xff xff)
(T (W x45 x26 x22 x84 xe4 x9c xf2 xcb)
(T (W x00 x00 x00 x00 x3c xa5 xfa xff)
(T (W xff xff xff xff xff xff xff xff)
(L (W x00 x00 x00 x00 x00 x00 x00 x00))
(L (W x00 x00 x80 xbf x00 x00 x80 xbf)))
(T (W x18 x00 x00 x00 x10 x00 x00 x00)
(L (W x00 x00 x80 xbf x00 x00 x80 xbf)) E))
(T (W xff xff xff xff xff xff xff xff)
(T (W x00 x00 x00 x00 x00 x00 x00 x00)
(L (W xff xff xff xff xff xff xff xff)) E)
(T (W x00 x00 x80 xbf x00 x00 x80 xbf)
(L (W x54 x00 x00 x00 x48 x00 x00 x00)) E)))
(T (W x00 x00 x00 x00 x00 x00 x00 x00)
(T (W x45 x26 x22 x84 xe4 x9c xf2 xcb)
(T (W x00 x00 x80 x3f x00 x00 x80 x3f)
(L (W x00 x00 x01 x01 x9f x01 x00 x00))
(L (W x45 x26 x22 x84 xe4 x9c xf2 xcb)))
(T (W x22 x00 x00 x00 x67 x72 x6f x75)
(L (W x00 x00 x00 x00 x2a xe9 xfe xff)) E))
(T (W x00 x00 x00 x00 x2a x69 xfb xff)
(T (W x20 x47 x2b x97 x85 x96 x55 x5f)
(L (W xff xff xff xff xff xff xff xff)) E)
(T (W xfa x61 xfd xff x74 x00 x00 x00)
(L (W x54 x74 xff xff x12 x00 x00 x00)) E)))))
(T (W x45 x26 x22 x84 xe4 x9c xf2 xcb)
(T (W x02 x00 x00 x00 xff xff xff xff)
(T (W x3e x00 x00 x00 x0c x00 x00 x00)
(T (W x00 x00 x00 x00 x00 x00 x00 x00)
(T (W x45 x26 x22 x84 xe4 x9c xf2 xcb)
(L (W x18 x00 x00 x00 x0c x00 x00 x00))
(L (W x19 x00 x00 x00 x1c x00 x00 x00)))
(T (W x00 x00 x00 x00 x00 x00 x00 x00)
(L (W x00 x00 x00 x00 x00 x00 x00 x00)) E))
(T (W x5f x77 x69 x6c x64 x5f x70 x6f)
(T (W x45 x44 x00 x00 x00 x00 x00 x00)
(L (W xff xff xff xff xff xff xff xff)) E)
(T (W x00 x00 x00 x00 x00 x00 x00 x00)
(L (W x54 x00 x00 x00 x48 x00 x00 x00)) E)))
(T (W x00 x00 x80 x3f x00 x00 x80 x3f)
(T (W x00 x00 x80 x3f x00 x00 x80 x3f)
(T (W x00 x00 x00 x00 x00 x00 x00 x00)
(L (W xff xff xff xff xff xff xff xff))
(L (W x00 x00 x00 x00 x00 x00 x00 x00)))
(T (W x00 x00 x80 x3f x00 x00 x80 x3f)
(L (W xff xff xff xff xff xff xff xff)) E))
(T (W x00 x00 x00 x00 x00 x00 x00 x00)
(T (W x74 x03 x00 x00 x4c x02 x00 x00)
(L (W x45 x26 x22 x84 xe4 x9c xf2 xcb)) E)
(T (W x00 x00 x80 xbf x00 x00 x80 xbf)
(L (W x00 x00 x00 x00 x00 x00 x00 x00)) E))))
(T (W xff xff xff xff xff xff xff xff)
(T (W x00 x00 x80 x3f x00 x00 x80 x3f)
(T (W x40 x00 x00 x00 x9c x00 x00 x00)
(T (W x50 x00 x00 x00 x44 x00 x00 x00)
(L (W x62 xf5 xff xff xc9 x00 x00 x00))
(L (W xff xff xff xff xff xff xff xff)))
(T (W x45 x26 x22 x84 xe4 x9c xf2 xcb)
(L (W x00 x00 x80 xbf x00 x00 x80 xbf)) E))
(T (W x00 x00 x00 x00 x00 x00 x00 x00)
(T (W x01 x00 x00 x00 x19 x00 x00 x00)
(L (W x46 x53 x59 x53 x5f x4e x53 x5f)) E)
(T (W xff xff xff xff xb0 x00 x00 x00)
(L (W x18 x00 x00 x00 x0c x00 x00 x00)) E)))
(T (W x00 x00 x00 x00 x00 x00 x00 x00)
(T (W x0a x00 x00 x00 x3e x00 x00 x00)
(T (W x68 x00 x00 x00 x5c x00 x00 x00)
(L (W x00 x00 x80 xbf x00 x00 x80 xbf))
(L (W x00 x00 x80 xbf x00 x00 x80 xbf)))
(T (W x4c x45 x41 x52 x45 x44 x00 x00)
(L (W x30 x32 x5f x43 x4c x45 x41 x52)) E))
(T (W x00 x00 x80 x3f x00 x00 x80 x3f)
(T (W x00 x00 x80 x3f x00 x00 x80 x3f)
(L (W xe4 x06 x00 x00 xc8 x05 x00 x00)) E)
(T (W xff xff xff xff xb0 x00 x00 x00)
(L (W x45 x26 x22 x84 xe4 x9c xf2 xcb)) E))))))))
(T (W x00 x00 x80 x3f x00 x00 x80 x3f)
(T (W xff xff xff xff xff xff xff xff)
(T (W x00 x00 x80 x3f x00 x00 x80 x3f)
(T (W xff xff xff xff xff xff xff xff)
(T (W x00 x00 x00 x00 x00 x00 x00 x00)
(T (W xcc xfc xf9 xff x00 x01 x01 x01)
(T (W xff xff xff xff xff xff xff xff)
(T (W x00 x00 x00 x00 x00 x00 x00 x00)
(L (W x00 x00 x80 xbf x00 x00 x80 xbf))
(L (W x00 x00 x00 x00 x12 x00 x00 x00)))
(T (W x00 x00 x80 x3f x00 x00 x80 x3f)
(L (W xff xff xff xff xff xff xff xff)) E))
(T (W xff xff xff xff xff xff xff xff)
(T (W xaa xf9 xfb xff x78 x00 x00 x00)
(L (W x4f x84 x6f x8b xe8 xcb x63 xb7))
(L (W xcc x00 x00 x00 x02 x00 x00 x00)))
(T (W x00 x00 x00 x00 x3c xfb xfc xff)
(L (W xff xff xff xff xff xff xff xff)) E)))
(T (W x45 x26 x22 x84 xe4 x9c xf2 xcb)
(T (W x00 x00 x80 x3f x00 x00 x80 x3f)
(T (W x00 x00 x80 x3f x00 x00 x80 x3f)
(L (W x00 x00 x80 xbf x00 x00 x80 xbf))
(L (W x68 x00 x00 x00 x5c x00 x00 x00)))
(T (W x00 x00 x80 x3f x00 x00 x80 x3f)
(L (W x49 xa1 x68 x4a xeb x5f xdd x3d)) E))
(T (W x98 x03 x00 x00 x70 x02 x00 x00)
(T (W x50 x00 x00 x00 x44 x00 x00 x00)
(L (W x54 x02 x00 x00 x38 x01 x00 x00)) E)
(T (W x50 x00 x00 x00 x44 x00 x00 x00)
(L (W x00 x00 x80 xbf x00 x00 x80 xbf)) E))))
(T (W x00 x00 x80 x3f x00 x00 x80 x3f)
(T (W xff xff xff xff xff xff xff xff)
(T (W x00 x00 x80 x3f x00 x00 x80 x3f)
(T (W x00 x00 x00 x00 x00 x00 x00 x00)
(L (W x00 x00 x80 xbf x00 x00 x80 xbf))
(L (W x6c x00 x00 x00 x60 x00 x00 x00)))
(T (W xff xff xff xff xff xff xff xff)
(L (W x00 x00 x00 x00 x00 x00 x00 x00)) E))
(T (W x4f x84 x6f x8b xe8 xcb x63 xb7)
(T (W xff xff xff xff xff xff xff xff)
(L (W xaa x19 xfe xff x78 x00 x00 x00)) E)
(T (W x00 x01 x01 x01 xc2 x01 x00 x00)
(L (W x00 x00 x00 x00 x00 x00 x00 x00)) E)))
(T (W x00 x00 x00 x00 x00 x00 x00 x00)
(T (W x00 x00 x00 x00 x00 x00 x00 x00)
(T (W x45 x44 x00 x00 x00 x00 x00 x00)
(L (W x45 x26 x22 x84 xe4 x9c xf2 xcb))
(L (W x5d x00 x00 x00 xff xff xff xff)))
(T (W x00 x00 x00 x00 x00 x00 x00 x00)
(L (W x45 x26 x22 x84 xe4 x9c xf2 xcb)) E))
(T (W x00 x00 x00 x00 x00 x00 x00 x00)
(T (W x18 x00 x00 x00 x10 x00 x00 x00)
(L (W x00 x00 x80 xbf x00 x00 x80 xbf)) E)
(T (W x00 x00 x00 x00 x00 x00 x00 x00)
(L (W xff xff xff xff xbc x00 x00 x00)) E)))))
(T (W xff xff xff xff xff xff xff xff)
(T (W x00 x00 x00 x00 x00 x00 x00 x00)
(T (W x00 x00 x80 x3f x00 x00 x80 x3f)
(T (W xff xff xff xff xff xff xff xff)
(T (W xff xff xff xff x9c x00 x00 x00)
(L (W x4f x84 x6f x8b xe8 xcb x63 xb7))
(L (W x00 x00 x00 x00 x00 x00 x00 x00)))
(T (W x00 x00 x00 x00 x00 x00 x00 x00)
(L (W xff xff xff xff xff xff xff xff)) E))
(T (W x00 x00 x80 x3f x00 x00 x80 x3f)
(T (W xff xff xff xff x03 x00 x00 x00)
(L (W x00 x00 x80 xbf x00 x00 x80 xbf)) E)
(T (W x00 x00 x00 x00 x00 x00 x00 x00)
(L (W x00 x00 x00 x00 x00 x00 x00 x00)) E)))
(T (W x00 x00 x00 x00 x00 x00 x00 x00)
(T (W x00 x00 x00 x00 x00 x00 x00 x00)
(T (W xb0 x00 x00 x00 x14 x00 x00 x00)
(L (W x00 x00 x80 xbf x00 x00 x80 xbf))
(L (W xff xff xff xff xff xff xff xff)))
(T (W xff xff xff xff xff xff xff xff)
(L (W x54 x00 x00 x00 x48 x00 x00 x00)) E))
(T (W xff xff xff xff xc8 x00 x00 x00)
(T (W xfa x47 xfc xff x74 x00 x00 x00)
(L (W x00 x00 x00 x00 x00 x00 x00 x00)) E)
(T (W xff xff xff xff xff xff xff xff)
(L (W xfa x47 xff xff x74 x00 x00 x00)) E))))
(T (W xcc xec xf9 xff x00 x01 x01 x01)
(T (W x00 x00 x00 x00 x00 x00 x00 x00)
(T (W x68 x00 x00 x00 x5c x00 x00 x00)
(T (W xff xff xff xff xff xff xff xff)
(L (W x00 x00 x80 xbf x00 x00 x80 xbf))
(L (W x00 x00 x00 x00 x3c xab xff xff)))
(T (W xcc xac xfc xff x00 x01 x01 x01)
(L (W x00 x00 x00 x00 x00 x00 x00 x00)) E))
(T (W x18 x00 x00 x00 x0c x00 x00 x00)
(T (W x5a x32 xff xff x00 x00 x01 x01)
(L (W x03 x00 x00 x00 xd8 x00 x00 x00)) E)
(T (W x45 x26 x22 x84 xe4 x9c xf2 xcb)
(L (W x00 x00 x00 x00 x00 x00 x00 x00)) E)))
(T (W x00 x00 x00 x00 x00 x00 x00 x00)
(T (W x00 x00 x00 x00 x00 x00 x00 x00)
(T (W x49 xa1 x68 x4a xeb x5f xdd x3d)
(L (W x45 x44 x00 x00 x00 x00 x00 x00))
(L (W x36 x00 x00 x00 xff xff xff xff)))
(T (W x49 xa1 x68 x4a xeb x5f xdd x3d)
(L (W xff xff xff xff xff xff xff xff)) E))
(T (W xff xff xff xff xff xff xff xff)
(T (W x00 x00 x80 x3f x00 x00 x80 x3f)
(L (W xfa x67 xfe xff x74 x00 x00 x00)) E)
(T (W x6c x00 x00 x00 x60 x00 x00 x00)
(L (W xff xff xff xff xff xff xff xff)) E))))))
(T (W x00 x00 x00 x00 x00 x00 x00 x00)
(T (W x00 x00 x80 x3f x00 x00 x80 x3f)
(T (W x18 x00 x00 x00 x0c x00 x00 x00)
(T (W x50 x00 x00 x00 x44 x00 x00 x00)
(T (W xae x01 x00 x00 xff xff xff xff)
(T (W x6c x00 x00 x00 x60 x00 x00 x00)
(L (W x98 x11 x00 x00 x6c x10 x00 x00))
(L (W x00 x00 x00 x00 x00 x00 x00 x00)))
(T (W x00 x00 x00 x00 x00 x00 x00 x00)
(L (W xff xff xff xff xff xff xff xff)) E))
(T (W x30 x32 x5f x43 x4c x45 x41 x52)
(T (W x68 x00 x00 x00 x5c x00 x00 x00)
(L (W x00 x00 x80 xbf x00 x00 x80 xbf))
(L (W x04 x00 x00 x00 x00 x00 x2a x00)))
(T (W x54 x00 x00 x00 x48 x00 x00 x00)
(L (W x5c x00 x00 x00 xff xff xff xff)) E)))
(T (W x00 x00 x00 x00 x00 x00 x00 x00)
(T (W x45 x26 x22 x84 xe4 x9c xf2 xcb)
(T (W xff xff xff xff x03 x00 x00 x00)
(L (W x54 x00 x00 x00 x48 x00 x00 x00))
(L (W x18 x00 x00 x00 x0c x00 x00 x00)))
(T (W x00 x00 x00 x00 x00 x00 x00 x00)
(L (W x45 x26 x22 x84 xe4 x9c xf2 xcb)) E))
(T (W x00 x00 x80 x3f x00 x00 x80 x3f)
(T (W xcc x44 xfc xff x00 x01 x01 x01)
(L (W x46 x53 x59 x53 x5f x4e x53 x5f)) E)
(T (W xff xff xff xff xff xff xff xff)
(L (W x45 x26 x22 x84 xe4 x9c xf2 xcb)) E))))
(T (W x00 x00 x80 x3f x00 x00 x80 x3f)
(T (W x00 x00 x00 x00 x00 x00 x00 x00)
(T (W x50 x00 x00 x00 x44 x00 x00 x00)
(T (W xfa x9f xfb xff x74 x00 x00 x00)
(L (W xff xff xff xff xff xff xff xff))
(L (W x28 x00 x2c x00 x30 x00 x34 x00)))
(T (W x00 x00 x80 x3f x00 x00 x80 x3f)
(L (W x18 x00 x00 x00 x0c x00 x00 x00)) E))
(T (W x00 x00 x80 x3f x00 x00 x80 x3f)
(T (W x00 x00 x00 x00 x00 x00 x00 x00)
(L (W xbc x00 x00 x00 x32 x00 x00 x00)) E)
(T (W x45 x44 x00 x00 x00 x00 x00 x00)
(L (W x49 xa1 x68 x4a xeb x5f xdd x3d)) E)))
(T (W x00 x00 x00 x00 x00 x00 x00 x00)
(T (W x00 x00 x00 x00 x00 x00 x00 x00)
(T (W x5f x4e x53 x5f x30 x32 x5f x43)
(L (W x03 x00 x00 x00 xd8 x00 x00 x00))
(L (W x04 x00 x00 x00 xba xe8 xff xff)))
(T (W x50 x00 x00 x00 x44 x00 x00 x00)
(L (W xff xff xff xff xc8 x00 x00 x00)) E))
(T (W xff xff xff xff x9c x00 x00 x00)
(T (W xff xff xff xff xff xff xff xff)
(L (W x00 x00 x80 xbf x00 x00 x80 xbf)) E)
(T (W x00 x00 x80 xbf x00 x00 x80 xbf)
(L (W xff xff xff xff xff xff xff xff)) E)))))
(T (W x00 x00 x80 x3f x00 x00 x80 x3f)
(T (W xff xff xff xff xff xff xff xff)
(T (W xff xff xff xff xff xff xff xff)
(T (W xff xff xff xff xff xff xff xff)
(T (W x74 x03 x00 x00 x4c x02 x00 x00)
(L (W x00 x00 x80 xbf x00 x00 x80 xbf))
(L (W x00 x00 x80 xbf x00 x00 x80 xbf)))
(T (W x1d x00 x00 x00 x10 x00 x00 x00)
(L (W x44 x02 x00 x00 x30 x01 x00 x00)) E))
(T (W xff xff xff xff x03 x00 x00 x00)
(T (W xff xff xff xff xff xff xff xff)
(L (W x00 x00 x80 xbf x00 x00 x80 xbf)) E)
(T (W xff xff xff xff xff xff xff xff)
(L (W x00 x00 x00 x00 x00 x00 x00 x00)) E)))
(T (W x1f x00 x00 x00 x0c x00 x00 x00)
(T (W x00 x00 x00 x00 x00 x00 x00 x00)
(T (W x4a x00 x00 x00 xff xff xff xff)
(L (W x45 x26 x22 x84 xe4 x9c xf2 xcb))
(L (W xff xff xff xff xff xff xff xff)))
(T (W x9b x00 x00 x00 xff xff xff xff)
(L (W xcc xd4 xfe xff x00 x01 x01 x01)) E))
(T (W x62 x64 xfe xff x00 x00 x01 x01)
(T (W x01 x00 x00 x00 xb0 x00 x00 x00)
(L (W x00 x00 x00 x00 x00 x00 x00 x00)) E)
(T (W x1d x00 x00 x00 x0c x00 x00 x00)
(L (W xff xff xff xff xff xff xff xff)) E))))
(T (W x40 x00 x00 x00 x9c x00 x00 x00)
(T (W x00 x00 x00 x00 x00 x00 x00 x00)
(T (W x00 x00 x80 x3f x00 x00 x80 x3f)
(T (W x00 x00 x00 x00 x00 x00 x00 x00)
(L (W xff xff xff xff xff xff xff xff))
(L (W xcc xb4 xff xff x00 x01 x01 x01)))
(T (W x00 x00 x80 x3f x00 x00 x80 x3f)
(L (W x00 x00 x00 x00 x00 x00 x00 x00)) E))
(T (W xff xff xff xff xff xff xff xff)
(T (W x00 x00 x00 x00 x00 x00 x00 x00)
(L (W xff xff xff xff xff xff xff xff)) E)
(T (W x00 x00 x80 xbf x00 x00 x80 xbf)
(L (W x00 x00 x00 x00 x00 x00 x00 x00)) E)))
(T (W x00 x00 x00 x00 x04 x00 x00 x00)
(T (W x00 x00 x80 x3f x00 x00 x80 x3f)
(T (W x45 x26 x22 x84 xe4 x9c xf2 xcb)
(L (W x00 x00 x00 x00 x00 x00 x00 x00))
(L (W x00 x00 x00 x00 x00 x00 x00 x00)))
(T (W x14 x00 x00 x00 x19 x00 x00 x00)
(L (W xff xff xff xff xff xff xff xff)) E))
(T (W x00 x00 x00 x00 x12 x00 x00 x00)
(T (W x00 x00 x00 x00 x00 x00 x00 x00)
(L (W xc4 x00 x00 x00 x02 x00 x00 x00)) E)
(T (W x4c x45 x41 x52 x45 x44 x00 x00)
(L (W x00 x00 x00 x00 xba x78 xff xff)) E)))))))
(T (W x00 x00 x00 x00 x00 x00 x00 x00)
(T (W xff xff xff xff xff xff xff xff)
(T (W x00 x00 x00 x00 x00 x00 x00 x00)
(T (W x00 x00 x80 x3f x00 x00 x80 x3f)
(T (W x00 x00 x00 x00 x00 x00 x00 x00)
(T (W x00 x00 x80 x3f x00 x00 x80 x3f)
(T (W xff xff xff xff x01 x00 x00 x00)
(L (W xff xff xff xff xff xff xff xff))
(L (W xcc x00 x00 x00 x01 x00 x00 x00)))
(T (W xff xff xff xff xff xff xff xff)
(L (W x00 x00 x80 xbf x00 x00 x80 xbf)) E))
(T (W x00 x00 x00 x00 x3c xff xfa xff)
(T (W x57 x86 x76 x62 xa4 xfa xab x13)
(L (W xcc x00 x00 x00 x02 x00 x00 x00))
(L (W x00 x00 x0c x00 x10 x00 x14 x00)))
(T (W x6c x00 x00 x00 x60 x00 x00 x00)
(L (W x45 x26 x22 x84 xe4 x9c xf2 xcb)) E)))
(T (W xb8 x00 x00 x00 xac x00 x00 x00)
(T (W xff xff xff xff xff xff xff xff)
(T (W x5f x4e x53 x5f x30 x32 x5f x43)
(L (W x00 x00 x00 x00 x3c xbf xfd xff))
(L (W x00 x00 x00 x00 x00 x00 x00 x00)))
(T (W xff xff xff xff xff xff xff xff)
(L (W xff xff xff xff xff xff xff xff)) E))
(T (W x45 x26 x22 x84 xe4 x9c xf2 xcb)
(T (W x00 x00 x00 x00 x00 x00 x00 x00)
(L (W x54 x00 x00 x00 x48 x00 x00 x00)) E)
(T (W x46 x53 x59 x53 x5f x4e x53 x5f)
(L (W x5c x00 x00 x00 xff xff xff xff)) E))))
(T (W x3e x00 x00 x00 x0c x00 x00 x00)
(T (W x18 x00 x00 x00 x10 x00 x00 x00)
(T (W x00 x00 x00 x00 x02 x00 x00 x00)
(T (W xff xff xff xff xff xff xff xff)
(L (W xb2 xfd xff xff x00 x00 x01 x01))
(L (W x00 x00 x00 x00 x00 x00 x00 x00)))
(T (W xff xff xff xff xff xff xff xff)
(L (W xcc xa0 xfe xff x00 x01 x01 x01)) E))
(T (W xff xff xff xff xff xff xff xff)
(T (W x50 x00 x00 x00 x44 x00 x00 x00)
(L (W x00 x00 x00 x00 x00 x00 x00 x00)) E)
(T (W xff xff xff xff x98 x00 x00 x00)
(L (W xb0 x00 x00 x00 x64 x00 x00 x00)) E)))
(T (W x45 x26 x22 x84 xe4 x9c xf2 xcb)
(T (W xff xff xff xff x04 x00 x00 x00)
(T (W x01 x00 x00 x00 xb0 x00 x00 x00)
(L (W x00 x00 x00 x00 x12 x00 x00 x00))
(L (W x00 x00 x80 xbf x00 x00 x80 xbf)))
(T (W xbc x00 x00 x00 x0a x00 x00 x00)
(L (W x00 x00 x00 x00 x00 x00 x00 x00)) E))
(T (W x61 x72 x6c x69 x6b x65 x5f x6c)
(T (W x49 xa1 x68 x4a xeb x5f xdd x3d)
(L (W x00 x00 x00 x00 x00 x00 x00 x00)) E)
(T (W xff xff xff xff xff xff xff xff)
(L (W x00 x00 x80 xbf x00 x00 x80 xbf)) E)))))
(T (W x00 x00 x00 x00 x00 x00 x00 x00)
(T (W x54 x00 x00 x00 x48 x00 x00 x00)
(T (W x00 x00 x00 x00 x00 x00 x00 x00)
(T (W x00 x00 x80 x3f x00 x00 x80 x3f)
(T (W x00 x00 x80 x3f x00 x00 x80 x3f)
(L (W xff xff xff xff xff xff xff xff))
(L (W x00 x00 x01 x01 x5d x00 x00 x00)))
(T (W x18 x00 x00 x00 x0c x00 x00 x00)
(L (W x00 x00 x80 xbf x00 x00 x80 xbf)) E))
(T (W xa4 x01 x00 x00 xff xff xff xff)
(T (W x00 x00 x00 x00 x00 x00 x00 x00)
(L (W xff xff xff xff xff xff xff xff)) E)
(T (W x00 x00 x00 x00 x20 x00 x24 x00)
(L (W x6c x00 x00 x00 x60 x00 x00 x00)) E)))
(T (W xff xff xff xff x03 x00 x00 x00)
(T (W xff xff xff xff xff xff xff xff)
(T (W x00 x00 x80 x3f x00 x00 x80 x3f)
(L (W xff xff xff xff xff xff xff xff))
(L (W x4f x84 x6f x8b xe8 xcb x63 xb7)))
(T (W x00 x00 x80 x3f x00 x00 x80 x3f)
(L (W xff xff xff xff xff xff xff xff)) E))
(T (W x00 x00 x80 x3f x00 x00 x80 x3f)
(T (W x46 x53 x59 x53 x5f x4e x53 x5f)
(L (W xff xff xff xff xc8 x00 x00 x00)) E)
(T (W x00 x00 x80 xbf x00 x00 x80 xbf)
(L (W x00 x00 x00 x00 x00 x00 x00 x00)) E))))
(T (W x00 x00 x00 x00 x00 x00 x00 x00)
(T (W xff xff xff xff xff xff xff xff)
(T (W xff xff xff xff xff xff xff xff)
(T (W x54 x00 x00 x00 x48 x00 x00 x00)
(L (W x18 x00 x00 x00 x10 x00 x00 x00))
(L (W x00 x00 x00 x00 xda xac xff xff)))
(T (W x00 x00 x00 x00 x02 x00 x00 x00)
(L (W x18 x00 x00 x00 x0c x00 x00 x00)) E))
(T (W x45 x26 x22 x84 xe4 x9c xf2 xcb)
(T (W xff xff xff xff xc4 x00 x00 x00)
(L (W x00 x00 x80 xbf x00 x00 x80 xbf)) E)
(T (W xff xff xff xff xc4 x00 x00 x00)
(L (W xff xff xff xff xff xff xff xff)) E)))
(T (W x00 x00 x80 x3f x00 x00 x80 x3f)
(T (W x68 x00 x00 x00 x5c x00 x00 x00)
(T (W xff xff xff xff xff xff xff xff)
(L (W x6c x00 x00 x00 x60 x00 x00 x00))
(L (W x54 x00 x00 x00 x48 x00 x00 x00)))
(T (W x62 x00 x00 x00 x00 x00 x01 x01)
(L (W x00 x00 x80 xbf x00 x00 x80 xbf)) E))
(T (W x45 x26 x22 x84 xe4 x9c xf2 xcb)
(T (W xff xff xff xff xff xff xff xff)
(L (W x00 x00 x00 x00 x00 x00 x00 x00)) E)
(T (W xc2 x41 x54 x1d xca xa3 x99 xfd)
(L (W xcc x70 xff xff x00 x01 x01 x01)) E))))))
(T (W x54 x00 x00 x00 x48 x00 x00 x00)
(T (W x45 x26 x22 x84 xe4 x9c xf2 xcb)
(T (W xff xff xff xff xff xff xff xff)
(T (W xfc x0c xfa xff x25 x00 x00 x00)
(T (W x00 x00 x80 x3f x00 x00 x80 x3f)
(T (W x6b x65 x5f x77 x61 x72 x6c x69)
(L (W xff xff xff xff xff xff xff xff))
(L (W xff xff xff xff xff xff xff xff)))
(T (W x64 x00 x00 x00 x9c x00 x00 x00)
(L (W x00 x00 x80 xbf x00 x00 x80 xbf)) E))
(T (W xff xff xff xff xff xff xff xff)
(T (W x30 x32 x5f x43 x4c x45 x41 x52)
(L (W xff xff xff xff xff xff xff xff)) E)
(T (W x00 x00 x80 xbf x00 x00 x80 xbf)
(L (W x00 x00 x80 xbf x00 x00 x80 xbf)) E)))
(T (W xc0 x00 x00 x00 xb4 x00 x00 x00)
(T (W xff xff xff xff xff xff xff xff)
(T (W x00 x00 x80 x3f x00 x00 x80 x3f)
(L (W x00 x00 x01 x01 x84 x01 x00 x00))
(L (W x00 x00 x00 x00 x00 x00 x00 x00)))
(T (W x18 x00 x1c x00 x05 x00 x06 x00)
(L (W xff xff xff xff xff xff xff xff)) E))
(T (W x00 x00 x00 x00 x02 x00 x00 x00)
(T (W x18 x00 x00 x00 x10 x00 x00 x00)
(L (W xaa x45 xfe xff x78 x00 x00 x00)) E)
(T (W x00 x00 x00 x00 x00 x00 x00 x00)
(L (W x00 x00 x00 x00 x00 x00 x00 x00)) E))))
(T (W x00 x00 x00 x00 x00 x00 x00 x00)
(T (W xff xff xff xff xff xff xff xff)
(T (W xff xff xff xff xff xff xff xff)
(T (W x4f x84 x6f x8b xe8 xcb x63 xb7)
(L (W x00 x00 x00 x00 x00 x00 x00 x00))
(L (W xff xff xff xff xd8 x00 x00 x00)))
(T (W xff xff xff xff xff xff xff xff)
(L (W x18 x00 x00 x00 x10 x00 x00 x00)) E))
(T (W xa4 x01 x00 x00 xff xff xff xff)
(T (W x45 x26 x22 x84 xe4 x9c xf2 xcb)
(L (W x49 xa1 x68 x4a xeb x5f xdd x3d)) E)
(T (W xff xff xff xff xb0 x00 x00 x00)
(L (W xcc x00 x00 x00 x01 x00 x00 x00)) E)))
(T (W x50 x00 x00 x00 x44 x00 x00 x00)
(T (W x45 x26 x22 x84 xe4 x9c xf2 xcb)
(T (W xff xff xff xff xff xff xff xff)
(L (W x00 x00 x00 x00 x00 x00 x00 x00))
(L (W x00 x00 x80 xbf x00 x00 x80 xbf)))
(T (W x45 x26 x22 x84 xe4 x9c xf2 xcb)
(L (W x00 x00 x00 x00 x00 x00 x00 x00)) E))
(T (W x00 x00 x00 x00 x00 x00 x00 x00)
(T (W x01 x00 x00 x00 xff xff xff xff)
(L (W x00 x00 x00 x00 x00 x00 x00 x00)) E)
(T (W xff xff xff xff xff xff xff xff)
(L (W x00 x00 x80 xbf x00 x00 x80 xbf)) E)))))
(T (W xff xff xff xff xff xff xff xff)
(T (W x00 x00 x00 x00 x00 x00 x00 x00)
(T (W x00 x00 x80 x3f x00 x00 x80 x3f)
(T (W x18 x00 x00 x00 x10 x00 x00 x00)
(T (W x00 x00 x80 x3f x00 x00 x80 x3f)
(L (W xff xff xff xff xff xff xff xff))
(L (W x30 x32 x5f x43 x4c x45 x41 x52)))
(T (W x00 x00 x80 x3f x00 x00 x80 x3f)
(L (W x00 x00 x80 xbf x00 x00 x80 xbf)) E))
(T (W x29 x00 x00 x00 x2c x00 x00 x00)
(T (W x00 x00 x00 x00 x00 x00 x00 x00)
(L (W x30 x32 x5f x43 x4c x45 x41 x52)) E)
(T (W x00 x01 x01 x01 xae x01 x00 x00)
(L (W x03 x00 x00 x00 xd8 x00 x00 x00)) E)))
(T (W x00 x00 x00 x00 x3c x57 xfa xff)
(T (W xb8 x00 x00 x00 xac x00 x00 x00)
(T (W x00 x00 x80 x3f x00 x00 x80 x3f)
(L (W x00 x00 x00 x00 x00 x00 x00 x00))
(L (W x00 x00 x80 xbf x00 x00 x80 xbf)))
(T (W x45 x26 x22 x84 xe4 x9c xf2 xcb)
(L (W x00 x00 x00 x00 x00 x00 x00 x00)) E))
(T (W xb8 x00 x00 x00 x14 x00 x00 x00)
(T (W x45 x26 x22 x84 xe4 x9c xf2 xcb)
(L (W xff xff xff xff xff xff xff xff)) E)
(T (W x00 x00 x00 x00 x3c x57 xfd xff)
(L (W x45 x26 x22 x84 xe4 x9c xf2 xcb)) E))))
(T (W xfc xfc xf9 xff x3c x00 x00 x00)
(T (W x18 x00 x00 x00 x10 x00 x00 x00)
(T (W xff xff xff xff xff xff xff xff)
(T (W xff xff xff xff xff xff xff xff)
(L (W x00 x00 x00 x00 x00 x00 x00 x00))
(L (W x16 x00 x00 x00 x0c x00 x00 x00)))
(T (W xff xff xff xff xff xff xff xff)
(L (W xbc x00 x00 x00 x32 x00 x00 x00)) E))
(T (W x54 x00 x00 x00 x48 x00 x00 x00)
(T (W xff xff xff xff xff xff xff xff)
(L (W x00 x00 x80 xbf x00 x00 x80 xbf)) E)
(T (W x00 x00 x01 x01 xc7 x01 x00 x00)
(L (W xff xff xff xff xff xff xff xff)) E)))
(T (W x00 x00 x80 x3f x00 x00 x80 x3f)
(T (W xff xff xff xff xff xff xff xff)
(T (W x00 x00 x00 x00 x00 x00 x00 x00)
(L (W x29 x00 x00 x00 x2c x00 x00 x00))
(L (W xbc x00 x00 x00 x32 x00 x00 x00)))
(T (W x4f x84 x6f x8b xe8 xcb x63 xb7)
(L (W x00 x00 x80 xbf x00 x00 x80 xbf)) E))
(T (W xff xff xff xff xff xff xff xff)
(T (W xff xff xff xff xff xff xff xff)
(L (W x00 x00 x80 xbf x00 x00 x80 xbf)) E)
(T (W xff xff xff xff xff xff xff xff)
(L (W x68 x00 x00 x00 x5c x00 x00 x00)) E))))))))))
(T (W xc0 x9b x03 x00 x84 x9a x03 x00)
(T (W x80 xf6 x02 x00 x3c xf4 x02 x00)
(T (W x58 x17 x01 x00 x1c x16 x01 x00)
(T (W x00 x00 x00 x00 x00 x00 x00 x00)
(T (W xff xff xff xff xff xff xff xff)
(T (W x00 x00 x00 x00 x00 x00 x00 x00)
(T (W x00 x00 x80 x3f x00 x00 x80 x3f)
(T (W xb8 x00 x00 x00 xac x00 x00 x00)
(T (W x00 x00 x00 x00 x00 x00 x00 x00)
(T (W x50 x00 x00 x00 x44 x00 x00 x00)
(L (W x2a x77 xfd xff x78 x00 x00 x00))
(L (W x00 x00 x80 xbf x00 x00 x80 xbf)))
(T (W x18 x00 x00 x00 x0c x00 x00 x00)
(L (W x00 x00 x00 x00 x00 x00 x00 x00)) E))
(T (W x54 x00 x00 x00 x48 x00 x00 x00)
(T (W x18 x00 x00 x00 x0c x00 x00 x00)
(L (W x00 x00 x80 xbf x00 x00 x80 xbf))
(L (W x00 x00 x80 xbf x00 x00 x80 xbf)))
(T (W x67 x72 x6f x75 x70 x5f x6c x65)
(L (W x00 x00 x00 x00 x00 x00 x00 x00)) E)))
(T (W x00 x00 x80 x3f x00 x00 x80 x3f)
(T (W x00 x00 x80 x3f x00 x00 x80 x3f)
(T (W x2a xb7 xfb xff x78 x00 x00 x00)
(L (W xb0 x00 x00 x00 x64 x00 x00 x00))
(L (W xff xff xff xff xff xff xff xff)))
(T (W x4c xba xfc xff x00 x01 x01 x01)
(L (W x00 x00 x80 xbf x00 x00 x80 xbf)) E))
(T (W x00 x00 x00 x00 x00 x00 x00 x00)
(T (W x7a x35 xfc xff x74 x00 x00 x00)
(L (W x00 x00 x00 x00 x00 x00 x00 x00)) E)
(T (W x18 x00 x00 x00 x10 x00 x00 x00)
(L (W x6c x00 x00 x00 x60 x00 x00 x00)) E))))
(T (W x01 x00 x00 x00 x9c x00 x00 x00)
(T (W x01 x00 x00 x00 x04 x00 x00 x00)
(T (W x00 x00 x80 x3f x00 x00 x80 x3f)
(T (W x00 x00 x80 x3f x00 x00 x80 x3f)
(L (W x45 x26 x22 x84 xe4 x9c xf2 xcb))
(L (W xff xff xff xff xff xff xff xff)))
(T (W x00 x00 x00 x00 x00 x00 x00 x00)
(L (W x00 x00 x00 x00 x00 x00 x00 x00)) E))
(T (W x00 x00 x80 x3f x00 x00 x80 x3f)
(T (W x18 x00 x00 x00 x10 x00 x00 x00)
(L (W xff xff xff xff xff xff xff xff)) E)
(T (W xb0 x00 x00 x00 x64 x00 x00 x00)
(L (W x00 x00 x80 xbf x00 x00 x80 xbf)) E)))
(T (W x00 x00 x80 x3f x00 x00 x80 x3f)
(T (W x50 x00 x00 x00 x44 x00 x00 x00)
(T (W x49 xa1 x68 x4a xeb x5f xdd x3d)
(L (W xff xff xff xff xff xff xff xff))
(L (W x00 x00 x00 x00 x5a xd6 xff xff)))
(T (W x45 x26 x22 x84 xe4 x9c xf2 xcb)
(L (W xff xff xff xff xc0 x00 x00 x00)) E))
(T (W x00 x00 x80 x3f x00 x00 x80 x3f)
(T (W xff xff xff xff xff xff xff xff)
(L (W x2a x57 xfe xff x78 x00 x00 x00)) E)
(T (W x00 x00 x80 xbf x00 x00 x80 xbf)
(L (W x4b x00 x00 x00 xff xff xff xff)) E)))))
(T (W x00 x00 x00 x00 x00 x00 x00 x00)
(T (W x6c x00 x00 x00 x60 x00 x00 x00)
(T (W xff xff xff xff xff xff xff xff)
(T (W x62 x98 xfd xff xc6 x00 x00 x00)
(T (W xff xff xff xff xff xff xff xff)
(L (W x00 x00 x80 xbf x00 x00 x80 xbf))
(L (W x00 x00 x80 xbf x00 x00 x80 xbf)))
(T (W x00 x00 x80 x3f x00 x00 x80 x3f)
(L (W x45 x44 x00 x00 x00 x00 x00 x00)) E))
(T (W x18 x00 x00 x00 x10 x00 x00 x00)
(T (W xff xff xff xff xff xff xff xff)
(L (W x54 x00 x00 x00 x48 x00 x00 x00)) E)
(T (W x00 x00 x00 x00 x00 x00 x00 x00)
(L (W x00 x00 x00 x00 x00 x00 x00 x00)) E)))
(T (W x00 x00 x80 x3f x00 x00 x80 x3f)
(T (W x00 x00 x80 x3f x00 x00 x80 x3f)
(T (W x00 x00 x00 x00 x5a xc6 xfb xff)
(L (W x1c x00 x00 x00 x1f x00 x00 x00))
(L (W xff xff xff xff xff xff xff xff)))
(T (W x7c xce xfc xff x46 x00 x00 x00)
(L (W x19 x00 x00 x00 x1c x00 x00 x00)) E))
(T (W xb0 x00 x00 x00 x64 x00 x00 x00)
(T (W xff xff xff xff xff xff xff xff)
(L (W x00 x00 x00 x00 x00 x00 x00 x00)) E)
(T (W xff xff xff xff xff xff xff xff)
(L (W xff xff xff xff xff xff xff xff)) E))))
(T (W xff xff xff xff xff xff xff xff)
(T (W x68 x00 x00 x00 x5c x00 x00 x00)
(T (W x01 x00 x00 x00 xa0 x00 x00 x00)
(T (W x02 x00 x00 x00 x2c x01 x00 x00)
(L (W xff xff xff xff xff xff xff xff))
(L (W x20 x00 x00 x00 x24 x00 x28 x00)))
(T (W x45 x26 x22 x84 xe4 x9c xf2 xcb)
(L (W x4f x84 x6f x8b xe8 xcb x63 xb7)) E))
(T (W xff xff xff xff x03 x00 x00 x00)
(T (W x45 x26 x22 x84 xe4 x9c xf2 xcb)
(L (W x00 x00 x01 x01 x5c x00 x00 x00)) E)
(T (W x00 x00 x80 xbf x00 x00 x80 xbf)
(L (W x00 x00 x80 xbf x00 x00 x80 xbf)) E)))
(T (W x00 x00 x00 x00 x00 x00 x00 x00)
(T (W x00 x00 x80 x3f x00 x00 x80 x3f)
(T (W x00 x00 x80 x3f x00 x00 x80 x3f)
(L (W x00 x00 x00 x00 x00 x00 x00 x00))
(L (W x00 x00 x00 x00 x12 x00 x00 x00)))
(T (W x00 x00 x80 x3f x00 x00 x80 x3f)
(L (W xff xff xff xff xff xff xff xff)) E))
(T (W xda x6f xfe xff x00 x00 x01 x01)
(T (W x01 x00 x00 x00 x9c x00 x00 x00)
(L (W xff xff xff xff xff xff xff xff)) E)
(T (W x45 x26 x22 x84 xe4 x9c xf2 xcb)
(L (W x46 x53 x59 x53 x5f x4e x53 x5f)) E))))))
(T (W x00 x00 x80 x3f x00 x00 x80 x3f)
(T (W x18 x00 x00 x00 x0c x00 x00 x00)
(T (W xff xff xff xff x0b x00 x00 x00)
(T (W xff xff xff xff xff xff xff xff)
(T (W x77 x12 xf0 x75 xcd xf1 x0e xc8)
(T (W xff xff xff xff xff xff xff xff)
(L (W x4c x82 xfd xff x00 x01 x01 x01))
(L (W x00 x00 x80 xbf x00 x00 x80 xbf)))
(T (W x00 x00 x80 x3f x00 x00 x80 x3f)
(L (W x00 x00 x00 x00 x00 x00 x00 x00)) E))
(T (W x00 x00 x00 x00 x00 x00 x00 x00)
(T (W xff xff xff xff xff xff xff xff)
(L (W x00 x00 x80 xbf x00 x00 x80 xbf))
(L (W x06 x00 x07 x00 x00 x00 x00 x00)))
(T (W x00 x00 x80 xbf x00 x00 x80 xbf)
(L (W x00 x00 x00 x00 x12 x00 x00 x00)) E)))
(T (W x45 x26 x22 x84 xe4 x9c xf2 xcb)
(T (W x00 x00 x80 x3f x00 x00 x80 x3f)
(T (W xff xff xff xff xff xff xff xff)
(L (W x6c x00 x00 x00 x60 x00 x00 x00))
(L (W xff xff xff xff xff xff xff xff)))
(T (W x00 x00 x80 x3f x00 x00 x80 x3f)
(L (W x54 x00 x00 x00 x48 x00 x00 x00)) E))
(T (W x00 x00 x80 x3f x00 x00 x80 x3f)
(T (W x01 x00 x00 x00 xb0 x00 x00 x00)
(L (W x00 x00 x00 x00 x12 x00 x00 x00)) E)
(T (W xff xff xff xff xff xff xff xff)
(L (W x45 x26 x22 x84 xe4 x9c xf2 xcb)) E))))
(T (W xff xff xff xff xff xff xff xff)
(T (W x50 x00 x00 x00 x44 x00 x00 x00)
(T (W x18 x00 x00 x00 x10 x00 x00 x00)
(T (W x00 x00 x00 x00 xbc xa0 xfb xff)
(L (W xc0 x00 x00 x00 x01 x00 x00 x00))
(L (W xff xff xff xff xff xff xff xff)))
(T (W x00 x00 x80 x3f x00 x00 x80 x3f)
(L (W x00 x00 x00 x00 x00 x00 x00 x00)) E))
(T (W x00 x00 x80 x3f x00 x00 x80 x3f)
(T (W x46 x53 x59 x53 x5f x4e x53 x5f)
(L (W xff xff xff xff xff xff xff xff)) E)
(T (W x00 x00 x00 x00 x00 x00 x00 x00)
(L (W x2a x1f xff xff x78 x00 x00 x00)) E)))
(T (W x00 x00 x00 x00 x00 x00 x00 x00)
(T (W x00 x00 x80 x3f x00 x00 x80 x3f)
(T (W x00 x00 x80 x3f x00 x00 x80 x3f)
(L (W xff xff xff xff xff xff xff xff))
(L (W x00 x00 x00 x00 x00 x00 x00 x00)))
(T (W x00 x00 x80 x3f x00 x00 x80 x3f)
(L (W xff xff xff xff xff xff xff xff)) E))
(T (W xb0 x00 x00 x00 x64 x00 x00 x00)
(T (W x86 x4a x2b x97 x85 x98 x55 x5f)
(L (W xff xff xff xff xb0 x00 x00 x00)) E)
(T (W x00 x00 x80 xbf x00 x00 x80 xbf)
(L (W x00 x00 x00 x00 x3a x66 xff xff)) E)))))
(T (W xff xff xff xff xff xff xff xff)
(T (W x00 x00 x00 x00 x00 x00 x00 x00)
(T (W xda x17 xfd xff x00 x00 x01 x01)
(T (W x00 x00 x00 x00 x00 x00 x00 x00)
(T (W x00 x00 x00 x00 x22 x00 x00 x00)
(L (W x68 x00 x00 x00 x5c x00 x00 x00))
(L (W x19 x00 x00 x00 x1c x00 x00 x00)))
(T (W x00 x00 x00 x00 x00 x00 x00 x00)
(L (W x00 x00 x00 x00 x00 x00 x00 x00)) E))
(T (W xcc x00 x00 x00 xc0 x00 x00 x00)
(T (W xff xff xff xff xff xff xff xff)
(L (W xff xff xff xff xa0 x00 x00 x00)) E)
(T (W x04 x00 x00 x00 x1a x10 xfd xff)
(L (W x00 x00 x00 x00 x00 x00 x00 x00)) E)))
(T (W x00 x00 x80 x3f x00 x00 x80 x3f)
(T (W x00 x00 x80 x3f x00 x00 x80 x3f)
(T (W x7c xd6 xfb xff x15 x00 x00 x00)
(L (W xff xff xff xff xff xff xff xff))
(L (W xff xff xff xff xff xff xff xff)))
(T (W x00 x00 x00 x00 x00 x00 x00 x00)
(L (W xff xff xff xff xff xff xff xff)) E))
(T (W x00 x00 x00 x00 x00 x00 x00 x00)
(T (W xff xff xff xff xff xff xff xff)
(L (W x00 x00 x80 xbf x00 x00 x80 xbf)) E)
(T (W x00 x00 x00 x00 x00 x00 x00 x00)
(L (W xff xff xff xff xff xff xff xff)) E))))
(T (W xff xff xff xff xff xff xff xff)
(T (W x7a x2d xfa xff x74 x00 x00 x00)
(T (W x7a xad xfa xff x74 x00 x00 x00)
(T (W x00 x00 x00 x00 x00 x00 x00 x00)
(L (W x00 x00 x00 x00 x00 x00 x00 x00))
(L (W xff xff xff xff xff xff xff xff)))
(T (W x45 x26 x22 x84 xe4 x9c xf2 xcb)
(L (W x45 x26 x22 x84 xe4 x9c xf2 xcb)) E))
(T (W x00 x00 x00 x00 x00 x00 x00 x00)
(T (W x00 x00 x80 x3f x00 x00 x80 x3f)
(L (W x30 x32 x5f x43 x4c x45 x41 x52)) E)
(T (W x54 x00 x00 x00 x48 x00 x00 x00)
(L (W x44 x00 x00 x00 x00 x00 x80 xbf)) E)))
(T (W x00 x00 x00 x00 x00 x00 x00 x00)
(T (W x00 x00 x00 x00 x00 x00 x00 x00)
(T (W x00 x00 x00 x00 xbc xf0 xfb xff)
(L (W x00 x00 x00 x00 x00 x00 x00 x00))
(L (W x00 x00 x00 x00 x00 x00 x00 x00)))
(T (W x62 x00 x00 x00 x94 x01 x00 x00)
(L (W x45 x44 x00 x00 x00 x00 x00 x00)) E))
(T (W x00 x00 x00 x00 x00 x00 x00 x00)
(T (W x00 x00 x80 x3f x00 x00 x80 x3f)
(L (W xff xff xff xff xff xff xff xff)) E)
(T (W xff xff xff xff xbc x00 x00 x00)
(L (W x45 x26 x22 x84 xe4 x9c xf2 xcb)) E)))))))
(T (W x00 x00 x80 x3f x00 x00 x80 x3f)
(T (W x00 x00 x00 x00 x00 x00 x00 x00)
(T (W x00 x00 x80 x3f x00 x00 x80 x3f)
(T (W x01 x00 x00 x00 xa0 x00 x00 x00)
(T (W x00 x00 x80 x3f x00 x00 x80 x3f)
(T (W xc0 x00 x00 x00 xb4 x00 x00 x00)
(T (W x00 x00 x00 x00 x5a x7a xfb xff)
(L (W x00 x00 x00 x00 x00 x00 x00 x00))
(L (W xff xff xff xff xff xff xff xff)))
(T (W x1a x00 x00 x00 x10 x00 x00 x00)
(L (W x00 x00 x80 xbf x00 x00 x80 xbf)) E))
(T (W x68 x00 x00 x00 x5c x00 x00 x00)
(T (W x00 x00 x00 x00 x00 x00 x00 x00)
(L (W xff xff xff xff xff xff xff xff))
(L (W xff xff xff xff xc8 x00 x00 x00)))
(T (W x45 x26 x22 x84 xe4 x9c xf2 xcb)
(L (W x6c x00 x00 x00 x60 x00 x00 x00)) E)))
(T (W x20 x01 x00 x00 x04 x00 x00 x00)
(T (W x29 x00 x00 x00 x10 x00 x00 x00)
(T (W x00 x00 x00 x00 x00 x00 x00 x00)
(L (W xff xff xff xff xff xff xff xff))
(L (W x00 x00 x80 xbf x00 x00 x80 xbf)))
(T (W x00 x00 x00 x00 x02 x00 x00 x00)
(L (W xff xff xff xff xff xff xff xff)) E))
(T (W xff xff xff xff xc8 x00 x00 x00)
(T (W x46 x53 x59 x53 x5f x4e x53 x5f)
(L (W xff xff xff xff xc8 x00 x00 x00)) E)
(T (W x00 x00 x00 x00 x00 x00 x00 x00)
(L (W x00 x00 x00 x00 x00 x00 x00 x00)) E))))
(T (W x00 x00 x00 x00 x00 x00 x00 x00)
(T (W x68 x00 x00 x00 x5c x00 x00 x00)
(T (W x00 x00 x00 x00 x00 x00 x00 x00)
(T (W x2d x1f x10 x5c x6e x7b x7c x57)
(L (W x12 x00 x00 x00 x46 x53 x59 x53))
(L (W x00 x00 x00 x00 x00 x00 x00 x00)))
(T (W xff xff xff xff xff xff xff xff)
(L (W xc4 x00 x00 x00 x02 x00 x00 x00)) E))
(T (W x6b x65 x5f x77 x61 x72 x6c x69)
(T (W x7a x19 xfc xff x74 x00 x00 x00)
(L (W x00 x00 x00 x00 x00 x00 x00 x00)) E)
(T (W x03 x00 x00 x00 xcc x00 x00 x00)
(L (W xff xff xff xff xff xff xff xff)) E)))
(T (W xb8 x00 x00 x00 xac x00 x00 x00)
(T (W xff xff xff xff xff xff xff xff)
(T (W xff xff xff xff xff xff xff xff)
(L (W x00 x00 x80 xbf x00 x00 x80 xbf))
(L (W x45 x26 x22 x84 xe4 x9c xf2 xcb)))
(T (W xff xff xff xff xff xff xff xff)
(L (W x45 x26 x22 x84 xe4 x9c xf2 xcb)) E))
(T (W x13 x00 x00 x00 x10 x00 x00 x00)
(T (W x2a x5b xfc xff x78 x00 x00 x00)
(L (W x00 x00 x00 x00 x00 x00 x00 x00)) E)
(T (W xff xff xff xff xff xff xff xff)
(L (W x4c x5e xff xff x00 x01 x01 x01)) E)))))
(T (W x54 x00 x00 x00 x48 x00 x00 x00)
(T (W xff xff xff xff xff xff xff xff)
(T (W x00 x00 x00 x00 x00 x00 x00 x00)
(T (W x4c x8e xfa xff x00 x01 x01 x01)
(T (W x49 xa1 x68 x4a xeb x5f xdd x3d)
(L (W x32 xeb xff xff x00 x00 x01 x01))
(L (W x02 x00 x00 x00 x30 x01 x00 x00)))
(T (W xff xff xff xff xff xff xff xff)
(L (W xff xff xff xff xb0 x00 x00 x00)) E))
(T (W x00 x00 x00 x00 x00 x00 x00 x00)
(T (W x00 x00 x80 x3f x00 x00 x80 x3f)
(L (W x00 x00 x00 x00 x00 x00 x00 x00)) E)
(T (W xff xff xff xff xff xff xff xff)
(L (W xff xff xff xff xc0 x00 x00 x00)) E)))
(T (W xff xff xff xff xff xff xff xff)
(T (W x1c x01 x00 x00 x04 x00 x00 x00)
(T (W x45 x26 x22 x84 xe4 x9c xf2 xcb)
(L (W x46 x53 x59 x53 x5f x4e x53 x5f))
(L (W x54 x00 x00 x00 x48 x00 x00 x00)))
(T (W x38 x00 x3c x00 x40 x00 x44 x00)
(L (W x00 x00 x00 x00 x00 x00 x00 x00)) E))
(T (W x50 x00 x00 x00 x44 x00 x00 x00)
(T (W x00 x00 x80 x3f x00 x00 x80 x3f)
(L (W xff xff xff xff xff xff xff xff)) E)
(T (W x74 x00 x00 x00 x68 x00 x00 x00)
(L (W x00 x00 x80 xbf x00 x00 x80 xbf)) E))))
(T (W x00 x00 x00 x00 x00 x00 x00 x00)
(T (W xb2 x01 x00 x00 xff xff xff xff)
(T (W x00 x00 x00 x00 x00 x00 x00 x00)
(T (W x7a xa9 xfb xff x74 x00 x00 x00)
(L (W xe2 xec xff xff xc9 x00 x00 x00))
(L (W x00 x00 x00 x00 x00 x00 x00 x00)))
(T (W x00 x00 x00 x00 x00 x00 x00 x00)
(L (W xff xff xff xff xff xff xff xff)) E))
(T (W x45 x26 x22 x84 xe4 x9c xf2 xcb)
(T (W x19 x00 x00 x00 x1c x00 x00 x00)
(L (W x00 x00 x80 xbf x00 x00 x80 xbf)) E)
(T (W x5c x00 x00 x00 xff xff xff xff)
(L (W x00 x00 x00 x00 x00 x00 x00 x00)) E)))
(T (W x01 x00 x00 x00 x9c x00 x00 x00)
(T (W xff xff xff xff xff xff xff xff)
(T (W x4a x00 x00 x00 xff xff xff xff)
(L (W x03 x00 x00 x00 xd8 x00 x00 x00))
(L (W xff xff xff xff xff xff xff xff)))
(T (W xff xff xff xff xff xff xff xff)
(L (W x00 x00 x00 x00 xbc xec xfe xff)) E))
(T (W x00 x00 x00 x00 xbc x6c xfb xff)
(T (W x7c x72 xfc xff x14 x00 x00 x00)
(L (W x00 x00 x80 xbf x00 x00 x80 xbf)) E)
(T (W x00 x00 x00 x00 x00 x00 x00 x00)
(L (W x4c x6e xff xff x00 x01 x01 x01)) E))))))
(T (W xff xff xff xff xff xff xff xff)
(T (W xff xff xff xff xff xff xff xff)
(T (W x00 x00 x00 x00 x00 x00 x00 x00)
(T (W x00 x00 x00 x00 x00 x00 x00 x00)
(T (W x7a x81 xfa xff x74 x00 x00 x00)
(T (W x00 x00 x00 x00 x00 x00 x00 x00)
(L (W xff xff xff xff xff xff xff xff))
(L (W xff xff xff xff xff xff xff xff)))
(T (W xff xff xff xff xff xff xff xff)
(L (W x00 x00 x80 xbf x00 x00 x80 xbf)) E))
(T (W x34 x01 x00 x00 x04 x00 x00 x00)
(T (W x00 x00 x80 x3f x00 x00 x80 x3f)
(L (W x45 x44 x00 x00 x00 x00 x00 x00)) E)
(T (W x00 x00 x80 xbf x00 x00 x80 xbf)
(L (W x18 x00 x00 x00 x0c x00 x00 x00)) E)))
(T (W xff xff xff xff xff xff xff xff)
(T (W x00 x00 x00 x00 x8a xd2 xff xff)
(T (W x00 x00 x80 x3f x00 x00 x80 x3f)
(L (W x00 x00 x00 x00 x00 x00 x00 x00))
(L (W x00 x00 x80 xbf x00 x00 x80 xbf)))
(T (W xff xff xff xff xff xff xff xff)
(L (W x30 x32 x5f x43 x4c x45 x41 x52)) E))
(T (W x00 x00 x00 x00 x00 x00 x00 x00)
(T (W x45 x26 x22 x84 xe4 x9c xf2 xcb)
(L (W xff xff xff xff xff xff xff xff)) E)
(T (W x54 x00 x00 x00 x48 x00 x00 x00)
(L (W x45 x26 x22 x84 xe4 x9c xf2 xcb)) E))))
(T (W x00 x00 x00 x00 x00 x00 x00 x00)
(T (W xad x10 x3b xd5 x81 x00 x21 xbd)
(T (W x00 x00 x00 x00 x00 x00 x00 x00)
(T (W x49 xa1 x68 x4a xeb x5f xdd x3d)
(L (W x68 x00 x00 x00 x5c x00 x00 x00))
(L (W xff xff xff xff xff xff xff xff)))
(T (W x00 x00 x00 x00 x00 x00 x00 x00)
(L (W xff xff xff xff xff xff xff xff)) E))
(T (W x00 x00 x00 x00 x00 x00 x00 x00)
(T (W x01 x00 x00 x00 xb0 x00 x00 x00)
(L (W x00 x00 x80 xbf x00 x00 x80 xbf)) E)
(T (W xff xff xff xff xff xff xff xff)
(L (W xff xff xff xff xff xff xff xff)) E)))
(T (W x45 x26 x22 x84 xe4 x9c xf2 xcb)
(T (W xff xff xff xff xff xff xff xff)
(T (W xff xff xff xff xff xff xff xff)
(L (W x00 x00 x80 xbf x00 x00 x80 xbf))
(L (W xbc x00 x00 x00 x1e x00 x00 x00)))
(T (W x00 x00 x80 x3f x00 x00 x80 x3f)
(L (W x00 x00 x80 xbf x00 x00 x80 xbf)) E))
(T (W x00 x00 x80 x3f x00 x00 x80 x3f)
(T (W x00 x00 x80 x3f x00 x00 x80 x3f)
(L (W x00 x00 x00 x00 x00 x00 x00 x00)) E)
(T (W x00 x00 x00 x00 x00 x00 x00 x00)
(L (W x00 x00 x80 xbf x00 x00 x80 xbf)) E)))))
(T (W x00 x00 x00 x00 x00 x00 x00 x00)
(T (W x00 x00 x80 x3f x00 x00 x80 x3f)
(T (W x00 x00 x80 x3f x00 x00 x80 x3f)
(T (W x50 x00 x00 x00 x44 x00 x00 x00)
(T (W xff xff xff xff xc4 x00 x00 x00)
(L (W x00 x00 x00 x00 x00 x00 x00 x00))
(L (W x46 x53 x59 x53 x5f x4e x53 x5f)))
(T (W x64 x00 x00 x00 x9c x00 x00 x00)
(L (W xb4 x00 x00 x00 x50 x00 x00 x00)) E))
(T (W x00 x00 x80 x3f x00 x00 x80 x3f)
(T (W x54 x00 x00 x00 x48 x00 x00 x00)
(L (W x4f x84 x6f x8b xe8 xcb x63 xb7)) E)
(T (W xb0 x00 x00 x00 x64 x00 x00 x00)
(L (W xff xff xff xff xff xff xff xff)) E)))
(T (W xff xff xff xff xff xff xff xff)
(T (W xff xff xff xff xff xff xff xff)
(T (W x45 x26 x22 x84 xe4 x9c xf2 xcb)
(L (W x45 x26 x22 x84 xe4 x9c xf2 xcb))
(L (W x00 x00 x00 x00 xbc xd4 xff xff)))
(T (W xff xff xff xff xff xff xff xff)
(L (W x45 x26 x22 x84 xe4 x9c xf2 xcb)) E))
(T (W x18 x00 x00 x00 x10 x00 x00 x00)
(T (W x00 x00 x80 x3f x00 x00 x80 x3f)
(L (W x54 x02 x00 x00 x38 x01 x00 x00)) E)
(T (W xff xff xff xff xff xff xff xff)
(L (W x6c x00 x00 x00 x60 x00 x00 x00)) E))))
(T (W x45 x26 x22 x84 xe4 x9c xf2 xcb)
(T (W xff xff xff xff xff xff xff xff)
(T (W x00 x00 x00 x00 x00 x00 x00 x00)
(T (W xff xff xff xff x01 x00 x00 x00)
(L (W x00 x00 x80 xbf x00 x00 x80 xbf))
(L (W x00 x00 x00 x00 x00 x00 x00 x00)))
(T (W x00 x00 x00 x00 x00 x00 x00 x00)
(L (W xff xff xff xff xff xff xff xff)) E))
(T (W x45 x26 x22 x84 xe4 x9c xf2 xcb)
(T (W x18 x00 x00 x00 x10 x00 x00 x00)
(L (W x2a x33 xfe xff x78 x00 x00 x00)) E)
(T (W xd4 x43 xfd xff x15 x00 x00 x00)
(L (W x94 x04 x00 x00 x80 x03 x00 x00)) E)))
(T (W x0a x00 x00 x00 x3c x00 x00 x00)
(T (W x00 x00 x00 x00 x00 x00 x00 x00)
(T (W xb6 x01 x00 x00 xff xff xff xff)
(L (W xff xff xff xff xff xff xff xff))
(L (W xff xff xff xff xff xff xff xff)))
(T (W x68 x00 x00 x00 x5c x00 x00 x00)
(L (W x6c x00 x00 x00 x60 x00 x00 x00)) E))
(T (W xff xff xff xff xff xff xff xff)
(T (W xff xff xff xff xff xff xff xff)
(L (W x00 x00 x80 xbf x00 x00 x80 xbf)) E)
(T (W x00 x00 x00 x00 x00 x00 x00 x00)
(L (W xbc x00 x00 x00 x1e x00 x00 x00)) E))))))))
(T (W xff xff xff xff xff xff xff xff)
(T (W x00 x00 x00 x00 x00 x00 x00 x00)
(T (W xff xff xff xff xff xff xff xff)
(T (W x45 x26 x22 x84 xe4 x9c xf2 xcb)
(T (W x6c x00 x00 x00 x60 x00 x00 x00)
(T (W xe1 xf5 x31 x47 xbc xce x7a x6d)
(T (W x00 x00 x80 x3f x00 x00 x80 x3f)
(T (W xff xff xff xff x9c x00 x00 x00)
(L (W xff xff xff xff xff xff xff xff))
(L (W x4c x7c xff xff x00 x01 x01 x01)))
(T (W xff xff xff xff xff xff xff xff)
(L (W x00 x00 x00 x00 x00 x00 x00 x00)) E))
(T (W x00 x00 x00 x00 x00 x00 x00 x00)
(T (W xda x01 xff xff x00 x00 x01 x01)
(L (W xcc x00 x00 x00 x01 x00 x00 x00))
(L (W x4c x00 x50 x00 x54 x00 x00 x00)))
(T (W x00 x00 x00 x00 x00 x00 x5c x00)
(L (W x00 x00 x80 xbf x00 x00 x80 xbf)) E)))
(T (W xff xff xff xff x04 x00 x00 x00)
(T (W xff xff xff xff xff xff xff xff)
(T (W xff xff xff xff xff xff xff xff)
(L (W xff xff xff xff xff xff xff xff))
(L (W x00 x00 x00 x00 x5a xb8 xff xff)))
(T (W xff xff xff xff xff xff xff xff)
(L (W xff xff xff xff xff xff xff xff)) E))
(T (W x00 x00 x80 x3f x00 x00 x80 x3f)
(T (W xff xff xff xff xff xff xff xff)
(L (W x00 x00 x80 xbf x00 x00 x80 xbf)) E)
(T (W xc7 x01 x00 x00 xff xff xff xff)
(L (W xff xff xff xff xff xff xff xff)) E))))
(T (W xff xff xff xff xff xff xff xff)
(T (W x45 x26 x22 x84 xe4 x9c xf2 xcb)
(T (W xff xff xff xff xff xff xff xff)
(T (W x18 x00 x00 x00 x0c x00 x00 x00)
(L (W xff xff xff xff xff xff xff xff))
(L (W xff xff xff xff xff xff xff xff)))
(T (W x00 x00 x80 x3f x00 x00 x80 x3f)
(L (W x00 x00 x80 xbf x00 x00 x80 xbf)) E))
(T (W xd4 x00 x00 x00 xc8 x00 x00 x00)
(T (W x00 x00 x80 x3f x00 x00 x80 x3f)
(L (W x00 x00 x00 x00 x1a x1a xfe xff)) E)
(T (W x1f x00 x00 x00 x0c x00 x00 x00)
(L (W x29 x00 x00 x00 x2c x00 x00 x00)) E)))
(T (W x50 x00 x00 x00 x44 x00 x00 x00)
(T (W x45 x26 x22 x84 xe4 x9c xf2 xcb)
(T (W x54 x00 x00 x00 x48 x00 x00 x00)
(L (W x45 x44 x00 x00 x00 x00 x00 x00))
(L (W x00 x00 x80 xbf x00 x00 x80 xbf)))
(T (W x50 x00 x00 x00 x44 x00 x00 x00)
(L (W x54 x02 x00 x00 x38 x01 x00 x00)) E))
(T (W x01 x00 x00 x00 xb0 x00 x00 x00)
(T (W x30 x32 x5f x43 x4c x45 x41 x52)
(L (W xff xff xff xff xff xff xff xff)) E)
(T (W x45 x26 x22 x84 xe4 x9c xf2 xcb)
(L (W x00 x00 x00 x00 x00 x00 x00 x00)) E)))))
(T (W x00 x00 x80 x3f x00 x00 x80 x3f)
(T (W x64 x00 x00 x00 xa0 x00 x00 x00)
(T (W xff xff xff xff xff xff xff xff)
(T (W x00 x00 x00 x00 x00 x00 x00 x00)
(T (W x46 x53 x59 x53 x5f x4e x53 x5f)
(L (W x03 x00 x00 x00 xcc x00 x00 x00))
(L (W x19 x00 x00 x00 x1c x00 x00 x00)))
(T (W x18 x00 x00 x00 x0c x00 x00 x00)
(L (W x4f x84 x6f x8b xe8 xcb x63 xb7)) E))
(T (W xff xff xff xff xff xff xff xff)
(T (W x00 x00 x00 x00 x00 x00 x00 x00)
(L (W xff xff xff xff xff xff xff xff)) E)
(T (W x7a x07 xfd xff x74 x00 x00 x00)
(L (W x6c x00 x00 x00 x60 x00 x00 x00)) E)))
(T (W x68 x00 x00 x00 x5c x00 x00 x00)
(T (W x18 x00 x00 x00 x0c x00 x00 x00)
(T (W x00 x00 x00 x00 x12 x00 x00 x00)
(L (W xff xff xff xff xff xff xff xff))
(L (W x4f x84 x6f x8b xe8 xcb x63 xb7)))
(T (W x84 x00 x10 x00 x00 x00 x14 x00)
(L (W xff xff xff xff xff xff xff xff)) E))
(T (W x00 x00 x00 x00 x00 x00 x00 x00)
(T (W x00 x00 x00 x00 x00 x00 x00 x00)
(L (W x50 x00 x00 x00 x44 x00 x00 x00)) E)
(T (W x00 x00 x00 x00 x00 x00 x00 x00)
(L (W x00 x00 x00 x00 x00 x00 x00 x00)) E))))
(T (W x00 x00 x00 x00 x00 x00 x00 x00)
(T (W x45 x26 x22 x84 xe4 x9c xf2 xcb)
(T (W xd1 x01 x00 x00 xff xff xff xff)
(T (W x00 x00 x00 x00 x00 x00 x00 x00)
(L (W xff xff xff xff xff xff xff xff))
(L (W x00 x00 x00 x00 x00 x00 x00 x00)))
(T (W x00 x00 x00 x00 x02 x00 x00 x00)
(L (W x00 x00 x80 xbf x00 x00 x80 xbf)) E))
(T (W x61 x64 x65 x72 x5f x77 x69 x6c)
(T (W x00 x00 x80 x3f x00 x00 x80 x3f)
(L (W x00 x00 x00 x00 x00 x00 x00 x00)) E)
(T (W xff xff xff xff xc8 x00 x00 x00)
(L (W x45 x26 x22 x84 xe4 x9c xf2 xcb)) E)))
(T (W x7a x67 xfa xff x74 x00 x00 x00)
(T (W x40 x00 x00 x00 x9c x00 x00 x00)
(T (W xff xff xff xff x03 x00 x00 x00)
(L (W x54 x00 x00 x00 x48 x00 x00 x00))
(L (W x00 x00 x80 xbf x00 x00 x80 xbf)))
(T (W xff xff xff xff xff xff xff xff)
(L (W x00 x00 x00 x00 x00 x00 x00 x00)) E))
(T (W x00 x00 x00 x00 x00 x00 x00 x00)
(T (W xff xff xff xff xff xff xff xff)
(L (W x00 x00 x00 x00 xaa x6e xfe xff)) E)
(T (W xff xff xff xff xff xff xff xff)
(L (W x00 x00 x80 xbf x00 x00 x80 xbf)) E))))))
(T (W x45 x26 x22 x84 xe4 x9c xf2 xcb)
(T (W xff xff xff xff xff xff xff xff)
(T (W x00 x00 x00 x00 x00 x00 x00 x00)
(T (W xc4 x01 x00 x00 xff xff xff xff)
(T (W x45 x26 x22 x84 xe4 x9c xf2 xcb)
(T (W xe2 x93 xfe xff x00 x00 x01 x01)
(L (W xb0 x35 x00 x00 x9c x34 x00 x00))
(L (W x45 x26 x22 x84 xe4 x9c xf2 xcb)))
(T (W x64 x00 x00 x00 x9c x00 x00 x00)
(L (W x45 x26 x22 x84 xe4 x9c xf2 xcb)) E))
(T (W x6c x00 x00 x00 x60 x00 x00 x00)
(T (W x00 x00 x00 x00 x5a x00 xfc xff)
(L (W xff xff xff xff xff xff xff xff))
(L (W x00 x00 x58 x00 x00 x00 x00 x00)))
(T (W x04 x00 x00 x00 xaa x5f xfd xff)
(L (W x00 x00 x80 xbf x00 x00 x80 xbf)) E)))
(T (W x45 x26 x22 x84 xe4 x9c xf2 xcb)
(T (W xff xff xff xff x04 x00 x00 x00)
(T (W x00 x00 x00 x00 x00 x00 x00 x00)
(L (W xff xff xff xff xff xff xff xff))
(L (W x00 x00 x00 x00 x00 x00 x00 x00)))
(T (W x45 x26 x22 x84 xe4 x9c xf2 xcb)
(L (W xff xff xff xff xc4 x00 x00 x00)) E))
(T (W xff xff xff xff xff xff xff xff)
(T (W x34 x01 x00 x00 x04 x00 x00 x00)
(L (W x2a x41 xfe xff x78 x00 x00 x00)) E)
(T (W x00 x00 x00 x00 x00 x00 x00 x00)
(L (W x54 x02 x00 x00 x38 x01 x00 x00)) E))))
(T (W x01 x00 x00 x00 xff xff xff xff)
(T (W xb8 x00 x00 x00 xac x00 x00 x00)
(T (W xff xff xff xff xff xff xff xff)
(T (W x00 x00 x00 x00 x00 x00 x00 x00)
(L (W x4f x84 x6f x8b xe8 xcb x63 xb7))
(L (W x4f x84 x6f x8b xe8 xcb x63 xb7)))
(T (W xff xff xff xff xff xff xff xff)
(L (W x00 x00 x80 xbf x00 x00 x80 xbf)) E))
(T (W xff xff xff xff xff xff xff xff)
(T (W x00 x00 x80 x3f x00 x00 x80 x3f)
(L (W x00 x00 x00 x00 x12 x00 x00 x00)) E)
(T (W x54 x00 x00 x00 x48 x00 x00 x00)
(L (W xff xff xff xff xff xff xff xff)) E)))
(T (W x68 x00 x00 x00 x5c x00 x00 x00)
(T (W x18 x00 x00 x00 x10 x00 x00 x00)
(T (W x7a xdf xfb xff x74 x00 x00 x00)
(L (W x00 x00 x00 x00 x00 x00 x00 x00))
(L (W x45 x26 x22 x84 xe4 x9c xf2 xcb)))
(T (W xff xff xff xff xff xff xff xff)
(L (W x00 x00 x00 x00 x00 x00 x00 x00)) E))
(T (W x30 x32 x5f x43 x4c x45 x41 x52)
(T (W x00 x00 x00 x00 x00 x00 x00 x00)
(L (W xff xff xff xff xff xff xff xff)) E)
(T (W xff xff xff xff xff xff xff xff)
(L (W x45 x26 x22 x84 xe4 x9c xf2 xcb)) E)))))
(T (W x12 x00 x00 x00 xff xff xff xff)
(T (W x45 x26 x22 x84 xe4 x9c xf2 xcb)
(T (W x00 x00 x00 x00 x00 x00 x00 x00)
(T (W x00 x00 x00 x00 x00 x00 x00 x00)
(T (W x00 x00 x80 x3f x00 x00 x80 x3f)
(L (W xff xff xff xff xff xff xff xff))
(L (W xff xff xff xff xff xff xff xff)))
(T (W x00 x00 x80 x3f x00 x00 x80 x3f)
(L (W x00 x00 x80 xbf x00 x00 x80 xbf)) E))
(T (W x7c x18 xfb xff x10 x00 x00 x00)
(T (W x49 xa1 x68 x4a xeb x5f xdd x3d)
(L (W xff xff xff xff xff xff xff xff)) E)
(T (W x45 x26 x22 x84 xe4 x9c xf2 xcb)
(L (W x29 x00 x00 x00 x2c x00 x00 x00)) E)))
(T (W x00 x00 x80 x3f x00 x00 x80 x3f)
(T (W x7a xcf xfa xff x74 x00 x00 x00)
(T (W x00 x00 x80 x3f x00 x00 x80 x3f)
(L (W x00 x00 x00 x00 x00 x00 x00 x00))
(L (W x00 x00 x00 x00 x00 x00 x00 x00)))
(T (W x00 x00 x80 x3f x00 x00 x80 x3f)
(L (W x00 x00 x00 x00 x3a xd8 xfe xff)) E))
(T (W x00 x00 x80 x3f x00 x00 x80 x3f)
(T (W x00 x00 x00 x00 x00 x00 x00 x00)
(L (W x18 x00 x00 x00 x0c x00 x00 x00)) E)
(T (W x00 x00 x80 xbf x00 x00 x80 xbf)
(L (W x00 x00 x00 x00 x00 x00 x00 x00)) E))))
(T (W x00 x00 x00 x00 x00 x00 x00 x00)
(T (W x01 x00 x00 x00 x9c x00 x00 x00)
(T (W xff xff xff xff xff xff xff xff)
(T (W x45 x26 x22 x84 xe4 x9c xf2 xcb)
(L (W x00 x00 x80 xbf x00 x00 x80 xbf))
(L (W x00 x00 x00 x00 x00 x00 x00 x00)))
(T (W xff xff xff xff xff xff xff xff)
(L (W x50 x00 x00 x00 x44 x00 x00 x00)) E))
(T (W x00 x00 x00 x00 x00 x00 x00 x00)
(T (W x01 x00 x00 x00 xb0 x00 x00 x00)
(L (W x49 xa1 x68 x4a xeb x5f xdd x3d)) E)
(T (W xff xff xff xff xff xff xff xff)
(L (W x1a x00 x00 x00 x1d x00 x00 x00)) E)))
(T (W x00 x00 x80 x3f x00 x00 x80 x3f)
(T (W xff xff xff xff xff xff xff xff)
(T (W xff xff xff xff xff xff xff xff)
(L (W x18 x00 x00 x00 x10 x00 x00 x00))
(L (W xff xff xff xff xa0 x00 x00 x00)))
(T (W x12 x00 x00 x00 x46 x53 x59 x53)
(L (W x49 xa1 x68 x4a xeb x5f xdd x3d)) E))
(T (W x4c x74 xfb xff x00 x01 x01 x01)
(T (W xb8 x00 x00 x00 xac x00 x00 x00)
(L (W x00 x00 x00 x00 x00 x00 x00 x00)) E)
(T (W x68 x00 x00 x00 x5c x00 x00 x00)
(L (W x00 x00 x80 xbf x00 x00 x80 xbf)) E)))))))
(T (W x4c x88 xf9 xff x00 x01 x01 x01)
(T (W x45 x26 x22 x84 xe4 x9c xf2 xcb)
(T (W x54 x00 x00 x00 x48 x00 x00 x00)
(T (W xff xff xff xff xff xff xff xff)
(T (W x18 x00 x00 x00 x0c x00 x00 x00)
(T (W xff xff xff xff xff xff xff xff)
(T (W x00 x00 x80 x3f x00 x00 x80 x3f)
(L (W x00 x00 x80 xbf x00 x00 x80 xbf))
(L (W x15 x00 x00 x00 x0c x00 x00 x00)))
(T (W x00 x00 x00 x00 x00 x00 x00 x00)
(L (W xff xff xff xff xff xff xff xff)) E))
(T (W x00 x00 x00 x00 x00 x00 x00 x00)
(T (W x00 x00 x80 x3f x00 x00 x80 x3f)
(L (W x00 x00 x00 x00 x00 x00 x00 x00))
(L (W x00 x00 x80 xbf x00 x00 x80 xbf)))
(T (W x04 x00 x00 x00 x5a xfc xfc xff)
(L (W xff xff xff xff xbc x00 x00 x00)) E)))
(T (W x00 x00 x00 x00 x00 x00 x00 x00)
(T (W x45 x26 x22 x84 xe4 x9c xf2 xcb)
(T (W x7a xbb xfb xff x74 x00 x00 x00)
(L (W x00 x00 x00 x00 x00 x00 x00 x00))
(L (W x45 x26 x22 x84 xe4 x9c xf2 xcb)))
(T (W x00 x00 x00 x00 x00 x00 x00 x00)
(L (W x00 x00 x00 x00 x00 x00 x00 x00)) E))
(T (W x00 x00 x00 x00 x00 x00 x00 x00)
(T (W x00 x00 x80 x3f x00 x00 x80 x3f)
(L (W x5c x00 x00 x00 xff xff xff xff)) E)
(T (W x2a x3d xfd xff x78 x00 x00 x00)
(L (W x00 x00 x80 xbf x00 x00 x80 xbf)) E))))
(T (W x00 x00 x80 x3f x00 x00 x80 x3f)
(T (W x00 x00 x00 x00 x00 x00 x00 x00)
(T (W x00 x00 x80 x3f x00 x00 x80 x3f)
(T (W x45 x26 x22 x84 xe4 x9c xf2 xcb)
(L (W x00 x00 x80 xbf x00 x00 x80 xbf))
(L (W x00 x00 x00 x00 xbc x9e xff xff)))
(T (W x6f x6b x65 x5f x63 x6f x77 x61)
(L (W x44 x02 x00 x00 x30 x01 x00 x00)) E))
(T (W x45 x26 x22 x84 xe4 x9c xf2 xcb)
(T (W xff xff xff xff xff xff xff xff)
(L (W xff xff xff xff xa0 x00 x00 x00)) E)
(T (W x46 x53 x59 x53 x5f x4e x53 x5f)
(L (W x00 x00 x00 x00 x12 x00 x00 x00)) E)))
(T (W x6e x08 x0d xf4 xa1 x5a xe8 x10)
(T (W x00 x00 x00 x00 x00 x00 x00 x00)
(T (W x00 x00 x00 x00 x00 x00 x00 x00)
(L (W x00 x00 x00 x00 x50 xe0 xfd xff))
(L (W xff xff xff xff xff xff xff xff)))
(T (W x00 x00 x00 x00 x12 x00 x00 x00)
(L (W x2a xdd xfe xff x78 x00 x00 x00)) E))
(T (W x00 x00 x80 x3f x00 x00 x80 x3f)
(T (W xff xff xff xff xff xff xff xff)
(L (W x00 x00 x80 xbf x00 x00 x80 xbf)) E)
(T (W x00 x00 x00 x00 x00 x00 x00 x00)
(L (W xff xff xff xff xff xff xff xff)) E)))))
(T (W x18 x00 x00 x00 x10 x00 x00 x00)
(T (W xc9 x00 x00 x00 xff xff xff xff)
(T (W x54 x00 x00 x00 x48 x00 x00 x00)
(T (W xff xff xff xff xff xff xff xff)
(T (W xff xff xff xff xff xff xff xff)
(L (W x00 x00 x00 x00 x00 x00 x00 x00))
(L (W x45 x26 x22 x84 xe4 x9c xf2 xcb)))
(T (W x20 x00 x00 x00 x10 x00 x00 x00)
(L (W xff xff xff xff xff xff xff xff)) E))
(T (W x00 x00 x80 x3f x00 x00 x80 x3f)
(T (W x45 x26 x22 x84 xe4 x9c xf2 xcb)
(L (W x00 x00 x80 xbf x00 x00 x80 xbf)) E)
(T (W x00 x00 x00 x00 x00 x00 x00 x00)
(L (W x2f x00 x00 x00 xff xff xff xff)) E)))
(T (W x00 x00 x00 x00 x00 x00 x00 x00)
(T (W x00 x00 x00 x00 x00 x00 x00 x00)
(T (W xff xff xff xff xff xff xff xff)
(L (W x00 x00 x80 xbf x00 x00 x80 xbf))
(L (W xcc x00 x00 x00 x01 x00 x00 x00)))
(T (W xff xff xff xff xff xff xff xff)
(L (W x00 x00 x80 xbf x00 x00 x80 xbf)) E))
(T (W xff xff xff xff xff xff xff xff)
(T (W x2a x4d xfc xff x78 x00 x00 x00)
(L (W x00 x00 x00 x00 x00 x00 x00 x00)) E)
(T (W xe4 x00 x00 x00 x02 x00 x00 x00)
(L (W x18 x00 x00 x00 x0c x00 x00 x00)) E))))
(T (W x68 x00 x00 x00 x5c x00 x00 x00)
(T (W x00 x00 x00 x00 x00 x00 x00 x00)
(T (W x00 x00 x00 x00 x00 x00 x00 x00)
(T (W xff xff xff xff xff xff xff xff)
(L (W x00 x00 x00 x00 x00 x00 x00 x00))
(L (W x00 x00 x80 xbf x00 x00 x80 xbf)))
(T (W x00 x00 x80 x3f x00 x00 x80 x3f)
(L (W x00 x00 x00 x00 x00 x00 x00 x00)) E))
(T (W xb8 x00 x00 x00 x14 x00 x00 x00)
(T (W x00 x00 x00 x00 x00 x00 x00 x00)
(L (W xff xff xff xff xff xff xff xff)) E)
(T (W x00 x00 x00 x00 x00 x00 x00 x00)
(L (W x00 x00 x00 x00 x00 x00 x00 x00)) E)))
(T (W xff xff xff xff xff xff xff xff)
(T (W xe2 xff xfd xff x00 x00 x01 x01)
(T (W x00 x00 x00 x00 x00 x00 x00 x00)
(L (W x00 x00 x01 x01 x2e x00 x00 x00))
(L (W xff xff xff xff xff xff xff xff)))
(T (W x00 x00 x00 x00 x00 x00 x00 x00)
(L (W xff xff xff xff xff xff xff xff)) E))
(T (W xff xff xff xff xff xff xff xff)
(T (W x00 x00 x00 x00 x00 x00 x00 x00)
(L (W xff xff xff xff xb0 x00 x00 x00)) E)
(T (W x00 x00 x80 xbf x00 x00 x80 xbf)
(L (W x04 x00 x00 x00 x3a x74 xff xff)) E))))))
(T (W xff xff xff xff x05 x00 x00 x00)
(T (W x00 x00 x00 x00 x00 x00 x00 x00)
(T (W x00 x00 x80 x3f x00 x00 x80 x3f)
(T (W x00 x00 x80 x3f x00 x00 x80 x3f)
(T (W xff xff xff xff xff xff xff xff)
(T (W x00 x00 x80 x3f x00 x00 x80 x3f)
(L (W x00 x00 x00 x00 x00 x00 x00 x00))
(L (W x00 x00 x00 x00 x00 x00 x00 x00)))
(T (W x00 x00 x00 x00 x00 x00 x00 x00)
(L (W xff xff xff xff xff xff xff xff)) E))
(T (W x45 x26 x22 x84 xe4 x9c xf2 xcb)
(T (W x6c x00 x00 x00 x60 x00 x00 x00)
(L (W x4f x84 x6f x8b xe8 xcb x63 xb7)) E)
(T (W xff xff xff xff xff xff xff xff)
(L (W xff xff xff xff xff xff xff xff)) E)))
(T (W x00 x00 x00 x00 x00 x00 x00 x00)
(T (W x00 x00 x80 x3f x00 x00 x80 x3f)
(T (W xff xff xff xff xff xff xff xff)
(L (W x00 x00 x80 xbf x00 x00 x80 xbf))
(L (W xff xff xff xff xa0 x00 x00 x00)))
(T (W x4c x49 x44 x5f x53 x50 x41 x57)
(L (W x4f x84 x6f x8b xe8 xcb x63 xb7)) E))
(T (W x00 x00 x80 x3f x00 x00 x80 x3f)
(T (W x00 x00 x80 x3f x00 x00 x80 x3f)
(L (W x00 x00 x01 x01 x2f x00 x00 x00)) E)
(T (W xb4 x00 x00 x00 x32 x00 x00 x00)
(L (W x2a x45 xff xff x78 x00 x00 x00)) E))))
(T (W x4c xe8 xf9 xff x00 x01 x01 x01)
(T (W x00 x00 x00 x00 x00 x00 x00 x00)
(T (W x45 x26 x22 x84 xe4 x9c xf2 xcb)
(T (W xff xff xff xff x03 x00 x00 x00)
(L (W x18 x00 x00 x00 x10 x00 x00 x00))
(L (W x00 x00 x00 x00 x00 x00 x00 x00)))
(T (W x00 x00 x80 x3f x00 x00 x80 x3f)
(L (W x30 x32 x5f x43 x4c x45 x41 x52)) E))
(T (W x00 x00 x80 x3f x00 x00 x80 x3f)
(T (W x74 x03 x00 x00 x4c x02 x00 x00)
(L (W x03 x00 x00 x00 xd8 x00 x00 x00)) E)
(T (W xd4 x35 xfd xff x1b x00 x00 x00)
(L (W x00 x00 x00 x00 x00 x00 x00 x00)) E)))
(T (W xd9 x00 x00 x00 xff xff xff xff)
(T (W x20 x00 x00 x00 x0c x00 x00 x00)
(T (W x00 x00 x00 x00 x00 x00 x00 x00)
(L (W x18 x00 x00 x00 x10 x00 x00 x00))
(L (W xff xff xff xff xff xff xff xff)))
(T (W x64 x5f x70 x6f x6b x65 x5f x77)
(L (W xff xff xff xff xb0 x00 x00 x00)) E))
(T (W x45 x26 x22 x84 xe4 x9c xf2 xcb)
(T (W x00 x00 x00 x00 x00 x00 x00 x00)
(L (W x2a x65 xfe xff x78 x00 x00 x00)) E)
(T (W x49 xa1 x68 x4a xeb x5f xdd x3d)
(L (W xff xff xff xff xff xff xff xff)) E)))))
(T (W x00 x00 x00 x00 x00 x00 x00 x00)
(T (W x2a xd5 xf9 xff x78 x00 x00 x00)
(T (W xff xff xff xff xff xff xff xff)
(T (W x00 x00 x00 x00 x00 x00 x00 x00)
(T (W xff xff xff xff xff xff xff xff)
(L (W x00 x00 x80 xbf x00 x00 x80 xbf))
(L (W x6c x00 x00 x00 x60 x00 x00 x00)))
(T (W xff xff xff xff xff xff xff xff)
(L (W xff xff xff xff xff xff xff xff)) E))
(T (W x5f x4e x53 x5f x30 x32 x5f x43)
(T (W x01 x00 x00 x00 xb0 x00 x00 x00)
(L (W x6c x00 x00 x00 x60 x00 x00 x00)) E)
(T (W x28 x00 x00 x00 x0c x00 x00 x00)
(L (W x00 x00 x00 x00 x00 x00 x00 x00)) E)))
(T (W x00 x00 x00 x00 x00 x00 x00 x00)
(T (W x00 x00 x00 x00 x00 x00 x00 x00)
(T (W xff xff xff xff xff xff xff xff)
(L (W x2a xd5 xfd xff x78 x00 x00 x00))
(L (W xff xff xff xff xff xff xff xff)))
(T (W x00 x00 x00 x00 x00 x00 x00 x00)
(L (W x6c x00 x00 x00 x60 x00 x00 x00)) E))
(T (W x00 x00 x00 x00 x12 x00 x00 x00)
(T (W xff xff xff xff xc4 x00 x00 x00)
(L (W x45 x26 x22 x84 xe4 x9c xf2 xcb)) E)
(T (W x00 x00 x00 x00 x00 x00 x00 x00)
(L (W xff xff xff xff xc0 x00 x00 x00)) E))))
(T (W x00 x00 x80 x3f x00 x00 x80 x3f)
(T (W x00 x00 x00 x00 x00 x00 x00 x00)
(T (W x45 x26 x22 x84 xe4 x9c xf2 xcb)
(T (W x00 x00 x00 x00 x00 x00 x00 x00)
(L (W x00 x00 x00 x00 xbc xb6 xfd xff))
(L (W x00 x00 x80 xbf x00 x00 x80 xbf)))
(T (W x00 x00 x80 x3f x00 x00 x80 x3f)
(L (W x00 x00 x00 x00 x12 x00 x00 x00)) E))
(T (W xff xff xff xff xff xff xff xff)
(T (W x00 x00 x80 x3f x00 x00 x80 x3f)
(L (W xff xff xff xff xff xff xff xff)) E)
(T (W x00 x00 x80 xbf x00 x00 x80 xbf)
(L (W x00 x00 x80 xbf x00 x00 x80 xbf)) E)))
(T (W xff xff xff xff xff xff xff xff)
(T (W x45 x26 x22 x84 xe4 x9c xf2 xcb)
(T (W x00 x00 x80 x3f x00 x00 x80 x3f)
(L (W x46 x53 x59 x53 x5f x4e x53 x5f))
(L (W x00 x00 x00 x00 x12 x00 x00 x00)))
(T (W xd0 x00 x00 x00 xc4 x00 x00 x00)
(L (W xff xff xff xff xff xff xff xff)) E))
(T (W x5f x77 x69 x6c x64 x5f x70 x6f)
(T (W x00 x00 x80 x3f x00 x00 x80 x3f)
(L (W xff xff xff xff xff xff xff xff)) E)
(T (W x00 x00 x80 xbf x00 x00 x80 xbf)
(L (W xa1 x01 x00 x00 xff xff xff xff)) E)))))))))
(T (W xf8 xe0 x01 x00 xcc xd9 x01 x00)
(T (W x08 x86 x00 x00 xd4 x84 x00 x00)
(T (W x00 x00 x00 x00 x00 x00 x00 x00)
(T (W xff xff xff xff xff xff xff xff)
(T (W x00 x00 x00 x00 x00 x00 x00 x00)
(T (W x00 x00 x80 x3f x00 x00 x80 x3f)
(T (W xff xff xff xff xff xff xff xff)
(T (W x00 x00 x00 x00 x00 x00 x00 x00)
(T (W x2a x78 xfb xff x78 x00 x00 x00)
(L (W xff xff xff xff xb0 x00 x00 x00))
(L (W x54 x00 x00 x00 x48 x00 x00 x00)))
(T (W x64 x00 x00 x00 x9c x00 x00 x00)
(L (W x00 x00 x00 x00 x00 x00 x00 x00)) E))
(T (W x00 x00 x00 x00 x00 x00 x00 x00)
(T (W xff xff xff xff xff xff xff xff)
(L (W x00 x00 x80 xbf x00 x00 x80 xbf))
(L (W x00 x00 x80 xbf x00 x00 x80 xbf)))
(T (W x4c xfb xfc xff x00 x01 x01 x01)
(L (W x00 x00 x00 x00 x00 x00 x00 x00)) E)))
(T (W x68 x00 x00 x00 x5c x00 x00 x00)
(T (W x18 x00 x00 x00 x0c x00 x00 x00)
(T (W xff xff xff xff xff xff xff xff)
(L (W xff xff xff xff xff xff xff xff))
(L (W xff xff xff xff xff xff xff xff)))
(T (W x45 x26 x22 x84 xe4 x9c xf2 xcb)
(L (W x68 x00 x00 x00 x5c x00 x00 x00)) E))
(T (W x00 x00 x00 x00 x00 x00 x00 x00)
(T (W xff xff xff xff xff xff xff xff)
(L (W x00 x00 x00 x00 x00 x00 x00 x00)) E)
(T (W xff xff xff xff xff xff xff xff)
(L (W x18 x00 x00 x00 x0c x00 x00 x00)) E))))
(T (W xb8 x00 x00 x00 xac x00 x00 x00)
(T (W x00 x00 x00 x00 x00 x00 x00 x00)
(T (W xff xff xff xff xff xff xff xff)
(T (W x00 x00 x80 x3f x00 x00 x80 x3f)
(L (W xff xff xff xff xff xff xff xff))
(L (W xff xff xff xff xff xff xff xff)))
(T (W x00 x00 x00 x00 x00 x00 x00 x00)
(L (W x00 x00 x80 xbf x00 x00 x80 xbf)) E))
(T (W x00 x00 x80 x3f x00 x00 x80 x3f)
(T (W x00 x00 x00 x00 x00 x00 x00 x00)
(L (W xff xff xff xff xff xff xff xff)) E)
(T (W xff xff xff xff xff xff xff xff)
(L (W x2a x18 xff xff x78 x00 x00 x00)) E)))
(T (W x00 x00 x80 x3f x00 x00 x80 x3f)
(T (W x7a xd6 xfa xff x74 x00 x00 x00)
(T (W x00 x00 x80 x3f x00 x00 x80 x3f)
(L (W xff xff xff xff xff xff xff xff))
(L (W x00 x00 x00 x00 x00 x00 x00 x00)))
(T (W x00 x00 x80 x3f x00 x00 x80 x3f)
(L (W xff xff xff xff xff xff xff xff)) E))
(T (W x45 x26 x22 x84 xe4 x9c xf2 xcb)
(T (W xe2 x6a xff xff x00 x00 x01 x01)
(L (W xff xff xff xff xb0 x00 x00 x00)) E)
(T (W x6c x00 x00 x00 x60 x00 x00 x00)
(L (W x00 x00 x00 x00 x00 x00 x00 x00)) E)))))
(T (W x45 x26 x22 x84 xe4 x9c xf2 xcb)
(T (W x45 x26 x22 x84 xe4 x9c xf2 xcb)
(T (W xff xff xff xff xff xff xff xff)
(T (W x00 x00 x00 x00 x00 x00 x00 x00)
(T (W x00 x00 x00 x00 x00 x00 x00 x00)
(L (W x4c x8b xfd xff x00 x01 x01 x01))
(L (W x00 x00 x00 x00 xbc x89 xff xff)))
(T (W x00 x00 x80 x3f x00 x00 x80 x3f)
(L (W x00 x00 x00 x00 x00 x00 x00 x00)) E))
(T (W xff xff xff xff x03 x00 x00 x00)
(T (W x4b x00 x00 x00 xff xff xff xff)
(L (W x45 x26 x22 x84 xe4 x9c xf2 xcb)) E)
(T (W x00 x00 x80 xbf x00 x00 x80 xbf)
(L (W x00 x00 x80 xbf x00 x00 x80 xbf)) E)))
(T (W x00 x00 x80 x3f x00 x00 x80 x3f)
(T (W x00 x00 x80 x3f x00 x00 x80 x3f)
(T (W x00 x00 x00 x00 x00 x00 x00 x00)
(L (W xff xff xff xff xff xff xff xff))
(L (W x20 x39 x45 xdc x00 xd4 x55 x2f)))
(T (W x00 x00 x00 x00 xbc xc9 xfc xff)
(L (W xff xff xff xff xff xff xff xff)) E))
(T (W x98 x03 x00 x00 x70 x02 x00 x00)
(T (W xff xff xff xff xff xff xff xff)
(L (W x00 x00 x80 xbf x00 x00 x80 xbf)) E)
(T (W x1e x00 x00 x00 x0c x00 x00 x00)
(L (W xff xff xff xff xff xff xff xff)) E))))
(T (W xc1 x02 x00 x00 xff xff xff xff)
(T (W x4c x2b xfa xff x00 x01 x01 x01)
(T (W xff xff xff xff x03 x00 x00 x00)
(T (W x12 x00 x00 x00 x46 x53 x59 x53)
(L (W xff xff xff xff xff xff xff xff))
(L (W xff xff xff xff xff xff xff xff)))
(T (W x18 x00 x00 x00 x10 x00 x00 x00)
(L (W x00 x00 x80 xbf x00 x00 x80 xbf)) E))
(T (W xff xff xff xff xff xff xff xff)
(T (W x00 x00 x80 x3f x00 x00 x80 x3f)
(L (W x30 x32 x5f x43 x4c x45 x41 x52)) E)
(T (W x45 x26 x22 x84 xe4 x9c xf2 xcb)
(L (W x54 x00 x00 x00 x48 x00 x00 x00)) E)))
(T (W x45 x26 x22 x84 xe4 x9c xf2 xcb)
(T (W x00 x00 x80 x3f x00 x00 x80 x3f)
(T (W x50 x00 x00 x00 x44 x00 x00 x00)
(L (W x00 x00 x80 xbf x00 x00 x80 xbf))
(L (W x45 x26 x22 x84 xe4 x9c xf2 xcb)))
(T (W x50 x00 x00 x00 x44 x00 x00 x00)
(L (W x00 x00 x00 x00 x00 x00 x00 x00)) E))
(T (W x46 x53 x59 x53 x5f x4e x53 x5f)
(T (W xb8 x00 x00 x00 xac x00 x00 x00)
(L (W xff xff xff xff xff xff xff xff)) E)
(T (W xff xff xff xff xbc x00 x00 x00)
(L (W x00 x00 x00 x00 x00 x00 x00 x00)) E))))))
(T (W x6c x00 x00 x00 x60 x00 x00 x00)
(T (W xbc x00 x00 x00 xb0 x00 x00 x00)
(T (W x00 x00 x00 x00 x00 x00 x00 x00)
(T (W xff xff xff xff xff xff xff xff)
(T (W x00 x00 x00 x00 x00 x00 x00 x00)
(T (W xff xff xff xff xff xff xff xff)
(L (W xb0 x00 x00 x00 x64 x00 x00 x00))
(L (W x54 x00 x00 x00 x48 x00 x00 x00)))
(T (W x18 x00 x00 x00 x0c x00 x00 x00)
(L (W x00 x00 x00 x00 x00 x00 x00 x00)) E))
(T (W x00 x00 x80 x3f x00 x00 x80 x3f)
(T (W xff xff xff xff xff xff xff xff)
(L (W xcc x00 x00 x00 x01 x00 x00 x00))
(L (W x2a x00 x00 x00 x78 x00 x00 x00)))
(T (W xac x00 x00 x00 x64 x00 x00 x00)
(L (W x45 x26 x22 x84 xe4 x9c xf2 xcb)) E)))
(T (W x00 x00 x80 x3f x00 x00 x80 x3f)
(T (W x7a xbe xfa xff x74 x00 x00 x00)
(T (W xe2 x01 xfe xff x9c x01 x00 x00)
(L (W x00 x00 x00 x00 xbc xc1 xfd xff))
(L (W xc6 x01 x00 x00 xff xff xff xff)))
(T (W x4c xc3 xfc xff x00 x01 x01 x01)
(L (W x45 x26 x22 x84 xe4 x9c xf2 xcb)) E))
(T (W x00 x00 x80 x3f x00 x00 x80 x3f)
(T (W xff xff xff xff xff xff xff xff)
(L (W x00 x00 x00 x00 x00 x00 x00 x00)) E)
(T (W x00 x00 x00 x00 x5a x3f xfd xff)
(L (W xff xff xff xff xc4 x00 x00 x00)) E))))
(T (W xff xff xff xff xff xff xff xff)
(T (W x68 x00 x00 x00 x5c x00 x00 x00)
(T (W xff xff xff xff xff xff xff xff)
(T (W xff xff xff xff xff xff xff xff)
(L (W x48 x00 x4c x00 x50 x00 x54 x00))
(L (W x3c x00 x40 x00 x44 x00 x48 x00)))
(T (W xff xff xff xff xff xff xff xff)
(L (W x00 x00 x80 xbf x00 x00 x80 xbf)) E))
(T (W xff xff xff xff x03 x00 x00 x00)
(T (W x00 x00 x00 x00 x00 x00 x00 x00)
(L (W x00 x00 x00 x00 x3a x27 xfe xff)) E)
(T (W x45 x26 x22 x84 xe4 x9c xf2 xcb)
(L (W xff xff xff xff xa0 x00 x00 x00)) E)))
(T (W x00 x00 x80 x3f x00 x00 x80 x3f)
(T (W x4c xe3 xfa xff x00 x01 x01 x01)
(T (W x00 x00 x80 x3f x00 x00 x80 x3f)
(L (W x45 x44 x00 x00 x00 x00 x00 x00))
(L (W x00 x00 x00 x00 x00 x00 x00 x00)))
(T (W x00 x00 x80 x3f x00 x00 x80 x3f)
(L (W x54 x02 x00 x00 x38 x01 x00 x00)) E))
(T (W xa1 x01 x00 x00 xff xff xff xff)
(T (W x00 x00 x00 x00 x00 x00 x00 x00)
(L (W xff xff xff xff xff xff xff xff)) E)
(T (W xff xff xff xff xb0 x00 x00 x00)
(L (W x00 x00 x00 x00 x12 x00 x00 x00)) E)))))
(T (W xff xff xff xff xff xff xff xff)
(T (W x00 x00 x00 x00 x00 x00 x00 x00)
(T (W x00 x00 x00 x00 x00 x00 x00 x00)
(T (W x00 x00 x00 x00 x00 x00 x00 x00)
(T (W x00 x00 x00 x00 x00 x00 x00 x00)
(L (W xff xff xff xff xac x00 x00 x00))
(L (W xff xff xff xff xff xff xff xff)))
(T (W x00 x00 x80 x3f x00 x00 x80 x3f)
(L (W x00 x00 x00 x00 x00 x00 x00 x00)) E))
(T (W xff xff xff xff xff xff xff xff)
(T (W x7c x17 xfc xff x14 x00 x00 x00)
(L (W xff xff xff xff xff xff xff xff)) E)
(T (W x00 x00 x00 x00 x00 x00 x00 x00)
(L (W x00 x00 x80 xbf x00 x00 x80 xbf)) E)))
(T (W x00 x00 x80 x3f x00 x00 x80 x3f)
(T (W x68 x00 x00 x00 x5c x00 x00 x00)
(T (W x49 xa1 x68 x4a xeb x5f xdd x3d)
(L (W xff xff xff xff xff xff xff xff))
(L (W x45 x44 x00 x00 x00 x00 x00 x00)))
(T (W x00 x00 x00 x00 x00 x00 x00 x00)
(L (W xff xff xff xff xff xff xff xff)) E))
(T (W x00 x00 x80 x3f x00 x00 x80 x3f)
(T (W x00 x00 x00 x00 x00 x00 x00 x00)
(L (W x2a x50 xfe xff x78 x00 x00 x00)) E)
(T (W x00 x00 x80 xbf x00 x00 x80 xbf)
(L (W x00 x00 x00 x00 x5a x4f xff xff)) E))))
(T (W x04 x00 x00 x00 x6a xdc xfe xff)
(T (W x45 x26 x22 x84 xe4 x9c xf2 xcb)
(T (W xff xff xff xff xff xff xff xff)
(T (W x00 x00 x80 x3f x00 x00 x80 x3f)
(L (W x45 x26 x22 x84 xe4 x9c xf2 xcb))
(L (W xff xff xff xff xff xff xff xff)))
(T (W xff xff xff xff xff xff xff xff)
(L (W x00 x00 x80 xbf x00 x00 x80 xbf)) E))
(T (W x00 x00 x00 x00 x00 x00 x00 x00)
(T (W x00 x00 x80 x3f x00 x00 x80 x3f)
(L (W x00 x00 x00 x00 x00 x00 x00 x00)) E)
(T (W x45 x26 x22 x84 xe4 x9c xf2 xcb)
(L (W x45 x26 x22 x84 xe4 x9c xf2 xcb)) E)))
(T (W x00 x00 x80 x3f x00 x00 x80 x3f)
(T (W x00 x00 x80 x3f x00 x00 x80 x3f)
(T (W x18 x00 x00 x00 x0c x00 x00 x00)
(L (W x54 x00 x00 x00 x48 x00 x00 x00))
(L (W x6c x00 x00 x00 x60 x00 x00 x00)))
(T (W x00 x00 x00 x00 x00 x00 x00 x00)
(L (W x00 x00 x00 x00 x00 x00 x00 x00)) E))
(T (W x00 x00 x80 x3f x00 x00 x80 x3f)
(T (W x01 x00 x00 x00 x9c x00 x00 x00)
(L (W x00 x00 x00 x00 x00 x00 x00 x00)) E)
(T (W x4c x04 x00 x00 x18 x03 x00 x00)
(L (W x00 x00 x80 xbf x00 x00 x80 xbf)) E)))))))
(T (W x54 x00 x00 x00 x48 x00 x00 x00)
(T (W x00 x00 x00 x00 x00 x00 x00 x00)
(T (W xa4 x1e x00 x00 x90 x1d x00 x00)
(T (W xff xff xff xff xff xff xff xff)
(T (W x00 x00 x80 x3f x00 x00 x80 x3f)
(T (W xff xff xff xff xff xff xff xff)
(T (W x00 x00 x00 x00 x00 x00 x00 x00)
(L (W x00 x00 x00 x00 x00 x00 x00 x00))
(L (W xff xff xff xff xff xff xff xff)))
(T (W x00 x00 x00 x00 x00 x00 x00 x00)
(L (W x7a x7a xfe xff x74 x00 x00 x00)) E))
(T (W xff xff xff xff xff xff xff xff)
(T (W x49 xa1 x68 x4a xeb x5f xdd x3d)
(L (W x45 x44 x00 x00 x00 x00 x00 x00))
(L (W x3c x00 x40 x00 x44 x00 x48 x00)))
(T (W x45 x26 x22 x84 xe4 x9c xf2 xcb)
(L (W x45 x26 x22 x84 xe4 x9c xf2 xcb)) E)))
(T (W x00 x00 x00 x00 x00 x00 x00 x00)
(T (W x00 x00 x00 x00 x00 x00 x00 x00)
(T (W x00 x00 x80 x3f x00 x00 x80 x3f)
(L (W xe2 xfd xff xff xc9 x00 x00 x00))
(L (W x6c x00 x00 x00 x60 x00 x00 x00)))
(T (W x00 x00 x00 x00 x00 x00 x00 x00)
(L (W x45 x44 x00 x00 x00 x00 x00 x00)) E))
(T (W xff xff xff xff x01 x00 x00 x00)
(T (W x00 x00 x00 x00 x00 x00 x00 x00)
(L (W xff xff xff xff xff xff xff xff)) E)
(T (W x00 x00 x80 xbf x00 x00 x80 xbf)
(L (W x45 x26 x22 x84 xe4 x9c xf2 xcb)) E))))
(T (W x00 x00 x80 x3f x00 x00 x80 x3f)
(T (W x20 x01 x00 x00 x04 x00 x00 x00)
(T (W x00 x00 x00 x00 x00 x00 x00 x00)
(T (W x00 x00 x00 x00 x00 x00 x00 x00)
(L (W x4f x84 x6f x8b xe8 xcb x63 xb7))
(L (W x00 x00 x80 xbf x00 x00 x80 xbf)))
(T (W xff xff xff xff xff xff xff xff)
(L (W xff xff xff xff xff xff xff xff)) E))
(T (W x00 x00 x00 x00 x00 x00 x00 x00)
(T (W xff xff xff xff xff xff xff xff)
(L (W x6c x00 x00 x00 x60 x00 x00 x00)) E)
(T (W x04 x00 x00 x00 x32 x7c xfd xff)
(L (W x00 x00 x00 x00 x00 x00 x00 x00)) E)))
(T (W xff xff xff xff xff xff xff xff)
(T (W xe2 xee xfd xff x00 x00 x01 x01)
(T (W x00 x00 x00 x00 x00 x00 x00 x00)
(L (W x54 x00 x00 x00 x48 x00 x00 x00))
(L (W xff xff xff xff xc0 x00 x00 x00)))
(T (W x00 x00 x00 x00 x3a xe3 xfc xff)
(L (W x00 x00 x80 xbf x00 x00 x80 xbf)) E))
(T (W x00 x00 x00 x00 x00 x00 x00 x00)
(T (W x19 x00 x00 x00 x1c x00 x00 x00)
(L (W x00 x00 x00 x00 x00 x00 x00 x00)) E)
(T (W x30 x32 x5f x43 x4c x45 x41 x52)
(L (W xbc x00 x00 x00 x1e x00 x00 x00)) E)))))
(T (W x4c xaf xf9 xff x00 x01 x01 x01)
(T (W xff xff xff xff xff xff xff xff)
(T (W x45 x26 x22 x84 xe4 x9c xf2 xcb)
(T (W x18 x00 x00 x00 x10 x00 x00 x00)
(T (W x00 x00 x80 x3f x00 x00 x80 x3f)
(L (W x5f x4e x53 x5f x30 x32 x5f x43))
(L (W x00 x00 x00 x00 x12 x00 x00 x00)))
(T (W xff xff xff xff xff xff xff xff)
(L (W xff xff xff xff xff xff xff xff)) E))
(T (W x00 x00 x80 x3f x00 x00 x80 x3f)
(T (W x54 x00 x00 x00 x48 x00 x00 x00)
(L (W x4f x84 x6f x8b xe8 xcb x63 xb7)) E)
(T (W x00 x00 x00 x00 x00 x00 x00 x00)
(L (W xff xff xff xff xff xff xff xff)) E)))
(T (W x85 x01 x00 x00 xff xff xff xff)
(T (W x00 x00 x00 x00 x00 x00 x00 x00)
(T (W xff xff xff xff xc4 x00 x00 x00)
(L (W x00 x00 x00 x00 x00 x00 x00 x00))
(L (W x45 x26 x22 x84 xe4 x9c xf2 xcb)))
(T (W x00 x00 x80 x3f x00 x00 x80 x3f)
(L (W x4f x84 x6f x8b xe8 xcb x63 xb7)) E))
(T (W x45 x26 x22 x84 xe4 x9c xf2 xcb)
(T (W x50 x00 x00 x00 x44 x00 x00 x00)
(L (W x00 x00 x00 x00 x00 x00 x00 x00)) E)
(T (W x14 x00 x00 x00 x0c x00 x00 x00)
(L (W x6c x00 x00 x00 x60 x00 x00 x00)) E))))
(T (W x00 x00 x80 x3f x00 x00 x80 x3f)
(T (W x00 x00 x00 x00 x00 x00 x00 x00)
(T (W x00 x00 x00 x00 x00 x00 x00 x00)
(T (W xff xff xff xff xff xff xff xff)
(L (W x00 x00 x00 x00 x00 x00 x00 x00))
(L (W x00 x00 x80 xbf x00 x00 x80 xbf)))
(T (W x00 x00 x80 x3f x00 x00 x80 x3f)
(L (W x00 x00 x00 x00 xaa xb1 xfe xff)) E))
(T (W x4c x2f xfb xff x00 x01 x01 x01)
(T (W x74 x03 x00 x00 x4c x02 x00 x00)
(L (W x03 x00 x00 x00 xd8 x00 x00 x00)) E)
(T (W x00 x00 x00 x00 x00 x00 x00 x00)
(L (W x00 x00 x00 x00 x00 x00 x00 x00)) E)))
(T (W xb8 x00 x00 x00 xac x00 x00 x00)
(T (W xff xff xff xff xff xff xff xff)
(T (W x45 x44 x00 x00 x00 x00 x00 x00)
(L (W xff xff xff xff xff xff xff xff))
(L (W xff xff xff xff xff xff xff xff)))
(T (W x00 x00 x00 x00 x00 x00 x00 x00)
(L (W x15 x00 x00 x00 x18 x00 x00 x00)) E))
(T (W x18 x00 x00 x00 x0c x00 x00 x00)
(T (W x00 x00 x00 x00 x00 x00 x00 x00)
(L (W x2a x6c xfe xff x78 x00 x00 x00)) E)
(T (W x49 xa1 x68 x4a xeb x5f xdd x3d)
(L (W xb8 x00 x00 x00 x14 x00 x00 x00)) E))))))
(T (W xff xff xff xff xff xff xff xff)
(T (W x00 x00 x00 x00 xf2 x3e xfd xff)
(T (W x00 x00 x80 x3f x00 x00 x80 x3f)
(T (W x00 x00 x80 x3f x00 x00 x80 x3f)
(T (W xff xff xff xff xff xff xff xff)
(T (W x4f x84 x6f x8b xe8 xcb x63 xb7)
(L (W x00 x00 x00 x00 x00 x00 x00 x00))
(L (W xbb xf4 xaf x28 xbf x59 x5d x6a)))
(T (W x14 x00 x00 x00 x10 x00 x00 x00)
(L (W x03 x00 x00 x00 xd0 x00 x00 x00)) E))
(T (W x00 x00 x00 x00 x12 x00 x00 x00)
(T (W x00 x00 x80 x3f x00 x00 x80 x3f)
(L (W x00 x00 x00 x00 x00 x00 x00 x00)) E)
(T (W xff xff xff xff x9c x00 x00 x00)
(L (W xff xff xff xff xff xff xff xff)) E)))
(T (W x07 x8d xf8 x22 xe2 x77 x30 x98)
(T (W x00 x00 x00 x00 x00 x00 x00 x00)
(T (W x1c x00 x00 x00 xb0 x00 x00 x00)
(L (W x49 xa1 x68 x4a xeb x5f xdd x3d))
(L (W x2a xc4 xff xff x78 x00 x00 x00)))
(T (W x01 x00 x00 x00 x04 x00 x00 x00)
(L (W x00 x00 x00 x00 x00 x00 x00 x00)) E))
(T (W x4f x84 x6f x8b xe8 xcb x63 xb7)
(T (W x00 x00 x80 x3f x00 x00 x80 x3f)
(L (W xff xff xff xff xff xff xff xff)) E)
(T (W x4c x47 xfd xff x00 x01 x01 x01)
(L (W x00 x00 x80 xbf x00 x00 x80 xbf)) E))))
(T (W x00 x00 x80 x3f x00 x00 x80 x3f)
(T (W x00 x00 x00 x00 x00 x00 x00 x00)
(T (W x00 x00 x00 x00 x00 x00 x00 x00)
(T (W x00 x00 x80 x3f x00 x00 x80 x3f)
(L (W x00 x00 x00 x00 xbc xa5 xfd xff))
(L (W x00 x00 x00 x00 x00 x00 x00 x00)))
(T (W x00 x00 x00 x00 x00 x00 x00 x00)
(L (W x00 x00 x01 x01 x5c x00 x00 x00)) E))
(T (W x00 x00 x80 x3f x00 x00 x80 x3f)
(T (W xff xff xff xff xff xff xff xff)
(L (W x00 x00 x80 xbf x00 x00 x80 xbf)) E)
(T (W xff xff xff xff xff xff xff xff)
(L (W x45 x44 x00 x00 x00 x00 x00 x00)) E)))
(T (W xff xff xff xff xff xff xff xff)
(T (W xff xff xff xff xff xff xff xff)
(T (W x00 x00 x00 x00 x04 x00 x00 x00)
(L (W x6c x00 x00 x00 x60 x00 x00 x00))
(L (W xff xff xff xff xff xff xff xff)))
(T (W x01 x00 x00 x00 x19 x00 x00 x00)
(L (W x2a xe4 xfe xff x78 x00 x00 x00)) E))
(T (W x7a x62 xfb xff x74 x00 x00 x00)
(T (W x00 x00 x01 x01 xc1 x02 x00 x00)
(L (W x00 x00 x80 xbf x00 x00 x80 xbf)) E)
(T (W x00 x00 x00 x00 x00 x00 x00 x00)
(L (W xff xff xff xff xff xff xff xff)) E)))))
(T (W x00 x00 x00 x00 x00 x00 x00 x00)
(T (W x00 x00 x80 x3f x00 x00 x80 x3f)
(T (W x45 x26 x22 x84 xe4 x9c xf2 xcb)
(T (W xb8 x00 x00 x00 xac x00 x00 x00)
(T (W xff xff xff xff xff xff xff xff)
(L (W x00 x00 x00 x00 x00 x00 x00 x00))
(L (W x00 x00 x00 x00 x00 x00 x00 x00)))
(T (W xff xff xff xff xff xff xff xff)
(L (W xff xff xff xff xff xff xff xff)) E))
(T (W x00 x00 x01 x01 x9d x01 x00 x00)
(T (W x45 x26 x22 x84 xe4 x9c xf2 xcb)
(L (W x00 x00 x80 xbf x00 x00 x80 xbf)) E)
(T (W xff xff xff xff xff xff xff xff)
(L (W x45 x44 x00 x00 x00 x00 x00 x00)) E)))
(T (W xe2 x66 xfd xff x00 x00 x01 x01)
(T (W x40 x00 x00 x00 x10 x00 x00 x00)
(T (W x01 x00 x00 x00 x29 x00 x00 x00)
(L (W x00 x00 x80 xbf x00 x00 x80 xbf))
(L (W xff xff xff xff xb0 x00 x00 x00)))
(T (W xff xff xff xff xff xff xff xff)
(L (W x00 x00 x80 xbf x00 x00 x80 xbf)) E))
(T (W x34 x01 x00 x00 x04 x00 x00 x00)
(T (W x45 x26 x22 x84 xe4 x9c xf2 xcb)
(L (W x00 x00 x00 x00 x00 x00 x00 x00)) E)
(T (W xff xff xff xff xff xff xff xff)
(L (W x45 x26 x22 x84 xe4 x9c xf2 xcb)) E))))
(T (W x45 x26 x22 x84 xe4 x9c xf2 xcb)
(T (W x32 x1f xb4 x81 x78 xae xb4 x44)
(T (W x00 x00 x00 x00 x00 x00 x00 x00)
(T (W x00 x00 x00 x00 x00 x00 x00 x00)
(L (W x68 x00 x00 x00 x5c x00 x00 x00))
(L (W x00 x00 x80 xbf x00 x00 x80 xbf)))
(T (W x00 x00 x00 x00 x00 x00 x00 x00)
(L (W x00 x00 x00 x00 x3a xbb xfe xff)) E))
(T (W xff xff xff xff xc4 x00 x00 x00)
(T (W x00 x00 x00 x00 x00 x00 x00 x00)
(L (W x21 x00 x00 x00 x24 x00 x00 x00)) E)
(T (W x00 x00 x00 x00 x00 x00 x00 x00)
(L (W x00 x00 x00 x00 x00 x00 x00 x00)) E)))
(T (W xff xff xff xff xff xff xff xff)
(T (W x00 x00 x00 x00 x00 x00 x00 x00)
(T (W x00 x00 x00 x00 x00 x00 x00 x00)
(L (W x00 x00 x01 x01 x2f x00 x00 x00))
(L (W x00 x00 x00 x00 x3a xfb xff xff)))
(T (W x18 x00 x00 x00 x10 x00 x00 x00)
(L (W x18 x00 x00 x00 x10 x00 x00 x00)) E))
(T (W xff xff xff xff xff xff xff xff)
(T (W x6f x6b x65 x5f x77 x61 x72 x6c)
(L (W xff xff xff xff xb0 x00 x00 x00)) E)
(T (W x00 x00 x00 x00 x00 x00 x00 x00)
(L (W xff xff xff xff xff xff xff xff)) E))))))))
(T (W x00 x00 x01 x01 xc9 x00 x00 x00)
(T (W x00 x00 x80 x3f x00 x00 x80 x3f)
(T (W x00 x00 x00 x00 x6a x26 xfd xff)
(T (W x00 x00 x80 x3f x00 x00 x80 x3f)
(T (W x00 x00 x00 x00 xbc xbb xf9 xff)
(T (W x00 x00 x00 x00 x00 x00 x00 x00)
(T (W x00 x00 x80 x3f x00 x00 x80 x3f)
(T (W xff xff xff xff xff xff xff xff)
(L (W xff xff xff xff xff xff xff xff))
(L (W xb4 x00 x00 x00 x32 x00 x00 x00)))
(T (W xff xff xff xff xff xff xff xff)
(L (W x00 x00 x80 xbf x00 x00 x80 xbf)) E))
(T (W x00 x00 x80 x3f x00 x00 x80 x3f)
(T (W x46 x53 x59 x53 x5f x4e x53 x5f)
(L (W xff xff xff xff xff xff xff xff))
(L (W x4f x84 x6f x8b xe8 xcb x63 xb7)))
(T (W x00 x00 x00 x00 x00 x00 x00 x00)
(L (W x00 x00 x80 xbf x00 x00 x80 xbf)) E)))
(T (W xff xff xff xff xff xff xff xff)
(T (W xff xff xff xff xff xff xff xff)
(T (W xe2 x0d xd7 xa2 x44 x69 xd7 x25)
(L (W xff xff xff xff xff xff xff xff))
(L (W x00 x00 x00 x00 x00 x00 x00 x00)))
(T (W xff xff xff xff xff xff xff xff)
(L (W xff xff xff xff xff xff xff xff)) E))
(T (W x45 x26 x22 x84 xe4 x9c xf2 xcb)
(T (W x00 x00 x00 x00 x00 x00 x00 x00)
(L (W x45 x26 x22 x84 xe4 x9c xf2 xcb)) E)
(T (W x00 x00 x00 x00 x00 x00 x00 x00)
(L (W x54 x02 x00 x00 x38 x01 x00 x00)) E))))
(T (W x3e x00 x00 x00 x10 x00 x00 x00)
(T (W x00 x00 x80 x3f x00 x00 x80 x3f)
(T (W x62 xab xfd xff x9c x00 x00 x00)
(T (W xff xff xff xff xff xff xff xff)
(L (W x00 x00 x00 x00 x00 x00 x00 x00))
(L (W x30 x32 x5f x43 x4c x45 x41 x52)))
(T (W x00 x00 x80 x3f x00 x00 x80 x3f)
(L (W x45 x26 x22 x84 xe4 x9c xf2 xcb)) E))
(T (W xff xff xff xff xff xff xff xff)
(T (W x00 x00 x80 x3f x00 x00 x80 x3f)
(L (W x46 x53 x59 x53 x5f x4e x53 x5f)) E)
(T (W x68 x00 x00 x00 x5c x00 x00 x00)
(L (W xff xff xff xff xff xff xff xff)) E)))
(T (W x68 x00 x00 x00 x5c x00 x00 x00)
(T (W x18 x00 x00 x00 x10 x00 x00 x00)
(T (W x45 x26 x22 x84 xe4 x9c xf2 xcb)
(L (W x00 x00 x00 x00 x00 x00 x00 x00))
(L (W x6c x00 x00 x00 x60 x00 x00 x00)))
(T (W xff xff xff xff xff xff xff xff)
(L (W x00 x00 x00 x00 x00 x00 x00 x00)) E))
(T (W xff xff xff xff xff xff xff xff)
(T (W x00 x00 x00 x00 x00 x00 x00 x00)
(L (W xff xff xff xff xff xff xff xff)) E)
(T (W xff xff xff xff xbc x00 x00 x00)
(L (W x45 x26 x22 x84 xe4 x9c xf2 xcb)) E)))))
(T (W x00 x00 x80 x3f x00 x00 x80 x3f)
(T (W xff xff xff xff xff xff xff xff)
(T (W x55 xb6 x62 x14 x77 xc7 x0a x98)
(T (W x00 x00 x80 x3f x00 x00 x80 x3f)
(T (W x00 x00 x00 x00 x00 x00 x00 x00)
(L (W xff xff xff xff xff xff xff xff))
(L (W xff xff xff xff xff xff xff xff)))
(T (W x64 x00 x00 x00 x9c x00 x00 x00)
(L (W x00 x00 x80 xbf x00 x00 x80 xbf)) E))
(T (W x00 x00 x00 x00 x04 x00 x00 x00)
(T (W x49 xa1 x68 x4a xeb x5f xdd x3d)
(L (W x00 x00 x00 x00 x00 x00 x00 x00)) E)
(T (W xff xff xff xff xff xff xff xff)
(L (W x45 x26 x22 x84 xe4 x9c xf2 xcb)) E)))
(T (W xb8 x00 x00 x00 xac x00 x00 x00)
(T (W xff xff xff xff xff xff xff xff)
(T (W x00 x00 x00 x00 x00 x00 x00 x00)
(L (W x00 x00 x01 x01 x2f x00 x00 x00))
(L (W x00 x00 x80 xbf x00 x00 x80 xbf)))
(T (W x50 x00 x00 x00 x44 x00 x00 x00)
(L (W x45 x44 x00 x00 x00 x00 x00 x00)) E))
(T (W x45 x26 x22 x84 xe4 x9c xf2 xcb)
(T (W x00 x00 x00 x00 x00 x00 x00 x00)
(L (W xff xff xff xff xff xff xff xff)) E)
(T (W x45 x26 x22 x84 xe4 x9c xf2 xcb)
(L (W x00 x00 x00 x00 x00 x00 x00 x00)) E))))
(T (W x00 x00 x00 x00 x00 x00 x00 x00)
(T (W xff xff xff xff xff xff xff xff)
(T (W x00 x00 x00 x00 x00 x00 x00 x00)
(T (W x00 x00 x80 x3f x00 x00 x80 x3f)
(L (W xff xff xff xff xff xff xff xff))
(L (W x00 x00 x00 x00 x00 x00 x00 x00)))
(T (W x00 x00 x00 x00 x00 x00 x00 x00)
(L (W x00 x00 x00 x00 xbc xab xfe xff)) E))
(T (W x00 x00 x00 x00 x00 x00 x00 x00)
(T (W x2a x2a xfc xff x78 x00 x00 x00)
(L (W x49 xa1 x68 x4a xeb x5f xdd x3d)) E)
(T (W xff xff xff xff xff xff xff xff)
(L (W xff xff xff xff xff xff xff xff)) E)))
(T (W x45 x26 x22 x84 xe4 x9c xf2 xcb)
(T (W xc0 x00 x00 x00 xb4 x00 x00 x00)
(T (W xff xff xff xff xff xff xff xff)
(L (W x18 x00 x00 x00 x10 x00 x00 x00))
(L (W x68 x00 x00 x00 x5c x00 x00 x00)))
(T (W xff xff xff xff xff xff xff xff)
(L (W x00 x00 x80 xbf x00 x00 x80 xbf)) E))
(T (W x00 x00 x80 x3f x00 x00 x80 x3f)
(T (W xff xff xff xff xff xff xff xff)
(L (W x00 x00 x00 x00 x00 x00 x00 x00)) E)
(T (W x30 x32 x5f x43 x4c x45 x41 x52)
(L (W x00 x00 x80 xbf x00 x00 x80 xbf)) E))))))
(T (W xbc x00 x00 x00 xb0 x00 x00 x00)
(T (W xff xff xff xff xff xff xff xff)
(T (W x00 x00 x00 x00 x00 x00 x00 x00)
(T (W x00 x00 x00 x00 x00 x00 x00 x00)
(T (W x54 x00 x00 x00 x48 x00 x00 x00)
(T (W x30 x32 x5f x43 x4c x45 x41 x52)
(L (W xff xff xff xff xff xff xff xff))
(L (W xcc x00 x00 x00 x02 x00 x00 x00)))
(T (W xff xff xff xff xff xff xff xff)
(L (W x00 x00 x80 xbf x00 x00 x80 xbf)) E))
(T (W x18 x00 x00 x00 x10 x00 x00 x00)
(T (W x00 x00 x00 x00 x00 x00 x00 x00)
(L (W xff xff xff xff xff xff xff xff))
(L (W x45 x26 x22 x84 xe4 x9c xf2 xcb)))
(T (W x6c x64 x5f x70 x6f x6b x65 x5f)
(L (W x6c x00 x00 x00 x60 x00 x00 x00)) E)))
(T (W xff xff xff xff xff xff xff xff)
(T (W xff xff xff xff xff xff xff xff)
(T (W x4f x84 x6f x8b xe8 xcb x63 xb7)
(L (W x45 x44 x00 x00 x00 x00 x00 x00))
(L (W x00 x00 x00 x00 x00 x00 x00 x00)))
(T (W xff xff xff xff xff xff xff xff)
(L (W x00 x00 x01 x01 x2a x00 x00 x00)) E))
(T (W xa1 x01 x00 x00 xff xff xff xff)
(T (W x00 x00 x00 x00 x12 x00 x00 x00)
(L (W x19 x00 x00 x00 x1c x00 x00 x00)) E)
(T (W x00 x00 x80 xbf x00 x00 x80 xbf)
(L (W x00 x00 x00 x00 x00 x00 x00 x00)) E))))
(T (W x7c xe9 xf9 xff x3e x00 x00 x00)
(T (W xff xff xff xff xff xff xff xff)
(T (W x00 x00 x00 x00 x00 x00 x00 x00)
(T (W x00 x00 x00 x00 x00 x00 x00 x00)
(L (W x00 x00 x80 xbf x00 x00 x80 xbf))
(L (W xff xff xff xff xb4 x00 x00 x00)))
(T (W xba xc2 x33 x97 x85 xad x5f x5f)
(L (W x03 x00 x00 x00 xd8 x00 x00 x00)) E))
(T (W x5f x77 x69 x6c x64 x5f x70 x6f)
(T (W x45 x26 x22 x84 xe4 x9c xf2 xcb)
(L (W x45 x26 x22 x84 xe4 x9c xf2 xcb)) E)
(T (W x45 x26 x22 x84 xe4 x9c xf2 xcb)
(L (W xff xff xff xff xff xff xff xff)) E)))
(T (W x4c x65 xfa xff x00 x01 x01 x01)
(T (W xb8 x00 x00 x00 xac x00 x00 x00)
(T (W x01 x00 x00 x00 x29 x00 x00 x00)
(L (W x49 xa1 x68 x4a xeb x5f xdd x3d))
(L (W x4c xe5 xff xff x00 x01 x01 x01)))
(T (W x00 x00 x00 x00 x00 x00 x00 x00)
(L (W x45 x26 x22 x84 xe4 x9c xf2 xcb)) E))
(T (W x00 x00 x00 x00 x00 x00 x00 x00)
(T (W x00 x00 x80 x3f x00 x00 x80 x3f)
(L (W x00 x00 x00 x00 x00 x00 x00 x00)) E)
(T (W xff xff xff xff xff xff xff xff)
(L (W x00 x00 x80 xbf x00 x00 x80 xbf)) E)))))
(T (W x00 x00 x00 x00 x6a x4e xfd xff)
(T (W x00 x00 x80 x3f x00 x00 x80 x3f)
(T (W x00 x00 x80 x3f x00 x00 x80 x3f)
(T (W x00 x00 x80 x3f x00 x00 x80 x3f)
(T (W x45 x26 x22 x84 xe4 x9c xf2 xcb)
(L (W x0d x00 x00 x00 xff xff xff xff))
(L (W x00 x00 x01 x01 x6f x00 x00 x00)))
(T (W x18 x00 x00 x00 x0c x00 x00 x00)
(L (W x4c x95 xfe xff x00 x01 x01 x01)) E))
(T (W x49 xa1 x68 x4a xeb x5f xdd x3d)
(T (W x00 x00 x80 x3f x00 x00 x80 x3f)
(L (W xfe x27 x3c xdc x00 x65 x4b x2f)) E)
(T (W x50 x00 x00 x00 x44 x00 x00 x00)
(L (W xff xff xff xff xff xff xff xff)) E)))
(T (W x45 x26 x22 x84 xe4 x9c xf2 xcb)
(T (W xff xff xff xff x04 x00 x00 x00)
(T (W x54 x00 x00 x00 x48 x00 x00 x00)
(L (W x00 x00 x00 x00 x00 x00 x00 x00))
(L (W x00 x00 x80 xbf x00 x00 x80 xbf)))
(T (W x54 x00 x00 x00 x48 x00 x00 x00)
(L (W x00 x00 x00 x00 x12 x00 x00 x00)) E))
(T (W x6c x00 x00 x00 x60 x00 x00 x00)
(T (W x00 x00 x00 x00 x00 x00 x00 x00)
(L (W xff xff xff xff xff xff xff xff)) E)
(T (W x35 x00 x00 x00 x38 x00 x00 x00)
(L (W x00 x00 x80 xbf x00 x00 x80 xbf)) E))))
(T (W x00 x00 x00 x00 x00 x00 x00 x00)
(T (W xb8 x00 x00 x00 xac x00 x00 x00)
(T (W x48 x03 x00 x00 x34 x02 x00 x00)
(T (W xff xff xff xff xc8 x00 x00 x00)
(L (W x00 x00 x80 xbf x00 x00 x80 xbf))
(L (W x00 x00 x00 x00 x12 x00 x00 x00)))
(T (W x00 x00 x00 x00 x02 x00 x00 x00)
(L (W xff xff xff xff xff xff xff xff)) E))
(T (W x00 x00 x80 x3f x00 x00 x80 x3f)
(T (W xff xff xff xff xff xff xff xff)
(L (W x00 x00 x80 xbf x00 x00 x80 xbf)) E)
(T (W xff xff xff xff xff xff xff xff)
(L (W xff xff xff xff xff xff xff xff)) E)))
(T (W x18 x00 x00 x00 x0c x00 x00 x00)
(T (W x00 x00 x00 x00 x04 x00 x00 x00)
(T (W xff xff xff xff xff xff xff xff)
(L (W x03 x00 x00 x00 xd8 x00 x00 x00))
(L (W xff xff xff xff xff xff xff xff)))
(T (W x00 x00 x00 x00 x00 x00 x00 x00)
(L (W x00 x00 x80 xbf x00 x00 x80 xbf)) E))
(T (W xb8 x00 x00 x00 x19 x00 x00 x00)
(T (W xff xff xff xff xff xff xff xff)
(L (W x00 x00 x00 x00 x00 x00 x00 x00)) E)
(T (W x62 x00 x00 x00 x00 x01 x01 x01)
(L (W x4c x75 xff xff x00 x01 x01 x01)) E)))))))
(T (W x64 x00 x00 x00 xa0 x00 x00 x00)
(T (W x00 x00 x80 x3f x00 x00 x80 x3f)
(T (W x2a x9e xf9 xff x78 x00 x00 x00)
(T (W xff xff xff xff xff xff xff xff)
(T (W x0a x00 x00 x00 x3e x00 x00 x00)
(T (W xff xff xff xff xff xff xff xff)
(T (W x50 x00 x00 x00 x44 x00 x00 x00)
(L (W x54 x00 x00 x00 x48 x00 x00 x00))
(L (W x4f x84 x6f x8b xe8 xcb x63 xb7)))
(T (W x00 x00 x80 x3f x00 x00 x80 x3f)
(L (W x5d x00 x00 x00 xff xff xff xff)) E))
(T (W x00 x00 x00 x00 x00 x00 x00 x00)
(T (W x1e x00 x00 x00 xb0 x00 x00 x00)
(L (W x4f x84 x6f x8b xe8 xcb x63 xb7))
(L (W xff xff xff xff xff xff xff xff)))
(T (W x00 x00 x00 x00 x26 x00 x00 x00)
(L (W x04 x00 x00 x00 x3a x05 xff xff)) E)))
(T (W x00 x00 x00 x00 x00 x00 x00 x00)
(T (W x00 x00 x80 x3f x00 x00 x80 x3f)
(T (W xff xff xff xff x9c x00 x00 x00)
(L (W x00 x00 x00 x00 x00 x00 x00 x00))
(L (W xff xff xff xff xc0 x00 x00 x00)))
(T (W x00 x00 x80 x3f x00 x00 x80 x3f)
(L (W x00 x00 x80 xbf x00 x00 x80 xbf)) E))
(T (W x00 x00 x00 x00 x00 x00 x00 x00)
(T (W x45 x26 x22 x84 xe4 x9c xf2 xcb)
(L (W x00 x00 x00 x00 x00 x00 x00 x00)) E)
(T (W xff xff xff xff x9c x00 x00 x00)
(L (W x54 x00 x00 x00 x48 x00 x00 x00)) E))))
(T (W x01 x00 x00 x00 x3e x00 x00 x00)
(T (W x00 x00 x00 x00 x00 x00 x00 x00)
(T (W x4c xa1 xfa xff x00 x01 x01 x01)
(T (W x00 x00 x80 x3f x00 x00 x80 x3f)
(L (W x7a x9c xfd xff x74 x00 x00 x00))
(L (W xff xff xff xff xb0 x00 x00 x00)))
(T (W x00 x00 x80 x3f x00 x00 x80 x3f)
(L (W x00 x00 x00 x00 x12 x00 x00 x00)) E))
(T (W x00 x00 x80 x3f x00 x00 x80 x3f)
(T (W x00 x00 x00 x00 x00 x00 x00 x00)
(L (W xff xff xff xff xff xff xff xff)) E)
(T (W x00 x00 x00 x00 x00 x00 x00 x00)
(L (W x00 x00 x00 x00 x00 x00 x00 x00)) E)))
(T (W x00 x00 x00 x00 x00 x00 x00 x00)
(T (W x45 x26 x22 x84 xe4 x9c xf2 xcb)
(T (W x00 x00 x00 x00 x00 x00 x00 x00)
(L (W xa8 x00 x00 x00 x64 x00 x00 x00))
(L (W xc2 x01 x00 x00 xff xff xff xff)))
(T (W x45 x26 x22 x84 xe4 x9c xf2 xcb)
(L (W x18 x00 x00 x00 x0c x00 x00 x00)) E))
(T (W x4c x61 xfb xff x00 x01 x01 x01)
(T (W xff xff xff xff xff xff xff xff)
(L (W x00 x00 x00 x00 xbc x5f xfe xff)) E)
(T (W x49 xa1 x68 x4a xeb x5f xdd x3d)
(L (W xff xff xff xff xff xff xff xff)) E)))))
(T (W xff xff xff xff x03 x00 x00 x00)
(T (W x00 x00 x00 x00 x00 x00 x00 x00)
(T (W x7a x0c xfa xff x74 x00 x00 x00)
(T (W xff xff xff xff xff xff xff xff)
(T (W xff xff xff xff xff xff xff xff)
(L (W x00 x00 x80 xbf x00 x00 x80 xbf))
(L (W x2a x8e xff xff x78 x00 x00 x00)))
(T (W x00 x00 x00 x00 x00 x00 x00 x00)
(L (W x00 x00 x00 x00 x00 x00 x00 x00)) E))
(T (W x50 x00 x00 x00 x44 x00 x00 x00)
(T (W xff xff xff xff xff xff xff xff)
(L (W x6c x00 x00 x00 x60 x00 x00 x00)) E)
(T (W xff xff xff xff xff xff xff xff)
(L (W x00 x00 x00 x00 x00 x00 x00 x00)) E)))
(T (W x45 x26 x22 x84 xe4 x9c xf2 xcb)
(T (W x00 x00 x80 x3f x00 x00 x80 x3f)
(T (W xff xff xff xff xff xff xff xff)
(L (W x50 x00 x00 x00 x44 x00 x00 x00))
(L (W xff xff xff xff xff xff xff xff)))
(T (W xff xff xff xff xff xff xff xff)
(L (W x00 x00 x80 xbf x00 x00 x80 xbf)) E))
(T (W x00 x00 x00 x00 x00 x00 x00 x00)
(T (W xff xff xff xff x9c x00 x00 x00)
(L (W x45 x26 x22 x84 xe4 x9c xf2 xcb)) E)
(T (W xff xff xff xff xff xff xff xff)
(L (W xff xff xff xff xff xff xff xff)) E))))
(T (W xff xff xff xff x04 x00 x00 x00)
(T (W x45 x26 x22 x84 xe4 x9c xf2 xcb)
(T (W x00 x00 x80 x3f x00 x00 x80 x3f)
(T (W x00 x00 x00 x00 x22 x00 x00 x00)
(L (W x00 x00 x00 x00 x00 x00 x00 x00))
(L (W x68 x00 x00 x00 x5c x00 x00 x00)))
(T (W x4c xb1 xfc xff x00 x01 x01 x01)
(L (W x00 x00 x00 x00 x00 x00 x00 x00)) E))
(T (W xff xff xff xff xff xff xff xff)
(T (W x45 x26 x22 x84 xe4 x9c xf2 xcb)
(L (W x00 x00 x01 x01 x5c x00 x00 x00)) E)
(T (W x45 x26 x22 x84 xe4 x9c xf2 xcb)
(L (W x00 x00 x80 xbf x00 x00 x80 xbf)) E)))
(T (W xa2 x5b x29 xfe xb2 x0f xf2 x48)
(T (W x00 x00 x00 x00 x00 x00 x00 x00)
(T (W x00 x00 x80 x3f x00 x00 x80 x3f)
(L (W x30 x32 x5f x43 x4c x45 x41 x52))
(L (W x45 x44 x00 x00 x00 x00 x00 x00)))
(T (W x68 x00 x00 x00 x5c x00 x00 x00)
(L (W xff xff xff xff xff xff xff xff)) E))
(T (W x65 xc5 xa4 xc6 x45 x4b x02 xba)
(T (W x00 x00 x80 x3f x00 x00 x80 x3f)
(L (W xff xff xff xff xff xff xff xff)) E)
(T (W x45 x26 x22 x84 xe4 x9c xf2 xcb)
(L (W x00 x00 x00 x00 x12 x00 x00 x00)) E))))))
(T (W x00 x00 x00 x00 x00 x00 x00 x00)
(T (W x00 x00 x00 x00 x00 x00 x00 x00)
(T (W x00 x00 x80 x3f x00 x00 x80 x3f)
(T (W xc0 x00 x00 x00 xb4 x00 x00 x00)
(T (W xff xff xff xff xff xff xff xff)
(T (W xff xff xff xff xff xff xff xff)
(L (W x49 xa1 x68 x4a xeb x5f xdd x3d))
(L (W x00 x00 x80 xbf x00 x00 x80 xbf)))
(T (W x00 x00 x00 x00 x00 x00 x00 x00)
(L (W xff xff xff xff xff xff xff xff)) E))
(T (W x50 x00 x00 x00 x44 x00 x00 x00)
(T (W x18 x00 x00 x00 x10 x00 x00 x00)
(L (W x00 x00 x80 xbf x00 x00 x80 xbf)) E)
(T (W xd3 x5a x6c x12 x83 xef x3a xc6)
(L (W x00 x00 x00 x00 x5a x05 xff xff)) E)))
(T (W x45 x26 x22 x84 xe4 x9c xf2 xcb)
(T (W x00 x00 x80 x3f x00 x00 x80 x3f)
(T (W xff xff xff xff xff xff xff xff)
(L (W x2a xc6 xfd xff x78 x00 x00 x00))
(L (W xff xff xff xff xff xff xff xff)))
(T (W xff xff xff xff xff xff xff xff)
(L (W x00 x00 x80 xbf x00 x00 x80 xbf)) E))
(T (W x4c x49 xfb xff x00 x01 x01 x01)
(T (W x01 x00 x00 x00 x19 x00 x00 x00)
(L (W x46 x53 x59 x53 x5f x4e x53 x5f)) E)
(T (W xff xff xff xff xff xff xff xff)
(L (W xff xff xff xff xb0 x00 x00 x00)) E))))
(T (W x18 x00 x00 x00 x10 x00 x00 x00)
(T (W x00 x00 x80 x3f x00 x00 x80 x3f)
(T (W x00 x00 x80 x3f x00 x00 x80 x3f)
(T (W xff xff xff xff xff xff xff xff)
(L (W xb0 x00 x00 x00 x64 x00 x00 x00))
(L (W x00 x00 x80 xbf x00 x00 x80 xbf)))
(T (W x00 x00 x80 x3f x00 x00 x80 x3f)
(L (W x00 x00 x00 x00 x00 x00 x00 x00)) E))
(T (W x50 x00 x00 x00 x44 x00 x00 x00)
(T (W x00 x00 x00 x00 x00 x00 x00 x00)
(L (W xff xff xff xff xff xff xff xff)) E)
(T (W x00 x00 x00 x00 x00 x00 x00 x00)
(L (W x4f x84 x6f x8b xe8 xcb x63 xb7)) E)))
(T (W x00 x00 x00 x00 x00 x00 x00 x00)
(T (W x00 x00 x00 x00 x00 x00 x00 x00)
(T (W x00 x00 x80 x3f x00 x00 x80 x3f)
(L (W x08 x00 x00 x00 x20 x08 x00 x00))
(L (W x00 x00 x00 x00 x3a xed xff xff)))
(T (W x00 x00 x00 x00 x00 x00 x00 x00)
(L (W xff xff xff xff xff xff xff xff)) E))
(T (W xff xff xff xff xbc x00 x00 x00)
(T (W x00 x00 x80 x3f x00 x00 x80 x3f)
(L (W x18 x00 x00 x00 x0c x00 x00 x00)) E)
(T (W x00 x00 x80 xbf x00 x00 x80 xbf)
(L (W x00 x00 x00 x00 x1a x67 xff xff)) E)))))
(T (W x45 x26 x22 x84 xe4 x9c xf2 xcb)
(T (W x45 x26 x22 x84 xe4 x9c xf2 xcb)
(T (W xff xff xff xff xff xff xff xff)
(T (W x00 x00 x00 x00 x00 x00 x00 x00)
(T (W x70 x5f x6c x65 x61 x64 x65 x72)
(L (W x00 x00 x80 xbf x00 x00 x80 xbf))
(L (W xff xff xff xff xa0 x00 x00 x00)))
(T (W x18 x00 x00 x00 x10 x00 x00 x00)
(L (W x14 x00 x00 x00 x0c x00 x00 x00)) E))
(T (W x00 x00 x00 x00 x00 x00 x00 x00)
(T (W xff xff xff xff xff xff xff xff)
(L (W xff xff xff xff xa0 x00 x00 x00)) E)
(T (W x68 x00 x00 x00 x5c x00 x00 x00)
(L (W x49 xa1 x68 x4a xeb x5f xdd x3d)) E)))
(T (W x00 x00 x00 x00 x00 x00 x00 x00)
(T (W x00 x00 x00 x00 x00 x00 x00 x00)
(T (W x6b x65 x5f x6c x76 x31 x00 x00)
(L (W x18 x00 x00 x00 x0c x00 x00 x00))
(L (W xff xff xff xff xff xff xff xff)))
(T (W x00 x00 x00 x00 x00 x00 x00 x00)
(L (W x45 x26 x22 x84 xe4 x9c xf2 xcb)) E))
(T (W x45 x26 x22 x84 xe4 x9c xf2 xcb)
(T (W xff xff xff xff xff xff xff xff)
(L (W x00 x00 x80 xbf x00 x00 x80 xbf)) E)
(T (W x00 x00 x00 x00 x00 x00 x00 x00)
(L (W xff xff xff xff xff xff xff xff)) E))))
(T (W x01 x00 x00 x00 x9c x00 x00 x00)
(T (W x00 x00 x00 x00 x00 x00 x00 x00)
(T (W x45 x26 x22 x84 xe4 x9c xf2 xcb)
(T (W x00 x00 x80 x3f x00 x00 x80 x3f)
(L (W x18 x00 x00 x00 x10 x00 x00 x00))
(L (W xff xff xff xff xb0 x00 x00 x00)))
(T (W x00 x00 x80 x3f x00 x00 x80 x3f)
(L (W x45 x26 x22 x84 xe4 x9c xf2 xcb)) E))
(T (W x45 x44 x00 x00 x00 x00 x00 x00)
(T (W x00 x00 x80 x3f x00 x00 x80 x3f)
(L (W x00 x00 x00 x00 x00 x00 x00 x00)) E)
(T (W x6c x00 x00 x00 x60 x00 x00 x00)
(L (W x00 x00 x80 xbf x00 x00 x80 xbf)) E)))
(T (W xdd x00 x00 x00 xff xff xff xff)
(T (W x00 x00 x80 x3f x00 x00 x80 x3f)
(T (W x00 x00 x00 x00 xbc xf7 xfb xff)
(L (W x00 x00 x00 x00 x00 x00 x00 x00))
(L (W x45 x26 x22 x84 xe4 x9c xf2 xcb)))
(T (W xff xff xff xff xff xff xff xff)
(L (W x00 x00 x00 x00 x00 x00 x00 x00)) E))
(T (W x00 x00 x80 x3f x00 x00 x80 x3f)
(T (W x00 x00 x80 x3f x00 x00 x80 x3f)
(L (W xff xff xff xff xff xff xff xff)) E)
(T (W x00 x00 x80 xbf x00 x00 x80 xbf)
(L (W x00 x00 x00 x00 x00 x00 x00 x00)) E))))))))))))
(T (W x70 xff x05 x00 x24 xf6 x05 x00)
(T (W xf0 x68 x05 x00 xf4 x61 x05 x00)
(T (W xd0 x77 x04 x00 x84 x6e x04 x00)
(T (W x78 x50 x03 x00 x9c x4e x03 x00)
(T (W xb0 x73 x01 x00 x7c x72 x01 x00)
(T (W x18 x00 x00 x00 x0c x00 x00 x00)
(T (W x00 x00 x80 x3f x00 x00 x80 x3f)
(T (W xbc x00 x00 x00 xb0 x00 x00 x00)
(T (W xff xff xff xff x0f x00 x00 x00)
(T (W x00 x00 x80 x3f x00 x00 x80 x3f)
(T (W x45 x26 x22 x84 xe4 x9c xf2 xcb)
(T (W x00 x00 x00 x00 x00 x00 x00 x00)
(L (W x46 x53 x59 x53 x5f x4e x53 x5f))
(L (W xff xff xff xff xff xff xff xff)))
(T (W x00 x00 x00 x00 x00 x00 x00 x00)
(L (W x8a x76 xfe xff x78 x00 x00 x00)) E))
(T (W x23 x00 x00 x00 x10 x00 x00 x00)
(T (W x00 x00 x00 x00 x00 x00 x00 x00)
(L (W xff xff xff xff xff xff xff xff))
(L (W xff xff xff xff xff xff xff xff)))
(T (W x54 x00 x00 x00 x48 x00 x00 x00)
(L (W xb4 x00 x00 x00 x64 x00 x00 x00)) E)))
(T (W xff xff xff xff xff xff xff xff)
(T (W x03 x72 x36 xfe x02 x9a xeb x70)
(T (W x30 x32 x5f x43 x4c x45 x41 x52)
(L (W x45 x26 x22 x84 xe4 x9c xf2 xcb))
(L (W x00 x00 x80 xbf x00 x00 x80 xbf)))
(T (W x00 x00 x00 x00 x00 x00 x00 x00)
(L (W xff xff xff xff xff xff xff xff)) E))
(T (W xff xff xff xff xc4 x00 x00 x00)
(T (W x46 x53 x59 x53 x5f x4e x53 x5f)
(L (W xb4 x00 x00 x00 x50 x00 x00 x00)) E)
(T (W x00 x00 x00 x00 x00 x00 x00 x00)
(L (W x30 x32 x5f x43 x4c x45 x41 x52)) E))))
(T (W x45 x26 x22 x84 xe4 x9c xf2 xcb)
(T (W x50 x00 x00 x00 x44 x00 x00 x00)
(T (W x00 x00 x01 x01 x9d x00 x00 x00)
(T (W xff xff xff xff xff xff xff xff)
(L (W x12 x00 x00 x00 x46 x53 x59 x53))
(L (W x00 x00 x80 xbf x00 x00 x80 xbf)))
(T (W xff xff xff xff xff xff xff xff)
(L (W xff xff xff xff xff xff xff xff)) E))
(T (W xff xff xff xff xff xff xff xff)
(T (W x00 x00 x80 x3f x00 x00 x80 x3f)
(L (W x00 x00 x80 xbf x00 x00 x80 xbf)) E)
(T (W x00 x00 x00 x00 x00 x00 x00 x00)
(L (W x00 x00 x00 x00 x0a x1c xff xff)) E)))
(T (W xff xff xff xff xff xff xff xff)
(T (W x48 x03 x00 x00 x34 x02 x00 x00)
(T (W xff xff xff xff xff xff xff xff)
(L (W x49 xa1 x68 x4a xeb x5f xdd x3d))
(L (W x6c x00 x00 x00 x60 x00 x00 x00)))
(T (W xff xff xff xff xff xff xff xff)
(L (W x4f x84 x6f x8b xe8 xcb x63 xb7)) E))
(T (W x6b x65 x5f x6c x76 x31 x00 x00)
(T (W x00 x00 x80 x3f x00 x00 x80 x3f)
(L (W x30 x32 x5f x43 x4c x45 x41 x52)) E)
(T (W xff xff xff xff xff xff xff xff)
(L (W x54 x00 x00 x00 x48 x00 x00 x00)) E)))))
(T (W xff xff xff xff xff xff xff xff)
(T (W x00 x00 x00 x00 x00 x00 x00 x00)
(T (W x00 x00 x80 x3f x00 x00 x80 x3f)
(T (W xac x89 xfa xff x00 x01 x01 x01)
(T (W x00 x00 x80 x3f x00 x00 x80 x3f)
(L (W x92 xe6 xff xff x00 x00 x01 x01))
(L (W x00 x00 x00 x00 x00 x00 x00 x00)))
(T (W x42 x99 xff xff x00 x00 x01 x01)
(L (W x45 x26 x22 x84 xe4 x9c xf2 xcb)) E))
(T (W x00 x00 x00 x00 x00 x00 x00 x00)
(T (W x45 x26 x22 x84 xe4 x9c xf2 xcb)
(L (W x00 x00 x00 x00 x00 x00 x00 x00)) E)
(T (W x03 x00 x00 x00 xbc x00 x00 x00)
(L (W x18 x00 x00 x00 x10 x00 x00 x00)) E)))
(T (W xff xff xff xff xff xff xff xff)
(T (W x00 x00 x00 x00 x00 x00 x00 x00)
(T (W x6c x00 x00 x00 x60 x00 x00 x00)
(L (W x00 x00 x00 x00 x00 x00 x00 x00))
(L (W x00 x00 x80 xbf x00 x00 x80 xbf)))
(T (W x54 x00 x00 x00 x48 x00 x00 x00)
(L (W x00 x00 x00 x00 x00 x00 x00 x00)) E))
(T (W x00 x00 x00 x00 x00 x00 x00 x00)
(T (W x00 x00 x80 x3f x00 x00 x80 x3f)
(L (W xff xff xff xff xff xff xff xff)) E)
(T (W x00 x00 x80 xbf x00 x00 x80 xbf)
(L (W x00 x00 x80 xbf x00 x00 x80 xbf)) E))))
(T (W x45 x26 x22 x84 xe4 x9c xf2 xcb)
(T (W x00 x00 x00 x00 x00 x00 x00 x00)
(T (W x00 x00 x00 x00 x00 x00 x00 x00)
(T (W x50 x00 x00 x00 x44 x00 x00 x00)
(L (W x00 x00 x80 xbf x00 x00 x80 xbf))
(L (W x00 x00 x00 x00 x00 x00 x00 x00)))
(T (W x00 x00 x00 x00 x00 x00 x00 x00)
(L (W xff xff xff xff xff xff xff xff)) E))
(T (W x00 x00 x00 x00 x00 x00 x00 x00)
(T (W xff xff xff xff xff xff xff xff)
(L (W x8a x26 xfe xff x78 x00 x00 x00)) E)
(T (W xff xff xff xff xff xff xff xff)
(L (W x2f x00 x00 x00 xff xff xff xff)) E)))
(T (W xff xff xff xff xff xff xff xff)
(T (W xff xff xff xff xff xff xff xff)
(T (W x4a x00 x00 x00 xff xff xff xff)
(L (W xff xff xff xff xff xff xff xff))
(L (W x21 x00 x00 x00 x24 x00 x00 x00)))
(T (W x42 xf9 xff xff x00 x00 x01 x01)
(L (W x00 x00 x80 xbf x00 x00 x80 xbf)) E))
(T (W x00 x00 x80 x3f x00 x00 x80 x3f)
(T (W x00 x00 x00 x00 x00 x00 x00 x00)
(L (W x49 xa1 x68 x4a xeb x5f xdd x3d)) E)
(T (W x00 x00 x00 x00 x00 x00 x00 x00)
(L (W xff xff xff xff xb0 x00 x00 x00)) E))))))
(T (W x00 x00 x00 x00 xca x2a xfd xff)
(T (W x00 x00 x00 x00 x00 x00 x00 x00)
(T (W x6c x00 x00 x00 x60 x00 x00 x00)
(T (W x00 x00 x80 x3f x00 x00 x80 x3f)
(T (W x68 x00 x00 x00 x5c x00 x00 x00)
(T (W x00 x00 x00 x00 x00 x00 x00 x00)
(L (W x00 x00 x00 x00 x00 x00 x00 x00))
(L (W x2a x00 x00 x00 xff xff xff xff)))
(T (W x00 x00 x00 x00 x00 x00 x00 x00)
(L (W x18 x00 x00 x00 x10 x00 x00 x00)) E))
(T (W xff xff xff xff xff xff xff xff)
(T (W x00 x00 x80 x3f x00 x00 x80 x3f)
(L (W x24 x02 x00 x00 xff xff xff xff))
(L (W x54 x00 x00 x00 x48 x00 x00 x00)))
(T (W xc1 x00 x00 x00 xff xff xff xff)
(L (W x21 x00 x00 x00 x24 x00 x00 x00)) E)))
(T (W xff xff xff xff xff xff xff xff)
(T (W xc2 xcf xfd xff x6f x00 x00 x00)
(T (W x00 x00 x80 x3f x00 x00 x80 x3f)
(L (W x00 x00 x58 x00 x00 x00 x00 x00))
(L (W x00 x00 x80 xbf x00 x00 x80 xbf)))
(T (W xc2 xcf xff xff x36 x00 x00 x00)
(L (W x45 x44 x00 x00 x00 x00 x00 x00)) E))
(T (W xff xff xff xff xff xff xff xff)
(T (W x45 x26 x22 x84 xe4 x9c xf2 xcb)
(L (W xc4 x00 x00 x00 x02 x00 x00 x00)) E)
(T (W x00 x00 x80 xbf x00 x00 x80 xbf)
(L (W x00 x00 x00 x00 x00 x00 x00 x00)) E))))
(T (W x00 x00 x80 x3f x00 x00 x80 x3f)
(T (W x6b x65 x5f x6d x69 x6c x64 x5f)
(T (W x00 x00 x00 x00 x00 x00 x00 x00)
(T (W x00 x00 x00 x00 x12 x00 x00 x00)
(L (W x00 x00 x00 x00 x00 x00 x00 x00))
(L (W x00 x00 x80 xbf x00 x00 x80 xbf)))
(T (W x00 x00 x00 x00 x00 x00 x00 x00)
(L (W xff xff xff xff xff xff xff xff)) E))
(T (W x00 x00 x00 x00 x00 x00 x00 x00)
(T (W x01 x00 x00 x00 xb0 x00 x00 x00)
(L (W x00 x00 x80 xbf x00 x00 x80 xbf)) E)
(T (W xff xff xff xff xff xff xff xff)
(L (W x14 x09 x00 x00 xf8 x07 x00 x00)) E)))
(T (W xff xff xff xff xff xff xff xff)
(T (W xff xff xff xff xff xff xff xff)
(T (W xff xff xff xff xff xff xff xff)
(L (W x00 x00 x80 xbf x00 x00 x80 xbf))
(L (W x18 x00 x00 x00 x10 x00 x00 x00)))
(T (W xff xff xff xff xff xff xff xff)
(L (W x49 xa1 x68 x4a xeb x5f xdd x3d)) E))
(T (W x00 x00 x00 x00 x00 x00 x00 x00)
(T (W x68 x00 x00 x00 x5c x00 x00 x00)
(L (W x00 x00 x00 x00 x00 x00 x00 x00)) E)
(T (W x00 x00 x00 x00 xba x5d xfd xff)
(L (W x00 x00 x00 x00 x1c x60 xff xff)) E)))))
(T (W x00 x00 x80 x3f x00 x00 x80 x3f)
(T (W xbc x00 x00 x00 xb0 x00 x00 x00)
(T (W x00 x00 x00 x00 x00 x00 x00 x00)
(T (W x45 x26 x22 x84 xe4 x9c xf2 xcb)
(T (W x45 x26 x22 x84 xe4 x9c xf2 xcb)
(L (W x00 x00 x00 x00 x00 x00 x00 x00))
(L (W x00 x00 x00 x00 x00 x00 x00 x00)))
(T (W xff xff xff xff xff xff xff xff)
(L (W xbc x00 x00 x00 x32 x00 x00 x00)) E))
(T (W x00 x00 x00 x00 x00 x00 x00 x00)
(T (W x00 x00 x80 x3f x00 x00 x80 x3f)
(L (W x00 x00 x00 x00 x00 x00 x00 x00)) E)
(T (W x00 x00 x80 xbf x00 x00 x80 xbf)
(L (W x03 x00 x00 x00 xd8 x00 x00 x00)) E)))
(T (W xff xff xff xff xff xff xff xff)
(T (W x00 x00 x00 x00 x00 x00 x00 x00)
(T (W x00 x00 x00 x00 x1c xd0 xfb xff)
(L (W x00 x00 x00 x00 x00 x00 x00 x00))
(L (W x6c x00 x00 x00 x60 x00 x00 x00)))
(T (W x8a xce xfc xff x78 x00 x00 x00)
(L (W x00 x00 x00 x00 x00 x00 x00 x00)) E))
(T (W x21 x00 x00 x00 x24 x00 x00 x00)
(T (W x00 x00 x80 x3f x00 x00 x80 x3f)
(L (W xff xff xff xff xff xff xff xff)) E)
(T (W x00 x00 x00 x00 xe8 x4c xfd xff)
(L (W x00 x00 x80 xbf x00 x00 x80 xbf)) E))))
(T (W x00 x00 x80 x3f x00 x00 x80 x3f)
(T (W xf3 xcf x96 x00 xd1 x61 x99 x51)
(T (W x00 x00 x00 x00 x00 x00 x00 x00)
(T (W xff xff xff xff xff xff xff xff)
(L (W xff xff xff xff xff xff xff xff))
(L (W x00 x00 x00 x00 x00 x00 x00 x00)))
(T (W x00 x00 x00 x00 x00 x00 x00 x00)
(L (W xff xff xff xff xff xff xff xff)) E))
(T (W xac x31 xfb xff x00 x01 x01 x01)
(T (W xff xff xff xff xff xff xff xff)
(L (W x18 x00 x00 x00 x0c x00 x00 x00)) E)
(T (W x28 x2a xc8 xc9 x03 x89 xa0 xbc)
(L (W x00 x00 x00 x00 x92 x32 xff xff)) E)))
(T (W xb8 x00 x00 x00 xac x00 x00 x00)
(T (W xff xff xff xff xff xff xff xff)
(T (W x46 x53 x59 x53 x5f x4e x53 x5f)
(L (W xff xff xff xff xff xff xff xff))
(L (W xff xff xff xff xc0 x00 x00 x00)))
(T (W x00 x00 x00 x00 x00 x00 x00 x00)
(L (W x45 x26 x22 x84 xe4 x9c xf2 xcb)) E))
(T (W xff xff xff xff xff xff xff xff)
(T (W x00 x00 x00 x00 x00 x00 x00 x00)
(L (W x00 x00 x80 xbf x00 x00 x80 xbf)) E)
(T (W x4f x84 x6f x8b xe8 xcb x63 xb7)
(L (W xff xff xff xff xff xff xff xff)) E)))))))
(T (W x00 x00 x01 x01 xc9 x00 x00 x00)
(T (W x64 x00 x00 x00 xa0 x00 x00 x00)
(T (W x00 x00 x00 x00 x00 x00 x00 x00)
(T (W x00 x00 x00 x00 x00 x00 x00 x00)
(T (W xff xff xff xff xff xff xff xff)
(T (W x00 x00 x00 x00 x00 x00 x00 x00)
(T (W x6c x00 x00 x00 x60 x00 x00 x00)
(L (W x8a x7a xfd xff x78 x00 x00 x00))
(L (W x00 x00 x80 xbf x00 x00 x80 xbf)))
(T (W xda x78 xfc xff x74 x00 x00 x00)
(L (W x00 x00 x00 x00 x7a x7b xfe xff)) E))
(T (W x30 x32 x5f x43 x4c x45 x41 x52)
(T (W xff xff xff xff xff xff xff xff)
(L (W x6c x00 x00 x00 x60 x00 x00 x00))
(L (W x6c x00 x08 x00 x00 x00 x00 x00)))
(T (W xff xff xff xff xff xff xff xff)
(L (W x30 x32 x5f x43 x4c x45 x41 x52)) E)))
(T (W x00 x00 x80 x3f x00 x00 x80 x3f)
(T (W xda xb8 xfa xff x74 x00 x00 x00)
(T (W xff xff xff xff xff xff xff xff)
(L (W x68 x00 x00 x00 x5c x00 x00 x00))
(L (W xff xff xff xff xff xff xff xff)))
(T (W x50 x00 x00 x00 x44 x00 x00 x00)
(L (W x6c x00 x00 x00 x60 x00 x00 x00)) E))
(T (W x4f x84 x6f x8b xe8 xcb x63 xb7)
(T (W x01 x00 x00 x00 xb0 x00 x00 x00)
(L (W x4f x84 x6f x8b xe8 xcb x63 xb7)) E)
(T (W xff xff xff xff xff xff xff xff)
(L (W xcc x00 x00 x00 x01 x00 x00 x00)) E))))
(T (W xff xff xff xff xff xff xff xff)
(T (W x00 x00 x00 x00 x00 x00 x00 x00)
(T (W x45 x26 x22 x84 xe4 x9c xf2 xcb)
(T (W x00 x00 x80 x3f x00 x00 x80 x3f)
(L (W xc0 x00 x00 x00 x01 x00 x00 x00))
(L (W xff xff xff xff xff xff xff xff)))
(T (W x00 x00 x00 x00 x00 x00 x00 x00)
(L (W x45 x26 x22 x84 xe4 x9c xf2 xcb)) E))
(T (W x68 x00 x00 x00 x5c x00 x00 x00)
(T (W x46 x53 x59 x53 x5f x4e x53 x5f)
(L (W xff xff xff xff xff xff xff xff)) E)
(T (W x00 x00 x00 x00 x00 x00 x00 x00)
(L (W x00 x00 x80 xbf x00 x00 x80 xbf)) E)))
(T (W x00 x00 x00 x00 x00 x00 x00 x00)
(T (W x45 x26 x22 x84 xe4 x9c xf2 xcb)
(T (W x45 x26 x22 x84 xe4 x9c xf2 xcb)
(L (W xff xff xff xff xff xff xff xff))
(L (W x00 x00 x00 x00 x00 x00 x00 x00)))
(T (W x00 x00 x80 x3f x00 x00 x80 x3f)
(L (W xff xff xff xff xff xff xff xff)) E))
(T (W x00 x00 x80 x3f x00 x00 x80 x3f)
(T (W x1c x56 xed x05 x5f x88 x68 xcc)
(L (W xac x5d xfe xff x00 x01 x01 x01)) E)
(T (W x00 x00 x80 xbf x00 x00 x80 xbf)
(L (W x08 x00 x00 x00 x10 x08 x00 x00)) E)))))
(T (W x00 x00 x00 x00 x00 x00 x00 x00)
(T (W x00 x00 x80 x3f x00 x00 x80 x3f)
(T (W xb8 x00 x00 x00 xac x00 x00 x00)
(T (W x00 x00 x00 x00 x00 x00 x00 x00)
(T (W xff xff xff xff xff xff xff xff)
(L (W x68 x00 x00 x00 x5c x00 x00 x00))
(L (W x50 x00 x00 x00 x44 x00 x00 x00)))
(T (W x00 x00 x80 x3f x00 x00 x80 x3f)
(L (W x00 x00 x00 x00 x00 x00 x00 x00)) E))
(T (W xff xff xff xff x03 x00 x00 x00)
(T (W x00 x00 x00 x00 x0a x10 xfc xff)
(L (W xbc x00 x00 x00 x1e x00 x00 x00)) E)
(T (W x00 x00 x80 xbf x00 x00 x80 xbf)
(L (W x4f x84 x6f x8b xe8 xcb x63 xb7)) E)))
(T (W x00 x00 x80 x3f x00 x00 x80 x3f)
(T (W x00 x00 x80 x3f x00 x00 x80 x3f)
(T (W xdc xd1 xfb xff x15 x00 x00 x00)
(L (W xff xff xff xff xb0 x00 x00 x00))
(L (W x00 x00 x00 x00 x00 x00 x00 x00)))
(T (W x00 x00 x00 x00 x00 x00 x00 x00)
(L (W xff xff xff xff xc8 x00 x00 x00)) E))
(T (W x64 x5f x70 x6f x6b x65 x5f x77)
(T (W xff xff xff xff xff xff xff xff)
(L (W x00 x00 x80 xbf x00 x00 x80 xbf)) E)
(T (W xd4 x25 xd5 x4f x49 x4a x07 x36)
(L (W xff xff xff xff xff xff xff xff)) E))))
(T (W xff xff xff xff xff xff xff xff)
(T (W x00 x00 x80 x3f x00 x00 x80 x3f)
(T (W x0a x00 x00 x00 x3e x00 x00 x00)
(T (W x5f x4e x53 x5f x30 x32 x5f x43)
(L (W x00 x00 x00 x00 x1c xac xfd xff))
(L (W xff xff xff xff xff xff xff xff)))
(T (W xff xff xff xff xff xff xff xff)
(L (W x00 x00 x00 x00 x00 x00 x00 x00)) E))
(T (W xff xff xff xff xff xff xff xff)
(T (W x00 x00 x00 x00 x00 x00 x00 x00)
(L (W x00 x00 x00 x00 x0a x30 xfe xff)) E)
(T (W x54 x00 x00 x00 x48 x00 x00 x00)
(L (W xac x2d xff xff x00 x01 x01 x01)) E)))
(T (W x45 x26 x22 x84 xe4 x9c xf2 xcb)
(T (W x00 x00 x80 x3f x00 x00 x80 x3f)
(T (W xda xe8 xfb xff x74 x00 x00 x00)
(L (W x45 x26 x22 x84 xe4 x9c xf2 xcb))
(L (W x00 x00 x00 x00 x00 x00 x00 x00)))
(T (W x50 x00 x00 x00 x44 x00 x00 x00)
(L (W x46 x53 x59 x53 x5f x4e x53 x5f)) E))
(T (W x46 x53 x59 x53 x5f x4e x53 x5f)
(T (W x00 x00 x00 x00 x1c x6c xfc xff)
(L (W xff xff xff xff xff xff xff xff)) E)
(T (W xff xff xff xff xff xff xff xff)
(L (W x00 x00 x00 x00 x00 x00 x00 x00)) E))))))
(T (W x00 x00 x80 x3f x00 x00 x80 x3f)
(T (W x54 x00 x00 x00 x48 x00 x00 x00)
(T (W xff xff xff xff xff xff xff xff)
(T (W xff xff xff xff xff xff xff xff)
(T (W x00 x00 x00 x00 x00 x00 x00 x00)
(T (W xff xff xff xff xff xff xff xff)
(L (W x00 x00 x80 xbf x00 x00 x80 xbf))
(L (W x00 x00 x80 xbf x00 x00 x80 xbf)))
(T (W x68 x00 x00 x00 x5c x00 x00 x00)
(L (W x00 x00 x00 x00 x00 x00 x00 x00)) E))
(T (W x45 x26 x22 x84 xe4 x9c xf2 xcb)
(T (W xff xff xff xff xff xff xff xff)
(L (W x45 x26 x22 x84 xe4 x9c xf2 xcb)) E)
(T (W xff xff xff xff xff xff xff xff)
(L (W x00 x00 x00 x00 x00 x00 x00 x00)) E)))
(T (W x00 x00 x80 x3f x00 x00 x80 x3f)
(T (W xac xc5 xfa xff x00 x01 x01 x01)
(T (W xff xff xff xff x01 x00 x00 x00)
(L (W xff xff xff xff xc8 x00 x00 x00))
(L (W xff xff xff xff xff xff xff xff)))
(T (W x00 x00 x80 x3f x00 x00 x80 x3f)
(L (W x18 x00 x00 x00 x0c x00 x00 x00)) E))
(T (W x18 x00 x00 x00 x10 x00 x00 x00)
(T (W xff xff xff xff xff xff xff xff)
(L (W x00 x00 x80 xbf x00 x00 x80 xbf)) E)
(T (W x00 x00 x00 x00 x00 x00 x00 x00)
(L (W xff xff xff xff xff xff xff xff)) E))))
(T (W xff xff xff xff xff xff xff xff)
(T (W x68 x00 x00 x00 x5c x00 x00 x00)
(T (W x01 x00 x00 x00 x9c x00 x00 x00)
(T (W xff xff xff xff xff xff xff xff)
(L (W x4c x45 x41 x52 x45 x44 x00 x00))
(L (W x00 x00 x80 xbf x00 x00 x80 xbf)))
(T (W xff xff xff xff x03 x00 x00 x00)
(L (W x00 x00 x80 xbf x00 x00 x80 xbf)) E))
(T (W xff xff xff xff x03 x00 x00 x00)
(T (W x45 x26 x22 x84 xe4 x9c xf2 xcb)
(L (W xff xff xff xff xff xff xff xff)) E)
(T (W x45 x26 x22 x84 xe4 x9c xf2 xcb)
(L (W x6c x00 x00 x00 x60 x00 x00 x00)) E)))
(T (W x00 x00 x00 x00 x00 x00 x00 x00)
(T (W x00 x00 x80 x3f x00 x00 x80 x3f)
(T (W x00 x00 x80 x3f x00 x00 x80 x3f)
(L (W x00 x00 x00 x00 x0a xe8 xfd xff))
(L (W x00 x00 x00 x00 x00 x00 x00 x00)))
(T (W xb2 xe9 xff xff x88 x00 x00 x00)
(L (W xff xff xff xff xff xff xff xff)) E))
(T (W xa5 x01 x00 x00 xff xff xff xff)
(T (W x00 x00 x00 x00 x00 x00 x00 x00)
(L (W x17 x00 x00 x00 x1a x00 x00 x00)) E)
(T (W x8a x62 xfd xff x78 x00 x00 x00)
(L (W x00 x00 x00 x00 x00 x00 x00 x00)) E)))))
(T (W x01 x00 x00 x00 xa0 x00 x00 x00)
(T (W x00 x00 x01 x01 xc9 x00 x00 x00)
(T (W x00 x00 x00 x00 x00 x00 x00 x00)
(T (W x23 x00 x00 x00 x0c x00 x00 x00)
(T (W x4f x84 x6f x8b xe8 xcb x63 xb7)
(L (W x45 x26 x22 x84 xe4 x9c xf2 xcb))
(L (W xff xff xff xff xb0 x00 x00 x00)))
(T (W x45 x26 x22 x84 xe4 x9c xf2 xcb)
(L (W x00 x00 x00 x00 x00 x00 x00 x00)) E))
(T (W x00 x00 x00 x00 x0a x18 xfb xff)
(T (W x00 x00 x00 x00 x00 x00 x00 x00)
(L (W xff xff xff xff xff xff xff xff)) E)
(T (W x00 x00 x00 x00 x00 x00 x00 x00)
(L (W x54 x00 x00 x00 x48 x00 x00 x00)) E)))
(T (W x45 x26 x22 x84 xe4 x9c xf2 xcb)
(T (W x00 x00 x80 x3f x00 x00 x80 x3f)
(T (W x00 x00 x00 x00 x00 x00 x00 x00)
(L (W xff xff xff xff xff xff xff xff))
(L (W x46 x53 x59 x53 x5f x4e x53 x5f)))
(T (W x00 x00 x00 x00 x00 x00 x00 x00)
(L (W xff xff xff xff xff xff xff xff)) E))
(T (W x00 x00 x00 x00 x00 x00 x00 x00)
(T (W xff xff xff xff xff xff xff xff)
(L (W x00 x00 x80 xbf x00 x00 x80 xbf)) E)
(T (W x00 x00 x80 xbf x00 x00 x80 xbf)
(L (W x45 x44 x00 x00 x00 x00 x00 x00)) E))))
(T (W xff xff xff xff xff xff xff xff)
(T (W x00 x00 x80 x3f x00 x00 x80 x3f)
(T (W xc0 x00 x00 x00 xb4 x00 x00 x00)
(T (W x00 x00 x80 x3f x00 x00 x80 x3f)
(L (W x00 x00 x00 x00 x00 x00 x00 x00))
(L (W xff xff xff xff xff xff xff xff)))
(T (W xb8 x00 x00 x00 xac x00 x00 x00)
(L (W x00 x00 x80 xbf x00 x00 x80 xbf)) E))
(T (W x18 x00 x00 x00 x10 x00 x00 x00)
(T (W x00 x00 x80 x3f x00 x00 x80 x3f)
(L (W x00 x00 x00 x00 x00 x00 x00 x00)) E)
(T (W x00 x00 x00 x00 x1c x34 xfd xff)
(L (W x40 x00 x00 x00 x00 x00 x80 xbf)) E)))
(T (W x45 x26 x22 x84 xe4 x9c xf2 xcb)
(T (W xff xff xff xff x03 x00 x00 x00)
(T (W x54 x00 x00 x00 x48 x00 x00 x00)
(L (W x00 x00 x80 xbf x00 x00 x80 xbf))
(L (W x00 x00 x80 xbf x00 x00 x80 xbf)))
(T (W x5f x77 x69 x6c x64 x5f x70 x6f)
(L (W x00 x00 x00 x00 x00 x00 x00 x00)) E))
(T (W x00 x00 x80 x3f x00 x00 x80 x3f)
(T (W xda x70 xfc xff x74 x00 x00 x00)
(L (W xff xff xff xff xff xff xff xff)) E)
(T (W xff xff xff xff xa0 x00 x00 x00)
(L (W x00 x00 x00 x00 x00 x00 x00 x00)) E))))))))
(T (W x3e x00 x00 x00 x0c x00 x00 x00)
(T (W xff xff xff xff xff xff xff xff)
(T (W x54 x00 x00 x00 x48 x00 x00 x00)
(T (W xff xff xff xff xff xff xff xff)
(T (W x00 x00 x00 x00 x00 x00 x00 x00)
(T (W x68 x00 x00 x00 x5c x00 x00 x00)
(T (W x42 x8b xfd xff x00 x00 x01 x01)
(T (W x00 x00 x00 x00 x00 x00 x00 x00)
(L (W x00 x00 x80 xbf x00 x00 x80 xbf))
(L (W x00 x00 x00 x00 x00 x00 x00 x00)))
(T (W x00 x00 x80 x3f x00 x00 x80 x3f)
(L (W xff xff xff xff xff xff xff xff)) E))
(T (W xff xff xff xff xff xff xff xff)
(T (W x00 x00 x80 x3f x00 x00 x80 x3f)
(L (W x00 x00 x00 x00 x00 x00 x00 x00))
(L (W x00 x00 x00 x00 x00 x00 x00 x00)))
(T (W x00 x00 x00 x00 x00 x00 x00 x00)
(L (W xff xff xff xff xff xff xff xff)) E)))
(T (W x00 x00 x00 x00 x00 x00 x00 x00)
(T (W x45 x26 x22 x84 xe4 x9c xf2 xcb)
(T (W x00 x00 x80 x3f x00 x00 x80 x3f)
(L (W x00 x00 x80 xbf x00 x00 x80 xbf))
(L (W x6c x00 x00 x00 x60 x00 x00 x00)))
(T (W x45 x26 x22 x84 xe4 x9c xf2 xcb)
(L (W x00 x00 x00 x00 x00 x00 x00 x00)) E))
(T (W xff xff xff xff xff xff xff xff)
(T (W x00 x00 x80 x3f x00 x00 x80 x3f)
(L (W xff xff xff xff xff xff xff xff)) E)
(T (W x54 x00 x00 x00 x48 x00 x00 x00)
(L (W x49 xa1 x68 x4a xeb x5f xdd x3d)) E))))
(T (W x00 x00 x80 x3f x00 x00 x80 x3f)
(T (W xff xff xff xff xff xff xff xff)
(T (W x68 x00 x00 x00 x5c x00 x00 x00)
(T (W x00 x00 x00 x00 x00 x00 x00 x00)
(L (W x00 x00 x80 xbf x00 x00 x80 xbf))
(L (W x6c x00 x00 x00 x60 x00 x00 x00)))
(T (W x42 xab xff xff x00 x00 x01 x01)
(L (W x00 x00 x00 x00 x9a x9f xfe xff)) E))
(T (W x00 x00 x00 x00 x00 x00 x00 x00)
(T (W xff xff xff xff xff xff xff xff)
(L (W x00 x00 x00 x00 x1c x1a xfe xff)) E)
(T (W xda x16 xfd xff x74 x00 x00 x00)
(L (W x00 x00 x00 x00 x00 x00 x00 x00)) E)))
(T (W x00 x00 x00 x00 x00 x00 x00 x00)
(T (W x00 x00 x00 x00 x00 x00 x00 x00)
(T (W x00 x00 x00 x00 x00 x00 x00 x00)
(L (W x45 x26 x22 x84 xe4 x9c xf2 xcb))
(L (W xff xff xff xff xff xff xff xff)))
(T (W x45 x44 x00 x00 x00 x00 x00 x00)
(L (W x00 x00 x80 xbf x00 x00 x80 xbf)) E))
(T (W x45 x26 x22 x84 xe4 x9c xf2 xcb)
(T (W x18 x00 x00 x00 x0c x00 x00 x00)
(L (W x00 x00 x80 xbf x00 x00 x80 xbf)) E)
(T (W x00 x00 x00 x00 x00 x00 x00 x00)
(L (W x03 x00 x00 x00 xd0 x00 x00 x00)) E)))))
(T (W x16 x00 x00 x00 xff xff xff xff)
(T (W x45 x26 x22 x84 xe4 x9c xf2 xcb)
(T (W x50 x00 x00 x00 x44 x00 x00 x00)
(T (W xff xff xff xff xff xff xff xff)
(T (W x01 x00 x00 x00 xb0 x00 x00 x00)
(L (W x00 x00 x00 x00 x00 x00 x00 x00))
(L (W x00 x00 x00 x00 x00 x00 x00 x00)))
(T (W x00 x00 x00 x00 x00 x00 x00 x00)
(L (W xff xff xff xff xff xff xff xff)) E))
(T (W x00 x00 x80 x3f x00 x00 x80 x3f)
(T (W x45 x26 x22 x84 xe4 x9c xf2 xcb)
(L (W x45 x26 x22 x84 xe4 x9c xf2 xcb)) E)
(T (W xdc x0f xfd xff x19 x00 x00 x00)
(L (W x45 x44 x00 x00 x00 x00 x00 x00)) E)))
(T (W x34 x59 xfa xff x3e x00 x00 x00)
(T (W x00 x00 x00 x00 x00 x00 x00 x00)
(T (W xcc x00 x00 x00 xc0 x00 x00 x00)
(L (W x00 x00 x80 xbf x00 x00 x80 xbf))
(L (W xff xff xff xff xff xff xff xff)))
(T (W x00 x00 x00 x00 x00 x00 x00 x00)
(L (W x54 x00 x00 x00 x48 x00 x00 x00)) E))
(T (W xd4 x00 x00 x00 xc8 x00 x00 x00)
(T (W x8a x48 xfc xff x78 x00 x00 x00)
(L (W x00 x00 x00 x00 x00 x00 x00 x00)) E)
(T (W xff xff xff xff xff xff xff xff)
(L (W x8a x48 xff xff x78 x00 x00 x00)) E))))
(T (W x18 x00 x00 x00 x10 x00 x00 x00)
(T (W x00 x00 x00 x00 x00 x00 x00 x00)
(T (W x00 x00 x80 x3f x00 x00 x80 x3f)
(T (W xff xff xff xff xff xff xff xff)
(L (W x00 x00 x80 xbf x00 x00 x80 xbf))
(L (W x8a xa8 xff xff x78 x00 x00 x00)))
(T (W x45 x26 x22 x84 xe4 x9c xf2 xcb)
(L (W x00 x00 x00 x00 x00 x00 x00 x00)) E))
(T (W x8a x28 xfb xff x78 x00 x00 x00)
(T (W x00 x00 x00 x00 x00 x00 x00 x00)
(L (W xff xff xff xff xff xff xff xff)) E)
(T (W x4f x84 x6f x8b xe8 xcb x63 xb7)
(L (W x00 x00 x00 x00 x00 x00 x00 x00)) E)))
(T (W xea xbd x44 xa7 x34 x07 x19 xad)
(T (W x00 x00 x00 x00 x00 x00 x00 x00)
(T (W x00 x00 x00 x00 x00 x00 x00 x00)
(L (W x00 x00 x00 x00 x00 x00 x00 x00))
(L (W xff xff xff xff xff xff xff xff)))
(T (W x00 x00 x00 x00 x00 x00 x00 x00)
(L (W xff xff xff xff x9c x00 x00 x00)) E))
(T (W xff xff xff xff xff xff xff xff)
(T (W x00 x00 x80 x3f x00 x00 x80 x3f)
(L (W x6c x00 x00 x00 x60 x00 x00 x00)) E)
(T (W x00 x00 x80 xbf x00 x00 x80 xbf)
(L (W xff xff xff xff xff xff xff xff)) E))))))
(T (W x00 x00 x00 x00 x00 x00 x00 x00)
(T (W x00 x00 x80 x3f x00 x00 x80 x3f)
(T (W x64 x00 x00 x00 xa0 x00 x00 x00)
(T (W x00 x00 x80 x3f x00 x00 x80 x3f)
(T (W xff xff xff xff xff xff xff xff)
(T (W x00 x00 x00 x00 x1c x82 xfb xff)
(L (W x00 x00 x80 xbf x00 x00 x80 xbf))
(L (W x00 x00 x00 x00 x00 x00 x00 x00)))
(T (W x45 x26 x22 x84 xe4 x9c xf2 xcb)
(L (W xff xff xff xff xff xff xff xff)) E))
(T (W x2c x00 x00 x00 x10 x00 x00 x00)
(T (W x6c x00 x00 x00 x60 x00 x00 x00)
(L (W x00 x00 x80 xbf x00 x00 x80 xbf))
(L (W x00 x00 x00 x00 x00 x00 x00 x00)))
(T (W x00 x00 x80 xbf x00 x00 x80 xbf)
(L (W xff xff xff xff xff xff xff xff)) E)))
(T (W x00 x00 x00 x00 x00 x00 x00 x00)
(T (W x00 x00 x00 x00 x00 x00 x00 x00)
(T (W x18 x00 x00 x00 x10 x00 x00 x00)
(L (W x00 x00 x00 x00 x00 x00 x00 x00))
(L (W x18 x00 x00 x00 x10 x00 x00 x00)))
(T (W x00 x00 x00 x00 x00 x00 x00 x00)
(L (W x4f x84 x6f x8b xe8 xcb x63 xb7)) E))
(T (W x00 x00 x00 x00 x00 x00 x00 x00)
(T (W x00 x00 x80 x3f x00 x00 x80 x3f)
(L (W xe4 x06 x00 x00 xc8 x05 x00 x00)) E)
(T (W x18 x00 x00 x00 x10 x00 x00 x00)
(L (W x00 x00 x80 xbf x00 x00 x80 xbf)) E))))
(T (W x6c x00 x00 x00 x60 x00 x00 x00)
(T (W x00 x00 x00 x00 x00 x00 x00 x00)
(T (W xda x9e xfa xff x74 x00 x00 x00)
(T (W xda x9e xfb xff x74 x00 x00 x00)
(L (W xff xff xff xff xff xff xff xff))
(L (W xff xff xff xff xff xff xff xff)))
(T (W x50 x00 x00 x00 x44 x00 x00 x00)
(L (W x00 x00 x00 x00 x00 x00 x00 x00)) E))
(T (W x00 x00 x80 x3f x00 x00 x80 x3f)
(T (W x34 x01 x00 x00 x04 x00 x00 x00)
(L (W x21 x00 x00 x00 x24 x00 x00 x00)) E)
(T (W xf4 x30 xc8 xc9 x03 x8d xa0 xbc)
(L (W x00 x00 x80 xbf x00 x00 x80 xbf)) E)))
(T (W x00 x00 x00 x00 x00 x00 x00 x00)
(T (W x00 x00 x00 x00 x00 x00 x00 x00)
(T (W x4c x45 x41 x52 x45 x44 x00 x00)
(L (W xff xff xff xff xc8 x00 x00 x00))
(L (W xff xff xff xff xff xff xff xff)))
(T (W x00 x00 x00 x00 x00 x00 x00 x00)
(L (W xcc x00 x00 x00 x01 x00 x00 x00)) E))
(T (W x18 x00 x00 x00 x0c x00 x00 x00)
(T (W xff xff xff xff xff xff xff xff)
(L (W x00 x00 x80 xbf x00 x00 x80 xbf)) E)
(T (W x00 x00 x80 xbf x00 x00 x80 xbf)
(L (W xff xff xff xff xff xff xff xff)) E)))))
(T (W x6c x00 x00 x00 x60 x00 x00 x00)
(T (W xff xff xff xff xff xff xff xff)
(T (W xd8 x00 x00 x00 xb4 x00 x00 x00)
(T (W xb8 x00 x00 x00 xac x00 x00 x00)
(T (W xff xff xff xff xff xff xff xff)
(L (W x00 x00 x80 xbf x00 x00 x80 xbf))
(L (W x00 x00 x80 xbf x00 x00 x80 xbf)))
(T (W x00 x00 x00 x00 x00 x00 x00 x00)
(L (W xff xff xff xff xff xff xff xff)) E))
(T (W x00 x00 x80 x3f x00 x00 x80 x3f)
(T (W xff xff xff xff xff xff xff xff)
(L (W x00 x00 x80 xbf x00 x00 x80 xbf)) E)
(T (W xff xff xff xff xff xff xff xff)
(L (W x17 x00 x00 x00 x0c x00 x00 x00)) E)))
(T (W x00 x00 x00 x00 x00 x00 x00 x00)
(T (W x00 x00 x00 x00 x00 x00 x00 x00)
(T (W x00 x00 x00 x00 x0a xd6 xfb xff)
(L (W x45 x26 x22 x84 xe4 x9c xf2 xcb))
(L (W xff xff xff xff xbc x00 x00 x00)))
(T (W xff xff xff xff xff xff xff xff)
(L (W x00 x00 x00 x00 x1c xd2 xfe xff)) E))
(T (W x00 x00 x00 x00 x00 x00 x00 x00)
(T (W xb8 x00 x00 x00 x28 x00 x00 x00)
(L (W x00 x00 x00 x00 x00 x00 x00 x00)) E)
(T (W x00 x00 x00 x00 x00 x00 x00 x00)
(L (W x18 x00 x00 x00 x10 x00 x00 x00)) E))))
(T (W x01 x00 x00 x00 x3e x00 x00 x00)
(T (W x45 x26 x22 x84 xe4 x9c xf2 xcb)
(T (W x00 x00 x80 x3f x00 x00 x80 x3f)
(T (W xdc xb7 xfb xff x10 x00 x00 x00)
(L (W xff xff xff xff xff xff xff xff))
(L (W x45 x26 x22 x84 xe4 x9c xf2 xcb)))
(T (W x00 x00 x80 x3f x00 x00 x80 x3f)
(L (W x45 x44 x00 x00 x00 x00 x00 x00)) E))
(T (W xff xff xff xff xff xff xff xff)
(T (W x00 x00 x00 x00 x00 x00 x00 x00)
(L (W xff xff xff xff xff xff xff xff)) E)
(T (W x45 x26 x22 x84 xe4 x9c xf2 xcb)
(L (W x00 x00 x00 x00 x00 x00 x00 x00)) E)))
(T (W xd9 x00 x00 x00 xff xff xff xff)
(T (W x00 x00 x00 x00 x00 x00 x00 x00)
(T (W x49 xa1 x68 x4a xeb x5f xdd x3d)
(L (W x00 x00 x00 x00 x00 x00 x00 x00))
(L (W x00 x00 x00 x00 x00 x00 x00 x00)))
(T (W x01 x00 x00 x00 x19 x00 x00 x00)
(L (W xff xff xff xff xff xff xff xff)) E))
(T (W x22 x00 x00 x00 x67 x72 x6f x75)
(T (W x00 x00 x80 x3f x00 x00 x80 x3f)
(L (W xbc x00 x00 x00 x32 x00 x00 x00)) E)
(T (W x00 x00 x00 x00 x00 x00 x00 x00)
(L (W x00 x00 x00 x00 x00 x00 x00 x00)) E)))))))
(T (W x00 x00 x00 x00 x00 x00 x00 x00)
(T (W xff xff xff xff xff xff xff xff)
(T (W x64 x04 x00 x00 x50 x03 x00 x00)
(T (W x00 x00 x80 x3f x00 x00 x80 x3f)
(T (W x00 x00 x00 x00 x00 x00 x00 x00)
(T (W x00 x00 x80 x3f x00 x00 x80 x3f)
(T (W xff xff xff xff x01 x00 x00 x00)
(L (W xff xff xff xff xff xff xff xff))
(L (W xda x7a xff xff x74 x00 x00 x00)))
(T (W xff xff xff xff xff xff xff xff)
(L (W x00 x00 x00 x00 x00 x00 x00 x00)) E))
(T (W xda xfa xfa xff x74 x00 x00 x00)
(T (W x00 x00 x00 x00 xba xfb xfb xff)
(L (W xff xff xff xff xc0 x00 x00 x00))
(L (W xff xff xff xff xff xff xff xff)))
(T (W x00 x00 x80 xbf x00 x00 x80 xbf)
(L (W x4f x84 x6f x8b xe8 xcb x63 xb7)) E)))
(T (W xff xff xff xff xff xff xff xff)
(T (W xff xff xff xff xff xff xff xff)
(T (W x67 x72 x6f x75 x70 x5f x6c x65)
(L (W x18 x00 x00 x00 x10 x00 x00 x00))
(L (W x00 x00 x00 x00 x00 x00 x00 x00)))
(T (W xff xff xff xff xff xff xff xff)
(L (W xff xff xff xff xbc x00 x00 x00)) E))
(T (W x45 x26 x22 x84 xe4 x9c xf2 xcb)
(T (W x34 x01 x00 x00 x04 x00 x00 x00)
(L (W x54 x00 x00 x00 x48 x00 x00 x00)) E)
(T (W x34 x4d xfd xff x17 x00 x00 x00)
(L (W xff xff xff xff xff xff xff xff)) E))))
(T (W x00 x00 x00 x00 x00 x00 x00 x00)
(T (W x01 x00 x00 x00 x3e x00 x00 x00)
(T (W x9b x00 x00 x00 xff xff xff xff)
(T (W xff xff xff xff xff xff xff xff)
(L (W xc9 x00 x00 x00 xff xff xff xff))
(L (W x00 x00 x00 x00 x12 x00 x00 x00)))
(T (W x00 x00 x00 x00 x1c x9e xfc xff)
(L (W x00 x00 x80 xbf x00 x00 x80 xbf)) E))
(T (W xff xff xff xff xff xff xff xff)
(T (W x00 x00 x80 x3f x00 x00 x80 x3f)
(L (W x00 x00 x00 x00 x00 x00 x00 x00)) E)
(T (W xff xff xff xff xb0 x00 x00 x00)
(L (W xc4 x00 x00 x00 x02 x00 x00 x00)) E)))
(T (W x68 x00 x00 x00 x5c x00 x00 x00)
(T (W x18 x00 x00 x00 x0c x00 x00 x00)
(T (W xb8 x00 x00 x00 x28 x00 x00 x00)
(L (W x00 x00 x00 x00 x00 x00 x00 x00))
(L (W x00 x00 x80 xbf x00 x00 x80 xbf)))
(T (W x19 x00 x00 x00 x1c x00 x00 x00)
(L (W x30 x32 x5f x43 x4c x45 x41 x52)) E))
(T (W xff xff xff xff xff xff xff xff)
(T (W x00 x00 x80 x3f x00 x00 x80 x3f)
(L (W x00 x00 x01 x01 x2a x00 x00 x00)) E)
(T (W xff xff xff xff xff xff xff xff)
(L (W x00 x00 x80 xbf x00 x00 x80 xbf)) E)))))
(T (W x00 x00 x00 x00 x00 x00 x00 x00)
(T (W x8a xcc xf9 xff x78 x00 x00 x00)
(T (W xef xb2 x62 x14 x77 xc5 x0a x98)
(T (W x45 x26 x22 x84 xe4 x9c xf2 xcb)
(T (W x00 x00 x00 x00 x00 x00 x00 x00)
(L (W xff xff xff xff xff xff xff xff))
(L (W xff xff xff xff xff xff xff xff)))
(T (W xda x8a xfc xff x74 x00 x00 x00)
(L (W x00 x00 x80 xbf x00 x00 x80 xbf)) E))
(T (W xa4 x01 x00 x00 xff xff xff xff)
(T (W x00 x00 x00 x00 x00 x00 x00 x00)
(L (W x5c x00 x00 x00 xff xff xff xff)) E)
(T (W xff xff xff xff xff xff xff xff)
(L (W x54 x00 x00 x00 x48 x00 x00 x00)) E)))
(T (W x45 x26 x22 x84 xe4 x9c xf2 xcb)
(T (W xff xff xff xff x03 x00 x00 x00)
(T (W x00 x00 x80 x3f x00 x00 x80 x3f)
(L (W xff xff xff xff xff xff xff xff))
(L (W x45 x26 x22 x84 xe4 x9c xf2 xcb)))
(T (W x00 x00 x00 x00 x00 x00 x62 x00)
(L (W x9f x01 x00 x00 xff xff xff xff)) E))
(T (W x45 x26 x22 x84 xe4 x9c xf2 xcb)
(T (W x00 x00 x00 x00 x00 x00 x00 x00)
(L (W xcc x00 x00 x00 x02 x00 x00 x00)) E)
(T (W x45 x26 x22 x84 xe4 x9c xf2 xcb)
(L (W x00 x00 x00 x00 x00 x00 x00 x00)) E))))
(T (W x34 xfd xf9 xff x3c x00 x00 x00)
(T (W xff xff xff xff xff xff xff xff)
(T (W xff xff xff xff xff xff xff xff)
(T (W x00 x00 x80 x3f x00 x00 x80 x3f)
(L (W xb0 x00 x00 x00 x64 x00 x00 x00))
(L (W x00 x00 x01 x01 x5f x00 x00 x00)))
(T (W xc2 xbd xff xff x6f x00 x00 x00)
(L (W xff xff xff xff xa0 x00 x00 x00)) E))
(T (W x00 x00 x00 x00 x00 x00 x00 x00)
(T (W xd4 x00 x00 x00 xc8 x00 x00 x00)
(L (W x00 x00 x80 xbf x00 x00 x80 xbf)) E)
(T (W xcc x00 x00 x00 x02 x00 x00 x00)
(L (W xff xff xff xff xff xff xff xff)) E)))
(T (W x00 x00 x80 x3f x00 x00 x80 x3f)
(T (W x00 x00 x80 x3f x00 x00 x80 x3f)
(T (W xff xff xff xff xbc x00 x00 x00)
(L (W x8a xec xfd xff x78 x00 x00 x00))
(L (W x6c x00 x00 x00 x60 x00 x00 x00)))
(T (W x28 x00 x00 x00 x1e x00 x00 x00)
(L (W x00 x00 x80 xbf x00 x00 x80 xbf)) E))
(T (W x49 xa1 x68 x4a xeb x5f xdd x3d)
(T (W xff xff xff xff xff xff xff xff)
(L (W x00 x00 x00 x00 x00 x00 x00 x00)) E)
(T (W x00 x00 x00 x00 xba x6b xfd xff)
(L (W x00 x00 x80 xbf x00 x00 x80 xbf)) E))))))
(T (W x6c x00 x00 x00 x60 x00 x00 x00)
(T (W x18 x00 x00 x00 x10 x00 x00 x00)
(T (W xc9 x00 x00 x00 xff xff xff xff)
(T (W x00 x00 x00 x00 x00 x00 x00 x00)
(T (W x00 x00 x80 x3f x00 x00 x80 x3f)
(T (W xa1 x01 x00 x00 xff xff xff xff)
(L (W x03 x00 x00 x00 xcc x00 x00 x00))
(L (W xff xff xff xff xff xff xff xff)))
(T (W xff xff xff xff xff xff xff xff)
(L (W x00 x00 x80 xbf x00 x00 x80 xbf)) E))
(T (W xff xff xff xff xff xff xff xff)
(T (W x00 x00 x00 x00 x00 x00 x00 x00)
(L (W xff xff xff xff xff xff xff xff)) E)
(T (W x00 x00 x80 xbf x00 x00 x80 xbf)
(L (W x00 x00 x80 xbf x00 x00 x80 xbf)) E)))
(T (W xff xff xff xff xff xff xff xff)
(T (W xff xff xff xff xff xff xff xff)
(T (W x00 x00 x80 x3f x00 x00 x80 x3f)
(L (W x00 x00 x00 x00 x0a xca xfd xff))
(L (W x00 x00 x00 x00 x00 x00 x00 x00)))
(T (W xd8 x00 x00 x00 x64 x00 x00 x00)
(L (W xff xff xff xff xff xff xff xff)) E))
(T (W xff xff xff xff x01 x00 x00 x00)
(T (W x00 x00 x00 x00 x00 x00 x00 x00)
(L (W x8a x44 xfe xff x78 x00 x00 x00)) E)
(T (W x00 x00 x00 x00 x00 x00 x00 x00)
(L (W x30 x32 x5f x43 x4c x45 x41 x52)) E))))
(T (W x00 x00 x00 x00 x00 x00 x00 x00)
(T (W xff xff xff xff xff xff xff xff)
(T (W xff xff xff xff xff xff xff xff)
(T (W x00 x00 x00 x00 x00 x00 x00 x00)
(L (W x00 x00 x00 x00 x00 x00 x00 x00))
(L (W xb4 x00 x00 x00 x50 x00 x00 x00)))
(T (W x71 x00 x00 x00 xff xff xff xff)
(L (W x18 x00 x00 x00 x0c x00 x00 x00)) E))
(T (W xa4 x01 x00 x00 xff xff xff xff)
(T (W x00 x00 x80 x3f x00 x00 x80 x3f)
(L (W x00 x00 x00 x00 x00 x00 x00 x00)) E)
(T (W x00 x00 x00 x00 x1c x26 xfd xff)
(L (W xff xff xff xff xc0 x00 x00 x00)) E)))
(T (W x00 x00 x80 x3f x00 x00 x80 x3f)
(T (W xda xe2 xfa xff x74 x00 x00 x00)
(T (W xff xff xff xff x03 x00 x00 x00)
(L (W x00 x00 x00 x00 x00 x00 x00 x00))
(L (W x00 x00 x80 xbf x00 x00 x80 xbf)))
(T (W x00 x00 x80 x3f x00 x00 x80 x3f)
(L (W x00 x00 x00 x00 x00 x00 x00 x00)) E))
(T (W x00 x00 x00 x00 x00 x00 x00 x00)
(T (W x18 x00 x00 x00 x0c x00 x00 x00)
(L (W x30 x32 x5f x43 x4c x45 x41 x52)) E)
(T (W xff xff xff xff xff xff xff xff)
(L (W x00 x00 x80 xbf x00 x00 x80 xbf)) E)))))
(T (W xff xff xff xff xff xff xff xff)
(T (W x00 x00 x00 x00 x00 x00 x00 x00)
(T (W x45 x26 x22 x84 xe4 x9c xf2 xcb)
(T (W x00 x00 x80 x3f x00 x00 x80 x3f)
(T (W x00 x00 x80 x3f x00 x00 x80 x3f)
(L (W xff xff xff xff xff xff xff xff))
(L (W x94 x04 x00 x00 x80 x03 x00 x00)))
(T (W x68 x00 x00 x00 x5c x00 x00 x00)
(L (W x00 x00 x80 xbf x00 x00 x80 xbf)) E))
(T (W x2c x00 x00 x00 xac x00 x00 x00)
(T (W x45 x26 x22 x84 xe4 x9c xf2 xcb)
(L (W x00 x00 x00 x00 x00 x00 x00 x00)) E)
(T (W xda x12 xfd xff x74 x00 x00 x00)
(L (W xff xff xff xff xc8 x00 x00 x00)) E)))
(T (W x18 x00 x00 x00 x0c x00 x00 x00)
(T (W xff xff xff xff xff xff xff xff)
(T (W x00 x00 x80 x3f x00 x00 x80 x3f)
(L (W x30 x32 x5f x43 x4c x45 x41 x52))
(L (W x00 x00 x80 xbf x00 x00 x80 xbf)))
(T (W x45 x26 x22 x84 xe4 x9c xf2 xcb)
(L (W x45 x44 x00 x00 x00 x00 x00 x00)) E))
(T (W x01 x00 x00 x00 x21 x00 x00 x00)
(T (W x4f x84 x6f x8b xe8 xcb x63 xb7)
(L (W xff xff xff xff xff xff xff xff)) E)
(T (W xac x57 xfd xff x00 x01 x01 x01)
(L (W x4f x84 x6f x8b xe8 xcb x63 xb7)) E))))
(T (W x68 xa5 x04 xa4 x31 x2e x25 xc2)
(T (W xff xff xff xff x03 x00 x00 x00)
(T (W xff xff xff xff xff xff xff xff)
(T (W xff xff xff xff xbc x00 x00 x00)
(L (W x00 x00 x00 x00 x00 x00 x00 x00))
(L (W x00 x00 x00 x00 x00 x00 x00 x00)))
(T (W xff xff xff xff xff xff xff xff)
(L (W x0f x00 x00 x00 x12 x00 x00 x00)) E))
(T (W x00 x00 x80 x3f x00 x00 x80 x3f)
(T (W xff xff xff xff xff xff xff xff)
(L (W x00 x00 x80 xbf x00 x00 x80 xbf)) E)
(T (W xff xff xff xff xff xff xff xff)
(L (W xff xff xff xff xff xff xff xff)) E)))
(T (W x00 x00 x80 x3f x00 x00 x80 x3f)
(T (W xff xff xff xff xff xff xff xff)
(T (W x3a xfd xfe xff x00 x00 x01 x01)
(L (W xff xff xff xff xb0 x00 x00 x00))
(L (W x15 x00 x00 x00 x18 x00 x00 x00)))
(T (W x45 x26 x22 x84 xe4 x9c xf2 xcb)
(L (W x45 x26 x22 x84 xe4 x9c xf2 xcb)) E))
(T (W xda x72 xfb xff x74 x00 x00 x00)
(T (W x42 x87 xff xff x00 x00 x01 x01)
(L (W x00 x00 x80 xbf x00 x00 x80 xbf)) E)
(T (W xff xff xff xff xff xff xff xff)
(L (W x54 x00 x00 x00 x48 x00 x00 x00)) E)))))))))
(T (W x48 x94 x02 x00 xa4 x8f x02 x00)
(T (W x60 xe0 x00 x00 x2c xdf x00 x00)
(T (W xff xff xff xff x04 x00 x00 x00)
(T (W x00 x00 x80 x3f x00 x00 x80 x3f)
(T (W xff xff xff xff xff xff xff xff)
(T (W x00 x00 x00 x00 x00 x00 x00 x00)
(T (W x00 x00 x80 x3f x00 x00 x80 x3f)
(T (W xff xff xff xff xff xff xff xff)
(T (W x00 x00 x00 x00 x00 x00 x00 x00)
(L (W x00 x00 x00 x00 x00 x00 x00 x00))
(L (W x00 x00 x00 x00 x00 x00 x00 x00)))
(T (W x45 x26 x22 x84 xe4 x9c xf2 xcb)
(L (W xff xff xff xff xa0 x00 x00 x00)) E))
(T (W x00 x00 x00 x00 x00 x00 x00 x00)
(T (W x49 xa1 x68 x4a xeb x5f xdd x3d)
(L (W x00 x00 x00 x00 x00 x00 x00 x00))
(L (W x00 x00 x00 x00 x00 x00 x00 x00)))
(T (W x54 x00 x00 x00 x58 x00 x5c x00)
(L (W xff xff xff xff xff xff xff xff)) E)))
(T (W x34 x48 xfa xff x3c x00 x00 x00)
(T (W x00 x00 x00 x00 x00 x00 x00 x00)
(T (W x00 x00 x00 x00 x00 x00 x00 x00)
(L (W x00 x00 x80 xbf x00 x00 x80 xbf))
(L (W x00 x00 x80 xbf x00 x00 x80 xbf)))
(T (W x00 x00 x00 x00 x00 x00 x00 x00)
(L (W x45 x44 x00 x00 x00 x00 x00 x00)) E))
(T (W xff xff xff xff xff xff xff xff)
(T (W x00 x00 x00 x00 x00 x00 x00 x00)
(L (W xff xff xff xff xff xff xff xff)) E)
(T (W x45 x26 x22 x84 xe4 x9c xf2 xcb)
(L (W x00 x00 x00 x00 x00 x00 x00 x00)) E))))
(T (W x00 x00 x80 x3f x00 x00 x80 x3f)
(T (W x64 x00 x00 x00 x9c x00 x00 x00)
(T (W x00 x00 x00 x00 x00 x00 x00 x00)
(T (W x00 x00 x00 x00 x00 x00 x00 x00)
(L (W x4f x84 x6f x8b xe8 xcb x63 xb7))
(L (W x00 x00 x80 xbf x00 x00 x80 xbf)))
(T (W xff xff xff xff xff xff xff xff)
(L (W xff xff xff xff xff xff xff xff)) E))
(T (W x00 x00 x00 x00 x00 x00 x00 x00)
(T (W xff xff xff xff xff xff xff xff)
(L (W x00 x00 x80 xbf x00 x00 x80 xbf)) E)
(T (W x00 x00 x80 xbf x00 x00 x80 xbf)
(L (W x00 x00 x00 x00 x00 x00 x00 x00)) E)))
(T (W x00 x00 x00 x00 x00 x00 x00 x00)
(T (W x00 x00 x00 x00 x00 x00 x00 x00)
(T (W x00 x00 x00 x00 x0a xdd xfb xff)
(L (W x00 x00 x80 xbf x00 x00 x80 xbf))
(L (W x18 x00 x00 x00 x10 x00 x00 x00)))
(T (W xff xff xff xff xff xff xff xff)
(L (W x00 x00 x80 xbf x00 x00 x80 xbf)) E))
(T (W x00 x00 x00 x00 x12 x00 x00 x00)
(T (W x00 x00 x00 x00 x1c x59 xfc xff)
(L (W x00 x00 x00 x00 x00 x00 x00 x00)) E)
(T (W x45 x44 x00 x00 x00 x00 x00 x00)
(L (W x18 x00 x00 x00 x10 x00 x00 x00)) E)))))
(T (W xff xff xff xff xff xff xff xff)
(T (W x00 x00 x00 x00 x00 x00 x00 x00)
(T (W x00 x00 x80 x3f x00 x00 x80 x3f)
(T (W x45 x26 x22 x84 xe4 x9c xf2 xcb)
(T (W x45 x26 x22 x84 xe4 x9c xf2 xcb)
(L (W x5f x4e x53 x5f x30 x32 x5f x43))
(L (W x00 x00 x00 x00 x12 x00 x00 x00)))
(T (W x00 x00 x00 x00 x00 x00 x00 x00)
(L (W xff xff xff xff xc8 x00 x00 x00)) E))
(T (W x45 x26 x22 x84 xe4 x9c xf2 xcb)
(T (W x54 x00 x00 x00 x48 x00 x00 x00)
(L (W x00 x00 x00 x00 x00 x00 x00 x00)) E)
(T (W xff xff xff xff xff xff xff xff)
(L (W xff xff xff xff xff xff xff xff)) E)))
(T (W xff xff xff xff xff xff xff xff)
(T (W x00 x00 x00 x00 x00 x00 x00 x00)
(T (W x18 x00 x00 x00 x10 x00 x00 x00)
(L (W x00 x00 x80 xbf x00 x00 x80 xbf))
(L (W x68 x00 x00 x00 x5c x00 x00 x00)))
(T (W x58 x00 x00 x00 x5c x00 x00 x00)
(L (W x00 x00 x80 xbf x00 x00 x80 xbf)) E))
(T (W x00 x00 x80 x3f x00 x00 x80 x3f)
(T (W x50 x00 x00 x00 x44 x00 x00 x00)
(L (W xff xff xff xff xff xff xff xff)) E)
(T (W xda x45 xfd xff x74 x00 x00 x00)
(L (W x00 x00 x80 xbf x00 x00 x80 xbf)) E))))
(T (W x8a xe7 xf9 xff x78 x00 x00 x00)
(T (W x00 x00 x00 x00 x00 x00 x00 x00)
(T (W x00 x00 x80 x3f x00 x00 x80 x3f)
(T (W xc8 x00 x00 x00 xbc x00 x00 x00)
(L (W x00 x00 x80 xbf x00 x00 x80 xbf))
(L (W x45 x26 x22 x84 xe4 x9c xf2 xcb)))
(T (W x45 x26 x22 x84 xe4 x9c xf2 xcb)
(L (W x3b x01 x00 x00 xff xff xff xff)) E))
(T (W x00 x00 x80 x3f x00 x00 x80 x3f)
(T (W xff xff xff xff xff xff xff xff)
(L (W x18 x00 x00 x00 x0c x00 x00 x00)) E)
(T (W x18 x00 x00 x00 x0c x00 x00 x00)
(L (W x00 x00 x00 x00 x00 x00 x00 x00)) E)))
(T (W xff xff xff xff xff xff xff xff)
(T (W x00 x00 x00 x00 xea xf6 xff xff)
(T (W x45 x44 x00 x00 x00 x00 x00 x00)
(L (W xff xff xff xff xff xff xff xff))
(L (W xff xff xff xff xff xff xff xff)))
(T (W x4c x45 x41 x52 x45 x44 x00 x00)
(L (W x8a xe7 xfe xff x78 x00 x00 x00)) E))
(T (W x24 x00 x00 x00 xb0 x00 x00 x00)
(T (W x00 x00 x80 x3f x00 x00 x80 x3f)
(L (W x00 x00 x80 xbf x00 x00 x80 xbf)) E)
(T (W x4f x84 x6f x8b xe8 xcb x63 xb7)
(L (W xff xff xff xff xff xff xff xff)) E))))))
(T (W x00 x00 x00 x00 x00 x00 x00 x00)
(T (W x45 x26 x22 x84 xe4 x9c xf2 xcb)
(T (W x45 x26 x22 x84 xe4 x9c xf2 xcb)
(T (W x00 x00 x80 x3f x00 x00 x80 x3f)
(T (W xb8 x00 x00 x00 xac x00 x00 x00)
(T (W x00 x00 x80 x3f x00 x00 x80 x3f)
(L (W x00 x00 x00 x00 x00 x00 x00 x00))
(L (W x00 x00 x00 x00 x00 x00 x00 x00)))
(T (W x00 x00 x00 x00 x00 x00 x00 x00)
(L (W x03 x00 x00 x00 xd0 x00 x00 x00)) E))
(T (W xff xff xff xff xff xff xff xff)
(T (W x00 x00 x80 x3f x00 x00 x80 x3f)
(L (W x00 x00 x00 x00 x00 x00 x00 x00))
(L (W xff xff xff xff xff xff xff xff)))
(T (W x67 x72 x6f x75 x70 x5f x77 x69)
(L (W xff xff xff xff xff xff xff xff)) E)))
(T (W x01 x00 x00 x00 x04 x00 x00 x00)
(T (W x00 x00 x00 x00 x00 x00 x00 x00)
(T (W x68 x00 x00 x00 x5c x00 x00 x00)
(L (W x00 x00 x00 x00 x00 x00 x00 x00))
(L (W x54 x00 x00 x00 x48 x00 x00 x00)))
(T (W x00 x00 x00 x00 x00 x00 x00 x00)
(L (W x00 x00 x00 x00 x00 x00 x00 x00)) E))
(T (W x00 x00 x00 x00 x00 x00 x00 x00)
(T (W x00 x00 x80 x3f x00 x00 x80 x3f)
(L (W xff xff xff xff xff xff xff xff)) E)
(T (W x6c x00 x00 x00 x60 x00 x00 x00)
(L (W x4f x84 x6f x8b xe8 xcb x63 xb7)) E))))
(T (W x00 x00 x80 x3f x00 x00 x80 x3f)
(T (W x00 x00 x00 x00 x00 x00 x00 x00)
(T (W x45 x26 x22 x84 xe4 x9c xf2 xcb)
(T (W x00 x00 x00 x00 x00 x00 x00 x00)
(L (W x00 x00 x80 xbf x00 x00 x80 xbf))
(L (W x00 x00 x80 xbf x00 x00 x80 xbf)))
(T (W x00 x00 x00 x00 x00 x00 x00 x00)
(L (W xff xff xff xff xff xff xff xff)) E))
(T (W x00 x00 x00 x00 x00 x00 x00 x00)
(T (W xff xff xff xff xff xff xff xff)
(L (W x00 x00 x00 x00 x1c x21 xfe xff)) E)
(T (W xff xff xff xff xff xff xff xff)
(L (W x00 x00 x00 x00 x00 x00 x00 x00)) E)))
(T (W x20 x01 x00 x00 x04 x00 x00 x00)
(T (W x18 x00 x00 x00 x10 x00 x00 x00)
(T (W x4b x00 x00 x00 xff xff xff xff)
(L (W x45 x26 x22 x84 xe4 x9c xf2 xcb))
(L (W x03 x00 x00 x00 xd0 x00 x00 x00)))
(T (W x00 x00 x00 x00 x00 x00 x00 x00)
(L (W x00 x00 x80 xbf x00 x00 x80 xbf)) E))
(T (W x00 x00 x80 x3f x00 x00 x80 x3f)
(T (W xff xff xff xff x03 x00 x00 x00)
(L (W x00 x00 x80 xbf x00 x00 x80 xbf)) E)
(T (W x00 x00 x00 x00 x00 x00 x00 x00)
(L (W x19 x00 x00 x00 x1c x00 x00 x00)) E)))))
(T (W x00 x00 x80 x3f x00 x00 x80 x3f)
(T (W xff xff xff xff xff xff xff xff)
(T (W x40 x00 x00 x00 x9c x00 x00 x00)
(T (W x01 x00 x00 x00 x9c x00 x00 x00)
(T (W xff xff xff xff xff xff xff xff)
(L (W x00 x00 x00 x00 x00 x00 x00 x00))
(L (W x00 x00 x80 xbf x00 x00 x80 xbf)))
(T (W x42 xa2 xff xff x00 x00 x01 x01)
(L (W xff xff xff xff xff xff xff xff)) E))
(T (W x00 x00 x80 x3f x00 x00 x80 x3f)
(T (W x00 x00 x00 x00 x1c x11 xfc xff)
(L (W x00 x00 x80 xbf x00 x00 x80 xbf)) E)
(T (W xff xff xff xff x9c x00 x00 x00)
(L (W xff xff xff xff xff xff xff xff)) E)))
(T (W x42 x62 xfd xff x00 x00 x01 x01)
(T (W x00 x00 x00 x00 x00 x00 x00 x00)
(T (W xff xff xff xff xff xff xff xff)
(L (W x00 x00 x80 xbf x00 x00 x80 xbf))
(L (W x45 x26 x22 x84 xe4 x9c xf2 xcb)))
(T (W xff xff xff xff xa0 x00 x00 x00)
(L (W x00 x00 x80 xbf x00 x00 x80 xbf)) E))
(T (W xff xff xff xff xff xff xff xff)
(T (W xac x52 xfc xff x00 x01 x01 x01)
(L (W x30 x32 x5f x43 x4c x45 x41 x52)) E)
(T (W xff xff xff xff xff xff xff xff)
(L (W x6c x00 x00 x00 x60 x00 x00 x00)) E))))
(T (W x00 x00 x80 x3f x00 x00 x80 x3f)
(T (W x00 x00 x00 x00 x00 x00 x00 x00)
(T (W x00 x00 x00 x00 x00 x00 x00 x00)
(T (W xff xff xff xff xff xff xff xff)
(L (W xff xff xff xff xff xff xff xff))
(L (W x00 x00 x80 xbf x00 x00 x80 xbf)))
(T (W x45 x26 x22 x84 xe4 x9c xf2 xcb)
(L (W xff xff xff xff xff xff xff xff)) E))
(T (W xb8 x00 x00 x00 x14 x00 x00 x00)
(T (W x00 x00 x00 x00 x00 x00 x00 x00)
(L (W xff xff xff xff xff xff xff xff)) E)
(T (W x00 x00 x00 x00 x00 x00 x00 x00)
(L (W x00 x00 x00 x00 x12 x00 x00 x00)) E)))
(T (W xff xff xff xff xff xff xff xff)
(T (W x7c x01 x00 x00 x04 x00 x00 x00)
(T (W x00 x00 x00 x00 x00 x00 x00 x00)
(L (W x54 x02 x00 x00 x38 x01 x00 x00))
(L (W xa4 x04 x00 x00 x88 x03 x00 x00)))
(T (W x45 x26 x22 x84 xe4 x9c xf2 xcb)
(L (W xff xff xff xff xc8 x00 x00 x00)) E))
(T (W xff xff xff xff xff xff xff xff)
(T (W x00 x00 x00 x00 x00 x00 x00 x00)
(L (W xac x72 xfe xff x00 x01 x01 x01)) E)
(T (W x00 x00 x80 xbf x00 x00 x80 xbf)
(L (W xff xff xff xff xff xff xff xff)) E)))))))
(T (W x00 x00 x00 x00 x00 x00 x00 x00)
(T (W xff xff xff xff xff xff xff xff)
(T (W x00 x00 x00 x00 x00 x00 x00 x00)
(T (W x00 x00 x80 x3f x00 x00 x80 x3f)
(T (W xc6 x01 x00 x00 xff xff xff xff)
(T (W x00 x00 x80 x3f x00 x00 x80 x3f)
(T (W x18 x00 x00 x00 x10 x00 x00 x00)
(L (W xff xff xff xff x9c x00 x00 x00))
(L (W x00 x00 x80 xbf x00 x00 x80 xbf)))
(T (W xff xff xff xff xff xff xff xff)
(L (W x46 x53 x59 x53 x5f x4e x53 x5f)) E))
(T (W x00 x00 x00 x00 x00 x00 x00 x00)
(T (W xff xff xff xff xff xff xff xff)
(L (W x45 x26 x22 x84 xe4 x9c xf2 xcb))
(L (W x00 x00 x80 xbf x00 x00 x80 xbf)))
(T (W x61 x6c x6c x68 x65 x6c x70 x5f)
(L (W x00 x00 x00 x00 x00 x00 x00 x00)) E)))
(T (W x01 x00 x00 x00 x3e x00 x00 x00)
(T (W xff xff xff xff xff xff xff xff)
(T (W xff xff xff xff xff xff xff xff)
(L (W x00 x00 x00 x00 x1c xbd xfd xff))
(L (W x45 x44 x00 x00 x00 x00 x00 x00)))
(T (W xb8 x00 x00 x00 xac x00 x00 x00)
(L (W x45 x26 x22 x84 xe4 x9c xf2 xcb)) E))
(T (W x00 x00 x80 x3f x00 x00 x80 x3f)
(T (W xff xff xff xff xff xff xff xff)
(L (W x00 x00 x80 xbf x00 x00 x80 xbf)) E)
(T (W xff xff xff xff xff xff xff xff)
(L (W xff xff xff xff xff xff xff xff)) E))))
(T (W xff xff xff xff x01 x00 x00 x00)
(T (W x00 x00 x00 x00 x00 x00 x00 x00)
(T (W xff xff xff xff xff xff xff xff)
(T (W xff xff xff xff x03 x00 x00 x00)
(L (W xff xff xff xff xff xff xff xff))
(L (W x44 x02 x00 x00 x30 x01 x00 x00)))
(T (W xda x99 xfc xff x74 x00 x00 x00)
(L (W x00 x00 x80 xbf x00 x00 x80 xbf)) E))
(T (W xd4 x00 x00 x00 xc8 x00 x00 x00)
(T (W x00 x00 x00 x00 x00 x00 x00 x00)
(L (W xa4 x04 x00 x00 x88 x03 x00 x00)) E)
(T (W x00 x00 x80 xbf x00 x00 x80 xbf)
(L (W x45 x26 x22 x84 xe4 x9c xf2 xcb)) E)))
(T (W x00 x00 x80 x3f x00 x00 x80 x3f)
(T (W x00 x00 x80 x3f x00 x00 x80 x3f)
(T (W xac xde xfb xff x00 x01 x01 x01)
(L (W x45 x44 x00 x00 x00 x00 x00 x00))
(L (W x4f x84 x6f x8b xe8 xcb x63 xb7)))
(T (W x00 x00 x00 x00 x1c xdd xfc xff)
(L (W xff xff xff xff xff xff xff xff)) E))
(T (W xff xff xff xff xff xff xff xff)
(T (W x00 x00 x00 x00 x00 x00 x00 x00)
(L (W xb8 x00 x00 x00 x64 x00 x00 x00)) E)
(T (W x18 x00 x00 x00 x0c x00 x00 x00)
(L (W x00 x00 x00 x00 x00 x00 x00 x00)) E)))))
(T (W x00 x00 x00 x00 x00 x00 x00 x00)
(T (W x00 x00 x80 x3f x00 x00 x80 x3f)
(T (W xff xff xff xff xff xff xff xff)
(T (W x00 x00 x00 x00 x00 x00 x00 x00)
(T (W x00 x00 x00 x00 x0a x91 xfb xff)
(L (W xff xff xff xff xac x00 x00 x00))
(L (W xc4 x00 x00 x00 x02 x00 x00 x00)))
(T (W x68 x00 x00 x00 x5c x00 x00 x00)
(L (W x00 x00 x80 xbf x00 x00 x80 xbf)) E))
(T (W xff xff xff xff xff xff xff xff)
(T (W x00 x00 x00 x00 x00 x00 x00 x00)
(L (W xff xff xff xff xff xff xff xff)) E)
(T (W x45 x26 x22 x84 xe4 x9c xf2 xcb)
(L (W x00 x00 x80 xbf x00 x00 x80 xbf)) E)))
(T (W x8a x4b xfa xff x78 x00 x00 x00)
(T (W x01 x00 x00 x00 xa0 x00 x00 x00)
(T (W x4f x84 x6f x8b xe8 xcb x63 xb7)
(L (W xff xff xff xff xff xff xff xff))
(L (W x00 x00 x00 x00 x00 x00 x00 x00)))
(T (W xff xff xff xff xff xff xff xff)
(L (W xff xff xff xff xff xff xff xff)) E))
(T (W x00 x00 x00 x00 x00 x00 x00 x00)
(T (W x00 x00 x00 x00 x00 x00 x00 x00)
(L (W x45 x26 x22 x84 xe4 x9c xf2 xcb)) E)
(T (W x00 x00 x00 x00 x00 x00 x00 x00)
(L (W x45 x44 x00 x00 x00 x00 x00 x00)) E))))
(T (W xff xff xff xff xff xff xff xff)
(T (W x45 x26 x22 x84 xe4 x9c xf2 xcb)
(T (W xff xff xff xff xff xff xff xff)
(T (W x00 x00 x00 x00 x00 x00 x00 x00)
(L (W x18 x00 x00 x00 x10 x00 x00 x00))
(L (W xff xff xff xff xff xff xff xff)))
(T (W xff xff xff xff xff xff xff xff)
(L (W x6c x00 x00 x00 x60 x00 x00 x00)) E))
(T (W x9b x02 x03 x1d x69 xd1 xed xbd)
(T (W x00 x00 x80 x3f x00 x00 x80 x3f)
(L (W x00 x00 x00 x00 x00 x00 x00 x00)) E)
(T (W x45 x26 x22 x84 xe4 x9c xf2 xcb)
(L (W xbc x00 x00 x00 x1e x00 x00 x00)) E)))
(T (W x00 x00 x80 x3f x00 x00 x80 x3f)
(T (W x00 x00 x80 x3f x00 x00 x80 x3f)
(T (W x45 x26 x22 x84 xe4 x9c xf2 xcb)
(L (W x00 x00 x80 xbf x00 x00 x80 xbf))
(L (W x00 x00 x80 xbf x00 x00 x80 xbf)))
(T (W xac xee xfc xff x00 x01 x01 x01)
(L (W x00 x00 x00 x00 x00 x00 x00 x00)) E))
(T (W x00 x00 x00 x00 x00 x00 x00 x00)
(T (W xff xff xff xff xff xff xff xff)
(L (W x30 x32 x5f x43 x4c x45 x41 x52)) E)
(T (W xff xff xff xff xff xff xff xff)
(L (W x00 x00 x00 x00 x00 x00 x00 x00)) E))))))
(T (W x00 x00 x80 x3f x00 x00 x80 x3f)
(T (W xac xa6 xf9 xff x00 x01 x01 x01)
(T (W xff xff xff xff xff xff xff xff)
(T (W x42 x16 xfd xff x00 x00 x01 x01)
(T (W x00 x00 x00 x00 x00 x00 x00 x00)
(T (W xff xff xff xff xff xff xff xff)
(L (W xac x86 xfd xff x00 x01 x01 x01))
(L (W x68 x00 x00 x00 x5c x00 x00 x00)))
(T (W xda x81 xfc xff x74 x00 x00 x00)
(L (W x00 x00 x00 x00 x00 x00 x00 x00)) E))
(T (W x01 x00 x00 x00 x29 x00 x00 x00)
(T (W x00 x00 x00 x00 x00 x00 x00 x00)
(L (W xff xff xff xff xc0 x00 x00 x00)) E)
(T (W x63 x6f x77 x61 x72 x64 x5f x63)
(L (W x49 xa1 x68 x4a xeb x5f xdd x3d)) E)))
(T (W x68 x00 x00 x00 x5c x00 x00 x00)
(T (W x18 x00 x00 x00 x10 x00 x00 x00)
(T (W x00 x00 x00 x00 x00 x00 x00 x00)
(L (W xff xff xff xff xff xff xff xff))
(L (W x16 x00 x00 x00 x0c x00 x00 x00)))
(T (W x50 x00 x00 x00 x44 x00 x00 x00)
(L (W xff xff xff xff xff xff xff xff)) E))
(T (W xff xff xff xff xff xff xff xff)
(T (W xff xff xff xff xff xff xff xff)
(L (W x00 x00 x80 xbf x00 x00 x80 xbf)) E)
(T (W x00 x00 x00 x00 x00 x00 x00 x00)
(L (W xff xff xff xff xff xff xff xff)) E))))
(T (W xc0 x02 x00 x00 xff xff xff xff)
(T (W xff xff xff xff x04 x00 x00 x00)
(T (W xb8 x00 x00 x00 xac x00 x00 x00)
(T (W x00 x00 x00 x00 xba xa2 xfb xff)
(L (W x00 x00 x00 x00 x00 x00 x00 x00))
(L (W xac xa6 xff xff x00 x01 x01 x01)))
(T (W xff xff xff xff xff xff xff xff)
(L (W x8a xa3 xfe xff x78 x00 x00 x00)) E))
(T (W xff xff xff xff xff xff xff xff)
(T (W x00 x00 x80 x3f x00 x00 x80 x3f)
(L (W x00 x00 x00 x00 x00 x00 x00 x00)) E)
(T (W x00 x00 x80 xbf x00 x00 x80 xbf)
(L (W x45 x26 x22 x84 xe4 x9c xf2 xcb)) E)))
(T (W x45 x26 x22 x84 xe4 x9c xf2 xcb)
(T (W x00 x00 x80 x3f x00 x00 x80 x3f)
(T (W x50 x00 x00 x00 x44 x00 x00 x00)
(L (W x00 x00 x00 x00 x00 x00 x00 x00))
(L (W x00 x00 x80 xbf x00 x00 x80 xbf)))
(T (W x1b x00 x00 x00 x67 x72 x6f x75)
(L (W x30 x32 x5f x43 x4c x45 x41 x52)) E))
(T (W x30 x32 x5f x43 x4c x45 x41 x52)
(T (W x00 x00 x00 x00 x00 x00 x00 x00)
(L (W xff xff xff xff xff xff xff xff)) E)
(T (W xff xff xff xff x9c x00 x00 x00)
(L (W x00 x00 x00 x00 x00 x00 x00 x00)) E)))))
(T (W xff xff xff xff xff xff xff xff)
(T (W x00 x00 x00 x00 x00 x00 x00 x00)
(T (W x00 x00 x00 x00 x00 x00 x00 x00)
(T (W x00 x00 x00 x00 x00 x00 x00 x00)
(T (W x00 x00 x80 x3f x00 x00 x80 x3f)
(L (W xff xff xff xff xff xff xff xff))
(L (W xff xff xff xff xff xff xff xff)))
(T (W x00 x00 x80 x3f x00 x00 x80 x3f)
(L (W x00 x00 x80 xbf x00 x00 x80 xbf)) E))
(T (W x00 x00 x00 x00 x00 x00 x00 x00)
(T (W x00 x00 x00 x00 x00 x00 x00 x00)
(L (W x5d x00 x00 x00 xff xff xff xff)) E)
(T (W x00 x00 x80 xbf x00 x00 x80 xbf)
(L (W x45 x26 x22 x84 xe4 x9c xf2 xcb)) E)))
(T (W x00 x00 x80 x3f x00 x00 x80 x3f)
(T (W xda xd1 xfa xff x74 x00 x00 x00)
(T (W x45 x26 x22 x84 xe4 x9c xf2 xcb)
(L (W xff xff xff xff xff xff xff xff))
(L (W x00 x00 x00 x00 x00 x00 x00 x00)))
(T (W x00 x00 x80 x3f x00 x00 x80 x3f)
(L (W xff xff xff xff xff xff xff xff)) E))
(T (W x45 x26 x22 x84 xe4 x9c xf2 xcb)
(T (W x16 x00 x00 x00 x10 x00 x00 x00)
(L (W xcc x00 x00 x00 x01 x00 x00 x00)) E)
(T (W x54 x00 x00 x00 x48 x00 x00 x00)
(L (W x00 x00 x00 x00 x00 x00 x00 x00)) E))))
(T (W xff xff xff xff xff xff xff xff)
(T (W x68 x00 x00 x00 x5c x00 x00 x00)
(T (W xff xff xff xff xff xff xff xff)
(T (W x45 x26 x22 x84 xe4 x9c xf2 xcb)
(L (W x00 x00 x00 x00 x00 x00 x00 x00))
(L (W xff xff xff xff xff xff xff xff)))
(T (W xff xff xff xff xff xff xff xff)
(L (W x00 x00 x00 x00 x1c xb5 xfe xff)) E))
(T (W x4f x84 x6f x8b xe8 xcb x63 xb7)
(T (W xff xff xff xff xff xff xff xff)
(L (W x00 x00 x00 x00 x00 x00 x00 x00)) E)
(T (W xff xff xff xff xff xff xff xff)
(L (W x03 x00 x00 x00 xd8 x00 x00 x00)) E)))
(T (W x00 x00 x80 x3f x00 x00 x80 x3f)
(T (W xff xff xff xff xff xff xff xff)
(T (W x18 x00 x00 x00 x10 x00 x00 x00)
(L (W x8a xf3 xfd xff x78 x00 x00 x00))
(L (W x00 x00 x00 x00 x1c xf5 xff xff)))
(T (W x00 x00 x00 x00 x00 x00 x00 x00)
(L (W x00 x00 x00 x00 x00 x00 x00 x00)) E))
(T (W x00 x00 x80 x3f x00 x00 x80 x3f)
(T (W x00 x00 x00 x00 x1c x75 xfc xff)
(L (W x34 x84 xfe xff x15 x00 x00 x00)) E)
(T (W xff xff xff xff xff xff xff xff)
(L (W x00 x00 x80 xbf x00 x00 x80 xbf)) E))))))))
(T (W x8a x7d xf9 xff x78 x00 x00 x00)
(T (W xff xff xff xff xff xff xff xff)
(T (W xac x8c xf9 xff x00 x01 x01 x01)
(T (W xff xff xff xff x01 x00 x00 x00)
(T (W x00 x00 x00 x00 x00 x00 x00 x00)
(T (W xb8 x00 x00 x00 xac x00 x00 x00)
(T (W x00 x00 x00 x00 x00 x00 x00 x00)
(T (W x00 x00 x80 x3f x00 x00 x80 x3f)
(L (W x00 x00 x80 xbf x00 x00 x80 xbf))
(L (W x00 x00 x00 x00 x00 x00 x00 x00)))
(T (W x68 x00 x00 x00 x5c x00 x00 x00)
(L (W xff xff xff xff xff xff xff xff)) E))
(T (W x42 x0c xfe xff x00 x00 x01 x01)
(T (W x1e x00 x00 x00 xb0 x00 x00 x00)
(L (W x00 x00 x80 xbf x00 x00 x80 xbf))
(L (W xff xff xff xff xff xff xff xff)))
(T (W x64 x00 x00 x00 x1a x00 x00 x00)
(L (W x00 x00 x01 x01 x96 x01 x00 x00)) E)))
(T (W x00 x00 x80 x3f x00 x00 x80 x3f)
(T (W x54 x00 x00 x00 x48 x00 x00 x00)
(T (W x68 x00 x00 x00 x5c x00 x00 x00)
(L (W x00 x00 x80 xbf x00 x00 x80 xbf))
(L (W x18 x00 x00 x00 x10 x00 x00 x00)))
(T (W x00 x00 x80 x3f x00 x00 x80 x3f)
(L (W x00 x00 x80 xbf x00 x00 x80 xbf)) E))
(T (W xdc x40 xfb xff x10 x00 x00 x00)
(T (W x45 x26 x22 x84 xe4 x9c xf2 xcb)
(L (W x18 x00 x00 x00 x0c x00 x00 x00)) E)
(T (W x45 x26 x22 x84 xe4 x9c xf2 xcb)
(L (W x00 x00 x80 xbf x00 x00 x80 xbf)) E))))
(T (W xda xd7 xf9 xff x74 x00 x00 x00)
(T (W x00 x00 x00 x00 x02 x00 x00 x00)
(T (W xac x9c xfa xff x00 x01 x01 x01)
(T (W x49 xa1 x68 x4a xeb x5f xdd x3d)
(L (W xda x97 xfd xff x74 x00 x00 x00))
(L (W x18 x00 x00 x00 x0c x00 x00 x00)))
(T (W x00 x00 x00 x00 x00 x00 x00 x00)
(L (W x00 x00 x00 x00 x12 x00 x00 x00)) E))
(T (W x00 x00 x80 x3f x00 x00 x80 x3f)
(T (W x00 x00 x00 x00 x00 x00 x00 x00)
(L (W xff xff xff xff xb0 x00 x00 x00)) E)
(T (W x00 x00 x00 x00 x00 x00 x00 x00)
(L (W x00 x00 x80 xbf x00 x00 x80 xbf)) E)))
(T (W x00 x00 x00 x00 x00 x00 x00 x00)
(T (W x45 x26 x22 x84 xe4 x9c xf2 xcb)
(T (W x00 x00 x00 x00 x00 x00 x00 x00)
(L (W xff xff xff xff xbc x00 x00 x00))
(L (W x45 x44 x00 x00 x00 x00 x00 x00)))
(T (W x00 x00 x00 x00 x00 x00 x00 x00)
(L (W xcc x00 x00 x00 x02 x00 x00 x00)) E))
(T (W x00 x00 x80 x3f x00 x00 x80 x3f)
(T (W xff xff xff xff xff xff xff xff)
(L (W x00 x00 x80 xbf x00 x00 x80 xbf)) E)
(T (W x4f x84 x6f x8b xe8 xcb x63 xb7)
(L (W xff xff xff xff xff xff xff xff)) E)))))
(T (W x00 x00 x00 x00 xca x45 xfd xff)
(T (W x00 x00 x80 x3f x00 x00 x80 x3f)
(T (W x68 x00 x00 x00 x5c x00 x00 x00)
(T (W xc1 x00 x00 x00 xff xff xff xff)
(T (W xff xff xff xff xff xff xff xff)
(L (W x00 x00 x80 xbf x00 x00 x80 xbf))
(L (W x00 x00 x80 xbf x00 x00 x80 xbf)))
(T (W x45 x26 x22 x84 xe4 x9c xf2 xcb)
(L (W x2e x00 x00 x00 xff xff xff xff)) E))
(T (W x50 x00 x00 x00 x44 x00 x00 x00)
(T (W xff xff xff xff xff xff xff xff)
(L (W xac x0c xfe xff x00 x01 x01 x01)) E)
(T (W x00 x00 x00 x00 x00 x00 x00 x00)
(L (W x00 x00 x00 x00 x00 x00 x00 x00)) E)))
(T (W x00 x00 x00 x00 x00 x00 x00 x00)
(T (W x45 x26 x22 x84 xe4 x9c xf2 xcb)
(T (W xff xff xff xff xff xff xff xff)
(L (W x8a xc9 xfd xff x78 x00 x00 x00))
(L (W x5d x00 x00 x00 xff xff xff xff)))
(T (W x01 x01 x01 x01 x01 x01 x01 x01)
(L (W x45 x26 x22 x84 xe4 x9c xf2 xcb)) E))
(T (W xff xff xff xff xff xff xff xff)
(T (W xff xff xff xff x9c x00 x00 x00)
(L (W x00 x00 x00 x00 x00 x00 x00 x00)) E)
(T (W xff xff xff xff xff xff xff xff)
(L (W xff xff xff xff x9c x00 x00 x00)) E))))
(T (W xb8 x00 x00 x00 xac x00 x00 x00)
(T (W x45 x26 x22 x84 xe4 x9c xf2 xcb)
(T (W x18 x00 x00 x00 x0c x00 x00 x00)
(T (W x04 x00 x00 x00 xca x45 xff xff)
(L (W x68 x00 x00 x00 x5c x00 x00 x00))
(L (W x19 x00 x00 x00 x1c x00 x00 x00)))
(T (W xb8 x00 x00 x00 xac x00 x00 x00)
(L (W x00 x00 x00 x00 x12 x00 x00 x00)) E))
(T (W xff xff xff xff xff xff xff xff)
(T (W x00 x00 x00 x00 x00 x00 x00 x00)
(L (W xff xff xff xff xff xff xff xff)) E)
(T (W x00 x00 x80 xbf x00 x00 x80 xbf)
(L (W x45 x26 x22 x84 xe4 x9c xf2 xcb)) E)))
(T (W x00 x00 x00 x00 x00 x00 x00 x00)
(T (W x00 x00 x80 x3f x00 x00 x80 x3f)
(T (W x00 x00 x80 x3f x00 x00 x80 x3f)
(L (W x00 x00 x00 x00 x00 x00 x00 x00))
(L (W x45 x44 x00 x00 x00 x00 x00 x00)))
(T (W x00 x00 x80 x3f x00 x00 x80 x3f)
(L (W x00 x00 x01 x01 x5d x00 x00 x00)) E))
(T (W x3a x72 xfe xff x00 x00 x01 x01)
(T (W xda x67 xfc xff x74 x00 x00 x00)
(L (W xff xff xff xff x9c x00 x00 x00)) E)
(T (W x18 x00 x00 x00 x0c x00 x00 x00)
(L (W x00 x00 x00 x00 x00 x00 x00 x00)) E))))))
(T (W x45 x26 x22 x84 xe4 x9c xf2 xcb)
(T (W x00 x00 x80 x3f x00 x00 x80 x3f)
(T (W xff xff xff xff xff xff xff xff)
(T (W x45 x26 x22 x84 xe4 x9c xf2 xcb)
(T (W xdd x15 xf0 x75 xcd xf3 x0e xc8)
(T (W x18 x00 x00 x00 x0c x00 x00 x00)
(L (W xf8 x1a x00 x00 xcc x19 x00 x00))
(L (W x45 x26 x22 x84 xe4 x9c xf2 xcb)))
(T (W x00 x00 x80 x3f x00 x00 x80 x3f)
(L (W xff xff xff xff xff xff xff xff)) E))
(T (W x00 x00 x00 x00 x00 x00 x00 x00)
(T (W x18 x00 x00 x00 x10 x00 x00 x00)
(L (W x6c x00 x00 x00 x60 x00 x00 x00))
(L (W xff xff xff xff xcc x00 x00 x00)))
(T (W x14 x00 x00 x00 x0c x00 x00 x00)
(L (W x45 x44 x00 x00 x00 x00 x00 x00)) E)))
(T (W x45 x26 x22 x84 xe4 x9c xf2 xcb)
(T (W x00 x00 x80 x3f x00 x00 x80 x3f)
(T (W xff xff xff xff xff xff xff xff)
(L (W x45 x26 x22 x84 xe4 x9c xf2 xcb))
(L (W x03 x00 x00 x00 xd8 x00 x00 x00)))
(T (W x45 x26 x22 x84 xe4 x9c xf2 xcb)
(L (W x00 x00 x80 xbf x00 x00 x80 xbf)) E))
(T (W x54 x00 x00 x00 x48 x00 x00 x00)
(T (W x01 x00 x00 x00 x19 x00 x00 x00)
(L (W x00 x00 x00 x00 x00 x00 x00 x00)) E)
(T (W xff xff xff xff xff xff xff xff)
(L (W xcc x00 x00 x00 x01 x00 x00 x00)) E))))
(T (W x00 x00 x00 x00 x1c xe3 xf9 xff)
(T (W x00 x00 x80 x3f x00 x00 x80 x3f)
(T (W x45 x26 x22 x84 xe4 x9c xf2 xcb)
(T (W xff xff xff xff x9c x00 x00 x00)
(L (W x00 x00 x01 x01 xc9 x00 x00 x00))
(L (W x64 x00 x08 x00 x00 x00 x00 x00)))
(T (W x68 x00 x00 x00 x5c x00 x00 x00)
(L (W x00 x00 x00 x00 x00 x00 x00 x00)) E))
(T (W xda x1f xfb xff x74 x00 x00 x00)
(T (W x00 x00 x00 x00 x12 x00 x00 x00)
(L (W xff xff xff xff xff xff xff xff)) E)
(T (W x00 x00 x00 x00 x00 x00 x00 x00)
(L (W x00 x00 x80 xbf x00 x00 x80 xbf)) E)))
(T (W x00 x00 x00 x00 x00 x00 x00 x00)
(T (W x45 x26 x22 x84 xe4 x9c xf2 xcb)
(T (W x00 x00 x00 x00 x00 x00 x00 x00)
(L (W xff xff xff xff xff xff xff xff))
(L (W x08 x00 x00 x00 x18 x08 x00 x00)))
(T (W x45 x26 x22 x84 xe4 x9c xf2 xcb)
(L (W xff xff xff xff xff xff xff xff)) E))
(T (W xff xff xff xff xff xff xff xff)
(T (W x53 x01 x00 x00 xff xff xff xff)
(L (W x8a x61 xfe xff x78 x00 x00 x00)) E)
(T (W x00 x00 x80 xbf x00 x00 x80 xbf)
(L (W xff xff xff xff xff xff xff xff)) E)))))
(T (W x00 x00 x00 x00 x1c xb3 xf9 xff)
(T (W xff xff xff xff xff xff xff xff)
(T (W x42 x24 xfd xff x00 x00 x01 x01)
(T (W xff xff xff xff xff xff xff xff)
(T (W xdc x98 xfb xff x11 x00 x00 x00)
(L (W x00 x00 x80 xbf x00 x00 x80 xbf))
(L (W x8a x91 xff xff x78 x00 x00 x00)))
(T (W x00 x00 x00 x00 x00 x00 x00 x00)
(L (W x34 xa2 xfe xff x13 x00 x00 x00)) E))
(T (W xff xff xff xff xff xff xff xff)
(T (W x00 x00 x00 x00 x0a x17 xfc xff)
(L (W x68 x00 x00 x00 x5c x00 x00 x00)) E)
(T (W xc9 x49 x69 x12 x83 x6e x37 xc6)
(L (W x00 x00 x80 xbf x00 x00 x80 xbf)) E)))
(T (W x00 x00 x00 x00 x00 x00 x00 x00)
(T (W x00 x00 x00 x00 x00 x00 x00 x00)
(T (W x00 x00 x00 x00 x00 x00 x00 x00)
(L (W xcc x00 x00 x00 x02 x00 x00 x00))
(L (W x00 x00 x01 x01 x5d x00 x00 x00)))
(T (W x45 x44 x00 x00 x00 x00 x00 x00)
(L (W x21 x00 x00 x00 x24 x00 x00 x00)) E))
(T (W x00 x00 x00 x00 x00 x00 x00 x00)
(T (W xff xff xff xff xff xff xff xff)
(L (W x49 xa1 x68 x4a xeb x5f xdd x3d)) E)
(T (W x00 x00 x00 x00 x00 x00 x00 x00)
(L (W xff xff xff xff xff xff xff xff)) E))))
(T (W xff xff xff xff xff xff xff xff)
(T (W x00 x00 x80 x3f x00 x00 x80 x3f)
(T (W x00 x00 x80 x3f x00 x00 x80 x3f)
(T (W x4f x84 x6f x8b xe8 xcb x63 xb7)
(L (W x42 xf3 xff xff xc9 x00 x00 x00))
(L (W xc4 x00 x00 x00 x02 x00 x00 x00)))
(T (W x50 x00 x00 x00 x44 x00 x00 x00)
(L (W x00 x00 x00 x00 x00 x00 x00 x00)) E))
(T (W xff xff xff xff xff xff xff xff)
(T (W x00 x00 x80 x3f x00 x00 x80 x3f)
(L (W x00 x00 x00 x00 x0a x37 xfe xff)) E)
(T (W x00 x00 x80 xbf x00 x00 x80 xbf)
(L (W x00 x00 x80 xbf x00 x00 x80 xbf)) E)))
(T (W x00 x00 x00 x00 x00 x00 x00 x00)
(T (W x50 x00 x00 x00 x44 x00 x00 x00)
(T (W x00 x00 x80 x3f x00 x00 x80 x3f)
(L (W x45 x26 x22 x84 xe4 x9c xf2 xcb))
(L (W x00 x00 x80 xbf x00 x00 x80 xbf)))
(T (W xff xff xff xff xff xff xff xff)
(L (W x00 x00 x00 x00 x0a xf7 xfe xff)) E))
(T (W x00 x00 x00 x00 x00 x00 x00 x00)
(T (W x00 x00 x80 x3f x00 x00 x80 x3f)
(L (W xff xff xff xff xff xff xff xff)) E)
(T (W x00 x00 x00 x00 x00 x00 x00 x00)
(L (W x00 x00 x00 x00 x00 x00 x00 x00)) E)))))))
(T (W x00 x00 x00 x00 x00 x00 x00 x00)
(T (W xff xff xff xff xff xff xff xff)
(T (W x00 x00 x00 x00 x00 x00 x00 x00)
(T (W x00 x00 x80 x3f x00 x00 x80 x3f)
(T (W x45 x26 x22 x84 xe4 x9c xf2 xcb)
(T (W x50 x00 x00 x00 x44 x00 x00 x00)
(T (W x00 x00 x00 x00 x00 x00 x00 x00)
(L (W x00 x00 x00 x00 x00 x00 x00 x00))
(L (W xff xff xff xff xff xff xff xff)))
(T (W x42 x90 xff xff x00 x00 x01 x01)
(L (W x54 x00 x00 x00 x48 x00 x00 x00)) E))
(T (W x19 x00 x00 x00 x1c x00 x00 x00)
(T (W x00 x00 x00 x00 x00 x00 x00 x00)
(L (W xff xff xff xff xff xff xff xff))
(L (W x00 x00 x00 x00 x00 x00 x00 x00)))
(T (W x18 x00 x00 x00 x10 x00 x00 x00)
(L (W x00 x00 x80 xbf x00 x00 x80 xbf)) E)))
(T (W xff xff xff xff xff xff xff xff)
(T (W xff xff xff xff xff xff xff xff)
(T (W x00 x00 x00 x00 x00 x00 x00 x00)
(L (W xb0 x00 x00 x00 x64 x00 x00 x00))
(L (W x4f x84 x6f x8b xe8 xcb x63 xb7)))
(T (W xff xff xff xff xff xff xff xff)
(L (W xff xff xff xff xff xff xff xff)) E))
(T (W xff xff xff xff xbc x00 x00 x00)
(T (W x00 x00 x00 x00 x12 x00 x00 x00)
(L (W x45 x26 x22 x84 xe4 x9c xf2 xcb)) E)
(T (W x00 x00 x00 x00 x00 x00 x00 x00)
(L (W x45 x44 x00 x00 x00 x00 x00 x00)) E))))
(T (W x00 x00 x00 x00 x00 x00 x00 x00)
(T (W xff xff xff xff xff xff xff xff)
(T (W x00 x00 x00 x00 x00 x00 x00 x00)
(T (W x00 x00 x00 x00 x02 x00 x00 x00)
(L (W x4c x45 x41 x52 x45 x44 x00 x00))
(L (W x00 x00 x00 x00 x00 x00 x00 x00)))
(T (W x42 xb0 xff xff x00 x00 x01 x01)
(L (W xc4 x00 x00 x00 x01 x00 x00 x00)) E))
(T (W xff xff xff xff xff xff xff xff)
(T (W x45 x26 x22 x84 xe4 x9c xf2 xcb)
(L (W x00 x00 x80 xbf x00 x00 x80 xbf)) E)
(T (W xff xff xff xff xff xff xff xff)
(L (W xff xff xff xff xff xff xff xff)) E)))
(T (W xff xff xff xff x04 x00 x00 x00)
(T (W xff xff xff xff xff xff xff xff)
(T (W xff xff xff xff xff xff xff xff)
(L (W x00 x00 x00 x00 x00 x00 x00 x00))
(L (W x54 x00 x00 x00 x48 x00 x00 x00)))
(T (W xff xff xff xff xff xff xff xff)
(L (W x00 x00 x00 x00 x00 x00 x00 x00)) E))
(T (W x00 x00 x00 x00 x22 x00 x00 x00)
(T (W x00 x00 x80 x3f x00 x00 x80 x3f)
(L (W x46 x53 x59 x53 x5f x4e x53 x5f)) E)
(T (W xff xff xff xff xff xff xff xff)
(L (W x00 x00 x80 xbf x00 x00 x80 xbf)) E)))))
(T (W x45 x26 x22 x84 xe4 x9c xf2 xcb)
(T (W x45 x26 x22 x84 xe4 x9c xf2 xcb)
(T (W x00 x00 x00 x00 x00 x00 x00 x00)
(T (W xda x8b xfa xff x74 x00 x00 x00)
(T (W x00 x00 x80 x3f x00 x00 x80 x3f)
(L (W x11 x00 x00 x00 xff xff xff xff))
(L (W x06 x00 x00 x00 xc8 x05 x00 x00)))
(T (W xff xff xff xff xff xff xff xff)
(L (W xac x90 xfe xff x00 x01 x01 x01)) E))
(T (W x45 x44 x00 x00 x00 x00 x00 x00)
(T (W x45 x26 x22 x84 xe4 x9c xf2 xcb)
(L (W x00 x00 x00 x00 x00 x00 x00 x00)) E)
(T (W x68 x00 x00 x00 x00 x00 x62 x00)
(L (W x18 x00 x00 x00 x10 x00 x00 x00)) E)))
(T (W xff xff xff xff xff xff xff xff)
(T (W xd0 x00 x00 x00 xff xff xff xff)
(T (W x00 x00 x80 x3f x00 x00 x80 x3f)
(L (W x00 x00 x00 x00 x00 x00 x00 x00))
(L (W x00 x00 x80 xbf x00 x00 x80 xbf)))
(T (W x00 x00 x80 x3f x00 x00 x80 x3f)
(L (W x00 x00 x00 x00 x00 x00 x00 x00)) E))
(T (W x8a x4d xfb xff x78 x00 x00 x00)
(T (W x00 x00 x00 x00 x00 x00 x00 x00)
(L (W xff xff xff xff xff xff xff xff)) E)
(T (W x54 x00 x00 x00 x48 x00 x00 x00)
(L (W x49 xa1 x68 x4a xeb x5f xdd x3d)) E))))
(T (W x00 x00 x00 x00 x00 x00 x00 x00)
(T (W xff xff xff xff xff xff xff xff)
(T (W xd0 x01 x00 x00 xff xff xff xff)
(T (W x45 x26 x22 x84 xe4 x9c xf2 xcb)
(L (W xff xff xff xff xff xff xff xff))
(L (W x30 x32 x5f x43 x4c x45 x41 x52)))
(T (W x00 x00 x00 x00 x00 x00 x00 x00)
(L (W xff xff xff xff xff xff xff xff)) E))
(T (W x00 x00 x80 x3f x00 x00 x80 x3f)
(T (W xff xff xff xff xff xff xff xff)
(L (W x8a x2d xfe xff x78 x00 x00 x00)) E)
(T (W xff xff xff xff xff xff xff xff)
(L (W xff xff xff xff xff xff xff xff)) E)))
(T (W x68 x00 x00 x00 x5c x00 x00 x00)
(T (W x18 x00 x00 x00 x0c x00 x00 x00)
(T (W x3a xf6 xfe xff x00 x00 x01 x01)
(L (W x18 x00 x00 x00 x0c x00 x00 x00))
(L (W x45 x26 x22 x84 xe4 x9c xf2 xcb)))
(T (W x00 x00 x00 x00 x00 x00 x00 x00)
(L (W x54 x00 x00 x00 x48 x00 x00 x00)) E))
(T (W x00 x00 x80 x3f x00 x00 x80 x3f)
(T (W x18 x01 x00 x00 x04 x00 x00 x00)
(L (W x00 x00 x80 xbf x00 x00 x80 xbf)) E)
(T (W x00 x00 x00 x00 x00 x00 x00 x00)
(L (W x21 x00 x00 x00 x24 x00 x00 x00)) E))))))
(T (W x45 x26 x22 x84 xe4 x9c xf2 xcb)
(T (W xff xff xff xff x03 x00 x00 x00)
(T (W x00 x00 x00 x00 x00 x00 x00 x00)
(T (W x00 x00 x00 x00 x00 x00 x00 x00)
(T (W x68 x00 x00 x00 x5c x00 x00 x00)
(T (W x00 x00 x00 x00 x00 x00 x00 x00)
(L (W xff xff xff xff xff xff xff xff))
(L (W xff xff xff xff xff xff xff xff)))
(T (W xff xff xff xff xff xff xff xff)
(L (W x54 x00 x00 x00 x48 x00 x00 x00)) E))
(T (W x61 x72 x6c x69 x6b x65 x5f x6c)
(T (W x00 x00 x00 x00 x00 x00 x00 x00)
(L (W x4b x00 x00 x00 xff xff xff xff)) E)
(T (W x68 x00 x00 x00 x5c x00 x00 x00)
(L (W x6c x00 x00 x00 x60 x00 x00 x00)) E)))
(T (W xff xff xff xff xff xff xff xff)
(T (W xff xff xff xff xff xff xff xff)
(T (W x00 x00 x80 x3f x00 x00 x80 x3f)
(L (W x00 x00 x00 x00 x00 x00 x00 x00))
(L (W x00 x00 x80 xbf x00 x00 x80 xbf)))
(T (W x00 x00 x00 x00 x01 x00 x00 x00)
(L (W x5f x00 x00 x00 xff xff xff xff)) E))
(T (W x00 x00 x00 x00 x00 x00 x00 x00)
(T (W x00 x00 x00 x00 x00 x00 x00 x00)
(L (W xff xff xff xff xb0 x00 x00 x00)) E)
(T (W x00 x00 x80 xbf x00 x00 x80 xbf)
(L (W x00 x00 x00 x00 x00 x00 x00 x00)) E))))
(T (W x00 x00 x00 x00 x00 x00 x00 x00)
(T (W x20 x01 x00 x00 x04 x00 x00 x00)
(T (W xbf x13 x55 xd0 xce xea x29 x78)
(T (W x00 x00 x80 x3f x00 x00 x80 x3f)
(L (W x45 x26 x22 x84 xe4 x9c xf2 xcb))
(L (W xff xff xff xff xff xff xff xff)))
(T (W x00 x00 x00 x00 x00 x00 x00 x00)
(L (W xff xff xff xff xff xff xff xff)) E))
(T (W x45 x44 x00 x00 x00 x00 x00 x00)
(T (W xd4 x00 x00 x00 xc8 x00 x00 x00)
(L (W x00 x00 x80 xbf x00 x00 x80 xbf)) E)
(T (W xff xff xff xff xff xff xff xff)
(L (W xff xff xff xff xff xff xff xff)) E)))
(T (W x45 x26 x22 x84 xe4 x9c xf2 xcb)
(T (W xff xff xff xff x04 x00 x00 x00)
(T (W xff xff xff xff xff xff xff xff)
(L (W x45 x26 x22 x84 xe4 x9c xf2 xcb))
(L (W x00 x00 x00 x00 x1c xe7 xff xff)))
(T (W xd8 x00 x00 x00 xb4 x00 x00 x00)
(L (W x00 x00 x80 xbf x00 x00 x80 xbf)) E))
(T (W x4f x84 x6f x8b xe8 xcb x63 xb7)
(T (W x00 x00 x00 x00 x00 x00 x00 x00)
(L (W x00 x00 x00 x00 x00 x00 x00 x00)) E)
(T (W x00 x00 x00 x00 xba x64 xfd xff)
(L (W x00 x00 x00 x00 x1c x67 xff xff)) E)))))
(T (W xff xff xff xff xff xff xff xff)
(T (W x00 x00 x00 x00 x00 x00 x00 x00)
(T (W x00 x00 x80 x3f x00 x00 x80 x3f)
(T (W xff xff xff xff xff xff xff xff)
(T (W x00 x00 x00 x00 x1c x97 xfb xff)
(L (W x00 x00 x00 x00 x00 x00 x00 x00))
(L (W x00 x00 x00 x00 x00 x00 x00 x00)))
(T (W xda x93 xfc xff x74 x00 x00 x00)
(L (W xda x93 xfe xff x74 x00 x00 x00)) E))
(T (W xff xff xff xff xff xff xff xff)
(T (W x00 x00 x80 x3f x00 x00 x80 x3f)
(L (W x00 x00 x00 x00 x00 x00 x00 x00)) E)
(T (W x00 x00 x00 x00 x00 x00 x00 x00)
(L (W xff xff xff xff xff xff xff xff)) E)))
(T (W xb8 x00 x00 x00 xac x00 x00 x00)
(T (W xff xff xff xff xff xff xff xff)
(T (W x50 x00 x00 x00 x44 x00 x00 x00)
(L (W x00 x00 x00 x00 x00 x00 x00 x00))
(L (W x00 x00 x80 xbf x00 x00 x80 xbf)))
(T (W xcc x00 x00 x00 x01 x00 x00 x00)
(L (W x00 x00 x00 x00 x00 x00 x00 x00)) E))
(T (W xff xff xff xff xff xff xff xff)
(T (W x00 x00 x80 x3f x00 x00 x80 x3f)
(L (W xff xff xff xff xff xff xff xff)) E)
(T (W xb0 x00 x00 x00 x3c x00 x00 x00)
(L (W x00 x00 x80 xbf x00 x00 x80 xbf)) E))))
(T (W x00 x00 x00 x00 x00 x00 x00 x00)
(T (W xff xff xff xff xff xff xff xff)
(T (W xff xff xff xff xff xff xff xff)
(T (W xa1 x01 x00 x00 xff xff xff xff)
(L (W x00 x00 x00 x00 x00 x00 x00 x00))
(L (W x00 x00 x00 x00 x00 x00 x00 x00)))
(T (W xc2 xc6 xff xff x5c x00 x00 x00)
(L (W xff xff xff xff xff xff xff xff)) E))
(T (W x45 x26 x22 x84 xe4 x9c xf2 xcb)
(T (W x00 x00 x00 x00 x00 x00 x00 x00)
(L (W xac x38 xfe xff x00 x01 x01 x01)) E)
(T (W x1c x00 x00 x00 x0c x00 x00 x00)
(L (W x00 x00 x01 x01 x5c x00 x00 x00)) E)))
(T (W x00 x00 x80 x3f x00 x00 x80 x3f)
(T (W xff xff xff xff xff xff xff xff)
(T (W x46 x53 x59 x53 x5f x4e x53 x5f)
(L (W xff xff xff xff xff xff xff xff))
(L (W xff xff xff xff xff xff xff xff)))
(T (W x00 x00 x80 x3f x00 x00 x80 x3f)
(L (W xac xf8 xfe xff x00 x01 x01 x01)) E))
(T (W xff xff xff xff xff xff xff xff)
(T (W x00 x00 x00 x00 x00 x00 x00 x00)
(L (W x00 x00 x80 xbf x00 x00 x80 xbf)) E)
(T (W x00 x00 x00 x00 x7a x76 xfd xff)
(L (W x18 x00 x00 x00 x10 x00 x00 x00)) E))))))))))
(T (W xc8 xaa x03 x00 x6c xa8 x03 x00)
(T (W xd8 x08 x03 x00 x94 x06 x03 x00)
(T (W x70 x2a x01 x00 x3c x29 x01 x00)
(T (W x00 x00 x00 x00 x00 x00 x00 x00)
(T (W xff xff xff xff xff xff xff xff)
(T (W x00 x00 x00 x00 x00 x00 x00 x00)
(T (W x54 x00 x00 x00 x48 x00 x00 x00)
(T (W xff xff xff xff xff xff xff xff)
(T (W x00 x00 x00 x00 x00 x00 x00 x00)
(T (W x45 x26 x22 x84 xe4 x9c xf2 xcb)
(L (W xff xff xff xff xa0 x00 x00 x00))
(L (W x00 x00 x80 xbf x00 x00 x80 xbf)))
(T (W xff xff xff xff xff xff xff xff)
(L (W x46 x53 x59 x53 x5f x4e x53 x5f)) E))
(T (W x45 x26 x22 x84 xe4 x9c xf2 xcb)
(T (W xff xff xff xff xff xff xff xff)
(L (W x00 x00 x80 xbf x00 x00 x80 xbf))
(L (W x00 x00 x80 xbf x00 x00 x80 xbf)))
(T (W x67 x72 x6f x75 x70 x5f x77 x69)
(L (W x00 x00 x00 x00 x00 x00 x00 x00)) E)))
(T (W x00 x00 x80 x3f x00 x00 x80 x3f)
(T (W x2c xba xfa xff x00 x01 x01 x01)
(T (W xff xff xff xff xa0 x00 x00 x00)
(L (W xff xff xff xff xff xff xff xff))
(L (W xff xff xff xff xff xff xff xff)))
(T (W xb8 x00 x00 x00 xac x00 x00 x00)
(L (W x54 x00 x00 x00 x48 x00 x00 x00)) E))
(T (W x45 x26 x22 x84 xe4 x9c xf2 xcb)
(T (W xff xff xff xff x9c x00 x00 x00)
(L (W x00 x00 x00 x00 x00 x00 x00 x00)) E)
(T (W xff xff xff xff xff xff xff xff)
(L (W x18 x00 x00 x00 x10 x00 x00 x00)) E))))
(T (W xff xff xff xff xff xff xff xff)
(T (W x00 x00 x00 x00 x00 x00 x00 x00)
(T (W x0a x97 xfa xff x78 x00 x00 x00)
(T (W x00 x00 x80 x3f x00 x00 x80 x3f)
(L (W x03 x00 x00 x00 xcc x00 x00 x00))
(L (W xff xff xff xff xff xff xff xff)))
(T (W x45 x26 x22 x84 xe4 x9c xf2 xcb)
(L (W x00 x00 x80 xbf x00 x00 x80 xbf)) E))
(T (W x00 x00 x80 x3f x00 x00 x80 x3f)
(T (W x5f x77 x69 x6c x64 x5f x70 x6f)
(L (W xff xff xff xff xff xff xff xff)) E)
(T (W xff xff xff xff xff xff xff xff)
(L (W x0a x17 xff xff x78 x00 x00 x00)) E)))
(T (W x50 x00 x00 x00 x44 x00 x00 x00)
(T (W x45 x26 x22 x84 xe4 x9c xf2 xcb)
(T (W x00 x00 x80 x3f x00 x00 x80 x3f)
(L (W xff xff xff xff xff xff xff xff))
(L (W x30 x32 x5f x43 x4c x45 x41 x52)))
(T (W x00 x00 x80 x3f x00 x00 x80 x3f)
(L (W xff xff xff xff xff xff xff xff)) E))
(T (W x2c x5a xfb xff x00 x01 x01 x01)
(T (W x00 x00 x00 x00 x00 x00 x00 x00)
(L (W xff xff xff xff xa0 x00 x00 x00)) E)
(T (W x54 x00 x00 x00 x48 x00 x00 x00)
(L (W x45 x44 x00 x00 x00 x00 x00 x00)) E)))))
(T (W x00 x00 x80 x3f x00 x00 x80 x3f)
(T (W x18 x00 x00 x00 x10 x00 x00 x00)
(T (W xff xff xff xff xff xff xff xff)
(T (W x00 x00 x00 x00 x00 x00 x00 x00)
(T (W x00 x00 x00 x00 x00 x00 x00 x00)
(L (W x5a x85 xfd xff x74 x00 x00 x00))
(L (W x2c x8a xff xff x00 x01 x01 x01)))
(T (W x68 x00 x00 x00 x5c x00 x00 x00)
(L (W x00 x00 x00 x00 x00 x00 x00 x00)) E))
(T (W xff xff xff xff xc8 x00 x00 x00)
(T (W x4b x00 x00 x00 xff xff xff xff)
(L (W x45 x26 x22 x84 xe4 x9c xf2 xcb)) E)
(T (W x45 x26 x22 x84 xe4 x9c xf2 xcb)
(L (W x00 x00 x00 x00 x00 x00 x00 x00)) E)))
(T (W x00 x00 x80 x3f x00 x00 x80 x3f)
(T (W x5a xc5 xfa xff x74 x00 x00 x00)
(T (W x30 x32 x5f x43 x4c x45 x41 x52)
(L (W xff xff xff xff xff xff xff xff))
(L (W x00 x00 x00 x00 x3a xc6 xff xff)))
(T (W x00 x00 x00 x00 x00 x00 x00 x00)
(L (W xff xff xff xff xff xff xff xff)) E))
(T (W xff xff xff xff xff xff xff xff)
(T (W xff xff xff xff xff xff xff xff)
(L (W x00 x00 x80 xbf x00 x00 x80 xbf)) E)
(T (W x00 x00 x00 x00 x00 x00 x00 x00)
(L (W xff xff xff xff xff xff xff xff)) E))))
(T (W x00 x00 x01 x01 xc1 x02 x00 x00)
(T (W x18 x00 x00 x00 x10 x00 x00 x00)
(T (W xff xff xff xff xff xff xff xff)
(T (W x00 x00 x00 x00 x00 x00 x00 x00)
(L (W xff xff xff xff xff xff xff xff))
(L (W x00 x00 x00 x00 x68 xa5 xff xff)))
(T (W xff xff xff xff x03 x00 x00 x00)
(L (W x00 x00 x80 xbf x00 x00 x80 xbf)) E))
(T (W xff xff xff xff xff xff xff xff)
(T (W x00 x00 x80 x3f x00 x00 x80 x3f)
(L (W x00 x00 x00 x00 x00 x00 x00 x00)) E)
(T (W x00 x00 x80 xbf x00 x00 x80 xbf)
(L (W x6c x00 x00 x00 x60 x00 x00 x00)) E)))
(T (W x00 x00 x80 x3f x00 x00 x80 x3f)
(T (W x00 x00 x80 x3f x00 x00 x80 x3f)
(T (W x54 x00 x00 x00 x48 x00 x00 x00)
(L (W x00 x00 x80 xbf x00 x00 x80 xbf))
(L (W x00 x00 x00 x00 x00 x00 x00 x00)))
(T (W x68 x00 x00 x00 x5c x00 x00 x00)
(L (W x00 x00 x00 x00 xfa xe7 xfe xff)) E))
(T (W x00 x00 x00 x00 x06 x00 x00 x00)
(T (W xff xff xff xff xff xff xff xff)
(L (W xff xff xff xff xff xff xff xff)) E)
(T (W x03 x00 x00 x00 xd0 x00 x00 x00)
(L (W x00 x00 x00 x00 x00 x00 x00 x00)) E))))))
(T (W x0a x8f xf9 xff x78 x00 x00 x00)
(T (W xff xff xff xff xff xff xff xff)
(T (W x00 x00 x00 x00 x00 x00 x00 x00)
(T (W xff xff xff xff xff xff xff xff)
(T (W x00 x00 x00 x00 x00 x00 x00 x00)
(T (W xff xff xff xff xff xff xff xff)
(L (W xc4 x00 x00 x00 x01 x00 x00 x00))
(L (W x6c x00 x00 x00 x60 x00 x00 x00)))
(T (W x5a x7d xfc xff x74 x00 x00 x00)
(L (W x00 x00 x00 x00 x00 x00 x00 x00)) E))
(T (W x00 x00 x80 x3f x00 x00 x80 x3f)
(T (W xff xff xff xff xff xff xff xff)
(L (W x68 x00 x00 x00 x5c x00 x00 x00))
(L (W x00 x00 x00 x00 x00 x00 x00 x00)))
(T (W x54 x00 x00 x00 x48 x00 x00 x00)
(L (W x00 x00 x00 x00 x00 x00 x00 x00)) E)))
(T (W x00 x00 x80 x3f x00 x00 x80 x3f)
(T (W x50 x00 x00 x00 x44 x00 x00 x00)
(T (W x00 x00 x01 x01 x9c x01 x00 x00)
(L (W x18 x00 x00 x00 x10 x00 x00 x00))
(L (W xff xff xff xff xff xff xff xff)))
(T (W x50 x00 x00 x00 x44 x00 x00 x00)
(L (W x45 x26 x22 x84 xe4 x9c xf2 xcb)) E))
(T (W x00 x00 x80 x3f x00 x00 x80 x3f)
(T (W xff xff xff xff xff xff xff xff)
(L (W x00 x00 x00 x00 x00 x00 x00 x00)) E)
(T (W x00 x00 x01 x01 xc7 x01 x00 x00)
(L (W xcc x00 x00 x00 x02 x00 x00 x00)) E))))
(T (W xff xff xff xff xff xff xff xff)
(T (W x45 x26 x22 x84 xe4 x9c xf2 xcb)
(T (W xff xff xff xff xff xff xff xff)
(T (W xb0 x00 x00 x00 x64 x00 x00 x00)
(L (W xff xff xff xff xff xff xff xff))
(L (W xff xff xff xff xff xff xff xff)))
(T (W x5a x9d xfc xff x74 x00 x00 x00)
(L (W x00 x00 x80 xbf x00 x00 x80 xbf)) E))
(T (W x00 x00 x00 x00 x9c x20 xfb xff)
(T (W x00 x00 x00 x00 x00 x00 x00 x00)
(L (W x00 x00 x00 x00 x00 x00 x00 x00)) E)
(T (W x00 x00 x80 xbf x00 x00 x80 xbf)
(L (W xff xff xff xff xb0 x00 x00 x00)) E)))
(T (W x00 x00 x80 x3f x00 x00 x80 x3f)
(T (W x00 x00 x80 x3f x00 x00 x80 x3f)
(T (W x00 x00 x80 x3f x00 x00 x80 x3f)
(L (W x54 x02 x00 x00 x38 x01 x00 x00))
(L (W x00 x00 x00 x00 x00 x00 x00 x00)))
(T (W x00 x00 x80 x3f x00 x00 x80 x3f)
(L (W xff xff xff xff xff xff xff xff)) E))
(T (W xff xff xff xff xff xff xff xff)
(T (W x00 x00 x00 x00 x00 x00 x00 x00)
(L (W xff xff xff xff xff xff xff xff)) E)
(T (W x68 x00 x00 x00 x5c x00 x00 x00)
(L (W x00 x00 x00 x00 x00 x00 x00 x00)) E)))))
(T (W xff xff xff xff xff xff xff xff)
(T (W x00 x00 x00 x00 x00 x00 x00 x00)
(T (W xfb x92 xea xf8 x1d x4e x32 x5e)
(T (W x00 x00 x00 x00 x00 x00 x00 x00)
(T (W x00 x00 x00 x00 x00 x00 x00 x00)
(L (W x18 x00 x00 x00 x0c x00 x00 x00))
(L (W xff xff xff xff xff xff xff xff)))
(T (W x00 x00 x80 x3f x00 x00 x80 x3f)
(L (W x45 x26 x22 x84 xe4 x9c xf2 xcb)) E))
(T (W xff xff xff xff xff xff xff xff)
(T (W x00 x00 x00 x00 x00 x00 x00 x00)
(L (W xff xff xff xff xff xff xff xff)) E)
(T (W x5c x16 xfd xff x1c x00 x00 x00)
(L (W x49 xa1 x68 x4a xeb x5f xdd x3d)) E)))
(T (W x00 x00 x80 x3f x00 x00 x80 x3f)
(T (W x00 x00 x00 x00 x9c xd0 xfa xff)
(T (W x00 x00 x00 x00 x00 x00 x00 x00)
(L (W xff xff xff xff xff xff xff xff))
(L (W x00 x00 x00 x00 x00 x00 x00 x00)))
(T (W x46 x53 x59 x53 x5f x4e x53 x5f)
(L (W xff xff xff xff xff xff xff xff)) E))
(T (W x00 x00 x00 x00 x00 x00 x00 x00)
(T (W x34 x01 x00 x00 x04 x00 x00 x00)
(L (W x6c x00 x00 x00 x60 x00 x00 x00)) E)
(T (W x00 x00 x00 x00 x00 x00 x00 x00)
(L (W x00 x00 x01 x01 x91 x01 x00 x00)) E))))
(T (W xff xff xff xff xff xff xff xff)
(T (W x40 x00 x00 x00 x9c x00 x00 x00)
(T (W x64 x00 x00 x00 x9c x00 x00 x00)
(T (W x00 x00 x80 x3f x00 x00 x80 x3f)
(L (W x00 x00 x80 xbf x00 x00 x80 xbf))
(L (W xff xff xff xff xff xff xff xff)))
(T (W xff xff xff xff xff xff xff xff)
(L (W x00 x00 x80 xbf x00 x00 x80 xbf)) E))
(T (W x00 x00 x00 x00 x12 x00 x00 x00)
(T (W x00 x00 x80 x3f x00 x00 x80 x3f)
(L (W x00 x00 x00 x00 x00 x00 x00 x00)) E)
(T (W x45 x26 x22 x84 xe4 x9c xf2 xcb)
(L (W x00 x00 x00 x00 x30 x32 xff xff)) E)))
(T (W x00 x00 x00 x00 x00 x00 x00 x00)
(T (W x00 x00 x80 x3f x00 x00 x80 x3f)
(T (W x21 x00 x00 x00 x24 x00 x00 x00)
(L (W x45 x26 x22 x84 xe4 x9c xf2 xcb))
(L (W x45 x26 x22 x84 xe4 x9c xf2 xcb)))
(T (W x00 x00 x00 x00 x00 x00 x00 x00)
(L (W x00 x00 x00 x00 x00 x00 x00 x00)) E))
(T (W x00 x00 x80 x3f x00 x00 x80 x3f)
(T (W x00 x00 x00 x00 x9c x70 xfc xff)
(L (W x00 x00 x00 x00 x1a x76 xfe xff)) E)
(T (W xff xff xff xff xff xff xff xff)
(L (W x00 x00 x80 xbf x00 x00 x80 xbf)) E)))))))
(T (W x6c x00 x00 x00 x60 x00 x00 x00)
(T (W x00 x00 x00 x00 x00 x00 x00 x00)
(T (W x5a x99 xf9 xff x74 x00 x00 x00)
(T (W xff xff xff xff xff xff xff xff)
(T (W x00 x00 x80 x3f x00 x00 x80 x3f)
(T (W xff xff xff xff xff xff xff xff)
(T (W x30 x32 x5f x43 x4c x45 x41 x52)
(L (W x46 x53 x59 x53 x5f x4e x53 x5f))
(L (W xff xff xff xff xff xff xff xff)))
(T (W x00 x00 x00 x00 x00 x00 x00 x00)
(L (W x0a x7b xfe xff x78 x00 x00 x00)) E))
(T (W x18 x00 x00 x00 x10 x00 x00 x00)
(T (W x00 x00 x80 x3f x00 x00 x80 x3f)
(L (W x00 x00 x00 x00 x00 x00 x00 x00))
(L (W xff xff xff xff xff xff xff xff)))
(T (W x00 x00 x80 xbf x00 x00 x80 xbf)
(L (W x18 x00 x00 x00 x10 x00 x00 x00)) E)))
(T (W x3e x00 x00 x00 x10 x00 x00 x00)
(T (W x00 x00 x00 x00 x00 x00 x00 x00)
(T (W x00 x00 x80 x3f x00 x00 x80 x3f)
(L (W x00 x00 x00 x00 x00 x00 x00 x00))
(L (W x54 x00 x00 x00 x48 x00 x00 x00)))
(T (W x00 x00 x00 x00 x00 x00 x00 x00)
(L (W x00 x00 x00 x00 x00 x00 x00 x00)) E))
(T (W xff xff xff xff xff xff xff xff)
(T (W x00 x00 x00 x00 x00 x00 x00 x00)
(L (W xff xff xff xff xff xff xff xff)) E)
(T (W x00 x00 x80 xbf x00 x00 x80 xbf)
(L (W x4f x84 x6f x8b xe8 xcb x63 xb7)) E))))
(T (W x45 x26 x22 x84 xe4 x9c xf2 xcb)
(T (W x18 x00 x00 x00 x10 x00 x00 x00)
(T (W x00 x00 x00 x00 x00 x00 x00 x00)
(T (W x6b x65 x5f x77 x61 x72 x6c x69)
(L (W x00 x00 x00 x00 x00 x00 x00 x00))
(L (W x00 x00 x80 xbf x00 x00 x80 xbf)))
(T (W x18 x01 x00 x00 x04 x00 x00 x00)
(L (W xff xff xff xff xff xff xff xff)) E))
(T (W x00 x00 x00 x00 x00 x00 x00 x00)
(T (W xff xff xff xff x9c x00 x00 x00)
(L (W x00 x00 x80 xbf x00 x00 x80 xbf)) E)
(T (W xff xff xff xff xff xff xff xff)
(L (W x00 x00 x00 x00 x00 x00 x00 x00)) E)))
(T (W xff xff xff xff xff xff xff xff)
(T (W xff xff xff xff xff xff xff xff)
(T (W x34 x01 x00 x00 x04 x00 x00 x00)
(L (W x54 x00 x00 x00 x48 x00 x00 x00))
(L (W x03 x00 x00 x00 xd0 x00 x00 x00)))
(T (W x00 x00 x00 x00 x00 x00 x00 x00)
(L (W x00 x00 x80 xbf x00 x00 x80 xbf)) E))
(T (W x5f x77 x69 x6c x64 x5f x70 x6f)
(T (W x1c x00 x00 x00 xb0 x00 x00 x00)
(L (W x00 x00 x00 x00 x12 x00 x00 x00)) E)
(T (W x04 x00 x00 x00 x80 x03 x00 x00)
(L (W x19 x00 x00 x00 x1c x00 x00 x00)) E)))))
(T (W x45 x26 x22 x84 xe4 x9c xf2 xcb)
(T (W x06 x00 x00 x00 xff xff xff xff)
(T (W x00 x00 x00 x00 x00 x00 x00 x00)
(T (W xbc x00 x00 x00 xb0 x00 x00 x00)
(T (W x00 x00 x80 x3f x00 x00 x80 x3f)
(L (W x4c x45 x41 x52 x45 x44 x00 x00))
(L (W x00 x00 x00 x00 x00 x00 x00 x00)))
(T (W xc2 x9d xff xff x00 x00 x01 x01)
(L (W xff xff xff xff xff xff xff xff)) E))
(T (W x49 xa1 x68 x4a xeb x5f xdd x3d)
(T (W x5a x09 xfc xff x74 x00 x00 x00)
(L (W x45 x26 x22 x84 xe4 x9c xf2 xcb)) E)
(T (W x9f x61 x6c x12 x83 xf3 x3a xc6)
(L (W xff xff xff xff xff xff xff xff)) E)))
(T (W x1c x01 x00 x00 x04 x00 x00 x00)
(T (W x5c xd2 xfa xff x3e x00 x00 x00)
(T (W xd4 x00 x00 x00 xc8 x00 x00 x00)
(L (W x00 x00 x00 x00 x00 x00 x00 x00))
(L (W x45 x26 x22 x84 xe4 x9c xf2 xcb)))
(T (W x10 x00 x00 x00 x00 x00 x14 x00)
(L (W x45 x26 x22 x84 xe4 x9c xf2 xcb)) E))
(T (W x45 x26 x22 x84 xe4 x9c xf2 xcb)
(T (W x00 x00 x80 x3f x00 x00 x80 x3f)
(L (W x00 x00 x00 x00 x00 x00 x00 x00)) E)
(T (W x1c x00 x00 x00 x10 x00 x00 x00)
(L (W x54 x00 x00 x00 x48 x00 x00 x00)) E))))
(T (W x45 x26 x22 x84 xe4 x9c xf2 xcb)
(T (W x21 x00 x00 x00 x0c x00 x00 x00)
(T (W x00 x00 x00 x00 x00 x00 x00 x00)
(T (W xff xff xff xff x9c x00 x00 x00)
(L (W x00 x00 x00 x00 x00 x00 x00 x00))
(L (W x00 x00 x80 xbf x00 x00 x80 xbf)))
(T (W x45 x26 x22 x84 xe4 x9c xf2 xcb)
(L (W xff xff xff xff xff xff xff xff)) E))
(T (W x00 x00 x80 x3f x00 x00 x80 x3f)
(T (W xff xff xff xff xff xff xff xff)
(L (W x5a x29 xfe xff x74 x00 x00 x00)) E)
(T (W x45 x44 x00 x00 x00 x00 x00 x00)
(L (W x00 x00 x00 x00 x12 x00 x00 x00)) E)))
(T (W xff xff xff xff xff xff xff xff)
(T (W xff xff xff xff xff xff xff xff)
(T (W x00 x00 x00 x00 x00 x00 x00 x00)
(L (W xff xff xff xff xff xff xff xff))
(L (W xff xff xff xff xff xff xff xff)))
(T (W x00 x00 x00 x00 x00 x00 x00 x00)
(L (W x19 x00 x00 x00 x1c x00 x00 x00)) E))
(T (W x21 x00 x00 x00 x24 x00 x00 x00)
(T (W x00 x00 x00 x00 x00 x00 x00 x00)
(L (W x6c x00 x00 x00 x60 x00 x00 x00)) E)
(T (W x00 x00 x80 xbf x00 x00 x80 xbf)
(L (W x19 x00 x00 x00 x1c x00 x00 x00)) E))))))
(T (W xff xff xff xff xff xff xff xff)
(T (W x00 x00 x00 x00 x00 x00 x00 x00)
(T (W x00 x00 x80 x3f x00 x00 x80 x3f)
(T (W x00 x00 x80 x3f x00 x00 x80 x3f)
(T (W x64 x00 x00 x00 x9c x00 x00 x00)
(T (W x45 x26 x22 x84 xe4 x9c xf2 xcb)
(L (W x00 x00 x00 x00 x00 x00 x00 x00))
(L (W x6c x00 x00 x00 xff xff xff xff)))
(T (W x00 x00 x00 x00 x00 x00 x00 x00)
(L (W x00 x00 x00 x00 x9c x84 xfe xff)) E))
(T (W x8f xf5 xac x6d x96 xa7 x0e xd8)
(T (W x00 x00 x80 x3f x00 x00 x80 x3f)
(L (W x00 x00 x00 x00 x00 x00 x00 x00)) E)
(T (W x00 x00 x80 xbf x00 x00 x80 xbf)
(L (W x03 x00 x00 x00 xd8 x00 x00 x00)) E)))
(T (W x00 x00 x00 x00 x6a x52 xff xff)
(T (W x00 x00 x00 x00 x00 x00 x00 x00)
(T (W x50 x00 x00 x00 x44 x00 x00 x00)
(L (W x45 x26 x22 x84 xe4 x9c xf2 xcb))
(L (W x00 x00 x80 xbf x00 x00 x80 xbf)))
(T (W x42 xd4 xff xff x2e x00 x00 x00)
(L (W x00 x00 x00 x00 x00 x00 x00 x00)) E))
(T (W x00 x00 x00 x00 x00 x00 x00 x00)
(T (W x00 x00 x80 x3f x00 x00 x80 x3f)
(L (W xff xff xff xff xff xff xff xff)) E)
(T (W x45 x26 x22 x84 xe4 x9c xf2 xcb)
(L (W x00 x00 x80 xbf x00 x00 x80 xbf)) E))))
(T (W x00 x00 x80 x3f x00 x00 x80 x3f)
(T (W x00 x00 x00 x00 x00 x00 x00 x00)
(T (W x00 x00 x00 x00 x00 x00 x00 x00)
(T (W x00 x00 x80 x3f x00 x00 x80 x3f)
(L (W x18 x00 x00 x00 x10 x00 x00 x00))
(L (W x44 x02 x00 x00 x30 x01 x00 x00)))
(T (W x45 x26 x22 x84 xe4 x9c xf2 xcb)
(L (W x00 x00 x00 x00 x8a xa8 xfe xff)) E))
(T (W x49 xa1 x68 x4a xeb x5f xdd x3d)
(T (W xff xff xff xff xff xff xff xff)
(L (W x00 x00 x80 xbf x00 x00 x80 xbf)) E)
(T (W xff xff xff xff xff xff xff xff)
(L (W x00 x00 x00 x00 x00 x00 x00 x00)) E)))
(T (W xff xff xff xff xff xff xff xff)
(T (W xff xff xff xff xff xff xff xff)
(T (W xff xff xff xff xff xff xff xff)
(L (W x0a xe3 xfd xff x78 x00 x00 x00))
(L (W xff xff xff xff xff xff xff xff)))
(T (W x68 x00 x00 x00 x5c x00 x00 x00)
(L (W x6c x00 x00 x00 x60 x00 x00 x00)) E))
(T (W x6c x00 x00 x00 x60 x00 x00 x00)
(T (W x68 x00 x00 x00 x5c x00 x00 x00)
(L (W x00 x00 x00 x00 x00 x00 x00 x00)) E)
(T (W x46 x53 x59 x53 x5f x4e x53 x5f)
(L (W x00 x00 x00 x00 x9c x64 xff xff)) E)))))
(T (W x00 x00 x00 x00 x00 x00 x00 x00)
(T (W x6c x00 x00 x00 x60 x00 x00 x00)
(T (W x5a x11 xfa xff x74 x00 x00 x00)
(T (W x45 x26 x22 x84 xe4 x9c xf2 xcb)
(T (W xff xff xff xff xff xff xff xff)
(L (W x00 x00 x00 x00 x00 x00 x00 x00))
(L (W x00 x00 x00 x00 x00 x00 x00 x00)))
(T (W xff xff xff xff xff xff xff xff)
(L (W xff xff xff xff xff xff xff xff)) E))
(T (W x5a x11 xfb xff x74 x00 x00 x00)
(T (W x45 x26 x22 x84 xe4 x9c xf2 xcb)
(L (W x00 x00 x80 xbf x00 x00 x80 xbf)) E)
(T (W xff xff xff xff xff xff xff xff)
(L (W x00 x00 x00 x00 x00 x00 x00 x00)) E)))
(T (W xff xff xff xff xff xff xff xff)
(T (W x01 x00 x00 x00 x04 x00 x00 x00)
(T (W xff xff xff xff xbc x00 x00 x00)
(L (W x00 x00 x80 xbf x00 x00 x80 xbf))
(L (W x19 x00 x00 x00 x1c x00 x00 x00)))
(T (W xff xff xff xff xff xff xff xff)
(L (W x00 x00 x80 xbf x00 x00 x80 xbf)) E))
(T (W xff xff xff xff xff xff xff xff)
(T (W x00 x00 x80 x3f x00 x00 x80 x3f)
(L (W xc1 xee x39 xdc x00 x63 x48 x2f)) E)
(T (W xff xff xff xff xff xff xff xff)
(L (W x18 x00 x00 x00 x10 x00 x00 x00)) E))))
(T (W x00 x00 x80 x3f x00 x00 x80 x3f)
(T (W xc2 x45 xfd xff x00 x00 x01 x01)
(T (W x45 x26 x22 x84 xe4 x9c xf2 xcb)
(T (W x64 x5f x70 x6f x6b x65 x5f x77)
(L (W x00 x00 x00 x00 x9c xb4 xfd xff))
(L (W x00 x00 x80 xbf x00 x00 x80 xbf)))
(T (W x00 x00 x00 x00 x00 x00 x00 x00)
(L (W x00 x00 x00 x00 x00 x00 x00 x00)) E))
(T (W xd4 x00 x00 x00 xc8 x00 x00 x00)
(T (W x5f x77 x69 x6c x64 x5f x70 x6f)
(L (W xff xff xff xff xb0 x00 x00 x00)) E)
(T (W x00 x00 x00 x00 x00 x00 x00 x00)
(L (W xb4 x43 xff xff x15 x00 x00 x00)) E)))
(T (W xff xff xff xff xff xff xff xff)
(T (W x45 x26 x22 x84 xe4 x9c xf2 xcb)
(T (W x45 x44 x00 x00 x00 x00 x00 x00)
(L (W x00 x00 x00 x00 x8a xf8 xfd xff))
(L (W x00 x00 x00 x00 x00 x00 x00 x00)))
(T (W x18 x00 x00 x00 x0c x00 x00 x00)
(L (W x18 x00 x00 x00 x0c x00 x00 x00)) E))
(T (W xff xff xff xff xff xff xff xff)
(T (W x00 x00 x00 x00 x00 x00 x00 x00)
(L (W x00 x00 x80 xbf x00 x00 x80 xbf)) E)
(T (W x00 x00 x00 x00 x00 x00 x00 x00)
(L (W xff xff xff xff xff xff xff xff)) E))))))))
(T (W x04 x00 x00 x00 x4a x19 xfd xff)
(T (W x00 x00 x80 x3f x00 x00 x80 x3f)
(T (W x00 x00 x00 x00 x00 x00 x00 x00)
(T (W x00 x00 x80 x3f x00 x00 x80 x3f)
(T (W x18 x00 x00 x00 x0c x00 x00 x00)
(T (W x00 x00 x00 x00 x00 x00 x00 x00)
(T (W x6c x00 x00 x00 x60 x00 x00 x00)
(T (W xff xff xff xff xff xff xff xff)
(L (W xff xff xff xff xff xff xff xff))
(L (W xc4 x00 x00 x00 x02 x00 x00 x00)))
(T (W xc2 x8b xff xff x00 x00 x01 x01)
(L (W x00 x00 x80 xbf x00 x00 x80 xbf)) E))
(T (W x45 x26 x22 x84 xe4 x9c xf2 xcb)
(T (W xe8 x49 x0e x53 x9a x30 x89 x68)
(L (W xff xff xff xff xff xff xff xff))
(L (W x06 x00 x07 x00 x00 x00 x00 x00)))
(T (W x40 x00 x44 x00 x00 x00 x48 x00)
(L (W x00 x00 x80 xbf x00 x00 x80 xbf)) E)))
(T (W xff xff xff xff xff xff xff xff)
(T (W x70 x00 x00 x00 xff xff xff xff)
(T (W xc2 xfa xfd xff x9c x01 x00 x00)
(L (W xff xff xff xff xff xff xff xff))
(L (W x30 x32 x5f x43 x4c x45 x41 x52)))
(T (W xff xff xff xff xff xff xff xff)
(L (W xff xff xff xff xff xff xff xff)) E))
(T (W x00 x00 x80 x3f x00 x00 x80 x3f)
(T (W x00 x00 x00 x00 x00 x00 x00 x00)
(L (W x00 x00 x80 xbf x00 x00 x80 xbf)) E)
(T (W x45 x44 x00 x00 x00 x00 x00 x00)
(L (W xff xff xff xff xff xff xff xff)) E))))
(T (W x04 x00 x00 x00 x4a x75 xfd xff)
(T (W x00 x00 x80 x3f x00 x00 x80 x3f)
(T (W x00 x00 x00 x00 x00 x00 x00 x00)
(T (W xff xff xff xff xff xff xff xff)
(L (W x12 xf9 xff xff x00 x00 x01 x01))
(L (W x00 x00 x00 x00 x00 x00 x00 x00)))
(T (W x68 x00 x00 x00 x5c x00 x00 x00)
(L (W x2c x9c xfe xff x00 x01 x01 x01)) E))
(T (W xff xff xff xff xff xff xff xff)
(T (W x50 x00 x00 x00 x44 x00 x00 x00)
(L (W x00 x00 x00 x00 x00 x00 x00 x00)) E)
(T (W x00 x00 x00 x00 x00 x00 x00 x00)
(L (W xff xff xff xff xff xff xff xff)) E)))
(T (W x45 x26 x22 x84 xe4 x9c xf2 xcb)
(T (W xff xff xff xff x03 x00 x00 x00)
(T (W x45 x26 x22 x84 xe4 x9c xf2 xcb)
(L (W x00 x00 x00 x00 x00 x00 x00 x00))
(L (W x54 x00 x00 x00 x48 x00 x00 x00)))
(T (W x45 x26 x22 x84 xe4 x9c xf2 xcb)
(L (W x14 x00 x00 x00 x0c x00 x00 x00)) E))
(T (W xff xff xff xff xff xff xff xff)
(T (W x00 x00 x00 x00 x00 x00 x00 x00)
(L (W xff xff xff xff xff xff xff xff)) E)
(T (W x03 x00 x00 x00 xd0 x00 x00 x00)
(L (W x4f x84 x6f x8b xe8 xcb x63 xb7)) E)))))
(T (W x00 x00 x80 x3f x00 x00 x80 x3f)
(T (W xff xff xff xff xff xff xff xff)
(T (W x00 x00 x00 x00 x00 x00 x00 x00)
(T (W x00 x00 x80 x3f x00 x00 x80 x3f)
(T (W x00 x00 x00 x00 x00 x00 x00 x00)
(L (W xff xff xff xff xff xff xff xff))
(L (W xff xff xff xff xff xff xff xff)))
(T (W xff xff xff xff xff xff xff xff)
(L (W x00 x00 x80 xbf x00 x00 x80 xbf)) E))
(T (W xff xff xff xff x01 x00 x00 x00)
(T (W x00 x00 x00 x00 x00 x00 x00 x00)
(L (W x04 x00 x00 x00 x1a x10 xfe xff)) E)
(T (W xff xff xff xff x9c x00 x00 x00)
(L (W x18 x00 x00 x00 x10 x00 x00 x00)) E)))
(T (W x18 x00 x00 x00 x0c x00 x00 x00)
(T (W xff xff xff xff xff xff xff xff)
(T (W x00 x00 x00 x00 x00 x00 x00 x00)
(L (W x00 x00 x00 x00 x00 x00 x00 x00))
(L (W x00 x00 x80 xbf x00 x00 x80 xbf)))
(T (W x46 x00 x00 x00 x0c x00 x00 x00)
(L (W x00 x00 x00 x00 x00 x00 x00 x00)) E))
(T (W x4f x84 x6f x8b xe8 xcb x63 xb7)
(T (W x46 x53 x59 x53 x5f x4e x53 x5f)
(L (W x45 x26 x22 x84 xe4 x9c xf2 xcb)) E)
(T (W x49 xa1 x68 x4a xeb x5f xdd x3d)
(L (W x46 x53 x59 x53 x5f x4e x53 x5f)) E))))
(T (W x00 x00 x00 x00 x00 x00 x00 x00)
(T (W xff xff xff xff xff xff xff xff)
(T (W x00 x00 x00 x00 x04 x00 x00 x00)
(T (W x00 x00 x80 x3f x00 x00 x80 x3f)
(L (W xc2 xea xff xff xc9 x00 x00 x00))
(L (W x46 x53 x59 x53 x5f x4e x53 x5f)))
(T (W x64 x5f x6c x76 x31 x00 x00 x00)
(L (W x2c xac xfe xff x00 x01 x01 x01)) E))
(T (W x00 x00 x00 x00 x00 x00 x00 x00)
(T (W x00 x00 x00 x00 x9c x2a xfc xff)
(L (W x45 x26 x22 x84 xe4 x9c xf2 xcb)) E)
(T (W xff xff xff xff xff xff xff xff)
(L (W xff xff xff xff xbc x00 x00 x00)) E)))
(T (W x40 x00 x00 x00 x9c x00 x00 x00)
(T (W xff xff xff xff xff xff xff xff)
(T (W xff xff xff xff xff xff xff xff)
(L (W x45 x26 x22 x84 xe4 x9c xf2 xcb))
(L (W x54 x00 x00 x00 x48 x00 x00 x00)))
(T (W xff xff xff xff xff xff xff xff)
(L (W x00 x00 x00 x00 x00 x00 x00 x00)) E))
(T (W x00 x00 x80 x3f x00 x00 x80 x3f)
(T (W x18 x01 x00 x00 x04 x00 x00 x00)
(L (W x30 x32 x5f x43 x4c x45 x41 x52)) E)
(T (W x04 x00 x00 x00 x80 x03 x00 x00)
(L (W x00 x00 x80 xbf x00 x00 x80 xbf)) E))))))
(T (W xff xff xff xff x04 x00 x00 x00)
(T (W xff xff xff xff xff xff xff xff)
(T (W x00 x00 x00 x00 x00 x00 x00 x00)
(T (W x40 x00 x00 x00 x0c x00 x00 x00)
(T (W x00 x00 x80 x3f x00 x00 x80 x3f)
(T (W x00 x00 x00 x00 x00 x00 x00 x00)
(L (W xb4 x3e x00 x00 x9c x3d x00 x00))
(L (W xff xff xff xff xc0 x00 x00 x00)))
(T (W xff xff xff xff xff xff xff xff)
(L (W x00 x00 x80 xbf x00 x00 x80 xbf)) E))
(T (W x18 x00 x00 x00 x0c x00 x00 x00)
(T (W x30 x32 x5f x43 x4c x45 x41 x52)
(L (W x5d x00 x00 x00 xff xff xff xff))
(L (W x00 x00 x48 x00 x4c x00 x00 x00)))
(T (W x5c x08 xfd xff x17 x00 x00 x00)
(L (W x54 x00 x00 x00 x48 x00 x00 x00)) E)))
(T (W xff xff xff xff x04 x00 x00 x00)
(T (W xff xff xff xff xff xff xff xff)
(T (W x00 x00 x00 x00 x00 x00 x00 x00)
(L (W x54 x02 x00 x00 x38 x01 x00 x00))
(L (W x00 x00 x00 x00 x00 x00 x00 x00)))
(T (W xff xff xff xff xff xff xff xff)
(L (W xff xff xff xff xff xff xff xff)) E))
(T (W xff xff xff xff xff xff xff xff)
(T (W x18 x00 x00 x00 x10 x00 x00 x00)
(L (W xff xff xff xff xb0 x00 x00 x00)) E)
(T (W x00 x00 x00 x00 x00 x00 x00 x00)
(L (W xf6 x50 x48 xdc x00 x59 x59 x2f)) E))))
(T (W x00 x00 x00 x00 x00 x00 x00 x00)
(T (W xff xff xff xff xff xff xff xff)
(T (W x00 x00 x00 x00 x00 x00 x00 x00)
(T (W x5f x4e x53 x5f x30 x32 x5f x43)
(L (W x00 x00 x80 xbf x00 x00 x80 xbf))
(L (W x00 x00 x80 xbf x00 x00 x80 xbf)))
(T (W x00 x00 x00 x00 x00 x00 x00 x00)
(L (W x5a x9f xfe xff x74 x00 x00 x00)) E))
(T (W x00 x00 x00 x00 x8a x26 xfb xff)
(T (W x2c x24 xfc xff x00 x01 x01 x01)
(L (W x00 x00 x00 x00 x00 x00 x00 x00)) E)
(T (W x45 x26 x22 x84 xe4 x9c xf2 xcb)
(L (W xff xff xff xff xff xff xff xff)) E)))
(T (W x18 x00 x00 x00 x10 x00 x00 x00)
(T (W xff xff xff xff xff xff xff xff)
(T (W x2c x00 x00 x00 xac x00 x00 x00)
(L (W x45 x26 x22 x84 xe4 x9c xf2 xcb))
(L (W x00 x00 x80 xbf x00 x00 x80 xbf)))
(T (W x38 x04 x00 x00 xc4 x02 x00 x00)
(L (W x4f x84 x6f x8b xe8 xcb x63 xb7)) E))
(T (W x00 x00 x00 x00 x00 x00 x00 x00)
(T (W x45 x26 x22 x84 xe4 x9c xf2 xcb)
(L (W x00 x00 x01 x01 x6f x00 x00 x00)) E)
(T (W xff xff xff xff xff xff xff xff)
(L (W x00 x00 x80 xbf x00 x00 x80 xbf)) E)))))
(T (W x00 x00 x00 x00 x00 x00 x00 x00)
(T (W x00 x00 x80 x3f x00 x00 x80 x3f)
(T (W x45 x26 x22 x84 xe4 x9c xf2 xcb)
(T (W x00 x00 x00 x00 x00 x00 x00 x00)
(T (W x00 x00 x80 x3f x00 x00 x80 x3f)
(L (W xff xff xff xff xff xff xff xff))
(L (W x00 x00 x00 x00 x00 x00 x00 x00)))
(T (W x5a x8f xfc xff x74 x00 x00 x00)
(L (W x00 x00 x80 xbf x00 x00 x80 xbf)) E))
(T (W x70 x5f x6c x65 x61 x64 x65 x72)
(T (W x00 x00 x80 x3f x00 x00 x80 x3f)
(L (W x00 x00 x00 x00 x3a x10 xfe xff)) E)
(T (W x00 x00 x80 xbf x00 x00 x80 xbf)
(L (W xff xff xff xff xff xff xff xff)) E)))
(T (W x5a x4f xfa xff x74 x00 x00 x00)
(T (W x64 x00 x00 x00 x9c x00 x00 x00)
(T (W x5a xcf xfb xff x74 x00 x00 x00)
(L (W x00 x00 x00 x00 x00 x00 x00 x00))
(L (W x45 x26 x22 x84 xe4 x9c xf2 xcb)))
(T (W x54 x00 x00 x00 x48 x00 x00 x00)
(L (W x00 x00 x00 x00 x00 x00 x00 x00)) E))
(T (W x00 x00 x00 x00 x9c x52 xfb xff)
(T (W x45 x26 x22 x84 xe4 x9c xf2 xcb)
(L (W xff xff xff xff xff xff xff xff)) E)
(T (W x5a x4f xfd xff x74 x00 x00 x00)
(L (W x00 x00 x00 x00 x00 x00 x00 x00)) E))))
(T (W x00 x00 x00 x00 x00 x00 x00 x00)
(T (W xff xff xff xff xff xff xff xff)
(T (W xff xff xff xff xff xff xff xff)
(T (W xd4 x00 x00 x00 xc8 x00 x00 x00)
(L (W x00 x00 x80 xbf x00 x00 x80 xbf))
(L (W x00 x00 x00 x00 x00 x00 x00 x00)))
(T (W x42 xc2 xff xff x6c x00 x00 x00)
(L (W x45 x26 x22 x84 xe4 x9c xf2 xcb)) E))
(T (W x00 x00 x80 x3f x00 x00 x80 x3f)
(T (W xff xff xff xff xff xff xff xff)
(L (W x00 x00 x80 xbf x00 x00 x80 xbf)) E)
(T (W xff xff xff xff xff xff xff xff)
(L (W xff xff xff xff xff xff xff xff)) E)))
(T (W x50 x00 x00 x00 x44 x00 x00 x00)
(T (W x2f x00 x00 x00 xff xff xff xff)
(T (W xff xff xff xff xff xff xff xff)
(L (W xff xff xff xff xc8 x00 x00 x00))
(L (W xff xff xff xff xff xff xff xff)))
(T (W x00 x00 x00 x00 x00 x00 x00 x00)
(L (W x00 x00 x80 xbf x00 x00 x80 xbf)) E))
(T (W x01 x00 x00 x00 x21 x00 x00 x00)
(T (W xff xff xff xff xff xff xff xff)
(L (W x45 x26 x22 x84 xe4 x9c xf2 xcb)) E)
(T (W x18 x00 x00 x00 x0c x00 x00 x00)
(L (W x00 x00 x00 x00 x9c x72 xff xff)) E)))))))
(T (W xbc x00 x00 x00 xb0 x00 x00 x00)
(T (W x00 x00 x80 x3f x00 x00 x80 x3f)
(T (W x45 x26 x22 x84 xe4 x9c xf2 xcb)
(T (W xff xff xff xff xff xff xff xff)
(T (W xff xff xff xff x03 x00 x00 x00)
(T (W xdc x00 x00 x00 xff xff xff xff)
(T (W x50 x00 x00 x00 x44 x00 x00 x00)
(L (W x00 x00 x80 xbf x00 x00 x80 xbf))
(L (W x00 x00 x00 x00 x00 x00 x00 x00)))
(T (W x00 x00 x80 x3f x00 x00 x80 x3f)
(L (W xff xff xff xff xff xff xff xff)) E))
(T (W x5f x4e x53 x5f x30 x32 x5f x43)
(T (W x68 x00 x00 x00 x5c x00 x00 x00)
(L (W x45 x26 x22 x84 xe4 x9c xf2 xcb))
(L (W x00 x00 x80 xbf x00 x00 x80 xbf)))
(T (W x5c x04 xfd xff x1e x00 x00 x00)
(L (W xff xff xff xff xff xff xff xff)) E)))
(T (W x45 x26 x22 x84 xe4 x9c xf2 xcb)
(T (W x00 x00 x80 x3f x00 x00 x80 x3f)
(T (W x01 x00 x00 x00 xac x00 x00 x00)
(L (W x00 x00 x00 x00 x00 x00 x00 x00))
(L (W x03 x00 x00 x00 xd0 x00 x00 x00)))
(T (W x45 x26 x22 x84 xe4 x9c xf2 xcb)
(L (W x45 x26 x22 x84 xe4 x9c xf2 xcb)) E))
(T (W x00 x00 x00 x00 x00 x00 x00 x00)
(T (W x2c x40 xfc xff x00 x01 x01 x01)
(L (W x45 x44 x00 x00 x00 x00 x00 x00)) E)
(T (W xff xff xff xff xb0 x00 x00 x00)
(L (W x54 x00 x00 x00 x48 x00 x00 x00)) E))))
(T (W x5a xdb xf9 xff x74 x00 x00 x00)
(T (W x00 x00 x00 x00 x00 x00 x00 x00)
(T (W x50 x00 x00 x00 x44 x00 x00 x00)
(T (W x00 x00 x80 x3f x00 x00 x80 x3f)
(L (W x68 x00 x00 x00 x5c x00 x00 x00))
(L (W xb4 x00 x00 x00 x64 x00 x00 x00)))
(T (W x00 x00 x00 x00 x00 x00 x00 x00)
(L (W xb4 xad xfe xff x19 x00 x00 x00)) E))
(T (W x00 x00 x80 x3f x00 x00 x80 x3f)
(T (W x00 x00 x00 x00 x00 x00 x00 x00)
(L (W xff xff xff xff xff xff xff xff)) E)
(T (W x00 x00 x00 x00 x00 x00 x00 x00)
(L (W x00 x00 x00 x00 x00 x00 x00 x00)) E)))
(T (W x00 x00 x00 x00 x00 x00 x00 x00)
(T (W x00 x00 x00 x00 x00 x00 x00 x00)
(T (W x45 x26 x22 x84 xe4 x9c xf2 xcb)
(L (W xc4 x00 x00 x00 x02 x00 x00 x00))
(L (W xff xff xff xff xff xff xff xff)))
(T (W x00 x00 x00 x00 x00 x00 x00 x00)
(L (W xff xff xff xff xa0 x00 x00 x00)) E))
(T (W x54 x00 x00 x00 x48 x00 x00 x00)
(T (W xff xff xff xff xff xff xff xff)
(L (W x0a x5d xfe xff x78 x00 x00 x00)) E)
(T (W x00 x00 x80 xbf x00 x00 x80 xbf)
(L (W xff xff xff xff xff xff xff xff)) E)))))
(T (W xff xff xff xff xff xff xff xff)
(T (W x00 x00 x00 x00 x00 x00 x00 x00)
(T (W x45 x26 x22 x84 xe4 x9c xf2 xcb)
(T (W xba x95 xfd xff x00 x00 x01 x01)
(T (W xff xff xff xff xff xff xff xff)
(L (W x00 x00 x80 xbf x00 x00 x80 xbf))
(L (W x00 x00 x80 xbf x00 x00 x80 xbf)))
(T (W x00 x00 x00 x00 x00 x00 x00 x00)
(L (W x00 x00 x00 x00 x1a x94 xfe xff)) E))
(T (W x54 x00 x00 x00 x48 x00 x00 x00)
(T (W xff xff xff xff xbc x00 x00 x00)
(L (W x6c x00 x00 x00 x60 x00 x00 x00)) E)
(T (W x00 x00 x80 xbf x00 x00 x80 xbf)
(L (W x45 x44 x00 x00 x00 x00 x00 x00)) E)))
(T (W x00 x00 x00 x00 x00 x00 x00 x00)
(T (W x45 x26 x22 x84 xe4 x9c xf2 xcb)
(T (W xff xff xff xff xff xff xff xff)
(L (W x00 x00 x80 xbf x00 x00 x80 xbf))
(L (W xff xff xff xff xff xff xff xff)))
(T (W xff xff xff xff xff xff xff xff)
(L (W x54 x00 x00 x00 x48 x00 x00 x00)) E))
(T (W xba x55 xfe xff x00 x00 x01 x01)
(T (W x01 x00 x00 x00 xb0 x00 x00 x00)
(L (W x4f x84 x6f x8b xe8 xcb x63 xb7)) E)
(T (W xff xff xff xff xff xff xff xff)
(L (W x03 x00 x00 x00 xd8 x00 x00 x00)) E))))
(T (W x18 x00 x00 x00 x0c x00 x00 x00)
(T (W x00 x00 x80 x3f x00 x00 x80 x3f)
(T (W x00 x00 x80 x3f x00 x00 x80 x3f)
(T (W x00 x00 x00 x00 x00 x00 x00 x00)
(L (W x00 x00 x00 x00 x00 x00 x00 x00))
(L (W x6c x00 x00 x00 x60 x00 x00 x00)))
(T (W x50 x00 x00 x00 x44 x00 x00 x00)
(L (W x00 x00 x00 x00 x00 x00 x00 x00)) E))
(T (W xff xff xff xff xff xff xff xff)
(T (W x4f x84 x6f x8b xe8 xcb x63 xb7)
(L (W x00 x00 x00 x00 x8a x32 xfe xff)) E)
(T (W x4f x84 x6f x8b xe8 xcb x63 xb7)
(L (W x00 x00 x80 xbf x00 x00 x80 xbf)) E)))
(T (W xc2 x7f xfd xff x00 x00 x01 x01)
(T (W xb4 xfd xfa xff x3e x00 x00 x00)
(T (W x45 x26 x22 x84 xe4 x9c xf2 xcb)
(L (W x00 x00 x00 x00 x00 x00 x00 x00))
(L (W x00 x00 x00 x00 x00 x00 x00 x00)))
(T (W x00 x00 x00 x00 x00 x00 x00 x00)
(L (W xff xff xff xff xff xff xff xff)) E))
(T (W xff xff xff xff xff xff xff xff)
(T (W x00 x00 x80 x3f x00 x00 x80 x3f)
(L (W xff xff xff xff xff xff xff xff)) E)
(T (W x68 x00 x00 x00 x5c x00 x00 x00)
(L (W x08 x00 x00 x00 x18 x08 x00 x00)) E))))))
(T (W x00 x00 x00 x00 x00 x00 x00 x00)
(T (W x00 x00 x00 x00 x00 x00 x00 x00)
(T (W x54 x00 x00 x00 x48 x00 x00 x00)
(T (W x00 x00 x00 x00 x9c x06 xfa xff)
(T (W x32 x8c xfd xff xae x01 x00 x00)
(T (W x68 x00 x00 x00 x5c x00 x00 x00)
(L (W x4f x84 x6f x8b xe8 xcb x63 xb7))
(L (W x00 x00 x80 xbf x00 x00 x80 xbf)))
(T (W x45 x26 x22 x84 xe4 x9c xf2 xcb)
(L (W x5c x00 x00 x00 xff xff xff xff)) E))
(T (W x00 x00 x80 x3f x00 x00 x80 x3f)
(T (W x18 x00 x00 x00 x0c x00 x00 x00)
(L (W x00 x00 x80 xbf x00 x00 x80 xbf)) E)
(T (W x00 x00 x01 x01 x85 x01 x00 x00)
(L (W x00 x00 x01 x01 x2e x00 x00 x00)) E)))
(T (W x00 x00 x80 x3f x00 x00 x80 x3f)
(T (W x00 x00 x80 x3f x00 x00 x80 x3f)
(T (W xff xff xff xff xff xff xff xff)
(L (W x0a xc5 xfd xff x78 x00 x00 x00))
(L (W xff xff xff xff xff xff xff xff)))
(T (W x00 x00 x00 x00 x00 x00 x00 x00)
(L (W x00 x00 x80 xbf x00 x00 x80 xbf)) E))
(T (W x50 x00 x00 x00 x44 x00 x00 x00)
(T (W x5a x43 xfc xff x74 x00 x00 x00)
(L (W x00 x00 x00 x00 x00 x00 x00 x00)) E)
(T (W xff xff xff xff xff xff xff xff)
(L (W xff xff xff xff xa0 x00 x00 x00)) E))))
(T (W xb8 x00 x00 x00 xac x00 x00 x00)
(T (W x00 x00 x80 x3f x00 x00 x80 x3f)
(T (W x00 x00 x80 x3f x00 x00 x80 x3f)
(T (W xff xff xff xff xff xff xff xff)
(L (W xff xff xff xff xff xff xff xff))
(L (W x00 x00 x00 x00 x00 x00 x00 x00)))
(T (W x50 x00 x00 x00 x44 x00 x00 x00)
(L (W x00 x00 x00 x00 x00 x00 x00 x00)) E))
(T (W x54 x00 x00 x00 x48 x00 x00 x00)
(T (W x18 x00 x00 x00 x10 x00 x00 x00)
(L (W xff xff xff xff xff xff xff xff)) E)
(T (W x00 x00 x00 x00 x00 x00 x00 x00)
(L (W x45 x26 x22 x84 xe4 x9c xf2 xcb)) E)))
(T (W x3e x00 x00 x00 x0c x00 x00 x00)
(T (W x00 x00 x00 x00 x00 x00 x00 x00)
(T (W x49 xa1 x68 x4a xeb x5f xdd x3d)
(L (W xff xff xff xff xff xff xff xff))
(L (W x00 x00 x00 x00 x00 x00 x00 x00)))
(T (W x6b x65 x5f x6f x79 x61 x62 x75)
(L (W xff xff xff xff xff xff xff xff)) E))
(T (W xff xff xff xff x03 x00 x00 x00)
(T (W x00 x00 x00 x00 x00 x00 x00 x00)
(L (W xff xff xff xff xa0 x00 x00 x00)) E)
(T (W x00 x00 x80 xbf x00 x00 x80 xbf)
(L (W x00 x00 x00 x00 x00 x00 x00 x00)) E)))))
(T (W x00 x00 x80 x3f x00 x00 x80 x3f)
(T (W x01 x00 x00 x00 xa0 x00 x00 x00)
(T (W xff xff xff xff xff xff xff xff)
(T (W x24 x00 x28 x00 x2c x00 x30 x00)
(T (W x00 x00 x00 x00 x00 x00 x00 x00)
(L (W x00 x00 x80 xbf x00 x00 x80 xbf))
(L (W x18 x00 x00 x00 x0c x00 x00 x00)))
(T (W x00 x00 x00 x00 x00 x00 x00 x00)
(L (W x00 x00 x00 x00 x00 x00 x00 x00)) E))
(T (W x00 x00 x00 x00 x00 x00 x00 x00)
(T (W xff xff xff xff xff xff xff xff)
(L (W x18 x00 x00 x00 x0c x00 x00 x00)) E)
(T (W x00 x00 x00 x00 x00 x00 x00 x00)
(L (W x45 x26 x22 x84 xe4 x9c xf2 xcb)) E)))
(T (W x00 x00 x00 x00 x00 x00 x00 x00)
(T (W x45 x26 x22 x84 xe4 x9c xf2 xcb)
(T (W xff xff xff xff xff xff xff xff)
(L (W xff xff xff xff xa0 x00 x00 x00))
(L (W xff xff xff xff xff xff xff xff)))
(T (W x00 x00 x00 x00 x00 x00 x00 x00)
(L (W x18 x00 x00 x00 x10 x00 x00 x00)) E))
(T (W x00 x00 x00 x00 x00 x00 x00 x00)
(T (W xff xff xff xff xff xff xff xff)
(L (W x00 x00 x80 xbf x00 x00 x80 xbf)) E)
(T (W x00 x00 x00 x00 x12 x00 x00 x00)
(L (W xff xff xff xff xff xff xff xff)) E))))
(T (W x2c xf8 xf9 xff x00 x01 x01 x01)
(T (W x45 x26 x22 x84 xe4 x9c xf2 xcb)
(T (W x00 x00 x80 x3f x00 x00 x80 x3f)
(T (W x45 x26 x22 x84 xe4 x9c xf2 xcb)
(L (W xb0 x00 x00 x00 x64 x00 x00 x00))
(L (W x5a xb3 xff xff x74 x00 x00 x00)))
(T (W x00 x00 x80 x3f x00 x00 x80 x3f)
(L (W x00 x00 x00 x00 x00 x00 x00 x00)) E))
(T (W x6b x65 x5f x77 x61 x72 x6c x69)
(T (W x50 x00 x00 x00 x44 x00 x00 x00)
(L (W x44 x02 x00 x00 x30 x01 x00 x00)) E)
(T (W x00 x00 x80 xbf x00 x00 x80 xbf)
(L (W x00 x00 x80 xbf x00 x00 x80 xbf)) E)))
(T (W xff xff xff xff xff xff xff xff)
(T (W x00 x00 x80 x3f x00 x00 x80 x3f)
(T (W x0a xf5 xfb xff x78 x00 x00 x00)
(L (W x00 x00 x00 x00 x00 x00 x00 x00))
(L (W x00 x00 x00 x00 x00 x00 x00 x00)))
(T (W xff xff xff xff xff xff xff xff)
(L (W x44 x02 x00 x00 x30 x01 x00 x00)) E))
(T (W x00 x00 x00 x00 x00 x00 x00 x00)
(T (W x68 x00 x00 x00 x5c x00 x00 x00)
(L (W xff xff xff xff xff xff xff xff)) E)
(T (W x00 x00 x80 xbf x00 x00 x80 xbf)
(L (W x45 x44 x00 x00 x00 x00 x00 x00)) E)))))))))
(T (W xb0 x0b x02 x00 xa4 x04 x02 x00)
(T (W xc8 x98 x00 x00 x94 x97 x00 x00)
(T (W x45 x26 x22 x84 xe4 x9c xf2 xcb)
(T (W xff xff xff xff x11 x00 x00 x00)
(T (W x00 x00 x80 x3f x00 x00 x80 x3f)
(T (W x0a xb8 xf9 xff x78 x00 x00 x00)
(T (W xc2 x0a xfd xff x00 x00 x01 x01)
(T (W x00 x00 x80 x3f x00 x00 x80 x3f)
(T (W x01 x00 x00 x00 xb0 x00 x00 x00)
(L (W xff xff xff xff xff xff xff xff))
(L (W x45 x26 x22 x84 xe4 x9c xf2 xcb)))
(T (W xff xff xff xff xff xff xff xff)
(L (W x00 x00 x00 x00 x00 x00 x00 x00)) E))
(T (W x2c x00 x30 x00 x34 x00 x38 x00)
(T (W xff xff xff xff xff xff xff xff)
(L (W x5a xf6 xfd xff x74 x00 x00 x00))
(L (W x00 x00 x00 x00 x9c xf9 xff xff)))
(T (W x01 x00 x00 x00 x1a x00 x00 x00)
(L (W x00 x00 x80 xbf x00 x00 x80 xbf)) E)))
(T (W x18 x00 x00 x00 x0c x00 x00 x00)
(T (W xff xff xff xff xff xff xff xff)
(T (W xff xff xff xff xff xff xff xff)
(L (W xff xff xff xff xff xff xff xff))
(L (W x00 x00 x01 x01 x72 x00 x00 x00)))
(T (W xff xff xff xff xff xff xff xff)
(L (W x18 x00 x00 x00 x10 x00 x00 x00)) E))
(T (W x00 x00 x80 x3f x00 x00 x80 x3f)
(T (W xff xff xff xff xff xff xff xff)
(L (W x00 x00 x80 xbf x00 x00 x80 xbf)) E)
(T (W xff xff xff xff xff xff xff xff)
(L (W x03 x00 x00 x00 xd8 x00 x00 x00)) E))))
(T (W xff xff xff xff xff xff xff xff)
(T (W x00 x00 x00 x00 x00 x00 x00 x00)
(T (W x9d x00 x00 x00 xff xff xff xff)
(T (W x5a x96 xfb xff x74 x00 x00 x00)
(L (W xff xff xff xff xff xff xff xff))
(L (W x00 x00 x00 x00 x3a x97 xff xff)))
(T (W x00 x00 x80 x3f x00 x00 x80 x3f)
(L (W x00 x00 x80 xbf x00 x00 x80 xbf)) E))
(T (W x5a x16 xfb xff x74 x00 x00 x00)
(T (W x00 x00 x80 x3f x00 x00 x80 x3f)
(L (W x00 x00 x00 x00 x00 x00 x00 x00)) E)
(T (W x04 x00 x00 x00 xfa x18 xfd xff)
(L (W xff xff xff xff xb0 x00 x00 x00)) E)))
(T (W x5a x56 xfa xff x74 x00 x00 x00)
(T (W x40 x00 x00 x00 x9c x00 x00 x00)
(T (W x5a xd6 xfb xff x74 x00 x00 x00)
(L (W xe4 x56 xbb x28 xbf xd8 x6a x6a))
(L (W x00 x00 x00 x00 x00 x00 x00 x00)))
(T (W x54 x00 x00 x00 x48 x00 x00 x00)
(L (W xff xff xff xff xff xff xff xff)) E))
(T (W xb8 x00 x00 x00 x03 x00 x00 x00)
(T (W x00 x00 x00 x00 x00 x00 x00 x00)
(L (W xff xff xff xff xff xff xff xff)) E)
(T (W x18 x00 x00 x00 x10 x00 x00 x00)
(L (W x00 x00 x00 x00 x00 x00 x00 x00)) E)))))
(T (W x00 x00 x80 x3f x00 x00 x80 x3f)
(T (W xff xff xff xff x03 x00 x00 x00)
(T (W xc3 x01 x00 x00 xff xff xff xff)
(T (W x00 x00 x00 x00 x00 x00 x00 x00)
(T (W x00 x00 x00 x00 x00 x00 x00 x00)
(L (W xc0 x00 x00 x00 x01 x00 x00 x00))
(L (W xb4 x00 x00 x00 x32 x00 x00 x00)))
(T (W x5a x86 xfc xff x74 x00 x00 x00)
(L (W x45 x26 x22 x84 xe4 x9c xf2 xcb)) E))
(T (W xff xff xff xff xff xff xff xff)
(T (W x45 x44 x00 x00 x00 x00 x00 x00)
(L (W xff xff xff xff xbc x00 x00 x00)) E)
(T (W x00 x00 x80 xbf x00 x00 x80 xbf)
(L (W x54 x00 x00 x00 x48 x00 x00 x00)) E)))
(T (W x00 x00 x80 x3f x00 x00 x80 x3f)
(T (W x00 x00 x00 x00 x9c xc9 xfa xff)
(T (W x00 x00 x00 x00 x00 x00 x00 x00)
(L (W xff xff xff xff xff xff xff xff))
(L (W x00 x00 x00 x00 x00 x00 x00 x00)))
(T (W xe8 x00 x00 x00 x64 x00 x00 x00)
(L (W xff xff xff xff xff xff xff xff)) E))
(T (W x5c x4f xfb xff x10 x00 x00 x00)
(T (W x00 x00 x00 x00 x00 x00 x00 x00)
(L (W x00 x00 x80 xbf x00 x00 x80 xbf)) E)
(T (W x00 x00 x00 x00 x00 x00 x00 x00)
(L (W x00 x00 x00 x00 xfa x48 xff xff)) E))))
(T (W x00 x00 x00 x00 x00 x00 x00 x00)
(T (W xb8 x00 x00 x00 xac x00 x00 x00)
(T (W xff xff xff xff xff xff xff xff)
(T (W x00 x00 x00 x00 x00 x00 x00 x00)
(L (W xff xff xff xff xff xff xff xff))
(L (W x00 x00 x01 x01 x5d x00 x00 x00)))
(T (W xff xff xff xff xff xff xff xff)
(L (W x54 x00 x00 x00 x48 x00 x00 x00)) E))
(T (W x00 x00 x00 x00 x8a x2d xfb xff)
(T (W x00 x00 x80 x3f x00 x00 x80 x3f)
(L (W x00 x00 x00 x00 x00 x00 x00 x00)) E)
(T (W xcc x00 x00 x00 x01 x00 x00 x00)
(L (W x45 x26 x22 x84 xe4 x9c xf2 xcb)) E)))
(T (W x00 x00 x80 x3f x00 x00 x80 x3f)
(T (W x68 x00 x00 x00 x5c x00 x00 x00)
(T (W x45 x26 x22 x84 xe4 x9c xf2 xcb)
(L (W x54 x00 x00 x00 x48 x00 x00 x00))
(L (W x00 x00 x80 xbf x00 x00 x80 xbf)))
(T (W x45 x26 x22 x84 xe4 x9c xf2 xcb)
(L (W x46 x53 x59 x53 x5f x4e x53 x5f)) E))
(T (W x00 x00 x00 x00 x00 x00 x00 x00)
(T (W xff xff xff xff xff xff xff xff)
(L (W xff xff xff xff xff xff xff xff)) E)
(T (W xff xff xff xff xff xff xff xff)
(L (W x00 x00 x80 xbf x00 x00 x80 xbf)) E))))))
(T (W x18 x00 x00 x00 x0c x00 x00 x00)
(T (W xff xff xff xff xff xff xff xff)
(T (W x00 x00 x00 x00 x00 x00 x00 x00)
(T (W xff xff xff xff xff xff xff xff)
(T (W x00 x00 x00 x00 x00 x00 x00 x00)
(T (W x00 x00 x00 x00 x00 x00 x00 x00)
(L (W xff xff xff xff xff xff xff xff))
(L (W x45 x26 x22 x84 xe4 x9c xf2 xcb)))
(T (W xff xff xff xff xff xff xff xff)
(L (W x4f x84 x6f x8b xe8 xcb x63 xb7)) E))
(T (W x00 x00 x80 x3f x00 x00 x80 x3f)
(T (W xc2 x12 xff xff x00 x00 x01 x01)
(L (W xff xff xff xff xff xff xff xff))
(L (W x08 x00 x0c x00 x10 x00 x14 x00)))
(T (W xff xff xff xff xff xff xff xff)
(L (W x00 x00 x80 xbf x00 x00 x80 xbf)) E)))
(T (W x5a x3e xfa xff x74 x00 x00 x00)
(T (W x64 x00 x00 x00 x9c x00 x00 x00)
(T (W x4c x45 x41 x52 x45 x44 x00 x00)
(L (W xb0 x00 x00 x00 x64 x00 x00 x00))
(L (W x45 x44 x00 x00 x00 x00 x00 x00)))
(T (W xb8 x00 x00 x00 xac x00 x00 x00)
(L (W xcc x00 x00 x00 x01 x00 x00 x00)) E))
(T (W x00 x00 x00 x00 x9c x41 xfb xff)
(T (W xff xff xff xff xff xff xff xff)
(L (W x00 x00 x80 xbf x00 x00 x80 xbf)) E)
(T (W x30 x32 x5f x43 x4c x45 x41 x52)
(L (W xff xff xff xff xff xff xff xff)) E))))
(T (W x00 x00 x01 x01 xc1 x02 x00 x00)
(T (W x18 x00 x00 x00 x10 x00 x00 x00)
(T (W xba xa8 xfd xff x00 x00 x01 x01)
(T (W x04 x00 x00 x00 x4a x3c xff xff)
(L (W x18 x00 x1c x00 x06 x00 x07 x00))
(L (W x00 x00 x10 x00 x14 x00 x18 x00)))
(T (W xd1 x01 x00 x00 xff xff xff xff)
(L (W x00 x00 x80 xbf x00 x00 x80 xbf)) E))
(T (W xff xff xff xff xff xff xff xff)
(T (W x00 x00 x80 x3f x00 x00 x80 x3f)
(L (W x00 x00 x00 x00 x00 x00 x00 x00)) E)
(T (W x00 x00 x80 xbf x00 x00 x80 xbf)
(L (W xff xff xff xff xff xff xff xff)) E)))
(T (W x2c x63 xfa xff x00 x01 x01 x01)
(T (W x01 x00 x00 x00 x3c x00 x00 x00)
(T (W x68 x00 x00 x00 x5c x00 x00 x00)
(L (W x00 x00 x00 x00 x00 x00 x00 x00))
(L (W x4f x84 x6f x8b xe8 xcb x63 xb7)))
(T (W x00 x00 x00 x00 x9c xe1 xfc xff)
(L (W x06 x85 xa7 x28 xbf x49 x53 x6a)) E))
(T (W xdc x05 x00 x00 xb4 x04 x00 x00)
(T (W x45 x26 x22 x84 xe4 x9c xf2 xcb)
(L (W xff xff xff xff xff xff xff xff)) E)
(T (W xff xff xff xff xff xff xff xff)
(L (W x00 x00 x00 x00 x00 x00 x00 x00)) E)))))
(T (W x00 x00 x01 x01 xc9 x00 x00 x00)
(T (W x45 x26 x22 x84 xe4 x9c xf2 xcb)
(T (W x00 x00 x00 x00 x00 x00 x00 x00)
(T (W x00 x00 x00 x00 x00 x00 x00 x00)
(T (W x00 x00 x80 x3f x00 x00 x80 x3f)
(L (W xff xff xff xff xff xff xff xff))
(L (W xff xff xff xff xff xff xff xff)))
(T (W x68 x00 x00 x00 x5c x00 x00 x00)
(L (W x00 x00 x80 xbf x00 x00 x80 xbf)) E))
(T (W xff xff xff xff xff xff xff xff)
(T (W x00 x00 x00 x00 x00 x00 x00 x00)
(L (W xff xff xff xff xff xff xff xff)) E)
(T (W x00 x00 x00 x00 x00 x00 x00 x00)
(L (W x00 x00 x80 xbf x00 x00 x80 xbf)) E)))
(T (W x68 x00 x00 x00 x5c x00 x00 x00)
(T (W x18 x00 x00 x00 x0c x00 x00 x00)
(T (W x00 x00 x80 x3f x00 x00 x80 x3f)
(L (W x00 x00 x00 x00 x00 x00 x00 x00))
(L (W x00 x00 x00 x00 x00 x00 x00 x00)))
(T (W x00 x00 x00 x00 x00 x00 x00 x00)
(L (W x00 x00 x00 x00 x00 x00 x00 x00)) E))
(T (W x00 x00 x80 x3f x00 x00 x80 x3f)
(T (W x00 x00 x00 x00 x12 x00 x00 x00)
(L (W xff xff xff xff xa0 x00 x00 x00)) E)
(T (W x00 x00 x80 xbf x00 x00 x80 xbf)
(L (W x30 x32 x5f x43 x4c x45 x41 x52)) E))))
(T (W x3e x00 x00 x00 x0c x00 x00 x00)
(T (W xc0 x00 x00 x00 xb4 x00 x00 x00)
(T (W xff xff xff xff xff xff xff xff)
(T (W x00 x00 x80 x3f x00 x00 x80 x3f)
(L (W x00 x00 x80 xbf x00 x00 x80 xbf))
(L (W x00 x00 x00 x00 x00 x00 x00 x00)))
(T (W xff xff xff xff xff xff xff xff)
(L (W x54 x00 x00 x00 x48 x00 x00 x00)) E))
(T (W x45 x26 x22 x84 xe4 x9c xf2 xcb)
(T (W x00 x00 x00 x00 x9c x31 xfc xff)
(L (W x45 x26 x22 x84 xe4 x9c xf2 xcb)) E)
(T (W xff xff xff xff xbc x00 x00 x00)
(L (W xb4 x00 x00 x00 x32 x00 x00 x00)) E)))
(T (W x00 x00 x80 x3f x00 x00 x80 x3f)
(T (W x0a xf0 xfa xff x78 x00 x00 x00)
(T (W xff xff xff xff xff xff xff xff)
(L (W x45 x26 x22 x84 xe4 x9c xf2 xcb))
(L (W x18 x00 x00 x00 x0c x00 x00 x00)))
(T (W x00 x00 x00 x00 x00 x00 x00 x00)
(L (W x45 x26 x22 x84 xe4 x9c xf2 xcb)) E))
(T (W x50 x00 x00 x00 x44 x00 x00 x00)
(T (W xff xff xff xff xff xff xff xff)
(L (W x00 x00 x00 x00 x12 x00 x00 x00)) E)
(T (W x00 x00 x00 x00 x0a x00 x00 x00)
(L (W x00 x00 x80 xbf x00 x00 x80 xbf)) E)))))))
(T (W x45 x26 x22 x84 xe4 x9c xf2 xcb)
(T (W x45 x26 x22 x84 xe4 x9c xf2 xcb)
(T (W x64 x27 x00 x00 x50 x26 x00 x00)
(T (W xff xff xff xff xff xff xff xff)
(T (W x50 x00 x00 x00 x44 x00 x00 x00)
(T (W xff xff xff xff xff xff xff xff)
(T (W x00 x00 x00 x00 x00 x00 x00 x00)
(L (W x00 x00 x00 x00 x00 x00 x00 x00))
(L (W x00 x00 x00 x00 x00 x00 x00 x00)))
(T (W x45 x26 x22 x84 xe4 x9c xf2 xcb)
(L (W xff xff xff xff x9c x00 x00 x00)) E))
(T (W x00 x00 x01 x01 x9d x01 x00 x00)
(T (W x00 x00 x80 x3f x00 x00 x80 x3f)
(L (W x00 x00 x00 x00 x00 x00 x00 x00))
(L (W x00 x00 x10 x00 x14 x00 x18 x00)))
(T (W xff xff xff xff xf4 x00 x00 x00)
(L (W x03 x00 x00 x00 xd0 x00 x00 x00)) E)))
(T (W x00 x00 x00 x00 x00 x00 x00 x00)
(T (W x00 x00 x80 x3f x00 x00 x80 x3f)
(T (W x00 x00 x80 x3f x00 x00 x80 x3f)
(L (W x00 x00 x00 x00 x00 x00 x00 x00))
(L (W x18 x00 x00 x00 x10 x00 x00 x00)))
(T (W x00 x00 x00 x00 x00 x00 x00 x00)
(L (W x00 x00 x00 x00 x00 x00 x00 x00)) E))
(T (W x64 x5f x70 x6f x6b x65 x5f x77)
(T (W x00 x00 x80 x3f x00 x00 x80 x3f)
(L (W xff xff xff xff xff xff xff xff)) E)
(T (W x00 x00 x80 xbf x00 x00 x80 xbf)
(L (W x00 x00 x80 xbf x00 x00 x80 xbf)) E))))
(T (W x50 x00 x00 x00 x44 x00 x00 x00)
(T (W x3e x00 x00 x00 x10 x00 x00 x00)
(T (W x00 x00 x80 x3f x00 x00 x80 x3f)
(T (W x4f x84 x6f x8b xe8 xcb x63 xb7)
(L (W x00 x00 x80 xbf x00 x00 x80 xbf))
(L (W x2c x9f xff xff x00 x01 x01 x01)))
(T (W x00 x00 x00 x00 x00 x00 x00 x00)
(L (W xff xff xff xff xff xff xff xff)) E))
(T (W x4f x84 x6f x8b xe8 xcb x63 xb7)
(T (W xff xff xff xff xff xff xff xff)
(L (W x18 x00 x00 x00 x0c x00 x00 x00)) E)
(T (W x2c x00 x00 x00 x0c x00 x00 x00)
(L (W x00 x00 x00 x00 x00 x00 x00 x00)) E)))
(T (W xc2 x6e xfd xff x00 x00 x01 x01)
(T (W xb4 xec xfa xff x16 x00 x00 x00)
(T (W x00 x00 x00 x00 x12 x00 x00 x00)
(L (W x45 x26 x22 x84 xe4 x9c xf2 xcb))
(L (W xff xff xff xff xff xff xff xff)))
(T (W x00 x00 x00 x00 x00 x00 x00 x00)
(L (W x6c x00 x00 x00 x60 x00 x00 x00)) E))
(T (W x00 x00 x80 x3f x00 x00 x80 x3f)
(T (W xff xff xff xff xff xff xff xff)
(L (W x45 x26 x22 x84 xe4 x9c xf2 xcb)) E)
(T (W x00 x00 x00 x00 x00 x00 x00 x00)
(L (W xff xff xff xff xff xff xff xff)) E)))))
(T (W xbc x00 x00 x00 xb0 x00 x00 x00)
(T (W x00 x00 x00 x00 x4a x68 xfd xff)
(T (W x00 x00 x80 x3f x00 x00 x80 x3f)
(T (W xff xff xff xff xff xff xff xff)
(T (W x5a x8a xfb xff x74 x00 x00 x00)
(L (W x00 x00 x00 x00 x00 x00 x00 x00))
(L (W x00 x00 x00 x00 x00 x00 x00 x00)))
(T (W x00 x00 x00 x00 x00 x00 x00 x00)
(L (W xff xff xff xff xff xff xff xff)) E))
(T (W x00 x00 x80 x3f x00 x00 x80 x3f)
(T (W x45 x26 x22 x84 xe4 x9c xf2 xcb)
(L (W x00 x00 x80 xbf x00 x00 x80 xbf)) E)
(T (W x00 x00 x00 x00 x00 x00 x00 x00)
(L (W xff xff xff xff xff xff xff xff)) E)))
(T (W x00 x00 x00 x00 x00 x00 x00 x00)
(T (W x00 x00 x00 x00 x00 x00 x00 x00)
(T (W xff xff xff xff xff xff xff xff)
(L (W x00 x00 x80 xbf x00 x00 x80 xbf))
(L (W xff xff xff xff xc0 x00 x00 x00)))
(T (W x00 x00 x80 x3f x00 x00 x80 x3f)
(L (W x00 x00 x80 xbf x00 x00 x80 xbf)) E))
(T (W xff xff xff xff xbc x00 x00 x00)
(T (W x45 x26 x22 x84 xe4 x9c xf2 xcb)
(L (W x00 x00 x00 x00 x00 x00 x00 x00)) E)
(T (W xff xff xff xff xff xff xff xff)
(L (W x18 x00 x00 x00 x10 x00 x00 x00)) E))))
(T (W x00 x00 x80 x3f x00 x00 x80 x3f)
(T (W x00 x00 x00 x00 x00 x00 x00 x00)
(T (W x45 x26 x22 x84 xe4 x9c xf2 xcb)
(T (W xff xff xff xff xff xff xff xff)
(L (W x00 x00 x00 x00 x00 x00 x00 x00))
(L (W x00 x00 x80 xbf x00 x00 x80 xbf)))
(T (W x00 x00 x80 x3f x00 x00 x80 x3f)
(L (W x30 x32 x5f x43 x4c x45 x41 x52)) E))
(T (W x01 x00 x00 x00 x21 x00 x00 x00)
(T (W x5c x33 xfc xff x15 x00 x00 x00)
(L (W xff xff xff xff xff xff xff xff)) E)
(T (W x00 x00 x00 x00 x00 x00 x00 x00)
(L (W x45 x26 x22 x84 xe4 x9c xf2 xcb)) E)))
(T (W xff xff xff xff xff xff xff xff)
(T (W xff xff xff xff xff xff xff xff)
(T (W x00 x00 x00 x00 x00 x00 x00 x00)
(L (W x00 x00 x00 x00 x8a xf1 xfd xff))
(L (W x00 x00 x00 x00 x3a xeb xff xff)))
(T (W x12 x00 x00 x00 x46 x53 x59 x53)
(L (W xff xff xff xff xff xff xff xff)) E))
(T (W xff xff xff xff xff xff xff xff)
(T (W x00 x00 x80 x3f x00 x00 x80 x3f)
(L (W xff xff xff xff xa0 x00 x00 x00)) E)
(T (W x00 x00 x80 xbf x00 x00 x80 xbf)
(L (W xff xff xff xff xff xff xff xff)) E))))))
(T (W x00 x00 x01 x01 xc9 x00 x00 x00)
(T (W x00 x00 x00 x00 x00 x00 x00 x00)
(T (W x00 x00 x80 x3f x00 x00 x80 x3f)
(T (W x6c x00 x00 x00 x60 x00 x00 x00)
(T (W xff xff xff xff xff xff xff xff)
(T (W x00 x00 x80 x3f x00 x00 x80 x3f)
(L (W x12 x00 x00 x00 x46 x53 x59 x53))
(L (W x00 x00 x00 x00 x00 x00 x00 x00)))
(T (W x00 x00 x00 x00 x00 x00 x00 x00)
(L (W xff xff xff xff xff xff xff xff)) E))
(T (W x00 x00 x00 x00 x00 x00 x00 x00)
(T (W x00 x00 x00 x00 x9c x05 xfc xff)
(L (W x45 x26 x22 x84 xe4 x9c xf2 xcb)) E)
(T (W xff xff xff xff xff xff xff xff)
(L (W xff xff xff xff xff xff xff xff)) E)))
(T (W x00 x00 x00 x00 x00 x00 x00 x00)
(T (W x00 x00 x00 x00 x00 x00 x00 x00)
(T (W xff xff xff xff xff xff xff xff)
(L (W x00 x00 x80 xbf x00 x00 x80 xbf))
(L (W xff xff xff xff xb0 x00 x00 x00)))
(T (W x00 x00 x00 x00 x00 x00 x00 x00)
(L (W x45 x26 x22 x84 xe4 x9c xf2 xcb)) E))
(T (W x00 x00 x80 x3f x00 x00 x80 x3f)
(T (W x00 x00 x80 x3f x00 x00 x80 x3f)
(L (W x00 x00 x00 x00 x00 x00 x00 x00)) E)
(T (W xc4 x00 x00 x00 x02 x00 x00 x00)
(L (W x6c x00 x00 x00 x60 x00 x00 x00)) E))))
(T (W x50 x00 x00 x00 x44 x00 x00 x00)
(T (W x45 x26 x22 x84 xe4 x9c xf2 xcb)
(T (W x00 x00 x00 x00 x00 x00 x00 x00)
(T (W x68 x00 x00 x00 x5c x00 x00 x00)
(L (W xb0 x00 x00 x00 x64 x00 x00 x00))
(L (W x00 x00 x00 x00 x12 x00 x00 x00)))
(T (W x45 x26 x22 x84 xe4 x9c xf2 xcb)
(L (W x00 x00 x00 x00 x00 x00 x00 x00)) E))
(T (W x00 x00 x80 x3f x00 x00 x80 x3f)
(T (W xff xff xff xff xff xff xff xff)
(L (W x00 x00 x00 x00 x9c x25 xfe xff)) E)
(T (W x00 x00 x00 x00 x00 x00 x00 x00)
(L (W x00 x00 x00 x00 x00 x00 x00 x00)) E)))
(T (W xff xff xff xff xff xff xff xff)
(T (W x01 x00 x00 x00 x04 x00 x00 x00)
(T (W x00 x00 x00 x00 x00 x00 x00 x00)
(L (W x18 x00 x00 x00 x0c x00 x00 x00))
(L (W xff xff xff xff xff xff xff xff)))
(T (W xff xff xff xff xff xff xff xff)
(L (W xff xff xff xff xa0 x00 x00 x00)) E))
(T (W xff xff xff xff x9c x00 x00 x00)
(T (W x00 x00 x00 x00 x00 x00 x00 x00)
(L (W x6c x00 x00 x00 x60 x00 x00 x00)) E)
(T (W x00 x00 x00 x00 x00 x00 x00 x00)
(L (W xff xff xff xff xff xff xff xff)) E)))))
(T (W x45 x26 x22 x84 xe4 x9c xf2 xcb)
(T (W x00 x00 x00 x00 x9c xd5 xf9 xff)
(T (W xff xff xff xff x04 x00 x00 x00)
(T (W xff xff xff xff xff xff xff xff)
(T (W xff xff xff xff xff xff xff xff)
(L (W x49 xa1 x68 x4a xeb x5f xdd x3d))
(L (W x00 x00 x80 xbf x00 x00 x80 xbf)))
(T (W xc2 xa6 xff xff x00 x00 x01 x01)
(L (W xff xff xff xff xff xff xff xff)) E))
(T (W x00 x00 x00 x00 x00 x00 x00 x00)
(T (W xff xff xff xff xbc x00 x00 x00)
(L (W x6c x00 x00 x00 x60 x00 x00 x00)) E)
(T (W x04 x00 x00 x00 xfa x14 xfd xff)
(L (W x00 x00 x00 x00 x00 x00 x00 x00)) E)))
(T (W x1f x00 x00 x00 x10 x00 x00 x00)
(T (W x00 x00 x00 x00 x00 x00 x00 x00)
(T (W xff xff xff xff xff xff xff xff)
(L (W x6c x00 x00 x00 x60 x00 x00 x00))
(L (W xff xff xff xff xff xff xff xff)))
(T (W x00 x00 x00 x00 x00 x00 x00 x00)
(L (W x54 x00 x00 x00 x48 x00 x00 x00)) E))
(T (W x41 xd5 x54 xf0 x7f x12 x65 xc2)
(T (W xd4 x00 x00 x00 xc8 x00 x00 x00)
(L (W x4f x84 x6f x8b xe8 xcb x63 xb7)) E)
(T (W x00 x00 x00 x00 x00 x00 x00 x00)
(L (W x03 x00 x00 x00 xd0 x00 x00 x00)) E))))
(T (W x00 x00 x80 x3f x00 x00 x80 x3f)
(T (W x00 x00 x00 x00 x00 x00 x00 x00)
(T (W x00 x00 x80 x3f x00 x00 x80 x3f)
(T (W x00 x00 x00 x00 x00 x00 x00 x00)
(L (W x18 x00 x00 x00 x10 x00 x00 x00))
(L (W x00 x00 x80 xbf x00 x00 x80 xbf)))
(T (W x45 x26 x22 x84 xe4 x9c xf2 xcb)
(L (W x00 x00 x00 x00 x00 x00 x00 x00)) E))
(T (W xff xff xff xff xff xff xff xff)
(T (W x00 x00 x80 x3f x00 x00 x80 x3f)
(L (W xff xff xff xff xff xff xff xff)) E)
(T (W x00 x00 x80 xbf x00 x00 x80 xbf)
(L (W x49 xa1 x68 x4a xeb x5f xdd x3d)) E)))
(T (W xff xff xff xff xff xff xff xff)
(T (W x00 x00 x80 x3f x00 x00 x80 x3f)
(T (W x00 x00 x00 x00 x00 x00 x00 x00)
(L (W x00 x00 x00 x00 x00 x00 x00 x00))
(L (W x00 x00 x00 x00 x00 x00 x00 x00)))
(T (W xff xff xff xff xff xff xff xff)
(L (W xff xff xff xff xff xff xff xff)) E))
(T (W x00 x00 x00 x00 x00 x00 x00 x00)
(T (W x00 x00 x00 x00 x00 x00 x00 x00)
(L (W xff xff xff xff xff xff xff xff)) E)
(T (W x00 x00 x80 xbf x00 x00 x80 xbf)
(L (W xff xff xff xff xff xff xff xff)) E))))))))
(T (W x00 x00 x00 x00 x00 x00 x00 x00)
(T (W x00 x00 x80 x3f x00 x00 x80 x3f)
(T (W x00 x00 x00 x00 x00 x00 x00 x00)
(T (W x50 x00 x00 x00 x44 x00 x00 x00)
(T (W xbc x00 x00 x00 xb0 x00 x00 x00)
(T (W x00 x00 x00 x00 x00 x00 x00 x00)
(T (W x00 x00 x00 x00 x9c x7b xfa xff)
(T (W xc2 x8c xfe xff x00 x00 x01 x01)
(L (W x00 x00 x00 x00 xfa x7a xfd xff))
(L (W xff xff xff xff xff xff xff xff)))
(T (W x00 x00 x00 x00 x00 x00 x00 x00)
(L (W x00 x00 x80 xbf x00 x00 x80 xbf)) E))
(T (W x6c x00 x00 x00 x60 x00 x00 x00)
(T (W x00 x00 x00 x00 x00 x00 x00 x00)
(L (W x5d x00 x00 x00 xff xff xff xff))
(L (W x00 x00 x80 xbf x00 x00 x80 xbf)))
(T (W x00 x00 x00 x00 x00 x00 x00 x00)
(L (W x6c x00 x00 x00 x60 x00 x00 x00)) E)))
(T (W xff xff xff xff xff xff xff xff)
(T (W x00 x00 x00 x00 x00 x00 x00 x00)
(T (W x00 x00 x00 x00 x00 x00 x00 x00)
(L (W xc2 xfb xff xff xc9 x00 x00 x00))
(L (W x00 x00 x00 x00 x00 x00 x00 x00)))
(T (W x42 xcb xff xff x4a x00 x00 x00)
(L (W x00 x00 x00 x00 x3a xb9 xfe xff)) E))
(T (W xd4 x00 x00 x00 xc8 x00 x00 x00)
(T (W x00 x00 x00 x00 x00 x00 x00 x00)
(L (W xcc x00 x00 x00 x01 x00 x00 x00)) E)
(T (W x00 x00 x00 x00 x00 x00 x00 x00)
(L (W x18 x00 x00 x00 x0c x00 x00 x00)) E))))
(T (W x00 x00 x00 x00 x00 x00 x00 x00)
(T (W x2c x1d xfa xff x00 x01 x01 x01)
(T (W x00 x00 x00 x00 x00 x00 x00 x00)
(T (W xff xff xff xff xff xff xff xff)
(L (W x5f x4e x53 x5f x30 x32 x5f x43))
(L (W x00 x00 x00 x00 x00 x00 x00 x00)))
(T (W x5a x98 xfc xff x74 x00 x00 x00)
(L (W xbc x00 x00 x00 x14 x00 x00 x00)) E))
(T (W xa1 x01 x00 x00 xff xff xff xff)
(T (W x0a x1a xfc xff x78 x00 x00 x00)
(L (W x00 x00 x00 x00 x00 x00 x00 x00)) E)
(T (W x18 x00 x00 x00 x0c x00 x00 x00)
(L (W xff xff xff xff xff xff xff xff)) E)))
(T (W x18 x00 x00 x00 x10 x00 x00 x00)
(T (W xff xff xff xff xff xff xff xff)
(T (W xff xff xff xff xbc x00 x00 x00)
(L (W x45 x26 x22 x84 xe4 x9c xf2 xcb))
(L (W x18 x00 x00 x00 x10 x00 x00 x00)))
(T (W xff xff xff xff xff xff xff xff)
(L (W x4f x84 x6f x8b xe8 xcb x63 xb7)) E))
(T (W xff xff xff xff xff xff xff xff)
(T (W x45 x26 x22 x84 xe4 x9c xf2 xcb)
(L (W x00 x00 x00 x00 x1a x61 xfe xff)) E)
(T (W xff xff xff xff xff xff xff xff)
(L (W x00 x00 x80 xbf x00 x00 x80 xbf)) E)))))
(T (W x0a xaa xf9 xff x78 x00 x00 x00)
(T (W xff xff xff xff xff xff xff xff)
(T (W x00 x00 x00 x00 x00 x00 x00 x00)
(T (W x50 x00 x00 x00 x44 x00 x00 x00)
(T (W x00 x00 x80 x3f x00 x00 x80 x3f)
(L (W xc9 x00 x00 x00 xff xff xff xff))
(L (W xff xff xff xff xff xff xff xff)))
(T (W xff xff xff xff xff xff xff xff)
(L (W x50 x00 x00 x00 x44 x00 x00 x00)) E))
(T (W x00 x00 x00 x00 x00 x00 x00 x00)
(T (W x00 x00 x80 x3f x00 x00 x80 x3f)
(L (W x00 x00 x00 x00 x12 x00 x00 x00)) E)
(T (W xff xff xff xff xff xff xff xff)
(L (W x03 x00 x00 x00 xd0 x00 x00 x00)) E)))
(T (W xff xff xff xff xff xff xff xff)
(T (W xff xff xff xff xff xff xff xff)
(T (W x00 x00 x80 x3f x00 x00 x80 x3f)
(L (W x00 x00 x00 x00 x00 x00 x00 x00))
(L (W x6c x00 x00 x00 x60 x00 x00 x00)))
(T (W x45 x26 x22 x84 xe4 x9c xf2 xcb)
(L (W x00 x00 x00 x00 x00 x00 x00 x00)) E))
(T (W x00 x00 x80 x3f x00 x00 x80 x3f)
(T (W x00 x00 x00 x00 x00 x00 x00 x00)
(L (W xff xff xff xff xff xff xff xff)) E)
(T (W x00 x00 x80 xbf x00 x00 x80 xbf)
(L (W x00 x00 x00 x00 x00 x00 x00 x00)) E))))
(T (W x00 x00 x00 x00 x00 x00 x00 x00)
(T (W xff xff xff xff xff xff xff xff)
(T (W x00 x00 x00 x00 x00 x00 x00 x00)
(T (W x5a xa8 xfb xff x74 x00 x00 x00)
(L (W x00 x00 x00 x00 x00 x00 x00 x00))
(L (W x00 x00 x00 x00 x00 x00 x00 x00)))
(T (W x00 x00 x00 x00 x00 x00 x00 x00)
(L (W xb0 x00 x00 x00 x64 x00 x00 x00)) E))
(T (W x49 xa1 x68 x4a xeb x5f xdd x3d)
(T (W x1c x00 x00 x00 xb0 x00 x00 x00)
(L (W x00 x00 x80 xbf x00 x00 x80 xbf)) E)
(T (W xff xff xff xff xff xff xff xff)
(L (W x04 x00 x00 x00 x1a x31 xff xff)) E)))
(T (W xc0 x00 x00 x00 xb4 x00 x00 x00)
(T (W xff xff xff xff xff xff xff xff)
(T (W x00 x00 x00 x00 x8a xef xfb xff)
(L (W xff xff xff xff xc8 x00 x00 x00))
(L (W x18 x00 x00 x00 x10 x00 x00 x00)))
(T (W x42 xfb xff xff xd6 x00 x00 x00)
(L (W x0a xea xfe xff x78 x00 x00 x00)) E))
(T (W x0a x6a xfb xff x78 x00 x00 x00)
(T (W x00 x00 x00 x00 x00 x00 x00 x00)
(L (W x00 x00 x00 x00 x00 x00 x00 x00)) E)
(T (W x00 x00 x00 x00 x00 x00 x00 x00)
(L (W x00 x00 x00 x00 x9c x6b xff xff)) E))))))
(T (W xff xff xff xff xff xff xff xff)
(T (W xc9 x00 x00 x00 xff xff xff xff)
(T (W x45 x26 x22 x84 xe4 x9c xf2 xcb)
(T (W x00 x00 x00 x00 x00 x00 x00 x00)
(T (W x45 x26 x22 x84 xe4 x9c xf2 xcb)
(T (W x00 x00 x00 x00 x00 x00 x00 x00)
(L (W xff xff xff xff xff xff xff xff))
(L (W xff xff xff xff xff xff xff xff)))
(T (W xc2 x94 xff xff x00 x00 x01 x01)
(L (W x00 x00 x80 xbf x00 x00 x80 xbf)) E))
(T (W xff xff xff xff xff xff xff xff)
(T (W x00 x00 x00 x00 x00 x00 x00 x00)
(L (W x00 x00 x00 x00 x00 x00 x00 x00))
(L (W x00 x00 x80 xbf x00 x00 x80 xbf)))
(T (W x00 x00 x00 x00 x00 x00 x00 x00)
(L (W x18 x00 x00 x00 x10 x00 x00 x00)) E)))
(T (W xff xff xff xff xff xff xff xff)
(T (W x00 x00 x00 x00 x02 x00 x00 x00)
(T (W x00 x00 x80 x3f x00 x00 x80 x3f)
(L (W x00 x00 x00 x00 x00 x00 x00 x00))
(L (W x49 xa1 x68 x4a xeb x5f xdd x3d)))
(T (W xff xff xff xff xff xff xff xff)
(L (W x1f x8a xa7 x28 xbf x4c x53 x6a)) E))
(T (W x45 x44 x00 x00 x00 x00 x00 x00)
(T (W x00 x00 x00 x00 x00 x00 x00 x00)
(L (W xff xff xff xff xff xff xff xff)) E)
(T (W x00 x00 x80 xbf x00 x00 x80 xbf)
(L (W x4f x84 x6f x8b xe8 xcb x63 xb7)) E))))
(T (W x00 x00 x00 x00 x00 x00 x00 x00)
(T (W xc2 x34 xfd xff x00 x00 x01 x01)
(T (W x00 x00 x00 x00 x00 x00 x00 x00)
(T (W x00 x00 x00 x00 x00 x00 x00 x00)
(L (W x68 x00 x00 x00 x5c x00 x00 x00))
(L (W xff xff xff xff xff xff xff xff)))
(T (W x00 x00 x00 x00 x00 x00 x00 x00)
(L (W xff xff xff xff xff xff xff xff)) E))
(T (W x00 x00 x00 x00 x00 x00 x00 x00)
(T (W xb8 x00 x00 x00 x28 x00 x00 x00)
(L (W x00 x00 x80 xbf x00 x00 x80 xbf)) E)
(T (W xff xff xff xff xbc x00 x00 x00)
(L (W x00 x00 x00 x00 x3a x21 xff xff)) E)))
(T (W xb8 x00 x00 x00 xac x00 x00 x00)
(T (W xff xff xff xff xff xff xff xff)
(T (W xff xff xff xff xff xff xff xff)
(L (W x00 x00 x80 xbf x00 x00 x80 xbf))
(L (W x21 x00 x00 x00 x24 x00 x00 x00)))
(T (W x00 x00 x00 x00 x00 x00 x00 x00)
(L (W x00 x00 x80 xbf x00 x00 x80 xbf)) E))
(T (W x00 x00 x80 x3f x00 x00 x80 x3f)
(T (W x50 x00 x00 x00 x44 x00 x00 x00)
(L (W x46 x53 x59 x53 x5f x4e x53 x5f)) E)
(T (W x00 x00 x00 x00 xfa x62 xfd xff)
(L (W x00 x00 x80 xbf x00 x00 x80 xbf)) E)))))
(T (W x00 x00 x00 x00 x00 x00 x00 x00)
(T (W x00 x00 x80 x3f x00 x00 x80 x3f)
(T (W x68 x00 x00 x00 x5c x00 x00 x00)
(T (W x00 x00 x80 x3f x00 x00 x80 x3f)
(T (W xd4 x00 x00 x00 xc8 x00 x00 x00)
(L (W x00 x00 x00 x00 x00 x00 x00 x00))
(L (W x00 x00 x00 x00 x00 x00 x00 x00)))
(T (W xff xff xff xff xff xff xff xff)
(L (W xc4 x00 x00 x00 x02 x00 x00 x00)) E))
(T (W x00 x00 x80 x3f x00 x00 x80 x3f)
(T (W x5a x10 xfc xff x74 x00 x00 x00)
(L (W x00 x00 x00 x00 x00 x00 x00 x00)) E)
(T (W x45 x26 x22 x84 xe4 x9c xf2 xcb)
(L (W xff xff xff xff xff xff xff xff)) E)))
(T (W xff xff xff xff x04 x00 x00 x00)
(T (W xff xff xff xff xff xff xff xff)
(T (W x45 x26 x22 x84 xe4 x9c xf2 xcb)
(L (W x4f x84 x6f x8b xe8 xcb x63 xb7))
(L (W x0a xd2 xff xff x78 x00 x00 x00)))
(T (W x45 x26 x22 x84 xe4 x9c xf2 xcb)
(L (W x00 x00 x00 x00 x00 x00 x00 x00)) E))
(T (W x18 x00 x00 x00 x0c x00 x00 x00)
(T (W x00 x00 x80 x3f x00 x00 x80 x3f)
(L (W xff xff xff xff xff xff xff xff)) E)
(T (W xff xff xff xff xff xff xff xff)
(L (W x54 x00 x00 x00 x48 x00 x00 x00)) E))))
(T (W x00 x00 x80 x3f x00 x00 x80 x3f)
(T (W xff xff xff xff xff xff xff xff)
(T (W x5c xb9 xfa xff x3c x00 x00 x00)
(T (W xff xff xff xff xff xff xff xff)
(L (W x68 x00 x00 x00 x5c x00 x00 x00))
(L (W x00 x00 x00 x00 x00 x00 x00 x00)))
(T (W x00 x00 x00 x00 x00 x00 x00 x00)
(L (W xff xff xff xff xff xff xff xff)) E))
(T (W x00 x00 x80 x3f x00 x00 x80 x3f)
(T (W xff xff xff xff xff xff xff xff)
(L (W x0a x32 xfe xff x78 x00 x00 x00)) E)
(T (W x00 x00 x00 x00 x00 x00 x00 x00)
(L (W xff xff xff xff xff xff xff xff)) E)))
(T (W xff xff xff xff x03 x00 x00 x00)
(T (W x00 x00 x00 x00 x00 x00 x00 x00)
(T (W xff xff xff xff xff xff xff xff)
(L (W xff xff xff xff xff xff xff xff))
(L (W xff xff xff xff xff xff xff xff)))
(T (W x00 x00 x80 x3f x00 x00 x80 x3f)
(L (W x0a xf2 xfe xff x78 x00 x00 x00)) E))
(T (W xff xff xff xff xff xff xff xff)
(T (W x18 x01 x00 x00 x04 x00 x00 x00)
(L (W x00 x00 x80 xbf x00 x00 x80 xbf)) E)
(T (W x5c x00 x60 x00 x00 x00 x00 x00)
(L (W x21 x00 x00 x00 x24 x00 x00 x00)) E)))))))
(T (W xff xff xff xff xff xff xff xff)
(T (W x00 x00 x80 x3f x00 x00 x80 x3f)
(T (W x64 x00 x00 x00 xa0 x00 x00 x00)
(T (W x00 x00 x00 x00 xd2 x58 xfd xff)
(T (W xff xff xff xff xff xff xff xff)
(T (W x00 x00 x00 x00 x00 x00 x00 x00)
(T (W x45 x26 x22 x84 xe4 x9c xf2 xcb)
(L (W x45 x26 x22 x84 xe4 x9c xf2 xcb))
(L (W x00 x00 x80 xbf x00 x00 x80 xbf)))
(T (W x68 x00 x00 x00 x5c x00 x00 x00)
(L (W x45 x44 x00 x00 x00 x00 x00 x00)) E))
(T (W x00 x00 x00 x00 x00 x00 x00 x00)
(T (W xff xff xff xff xff xff xff xff)
(L (W x00 x00 x80 xbf x00 x00 x80 xbf))
(L (W xff xff xff xff xff xff xff xff)))
(T (W x00 x00 x00 x00 x00 x00 x00 x00)
(L (W x08 x00 x00 x00 x20 x08 x00 x00)) E)))
(T (W x00 x00 x80 x3f x00 x00 x80 x3f)
(T (W x00 x00 x80 x3f x00 x00 x80 x3f)
(T (W xff xff xff xff xff xff xff xff)
(L (W x00 x00 x00 x00 x00 x00 x00 x00))
(L (W xff xff xff xff xff xff xff xff)))
(T (W x00 x00 x80 x3f x00 x00 x80 x3f)
(L (W x54 x00 x00 x00 x48 x00 x00 x00)) E))
(T (W x45 x26 x22 x84 xe4 x9c xf2 xcb)
(T (W xb8 x00 x00 x00 x28 x00 x00 x00)
(L (W x00 x00 x00 x00 x00 x00 x00 x00)) E)
(T (W xff xff xff xff xff xff xff xff)
(L (W x45 x26 x22 x84 xe4 x9c xf2 xcb)) E))))
(T (W xff xff xff xff xff xff xff xff)
(T (W x45 x26 x22 x84 xe4 x9c xf2 xcb)
(T (W xbc x00 x00 x00 xb0 x00 x00 x00)
(T (W x2c xa1 xfb xff x00 x01 x01 x01)
(L (W xff xff xff xff xac x00 x00 x00))
(L (W xff xff xff xff xff xff xff xff)))
(T (W x68 x00 x00 x00 x5c x00 x00 x00)
(L (W x00 x00 x00 x00 x00 x00 x00 x00)) E))
(T (W x00 x00 x80 x3f x00 x00 x80 x3f)
(T (W x00 x00 x00 x00 x00 x00 x00 x00)
(L (W xff xff xff xff xff xff xff xff)) E)
(T (W x45 x26 x22 x84 xe4 x9c xf2 xcb)
(L (W x00 x00 x80 xbf x00 x00 x80 xbf)) E)))
(T (W x45 x26 x22 x84 xe4 x9c xf2 xcb)
(T (W x00 x00 x80 x3f x00 x00 x80 x3f)
(T (W x00 x00 x80 x3f x00 x00 x80 x3f)
(L (W xff xff xff xff xff xff xff xff))
(L (W x45 x44 x00 x00 x00 x00 x00 x00)))
(T (W x00 x00 x80 x3f x00 x00 x80 x3f)
(L (W xff xff xff xff xff xff xff xff)) E))
(T (W xc8 x00 x00 x00 xbc x00 x00 x00)
(T (W x00 x00 x00 x00 x3a x5d xfc xff)
(L (W x17 x00 x00 x00 x1a x00 x00 x00)) E)
(T (W x00 x00 x80 xbf x00 x00 x80 xbf)
(L (W x00 x00 x00 x00 x00 x00 x00 x00)) E)))))
(T (W xff xff xff xff xff xff xff xff)
(T (W x00 x00 x00 x00 x00 x00 x00 x00)
(T (W x64 x00 x00 x00 x9c x00 x00 x00)
(T (W x00 x00 x00 x00 x00 x00 x00 x00)
(T (W x00 x00 x00 x00 x00 x00 x00 x00)
(L (W x50 x00 x00 x00 x44 x00 x00 x00))
(L (W xff xff xff xff xb0 x00 x00 x00)))
(T (W x45 x26 x22 x84 xe4 x9c xf2 xcb)
(L (W x00 x00 x00 x00 x12 x00 x00 x00)) E))
(T (W x45 x26 x22 x84 xe4 x9c xf2 xcb)
(T (W xff xff xff xff xff xff xff xff)
(L (W x18 x00 x00 x00 x0c x00 x00 x00)) E)
(T (W xff xff xff xff xff xff xff xff)
(L (W x00 x00 x00 x00 x00 x00 x00 x00)) E)))
(T (W x00 x00 x80 x3f x00 x00 x80 x3f)
(T (W x68 x00 x00 x00 x5c x00 x00 x00)
(T (W x00 x00 x00 x00 x00 x00 x00 x00)
(L (W x45 x26 x22 x84 xe4 x9c xf2 xcb))
(L (W xb3 x01 x00 x00 xff xff xff xff)))
(T (W x00 x00 x00 x00 xfa xce xfc xff)
(L (W x5a xcc xfe xff x74 x00 x00 x00)) E))
(T (W x46 x53 x59 x53 x5f x4e x53 x5f)
(T (W xff xff xff xff xff xff xff xff)
(L (W x00 x00 x80 xbf x00 x00 x80 xbf)) E)
(T (W x00 x00 x00 x00 x00 x00 x00 x00)
(L (W xff xff xff xff xff xff xff xff)) E))))
(T (W xff xff xff xff xff xff xff xff)
(T (W x00 x00 x80 x3f x00 x00 x80 x3f)
(T (W x50 x00 x00 x00 x44 x00 x00 x00)
(T (W x00 x00 x00 x00 x00 x00 x00 x00)
(L (W x45 x26 x22 x84 xe4 x9c xf2 xcb))
(L (W x18 x00 x00 x00 x10 x00 x00 x00)))
(T (W xb8 x00 x00 x00 xac x00 x00 x00)
(L (W x49 xa1 x68 x4a xeb x5f xdd x3d)) E))
(T (W x6b x65 x5f x6c x76 x31 x00 x00)
(T (W x00 x00 x80 x3f x00 x00 x80 x3f)
(L (W x00 x00 x00 x00 x00 x00 x00 x00)) E)
(T (W x00 x00 x80 xbf x00 x00 x80 xbf)
(L (W x00 x00 x80 xbf x00 x00 x80 xbf)) E)))
(T (W x00 x00 x00 x00 x00 x00 x00 x00)
(T (W x00 x00 x00 x00 x00 x00 x00 x00)
(T (W x0a xee xfb xff x78 x00 x00 x00)
(L (W x00 x00 x00 x00 x00 x00 x00 x00))
(L (W x00 x00 x00 x00 x00 x00 x00 x00)))
(T (W x18 x00 x00 x00 x0c x00 x00 x00)
(L (W x00 x00 x00 x00 x00 x00 x00 x00)) E))
(T (W x6b x65 x5f x77 x61 x72 x6c x69)
(T (W x5a x6c xfc xff x74 x00 x00 x00)
(L (W xff xff xff xff xff xff xff xff)) E)
(T (W x03 x00 x00 x00 xd0 x00 x00 x00)
(L (W x00 x00 x00 x00 x00 x00 x00 x00)) E))))))
(T (W x00 x00 x00 x00 x00 x00 x00 x00)
(T (W x45 x26 x22 x84 xe4 x9c xf2 xcb)
(T (W x2c xc9 xf9 xff x00 x01 x01 x01)
(T (W xff xff xff xff xff xff xff xff)
(T (W x00 x00 x00 x00 x00 x00 x00 x00)
(T (W xff xff xff xff xff xff xff xff)
(L (W x00 x00 x80 xbf x00 x00 x80 xbf))
(L (W x54 x00 x00 x00 x48 x00 x00 x00)))
(T (W x00 x00 x80 x3f x00 x00 x80 x3f)
(L (W x00 x00 x00 x00 x00 x00 x00 x00)) E))
(T (W x45 x26 x22 x84 xe4 x9c xf2 xcb)
(T (W xff xff xff xff xff xff xff xff)
(L (W x6c x00 x00 x00 x60 x00 x00 x00)) E)
(T (W x00 x00 x00 x00 x00 x00 x00 x00)
(L (W x30 x32 x5f x43 x4c x45 x41 x52)) E)))
(T (W x00 x00 x80 x3f x00 x00 x80 x3f)
(T (W x50 x00 x00 x00 x44 x00 x00 x00)
(T (W xc2 xd8 xfe xff x00 x00 x01 x01)
(L (W xff xff xff xff xb0 x00 x00 x00))
(L (W xff xff xff xff xff xff xff xff)))
(T (W x02 x00 x00 x00 xff xff xff xff)
(L (W x50 x00 x00 x00 x44 x00 x00 x00)) E))
(T (W xcc x00 x00 x00 xc0 x00 x00 x00)
(T (W xff xff xff xff xff xff xff xff)
(L (W x00 x00 x00 x00 x00 x00 x00 x00)) E)
(T (W xff xff xff xff xff xff xff xff)
(L (W xff xff xff xff xff xff xff xff)) E))))
(T (W xff xff xff xff xff xff xff xff)
(T (W x2c x29 xfa xff x00 x01 x01 x01)
(T (W x2c xa9 xfa xff x00 x01 x01 x01)
(T (W xff xff xff xff x01 x00 x00 x00)
(L (W xff xff xff xff xff xff xff xff))
(L (W x44 x00 x00 x00 x00 x00 x80 xbf)))
(T (W x68 x00 x00 x00 x5c x00 x00 x00)
(L (W x45 x26 x22 x84 xe4 x9c xf2 xcb)) E))
(T (W x45 x26 x22 x84 xe4 x9c xf2 xcb)
(T (W x4f x84 x6f x8b xe8 xcb x63 xb7)
(L (W x00 x00 x00 x00 x8a x2b xfe xff)) E)
(T (W x00 x00 x80 xbf x00 x00 x80 xbf)
(L (W x00 x00 x80 xbf x00 x00 x80 xbf)) E)))
(T (W x00 x00 x00 x00 x00 x00 x00 x00)
(T (W x45 x26 x22 x84 xe4 x9c xf2 xcb)
(T (W x00 x00 x80 x3f x00 x00 x80 x3f)
(L (W x64 x5f x6c x76 x31 x00 x00 x00))
(L (W x00 x00 x00 x00 x00 x00 x00 x00)))
(T (W x45 x26 x22 x84 xe4 x9c xf2 xcb)
(L (W xff xff xff xff xff xff xff xff)) E))
(T (W xff xff xff xff xff xff xff xff)
(T (W x00 x00 x00 x00 x9c x67 xfc xff)
(L (W xff xff xff xff xff xff xff xff)) E)
(T (W x68 x00 x00 x00 x5c x00 x00 x00)
(L (W x00 x00 x00 x00 x00 x00 x00 x00)) E)))))
(T (W x00 x00 x80 x3f x00 x00 x80 x3f)
(T (W xff xff xff xff xff xff xff xff)
(T (W x42 x27 xfd xff xba x01 x00 x00)
(T (W x45 x26 x22 x84 xe4 x9c xf2 xcb)
(T (W x00 x00 x00 x00 x00 x00 x00 x00)
(L (W x2c x99 xfd xff x00 x01 x01 x01))
(L (W xff xff xff xff xff xff xff xff)))
(T (W x00 x00 x00 x00 x00 x00 x00 x00)
(L (W x00 x00 x00 x00 x00 x00 x00 x00)) E))
(T (W x00 x00 x80 x3f x00 x00 x80 x3f)
(T (W xff xff xff xff xff xff xff xff)
(L (W xff xff xff xff xff xff xff xff)) E)
(T (W x1c x00 x00 x00 x10 x00 x00 x00)
(L (W x00 x00 x80 xbf x00 x00 x80 xbf)) E)))
(T (W x00 x00 x00 x00 x00 x00 x00 x00)
(T (W x00 x00 x80 x3f x00 x00 x80 x3f)
(T (W x22 x00 x00 x00 x67 x72 x6f x75)
(L (W xff xff xff xff xff xff xff xff))
(L (W x00 x00 x01 x01 xb2 x01 x00 x00)))
(T (W x4f x84 x6f x8b xe8 xcb x63 xb7)
(L (W x03 x00 x00 x00 xd0 x00 x00 x00)) E))
(T (W x00 x00 x80 x3f x00 x00 x80 x3f)
(T (W xff xff xff xff xff xff xff xff)
(L (W x6c x00 x00 x00 x60 x00 x00 x00)) E)
(T (W x00 x00 x00 x00 x00 x00 x00 x00)
(L (W xff xff xff xff xff xff xff xff)) E))))
(T (W xff xff xff xff xff xff xff xff)
(T (W x45 x26 x22 x84 xe4 x9c xf2 xcb)
(T (W x00 x00 x80 x3f x00 x00 x80 x3f)
(T (W x6c x00 x00 x00 x60 x00 x00 x00)
(L (W xff xff xff xff xff xff xff xff))
(L (W xff xff xff xff xff xff xff xff)))
(T (W x50 x00 x00 x00 x44 x00 x00 x00)
(L (W x00 x00 x80 xbf x00 x00 x80 xbf)) E))
(T (W x00 x00 x00 x00 x00 x00 x00 x00)
(T (W x0a x36 xfc xff x78 x00 x00 x00)
(L (W x00 x00 x00 x00 x12 x00 x00 x00)) E)
(T (W x18 x00 x00 x00 x0c x00 x00 x00)
(L (W x6c x00 x00 x00 x60 x00 x00 x00)) E)))
(T (W x3e x00 x00 x00 x0c x00 x00 x00)
(T (W x00 x00 x80 x3f x00 x00 x80 x3f)
(T (W x21 x00 x00 x00 x24 x00 x00 x00)
(L (W x00 x00 x80 xbf x00 x00 x80 xbf))
(L (W x00 x00 x80 xbf x00 x00 x80 xbf)))
(T (W xff xff xff xff xff xff xff xff)
(L (W x00 x00 x00 x00 x12 x00 x00 x00)) E))
(T (W x00 x00 x80 x3f x00 x00 x80 x3f)
(T (W x5a x74 xfc xff x74 x00 x00 x00)
(L (W x00 x00 x00 x00 xfa x76 xfe xff)) E)
(T (W x0a x76 xfd xff x78 x00 x00 x00)
(L (W x00 x00 x00 x00 x00 x00 x00 x00)) E)))))))))))
(T (W x40 xfc x04 x00 xf4 xf2 x04 x00)
(T (W x80 xde x03 x00 xd4 xd9 x03 x00)
(T (W xd0 x2d x03 x00 x8c x2b x03 x00)
(T (W x10 x4f x01 x00 xdc x4d x01 x00)
(T (W x00 x00 x80 x3f x00 x00 x80 x3f)
(T (W x00 x00 x00 x00 x00 x00 x00 x00)
(T (W x00 x00 x80 x3f x00 x00 x80 x3f)
(T (W xff xff xff xff x03 x00 x00 x00)
(T (W x00 x00 x00 x00 x00 x00 x00 x00)
(T (W x00 x00 x80 x3f x00 x00 x80 x3f)
(T (W xff xff xff xff xff xff xff xff)
(L (W xff xff xff xff xff xff xff xff))
(L (W x19 x00 x00 x00 x1c x00 x00 x00)))
(T (W x82 x89 xff xff x00 x00 x01 x01)
(L (W x00 x00 x80 xbf x00 x00 x80 xbf)) E))
(T (W xff xff xff xff xff xff xff xff)
(T (W x82 x09 xff xff x00 x00 x01 x01)
(L (W xff xff xff xff xb0 x00 x00 x00))
(L (W xc4 x00 x00 x00 x02 x00 x00 x00)))
(T (W x45 x26 x22 x84 xe4 x9c xf2 xcb)
(L (W x00 x00 x80 xbf x00 x00 x80 xbf)) E)))
(T (W xb8 x00 x00 x00 xac x00 x00 x00)
(T (W xff xff xff xff xff xff xff xff)
(T (W xff xff xff xff xff xff xff xff)
(L (W x00 x00 x00 x00 x00 x00 x00 x00))
(L (W x46 x53 x59 x53 x5f x4e x53 x5f)))
(T (W xff xff xff xff xff xff xff xff)
(L (W xcc x00 x00 x00 x01 x00 x00 x00)) E))
(T (W x68 x00 x00 x00 x5c x00 x00 x00)
(T (W xff xff xff xff xff xff xff xff)
(L (W x00 x00 x80 xbf x00 x00 x80 xbf)) E)
(T (W x00 x00 x00 x00 xfa x35 xfd xff)
(L (W xff xff xff xff xff xff xff xff)) E))))
(T (W x00 x00 x00 x00 x00 x00 x00 x00)
(T (W x45 x26 x22 x84 xe4 x9c xf2 xcb)
(T (W xff xff xff xff xff xff xff xff)
(T (W x01 x00 x00 x00 xac x00 x00 x00)
(L (W x09 x00 x00 x00 xff xff xff xff))
(L (W x00 x00 x00 x00 x00 x00 x00 x00)))
(T (W x68 x00 x00 x00 x5c x00 x00 x00)
(L (W xec x99 xfe xff x00 x01 x01 x01)) E))
(T (W x01 x00 x00 x00 xac x00 x00 x00)
(T (W x00 x00 x00 x00 x00 x00 x00 x00)
(L (W x00 x00 x00 x00 x00 x00 x00 x00)) E)
(T (W x00 x00 x00 x00 x01 x00 x00 x00)
(L (W xff xff xff xff xff xff xff xff)) E)))
(T (W xc0 x00 x00 x00 xb4 x00 x00 x00)
(T (W xff xff xff xff xff xff xff xff)
(T (W x18 x00 x00 x00 x0c x00 x00 x00)
(L (W x30 x32 x5f x43 x4c x45 x41 x52))
(L (W x49 xa1 x68 x4a xeb x5f xdd x3d)))
(T (W x18 x00 x00 x00 x10 x00 x00 x00)
(L (W x45 x44 x00 x00 x00 x00 x00 x00)) E))
(T (W xff xff xff xff xff xff xff xff)
(T (W x00 x00 x00 x00 x00 x00 x00 x00)
(L (W xff xff xff xff xff xff xff xff)) E)
(T (W xcc x00 x00 x00 x01 x00 x00 x00)
(L (W x4f x84 x6f x8b xe8 xcb x63 xb7)) E)))))
(T (W xca xa6 xf9 xff x78 x00 x00 x00)
(T (W xff xff xff xff xff xff xff xff)
(T (W x00 x00 x00 x00 x00 x00 x00 x00)
(T (W x00 x00 x80 x3f x00 x00 x80 x3f)
(T (W x00 x00 x00 x00 x00 x00 x00 x00)
(L (W xff xff xff xff xff xff xff xff))
(L (W xff xff xff xff xff xff xff xff)))
(T (W xff xff xff xff xff xff xff xff)
(L (W x00 x00 x80 xbf x00 x00 x80 xbf)) E))
(T (W xff xff xff xff x01 x00 x00 x00)
(T (W x00 x00 x00 x00 x00 x00 x00 x00)
(L (W xff xff xff xff xff xff xff xff)) E)
(T (W x50 x00 x00 x00 x44 x00 x00 x00)
(L (W x00 x00 x80 xbf x00 x00 x80 xbf)) E)))
(T (W x01 x00 x00 x00 x9c x00 x00 x00)
(T (W xff xff xff xff xff xff xff xff)
(T (W x49 xa1 x68 x4a xeb x5f xdd x3d)
(L (W x00 x00 x00 x00 x00 x00 x00 x00))
(L (W x00 x00 x00 x00 x00 x00 x00 x00)))
(T (W xef xe2 x75 xdc x77 x4d xe3 xe5)
(L (W x04 x00 x00 x00 xda xcd xfe xff)) E))
(T (W x00 x00 x00 x00 x00 x00 x00 x00)
(T (W x00 x00 x00 x00 x12 x00 x00 x00)
(L (W x00 x00 x00 x00 x5c x48 xfe xff)) E)
(T (W x00 x00 x00 x00 x00 x00 x00 x00)
(L (W x46 x53 x59 x53 x5f x4e x53 x5f)) E))))
(T (W x00 x00 x00 x00 x00 x00 x00 x00)
(T (W xff xff xff xff xff xff xff xff)
(T (W x1c x01 x00 x00 x04 x00 x00 x00)
(T (W x45 x26 x22 x84 xe4 x9c xf2 xcb)
(L (W x00 x00 x00 x00 x00 x00 x00 x00))
(L (W xff xff xff xff xff xff xff xff)))
(T (W xb8 x01 x00 x00 xff xff xff xff)
(L (W x45 x26 x22 x84 xe4 x9c xf2 xcb)) E))
(T (W x00 x00 x00 x00 x04 x00 x00 x00)
(T (W x18 x00 x00 x00 x10 x00 x00 x00)
(L (W x00 x00 x80 xbf x00 x00 x80 xbf)) E)
(T (W xff xff xff xff x9c x00 x00 x00)
(L (W xff xff xff xff xc8 x00 x00 x00)) E)))
(T (W xec x69 xfa xff x00 x01 x01 x01)
(T (W xbc x00 x00 x00 xb0 x00 x00 x00)
(T (W xff xff xff xff x03 x00 x00 x00)
(L (W xec xe9 xfd xff x00 x01 x01 x01))
(L (W x00 x00 x80 xbf x00 x00 x80 xbf)))
(T (W xff xff xff xff xff xff xff xff)
(L (W x00 x00 x00 x00 x00 x00 x00 x00)) E))
(T (W x00 x00 x00 x00 x00 x00 x00 x00)
(T (W x18 x01 x00 x00 x04 x00 x00 x00)
(L (W x30 x32 x5f x43 x4c x45 x41 x52)) E)
(T (W xff xff xff xff xff xff xff xff)
(L (W x00 x00 x80 xbf x00 x00 x80 xbf)) E))))))
(T (W xff xff xff xff xff xff xff xff)
(T (W x00 x00 x01 x01 xc9 x00 x00 x00)
(T (W x45 x26 x22 x84 xe4 x9c xf2 xcb)
(T (W x00 x00 x00 x00 x00 x00 x00 x00)
(T (W x45 x26 x22 x84 xe4 x9c xf2 xcb)
(T (W x00 x00 x00 x00 x06 x00 x00 x00)
(L (W xff xff xff xff xff xff xff xff))
(L (W xff xff xff xff xc8 x00 x00 x00)))
(T (W xff xff xff xff xff xff xff xff)
(L (W x00 x00 x80 xbf x00 x00 x80 xbf)) E))
(T (W x1a xfd xfa xff x74 x00 x00 x00)
(T (W x46 x53 x59 x53 x5f x4e x53 x5f)
(L (W xff xff xff xff xc4 x00 x00 x00))
(L (W x45 x26 x22 x84 xe4 x9c xf2 xcb)))
(T (W xff xff xff xff xe4 x00 x00 x00)
(L (W x00 x00 x80 xbf x00 x00 x80 xbf)) E)))
(T (W x45 x26 x22 x84 xe4 x9c xf2 xcb)
(T (W xff xff xff xff xff xff xff xff)
(T (W x00 x00 x00 x00 x00 x00 x00 x00)
(L (W xff xff xff xff xff xff xff xff))
(L (W x00 x00 x00 x00 x00 x00 x00 x00)))
(T (W xff xff xff xff xff xff xff xff)
(L (W xff xff xff xff xff xff xff xff)) E))
(T (W xcc x00 x00 x00 xc0 x00 x00 x00)
(T (W x00 x00 x00 x00 x00 x00 x00 x00)
(L (W x00 x00 x80 xbf x00 x00 x80 xbf)) E)
(T (W x00 x00 x00 x00 x00 x00 x00 x00)
(L (W xff xff xff xff xff xff xff xff)) E))))
(T (W x00 x00 x00 x00 x00 x00 x00 x00)
(T (W xff xff xff xff xff xff xff xff)
(T (W x00 x00 x00 x00 x2a xae xff xff)
(T (W xff xff xff xff xff xff xff xff)
(L (W x00 x00 x00 x00 x00 x00 x00 x00))
(L (W x46 x53 x59 x53 x5f x4e x53 x5f)))
(T (W xff xff xff xff xff xff xff xff)
(L (W x00 x00 x00 x00 x5c xa0 xfe xff)) E))
(T (W xff xff xff xff xff xff xff xff)
(T (W x00 x00 x80 x3f x00 x00 x80 x3f)
(L (W x00 x00 x00 x00 x00 x00 x00 x00)) E)
(T (W x45 x26 x22 x84 xe4 x9c xf2 xcb)
(L (W xff xff xff xff xff xff xff xff)) E)))
(T (W x1a x5d xfa xff x74 x00 x00 x00)
(T (W x64 x00 x00 x00 x9c x00 x00 x00)
(T (W xff xff xff xff x9c x00 x00 x00)
(L (W x00 x00 x00 x00 x00 x00 x00 x00))
(L (W x00 x00 x80 xbf x00 x00 x80 xbf)))
(T (W xc4 x00 x00 x00 x01 x00 x00 x00)
(L (W x30 x32 x5f x43 x4c x45 x41 x52)) E))
(T (W x00 x00 x00 x00 x00 x00 x00 x00)
(T (W x45 x26 x22 x84 xe4 x9c xf2 xcb)
(L (W x00 x00 x00 x00 xba x5f xfe xff)) E)
(T (W xff xff xff xff xff xff xff xff)
(L (W x00 x00 x80 xbf x00 x00 x80 xbf)) E)))))
(T (W x00 x00 x00 x00 x00 x00 x00 x00)
(T (W x00 x00 x80 x3f x00 x00 x80 x3f)
(T (W x69 x6b x65 x5f x6c x76 x32 x00)
(T (W x00 x00 x80 x3f x00 x00 x80 x3f)
(T (W x00 x00 x80 x3f x00 x00 x80 x3f)
(L (W xff xff xff xff xff xff xff xff))
(L (W x00 x00 x00 x00 x00 x00 x00 x00)))
(T (W x1a x8d xfc xff x74 x00 x00 x00)
(L (W x54 x00 x00 x00 x48 x00 x00 x00)) E))
(T (W x00 x00 x00 x00 x02 x00 x00 x00)
(T (W x00 x00 x00 x00 x00 x00 x00 x00)
(L (W x00 x00 x00 x00 x4a x14 xfe xff)) E)
(T (W x00 x00 x00 x00 x00 x00 x00 x00)
(L (W x6c x00 x00 x00 x60 x00 x00 x00)) E)))
(T (W x0a x00 x00 x00 x3e x00 x00 x00)
(T (W xff xff xff xff xff xff xff xff)
(T (W x00 x00 x80 x3f x00 x00 x80 x3f)
(L (W x08 x00 x00 x00 x20 x08 x00 x00))
(L (W x45 x26 x22 x84 xe4 x9c xf2 xcb)))
(T (W x00 x00 x80 x3f x00 x00 x80 x3f)
(L (W xf4 x06 x00 x00 xd8 x05 x00 x00)) E))
(T (W x00 x00 x80 x3f x00 x00 x80 x3f)
(T (W x00 x00 x00 x00 x00 x00 x00 x00)
(L (W x03 x00 x00 x00 xd8 x00 x00 x00)) E)
(T (W x50 x00 x00 x00 x44 x00 x00 x00)
(L (W x00 x00 x00 x00 x00 x00 x00 x00)) E))))
(T (W x00 x00 x00 x00 x00 x00 x00 x00)
(T (W xff xff xff xff xff xff xff xff)
(T (W xff xff xff xff xff xff xff xff)
(T (W xec xb1 xfb xff x00 x01 x01 x01)
(L (W x00 x00 x00 x00 x5c xb0 xfd xff))
(L (W x86 x3c x45 xdc x00 xd6 x55 x2f)))
(T (W x02 xc0 xff xff xcf x01 x00 x00)
(L (W x18 x00 x00 x00 x10 x00 x00 x00)) E))
(T (W x00 x00 x80 x3f x00 x00 x80 x3f)
(T (W xcc x00 x00 x00 xc0 x00 x00 x00)
(L (W x00 x00 x80 xbf x00 x00 x80 xbf)) E)
(T (W xff xff xff xff xff xff xff xff)
(L (W xff xff xff xff xff xff xff xff)) E)))
(T (W x00 x00 x80 x3f x00 x00 x80 x3f)
(T (W xec xf1 xfa xff x00 x01 x01 x01)
(T (W xff xff xff xff xff xff xff xff)
(L (W x68 x00 x00 x00 x5c x00 x00 x00))
(L (W x54 x00 x00 x00 x48 x00 x00 x00)))
(T (W x6c x00 x04 x00 x60 x00 x08 x00)
(L (W x00 x00 x80 xbf x00 x00 x80 xbf)) E))
(T (W xec x71 xfb xff x00 x01 x01 x01)
(T (W xff xff xff xff xff xff xff xff)
(L (W x00 x00 x00 x00 x00 x00 x00 x00)) E)
(T (W x45 x44 x00 x00 x00 x00 x00 x00)
(L (W x45 x26 x22 x84 xe4 x9c xf2 xcb)) E)))))))
(T (W xff xff xff xff xff xff xff xff)
(T (W x00 x00 x80 x3f x00 x00 x80 x3f)
(T (W xff xff xff xff xff xff xff xff)
(T (W x00 x00 x00 x00 x0a x57 xfd xff)
(T (W x01 x00 x00 x00 xa0 x00 x00 x00)
(T (W x48 x03 x00 x00 x34 x02 x00 x00)
(T (W x49 xa1 x68 x4a xeb x5f xdd x3d)
(L (W x00 x00 x80 xbf x00 x00 x80 xbf))
(L (W x00 x00 x00 x00 x00 x00 x00 x00)))
(T (W x00 x00 x80 x3f x00 x00 x80 x3f)
(L (W xff xff xff xff xff xff xff xff)) E))
(T (W xff xff xff xff xff xff xff xff)
(T (W x00 x00 x00 x00 x5c xfc xfb xff)
(L (W x45 x26 x22 x84 xe4 x9c xf2 xcb))
(L (W x00 x00 x00 x00 x00 x00 x00 x00)))
(T (W x18 x00 x00 x00 x10 x00 x00 x00)
(L (W xff xff xff xff xff xff xff xff)) E)))
(T (W x00 x00 x00 x00 x00 x00 x00 x00)
(T (W x00 x00 x80 x3f x00 x00 x80 x3f)
(T (W xca xba xfb xff x78 x00 x00 x00)
(L (W x45 x26 x22 x84 xe4 x9c xf2 xcb))
(L (W xcc x00 x00 x00 x01 x00 x00 x00)))
(T (W x45 x26 x22 x84 xe4 x9c xf2 xcb)
(L (W x45 x26 x22 x84 xe4 x9c xf2 xcb)) E))
(T (W x45 x44 x00 x00 x00 x00 x00 x00)
(T (W x00 x00 x80 x3f x00 x00 x80 x3f)
(L (W x45 x44 x00 x00 x00 x00 x00 x00)) E)
(T (W xec x3d xfd xff x00 x01 x01 x01)
(L (W x54 x00 x00 x00 x48 x00 x00 x00)) E))))
(T (W x68 x00 x00 x00 x5c x00 x00 x00)
(T (W xff xff xff xff xff xff xff xff)
(T (W x00 x00 x80 x3f x00 x00 x80 x3f)
(T (W x00 x00 x00 x00 x00 x00 x00 x00)
(L (W x00 x00 x80 xbf x00 x00 x80 xbf))
(L (W x1a x99 xff xff x74 x00 x00 x00)))
(T (W x5f x77 x69 x6c x64 x5f x70 x6f)
(L (W x00 x00 x00 x00 x00 x00 x00 x00)) E))
(T (W x45 x26 x22 x84 xe4 x9c xf2 xcb)
(T (W xff xff xff xff xff xff xff xff)
(L (W x1a x19 xfe xff x74 x00 x00 x00)) E)
(T (W x7c x4b x69 x12 x83 x6f x37 xc6)
(L (W x00 x00 x00 x00 x00 x00 x00 x00)) E)))
(T (W x08 x05 x0d xf4 xa1 x58 xe8 x10)
(T (W x00 x00 x00 x00 x00 x00 x00 x00)
(T (W x00 x00 x00 x00 x00 x00 x00 x00)
(L (W x03 x00 x00 x00 xd0 x00 x00 x00))
(L (W xff xff xff xff xff xff xff xff)))
(T (W x00 x00 x00 x00 x00 x00 x00 x00)
(L (W x18 x00 x00 x00 x10 x00 x00 x00)) E))
(T (W x00 x00 x00 x00 x00 x00 x00 x00)
(T (W xff xff xff xff xff xff xff xff)
(L (W x00 x00 x80 xbf x00 x00 x80 xbf)) E)
(T (W x00 x00 x00 x00 x00 x00 x00 x00)
(L (W xff xff xff xff xff xff xff xff)) E)))))
(T (W xff xff xff xff xff xff xff xff)
(T (W x00 x00 x00 x00 x00 x00 x00 x00)
(T (W x00 x00 x80 x3f x00 x00 x80 x3f)
(T (W xff xff xff xff xff xff xff xff)
(T (W x18 x00 x00 x00 x0c x00 x00 x00)
(L (W x49 xa1 x68 x4a xeb x5f xdd x3d))
(L (W x45 x26 x22 x84 xe4 x9c xf2 xcb)))
(T (W x00 x00 x00 x00 x00 x00 x00 x00)
(L (W x00 x00 x01 x01 x5c x00 x00 x00)) E))
(T (W x6c x00 x00 x00 x60 x00 x00 x00)
(T (W xff xff xff xff xff xff xff xff)
(L (W x54 x00 x00 x00 x48 x00 x00 x00)) E)
(T (W x00 x00 x00 x00 x00 x00 x00 x00)
(L (W x45 x44 x00 x00 x00 x00 x00 x00)) E)))
(T (W x00 x00 x00 x00 x00 x00 x00 x00)
(T (W x00 x00 x00 x00 x00 x00 x00 x00)
(T (W xff xff xff xff xff xff xff xff)
(L (W x00 x00 x80 xbf x00 x00 x80 xbf))
(L (W xff xff xff xff xff xff xff xff)))
(T (W x0c x00 x00 x00 xd8 x0d x00 x00)
(L (W x6c x00 x00 x00 x60 x00 x00 x00)) E))
(T (W xff xff xff xff xff xff xff xff)
(T (W x01 x00 x00 x00 x19 x00 x00 x00)
(L (W x00 x00 x00 x00 x00 x00 x00 x00)) E)
(T (W xff xff xff xff xff xff xff xff)
(L (W xcc x00 x00 x00 x02 x00 x00 x00)) E))))
(T (W x50 x00 x00 x00 x44 x00 x00 x00)
(T (W x00 x00 x00 x00 x00 x00 x00 x00)
(T (W x00 x00 x80 x3f x00 x00 x80 x3f)
(T (W xff xff xff xff xff xff xff xff)
(L (W x00 x00 x80 xbf x00 x00 x80 xbf))
(L (W xca xaa xff xff x78 x00 x00 x00)))
(T (W x50 x00 x00 x00 x44 x00 x00 x00)
(L (W x74 xbb xfe xff x15 x00 x00 x00)) E))
(T (W x18 x00 x00 x00 x10 x00 x00 x00)
(T (W x00 x00 x00 x00 x00 x00 x00 x00)
(L (W xff xff xff xff xff xff xff xff)) E)
(T (W x4f x84 x6f x8b xe8 xcb x63 xb7)
(L (W x00 x00 x80 xbf x00 x00 x80 xbf)) E)))
(T (W x00 x00 x00 x00 x00 x00 x00 x00)
(T (W x00 x00 x00 x00 x00 x00 x00 x00)
(T (W x00 x00 x80 x3f x00 x00 x80 x3f)
(L (W x00 x00 x00 x00 x00 x00 x00 x00))
(L (W xe5 xdc xac x28 xbf xd4 x59 x6a)))
(T (W x45 x26 x22 x84 xe4 x9c xf2 xcb)
(L (W xff xff xff xff xff xff xff xff)) E))
(T (W xff xff xff xff xff xff xff xff)
(T (W x00 x00 x80 x3f x00 x00 x80 x3f)
(L (W x03 x00 x00 x00 xd8 x00 x00 x00)) E)
(T (W xca x6a xfd xff x78 x00 x00 x00)
(L (W xff xff xff xff xff xff xff xff)) E))))))
(T (W x00 x00 x00 x00 x00 x00 x00 x00)
(T (W x45 x26 x22 x84 xe4 x9c xf2 xcb)
(T (W x00 x00 x00 x00 x5c xc4 xf9 xff)
(T (W x1a x01 xfa xff x74 x00 x00 x00)
(T (W xff xff xff xff xff xff xff xff)
(T (W x68 x00 x00 x00 x5c x00 x00 x00)
(L (W x00 x00 x00 x00 x00 x00 x00 x00))
(L (W x00 x00 x00 x00 x00 x00 x00 x00)))
(T (W x45 x26 x22 x84 xe4 x9c xf2 xcb)
(L (W xff xff xff xff xff xff xff xff)) E))
(T (W x00 x00 x00 x00 x00 x00 x00 x00)
(T (W x24 x00 x00 x00 xb0 x00 x00 x00)
(L (W x00 x00 x80 xbf x00 x00 x80 xbf)) E)
(T (W xff xff xff xff xa0 x00 x00 x00)
(L (W xff xff xff xff xff xff xff xff)) E)))
(T (W x00 x00 x00 x00 x00 x00 x00 x00)
(T (W x00 x00 x80 x3f x00 x00 x80 x3f)
(T (W xff xff xff xff xbc x00 x00 x00)
(L (W x6c x00 x00 x00 x60 x00 x00 x00))
(L (W xff xff xff xff x9c x00 x00 x00)))
(T (W x00 x00 x00 x00 x00 x00 x00 x00)
(L (W x00 x00 x80 xbf x00 x00 x80 xbf)) E))
(T (W x00 x00 x80 x3f x00 x00 x80 x3f)
(T (W x45 x26 x22 x84 xe4 x9c xf2 xcb)
(L (W x00 x00 x00 x00 x00 x00 x00 x00)) E)
(T (W xff xff xff xff xff xff xff xff)
(L (W x18 x00 x00 x00 x10 x00 x00 x00)) E))))
(T (W x1a xe1 xf9 xff x74 x00 x00 x00)
(T (W x45 x26 x22 x84 xe4 x9c xf2 xcb)
(T (W x00 x00 x80 x3f x00 x00 x80 x3f)
(T (W x18 x00 x00 x00 x0c x00 x00 x00)
(L (W xff xff xff xff xff xff xff xff))
(L (W x00 x00 x00 x00 x00 x00 x00 x00)))
(T (W x50 x00 x00 x00 x44 x00 x00 x00)
(L (W x00 x00 x00 x00 x00 x00 x00 x00)) E))
(T (W x6c x00 x00 x00 x60 x00 x00 x00)
(T (W x00 x00 x00 x00 x00 x00 x00 x00)
(L (W xc4 x00 x00 x00 x02 x00 x00 x00)) E)
(T (W x00 x00 x00 x00 x00 x00 x00 x00)
(L (W x45 x26 x22 x84 xe4 x9c xf2 xcb)) E)))
(T (W x02 x74 xfd xff x3b x01 x00 x00)
(T (W x00 x00 x00 x00 x00 x00 x00 x00)
(T (W x00 x00 x00 x00 x12 x00 x00 x00)
(L (W xff xff xff xff xff xff xff xff))
(L (W x00 x00 x00 x00 x00 x00 x00 x00)))
(T (W xff xff xff xff xff xff xff xff)
(L (W x03 x00 x00 x00 xd8 x00 x00 x00)) E))
(T (W xff xff xff xff x03 x00 x00 x00)
(T (W xff xff xff xff xff xff xff xff)
(L (W x00 x00 x80 xbf x00 x00 x80 xbf)) E)
(T (W x00 x00 x80 xbf x00 x00 x80 xbf)
(L (W xff xff xff xff xff xff xff xff)) E)))))
(T (W x00 x00 x80 x3f x00 x00 x80 x3f)
(T (W xff xff xff xff xff xff xff xff)
(T (W xff xff xff xff xff xff xff xff)
(T (W xff xff xff xff xff xff xff xff)
(T (W x45 x44 x00 x00 x00 x00 x00 x00)
(L (W x00 x00 x80 xbf x00 x00 x80 xbf))
(L (W x00 x00 x80 xbf x00 x00 x80 xbf)))
(T (W x00 x00 x00 x00 x00 x00 x00 x00)
(L (W x00 x00 x00 x00 x00 x00 x00 x00)) E))
(T (W xff xff xff xff xff xff xff xff)
(T (W xff xff xff xff xff xff xff xff)
(L (W x45 x26 x22 x84 xe4 x9c xf2 xcb)) E)
(T (W x00 x00 x00 x00 x01 x00 x00 x00)
(L (W x45 x26 x22 x84 xe4 x9c xf2 xcb)) E)))
(T (W x00 x00 x00 x00 x00 x00 x00 x00)
(T (W x00 x00 x00 x00 x00 x00 x00 x00)
(T (W x4a x00 x00 x00 xff xff xff xff)
(L (W x18 x00 x00 x00 x10 x00 x00 x00))
(L (W xff xff xff xff xff xff xff xff)))
(T (W x67 x72 x6f x75 x70 x5f x6c x65)
(L (W x45 x26 x22 x84 xe4 x9c xf2 xcb)) E))
(T (W x00 x00 x00 x00 xfa x51 xfb xff)
(T (W xff xff xff xff x9c x00 x00 x00)
(L (W x00 x00 x00 x00 x00 x00 x00 x00)) E)
(T (W x00 x00 x00 x00 x12 x00 x00 x00)
(L (W xff xff xff xff xff xff xff xff)) E))))
(T (W x45 x26 x22 x84 xe4 x9c xf2 xcb)
(T (W x00 x00 x00 x00 x00 x00 x00 x00)
(T (W x50 x00 x00 x00 x44 x00 x00 x00)
(T (W x00 x00 x00 x00 x00 x00 x00 x00)
(L (W xff xff xff xff xff xff xff xff))
(L (W x00 x00 x00 x00 x5c xb4 xff xff)))
(T (W x00 x00 x80 x3f x00 x00 x80 x3f)
(L (W x00 x00 x00 x00 x00 x00 x00 x00)) E))
(T (W xff xff xff xff xff xff xff xff)
(T (W x00 x00 x00 x00 x00 x00 x00 x00)
(L (W xff xff xff xff xff xff xff xff)) E)
(T (W x00 x00 x80 xbf x00 x00 x80 xbf)
(L (W x00 x00 x00 x00 x00 x00 x00 x00)) E)))
(T (W x00 x00 x00 x00 x00 x00 x00 x00)
(T (W x68 x00 x00 x00 x5c x00 x00 x00)
(T (W x4f x84 x6f x8b xe8 xcb x63 xb7)
(L (W x00 x00 x00 x00 x00 x00 x00 x00))
(L (W x00 x00 x00 x00 x00 x00 x00 x00)))
(T (W xff xff xff xff xff xff xff xff)
(L (W xff xff xff xff xff xff xff xff)) E))
(T (W x00 x00 x00 x00 x00 x00 x00 x00)
(T (W x00 x00 x80 x3f x00 x00 x80 x3f)
(L (W xb0 x00 x00 x00 x64 x00 x00 x00)) E)
(T (W x00 x00 x80 xbf x00 x00 x80 xbf)
(L (W x00 x00 x00 x00 x00 x00 x00 x00)) E))))))))
(T (W xc4 x11 x00 x00 xa8 x10 x00 x00)
(T (W xec x83 xf9 xff x00 x01 x01 x01)
(T (W x45 x26 x22 x84 xe4 x9c xf2 xcb)
(T (W x18 x00 x00 x00 x0c x00 x00 x00)
(T (W xff xff xff xff xff xff xff xff)
(T (W x45 x26 x22 x84 xe4 x9c xf2 xcb)
(T (W xff xff xff xff xff xff xff xff)
(T (W x00 x00 x00 x00 x00 x00 x00 x00)
(L (W x46 x53 x59 x53 x5f x4e x53 x5f))
(L (W xff xff xff xff xff xff xff xff)))
(T (W x00 x00 x00 x00 x00 x00 x00 x00)
(L (W xca x78 xfe xff x78 x00 x00 x00)) E))
(T (W x54 x00 x00 x00 x48 x00 x00 x00)
(T (W x00 x00 x00 x00 x00 x00 x00 x00)
(L (W x54 x02 x00 x00 x38 x01 x00 x00))
(L (W x32 xdb xac x28 xbf xd3 x59 x6a)))
(T (W x00 x00 x00 x00 x00 x00 x00 x00)
(L (W xff xff xff xff xa0 x00 x00 x00)) E)))
(T (W xdc x12 xeb x1b x9e xb4 x47 x16)
(T (W x00 x00 x00 x00 x00 x00 x00 x00)
(T (W x00 x00 x00 x00 x00 x00 x00 x00)
(L (W x00 x00 x00 x00 x00 x00 x00 x00))
(L (W x49 xa1 x68 x4a xeb x5f xdd x3d)))
(T (W x00 x00 x00 x00 x00 x00 x00 x00)
(L (W x85 x8d xa7 x28 xbf x4e x53 x6a)) E))
(T (W xb0 x00 x00 x00 x64 x00 x00 x00)
(T (W x00 x00 x00 x00 x00 x00 x00 x00)
(L (W xff xff xff xff x9c x00 x00 x00)) E)
(T (W x4f x84 x6f x8b xe8 xcb x63 xb7)
(L (W x30 x32 x5f x43 x4c x45 x41 x52)) E))))
(T (W x00 x00 x00 x00 x00 x00 x00 x00)
(T (W x45 x26 x22 x84 xe4 x9c xf2 xcb)
(T (W x45 x26 x22 x84 xe4 x9c xf2 xcb)
(T (W x82 xab xfe xff x00 x00 x01 x01)
(L (W x00 x00 x00 x00 x00 x00 x00 x00))
(L (W x45 x26 x22 x84 xe4 x9c xf2 xcb)))
(T (W xff xff xff xff xff xff xff xff)
(L (W xff xff xff xff xff xff xff xff)) E))
(T (W x9c x03 x00 x00 x6c x02 x00 x00)
(T (W xb8 x00 x00 x00 x28 x00 x00 x00)
(L (W x00 x00 x80 xbf x00 x00 x80 xbf)) E)
(T (W x00 x00 x80 xbf x00 x00 x80 xbf)
(L (W x00 x00 x00 x00 x00 x00 x00 x00)) E)))
(T (W xff xff xff xff xff xff xff xff)
(T (W x5d x00 x00 x00 xff xff xff xff)
(T (W xff xff xff xff xff xff xff xff)
(L (W x00 x00 x80 xbf x00 x00 x80 xbf))
(L (W xcc x00 x00 x00 x01 x00 x00 x00)))
(T (W xff xff xff xff xff xff xff xff)
(L (W x00 x00 x00 x00 x00 x00 x00 x00)) E))
(T (W x00 x00 x00 x00 x00 x00 x00 x00)
(T (W x00 x00 x80 x3f x00 x00 x80 x3f)
(L (W x46 x53 x59 x53 x5f x4e x53 x5f)) E)
(T (W xff xff xff xff xff xff xff xff)
(L (W x54 x00 x00 x00 x48 x00 x00 x00)) E)))))
(T (W xbc x00 x00 x00 xb0 x00 x00 x00)
(T (W x00 x00 x00 x00 x00 x00 x00 x00)
(T (W x45 x26 x22 x84 xe4 x9c xf2 xcb)
(T (W x1a x87 xfa xff x74 x00 x00 x00)
(T (W x00 x00 x80 x3f x00 x00 x80 x3f)
(L (W x00 x00 x00 x00 x00 x00 x00 x00))
(L (W x00 x00 x00 x00 xda x8f xff xff)))
(T (W x82 x9b xff xff x00 x00 x01 x01)
(L (W x45 x26 x22 x84 xe4 x9c xf2 xcb)) E))
(T (W x00 x00 x00 x00 x00 x00 x00 x00)
(T (W x00 x00 x80 x3f x00 x00 x80 x3f)
(L (W x00 x00 x00 x00 x00 x00 x00 x00)) E)
(T (W xff xff xff xff xff xff xff xff)
(L (W xff xff xff xff xff xff xff xff)) E)))
(T (W xff xff xff xff xff xff xff xff)
(T (W x82 xdb xfd xff x00 x00 x01 x01)
(T (W x00 x00 x80 x3f x00 x00 x80 x3f)
(L (W x00 x00 x00 x00 x00 x00 x00 x00))
(L (W x45 x26 x22 x84 xe4 x9c xf2 xcb)))
(T (W x46 x4d x41 x50 x5f x43 x41 x4e)
(L (W x45 x26 x22 x84 xe4 x9c xf2 xcb)) E))
(T (W x54 x00 x00 x00 x48 x00 x00 x00)
(T (W x00 x00 x80 x3f x00 x00 x80 x3f)
(L (W xff xff xff xff xff xff xff xff)) E)
(T (W x6c x00 x00 x00 x60 x00 x00 x00)
(L (W x00 x00 x80 xbf x00 x00 x80 xbf)) E))))
(T (W x00 x00 x80 x3f x00 x00 x80 x3f)
(T (W x02 x3a xfd xff xb4 x01 x00 x00)
(T (W x00 x00 x00 x00 x00 x00 x00 x00)
(T (W x00 x00 x00 x00 x5c xaa xfb xff)
(L (W x00 x00 x00 x00 x00 x00 x00 x00))
(L (W x00 x00 x80 xbf x00 x00 x80 xbf)))
(T (W x1a x00 x00 x00 x67 x72 x6f x75)
(L (W xff xff xff xff xff xff xff xff)) E))
(T (W x00 x00 x80 x3f x00 x00 x80 x3f)
(T (W xff xff xff xff xff xff xff xff)
(L (W x6c x00 x00 x00 x60 x00 x00 x00)) E)
(T (W x45 x44 x00 x00 x00 x00 x00 x00)
(L (W x2e x00 x00 x00 xff xff xff xff)) E)))
(T (W xff xff xff xff xff xff xff xff)
(T (W x7a xf1 xfd xff x00 x00 x01 x01)
(T (W x00 x00 x00 x00 x04 x00 x00 x00)
(L (W xff xff xff xff xff xff xff xff))
(L (W xcc x00 x00 x00 x02 x00 x00 x00)))
(T (W x70 x5f x6c x65 x61 x64 x65 x72)
(L (W x00 x00 x80 xbf x00 x00 x80 xbf)) E))
(T (W x00 x00 x00 x00 x5c x6a xfb xff)
(T (W x00 x00 x00 x00 x00 x00 x00 x00)
(L (W x49 xa1 x68 x4a xeb x5f xdd x3d)) E)
(T (W x00 x00 x00 x00 x00 x00 x00 x00)
(L (W xff xff xff xff xb0 x00 x00 x00)) E))))))
(T (W xff xff xff xff x09 x00 x00 x00)
(T (W x00 x00 x00 x00 x00 x00 x00 x00)
(T (W x00 x00 x80 x3f x00 x00 x80 x3f)
(T (W x00 x00 x00 x00 x00 x00 x00 x00)
(T (W x18 x00 x00 x00 x0c x00 x00 x00)
(T (W x00 x00 x80 x3f x00 x00 x80 x3f)
(L (W x00 x00 x00 x00 x00 x00 x00 x00))
(L (W x29 x00 x00 x00 xff xff xff xff)))
(T (W x00 x00 x00 x00 x00 x00 x00 x00)
(L (W x45 x26 x22 x84 xe4 x9c xf2 xcb)) E))
(T (W xff xff xff xff xff xff xff xff)
(T (W x49 xa1 x68 x4a xeb x5f xdd x3d)
(L (W x00 x00 x00 x00 x00 x00 x00 x00))
(L (W x00 x00 x00 x00 x00 x00 x00 x00)))
(T (W x00 x00 x00 x00 x00 x00 x00 x00)
(L (W xcc x00 x00 x00 x02 x00 x00 x00)) E)))
(T (W x91 x01 x00 x00 xff xff xff xff)
(T (W x3e x00 x00 x00 x0c x00 x00 x00)
(T (W x00 x00 x80 x3f x00 x00 x80 x3f)
(L (W x74 xd1 xfd xff x0e x00 x00 x00))
(L (W x00 x00 x80 xbf x00 x00 x80 xbf)))
(T (W x02 xd2 xff xff x2f x00 x00 x00)
(L (W x45 x44 x00 x00 x00 x00 x00 x00)) E))
(T (W x1c x48 xfb xff x10 x00 x00 x00)
(T (W x00 x00 x00 x00 x00 x00 x00 x00)
(L (W xff xff xff xff xff xff xff xff)) E)
(T (W x00 x00 x80 xbf x00 x00 x80 xbf)
(L (W x00 x00 x00 x00 x00 x00 x00 x00)) E))))
(T (W x45 x26 x22 x84 xe4 x9c xf2 xcb)
(T (W x47 x0d x3b xd5 x81 xfe x20 xbd)
(T (W x00 x00 x80 x3f x00 x00 x80 x3f)
(T (W x00 x00 x80 x3f x00 x00 x80 x3f)
(L (W x45 x26 x22 x84 xe4 x9c xf2 xcb))
(L (W x45 x26 x22 x84 xe4 x9c xf2 xcb)))
(T (W x45 x26 x22 x84 xe4 x9c xf2 xcb)
(L (W xff xff xff xff xff xff xff xff)) E))
(T (W x00 x00 x00 x00 x00 x00 x00 x00)
(T (W xff xff xff xff xff xff xff xff)
(L (W x00 x00 x80 xbf x00 x00 x80 xbf)) E)
(T (W xff xff xff xff xff xff xff xff)
(L (W x00 x00 x00 x00 x00 x00 x00 x00)) E)))
(T (W xff xff xff xff xff xff xff xff)
(T (W xf2 xe7 xfd xff x5d x00 x00 x00)
(T (W xff xff xff xff xff xff xff xff)
(L (W x6c x00 x00 x00 x60 x00 x00 x00))
(L (W x45 x26 x22 x84 xe4 x9c xf2 xcb)))
(T (W x70 x18 x00 x00 xe4 x16 x00 x00)
(L (W x54 x00 x00 x00 x48 x00 x00 x00)) E))
(T (W x00 x00 x80 x3f x00 x00 x80 x3f)
(T (W x68 x00 x00 x00 x5c x00 x00 x00)
(L (W x00 x00 x00 x00 x00 x00 x00 x00)) E)
(T (W x46 x53 x59 x53 x5f x4e x53 x5f)
(L (W x45 x26 x22 x84 xe4 x9c xf2 xcb)) E)))))
(T (W x45 x26 x22 x84 xe4 x9c xf2 xcb)
(T (W x45 x26 x22 x84 xe4 x9c xf2 xcb)
(T (W x50 x00 x00 x00 x44 x00 x00 x00)
(T (W x00 x00 x80 x3f x00 x00 x80 x3f)
(T (W xb0 x00 x00 x00 x64 x00 x00 x00)
(L (W x5f x4e x53 x5f x30 x32 x5f x43))
(L (W x00 x00 x00 x00 x00 x00 x00 x00)))
(T (W xff xff xff xff xff xff xff xff)
(L (W xb0 x00 x00 x00 x64 x00 x00 x00)) E))
(T (W x00 x00 x00 x00 x00 x00 x00 x00)
(T (W x18 x00 x00 x00 x0c x00 x00 x00)
(L (W x00 x00 x00 x00 x00 x00 x00 x00)) E)
(T (W x18 x00 x00 x00 x0c x00 x00 x00)
(L (W x04 x00 x00 x00 xda x17 xff xff)) E)))
(T (W xff xff xff xff xff xff xff xff)
(T (W xff xff xff xff xff xff xff xff)
(T (W xff xff xff xff xff xff xff xff)
(L (W x00 x00 x80 xbf x00 x00 x80 xbf))
(L (W x50 x00 x00 x00 x44 x00 x00 x00)))
(T (W x03 x00 x00 x00 xd0 x00 x00 x00)
(L (W x00 x00 x80 xbf x00 x00 x80 xbf)) E))
(T (W xff xff xff xff xff xff xff xff)
(T (W x50 x00 x00 x00 x44 x00 x00 x00)
(L (W x00 x00 x01 x01 x91 x01 x00 x00)) E)
(T (W xff xff xff xff xff xff xff xff)
(L (W x00 x00 x80 xbf x00 x00 x80 xbf)) E))))
(T (W x00 x00 x80 x3f x00 x00 x80 x3f)
(T (W x00 x00 x00 x00 x00 x00 x00 x00)
(T (W x00 x00 x00 x00 x00 x00 x00 x00)
(T (W xff xff xff xff xff xff xff xff)
(L (W xb0 x00 x00 x00 x64 x00 x00 x00))
(L (W x00 x00 x80 xbf x00 x00 x80 xbf)))
(T (W x00 x00 x00 x00 x00 x00 x00 x00)
(L (W xff xff xff xff xff xff xff xff)) E))
(T (W xca x30 xfb xff x78 x00 x00 x00)
(T (W x2c x01 x00 x00 x04 x00 x00 x00)
(L (W x18 x00 x00 x00 x0c x00 x00 x00)) E)
(T (W x00 x00 x00 x00 x00 x00 x00 x00)
(L (W x00 x00 x00 x00 xd2 x34 xff xff)) E)))
(T (W xff xff xff xff x03 x00 x00 x00)
(T (W x28 x00 x2c x00 x30 x00 x34 x00)
(T (W x30 x32 x5f x43 x4c x45 x41 x52)
(L (W x5d x00 x00 x00 xff xff xff xff))
(L (W x00 x00 x00 x00 x4a xf6 xff xff)))
(T (W x00 x00 x80 x3f x00 x00 x80 x3f)
(L (W x18 x00 x00 x00 x0c x00 x00 x00)) E))
(T (W xff xff xff xff xff xff xff xff)
(T (W x00 x00 x00 x00 x00 x00 x00 x00)
(L (W x54 x00 x00 x00 x48 x00 x00 x00)) E)
(T (W xff xff xff xff xff xff xff xff)
(L (W xff xff xff xff xff xff xff xff)) E)))))))
(T (W xff xff xff xff xff xff xff xff)
(T (W x45 x26 x22 x84 xe4 x9c xf2 xcb)
(T (W xff xff xff xff xff xff xff xff)
(T (W x00 x00 x00 x00 x00 x00 x00 x00)
(T (W xc6 x01 x00 x00 xff xff xff xff)
(T (W x00 x00 x00 x00 x00 x00 x00 x00)
(T (W xff xff xff xff x03 x00 x00 x00)
(L (W x1c x00 x00 x00 x1f x00 x00 x00))
(L (W x00 x00 x80 xbf x00 x00 x80 xbf)))
(T (W x1a x7b xfc xff x74 x00 x00 x00)
(L (W x18 x00 x00 x00 x0c x00 x00 x00)) E))
(T (W x00 x00 x80 x3f x00 x00 x80 x3f)
(T (W xff xff xff xff xff xff xff xff)
(L (W x54 x00 x00 x00 x48 x00 x00 x00))
(L (W x28 x00 x00 x00 x1c x00 x00 x00)))
(T (W x00 x00 x00 x00 x00 x00 x00 x00)
(L (W x45 x44 x00 x00 x00 x00 x00 x00)) E)))
(T (W x68 x00 x00 x00 x5c x00 x00 x00)
(T (W x18 x00 x00 x00 x10 x00 x00 x00)
(T (W xff xff xff xff xff xff xff xff)
(L (W x00 x00 x80 xbf x00 x00 x80 xbf))
(L (W xff xff xff xff xff xff xff xff)))
(T (W x50 x00 x00 x00 x44 x00 x00 x00)
(L (W x50 x00 x00 x00 x44 x00 x00 x00)) E))
(T (W x00 x00 x80 x3f x00 x00 x80 x3f)
(T (W xff xff xff xff xff xff xff xff)
(L (W x4f x84 x6f x8b xe8 xcb x63 xb7)) E)
(T (W xff xff xff xff xff xff xff xff)
(L (W x03 x00 x00 x00 xd0 x00 x00 x00)) E))))
(T (W xff xff xff xff xff xff xff xff)
(T (W x00 x00 x80 x3f x00 x00 x80 x3f)
(T (W xff xff xff xff x04 x00 x00 x00)
(T (W x45 x26 x22 x84 xe4 x9c xf2 xcb)
(L (W xff xff xff xff xff xff xff xff))
(L (W xff xff xff xff xff xff xff xff)))
(T (W x00 x00 x80 x3f x00 x00 x80 x3f)
(L (W x00 x00 x00 x00 x00 x00 x00 x00)) E))
(T (W x18 x00 x00 x00 x10 x00 x00 x00)
(T (W x00 x00 x00 x00 x00 x00 x00 x00)
(L (W x00 x00 x00 x00 x4a x22 xfe xff)) E)
(T (W x00 x00 x80 xbf x00 x00 x80 xbf)
(L (W x00 x00 x80 xbf x00 x00 x80 xbf)) E)))
(T (W x45 x26 x22 x84 xe4 x9c xf2 xcb)
(T (W x00 x00 x80 x3f x00 x00 x80 x3f)
(T (W x50 x00 x00 x00 x44 x00 x00 x00)
(L (W xff xff xff xff xff xff xff xff))
(L (W x00 x00 x00 x00 x00 x00 x00 x00)))
(T (W x00 x00 x80 x3f x00 x00 x80 x3f)
(L (W xff xff xff xff xff xff xff xff)) E))
(T (W xbc x00 x00 x00 x14 x00 x00 x00)
(T (W x00 x00 x00 x00 x00 x00 x00 x00)
(L (W xff xff xff xff xff xff xff xff)) E)
(T (W xca x5c xfd xff x78 x00 x00 x00)
(L (W x00 x00 x00 x00 x00 x00 x00 x00)) E)))))
(T (W x00 x00 x00 x00 x92 x47 xfd xff)
(T (W x00 x00 x80 x3f x00 x00 x80 x3f)
(T (W xff xff xff xff xff xff xff xff)
(T (W x00 x00 x00 x00 x00 x00 x00 x00)
(T (W x13 x00 x00 x00 x10 x00 x00 x00)
(L (W xec x8f xfd xff x00 x01 x01 x01))
(L (W x45 x26 x22 x84 xe4 x9c xf2 xcb)))
(T (W x00 x00 x80 x3f x00 x00 x80 x3f)
(L (W x00 x00 x00 x00 x00 x00 x00 x00)) E))
(T (W xff xff xff xff x03 x00 x00 x00)
(T (W x4a x00 x00 x00 xff xff xff xff)
(L (W xff xff xff xff xc8 x00 x00 x00)) E)
(T (W x74 xf1 xff xff x01 x01 x01 x01)
(L (W x4f x84 x6f x8b xe8 xcb x63 xb7)) E)))
(T (W x00 x00 x80 x3f x00 x00 x80 x3f)
(T (W x50 x00 x00 x00 x44 x00 x00 x00)
(T (W x00 x00 x00 x00 x00 x00 x00 x00)
(L (W x14 x00 x00 x00 x17 x00 x00 x00))
(L (W x00 x00 x00 x00 x00 x00 x00 x00)))
(T (W x50 x00 x00 x00 x54 x00 x58 x00)
(L (W xff xff xff xff xc0 x00 x00 x00)) E))
(T (W x00 x00 x00 x00 x00 x00 x00 x00)
(T (W xff xff xff xff xff xff xff xff)
(L (W x54 x00 x00 x00 x48 x00 x00 x00)) E)
(T (W x00 x00 x00 x00 x00 x00 x00 x00)
(L (W xff xff xff xff xff xff xff xff)) E))))
(T (W xff xff xff xff xff xff xff xff)
(T (W xec x2f xfa xff x00 x01 x01 x01)
(T (W x1a xab xfa xff x74 x00 x00 x00)
(T (W x00 x00 x00 x00 x00 x00 x00 x00)
(L (W x00 x00 x80 xbf x00 x00 x80 xbf))
(L (W xff xff xff xff xff xff xff xff)))
(T (W xff xff xff xff xff xff xff xff)
(L (W x00 x00 x80 xbf x00 x00 x80 xbf)) E))
(T (W x00 x00 x00 x00 x00 x00 x00 x00)
(T (W x54 x00 x00 x00 x48 x00 x00 x00)
(L (W x00 x00 x00 x00 x00 x00 x00 x00)) E)
(T (W x54 x00 x00 x00 x48 x00 x00 x00)
(L (W xec x2f xff xff x00 x01 x01 x01)) E)))
(T (W x00 x00 x00 x00 x00 x00 x00 x00)
(T (W x00 x00 x00 x00 x00 x00 x00 x00)
(T (W x50 x00 x00 x00 x44 x00 x00 x00)
(L (W x00 x00 x80 xbf x00 x00 x80 xbf))
(L (W x45 x26 x22 x84 xe4 x9c xf2 xcb)))
(T (W x00 x00 x80 x3f x00 x00 x80 x3f)
(L (W x00 x00 x00 x00 x12 x00 x00 x00)) E))
(T (W x30 x32 x5f x43 x4c x45 x41 x52)
(T (W x00 x00 x00 x00 x5c x6e xfc xff)
(L (W x00 x00 x01 x01 x29 x00 x00 x00)) E)
(T (W xff xff xff xff xff xff xff xff)
(L (W x00 x00 x00 x00 x00 x00 x00 x00)) E))))))
(T (W x45 x26 x22 x84 xe4 x9c xf2 xcb)
(T (W x00 x00 x80 x3f x00 x00 x80 x3f)
(T (W xff xff xff xff xff xff xff xff)
(T (W xff xff xff xff xff xff xff xff)
(T (W x00 x00 x00 x00 x00 x00 x00 x00)
(T (W xff xff xff xff xc4 x00 x00 x00)
(L (W x50 x00 x00 x00 x44 x00 x00 x00))
(L (W xec x87 xff xff x00 x01 x01 x01)))
(T (W x68 x00 x00 x00 x5c x00 x00 x00)
(L (W x00 x00 x00 x00 x00 x00 x00 x00)) E))
(T (W x45 x26 x22 x84 xe4 x9c xf2 xcb)
(T (W xff xff xff xff xff xff xff xff)
(L (W x45 x26 x22 x84 xe4 x9c xf2 xcb)) E)
(T (W x00 x00 x00 x00 x00 x00 x00 x00)
(L (W x00 x00 x00 x00 x00 x00 x00 x00)) E)))
(T (W x1a x43 xfa xff x74 x00 x00 x00)
(T (W x40 x00 x00 x00 x9c x00 x00 x00)
(T (W x46 x53 x59 x53 x5f x4e x53 x5f)
(L (W xff xff xff xff xff xff xff xff))
(L (W x00 x00 x00 x00 x00 x00 x00 x00)))
(T (W x00 x00 x80 x3f x00 x00 x80 x3f)
(L (W x45 x26 x22 x84 xe4 x9c xf2 xcb)) E))
(T (W xff xff xff xff xbc x00 x00 x00)
(T (W xff xff xff xff xff xff xff xff)
(L (W x00 x00 x80 xbf x00 x00 x80 xbf)) E)
(T (W x00 x00 x00 x00 x00 x00 x00 x00)
(L (W xff xff xff xff xff xff xff xff)) E))))
(T (W xff xff xff xff xff xff xff xff)
(T (W x1a x23 xfa xff x74 x00 x00 x00)
(T (W x18 x00 x00 x00 x0c x00 x00 x00)
(T (W xef x30 x28 xea x5d x27 x0c x7f)
(L (W x82 xe6 xff xff xc9 x00 x00 x00))
(L (W x00 x00 x80 xbf x00 x00 x80 xbf)))
(T (W xff xff xff xff x03 x00 x00 x00)
(L (W x00 x00 x80 xbf x00 x00 x80 xbf)) E))
(T (W xff xff xff xff x03 x00 x00 x00)
(T (W x00 x00 x00 x00 x00 x00 x00 x00)
(L (W x94 x04 x00 x00 x80 x03 x00 x00)) E)
(T (W x00 x00 x80 xbf x00 x00 x80 xbf)
(L (W x54 x00 x00 x00 x48 x00 x00 x00)) E)))
(T (W x00 x00 x00 x00 x00 x00 x00 x00)
(T (W x00 x00 x80 x3f x00 x00 x80 x3f)
(T (W x6c x00 x00 x00 x60 x00 x00 x00)
(L (W x00 x00 x00 x00 xfa xe3 xfd xff))
(L (W x00 x00 x00 x00 x00 x00 x00 x00)))
(T (W x12 x00 x00 x00 x46 x53 x59 x53)
(L (W x00 x00 x01 x01 x19 x01 x00 x00)) E))
(T (W xa4 x01 x00 x00 xff xff xff xff)
(T (W x00 x00 x80 x3f x00 x00 x80 x3f)
(L (W xff xff xff xff xff xff xff xff)) E)
(T (W x18 x00 x00 x00 x0c x00 x00 x00)
(L (W x00 x00 x00 x00 x00 x00 x00 x00)) E)))))
(T (W xec xb7 xf9 xff x00 x01 x01 x01)
(T (W xff xff xff xff xff xff xff xff)
(T (W x00 x00 x00 x00 x00 x00 x00 x00)
(T (W x00 x00 x00 x00 x00 x00 x00 x00)
(T (W x00 x00 x00 x00 x00 x00 x00 x00)
(L (W xff xff xff xff xac x00 x00 x00))
(L (W xff xff xff xff xff xff xff xff)))
(T (W x45 x26 x22 x84 xe4 x9c xf2 xcb)
(L (W x00 x00 x00 x00 x00 x00 x00 x00)) E))
(T (W x00 x00 x80 x3f x00 x00 x80 x3f)
(T (W x00 x00 x00 x00 x00 x00 x00 x00)
(L (W xff xff xff xff xff xff xff xff)) E)
(T (W x00 x00 x80 xbf x00 x00 x80 xbf)
(L (W x6c x00 x00 x00 x60 x00 x00 x00)) E)))
(T (W x00 x00 x80 x3f x00 x00 x80 x3f)
(T (W x6c x00 x00 x00 x60 x00 x00 x00)
(T (W x00 x00 x00 x00 x12 x00 x00 x00)
(L (W xff xff xff xff xff xff xff xff))
(L (W x46 x53 x59 x53 x5f x4e x53 x5f)))
(T (W x00 x00 x80 x3f x00 x00 x80 x3f)
(L (W xff xff xff xff xff xff xff xff)) E))
(T (W x00 x00 x80 x3f x00 x00 x80 x3f)
(T (W x45 x44 x00 x00 x00 x00 x00 x00)
(L (W x18 x00 x00 x00 x10 x00 x00 x00)) E)
(T (W x00 x00 x80 xbf x00 x00 x80 xbf)
(L (W x45 x44 x00 x00 x00 x00 x00 x00)) E))))
(T (W xff xff xff xff xff xff xff xff)
(T (W x50 x00 x00 x00 x44 x00 x00 x00)
(T (W x45 x26 x22 x84 xe4 x9c xf2 xcb)
(T (W x50 x00 x00 x00 x44 x00 x00 x00)
(L (W xff xff xff xff xff xff xff xff))
(L (W xff xff xff xff xff xff xff xff)))
(T (W xb8 x00 x00 x00 xac x00 x00 x00)
(L (W x00 x00 x80 xbf x00 x00 x80 xbf)) E))
(T (W x00 x00 x00 x00 x00 x00 x00 x00)
(T (W xb8 x00 x00 x00 x28 x00 x00 x00)
(L (W x00 x00 x00 x00 x00 x00 x00 x00)) E)
(T (W xff xff xff xff x9c x00 x00 x00)
(L (W xff xff xff xff xa0 x00 x00 x00)) E)))
(T (W x00 x00 x00 x00 x00 x00 x00 x00)
(T (W x18 x00 x00 x00 x0c x00 x00 x00)
(T (W xff xff xff xff xff xff xff xff)
(L (W x00 x00 x80 xbf x00 x00 x80 xbf))
(L (W x00 x00 x80 xbf x00 x00 x80 xbf)))
(T (W x00 x00 x00 x00 x00 x00 x00 x00)
(L (W x00 x00 x00 x00 x00 x00 x00 x00)) E))
(T (W x00 x00 x80 x3f x00 x00 x80 x3f)
(T (W xff xff xff xff xff xff xff xff)
(L (W x46 x53 x59 x53 x5f x4e x53 x5f)) E)
(T (W x1c x00 x00 x00 x1e x00 x00 x00)
(L (W x4f x84 x6f x8b xe8 xcb x63 xb7)) E)))))))))
(T (W x18 x45 x02 x00 x4c x40 x02 x00)
(T (W xc0 xbb x00 x00 x8c xba x00 x00)
(T (W x54 x00 x00 x00 x48 x00 x00 x00)
(T (W x00 x00 x00 x00 x00 x00 x00 x00)
(T (W xca x97 xf9 xff x78 x00 x00 x00)
(T (W xff xff xff xff xff xff xff xff)
(T (W x00 x00 x00 x00 x00 x00 x00 x00)
(T (W x1a x76 xfa xff x74 x00 x00 x00)
(T (W xff xff xff xff xff xff xff xff)
(L (W x00 x00 x01 x01 x19 x01 x00 x00))
(L (W xff xff xff xff xff xff xff xff)))
(T (W x00 x00 x00 x00 x00 x00 x00 x00)
(L (W x00 x00 x80 xbf x00 x00 x80 xbf)) E))
(T (W x19 x00 x00 x00 x0c x00 x00 x00)
(T (W x30 x32 x5f x43 x4c x45 x41 x52)
(L (W xff xff xff xff xff xff xff xff))
(L (W xff xff xff xff xff xff xff xff)))
(T (W xff xff xff xff xff xff xff xff)
(L (W xca xf7 xfe xff x78 x00 x00 x00)) E)))
(T (W xff xff xff xff xff xff xff xff)
(T (W x82 xca xfd xff x00 x00 x01 x01)
(T (W x61 x64 x65 x72 x5f x77 x69 x6c)
(L (W x00 x00 x00 x00 x00 x00 x00 x00))
(L (W x00 x00 x00 x00 x00 x00 x00 x00)))
(T (W x02 xc9 xff xff x4b x00 x00 x00)
(L (W xff xff xff xff xff xff xff xff)) E))
(T (W xec x3a xfb xff x00 x01 x01 x01)
(T (W x18 x00 x00 x00 x10 x00 x00 x00)
(L (W xca x37 xfe xff x78 x00 x00 x00)) E)
(T (W x00 x00 x00 x00 x00 x00 x00 x00)
(L (W xff xff xff xff xff xff xff xff)) E))))
(T (W x00 x00 x00 x00 x00 x00 x00 x00)
(T (W x00 x00 x80 x3f x00 x00 x80 x3f)
(T (W x2c x00 x30 x00 x34 x00 x38 x00)
(T (W xff xff xff xff xff xff xff xff)
(L (W x00 x00 x00 x00 x00 x00 x00 x00))
(L (W x00 x00 x00 x00 x00 x00 x00 x00)))
(T (W x1a x96 xfc xff x74 x00 x00 x00)
(L (W xb4 x00 x00 x00 x64 x00 x00 x00)) E))
(T (W xff xff xff xff xff xff xff xff)
(T (W xec x1a xfc xff x00 x01 x01 x01)
(L (W x00 x00 x00 x00 x00 x00 x00 x00)) E)
(T (W x00 x00 x00 x00 x00 x00 x00 x00)
(L (W xff xff xff xff xff xff xff xff)) E)))
(T (W xff xff xff xff xff xff xff xff)
(T (W xff xff xff xff xff xff xff xff)
(T (W xff xff xff xff xff xff xff xff)
(L (W x00 x00 x00 x00 x00 x00 x00 x00))
(L (W x00 x00 x80 xbf x00 x00 x80 xbf)))
(T (W x03 x00 x00 x00 xd0 x00 x00 x00)
(L (W x00 x00 x00 x00 x00 x00 x00 x00)) E))
(T (W xff xff xff xff xff xff xff xff)
(T (W x00 x00 x80 x3f x00 x00 x80 x3f)
(L (W x00 x00 x01 x01 x92 x01 x00 x00)) E)
(T (W xff xff xff xff xff xff xff xff)
(L (W x00 x00 x80 xbf x00 x00 x80 xbf)) E)))))
(T (W x18 x00 x00 x00 x0c x00 x00 x00)
(T (W xff xff xff xff x07 x00 x00 x00)
(T (W x00 x00 x00 x00 x00 x00 x00 x00)
(T (W x00 x00 x80 x3f x00 x00 x80 x3f)
(T (W x00 x00 x80 x3f x00 x00 x80 x3f)
(L (W xff xff xff xff xff xff xff xff))
(L (W xff xff xff xff xff xff xff xff)))
(T (W xff xff xff xff xff xff xff xff)
(L (W x6c x00 x00 x00 x60 x00 x00 x00)) E))
(T (W x00 x00 x00 x00 x00 x00 x00 x00)
(T (W x4f x84 x6f x8b xe8 xcb x63 xb7)
(L (W x4a x00 x00 x00 xff xff xff xff)) E)
(T (W xb0 x00 x00 x00 x64 x00 x00 x00)
(L (W xcc x00 x00 x00 x01 x00 x00 x00)) E)))
(T (W xb8 x00 x00 x00 xac x00 x00 x00)
(T (W xff xff xff xff xff xff xff xff)
(T (W x00 x00 x80 x3f x00 x00 x80 x3f)
(L (W x00 x00 x00 x00 x00 x00 x00 x00))
(L (W x45 x26 x22 x84 xe4 x9c xf2 xcb)))
(T (W x7f x00 x00 x00 x7f x00 x00 x00)
(L (W x00 x00 x00 x00 x12 x00 x00 x00)) E))
(T (W x00 x00 x00 x00 x00 x00 x00 x00)
(T (W x45 x26 x22 x84 xe4 x9c xf2 xcb)
(L (W x14 x00 x00 x00 x17 x00 x00 x00)) E)
(T (W x00 x00 x80 xbf x00 x00 x80 xbf)
(L (W x00 x00 x00 x00 x00 x00 x00 x00)) E))))
(T (W x00 x00 x80 x3f x00 x00 x80 x3f)
(T (W xff xff xff xff xff xff xff xff)
(T (W x00 x00 x00 x00 x00 x00 x00 x00)
(T (W x00 x00 x80 x3f x00 x00 x80 x3f)
(L (W x00 x00 x00 x00 x00 x00 x00 x00))
(L (W x00 x00 x00 x00 x00 x00 x00 x00)))
(T (W x00 x00 x00 x00 x00 x00 x00 x00)
(L (W xff xff xff xff xc0 x00 x00 x00)) E))
(T (W x00 x00 x00 x00 x00 x00 x00 x00)
(T (W xcc x00 x00 x00 xc0 x00 x00 x00)
(L (W x00 x00 x80 xbf x00 x00 x80 xbf)) E)
(T (W xff xff xff xff xff xff xff xff)
(L (W xff xff xff xff xff xff xff xff)) E)))
(T (W x18 x00 x00 x00 x10 x00 x00 x00)
(T (W xff xff xff xff xff xff xff xff)
(T (W xff xff xff xff xff xff xff xff)
(L (W xbc x00 x00 x00 x1e x00 x00 x00))
(L (W x45 x26 x22 x84 xe4 x9c xf2 xcb)))
(T (W xff xff xff xff xff xff xff xff)
(L (W x00 x00 x80 xbf x00 x00 x80 xbf)) E))
(T (W x00 x00 x80 x3f x00 x00 x80 x3f)
(T (W x00 x00 x00 x00 x00 x00 x00 x00)
(L (W x00 x00 x00 x00 x00 x00 x00 x00)) E)
(T (W x45 x44 x00 x00 x00 x00 x00 x00)
(L (W xca x67 xff xff x78 x00 x00 x00)) E))))))
(T (W xff xff xff xff xff xff xff xff)
(T (W x00 x00 x00 x00 x00 x00 x00 x00)
(T (W x00 x00 x80 x3f x00 x00 x80 x3f)
(T (W x00 x00 x00 x00 x00 x00 x00 x00)
(T (W x00 x00 x80 x3f x00 x00 x80 x3f)
(T (W x00 x00 x00 x00 x00 x00 x00 x00)
(L (W x00 x00 x00 x00 x00 x00 x00 x00))
(L (W xff xff xff xff xff xff xff xff)))
(T (W x82 x92 xff xff x00 x00 x01 x01)
(L (W x54 x00 x00 x00 x48 x00 x00 x00)) E))
(T (W xff xff xff xff x9c x00 x00 x00)
(T (W x00 x00 x00 x00 x00 x00 x00 x00)
(L (W x54 x02 x00 x00 x38 x01 x00 x00))
(L (W xfc x00 x00 x00 x02 x00 x00 x00)))
(T (W xfc x66 xff x4b x84 x99 x7b x61)
(L (W x45 x26 x22 x84 xe4 x9c xf2 xcb)) E)))
(T (W xff xff xff xff xff xff xff xff)
(T (W xff xff xff xff xff xff xff xff)
(T (W x49 xa1 x68 x4a xeb x5f xdd x3d)
(L (W xff xff xff xff xff xff xff xff))
(L (W x4f x84 x6f x8b xe8 xcb x63 xb7)))
(T (W xff xff xff xff xff xff xff xff)
(L (W xff xff xff xff xff xff xff xff)) E))
(T (W xff xff xff xff xff xff xff xff)
(T (W x46 x53 x59 x53 x5f x4e x53 x5f)
(L (W x00 x00 x00 x00 x5c x41 xfe xff)) E)
(T (W x49 xa1 x68 x4a xeb x5f xdd x3d)
(L (W x45 x44 x00 x00 x00 x00 x00 x00)) E))))
(T (W x00 x00 x00 x00 x00 x00 x00 x00)
(T (W xff xff xff xff xff xff xff xff)
(T (W x00 x00 x00 x00 x00 x00 x00 x00)
(T (W x70 x5f x6c x65 x61 x64 x65 x72)
(L (W x12 x00 x00 x00 x46 x53 x59 x53))
(L (W x00 x00 x00 x00 x00 x00 x00 x00)))
(T (W x6b x65 x5f x63 x6f x77 x61 x72)
(L (W xff xff xff xff xb0 x00 x00 x00)) E))
(T (W xdc x05 x00 x00 xb4 x04 x00 x00)
(T (W x1a x1e xfc xff x74 x00 x00 x00)
(L (W x00 x00 x80 xbf x00 x00 x80 xbf)) E)
(T (W xa0 x00 x00 x00 x64 x00 x00 x00)
(L (W x00 x00 x00 x00 x00 x00 x00 x00)) E)))
(T (W xff xff xff xff xff xff xff xff)
(T (W xff xff xff xff xff xff xff xff)
(T (W xff xff xff xff x03 x00 x00 x00)
(L (W x00 x00 x80 xbf x00 x00 x80 xbf))
(L (W x54 x00 x00 x00 x48 x00 x00 x00)))
(T (W xff xff xff xff xff xff xff xff)
(L (W x00 x00 x00 x00 x00 x00 x00 x00)) E))
(T (W x00 x00 x00 x00 x00 x00 x00 x00)
(T (W x50 x00 x00 x00 x44 x00 x00 x00)
(L (W x46 x53 x59 x53 x5f x4e x53 x5f)) E)
(T (W x00 x00 x01 x01 x54 x01 x00 x00)
(L (W x00 x00 x80 xbf x00 x00 x80 xbf)) E)))))
(T (W x00 x00 x00 x00 x00 x00 x00 x00)
(T (W x6c x00 x00 x00 x60 x00 x00 x00)
(T (W x00 x00 x80 x3f x00 x00 x80 x3f)
(T (W x00 x00 x80 x3f x00 x00 x80 x3f)
(T (W xec x92 xfb xff x00 x01 x01 x01)
(L (W xd2 xef xff xff x00 x00 x01 x01))
(L (W x00 x00 x00 x00 x00 x00 x00 x00)))
(T (W xff xff xff xff xff xff xff xff)
(L (W xec x92 xfe xff x00 x01 x01 x01)) E))
(T (W x00 x00 x00 x00 x12 x00 x00 x00)
(T (W x00 x00 x80 x3f x00 x00 x80 x3f)
(L (W x00 x00 x00 x00 x00 x00 x00 x00)) E)
(T (W x00 x00 x80 xbf x00 x00 x80 xbf)
(L (W xff xff xff xff x9c x00 x00 x00)) E)))
(T (W xff xff xff xff xff xff xff xff)
(T (W xff xff xff xff xff xff xff xff)
(T (W x18 x00 x00 x00 x0c x00 x00 x00)
(L (W x00 x00 x00 x00 x00 x00 x00 x00))
(L (W x00 x00 x80 xbf x00 x00 x80 xbf)))
(T (W x00 x00 x80 x3f x00 x00 x80 x3f)
(L (W x00 x00 x00 x00 x00 x00 x00 x00)) E))
(T (W x24 x00 x00 x00 xb0 x00 x00 x00)
(T (W x00 x00 x80 x3f x00 x00 x80 x3f)
(L (W xff xff xff xff xff xff xff xff)) E)
(T (W xff xff xff xff xb0 x00 x00 x00)
(L (W x49 xa1 x68 x4a xeb x5f xdd x3d)) E))))
(T (W x00 x00 x00 x00 x00 x00 x00 x00)
(T (W xff xff xff xff xff xff xff xff)
(T (W x40 x00 x00 x00 x10 x00 x00 x00)
(T (W xb0 x00 x00 x00 x64 x00 x00 x00)
(L (W x18 x00 x00 x00 x10 x00 x00 x00))
(L (W x00 x00 x00 x00 x00 x00 x00 x00)))
(T (W x00 x00 x00 x00 x00 x00 x00 x00)
(L (W x03 x00 x00 x00 xd0 x00 x00 x00)) E))
(T (W x50 x00 x00 x00 x44 x00 x00 x00)
(T (W xff xff xff xff xff xff xff xff)
(L (W x6c x00 x00 x00 x60 x00 x00 x00)) E)
(T (W xc7 x01 x00 x00 xff xff xff xff)
(L (W xff xff xff xff xff xff xff xff)) E)))
(T (W x01 x00 x00 x00 xa0 x00 x00 x00)
(T (W xff xff xff xff xff xff xff xff)
(T (W x82 x02 xff xff x00 x00 x01 x01)
(L (W xff xff xff xff xff xff xff xff))
(L (W xff xff xff xff xff xff xff xff)))
(T (W x00 x00 x80 x3f x00 x00 x80 x3f)
(L (W x6c x00 x00 x00 x60 x00 x00 x00)) E))
(T (W xb8 x00 x00 x00 x19 x00 x00 x00)
(T (W x18 x01 x00 x00 x04 x00 x00 x00)
(L (W x00 x00 x80 xbf x00 x00 x80 xbf)) E)
(T (W x00 x00 x00 x00 x00 x00 x00 x00)
(L (W xc4 x00 x00 x00 x02 x00 x00 x00)) E)))))))
(T (W xff xff xff xff xff xff xff xff)
(T (W x6c x00 x00 x00 x60 x00 x00 x00)
(T (W xe4 x38 x00 x00 xd0 x37 x00 x00)
(T (W x00 x00 x00 x00 x00 x00 x00 x00)
(T (W xff xff xff xff x03 x00 x00 x00)
(T (W x00 x00 x00 x00 x00 x00 x00 x00)
(T (W x00 x00 x80 x3f x00 x00 x80 x3f)
(L (W x00 x00 x80 xbf x00 x00 x80 xbf))
(L (W x00 x00 x00 x00 x00 x00 x00 x00)))
(T (W x68 x00 x00 x00 x5c x00 x00 x00)
(L (W xff xff xff xff xff xff xff xff)) E))
(T (W x6b x65 x5f x77 x61 x72 x6c x69)
(T (W x18 x00 x00 x00 x0c x00 x00 x00)
(L (W x00 x00 x80 xbf x00 x00 x80 xbf))
(L (W x00 x00 x00 x00 x00 x00 x00 x00)))
(T (W xd8 x00 x00 x00 xff xff xff xff)
(L (W xff xff xff xff xff xff xff xff)) E)))
(T (W x00 x00 x80 x3f x00 x00 x80 x3f)
(T (W xec xbe xfa xff x00 x01 x01 x01)
(T (W x14 x00 x00 x00 x16 x00 x00 x00)
(L (W x00 x00 x80 xbf x00 x00 x80 xbf))
(L (W xff xff xff xff xff xff xff xff)))
(T (W x00 x00 x80 x3f x00 x00 x80 x3f)
(L (W x00 x00 x80 xbf x00 x00 x80 xbf)) E))
(T (W x00 x00 x00 x00 x00 x00 x00 x00)
(T (W x1a x3a xfc xff x74 x00 x00 x00)
(L (W x00 x00 x00 x00 x00 x00 x00 x00)) E)
(T (W xb0 x00 x00 x00 x64 x00 x00 x00)
(L (W x18 x00 x00 x00 x10 x00 x00 x00)) E))))
(T (W xff xff xff xff x04 x00 x00 x00)
(T (W x63 x6f x77 x61 x72 x64 x00 x00)
(T (W x1a x9a xfa xff x74 x00 x00 x00)
(T (W x50 x00 x00 x00 x44 x00 x00 x00)
(L (W x45 x26 x22 x84 xe4 x9c xf2 xcb))
(L (W xff xff xff xff xff xff xff xff)))
(T (W x00 x00 x80 x3f x00 x00 x80 x3f)
(L (W x00 x00 x00 x00 x12 x00 x00 x00)) E))
(T (W x54 x00 x00 x00 x48 x00 x00 x00)
(T (W x18 x00 x00 x00 x10 x00 x00 x00)
(L (W xff xff xff xff xff xff xff xff)) E)
(T (W x00 x00 x00 x00 x00 x00 x00 x00)
(L (W x00 x00 x80 xbf x00 x00 x80 xbf)) E)))
(T (W x00 x00 x00 x00 x00 x00 x00 x00)
(T (W x00 x00 x00 x00 x00 x00 x00 x00)
(T (W x00 x00 x80 x3f x00 x00 x80 x3f)
(L (W xff xff xff xff xff xff xff xff))
(L (W x45 x44 x00 x00 x00 x00 x00 x00)))
(T (W x00 x00 x80 x3f x00 x00 x80 x3f)
(L (W x03 x00 x00 x00 xd8 x00 x00 x00)) E))
(T (W xec x5e xfb xff x00 x01 x01 x01)
(T (W x00 x00 x00 x00 x00 x00 x00 x00)
(L (W x50 x00 x00 x00 x44 x00 x00 x00)) E)
(T (W x00 x00 x80 xbf x00 x00 x80 xbf)
(L (W x00 x00 x00 x00 x00 x00 x00 x00)) E)))))
(T (W xff xff xff xff xff xff xff xff)
(T (W x00 x00 x00 x00 x00 x00 x00 x00)
(T (W x18 x00 x00 x00 x0c x00 x00 x00)
(T (W x00 x00 x00 x00 x2a x9b xff xff)
(T (W xff xff xff xff xff xff xff xff)
(L (W x00 x00 x80 xbf x00 x00 x80 xbf))
(L (W x00 x00 x80 xbf x00 x00 x80 xbf)))
(T (W x45 x26 x22 x84 xe4 x9c xf2 xcb)
(L (W x46 x53 x59 x53 x5f x4e x53 x5f)) E))
(T (W xff xff xff xff x9c x00 x00 x00)
(T (W xff xff xff xff xff xff xff xff)
(L (W x45 x26 x22 x84 xe4 x9c xf2 xcb)) E)
(T (W x00 x00 x80 xbf x00 x00 x80 xbf)
(L (W x00 x00 x00 x00 x00 x00 x00 x00)) E)))
(T (W x00 x00 x80 x3f x00 x00 x80 x3f)
(T (W x00 x00 x80 x3f x00 x00 x80 x3f)
(T (W x45 x44 x00 x00 x00 x00 x00 x00)
(L (W x00 x00 x00 x00 x5c xcd xfd xff))
(L (W x5c x00 x00 x00 xff xff xff xff)))
(T (W xff xff xff xff xac x00 x00 x00)
(L (W x45 x26 x22 x84 xe4 x9c xf2 xcb)) E))
(T (W xff xff xff xff x01 x00 x00 x00)
(T (W xff xff xff xff xff xff xff xff)
(L (W x00 x00 x80 xbf x00 x00 x80 xbf)) E)
(T (W x00 x00 x00 x00 x4a xaa xfd xff)
(L (W xff xff xff xff xff xff xff xff)) E))))
(T (W xb8 x00 x00 x00 xac x00 x00 x00)
(T (W x00 x00 x80 x3f x00 x00 x80 x3f)
(T (W x68 x00 x00 x00 x5c x00 x00 x00)
(T (W x13 x00 x00 x00 x10 x00 x00 x00)
(L (W x00 x00 x80 xbf x00 x00 x80 xbf))
(L (W xff xff xff xff xa0 x00 x00 x00)))
(T (W xb8 x00 x00 x00 xac x00 x00 x00)
(L (W x49 xa1 x68 x4a xeb x5f xdd x3d)) E))
(T (W xff xff xff xff xff xff xff xff)
(T (W x00 x00 x00 x00 x00 x00 x00 x00)
(L (W x94 x04 x00 x00 x80 x03 x00 x00)) E)
(T (W x00 x00 x80 xbf x00 x00 x80 xbf)
(L (W x54 x00 x00 x00 x48 x00 x00 x00)) E)))
(T (W x00 x00 x00 x00 x00 x00 x00 x00)
(T (W x00 x00 x00 x00 x00 x00 x00 x00)
(T (W x00 x00 x80 x3f x00 x00 x80 x3f)
(L (W x00 x00 x00 x00 x00 x00 x00 x00))
(L (W x00 x00 x00 x00 x00 x00 x00 x00)))
(T (W x00 x00 x80 x3f x00 x00 x80 x3f)
(L (W x00 x00 x00 x00 xda xf2 xfe xff)) E))
(T (W x82 x7e xfe xff x00 x00 x01 x01)
(T (W x1a x6a xfc xff x74 x00 x00 x00)
(L (W xff xff xff xff xff xff xff xff)) E)
(T (W x18 x00 x00 x00 x0c x00 x00 x00)
(L (W x00 x00 x00 x00 x00 x00 x00 x00)) E))))))
(T (W x00 x00 x00 x00 x00 x00 x00 x00)
(T (W x00 x00 x80 x3f x00 x00 x80 x3f)
(T (W x01 x00 x00 x00 xa0 x00 x00 x00)
(T (W xff xff xff xff xff xff xff xff)
(T (W x3e x00 x00 x00 x10 x00 x00 x00)
(T (W x45 x26 x22 x84 xe4 x9c xf2 xcb)
(L (W x00 x00 x80 xbf x00 x00 x80 xbf))
(L (W x45 x26 x22 x84 xe4 x9c xf2 xcb)))
(T (W x00 x00 x80 x3f x00 x00 x80 x3f)
(L (W x94 x04 x00 x00 x78 x03 x00 x00)) E))
(T (W x00 x00 x80 x3f x00 x00 x80 x3f)
(T (W xff xff xff xff xff xff xff xff)
(L (W x54 x00 x00 x00 x48 x00 x00 x00)) E)
(T (W x04 x00 x00 x00 xba x04 xfd xff)
(L (W x30 x32 x5f x43 x4c x45 x41 x52)) E)))
(T (W x45 x26 x22 x84 xe4 x9c xf2 xcb)
(T (W x00 x00 x80 x3f x00 x00 x80 x3f)
(T (W x7a xcc xfe xff x00 x00 x01 x01)
(L (W x18 x00 x00 x00 x0c x00 x00 x00))
(L (W xff xff xff xff xff xff xff xff)))
(T (W x45 x26 x22 x84 xe4 x9c xf2 xcb)
(L (W x6c x00 x00 x00 x60 x00 x00 x00)) E))
(T (W x45 x26 x22 x84 xe4 x9c xf2 xcb)
(T (W x01 x00 x00 x00 xb0 x00 x00 x00)
(L (W x00 x00 x00 x00 x00 x00 x00 x00)) E)
(T (W xff xff xff xff xff xff xff xff)
(L (W x03 x00 x00 x00 xd8 x00 x00 x00)) E))))
(T (W xff xff xff xff x04 x00 x00 x00)
(T (W x54 x00 x00 x00 x48 x00 x00 x00)
(T (W x00 x00 x80 x3f x00 x00 x80 x3f)
(T (W xff xff xff xff xff xff xff xff)
(L (W xff xff xff xff xff xff xff xff))
(L (W x00 x00 x80 xbf x00 x00 x80 xbf)))
(T (W x68 x00 x00 x00 x5c x00 x00 x00)
(L (W x00 x00 x80 xbf x00 x00 x80 xbf)) E))
(T (W xff xff xff xff x9c x00 x00 x00)
(T (W x46 x53 x59 x53 x5f x4e x53 x5f)
(L (W xff xff xff xff xff xff xff xff)) E)
(T (W x00 x00 x00 x00 x00 x00 x00 x00)
(L (W x00 x00 x80 xbf x00 x00 x80 xbf)) E)))
(T (W x00 x00 x00 x00 x00 x00 x00 x00)
(T (W x00 x00 x00 x00 x00 x00 x00 x00)
(T (W x45 x26 x22 x84 xe4 x9c xf2 xcb)
(L (W xff xff xff xff xff xff xff xff))
(L (W x00 x00 x00 x00 x00 x00 x00 x00)))
(T (W x6b x65 x5f x6c x76 x32 x00 x00)
(L (W xff xff xff xff xff xff xff xff)) E))
(T (W xff xff xff xff xff xff xff xff)
(T (W x6c x00 x0c x00 x10 x00 x00 x00)
(L (W x03 x00 x00 x00 xd8 x00 x00 x00)) E)
(T (W x00 x00 x80 xbf x00 x00 x80 xbf)
(L (W xe4 x06 x00 x00 xc8 x05 x00 x00)) E)))))
(T (W x54 x00 x00 x00 x48 x00 x00 x00)
(T (W xff xff xff xff xff xff xff xff)
(T (W xba x01 x00 x00 xff xff xff xff)
(T (W x02 x00 x00 x00 x7c x01 x00 x00)
(T (W x00 x00 x00 x00 x00 x00 x00 x00)
(L (W x68 x00 x00 x00 x5c x00 x00 x00))
(L (W x00 x00 x00 x00 x5c x95 xff xff)))
(T (W x00 x00 x00 x00 x00 x00 x00 x00)
(L (W x00 x00 x00 x00 x00 x00 x00 x00)) E))
(T (W x74 x00 x0c x00 x10 x00 x00 x00)
(T (W x4a x00 x00 x00 xff xff xff xff)
(L (W xff xff xff xff xc8 x00 x00 x00)) E)
(T (W x00 x00 x00 x00 x00 x00 x00 x00)
(L (W x00 x00 x80 xbf x00 x00 x80 xbf)) E)))
(T (W x00 x00 x00 x00 x00 x00 x00 x00)
(T (W x00 x00 x80 x3f x00 x00 x80 x3f)
(T (W x00 x00 x00 x00 x00 x00 x00 x00)
(L (W x03 x00 x00 x00 xd8 x00 x00 x00))
(L (W x00 x00 x00 x00 xba xd4 xff xff)))
(T (W x00 x00 x00 x00 x00 x00 x00 x00)
(L (W xcc x00 x00 x00 x02 x00 x00 x00)) E))
(T (W x00 x00 x00 x00 x00 x00 x00 x00)
(T (W xff xff xff xff xff xff xff xff)
(L (W x54 x00 x00 x00 x48 x00 x00 x00)) E)
(T (W x45 x26 x22 x84 xe4 x9c xf2 xcb)
(L (W xff xff xff xff xff xff xff xff)) E))))
(T (W x18 x00 x00 x00 x10 x00 x00 x00)
(T (W x45 x26 x22 x84 xe4 x9c xf2 xcb)
(T (W x1a xb2 xfa xff x74 x00 x00 x00)
(T (W x00 x00 x80 x3f x00 x00 x80 x3f)
(L (W xff xff xff xff xff xff xff xff))
(L (W xff xff xff xff xb0 x00 x00 x00)))
(T (W x50 x00 x00 x00 x44 x00 x00 x00)
(L (W x00 x00 x80 xbf x00 x00 x80 xbf)) E))
(T (W x45 x44 x00 x00 x00 x00 x00 x00)
(T (W xec x36 xfc xff x00 x01 x01 x01)
(L (W x00 x00 x00 x00 x00 x00 x00 x00)) E)
(T (W xca x33 xfd xff x78 x00 x00 x00)
(L (W x6c x00 x00 x00 x60 x00 x00 x00)) E)))
(T (W x00 x00 x00 x00 x00 x00 x00 x00)
(T (W x00 x00 x00 x00 x5c xf5 xfa xff)
(T (W x00 x00 x80 x3f x00 x00 x80 x3f)
(L (W x00 x00 x80 xbf x00 x00 x80 xbf))
(L (W x00 x00 x80 xbf x00 x00 x80 xbf)))
(T (W xf2 xfa xff xff xaa x01 x00 x00)
(L (W x00 x00 x00 x00 xfa xf2 xfe xff)) E))
(T (W x00 x00 x00 x00 x00 x00 x00 x00)
(T (W x00 x00 x80 x3f x00 x00 x80 x3f)
(L (W x00 x00 x01 x01 x5d x00 x00 x00)) E)
(T (W xca x73 xfd xff x78 x00 x00 x00)
(L (W x00 x00 x00 x00 x00 x00 x00 x00)) E))))))))
(T (W x00 x00 x80 x3f x00 x00 x80 x3f)
(T (W x64 x00 x00 x00 xa0 x00 x00 x00)
(T (W x00 x00 x80 x3f x00 x00 x80 x3f)
(T (W xff xff xff xff x04 x00 x00 x00)
(T (W x0e x00 x00 x00 xff xff xff xff)
(T (W x00 x00 x80 x3f x00 x00 x80 x3f)
(T (W xff xff xff xff xff xff xff xff)
(T (W x00 x00 x00 x00 x00 x00 x00 x00)
(L (W x00 x00 x00 x00 x00 x00 x00 x00))
(L (W x00 x00 x00 x00 x00 x00 x00 x00)))
(T (W x45 x26 x22 x84 xe4 x9c xf2 xcb)
(L (W x19 x00 x00 x00 x1c x00 x00 x00)) E))
(T (W xff xff xff xff xff xff xff xff)
(T (W x00 x00 x80 x3f x00 x00 x80 x3f)
(L (W x00 x00 x00 x00 x00 x00 x00 x00))
(L (W x45 x26 x22 x84 xe4 x9c xf2 xcb)))
(T (W x00 x00 x80 x3f x00 x00 x80 x3f)
(L (W xff xff xff xff xff xff xff xff)) E)))
(T (W x00 x00 x00 x00 x00 x00 x00 x00)
(T (W x45 x26 x22 x84 xe4 x9c xf2 xcb)
(T (W x45 x26 x22 x84 xe4 x9c xf2 xcb)
(L (W x00 x00 x00 x00 x00 x00 x00 x00))
(L (W x00 x00 x80 xbf x00 x00 x80 xbf)))
(T (W x00 x00 x00 x00 x00 x00 x00 x00)
(L (W x00 x00 x00 x00 x00 x00 x00 x00)) E))
(T (W xff xff xff xff xff xff xff xff)
(T (W x00 x00 x80 x3f x00 x00 x80 x3f)
(L (W xff xff xff xff xff xff xff xff)) E)
(T (W x00 x00 x80 xbf x00 x00 x80 xbf)
(L (W x00 x00 x00 x00 x00 x00 x00 x00)) E))))
(T (W x00 x00 x80 x3f x00 x00 x80 x3f)
(T (W xff xff xff xff xff xff xff xff)
(T (W x00 x00 x80 x3f x00 x00 x80 x3f)
(T (W x30 x32 x5f x43 x4c x45 x41 x52)
(L (W x00 x00 x80 xbf x00 x00 x80 xbf))
(L (W x00 x00 x80 xbf x00 x00 x80 xbf)))
(T (W xff xff xff xff xff xff xff xff)
(L (W xff xff xff xff xff xff xff xff)) E))
(T (W x00 x00 x00 x00 x00 x00 x00 x00)
(T (W xff xff xff xff xff xff xff xff)
(L (W x00 x00 x80 xbf x00 x00 x80 xbf)) E)
(T (W xff xff xff xff xff xff xff xff)
(L (W x00 x00 x00 x00 x00 x00 x00 x00)) E)))
(T (W xff xff xff xff xff xff xff xff)
(T (W x00 x00 x00 x00 x00 x00 x00 x00)
(T (W x4a x00 x00 x00 xff xff xff xff)
(L (W x50 x00 x00 x00 x44 x00 x00 x00))
(L (W xff xff xff xff xff xff xff xff)))
(T (W x06 x00 x00 x00 xd0 x05 x00 x00)
(L (W x54 x00 x00 x00 x48 x00 x00 x00)) E))
(T (W x46 x53 x59 x53 x5f x4e x53 x5f)
(T (W x68 x00 x00 x00 x5c x00 x00 x00)
(L (W x00 x00 x00 x00 x00 x00 x00 x00)) E)
(T (W x45 x44 x00 x00 x00 x00 x00 x00)
(L (W x45 x26 x22 x84 xe4 x9c xf2 xcb)) E)))))
(T (W xff xff xff xff xff xff xff xff)
(T (W x00 x00 x00 x00 x00 x00 x00 x00)
(T (W x45 x26 x22 x84 xe4 x9c xf2 xcb)
(T (W xff xff xff xff x04 x00 x00 x00)
(T (W x1a x88 xfb xff x74 x00 x00 x00)
(L (W x00 x00 x00 x00 x00 x00 x00 x00))
(L (W x00 x00 x00 x00 x12 x00 x00 x00)))
(T (W x00 x00 x00 x00 x00 x00 x00 x00)
(L (W xff xff xff xff xbc x00 x00 x00)) E))
(T (W x45 x26 x22 x84 xe4 x9c xf2 xcb)
(T (W x18 x00 x00 x00 x0c x00 x00 x00)
(L (W x00 x00 x80 xbf x00 x00 x80 xbf)) E)
(T (W x20 x00 x00 x00 x10 x00 x00 x00)
(L (W xff xff xff xff xff xff xff xff)) E)))
(T (W x90 xd3 x80 x5b x99 x53 x9f x15)
(T (W x00 x00 x00 x00 x00 x00 x00 x00)
(T (W x00 x00 x00 x00 x5c xcb xfb xff)
(L (W x00 x00 x80 xbf x00 x00 x80 xbf))
(L (W xff xff xff xff xc8 x00 x00 x00)))
(T (W xff xff xff xff xff xff xff xff)
(L (W x00 x00 x80 xbf x00 x00 x80 xbf)) E))
(T (W x18 x00 x00 x00 x10 x00 x00 x00)
(T (W x00 x00 x80 x3f x00 x00 x80 x3f)
(L (W x08 x00 x00 x00 x20 x08 x00 x00)) E)
(T (W x18 x00 x00 x00 x10 x00 x00 x00)
(L (W x00 x00 x80 xbf x00 x00 x80 xbf)) E))))
(T (W x00 x00 x80 x3f x00 x00 x80 x3f)
(T (W x00 x00 x00 x00 x00 x00 x00 x00)
(T (W x00 x00 x80 x3f x00 x00 x80 x3f)
(T (W xff xff xff xff xff xff xff xff)
(L (W x45 x26 x22 x84 xe4 x9c xf2 xcb))
(L (W x00 x00 x80 xbf x00 x00 x80 xbf)))
(T (W x00 x00 x80 x3f x00 x00 x80 x3f)
(L (W xff xff xff xff xff xff xff xff)) E))
(T (W x68 x00 x00 x00 x5c x00 x00 x00)
(T (W xff xff xff xff xff xff xff xff)
(L (W x18 x00 x00 x00 x0c x00 x00 x00)) E)
(T (W x00 x00 x00 x00 x00 x00 x00 x00)
(L (W x00 x00 x00 x00 x00 x00 x00 x00)) E)))
(T (W xff xff xff xff xff xff xff xff)
(T (W x00 x00 x00 x00 x00 x00 x00 x00)
(T (W x00 x00 x00 x00 x00 x00 x00 x00)
(L (W x29 x00 x00 x00 xff xff xff xff))
(L (W xff xff xff xff xff xff xff xff)))
(T (W x00 x00 x00 x00 x00 x00 x00 x00)
(L (W xff xff xff xff xff xff xff xff)) E))
(T (W xff xff xff xff xff xff xff xff)
(T (W x00 x00 x80 x3f x00 x00 x80 x3f)
(L (W x00 x00 x80 xbf x00 x00 x80 xbf)) E)
(T (W x00 x00 x80 xbf x00 x00 x80 xbf)
(L (W xff xff xff xff xff xff xff xff)) E))))))
(T (W x00 x00 x00 x00 x00 x00 x00 x00)
(T (W x00 x00 x00 x00 x00 x00 x00 x00)
(T (W x6c x00 x00 x00 x60 x00 x00 x00)
(T (W x00 x00 x80 x3f x00 x00 x80 x3f)
(T (W xff xff xff xff xff xff xff xff)
(T (W x00 x00 x80 x3f x00 x00 x80 x3f)
(L (W x38 x08 x00 x00 x0c x07 x00 x00))
(L (W x00 x00 x00 x00 x00 x00 x00 x00)))
(T (W x00 x00 x00 x00 x00 x00 x00 x00)
(L (W xc4 x00 x00 x00 x02 x00 x00 x00)) E))
(T (W x00 x00 x00 x00 xfa x00 xfb xff)
(T (W x00 x00 x80 x3f x00 x00 x80 x3f)
(L (W x45 x26 x22 x84 xe4 x9c xf2 xcb))
(L (W x28 x00 x2c x00 x30 x00 x34 x00)))
(T (W x00 x00 x80 xbf x00 x00 x80 xbf)
(L (W xff xff xff xff xff xff xff xff)) E)))
(T (W x00 x00 x00 x00 x00 x00 x00 x00)
(T (W x00 x00 x00 x00 x00 x00 x00 x00)
(T (W x45 x26 x22 x84 xe4 x9c xf2 xcb)
(L (W x00 x00 x80 xbf x00 x00 x80 xbf))
(L (W x6c x00 x00 x00 x60 x00 x00 x00)))
(T (W x00 x00 x00 x00 x00 x00 x00 x00)
(L (W x00 x00 x00 x00 x00 x00 x00 x00)) E))
(T (W x4f x84 x6f x8b xe8 xcb x63 xb7)
(T (W x00 x00 x80 x3f x00 x00 x80 x3f)
(L (W x00 x00 x00 x00 x00 x00 x00 x00)) E)
(T (W x19 x00 x00 x00 x1c x00 x00 x00)
(L (W x54 x00 x00 x00 x48 x00 x00 x00)) E))))
(T (W x00 x00 x80 x3f x00 x00 x80 x3f)
(T (W x00 x00 x00 x00 x00 x00 x00 x00)
(T (W x00 x00 x80 x3f x00 x00 x80 x3f)
(T (W x00 x00 x80 x3f x00 x00 x80 x3f)
(L (W xff xff xff xff xff xff xff xff))
(L (W x00 x00 x00 x00 x00 x00 x00 x00)))
(T (W x45 x26 x22 x84 xe4 x9c xf2 xcb)
(L (W x94 x04 x00 x00 x80 x03 x00 x00)) E))
(T (W x00 x00 x80 x3f x00 x00 x80 x3f)
(T (W xff xff xff xff xff xff xff xff)
(L (W x45 x26 x22 x84 xe4 x9c xf2 xcb)) E)
(T (W xc7 x01 x00 x00 xff xff xff xff)
(L (W x00 x00 x00 x00 x00 x00 x00 x00)) E)))
(T (W xff xff xff xff xff xff xff xff)
(T (W x00 x00 x00 x00 x00 x00 x00 x00)
(T (W x00 x00 x00 x00 x00 x00 x00 x00)
(L (W x18 x00 x00 x00 x0c x00 x00 x00))
(L (W xff xff xff xff xff xff xff xff)))
(T (W x00 x00 x80 x3f x00 x00 x80 x3f)
(L (W x18 x00 x00 x00 x10 x00 x00 x00)) E))
(T (W x1a x60 xfb xff x74 x00 x00 x00)
(T (W xff xff xff xff x03 x00 x00 x00)
(L (W x00 x00 x80 xbf x00 x00 x80 xbf)) E)
(T (W x00 x00 x00 x00 x00 x00 x00 x00)
(L (W xc4 x00 x00 x00 x02 x00 x00 x00)) E)))))
(T (W x00 x00 x80 x3f x00 x00 x80 x3f)
(T (W x64 x00 x00 x00 xa0 x00 x00 x00)
(T (W xff xff xff xff xff xff xff xff)
(T (W x64 x00 x00 x00 x9c x00 x00 x00)
(T (W xff xff xff xff xff xff xff xff)
(L (W x00 x00 x00 x00 x00 x00 x00 x00))
(L (W x00 x00 x80 xbf x00 x00 x80 xbf)))
(T (W x82 xa4 xff xff x00 x00 x01 x01)
(L (W xff xff xff xff xff xff xff xff)) E))
(T (W x18 x00 x00 x00 x0c x00 x00 x00)
(T (W xff xff xff xff xff xff xff xff)
(L (W x45 x26 x22 x84 xe4 x9c xf2 xcb)) E)
(T (W xff xff xff xff xff xff xff xff)
(L (W x00 x00 x00 x00 x12 x00 x00 x00)) E)))
(T (W x84 x01 x00 x00 xff xff xff xff)
(T (W x40 x00 x00 x00 x0c x00 x00 x00)
(T (W xff xff xff xff xff xff xff xff)
(L (W x54 x00 x00 x00 x48 x00 x00 x00))
(L (W xff xff xff xff xff xff xff xff)))
(T (W xff xff xff xff xff xff xff xff)
(L (W x00 x00 x80 xbf x00 x00 x80 xbf)) E))
(T (W xff xff xff xff xff xff xff xff)
(T (W xca x51 xfc xff x78 x00 x00 x00)
(L (W x30 x32 x5f x43 x4c x45 x41 x52)) E)
(T (W x04 x00 x00 x00 xda x58 xfd xff)
(L (W xcc x00 x00 x00 x01 x00 x00 x00)) E))))
(T (W x1a xf0 xf9 xff x74 x00 x00 x00)
(T (W x00 x00 x00 x00 x00 x00 x00 x00)
(T (W x00 x00 x00 x00 x00 x00 x00 x00)
(T (W x45 x44 x00 x00 x00 x00 x00 x00)
(L (W xff xff xff xff xff xff xff xff))
(L (W x00 x00 x80 xbf x00 x00 x80 xbf)))
(T (W x45 x26 x22 x84 xe4 x9c xf2 xcb)
(L (W x06 x00 x00 x00 xd8 x05 x00 x00)) E))
(T (W xff xff xff xff x9c x00 x00 x00)
(T (W x46 x53 x59 x53 x5f x4e x53 x5f)
(L (W xff xff xff xff xff xff xff xff)) E)
(T (W x00 x00 x00 x00 x00 x00 x00 x00)
(L (W x00 x00 x00 x00 x12 x00 x00 x00)) E)))
(T (W xd9 x00 x00 x00 xff xff xff xff)
(T (W x45 x26 x22 x84 xe4 x9c xf2 xcb)
(T (W x00 x00 x00 x00 x00 x00 x00 x00)
(L (W x00 x00 x00 x00 x00 x00 x00 x00))
(L (W x00 x00 x00 x00 x00 x00 x00 x00)))
(T (W x00 x00 x00 x00 x5c xf3 xfc xff)
(L (W xff xff xff xff xff xff xff xff)) E))
(T (W x00 x00 x00 x00 x00 x00 x00 x00)
(T (W x00 x00 x00 x00 x00 x00 x00 x00)
(L (W xec x74 xfe xff x00 x01 x01 x01)) E)
(T (W x7c x00 x08 x00 x70 x00 x0c x00)
(L (W xff xff xff xff xff xff xff xff)) E)))))))
(T (W x00 x00 x00 x00 x0a x22 xfd xff)
(T (W xbc x00 x00 x00 xb0 x00 x00 x00)
(T (W xff xff xff xff xff xff xff xff)
(T (W x00 x00 x00 x00 x00 x00 x00 x00)
(T (W x00 x00 x00 x00 x00 x00 x00 x00)
(T (W x45 x26 x22 x84 xe4 x9c xf2 xcb)
(T (W xff xff xff xff xff xff xff xff)
(L (W xff xff xff xff xff xff xff xff))
(L (W x45 x26 x22 x84 xe4 x9c xf2 xcb)))
(T (W xff xff xff xff xff xff xff xff)
(L (W x4f x84 x6f x8b xe8 xcb x63 xb7)) E))
(T (W x00 x00 x80 x3f x00 x00 x80 x3f)
(T (W x7a x06 xff xff x00 x00 x01 x01)
(L (W x45 x26 x22 x84 xe4 x9c xf2 xcb))
(L (W x38 x00 x3c x00 x40 x00 x44 x00)))
(T (W x00 x00 x80 xbf x00 x00 x80 xbf)
(L (W x00 x00 x00 x00 x00 x00 x00 x00)) E)))
(T (W xec x40 xfa xff x00 x01 x01 x01)
(T (W xb8 x00 x00 x00 xac x00 x00 x00)
(T (W x00 x00 x00 x00 x00 x00 x00 x00)
(L (W x00 x00 x80 xbf x00 x00 x80 xbf))
(L (W x45 x44 x00 x00 x00 x00 x00 x00)))
(T (W xb8 x00 x00 x00 xac x00 x00 x00)
(L (W x03 x00 x00 x00 xd0 x00 x00 x00)) E))
(T (W x50 x00 x00 x00 x44 x00 x00 x00)
(T (W xff xff xff xff xff xff xff xff)
(L (W x00 x00 x80 xbf x00 x00 x80 xbf)) E)
(T (W x00 x00 x00 x00 x00 x00 x00 x00)
(L (W xff xff xff xff xff xff xff xff)) E))))
(T (W x04 x00 x00 x00 x0a xca xfe xff)
(T (W x68 x00 x00 x00 x5c x00 x00 x00)
(T (W xff xff xff xff xff xff xff xff)
(T (W xff xff xff xff xff xff xff xff)
(L (W xff xff xff xff xff xff xff xff))
(L (W x00 x00 x00 x00 xd2 xfd xff xff)))
(T (W xff xff xff xff xff xff xff xff)
(L (W x00 x00 x80 xbf x00 x00 x80 xbf)) E))
(T (W xcc x00 x00 x00 xc0 x00 x00 x00)
(T (W x00 x00 x80 x3f x00 x00 x80 x3f)
(L (W x00 x00 x00 x00 x00 x00 x00 x00)) E)
(T (W x74 x00 x00 x00 x68 x00 x00 x00)
(L (W x00 x00 x00 x00 x5c x1f xff xff)) E)))
(T (W x54 x00 x00 x00 x48 x00 x00 x00)
(T (W x45 x26 x22 x84 xe4 x9c xf2 xcb)
(T (W xca xdd xfb xff x78 x00 x00 x00)
(L (W x00 x00 x00 x00 x00 x00 x00 x00))
(L (W x4f x84 x6f x8b xe8 xcb x63 xb7)))
(T (W x45 x26 x22 x84 xe4 x9c xf2 xcb)
(L (W x00 x00 x01 x01 x9f x01 x00 x00)) E))
(T (W xff xff xff xff xff xff xff xff)
(T (W x00 x00 x00 x00 x00 x00 x00 x00)
(L (W xff xff xff xff xff xff xff xff)) E)
(T (W x18 x00 x00 x00 x0c x00 x00 x00)
(L (W x00 x00 x00 x00 x00 x00 x00 x00)) E)))))
(T (W x00 x00 x00 x00 x00 x00 x00 x00)
(T (W x00 x00 x80 x3f x00 x00 x80 x3f)
(T (W xff xff xff xff xff xff xff xff)
(T (W x00 x00 x80 x3f x00 x00 x80 x3f)
(T (W x00 x00 x00 x00 x00 x00 x00 x00)
(L (W x03 x00 x00 x00 xcc x00 x00 x00))
(L (W xff xff xff xff xff xff xff xff)))
(T (W x68 x00 x00 x00 x5c x00 x00 x00)
(L (W x00 x00 x80 xbf x00 x00 x80 xbf)) E))
(T (W xff xff xff xff xff xff xff xff)
(T (W x00 x00 x00 x00 x00 x00 x00 x00)
(L (W xff xff xff xff xff xff xff xff)) E)
(T (W x58 x00 x07 x00 x5c x00 x00 x00)
(L (W x00 x00 x80 xbf x00 x00 x80 xbf)) E)))
(T (W x18 x00 x00 x00 x0c x00 x00 x00)
(T (W xff xff xff xff x03 x00 x00 x00)
(T (W x00 x00 x00 x00 x00 x00 x00 x00)
(L (W xff xff xff xff xff xff xff xff))
(L (W x00 x00 x00 x00 x00 x00 x00 x00)))
(T (W x00 x00 x00 x00 x00 x00 x00 x00)
(L (W xff xff xff xff xff xff xff xff)) E))
(T (W x00 x00 x80 x3f x00 x00 x80 x3f)
(T (W x00 x00 x00 x00 x00 x00 x00 x00)
(L (W x18 x00 x00 x00 x10 x00 x00 x00)) E)
(T (W x00 x00 x00 x00 x00 x00 x00 x00)
(L (W x30 x32 x5f x43 x4c x45 x41 x52)) E))))
(T (W x19 xdb xd8 x75 xef xf2 x20 x1a)
(T (W x18 x00 x00 x00 x10 x00 x00 x00)
(T (W xff xff xff xff x04 x00 x00 x00)
(T (W x00 x00 x80 x3f x00 x00 x80 x3f)
(L (W x68 x00 x00 x00 x5c x00 x00 x00))
(L (W xff xff xff xff xff xff xff xff)))
(T (W xff xff xff xff xff xff xff xff)
(L (W x6c x00 x00 x00 x60 x00 x00 x00)) E))
(T (W x00 x00 x00 x00 x00 x00 x00 x00)
(T (W x18 x00 x00 x00 x10 x00 x00 x00)
(L (W x00 x00 x80 xbf x00 x00 x80 xbf)) E)
(T (W x18 x00 x00 x00 x10 x00 x00 x00)
(L (W xb4 x00 x00 x00 x46 x00 x00 x00)) E)))
(T (W x45 x26 x22 x84 xe4 x9c xf2 xcb)
(T (W x00 x00 x80 x3f x00 x00 x80 x3f)
(T (W xff xff xff xff xff xff xff xff)
(L (W x00 x00 x80 xbf x00 x00 x80 xbf))
(L (W x00 x00 x80 xbf x00 x00 x80 xbf)))
(T (W xff xff xff xff xff xff xff xff)
(L (W x45 x26 x22 x84 xe4 x9c xf2 xcb)) E))
(T (W x00 x00 x00 x00 x00 x00 x00 x00)
(T (W xff xff xff xff xff xff xff xff)
(L (W x46 x53 x59 x53 x5f x4e x53 x5f)) E)
(T (W xff xff xff xff xff xff xff xff)
(L (W x00 x00 x80 xbf x00 x00 x80 xbf)) E))))))
(T (W x00 x00 x80 x3f x00 x00 x80 x3f)
(T (W x54 x00 x00 x00 x48 x00 x00 x00)
(T (W xff xff xff xff xff xff xff xff)
(T (W x48 x03 x00 x00 x34 x02 x00 x00)
(T (W x45 x26 x22 x84 xe4 x9c xf2 xcb)
(T (W xc3 x56 x8d x38 x56 xff x72 x92)
(L (W x18 x00 x00 x00 x0c x00 x00 x00))
(L (W xbc x00 x00 x00 x1e x00 x00 x00)))
(T (W x1a x84 xfc xff x74 x00 x00 x00)
(L (W x45 x26 x22 x84 xe4 x9c xf2 xcb)) E))
(T (W xff xff xff xff xff xff xff xff)
(T (W x00 x00 x00 x00 xfa x04 xfc xff)
(L (W xff xff xff xff xc8 x00 x00 x00)) E)
(T (W x45 x26 x22 x84 xe4 x9c xf2 xcb)
(L (W x49 xa1 x68 x4a xeb x5f xdd x3d)) E)))
(T (W x45 x26 x22 x84 xe4 x9c xf2 xcb)
(T (W xc0 x00 x00 x00 xb4 x00 x00 x00)
(T (W x00 x00 x00 x00 x00 x00 x00 x00)
(L (W xff xff xff xff xff xff xff xff))
(L (W x00 x00 x00 x00 x00 x00 x00 x00)))
(T (W x48 x00 x4c x00 x50 x00 x54 x00)
(L (W xff xff xff xff xbc x00 x00 x00)) E))
(T (W xff xff xff xff xff xff xff xff)
(T (W x34 x01 x00 x00 x04 x00 x00 x00)
(L (W x00 x00 x80 xbf x00 x00 x80 xbf)) E)
(T (W x00 x00 x00 x00 x00 x00 x00 x00)
(L (W x00 x00 x01 x01 x92 x01 x00 x00)) E))))
(T (W xe2 x50 xff xff xc1 x02 x00 x00)
(T (W xff xff xff xff xff xff xff xff)
(T (W xff xff xff xff xff xff xff xff)
(T (W x00 x00 x00 x00 x00 x00 x00 x00)
(L (W x00 x00 x00 x00 x00 x00 x00 x00))
(L (W x01 x01 x2a x00 x58 x00 x44 x00)))
(T (W xff xff xff xff xff xff xff xff)
(L (W x6c x00 x00 x00 x60 x00 x00 x00)) E))
(T (W xff xff xff xff xff xff xff xff)
(T (W x54 x00 x00 x00 x48 x00 x00 x00)
(L (W x00 x00 x00 x00 x00 x00 x00 x00)) E)
(T (W xca x25 xfd xff x78 x00 x00 x00)
(L (W x45 x26 x22 x84 xe4 x9c xf2 xcb)) E)))
(T (W x00 x00 x80 x3f x00 x00 x80 x3f)
(T (W x50 x00 x00 x00 x44 x00 x00 x00)
(T (W xff xff xff xff x9c x00 x00 x00)
(L (W x1a x00 x00 x00 x67 x72 x6f x75))
(L (W x00 x00 x80 xbf x00 x00 x80 xbf)))
(T (W x50 x00 x00 x00 x44 x00 x00 x00)
(L (W x46 x53 x59 x53 x5f x4e x53 x5f)) E))
(T (W x45 x44 x00 x00 x00 x00 x00 x00)
(T (W xff xff xff xff xff xff xff xff)
(L (W x00 x00 x01 x01 x29 x00 x00 x00)) E)
(T (W xff xff xff xff xff xff xff xff)
(L (W x00 x00 x80 xbf x00 x00 x80 xbf)) E)))))
(T (W x18 x00 x00 x00 x10 x00 x00 x00)
(T (W xc9 x00 x00 x00 xff xff xff xff)
(T (W x00 x00 x00 x00 x00 x00 x00 x00)
(T (W x68 x00 x00 x00 x5c x00 x00 x00)
(T (W x00 x00 x80 x3f x00 x00 x80 x3f)
(L (W xff xff xff xff xff xff xff xff))
(L (W x00 x00 x00 x00 x4a x9b xff xff)))
(T (W x00 x00 x80 x3f x00 x00 x80 x3f)
(L (W x00 x00 x80 xbf x00 x00 x80 xbf)) E))
(T (W x00 x00 x00 x00 x5c x17 xfb xff)
(T (W x46 x53 x59 x53 x5f x4e x53 x5f)
(L (W x00 x00 x00 x00 x4a x1b xfe xff)) E)
(T (W xff xff xff xff xff xff xff xff)
(L (W x18 x00 x00 x00 x0c x00 x00 x00)) E)))
(T (W x00 x00 x80 x3f x00 x00 x80 x3f)
(T (W x00 x00 x00 x00 x5c xd7 xfa xff)
(T (W x45 x26 x22 x84 xe4 x9c xf2 xcb)
(L (W x00 x00 x01 x01 x2e x00 x00 x00))
(L (W x00 x00 x00 x00 x00 x00 x00 x00)))
(T (W x54 x00 x00 x00 x48 x00 x00 x00)
(L (W xff xff xff xff xff xff xff xff)) E))
(T (W x45 x26 x22 x84 xe4 x9c xf2 xcb)
(T (W x00 x00 x00 x00 x00 x00 x00 x00)
(L (W x03 x00 x00 x00 xd8 x00 x00 x00)) E)
(T (W x00 x00 x80 xbf x00 x00 x80 xbf)
(L (W x00 x00 x00 x00 x00 x00 x00 x00)) E))))
(T (W x18 x01 x00 x00 x04 x00 x00 x00)
(T (W x68 x00 x00 x00 x5c x00 x00 x00)
(T (W x18 x00 x00 x00 x10 x00 x00 x00)
(T (W xff xff xff xff x03 x00 x00 x00)
(L (W x82 xf7 xff xff xc9 x00 x00 x00))
(L (W x04 x00 x00 x00 xba xb6 xff xff)))
(T (W xff xff xff xff xff xff xff xff)
(L (W x45 x26 x22 x84 xe4 x9c xf2 xcb)) E))
(T (W x00 x00 x80 x3f x00 x00 x80 x3f)
(T (W xff xff xff xff xff xff xff xff)
(L (W x00 x00 x80 xbf x00 x00 x80 xbf)) E)
(T (W xff xff xff xff xff xff xff xff)
(L (W xff xff xff xff xff xff xff xff)) E)))
(T (W x00 x00 x00 x00 x00 x00 x00 x00)
(T (W x64 x00 x00 x00 x9c x00 x00 x00)
(T (W xff xff xff xff xff xff xff xff)
(L (W x00 x00 x00 x00 x5c xf7 xfd xff))
(L (W x45 x26 x22 x84 xe4 x9c xf2 xcb)))
(T (W x00 x00 x00 x00 x00 x00 x00 x00)
(L (W x00 x00 x80 xbf x00 x00 x80 xbf)) E))
(T (W x01 x00 x00 x00 x19 x00 x00 x00)
(T (W xff xff xff xff xff xff xff xff)
(L (W x00 x00 x00 x00 x00 x00 x00 x00)) E)
(T (W xff xff xff xff xff xff xff xff)
(L (W x00 x00 x80 xbf x00 x00 x80 xbf)) E))))))))))
(T (W x78 x91 x03 x00 x3c x90 x03 x00)
(T (W x30 xe1 x02 x00 x34 xda x02 x00)
(T (W x00 x05 x01 x00 xcc x03 x01 x00)
(T (W xff xff xff xff x19 x00 x00 x00)
(T (W x18 x00 x00 x00 x0c x00 x00 x00)
(T (W x00 x00 x00 x00 x8a x33 xfd xff)
(T (W x45 x26 x22 x84 xe4 x9c xf2 xcb)
(T (W x00 x00 x00 x00 xdc xf8 xf9 xff)
(T (W x01 x00 x00 x00 x04 x00 x00 x00)
(T (W x00 x00 x80 x3f x00 x00 x80 x3f)
(L (W x00 x00 x80 xbf x00 x00 x80 xbf))
(L (W x00 x00 x00 x00 x00 x00 x00 x00)))
(T (W x68 x00 x00 x00 x5c x00 x00 x00)
(L (W xff xff xff xff xff xff xff xff)) E))
(T (W x00 x00 x80 x3f x00 x00 x80 x3f)
(T (W x6c x00 x00 x00 x60 x00 x00 x00)
(L (W x00 x00 x00 x00 x00 x00 x00 x00))
(L (W x00 x00 x00 x00 x00 x00 x00 x00)))
(T (W x76 x32 x00 x00 x00 x00 x62 x00)
(L (W x00 x00 x00 x00 x3a xf8 xfe xff)) E)))
(T (W x00 x00 x00 x00 x00 x00 x00 x00)
(T (W x00 x00 x80 x3f x00 x00 x80 x3f)
(T (W x00 x00 x80 x3f x00 x00 x80 x3f)
(L (W x00 x00 x00 x00 xdc xb8 xfd xff))
(L (W xff xff xff xff xa0 x00 x00 x00)))
(T (W x00 x00 x80 x3f x00 x00 x80 x3f)
(L (W x4f x84 x6f x8b xe8 xcb x63 xb7)) E))
(T (W x00 x00 x00 x00 x00 x00 x00 x00)
(T (W x00 x00 x80 x3f x00 x00 x80 x3f)
(L (W x00 x00 x00 x00 x3a x38 xfe xff)) E)
(T (W x68 x00 x00 x00 x5c x00 x00 x00)
(L (W x00 x00 x80 xbf x00 x00 x80 xbf)) E))))
(T (W x9a xd5 xf9 xff x74 x00 x00 x00)
(T (W xff xff xff xff xff xff xff xff)
(T (W x00 x00 x80 x3f x00 x00 x80 x3f)
(T (W x00 x00 x00 x00 x00 x00 x00 x00)
(L (W x50 x00 x00 x00 x44 x00 x00 x00))
(L (W x18 x00 x00 x00 x0c x00 x00 x00)))
(T (W x00 x00 x00 x00 x00 x00 x00 x00)
(L (W x00 x00 x00 x00 x12 x00 x00 x00)) E))
(T (W x00 x00 x00 x00 x00 x00 x00 x00)
(T (W x34 x01 x00 x00 x04 x00 x00 x00)
(L (W xff xff xff xff xb0 x00 x00 x00)) E)
(T (W xf4 xfb xff xff x01 x01 x01 x01)
(L (W x00 x00 x80 xbf x00 x00 x80 xbf)) E)))
(T (W x45 x26 x22 x84 xe4 x9c xf2 xcb)
(T (W x00 x00 x80 x3f x00 x00 x80 x3f)
(T (W x00 x00 x00 x00 x00 x00 x00 x00)
(L (W x18 x00 x00 x00 x10 x00 x00 x00))
(L (W xff xff xff xff xff xff xff xff)))
(T (W x00 x00 x00 x00 x00 x00 x00 x00)
(L (W x45 x26 x22 x84 xe4 x9c xf2 xcb)) E))
(T (W x00 x00 x80 x3f x00 x00 x80 x3f)
(T (W xff xff xff xff xff xff xff xff)
(L (W x00 x00 x80 xbf x00 x00 x80 xbf)) E)
(T (W x4f x84 x6f x8b xe8 xcb x63 xb7)
(L (W xff xff xff xff xff xff xff xff)) E)))))
(T (W x00 x00 x00 x00 x00 x00 x00 x00)
(T (W x00 x00 x80 x3f x00 x00 x80 x3f)
(T (W x40 x00 x00 x00 x9c x00 x00 x00)
(T (W xff xff xff xff xff xff xff xff)
(T (W xff xff xff xff xff xff xff xff)
(L (W x00 x00 x80 xbf x00 x00 x80 xbf))
(L (W x00 x00 x80 xbf x00 x00 x80 xbf)))
(T (W x45 x26 x22 x84 xe4 x9c xf2 xcb)
(L (W x2f x00 x00 x00 xff xff xff xff)) E))
(T (W x6c x00 x00 x00 x60 x00 x00 x00)
(T (W xff xff xff xff x03 x00 x00 x00)
(L (W x00 x00 x80 xbf x00 x00 x80 xbf)) E)
(T (W x00 x00 x00 x00 x00 x00 x00 x00)
(L (W xa0 x81 xa7 x28 xbf x47 x53 x6a)) E)))
(T (W x00 x00 x00 x00 x00 x00 x00 x00)
(T (W x00 x00 x80 x3f x00 x00 x80 x3f)
(T (W xff xff xff xff xff xff xff xff)
(L (W x00 x00 x00 x00 xdc xc8 xfd xff))
(L (W xff xff xff xff xff xff xff xff)))
(T (W x68 x00 x00 x00 x00 x00 x62 x00)
(L (W x6c xca xfe xff x00 x01 x01 x01)) E))
(T (W x00 x00 x00 x00 xdc x48 xfb xff)
(T (W xb8 x00 x00 x00 x28 x00 x00 x00)
(L (W x00 x00 x00 x00 x00 x00 x00 x00)) E)
(T (W xff xff xff xff xff xff xff xff)
(L (W x13 x00 x00 x00 x16 x00 x00 x00)) E))))
(T (W xff xff xff xff xff xff xff xff)
(T (W x00 x00 x80 x3f x00 x00 x80 x3f)
(T (W x4a xa7 xfa xff x78 x00 x00 x00)
(T (W xff xff xff xff xff xff xff xff)
(L (W x18 x00 x00 x00 x10 x00 x00 x00))
(L (W x58 x00 x00 x00 x4c x00 x00 x00)))
(T (W x50 x00 x00 x00 x44 x00 x00 x00)
(L (W x00 x00 x00 x00 x00 x00 x00 x00)) E))
(T (W x18 x00 x00 x00 x0c x00 x00 x00)
(T (W x00 x00 x00 x00 x00 x00 x00 x00)
(L (W xff xff xff xff xff xff xff xff)) E)
(T (W x00 x00 x00 x00 x00 x00 x00 x00)
(L (W x45 x26 x22 x84 xe4 x9c xf2 xcb)) E)))
(T (W x00 x00 x00 x00 x00 x00 x00 x00)
(T (W x00 x00 x00 x00 x00 x00 x00 x00)
(T (W x4f x84 x6f x8b xe8 xcb x63 xb7)
(L (W x00 x00 x00 x00 x12 x00 x00 x00))
(L (W x00 x00 x00 x00 x00 x00 x00 x00)))
(T (W x49 xa1 x68 x4a xeb x5f xdd x3d)
(L (W xff xff xff xff xff xff xff xff)) E))
(T (W xff xff xff xff xff xff xff xff)
(T (W x9a x65 xfc xff x74 x00 x00 x00)
(L (W x18 x00 x00 x00 x10 x00 x00 x00)) E)
(T (W x54 x00 x00 x00 x48 x00 x00 x00)
(L (W x00 x00 x00 x00 x00 x00 x00 x00)) E))))))
(T (W x00 x00 x80 x3f x00 x00 x80 x3f)
(T (W x6c x00 x00 x00 x60 x00 x00 x00)
(T (W xff xff xff xff xff xff xff xff)
(T (W x18 x00 x00 x00 x0c x00 x00 x00)
(T (W xff xff xff xff xff xff xff xff)
(T (W x1c x00 x00 x00 xb0 x00 x00 x00)
(L (W x00 x00 x80 xbf x00 x00 x80 xbf))
(L (W x45 x26 x22 x84 xe4 x9c xf2 xcb)))
(T (W x00 x00 x80 x3f x00 x00 x80 x3f)
(L (W xff xff xff xff xff xff xff xff)) E))
(T (W x5f x4e x53 x5f x30 x32 x5f x43)
(T (W x1b x00 x00 x00 x1e x00 x00 x00)
(L (W x45 x26 x22 x84 xe4 x9c xf2 xcb))
(L (W x4c x00 x50 x00 x54 x00 x00 x00)))
(T (W x45 x26 x22 x84 xe4 x9c xf2 xcb)
(L (W x00 x00 x00 x00 x00 x00 x00 x00)) E)))
(T (W x00 x00 x00 x00 x00 x00 x00 x00)
(T (W x45 x26 x22 x84 xe4 x9c xf2 xcb)
(T (W xff xff xff xff xff xff xff xff)
(L (W x00 x00 x80 xbf x00 x00 x80 xbf))
(L (W xcc x00 x00 x00 x01 x00 x00 x00)))
(T (W x45 x26 x22 x84 xe4 x9c xf2 xcb)
(L (W x00 x00 x80 xbf x00 x00 x80 xbf)) E))
(T (W x00 x00 x00 x00 x00 x00 x00 x00)
(T (W x4a x3f xfc xff x78 x00 x00 x00)
(L (W x00 x00 x00 x00 x00 x00 x00 x00)) E)
(T (W xff xff xff xff xff xff xff xff)
(L (W x54 x00 x00 x00 x48 x00 x00 x00)) E))))
(T (W x40 x00 x00 x00 xa0 x00 x00 x00)
(T (W x00 x00 x80 x3f x00 x00 x80 x3f)
(T (W x68 x00 x00 x00 x5c x00 x00 x00)
(T (W x00 x00 x80 x3f x00 x00 x80 x3f)
(L (W x6c xa2 xfd xff x00 x01 x01 x01))
(L (W xff xff xff xff x98 x00 x00 x00)))
(T (W x00 x00 x80 x3f x00 x00 x80 x3f)
(L (W x00 x00 x00 x00 x00 x00 x00 x00)) E))
(T (W x00 x00 x80 x3f x00 x00 x80 x3f)
(T (W x00 x00 x00 x00 x00 x00 x00 x00)
(L (W xff xff xff xff xff xff xff xff)) E)
(T (W x00 x00 x00 x00 x12 x00 x00 x00)
(L (W x00 x00 x80 xbf x00 x00 x80 xbf)) E)))
(T (W x00 x00 x00 x00 x00 x00 x00 x00)
(T (W x00 x00 x00 x00 x00 x00 x00 x00)
(T (W x00 x00 x00 x00 x00 x00 x00 x00)
(L (W xff xff xff xff xff xff xff xff))
(L (W xff xff xff xff xff xff xff xff)))
(T (W x00 x00 x00 x00 x00 x00 x00 x00)
(L (W x18 x00 x00 x00 x10 x00 x00 x00)) E))
(T (W x00 x00 x00 x00 xdc x60 xfb xff)
(T (W x54 x01 x00 x00 xff xff xff xff)
(L (W x4a x5f xfe xff x78 x00 x00 x00)) E)
(T (W x45 x26 x22 x84 xe4 x9c xf2 xcb)
(L (W xff xff xff xff xff xff xff xff)) E)))))
(T (W x64 x00 x00 x00 xa0 x00 x00 x00)
(T (W x00 x00 x00 x00 x12 x6a xfd xff)
(T (W xff xff xff xff xff xff xff xff)
(T (W xff xff xff xff xff xff xff xff)
(T (W x61 x72 x6c x69 x6b x65 x5f x6c)
(L (W x00 x00 x80 xbf x00 x00 x80 xbf))
(L (W x00 x00 x00 x00 xdc x90 xff xff)))
(T (W x00 x00 x00 x00 x00 x00 x00 x00)
(L (W x00 x00 x00 x00 x00 x00 x00 x00)) E))
(T (W x6c x12 xfb xff x00 x01 x01 x01)
(T (W xff xff xff xff xff xff xff xff)
(L (W x4a x0f xfe xff x78 x00 x00 x00)) E)
(T (W xff xff xff xff xff xff xff xff)
(L (W x30 x32 x5f x43 x4c x45 x41 x52)) E)))
(T (W x00 x00 x00 x00 x00 x00 x00 x00)
(T (W x00 x00 x80 x3f x00 x00 x80 x3f)
(T (W xb4 x05 x00 x00 x84 x04 x00 x00)
(L (W x1b x00 x00 x00 x1e x00 x00 x00))
(L (W xff xff xff xff xff xff xff xff)))
(T (W xff xff xff xff xff xff xff xff)
(L (W xff xff xff xff xb0 x00 x00 x00)) E))
(T (W x70 x5f x6c x65 x61 x64 x65 x72)
(T (W xff xff xff xff xff xff xff xff)
(L (W x49 xa1 x68 x4a xeb x5f xdd x3d)) E)
(T (W xf4 x5f xfd xff x11 x00 x00 x00)
(L (W xff xff xff xff xff xff xff xff)) E))))
(T (W x64 x00 x00 x00 x9c x00 x00 x00)
(T (W x00 x00 x80 x3f x00 x00 x80 x3f)
(T (W x00 x00 x80 x3f x00 x00 x80 x3f)
(T (W x12 x00 x00 x00 x46 x53 x59 x53)
(L (W x00 x00 x00 x00 x00 x00 x00 x00))
(L (W x19 x00 x00 x00 x1c x00 x00 x00)))
(T (W x50 x00 x00 x00 x44 x00 x00 x00)
(L (W x00 x00 x00 x00 x00 x00 x00 x00)) E))
(T (W xff xff xff xff xff xff xff xff)
(T (W x00 x00 x00 x00 x00 x00 x00 x00)
(L (W x00 x00 x00 x00 x7a x2e xfe xff)) E)
(T (W x00 x00 x80 xbf x00 x00 x80 xbf)
(L (W x00 x00 x80 xbf x00 x00 x80 xbf)) E)))
(T (W x9c x76 xfa xff x3c x00 x00 x00)
(T (W x00 x00 x00 x00 x00 x00 x00 x00)
(T (W x00 x00 x80 x3f x00 x00 x80 x3f)
(L (W x00 x00 x00 x00 x00 x00 x00 x00))
(L (W x00 x00 x00 x00 x00 x00 x00 x00)))
(T (W xff xff xff xff xff xff xff xff)
(L (W x3b x01 x00 x00 xff xff xff xff)) E))
(T (W x00 x00 x00 x00 x12 x00 x00 x00)
(T (W x00 x00 x80 x3f x00 x00 x80 x3f)
(L (W xff xff xff xff xff xff xff xff)) E)
(T (W x45 x26 x22 x84 xe4 x9c xf2 xcb)
(L (W x00 x00 x00 x00 x00 x00 x00 x00)) E)))))))
(T (W x45 x26 x22 x84 xe4 x9c xf2 xcb)
(T (W x00 x00 x01 x01 xc9 x00 x00 x00)
(T (W x00 x00 x80 x3f x00 x00 x80 x3f)
(T (W x4a xbb xf9 xff x78 x00 x00 x00)
(T (W x00 x00 x00 x00 x00 x00 x00 x00)
(T (W x45 x26 x22 x84 xe4 x9c xf2 xcb)
(T (W xff xff xff xff xff xff xff xff)
(L (W xff xff xff xff xff xff xff xff))
(L (W xff xff xff xff xb0 x00 x00 x00)))
(T (W x02 x8e xff xff x00 x00 x01 x01)
(L (W x00 x00 x80 xbf x00 x00 x80 xbf)) E))
(T (W x00 x00 x80 x3f x00 x00 x80 x3f)
(T (W x00 x00 x00 x00 x00 x00 x00 x00)
(L (W xff xff xff xff xff xff xff xff))
(L (W x18 x00 x00 x00 x10 x00 x00 x00)))
(T (W x00 x00 x00 x00 x00 x00 x00 x00)
(L (W x00 x00 x80 xbf x00 x00 x80 xbf)) E)))
(T (W xff xff xff xff xff xff xff xff)
(T (W x20 x01 x00 x00 x04 x00 x00 x00)
(T (W x46 x53 x59 x53 x5f x4e x53 x5f)
(L (W xff xff xff xff xff xff xff xff))
(L (W x4f x84 x6f x8b xe8 xcb x63 xb7)))
(T (W xff xff xff xff xff xff xff xff)
(L (W xff xff xff xff xff xff xff xff)) E))
(T (W x18 x00 x00 x00 x10 x00 x00 x00)
(T (W x00 x00 x00 x00 x00 x00 x00 x00)
(L (W x18 x00 x00 x00 x10 x00 x00 x00)) E)
(T (W x00 x00 x00 x00 x12 x00 x00 x00)
(L (W x45 x44 x00 x00 x00 x00 x00 x00)) E))))
(T (W x00 x00 x00 x00 x00 x00 x00 x00)
(T (W x00 x00 x80 x3f x00 x00 x80 x3f)
(T (W x01 x00 x00 x00 x04 x00 x00 x00)
(T (W xff xff xff xff x01 x00 x00 x00)
(L (W x00 x00 x00 x00 x00 x00 x00 x00))
(L (W x00 x00 x00 x00 x00 x00 x00 x00)))
(T (W xff xff xff xff xff xff xff xff)
(L (W x6c x9e xfe xff x00 x01 x01 x01)) E))
(T (W xff xff xff xff xff xff xff xff)
(T (W x00 x00 x80 x3f x00 x00 x80 x3f)
(L (W x00 x00 x00 x00 x00 x00 x00 x00)) E)
(T (W x45 x26 x22 x84 xe4 x9c xf2 xcb)
(L (W xff xff xff xff xff xff xff xff)) E)))
(T (W x6c x5e xfa xff x00 x01 x01 x01)
(T (W xb8 x00 x00 x00 xac x00 x00 x00)
(T (W xff xff xff xff xff xff xff xff)
(L (W x4f x84 x6f x8b xe8 xcb x63 xb7))
(L (W x54 x00 x00 x00 x48 x00 x00 x00)))
(T (W xff xff xff xff xff xff xff xff)
(L (W x00 x00 x00 x00 x00 x00 x00 x00)) E))
(T (W x34 x01 x00 x00 x04 x00 x00 x00)
(T (W x00 x00 x80 x3f x00 x00 x80 x3f)
(L (W xff xff xff xff xff xff xff xff)) E)
(T (W xff xff xff xff xff xff xff xff)
(L (W x00 x00 x80 xbf x00 x00 x80 xbf)) E)))))
(T (W x00 x00 x80 x3f x00 x00 x80 x3f)
(T (W xbc x00 x00 x00 xb0 x00 x00 x00)
(T (W xf4 x1b xfa xff x1f x00 x00 x00)
(T (W x00 x00 x80 x3f x00 x00 x80 x3f)
(T (W x00 x00 x00 x00 x00 x00 x00 x00)
(L (W xff xff xff xff xff xff xff xff))
(L (W xff xff xff xff xff xff xff xff)))
(T (W xff xff xff xff xff xff xff xff)
(L (W x4a x8b xfe xff x78 x00 x00 x00)) E))
(T (W x30 x32 x5f x43 x4c x45 x41 x52)
(T (W x00 x00 x80 x3f x00 x00 x80 x3f)
(L (W x00 x00 x00 x00 x00 x00 x00 x00)) E)
(T (W xff xff xff xff xff xff xff xff)
(L (W x45 x26 x22 x84 xe4 x9c xf2 xcb)) E)))
(T (W xff xff xff xff xff xff xff xff)
(T (W xff xff xff xff xff xff xff xff)
(T (W x54 x00 x00 x00 x48 x00 x00 x00)
(L (W x00 x00 x00 x00 x00 x00 x00 x00))
(L (W x00 x00 x80 xbf x00 x00 x80 xbf)))
(T (W x00 x00 x00 x00 x00 x00 x00 x00)
(L (W x00 x00 x00 x00 x00 x00 x00 x00)) E))
(T (W x00 x00 x80 x3f x00 x00 x80 x3f)
(T (W x00 x00 x00 x00 x00 x00 x00 x00)
(L (W xff xff xff xff xff xff xff xff)) E)
(T (W x00 x00 x80 xbf x00 x00 x80 xbf)
(L (W x4f x84 x6f x8b xe8 xcb x63 xb7)) E))))
(T (W x00 x00 x00 x00 x00 x00 x00 x00)
(T (W xff xff xff xff xff xff xff xff)
(T (W x02 xbe xfd xff x00 x00 x01 x01)
(T (W x00 x00 x80 x3f x00 x00 x80 x3f)
(L (W xff xff xff xff xff xff xff xff))
(L (W x46 x53 x59 x53 x5f x4e x53 x5f)))
(T (W x00 x00 x00 x00 x00 x00 x00 x00)
(L (W x03 x00 x00 x00 xd8 x00 x00 x00)) E))
(T (W x00 x00 x00 x00 x00 x00 x00 x00)
(T (W x00 x00 x00 x00 xdc x2c xfc xff)
(L (W x00 x00 x80 xbf x00 x00 x80 xbf)) E)
(T (W xff xff xff xff xff xff xff xff)
(L (W xff xff xff xff xff xff xff xff)) E)))
(T (W x9a x69 xfa xff x74 x00 x00 x00)
(T (W x01 x00 x00 x00 x9c x00 x00 x00)
(T (W xff xff xff xff xff xff xff xff)
(L (W x18 x00 x00 x00 x0c x00 x00 x00))
(L (W x18 x00 x00 x00 x0c x00 x00 x00)))
(T (W xff xff xff xff xff xff xff xff)
(L (W x00 x00 x80 xbf x00 x00 x80 xbf)) E))
(T (W x00 x00 x80 x3f x00 x00 x80 x3f)
(T (W x18 x01 x00 x00 x04 x00 x00 x00)
(L (W x49 xa1 x68 x4a xeb x5f xdd x3d)) E)
(T (W x00 x00 x00 x00 x00 x00 x00 x00)
(L (W x00 x00 x80 xbf x00 x00 x80 xbf)) E))))))
(T (W x64 x00 x00 x00 xa0 x00 x00 x00)
(T (W xff xff xff xff xff xff xff xff)
(T (W x00 x00 x00 x00 x00 x00 x00 x00)
(T (W x00 x00 x00 x00 x00 x00 x00 x00)
(T (W x00 x00 x80 x3f x00 x00 x80 x3f)
(T (W x00 x00 x00 x00 x00 x00 x00 x00)
(L (W xff xff xff xff xff xff xff xff))
(L (W xff xff xff xff xc4 x00 x00 x00)))
(T (W xff xff xff xff xff xff xff xff)
(L (W x00 x00 x80 xbf x00 x00 x80 xbf)) E))
(T (W xff xff xff xff xff xff xff xff)
(T (W x00 x00 x00 x00 x00 x00 x00 x00)
(L (W x5c x00 x00 x00 xff xff xff xff)) E)
(T (W x00 x00 x00 x00 x00 x00 x00 x00)
(L (W x6c x00 x00 x00 x60 x00 x00 x00)) E)))
(T (W xff xff xff xff xff xff xff xff)
(T (W xff xff xff xff xff xff xff xff)
(T (W x45 x26 x22 x84 xe4 x9c xf2 xcb)
(L (W x00 x00 x00 x00 x00 x00 x00 x00))
(L (W x00 x00 x00 x00 x00 x00 x00 x00)))
(T (W xff xff xff xff xff xff xff xff)
(L (W x00 x00 x00 x00 x7a xc2 xfe xff)) E))
(T (W x64 x5f x70 x6f x6b x65 x5f x77)
(T (W x00 x00 x00 x00 x00 x00 x00 x00)
(L (W xff xff xff xff xb0 x00 x00 x00)) E)
(T (W x00 x00 x80 xbf x00 x00 x80 xbf)
(L (W x00 x00 x00 x00 x00 x00 x00 x00)) E))))
(T (W x00 x00 x00 x00 x00 x00 x00 x00)
(T (W xb5 x01 x00 x00 xff xff xff xff)
(T (W xff xff xff xff xff xff xff xff)
(T (W x00 x00 x00 x00 x00 x00 x00 x00)
(L (W x00 x00 x80 xbf x00 x00 x80 xbf))
(L (W xff xff xff xff xff xff xff xff)))
(T (W x00 x00 x00 x00 x00 x00 x00 x00)
(L (W xff xff xff xff xff xff xff xff)) E))
(T (W x30 x32 x5f x43 x4c x45 x41 x52)
(T (W x4a x23 xfc xff x78 x00 x00 x00)
(L (W x00 x00 x00 x00 x00 x00 x00 x00)) E)
(T (W xc4 x00 x00 x00 x02 x00 x00 x00)
(L (W xff xff xff xff xff xff xff xff)) E)))
(T (W x50 x00 x00 x00 x44 x00 x00 x00)
(T (W x45 x26 x22 x84 xe4 x9c xf2 xcb)
(T (W xb8 x00 x00 x00 x14 x00 x00 x00)
(L (W x00 x00 x80 xbf x00 x00 x80 xbf))
(L (W x45 x26 x22 x84 xe4 x9c xf2 xcb)))
(T (W x45 x26 x22 x84 xe4 x9c xf2 xcb)
(L (W x49 xa1 x68 x4a xeb x5f xdd x3d)) E))
(T (W x49 xa1 x68 x4a xeb x5f xdd x3d)
(T (W x45 x26 x22 x84 xe4 x9c xf2 xcb)
(L (W xf4 x73 xfe xff x12 x00 x00 x00)) E)
(T (W xff xff xff xff xff xff xff xff)
(L (W x00 x00 x80 xbf x00 x00 x80 xbf)) E)))))
(T (W xc9 x00 x00 x00 xff xff xff xff)
(T (W x45 x26 x22 x84 xe4 x9c xf2 xcb)
(T (W x00 x00 x80 x3f x00 x00 x80 x3f)
(T (W x00 x00 x80 x3f x00 x00 x80 x3f)
(T (W x18 x00 x00 x00 x10 x00 x00 x00)
(L (W xc9 x00 x00 x00 xff xff xff xff))
(L (W x00 x00 x00 x00 x00 x00 x00 x00)))
(T (W x9a x91 xfc xff x74 x00 x00 x00)
(L (W x00 x00 x00 x00 xdc x94 xfe xff)) E))
(T (W x00 x00 x80 x3f x00 x00 x80 x3f)
(T (W x00 x00 x80 x3f x00 x00 x80 x3f)
(L (W x00 x00 x00 x00 x00 x00 x00 x00)) E)
(T (W x00 x00 x00 x00 xf8 xf7 xff xff)
(L (W xff xff xff xff xff xff xff xff)) E)))
(T (W x64 x00 x00 x00 x9c x00 x00 x00)
(T (W xff xff xff xff xff xff xff xff)
(T (W x50 x00 x00 x00 x44 x00 x00 x00)
(L (W x00 x00 x00 x00 x00 x00 x00 x00))
(L (W x00 x00 x80 xbf x00 x00 x80 xbf)))
(T (W x1e x00 x00 x00 x21 x00 x00 x00)
(L (W x00 x00 x00 x00 x00 x00 x00 x00)) E))
(T (W x68 x00 x00 x00 x5c x00 x00 x00)
(T (W x00 x00 x00 x00 x00 x00 x00 x00)
(L (W xff xff xff xff xff xff xff xff)) E)
(T (W xbc x00 x00 x00 x64 x00 x00 x00)
(L (W x00 x00 x80 xbf x00 x00 x80 xbf)) E))))
(T (W x00 x00 x00 x00 x00 x00 x00 x00)
(T (W xff xff xff xff xff xff xff xff)
(T (W x00 x00 x00 x00 x00 x00 x00 x00)
(T (W xff xff xff xff xff xff xff xff)
(L (W x00 x00 x80 xbf x00 x00 x80 xbf))
(L (W x00 x00 x00 x00 x00 x00 x00 x00)))
(T (W x82 xc4 xff xff x5d x00 x00 x00)
(L (W xff xff xff xff xff xff xff xff)) E))
(T (W x54 x00 x00 x00 x48 x00 x00 x00)
(T (W x34 x01 x00 x00 x04 x00 x00 x00)
(L (W x00 x00 x80 xbf x00 x00 x80 xbf)) E)
(T (W x04 x00 x00 x00 x3a x34 xfd xff)
(L (W xff xff xff xff xff xff xff xff)) E)))
(T (W x00 x00 x00 x00 xdc x74 xfa xff)
(T (W x00 x00 x00 x00 x00 x00 x00 x00)
(T (W xff xff xff xff xff xff xff xff)
(L (W xff xff xff xff xff xff xff xff))
(L (W xff xff xff xff xff xff xff xff)))
(T (W x00 x00 x80 x3f x00 x00 x80 x3f)
(L (W x00 x00 x80 xbf x00 x00 x80 xbf)) E))
(T (W x01 x00 x00 x00 xb0 x00 x00 x00)
(T (W xff xff xff xff xff xff xff xff)
(L (W x00 x00 x00 x00 x00 x00 x00 x00)) E)
(T (W x00 x00 x01 x01 x5d x00 x00 x00)
(L (W x45 x26 x22 x84 xe4 x9c xf2 xcb)) E))))))))
(T (W xff xff xff xff xff xff xff xff)
(T (W x00 x00 x00 x00 x00 x00 x00 x00)
(T (W xff xff xff xff xff xff xff xff)
(T (W x00 x00 x00 x00 x00 x00 x00 x00)
(T (W x00 x00 x80 x3f x00 x00 x80 x3f)
(T (W xff xff xff xff xff xff xff xff)
(T (W x45 x26 x22 x84 xe4 x9c xf2 xcb)
(T (W x9a x77 xfb xff x74 x00 x00 x00)
(L (W x17 x00 x00 x00 x19 x00 x00 x00))
(L (W x00 x00 x80 xbf x00 x00 x80 xbf)))
(T (W xff xff xff xff xff xff xff xff)
(L (W x46 x53 x59 x53 x5f x4e x53 x5f)) E))
(T (W x00 x00 x00 x00 x0d x00 x00 x00)
(T (W xff xff xff xff xff xff xff xff)
(L (W x45 x26 x22 x84 xe4 x9c xf2 xcb))
(L (W x00 x00 x68 x00 x00 x00 x00 x00)))
(T (W xff xff xff xff xff xff xff xff)
(L (W x00 x00 x00 x00 x00 x00 x00 x00)) E)))
(T (W x45 x26 x22 x84 xe4 x9c xf2 xcb)
(T (W xff xff xff xff x04 x00 x00 x00)
(T (W xff xff xff xff xff xff xff xff)
(L (W xb0 x00 x00 x00 x64 x00 x00 x00))
(L (W xff xff xff xff xff xff xff xff)))
(T (W xb8 x00 x00 x00 xac x00 x00 x00)
(L (W x18 x00 x00 x00 x0c x00 x00 x00)) E))
(T (W x00 x00 x00 x00 x00 x00 x00 x00)
(T (W xff xff xff xff xff xff xff xff)
(L (W x00 x00 x00 x00 x00 x00 x00 x00)) E)
(T (W xff xff xff xff xff xff xff xff)
(L (W xff xff xff xff x9c x00 x00 x00)) E))))
(T (W xff xff xff xff xff xff xff xff)
(T (W x00 x00 x00 x00 x00 x00 x00 x00)
(T (W xff xff xff xff xff xff xff xff)
(T (W x6c x00 x00 x00 x60 x00 x00 x00)
(L (W xff xff xff xff xff xff xff xff))
(L (W xff xff xff xff xff xff xff xff)))
(T (W x45 x26 x22 x84 xe4 x9c xf2 xcb)
(L (W x00 x00 x80 xbf x00 x00 x80 xbf)) E))
(T (W x45 x26 x22 x84 xe4 x9c xf2 xcb)
(T (W x45 x26 x22 x84 xe4 x9c xf2 xcb)
(L (W xff xff xff xff xff xff xff xff)) E)
(T (W x6c x00 x0c x00 x00 x00 x00 x00)
(L (W x00 x00 x00 x00 xdc x1a xff xff)) E)))
(T (W x00 x00 x80 x3f x00 x00 x80 x3f)
(T (W x50 x00 x00 x00 x44 x00 x00 x00)
(T (W x00 x00 x80 x3f x00 x00 x80 x3f)
(L (W x9f x01 x00 x00 xff xff xff xff))
(L (W x4f x84 x6f x8b xe8 xcb x63 xb7)))
(T (W x00 x00 x80 x3f x00 x00 x80 x3f)
(L (W xff xff xff xff xff xff xff xff)) E))
(T (W x4a x59 xfb xff x78 x00 x00 x00)
(T (W x00 x00 x00 x00 x7a x58 xfc xff)
(L (W x17 x00 x00 x00 x1a x00 x00 x00)) E)
(T (W x54 x00 x00 x00 x48 x00 x00 x00)
(L (W x45 x44 x00 x00 x00 x00 x00 x00)) E)))))
(T (W x00 x00 x00 x00 x00 x00 x00 x00)
(T (W x4a xc9 xf9 xff x78 x00 x00 x00)
(T (W xff xff xff xff xff xff xff xff)
(T (W x00 x00 x00 x00 x00 x00 x00 x00)
(T (W x00 x00 x00 x00 x00 x00 x00 x00)
(L (W x45 x26 x22 x84 xe4 x9c xf2 xcb))
(L (W x6c x8c xff xff x00 x01 x01 x01)))
(T (W x68 x00 x00 x00 x5c x00 x00 x00)
(L (W x00 x00 x00 x00 x00 x00 x00 x00)) E))
(T (W xff xff xff xff xbc x00 x00 x00)
(T (W x00 x00 x00 x00 x04 x00 x00 x00)
(L (W xff xff xff xff xff xff xff xff)) E)
(T (W x00 x00 x80 xbf x00 x00 x80 xbf)
(L (W x00 x00 x80 xbf x00 x00 x80 xbf)) E)))
(T (W x00 x00 x80 x3f x00 x00 x80 x3f)
(T (W x68 x00 x00 x00 x5c x00 x00 x00)
(T (W x00 x00 x00 x00 x00 x00 x00 x00)
(L (W xff xff xff xff xff xff xff xff))
(L (W x00 x00 x00 x00 x00 x00 x00 x00)))
(T (W x34 x00 x38 x00 x3c x00 x40 x00)
(L (W xff xff xff xff xff xff xff xff)) E))
(T (W x45 x44 x00 x00 x00 x00 x00 x00)
(T (W xff xff xff xff xff xff xff xff)
(L (W x00 x00 x80 xbf x00 x00 x80 xbf)) E)
(T (W x30 x32 x5f x43 x4c x45 x41 x52)
(L (W xff xff xff xff xff xff xff xff)) E))))
(T (W xff xff xff xff xff xff xff xff)
(T (W x50 x00 x00 x00 x44 x00 x00 x00)
(T (W xff xff xff xff xff xff xff xff)
(T (W x00 x00 x00 x00 x00 x00 x00 x00)
(L (W xff xff xff xff xff xff xff xff))
(L (W xff xff xff xff xff xff xff xff)))
(T (W xff xff xff xff xff xff xff xff)
(L (W x00 x00 x80 xbf x00 x00 x80 xbf)) E))
(T (W x00 x00 x01 x01 x9c x01 x00 x00)
(T (W x00 x00 x80 x3f x00 x00 x80 x3f)
(L (W x00 x00 x00 x00 x00 x00 x00 x00)) E)
(T (W x18 x00 x00 x00 x10 x00 x00 x00)
(L (W x50 x00 x00 x00 x44 x00 x00 x00)) E)))
(T (W x00 x00 x80 x3f x00 x00 x80 x3f)
(T (W x9a xe7 xfa xff x74 x00 x00 x00)
(T (W x18 x00 x00 x00 x0c x00 x00 x00)
(L (W x00 x00 x80 xbf x00 x00 x80 xbf))
(L (W x4f x84 x6f x8b xe8 xcb x63 xb7)))
(T (W x18 x00 x00 x00 x0c x00 x00 x00)
(L (W x13 x00 x00 x00 x0c x00 x00 x00)) E))
(T (W x00 x00 x00 x00 x00 x00 x00 x00)
(T (W xff xff xff xff xff xff xff xff)
(L (W xff xff xff xff xff xff xff xff)) E)
(T (W xff xff xff xff xff xff xff xff)
(L (W x00 x00 x00 x00 x00 x00 x00 x00)) E))))))
(T (W x54 x00 x00 x00 x48 x00 x00 x00)
(T (W x01 x00 x00 x00 xa0 x00 x00 x00)
(T (W x00 x00 x01 x01 xc9 x00 x00 x00)
(T (W xff xff xff xff xff xff xff xff)
(T (W x00 x00 x00 x00 x00 x00 x00 x00)
(T (W xff xff xff xff xff xff xff xff)
(L (W x10 x2d x00 x00 xfc x2b x00 x00))
(L (W x54 x00 x00 x00 x48 x00 x00 x00)))
(T (W x9a x7f xfc xff x74 x00 x00 x00)
(L (W x00 x00 x00 x00 x00 x00 x00 x00)) E))
(T (W x00 x00 x80 x3f x00 x00 x80 x3f)
(T (W xff xff xff xff xff xff xff xff)
(L (W xff xff xff xff xc8 x00 x00 x00))
(L (W xff xff xff xff xff xff xff xff)))
(T (W xff xff xff xff xff xff xff xff)
(L (W x4f x84 x6f x8b xe8 xcb x63 xb7)) E)))
(T (W x50 x00 x00 x00 x44 x00 x00 x00)
(T (W x45 x26 x22 x84 xe4 x9c xf2 xcb)
(T (W x84 xea x60 x32 x34 x35 x1a x4f)
(L (W xff xff xff xff xff xff xff xff))
(L (W xff xff xff xff xff xff xff xff)))
(T (W x50 x00 x00 x00 x44 x00 x00 x00)
(L (W x18 x00 x00 x00 x10 x00 x00 x00)) E))
(T (W xd4 x00 x00 x00 xc8 x00 x00 x00)
(T (W xff xff xff xff xff xff xff xff)
(L (W x00 x00 x80 xbf x00 x00 x80 xbf)) E)
(T (W xed x2a xd5 x4f x49 x4d x07 x36)
(L (W xff xff xff xff xff xff xff xff)) E))))
(T (W xff xff xff xff xff xff xff xff)
(T (W x6c x24 xfa xff x00 x01 x01 x01)
(T (W xff xff xff xff xff xff xff xff)
(T (W xff xff xff xff xff xff xff xff)
(L (W x00 x00 x00 x00 x00 x00 x00 x00))
(L (W x00 x00 x00 x00 x00 x00 x00 x00)))
(T (W xff xff xff xff xff xff xff xff)
(L (W x00 x00 x80 xbf x00 x00 x80 xbf)) E))
(T (W xff xff xff xff xff xff xff xff)
(T (W x00 x00 x80 x3f x00 x00 x80 x3f)
(L (W x00 x00 x00 x00 x00 x00 x00 x00)) E)
(T (W x00 x00 x80 xbf x00 x00 x80 xbf)
(L (W x18 x00 x00 x00 x0c x00 x00 x00)) E)))
(T (W x00 x00 x80 x3f x00 x00 x80 x3f)
(T (W x68 x00 x00 x00 x5c x00 x00 x00)
(T (W x00 x00 x80 x3f x00 x00 x80 x3f)
(L (W x00 x00 x00 x00 x00 x00 x00 x00))
(L (W x00 x00 x00 x00 x00 x00 x00 x00)))
(T (W xff xff xff xff xff xff xff xff)
(L (W x45 x44 x00 x00 x00 x00 x00 x00)) E))
(T (W x00 x00 x00 x00 xca x66 xfb xff)
(T (W x00 x00 x00 x00 x00 x00 x00 x00)
(L (W xff xff xff xff xff xff xff xff)) E)
(T (W x21 x00 x00 x00 x24 x00 x00 x00)
(L (W x00 x00 x00 x00 x00 x00 x00 x00)) E)))))
(T (W xff xff xff xff xff xff xff xff)
(T (W x00 x00 x00 x00 x00 x00 x00 x00)
(T (W x70 x5f x77 x69 x6c x64 x5f x70)
(T (W x9c x98 xfa xff x3e x00 x00 x00)
(T (W x00 x00 x00 x00 x00 x00 x00 x00)
(L (W xc0 x00 x00 x00 x01 x00 x00 x00))
(L (W xff xff xff xff xff xff xff xff)))
(T (W x00 x00 x80 x3f x00 x00 x80 x3f)
(L (W x00 x00 x00 x00 x00 x00 x00 x00)) E))
(T (W x48 x06 x00 x00 x20 x05 x00 x00)
(T (W x00 x00 x00 x00 x00 x00 x00 x00)
(L (W xff xff xff xff xff xff xff xff)) E)
(T (W x00 x00 x00 x00 x00 x00 x00 x00)
(L (W x6c x14 xff xff x00 x01 x01 x01)) E)))
(T (W x00 x00 x80 x3f x00 x00 x80 x3f)
(T (W x00 x00 x80 x3f x00 x00 x80 x3f)
(T (W x00 x00 x80 x3f x00 x00 x80 x3f)
(L (W xff xff xff xff xff xff xff xff))
(L (W x00 x00 x00 x00 x00 x00 x00 x00)))
(T (W x4f x84 x6f x8b xe8 xcb x63 xb7)
(L (W xff xff xff xff xff xff xff xff)) E))
(T (W x00 x00 x80 x3f x00 x00 x80 x3f)
(T (W x00 x00 x00 x00 x00 x00 x00 x00)
(L (W x6c x00 x00 x00 x60 x00 x00 x00)) E)
(T (W x00 x00 x80 xbf x00 x00 x80 xbf)
(L (W xa9 x52 x48 xdc x00 x5a x59 x2f)) E))))
(T (W x00 x00 x00 x00 xaa x59 xff xff)
(T (W x9a x2f xfa xff x74 x00 x00 x00)
(T (W xb8 x00 x00 x00 xac x00 x00 x00)
(T (W x54 x00 x00 x00 x48 x00 x00 x00)
(L (W x00 x00 x00 x00 x00 x00 x00 x00))
(L (W xff xff xff xff xff xff xff xff)))
(T (W xff xff xff xff xff xff xff xff)
(L (W x00 x00 x80 xbf x00 x00 x80 xbf)) E))
(T (W x46 x53 x59 x53 x5f x4e x53 x5f)
(T (W x4a x31 xfc xff x78 x00 x00 x00)
(L (W x00 x00 x00 x00 x00 x00 x00 x00)) E)
(T (W xc4 x00 x00 x00 x02 x00 x00 x00)
(L (W x00 x00 x00 x00 x70 x34 xff xff)) E)))
(T (W x45 x26 x22 x84 xe4 x9c xf2 xcb)
(T (W xff xff xff xff x03 x00 x00 x00)
(T (W x18 x00 x00 x00 x10 x00 x00 x00)
(L (W x6c x00 x00 x00 x60 x00 x00 x00))
(L (W x4a xf1 xff xff x78 x00 x00 x00)))
(T (W x00 x00 x00 x00 x00 x00 x00 x00)
(L (W x00 x00 x00 x00 x00 x00 x00 x00)) E))
(T (W x00 x00 x80 x3f x00 x00 x80 x3f)
(T (W x00 x00 x00 x00 xdc x72 xfc xff)
(L (W x00 x00 x00 x00 x00 x00 x00 x00)) E)
(T (W x00 x00 x80 xbf x00 x00 x80 xbf)
(L (W x00 x00 x80 xbf x00 x00 x80 xbf)) E)))))))
(T (W x00 x00 x80 x3f x00 x00 x80 x3f)
(T (W x00 x00 x00 x00 x00 x00 x00 x00)
(T (W x00 x00 x80 x3f x00 x00 x80 x3f)
(T (W xbc x00 x00 x00 xb0 x00 x00 x00)
(T (W x68 x00 x00 x00 x5c x00 x00 x00)
(T (W xff xff xff xff x03 x00 x00 x00)
(T (W x4f x84 x6f x8b xe8 xcb x63 xb7)
(L (W x00 x00 x00 x00 x00 x00 x00 x00))
(L (W x54 x02 x00 x00 x38 x01 x00 x00)))
(T (W x00 x00 x00 x00 x00 x00 x00 x00)
(L (W xcc x00 x00 x00 x01 x00 x00 x00)) E))
(T (W xff xff xff xff xff xff xff xff)
(T (W x45 x26 x22 x84 xe4 x9c xf2 xcb)
(L (W x00 x00 x00 x00 x00 x00 x00 x00))
(L (W x00 x00 x00 x00 x00 x00 x00 x00)))
(T (W xff xff xff xff xff xff xff xff)
(L (W x45 x26 x22 x84 xe4 x9c xf2 xcb)) E)))
(T (W x00 x00 x00 x00 x00 x00 x00 x00)
(T (W x00 x00 x00 x00 x00 x00 x00 x00)
(T (W x00 x00 x80 x3f x00 x00 x80 x3f)
(L (W xff xff xff xff xff xff xff xff))
(L (W x54 x00 x00 x00 x48 x00 x00 x00)))
(T (W x00 x00 x00 x00 x00 x00 x00 x00)
(L (W x00 x00 x00 x00 x00 x00 x00 x00)) E))
(T (W xff xff xff xff x01 x00 x00 x00)
(T (W x00 x00 x80 x3f x00 x00 x80 x3f)
(L (W xff xff xff xff xff xff xff xff)) E)
(T (W x00 x00 x80 xbf x00 x00 x80 xbf)
(L (W x4f x84 x6f x8b xe8 xcb x63 xb7)) E))))
(T (W x00 x00 x80 x3f x00 x00 x80 x3f)
(T (W x72 x24 xfd xff xb9 x00 x00 x00)
(T (W x45 x26 x22 x84 xe4 x9c xf2 xcb)
(T (W x00 x00 x00 x00 x00 x00 x00 x00)
(L (W x49 xa1 x68 x4a xeb x5f xdd x3d))
(L (W x00 x00 x80 xbf x00 x00 x80 xbf)))
(T (W x5f x77 x69 x6c x64 x5f x70 x6f)
(L (W xff xff xff xff xff xff xff xff)) E))
(T (W x00 x00 x00 x00 x00 x00 x00 x00)
(T (W xff xff xff xff xff xff xff xff)
(L (W x4a x1d xfe xff x78 x00 x00 x00)) E)
(T (W x00 x00 x00 x00 x00 x00 x00 x00)
(L (W x00 x00 x00 x00 x00 x00 x00 x00)) E)))
(T (W x97 x01 x00 x00 xff xff xff xff)
(T (W x97 x7c x19 x96 xc1 x52 xa4 x47)
(T (W x00 x00 x00 x00 x00 x00 x00 x00)
(L (W x44 x00 x00 x00 x00 x00 x80 xbf))
(L (W xcc x00 x00 x00 x01 x00 x00 x00)))
(T (W x00 x00 x00 x00 x00 x00 x00 x00)
(L (W x00 x00 x80 xbf x00 x00 x80 xbf)) E))
(T (W x45 x26 x22 x84 xe4 x9c xf2 xcb)
(T (W x18 x00 x00 x00 x0c x00 x00 x00)
(L (W x00 x00 x80 xbf x00 x00 x80 xbf)) E)
(T (W x00 x00 x00 x00 x00 x00 x00 x00)
(L (W xc4 x00 x00 x00 x02 x00 x00 x00)) E)))))
(T (W x6c x00 x00 x00 x60 x00 x00 x00)
(T (W xff xff xff xff xff xff xff xff)
(T (W x00 x00 x80 x3f x00 x00 x80 x3f)
(T (W xff xff xff xff xff xff xff xff)
(T (W x01 x00 x00 x00 x15 x00 x00 x00)
(L (W x12 x00 x00 x00 x46 x53 x59 x53))
(L (W x00 x00 x00 x00 x00 x00 x00 x00)))
(T (W x02 xa0 xff xff x00 x00 x01 x01)
(L (W xff xff xff xff xff xff xff xff)) E))
(T (W x4f x84 x6f x8b xe8 xcb x63 xb7)
(T (W x50 x00 x00 x00 x44 x00 x00 x00)
(L (W x45 x26 x22 x84 xe4 x9c xf2 xcb)) E)
(T (W x00 x00 x00 x00 x00 x00 x00 x00)
(L (W xff xff xff xff xff xff xff xff)) E)))
(T (W x00 x00 x00 x00 x04 x00 x00 x00)
(T (W x00 x00 x00 x00 x00 x00 x00 x00)
(T (W xcc x00 x00 x00 xc0 x00 x00 x00)
(L (W x00 x00 x00 x00 x00 x00 x00 x00))
(L (W x45 x26 x22 x84 xe4 x9c xf2 xcb)))
(T (W x24 x00 x00 x00 x27 x00 x00 x00)
(L (W x45 x26 x22 x84 xe4 x9c xf2 xcb)) E))
(T (W xff xff xff xff xff xff xff xff)
(T (W x00 x00 x80 x3f x00 x00 x80 x3f)
(L (W x45 x44 x00 x00 x00 x00 x00 x00)) E)
(T (W x60 x4d xfd xff x00 x00 x00 x01)
(L (W x6c x00 x00 x00 x60 x00 x00 x00)) E))))
(T (W x00 x00 x80 x3f x00 x00 x80 x3f)
(T (W x00 x00 x00 x00 x00 x00 x00 x00)
(T (W x00 x00 x00 x00 x00 x00 x00 x00)
(T (W xff xff xff xff xff xff xff xff)
(L (W x02 xef xff xff xc9 x00 x00 x00))
(L (W x49 xa1 x68 x4a xeb x5f xdd x3d)))
(T (W x45 x26 x22 x84 xe4 x9c xf2 xcb)
(L (W x00 x00 x01 x01 x5c x00 x00 x00)) E))
(T (W x45 x26 x22 x84 xe4 x9c xf2 xcb)
(T (W x45 x44 x00 x00 x00 x00 x00 x00)
(L (W xff xff xff xff xff xff xff xff)) E)
(T (W x45 x44 x00 x00 x00 x00 x00 x00)
(L (W x00 x00 x00 x00 x12 x00 x00 x00)) E)))
(T (W xff xff xff xff xff xff xff xff)
(T (W xff xff xff xff xff xff xff xff)
(T (W x00 x00 x00 x00 x00 x00 x00 x00)
(L (W xff xff xff xff xff xff xff xff))
(L (W xff xff xff xff xff xff xff xff)))
(T (W x70 x00 x08 x00 x68 x00 x0c x00)
(L (W xbc x00 x00 x00 x46 x00 x00 x00)) E))
(T (W x18 x00 x00 x00 x10 x00 x00 x00)
(T (W x00 x00 x00 x00 x00 x00 x00 x00)
(L (W x4a x6d xfe xff x78 x00 x00 x00)) E)
(T (W x45 x26 x22 x84 xe4 x9c xf2 xcb)
(L (W xff xff xff xff xff xff xff xff)) E))))))
(T (W xff xff xff xff xff xff xff xff)
(T (W xff xff xff xff x17 x00 x00 x00)
(T (W x45 x26 x22 x84 xe4 x9c xf2 xcb)
(T (W x00 x00 x80 x3f x00 x00 x80 x3f)
(T (W xff xff xff xff xff xff xff xff)
(T (W x45 x26 x22 x84 xe4 x9c xf2 xcb)
(L (W x00 x00 x00 x00 x00 x00 x00 x00))
(L (W x00 x00 x00 x00 x12 x00 x00 x00)))
(T (W x00 x00 x00 x00 x00 x00 x00 x00)
(L (W xff xff xff xff xc0 x00 x00 x00)) E))
(T (W x00 x00 x00 x00 x00 x00 x00 x00)
(T (W x00 x00 x80 x3f x00 x00 x80 x3f)
(L (W x00 x00 x00 x00 x00 x00 x00 x00)) E)
(T (W xff xff xff xff xff xff xff xff)
(L (W xff xff xff xff xff xff xff xff)) E)))
(T (W x00 x00 x00 x00 x00 x00 x00 x00)
(T (W x00 x00 x00 x00 x00 x00 x00 x00)
(T (W x19 x00 x00 x00 x1c x00 x00 x00)
(L (W x00 x00 x80 xbf x00 x00 x80 xbf))
(L (W x4a xc5 xff xff x78 x00 x00 x00)))
(T (W x5f x4d x4b x52 x47 x5f x31 x30)
(L (W x00 x00 x00 x00 x00 x00 x00 x00)) E))
(T (W x45 x26 x22 x84 xe4 x9c xf2 xcb)
(T (W x00 x00 x80 x3f x00 x00 x80 x3f)
(L (W xff xff xff xff xff xff xff xff)) E)
(T (W x00 x00 x00 x00 xdc x46 xfd xff)
(L (W x00 x00 x80 xbf x00 x00 x80 xbf)) E))))
(T (W x00 x00 x80 x3f x00 x00 x80 x3f)
(T (W x00 x00 x00 x00 x00 x00 x00 x00)
(T (W x00 x00 x00 x00 x00 x00 x00 x00)
(T (W x45 x26 x22 x84 xe4 x9c xf2 xcb)
(L (W x68 x00 x00 x00 x5c x00 x00 x00))
(L (W x00 x00 x00 x00 x3a xa6 xff xff)))
(T (W x45 x26 x22 x84 xe4 x9c xf2 xcb)
(L (W x00 x00 x00 x00 x7a xa4 xfe xff)) E))
(T (W x4f x84 x6f x8b xe8 xcb x63 xb7)
(T (W xff xff xff xff xff xff xff xff)
(L (W x18 x00 x00 x00 x0c x00 x00 x00)) E)
(T (W x04 x00 x00 x00 x3a x26 xfd xff)
(L (W x00 x00 x00 x00 x00 x00 x00 x00)) E)))
(T (W xff xff xff xff xff xff xff xff)
(T (W x36 x00 x00 x00 xff xff xff xff)
(T (W x30 x32 x5f x43 x4c x45 x41 x52)
(L (W x68 x00 x00 x00 x5c x00 x00 x00))
(L (W xff xff xff xff xff xff xff xff)))
(T (W xff xff xff xff xff xff xff xff)
(L (W x4a xe5 xfe xff x78 x00 x00 x00)) E))
(T (W x54 x00 x00 x00 x48 x00 x00 x00)
(T (W x00 x00 x10 x00 x14 x00 x18 x00)
(L (W x00 x00 x80 xbf x00 x00 x80 xbf)) E)
(T (W x00 x00 x00 x00 x00 x00 x00 x00)
(L (W xff xff xff xff xff xff xff xff)) E)))))
(T (W x00 x00 x00 x00 x00 x00 x00 x00)
(T (W x00 x00 x80 x3f x00 x00 x80 x3f)
(T (W xb8 x00 x00 x00 xac x00 x00 x00)
(T (W x62 x00 x00 x00 x9d x00 x00 x00)
(T (W xff xff xff xff xff xff xff xff)
(L (W x00 x00 x00 x00 x00 x00 x00 x00))
(L (W x00 x00 x80 xbf x00 x00 x80 xbf)))
(T (W xff xff xff xff xff xff xff xff)
(L (W xff xff xff xff xff xff xff xff)) E))
(T (W x00 x00 x00 x00 x00 x00 x00 x00)
(T (W x4a x15 xfc xff x78 x00 x00 x00)
(L (W x00 x00 x80 xbf x00 x00 x80 xbf)) E)
(T (W x6c x00 x0c x00 x00 x00 x00 x00)
(L (W x00 x00 x00 x00 x00 x00 x00 x00)) E)))
(T (W xff xff xff xff xff xff xff xff)
(T (W x00 x00 x00 x00 x00 x00 x00 x00)
(T (W xb8 x00 x00 x00 x14 x00 x00 x00)
(L (W x00 x00 x80 xbf x00 x00 x80 xbf))
(L (W xff xff xff xff xa0 x00 x00 x00)))
(T (W xff xff xff xff xff xff xff xff)
(L (W x00 x00 x80 xbf x00 x00 x80 xbf)) E))
(T (W x00 x00 x00 x00 x00 x00 x00 x00)
(T (W x18 x00 x00 x00 x10 x00 x00 x00)
(L (W x00 x00 x00 x00 x00 x00 x00 x00)) E)
(T (W xff xff xff xff xff xff xff xff)
(L (W x45 x26 x22 x84 xe4 x9c xf2 xcb)) E))))
(T (W x00 x00 x80 x3f x00 x00 x80 x3f)
(T (W x00 x00 x00 x00 x00 x00 x00 x00)
(T (W x00 x00 x00 x00 x00 x00 x00 x00)
(T (W x00 x00 x00 x00 x00 x00 x00 x00)
(L (W x00 x00 x80 xbf x00 x00 x80 xbf))
(L (W x00 x00 x80 xbf x00 x00 x80 xbf)))
(T (W x00 x00 x00 x00 x00 x00 x00 x00)
(L (W x00 x00 x00 x00 x00 x00 x00 x00)) E))
(T (W xff xff xff xff xff xff xff xff)
(T (W x45 x26 x22 x84 xe4 x9c xf2 xcb)
(L (W xff xff xff xff xff xff xff xff)) E)
(T (W x00 x00 x00 x00 x00 x00 x00 x00)
(L (W x00 x00 x00 x00 x00 x00 x00 x00)) E)))
(T (W x64 x00 x00 x00 x9c x00 x00 x00)
(T (W x00 x00 x00 x00 x00 x00 x00 x00)
(T (W x00 x00 x80 x3f x00 x00 x80 x3f)
(L (W x00 x00 x00 x00 x00 x00 x00 x00))
(L (W x00 x00 x00 x00 x00 x00 x00 x00)))
(T (W x45 x26 x22 x84 xe4 x9c xf2 xcb)
(L (W xff xff xff xff xff xff xff xff)) E))
(T (W x18 x00 x00 x00 x10 x00 x00 x00)
(T (W x45 x26 x22 x84 xe4 x9c xf2 xcb)
(L (W x19 x00 x00 x00 x1c x00 x00 x00)) E)
(T (W x00 x00 x00 x00 x00 x00 x00 x00)
(L (W xff xff xff xff xff xff xff xff)) E)))))))))
(T (W x38 xb8 x01 x00 x2c xb1 x01 x00)
(T (W xb8 x73 x00 x00 x6c x71 x00 x00)
(T (W x00 x00 x00 x00 x00 x00 x00 x00)
(T (W xff xff xff xff x04 x00 x00 x00)
(T (W x00 x00 x00 x00 x00 x00 x00 x00)
(T (W x00 x00 x80 x3f x00 x00 x80 x3f)
(T (W xff xff xff xff xff xff xff xff)
(T (W x00 x00 x00 x00 x00 x00 x00 x00)
(T (W x00 x00 x80 x3f x00 x00 x80 x3f)
(L (W x4a x78 xfd xff x78 x00 x00 x00))
(L (W x00 x00 x80 xbf x00 x00 x80 xbf)))
(T (W x9a x76 xfc xff x74 x00 x00 x00)
(L (W x00 x00 x01 x01 x4b x00 x00 x00)) E))
(T (W x00 x00 x00 x01 xb0 x00 x00 x00)
(T (W x18 x00 x00 x00 x10 x00 x00 x00)
(L (W x00 x00 x80 xbf x00 x00 x80 xbf))
(L (W x00 x00 x80 xbf x00 x00 x80 xbf)))
(T (W x00 x00 x80 x3f x00 x00 x80 x3f)
(L (W x46 x53 x59 x53 x5f x4e x53 x5f)) E)))
(T (W x00 x00 x80 x3f x00 x00 x80 x3f)
(T (W x68 x00 x00 x00 x5c x00 x00 x00)
(T (W x18 x00 x00 x00 x0c x00 x00 x00)
(L (W x18 x00 x00 x00 x10 x00 x00 x00))
(L (W xff xff xff xff xff xff xff xff)))
(T (W x50 x00 x00 x00 x44 x00 x00 x00)
(L (W x00 x00 x80 xbf x00 x00 x80 xbf)) E))
(T (W x00 x00 x00 x00 x12 x00 x00 x00)
(T (W x01 x00 x00 x00 x19 x00 x00 x00)
(L (W x46 x53 x59 x53 x5f x4e x53 x5f)) E)
(T (W x03 x00 x00 x00 xd0 x00 x00 x00)
(L (W x6c x00 x00 x00 x60 x00 x00 x00)) E))))
(T (W x00 x00 x00 x00 xdc xd9 xf9 xff)
(T (W x3e x00 x00 x00 x0c x00 x00 x00)
(T (W xff xff xff xff xff xff xff xff)
(T (W x00 x00 x80 x3f x00 x00 x80 x3f)
(L (W x18 x00 x00 x00 x0c x00 x00 x00))
(L (W xff xff xff xff xff xff xff xff)))
(T (W x00 x00 x00 x00 x00 x00 x00 x00)
(L (W x00 x00 x00 x00 x00 x00 x00 x00)) E))
(T (W x00 x00 x80 x3f x00 x00 x80 x3f)
(T (W x00 x00 x00 x00 x12 x00 x00 x00)
(L (W xff xff xff xff xff xff xff xff)) E)
(T (W xff xff xff xff xff xff xff xff)
(L (W x00 x00 x80 xbf x00 x00 x80 xbf)) E)))
(T (W x00 x00 x80 x3f x00 x00 x80 x3f)
(T (W x00 x00 x80 x3f x00 x00 x80 x3f)
(T (W x00 x00 x80 x3f x00 x00 x80 x3f)
(L (W xff xff xff xff xff xff xff xff))
(L (W x05 x45 x45 xdc x00 xdb x55 x2f)))
(T (W x4f x84 x6f x8b xe8 xcb x63 xb7)
(L (W xff xff xff xff x9c x00 x00 x00)) E))
(T (W x50 x00 x00 x00 x44 x00 x00 x00)
(T (W xff xff xff xff xff xff xff xff)
(L (W x4a x58 xfe xff x78 x00 x00 x00)) E)
(T (W x00 x00 x80 xbf x00 x00 x80 xbf)
(L (W xff xff xff xff xff xff xff xff)) E)))))
(T (W x00 x00 x00 x00 x00 x00 x00 x00)
(T (W x54 x00 x00 x00 x48 x00 x00 x00)
(T (W xff xff xff xff x03 x00 x00 x00)
(T (W x01 x00 x00 x00 x04 x00 x00 x00)
(T (W xff xff xff xff xff xff xff xff)
(L (W x00 x00 x80 xbf x00 x00 x80 xbf))
(L (W x00 x00 x80 xbf x00 x00 x80 xbf)))
(T (W x00 x00 x80 x3f x00 x00 x80 x3f)
(L (W x00 x00 x00 x00 x00 x00 x00 x00)) E))
(T (W x45 x26 x22 x84 xe4 x9c xf2 xcb)
(T (W xff xff xff xff xff xff xff xff)
(L (W x50 x00 x00 x00 x44 x00 x00 x00)) E)
(T (W x00 x00 x00 x00 x00 x00 x00 x00)
(L (W x4f x84 x6f x8b xe8 xcb x63 xb7)) E)))
(T (W x00 x00 x00 x00 x00 x00 x00 x00)
(T (W x00 x00 x80 x3f x00 x00 x80 x3f)
(T (W xff xff xff xff xff xff xff xff)
(L (W xff xff xff xff xb0 x00 x00 x00))
(L (W x54 x02 x00 x00 x38 x01 x00 x00)))
(T (W x00 x00 x80 x3f x00 x00 x80 x3f)
(L (W xbc x00 x00 x00 x50 x00 x00 x00)) E))
(T (W xff xff xff xff xff xff xff xff)
(T (W xff xff xff xff xff xff xff xff)
(L (W x00 x00 x00 x00 x00 x00 x00 x00)) E)
(T (W x00 x00 x01 x01 xc1 x00 x00 x00)
(L (W xff xff xff xff xff xff xff xff)) E))))
(T (W xff xff xff xff xff xff xff xff)
(T (W x00 x00 x80 x3f x00 x00 x80 x3f)
(T (W x45 x26 x22 x84 xe4 x9c xf2 xcb)
(T (W x00 x00 x00 x00 x00 x00 x00 x00)
(L (W xb0 x00 x00 x00 x64 x00 x00 x00))
(L (W xff xff xff xff xff xff xff xff)))
(T (W x68 x00 x00 x00 x5c x00 x00 x00)
(L (W x45 x26 x22 x84 xe4 x9c xf2 xcb)) E))
(T (W xff xff xff xff xff xff xff xff)
(T (W x00 x00 x00 x00 x00 x00 x00 x00)
(L (W x00 x00 x00 x00 x7a x27 xfe xff)) E)
(T (W x54 x00 x00 x00 x48 x00 x00 x00)
(L (W x00 x00 x80 xbf x00 x00 x80 xbf)) E)))
(T (W x00 x00 x00 x00 x00 x00 x00 x00)
(T (W x45 x26 x22 x84 xe4 x9c xf2 xcb)
(T (W x00 x00 x80 x3f x00 x00 x80 x3f)
(L (W x45 x26 x22 x84 xe4 x9c xf2 xcb))
(L (W x00 x00 x00 x00 x00 x00 x00 x00)))
(T (W x00 x00 x80 x3f x00 x00 x80 x3f)
(L (W xff xff xff xff xff xff xff xff)) E))
(T (W x00 x00 x00 x00 x00 x00 x00 x00)
(T (W x00 x00 x00 x00 xdc x69 xfc xff)
(L (W x03 x00 x00 x00 xd8 x00 x00 x00)) E)
(T (W x45 x26 x22 x84 xe4 x9c xf2 xcb)
(L (W x00 x00 x00 x00 x00 x00 x00 x00)) E))))))
(T (W x00 x00 x80 x3f x00 x00 x80 x3f)
(T (W x00 x00 x00 x00 xdc xa1 xf9 xff)
(T (W xff xff xff xff xff xff xff xff)
(T (W x64 x00 x00 x00 x9c x00 x00 x00)
(T (W xf4 x90 xfa xff x3c x00 x00 x00)
(T (W xff xff xff xff xff xff xff xff)
(L (W x00 x00 x00 x00 xdc x81 xfd xff))
(L (W x00 x00 x80 xbf x00 x00 x80 xbf)))
(T (W x68 x00 x00 x00 x5c x00 x00 x00)
(L (W x45 x44 x00 x00 x00 x00 x00 x00)) E))
(T (W x00 x00 x00 x00 x00 x00 x00 x00)
(T (W xff xff xff xff xff xff xff xff)
(L (W x45 x26 x22 x84 xe4 x9c xf2 xcb))
(L (W x00 x00 x80 xbf x00 x00 x80 xbf)))
(T (W xd8 x01 xfd xff x82 x5a xfd xff)
(L (W x00 x00 x00 x00 x00 x00 x00 x00)) E)))
(T (W x00 x00 x80 x3f x00 x00 x80 x3f)
(T (W x00 x00 x80 x3f x00 x00 x80 x3f)
(T (W xff xff xff xff xff xff xff xff)
(L (W x00 x00 x80 xbf x00 x00 x80 xbf))
(L (W xff xff xff xff xff xff xff xff)))
(T (W x00 x00 x80 x3f x00 x00 x80 x3f)
(L (W x54 x00 x00 x00 x48 x00 x00 x00)) E))
(T (W x00 x00 x80 x3f x00 x00 x80 x3f)
(T (W xff xff xff xff x9c x00 x00 x00)
(L (W x00 x00 x00 x00 x00 x00 x00 x00)) E)
(T (W xff xff xff xff xff xff xff xff)
(L (W x18 x00 x00 x00 x10 x00 x00 x00)) E))))
(T (W xff xff xff xff xff xff xff xff)
(T (W x00 x00 x80 x3f x00 x00 x80 x3f)
(T (W xff xff xff xff xff xff xff xff)
(T (W xff xff xff xff xff xff xff xff)
(L (W x00 x00 x00 x00 x00 x00 x64 x00))
(L (W x00 x00 x00 x00 x00 x00 x00 x00)))
(T (W xff xff xff xff x03 x00 x00 x00)
(L (W x00 x00 x00 x00 x00 x00 x00 x00)) E))
(T (W x18 x00 x00 x00 x0c x00 x00 x00)
(T (W x00 x00 x00 x00 x00 x00 x00 x00)
(L (W xff xff xff xff xff xff xff xff)) E)
(T (W x00 x00 x00 x00 x00 x00 x00 x00)
(L (W x4a x20 xff xff x78 x00 x00 x00)) E)))
(T (W x00 x00 x80 x3f x00 x00 x80 x3f)
(T (W x00 x00 x80 x3f x00 x00 x80 x3f)
(T (W x49 xa1 x68 x4a xeb x5f xdd x3d)
(L (W x2a x00 x00 x00 xff xff xff xff))
(L (W x45 x44 x00 x00 x00 x00 x00 x00)))
(T (W x00 x00 x80 x3f x00 x00 x80 x3f)
(L (W xff xff xff xff xff xff xff xff)) E))
(T (W xff xff xff xff xff xff xff xff)
(T (W x00 x00 x00 x00 x00 x00 x00 x00)
(L (W xff xff xff xff xa0 x00 x00 x00)) E)
(T (W x4a x60 xfd xff x78 x00 x00 x00)
(L (W x00 x00 x00 x00 x00 x00 x00 x00)) E)))))
(T (W xff xff xff xff xff xff xff xff)
(T (W x00 x00 x00 x00 x00 x00 x00 x00)
(T (W xff xff xff xff xff xff xff xff)
(T (W xff xff xff xff xff xff xff xff)
(T (W x12 x00 x00 x00 x46 x53 x59 x53)
(L (W x9a x8e xfd xff x74 x00 x00 x00))
(L (W xff xff xff xff xb0 x00 x00 x00)))
(T (W x45 x26 x22 x84 xe4 x9c xf2 xcb)
(L (W x00 x00 x00 x00 x12 x00 x00 x00)) E))
(T (W xb0 x00 x00 x00 x64 x00 x00 x00)
(T (W xac x05 x00 x00 x84 x04 x00 x00)
(L (W x18 x00 x00 x00 x0c x00 x00 x00)) E)
(T (W x31 x00 x00 x00 x10 x00 x00 x00)
(L (W x00 x00 x00 x00 x00 x00 x00 x00)) E)))
(T (W x45 x26 x22 x84 xe4 x9c xf2 xcb)
(T (W x00 x00 x80 x3f x00 x00 x80 x3f)
(T (W x00 x00 x00 x00 x00 x00 x00 x00)
(L (W xff xff xff xff xff xff xff xff))
(L (W xb2 x01 x00 x00 xff xff xff xff)))
(T (W x77 x61 x72 x6c x69 x6b x65 x5f)
(L (W xff xff xff xff xff xff xff xff)) E))
(T (W x00 x00 x00 x00 x00 x00 x00 x00)
(T (W xff xff xff xff xff xff xff xff)
(L (W x00 x00 x80 xbf x00 x00 x80 xbf)) E)
(T (W x00 x00 x00 x00 x00 x00 x00 x00)
(L (W xff xff xff xff xff xff xff xff)) E))))
(T (W xff xff xff xff xff xff xff xff)
(T (W x50 x00 x00 x00 x44 x00 x00 x00)
(T (W x18 x00 x00 x00 x0c x00 x00 x00)
(T (W x00 x00 x00 x00 x00 x00 x00 x00)
(L (W x00 x00 x00 x00 x00 x00 x00 x00))
(L (W xff xff xff xff xff xff xff xff)))
(T (W xb8 x00 x00 x00 xac x00 x00 x00)
(L (W x4f x84 x6f x8b xe8 xcb x63 xb7)) E))
(T (W x00 x00 x00 x00 x00 x00 x00 x00)
(T (W x00 x00 x80 x3f x00 x00 x80 x3f)
(L (W x00 x00 x00 x00 x00 x00 x00 x00)) E)
(T (W x50 x00 x00 x00 x44 x00 x00 x00)
(L (W x44 x00 x00 x00 x00 x00 x80 xbf)) E)))
(T (W x00 x00 x00 x00 x00 x00 x00 x00)
(T (W x00 x00 x80 x3f x00 x00 x80 x3f)
(T (W x6c x00 x00 x00 x60 x00 x00 x00)
(L (W x00 x00 x80 xbf x00 x00 x80 xbf))
(L (W x00 x00 x80 xbf x00 x00 x80 xbf)))
(T (W xff xff xff xff xff xff xff xff)
(L (W x00 x00 x00 x00 x00 x00 x00 x00)) E))
(T (W x45 x26 x22 x84 xe4 x9c xf2 xcb)
(T (W x9a x6e xfc xff x74 x00 x00 x00)
(L (W xff xff xff xff xff xff xff xff)) E)
(T (W x00 x00 x10 x00 x14 x00 x18 x00)
(L (W x00 x00 x00 x00 x00 x00 x00 x00)) E)))))))
(T (W x00 x00 x80 x3f x00 x00 x80 x3f)
(T (W x00 x00 x00 x00 x00 x00 x00 x00)
(T (W xe4 x15 x00 x00 xd0 x14 x00 x00)
(T (W x45 x26 x22 x84 xe4 x9c xf2 xcb)
(T (W x45 x26 x22 x84 xe4 x9c xf2 xcb)
(T (W x3e x00 x00 x00 x9c x00 x00 x00)
(T (W x6b x65 x5f x77 x61 x72 x6c x69)
(L (W x11 x00 x00 x00 x0c x00 x00 x00))
(L (W xff xff xff xff xff xff xff xff)))
(T (W x00 x00 x00 x00 x00 x00 x00 x00)
(L (W x00 x00 x80 xbf x00 x00 x80 xbf)) E))
(T (W xff xff xff xff xff xff xff xff)
(T (W x00 x00 x00 x00 x00 x00 x00 x00)
(L (W x5c x00 x00 x00 xff xff xff xff))
(L (W x00 x00 x00 x00 x00 x00 x00 x00)))
(T (W x4a xfc xfc xff x78 x00 x00 x00)
(L (W x54 x00 x00 x00 x48 x00 x00 x00)) E)))
(T (W x72 x43 xfd xff x3b x01 x00 x00)
(T (W x00 x00 x00 x00 x00 x00 x00 x00)
(T (W x00 x00 x00 x00 x00 x00 x00 x00)
(L (W xff xff xff xff xff xff xff xff))
(L (W x00 x00 x80 xbf x00 x00 x80 xbf)))
(T (W x82 xcd xff xff x37 x00 x00 x00)
(L (W x72 x00 x00 x00 xff xff xff xff)) E))
(T (W xff xff xff xff xff xff xff xff)
(T (W x00 x00 x00 x00 x00 x00 x00 x00)
(L (W x03 x00 x00 x00 xd0 x00 x00 x00)) E)
(T (W x00 x00 x00 x00 x00 x00 x00 x00)
(L (W x00 x00 x00 x00 x00 x00 x00 x00)) E))))
(T (W x45 x26 x22 x84 xe4 x9c xf2 xcb)
(T (W xff xff xff xff xff xff xff xff)
(T (W x00 x00 x00 x00 x00 x00 x00 x00)
(T (W x00 x00 x00 x00 x00 x00 x00 x00)
(L (W x00 x00 x00 x00 x00 x00 x00 x00))
(L (W x00 x00 x80 xbf x00 x00 x80 xbf)))
(T (W xff xff xff xff xff xff xff xff)
(L (W xb0 x00 x00 x00 x64 x00 x00 x00)) E))
(T (W x45 x44 x00 x00 x00 x00 x00 x00)
(T (W x01 x00 x00 x00 x19 x00 x00 x00)
(L (W x00 x00 x80 xbf x00 x00 x80 xbf)) E)
(T (W xff xff xff xff xff xff xff xff)
(L (W xff xff xff xff xff xff xff xff)) E)))
(T (W xff xff xff xff xff xff xff xff)
(T (W xff xff xff xff xff xff xff xff)
(T (W xff xff xff xff xff xff xff xff)
(L (W x00 x00 x80 xbf x00 x00 x80 xbf))
(L (W x45 x26 x22 x84 xe4 x9c xf2 xcb)))
(T (W xff xff xff xff xff xff xff xff)
(L (W x49 xa1 x68 x4a xeb x5f xdd x3d)) E))
(T (W x00 x00 x00 x00 x12 x00 x00 x00)
(T (W x00 x00 x00 x00 xdc x5d xfc xff)
(L (W x00 x00 x00 x00 x00 x00 x00 x00)) E)
(T (W x00 x00 x00 x00 xca x61 xfd xff)
(L (W x45 x26 x22 x84 xe4 x9c xf2 xcb)) E)))))
(T (W x00 x00 x80 x3f x00 x00 x80 x3f)
(T (W xff xff xff xff xff xff xff xff)
(T (W x00 x00 x00 x00 x00 x00 x00 x00)
(T (W x68 x00 x00 x00 x5c x00 x00 x00)
(T (W x00 x00 x80 x3f x00 x00 x80 x3f)
(L (W x00 x00 x00 x00 x00 x00 x00 x00))
(L (W x00 x00 x00 x00 x00 x00 x00 x00)))
(T (W xff xff xff xff xff xff xff xff)
(L (W x13 x00 x00 x00 x16 x00 x00 x00)) E))
(T (W x00 x00 x00 x00 x00 x00 x00 x00)
(T (W x00 x00 x80 x3f x00 x00 x80 x3f)
(L (W x00 x00 x00 x00 x00 x00 x00 x00)) E)
(T (W x00 x00 x00 x00 x01 x00 x00 x00)
(L (W xcc x00 x00 x00 x01 x00 x00 x00)) E)))
(T (W xff xff xff xff xff xff xff xff)
(T (W xd0 x00 x00 x00 xff xff xff xff)
(T (W x18 x00 x00 x00 x10 x00 x00 x00)
(L (W x00 x00 x00 x00 x00 x00 x00 x00))
(L (W x54 x00 x00 x00 x48 x00 x00 x00)))
(T (W x00 x00 x00 x00 x00 x00 x00 x00)
(L (W x00 x00 x00 x00 x00 x00 x00 x00)) E))
(T (W x50 x00 x00 x00 x44 x00 x00 x00)
(T (W x00 x00 x80 x3f x00 x00 x80 x3f)
(L (W xff xff xff xff xff xff xff xff)) E)
(T (W x5c x00 x00 x00 x50 x00 x00 x00)
(L (W x00 x00 x80 xbf x00 x00 x80 xbf)) E))))
(T (W x00 x00 x00 x00 x00 x00 x00 x00)
(T (W x00 x00 x00 x00 x02 x00 x00 x00)
(T (W x00 x00 x00 x00 x00 x00 x00 x00)
(T (W x01 x00 x00 x00 x14 x00 x00 x00)
(L (W xff xff xff xff xff xff xff xff))
(L (W x00 x00 x00 x00 x00 x00 x00 x00)))
(T (W x00 x00 x00 x00 x00 x00 x00 x00)
(L (W xff xff xff xff xff xff xff xff)) E))
(T (W x00 x00 x80 x3f x00 x00 x80 x3f)
(T (W xff xff xff xff xff xff xff xff)
(L (W x18 x00 x00 x00 x0c x00 x00 x00)) E)
(T (W xff xff xff xff xff xff xff xff)
(L (W x00 x00 x00 x00 x00 x00 x00 x00)) E)))
(T (W x00 x00 x00 x00 xdc x6d xfa xff)
(T (W xb8 x00 x00 x00 xac x00 x00 x00)
(T (W x4a x00 x00 x00 xff xff xff xff)
(L (W xff xff xff xff xff xff xff xff))
(L (W xff xff xff xff xff xff xff xff)))
(T (W xff xff xff xff xff xff xff xff)
(L (W x6c xef xfe xff x00 x01 x01 x01)) E))
(T (W x6c x00 x00 x00 x60 x00 x00 x00)
(T (W x00 x00 x00 x00 x00 x00 x00 x00)
(L (W x00 x00 x80 xbf x00 x00 x80 xbf)) E)
(T (W x00 x00 x00 x00 x00 x00 x00 x00)
(L (W x45 x26 x22 x84 xe4 x9c xf2 xcb)) E))))))
(T (W xff xff xff xff xff xff xff xff)
(T (W xff xff xff xff xff xff xff xff)
(T (W x00 x00 x00 x00 x00 x00 x00 x00)
(T (W x45 x26 x22 x84 xe4 x9c xf2 xcb)
(T (W x01 x00 x00 x00 x3e x00 x00 x00)
(T (W x00 x00 x00 x00 x00 x00 x00 x00)
(L (W x19 x00 x00 x00 xff xff xff xff))
(L (W x04 x00 x00 x00 x5a x8b xff xff)))
(T (W x02 x97 xff xff x00 x00 x01 x01)
(L (W x45 x26 x22 x84 xe4 x9c xf2 xcb)) E))
(T (W x00 x00 x00 x00 x00 x00 x00 x00)
(T (W x00 x00 x80 x3f x00 x00 x80 x3f)
(L (W x00 x00 x00 x00 x00 x00 x00 x00)) E)
(T (W x9a x02 xfd xff x74 x00 x00 x00)
(L (W xff xff xff xff xa0 x00 x00 x00)) E)))
(T (W xfa x4c xfd xff x00 x00 x01 x01)
(T (W x0b xdc xfa x84 x25 x90 x9d xcd)
(T (W x4a xc4 xfb xff x78 x00 x00 x00)
(L (W x00 x00 x00 x00 x00 x00 x00 x00))
(L (W x00 x00 x80 xbf x00 x00 x80 xbf)))
(T (W x7f x00 x00 x00 x7f x00 x00 x00)
(L (W x00 x00 x00 x00 x00 x00 x00 x00)) E))
(T (W x00 x00 x00 x00 x00 x00 x00 x00)
(T (W x00 x00 x00 x00 x00 x00 x00 x00)
(L (W xff xff xff xff xff xff xff xff)) E)
(T (W x00 x00 x80 xbf x00 x00 x80 xbf)
(L (W x49 xa1 x68 x4a xeb x5f xdd x3d)) E))))
(T (W x45 x26 x22 x84 xe4 x9c xf2 xcb)
(T (W x00 x00 x00 x00 x00 x00 x00 x00)
(T (W xf4 xb4 xfa xff x3e x00 x00 x00)
(T (W x45 x26 x22 x84 xe4 x9c xf2 xcb)
(L (W x00 x00 x80 xbf x00 x00 x80 xbf))
(L (W xff xff xff xff xff xff xff xff)))
(T (W x00 x00 x00 x00 x00 x00 x00 x00)
(L (W xff xff xff xff xff xff xff xff)) E))
(T (W x00 x00 x00 x00 x00 x00 x00 x00)
(T (W xff xff xff xff x9c x00 x00 x00)
(L (W x00 x00 x80 xbf x00 x00 x80 xbf)) E)
(T (W xff xff xff xff xff xff xff xff)
(L (W xac x00 x00 x00 xff xff xff xff)) E)))
(T (W x64 x00 x00 x00 x9c x00 x00 x00)
(T (W xff xff xff xff xff xff xff xff)
(T (W x4b x00 x00 x00 xff xff xff xff)
(L (W x00 x00 x80 xbf x00 x00 x80 xbf))
(L (W xc4 x00 x00 x00 x02 x00 x00 x00)))
(T (W x6c xe7 xfc xff x00 x01 x01 x01)
(L (W x00 x00 x80 xbf x00 x00 x80 xbf)) E))
(T (W x00 x00 x80 x3f x00 x00 x80 x3f)
(T (W xff xff xff xff xff xff xff xff)
(L (W x49 xa1 x68 x4a xeb x5f xdd x3d)) E)
(T (W x18 x00 x00 x00 x0c x00 x00 x00)
(L (W xff xff xff xff xb0 x00 x00 x00)) E)))))
(T (W x00 x00 x00 x00 x00 x00 x00 x00)
(T (W x00 x00 x80 x3f x00 x00 x80 x3f)
(T (W x50 x00 x00 x00 x44 x00 x00 x00)
(T (W x6c x97 xfa xff x00 x01 x01 x01)
(T (W xcc x00 x00 x00 xc0 x00 x00 x00)
(L (W x4c x45 x41 x52 x45 x44 x00 x00))
(L (W x00 x00 x00 x00 x00 x00 x00 x00)))
(T (W xff xff xff xff xff xff xff xff)
(L (W xff xff xff xff xb0 x00 x00 x00)) E))
(T (W xff xff xff xff xff xff xff xff)
(T (W x50 x00 x00 x00 x44 x00 x00 x00)
(L (W x45 x26 x22 x84 xe4 x9c xf2 xcb)) E)
(T (W xff xff xff xff xff xff xff xff)
(L (W x5c x00 x00 x00 xff xff xff xff)) E)))
(T (W xff xff xff xff xff xff xff xff)
(T (W x02 xe7 xfd xff x00 x00 x01 x01)
(T (W x6c xd7 xfb xff x00 x01 x01 x01)
(L (W x49 xa1 x68 x4a xeb x5f xdd x3d))
(L (W x4a xd4 xff xff x78 x00 x00 x00)))
(T (W xff xff xff xff xff xff xff xff)
(L (W x4f x84 x6f x8b xe8 xcb x63 xb7)) E))
(T (W xff xff xff xff xff xff xff xff)
(T (W x54 x00 x00 x00 x48 x00 x00 x00)
(L (W x45 x44 x00 x00 x00 x00 x00 x00)) E)
(T (W xff xff xff xff xff xff xff xff)
(L (W x54 x00 x00 x00 x48 x00 x00 x00)) E))))
(T (W x00 x00 x00 x00 x00 x00 x00 x00)
(T (W xa1 x01 x00 x00 xff xff xff xff)
(T (W x00 x00 x00 x00 x00 x00 x00 x00)
(T (W xff xff xff xff x01 x00 x00 x00)
(L (W x00 x00 x80 xbf x00 x00 x80 xbf))
(L (W x00 x00 x00 x00 x00 x00 x00 x00)))
(T (W x00 x00 x00 x00 x00 x00 x00 x00)
(L (W xff xff xff xff xff xff xff xff)) E))
(T (W x18 x00 x00 x00 x10 x00 x00 x00)
(T (W x00 x00 x00 x00 x12 x00 x00 x00)
(L (W x00 x00 x00 x00 xdc x35 xfe xff)) E)
(T (W x46 x53 x59 x53 x5f x4e x53 x5f)
(L (W x30 x32 x5f x43 x4c x45 x41 x52)) E)))
(T (W x18 x00 x00 x00 x0c x00 x00 x00)
(T (W x00 x00 x00 x00 x00 x00 x00 x00)
(T (W x6b x65 x5f x77 x61 x72 x6c x69)
(L (W xff xff xff xff xff xff xff xff))
(L (W xff xff xff xff xff xff xff xff)))
(T (W x68 x00 x00 x00 x5c x00 x00 x00)
(L (W x68 x00 x00 x00 x5c x00 x00 x00)) E))
(T (W xff xff xff xff xff xff xff xff)
(T (W x5f x77 x69 x6c x64 x5f x70 x6f)
(L (W x4a x74 xfe xff x78 x00 x00 x00)) E)
(T (W x46 x53 x59 x53 x5f x4e x53 x5f)
(L (W xcc x00 x00 x00 x02 x00 x00 x00)) E))))))))
(T (W xff xff xff xff xff xff xff xff)
(T (W x00 x00 x00 x00 x00 x00 x00 x00)
(T (W xff xff xff xff xff xff xff xff)
(T (W x45 x26 x22 x84 xe4 x9c xf2 xcb)
(T (W x00 x00 x80 x3f x00 x00 x80 x3f)
(T (W x9c x01 xfa xff x3e x00 x00 x00)
(T (W x00 x00 x80 x3f x00 x00 x80 x3f)
(T (W xff xff xff xff xff xff xff xff)
(L (W xff xff xff xff xff xff xff xff))
(L (W x00 x00 x00 x00 xdc x7b xff xff)))
(T (W xff xff xff xff xff xff xff xff)
(L (W x00 x00 x00 x00 x00 x00 x00 x00)) E))
(T (W x49 xa1 x68 x4a xeb x5f xdd x3d)
(T (W x00 x00 x00 x00 x00 x00 x00 x00)
(L (W xff xff xff xff xc8 x00 x00 x00))
(L (W x00 x00 x00 x00 x00 x00 x00 x00)))
(T (W x9c x01 xfd xff x1a x00 x00 x00)
(L (W x49 xa1 x68 x4a xeb x5f xdd x3d)) E)))
(T (W x64 x00 x00 x00 x9c x00 x00 x00)
(T (W xff xff xff xff xff xff xff xff)
(T (W xfa xc2 xfe xff x00 x00 x01 x01)
(L (W xff xff xff xff xff xff xff xff))
(L (W xd3 x3a x45 xdc x00 xd5 x55 x2f)))
(T (W xff xff xff xff xff xff xff xff)
(L (W xff xff xff xff xff xff xff xff)) E))
(T (W x54 x00 x00 x00 x48 x00 x00 x00)
(T (W xff xff xff xff xff xff xff xff)
(L (W x54 x00 x00 x00 x48 x00 x00 x00)) E)
(T (W x02 x00 x00 x00 x30 x01 x00 x00)
(L (W xff xff xff xff xff xff xff xff)) E))))
(T (W x00 x00 x01 x01 xc1 x02 x00 x00)
(T (W x00 x00 x80 x3f x00 x00 x80 x3f)
(T (W xff xff xff xff xff xff xff xff)
(T (W x18 x00 x00 x00 x10 x00 x00 x00)
(L (W xff xff xff xff xff xff xff xff))
(L (W x00 x00 x00 x00 xca x9f xff xff)))
(T (W x00 x00 x80 x3f x00 x00 x80 x3f)
(L (W x54 x00 x00 x00 x48 x00 x00 x00)) E))
(T (W xff xff xff xff xc4 x00 x00 x00)
(T (W x00 x00 x80 x3f x00 x00 x80 x3f)
(L (W x00 x00 x00 x00 x00 x00 x00 x00)) E)
(T (W x00 x00 x80 xbf x00 x00 x80 xbf)
(L (W x29 x00 x00 x00 x2c x00 x00 x00)) E)))
(T (W x00 x00 x80 x3f x00 x00 x80 x3f)
(T (W x68 x00 x00 x00 x5c x00 x00 x00)
(T (W x50 x00 x00 x00 x44 x00 x00 x00)
(L (W x00 x00 x00 x00 x00 x00 x00 x00))
(L (W x00 x00 x80 xbf x00 x00 x80 xbf)))
(T (W xff xff xff xff xb0 x00 x00 x00)
(L (W x45 x44 x00 x00 x00 x00 x00 x00)) E))
(T (W xff xff xff xff x9c x00 x00 x00)
(T (W x00 x00 x00 x00 x00 x00 x00 x00)
(L (W xff xff xff xff xff xff xff xff)) E)
(T (W x45 x26 x22 x84 xe4 x9c xf2 xcb)
(L (W x00 x00 x00 x00 x00 x00 x00 x00)) E)))))
(T (W x00 x00 x80 x3f x00 x00 x80 x3f)
(T (W x18 x00 x00 x00 x0c x00 x00 x00)
(T (W xff xff xff xff xff xff xff xff)
(T (W x45 x26 x22 x84 xe4 x9c xf2 xcb)
(T (W x00 x00 x00 x00 x00 x00 x00 x00)
(L (W xff xff xff xff xff xff xff xff))
(L (W xb8 x00 x00 x00 x64 x00 x00 x00)))
(T (W x9a x88 xfc xff x74 x00 x00 x00)
(L (W x45 x26 x22 x84 xe4 x9c xf2 xcb)) E))
(T (W xa5 x01 x00 x00 xff xff xff xff)
(T (W x00 x00 x00 x00 x00 x00 x00 x00)
(L (W xff xff xff xff xff xff xff xff)) E)
(T (W x18 x00 x00 x00 x0c x00 x00 x00)
(L (W x54 x00 x00 x00 x48 x00 x00 x00)) E)))
(T (W x6c x4d xfa xff x00 x01 x01 x01)
(T (W xb8 x00 x00 x00 xac x00 x00 x00)
(T (W x00 x00 x00 x00 x00 x00 x00 x00)
(L (W xff xff xff xff xff xff xff xff))
(L (W x45 x26 x22 x84 xe4 x9c xf2 xcb)))
(T (W x00 x00 x80 x3f x00 x00 x80 x3f)
(L (W xa0 x01 x00 x00 xff xff xff xff)) E))
(T (W x00 x00 x00 x00 x00 x00 x00 x00)
(T (W x18 x00 x00 x00 x10 x00 x00 x00)
(L (W x19 x00 x00 x00 x1c x00 x00 x00)) E)
(T (W x00 x00 x00 x00 x00 x00 x00 x00)
(L (W x09 x00 x00 x00 x0c x00 x00 x00)) E))))
(T (W x82 xfb xfc xff xc0 x02 x00 x00)
(T (W x64 x00 x00 x00 x9c x00 x00 x00)
(T (W xff xff xff xff xff xff xff xff)
(T (W x00 x00 x80 x3f x00 x00 x80 x3f)
(L (W xff xff xff xff xff xff xff xff))
(L (W x00 x00 x00 x00 x3a xab xff xff)))
(T (W x82 xbb xff xff x70 x00 x00 x00)
(L (W x00 x00 x80 xbf x00 x00 x80 xbf)) E))
(T (W x4c x45 x41 x52 x45 x44 x00 x00)
(T (W x00 x00 x80 x3f x00 x00 x80 x3f)
(L (W x00 x00 x00 x00 x00 x00 x00 x00)) E)
(T (W x03 x00 x00 x00 xd0 x00 x00 x00)
(L (W xff xff xff xff xff xff xff xff)) E)))
(T (W x50 x00 x00 x00 x44 x00 x00 x00)
(T (W x45 x26 x22 x84 xe4 x9c xf2 xcb)
(T (W xff xff xff xff xff xff xff xff)
(L (W x6c x00 x00 x00 x60 x00 x00 x00))
(L (W x00 x00 x80 xbf x00 x00 x80 xbf)))
(T (W xff xff xff xff xff xff xff xff)
(L (W x00 x00 x80 xbf x00 x00 x80 xbf)) E))
(T (W x00 x00 x80 x3f x00 x00 x80 x3f)
(T (W xff xff xff xff xff xff xff xff)
(L (W x09 x00 x00 x00 x0c x00 x00 x00)) E)
(T (W x00 x00 x00 x00 xca x6f xfd xff)
(L (W x00 x00 x80 xbf x00 x00 x80 xbf)) E))))))
(T (W x6c x95 xf9 xff x00 x01 x01 x01)
(T (W xff xff xff xff xff xff xff xff)
(T (W x00 x00 x00 x00 x00 x00 x00 x00)
(T (W x01 x00 x00 x00 x04 x00 x00 x00)
(T (W x00 x00 x80 x3f x00 x00 x80 x3f)
(T (W x00 x00 x00 x00 x7a x81 xfb xff)
(L (W xff xff xff xff xac x00 x00 x00))
(L (W x45 x26 x22 x84 xe4 x9c xf2 xcb)))
(T (W xff xff xff xff xff xff xff xff)
(L (W x00 x00 x00 x00 x00 x00 x00 x00)) E))
(T (W x68 x00 x00 x00 x5c x00 x00 x00)
(T (W xc6 x01 xf6 xc4 xaa x64 xf9 x40)
(L (W xff xff xff xff xff xff xff xff))
(L (W x00 x00 x00 x00 x00 x00 x00 x00)))
(T (W x00 x00 x00 x00 x00 x00 x00 x00)
(L (W x00 x00 x80 xbf x00 x00 x80 xbf)) E)))
(T (W xbc x00 x00 x00 xb0 x00 x00 x00)
(T (W xff xff xff xff xff xff xff xff)
(T (W x00 x00 x00 x00 x00 x00 x00 x00)
(L (W x5d x00 x00 x00 xff xff xff xff))
(L (W x30 x32 x5f x43 x4c x45 x41 x52)))
(T (W xb8 x00 x00 x00 xac x00 x00 x00)
(L (W xff xff xff xff xff xff xff xff)) E))
(T (W xff xff xff xff xff xff xff xff)
(T (W x00 x00 x00 x00 x00 x00 x00 x00)
(L (W x00 x00 x00 x00 xdc x43 xfe xff)) E)
(T (W x00 x00 x00 x00 x00 x00 x00 x00)
(L (W x45 x44 x00 x00 x00 x00 x00 x00)) E))))
(T (W x04 x00 x00 x00 x8a x7e xfd xff)
(T (W xff xff xff xff xff xff xff xff)
(T (W xff xff xff xff xff xff xff xff)
(T (W x14 x00 x00 x00 x10 x00 x00 x00)
(L (W x49 xa1 x68 x4a xeb x5f xdd x3d))
(L (W x45 x26 x22 x84 xe4 x9c xf2 xcb)))
(T (W x72 x00 x00 x00 xff xff xff xff)
(L (W x18 x00 x00 x00 x0c x00 x00 x00)) E))
(T (W xa5 x01 x00 x00 xff xff xff xff)
(T (W x50 x00 x00 x00 x44 x00 x00 x00)
(L (W x00 x00 x00 x00 x00 x00 x00 x00)) E)
(T (W x50 x00 x00 x00 x44 x00 x00 x00)
(L (W xff xff xff xff xff xff xff xff)) E)))
(T (W x00 x00 x80 x3f x00 x00 x80 x3f)
(T (W x6c xe5 xfa xff x00 x01 x01 x01)
(T (W x6c xe5 xfb xff x00 x01 x01 x01)
(L (W x00 x00 x00 x00 x00 x00 x00 x00))
(L (W x00 x00 x80 xbf x00 x00 x80 xbf)))
(T (W x6b x65 x5f x77 x61 x72 x6c x69)
(L (W x00 x00 x00 x00 x00 x00 x00 x00)) E))
(T (W x00 x00 x00 x00 x00 x00 x00 x00)
(T (W x45 x26 x22 x84 xe4 x9c xf2 xcb)
(L (W xff xff xff xff xff xff xff xff)) E)
(T (W xff xff xff xff xff xff xff xff)
(L (W x00 x00 x00 x00 x00 x00 x00 x00)) E)))))
(T (W xff xff xff xff xff xff xff xff)
(T (W x00 x00 x00 x00 x00 x00 x00 x00)
(T (W x45 x26 x22 x84 xe4 x9c xf2 xcb)
(T (W x00 x00 x00 x00 x00 x00 x00 x00)
(T (W x54 x00 x00 x00 x48 x00 x00 x00)
(L (W xff xff xff xff xff xff xff xff))
(L (W xff xff xff xff xff xff xff xff)))
(T (W x68 x00 x00 x00 x5c x00 x00 x00)
(L (W x00 x00 x80 xbf x00 x00 x80 xbf)) E))
(T (W x00 x00 x00 x00 x00 x00 x00 x00)
(T (W x00 x00 x80 x3f x00 x00 x80 x3f)
(L (W x54 x02 x00 x00 x38 x01 x00 x00)) E)
(T (W x00 x00 x80 xbf x00 x00 x80 xbf)
(L (W xbc x00 x00 x00 x1e x00 x00 x00)) E)))
(T (W x50 x00 x00 x00 x44 x00 x00 x00)
(T (W x45 x26 x22 x84 xe4 x9c xf2 xcb)
(T (W x00 x00 x80 x3f x00 x00 x80 x3f)
(L (W x45 x44 x00 x00 x00 x00 x00 x00))
(L (W x00 x00 x80 xbf x00 x00 x80 xbf)))
(T (W x00 x00 x80 x3f x00 x00 x80 x3f)
(L (W x00 x00 x00 x00 x00 x00 x00 x00)) E))
(T (W x00 x00 x80 x3f x00 x00 x80 x3f)
(T (W x46 x53 x59 x53 x5f x4e x53 x5f)
(L (W x18 x00 x00 x00 x10 x00 x00 x00)) E)
(T (W x6c x55 xfd xff x00 x01 x01 x01)
(L (W x4f x84 x6f x8b xe8 xcb x63 xb7)) E))))
(T (W x00 x00 x00 x00 x00 x00 x00 x00)
(T (W x00 x00 x00 x00 xdc x33 xfa xff)
(T (W xff xff xff xff xff xff xff xff)
(T (W x18 x00 x00 x00 x10 x00 x00 x00)
(L (W x45 x26 x22 x84 xe4 x9c xf2 xcb))
(L (W x00 x00 x00 x00 x00 x00 x00 x00)))
(T (W xff xff xff xff xff xff xff xff)
(L (W xff xff xff xff xb0 x00 x00 x00)) E))
(T (W x00 x00 x00 x00 x00 x00 x00 x00)
(T (W xff xff xff xff x9c x00 x00 x00)
(L (W x00 x00 x80 xbf x00 x00 x80 xbf)) E)
(T (W xff xff xff xff xff xff xff xff)
(L (W xb0 x00 x00 x00 x64 x00 x00 x00)) E)))
(T (W x68 x00 x00 x00 x5c x00 x00 x00)
(T (W x2f x00 x00 x00 xff xff xff xff)
(T (W xd4 x00 x00 x00 xc8 x00 x00 x00)
(L (W x18 x00 x00 x00 x0c x00 x00 x00))
(L (W xff xff xff xff xb0 x00 x00 x00)))
(T (W x00 x00 x00 x00 x00 x00 x00 x00)
(L (W x00 x00 x80 xbf x00 x00 x80 xbf)) E))
(T (W x45 x26 x22 x84 xe4 x9c xf2 xcb)
(T (W xff xff xff xff xff xff xff xff)
(L (W x00 x00 x00 x00 x12 x00 x00 x00)) E)
(T (W xff xff xff xff xff xff xff xff)
(L (W x00 x00 x80 xbf x00 x00 x80 xbf)) E)))))))
(T (W x4a x86 xf9 xff x78 x00 x00 x00)
(T (W x00 x00 x00 x00 x00 x00 x00 x00)
(T (W x00 x00 x80 x3f x00 x00 x80 x3f)
(T (W xff xff xff xff xff xff xff xff)
(T (W x00 x00 x00 x00 xdc xff xf9 xff)
(T (W xff xff xff xff xff xff xff xff)
(T (W x00 x00 x80 x3f x00 x00 x80 x3f)
(L (W x00 x00 x80 xbf x00 x00 x80 xbf))
(L (W x00 x00 x00 x00 x00 x00 x00 x00)))
(T (W x45 x26 x22 x84 xe4 x9c xf2 xcb)
(L (W xff xff xff xff xff xff xff xff)) E))
(T (W x00 x00 x00 x00 x8a x9a xfe xff)
(T (W x4a xfe xfb xff x78 x00 x00 x00)
(L (W x00 x00 x00 x00 x00 x00 x00 x00))
(L (W xbc x00 x00 x00 x32 x00 x00 x00)))
(T (W x61 x6c x6c x68 x65 x6c x70 x5f)
(L (W xff xff xff xff xff xff xff xff)) E)))
(T (W x00 x00 x00 x00 x00 x00 x00 x00)
(T (W x00 x00 x00 x00 x00 x00 x00 x00)
(T (W x9a xbc xfb xff x74 x00 x00 x00)
(L (W x74 x00 x04 x00 x68 x00 x08 x00))
(L (W x45 x26 x22 x84 xe4 x9c xf2 xcb)))
(T (W x00 x00 x00 x00 x00 x00 x00 x00)
(L (W x4f x84 x6f x8b xe8 xcb x63 xb7)) E))
(T (W x00 x00 x00 x00 x00 x00 x00 x00)
(T (W x50 x00 x00 x00 x44 x00 x00 x00)
(L (W xff xff xff xff xff xff xff xff)) E)
(T (W x9a x3c xfd xff x74 x00 x00 x00)
(L (W x00 x00 x80 xbf x00 x00 x80 xbf)) E))))
(T (W x6c xe1 xf9 xff x00 x01 x01 x01)
(T (W x22 x00 x00 x00 x67 x72 x6f x75)
(T (W x00 x00 x80 x3f x00 x00 x80 x3f)
(T (W x00 x00 x80 x3f x00 x00 x80 x3f)
(L (W x00 x00 x80 xbf x00 x00 x80 xbf))
(L (W x00 x01 x01 x01 x82 xf8 xff xff)))
(T (W x45 x26 x22 x84 xe4 x9c xf2 xcb)
(L (W x00 x00 x00 x00 x00 x00 x00 x00)) E))
(T (W x00 x00 x00 x00 x00 x00 x00 x00)
(T (W xff xff xff xff xff xff xff xff)
(L (W xff xff xff xff xb0 x00 x00 x00)) E)
(T (W x00 x00 x00 x00 x00 x00 x00 x00)
(L (W x00 x00 x00 x00 x00 x00 x00 x00)) E)))
(T (W x00 x00 x00 x00 x00 x00 x00 x00)
(T (W x00 x00 x00 x00 x00 x00 x00 x00)
(T (W x46 x53 x59 x53 x5f x4e x53 x5f)
(L (W xd8 xdf xfd xff x3a x37 xfe xff))
(L (W xff xff xff xff xff xff xff xff)))
(T (W x00 x00 x00 x00 x00 x00 x00 x00)
(L (W x6c x00 x00 x00 x60 x00 x00 x00)) E))
(T (W x00 x00 x80 x3f x00 x00 x80 x3f)
(T (W xff xff xff xff xff xff xff xff)
(L (W x00 x00 x80 xbf x00 x00 x80 xbf)) E)
(T (W x00 x00 x00 x00 x00 x00 x00 x00)
(L (W xff xff xff xff xff xff xff xff)) E)))))
(T (W x45 x26 x22 x84 xe4 x9c xf2 xcb)
(T (W xff xff xff xff xff xff xff xff)
(T (W x00 x00 x80 x3f x00 x00 x80 x3f)
(T (W xff xff xff xff xff xff xff xff)
(T (W xff xff xff xff xff xff xff xff)
(L (W x4f x84 x6f x8b xe8 xcb x63 xb7))
(L (W x00 x00 x80 xbf x00 x00 x80 xbf)))
(T (W x00 x00 x00 x00 x00 x00 x00 x00)
(L (W xff xff xff xff xff xff xff xff)) E))
(T (W x00 x00 x80 x3f x00 x00 x80 x3f)
(T (W xcc x00 x00 x00 xc0 x00 x00 x00)
(L (W x00 x00 x80 xbf x00 x00 x80 xbf)) E)
(T (W xb0 x00 x00 x00 x64 x00 x00 x00)
(L (W xff xff xff xff xff xff xff xff)) E)))
(T (W x00 x00 x00 x00 x00 x00 x00 x00)
(T (W x45 x26 x22 x84 xe4 x9c xf2 xcb)
(T (W xff xff xff xff xff xff xff xff)
(L (W x00 x00 x80 xbf x00 x00 x80 xbf))
(L (W xff xff xff xff xc8 x00 x00 x00)))
(T (W xff xff xff xff xff xff xff xff)
(L (W x00 x00 x80 xbf x00 x00 x80 xbf)) E))
(T (W xff xff xff xff xff xff xff xff)
(T (W x9a x4c xfc xff x74 x00 x00 x00)
(L (W x00 x00 x00 x00 x00 x00 x00 x00)) E)
(T (W xff xff xff xff xff xff xff xff)
(L (W xff xff xff xff xa0 x00 x00 x00)) E))))
(T (W x45 x26 x22 x84 xe4 x9c xf2 xcb)
(T (W x00 x00 x00 x00 x00 x00 x00 x00)
(T (W x45 x26 x22 x84 xe4 x9c xf2 xcb)
(T (W x61 x72 x6c x69 x6b x65 x5f x6c)
(L (W x00 x00 x00 x00 x00 x00 x00 x00))
(L (W x00 x00 x80 xbf x00 x00 x80 xbf)))
(T (W x00 x00 x80 x3f x00 x00 x80 x3f)
(L (W x30 x32 x5f x43 x4c x45 x41 x52)) E))
(T (W xff xff xff xff xff xff xff xff)
(T (W x00 x00 x00 x00 x00 x00 x00 x00)
(L (W xff xff xff xff xff xff xff xff)) E)
(T (W x00 x00 x00 x00 x00 x00 x00 x00)
(L (W x00 x00 x00 x00 x00 x00 x00 x00)) E)))
(T (W xff xff xff xff xff xff xff xff)
(T (W xe7 x4c x04 xe9 x94 xdd x2e x70)
(T (W x00 x00 x80 x3f x00 x00 x80 x3f)
(L (W x00 x00 x00 x00 x7a xed xfd xff))
(L (W x36 x00 x00 x00 xff xff xff xff)))
(T (W x00 x00 x80 x3f x00 x00 x80 x3f)
(L (W xff xff xff xff xff xff xff xff)) E))
(T (W x34 x01 x00 x00 x04 x00 x00 x00)
(T (W x00 x00 x80 x3f x00 x00 x80 x3f)
(L (W x12 x00 x00 x00 x15 x00 x00 x00)) E)
(T (W x54 x00 x00 x00 x48 x00 x00 x00)
(L (W x00 x00 x00 x00 x00 x00 x00 x00)) E))))))
(T (W xff xff xff xff xff xff xff xff)
(T (W x00 x00 x00 x00 x00 x00 x00 x00)
(T (W x00 x00 x80 x3f x00 x00 x80 x3f)
(T (W x45 x26 x22 x84 xe4 x9c xf2 xcb)
(T (W xff xff xff xff xff xff xff xff)
(T (W x01 x00 x00 x00 x19 x00 x00 x00)
(L (W x00 x00 x00 x00 x00 x00 x00 x00))
(L (W x45 x26 x22 x84 xe4 x9c xf2 xcb)))
(T (W x00 x00 x00 x00 x00 x00 x00 x00)
(L (W xff xff xff xff xff xff xff xff)) E))
(T (W x00 x00 x80 x3f x00 x00 x80 x3f)
(T (W x68 x00 x00 x00 x5c x00 x00 x00)
(L (W x45 x26 x22 x84 xe4 x9c xf2 xcb)) E)
(T (W xff xff xff xff xff xff xff xff)
(L (W xff xff xff xff xff xff xff xff)) E)))
(T (W x00 x00 x00 x00 x00 x00 x00 x00)
(T (W x45 x26 x22 x84 xe4 x9c xf2 xcb)
(T (W xff xff xff xff xff xff xff xff)
(L (W x00 x00 x80 xbf x00 x00 x80 xbf))
(L (W x18 x00 x00 x00 x0c x00 x00 x00)))
(T (W x03 x00 x00 x00 xc4 x00 x00 x00)
(L (W x45 x26 x22 x84 xe4 x9c xf2 xcb)) E))
(T (W x00 x00 x80 x3f x00 x00 x80 x3f)
(T (W x6c x49 xfc xff x00 x01 x01 x01)
(L (W x00 x00 x00 x00 x00 x00 x00 x00)) E)
(T (W xff xff xff xff xb0 x00 x00 x00)
(L (W x4a x46 xff xff x78 x00 x00 x00)) E))))
(T (W x68 x00 x00 x00 x5c x00 x00 x00)
(T (W x00 x00 x80 x3f x00 x00 x80 x3f)
(T (W x00 x00 x80 x3f x00 x00 x80 x3f)
(T (W xff xff xff xff xbc x00 x00 x00)
(L (W x00 x00 x00 x00 xdc xa7 xfd xff))
(L (W x00 x00 x00 x00 x00 x00 x00 x00)))
(T (W x45 x26 x22 x84 xe4 x9c xf2 xcb)
(L (W x00 x00 x00 x00 x00 x00 x00 x00)) E))
(T (W x00 x00 x80 x3f x00 x00 x80 x3f)
(T (W x45 x44 x00 x00 x00 x00 x00 x00)
(L (W xff xff xff xff xff xff xff xff)) E)
(T (W x46 x53 x59 x53 x5f x4e x53 x5f)
(L (W x00 x00 x00 x00 x00 x00 x00 x00)) E)))
(T (W x00 x00 x00 x00 x02 x00 x00 x00)
(T (W x00 x00 x00 x00 x00 x00 x00 x00)
(T (W x00 x00 x00 x00 x00 x00 x00 x00)
(L (W x04 x00 x00 x00 x5a xed xfd xff))
(L (W xff xff xff xff xff xff xff xff)))
(T (W x70 x5f x77 x69 x6c x64 x5f x70)
(L (W x19 x00 x00 x00 x1c x00 x00 x00)) E))
(T (W x45 x26 x22 x84 xe4 x9c xf2 xcb)
(T (W x00 x00 x80 x3f x00 x00 x80 x3f)
(L (W x6c x00 x00 x00 x60 x00 x00 x00)) E)
(T (W x45 x26 x22 x84 xe4 x9c xf2 xcb)
(L (W xff xff xff xff xff xff xff xff)) E)))))
(T (W x00 x00 x00 x00 x00 x00 x00 x00)
(T (W x50 x00 x00 x00 x44 x00 x00 x00)
(T (W xff xff xff xff xff xff xff xff)
(T (W x00 x00 x00 x00 x00 x00 x00 x00)
(T (W xf4 xa6 xfb xff x10 x00 x00 x00)
(L (W x00 x00 x80 xbf x00 x00 x80 xbf))
(L (W x4a x96 xff xff x78 x00 x00 x00)))
(T (W x02 xa9 xff xff x00 x00 x01 x01)
(L (W x44 x02 x00 x00 x30 x01 x00 x00)) E))
(T (W x00 x00 x00 x00 x00 x00 x00 x00)
(T (W xff xff xff xff x9c x00 x00 x00)
(L (W x4a x16 xfe xff x78 x00 x00 x00)) E)
(T (W x00 x00 x80 xbf x00 x00 x80 xbf)
(L (W x00 x00 x00 x00 x00 x00 x00 x00)) E)))
(T (W x9c x5d xfa xff x0f x00 x00 x00)
(T (W x00 x00 x00 x00 x00 x00 x00 x00)
(T (W x00 x00 x00 x00 x04 x00 x00 x00)
(L (W x6c x00 x00 x00 x60 x00 x00 x00))
(L (W xff xff xff xff xff xff xff xff)))
(T (W x45 x44 x00 x00 x00 x00 x00 x00)
(L (W x54 x00 x00 x00 x48 x00 x00 x00)) E))
(T (W x00 x00 x00 x00 x00 x00 x00 x00)
(T (W xcc x00 x00 x00 xc0 x00 x00 x00)
(L (W x49 xa1 x68 x4a xeb x5f xdd x3d)) E)
(T (W xf4 x66 xfd xff x1a x00 x00 x00)
(L (W xcc x00 x00 x00 x01 x00 x00 x00)) E))))
(T (W x9a xf4 xf9 xff x74 x00 x00 x00)
(T (W x00 x00 x00 x00 x00 x00 x00 x00)
(T (W x00 x00 x00 x00 x00 x00 x00 x00)
(T (W x49 xa1 x68 x4a xeb x5f xdd x3d)
(L (W x68 x00 x00 x00 x5c x00 x00 x00))
(L (W x4a xb6 xff xff x78 x00 x00 x00)))
(T (W x45 x26 x22 x84 xe4 x9c xf2 xcb)
(L (W x00 x00 x00 x00 x00 x00 x00 x00)) E))
(T (W xa5 x01 x00 x00 xff xff xff xff)
(T (W x00 x00 x80 x3f x00 x00 x80 x3f)
(L (W xff xff xff xff xff xff xff xff)) E)
(T (W x00 x00 x80 xbf x00 x00 x80 xbf)
(L (W x49 xa1 x68 x4a xeb x5f xdd x3d)) E)))
(T (W xff xff xff xff xff xff xff xff)
(T (W x00 x00 x00 x00 x00 x00 x00 x00)
(T (W x00 x00 x80 x3f x00 x00 x80 x3f)
(L (W x00 x00 x00 x00 x00 x00 x00 x00))
(L (W x00 x00 x00 x00 x00 x00 x00 x00)))
(T (W xdc x00 x00 x00 xb8 x00 x00 x00)
(L (W xff xff xff xff xff xff xff xff)) E))
(T (W x00 x00 x00 x00 x00 x00 x00 x00)
(T (W x00 x00 x80 x3f x00 x00 x80 x3f)
(L (W xff xff xff xff xff xff xff xff)) E)
(T (W x00 x00 x80 xbf x00 x00 x80 xbf)
(L (W x21 xf8 xaf x28 xbf x5b x5d x6a)) E))))))))))))))
(T (W x06 x00 x00 x00 x04 x00 x00 x00)
(T (W xe0 x78 x06 x00 x34 x74 x06 x00)
(T (W x00 x3f x06 x00 x14 x38 x06 x00)
(T (W x18 xca x05 x00 x1c xc3 x05 x00)
(T (W x08 xc9 x04 x00 x1c xc2 x04 x00)
(T (W xf0 x89 x03 x00 xa4 x88 x03 x00)
(T (W x50 x94 x01 x00 xac x8f x01 x00)
(T (W xff xff xff xff xff xff xff xff)
(T (W x00 x00 x80 x3f x00 x00 x80 x3f)
(T (W xff xff xff xff xff xff xff xff)
(T (W x00 x00 x00 x00 x00 x00 x00 x00)
(T (W x00 x00 x80 x3f x00 x00 x80 x3f)
(T (W xff xff xff xff xff xff xff xff)
(T (W x00 x00 x00 x00 x00 x00 x00 x00)
(L (W x00 x00 x00 x00 x00 x00 x00 x00))
(L (W x54 x02 x00 x00 x38 x01 x00 x00)))
(T (W x00 x00 x00 x00 x00 x00 x00 x00)
(L (W xc4 x00 x00 x00 x02 x00 x00 x00)) E))
(T (W x00 x00 x00 x00 x00 x00 x00 x00)
(T (W x00 x00 x80 x3f x00 x00 x80 x3f)
(L (W x00 x00 x00 x00 x00 x00 x00 x00))
(L (W x00 x00 x00 x00 x00 x00 x00 x00)))
(T (W x18 x00 x00 x00 x10 x00 x00 x00)
(L (W xff xff xff xff xff xff xff xff)) E)))
(T (W x40 x00 x00 x00 x0c x00 x00 x00)
(T (W x00 x00 x00 x00 x00 x00 x00 x00)
(T (W x00 x00 x00 x00 x00 x00 x00 x00)
(L (W x00 x00 x80 xbf x00 x00 x80 xbf))
(L (W x00 x00 x80 xbf x00 x00 x80 xbf)))
(T (W x00 x00 x00 x00 x00 x00 x00 x00)
(L (W x00 x00 x00 x00 x00 x00 x00 x00)) E))
(T (W xff xff xff xff xff xff xff xff)
(T (W x00 x00 x00 x00 x00 x00 x00 x00)
(L (W xff xff xff xff xff xff xff xff)) E)
(T (W x00 x00 x80 xbf x00 x00 x80 xbf)
(L (W x00 x00 x00 x00 x00 x00 x00 x00)) E))))
(T (W x00 x00 x80 x3f x00 x00 x80 x3f)
(T (W x18 x00 x00 x00 x10 x00 x00 x00)
(T (W x23 x00 x00 x00 x0c x00 x00 x00)
(T (W x02 x00 x00 x00 x2c x01 x00 x00)
(L (W x4f x84 x6f x8b xe8 xcb x63 xb7))
(L (W x00 x00 x80 xbf x00 x00 x80 xbf)))
(T (W xff xff xff xff xff xff xff xff)
(L (W xff xff xff xff xff xff xff xff)) E))
(T (W x00 x00 x00 x00 x00 x00 x00 x00)
(T (W x00 x00 x00 x00 xf4 x17 xfc xff)
(L (W x00 x00 x80 xbf x00 x00 x80 xbf)) E)
(T (W x45 x26 x22 x84 xe4 x9c xf2 xcb)
(L (W x46 x53 x59 x53 x5f x4e x53 x5f)) E)))
(T (W x00 x00 x00 x00 x04 x00 x00 x00)
(T (W x00 x00 x00 x00 x00 x00 x00 x00)
(T (W x12 xdf xfe xff x00 x00 x01 x01)
(L (W x00 x00 x80 xbf x00 x00 x80 xbf))
(L (W xff xff xff xff xb0 x00 x00 x00)))
(T (W x00 x00 x00 x00 xe2 xdb xfc xff)
(L (W x00 x00 x80 xbf x00 x00 x80 xbf)) E))
(T (W x00 x00 x00 x00 x00 x00 x00 x00)
(T (W x45 x26 x22 x84 xe4 x9c xf2 xcb)
(L (W x00 x00 x00 x00 x00 x00 x00 x00)) E)
(T (W x04 x00 x00 x00 x80 x03 x00 x00)
(L (W x18 x00 x00 x00 x0c x00 x00 x00)) E)))))
(T (W x17 x00 x00 x00 xff xff xff xff)
(T (W x45 x26 x22 x84 xe4 x9c xf2 xcb)
(T (W x68 x00 x00 x00 x5c x00 x00 x00)
(T (W xff xff xff xff x03 x00 x00 x00)
(T (W x45 x26 x22 x84 xe4 x9c xf2 xcb)
(L (W x5f x4e x53 x5f x30 x32 x5f x43))
(L (W x00 x00 x00 x00 x00 x00 x00 x00)))
(T (W xb4 x8d xfc xff x0b x00 x00 x00)
(L (W x03 x00 x00 x00 xd8 x00 x00 x00)) E))
(T (W x49 xa1 x68 x4a xeb x5f xdd x3d)
(T (W x00 x00 x80 x3f x00 x00 x80 x3f)
(L (W x00 x00 x00 x00 x00 x00 x00 x00)) E)
(T (W xff xff xff xff xff xff xff xff)
(L (W xff xff xff xff xff xff xff xff)) E)))
(T (W x00 x00 x00 x00 x00 x00 x00 x00)
(T (W x00 x00 x00 x00 x00 x00 x00 x00)
(T (W x01 x00 x00 x00 xb0 x00 x00 x00)
(L (W x00 x00 x80 xbf x00 x00 x80 xbf))
(L (W x62 xc6 xff xff x78 x00 x00 x00)))
(T (W x18 x00 x00 x00 x10 x00 x00 x00)
(L (W x00 x00 x00 x00 x00 x00 x00 x00)) E))
(T (W x00 x00 x80 x3f x00 x00 x80 x3f)
(T (W x54 x00 x00 x00 x48 x00 x00 x00)
(L (W xff xff xff xff xff xff xff xff)) E)
(T (W x84 x49 xfd xff x00 x01 x01 x01)
(L (W x00 x00 x80 xbf x00 x00 x80 xbf)) E))))
(T (W x00 x00 x80 x3f x00 x00 x80 x3f)
(T (W x45 x26 x22 x84 xe4 x9c xf2 xcb)
(T (W x45 x26 x22 x84 xe4 x9c xf2 xcb)
(T (W x18 x00 x00 x00 x10 x00 x00 x00)
(L (W x50 x00 x00 x00 x44 x00 x00 x00))
(L (W x00 x00 x00 x00 x00 x00 x00 x00)))
(T (W x00 x00 x00 x00 x00 x00 x00 x00)
(L (W x00 x00 x01 x01 x3b x01 x00 x00)) E))
(T (W x45 x26 x22 x84 xe4 x9c xf2 xcb)
(T (W x00 x00 x00 x00 xe2 x2b xfc xff)
(L (W x21 x00 x00 x00 x24 x00 x00 x00)) E)
(T (W x00 x00 x00 x00 x00 x00 x00 x00)
(L (W x30 x32 x5f x43 x4c x45 x41 x52)) E)))
(T (W x85 x03 x00 x00 xff xff xff xff)
(T (W x1d xc1 x38 x75 x73 xb7 xfc xcf)
(T (W x00 x00 x00 x00 x00 x00 x00 x00)
(L (W xff xff xff xff xff xff xff xff))
(L (W xff xff xff xff xff xff xff xff)))
(T (W x22 x00 x00 x00 x67 x72 x6f x75)
(L (W x45 x26 x22 x84 xe4 x9c xf2 xcb)) E))
(T (W x68 x00 x00 x00 x5c x00 x00 x00)
(T (W x45 x26 x22 x84 xe4 x9c xf2 xcb)
(L (W x00 x00 x80 xbf x00 x00 x80 xbf)) E)
(T (W x00 x00 x00 x00 x00 x00 x00 x00)
(L (W xff xff xff xff xff xff xff xff)) E))))))
(T (W x00 x00 x00 x00 x00 x00 x00 x00)
(T (W x00 x00 x80 x3f x00 x00 x80 x3f)
(T (W x64 x00 x00 x00 xa0 x00 x00 x00)
(T (W x50 x00 x00 x00 x44 x00 x00 x00)
(T (W x64 x00 x00 x00 x9c x00 x00 x00)
(T (W x45 x26 x22 x84 xe4 x9c xf2 xcb)
(L (W x45 x26 x22 x84 xe4 x9c xf2 xcb))
(L (W x30 x32 x5f x43 x4c x45 x41 x52)))
(T (W x00 x00 x00 x00 x00 x00 x00 x00)
(L (W xff xff xff xff xff xff xff xff)) E))
(T (W xff xff xff xff xff xff xff xff)
(T (W x00 x00 x80 x3f x00 x00 x80 x3f)
(L (W x30 x32 x5f x43 x4c x45 x41 x52))
(L (W x18 x00 x00 x00 x10 x00 x00 x00)))
(T (W xb4 x05 xfd xff x16 x00 x00 x00)
(L (W xff xff xff xff xff xff xff xff)) E)))
(T (W x00 x00 x00 x00 x00 x00 x00 x00)
(T (W x00 x00 x00 x00 x00 x00 x00 x00)
(T (W x00 x00 x80 x3f x00 x00 x80 x3f)
(L (W x00 x00 x00 x00 x1c x00 x20 x00))
(L (W x6c x00 x00 x00 x60 x00 x00 x00)))
(T (W x00 x00 x00 x00 x00 x00 x00 x00)
(L (W x00 x00 x00 x00 x00 x00 x00 x00)) E))
(T (W xa3 xa9 x81 x7f x6f xbe x3a xeb)
(T (W x00 x00 x80 x3f x00 x00 x80 x3f)
(L (W xff xff xff xff xff xff xff xff)) E)
(T (W x00 x00 x80 xbf x00 x00 x80 xbf)
(L (W x45 x26 x22 x84 xe4 x9c xf2 xcb)) E))))
(T (W x54 x00 x00 x00 x48 x00 x00 x00)
(T (W x5f x6c x76 x31 x5f x74 x6f x5f)
(T (W x00 x00 x80 x3f x00 x00 x80 x3f)
(T (W x4f x84 x6f x8b xe8 xcb x63 xb7)
(L (W x00 x00 x80 xbf x00 x00 x80 xbf))
(L (W x44 x00 x00 x00 x00 x00 x80 xbf)))
(T (W x00 x00 x00 x00 x00 x00 x00 x00)
(L (W x2a x00 x00 x00 xff xff xff xff)) E))
(T (W x00 x00 x00 x00 x00 x00 x00 x00)
(T (W xff xff xff xff xff xff xff xff)
(L (W x84 x21 xfe xff x00 x01 x01 x01)) E)
(T (W x00 x00 x01 x01 xc6 x00 x00 x00)
(L (W x00 x00 x00 x00 x00 x00 x00 x00)) E)))
(T (W xff xff xff xff xff xff xff xff)
(T (W x00 x00 x00 x00 x00 x00 x00 x00)
(T (W x00 x00 x00 x00 x00 x00 x00 x00)
(L (W x40 x00 x00 x00 x00 x00 x80 xbf))
(L (W xff xff xff xff xff xff xff xff)))
(T (W x00 x00 x00 x00 x00 x00 x00 x00)
(L (W x00 x00 x80 xbf x00 x00 x80 xbf)) E))
(T (W x00 x00 x80 x3f x00 x00 x80 x3f)
(T (W xff xff xff xff x9c x00 x00 x00)
(L (W x00 x00 x80 xbf x00 x00 x80 xbf)) E)
(T (W x46 x53 x59 x53 x5f x4e x53 x5f)
(L (W xff xff xff xff xc0 x00 x00 x00)) E)))))
(T (W x6c x00 x00 x00 x60 x00 x00 x00)
(T (W xff xff xff xff xff xff xff xff)
(T (W x00 x00 x80 x3f x00 x00 x80 x3f)
(T (W xff xff xff xff xff xff xff xff)
(T (W xff xff xff xff xc8 x00 x00 x00)
(L (W x00 x00 x00 x00 x00 x00 x00 x00))
(L (W x00 x00 x80 xbf x00 x00 x80 xbf)))
(T (W xff xff xff xff xff xff xff xff)
(L (W xff xff xff xff xff xff xff xff)) E))
(T (W x45 x26 x22 x84 xe4 x9c xf2 xcb)
(T (W x45 x26 x22 x84 xe4 x9c xf2 xcb)
(L (W x00 x00 x80 xbf x00 x00 x80 xbf)) E)
(T (W x45 x26 x22 x84 xe4 x9c xf2 xcb)
(L (W xff xff xff xff xff xff xff xff)) E)))
(T (W x00 x00 x00 x00 x00 x00 x00 x00)
(T (W x00 x00 x00 x00 x00 x00 x00 x00)
(T (W xff xff xff xff xbc x00 x00 x00)
(L (W x45 x26 x22 x84 xe4 x9c xf2 xcb))
(L (W xff xff xff xff xa0 x00 x00 x00)))
(T (W xc4 x00 x00 x00 x01 x00 x00 x00)
(L (W x00 x00 x00 x00 x00 x00 x00 x00)) E))
(T (W xff xff xff xff xff xff xff xff)
(T (W x00 x00 x80 x3f x00 x00 x80 x3f)
(L (W x00 x00 x00 x00 x00 x00 x00 x00)) E)
(T (W xff xff xff xff xdc x00 x00 x00)
(L (W x00 x00 x00 x00 xf4 x4f xff xff)) E))))
(T (W x68 x00 x00 x00 x5c x00 x00 x00)
(T (W x00 x00 x00 x00 x00 x00 x00 x00)
(T (W x00 x00 x00 x00 x00 x00 x00 x00)
(T (W xff xff xff xff x01 x00 x00 x00)
(L (W xff xff xff xff x10 x00 x00 x00))
(L (W x00 x00 x80 xbf x00 x00 x80 xbf)))
(T (W x00 x00 x80 x3f x00 x00 x80 x3f)
(L (W x00 x00 x00 x00 x00 x00 x00 x00)) E))
(T (W xd4 x00 x00 x00 xc8 x00 x00 x00)
(T (W x00 x00 x00 x00 x00 x00 x00 x00)
(L (W xff xff xff xff xff xff xff xff)) E)
(T (W x00 x00 x00 x00 x00 x00 x00 x00)
(L (W x00 x00 x00 x00 x00 x00 x00 x00)) E)))
(T (W xff xff xff xff xff xff xff xff)
(T (W x2e x00 x00 x00 xff xff xff xff)
(T (W x00 x00 x00 x00 x00 x00 x00 x00)
(L (W xff xff xff xff xff xff xff xff))
(L (W xff xff xff xff xff xff xff xff)))
(T (W x00 x00 x80 x3f x00 x00 x80 x3f)
(L (W x03 x00 x00 x00 xd8 x00 x00 x00)) E))
(T (W xff xff xff xff xff xff xff xff)
(T (W x00 x00 x00 x00 x00 x00 x00 x00)
(L (W x45 x26 x22 x84 xe4 x9c xf2 xcb)) E)
(T (W x00 x00 x80 xbf x00 x00 x80 xbf)
(L (W x5d x00 x00 x00 xff xff xff xff)) E)))))))
(T (W x00 x00 x00 x00 x00 x00 x00 x00)
(T (W xff xff xff xff xff xff xff xff)
(T (W x00 x00 x00 x00 x00 x00 x00 x00)
(T (W x00 x00 x80 x3f x00 x00 x80 x3f)
(T (W x00 x00 x00 x00 x02 x00 x00 x00)
(T (W x45 x26 x22 x84 xe4 x9c xf2 xcb)
(T (W x01 x00 x00 x00 xb0 x00 x00 x00)
(L (W xc4 x00 x00 x00 x02 x00 x00 x00))
(L (W x54 x00 x00 x00 x48 x00 x00 x00)))
(T (W xb8 x00 x00 x00 xac x00 x00 x00)
(L (W x00 x00 x00 x00 x00 x00 x00 x00)) E))
(T (W x00 x00 x00 x00 x00 x00 x00 x00)
(T (W xff xff xff xff xff xff xff xff)
(L (W xff xff xff xff xa0 x00 x00 x00))
(L (W x30 x32 x5f x43 x4c x45 x41 x52)))
(T (W x00 x00 x00 x00 x01 x00 x00 x00)
(L (W x00 x00 x00 x00 x00 x00 x00 x00)) E)))
(T (W x00 x00 x00 x00 xf4 x3b xfa xff)
(T (W xb8 x00 x00 x00 xac x00 x00 x00)
(T (W xff xff xff xff xff xff xff xff)
(L (W xff xff xff xff x9c x00 x00 x00))
(L (W x94 x04 x00 x00 x80 x03 x00 x00)))
(T (W x18 x00 x00 x00 x10 x00 x00 x00)
(L (W xff xff xff xff xa0 x00 x00 x00)) E))
(T (W x00 x00 x80 x3f x00 x00 x80 x3f)
(T (W xff xff xff xff xff xff xff xff)
(L (W x00 x00 x80 xbf x00 x00 x80 xbf)) E)
(T (W xff xff xff xff xff xff xff xff)
(L (W xff xff xff xff xff xff xff xff)) E))))
(T (W xff xff xff xff xff xff xff xff)
(T (W x45 x26 x22 x84 xe4 x9c xf2 xcb)
(T (W xff xff xff xff xff xff xff xff)
(T (W xb2 x98 xfb xff x74 x00 x00 x00)
(L (W xff xff xff xff xff xff xff xff))
(L (W xff xff xff xff xff xff xff xff)))
(T (W x00 x00 x00 x00 x00 x00 x00 x00)
(L (W x00 x00 x80 xbf x00 x00 x80 xbf)) E))
(T (W xff xff xff xff x9c x00 x00 x00)
(T (W x00 x00 x00 x00 x00 x00 x00 x00)
(L (W xff xff xff xff xff xff xff xff)) E)
(T (W x00 x00 x80 xbf x00 x00 x80 xbf)
(L (W x45 x26 x22 x84 xe4 x9c xf2 xcb)) E)))
(T (W x00 x00 x80 x3f x00 x00 x80 x3f)
(T (W x00 x00 x80 x3f x00 x00 x80 x3f)
(T (W x00 x00 x80 x3f x00 x00 x80 x3f)
(L (W x97 x58 xbb x28 xbf xd9 x6a x6a))
(L (W x00 x00 x80 xbf x00 x00 x80 xbf)))
(T (W x84 xdd xfc xff x00 x01 x01 x01)
(L (W x00 x00 x00 x00 xe2 xdf xfe xff)) E))
(T (W x00 x00 x00 x00 xf4 x5b xfb xff)
(T (W x5f x77 x69 x6c x64 x5f x70 x6f)
(L (W xcc x00 x00 x00 x02 x00 x00 x00)) E)
(T (W x68 x00 x00 x00 x5c x00 x00 x00)
(L (W x00 x00 x00 x00 x00 x00 x00 x00)) E)))))
(T (W x00 x00 x00 x00 x00 x00 x00 x00)
(T (W x62 xca xf9 xff x78 x00 x00 x00)
(T (W xff xff xff xff xff xff xff xff)
(T (W x00 x00 x00 x00 x00 x00 x00 x00)
(T (W x12 x93 xfe xff x00 x00 x01 x01)
(L (W xff xff xff xff xac x00 x00 x00))
(L (W x18 x00 x00 x00 x10 x00 x00 x00)))
(T (W x00 x00 x80 x3f x00 x00 x80 x3f)
(L (W x00 x00 x00 x00 x00 x00 x00 x00)) E))
(T (W xff xff xff xff xff xff xff xff)
(T (W x46 x53 x59 x53 x5f x4e x53 x5f)
(L (W xff xff xff xff xff xff xff xff)) E)
(T (W xb2 x08 xfd xff x74 x00 x00 x00)
(L (W x00 x00 x80 xbf x00 x00 x80 xbf)) E)))
(T (W x50 x00 x00 x00 x44 x00 x00 x00)
(T (W x45 x26 x22 x84 xe4 x9c xf2 xcb)
(T (W x22 x00 x00 x00 x67 x72 x6f x75)
(L (W xff xff xff xff xff xff xff xff))
(L (W x00 x00 x00 x00 x00 x00 x00 x00)))
(T (W x0e x4c xac xeb x6f x4d xab x7a)
(L (W xff xff xff xff xff xff xff xff)) E))
(T (W x00 x00 x00 x00 x00 x00 x00 x00)
(T (W x74 x03 x00 x00 x4c x02 x00 x00)
(L (W x45 x26 x22 x84 xe4 x9c xf2 xcb)) E)
(T (W x00 x00 x00 x00 x00 x00 x00 x00)
(L (W xa4 x04 x00 x00 x88 x03 x00 x00)) E))))
(T (W xff xff xff xff xff xff xff xff)
(T (W x84 x2d xfa xff x00 x01 x01 x01)
(T (W xff xff xff xff xff xff xff xff)
(T (W x00 x00 x00 x00 x00 x00 x00 x00)
(L (W xff xff xff xff xbc x00 x00 x00))
(L (W xff xff xff xff xff xff xff xff)))
(T (W xff xff xff xff xff xff xff xff)
(L (W x00 x00 x80 xbf x00 x00 x80 xbf)) E))
(T (W x00 x00 x00 x00 x00 x00 x00 x00)
(T (W x00 x00 x80 x3f x00 x00 x80 x3f)
(L (W x46 x53 x59 x53 x5f x4e x53 x5f)) E)
(T (W x18 x00 x00 x00 x0c x00 x00 x00)
(L (W xcc x00 x00 x00 x01 x00 x00 x00)) E)))
(T (W x00 x00 x80 x3f x00 x00 x80 x3f)
(T (W x68 x00 x00 x00 x5c x00 x00 x00)
(T (W x21 x00 x00 x00 x24 x00 x00 x00)
(L (W x00 x00 x80 xbf x00 x00 x80 xbf))
(L (W x00 x00 x80 xbf x00 x00 x80 xbf)))
(T (W x18 x00 x00 x00 x10 x00 x00 x00)
(L (W x00 x00 x00 x00 x00 x00 x00 x00)) E))
(T (W x00 x00 x00 x00 x00 x00 x00 x00)
(T (W xff xff xff xff xff xff xff xff)
(L (W xf4 x06 x00 x00 xd8 x05 x00 x00)) E)
(T (W xff xff xff xff xff xff xff xff)
(L (W x45 x26 x22 x84 xe4 x9c xf2 xcb)) E))))))
(T (W x54 x00 x00 x00 x48 x00 x00 x00)
(T (W x18 x00 x00 x00 x10 x00 x00 x00)
(T (W xc9 x00 x00 x00 xff xff xff xff)
(T (W xff xff xff xff xff xff xff xff)
(T (W x45 x26 x22 x84 xe4 x9c xf2 xcb)
(T (W xff xff xff xff xff xff xff xff)
(L (W x84 x85 xfd xff x00 x01 x01 x01))
(L (W x6c x00 x00 x00 x60 x00 x00 x00)))
(T (W x01 x00 x00 x00 x9c x00 x00 x00)
(L (W x00 x00 x00 x00 x00 x00 x00 x00)) E))
(T (W x00 x00 x80 x3f x00 x00 x80 x3f)
(T (W x34 x01 x00 x00 x04 x00 x00 x00)
(L (W xff xff xff xff xff xff xff xff))
(L (W x00 x00 x00 x00 x00 x00 x00 x00)))
(T (W x49 x65 xff x4b x84 x98 x7b x61)
(L (W x00 x00 x80 xbf x00 x00 x80 xbf)) E)))
(T (W x45 x26 x22 x84 xe4 x9c xf2 xcb)
(T (W xff xff xff xff x04 x00 x00 x00)
(T (W x4c x45 x41 x52 x45 x44 x00 x00)
(L (W xff xff xff xff xff xff xff xff))
(L (W x00 x00 x00 x00 x00 x00 x00 x00)))
(T (W x45 x26 x22 x84 xe4 x9c xf2 xcb)
(L (W xff xff xff xff xff xff xff xff)) E))
(T (W xff xff xff xff xff xff xff xff)
(T (W x4b x00 x00 x00 xff xff xff xff)
(L (W x54 x00 x00 x00 x48 x00 x00 x00)) E)
(T (W x00 x00 x00 x00 x00 x00 x00 x00)
(L (W x00 x00 x00 x00 xe2 x47 xff xff)) E))))
(T (W xff xff xff xff xff xff xff xff)
(T (W x64 x00 x00 x00 x9c x00 x00 x00)
(T (W xff xff xff xff xff xff xff xff)
(T (W x2c x01 x00 x00 x04 x00 x00 x00)
(L (W x00 x00 x00 x00 x00 x00 x00 x00))
(L (W x58 x00 x00 x00 x4c x00 x00 x00)))
(T (W xff xff xff xff xff xff xff xff)
(L (W x62 xa2 xfe xff x78 x00 x00 x00)) E))
(T (W xff xff xff xff xff xff xff xff)
(T (W x00 x00 x80 x3f x00 x00 x80 x3f)
(L (W x00 x00 x00 x00 x00 x00 x00 x00)) E)
(T (W x00 x00 x80 xbf x00 x00 x80 xbf)
(L (W xff xff xff xff xa0 x00 x00 x00)) E)))
(T (W x00 x00 x80 x3f x00 x00 x80 x3f)
(T (W x50 x00 x00 x00 x44 x00 x00 x00)
(T (W x54 x00 x00 x00 x48 x00 x00 x00)
(L (W x46 x53 x59 x53 x5f x4e x53 x5f))
(L (W x00 x00 x80 xbf x00 x00 x80 xbf)))
(T (W x67 x72 x6f x75 x70 x5f x6c x65)
(L (W x00 x00 x00 x00 x00 x00 x00 x00)) E))
(T (W x70 x5f x6c x65 x61 x64 x65 x72)
(T (W x00 x00 x00 x00 x00 x00 x00 x00)
(L (W xff xff xff xff xff xff xff xff)) E)
(T (W xc4 x00 x00 x00 x02 x00 x00 x00)
(L (W x00 x00 x00 x00 x00 x00 x00 x00)) E)))))
(T (W xff xff xff xff xff xff xff xff)
(T (W x00 x00 x00 x00 x00 x00 x00 x00)
(T (W x00 x00 x00 x00 x00 x00 x00 x00)
(T (W x00 x00 x00 x00 x00 x00 x00 x00)
(T (W x00 x00 x80 x3f x00 x00 x80 x3f)
(L (W xff xff xff xff xff xff xff xff))
(L (W xff xff xff xff xff xff xff xff)))
(T (W x00 x00 x80 x3f x00 x00 x80 x3f)
(L (W x00 x00 x80 xbf x00 x00 x80 xbf)) E))
(T (W x46 x53 x59 x53 x5f x4e x53 x5f)
(T (W x00 x00 x00 x00 x00 x00 x00 x00)
(L (W xff xff xff xff xff xff xff xff)) E)
(T (W x45 x26 x22 x84 xe4 x9c xf2 xcb)
(L (W x18 x00 x00 x00 x10 x00 x00 x00)) E)))
(T (W x00 x00 x80 x3f x00 x00 x80 x3f)
(T (W x68 x00 x00 x00 x5c x00 x00 x00)
(T (W x49 xa1 x68 x4a xeb x5f xdd x3d)
(L (W x00 x00 x00 x00 xe2 xd7 xfd xff))
(L (W x00 x00 x00 x00 x00 x00 x00 x00)))
(T (W x45 x26 x22 x84 xe4 x9c xf2 xcb)
(L (W x5d x00 x00 x00 xff xff xff xff)) E))
(T (W x00 x00 x80 x3f x00 x00 x80 x3f)
(T (W x00 x00 x00 x00 x00 x00 x00 x00)
(L (W xb2 x50 xfe xff x74 x00 x00 x00)) E)
(T (W x54 x00 x00 x00 x48 x00 x00 x00)
(L (W x00 x00 x00 x00 x00 x00 x00 x00)) E))))
(T (W x1a x05 xfd xff x00 x00 x01 x01)
(T (W x50 x00 x00 x00 x44 x00 x00 x00)
(T (W xff xff xff xff xff xff xff xff)
(T (W x62 xb2 xfb xff x78 x00 x00 x00)
(L (W x00 x00 x00 x00 x00 x00 x00 x00))
(L (W x5c x00 x00 x00 xff xff xff xff)))
(T (W xff xff xff xff xff xff xff xff)
(L (W x84 xb5 xfe xff x00 x01 x01 x01)) E))
(T (W x00 x00 x00 x00 x00 x00 x00 x00)
(T (W x00 x00 x00 x00 xf4 x33 xfc xff)
(L (W x00 x00 x00 x00 x00 x00 x00 x00)) E)
(T (W xff xff xff xff xbc x00 x00 x00)
(L (W x14 x00 x00 x00 x0c x00 x00 x00)) E)))
(T (W x00 x00 x80 x3f x00 x00 x80 x3f)
(T (W xff xff xff xff xff xff xff xff)
(T (W x18 x00 x00 x00 x0c x00 x00 x00)
(L (W x62 xf2 xfd xff x78 x00 x00 x00))
(L (W x84 xf5 xff xff x00 x01 x01 x01)))
(T (W x70 x5f x77 x69 x6c x64 x5f x70)
(L (W x00 x00 x00 x00 x00 x00 x00 x00)) E))
(T (W x68 x00 x00 x00 x5c x00 x00 x00)
(T (W xb8 x00 x00 x00 xac x00 x00 x00)
(L (W x45 x44 x00 x00 x00 x00 x00 x00)) E)
(T (W xff xff xff xff xff xff xff xff)
(L (W x00 x00 x80 xbf x00 x00 x80 xbf)) E))))))))
(T (W x00 x67 x00 x00 xc4 x65 x00 x00)
(T (W xff xff xff xff x18 x00 x00 x00)
(T (W x18 x00 x00 x00 x0c x00 x00 x00)
(T (W x00 x00 x00 x00 xa2 x34 xfd xff)
(T (W x00 x00 x00 x00 x00 x00 x00 x00)
(T (W x64 x00 x00 x00 x9c x00 x00 x00)
(T (W xb4 x7f xfa xff x3c x00 x00 x00)
(T (W x00 x00 x80 x3f x00 x00 x80 x3f)
(L (W x00 x00 x80 xbf x00 x00 x80 xbf))
(L (W x45 x26 x22 x84 xe4 x9c xf2 xcb)))
(T (W x00 x00 x80 x3f x00 x00 x80 x3f)
(L (W xff xff xff xff xff xff xff xff)) E))
(T (W xff xff xff xff xff xff xff xff)
(T (W xb2 xf6 xfb xff x74 x00 x00 x00)
(L (W x00 x00 x00 x00 x00 x00 x00 x00))
(L (W x45 x26 x22 x84 xe4 x9c xf2 xcb)))
(T (W x00 x00 x80 x3f x00 x00 x80 x3f)
(L (W x00 x00 x00 x00 x00 x00 x00 x00)) E)))
(T (W x00 x00 x80 x3f x00 x00 x80 x3f)
(T (W x00 x00 x80 x3f x00 x00 x80 x3f)
(T (W xb2 xb6 xfb xff x74 x00 x00 x00)
(L (W xb2 xb6 xfd xff x74 x00 x00 x00))
(L (W xff xff xff xff xb0 x00 x00 x00)))
(T (W x00 x00 x80 x3f x00 x00 x80 x3f)
(L (W x00 x00 x80 xbf x00 x00 x80 xbf)) E))
(T (W x45 x44 x00 x00 x00 x00 x00 x00)
(T (W x45 x26 x22 x84 xe4 x9c xf2 xcb)
(L (W x00 x00 x00 x00 x00 x00 x00 x00)) E)
(T (W x18 x00 x00 x00 x0c x00 x00 x00)
(L (W x00 x00 x80 xbf x00 x00 x80 xbf)) E))))
(T (W x50 x00 x00 x00 x44 x00 x00 x00)
(T (W x1a x2b xfd xff x00 x00 x01 x01)
(T (W x40 x00 x00 x00 x9c x00 x00 x00)
(T (W x00 x00 x00 x00 x00 x00 x00 x00)
(L (W xb2 x96 xfd xff x74 x00 x00 x00))
(L (W xff xff xff xff xa0 x00 x00 x00)))
(T (W xb4 x9f xfc xff x1b x00 x00 x00)
(L (W x00 x00 x00 x00 x00 x00 x00 x00)) E))
(T (W x00 x00 x00 x00 x00 x00 x00 x00)
(T (W x45 x44 x00 x00 x00 x00 x00 x00)
(L (W xbc x00 x00 x00 x32 x00 x00 x00)) E)
(T (W xb0 x00 x00 x00 x64 x00 x00 x00)
(L (W x00 x00 x80 xbf x00 x00 x80 xbf)) E)))
(T (W x00 x00 x00 x00 x00 x00 x00 x00)
(T (W x00 x00 x80 x3f x00 x00 x80 x3f)
(T (W x00 x00 x00 x00 x00 x00 x00 x00)
(L (W xff xff xff xff xff xff xff xff))
(L (W x94 x04 x00 x00 x80 x03 x00 x00)))
(T (W x00 x00 x00 x00 x00 x00 x00 x00)
(L (W x00 x00 x00 x00 xf4 xd9 xfe xff)) E))
(T (W x00 x00 x80 x3f x00 x00 x80 x3f)
(T (W xff xff xff xff xff xff xff xff)
(L (W x00 x00 x80 xbf x00 x00 x80 xbf)) E)
(T (W x00 x00 x80 xbf x00 x00 x80 xbf)
(L (W xff xff xff xff xff xff xff xff)) E)))))
(T (W x00 x00 x00 x00 x00 x00 x00 x00)
(T (W x00 x00 x80 x3f x00 x00 x80 x3f)
(T (W x18 x00 x00 x00 x0c x00 x00 x00)
(T (W xff xff xff xff xff xff xff xff)
(T (W xff xff xff xff xff xff xff xff)
(L (W x00 x00 x80 xbf x00 x00 x80 xbf))
(L (W x00 x00 x80 xbf x00 x00 x80 xbf)))
(T (W x00 x00 x00 x00 x00 x00 x00 x00)
(L (W x00 x00 x01 x01 x2e x00 x00 x00)) E))
(T (W x68 x00 x00 x00 x5c x00 x00 x00)
(T (W xff xff xff xff xff xff xff xff)
(L (W x00 x00 x80 xbf x00 x00 x80 xbf)) E)
(T (W x00 x00 x00 x00 x00 x00 x00 x00)
(L (W x00 x00 x00 x00 x00 x00 x00 x00)) E)))
(T (W x00 x00 x00 x00 x00 x00 x00 x00)
(T (W x45 x26 x22 x84 xe4 x9c xf2 xcb)
(T (W xff xff xff xff xff xff xff xff)
(L (W x84 xcb xfd xff x00 x01 x01 x01))
(L (W xff xff xff xff xff xff xff xff)))
(T (W x00 x00 x80 x3f x00 x00 x80 x3f)
(L (W x18 x00 x00 x00 x10 x00 x00 x00)) E))
(T (W xff xff xff xff xff xff xff xff)
(T (W xcc x00 x00 x00 xc0 x00 x00 x00)
(L (W x00 x00 x00 x00 x00 x00 x00 x00)) E)
(T (W xff xff xff xff xff xff xff xff)
(L (W xc4 x00 x00 x00 x02 x00 x00 x00)) E))))
(T (W xff xff xff xff xff xff xff xff)
(T (W x00 x00 x80 x3f x00 x00 x80 x3f)
(T (W x68 x00 x00 x00 x5c x00 x00 x00)
(T (W xff xff xff xff x01 x00 x00 x00)
(L (W x45 x26 x22 x84 xe4 x9c xf2 xcb))
(L (W x19 x00 x00 x00 x1c x00 x00 x00)))
(T (W x00 x00 x80 x3f x00 x00 x80 x3f)
(L (W x00 x00 x00 x00 x00 x00 x00 x00)) E))
(T (W x21 x00 x00 x00 x24 x00 x00 x00)
(T (W x00 x00 x00 x00 x00 x00 x00 x00)
(L (W xff xff xff xff xff xff xff xff)) E)
(T (W x00 x00 x80 xbf x00 x00 x80 xbf)
(L (W x49 xa1 x68 x4a xeb x5f xdd x3d)) E)))
(T (W x00 x00 x00 x00 x00 x00 x00 x00)
(T (W x00 x00 x00 x00 x00 x00 x00 x00)
(T (W x45 x26 x22 x84 xe4 x9c xf2 xcb)
(L (W x00 x00 x00 x00 x00 x00 x00 x00))
(L (W x00 x00 x00 x00 x00 x00 x00 x00)))
(T (W x45 x26 x22 x84 xe4 x9c xf2 xcb)
(L (W xff xff xff xff xff xff xff xff)) E))
(T (W xff xff xff xff xff xff xff xff)
(T (W x50 x00 x00 x00 x44 x00 x00 x00)
(L (W xff xff xff xff xb0 x00 x00 x00)) E)
(T (W x68 x00 x00 x00 x5c x00 x00 x00)
(L (W x00 x00 x00 x00 x72 x6f xff xff)) E))))))
(T (W x00 x00 x80 x3f x00 x00 x80 x3f)
(T (W x54 x00 x00 x00 x48 x00 x00 x00)
(T (W xff xff xff xff xff xff xff xff)
(T (W x00 x00 x00 x00 xf4 x01 xfa xff)
(T (W x01 x00 x00 x00 x04 x00 x00 x00)
(T (W xb8 x00 x00 x00 x14 x00 x00 x00)
(L (W x50 x00 x00 x00 x44 x00 x00 x00))
(L (W x49 xa1 x68 x4a xeb x5f xdd x3d)))
(T (W x00 x00 x80 x3f x00 x00 x80 x3f)
(L (W x00 x00 x00 x00 x92 x7f xfe xff)) E))
(T (W x00 x00 x00 x00 x00 x00 x00 x00)
(T (W x01 x00 x00 x00 xb0 x00 x00 x00)
(L (W x6c x00 x00 x00 x60 x00 x00 x00))
(L (W x00 x00 x80 xbf x00 x00 x80 xbf)))
(T (W x44 x00 x00 x00 x00 x00 x80 xbf)
(L (W x00 x00 x00 x00 x00 x00 x00 x00)) E)))
(T (W x00 x00 x00 x00 x00 x00 x00 x00)
(T (W x00 x00 x80 x3f x00 x00 x80 x3f)
(T (W xff xff xff xff xff xff xff xff)
(L (W x00 x00 x80 xbf x00 x00 x80 xbf))
(L (W xff xff xff xff xff xff xff xff)))
(T (W x00 x00 x80 x3f x00 x00 x80 x3f)
(L (W x00 x00 x80 xbf x00 x00 x80 xbf)) E))
(T (W x45 x26 x22 x84 xe4 x9c xf2 xcb)
(T (W x00 x00 x00 x00 xf4 x41 xfc xff)
(L (W x00 x00 x00 x00 x00 x00 x00 x00)) E)
(T (W xff xff xff xff xff xff xff xff)
(L (W xb2 x3e xff xff x74 x00 x00 x00)) E))))
(T (W x01 x00 x00 x00 xa0 x00 x00 x00)
(T (W x00 x00 x80 x3f x00 x00 x80 x3f)
(T (W x01 x00 x00 x00 x21 x00 x00 x00)
(T (W xc8 x00 x00 x00 xbc x00 x00 x00)
(L (W xc9 x00 x00 x00 xff xff xff xff))
(L (W x00 x00 x01 x01 x96 x01 x00 x00)))
(T (W x18 x00 x00 x00 x0c x00 x00 x00)
(L (W x00 x00 x00 x00 x12 x00 x00 x00)) E))
(T (W x62 x20 xfb xff x78 x00 x00 x00)
(T (W xb4 x27 xfc xff x15 x00 x00 x00)
(L (W xff xff xff xff xff xff xff xff)) E)
(T (W x00 x00 x00 x00 x00 x00 x00 x00)
(L (W x00 x00 x80 xbf x00 x00 x80 xbf)) E)))
(T (W x45 x26 x22 x84 xe4 x9c xf2 xcb)
(T (W x00 x00 x80 x3f x00 x00 x80 x3f)
(T (W x00 x00 x00 x00 x00 x00 x00 x00)
(L (W xff xff xff xff xff xff xff xff))
(L (W x00 x00 x00 x00 x92 xdf xff xff)))
(T (W x45 x26 x22 x84 xe4 x9c xf2 xcb)
(L (W xff xff xff xff xff xff xff xff)) E))
(T (W xff xff xff xff xff xff xff xff)
(T (W xff xff xff xff xff xff xff xff)
(L (W x00 x00 x00 x00 xf4 x61 xfe xff)) E)
(T (W x00 x00 x80 xbf x00 x00 x80 xbf)
(L (W x4b x00 x00 x00 xff xff xff xff)) E)))))
(T (W x01 x00 x00 x00 xa0 x00 x00 x00)
(T (W x00 x00 x01 x01 xc9 x00 x00 x00)
(T (W xff xff xff xff xff xff xff xff)
(T (W xff xff xff xff xff xff xff xff)
(T (W x00 x00 x00 x00 x00 x00 x00 x00)
(L (W x00 x00 x80 xbf x00 x00 x80 xbf))
(L (W x84 x93 xff xff x00 x01 x01 x01)))
(T (W x00 x00 x00 x00 x00 x00 x00 x00)
(L (W x45 x44 x00 x00 x00 x00 x00 x00)) E))
(T (W x45 x26 x22 x84 xe4 x9c xf2 xcb)
(T (W x12 x19 xff xff x00 x00 x01 x01)
(L (W x62 x10 xfe xff x78 x00 x00 x00)) E)
(T (W x04 x00 x00 x00 x52 x11 xfd xff)
(L (W x00 x00 x00 x00 x00 x00 x00 x00)) E)))
(T (W x00 x00 x00 x00 x00 x00 x00 x00)
(T (W x00 x00 x80 x3f x00 x00 x80 x3f)
(T (W x46 x53 x59 x53 x5f x4e x53 x5f)
(L (W xff xff xff xff xc8 x00 x00 x00))
(L (W xff xff xff xff xff xff xff xff)))
(T (W x61 x64 x65 x72 x5f x77 x69 x6c)
(L (W xbc x00 x00 x00 x02 x00 x00 x00)) E))
(T (W x00 x00 x00 x00 x12 x00 x00 x00)
(T (W xff xff xff xff xff xff xff xff)
(L (W x00 x00 x80 xbf x00 x00 x80 xbf)) E)
(T (W x00 x00 x00 x00 x12 x00 x00 x00)
(L (W xff xff xff xff xff xff xff xff)) E))))
(T (W xff xff xff xff xff xff xff xff)
(T (W x00 x00 x80 x3f x00 x00 x80 x3f)
(T (W x62 xb0 xfa xff x78 x00 x00 x00)
(T (W x00 x00 x00 x00 x00 x00 x00 x00)
(L (W x00 x00 x00 x00 x00 x00 x00 x00))
(L (W xff xff xff xff xc8 x00 x00 x00)))
(T (W x45 x26 x22 x84 xe4 x9c xf2 xcb)
(L (W x00 x00 x00 x00 x00 x00 x00 x00)) E))
(T (W xff xff xff xff xff xff xff xff)
(T (W x45 x26 x22 x84 xe4 x9c xf2 xcb)
(L (W x00 x00 x01 x01 x3b x01 x00 x00)) E)
(T (W x00 x00 x80 xbf x00 x00 x80 xbf)
(L (W x00 x00 x80 xbf x00 x00 x80 xbf)) E)))
(T (W x00 x00 x00 x00 x00 x00 x00 x00)
(T (W x00 x00 x00 x00 x00 x00 x00 x00)
(T (W x00 x00 x80 x3f x00 x00 x80 x3f)
(L (W x49 xa1 x68 x4a xeb x5f xdd x3d))
(L (W x00 x00 x80 xbf x00 x00 x80 xbf)))
(T (W xff xff xff xff xff xff xff xff)
(L (W x00 x00 x01 x01 x96 x01 x00 x00)) E))
(T (W x00 x00 x00 x00 x00 x00 x00 x00)
(T (W x00 x00 x80 x3f x00 x00 x80 x3f)
(L (W xff xff xff xff xff xff xff xff)) E)
(T (W x2c x00 x30 x00 x34 x00 x38 x00)
(L (W x00 x00 x00 x00 x00 x00 x00 x00)) E)))))))
(T (W x45 x26 x22 x84 xe4 x9c xf2 xcb)
(T (W x00 x00 x01 x01 xc9 x00 x00 x00)
(T (W x54 x0f x00 x00 x40 x0e x00 x00)
(T (W x6c x00 x00 x00 x60 x00 x00 x00)
(T (W x00 x00 x00 x00 x00 x00 x00 x00)
(T (W x00 x00 x00 x00 xf4 x7d xfa xff)
(T (W x13 x00 x00 x00 x0c x00 x00 x00)
(L (W x54 x02 x00 x00 x38 x01 x00 x00))
(L (W xb0 x00 x00 x00 x64 x00 x00 x00)))
(T (W xff xff xff xff xff xff xff xff)
(L (W x00 x00 x80 xbf x00 x00 x80 xbf)) E))
(T (W x01 x00 x00 x00 x19 x00 x00 x00)
(T (W x46 x53 x59 x53 x5f x4e x53 x5f)
(L (W xff xff xff xff xff xff xff xff))
(L (W x00 x00 x01 x01 x90 x01 x00 x00)))
(T (W x00 x00 x80 xbf x00 x00 x80 xbf)
(L (W x00 x00 x80 xbf x00 x00 x80 xbf)) E)))
(T (W xff xff xff xff xff xff xff xff)
(T (W x00 x00 x00 x00 x00 x00 x00 x00)
(T (W x00 x00 x00 x00 x00 x00 x00 x00)
(L (W xff xff xff xff xff xff xff xff))
(L (W x00 x00 x80 xbf x00 x00 x80 xbf)))
(T (W xff xff xff xff xff xff xff xff)
(L (W xff xff xff xff xff xff xff xff)) E))
(T (W xff xff xff xff xff xff xff xff)
(T (W xb4 x43 xfc xff x15 x00 x00 x00)
(L (W x18 x00 x00 x00 x0c x00 x00 x00)) E)
(T (W x00 x00 x00 x00 x00 x00 x00 x00)
(L (W x00 x00 x00 x00 x00 x00 x00 x00)) E))))
(T (W x00 x00 x00 x00 x00 x00 x00 x00)
(T (W xff xff xff xff xff xff xff xff)
(T (W x0c xad xfa xff x0e x00 x00 x00)
(T (W x1a xde xfd xff x9c x01 x00 x00)
(L (W x4c x45 x41 x52 x45 x44 x00 x00))
(L (W x4f x84 x6f x8b xe8 xcb x63 xb7)))
(T (W xff xff xff xff xff xff xff xff)
(L (W x45 x26 x22 x84 xe4 x9c xf2 xcb)) E))
(T (W x00 x00 x00 x00 xe2 x21 xfb xff)
(T (W x45 x26 x22 x84 xe4 x9c xf2 xcb)
(L (W x00 x00 x80 xbf x00 x00 x80 xbf)) E)
(T (W xff xff xff xff xff xff xff xff)
(L (W xff xff xff xff xff xff xff xff)) E)))
(T (W x64 x00 x00 x00 x9c x00 x00 x00)
(T (W xff xff xff xff xff xff xff xff)
(T (W xff xff xff xff xff xff xff xff)
(L (W x45 x26 x22 x84 xe4 x9c xf2 xcb))
(L (W x6c x00 x00 x00 x60 x00 x00 x00)))
(T (W xff xff xff xff xff xff xff xff)
(L (W x00 x00 x00 x00 x00 x00 x00 x00)) E))
(T (W x45 x44 x00 x00 x00 x00 x00 x00)
(T (W x50 x00 x00 x00 x44 x00 x00 x00)
(L (W x90 x07 xb9 x28 xbf xc9 x67 x6a)) E)
(T (W xff xff xff xff xff xff xff xff)
(L (W x6c x00 x00 x00 x60 x00 x00 x00)) E)))))
(T (W x00 x00 x80 x3f x00 x00 x80 x3f)
(T (W xbc x00 x00 x00 xb0 x00 x00 x00)
(T (W x00 x00 x00 x00 x00 x00 x00 x00)
(T (W x00 x00 x80 x3f x00 x00 x80 x3f)
(T (W x00 x00 x00 x00 x00 x00 x00 x00)
(L (W x12 x00 x00 x00 xff xff xff xff))
(L (W x6f x00 x00 x00 xff xff xff xff)))
(T (W xb8 x00 x00 x00 xac x00 x00 x00)
(L (W x45 x26 x22 x84 xe4 x9c xf2 xcb)) E))
(T (W x00 x00 x00 x00 x00 x00 x00 x00)
(T (W x49 xa1 x68 x4a xeb x5f xdd x3d)
(L (W x30 x32 x5f x43 x4c x45 x41 x52)) E)
(T (W xff xff xff xff xff xff xff xff)
(L (W x18 x00 x00 x00 x0c x00 x00 x00)) E)))
(T (W xff xff xff xff xff xff xff xff)
(T (W xff xff xff xff xff xff xff xff)
(T (W xb2 xca xfb xff x74 x00 x00 x00)
(L (W x00 x00 x00 x00 x00 x00 x00 x00))
(L (W x00 x00 x80 xbf x00 x00 x80 xbf)))
(T (W x12 x00 x00 x00 x46 x53 x59 x53)
(L (W x30 x32 x5f x43 x4c x45 x41 x52)) E))
(T (W x00 x00 x80 x3f x00 x00 x80 x3f)
(T (W x45 x26 x22 x84 xe4 x9c xf2 xcb)
(L (W xff xff xff xff xff xff xff xff)) E)
(T (W x00 x00 x80 xbf x00 x00 x80 xbf)
(L (W x00 x00 x80 xbf x00 x00 x80 xbf)) E))))
(T (W x00 x00 x00 x00 x00 x00 x00 x00)
(T (W xb3 x01 x00 x00 xff xff xff xff)
(T (W xff xff xff xff xff xff xff xff)
(T (W x45 x26 x22 x84 xe4 x9c xf2 xcb)
(L (W xff xff xff xff xff xff xff xff))
(L (W x00 x00 x00 x00 x00 x00 x00 x00)))
(T (W x00 x00 x00 x00 x00 x00 x00 x00)
(L (W xff xff xff xff xff xff xff xff)) E))
(T (W x00 x00 x80 x3f x00 x00 x80 x3f)
(T (W xff xff xff xff xff xff xff xff)
(L (W x62 x2c xfe xff x78 x00 x00 x00)) E)
(T (W xff xff xff xff xff xff xff xff)
(L (W xff xff xff xff xff xff xff xff)) E)))
(T (W x50 x00 x00 x00 x44 x00 x00 x00)
(T (W x45 x26 x22 x84 xe4 x9c xf2 xcb)
(T (W xff xff xff xff xff xff xff xff)
(L (W x29 x00 x00 x00 x2c x00 x00 x00))
(L (W xff xff xff xff xa0 x00 x00 x00)))
(T (W xff xff xff xff xff xff xff xff)
(L (W x54 x00 x00 x00 x48 x00 x00 x00)) E))
(T (W x00 x00 x80 x3f x00 x00 x80 x3f)
(T (W x9a x7d xff xff xc7 x01 x00 x00)
(L (W x00 x00 x80 xbf x00 x00 x80 xbf)) E)
(T (W x46 x53 x59 x53 x5f x4e x53 x5f)
(L (W x68 x00 x00 x00 x5c x00 x00 x00)) E))))))
(T (W x64 x00 x00 x00 xa0 x00 x00 x00)
(T (W xff xff xff xff xff xff xff xff)
(T (W x00 x00 x00 x00 x00 x00 x00 x00)
(T (W x00 x00 x00 x00 x00 x00 x00 x00)
(T (W x45 x26 x22 x84 xe4 x9c xf2 xcb)
(T (W x30 x32 x5f x43 x4c x45 x41 x52)
(L (W xff xff xff xff xff xff xff xff))
(L (W xff xff xff xff xff xff xff xff)))
(T (W xff xff xff xff xff xff xff xff)
(L (W x6c x00 x00 x00 x60 x00 x00 x00)) E))
(T (W xa1 x01 x00 x00 xff xff xff xff)
(T (W x45 x26 x22 x84 xe4 x9c xf2 xcb)
(L (W xff xff xff xff xff xff xff xff)) E)
(T (W x00 x00 x80 xbf x00 x00 x80 xbf)
(L (W x00 x00 x00 x00 xf4 x05 xff xff)) E)))
(T (W xff xff xff xff xff xff xff xff)
(T (W x20 x01 x00 x00 x04 x00 x00 x00)
(T (W x00 x00 x80 x3f x00 x00 x80 x3f)
(L (W x46 x53 x59 x53 x5f x4e x53 x5f))
(L (W x00 x00 x80 xbf x00 x00 x80 xbf)))
(T (W xff xff xff xff xff xff xff xff)
(L (W x00 x00 x01 x01 x5f x00 x00 x00)) E))
(T (W x4c x45 x41 x52 x45 x44 x00 x00)
(T (W x00 x00 x00 x00 x12 x00 x00 x00)
(L (W xb4 x00 x00 x00 x46 x00 x00 x00)) E)
(T (W x00 x00 x80 xbf x00 x00 x80 xbf)
(L (W x00 x00 x00 x00 x00 x00 x00 x00)) E))))
(T (W x00 x00 x00 x00 x00 x00 x00 x00)
(T (W xff xff xff xff xff xff xff xff)
(T (W x01 x00 x00 x00 x04 x00 x00 x00)
(T (W x00 x00 x00 x00 x00 x00 x00 x00)
(L (W x00 x00 x80 xbf x00 x00 x80 xbf))
(L (W xff xff xff xff xff xff xff xff)))
(T (W x1c x00 x00 x00 x10 x00 x00 x00)
(L (W xff xff xff xff xff xff xff xff)) E))
(T (W x00 x00 x00 x00 x00 x00 x00 x00)
(T (W x00 x00 x00 x00 xf4 x25 xfc xff)
(L (W x45 x26 x22 x84 xe4 x9c xf2 xcb)) E)
(T (W xff xff xff xff xbc x00 x00 x00)
(L (W xff xff xff xff xff xff xff xff)) E)))
(T (W x84 x67 xfa xff x00 x01 x01 x01)
(T (W xb8 x00 x00 x00 xac x00 x00 x00)
(T (W xff xff xff xff xff xff xff xff)
(L (W x00 x00 x80 xbf x00 x00 x80 xbf))
(L (W x45 x26 x22 x84 xe4 x9c xf2 xcb)))
(T (W x50 x00 x00 x00 x44 x00 x00 x00)
(L (W x00 x00 x80 xbf x00 x00 x80 xbf)) E))
(T (W x00 x00 x80 x3f x00 x00 x80 x3f)
(T (W xff xff xff xff xff xff xff xff)
(L (W x00 x00 x00 x00 x00 x00 x00 x00)) E)
(T (W x04 x00 x00 x00 x52 x65 xfd xff)
(L (W x84 x67 xff xff x00 x01 x01 x01)) E)))))
(T (W xff xff xff xff x10 x00 x00 x00)
(T (W x45 x26 x22 x84 xe4 x9c xf2 xcb)
(T (W x00 x00 x80 x3f x00 x00 x80 x3f)
(T (W x50 x00 x00 x00 x44 x00 x00 x00)
(T (W x45 x26 x22 x84 xe4 x9c xf2 xcb)
(L (W x00 x00 x00 x00 x00 x00 x00 x00))
(L (W x00 x00 x00 x00 x00 x00 x00 x00)))
(T (W x01 x00 x00 x00 x9c x00 x00 x00)
(L (W x84 x97 xfe xff x00 x01 x01 x01)) E))
(T (W xff xff xff xff xff xff xff xff)
(T (W x00 x00 x80 x3f x00 x00 x80 x3f)
(L (W x00 x00 x00 x00 x00 x00 x00 x00)) E)
(T (W xb0 x00 x00 x00 x64 x00 x00 x00)
(L (W xff xff xff xff xff xff xff xff)) E)))
(T (W xff xff xff xff xff xff xff xff)
(T (W xff xff xff xff xff xff xff xff)
(T (W x54 x00 x00 x00 x48 x00 x00 x00)
(L (W x00 x00 x00 x00 x00 x00 x00 x00))
(L (W x00 x00 x80 xbf x00 x00 x80 xbf)))
(T (W xff xff xff xff xc8 x00 x00 x00)
(L (W x00 x00 x00 x00 x00 x00 x00 x00)) E))
(T (W xff xff xff xff xff xff xff xff)
(T (W x00 x00 x80 x3f x00 x00 x80 x3f)
(L (W x00 x00 x00 x00 xe2 x59 xfe xff)) E)
(T (W x03 x00 x00 x00 xd0 x00 x00 x00)
(L (W x00 x00 x80 xbf x00 x00 x80 xbf)) E))))
(T (W x00 x00 x00 x00 x00 x00 x00 x00)
(T (W xff xff xff xff xff xff xff xff)
(T (W x1a xc7 xfd xff x00 x00 x01 x01)
(T (W xff xff xff xff xff xff xff xff)
(L (W x00 x00 x80 xbf x00 x00 x80 xbf))
(L (W x00 x00 x00 x00 x12 x00 x00 x00)))
(T (W x11 xd2 x36 x97 x85 x2d x63 x5f)
(L (W xff xff xff xff xff xff xff xff)) E))
(T (W xb2 x32 xfb xff x74 x00 x00 x00)
(T (W x45 x44 x00 x00 x00 x00 x00 x00)
(L (W x50 x00 x00 x00 x44 x00 x00 x00)) E)
(T (W x00 x00 x00 x00 x00 x00 x00 x00)
(L (W x00 x00 x00 x00 x00 x00 x00 x00)) E)))
(T (W xb2 x72 xfa xff x74 x00 x00 x00)
(T (W x00 x00 x00 x00 x00 x00 x00 x00)
(T (W x18 x00 x00 x00 x10 x00 x00 x00)
(L (W xff xff xff xff xff xff xff xff))
(L (W xff xff xff xff xff xff xff xff)))
(T (W x00 x00 x80 x3f x00 x00 x80 x3f)
(L (W x00 x00 x80 xbf x00 x00 x80 xbf)) E))
(T (W xb0 x00 x00 x00 x32 x00 x00 x00)
(T (W xb4 x7b xfc xff x16 x00 x00 x00)
(L (W x00 x00 x80 xbf x00 x00 x80 xbf)) E)
(T (W x00 x00 x00 x00 x00 x00 x00 x00)
(L (W x18 x00 x00 x00 x0c x00 x00 x00)) E)))))))))
(T (W x00 xc3 x02 x00 x5c xbe x02 x00)
(T (W x30 xf6 x00 x00 xe4 xf3 x00 x00)
(T (W xff xff xff xff xff xff xff xff)
(T (W x62 x87 xf9 xff x78 x00 x00 x00)
(T (W xff xff xff xff xff xff xff xff)
(T (W x00 x00 x00 x00 x00 x00 x00 x00)
(T (W x50 x00 x00 x00 x44 x00 x00 x00)
(T (W xff xff xff xff xff xff xff xff)
(T (W x45 x26 x22 x84 xe4 x9c xf2 xcb)
(L (W x00 x00 x80 xbf x00 x00 x80 xbf))
(L (W x00 x00 x00 x00 x00 x00 x00 x00)))
(T (W x00 x00 x80 x3f x00 x00 x80 x3f)
(L (W xff xff xff xff xff xff xff xff)) E))
(T (W x45 x26 x22 x84 xe4 x9c xf2 xcb)
(T (W x00 x00 x80 x3f x00 x00 x80 x3f)
(L (W x00 x00 x00 x00 x12 x00 x00 x00))
(L (W x00 x00 x00 x00 x00 x00 x00 x00)))
(T (W x14 x00 x18 x00 x06 x00 x07 x00)
(L (W xff xff xff xff xff xff xff xff)) E)))
(T (W x00 x00 x00 x00 x00 x00 x00 x00)
(T (W x45 x26 x22 x84 xe4 x9c xf2 xcb)
(T (W x00 x00 x80 x3f x00 x00 x80 x3f)
(L (W x50 x00 x00 x00 x44 x00 x00 x00))
(L (W x00 x00 x00 x00 xf4 xb8 xff xff)))
(T (W x00 x00 x80 x3f x00 x00 x80 x3f)
(L (W x00 x00 x00 x00 x00 x00 x00 x00)) E))
(T (W xa4 x01 x00 x00 xff xff xff xff)
(T (W x00 x00 x80 x3f x00 x00 x80 x3f)
(L (W xff xff xff xff xff xff xff xff)) E)
(T (W x00 x00 x80 xbf x00 x00 x80 xbf)
(L (W x00 x00 x80 xbf x00 x00 x80 xbf)) E))))
(T (W x00 x00 x80 x3f x00 x00 x80 x3f)
(T (W xff xff xff xff xff xff xff xff)
(T (W x00 x00 x00 x00 x00 x00 x00 x00)
(T (W x12 x00 x00 x00 x46 x53 x59 x53)
(L (W x00 x00 x80 xbf x00 x00 x80 xbf))
(L (W x62 x97 xff xff x78 x00 x00 x00)))
(T (W xff xff xff xff xff xff xff xff)
(L (W x45 x44 x00 x00 x00 x00 x00 x00)) E))
(T (W x12 x00 x00 x00 x46 x53 x59 x53)
(T (W xff xff xff xff xff xff xff xff)
(L (W x84 x1a xfe xff x00 x01 x01 x01)) E)
(T (W x50 x00 x00 x00 x44 x00 x00 x00)
(L (W x00 x00 x00 x00 x00 x00 x00 x00)) E)))
(T (W x00 x00 x00 x00 x00 x00 x00 x00)
(T (W x45 x26 x22 x84 xe4 x9c xf2 xcb)
(T (W x46 x53 x59 x53 x5f x4e x53 x5f)
(L (W xb2 xd5 xfd xff x74 x00 x00 x00))
(L (W xff xff xff xff xff xff xff xff)))
(T (W x00 x00 x00 x00 x00 x00 x00 x00)
(L (W x6c x00 x00 x00 x60 x00 x00 x00)) E))
(T (W x4f x84 x6f x8b xe8 xcb x63 xb7)
(T (W xff xff xff xff xbc x00 x00 x00)
(L (W x00 x00 x80 xbf x00 x00 x80 xbf)) E)
(T (W x00 x00 x00 x00 x00 x00 x00 x00)
(L (W xff xff xff xff xff xff xff xff)) E)))))
(T (W x00 x00 x00 x00 xa2 x43 xfd xff)
(T (W x00 x00 x80 x3f x00 x00 x80 x3f)
(T (W x00 x00 x00 x00 xf4 x08 xfa xff)
(T (W xff xff xff xff xff xff xff xff)
(T (W xff xff xff xff xc4 x00 x00 x00)
(L (W x00 x00 x00 x00 x00 x00 x00 x00))
(L (W x4f x84 x6f x8b xe8 xcb x63 xb7)))
(T (W x00 x00 x00 x00 x00 x00 x00 x00)
(L (W xff xff xff xff xff xff xff xff)) E))
(T (W x00 x00 x80 x3f x00 x00 x80 x3f)
(T (W x18 x00 x00 x00 x0c x00 x00 x00)
(L (W x49 xa1 x68 x4a xeb x5f xdd x3d)) E)
(T (W x86 x5c x6c x12 x83 xf0 x3a xc6)
(L (W x94 x04 x00 x00 x80 x03 x00 x00)) E)))
(T (W x00 x00 x00 x00 x00 x00 x00 x00)
(T (W x00 x00 x00 x00 x00 x00 x00 x00)
(T (W xff xff xff xff xff xff xff xff)
(L (W x54 x00 x00 x00 x48 x00 x00 x00))
(L (W xff xff xff xff x9c x00 x00 x00)))
(T (W x18 x00 x1c x00 x04 x00 x05 x00)
(L (W x54 x00 x00 x00 x48 x00 x00 x00)) E))
(T (W x50 x00 x00 x00 x44 x00 x00 x00)
(T (W x18 x00 x00 x00 x10 x00 x00 x00)
(L (W x00 x00 x00 x00 x00 x00 x00 x00)) E)
(T (W xb0 x00 x00 x00 x64 x00 x00 x00)
(L (W x45 x26 x22 x84 xe4 x9c xf2 xcb)) E))))
(T (W x01 x00 x00 x00 x3c x00 x00 x00)
(T (W x00 x00 x80 x3f x00 x00 x80 x3f)
(T (W x00 x00 x80 x3f x00 x00 x80 x3f)
(T (W xff xff xff xff xff xff xff xff)
(L (W xb2 xa5 xfd xff x74 x00 x00 x00))
(L (W x00 x00 x80 xbf x00 x00 x80 xbf)))
(T (W x00 x00 x80 x3f x00 x00 x80 x3f)
(L (W x30 x32 x5f x43 x4c x45 x41 x52)) E))
(T (W x62 x27 xfb xff x78 x00 x00 x00)
(T (W x00 x00 x00 x00 x00 x00 x00 x00)
(L (W xff xff xff xff xff xff xff xff)) E)
(T (W x00 x00 x00 x00 x00 x00 x00 x00)
(L (W x00 x00 x00 x00 x00 x00 x00 x00)) E)))
(T (W x00 x00 x00 x00 x00 x00 x00 x00)
(T (W x00 x00 x00 x00 x00 x00 x00 x00)
(T (W x00 x00 x00 x00 x00 x00 x00 x00)
(L (W x45 x44 x00 x00 x00 x00 x00 x00))
(L (W x37 x00 x00 x00 xff xff xff xff)))
(T (W x00 x00 x00 x00 x00 x00 x00 x00)
(L (W xc4 x00 x00 x00 x02 x00 x00 x00)) E))
(T (W xff xff xff xff xff xff xff xff)
(T (W x00 x00 x80 x3f x00 x00 x80 x3f)
(L (W x62 x67 xfe xff x78 x00 x00 x00)) E)
(T (W x00 x00 x80 xbf x00 x00 x80 xbf)
(L (W xff xff xff xff xff xff xff xff)) E))))))
(T (W x00 x00 x00 x00 x00 x00 x00 x00)
(T (W x00 x00 x80 x3f x00 x00 x80 x3f)
(T (W xff xff xff xff xff xff xff xff)
(T (W xb2 xfd xf9 xff x74 x00 x00 x00)
(T (W xff xff xff xff xff xff xff xff)
(T (W x84 x82 xfb xff x00 x01 x01 x01)
(L (W x00 x00 x80 xbf x00 x00 x80 xbf))
(L (W x00 x00 x00 x00 x00 x00 x00 x00)))
(T (W x00 x00 x00 x00 x00 x00 x00 x00)
(L (W xff xff xff xff xff xff xff xff)) E))
(T (W x00 x00 x00 x00 x00 x00 x00 x00)
(T (W x45 x26 x22 x84 xe4 x9c xf2 xcb)
(L (W x00 x00 x00 x00 x00 x00 x00 x00))
(L (W x00 x00 x00 x00 x00 x00 x00 x00)))
(T (W x00 x00 x00 x00 x00 x00 x00 x00)
(L (W x5d x00 x00 x00 xff xff xff xff)) E)))
(T (W x00 x00 x00 x00 x00 x00 x00 x00)
(T (W x00 x00 x00 x00 x00 x00 x00 x00)
(T (W x01 x00 x00 x00 xac x00 x00 x00)
(L (W x00 x00 x80 xbf x00 x00 x80 xbf))
(L (W x18 x00 x00 x00 x0c x00 x00 x00)))
(T (W x00 x00 x00 x00 x00 x00 x00 x00)
(L (W x45 x26 x22 x84 xe4 x9c xf2 xcb)) E))
(T (W x00 x00 x00 x00 x00 x00 x00 x00)
(T (W x00 x00 x80 x3f x00 x00 x80 x3f)
(L (W xb2 x01 x00 x00 xff xff xff xff)) E)
(T (W xff xff xff xff xb0 x00 x00 x00)
(L (W x00 x00 x80 xbf x00 x00 x80 xbf)) E))))
(T (W x00 x00 x00 x00 xf4 xe0 xf9 xff)
(T (W x45 x26 x22 x84 xe4 x9c xf2 xcb)
(T (W x00 x00 x80 x3f x00 x00 x80 x3f)
(T (W x00 x00 x80 x3f x00 x00 x80 x3f)
(L (W x50 x00 x00 x00 x44 x00 x00 x00))
(L (W xf0 xa0 xff xff x9a xf9 xff xff)))
(T (W x00 x00 x00 x00 x00 x00 x00 x00)
(L (W x00 x00 x00 x00 x00 x00 x00 x00)) E))
(T (W x45 x26 x22 x84 xe4 x9c xf2 xcb)
(T (W xff xff xff xff xff xff xff xff)
(L (W xbc x00 x00 x00 x46 x00 x00 x00)) E)
(T (W x45 x44 x00 x00 x00 x00 x00 x00)
(L (W x00 x00 x80 xbf x00 x00 x80 xbf)) E)))
(T (W xb4 x66 xfa xff x3c x00 x00 x00)
(T (W x00 x00 x00 x00 x00 x00 x00 x00)
(T (W x00 x00 x00 x00 x00 x00 x00 x00)
(L (W x03 x00 x00 x00 xd8 x00 x00 x00))
(L (W xff xff xff xff xff xff xff xff)))
(T (W x00 x00 x00 x00 x00 x00 x00 x00)
(L (W xb2 xdd xfe xff x74 x00 x00 x00)) E))
(T (W x50 x00 x00 x00 x44 x00 x00 x00)
(T (W xff xff xff xff xff xff xff xff)
(L (W x00 x00 x80 xbf x00 x00 x80 xbf)) E)
(T (W x00 x00 x00 x00 x00 x00 x00 x00)
(L (W xff xff xff xff xff xff xff xff)) E)))))
(T (W x00 x00 x00 x00 xf4 xb0 xf9 xff)
(T (W xff xff xff xff xff xff xff xff)
(T (W xff xff xff xff xff xff xff xff)
(T (W xff xff xff xff xff xff xff xff)
(T (W xff xff xff xff x01 x00 x00 x00)
(L (W x00 x00 x80 xbf x00 x00 x80 xbf))
(L (W x54 x00 x00 x00 x48 x00 x00 x00)))
(T (W xb4 x96 xfc xff x1b x00 x00 x00)
(L (W xff xff xff xff xff xff xff xff)) E))
(T (W x54 x00 x00 x00 x48 x00 x00 x00)
(T (W xff xff xff xff xbc x00 x00 x00)
(L (W x00 x00 x80 xbf x00 x00 x80 xbf)) E)
(T (W xff xff xff xff xff xff xff xff)
(L (W x00 x00 x00 x00 x00 x00 x00 x00)) E)))
(T (W x00 x00 x00 x00 x00 x00 x00 x00)
(T (W x45 x26 x22 x84 xe4 x9c xf2 xcb)
(T (W x12 xd8 xfe xff x00 x00 x01 x01)
(L (W x45 x26 x22 x84 xe4 x9c xf2 xcb))
(L (W xff xff xff xff xff xff xff xff)))
(T (W xff xff xff xff xff xff xff xff)
(L (W x84 xd2 xfe xff x00 x01 x01 x01)) E))
(T (W x6b x65 x5f x6c x76 x31 x00 x00)
(T (W xd4 x00 x00 x00 xc8 x00 x00 x00)
(L (W x00 x00 x00 x00 x00 x00 x00 x00)) E)
(T (W x02 x00 x00 x00 x30 x01 x00 x00)
(L (W xff xff xff xff xb0 x00 x00 x00)) E))))
(T (W x00 x00 x00 x00 xf4 xf0 xf9 xff)
(T (W x00 x00 x80 x3f x00 x00 x80 x3f)
(T (W x00 x00 x80 x3f x00 x00 x80 x3f)
(T (W x00 x00 x00 x00 x00 x00 x00 x00)
(L (W x00 x00 x00 x00 x00 x00 x00 x00))
(L (W x45 x26 x22 x84 xe4 x9c xf2 xcb)))
(T (W x00 x00 x80 x3f x00 x00 x80 x3f)
(L (W x00 x00 x00 x00 x00 x00 x00 x00)) E))
(T (W xff xff xff xff xff xff xff xff)
(T (W x00 x00 x00 x00 x00 x00 x00 x00)
(L (W xff xff xff xff xff xff xff xff)) E)
(T (W x49 xa1 x68 x4a xeb x5f xdd x3d)
(L (W x4f x84 x6f x8b xe8 xcb x63 xb7)) E)))
(T (W x00 x00 x00 x00 x02 x00 x00 x00)
(T (W x00 x00 x00 x00 x00 x00 x00 x00)
(T (W x00 x00 x80 x3f x00 x00 x80 x3f)
(L (W x17 x00 x00 x00 x0c x00 x00 x00))
(L (W x0c x00 x00 x00 x0b x00 x00 x00)))
(T (W xff xff xff xff xff xff xff xff)
(L (W xff xff xff xff xff xff xff xff)) E))
(T (W x45 x44 x00 x00 x00 x00 x00 x00)
(T (W x45 x26 x22 x84 xe4 x9c xf2 xcb)
(L (W xcc x00 x00 x00 x01 x00 x00 x00)) E)
(T (W x68 x00 x00 x00 x5c x00 x00 x00)
(L (W x00 x00 x00 x00 x00 x00 x00 x00)) E)))))))
(T (W x00 x00 x00 x00 x00 x00 x00 x00)
(T (W xff xff xff xff xff xff xff xff)
(T (W x00 x00 x00 x00 x00 x00 x00 x00)
(T (W x00 x00 x80 x3f x00 x00 x80 x3f)
(T (W x00 x00 x00 x00 x00 x00 x00 x00)
(T (W x68 x00 x00 x00 x5c x00 x00 x00)
(T (W xff xff xff xff xff xff xff xff)
(L (W xff xff xff xff xff xff xff xff))
(L (W x84 x7e xff xff x00 x01 x01 x01)))
(T (W xff xff xff xff xff xff xff xff)
(L (W x00 x00 x00 x00 x00 x00 x00 x00)) E))
(T (W x00 x00 x80 x3f x00 x00 x80 x3f)
(T (W x00 x00 x00 x00 x00 x00 x00 x00)
(L (W xff xff xff xff xff xff xff xff))
(L (W x62 xfb xff xff x78 x00 x00 x00)))
(T (W x00 x00 x00 x00 x00 x00 x00 x00)
(L (W x00 x00 x80 xbf x00 x00 x80 xbf)) E)))
(T (W xff xff xff xff xff xff xff xff)
(T (W xff xff xff xff xff xff xff xff)
(T (W x00 x00 x00 x00 x00 x00 x00 x00)
(L (W xff xff xff xff xbc x00 x00 x00))
(L (W x00 x00 x00 x00 x00 x00 x00 x00)))
(T (W xff xff xff xff xff xff xff xff)
(L (W xff xff xff xff xff xff xff xff)) E))
(T (W x62 x3b xfb xff x78 x00 x00 x00)
(T (W xff xff xff xff xff xff xff xff)
(L (W x62 x3b xfe xff x78 x00 x00 x00)) E)
(T (W x45 x44 x00 x00 x00 x00 x00 x00)
(L (W x00 x00 x00 x00 xe2 x40 xff xff)) E))))
(T (W x40 x00 x00 x00 x0c x00 x00 x00)
(T (W x00 x00 x80 x3f x00 x00 x80 x3f)
(T (W xff xff xff xff xff xff xff xff)
(T (W xff xff xff xff xff xff xff xff)
(L (W xc9 x00 x00 x00 xff xff xff xff))
(L (W x0c xac xff xff x13 x00 x00 x00)))
(T (W xb8 x00 x00 x00 xac x00 x00 x00)
(L (W x54 x00 x00 x00 x48 x00 x00 x00)) E))
(T (W xff xff xff xff xff xff xff xff)
(T (W x00 x00 x80 x3f x00 x00 x80 x3f)
(L (W x0c x2c xfe xff x14 x00 x00 x00)) E)
(T (W x0c x00 x00 x00 x01 x01 x01 x01)
(L (W xff xff xff xff xc8 x00 x00 x00)) E)))
(T (W x50 x00 x00 x00 x44 x00 x00 x00)
(T (W x45 x26 x22 x84 xe4 x9c xf2 xcb)
(T (W xd4 x00 x00 x00 xc8 x00 x00 x00)
(L (W x00 x00 x00 x00 x00 x00 x00 x00))
(L (W x00 x00 x80 xbf x00 x00 x80 xbf)))
(T (W xbc x00 x00 x00 x05 x00 x00 x00)
(L (W x00 x00 x00 x00 x00 x00 x00 x00)) E))
(T (W xff xff xff xff xff xff xff xff)
(T (W x00 x00 x80 x3f x00 x00 x80 x3f)
(L (W xff xff xff xff xff xff xff xff)) E)
(T (W xff xff xff xff xff xff xff xff)
(L (W x00 x00 x80 xbf x00 x00 x80 xbf)) E)))))
(T (W x45 x26 x22 x84 xe4 x9c xf2 xcb)
(T (W x45 x26 x22 x84 xe4 x9c xf2 xcb)
(T (W x01 x00 x00 x00 x04 x00 x00 x00)
(T (W x00 x00 x80 x3f x00 x00 x80 x3f)
(T (W x46 x53 x59 x53 x5f x4e x53 x5f)
(L (W xff xff xff xff xff xff xff xff))
(L (W xff xff xff xff xff xff xff xff)))
(T (W x01 x00 x00 x00 x9c x00 x00 x00)
(L (W x00 x00 x80 xbf x00 x00 x80 xbf)) E))
(T (W x00 x00 x00 x00 x00 x00 x00 x00)
(T (W x00 x00 x00 x00 x00 x00 x00 x00)
(L (W xff xff xff xff xff xff xff xff)) E)
(T (W xff xff xff xff xff xff xff xff)
(L (W x6c x00 x00 x00 x60 x00 x00 x00)) E)))
(T (W xbc x00 x00 x00 xb0 x00 x00 x00)
(T (W xff xff xff xff xff xff xff xff)
(T (W x00 x00 x80 x3f x00 x00 x80 x3f)
(L (W xff xff xff xff xff xff xff xff))
(L (W x49 xa1 x68 x4a xeb x5f xdd x3d)))
(T (W x62 x00 x00 x00 x00 x00 x01 x01)
(L (W x00 x00 x01 x01 x9f x01 x00 x00)) E))
(T (W x49 xa1 x68 x4a xeb x5f xdd x3d)
(T (W x00 x00 x00 x00 x00 x00 x00 x00)
(L (W xff xff xff xff xc8 x00 x00 x00)) E)
(T (W x00 x00 x80 xbf x00 x00 x80 xbf)
(L (W x00 x00 x00 x00 x00 x00 x00 x00)) E))))
(T (W xb3 xd7 xd8 x75 xef xf0 x20 x1a)
(T (W xff xff xff xff xff xff xff xff)
(T (W xff xff xff xff xff xff xff xff)
(T (W x00 x00 x80 x3f x00 x00 x80 x3f)
(L (W xff xff xff xff xff xff xff xff))
(L (W x00 x00 x00 x00 x00 x00 x00 x00)))
(T (W xee xbb x33 x97 x85 xa9 x5f x5f)
(L (W xff xff xff xff xb0 x00 x00 x00)) E))
(T (W x00 x00 x00 x00 x00 x00 x00 x00)
(T (W x50 x00 x00 x00 x44 x00 x00 x00)
(L (W x00 x00 x00 x00 x00 x00 x00 x00)) E)
(T (W xff xff xff xff xff xff xff xff)
(L (W xff xff xff xff xff xff xff xff)) E)))
(T (W x00 x00 x80 x3f x00 x00 x80 x3f)
(T (W x84 xee xfa xff x00 x01 x01 x01)
(T (W xff xff xff xff xff xff xff xff)
(L (W x62 xeb xfd xff x78 x00 x00 x00))
(L (W x62 xeb xff xff x78 x00 x00 x00)))
(T (W xd0 x00 x00 x00 xc4 x00 x00 x00)
(L (W x00 x00 x80 xbf x00 x00 x80 xbf)) E))
(T (W x00 x00 x80 x3f x00 x00 x80 x3f)
(T (W xff xff xff xff xff xff xff xff)
(L (W x00 x00 x00 x00 x00 x00 x00 x00)) E)
(T (W x00 x00 x00 x00 x52 x6c xfd xff)
(L (W x00 x00 x80 xbf x00 x00 x80 xbf)) E))))))
(T (W x84 x96 xf9 xff x00 x01 x01 x01)
(T (W xff xff xff xff x03 x00 x00 x00)
(T (W x00 x00 x00 x00 x00 x00 x00 x00)
(T (W xb4 x0a xfa xff x3e x00 x00 x00)
(T (W x00 x00 x80 x3f x00 x00 x80 x3f)
(T (W xa1 x01 x00 x00 xff xff xff xff)
(L (W x03 x00 x00 x00 xcc x00 x00 x00))
(L (W xff xff xff xff x9c x00 x00 x00)))
(T (W xb8 x00 x00 x00 xac x00 x00 x00)
(L (W x45 x26 x22 x84 xe4 x9c xf2 xcb)) E))
(T (W xff xff xff xff xff xff xff xff)
(T (W x00 x00 x00 x00 x12 x00 x00 x00)
(L (W xff xff xff xff xff xff xff xff)) E)
(T (W x00 x00 x00 x00 x00 x00 x00 x00)
(L (W x00 x00 x80 xbf x00 x00 x80 xbf)) E)))
(T (W x64 x00 x00 x00 x9c x00 x00 x00)
(T (W xff xff xff xff xff xff xff xff)
(T (W x00 x00 x00 x00 x00 x00 x00 x00)
(L (W x00 x00 x01 x01 x5c x00 x00 x00))
(L (W x00 x00 x00 x00 x00 x00 x00 x00)))
(T (W x18 x00 x00 x00 x10 x00 x00 x00)
(L (W xff xff xff xff xff xff xff xff)) E))
(T (W x00 x00 x01 x01 x9c x01 x00 x00)
(T (W x00 x00 x00 x00 x00 x00 x00 x00)
(L (W x84 x46 xfe xff x00 x01 x01 x01)) E)
(T (W x45 x26 x22 x84 xe4 x9c xf2 xcb)
(L (W x00 x00 x00 x00 x00 x00 x00 x00)) E))))
(T (W x0c xf4 xf9 xff x25 x00 x00 x00)
(T (W xff xff xff xff xff xff xff xff)
(T (W xff xff xff xff xff xff xff xff)
(T (W x46 x53 x59 x53 x5f x4e x53 x5f)
(L (W x00 x00 x80 xbf x00 x00 x80 xbf))
(L (W x03 x00 x00 x00 xd0 x00 x00 x00)))
(T (W xff xff xff xff xff xff xff xff)
(L (W x19 x00 x00 x00 x1c x00 x00 x00)) E))
(T (W x00 x00 x00 x00 x00 x00 x00 x00)
(T (W x00 x00 x80 x3f x00 x00 x80 x3f)
(L (W x00 x00 x00 x00 x00 x00 x00 x00)) E)
(T (W x45 x26 x22 x84 xe4 x9c xf2 xcb)
(L (W xff xff xff xff xff xff xff xff)) E)))
(T (W x00 x00 x80 x3f x00 x00 x80 x3f)
(T (W x68 x00 x00 x00 x5c x00 x00 x00)
(T (W x18 x00 x00 x00 x10 x00 x00 x00)
(L (W x00 x00 x00 x00 x00 x00 x00 x00))
(L (W x6c x00 x00 x00 x60 x00 x00 x00)))
(T (W x00 x00 x00 x00 x00 x00 x00 x00)
(L (W x00 x00 x00 x00 x00 x00 x00 x00)) E))
(T (W x00 x00 x00 x00 x00 x00 x00 x00)
(T (W x00 x00 x00 x00 x00 x00 x00 x00)
(L (W x06 x00 x00 x00 xc8 x05 x00 x00)) E)
(T (W xff xff xff xff xff xff xff xff)
(L (W x45 x26 x22 x84 xe4 x9c xf2 xcb)) E)))))
(T (W xff xff xff xff xff xff xff xff)
(T (W x00 x00 x00 x00 x00 x00 x00 x00)
(T (W x00 x00 x00 x00 x00 x00 x00 x00)
(T (W x45 x26 x22 x84 xe4 x9c xf2 xcb)
(T (W xb2 x91 xfb xff x74 x00 x00 x00)
(L (W xff xff xff xff xff xff xff xff))
(L (W xff xff xff xff xff xff xff xff)))
(T (W x00 x00 x80 x3f x00 x00 x80 x3f)
(L (W x54 x00 x00 x00 x48 x00 x00 x00)) E))
(T (W x00 x00 x00 x00 x00 x00 x00 x00)
(T (W x49 xa1 x68 x4a xeb x5f xdd x3d)
(L (W x30 x32 x5f x43 x4c x45 x41 x52)) E)
(T (W x58 x00 x00 x00 x4c x00 x00 x00)
(L (W x03 x00 x00 x00 xd8 x00 x00 x00)) E)))
(T (W x84 x56 xfa xff x00 x01 x01 x01)
(T (W xb8 x00 x00 x00 xac x00 x00 x00)
(T (W x00 x00 x80 x3f x00 x00 x80 x3f)
(L (W x00 x00 x00 x00 x00 x00 x00 x00))
(L (W x00 x00 x80 xbf x00 x00 x80 xbf)))
(T (W x45 x26 x22 x84 xe4 x9c xf2 xcb)
(L (W x00 x00 x00 x00 x00 x00 x00 x00)) E))
(T (W x00 x00 x80 x3f x00 x00 x80 x3f)
(T (W x00 x00 x00 x00 x00 x00 x00 x00)
(L (W xff xff xff xff xff xff xff xff)) E)
(T (W x18 x00 x00 x00 x10 x00 x00 x00)
(L (W x00 x00 x80 xbf x00 x00 x80 xbf)) E))))
(T (W x00 x00 x00 x00 x00 x00 x00 x00)
(T (W x64 x00 x00 x00 x9c x00 x00 x00)
(T (W xff xff xff xff xff xff xff xff)
(T (W xff xff xff xff xff xff xff xff)
(L (W x45 x26 x22 x84 xe4 x9c xf2 xcb))
(L (W x00 x00 x00 x00 x00 x00 x00 x00)))
(T (W xff xff xff xff xff xff xff xff)
(L (W xbc x00 x00 x00 x1e x00 x00 x00)) E))
(T (W x00 x00 x80 x3f x00 x00 x80 x3f)
(T (W xff xff xff xff xff xff xff xff)
(L (W x00 x00 x80 xbf x00 x00 x80 xbf)) E)
(T (W xff xff xff xff xff xff xff xff)
(L (W xff xff xff xff xff xff xff xff)) E)))
(T (W x50 x00 x00 x00 x44 x00 x00 x00)
(T (W xff xff xff xff xff xff xff xff)
(T (W xff xff xff xff xff xff xff xff)
(L (W x15 x00 x00 x00 x18 x00 x00 x00))
(L (W xbc x00 x00 x00 x46 x00 x00 x00)))
(T (W x00 x00 x80 x3f x00 x00 x80 x3f)
(L (W x00 x00 x80 xbf x00 x00 x80 xbf)) E))
(T (W x84 x76 xfb xff x00 x01 x01 x01)
(T (W xff xff xff xff xff xff xff xff)
(L (W x00 x00 x00 x00 x00 x00 x00 x00)) E)
(T (W xff xff xff xff xff xff xff xff)
(L (W x6c x00 x00 x00 x60 x00 x00 x00)) E))))))))
(T (W xbc x00 x00 x00 xb0 x00 x00 x00)
(T (W x00 x00 x00 x00 x00 x00 x00 x00)
(T (W xff xff xff xff x04 x00 x00 x00)
(T (W x00 x00 x00 x00 x00 x00 x00 x00)
(T (W x00 x00 x80 x3f x00 x00 x80 x3f)
(T (W xff xff xff xff xff xff xff xff)
(T (W x00 x00 x00 x00 x00 x00 x00 x00)
(T (W x00 x00 x80 x3f x00 x00 x80 x3f)
(L (W x45 x26 x22 x84 xe4 x9c xf2 xcb))
(L (W x00 x00 x80 xbf x00 x00 x80 xbf)))
(T (W x01 x00 x00 x00 x9c x00 x00 x00)
(L (W x00 x00 x00 x00 x00 x00 x00 x00)) E))
(T (W xb4 x00 xfb xff x14 x00 x00 x00)
(T (W xff xff xff xff xff xff xff xff)
(L (W x6c x00 x00 x00 x60 x00 x00 x00))
(L (W xff xff xff xff xff xff xff xff)))
(T (W xff xff xff xff xff xff xff xff)
(L (W x00 x00 x00 x00 x00 x00 x00 x00)) E)))
(T (W x6c x00 x00 x00 x60 x00 x00 x00)
(T (W x18 x00 x00 x00 x0c x00 x00 x00)
(T (W xff xff xff xff x9c x00 x00 x00)
(L (W x45 x26 x22 x84 xe4 x9c xf2 xcb))
(L (W xff xff xff xff xff xff xff xff)))
(T (W x45 x26 x22 x84 xe4 x9c xf2 xcb)
(L (W x62 xb9 xfe xff x78 x00 x00 x00)) E))
(T (W x00 x00 x00 x00 x00 x00 x00 x00)
(T (W xff xff xff xff xc4 x00 x00 x00)
(L (W x00 x00 x00 x00 x00 x00 x00 x00)) E)
(T (W xff xff xff xff xff xff xff xff)
(L (W x00 x00 x00 x00 xf4 x3a xff xff)) E))))
(T (W xb8 x00 x00 x00 xac x00 x00 x00)
(T (W x00 x00 x00 x00 x00 x00 x00 x00)
(T (W xff xff xff xff x03 x00 x00 x00)
(T (W x00 x00 x80 x3f x00 x00 x80 x3f)
(L (W xc0 x00 x00 x00 x01 x00 x00 x00))
(L (W xff xff xff xff xff xff xff xff)))
(T (W x00 x00 x00 x00 x00 x00 x00 x00)
(L (W x4f x84 x6f x8b xe8 xcb x63 xb7)) E))
(T (W x6c x00 x00 x00 x60 x00 x00 x00)
(T (W x00 x00 x00 x00 x00 x00 x00 x00)
(L (W xff xff xff xff xff xff xff xff)) E)
(T (W x1c x00 x20 x00 x24 x00 x28 x00)
(L (W x54 x00 x00 x00 x48 x00 x00 x00)) E)))
(T (W x45 x26 x22 x84 xe4 x9c xf2 xcb)
(T (W x00 x00 x80 x3f x00 x00 x80 x3f)
(T (W x49 xa1 x68 x4a xeb x5f xdd x3d)
(L (W xff xff xff xff xff xff xff xff))
(L (W x00 x00 x00 x00 x00 x00 x00 x00)))
(T (W x45 x26 x22 x84 xe4 x9c xf2 xcb)
(L (W xff xff xff xff xff xff xff xff)) E))
(T (W x00 x00 x80 x3f x00 x00 x80 x3f)
(T (W xff xff xff xff xff xff xff xff)
(L (W x45 x26 x22 x84 xe4 x9c xf2 xcb)) E)
(T (W x00 x00 x80 xbf x00 x00 x80 xbf)
(L (W x00 x00 x00 x00 x92 x58 xff xff)) E)))))
(T (W x00 x00 x00 x00 x00 x00 x00 x00)
(T (W x00 x00 x80 x3f x00 x00 x80 x3f)
(T (W x64 x00 x00 x00 x9c x00 x00 x00)
(T (W x0c x9a xfa xff x3c x00 x00 x00)
(T (W xff xff xff xff xff xff xff xff)
(L (W x68 x00 x00 x00 x5c x00 x00 x00))
(L (W x54 x00 x00 x00 x48 x00 x00 x00)))
(T (W x00 x00 x80 x3f x00 x00 x80 x3f)
(L (W x30 x32 x5f x43 x4c x45 x41 x52)) E))
(T (W x18 x00 x00 x00 x10 x00 x00 x00)
(T (W x12 x12 xff xff x00 x00 x01 x01)
(L (W xcc x00 x00 x00 x01 x00 x00 x00)) E)
(T (W x00 x00 x80 xbf x00 x00 x80 xbf)
(L (W x00 x00 x80 xbf x00 x00 x80 xbf)) E)))
(T (W x00 x00 x80 x3f x00 x00 x80 x3f)
(T (W x00 x00 x80 x3f x00 x00 x80 x3f)
(T (W xb6 x01 x00 x00 xff xff xff xff)
(L (W xb4 x00 x00 x00 x19 x00 x00 x00))
(L (W x30 x32 x5f x43 x4c x45 x41 x52)))
(T (W x60 x00 x00 x00 x00 x00 x64 x00)
(L (W x03 x00 x00 x00 xd8 x00 x00 x00)) E))
(T (W x00 x00 x00 x00 xe2 x4e xfb xff)
(T (W xff xff xff xff xff xff xff xff)
(L (W x45 x26 x22 x84 xe4 x9c xf2 xcb)) E)
(T (W x00 x00 x00 x00 x00 x00 x00 x00)
(L (W xff xff xff xff xff xff xff xff)) E))))
(T (W xff xff xff xff xff xff xff xff)
(T (W x00 x00 x80 x3f x00 x00 x80 x3f)
(T (W xff xff xff xff xff xff xff xff)
(T (W x00 x00 x00 x00 x00 x00 x00 x00)
(L (W xff xff xff xff x9c x00 x00 x00))
(L (W xff xff xff xff xff xff xff xff)))
(T (W xff xff xff xff xff xff xff xff)
(L (W x4f x84 x6f x8b xe8 xcb x63 xb7)) E))
(T (W xff xff xff xff xff xff xff xff)
(T (W x45 x26 x22 x84 xe4 x9c xf2 xcb)
(L (W x00 x00 x01 x01 xa1 x01 x00 x00)) E)
(T (W x62 x29 xfd xff x78 x00 x00 x00)
(L (W x00 x00 x80 xbf x00 x00 x80 xbf)) E)))
(T (W x00 x00 x80 x3f x00 x00 x80 x3f)
(T (W x00 x00 x80 x3f x00 x00 x80 x3f)
(T (W x62 xe9 xfb xff x78 x00 x00 x00)
(L (W x49 xa1 x68 x4a xeb x5f xdd x3d))
(L (W x00 x00 x00 x00 x00 x00 x00 x00)))
(T (W xb2 xe7 xfc xff x74 x00 x00 x00)
(L (W x44 x09 x00 x00 x28 x08 x00 x00)) E))
(T (W x22 x00 x00 x00 x67 x72 x6f x75)
(T (W xb8 x00 x00 x00 xac x00 x00 x00)
(L (W xff xff xff xff xff xff xff xff)) E)
(T (W xff xff xff xff xff xff xff xff)
(L (W x00 x00 x00 x00 x12 x00 x00 x00)) E))))))
(T (W x00 x00 x80 x3f x00 x00 x80 x3f)
(T (W x84 xa4 xf9 xff x00 x01 x01 x01)
(T (W xff xff xff xff xff xff xff xff)
(T (W xff xff xff xff xff xff xff xff)
(T (W x00 x00 x00 x00 x00 x00 x00 x00)
(T (W xff xff xff xff xff xff xff xff)
(L (W x98 x26 x00 x00 x84 x25 x00 x00))
(L (W x00 x00 x80 xbf x00 x00 x80 xbf)))
(T (W x00 x00 x80 x3f x00 x00 x80 x3f)
(L (W x00 x00 x00 x00 x00 x00 x00 x00)) E))
(T (W x00 x00 x80 x3f x00 x00 x80 x3f)
(T (W xff xff xff xff xff xff xff xff)
(L (W xff xff xff xff xa0 x00 x00 x00))
(L (W xff xff xff xff xff xff xff xff)))
(T (W xff xff xff xff xff xff xff xff)
(L (W x00 x00 x00 x00 x00 x00 x00 x00)) E)))
(T (W x00 x00 x80 x3f x00 x00 x80 x3f)
(T (W x68 x00 x00 x00 x5c x00 x00 x00)
(T (W x00 x00 x01 x01 x9c x01 x00 x00)
(L (W x03 x00 x00 x00 xd8 x00 x00 x00))
(L (W xff xff xff xff xff xff xff xff)))
(T (W x00 x00 x80 x3f x00 x00 x80 x3f)
(L (W xb2 xbf xfe xff x74 x00 x00 x00)) E))
(T (W x18 x00 x00 x00 x0c x00 x00 x00)
(T (W xff xff xff xff xff xff xff xff)
(L (W x00 x00 x80 xbf x00 x00 x80 xbf)) E)
(T (W x54 x02 x00 x00 x38 x01 x00 x00)
(L (W xff xff xff xff xff xff xff xff)) E))))
(T (W xff xff xff xff xff xff xff xff)
(T (W x50 x00 x00 x00 x44 x00 x00 x00)
(T (W xff xff xff xff xff xff xff xff)
(T (W xff xff xff xff xff xff xff xff)
(L (W x30 x32 x5f x43 x4c x45 x41 x52))
(L (W x30 x32 x5f x43 x4c x45 x41 x52)))
(T (W x64 x00 x00 x00 x9c x00 x00 x00)
(L (W x00 x00 x00 x00 x00 x00 x00 x00)) E))
(T (W x21 x00 x00 x00 x24 x00 x00 x00)
(T (W x4f x84 x6f x8b xe8 xcb x63 xb7)
(L (W x2f x00 x00 x00 xff xff xff xff)) E)
(T (W x49 xa1 x68 x4a xeb x5f xdd x3d)
(L (W x62 x21 xff xff x78 x00 x00 x00)) E)))
(T (W x00 x00 x80 x3f x00 x00 x80 x3f)
(T (W x00 x00 x80 x3f x00 x00 x80 x3f)
(T (W x00 x00 x80 x3f x00 x00 x80 x3f)
(L (W x00 x00 x01 x01 x29 x00 x00 x00))
(L (W x00 x00 x00 x00 x00 x00 x00 x00)))
(T (W xff xff xff xff x03 x00 x00 x00)
(L (W x00 x00 x00 x00 xe2 xe6 xfe xff)) E))
(T (W xff xff xff xff xff xff xff xff)
(T (W x17 x00 x00 x00 x10 x00 x00 x00)
(L (W x17 x00 x00 x00 x1a x00 x00 x00)) E)
(T (W x45 x26 x22 x84 xe4 x9c xf2 xcb)
(L (W x00 x00 x00 x00 x00 x00 x00 x00)) E)))))
(T (W xff xff xff xff xff xff xff xff)
(T (W x00 x00 x00 x00 x00 x00 x00 x00)
(T (W x22 x00 x00 x00 x67 x72 x6f x75)
(T (W x00 x00 x00 x00 x01 x00 x00 x00)
(T (W x00 x00 x00 x00 x00 x00 x00 x00)
(L (W x45 x26 x22 x84 xe4 x9c xf2 xcb))
(L (W xb4 x00 x00 x00 x32 x00 x00 x00)))
(T (W x00 x00 x00 x00 x00 x00 x00 x00)
(L (W x00 x00 x00 x00 x00 x00 x00 x00)) E))
(T (W x12 x1a xfe xff x00 x00 x01 x01)
(T (W x46 x53 x59 x53 x5f x4e x53 x5f)
(L (W xff xff xff xff x9c x00 x00 x00)) E)
(T (W x00 x00 x00 x00 x00 x00 x00 x00)
(L (W x54 x00 x00 x00 x48 x00 x00 x00)) E)))
(T (W x00 x00 x00 x00 x00 x00 x00 x00)
(T (W x00 x00 x80 x3f x00 x00 x80 x3f)
(T (W x00 x00 x00 x00 x00 x00 x00 x00)
(L (W xff xff xff xff xff xff xff xff))
(L (W x66 xd4 xac x28 xbf xcf x59 x6a)))
(T (W x00 x00 x00 x00 x00 x00 x00 x00)
(L (W xff xff xff xff xff xff xff xff)) E))
(T (W x45 x26 x22 x84 xe4 x9c xf2 xcb)
(T (W xff xff xff xff xff xff xff xff)
(L (W x00 x00 x80 xbf x00 x00 x80 xbf)) E)
(T (W x00 x00 x00 x00 x00 x00 x00 x00)
(L (W x94 x04 x00 x00 x80 x03 x00 x00)) E))))
(T (W xff xff xff xff xff xff xff xff)
(T (W x00 x00 x80 x3f x00 x00 x80 x3f)
(T (W x45 x26 x22 x84 xe4 x9c xf2 xcb)
(T (W x00 x00 x80 x3f x00 x00 x80 x3f)
(L (W x00 x00 x00 x00 x00 x00 x00 x00))
(L (W xff xff xff xff xff xff xff xff)))
(T (W x18 x00 x00 x00 x10 x00 x00 x00)
(L (W x45 x26 x22 x84 xe4 x9c xf2 xcb)) E))
(T (W x00 x00 x00 x00 x00 x00 x00 x00)
(T (W x00 x00 x80 x3f x00 x00 x80 x3f)
(L (W x46 x53 x59 x53 x5f x4e x53 x5f)) E)
(T (W x45 x26 x22 x84 xe4 x9c xf2 xcb)
(L (W x5c x00 x00 x00 x50 x00 x00 x00)) E)))
(T (W x00 x00 x00 x00 x00 x00 x00 x00)
(T (W x18 x00 x00 x00 x10 x00 x00 x00)
(T (W xb2 xef xfb xff x74 x00 x00 x00)
(L (W x00 x00 x80 xbf x00 x00 x80 xbf))
(L (W x00 x00 x80 xbf x00 x00 x80 xbf)))
(T (W xff xff xff xff xff xff xff xff)
(L (W x46 x53 x59 x53 x5f x4e x53 x5f)) E))
(T (W x00 x00 x80 x3f x00 x00 x80 x3f)
(T (W x50 x00 x00 x00 x44 x00 x00 x00)
(L (W xff xff xff xff xff xff xff xff)) E)
(T (W x00 x00 x80 xbf x00 x00 x80 xbf)
(L (W x45 x26 x22 x84 xe4 x9c xf2 xcb)) E)))))))
(T (W x00 x00 x80 x3f x00 x00 x80 x3f)
(T (W x00 x00 x00 x00 x00 x00 x00 x00)
(T (W x45 x26 x22 x84 xe4 x9c xf2 xcb)
(T (W x45 x26 x22 x84 xe4 x9c xf2 xcb)
(T (W x00 x00 x80 x3f x00 x00 x80 x3f)
(T (W x18 x00 x00 x00 x0c x00 x00 x00)
(T (W x00 x00 x00 x00 x00 x00 x00 x00)
(L (W x00 x00 x00 x00 x00 x00 x00 x00))
(L (W xff xff xff xff xff xff xff xff)))
(T (W xb4 x84 xfc xff x11 x00 x00 x00)
(L (W x18 x00 x00 x00 x0c x00 x00 x00)) E))
(T (W xff xff xff xff xff xff xff xff)
(T (W x00 x00 x00 x00 x00 x00 x00 x00)
(L (W xff xff xff xff xff xff xff xff))
(L (W x00 x00 x00 x00 x00 x00 x00 x00)))
(T (W xff xff xff xff xff xff xff xff)
(L (W x68 x00 x00 x00 x5c x00 x00 x00)) E)))
(T (W x96 x01 x00 x00 xff xff xff xff)
(T (W x00 x00 x00 x00 x00 x00 x00 x00)
(T (W x00 x00 x80 x3f x00 x00 x80 x3f)
(L (W xff xff xff xff xff xff xff xff))
(L (W x00 x00 x80 xbf x00 x00 x80 xbf)))
(T (W xdd xd8 x36 x97 x85 x31 x63 x5f)
(L (W xd2 x8b xa7 x28 xbf x4d x53 x6a)) E))
(T (W xff xff xff xff xff xff xff xff)
(T (W x4f x84 x6f x8b xe8 xcb x63 xb7)
(L (W xff xff xff xff xff xff xff xff)) E)
(T (W x00 x00 x80 xbf x00 x00 x80 xbf)
(L (W x00 x00 x00 x00 x00 x00 x00 x00)) E))))
(T (W x00 x00 x00 x00 x00 x00 x00 x00)
(T (W xff xff xff xff xff xff xff xff)
(T (W x00 x00 x00 x00 x00 x00 x00 x00)
(T (W x00 x00 x00 x00 x00 x00 x00 x00)
(L (W x00 x00 x00 x00 x00 x00 x00 x00))
(L (W x00 x00 x80 xbf x00 x00 x80 xbf)))
(T (W xb4 xa4 xfc xff x26 x00 x00 x00)
(L (W xff xff xff xff xff xff xff xff)) E))
(T (W x00 x00 x00 x00 x00 x00 x00 x00)
(T (W xff xff xff xff xc4 x00 x00 x00)
(L (W x00 x00 x80 xbf x00 x00 x80 xbf)) E)
(T (W xff xff xff xff xff xff xff xff)
(L (W x2e x00 x00 x00 xff xff xff xff)) E)))
(T (W xff xff xff xff xff xff xff xff)
(T (W x1a xf0 xfd xff x00 x00 x01 x01)
(T (W xff xff xff xff xff xff xff xff)
(L (W x00 x00 x80 xbf x00 x00 x80 xbf))
(L (W x18 x00 x00 x00 x0c x00 x00 x00)))
(T (W xe9 x00 x00 x00 xff xff xff xff)
(L (W x00 x00 x80 xbf x00 x00 x80 xbf)) E))
(T (W x00 x00 x00 x00 x00 x00 x00 x00)
(T (W x62 x5d xfc xff x78 x00 x00 x00)
(L (W x00 x00 x00 x00 x00 x00 x00 x00)) E)
(T (W x00 x00 x00 x00 x52 x5e xfd xff)
(L (W x45 x26 x22 x84 xe4 x9c xf2 xcb)) E)))))
(T (W x00 x00 x80 x3f x00 x00 x80 x3f)
(T (W xff xff xff xff xff xff xff xff)
(T (W x45 x26 x22 x84 xe4 x9c xf2 xcb)
(T (W x01 x00 x00 x00 x3e x00 x00 x00)
(T (W x45 x26 x22 x84 xe4 x9c xf2 xcb)
(L (W x00 x00 x00 x00 x00 x00 x00 x00))
(L (W x00 x00 x00 x00 x00 x00 x00 x00)))
(T (W xff xff xff xff xff xff xff xff)
(L (W xcc x00 x00 x00 x01 x00 x00 x00)) E))
(T (W x00 x00 x00 x00 x00 x00 x00 x00)
(T (W x00 x00 x80 x3f x00 x00 x80 x3f)
(L (W x00 x00 x00 x00 x00 x00 x00 x00)) E)
(T (W x00 x00 x00 x00 x00 x00 x00 x00)
(L (W xff xff xff xff xff xff xff xff)) E)))
(T (W x12 x56 xfd xff x00 x00 x01 x01)
(T (W x57 x54 x3f x1c x7f x45 x42 x6b)
(T (W x45 x26 x22 x84 xe4 x9c xf2 xcb)
(L (W x00 x00 x00 x00 x00 x00 x00 x00))
(L (W x6c x00 x00 x00 x60 x00 x00 x00)))
(T (W x45 x26 x22 x84 xe4 x9c xf2 xcb)
(L (W x00 x00 x00 x00 x00 x00 x00 x00)) E))
(T (W x01 x00 x00 x00 x21 x00 x00 x00)
(T (W x00 x00 x80 x3f x00 x00 x80 x3f)
(L (W x00 x00 x00 x00 xe2 x52 xfe xff)) E)
(T (W x10 x00 x14 x00 x00 x00 x00 x00)
(L (W x00 x00 x80 xbf x00 x00 x80 xbf)) E))))
(T (W x00 x00 x80 x3f x00 x00 x80 x3f)
(T (W x00 x00 x00 x00 x00 x00 x00 x00)
(T (W x0c xbe xfa xff x3e x00 x00 x00)
(T (W xff xff xff xff xc8 x00 x00 x00)
(L (W xff xff xff xff xff xff xff xff))
(L (W x00 x00 x00 x00 x00 x00 x00 x00)))
(T (W x00 x00 x00 x00 x00 x00 x00 x00)
(L (W xff xff xff xff xff xff xff xff)) E))
(T (W x68 x00 x00 x00 x5c x00 x00 x00)
(T (W x00 x00 x00 x00 xe2 x32 xfc xff)
(L (W x21 x00 x00 x00 x24 x00 x00 x00)) E)
(T (W x00 x00 x00 x00 xe2 x32 xfd xff)
(L (W x45 x44 x00 x00 x00 x00 x00 x00)) E)))
(T (W x64 x00 x00 x00 x9c x00 x00 x00)
(T (W xff xff xff xff xff xff xff xff)
(T (W x86 x32 xa4 xf1 x93 x25 x82 x3c)
(L (W xff xff xff xff xff xff xff xff))
(L (W xff xff xff xff xff xff xff xff)))
(T (W x00 x00 x00 x00 x1c x00 x20 x00)
(L (W x18 x00 x00 x00 x10 x00 x00 x00)) E))
(T (W xb2 x6b xfb xff x74 x00 x00 x00)
(T (W x00 x00 x00 x00 x00 x00 x00 x00)
(L (W x00 x00 x80 xbf x00 x00 x80 xbf)) E)
(T (W x00 x00 x00 x00 x00 x00 x00 x00)
(L (W xff xff xff xff xff xff xff xff)) E))))))
(T (W xff xff xff xff xff xff xff xff)
(T (W xff xff xff xff xff xff xff xff)
(T (W x00 x00 x00 x00 x00 x00 x00 x00)
(T (W x45 x26 x22 x84 xe4 x9c xf2 xcb)
(T (W x40 x00 x00 x00 x9c x00 x00 x00)
(T (W x00 x00 x00 x00 x00 x00 x00 x00)
(L (W x6a xe5 xff xff x00 x00 x01 x01))
(L (W x45 x44 x00 x00 x00 x00 x00 x00)))
(T (W xff xff xff xff xff xff xff xff)
(L (W x18 x00 x00 x00 x10 x00 x00 x00)) E))
(T (W x00 x00 x00 x00 x00 x00 x00 x00)
(T (W x00 x00 x80 x3f x00 x00 x80 x3f)
(L (W x30 x32 x5f x43 x4c x45 x41 x52)) E)
(T (W xff xff xff xff x9c x00 x00 x00)
(L (W xff xff xff xff xb0 x00 x00 x00)) E)))
(T (W x8a x4c xfd xff x92 x01 x00 x00)
(T (W x00 x00 x00 x00 x00 x00 x00 x00)
(T (W x45 x26 x22 x84 xe4 x9c xf2 xcb)
(L (W x00 x00 x00 x00 x00 x00 x00 x00))
(L (W x00 x00 x80 xbf x00 x00 x80 xbf)))
(T (W x00 x00 x00 x00 x00 x00 x00 x00)
(L (W x30 x32 x5f x43 x4c x45 x41 x52)) E))
(T (W x00 x00 x00 x00 x00 x00 x00 x00)
(T (W x00 x00 x00 x00 x00 x00 x00 x00)
(L (W xff xff xff xff xff xff xff xff)) E)
(T (W x54 x00 x00 x00 x48 x00 x00 x00)
(L (W x00 x00 x80 xbf x00 x00 x80 xbf)) E))))
(T (W x00 x00 x80 x3f x00 x00 x80 x3f)
(T (W xb4 x2c xfa xff x1e x00 x00 x00)
(T (W x00 x00 x00 x00 x00 x00 x00 x00)
(T (W x68 x00 x00 x00 x5c x00 x00 x00)
(L (W x00 x00 x80 xbf x00 x00 x80 xbf))
(L (W xff xff xff xff xff xff xff xff)))
(T (W x00 x00 x00 x00 x00 x00 x00 x00)
(L (W xff xff xff xff xff xff xff xff)) E))
(T (W x00 x00 x00 x00 x00 x00 x00 x00)
(T (W xff xff xff xff xff xff xff xff)
(L (W x62 x25 xfe xff x78 x00 x00 x00)) E)
(T (W xff xff xff xff xff xff xff xff)
(L (W xff xff xff xff xff xff xff xff)) E)))
(T (W xff xff xff xff xff xff xff xff)
(T (W xff xff xff xff xff xff xff xff)
(T (W x00 x00 x00 x00 x00 x00 x00 x00)
(L (W x00 x00 x80 xbf x00 x00 x80 xbf))
(L (W xff xff xff xff xc0 x00 x00 x00)))
(T (W xff xff xff xff xff xff xff xff)
(L (W x00 x00 x80 xbf x00 x00 x80 xbf)) E))
(T (W x00 x00 x80 x3f x00 x00 x80 x3f)
(T (W x2c x00 x30 x00 x34 x00 x38 x00)
(L (W x00 x00 x80 xbf x00 x00 x80 xbf)) E)
(T (W x46 x53 x59 x53 x5f x4e x53 x5f)
(L (W xbc x00 x00 x00 x1e x00 x00 x00)) E)))))
(T (W x00 x00 x00 x00 x00 x00 x00 x00)
(T (W x00 x00 x80 x3f x00 x00 x80 x3f)
(T (W x45 x26 x22 x84 xe4 x9c xf2 xcb)
(T (W xff xff xff xff xff xff xff xff)
(T (W xff xff xff xff xbc x00 x00 x00)
(L (W x12 x00 x00 x00 x46 x53 x59 x53))
(L (W x00 x00 x80 xbf x00 x00 x80 xbf)))
(T (W xb8 x00 x00 x00 xac x00 x00 x00)
(L (W xb0 x00 x00 x00 x64 x00 x00 x00)) E))
(T (W xff xff xff xff xff xff xff xff)
(T (W x00 x00 x80 x3f x00 x00 x80 x3f)
(L (W x00 x00 x80 xbf x00 x00 x80 xbf)) E)
(T (W x1c x00 x20 x00 x24 x00 x28 x00)
(L (W x00 x00 x01 x01 x19 x00 x00 x00)) E)))
(T (W xff xff xff xff xff xff xff xff)
(T (W x5e x00 x00 x00 xff xff xff xff)
(T (W x18 x00 x00 x00 x10 x00 x00 x00)
(L (W x00 x00 x80 xbf x00 x00 x80 xbf))
(L (W x00 x00 x00 x00 xf4 xd6 xff xff)))
(T (W xff xff xff xff xff xff xff xff)
(L (W x00 x00 x80 xbf x00 x00 x80 xbf)) E))
(T (W xa1 x01 x00 x00 xff xff xff xff)
(T (W xb2 x53 xfc xff x74 x00 x00 x00)
(L (W x00 x00 x00 x00 x00 x00 x00 x00)) E)
(T (W xff xff xff xff xff xff xff xff)
(L (W x6c x00 x00 x00 x60 x00 x00 x00)) E))))
(T (W x45 x26 x22 x84 xe4 x9c xf2 xcb)
(T (W xff xff xff xff xff xff xff xff)
(T (W x00 x00 x00 x00 x00 x00 x00 x00)
(T (W x95 x0f xd7 xa2 x44 x6a xd7 x25)
(L (W x00 x00 x80 xbf x00 x00 x80 xbf))
(L (W x00 x00 x00 x00 x00 x00 x00 x00)))
(T (W x00 x00 x00 x00 x00 x00 x00 x00)
(L (W x29 x00 x00 x00 xff xff xff xff)) E))
(T (W xff xff xff xff x03 x00 x00 x00)
(T (W x00 x00 x00 x00 x00 x00 x00 x00)
(L (W x03 x00 x00 x00 xd0 x00 x00 x00)) E)
(T (W x00 x00 x00 x00 x00 x00 x00 x00)
(L (W x00 x00 x00 x00 x00 x00 x00 x00)) E)))
(T (W x00 x00 x00 x00 xf4 x76 xfa xff)
(T (W x00 x00 x00 x00 x00 x00 x00 x00)
(T (W x00 x00 x00 x00 x00 x00 x00 x00)
(L (W xff xff xff xff xff xff xff xff))
(L (W x90 x01 x00 x00 xff xff xff xff)))
(T (W x68 x00 x00 x00 x5c x00 x00 x00)
(L (W x03 x00 x00 x00 xd0 x00 x00 x00)) E))
(T (W x74 x03 x00 x00 x4c x02 x00 x00)
(T (W x00 x00 x00 x00 x00 x00 x00 x00)
(L (W x45 x26 x22 x84 xe4 x9c xf2 xcb)) E)
(T (W x00 x00 x00 x00 x00 x00 x00 x00)
(L (W xff xff xff xff xff xff xff xff)) E))))))))))
(T (W x00 xc7 x03 x00 xa4 xc4 x03 x00)
(T (W x80 x1f x03 x00 x3c x1d x03 x00)
(T (W x40 x40 x01 x00 xf4 x3d x01 x00)
(T (W x00 x00 x80 x3f x00 x00 x80 x3f)
(T (W x00 x00 x00 x00 x22 x23 xfd xff)
(T (W x00 x00 x80 x3f x00 x00 x80 x3f)
(T (W x18 x00 x00 x00 x0c x00 x00 x00)
(T (W x1a x08 xfd xff xc7 x01 x00 x00)
(T (W x45 x26 x22 x84 xe4 x9c xf2 xcb)
(T (W xff xff xff xff xc4 x00 x00 x00)
(L (W xff xff xff xff xff xff xff xff))
(L (W x45 x26 x22 x84 xe4 x9c xf2 xcb)))
(T (W xff xff xff xff xff xff xff xff)
(L (W x00 x00 x00 x00 x00 x00 x00 x00)) E))
(T (W xff xff xff xff xff xff xff xff)
(T (W xff xff xff xff xff xff xff xff)
(L (W x04 xfa xfd xff x00 x01 x01 x01))
(L (W x45 x26 x22 x84 xe4 x9c xf2 xcb)))
(T (W x00 x00 x00 x00 x00 x00 x00 x00)
(L (W x00 x00 x80 xbf x00 x00 x80 xbf)) E)))
(T (W x45 x26 x22 x84 xe4 x9c xf2 xcb)
(T (W xff xff xff xff x04 x00 x00 x00)
(T (W xff xff xff xff xff xff xff xff)
(L (W xff xff xff xff x08 x00 x00 x00))
(L (W x00 x00 x00 x00 x00 x00 x00 x00)))
(T (W xff xff xff xff xff xff xff xff)
(L (W x18 x00 x00 x00 x0c x00 x00 x00)) E))
(T (W x00 x00 x80 x3f x00 x00 x80 x3f)
(T (W xff xff xff xff xff xff xff xff)
(L (W x00 x00 x80 xbf x00 x00 x80 xbf)) E)
(T (W xff xff xff xff xff xff xff xff)
(L (W xff xff xff xff xff xff xff xff)) E))))
(T (W xff xff xff xff xff xff xff xff)
(T (W x00 x00 x00 x00 x00 x00 x00 x00)
(T (W x01 x00 x00 x00 x3e x00 x00 x00)
(T (W x04 x9a xfb xff x00 x01 x01 x01)
(L (W xff xff xff xff xff xff xff xff))
(L (W x00 x00 x00 x00 xd2 x97 xff xff)))
(T (W x00 x00 x80 x3f x00 x00 x80 x3f)
(L (W x54 x00 x00 x00 x48 x00 x00 x00)) E))
(T (W x04 x1a xfb xff x00 x01 x01 x01)
(T (W x00 x00 x00 x00 x00 x00 x00 x00)
(L (W x00 x00 x00 x00 xf2 x1d xfe xff)) E)
(T (W xff xff xff xff xff xff xff xff)
(L (W x29 x00 x00 x00 x2c x00 x00 x00)) E)))
(T (W x18 x00 x00 x00 x0c x00 x00 x00)
(T (W xff xff xff xff x03 x00 x00 x00)
(T (W xe2 xd6 xfb xff x78 x00 x00 x00)
(L (W x00 x00 x00 x00 x00 x00 x00 x00))
(L (W x00 x00 x00 x00 x00 x00 x00 x00)))
(T (W xe2 xd6 xfc xff x78 x00 x00 x00)
(L (W x00 x00 x00 x00 x12 xd6 xfe xff)) E))
(T (W xd4 x00 x00 x00 xc8 x00 x00 x00)
(T (W x00 x00 x00 x00 x00 x00 x00 x00)
(L (W xff xff xff xff xff xff xff xff)) E)
(T (W x18 x00 x00 x00 x0c x00 x00 x00)
(L (W x00 x00 x00 x00 x00 x00 x00 x00)) E)))))
(T (W x00 x00 x80 x3f x00 x00 x80 x3f)
(T (W xff xff xff xff xff xff xff xff)
(T (W x00 x00 x00 x00 x00 x00 x00 x00)
(T (W x45 x26 x22 x84 xe4 x9c xf2 xcb)
(T (W x00 x00 x00 x00 x00 x00 x00 x00)
(L (W xc0 x00 x00 x00 x01 x00 x00 x00))
(L (W x03 x00 x00 x00 xd0 x00 x00 x00)))
(T (W x01 x00 x00 x00 x9c x00 x00 x00)
(L (W x49 xa1 x68 x4a xeb x5f xdd x3d)) E))
(T (W xff xff xff xff xff xff xff xff)
(T (W x24 x00 x00 x00 x10 x00 x00 x00)
(L (W xff xff xff xff xff xff xff xff)) E)
(T (W x00 x00 x80 xbf x00 x00 x80 xbf)
(L (W x00 x00 x80 xbf x00 x00 x80 xbf)) E)))
(T (W x04 x4a xfa xff x00 x01 x01 x01)
(T (W xb8 x00 x00 x00 xac x00 x00 x00)
(T (W x00 x00 x00 x00 x00 x00 x00 x00)
(L (W xff xff xff xff xff xff xff xff))
(L (W x46 x53 x59 x53 x5f x4e x53 x5f)))
(T (W x00 x00 x00 x00 x02 x00 x00 x00)
(L (W xff xff xff xff xff xff xff xff)) E))
(T (W xa1 x01 x00 x00 xff xff xff xff)
(T (W x45 x44 x00 x00 x00 x00 x00 x00)
(L (W x54 x00 x00 x00 x48 x00 x00 x00)) E)
(T (W x00 x00 x00 x00 x12 x00 x00 x00)
(L (W x00 x00 x00 x00 x00 x00 x00 x00)) E))))
(T (W x27 x00 x00 x00 x0c x00 x00 x00)
(T (W xff xff xff xff xff xff xff xff)
(T (W xff xff xff xff xff xff xff xff)
(T (W x00 x00 x00 x00 x00 x00 x00 x00)
(L (W x00 x00 x00 x00 x00 x00 x00 x00))
(L (W xff xff xff xff xe4 x00 x00 x00)))
(T (W xff xff xff xff xff xff xff xff)
(L (W x6c x00 x00 x00 x60 x00 x00 x00)) E))
(T (W x92 x2f xfe xff x00 x00 x01 x01)
(T (W x32 x25 xfc xff x74 x00 x00 x00)
(L (W x00 x00 x00 x00 x00 x00 x00 x00)) E)
(T (W x00 x00 x00 x00 x74 x28 xfd xff)
(L (W xff xff xff xff xa0 x00 x00 x00)) E)))
(T (W x54 x00 x00 x00 x48 x00 x00 x00)
(T (W x45 x26 x22 x84 xe4 x9c xf2 xcb)
(T (W x18 x00 x00 x00 x0c x00 x00 x00)
(L (W x54 x00 x00 x00 x48 x00 x00 x00))
(L (W x00 x00 x80 xbf x00 x00 x80 xbf)))
(T (W x01 x00 x00 x00 xac x00 x00 x00)
(L (W x00 x00 x00 x00 x00 x00 x00 x00)) E))
(T (W x00 x00 x00 x00 x00 x00 x00 x00)
(T (W xff xff xff xff xff xff xff xff)
(L (W x00 x00 x00 x00 x00 x00 x00 x00)) E)
(T (W xff xff xff xff xff xff xff xff)
(L (W x00 x00 x80 xbf x00 x00 x80 xbf)) E))))))
(T (W xbc x00 x00 x00 xb0 x00 x00 x00)
(T (W xff xff xff xff xff xff xff xff)
(T (W x00 x00 x00 x00 x00 x00 x00 x00)
(T (W x00 x00 x00 x00 x00 x00 x00 x00)
(T (W x00 x00 x00 x00 x00 x00 x00 x00)
(T (W x34 x01 x00 x00 x04 x00 x00 x00)
(L (W xff xff xff xff xff xff xff xff))
(L (W xff xff xff xff xa0 x00 x00 x00)))
(T (W xb8 x00 x00 x00 xac x00 x00 x00)
(L (W x00 x00 x80 xbf x00 x00 x80 xbf)) E))
(T (W x00 x00 x80 x3f x00 x00 x80 x3f)
(T (W x00 x00 x00 x00 x00 x00 x00 x00)
(L (W xff xff xff xff x9c x00 x00 x00))
(L (W x00 x00 x00 x00 x00 x00 x00 x00)))
(T (W x18 x00 x00 x00 x10 x00 x00 x00)
(L (W x00 x00 x80 xbf x00 x00 x80 xbf)) E)))
(T (W x68 x00 x00 x00 x5c x00 x00 x00)
(T (W x18 x00 x00 x00 x10 x00 x00 x00)
(T (W x8c xcf xfb xff x10 x00 x00 x00)
(L (W xff xff xff xff xff xff xff xff))
(L (W x00 x00 x00 x00 x00 x00 x00 x00)))
(T (W x18 x00 x00 x00 x10 x00 x00 x00)
(L (W xff xff xff xff xff xff xff xff)) E))
(T (W x45 x26 x22 x84 xe4 x9c xf2 xcb)
(T (W xff xff xff xff xff xff xff xff)
(L (W x00 x00 x80 xbf x00 x00 x80 xbf)) E)
(T (W x8c x4f xfd xff x13 x00 x00 x00)
(L (W xff xff xff xff xff xff xff xff)) E))))
(T (W x00 x00 x00 x00 x00 x00 x00 x00)
(T (W xff xff xff xff xff xff xff xff)
(T (W xff xff xff xff xff xff xff xff)
(T (W xff xff xff xff xff xff xff xff)
(L (W x02 x00 x00 x00 xff xff xff xff))
(L (W x00 x00 x00 x00 x00 x00 x00 x00)))
(T (W xd0 x00 x00 x00 xac x00 x00 x00)
(L (W x54 x00 x00 x00 x48 x00 x00 x00)) E))
(T (W xff xff xff xff xbc x00 x00 x00)
(T (W x00 x00 x80 x3f x00 x00 x80 x3f)
(L (W x00 x00 x00 x00 x12 x00 x00 x00)) E)
(T (W x6c x00 x00 x00 x60 x00 x00 x00)
(L (W xff xff xff xff xff xff xff xff)) E)))
(T (W x00 x00 x80 x3f x00 x00 x80 x3f)
(T (W x00 x00 x00 x00 x74 xe0 xfa xff)
(T (W x00 x00 x00 x00 x74 xe0 xfb xff)
(L (W x8c xef xfd xff x11 x00 x00 x00))
(L (W x00 x00 x80 xbf x00 x00 x80 xbf)))
(T (W x45 x26 x22 x84 xe4 x9c xf2 xcb)
(L (W x00 x00 x00 x00 x00 x00 x00 x00)) E))
(T (W xff xff xff xff x01 x00 x00 x00)
(T (W x00 x00 x00 x00 x00 x00 x00 x00)
(L (W xff xff xff xff xff xff xff xff)) E)
(T (W xff xff xff xff x9c x00 x00 x00)
(L (W x45 x26 x22 x84 xe4 x9c xf2 xcb)) E)))))
(T (W x00 x00 x00 x00 x00 x00 x00 x00)
(T (W x00 x00 x80 x3f x00 x00 x80 x3f)
(T (W x5f x77 x69 x6c x64 x5f x70 x6f)
(T (W x45 x26 x22 x84 xe4 x9c xf2 xcb)
(T (W x45 x26 x22 x84 xe4 x9c xf2 xcb)
(L (W xff xff xff xff xff xff xff xff))
(L (W xff xff xff xff xff xff xff xff)))
(T (W x00 x00 x80 x3f x00 x00 x80 x3f)
(L (W x00 x00 x80 xbf x00 x00 x80 xbf)) E))
(T (W xa1 x01 x00 x00 xff xff xff xff)
(T (W x00 x00 x00 x00 x00 x00 x00 x00)
(L (W xff xff xff xff xff xff xff xff)) E)
(T (W x00 x00 x00 x00 x00 x00 x00 x00)
(L (W x00 x00 x80 xbf x00 x00 x80 xbf)) E)))
(T (W x45 x26 x22 x84 xe4 x9c xf2 xcb)
(T (W xc0 x00 x00 x00 xb4 x00 x00 x00)
(T (W x45 x26 x22 x84 xe4 x9c xf2 xcb)
(L (W x54 x02 x00 x00 x38 x01 x00 x00))
(L (W x00 x00 x00 x00 x00 x00 x00 x00)))
(T (W x00 x00 x00 x00 x00 x00 x00 x00)
(L (W x04 x00 x00 x00 xf2 xd5 xfe xff)) E))
(T (W x00 x00 x80 x3f x00 x00 x80 x3f)
(T (W x34 x56 xfc xff x15 x00 x00 x00)
(L (W xff xff xff xff xb0 x00 x00 x00)) E)
(T (W x00 x00 x80 xbf x00 x00 x80 xbf)
(L (W x00 x00 x00 x00 x00 x00 x00 x00)) E))))
(T (W x00 x00 x00 x00 x00 x00 x00 x00)
(T (W xff xff xff xff xff xff xff xff)
(T (W xff xff xff xff xff xff xff xff)
(T (W x50 x00 x00 x00 x44 x00 x00 x00)
(L (W x50 x00 x00 x00 x44 x00 x00 x00))
(L (W x54 x02 x00 x00 x38 x01 x00 x00)))
(T (W xff xff xff xff xff xff xff xff)
(L (W xe2 xae xfe xff x78 x00 x00 x00)) E))
(T (W x4f x84 x6f x8b xe8 xcb x63 xb7)
(T (W x45 x26 x22 x84 xe4 x9c xf2 xcb)
(L (W x00 x00 x80 xbf x00 x00 x80 xbf)) E)
(T (W xff xff xff xff xff xff xff xff)
(L (W xcc x00 x00 x00 x01 x00 x00 x00)) E)))
(T (W x00 x00 x80 x3f x00 x00 x80 x3f)
(T (W x50 x00 x00 x00 x44 x00 x00 x00)
(T (W xff xff xff xff xff xff xff xff)
(L (W x00 x00 x80 xbf x00 x00 x80 xbf))
(L (W x00 x00 x80 xbf x00 x00 x80 xbf)))
(T (W x00 x00 x00 x00 x18 x00 x1c x00)
(L (W x49 xa1 x68 x4a xeb x5f xdd x3d)) E))
(T (W x54 x00 x00 x00 x48 x00 x00 x00)
(T (W xff xff xff xff xff xff xff xff)
(L (W x00 x00 x00 x00 x00 x00 x00 x00)) E)
(T (W x00 x00 x00 x00 x12 x6e xfd xff)
(L (W x6c x00 x00 x00 x60 x00 x00 x00)) E)))))))
(T (W x64 x00 x00 x00 xa0 x00 x00 x00)
(T (W x00 x00 x80 x3f x00 x00 x80 x3f)
(T (W xb8 x00 x00 x00 xac x00 x00 x00)
(T (W xff xff xff xff xff xff xff xff)
(T (W x04 xfe xf9 xff x00 x01 x01 x01)
(T (W xdd x00 x00 x00 xff xff xff xff)
(T (W x00 x00 x00 x00 x00 x00 x00 x00)
(L (W x00 x00 x00 x00 x00 x00 x00 x00))
(L (W x00 x00 x00 x00 x00 x00 x00 x00)))
(T (W x00 x00 x00 x00 x00 x00 x00 x00)
(L (W xc4 x00 x00 x00 x02 x00 x00 x00)) E))
(T (W xff xff xff xff xff xff xff xff)
(T (W x50 x00 x00 x00 x44 x00 x00 x00)
(L (W x00 x00 x00 x00 x00 x00 x00 x00))
(L (W x64 x00 x68 x00 x62 x00 x00 x00)))
(T (W xe2 xfa xfc xff x78 x00 x00 x00)
(L (W xff xff xff xff xff xff xff xff)) E)))
(T (W x00 x00 x00 x00 x00 x00 x00 x00)
(T (W x00 x00 x00 x00 x00 x00 x00 x00)
(T (W x00 x00 x80 x3f x00 x00 x80 x3f)
(L (W x00 x00 x00 x00 x00 x00 x00 x00))
(L (W x18 x00 x00 x00 x0c x00 x00 x00)))
(T (W x00 x00 x00 x00 x00 x00 x00 x00)
(L (W x00 x00 x00 x00 x00 x00 x00 x00)) E))
(T (W x00 x00 x00 x00 x62 x40 xfb xff)
(T (W x00 x00 x80 x3f x00 x00 x80 x3f)
(L (W x00 x00 x00 x00 x62 x40 xfe xff)) E)
(T (W x54 x00 x00 x00 x48 x00 x00 x00)
(L (W x00 x00 x80 xbf x00 x00 x80 xbf)) E))))
(T (W x00 x00 x80 x3f x00 x00 x80 x3f)
(T (W xff xff xff xff xff xff xff xff)
(T (W x45 x26 x22 x84 xe4 x9c xf2 xcb)
(T (W x00 x00 x00 x00 x00 x00 x00 x00)
(L (W x00 x00 x80 xbf x00 x00 x80 xbf))
(L (W x00 x00 x80 xbf x00 x00 x80 xbf)))
(T (W x6f x77 x61 x72 x64 x00 x00 x00)
(L (W xff xff xff xff xff xff xff xff)) E))
(T (W x00 x00 x00 x00 x00 x00 x00 x00)
(T (W xff xff xff xff xff xff xff xff)
(L (W x00 x00 x80 xbf x00 x00 x80 xbf)) E)
(T (W x00 x00 x01 x01 xd1 x01 x00 x00)
(L (W x00 x00 x00 x00 x00 x00 x00 x00)) E)))
(T (W x97 x01 x00 x00 xff xff xff xff)
(T (W x3e x00 x00 x00 x0c x00 x00 x00)
(T (W xb0 x3e x8e x7f x40 xa1 xa4 xd9)
(L (W x18 x00 x00 x00 x0c x00 x00 x00))
(L (W xff xff xff xff xff xff xff xff)))
(T (W x00 x00 x00 x00 x12 x00 x00 x00)
(L (W xe2 xda xfe xff x78 x00 x00 x00)) E))
(T (W x00 x00 x00 x00 x00 x00 x00 x00)
(T (W xff xff xff xff xff xff xff xff)
(L (W x4f x84 x6f x8b xe8 xcb x63 xb7)) E)
(T (W x00 x00 x00 x00 x00 x00 x00 x00)
(L (W xff xff xff xff xff xff xff xff)) E)))))
(T (W xff xff xff xff xff xff xff xff)
(T (W x00 x00 x00 x00 x00 x00 x00 x00)
(T (W x00 x00 x80 x3f x00 x00 x80 x3f)
(T (W xff xff xff xff xff xff xff xff)
(T (W xe2 x8a xfb xff x78 x00 x00 x00)
(L (W x00 x00 x00 x00 x00 x00 x00 x00))
(L (W x00 x00 x00 x00 x00 x00 x00 x00)))
(T (W x34 x92 xfc xff x12 x00 x00 x00)
(L (W xff xff xff xff xff xff xff xff)) E))
(T (W x00 x00 x80 x3f x00 x00 x80 x3f)
(T (W x21 x00 x00 x00 x24 x00 x00 x00)
(L (W x00 x00 x80 xbf x00 x00 x80 xbf)) E)
(T (W x00 x00 x00 x00 x00 x00 x00 x00)
(L (W x00 x00 x00 x00 x12 x0a xff xff)) E)))
(T (W x00 x00 x00 x00 x00 x00 x00 x00)
(T (W x00 x00 x00 x00 x00 x00 x00 x00)
(T (W xff xff xff xff xff xff xff xff)
(L (W x00 x00 x80 xbf x00 x00 x80 xbf))
(L (W xff xff xff xff xff xff xff xff)))
(T (W x0c x08 x00 x00 xc0 x06 x00 x00)
(L (W x00 x00 x80 xbf x00 x00 x80 xbf)) E))
(T (W xff xff xff xff xff xff xff xff)
(T (W x45 x26 x22 x84 xe4 x9c xf2 xcb)
(L (W x00 x00 x00 x00 x00 x00 x00 x00)) E)
(T (W xff xff xff xff xff xff xff xff)
(L (W x18 x00 x00 x00 x0c x00 x00 x00)) E))))
(T (W x00 x00 x80 x3f x00 x00 x80 x3f)
(T (W x00 x00 x00 x00 x00 x00 x00 x00)
(T (W x00 x00 x80 x3f x00 x00 x80 x3f)
(T (W xff xff xff xff xff xff xff xff)
(L (W x45 x26 x22 x84 xe4 x9c xf2 xcb))
(L (W x00 x00 x80 xbf x00 x00 x80 xbf)))
(T (W x00 x00 x80 x3f x00 x00 x80 x3f)
(L (W x06 x00 x00 x00 xc0 x05 x00 x00)) E))
(T (W x32 x29 xfb xff x74 x00 x00 x00)
(T (W xff xff xff xff xff xff xff xff)
(L (W x21 x00 x00 x00 x24 x00 x00 x00)) E)
(T (W x00 x00 x00 x00 x00 x00 x00 x00)
(L (W x4f x84 x6f x8b xe8 xcb x63 xb7)) E)))
(T (W xff xff xff xff xff xff xff xff)
(T (W x00 x00 x00 x00 x00 x00 x00 x00)
(T (W x00 x00 x00 x00 x00 x00 x00 x00)
(L (W x00 x00 x01 x01 x2f x00 x00 x00))
(L (W x04 x00 x00 x00 xd2 xeb xff xff)))
(T (W x00 x00 x00 x00 x00 x00 x00 x00)
(L (W xff xff xff xff xff xff xff xff)) E))
(T (W xff xff xff xff xff xff xff xff)
(T (W x45 x26 x22 x84 xe4 x9c xf2 xcb)
(L (W xff xff xff xff xb0 x00 x00 x00)) E)
(T (W x00 x00 x80 xbf x00 x00 x80 xbf)
(L (W xff xff xff xff xff xff xff xff)) E))))))
(T (W x00 x00 x00 x00 x00 x00 x00 x00)
(T (W x00 x00 x00 x00 x00 x00 x00 x00)
(T (W x54 x00 x00 x00 x48 x00 x00 x00)
(T (W x00 x00 x80 x3f x00 x00 x80 x3f)
(T (W xff xff xff xff xff xff xff xff)
(T (W x00 x00 x80 x3f x00 x00 x80 x3f)
(L (W x12 x00 x00 x00 x46 x53 x59 x53))
(L (W x30 x32 x5f x43 x4c x45 x41 x52)))
(T (W x00 x00 x00 x00 x00 x00 x00 x00)
(L (W xff xff xff xff xbc x00 x00 x00)) E))
(T (W x5f x77 x69 x6c x64 x5f x70 x6f)
(T (W x04 x06 xfc xff x00 x01 x01 x01)
(L (W x49 xa1 x68 x4a xeb x5f xdd x3d)) E)
(T (W x00 x00 x00 x00 x74 x04 xfd xff)
(L (W xff xff xff xff xff xff xff xff)) E)))
(T (W x00 x00 x00 x00 x00 x00 x00 x00)
(T (W x45 x26 x22 x84 xe4 x9c xf2 xcb)
(T (W x18 x00 x00 x00 x10 x00 x00 x00)
(L (W x00 x00 x80 xbf x00 x00 x80 xbf))
(L (W x00 x00 x00 x00 x74 xc4 xff xff)))
(T (W x00 x00 x00 x00 x00 x00 x00 x00)
(L (W x00 x00 x80 xbf x00 x00 x80 xbf)) E))
(T (W x00 x00 x80 x3f x00 x00 x80 x3f)
(T (W x68 x00 x00 x00 x5c x00 x00 x00)
(L (W x00 x00 x00 x00 x00 x00 x00 x00)) E)
(T (W xff xff xff xff xc8 x00 x00 x00)
(L (W xe2 x42 xff xff x78 x00 x00 x00)) E))))
(T (W x00 x00 x80 x3f x00 x00 x80 x3f)
(T (W x00 x00 x00 x00 x00 x00 x00 x00)
(T (W x00 x00 x80 x3f x00 x00 x80 x3f)
(T (W xe2 xa2 xfb xff x78 x00 x00 x00)
(L (W xff xff xff xff xff xff xff xff))
(L (W x00 x00 x00 x00 x00 x00 x00 x00)))
(T (W x00 x00 x80 x3f x00 x00 x80 x3f)
(L (W x46 x53 x59 x53 x5f x4e x53 x5f)) E))
(T (W x00 x00 x80 x3f x00 x00 x80 x3f)
(T (W xff xff xff xff xff xff xff xff)
(L (W x45 x26 x22 x84 xe4 x9c xf2 xcb)) E)
(T (W x41 x2f xc8 xc9 x03 x8c xa0 xbc)
(L (W x00 x00 x00 x00 x00 x00 x00 x00)) E)))
(T (W xff xff xff xff xff xff xff xff)
(T (W x00 x00 x00 x00 x00 x00 x00 x00)
(T (W x45 x44 x00 x00 x00 x00 x00 x00)
(L (W x12 x00 x00 x00 x15 x00 x00 x00))
(L (W x5d x00 x00 x00 xff xff xff xff)))
(T (W x1c x00 x00 x00 x9c x00 x00 x00)
(L (W xff xff xff xff xb0 x00 x00 x00)) E))
(T (W x24 x00 x00 x00 xb0 x00 x00 x00)
(T (W x64 x00 x00 x00 x9c x00 x00 x00)
(L (W x00 x00 x80 xbf x00 x00 x80 xbf)) E)
(T (W x00 x00 x00 x00 x00 x00 x00 x00)
(L (W xff xff xff xff xbc x00 x00 x00)) E)))))
(T (W x00 x00 x80 x3f x00 x00 x80 x3f)
(T (W x01 x00 x00 x00 xa0 x00 x00 x00)
(T (W xb8 x00 x00 x00 xac x00 x00 x00)
(T (W xff xff xff xff xff xff xff xff)
(T (W x00 x00 x00 x00 x62 x98 xfb xff)
(L (W x49 xa1 x68 x4a xeb x5f xdd x3d))
(L (W x00 x00 x80 xbf x00 x00 x80 xbf)))
(T (W xff xff xff xff xff xff xff xff)
(L (W x5c x00 x00 x00 xff xff xff xff)) E))
(T (W x29 x00 x00 x00 x2c x00 x00 x00)
(T (W xff xff xff xff xff xff xff xff)
(L (W x6c x00 x00 x00 x60 x00 x00 x00)) E)
(T (W xff xff xff xff xff xff xff xff)
(L (W x00 x00 x00 x00 x00 x00 x00 x00)) E)))
(T (W x70 xcc x59 x46 x48 x96 xd6 x99)
(T (W x00 x00 x00 x00 x00 x00 x00 x00)
(T (W xff xff xff xff xff xff xff xff)
(L (W xe2 xd2 xfd xff x78 x00 x00 x00))
(L (W xff xff xff xff xff xff xff xff)))
(T (W x61 x72 x6c x69 x6b x65 x5f x6c)
(L (W x6c x00 x00 x00 x60 x00 x00 x00)) E))
(T (W xff xff xff xff xff xff xff xff)
(T (W x00 x00 x00 x00 x74 x54 xfc xff)
(L (W x00 x00 x00 x00 x00 x00 x00 x00)) E)
(T (W x45 x44 x00 x00 x00 x00 x00 x00)
(L (W xff xff xff xff xff xff xff xff)) E))))
(T (W x68 x00 x00 x00 x5c x00 x00 x00)
(T (W x00 x00 x00 x00 x00 x00 x00 x00)
(T (W x00 x00 x80 x3f x00 x00 x80 x3f)
(T (W x00 x00 x00 x00 x00 x00 x00 x00)
(L (W xff xff xff xff xbc x00 x00 x00))
(L (W x54 x00 x00 x00 x48 x00 x00 x00)))
(T (W x00 x00 x80 x3f x00 x00 x80 x3f)
(L (W x00 x00 x00 x00 x12 x00 x00 x00)) E))
(T (W xff xff xff xff xff xff xff xff)
(T (W x00 x00 x00 x00 x00 x00 x00 x00)
(L (W xff xff xff xff xff xff xff xff)) E)
(T (W x45 x26 x22 x84 xe4 x9c xf2 xcb)
(L (W x00 x00 x00 x00 x00 x00 x00 x00)) E)))
(T (W xff xff xff xff xff xff xff xff)
(T (W x00 x00 x80 x3f x00 x00 x80 x3f)
(T (W x00 x00 x00 x00 x00 x00 x00 x00)
(L (W x46 x53 x59 x53 x5f x4e x53 x5f))
(L (W x00 x00 x00 x00 x12 x00 x00 x00)))
(T (W xff xff xff xff xff xff xff xff)
(L (W xff xff xff xff xff xff xff xff)) E))
(T (W x00 x00 x00 x00 x00 x00 x00 x00)
(T (W x00 x00 x00 x00 x00 x00 x00 x00)
(L (W x45 x26 x22 x84 xe4 x9c xf2 xcb)) E)
(T (W x00 x00 x80 xbf x00 x00 x80 xbf)
(L (W xaf x00 x00 x00 xff xff xff xff)) E))))))))
(T (W x1c x0b x00 x00 x00 x0a x00 x00)
(T (W x54 x00 x00 x00 x48 x00 x00 x00)
(T (W x00 x00 x00 x00 x00 x00 x00 x00)
(T (W xe2 x98 xf9 xff x78 x00 x00 x00)
(T (W xff xff xff xff xff xff xff xff)
(T (W x00 x00 x00 x00 x00 x00 x00 x00)
(T (W x01 x00 x00 x00 xa0 x00 x00 x00)
(T (W xff xff xff xff xff xff xff xff)
(L (W x00 x00 x00 x00 x00 x00 x00 x00))
(L (W xff xff xff xff xff xff xff xff)))
(T (W x34 x80 xfc xff x18 x00 x00 x00)
(L (W x00 x00 x80 xbf x00 x00 x80 xbf)) E))
(T (W x00 x00 x80 x3f x00 x00 x80 x3f)
(T (W x00 x00 x00 x00 x00 x00 x00 x00)
(L (W xff xff xff xff xff xff xff xff))
(L (W x1c x05 x00 x00 x78 x03 x00 x00)))
(T (W x00 x00 x00 x00 x00 x00 x0c x00)
(L (W x00 x00 x00 x00 x74 xfa xfe xff)) E)))
(T (W x9a x4b xfd xff x00 x00 x01 x01)
(T (W x3e x00 x00 x00 x10 x00 x00 x00)
(T (W x5f x4e x53 x5f x30 x32 x5f x43)
(L (W x00 x00 x00 x00 x00 x00 x00 x00))
(L (W x00 x00 x00 x00 x00 x00 x00 x00)))
(T (W xab xce x36 x97 x85 x2b x63 x5f)
(L (W x04 x00 x00 x00 xd2 xb9 xfe xff)) E))
(T (W x45 x26 x22 x84 xe4 x9c xf2 xcb)
(T (W x00 x00 x00 x00 x00 x00 x00 x00)
(L (W x00 x00 x00 x00 x74 x3a xfe xff)) E)
(T (W x00 x00 x00 x00 x00 x00 x00 x00)
(L (W x00 x00 x00 x00 x00 x00 x00 x00)) E))))
(T (W x00 x00 x00 x00 x00 x00 x00 x00)
(T (W x68 x00 x00 x00 x5c x00 x00 x00)
(T (W x00 x00 x00 x00 x00 x00 x00 x00)
(T (W xff xff xff xff xff xff xff xff)
(L (W x5f x4e x53 x5f x30 x32 x5f x43))
(L (W x00 x00 x00 x00 x00 x00 x00 x00)))
(T (W x01 x00 x00 x00 x9c x00 x00 x00)
(L (W xcc x00 x00 x00 x01 x00 x00 x00)) E))
(T (W xa1 x01 x00 x00 xff xff xff xff)
(T (W x18 x00 x00 x00 x10 x00 x00 x00)
(L (W x45 x26 x22 x84 xe4 x9c xf2 xcb)) E)
(T (W x00 x00 x00 x00 x00 x00 x00 x00)
(L (W xff xff xff xff xff xff xff xff)) E)))
(T (W xff xff xff xff xff xff xff xff)
(T (W xff xff xff xff xff xff xff xff)
(T (W xff xff xff xff xff xff xff xff)
(L (W x49 xa1 x68 x4a xeb x5f xdd x3d))
(L (W x18 x00 x00 x00 x0c x00 x00 x00)))
(T (W xff xff xff xff xff xff xff xff)
(L (W x00 x00 x00 x00 x00 x00 x00 x00)) E))
(T (W xff xff xff xff xff xff xff xff)
(T (W x00 x00 x80 x3f x00 x00 x80 x3f)
(L (W x00 x00 x00 x00 x00 x00 x00 x00)) E)
(T (W xff xff xff xff xff xff xff xff)
(L (W x00 x00 x80 xbf x00 x00 x80 xbf)) E)))))
(T (W x45 x26 x22 x84 xe4 x9c xf2 xcb)
(T (W x07 x00 x00 x00 xff xff xff xff)
(T (W x00 x00 x00 x00 x00 x00 x00 x00)
(T (W x00 x00 x80 x3f x00 x00 x80 x3f)
(T (W x00 x00 x80 x3f x00 x00 x80 x3f)
(L (W xc9 x00 x00 x00 xff xff xff xff))
(L (W xff xff xff xff xff xff xff xff)))
(T (W xff xff xff xff xff xff xff xff)
(L (W x6c x00 x00 x00 x60 x00 x00 x00)) E))
(T (W x4c x45 x41 x52 x45 x44 x00 x00)
(T (W x45 x26 x22 x84 xe4 x9c xf2 xcb)
(L (W x4b x26 x3c xdc x00 x64 x4b x2f)) E)
(T (W xff xff xff xff xff xff xff xff)
(L (W xff xff xff xff xff xff xff xff)) E)))
(T (W xff xff xff xff xff xff xff xff)
(T (W xff xff xff xff xff xff xff xff)
(T (W x00 x00 x80 x3f x00 x00 x80 x3f)
(L (W x00 x00 x00 x00 x12 x00 x00 x00))
(L (W x6c x00 x00 x00 x60 x00 x00 x00)))
(T (W x54 x4f x4c x4f x53 x00 x00 x00)
(L (W x00 x00 x00 x00 x00 x00 x00 x00)) E))
(T (W x00 x00 x80 x3f x00 x00 x80 x3f)
(T (W x00 x00 x00 x00 x00 x00 x00 x00)
(L (W xff xff xff xff xc4 x00 x00 x00)) E)
(T (W x00 x00 x80 xbf x00 x00 x80 xbf)
(L (W x00 x00 x00 x00 x00 x00 x00 x00)) E))))
(T (W x00 x00 x80 x3f x00 x00 x80 x3f)
(T (W xff xff xff xff xff xff xff xff)
(T (W x00 x00 x00 x00 x00 x00 x00 x00)
(T (W x50 x00 x00 x00 x44 x00 x00 x00)
(L (W x00 x00 x00 x00 x00 x00 x00 x00))
(L (W x00 x00 x00 x00 x00 x00 x00 x00)))
(T (W x72 x64 x5f x6c x76 x31 x00 x00)
(L (W x03 x00 x00 x00 xd0 x00 x00 x00)) E))
(T (W x00 x00 x00 x00 x00 x00 x00 x00)
(T (W xff xff xff xff xbc x00 x00 x00)
(L (W x00 x00 x80 xbf x00 x00 x80 xbf)) E)
(T (W x00 x00 x00 x00 x62 x2e xfd xff)
(L (W xff xff xff xff xff xff xff xff)) E)))
(T (W xff xff xff xff xff xff xff xff)
(T (W xff xff xff xff xff xff xff xff)
(T (W x92 xf1 xfe xff x00 x00 x01 x01)
(L (W x03 x00 x00 x00 xd8 x00 x00 x00))
(L (W x18 x00 x00 x00 x0c x00 x00 x00)))
(T (W x6b x65 x5f x6c x76 x31 x00 x00)
(L (W x00 x00 x80 xbf x00 x00 x80 xbf)) E))
(T (W x50 x00 x00 x00 x44 x00 x00 x00)
(T (W x00 x00 x00 x00 x00 x00 x00 x00)
(L (W x00 x00 x00 x00 x00 x00 x00 x00)) E)
(T (W x00 x00 x00 x00 x00 x00 x00 x00)
(L (W x04 x6c xff xff x00 x01 x01 x01)) E))))))
(T (W xff xff xff xff xff xff xff xff)
(T (W x00 x00 x00 x00 x00 x00 x00 x00)
(T (W x00 x00 x80 x3f x00 x00 x80 x3f)
(T (W x00 x00 x00 x00 x00 x00 x00 x00)
(T (W x32 x7f xfa xff x74 x00 x00 x00)
(T (W x45 x26 x22 x84 xe4 x9c xf2 xcb)
(L (W x00 x00 x00 x00 x00 x00 x00 x00))
(L (W xff xff xff xff xff xff xff xff)))
(T (W xff xff xff xff xff xff xff xff)
(L (W x6c x00 x00 x00 x60 x00 x00 x00)) E))
(T (W xff xff xff xff xff xff xff xff)
(T (W x00 x00 x00 x00 x00 x00 x00 x00)
(L (W x30 x32 x5f x43 x4c x45 x41 x52))
(L (W x00 x00 x0c x00 x10 x00 x14 x00)))
(T (W x6c x64 x5f x70 x6f x6b x65 x5f)
(L (W x18 x00 x00 x00 x0c x00 x00 x00)) E)))
(T (W xff xff xff xff xff xff xff xff)
(T (W x9a xd3 xfd xff x00 x00 x01 x01)
(T (W x00 x00 x80 x3f x00 x00 x80 x3f)
(L (W x0c x00 x00 x00 xb8 x0c x00 x00))
(L (W x00 x00 x80 xbf x00 x00 x80 xbf)))
(T (W xff xff xff xff xff xff xff xff)
(L (W x00 x00 x00 x00 x62 xc6 xfe xff)) E))
(T (W x00 x00 x00 x00 x04 x00 x00 x00)
(T (W x00 x00 x00 x00 x00 x00 x00 x00)
(L (W xff xff xff xff xff xff xff xff)) E)
(T (W x00 x00 x80 xbf x00 x00 x80 xbf)
(L (W x00 x00 x00 x00 x00 x00 x00 x00)) E))))
(T (W x00 x00 x00 x00 x00 x00 x00 x00)
(T (W xb5 x01 x00 x00 xff xff xff xff)
(T (W x00 x00 x00 x00 x00 x00 x00 x00)
(T (W x00 x00 x00 x00 x00 x00 x00 x00)
(L (W x6c x00 x00 x00 x60 x00 x00 x00))
(L (W x74 x00 x00 x00 x68 x00 x00 x00)))
(T (W x00 x00 x00 x00 x00 x00 x00 x00)
(L (W xb0 x00 x00 x00 x64 x00 x00 x00)) E))
(T (W x46 x53 x59 x53 x5f x4e x53 x5f)
(T (W xd4 x00 x00 x00 xc8 x00 x00 x00)
(L (W x00 x00 x80 xbf x00 x00 x80 xbf)) E)
(T (W xff xff xff xff xff xff xff xff)
(L (W x00 x00 x00 x00 xd2 x21 xff xff)) E)))
(T (W xff xff xff xff xff xff xff xff)
(T (W xff xff xff xff xff xff xff xff)
(T (W xff xff xff xff xff xff xff xff)
(L (W x00 x00 x80 xbf x00 x00 x80 xbf))
(L (W x68 x00 x00 x00 x5c x00 x00 x00)))
(T (W x78 x10 x00 x00 x4c x0f x00 x00)
(L (W x00 x00 x80 xbf x00 x00 x80 xbf)) E))
(T (W x00 x00 x80 x3f x00 x00 x80 x3f)
(T (W x00 x00 x80 x3f x00 x00 x80 x3f)
(L (W x00 x00 x00 x00 x00 x00 x00 x00)) E)
(T (W x00 x00 x00 x00 x00 x00 x00 x00)
(L (W x6c x00 x00 x00 x60 x00 x00 x00)) E)))))
(T (W x00 x00 x00 x00 x00 x00 x00 x00)
(T (W x6c x00 x00 x00 x60 x00 x00 x00)
(T (W x00 x00 x80 x3f x00 x00 x80 x3f)
(T (W x00 x00 x80 x3f x00 x00 x80 x3f)
(T (W x45 x26 x22 x84 xe4 x9c xf2 xcb)
(L (W x00 x00 x00 x00 x00 x00 x00 x00))
(L (W x00 x00 x00 x00 x12 x00 x00 x00)))
(T (W xb8 x00 x00 x00 xac x00 x00 x00)
(L (W x45 x26 x22 x84 xe4 x9c xf2 xcb)) E))
(T (W x00 x00 x00 x00 x00 x00 x00 x00)
(T (W xe2 x10 xfc xff x78 x00 x00 x00)
(L (W x46 x53 x59 x53 x5f x4e x53 x5f)) E)
(T (W x32 x0f xfd xff x74 x00 x00 x00)
(L (W xff xff xff xff xff xff xff xff)) E)))
(T (W xb8 x00 x00 x00 xac x00 x00 x00)
(T (W xff xff xff xff xff xff xff xff)
(T (W x29 x00 x00 x00 x2c x00 x00 x00)
(L (W x45 x26 x22 x84 xe4 x9c xf2 xcb))
(L (W x00 x00 x80 xbf x00 x00 x80 xbf)))
(T (W x18 x00 x00 x00 x0c x00 x00 x00)
(L (W x45 x26 x22 x84 xe4 x9c xf2 xcb)) E))
(T (W xb8 x00 x00 x00 x03 x00 x00 x00)
(T (W x00 x00 x80 x3f x00 x00 x80 x3f)
(L (W xff xff xff xff xff xff xff xff)) E)
(T (W xb0 x00 x00 x00 x64 x00 x00 x00)
(L (W x00 x00 x80 xbf x00 x00 x80 xbf)) E))))
(T (W x00 x00 x80 x3f x00 x00 x80 x3f)
(T (W xff xff xff xff xff xff xff xff)
(T (W x00 x00 x00 x00 x00 x00 x00 x00)
(T (W xff xff xff xff xff xff xff xff)
(L (W x45 x26 x22 x84 xe4 x9c xf2 xcb))
(L (W x45 x26 x22 x84 xe4 x9c xf2 xcb)))
(T (W x00 x00 x00 x00 x00 x00 x00 x00)
(L (W xff xff xff xff xff xff xff xff)) E))
(T (W x00 x00 x80 x3f x00 x00 x80 x3f)
(T (W xff xff xff xff xff xff xff xff)
(L (W xe2 x30 xfe xff x78 x00 x00 x00)) E)
(T (W xe6 x5a xca xc9 x03 x86 xa3 xbc)
(L (W xff xff xff xff xff xff xff xff)) E)))
(T (W x18 x00 x00 x00 x10 x00 x00 x00)
(T (W x54 x00 x00 x00 x00 x00 x00 x00)
(T (W x00 x00 x00 x00 x00 x00 x00 x00)
(L (W xff xff xff xff xff xff xff xff))
(L (W xff xff xff xff xff xff xff xff)))
(T (W x00 x00 x80 x3f x00 x00 x80 x3f)
(L (W xe2 xf0 xfe xff x78 x00 x00 x00)) E))
(T (W xff xff xff xff xff xff xff xff)
(T (W x1a x82 xff xff xc5 x01 x00 x00)
(L (W x00 x00 x80 xbf x00 x00 x80 xbf)) E)
(T (W xff xff xff xff xff xff xff xff)
(L (W xff xff xff xff xc0 x00 x00 x00)) E)))))))
(T (W xff xff xff xff xff xff xff xff)
(T (W x6c x00 x00 x00 x60 x00 x00 x00)
(T (W xff xff xff xff xff xff xff xff)
(T (W x00 x00 x00 x00 x00 x00 x00 x00)
(T (W xff xff xff xff xff xff xff xff)
(T (W x00 x00 x00 x00 x00 x00 x00 x00)
(T (W x18 x00 x00 x00 x0c x00 x00 x00)
(L (W x45 x26 x22 x84 xe4 x9c xf2 xcb))
(L (W x00 x00 x00 x00 x00 x00 x00 x00)))
(T (W x00 x00 x80 x3f x00 x00 x80 x3f)
(L (W x94 x04 x00 x00 x80 x03 x00 x00)) E))
(T (W x00 x00 x00 x00 x00 x00 x00 x00)
(T (W xff xff xff xff x9c x00 x00 x00)
(L (W x00 x00 x80 xbf x00 x00 x80 xbf))
(L (W x05 x00 x00 x00 x06 x00 x07 x00)))
(T (W x6c x64 x5f x70 x6f x6b x65 x5f)
(L (W x00 x00 x00 x00 x12 xfc xfe xff)) E)))
(T (W x00 x00 x80 x3f x00 x00 x80 x3f)
(T (W x32 xbb xfa xff x74 x00 x00 x00)
(T (W xff xff xff xff xff xff xff xff)
(L (W x00 x00 x80 xbf x00 x00 x80 xbf))
(L (W xff xff xff xff xff xff xff xff)))
(T (W x00 x00 x80 x3f x00 x00 x80 x3f)
(L (W x00 x00 x80 xbf x00 x00 x80 xbf)) E))
(T (W x49 xa1 x68 x4a xeb x5f xdd x3d)
(T (W xd4 x00 x00 x00 xc8 x00 x00 x00)
(L (W x00 x00 x00 x00 x00 x00 x00 x00)) E)
(T (W xff xff xff xff xff xff xff xff)
(L (W x18 x00 x00 x00 x0c x00 x00 x00)) E))))
(T (W xb8 x00 x00 x00 xac x00 x00 x00)
(T (W x00 x00 x80 x3f x00 x00 x80 x3f)
(T (W x18 x00 x00 x00 x0c x00 x00 x00)
(T (W x68 x00 x00 x00 x5c x00 x00 x00)
(L (W xff xff xff xff xac x00 x00 x00))
(L (W xff xff xff xff xff xff xff xff)))
(T (W x45 x26 x22 x84 xe4 x9c xf2 xcb)
(L (W x00 x00 x00 x00 x00 x00 x00 x00)) E))
(T (W x32 x1b xfb xff x74 x00 x00 x00)
(T (W x00 x00 x00 x00 x00 x00 x00 x00)
(L (W xff xff xff xff xff xff xff xff)) E)
(T (W x00 x00 x80 xbf x00 x00 x80 xbf)
(L (W x00 x00 x80 xbf x00 x00 x80 xbf)) E)))
(T (W x00 x00 x00 x00 x00 x00 x00 x00)
(T (W x00 x00 x80 x3f x00 x00 x80 x3f)
(T (W x00 x00 x80 x3f x00 x00 x80 x3f)
(L (W xff xff xff xff xff xff xff xff))
(L (W x00 x00 x00 x00 x00 x00 x00 x00)))
(T (W x00 x00 x80 x3f x00 x00 x80 x3f)
(L (W xff xff xff xff xff xff xff xff)) E))
(T (W x18 x00 x00 x00 x10 x00 x00 x00)
(T (W x00 x00 x00 x00 x00 x00 x00 x00)
(L (W x17 x00 x00 x00 x1a x00 x00 x00)) E)
(T (W x00 x00 x80 xbf x00 x00 x80 xbf)
(L (W x00 x00 x00 x00 x00 x00 x00 x00)) E)))))
(T (W xff xff xff xff xff xff xff xff)
(T (W x00 x00 x00 x00 x00 x00 x00 x00)
(T (W xff xff xff xff xff xff xff xff)
(T (W x3e x00 x00 x00 x10 x00 x00 x00)
(T (W x98 x03 x00 x00 x70 x02 x00 x00)
(L (W x50 x00 x00 x00 x44 x00 x00 x00))
(L (W x68 x00 x00 x00 x5c x00 x00 x00)))
(T (W x00 x00 x00 x00 x00 x00 x00 x00)
(L (W x00 x00 x00 x00 x00 x00 x00 x00)) E))
(T (W x18 x00 x00 x00 x0c x00 x00 x00)
(T (W xff xff xff xff xff xff xff xff)
(L (W xff xff xff xff xa0 x00 x00 x00)) E)
(T (W x50 x00 x00 x00 x44 x00 x00 x00)
(L (W x00 x00 x00 x00 x00 x00 x00 x00)) E)))
(T (W x45 x26 x22 x84 xe4 x9c xf2 xcb)
(T (W x00 x00 x80 x3f x00 x00 x80 x3f)
(T (W x00 x00 x00 x00 x00 x00 x00 x00)
(L (W x45 x26 x22 x84 xe4 x9c xf2 xcb))
(L (W xff xff xff xff xff xff xff xff)))
(T (W x00 x00 x00 x00 x00 x00 x64 x00)
(L (W x18 x00 x00 x00 x10 x00 x00 x00)) E))
(T (W x28 xd0 x54 xf0 x7f x0f x65 xc2)
(T (W xff xff xff xff xff xff xff xff)
(L (W x00 x00 x80 xbf x00 x00 x80 xbf)) E)
(T (W xff xff xff xff xff xff xff xff)
(L (W xff xff xff xff xff xff xff xff)) E))))
(T (W xff xff xff xff xff xff xff xff)
(T (W x54 x00 x00 x00 x48 x00 x00 x00)
(T (W x00 x00 x80 x3f x00 x00 x80 x3f)
(T (W x00 x00 x00 x00 x00 x00 x00 x00)
(L (W x00 x00 x80 xbf x00 x00 x80 xbf))
(L (W xff xff xff xff xb0 x00 x00 x00)))
(T (W x18 x00 x00 x00 x10 x00 x00 x00)
(L (W x00 x00 x80 xbf x00 x00 x80 xbf)) E))
(T (W xa1 x01 x00 x00 xff xff xff xff)
(T (W x00 x00 x80 x3f x00 x00 x80 x3f)
(L (W x46 x53 x59 x53 x5f x4e x53 x5f)) E)
(T (W x00 x00 x80 xbf x00 x00 x80 xbf)
(L (W x54 x00 x00 x00 x48 x00 x00 x00)) E)))
(T (W x00 x00 x00 x00 x00 x00 x00 x00)
(T (W x00 x00 x00 x00 x00 x00 x00 x00)
(T (W x00 x00 x80 x3f x00 x00 x80 x3f)
(L (W x00 x00 x00 x00 x00 x00 x00 x00))
(L (W x00 x00 x00 x00 x00 x00 x00 x00)))
(T (W x00 x00 x80 x3f x00 x00 x80 x3f)
(L (W x45 x44 x00 x00 x00 x00 x00 x00)) E))
(T (W x00 x00 x00 x00 x00 x00 x00 x00)
(T (W x50 x00 x00 x00 x44 x00 x00 x00)
(L (W xff xff xff xff xff xff xff xff)) E)
(T (W xff xff xff xff x9c x00 x00 x00)
(L (W x00 x00 x00 x00 x00 x00 x00 x00)) E))))))
(T (W x00 x00 x00 x00 x00 x00 x00 x00)
(T (W x00 x00 x80 x3f x00 x00 x80 x3f)
(T (W x18 x00 x00 x00 x10 x00 x00 x00)
(T (W xff xff xff xff x03 x00 x00 x00)
(T (W x00 x00 x00 x00 x00 x00 x00 x00)
(T (W xff xff xff xff x9c x00 x00 x00)
(L (W x00 x00 x80 xbf x00 x00 x80 xbf))
(L (W x54 x00 x00 x00 x48 x00 x00 x00)))
(T (W x00 x00 x80 x3f x00 x00 x80 x3f)
(L (W x30 x32 x5f x43 x4c x45 x41 x52)) E))
(T (W x6c x00 x00 x00 x60 x00 x00 x00)
(T (W xff xff xff xff xff xff xff xff)
(L (W x6c x00 x00 x00 x60 x00 x00 x00)) E)
(T (W x34 x0c xfd xff x2d x00 x00 x00)
(L (W x00 x00 x00 x00 x00 x00 x00 x00)) E)))
(T (W x00 x00 x80 x3f x00 x00 x80 x3f)
(T (W x04 xc8 xfa xff x00 x01 x01 x01)
(T (W x00 x00 x00 x00 x00 x00 x00 x00)
(L (W x15 x00 x00 x00 x18 x00 x00 x00))
(L (W xff xff xff xff xff xff xff xff)))
(T (W x00 x00 x80 x3f x00 x00 x80 x3f)
(L (W x6c x00 x00 x00 x60 x00 x00 x00)) E))
(T (W x18 x00 x00 x00 x10 x00 x00 x00)
(T (W xb0 x00 x00 x00 x64 x00 x00 x00)
(L (W x00 x00 x00 x00 x00 x00 x00 x00)) E)
(T (W x5c x00 x00 x00 xff xff xff xff)
(L (W xff xff xff xff xff xff xff xff)) E))))
(T (W xff xff xff xff xff xff xff xff)
(T (W x00 x00 x80 x3f x00 x00 x80 x3f)
(T (W x32 xa3 xfa xff x74 x00 x00 x00)
(T (W x00 x00 x01 x01 x9c x01 x00 x00)
(L (W xff xff xff xff xff xff xff xff))
(L (W x00 x00 x80 xbf x00 x00 x80 xbf)))
(T (W x18 x00 x00 x00 x0c x00 x00 x00)
(L (W x00 x00 x80 xbf x00 x00 x80 xbf)) E))
(T (W x18 x00 x00 x00 x0c x00 x00 x00)
(T (W x00 x00 x00 x00 x00 x00 x00 x00)
(L (W x00 x00 x01 x01 x5d x00 x00 x00)) E)
(T (W x45 x26 x22 x84 xe4 x9c xf2 xcb)
(L (W x00 x00 x80 xbf x00 x00 x80 xbf)) E)))
(T (W x00 x00 x00 x00 x00 x00 x00 x00)
(T (W x00 x00 x00 x00 x00 x00 x00 x00)
(T (W x00 x00 x80 x3f x00 x00 x80 x3f)
(L (W xff xff xff xff xff xff xff xff))
(L (W x00 x00 x00 x00 x00 x00 x00 x00)))
(T (W x00 x00 x00 x00 x00 x00 x00 x00)
(L (W xff xff xff xff xff xff xff xff)) E))
(T (W xff xff xff xff xff xff xff xff)
(T (W x00 x00 x80 x3f x00 x00 x80 x3f)
(L (W xff xff xff xff xff xff xff xff)) E)
(T (W xe2 x64 xfd xff x78 x00 x00 x00)
(L (W x00 x00 x00 x00 x12 x00 x00 x00)) E)))))
(T (W x54 x00 x00 x00 x48 x00 x00 x00)
(T (W xff xff xff xff xff xff xff xff)
(T (W xb6 xe5 x0e x2f x5b x7e x01 x27)
(T (W x00 x00 x00 x00 x00 x00 x62 x00)
(T (W x00 x00 x00 x00 x00 x00 x00 x00)
(L (W x04 x98 xfd xff x00 x01 x01 x01))
(L (W xff xff xff xff xff xff xff xff)))
(T (W x00 x00 x00 x00 x00 x00 x00 x00)
(L (W x00 x00 x00 x00 x12 x00 x00 x00)) E))
(T (W x00 x00 x80 x3f x00 x00 x80 x3f)
(T (W xff xff xff xff xff xff xff xff)
(L (W xff xff xff xff xff xff xff xff)) E)
(T (W x00 x00 x00 x00 x00 x00 x00 x00)
(L (W x00 x00 x80 xbf x00 x00 x80 xbf)) E)))
(T (W x00 x00 x80 x3f x00 x00 x80 x3f)
(T (W x00 x00 x80 x3f x00 x00 x80 x3f)
(T (W x45 x44 x00 x00 x00 x00 x00 x00)
(L (W xff xff xff xff xff xff xff xff))
(L (W x00 x00 x00 x00 x00 x00 x00 x00)))
(T (W x45 x26 x22 x84 xe4 x9c xf2 xcb)
(L (W xff xff xff xff xff xff xff xff)) E))
(T (W x00 x00 x80 x3f x00 x00 x80 x3f)
(T (W x00 x00 x00 x00 x62 x5a xfc xff)
(L (W xe2 x54 xfe xff x78 x00 x00 x00)) E)
(T (W x4f x84 x6f x8b xe8 xcb x63 xb7)
(L (W x00 x00 x00 x00 x12 x54 xff xff)) E))))
(T (W xff xff xff xff x04 x00 x00 x00)
(T (W x00 x00 x80 x3f x00 x00 x80 x3f)
(T (W x68 x00 x00 x00 x5c x00 x00 x00)
(T (W x00 x00 x80 x3f x00 x00 x80 x3f)
(L (W xff xff xff xff xff xff xff xff))
(L (W xb0 x00 x00 x00 x64 x00 x00 x00)))
(T (W x45 x26 x22 x84 xe4 x9c xf2 xcb)
(L (W x00 x00 x80 xbf x00 x00 x80 xbf)) E))
(T (W x00 x00 x00 x00 x00 x00 x00 x00)
(T (W x18 x00 x00 x00 x10 x00 x00 x00)
(L (W x00 x00 x00 x00 x00 x00 x00 x00)) E)
(T (W x00 x00 x00 x00 x74 x36 xfd xff)
(L (W x00 x00 x00 x00 x74 x36 xff xff)) E)))
(T (W x00 x00 x00 x00 x00 x00 x00 x00)
(T (W x32 xf3 xfa xff x74 x00 x00 x00)
(T (W x01 x00 x00 x00 x21 x00 x00 x00)
(L (W x00 x00 x80 xbf x00 x00 x80 xbf))
(L (W x00 x00 x80 xbf x00 x00 x80 xbf)))
(T (W x8f x00 x00 x00 xff xff xff xff)
(L (W x16 x00 x00 x00 x0c x00 x00 x00)) E))
(T (W x00 x00 x00 x00 x00 x00 x00 x00)
(T (W x01 x00 x00 x00 x9c x00 x00 x00)
(L (W x00 x00 x00 x00 x00 x00 x00 x00)) E)
(T (W x45 x26 x22 x84 xe4 x9c xf2 xcb)
(L (W x00 x00 x00 x00 x00 x00 x00 x00)) E)))))))))
(T (W x30 x2d x02 x00 xd4 x2a x02 x00)
(T (W x20 xaf x00 x00 xec xad x00 x00)
(T (W x00 x00 x80 x3f x00 x00 x80 x3f)
(T (W x00 x00 x00 x00 x00 x00 x00 x00)
(T (W x00 x00 x80 x3f x00 x00 x80 x3f)
(T (W xbc x00 x00 x00 xb0 x00 x00 x00)
(T (W x00 x00 x00 x00 x00 x00 x00 x00)
(T (W x00 x00 x80 x3f x00 x00 x80 x3f)
(T (W xff xff xff xff xff xff xff xff)
(L (W xff xff xff xff xff xff xff xff))
(L (W xff xff xff xff xc8 x00 x00 x00)))
(T (W xff xff xff xff xff xff xff xff)
(L (W x00 x00 x80 xbf x00 x00 x80 xbf)) E))
(T (W x00 x00 x62 x00 x70 x00 x08 x00)
(T (W x00 x00 x00 x00 x00 x00 x00 x00)
(L (W xb0 x00 x00 x00 x64 x00 x00 x00))
(L (W xff xff xff xff xc0 x00 x00 x00)))
(T (W xff xff xff xff xff xff xff xff)
(L (W x00 x00 x80 xbf x00 x00 x80 xbf)) E)))
(T (W xff xff xff xff xff xff xff xff)
(T (W xff xff xff xff xff xff xff xff)
(T (W x76 x31 x00 x00 x22 x54 xff xff)
(L (W x00 x00 x00 x00 x00 x00 x00 x00))
(L (W x00 x00 x00 x00 x00 x00 x00 x00)))
(T (W xff xff xff xff xff xff xff xff)
(L (W xff xff xff xff xff xff xff xff)) E))
(T (W x54 x00 x00 x00 x48 x00 x00 x00)
(T (W x74 x03 x00 x00 x4c x02 x00 x00)
(L (W x00 x00 x80 xbf x00 x00 x80 xbf)) E)
(T (W x1c x00 x00 x00 x0c x00 x00 x00)
(L (W xff xff xff xff xff xff xff xff)) E))))
(T (W x1a xe9 xfc xff xc9 x00 x00 x00)
(T (W x00 x00 x80 x3f x00 x00 x80 x3f)
(T (W x54 x00 x58 x00 x5c x00 x00 x00)
(T (W xb0 x00 x00 x00 x64 x00 x00 x00)
(L (W xea xf7 xff xff x00 x00 x01 x01))
(L (W x46 x53 x59 x53 x5f x4e x53 x5f)))
(T (W x00 x00 x80 x3f x00 x00 x80 x3f)
(L (W x45 x26 x22 x84 xe4 x9c xf2 xcb)) E))
(T (W xb0 x00 x00 x00 x64 x00 x00 x00)
(T (W x54 x00 x00 x00 x48 x00 x00 x00)
(L (W x00 x00 x00 x00 x12 x00 x00 x00)) E)
(T (W x00 x00 x00 x00 x00 x00 x00 x00)
(L (W xff xff xff xff xff xff xff xff)) E)))
(T (W x0a x00 x00 x00 x1d x00 x00 x00)
(T (W xff xff xff xff xff xff xff xff)
(T (W x29 x00 x00 x00 x2c x00 x00 x00)
(L (W x00 x00 x00 x00 x00 x00 x00 x00))
(L (W x00 x00 x80 xbf x00 x00 x80 xbf)))
(T (W x18 x00 x00 x00 x0c x00 x00 x00)
(L (W x00 x00 x00 x00 x00 x00 x00 x00)) E))
(T (W xff xff xff xff xff xff xff xff)
(T (W x45 x26 x22 x84 xe4 x9c xf2 xcb)
(L (W xff xff xff xff xff xff xff xff)) E)
(T (W xff xff xff xff xff xff xff xff)
(L (W x00 x00 x80 xbf x00 x00 x80 xbf)) E)))))
(T (W xe2 xa7 xf9 xff x78 x00 x00 x00)
(T (W xff xff xff xff xff xff xff xff)
(T (W x00 x00 x00 x00 x00 x00 x00 x00)
(T (W x45 x26 x22 x84 xe4 x9c xf2 xcb)
(T (W x45 x26 x22 x84 xe4 x9c xf2 xcb)
(L (W xff xff xff xff xff xff xff xff))
(L (W xff xff xff xff xff xff xff xff)))
(T (W xb8 x00 x00 x00 xac x00 x00 x00)
(L (W x00 x00 x80 xbf x00 x00 x80 xbf)) E))
(T (W x00 x00 x01 x01 x9c x01 x00 x00)
(T (W x00 x00 x00 x00 x00 x00 x00 x00)
(L (W xff xff xff xff xff xff xff xff)) E)
(T (W x45 x26 x22 x84 xe4 x9c xf2 xcb)
(L (W x18 x00 x00 x00 x0c x00 x00 x00)) E)))
(T (W x45 x26 x22 x84 xe4 x9c xf2 xcb)
(T (W xff xff xff xff xff xff xff xff)
(T (W x00 x00 x80 x3f x00 x00 x80 x3f)
(L (W x00 x00 x00 x00 x00 x00 x00 x00))
(L (W x00 x00 x00 x00 x00 x00 x00 x00)))
(T (W xff xff xff xff xff xff xff xff)
(L (W x45 x44 x00 x00 x00 x00 x00 x00)) E))
(T (W x22 x00 x00 x00 x67 x72 x6f x75)
(T (W x00 x00 x00 x00 x00 x00 x00 x00)
(L (W x45 x26 x22 x84 xe4 x9c xf2 xcb)) E)
(T (W x00 x00 x00 x00 x00 x00 x00 x00)
(L (W x00 x00 x00 x00 x00 x00 x00 x00)) E))))
(T (W x00 x00 x00 x00 x00 x00 x00 x00)
(T (W xff xff xff xff xff xff xff xff)
(T (W x00 x00 x00 x00 x42 xb7 xff xff)
(T (W x00 x00 x80 x3f x00 x00 x80 x3f)
(L (W x00 x00 x00 x00 x00 x00 x00 x00))
(L (W x39 x3e x45 xdc x00 xd7 x55 x2f)))
(T (W xff xff xff xff xff xff xff xff)
(L (W x18 x00 x00 x00 x10 x00 x00 x00)) E))
(T (W x46 x53 x59 x53 x5f x4e x53 x5f)
(T (W x45 x26 x22 x84 xe4 x9c xf2 xcb)
(L (W x00 x00 x80 xbf x00 x00 x80 xbf)) E)
(T (W xff xff xff xff xff xff xff xff)
(L (W xff xff xff xff xff xff xff xff)) E)))
(T (W x32 x66 xfa xff x74 x00 x00 x00)
(T (W x64 x00 x00 x00 x9c x00 x00 x00)
(T (W xff xff xff xff xff xff xff xff)
(L (W x18 x00 x00 x00 x10 x00 x00 x00))
(L (W x6c x00 x00 x00 x60 x00 x00 x00)))
(T (W xff xff xff xff xff xff xff xff)
(L (W x00 x00 x00 x00 x00 x00 x00 x00)) E))
(T (W x00 x00 x80 x3f x00 x00 x80 x3f)
(T (W x1a x79 xff xff xc0 x02 x00 x00)
(L (W x00 x00 x00 x00 x00 x00 x00 x00)) E)
(T (W x00 x00 x00 x00 x12 x67 xfd xff)
(L (W x00 x00 x80 xbf x00 x00 x80 xbf)) E))))))
(T (W xff xff xff xff xff xff xff xff)
(T (W xc9 x00 x00 x00 xff xff xff xff)
(T (W x45 x26 x22 x84 xe4 x9c xf2 xcb)
(T (W x00 x00 x00 x00 x00 x00 x00 x00)
(T (W x00 x00 x80 x3f x00 x00 x80 x3f)
(T (W x00 x00 x00 x00 x12 x00 x00 x00)
(L (W x83 x01 x00 x00 xff xff xff xff))
(L (W xff xff xff xff xff xff xff xff)))
(T (W xff xff xff xff xff xff xff xff)
(L (W x00 x00 x80 xbf x00 x00 x80 xbf)) E))
(T (W x00 x00 x00 x00 x74 x01 xfb xff)
(T (W x00 x00 x00 x00 x00 x00 x00 x00)
(L (W xff xff xff xff xff xff xff xff))
(L (W x45 x26 x22 x84 xe4 x9c xf2 xcb)))
(T (W x3b x01 x00 x00 xff xff xff xff)
(L (W x6c x00 x00 x00 x60 x00 x00 x00)) E)))
(T (W xb8 x00 x00 x00 xac x00 x00 x00)
(T (W xff xff xff xff xff xff xff xff)
(T (W x00 x00 x00 x00 x00 x00 x00 x00)
(L (W xff xff xff xff xff xff xff xff))
(L (W x00 x00 x00 x00 x00 x00 x00 x00)))
(T (W xff xff xff xff xff xff xff xff)
(L (W xff xff xff xff xff xff xff xff)) E))
(T (W xff xff xff xff xbc x00 x00 x00)
(T (W x00 x00 x00 x00 x00 x00 x00 x00)
(L (W x50 x00 x00 x00 x44 x00 x00 x00)) E)
(T (W x00 x00 x00 x00 x00 x00 x00 x00)
(L (W x00 x00 x00 x00 x62 x45 xff xff)) E))))
(T (W x00 x00 x00 x00 x00 x00 x00 x00)
(T (W xff xff xff xff xff xff xff xff)
(T (W x10 x00 x00 x00 x10 x00 x00 x00)
(T (W x6b x65 x5f x6c x76 x31 x00 x00)
(L (W x00 x00 x00 x00 x00 x00 x00 x00))
(L (W x00 x00 x00 x00 x00 x00 x00 x00)))
(T (W x20 x00 x00 x00 x10 x00 x00 x00)
(L (W x04 xa3 xfe xff x00 x01 x01 x01)) E))
(T (W x92 x28 xfe xff x00 x00 x01 x01)
(T (W x00 x00 x80 x3f x00 x00 x80 x3f)
(L (W x45 x26 x22 x84 xe4 x9c xf2 xcb)) E)
(T (W x45 x26 x22 x84 xe4 x9c xf2 xcb)
(L (W xff xff xff xff xff xff xff xff)) E)))
(T (W xc0 x00 x00 x00 xb4 x00 x00 x00)
(T (W xff xff xff xff xff xff xff xff)
(T (W x2c x00 x00 x00 xac x00 x00 x00)
(L (W x49 xa1 x68 x4a xeb x5f xdd x3d))
(L (W x00 x00 x80 xbf x00 x00 x80 xbf)))
(T (W xff xff xff xff xbc x00 x00 x00)
(L (W x00 x00 x00 x00 x00 x00 x00 x00)) E))
(T (W x00 x00 x00 x00 x00 x00 x00 x00)
(T (W x00 x00 x80 x3f x00 x00 x80 x3f)
(L (W x00 x00 x00 x00 x00 x00 x00 x00)) E)
(T (W xff xff xff xff xff xff xff xff)
(L (W x00 x00 x80 xbf x00 x00 x80 xbf)) E)))))
(T (W x00 x00 x00 x00 x00 x00 x00 x00)
(T (W x00 x00 x80 x3f x00 x00 x80 x3f)
(T (W x00 x00 x80 x3f x00 x00 x80 x3f)
(T (W x00 x00 x80 x3f x00 x00 x80 x3f)
(T (W x50 x00 x00 x00 x44 x00 x00 x00)
(L (W xff xff xff xff xff xff xff xff))
(L (W x00 x00 x00 x00 x00 x00 x00 x00)))
(T (W x01 x00 x00 x00 x9c x00 x00 x00)
(L (W x54 x00 x00 x00 x48 x00 x00 x00)) E))
(T (W x45 x44 x00 x00 x00 x00 x00 x00)
(T (W x45 x26 x22 x84 xe4 x9c xf2 xcb)
(L (W x00 x00 x00 x00 xd2 x10 xfe xff)) E)
(T (W x00 x00 x80 xbf x00 x00 x80 xbf)
(L (W x00 x00 x00 x00 x74 x11 xff xff)) E)))
(T (W x01 x00 x00 x00 x9c x00 x00 x00)
(T (W xff xff xff xff xff xff xff xff)
(T (W xe2 xcf xfb xff x78 x00 x00 x00)
(L (W x00 x00 x00 x00 x00 x00 x00 x00))
(L (W x49 xa1 x68 x4a xeb x5f xdd x3d)))
(T (W x00 x00 x80 x3f x00 x00 x80 x3f)
(L (W x00 x00 x00 x00 x12 x00 x00 x00)) E))
(T (W x04 x53 xfb xff x00 x01 x01 x01)
(T (W x4f x84 x6f x8b xe8 xcb x63 xb7)
(L (W xff xff xff xff xff xff xff xff)) E)
(T (W x04 x53 xfd xff x00 x01 x01 x01)
(L (W x00 x00 x00 x00 x00 x00 x00 x00)) E))))
(T (W x00 x00 x00 x00 x00 x00 x00 x00)
(T (W xff xff xff xff xff xff xff xff)
(T (W x1c x01 x00 x00 x04 x00 x00 x00)
(T (W x45 x26 x22 x84 xe4 x9c xf2 xcb)
(L (W x32 xae xfd xff x74 x00 x00 x00))
(L (W x00 x00 x00 x00 x00 x00 x00 x00)))
(T (W xdf xc7 x36 x97 x85 x27 x63 x5f)
(L (W x18 x00 x00 x00 x0c x00 x00 x00)) E))
(T (W x00 x00 x80 x3f x00 x00 x80 x3f)
(T (W xff xff xff xff xbc x00 x00 x00)
(L (W x00 x00 x80 xbf x00 x00 x80 xbf)) E)
(T (W xff xff xff xff xff xff xff xff)
(L (W xff xff xff xff xff xff xff xff)) E)))
(T (W x04 x73 xfa xff x00 x01 x01 x01)
(T (W xbc x00 x00 x00 xb0 x00 x00 x00)
(T (W xff xff xff xff xff xff xff xff)
(L (W x03 x00 x00 x00 xd8 x00 x00 x00))
(L (W xff xff xff xff xff xff xff xff)))
(T (W x45 x26 x22 x84 xe4 x9c xf2 xcb)
(L (W x00 x00 x80 xbf x00 x00 x80 xbf)) E))
(T (W x18 x00 x00 x00 x10 x00 x00 x00)
(T (W xff xff xff xff xff xff xff xff)
(L (W x4f x84 x6f x8b xe8 xcb x63 xb7)) E)
(T (W x00 x00 x00 x00 x00 x00 x00 x00)
(L (W x45 x26 x22 x84 xe4 x9c xf2 xcb)) E)))))))
(T (W xff xff xff xff xff xff xff xff)
(T (W x00 x00 x80 x3f x00 x00 x80 x3f)
(T (W x54 x32 x00 x00 x40 x31 x00 x00)
(T (W x00 x00 x00 x00 xaa x56 xfd xff)
(T (W x18 x00 x00 x00 x10 x00 x00 x00)
(T (W x00 x00 x00 x00 x00 x00 x00 x00)
(T (W x00 x00 x80 x3f x00 x00 x80 x3f)
(L (W x00 x00 x80 xbf x00 x00 x80 xbf))
(L (W x00 x00 x00 x00 x12 x00 x00 x00)))
(T (W x00 x00 x80 x3f x00 x00 x80 x3f)
(L (W xff xff xff xff xff xff xff xff)) E))
(T (W x13 x00 x00 x00 x0c x00 x00 x00)
(T (W xe2 xfb xfb xff x78 x00 x00 x00)
(L (W x49 xa1 x68 x4a xeb x5f xdd x3d))
(L (W x00 x00 x00 x00 x00 x00 x00 x00)))
(T (W xff xff xff xff xff xff xff xff)
(L (W xff xff xff xff xff xff xff xff)) E)))
(T (W x00 x00 x80 x3f x00 x00 x80 x3f)
(T (W x50 x00 x00 x00 x44 x00 x00 x00)
(T (W x45 x26 x22 x84 xe4 x9c xf2 xcb)
(L (W x45 x26 x22 x84 xe4 x9c xf2 xcb))
(L (W xff xff xff xff xff xff xff xff)))
(T (W x00 x00 x80 x3f x00 x00 x80 x3f)
(L (W x49 xa1 x68 x4a xeb x5f xdd x3d)) E))
(T (W x00 x00 x00 x00 x00 x00 x00 x00)
(T (W x00 x00 x80 x3f x00 x00 x80 x3f)
(L (W x00 x00 x00 x00 x00 x00 x00 x00)) E)
(T (W x45 x26 x22 x84 xe4 x9c xf2 xcb)
(L (W xe2 x3b xff xff x78 x00 x00 x00)) E))))
(T (W x18 x00 x00 x00 x0c x00 x00 x00)
(T (W x5f x77 x69 x6c x64 x5f x70 x6f)
(T (W x00 x00 x80 x3f x00 x00 x80 x3f)
(T (W x00 x00 x80 x3f x00 x00 x80 x3f)
(L (W x68 x00 x00 x00 x5c x00 x00 x00))
(L (W x03 x00 x00 x00 xd0 x00 x00 x00)))
(T (W x00 x00 x00 x00 x00 x00 x00 x00)
(L (W x45 x44 x00 x00 x00 x00 x00 x00)) E))
(T (W x00 x00 x80 x3f x00 x00 x80 x3f)
(T (W x74 x03 x00 x00 x4c x02 x00 x00)
(L (W xff xff xff xff xff xff xff xff)) E)
(T (W x00 x00 x00 x00 x00 x00 x00 x00)
(L (W x45 x26 x22 x84 xe4 x9c xf2 xcb)) E)))
(T (W x00 x00 x00 x00 x00 x00 x00 x00)
(T (W x00 x00 x00 x00 x00 x00 x00 x00)
(T (W x4f x84 x6f x8b xe8 xcb x63 xb7)
(L (W xff xff xff xff xff xff xff xff))
(L (W x00 x00 x00 x00 x12 xdb xff xff)))
(T (W x45 x26 x22 x84 xe4 x9c xf2 xcb)
(L (W xff xff xff xff xb0 x00 x00 x00)) E))
(T (W x54 x00 x00 x00 x48 x00 x00 x00)
(T (W xff xff xff xff xff xff xff xff)
(L (W x00 x00 x80 xbf x00 x00 x80 xbf)) E)
(T (W x00 x00 x80 xbf x00 x00 x80 xbf)
(L (W x5d x00 x00 x00 xff xff xff xff)) E)))))
(T (W xff xff xff xff xff xff xff xff)
(T (W x00 x00 x00 x00 x00 x00 x00 x00)
(T (W x32 x0a xfa xff x74 x00 x00 x00)
(T (W xff xff xff xff xff xff xff xff)
(T (W x15 x00 x00 x00 x18 x00 x00 x00)
(L (W x00 x00 x80 xbf x00 x00 x80 xbf))
(L (W x00 x00 x80 xbf x00 x00 x80 xbf)))
(T (W x00 x00 x00 x00 x00 x00 x00 x00)
(L (W x00 x00 x00 x00 x00 x00 x00 x00)) E))
(T (W x00 x00 x00 x00 x74 x0d xfb xff)
(T (W xff xff xff xff xff xff xff xff)
(L (W x6c x00 x00 x00 x60 x00 x00 x00)) E)
(T (W x45 x26 x22 x84 xe4 x9c xf2 xcb)
(L (W x00 x00 x00 x00 x00 x00 x00 x00)) E)))
(T (W x00 x00 x00 x00 x00 x00 x00 x00)
(T (W x00 x00 x80 x3f x00 x00 x80 x3f)
(T (W x00 x00 x00 x00 x62 xd1 xfb xff)
(L (W x54 x00 x00 x00 x48 x00 x00 x00))
(L (W xff xff xff xff xff xff xff xff)))
(T (W x04 xcf xfc xff x00 x01 x01 x01)
(L (W x6c x00 x00 x00 x60 x00 x00 x00)) E))
(T (W xff xff xff xff xff xff xff xff)
(T (W xff xff xff xff xc4 x00 x00 x00)
(L (W x45 x26 x22 x84 xe4 x9c xf2 xcb)) E)
(T (W xff xff xff xff xff xff xff xff)
(L (W xff xff xff xff xff xff xff xff)) E))))
(T (W x45 x26 x22 x84 xe4 x9c xf2 xcb)
(T (W x45 x26 x22 x84 xe4 x9c xf2 xcb)
(T (W x00 x00 x80 x3f x00 x00 x80 x3f)
(T (W x98 x03 x00 x00 x70 x02 x00 x00)
(L (W x00 x00 x80 xbf x00 x00 x80 xbf))
(L (W x00 x00 x00 x00 x74 xad xff xff)))
(T (W x45 x26 x22 x84 xe4 x9c xf2 xcb)
(L (W x00 x00 x00 x00 x00 x00 x00 x00)) E))
(T (W xff xff xff xff xff xff xff xff)
(T (W x22 x00 x00 x00 x67 x72 x6f x75)
(L (W x00 x00 x01 x01 x5d x00 x00 x00)) E)
(T (W x45 x26 x22 x84 xe4 x9c xf2 xcb)
(L (W x00 x00 x80 xbf x00 x00 x80 xbf)) E)))
(T (W x1a x7d xfd xff xd9 x00 x00 x00)
(T (W x00 x00 x00 x00 x00 x00 x00 x00)
(T (W x49 xa1 x68 x4a xeb x5f xdd x3d)
(L (W x46 x53 x59 x53 x5f x4e x53 x5f))
(L (W x46 x53 x59 x53 x5f x4e x53 x5f)))
(T (W x4f x84 x6f x8b xe8 xcb x63 xb7)
(L (W xff xff xff xff xff xff xff xff)) E))
(T (W xff xff xff xff xff xff xff xff)
(T (W x00 x00 x80 x3f x00 x00 x80 x3f)
(L (W xff xff xff xff xff xff xff xff)) E)
(T (W xe2 x6b xfd xff x78 x00 x00 x00)
(L (W xb6 x01 x00 x00 xff xff xff xff)) E))))))
(T (W x00 x00 x00 x00 x00 x00 x00 x00)
(T (W x45 x26 x22 x84 xe4 x9c xf2 xcb)
(T (W x04 xc7 xf9 xff x00 x01 x01 x01)
(T (W x01 x00 x00 x00 xa0 x00 x00 x00)
(T (W x48 x03 x00 x00 x34 x02 x00 x00)
(T (W x6c x00 x00 x00 x60 x00 x00 x00)
(L (W x4f x84 x6f x8b xe8 xcb x63 xb7))
(L (W x00 x00 x00 x00 x00 x00 x00 x00)))
(T (W x00 x00 x00 x00 x00 x00 x00 x00)
(L (W x00 x00 x01 x01 x5c x00 x00 x00)) E))
(T (W x00 x00 x80 x3f x00 x00 x80 x3f)
(T (W xb8 x00 x00 x00 x28 x00 x00 x00)
(L (W x00 x00 x80 xbf x00 x00 x80 xbf)) E)
(T (W xff xff xff xff xff xff xff xff)
(L (W x00 x00 x00 x00 x00 x00 x00 x00)) E)))
(T (W x00 x00 x00 x00 x00 x00 x00 x00)
(T (W x00 x00 x80 x3f x00 x00 x80 x3f)
(T (W xff xff xff xff xff xff xff xff)
(L (W xe2 xc3 xfd xff x78 x00 x00 x00))
(L (W xff xff xff xff xff xff xff xff)))
(T (W x00 x00 x00 x00 x00 x00 x00 x00)
(L (W x00 x00 x80 xbf x00 x00 x80 xbf)) E))
(T (W x68 x00 x00 x00 x5c x00 x00 x00)
(T (W x04 x47 xfc xff x00 x01 x01 x01)
(L (W x00 x00 x00 x00 x12 x00 x00 x00)) E)
(T (W xff xff xff xff xff xff xff xff)
(L (W xff xff xff xff xb0 x00 x00 x00)) E))))
(T (W x18 x00 x00 x00 x0c x00 x00 x00)
(T (W x00 x00 x80 x3f x00 x00 x80 x3f)
(T (W x00 x00 x80 x3f x00 x00 x80 x3f)
(T (W xff xff xff xff x9c x00 x00 x00)
(L (W xff xff xff xff xff xff xff xff))
(L (W x4f x84 x6f x8b xe8 xcb x63 xb7)))
(T (W x00 x00 x80 x3f x00 x00 x80 x3f)
(L (W x00 x00 x00 x00 x00 x00 x00 x00)) E))
(T (W x00 x00 x00 x00 x74 x25 xfb xff)
(T (W x00 x00 x00 x00 x00 x00 x00 x00)
(L (W xff xff xff xff xbc x00 x00 x00)) E)
(T (W x00 x00 x00 x00 x00 x00 x00 x00)
(L (W x49 xa1 x68 x4a xeb x5f xdd x3d)) E)))
(T (W xf8 x6e x2e xc4 x8d x7c xa4 xe8)
(T (W x00 x00 x00 x00 x00 x00 x00 x00)
(T (W x00 x00 x00 x00 x00 x00 x00 x00)
(L (W xff xff xff xff xff xff xff xff))
(L (W x00 x00 x00 x00 x00 x00 x00 x00)))
(T (W xff xff xff xff xff xff xff xff)
(L (W xff xff xff xff xff xff xff xff)) E))
(T (W xff xff xff xff xff xff xff xff)
(T (W x20 x00 x24 x00 x28 x00 x2c x00)
(L (W xff xff xff xff xb0 x00 x00 x00)) E)
(T (W x00 x00 x80 xbf x00 x00 x80 xbf)
(L (W x04 x00 x00 x00 xf2 x6a xff xff)) E)))))
(T (W x00 x00 x80 x3f x00 x00 x80 x3f)
(T (W xff xff xff xff xff xff xff xff)
(T (W xff xff xff xff xff xff xff xff)
(T (W xff xff xff xff x01 x00 x00 x00)
(T (W x00 x00 x00 x00 x00 x00 x00 x00)
(L (W x00 x00 x80 xbf x00 x00 x80 xbf))
(L (W x50 x00 x00 x00 x44 x00 x00 x00)))
(T (W x34 x9b xfc xff x1e x00 x00 x00)
(L (W x00 x00 x00 x00 x00 x00 x00 x00)) E))
(T (W x20 x00 x24 x00 x28 x00 x2c x00)
(T (W xff xff xff xff xff xff xff xff)
(L (W xff xff xff xff xa0 x00 x00 x00)) E)
(T (W x00 x00 x00 x00 x00 x00 x00 x00)
(L (W x49 xa1 x68 x4a xeb x5f xdd x3d)) E)))
(T (W x00 x00 x00 x00 x00 x00 x00 x00)
(T (W x00 x00 x00 x00 x00 x00 x00 x00)
(T (W xff xff xff xff xff xff xff xff)
(L (W xff xff xff xff xb0 x00 x00 x00))
(L (W xff xff xff xff xff xff xff xff)))
(T (W x00 x00 x00 x00 x00 x00 x00 x00)
(L (W x18 x00 x00 x00 x0c x00 x00 x00)) E))
(T (W x5f x77 x69 x6c x64 x5f x70 x6f)
(T (W xff xff xff xff xff xff xff xff)
(L (W x00 x00 x80 xbf x00 x00 x80 xbf)) E)
(T (W x00 x00 x00 x00 x00 x00 x00 x00)
(L (W xff xff xff xff xff xff xff xff)) E))))
(T (W x32 xf2 xf9 xff x74 x00 x00 x00)
(T (W x00 x00 x00 x00 x00 x00 x00 x00)
(T (W x00 x00 x80 x3f x00 x00 x80 x3f)
(T (W x49 xa1 x68 x4a xeb x5f xdd x3d)
(L (W xff xff xff xff xff xff xff xff))
(L (W x04 xb7 xff xff x00 x01 x01 x01)))
(T (W x00 x00 x80 x3f x00 x00 x80 x3f)
(L (W x45 x26 x22 x84 xe4 x9c xf2 xcb)) E))
(T (W x00 x00 x00 x00 x62 x39 xfb xff)
(T (W x54 x00 x00 x00 x48 x00 x00 x00)
(L (W xff xff xff xff xff xff xff xff)) E)
(T (W x00 x00 x80 xbf x00 x00 x80 xbf)
(L (W x00 x00 x80 xbf x00 x00 x80 xbf)) E)))
(T (W x00 x00 x00 x00 x00 x00 x00 x00)
(T (W x50 x00 x00 x00 x44 x00 x00 x00)
(T (W x00 x00 x80 x3f x00 x00 x80 x3f)
(L (W x00 x00 x00 x00 x00 x00 x00 x00))
(L (W x45 x26 x22 x84 xe4 x9c xf2 xcb)))
(T (W xff xff xff xff xff xff xff xff)
(L (W xff xff xff xff xff xff xff xff)) E))
(T (W x00 x00 x00 x00 x12 x00 x00 x00)
(T (W x45 x26 x22 x84 xe4 x9c xf2 xcb)
(L (W xff xff xff xff xff xff xff xff)) E)
(T (W x00 x00 x80 xbf x00 x00 x80 xbf)
(L (W x00 x00 x00 x00 x00 x00 x00 x00)) E))))))))
(T (W x00 x00 x00 x00 x00 x00 x00 x00)
(T (W x04 x85 xf9 xff x00 x01 x01 x01)
(T (W x45 x26 x22 x84 xe4 x9c xf2 xcb)
(T (W x18 x00 x00 x00 x0c x00 x00 x00)
(T (W xff xff xff xff xff xff xff xff)
(T (W x00 x00 x80 x3f x00 x00 x80 x3f)
(T (W xff xff xff xff x03 x00 x00 x00)
(T (W x34 x81 xfb xff x14 x00 x00 x00)
(L (W x00 x00 x00 x00 x00 x00 x00 x00))
(L (W x5c x00 x00 x00 xff xff xff xff)))
(T (W x00 x00 x00 x00 x00 x00 x00 x00)
(L (W x45 x26 x22 x84 xe4 x9c xf2 xcb)) E))
(T (W x01 x00 x00 x00 xb0 x00 x00 x00)
(T (W x00 x00 x80 x3f x00 x00 x80 x3f)
(L (W x30 x32 x5f x43 x4c x45 x41 x52))
(L (W x6c x00 x00 x00 x60 x00 x00 x00)))
(T (W x00 x00 x80 x3f x00 x00 x80 x3f)
(L (W xff xff xff xff xb0 x00 x00 x00)) E)))
(T (W x00 x00 x00 x00 x00 x00 x00 x00)
(T (W x00 x00 x00 x00 x00 x00 x00 x00)
(T (W x00 x00 x00 x00 x00 x00 x00 x00)
(L (W x00 x00 x00 x00 x00 x00 x00 x00))
(L (W x00 x00 x80 xbf x00 x00 x80 xbf)))
(T (W x00 x00 x00 x00 x00 x00 x00 x00)
(L (W x46 x53 x59 x53 x5f x4e x53 x5f)) E))
(T (W xff xff xff xff xff xff xff xff)
(T (W x45 x26 x22 x84 xe4 x9c xf2 xcb)
(L (W xff xff xff xff xff xff xff xff)) E)
(T (W x45 x26 x22 x84 xe4 x9c xf2 xcb)
(L (W x00 x00 x00 x00 x00 x00 x00 x00)) E))))
(T (W x00 x00 x00 x00 x00 x00 x00 x00)
(T (W xff xff xff xff x04 x00 x00 x00)
(T (W x45 x26 x22 x84 xe4 x9c xf2 xcb)
(T (W x00 x00 x00 x00 x00 x00 x00 x00)
(L (W x00 x00 x00 x00 x00 x00 x00 x00))
(L (W x00 x00 x80 xbf x00 x00 x80 xbf)))
(T (W xd8 x00 x00 x00 xac x00 x00 x00)
(L (W xff xff xff xff xff xff xff xff)) E))
(T (W x30 x32 x5f x43 x4c x45 x41 x52)
(T (W xcc x00 x00 x00 xc0 x00 x00 x00)
(L (W x00 x00 x80 xbf x00 x00 x80 xbf)) E)
(T (W xff xff xff xff xff xff xff xff)
(L (W x00 x00 x00 x00 x00 x00 x00 x00)) E)))
(T (W xff xff xff xff xff xff xff xff)
(T (W xff xff xff xff xff xff xff xff)
(T (W xff xff xff xff xff xff xff xff)
(L (W x00 x00 x80 xbf x00 x00 x80 xbf))
(L (W xff xff xff xff xff xff xff xff)))
(T (W x04 x00 x00 x00 xf2 xe0 xfc xff)
(L (W x00 x00 x80 xbf x00 x00 x80 xbf)) E))
(T (W x00 x00 x00 x00 x00 x00 x00 x00)
(T (W x00 x00 x80 x3f x00 x00 x80 x3f)
(L (W x00 x00 x00 x00 x00 x00 x00 x00)) E)
(T (W x00 x00 x00 x00 x12 x59 xfd xff)
(L (W x68 x00 x00 x00 x5c x00 x00 x00)) E)))))
(T (W xbc x00 x00 x00 xb0 x00 x00 x00)
(T (W x00 x00 x00 x00 x22 x66 xfd xff)
(T (W x00 x00 x00 x00 x00 x00 x00 x00)
(T (W x18 x00 x00 x00 x0c x00 x00 x00)
(T (W x00 x00 x80 x3f x00 x00 x80 x3f)
(L (W x4c x45 x41 x52 x45 x44 x00 x00))
(L (W x45 x44 x00 x00 x00 x00 x00 x00)))
(T (W xff xff xff xff xff xff xff xff)
(L (W x18 x00 x00 x00 x10 x00 x00 x00)) E))
(T (W x00 x00 x00 x00 x00 x00 x00 x00)
(T (W xe2 x09 xfc xff x78 x00 x00 x00)
(L (W x4f x84 x6f x8b xe8 xcb x63 xb7)) E)
(T (W x04 x00 x00 x00 xa2 xf0 xff xff)
(L (W xff xff xff xff xff xff xff xff)) E)))
(T (W x84 x01 x00 x00 xff xff xff xff)
(T (W x3e x00 x00 x00 x0c x00 x00 x00)
(T (W x50 x00 x00 x00 x44 x00 x00 x00)
(L (W x00 x00 x00 x00 x00 x00 x00 x00))
(L (W xff xff xff xff xa0 x00 x00 x00)))
(T (W xc0 x00 x00 x00 x64 x00 x00 x00)
(L (W x49 xa1 x68 x4a xeb x5f xdd x3d)) E))
(T (W xe2 x49 xfb xff x78 x00 x00 x00)
(T (W x00 x00 x80 x3f x00 x00 x80 x3f)
(L (W x54 x02 x00 x00 x38 x01 x00 x00)) E)
(T (W x32 x48 xfd xff x74 x00 x00 x00)
(L (W x00 x00 x80 xbf x00 x00 x80 xbf)) E))))
(T (W x00 x00 x80 x3f x00 x00 x80 x3f)
(T (W x7d xa8 x37 xaa xb9 xfc x88 x76)
(T (W x00 x00 x80 x3f x00 x00 x80 x3f)
(T (W xc8 x00 x00 x00 xbc x00 x00 x00)
(L (W x00 x00 x00 x00 x00 x00 x00 x00))
(L (W x00 x00 x80 xbf x00 x00 x80 xbf)))
(T (W x00 x00 x80 x3f x00 x00 x80 x3f)
(L (W xff xff xff xff xff xff xff xff)) E))
(T (W x00 x00 x80 x3f x00 x00 x80 x3f)
(T (W xff xff xff xff xff xff xff xff)
(L (W xe2 x29 xfe xff x78 x00 x00 x00)) E)
(T (W x00 x00 x00 x00 x00 x00 x00 x00)
(L (W x8c xc5 xd6 x61 xf7 xe1 xb5 x83)) E)))
(T (W xff xff xff xff xff xff xff xff)
(T (W x0a xf1 xfd xff x37 x00 x00 x00)
(T (W x46 x53 x59 x53 x5f x4e x53 x5f)
(L (W xff xff xff xff xff xff xff xff))
(L (W xff xff xff xff xff xff xff xff)))
(T (W x5f x4e x53 x5f x30 x32 x5f x43)
(L (W x19 x00 x00 x00 x1c x00 x00 x00)) E))
(T (W x01 x00 x00 x00 x21 x00 x00 x00)
(T (W x00 x00 x00 x00 x00 x00 x00 x00)
(L (W x00 x00 x80 xbf x00 x00 x80 xbf)) E)
(T (W x00 x00 x80 xbf x00 x00 x80 xbf)
(L (W xbc x00 x00 x00 x64 x00 x00 x00)) E))))))
(T (W xff xff xff xff x08 x00 x00 x00)
(T (W x00 x00 x00 x00 x00 x00 x00 x00)
(T (W x00 x00 x80 x3f x00 x00 x80 x3f)
(T (W x45 x26 x22 x84 xe4 x9c xf2 xcb)
(T (W xff xff xff xff xff xff xff xff)
(T (W x00 x00 x80 x3f x00 x00 x80 x3f)
(L (W x30 x01 x00 x00 x04 x00 x00 x00))
(L (W xff xff xff xff xff xff xff xff)))
(T (W x34 x89 xfc xff x07 x00 x00 x00)
(L (W x45 x26 x22 x84 xe4 x9c xf2 xcb)) E))
(T (W xff xff xff xff xff xff xff xff)
(T (W x00 x00 x80 x3f x00 x00 x80 x3f)
(L (W x00 x00 x00 x00 x00 x00 x00 x00))
(L (W x68 x00 x00 x00 x5c x00 x00 x00)))
(T (W x45 x26 x22 x84 xe4 x9c xf2 xcb)
(L (W xff xff xff xff xff xff xff xff)) E)))
(T (W xc3 x80 xc9 x92 x00 xe0 x53 xf4)
(T (W x00 x00 x00 x00 x00 x00 x00 x00)
(T (W x68 x00 x00 x00 x5c x00 x00 x00)
(L (W x49 xa1 x68 x4a xeb x5f xdd x3d))
(L (W x00 x00 x80 xbf x00 x00 x80 xbf)))
(T (W x77 xd5 x36 x97 x85 x2f x63 x5f)
(L (W x00 x00 x00 x00 x00 x00 x00 x00)) E))
(T (W x00 x00 x00 x00 x00 x00 x00 x00)
(T (W x00 x00 x80 x3f x00 x00 x80 x3f)
(L (W xff xff xff xff xff xff xff xff)) E)
(T (W x45 x26 x22 x84 xe4 x9c xf2 xcb)
(L (W x00 x00 x80 xbf x00 x00 x80 xbf)) E))))
(T (W x45 x26 x22 x84 xe4 x9c xf2 xcb)
(T (W x00 x00 x00 x00 x00 x00 x00 x00)
(T (W x45 x26 x22 x84 xe4 x9c xf2 xcb)
(T (W x00 x00 x80 x3f x00 x00 x80 x3f)
(L (W xff xff xff xff xac x00 x00 x00))
(L (W x5c x00 x60 x00 x62 x00 x00 x00)))
(T (W x00 x00 x00 x00 x00 x00 x00 x00)
(L (W x00 x00 x01 x01 x5d x00 x00 x00)) E))
(T (W x00 x00 x00 x00 x00 x00 x00 x00)
(T (W xff xff xff xff xff xff xff xff)
(L (W x6c x00 x00 x00 x60 x00 x00 x00)) E)
(T (W xff xff xff xff xff xff xff xff)
(L (W x46 x53 x59 x53 x5f x4e x53 x5f)) E)))
(T (W xff xff xff xff xff xff xff xff)
(T (W x5c x00 x00 x00 xff xff xff xff)
(T (W xff xff xff xff xff xff xff xff)
(L (W xe2 xe1 xfd xff x78 x00 x00 x00))
(L (W xff xff xff xff xff xff xff xff)))
(T (W x49 xa1 x68 x4a xeb x5f xdd x3d)
(L (W xe2 xe1 xfe xff x78 x00 x00 x00)) E))
(T (W x00 x00 x80 x3f x00 x00 x80 x3f)
(T (W x18 x00 x00 x00 x0c x00 x00 x00)
(L (W x00 x00 x00 x00 x00 x00 x00 x00)) E)
(T (W x00 x00 x00 x00 x00 x00 x00 x00)
(L (W x45 x26 x22 x84 xe4 x9c xf2 xcb)) E)))))
(T (W x45 x26 x22 x84 xe4 x9c xf2 xcb)
(T (W x00 x00 x00 x00 x74 xd3 xf9 xff)
(T (W x01 x00 x00 x00 x9c x00 x00 x00)
(T (W x04 x95 xfa xff x00 x01 x01 x01)
(T (W xff xff xff xff xff xff xff xff)
(L (W x00 x00 x00 x00 x00 x00 x00 x00))
(L (W x00 x00 x00 x00 x00 x00 x00 x00)))
(T (W xff xff xff xff xff xff xff xff)
(L (W xff xff xff xff xff xff xff xff)) E))
(T (W xe2 x11 xfb xff x78 x00 x00 x00)
(T (W x19 x00 x00 x00 x1c x00 x00 x00)
(L (W x00 x00 x00 x00 x00 x00 x00 x00)) E)
(T (W xff xff xff xff xff xff xff xff)
(L (W x45 x44 x00 x00 x00 x00 x00 x00)) E)))
(T (W xff xff xff xff xff xff xff xff)
(T (W x9a xe4 xfd xff x00 x00 x01 x01)
(T (W xff xff xff xff xff xff xff xff)
(L (W x00 x00 x80 xbf x00 x00 x80 xbf))
(L (W x19 x00 x00 x00 x1c x00 x00 x00)))
(T (W xff xff xff xff xff xff xff xff)
(L (W x00 x00 x80 xbf x00 x00 x80 xbf)) E))
(T (W xff xff xff xff xff xff xff xff)
(T (W x00 x00 x80 x3f x00 x00 x80 x3f)
(L (W x00 x00 x00 x00 x00 x00 x00 x00)) E)
(T (W xff xff xff xff xff xff xff xff)
(L (W x18 x00 x00 x00 x0c x00 x00 x00)) E))))
(T (W x00 x00 x80 x3f x00 x00 x80 x3f)
(T (W x1a x43 xfd xff xb2 x01 x00 x00)
(T (W x00 x00 x00 x00 x00 x00 x00 x00)
(T (W x00 x00 x00 x00 x62 xb7 xfb xff)
(L (W xff xff xff xff x9c x00 x00 x00))
(L (W x00 x00 x80 xbf x00 x00 x80 xbf)))
(T (W x00 x00 x00 x00 x00 x00 x00 x00)
(L (W x04 x00 x00 x00 xf2 xb8 xfe xff)) E))
(T (W x00 x00 x00 x00 x74 x33 xfb xff)
(T (W x00 x00 x00 x00 x00 x00 x00 x00)
(L (W x21 x00 x00 x00 x24 x00 x00 x00)) E)
(T (W x00 x00 x00 x00 x00 x00 x00 x00)
(L (W x45 x44 x00 x00 x00 x00 x00 x00)) E)))
(T (W xff xff xff xff xff xff xff xff)
(T (W x00 x00 x00 x00 x00 x00 x00 x00)
(T (W x00 x00 x00 x00 x00 x00 x00 x00)
(L (W x00 x00 x01 x01 x5c x00 x00 x00))
(L (W x00 x00 x00 x00 xf2 xf8 xff xff)))
(T (W x50 x00 x00 x00 x44 x00 x00 x00)
(L (W x15 x00 x00 x00 x18 x00 x00 x00)) E))
(T (W xa0 x01 x00 x00 xff xff xff xff)
(T (W x00 x00 x00 x00 x00 x00 x00 x00)
(L (W x54 x00 x00 x00 x48 x00 x00 x00)) E)
(T (W x07 x00 x00 x00 x1c x00 x20 x00)
(L (W xff xff xff xff xff xff xff xff)) E)))))))
(T (W xff xff xff xff xff xff xff xff)
(T (W x45 x26 x22 x84 xe4 x9c xf2 xcb)
(T (W xff xff xff xff xff xff xff xff)
(T (W x00 x00 x00 x00 x00 x00 x00 x00)
(T (W xff xff xff xff xff xff xff xff)
(T (W x00 x00 x00 x00 x00 x00 x00 x00)
(T (W xff xff xff xff xff xff xff xff)
(L (W xff xff xff xff xc8 x00 x00 x00))
(L (W x6c x00 x00 x00 x60 x00 x00 x00)))
(T (W x01 x00 x00 x00 x9c x00 x00 x00)
(L (W x00 x00 x00 x00 x00 x00 x00 x00)) E))
(T (W x00 x00 x80 x3f x00 x00 x80 x3f)
(T (W xff xff xff xff xff xff xff xff)
(L (W x6c x00 x00 x00 x60 x00 x00 x00))
(L (W x00 x00 x00 x00 x00 x00 x00 x00)))
(T (W x00 x00 x80 xbf x00 x00 x80 xbf)
(L (W x00 x00 x00 x00 x00 x00 x00 x00)) E)))
(T (W x50 x00 x00 x00 x44 x00 x00 x00)
(T (W x45 x26 x22 x84 xe4 x9c xf2 xcb)
(T (W xff xff xff xff xff xff xff xff)
(L (W x00 x00 x80 xbf x00 x00 x80 xbf))
(L (W x00 x00 x00 x00 x12 xbd xff xff)))
(T (W x45 x26 x22 x84 xe4 x9c xf2 xcb)
(L (W x18 x00 x00 x00 x0c x00 x00 x00)) E))
(T (W x00 x00 x80 x3f x00 x00 x80 x3f)
(T (W xff xff xff xff xff xff xff xff)
(L (W x45 x26 x22 x84 xe4 x9c xf2 xcb)) E)
(T (W xff xff xff xff xff xff xff xff)
(L (W xff xff xff xff xff xff xff xff)) E))))
(T (W xff xff xff xff xff xff xff xff)
(T (W x00 x00 x80 x3f x00 x00 x80 x3f)
(T (W xff xff xff xff xff xff xff xff)
(T (W xff xff xff xff x03 x00 x00 x00)
(L (W xff xff xff xff xff xff xff xff))
(L (W xff xff xff xff xff xff xff xff)))
(T (W x01 x00 x00 x00 x9c x00 x00 x00)
(L (W x00 x00 x80 xbf x00 x00 x80 xbf)) E))
(T (W x45 x26 x22 x84 xe4 x9c xf2 xcb)
(T (W x45 x26 x22 x84 xe4 x9c xf2 xcb)
(L (W x00 x00 x00 x00 xf2 x24 xfe xff)) E)
(T (W x00 x00 x80 xbf x00 x00 x80 xbf)
(L (W x50 x00 x00 x00 x44 x00 x00 x00)) E)))
(T (W x00 x00 x80 x3f x00 x00 x80 x3f)
(T (W x6c x00 x00 x00 x60 x00 x00 x00)
(T (W x00 x00 x80 x3f x00 x00 x80 x3f)
(L (W x96 x01 x00 x00 xff xff xff xff))
(L (W x00 x00 x00 x00 x00 x00 x00 x00)))
(T (W x6c x00 x00 x00 x60 x00 x00 x00)
(L (W xff xff xff xff xff xff xff xff)) E))
(T (W xff xff xff xff xff xff xff xff)
(T (W x46 x53 x59 x53 x5f x4e x53 x5f)
(L (W xff xff xff xff xff xff xff xff)) E)
(T (W xe2 x5d xfd xff x78 x00 x00 x00)
(L (W x00 x00 x00 x00 x00 x00 x00 x00)) E)))))
(T (W x00 x00 x01 x01 xc9 x00 x00 x00)
(T (W x45 x26 x22 x84 xe4 x9c xf2 xcb)
(T (W xff xff xff xff xff xff xff xff)
(T (W x00 x00 x00 x00 x00 x00 x00 x00)
(T (W x00 x00 x00 x00 x00 x00 x00 x00)
(L (W x18 x00 x00 x00 x0c x00 x00 x00))
(L (W xff xff xff xff xff xff xff xff)))
(T (W x00 x00 x80 x3f x00 x00 x80 x3f)
(L (W x4f x84 x6f x8b xe8 xcb x63 xb7)) E))
(T (W xff xff xff xff xff xff xff xff)
(T (W x8c x09 xaf xaa x7a xe8 xb9 xe3)
(L (W xff xff xff xff xff xff xff xff)) E)
(T (W x00 x00 x00 x00 x00 x00 x64 x00)
(L (W x00 x00 x80 xbf x00 x00 x80 xbf)) E)))
(T (W x32 x4c xfa xff x74 x00 x00 x00)
(T (W x40 x00 x00 x00 x9c x00 x00 x00)
(T (W x00 x00 x00 x00 x00 x00 x00 x00)
(L (W xff xff xff xff xc4 x00 x00 x00))
(L (W x30 x32 x5f x43 x4c x45 x41 x52)))
(T (W x00 x00 x00 x00 x00 x00 x00 x00)
(L (W xb0 x00 x00 x00 x64 x00 x00 x00)) E))
(T (W x00 x00 x00 x00 x00 x00 x00 x00)
(T (W xff xff xff xff xff xff xff xff)
(L (W xe2 x4d xfe xff x78 x00 x00 x00)) E)
(T (W x00 x00 x00 x00 x00 x00 x00 x00)
(L (W x00 x00 x00 x00 x00 x00 x00 x00)) E))))
(T (W x00 x00 x01 x01 x25 x02 x00 x00)
(T (W x32 x2c xfa xff x74 x00 x00 x00)
(T (W x18 x00 x00 x00 x0c x00 x00 x00)
(T (W x45 x26 x22 x84 xe4 x9c xf2 xcb)
(L (W x00 x00 x80 xbf x00 x00 x80 xbf))
(L (W xff xff xff xff xff xff xff xff)))
(T (W xff xff xff xff xff xff xff xff)
(L (W x00 x00 x80 xbf x00 x00 x80 xbf)) E))
(T (W x00 x00 x00 x00 x00 x00 x00 x00)
(T (W x32 x2c xfc xff x74 x00 x00 x00)
(L (W x00 x00 x00 x00 x00 x00 x00 x00)) E)
(T (W x32 x2c xfd xff x74 x00 x00 x00)
(L (W x45 x26 x22 x84 xe4 x9c xf2 xcb)) E)))
(T (W x00 x00 x00 x00 x00 x00 x00 x00)
(T (W x00 x00 x80 x3f x00 x00 x80 x3f)
(T (W x01 x00 x00 x00 x21 x00 x00 x00)
(L (W x00 x00 x80 xbf x00 x00 x80 xbf))
(L (W x49 xa1 x68 x4a xeb x5f xdd x3d)))
(T (W xff xff xff xff xff xff xff xff)
(L (W x00 x00 x00 x00 x00 x00 x00 x00)) E))
(T (W x00 x00 x00 x00 x00 x00 x00 x00)
(T (W xb8 x00 x00 x00 xac x00 x00 x00)
(L (W x00 x00 x00 x00 x00 x00 x00 x00)) E)
(T (W xff xff xff xff xff xff xff xff)
(L (W x00 x00 x80 xbf x00 x00 x80 xbf)) E))))))
(T (W x45 x26 x22 x84 xe4 x9c xf2 xcb)
(T (W x00 x00 x80 x3f x00 x00 x80 x3f)
(T (W xff xff xff xff x03 x00 x00 x00)
(T (W xc4 x01 x00 x00 xff xff xff xff)
(T (W x00 x00 x00 x00 x00 x00 x00 x00)
(T (W x74 x03 x00 x00 x4c x02 x00 x00)
(L (W x32 x84 xfd xff x74 x00 x00 x00))
(L (W x18 x00 x00 x00 x10 x00 x00 x00)))
(T (W x00 x00 x80 x3f x00 x00 x80 x3f)
(L (W x00 x00 x00 x00 x00 x00 x00 x00)) E))
(T (W xff xff xff xff x03 x00 x00 x00)
(T (W xff xff xff xff xff xff xff xff)
(L (W xff xff xff xff xa0 x00 x00 x00)) E)
(T (W x00 x00 x00 x00 x00 x00 x00 x00)
(L (W x00 x00 x00 x00 x00 x00 x00 x00)) E)))
(T (W x68 x00 x00 x00 x5c x00 x00 x00)
(T (W x18 x00 x00 x00 x10 x00 x00 x00)
(T (W x00 x00 x00 x00 x00 x00 x00 x00)
(L (W xff xff xff xff xff xff xff xff))
(L (W x00 x00 x00 x00 xd2 xc6 xff xff)))
(T (W x00 x00 x00 x00 x00 x00 x00 x00)
(L (W x18 x00 x00 x00 x10 x00 x00 x00)) E))
(T (W xff xff xff xff xff xff xff xff)
(T (W xff xff xff xff xff xff xff xff)
(L (W x00 x00 x80 xbf x00 x00 x80 xbf)) E)
(T (W x00 x00 x00 x00 x00 x00 x00 x00)
(L (W xff xff xff xff xff xff xff xff)) E))))
(T (W xff xff xff xff xff xff xff xff)
(T (W xc0 x00 x00 x00 xb4 x00 x00 x00)
(T (W xff xff xff xff x04 x00 x00 x00)
(T (W x4c x45 x41 x52 x45 x44 x00 x00)
(L (W xff xff xff xff x18 x00 x00 x00))
(L (W x20 x00 x00 x00 x24 x00 x28 x00)))
(T (W x64 x00 x00 x00 x9c x00 x00 x00)
(L (W x00 x00 x80 xbf x00 x00 x80 xbf)) E))
(T (W xff xff xff xff xff xff xff xff)
(T (W x00 x00 x80 x3f x00 x00 x80 x3f)
(L (W x46 x53 x59 x53 x5f x4e x53 x5f)) E)
(T (W x00 x00 x80 xbf x00 x00 x80 xbf)
(L (W x6c x00 x00 x00 x60 x00 x00 x00)) E)))
(T (W x45 x26 x22 x84 xe4 x9c xf2 xcb)
(T (W x00 x00 x80 x3f x00 x00 x80 x3f)
(T (W x00 x00 x00 x00 x74 xe7 xfb xff)
(L (W x72 x64 x5f x6c x76 x31 x00 x00))
(L (W x45 x26 x22 x84 xe4 x9c xf2 xcb)))
(T (W x00 x00 x80 x3f x00 x00 x80 x3f)
(L (W x00 x00 x00 x00 x00 x00 x00 x00)) E))
(T (W x00 x00 x00 x00 x12 x65 xfb xff)
(T (W xff xff xff xff xff xff xff xff)
(L (W xff xff xff xff xff xff xff xff)) E)
(T (W xff xff xff xff x9c x00 x00 x00)
(L (W x45 x26 x22 x84 xe4 x9c xf2 xcb)) E)))))
(T (W xe2 xb5 xf9 xff x78 x00 x00 x00)
(T (W xff xff xff xff xff xff xff xff)
(T (W x00 x00 x00 x00 x00 x00 x00 x00)
(T (W x00 x00 x80 x3f x00 x00 x80 x3f)
(T (W x45 x26 x22 x84 xe4 x9c xf2 xcb)
(L (W x03 x00 x00 x00 xcc x00 x00 x00))
(L (W xff xff xff xff xff xff xff xff)))
(T (W x00 x00 x00 x00 x00 x00 x00 x00)
(L (W x00 x00 x00 x00 x00 x00 x00 x00)) E))
(T (W x54 x00 x00 x00 x48 x00 x00 x00)
(T (W x00 x00 x00 x00 x00 x00 x00 x00)
(L (W xff xff xff xff xff xff xff xff)) E)
(T (W xff xff xff xff xff xff xff xff)
(L (W xe2 x15 xff xff x78 x00 x00 x00)) E)))
(T (W x00 x00 x80 x3f x00 x00 x80 x3f)
(T (W x50 x00 x00 x00 x44 x00 x00 x00)
(T (W x00 x00 x00 x00 x00 x00 x00 x00)
(L (W xff xff xff xff xff xff xff xff))
(L (W x00 x00 x00 x00 x00 x00 x00 x00)))
(T (W x00 x00 x80 x3f x00 x00 x80 x3f)
(L (W xff xff xff xff xff xff xff xff)) E))
(T (W x68 x00 x00 x00 x5c x00 x00 x00)
(T (W x00 x00 x00 x00 x00 x00 x00 x00)
(L (W xff xff xff xff xb0 x00 x00 x00)) E)
(T (W x00 x00 x80 xbf x00 x00 x80 xbf)
(L (W x00 x00 x00 x00 x00 x00 x00 x00)) E))))
(T (W xff xff xff xff xff xff xff xff)
(T (W x00 x00 x80 x3f x00 x00 x80 x3f)
(T (W x32 xb4 xfa xff x74 x00 x00 x00)
(T (W x16 x00 x00 x00 xb0 x00 x00 x00)
(L (W xff xff xff xff xff xff xff xff))
(L (W xff xff xff xff xff xff xff xff)))
(T (W x18 x00 x00 x00 x10 x00 x00 x00)
(L (W x6c x00 x00 x00 x60 x00 x00 x00)) E))
(T (W x49 xa1 x68 x4a xeb x5f xdd x3d)
(T (W xcc x00 x00 x00 xc0 x00 x00 x00)
(L (W x4f x84 x6f x8b xe8 xcb x63 xb7)) E)
(T (W xff xff xff xff xff xff xff xff)
(L (W xff xff xff xff xb0 x00 x00 x00)) E)))
(T (W x00 x00 x00 x00 x00 x00 x00 x00)
(T (W x00 x00 x00 x00 x74 xf7 xfa xff)
(T (W xff xff xff xff xff xff xff xff)
(L (W x54 x00 x00 x00 x48 x00 x00 x00))
(L (W x6c x00 x00 x00 x60 x00 x00 x00)))
(T (W x4c x45 x41 x52 x45 x44 x00 x00)
(L (W x4f x84 x6f x8b xe8 xcb x63 xb7)) E))
(T (W x45 x26 x22 x84 xe4 x9c xf2 xcb)
(T (W xb8 x00 x00 x00 xac x00 x00 x00)
(L (W x00 x00 x00 x00 x00 x00 x00 x00)) E)
(T (W xc4 x00 x00 x00 x02 x00 x00 x00)
(L (W x00 x00 x80 xbf x00 x00 x80 xbf)) E)))))))))))
(T (W x98 x41 x05 x00 x8c x3a x05 x00)
(T (W x28 x49 x04 x00 x44 x09 x04 x00)
(T (W xb0 x44 x03 x00 x6c x42 x03 x00)
(T (W xe0 x64 x01 x00 x94 x62 x01 x00)
(T (W xa2 x7e xf9 xff x78 x00 x00 x00)
(T (W x00 x00 x00 x00 x00 x00 x00 x00)
(T (W x45 x26 x22 x84 xe4 x9c xf2 xcb)
(T (W xff xff xff xff xff xff xff xff)
(T (W x00 x00 x00 x00 x00 x00 x00 x00)
(T (W x68 x00 x00 x00 x5c x00 x00 x00)
(T (W xa5 x01 x00 x00 xff xff xff xff)
(L (W x00 x00 x00 x00 x00 x00 x00 x00))
(L (W xff xff xff xff xff xff xff xff)))
(T (W xf4 x7d xfc xff x26 x00 x00 x00)
(L (W x00 x00 x80 xbf x00 x00 x80 xbf)) E))
(T (W x04 x00 x00 x00 xc2 xfe xff xff)
(T (W x00 x00 x00 x00 x00 x00 x00 x00)
(L (W xff xff xff xff xff xff xff xff))
(L (W xff xff xff xff xff xff xff xff)))
(T (W x00 x00 x80 x3f x00 x00 x80 x3f)
(L (W x45 x26 x22 x84 xe4 x9c xf2 xcb)) E)))
(T (W xff xff xff xff xff xff xff xff)
(T (W x70 x00 x00 x00 xff xff xff xff)
(T (W x00 x00 x00 x00 x00 x00 x00 x00)
(L (W x00 x00 x00 x00 x00 x00 x00 x00))
(L (W x00 x00 x00 x00 x00 x00 x00 x00)))
(T (W xf8 xcc x36 x97 x85 x2a x63 x5f)
(L (W xff xff xff xff xff xff xff xff)) E))
(T (W xff xff xff xff x9c x00 x00 x00)
(T (W x00 x00 x00 x00 x00 x00 x00 x00)
(L (W x45 x26 x22 x84 xe4 x9c xf2 xcb)) E)
(T (W x46 x53 x59 x53 x5f x4e x53 x5f)
(L (W x00 x00 x00 x00 x00 x00 x00 x00)) E))))
(T (W x00 x00 x00 x00 x00 x00 x00 x00)
(T (W x00 x00 x80 x3f x00 x00 x80 x3f)
(T (W xff xff xff xff xff xff xff xff)
(T (W xff xff xff xff xff xff xff xff)
(L (W x00 x00 x00 x00 x00 x00 x00 x00))
(L (W x00 x00 x00 x00 x00 x00 x00 x00)))
(T (W x01 x00 x00 x00 x9c x00 x00 x00)
(L (W x03 x00 x00 x00 xd0 x00 x00 x00)) E))
(T (W xff xff xff xff xff xff xff xff)
(T (W x00 x00 x80 x3f x00 x00 x80 x3f)
(L (W x00 x00 x00 x00 x00 x00 x00 x00)) E)
(T (W x00 x00 x00 x00 x00 x00 x00 x00)
(L (W xff xff xff xff xff xff xff xff)) E)))
(T (W xff xff xff xff xff xff xff xff)
(T (W x5e x00 x00 x00 xff xff xff xff)
(T (W xff xff xff xff xff xff xff xff)
(L (W x00 x00 x00 x00 x00 x00 x00 x00))
(L (W x00 x00 x80 xbf x00 x00 x80 xbf)))
(T (W xff xff xff xff xff xff xff xff)
(L (W x00 x00 x00 x00 x00 x00 x00 x00)) E))
(T (W xff xff xff xff xff xff xff xff)
(T (W x00 x00 x80 x3f x00 x00 x80 x3f)
(L (W x00 x00 x00 x00 x00 x00 x00 x00)) E)
(T (W xff xff xff xff xff xff xff xff)
(L (W x00 x00 x80 xbf x00 x00 x80 xbf)) E)))))
(T (W xbc x00 x00 x00 xb0 x00 x00 x00)
(T (W x00 x00 x00 x00 x00 x00 x00 x00)
(T (W x45 x26 x22 x84 xe4 x9c xf2 xcb)
(T (W x50 x00 x00 x00 x44 x00 x00 x00)
(T (W x00 x00 x80 x3f x00 x00 x80 x3f)
(L (W xff xff xff xff xff xff xff xff))
(L (W xff xff xff xff xff xff xff xff)))
(T (W xff xff xff xff xff xff xff xff)
(L (W x6c x00 x00 x00 x60 x00 x00 x00)) E))
(T (W x4c x45 x41 x52 x45 x44 x00 x00)
(T (W x00 x00 x00 x00 x00 x00 x00 x00)
(L (W x00 x00 x01 x01 x4a x00 x00 x00)) E)
(T (W x18 x00 x00 x00 x0c x00 x00 x00)
(L (W xf2 x04 xff xff x74 x00 x00 x00)) E)))
(T (W xff xff xff xff xff xff xff xff)
(T (W xff xff xff xff xff xff xff xff)
(T (W x00 x00 x80 x3f x00 x00 x80 x3f)
(L (W x00 x00 x00 x00 x12 x00 x00 x00))
(L (W x00 x00 x80 xbf x00 x00 x80 xbf)))
(T (W x00 x00 x80 x3f x00 x00 x80 x3f)
(L (W x4a xa0 x4a xdc x00 x68 x5c x2f)) E))
(T (W x00 x00 x00 x00 x00 x00 x00 x00)
(T (W x4f x84 x6f x8b xe8 xcb x63 xb7)
(L (W xbc x00 x00 x00 x32 x00 x00 x00)) E)
(T (W x00 x00 x80 xbf x00 x00 x80 xbf)
(L (W x00 x00 x00 x00 x00 x00 x00 x00)) E))))
(T (W x00 x00 x00 x00 x00 x00 x00 x00)
(T (W x00 x00 x00 x00 x00 x00 x00 x00)
(T (W x00 x00 x00 x00 x00 x00 x00 x00)
(T (W x00 x00 x80 x3f x00 x00 x80 x3f)
(L (W x45 x26 x22 x84 xe4 x9c xf2 xcb))
(L (W x96 x01 x00 x00 xff xff xff xff)))
(T (W x19 x00 x00 x00 x10 x00 x00 x00)
(L (W xff xff xff xff xff xff xff xff)) E))
(T (W x00 x00 x00 x00 x00 x00 x00 x00)
(T (W xff xff xff xff xff xff xff xff)
(L (W x00 x00 x80 xbf x00 x00 x80 xbf)) E)
(T (W xff xff xff xff xff xff xff xff)
(L (W xff xff xff xff xff xff xff xff)) E)))
(T (W xff xff xff xff x04 x00 x00 x00)
(T (W xff xff xff xff xff xff xff xff)
(T (W xff xff xff xff xff xff xff xff)
(L (W xcc x00 x00 x00 x01 x00 x00 x00))
(L (W x45 x26 x22 x84 xe4 x9c xf2 xcb)))
(T (W xff xff xff xff xff xff xff xff)
(L (W x00 x00 x80 xbf x00 x00 x80 xbf)) E))
(T (W x45 x26 x22 x84 xe4 x9c xf2 xcb)
(T (W x00 x00 x00 x00 x00 x00 x00 x00)
(L (W x00 x00 x00 x00 x00 x00 x00 x00)) E)
(T (W x18 x00 x00 x00 x0c x00 x00 x00)
(L (W xc4 x69 xff xff x00 x01 x01 x01)) E))))))
(T (W xff xff xff xff xff xff xff xff)
(T (W x00 x00 x00 x00 x00 x00 x00 x00)
(T (W x00 x00 x80 x3f x00 x00 x80 x3f)
(T (W x45 x26 x22 x84 xe4 x9c xf2 xcb)
(T (W x00 x00 x80 x3f x00 x00 x80 x3f)
(T (W x00 x00 x00 x00 x00 x00 x00 x00)
(L (W x00 x00 x00 x00 x00 x00 x00 x00))
(L (W xff xff xff xff xff xff xff xff)))
(T (W xff xff xff xff xff xff xff xff)
(L (W xa2 x7e xfe xff x78 x00 x00 x00)) E))
(T (W xc8 x00 x00 x00 xbc x00 x00 x00)
(T (W x00 x00 x00 x00 x00 x00 x00 x00)
(L (W xff xff xff xff xff xff xff xff))
(L (W x00 x00 x80 xbf x00 x00 x80 xbf)))
(T (W xff xff xff xff xff xff xff xff)
(L (W x45 x26 x22 x84 xe4 x9c xf2 xcb)) E)))
(T (W xff xff xff xff xff xff xff xff)
(T (W xff xff xff xff xff xff xff xff)
(T (W x00 x00 x00 x00 x00 x00 x00 x00)
(L (W x00 x00 x00 x00 x60 x00 x64 x00))
(L (W x45 x26 x22 x84 xe4 x9c xf2 xcb)))
(T (W xff xff xff xff xff xff xff xff)
(L (W x00 x00 x00 x00 xd2 xbd xfe xff)) E))
(T (W xff xff xff xff xff xff xff xff)
(T (W x00 x00 x00 x00 x00 x00 x00 x00)
(L (W x45 x26 x22 x84 xe4 x9c xf2 xcb)) E)
(T (W x00 x00 x00 x00 x00 x00 x00 x00)
(L (W x00 x00 x00 x00 x00 x00 x00 x00)) E))))
(T (W x45 x26 x22 x84 xe4 x9c xf2 xcb)
(T (W x5a x31 xfd xff x00 x00 x01 x01)
(T (W x00 x00 x00 x00 x00 x00 x00 x00)
(T (W x45 x44 x00 x00 x00 x00 x00 x00)
(L (W x12 x00 x00 x00 x46 x53 x59 x53))
(L (W x00 x00 x00 x00 x00 x00 x00 x00)))
(T (W xff xff xff xff xff xff xff xff)
(L (W xff xff xff xff xc0 x00 x00 x00)) E))
(T (W xa4 x01 x00 x00 xff xff xff xff)
(T (W xc4 x21 xfc xff x00 x01 x01 x01)
(L (W x00 x00 x80 xbf x00 x00 x80 xbf)) E)
(T (W xff xff xff xff xff xff xff xff)
(L (W x44 x02 x00 x00 x30 x01 x00 x00)) E)))
(T (W xb8 x00 x00 x00 xac x00 x00 x00)
(T (W xff xff xff xff xff xff xff xff)
(T (W xff xff xff xff xff xff xff xff)
(L (W x00 x00 x00 x00 x00 x00 x00 x00))
(L (W xa2 xde xff xff x78 x00 x00 x00)))
(T (W xff xff xff xff xff xff xff xff)
(L (W x00 x00 x00 x00 x00 x00 x00 x00)) E))
(T (W x00 x00 x00 x00 x00 x00 x00 x00)
(T (W x00 x00 x80 x3f x00 x00 x80 x3f)
(L (W x00 x00 x00 x00 x00 x00 x00 x00)) E)
(T (W xff xff xff xff xff xff xff xff)
(L (W x54 x00 x00 x00 x48 x00 x00 x00)) E)))))
(T (W x45 x26 x22 x84 xe4 x9c xf2 xcb)
(T (W x45 x26 x22 x84 xe4 x9c xf2 xcb)
(T (W x00 x00 x00 x00 x00 x00 x00 x00)
(T (W x68 x00 x00 x00 x5c x00 x00 x00)
(T (W x6c x00 x00 x00 x60 x00 x00 x00)
(L (W xaa xee xff xff x00 x00 x01 x01))
(L (W x00 x00 x00 x00 x12 x00 x00 x00)))
(T (W xb8 x00 x00 x00 xac x00 x00 x00)
(L (W x18 x00 x00 x00 x10 x00 x00 x00)) E))
(T (W x00 x00 x00 x00 x00 x00 x00 x00)
(T (W x00 x00 x80 x3f x00 x00 x80 x3f)
(L (W x46 x53 x59 x53 x5f x4e x53 x5f)) E)
(T (W x00 x00 x80 xbf x00 x00 x80 xbf)
(L (W xff xff xff xff xb0 x00 x00 x00)) E)))
(T (W xff xff xff xff xff xff xff xff)
(T (W xff xff xff xff xff xff xff xff)
(T (W x50 x00 x00 x00 x44 x00 x00 x00)
(L (W x00 x00 x00 x00 x00 x00 x00 x00))
(L (W x00 x00 x80 xbf x00 x00 x80 xbf)))
(T (W x00 x00 x80 x3f x00 x00 x80 x3f)
(L (W xf4 xd5 xfe xff x11 x00 x00 x00)) E))
(T (W x45 x26 x22 x84 xe4 x9c xf2 xcb)
(T (W x00 x00 x00 x00 x00 x00 x00 x00)
(L (W xff xff xff xff xff xff xff xff)) E)
(T (W x10 x00 x14 x00 x00 x00 x00 x00)
(L (W x00 x00 x80 xbf x00 x00 x80 xbf)) E))))
(T (W x45 x26 x22 x84 xe4 x9c xf2 xcb)
(T (W x20 x01 x00 x00 x04 x00 x00 x00)
(T (W xe4 x63 xa2 xcf xf2 xda x51 x03)
(T (W xff xff xff xff x03 x00 x00 x00)
(L (W xff xff xff xff xbc x00 x00 x00))
(L (W x00 x00 x00 x00 x00 x00 x00 x00)))
(T (W x00 x00 x00 x00 x00 x00 x00 x00)
(L (W xff xff xff xff xff xff xff xff)) E))
(T (W x54 x00 x00 x00 x48 x00 x00 x00)
(T (W xff xff xff xff xff xff xff xff)
(L (W xa2 x2e xfe xff x78 x00 x00 x00)) E)
(T (W x00 x00 x01 x01 xc7 x01 x00 x00)
(L (W xff xff xff xff xff xff xff xff)) E)))
(T (W x45 x26 x22 x84 xe4 x9c xf2 xcb)
(T (W xff xff xff xff x04 x00 x00 x00)
(T (W x00 x00 x00 x00 x00 x00 x00 x00)
(L (W xff xff xff xff x9c x00 x00 x00))
(L (W x18 x00 x00 x00 x10 x00 x00 x00)))
(T (W x5f x4e x53 x5f x30 x32 x5f x43)
(L (W x6c x00 x00 x00 x60 x00 x00 x00)) E))
(T (W xd4 x00 x00 x00 xc8 x00 x00 x00)
(T (W xda x7f xff xff xc6 x01 x00 x00)
(L (W x00 x00 x80 xbf x00 x00 x80 xbf)) E)
(T (W x00 x00 x00 x00 x00 x00 x00 x00)
(L (W xff xff xff xff xc8 x00 x00 x00)) E)))))))
(T (W xff xff xff xff xff xff xff xff)
(T (W xc4 x8d xf9 xff x00 x01 x01 x01)
(T (W xff xff xff xff xff xff xff xff)
(T (W x00 x00 x00 x00 x00 x00 x00 x00)
(T (W xff xff xff xff xff xff xff xff)
(T (W x00 x00 x00 x00 x00 x00 x00 x00)
(T (W x00 x00 x80 x3f x00 x00 x80 x3f)
(L (W x00 x00 x80 xbf x00 x00 x80 xbf))
(L (W x45 x26 x22 x84 xe4 x9c xf2 xcb)))
(T (W x00 x00 x80 x3f x00 x00 x80 x3f)
(L (W xff xff xff xff xff xff xff xff)) E))
(T (W x00 x00 x00 x00 x00 x00 x00 x00)
(T (W xb8 x00 x00 x00 x28 x00 x00 x00)
(L (W x00 x00 x80 xbf x00 x00 x80 xbf))
(L (W x18 x00 x1c x00 x20 x00 x24 x00)))
(T (W xff xff xff xff xff xff xff xff)
(L (W x00 x00 x00 x00 x00 x00 x00 x00)) E)))
(T (W x00 x00 x80 x3f x00 x00 x80 x3f)
(T (W x00 x00 x80 x3f x00 x00 x80 x3f)
(T (W x01 x00 x00 x00 x14 x00 x00 x00)
(L (W x00 x00 x80 xbf x00 x00 x80 xbf))
(L (W xff xff xff xff xff xff xff xff)))
(T (W x00 x00 x80 x3f x00 x00 x80 x3f)
(L (W x00 x00 x80 xbf x00 x00 x80 xbf)) E))
(T (W x00 x00 x00 x00 x00 x00 x00 x00)
(T (W xc4 x3d xfc xff x00 x01 x01 x01)
(L (W x00 x00 x00 x00 x00 x00 x00 x00)) E)
(T (W x03 x00 x00 x00 xd0 x00 x00 x00)
(L (W x18 x00 x00 x00 x0c x00 x00 x00)) E))))
(T (W x64 x00 x00 x00 x9c x00 x00 x00)
(T (W x00 x00 x00 x00 x00 x00 x00 x00)
(T (W x68 x00 x00 x00 x5c x00 x00 x00)
(T (W x00 x00 x80 x3f x00 x00 x80 x3f)
(L (W x45 x26 x22 x84 xe4 x9c xf2 xcb))
(L (W x17 x00 x00 x00 x1a x00 x00 x00)))
(T (W x6f x6b x65 x5f x6d x69 x6c x64)
(L (W x00 x00 x00 x00 x00 x00 x00 x00)) E))
(T (W x00 x00 x80 x3f x00 x00 x80 x3f)
(T (W x00 x00 x00 x00 x00 x00 x00 x00)
(L (W xb0 x00 x00 x00 x64 x00 x00 x00)) E)
(T (W x00 x00 x00 x00 x00 x00 x00 x00)
(L (W x00 x00 x80 xbf x00 x00 x80 xbf)) E)))
(T (W x00 x00 x00 x00 x00 x00 x00 x00)
(T (W x00 x00 x00 x00 x00 x00 x00 x00)
(T (W x00 x00 x00 x00 x00 x00 x00 x00)
(L (W xff xff xff xff xff xff xff xff))
(L (W x00 x00 x00 x00 x00 x00 x00 x00)))
(T (W x00 x00 x80 x3f x00 x00 x80 x3f)
(L (W xff xff xff xff xff xff xff xff)) E))
(T (W x00 x00 x80 x3f x00 x00 x80 x3f)
(T (W x34 x01 x00 x00 x04 x00 x00 x00)
(L (W x54 x00 x00 x00 x48 x00 x00 x00)) E)
(T (W x45 x26 x22 x84 xe4 x9c xf2 xcb)
(L (W x54 x02 x00 x00 x38 x01 x00 x00)) E)))))
(T (W x00 x00 x00 x00 x6a x45 xfd xff)
(T (W x00 x00 x80 x3f x00 x00 x80 x3f)
(T (W x45 x26 x22 x84 xe4 x9c xf2 xcb)
(T (W x2b x67 xae x54 xf0 x6e x99 x85)
(T (W xff xff xff xff xff xff xff xff)
(L (W x00 x00 x80 xbf x00 x00 x80 xbf))
(L (W x00 x00 x80 xbf x00 x00 x80 xbf)))
(T (W x00 x00 x00 x00 x00 x00 x00 x00)
(L (W x8f x9e xaa x28 xbf xcf x56 x6a)) E))
(T (W x2c x00 x00 x00 xb0 x00 x00 x00)
(T (W xff xff xff xff xff xff xff xff)
(L (W x18 x00 x00 x00 x10 x00 x00 x00)) E)
(T (W x00 x00 x80 xbf x00 x00 x80 xbf)
(L (W x00 x00 x00 x00 x00 x00 x00 x00)) E)))
(T (W x45 x26 x22 x84 xe4 x9c xf2 xcb)
(T (W x00 x00 x80 x3f x00 x00 x80 x3f)
(T (W x00 x00 x00 x00 x04 x00 x00 x00)
(L (W xc4 xcd xfd xff x00 x01 x01 x01))
(L (W x00 x00 x01 x01 x5c x00 x00 x00)))
(T (W x00 x00 x00 x00 x00 x00 x00 x00)
(L (W xff xff xff xff xa0 x00 x00 x00)) E))
(T (W x00 x00 x01 x01 x9c x01 x00 x00)
(T (W xff xff xff xff xff xff xff xff)
(L (W x00 x00 x80 xbf x00 x00 x80 xbf)) E)
(T (W x04 x00 x00 x00 xaa xaa xfd xff)
(L (W xff xff xff xff xff xff xff xff)) E))))
(T (W x18 x00 x00 x00 x10 x00 x00 x00)
(T (W x00 x00 x80 x3f x00 x00 x80 x3f)
(T (W x45 x26 x22 x84 xe4 x9c xf2 xcb)
(T (W x00 x00 x00 x00 x00 x00 x00 x00)
(L (W x50 x00 x00 x00 x44 x00 x00 x00))
(L (W xc4 x00 x00 x00 x02 x00 x00 x00)))
(T (W x18 x00 x00 x00 x10 x00 x00 x00)
(L (W x00 x00 x00 x00 x00 x00 x00 x00)) E))
(T (W xff xff xff xff xff xff xff xff)
(T (W x00 x00 x00 x00 x12 x00 x00 x00)
(L (W xff xff xff xff xff xff xff xff)) E)
(T (W x00 x00 x80 xbf x00 x00 x80 xbf)
(L (W x54 x00 x00 x00 x48 x00 x00 x00)) E)))
(T (W x00 x00 x00 x00 x00 x00 x00 x00)
(T (W x45 x26 x22 x84 xe4 x9c xf2 xcb)
(T (W x00 x00 x80 x3f x00 x00 x80 x3f)
(L (W x00 x00 x00 x00 x00 x00 x00 x00))
(L (W x00 x00 x00 x00 x00 x00 x00 x00)))
(T (W x00 x00 x80 x3f x00 x00 x80 x3f)
(L (W x00 x00 x00 x00 x00 x00 x00 x00)) E))
(T (W x00 x00 x00 x00 x00 x00 x00 x00)
(T (W x50 x00 x00 x00 x44 x00 x00 x00)
(L (W xff xff xff xff xff xff xff xff)) E)
(T (W x21 x00 x00 x00 x24 x00 x00 x00)
(L (W x00 x00 x00 x00 x00 x00 x00 x00)) E))))))
(T (W x45 x26 x22 x84 xe4 x9c xf2 xcb)
(T (W x00 x00 x80 x3f x00 x00 x80 x3f)
(T (W xff xff xff xff xff xff xff xff)
(T (W xb8 x00 x00 x00 xac x00 x00 x00)
(T (W x00 x00 x00 x00 x00 x00 x00 x00)
(T (W xff xff xff xff x9c x00 x00 x00)
(L (W x00 x00 x80 xbf x00 x00 x80 xbf))
(L (W x49 xa1 x68 x4a xeb x5f xdd x3d)))
(T (W x00 x00 x80 x3f x00 x00 x80 x3f)
(L (W xc5 x01 x00 x00 xff xff xff xff)) E))
(T (W x00 x00 x00 x00 x00 x00 x00 x00)
(T (W xff xff xff xff xff xff xff xff)
(L (W x6c x00 x00 x00 x60 x00 x00 x00)) E)
(T (W xff xff xff xff xff xff xff xff)
(L (W x00 x00 x00 x00 x00 x00 x00 x00)) E)))
(T (W x00 x00 x80 x3f x00 x00 x80 x3f)
(T (W x54 x00 x00 x00 x48 x00 x00 x00)
(T (W xff xff xff xff xff xff xff xff)
(L (W xff xff xff xff xa0 x00 x00 x00))
(L (W xff xff xff xff xff xff xff xff)))
(T (W x00 x00 x80 x3f x00 x00 x80 x3f)
(L (W xa2 xc2 xfe xff x78 x00 x00 x00)) E))
(T (W xa2 x42 xfb xff x78 x00 x00 x00)
(T (W xff xff xff xff xc4 x00 x00 x00)
(L (W x45 x26 x22 x84 xe4 x9c xf2 xcb)) E)
(T (W x5d x00 x00 x00 xff xff xff xff)
(L (W xff xff xff xff xff xff xff xff)) E))))
(T (W xb8 x00 x00 x00 xac x00 x00 x00)
(T (W x00 x00 x80 x3f x00 x00 x80 x3f)
(T (W xc4 xa5 xfa xff x00 x01 x01 x01)
(T (W xff xff xff xff xff xff xff xff)
(L (W x00 x00 x00 x00 x00 x00 x00 x00))
(L (W x45 x26 x22 x84 xe4 x9c xf2 xcb)))
(T (W x18 x00 x00 x00 x0c x00 x00 x00)
(L (W x00 x00 x80 xbf x00 x00 x80 xbf)) E))
(T (W x24 x00 x00 x00 xb0 x00 x00 x00)
(T (W x00 x00 x00 x00 x00 x00 x00 x00)
(L (W xff xff xff xff xff xff xff xff)) E)
(T (W x00 x00 x00 x00 x00 x00 x00 x00)
(L (W x00 x00 x80 xbf x00 x00 x80 xbf)) E)))
(T (W x00 x00 x00 x00 x00 x00 x00 x00)
(T (W x45 x26 x22 x84 xe4 x9c xf2 xcb)
(T (W x4f x84 x6f x8b xe8 xcb x63 xb7)
(L (W xff xff xff xff xff xff xff xff))
(L (W x00 x00 x00 x00 x00 x00 x00 x00)))
(T (W xff xff xff xff xff xff xff xff)
(L (W xff xff xff xff xff xff xff xff)) E))
(T (W xff xff xff xff xff xff xff xff)
(T (W xff xff xff xff xff xff xff xff)
(L (W x45 x26 x22 x84 xe4 x9c xf2 xcb)) E)
(T (W x00 x00 x80 xbf x00 x00 x80 xbf)
(L (W x4a x00 x00 x00 xff xff xff xff)) E)))))
(T (W xc4 xb5 xf9 xff x00 x01 x01 x01)
(T (W xff xff xff xff xff xff xff xff)
(T (W xff xff xff xff xff xff xff xff)
(T (W x5a xa5 xfd xff x00 x00 x01 x01)
(T (W x00 x00 x00 x00 x00 x00 x00 x00)
(L (W x68 x00 x00 x00 x5c x00 x00 x00))
(L (W xc4 x95 xff xff x00 x01 x01 x01)))
(T (W x00 x00 x00 x00 x00 x00 x00 x00)
(L (W x00 x00 x00 x00 x00 x00 x00 x00)) E))
(T (W xff xff xff xff xff xff xff xff)
(T (W x5a x25 xff xff x00 x00 x01 x01)
(L (W x03 x00 x00 x00 xd8 x00 x00 x00)) E)
(T (W x00 x00 x00 x00 x00 x00 x00 x00)
(L (W x00 x00 x80 xbf x00 x00 x80 xbf)) E)))
(T (W x00 x00 x00 x00 x00 x00 x00 x00)
(T (W x45 x26 x22 x84 xe4 x9c xf2 xcb)
(T (W x30 x32 x5f x43 x4c x45 x41 x52)
(L (W xff xff xff xff xff xff xff xff))
(L (W x00 x00 x00 x00 x00 x00 x00 x00)))
(T (W x00 x00 x00 x00 x1b x00 x00 x00)
(L (W xff xff xff xff xc8 x00 x00 x00)) E))
(T (W x46 x53 x59 x53 x5f x4e x53 x5f)
(T (W xff xff xff xff xff xff xff xff)
(L (W x00 x00 x80 xbf x00 x00 x80 xbf)) E)
(T (W x4f x84 x6f x8b xe8 xcb x63 xb7)
(L (W x00 x00 x00 x00 x22 x58 xff xff)) E))))
(T (W xff xff xff xff xff xff xff xff)
(T (W x45 x26 x22 x84 xe4 x9c xf2 xcb)
(T (W x18 x00 x00 x00 x0c x00 x00 x00)
(T (W x00 x00 x80 x3f x00 x00 x80 x3f)
(L (W xff xff xff xff x0c x00 x00 x00))
(L (W xff xff xff xff xc0 x00 x00 x00)))
(T (W x45 x26 x22 x84 xe4 x9c xf2 xcb)
(L (W x00 x00 x80 xbf x00 x00 x80 xbf)) E))
(T (W xdc x05 x00 x00 xb4 x04 x00 x00)
(T (W x00 x00 x80 x3f x00 x00 x80 x3f)
(L (W x00 x00 x00 x00 xb2 x39 xfe xff)) E)
(T (W x50 x00 x00 x00 x44 x00 x00 x00)
(L (W x00 x00 x80 xbf x00 x00 x80 xbf)) E)))
(T (W x00 x00 x00 x00 x00 x00 x00 x00)
(T (W x40 x00 x00 x00 x9c x00 x00 x00)
(T (W x00 x00 x80 x3f x00 x00 x80 x3f)
(L (W x00 x00 x80 xbf x00 x00 x80 xbf))
(L (W x00 x00 x80 xbf x00 x00 x80 xbf)))
(T (W x52 xfb xff xff x00 x00 x01 x01)
(L (W x00 x00 x00 x00 x92 xf3 xfe xff)) E))
(T (W x45 x26 x22 x84 xe4 x9c xf2 xcb)
(T (W x00 x00 x80 x3f x00 x00 x80 x3f)
(L (W xff xff xff xff xff xff xff xff)) E)
(T (W x00 x00 x00 x00 x34 x74 xfd xff)
(L (W x00 x00 x00 x00 x00 x00 x00 x00)) E))))))))
(T (W xdc x1c x00 x00 xc0 x1b x00 x00)
(T (W xff xff xff xff x04 x00 x00 x00)
(T (W x00 x00 x80 x3f x00 x00 x80 x3f)
(T (W xff xff xff xff xff xff xff xff)
(T (W x00 x00 x00 x00 xe2 x54 xfd xff)
(T (W x00 x00 x80 x3f x00 x00 x80 x3f)
(T (W xff xff xff xff xff xff xff xff)
(T (W x00 x00 x00 x00 x12 x00 x00 x00)
(L (W x00 x00 x00 x00 x00 x00 x00 x00))
(L (W x00 x00 x00 x00 x00 x00 x00 x00)))
(T (W x00 x00 x00 x00 x00 x00 x00 x00)
(L (W x19 x00 x00 x00 x1c x00 x00 x00)) E))
(T (W x18 x00 x00 x00 x10 x00 x00 x00)
(T (W x00 x00 x80 x3f x00 x00 x80 x3f)
(L (W x4c x09 xfe xff x15 x00 x00 x00))
(L (W x00 x00 x00 x00 x00 x00 x00 x00)))
(T (W x00 x00 x00 x00 x00 x00 x00 x00)
(L (W xff xff xff xff xff xff xff xff)) E)))
(T (W x00 x00 x00 x00 x00 x00 x00 x00)
(T (W x00 x00 x00 x00 x00 x00 x00 x00)
(T (W x00 x00 x80 x3f x00 x00 x80 x3f)
(L (W x00 x00 x80 xbf x00 x00 x80 xbf))
(L (W x00 x00 x80 xbf x00 x00 x80 xbf)))
(T (W x00 x00 x00 x00 x00 x00 x00 x00)
(L (W x00 x00 x00 x00 x00 x00 x00 x00)) E))
(T (W xff xff xff xff xff xff xff xff)
(T (W x00 x00 x80 x3f x00 x00 x80 x3f)
(L (W xff xff xff xff xff xff xff xff)) E)
(T (W x00 x00 x80 xbf x00 x00 x80 xbf)
(L (W x00 x00 x00 x00 x00 x00 x00 x00)) E))))
(T (W x45 x26 x22 x84 xe4 x9c xf2 xcb)
(T (W xff xff xff xff xff xff xff xff)
(T (W x00 x00 x80 x3f x00 x00 x80 x3f)
(T (W xf4 x9f xfb xff x11 x00 x00 x00)
(L (W x00 x00 x80 xbf x00 x00 x80 xbf))
(L (W x00 x00 x80 xbf x00 x00 x80 xbf)))
(T (W xff xff xff xff xff xff xff xff)
(L (W xff xff xff xff xff xff xff xff)) E))
(T (W xf4 x1f xfb xff x15 x00 x00 x00)
(T (W xff xff xff xff xff xff xff xff)
(L (W x54 x00 x00 x00 x48 x00 x00 x00)) E)
(T (W x00 x00 x80 xbf x00 x00 x80 xbf)
(L (W x00 x00 x00 x00 x12 x00 x00 x00)) E)))
(T (W x5a x6b xfd xff x00 x00 x01 x01)
(T (W x00 x00 x00 x00 x00 x00 x00 x00)
(T (W x5a xeb xfe xff x00 x00 x01 x01)
(L (W x6c x00 x00 x00 x60 x00 x00 x00))
(L (W xff xff xff xff xff xff xff xff)))
(T (W x00 x00 x00 x00 xd2 xd7 xfc xff)
(L (W x00 x00 x80 xbf x00 x00 x80 xbf)) E))
(T (W x00 x00 x00 x00 x00 x00 x00 x00)
(T (W xa2 x58 xfc xff x78 x00 x00 x00)
(L (W x00 x00 x00 x00 x00 x00 x00 x00)) E)
(T (W x00 x00 x00 x00 x00 x00 x00 x00)
(L (W x18 x00 x00 x00 x0c x00 x00 x00)) E)))))
(T (W xff xff xff xff xff xff xff xff)
(T (W x00 x00 x00 x00 x00 x00 x00 x00)
(T (W x00 x00 x80 x3f x00 x00 x80 x3f)
(T (W xb8 x00 x00 x00 xac x00 x00 x00)
(T (W xc4 x8b xfb xff x00 x01 x01 x01)
(L (W x00 x00 x00 x00 x00 x00 x00 x00))
(L (W x00 x00 x00 x00 x00 x00 x00 x00)))
(T (W xf4 x8f xfc xff x15 x00 x00 x00)
(L (W xff xff xff xff xff xff xff xff)) E))
(T (W x49 xa1 x68 x4a xeb x5f xdd x3d)
(T (W x68 x00 x00 x00 x5c x00 x00 x00)
(L (W x00 x00 x00 x00 x00 x00 x00 x00)) E)
(T (W x00 x00 x00 x00 x01 x00 x00 x00)
(L (W x00 x00 x00 x00 x22 x0e xff xff)) E)))
(T (W x01 x00 x00 x00 x04 x00 x00 x00)
(T (W x00 x00 x00 x00 x00 x00 x00 x00)
(T (W x45 x26 x22 x84 xe4 x9c xf2 xcb)
(L (W x00 x00 x80 xbf x00 x00 x80 xbf))
(L (W x03 x00 x00 x00 xd8 x00 x00 x00)))
(T (W x5f x53 x50 x41 x57 x4e x5f x53)
(L (W x00 x00 x80 xbf x00 x00 x80 xbf)) E))
(T (W x18 x00 x00 x00 x0c x00 x00 x00)
(T (W x00 x00 x80 x3f x00 x00 x80 x3f)
(L (W x2e x00 x00 x00 xff xff xff xff)) E)
(T (W xff xff xff xff xb0 x00 x00 x00)
(L (W x00 x00 x80 xbf x00 x00 x80 xbf)) E))))
(T (W xf2 xe6 xf9 xff x74 x00 x00 x00)
(T (W x00 x00 x00 x00 x00 x00 x00 x00)
(T (W x45 x26 x22 x84 xe4 x9c xf2 xcb)
(T (W xff xff xff xff xbc x00 x00 x00)
(L (W x00 x00 x80 xbf x00 x00 x80 xbf))
(L (W x00 x00 x80 xbf x00 x00 x80 xbf)))
(T (W x00 x00 x00 x00 x00 x00 x00 x00)
(L (W xff xff xff xff xff xff xff xff)) E))
(T (W x00 x00 x80 x3f x00 x00 x80 x3f)
(T (W x4a x00 x00 x00 xff xff xff xff)
(L (W xff xff xff xff xa0 x00 x00 x00)) E)
(T (W x00 x00 x00 x00 x00 x00 x00 x00)
(L (W x30 x32 x5f x43 x4c x45 x41 x52)) E)))
(T (W x20 x01 x00 x00 x04 x00 x00 x00)
(T (W x20 x00 x00 x00 x10 x00 x00 x00)
(T (W x00 x00 x00 x00 x00 x00 x00 x00)
(L (W xff xff xff xff xff xff xff xff))
(L (W xff xff xff xff xff xff xff xff)))
(T (W x1b x00 x00 x00 x67 x72 x6f x75)
(L (W x00 x00 x00 x00 x34 xea xfe xff)) E))
(T (W xb8 x00 x00 x00 x14 x00 x00 x00)
(T (W x45 x26 x22 x84 xe4 x9c xf2 xcb)
(L (W x00 x00 x80 xbf x00 x00 x80 xbf)) E)
(T (W x45 x26 x22 x84 xe4 x9c xf2 xcb)
(L (W xff xff xff xff xff xff xff xff)) E))))))
(T (W x00 x00 x00 x00 x00 x00 x00 x00)
(T (W x45 x26 x22 x84 xe4 x9c xf2 xcb)
(T (W x00 x00 x00 x00 x34 xc2 xf9 xff)
(T (W x00 x00 x80 x3f x00 x00 x80 x3f)
(T (W xff xff xff xff xff xff xff xff)
(T (W x50 x00 x00 x00 x44 x00 x00 x00)
(L (W x45 x26 x22 x84 xe4 x9c xf2 xcb))
(L (W x30 x32 x5f x43 x4c x45 x41 x52)))
(T (W x00 x00 x00 x00 x00 x00 x00 x00)
(L (W xff xff xff xff xff xff xff xff)) E))
(T (W x2c x01 x00 x00 x04 x00 x00 x00)
(T (W x00 x00 x80 x3f x00 x00 x80 x3f)
(L (W x49 xa1 x68 x4a xeb x5f xdd x3d))
(L (W x00 x00 x00 x00 x12 x00 x00 x00)))
(T (W x00 x00 x00 x00 x00 x00 x00 x00)
(L (W xff xff xff xff xff xff xff xff)) E)))
(T (W x4c x51 xfa xff x07 x00 x00 x00)
(T (W x00 x00 x00 x00 x00 x00 x00 x00)
(T (W xf2 xbe xfb xff x74 x00 x00 x00)
(L (W x00 x00 x00 x00 x00 x00 x00 x00))
(L (W xa2 xc0 xff xff x78 x00 x00 x00)))
(T (W x00 x00 x00 x00 x00 x00 x00 x00)
(L (W x00 x00 x00 x00 x00 x00 x00 x00)) E))
(T (W x22 x00 x00 x00 x67 x72 x6f x75)
(T (W x00 x00 x80 x3f x00 x00 x80 x3f)
(L (W x04 x00 x00 x00 xb2 x47 xfe xff)) E)
(T (W xf2 x3e xfd xff x74 x00 x00 x00)
(L (W x00 x00 x80 xbf x00 x00 x80 xbf)) E))))
(T (W x00 x00 x80 x3f x00 x00 x80 x3f)
(T (W x00 x00 x00 x00 x00 x00 x00 x00)
(T (W x00 x00 x80 x3f x00 x00 x80 x3f)
(T (W x00 x00 x80 x3f x00 x00 x80 x3f)
(L (W xff xff xff xff xff xff xff xff))
(L (W xff xff xff xff xff xff xff xff)))
(T (W x00 x00 x80 x3f x00 x00 x80 x3f)
(L (W xff xff xff xff xff xff xff xff)) E))
(T (W x00 x00 x80 x3f x00 x00 x80 x3f)
(T (W xff xff xff xff xff xff xff xff)
(L (W x45 x26 x22 x84 xe4 x9c xf2 xcb)) E)
(T (W x00 x00 x01 x01 xc7 x01 x00 x00)
(L (W x00 x00 x00 x00 x00 x00 x00 x00)) E)))
(T (W x00 x00 x00 x00 x00 x00 x00 x00)
(T (W x00 x00 x00 x00 x00 x00 x00 x00)
(T (W x00 x00 x00 x00 x00 x00 x00 x00)
(L (W xff xff xff xff xa0 x00 x00 x00))
(L (W xff xff xff xff xff xff xff xff)))
(T (W x00 x00 x00 x00 x00 x00 x00 x00)
(L (W x18 x00 x00 x00 x0c x00 x00 x00)) E))
(T (W xa2 x60 xfb xff x78 x00 x00 x00)
(T (W x64 x00 x00 x00 x9c x00 x00 x00)
(L (W x00 x00 x80 xbf x00 x00 x80 xbf)) E)
(T (W x00 x00 x00 x00 x00 x00 x00 x00)
(L (W xff xff xff xff xc8 x00 x00 x00)) E)))))
(T (W x00 x00 x80 x3f x00 x00 x80 x3f)
(T (W xff xff xff xff xff xff xff xff)
(T (W x18 x00 x00 x00 x10 x00 x00 x00)
(T (W x45 x26 x22 x84 xe4 x9c xf2 xcb)
(T (W xff xff xff xff xff xff xff xff)
(L (W x00 x00 x00 x00 x00 x00 x00 x00))
(L (W x00 x00 x80 xbf x00 x00 x80 xbf)))
(T (W xff xff xff xff xff xff xff xff)
(L (W xff xff xff xff xff xff xff xff)) E))
(T (W x00 x00 x80 x3f x00 x00 x80 x3f)
(T (W xff xff xff xff xff xff xff xff)
(L (W x00 x00 x80 xbf x00 x00 x80 xbf)) E)
(T (W xff xff xff xff xff xff xff xff)
(L (W x94 x0b x00 x00 x78 x0a x00 x00)) E)))
(T (W xff xff xff xff xff xff xff xff)
(T (W x00 x00 x00 x00 x00 x00 x00 x00)
(T (W xff xff xff xff xff xff xff xff)
(L (W x6c x00 x00 x00 x60 x00 x00 x00))
(L (W x18 x00 x00 x00 x10 x00 x00 x00)))
(T (W xff xff xff xff xff xff xff xff)
(L (W x54 x00 x00 x00 x48 x00 x00 x00)) E))
(T (W xff xff xff xff xff xff xff xff)
(T (W x18 x00 x00 x00 x10 x00 x00 x00)
(L (W x00 x00 x00 x00 x00 x00 x00 x00)) E)
(T (W xff xff xff xff xff xff xff xff)
(L (W xf2 x4e xff xff x74 x00 x00 x00)) E))))
(T (W x45 x26 x22 x84 xe4 x9c xf2 xcb)
(T (W x00 x00 x00 x00 x00 x00 x00 x00)
(T (W x00 x00 x80 x3f x00 x00 x80 x3f)
(T (W x00 x00 x00 x00 x04 x00 x00 x00)
(L (W xff xff xff xff xff xff xff xff))
(L (W x6c x00 x00 x00 x60 x00 x00 x00)))
(T (W x00 x00 x80 x3f x00 x00 x80 x3f)
(L (W x00 x00 x00 x00 xd2 xaf xfe xff)) E))
(T (W xcc x00 x00 x00 xc0 x00 x00 x00)
(T (W x00 x00 x00 x00 x00 x00 x00 x00)
(L (W xff xff xff xff xff xff xff xff)) E)
(T (W x00 x00 x00 x00 x00 x00 x00 x00)
(L (W x00 x00 x00 x00 x00 x00 x00 x00)) E)))
(T (W xff xff xff xff xff xff xff xff)
(T (W x00 x00 x62 x00 x70 x00 x04 x00)
(T (W x00 x00 x00 x00 x00 x00 x00 x00)
(L (W x30 x32 x5f x43 x4c x45 x41 x52))
(L (W x46 x53 x59 x53 x5f x4e x53 x5f)))
(T (W x45 x26 x22 x84 xe4 x9c xf2 xcb)
(L (W xff xff xff xff xff xff xff xff)) E))
(T (W x6b x65 x5f x77 x61 x72 x6c x69)
(T (W x00 x00 x00 x00 x00 x00 x00 x00)
(L (W x18 x00 x00 x00 x10 x00 x00 x00)) E)
(T (W x00 x01 x01 x01 xba x01 x00 x00)
(L (W x5c x00 x00 x00 xff xff xff xff)) E)))))))
(T (W x00 x00 x00 x00 x00 x00 x00 x00)
(T (W xff xff xff xff xff xff xff xff)
(T (W x00 x00 x01 x01 xc9 x00 x00 x00)
(T (W x45 x26 x22 x84 xe4 x9c xf2 xcb)
(T (W x1a x8f x4a xf0 x55 x15 xb6 xde)
(T (W x00 x00 x80 x3f x00 x00 x80 x3f)
(T (W xff xff xff xff xff xff xff xff)
(L (W xff xff xff xff xff xff xff xff))
(L (W x00 x00 x80 xbf x00 x00 x80 xbf)))
(T (W xb8 x00 x00 x00 xac x00 x00 x00)
(L (W x00 x00 x00 x00 x00 x00 x00 x00)) E))
(T (W x00 x00 x80 x3f x00 x00 x80 x3f)
(T (W xff xff xff xff xff xff xff xff)
(L (W x18 x00 x00 x00 x10 x00 x00 x00))
(L (W xff xff xff xff xff xff xff xff)))
(T (W x00 x00 x00 x00 x00 x00 x00 x00)
(L (W x00 x00 x00 x00 x00 x00 x00 x00)) E)))
(T (W x40 x00 x00 x00 x9c x00 x00 x00)
(T (W xff xff xff xff xff xff xff xff)
(T (W x61 x72 x6c x69 x6b x65 x5f x6c)
(L (W xf2 xba xfd xff x74 x00 x00 x00))
(L (W x00 x00 x00 x00 x00 x00 x00 x00)))
(T (W x18 x00 x00 x00 x10 x00 x00 x00)
(L (W x18 x00 x00 x00 x10 x00 x00 x00)) E))
(T (W x68 x00 x00 x00 x5c x00 x00 x00)
(T (W xff xff xff xff xff xff xff xff)
(L (W x00 x00 x80 xbf x00 x00 x80 xbf)) E)
(T (W x02 x00 x00 x00 x30 x01 x00 x00)
(L (W xff xff xff xff xff xff xff xff)) E))))
(T (W xff xff xff xff xff xff xff xff)
(T (W x45 x26 x22 x84 xe4 x9c xf2 xcb)
(T (W xff xff xff xff xff xff xff xff)
(T (W xff xff xff xff xff xff xff xff)
(L (W xff xff xff xff xff xff xff xff))
(L (W x45 x44 x00 x00 x00 x00 x00 x00)))
(T (W x50 x00 x00 x00 x44 x00 x00 x00)
(L (W x00 x00 x80 xbf x00 x00 x80 xbf)) E))
(T (W xff xff xff xff xff xff xff xff)
(T (W x00 x00 x80 x3f x00 x00 x80 x3f)
(L (W x46 x53 x59 x53 x5f x4e x53 x5f)) E)
(T (W x00 x00 x00 x00 xc8 x1f xfd xff)
(L (W x45 x26 x22 x84 xe4 x9c xf2 xcb)) E)))
(T (W x00 x00 x80 x3f x00 x00 x80 x3f)
(T (W xf2 xda xfa xff x74 x00 x00 x00)
(T (W x18 x00 x00 x00 x10 x00 x00 x00)
(L (W x00 x00 x00 x00 x00 x00 x00 x00))
(L (W x45 x26 x22 x84 xe4 x9c xf2 xcb)))
(T (W x45 x26 x22 x84 xe4 x9c xf2 xcb)
(L (W x00 x00 x00 x00 x00 x00 x00 x00)) E))
(T (W xff xff xff xff xff xff xff xff)
(T (W x45 x26 x22 x84 xe4 x9c xf2 xcb)
(L (W xff xff xff xff xff xff xff xff)) E)
(T (W x21 x00 x00 x00 x24 x00 x00 x00)
(L (W x45 x26 x22 x84 xe4 x9c xf2 xcb)) E)))))
(T (W x00 x00 x00 x00 x00 x00 x00 x00)
(T (W x00 x00 x80 x3f x00 x00 x80 x3f)
(T (W x5a x1f xfd xff x00 x00 x01 x01)
(T (W x00 x00 x00 x00 x00 x00 x00 x00)
(T (W x70 x5f x6c x65 x61 x64 x65 x72)
(L (W x03 x00 x00 x00 xcc x00 x00 x00))
(L (W xff xff xff xff xc4 x00 x00 x00)))
(T (W x00 x00 x80 x3f x00 x00 x80 x3f)
(L (W x00 x00 x80 xbf x00 x00 x80 xbf)) E))
(T (W xff xff xff xff xff xff xff xff)
(T (W x30 x32 x5f x43 x4c x45 x41 x52)
(L (W xff xff xff xff xff xff xff xff)) E)
(T (W x03 x00 x00 x00 xbc x00 x00 x00)
(L (W x00 x00 x80 xbf x00 x00 x80 xbf)) E)))
(T (W x68 x00 x00 x00 x5c x00 x00 x00)
(T (W x18 x00 x00 x00 x10 x00 x00 x00)
(T (W x00 x00 x80 x3f x00 x00 x80 x3f)
(L (W xff xff xff xff xff xff xff xff))
(L (W x00 x00 x00 x00 x00 x00 x00 x00)))
(T (W x14 x00 x18 x00 x00 x00 x00 x00)
(L (W xff xff xff xff xff xff xff xff)) E))
(T (W x00 x00 x00 x00 x00 x00 x00 x00)
(T (W x00 x00 x00 x00 x00 x00 x00 x00)
(L (W x18 x00 x00 x00 x0c x00 x00 x00)) E)
(T (W x00 x00 x00 x00 x00 x00 x00 x00)
(L (W x00 x00 x00 x00 x00 x00 x00 x00)) E))))
(T (W x01 x00 x00 x00 x04 x00 x00 x00)
(T (W xff xff xff xff x04 x00 x00 x00)
(T (W xb8 x00 x00 x00 xac x00 x00 x00)
(T (W x00 x00 x80 x3f x00 x00 x80 x3f)
(L (W x45 x26 x22 x84 xe4 x9c xf2 xcb))
(L (W xff xff xff xff xff xff xff xff)))
(T (W xff xff xff xff xff xff xff xff)
(L (W x00 x00 x00 x00 x34 xae xfe xff)) E))
(T (W x00 x00 x00 x00 x00 x00 x00 x00)
(T (W x18 x00 x00 x00 x0c x00 x00 x00)
(L (W x00 x00 x80 xbf x00 x00 x80 xbf)) E)
(T (W x18 x00 x00 x00 x0c x00 x00 x00)
(L (W x03 x00 x00 x00 xd0 x00 x00 x00)) E)))
(T (W x45 x26 x22 x84 xe4 x9c xf2 xcb)
(T (W x00 x00 x80 x3f x00 x00 x80 x3f)
(T (W x18 x00 x00 x00 x10 x00 x00 x00)
(L (W x00 x00 x80 xbf x00 x00 x80 xbf))
(L (W x00 x00 x80 xbf x00 x00 x80 xbf)))
(T (W x45 x26 x22 x84 xe4 x9c xf2 xcb)
(L (W x4f x84 x6f x8b xe8 xcb x63 xb7)) E))
(T (W x00 x00 x00 x00 x00 x00 x00 x00)
(T (W xff xff xff xff xff xff xff xff)
(L (W x00 x00 x00 x00 x00 x00 x00 x00)) E)
(T (W xff xff xff xff xff xff xff xff)
(L (W x45 x26 x22 x84 xe4 x9c xf2 xcb)) E))))))
(T (W x00 x00 x80 x3f x00 x00 x80 x3f)
(T (W xa2 xa4 xf9 xff x78 x00 x00 x00)
(T (W xff xff xff xff xff xff xff xff)
(T (W xc4 x01 x00 x00 xff xff xff xff)
(T (W x00 x00 x80 x3f x00 x00 x80 x3f)
(T (W xff xff xff xff xff xff xff xff)
(L (W x18 x00 x00 x00 x0c x00 x00 x00))
(L (W xcc x00 x00 x00 x01 x00 x00 x00)))
(T (W x01 x00 x00 x00 x9c x00 x00 x00)
(L (W x49 xa1 x68 x4a xeb x5f xdd x3d)) E))
(T (W xff xff xff xff xc8 x00 x00 x00)
(T (W x00 x00 x00 x00 x00 x00 x00 x00)
(L (W x03 x00 x00 x00 xd8 x00 x00 x00)) E)
(T (W x00 x00 x00 x00 x00 x00 x00 x00)
(L (W x00 x00 x80 xbf x00 x00 x80 xbf)) E)))
(T (W x01 x00 x00 x00 x3e x00 x00 x00)
(T (W xff xff xff xff xff xff xff xff)
(T (W x00 x00 x00 x00 x00 x00 x00 x00)
(L (W xff xff xff xff xff xff xff xff))
(L (W x00 x00 x00 x00 x12 x00 x00 x00)))
(T (W x45 x26 x22 x84 xe4 x9c xf2 xcb)
(L (W xff xff xff xff xff xff xff xff)) E))
(T (W xff xff xff xff xff xff xff xff)
(T (W xff xff xff xff xff xff xff xff)
(L (W x00 x00 x80 xbf x00 x00 x80 xbf)) E)
(T (W x00 x00 x00 x00 x00 x00 x00 x00)
(L (W x00 x00 x00 x00 x00 x00 x00 x00)) E))))
(T (W xd4 xfe xc4 x1b x64 xdc x14 xc6)
(T (W xb8 x00 x00 x00 xac x00 x00 x00)
(T (W xff xff xff xff xff xff xff xff)
(T (W x5f x77 x69 x6c x64 x5f x70 x6f)
(L (W x00 x00 x00 x00 x00 x00 x00 x00))
(L (W x45 x26 x22 x84 xe4 x9c xf2 xcb)))
(T (W xff xff xff xff xff xff xff xff)
(L (W xa2 xa4 xfe xff x78 x00 x00 x00)) E))
(T (W xff xff xff xff xff xff xff xff)
(T (W x00 x00 x80 x3f x00 x00 x80 x3f)
(L (W x00 x00 x00 x00 x00 x00 x00 x00)) E)
(T (W x50 x00 x00 x00 x44 x00 x00 x00)
(L (W x18 x00 x00 x00 x10 x00 x00 x00)) E)))
(T (W x00 x00 x80 x3f x00 x00 x80 x3f)
(T (W x00 x00 x80 x3f x00 x00 x80 x3f)
(T (W x2c x00 x00 x00 xb0 x00 x00 x00)
(L (W x46 x53 x59 x53 x5f x4e x53 x5f))
(L (W x00 x00 x80 xbf x00 x00 x80 xbf)))
(T (W x4f x84 x6f x8b xe8 xcb x63 xb7)
(L (W x00 x00 x00 x00 x00 x00 x00 x00)) E))
(T (W x00 x00 x00 x00 x00 x00 x00 x00)
(T (W xa2 x64 xfc xff x78 x00 x00 x00)
(L (W x00 x00 x00 x00 x00 x00 x00 x00)) E)
(T (W xff xff xff xff xff xff xff xff)
(L (W x00 x00 x80 xbf x00 x00 x80 xbf)) E)))))
(T (W xff xff xff xff x03 x00 x00 x00)
(T (W x00 x00 x00 x00 x00 x00 x00 x00)
(T (W x00 x00 x00 x00 x00 x00 x00 x00)
(T (W x45 x26 x22 x84 xe4 x9c xf2 xcb)
(T (W x00 x00 x80 x3f x00 x00 x80 x3f)
(L (W xff xff xff xff xff xff xff xff))
(L (W x00 x00 x01 x01 x2a x00 x00 x00)))
(T (W x00 x00 x80 x3f x00 x00 x80 x3f)
(L (W x00 x00 x80 xbf x00 x00 x80 xbf)) E))
(T (W xc4 x17 xfb xff x00 x01 x01 x01)
(T (W x00 x00 x00 x00 x00 x00 x00 x00)
(L (W x00 x00 x01 x01 x5c x00 x00 x00)) E)
(T (W x00 x00 x80 xbf x00 x00 x80 xbf)
(L (W xff xff xff xff xa0 x00 x00 x00)) E)))
(T (W xa2 x54 xfa xff x78 x00 x00 x00)
(T (W x01 x00 x00 x00 xa0 x00 x00 x00)
(T (W x4f x84 x6f x8b xe8 xcb x63 xb7)
(L (W x00 x00 x00 x00 x00 x00 x00 x00))
(L (W x00 x00 x00 x00 x00 x00 x00 x00)))
(T (W x6c x00 x00 x00 x60 x00 x00 x00)
(L (W x00 x00 x00 x00 x22 xda xfe xff)) E))
(T (W x45 x26 x22 x84 xe4 x9c xf2 xcb)
(T (W x00 x00 x00 x00 x00 x00 x00 x00)
(L (W xff xff xff xff xff xff xff xff)) E)
(T (W x54 x00 x00 x00 x48 x00 x00 x00)
(L (W x00 x00 x00 x00 x00 x00 x00 x00)) E))))
(T (W xc7 x01 x00 x00 xff xff xff xff)
(T (W x18 x00 x00 x00 x0c x00 x00 x00)
(T (W xff xff xff xff xff xff xff xff)
(T (W x18 x00 x00 x00 x10 x00 x00 x00)
(L (W x00 x00 x00 x00 x00 x00 x00 x00))
(L (W xff xff xff xff xff xff xff xff)))
(T (W xff xff xff xff xff xff xff xff)
(L (W x45 x26 x22 x84 xe4 x9c xf2 xcb)) E))
(T (W x00 x00 x80 x3f x00 x00 x80 x3f)
(T (W xff xff xff xff xff xff xff xff)
(L (W x45 x26 x22 x84 xe4 x9c xf2 xcb)) E)
(T (W xff xff xff xff xff xff xff xff)
(L (W xff xff xff xff xff xff xff xff)) E)))
(T (W x00 x00 x80 x3f x00 x00 x80 x3f)
(T (W xff xff xff xff xff xff xff xff)
(T (W xff xff xff xff xff xff xff xff)
(L (W xc4 xf7 xfd xff x00 x01 x01 x01))
(L (W x45 x26 x22 x84 xe4 x9c xf2 xcb)))
(T (W x00 x00 x00 x00 x00 x00 x00 x00)
(L (W x00 x00 x00 x00 x00 x00 x00 x00)) E))
(T (W x00 x00 x80 x3f x00 x00 x80 x3f)
(T (W xff xff xff xff xff xff xff xff)
(L (W x00 x00 x00 x00 x00 x00 x00 x00)) E)
(T (W xff xff xff xff xff xff xff xff)
(L (W x00 x00 x80 xbf x00 x00 x80 xbf)) E)))))))))
(T (W xb8 x7a x02 x00 xac x73 x02 x00)
(T (W x90 xd1 x00 x00 x44 xcf x00 x00)
(T (W x18 x00 x00 x00 x0c x00 x00 x00)
(T (W x00 x00 x80 x3f x00 x00 x80 x3f)
(T (W xbc x00 x00 x00 xb0 x00 x00 x00)
(T (W x0f x00 x00 x00 xff xff xff xff)
(T (W x45 x26 x22 x84 xe4 x9c xf2 xcb)
(T (W xb8 x00 x00 x00 xac x00 x00 x00)
(T (W x00 x00 x00 x00 x00 x00 x00 x00)
(L (W x00 x00 x00 x00 x00 x00 x00 x00))
(L (W x5d x00 x00 x00 xff xff xff xff)))
(T (W x00 x00 x00 x00 x00 x00 x00 x00)
(L (W x00 x00 x00 x00 x34 x79 xfe xff)) E))
(T (W x00 x00 x00 x00 x00 x00 x00 x00)
(T (W x00 x00 x00 x00 x00 x00 x00 x00)
(L (W xff xff xff xff xff xff xff xff))
(L (W x8f x01 x00 x00 xff xff xff xff)))
(T (W x00 x00 x00 x00 x00 x00 x64 x00)
(L (W xc4 x00 x00 x00 x01 x00 x00 x00)) E)))
(T (W x01 x00 x00 x00 x04 x00 x00 x00)
(T (W x00 x00 x00 x00 x00 x00 x00 x00)
(T (W x00 x00 x00 x00 x00 x00 x00 x00)
(L (W x45 x26 x22 x84 xe4 x9c xf2 xcb))
(L (W x00 x00 x80 xbf x00 x00 x80 xbf)))
(T (W x00 x00 x00 x00 x00 x00 x00 x00)
(L (W x00 x00 x00 x00 x22 xbd xfe xff)) E))
(T (W xff xff xff xff x03 x00 x00 x00)
(T (W x00 x00 x00 x00 x00 x00 x00 x00)
(L (W xc4 x00 x00 x00 x01 x00 x00 x00)) E)
(T (W x00 x00 x00 x00 x00 x00 x00 x00)
(L (W x00 x00 x00 x00 x00 x00 x00 x00)) E))))
(T (W x00 x00 x00 x00 x00 x00 x00 x00)
(T (W xc4 x1a xfa xff x00 x01 x01 x01)
(T (W x00 x00 x62 x00 x78 x00 x04 x00)
(T (W xff xff xff xff xff xff xff xff)
(L (W x00 x00 x00 x00 x00 x00 x00 x00))
(L (W x00 x00 x80 xbf x00 x00 x80 xbf)))
(T (W xb8 x00 x00 x00 xac x00 x00 x00)
(L (W xff xff xff xff xff xff xff xff)) E))
(T (W xff xff xff xff xff xff xff xff)
(T (W xd4 x00 x00 x00 xc8 x00 x00 x00)
(L (W x00 x00 x80 xbf x00 x00 x80 xbf)) E)
(T (W x45 x26 x22 x84 xe4 x9c xf2 xcb)
(L (W x00 x00 x00 x00 xb2 x1e xff xff)) E)))
(T (W xff xff xff xff xff xff xff xff)
(T (W x00 x00 x00 x00 x00 x00 x00 x00)
(T (W xff xff xff xff xff xff xff xff)
(L (W x00 x00 x80 xbf x00 x00 x80 xbf))
(L (W xf2 xd5 xff xff x74 x00 x00 x00)))
(T (W xff xff xff xff xff xff xff xff)
(L (W x45 x26 x22 x84 xe4 x9c xf2 xcb)) E))
(T (W x45 x44 x00 x00 x00 x00 x00 x00)
(T (W x50 x00 x00 x00 x44 x00 x00 x00)
(L (W x00 x00 x00 x00 x00 x00 x00 x00)) E)
(T (W x00 x00 x00 x00 x22 x5d xfd xff)
(L (W xa2 x57 xff xff x78 x00 x00 x00)) E)))))
(T (W xff xff xff xff xff xff xff xff)
(T (W x00 x00 x00 x00 x00 x00 x00 x00)
(T (W x00 x00 x80 x3f x00 x00 x80 x3f)
(T (W x68 x00 x00 x00 x5c x00 x00 x00)
(T (W x68 x00 x00 x00 x5c x00 x00 x00)
(L (W x00 x00 x00 x00 x00 x00 x00 x00))
(L (W x45 x44 x00 x00 x00 x00 x00 x00)))
(T (W xff xff xff xff xff xff xff xff)
(L (W xff xff xff xff xa0 x00 x00 x00)) E))
(T (W x00 x00 x00 x00 x00 x00 x00 x00)
(T (W x00 x00 x80 x3f x00 x00 x80 x3f)
(L (W x30 x32 x5f x43 x4c x45 x41 x52)) E)
(T (W xff xff xff xff xff xff xff xff)
(L (W xff xff xff xff xff xff xff xff)) E)))
(T (W xff xff xff xff xff xff xff xff)
(T (W xda xd8 xfd xff x6c x00 x00 x00)
(T (W xf2 xc5 xfb xff x74 x00 x00 x00)
(L (W x45 x26 x22 x84 xe4 x9c xf2 xcb))
(L (W x00 x00 x80 xbf x00 x00 x80 xbf)))
(T (W x00 x00 x00 x00 x00 x00 x64 x00)
(L (W x4f x84 x6f x8b xe8 xcb x63 xb7)) E))
(T (W x45 x26 x22 x84 xe4 x9c xf2 xcb)
(T (W x00 x00 x80 x3f x00 x00 x80 x3f)
(L (W xff xff xff xff xff xff xff xff)) E)
(T (W x00 x00 x80 xbf x00 x00 x80 xbf)
(L (W x00 x00 x80 xbf x00 x00 x80 xbf)) E))))
(T (W x00 x00 x80 x3f x00 x00 x80 x3f)
(T (W x00 x00 x00 x00 x00 x00 x00 x00)
(T (W x00 x00 x00 x00 x00 x00 x00 x00)
(T (W x45 x26 x22 x84 xe4 x9c xf2 xcb)
(L (W x00 x00 x80 xbf x00 x00 x80 xbf))
(L (W x00 x00 x00 x00 x00 x00 x00 x00)))
(T (W x00 x00 x00 x00 x00 x00 x00 x00)
(L (W xff xff xff xff xff xff xff xff)) E))
(T (W x00 x00 x80 x3f x00 x00 x80 x3f)
(T (W xff xff xff xff xff xff xff xff)
(L (W xa2 x27 xfe xff x78 x00 x00 x00)) E)
(T (W x94 x04 x00 x00 x80 x03 x00 x00)
(L (W x00 x00 x01 x01 x2e x00 x00 x00)) E)))
(T (W xff xff xff xff xff xff xff xff)
(T (W xff xff xff xff xff xff xff xff)
(T (W x00 x00 x00 x00 xd2 xe6 xfb xff)
(L (W xff xff xff xff xff xff xff xff))
(L (W xff xff xff xff xc8 x00 x00 x00)))
(T (W x00 x00 x00 x00 x00 x00 x00 x00)
(L (W x00 x00 x80 xbf x00 x00 x80 xbf)) E))
(T (W xc4 x6a xfb xff x00 x01 x01 x01)
(T (W x00 x00 x00 x00 x00 x00 x00 x00)
(L (W x00 x00 x80 xbf x00 x00 x80 xbf)) E)
(T (W x00 x00 x00 x00 x00 x00 x00 x00)
(L (W xb4 x00 x00 x00 x3c x00 x00 x00)) E))))))
(T (W x00 x00 x00 x00 xe2 x2b xfd xff)
(T (W x00 x00 x00 x00 x00 x00 x00 x00)
(T (W x6c x00 x00 x00 x60 x00 x00 x00)
(T (W x00 x00 x80 x3f x00 x00 x80 x3f)
(T (W x45 x26 x22 x84 xe4 x9c xf2 xcb)
(T (W x00 x00 x80 x3f x00 x00 x80 x3f)
(L (W x00 x00 x00 x00 x00 x00 x00 x00))
(L (W x00 x00 x01 x01 x29 x00 x00 x00)))
(T (W xf4 x86 xfc xff x14 x00 x00 x00)
(L (W x18 x00 x00 x00 x0c x00 x00 x00)) E))
(T (W xff xff xff xff xff xff xff xff)
(T (W x00 x00 x80 x3f x00 x00 x80 x3f)
(L (W x18 x00 x00 x00 x0c x00 x00 x00))
(L (W xff xff xff xff xff xff xff xff)))
(T (W x61 x6c x6c x68 x65 x6c x70 x5f)
(L (W xff xff xff xff xc8 x00 x00 x00)) E)))
(T (W xff xff xff xff xff xff xff xff)
(T (W x45 x73 xe3 xa1 x8a x0a x04 x32)
(T (W x00 x00 x80 x3f x00 x00 x80 x3f)
(L (W x00 x00 x00 x00 x00 x00 x00 x00))
(L (W x00 x00 x80 xbf x00 x00 x80 xbf)))
(T (W xc4 xd3 x36 x97 x85 x2e x63 x5f)
(L (W x00 x00 x00 x00 x00 x00 x00 x00)) E))
(T (W xa1 x01 x00 x00 xff xff xff xff)
(T (W x00 x00 x00 x00 x00 x00 x00 x00)
(L (W xff xff xff xff xbc x00 x00 x00)) E)
(T (W x00 x00 x80 xbf x00 x00 x80 xbf)
(L (W x00 x00 x00 x00 x00 x00 x00 x00)) E))))
(T (W x00 x00 x80 x3f x00 x00 x80 x3f)
(T (W x00 x00 x00 x00 x00 x00 x00 x00)
(T (W x00 x00 x00 x00 x00 x00 x00 x00)
(T (W x00 x00 x00 x00 x00 x00 x00 x00)
(L (W x4f x84 x6f x8b xe8 xcb x63 xb7))
(L (W x00 x00 x80 xbf x00 x00 x80 xbf)))
(T (W x6f x6b x65 x5f x63 x6f x77 x61)
(L (W xff xff xff xff xff xff xff xff)) E))
(T (W x00 x00 x00 x00 x00 x00 x00 x00)
(T (W xb0 x00 x00 x00 x64 x00 x00 x00)
(L (W x54 x00 x00 x00 x48 x00 x00 x00)) E)
(T (W xff xff xff xff xff xff xff xff)
(L (W x00 x00 x00 x00 x12 x00 x00 x00)) E)))
(T (W xff xff xff xff xff xff xff xff)
(T (W x48 x03 x00 x00 x34 x02 x00 x00)
(T (W xff xff xff xff xff xff xff xff)
(L (W x6c x00 x00 x00 x60 x00 x00 x00))
(L (W x18 x00 x00 x00 x0c x00 x00 x00)))
(T (W x89 x00 x00 x00 xff xff xff xff)
(L (W x00 x00 x80 xbf x00 x00 x80 xbf)) E))
(T (W x45 x26 x22 x84 xe4 x9c xf2 xcb)
(T (W x18 x00 x00 x00 x0c x00 x00 x00)
(L (W x00 x00 x00 x00 x00 x00 x00 x00)) E)
(T (W x1d x00 x00 x00 x0c x00 x00 x00)
(L (W x45 x26 x22 x84 xe4 x9c xf2 xcb)) E)))))
(T (W x00 x00 x80 x3f x00 x00 x80 x3f)
(T (W x64 x00 x00 x00 xa0 x00 x00 x00)
(T (W xc4 x12 xfa xff x00 x01 x01 x01)
(T (W xc4 x92 xfa xff x00 x01 x01 x01)
(T (W xff xff xff xff x03 x00 x00 x00)
(L (W x5f x4e x53 x5f x30 x32 x5f x43))
(L (W x45 x26 x22 x84 xe4 x9c xf2 xcb)))
(T (W xff xff xff xff xff xff xff xff)
(L (W x03 x00 x00 x00 xd0 x00 x00 x00)) E))
(T (W x4f x84 x6f x8b xe8 xcb x63 xb7)
(T (W x50 x00 x00 x00 x44 x00 x00 x00)
(L (W x00 x00 x00 x00 x00 x00 x00 x00)) E)
(T (W x4c xf4 xff xff x01 x01 x01 x01)
(L (W xff xff xff xff xff xff xff xff)) E)))
(T (W xff xff xff xff xff xff xff xff)
(T (W x00 x00 x00 x00 x00 x00 x00 x00)
(T (W xff xff xff xff xff xff xff xff)
(L (W x00 x00 x80 xbf x00 x00 x80 xbf))
(L (W x6c x00 x00 x00 x60 x00 x00 x00)))
(T (W x00 x00 x00 x00 x34 xd1 xfc xff)
(L (W x00 x00 x80 xbf x00 x00 x80 xbf)) E))
(T (W xff xff xff xff xff xff xff xff)
(T (W x54 x00 x00 x00 x48 x00 x00 x00)
(L (W x00 x00 x00 x00 x00 x00 x00 x00)) E)
(T (W xff xff xff xff xff xff xff xff)
(L (W x00 x00 x80 xbf x00 x00 x80 xbf)) E))))
(T (W x00 x00 x80 x3f x00 x00 x80 x3f)
(T (W x00 x00 x00 x00 x00 x00 x00 x00)
(T (W x00 x00 x00 x00 x00 x00 x00 x00)
(T (W xff xff xff xff xff xff xff xff)
(L (W xff xff xff xff xff xff xff xff))
(L (W x00 x00 x80 xbf x00 x00 x80 xbf)))
(T (W x00 x00 x00 x00 x00 x00 x00 x00)
(L (W xff xff xff xff xff xff xff xff)) E))
(T (W x18 x00 x00 x00 x10 x00 x00 x00)
(T (W x4a x00 x00 x00 xff xff xff xff)
(L (W xff xff xff xff xa0 x00 x00 x00)) E)
(T (W x30 x32 x5f x43 x4c x45 x41 x52)
(L (W x45 x44 x00 x00 x00 x00 x00 x00)) E)))
(T (W xff xff xff xff xff xff xff xff)
(T (W xff xff xff xff xff xff xff xff)
(T (W x00 x00 x00 x00 x00 x00 x00 x00)
(L (W xff xff xff xff xff xff xff xff))
(L (W x00 x00 x01 x01 x5d x00 x00 x00)))
(T (W x68 x00 x00 x00 x5c x00 x00 x00)
(L (W xff xff xff xff xa0 x00 x00 x00)) E))
(T (W xff xff xff xff xff xff xff xff)
(T (W x00 x00 x00 x00 x00 x00 x00 x00)
(L (W x54 x00 x00 x00 x48 x00 x00 x00)) E)
(T (W x45 x26 x22 x84 xe4 x9c xf2 xcb)
(L (W xff xff xff xff xff xff xff xff)) E)))))))
(T (W x00 x00 x01 x01 xc9 x00 x00 x00)
(T (W x64 x00 x00 x00 xa0 x00 x00 x00)
(T (W x4c xac xf9 xff x3c x00 x00 x00)
(T (W x00 x00 x00 x00 x00 x00 x00 x00)
(T (W xff xff xff xff xff xff xff xff)
(T (W x45 x26 x22 x84 xe4 x9c xf2 xcb)
(T (W xf2 x79 xfb xff x74 x00 x00 x00)
(L (W x00 x00 x00 x00 x34 x7d xfd xff))
(L (W x00 x00 x80 xbf x00 x00 x80 xbf)))
(T (W x01 x00 x00 x00 x9c x00 x00 x00)
(L (W x00 x00 x00 x00 x00 x00 x00 x00)) E))
(T (W x00 x00 x00 x00 x00 x00 x00 x00)
(T (W xff xff xff xff xff xff xff xff)
(L (W x6c x00 x00 x00 x60 x00 x00 x00))
(L (W x00 x00 x80 xbf x00 x00 x80 xbf)))
(T (W xf4 x02 xfd xff x14 x00 x00 x00)
(L (W x00 x00 x00 x00 x00 x00 x00 x00)) E)))
(T (W x45 x26 x22 x84 xe4 x9c xf2 xcb)
(T (W xc0 x00 x00 x00 xb4 x00 x00 x00)
(T (W xff xff xff xff xff xff xff xff)
(L (W x50 x00 x00 x00 x44 x00 x00 x00))
(L (W x00 x00 x00 x00 x22 xc1 xff xff)))
(T (W x45 x26 x22 x84 xe4 x9c xf2 xcb)
(L (W x6c x00 x00 x00 x60 x00 x00 x00)) E))
(T (W x00 x00 x80 x3f x00 x00 x80 x3f)
(T (W xb0 x00 x00 x00 x64 x00 x00 x00)
(L (W x00 x00 x80 xbf x00 x00 x80 xbf)) E)
(T (W xff xff xff xff xff xff xff xff)
(L (W xff xff xff xff xff xff xff xff)) E))))
(T (W xff xff xff xff xff xff xff xff)
(T (W x00 x00 x00 x00 x00 x00 x00 x00)
(T (W xb8 x00 x00 x00 xac x00 x00 x00)
(T (W x18 x00 x00 x00 x0c x00 x00 x00)
(L (W xff xff xff xff xff xff xff xff))
(L (W xff xff xff xff xff xff xff xff)))
(T (W x00 x00 x80 x3f x00 x00 x80 x3f)
(L (W x4f x84 x6f x8b xe8 xcb x63 xb7)) E))
(T (W x18 x00 x00 x00 x0c x00 x00 x00)
(T (W x00 x00 x00 x00 x00 x00 x00 x00)
(L (W x00 x00 x01 x01 x5d x00 x00 x00)) E)
(T (W x00 x00 x80 xbf x00 x00 x80 xbf)
(L (W x6c x00 x00 x00 x60 x00 x00 x00)) E)))
(T (W x45 x26 x22 x84 xe4 x9c xf2 xcb)
(T (W x00 x00 x80 x3f x00 x00 x80 x3f)
(T (W x54 x00 x00 x00 x48 x00 x00 x00)
(L (W x00 x00 x00 x00 xd2 xda xfd xff))
(L (W x00 x00 x00 x00 x00 x00 x00 x00)))
(T (W x54 x00 x00 x00 x48 x00 x00 x00)
(L (W xff xff xff xff xff xff xff xff)) E))
(T (W xd4 x00 x00 x00 xc8 x00 x00 x00)
(T (W x00 x00 x00 x00 x12 x00 x00 x00)
(L (W x18 x00 x00 x00 x10 x00 x00 x00)) E)
(T (W xa2 x5b xfd xff x78 x00 x00 x00)
(L (W x00 x00 x00 x00 x00 x00 x00 x00)) E)))))
(T (W x00 x00 x00 x00 x00 x00 x00 x00)
(T (W x00 x00 x80 x3f x00 x00 x80 x3f)
(T (W xff xff xff xff xff xff xff xff)
(T (W x00 x00 x00 x00 x00 x00 x00 x00)
(T (W xff xff xff xff xff xff xff xff)
(L (W xc4 x8e xfd xff x00 x01 x01 x01))
(L (W x45 x26 x22 x84 xe4 x9c xf2 xcb)))
(T (W x00 x00 x80 x3f x00 x00 x80 x3f)
(L (W x00 x00 x00 x00 x00 x00 x00 x00)) E))
(T (W xff xff xff xff xff xff xff xff)
(T (W x5a x1e xff xff x00 x00 x01 x01)
(L (W x03 x00 x00 x00 xd8 x00 x00 x00)) E)
(T (W x68 x00 x00 x00 x5c x00 x00 x00)
(L (W x45 x26 x22 x84 xe4 x9c xf2 xcb)) E)))
(T (W x00 x00 x80 x3f x00 x00 x80 x3f)
(T (W xc4 xce xfa xff x00 x01 x01 x01)
(T (W x00 x00 x00 x00 x00 x00 x00 x00)
(L (W xbc x00 x00 x00 x32 x00 x00 x00))
(L (W x30 x32 x5f x43 x4c x45 x41 x52)))
(T (W xff xff xff xff xff xff xff xff)
(L (W xff xff xff xff xff xff xff xff)) E))
(T (W x4c x45 x41 x52 x45 x44 x00 x00)
(T (W x4b x00 x00 x00 xff xff xff xff)
(L (W x6c x00 x00 x00 x60 x00 x00 x00)) E)
(T (W x46 x53 x59 x53 x5f x4e x53 x5f)
(L (W x00 x00 x00 x00 x22 x51 xff xff)) E))))
(T (W xff xff xff xff xff xff xff xff)
(T (W x68 x00 x00 x00 x5c x00 x00 x00)
(T (W x01 x00 x00 x00 x9c x00 x00 x00)
(T (W x00 x00 x00 x00 x00 x00 x00 x00)
(L (W xf2 xa9 xfd xff x74 x00 x00 x00))
(L (W xff xff xff xff xff xff xff xff)))
(T (W xff xff xff xff xff xff xff xff)
(L (W x00 x00 x80 xbf x00 x00 x80 xbf)) E))
(T (W x9c x03 x00 x00 x6c x02 x00 x00)
(T (W x45 x26 x22 x84 xe4 x9c xf2 xcb)
(L (W x4c x3c xfe xff x15 x00 x00 x00)) E)
(T (W x6c x00 x00 x00 x60 x00 x00 x00)
(L (W x18 x00 x00 x00 x10 x00 x00 x00)) E)))
(T (W x00 x00 x00 x00 x00 x00 x00 x00)
(T (W x00 x00 x80 x3f x00 x00 x80 x3f)
(T (W x6c x00 x00 x00 x60 x00 x00 x00)
(L (W x00 x00 x80 xbf x00 x00 x80 xbf))
(L (W x00 x00 x80 xbf x00 x00 x80 xbf)))
(T (W x50 x00 x00 x00 x44 x00 x00 x00)
(L (W x00 x00 x00 x00 x00 x00 x00 x00)) E))
(T (W x00 x00 x00 x00 x00 x00 x00 x00)
(T (W xb8 x00 x00 x00 xac x00 x00 x00)
(L (W x00 x00 x00 x00 x00 x00 x00 x00)) E)
(T (W xff xff xff xff xff xff xff xff)
(L (W x00 x00 x00 x00 x00 x00 x00 x00)) E))))))
(T (W x00 x00 x80 x3f x00 x00 x80 x3f)
(T (W x54 x00 x00 x00 x48 x00 x00 x00)
(T (W xff xff xff xff xff xff xff xff)
(T (W xff xff xff xff xff xff xff xff)
(T (W x00 x00 x00 x00 x00 x00 x00 x00)
(T (W xff xff xff xff x03 x00 x00 x00)
(L (W x50 x00 x00 x00 x44 x00 x00 x00))
(L (W x00 x00 x80 xbf x00 x00 x80 xbf)))
(T (W x00 x00 x80 x3f x00 x00 x80 x3f)
(L (W x00 x00 x00 x00 x00 x00 x00 x00)) E))
(T (W x45 x26 x22 x84 xe4 x9c xf2 xcb)
(T (W xff xff xff xff xff xff xff xff)
(L (W x18 x00 x00 x00 x10 x00 x00 x00)) E)
(T (W x00 x00 x00 x00 x00 x00 x00 x00)
(L (W x00 x00 x00 x00 x00 x00 x00 x00)) E)))
(T (W x00 x00 x80 x3f x00 x00 x80 x3f)
(T (W xf2 xc1 xfa xff x74 x00 x00 x00)
(T (W x69 x9d xd9 xc2 x9d xc1 xb2 xaf)
(L (W xff xff xff xff xff xff xff xff))
(L (W x44 x02 x00 x00 x30 x01 x00 x00)))
(T (W x00 x00 x80 x3f x00 x00 x80 x3f)
(L (W xff xff xff xff xa0 x00 x00 x00)) E))
(T (W xff xff xff xff xff xff xff xff)
(T (W xff xff xff xff xff xff xff xff)
(L (W x00 x00 x80 xbf x00 x00 x80 xbf)) E)
(T (W x00 x00 x00 x00 x00 x00 x00 x00)
(L (W xff xff xff xff xff xff xff xff)) E))))
(T (W xff xff xff xff xff xff xff xff)
(T (W x18 x00 x00 x00 x0c x00 x00 x00)
(T (W x45 x26 x22 x84 xe4 x9c xf2 xcb)
(T (W xff xff xff xff xff xff xff xff)
(L (W x00 x00 x00 x00 x00 x00 x00 x00))
(L (W x54 x00 x00 x00 x48 x00 x00 x00)))
(T (W x64 x00 x00 x00 x9c x00 x00 x00)
(L (W x00 x00 x80 xbf x00 x00 x80 xbf)) E))
(T (W xff xff xff xff xff xff xff xff)
(T (W x00 x00 x00 x00 x00 x00 x00 x00)
(L (W x2e x00 x00 x00 xff xff xff xff)) E)
(T (W x00 x00 x80 xbf x00 x00 x80 xbf)
(L (W x6c x00 x00 x00 x60 x00 x00 x00)) E)))
(T (W x00 x00 x00 x00 x00 x00 x00 x00)
(T (W x45 x26 x22 x84 xe4 x9c xf2 xcb)
(T (W x00 x00 x80 x3f x00 x00 x80 x3f)
(L (W x00 x00 x00 x00 x92 xe4 xfd xff))
(L (W x45 x26 x22 x84 xe4 x9c xf2 xcb)))
(T (W x69 x6b x65 x5f x6c x76 x32 x00)
(L (W x00 x00 x00 x00 x00 x00 x00 x00)) E))
(T (W x00 x00 x00 x00 x00 x00 x00 x00)
(T (W x2a x00 x00 x00 x10 x00 x00 x00)
(L (W xff xff xff xff xff xff xff xff)) E)
(T (W x00 x00 x00 x00 x34 x65 xfd xff)
(L (W x00 x00 x00 x00 x00 x00 x00 x00)) E)))))
(T (W x18 x00 x00 x00 x10 x00 x00 x00)
(T (W xc9 x00 x00 x00 xff xff xff xff)
(T (W x4c x24 xfa xff x3c x00 x00 x00)
(T (W x00 x00 x00 x00 x00 x00 x00 x00)
(T (W x00 x00 x80 x3f x00 x00 x80 x3f)
(L (W xff xff xff xff xac x00 x00 x00))
(L (W xb8 x00 x00 x00 x64 x00 x00 x00)))
(T (W x00 x00 x00 x00 x00 x00 x00 x00)
(L (W x45 x26 x22 x84 xe4 x9c xf2 xcb)) E))
(T (W x70 x5f x6c x65 x61 x64 x65 x72)
(T (W x30 x32 x5f x43 x4c x45 x41 x52)
(L (W xff xff xff xff xff xff xff xff)) E)
(T (W x45 x26 x22 x84 xe4 x9c xf2 xcb)
(L (W x6c x00 x00 x00 x60 x00 x00 x00)) E)))
(T (W x00 x00 x80 x3f x00 x00 x80 x3f)
(T (W x00 x00 x80 x3f x00 x00 x80 x3f)
(T (W x00 x00 x00 x00 x00 x00 x00 x00)
(L (W xff xff xff xff xff xff xff xff))
(L (W x00 x00 x00 x00 x00 x00 x00 x00)))
(T (W x00 x00 x80 x3f x00 x00 x80 x3f)
(L (W xff xff xff xff xff xff xff xff)) E))
(T (W x00 x00 x00 x00 x00 x00 x00 x00)
(T (W xac x05 x00 x00 x84 x04 x00 x00)
(L (W x18 x00 x00 x00 x0c x00 x00 x00)) E)
(T (W x00 x00 x80 xbf x00 x00 x80 xbf)
(L (W x00 x00 x00 x00 x00 x00 x00 x00)) E))))
(T (W xff xff xff xff xff xff xff xff)
(T (W x00 x00 x80 x3f x00 x00 x80 x3f)
(T (W x0a x00 x00 x00 x3e x00 x00 x00)
(T (W x68 x00 x00 x00 x5c x00 x00 x00)
(L (W x00 x00 x00 x00 x00 x00 x00 x00))
(L (W xff xff xff xff xff xff xff xff)))
(T (W x18 x00 x00 x00 x10 x00 x00 x00)
(L (W x54 x00 x00 x00 x48 x00 x00 x00)) E))
(T (W x00 x00 x00 x00 x00 x00 x00 x00)
(T (W xd4 x00 x00 x00 xc8 x00 x00 x00)
(L (W x00 x00 x00 x00 x12 x00 x00 x00)) E)
(T (W xc4 x00 x00 x00 x02 x00 x00 x00)
(L (W xff xff xff xff xb0 x00 x00 x00)) E)))
(T (W x45 x26 x22 x84 xe4 x9c xf2 xcb)
(T (W xc0 x00 x00 x00 xb4 x00 x00 x00)
(T (W xf2 xf1 xfb xff x74 x00 x00 x00)
(L (W x00 x00 x80 xbf x00 x00 x80 xbf))
(L (W x54 x00 x00 x00 x48 x00 x00 x00)))
(T (W x5f x4e x53 x5f x30 x32 x5f x43)
(L (W x46 x53 x59 x53 x5f x4e x53 x5f)) E))
(T (W x00 x00 x80 x3f x00 x00 x80 x3f)
(T (W x50 x00 x00 x00 x44 x00 x00 x00)
(L (W x08 x00 x00 x00 x10 x08 x00 x00)) E)
(T (W x1c x00 x00 x00 x1e x00 x00 x00)
(L (W x45 x26 x22 x84 xe4 x9c xf2 xcb)) E))))))))
(T (W x00 x00 x80 x3f x00 x00 x80 x3f)
(T (W xff xff xff xff xff xff xff xff)
(T (W x54 x00 x00 x00 x48 x00 x00 x00)
(T (W xff xff xff xff xff xff xff xff)
(T (W x00 x00 x00 x00 x00 x00 x00 x00)
(T (W x45 x26 x22 x84 xe4 x9c xf2 xcb)
(T (W xdd x00 x00 x00 xff xff xff xff)
(T (W x00 x00 x00 x00 x00 x00 x00 x00)
(L (W x00 x00 x80 xbf x00 x00 x80 xbf))
(L (W x00 x00 x00 x00 x00 x00 x00 x00)))
(T (W x00 x00 x80 x3f x00 x00 x80 x3f)
(L (W xff xff xff xff xff xff xff xff)) E))
(T (W xff xff xff xff xff xff xff xff)
(T (W xc4 xfc xfb xff x00 x01 x01 x01)
(L (W x49 xa1 x68 x4a xeb x5f xdd x3d))
(L (W x03 x00 x00 x00 xd8 x00 x00 x00)))
(T (W x45 x26 x22 x84 xe4 x9c xf2 xcb)
(L (W xff xff xff xff xff xff xff xff)) E)))
(T (W x45 x26 x22 x84 xe4 x9c xf2 xcb)
(T (W x00 x00 x80 x3f x00 x00 x80 x3f)
(T (W x00 x00 x80 x3f x00 x00 x80 x3f)
(L (W x00 x00 x80 xbf x00 x00 x80 xbf))
(L (W xf2 xb7 xff xff x74 x00 x00 x00)))
(T (W x00 x00 x80 x3f x00 x00 x80 x3f)
(L (W x00 x00 x80 xbf x00 x00 x80 xbf)) E))
(T (W x00 x00 x00 x00 x04 x00 x00 x00)
(T (W x68 x00 x00 x00 x5c x00 x00 x00)
(L (W x94 x04 x00 x00 x80 x03 x00 x00)) E)
(T (W x68 x00 x00 x00 x5c x00 x00 x00)
(L (W x00 x00 x80 xbf x00 x00 x80 xbf)) E))))
(T (W x00 x00 x80 x3f x00 x00 x80 x3f)
(T (W xb9 x00 x00 x00 xff xff xff xff)
(T (W x50 x00 x00 x00 x44 x00 x00 x00)
(T (W x00 x00 x00 x00 x00 x00 x00 x00)
(L (W x00 x00 x80 xbf x00 x00 x80 xbf))
(L (W xa2 x99 xff xff x78 x00 x00 x00)))
(T (W xff xff xff xff xff xff xff xff)
(L (W x45 x44 x00 x00 x00 x00 x00 x00)) E))
(T (W x49 xa1 x68 x4a xeb x5f xdd x3d)
(T (W xff xff xff xff xff xff xff xff)
(L (W xc4 x1c xfe xff x00 x01 x01 x01)) E)
(T (W x64 x00 x68 x00 x62 x00 x00 x00)
(L (W x45 x26 x22 x84 xe4 x9c xf2 xcb)) E)))
(T (W x00 x00 x00 x00 x00 x00 x00 x00)
(T (W x00 x00 x00 x00 x00 x00 x00 x00)
(T (W x30 x32 x5f x43 x4c x45 x41 x52)
(L (W x18 x00 x00 x00 x10 x00 x00 x00))
(L (W x00 x00 x00 x00 x22 xdf xff xff)))
(T (W x00 x00 x00 x00 x00 x00 x00 x00)
(L (W x18 x00 x00 x00 x0c x00 x00 x00)) E))
(T (W x00 x00 x00 x00 x00 x00 x00 x00)
(T (W xff xff xff xff x9c x00 x00 x00)
(L (W x00 x00 x80 xbf x00 x00 x80 xbf)) E)
(T (W x00 x00 x00 x00 x00 x00 x00 x00)
(L (W xff xff xff xff xff xff xff xff)) E)))))
(T (W xff xff xff xff xff xff xff xff)
(T (W x00 x00 x00 x00 x00 x00 x00 x00)
(T (W x00 x00 x80 x3f x00 x00 x80 x3f)
(T (W xff xff xff xff xff xff xff xff)
(T (W xb0 x00 x00 x00 x64 x00 x00 x00)
(L (W x49 xa1 x68 x4a xeb x5f xdd x3d))
(L (W x4f x84 x6f x8b xe8 xcb x63 xb7)))
(T (W x00 x00 x00 x00 x00 x00 x00 x00)
(L (W xff xff xff xff xff xff xff xff)) E))
(T (W x00 x00 x80 x3f x00 x00 x80 x3f)
(T (W xff xff xff xff xff xff xff xff)
(L (W x54 x00 x00 x00 x48 x00 x00 x00)) E)
(T (W x00 x00 x00 x00 x00 x00 x00 x00)
(L (W x00 x00 x00 x00 x00 x00 x00 x00)) E)))
(T (W x00 x00 x00 x00 x00 x00 x00 x00)
(T (W x00 x00 x00 x00 x00 x00 x00 x00)
(T (W xff xff xff xff xbc x00 x00 x00)
(L (W x00 x00 x80 xbf x00 x00 x80 xbf))
(L (W xff xff xff xff xff xff xff xff)))
(T (W x7f x00 x00 x00 x7f x00 x00 x00)
(L (W x6c x00 x00 x00 x60 x00 x00 x00)) E))
(T (W xff xff xff xff xff xff xff xff)
(T (W x00 x00 x00 x00 x34 x4b xfc xff)
(L (W x00 x00 x00 x00 x00 x00 x00 x00)) E)
(T (W xff xff xff xff xff xff xff xff)
(L (W x00 x00 x00 x00 x34 x4b xff xff)) E))))
(T (W x45 x26 x22 x84 xe4 x9c xf2 xcb)
(T (W x00 x00 x00 x00 x00 x00 x00 x00)
(T (W xf2 xa7 xfa xff x74 x00 x00 x00)
(T (W xff xff xff xff xff xff xff xff)
(L (W x00 x00 x80 xbf x00 x00 x80 xbf))
(L (W x45 x26 x22 x84 xe4 x9c xf2 xcb)))
(T (W x45 x26 x22 x84 xe4 x9c xf2 xcb)
(L (W x45 x44 x00 x00 x00 x00 x00 x00)) E))
(T (W x01 x00 x00 x00 xac x00 x00 x00)
(T (W x00 x00 x00 x00 x00 x00 x00 x00)
(L (W xff xff xff xff xff xff xff xff)) E)
(T (W x00 x00 x80 xbf x00 x00 x80 xbf)
(L (W x00 x00 x00 x00 x00 x00 x00 x00)) E)))
(T (W x00 x00 x00 x00 x00 x00 x00 x00)
(T (W x00 x00 x00 x00 x00 x00 x00 x00)
(T (W x00 x00 x80 x3f x00 x00 x80 x3f)
(L (W x30 x32 x5f x43 x4c x45 x41 x52))
(L (W x00 x00 x00 x00 x22 xef xff xff)))
(T (W x00 x00 x80 x3f x00 x00 x80 x3f)
(L (W xff xff xff xff xff xff xff xff)) E))
(T (W xff xff xff xff xff xff xff xff)
(T (W x00 x00 x80 x3f x00 x00 x80 x3f)
(L (W x00 x00 x00 x00 x34 x6b xfe xff)) E)
(T (W xa2 x69 xfd xff x78 x00 x00 x00)
(L (W xff xff xff xff xff xff xff xff)) E))))))
(T (W x00 x00 x00 x00 x00 x00 x00 x00)
(T (W x00 x00 x80 x3f x00 x00 x80 x3f)
(T (W x01 x00 x00 x00 xa0 x00 x00 x00)
(T (W x68 x00 x00 x00 x5c x00 x00 x00)
(T (W x5a x94 xfd xff x00 x00 x01 x01)
(T (W xa2 x81 xfb xff x78 x00 x00 x00)
(L (W xf0 x13 x00 x00 xc4 x12 x00 x00))
(L (W x00 x00 x00 x00 x00 x00 x00 x00)))
(T (W x00 x00 x00 x00 x00 x00 x00 x00)
(L (W xff xff xff xff xff xff xff xff)) E))
(T (W x46 x53 x59 x53 x5f x4e x53 x5f)
(T (W xf2 xff xfb xff x74 x00 x00 x00)
(L (W x00 x00 x80 xbf x00 x00 x80 xbf))
(L (W x00 x00 x00 x00 x04 x00 x06 x00)))
(T (W x6c x00 x00 x00 x60 x00 x00 x00)
(L (W x00 x00 x00 x00 x22 x07 xff xff)) E)))
(T (W x00 x00 x00 x00 x00 x00 x00 x00)
(T (W x45 x26 x22 x84 xe4 x9c xf2 xcb)
(T (W xff xff xff xff xff xff xff xff)
(L (W x6c x00 x00 x00 x60 x00 x00 x00))
(L (W xff xff xff xff xb0 x00 x00 x00)))
(T (W x00 x00 x00 x00 x00 x00 x00 x00)
(L (W x00 x00 x80 xbf x00 x00 x80 xbf)) E))
(T (W x00 x00 x80 x3f x00 x00 x80 x3f)
(T (W x45 x26 x22 x84 xe4 x9c xf2 xcb)
(L (W x00 x00 x00 x00 x12 x00 x00 x00)) E)
(T (W xff xff xff xff xff xff xff xff)
(L (W x18 x00 x00 x00 x0c x00 x00 x00)) E))))
(T (W x50 x00 x00 x00 x44 x00 x00 x00)
(T (W x45 x26 x22 x84 xe4 x9c xf2 xcb)
(T (W x68 x00 x00 x00 x5c x00 x00 x00)
(T (W x00 x00 x00 x00 x34 xa3 xfb xff)
(L (W xff xff xff xff xff xff xff xff))
(L (W x18 x00 x1c x00 x20 x00 x24 x00)))
(T (W x00 x00 x80 x3f x00 x00 x80 x3f)
(L (W x4c xb2 xfe xff x15 x00 x00 x00)) E))
(T (W x00 x00 x80 x3f x00 x00 x80 x3f)
(T (W x45 x44 x00 x00 x00 x00 x00 x00)
(L (W xff xff xff xff xc8 x00 x00 x00)) E)
(T (W x30 x32 x5f x43 x4c x45 x41 x52)
(L (W x00 x00 x80 xbf x00 x00 x80 xbf)) E)))
(T (W x00 x00 x00 x00 x00 x00 x00 x00)
(T (W x00 x00 x00 x00 x00 x00 x00 x00)
(T (W x12 x00 x00 x00 x46 x53 x59 x53)
(L (W xff xff xff xff xff xff xff xff))
(L (W x54 x02 x00 x00 x38 x01 x00 x00)))
(T (W x68 x00 x00 x00 x5c x00 x00 x00)
(L (W xff xff xff xff xff xff xff xff)) E))
(T (W x21 x00 x00 x00 x24 x00 x00 x00)
(T (W xff xff xff xff xff xff xff xff)
(L (W x00 x00 x80 xbf x00 x00 x80 xbf)) E)
(T (W x00 x00 x80 xbf x00 x00 x80 xbf)
(L (W xff xff xff xff xff xff xff xff)) E)))))
(T (W x54 x00 x00 x00 x48 x00 x00 x00)
(T (W xff xff xff xff xff xff xff xff)
(T (W xff xff xff xff xff xff xff xff)
(T (W xff xff xff xff xff xff xff xff)
(T (W x00 x00 x00 x00 x04 x00 x00 x00)
(L (W x00 x00 x80 xbf x00 x00 x80 xbf))
(L (W x00 x00 x80 xbf x00 x00 x80 xbf)))
(T (W xf4 x98 xfc xff x1b x00 x00 x00)
(L (W x04 x00 x00 x00 x70 x03 x00 x00)) E))
(T (W xff xff xff xff xff xff xff xff)
(T (W xff xff xff xff xff xff xff xff)
(L (W x00 x00 x80 xbf x00 x00 x80 xbf)) E)
(T (W x00 x01 x01 x01 xd5 x01 x00 x00)
(L (W x4f x84 x6f x8b xe8 xcb x63 xb7)) E)))
(T (W x4c x62 xfa xff x1d x00 x00 x00)
(T (W x00 x00 x00 x00 x00 x00 x00 x00)
(T (W x5a xe4 xfe xff x00 x00 x01 x01)
(L (W x18 x00 x00 x00 x0c x00 x00 x00))
(L (W xff xff xff xff xff xff xff xff)))
(T (W x00 x00 x00 x00 xd2 xd0 xfc xff)
(L (W x45 x26 x22 x84 xe4 x9c xf2 xcb)) E))
(T (W x00 x00 x00 x00 x00 x00 x00 x00)
(T (W xcc x00 x00 x00 xc0 x00 x00 x00)
(L (W x00 x00 x00 x00 x00 x00 x00 x00)) E)
(T (W x4c x62 xfd xff x1a x00 x00 x00)
(L (W xff xff xff xff xff xff xff xff)) E))))
(T (W x0a x00 x00 x00 x3e x00 x00 x00)
(T (W x00 x00 x00 x00 x00 x00 x00 x00)
(T (W x00 x00 x80 x3f x00 x00 x80 x3f)
(T (W x00 x00 x00 x00 x00 x00 x00 x00)
(L (W xff xff xff xff xff xff xff xff))
(L (W x45 x26 x22 x84 xe4 x9c xf2 xcb)))
(T (W x00 x00 x80 x3f x00 x00 x80 x3f)
(L (W x00 x00 x00 x00 x00 x00 x00 x00)) E))
(T (W xff xff xff xff xff xff xff xff)
(T (W x00 x00 x00 x00 x00 x00 x00 x00)
(L (W xff xff xff xff xff xff xff xff)) E)
(T (W x00 x00 x80 xbf x00 x00 x80 xbf)
(L (W x4f x84 x6f x8b xe8 xcb x63 xb7)) E)))
(T (W xb9 x03 x6e xa7 x9b x09 x75 x6d)
(T (W x00 x00 x80 x3f x00 x00 x80 x3f)
(T (W x00 x00 x80 x3f x00 x00 x80 x3f)
(L (W x00 x00 x00 x00 x00 x00 x00 x00))
(L (W x00 x00 x00 x00 x00 x00 x00 x00)))
(T (W xd8 x00 x00 x00 xb4 x00 x00 x00)
(L (W xff xff xff xff xff xff xff xff)) E))
(T (W x00 x00 x00 x00 x00 x00 x00 x00)
(T (W x45 x26 x22 x84 xe4 x9c xf2 xcb)
(L (W x03 x00 x00 x00 xd0 x00 x00 x00)) E)
(T (W x5f x4e x53 x5f x30 x32 x5f x43)
(L (W x00 x00 x00 x00 x00 x00 x00 x00)) E)))))))
(T (W x00 x00 x00 x00 x00 x00 x00 x00)
(T (W xff xff xff xff xff xff xff xff)
(T (W x00 x00 x00 x00 x00 x00 x00 x00)
(T (W x00 x00 x80 x3f x00 x00 x80 x3f)
(T (W x00 x00 x00 x00 x00 x00 x00 x00)
(T (W x00 x00 x80 x3f x00 x00 x80 x3f)
(T (W x5a xbf xfd xff x9c x01 x00 x00)
(L (W x84 x01 x00 x00 xff xff xff xff))
(L (W x03 x00 x00 x00 xd8 x00 x00 x00)))
(T (W xff xff xff xff xff xff xff xff)
(L (W x00 x00 x80 xbf x00 x00 x80 xbf)) E))
(T (W x45 x26 x22 x84 xe4 x9c xf2 xcb)
(T (W x18 x00 x00 x00 x10 x00 x00 x00)
(L (W x03 x00 x00 x00 xd8 x00 x00 x00))
(L (W x6c x00 x08 x00 x00 x00 x00 x00)))
(T (W xa2 xfd xfc xff x78 x00 x00 x00)
(L (W x45 x26 x22 x84 xe4 x9c xf2 xcb)) E)))
(T (W xff xff xff xff x03 x00 x00 x00)
(T (W xff xff xff xff xff xff xff xff)
(T (W x12 x00 x00 x00 x46 x53 x59 x53)
(L (W x45 x26 x22 x84 xe4 x9c xf2 xcb))
(L (W x00 x00 x00 x00 x00 x00 x00 x00)))
(T (W xff xff xff xff xff xff xff xff)
(L (W xff xff xff xff xff xff xff xff)) E))
(T (W x18 x00 x00 x00 x10 x00 x00 x00)
(T (W x45 x44 x00 x00 x00 x00 x00 x00)
(L (W x6c x00 x00 x00 x60 x00 x00 x00)) E)
(T (W x00 x00 x00 x00 x12 x00 x00 x00)
(L (W x00 x00 x00 x00 xd2 x3c xff xff)) E))))
(T (W x4c xee xf9 xff x3c x00 x00 x00)
(T (W x40 x00 x00 x00 x9c x00 x00 x00)
(T (W xbc x40 xb0 x3a x49 xcc x33 x34)
(T (W x9f x01 x00 x00 xff xff xff xff)
(L (W x00 x00 x00 x00 x00 x00 x00 x00))
(L (W x00 x00 x00 x00 x00 x00 x00 x00)))
(T (W xff xff xff xff xff xff xff xff)
(L (W x45 x26 x22 x84 xe4 x9c xf2 xcb)) E))
(T (W xff xff xff xff xff xff xff xff)
(T (W x68 x00 x00 x00 x5c x00 x00 x00)
(L (W x00 x00 x00 x00 x00 x00 x00 x00)) E)
(T (W xac x00 x00 x00 x64 x00 x00 x00)
(L (W xff xff xff xff xbc x00 x00 x00)) E)))
(T (W x18 x00 x00 x00 x0c x00 x00 x00)
(T (W xff xff xff xff xff xff xff xff)
(T (W xcc x00 x00 x00 xc0 x00 x00 x00)
(L (W x00 x00 x00 x00 x00 x00 x00 x00))
(L (W x00 x00 x80 xbf x00 x00 x80 xbf)))
(T (W xff xff xff xff xc8 x00 x00 x00)
(L (W x00 x00 x00 x00 x00 x00 x00 x00)) E))
(T (W x64 x5f x70 x6f x6b x65 x5f x77)
(T (W x00 x00 x80 x3f x00 x00 x80 x3f)
(L (W x00 x00 x00 x00 x00 x00 x00 x00)) E)
(T (W xff xff xff xff xff xff xff xff)
(L (W x00 x00 x80 xbf x00 x00 x80 xbf)) E)))))
(T (W x00 x00 x00 x00 x00 x00 x00 x00)
(T (W x6c x00 x00 x00 x60 x00 x00 x00)
(T (W x00 x00 x00 x00 x00 x00 x00 x00)
(T (W x00 x00 x80 x3f x00 x00 x80 x3f)
(T (W x00 x00 x80 x3f x00 x00 x80 x3f)
(L (W xff xff xff xff xff xff xff xff))
(L (W x04 x00 x00 x00 xb2 x94 xff xff)))
(T (W x01 x00 x00 x00 x9c x00 x00 x00)
(L (W x54 x00 x00 x00 x48 x00 x00 x00)) E))
(T (W x00 x00 x00 x00 xd2 x0c xfb xff)
(T (W x00 x00 x00 x00 x00 x00 x00 x00)
(L (W x00 x00 x01 x01 x90 x01 x00 x00)) E)
(T (W x18 x00 x1c x00 x05 x00 x06 x00)
(L (W xa2 x0d xff xff x78 x00 x00 x00)) E)))
(T (W xff xff xff xff xff xff xff xff)
(T (W xff xff xff xff xff xff xff xff)
(T (W x00 x00 x80 x3f x00 x00 x80 x3f)
(L (W x2e x00 x00 x00 xff xff xff xff))
(L (W x49 xa1 x68 x4a xeb x5f xdd x3d)))
(T (W x00 x00 x80 x3f x00 x00 x80 x3f)
(L (W xff xff xff xff xff xff xff xff)) E))
(T (W x00 x00 x80 x3f x00 x00 x80 x3f)
(T (W x00 x00 x00 x00 x12 x00 x00 x00)
(L (W xff xff xff xff xff xff xff xff)) E)
(T (W x00 x00 x80 xbf x00 x00 x80 xbf)
(L (W x00 x00 x00 x00 x00 x00 x00 x00)) E))))
(T (W x00 x00 x00 x00 x00 x00 x00 x00)
(T (W xff xff xff xff xff xff xff xff)
(T (W xff xff xff xff xff xff xff xff)
(T (W x6c x00 x00 x00 x60 x00 x00 x00)
(L (W xff xff xff xff x9c x00 x00 x00))
(L (W x00 x00 x00 x00 x00 x00 x00 x00)))
(T (W x2c xc6 x36 x97 x85 x26 x63 x5f)
(L (W xff xff xff xff xb0 x00 x00 x00)) E))
(T (W x45 x26 x22 x84 xe4 x9c xf2 xcb)
(T (W xff xff xff xff xff xff xff xff)
(L (W x00 x00 x80 xbf x00 x00 x80 xbf)) E)
(T (W xff xff xff xff xff xff xff xff)
(L (W xff xff xff xff xff xff xff xff)) E)))
(T (W x00 x00 x80 x3f x00 x00 x80 x3f)
(T (W xf2 xeb xfa xff x74 x00 x00 x00)
(T (W xff xff xff xff xff xff xff xff)
(L (W xa2 xed xfd xff x78 x00 x00 x00))
(L (W x6c x00 x00 x00 x60 x00 x00 x00)))
(T (W x00 x00 x00 x00 x60 x00 x64 x00)
(L (W x00 x00 x80 xbf x00 x00 x80 xbf)) E))
(T (W x00 x00 x80 x3f x00 x00 x80 x3f)
(T (W xff xff xff xff xff xff xff xff)
(L (W x00 x00 x00 x00 x00 x00 x00 x00)) E)
(T (W x16 x00 x00 x00 x0c x00 x00 x00)
(L (W x45 x26 x22 x84 xe4 x9c xf2 xcb)) E))))))
(T (W x6c x00 x00 x00 x60 x00 x00 x00)
(T (W x18 x00 x00 x00 x0c x00 x00 x00)
(T (W xff xff xff xff x08 x00 x00 x00)
(T (W x00 x00 x00 x00 x00 x00 x00 x00)
(T (W x00 x00 x80 x3f x00 x00 x80 x3f)
(T (W x5f x77 x69 x6c x64 x5f x70 x6f)
(L (W xff xff xff xff xff xff xff xff))
(L (W xff xff xff xff xff xff xff xff)))
(T (W xb8 x00 x00 x00 xac x00 x00 x00)
(L (W x00 x00 x80 xbf x00 x00 x80 xbf)) E))
(T (W xff xff xff xff x01 x00 x00 x00)
(T (W x46 x53 x59 x53 x5f x4e x53 x5f)
(L (W xff xff xff xff xff xff xff xff)) E)
(T (W x00 x00 x80 xbf x00 x00 x80 xbf)
(L (W x00 x00 x80 xbf x00 x00 x80 xbf)) E)))
(T (W xff xff xff xff xff xff xff xff)
(T (W xff xff xff xff xff xff xff xff)
(T (W x00 x00 x80 x3f x00 x00 x80 x3f)
(L (W x00 x00 x00 x00 xb2 xcc xfd xff))
(L (W x00 x00 x00 x00 x00 x00 x00 x00)))
(T (W x00 x00 x10 x00 x00 x00 x14 x00)
(L (W xff xff xff xff xff xff xff xff)) E))
(T (W xec x66 xea xc8 x7a xc6 xbc xc0)
(T (W xf4 x4c xfc xff x15 x00 x00 x00)
(L (W xc4 x48 xfe xff x00 x01 x01 x01)) E)
(T (W x45 x26 x22 x84 xe4 x9c xf2 xcb)
(L (W x00 x00 x00 x00 x00 x00 x00 x00)) E))))
(T (W x00 x00 x00 x00 x00 x00 x00 x00)
(T (W xff xff xff xff xff xff xff xff)
(T (W x72 x00 x00 x00 xff xff xff xff)
(T (W x49 xa1 x68 x4a xeb x5f xdd x3d)
(L (W x00 x00 x00 x00 x00 x00 x00 x00))
(L (W xec x00 x00 x00 x02 x00 x00 x00)))
(T (W xff xff xff xff xff xff xff xff)
(L (W xff xff xff xff xa0 x00 x00 x00)) E))
(T (W x00 x00 x00 x00 xd2 x24 xfb xff)
(T (W x18 x00 x00 x00 x0c x00 x00 x00)
(L (W x00 x00 x80 xbf x00 x00 x80 xbf)) E)
(T (W xc4 x00 x00 x00 x02 x00 x00 x00)
(L (W x03 x00 x00 x00 xd8 x00 x00 x00)) E)))
(T (W x68 x00 x00 x00 x5c x00 x00 x00)
(T (W x18 x00 x00 x00 x0c x00 x00 x00)
(T (W xff xff xff xff xff xff xff xff)
(L (W x00 x00 x00 x00 x00 x00 x00 x00))
(L (W x54 x00 x00 x00 x48 x00 x00 x00)))
(T (W x18 x00 x00 x00 x10 x00 x00 x00)
(L (W x00 x00 x00 x00 x00 x00 x00 x00)) E))
(T (W x00 x00 x00 x00 x00 x00 x00 x00)
(T (W xc1 x02 x00 x00 xff xff xff xff)
(L (W x00 x00 x00 x00 x00 x00 x00 x00)) E)
(T (W xff xff xff xff xff xff xff xff)
(L (W x54 x00 x00 x00 x48 x00 x00 x00)) E)))))
(T (W xff xff xff xff xff xff xff xff)
(T (W x00 x00 x00 x00 x00 x00 x00 x00)
(T (W x00 x00 x80 x3f x00 x00 x80 x3f)
(T (W x64 x00 x00 x00 x9c x00 x00 x00)
(T (W x50 x00 x00 x00 x44 x00 x00 x00)
(L (W x0a x00 x00 x00 xff xff xff xff))
(L (W x46 x53 x59 x53 x5f x4e x53 x5f)))
(T (W x00 x00 x80 x3f x00 x00 x80 x3f)
(L (W x00 x00 x80 xbf x00 x00 x80 xbf)) E))
(T (W xbc x00 x00 x00 x14 x00 x00 x00)
(T (W x00 x00 x00 x00 x00 x00 x00 x00)
(L (W x46 x53 x59 x53 x5f x4e x53 x5f)) E)
(T (W x64 x00 x68 x00 x62 x00 x00 x00)
(L (W xff xff xff xff xff xff xff xff)) E)))
(T (W x45 x26 x22 x84 xe4 x9c xf2 xcb)
(T (W xff xff xff xff x03 x00 x00 x00)
(T (W x00 x00 x80 x3f x00 x00 x80 x3f)
(L (W x00 x00 x00 x00 x00 x00 x00 x00))
(L (W x00 x00 x80 xbf x00 x00 x80 xbf)))
(T (W x18 x00 x00 x00 x0c x00 x00 x00)
(L (W x00 x00 x00 x00 x00 x00 x00 x00)) E))
(T (W xff xff xff xff xc4 x00 x00 x00)
(T (W x00 x00 x80 x3f x00 x00 x80 x3f)
(L (W xff xff xff xff xff xff xff xff)) E)
(T (W x45 x26 x22 x84 xe4 x9c xf2 xcb)
(L (W x45 x26 x22 x84 xe4 x9c xf2 xcb)) E))))
(T (W x00 x00 x00 x00 x00 x00 x00 x00)
(T (W x64 x00 x00 x00 x9c x00 x00 x00)
(T (W xff xff xff xff xff xff xff xff)
(T (W xff xff xff xff xff xff xff xff)
(L (W x00 x00 x00 x00 x00 x00 x00 x00))
(L (W x4c xc6 xff xff x13 x00 x00 x00)))
(T (W xff xff xff xff xff xff xff xff)
(L (W xff xff xff xff xc8 x00 x00 x00)) E))
(T (W x6c x00 x00 x00 x60 x00 x00 x00)
(T (W xff xff xff xff xff xff xff xff)
(L (W x54 x00 x00 x00 x48 x00 x00 x00)) E)
(T (W x04 x00 x00 x00 x92 x36 xfd xff)
(L (W xff xff xff xff xff xff xff xff)) E)))
(T (W x00 x00 x80 x3f x00 x00 x80 x3f)
(T (W xff xff xff xff xff xff xff xff)
(T (W x00 x00 x00 x00 x00 x00 x00 x00)
(L (W xbc x00 x00 x00 x32 x00 x00 x00))
(L (W xff xff xff xff xc8 x00 x00 x00)))
(T (W x49 xa1 x68 x4a xeb x5f xdd x3d)
(L (W x54 x00 x00 x00 x48 x00 x00 x00)) E))
(T (W xff xff xff xff xff xff xff xff)
(T (W xff xff xff xff xff xff xff xff)
(L (W x00 x00 x80 xbf x00 x00 x80 xbf)) E)
(T (W xff xff xff xff xff xff xff xff)
(L (W xf2 x73 xff xff x74 x00 x00 x00)) E))))))))))
(T (W x90 x9e x03 x00 xfc x9c x03 x00)
(T (W x40 xfb x02 x00 xc4 xf8 x02 x00)
(T (W x38 x1b x01 x00 x8c x18 x01 x00)
(T (W x00 x00 x00 x00 x00 x00 x00 x00)
(T (W xff xff xff xff xff xff xff xff)
(T (W x00 x00 x00 x00 x00 x00 x00 x00)
(T (W x00 x00 x80 x3f x00 x00 x80 x3f)
(T (W xff xff xff xff xff xff xff xff)
(T (W x00 x00 x00 x00 x00 x00 x00 x00)
(T (W x68 x00 x00 x00 x5c x00 x00 x00)
(L (W x00 x00 x00 x00 xb4 x78 xfd xff))
(L (W x00 x00 x80 xbf x00 x00 x80 xbf)))
(T (W x01 x00 x00 x00 x9c x00 x00 x00)
(L (W x00 x00 x00 x00 x00 x00 x00 x00)) E))
(T (W x6c x00 x00 x00 x60 x00 x00 x00)
(T (W x01 x00 x00 x00 xb0 x00 x00 x00)
(L (W x00 x00 x80 xbf x00 x00 x80 xbf))
(L (W x00 x00 x80 xbf x00 x00 x80 xbf)))
(T (W x6c x76 x32 x00 x22 x00 x00 x00)
(L (W x00 x00 x00 x00 x00 x00 x00 x00)) E)))
(T (W x00 x00 x80 x3f x00 x00 x80 x3f)
(T (W x50 x00 x00 x00 x44 x00 x00 x00)
(T (W x00 x00 x00 x00 xb4 xb8 xfb xff)
(L (W xff xff xff xff xbc x00 x00 x00))
(L (W xff xff xff xff xff xff xff xff)))
(T (W x45 x26 x22 x84 xe4 x9c xf2 xcb)
(L (W x00 x00 x80 xbf x00 x00 x80 xbf)) E))
(T (W x00 x00 x00 x00 x00 x00 x00 x00)
(T (W x00 x00 x00 x00 xb4 x38 xfc xff)
(L (W x00 x00 x00 x00 x00 x00 x00 x00)) E)
(T (W xff xff xff xff x9c x00 x00 x00)
(L (W x22 x37 xff xff x78 x00 x00 x00)) E))))
(T (W xb8 x00 x00 x00 xac x00 x00 x00)
(T (W xb9 x05 x6a xca x08 xc2 x5a xe9)
(T (W x00 x00 x80 x3f x00 x00 x80 x3f)
(T (W x00 x00 x80 x3f x00 x00 x80 x3f)
(L (W x18 x00 x00 x00 x0c x00 x00 x00))
(L (W xff xff xff xff xff xff xff xff)))
(T (W x00 x00 x00 x00 x00 x00 x00 x00)
(L (W x4f x84 x6f x8b xe8 xcb x63 xb7)) E))
(T (W x00 x00 x80 x3f x00 x00 x80 x3f)
(T (W x74 x1e xfc xff x15 x00 x00 x00)
(L (W xff xff xff xff xff xff xff xff)) E)
(T (W x03 x00 x00 x00 xbc x00 x00 x00)
(L (W x00 x00 x80 xbf x00 x00 x80 xbf)) E)))
(T (W x00 x00 x80 x3f x00 x00 x80 x3f)
(T (W x68 x00 x00 x00 x5c x00 x00 x00)
(T (W x00 x00 x80 x3f x00 x00 x80 x3f)
(L (W xff xff xff xff xff xff xff xff))
(L (W x00 x00 x00 x00 x00 x00 x00 x00)))
(T (W x00 x00 x80 x3f x00 x00 x80 x3f)
(L (W xff xff xff xff xff xff xff xff)) E))
(T (W x54 x00 x00 x00 x48 x00 x00 x00)
(T (W x4a x00 x00 x00 xff xff xff xff)
(L (W x00 x00 x00 x00 xb4 x58 xfe xff)) E)
(T (W x00 x00 x80 xbf x00 x00 x80 xbf)
(L (W x00 x00 x00 x00 xa2 x5c xff xff)) E)))))
(T (W x00 x00 x00 x00 x00 x00 x00 x00)
(T (W x22 xc7 xf9 xff x78 x00 x00 x00)
(T (W xff xff xff xff xff xff xff xff)
(T (W x00 x00 x00 x00 x00 x00 x00 x00)
(T (W xa5 x01 x00 x00 xff xff xff xff)
(L (W x00 x00 x80 xbf x00 x00 x80 xbf))
(L (W x54 x00 x00 x00 x48 x00 x00 x00)))
(T (W x00 x00 x80 x3f x00 x00 x80 x3f)
(L (W x30 x32 x5f x43 x4c x45 x41 x52)) E))
(T (W xff xff xff xff xa0 x00 x00 x00)
(T (W xff xff xff xff xff xff xff xff)
(L (W x6c x00 x00 x00 x60 x00 x00 x00)) E)
(T (W x00 x00 x00 x00 x00 x00 x00 x00)
(L (W x00 x00 x00 x00 x00 x00 x00 x00)) E)))
(T (W x00 x00 x80 x3f x00 x00 x80 x3f)
(T (W x00 x00 x80 x3f x00 x00 x80 x3f)
(T (W x00 x00 x00 x00 x00 x00 x00 x00)
(L (W xbc x00 x00 x00 x0a x00 x00 x00))
(L (W xff xff xff xff xff xff xff xff)))
(T (W x6d x34 x38 x32 x00 x00 x00 x00)
(L (W xcc x00 x00 x00 x01 x00 x00 x00)) E))
(T (W xff xff xff xff xbc x00 x00 x00)
(T (W xff xff xff xff xff xff xff xff)
(L (W x45 x26 x22 x84 xe4 x9c xf2 xcb)) E)
(T (W xff xff xff xff xff xff xff xff)
(L (W xff xff xff xff xff xff xff xff)) E))))
(T (W xff xff xff xff xff xff xff xff)
(T (W x72 x25 xfa xff x74 x00 x00 x00)
(T (W xbc x00 x00 x00 xb0 x00 x00 x00)
(T (W xf6 x4b x8d x74 x16 xeb x24 x92)
(L (W xff xff xff xff xff xff xff xff))
(L (W x10 x00 x14 x00 x18 x00 x1c x00)))
(T (W x18 x00 x00 x00 x0c x00 x00 x00)
(L (W x49 xa1 x68 x4a xeb x5f xdd x3d)) E))
(T (W xff xff xff xff xff xff xff xff)
(T (W x00 x00 x80 x3f x00 x00 x80 x3f)
(L (W x00 x00 x00 x00 x12 x28 xfe xff)) E)
(T (W x00 x00 x80 xbf x00 x00 x80 xbf)
(L (W x00 x00 x80 xbf x00 x00 x80 xbf)) E)))
(T (W x45 x26 x22 x84 xe4 x9c xf2 xcb)
(T (W x00 x00 x80 x3f x00 x00 x80 x3f)
(T (W x00 x00 x80 x3f x00 x00 x80 x3f)
(L (W x4f x84 x6f x8b xe8 xcb x63 xb7))
(L (W x00 x00 x00 x00 x00 x00 x00 x00)))
(T (W x00 x00 x80 x3f x00 x00 x80 x3f)
(L (W xff xff xff xff xff xff xff xff)) E))
(T (W x34 x01 x00 x00 x04 x00 x00 x00)
(T (W xb8 x00 x00 x00 xac x00 x00 x00)
(L (W xff xff xff xff xff xff xff xff)) E)
(T (W x18 x00 x00 x00 x0c x00 x00 x00)
(L (W x00 x00 x00 x00 x12 x00 x00 x00)) E))))))
(T (W x00 x00 x80 x3f x00 x00 x80 x3f)
(T (W x01 x00 x00 x00 xa0 x00 x00 x00)
(T (W x00 x00 x01 x01 xc9 x00 x00 x00)
(T (W xff xff xff xff xff xff xff xff)
(T (W x40 x00 x00 x00 x0c x00 x00 x00)
(T (W xff xff xff xff xff xff xff xff)
(L (W x45 x26 x22 x84 xe4 x9c xf2 xcb))
(L (W x00 x00 x80 xbf x00 x00 x80 xbf)))
(T (W x00 x00 x80 x3f x00 x00 x80 x3f)
(L (W x00 x00 x00 x00 x00 x00 x00 x00)) E))
(T (W x00 x00 x00 x00 x00 x00 x00 x00)
(T (W xff xff xff xff xff xff xff xff)
(L (W x00 x00 x80 xbf x00 x00 x80 xbf))
(L (W x00 x00 x10 x00 x14 x00 x18 x00)))
(T (W x00 x00 x80 xbf x00 x00 x80 xbf)
(L (W x00 x00 x00 x00 x00 x00 x00 x00)) E)))
(T (W x45 x26 x22 x84 xe4 x9c xf2 xcb)
(T (W x00 x00 x80 x3f x00 x00 x80 x3f)
(T (W xff xff xff xff xff xff xff xff)
(L (W x22 xbf xfd xff x78 x00 x00 x00))
(L (W xff xff xff xff xff xff xff xff)))
(T (W x00 x00 x80 x3f x00 x00 x80 x3f)
(L (W x6c x00 x00 x00 x60 x00 x00 x00)) E))
(T (W x00 x00 x80 x3f x00 x00 x80 x3f)
(T (W xcc x00 x00 x00 xc0 x00 x00 x00)
(L (W x00 x00 x00 x00 x00 x00 x00 x00)) E)
(T (W xff xff xff xff xff xff xff xff)
(L (W x18 x00 x00 x00 x0c x00 x00 x00)) E))))
(T (W xff xff xff xff xff xff xff xff)
(T (W x68 x00 x00 x00 x5c x00 x00 x00)
(T (W x64 x00 x00 x00 x9c x00 x00 x00)
(T (W x45 x26 x22 x84 xe4 x9c xf2 xcb)
(L (W x03 x00 x00 x00 xcc x00 x00 x00))
(L (W xff xff xff xff xff xff xff xff)))
(T (W x00 x00 x80 x3f x00 x00 x80 x3f)
(L (W x45 x26 x22 x84 xe4 x9c xf2 xcb)) E))
(T (W x50 x00 x00 x00 x44 x00 x00 x00)
(T (W x00 x00 x00 x00 x12 x00 x00 x00)
(L (W xff xff xff xff xff xff xff xff)) E)
(T (W x4f x84 x6f x8b xe8 xcb x63 xb7)
(L (W x44 x22 xff xff x00 x01 x01 x01)) E)))
(T (W x00 x00 x00 x00 x00 x00 x00 x00)
(T (W x00 x00 x80 x3f x00 x00 x80 x3f)
(T (W x00 x00 x80 x3f x00 x00 x80 x3f)
(L (W xff xff xff xff xff xff xff xff))
(L (W x00 x00 x00 x00 x00 x00 x00 x00)))
(T (W x00 x00 x80 x3f x00 x00 x80 x3f)
(L (W xff xff xff xff xff xff xff xff)) E))
(T (W xff xff xff xff xbc x00 x00 x00)
(T (W x28 x00 x00 x00 x10 x00 x00 x00)
(L (W xc4 x00 x00 x00 x02 x00 x00 x00)) E)
(T (W x00 x00 x80 xbf x00 x00 x80 xbf)
(L (W x00 x00 x00 x00 x00 x00 x00 x00)) E)))))
(T (W xff xff xff xff xff xff xff xff)
(T (W x00 x00 x00 x00 x00 x00 x00 x00)
(T (W x20 x01 x00 x00 x04 x00 x00 x00)
(T (W x00 x00 x00 x00 x00 x00 x00 x00)
(T (W x00 x00 x00 x00 x00 x00 x00 x00)
(L (W x72 x8d xfd xff x74 x00 x00 x00))
(L (W xbc x00 x00 x00 x1e x00 x00 x00)))
(T (W x00 x00 x00 x00 x00 x00 x00 x00)
(L (W x00 x00 x00 x00 x00 x00 x00 x00)) E))
(T (W xff xff xff xff x03 x00 x00 x00)
(T (W x4b x00 x00 x00 xff xff xff xff)
(L (W x1b x00 x00 x00 x1e x00 x00 x00)) E)
(T (W x00 x00 x00 x00 x01 x00 x00 x00)
(L (W x00 x00 x00 x00 x00 x00 x00 x00)) E)))
(T (W x00 x00 x80 x3f x00 x00 x80 x3f)
(T (W x50 x00 x00 x00 x44 x00 x00 x00)
(T (W x00 x00 x00 x00 x00 x00 x00 x00)
(L (W xff xff xff xff xff xff xff xff))
(L (W x00 x00 x01 x01 xb2 x01 x00 x00)))
(T (W x00 x00 x00 x00 x00 x00 x00 x00)
(L (W xff xff xff xff xff xff xff xff)) E))
(T (W x00 x00 x00 x00 x00 x00 x00 x00)
(T (W xff xff xff xff xff xff xff xff)
(L (W x00 x00 x80 xbf x00 x00 x80 xbf)) E)
(T (W x00 x00 x00 x00 x00 x00 x00 x00)
(L (W xff xff xff xff xff xff xff xff)) E))))
(T (W xff xff xff xff xff xff xff xff)
(T (W x44 x32 xfa xff x00 x01 x01 x01)
(T (W x44 xb2 xfa xff x00 x01 x01 x01)
(T (W x4f x84 x6f x8b xe8 xcb x63 xb7)
(L (W x45 x26 x22 x84 xe4 x9c xf2 xcb))
(L (W xff xff xff xff xff xff xff xff)))
(T (W x18 x00 x00 x00 x10 x00 x00 x00)
(L (W x00 x00 x80 xbf x00 x00 x80 xbf)) E))
(T (W x45 x44 x00 x00 x00 x00 x00 x00)
(T (W x00 x00 x80 x3f x00 x00 x80 x3f)
(L (W x46 x53 x59 x53 x5f x4e x53 x5f)) E)
(T (W x6c x00 x00 x00 x60 x00 x00 x00)
(L (W x5c x00 x00 x00 x50 x00 x00 x00)) E)))
(T (W x00 x00 x00 x00 x00 x00 x00 x00)
(T (W x45 x26 x22 x84 xe4 x9c xf2 xcb)
(T (W x45 x26 x22 x84 xe4 x9c xf2 xcb)
(L (W x00 x00 x00 x00 x00 x00 x00 x00))
(L (W x00 x00 x00 x00 x00 x00 x00 x00)))
(T (W x00 x00 x00 x00 x58 x00 x5c x00)
(L (W x30 x32 x5f x43 x4c x45 x41 x52)) E))
(T (W x4f x84 x6f x8b xe8 xcb x63 xb7)
(T (W x50 x00 x00 x00 x44 x00 x00 x00)
(L (W xff xff xff xff xff xff xff xff)) E)
(T (W xff xff xff xff xff xff xff xff)
(L (W x45 x26 x22 x84 xe4 x9c xf2 xcb)) E)))))))
(T (W x00 x00 x80 x3f x00 x00 x80 x3f)
(T (W x00 x00 x00 x00 x00 x00 x00 x00)
(T (W x00 x00 x80 x3f x00 x00 x80 x3f)
(T (W xbc x00 x00 x00 xb0 x00 x00 x00)
(T (W x00 x00 x80 x3f x00 x00 x80 x3f)
(T (W xff xff xff xff x03 x00 x00 x00)
(T (W x00 x00 x00 x00 x00 x00 x00 x00)
(L (W x00 x00 x00 x00 x00 x00 x00 x00))
(L (W xff xff xff xff xff xff xff xff)))
(T (W x74 x82 xfc xff x18 x00 x00 x00)
(L (W x00 x00 x80 xbf x00 x00 x80 xbf)) E))
(T (W x72 xf9 xfa xff x74 x00 x00 x00)
(T (W x45 x26 x22 x84 xe4 x9c xf2 xcb)
(L (W x00 x00 x01 x01 x5c x00 x00 x00))
(L (W xff xff xff xff xff xff xff xff)))
(T (W x00 x00 x80 xbf x00 x00 x80 xbf)
(L (W x22 xfb xfe xff x78 x00 x00 x00)) E)))
(T (W x48 x03 x00 x00 x34 x02 x00 x00)
(T (W x74 xc2 xfa xff x27 x00 x00 x00)
(T (W x00 x00 x00 x00 x00 x00 x00 x00)
(L (W xff xff xff xff x04 x00 x00 x00))
(L (W x00 x00 x80 xbf x00 x00 x80 xbf)))
(T (W x2a xd7 x36 x97 x85 x30 x63 x5f)
(L (W x00 x00 x01 x01 x72 x00 x00 x00)) E))
(T (W xff xff xff xff xff xff xff xff)
(T (W x00 x00 x00 x00 x12 x00 x00 x00)
(L (W xff xff xff xff xff xff xff xff)) E)
(T (W x4f x84 x6f x8b xe8 xcb x63 xb7)
(L (W x00 x00 x00 x00 x00 x00 x00 x00)) E))))
(T (W x00 x00 x00 x00 x00 x00 x00 x00)
(T (W x72 x19 xfa xff x74 x00 x00 x00)
(T (W x00 x00 x00 x00 x00 x00 x00 x00)
(T (W x13 x00 x00 x00 x0c x00 x00 x00)
(L (W x00 x00 x00 x00 x00 x00 x00 x00))
(L (W x00 x00 x00 x00 x00 x00 x00 x00)))
(T (W xff xff xff xff xff xff xff xff)
(L (W x03 x00 x00 x00 xd0 x00 x00 x00)) E))
(T (W x5f x77 x69 x6c x64 x5f x70 x6f)
(T (W x00 x00 x00 x00 xb4 x1c xfc xff)
(L (W x00 x00 x00 x00 x00 x00 x00 x00)) E)
(T (W xff xff xff xff xff xff xff xff)
(L (W x2f x00 x00 x00 xff xff xff xff)) E)))
(T (W xff xff xff xff x04 x00 x00 x00)
(T (W xff xff xff xff xff xff xff xff)
(T (W xff xff xff xff xff xff xff xff)
(L (W x00 x00 x80 xbf x00 x00 x80 xbf))
(L (W x18 x00 x00 x00 x0c x00 x00 x00)))
(T (W xff xff xff xff xff xff xff xff)
(L (W x00 x00 x80 xbf x00 x00 x80 xbf)) E))
(T (W x74 x62 xfb xff x10 x00 x00 x00)
(T (W x44 x5e xfc xff x00 x01 x01 x01)
(L (W x45 x44 x00 x00 x00 x00 x00 x00)) E)
(T (W x00 x00 x01 x01 x54 x01 x00 x00)
(L (W x45 x26 x22 x84 xe4 x9c xf2 xcb)) E)))))
(T (W x6c x00 x00 x00 x60 x00 x00 x00)
(T (W xff xff xff xff xff xff xff xff)
(T (W x00 x00 x00 x00 x00 x00 x00 x00)
(T (W x45 x26 x22 x84 xe4 x9c xf2 xcb)
(T (W x00 x00 x80 x3f x00 x00 x80 x3f)
(L (W x00 x00 x00 x00 x00 x00 x00 x00))
(L (W x1b x93 xd4 x61 xf7 xe3 xb2 x83)))
(T (W xff xff xff xff xff xff xff xff)
(L (W x13 x00 x00 x00 x16 x00 x00 x00)) E))
(T (W x00 x00 x00 x00 x00 x00 x00 x00)
(T (W x00 x00 x80 x3f x00 x00 x80 x3f)
(L (W x00 x00 x00 x00 x00 x00 x00 x00)) E)
(T (W x00 x01 x01 x01 xd9 x00 x00 x00)
(L (W xff xff xff xff xff xff xff xff)) E)))
(T (W xff xff xff xff xff xff xff xff)
(T (W x00 x00 x00 x00 x02 x00 x00 x00)
(T (W x18 x00 x00 x00 x0c x00 x00 x00)
(L (W x00 x00 x00 x00 x12 x00 x00 x00))
(L (W x6c x00 x00 x00 x60 x00 x00 x00)))
(T (W x28 x00 x2c x00 x30 x00 x34 x00)
(L (W x00 x00 x00 x00 x00 x00 x00 x00)) E))
(T (W x68 x00 x00 x00 x5c x00 x00 x00)
(T (W x00 x00 x80 x3f x00 x00 x80 x3f)
(L (W x2a x00 x00 x00 xff xff xff xff)) E)
(T (W x00 x01 x01 x01 x5a xa5 xfd xff)
(L (W x00 x00 x80 xbf x00 x00 x80 xbf)) E))))
(T (W x00 x00 x00 x00 x00 x00 x00 x00)
(T (W xda x3d xfd xff x00 x00 x01 x01)
(T (W x00 x00 x00 x00 x00 x00 x00 x00)
(T (W x00 x00 x00 x00 xb4 xac xfb xff)
(L (W x00 x00 x00 x00 x00 x00 x00 x00))
(L (W x00 x00 x00 x00 x00 x00 x00 x00)))
(T (W x00 x00 x00 x00 x00 x00 x00 x00)
(L (W xff xff xff xff xff xff xff xff)) E))
(T (W x00 x00 x80 x3f x00 x00 x80 x3f)
(T (W xb8 x00 x00 x00 x14 x00 x00 x00)
(L (W x00 x00 x80 xbf x00 x00 x80 xbf)) E)
(T (W x00 x00 x00 x00 x52 x2a xfd xff)
(L (W x45 x44 x00 x00 x00 x00 x00 x00)) E)))
(T (W xb8 x00 x00 x00 xac x00 x00 x00)
(T (W xff xff xff xff xff xff xff xff)
(T (W xda xfd xfe xff x00 x00 x01 x01)
(L (W xff xff xff xff xff xff xff xff))
(L (W xff xff xff xff xff xff xff xff)))
(T (W xff xff xff xff xff xff xff xff)
(L (W x45 x26 x22 x84 xe4 x9c xf2 xcb)) E))
(T (W x45 x26 x22 x84 xe4 x9c xf2 xcb)
(T (W x00 x00 x00 x00 x00 x00 x00 x00)
(L (W x00 x00 x80 xbf x00 x00 x80 xbf)) E)
(T (W x00 x00 x00 x00 x00 x00 x00 x00)
(L (W x45 x26 x22 x84 xe4 x9c xf2 xcb)) E))))))
(T (W xff xff xff xff xff xff xff xff)
(T (W xff xff xff xff x18 x00 x00 x00)
(T (W x45 x26 x22 x84 xe4 x9c xf2 xcb)
(T (W x00 x00 x00 x00 x00 x00 x00 x00)
(T (W x00 x00 x00 x00 xb4 x84 xfa xff)
(T (W x00 x00 x00 x00 x00 x00 x00 x00)
(L (W x1a x00 x00 x00 xff xff xff xff))
(L (W xff xff xff xff xff xff xff xff)))
(T (W xff xff xff xff xff xff xff xff)
(L (W x50 x00 x00 x00 x44 x00 x00 x00)) E))
(T (W xa0 x03 x00 x00 x70 x02 x00 x00)
(T (W x00 x00 x80 x3f x00 x00 x80 x3f)
(L (W x30 x32 x5f x43 x4c x45 x41 x52)) E)
(T (W x00 x00 x80 xbf x00 x00 x80 xbf)
(L (W xff xff xff xff xb0 x00 x00 x00)) E)))
(T (W xff xff xff xff xff xff xff xff)
(T (W x00 x00 x00 x00 x00 x00 x00 x00)
(T (W x00 x00 x80 x3f x00 x00 x80 x3f)
(L (W x00 x00 x00 x00 x00 x00 x00 x00))
(L (W x00 x00 x80 xbf x00 x00 x80 xbf)))
(T (W xff xff xff xff xff xff xff xff)
(L (W x46 x53 x59 x53 x5f x4e x53 x5f)) E))
(T (W x00 x00 x00 x00 x00 x00 x00 x00)
(T (W x45 x26 x22 x84 xe4 x9c xf2 xcb)
(L (W xff xff xff xff xff xff xff xff)) E)
(T (W x6c x00 x00 x00 x60 x00 x00 x00)
(L (W x00 x00 x80 xbf x00 x00 x80 xbf)) E))))
(T (W x00 x00 x00 x00 x00 x00 x00 x00)
(T (W x40 x00 x00 x00 x10 x00 x00 x00)
(T (W x00 x00 x00 x00 x00 x00 x00 x00)
(T (W x00 x00 x80 x3f x00 x00 x80 x3f)
(L (W x72 xa1 xfd xff x74 x00 x00 x00))
(L (W xff xff xff xff xff xff xff xff)))
(T (W x00 x00 x00 x00 x00 x00 x00 x00)
(L (W xff xff xff xff xff xff xff xff)) E))
(T (W x00 x00 x00 x00 x00 x00 x00 x00)
(T (W xcc x00 x00 x00 xc0 x00 x00 x00)
(L (W x00 x00 x80 xbf x00 x00 x80 xbf)) E)
(T (W xff xff xff xff xff xff xff xff)
(L (W x00 x00 x01 x01 xac x00 x00 x00)) E)))
(T (W x18 x00 x00 x00 x10 x00 x00 x00)
(T (W xff xff xff xff xff xff xff xff)
(T (W xff xff xff xff xff xff xff xff)
(L (W x00 x00 x80 xbf x00 x00 x80 xbf))
(L (W xff xff xff xff xc8 x00 x00 x00)))
(T (W x00 x00 x80 x3f x00 x00 x80 x3f)
(L (W x00 x00 x80 xbf x00 x00 x80 xbf)) E))
(T (W x00 x00 x80 x3f x00 x00 x80 x3f)
(T (W x00 x00 x80 x3f x00 x00 x80 x3f)
(L (W x00 x00 x00 x00 x00 x00 x00 x00)) E)
(T (W x00 x00 x00 x00 x00 x00 x00 x00)
(L (W x50 x00 x00 x00 x44 x00 x00 x00)) E)))))
(T (W x00 x00 x00 x00 x00 x00 x00 x00)
(T (W x00 x00 x80 x3f x00 x00 x80 x3f)
(T (W x00 x00 x80 x3f x00 x00 x80 x3f)
(T (W x68 x00 x00 x00 x5c x00 x00 x00)
(T (W xff xff xff xff xff xff xff xff)
(L (W x4c x45 x41 x52 x45 x44 x00 x00))
(L (W x00 x00 x00 x00 x12 x00 x00 x00)))
(T (W xb8 x00 x00 x00 xac x00 x00 x00)
(L (W xff xff xff xff xc0 x00 x00 x00)) E))
(T (W x00 x00 x80 x3f x00 x00 x80 x3f)
(T (W x6c x00 x00 x00 x60 x00 x00 x00)
(L (W x49 xa1 x68 x4a xeb x5f xdd x3d)) E)
(T (W x03 x00 x00 x00 xbc x00 x00 x00)
(L (W xff xff xff xff xff xff xff xff)) E)))
(T (W xff xff xff xff xff xff xff xff)
(T (W xff xff xff xff xff xff xff xff)
(T (W x18 x00 x00 x00 x10 x00 x00 x00)
(L (W x00 x00 x80 xbf x00 x00 x80 xbf))
(L (W x45 x26 x22 x84 xe4 x9c xf2 xcb)))
(T (W xff xff xff xff xff xff xff xff)
(L (W x45 x26 x22 x84 xe4 x9c xf2 xcb)) E))
(T (W xff xff xff xff x9c x00 x00 x00)
(T (W x00 x00 x80 x3f x00 x00 x80 x3f)
(L (W xa4 x04 x00 x00 x88 x03 x00 x00)) E)
(T (W xff xff xff xff xff xff xff xff)
(L (W x22 x53 xff xff x78 x00 x00 x00)) E))))
(T (W x45 x26 x22 x84 xe4 x9c xf2 xcb)
(T (W xff xff xff xff xff xff xff xff)
(T (W x00 x00 x00 x00 x00 x00 x00 x00)
(T (W x00 x00 x01 x01 x9c x01 x00 x00)
(L (W x50 x00 x00 x00 x44 x00 x00 x00))
(L (W x45 x26 x22 x84 xe4 x9c xf2 xcb)))
(T (W x00 x00 x00 x00 x00 x00 x00 x00)
(L (W xff xff xff xff xff xff xff xff)) E))
(T (W x18 x00 x00 x00 x0c x00 x00 x00)
(T (W x74 x3a xfc xff x15 x00 x00 x00)
(L (W x44 x36 xfe xff x00 x01 x01 x01)) E)
(T (W x00 x00 x00 x00 x00 x00 x00 x00)
(L (W x06 x00 x00 x00 xc8 x05 x00 x00)) E)))
(T (W xc0 x00 x00 x00 xb4 x00 x00 x00)
(T (W x00 x00 x00 x00 x00 x00 x00 x00)
(T (W x00 x00 x00 x00 xa2 xf8 xfb xff)
(L (W xff xff xff xff xff xff xff xff))
(L (W xff xff xff xff xff xff xff xff)))
(T (W x72 xf1 xfc xff x74 x00 x00 x00)
(L (W x22 xf3 xfe xff x78 x00 x00 x00)) E))
(T (W xff xff xff xff xff xff xff xff)
(T (W x5a x84 xff xff xc2 x01 x00 x00)
(L (W x00 x00 x80 xbf x00 x00 x80 xbf)) E)
(T (W x00 x00 x00 x00 x00 x00 x00 x00)
(L (W xff xff xff xff xc8 x00 x00 x00)) E))))))))
(T (W xff xff xff xff xff xff xff xff)
(T (W x45 x26 x22 x84 xe4 x9c xf2 xcb)
(T (W xff xff xff xff x10 x00 x00 x00)
(T (W x00 x00 x80 x3f x00 x00 x80 x3f)
(T (W x22 xb9 xf9 xff x78 x00 x00 x00)
(T (W x24 x00 x00 x00 x0c x00 x00 x00)
(T (W x00 x00 x80 x3f x00 x00 x80 x3f)
(T (W xb0 x00 x00 x00 x64 x00 x00 x00)
(L (W xff xff xff xff xff xff xff xff))
(L (W x45 x26 x22 x84 xe4 x9c xf2 xcb)))
(T (W xff xff xff xff xff xff xff xff)
(L (W x00 x00 x00 x00 x00 x00 x00 x00)) E))
(T (W x00 x00 x00 x00 x00 x00 x00 x00)
(T (W x34 x01 x00 x00 x04 x00 x00 x00)
(L (W x03 x00 x00 x00 xd8 x00 x00 x00))
(L (W x3c x00 x40 x00 x44 x00 x48 x00)))
(T (W x00 x00 x00 x00 x00 x00 x00 x00)
(L (W x00 x00 x80 xbf x00 x00 x80 xbf)) E)))
(T (W xff xff xff xff xff xff xff xff)
(T (W xff xff xff xff xff xff xff xff)
(T (W xff xff xff xff xff xff xff xff)
(L (W xff xff xff xff xff xff xff xff))
(L (W x00 x00 x00 x00 x00 x00 x00 x00)))
(T (W xff xff xff xff xff xff xff xff)
(L (W xff xff xff xff xff xff xff xff)) E))
(T (W x00 x00 x80 x3f x00 x00 x80 x3f)
(T (W x4b x00 x00 x00 xff xff xff xff)
(L (W x00 x00 x80 xbf x00 x00 x80 xbf)) E)
(T (W x00 x00 x00 x00 x52 x38 xfd xff)
(L (W xff xff xff xff xff xff xff xff)) E))))
(T (W xff xff xff xff xff xff xff xff)
(T (W x45 x26 x22 x84 xe4 x9c xf2 xcb)
(T (W x9c x00 x00 x00 xff xff xff xff)
(T (W x01 x00 x00 x00 xb0 x00 x00 x00)
(L (W xff xff xff xff xff xff xff xff))
(L (W x00 x00 x01 x01 x6f x00 x00 x00)))
(T (W x00 x00 x80 x3f x00 x00 x80 x3f)
(L (W x54 x00 x00 x00 x48 x00 x00 x00)) E))
(T (W xff xff xff xff x03 x00 x00 x00)
(T (W x00 x00 x80 x3f x00 x00 x80 x3f)
(L (W x00 x00 x00 x00 x00 x00 x00 x00)) E)
(T (W xcc x29 xfd xff x1f x00 x00 x00)
(L (W xbc x00 x00 x00 x0a x00 x00 x00)) E)))
(T (W x68 x00 x00 x00 x5c x00 x00 x00)
(T (W x18 x00 x00 x00 x0c x00 x00 x00)
(T (W x6c x00 x00 x00 x60 x00 x00 x00)
(L (W x30 x32 x5f x43 x4c x45 x41 x52))
(L (W x00 x00 x80 xbf x00 x00 x80 xbf)))
(T (W x68 x00 x00 x00 x5c x00 x00 x00)
(L (W xa4 x04 x00 x00 x88 x03 x00 x00)) E))
(T (W xcc x00 x00 x00 xc0 x00 x00 x00)
(T (W x46 x53 x59 x53 x5f x4e x53 x5f)
(L (W xff xff xff xff xff xff xff xff)) E)
(T (W x18 x00 x00 x00 x0c x00 x00 x00)
(L (W x00 x00 x00 x00 x00 x00 x00 x00)) E)))))
(T (W x00 x00 x80 x3f x00 x00 x80 x3f)
(T (W xbc x00 x00 x00 xb0 x00 x00 x00)
(T (W xff xff xff xff xff xff xff xff)
(T (W x00 x00 x00 x00 x00 x00 x00 x00)
(T (W x00 x00 x00 x00 x12 x00 x00 x00)
(L (W xff xff xff xff xff xff xff xff))
(L (W xcc x00 x00 x00 x02 x00 x00 x00)))
(T (W x01 x00 x00 x00 x9c x00 x00 x00)
(L (W x49 xa1 x68 x4a xeb x5f xdd x3d)) E))
(T (W xff xff xff xff xff xff xff xff)
(T (W x00 x00 x00 x00 x00 x00 x00 x00)
(L (W xff xff xff xff xff xff xff xff)) E)
(T (W xcc xed xff xff x01 x01 x01 x01)
(L (W x22 x09 xff xff x78 x00 x00 x00)) E)))
(T (W x72 x47 xfa xff x74 x00 x00 x00)
(T (W x64 x00 x00 x00 x9c x00 x00 x00)
(T (W x00 x00 x00 x00 x00 x00 x00 x00)
(L (W xff xff xff xff xff xff xff xff))
(L (W x49 xa1 x68 x4a xeb x5f xdd x3d)))
(T (W x00 x00 x62 x00 x90 x00 x0c x00)
(L (W xff xff xff xff xff xff xff xff)) E))
(T (W x00 x00 x00 x00 x00 x00 x00 x00)
(T (W x00 x00 x00 x00 x00 x00 x00 x00)
(L (W x68 x00 x00 x00 x5c x00 x00 x00)) E)
(T (W x00 x00 x00 x00 x00 x00 x00 x00)
(L (W x00 x00 x00 x00 x00 x00 x00 x00)) E))))
(T (W x00 x00 x00 x00 x00 x00 x00 x00)
(T (W x18 x00 x00 x00 x10 x00 x00 x00)
(T (W xd2 xb1 xfd xff x00 x00 x01 x01)
(T (W x45 x26 x22 x84 xe4 x9c xf2 xcb)
(L (W xff xff xff xff xff xff xff xff))
(L (W x00 x00 x00 x00 x00 x00 x00 x00)))
(T (W xa1 xbd x33 x97 x85 xaa x5f x5f)
(L (W x54 x00 x00 x00 x48 x00 x00 x00)) E))
(T (W x67 x72 x6f x75 x70 x5f x6c x65)
(T (W x50 x00 x00 x00 x44 x00 x00 x00)
(L (W x00 x00 x00 x00 x00 x00 x00 x00)) E)
(T (W xff xff xff xff xff xff xff xff)
(L (W x18 x00 x00 x00 x10 x00 x00 x00)) E)))
(T (W x44 x6c xfa xff x00 x01 x01 x01)
(T (W x01 x00 x00 x00 x3e x00 x00 x00)
(T (W xff xff xff xff xff xff xff xff)
(L (W x6c x00 x00 x00 x60 x00 x00 x00))
(L (W x00 x00 x80 xbf x00 x00 x80 xbf)))
(T (W xff xff xff xff xff xff xff xff)
(L (W x00 x00 x00 x00 x00 x00 x00 x00)) E))
(T (W x45 x26 x22 x84 xe4 x9c xf2 xcb)
(T (W xff xff xff xff xff xff xff xff)
(L (W x00 x00 x00 x00 x00 x00 x00 x00)) E)
(T (W x00 x00 x01 x01 x54 x01 x00 x00)
(L (W x00 x00 x80 xbf x00 x00 x80 xbf)) E))))))
(T (W x18 x00 x00 x00 x0c x00 x00 x00)
(T (W xff xff xff xff xff xff xff xff)
(T (W x00 x00 x00 x00 x00 x00 x00 x00)
(T (W xda x13 xfd xff x00 x00 x01 x01)
(T (W x00 x00 x80 x3f x00 x00 x80 x3f)
(T (W x00 x00 x00 x00 x00 x00 x00 x00)
(L (W xd8 x37 x00 x00 xc4 x36 x00 x00))
(L (W x18 x00 x00 x00 x10 x00 x00 x00)))
(T (W xb8 x00 x00 x00 xac x00 x00 x00)
(L (W x45 x26 x22 x84 xe4 x9c xf2 xcb)) E))
(T (W x22 x01 xfb xff x78 x00 x00 x00)
(T (W x00 x00 x00 x00 x00 x00 x00 x00)
(L (W xff xff xff xff xff xff xff xff))
(L (W x00 x00 x00 x00 x00 x00 x00 x00)))
(T (W x00 x00 x00 x00 x01 x00 x00 x00)
(L (W x00 x00 x80 xbf x00 x00 x80 xbf)) E)))
(T (W x18 x00 x00 x00 x0c x00 x00 x00)
(T (W xff xff xff xff xff xff xff xff)
(T (W x00 x00 x00 x00 x00 x00 x00 x00)
(L (W xff xff xff xff xff xff xff xff))
(L (W x00 x00 x00 x00 x00 x00 x00 x00)))
(T (W x18 x00 x00 x00 x10 x00 x00 x00)
(L (W xff xff xff xff xff xff xff xff)) E))
(T (W xff xff xff xff xff xff xff xff)
(T (W x74 x03 x00 x00 x4c x02 x00 x00)
(L (W x44 x44 xfe xff x00 x01 x01 x01)) E)
(T (W x00 x00 x00 x00 x00 x00 x00 x00)
(L (W xa4 x04 x00 x00 x88 x03 x00 x00)) E))))
(T (W xc1 x02 x00 x00 xff xff xff xff)
(T (W xff xff xff xff x04 x00 x00 x00)
(T (W x4a xa8 xfd xff x9c x00 x00 x00)
(T (W x00 x00 x00 x00 x00 x00 x00 x00)
(L (W x49 xa1 x68 x4a xeb x5f xdd x3d))
(L (W x49 xa1 x68 x4a xeb x5f xdd x3d)))
(T (W xff xff xff xff xff xff xff xff)
(L (W x00 x00 x80 xbf x00 x00 x80 xbf)) E))
(T (W xff xff xff xff xff xff xff xff)
(T (W x54 x00 x00 x00 x48 x00 x00 x00)
(L (W x00 x00 x00 x00 x00 x00 x00 x00)) E)
(T (W x6c x00 x00 x00 x60 x00 x00 x00)
(L (W xff xff xff xff xff xff xff xff)) E)))
(T (W x72 x5f xfa xff x74 x00 x00 x00)
(T (W x3e x00 x00 x00 x9c x00 x00 x00)
(T (W x44 xe4 xfb xff x00 x01 x01 x01)
(L (W x00 x00 x00 x00 x00 x00 x00 x00))
(L (W x45 x26 x22 x84 xe4 x9c xf2 xcb)))
(T (W x88 x00 x00 x00 xff xff xff xff)
(L (W x00 x00 x00 x00 x00 x00 x00 x00)) E))
(T (W x46 x53 x59 x53 x5f x4e x53 x5f)
(T (W x00 x00 x00 x00 x00 x00 x00 x00)
(L (W xff xff xff xff xff xff xff xff)) E)
(T (W xff xff xff xff xff xff xff xff)
(L (W x45 x26 x22 x84 xe4 x9c xf2 xcb)) E)))))
(T (W xc9 x00 x00 x00 xff xff xff xff)
(T (W x45 x26 x22 x84 xe4 x9c xf2 xcb)
(T (W x00 x00 x00 x00 x00 x00 x00 x00)
(T (W x00 x00 x00 x00 x00 x00 x00 x00)
(T (W x00 x00 x80 x3f x00 x00 x80 x3f)
(L (W xff xff xff xff xff xff xff xff))
(L (W xff xff xff xff xff xff xff xff)))
(T (W x00 x00 x80 x3f x00 x00 x80 x3f)
(L (W x00 x00 x80 xbf x00 x00 x80 xbf)) E))
(T (W x6b x65 x5f x6c x76 x31 x00 x00)
(T (W x00 x00 x80 x3f x00 x00 x80 x3f)
(L (W xff xff xff xff xff xff xff xff)) E)
(T (W x00 x00 x80 xbf x00 x00 x80 xbf)
(L (W xcc x00 x00 x00 x01 x00 x00 x00)) E)))
(T (W x00 x00 x80 x3f x00 x00 x80 x3f)
(T (W x00 x00 x00 x00 xb4 xd2 xfa xff)
(T (W x00 x00 x80 x3f x00 x00 x80 x3f)
(L (W x00 x00 x00 x00 x00 x00 x00 x00))
(L (W x00 x00 x00 x00 x00 x00 x00 x00)))
(T (W x00 x00 x80 x3f x00 x00 x80 x3f)
(L (W x00 x00 x00 x00 x00 x00 x00 x00)) E))
(T (W x50 x00 x00 x00 x44 x00 x00 x00)
(T (W x00 x00 x00 x00 x00 x00 x00 x00)
(L (W xff xff xff xff xb0 x00 x00 x00)) E)
(T (W x00 x00 x80 xbf x00 x00 x80 xbf)
(L (W x00 x00 x00 x00 x00 x00 x00 x00)) E))))
(T (W x00 x00 x00 x00 x00 x00 x00 x00)
(T (W xb8 x00 x00 x00 xac x00 x00 x00)
(T (W xff xff xff xff xff xff xff xff)
(T (W x18 x00 x00 x00 x0c x00 x00 x00)
(L (W x00 x00 x80 xbf x00 x00 x80 xbf))
(L (W x00 x00 x00 x00 x00 x00 x00 x00)))
(T (W xff xff xff xff xff xff xff xff)
(L (W x68 x00 x00 x00 x5c x00 x00 x00)) E))
(T (W x00 x00 x00 x00 x00 x00 x00 x00)
(T (W xcc x00 x00 x00 xc0 x00 x00 x00)
(L (W x00 x00 x80 xbf x00 x00 x80 xbf)) E)
(T (W xff xff xff xff xff xff xff xff)
(L (W xcc x00 x00 x00 x02 x00 x00 x00)) E)))
(T (W x00 x00 x80 x3f x00 x00 x80 x3f)
(T (W xff xff xff xff xff xff xff xff)
(T (W xff xff xff xff xff xff xff xff)
(L (W xff xff xff xff xa0 x00 x00 x00))
(L (W x19 x00 x00 x00 x1c x00 x00 x00)))
(T (W x00 x00 x00 x00 x00 x00 x00 x00)
(L (W x00 x00 x80 xbf x00 x00 x80 xbf)) E))
(T (W x45 x26 x22 x84 xe4 x9c xf2 xcb)
(T (W xff xff xff xff xff xff xff xff)
(L (W x00 x00 x00 x00 x00 x00 x00 x00)) E)
(T (W x72 x6f xfd xff x74 x00 x00 x00)
(L (W x54 x00 x00 x00 x48 x00 x00 x00)) E)))))))
(T (W x45 x26 x22 x84 xe4 x9c xf2 xcb)
(T (W x45 x26 x22 x84 xe4 x9c xf2 xcb)
(T (W x6c x00 x00 x00 x60 x00 x00 x00)
(T (W xff xff xff xff xff xff xff xff)
(T (W x40 x00 x00 x00 x9c x00 x00 x00)
(T (W xff xff xff xff xff xff xff xff)
(T (W x00 x00 x80 x3f x00 x00 x80 x3f)
(L (W x00 x00 x80 xbf x00 x00 x80 xbf))
(L (W xcc x8d xff xff x12 x00 x00 x00)))
(T (W x00 x00 x00 x00 x00 x00 x00 x00)
(L (W xff xff xff xff xff xff xff xff)) E))
(T (W x00 x00 x00 x00 x00 x00 x00 x00)
(T (W x00 x00 x80 x3f x00 x00 x80 x3f)
(L (W x00 x00 x00 x00 x00 x00 x00 x00))
(L (W x00 x00 x80 xbf x00 x00 x80 xbf)))
(T (W x00 x00 x00 x00 x01 x00 x00 x00)
(L (W xff xff xff xff xff xff xff xff)) E)))
(T (W x00 x00 x00 x00 x00 x00 x00 x00)
(T (W x00 x00 x80 x3f x00 x00 x80 x3f)
(T (W x44 xc0 xfb xff x00 x01 x01 x01)
(L (W x00 x00 x00 x00 x00 x00 x00 x00))
(L (W x18 x00 x00 x00 x0c x00 x00 x00)))
(T (W x00 x00 x00 x00 x00 x00 x00 x00)
(L (W x00 x00 x00 x00 x00 x00 x00 x00)) E))
(T (W x4c x45 x41 x52 x45 x44 x00 x00)
(T (W x54 x00 x00 x00 x48 x00 x00 x00)
(L (W x00 x00 x00 x00 x52 x3c xfe xff)) E)
(T (W x44 x40 xfd xff x00 x01 x01 x01)
(L (W x00 x00 x80 xbf x00 x00 x80 xbf)) E))))
(T (W x00 x00 x80 x3f x00 x00 x80 x3f)
(T (W x00 x00 x00 x00 x00 x00 x00 x00)
(T (W x00 x00 x80 x3f x00 x00 x80 x3f)
(T (W x45 x26 x22 x84 xe4 x9c xf2 xcb)
(L (W x00 x00 x80 xbf x00 x00 x80 xbf))
(L (W x45 x26 x22 x84 xe4 x9c xf2 xcb)))
(T (W x70 x5f x77 x69 x6c x64 x5f x70)
(L (W x04 x00 x00 x00 x70 x03 x00 x00)) E))
(T (W x00 x00 x80 x3f x00 x00 x80 x3f)
(T (W x4b x00 x00 x00 xff xff xff xff)
(L (W x21 x00 x00 x00 x24 x00 x00 x00)) E)
(T (W x00 x00 x00 x00 x12 x00 x00 x00)
(L (W x00 x00 x00 x00 x00 x00 x00 x00)) E)))
(T (W x40 x00 x00 x00 x10 x00 x00 x00)
(T (W x00 x00 x00 x00 x00 x00 x00 x00)
(T (W x00 x00 x00 x00 x00 x00 x00 x00)
(L (W x45 x26 x22 x84 xe4 x9c xf2 xcb))
(L (W xff xff xff xff xff xff xff xff)))
(T (W x00 x00 x00 x00 x00 x00 x00 x00)
(L (W x00 x00 x00 x00 xb4 xde xfe xff)) E))
(T (W x00 x00 x80 x3f x00 x00 x80 x3f)
(T (W xff xff xff xff xff xff xff xff)
(L (W x00 x00 x80 xbf x00 x00 x80 xbf)) E)
(T (W x00 x00 x00 x00 x00 x00 x00 x00)
(L (W xff xff xff xff xff xff xff xff)) E)))))
(T (W x64 x00 x00 x00 xa0 x00 x00 x00)
(T (W x00 x00 x00 x00 xea x67 xfd xff)
(T (W x6c x00 x00 x00 x60 x00 x00 x00)
(T (W xff xff xff xff xff xff xff xff)
(T (W xff xff xff xff xff xff xff xff)
(L (W x4f x84 x6f x8b xe8 xcb x63 xb7))
(L (W x45 x26 x22 x84 xe4 x9c xf2 xcb)))
(T (W x74 x94 xfc xff x1e x00 x00 x00)
(L (W xff xff xff xff xff xff xff xff)) E))
(T (W x00 x00 x80 x3f x00 x00 x80 x3f)
(T (W x18 x00 x00 x00 x10 x00 x00 x00)
(L (W x00 x00 x80 xbf x00 x00 x80 xbf)) E)
(T (W x45 x26 x22 x84 xe4 x9c xf2 xcb)
(L (W x00 x00 x00 x00 xa2 x12 xff xff)) E)))
(T (W x00 x00 x00 x00 x00 x00 x00 x00)
(T (W x00 x00 x00 x00 x00 x00 x00 x00)
(T (W xff xff xff xff xff xff xff xff)
(L (W x00 x00 x80 xbf x00 x00 x80 xbf))
(L (W x03 x00 x00 x00 xd8 x00 x00 x00)))
(T (W xff xff xff xff xff xff xff xff)
(L (W x00 x00 x80 xbf x00 x00 x80 xbf)) E))
(T (W xff xff xff xff xff xff xff xff)
(T (W x44 x50 xfc xff x00 x01 x01 x01)
(L (W x00 x00 x00 x00 x00 x00 x00 x00)) E)
(T (W x03 x00 x00 x00 xf0 x00 x00 x00)
(L (W xff xff xff xff xb0 x00 x00 x00)) E))))
(T (W x72 xeb xf9 xff x74 x00 x00 x00)
(T (W x45 x26 x22 x84 xe4 x9c xf2 xcb)
(T (W x00 x00 x00 x00 x00 x00 x00 x00)
(T (W xa1 x01 x00 x00 xff xff xff xff)
(L (W x00 x00 x00 x00 x00 x00 x00 x00))
(L (W x00 x00 x80 xbf x00 x00 x80 xbf)))
(T (W x00 x00 x80 x3f x00 x00 x80 x3f)
(L (W x00 x00 x00 x00 x00 x00 x00 x00)) E))
(T (W xff xff xff xff xc4 x00 x00 x00)
(T (W x00 x00 x00 x00 x00 x00 x00 x00)
(L (W xff xff xff xff xff xff xff xff)) E)
(T (W x00 x00 x00 x00 x00 x00 x00 x00)
(L (W x4f x84 x6f x8b xe8 xcb x63 xb7)) E)))
(T (W xff xff xff xff xff xff xff xff)
(T (W x01 x00 x00 x00 x04 x00 x00 x00)
(T (W x00 x00 x00 x00 x00 x00 x00 x00)
(L (W x00 x00 x00 x00 x12 xee xfd xff))
(L (W x00 x00 x01 x01 x36 x00 x00 x00)))
(T (W x00 x00 x00 x00 x00 x00 x00 x00)
(L (W xff xff xff xff xff xff xff xff)) E))
(T (W xff xff xff xff xff xff xff xff)
(T (W x45 x26 x22 x84 xe4 x9c xf2 xcb)
(L (W x12 x00 x00 x00 x15 x00 x00 x00)) E)
(T (W x00 x00 x80 xbf x00 x00 x80 xbf)
(L (W x54 x02 x00 x00 x38 x01 x00 x00)) E))))))
(T (W x00 x00 x01 x01 xc9 x00 x00 x00)
(T (W x00 x00 x00 x00 x00 x00 x00 x00)
(T (W x00 x00 x80 x3f x00 x00 x80 x3f)
(T (W x50 x00 x00 x00 x44 x00 x00 x00)
(T (W xff xff xff xff xff xff xff xff)
(T (W x00 x00 x80 x3f x00 x00 x80 x3f)
(L (W x00 x00 x00 x00 x00 x00 x00 x00))
(L (W x4f x84 x6f x8b xe8 xcb x63 xb7)))
(T (W x00 x00 x00 x00 x00 x00 x00 x00)
(L (W xff xff xff xff xff xff xff xff)) E))
(T (W x45 x26 x22 x84 xe4 x9c xf2 xcb)
(T (W x22 x05 xfc xff x78 x00 x00 x00)
(L (W x49 xa1 x68 x4a xeb x5f xdd x3d)) E)
(T (W xff xff xff xff xff xff xff xff)
(L (W xff xff xff xff xff xff xff xff)) E)))
(T (W x00 x00 x00 x00 x00 x00 x00 x00)
(T (W x00 x00 x80 x3f x00 x00 x80 x3f)
(T (W xff xff xff xff xff xff xff xff)
(L (W x00 x00 x80 xbf x00 x00 x80 xbf))
(L (W xb4 x00 x00 x00 x50 x00 x00 x00)))
(T (W x5f x4d x4b x52 x47 x5f x56 x41)
(L (W x49 xa1 x68 x4a xeb x5f xdd x3d)) E))
(T (W x00 x00 x80 x3f x00 x00 x80 x3f)
(T (W x00 x00 x80 x3f x00 x00 x80 x3f)
(L (W x00 x00 x00 x00 x32 x4c xfe xff)) E)
(T (W xff xff xff xff xc0 x00 x00 x00)
(L (W x00 x00 x00 x00 xb4 x46 xff xff)) E))))
(T (W x45 x26 x22 x84 xe4 x9c xf2 xcb)
(T (W x00 x00 x00 x00 x00 x00 x00 x00)
(T (W x00 x00 x80 x3f x00 x00 x80 x3f)
(T (W xff xff xff xff xff xff xff xff)
(L (W xff xff xff xff x9c x00 x00 x00))
(L (W x00 x00 x00 x00 x00 x00 x00 x00)))
(T (W x00 x00 x80 x3f x00 x00 x80 x3f)
(L (W x46 x53 x59 x53 x5f x4e x53 x5f)) E))
(T (W x00 x00 x80 x3f x00 x00 x80 x3f)
(T (W xb4 x05 x00 x00 x84 x04 x00 x00)
(L (W xff xff xff xff xff xff xff xff)) E)
(T (W x00 x00 x00 x00 x00 x00 x00 x00)
(L (W x00 x00 x00 x00 x00 x00 x00 x00)) E)))
(T (W xda x77 xfd xff x00 x00 x01 x01)
(T (W xcc xf5 xfa xff x1e x00 x00 x00)
(T (W x00 x00 x00 x00 x00 x00 x00 x00)
(L (W xff xff xff xff x9c x00 x00 x00))
(L (W x5c x00 x00 x00 xff xff xff xff)))
(T (W x61 x64 x65 x72 x5f x77 x69 x6c)
(L (W x19 x00 x00 x00 x1c x00 x00 x00)) E))
(T (W x18 x00 x00 x00 x0c x00 x00 x00)
(T (W x00 x00 x00 x00 x00 x00 x00 x00)
(L (W x00 x00 x00 x00 xb4 x66 xfe xff)) E)
(T (W x00 x00 x80 xbf x00 x00 x80 xbf)
(L (W xff xff xff xff xff xff xff xff)) E)))))
(T (W x45 x26 x22 x84 xe4 x9c xf2 xcb)
(T (W x44 xd8 xf9 xff x00 x01 x01 x01)
(T (W xff xff xff xff xff xff xff xff)
(T (W x54 x00 x00 x00 x58 x00 x00 x00)
(T (W x9f x01 x00 x00 xff xff xff xff)
(L (W x00 x00 x80 xbf x00 x00 x80 xbf))
(L (W x22 x95 xff xff x78 x00 x00 x00)))
(T (W xff xff xff xff xff xff xff xff)
(L (W xff xff xff xff xff xff xff xff)) E))
(T (W x12 x00 x00 x00 x46 x53 x59 x53)
(T (W xcc x00 x00 x00 xc0 x00 x00 x00)
(L (W x22 x15 xfe xff x78 x00 x00 x00)) E)
(T (W xcc x25 xfd xff x28 x00 x00 x00)
(L (W x00 x00 x00 x00 x00 x00 x00 x00)) E)))
(T (W x00 x00 x00 x00 x00 x00 x00 x00)
(T (W x00 x00 x00 x00 x00 x00 x00 x00)
(T (W xff xff xff xff xff xff xff xff)
(L (W x00 x00 x00 x00 xb4 xd6 xfd xff))
(L (W xff xff xff xff xff xff xff xff)))
(T (W x00 x00 x00 x00 x00 x00 x00 x00)
(L (W x22 xd5 xfe xff x78 x00 x00 x00)) E))
(T (W x00 x00 x00 x00 x00 x00 x00 x00)
(T (W xff xff xff xff xff xff xff xff)
(L (W x00 x00 x80 xbf x00 x00 x80 xbf)) E)
(T (W x45 x44 x00 x00 x00 x00 x00 x00)
(L (W xff xff xff xff xff xff xff xff)) E))))
(T (W x50 x00 x00 x00 x44 x00 x00 x00)
(T (W x00 x00 x00 x00 x00 x00 x00 x00)
(T (W x45 x26 x22 x84 xe4 x9c xf2 xcb)
(T (W x00 x00 x00 x00 x00 x00 x00 x00)
(L (W x45 x26 x22 x84 xe4 x9c xf2 xcb))
(L (W x00 x00 x80 xbf x00 x00 x80 xbf)))
(T (W x00 x00 x80 x3f x00 x00 x80 x3f)
(L (W x00 x00 x00 x00 x00 x00 x00 x00)) E))
(T (W xa5 x01 x00 x00 xff xff xff xff)
(T (W x00 x00 x80 x3f x00 x00 x80 x3f)
(L (W xff xff xff xff xff xff xff xff)) E)
(T (W x00 x00 x80 xbf x00 x00 x80 xbf)
(L (W x00 x00 x80 xbf x00 x00 x80 xbf)) E)))
(T (W xff xff xff xff xff xff xff xff)
(T (W x00 x00 x80 x3f x00 x00 x80 x3f)
(T (W x00 x00 x80 x3f x00 x00 x80 x3f)
(L (W x00 x00 x00 x00 x12 x00 x00 x00))
(L (W x00 x00 x00 x00 x00 x00 x00 x00)))
(T (W xff xff xff xff x03 x00 x00 x00)
(L (W xff xff xff xff xff xff xff xff)) E))
(T (W x70 x5f x6c x65 x61 x64 x65 x72)
(T (W x00 x00 x80 x3f x00 x00 x80 x3f)
(L (W xff xff xff xff xff xff xff xff)) E)
(T (W x00 x00 x80 xbf x00 x00 x80 xbf)
(L (W x00 x00 x00 x00 xa2 x7a xff xff)) E)))))))))
(T (W xd0 xec x01 x00 xc4 xe5 x01 x00)
(T (W x88 x89 x00 x00 x3c x87 x00 x00)
(T (W x00 x00 x00 x00 x00 x00 x00 x00)
(T (W xff xff xff xff xff xff xff xff)
(T (W x00 x00 x00 x00 x00 x00 x00 x00)
(T (W x00 x00 x80 x3f x00 x00 x80 x3f)
(T (W xff xff xff xff xff xff xff xff)
(T (W x00 x00 x00 x00 x00 x00 x00 x00)
(T (W x44 x7b xfb xff x00 x01 x01 x01)
(L (W x17 x00 x00 x00 x19 x00 x00 x00))
(L (W x6c x00 x00 x00 x60 x00 x00 x00)))
(T (W xb8 x00 x00 x00 xac x00 x00 x00)
(L (W x00 x00 x00 x00 x00 x00 x00 x00)) E))
(T (W x54 x00 x00 x00 x00 x00 x00 x00)
(T (W xff xff xff xff xff xff xff xff)
(L (W x00 x00 x80 xbf x00 x00 x80 xbf))
(L (W x54 x00 x00 x00 x48 x00 x00 x00)))
(T (W x45 x26 x22 x84 xe4 x9c xf2 xcb)
(L (W x00 x00 x00 x00 x00 x00 x00 x00)) E)))
(T (W x72 x36 xfa xff x74 x00 x00 x00)
(T (W x64 x00 x00 x00 x9c x00 x00 x00)
(T (W xff xff xff xff xff xff xff xff)
(L (W xff xff xff xff xff xff xff xff))
(L (W xff xff xff xff xff xff xff xff)))
(T (W x18 x00 x00 x00 x10 x00 x00 x00)
(L (W x72 xb6 xfe xff x74 x00 x00 x00)) E))
(T (W x4f x84 x6f x8b xe8 xcb x63 xb7)
(T (W xff xff xff xff xff xff xff xff)
(L (W x00 x00 x00 x00 x00 x00 x00 x00)) E)
(T (W xff xff xff xff xff xff xff xff)
(L (W xff xff xff xff xb0 x00 x00 x00)) E))))
(T (W xff xff xff xff xff xff xff xff)
(T (W x00 x00 x00 x00 x00 x00 x00 x00)
(T (W xff xff xff xff xff xff xff xff)
(T (W x00 x00 x80 x3f x00 x00 x80 x3f)
(L (W xff xff xff xff xff xff xff xff))
(L (W xff xff xff xff xff xff xff xff)))
(T (W x00 x00 x00 x00 x00 x00 x00 x00)
(L (W x00 x00 x80 xbf x00 x00 x80 xbf)) E))
(T (W x00 x00 x80 x3f x00 x00 x80 x3f)
(T (W x4f x84 x6f x8b xe8 xcb x63 xb7)
(L (W xff xff xff xff xff xff xff xff)) E)
(T (W xff xff xff xff xff xff xff xff)
(L (W x44 x1b xff xff x00 x01 x01 x01)) E)))
(T (W x00 x00 x80 x3f x00 x00 x80 x3f)
(T (W x00 x00 x00 x00 xb4 xd9 xfa xff)
(T (W x00 x00 x80 x3f x00 x00 x80 x3f)
(L (W x00 x00 x01 x01 x9f x01 x00 x00))
(L (W x00 x00 x00 x00 x00 x00 x00 x00)))
(T (W x00 x00 x80 x3f x00 x00 x80 x3f)
(L (W xff xff xff xff xff xff xff xff)) E))
(T (W x18 x00 x00 x00 x10 x00 x00 x00)
(T (W x00 x00 x00 x00 x00 x00 x00 x00)
(L (W x17 x00 x00 x00 x1a x00 x00 x00)) E)
(T (W x22 x58 xfd xff x78 x00 x00 x00)
(L (W x00 x00 x00 x00 x00 x00 x00 x00)) E)))))
(T (W x00 x00 x80 x3f x00 x00 x80 x3f)
(T (W x18 x00 x00 x00 x0c x00 x00 x00)
(T (W xff xff xff xff xff xff xff xff)
(T (W x00 x00 x00 x00 x00 x00 x00 x00)
(T (W x00 x00 x00 x00 x00 x00 x00 x00)
(L (W x45 x26 x22 x84 xe4 x9c xf2 xcb))
(L (W x45 x26 x22 x84 xe4 x9c xf2 xcb)))
(T (W x00 x00 x80 x3f x00 x00 x80 x3f)
(L (W x00 x00 x00 x00 x00 x00 x00 x00)) E))
(T (W xff xff xff xff xff xff xff xff)
(T (W x00 x00 x00 x00 x52 x07 xfc xff)
(L (W x18 x00 x00 x00 x10 x00 x00 x00)) E)
(T (W x00 x00 x80 xbf x00 x00 x80 xbf)
(L (W x00 x00 x80 xbf x00 x00 x80 xbf)) E)))
(T (W x00 x00 x80 x3f x00 x00 x80 x3f)
(T (W x50 x00 x00 x00 x44 x00 x00 x00)
(T (W x00 x00 x00 x00 x00 x00 x00 x00)
(L (W xff xff xff xff xff xff xff xff))
(L (W x18 x00 x00 x00 x0c x00 x00 x00)))
(T (W x45 x26 x22 x84 xe4 x9c xf2 xcb)
(L (W xff xff xff xff xff xff xff xff)) E))
(T (W x00 x00 x00 x00 x04 x00 x00 x00)
(T (W xff xff xff xff xff xff xff xff)
(L (W x00 x00 x80 xbf x00 x00 x80 xbf)) E)
(T (W xcc x58 xfd xff x1b x00 x00 x00)
(L (W xff xff xff xff xff xff xff xff)) E))))
(T (W x00 x00 x00 x00 x82 x50 xff xff)
(T (W x45 x26 x22 x84 xe4 x9c xf2 xcb)
(T (W xff xff xff xff xff xff xff xff)
(T (W x00 x00 x00 x00 x00 x00 x00 x00)
(L (W xff xff xff xff xff xff xff xff))
(L (W xff xff xff xff xff xff xff xff)))
(T (W x64 x00 x00 x00 x9c x00 x00 x00)
(L (W x00 x00 x80 xbf x00 x00 x80 xbf)) E))
(T (W xff xff xff xff xff xff xff xff)
(T (W x00 x00 x80 x3f x00 x00 x80 x3f)
(L (W x46 x53 x59 x53 x5f x4e x53 x5f)) E)
(T (W x18 x00 x00 x00 x0c x00 x00 x00)
(L (W x6c x00 x00 x00 x60 x00 x00 x00)) E)))
(T (W x00 x00 x80 x3f x00 x00 x80 x3f)
(T (W x00 x00 x80 x3f x00 x00 x80 x3f)
(T (W x68 x00 x00 x00 x5c x00 x00 x00)
(L (W x00 x00 x80 xbf x00 x00 x80 xbf))
(L (W x45 x26 x22 x84 xe4 x9c xf2 xcb)))
(T (W x68 x00 x00 x00 x5c x00 x00 x00)
(L (W x00 x00 x00 x00 x00 x00 x00 x00)) E))
(T (W x00 x00 x00 x00 x12 x00 x00 x00)
(T (W xff xff xff xff xff xff xff xff)
(L (W xff xff xff xff xff xff xff xff)) E)
(T (W xff xff xff xff xff xff xff xff)
(L (W x00 x00 x00 x00 x00 x00 x00 x00)) E))))))
(T (W x22 x90 xf9 xff x78 x00 x00 x00)
(T (W xff xff xff xff xff xff xff xff)
(T (W x00 x00 x00 x00 x00 x00 x00 x00)
(T (W xff xff xff xff xff xff xff xff)
(T (W x00 x00 x00 x00 x00 x00 x00 x00)
(T (W xff xff xff xff xff xff xff xff)
(L (W xff xff xff xff xbc x00 x00 x00))
(L (W x6c x00 x00 x00 x60 x00 x00 x00)))
(T (W x01 x00 x00 x00 x9c x00 x00 x00)
(L (W x00 x00 x00 x00 x00 x00 x00 x00)) E))
(T (W x00 x00 x80 x3f x00 x00 x80 x3f)
(T (W xff xff xff xff xff xff xff xff)
(L (W x03 x00 x00 x00 xd8 x00 x00 x00))
(L (W x38 x00 x3c x00 x40 x00 x44 x00)))
(T (W xff xff xff xff xdc x00 x00 x00)
(L (W x45 x26 x22 x84 xe4 x9c xf2 xcb)) E)))
(T (W x00 x00 x80 x3f x00 x00 x80 x3f)
(T (W x44 xc3 xfa xff x00 x01 x01 x01)
(T (W x00 x00 x00 x00 x00 x00 x00 x00)
(L (W x45 x26 x22 x84 xe4 x9c xf2 xcb))
(L (W x00 x00 x00 x00 xa2 xc5 xff xff)))
(T (W x45 x26 x22 x84 xe4 x9c xf2 xcb)
(L (W x18 x00 x00 x00 x0c x00 x00 x00)) E))
(T (W x50 x00 x00 x00 x44 x00 x00 x00)
(T (W xff xff xff xff xff xff xff xff)
(L (W x45 x26 x22 x84 xe4 x9c xf2 xcb)) E)
(T (W x00 x00 x00 x00 x00 x00 x00 x00)
(L (W xff xff xff xff xff xff xff xff)) E))))
(T (W xff xff xff xff xff xff xff xff)
(T (W x72 x1e xfa xff x74 x00 x00 x00)
(T (W xff xff xff xff xff xff xff xff)
(T (W xff xff xff xff xff xff xff xff)
(L (W x38 x00 x3c x00 x40 x00 x44 x00))
(L (W x2c x00 x30 x00 x34 x00 x38 x00)))
(T (W xff xff xff xff xff xff xff xff)
(L (W x00 x00 x80 xbf x00 x00 x80 xbf)) E))
(T (W xff xff xff xff xff xff xff xff)
(T (W x00 x00 x00 x00 x00 x00 x00 x00)
(L (W x00 x00 x00 x00 x00 x00 x00 x00)) E)
(T (W x00 x00 x80 xbf x00 x00 x80 xbf)
(L (W xb4 x00 x00 x00 x78 x00 x00 x00)) E)))
(T (W x50 x00 x00 x00 x44 x00 x00 x00)
(T (W x45 x26 x22 x84 xe4 x9c xf2 xcb)
(T (W x00 x00 x80 x3f x00 x00 x80 x3f)
(L (W x30 x32 x5f x43 x4c x45 x41 x52))
(L (W x00 x00 x00 x00 x00 x00 x00 x00)))
(T (W x50 x00 x00 x00 x44 x00 x00 x00)
(L (W xa4 x04 x00 x00 x88 x03 x00 x00)) E))
(T (W xd2 x68 xfe xff x00 x00 x01 x01)
(T (W x00 x00 x00 x00 x00 x00 x00 x00)
(L (W xff xff xff xff xff xff xff xff)) E)
(T (W x21 x00 x00 x00 x24 x00 x00 x00)
(L (W x00 x00 x00 x00 x00 x00 x00 x00)) E)))))
(T (W xff xff xff xff xff xff xff xff)
(T (W x00 x00 x00 x00 x00 x00 x00 x00)
(T (W x00 x00 x00 x00 x00 x00 x00 x00)
(T (W x00 x00 x00 x00 x00 x00 x00 x00)
(T (W x4f x84 x6f x8b xe8 xcb x63 xb7)
(L (W xc0 x00 x00 x00 x01 x00 x00 x00))
(L (W xff xff xff xff xff xff xff xff)))
(T (W x00 x00 x80 x3f x00 x00 x80 x3f)
(L (W x4f x84 x6f x8b xe8 xcb x63 xb7)) E))
(T (W xff xff xff xff xff xff xff xff)
(T (W x00 x00 x00 x00 x00 x00 x00 x00)
(L (W xff xff xff xff xff xff xff xff)) E)
(T (W x00 x00 x00 x00 x00 x00 x00 x00)
(L (W x00 x00 x80 xbf x00 x00 x80 xbf)) E)))
(T (W x00 x00 x80 x3f x00 x00 x80 x3f)
(T (W x72 xce xfa xff x74 x00 x00 x00)
(T (W x00 x00 x80 x3f x00 x00 x80 x3f)
(L (W x5d x00 x00 x00 xff xff xff xff))
(L (W x30 x32 x5f x43 x4c x45 x41 x52)))
(T (W x00 x00 x00 x00 x00 x00 x00 x00)
(L (W xff xff xff xff xff xff xff xff)) E))
(T (W x00 x00 x80 x3f x00 x00 x80 x3f)
(T (W x45 x44 x00 x00 x00 x00 x00 x00)
(L (W x00 x00 x00 x00 xb4 x51 xfe xff)) E)
(T (W x00 x00 x80 xbf x00 x00 x80 xbf)
(L (W x00 x00 x00 x00 x00 x00 x00 x00)) E))))
(T (W x40 x02 x00 x00 x28 x01 x00 x00)
(T (W x18 x00 x00 x00 x10 x00 x00 x00)
(T (W xff xff xff xff xff xff xff xff)
(T (W x00 x00 x80 x3f x00 x00 x80 x3f)
(L (W x00 x00 x80 xbf x00 x00 x80 xbf))
(L (W x5d x00 x00 x00 xff xff xff xff)))
(T (W xff xff xff xff xff xff xff xff)
(L (W x00 x00 x80 xbf x00 x00 x80 xbf)) E))
(T (W x00 x00 x00 x00 x00 x00 x00 x00)
(T (W x50 x00 x00 x00 x44 x00 x00 x00)
(L (W x00 x00 x00 x00 x00 x00 x00 x00)) E)
(T (W x18 x00 x00 x00 x10 x00 x00 x00)
(L (W x14 x00 x00 x00 x0c x00 x00 x00)) E)))
(T (W x00 x00 x80 x3f x00 x00 x80 x3f)
(T (W x00 x00 x80 x3f x00 x00 x80 x3f)
(T (W x01 x00 x00 x00 xb0 x00 x00 x00)
(L (W x6c x00 x00 x00 x60 x00 x00 x00))
(L (W x22 xf0 xff xff x78 x00 x00 x00)))
(T (W x00 x00 x00 x00 x00 x00 x00 x00)
(L (W x00 x00 x00 x00 x00 x00 x00 x00)) E))
(T (W x00 x00 x80 x3f x00 x00 x80 x3f)
(T (W xb8 x00 x00 x00 xac x00 x00 x00)
(L (W x45 x44 x00 x00 x00 x00 x00 x00)) E)
(T (W x94 x06 x00 x00 x68 x05 x00 x00)
(L (W x00 x00 x80 xbf x00 x00 x80 xbf)) E)))))))
(T (W x6c x00 x00 x00 x60 x00 x00 x00)
(T (W x00 x00 x00 x00 x00 x00 x00 x00)
(T (W xd4 x20 x00 x00 xc0 x1f x00 x00)
(T (W xff xff xff xff xff xff xff xff)
(T (W x00 x00 x80 x3f x00 x00 x80 x3f)
(T (W xff xff xff xff xff xff xff xff)
(T (W x00 x00 x00 x00 x00 x00 x00 x00)
(L (W x00 x00 x00 x00 x00 x00 x00 x00))
(L (W xff xff xff xff xff xff xff xff)))
(T (W x00 x00 x00 x00 x00 x00 x00 x00)
(L (W x00 x00 x00 x00 xb4 x7d xfe xff)) E))
(T (W xff xff xff xff xff xff xff xff)
(T (W x00 x00 x80 x3f x00 x00 x80 x3f)
(L (W x30 x32 x5f x43 x4c x45 x41 x52))
(L (W x2c x00 x30 x00 x34 x00 x38 x00)))
(T (W x28 x00 x00 x00 x1c x00 x00 x00)
(L (W x18 x00 x00 x00 x0c x00 x00 x00)) E)))
(T (W x00 x00 x00 x00 x00 x00 x00 x00)
(T (W x45 x26 x22 x84 xe4 x9c xf2 xcb)
(T (W x00 x00 x80 x3f x00 x00 x80 x3f)
(L (W x00 x00 x00 x00 x00 x00 x00 x00))
(L (W x22 xbc xff xff x78 x00 x00 x00)))
(T (W x00 x00 x00 x00 x00 x00 x00 x00)
(L (W x30 x32 x5f x43 x4c x45 x41 x52)) E))
(T (W x00 x00 x01 x01 x9c x01 x00 x00)
(T (W x00 x00 x00 x00 x00 x00 x00 x00)
(L (W xff xff xff xff xff xff xff xff)) E)
(T (W x00 x00 x80 xbf x00 x00 x80 xbf)
(L (W x00 x00 x80 xbf x00 x00 x80 xbf)) E))))
(T (W x00 x00 x80 x3f x00 x00 x80 x3f)
(T (W x90 x03 x00 x00 x7c x02 x00 x00)
(T (W x00 x00 x00 x00 x00 x00 x00 x00)
(T (W x00 x00 x00 x00 x00 x00 x00 x00)
(L (W x49 xa1 x68 x4a xeb x5f xdd x3d))
(L (W x54 x00 x00 x00 x48 x00 x00 x00)))
(T (W x5a xad xff xff xb6 x01 x00 x00)
(L (W xff xff xff xff xff xff xff xff)) E))
(T (W x00 x00 x00 x00 x00 x00 x00 x00)
(T (W xff xff xff xff xff xff xff xff)
(L (W x22 x1c xfe xff x78 x00 x00 x00)) E)
(T (W x3c x02 x00 x00 x30 x01 x00 x00)
(L (W x00 x00 x00 x00 x00 x00 x00 x00)) E)))
(T (W xff xff xff xff xff xff xff xff)
(T (W x01 x00 x00 x00 x04 x00 x00 x00)
(T (W x45 x44 x00 x00 x00 x00 x00 x00)
(L (W x6c x00 x00 x00 x60 x00 x00 x00))
(L (W xff xff xff xff xff xff xff xff)))
(T (W x00 x00 x00 x00 x00 x00 x00 x00)
(L (W x00 x00 x80 xbf x00 x00 x80 xbf)) E))
(T (W x4f x84 x6f x8b xe8 xcb x63 xb7)
(T (W xb8 x00 x00 x00 x28 x00 x00 x00)
(L (W x00 x00 x00 x00 x00 x00 x00 x00)) E)
(T (W x46 x53 x59 x53 x5f x4e x53 x5f)
(L (W xff xff xff xff xc8 x00 x00 x00)) E)))))
(T (W x45 x26 x22 x84 xe4 x9c xf2 xcb)
(T (W xff xff xff xff xff xff xff xff)
(T (W x00 x00 x80 x3f x00 x00 x80 x3f)
(T (W x64 x00 x00 x00 x9c x00 x00 x00)
(T (W x00 x00 x80 x3f x00 x00 x80 x3f)
(L (W x12 x00 x00 x00 x46 x53 x59 x53))
(L (W x00 x00 x00 x00 x00 x00 x00 x00)))
(T (W xff xff xff xff xff xff xff xff)
(L (W xff xff xff xff xff xff xff xff)) E))
(T (W x00 x00 x80 x3f x00 x00 x80 x3f)
(T (W x6c x00 x00 x00 x60 x00 x00 x00)
(L (W x49 xa1 x68 x4a xeb x5f xdd x3d)) E)
(T (W x00 x00 x00 x00 x00 x00 x00 x00)
(L (W xff xff xff xff xff xff xff xff)) E)))
(T (W x00 x00 x00 x00 x82 x5b xff xff)
(T (W x00 x00 x00 x00 x00 x00 x00 x00)
(T (W xff xff xff xff xff xff xff xff)
(L (W x45 x26 x22 x84 xe4 x9c xf2 xcb))
(L (W x18 x00 x00 x00 x10 x00 x00 x00)))
(T (W x00 x00 x80 x3f x00 x00 x80 x3f)
(L (W x49 xa1 x68 x4a xeb x5f xdd x3d)) E))
(T (W x18 x00 x00 x00 x10 x00 x00 x00)
(T (W x68 x00 x00 x00 x5c x00 x00 x00)
(L (W x00 x00 x00 x00 x00 x00 x00 x00)) E)
(T (W xff xff xff xff x98 x00 x00 x00)
(L (W x22 x4c xff xff x78 x00 x00 x00)) E))))
(T (W x00 x00 x80 x3f x00 x00 x80 x3f)
(T (W x00 x00 x00 x00 x00 x00 x00 x00)
(T (W x00 x00 x00 x00 x00 x00 x00 x00)
(T (W xff xff xff xff xff xff xff xff)
(L (W x00 x00 x00 x00 x00 x00 x00 x00))
(L (W x00 x00 x80 xbf x00 x00 x80 xbf)))
(T (W x00 x00 x80 x3f x00 x00 x80 x3f)
(L (W x00 x00 x00 x00 x00 x00 x00 x00)) E))
(T (W x45 x26 x22 x84 xe4 x9c xf2 xcb)
(T (W x00 x00 x00 x00 x04 x00 x00 x00)
(L (W xff xff xff xff xff xff xff xff)) E)
(T (W x00 x00 x00 x00 x00 x00 x00 x00)
(L (W x00 x00 x00 x00 x00 x00 x00 x00)) E)))
(T (W xff xff xff xff xff xff xff xff)
(T (W xff xff xff xff xff xff xff xff)
(T (W x30 x32 x5f x43 x4c x45 x41 x52)
(L (W xff xff xff xff xff xff xff xff))
(L (W xff xff xff xff xff xff xff xff)))
(T (W x00 x00 x00 x00 x00 x00 x00 x00)
(L (W xcc x00 x00 x00 x02 x00 x00 x00)) E))
(T (W x01 x00 x00 x00 xb0 x00 x00 x00)
(T (W x00 x00 x00 x00 x00 x00 x00 x00)
(L (W x00 x00 x00 x00 xb4 x6d xfe xff)) E)
(T (W x00 x00 x80 xbf x00 x00 x80 xbf)
(L (W xff xff xff xff xc4 x00 x00 x00)) E))))))
(T (W xff xff xff xff xff xff xff xff)
(T (W x00 x00 x00 x00 x00 x00 x00 x00)
(T (W x00 x00 x80 x3f x00 x00 x80 x3f)
(T (W x00 x00 x80 x3f x00 x00 x80 x3f)
(T (W xff xff xff xff xff xff xff xff)
(T (W x49 xa1 x68 x4a xeb x5f xdd x3d)
(L (W x00 x00 x00 x00 x00 x00 x00 x00))
(L (W x18 x00 x00 x00 x0c x00 x00 x00)))
(T (W x74 x8b xfc xff x12 x00 x00 x00)
(L (W xff xff xff xff xff xff xff xff)) E))
(T (W x00 x00 x00 x00 x00 x00 x00 x00)
(T (W x50 x00 x00 x00 x44 x00 x00 x00)
(L (W x00 x00 x00 x00 x00 x00 x00 x00)) E)
(T (W xb0 x00 x00 x00 x64 x00 x00 x00)
(L (W xff xff xff xff xff xff xff xff)) E)))
(T (W x09 x00 x00 x00 x10 x00 x00 x00)
(T (W x00 x00 x00 x00 x00 x00 x00 x00)
(T (W x01 x00 x00 x00 x19 x00 x00 x00)
(L (W x00 x00 x80 xbf x00 x00 x80 xbf))
(L (W x44 xc7 xff xff x00 x01 x01 x01)))
(T (W x26 x71 x24 x4b xf1 xf1 xc9 x32)
(L (W x00 x00 x00 x00 x00 x00 x00 x00)) E))
(T (W x49 xa1 x68 x4a xeb x5f xdd x3d)
(T (W x00 x00 x80 x3f x00 x00 x80 x3f)
(L (W xff xff xff xff xff xff xff xff)) E)
(T (W x45 x26 x22 x84 xe4 x9c xf2 xcb)
(L (W x00 x00 x80 xbf x00 x00 x80 xbf)) E))))
(T (W x00 x00 x80 x3f x00 x00 x80 x3f)
(T (W x00 x00 x00 x00 x00 x00 x00 x00)
(T (W x00 x00 x00 x00 x00 x00 x00 x00)
(T (W x00 x00 x80 x3f x00 x00 x80 x3f)
(L (W x45 x26 x22 x84 xe4 x9c xf2 xcb))
(L (W x45 x44 x00 x00 x00 x00 x00 x00)))
(T (W x00 x00 x00 x00 x00 x00 x00 x00)
(L (W x00 x00 x00 x00 x12 xa5 xfe xff)) E))
(T (W x00 x00 x80 x3f x00 x00 x80 x3f)
(T (W xff xff xff xff xff xff xff xff)
(L (W x50 x00 x00 x00 x44 x00 x00 x00)) E)
(T (W xc7 x01 x00 x00 xff xff xff xff)
(L (W x30 x32 x5f x43 x4c x45 x41 x52)) E)))
(T (W xff xff xff xff xff xff xff xff)
(T (W xff xff xff xff xff xff xff xff)
(T (W x63 x40 x8e x7f x40 xa2 xa4 xd9)
(L (W x22 xe4 xfd xff x78 x00 x00 x00))
(L (W xff xff xff xff xff xff xff xff)))
(T (W xf4 x00 x00 x00 xc4 x00 x00 x00)
(L (W x00 x00 x00 x00 xb4 xe5 xfe xff)) E))
(T (W x00 x00 x00 x00 xb4 x65 xfb xff)
(T (W x64 x00 x68 x00 x62 x00 x00 x00)
(L (W x00 x00 x80 xbf x00 x00 x80 xbf)) E)
(T (W x00 x00 x00 x00 x00 x00 x00 x00)
(L (W xff xff xff xff xff xff xff xff)) E)))))
(T (W x00 x00 x00 x00 x00 x00 x00 x00)
(T (W x54 x00 x00 x00 x48 x00 x00 x00)
(T (W x18 x00 x00 x00 x0c x00 x00 x00)
(T (W xff xff xff xff x04 x00 x00 x00)
(T (W xff xff xff xff xff xff xff xff)
(L (W x00 x00 x00 x00 x00 x00 x00 x00))
(L (W x45 x26 x22 x84 xe4 x9c xf2 xcb)))
(T (W xff xff xff xff xff xff xff xff)
(L (W xff xff xff xff xff xff xff xff)) E))
(T (W x6c x00 x70 x00 x62 x00 x00 x00)
(T (W x18 x00 x00 x00 x10 x00 x00 x00)
(L (W x00 x00 x80 xbf x00 x00 x80 xbf)) E)
(T (W xff xff xff xff xff xff xff xff)
(L (W x30 x32 x5f x43 x4c x45 x41 x52)) E)))
(T (W x1c x01 x00 x00 x04 x00 x00 x00)
(T (W x74 xdb xfa xff x3e x00 x00 x00)
(T (W xd4 x00 x00 x00 xc8 x00 x00 x00)
(L (W x00 x00 x80 xbf x00 x00 x80 xbf))
(L (W xc4 x00 x00 x00 x02 x00 x00 x00)))
(T (W xda x01 x00 x00 xff xff xff xff)
(L (W x00 x00 x80 xbf x00 x00 x80 xbf)) E))
(T (W x9c x03 x00 x00 x6c x02 x00 x00)
(T (W x18 x00 x00 x00 x0c x00 x00 x00)
(L (W x00 x00 x00 x00 x00 x00 x00 x00)) E)
(T (W xff xff xff xff xff xff xff xff)
(L (W x18 x00 x00 x00 x0c x00 x00 x00)) E))))
(T (W x00 x00 x80 x3f x00 x00 x80 x3f)
(T (W x3e x00 x00 x00 x10 x00 x00 x00)
(T (W x00 x00 x00 x00 x00 x00 x00 x00)
(T (W x4c x45 x41 x52 x45 x44 x00 x00)
(L (W x72 xb2 xfd xff x74 x00 x00 x00))
(L (W x00 x00 x80 xbf x00 x00 x80 xbf)))
(T (W x00 x00 x00 x00 x00 x00 x00 x00)
(L (W x00 x00 x00 x00 x00 x00 x00 x00)) E))
(T (W xff xff xff xff xff xff xff xff)
(T (W x4f x84 x6f x8b xe8 xcb x63 xb7)
(L (W xb8 x00 x00 x00 x64 x00 x00 x00)) E)
(T (W x00 x00 x00 x00 x00 x00 x00 x00)
(L (W x00 x00 x00 x00 x00 x00 x00 x00)) E)))
(T (W xff xff xff xff xff xff xff xff)
(T (W x45 x26 x22 x84 xe4 x9c xf2 xcb)
(T (W x00 x00 x00 x00 x00 x00 x00 x00)
(L (W x00 x00 x00 x00 x32 xfb xfd xff))
(L (W x00 x00 x00 x00 x00 x00 x00 x00)))
(T (W x1f x00 x00 x00 x9c x00 x00 x00)
(L (W xff xff xff xff x9c x00 x00 x00)) E))
(T (W xff xff xff xff xff xff xff xff)
(T (W x70 x5f x77 x69 x6c x64 x5f x70)
(L (W x19 x00 x00 x00 x1c x00 x00 x00)) E)
(T (W x00 x00 x00 x00 x00 x00 x00 x00)
(L (W xff xff xff xff xff xff xff xff)) E))))))))
(T (W x00 x00 x00 x00 x62 x1a xfd xff)
(T (W x00 x00 x80 x3f x00 x00 x80 x3f)
(T (W x00 x00 x00 x00 x00 x00 x00 x00)
(T (W x00 x00 x80 x3f x00 x00 x80 x3f)
(T (W x45 x26 x22 x84 xe4 x9c xf2 xcb)
(T (W x00 x00 x00 x00 x00 x00 x00 x00)
(T (W x50 x00 x00 x00 x44 x00 x00 x00)
(T (W xff xff xff xff xff xff xff xff)
(L (W xff xff xff xff xff xff xff xff))
(L (W xff xff xff xff xc0 x00 x00 x00)))
(T (W xff xff xff xff xff xff xff xff)
(L (W x00 x00 x80 xbf x00 x00 x80 xbf)) E))
(T (W x00 x00 x80 x3f x00 x00 x80 x3f)
(T (W x00 x00 x00 x00 x12 x00 x00 x00)
(L (W xff xff xff xff xff xff xff xff))
(L (W x49 xa1 x68 x4a xeb x5f xdd x3d)))
(T (W x00 x00 x00 x00 x00 x00 x00 x00)
(L (W x00 x00 x80 xbf x00 x00 x80 xbf)) E)))
(T (W xff xff xff xff xff xff xff xff)
(T (W xff xff xff xff xff xff xff xff)
(T (W x13 x00 x00 x00 x10 x00 x00 x00)
(L (W xff xff xff xff xff xff xff xff))
(L (W x00 x00 x00 x00 x00 x00 x00 x00)))
(T (W xff xff xff xff xff xff xff xff)
(L (W xff xff xff xff xff xff xff xff)) E))
(T (W x18 x00 x00 x00 x0c x00 x00 x00)
(T (W x00 x00 x00 x00 x00 x00 x00 x00)
(L (W x18 x00 x00 x00 x0c x00 x00 x00)) E)
(T (W x00 x00 x00 x00 x00 x00 x00 x00)
(L (W x94 x04 x00 x00 x80 x03 x00 x00)) E))))
(T (W x74 xe1 xf9 xff x3c x00 x00 x00)
(T (W x54 x00 x00 x00 x48 x00 x00 x00)
(T (W x00 x00 x00 x00 x00 x00 x00 x00)
(T (W xff xff xff xff xff xff xff xff)
(L (W x00 x00 x00 x00 x00 x00 x00 x00))
(L (W x46 x53 x59 x53 x5f x4e x53 x5f)))
(T (W x00 x00 x80 x3f x00 x00 x80 x3f)
(L (W x18 x00 x00 x00 x10 x00 x00 x00)) E))
(T (W xff xff xff xff xff xff xff xff)
(T (W x00 x00 x80 x3f x00 x00 x80 x3f)
(L (W x00 x00 x00 x00 x12 x00 x00 x00)) E)
(T (W x72 x18 xfd xff x74 x00 x00 x00)
(L (W xff xff xff xff xff xff xff xff)) E)))
(T (W x72 x58 xfa xff x74 x00 x00 x00)
(T (W x64 x00 x00 x00 x9c x00 x00 x00)
(T (W x18 x00 x00 x00 x10 x00 x00 x00)
(L (W x00 x00 x00 x00 x00 x00 x00 x00))
(L (W x22 xda xff xff x78 x00 x00 x00)))
(T (W xff xff xff xff xff xff xff xff)
(L (W x00 x00 x00 x00 x00 x00 x00 x00)) E))
(T (W xff xff xff xff xff xff xff xff)
(T (W x00 x00 x00 x00 x00 x00 x00 x00)
(L (W xff xff xff xff xff xff xff xff)) E)
(T (W xff xff xff xff xff xff xff xff)
(L (W x45 x26 x22 x84 xe4 x9c xf2 xcb)) E)))))
(T (W x00 x00 x80 x3f x00 x00 x80 x3f)
(T (W xff xff xff xff xff xff xff xff)
(T (W x40 x00 x00 x00 x0c x00 x00 x00)
(T (W x00 x00 x80 x3f x00 x00 x80 x3f)
(T (W x00 x00 x00 x00 x00 x00 x00 x00)
(L (W xff xff xff xff xff xff xff xff))
(L (W xff xff xff xff xff xff xff xff)))
(T (W xb8 x00 x00 x00 xac x00 x00 x00)
(L (W x00 x00 x80 xbf x00 x00 x80 xbf)) E))
(T (W xa1 xbc xba x38 x99 xd1 xdf x1c)
(T (W x00 x00 x80 x3f x00 x00 x80 x3f)
(L (W x45 x44 x00 x00 x00 x00 x00 x00)) E)
(T (W xff xff xff xff xff xff xff xff)
(L (W x18 x00 x00 x00 x0c x00 x00 x00)) E)))
(T (W xff xff xff xff x04 x00 x00 x00)
(T (W xff xff xff xff xff xff xff xff)
(T (W x45 x26 x22 x84 xe4 x9c xf2 xcb)
(L (W x00 x00 x00 x00 x32 xd1 xfd xff))
(L (W x00 x00 x80 xbf x00 x00 x80 xbf)))
(T (W x68 x00 x00 x00 x5c x00 x00 x00)
(L (W x30 x32 x5f x43 x4c x45 x41 x52)) E))
(T (W x00 x00 x80 x3f x00 x00 x80 x3f)
(T (W x00 x00 x00 x00 x00 x00 x00 x00)
(L (W xff xff xff xff xff xff xff xff)) E)
(T (W x00 x00 x80 xbf x00 x00 x80 xbf)
(L (W x00 x00 x00 x00 x00 x00 x00 x00)) E))))
(T (W x00 x00 x00 x00 x00 x00 x00 x00)
(T (W xff xff xff xff xff xff xff xff)
(T (W x00 x00 x00 x00 x00 x00 x00 x00)
(T (W x00 x00 x80 x3f x00 x00 x80 x3f)
(L (W xff xff xff xff x14 x00 x00 x00))
(L (W x00 x00 x00 x00 x00 x00 x00 x00)))
(T (W x00 x00 x00 x00 x00 x00 x00 x00)
(L (W x45 x26 x22 x84 xe4 x9c xf2 xcb)) E))
(T (W x00 x00 x00 x00 x00 x00 x00 x00)
(T (W x44 x2d xfc xff x00 x01 x01 x01)
(L (W x00 x00 x80 xbf x00 x00 x80 xbf)) E)
(T (W xff xff xff xff xff xff xff xff)
(L (W xff xff xff xff xff xff xff xff)) E)))
(T (W x18 x00 x00 x00 x10 x00 x00 x00)
(T (W xff xff xff xff xff xff xff xff)
(T (W xff xff xff xff xff xff xff xff)
(L (W xff xff xff xff xa0 x00 x00 x00))
(L (W x72 xe8 xff xff x74 x00 x00 x00)))
(T (W xff xff xff xff xff xff xff xff)
(L (W x00 x00 x80 xbf x00 x00 x80 xbf)) E))
(T (W x00 x00 x80 x3f x00 x00 x80 x3f)
(T (W x5a x7b xff xff x24 x02 x00 x00)
(L (W x00 x00 x00 x00 x00 x00 x00 x00)) E)
(T (W x46 x53 x59 x53 x5f x4e x53 x5f)
(L (W x54 x00 x00 x00 x48 x00 x00 x00)) E))))))
(T (W xff xff xff xff x04 x00 x00 x00)
(T (W xff xff xff xff xff xff xff xff)
(T (W x00 x00 x00 x00 x00 x00 x00 x00)
(T (W x00 x00 x00 x00 x00 x00 x00 x00)
(T (W x6c x00 x00 x00 x60 x00 x00 x00)
(T (W x46 x53 x59 x53 x5f x4e x53 x5f)
(L (W xff xff xff xff xff xff xff xff))
(L (W x03 x00 x00 x00 xd8 x00 x00 x00)))
(T (W xff xff xff xff xff xff xff xff)
(L (W x00 x00 x80 xbf x00 x00 x80 xbf)) E))
(T (W xff xff xff xff x9c x00 x00 x00)
(T (W x00 x00 x00 x00 x00 x00 x00 x00)
(L (W x00 x00 x01 x01 x5c x00 x00 x00))
(L (W x45 x26 x22 x84 xe4 x9c xf2 xcb)))
(T (W x67 x72 x6f x75 x70 x5f x77 x69)
(L (W x22 x02 xff xff x78 x00 x00 x00)) E)))
(T (W xff xff xff xff xff xff xff xff)
(T (W xcf x01 x00 x00 xff xff xff xff)
(T (W x49 xa1 x68 x4a xeb x5f xdd x3d)
(L (W x30 x32 x5f x43 x4c x45 x41 x52))
(L (W x00 x00 x00 x00 x00 x00 x00 x00)))
(T (W xff xff xff xff xff xff xff xff)
(L (W x04 x00 x00 x00 x12 xc3 xfe xff)) E))
(T (W x00 x00 x00 x00 xa2 x47 xfb xff)
(T (W x00 x00 x00 x00 x00 x00 x00 x00)
(L (W xbc x00 x00 x00 x1e x00 x00 x00)) E)
(T (W x00 x00 x80 xbf x00 x00 x80 xbf)
(L (W x00 x00 x00 x00 x00 x00 x00 x00)) E))))
(T (W x00 x00 x00 x00 x00 x00 x00 x00)
(T (W xff xff xff xff xff xff xff xff)
(T (W x00 x00 x00 x00 x00 x00 x00 x00)
(T (W x00 x00 x00 x00 x00 x00 x00 x00)
(L (W x00 x00 x80 xbf x00 x00 x80 xbf))
(L (W xff xff xff xff xff xff xff xff)))
(T (W x17 x00 x00 x00 x10 x00 x00 x00)
(L (W xff xff xff xff xff xff xff xff)) E))
(T (W x70 x5f x6c x65 x61 x64 x65 x72)
(T (W x18 x00 x00 x00 x10 x00 x00 x00)
(L (W x45 x26 x22 x84 xe4 x9c xf2 xcb)) E)
(T (W x18 x00 x00 x00 x10 x00 x00 x00)
(L (W xff xff xff xff xff xff xff xff)) E)))
(T (W x45 x26 x22 x84 xe4 x9c xf2 xcb)
(T (W xff xff xff xff x03 x00 x00 x00)
(T (W xd4 x00 x00 x00 xc8 x00 x00 x00)
(L (W x00 x00 x80 xbf x00 x00 x80 xbf))
(L (W x45 x26 x22 x84 xe4 x9c xf2 xcb)))
(T (W x4c x45 x41 x52 x45 x44 x00 x00)
(L (W x00 x00 x80 xbf x00 x00 x80 xbf)) E))
(T (W x00 x00 x00 x00 x00 x00 x00 x00)
(T (W x00 x00 x80 x3f x00 x00 x80 x3f)
(L (W x00 x00 x00 x00 x00 x00 x00 x00)) E)
(T (W xff xff xff xff xff xff xff xff)
(L (W x00 x00 x80 xbf x00 x00 x80 xbf)) E)))))
(T (W x00 x00 x00 x00 x00 x00 x00 x00)
(T (W x00 x00 x80 x3f x00 x00 x80 x3f)
(T (W x00 x00 x80 x3f x00 x00 x80 x3f)
(T (W x00 x00 x80 x3f x00 x00 x80 x3f)
(T (W x18 x00 x00 x00 x0c x00 x00 x00)
(L (W xc9 x00 x00 x00 xff xff xff xff))
(L (W x00 x00 x00 x00 x32 x99 xff xff)))
(T (W x01 x00 x00 x00 x9c x00 x00 x00)
(L (W x45 x26 x22 x84 xe4 x9c xf2 xcb)) E))
(T (W x00 x00 x80 x3f x00 x00 x80 x3f)
(T (W x00 x00 x80 x3f x00 x00 x80 x3f)
(L (W x0e x00 x00 x00 x0c x00 x00 x00)) E)
(T (W x68 x00 x00 x00 x5c x00 x00 x00)
(L (W xff xff xff xff xff xff xff xff)) E)))
(T (W x18 x00 x00 x00 x0c x00 x00 x00)
(T (W xff xff xff xff xff xff xff xff)
(T (W x6c x00 x00 x00 x60 x00 x00 x00)
(L (W x00 x00 x00 x00 x00 x00 x00 x00))
(L (W x00 x00 x80 xbf x00 x00 x80 xbf)))
(T (W x6c x00 x00 x00 x60 x00 x00 x00)
(L (W x00 x00 x00 x00 x00 x00 x00 x00)) E))
(T (W x22 x52 xfb xff x78 x00 x00 x00)
(T (W x00 x00 x00 x00 x00 x00 x00 x00)
(L (W xff xff xff xff xff xff xff xff)) E)
(T (W xcc x00 x00 x00 x01 x00 x00 x00)
(L (W x00 x00 x80 xbf x00 x00 x80 xbf)) E))))
(T (W x00 x00 x00 x00 x00 x00 x00 x00)
(T (W xff xff xff xff xff xff xff xff)
(T (W x00 x00 x00 x00 x04 x00 x00 x00)
(T (W xff xff xff xff xff xff xff xff)
(L (W x00 x00 x80 xbf x00 x00 x80 xbf))
(L (W x00 x00 x00 x00 x00 x00 x00 x00)))
(T (W x5e xd0 x36 x97 x85 x2c x63 x5f)
(L (W xff xff xff xff xff xff xff xff)) E))
(T (W x00 x00 x80 x3f x00 x00 x80 x3f)
(T (W xff xff xff xff xff xff xff xff)
(L (W x00 x00 x80 xbf x00 x00 x80 xbf)) E)
(T (W xc7 x01 x00 x00 xff xff xff xff)
(L (W xff xff xff xff xff xff xff xff)) E)))
(T (W x3e x00 x00 x00 x9c x00 x00 x00)
(T (W xd8 x5f xa6 x58 x70 x94 xe4 x41)
(T (W xff xff xff xff xff xff xff xff)
(L (W xff xff xff xff xff xff xff xff))
(L (W xff xff xff xff xff xff xff xff)))
(T (W x45 x26 x22 x84 xe4 x9c xf2 xcb)
(L (W x00 x00 x80 xbf x00 x00 x80 xbf)) E))
(T (W xff xff xff xff xc4 x00 x00 x00)
(T (W xff xff xff xff xff xff xff xff)
(L (W x4f x84 x6f x8b xe8 xcb x63 xb7)) E)
(T (W x00 x00 x00 x00 x68 x00 x6c x00)
(L (W x45 x26 x22 x84 xe4 x9c xf2 xcb)) E)))))))
(T (W xbc x00 x00 x00 xb0 x00 x00 x00)
(T (W x00 x00 x80 x3f x00 x00 x80 x3f)
(T (W x00 x00 x00 x00 xb4 x9f xf9 xff)
(T (W xff xff xff xff xff xff xff xff)
(T (W xc0 x00 x00 x00 xb4 x00 x00 x00)
(T (W xff xff xff xff xff xff xff xff)
(T (W x68 x00 x00 x00 x5c x00 x00 x00)
(L (W x6c x00 x00 x00 x60 x00 x00 x00))
(L (W x49 xa1 x68 x4a xeb x5f xdd x3d)))
(T (W x00 x00 x80 x3f x00 x00 x80 x3f)
(L (W x00 x00 x00 x00 xa2 x83 xfe xff)) E))
(T (W x00 x00 x00 x00 x00 x00 x00 x00)
(T (W x01 x00 x00 x00 x1b x00 x00 x00)
(L (W x49 xa1 x68 x4a xeb x5f xdd x3d))
(L (W xff xff xff xff xff xff xff xff)))
(T (W x00 x00 x00 x00 x00 x00 x00 x00)
(L (W x54 x02 x00 x00 x38 x01 x00 x00)) E)))
(T (W x45 x26 x22 x84 xe4 x9c xf2 xcb)
(T (W x00 x00 x80 x3f x00 x00 x80 x3f)
(T (W xb0 x00 x00 x00 x64 x00 x00 x00)
(L (W x00 x00 x00 x00 x00 x00 x00 x00))
(L (W xff xff xff xff xff xff xff xff)))
(T (W x00 x00 x80 x3f x00 x00 x80 x3f)
(L (W x00 x00 x80 xbf x00 x00 x80 xbf)) E))
(T (W x00 x00 x00 x00 x00 x00 x00 x00)
(T (W x18 x00 x00 x00 x10 x00 x00 x00)
(L (W x00 x00 x00 x00 x00 x00 x00 x00)) E)
(T (W xb0 x00 x00 x00 x64 x00 x00 x00)
(L (W x6c x00 x00 x00 x60 x00 x00 x00)) E))))
(T (W xc4 x00 x00 x00 xb8 x00 x00 x00)
(T (W x00 x00 x00 x00 x00 x00 x00 x00)
(T (W x45 x26 x22 x84 xe4 x9c xf2 xcb)
(T (W x54 x00 x00 x00 x48 x00 x00 x00)
(L (W x44 xa1 xfd xff x00 x01 x01 x01))
(L (W xc4 x00 x00 x00 x01 x00 x00 x00)))
(T (W x00 x00 x80 x3f x00 x00 x80 x3f)
(L (W x00 x00 x00 x00 x00 x00 x00 x00)) E))
(T (W x00 x00 x80 x3f x00 x00 x80 x3f)
(T (W x00 x00 x00 x00 x00 x00 x00 x00)
(L (W xff xff xff xff xff xff xff xff)) E)
(T (W x00 x00 x00 x00 x00 x00 x00 x00)
(L (W x45 x26 x22 x84 xe4 x9c xf2 xcb)) E)))
(T (W x00 x00 x00 x00 x00 x00 x00 x00)
(T (W x45 x26 x22 x84 xe4 x9c xf2 xcb)
(T (W x00 x00 x00 x00 x00 x00 x00 x00)
(L (W xff xff xff xff xb4 x00 x00 x00))
(L (W x00 x00 x00 x00 xa2 xe3 xff xff)))
(T (W x45 x26 x22 x84 xe4 x9c xf2 xcb)
(L (W xff xff xff xff xb0 x00 x00 x00)) E))
(T (W x45 x26 x22 x84 xe4 x9c xf2 xcb)
(T (W xff xff xff xff xff xff xff xff)
(L (W x45 x26 x22 x84 xe4 x9c xf2 xcb)) E)
(T (W x00 x00 x80 xbf x00 x00 x80 xbf)
(L (W x5c x00 x00 x00 xff xff xff xff)) E)))))
(T (W xff xff xff xff xff xff xff xff)
(T (W x00 x00 x00 x00 x00 x00 x00 x00)
(T (W x00 x00 x00 x00 xb4 x0f xfa xff)
(T (W x4a x95 xfd xff xd5 x01 x00 x00)
(T (W xa1 x01 x00 x00 xff xff xff xff)
(L (W x00 x00 x80 xbf x00 x00 x80 xbf))
(L (W x44 x91 xff xff x00 x01 x01 x01)))
(T (W x00 x00 x00 x00 x00 x00 x00 x00)
(L (W x45 x44 x00 x00 x00 x00 x00 x00)) E))
(T (W x68 x00 x00 x00 x5c x00 x00 x00)
(T (W xff xff xff xff xff xff xff xff)
(L (W x22 x0e xfe xff x78 x00 x00 x00)) E)
(T (W xff xff xff xff xff xff xff xff)
(L (W x00 x00 x00 x00 x00 x00 x00 x00)) E)))
(T (W x00 x00 x80 x3f x00 x00 x80 x3f)
(T (W x00 x00 x80 x3f x00 x00 x80 x3f)
(T (W x4a x00 x00 x00 xff xff xff xff)
(L (W x68 x00 x00 x00 x5c x00 x00 x00))
(L (W xff xff xff xff xff xff xff xff)))
(T (W xff xff xff xff xff xff xff xff)
(L (W x00 x00 x80 xbf x00 x00 x80 xbf)) E))
(T (W x00 x00 x00 x00 x00 x00 x00 x00)
(T (W xb0 x00 x00 x00 x64 x00 x00 x00)
(L (W x00 x00 x80 xbf x00 x00 x80 xbf)) E)
(T (W xc6 x00 x00 x00 xff xff xff xff)
(L (W xff xff xff xff xff xff xff xff)) E))))
(T (W xff xff xff xff xff xff xff xff)
(T (W x00 x00 x80 x3f x00 x00 x80 x3f)
(T (W x00 x00 x80 x3f x00 x00 x80 x3f)
(T (W x00 x00 x00 x00 x00 x00 x00 x00)
(L (W x00 x00 x00 x00 x00 x00 x00 x00))
(L (W x72 xac xff xff x74 x00 x00 x00)))
(T (W x45 x26 x22 x84 xe4 x9c xf2 xcb)
(L (W x00 x00 x00 x00 x00 x00 x00 x00)) E))
(T (W xff xff xff xff xff xff xff xff)
(T (W x00 x00 x80 x3f x00 x00 x80 x3f)
(L (W x00 x00 x00 x00 x12 x2f xfe xff)) E)
(T (W x00 x00 x80 xbf x00 x00 x80 xbf)
(L (W x00 x00 x80 xbf x00 x00 x80 xbf)) E)))
(T (W x1d x00 x00 x00 x0c x00 x00 x00)
(T (W x00 x00 x00 x00 x00 x00 x00 x00)
(T (W x00 x00 x80 x3f x00 x00 x80 x3f)
(L (W x46 x53 x59 x53 x5f x4e x53 x5f))
(L (W x30 x32 x5f x43 x4c x45 x41 x52)))
(T (W x72 xec xfc xff x74 x00 x00 x00)
(L (W xff xff xff xff xff xff xff xff)) E))
(T (W x14 x00 x00 x00 x10 x00 x00 x00)
(T (W x00 x00 x80 x3f x00 x00 x80 x3f)
(L (W xff xff xff xff xff xff xff xff)) E)
(T (W x18 x00 x00 x00 x0c x00 x00 x00)
(L (W x00 x00 x00 x00 x00 x00 x00 x00)) E))))))
(T (W x00 x00 x00 x00 x00 x00 x00 x00)
(T (W x00 x00 x00 x00 x00 x00 x00 x00)
(T (W x54 x00 x00 x00 x48 x00 x00 x00)
(T (W xff xff xff xff x03 x00 x00 x00)
(T (W xc6 x00 x00 x00 xff xff xff xff)
(T (W xff xff xff xff xff xff xff xff)
(L (W x00 x00 x80 xbf x00 x00 x80 xbf))
(L (W x00 x00 x80 xbf x00 x00 x80 xbf)))
(T (W x00 x00 x00 x00 x00 x00 x00 x00)
(L (W xff xff xff xff xff xff xff xff)) E))
(T (W x68 x00 x00 x00 x5c x00 x00 x00)
(T (W xff xff xff xff x9c x00 x00 x00)
(L (W x00 x00 x80 xbf x00 x00 x80 xbf)) E)
(T (W x2e x00 x00 x00 x10 x00 x00 x00)
(L (W x00 x00 x00 x00 x00 x00 x00 x00)) E)))
(T (W x45 x26 x22 x84 xe4 x9c xf2 xcb)
(T (W x00 x00 x80 x3f x00 x00 x80 x3f)
(T (W xff xff xff xff xff xff xff xff)
(L (W x44 xc9 xfd xff x00 x01 x01 x01))
(L (W xff xff xff xff xff xff xff xff)))
(T (W xff xff xff xff xff xff xff xff)
(L (W x00 x00 x80 xbf x00 x00 x80 xbf)) E))
(T (W x45 x26 x22 x84 xe4 x9c xf2 xcb)
(T (W xd4 x00 x00 x00 xc8 x00 x00 x00)
(L (W x00 x00 x00 x00 x12 x00 x00 x00)) E)
(T (W xff xff xff xff xff xff xff xff)
(L (W x13 x00 x00 x00 x16 x00 x00 x00)) E))))
(T (W x64 x00 x00 x00 x9c x00 x00 x00)
(T (W x50 x00 x00 x00 x44 x00 x00 x00)
(T (W x50 x00 x00 x00 x44 x00 x00 x00)
(T (W xff xff xff xff xff xff xff xff)
(L (W xff xff xff xff xbc x00 x00 x00))
(L (W x00 x00 x80 xbf x00 x00 x80 xbf)))
(T (W x00 x00 x80 x3f x00 x00 x80 x3f)
(L (W x00 x00 x00 x00 x00 x00 x00 x00)) E))
(T (W x68 x00 x00 x00 x5c x00 x00 x00)
(T (W x00 x00 x00 x00 x00 x00 x00 x00)
(L (W xff xff xff xff xff xff xff xff)) E)
(T (W x00 x00 x00 x00 x00 x00 x00 x00)
(L (W x49 xa1 x68 x4a xeb x5f xdd x3d)) E)))
(T (W x00 x00 x00 x00 x00 x00 x00 x00)
(T (W x00 x00 x00 x00 x00 x00 x00 x00)
(T (W x00 x00 x80 x3f x00 x00 x80 x3f)
(L (W x99 x47 xbb x28 xbf xcf x6a x6a))
(L (W x00 x00 x00 x00 x00 x00 x00 x00)))
(T (W x00 x00 x00 x00 x00 x00 x00 x00)
(L (W xff xff xff xff xff xff xff xff)) E))
(T (W xff xff xff xff xff xff xff xff)
(T (W x50 x00 x00 x00 x44 x00 x00 x00)
(L (W xff xff xff xff xb0 x00 x00 x00)) E)
(T (W x00 x00 x80 xbf x00 x00 x80 xbf)
(L (W x00 x00 x00 x00 x00 x00 x00 x00)) E)))))
(T (W x00 x00 x80 x3f x00 x00 x80 x3f)
(T (W x18 x00 x00 x00 x10 x00 x00 x00)
(T (W xff xff xff xff xff xff xff xff)
(T (W x00 x00 x00 x00 x00 x00 x00 x00)
(T (W x22 x00 x00 x00 x67 x72 x6f x75)
(L (W x50 x00 x00 x00 x44 x00 x00 x00))
(L (W x17 x00 x00 x00 x1a x00 x00 x00)))
(T (W x74 x9d xfc xff x16 x00 x00 x00)
(L (W xcc xa6 xfe xff x11 x00 x00 x00)) E))
(T (W x45 x26 x22 x84 xe4 x9c xf2 xcb)
(T (W xff xff xff xff xff xff xff xff)
(L (W x15 x00 x00 x00 x18 x00 x00 x00)) E)
(T (W x01 x01 x01 x01 x92 xc7 xff xff)
(L (W x00 x00 x80 xbf x00 x00 x80 xbf)) E)))
(T (W x00 x00 x00 x00 x00 x00 x00 x00)
(T (W x45 x26 x22 x84 xe4 x9c xf2 xcb)
(T (W x6b x65 x5f x77 x61 x72 x6c x69)
(L (W xff xff xff xff xb0 x00 x00 x00))
(L (W xff xff xff xff xff xff xff xff)))
(T (W x00 x00 x00 x00 x00 x00 x00 x00)
(L (W x18 x00 x00 x00 x0c x00 x00 x00)) E))
(T (W x45 x26 x22 x84 xe4 x9c xf2 xcb)
(T (W xff xff xff xff xff xff xff xff)
(L (W x00 x00 x80 xbf x00 x00 x80 xbf)) E)
(T (W x00 x00 x00 x00 x00 x00 x00 x00)
(L (W xff xff xff xff xff xff xff xff)) E))))
(T (W xb8 x00 x00 x00 xac x00 x00 x00)
(T (W x00 x00 x00 x00 x00 x00 x00 x00)
(T (W x00 x00 x80 x3f x00 x00 x80 x3f)
(T (W x00 x00 x80 x3f x00 x00 x80 x3f)
(L (W xff xff xff xff x9c x00 x00 x00))
(L (W xc4 x00 x00 x00 x02 x00 x00 x00)))
(T (W x00 x00 x80 x3f x00 x00 x80 x3f)
(L (W x45 x26 x22 x84 xe4 x9c xf2 xcb)) E))
(T (W x30 x32 x5f x43 x4c x45 x41 x52)
(T (W x00 x00 x80 x3f x00 x00 x80 x3f)
(L (W x45 x44 x00 x00 x00 x00 x00 x00)) E)
(T (W x22 x36 xfd xff x78 x00 x00 x00)
(L (W x00 x00 x80 xbf x00 x00 x80 xbf)) E)))
(T (W xda x88 xfd xff x00 x00 x01 x01)
(T (W x00 x00 x80 x3f x00 x00 x80 x3f)
(T (W x45 x26 x22 x84 xe4 x9c xf2 xcb)
(L (W x45 x26 x22 x84 xe4 x9c xf2 xcb))
(L (W x45 x26 x22 x84 xe4 x9c xf2 xcb)))
(T (W xff xff xff xff xff xff xff xff)
(L (W x45 x44 x00 x00 x00 x00 x00 x00)) E))
(T (W x00 x00 x80 x3f x00 x00 x80 x3f)
(T (W x00 x00 x80 x3f x00 x00 x80 x3f)
(L (W xff xff xff xff xff xff xff xff)) E)
(T (W x00 x00 x80 xbf x00 x00 x80 xbf)
(L (W x00 x00 x00 x00 x00 x00 x00 x00)) E))))))))))))
(T (W x58 x0d x06 x00 x5c x06 x06 x00)
(T (W xd8 x7d x05 x00 x3c x72 x05 x00)
(T (W x18 x88 x04 x00 x1c x81 x04 x00)
(T (W x30 x61 x03 x00 x2c x52 x03 x00)
(T (W x90 x77 x01 x00 xe4 x74 x01 x00)
(T (W x64 x00 x00 x00 xa0 x00 x00 x00)
(T (W x00 x00 x80 x3f x00 x00 x80 x3f)
(T (W xff xff xff xff x04 x00 x00 x00)
(T (W x00 x00 x01 x01 xc9 x00 x00 x00)
(T (W x00 x00 x80 x3f x00 x00 x80 x3f)
(T (W x18 x00 x00 x00 x0c x00 x00 x00)
(T (W x45 x44 x00 x00 x00 x00 x00 x00)
(L (W x00 x00 x00 x00 x12 x00 x00 x00))
(L (W xff xff xff xff xff xff xff xff)))
(T (W x00 x00 x00 x00 x00 x00 x00 x00)
(L (W xa4 x79 xfe xff x00 x01 x01 x01)) E))
(T (W xd4 xfd xfa xff x20 x00 x00 x00)
(T (W x45 x26 x22 x84 xe4 x9c xf2 xcb)
(L (W xff xff xff xff xff xff xff xff))
(L (W xff xff xff xff xff xff xff xff)))
(T (W x6c x00 x00 x00 x60 x00 x00 x00)
(L (W xff xff xff xff xc0 x00 x00 x00)) E)))
(T (W x3b x01 x00 x00 xff xff xff xff)
(T (W x3e x00 x00 x00 x0c x00 x00 x00)
(T (W x46 x53 x59 x53 x5f x4e x53 x5f)
(L (W x00 x00 x80 xbf x00 x00 x80 xbf))
(L (W x00 x00 x80 xbf x00 x00 x80 xbf)))
(T (W x00 x00 x00 x00 x00 x00 x00 x00)
(L (W xff xff xff xff xff xff xff xff)) E))
(T (W xff xff xff xff xff xff xff xff)
(T (W x00 x00 x00 x00 x12 x00 x00 x00)
(L (W xff xff xff xff xc0 x00 x00 x00)) E)
(T (W x00 x00 x00 x00 x00 x00 x00 x00)
(L (W x46 x53 x59 x53 x5f x4e x53 x5f)) E))))
(T (W x45 x26 x22 x84 xe4 x9c xf2 xcb)
(T (W x68 x00 x00 x00 x5c x00 x00 x00)
(T (W x04 x00 x00 x00 xc2 x82 xff xff)
(T (W xff xff xff xff xff xff xff xff)
(L (W x00 x00 x00 x00 x00 x00 x00 x00))
(L (W x00 x00 x80 xbf x00 x00 x80 xbf)))
(T (W xff xff xff xff xff xff xff xff)
(L (W xff xff xff xff xff xff xff xff)) E))
(T (W xff xff xff xff xff xff xff xff)
(T (W x00 x00 x80 x3f x00 x00 x80 x3f)
(L (W x00 x00 x80 xbf x00 x00 x80 xbf)) E)
(T (W x00 x00 x00 x00 x00 x00 x00 x00)
(L (W x00 x00 x00 x00 x00 x00 x00 x00)) E)))
(T (W x84 x01 x00 x00 xff xff xff xff)
(T (W x00 x00 x00 x00 x04 x00 x00 x00)
(T (W xff xff xff xff xff xff xff xff)
(L (W x00 x00 x80 xbf x00 x00 x80 xbf))
(L (W x82 xd6 xff xff x78 x00 x00 x00)))
(T (W xff xff xff xff xff xff xff xff)
(L (W x49 xa1 x68 x4a xeb x5f xdd x3d)) E))
(T (W x6b x65 x5f x77 x61 x72 x6c x69)
(T (W x54 x00 x00 x00 x48 x00 x00 x00)
(L (W x46 x53 x59 x53 x5f x4e x53 x5f)) E)
(T (W xff xff xff xff xff xff xff xff)
(L (W x6c x00 x00 x00 x60 x00 x00 x00)) E)))))
(T (W xff xff xff xff xff xff xff xff)
(T (W x00 x00 x00 x00 x00 x00 x00 x00)
(T (W x00 x00 x80 x3f x00 x00 x80 x3f)
(T (W x45 x26 x22 x84 xe4 x9c xf2 xcb)
(T (W x54 x00 x00 x00 x48 x00 x00 x00)
(L (W x00 x00 x00 x00 x00 x00 x00 x00))
(L (W x00 x00 x00 x00 x00 x00 x00 x00)))
(T (W x18 x01 x00 x00 x04 x00 x00 x00)
(L (W x18 x00 x00 x00 x0c x00 x00 x00)) E))
(T (W x00 x00 x00 x00 x00 x00 x00 x00)
(T (W x00 x00 x80 x3f x00 x00 x80 x3f)
(L (W x00 x00 x00 x00 x00 x00 x00 x00)) E)
(T (W xff xff xff xff xff xff xff xff)
(L (W xff xff xff xff x9c x00 x00 x00)) E)))
(T (W xff xff xff xff xff xff xff xff)
(T (W x00 x00 x00 x00 x00 x00 x00 x00)
(T (W x82 xc6 xfb xff x78 x00 x00 x00)
(L (W x00 x00 x00 x00 x00 x00 x00 x00))
(L (W x00 x00 x80 xbf x00 x00 x80 xbf)))
(T (W x6c x00 x00 x00 x60 x00 x00 x00)
(L (W x00 x00 x00 x00 x00 x00 x00 x00)) E))
(T (W x4f x84 x6f x8b xe8 xcb x63 xb7)
(T (W x00 x00 x80 x3f x00 x00 x80 x3f)
(L (W xff xff xff xff xff xff xff xff)) E)
(T (W x00 x00 x80 xbf x00 x00 x80 xbf)
(L (W x00 x00 x80 xbf x00 x00 x80 xbf)) E))))
(T (W x00 x00 x80 x3f x00 x00 x80 x3f)
(T (W x00 x00 x00 x00 x00 x00 x00 x00)
(T (W x00 x00 x00 x00 x00 x00 x00 x00)
(T (W x68 x00 x00 x00 x5c x00 x00 x00)
(L (W x00 x00 x80 xbf x00 x00 x80 xbf))
(L (W x45 x44 x00 x00 x00 x00 x00 x00)))
(T (W x00 x00 x00 x00 x00 x00 x00 x00)
(L (W xff xff xff xff xff xff xff xff)) E))
(T (W x00 x00 x00 x00 x00 x00 x00 x00)
(T (W xff xff xff xff xff xff xff xff)
(L (W x00 x00 x00 x00 x14 x28 xfe xff)) E)
(T (W xff xff xff xff xff xff xff xff)
(L (W x00 x00 x00 x00 x02 x2c xff xff)) E)))
(T (W xff xff xff xff xff xff xff xff)
(T (W x37 x00 x00 x00 xff xff xff xff)
(T (W x3a xf9 xfe xff x00 x00 x01 x01)
(L (W xff xff xff xff xff xff xff xff))
(L (W xcc x00 x00 x00 x01 x00 x00 x00)))
(T (W x6b x65 x5f x6c x76 x32 x00 x00)
(L (W x54 x00 x00 x00 x48 x00 x00 x00)) E))
(T (W x00 x00 x80 x3f x00 x00 x80 x3f)
(T (W x00 x00 x00 x00 x00 x00 x00 x00)
(L (W x00 x00 x80 xbf x00 x00 x80 xbf)) E)
(T (W x00 x00 x00 x00 x00 x00 x00 x00)
(L (W xc4 x00 x00 x00 x02 x00 x00 x00)) E))))))
(T (W x00 x00 x00 x00 x00 x00 x00 x00)
(T (W x00 x00 x00 x00 x00 x00 x00 x00)
(T (W x82 xbe xf9 xff x78 x00 x00 x00)
(T (W x00 x00 x80 x3f x00 x00 x80 x3f)
(T (W xd2 x7c xfa xff x74 x00 x00 x00)
(T (W x00 x00 x00 x00 x00 x00 x00 x00)
(L (W x00 x00 x00 x00 x00 x00 x00 x00))
(L (W x00 x00 x00 x00 x02 x84 xff xff)))
(T (W x00 x00 x00 x00 x00 x00 x00 x00)
(L (W xff xff xff xff xa0 x00 x00 x00)) E))
(T (W xff xff xff xff xff xff xff xff)
(T (W x00 x00 x80 x3f x00 x00 x80 x3f)
(L (W x00 x00 x00 x00 x02 x04 xfe xff))
(L (W x6c x00 x00 x00 x60 x00 x00 x00)))
(T (W x04 x00 x00 x00 xb2 xfd xfc xff)
(L (W xcc x00 x00 x00 x01 x00 x00 x00)) E)))
(T (W xff xff xff xff xff xff xff xff)
(T (W x00 x00 x00 x00 x00 x00 x00 x00)
(T (W x00 x00 x80 x3f x00 x00 x80 x3f)
(L (W x50 x00 x00 x00 x54 x00 x00 x00))
(L (W x00 x00 x80 xbf x00 x00 x80 xbf)))
(T (W x00 x00 x00 x00 x00 x00 x00 x00)
(L (W x30 x32 x5f x43 x4c x45 x41 x52)) E))
(T (W xa1 x01 x00 x00 xff xff xff xff)
(T (W x45 x26 x22 x84 xe4 x9c xf2 xcb)
(L (W x03 x00 x00 x00 xd0 x00 x00 x00)) E)
(T (W x00 x00 x80 xbf x00 x00 x80 xbf)
(L (W x00 x00 x00 x00 x00 x00 x00 x00)) E))))
(T (W x00 x00 x80 x3f x00 x00 x80 x3f)
(T (W x5f x77 x69 x6c x64 x5f x70 x6f)
(T (W x45 x26 x22 x84 xe4 x9c xf2 xcb)
(T (W x00 x00 x00 x00 x00 x00 x00 x00)
(L (W x00 x00 x00 x00 x00 x00 x00 x00))
(L (W x00 x00 x80 xbf x00 x00 x80 xbf)))
(T (W x00 x00 x00 x00 x00 x00 x00 x00)
(L (W xff xff xff xff xff xff xff xff)) E))
(T (W x45 x44 x00 x00 x00 x00 x00 x00)
(T (W xcc x00 x00 x00 xc0 x00 x00 x00)
(L (W x00 x00 x80 xbf x00 x00 x80 xbf)) E)
(T (W xff xff xff xff xff xff xff xff)
(L (W x0a x00 x00 x00 x40 x0a x00 x00)) E)))
(T (W xff xff xff xff xff xff xff xff)
(T (W xff xff xff xff xff xff xff xff)
(T (W xff xff xff xff xff xff xff xff)
(L (W x00 x00 x80 xbf x00 x00 x80 xbf))
(L (W xff xff xff xff xa0 x00 x00 x00)))
(T (W xff xff xff xff xff xff xff xff)
(L (W x00 x00 x80 xbf x00 x00 x80 xbf)) E))
(T (W x4f x84 x6f x8b xe8 xcb x63 xb7)
(T (W xd2 x5c xfc xff x74 x00 x00 x00)
(L (W x45 x26 x22 x84 xe4 x9c xf2 xcb)) E)
(T (W x00 x00 x00 x00 x00 x00 x00 x00)
(L (W x45 x26 x22 x84 xe4 x9c xf2 xcb)) E)))))
(T (W x00 x00 x80 x3f x00 x00 x80 x3f)
(T (W xff xff xff xff x03 x00 x00 x00)
(T (W x00 x00 x00 x00 x00 x00 x00 x00)
(T (W x18 x00 x00 x00 x10 x00 x00 x00)
(T (W x18 x00 x00 x00 x10 x00 x00 x00)
(L (W x4c x45 x41 x52 x45 x44 x00 x00))
(L (W x00 x00 x00 x00 x00 x00 x00 x00)))
(T (W xff xff xff xff xff xff xff xff)
(L (W xff xff xff xff xc8 x00 x00 x00)) E))
(T (W x00 x00 x00 x00 x00 x00 x00 x00)
(T (W x54 x00 x00 x00 x48 x00 x00 x00)
(L (W x00 x00 x00 x00 x00 x00 x00 x00)) E)
(T (W x50 x00 x00 x00 x44 x00 x00 x00)
(L (W xff xff xff xff xff xff xff xff)) E)))
(T (W xff xff xff xff xff xff xff xff)
(T (W x00 x00 x00 x00 x00 x00 x00 x00)
(T (W x45 x26 x22 x84 xe4 x9c xf2 xcb)
(L (W x00 x00 x00 x00 x00 x00 x00 x00))
(L (W x82 xce xff xff x78 x00 x00 x00)))
(T (W xa4 xd1 xfc xff x00 x01 x01 x01)
(L (W x00 x00 x00 x00 x00 x00 x00 x00)) E))
(T (W xb8 x00 x00 x00 x14 x00 x00 x00)
(T (W x00 x00 x80 x3f x00 x00 x80 x3f)
(L (W x00 x00 x01 x01 x92 x01 x00 x00)) E)
(T (W x45 x26 x22 x84 xe4 x9c xf2 xcb)
(L (W x00 x00 x80 xbf x00 x00 x80 xbf)) E))))
(T (W x00 x00 x80 x3f x00 x00 x80 x3f)
(T (W x21 x00 x00 x00 x10 x00 x00 x00)
(T (W x00 x00 x00 x00 x00 x00 x00 x00)
(T (W xff xff xff xff xff xff xff xff)
(L (W xff xff xff xff xff xff xff xff))
(L (W x00 x00 x00 x00 x00 x00 x00 x00)))
(T (W x45 x26 x22 x84 xe4 x9c xf2 xcb)
(L (W xff xff xff xff xff xff xff xff)) E))
(T (W x45 x26 x22 x84 xe4 x9c xf2 xcb)
(T (W x4a x00 x00 x00 xff xff xff xff)
(L (W xff xff xff xff xb0 x00 x00 x00)) E)
(T (W x24 x00 x00 x00 x0c x00 x00 x00)
(L (W x00 x00 x00 x00 x00 x00 x00 x00)) E)))
(T (W xff xff xff xff x04 x00 x00 x00)
(T (W xff xff xff xff xff xff xff xff)
(T (W x00 x00 x00 x00 x12 x00 x00 x00)
(L (W xff xff xff xff xff xff xff xff))
(L (W xff xff xff xff xff xff xff xff)))
(T (W x00 x00 x00 x00 x00 x00 x00 x00)
(L (W x18 x00 x00 x00 x0c x00 x00 x00)) E))
(T (W xff xff xff xff xff xff xff xff)
(T (W x00 x00 x00 x00 x00 x00 x00 x00)
(L (W x54 x00 x00 x00 x48 x00 x00 x00)) E)
(T (W x49 xa1 x68 x4a xeb x5f xdd x3d)
(L (W xff xff xff xff xff xff xff xff)) E)))))))
(T (W x00 x00 x00 x00 xc2 x1e xfd xff)
(T (W xbc x00 x00 x00 xb0 x00 x00 x00)
(T (W x00 x00 x00 x00 x00 x00 x00 x00)
(T (W x45 x26 x22 x84 xe4 x9c xf2 xcb)
(T (W xff xff xff xff xff xff xff xff)
(T (W x00 x00 x00 x00 x00 x00 x00 x00)
(T (W x82 x7a xfb xff x78 x00 x00 x00)
(L (W xa4 x7d xfd xff x00 x01 x01 x01))
(L (W x00 x00 x80 xbf x00 x00 x80 xbf)))
(T (W x00 x00 x00 x00 x14 x7c xfc xff)
(L (W x00 x00 x00 x00 x00 x00 x00 x00)) E))
(T (W x46 x53 x59 x53 x5f x4e x53 x5f)
(T (W xff xff xff xff xff xff xff xff)
(L (W x82 xfa xfd xff x78 x00 x00 x00))
(L (W x00 x00 x62 x00 x78 x00 x04 x00)))
(T (W xff xff xff xff xff xff xff xff)
(L (W x46 x53 x59 x53 x5f x4e x53 x5f)) E)))
(T (W x00 x00 x80 x3f x00 x00 x80 x3f)
(T (W x00 x00 x00 x00 x14 xbc xfa xff)
(T (W xff xff xff xff xff xff xff xff)
(L (W xd2 xb8 xfd xff x74 x00 x00 x00))
(L (W xff xff xff xff xff xff xff xff)))
(T (W x68 x00 x00 x00 x5c x00 x00 x00)
(L (W x82 xba xfe xff x78 x00 x00 x00)) E))
(T (W x49 xa1 x68 x4a xeb x5f xdd x3d)
(T (W xcc x00 x00 x00 xc0 x00 x00 x00)
(L (W x49 xa1 x68 x4a xeb x5f xdd x3d)) E)
(T (W xff xff xff xff xff xff xff xff)
(L (W x03 x00 x00 x00 xd8 x00 x00 x00)) E))))
(T (W xff xff xff xff xff xff xff xff)
(T (W x00 x00 x00 x00 x00 x00 x00 x00)
(T (W x18 x00 x00 x00 x10 x00 x00 x00)
(T (W x00 x00 x80 x3f x00 x00 x80 x3f)
(L (W x03 x00 x00 x00 xcc x00 x00 x00))
(L (W xff xff xff xff xff xff xff xff)))
(T (W x00 x00 x00 x00 x00 x00 x00 x00)
(L (W x45 x26 x22 x84 xe4 x9c xf2 xcb)) E))
(T (W xd2 x18 xfb xff x74 x00 x00 x00)
(T (W x00 x00 x00 x00 x12 x00 x00 x00)
(L (W xff xff xff xff xff xff xff xff)) E)
(T (W x00 x00 x00 x00 x00 x00 x00 x00)
(L (W x54 x00 x00 x00 x48 x00 x00 x00)) E)))
(T (W x00 x00 x00 x00 x00 x00 x00 x00)
(T (W x00 x00 x80 x3f x00 x00 x80 x3f)
(T (W x45 x26 x22 x84 xe4 x9c xf2 xcb)
(L (W x00 x00 x01 x01 x5c x00 x00 x00))
(L (W x00 x00 x00 x00 x00 x00 x00 x00)))
(T (W x00 x00 x80 x3f x00 x00 x80 x3f)
(L (W xff xff xff xff xff xff xff xff)) E))
(T (W x00 x00 x80 x3f x00 x00 x80 x3f)
(T (W x18 x00 x00 x00 x10 x00 x00 x00)
(L (W x45 x26 x22 x84 xe4 x9c xf2 xcb)) E)
(T (W x00 x00 x80 xbf x00 x00 x80 xbf)
(L (W x87 xfb xaf x28 xbf x5d x5d x6a)) E)))))
(T (W x00 x00 x00 x00 x00 x00 x00 x00)
(T (W x00 x00 x80 x3f x00 x00 x80 x3f)
(T (W xff xff xff xff x04 x00 x00 x00)
(T (W x00 x00 x00 x00 x00 x00 x00 x00)
(T (W xff xff xff xff xff xff xff xff)
(L (W xd2 x88 xfd xff x74 x00 x00 x00))
(L (W x68 x00 x00 x00 x5c x00 x00 x00)))
(T (W x00 x00 x80 x3f x00 x00 x80 x3f)
(L (W x00 x00 x00 x00 x00 x00 x00 x00)) E))
(T (W xff xff xff xff xff xff xff xff)
(T (W x00 x00 x00 x00 x00 x00 x00 x00)
(L (W xff xff xff xff xc8 x00 x00 x00)) E)
(T (W x00 x00 x80 xbf x00 x00 x80 xbf)
(L (W x49 xa1 x68 x4a xeb x5f xdd x3d)) E)))
(T (W x00 x00 x80 x3f x00 x00 x80 x3f)
(T (W x50 x00 x00 x00 x44 x00 x00 x00)
(T (W x6b x65 x5f x6c x76 x31 x00 x00)
(L (W x21 x00 x00 x00 x24 x00 x00 x00))
(L (W x00 x00 x00 x00 x00 x00 x00 x00)))
(T (W x00 x00 x00 x00 x00 x00 x00 x00)
(L (W xff xff xff xff xff xff xff xff)) E))
(T (W x61 x64 x65 x72 x5f x77 x69 x6c)
(T (W xff xff xff xff xff xff xff xff)
(L (W x54 x00 x00 x00 x48 x00 x00 x00)) E)
(T (W x2c x00 x00 x00 x0c x00 x00 x00)
(L (W xff xff xff xff xff xff xff xff)) E))))
(T (W xff xff xff xff xff xff xff xff)
(T (W x00 x00 x80 x3f x00 x00 x80 x3f)
(T (W xc0 x00 x00 x00 xb4 x00 x00 x00)
(T (W x12 x00 x00 x00 x46 x53 x59 x53)
(L (W x45 x26 x22 x84 xe4 x9c xf2 xcb))
(L (W xff xff xff xff xff xff xff xff)))
(T (W xff xff xff xff xff xff xff xff)
(L (W x45 x26 x22 x84 xe4 x9c xf2 xcb)) E))
(T (W xff xff xff xff xff xff xff xff)
(T (W x00 x00 x00 x00 x00 x00 x00 x00)
(L (W x00 x00 x00 x00 x00 x00 x00 x00)) E)
(T (W x6c x00 x00 x00 x60 x00 x00 x00)
(L (W x45 x26 x22 x84 xe4 x9c xf2 xcb)) E)))
(T (W x45 x26 x22 x84 xe4 x9c xf2 xcb)
(T (W x00 x00 x80 x3f x00 x00 x80 x3f)
(T (W x00 x00 x00 x00 x14 xec xfb xff)
(L (W x00 x00 x80 xbf x00 x00 x80 xbf))
(L (W x00 x00 x00 x00 x00 x00 x00 x00)))
(T (W x68 x00 x00 x00 x5c x00 x00 x00)
(L (W x00 x00 x00 x00 x12 x00 x00 x00)) E))
(T (W x00 x00 x00 x00 x12 x00 x00 x00)
(T (W x45 x26 x22 x84 xe4 x9c xf2 xcb)
(L (W x00 x00 x01 x01 x2a x00 x00 x00)) E)
(T (W xff xff xff xff xff xff xff xff)
(L (W x00 x00 x00 x00 x00 x00 x00 x00)) E))))))
(T (W x00 x00 x80 x3f x00 x00 x80 x3f)
(T (W x6c x00 x00 x00 x60 x00 x00 x00)
(T (W xff xff xff xff xff xff xff xff)
(T (W xff xff xff xff xff xff xff xff)
(T (W x00 x00 x00 x00 x00 x00 x00 x00)
(T (W xff xff xff xff xff xff xff xff)
(L (W x00 x00 x80 xbf x00 x00 x80 xbf))
(L (W x00 x00 x80 xbf x00 x00 x80 xbf)))
(T (W xd2 x80 xfc xff x74 x00 x00 x00)
(L (W x45 x44 x00 x00 x00 x00 x00 x00)) E))
(T (W x00 x00 x80 x3f x00 x00 x80 x3f)
(T (W xff xff xff xff xff xff xff xff)
(L (W x18 x00 x00 x00 x0c x00 x00 x00)) E)
(T (W xff xff xff xff xff xff xff xff)
(L (W x00 x00 x00 x00 x00 x00 x00 x00)) E)))
(T (W x54 x00 x00 x00 x48 x00 x00 x00)
(T (W x45 x26 x22 x84 xe4 x9c xf2 xcb)
(T (W x3a x04 xfe xff x9c x01 x00 x00)
(L (W xff xff xff xff xff xff xff xff))
(L (W xff xff xff xff xff xff xff xff)))
(T (W x50 x00 x00 x00 x44 x00 x00 x00)
(L (W xff xff xff xff xb0 x00 x00 x00)) E))
(T (W xff xff xff xff xa0 x00 x00 x00)
(T (W xff xff xff xff xff xff xff xff)
(L (W x00 x00 x80 xbf x00 x00 x80 xbf)) E)
(T (W x45 x44 x00 x00 x00 x00 x00 x00)
(L (W xff xff xff xff xff xff xff xff)) E))))
(T (W xff xff xff xff xff xff xff xff)
(T (W xd2 x20 xfa xff x74 x00 x00 x00)
(T (W xb8 x00 x00 x00 xac x00 x00 x00)
(T (W xff xff xff xff xff xff xff xff)
(L (W x5f x4e x53 x5f x30 x32 x5f x43))
(L (W x00 x00 x80 xbf x00 x00 x80 xbf)))
(T (W xff xff xff xff xff xff xff xff)
(L (W x00 x00 x80 xbf x00 x00 x80 xbf)) E))
(T (W xff xff xff xff xff xff xff xff)
(T (W x45 x26 x22 x84 xe4 x9c xf2 xcb)
(L (W xff xff xff xff xff xff xff xff)) E)
(T (W x45 x26 x22 x84 xe4 x9c xf2 xcb)
(L (W x82 x22 xff xff x78 x00 x00 x00)) E)))
(T (W x45 x26 x22 x84 xe4 x9c xf2 xcb)
(T (W x00 x00 x80 x3f x00 x00 x80 x3f)
(T (W x00 x00 x80 x3f x00 x00 x80 x3f)
(L (W x00 x00 x00 x00 x00 x00 x00 x00))
(L (W x4f x84 x6f x8b xe8 xcb x63 xb7)))
(T (W x79 x61 x62 x75 x6e x00 x00 x00)
(L (W x00 x00 x01 x01 x5c x00 x00 x00)) E))
(T (W x32 x6b xfe xff x00 x00 x01 x01)
(T (W x00 x00 x00 x00 x00 x00 x00 x00)
(L (W xb8 x00 x00 x00 x64 x00 x00 x00)) E)
(T (W xa4 x65 xfd xff x00 x01 x01 x01)
(L (W x45 x44 x00 x00 x00 x00 x00 x00)) E)))))
(T (W xbc x00 x00 x00 xb0 x00 x00 x00)
(T (W x00 x00 x00 x00 xc2 x6e xfd xff)
(T (W x00 x00 x00 x00 x00 x00 x00 x00)
(T (W x2c xa3 xfa xff x21 x00 x00 x00)
(T (W x49 xa1 x68 x4a xeb x5f xdd x3d)
(L (W x18 x00 x00 x00 x0c x00 x00 x00))
(L (W x19 x00 x00 x00 x1c x00 x00 x00)))
(T (W x00 x00 x80 x3f x00 x00 x80 x3f)
(L (W x4f x84 x6f x8b xe8 xcb x63 xb7)) E))
(T (W x00 x00 x00 x00 x00 x00 x00 x00)
(T (W x00 x00 x00 x00 x00 x00 x00 x00)
(L (W xff xff xff xff xff xff xff xff)) E)
(T (W x00 x00 x00 x00 x00 x00 x00 x00)
(L (W x6c x00 x00 x00 x60 x00 x00 x00)) E)))
(T (W x45 x26 x22 x84 xe4 x9c xf2 xcb)
(T (W x00 x00 x80 x3f x00 x00 x80 x3f)
(T (W x00 x00 x00 x00 x00 x00 x00 x00)
(L (W xff xff xff xff xff xff xff xff))
(L (W x00 x00 x00 x00 x12 x00 x00 x00)))
(T (W x00 x00 x00 x00 x00 x00 x00 x00)
(L (W xff xff xff xff xff xff xff xff)) E))
(T (W x00 x00 x00 x00 x00 x00 x00 x00)
(T (W xff xff xff xff xff xff xff xff)
(L (W x00 x00 x80 xbf x00 x00 x80 xbf)) E)
(T (W x00 x00 x80 xbf x00 x00 x80 xbf)
(L (W x30 x32 x5f x43 x4c x45 x41 x52)) E))))
(T (W xff xff xff xff xff xff xff xff)
(T (W x00 x00 x80 x3f x00 x00 x80 x3f)
(T (W xff xff xff xff x03 x00 x00 x00)
(T (W x00 x00 x80 x3f x00 x00 x80 x3f)
(L (W x00 x00 x00 x00 x00 x00 x00 x00))
(L (W xff xff xff xff xff xff xff xff)))
(T (W xff xff xff xff x03 x00 x00 x00)
(L (W x00 x00 x80 xbf x00 x00 x80 xbf)) E))
(T (W xd4 x39 xfb xff x15 x00 x00 x00)
(T (W x00 x00 x80 x3f x00 x00 x80 x3f)
(L (W x00 x00 x00 x00 x00 x00 x00 x00)) E)
(T (W x45 x26 x22 x84 xe4 x9c xf2 xcb)
(L (W x58 x00 x00 x00 x4c x00 x00 x00)) E)))
(T (W x00 x00 x80 x3f x00 x00 x80 x3f)
(T (W xff xff xff xff xff xff xff xff)
(T (W x6c x00 x00 x00 x60 x00 x00 x00)
(L (W x00 x00 x80 xbf x00 x00 x80 xbf))
(L (W x00 x00 x80 xbf x00 x00 x80 xbf)))
(T (W x70 x5f x6c x65 x61 x64 x65 x72)
(L (W x00 x00 x00 x00 x00 x00 x00 x00)) E))
(T (W x00 x00 x80 x3f x00 x00 x80 x3f)
(T (W xa4 x75 xfc xff x00 x01 x01 x01)
(L (W x91 x01 x00 x00 xff xff xff xff)) E)
(T (W x3c x00 x00 x00 x3c x00 x00 x00)
(L (W x4f x84 x6f x8b xe8 xcb x63 xb7)) E))))))))
(T (W x2c x8d xf9 xff x3c x00 x00 x00)
(T (W xff xff xff xff xff xff xff xff)
(T (W x6c x00 x00 x00 x60 x00 x00 x00)
(T (W xff xff xff xff xff xff xff xff)
(T (W x00 x00 x00 x00 x00 x00 x00 x00)
(T (W xd2 xf6 xf9 xff x74 x00 x00 x00)
(T (W x1c x01 x00 x00 x04 x00 x00 x00)
(T (W x00 x00 x00 x00 x00 x00 x00 x00)
(L (W x00 x00 x80 xbf x00 x00 x80 xbf))
(L (W x00 x00 x00 x00 x00 x00 x00 x00)))
(T (W x00 x00 x80 x3f x00 x00 x80 x3f)
(L (W xff xff xff xff xff xff xff xff)) E))
(T (W xff xff xff xff xff xff xff xff)
(T (W x00 x00 x80 x3f x00 x00 x80 x3f)
(L (W x00 x00 x00 x00 x00 x00 x00 x00))
(L (W x00 x00 x00 x00 x00 x00 x00 x00)))
(T (W x4f x84 x6f x8b xe8 xcb x63 xb7)
(L (W xff xff xff xff xff xff xff xff)) E)))
(T (W x00 x00 x00 x00 x00 x00 x00 x00)
(T (W x00 x00 x80 x3f x00 x00 x80 x3f)
(T (W x00 x00 x80 x3f x00 x00 x80 x3f)
(L (W x00 x00 x80 xbf x00 x00 x80 xbf))
(L (W x82 xb8 xff xff x78 x00 x00 x00)))
(T (W x45 x26 x22 x84 xe4 x9c xf2 xcb)
(L (W x00 x00 x00 x00 x00 x00 x00 x00)) E))
(T (W xa4 x01 x00 x00 xff xff xff xff)
(T (W x54 x00 x00 x00 x48 x00 x00 x00)
(L (W xff xff xff xff xff xff xff xff)) E)
(T (W x6c x00 x00 x00 x60 x00 x00 x00)
(L (W x00 x00 x80 xbf x00 x00 x80 xbf)) E))))
(T (W x00 x00 x80 x3f x00 x00 x80 x3f)
(T (W xff xff xff xff xff xff xff xff)
(T (W xd2 x96 xfa xff x74 x00 x00 x00)
(T (W x00 x00 x00 x00 x00 x00 x00 x00)
(L (W x00 x00 x80 xbf x00 x00 x80 xbf))
(L (W x82 x98 xff xff x78 x00 x00 x00)))
(T (W x18 x01 x00 x00 x04 x00 x00 x00)
(L (W x00 x00 x00 x00 x00 x00 x00 x00)) E))
(T (W x00 x00 x00 x00 x00 x00 x00 x00)
(T (W x4b x00 x00 x00 xff xff xff xff)
(L (W x45 x26 x22 x84 xe4 x9c xf2 xcb)) E)
(T (W x2c xfd xff xff x01 x01 x01 x01)
(L (W x00 x00 x00 x00 x00 x00 x00 x00)) E)))
(T (W x00 x00 x00 x00 x00 x00 x00 x00)
(T (W x00 x00 x00 x00 x00 x00 x00 x00)
(T (W x00 x00 x00 x00 x00 x00 x00 x00)
(L (W x18 x00 x00 x00 x0c x00 x00 x00))
(L (W xff xff xff xff xff xff xff xff)))
(T (W x30 x32 x5f x43 x4c x45 x41 x52)
(L (W x00 x00 x80 xbf x00 x00 x80 xbf)) E))
(T (W x45 x26 x22 x84 xe4 x9c xf2 xcb)
(T (W x01 x00 x00 x00 xb0 x00 x00 x00)
(L (W x00 x00 x80 xbf x00 x00 x80 xbf)) E)
(T (W x00 x00 x00 x00 x00 x00 x00 x00)
(L (W xff xff xff xff xff xff xff xff)) E)))))
(T (W xc9 x00 x00 x00 xff xff xff xff)
(T (W x45 x26 x22 x84 xe4 x9c xf2 xcb)
(T (W x68 x00 x00 x00 x5c x00 x00 x00)
(T (W xff xff xff xff xff xff xff xff)
(T (W xcc x00 x00 x00 xc0 x00 x00 x00)
(L (W x4f x84 x6f x8b xe8 xcb x63 xb7))
(L (W x45 x26 x22 x84 xe4 x9c xf2 xcb)))
(T (W x00 x00 x00 x00 x00 x00 x00 x00)
(L (W xff xff xff xff xff xff xff xff)) E))
(T (W x00 x00 x80 x3f x00 x00 x80 x3f)
(T (W x18 x00 x00 x00 x10 x00 x00 x00)
(L (W x45 x26 x22 x84 xe4 x9c xf2 xcb)) E)
(T (W x00 x00 x00 x00 x00 x00 x00 x00)
(L (W x30 x32 x5f x43 x4c x45 x41 x52)) E)))
(T (W x00 x00 x00 x00 x00 x00 x00 x00)
(T (W x00 x00 x00 x00 x00 x00 x00 x00)
(T (W xff xff xff xff x03 x00 x00 x00)
(L (W x00 x00 x80 xbf x00 x00 x80 xbf))
(L (W xff xff xff xff xff xff xff xff)))
(T (W x55 x6c xfc xf1 x99 x9e xc9 x88)
(L (W x6c x00 x00 x00 x60 x00 x00 x00)) E))
(T (W xff xff xff xff x03 x00 x00 x00)
(T (W xa4 x4b xfc xff x00 x01 x01 x01)
(L (W x45 x44 x00 x00 x00 x00 x00 x00)) E)
(T (W xff xff xff xff xff xff xff xff)
(L (W xa4 x4b xff xff x00 x01 x01 x01)) E))))
(T (W x3e x00 x00 x00 x9c x00 x00 x00)
(T (W x45 x26 x22 x84 xe4 x9c xf2 xcb)
(T (W x00 x00 x80 x3f x00 x00 x80 x3f)
(T (W xff xff xff xff xff xff xff xff)
(L (W x50 x00 x00 x00 x44 x00 x00 x00))
(L (W xa4 xab xff xff x00 x01 x01 x01)))
(T (W x00 x00 x80 x3f x00 x00 x80 x3f)
(L (W x00 x00 x00 x00 x00 x00 x00 x00)) E))
(T (W x00 x00 x00 x00 x14 x2a xfb xff)
(T (W x45 x44 x00 x00 x00 x00 x00 x00)
(L (W xff xff xff xff xff xff xff xff)) E)
(T (W x49 xa1 x68 x4a xeb x5f xdd x3d)
(L (W x00 x00 x00 x00 x00 x00 x00 x00)) E)))
(T (W x3e x00 x00 x00 x10 x00 x00 x00)
(T (W x00 x00 x00 x00 x00 x00 x00 x00)
(T (W x00 x00 x00 x00 x00 x00 x00 x00)
(L (W x00 x00 x00 x00 x00 x00 x00 x00))
(L (W xff xff xff xff xff xff xff xff)))
(T (W x00 x00 x00 x00 x00 x00 x00 x00)
(L (W xb0 x00 x00 x00 x64 x00 x00 x00)) E))
(T (W xff xff xff xff xff xff xff xff)
(T (W x00 x00 x80 x3f x00 x00 x80 x3f)
(L (W x82 x68 xfe xff x78 x00 x00 x00)) E)
(T (W x00 x00 x80 xbf x00 x00 x80 xbf)
(L (W xff xff xff xff xff xff xff xff)) E))))))
(T (W x00 x00 x00 x00 x00 x00 x00 x00)
(T (W x00 x00 x80 x3f x00 x00 x80 x3f)
(T (W xbc x00 x00 x00 xb0 x00 x00 x00)
(T (W x00 x00 x80 x3f x00 x00 x80 x3f)
(T (W xff xff xff xff xff xff xff xff)
(T (W x45 x26 x22 x84 xe4 x9c xf2 xcb)
(L (W x00 x00 x80 xbf x00 x00 x80 xbf))
(L (W x00 x00 x00 x00 x00 x00 x00 x00)))
(T (W x00 x00 x80 x3f x00 x00 x80 x3f)
(L (W xff xff xff xff xff xff xff xff)) E))
(T (W xd4 x07 xfb xff x29 x00 x00 x00)
(T (W x82 x00 xfc xff x78 x00 x00 x00)
(L (W x00 x00 x80 xbf x00 x00 x80 xbf))
(L (W x00 x00 x00 x00 x00 x00 x00 x00)))
(T (W x00 x00 x80 xbf x00 x00 x80 xbf)
(L (W xff xff xff xff xff xff xff xff)) E)))
(T (W x00 x00 x00 x00 x00 x00 x00 x00)
(T (W x00 x00 x00 x00 x00 x00 x00 x00)
(T (W xff xff xff xff x9c x00 x00 x00)
(L (W x45 x26 x22 x84 xe4 x9c xf2 xcb))
(L (W xff xff xff xff xa0 x00 x00 x00)))
(T (W x45 x26 x22 x84 xe4 x9c xf2 xcb)
(L (W x49 xa1 x68 x4a xeb x5f xdd x3d)) E))
(T (W x00 x00 x00 x00 x00 x00 x00 x00)
(T (W x00 x00 x80 x3f x00 x00 x80 x3f)
(L (W x08 x00 x00 x00 x18 x08 x00 x00)) E)
(T (W xff xff xff xff x9c x00 x00 x00)
(L (W x00 x00 x80 xbf x00 x00 x80 xbf)) E))))
(T (W x82 xe0 xf9 xff x78 x00 x00 x00)
(T (W x00 x00 x00 x00 x00 x00 x00 x00)
(T (W xa4 xa3 xfa xff x00 x01 x01 x01)
(T (W xa4 xa3 xfb xff x00 x01 x01 x01)
(L (W xff xff xff xff xff xff xff xff))
(L (W xff xff xff xff xff xff xff xff)))
(T (W x68 x00 x00 x00 x5c x00 x00 x00)
(L (W x00 x00 x00 x00 x00 x00 x00 x00)) E))
(T (W x00 x00 x80 x3f x00 x00 x80 x3f)
(T (W x74 x03 x00 x00 x4c x02 x00 x00)
(L (W xcc x00 x00 x00 x01 x00 x00 x00)) E)
(T (W x24 x00 x00 x00 x0c x00 x00 x00)
(L (W x00 x00 x80 xbf x00 x00 x80 xbf)) E)))
(T (W x00 x00 x00 x00 x00 x00 x00 x00)
(T (W x45 x26 x22 x84 xe4 x9c xf2 xcb)
(T (W x5f x4e x53 x5f x30 x32 x5f x43)
(L (W xff xff xff xff xff xff xff xff))
(L (W xff xff xff xff xff xff xff xff)))
(T (W x00 x00 x00 x00 x00 x00 x00 x00)
(L (W x03 x00 x00 x00 xd8 x00 x00 x00)) E))
(T (W x24 x00 x00 x00 xb0 x00 x00 x00)
(T (W xff xff xff xff xff xff xff xff)
(L (W x00 x00 x80 xbf x00 x00 x80 xbf)) E)
(T (W x00 x00 x80 xbf x00 x00 x80 xbf)
(L (W xff xff xff xff xff xff xff xff)) E)))))
(T (W x82 xb0 xf9 xff x78 x00 x00 x00)
(T (W xff xff xff xff xff xff xff xff)
(T (W xff xff xff xff xff xff xff xff)
(T (W xff xff xff xff xff xff xff xff)
(T (W xff xff xff xff x01 x00 x00 x00)
(L (W x00 x00 x80 xbf x00 x00 x80 xbf))
(L (W x00 x00 x80 xbf x00 x00 x80 xbf)))
(T (W x00 x00 x00 x00 x00 x00 x00 x00)
(L (W x91 x01 x00 x00 xff xff xff xff)) E))
(T (W x50 x00 x00 x00 x44 x00 x00 x00)
(T (W xff xff xff xff xff xff xff xff)
(L (W x00 x00 x80 xbf x00 x00 x80 xbf)) E)
(T (W xff xff xff xff xff xff xff xff)
(L (W x2c x21 xff xff x14 x00 x00 x00)) E)))
(T (W x00 x00 x00 x00 x00 x00 x00 x00)
(T (W x00 x00 x00 x00 x00 x00 x00 x00)
(T (W x00 x00 x00 x00 x00 x00 x00 x00)
(L (W x18 x00 x00 x00 x10 x00 x00 x00))
(L (W xff xff xff xff xff xff xff xff)))
(T (W x00 x00 x01 x01 x9b x00 x00 x00)
(L (W x45 x26 x22 x84 xe4 x9c xf2 xcb)) E))
(T (W x00 x00 x00 x00 x00 x00 x00 x00)
(T (W xff xff xff xff xc4 x00 x00 x00)
(L (W x00 x00 x00 x00 x00 x00 x00 x00)) E)
(T (W x00 x00 x00 x00 x00 x00 x00 x00)
(L (W xff xff xff xff x9c x00 x00 x00)) E))))
(T (W xc4 x00 x00 x00 xb8 x00 x00 x00)
(T (W x45 x26 x22 x84 xe4 x9c xf2 xcb)
(T (W x00 x00 x80 x3f x00 x00 x80 x3f)
(T (W x00 x00 x00 x00 x00 x00 x00 x00)
(L (W xff xff xff xff x0e x00 x00 x00))
(L (W x18 x00 x00 x00 x10 x00 x00 x00)))
(T (W x50 x00 x00 x00 x44 x00 x00 x00)
(L (W x30 x32 x5f x43 x4c x45 x41 x52)) E))
(T (W xff xff xff xff xff xff xff xff)
(T (W x00 x00 x00 x00 x00 x00 x00 x00)
(L (W xff xff xff xff xff xff xff xff)) E)
(T (W x45 x26 x22 x84 xe4 x9c xf2 xcb)
(L (W x45 x26 x22 x84 xe4 x9c xf2 xcb)) E)))
(T (W x00 x00 x00 x00 xe2 x7f xff xff)
(T (W x00 x00 x00 x00 x00 x00 x00 x00)
(T (W x00 x00 x80 x3f x00 x00 x80 x3f)
(L (W x00 x00 x00 x00 x00 x00 x00 x00))
(L (W x00 x00 x00 x00 x00 x00 x00 x00)))
(T (W xd0 x00 x00 x00 xc4 x00 x00 x00)
(L (W xff xff xff xff xff xff xff xff)) E))
(T (W x00 x00 x00 x00 x00 x00 x00 x00)
(T (W x00 x00 x80 x3f x00 x00 x80 x3f)
(L (W xff xff xff xff xc8 x00 x00 x00)) E)
(T (W x00 x00 x00 x00 x00 x00 x00 x00)
(L (W x45 x44 x00 x00 x00 x00 x00 x00)) E)))))))
(T (W x00 x00 x00 x00 x00 x00 x00 x00)
(T (W xff xff xff xff xff xff xff xff)
(T (W x94 x06 x00 x00 x80 x05 x00 x00)
(T (W x00 x00 x80 x3f x00 x00 x80 x3f)
(T (W x00 x00 x00 x00 x00 x00 x00 x00)
(T (W x00 x00 x80 x3f x00 x00 x80 x3f)
(T (W x00 x00 x01 x01 x9c x01 x00 x00)
(L (W xff xff xff xff xff xff xff xff))
(L (W x00 x00 x00 x00 x14 x7e xff xff)))
(T (W xff xff xff xff xff xff xff xff)
(L (W x00 x00 x00 x00 x00 x00 x00 x00)) E))
(T (W xa4 xff xfa xff x00 x01 x01 x01)
(T (W x00 x00 x00 x00 x00 x00 x00 x00)
(L (W xff xff xff xff xff xff xff xff))
(L (W xff xff xff xff xff xff xff xff)))
(T (W x00 x00 x80 xbf x00 x00 x80 xbf)
(L (W x49 xa1 x68 x4a xeb x5f xdd x3d)) E)))
(T (W xff xff xff xff xff xff xff xff)
(T (W xff xff xff xff xff xff xff xff)
(T (W x00 x00 x00 x00 x22 x00 x00 x00)
(L (W xff xff xff xff x9c x00 x00 x00))
(L (W x00 x00 x00 x00 x00 x00 x00 x00)))
(T (W xff xff xff xff xff xff xff xff)
(L (W xff xff xff xff xff xff xff xff)) E))
(T (W x18 x00 x00 x00 x0c x00 x00 x00)
(T (W x74 x03 x00 x00 x4c x02 x00 x00)
(L (W x6c x00 x00 x00 x60 x00 x00 x00)) E)
(T (W x00 x00 x00 x00 x00 x00 x00 x00)
(L (W x00 x00 x01 x01 x5c x00 x00 x00)) E))))
(T (W x00 x00 x00 x00 x00 x00 x00 x00)
(T (W xc0 x00 x00 x00 xb4 x00 x00 x00)
(T (W x3a xaf xfd xff x00 x00 x01 x01)
(T (W xff xff xff xff xff xff xff xff)
(L (W x8a xfc xff xff x00 x00 x01 x01))
(L (W x00 x00 x00 x00 x00 x00 x00 x00)))
(T (W x45 x26 x22 x84 xe4 x9c xf2 xcb)
(L (W x50 x00 x00 x00 x44 x00 x00 x00)) E))
(T (W xff xff xff xff xff xff xff xff)
(T (W x54 x00 x00 x00 x48 x00 x00 x00)
(L (W x00 x00 x00 x00 x00 x00 x00 x00)) E)
(T (W xc4 x00 x00 x00 x02 x00 x00 x00)
(L (W x03 x00 x00 x00 xd0 x00 x00 x00)) E)))
(T (W xd2 x5a xfa xff x74 x00 x00 x00)
(T (W x64 x00 x00 x00 x9c x00 x00 x00)
(T (W xff xff xff xff xc4 x00 x00 x00)
(L (W x00 x00 x00 x00 x00 x00 x00 x00))
(L (W x00 x00 x80 xbf x00 x00 x80 xbf)))
(T (W xcc x00 x00 x00 x01 x00 x00 x00)
(L (W x46 x53 x59 x53 x5f x4e x53 x5f)) E))
(T (W xa1 x01 x00 x00 xff xff xff xff)
(T (W x00 x00 x80 x3f x00 x00 x80 x3f)
(L (W x04 x00 x00 x00 x92 x63 xfe xff)) E)
(T (W xff xff xff xff xff xff xff xff)
(L (W x00 x00 x80 xbf x00 x00 x80 xbf)) E)))))
(T (W x45 x26 x22 x84 xe4 x9c xf2 xcb)
(T (W xa4 xcf xf9 xff x00 x01 x01 x01)
(T (W x40 x00 x00 x00 x10 x00 x00 x00)
(T (W x00 x00 x80 x3f x00 x00 x80 x3f)
(T (W x00 x00 x00 x00 x00 x00 x00 x00)
(L (W xff xff xff xff xff xff xff xff))
(L (W xff xff xff xff xff xff xff xff)))
(T (W x00 x00 x00 x00 x14 x8e xfc xff)
(L (W x54 x00 x00 x00 x48 x00 x00 x00)) E))
(T (W x3a x1f xfe xff x00 x00 x01 x01)
(T (W x00 x00 x00 x00 x00 x00 x00 x00)
(L (W x00 x00 x00 x00 x02 x12 xfe xff)) E)
(T (W xff xff xff xff xff xff xff xff)
(L (W x6c x00 x00 x00 x60 x00 x00 x00)) E)))
(T (W x18 x00 x00 x00 x10 x00 x00 x00)
(T (W xff xff xff xff xff xff xff xff)
(T (W x00 x00 x80 x3f x00 x00 x80 x3f)
(L (W xff xff xff xff xff xff xff xff))
(L (W x45 x26 x22 x84 xe4 x9c xf2 xcb)))
(T (W x00 x00 x00 x00 x00 x00 x00 x00)
(L (W x00 x00 x00 x00 xb2 xcb xfe xff)) E))
(T (W x45 x26 x22 x84 xe4 x9c xf2 xcb)
(T (W x00 x00 x00 x00 x00 x00 x00 x00)
(L (W x03 x00 x00 x00 xd8 x00 x00 x00)) E)
(T (W x45 x26 x22 x84 xe4 x9c xf2 xcb)
(L (W x00 x00 x00 x00 x00 x00 x00 x00)) E))))
(T (W x00 x00 x00 x00 x00 x00 x00 x00)
(T (W xff xff xff xff xff xff xff xff)
(T (W xff xff xff xff xff xff xff xff)
(T (W x54 x00 x00 x00 x48 x00 x00 x00)
(L (W xff xff xff xff xbc x00 x00 x00))
(L (W x00 x00 x00 x00 x72 xad xff xff)))
(T (W x00 x00 x00 x00 x00 x00 x00 x00)
(L (W x19 x00 x00 x00 x1c x00 x00 x00)) E))
(T (W x4f x84 x6f x8b xe8 xcb x63 xb7)
(T (W xff xff xff xff x03 x00 x00 x00)
(L (W x00 x00 x80 xbf x00 x00 x80 xbf)) E)
(T (W x03 x00 x00 x00 xd8 x00 x00 x00)
(L (W xff xff xff xff xff xff xff xff)) E)))
(T (W x00 x00 x80 x3f x00 x00 x80 x3f)
(T (W x50 x00 x00 x00 x44 x00 x00 x00)
(T (W xff xff xff xff xff xff xff xff)
(L (W x00 x00 x00 x00 x14 xee xfd xff))
(L (W x82 xec xff xff x78 x00 x00 x00)))
(T (W xc0 x00 x00 x00 xb4 x00 x00 x00)
(L (W x00 x00 x80 xbf x00 x00 x80 xbf)) E))
(T (W x00 x00 x80 x3f x00 x00 x80 x3f)
(T (W xff xff xff xff xff xff xff xff)
(L (W x00 x00 x00 x00 x00 x00 x00 x00)) E)
(T (W x00 x00 x00 x00 x00 x00 x00 x00)
(L (W x00 x00 x80 xbf x00 x00 x80 xbf)) E))))))
(T (W x82 x94 xf9 xff x78 x00 x00 x00)
(T (W x64 x00 x00 x00 xa0 x00 x00 x00)
(T (W x00 x00 x00 x00 x4a x5f xfd xff)
(T (W x00 x00 x00 x00 x00 x00 x00 x00)
(T (W x50 x00 x00 x00 x44 x00 x00 x00)
(T (W x00 x00 x00 x00 x02 x8a xfb xff)
(L (W xff xff xff xff xff xff xff xff))
(L (W xff xff xff xff xff xff xff xff)))
(T (W xff xff xff xff xff xff xff xff)
(L (W x00 x00 x80 xbf x00 x00 x80 xbf)) E))
(T (W xff xff xff xff xff xff xff xff)
(T (W x00 x00 x00 x00 x00 x00 x00 x00)
(L (W xff xff xff xff xff xff xff xff)) E)
(T (W x00 x00 x80 xbf x00 x00 x80 xbf)
(L (W x00 x00 x80 xbf x00 x00 x80 xbf)) E)))
(T (W xff xff xff xff xff xff xff xff)
(T (W xff xff xff xff xff xff xff xff)
(T (W x00 x00 x80 x3f x00 x00 x80 x3f)
(L (W x00 x00 x00 x00 x00 x00 x00 x00))
(L (W x00 x00 x00 x00 x00 x00 x00 x00)))
(T (W x03 x00 x00 x00 xe4 x00 x00 x00)
(L (W xff xff xff xff xff xff xff xff)) E))
(T (W x3a x86 xfd xff x9c x01 x00 x00)
(T (W x00 x00 x00 x00 x00 x00 x00 x00)
(L (W x00 x00 x00 x00 x14 x46 xfe xff)) E)
(T (W x4f x84 x6f x8b xe8 xcb x63 xb7)
(L (W x46 x53 x59 x53 x5f x4e x53 x5f)) E))))
(T (W x00 x00 x00 x00 x00 x00 x00 x00)
(T (W xff xff xff xff xff xff xff xff)
(T (W xff xff xff xff xff xff xff xff)
(T (W x00 x00 x00 x00 x00 x00 x00 x00)
(L (W x45 x26 x22 x84 xe4 x9c xf2 xcb))
(L (W xff xff xff xff xc0 x00 x00 x00)))
(T (W x3a xb7 xff xff x00 x00 x01 x01)
(L (W xff xff xff xff xb0 x00 x00 x00)) E))
(T (W x3a x37 xfe xff x00 x00 x01 x01)
(T (W x00 x00 x80 x3f x00 x00 x80 x3f)
(L (W x00 x00 x00 x00 x00 x00 x00 x00)) E)
(T (W x45 x26 x22 x84 xe4 x9c xf2 xcb)
(L (W xff xff xff xff xff xff xff xff)) E)))
(T (W x00 x00 x80 x3f x00 x00 x80 x3f)
(T (W xa4 xe7 xfa xff x00 x01 x01 x01)
(T (W xff xff xff xff xff xff xff xff)
(L (W x00 x00 x00 x00 x00 x00 x00 x00))
(L (W x54 x00 x00 x00 x48 x00 x00 x00)))
(T (W x00 x00 x80 x3f x00 x00 x80 x3f)
(L (W x00 x00 x00 x00 x00 x00 x00 x00)) E))
(T (W x00 x00 x00 x00 x00 x00 x00 x00)
(T (W x01 x00 x00 x00 xa0 x00 x00 x00)
(L (W x46 x53 x59 x53 x5f x4e x53 x5f)) E)
(T (W xff xff xff xff xff xff xff xff)
(L (W x00 x00 x80 xbf x00 x00 x80 xbf)) E)))))
(T (W xff xff xff xff xff xff xff xff)
(T (W x00 x00 x00 x00 x00 x00 x00 x00)
(T (W x45 x26 x22 x84 xe4 x9c xf2 xcb)
(T (W x00 x00 x80 x3f x00 x00 x80 x3f)
(T (W x54 x00 x00 x00 x48 x00 x00 x00)
(L (W xff xff xff xff xff xff xff xff))
(L (W x06 x00 x00 x00 xc8 x05 x00 x00)))
(T (W xd2 x92 xfc xff x74 x00 x00 x00)
(L (W x00 x00 x80 xbf x00 x00 x80 xbf)) E))
(T (W x01 x00 x00 x00 x29 x00 x00 x00)
(T (W x45 x26 x22 x84 xe4 x9c xf2 xcb)
(L (W x00 x00 x00 x00 x00 x00 x00 x00)) E)
(T (W x2c xf9 xff xff x01 x01 x01 x01)
(L (W xff xff xff xff xff xff xff xff)) E)))
(T (W x01 x00 x00 x00 xa0 x00 x00 x00)
(T (W xff xff xff xff xff xff xff xff)
(T (W x00 x00 x80 x3f x00 x00 x80 x3f)
(L (W x46 x53 x59 x53 x5f x4e x53 x5f))
(L (W x00 x00 x80 xbf x00 x00 x80 xbf)))
(T (W x18 x00 x00 x00 x10 x00 x00 x00)
(L (W x30 x32 x5f x43 x4c x45 x41 x52)) E))
(T (W xd4 x00 x00 x00 xc8 x00 x00 x00)
(T (W x49 xa1 x68 x4a xeb x5f xdd x3d)
(L (W xff xff xff xff xff xff xff xff)) E)
(T (W x45 x26 x22 x84 xe4 x9c xf2 xcb)
(L (W x49 xa1 x68 x4a xeb x5f xdd x3d)) E))))
(T (W x3e x00 x00 x00 x0c x00 x00 x00)
(T (W xff xff xff xff xff xff xff xff)
(T (W xff xff xff xff xff xff xff xff)
(T (W xff xff xff xff xff xff xff xff)
(L (W x00 x00 x00 x00 x00 x00 x00 x00))
(L (W x00 x00 x00 x00 x00 x00 x00 x00)))
(T (W x5c x00 x00 x00 xff xff xff xff)
(L (W xcc x00 x00 x00 x02 x00 x00 x00)) E))
(T (W x00 x00 x80 x3f x00 x00 x80 x3f)
(T (W x4b x00 x00 x00 xff xff xff xff)
(L (W x00 x00 x80 xbf x00 x00 x80 xbf)) E)
(T (W xff xff xff xff xff xff xff xff)
(L (W xff xff xff xff xff xff xff xff)) E)))
(T (W x00 x00 x80 x3f x00 x00 x80 x3f)
(T (W xff xff xff xff xff xff xff xff)
(T (W x34 x01 x00 x00 x04 x00 x00 x00)
(L (W x29 x00 x00 x00 x2c x00 x00 x00))
(L (W xcc x00 x00 x00 x01 x00 x00 x00)))
(T (W x00 x00 x80 x3f x00 x00 x80 x3f)
(L (W x00 x00 x80 xbf x00 x00 x80 xbf)) E))
(T (W x00 x00 x00 x00 x14 x76 xfb xff)
(T (W x18 x01 x00 x00 x04 x00 x00 x00)
(L (W x00 x00 x80 xbf x00 x00 x80 xbf)) E)
(T (W xff xff xff xff xff xff xff xff)
(L (W x6c x00 x00 x00 x60 x00 x00 x00)) E)))))))))
(T (W xa0 x9d x02 x00 xa4 x96 x02 x00)
(T (W xe0 xe3 x00 x00 x94 xe1 x00 x00)
(T (W xff xff xff xff xff xff xff xff)
(T (W x00 x00 x80 x3f x00 x00 x80 x3f)
(T (W xff xff xff xff xff xff xff xff)
(T (W x00 x00 x00 x00 x00 x00 x00 x00)
(T (W x00 x00 x80 x3f x00 x00 x80 x3f)
(T (W xff xff xff xff xff xff xff xff)
(T (W x00 x00 x00 x00 x00 x00 x00 x00)
(L (W x00 x00 x00 x00 x00 x00 x00 x00))
(L (W x45 x44 x00 x00 x00 x00 x00 x00)))
(T (W x00 x00 x80 x3f x00 x00 x80 x3f)
(L (W xb4 x00 x00 x00 x46 x00 x00 x00)) E))
(T (W x00 x00 x00 x00 x00 x00 x00 x00)
(T (W x00 x00 x80 x3f x00 x00 x80 x3f)
(L (W x00 x00 x00 x00 x00 x00 x00 x00))
(L (W x45 x44 x00 x00 x00 x00 x00 x00)))
(T (W x44 x00 x48 x00 x4c x00 x50 x00)
(L (W xff xff xff xff xff xff xff xff)) E)))
(T (W x00 x00 x00 x00 x00 x00 x00 x00)
(T (W x00 x00 x00 x00 x00 x00 x00 x00)
(T (W x00 x00 x00 x00 x00 x00 x00 x00)
(L (W x00 x00 x80 xbf x00 x00 x80 xbf))
(L (W x00 x00 x80 xbf x00 x00 x80 xbf)))
(T (W x45 x26 x22 x84 xe4 x9c xf2 xcb)
(L (W x30 x32 x5f x43 x4c x45 x41 x52)) E))
(T (W xff xff xff xff xff xff xff xff)
(T (W x00 x00 x00 x00 x00 x00 x00 x00)
(L (W xff xff xff xff xff xff xff xff)) E)
(T (W x00 x00 x80 xbf x00 x00 x80 xbf)
(L (W x00 x00 x00 x00 x00 x00 x00 x00)) E))))
(T (W x00 x00 x80 x3f x00 x00 x80 x3f)
(T (W xb8 x00 x00 x00 xac x00 x00 x00)
(T (W x00 x00 x00 x00 x00 x00 x00 x00)
(T (W x00 x00 x00 x00 x00 x00 x00 x00)
(L (W x49 xa1 x68 x4a xeb x5f xdd x3d))
(L (W x00 x00 x80 xbf x00 x00 x80 xbf)))
(T (W xff xff xff xff xff xff xff xff)
(L (W x5c x00 x00 x00 xff xff xff xff)) E))
(T (W x00 x00 x00 x00 x00 x00 x00 x00)
(T (W xff xff xff xff xff xff xff xff)
(L (W x00 x00 x80 xbf x00 x00 x80 xbf)) E)
(T (W x00 x00 x80 xbf x00 x00 x80 xbf)
(L (W x00 x00 x00 x00 x00 x00 x00 x00)) E)))
(T (W x00 x00 x00 x00 x00 x00 x00 x00)
(T (W x00 x00 x00 x00 x00 x00 x00 x00)
(T (W x00 x00 x00 x00 x00 x00 x00 x00)
(L (W x00 x00 x80 xbf x00 x00 x80 xbf))
(L (W xff xff xff xff x9c x00 x00 x00)))
(T (W x00 x00 x01 x01 x89 x00 x00 x00)
(L (W x00 x00 x80 xbf x00 x00 x80 xbf)) E))
(T (W x00 x00 x00 x00 x00 x00 x00 x00)
(T (W x45 x26 x22 x84 xe4 x9c xf2 xcb)
(L (W x00 x00 x00 x00 x00 x00 x00 x00)) E)
(T (W x30 x32 x5f x43 x4c x45 x41 x52)
(L (W xff xff xff xff xa0 x00 x00 x00)) E)))))
(T (W xff xff xff xff xff xff xff xff)
(T (W x00 x00 x00 x00 x00 x00 x00 x00)
(T (W x00 x00 x80 x3f x00 x00 x80 x3f)
(T (W x18 x00 x00 x00 x10 x00 x00 x00)
(T (W x18 x00 x00 x00 x10 x00 x00 x00)
(L (W x12 x00 x00 x00 x46 x53 x59 x53))
(L (W x00 x00 x00 x00 x00 x00 x00 x00)))
(T (W x00 x00 x00 x00 x00 x00 x00 x00)
(L (W xff xff xff xff xff xff xff xff)) E))
(T (W x00 x00 x80 x3f x00 x00 x80 x3f)
(T (W x6c x00 x00 x00 x60 x00 x00 x00)
(L (W x00 x00 x00 x00 x00 x00 x00 x00)) E)
(T (W xff xff xff xff xff xff xff xff)
(L (W xff xff xff xff xff xff xff xff)) E)))
(T (W xba x58 xfd xff x91 x01 x00 x00)
(T (W x00 x00 x00 x00 x00 x00 x00 x00)
(T (W xff xff xff xff x9c x00 x00 x00)
(L (W x00 x00 x80 xbf x00 x00 x80 xbf))
(L (W xd2 xc5 xff xff x74 x00 x00 x00)))
(T (W x48 x00 x4c x00 x50 x00 x54 x00)
(L (W x00 x00 x80 xbf x00 x00 x80 xbf)) E))
(T (W x00 x00 x80 x3f x00 x00 x80 x3f)
(T (W x68 x00 x00 x00 x5c x00 x00 x00)
(L (W xff xff xff xff xff xff xff xff)) E)
(T (W x00 x00 x00 x00 x14 x49 xfd xff)
(L (W x54 x00 x00 x00 x48 x00 x00 x00)) E))))
(T (W xa4 xea xf9 xff x00 x01 x01 x01)
(T (W x00 x00 x00 x00 x00 x00 x00 x00)
(T (W x00 x00 x80 x3f x00 x00 x80 x3f)
(T (W xff xff xff xff x03 x00 x00 x00)
(L (W x00 x00 x80 xbf x00 x00 x80 xbf))
(L (W x45 x26 x22 x84 xe4 x9c xf2 xcb)))
(T (W x45 x26 x22 x84 xe4 x9c xf2 xcb)
(L (W x00 x00 x00 x00 xb2 xa6 xfe xff)) E))
(T (W x00 x00 x80 x3f x00 x00 x80 x3f)
(T (W x4a x00 x00 x00 xff xff xff xff)
(L (W xff xff xff xff xb0 x00 x00 x00)) E)
(T (W x2c x38 xfd xff x15 x00 x00 x00)
(L (W x00 x00 x00 x00 x00 x00 x00 x00)) E)))
(T (W xff xff xff xff xff xff xff xff)
(T (W x00 x00 x00 x00 x00 x00 x00 x00)
(T (W x30 x32 x5f x43 x4c x45 x41 x52)
(L (W x2a x00 x00 x00 xff xff xff xff))
(L (W xff xff xff xff xff xff xff xff)))
(T (W x5f x4e x53 x5f x30 x32 x5f x43)
(L (W xa4 xea xfe xff x00 x01 x01 x01)) E))
(T (W x01 x00 x00 x00 x21 x00 x00 x00)
(T (W x00 x00 x80 x3f x00 x00 x80 x3f)
(L (W x00 x00 x80 xbf x00 x00 x80 xbf)) E)
(T (W x49 xa1 x68 x4a xeb x5f xdd x3d)
(L (W xff xff xff xff xff xff xff xff)) E))))))
(T (W x00 x00 x00 x00 x00 x00 x00 x00)
(T (W x00 x00 x80 x3f x00 x00 x80 x3f)
(T (W x18 x00 x00 x00 x0c x00 x00 x00)
(T (W x00 x00 x80 x3f x00 x00 x80 x3f)
(T (W xff xff xff xff x04 x00 x00 x00)
(T (W x00 x00 x80 x3f x00 x00 x80 x3f)
(L (W x4f x84 x6f x8b xe8 xcb x63 xb7))
(L (W x00 x00 x00 x00 x00 x00 x00 x00)))
(T (W x00 x00 x00 x00 x00 x00 x00 x00)
(L (W xff xff xff xff xff xff xff xff)) E))
(T (W xff xff xff xff xff xff xff xff)
(T (W x50 x00 x00 x00 x44 x00 x00 x00)
(L (W x00 x00 x00 x00 x00 x00 x00 x00))
(L (W xff xff xff xff xff xff xff xff)))
(T (W x00 x00 x00 x00 x26 x00 x00 x00)
(L (W xff xff xff xff xff xff xff xff)) E)))
(T (W x29 x84 xc9 x92 x00 xe2 x53 xf4)
(T (W x00 x00 x00 x00 x00 x00 x00 x00)
(T (W xd2 xbd xfb xff x74 x00 x00 x00)
(L (W x00 x00 x00 x00 x00 x00 x00 x00))
(L (W x6c x00 x00 x00 x60 x00 x00 x00)))
(T (W x00 x00 x00 x00 x00 x00 x00 x00)
(L (W x00 x00 x00 x00 x00 x00 x00 x00)) E))
(T (W x45 x44 x00 x00 x00 x00 x00 x00)
(T (W x00 x00 x80 x3f x00 x00 x80 x3f)
(L (W xff xff xff xff xff xff xff xff)) E)
(T (W x82 x3f xfd xff x78 x00 x00 x00)
(L (W x49 xa1 x68 x4a xeb x5f xdd x3d)) E))))
(T (W x00 x00 x80 x3f x00 x00 x80 x3f)
(T (W x00 x00 x00 x00 x00 x00 x00 x00)
(T (W x00 x00 x80 x3f x00 x00 x80 x3f)
(T (W x45 x26 x22 x84 xe4 x9c xf2 xcb)
(L (W x00 x00 x80 xbf x00 x00 x80 xbf))
(L (W x00 x00 x80 xbf x00 x00 x80 xbf)))
(T (W x00 x00 x00 x00 x00 x00 x00 x00)
(L (W xff xff xff xff xff xff xff xff)) E))
(T (W x00 x00 x00 x00 x00 x00 x00 x00)
(T (W xff xff xff xff xff xff xff xff)
(L (W x45 x26 x22 x84 xe4 x9c xf2 xcb)) E)
(T (W xc6 x00 x00 x00 xff xff xff xff)
(L (W x00 x00 x00 x00 x00 x00 x00 x00)) E)))
(T (W x48 x03 x00 x00 x34 x02 x00 x00)
(T (W xd4 xe6 xfa xff x16 x00 x00 x00)
(T (W x32 xe8 xfe xff x00 x00 x01 x01)
(L (W x18 x00 x00 x00 x0c x00 x00 x00))
(L (W xff xff xff xff xff xff xff xff)))
(T (W x45 x44 x00 x00 x00 x00 x00 x00)
(L (W x00 x00 x80 xbf x00 x00 x80 xbf)) E))
(T (W x00 x00 x80 x3f x00 x00 x80 x3f)
(T (W xff xff xff xff xff xff xff xff)
(L (W x00 x00 x80 xbf x00 x00 x80 xbf)) E)
(T (W x00 x00 x00 x00 x00 x00 x00 x00)
(L (W xcc x00 x00 x00 x01 x00 x00 x00)) E)))))
(T (W x00 x00 x80 x3f x00 x00 x80 x3f)
(T (W xff xff xff xff xff xff xff xff)
(T (W x01 x00 x00 x00 x3e x00 x00 x00)
(T (W xb8 x00 x00 x00 xac x00 x00 x00)
(T (W xff xff xff xff xff xff xff xff)
(L (W x00 x00 x00 x00 x00 x00 x00 x00))
(L (W x00 x00 x80 xbf x00 x00 x80 xbf)))
(T (W x18 x01 x00 x00 x04 x00 x00 x00)
(L (W xff xff xff xff xff xff xff xff)) E))
(T (W x00 x00 x80 x3f x00 x00 x80 x3f)
(T (W x45 x26 x22 x84 xe4 x9c xf2 xcb)
(L (W x00 x00 x80 xbf x00 x00 x80 xbf)) E)
(T (W xb0 x00 x00 x00 x64 x00 x00 x00)
(L (W xff xff xff xff xff xff xff xff)) E)))
(T (W x00 x00 x00 x00 x00 x00 x00 x00)
(T (W x00 x00 x00 x00 x00 x00 x00 x00)
(T (W xff xff xff xff xff xff xff xff)
(L (W x54 x00 x00 x00 x48 x00 x00 x00))
(L (W x18 x00 x00 x00 x0c x00 x00 x00)))
(T (W xb4 x00 x00 x00 x32 x00 x00 x00)
(L (W x00 x00 x80 xbf x00 x00 x80 xbf)) E))
(T (W xff xff xff xff xff xff xff xff)
(T (W x45 x26 x22 x84 xe4 x9c xf2 xcb)
(L (W x46 x53 x59 x53 x5f x4e x53 x5f)) E)
(T (W xff xff xff xff xff xff xff xff)
(L (W x82 x4f xff xff x78 x00 x00 x00)) E))))
(T (W x00 x00 x80 x3f x00 x00 x80 x3f)
(T (W x00 x00 x00 x00 x00 x00 x00 x00)
(T (W x00 x00 x00 x00 x00 x00 x00 x00)
(T (W xff xff xff xff x01 x00 x00 x00)
(L (W xff xff xff xff xff xff xff xff))
(L (W x54 x00 x00 x00 x48 x00 x00 x00)))
(T (W x45 x26 x22 x84 xe4 x9c xf2 xcb)
(L (W x00 x00 x01 x01 xc5 x01 x00 x00)) E))
(T (W xff xff xff xff xc4 x00 x00 x00)
(T (W x45 x44 x00 x00 x00 x00 x00 x00)
(L (W xff xff xff xff xff xff xff xff)) E)
(T (W x00 x00 x00 x00 x00 x00 x00 x00)
(L (W x00 x00 x00 x00 x00 x00 x00 x00)) E)))
(T (W xff xff xff xff xff xff xff xff)
(T (W x00 x00 x00 x00 x02 x00 x00 x00)
(T (W x45 x26 x22 x84 xe4 x9c xf2 xcb)
(L (W xa4 x04 x00 x00 x88 x03 x00 x00))
(L (W xf4 x06 x00 x00 xd8 x05 x00 x00)))
(T (W x18 x00 x00 x00 x10 x00 x00 x00)
(L (W xff xff xff xff xff xff xff xff)) E))
(T (W xa1 x01 x00 x00 xff xff xff xff)
(T (W x00 x00 x00 x00 x00 x00 x00 x00)
(L (W x45 x26 x22 x84 xe4 x9c xf2 xcb)) E)
(T (W x00 x00 x80 xbf x00 x00 x80 xbf)
(L (W xff xff xff xff xff xff xff xff)) E)))))))
(T (W x00 x00 x00 x00 x00 x00 x00 x00)
(T (W xff xff xff xff xff xff xff xff)
(T (W x00 x00 x00 x00 x00 x00 x00 x00)
(T (W x00 x00 x80 x3f x00 x00 x80 x3f)
(T (W x00 x00 x00 x00 xe2 x0a xff xff)
(T (W x00 x00 x80 x3f x00 x00 x80 x3f)
(T (W xff xff xff xff x9c x00 x00 x00)
(L (W xb0 x00 x00 x00 x64 x00 x00 x00))
(L (W x00 x00 x80 xbf x00 x00 x80 xbf)))
(T (W xff xff xff xff xff xff xff xff)
(L (W x00 x00 x00 x00 x12 x00 x00 x00)) E))
(T (W x00 x00 x00 x00 x00 x00 x00 x00)
(T (W xff xff xff xff xff xff xff xff)
(L (W x18 x00 x00 x00 x0c x00 x00 x00))
(L (W x00 x00 x80 xbf x00 x00 x80 xbf)))
(T (W x63 x6f x77 x61 x72 x64 x5f x63)
(L (W x00 x00 x00 x00 x00 x00 x00 x00)) E)))
(T (W xc0 x00 x00 x00 xb4 x00 x00 x00)
(T (W xff xff xff xff xff xff xff xff)
(T (W xff xff xff xff xff xff xff xff)
(L (W x45 x26 x22 x84 xe4 x9c xf2 xcb))
(L (W x30 x32 x5f x43 x4c x45 x41 x52)))
(T (W xff xff xff xff x03 x00 x00 x00)
(L (W x18 x00 x00 x00 x0c x00 x00 x00)) E))
(T (W x00 x00 x80 x3f x00 x00 x80 x3f)
(T (W xff xff xff xff xff xff xff xff)
(L (W x00 x00 x80 xbf x00 x00 x80 xbf)) E)
(T (W xc7 x01 x00 x00 xff xff xff xff)
(L (W xff xff xff xff xff xff xff xff)) E))))
(T (W x00 x00 x01 x01 xc2 x02 x00 x00)
(T (W x00 x00 x00 x00 x00 x00 x00 x00)
(T (W xff xff xff xff xff xff xff xff)
(T (W xff xff xff xff xff xff xff xff)
(L (W xff xff xff xff xff xff xff xff))
(L (W xdc x04 x00 x00 x70 x03 x00 x00)))
(T (W xa4 x9e xfc xff x00 x01 x01 x01)
(L (W x00 x00 x80 xbf x00 x00 x80 xbf)) E))
(T (W xff xff xff xff x03 x00 x00 x00)
(T (W x00 x00 x00 x00 x00 x00 x00 x00)
(L (W xf4 x06 x00 x00 xd8 x05 x00 x00)) E)
(T (W x00 x00 x80 xbf x00 x00 x80 xbf)
(L (W x18 x00 x00 x00 x10 x00 x00 x00)) E)))
(T (W x00 x00 x80 x3f x00 x00 x80 x3f)
(T (W x50 x00 x00 x00 x44 x00 x00 x00)
(T (W x45 x26 x22 x84 xe4 x9c xf2 xcb)
(L (W x30 x32 x5f x43 x4c x45 x41 x52))
(L (W x49 xa1 x68 x4a xeb x5f xdd x3d)))
(T (W x45 x26 x22 x84 xe4 x9c xf2 xcb)
(L (W x00 x00 x01 x01 x29 x00 x00 x00)) E))
(T (W xff xff xff xff xff xff xff xff)
(T (W x00 x00 x00 x00 x00 x00 x00 x00)
(L (W xff xff xff xff xc4 x00 x00 x00)) E)
(T (W xff xff xff xff xb0 x00 x00 x00)
(L (W x4f x84 x6f x8b xe8 xcb x63 xb7)) E)))))
(T (W x00 x00 x00 x00 x00 x00 x00 x00)
(T (W x54 x00 x00 x00 x48 x00 x00 x00)
(T (W xff xff xff xff xff xff xff xff)
(T (W x45 x26 x22 x84 xe4 x9c xf2 xcb)
(T (W x00 x00 x00 x00 x00 x00 x00 x00)
(L (W xc0 x00 x00 x00 x01 x00 x00 x00))
(L (W x03 x00 x00 x00 xd0 x00 x00 x00)))
(T (W xd2 x89 xfc xff x74 x00 x00 x00)
(L (W x00 x00 x80 xbf x00 x00 x80 xbf)) E))
(T (W xff xff xff xff xff xff xff xff)
(T (W x00 x00 x00 x00 x00 x00 x00 x00)
(L (W xff xff xff xff xff xff xff xff)) E)
(T (W x18 x00 x00 x00 x0c x00 x00 x00)
(L (W x00 x00 x80 xbf x00 x00 x80 xbf)) E)))
(T (W xa4 x4e xfa xff x00 x01 x01 x01)
(T (W xbc x00 x00 x00 xb0 x00 x00 x00)
(T (W x49 xa1 x68 x4a xeb x5f xdd x3d)
(L (W xff xff xff xff xff xff xff xff))
(L (W x00 x00 x00 x00 x00 x00 x00 x00)))
(T (W xff xff xff xff xff xff xff xff)
(L (W xff xff xff xff xff xff xff xff)) E))
(T (W x00 x00 x00 x00 x00 x00 x00 x00)
(T (W x45 x44 x00 x00 x00 x00 x00 x00)
(L (W x18 x00 x00 x00 x10 x00 x00 x00)) E)
(T (W x00 x00 x00 x00 x00 x00 x00 x00)
(L (W x30 x32 x5f x43 x4c x45 x41 x52)) E))))
(T (W xff xff xff xff x01 x00 x00 x00)
(T (W x18 x00 x00 x00 x0c x00 x00 x00)
(T (W xff xff xff xff xff xff xff xff)
(T (W x00 x00 x00 x00 x00 x00 x00 x00)
(L (W xff xff xff xff x9c x00 x00 x00))
(L (W xff xff xff xff xff xff xff xff)))
(T (W x6f x00 x00 x00 xff xff xff xff)
(L (W x82 xab xfe xff x78 x00 x00 x00)) E))
(T (W x18 x00 x00 x00 x10 x00 x00 x00)
(T (W x00 x00 x80 x3f x00 x00 x80 x3f)
(L (W x00 x00 x00 x00 x00 x00 x00 x00)) E)
(T (W x18 x00 x00 x00 x10 x00 x00 x00)
(L (W xff xff xff xff xc8 x00 x00 x00)) E)))
(T (W x00 x00 x80 x3f x00 x00 x80 x3f)
(T (W x00 x00 x80 x3f x00 x00 x80 x3f)
(T (W x18 x00 x00 x00 x0c x00 x00 x00)
(L (W x00 x00 x80 xbf x00 x00 x80 xbf))
(L (W x00 x00 x80 xbf x00 x00 x80 xbf)))
(T (W x45 x26 x22 x84 xe4 x9c xf2 xcb)
(L (W x45 x26 x22 x84 xe4 x9c xf2 xcb)) E))
(T (W x45 x26 x22 x84 xe4 x9c xf2 xcb)
(T (W xff xff xff xff xff xff xff xff)
(L (W x46 x53 x59 x53 x5f x4e x53 x5f)) E)
(T (W xff xff xff xff xff xff xff xff)
(L (W x4f x84 x6f x8b xe8 xcb x63 xb7)) E))))))
(T (W x00 x00 x80 x3f x00 x00 x80 x3f)
(T (W x45 x26 x22 x84 xe4 x9c xf2 xcb)
(T (W xff xff xff xff xff xff xff xff)
(T (W x1c x01 x00 x00 x04 x00 x00 x00)
(T (W x00 x00 x00 x00 x00 x00 x00 x00)
(T (W xff xff xff xff xff xff xff xff)
(L (W x45 x26 x22 x84 xe4 x9c xf2 xcb))
(L (W xd2 x81 xff xff x74 x00 x00 x00)))
(T (W x00 x00 x00 x00 x14 x85 xfc xff)
(L (W x00 x00 x00 x00 x00 x00 x00 x00)) E))
(T (W xd4 x00 x00 x00 xc8 x00 x00 x00)
(T (W x00 x00 x00 x00 x00 x00 x00 x00)
(L (W xff xff xff xff xff xff xff xff)) E)
(T (W x6c x64 x5f x70 x6f x6b x65 x5f)
(L (W x00 x00 x80 xbf x00 x00 x80 xbf)) E)))
(T (W xd2 x41 xfa xff x74 x00 x00 x00)
(T (W x64 x00 x00 x00 x9c x00 x00 x00)
(T (W x00 x00 x00 x00 x00 x00 x00 x00)
(L (W xff xff xff xff xff xff xff xff))
(L (W x2c xd4 xff xff x13 x00 x00 x00)))
(T (W x68 x00 x00 x00 x5c x00 x00 x00)
(L (W xff xff xff xff xff xff xff xff)) E))
(T (W xff xff xff xff xff xff xff xff)
(T (W xff xff xff xff xff xff xff xff)
(L (W x00 x00 x80 xbf x00 x00 x80 xbf)) E)
(T (W x00 x00 x00 x00 x00 x00 x00 x00)
(L (W x00 x00 x01 x01 x29 x00 x00 x00)) E))))
(T (W x3a xf6 xfc xff x00 x00 x01 x01)
(T (W xff xff xff xff xff xff xff xff)
(T (W xff xff xff xff xff xff xff xff)
(T (W x00 x00 x00 x00 x00 x00 x00 x00)
(L (W x00 x00 x00 x00 x00 x00 x00 x00))
(L (W x45 x26 x22 x84 xe4 x9c xf2 xcb)))
(T (W xff xff xff xff xff xff xff xff)
(L (W x00 x00 x00 x00 x14 xa5 xfe xff)) E))
(T (W xff xff xff xff xff xff xff xff)
(T (W x00 x00 x80 x3f x00 x00 x80 x3f)
(L (W x45 x44 x00 x00 x00 x00 x00 x00)) E)
(T (W x54 x00 x00 x00 x48 x00 x00 x00)
(L (W x18 x00 x00 x00 x0c x00 x00 x00)) E)))
(T (W x45 x26 x22 x84 xe4 x9c xf2 xcb)
(T (W x00 x00 x80 x3f x00 x00 x80 x3f)
(T (W x68 x00 x00 x00 x5c x00 x00 x00)
(L (W x00 x00 x00 x00 x00 x00 x00 x00))
(L (W x00 x00 x80 xbf x00 x00 x80 xbf)))
(T (W x00 x00 x00 x00 x00 x00 x00 x00)
(L (W x46 x53 x59 x53 x5f x4e x53 x5f)) E))
(T (W x46 x53 x59 x53 x5f x4e x53 x5f)
(T (W x00 x00 x00 x00 x00 x00 x00 x00)
(L (W x00 x00 x01 x01 x2a x00 x00 x00)) E)
(T (W xb0 x00 x00 x00 x64 x00 x00 x00)
(L (W x00 x00 x00 x00 x00 x00 x00 x00)) E)))))
(T (W xff xff xff xff xff xff xff xff)
(T (W x00 x00 x00 x00 x00 x00 x00 x00)
(T (W x00 x00 x00 x00 x00 x00 x00 x00)
(T (W x00 x00 x00 x00 x00 x00 x00 x00)
(T (W x00 x00 x80 x3f x00 x00 x80 x3f)
(L (W xff xff xff xff xff xff xff xff))
(L (W xff xff xff xff xff xff xff xff)))
(T (W x00 x00 x80 x3f x00 x00 x80 x3f)
(L (W x00 x00 x80 xbf x00 x00 x80 xbf)) E))
(T (W x00 x00 x00 x00 x00 x00 x00 x00)
(T (W x00 x00 x00 x00 x00 x00 x00 x00)
(L (W x00 x00 x00 x00 x02 x19 xfe xff)) E)
(T (W x00 x00 x80 xbf x00 x00 x80 xbf)
(L (W x18 x00 x00 x00 x0c x00 x00 x00)) E)))
(T (W x00 x00 x80 x3f x00 x00 x80 x3f)
(T (W xa4 xd6 xfa xff x00 x01 x01 x01)
(T (W x45 x26 x22 x84 xe4 x9c xf2 xcb)
(L (W x00 x00 x01 x01 x2f x00 x00 x00))
(L (W x45 x26 x22 x84 xe4 x9c xf2 xcb)))
(T (W x54 x00 x00 x00 x48 x00 x00 x00)
(L (W xff xff xff xff xff xff xff xff)) E))
(T (W x00 x00 x80 x3f x00 x00 x80 x3f)
(T (W xd4 x5a xfc xff x14 x00 x00 x00)
(L (W x03 x00 x00 x00 xd8 x00 x00 x00)) E)
(T (W x6c x00 x00 x00 x60 x00 x00 x00)
(L (W x00 x00 x00 x00 x00 x00 x00 x00)) E))))
(T (W xff xff xff xff xff xff xff xff)
(T (W xd2 x31 xfa xff x74 x00 x00 x00)
(T (W xff xff xff xff xff xff xff xff)
(T (W x18 x00 x00 x00 x0c x00 x00 x00)
(L (W x00 x00 x00 x00 x00 x00 x00 x00))
(L (W xff xff xff xff xff xff xff xff)))
(T (W xff xff xff xff xff xff xff xff)
(L (W x45 x26 x22 x84 xe4 x9c xf2 xcb)) E))
(T (W x49 xa1 x68 x4a xeb x5f xdd x3d)
(T (W xff xff xff xff xff xff xff xff)
(L (W x00 x00 x00 x00 x00 x00 x00 x00)) E)
(T (W xff xff xff xff xff xff xff xff)
(L (W xff xff xff xff xff xff xff xff)) E)))
(T (W x00 x00 x80 x3f x00 x00 x80 x3f)
(T (W xff xff xff xff xff xff xff xff)
(T (W xff xff xff xff x9c x00 x00 x00)
(L (W x00 x00 x00 x00 x14 xf5 xfd xff))
(L (W x45 x26 x22 x84 xe4 x9c xf2 xcb)))
(T (W x00 x00 x00 x00 x00 x00 x00 x00)
(L (W x00 x00 x00 x00 x00 x00 x00 x00)) E))
(T (W x00 x00 x80 x3f x00 x00 x80 x3f)
(T (W x45 x26 x22 x84 xe4 x9c xf2 xcb)
(L (W x00 x00 x00 x00 x00 x00 x00 x00)) E)
(T (W xff xff xff xff xff xff xff xff)
(L (W x00 x00 x80 xbf x00 x00 x80 xbf)) E))))))))
(T (W xa4 x80 xf9 xff x00 x01 x01 x01)
(T (W xff xff xff xff xff xff xff xff)
(T (W x45 x26 x22 x84 xe4 x9c xf2 xcb)
(T (W x00 x00 x01 x01 xc9 x00 x00 x00)
(T (W x00 x00 x00 x00 x00 x00 x00 x00)
(T (W xff xff xff xff x04 x00 x00 x00)
(T (W x00 x00 x00 x00 x00 x00 x00 x00)
(T (W x00 x00 x80 x3f x00 x00 x80 x3f)
(L (W x54 x00 x00 x00 x48 x00 x00 x00))
(L (W x4f x84 x6f x8b xe8 xcb x63 xb7)))
(T (W xd2 x77 xfc xff x74 x00 x00 x00)
(L (W xff xff xff xff xff xff xff xff)) E))
(T (W x2c x01 x00 x00 x04 x00 x00 x00)
(T (W x01 x00 x00 x00 x1b x00 x00 x00)
(L (W x00 x00 x80 xbf x00 x00 x80 xbf))
(L (W xff xff xff xff xff xff xff xff)))
(T (W xc0 x00 x00 x00 xb4 x00 x00 x00)
(L (W x00 x00 x00 x00 x72 xfa xfe xff)) E)))
(T (W x00 x00 x80 x3f x00 x00 x80 x3f)
(T (W x6c x00 x00 x00 x60 x00 x00 x00)
(T (W xd2 xb7 xfb xff x74 x00 x00 x00)
(L (W x50 x00 x00 x00 x44 x00 x00 x00))
(L (W xff xff xff xff x9c x00 x00 x00)))
(T (W x50 x00 x00 x00 x44 x00 x00 x00)
(L (W x00 x00 x80 xbf x00 x00 x80 xbf)) E))
(T (W x00 x00 x00 x00 x00 x00 x00 x00)
(T (W x18 x00 x00 x00 x10 x00 x00 x00)
(L (W x2c x4a xfe xff x15 x00 x00 x00)) E)
(T (W x18 x00 x00 x00 x10 x00 x00 x00)
(L (W x00 x00 x80 xbf x00 x00 x80 xbf)) E))))
(T (W xa4 xdc xf9 xff x00 x01 x01 x01)
(T (W x53 x02 x6a xca x08 xc0 x5a xe9)
(T (W x45 x26 x22 x84 xe4 x9c xf2 xcb)
(T (W x00 x00 x80 x3f x00 x00 x80 x3f)
(L (W xa4 x9c xfd xff x00 x01 x01 x01))
(L (W xff xff xff xff xb0 x00 x00 x00)))
(T (W x00 x00 x00 x00 x00 x00 x00 x00)
(L (W x00 x00 x00 x00 x00 x00 x00 x00)) E))
(T (W x00 x00 x80 x3f x00 x00 x80 x3f)
(T (W x00 x00 x00 x00 x00 x00 x00 x00)
(L (W xc4 x00 x00 x00 x02 x00 x00 x00)) E)
(T (W x58 x00 x00 x00 x00 x00 x5c x00)
(L (W x00 x00 x80 xbf x00 x00 x80 xbf)) E)))
(T (W x00 x00 x00 x00 x00 x00 x00 x00)
(T (W x45 x26 x22 x84 xe4 x9c xf2 xcb)
(T (W x00 x00 x00 x00 x00 x00 x00 x00)
(L (W xff xff xff xff xff xff xff xff))
(L (W x30 x32 x5f x43 x4c x45 x41 x52)))
(T (W x00 x00 x00 x00 x00 x00 x00 x00)
(L (W x03 x00 x00 x00 xd8 x00 x00 x00)) E))
(T (W x00 x00 x80 x3f x00 x00 x80 x3f)
(T (W xff xff xff xff xff xff xff xff)
(L (W x54 x00 x00 x00 x48 x00 x00 x00)) E)
(T (W x49 xa1 x68 x4a xeb x5f xdd x3d)
(L (W xff xff xff xff xff xff xff xff)) E)))))
(T (W x00 x00 x00 x00 x00 x00 x00 x00)
(T (W x00 x00 x80 x3f x00 x00 x80 x3f)
(T (W xd2 x07 xfa xff x74 x00 x00 x00)
(T (W x3a x9c xfd xff x00 x00 x01 x01)
(T (W xff xff xff xff xff xff xff xff)
(L (W x00 x00 x80 xbf x00 x00 x80 xbf))
(L (W x00 x00 x80 xbf x00 x00 x80 xbf)))
(T (W x00 x00 x80 x3f x00 x00 x80 x3f)
(L (W x00 x00 x00 x00 xb2 x88 xfe xff)) E))
(T (W x68 x00 x00 x00 x5c x00 x00 x00)
(T (W xff xff xff xff xff xff xff xff)
(L (W x45 x26 x22 x84 xe4 x9c xf2 xcb)) E)
(T (W x00 x00 x00 x00 x00 x00 x00 x00)
(L (W x00 x00 x00 x00 x00 x00 x00 x00)) E)))
(T (W x00 x00 x00 x00 x00 x00 x00 x00)
(T (W x00 x00 x80 x3f x00 x00 x80 x3f)
(T (W xff xff xff xff xff xff xff xff)
(L (W x00 x00 x00 x00 x14 xcb xfd xff))
(L (W x00 x00 x00 x00 x02 xcf xff xff)))
(T (W x7c x00 x80 x00 x62 x00 x00 x00)
(L (W x18 x00 x00 x00 x0c x00 x00 x00)) E))
(T (W xff xff xff xff xff xff xff xff)
(T (W xb0 x00 x00 x00 x64 x00 x00 x00)
(L (W x00 x00 x00 x00 x00 x00 x00 x00)) E)
(T (W xff xff xff xff xff xff xff xff)
(L (W xb0 x00 x00 x00 x64 x00 x00 x00)) E))))
(T (W xff xff xff xff x03 x00 x00 x00)
(T (W x45 x26 x22 x84 xe4 x9c xf2 xcb)
(T (W x40 x00 x00 x00 x9c x00 x00 x00)
(T (W x02 x00 x00 x00 x2c x01 x00 x00)
(L (W xd2 xa7 xfd xff x74 x00 x00 x00))
(L (W xbc x00 x00 x00 x1e x00 x00 x00)))
(T (W xff xff xff xff x03 x00 x00 x00)
(L (W x00 x00 x00 x00 x00 x00 x00 x00)) E))
(T (W xff xff xff xff xff xff xff xff)
(T (W x00 x00 x00 x00 x00 x00 x00 x00)
(L (W xff xff xff xff xff xff xff xff)) E)
(T (W x00 x00 x80 xbf x00 x00 x80 xbf)
(L (W x45 x26 x22 x84 xe4 x9c xf2 xcb)) E)))
(T (W x00 x00 x00 x00 x00 x00 x00 x00)
(T (W x00 x00 x80 x3f x00 x00 x80 x3f)
(T (W x00 x00 x80 x3f x00 x00 x80 x3f)
(L (W x00 x00 x00 x00 x00 x00 x00 x00))
(L (W x30 x32 x5f x43 x4c x45 x41 x52)))
(T (W x00 x00 x80 x3f x00 x00 x80 x3f)
(L (W x04 x00 x00 x00 x92 xf0 xfe xff)) E))
(T (W x6b x65 x5f x6c x76 x31 x00 x00)
(T (W xa4 x6c xfc xff x00 x01 x01 x01)
(L (W x17 x00 x00 x00 x1a x00 x00 x00)) E)
(T (W xff xff xff xff xb0 x00 x00 x00)
(L (W x00 x00 x00 x00 x00 x00 x00 x00)) E))))))
(T (W x45 x26 x22 x84 xe4 x9c xf2 xcb)
(T (W x00 x00 x80 x3f x00 x00 x80 x3f)
(T (W xff xff xff xff xff xff xff xff)
(T (W x18 x00 x00 x00 x0c x00 x00 x00)
(T (W x40 x00 x00 x00 x10 x00 x00 x00)
(T (W x01 x00 x00 x00 xb0 x00 x00 x00)
(L (W x50 x1d x00 x00 x24 x1c x00 x00))
(L (W x45 x26 x22 x84 xe4 x9c xf2 xcb)))
(T (W x00 x00 x80 x3f x00 x00 x80 x3f)
(L (W xff xff xff xff xff xff xff xff)) E))
(T (W x00 x00 x00 x00 x00 x00 x00 x00)
(T (W xff xff xff xff x9c x00 x00 x00)
(L (W x82 x01 xfe xff x78 x00 x00 x00))
(L (W xe0 x00 x00 x00 x64 x00 x00 x00)))
(T (W xff xff xff xff x90 x00 x00 x00)
(L (W x30 x32 x5f x43 x4c x45 x41 x52)) E)))
(T (W x45 x26 x22 x84 xe4 x9c xf2 xcb)
(T (W x00 x00 x80 x3f x00 x00 x80 x3f)
(T (W xff xff xff xff xff xff xff xff)
(L (W x18 x00 x00 x00 x0c x00 x00 x00))
(L (W xff xff xff xff xff xff xff xff)))
(T (W x45 x26 x22 x84 xe4 x9c xf2 xcb)
(L (W x00 x00 x80 xbf x00 x00 x80 xbf)) E))
(T (W x6c x00 x00 x00 x60 x00 x00 x00)
(T (W xd4 x00 x00 x00 xc8 x00 x00 x00)
(L (W x00 x00 x00 x00 x00 x00 x00 x00)) E)
(T (W xff xff xff xff xff xff xff xff)
(L (W x03 x00 x00 x00 xd8 x00 x00 x00)) E))))
(T (W x45 x26 x22 x84 xe4 x9c xf2 xcb)
(T (W x00 x00 x80 x3f x00 x00 x80 x3f)
(T (W x18 x00 x00 x00 x10 x00 x00 x00)
(T (W xb0 x00 x00 x00 x64 x00 x00 x00)
(L (W x00 x00 x00 x00 x72 xa2 xfd xff))
(L (W x00 x00 x62 x00 x6c x00 x04 x00)))
(T (W xd2 x9f xfc xff x74 x00 x00 x00)
(L (W x00 x00 x00 x00 x00 x00 x00 x00)) E))
(T (W x00 x00 x00 x00 x14 x23 xfb xff)
(T (W x00 x00 x00 x00 x00 x00 x00 x00)
(L (W xff xff xff xff xff xff xff xff)) E)
(T (W x00 x00 x00 x00 x00 x00 x00 x00)
(L (W x00 x00 x80 xbf x00 x00 x80 xbf)) E)))
(T (W x00 x00 x00 x00 x00 x00 x00 x00)
(T (W x00 x00 x80 x3f x00 x00 x80 x3f)
(T (W x00 x00 x00 x00 x00 x00 x00 x00)
(L (W xff xff xff xff xff xff xff xff))
(L (W x9f x41 x45 xdc x00 xd9 x55 x2f)))
(T (W x18 x00 x00 x00 x0c x00 x00 x00)
(L (W xff xff xff xff xff xff xff xff)) E))
(T (W xff xff xff xff xff xff xff xff)
(T (W x3a x74 xff xff x00 x00 x01 x01)
(L (W xa4 x64 xfe xff x00 x01 x01 x01)) E)
(T (W x54 x00 x00 x00 x48 x00 x00 x00)
(L (W xff xff xff xff xff xff xff xff)) E)))))
(T (W x45 x26 x22 x84 xe4 x9c xf2 xcb)
(T (W x03 x00 x00 x00 xff xff xff xff)
(T (W x6b x65 x5f x6c x76 x32 x00 x00)
(T (W xff xff xff xff xff xff xff xff)
(T (W x00 x00 x00 x00 x00 x00 x00 x00)
(L (W x50 x00 x00 x00 x44 x00 x00 x00))
(L (W x00 x00 x00 x00 x14 x93 xff xff)))
(T (W x00 x00 x00 x00 x00 x00 x00 x00)
(L (W x00 x00 x00 x00 x00 x00 x00 x00)) E))
(T (W xff xff xff xff xff xff xff xff)
(T (W x00 x00 x00 x00 x00 x00 x00 x00)
(L (W xd2 x0f xfe xff x74 x00 x00 x00)) E)
(T (W x2b x00 x00 x00 x10 x00 x00 x00)
(L (W x00 x00 x80 xbf x00 x00 x80 xbf)) E)))
(T (W x00 x00 x00 x00 x00 x00 x00 x00)
(T (W x00 x00 x00 x00 x00 x00 x00 x00)
(T (W x00 x00 x00 x00 x00 x00 x00 x00)
(L (W x03 x00 x00 x00 xd8 x00 x00 x00))
(L (W x04 x00 x00 x00 x92 xd8 xff xff)))
(T (W x30 x32 x5f x43 x4c x45 x41 x52)
(L (W xcc x00 x00 x00 x02 x00 x00 x00)) E))
(T (W x00 x00 x00 x00 x00 x00 x00 x00)
(T (W xff xff xff xff xff xff xff xff)
(L (W x00 x00 x80 xbf x00 x00 x80 xbf)) E)
(T (W x00 x00 x00 x00 x00 x00 x00 x00)
(L (W xff xff xff xff xff xff xff xff)) E))))
(T (W xff xff xff xff xff xff xff xff)
(T (W x00 x00 x80 x3f x00 x00 x80 x3f)
(T (W x50 x00 x00 x00 x44 x00 x00 x00)
(T (W x49 xa1 x68 x4a xeb x5f xdd x3d)
(L (W x00 x00 x00 x00 x00 x00 x00 x00))
(L (W x03 x00 x00 x00 xd0 x00 x00 x00)))
(T (W x68 x00 x00 x00 x5c x00 x00 x00)
(L (W x00 x00 x00 x00 x00 x00 x00 x00)) E))
(T (W xff xff xff xff xff xff xff xff)
(T (W x00 x00 x80 x3f x00 x00 x80 x3f)
(L (W x00 x00 x00 x00 x00 x00 x00 x00)) E)
(T (W x54 x00 x00 x00 x48 x00 x00 x00)
(L (W x00 x00 x80 xbf x00 x00 x80 xbf)) E)))
(T (W x00 x00 x00 x00 x00 x00 x00 x00)
(T (W x68 x00 x00 x00 x5c x00 x00 x00)
(T (W x00 x00 x80 x3f x00 x00 x80 x3f)
(L (W x00 x00 x80 xbf x00 x00 x80 xbf))
(L (W x00 x00 x80 xbf x00 x00 x80 xbf)))
(T (W xff xff xff xff xff xff xff xff)
(L (W x00 x00 x00 x00 x00 x00 x00 x00)) E))
(T (W x4f x84 x6f x8b xe8 xcb x63 xb7)
(T (W x00 x00 x80 x3f x00 x00 x80 x3f)
(L (W xff xff xff xff xff xff xff xff)) E)
(T (W x00 x00 x00 x00 x00 x00 x00 x00)
(L (W x00 x00 x00 x00 x00 x00 x00 x00)) E)))))))
(T (W x45 x26 x22 x84 xe4 x9c xf2 xcb)
(T (W xff xff xff xff x0c x00 x00 x00)
(T (W x00 x00 x00 x00 x00 x00 x00 x00)
(T (W x54 x00 x00 x00 x48 x00 x00 x00)
(T (W x00 x00 x80 x3f x00 x00 x80 x3f)
(T (W x68 x00 x00 x00 x5c x00 x00 x00)
(T (W x4c x45 x41 x52 x45 x44 x00 x00)
(L (W x45 x44 x00 x00 x00 x00 x00 x00))
(L (W xff xff xff xff xff xff xff xff)))
(T (W x18 x01 x00 x00 x04 x00 x00 x00)
(L (W x6c x00 x00 x00 x60 x00 x00 x00)) E))
(T (W xbc x00 x00 x00 x14 x00 x00 x00)
(T (W x00 x00 x00 x00 x00 x00 x00 x00)
(L (W xff xff xff xff xff xff xff xff))
(L (W x45 x44 x00 x00 x00 x00 x00 x00)))
(T (W xff xff xff xff xa0 x00 x00 x00)
(L (W x00 x00 x80 xbf x00 x00 x80 xbf)) E)))
(T (W xff xff xff xff xff xff xff xff)
(T (W x6f x00 x00 x00 xff xff xff xff)
(T (W x00 x00 x00 x00 x00 x00 x00 x00)
(L (W xff xff xff xff xbc x00 x00 x00))
(L (W x49 xa1 x68 x4a xeb x5f xdd x3d)))
(T (W x36 x00 x00 x00 xff xff xff xff)
(L (W x00 x00 x01 x01 x2a x00 x00 x00)) E))
(T (W xff xff xff xff xff xff xff xff)
(T (W x00 x00 x00 x00 x00 x00 x00 x00)
(L (W x18 x00 x00 x00 x10 x00 x00 x00)) E)
(T (W x00 x00 x00 x00 x00 x00 x00 x00)
(L (W x30 x32 x5f x43 x4c x45 x41 x52)) E))))
(T (W x00 x00 x00 x00 x00 x00 x00 x00)
(T (W xff xff xff xff xff xff xff xff)
(T (W x00 x00 x00 x00 x00 x00 x00 x00)
(T (W xd1 xdc x03 x4d x64 x32 xc6 xac)
(L (W x5f x4e x53 x5f x30 x32 x5f x43))
(L (W x45 x26 x22 x84 xe4 x9c xf2 xcb)))
(T (W x18 x01 x00 x00 x04 x00 x00 x00)
(L (W x03 x00 x00 x00 xd0 x00 x00 x00)) E))
(T (W xa4 x01 x00 x00 xff xff xff xff)
(T (W x18 x00 x00 x00 x10 x00 x00 x00)
(L (W x00 x00 x80 xbf x00 x00 x80 xbf)) E)
(T (W xff xff xff xff xff xff xff xff)
(L (W xff xff xff xff xff xff xff xff)) E)))
(T (W xff xff xff xff xff xff xff xff)
(T (W xff xff xff xff xff xff xff xff)
(T (W xff xff xff xff xff xff xff xff)
(L (W x4f x84 x6f x8b xe8 xcb x63 xb7))
(L (W x6c x00 x00 x00 x60 x00 x00 x00)))
(T (W xff xff xff xff xff xff xff xff)
(L (W x00 x00 x00 x00 x00 x00 x00 x00)) E))
(T (W x00 x00 x00 x00 x00 x00 x00 x00)
(T (W x00 x00 x80 x3f x00 x00 x80 x3f)
(L (W x00 x00 x00 x00 x12 x00 x00 x00)) E)
(T (W xff xff xff xff xff xff xff xff)
(L (W x54 x00 x00 x00 x48 x00 x00 x00)) E)))))
(T (W x00 x00 x80 x3f x00 x00 x80 x3f)
(T (W x18 x00 x00 x00 x10 x00 x00 x00)
(T (W x00 x00 x00 x00 x00 x00 x00 x00)
(T (W xa4 x90 xfa xff x00 x01 x01 x01)
(T (W x54 x00 x00 x00 x48 x00 x00 x00)
(L (W xc9 x00 x00 x00 xff xff xff xff))
(L (W x37 x4f x45 xdc x00 xe1 x55 x2f)))
(T (W xff xff xff xff xff xff xff xff)
(L (W x45 x26 x22 x84 xe4 x9c xf2 xcb)) E))
(T (W x30 x32 x5f x43 x4c x45 x41 x52)
(T (W x45 x26 x22 x84 xe4 x9c xf2 xcb)
(L (W x00 x00 x00 x00 x00 x00 x00 x00)) E)
(T (W x00 x00 x00 x00 x01 x00 x00 x00)
(L (W xff xff xff xff xa0 x00 x00 x00)) E)))
(T (W xff xff xff xff xff xff xff xff)
(T (W x32 xd6 xfd xff x00 x00 x01 x01)
(T (W x54 x00 x00 x00 x48 x00 x00 x00)
(L (W x45 x44 x00 x00 x00 x00 x00 x00))
(L (W x00 x00 x80 xbf x00 x00 x80 xbf)))
(T (W x54 x00 x00 x00 x48 x00 x00 x00)
(L (W x00 x00 x00 x00 x00 x00 x00 x00)) E))
(T (W xa4 x50 xfb xff x00 x01 x01 x01)
(T (W x00 x00 x00 x00 x00 x00 x00 x00)
(L (W xff xff xff xff xff xff xff xff)) E)
(T (W x6c x00 x00 x00 x60 x00 x00 x00)
(L (W x00 x00 x80 xbf x00 x00 x80 xbf)) E))))
(T (W x00 x00 x00 x00 x00 x00 x00 x00)
(T (W xff xff xff xff xff xff xff xff)
(T (W x3a xc0 xfd xff x00 x00 x01 x01)
(T (W x18 x00 x00 x00 x10 x00 x00 x00)
(L (W xff xff xff xff xff xff xff xff))
(L (W x46 x53 x59 x53 x5f x4e x53 x5f)))
(T (W x00 x00 x00 x00 x00 x00 x00 x00)
(L (W xff xff xff xff xff xff xff xff)) E))
(T (W x00 x00 x80 x3f x00 x00 x80 x3f)
(T (W xff xff xff xff xff xff xff xff)
(L (W x00 x00 x00 x00 x14 x2f xfe xff)) E)
(T (W xff xff xff xff xff xff xff xff)
(L (W x5c x00 x00 x00 xff xff xff xff)) E)))
(T (W xd2 x6b xfa xff x74 x00 x00 x00)
(T (W x64 x00 x00 x00 x9c x00 x00 x00)
(T (W x34 x01 x00 x00 x04 x00 x00 x00)
(L (W xff xff xff xff xb0 x00 x00 x00))
(L (W x18 x00 x00 x00 x0c x00 x00 x00)))
(T (W x54 x00 x00 x00 x58 x00 x00 x00)
(L (W x6c x00 x00 x00 x60 x00 x00 x00)) E))
(T (W x00 x00 x80 x3f x00 x00 x80 x3f)
(T (W x00 x00 x00 x00 x02 x00 x00 x00)
(L (W x00 x00 x80 xbf x00 x00 x80 xbf)) E)
(T (W x00 x00 x00 x00 x00 x00 x00 x00)
(L (W xcc x00 x00 x00 x01 x00 x00 x00)) E))))))
(T (W x18 x00 x00 x00 x0c x00 x00 x00)
(T (W xff xff xff xff xff xff xff xff)
(T (W x00 x00 x00 x00 x00 x00 x00 x00)
(T (W x00 x00 x00 x00 x00 x00 x00 x00)
(T (W xd2 x83 xfa xff x74 x00 x00 x00)
(T (W x00 x00 x00 x00 x00 x00 x00 x00)
(L (W xff xff xff xff xff xff xff xff))
(L (W x5d x00 x00 x00 xff xff xff xff)))
(T (W xff xff xff xff xff xff xff xff)
(L (W x6c x00 x00 x00 x60 x00 x00 x00)) E))
(T (W x64 x5f x70 x6f x6b x65 x5f x77)
(T (W x00 x00 x00 x00 x00 x00 x00 x00)
(L (W x00 x00 x00 x00 x02 x0b xfe xff)) E)
(T (W xd2 x03 xfd xff x74 x00 x00 x00)
(L (W x82 x05 xff xff x78 x00 x00 x00)) E)))
(T (W xff xff xff xff xff xff xff xff)
(T (W xaa xcc xfd xff xcf x01 x00 x00)
(T (W x50 x00 x00 x00 x44 x00 x00 x00)
(L (W x00 x00 x00 x00 x00 x00 x00 x00))
(L (W x00 x00 x80 xbf x00 x00 x80 xbf)))
(T (W xe9 x37 x22 x4b xf1 xef xc6 x32)
(L (W x00 x00 x00 x00 xb2 xc4 xfe xff)) E))
(T (W x00 x00 x00 x00 x00 x00 x00 x00)
(T (W x00 x00 x00 x00 x00 x00 x00 x00)
(L (W x19 x00 x00 x00 x1c x00 x00 x00)) E)
(T (W x00 x00 x80 xbf x00 x00 x80 xbf)
(L (W x00 x00 x00 x00 x00 x00 x00 x00)) E))))
(T (W x45 x26 x22 x84 xe4 x9c xf2 xcb)
(T (W x48 x03 x00 x00 x34 x02 x00 x00)
(T (W x3e x00 x00 x00 x0c x00 x00 x00)
(T (W x00 x00 x80 x3f x00 x00 x80 x3f)
(L (W x00 x00 x80 xbf x00 x00 x80 xbf))
(L (W xff xff xff xff xff xff xff xff)))
(T (W x00 x00 x00 x00 x00 x00 x00 x00)
(L (W xff xff xff xff xff xff xff xff)) E))
(T (W x30 x32 x5f x43 x4c x45 x41 x52)
(T (W xff xff xff xff x03 x00 x00 x00)
(L (W x00 x00 x80 xbf x00 x00 x80 xbf)) E)
(T (W xff xff xff xff xff xff xff xff)
(L (W xff xff xff xff xff xff xff xff)) E)))
(T (W x18 x00 x00 x00 x0c x00 x00 x00)
(T (W xff xff xff xff xff xff xff xff)
(T (W xff xff xff xff xff xff xff xff)
(L (W x00 x00 x80 xbf x00 x00 x80 xbf))
(L (W x45 x26 x22 x84 xe4 x9c xf2 xcb)))
(T (W xff xff xff xff xff xff xff xff)
(L (W x00 x00 x80 xbf x00 x00 x80 xbf)) E))
(T (W x49 xa1 x68 x4a xeb x5f xdd x3d)
(T (W x00 x00 x00 x00 x00 x00 x00 x00)
(L (W x00 x00 x00 x00 x00 x00 x00 x00)) E)
(T (W x00 x00 x00 x00 x00 x00 x00 x00)
(L (W x45 x26 x22 x84 xe4 x9c xf2 xcb)) E)))))
(T (W xff xff xff xff xff xff xff xff)
(T (W x00 x00 x00 x00 x00 x00 x00 x00)
(T (W x50 x00 x00 x00 x44 x00 x00 x00)
(T (W xff xff xff xff xff xff xff xff)
(T (W x45 x26 x22 x84 xe4 x9c xf2 xcb)
(L (W x00 x00 x00 x00 x00 x00 x00 x00))
(L (W x00 x00 x00 x00 x00 x00 x00 x00)))
(T (W x00 x00 x00 x00 x14 x97 xfc xff)
(L (W x00 x00 x00 x00 x14 x97 xfe xff)) E))
(T (W xff xff xff xff xff xff xff xff)
(T (W x00 x00 x80 x3f x00 x00 x80 x3f)
(L (W x00 x00 x00 x00 x00 x00 x00 x00)) E)
(T (W x58 x00 x00 x00 x00 x00 x5c x00)
(L (W xff xff xff xff xff xff xff xff)) E)))
(T (W xff xff xff xff x03 x00 x00 x00)
(T (W xff xff xff xff xff xff xff xff)
(T (W x68 x00 x00 x00 x5c x00 x00 x00)
(L (W x00 x00 x00 x00 x00 x00 x00 x00))
(L (W x00 x00 x80 xbf x00 x00 x80 xbf)))
(T (W x03 x00 x00 x00 xd8 x00 x00 x00)
(L (W x00 x00 x00 x00 x00 x00 x00 x00)) E))
(T (W xff xff xff xff xff xff xff xff)
(T (W x00 x00 x80 x3f x00 x00 x80 x3f)
(L (W x00 x00 x01 x01 x29 x00 x00 x00)) E)
(T (W xff xff xff xff xbc x00 x00 x00)
(L (W x00 x00 x80 xbf x00 x00 x80 xbf)) E))))
(T (W x00 x00 x00 x00 x00 x00 x00 x00)
(T (W xff xff xff xff xff xff xff xff)
(T (W xff xff xff xff xff xff xff xff)
(T (W x32 xbe xfe xff x00 x00 x01 x01)
(L (W x45 x26 x22 x84 xe4 x9c xf2 xcb))
(L (W x00 x00 x00 x00 x00 x00 x00 x00)))
(T (W x00 x00 x00 x00 x00 x00 x00 x00)
(L (W xff xff xff xff xff xff xff xff)) E))
(T (W x18 x00 x00 x00 x0c x00 x00 x00)
(T (W x00 x00 x00 x00 x00 x00 x00 x00)
(L (W x45 x26 x22 x84 xe4 x9c xf2 xcb)) E)
(T (W x2c x46 xfd xff x19 x00 x00 x00)
(L (W x00 x00 x00 x00 x72 x36 xff xff)) E)))
(T (W x00 x00 x80 x3f x00 x00 x80 x3f)
(T (W xff xff xff xff xff xff xff xff)
(T (W x00 x00 x00 x00 x12 x00 x00 x00)
(L (W xff xff xff xff xff xff xff xff))
(L (W xff xff xff xff xff xff xff xff)))
(T (W x00 x00 x80 x3f x00 x00 x80 x3f)
(L (W x45 x26 x22 x84 xe4 x9c xf2 xcb)) E))
(T (W xff xff xff xff xff xff xff xff)
(T (W x00 x00 x00 x00 x00 x00 x00 x00)
(L (W x54 x00 x00 x00 x48 x00 x00 x00)) E)
(T (W x00 x00 x00 x00 x00 x00 x00 x00)
(L (W xff xff xff xff x9c x00 x00 x00)) E))))))))))
(T (W x80 xaf x03 x00 x24 xad x03 x00)
(T (W x60 x0d x03 x00 x1c x0b x03 x00)
(T (W xf0 x2d x01 x00 xa4 x2b x01 x00)
(T (W x00 x00 x00 x00 x00 x00 x00 x00)
(T (W xff xff xff xff xff xff xff xff)
(T (W x45 x26 x22 x84 xe4 x9c xf2 xcb)
(T (W x6c x00 x00 x00 x60 x00 x00 x00)
(T (W xff xff xff xff xff xff xff xff)
(T (W x00 x00 x00 x00 x00 x00 x00 x00)
(T (W x18 x00 x00 x00 x10 x00 x00 x00)
(L (W xb4 x00 x00 x00 x3c x00 x00 x00))
(L (W x54 x00 x00 x00 x48 x00 x00 x00)))
(T (W xff xff xff xff xff xff xff xff)
(L (W x00 x00 x00 x00 x12 x00 x00 x00)) E))
(T (W x18 x00 x00 x00 x10 x00 x00 x00)
(T (W xff xff xff xff xff xff xff xff)
(L (W x00 x00 x80 xbf x00 x00 x80 xbf))
(L (W x54 x00 x00 x00 x48 x00 x00 x00)))
(T (W x00 x00 x00 x00 x1b x00 x00 x00)
(L (W x45 x26 x22 x84 xe4 x9c xf2 xcb)) E)))
(T (W x50 x00 x00 x00 x44 x00 x00 x00)
(T (W x45 x26 x22 x84 xe4 x9c xf2 xcb)
(T (W x14 x00 x00 x00 x16 x00 x00 x00)
(L (W xff xff xff xff xff xff xff xff))
(L (W xff xff xff xff xff xff xff xff)))
(T (W xff xff xff xff x03 x00 x00 x00)
(L (W x6c x00 x00 x00 x60 x00 x00 x00)) E))
(T (W x00 x00 x80 x3f x00 x00 x80 x3f)
(T (W xb0 x00 x00 x00 x64 x00 x00 x00)
(L (W x45 x26 x22 x84 xe4 x9c xf2 xcb)) E)
(T (W xff xff xff xff xff xff xff xff)
(L (W xff xff xff xff xa0 x00 x00 x00)) E))))
(T (W xff xff xff xff xff xff xff xff)
(T (W x00 x00 x00 x00 x00 x00 x00 x00)
(T (W x24 x9a xfa xff x00 x01 x01 x01)
(T (W x00 x00 x80 x3f x00 x00 x80 x3f)
(L (W xff xff xff xff xff xff xff xff))
(L (W xff xff xff xff xff xff xff xff)))
(T (W x00 x00 x80 x3f x00 x00 x80 x3f)
(L (W x00 x00 x80 xbf x00 x00 x80 xbf)) E))
(T (W x00 x00 x80 x3f x00 x00 x80 x3f)
(T (W x70 x5f x6c x65 x61 x64 x65 x72)
(L (W xff xff xff xff xff xff xff xff)) E)
(T (W xff xff xff xff xff xff xff xff)
(L (W x00 x00 x00 x00 x94 x18 xff xff)) E)))
(T (W x68 x00 x00 x00 x5c x00 x00 x00)
(T (W x18 x00 x00 x00 x0c x00 x00 x00)
(T (W x00 x00 x80 x3f x00 x00 x80 x3f)
(L (W xff xff xff xff xff xff xff xff))
(L (W x46 x53 x59 x53 x5f x4e x53 x5f)))
(T (W x00 x00 x80 x3f x00 x00 x80 x3f)
(L (W xff xff xff xff xff xff xff xff)) E))
(T (W x45 x26 x22 x84 xe4 x9c xf2 xcb)
(T (W x45 x44 x00 x00 x00 x00 x00 x00)
(L (W x12 x00 x00 x00 x15 x00 x00 x00)) E)
(T (W x6c x00 x00 x00 x60 x00 x00 x00)
(L (W x30 x32 x5f x43 x4c x45 x41 x52)) E)))))
(T (W x00 x00 x80 x3f x00 x00 x80 x3f)
(T (W x64 x00 x00 x00 xa0 x00 x00 x00)
(T (W xff xff xff xff xff xff xff xff)
(T (W x00 x00 x00 x00 x00 x00 x00 x00)
(T (W x45 x44 x00 x00 x00 x00 x00 x00)
(L (W x24 x8a xfd xff x00 x01 x01 x01))
(L (W x45 x26 x22 x84 xe4 x9c xf2 xcb)))
(T (W x52 x85 xfc xff x74 x00 x00 x00)
(L (W x00 x00 x00 x00 x00 x00 x00 x00)) E))
(T (W xff xff xff xff xff xff xff xff)
(T (W xba x19 xff xff x00 x00 x01 x01)
(L (W x18 x00 x00 x00 x0c x00 x00 x00)) E)
(T (W x45 x26 x22 x84 xe4 x9c xf2 xcb)
(L (W x00 x00 x00 x00 x00 x00 x00 x00)) E)))
(T (W x00 x00 x80 x3f x00 x00 x80 x3f)
(T (W x24 xca xfa xff x00 x01 x01 x01)
(T (W x46 x53 x59 x53 x5f x4e x53 x5f)
(L (W xff xff xff xff xff xff xff xff))
(L (W x00 x00 x00 x00 x00 x00 x00 x00)))
(T (W x00 x00 x00 x00 x00 x00 x00 x00)
(L (W xff xff xff xff xff xff xff xff)) E))
(T (W xff xff xff xff xff xff xff xff)
(T (W x4b x00 x00 x00 xff xff xff xff)
(L (W x00 x00 x80 xbf x00 x00 x80 xbf)) E)
(T (W x00 x00 x00 x00 x00 x00 x00 x00)
(L (W xff xff xff xff xff xff xff xff)) E))))
(T (W x04 x00 x00 x00 x42 xd3 xfe xff)
(T (W x40 x00 x00 x00 x9c x00 x00 x00)
(T (W xff xff xff xff xff xff xff xff)
(T (W x00 x00 x00 x00 x00 x00 x00 x00)
(L (W xff xff xff xff xff xff xff xff))
(L (W x45 x26 x22 x84 xe4 x9c xf2 xcb)))
(T (W xff xff xff xff xff xff xff xff)
(L (W x00 x00 x80 xbf x00 x00 x80 xbf)) E))
(T (W xff xff xff xff xff xff xff xff)
(T (W x00 x00 x80 x3f x00 x00 x80 x3f)
(L (W x00 x00 x00 x00 x00 x00 x00 x00)) E)
(T (W x00 x00 x80 xbf x00 x00 x80 xbf)
(L (W x02 x27 xff xff x78 x00 x00 x00)) E)))
(T (W x00 x00 x80 x3f x00 x00 x80 x3f)
(T (W x54 x00 x00 x00 x48 x00 x00 x00)
(T (W x6c x00 x00 x00 x60 x00 x00 x00)
(L (W x00 x00 x80 xbf x00 x00 x80 xbf))
(L (W x4f x84 x6f x8b xe8 xcb x63 xb7)))
(T (W x52 xe5 xfc xff x74 x00 x00 x00)
(L (W x00 x00 x00 x00 x00 x00 x00 x00)) E))
(T (W xb2 xc3 xa4 xc6 x45 x4a x02 xba)
(T (W xff xff xff xff xff xff xff xff)
(L (W xff xff xff xff xff xff xff xff)) E)
(T (W xff xff xff xff xff xff xff xff)
(L (W x00 x00 x00 x00 x00 x00 x00 x00)) E))))))
(T (W x24 x92 xf9 xff x00 x01 x01 x01)
(T (W xff xff xff xff xff xff xff xff)
(T (W x00 x00 x00 x00 x00 x00 x00 x00)
(T (W xff xff xff xff xff xff xff xff)
(T (W x00 x00 x00 x00 x00 x00 x00 x00)
(T (W xff xff xff xff xff xff xff xff)
(L (W x03 x00 x00 x00 xd0 x00 x00 x00))
(L (W x02 x7f xff xff x78 x00 x00 x00)))
(T (W x00 x00 x00 x00 x94 x80 xfc xff)
(L (W x00 x00 x00 x00 x00 x00 x00 x00)) E))
(T (W x00 x00 x80 x3f x00 x00 x80 x3f)
(T (W xff xff xff xff xff xff xff xff)
(L (W x52 xfd xfd xff x74 x00 x00 x00))
(L (W x00 x00 x00 x00 x00 x00 x00 x00)))
(T (W x6c x00 x00 x00 x60 x00 x00 x00)
(L (W x4f x84 x6f x8b xe8 xcb x63 xb7)) E)))
(T (W x00 x00 x80 x3f x00 x00 x80 x3f)
(T (W x68 x00 x00 x00 x5c x00 x00 x00)
(T (W x04 x00 x00 x00 x42 x5b xff xff)
(L (W xff xff xff xff xa0 x00 x00 x00))
(L (W xff xff xff xff xff xff xff xff)))
(T (W x68 x00 x00 x00 x5c x00 x00 x00)
(L (W x18 x00 x00 x00 x10 x00 x00 x00)) E))
(T (W x54 x00 x00 x00 x48 x00 x00 x00)
(T (W xff xff xff xff xff xff xff xff)
(L (W x4f x84 x6f x8b xe8 xcb x63 xb7)) E)
(T (W x04 x00 x00 x00 xf2 x3f xfd xff)
(L (W x03 x00 x00 x00 xd8 x00 x00 x00)) E))))
(T (W xff xff xff xff xff xff xff xff)
(T (W x18 x00 x00 x00 x0c x00 x00 x00)
(T (W xff xff xff xff xff xff xff xff)
(T (W xff xff xff xff xbc x00 x00 x00)
(L (W xff xff xff xff xff xff xff xff))
(L (W xff xff xff xff xff xff xff xff)))
(T (W x00 x00 x00 x00 x94 xa0 xfc xff)
(L (W x00 x00 x80 xbf x00 x00 x80 xbf)) E))
(T (W x45 x26 x22 x84 xe4 x9c xf2 xcb)
(T (W x00 x00 x00 x00 x00 x00 x00 x00)
(L (W x00 x00 x00 x00 x00 x00 x00 x00)) E)
(T (W x00 x00 x80 xbf x00 x00 x80 xbf)
(L (W xc4 x00 x00 x00 x02 x00 x00 x00)) E)))
(T (W x00 x00 x80 x3f x00 x00 x80 x3f)
(T (W x00 x00 x80 x3f x00 x00 x80 x3f)
(T (W x00 x00 x80 x3f x00 x00 x80 x3f)
(L (W xa4 x04 x00 x00 x88 x03 x00 x00))
(L (W x00 x00 x00 x00 x00 x00 x00 x00)))
(T (W x54 x00 x00 x00 x48 x00 x00 x00)
(L (W xff xff xff xff xff xff xff xff)) E))
(T (W xff xff xff xff xff xff xff xff)
(T (W x00 x00 x00 x00 x00 x00 x00 x00)
(L (W xff xff xff xff xff xff xff xff)) E)
(T (W x52 x5d xfd xff x74 x00 x00 x00)
(L (W x00 x00 x00 x00 x00 x00 x00 x00)) E)))))
(T (W x13 x00 x00 x00 xff xff xff xff)
(T (W x45 x26 x22 x84 xe4 x9c xf2 xcb)
(T (W x21 x00 x00 x00 x10 x00 x00 x00)
(T (W x00 x00 x00 x00 x00 x00 x00 x00)
(T (W x00 x00 x00 x00 x00 x00 x00 x00)
(L (W xff xff xff xff xac x00 x00 x00))
(L (W xff xff xff xff xff xff xff xff)))
(T (W x00 x00 x80 x3f x00 x00 x80 x3f)
(L (W x45 x26 x22 x84 xe4 x9c xf2 xcb)) E))
(T (W xff xff xff xff xff xff xff xff)
(T (W x45 x44 x00 x00 x00 x00 x00 x00)
(L (W xff xff xff xff xff xff xff xff)) E)
(T (W x00 x00 x00 x00 x00 x00 x00 x00)
(L (W x00 x00 x80 xbf x00 x00 x80 xbf)) E)))
(T (W x50 x00 x00 x00 x44 x00 x00 x00)
(T (W x45 x26 x22 x84 xe4 x9c xf2 xcb)
(T (W x00 x00 x00 x00 x00 x00 x00 x00)
(L (W xff xff xff xff xff xff xff xff))
(L (W x00 x00 x00 x00 x00 x00 x00 x00)))
(T (W x00 x00 x00 x00 x12 x00 x00 x00)
(L (W xff xff xff xff xff xff xff xff)) E))
(T (W x45 x26 x22 x84 xe4 x9c xf2 xcb)
(T (W x74 x03 x00 x00 x4c x02 x00 x00)
(L (W x02 x4f xfe xff x78 x00 x00 x00)) E)
(T (W x45 x26 x22 x84 xe4 x9c xf2 xcb)
(L (W x00 x00 x00 x00 xf2 x4f xff xff)) E))))
(T (W xff xff xff xff xff xff xff xff)
(T (W x01 x00 x00 x00 x3e x00 x00 x00)
(T (W xb8 x00 x00 x00 xac x00 x00 x00)
(T (W x00 x00 x80 x3f x00 x00 x80 x3f)
(L (W x00 x00 x80 xbf x00 x00 x80 xbf))
(L (W xff xff xff xff xff xff xff xff)))
(T (W xff xff xff xff xff xff xff xff)
(L (W x00 x00 x80 xbf x00 x00 x80 xbf)) E))
(T (W x00 x00 x00 x00 x00 x00 x00 x00)
(T (W x54 x00 x00 x00 x48 x00 x00 x00)
(L (W x00 x00 x00 x00 x00 x00 x00 x00)) E)
(T (W x18 x00 x00 x00 x0c x00 x00 x00)
(L (W x45 x26 x22 x84 xe4 x9c xf2 xcb)) E)))
(T (W x45 x26 x22 x84 xe4 x9c xf2 xcb)
(T (W x00 x00 x80 x3f x00 x00 x80 x3f)
(T (W xb8 x00 x00 x00 x28 x00 x00 x00)
(L (W x00 x00 x80 xbf x00 x00 x80 xbf))
(L (W x45 x26 x22 x84 xe4 x9c xf2 xcb)))
(T (W x4c x00 x00 x00 x50 x00 x00 x00)
(L (W x00 x00 x00 x00 x00 x00 x00 x00)) E))
(T (W x00 x00 x80 x3f x00 x00 x80 x3f)
(T (W x45 x26 x22 x84 xe4 x9c xf2 xcb)
(L (W x00 x00 x00 x00 x00 x00 x00 x00)) E)
(T (W xff xff xff xff xff xff xff xff)
(L (W x00 x00 x80 xbf x00 x00 x80 xbf)) E)))))))
(T (W x02 x83 xf9 xff x78 x00 x00 x00)
(T (W x00 x00 x00 x00 x00 x00 x00 x00)
(T (W x24 x9e xf9 xff x00 x01 x01 x01)
(T (W xff xff xff xff xff xff xff xff)
(T (W x00 x00 x80 x3f x00 x00 x80 x3f)
(T (W xff xff xff xff xff xff xff xff)
(T (W x46 x53 x59 x53 x5f x4e x53 x5f)
(L (W x00 x00 x00 x00 x12 x00 x00 x00))
(L (W xff xff xff xff xff xff xff xff)))
(T (W x00 x00 x00 x00 x00 x00 x00 x00)
(L (W x24 x7e xfe xff x00 x01 x01 x01)) E))
(T (W xff xff xff xff x9c x00 x00 x00)
(T (W x00 x00 x80 x3f x00 x00 x80 x3f)
(L (W x00 x00 x00 x00 x00 x00 x00 x00))
(L (W xff xff xff xff xff xff xff xff)))
(T (W x00 x00 x80 xbf x00 x00 x80 xbf)
(L (W xff xff xff xff xa0 x00 x00 x00)) E)))
(T (W x54 x42 xfa xff x3c x00 x00 x00)
(T (W x00 x00 x00 x00 x00 x00 x00 x00)
(T (W x00 x00 x80 x3f x00 x00 x80 x3f)
(L (W x00 x00 x00 x00 x00 x00 x00 x00))
(L (W x6c x00 x00 x00 x60 x00 x00 x00)))
(T (W x00 x00 x00 x00 x00 x00 x00 x00)
(L (W x00 x00 x00 x00 x00 x00 x00 x00)) E))
(T (W xff xff xff xff xff xff xff xff)
(T (W x00 x00 x00 x00 x00 x00 x00 x00)
(L (W xff xff xff xff xff xff xff xff)) E)
(T (W x00 x00 x80 xbf x00 x00 x80 xbf)
(L (W x49 xa1 x68 x4a xeb x5f xdd x3d)) E))))
(T (W x00 x00 x80 x3f x00 x00 x80 x3f)
(T (W x64 x00 x00 x00 x9c x00 x00 x00)
(T (W x00 x00 x00 x00 x00 x00 x00 x00)
(T (W x5f x77 x69 x6c x64 x5f x70 x6f)
(L (W x4f x84 x6f x8b xe8 xcb x63 xb7))
(L (W x00 x00 x80 xbf x00 x00 x80 xbf)))
(T (W x00 x00 x00 x00 x02 x00 x00 x00)
(L (W xff xff xff xff xff xff xff xff)) E))
(T (W x00 x00 x00 x00 x00 x00 x00 x00)
(T (W xb0 x00 x00 x00 x64 x00 x00 x00)
(L (W x00 x00 x80 xbf x00 x00 x80 xbf)) E)
(T (W xff xff xff xff xff xff xff xff)
(L (W x45 x44 x00 x00 x00 x00 x00 x00)) E)))
(T (W xff xff xff xff xff xff xff xff)
(T (W x5d x00 x00 x00 xff xff xff xff)
(T (W x74 x03 x00 x00 x4c x02 x00 x00)
(L (W x6c x00 x00 x00 x60 x00 x00 x00))
(L (W xff xff xff xff xff xff xff xff)))
(T (W x00 x00 x00 x00 x00 x00 x00 x00)
(L (W x00 x00 x80 xbf x00 x00 x80 xbf)) E))
(T (W x70 x5f x6c x65 x61 x64 x65 x72)
(T (W x01 x00 x00 x00 x19 x00 x00 x00)
(L (W x00 x00 x00 x00 x00 x00 x00 x00)) E)
(T (W x04 xbd x1c x76 x80 xbc xf7 x18)
(L (W xcc x00 x00 x00 x01 x00 x00 x00)) E)))))
(T (W x18 x00 x00 x00 x10 x00 x00 x00)
(T (W xc9 x00 x00 x00 xff xff xff xff)
(T (W x45 x26 x22 x84 xe4 x9c xf2 xcb)
(T (W xff xff xff xff x04 x00 x00 x00)
(T (W x00 x00 x80 x3f x00 x00 x80 x3f)
(L (W x5f x4e x53 x5f x30 x32 x5f x43))
(L (W x00 x00 x00 x00 x00 x00 x00 x00)))
(T (W x18 x01 x00 x00 x04 x00 x00 x00)
(L (W xff xff xff xff xff xff xff xff)) E))
(T (W x00 x00 x80 x3f x00 x00 x80 x3f)
(T (W x00 x00 x00 x00 x94 x0c xfc xff)
(L (W x45 x26 x22 x84 xe4 x9c xf2 xcb)) E)
(T (W x1a x00 x00 x00 x10 x00 x00 x00)
(L (W xff xff xff xff xff xff xff xff)) E)))
(T (W x00 x00 x00 x00 x02 x00 x00 x00)
(T (W x00 x00 x00 x00 x00 x00 x00 x00)
(T (W xff xff xff xff x03 x00 x00 x00)
(L (W x00 x00 x00 x00 x00 x00 x00 x00))
(L (W x18 x00 x00 x00 x0c x00 x00 x00)))
(T (W x80 x00 x08 x00 x78 x00 x0c x00)
(L (W x00 x00 x80 xbf x00 x00 x80 xbf)) E))
(T (W x18 x00 x00 x00 x0c x00 x00 x00)
(T (W x54 x00 x00 x00 x48 x00 x00 x00)
(L (W x45 x44 x00 x00 x00 x00 x00 x00)) E)
(T (W xff xff xff xff xb0 x00 x00 x00)
(L (W x6c x00 x00 x00 x60 x00 x00 x00)) E))))
(T (W x45 x26 x22 x84 xe4 x9c xf2 xcb)
(T (W xac x3b xfa xff x1f x00 x00 x00)
(T (W x45 x26 x22 x84 xe4 x9c xf2 xcb)
(T (W xb0 x00 x00 x00 x64 x00 x00 x00)
(L (W x00 x00 x00 x00 x00 x00 x00 x00))
(L (W x00 x00 x80 xbf x00 x00 x80 xbf)))
(T (W x45 x26 x22 x84 xe4 x9c xf2 xcb)
(L (W x00 x00 x01 x01 x5d x00 x00 x00)) E))
(T (W x00 x00 x80 x3f x00 x00 x80 x3f)
(T (W xff xff xff xff xff xff xff xff)
(L (W x00 x00 x00 x00 x94 x2c xfe xff)) E)
(T (W x30 x32 x5f x43 x4c x45 x41 x52)
(L (W x00 x00 x00 x00 x00 x00 x00 x00)) E)))
(T (W xff xff xff xff xff xff xff xff)
(T (W xff xff xff xff xff xff xff xff)
(T (W x00 x00 x00 x00 x00 x00 x00 x00)
(L (W xff xff xff xff xff xff xff xff))
(L (W xff xff xff xff xff xff xff xff)))
(T (W x00 x00 x00 x00 x00 x00 x00 x00)
(L (W xbc x00 x00 x00 x1e x00 x00 x00)) E))
(T (W xb8 x00 x00 x00 x03 x00 x00 x00)
(T (W x00 x00 x00 x00 x00 x00 x00 x00)
(L (W x02 x6b xfe xff x78 x00 x00 x00)) E)
(T (W x00 x00 x80 xbf x00 x00 x80 xbf)
(L (W xcc x00 x00 x00 x01 x00 x00 x00)) E))))))
(T (W xff xff xff xff xff xff xff xff)
(T (W x00 x00 x00 x00 x00 x00 x00 x00)
(T (W x00 x00 x80 x3f x00 x00 x80 x3f)
(T (W x00 x00 x80 x3f x00 x00 x80 x3f)
(T (W xb8 x00 x00 x00 xac x00 x00 x00)
(T (W x00 x00 x80 x3f x00 x00 x80 x3f)
(L (W x00 x00 x00 x00 x00 x00 x00 x00))
(L (W x00 x00 x00 x00 x82 x88 xff xff)))
(T (W x00 x00 x00 x00 x00 x00 x00 x00)
(L (W x45 x26 x22 x84 xe4 x9c xf2 xcb)) E))
(T (W x13 x00 x00 x00 x10 x00 x00 x00)
(T (W x00 x00 x80 x3f x00 x00 x80 x3f)
(L (W x00 x00 x00 x00 x00 x00 x00 x00)) E)
(T (W x00 x00 x80 xbf x00 x00 x80 xbf)
(L (W xff xff xff xff xff xff xff xff)) E)))
(T (W x00 x00 x00 x00 x00 x00 x00 x00)
(T (W x00 x00 x00 x00 x00 x00 x00 x00)
(T (W x68 x00 x00 x00 x5c x00 x00 x00)
(L (W x00 x00 x80 xbf x00 x00 x80 xbf))
(L (W x00 x00 x80 xbf x00 x00 x80 xbf)))
(T (W x00 x00 x00 x00 x00 x00 x00 x00)
(L (W x00 x00 x00 x00 x00 x00 x00 x00)) E))
(T (W x00 x00 x00 x00 x00 x00 x00 x00)
(T (W x00 x00 x80 x3f x00 x00 x80 x3f)
(L (W xff xff xff xff xff xff xff xff)) E)
(T (W x18 x00 x00 x00 x10 x00 x00 x00)
(L (W x00 x00 x80 xbf x00 x00 x80 xbf)) E))))
(T (W x00 x00 x80 x3f x00 x00 x80 x3f)
(T (W x00 x00 x00 x00 x00 x00 x00 x00)
(T (W x00 x00 x00 x00 x00 x00 x00 x00)
(T (W x00 x00 x80 x3f x00 x00 x80 x3f)
(L (W xff xff xff xff x9c x00 x00 x00))
(L (W x04 x00 x00 x00 x98 x03 x00 x00)))
(T (W x45 x26 x22 x84 xe4 x9c xf2 xcb)
(L (W x00 x00 x00 x00 x00 x00 x00 x00)) E))
(T (W x00 x00 x80 x3f x00 x00 x80 x3f)
(T (W xff xff xff xff xff xff xff xff)
(L (W x54 x00 x00 x00 x48 x00 x00 x00)) E)
(T (W xff xff xff xff xff xff xff xff)
(L (W x00 x00 x00 x00 x00 x00 x00 x00)) E)))
(T (W xff xff xff xff xff xff xff xff)
(T (W xff xff xff xff xff xff xff xff)
(T (W xb6 x01 x00 x00 xff xff xff xff)
(L (W x00 x00 x00 x00 x94 xe4 xfd xff))
(L (W xff xff xff xff xff xff xff xff)))
(T (W x52 xe1 xfc xff x74 x00 x00 x00)
(L (W x02 xe3 xfe xff x78 x00 x00 x00)) E))
(T (W x02 x63 xfb xff x78 x00 x00 x00)
(T (W x52 x61 xfc xff x74 x00 x00 x00)
(L (W x45 x26 x22 x84 xe4 x9c xf2 xcb)) E)
(T (W x00 x00 x00 x00 x12 x00 x00 x00)
(L (W x45 x26 x22 x84 xe4 x9c xf2 xcb)) E)))))
(T (W x00 x00 x00 x00 x00 x00 x00 x00)
(T (W x02 xd3 xf9 xff x78 x00 x00 x00)
(T (W x00 x00 x00 x00 x94 x14 xfa xff)
(T (W x18 x00 x00 x00 x0c x00 x00 x00)
(T (W xff xff xff xff xff xff xff xff)
(L (W x00 x00 x00 x00 x00 x00 x00 x00))
(L (W x00 x00 x00 x00 x00 x00 x00 x00)))
(T (W xff xff xff xff xff xff xff xff)
(L (W xff xff xff xff xff xff xff xff)) E))
(T (W x00 x00 x00 x00 x94 x14 xfb xff)
(T (W x18 x00 x00 x00 x0c x00 x00 x00)
(L (W x00 x00 x80 xbf x00 x00 x80 xbf)) E)
(T (W xff xff xff xff xff xff xff xff)
(L (W x00 x00 x00 x00 x00 x00 x00 x00)) E)))
(T (W xff xff xff xff xff xff xff xff)
(T (W x32 x2a x34 x29 x3e x51 x68 xfc)
(T (W xff xff xff xff xff xff xff xff)
(L (W x00 x00 x80 xbf x00 x00 x80 xbf))
(L (W xbc x00 x00 x00 x1e x00 x00 x00)))
(T (W xff xff xff xff xff xff xff xff)
(L (W x00 x00 x80 xbf x00 x00 x80 xbf)) E))
(T (W xff xff xff xff xff xff xff xff)
(T (W x00 x00 x80 x3f x00 x00 x80 x3f)
(L (W x09 x00 x00 x00 x0c x00 x00 x00)) E)
(T (W x54 x01 x00 x00 xff xff xff xff)
(L (W xff xff xff xff xa0 x00 x00 x00)) E))))
(T (W x00 x00 x80 x3f x00 x00 x80 x3f)
(T (W x01 x00 x00 x00 x04 x00 x00 x00)
(T (W x45 x26 x22 x84 xe4 x9c xf2 xcb)
(T (W x61 x64 x65 x72 x5f x77 x69 x6c)
(L (W x45 x26 x22 x84 xe4 x9c xf2 xcb))
(L (W x00 x00 x80 xbf x00 x00 x80 xbf)))
(T (W x45 x26 x22 x84 xe4 x9c xf2 xcb)
(L (W x00 x00 x00 x00 x00 x00 x00 x00)) E))
(T (W xff xff xff xff x03 x00 x00 x00)
(T (W x70 x5f x6c x65 x61 x64 x65 x72)
(L (W x21 x00 x00 x00 x24 x00 x00 x00)) E)
(T (W x00 x00 x00 x00 x00 x00 x00 x00)
(L (W x00 x00 x00 x00 x00 x00 x00 x00)) E)))
(T (W xff xff xff xff xff xff xff xff)
(T (W x00 x00 x80 x3f x00 x00 x80 x3f)
(T (W x30 x32 x5f x43 x4c x45 x41 x52)
(L (W x00 x00 x00 x00 x00 x00 x00 x00))
(L (W x00 x00 x00 x00 x00 x00 x00 x00)))
(T (W x1f x00 x00 x00 xac x00 x00 x00)
(L (W xff xff xff xff xb0 x00 x00 x00)) E))
(T (W xff xff xff xff xff xff xff xff)
(T (W x00 x00 x00 x00 x00 x00 x00 x00)
(L (W x50 x00 x00 x00 x44 x00 x00 x00)) E)
(T (W x00 x00 x00 x00 x00 x00 x00 x00)
(L (W xff xff xff xff xff xff xff xff)) E))))))))
(T (W x3c x02 x00 x00 x20 x01 x00 x00)
(T (W x00 x00 x80 x3f x00 x00 x80 x3f)
(T (W x00 x00 x00 x00 x00 x00 x00 x00)
(T (W x00 x00 x80 x3f x00 x00 x80 x3f)
(T (W x01 x00 x00 x00 xa0 x00 x00 x00)
(T (W x00 x00 x00 x00 x00 x00 x00 x00)
(T (W x02 x79 xfa xff x78 x00 x00 x00)
(T (W xff xff xff xff xff xff xff xff)
(L (W xff xff xff xff xff xff xff xff))
(L (W x03 x00 x00 x00 xd0 x00 x00 x00)))
(T (W x18 x01 x00 x00 x04 x00 x00 x00)
(L (W x00 x00 x80 xbf x00 x00 x80 xbf)) E))
(T (W x45 x26 x22 x84 xe4 x9c xf2 xcb)
(T (W x18 x00 x00 x00 x10 x00 x00 x00)
(L (W xff xff xff xff xff xff xff xff))
(L (W x00 x00 x10 x00 x14 x00 x18 x00)))
(T (W x30 x00 x34 x00 x38 x00 x3c x00)
(L (W x00 x00 x80 xbf x00 x00 x80 xbf)) E)))
(T (W xff xff xff xff xff xff xff xff)
(T (W xba xcb xfd xff x00 x00 x01 x01)
(T (W x00 x00 x00 x00 x00 x00 x00 x00)
(L (W xff xff xff xff x06 x00 x00 x00))
(L (W x46 x53 x59 x53 x5f x4e x53 x5f)))
(T (W x4a x00 x00 x00 xff xff xff xff)
(L (W xff xff xff xff xff xff xff xff)) E))
(T (W x50 x00 x00 x00 x44 x00 x00 x00)
(T (W x45 x44 x00 x00 x00 x00 x00 x00)
(L (W x00 x00 x80 xbf x00 x00 x80 xbf)) E)
(T (W x30 x32 x5f x43 x4c x45 x41 x52)
(L (W xff xff xff xff xff xff xff xff)) E))))
(T (W x00 x00 x00 x00 x01 x00 x00 x00)
(T (W x00 x00 x80 x3f x00 x00 x80 x3f)
(T (W x00 x00 x00 x00 x00 x00 x00 x00)
(T (W xff xff xff xff xff xff xff xff)
(L (W x00 x00 x00 x00 x00 x00 x00 x00))
(L (W x00 x00 x00 x00 x00 x00 x00 x00)))
(T (W x52 x97 xfc xff x74 x00 x00 x00)
(L (W x45 x26 x22 x84 xe4 x9c xf2 xcb)) E))
(T (W xff xff xff xff xff xff xff xff)
(T (W x68 x00 x00 x00 x5c x00 x00 x00)
(L (W x00 x00 x00 x00 x00 x00 x00 x00)) E)
(T (W x00 x00 x00 x00 x00 x00 x00 x00)
(L (W xff xff xff xff xff xff xff xff)) E)))
(T (W x18 x00 x00 x00 x0c x00 x00 x00)
(T (W xff xff xff xff xff xff xff xff)
(T (W x18 x00 x00 x00 x0c x00 x00 x00)
(L (W x00 x00 x00 x00 x00 x00 x00 x00))
(L (W x6c x00 x00 x00 x60 x00 x00 x00)))
(T (W x18 x00 x00 x00 x10 x00 x00 x00)
(L (W xac xe9 xfe xff x11 x00 x00 x00)) E))
(T (W xff xff xff xff xff xff xff xff)
(T (W x00 x00 x00 x00 x00 x00 x00 x00)
(L (W xff xff xff xff xff xff xff xff)) E)
(T (W xff xff xff xff xff xff xff xff)
(L (W x49 xa1 x68 x4a xeb x5f xdd x3d)) E)))))
(T (W x54 x00 x00 x00 x48 x00 x00 x00)
(T (W xff xff xff xff xff xff xff xff)
(T (W x00 x00 x00 x00 x00 x00 x00 x00)
(T (W x00 x00 x80 x3f x00 x00 x80 x3f)
(T (W x00 x00 x00 x00 x00 x00 x00 x00)
(L (W xff xff xff xff xff xff xff xff))
(L (W xff xff xff xff xff xff xff xff)))
(T (W xff xff xff xff xff xff xff xff)
(L (W x00 x00 x80 xbf x00 x00 x80 xbf)) E))
(T (W xba x4a xfd xff x9c x01 x00 x00)
(T (W x00 x00 x00 x00 x00 x00 x00 x00)
(L (W x54 x02 x00 x00 x38 x01 x00 x00)) E)
(T (W xb0 x00 x00 x00 x64 x00 x00 x00)
(L (W xff xff xff xff xa0 x00 x00 x00)) E)))
(T (W x64 x00 x00 x00 x9c x00 x00 x00)
(T (W xff xff xff xff xff xff xff xff)
(T (W x4f x84 x6f x8b xe8 xcb x63 xb7)
(L (W x00 x00 x00 x00 x00 x00 x00 x00))
(L (W x00 x00 x80 xbf x00 x00 x80 xbf)))
(T (W xac xd9 xfc xff x46 x00 x00 x00)
(L (W x00 x00 x00 x00 x00 x00 x00 x00)) E))
(T (W x49 xa1 x68 x4a xeb x5f xdd x3d)
(T (W x00 x00 x00 x00 x12 x00 x00 x00)
(L (W x18 x00 x00 x00 x10 x00 x00 x00)) E)
(T (W x00 x00 x80 xbf x00 x00 x80 xbf)
(L (W x00 x00 x00 x00 x12 x00 x00 x00)) E))))
(T (W x00 x00 x00 x00 x00 x00 x00 x00)
(T (W xff xff xff xff xff xff xff xff)
(T (W x20 xce xe2 xec x27 xe1 x48 xb3)
(T (W x00 x00 x80 x3f x00 x00 x80 x3f)
(L (W x00 x00 x00 x00 x00 x00 x00 x00))
(L (W x00 x00 x00 x00 x12 x00 x00 x00)))
(T (W x6b x65 x5f x63 x6f x77 x61 x72)
(L (W x45 x26 x22 x84 xe4 x9c xf2 xcb)) E))
(T (W x00 x00 x00 x00 x00 x00 x00 x00)
(T (W x45 x26 x22 x84 xe4 x9c xf2 xcb)
(L (W x00 x00 x80 xbf x00 x00 x80 xbf)) E)
(T (W xff xff xff xff xff xff xff xff)
(L (W xff xff xff xff xff xff xff xff)) E)))
(T (W x01 x00 x00 x00 x3e x00 x00 x00)
(T (W xff xff xff xff xff xff xff xff)
(T (W xff xff xff xff xff xff xff xff)
(L (W x18 x00 x00 x00 x0c x00 x00 x00))
(L (W x6c x00 x00 x00 x60 x00 x00 x00)))
(T (W xff xff xff xff xff xff xff xff)
(L (W x00 x00 x00 x00 x00 x00 x00 x00)) E))
(T (W x00 x00 x80 x3f x00 x00 x80 x3f)
(T (W x00 x00 x00 x00 x02 x00 x00 x00)
(L (W x46 x53 x59 x53 x5f x4e x53 x5f)) E)
(T (W x38 xb6 x1c x76 x80 xb8 xf7 x18)
(L (W x00 x00 x80 xbf x00 x00 x80 xbf)) E))))))
(T (W xff xff xff xff xff xff xff xff)
(T (W xff xff xff xff xff xff xff xff)
(T (W x00 x00 x00 x00 x00 x00 x00 x00)
(T (W xac x11 xfa xff x3e x00 x00 x00)
(T (W x00 x00 x80 x3f x00 x00 x80 x3f)
(T (W x00 x00 x00 x00 x00 x00 x00 x00)
(L (W x00 x00 x00 x00 x38 x00 x00 x00))
(L (W xff xff xff xff xff xff xff xff)))
(T (W xff xff xff xff xff xff xff xff)
(L (W x00 x00 x80 xbf x00 x00 x80 xbf)) E))
(T (W x01 x00 x00 x00 xb0 x00 x00 x00)
(T (W x46 x53 x59 x53 x5f x4e x53 x5f)
(L (W x00 x00 x00 x00 x82 x06 xfe xff))
(L (W x38 x00 x3c x00 x40 x00 x44 x00)))
(T (W x00 x00 x00 x00 x00 x00 x00 x00)
(L (W x6c x00 x00 x00 x60 x00 x00 x00)) E)))
(T (W xff xff xff xff xff xff xff xff)
(T (W xff xff xff xff xff xff xff xff)
(T (W x00 x00 x00 x00 x00 x00 x00 x00)
(L (W xa4 x04 x00 x00 x88 x03 x00 x00))
(L (W x00 x00 x00 x00 x00 x00 x00 x00)))
(T (W xff xff xff xff xff xff xff xff)
(L (W xff xff xff xff xff xff xff xff)) E))
(T (W xa1 x01 x00 x00 xff xff xff xff)
(T (W x54 x48 xfc xff x15 x00 x00 x00)
(L (W x19 x00 x00 x00 x1c x00 x00 x00)) E)
(T (W x00 x00 x00 x00 x00 x00 x00 x00)
(L (W x09 x00 x00 x00 x0c x00 x00 x00)) E))))
(T (W x00 x00 x00 x00 x00 x00 x00 x00)
(T (W xff xff xff xff xff xff xff xff)
(T (W x00 x00 x00 x00 x00 x00 x00 x00)
(T (W x12 x00 x00 x00 x46 x53 x59 x53)
(L (W x00 x00 x80 xbf x00 x00 x80 xbf))
(L (W x00 x00 x80 xbf x00 x00 x80 xbf)))
(T (W x00 x00 x00 x00 x00 x00 x00 x00)
(L (W x00 x00 x00 x00 x94 xa2 xfe xff)) E))
(T (W x00 x00 x00 x00 x00 x00 x00 x00)
(T (W x45 x26 x22 x84 xe4 x9c xf2 xcb)
(L (W x4f x84 x6f x8b xe8 xcb x63 xb7)) E)
(T (W x18 x00 x00 x00 x0c x00 x00 x00)
(L (W xff xff xff xff xff xff xff xff)) E)))
(T (W x40 x00 x00 x00 x9c x00 x00 x00)
(T (W xff xff xff xff xff xff xff xff)
(T (W x01 x00 x00 x00 x29 x00 x00 x00)
(L (W x00 x00 x80 xbf x00 x00 x80 xbf))
(L (W x00 x00 x80 xbf x00 x00 x80 xbf)))
(T (W xa8 x06 x00 x00 x84 x05 x00 x00)
(L (W x49 xa1 x68 x4a xeb x5f xdd x3d)) E))
(T (W x00 x00 x00 x00 x00 x00 x00 x00)
(T (W x00 x00 x80 x3f x00 x00 x80 x3f)
(L (W x00 x00 x00 x00 x12 x68 xfe xff)) E)
(T (W xff xff xff xff xff xff xff xff)
(L (W x00 x00 x80 xbf x00 x00 x80 xbf)) E)))))
(T (W x00 x00 x00 x00 x00 x00 x00 x00)
(T (W x00 x00 x80 x3f x00 x00 x80 x3f)
(T (W x45 x26 x22 x84 xe4 x9c xf2 xcb)
(T (W x45 x26 x22 x84 xe4 x9c xf2 xcb)
(T (W x50 x00 x00 x00 x44 x00 x00 x00)
(L (W x0e x00 x00 x00 xff xff xff xff))
(L (W x00 x00 x00 x00 x00 x00 x00 x00)))
(T (W x00 x00 x00 x00 x94 x92 xfc xff)
(L (W x50 x00 x00 x00 x44 x00 x00 x00)) E))
(T (W x22 x00 x00 x00 x67 x72 x6f x75)
(T (W x00 x00 x80 x3f x00 x00 x80 x3f)
(L (W x00 x00 x00 x00 x00 x00 x00 x00)) E)
(T (W x00 x00 x80 xbf x00 x00 x80 xbf)
(L (W xff xff xff xff xff xff xff xff)) E)))
(T (W x00 x00 x00 x00 x94 x52 xfa xff)
(T (W xb8 x00 x00 x00 xac x00 x00 x00)
(T (W x00 x00 x00 x00 x94 xd2 xfb xff)
(L (W x00 x00 x00 x00 x00 x00 x00 x00))
(L (W x45 x26 x22 x84 xe4 x9c xf2 xcb)))
(T (W x6c x00 x00 x00 x60 x00 x00 x00)
(L (W x00 x00 x00 x00 x00 x00 x00 x00)) E))
(T (W x45 x26 x22 x84 xe4 x9c xf2 xcb)
(T (W x45 x26 x22 x84 xe4 x9c xf2 xcb)
(L (W xff xff xff xff xff xff xff xff)) E)
(T (W x00 x00 x00 x00 x94 x52 xfd xff)
(L (W x00 x00 x00 x00 x00 x00 x00 x00)) E))))
(T (W x45 x26 x22 x84 xe4 x9c xf2 xcb)
(T (W xff xff xff xff xff xff xff xff)
(T (W xd0 x01 x00 x00 xff xff xff xff)
(T (W xff xff xff xff x03 x00 x00 x00)
(L (W x50 x00 x00 x00 x44 x00 x00 x00))
(L (W x00 x00 x00 x00 x00 x00 x00 x00)))
(T (W x00 x00 x00 x00 x00 x00 x00 x00)
(L (W x18 x00 x00 x00 x10 x00 x00 x00)) E))
(T (W x00 x00 x80 x3f x00 x00 x80 x3f)
(T (W xff xff xff xff xff xff xff xff)
(L (W x00 x00 x80 xbf x00 x00 x80 xbf)) E)
(T (W xff xff xff xff xff xff xff xff)
(L (W xff xff xff xff xff xff xff xff)) E)))
(T (W x68 x00 x00 x00 x5c x00 x00 x00)
(T (W x5c x00 x60 x00 x62 x00 x00 x00)
(T (W xff xff xff xff xff xff xff xff)
(L (W xff xff xff xff xff xff xff xff))
(L (W xff xff xff xff xff xff xff xff)))
(T (W x4f x84 x6f x8b xe8 xcb x63 xb7)
(L (W x00 x00 x80 xbf x00 x00 x80 xbf)) E))
(T (W xd4 x00 x00 x00 xc8 x00 x00 x00)
(T (W xff xff xff xff xff xff xff xff)
(L (W x45 x26 x22 x84 xe4 x9c xf2 xcb)) E)
(T (W xff xff xff xff xac x00 x00 x00)
(L (W x45 x26 x22 x84 xe4 x9c xf2 xcb)) E)))))))
(T (W xff xff xff xff x04 x00 x00 x00)
(T (W x00 x00 x80 x3f x00 x00 x80 x3f)
(T (W x18 x00 x00 x00 x0c x00 x00 x00)
(T (W xff xff xff xff x0c x00 x00 x00)
(T (W xff xff xff xff xff xff xff xff)
(T (W xba x8f xfd xff x00 x00 x01 x01)
(T (W x68 x00 x00 x00 x5c x00 x00 x00)
(L (W x54 x00 x00 x00 x48 x00 x00 x00))
(L (W x00 x00 x00 x00 x00 x00 x00 x00)))
(T (W x00 x00 x80 x3f x00 x00 x80 x3f)
(L (W xff xff xff xff xff xff xff xff)) E))
(T (W x12 x00 x00 x00 x46 x53 x59 x53)
(T (W x52 xfb xfb xff x74 x00 x00 x00)
(L (W x45 x26 x22 x84 xe4 x9c xf2 xcb))
(L (W x54 x00 x00 x00 x48 x00 x00 x00)))
(T (W x00 x00 x00 x00 x00 x00 x00 x00)
(L (W xff xff xff xff xff xff xff xff)) E)))
(T (W x00 x00 x80 x3f x00 x00 x80 x3f)
(T (W x00 x00 x80 x3f x00 x00 x80 x3f)
(T (W xc8 x00 x00 x00 xbc x00 x00 x00)
(L (W x00 x00 x00 x00 x00 x00 x00 x00))
(L (W xff xff xff xff xff xff xff xff)))
(T (W x45 x26 x22 x84 xe4 x9c xf2 xcb)
(L (W x45 x26 x22 x84 xe4 x9c xf2 xcb)) E))
(T (W x00 x00 x00 x00 x00 x00 x00 x00)
(T (W x45 x26 x22 x84 xe4 x9c xf2 xcb)
(L (W x30 x32 x5f x43 x4c x45 x41 x52)) E)
(T (W xc4 x00 x00 x00 x02 x00 x00 x00)
(L (W x6c x00 x00 x00 x60 x00 x00 x00)) E))))
(T (W x00 x00 x00 x00 x94 xde xf9 xff)
(T (W x45 x26 x22 x84 xe4 x9c xf2 xcb)
(T (W x68 x00 x00 x00 x5c x00 x00 x00)
(T (W x00 x00 x80 x3f x00 x00 x80 x3f)
(L (W x52 x9b xfd xff x74 x00 x00 x00))
(L (W xff xff xff xff xc0 x00 x00 x00)))
(T (W x00 x00 x00 x00 x00 x00 x00 x00)
(L (W x00 x00 x00 x00 x00 x00 x00 x00)) E))
(T (W x00 x00 x80 x3f x00 x00 x80 x3f)
(T (W x45 x44 x00 x00 x00 x00 x00 x00)
(L (W xff xff xff xff xff xff xff xff)) E)
(T (W x00 x00 x00 x00 x00 x00 x00 x00)
(L (W x4f x84 x6f x8b xe8 xcb x63 xb7)) E)))
(T (W x00 x00 x00 x00 x00 x00 x00 x00)
(T (W x00 x00 x00 x00 x00 x00 x00 x00)
(T (W x45 x26 x22 x84 xe4 x9c xf2 xcb)
(L (W x03 x00 x00 x00 xd0 x00 x00 x00))
(L (W xff xff xff xff xff xff xff xff)))
(T (W x4f x84 x6f x8b xe8 xcb x63 xb7)
(L (W x12 x00 x00 x00 x15 x00 x00 x00)) E))
(T (W x6c x00 x00 x00 x60 x00 x00 x00)
(T (W xff xff xff xff xff xff xff xff)
(L (W x24 x60 xfe xff x00 x01 x01 x01)) E)
(T (W x00 x00 x80 xbf x00 x00 x80 xbf)
(L (W xff xff xff xff xff xff xff xff)) E)))))
(T (W xff xff xff xff xff xff xff xff)
(T (W x00 x00 x00 x00 x00 x00 x00 x00)
(T (W x18 x00 x00 x00 x0c x00 x00 x00)
(T (W x20 x01 x00 x00 x04 x00 x00 x00)
(T (W xff xff xff xff xff xff xff xff)
(L (W x00 x00 x80 xbf x00 x00 x80 xbf))
(L (W x00 x00 x80 xbf x00 x00 x80 xbf)))
(T (W x00 x00 x00 x00 x00 x00 x00 x00)
(L (W x00 x00 x00 x00 x00 x00 x00 x00)) E))
(T (W x6c x00 x00 x00 x60 x00 x00 x00)
(T (W xff xff xff xff xff xff xff xff)
(L (W x02 x0d xfe xff x78 x00 x00 x00)) E)
(T (W x00 x00 x80 xbf x00 x00 x80 xbf)
(L (W x30 x32 x5f x43 x4c x45 x41 x52)) E)))
(T (W x00 x00 x00 x00 x00 x00 x00 x00)
(T (W x45 x26 x22 x84 xe4 x9c xf2 xcb)
(T (W x4a x00 x00 x00 xff xff xff xff)
(L (W x54 x00 x00 x00 x48 x00 x00 x00))
(L (W xff xff xff xff xff xff xff xff)))
(T (W xff xff xff xff xff xff xff xff)
(L (W x6c x00 x00 x00 x60 x00 x00 x00)) E))
(T (W x34 x01 x00 x00 x04 x00 x00 x00)
(T (W xcc x00 x00 x00 xc0 x00 x00 x00)
(L (W x49 xa1 x68 x4a xeb x5f xdd x3d)) E)
(T (W xff xff xff xff xff xff xff xff)
(L (W xff xff xff xff xff xff xff xff)) E))))
(T (W x64 x00 x00 x00 x9c x00 x00 x00)
(T (W x00 x00 x80 x3f x00 x00 x80 x3f)
(T (W x00 x00 x80 x3f x00 x00 x80 x3f)
(T (W x45 x44 x00 x00 x00 x00 x00 x00)
(L (W x45 x26 x22 x84 xe4 x9c xf2 xcb))
(L (W x02 xad xff xff x78 x00 x00 x00)))
(T (W x68 x00 x00 x00 x5c x00 x00 x00)
(L (W x00 x00 x00 x00 x00 x00 x00 x00)) E))
(T (W xff xff xff xff xff xff xff xff)
(T (W x49 xa1 x68 x4a xeb x5f xdd x3d)
(L (W x00 x00 x00 x00 x00 x00 x00 x00)) E)
(T (W x49 xa1 x68 x4a xeb x5f xdd x3d)
(L (W x00 x00 x80 xbf x00 x00 x80 xbf)) E)))
(T (W x01 x00 x00 x00 x04 x00 x00 x00)
(T (W x00 x00 x00 x00 x00 x00 x00 x00)
(T (W x45 x26 x22 x84 xe4 x9c xf2 xcb)
(L (W x00 x00 x00 x00 x00 x00 x00 x00))
(L (W x00 x00 x00 x00 x00 x00 x00 x00)))
(T (W x45 x26 x22 x84 xe4 x9c xf2 xcb)
(L (W x5c x00 x00 x00 xff xff xff xff)) E))
(T (W xff xff xff xff xff xff xff xff)
(T (W x00 x00 x80 x3f x00 x00 x80 x3f)
(L (W xff xff xff xff xff xff xff xff)) E)
(T (W x52 x6b xfd xff x74 x00 x00 x00)
(L (W x0f x56 x48 xdc x00 x5c x59 x2f)) E))))))
(T (W x00 x00 x00 x00 x00 x00 x00 x00)
(T (W x00 x00 x00 x00 x00 x00 x00 x00)
(T (W x6c x00 x00 x00 x60 x00 x00 x00)
(T (W x45 x26 x22 x84 xe4 x9c xf2 xcb)
(T (W x00 x00 x00 x00 x00 x00 x00 x00)
(T (W x52 x83 xfb xff x74 x00 x00 x00)
(L (W x49 xa1 x68 x4a xeb x5f xdd x3d))
(L (W x00 x00 x80 xbf x00 x00 x80 xbf)))
(T (W x00 x00 x80 x3f x00 x00 x80 x3f)
(L (W x00 x00 x00 x00 x32 x84 xfe xff)) E))
(T (W x00 x00 x80 x3f x00 x00 x80 x3f)
(T (W x01 x00 x00 x00 xb0 x00 x00 x00)
(L (W x00 x00 x80 xbf x00 x00 x80 xbf)) E)
(T (W x04 x00 x00 x00 xf2 x05 xfd xff)
(L (W x00 x00 x00 x00 xf2 x05 xff xff)) E)))
(T (W x00 x00 x80 x3f x00 x00 x80 x3f)
(T (W x00 x00 x80 x3f x00 x00 x80 x3f)
(T (W xff xff xff xff xff xff xff xff)
(L (W x00 x00 x00 x00 x94 xc6 xfd xff))
(L (W xff xff xff xff xff xff xff xff)))
(T (W x4f x84 x6f x8b xe8 xcb x63 xb7)
(L (W x00 x00 x80 xbf x00 x00 x80 xbf)) E))
(T (W x68 x00 x00 x00 x5c x00 x00 x00)
(T (W x00 x00 x00 x00 x94 x46 xfc xff)
(L (W x00 x00 x00 x00 x00 x00 x00 x00)) E)
(T (W xff xff xff xff xff xff xff xff)
(L (W x12 x00 x00 x00 x15 x00 x00 x00)) E))))
(T (W xff xff xff xff x04 x00 x00 x00)
(T (W x00 x00 x80 x3f x00 x00 x80 x3f)
(T (W x00 x00 x80 x3f x00 x00 x80 x3f)
(T (W xff xff xff xff xff xff xff xff)
(L (W xff xff xff xff xff xff xff xff))
(L (W x45 x26 x22 x84 xe4 x9c xf2 xcb)))
(T (W x68 x00 x00 x00 x5c x00 x00 x00)
(L (W x00 x00 x00 x00 x00 x00 x00 x00)) E))
(T (W x6c x00 x00 x00 x60 x00 x00 x00)
(T (W x54 x2c xfc xff x15 x00 x00 x00)
(L (W xff xff xff xff xff xff xff xff)) E)
(T (W x00 x00 x00 x00 x00 x00 x00 x00)
(L (W x45 x26 x22 x84 xe4 x9c xf2 xcb)) E)))
(T (W xac x75 xfa xff x3c x00 x00 x00)
(T (W x00 x00 x00 x00 x00 x00 x00 x00)
(T (W x00 x00 x80 x3f x00 x00 x80 x3f)
(L (W xff xff xff xff xff xff xff xff))
(L (W x45 x44 x00 x00 x00 x00 x00 x00)))
(T (W x6b x65 x5f x77 x61 x72 x6c x69)
(L (W xff xff xff xff xff xff xff xff)) E))
(T (W xff xff xff xff xff xff xff xff)
(T (W x00 x00 x00 x00 x00 x00 x00 x00)
(L (W x17 x00 x00 x00 x1a x00 x00 x00)) E)
(T (W x00 x00 x80 xbf x00 x00 x80 xbf)
(L (W x00 x00 x00 x00 x00 x00 x00 x00)) E)))))
(T (W x00 x00 x80 x3f x00 x00 x80 x3f)
(T (W xbc x00 x00 x00 xb0 x00 x00 x00)
(T (W xba x01 x00 x00 xff xff xff xff)
(T (W x00 x00 x00 x00 x1c x00 x20 x00)
(T (W x45 x44 x00 x00 x00 x00 x00 x00)
(L (W x00 x00 x80 xbf x00 x00 x80 xbf))
(L (W xff xff xff xff xb0 x00 x00 x00)))
(T (W x00 x00 x00 x00 x00 x00 x00 x00)
(L (W x00 x00 x00 x00 x00 x00 x00 x00)) E))
(T (W x00 x00 x00 x00 x00 x00 x00 x00)
(T (W xff xff xff xff xff xff xff xff)
(L (W xff xff xff xff xb0 x00 x00 x00)) E)
(T (W x00 x00 x00 x00 x00 x00 x00 x00)
(L (W x00 x00 x80 xbf x00 x00 x80 xbf)) E)))
(T (W x00 x00 x00 x00 x00 x00 x00 x00)
(T (W x00 x00 x80 x3f x00 x00 x80 x3f)
(T (W xb6 x01 x00 x00 xff xff xff xff)
(L (W x1b x00 x00 x00 x1e x00 x00 x00))
(L (W xff xff xff xff xff xff xff xff)))
(T (W x00 x00 x00 x00 x00 x00 x00 x00)
(L (W xff xff xff xff xa0 x00 x00 x00)) E))
(T (W x4f x84 x6f x8b xe8 xcb x63 xb7)
(T (W xff xff xff xff xff xff xff xff)
(L (W x00 x00 x80 xbf x00 x00 x80 xbf)) E)
(T (W x00 x00 x00 x00 x00 x00 x00 x00)
(L (W xff xff xff xff xff xff xff xff)) E))))
(T (W x45 x26 x22 x84 xe4 x9c xf2 xcb)
(T (W x45 x26 x22 x84 xe4 x9c xf2 xcb)
(T (W x00 x00 x80 x3f x00 x00 x80 x3f)
(T (W x45 x26 x22 x84 xe4 x9c xf2 xcb)
(L (W xff xff xff xff xbc x00 x00 x00))
(L (W x00 x00 x00 x00 x94 xb6 xff xff)))
(T (W x50 x00 x00 x00 x44 x00 x00 x00)
(L (W x4f x84 x6f x8b xe8 xcb x63 xb7)) E))
(T (W x5f x77 x69 x6c x64 x5f x70 x6f)
(T (W x68 x00 x00 x00 x5c x00 x00 x00)
(L (W x04 x00 x00 x00 x70 x03 x00 x00)) E)
(T (W x00 x00 x80 xbf x00 x00 x80 xbf)
(L (W x00 x00 x80 xbf x00 x00 x80 xbf)) E)))
(T (W xff xff xff xff xff xff xff xff)
(T (W x00 x00 x80 x3f x00 x00 x80 x3f)
(T (W x24 xf8 xfb xff x00 x01 x01 x01)
(L (W x00 x00 x00 x00 x00 x00 x00 x00))
(L (W x4f x84 x6f x8b xe8 xcb x63 xb7)))
(T (W xff xff xff xff xff xff xff xff)
(L (W x84 x04 x00 x00 x70 x03 x00 x00)) E))
(T (W x00 x00 x00 x00 x00 x00 x00 x00)
(T (W x52 x73 xfc xff x74 x00 x00 x00)
(L (W xff xff xff xff xff xff xff xff)) E)
(T (W x54 x00 x00 x00 x48 x00 x00 x00)
(L (W x30 x32 x5f x43 x4c x45 x41 x52)) E)))))))))
(T (W x88 x17 x02 x00 xbc x12 x02 x00)
(T (W x40 x9c x00 x00 x0c x9b x00 x00)
(T (W x45 x26 x22 x84 xe4 x9c xf2 xcb)
(T (W x00 x00 x01 x01 xc9 x00 x00 x00)
(T (W x00 x00 x80 x3f x00 x00 x80 x3f)
(T (W x00 x00 x00 x00 x94 xb9 xf9 xff)
(T (W x01 x00 x00 x00 x04 x00 x00 x00)
(T (W x00 x00 x80 x3f x00 x00 x80 x3f)
(T (W xcc x00 x00 x00 xc0 x00 x00 x00)
(L (W xff xff xff xff xff xff xff xff))
(L (W x18 x00 x00 x00 x10 x00 x00 x00)))
(T (W xff xff xff xff xff xff xff xff)
(L (W x00 x00 x00 x00 x00 x00 x00 x00)) E))
(T (W x1c x00 x20 x00 x24 x00 x28 x00)
(T (W xff xff xff xff xff xff xff xff)
(L (W x00 x00 x00 x00 x94 xf9 xfd xff))
(L (W x45 x26 x22 x84 xe4 x9c xf2 xcb)))
(T (W xd0 x00 x00 x00 xc4 x00 x00 x00)
(L (W x00 x00 x80 xbf x00 x00 x80 xbf)) E)))
(T (W x64 x00 x00 x00 x9c x00 x00 x00)
(T (W xff xff xff xff xff xff xff xff)
(T (W xff xff xff xff xff xff xff xff)
(L (W xff xff xff xff xff xff xff xff))
(L (W x00 x00 x00 x00 xf2 xb8 xff xff)))
(T (W xff xff xff xff xff xff xff xff)
(L (W xff xff xff xff x9c x00 x00 x00)) E))
(T (W x00 x00 x80 x3f x00 x00 x80 x3f)
(T (W xff xff xff xff xff xff xff xff)
(L (W x00 x00 x80 xbf x00 x00 x80 xbf)) E)
(T (W x00 x00 x01 x01 xc7 x01 x00 x00)
(L (W xff xff xff xff xff xff xff xff)) E))))
(T (W xff xff xff xff xff xff xff xff)
(T (W x00 x00 x00 x00 x00 x00 x00 x00)
(T (W x64 x00 x68 x00 x62 x00 x00 x00)
(T (W x00 x00 x00 x00 x94 x99 xfb xff)
(L (W xff xff xff xff xff xff xff xff))
(L (W x00 x00 x00 x00 x00 x00 x00 x00)))
(T (W x00 x00 x80 x3f x00 x00 x80 x3f)
(L (W x54 x00 x00 x00 x48 x00 x00 x00)) E))
(T (W x00 x00 x00 x00 x94 x19 xfb xff)
(T (W x00 x00 x80 x3f x00 x00 x80 x3f)
(L (W x00 x00 x00 x00 x00 x00 x00 x00)) E)
(T (W x00 x00 x00 x00 x01 x00 x00 x00)
(L (W x29 x00 x00 x00 x2c x00 x00 x00)) E)))
(T (W x00 x00 x00 x00 x94 x59 xfa xff)
(T (W x0a x00 x00 x00 x3e x00 x00 x00)
(T (W x00 x00 x00 x00 x94 xd9 xfb xff)
(L (W x14 x00 x00 x00 x0c x00 x00 x00))
(L (W x00 x00 x00 x00 x00 x00 x00 x00)))
(T (W x6c x00 x00 x00 x60 x00 x00 x00)
(L (W xff xff xff xff xff xff xff xff)) E))
(T (W xff xff xff xff xc4 x00 x00 x00)
(T (W x00 x00 x00 x00 x00 x00 x00 x00)
(L (W xff xff xff xff xff xff xff xff)) E)
(T (W xff xff xff xff xa0 x00 x00 x00)
(L (W x00 x00 x00 x00 x00 x00 x00 x00)) E)))))
(T (W x00 x00 x80 x3f x00 x00 x80 x3f)
(T (W xff xff xff xff xff xff xff xff)
(T (W xba x1a xfd xff x00 x00 x01 x01)
(T (W x00 x00 x00 x00 x00 x00 x00 x00)
(T (W x00 x00 x00 x00 x00 x00 x00 x00)
(L (W x03 x00 x00 x00 xcc x00 x00 x00))
(L (W xff xff xff xff xc0 x00 x00 x00)))
(T (W x00 x00 x00 x00 x94 x89 xfc xff)
(L (W x00 x00 x80 xbf x00 x00 x80 xbf)) E))
(T (W xff xff xff xff xff xff xff xff)
(T (W x30 x32 x5f x43 x4c x45 x41 x52)
(L (W xff xff xff xff xff xff xff xff)) E)
(T (W x50 x00 x00 x00 x44 x00 x00 x00)
(L (W x6c x00 x00 x00 x60 x00 x00 x00)) E)))
(T (W x50 x00 x00 x00 x44 x00 x00 x00)
(T (W x45 x26 x22 x84 xe4 x9c xf2 xcb)
(T (W x00 x00 x00 x00 x00 x00 x00 x00)
(L (W xff xff xff xff xff xff xff xff))
(L (W x00 x00 x00 x00 x00 x00 x00 x00)))
(T (W x03 x00 x00 x00 xf4 x00 x00 x00)
(L (W x2a x00 x00 x00 xff xff xff xff)) E))
(T (W x6b x65 x5f x6c x76 x31 x00 x00)
(T (W x00 x00 x00 x00 x00 x00 x00 x00)
(L (W x54 x00 x00 x00 x48 x00 x00 x00)) E)
(T (W x00 x00 x00 x00 x00 x00 x00 x00)
(L (W x00 x00 x00 x00 x00 x00 x00 x00)) E))))
(T (W x00 x00 x00 x00 x00 x00 x00 x00)
(T (W xff xff xff xff x03 x00 x00 x00)
(T (W xff xff xff xff xff xff xff xff)
(T (W x4f x84 x6f x8b xe8 xcb x63 xb7)
(L (W xff xff xff xff x16 x00 x00 x00))
(L (W x04 x00 x00 x00 x12 xaf xff xff)))
(T (W xff xff xff xff xff xff xff xff)
(L (W x6c x00 x00 x00 x60 x00 x00 x00)) E))
(T (W x00 x00 x00 x00 x00 x00 x00 x00)
(T (W x54 x00 x00 x00 x48 x00 x00 x00)
(L (W x00 x00 x00 x00 x00 x00 x00 x00)) E)
(T (W x03 x00 x00 x00 xd8 x00 x00 x00)
(L (W x18 x00 x00 x00 x0c x00 x00 x00)) E)))
(T (W x00 x00 x80 x3f x00 x00 x80 x3f)
(T (W x52 xe6 xfa xff x74 x00 x00 x00)
(T (W x18 x00 x00 x00 x10 x00 x00 x00)
(L (W x6c x00 x00 x00 x60 x00 x00 x00))
(L (W x00 x00 x80 xbf x00 x00 x80 xbf)))
(T (W x18 x00 x00 x00 x10 x00 x00 x00)
(L (W x00 x00 x00 x00 x12 x00 x00 x00)) E))
(T (W x00 x00 x00 x00 x00 x00 x00 x00)
(T (W xff xff xff xff xff xff xff xff)
(L (W x00 x00 x01 x01 x5f x00 x00 x00)) E)
(T (W xff xff xff xff xff xff xff xff)
(L (W x00 x00 x80 xbf x00 x00 x80 xbf)) E))))))
(T (W x64 x00 x00 x00 xa0 x00 x00 x00)
(T (W xff xff xff xff xff xff xff xff)
(T (W x00 x00 x00 x00 x00 x00 x00 x00)
(T (W xff xff xff xff xff xff xff xff)
(T (W x45 x26 x22 x84 xe4 x9c xf2 xcb)
(T (W x00 x00 x00 x00 x00 x00 x00 x00)
(L (W xff xff xff xff xff xff xff xff))
(L (W x18 x00 x00 x00 x0c x00 x00 x00)))
(T (W xff xff xff xff xff xff xff xff)
(L (W x49 xa1 x68 x4a xeb x5f xdd x3d)) E))
(T (W x00 x00 x80 x3f x00 x00 x80 x3f)
(T (W x00 x00 x00 x00 x00 x00 x00 x00)
(L (W xff xff xff xff xff xff xff xff))
(L (W x5c x00 x48 x00 x50 x00 x04 x00)))
(T (W xff xff xff xff xff xff xff xff)
(L (W x00 x00 x80 xbf x00 x00 x80 xbf)) E)))
(T (W x24 x43 xfa xff x00 x01 x01 x01)
(T (W xb8 x00 x00 x00 xac x00 x00 x00)
(T (W x5f x4e x53 x5f x30 x32 x5f x43)
(L (W xff xff xff xff xbc x00 x00 x00))
(L (W x30 x32 x5f x43 x4c x45 x41 x52)))
(T (W xff xff xff xff x03 x00 x00 x00)
(L (W x03 x00 x00 x00 xd8 x00 x00 x00)) E))
(T (W x45 x26 x22 x84 xe4 x9c xf2 xcb)
(T (W xff xff xff xff xff xff xff xff)
(L (W x00 x00 x80 xbf x00 x00 x80 xbf)) E)
(T (W x46 x53 x59 x53 x5f x4e x53 x5f)
(L (W xff xff xff xff xff xff xff xff)) E))))
(T (W x00 x00 x00 x00 x42 x7c xfd xff)
(T (W x64 x00 x00 x00 x9c x00 x00 x00)
(T (W x20 x01 x00 x00 x04 x00 x00 x00)
(T (W x02 x00 x00 x00 x2c x01 x00 x00)
(L (W x10 x00 x00 x00 x00 x00 x14 x00))
(L (W x6c x00 x0c x00 x00 x00 x00 x00)))
(T (W xba xb2 xff xff x00 x00 x01 x01)
(L (W x00 x00 x80 xbf x00 x00 x80 xbf)) E))
(T (W xff xff xff xff xff xff xff xff)
(T (W x00 x00 x80 x3f x00 x00 x80 x3f)
(L (W x00 x00 x00 x00 x00 x00 x00 x00)) E)
(T (W x38 x00 x00 x00 x00 x00 x80 xbf)
(L (W xff xff xff xff xff xff xff xff)) E)))
(T (W x45 x26 x22 x84 xe4 x9c xf2 xcb)
(T (W xc0 x00 x00 x00 xb4 x00 x00 x00)
(T (W x52 xde xfb xff x74 x00 x00 x00)
(L (W x00 x00 x00 x00 x00 x00 x00 x00))
(L (W x49 xa1 x68 x4a xeb x5f xdd x3d)))
(T (W x45 x26 x22 x84 xe4 x9c xf2 xcb)
(L (W x13 x00 x00 x00 x0c x00 x00 x00)) E))
(T (W x00 x00 x00 x00 x06 x00 x00 x00)
(T (W x45 x26 x22 x84 xe4 x9c xf2 xcb)
(L (W xff xff xff xff xff xff xff xff)) E)
(T (W xff xff xff xff xff xff xff xff)
(L (W x4f x84 x6f x8b xe8 xcb x63 xb7)) E)))))
(T (W x00 x00 x00 x00 x42 x4c xfd xff)
(T (W x00 x00 x80 x3f x00 x00 x80 x3f)
(T (W x00 x00 x00 x00 x00 x00 x00 x00)
(T (W x00 x00 x00 x00 x00 x00 x00 x00)
(T (W x00 x00 x80 x3f x00 x00 x80 x3f)
(L (W xff xff xff xff xff xff xff xff))
(L (W xff xff xff xff xff xff xff xff)))
(T (W x52 x8e xfc xff x74 x00 x00 x00)
(L (W x00 x00 x80 xbf x00 x00 x80 xbf)) E))
(T (W xa1 x01 x00 x00 xff xff xff xff)
(T (W x00 x00 x00 x00 x00 x00 x00 x00)
(L (W xff xff xff xff xff xff xff xff)) E)
(T (W x00 x00 x00 x00 x00 x00 x00 x00)
(L (W x00 x00 x80 xbf x00 x00 x80 xbf)) E)))
(T (W x52 x4e xfa xff x74 x00 x00 x00)
(T (W x01 x00 x00 x00 x9c x00 x00 x00)
(T (W x00 x00 x80 x3f x00 x00 x80 x3f)
(L (W x45 x44 x00 x00 x00 x00 x00 x00))
(L (W x00 x00 x00 x00 x00 x00 x00 x00)))
(T (W x00 x00 x00 x00 x00 x00 x00 x00)
(L (W x00 x00 x00 x00 x00 x00 x00 x00)) E))
(T (W x00 x00 x80 x3f x00 x00 x80 x3f)
(T (W x00 x00 x00 x00 x00 x00 x00 x00)
(L (W x19 x00 x00 x00 x1c x00 x00 x00)) E)
(T (W x00 x00 x80 xbf x00 x00 x80 xbf)
(L (W x46 x53 x59 x53 x5f x4e x53 x5f)) E))))
(T (W xac x00 xfa xff x3c x00 x00 x00)
(T (W xff xff xff xff xff xff xff xff)
(T (W xff xff xff xff xff xff xff xff)
(T (W x50 x00 x00 x00 x44 x00 x00 x00)
(L (W x00 x00 x80 xbf x00 x00 x80 xbf))
(L (W x45 x44 x00 x00 x00 x00 x00 x00)))
(T (W x6c x00 x00 x00 xff xff xff xff)
(L (W x6c x00 x00 x00 x60 x00 x00 x00)) E))
(T (W x45 x26 x22 x84 xe4 x9c xf2 xcb)
(T (W x45 x26 x22 x84 xe4 x9c xf2 xcb)
(L (W x00 x00 x80 xbf x00 x00 x80 xbf)) E)
(T (W xff xff xff xff xff xff xff xff)
(L (W xff xff xff xff xc0 x00 x00 x00)) E)))
(T (W x00 x00 x80 x3f x00 x00 x80 x3f)
(T (W x24 xf3 xfa xff x00 x01 x01 x01)
(T (W xff xff xff xff xff xff xff xff)
(L (W x18 x00 x00 x00 x0c x00 x00 x00))
(L (W xff xff xff xff xb0 x00 x00 x00)))
(T (W x00 x00 x00 x00 x00 x00 x00 x00)
(L (W x00 x00 x80 xbf x00 x00 x80 xbf)) E))
(T (W x68 x00 x00 x00 x5c x00 x00 x00)
(T (W xff xff xff xff xff xff xff xff)
(L (W x00 x00 x00 x00 x00 x00 x00 x00)) E)
(T (W xfc xd9 xd9 x61 xf7 x64 xb9 x83)
(L (W x54 x00 x00 x00 x48 x00 x00 x00)) E)))))))
(T (W x18 x00 x00 x00 x0c x00 x00 x00)
(T (W x00 x00 x80 x3f x00 x00 x80 x3f)
(T (W x94 x29 x00 x00 x80 x28 x00 x00)
(T (W xff xff xff xff xff xff xff xff)
(T (W x68 x00 x00 x00 x5c x00 x00 x00)
(T (W xff xff xff xff xff xff xff xff)
(T (W x00 x00 x00 x00 x00 x00 x00 x00)
(L (W x00 x00 x00 x00 x00 x00 x00 x00))
(L (W x00 x00 x00 x00 x00 x00 x00 x00)))
(T (W x00 x00 x80 x3f x00 x00 x80 x3f)
(L (W xb0 x00 x00 x00 x64 x00 x00 x00)) E))
(T (W x04 x00 x00 x00 x42 xe8 xff xff)
(T (W x00 x00 x80 x3f x00 x00 x80 x3f)
(L (W x00 x00 x00 x00 x00 x00 x00 x00))
(L (W x74 x00 x0c x00 x00 x00 x00 x00)))
(T (W xff xff xff xff xff xff xff xff)
(L (W xff xff xff xff xff xff xff xff)) E)))
(T (W x45 x26 x22 x84 xe4 x9c xf2 xcb)
(T (W x00 x00 x80 x3f x00 x00 x80 x3f)
(T (W x54 x00 x00 x00 x48 x00 x00 x00)
(L (W x00 x00 x00 x00 x00 x00 x00 x00))
(L (W xff xff xff xff xa0 x00 x00 x00)))
(T (W x45 x26 x22 x84 xe4 x9c xf2 xcb)
(L (W x00 x00 x00 x00 x00 x00 x00 x00)) E))
(T (W x61 x64 x65 x72 x5f x77 x69 x6c)
(T (W x00 x00 x80 x3f x00 x00 x80 x3f)
(L (W x00 x00 x01 x01 x5c x00 x00 x00)) E)
(T (W x50 x00 x00 x00 x44 x00 x00 x00)
(L (W x00 x00 x80 xbf x00 x00 x80 xbf)) E))))
(T (W x68 x00 x00 x00 x5c x00 x00 x00)
(T (W x54 x23 xfa xff x3c x00 x00 x00)
(T (W x00 x00 x80 x3f x00 x00 x80 x3f)
(T (W x49 xa1 x68 x4a xeb x5f xdd x3d)
(L (W x00 x00 x80 xbf x00 x00 x80 xbf))
(L (W x45 x26 x22 x84 xe4 x9c xf2 xcb)))
(T (W x00 x00 x00 x00 x00 x00 x00 x00)
(L (W x2e x00 x00 x00 xff xff xff xff)) E))
(T (W x49 xa1 x68 x4a xeb x5f xdd x3d)
(T (W xff xff xff xff xff xff xff xff)
(L (W xff xff xff xff xb0 x00 x00 x00)) E)
(T (W xac x2c xfd xff x29 x00 x00 x00)
(L (W x00 x00 x00 x00 x00 x00 x00 x00)) E)))
(T (W x01 x00 x00 x00 x04 x00 x00 x00)
(T (W x00 x00 x00 x00 x00 x00 x00 x00)
(T (W x00 x00 x00 x00 x00 x00 x00 x00)
(L (W x18 x00 x00 x00 x10 x00 x00 x00))
(L (W xff xff xff xff xff xff xff xff)))
(T (W x00 x00 x00 x00 x00 x00 x00 x00)
(L (W x02 xdc xfe xff x78 x00 x00 x00)) E))
(T (W x00 x00 x80 x3f x00 x00 x80 x3f)
(T (W xff xff xff xff xff xff xff xff)
(L (W x45 x26 x22 x84 xe4 x9c xf2 xcb)) E)
(T (W x00 x00 x00 x00 x00 x00 x00 x00)
(L (W xff xff xff xff xff xff xff xff)) E)))))
(T (W xff xff xff xff x03 x00 x00 x00)
(T (W x00 x00 x00 x00 x00 x00 x00 x00)
(T (W x00 x00 x80 x3f x00 x00 x80 x3f)
(T (W xff xff xff xff xff xff xff xff)
(T (W x00 x00 x00 x00 x94 x8d xfb xff)
(L (W x00 x00 x00 x00 x00 x00 x00 x00))
(L (W x4f x84 x6f x8b xe8 xcb x63 xb7)))
(T (W x00 x00 x00 x00 x00 x00 x00 x00)
(L (W xff xff xff xff xff xff xff xff)) E))
(T (W x00 x00 x80 x3f x00 x00 x80 x3f)
(T (W x18 x00 x00 x00 x0c x00 x00 x00)
(L (W x00 x00 x80 xbf x00 x00 x80 xbf)) E)
(T (W x00 x00 x00 x00 x00 x00 x00 x00)
(L (W xff xff xff xff xff xff xff xff)) E)))
(T (W x00 x00 x00 x00 x00 x00 x00 x00)
(T (W x00 x00 x00 x00 x00 x00 x00 x00)
(T (W xff xff xff xff xff xff xff xff)
(L (W x00 x00 x80 xbf x00 x00 x80 xbf))
(L (W xff xff xff xff xff xff xff xff)))
(T (W x00 x00 x80 x3f x00 x00 x80 x3f)
(L (W x00 x00 x80 xbf x00 x00 x80 xbf)) E))
(T (W xff xff xff xff xff xff xff xff)
(T (W x18 x00 x00 x00 x10 x00 x00 x00)
(L (W x00 x00 x00 x00 x00 x00 x00 x00)) E)
(T (W xff xff xff xff xff xff xff xff)
(L (W xff xff xff xff xa0 x00 x00 x00)) E))))
(T (W x50 x00 x00 x00 x44 x00 x00 x00)
(T (W x00 x00 x00 x00 x00 x00 x00 x00)
(T (W x00 x00 x80 x3f x00 x00 x80 x3f)
(T (W xff xff xff xff xff xff xff xff)
(L (W x00 x00 x00 x00 x00 x00 x00 x00))
(L (W x00 x00 x80 xbf x00 x00 x80 xbf)))
(T (W x50 x00 x00 x00 x44 x00 x00 x00)
(L (W x46 x53 x59 x53 x5f x4e x53 x5f)) E))
(T (W xd4 x00 x00 x00 xc8 x00 x00 x00)
(T (W x6b x65 x5f x6c x76 x31 x00 x00)
(L (W xff xff xff xff xff xff xff xff)) E)
(T (W x00 x00 x00 x00 x00 x00 x00 x00)
(L (W x45 x26 x22 x84 xe4 x9c xf2 xcb)) E)))
(T (W xff xff xff xff xff xff xff xff)
(T (W x3a xfd xfd xff x36 x00 x00 x00)
(T (W x00 x00 x00 x00 x00 x00 x00 x00)
(L (W x00 x00 x00 x00 x00 x00 x00 x00))
(L (W x00 x00 x00 x00 x00 x00 x00 x00)))
(T (W x00 x00 x00 x00 x00 x00 x00 x00)
(L (W xff xff xff xff xff xff xff xff)) E))
(T (W xff xff xff xff xff xff xff xff)
(T (W x00 x00 x80 x3f x00 x00 x80 x3f)
(L (W x17 x00 x00 x00 x1a x00 x00 x00)) E)
(T (W x00 x00 x80 xbf x00 x00 x80 xbf)
(L (W xff xff xff xff xff xff xff xff)) E))))))
(T (W x00 x00 x00 x00 x42 x30 xfd xff)
(T (W x00 x00 x00 x00 x00 x00 x00 x00)
(T (W x00 x00 x80 x3f x00 x00 x80 x3f)
(T (W x02 x04 xfa xff x78 x00 x00 x00)
(T (W xff xff xff xff xff xff xff xff)
(T (W x00 x00 x80 x3f x00 x00 x80 x3f)
(L (W x00 x00 x00 x00 x00 x00 x00 x00))
(L (W x00 x00 x00 x00 x00 x00 x00 x00)))
(T (W x00 x00 x00 x00 x00 x00 x00 x00)
(L (W xff xff xff xff xff xff xff xff)) E))
(T (W x4f x84 x6f x8b xe8 xcb x63 xb7)
(T (W x45 x26 x22 x84 xe4 x9c xf2 xcb)
(L (W x45 x26 x22 x84 xe4 x9c xf2 xcb)) E)
(T (W xff xff xff xff xff xff xff xff)
(L (W xff xff xff xff xff xff xff xff)) E)))
(T (W x00 x00 x00 x00 x00 x00 x00 x00)
(T (W x00 x00 x00 x00 x00 x00 x00 x00)
(T (W xff xff xff xff xff xff xff xff)
(L (W x00 x00 x80 xbf x00 x00 x80 xbf))
(L (W xc4 x00 x00 x00 x02 x00 x00 x00)))
(T (W x00 x00 x00 x00 x00 x00 x00 x00)
(L (W x00 x00 x80 xbf x00 x00 x80 xbf)) E))
(T (W x00 x00 x80 x3f x00 x00 x80 x3f)
(T (W x00 x00 x80 x3f x00 x00 x80 x3f)
(L (W x00 x00 x00 x00 x00 x00 x00 x00)) E)
(T (W x03 x00 x00 x00 xd0 x00 x00 x00)
(L (W x02 x44 xff xff x78 x00 x00 x00)) E))))
(T (W x68 x00 x00 x00 x5c x00 x00 x00)
(T (W x45 x26 x22 x84 xe4 x9c xf2 xcb)
(T (W x45 x26 x22 x84 xe4 x9c xf2 xcb)
(T (W x52 xa2 xfb xff x74 x00 x00 x00)
(L (W xff xff xff xff xbc x00 x00 x00))
(L (W x00 x00 x00 x00 x00 x00 x00 x00)))
(T (W x00 x00 x80 x3f x00 x00 x80 x3f)
(L (W x00 x00 x00 x00 x00 x00 x00 x00)) E))
(T (W x00 x00 x80 x3f x00 x00 x80 x3f)
(T (W xff xff xff xff xff xff xff xff)
(L (W x45 x26 x22 x84 xe4 x9c xf2 xcb)) E)
(T (W x45 x44 x00 x00 x00 x00 x00 x00)
(L (W x00 x00 x00 x00 x00 x00 x00 x00)) E)))
(T (W xff xff xff xff xff xff xff xff)
(T (W xb7 xbd x38 x75 x73 xb5 xfc xcf)
(T (W x00 x00 x00 x00 x00 x00 x00 x00)
(L (W xff xff xff xff xb0 x00 x00 x00))
(L (W xff xff xff xff xff xff xff xff)))
(T (W xff xff xff xff xff xff xff xff)
(L (W x15 x00 x00 x00 x18 x00 x00 x00)) E))
(T (W x21 x00 x00 x00 x24 x00 x00 x00)
(T (W x5c x00 x00 x00 x00 x00 x00 x00)
(L (W x02 x64 xfe xff x78 x00 x00 x00)) E)
(T (W x00 x00 x00 x00 x00 x00 x00 x00)
(L (W xff xff xff xff xff xff xff xff)) E)))))
(T (W x45 x26 x22 x84 xe4 x9c xf2 xcb)
(T (W x45 x26 x22 x84 xe4 x9c xf2 xcb)
(T (W xff xff xff xff xff xff xff xff)
(T (W xff xff xff xff xff xff xff xff)
(T (W x9f x01 x00 x00 xff xff xff xff)
(L (W x00 x00 x80 xbf x00 x00 x80 xbf))
(L (W x00 x00 x80 xbf x00 x00 x80 xbf)))
(T (W x18 x01 x00 x00 x04 x00 x00 x00)
(L (W xff xff xff xff xff xff xff xff)) E))
(T (W x5c x00 x60 x00 x64 x00 x00 x00)
(T (W xff xff xff xff xff xff xff xff)
(L (W x02 x14 xfe xff x78 x00 x00 x00)) E)
(T (W x00 x00 x00 x00 x01 x00 x00 x00)
(L (W x00 x00 x00 x00 x00 x00 x00 x00)) E)))
(T (W x54 x5b xfa xff x1d x00 x00 x00)
(T (W x00 x00 x00 x00 x00 x00 x00 x00)
(T (W xff xff xff xff xff xff xff xff)
(L (W x02 xd4 xfd xff x78 x00 x00 x00))
(L (W xff xff xff xff xff xff xff xff)))
(T (W x45 x44 x00 x00 x00 x00 x00 x00)
(L (W x6c x00 x00 x00 x60 x00 x00 x00)) E))
(T (W x14 x00 x00 x00 x10 x00 x00 x00)
(T (W xff xff xff xff x03 x00 x00 x00)
(L (W x49 xa1 x68 x4a xeb x5f xdd x3d)) E)
(T (W x00 x00 x00 x00 x00 x00 x00 x00)
(L (W xff xff xff xff xff xff xff xff)) E))))
(T (W x00 x00 x80 x3f x00 x00 x80 x3f)
(T (W x00 x00 x00 x00 x00 x00 x00 x00)
(T (W x00 x00 x80 x3f x00 x00 x80 x3f)
(T (W x00 x00 x00 x00 x00 x00 x00 x00)
(L (W xff xff xff xff x9c x00 x00 x00))
(L (W x00 x00 x80 xbf x00 x00 x80 xbf)))
(T (W x45 x26 x22 x84 xe4 x9c xf2 xcb)
(L (W x00 x00 x00 x00 x00 x00 x00 x00)) E))
(T (W xff xff xff xff xff xff xff xff)
(T (W x00 x00 x80 x3f x00 x00 x80 x3f)
(L (W xff xff xff xff xff xff xff xff)) E)
(T (W x00 x00 x80 xbf x00 x00 x80 xbf)
(L (W x00 x00 x80 xbf x00 x00 x80 xbf)) E)))
(T (W xff xff xff xff xff xff xff xff)
(T (W x00 x00 x80 x3f x00 x00 x80 x3f)
(T (W x00 x00 x00 x00 x00 x00 x00 x00)
(L (W x00 x00 x00 x00 x00 x00 x00 x00))
(L (W x00 x00 x00 x00 x00 x00 x00 x00)))
(T (W xff xff xff xff xff xff xff xff)
(L (W xff xff xff xff xff xff xff xff)) E))
(T (W x00 x00 x00 x00 x00 x00 x00 x00)
(T (W x00 x00 x00 x00 x00 x00 x00 x00)
(L (W xff xff xff xff xff xff xff xff)) E)
(T (W x00 x00 x80 xbf x00 x00 x80 xbf)
(L (W xff xff xff xff xff xff xff xff)) E))))))))
(T (W x00 x00 x00 x00 x00 x00 x00 x00)
(T (W x00 x00 x80 x3f x00 x00 x80 x3f)
(T (W x00 x00 x00 x00 x00 x00 x00 x00)
(T (W x68 x00 x00 x00 x5c x00 x00 x00)
(T (W xff xff xff xff xff xff xff xff)
(T (W x45 x26 x22 x84 xe4 x9c xf2 xcb)
(T (W x45 x26 x22 x84 xe4 x9c xf2 xcb)
(T (W x2c x01 x00 x00 x04 x00 x00 x00)
(L (W x00 x00 x00 x00 x00 x00 x00 x00))
(L (W xff xff xff xff xff xff xff xff)))
(T (W x00 x00 x00 x00 x00 x00 x00 x00)
(L (W x54 x00 x00 x00 x48 x00 x00 x00)) E))
(T (W x02 xfa xfa xff x78 x00 x00 x00)
(T (W x00 x00 x00 x00 x00 x00 x00 x00)
(L (W x00 x00 x00 x00 x82 xff xfd xff))
(L (W x00 x00 x80 xbf x00 x00 x80 xbf)))
(T (W x45 x26 x22 x84 xe4 x9c xf2 xcb)
(L (W x02 xfa xfe xff x78 x00 x00 x00)) E)))
(T (W xff xff xff xff xff xff xff xff)
(T (W x00 x00 x00 x00 x00 x00 x00 x00)
(T (W x00 x00 x00 x00 x00 x00 x00 x00)
(L (W x00 x00 x00 x00 x00 x00 x00 x00))
(L (W x00 x00 x00 x00 x00 x00 x00 x00)))
(T (W x00 x00 x00 x00 x00 x00 x00 x00)
(L (W x00 x00 x00 x00 x00 x00 x00 x00)) E))
(T (W xff xff xff xff x03 x00 x00 x00)
(T (W x00 x00 x00 x00 x00 x00 x00 x00)
(L (W x03 x00 x00 x00 xd8 x00 x00 x00)) E)
(T (W x00 x00 x00 x00 x00 x00 x00 x00)
(L (W xac x4a xff xff x15 x00 x00 x00)) E))))
(T (W x00 x00 x00 x00 x00 x00 x00 x00)
(T (W x45 x26 x22 x84 xe4 x9c xf2 xcb)
(T (W x00 x00 x00 x00 x00 x00 x00 x00)
(T (W xff xff xff xff xff xff xff xff)
(L (W x12 x00 x00 x00 x46 x53 x59 x53))
(L (W x00 x00 x00 x00 x00 x00 x00 x00)))
(T (W x00 x00 x00 x00 x94 x9b xfc xff)
(L (W xff xff xff xff xc8 x00 x00 x00)) E))
(T (W x00 x00 x00 x00 x82 x1f xfb xff)
(T (W x24 x1d xfc xff x00 x01 x01 x01)
(L (W x00 x00 x00 x00 x00 x00 x00 x00)) E)
(T (W xff xff xff xff x9c x00 x00 x00)
(L (W xff xff xff xff xff xff xff xff)) E)))
(T (W x64 x00 x00 x00 x9c x00 x00 x00)
(T (W xff xff xff xff xff xff xff xff)
(T (W xff xff xff xff xff xff xff xff)
(L (W x45 x26 x22 x84 xe4 x9c xf2 xcb))
(L (W xff xff xff xff xa0 x00 x00 x00)))
(T (W xff xff xff xff xff xff xff xff)
(L (W x49 xa1 x68 x4a xeb x5f xdd x3d)) E))
(T (W xff xff xff xff xff xff xff xff)
(T (W x00 x00 x80 x3f x00 x00 x80 x3f)
(L (W x00 x00 x00 x00 x00 x00 x00 x00)) E)
(T (W xff xff xff xff xff xff xff xff)
(L (W x00 x00 x80 xbf x00 x00 x80 xbf)) E)))))
(T (W x24 xad xf9 xff x00 x01 x01 x01)
(T (W xff xff xff xff xff xff xff xff)
(T (W x00 x00 x00 x00 x00 x00 x00 x00)
(T (W x68 x00 x00 x00 x5c x00 x00 x00)
(T (W x00 x00 x80 x3f x00 x00 x80 x3f)
(L (W x0a xea xff xff x00 x00 x01 x01))
(L (W x6c x00 x00 x00 xff xff xff xff)))
(T (W xff xff xff xff xff xff xff xff)
(L (W x68 x00 x00 x00 x5c x00 x00 x00)) E))
(T (W x00 x00 x00 x00 x00 x00 x00 x00)
(T (W x00 x00 x80 x3f x00 x00 x80 x3f)
(L (W x00 x00 x00 x00 x00 x00 x00 x00)) E)
(T (W xff xff xff xff xff xff xff xff)
(L (W xff xff xff xff xff xff xff xff)) E)))
(T (W xff xff xff xff xff xff xff xff)
(T (W x5f x00 x00 x00 xff xff xff xff)
(T (W x00 x00 x80 x3f x00 x00 x80 x3f)
(L (W x00 x00 x00 x00 x00 x00 x00 x00))
(L (W x02 xca xff xff x78 x00 x00 x00)))
(T (W x18 x00 x00 x00 x10 x00 x00 x00)
(L (W x00 x00 x00 x00 x00 x00 x00 x00)) E))
(T (W x00 x00 x80 x3f x00 x00 x80 x3f)
(T (W x00 x00 x00 x00 x00 x00 x00 x00)
(L (W xff xff xff xff xff xff xff xff)) E)
(T (W x00 x00 x80 xbf x00 x00 x80 xbf)
(L (W x00 x00 x00 x00 x00 x00 x00 x00)) E))))
(T (W x45 x26 x22 x84 xe4 x9c xf2 xcb)
(T (W xff xff xff xff xff xff xff xff)
(T (W x00 x00 x00 x00 x00 x00 x00 x00)
(T (W x24 xad xfb xff x00 x01 x01 x01)
(L (W x00 x00 x00 x00 x00 x00 x00 x00))
(L (W x45 x26 x22 x84 xe4 x9c xf2 xcb)))
(T (W x45 x26 x22 x84 xe4 x9c xf2 xcb)
(L (W xff xff xff xff xbc x00 x00 x00)) E))
(T (W x00 x00 x80 x3f x00 x00 x80 x3f)
(T (W x01 x00 x00 x00 x19 x00 x00 x00)
(L (W x00 x00 x80 xbf x00 x00 x80 xbf)) E)
(T (W x00 x00 x01 x01 x5c x00 x00 x00)
(L (W x54 x02 x00 x00 x38 x01 x00 x00)) E)))
(T (W xff xff xff xff xff xff xff xff)
(T (W xff xff xff xff xff xff xff xff)
(T (W x00 x00 x00 x00 x00 x00 x00 x00)
(L (W xff xff xff xff xff xff xff xff))
(L (W xff xff xff xff x9c x00 x00 x00)))
(T (W x00 x00 x00 x00 x00 x00 x00 x00)
(L (W x24 xed xfe xff x00 x01 x01 x01)) E))
(T (W x24 x6d xfb xff x00 x01 x01 x01)
(T (W x00 x00 x00 x00 x00 x00 x00 x00)
(L (W x00 x00 x00 x00 x00 x00 x00 x00)) E)
(T (W x00 x00 x00 x00 x00 x00 x00 x00)
(L (W x45 x26 x22 x84 xe4 x9c xf2 xcb)) E))))))
(T (W xff xff xff xff xff xff xff xff)
(T (W x00 x00 x00 x00 xca x3c xfd xff)
(T (W x00 x00 x80 x3f x00 x00 x80 x3f)
(T (W x00 x00 x00 x00 x00 x00 x00 x00)
(T (W x18 x00 x00 x00 x0c x00 x00 x00)
(T (W x00 x00 x00 x00 x00 x00 x00 x00)
(L (W xff xff xff xff xff xff xff xff))
(L (W xff xff xff xff xff xff xff xff)))
(T (W x18 x01 x00 x00 x04 x00 x00 x00)
(L (W x54 x00 x00 x00 x48 x00 x00 x00)) E))
(T (W xff xff xff xff xff xff xff xff)
(T (W x00 x00 x00 x00 x00 x00 x00 x00)
(L (W x00 x00 x00 x00 x00 x00 x00 x00))
(L (W x00 x00 x80 xbf x00 x00 x80 xbf)))
(T (W x00 x00 x00 x00 x00 x00 x00 x00)
(L (W xff xff xff xff xa0 x00 x00 x00)) E)))
(T (W x92 x01 x00 x00 xff xff xff xff)
(T (W xdf x6f xe3 xa1 x8a x08 x04 x32)
(T (W x00 x00 x80 x3f x00 x00 x80 x3f)
(L (W x00 x00 x00 x00 x00 x00 x00 x00))
(L (W x00 x00 x80 xbf x00 x00 x80 xbf)))
(T (W x2e x00 x00 x00 xff xff xff xff)
(L (W x1c x00 x00 x00 x0c x00 x00 x00)) E))
(T (W x30 x32 x5f x43 x4c x45 x41 x52)
(T (W x4f x84 x6f x8b xe8 xcb x63 xb7)
(L (W xff xff xff xff xff xff xff xff)) E)
(T (W x54 x00 x00 x00 x48 x00 x00 x00)
(L (W x49 xa1 x68 x4a xeb x5f xdd x3d)) E))))
(T (W x00 x00 x00 x00 x00 x00 x00 x00)
(T (W x01 x00 x00 x00 x04 x00 x00 x00)
(T (W x00 x00 x00 x00 x00 x00 x00 x00)
(T (W x00 x00 x00 x00 x00 x00 x00 x00)
(L (W x52 xa0 xfd xff x74 x00 x00 x00))
(L (W xff xff xff xff xff xff xff xff)))
(T (W x00 x00 x00 x00 x00 x00 x00 x00)
(L (W xff xff xff xff xff xff xff xff)) E))
(T (W x00 x00 x00 x00 x00 x00 x00 x00)
(T (W xff xff xff xff xc4 x00 x00 x00)
(L (W x00 x00 x80 xbf x00 x00 x80 xbf)) E)
(T (W xff xff xff xff xff xff xff xff)
(L (W x00 x00 x00 x00 x00 x00 x00 x00)) E)))
(T (W xff xff xff xff x03 x00 x00 x00)
(T (W xff xff xff xff xff xff xff xff)
(T (W xff xff xff xff xff xff xff xff)
(L (W x00 x00 x80 xbf x00 x00 x80 xbf))
(L (W xcc x00 x00 x00 x01 x00 x00 x00)))
(T (W x00 x00 x00 x00 x00 x00 x00 x00)
(L (W x00 x00 x80 xbf x00 x00 x80 xbf)) E))
(T (W x00 x00 x80 x3f x00 x00 x80 x3f)
(T (W x68 x00 x00 x00 x5c x00 x00 x00)
(L (W x00 x00 x00 x00 x12 x00 x00 x00)) E)
(T (W x00 x00 x00 x00 x00 x00 x00 x00)
(L (W x54 x00 x00 x00 x48 x00 x00 x00)) E)))))
(T (W x00 x00 x00 x00 x00 x00 x00 x00)
(T (W x00 x00 x80 x3f x00 x00 x80 x3f)
(T (W x52 x10 xfa xff x74 x00 x00 x00)
(T (W x00 x00 x80 x3f x00 x00 x80 x3f)
(T (W xff xff xff xff x03 x00 x00 x00)
(L (W x00 x00 x00 x00 x00 x00 x00 x00))
(L (W x00 x00 x00 x00 x00 x00 x00 x00)))
(T (W xff xff xff xff xff xff xff xff)
(L (W x03 x00 x00 x00 xd0 x00 x00 x00)) E))
(T (W x00 x00 x80 x3f x00 x00 x80 x3f)
(T (W x00 x00 x00 x00 x94 x13 xfc xff)
(L (W x00 x00 x00 x00 x00 x00 x00 x00)) E)
(T (W x18 x00 x00 x00 x0c x00 x00 x00)
(L (W x5d x00 x00 x00 xff xff xff xff)) E)))
(T (W xff xff xff xff xff xff xff xff)
(T (W xff xff xff xff xff xff xff xff)
(T (W x18 x00 x00 x00 x0c x00 x00 x00)
(L (W x49 xa1 x68 x4a xeb x5f xdd x3d))
(L (W x24 xd5 xff xff x00 x01 x01 x01)))
(T (W x18 x00 x00 x00 x10 x00 x00 x00)
(L (W x4f x84 x6f x8b xe8 xcb x63 xb7)) E))
(T (W x01 x00 x00 x00 xb0 x00 x00 x00)
(T (W x00 x00 x80 x3f x00 x00 x80 x3f)
(L (W xff xff xff xff xff xff xff xff)) E)
(T (W xff xff xff xff xff xff xff xff)
(L (W x6c x00 x00 x00 x60 x00 x00 x00)) E))))
(T (W x00 x00 x80 x3f x00 x00 x80 x3f)
(T (W xff xff xff xff xff xff xff xff)
(T (W x00 x00 x00 x00 x00 x00 x00 x00)
(T (W xff xff xff xff xff xff xff xff)
(L (W x52 xb0 xfd xff x74 x00 x00 x00))
(L (W x4f x84 x6f x8b xe8 xcb x63 xb7)))
(T (W x00 x00 x00 x00 x00 x00 x00 x00)
(L (W xff xff xff xff xff xff xff xff)) E))
(T (W x00 x00 x80 x3f x00 x00 x80 x3f)
(T (W xff xff xff xff xff xff xff xff)
(L (W x00 x00 x00 x00 x94 x33 xfe xff)) E)
(T (W x45 x44 x00 x00 x00 x00 x00 x00)
(L (W xd8 x00 x00 x00 xff xff xff xff)) E)))
(T (W xff xff xff xff xff xff xff xff)
(T (W x00 x00 x00 x00 x00 x00 x00 x00)
(T (W xb6 x01 x00 x00 xff xff xff xff)
(L (W xff xff xff xff xff xff xff xff))
(L (W xff xff xff xff xff xff xff xff)))
(T (W x00 x00 x80 x3f x00 x00 x80 x3f)
(L (W x00 x00 x00 x00 x94 xf3 xfe xff)) E))
(T (W xff xff xff xff xff xff xff xff)
(T (W x00 x00 x00 x00 x02 x00 x00 x00)
(L (W x00 x00 x80 xbf x00 x00 x80 xbf)) E)
(T (W x50 x00 x00 x00 x54 x00 x58 x00)
(L (W xcc x00 x00 x00 x01 x00 x00 x00)) E)))))))
(T (W xff xff xff xff xff xff xff xff)
(T (W x54 x00 x00 x00 x48 x00 x00 x00)
(T (W xbc x00 x00 x00 xb0 x00 x00 x00)
(T (W x00 x00 x00 x00 x00 x00 x00 x00)
(T (W xff xff xff xff xff xff xff xff)
(T (W x00 x00 x00 x00 x00 x00 x00 x00)
(T (W x18 x00 x00 x00 x10 x00 x00 x00)
(L (W x18 x00 x00 x00 x10 x00 x00 x00))
(L (W x00 x00 x80 xbf x00 x00 x80 xbf)))
(T (W x52 x7c xfc xff x74 x00 x00 x00)
(L (W x30 x32 x5f x43 x4c x45 x41 x52)) E))
(T (W x45 x26 x22 x84 xe4 x9c xf2 xcb)
(T (W xff xff xff xff xff xff xff xff)
(L (W x00 x00 x80 xbf x00 x00 x80 xbf))
(L (W x90 x01 x00 x00 xff xff xff xff)))
(T (W x00 x00 x00 x00 x00 x00 x00 x00)
(L (W x7e x99 x4a xdc x00 x64 x5c x2f)) E)))
(T (W x00 x00 x80 x3f x00 x00 x80 x3f)
(T (W x50 x00 x00 x00 x44 x00 x00 x00)
(T (W xff xff xff xff xff xff xff xff)
(L (W x45 x26 x22 x84 xe4 x9c xf2 xcb))
(L (W xff xff xff xff xff xff xff xff)))
(T (W x50 x00 x00 x00 x44 x00 x00 x00)
(L (W x6c x00 x00 x00 x60 x00 x00 x00)) E))
(T (W x45 x26 x22 x84 xe4 x9c xf2 xcb)
(T (W xff xff xff xff xc4 x00 x00 x00)
(L (W x00 x00 x00 x00 x00 x00 x00 x00)) E)
(T (W xff xff xff xff xff xff xff xff)
(L (W x18 x00 x00 x00 x10 x00 x00 x00)) E))))
(T (W xff xff xff xff xff xff xff xff)
(T (W x00 x00 x80 x3f x00 x00 x80 x3f)
(T (W xff xff xff xff x04 x00 x00 x00)
(T (W x45 x26 x22 x84 xe4 x9c xf2 xcb)
(L (W xc0 x00 x00 x00 x01 x00 x00 x00))
(L (W xff xff xff xff xff xff xff xff)))
(T (W x52 x9c xfc xff x74 x00 x00 x00)
(L (W x4f x84 x6f x8b xe8 xcb x63 xb7)) E))
(T (W x54 x00 x00 x00 x48 x00 x00 x00)
(T (W x00 x00 x00 x00 x00 x00 x00 x00)
(L (W xff xff xff xff xff xff xff xff)) E)
(T (W x00 x00 x80 xbf x00 x00 x80 xbf)
(L (W x00 x00 x80 xbf x00 x00 x80 xbf)) E)))
(T (W x45 x26 x22 x84 xe4 x9c xf2 xcb)
(T (W x00 x00 x80 x3f x00 x00 x80 x3f)
(T (W x00 x00 x80 x3f x00 x00 x80 x3f)
(L (W xff xff xff xff xff xff xff xff))
(L (W x30 x32 x5f x43 x4c x45 x41 x52)))
(T (W x00 x00 x80 x3f x00 x00 x80 x3f)
(L (W xff xff xff xff xff xff xff xff)) E))
(T (W xff xff xff xff x03 x00 x00 x00)
(T (W x00 x00 x00 x00 x00 x00 x00 x00)
(L (W xbc x00 x00 x00 x1e x00 x00 x00)) E)
(T (W x00 x00 x80 xbf x00 x00 x80 xbf)
(L (W x45 x44 x00 x00 x00 x00 x00 x00)) E)))))
(T (W xff xff xff xff xff xff xff xff)
(T (W x00 x00 x00 x00 x00 x00 x00 x00)
(T (W xd0 x00 x00 x00 xac x00 x00 x00)
(T (W x00 x00 x00 x00 x00 x00 x00 x00)
(T (W x45 x44 x00 x00 x00 x00 x00 x00)
(L (W x68 x00 x00 x00 x5c x00 x00 x00))
(L (W x19 x00 x00 x00 x1c x00 x00 x00)))
(T (W x00 x00 x80 x3f x00 x00 x80 x3f)
(L (W x00 x00 x00 x00 x00 x00 x00 x00)) E))
(T (W x18 x00 x00 x00 x10 x00 x00 x00)
(T (W x4b x00 x00 x00 xff xff xff xff)
(L (W xff xff xff xff xb0 x00 x00 x00)) E)
(T (W x01 x00 x00 x00 xff xff xff xff)
(L (W x00 x00 x00 x00 x00 x00 x00 x00)) E)))
(T (W x00 x00 x80 x3f x00 x00 x80 x3f)
(T (W x52 xcc xfa xff x74 x00 x00 x00)
(T (W x45 x44 x00 x00 x00 x00 x00 x00)
(L (W x18 x00 x00 x00 x10 x00 x00 x00))
(L (W x00 x00 x00 x00 x82 xd3 xff xff)))
(T (W x00 x00 x00 x00 x00 x00 x00 x00)
(L (W x00 x00 x00 x00 x94 xcf xfe xff)) E))
(T (W x00 x00 x00 x00 x12 x00 x00 x00)
(T (W xff xff xff xff xff xff xff xff)
(L (W x00 x00 x80 xbf x00 x00 x80 xbf)) E)
(T (W x45 x44 x00 x00 x00 x00 x00 x00)
(L (W xff xff xff xff xff xff xff xff)) E))))
(T (W xff xff xff xff xff xff xff xff)
(T (W x00 x00 x80 x3f x00 x00 x80 x3f)
(T (W x68 x00 x00 x00 x5c x00 x00 x00)
(T (W x00 x00 x00 x00 x00 x00 x00 x00)
(L (W x00 x00 x80 xbf x00 x00 x80 xbf))
(L (W xff xff xff xff x9c x00 x00 x00)))
(T (W xff xff xff xff x03 x00 x00 x00)
(L (W x00 x00 x80 xbf x00 x00 x80 xbf)) E))
(T (W x6b x65 x5f x77 x61 x72 x6c x69)
(T (W x00 x00 x80 x3f x00 x00 x80 x3f)
(L (W x00 x00 x00 x00 x00 x00 x00 x00)) E)
(T (W x00 x00 x80 xbf x00 x00 x80 xbf)
(L (W x54 x00 x00 x00 x48 x00 x00 x00)) E)))
(T (W x00 x00 x00 x00 x00 x00 x00 x00)
(T (W x00 x00 x00 x00 x00 x00 x00 x00)
(T (W x24 xf1 xfb xff x00 x01 x01 x01)
(L (W x00 x00 x00 x00 x00 x00 x00 x00))
(L (W x00 x00 x00 x00 x00 x00 x00 x00)))
(T (W x01 x00 x00 x00 xac x00 x00 x00)
(L (W x00 x00 x00 x00 x00 x00 x00 x00)) E))
(T (W x5f x77 x69 x6c x64 x5f x70 x6f)
(T (W x24 x71 xfc xff x00 x01 x01 x01)
(L (W xff xff xff xff xff xff xff xff)) E)
(T (W xff xff xff xff xff xff xff xff)
(L (W x4f x84 x6f x8b xe8 xcb x63 xb7)) E))))))
(T (W x00 x00 x00 x00 x00 x00 x00 x00)
(T (W x45 x26 x22 x84 xe4 x9c xf2 xcb)
(T (W x45 x26 x22 x84 xe4 x9c xf2 xcb)
(T (W xff xff xff xff xff xff xff xff)
(T (W x00 x00 x00 x00 x00 x00 x00 x00)
(T (W xff xff xff xff xff xff xff xff)
(L (W x00 x00 x80 xbf x00 x00 x80 xbf))
(L (W x6c x00 x00 x00 x60 x00 x00 x00)))
(T (W x00 x00 x80 x3f x00 x00 x80 x3f)
(L (W x00 x00 x00 x00 x00 x00 x00 x00)) E))
(T (W x18 x00 x00 x00 x0c x00 x00 x00)
(T (W xff xff xff xff xff xff xff xff)
(L (W x02 x06 xfe xff x78 x00 x00 x00)) E)
(T (W x00 x00 x00 x00 x00 x00 x00 x00)
(L (W x46 x53 x59 x53 x5f x4e x53 x5f)) E)))
(T (W x00 x00 x80 x3f x00 x00 x80 x3f)
(T (W x68 x00 x00 x00 x5c x00 x00 x00)
(T (W x00 x00 x00 x00 x00 x00 x00 x00)
(L (W x1c x00 x00 x00 x1f x00 x00 x00))
(L (W xff xff xff xff xff xff xff xff)))
(T (W xe2 x01 x00 x00 xff xff xff xff)
(L (W x68 x00 x00 x00 x5c x00 x00 x00)) E))
(T (W xff xff xff xff x03 x00 x00 x00)
(T (W xff xff xff xff xff xff xff xff)
(L (W x00 x00 x00 x00 x00 x00 x00 x00)) E)
(T (W xff xff xff xff xff xff xff xff)
(L (W xff xff xff xff xff xff xff xff)) E))))
(T (W xff xff xff xff xff xff xff xff)
(T (W x45 x26 x22 x84 xe4 x9c xf2 xcb)
(T (W x45 x26 x22 x84 xe4 x9c xf2 xcb)
(T (W xba xe7 xfd xff x9c x01 x00 x00)
(L (W xff xff xff xff xff xff xff xff))
(L (W x5c x00 x00 x00 x50 x00 x00 x00)))
(T (W x52 xa4 xfc xff x74 x00 x00 x00)
(L (W x00 x00 x80 xbf x00 x00 x80 xbf)) E))
(T (W x18 x00 x00 x00 x10 x00 x00 x00)
(T (W x49 xa1 x68 x4a xeb x5f xdd x3d)
(L (W x00 x00 x00 x00 x00 x00 x00 x00)) E)
(T (W x00 x00 x80 xbf x00 x00 x80 xbf)
(L (W x00 x00 x80 xbf x00 x00 x80 xbf)) E)))
(T (W x00 x00 x00 x00 x00 x00 x00 x00)
(T (W x45 x26 x22 x84 xe4 x9c xf2 xcb)
(T (W x00 x00 x80 x3f x00 x00 x80 x3f)
(L (W x6b x65 x5f x63 x6f x77 x61 x72))
(L (W x00 x00 x00 x00 x00 x00 x00 x00)))
(T (W x45 x26 x22 x84 xe4 x9c xf2 xcb)
(L (W xff xff xff xff xff xff xff xff)) E))
(T (W xff xff xff xff xff xff xff xff)
(T (W x45 x26 x22 x84 xe4 x9c xf2 xcb)
(L (W xff xff xff xff xff xff xff xff)) E)
(T (W x52 x64 xfd xff x74 x00 x00 x00)
(L (W x00 x00 x00 x00 x00 x00 x00 x00)) E)))))
(T (W x00 x00 x80 x3f x00 x00 x80 x3f)
(T (W xff xff xff xff xff xff xff xff)
(T (W x00 x00 x00 x00 x00 x00 x00 x00)
(T (W x00 x00 x80 x3f x00 x00 x80 x3f)
(T (W x00 x00 x00 x00 x00 x00 x00 x00)
(L (W x45 x26 x22 x84 xe4 x9c xf2 xcb))
(L (W xff xff xff xff xff xff xff xff)))
(T (W x00 x00 x00 x00 x00 x00 x00 x00)
(L (W x00 x00 x00 x00 x00 x00 x00 x00)) E))
(T (W x00 x00 x80 x3f x00 x00 x80 x3f)
(T (W xff xff xff xff xff xff xff xff)
(L (W xff xff xff xff xff xff xff xff)) E)
(T (W xff xff xff xff x94 x00 x00 x00)
(L (W x00 x00 x80 xbf x00 x00 x80 xbf)) E)))
(T (W x45 x26 x22 x84 xe4 x9c xf2 xcb)
(T (W x00 x00 x80 x3f x00 x00 x80 x3f)
(T (W x00 x00 x00 x00 x00 x00 x00 x00)
(L (W xff xff xff xff xff xff xff xff))
(L (W x00 x00 x00 x00 xf2 xd6 xff xff)))
(T (W x49 xa1 x68 x4a xeb x5f xdd x3d)
(L (W xff xff xff xff xff xff xff xff)) E))
(T (W x00 x00 x80 x3f x00 x00 x80 x3f)
(T (W x4a x00 x00 x00 xff xff xff xff)
(L (W x02 x56 xfe xff x78 x00 x00 x00)) E)
(T (W x45 x26 x22 x84 xe4 x9c xf2 xcb)
(L (W xff xff xff xff xff xff xff xff)) E))))
(T (W xff xff xff xff xff xff xff xff)
(T (W x00 x00 x80 x3f x00 x00 x80 x3f)
(T (W x00 x00 x80 x3f x00 x00 x80 x3f)
(T (W x02 xb6 xfb xff x78 x00 x00 x00)
(L (W xff xff xff xff xff xff xff xff))
(L (W xff xff xff xff xff xff xff xff)))
(T (W x68 x00 x00 x00 x5c x00 x00 x00)
(L (W x00 x00 x80 xbf x00 x00 x80 xbf)) E))
(T (W x00 x00 x00 x00 x00 x00 x00 x00)
(T (W x24 x39 xfc xff x00 x01 x01 x01)
(L (W x00 x00 x00 x00 x00 x00 x00 x00)) E)
(T (W xff xff xff xff xb0 x00 x00 x00)
(L (W x02 x36 xff xff x78 x00 x00 x00)) E)))
(T (W xac x86 xfa xff x3c x00 x00 x00)
(T (W x00 x00 x80 x3f x00 x00 x80 x3f)
(T (W xb8 x00 x00 x00 x28 x00 x00 x00)
(L (W x00 x00 x80 xbf x00 x00 x80 xbf))
(L (W x00 x00 x80 xbf x00 x00 x80 xbf)))
(T (W x2a xfd xff xff x8f x00 x00 x00)
(L (W x00 x00 x00 x00 x00 x00 x00 x00)) E))
(T (W x54 x00 x00 x00 x48 x00 x00 x00)
(T (W x00 x00 x00 x00 x94 x77 xfc xff)
(L (W x00 x00 x00 x00 x00 x00 x00 x00)) E)
(T (W x24 x79 xfd xff x00 x01 x01 x01)
(L (W x00 x00 x00 x00 x00 x00 x00 x00)) E)))))))))))
(T (W x68 x0c x05 x00 x7c x05 x05 x00)
(T (W xd8 xe7 x03 x00 x2c xe3 x03 x00)
(T (W x90 x32 x03 x00 x4c x30 x03 x00)
(T (W x90 x52 x01 x00 x44 x50 x01 x00)
(T (W x00 x00 x80 x3f x00 x00 x80 x3f)
(T (W x00 x00 x00 x00 x00 x00 x00 x00)
(T (W x54 x00 x00 x00 x48 x00 x00 x00)
(T (W xff xff xff xff xff xff xff xff)
(T (W x00 x00 x00 x00 x00 x00 x00 x00)
(T (W x00 x00 x80 x3f x00 x00 x80 x3f)
(T (W xff xff xff xff xff xff xff xff)
(L (W xff xff xff xff xff xff xff xff))
(L (W xcc x00 x00 x00 x01 x00 x00 x00)))
(T (W x18 x01 x00 x00 x04 x00 x00 x00)
(L (W x00 x00 x80 xbf x00 x00 x80 xbf)) E))
(T (W xff xff xff xff xff xff xff xff)
(T (W x00 x00 x00 x00 x00 x00 x00 x00)
(L (W xc4 x00 x00 x00 x02 x00 x00 x00))
(L (W x03 x00 x00 x00 xd0 x00 x00 x00)))
(T (W x45 x26 x22 x84 xe4 x9c xf2 xcb)
(L (W x54 x00 x00 x00 x48 x00 x00 x00)) E)))
(T (W xff xff xff xff x04 x00 x00 x00)
(T (W xff xff xff xff xff xff xff xff)
(T (W xff xff xff xff xff xff xff xff)
(L (W x00 x00 x00 x00 x00 x00 x00 x00))
(L (W x00 x00 x00 x00 x12 x00 x00 x00)))
(T (W x4b x00 x00 x00 xff xff xff xff)
(L (W x03 x00 x00 x00 xd8 x00 x00 x00)) E))
(T (W x12 x35 xfb xff x74 x00 x00 x00)
(T (W xff xff xff xff xff xff xff xff)
(L (W x54 x00 x00 x00 x48 x00 x00 x00)) E)
(T (W x00 x00 x00 x00 x00 x00 x00 x00)
(L (W xff xff xff xff xff xff xff xff)) E))))
(T (W x00 x00 x00 x00 x00 x00 x00 x00)
(T (W x45 x26 x22 x84 xe4 x9c xf2 xcb)
(T (W xff xff xff xff xff xff xff xff)
(T (W xc8 x00 x00 x00 xbc x00 x00 x00)
(L (W xc9 x00 x00 x00 xff xff xff xff))
(L (W x00 x00 x00 x00 x00 x00 x00 x00)))
(T (W x12 x95 xfc xff x74 x00 x00 x00)
(L (W x45 x26 x22 x84 xe4 x9c xf2 xcb)) E))
(T (W xc8 x00 x00 x00 xbc x00 x00 x00)
(T (W x00 x00 x00 x00 x00 x00 x00 x00)
(L (W x00 x00 x00 x00 x00 x00 x00 x00)) E)
(T (W x95 x50 x69 x12 x83 x72 x37 xc6)
(L (W xff xff xff xff xff xff xff xff)) E)))
(T (W xff xff xff xff x03 x00 x00 x00)
(T (W xff xff xff xff xff xff xff xff)
(T (W x2c x00 x00 x00 xb0 x00 x00 x00)
(L (W x46 x53 x59 x53 x5f x4e x53 x5f))
(L (W x00 x00 x80 xbf x00 x00 x80 xbf)))
(T (W xff xff xff xff xa0 x00 x00 x00)
(L (W x30 x32 x5f x43 x4c x45 x41 x52)) E))
(T (W xff xff xff xff xff xff xff xff)
(T (W x4f x84 x6f x8b xe8 xcb x63 xb7)
(L (W xff xff xff xff xff xff xff xff)) E)
(T (W x03 x00 x00 x00 xd8 x00 x00 x00)
(L (W x49 xa1 x68 x4a xeb x5f xdd x3d)) E)))))
(T (W x00 x00 x00 x00 x54 xa8 xf9 xff)
(T (W xff xff xff xff xff xff xff xff)
(T (W x00 x00 x00 x00 x00 x00 x00 x00)
(T (W x00 x00 x80 x3f x00 x00 x80 x3f)
(T (W x4f x84 x6f x8b xe8 xcb x63 xb7)
(L (W xff xff xff xff xff xff xff xff))
(L (W xff xff xff xff xff xff xff xff)))
(T (W xff xff xff xff xff xff xff xff)
(L (W x00 x00 x80 xbf x00 x00 x80 xbf)) E))
(T (W x32 x3a xfe xff x9d x01 x00 x00)
(T (W x00 x00 x00 x00 x00 x00 x00 x00)
(L (W xff xff xff xff xff xff xff xff)) E)
(T (W x68 x00 x00 x00 x5c x00 x00 x00)
(L (W x00 x00 x80 xbf x00 x00 x80 xbf)) E)))
(T (W xb8 x00 x00 x00 xac x00 x00 x00)
(T (W xff xff xff xff xff xff xff xff)
(T (W x00 x00 x80 x3f x00 x00 x80 x3f)
(L (W x00 x00 x00 x00 x00 x00 x00 x00))
(L (W x00 x00 x00 x00 x00 x00 x00 x00)))
(T (W xa7 xe0 x6f x20 x74 xc6 x41 x20)
(L (W x54 x02 x00 x00 x38 x01 x00 x00)) E))
(T (W x45 x44 x00 x00 x00 x00 x00 x00)
(T (W x00 x00 x00 x00 x00 x00 x00 x00)
(L (W x45 x26 x22 x84 xe4 x9c xf2 xcb)) E)
(T (W x00 x00 x00 x00 x00 x00 x00 x00)
(L (W x00 x00 x00 x00 x12 x00 x00 x00)) E))))
(T (W x00 x00 x00 x00 x00 x00 x00 x00)
(T (W xff xff xff xff xff xff xff xff)
(T (W x00 x00 x00 x00 x02 x00 x00 x00)
(T (W x45 x26 x22 x84 xe4 x9c xf2 xcb)
(L (W x00 x00 x00 x00 x00 x00 x00 x00))
(L (W xff xff xff xff xff xff xff xff)))
(T (W x7a xb9 xff xff x00 x00 x01 x01)
(L (W x18 x00 x00 x00 x0c x00 x00 x00)) E))
(T (W xea x79 x23 x82 xa4 xd9 x61 xf2)
(T (W xff xff xff xff x9c x00 x00 x00)
(L (W x00 x00 x80 xbf x00 x00 x80 xbf)) E)
(T (W xb0 x00 x00 x00 x64 x00 x00 x00)
(L (W xff xff xff xff xff xff xff xff)) E)))
(T (W x45 x26 x22 x84 xe4 x9c xf2 xcb)
(T (W xff xff xff xff x04 x00 x00 x00)
(T (W xff xff xff xff xff xff xff xff)
(L (W x45 x26 x22 x84 xe4 x9c xf2 xcb))
(L (W x54 x00 x00 x00 x48 x00 x00 x00)))
(T (W xff xff xff xff xff xff xff xff)
(L (W x45 x26 x22 x84 xe4 x9c xf2 xcb)) E))
(T (W x00 x00 x00 x00 x00 x00 x00 x00)
(T (W x00 x00 x00 x00 x02 x00 x00 x00)
(L (W x46 x53 x59 x53 x5f x4e x53 x5f)) E)
(T (W x00 x00 x01 x01 x53 x01 x00 x00)
(L (W x00 x00 x80 xbf x00 x00 x80 xbf)) E))))))
(T (W xff xff xff xff xff xff xff xff)
(T (W x00 x00 x00 x00 x02 x3b xfd xff)
(T (W x00 x00 x80 x3f x00 x00 x80 x3f)
(T (W x00 x00 x00 x00 x00 x00 x00 x00)
(T (W x00 x00 x80 x3f x00 x00 x80 x3f)
(T (W x10 x55 x8d x38 x56 xfe x72 x92)
(L (W xff xff xff xff xff xff xff xff))
(L (W xff xff xff xff xff xff xff xff)))
(T (W xff xff xff xff xff xff xff xff)
(L (W x00 x00 x80 xbf x00 x00 x80 xbf)) E))
(T (W xe4 x01 xfb xff x00 x01 x01 x01)
(T (W x00 x00 x00 x00 x12 x00 x00 x00)
(L (W xff xff xff xff xff xff xff xff))
(L (W x45 x26 x22 x84 xe4 x9c xf2 xcb)))
(T (W xff xff xff xff xff xff xff xff)
(L (W x54 x00 x00 x00 x48 x00 x00 x00)) E)))
(T (W x18 x00 x00 x00 x10 x00 x00 x00)
(T (W xff xff xff xff xff xff xff xff)
(T (W x00 x00 x00 x00 x00 x00 x00 x00)
(L (W xff xff xff xff xff xff xff xff))
(L (W x00 x00 x00 x00 x00 x00 x00 x00)))
(T (W xff xff xff xff xff xff xff xff)
(L (W xff xff xff xff xff xff xff xff)) E))
(T (W xff xff xff xff x03 x00 x00 x00)
(T (W x00 x00 x00 x00 x00 x00 x00 x00)
(L (W x54 x00 x00 x00 x48 x00 x00 x00)) E)
(T (W x00 x00 x00 x00 x00 x00 x00 x00)
(L (W xff xff xff xff xff xff xff xff)) E))))
(T (W x00 x00 x00 x00 x00 x00 x00 x00)
(T (W xff xff xff xff xff xff xff xff)
(T (W x00 x00 x00 x00 x00 x00 x00 x00)
(T (W x9f x01 x00 x00 xff xff xff xff)
(L (W x00 x00 x00 x00 x00 x00 x00 x00))
(L (W x00 x00 x00 x00 x12 x00 x00 x00)))
(T (W xff xff xff xff xff xff xff xff)
(L (W x45 x26 x22 x84 xe4 x9c xf2 xcb)) E))
(T (W xff xff xff xff xff xff xff xff)
(T (W x00 x00 x80 x3f x00 x00 x80 x3f)
(L (W x00 x00 x00 x00 x00 x00 x00 x00)) E)
(T (W x1c x00 x00 x00 x10 x00 x00 x00)
(L (W xff xff xff xff xff xff xff xff)) E)))
(T (W x00 x00 x00 x00 x54 x60 xfa xff)
(T (W xb8 x00 x00 x00 xac x00 x00 x00)
(T (W xb0 x00 x00 x00 x64 x00 x00 x00)
(L (W x00 x00 x00 x00 x00 x00 x00 x00))
(L (W x00 x00 x80 xbf x00 x00 x80 xbf)))
(T (W x03 x00 x00 x00 xd0 x00 x00 x00)
(L (W x46 x53 x59 x53 x5f x4e x53 x5f)) E))
(T (W x00 x00 x00 x00 x00 x00 x00 x00)
(T (W x00 x00 x80 x3f x00 x00 x80 x3f)
(L (W x00 x00 x00 x00 x00 x00 x00 x00)) E)
(T (W xff xff xff xff xff xff xff xff)
(L (W x00 x00 x80 xbf x00 x00 x80 xbf)) E)))))
(T (W x00 x00 x00 x00 x00 x00 x00 x00)
(T (W x54 x00 x00 x00 x48 x00 x00 x00)
(T (W x6f x6b x65 x5f x77 x61 x72 x6c)
(T (W x00 x00 x80 x3f x00 x00 x80 x3f)
(T (W x00 x00 x80 x3f x00 x00 x80 x3f)
(L (W xff xff xff xff xff xff xff xff))
(L (W x00 x00 x00 x00 x00 x00 x00 x00)))
(T (W x00 x00 x00 x00 x54 x90 xfc xff)
(L (W x6c x00 x00 x00 x60 x00 x00 x00)) E))
(T (W x88 xb7 xba x38 x99 xce xdf x1c)
(T (W x4f x84 x6f x8b xe8 xcb x63 xb7)
(L (W x00 x00 x00 x00 x00 x00 x00 x00)) E)
(T (W x45 x26 x22 x84 xe4 x9c xf2 xcb)
(L (W xc2 x0e xff xff x78 x00 x00 x00)) E)))
(T (W xc0 x00 x00 x00 xb4 x00 x00 x00)
(T (W xff xff xff xff xff xff xff xff)
(T (W x00 x00 x80 x3f x00 x00 x80 x3f)
(L (W x44 x0e xb3 x28 xbf xdf x60 x6a))
(L (W x00 x00 x80 xbf x00 x00 x80 xbf)))
(T (W x00 x00 x80 x3f x00 x00 x80 x3f)
(L (W x34 x09 x00 x00 x20 x08 x00 x00)) E))
(T (W x50 x00 x00 x00 x44 x00 x00 x00)
(T (W x00 x00 x00 x00 x00 x00 x00 x00)
(L (W xff xff xff xff xff xff xff xff)) E)
(T (W x68 x00 x00 x00 x5c x00 x00 x00)
(L (W x00 x00 x00 x00 x00 x00 x00 x00)) E))))
(T (W x00 x00 x00 x00 x00 x00 x00 x00)
(T (W xff xff xff xff xff xff xff xff)
(T (W xff xff xff xff xff xff xff xff)
(T (W x45 x26 x22 x84 xe4 x9c xf2 xcb)
(L (W x45 x26 x22 x84 xe4 x9c xf2 xcb))
(L (W x18 x00 x00 x00 x0c x00 x00 x00)))
(T (W x00 x00 x00 x00 x00 x00 x00 x00)
(L (W xff xff xff xff xa0 x00 x00 x00)) E))
(T (W x00 x00 x80 x3f x00 x00 x80 x3f)
(T (W xff xff xff xff x03 x00 x00 x00)
(L (W x00 x00 x80 xbf x00 x00 x80 xbf)) E)
(T (W xff xff xff xff xff xff xff xff)
(L (W xff xff xff xff xff xff xff xff)) E)))
(T (W x50 x00 x00 x00 x44 x00 x00 x00)
(T (W x45 x26 x22 x84 xe4 x9c xf2 xcb)
(T (W xff xff xff xff xff xff xff xff)
(L (W x12 xed xfd xff x74 x00 x00 x00))
(L (W x6c x00 x00 x00 x60 x00 x00 x00)))
(T (W x00 x00 x00 x00 x00 x00 x62 x00)
(L (W x00 x00 x80 xbf x00 x00 x80 xbf)) E))
(T (W x45 x26 x22 x84 xe4 x9c xf2 xcb)
(T (W xff xff xff xff xff xff xff xff)
(L (W x45 x26 x22 x84 xe4 x9c xf2 xcb)) E)
(T (W x30 x32 x5f x43 x4c x45 x41 x52)
(L (W x18 x00 x00 x00 x10 x00 x00 x00)) E)))))))
(T (W xff xff xff xff xff xff xff xff)
(T (W x00 x00 x80 x3f x00 x00 x80 x3f)
(T (W xff xff xff xff xff xff xff xff)
(T (W x00 x00 x00 x00 x00 x00 x00 x00)
(T (W xbc x00 x00 x00 xb0 x00 x00 x00)
(T (W x00 x00 x00 x00 x04 x00 x00 x00)
(T (W x00 x00 x80 x3f x00 x00 x80 x3f)
(L (W x00 x00 x80 xbf x00 x00 x80 xbf))
(L (W x00 x00 x00 x00 x00 x00 x00 x00)))
(T (W x00 x00 x80 x3f x00 x00 x80 x3f)
(L (W xff xff xff xff xff xff xff xff)) E))
(T (W xff xff xff xff xff xff xff xff)
(T (W x45 x26 x22 x84 xe4 x9c xf2 xcb)
(L (W x00 x00 x80 xbf x00 x00 x80 xbf))
(L (W x50 x00 x54 x00 x58 x00 x5c x00)))
(T (W xff xff xff xff xa0 x00 x00 x00)
(L (W xff xff xff xff xff xff xff xff)) E)))
(T (W x00 x00 x00 x00 x00 x00 x00 x00)
(T (W x00 x00 x80 x3f x00 x00 x80 x3f)
(T (W xe4 xbd xfb xff x00 x01 x01 x01)
(L (W x00 x00 x80 xbf x00 x00 x80 xbf))
(L (W x03 x00 x00 x00 xd8 x00 x00 x00)))
(T (W x45 x26 x22 x84 xe4 x9c xf2 xcb)
(L (W x00 x00 x80 xbf x00 x00 x80 xbf)) E))
(T (W x30 x32 x5f x43 x4c x45 x41 x52)
(T (W x00 x00 x80 x3f x00 x00 x80 x3f)
(L (W x30 x32 x5f x43 x4c x45 x41 x52)) E)
(T (W x45 x26 x22 x84 xe4 x9c xf2 xcb)
(L (W x6c x00 x00 x00 x60 x00 x00 x00)) E))))
(T (W x12 xd9 xf9 xff x74 x00 x00 x00)
(T (W xff xff xff xff xff xff xff xff)
(T (W x00 x00 x80 x3f x00 x00 x80 x3f)
(T (W x00 x00 x00 x00 x00 x00 x00 x00)
(L (W x50 x00 x00 x00 x44 x00 x00 x00))
(L (W x00 x00 x00 x00 x54 x9c xff xff)))
(T (W x70 x5f x6c x65 x61 x64 x65 x72)
(L (W x00 x00 x00 x00 x00 x00 x00 x00)) E))
(T (W x00 x00 x80 x3f x00 x00 x80 x3f)
(T (W xff xff xff xff xff xff xff xff)
(L (W x00 x00 x00 x00 x54 x1c xfe xff)) E)
(T (W x1e x00 x00 x00 x10 x00 x00 x00)
(L (W x4f x84 x6f x8b xe8 xcb x63 xb7)) E)))
(T (W x40 x00 x00 x00 x0c x00 x00 x00)
(T (W x00 x00 x00 x00 x00 x00 x00 x00)
(T (W x00 x00 x00 x00 x00 x00 x00 x00)
(L (W xff xff xff xff xff xff xff xff))
(L (W x00 x00 x01 x01 x5c x00 x00 x00)))
(T (W x00 x00 x00 x00 x00 x00 x00 x00)
(L (W xff xff xff xff xa0 x00 x00 x00)) E))
(T (W x00 x00 x00 x00 x00 x00 x00 x00)
(T (W xff xff xff xff xff xff xff xff)
(L (W x00 x00 x80 xbf x00 x00 x80 xbf)) E)
(T (W x00 x00 x00 x00 x00 x00 x00 x00)
(L (W xff xff xff xff xff xff xff xff)) E)))))
(T (W xff xff xff xff xff xff xff xff)
(T (W x00 x00 x00 x00 x00 x00 x00 x00)
(T (W x50 x00 x00 x00 x44 x00 x00 x00)
(T (W xd5 x01 x00 x00 xff xff xff xff)
(T (W x18 x00 x00 x00 xb0 x00 x00 x00)
(L (W x00 x00 x80 xbf x00 x00 x80 xbf))
(L (W x45 x26 x22 x84 xe4 x9c xf2 xcb)))
(T (W x00 x00 x00 x00 x00 x00 x00 x00)
(L (W x04 x00 x00 x00 xd2 x91 xfe xff)) E))
(T (W xc2 x0a xfb xff x78 x00 x00 x00)
(T (W xff xff xff xff xff xff xff xff)
(L (W x6c x00 x00 x00 x60 x00 x00 x00)) E)
(T (W x00 x00 x00 x00 x00 x00 x00 x00)
(L (W x30 x32 x5f x43 x4c x45 x41 x52)) E)))
(T (W x00 x00 x00 x00 x00 x00 x00 x00)
(T (W x45 x26 x22 x84 xe4 x9c xf2 xcb)
(T (W x4b x00 x00 x00 xff xff xff xff)
(L (W x00 x00 x80 xbf x00 x00 x80 xbf))
(L (W xff xff xff xff xff xff xff xff)))
(T (W x94 x04 x12 x3a xb1 x82 x66 xe3)
(L (W xc2 xca xfe xff x78 x00 x00 x00)) E))
(T (W xff xff xff xff xff xff xff xff)
(T (W xd4 x00 x00 x00 xc8 x00 x00 x00)
(L (W x4f x84 x6f x8b xe8 xcb x63 xb7)) E)
(T (W xff xff xff xff xff xff xff xff)
(L (W x03 x00 x00 x00 xd8 x00 x00 x00)) E))))
(T (W x68 x00 x00 x00 x5c x00 x00 x00)
(T (W x00 x00 x00 x00 x00 x00 x00 x00)
(T (W x50 x00 x00 x00 x44 x00 x00 x00)
(T (W xff xff xff xff xff xff xff xff)
(L (W x00 x00 x80 xbf x00 x00 x80 xbf))
(L (W xe4 xad xff xff x00 x01 x01 x01)))
(T (W x68 x00 x00 x00 x5c x00 x00 x00)
(L (W x00 x00 x00 x00 x00 x00 x00 x00)) E))
(T (W xff xff xff xff x9c x00 x00 x00)
(T (W x00 x00 x00 x00 x00 x00 x00 x00)
(L (W xff xff xff xff xff xff xff xff)) E)
(T (W x49 xa1 x68 x4a xeb x5f xdd x3d)
(L (W x00 x00 x80 xbf x00 x00 x80 xbf)) E)))
(T (W x00 x00 x00 x00 x00 x00 x00 x00)
(T (W x00 x00 x00 x00 x00 x00 x00 x00)
(T (W x00 x00 x80 x3f x00 x00 x80 x3f)
(L (W x00 x00 x00 x00 x00 x00 x00 x00))
(L (W x14 x00 x00 x00 x0c x00 x00 x00)))
(T (W x45 x26 x22 x84 xe4 x9c xf2 xcb)
(L (W xff xff xff xff xff xff xff xff)) E))
(T (W xff xff xff xff xff xff xff xff)
(T (W x00 x00 x80 x3f x00 x00 x80 x3f)
(L (W xff xff xff xff xff xff xff xff)) E)
(T (W x00 x00 x00 x00 x54 x6c xfd xff)
(L (W xff xff xff xff xff xff xff xff)) E))))))
(T (W x00 x00 x00 x00 x00 x00 x00 x00)
(T (W x45 x26 x22 x84 xe4 x9c xf2 xcb)
(T (W x45 x26 x22 x84 xe4 x9c xf2 xcb)
(T (W xe4 x05 xfa xff x00 x01 x01 x01)
(T (W xff xff xff xff xff xff xff xff)
(T (W x12 x81 xfb xff x74 x00 x00 x00)
(L (W x00 x00 x00 x00 x00 x00 x00 x00))
(L (W x00 x00 x00 x00 x00 x00 x00 x00)))
(T (W x00 x00 x80 x3f x00 x00 x80 x3f)
(L (W xff xff xff xff xff xff xff xff)) E))
(T (W x00 x00 x00 x00 x00 x00 x00 x00)
(T (W x01 x00 x00 x00 x21 x00 x00 x00)
(L (W x00 x00 x80 xbf x00 x00 x80 xbf)) E)
(T (W xb4 x00 x00 x00 x64 x00 x00 x00)
(L (W x00 x00 x01 x01 x2f x00 x00 x00)) E)))
(T (W x45 x26 x22 x84 xe4 x9c xf2 xcb)
(T (W x00 x00 x80 x3f x00 x00 x80 x3f)
(T (W xff xff xff xff xff xff xff xff)
(L (W xc2 xc2 xfd xff x78 x00 x00 x00))
(L (W x21 x00 x00 x00 x24 x00 x00 x00)))
(T (W x45 x26 x22 x84 xe4 x9c xf2 xcb)
(L (W x00 x00 x80 xbf x00 x00 x80 xbf)) E))
(T (W x00 x00 x80 x3f x00 x00 x80 x3f)
(T (W x18 x00 x00 x00 x10 x00 x00 x00)
(L (W x00 x00 x00 x00 x00 x00 x00 x00)) E)
(T (W xff xff xff xff xff xff xff xff)
(L (W xff xff xff xff xa0 x00 x00 x00)) E))))
(T (W xe4 xe5 xf9 xff x00 x01 x01 x01)
(T (W x00 x00 x80 x3f x00 x00 x80 x3f)
(T (W x00 x00 x80 x3f x00 x00 x80 x3f)
(T (W x01 x00 x00 x00 xb0 x00 x00 x00)
(L (W xff xff xff xff xff xff xff xff))
(L (W x00 x00 x00 x00 x00 x00 x00 x00)))
(T (W x68 x00 x00 x00 x5c x00 x00 x00)
(L (W x00 x00 x00 x00 x00 x00 x00 x00)) E))
(T (W xc2 x22 xfb xff x78 x00 x00 x00)
(T (W x00 x00 x00 x00 x00 x00 x00 x00)
(L (W x03 x00 x00 x00 xd0 x00 x00 x00)) E)
(T (W x00 x00 x00 x00 x00 x00 x00 x00)
(L (W x00 x00 x80 xbf x00 x00 x80 xbf)) E)))
(T (W x00 x00 x00 x00 x00 x00 x00 x00)
(T (W x00 x00 x00 x00 x00 x00 x00 x00)
(T (W x00 x00 x00 x00 x00 x00 x00 x00)
(L (W xff xff xff xff xff xff xff xff))
(L (W x45 x44 x00 x00 x00 x00 x00 x00)))
(T (W xff xff xff xff xff xff xff xff)
(L (W xff xff xff xff xff xff xff xff)) E))
(T (W xff xff xff xff xff xff xff xff)
(T (W xff xff xff xff xff xff xff xff)
(L (W x50 x00 x00 x00 x44 x00 x00 x00)) E)
(T (W x00 x00 x80 xbf x00 x00 x80 xbf)
(L (W xff xff xff xff xff xff xff xff)) E)))))
(T (W x00 x00 x80 x3f x00 x00 x80 x3f)
(T (W xff xff xff xff xff xff xff xff)
(T (W xff xff xff xff xff xff xff xff)
(T (W xff xff xff xff xff xff xff xff)
(T (W x30 x32 x5f x43 x4c x45 x41 x52)
(L (W x00 x00 x80 xbf x00 x00 x80 xbf))
(L (W x00 x00 x80 xbf x00 x00 x80 xbf)))
(T (W x00 x00 x00 x00 x00 x00 x00 x00)
(L (W x45 x44 x00 x00 x00 x00 x00 x00)) E))
(T (W xff xff xff xff xff xff xff xff)
(T (W xff xff xff xff xff xff xff xff)
(L (W x18 x00 x00 x00 x0c x00 x00 x00)) E)
(T (W x16 x48 x69 x12 x83 x6d x37 xc6)
(L (W x45 x26 x22 x84 xe4 x9c xf2 xcb)) E)))
(T (W x00 x00 x00 x00 x00 x00 x00 x00)
(T (W x00 x00 x00 x00 x00 x00 x00 x00)
(T (W x00 x00 x00 x00 xf2 xd1 xfb xff)
(L (W xff xff xff xff xa0 x00 x00 x00))
(L (W xff xff xff xff xff xff xff xff)))
(T (W x6c x76 x31 x00 x22 x00 x00 x00)
(L (W x18 x00 x00 x00 x10 x00 x00 x00)) E))
(T (W x00 x00 x00 x00 x00 x00 x00 x00)
(T (W xb0 x00 x00 x00 x64 x00 x00 x00)
(L (W x00 x00 x00 x00 x00 x00 x00 x00)) E)
(T (W x00 x00 x00 x00 x00 x00 x00 x00)
(L (W xff xff xff xff xff xff xff xff)) E))))
(T (W x18 x00 x00 x00 x0c x00 x00 x00)
(T (W x00 x00 x00 x00 x00 x00 x00 x00)
(T (W x68 x00 x00 x00 x5c x00 x00 x00)
(T (W x00 x00 x00 x00 x00 x00 x00 x00)
(L (W xff xff xff xff xff xff xff xff))
(L (W x45 x26 x22 x84 xe4 x9c xf2 xcb)))
(T (W x50 x00 x00 x00 x44 x00 x00 x00)
(L (W x00 x00 x00 x00 x00 x00 x00 x00)) E))
(T (W xa1 x01 x00 x00 xff xff xff xff)
(T (W x00 x00 x00 x00 x00 x00 x00 x00)
(L (W xff xff xff xff xff xff xff xff)) E)
(T (W x00 x00 x80 xbf x00 x00 x80 xbf)
(L (W x45 x26 x22 x84 xe4 x9c xf2 xcb)) E)))
(T (W x00 x00 x00 x00 x00 x00 x00 x00)
(T (W x12 xf1 xfa xff x74 x00 x00 x00)
(T (W x49 xa1 x68 x4a xeb x5f xdd x3d)
(L (W x00 x00 x00 x00 x00 x00 x00 x00))
(L (W x00 x00 x00 x00 x00 x00 x00 x00)))
(T (W xff xff xff xff xff xff xff xff)
(L (W xff xff xff xff xff xff xff xff)) E))
(T (W x00 x00 x00 x00 x00 x00 x00 x00)
(T (W x00 x00 x80 x3f x00 x00 x80 x3f)
(L (W xff xff xff xff xbc x00 x00 x00)) E)
(T (W x00 x00 x80 xbf x00 x00 x80 xbf)
(L (W x45 x44 x00 x00 x00 x00 x00 x00)) E))))))))
(T (W xfc x13 x00 x00 xe0 x12 x00 x00)
(T (W x45 x26 x22 x84 xe4 x9c xf2 xcb)
(T (W x45 x26 x22 x84 xe4 x9c xf2 xcb)
(T (W x64 x00 x00 x00 xa0 x00 x00 x00)
(T (W xff xff xff xff xff xff xff xff)
(T (W x00 x00 x80 x3f x00 x00 x80 x3f)
(T (W xff xff xff xff xff xff xff xff)
(T (W x00 x00 x00 x00 x00 x00 x00 x00)
(L (W x00 x00 x00 x00 x12 x00 x00 x00))
(L (W xff xff xff xff xff xff xff xff)))
(T (W x00 x00 x00 x00 x00 x00 x00 x00)
(L (W xe4 x7b xfe xff x00 x01 x01 x01)) E))
(T (W x6c x00 x00 x00 x60 x00 x00 x00)
(T (W x00 x00 x00 x00 x00 x00 x00 x00)
(L (W x94 x04 x00 x00 x80 x03 x00 x00))
(L (W x0e x00 x00 x00 x10 x00 x00 x00)))
(T (W x00 x00 x00 x00 x00 x00 x00 x00)
(L (W xb4 x00 x00 x00 x32 x00 x00 x00)) E)))
(T (W x40 x00 x00 x00 x10 x00 x00 x00)
(T (W x00 x00 x00 x00 x00 x00 x00 x00)
(T (W x00 x00 x00 x00 x00 x00 x00 x00)
(L (W x00 x00 x00 x00 x00 x00 x00 x00))
(L (W x00 x00 x80 xbf x00 x00 x80 xbf)))
(T (W x00 x00 x00 x00 x00 x00 x00 x00)
(L (W x1c x00 x00 x00 x0c x00 x00 x00)) E))
(T (W xff xff xff xff xbc x00 x00 x00)
(T (W x4f x84 x6f x8b xe8 xcb x63 xb7)
(L (W xb0 x00 x00 x00 x64 x00 x00 x00)) E)
(T (W x49 xa1 x68 x4a xeb x5f xdd x3d)
(L (W x46 x53 x59 x53 x5f x4e x53 x5f)) E))))
(T (W x00 x00 x00 x00 x00 x00 x00 x00)
(T (W x18 x00 x00 x00 x0c x00 x00 x00)
(T (W x00 x00 x80 x3f x00 x00 x80 x3f)
(T (W x2c x01 x00 x00 x04 x00 x00 x00)
(L (W x00 x00 x00 x00 x00 x00 x00 x00))
(L (W x00 x00 x80 xbf x00 x00 x80 xbf)))
(T (W xff xff xff xff xff xff xff xff)
(L (W xff xff xff xff xff xff xff xff)) E))
(T (W xdc x05 x00 x00 xb4 x04 x00 x00)
(T (W xff xff xff xff xc4 x00 x00 x00)
(L (W x00 x00 x80 xbf x00 x00 x80 xbf)) E)
(T (W x00 x00 x80 xbf x00 x00 x80 xbf)
(L (W x00 x00 x00 x00 x00 x00 x00 x00)) E)))
(T (W xff xff xff xff xff xff xff xff)
(T (W x7a xeb xfd xff x00 x00 x01 x01)
(T (W xff xff xff xff xff xff xff xff)
(L (W x00 x00 x80 xbf x00 x00 x80 xbf))
(L (W x03 x00 x00 x00 xd8 x00 x00 x00)))
(T (W xff xff xff xff xff xff xff xff)
(L (W x00 x00 x00 x00 x00 x00 x00 x00)) E))
(T (W x00 x00 x00 x00 x00 x00 x00 x00)
(T (W x00 x00 x80 x3f x00 x00 x80 x3f)
(L (W x00 x00 x00 x00 x12 x00 x00 x00)) E)
(T (W x00 x00 x01 x01 x53 x01 x00 x00)
(L (W x6c x00 x00 x00 x60 x00 x00 x00)) E)))))
(T (W xff xff xff xff xff xff xff xff)
(T (W x00 x00 x00 x00 x00 x00 x00 x00)
(T (W x45 x26 x22 x84 xe4 x9c xf2 xcb)
(T (W xe4 x8b xfa xff x00 x01 x01 x01)
(T (W x00 x00 x80 x3f x00 x00 x80 x3f)
(L (W x00 x00 x00 x00 x00 x00 x00 x00))
(L (W x00 x00 x00 x00 x00 x00 x00 x00)))
(T (W x18 x01 x00 x00 x04 x00 x00 x00)
(L (W x18 x00 x00 x00 x0c x00 x00 x00)) E))
(T (W x00 x00 x00 x00 x00 x00 x00 x00)
(T (W x00 x00 x80 x3f x00 x00 x80 x3f)
(L (W x00 x00 x00 x00 x00 x00 x00 x00)) E)
(T (W xff xff xff xff xff xff xff xff)
(L (W xff xff xff xff xff xff xff xff)) E)))
(T (W xff xff xff xff xff xff xff xff)
(T (W x01 x00 x00 x00 x04 x00 x00 x00)
(T (W x54 x00 x00 x00 x48 x00 x00 x00)
(L (W x00 x00 x00 x00 x00 x00 x00 x00))
(L (W x18 x00 x00 x00 x0c x00 x00 x00)))
(T (W x00 x00 x00 x00 x1d x00 x00 x00)
(L (W x45 x26 x22 x84 xe4 x9c xf2 xcb)) E))
(T (W x6c x00 x00 x00 x60 x00 x00 x00)
(T (W x00 x00 x80 x3f x00 x00 x80 x3f)
(L (W xff xff xff xff xff xff xff xff)) E)
(T (W xc2 x48 xfd xff x78 x00 x00 x00)
(L (W x00 x00 x80 xbf x00 x00 x80 xbf)) E))))
(T (W x00 x00 x80 x3f x00 x00 x80 x3f)
(T (W x00 x00 x00 x00 x00 x00 x00 x00)
(T (W x00 x00 x00 x00 x00 x00 x00 x00)
(T (W x45 x26 x22 x84 xe4 x9c xf2 xcb)
(L (W x45 x26 x22 x84 xe4 x9c xf2 xcb))
(L (W x00 x00 x80 xbf x00 x00 x80 xbf)))
(T (W x00 x00 x00 x00 x00 x00 x00 x00)
(L (W xff xff xff xff xff xff xff xff)) E))
(T (W x00 x00 x80 x3f x00 x00 x80 x3f)
(T (W xff xff xff xff xff xff xff xff)
(L (W xc2 x28 xfe xff x78 x00 x00 x00)) E)
(T (W x30 x32 x5f x43 x4c x45 x41 x52)
(L (W x00 x00 x00 x00 xf2 x27 xff xff)) E)))
(T (W xff xff xff xff xff xff xff xff)
(T (W x20 x01 x00 x00 x04 x00 x00 x00)
(T (W xb2 x18 x0d xe2 x46 xac xf1 x06)
(L (W xff xff xff xff xff xff xff xff))
(L (W x03 x00 x00 x00 xd8 x00 x00 x00)))
(T (W x22 x00 x00 x00 x67 x72 x6f x75)
(L (W x00 x00 x80 xbf x00 x00 x80 xbf)) E))
(T (W x45 x26 x22 x84 xe4 x9c xf2 xcb)
(T (W x00 x00 x00 x00 x00 x00 x00 x00)
(L (W x00 x00 x80 xbf x00 x00 x80 xbf)) E)
(T (W x00 x00 x00 x00 x00 x00 x00 x00)
(L (W x19 x00 x00 x00 x1c x00 x00 x00)) E))))))
(T (W x00 x00 x01 x01 xc9 x00 x00 x00)
(T (W x00 x00 x00 x00 x00 x00 x00 x00)
(T (W x00 x00 x80 x3f x00 x00 x80 x3f)
(T (W x00 x00 x00 x00 x00 x00 x00 x00)
(T (W x64 x00 x00 x00 x9c x00 x00 x00)
(T (W x00 x00 x80 x3f x00 x00 x80 x3f)
(L (W x00 x00 x00 x00 x00 x00 x00 x00))
(L (W x00 x00 x00 x00 xf2 x7f xff xff)))
(T (W x00 x00 x00 x00 x00 x00 x00 x00)
(L (W x18 x00 x00 x00 x10 x00 x00 x00)) E))
(T (W xff xff xff xff xff xff xff xff)
(T (W x00 x00 x80 x3f x00 x00 x80 x3f)
(L (W x00 x00 x00 x00 x00 x00 x00 x00))
(L (W x00 x00 x00 x00 x00 x00 x00 x00)))
(T (W x00 x00 x00 x00 x00 x00 x00 x00)
(L (W x03 x00 x00 x00 xd8 x00 x00 x00)) E)))
(T (W x7a x53 xfd xff x00 x00 x01 x01)
(T (W x6c xd1 xfa xff x3c x00 x00 x00)
(T (W x00 x00 x80 x3f x00 x00 x80 x3f)
(L (W x00 x00 x00 x00 x00 x00 x00 x00))
(L (W x00 x00 x80 xbf x00 x00 x80 xbf)))
(T (W x00 x00 x00 x00 x00 x00 x00 x00)
(L (W x30 x32 x5f x43 x4c x45 x41 x52)) E))
(T (W x6b x65 x5f x6c x76 x31 x00 x00)
(T (W x00 x00 x00 x00 x00 x00 x00 x00)
(L (W xff xff xff xff xff xff xff xff)) E)
(T (W x00 x00 x80 xbf x00 x00 x80 xbf)
(L (W x00 x00 x00 x00 x00 x00 x00 x00)) E))))
(T (W x00 x00 x80 x3f x00 x00 x80 x3f)
(T (W x40 x00 x00 x00 x0c x00 x00 x00)
(T (W x00 x00 x80 x3f x00 x00 x80 x3f)
(T (W x00 x00 x80 x3f x00 x00 x80 x3f)
(L (W x18 x00 x00 x00 x0c x00 x00 x00))
(L (W x1c x00 x00 x00 x10 x00 x00 x00)))
(T (W x45 x26 x22 x84 xe4 x9c xf2 xcb)
(L (W xff xff xff xff xff xff xff xff)) E))
(T (W x00 x00 x00 x00 x00 x00 x00 x00)
(T (W xff xff xff xff xff xff xff xff)
(L (W x54 x00 x00 x00 x48 x00 x00 x00)) E)
(T (W xff xff xff xff xff xff xff xff)
(L (W x00 x00 x00 x00 x00 x00 x00 x00)) E)))
(T (W xff xff xff xff xff xff xff xff)
(T (W x00 x00 x00 x00 x00 x00 x00 x00)
(T (W xff xff xff xff xff xff xff xff)
(L (W xc2 xe0 xfd xff x78 x00 x00 x00))
(L (W x18 x00 x00 x00 x10 x00 x00 x00)))
(T (W x00 x00 x00 x00 x14 x00 x00 x00)
(L (W x6c x00 x00 x00 x60 x00 x00 x00)) E))
(T (W x00 x00 x80 x3f x00 x00 x80 x3f)
(T (W x12 x5f xfc xff x74 x00 x00 x00)
(L (W x00 x00 x00 x00 x00 x00 x00 x00)) E)
(T (W x00 x00 x00 x00 x12 x00 x00 x00)
(L (W x18 x00 x00 x00 x10 x00 x00 x00)) E)))))
(T (W x00 x00 x80 x3f x00 x00 x80 x3f)
(T (W x18 x00 x00 x00 x0c x00 x00 x00)
(T (W x68 x00 x00 x00 x5c x00 x00 x00)
(T (W x50 x00 x00 x00 x44 x00 x00 x00)
(T (W xff xff xff xff xbc x00 x00 x00)
(L (W x12 x00 x00 x00 x46 x53 x59 x53))
(L (W x00 x00 x00 x00 x00 x00 x00 x00)))
(T (W xff xff xff xff xff xff xff xff)
(L (W xff xff xff xff xbc x00 x00 x00)) E))
(T (W x45 x26 x22 x84 xe4 x9c xf2 xcb)
(T (W x1c x00 x00 x00 xb0 x00 x00 x00)
(L (W x00 x00 x00 x00 x00 x00 x00 x00)) E)
(T (W xff xff xff xff x9c x00 x00 x00)
(L (W x54 x02 x00 x00 x38 x01 x00 x00)) E)))
(T (W xff xff xff xff xff xff xff xff)
(T (W xff xff xff xff xff xff xff xff)
(T (W xff xff xff xff xff xff xff xff)
(L (W x00 x00 x80 xbf x00 x00 x80 xbf))
(L (W x68 x00 x00 x00 x5c x00 x00 x00)))
(T (W xff xff xff xff xff xff xff xff)
(L (W x00 x00 x80 xbf x00 x00 x80 xbf)) E))
(T (W xff xff xff xff xff xff xff xff)
(T (W x68 x00 x00 x00 x5c x00 x00 x00)
(L (W x00 x00 x00 x00 xb2 x51 xfe xff)) E)
(T (W xff xff xff xff xff xff xff xff)
(L (W x00 x00 x80 xbf x00 x00 x80 xbf)) E))))
(T (W x54 x00 x00 x00 x48 x00 x00 x00)
(T (W x00 x00 x00 x00 x00 x00 x00 x00)
(T (W x00 x00 x00 x00 x00 x00 x00 x00)
(T (W xa1 x01 x00 x00 xff xff xff xff)
(L (W xff xff xff xff xbc x00 x00 x00))
(L (W x00 x00 x80 xbf x00 x00 x80 xbf)))
(T (W x45 x26 x22 x84 xe4 x9c xf2 xcb)
(L (W xff xff xff xff xff xff xff xff)) E))
(T (W xe4 x33 xfb xff x00 x01 x01 x01)
(T (W x00 x00 x00 x00 x02 x00 x00 x00)
(L (W xff xff xff xff xb0 x00 x00 x00)) E)
(T (W x00 x00 x00 x00 x00 x00 x00 x00)
(L (W x00 x00 x00 x00 x00 x00 x00 x00)) E)))
(T (W xff xff xff xff xff xff xff xff)
(T (W x18 x00 x1c x00 x20 x00 x24 x00)
(T (W x46 x53 x59 x53 x5f x4e x53 x5f)
(L (W x00 x00 x00 x00 x42 xf6 xfd xff))
(L (W x00 x00 x00 x00 x00 x00 x00 x00)))
(T (W x50 x00 x00 x00 x44 x00 x00 x00)
(L (W xff xff xff xff xb0 x00 x00 x00)) E))
(T (W xff xff xff xff xff xff xff xff)
(T (W x00 x00 x00 x00 x00 x00 x00 x00)
(L (W x6c x00 x00 x00 x60 x00 x00 x00)) E)
(T (W xff xff xff xff xff xff xff xff)
(L (W xff xff xff xff xff xff xff xff)) E)))))))
(T (W xff xff xff xff x14 x00 x00 x00)
(T (W x18 x00 x00 x00 x0c x00 x00 x00)
(T (W xff xff xff xff xff xff xff xff)
(T (W x00 x00 x00 x00 x00 x00 x00 x00)
(T (W x72 x05 xfd xff x00 x00 x01 x01)
(T (W x00 x00 x00 x00 x00 x00 x00 x00)
(T (W xff xff xff xff xff xff xff xff)
(L (W xcc x00 x00 x00 x01 x00 x00 x00))
(L (W x00 x00 x80 xbf x00 x00 x80 xbf)))
(T (W x00 x00 x00 x00 x54 x7e xfc xff)
(L (W x6c x8d xfe xff x15 x00 x00 x00)) E))
(T (W x00 x00 x80 x3f x00 x00 x80 x3f)
(T (W xff xff xff xff xff xff xff xff)
(L (W x6c x00 x00 x00 x60 x00 x00 x00))
(L (W xff xff xff xff xc0 x00 x00 x00)))
(T (W x00 x00 x00 x00 x00 x00 x00 x00)
(L (W x30 x32 x5f x43 x4c x45 x41 x52)) E)))
(T (W x12 x3b xfa xff x74 x00 x00 x00)
(T (W x3e x00 x00 x00 x9c x00 x00 x00)
(T (W xff xff xff xff xff xff xff xff)
(L (W x00 x00 x80 xbf x00 x00 x80 xbf))
(L (W x00 x00 x01 x01 x5c x00 x00 x00)))
(T (W x68 x00 x00 x00 x5c x00 x00 x00)
(L (W x68 x00 x00 x00 x5c x00 x00 x00)) E))
(T (W x00 x00 x80 x3f x00 x00 x80 x3f)
(T (W xff xff xff xff xff xff xff xff)
(L (W x49 xa1 x68 x4a xeb x5f xdd x3d)) E)
(T (W xff xff xff xff xff xff xff xff)
(L (W xff xff xff xff xff xff xff xff)) E))))
(T (W xff xff xff xff xff xff xff xff)
(T (W x50 x00 x00 x00 x44 x00 x00 x00)
(T (W xff xff xff xff xff xff xff xff)
(T (W x18 x00 x00 x00 x10 x00 x00 x00)
(L (W xff xff xff xff xff xff xff xff))
(L (W x5c x00 x00 x00 xff xff xff xff)))
(T (W x00 x00 x80 x3f x00 x00 x80 x3f)
(L (W x45 x26 x22 x84 xe4 x9c xf2 xcb)) E))
(T (W xff xff xff xff x9c x00 x00 x00)
(T (W x4f x84 x6f x8b xe8 xcb x63 xb7)
(L (W x00 x00 x00 x00 x00 x00 x00 x00)) E)
(T (W x44 x00 x00 x00 x00 x00 x80 xbf)
(L (W x54 x00 x00 x00 x48 x00 x00 x00)) E)))
(T (W x00 x00 x80 x3f x00 x00 x80 x3f)
(T (W x00 x00 x80 x3f x00 x00 x80 x3f)
(T (W x68 x00 x00 x00 x5c x00 x00 x00)
(L (W xff xff xff xff xff xff xff xff))
(L (W x00 x00 x00 x00 x00 x00 x00 x00)))
(T (W x54 x00 x00 x00 x48 x00 x00 x00)
(L (W xff xff xff xff xff xff xff xff)) E))
(T (W xff xff xff xff xc8 x00 x00 x00)
(T (W x00 x00 x00 x00 x00 x00 x00 x00)
(L (W xff xff xff xff xff xff xff xff)) E)
(T (W x00 x00 x00 x00 x54 x5e xfd xff)
(L (W x00 x00 x00 x00 x00 x00 x00 x00)) E)))))
(T (W x00 x00 x00 x00 x00 x00 x00 x00)
(T (W x00 x00 x80 x3f x00 x00 x80 x3f)
(T (W xff xff xff xff xff xff xff xff)
(T (W x00 x00 x00 x00 x00 x00 x00 x00)
(T (W x14 x94 xfb xff x10 x00 x00 x00)
(L (W x45 x26 x22 x84 xe4 x9c xf2 xcb))
(L (W x18 x00 x00 x00 x10 x00 x00 x00)))
(T (W x00 x00 x80 x3f x00 x00 x80 x3f)
(L (W x45 x26 x22 x84 xe4 x9c xf2 xcb)) E))
(T (W xff xff xff xff xff xff xff xff)
(T (W x00 x00 x00 x00 xf2 x0b xfc xff)
(L (W xff xff xff xff xff xff xff xff)) E)
(T (W x45 x26 x22 x84 xe4 x9c xf2 xcb)
(L (W x49 xa1 x68 x4a xeb x5f xdd x3d)) E)))
(T (W x00 x00 x80 x3f x00 x00 x80 x3f)
(T (W x68 x00 x00 x00 x5c x00 x00 x00)
(T (W x00 x00 x00 x00 x00 x00 x00 x00)
(L (W xcc x00 x00 x00 x02 x00 x00 x00))
(L (W x00 x00 x00 x00 x00 x00 x00 x00)))
(T (W x44 x00 x48 x00 x00 x00 x4c x00)
(L (W xff xff xff xff xff xff xff xff)) E))
(T (W x00 x00 x00 x00 x00 x00 x00 x00)
(T (W xff xff xff xff xff xff xff xff)
(L (W x6c x00 x00 x00 x60 x00 x00 x00)) E)
(T (W x00 x00 x00 x00 x00 x00 x00 x00)
(L (W x00 x00 x01 x01 x92 x01 x00 x00)) E))))
(T (W xff xff xff xff xff xff xff xff)
(T (W x45 x26 x22 x84 xe4 x9c xf2 xcb)
(T (W x00 x00 x00 x00 x54 xae xfa xff)
(T (W x4f x84 x6f x8b xe8 xcb x63 xb7)
(L (W x50 x00 x00 x00 x44 x00 x00 x00))
(L (W xff xff xff xff xff xff xff xff)))
(T (W xff xff xff xff xff xff xff xff)
(L (W x00 x00 x80 xbf x00 x00 x80 xbf)) E))
(T (W x45 x44 x00 x00 x00 x00 x00 x00)
(T (W x6c x00 x00 x00 x60 x00 x00 x00)
(L (W x00 x00 x00 x00 x00 x00 x00 x00)) E)
(T (W x6c x00 x00 x00 x60 x00 x00 x00)
(L (W x45 x26 x22 x84 xe4 x9c xf2 xcb)) E)))
(T (W x00 x00 x00 x00 x00 x00 x00 x00)
(T (W x45 x26 x22 x84 xe4 x9c xf2 xcb)
(T (W x68 x00 x00 x00 x5c x00 x00 x00)
(L (W x00 x00 x80 xbf x00 x00 x80 xbf))
(L (W x00 x00 x80 xbf x00 x00 x80 xbf)))
(T (W x50 x00 x00 x00 x44 x00 x00 x00)
(L (W x00 x00 x00 x00 x00 x00 x00 x00)) E))
(T (W x46 x53 x59 x53 x5f x4e x53 x5f)
(T (W x45 x26 x22 x84 xe4 x9c xf2 xcb)
(L (W x00 x00 x00 x00 xd2 x73 xfe xff)) E)
(T (W xff xff xff xff xff xff xff xff)
(L (W x00 x00 x00 x00 x00 x00 x00 x00)) E))))))
(T (W x00 x00 x80 x3f x00 x00 x80 x3f)
(T (W x00 x00 x80 x3f x00 x00 x80 x3f)
(T (W xff xff xff xff xff xff xff xff)
(T (W xff xff xff xff xff xff xff xff)
(T (W x45 x26 x22 x84 xe4 x9c xf2 xcb)
(T (W xff xff xff xff xff xff xff xff)
(L (W x68 x00 x00 x00 x5c x00 x00 x00))
(L (W x45 x26 x22 x84 xe4 x9c xf2 xcb)))
(T (W x12 x83 xfc xff x74 x00 x00 x00)
(L (W x00 x00 x00 x00 x00 x00 x00 x00)) E))
(T (W x18 x00 x00 x00 x10 x00 x00 x00)
(T (W xff xff xff xff xff xff xff xff)
(L (W x18 x00 x00 x00 x0c x00 x00 x00)) E)
(T (W x00 x00 x00 x00 x00 x00 x00 x00)
(L (W x00 x00 x00 x00 x00 x00 x00 x00)) E)))
(T (W xe4 x47 xfa xff x00 x01 x01 x01)
(T (W x01 x00 x00 x00 x3e x00 x00 x00)
(T (W x00 x00 x00 x00 x12 x00 x00 x00)
(L (W xff xff xff xff xff xff xff xff))
(L (W x00 x00 x00 x00 x00 x00 x00 x00)))
(T (W x50 x00 x00 x00 x44 x00 x00 x00)
(L (W x18 x00 x00 x00 x0c x00 x00 x00)) E))
(T (W xff xff xff xff xff xff xff xff)
(T (W xff xff xff xff xff xff xff xff)
(L (W x00 x00 x80 xbf x00 x00 x80 xbf)) E)
(T (W x45 x44 x00 x00 x00 x00 x00 x00)
(L (W xff xff xff xff xff xff xff xff)) E))))
(T (W xff xff xff xff x01 x00 x00 x00)
(T (W x00 x00 x00 x00 x54 x26 xfa xff)
(T (W x64 x00 x00 x00 x9c x00 x00 x00)
(T (W x13 x00 x00 x00 x0c x00 x00 x00)
(L (W x00 x00 x00 x00 x00 x00 x00 x00))
(L (W x54 x00 x00 x00 x48 x00 x00 x00)))
(T (W xff xff xff xff xff xff xff xff)
(L (W x00 x00 x80 xbf x00 x00 x80 xbf)) E))
(T (W xff xff xff xff xff xff xff xff)
(T (W x00 x00 x00 x00 x00 x00 x00 x00)
(L (W x06 x00 x00 x00 xc8 x05 x00 x00)) E)
(T (W x00 x00 x80 xbf x00 x00 x80 xbf)
(L (W x6c x00 x00 x00 x60 x00 x00 x00)) E)))
(T (W x00 x00 x00 x00 x00 x00 x00 x00)
(T (W x00 x00 x80 x3f x00 x00 x80 x3f)
(T (W xc2 xe4 xfb xff x78 x00 x00 x00)
(L (W x00 x00 x00 x00 x00 x00 x00 x00))
(L (W x4f x84 x6f x8b xe8 xcb x63 xb7)))
(T (W x00 x00 x00 x00 x00 x00 x00 x00)
(L (W x00 x00 x00 x00 xd2 xeb xfe xff)) E))
(T (W x7a x77 xfe xff x00 x00 x01 x01)
(T (W x00 x00 x80 x3f x00 x00 x80 x3f)
(L (W xff xff xff xff xff xff xff xff)) E)
(T (W xff xff xff xff xb0 x00 x00 x00)
(L (W x00 x00 x00 x00 x00 x00 x00 x00)) E)))))
(T (W x45 x26 x22 x84 xe4 x9c xf2 xcb)
(T (W xff xff xff xff xff xff xff xff)
(T (W x00 x00 x00 x00 x00 x00 x00 x00)
(T (W x00 x00 x00 x00 x00 x00 x00 x00)
(T (W x4f x84 x6f x8b xe8 xcb x63 xb7)
(L (W xc0 x00 x00 x00 x01 x00 x00 x00))
(L (W xff xff xff xff xff xff xff xff)))
(T (W x00 x00 x80 x3f x00 x00 x80 x3f)
(L (W x00 x00 x00 x00 x00 x00 x00 x00)) E))
(T (W x00 x00 x80 x3f x00 x00 x80 x3f)
(T (W x00 x00 x00 x00 x00 x00 x00 x00)
(L (W xff xff xff xff xff xff xff xff)) E)
(T (W x00 x00 x80 xbf x00 x00 x80 xbf)
(L (W xc2 x14 xff xff x78 x00 x00 x00)) E)))
(T (W x00 x00 x80 x3f x00 x00 x80 x3f)
(T (W xc2 xd4 xfa xff x78 x00 x00 x00)
(T (W x00 x00 x00 x00 x00 x00 x00 x00)
(L (W xff xff xff xff xff xff xff xff))
(L (W x00 x00 x00 x00 x12 x00 x00 x00)))
(T (W x00 x00 x80 x3f x00 x00 x80 x3f)
(L (W xff xff xff xff xff xff xff xff)) E))
(T (W x54 x00 x00 x00 x48 x00 x00 x00)
(T (W x30 x32 x5f x43 x4c x45 x41 x52)
(L (W xff xff xff xff xa0 x00 x00 x00)) E)
(T (W x00 x00 x80 xbf x00 x00 x80 xbf)
(L (W x30 x32 x5f x43 x4c x45 x41 x52)) E))))
(T (W xff xff xff xff xff xff xff xff)
(T (W x68 x00 x00 x00 x5c x00 x00 x00)
(T (W x18 x00 x00 x00 x0c x00 x00 x00)
(T (W x68 x00 x00 x00 x5c x00 x00 x00)
(L (W xff xff xff xff x0a x00 x00 x00))
(L (W xff xff xff xff xff xff xff xff)))
(T (W xff xff xff xff x03 x00 x00 x00)
(L (W x54 x00 x00 x00 x48 x00 x00 x00)) E))
(T (W x00 x00 x00 x00 x00 x00 x00 x00)
(T (W xff xff xff xff xc4 x00 x00 x00)
(L (W x00 x00 x00 x00 x00 x00 x00 x00)) E)
(T (W xb0 x00 x00 x00 x64 x00 x00 x00)
(L (W x1b x00 x00 x00 x1e x00 x00 x00)) E)))
(T (W x00 x00 x00 x00 x00 x00 x00 x00)
(T (W x01 x00 x00 x00 x9c x00 x00 x00)
(T (W xff xff xff xff xff xff xff xff)
(L (W x00 x00 x80 xbf x00 x00 x80 xbf))
(L (W x54 x00 x00 x00 x48 x00 x00 x00)))
(T (W x00 x00 x00 x00 x00 x00 x00 x00)
(L (W x00 x00 x00 x00 x00 x00 x00 x00)) E))
(T (W x00 x00 x80 x3f x00 x00 x80 x3f)
(T (W xff xff xff xff xff xff xff xff)
(L (W x00 x00 x00 x00 x12 x00 x00 x00)) E)
(T (W xbc x00 x00 x00 x1e x00 x00 x00)
(L (W x49 xa1 x68 x4a xeb x5f xdd x3d)) E)))))))))
(T (W xd0 x49 x02 x00 x74 x47 x02 x00)
(T (W x40 xbf x00 x00 xf4 xbc x00 x00)
(T (W x6c x00 x00 x00 x60 x00 x00 x00)
(T (W x00 x00 x00 x00 x00 x00 x00 x00)
(T (W xe4 x9a xf9 xff x00 x01 x01 x01)
(T (W xff xff xff xff xff xff xff xff)
(T (W x00 x00 x00 x00 x00 x00 x00 x00)
(T (W xe4 x7a xfa xff x00 x01 x01 x01)
(T (W xff xff xff xff xff xff xff xff)
(L (W x00 x00 x00 x00 xd2 x7e xfd xff))
(L (W xff xff xff xff xff xff xff xff)))
(T (W x00 x00 x00 x00 x00 x00 x00 x00)
(L (W x00 x00 x80 xbf x00 x00 x80 xbf)) E))
(T (W x6c x08 xfb xff x16 x00 x00 x00)
(T (W x46 x53 x59 x53 x5f x4e x53 x5f)
(L (W xff xff xff xff xff xff xff xff))
(L (W xff xff xff xff xff xff xff xff)))
(T (W xff xff xff xff xff xff xff xff)
(L (W xe4 xfa xfe xff x00 x01 x01 x01)) E)))
(T (W xff xff xff xff xff xff xff xff)
(T (W x01 x00 x00 x00 x04 x00 x00 x00)
(T (W x67 x72 x6f x75 x70 x5f x6c x65)
(L (W x00 x00 x00 x00 x00 x00 x00 x00))
(L (W x00 x00 x00 x00 x00 x00 x00 x00)))
(T (W x00 x00 x00 x00 x00 x00 x00 x00)
(L (W xff xff xff xff xff xff xff xff)) E))
(T (W x45 x26 x22 x84 xe4 x9c xf2 xcb)
(T (W x14 x3f xfc xff x15 x00 x00 x00)
(L (W xe4 x3a xfe xff x00 x01 x01 x01)) E)
(T (W x00 x00 x00 x00 x00 x00 x00 x00)
(L (W x00 x00 x01 x01 xd8 x00 x00 x00)) E))))
(T (W x00 x00 x00 x00 x00 x00 x00 x00)
(T (W x00 x00 x80 x3f x00 x00 x80 x3f)
(T (W x1c x00 x20 x00 x24 x00 x28 x00)
(T (W xff xff xff xff xff xff xff xff)
(L (W x4c x45 x41 x52 x45 x44 x00 x00))
(L (W x00 x00 x00 x00 x00 x00 x00 x00)))
(T (W x00 x00 x00 x00 x54 x99 xfc xff)
(L (W xff xff xff xff xc0 x00 x00 x00)) E))
(T (W xff xff xff xff xff xff xff xff)
(T (W x45 x26 x22 x84 xe4 x9c xf2 xcb)
(L (W x00 x00 x00 x00 x00 x00 x00 x00)) E)
(T (W x00 x00 x00 x00 x00 x00 x00 x00)
(L (W xff xff xff xff xff xff xff xff)) E)))
(T (W xff xff xff xff xff xff xff xff)
(T (W xff xff xff xff xff xff xff xff)
(T (W xff xff xff xff xff xff xff xff)
(L (W x00 x00 x00 x00 x00 x00 x00 x00))
(L (W x00 x00 x80 xbf x00 x00 x80 xbf)))
(T (W xff xff xff xff xff xff xff xff)
(L (W x00 x00 x00 x00 x00 x00 x00 x00)) E))
(T (W xa0 x01 x00 x00 xff xff xff xff)
(T (W x00 x00 x80 x3f x00 x00 x80 x3f)
(L (W x00 x00 x00 x00 xd2 x5e xfe xff)) E)
(T (W xff xff xff xff xff xff xff xff)
(L (W x00 x00 x80 xbf x00 x00 x80 xbf)) E)))))
(T (W x01 x00 x00 x00 xa0 x00 x00 x00)
(T (W x00 x00 x01 x01 xc9 x00 x00 x00)
(T (W x00 x00 x00 x00 x00 x00 x00 x00)
(T (W x00 x00 x80 x3f x00 x00 x80 x3f)
(T (W x00 x00 x80 x3f x00 x00 x80 x3f)
(L (W x16 x00 x00 x00 xff xff xff xff))
(L (W x5c x00 x00 x00 xff xff xff xff)))
(T (W xff xff xff xff xff xff xff xff)
(L (W xc2 x87 xfe xff x78 x00 x00 x00)) E))
(T (W x00 x00 x00 x00 x00 x00 x00 x00)
(T (W x49 xa1 x68 x4a xeb x5f xdd x3d)
(L (W x00 x00 x00 x00 xf2 x06 xfe xff)) E)
(T (W x03 x00 x00 x00 xbc x00 x00 x00)
(L (W x03 x00 x00 x00 xd8 x00 x00 x00)) E)))
(T (W xff xff xff xff xff xff xff xff)
(T (W xff xff xff xff xff xff xff xff)
(T (W x00 x00 x80 x3f x00 x00 x80 x3f)
(L (W x00 x00 x00 x00 x00 x00 x00 x00))
(L (W x00 x00 x80 xbf x00 x00 x80 xbf)))
(T (W x02 x00 x00 x00 xff xff xff xff)
(L (W x00 x00 x00 x00 x00 x00 x00 x00)) E))
(T (W x00 x00 x00 x00 x00 x00 x00 x00)
(T (W x45 x26 x22 x84 xe4 x9c xf2 xcb)
(L (W xcc x00 x00 x00 x02 x00 x00 x00)) E)
(T (W x00 x00 x80 xbf x00 x00 x80 xbf)
(L (W x45 x26 x22 x84 xe4 x9c xf2 xcb)) E))))
(T (W x00 x00 x80 x3f x00 x00 x80 x3f)
(T (W xb4 x01 x00 x00 xff xff xff xff)
(T (W x00 x00 x00 x00 x00 x00 x00 x00)
(T (W x50 x00 x00 x00 x44 x00 x00 x00)
(L (W x00 x00 x00 x00 x00 x00 x00 x00))
(L (W x00 x00 x00 x00 x00 x00 x00 x00)))
(T (W x00 x00 x00 x00 x00 x00 x00 x00)
(L (W xff xff xff xff xff xff xff xff)) E))
(T (W x00 x00 x00 x00 x00 x00 x00 x00)
(T (W xff xff xff xff x03 x00 x00 x00)
(L (W x00 x00 x80 xbf x00 x00 x80 xbf)) E)
(T (W xff xff xff xff xff xff xff xff)
(L (W xff xff xff xff xff xff xff xff)) E)))
(T (W x64 x00 x00 x00 x9c x00 x00 x00)
(T (W xff xff xff xff xff xff xff xff)
(T (W xff xff xff xff xff xff xff xff)
(L (W xff xff xff xff xc8 x00 x00 x00))
(L (W x18 x00 x00 x00 x10 x00 x00 x00)))
(T (W xff xff xff xff xff xff xff xff)
(L (W x00 x00 x80 xbf x00 x00 x80 xbf)) E))
(T (W x00 x00 x80 x3f x00 x00 x80 x3f)
(T (W x00 x00 x00 x00 x00 x00 x00 x00)
(L (W x00 x00 x00 x00 x00 x00 x00 x00)) E)
(T (W x30 x32 x5f x43 x4c x45 x41 x52)
(L (W x00 x00 x00 x00 x54 x69 xff xff)) E))))))
(T (W xff xff xff xff xff xff xff xff)
(T (W x00 x00 x00 x00 x00 x00 x00 x00)
(T (W x00 x00 x80 x3f x00 x00 x80 x3f)
(T (W x00 x00 x00 x00 x00 x00 x00 x00)
(T (W x50 x00 x00 x00 x44 x00 x00 x00)
(T (W x00 x00 x00 x00 x00 x00 x00 x00)
(L (W x45 x44 x00 x00 x00 x00 x00 x00))
(L (W xff xff xff xff xff xff xff xff)))
(T (W x18 x01 x00 x00 x04 x00 x00 x00)
(L (W x6c x00 x00 x00 x60 x00 x00 x00)) E))
(T (W xb0 x00 x00 x00 x64 x00 x00 x00)
(T (W x45 x26 x22 x84 xe4 x9c xf2 xcb)
(L (W x94 x04 x00 x00 x80 x03 x00 x00))
(L (W x03 x00 x00 x00 x08 x01 x00 x00)))
(T (W x1b x00 x00 x00 x10 x00 x00 x00)
(L (W x18 x00 x00 x00 x10 x00 x00 x00)) E)))
(T (W xff xff xff xff xff xff xff xff)
(T (W xff xff xff xff xff xff xff xff)
(T (W x00 x00 x80 x3f x00 x00 x80 x3f)
(L (W xc9 x00 x00 x00 xff xff xff xff))
(L (W x49 xa1 x68 x4a xeb x5f xdd x3d)))
(T (W x2f x00 x00 x00 xff xff xff xff)
(L (W xff xff xff xff xff xff xff xff)) E))
(T (W xff xff xff xff xff xff xff xff)
(T (W x00 x00 x00 x00 x12 x00 x00 x00)
(L (W x45 x26 x22 x84 xe4 x9c xf2 xcb)) E)
(T (W x00 x00 x80 xbf x00 x00 x80 xbf)
(L (W x30 x32 x5f x43 x4c x45 x41 x52)) E))))
(T (W x00 x00 x00 x00 x00 x00 x00 x00)
(T (W xff xff xff xff xff xff xff xff)
(T (W x00 x00 x00 x00 x00 x00 x00 x00)
(T (W x22 x00 x00 x00 x67 x72 x6f x75)
(L (W x00 x00 x00 x00 x00 x00 x00 x00))
(L (W x00 x00 x00 x00 x00 x00 x00 x00)))
(T (W x5f x77 x69 x6c x64 x5f x70 x6f)
(L (W xc4 x00 x00 x00 x01 x00 x00 x00)) E))
(T (W x00 x00 x00 x00 x06 x00 x00 x00)
(T (W x00 x00 x00 x00 x54 x21 xfc xff)
(L (W x00 x00 x80 xbf x00 x00 x80 xbf)) E)
(T (W xff xff xff xff xac x00 x00 x00)
(L (W x00 x00 x00 x00 x00 x00 x00 x00)) E)))
(T (W xff xff xff xff xff xff xff xff)
(T (W xff xff xff xff xff xff xff xff)
(T (W xff xff xff xff xff xff xff xff)
(L (W x00 x00 x80 xbf x00 x00 x80 xbf))
(L (W x6c x00 x00 x00 x60 x00 x00 x00)))
(T (W xff xff xff xff xff xff xff xff)
(L (W x00 x00 x00 x00 x00 x00 x00 x00)) E))
(T (W x00 x00 x00 x00 x00 x00 x00 x00)
(T (W x68 x00 x00 x00 x5c x00 x00 x00)
(L (W x00 x00 x00 x00 x12 x00 x00 x00)) E)
(T (W x04 x00 x00 x00 xd2 x66 xfd xff)
(L (W x54 x00 x00 x00 x48 x00 x00 x00)) E)))))
(T (W x00 x00 x00 x00 x00 x00 x00 x00)
(T (W xc2 xcf xf9 xff x78 x00 x00 x00)
(T (W x00 x00 x80 x3f x00 x00 x80 x3f)
(T (W x00 x00 x80 x3f x00 x00 x80 x3f)
(T (W x45 x26 x22 x84 xe4 x9c xf2 xcb)
(L (W x00 x00 x00 x00 x00 x00 x00 x00))
(L (W x00 x00 x00 x00 x00 x00 x00 x00)))
(T (W xff xff xff xff xff xff xff xff)
(L (W x45 x26 x22 x84 xe4 x9c xf2 xcb)) E))
(T (W x00 x00 x00 x00 x00 x00 x00 x00)
(T (W x00 x00 x80 x3f x00 x00 x80 x3f)
(L (W x00 x00 x00 x00 x00 x00 x00 x00)) E)
(T (W x00 x00 x80 xbf x00 x00 x80 xbf)
(L (W x14 x00 x00 x00 x17 x00 x00 x00)) E)))
(T (W xff xff xff xff xff xff xff xff)
(T (W xff xff xff xff xff xff xff xff)
(T (W x2c x00 x00 x00 xb0 x00 x00 x00)
(L (W x4f x84 x6f x8b xe8 xcb x63 xb7))
(L (W x00 x00 x80 xbf x00 x00 x80 xbf)))
(T (W x00 x00 x80 x3f x00 x00 x80 x3f)
(L (W x00 x00 x00 x00 x00 x00 x00 x00)) E))
(T (W x01 x00 x00 x00 x21 x00 x00 x00)
(T (W x00 x00 x80 x3f x00 x00 x80 x3f)
(L (W xff xff xff xff xff xff xff xff)) E)
(T (W xc4 x00 x00 x00 x02 x00 x00 x00)
(L (W x00 x00 x80 xbf x00 x00 x80 xbf)) E))))
(T (W x00 x00 x00 x00 x00 x00 x00 x00)
(T (W xea x36 xfd xff xb3 x01 x00 x00)
(T (W x14 xb7 xfa xff x3e x00 x00 x00)
(T (W xff xff xff xff xbc x00 x00 x00)
(L (W xff xff xff xff x9c x00 x00 x00))
(L (W x4f x84 x6f x8b xe8 xcb x63 xb7)))
(T (W x00 x00 x00 x00 x00 x00 x00 x00)
(L (W xff xff xff xff xff xff xff xff)) E))
(T (W x68 x00 x00 x00 x5c x00 x00 x00)
(T (W xff xff xff xff xff xff xff xff)
(L (W xc2 x2f xfe xff x78 x00 x00 x00)) E)
(T (W x00 x00 x00 x00 xf2 x2e xfd xff)
(L (W xd9 x00 x00 x00 xff xff xff xff)) E)))
(T (W xbc x00 x00 x00 xb0 x00 x00 x00)
(T (W xff xff xff xff xff xff xff xff)
(T (W x00 x00 x00 x00 x00 x00 x00 x00)
(L (W xff xff xff xff xff xff xff xff))
(L (W xff xff xff xff xff xff xff xff)))
(T (W x00 x00 x80 x3f x00 x00 x80 x3f)
(L (W xc2 xef xfe xff x78 x00 x00 x00)) E))
(T (W xff xff xff xff xc4 x00 x00 x00)
(T (W x00 x00 x00 x00 x02 x00 x00 x00)
(L (W x00 x00 x80 xbf x00 x00 x80 xbf)) E)
(T (W x00 x00 x00 x00 x00 x00 x00 x00)
(L (W x03 x00 x00 x00 xd0 x00 x00 x00)) E)))))))
(T (W xff xff xff xff xff xff xff xff)
(T (W xc2 x8b xf9 xff x78 x00 x00 x00)
(T (W x10 x3b x00 x00 x00 x3a x00 x00)
(T (W x00 x00 x00 x00 x00 x00 x00 x00)
(T (W xff xff xff xff xff xff xff xff)
(T (W x00 x00 x00 x00 x00 x00 x00 x00)
(T (W x00 x00 x80 x3f x00 x00 x80 x3f)
(L (W x00 x00 x80 xbf x00 x00 x80 xbf))
(L (W x00 x00 x00 x00 x00 x00 x00 x00)))
(T (W x12 x7a xfc xff x74 x00 x00 x00)
(L (W xff xff xff xff xff xff xff xff)) E))
(T (W x5f x77 x69 x6c x64 x5f x70 x6f)
(T (W x01 x00 x00 x00 xb0 x00 x00 x00)
(L (W x00 x00 x80 xbf x00 x00 x80 xbf))
(L (W x00 x00 x00 x00 x00 x00 x00 x00)))
(T (W x04 x00 x00 x00 xf2 xfa xfc xff)
(L (W x00 x00 x01 x01 x18 x01 x00 x00)) E)))
(T (W x50 x00 x00 x00 x44 x00 x00 x00)
(T (W x45 x26 x22 x84 xe4 x9c xf2 xcb)
(T (W xbc x00 x00 x00 x14 x00 x00 x00)
(L (W x00 x00 x80 xbf x00 x00 x80 xbf))
(L (W xff xff xff xff xff xff xff xff)))
(T (W x50 x00 x00 x00 x44 x00 x00 x00)
(L (W x00 x00 x80 xbf x00 x00 x80 xbf)) E))
(T (W x00 x00 x00 x00 x00 x00 x00 x00)
(T (W x00 x00 x00 x00 x54 x3d xfc xff)
(L (W x00 x00 x00 x00 x00 x00 x00 x00)) E)
(T (W xff xff xff xff xbc x00 x00 x00)
(L (W xff xff xff xff xa0 x00 x00 x00)) E))))
(T (W xff xff xff xff xff xff xff xff)
(T (W x5f x6c x76 x31 x5f x74 x6f x5f)
(T (W xe4 x9e xfa xff x00 x01 x01 x01)
(T (W x68 x00 x00 x00 x5c x00 x00 x00)
(L (W x18 x00 x00 x00 x0c x00 x00 x00))
(L (W xff xff xff xff xff xff xff xff)))
(T (W x00 x00 x80 x3f x00 x00 x80 x3f)
(L (W x00 x00 x00 x00 x00 x00 x00 x00)) E))
(T (W x6c x00 x00 x00 x60 x00 x00 x00)
(T (W x14 x23 xfc xff x15 x00 x00 x00)
(L (W xff xff xff xff xff xff xff xff)) E)
(T (W x00 x00 x00 x00 x00 x00 x00 x00)
(L (W x00 x00 x80 xbf x00 x00 x80 xbf)) E)))
(T (W x00 x00 x00 x00 x00 x00 x00 x00)
(T (W x45 x26 x22 x84 xe4 x9c xf2 xcb)
(T (W x00 x00 x80 x3f x00 x00 x80 x3f)
(L (W xff xff xff xff xff xff xff xff))
(L (W x30 x32 x5f x43 x4c x45 x41 x52)))
(T (W x00 x00 x80 x3f x00 x00 x80 x3f)
(L (W xff xff xff xff xff xff xff xff)) E))
(T (W x45 x26 x22 x84 xe4 x9c xf2 xcb)
(T (W x00 x00 x00 x00 x00 x00 x00 x00)
(L (W x68 x00 x00 x00 x5c x00 x00 x00)) E)
(T (W x00 x00 x80 xbf x00 x00 x80 xbf)
(L (W x45 x44 x00 x00 x00 x00 x00 x00)) E)))))
(T (W xff xff xff xff x14 x00 x00 x00)
(T (W x45 x26 x22 x84 xe4 x9c xf2 xcb)
(T (W x64 x00 x00 x00 x9c x00 x00 x00)
(T (W x00 x00 x00 x00 x00 x00 x00 x00)
(T (W xff xff xff xff xff xff xff xff)
(L (W x00 x00 x80 xbf x00 x00 x80 xbf))
(L (W x54 x00 x00 x00 x48 x00 x00 x00)))
(T (W x00 x00 x80 x3f x00 x00 x80 x3f)
(L (W x00 x00 x00 x00 x12 x00 x00 x00)) E))
(T (W x29 x00 x00 x00 x2c x00 x00 x00)
(T (W xff xff xff xff xff xff xff xff)
(L (W x18 x00 x00 x00 x0c x00 x00 x00)) E)
(T (W x00 x00 x80 xbf x00 x00 x80 xbf)
(L (W x00 x00 x00 x00 x00 x00 x00 x00)) E)))
(T (W x00 x00 x80 x3f x00 x00 x80 x3f)
(T (W x00 x00 x80 x3f x00 x00 x80 x3f)
(T (W x30 x32 x5f x43 x4c x45 x41 x52)
(L (W x45 x26 x22 x84 xe4 x9c xf2 xcb))
(L (W x00 x00 x00 x00 xf2 xca xff xff)))
(T (W x24 x00 x00 x00 x27 x00 x00 x00)
(L (W x18 x00 x00 x00 x0c x00 x00 x00)) E))
(T (W x7a x8d xfd xff x9c x01 x00 x00)
(T (W xff xff xff xff xff xff xff xff)
(L (W x00 x00 x80 xbf x00 x00 x80 xbf)) E)
(T (W x00 x00 x00 x00 x00 x00 x00 x00)
(L (W xff xff xff xff xff xff xff xff)) E))))
(T (W xff xff xff xff x04 x00 x00 x00)
(T (W x00 x00 x80 x3f x00 x00 x80 x3f)
(T (W x12 xaa xfa xff x74 x00 x00 x00)
(T (W x14 xb3 xfb xff x10 x00 x00 x00)
(L (W x00 x00 x80 xbf x00 x00 x80 xbf))
(L (W xb4 x00 x00 x00 x32 x00 x00 x00)))
(T (W xff xff xff xff x03 x00 x00 x00)
(L (W x00 x00 x80 xbf x00 x00 x80 xbf)) E))
(T (W xff xff xff xff xff xff xff xff)
(T (W x00 x00 x00 x00 x00 x00 x00 x00)
(L (W xe4 x06 x00 x00 xc8 x05 x00 x00)) E)
(T (W x00 x00 x80 xbf x00 x00 x80 xbf)
(L (W x6c x00 x00 x00 x60 x00 x00 x00)) E)))
(T (W x00 x00 x00 x00 x00 x00 x00 x00)
(T (W x00 x00 x00 x00 x00 x00 x00 x00)
(T (W x00 x00 x80 x3f x00 x00 x80 x3f)
(L (W x00 x00 x00 x00 x00 x00 x00 x00))
(L (W x00 x00 x00 x00 x00 x00 x00 x00)))
(T (W x00 x00 x80 x3f x00 x00 x80 x3f)
(L (W x00 x00 x00 x00 x00 x00 x00 x00)) E))
(T (W x00 x00 x00 x00 x00 x00 x00 x00)
(T (W xe4 x6e xfc xff x00 x01 x01 x01)
(L (W xff xff xff xff xff xff xff xff)) E)
(T (W xff xff xff xff xb0 x00 x00 x00)
(L (W x45 x44 x00 x00 x00 x00 x00 x00)) E))))))
(T (W x00 x00 x00 x00 x00 x00 x00 x00)
(T (W x00 x00 x80 x3f x00 x00 x80 x3f)
(T (W xbc x00 x00 x00 xb0 x00 x00 x00)
(T (W xff xff xff xff xff xff xff xff)
(T (W x14 x8b xfa xff x3c x00 x00 x00)
(T (W x18 x00 x00 x00 x0c x00 x00 x00)
(L (W x00 x00 x80 xbf x00 x00 x80 xbf))
(L (W x00 x00 x80 xbf x00 x00 x80 xbf)))
(T (W x00 x00 x80 x3f x00 x00 x80 x3f)
(L (W x06 x00 x00 x00 xc0 x05 x00 x00)) E))
(T (W x54 x00 x00 x00 x48 x00 x00 x00)
(T (W xff xff xff xff xff xff xff xff)
(L (W x6c x00 x00 x00 x60 x00 x00 x00)) E)
(T (W x00 x00 x00 x00 x01 x00 x00 x00)
(L (W x46 x53 x59 x53 x5f x4e x53 x5f)) E)))
(T (W x00 x00 x80 x3f x00 x00 x80 x3f)
(T (W x00 x00 x80 x3f x00 x00 x80 x3f)
(T (W x34 x01 x00 x00 x04 x00 x00 x00)
(L (W xff xff xff xff xb0 x00 x00 x00))
(L (W xff xff xff xff xff xff xff xff)))
(T (W x45 x26 x22 x84 xe4 x9c xf2 xcb)
(L (W xc2 xc3 xfe xff x78 x00 x00 x00)) E))
(T (W x18 x00 x00 x00 x0c x00 x00 x00)
(T (W xcc x00 x00 x00 xc0 x00 x00 x00)
(L (W x00 x00 x00 x00 x00 x00 x00 x00)) E)
(T (W xff xff xff xff xff xff xff xff)
(L (W xff xff xff xff xff xff xff xff)) E))))
(T (W xff xff xff xff xff xff xff xff)
(T (W x6c x00 x00 x00 x60 x00 x00 x00)
(T (W x50 x00 x00 x00 x44 x00 x00 x00)
(T (W xff xff xff xff xff xff xff xff)
(L (W xff xff xff xff x1a x00 x00 x00))
(L (W x00 x00 x80 xbf x00 x00 x80 xbf)))
(T (W x12 xa2 xfc xff x74 x00 x00 x00)
(L (W x00 x00 x80 xbf x00 x00 x80 xbf)) E))
(T (W x21 x00 x00 x00 x24 x00 x00 x00)
(T (W x00 x00 x00 x00 x12 x00 x00 x00)
(L (W xff xff xff xff xff xff xff xff)) E)
(T (W x4f x84 x6f x8b xe8 xcb x63 xb7)
(L (W x00 x00 x80 xbf x00 x00 x80 xbf)) E)))
(T (W x00 x00 x00 x00 x00 x00 x00 x00)
(T (W x00 x00 x00 x00 x00 x00 x00 x00)
(T (W x45 x26 x22 x84 xe4 x9c xf2 xcb)
(L (W xff xff xff xff xff xff xff xff))
(L (W x00 x00 x00 x00 x00 x00 x00 x00)))
(T (W x6b x65 x5f x77 x61 x72 x6c x69)
(L (W xff xff xff xff xff xff xff xff)) E))
(T (W xff xff xff xff xff xff xff xff)
(T (W x00 x00 x62 x00 x74 x00 x08 x00)
(L (W xff xff xff xff xff xff xff xff)) E)
(T (W x00 x00 x80 xbf x00 x00 x80 xbf)
(L (W x08 x00 x00 x00 x18 x08 x00 x00)) E)))))
(T (W x6c x00 x00 x00 x60 x00 x00 x00)
(T (W xff xff xff xff xff xff xff xff)
(T (W x7a x26 xfd xff x00 x00 x01 x01)
(T (W x08 xe7 x4c x70 xaf xb4 x89 x4e)
(T (W x00 x00 x00 x00 x00 x00 x00 x00)
(L (W x12 x92 xfd xff x74 x00 x00 x00))
(L (W x45 x26 x22 x84 xe4 x9c xf2 xcb)))
(T (W x00 x00 x00 x00 x00 x00 x00 x00)
(L (W x00 x00 x00 x00 x00 x00 x00 x00)) E))
(T (W x00 x00 x62 x00 x7c x00 x08 x00)
(T (W x00 x00 x00 x00 xf2 x12 xfc xff)
(L (W xff xff xff xff xff xff xff xff)) E)
(T (W x00 x00 x00 x00 x00 x00 x00 x00)
(L (W x00 x00 x80 xbf x00 x00 x80 xbf)) E)))
(T (W x00 x00 x00 x00 x00 x00 x00 x00)
(T (W x00 x00 x80 x3f x00 x00 x80 x3f)
(T (W x00 x00 x00 x00 x00 x00 x00 x00)
(L (W xff xff xff xff xff xff xff xff))
(L (W x00 x00 x00 x00 x00 x00 x00 x00)))
(T (W x4f x84 x6f x8b xe8 xcb x63 xb7)
(L (W x03 x00 x00 x00 xd8 x00 x00 x00)) E))
(T (W x00 x00 x00 x00 x00 x00 x00 x00)
(T (W x4b x00 x00 x00 xff xff xff xff)
(L (W x6c x00 x00 x00 x60 x00 x00 x00)) E)
(T (W x45 x26 x22 x84 xe4 x9c xf2 xcb)
(L (W x00 x00 x01 x01 x29 x00 x00 x00)) E))))
(T (W x64 x00 x00 x00 x9c x00 x00 x00)
(T (W x00 x00 x80 x3f x00 x00 x80 x3f)
(T (W x00 x00 x00 x00 x54 xb5 xfa xff)
(T (W x00 x00 x80 x3f x00 x00 x80 x3f)
(L (W xff xff xff xff xff xff xff xff))
(L (W xc4 x00 x00 x00 x02 x00 x00 x00)))
(T (W x68 x00 x00 x00 x5c x00 x00 x00)
(L (W x00 x00 x80 xbf x00 x00 x80 xbf)) E))
(T (W x30 x32 x5f x43 x4c x45 x41 x52)
(T (W x45 x26 x22 x84 xe4 x9c xf2 xcb)
(L (W x00 x00 x00 x00 x00 x00 x00 x00)) E)
(T (W xe4 x36 xfd xff x00 x01 x01 x01)
(L (W xc2 x33 xff xff x78 x00 x00 x00)) E)))
(T (W x00 x00 x00 x00 x00 x00 x00 x00)
(T (W x45 x26 x22 x84 xe4 x9c xf2 xcb)
(T (W x00 x00 x80 x3f x00 x00 x80 x3f)
(L (W x00 x00 x80 xbf x00 x00 x80 xbf))
(L (W x00 x00 x80 xbf x00 x00 x80 xbf)))
(T (W x00 x00 x00 x00 x00 x00 x00 x00)
(L (W x00 x00 x00 x00 x00 x00 x00 x00)) E))
(T (W x00 x00 x00 x00 x00 x00 x00 x00)
(T (W x00 x00 x80 x3f x00 x00 x80 x3f)
(L (W x04 x00 x00 x00 xd2 x7a xfe xff)) E)
(T (W xe4 x76 xfd xff x00 x01 x01 x01)
(L (W x00 x00 x00 x00 x00 x00 x00 x00)) E))))))))
(T (W x00 x00 x80 x3f x00 x00 x80 x3f)
(T (W xbc x00 x00 x00 xb0 x00 x00 x00)
(T (W x00 x00 x80 x3f x00 x00 x80 x3f)
(T (W xff xff xff xff xff xff xff xff)
(T (W xc9 x00 x00 x00 xff xff xff xff)
(T (W x50 x00 x00 x00 x44 x00 x00 x00)
(T (W xff xff xff xff xff xff xff xff)
(T (W x00 x00 x00 x00 x00 x00 x00 x00)
(L (W x45 x26 x22 x84 xe4 x9c xf2 xcb))
(L (W x45 x44 x00 x00 x00 x00 x00 x00)))
(T (W x00 x00 x80 x3f x00 x00 x80 x3f)
(L (W xbc x00 x00 x00 x32 x00 x00 x00)) E))
(T (W xff xff xff xff xff xff xff xff)
(T (W x00 x00 x80 x3f x00 x00 x80 x3f)
(L (W x00 x00 x00 x00 x00 x00 x00 x00))
(L (W x18 x00 x00 x00 x0c x00 x00 x00)))
(T (W x50 x00 x00 x00 x44 x00 x00 x00)
(L (W xff xff xff xff xff xff xff xff)) E)))
(T (W x00 x00 x00 x00 x00 x00 x00 x00)
(T (W x45 x26 x22 x84 xe4 x9c xf2 xcb)
(T (W x00 x00 x80 x3f x00 x00 x80 x3f)
(L (W x45 x26 x22 x84 xe4 x9c xf2 xcb))
(L (W x00 x00 x80 xbf x00 x00 x80 xbf)))
(T (W x45 x26 x22 x84 xe4 x9c xf2 xcb)
(L (W x00 x00 x00 x00 x00 x00 x00 x00)) E))
(T (W xa1 x01 x00 x00 xff xff xff xff)
(T (W x00 x00 x80 x3f x00 x00 x80 x3f)
(L (W xff xff xff xff xff xff xff xff)) E)
(T (W x00 x00 x80 xbf x00 x00 x80 xbf)
(L (W x00 x00 x00 x00 x00 x00 x00 x00)) E))))
(T (W x00 x00 x80 x3f x00 x00 x80 x3f)
(T (W xff xff xff xff xff xff xff xff)
(T (W x00 x00 x80 x3f x00 x00 x80 x3f)
(T (W x46 x53 x59 x53 x5f x4e x53 x5f)
(L (W x00 x00 x80 xbf x00 x00 x80 xbf))
(L (W x00 x00 x80 xbf x00 x00 x80 xbf)))
(T (W xff xff xff xff xff xff xff xff)
(L (W x2f x00 x00 x00 xff xff xff xff)) E))
(T (W x00 x00 x00 x00 x00 x00 x00 x00)
(T (W xff xff xff xff xff xff xff xff)
(L (W x00 x00 x80 xbf x00 x00 x80 xbf)) E)
(T (W xff xff xff xff xff xff xff xff)
(L (W x00 x00 x00 x00 x00 x00 x00 x00)) E)))
(T (W xff xff xff xff xff xff xff xff)
(T (W x00 x00 x00 x00 x00 x00 x00 x00)
(T (W x00 x00 x00 x00 xf2 xd8 xfb xff)
(L (W x68 x00 x00 x00 x5c x00 x00 x00))
(L (W xff xff xff xff xff xff xff xff)))
(T (W x47 x06 x12 x3a xb1 x83 x66 xe3)
(L (W x6c x00 x00 x00 x60 x00 x00 x00)) E))
(T (W x00 x00 x00 x00 x12 x00 x00 x00)
(T (W x12 x58 xfc xff x74 x00 x00 x00)
(L (W x45 x26 x22 x84 xe4 x9c xf2 xcb)) E)
(T (W x30 x32 x5f x43 x4c x45 x41 x52)
(L (W x18 x00 x00 x00 x10 x00 x00 x00)) E)))))
(T (W xff xff xff xff xff xff xff xff)
(T (W x00 x00 x00 x00 x00 x00 x00 x00)
(T (W x00 x00 x80 x3f x00 x00 x80 x3f)
(T (W xff xff xff xff xff xff xff xff)
(T (W x00 x00 x00 x00 x54 x8b xfb xff)
(L (W x00 x00 x00 x00 x00 x00 x00 x00))
(L (W x00 x00 x00 x00 x00 x00 x00 x00)))
(T (W x00 x00 x00 x00 x00 x00 x00 x00)
(L (W xff xff xff xff xff xff xff xff)) E))
(T (W x45 x26 x22 x84 xe4 x9c xf2 xcb)
(T (W x24 x00 x00 x00 xb0 x00 x00 x00)
(L (W x00 x00 x80 xbf x00 x00 x80 xbf)) E)
(T (W x14 x11 xfd xff x20 x00 x00 x00)
(L (W x00 x00 x01 x01 x29 x00 x00 x00)) E)))
(T (W x1f x00 x00 x00 x0c x00 x00 x00)
(T (W x00 x00 x00 x00 x00 x00 x00 x00)
(T (W x45 x26 x22 x84 xe4 x9c xf2 xcb)
(L (W x00 x00 x80 xbf x00 x00 x80 xbf))
(L (W xff xff xff xff xff xff xff xff)))
(T (W xff xff xff xff xff xff xff xff)
(L (W x00 x00 x80 xbf x00 x00 x80 xbf)) E))
(T (W xff xff xff xff xa0 x00 x00 x00)
(T (W x00 x00 x80 x3f x00 x00 x80 x3f)
(L (W x74 xf0 x39 xdc x00 x64 x48 x2f)) E)
(T (W xff xff xff xff x9c x00 x00 x00)
(L (W x00 x00 x80 xbf x00 x00 x80 xbf)) E))))
(T (W x50 x00 x00 x00 x44 x00 x00 x00)
(T (W x00 x00 x00 x00 x00 x00 x00 x00)
(T (W x00 x00 x80 x3f x00 x00 x80 x3f)
(T (W xff xff xff xff xff xff xff xff)
(L (W x00 x00 x80 xbf x00 x00 x80 xbf))
(L (W x54 x00 x00 x00 x48 x00 x00 x00)))
(T (W x50 x00 x00 x00 x44 x00 x00 x00)
(L (W x96 x01 x00 x00 xff xff xff xff)) E))
(T (W x12 x28 xfb xff x74 x00 x00 x00)
(T (W xff xff xff xff xff xff xff xff)
(L (W xff xff xff xff xb0 x00 x00 x00)) E)
(T (W x00 x00 x00 x00 x00 x00 x00 x00)
(L (W x00 x00 x00 x00 x00 x00 x00 x00)) E)))
(T (W xea x70 xfd xff x85 x03 x00 x00)
(T (W x00 x00 x00 x00 x00 x00 x00 x00)
(T (W x00 x00 x00 x00 x00 x00 x00 x00)
(L (W x00 x00 x00 x00 x42 xef xfd xff))
(L (W xff xff xff xff xff xff xff xff)))
(T (W x00 x00 x00 x00 x00 x00 x00 x00)
(L (W xff xff xff xff xff xff xff xff)) E))
(T (W xff xff xff xff xff xff xff xff)
(T (W x00 x00 x80 x3f x00 x00 x80 x3f)
(L (W x00 x00 x80 xbf x00 x00 x80 xbf)) E)
(T (W x00 x00 x80 xbf x00 x00 x80 xbf)
(L (W xff xff xff xff xff xff xff xff)) E))))))
(T (W x00 x00 x00 x00 x00 x00 x00 x00)
(T (W x00 x00 x00 x00 x00 x00 x00 x00)
(T (W xc2 xc1 xf9 xff x78 x00 x00 x00)
(T (W x00 x00 x80 x3f x00 x00 x80 x3f)
(T (W xff xff xff xff xff xff xff xff)
(T (W x00 x00 x80 x3f x00 x00 x80 x3f)
(L (W x90 x0a x00 x00 x64 x09 x00 x00))
(L (W x00 x00 x00 x00 x00 x00 x00 x00)))
(T (W x00 x00 x00 x00 x00 x00 x00 x00)
(L (W x03 x00 x00 x00 xd0 x00 x00 x00)) E))
(T (W x00 x00 x00 x00 x00 x00 x00 x00)
(T (W x00 x00 x80 x3f x00 x00 x80 x3f)
(L (W x00 x00 x80 xbf x00 x00 x80 xbf))
(L (W x18 x00 x1c x00 x20 x00 x24 x00)))
(T (W x00 x00 x80 xbf x00 x00 x80 xbf)
(L (W xff xff xff xff xff xff xff xff)) E)))
(T (W x00 x00 x00 x00 x00 x00 x00 x00)
(T (W x00 x00 x00 x00 x00 x00 x00 x00)
(T (W x18 x00 x00 x00 x0c x00 x00 x00)
(L (W x00 x00 x80 xbf x00 x00 x80 xbf))
(L (W xc2 xc1 xff xff x78 x00 x00 x00)))
(T (W x00 x00 x00 x00 x00 x00 x00 x00)
(L (W x00 x00 x00 x00 x00 x00 x00 x00)) E))
(T (W x49 xa1 x68 x4a xeb x5f xdd x3d)
(T (W x54 x00 x00 x00 x48 x00 x00 x00)
(L (W x00 x00 x00 x00 x00 x00 x00 x00)) E)
(T (W xcc x00 x00 x00 x01 x00 x00 x00)
(L (W x6c x00 x00 x00 x60 x00 x00 x00)) E))))
(T (W x00 x00 x80 x3f x00 x00 x80 x3f)
(T (W x00 x00 x00 x00 x00 x00 x00 x00)
(T (W x00 x00 x80 x3f x00 x00 x80 x3f)
(T (W x00 x00 x80 x3f x00 x00 x80 x3f)
(L (W xff xff xff xff xff xff xff xff))
(L (W x50 x00 x00 x00 x00 x00 x54 x00)))
(T (W x00 x00 x80 x3f x00 x00 x80 x3f)
(L (W xd4 x06 x00 x00 xc0 x05 x00 x00)) E))
(T (W x00 x00 x80 x3f x00 x00 x80 x3f)
(T (W x4b x00 x00 x00 xff xff xff xff)
(L (W x18 x00 x00 x00 x10 x00 x00 x00)) E)
(T (W x00 x00 x00 x00 xf2 x20 xfd xff)
(L (W x00 x00 x00 x00 x00 x00 x00 x00)) E)))
(T (W x3b x01 x00 x00 xff xff xff xff)
(T (W x00 x00 x00 x00 x00 x00 x00 x00)
(T (W x00 x00 x00 x00 x00 x00 x00 x00)
(L (W xff xff xff xff xb0 x00 x00 x00))
(L (W xff xff xff xff xff xff xff xff)))
(T (W x00 x00 x80 x3f x00 x00 x80 x3f)
(L (W xff xff xff xff xa0 x00 x00 x00)) E))
(T (W x00 x00 x00 x00 x54 x63 xfb xff)
(T (W xff xff xff xff xff xff xff xff)
(L (W x00 x00 x80 xbf x00 x00 x80 xbf)) E)
(T (W x45 x26 x22 x84 xe4 x9c xf2 xcb)
(L (W x03 x00 x00 x00 xd0 x00 x00 x00)) E)))))
(T (W x00 x00 x80 x3f x00 x00 x80 x3f)
(T (W xbc x00 x00 x00 xb0 x00 x00 x00)
(T (W xff xff xff xff xff xff xff xff)
(T (W xb8 x00 x00 x00 xac x00 x00 x00)
(T (W xa0 x01 x00 x00 xff xff xff xff)
(L (W x4f x84 x6f x8b xe8 xcb x63 xb7))
(L (W x00 x00 x80 xbf x00 x00 x80 xbf)))
(T (W x18 x01 x00 x00 x04 x00 x00 x00)
(L (W xff xff xff xff xff xff xff xff)) E))
(T (W x2c x00 x00 x00 xb0 x00 x00 x00)
(T (W xff xff xff xff xff xff xff xff)
(L (W x00 x00 x80 xbf x00 x00 x80 xbf)) E)
(T (W xff xff xff xff xff xff xff xff)
(L (W x00 x00 x00 x00 x00 x00 x00 x00)) E)))
(T (W x7a x64 xfd xff x00 x00 x01 x01)
(T (W x6c xe2 xfa xff x3e x00 x00 x00)
(T (W xff xff xff xff xff xff xff xff)
(L (W x6c x00 x00 x00 x60 x00 x00 x00))
(L (W xff xff xff xff xff xff xff xff)))
(T (W xff xff xff xff xff xff xff xff)
(L (W x54 x00 x00 x00 x48 x00 x00 x00)) E))
(T (W xff xff xff xff xff xff xff xff)
(T (W xe4 x54 xfc xff x00 x01 x01 x01)
(L (W x46 x53 x59 x53 x5f x4e x53 x5f)) E)
(T (W x54 x02 x00 x00 x38 x01 x00 x00)
(L (W x03 x00 x00 x00 xd8 x00 x00 x00)) E))))
(T (W x00 x00 x00 x00 x54 xf3 xf9 xff)
(T (W x00 x00 x00 x00 x00 x00 x00 x00)
(T (W x45 x26 x22 x84 xe4 x9c xf2 xcb)
(T (W x30 x32 x5f x43 x4c x45 x41 x52)
(L (W xff xff xff xff xff xff xff xff))
(L (W x54 x00 x00 x00 x48 x00 x00 x00)))
(T (W x45 x26 x22 x84 xe4 x9c xf2 xcb)
(L (W xeb x90 xa7 x28 xbf x50 x53 x6a)) E))
(T (W xb0 x00 x00 x00 x64 x00 x00 x00)
(T (W x00 x00 x00 x00 x12 x00 x00 x00)
(L (W xff xff xff xff xff xff xff xff)) E)
(T (W x4f x84 x6f x8b xe8 xcb x63 xb7)
(L (W x00 x00 x00 x00 x00 x00 x00 x00)) E)))
(T (W x72 x7a xfd xff x00 x00 x01 x01)
(T (W x45 x26 x22 x84 xe4 x9c xf2 xcb)
(T (W x00 x00 x00 x00 x00 x00 x00 x00)
(L (W x00 x00 x00 x00 x00 x00 x00 x00))
(L (W x00 x00 x00 x00 x00 x00 x00 x00)))
(T (W x45 x26 x22 x84 xe4 x9c xf2 xcb)
(L (W xff xff xff xff xff xff xff xff)) E))
(T (W x45 x44 x00 x00 x00 x00 x00 x00)
(T (W x00 x00 x00 x00 x00 x00 x00 x00)
(L (W x45 x26 x22 x84 xe4 x9c xf2 xcb)) E)
(T (W x00 x00 x00 x00 x00 x00 x62 x00)
(L (W xff xff xff xff xff xff xff xff)) E)))))))
(T (W x00 x00 x00 x00 x00 x00 x00 x00)
(T (W xff xff xff xff x04 x00 x00 x00)
(T (W x1b x00 x00 x00 xff xff xff xff)
(T (W x45 x26 x22 x84 xe4 x9c xf2 xcb)
(T (W x00 x00 x00 x00 x00 x00 x00 x00)
(T (W x45 x26 x22 x84 xe4 x9c xf2 xcb)
(T (W xff xff xff xff xff xff xff xff)
(L (W xff xff xff xff xff xff xff xff))
(L (W x18 x00 x00 x00 x0c x00 x00 x00)))
(T (W xff xff xff xff xff xff xff xff)
(L (W x49 xa1 x68 x4a xeb x5f xdd x3d)) E))
(T (W x54 x00 x00 x00 x48 x00 x00 x00)
(T (W x34 x01 x00 x00 x04 x00 x00 x00)
(L (W x18 x00 x00 x00 x0c x00 x00 x00))
(L (W x28 x00 x2c x00 x30 x00 x34 x00)))
(T (W x00 x00 x80 xbf x00 x00 x80 xbf)
(L (W x00 x00 x00 x00 x00 x00 x00 x00)) E)))
(T (W x45 x26 x22 x84 xe4 x9c xf2 xcb)
(T (W xff xff xff xff x03 x00 x00 x00)
(T (W x00 x00 x00 x00 x00 x00 x00 x00)
(L (W x50 x00 x00 x00 x44 x00 x00 x00))
(L (W x30 x32 x5f x43 x4c x45 x41 x52)))
(T (W xff xff xff xff x03 x00 x00 x00)
(L (W xff xff xff xff xff xff xff xff)) E))
(T (W x68 x00 x00 x00 x5c x00 x00 x00)
(T (W x4b x00 x00 x00 xff xff xff xff)
(L (W x00 x00 x80 xbf x00 x00 x80 xbf)) E)
(T (W x00 x00 x00 x00 x00 x00 x00 x00)
(L (W xff xff xff xff xff xff xff xff)) E))))
(T (W x44 x02 x00 x00 x28 x01 x00 x00)
(T (W x12 x1c xfa xff x74 x00 x00 x00)
(T (W x9c x00 x00 x00 xff xff xff xff)
(T (W xff xff xff xff xff xff xff xff)
(L (W xff xff xff xff xff xff xff xff))
(L (W x00 x00 x00 x00 x00 x00 x00 x00)))
(T (W xff xff xff xff xff xff xff xff)
(L (W x54 x00 x00 x00 x48 x00 x00 x00)) E))
(T (W xff xff xff xff x03 x00 x00 x00)
(T (W x00 x00 x80 x3f x00 x00 x80 x3f)
(L (W x00 x00 x00 x00 x00 x00 x00 x00)) E)
(T (W x50 x1f xfd xff xfa x77 xfd xff)
(L (W x45 x26 x22 x84 xe4 x9c xf2 xcb)) E)))
(T (W x6c x00 x00 x00 x60 x00 x00 x00)
(T (W x18 x00 x00 x00 x0c x00 x00 x00)
(T (W xe4 xe0 xfb xff x00 x01 x01 x01)
(L (W x45 x44 x00 x00 x00 x00 x00 x00))
(L (W x49 xa1 x68 x4a xeb x5f xdd x3d)))
(T (W x18 x00 x00 x00 x10 x00 x00 x00)
(L (W x00 x00 x00 x00 xb2 xde xfe xff)) E))
(T (W xff xff xff xff x01 x00 x00 x00)
(T (W x00 x00 x00 x00 x00 x00 x00 x00)
(L (W xff xff xff xff xff xff xff xff)) E)
(T (W xff xff xff xff xb0 x00 x00 x00)
(L (W x4f x84 x6f x8b xe8 xcb x63 xb7)) E)))))
(T (W x00 x00 x00 x00 x00 x00 x00 x00)
(T (W x00 x00 x80 x3f x00 x00 x80 x3f)
(T (W xff xff xff xff xff xff xff xff)
(T (W x00 x00 x80 x3f x00 x00 x80 x3f)
(T (W x4f x84 x6f x8b xe8 xcb x63 xb7)
(L (W xff xff xff xff xff xff xff xff))
(L (W xff xff xff xff xff xff xff xff)))
(T (W x12 x8c xfc xff x74 x00 x00 x00)
(L (W x00 x00 x80 xbf x00 x00 x80 xbf)) E))
(T (W xff xff xff xff xff xff xff xff)
(T (W x00 x00 x00 x00 x00 x00 x00 x00)
(L (W xff xff xff xff xff xff xff xff)) E)
(T (W x48 x00 x4c x00 x50 x00 x54 x00)
(L (W x00 x00 x80 xbf x00 x00 x80 xbf)) E)))
(T (W x40 x00 x00 x00 x9c x00 x00 x00)
(T (W xff xff xff xff xff xff xff xff)
(T (W x4f x84 x6f x8b xe8 xcb x63 xb7)
(L (W xff xff xff xff xff xff xff xff))
(L (W x00 x00 x00 x00 x00 x00 x00 x00)))
(T (W x45 x26 x22 x84 xe4 x9c xf2 xcb)
(L (W xff xff xff xff xff xff xff xff)) E))
(T (W x00 x00 x80 x3f x00 x00 x80 x3f)
(T (W x00 x00 x00 x00 x00 x00 x00 x00)
(L (W xff xff xff xff xa0 x00 x00 x00)) E)
(T (W x4f x84 x6f x8b xe8 xcb x63 xb7)
(L (W x46 x53 x59 x53 x5f x4e x53 x5f)) E))))
(T (W x40 x00 x00 x00 x0c x00 x00 x00)
(T (W x64 x00 x00 x00 x9c x00 x00 x00)
(T (W xff xff xff xff xff xff xff xff)
(T (W x00 x00 x80 x3f x00 x00 x80 x3f)
(L (W x12 xac xfd xff x74 x00 x00 x00))
(L (W xff xff xff xff xff xff xff xff)))
(T (W xcf x01 x00 x00 xff xff xff xff)
(L (W xc2 xad xfe xff x78 x00 x00 x00)) E))
(T (W x00 x00 x00 x00 x00 x00 x00 x00)
(T (W xff xff xff xff x9c x00 x00 x00)
(L (W x00 x00 x80 xbf x00 x00 x80 xbf)) E)
(T (W xff xff xff xff x9c x00 x00 x00)
(L (W xff xff xff xff xc0 x00 x00 x00)) E)))
(T (W x00 x00 x80 x3f x00 x00 x80 x3f)
(T (W x00 x00 x80 x3f x00 x00 x80 x3f)
(T (W xff xff xff xff xff xff xff xff)
(L (W x00 x00 x80 xbf x00 x00 x80 xbf))
(L (W x00 x00 x80 xbf x00 x00 x80 xbf)))
(T (W xff xff xff xff xff xff xff xff)
(L (W x45 x26 x22 x84 xe4 x9c xf2 xcb)) E))
(T (W x00 x00 x00 x00 x00 x00 x00 x00)
(T (W xff xff xff xff xff xff xff xff)
(L (W x00 x00 x00 x00 x12 x00 x00 x00)) E)
(T (W x00 x00 x01 x01 x53 x01 x00 x00)
(L (W x54 x00 x00 x00 x48 x00 x00 x00)) E))))))
(T (W x00 x00 x80 x3f x00 x00 x80 x3f)
(T (W x6c x00 x00 x00 x60 x00 x00 x00)
(T (W xff xff xff xff xff xff xff xff)
(T (W x00 x00 x00 x00 x04 x00 x00 x00)
(T (W x00 x00 x80 x3f x00 x00 x80 x3f)
(T (W x16 x00 x00 x00 x10 x00 x00 x00)
(L (W xff xff xff xff xac x00 x00 x00))
(L (W xff xff xff xff xc8 x00 x00 x00)))
(T (W x00 x00 x00 x00 x54 x87 xfc xff)
(L (W x45 x26 x22 x84 xe4 x9c xf2 xcb)) E))
(T (W xff xff xff xff xff xff xff xff)
(T (W x00 x00 x00 x00 x00 x00 x00 x00)
(L (W xff xff xff xff xff xff xff xff)) E)
(T (W x00 x00 x80 xbf x00 x00 x80 xbf)
(L (W x00 x00 x80 xbf x00 x00 x80 xbf)) E)))
(T (W x18 x00 x00 x00 x10 x00 x00 x00)
(T (W xff xff xff xff xff xff xff xff)
(T (W x45 x26 x22 x84 xe4 x9c xf2 xcb)
(L (W xff xff xff xff xff xff xff xff))
(L (W x00 x00 x00 x00 x00 x00 x00 x00)))
(T (W x38 x00 x3c x00 x40 x00 x44 x00)
(L (W xff xff xff xff xff xff xff xff)) E))
(T (W xa1 x01 x00 x00 xff xff xff xff)
(T (W x74 x03 x00 x00 x4c x02 x00 x00)
(L (W x00 x00 x80 xbf x00 x00 x80 xbf)) E)
(T (W x00 x00 x00 x00 x00 x00 x00 x00)
(L (W x00 x00 x00 x00 xd2 x4c xff xff)) E))))
(T (W x00 x00 x00 x00 x00 x00 x00 x00)
(T (W xff xff xff xff xff xff xff xff)
(T (W xff xff xff xff xff xff xff xff)
(T (W x00 x00 x00 x00 x00 x00 x00 x00)
(L (W x00 x00 x00 x00 x00 x00 x00 x00))
(L (W xd8 xa5 xff xff x00 x00 x00 x01)))
(T (W xff xff xff xff xff xff xff xff)
(L (W xc2 xa5 xfe xff x78 x00 x00 x00)) E))
(T (W xff xff xff xff xff xff xff xff)
(T (W x6c x00 x00 x00 x60 x00 x00 x00)
(L (W x00 x00 x00 x00 x00 x00 x00 x00)) E)
(T (W xe4 x28 xfd xff x00 x01 x01 x01)
(L (W x18 x00 x00 x00 x0c x00 x00 x00)) E)))
(T (W x00 x00 x80 x3f x00 x00 x80 x3f)
(T (W x68 x00 x00 x00 x5c x00 x00 x00)
(T (W x29 x00 x00 x00 x2c x00 x00 x00)
(L (W x00 x00 x00 x00 x00 x00 x00 x00))
(L (W x00 x00 x80 xbf x00 x00 x80 xbf)))
(T (W x68 x00 x00 x00 x5c x00 x00 x00)
(L (W x00 x00 x00 x00 x12 x00 x00 x00)) E))
(T (W x30 x32 x5f x43 x4c x45 x41 x52)
(T (W xff xff xff xff xff xff xff xff)
(L (W x00 x00 x00 x00 xb2 x66 xfe xff)) E)
(T (W xff xff xff xff xff xff xff xff)
(L (W x00 x00 x80 xbf x00 x00 x80 xbf)) E)))))
(T (W x64 x00 x00 x00 xa0 x00 x00 x00)
(T (W x00 x00 x00 x00 x8a x70 xfd xff)
(T (W x45 x26 x22 x84 xe4 x9c xf2 xcb)
(T (W x12 x94 xfa xff x74 x00 x00 x00)
(T (W x00 x00 x80 x3f x00 x00 x80 x3f)
(L (W xff xff xff xff xff xff xff xff))
(L (W x00 x00 x00 x00 x00 x00 x00 x00)))
(T (W x00 x00 x80 x3f x00 x00 x80 x3f)
(L (W x00 x00 x80 xbf x00 x00 x80 xbf)) E))
(T (W x45 x26 x22 x84 xe4 x9c xf2 xcb)
(T (W x00 x00 x00 x00 x12 x00 x00 x00)
(L (W x00 x00 x00 x00 x00 x00 x00 x00)) E)
(T (W xff xff xff xff xff xff xff xff)
(L (W xff xff xff xff xb0 x00 x00 x00)) E)))
(T (W x50 x00 x00 x00 x44 x00 x00 x00)
(T (W x45 x26 x22 x84 xe4 x9c xf2 xcb)
(T (W x45 x26 x22 x84 xe4 x9c xf2 xcb)
(L (W x00 x00 x00 x00 xb2 xd6 xfd xff))
(L (W x00 x00 x00 x00 x00 x00 x00 x00)))
(T (W x6c x00 x00 x00 x60 x00 x00 x00)
(L (W x00 x00 x01 x01 x9f x01 x00 x00)) E))
(T (W x18 x00 x00 x00 x10 x00 x00 x00)
(T (W x00 x00 x00 x00 x00 x00 x00 x00)
(L (W xff xff xff xff xff xff xff xff)) E)
(T (W x50 x00 x00 x00 x44 x00 x00 x00)
(L (W x00 x00 x00 x00 x00 x00 x00 x00)) E))))
(T (W x00 x00 x00 x00 x02 x00 x00 x00)
(T (W x12 x34 xfa xff x74 x00 x00 x00)
(T (W x64 x00 x00 x00 x9c x00 x00 x00)
(T (W xff xff xff xff xff xff xff xff)
(L (W x00 x00 x00 x00 x00 x00 x00 x00))
(L (W x44 x02 x00 x00 x30 x01 x00 x00)))
(T (W xff xff xff xff xff xff xff xff)
(L (W x18 x00 x00 x00 x10 x00 x00 x00)) E))
(T (W x00 x00 x80 x3f x00 x00 x80 x3f)
(T (W xff xff xff xff xff xff xff xff)
(L (W x00 x00 x80 xbf x00 x00 x80 xbf)) E)
(T (W xff xff xff xff xff xff xff xff)
(L (W xff xff xff xff xff xff xff xff)) E)))
(T (W x00 x00 x00 x00 x00 x00 x00 x00)
(T (W xb8 x00 x00 x00 xac x00 x00 x00)
(T (W xff xff xff xff xff xff xff xff)
(L (W x45 x26 x22 x84 xe4 x9c xf2 xcb))
(L (W x18 x00 x00 x00 x10 x00 x00 x00)))
(T (W x00 x00 x00 x00 x00 x00 x00 x00)
(L (W x00 x00 x80 xbf x00 x00 x80 xbf)) E))
(T (W xd4 x00 x00 x00 xc8 x00 x00 x00)
(T (W xff xff xff xff xff xff xff xff)
(L (W x45 x26 x22 x84 xe4 x9c xf2 xcb)) E)
(T (W xff xff xff xff xff xff xff xff)
(L (W x00 x00 x80 xbf x00 x00 x80 xbf)) E))))))))))
(T (W xf0 x93 x03 x00 xb4 x92 x03 x00)
(T (W x18 xe8 x02 x00 xd4 xe5 x02 x00)
(T (W x80 x08 x01 x00 x34 x06 x01 x00)
(T (W x00 x00 x01 x01 xc9 x00 x00 x00)
(T (W x64 x00 x00 x00 xa0 x00 x00 x00)
(T (W x00 x00 x00 x00 x00 x00 x00 x00)
(T (W x45 x26 x22 x84 xe4 x9c xf2 xcb)
(T (W x45 x26 x22 x84 xe4 x9c xf2 xcb)
(T (W xe5 x9a x1b xf2 x1e x20 x49 x87)
(T (W x00 x00 x80 x3f x00 x00 x80 x3f)
(L (W x00 x00 x80 xbf x00 x00 x80 xbf))
(L (W x4f x84 x6f x8b xe8 xcb x63 xb7)))
(T (W x92 x75 xfc xff x74 x00 x00 x00)
(L (W xff xff xff xff xff xff xff xff)) E))
(T (W x00 x00 x80 x3f x00 x00 x80 x3f)
(T (W x42 xf7 xfb xff x78 x00 x00 x00)
(L (W x00 x00 x00 x00 x00 x00 x00 x00))
(L (W x4f x84 x6f x8b xe8 xcb x63 xb7)))
(T (W x61 x72 x6c x69 x6b x65 x5f x6c)
(L (W x00 x00 x00 x00 x00 x00 x00 x00)) E)))
(T (W x45 x26 x22 x84 xe4 x9c xf2 xcb)
(T (W x00 x00 x80 x3f x00 x00 x80 x3f)
(T (W x00 x00 x80 x3f x00 x00 x80 x3f)
(L (W x45 x26 x22 x84 xe4 x9c xf2 xcb))
(L (W xb4 x00 x00 x00 x50 x00 x00 x00)))
(T (W x50 x00 x00 x00 x44 x00 x00 x00)
(L (W x49 xa1 x68 x4a xeb x5f xdd x3d)) E))
(T (W x00 x00 x00 x00 x00 x00 x00 x00)
(T (W x00 x00 x80 x3f x00 x00 x80 x3f)
(L (W x00 x00 x00 x00 x00 x00 x00 x00)) E)
(T (W x92 x35 xfd xff x74 x00 x00 x00)
(L (W x00 x00 x80 xbf x00 x00 x80 xbf)) E))))
(T (W x64 xda xf9 xff x00 x01 x01 x01)
(T (W xff xff xff xff xff xff xff xff)
(T (W x00 x00 x80 x3f x00 x00 x80 x3f)
(T (W x00 x00 x00 x00 x00 x00 x00 x00)
(L (W x68 x00 x00 x00 x5c x00 x00 x00))
(L (W xff xff xff xff xb0 x00 x00 x00)))
(T (W x00 x00 x00 x00 x00 x00 x00 x00)
(L (W x00 x00 x00 x00 x00 x00 x00 x00)) E))
(T (W x00 x00 x00 x00 x00 x00 x00 x00)
(T (W x74 x03 x00 x00 x4c x02 x00 x00)
(L (W x21 x00 x00 x00 x24 x00 x00 x00)) E)
(T (W x45 x26 x22 x84 xe4 x9c xf2 xcb)
(L (W x00 x00 x80 xbf x00 x00 x80 xbf)) E)))
(T (W x45 x26 x22 x84 xe4 x9c xf2 xcb)
(T (W x00 x00 x80 x3f x00 x00 x80 x3f)
(T (W x00 x00 x00 x00 x00 x00 x00 x00)
(L (W xff xff xff xff x9c x00 x00 x00))
(L (W xff xff xff xff xff xff xff xff)))
(T (W x00 x00 x00 x00 x00 x00 x00 x00)
(L (W x18 x00 x00 x00 x10 x00 x00 x00)) E))
(T (W x00 x00 x80 x3f x00 x00 x80 x3f)
(T (W xff xff xff xff xff xff xff xff)
(L (W x00 x00 x80 xbf x00 x00 x80 xbf)) E)
(T (W x49 xa1 x68 x4a xeb x5f xdd x3d)
(L (W xff xff xff xff xff xff xff xff)) E)))))
(T (W x00 x00 x00 x00 x00 x00 x00 x00)
(T (W x00 x00 x80 x3f x00 x00 x80 x3f)
(T (W x0a x00 x00 x00 x3e x00 x00 x00)
(T (W xff xff xff xff xff xff xff xff)
(T (W xff xff xff xff xff xff xff xff)
(L (W x00 x00 x80 xbf x00 x00 x80 xbf))
(L (W x00 x00 x80 xbf x00 x00 x80 xbf)))
(T (W x00 x00 x80 x3f x00 x00 x80 x3f)
(L (W x00 x00 x00 x00 xc2 x8c xfe xff)) E))
(T (W x42 x07 xfb xff x78 x00 x00 x00)
(T (W xff xff xff xff xff xff xff xff)
(L (W x00 x00 x80 xbf x00 x00 x80 xbf)) E)
(T (W x00 x00 x00 x00 x00 x00 x00 x00)
(L (W x15 x00 x00 x00 x0c x00 x00 x00)) E)))
(T (W x00 x00 x00 x00 x00 x00 x00 x00)
(T (W x00 x00 x80 x3f x00 x00 x80 x3f)
(T (W xff xff xff xff xff xff xff xff)
(L (W x45 x26 x22 x84 xe4 x9c xf2 xcb))
(L (W xff xff xff xff xff xff xff xff)))
(T (W x00 x00 x00 x00 x01 x00 x00 x00)
(L (W x45 x26 x22 x84 xe4 x9c xf2 xcb)) E))
(T (W x45 x26 x22 x84 xe4 x9c xf2 xcb)
(T (W xff xff xff xff xc4 x00 x00 x00)
(L (W x00 x00 x00 x00 x00 x00 x00 x00)) E)
(T (W xff xff xff xff xff xff xff xff)
(L (W xbc x00 x00 x00 x32 x00 x00 x00)) E))))
(T (W xff xff xff xff xff xff xff xff)
(T (W x00 x00 x80 x3f x00 x00 x80 x3f)
(T (W x64 xaa xfa xff x00 x01 x01 x01)
(T (W xff xff xff xff x01 x00 x00 x00)
(L (W xff xff xff xff x9c x00 x00 x00))
(L (W x70 x00 x00 x00 x64 x00 x00 x00)))
(T (W x68 x00 x00 x00 x5c x00 x00 x00)
(L (W x00 x00 x00 x00 x00 x00 x00 x00)) E))
(T (W x24 x00 x00 x00 xb0 x00 x00 x00)
(T (W x00 x00 x00 x00 x00 x00 x00 x00)
(L (W xff xff xff xff xff xff xff xff)) E)
(T (W x00 x00 x00 x00 x00 x00 x00 x00)
(L (W x00 x00 x80 xbf x00 x00 x80 xbf)) E)))
(T (W x00 x00 x00 x00 x00 x00 x00 x00)
(T (W x45 x26 x22 x84 xe4 x9c xf2 xcb)
(T (W x49 xa1 x68 x4a xeb x5f xdd x3d)
(L (W x00 x00 x00 x00 x00 x00 x00 x00))
(L (W x45 x44 x00 x00 x00 x00 x00 x00)))
(T (W x00 x00 x80 x3f x00 x00 x80 x3f)
(L (W xff xff xff xff xff xff xff xff)) E))
(T (W xff xff xff xff xff xff xff xff)
(T (W x64 x6a xfc xff x00 x01 x01 x01)
(L (W xff xff xff xff xa0 x00 x00 x00)) E)
(T (W x6c x00 x00 x00 x60 x00 x00 x00)
(L (W x00 x00 x00 x00 x00 x00 x00 x00)) E))))))
(T (W x00 x00 x80 x3f x00 x00 x80 x3f)
(T (W x42 x9f xf9 xff x78 x00 x00 x00)
(T (W xff xff xff xff xff xff xff xff)
(T (W x01 x00 x00 x00 x9c x00 x00 x00)
(T (W xae x01 x00 x00 xff xff xff xff)
(T (W x01 x00 x00 x00 x19 x00 x00 x00)
(L (W x54 x00 x00 x00 x48 x00 x00 x00))
(L (W x00 x00 x80 xbf x00 x00 x80 xbf)))
(T (W x00 x00 x80 x3f x00 x00 x80 x3f)
(L (W x00 x00 x01 x01 x5c x00 x00 x00)) E))
(T (W x12 x00 x00 x00 x46 x53 x59 x53)
(T (W xb8 x00 x00 x00 x28 x00 x00 x00)
(L (W x00 x00 x80 xbf x00 x00 x80 xbf))
(L (W x3c x00 x40 x00 x44 x00 x48 x00)))
(T (W x45 x26 x22 x84 xe4 x9c xf2 xcb)
(L (W x45 x44 x00 x00 x00 x00 x00 x00)) E)))
(T (W x00 x00 x00 x00 x00 x00 x00 x00)
(T (W x45 x26 x22 x84 xe4 x9c xf2 xcb)
(T (W xff xff xff xff xff xff xff xff)
(L (W x00 x00 x80 xbf x00 x00 x80 xbf))
(L (W x03 x00 x00 x00 xd8 x00 x00 x00)))
(T (W x45 x26 x22 x84 xe4 x9c xf2 xcb)
(L (W x00 x00 x80 xbf x00 x00 x80 xbf)) E))
(T (W x4f x84 x6f x8b xe8 xcb x63 xb7)
(T (W x64 x42 xfc xff x00 x01 x01 x01)
(L (W x45 x44 x00 x00 x00 x00 x00 x00)) E)
(T (W xff xff xff xff xff xff xff xff)
(L (W x6c x00 x00 x00 x60 x00 x00 x00)) E))))
(T (W x0a x00 x00 x00 x3e x00 x00 x00)
(T (W x00 x00 x80 x3f x00 x00 x80 x3f)
(T (W x92 x9d xfa xff x74 x00 x00 x00)
(T (W x50 x00 x00 x00 x44 x00 x00 x00)
(L (W x45 x26 x22 x84 xe4 x9c xf2 xcb))
(L (W xac x00 x00 x00 x32 x00 x00 x00)))
(T (W x00 x00 x80 x3f x00 x00 x80 x3f)
(L (W x00 x00 x00 x00 x00 x00 x00 x00)) E))
(T (W x00 x00 x80 x3f x00 x00 x80 x3f)
(T (W x00 x00 x00 x00 x00 x00 x00 x00)
(L (W xff xff xff xff xff xff xff xff)) E)
(T (W x00 x00 x00 x00 x00 x00 x00 x00)
(L (W x00 x00 x80 xbf x00 x00 x80 xbf)) E)))
(T (W x00 x00 x00 x00 x00 x00 x00 x00)
(T (W x00 x00 x00 x00 x00 x00 x00 x00)
(T (W x00 x00 x00 x00 x00 x00 x00 x00)
(L (W xff xff xff xff xff xff xff xff))
(L (W x00 x00 x01 x01 xc1 x01 x00 x00)))
(T (W x4f x84 x6f x8b xe8 xcb x63 xb7)
(L (W xff xff xff xff x9c x00 x00 x00)) E))
(T (W x45 x26 x22 x84 xe4 x9c xf2 xcb)
(T (W xfa x71 xff xff x00 x00 x01 x01)
(L (W x64 x62 xfe xff x00 x01 x01 x01)) E)
(T (W x00 x00 x80 xbf x00 x00 x80 xbf)
(L (W xff xff xff xff xff xff xff xff)) E)))))
(T (W xbc x00 x00 x00 xb0 x00 x00 x00)
(T (W x00 x00 x00 x00 x00 x00 x00 x00)
(T (W xff xff xff xff xff xff xff xff)
(T (W xff xff xff xff xff xff xff xff)
(T (W x64 x5f x70 x6f x6b x65 x5f x77)
(L (W x00 x00 x80 xbf x00 x00 x80 xbf))
(L (W x45 x26 x22 x84 xe4 x9c xf2 xcb)))
(T (W x00 x00 x00 x00 x00 x00 x00 x00)
(L (W x00 x00 x00 x00 x00 x00 x00 x00)) E))
(T (W x45 x26 x22 x84 xe4 x9c xf2 xcb)
(T (W xff xff xff xff xff xff xff xff)
(L (W x00 x00 x00 x00 xd4 x10 xfe xff)) E)
(T (W xff xff xff xff xff xff xff xff)
(L (W x46 x53 x59 x53 x5f x4e x53 x5f)) E)))
(T (W x45 x26 x22 x84 xe4 x9c xf2 xcb)
(T (W x00 x00 x80 x3f x00 x00 x80 x3f)
(T (W x00 x00 x00 x00 x06 x00 x00 x00)
(L (W xcc x00 x00 x00 x01 x00 x00 x00))
(L (W xff xff xff xff xff xff xff xff)))
(T (W xff xff xff xff xff xff xff xff)
(L (W x21 x00 x00 x00 x24 x00 x00 x00)) E))
(T (W x22 x00 x00 x00 x67 x72 x6f x75)
(T (W xff xff xff xff xff xff xff xff)
(L (W x00 x00 x80 xbf x00 x00 x80 xbf)) E)
(T (W x00 x00 x00 x00 x00 x00 x00 x00)
(L (W xff xff xff xff xff xff xff xff)) E))))
(T (W xb8 x00 x00 x00 xac x00 x00 x00)
(T (W x00 x00 x80 x3f x00 x00 x80 x3f)
(T (W x00 x00 x80 x3f x00 x00 x80 x3f)
(T (W x00 x00 x00 x00 x00 x00 x00 x00)
(L (W x00 x00 x00 x00 x00 x00 x00 x00))
(L (W xcc x00 x00 x00 x01 x00 x00 x00)))
(T (W x68 x00 x00 x00 x5c x00 x00 x00)
(L (W x00 x00 x00 x00 x00 x00 x00 x00)) E))
(T (W xa5 x01 x00 x00 xff xff xff xff)
(T (W x4f x84 x6f x8b xe8 xcb x63 xb7)
(L (W x00 x00 x00 x00 x00 x00 x00 x00)) E)
(T (W x00 x00 x80 xbf x00 x00 x80 xbf)
(L (W x00 x00 x80 xbf x00 x00 x80 xbf)) E)))
(T (W x00 x00 x00 x00 x00 x00 x00 x00)
(T (W x00 x00 x00 x00 x00 x00 x00 x00)
(T (W x50 x00 x00 x00 x44 x00 x00 x00)
(L (W x00 x00 x00 x00 x00 x00 x00 x00))
(L (W x00 x00 x00 x00 x00 x00 x00 x00)))
(T (W xff xff xff xff xff xff xff xff)
(L (W x00 x00 x00 x00 xc2 xf4 xfe xff)) E))
(T (W x00 x00 x00 x00 x00 x00 x00 x00)
(T (W x00 x00 x80 x3f x00 x00 x80 x3f)
(L (W xff xff xff xff xff xff xff xff)) E)
(T (W x18 x00 x00 x00 x10 x00 x00 x00)
(L (W x00 x00 x00 x00 x00 x00 x00 x00)) E)))))))
(T (W x00 x00 x80 x3f x00 x00 x80 x3f)
(T (W x00 x00 x00 x00 x82 x27 xfd xff)
(T (W x00 x00 x80 x3f x00 x00 x80 x3f)
(T (W x64 xbe xf9 xff x00 x01 x01 x01)
(T (W x00 x00 x00 x00 x00 x00 x00 x00)
(T (W x18 x00 x00 x00 x0c x00 x00 x00)
(T (W xff xff xff xff xff xff xff xff)
(L (W xff xff xff xff xff xff xff xff))
(L (W xc4 x00 x00 x00 x02 x00 x00 x00)))
(T (W x18 x01 x00 x00 x04 x00 x00 x00)
(L (W x00 x00 x80 xbf x00 x00 x80 xbf)) E))
(T (W x00 x00 x80 x3f x00 x00 x80 x3f)
(T (W x00 x00 x00 x00 x00 x00 x00 x00)
(L (W xff xff xff xff xff xff xff xff))
(L (W xff xff xff xff xa0 x00 x00 x00)))
(T (W x00 x00 x00 x00 x00 x00 x00 x00)
(L (W x00 x00 x80 xbf x00 x00 x80 xbf)) E)))
(T (W xff xff xff xff xff xff xff xff)
(T (W x48 x03 x00 x00 x34 x02 x00 x00)
(T (W x00 x00 x00 x00 x12 x00 x00 x00)
(L (W xff xff xff xff xff xff xff xff))
(L (W x49 xa1 x68 x4a xeb x5f xdd x3d)))
(T (W x37 x00 x00 x00 xff xff xff xff)
(L (W xff xff xff xff xff xff xff xff)) E))
(T (W xff xff xff xff xa0 x00 x00 x00)
(T (W x00 x00 x00 x00 x00 x00 x00 x00)
(L (W xff xff xff xff xa0 x00 x00 x00)) E)
(T (W x00 x00 x00 x00 x00 x00 x00 x00)
(L (W x30 x32 x5f x43 x4c x45 x41 x52)) E))))
(T (W x00 x00 x00 x00 x00 x00 x00 x00)
(T (W x00 x00 x80 x3f x00 x00 x80 x3f)
(T (W x22 x44 xb0 x3a x49 xce x33 x34)
(T (W x00 x00 x01 x01 x9c x01 x00 x00)
(L (W x00 x00 x00 x00 x00 x00 x00 x00))
(L (W x00 x00 x00 x00 x00 x00 x00 x00)))
(T (W xff xff xff xff xff xff xff xff)
(L (W x45 x26 x22 x84 xe4 x9c xf2 xcb)) E))
(T (W xa5 x01 x00 x00 xff xff xff xff)
(T (W x00 x00 x80 x3f x00 x00 x80 x3f)
(L (W x00 x00 x00 x00 x00 x00 x00 x00)) E)
(T (W x28 x00 x00 x00 x1c x00 x00 x00)
(L (W xff xff xff xff xff xff xff xff)) E)))
(T (W x45 x26 x22 x84 xe4 x9c xf2 xcb)
(T (W xff xff xff xff x04 x00 x00 x00)
(T (W xff xff xff xff xff xff xff xff)
(L (W x49 xa1 x68 x4a xeb x5f xdd x3d))
(L (W x6c x00 x00 x00 x60 x00 x00 x00)))
(T (W xff xff xff xff xff xff xff xff)
(L (W x00 x00 x00 x00 x00 x00 x00 x00)) E))
(T (W x98 x03 x00 x00 x70 x02 x00 x00)
(T (W x00 x00 x80 x3f x00 x00 x80 x3f)
(L (W x91 x01 x00 x00 xff xff xff xff)) E)
(T (W xff xff xff xff xff xff xff xff)
(L (W x54 x00 x00 x00 x48 x00 x00 x00)) E)))))
(T (W x00 x00 x80 x3f x00 x00 x80 x3f)
(T (W xff xff xff xff xff xff xff xff)
(T (W x00 x00 x00 x00 x00 x00 x00 x00)
(T (W x54 x00 x00 x00 x48 x00 x00 x00)
(T (W x00 x00 x00 x00 x00 x00 x00 x00)
(L (W xff xff xff xff xff xff xff xff))
(L (W xff xff xff xff xff xff xff xff)))
(T (W xff xff xff xff xff xff xff xff)
(L (W x64 x8e xfe xff x00 x01 x01 x01)) E))
(T (W x46 x53 x59 x53 x5f x4e x53 x5f)
(T (W x00 x00 x80 x3f x00 x00 x80 x3f)
(L (W x00 x00 x00 x00 x00 x00 x00 x00)) E)
(T (W xff xff xff xff xff xff xff xff)
(L (W x18 x00 x00 x00 x10 x00 x00 x00)) E)))
(T (W xff xff xff xff xff xff xff xff)
(T (W xff xff xff xff xff xff xff xff)
(T (W x6c x00 x00 x00 x60 x00 x00 x00)
(L (W x00 x00 x00 x00 x00 x00 x00 x00))
(L (W x00 x00 x80 xbf x00 x00 x80 xbf)))
(T (W x64 x00 x68 x00 x00 x00 x00 x00)
(L (W x00 x00 x00 x00 x00 x00 x00 x00)) E))
(T (W x00 x00 x80 x3f x00 x00 x80 x3f)
(T (W x4f x84 x6f x8b xe8 xcb x63 xb7)
(L (W xff xff xff xff xff xff xff xff)) E)
(T (W x00 x00 x80 xbf x00 x00 x80 xbf)
(L (W x49 xa1 x68 x4a xeb x5f xdd x3d)) E))))
(T (W x00 x00 x00 x00 x00 x00 x00 x00)
(T (W xff xff xff xff xff xff xff xff)
(T (W x00 x00 x00 x00 x00 x00 x00 x00)
(T (W x00 x00 x80 x3f x00 x00 x80 x3f)
(L (W xff xff xff xff xff xff xff xff))
(L (W x00 x00 x00 x00 x12 x00 x00 x00)))
(T (W x00 x00 x00 x00 x00 x00 x00 x00)
(L (W xff xff xff xff xff xff xff xff)) E))
(T (W x00 x00 x00 x00 x00 x00 x00 x00)
(T (W x45 x26 x22 x84 xe4 x9c xf2 xcb)
(L (W x00 x00 x80 xbf x00 x00 x80 xbf)) E)
(T (W xff xff xff xff xff xff xff xff)
(L (W x5d x00 x00 x00 xff xff xff xff)) E)))
(T (W x64 x6e xfa xff x00 x01 x01 x01)
(T (W xb8 x00 x00 x00 xac x00 x00 x00)
(T (W xff xff xff xff xff xff xff xff)
(L (W xff xff xff xff xb0 x00 x00 x00))
(L (W xff xff xff xff xb0 x00 x00 x00)))
(T (W xff xff xff xff xff xff xff xff)
(L (W x54 x00 x00 x00 x48 x00 x00 x00)) E))
(T (W x50 x00 x00 x00 x44 x00 x00 x00)
(T (W x00 x00 x00 x00 x02 x00 x00 x00)
(L (W x00 x00 x80 xbf x00 x00 x80 xbf)) E)
(T (W x00 x00 x00 x00 x00 x00 x00 x00)
(L (W x54 x00 x00 x00 x48 x00 x00 x00)) E))))))
(T (W xbc x00 x00 x00 xb0 x00 x00 x00)
(T (W xff xff xff xff xff xff xff xff)
(T (W x00 x00 x00 x00 x00 x00 x00 x00)
(T (W x00 x00 x00 x00 x00 x00 x00 x00)
(T (W x00 x00 x80 x3f x00 x00 x80 x3f)
(T (W x00 x00 x00 x00 x00 x00 x00 x00)
(L (W xff xff xff xff xff xff xff xff))
(L (W xff xff xff xff xff xff xff xff)))
(T (W xff xff xff xff xff xff xff xff)
(L (W x00 x00 x80 xbf x00 x00 x80 xbf)) E))
(T (W xff xff xff xff xff xff xff xff)
(T (W x00 x00 x00 x00 x00 x00 x00 x00)
(L (W x00 x00 x00 x00 x72 x02 xfe xff)) E)
(T (W x00 x00 x00 x00 x00 x00 x00 x00)
(L (W x42 x03 xff xff x78 x00 x00 x00)) E)))
(T (W xff xff xff xff xff xff xff xff)
(T (W xff xff xff xff xff xff xff xff)
(T (W x45 x26 x22 x84 xe4 x9c xf2 xcb)
(L (W x00 x00 x00 x00 x00 x00 x00 x00))
(L (W x00 x00 x00 x00 x00 x00 x00 x00)))
(T (W xff xff xff xff xff xff xff xff)
(L (W x00 x00 x00 x00 x00 x00 x00 x00)) E))
(T (W x61 x64 x65 x72 x5f x77 x69 x6c)
(T (W x00 x00 x00 x00 x00 x00 x00 x00)
(L (W xc4 x00 x00 x00 x02 x00 x00 x00)) E)
(T (W x00 x00 x80 xbf x00 x00 x80 xbf)
(L (W x00 x00 x00 x00 x00 x00 x00 x00)) E))))
(T (W x00 x00 x00 x00 x00 x00 x00 x00)
(T (W xfa x35 xfd xff x00 x00 x01 x01)
(T (W x7a xb4 xfd xff x9b x00 x00 x00)
(T (W x00 x00 x00 x00 x00 x00 x00 x00)
(L (W x00 x00 x80 xbf x00 x00 x80 xbf))
(L (W xff xff xff xff xff xff xff xff)))
(T (W x00 x00 x00 x00 x00 x00 x00 x00)
(L (W xff xff xff xff xff xff xff xff)) E))
(T (W x46 x53 x59 x53 x5f x4e x53 x5f)
(T (W x64 x26 xfc xff x00 x01 x01 x01)
(L (W x4f x84 x6f x8b xe8 xcb x63 xb7)) E)
(T (W x03 x00 x00 x00 xd0 x00 x00 x00)
(L (W xff xff xff xff xff xff xff xff)) E)))
(T (W x68 x00 x00 x00 x5c x00 x00 x00)
(T (W x18 x00 x00 x00 x10 x00 x00 x00)
(T (W xff xff xff xff xc4 x00 x00 x00)
(L (W x00 x00 x80 xbf x00 x00 x80 xbf))
(L (W x18 x00 x00 x00 x10 x00 x00 x00)))
(T (W x00 x00 x80 x3f x00 x00 x80 x3f)
(L (W x00 x00 x80 xbf x00 x00 x80 xbf)) E))
(T (W x00 x00 x80 x3f x00 x00 x80 x3f)
(T (W x00 x00 x80 x3f x00 x00 x80 x3f)
(L (W x00 x00 x00 x00 x00 x00 x00 x00)) E)
(T (W xff xff xff xff xff xff xff xff)
(L (W x00 x00 x80 xbf x00 x00 x80 xbf)) E)))))
(T (W x00 x00 x00 x00 x0a x4e xfd xff)
(T (W x00 x00 x80 x3f x00 x00 x80 x3f)
(T (W x00 x00 x80 x3f x00 x00 x80 x3f)
(T (W x00 x00 x80 x3f x00 x00 x80 x3f)
(T (W xff xff xff xff x9c x00 x00 x00)
(L (W x4a xf3 xff xff x00 x00 x01 x01))
(L (W x00 x00 x00 x00 x00 x00 x00 x00)))
(T (W x00 x00 x00 x00 xd4 x94 xfc xff)
(L (W x45 x26 x22 x84 xe4 x9c xf2 xcb)) E))
(T (W x00 x00 x80 x3f x00 x00 x80 x3f)
(T (W x00 x00 x80 x3f x00 x00 x80 x3f)
(L (W x00 x00 x00 x00 x00 x00 x00 x00)) E)
(T (W x45 x26 x22 x84 xe4 x9c xf2 xcb)
(L (W xff xff xff xff xff xff xff xff)) E)))
(T (W xb8 x00 x00 x00 xac x00 x00 x00)
(T (W xff xff xff xff xff xff xff xff)
(T (W x68 x00 x00 x00 x5c x00 x00 x00)
(L (W x00 x00 x00 x00 x00 x00 x00 x00))
(L (W x54 x00 x00 x00 x48 x00 x00 x00)))
(T (W xcc x00 x00 x00 x01 x00 x00 x00)
(L (W x00 x00 x00 x00 x00 x00 x00 x00)) E))
(T (W x92 x51 xfb xff x74 x00 x00 x00)
(T (W x00 x00 x00 x00 x00 x00 x00 x00)
(L (W xff xff xff xff xff xff xff xff)) E)
(T (W xff xff xff xff xc8 x00 x00 x00)
(L (W x00 x00 x80 xbf x00 x00 x80 xbf)) E))))
(T (W x00 x00 x00 x00 x00 x00 x00 x00)
(T (W xff xff xff xff xff xff xff xff)
(T (W x00 x00 x00 x00 x00 x00 x00 x00)
(T (W xff xff xff xff xff xff xff xff)
(L (W x00 x00 x80 xbf x00 x00 x80 xbf))
(L (W x00 x00 x00 x00 x00 x00 x00 x00)))
(T (W x00 x00 x00 x00 x00 x00 x00 x00)
(L (W xff xff xff xff xff xff xff xff)) E))
(T (W x6c x00 x00 x00 x60 x00 x00 x00)
(T (W x74 x03 x00 x00 x4c x02 x00 x00)
(L (W x00 x00 x80 xbf x00 x00 x80 xbf)) E)
(T (W x02 x00 x00 x00 x30 x01 x00 x00)
(L (W x00 x00 x01 x01 x5d x00 x00 x00)) E)))
(T (W x45 x26 x22 x84 xe4 x9c xf2 xcb)
(T (W x00 x00 x00 x00 x00 x00 x00 x00)
(T (W xff xff xff xff xff xff xff xff)
(L (W xff xff xff xff xff xff xff xff))
(L (W xff xff xff xff xff xff xff xff)))
(T (W x00 x00 x80 x3f x00 x00 x80 x3f)
(L (W x00 x00 x80 xbf x00 x00 x80 xbf)) E))
(T (W xcc x00 x00 x00 xc0 x00 x00 x00)
(T (W xff xff xff xff xff xff xff xff)
(L (W x45 x26 x22 x84 xe4 x9c xf2 xcb)) E)
(T (W x00 x00 x00 x00 x52 x7a xfd xff)
(L (W x18 x00 x00 x00 x10 x00 x00 x00)) E))))))))
(T (W xff xff xff xff xff xff xff xff)
(T (W x00 x00 x00 x00 x00 x00 x00 x00)
(T (W xff xff xff xff xff xff xff xff)
(T (W x00 x00 x00 x00 x00 x00 x00 x00)
(T (W x00 x00 x80 x3f x00 x00 x80 x3f)
(T (W xc5 x01 x00 x00 xff xff xff xff)
(T (W x00 x00 x80 x3f x00 x00 x80 x3f)
(T (W x00 x00 x00 x00 xd4 x7a xfb xff)
(L (W xbc x00 x00 x00 x1e x00 x00 x00))
(L (W x54 x00 x00 x00 x48 x00 x00 x00)))
(T (W xff xff xff xff xff xff xff xff)
(L (W x00 x00 x00 x00 x12 x00 x00 x00)) E))
(T (W x00 x00 x00 x00 x00 x00 x00 x00)
(T (W xff xff xff xff xff xff xff xff)
(L (W x18 x00 x00 x00 x0c x00 x00 x00))
(L (W x00 x00 x00 x00 x00 x00 x00 x00)))
(T (W xff xff xff xff xff xff xff xff)
(L (W x00 x00 x00 x00 x00 x00 x00 x00)) E)))
(T (W x18 x00 x00 x00 x0c x00 x00 x00)
(T (W xff xff xff xff xff xff xff xff)
(T (W xff xff xff xff xff xff xff xff)
(L (W xff xff xff xff xbc x00 x00 x00))
(L (W xff xff xff xff xff xff xff xff)))
(T (W xff xff xff xff x03 x00 x00 x00)
(L (W xff xff xff xff xb0 x00 x00 x00)) E))
(T (W x45 x26 x22 x84 xe4 x9c xf2 xcb)
(T (W xff xff xff xff xff xff xff xff)
(L (W x00 x00 x00 x00 x00 x00 x00 x00)) E)
(T (W xff xff xff xff xff xff xff xff)
(L (W x1a x00 x00 x00 x1d x00 x00 x00)) E))))
(T (W xff xff xff xff xff xff xff xff)
(T (W x00 x00 x00 x00 x00 x00 x00 x00)
(T (W xff xff xff xff xff xff xff xff)
(T (W x42 x99 xfb xff x78 x00 x00 x00)
(L (W xff xff xff xff xff xff xff xff))
(L (W xff xff xff xff xff xff xff xff)))
(T (W x00 x00 x80 x3f x00 x00 x80 x3f)
(L (W x00 x00 x80 xbf x00 x00 x80 xbf)) E))
(T (W x18 x00 x00 x00 x0c x00 x00 x00)
(T (W x45 x26 x22 x84 xe4 x9c xf2 xcb)
(L (W xff xff xff xff xff xff xff xff)) E)
(T (W x00 x00 x62 x00 x74 x00 x08 x00)
(L (W x45 x26 x22 x84 xe4 x9c xf2 xcb)) E)))
(T (W x00 x00 x80 x3f x00 x00 x80 x3f)
(T (W x68 x00 x00 x00 x5c x00 x00 x00)
(T (W x00 x00 x80 x3f x00 x00 x80 x3f)
(L (W x00 x00 x00 x00 x72 xd8 xfd xff))
(L (W x49 xa1 x68 x4a xeb x5f xdd x3d)))
(T (W x00 x00 x80 x3f x00 x00 x80 x3f)
(L (W xff xff xff xff xff xff xff xff)) E))
(T (W x64 x5c xfb xff x00 x01 x01 x01)
(T (W x00 x00 x00 x00 x00 x00 x00 x00)
(L (W xbc x00 x00 x00 x32 x00 x00 x00)) E)
(T (W x6c x00 x00 x00 x60 x00 x00 x00)
(L (W x30 x32 x5f x43 x4c x45 x41 x52)) E)))))
(T (W x45 x26 x22 x84 xe4 x9c xf2 xcb)
(T (W x00 x00 x00 x00 xd4 xca xf9 xff)
(T (W xff xff xff xff xff xff xff xff)
(T (W x00 x00 x00 x00 x00 x00 x00 x00)
(T (W x00 x00 x00 x00 x00 x00 x00 x00)
(L (W x18 x00 x00 x00 x0c x00 x00 x00))
(L (W x45 x26 x22 x84 xe4 x9c xf2 xcb)))
(T (W x92 x87 xfc xff x74 x00 x00 x00)
(L (W x00 x00 x00 x00 x00 x00 x00 x00)) E))
(T (W xff xff xff xff xff xff xff xff)
(T (W x7d x95 xd4 x99 x70 xbe xe3 x36)
(L (W xff xff xff xff xff xff xff xff)) E)
(T (W x00 x00 x80 xbf x00 x00 x80 xbf)
(L (W x00 x00 x80 xbf x00 x00 x80 xbf)) E)))
(T (W x00 x00 x80 x3f x00 x00 x80 x3f)
(T (W x92 xc7 xfa xff x74 x00 x00 x00)
(T (W x45 x44 x00 x00 x00 x00 x00 x00)
(L (W xff xff xff xff xff xff xff xff))
(L (W x00 x00 x00 x00 x00 x00 x00 x00)))
(T (W x24 x00 x28 x00 x2c x00 x30 x00)
(L (W xff xff xff xff xff xff xff xff)) E))
(T (W x30 x32 x5f x43 x4c x45 x41 x52)
(T (W xff xff xff xff xff xff xff xff)
(L (W x00 x00 x80 xbf x00 x00 x80 xbf)) E)
(T (W x46 x53 x59 x53 x5f x4e x53 x5f)
(L (W xff xff xff xff xff xff xff xff)) E))))
(T (W xc0 x02 x00 x00 xff xff xff xff)
(T (W x68 x00 x00 x00 x5c x00 x00 x00)
(T (W xff xff xff xff xff xff xff xff)
(T (W x00 x00 x00 x00 x00 x00 x00 x00)
(L (W xff xff xff xff xff xff xff xff))
(L (W xff xff xff xff xff xff xff xff)))
(T (W x70 x00 x00 x00 xff xff xff xff)
(L (W x00 x00 x80 xbf x00 x00 x80 xbf)) E))
(T (W x76 x31 x00 x00 x82 xc5 xfe xff)
(T (W x00 x00 x80 x3f x00 x00 x80 x3f)
(L (W x00 x00 x00 x00 x00 x00 x00 x00)) E)
(T (W xff xff xff xff xa0 x00 x00 x00)
(L (W x68 x00 x00 x00 x5c x00 x00 x00)) E)))
(T (W x00 x00 x80 x3f x00 x00 x80 x3f)
(T (W x64 xec xfa xff x00 x01 x01 x01)
(T (W x24 x00 x00 x00 xb0 x00 x00 x00)
(L (W x00 x00 x80 xbf x00 x00 x80 xbf))
(L (W x49 xa1 x68 x4a xeb x5f xdd x3d)))
(T (W x01 x00 x00 x00 xac x00 x00 x00)
(L (W xec xf9 xfe xff x10 x00 x00 x00)) E))
(T (W x00 x00 x00 x00 x00 x00 x00 x00)
(T (W xff xff xff xff xff xff xff xff)
(L (W xff xff xff xff xff xff xff xff)) E)
(T (W xff xff xff xff xff xff xff xff)
(L (W x00 x00 x00 x00 x00 x00 x00 x00)) E))))))
(T (W x6c x00 x00 x00 x60 x00 x00 x00)
(T (W xbc x00 x00 x00 xb0 x00 x00 x00)
(T (W x00 x00 x00 x00 x82 x5d xfd xff)
(T (W xff xff xff xff xff xff xff xff)
(T (W x00 x00 x00 x00 x00 x00 x00 x00)
(T (W xff xff xff xff xff xff xff xff)
(L (W x38 x2f x00 x00 x24 x2e x00 x00))
(L (W x6c x00 x00 x00 x60 x00 x00 x00)))
(T (W x00 x00 x00 x00 xd4 x82 xfc xff)
(L (W x00 x00 x00 x00 x00 x00 x00 x00)) E))
(T (W x00 x00 x80 x3f x00 x00 x80 x3f)
(T (W xff xff xff xff xff xff xff xff)
(L (W xff xff xff xff xff xff xff xff))
(L (W xff xff xff xff xff xff xff xff)))
(T (W xff xff xff xff xff xff xff xff)
(L (W x49 xa1 x68 x4a xeb x5f xdd x3d)) E)))
(T (W x68 x00 x00 x00 x5c x00 x00 x00)
(T (W x18 x00 x00 x00 x0c x00 x00 x00)
(T (W x13 x00 x00 x00 x0c x00 x00 x00)
(L (W xff xff xff xff xff xff xff xff))
(L (W x00 x00 x01 x01 xc5 x01 x00 x00)))
(T (W x68 x00 x00 x00 x5c x00 x00 x00)
(L (W xff xff xff xff x9c x00 x00 x00)) E))
(T (W xff xff xff xff x03 x00 x00 x00)
(T (W xff xff xff xff xff xff xff xff)
(L (W x00 x00 x80 xbf x00 x00 x80 xbf)) E)
(T (W x18 x00 x00 x00 x0c x00 x00 x00)
(L (W xff xff xff xff xff xff xff xff)) E))))
(T (W xff xff xff xff xff xff xff xff)
(T (W x45 x26 x22 x84 xe4 x9c xf2 xcb)
(T (W xff xff xff xff xff xff xff xff)
(T (W xff xff xff xff xff xff xff xff)
(L (W x00 x00 x00 x00 x00 x00 x00 x00))
(L (W x00 x00 x00 x00 x00 x00 x00 x00)))
(T (W xff xff xff xff xff xff xff xff)
(L (W x00 x00 x80 xbf x00 x00 x80 xbf)) E))
(T (W xff xff xff xff xff xff xff xff)
(T (W x00 x00 x80 x3f x00 x00 x80 x3f)
(L (W x45 x44 x00 x00 x00 x00 x00 x00)) E)
(T (W x00 x00 x80 xbf x00 x00 x80 xbf)
(L (W xff xff xff xff xb0 x00 x00 x00)) E)))
(T (W x00 x00 x80 x3f x00 x00 x80 x3f)
(T (W x92 xdf xfa xff x74 x00 x00 x00)
(T (W x00 x00 x80 x3f x00 x00 x80 x3f)
(L (W x00 x00 x00 x00 x00 x00 x00 x00))
(L (W x00 x00 x00 x00 x00 x00 x00 x00)))
(T (W xff xff xff xff xff xff xff xff)
(L (W x30 x32 x5f x43 x4c x45 x41 x52)) E))
(T (W x00 x00 x00 x00 x00 x00 x00 x00)
(T (W x00 x00 x00 x00 x00 x00 x00 x00)
(L (W xff xff xff xff xff xff xff xff)) E)
(T (W xbc x00 x00 x00 x28 x00 x00 x00)
(L (W x00 x00 x00 x00 x00 x00 x00 x00)) E)))))
(T (W xff xff xff xff xff xff xff xff)
(T (W x00 x00 x00 x00 x00 x00 x00 x00)
(T (W x1b x00 x00 x00 x67 x72 x6f x75)
(T (W x00 x00 x00 x00 x00 x00 x00 x00)
(T (W x45 x26 x22 x84 xe4 x9c xf2 xcb)
(L (W x03 x00 x00 x00 xcc x00 x00 x00))
(L (W xff xff xff xff xff xff xff xff)))
(T (W x00 x00 x80 x3f x00 x00 x80 x3f)
(L (W x45 x26 x22 x84 xe4 x9c xf2 xcb)) E))
(T (W x00 x00 x00 x00 x06 x00 x00 x00)
(T (W x00 x00 x00 x00 x00 x00 x00 x00)
(L (W xff xff xff xff xff xff xff xff)) E)
(T (W x00 x00 x00 x00 x00 x00 x00 x00)
(L (W x45 x26 x22 x84 xe4 x9c xf2 xcb)) E)))
(T (W x00 x00 x80 x3f x00 x00 x80 x3f)
(T (W x00 x00 x80 x3f x00 x00 x80 x3f)
(T (W x00 x00 x80 x3f x00 x00 x80 x3f)
(L (W xff xff xff xff xff xff xff xff))
(L (W x00 x00 x00 x00 x00 x00 x00 x00)))
(T (W x49 xa1 x68 x4a xeb x5f xdd x3d)
(L (W xff xff xff xff xff xff xff xff)) E))
(T (W x00 x00 x80 x3f x00 x00 x80 x3f)
(T (W x00 x00 x00 x00 x00 x00 x00 x00)
(L (W x42 x51 xfe xff x78 x00 x00 x00)) E)
(T (W x00 x00 x80 xbf x00 x00 x80 xbf)
(L (W x15 x00 x00 x00 x0c x00 x00 x00)) E))))
(T (W x00 x00 x00 x00 x00 x00 x00 x00)
(T (W x64 x34 xfa xff x00 x01 x01 x01)
(T (W xff xff xff xff x03 x00 x00 x00)
(T (W x6c x00 x00 x00 x60 x00 x00 x00)
(L (W x45 x26 x22 x84 xe4 x9c xf2 xcb))
(L (W xff xff xff xff xff xff xff xff)))
(T (W xff xff xff xff xff xff xff xff)
(L (W x00 x00 x80 xbf x00 x00 x80 xbf)) E))
(T (W x00 x00 x00 x00 x12 x00 x00 x00)
(T (W x64 x34 xfc xff x00 x01 x01 x01)
(L (W x00 x00 x00 x00 x00 x00 x00 x00)) E)
(T (W x03 x00 x00 x00 xd0 x00 x00 x00)
(L (W x45 x26 x22 x84 xe4 x9c xf2 xcb)) E)))
(T (W x45 x26 x22 x84 xe4 x9c xf2 xcb)
(T (W xff xff xff xff xff xff xff xff)
(T (W xff xff xff xff x9c x00 x00 x00)
(L (W x42 xf1 xfd xff x78 x00 x00 x00))
(L (W x00 x00 x00 x00 xd4 xf2 xff xff)))
(T (W x00 x00 x00 x00 x00 x00 x00 x00)
(L (W x00 x00 x00 x00 x00 x00 x00 x00)) E))
(T (W x54 x00 x00 x00 x48 x00 x00 x00)
(T (W x45 x26 x22 x84 xe4 x9c xf2 xcb)
(L (W x00 x00 x00 x00 x00 x00 x00 x00)) E)
(T (W x00 x00 x80 xbf x00 x00 x80 xbf)
(L (W x00 x00 x80 xbf x00 x00 x80 xbf)) E)))))))
(T (W x54 x00 x00 x00 x48 x00 x00 x00)
(T (W x00 x00 x00 x00 x00 x00 x00 x00)
(T (W x00 x00 x80 x3f x00 x00 x80 x3f)
(T (W xff xff xff xff x03 x00 x00 x00)
(T (W x92 xfb xf9 xff x74 x00 x00 x00)
(T (W xff xff xff xff xff xff xff xff)
(T (W x49 xa1 x68 x4a xeb x5f xdd x3d)
(L (W x4f x84 x6f x8b xe8 xcb x63 xb7))
(L (W x94 x04 x00 x00 x80 x03 x00 x00)))
(T (W x00 x00 x00 x00 x00 x00 x00 x00)
(L (W x03 x00 x00 x00 xd8 x00 x00 x00)) E))
(T (W xff xff xff xff xff xff xff xff)
(T (W x00 x00 x80 x3f x00 x00 x80 x3f)
(L (W x00 x00 x00 x00 x00 x00 x00 x00))
(L (W x4f x84 x6f x8b xe8 xcb x63 xb7)))
(T (W xff xff xff xff xff xff xff xff)
(L (W x18 x00 x00 x00 x10 x00 x00 x00)) E)))
(T (W x00 x00 x00 x00 x00 x00 x00 x00)
(T (W x00 x00 x00 x00 x00 x00 x00 x00)
(T (W x00 x00 x80 x3f x00 x00 x80 x3f)
(L (W xff xff xff xff x02 x00 x00 x00))
(L (W x6c x00 x00 x00 x60 x00 x00 x00)))
(T (W x00 x00 x00 x00 x00 x00 x00 x00)
(L (W x00 x00 x00 x00 x00 x00 x00 x00)) E))
(T (W xfa x7e xfd xff x9c x01 x00 x00)
(T (W x00 x00 x80 x3f x00 x00 x80 x3f)
(L (W xff xff xff xff xff xff xff xff)) E)
(T (W x00 x00 x80 xbf x00 x00 x80 xbf)
(L (W x49 xa1 x68 x4a xeb x5f xdd x3d)) E))))
(T (W x00 x00 x80 x3f x00 x00 x80 x3f)
(T (W x00 x00 x00 x00 x00 x00 x00 x00)
(T (W x45 x26 x22 x84 xe4 x9c xf2 xcb)
(T (W x00 x00 x00 x00 x00 x00 x00 x00)
(L (W x00 x00 x80 xbf x00 x00 x80 xbf))
(L (W x54 x00 x00 x00 x48 x00 x00 x00)))
(T (W x70 x5f x6c x65 x61 x64 x65 x72)
(L (W xff xff xff xff xff xff xff xff)) E))
(T (W x00 x00 x00 x00 x00 x00 x00 x00)
(T (W xff xff xff xff xff xff xff xff)
(L (W x00 x00 x00 x00 xd4 x1e xfe xff)) E)
(T (W x00 x00 x00 x00 x00 x00 x00 x00)
(L (W x45 x44 x00 x00 x00 x00 x00 x00)) E)))
(T (W xfa x6f xfd xff x00 x00 x01 x01)
(T (W x3e x00 x00 x00 x10 x00 x00 x00)
(T (W x00 x00 x00 x00 x00 x00 x00 x00)
(L (W x5c x00 x00 x00 x50 x00 x00 x00))
(L (W x03 x00 x00 x00 xd8 x00 x00 x00)))
(T (W x45 x44 x00 x00 x00 x00 x00 x00)
(L (W x00 x00 x80 xbf x00 x00 x80 xbf)) E))
(T (W x45 x26 x22 x84 xe4 x9c xf2 xcb)
(T (W x01 x00 x00 x00 xb0 x00 x00 x00)
(L (W x00 x00 x80 xbf x00 x00 x80 xbf)) E)
(T (W x00 x00 x00 x00 x00 x00 x00 x00)
(L (W x03 x00 x00 x00 xd0 x00 x00 x00)) E)))))
(T (W x42 xad xf9 xff x78 x00 x00 x00)
(T (W xff xff xff xff xff xff xff xff)
(T (W x00 x00 x80 x3f x00 x00 x80 x3f)
(T (W xff xff xff xff xff xff xff xff)
(T (W xd4 x00 x00 x00 xc8 x00 x00 x00)
(L (W x00 x00 x00 x00 x00 x00 x00 x00))
(L (W x00 x00 x00 x00 x00 x00 x00 x00)))
(T (W x18 x01 x00 x00 x04 x00 x00 x00)
(L (W xff xff xff xff xff xff xff xff)) E))
(T (W x49 xa1 x68 x4a xeb x5f xdd x3d)
(T (W x68 x00 x00 x00 x5c x00 x00 x00)
(L (W x00 x00 x80 xbf x00 x00 x80 xbf)) E)
(T (W x00 x00 x00 x00 x00 x00 x00 x00)
(L (W xff xff xff xff xff xff xff xff)) E)))
(T (W x87 xe1 xaf xeb x7a xec x7b xb9)
(T (W x00 x00 x00 x00 x00 x00 x00 x00)
(T (W xff xff xff xff x03 x00 x00 x00)
(L (W x4f x84 x6f x8b xe8 xcb x63 xb7))
(L (W x18 x00 x00 x00 x0c x00 x00 x00)))
(T (W xbc x00 x00 x00 x05 x00 x00 x00)
(L (W x45 x26 x22 x84 xe4 x9c xf2 xcb)) E))
(T (W xff xff xff xff xff xff xff xff)
(T (W x00 x00 x80 x3f x00 x00 x80 x3f)
(L (W x30 x32 x5f x43 x4c x45 x41 x52)) E)
(T (W x45 x26 x22 x84 xe4 x9c xf2 xcb)
(L (W x42 x4d xff xff x78 x00 x00 x00)) E))))
(T (W x00 x00 x80 x3f x00 x00 x80 x3f)
(T (W x00 x00 x00 x00 x00 x00 x00 x00)
(T (W x00 x00 x00 x00 x00 x00 x00 x00)
(T (W xff xff xff xff xff xff xff xff)
(L (W x00 x00 x00 x00 x00 x00 x00 x00))
(L (W x00 x00 x80 xbf x00 x00 x80 xbf)))
(T (W x45 x26 x22 x84 xe4 x9c xf2 xcb)
(L (W x00 x00 x00 x00 x32 xae xfe xff)) E))
(T (W x18 x00 x00 x00 x10 x00 x00 x00)
(T (W x30 x32 x5f x43 x4c x45 x41 x52)
(L (W xff xff xff xff xff xff xff xff)) E)
(T (W x30 x32 x5f x43 x4c x45 x41 x52)
(L (W x00 x00 x00 x00 x00 x00 x00 x00)) E)))
(T (W xff xff xff xff xff xff xff xff)
(T (W xff xff xff xff xff xff xff xff)
(T (W x00 x00 x00 x00 x00 x00 x00 x00)
(L (W xff xff xff xff xff xff xff xff))
(L (W xff xff xff xff xff xff xff xff)))
(T (W x00 x00 x00 x00 x00 x00 x62 x00)
(L (W xff xff xff xff xc8 x00 x00 x00)) E))
(T (W xff xff xff xff x9c x00 x00 x00)
(T (W x00 x00 x00 x00 x00 x00 x00 x00)
(L (W x64 x70 xfe xff x00 x01 x01 x01)) E)
(T (W x00 x00 x80 xbf x00 x00 x80 xbf)
(L (W xff xff xff xff xff xff xff xff)) E))))))
(T (W xff xff xff xff xff xff xff xff)
(T (W x00 x00 x01 x01 xc9 x00 x00 x00)
(T (W x45 x26 x22 x84 xe4 x9c xf2 xcb)
(T (W x00 x00 x80 x3f x00 x00 x80 x3f)
(T (W xff xff xff xff xff xff xff xff)
(T (W x00 x00 x80 x3f x00 x00 x80 x3f)
(L (W x4c x45 x41 x52 x45 x44 x00 x00))
(L (W x00 x00 x00 x00 x00 x00 x00 x00)))
(T (W x00 x00 x00 x00 x00 x00 x00 x00)
(L (W xff xff xff xff xff xff xff xff)) E))
(T (W x00 x00 x00 x00 x00 x00 x00 x00)
(T (W x00 x00 x80 x3f x00 x00 x80 x3f)
(L (W x00 x00 x00 x00 x00 x00 x00 x00)) E)
(T (W xff xff xff xff xff xff xff xff)
(L (W xff xff xff xff xff xff xff xff)) E)))
(T (W x00 x00 x00 x00 x00 x00 x00 x00)
(T (W x00 x00 x00 x00 x00 x00 x00 x00)
(T (W xb8 x00 x00 x00 x28 x00 x00 x00)
(L (W x00 x00 x80 xbf x00 x00 x80 xbf))
(L (W x00 x00 x00 x00 xd4 xc6 xff xff)))
(T (W x13 x00 x00 x00 x46 x53 x59 x53)
(L (W x00 x00 x00 x00 x00 x00 x00 x00)) E))
(T (W x45 x26 x22 x84 xe4 x9c xf2 xcb)
(T (W x00 x00 x80 x3f x00 x00 x80 x3f)
(L (W xff xff xff xff xff xff xff xff)) E)
(T (W x45 x26 x22 x84 xe4 x9c xf2 xcb)
(L (W x00 x00 x80 xbf x00 x00 x80 xbf)) E))))
(T (W x50 x00 x00 x00 x44 x00 x00 x00)
(T (W x00 x00 x00 x00 x00 x00 x00 x00)
(T (W x00 x00 x00 x00 x00 x00 x00 x00)
(T (W x18 x00 x00 x00 x0c x00 x00 x00)
(L (W x92 xa3 xfd xff x74 x00 x00 x00))
(L (W x00 x00 x00 x00 x00 x00 x00 x00)))
(T (W x45 x26 x22 x84 xe4 x9c xf2 xcb)
(L (W x00 x00 x00 x00 x00 x00 x00 x00)) E))
(T (W x49 xa1 x68 x4a xeb x5f xdd x3d)
(T (W x4b x00 x00 x00 xff xff xff xff)
(L (W xff xff xff xff xb0 x00 x00 x00)) E)
(T (W x02 x00 x00 x00 x30 x01 x00 x00)
(L (W x00 x00 x00 x00 x00 x00 x00 x00)) E)))
(T (W xff xff xff xff xff xff xff xff)
(T (W xfa xf7 xfd xff x00 x00 x01 x01)
(T (W x46 x53 x59 x53 x5f x4e x53 x5f)
(L (W x92 xe3 xfd xff x74 x00 x00 x00))
(L (W xff xff xff xff xff xff xff xff)))
(T (W x6a xec xff xff xc5 x00 x00 x00)
(L (W x64 xe8 xfe xff x00 x01 x01 x01)) E))
(T (W x6c x00 x00 x00 x60 x00 x00 x00)
(T (W x64 x00 x08 x00 x0c x00 x00 x00)
(L (W x00 x00 x80 xbf x00 x00 x80 xbf)) E)
(T (W x00 x00 x00 x00 x00 x00 x00 x00)
(L (W xff xff xff xff xff xff xff xff)) E)))))
(T (W x00 x00 x00 x00 x00 x00 x00 x00)
(T (W x00 x00 x80 x3f x00 x00 x80 x3f)
(T (W xff xff xff xff x03 x00 x00 x00)
(T (W x00 x00 x00 x00 x60 x00 x64 x00)
(T (W xff xff xff xff xff xff xff xff)
(L (W x00 x00 x00 x00 x00 x00 x00 x00))
(L (W x00 x00 x80 xbf x00 x00 x80 xbf)))
(T (W xff xff xff xff xff xff xff xff)
(L (W xff xff xff xff xff xff xff xff)) E))
(T (W x00 x00 x00 x00 x00 x00 x00 x00)
(T (W x64 x18 xfc xff x00 x01 x01 x01)
(L (W x00 x00 x80 xbf x00 x00 x80 xbf)) E)
(T (W x00 x00 x62 x00 x78 x00 x08 x00)
(L (W x00 x00 x00 x00 x00 x00 x00 x00)) E)))
(T (W x84 x01 x00 x00 xff xff xff xff)
(T (W x00 x00 x00 x00 x00 x00 x00 x00)
(T (W xff xff xff xff xc4 x00 x00 x00)
(L (W x00 x00 x80 xbf x00 x00 x80 xbf))
(L (W xb4 x00 x00 x00 x32 x00 x00 x00)))
(T (W xff xff xff xff xff xff xff xff)
(L (W x00 x00 x80 xbf x00 x00 x80 xbf)) E))
(T (W x45 x44 x00 x00 x00 x00 x00 x00)
(T (W xff xff xff xff x9c x00 x00 x00)
(L (W x00 x00 x00 x00 x00 x00 x00 x00)) E)
(T (W x53 x01 x00 x00 xff xff xff xff)
(L (W x18 x00 x00 x00 x10 x00 x00 x00)) E))))
(T (W x00 x00 x80 x3f x00 x00 x80 x3f)
(T (W x00 x00 x00 x00 x00 x00 x00 x00)
(T (W x00 x00 x00 x00 x00 x00 x00 x00)
(T (W x00 x00 x00 x00 x00 x00 x00 x00)
(L (W x50 x00 x00 x00 x44 x00 x00 x00))
(L (W x00 x00 x80 xbf x00 x00 x80 xbf)))
(T (W x45 x26 x22 x84 xe4 x9c xf2 xcb)
(L (W x45 x44 x00 x00 x00 x00 x00 x00)) E))
(T (W xff xff xff xff xff xff xff xff)
(T (W x45 x26 x22 x84 xe4 x9c xf2 xcb)
(L (W xff xff xff xff xff xff xff xff)) E)
(T (W x00 x00 x00 x00 x00 x00 x00 x00)
(L (W x00 x00 x00 x00 x00 x00 x00 x00)) E)))
(T (W xb8 x00 x00 x00 xac x00 x00 x00)
(T (W x00 x00 x00 x00 x00 x00 x00 x00)
(T (W x00 x00 x80 x3f x00 x00 x80 x3f)
(L (W x00 x00 x00 x00 x00 x00 x00 x00))
(L (W x45 x44 x00 x00 x00 x00 x00 x00)))
(T (W x18 x00 x00 x00 x0c x00 x00 x00)
(L (W xff xff xff xff xff xff xff xff)) E))
(T (W x94 x7c xfb xff x15 x00 x00 x00)
(T (W x00 x00 x80 x3f x00 x00 x80 x3f)
(L (W xbc x00 x00 x00 x1e x00 x00 x00)) E)
(T (W x45 x26 x22 x84 xe4 x9c xf2 xcb)
(L (W xff xff xff xff xff xff xff xff)) E)))))))))
(T (W x10 xc4 x01 x00 x44 xbf x01 x00)
(T (W x68 x79 x00 x00 x34 x78 x00 x00)
(T (W x00 x00 x00 x00 x00 x00 x00 x00)
(T (W xff xff xff xff xff xff xff xff)
(T (W x00 x00 x00 x00 x00 x00 x00 x00)
(T (W x00 x00 x80 x3f x00 x00 x80 x3f)
(T (W xff xff xff xff xff xff xff xff)
(T (W x00 x00 x00 x00 x00 x00 x00 x00)
(T (W x00 x00 x80 x3f x00 x00 x80 x3f)
(L (W x64 x7b xfd xff x00 x01 x01 x01))
(L (W x00 x00 x80 xbf x00 x00 x80 xbf)))
(T (W x00 x00 x00 x00 xd4 x79 xfc xff)
(L (W x00 x00 x00 x00 x52 x7f xfe xff)) E))
(T (W x5c x00 x60 x00 x62 x00 x00 x00)
(T (W xff xff xff xff x9c x00 x00 x00)
(L (W x00 x00 x80 xbf x00 x00 x80 xbf))
(L (W x00 x00 x80 xbf x00 x00 x80 xbf)))
(T (W x50 x00 x00 x00 x44 x00 x00 x00)
(L (W x00 x00 x00 x00 x12 x00 x00 x00)) E)))
(T (W x00 x00 x80 x3f x00 x00 x80 x3f)
(T (W x92 xb6 xfa xff x74 x00 x00 x00)
(T (W x01 x00 x00 x00 xac x00 x00 x00)
(L (W xff xff xff xff x9c x00 x00 x00))
(L (W xff xff xff xff xff xff xff xff)))
(T (W x68 x00 x00 x00 x5c x00 x00 x00)
(L (W x00 x00 x80 xbf x00 x00 x80 xbf)) E))
(T (W x00 x00 x00 x00 x00 x00 x00 x00)
(T (W xd4 x00 x00 x00 xc8 x00 x00 x00)
(L (W x00 x00 x00 x00 x12 x00 x00 x00)) E)
(T (W xff xff xff xff xff xff xff xff)
(L (W x42 x38 xff xff x78 x00 x00 x00)) E))))
(T (W x45 x26 x22 x84 xe4 x9c xf2 xcb)
(T (W xec x28 xfa xff x3c x00 x00 x00)
(T (W xff xff xff xff xff xff xff xff)
(T (W x00 x00 x80 x3f x00 x00 x80 x3f)
(L (W xff xff xff xff xac x00 x00 x00))
(L (W xff xff xff xff xff xff xff xff)))
(T (W x00 x00 x00 x00 x00 x00 x00 x00)
(L (W x45 x26 x22 x84 xe4 x9c xf2 xcb)) E))
(T (W x00 x00 x80 x3f x00 x00 x80 x3f)
(T (W x00 x00 x00 x00 x00 x00 x00 x00)
(L (W xff xff xff xff xff xff xff xff)) E)
(T (W xff xff xff xff xff xff xff xff)
(L (W x00 x00 x80 xbf x00 x00 x80 xbf)) E)))
(T (W x00 x00 x80 x3f x00 x00 x80 x3f)
(T (W x00 x00 x80 x3f x00 x00 x80 x3f)
(T (W x00 x00 x80 x3f x00 x00 x80 x3f)
(L (W xff xff xff xff xff xff xff xff))
(L (W x18 x00 x00 x00 x0c x00 x00 x00)))
(T (W x49 xa1 x68 x4a xeb x5f xdd x3d)
(L (W xb0 x00 x00 x00 x64 x00 x00 x00)) E))
(T (W x68 x00 x00 x00 x5c x00 x00 x00)
(T (W xff xff xff xff xff xff xff xff)
(L (W x64 x5b xfe xff x00 x01 x01 x01)) E)
(T (W x00 x00 x80 xbf x00 x00 x80 xbf)
(L (W x00 x00 x01 x01 x4a x00 x00 x00)) E)))))
(T (W x00 x00 x00 x00 x00 x00 x00 x00)
(T (W x6c x00 x00 x00 x60 x00 x00 x00)
(T (W xff xff xff xff xff xff xff xff)
(T (W x91 x6a xae x54 xf0 x70 x99 x85)
(T (W xff xff xff xff xff xff xff xff)
(L (W x50 x00 x00 x00 x44 x00 x00 x00))
(L (W x54 x00 x00 x00 x48 x00 x00 x00)))
(T (W x00 x00 x80 x3f x00 x00 x80 x3f)
(L (W x00 x00 x00 x00 x00 x00 x00 x00)) E))
(T (W x18 x00 x00 x00 x0c x00 x00 x00)
(T (W xff xff xff xff xff xff xff xff)
(L (W x68 x00 x00 x00 x5c x00 x00 x00)) E)
(T (W x45 x26 x22 x84 xe4 x9c xf2 xcb)
(L (W x49 xa1 x68 x4a xeb x5f xdd x3d)) E)))
(T (W x45 x26 x22 x84 xe4 x9c xf2 xcb)
(T (W x00 x00 x80 x3f x00 x00 x80 x3f)
(T (W xb6 x01 x00 x00 xff xff xff xff)
(L (W xc4 x00 x00 x00 x01 x00 x00 x00))
(L (W x94 x04 x00 x00 x80 x03 x00 x00)))
(T (W x50 x00 x00 x00 x44 x00 x00 x00)
(L (W xff xff xff xff xc8 x00 x00 x00)) E))
(T (W xa1 x01 x00 x00 xff xff xff xff)
(T (W xff xff xff xff xff xff xff xff)
(L (W x4f x84 x6f x8b xe8 xcb x63 xb7)) E)
(T (W x04 x00 x00 x00 x32 x49 xfd xff)
(L (W xff xff xff xff xff xff xff xff)) E))))
(T (W xff xff xff xff xff xff xff xff)
(T (W x50 x00 x00 x00 x44 x00 x00 x00)
(T (W x18 x00 x00 x00 x10 x00 x00 x00)
(T (W x00 x00 x00 x00 x00 x00 x00 x00)
(L (W xff xff xff xff xbc x00 x00 x00))
(L (W xff xff xff xff xff xff xff xff)))
(T (W x92 xa6 xfc xff x74 x00 x00 x00)
(L (W x45 x26 x22 x84 xe4 x9c xf2 xcb)) E))
(T (W xff xff xff xff xff xff xff xff)
(T (W x4f x84 x6f x8b xe8 xcb x63 xb7)
(L (W x00 x00 x00 x00 x00 x00 x00 x00)) E)
(T (W x6c x00 x00 x00 x60 x00 x00 x00)
(L (W x00 x00 x80 xbf x00 x00 x80 xbf)) E)))
(T (W x00 x00 x00 x00 x00 x00 x00 x00)
(T (W x00 x00 x80 x3f x00 x00 x80 x3f)
(T (W x00 x00 x80 x3f x00 x00 x80 x3f)
(L (W x45 x26 x22 x84 xe4 x9c xf2 xcb))
(L (W x00 x00 x00 x00 x00 x00 x00 x00)))
(T (W x00 x00 x80 x3f x00 x00 x80 x3f)
(L (W xff xff xff xff xff xff xff xff)) E))
(T (W x00 x00 x00 x00 x00 x00 x00 x00)
(T (W x45 x26 x22 x84 xe4 x9c xf2 xcb)
(L (W xff xff xff xff xff xff xff xff)) E)
(T (W x18 x00 x00 x00 x10 x00 x00 x00)
(L (W x00 x00 x00 x00 x00 x00 x00 x00)) E))))))
(T (W x00 x00 x80 x3f x00 x00 x80 x3f)
(T (W x45 x26 x22 x84 xe4 x9c xf2 xcb)
(T (W x0b x00 x00 x00 xff xff xff xff)
(T (W xb8 x00 x00 x00 xac x00 x00 x00)
(T (W x00 x00 x00 x00 x00 x00 x00 x00)
(T (W xff xff xff xff xff xff xff xff)
(L (W x45 x26 x22 x84 xe4 x9c xf2 xcb))
(L (W x00 x00 x80 xbf x00 x00 x80 xbf)))
(T (W x92 x7e xfc xff x74 x00 x00 x00)
(L (W x30 x32 x5f x43 x4c x45 x41 x52)) E))
(T (W x00 x00 x00 x00 x00 x00 x00 x00)
(T (W xff xff xff xff xff xff xff xff)
(L (W x18 x00 x00 x00 x0c x00 x00 x00))
(L (W x00 x00 x80 xbf x00 x00 x80 xbf)))
(T (W x45 x26 x22 x84 xe4 x9c xf2 xcb)
(L (W x00 x00 x00 x00 x00 x00 x00 x00)) E)))
(T (W x00 x00 x80 x3f x00 x00 x80 x3f)
(T (W x00 x00 x80 x3f x00 x00 x80 x3f)
(T (W xff xff xff xff xff xff xff xff)
(L (W x50 x00 x00 x00 x44 x00 x00 x00))
(L (W xff xff xff xff xff xff xff xff)))
(T (W x50 x00 x00 x00 x44 x00 x00 x00)
(L (W x6c x00 x00 x00 x60 x00 x00 x00)) E))
(T (W x00 x00 x80 x3f x00 x00 x80 x3f)
(T (W xb0 x00 x00 x00 x64 x00 x00 x00)
(L (W x00 x00 x00 x00 x00 x00 x00 x00)) E)
(T (W xff xff xff xff xff xff xff xff)
(L (W xff xff xff xff x9c x00 x00 x00)) E))))
(T (W xff xff xff xff xff xff xff xff)
(T (W x00 x00 x80 x3f x00 x00 x80 x3f)
(T (W xff xff xff xff xff xff xff xff)
(T (W xff xff xff xff xff xff xff xff)
(L (W x00 x00 x00 x00 x00 x00 x00 x00))
(L (W x00 x00 x00 x00 x00 x00 x00 x00)))
(T (W xff xff xff xff xff xff xff xff)
(L (W x00 x00 x00 x00 x00 x00 x00 x00)) E))
(T (W x24 x00 x00 x00 xb0 x00 x00 x00)
(T (W x00 x00 x00 x00 x00 x00 x00 x00)
(L (W xff xff xff xff xff xff xff xff)) E)
(T (W x00 x00 x00 x00 x00 x00 x00 x00)
(L (W x00 x00 x00 x00 xd4 x21 xff xff)) E)))
(T (W x00 x00 x80 x3f x00 x00 x80 x3f)
(T (W x50 x00 x00 x00 x44 x00 x00 x00)
(T (W x00 x00 x80 x3f x00 x00 x80 x3f)
(L (W x00 x00 x00 x00 xc2 xe5 xfd xff))
(L (W x30 x32 x5f x43 x4c x45 x41 x52)))
(T (W x00 x00 x80 x3f x00 x00 x80 x3f)
(L (W xff xff xff xff xff xff xff xff)) E))
(T (W xff xff xff xff xff xff xff xff)
(T (W x00 x00 x00 x00 x00 x00 x00 x00)
(L (W xb4 x00 x00 x00 x32 x00 x00 x00)) E)
(T (W x64 x63 xfd xff x00 x01 x01 x01)
(L (W x45 x44 x00 x00 x00 x00 x00 x00)) E)))))
(T (W xff xff xff xff xff xff xff xff)
(T (W x00 x00 x00 x00 x00 x00 x00 x00)
(T (W x6a x17 xfd xff xc2 x01 x00 x00)
(T (W x7a xa1 xfd xff xc1 x00 x00 x00)
(T (W x00 x00 x00 x00 x00 x00 x00 x00)
(L (W x64 x93 xfd xff x00 x01 x01 x01))
(L (W xc4 x00 x00 x00 x02 x00 x00 x00)))
(T (W x00 x00 x80 x3f x00 x00 x80 x3f)
(L (W x00 x00 x00 x00 x00 x00 x00 x00)) E))
(T (W xff xff xff xff xbc x00 x00 x00)
(T (W x00 x00 x00 x00 x06 x00 x00 x00)
(L (W xff xff xff xff xb0 x00 x00 x00)) E)
(T (W x94 x17 xfd xff x31 x00 x00 x00)
(L (W x00 x00 x00 x00 x00 x00 x00 x00)) E)))
(T (W x00 x00 x80 x3f x00 x00 x80 x3f)
(T (W x00 x00 x80 x3f x00 x00 x80 x3f)
(T (W x00 x00 x00 x00 x00 x00 x00 x00)
(L (W xff xff xff xff xff xff xff xff))
(L (W x00 x00 x00 x00 x72 xcf xff xff)))
(T (W x6c x64 x5f x70 x6f x6b x65 x5f)
(L (W xff xff xff xff xff xff xff xff)) E))
(T (W x00 x00 x00 x00 x00 x00 x00 x00)
(T (W x4b x00 x00 x00 xff xff xff xff)
(L (W x00 x00 x80 xbf x00 x00 x80 xbf)) E)
(T (W x00 x00 x00 x00 x00 x00 x00 x00)
(L (W xff xff xff xff xff xff xff xff)) E))))
(T (W xff xff xff xff xff xff xff xff)
(T (W x68 x00 x00 x00 x5c x00 x00 x00)
(T (W x01 x00 x00 x00 xa0 x00 x00 x00)
(T (W x45 x26 x22 x84 xe4 x9c xf2 xcb)
(L (W x00 x00 x00 x00 x00 x00 x00 x00))
(L (W xff xff xff xff xff xff xff xff)))
(T (W xff xff xff xff x03 x00 x00 x00)
(L (W x49 xa1 x68 x4a xeb x5f xdd x3d)) E))
(T (W x00 x00 x00 x00 x00 x00 x00 x00)
(T (W x00 x00 x80 x3f x00 x00 x80 x3f)
(L (W x00 x00 x00 x00 x00 x00 x00 x00)) E)
(T (W x68 x00 x00 x00 x5c x00 x00 x00)
(L (W x5c x00 x00 x00 x50 x00 x00 x00)) E)))
(T (W x00 x00 x00 x00 x00 x00 x00 x00)
(T (W x00 x00 x80 x3f x00 x00 x80 x3f)
(T (W x42 xf0 xfb xff x78 x00 x00 x00)
(L (W x00 x00 x80 xbf x00 x00 x80 xbf))
(L (W x00 x00 x80 xbf x00 x00 x80 xbf)))
(T (W xff xff xff xff xff xff xff xff)
(L (W x00 x00 x00 x00 x00 x00 x00 x00)) E))
(T (W x45 x26 x22 x84 xe4 x9c xf2 xcb)
(T (W x64 x73 xfc xff x00 x01 x01 x01)
(L (W x92 x01 x00 x00 xff xff xff xff)) E)
(T (W x74 x00 x0c x00 x00 x00 x00 x00)
(L (W x4f x84 x6f x8b xe8 xcb x63 xb7)) E)))))))
(T (W x00 x00 x80 x3f x00 x00 x80 x3f)
(T (W x00 x00 x00 x00 x00 x00 x00 x00)
(T (W x14 x18 x00 x00 x00 x17 x00 x00)
(T (W x18 x00 x00 x00 x10 x00 x00 x00)
(T (W x45 x26 x22 x84 xe4 x9c xf2 xcb)
(T (W x0a x00 x00 x00 x3c x00 x00 x00)
(T (W x5f x77 x69 x6c x64 x5f x70 x6f)
(L (W xec x8c xfd xff x0e x00 x00 x00))
(L (W xff xff xff xff xff xff xff xff)))
(T (W x00 x00 x00 x00 x00 x00 x00 x00)
(L (W x00 x00 x80 xbf x00 x00 x80 xbf)) E))
(T (W xff xff xff xff xff xff xff xff)
(T (W x00 x00 x00 x00 x00 x00 x00 x00)
(L (W x00 x00 x00 x00 x72 xfb xfd xff))
(L (W x00 x00 x00 x00 x00 x00 x00 x00)))
(T (W x0c x00 x00 x00 x00 x00 x01 x01)
(L (W x6c x00 x00 x00 x60 x00 x00 x00)) E)))
(T (W x00 x00 x00 x00 x00 x00 x00 x00)
(T (W x00 x00 x00 x00 x00 x00 x00 x00)
(T (W x45 x26 x22 x84 xe4 x9c xf2 xcb)
(L (W xff xff xff xff xff xff xff xff))
(L (W x00 x00 x80 xbf x00 x00 x80 xbf)))
(T (W x00 x00 x00 x00 x00 x00 x00 x00)
(L (W x00 x00 x00 x00 x72 xbb xfe xff)) E))
(T (W xff xff xff xff xff xff xff xff)
(T (W x00 x00 x00 x00 x00 x00 x00 x00)
(L (W xff xff xff xff xff xff xff xff)) E)
(T (W x45 x26 x22 x84 xe4 x9c xf2 xcb)
(L (W x00 x00 x00 x00 x00 x00 x00 x00)) E))))
(T (W x45 x26 x22 x84 xe4 x9c xf2 xcb)
(T (W xff xff xff xff xff xff xff xff)
(T (W x00 x00 x00 x00 x00 x00 x00 x00)
(T (W x4c x45 x41 x52 x45 x44 x00 x00)
(L (W x00 x00 x00 x00 x00 x00 x00 x00))
(L (W x00 x00 x80 xbf x00 x00 x80 xbf)))
(T (W xff xff xff xff xff xff xff xff)
(L (W xff xff xff xff xbc x00 x00 x00)) E))
(T (W x30 x32 x5f x43 x4c x45 x41 x52)
(T (W xd4 x00 x00 x00 xc8 x00 x00 x00)
(L (W x00 x00 x80 xbf x00 x00 x80 xbf)) E)
(T (W xff xff xff xff xff xff xff xff)
(L (W xff xff xff xff xff xff xff xff)) E)))
(T (W xff xff xff xff xff xff xff xff)
(T (W xff xff xff xff xff xff xff xff)
(T (W x4b x00 x00 x00 xff xff xff xff)
(L (W x00 x00 x80 xbf x00 x00 x80 xbf))
(L (W x18 x00 x00 x00 x10 x00 x00 x00)))
(T (W xff xff xff xff xff xff xff xff)
(L (W x00 x00 x80 xbf x00 x00 x80 xbf)) E))
(T (W x00 x00 x00 x00 x00 x00 x00 x00)
(T (W x45 x26 x22 x84 xe4 x9c xf2 xcb)
(L (W x00 x00 x00 x00 x00 x00 x00 x00)) E)
(T (W x00 x00 x00 x00 x00 x00 x00 x00)
(L (W x18 x00 x00 x00 x10 x00 x00 x00)) E)))))
(T (W x54 x00 x00 x00 x48 x00 x00 x00)
(T (W xff xff xff xff xff xff xff xff)
(T (W x00 x00 x00 x00 x00 x00 x00 x00)
(T (W x92 x8a xfa xff x74 x00 x00 x00)
(T (W x00 x00 x80 x3f x00 x00 x80 x3f)
(L (W x00 x00 x00 x00 x00 x00 x00 x00))
(L (W x45 x44 x00 x00 x00 x00 x00 x00)))
(T (W xff xff xff xff xff xff xff xff)
(L (W xbc x00 x00 x00 x64 x00 x00 x00)) E))
(T (W x00 x00 x00 x00 x00 x00 x00 x00)
(T (W x00 x00 x80 x3f x00 x00 x80 x3f)
(L (W x00 x00 x00 x00 x00 x00 x00 x00)) E)
(T (W x52 x63 x6c x12 x83 xf4 x3a xc6)
(L (W x03 x00 x00 x00 xd8 x00 x00 x00)) E)))
(T (W xff xff xff xff xff xff xff xff)
(T (W x00 x00 x00 x00 xa2 xdb xff xff)
(T (W xff xff xff xff x9c x00 x00 x00)
(L (W x00 x00 x00 x00 x00 x00 x00 x00))
(L (W x6c x00 x00 x00 x60 x00 x00 x00)))
(T (W x00 x00 x00 x00 x00 x00 x00 x00)
(L (W x00 x00 x00 x00 x00 x00 x00 x00)) E))
(T (W x68 x00 x00 x00 x5c x00 x00 x00)
(T (W x00 x00 x80 x3f x00 x00 x80 x3f)
(L (W xff xff xff xff xff xff xff xff)) E)
(T (W x74 x00 x00 x00 x68 x00 x00 x00)
(L (W x00 x00 x80 xbf x00 x00 x80 xbf)) E))))
(T (W x45 x26 x22 x84 xe4 x9c xf2 xcb)
(T (W x17 xa5 x37 xaa xb9 xfa x88 x76)
(T (W x00 x00 x00 x00 x00 x00 x00 x00)
(T (W xd4 x00 x00 x00 xc8 x00 x00 x00)
(L (W xff xff xff xff x12 x00 x00 x00))
(L (W x00 x00 x00 x00 x00 x00 x00 x00)))
(T (W x45 x26 x22 x84 xe4 x9c xf2 xcb)
(L (W xff xff xff xff xff xff xff xff)) E))
(T (W x54 x00 x00 x00 x48 x00 x00 x00)
(T (W x4b x00 x00 x00 xff xff xff xff)
(L (W xff xff xff xff xb0 x00 x00 x00)) E)
(T (W xff xff xff xff xff xff xff xff)
(L (W x00 x00 x00 x00 x00 x00 x00 x00)) E)))
(T (W x45 x26 x22 x84 xe4 x9c xf2 xcb)
(T (W xff xff xff xff xff xff xff xff)
(T (W x00 x00 x00 x00 x72 xeb xfb xff)
(L (W xff xff xff xff xff xff xff xff))
(L (W xff xff xff xff xff xff xff xff)))
(T (W xff xff xff xff xff xff xff xff)
(L (W x45 x26 x22 x84 xe4 x9c xf2 xcb)) E))
(T (W x42 x6c xfb xff x78 x00 x00 x00)
(T (W x00 x00 x00 x00 x00 x00 x00 x00)
(L (W x00 x00 x80 xbf x00 x00 x80 xbf)) E)
(T (W x00 x00 x00 x00 x00 x00 x00 x00)
(L (W x18 x00 x00 x00 x10 x00 x00 x00)) E))))))
(T (W xff xff xff xff xff xff xff xff)
(T (W xff xff xff xff xff xff xff xff)
(T (W x00 x00 x00 x00 x00 x00 x00 x00)
(T (W x00 x00 x80 x3f x00 x00 x80 x3f)
(T (W xc0 x00 x00 x00 xb4 x00 x00 x00)
(T (W x00 x00 x00 x00 x00 x00 x00 x00)
(L (W xc9 x00 x00 x00 xff xff xff xff))
(L (W x54 x02 x00 x00 x38 x01 x00 x00)))
(T (W x18 x01 x00 x00 x04 x00 x00 x00)
(L (W x18 x00 x00 x00 x0c x00 x00 x00)) E))
(T (W x45 x44 x00 x00 x00 x00 x00 x00)
(T (W x00 x00 x80 x3f x00 x00 x80 x3f)
(L (W x00 x00 x00 x00 x00 x00 x00 x00)) E)
(T (W xec xe8 xff xff x01 x01 x01 x01)
(L (W x21 x00 x00 x00 x24 x00 x00 x00)) E)))
(T (W x20 x01 x00 x00 x04 x00 x00 x00)
(T (W x3e x00 x00 x00 x10 x00 x00 x00)
(T (W x64 xc7 xfb xff x00 x01 x01 x01)
(L (W x00 x00 x00 x00 x00 x00 x00 x00))
(L (W x00 x00 x80 xbf x00 x00 x80 xbf)))
(T (W x02 x00 x00 x00 xff xff xff xff)
(L (W x00 x00 x00 x00 x00 x00 x00 x00)) E))
(T (W x00 x00 x00 x00 x00 x00 x00 x00)
(T (W x00 x00 x00 x00 x00 x00 x00 x00)
(L (W xff xff xff xff xff xff xff xff)) E)
(T (W x54 x00 x00 x00 x48 x00 x00 x00)
(L (W x00 x00 x80 xbf x00 x00 x80 xbf)) E))))
(T (W x45 x26 x22 x84 xe4 x9c xf2 xcb)
(T (W x00 x00 x00 x00 x00 x00 x00 x00)
(T (W x00 x00 x00 x00 x00 x00 x00 x00)
(T (W x00 x00 x80 x3f x00 x00 x80 x3f)
(L (W x50 x00 x00 x00 x44 x00 x00 x00))
(L (W x5c x00 x00 x00 xff xff xff xff)))
(T (W x00 x00 x00 x00 x00 x00 x00 x00)
(L (W xff xff xff xff xff xff xff xff)) E))
(T (W x00 x00 x00 x00 x00 x00 x00 x00)
(T (W xb0 x00 x00 x00 x64 x00 x00 x00)
(L (W x00 x00 x80 xbf x00 x00 x80 xbf)) E)
(T (W xff xff xff xff xff xff xff xff)
(L (W x00 x00 x00 x00 x72 x23 xff xff)) E)))
(T (W xb8 x00 x00 x00 xac x00 x00 x00)
(T (W xff xff xff xff xff xff xff xff)
(T (W xf2 xec xfe xff x00 x00 x01 x01)
(L (W x00 x00 x80 xbf x00 x00 x80 xbf))
(L (W x03 x00 x00 x00 xd0 x00 x00 x00)))
(T (W x45 x26 x22 x84 xe4 x9c xf2 xcb)
(L (W x00 x00 x80 xbf x00 x00 x80 xbf)) E))
(T (W x00 x00 x80 x3f x00 x00 x80 x3f)
(T (W xff xff xff xff xff xff xff xff)
(L (W x00 x00 x80 xbf x00 x00 x80 xbf)) E)
(T (W xec x74 xfd xff x15 x00 x00 x00)
(L (W x19 x00 x00 x00 x1c x00 x00 x00)) E)))))
(T (W x00 x00 x00 x00 x00 x00 x00 x00)
(T (W x00 x00 x80 x3f x00 x00 x80 x3f)
(T (W x68 x00 x00 x00 x5c x00 x00 x00)
(T (W x45 x26 x22 x84 xe4 x9c xf2 xcb)
(T (W xff xff xff xff x03 x00 x00 x00)
(L (W x5f x4e x53 x5f x30 x32 x5f x43))
(L (W x00 x00 x00 x00 x00 x00 x00 x00)))
(T (W xff xff xff xff xff xff xff xff)
(L (W xc4 x00 x00 x00 x02 x00 x00 x00)) E))
(T (W xff xff xff xff xff xff xff xff)
(T (W x68 x00 x00 x00 x5c x00 x00 x00)
(L (W x00 x00 x80 xbf x00 x00 x80 xbf)) E)
(T (W xff xff xff xff xff xff xff xff)
(L (W x00 x00 x00 x00 xc2 x19 xff xff)) E)))
(T (W xff xff xff xff xff xff xff xff)
(T (W x1c x01 x00 x00 x04 x00 x00 x00)
(T (W x45 x26 x22 x84 xe4 x9c xf2 xcb)
(L (W x00 x00 x80 xbf x00 x00 x80 xbf))
(L (W x64 xd7 xff xff x00 x01 x01 x01)))
(T (W xff xff xff xff xff xff xff xff)
(L (W x49 xa1 x68 x4a xeb x5f xdd x3d)) E))
(T (W xff xff xff xff xff xff xff xff)
(T (W x6c x00 x00 x00 x60 x00 x00 x00)
(L (W x30 x32 x5f x43 x4c x45 x41 x52)) E)
(T (W xff xff xff xff xff xff xff xff)
(L (W x6c x00 x00 x00 x60 x00 x00 x00)) E))))
(T (W x00 x00 x00 x00 x00 x00 x00 x00)
(T (W xfa x46 xfd xff x00 x00 x01 x01)
(T (W x00 x00 x00 x00 x00 x00 x00 x00)
(T (W xfa xf5 xfd xff x9c x01 x00 x00)
(L (W x00 x00 x80 xbf x00 x00 x80 xbf))
(L (W x00 x00 x00 x00 x00 x00 x00 x00)))
(T (W x00 x00 x00 x00 x00 x00 x00 x00)
(L (W xff xff xff xff xff xff xff xff)) E))
(T (W xff xff xff xff x9c x00 x00 x00)
(T (W x00 x00 x00 x00 x00 x00 x00 x00)
(L (W x45 x26 x22 x84 xe4 x9c xf2 xcb)) E)
(T (W x00 x00 x00 x00 x12 x00 x00 x00)
(L (W x46 x53 x59 x53 x5f x4e x53 x5f)) E)))
(T (W x01 x00 x00 x00 x9c x00 x00 x00)
(T (W x00 x00 x00 x00 x00 x00 x00 x00)
(T (W x5f x77 x69 x6c x64 x5f x70 x6f)
(L (W xff xff xff xff xff xff xff xff))
(L (W xff xff xff xff xff xff xff xff)))
(T (W x92 xf2 xfc xff x74 x00 x00 x00)
(L (W x92 xf2 xfe xff x74 x00 x00 x00)) E))
(T (W xff xff xff xff xff xff xff xff)
(T (W x70 x5f x6c x65 x61 x64 x65 x72)
(L (W x64 x77 xfe xff x00 x01 x01 x01)) E)
(T (W x00 x00 x00 x00 x12 x00 x00 x00)
(L (W x03 x00 x00 x00 xd8 x00 x00 x00)) E))))))))
(T (W xff xff xff xff xff xff xff xff)
(T (W x00 x00 x00 x00 x00 x00 x00 x00)
(T (W xff xff xff xff xff xff xff xff)
(T (W x45 x26 x22 x84 xe4 x9c xf2 xcb)
(T (W x54 x00 x00 x00 x48 x00 x00 x00)
(T (W x00 x00 x00 x00 x00 x00 x00 x00)
(T (W x00 x00 x80 x3f x00 x00 x80 x3f)
(T (W xff xff xff xff xff xff xff xff)
(L (W xff xff xff xff xff xff xff xff))
(L (W x45 x26 x22 x84 xe4 x9c xf2 xcb)))
(T (W xff xff xff xff xff xff xff xff)
(L (W x45 x26 x22 x84 xe4 x9c xf2 xcb)) E))
(T (W x00 x00 x80 x3f x00 x00 x80 x3f)
(T (W x00 x00 x00 x00 x00 x00 x00 x00)
(L (W xff xff xff xff xff xff xff xff))
(L (W x00 x00 x00 x00 x00 x00 x00 x00)))
(T (W x00 x00 x00 x00 x00 x00 x00 x00)
(L (W x00 x00 x80 xbf x00 x00 x80 xbf)) E)))
(T (W xb8 x00 x00 x00 xac x00 x00 x00)
(T (W xff xff xff xff xff xff xff xff)
(T (W x34 x01 x00 x00 x04 x00 x00 x00)
(L (W xff xff xff xff xff xff xff xff))
(L (W x18 x00 x00 x00 x0c x00 x00 x00)))
(T (W xff xff xff xff xff xff xff xff)
(L (W xff xff xff xff xff xff xff xff)) E))
(T (W x6c x00 x00 x00 x60 x00 x00 x00)
(T (W xff xff xff xff xff xff xff xff)
(L (W x6c x00 x00 x00 x60 x00 x00 x00)) E)
(T (W x4a x6f xca xc9 x03 x92 xa3 xbc)
(L (W xff xff xff xff xff xff xff xff)) E))))
(T (W x04 x00 x00 x00 x82 x76 xfd xff)
(T (W x00 x00 x80 x3f x00 x00 x80 x3f)
(T (W xff xff xff xff xff xff xff xff)
(T (W xff xff xff xff x9c x00 x00 x00)
(L (W x06 x00 x00 x00 xff xff xff xff))
(L (W x00 x00 x00 x00 x00 x00 x00 x00)))
(T (W x00 x00 x80 x3f x00 x00 x80 x3f)
(L (W x6c x00 x00 x00 x60 x00 x00 x00)) E))
(T (W xff xff xff xff xff xff xff xff)
(T (W x00 x00 x80 x3f x00 x00 x80 x3f)
(L (W x00 x00 x00 x00 x00 x00 x00 x00)) E)
(T (W x00 x00 x80 xbf x00 x00 x80 xbf)
(L (W xcc x00 x00 x00 x01 x00 x00 x00)) E)))
(T (W x00 x00 x80 x3f x00 x00 x80 x3f)
(T (W x92 xd8 xfa xff x74 x00 x00 x00)
(T (W x68 x00 x00 x00 x5c x00 x00 x00)
(L (W x00 x00 x00 x00 x00 x00 x00 x00))
(L (W x00 x00 x80 xbf x00 x00 x80 xbf)))
(T (W x1e x00 x00 x00 x21 x00 x00 x00)
(L (W x30 x32 x5f x43 x4c x45 x41 x52)) E))
(T (W xb0 x00 x00 x00 x64 x00 x00 x00)
(T (W x00 x00 x00 x00 x00 x00 x00 x00)
(L (W xff xff xff xff xff xff xff xff)) E)
(T (W x18 x00 x00 x00 x10 x00 x00 x00)
(L (W x00 x00 x00 x00 x00 x00 x00 x00)) E)))))
(T (W x00 x00 x80 x3f x00 x00 x80 x3f)
(T (W x01 x00 x00 x00 xa0 x00 x00 x00)
(T (W xc2 x01 x00 x00 xff xff xff xff)
(T (W x45 x26 x22 x84 xe4 x9c xf2 xcb)
(T (W x00 x00 x00 x00 x00 x00 x00 x00)
(L (W xff xff xff xff xff xff xff xff))
(L (W xff xff xff xff xc4 x00 x00 x00)))
(T (W x00 x00 x00 x00 xd4 x8b xfc xff)
(L (W x45 x26 x22 x84 xe4 x9c xf2 xcb)) E))
(T (W xf2 x12 xfe xff x00 x00 x01 x01)
(T (W x00 x00 x00 x00 x00 x00 x00 x00)
(L (W x5d x00 x00 x00 xff xff xff xff)) E)
(T (W xff xff xff xff x9c x00 x00 x00)
(L (W x6c x00 x00 x00 x60 x00 x00 x00)) E)))
(T (W x45 x26 x22 x84 xe4 x9c xf2 xcb)
(T (W xff xff xff xff x04 x00 x00 x00)
(T (W x00 x00 x00 x00 x00 x00 x00 x00)
(L (W xff xff xff xff xff xff xff xff))
(L (W x00 x00 x80 xbf x00 x00 x80 xbf)))
(T (W x00 x00 x80 x3f x00 x00 x80 x3f)
(L (W x00 x00 x00 x00 xc2 xcf xfe xff)) E))
(T (W x00 x00 x00 x00 x00 x00 x00 x00)
(T (W x94 x51 xfc xff x15 x00 x00 x00)
(L (W xcc x00 x00 x00 x01 x00 x00 x00)) E)
(T (W x00 x00 x00 x00 x00 x00 x00 x00)
(L (W xec x5a xff xff x06 x00 x00 x00)) E))))
(T (W x00 x00 x00 x00 x00 x00 x00 x00)
(T (W xb8 x00 x00 x00 xac x00 x00 x00)
(T (W xff xff xff xff xff xff xff xff)
(T (W x00 x00 x80 x3f x00 x00 x80 x3f)
(L (W xff xff xff xff xff xff xff xff))
(L (W x00 x00 x00 x00 x00 x00 x00 x00)))
(T (W x00 x00 x00 x00 x00 x00 x00 x00)
(L (W x50 x00 x00 x00 x44 x00 x00 x00)) E))
(T (W x5f x4e x53 x5f x30 x32 x5f x43)
(T (W x00 x00 x80 x3f x00 x00 x80 x3f)
(L (W x00 x00 x00 x00 x00 x00 x00 x00)) E)
(T (W xff xff xff xff xff xff xff xff)
(L (W xff xff xff xff xff xff xff xff)) E)))
(T (W x68 x00 x00 x00 x5c x00 x00 x00)
(T (W x18 x00 x00 x00 x10 x00 x00 x00)
(T (W xff xff xff xff xff xff xff xff)
(L (W x42 xea xfd xff x78 x00 x00 x00))
(L (W x00 x00 x80 xbf x00 x00 x80 xbf)))
(T (W xff xff xff xff xff xff xff xff)
(L (W x00 x00 x80 xbf x00 x00 x80 xbf)) E))
(T (W x00 x00 x80 x3f x00 x00 x80 x3f)
(T (W xff xff xff xff xff xff xff xff)
(L (W xec x7a xfe xff x06 x00 x00 x00)) E)
(T (W x00 x00 x00 x00 x00 x00 x00 x00)
(L (W x00 x00 x80 xbf x00 x00 x80 xbf)) E))))))
(T (W x45 x26 x22 x84 xe4 x9c xf2 xcb)
(T (W xff xff xff xff xff xff xff xff)
(T (W x00 x00 x00 x00 x00 x00 x00 x00)
(T (W xb7 x2a x7d x8f xb7 x85 x46 x36)
(T (W x00 x00 x80 x3f x00 x00 x80 x3f)
(T (W x00 x00 x00 x00 x00 x00 x00 x00)
(L (W xc0 x00 x00 x00 x01 x00 x00 x00))
(L (W x18 x00 x00 x00 x0c x00 x00 x00)))
(T (W xff xff xff xff xff xff xff xff)
(L (W x4f x84 x6f x8b xe8 xcb x63 xb7)) E))
(T (W x92 x00 xfb xff x74 x00 x00 x00)
(T (W x18 x00 x00 x00 x10 x00 x00 x00)
(L (W xff xff xff xff xff xff xff xff))
(L (W x00 x00 x00 x00 x00 x00 x00 x00)))
(T (W x6f x79 x61 x62 x75 x6e x00 x00)
(L (W x00 x00 x80 xbf x00 x00 x80 xbf)) E)))
(T (W xff xff xff xff x04 x00 x00 x00)
(T (W xff xff xff xff xff xff xff xff)
(T (W x00 x00 x00 x00 x00 x00 x00 x00)
(L (W x00 x00 x00 x00 xc2 xc7 xfd xff))
(L (W x46 x53 x59 x53 x5f x4e x53 x5f)))
(T (W xff xff xff xff x03 x00 x00 x00)
(L (W xff xff xff xff xff xff xff xff)) E))
(T (W xff xff xff xff xff xff xff xff)
(T (W x45 x44 x00 x00 x00 x00 x00 x00)
(L (W x45 x26 x22 x84 xe4 x9c xf2 xcb)) E)
(T (W x4f x84 x6f x8b xe8 xcb x63 xb7)
(L (W x30 x32 x5f x43 x4c x45 x41 x52)) E))))
(T (W x00 x00 x00 x00 x01 x00 x00 x00)
(T (W xff xff xff xff xff xff xff xff)
(T (W xff xff xff xff xff xff xff xff)
(T (W x94 xa9 xfb xff x11 x00 x00 x00)
(L (W x00 x00 x80 xbf x00 x00 x80 xbf))
(L (W x14 x00 x00 x00 x0c x00 x00 x00)))
(T (W xfa xb4 xff xff x00 x00 x01 x01)
(L (W xff xff xff xff xb0 x00 x00 x00)) E))
(T (W xf2 x2a xfe xff x00 x00 x01 x01)
(T (W x68 x00 x00 x00 x5c x00 x00 x00)
(L (W x00 x00 x00 x00 x00 x00 x00 x00)) E)
(T (W x68 x00 x00 x00 x5c x00 x00 x00)
(L (W xff xff xff xff xff xff xff xff)) E)))
(T (W x50 x00 x00 x00 x44 x00 x00 x00)
(T (W x45 x26 x22 x84 xe4 x9c xf2 xcb)
(T (W x45 x26 x22 x84 xe4 x9c xf2 xcb)
(L (W x00 x00 x00 x00 x00 x00 x00 x00))
(L (W x54 x00 x00 x00 x48 x00 x00 x00)))
(T (W x5f x77 x69 x6c x64 x5f x70 x6f)
(L (W x00 x00 x00 x00 x00 x00 x00 x00)) E))
(T (W x00 x00 x00 x00 x00 x00 x00 x00)
(T (W x45 x26 x22 x84 xe4 x9c xf2 xcb)
(L (W xff xff xff xff xff xff xff xff)) E)
(T (W xff xff xff xff xff xff xff xff)
(L (W x4f x84 x6f x8b xe8 xcb x63 xb7)) E)))))
(T (W xff xff xff xff xff xff xff xff)
(T (W x00 x00 x00 x00 x00 x00 x00 x00)
(T (W x00 x00 x80 x3f x00 x00 x80 x3f)
(T (W x00 x00 x00 x00 x00 x00 x00 x00)
(T (W x6c x00 x00 x00 x60 x00 x00 x00)
(L (W xff xff xff xff xff xff xff xff))
(L (W xff xff xff xff xff xff xff xff)))
(T (W x92 x90 xfc xff x74 x00 x00 x00)
(L (W x54 x00 x00 x00 x48 x00 x00 x00)) E))
(T (W x00 x00 x00 x00 x00 x00 x00 x00)
(T (W x00 x00 x80 x3f x00 x00 x80 x3f)
(L (W xa4 x04 x00 x00 x88 x03 x00 x00)) E)
(T (W x00 x00 x80 xbf x00 x00 x80 xbf)
(L (W xff xff xff xff xc8 x00 x00 x00)) E)))
(T (W x68 x00 x00 x00 x5c x00 x00 x00)
(T (W x18 x00 x00 x00 x0c x00 x00 x00)
(T (W x00 x00 x80 x3f x00 x00 x80 x3f)
(L (W x30 x32 x5f x43 x4c x45 x41 x52))
(L (W x00 x00 x80 xbf x00 x00 x80 xbf)))
(T (W x00 x00 x80 x3f x00 x00 x80 x3f)
(L (W x45 x44 x00 x00 x00 x00 x00 x00)) E))
(T (W x00 x00 x80 x3f x00 x00 x80 x3f)
(T (W x00 x00 x00 x00 x12 x00 x00 x00)
(L (W xff xff xff xff x9c x00 x00 x00)) E)
(T (W x45 x26 x22 x84 xe4 x9c xf2 xcb)
(L (W x49 xa1 x68 x4a xeb x5f xdd x3d)) E))))
(T (W x00 x00 x00 x00 x00 x00 x00 x00)
(T (W x45 x26 x22 x84 xe4 x9c xf2 xcb)
(T (W xd0 x01 x00 x00 xff xff xff xff)
(T (W xff xff xff xff xa0 x00 x00 x00)
(L (W x00 x00 x80 xbf x00 x00 x80 xbf))
(L (W x45 x44 x00 x00 x00 x00 x00 x00)))
(T (W x5d x00 x00 x00 xff xff xff xff)
(L (W x29 x00 x00 x00 x2c x00 x00 x00)) E))
(T (W x00 x00 x00 x00 x00 x00 x00 x00)
(T (W xb0 x00 x00 x00 x64 x00 x00 x00)
(L (W x00 x00 x80 xbf x00 x00 x80 xbf)) E)
(T (W xff xff xff xff xff xff xff xff)
(L (W xff xff xff xff xbc x00 x00 x00)) E)))
(T (W x92 x70 xfa xff x74 x00 x00 x00)
(T (W xf2 xfa xfd xff x00 x00 x01 x01)
(T (W xff xff xff xff x03 x00 x00 x00)
(L (W xff xff xff xff xb0 x00 x00 x00))
(L (W x15 x00 x00 x00 x18 x00 x00 x00)))
(T (W x00 x00 x00 x00 x00 x00 x00 x00)
(L (W x00 x00 x80 xbf x00 x00 x80 xbf)) E))
(T (W x18 x00 x00 x00 x10 x00 x00 x00)
(T (W xff xff xff xff xff xff xff xff)
(L (W x00 x00 x00 x00 x00 x00 x00 x00)) E)
(T (W xff xff xff xff xff xff xff xff)
(L (W x54 x00 x00 x00 x48 x00 x00 x00)) E)))))))
(T (W x64 x89 xf9 xff x00 x01 x01 x01)
(T (W x45 x26 x22 x84 xe4 x9c xf2 xcb)
(T (W x00 x00 x80 x3f x00 x00 x80 x3f)
(T (W xff xff xff xff xff xff xff xff)
(T (W x45 x26 x22 x84 xe4 x9c xf2 xcb)
(T (W xff xff xff xff xff xff xff xff)
(T (W x00 x00 x80 x3f x00 x00 x80 x3f)
(L (W x00 x00 x80 xbf x00 x00 x80 xbf))
(L (W x00 x00 x00 x00 x00 x00 x00 x00)))
(T (W x00 x00 x80 x3f x00 x00 x80 x3f)
(L (W xff xff xff xff xff xff xff xff)) E))
(T (W x00 x00 x00 x00 x00 x00 x00 x00)
(T (W x64 x01 xfc xff x00 x01 x01 x01)
(L (W x00 x00 x00 x00 x00 x00 x00 x00))
(L (W xff xff xff xff xc8 x00 x00 x00)))
(T (W x63 x6f x77 x61 x72 x64 x5f x63)
(L (W xff xff xff xff xff xff xff xff)) E)))
(T (W x00 x00 x00 x00 x00 x00 x00 x00)
(T (W x45 x26 x22 x84 xe4 x9c xf2 xcb)
(T (W x00 x00 x00 x00 xd4 xbf xfb xff)
(L (W x00 x00 x00 x00 x00 x00 x62 x00))
(L (W x18 x00 x00 x00 x10 x00 x00 x00)))
(T (W x45 x26 x22 x84 xe4 x9c xf2 xcb)
(L (W x49 xa1 x68 x4a xeb x5f xdd x3d)) E))
(T (W x00 x00 x00 x00 x00 x00 x00 x00)
(T (W x68 x00 x00 x00 x5c x00 x00 x00)
(L (W xff xff xff xff xff xff xff xff)) E)
(T (W x00 x00 x00 x00 xd4 x3f xfd xff)
(L (W x00 x00 x80 xbf x00 x00 x80 xbf)) E))))
(T (W x45 x26 x22 x84 xe4 x9c xf2 xcb)
(T (W x00 x00 x00 x00 x00 x00 x00 x00)
(T (W x54 x00 x00 x00 x48 x00 x00 x00)
(T (W x00 x00 x80 x3f x00 x00 x80 x3f)
(L (W x00 x00 x80 xbf x00 x00 x80 xbf))
(L (W x00 x00 x00 x00 x68 xa1 xff xff)))
(T (W x00 x00 x80 x3f x00 x00 x80 x3f)
(L (W x45 x44 x00 x00 x00 x00 x00 x00)) E))
(T (W x4f x84 x6f x8b xe8 xcb x63 xb7)
(T (W xff xff xff xff xff xff xff xff)
(L (W x15 x00 x00 x00 x18 x00 x00 x00)) E)
(T (W x00 x00 x00 x00 x00 x00 x00 x00)
(L (W x00 x00 x00 x00 x00 x00 x00 x00)) E)))
(T (W x00 x00 x00 x00 x00 x00 x00 x00)
(T (W x00 x00 x00 x00 x00 x00 x00 x00)
(T (W x00 x00 x00 x00 x12 x00 x00 x00)
(L (W x45 x26 x22 x84 xe4 x9c xf2 xcb))
(L (W xff xff xff xff xff xff xff xff)))
(T (W x00 x00 x00 x00 x00 x00 x00 x00)
(L (W x42 xde xfe xff x78 x00 x00 x00)) E))
(T (W x50 x00 x00 x00 x44 x00 x00 x00)
(T (W xff xff xff xff xff xff xff xff)
(L (W x54 x00 x00 x00 x48 x00 x00 x00)) E)
(T (W x00 x00 x00 x00 x00 x00 x00 x00)
(L (W xff xff xff xff xff xff xff xff)) E)))))
(T (W x18 x00 x00 x00 x0c x00 x00 x00)
(T (W xff xff xff xff x04 x00 x00 x00)
(T (W x00 x00 x80 x3f x00 x00 x80 x3f)
(T (W xff xff xff xff xff xff xff xff)
(T (W xff xff xff xff xff xff xff xff)
(L (W x49 xa1 x68 x4a xeb x5f xdd x3d))
(L (W x00 x00 x80 xbf x00 x00 x80 xbf)))
(T (W x00 x00 x00 x00 x00 x00 x00 x00)
(L (W x92 x01 x00 x00 xff xff xff xff)) E))
(T (W x00 x00 x80 x3f x00 x00 x80 x3f)
(T (W xff xff xff xff x03 x00 x00 x00)
(L (W x00 x00 x80 xbf x00 x00 x80 xbf)) E)
(T (W x03 x00 x00 x00 xbc x00 x00 x00)
(L (W x00 x00 x01 x01 x2e x00 x00 x00)) E)))
(T (W x00 x00 x00 x00 x00 x00 x00 x00)
(T (W x00 x00 x80 x3f x00 x00 x80 x3f)
(T (W xff xff xff xff xff xff xff xff)
(L (W x00 x00 x80 xbf x00 x00 x80 xbf))
(L (W xff xff xff xff xff xff xff xff)))
(T (W xff xff xff xff xff xff xff xff)
(L (W x00 x00 x80 xbf x00 x00 x80 xbf)) E))
(T (W xff xff xff xff xff xff xff xff)
(T (W x00 x00 x00 x00 xd4 x4f xfc xff)
(L (W x00 x00 x00 x00 x00 x00 x00 x00)) E)
(T (W xff xff xff xff xff xff xff xff)
(L (W x11 x00 x00 x00 x14 x00 x00 x00)) E))))
(T (W x18 x00 x00 x00 x0c x00 x00 x00)
(T (W x00 x00 x00 x00 x00 x00 x00 x00)
(T (W x45 x26 x22 x84 xe4 x9c xf2 xcb)
(T (W x64 x5f x70 x6f x6b x65 x5f x77)
(L (W x00 x00 x00 x00 x00 x00 x00 x00))
(L (W x00 x00 x80 xbf x00 x00 x80 xbf)))
(T (W x50 x00 x00 x00 x44 x00 x00 x00)
(L (W x46 x53 x59 x53 x5f x4e x53 x5f)) E))
(T (W xff xff xff xff xff xff xff xff)
(T (W x00 x00 x00 x00 x00 x00 x00 x00)
(L (W xff xff xff xff xff xff xff xff)) E)
(T (W x00 x00 x00 x00 x00 x00 x00 x00)
(L (W x45 x26 x22 x84 xe4 x9c xf2 xcb)) E)))
(T (W xd8 x00 x00 x00 xff xff xff xff)
(T (W x17 x00 x00 x00 x0c x00 x00 x00)
(T (W x00 x00 x80 x3f x00 x00 x80 x3f)
(L (W x00 x00 x00 x00 x00 x00 x00 x00))
(L (W x00 x00 x00 x00 x72 xed xff xff)))
(T (W x00 x00 x80 x3f x00 x00 x80 x3f)
(L (W xff xff xff xff xff xff xff xff)) E))
(T (W x9c x03 x00 x00 x6c x02 x00 x00)
(T (W x00 x00 x80 x3f x00 x00 x80 x3f)
(L (W xbc x00 x00 x00 x46 x00 x00 x00)) E)
(T (W x6c x00 x00 x00 x60 x00 x00 x00)
(L (W x45 x44 x00 x00 x00 x00 x00 x00)) E))))))
(T (W xff xff xff xff x04 x00 x00 x00)
(T (W x00 x00 x00 x00 x00 x00 x00 x00)
(T (W x00 x00 x80 x3f x00 x00 x80 x3f)
(T (W x18 x00 x00 x00 x0c x00 x00 x00)
(T (W xff xff xff xff xff xff xff xff)
(T (W xd4 x00 x00 x00 xc8 x00 x00 x00)
(L (W x00 x00 x00 x00 x00 x00 x00 x00))
(L (W x45 x26 x22 x84 xe4 x9c xf2 xcb)))
(T (W x00 x00 x00 x00 x00 x00 x00 x00)
(L (W xff xff xff xff xff xff xff xff)) E))
(T (W x00 x00 x80 x3f x00 x00 x80 x3f)
(T (W x92 x04 xfc xff x74 x00 x00 x00)
(L (W x00 x00 x80 xbf x00 x00 x80 xbf)) E)
(T (W x00 x00 x01 x01 xa0 x01 x00 x00)
(L (W xff xff xff xff xff xff xff xff)) E)))
(T (W x00 x00 x00 x00 x00 x00 x00 x00)
(T (W x45 x26 x22 x84 xe4 x9c xf2 xcb)
(T (W xff xff xff xff xff xff xff xff)
(L (W x00 x00 x80 xbf x00 x00 x80 xbf))
(L (W xff xff xff xff xb0 x00 x00 x00)))
(T (W xff xff xff xff xff xff xff xff)
(L (W x45 x26 x22 x84 xe4 x9c xf2 xcb)) E))
(T (W x54 x00 x00 x00 x48 x00 x00 x00)
(T (W x45 x26 x22 x84 xe4 x9c xf2 xcb)
(L (W x00 x00 x00 x00 x00 x00 x00 x00)) E)
(T (W xc4 x00 x00 x00 x02 x00 x00 x00)
(L (W x64 x49 xff xff x00 x01 x01 x01)) E))))
(T (W x92 xe4 xf9 xff x74 x00 x00 x00)
(T (W x00 x00 x80 x3f x00 x00 x80 x3f)
(T (W x00 x00 x80 x3f x00 x00 x80 x3f)
(T (W xff xff xff xff xff xff xff xff)
(L (W x45 x26 x22 x84 xe4 x9c xf2 xcb))
(L (W x4f x84 x6f x8b xe8 xcb x63 xb7)))
(T (W x00 x00 x80 x3f x00 x00 x80 x3f)
(L (W x00 x00 x00 x00 x00 x00 x00 x00)) E))
(T (W x00 x00 x80 x3f x00 x00 x80 x3f)
(T (W x30 x32 x5f x43 x4c x45 x41 x52)
(L (W xff xff xff xff xff xff xff xff)) E)
(T (W x00 x00 x00 x00 x12 x00 x00 x00)
(L (W x00 x00 x00 x00 x00 x00 x00 x00)) E)))
(T (W x5e x72 x2e xc4 x8d x7e xa4 xe8)
(T (W x00 x00 x00 x00 x00 x00 x00 x00)
(T (W x00 x00 x00 x00 x00 x00 x00 x00)
(L (W x54 x02 x00 x00 x38 x01 x00 x00))
(L (W xff xff xff xff xff xff xff xff)))
(T (W x1b x00 x00 x00 x67 x72 x6f x75)
(L (W xbc x00 x00 x00 x1e x00 x00 x00)) E))
(T (W x18 x00 x00 x00 x10 x00 x00 x00)
(T (W x00 x00 x80 x3f x00 x00 x80 x3f)
(L (W x42 x66 xfe xff x78 x00 x00 x00)) E)
(T (W x00 x00 x80 xbf x00 x00 x80 xbf)
(L (W xff xff xff xff xff xff xff xff)) E)))))
(T (W x00 x00 x00 x00 x00 x00 x00 x00)
(T (W x68 x00 x00 x00 x5c x00 x00 x00)
(T (W xff xff xff xff xff xff xff xff)
(T (W x00 x00 x00 x00 x00 x00 x00 x00)
(T (W x6b x65 x5f x6c x76 x31 x00 x00)
(L (W x00 x00 x80 xbf x00 x00 x80 xbf))
(L (W x00 x00 x00 x00 xd4 x97 xff xff)))
(T (W x18 x01 x00 x00 x04 x00 x00 x00)
(L (W x94 x04 x00 x00 x78 x03 x00 x00)) E))
(T (W x00 x00 x00 x00 x00 x00 x00 x00)
(T (W xb0 x00 x00 x00 x14 x00 x00 x00)
(L (W x00 x00 x00 x00 xd4 x17 xfe xff)) E)
(T (W x00 x00 x80 xbf x00 x00 x80 xbf)
(L (W x00 x00 x00 x00 x00 x00 x00 x00)) E)))
(T (W x00 x00 x00 x00 x00 x00 x00 x00)
(T (W x00 x00 x00 x00 x00 x00 x00 x00)
(T (W x87 x75 x5a x26 x96 x96 x06 x58)
(L (W x42 xd6 xfd xff x78 x00 x00 x00))
(L (W xff xff xff xff xff xff xff xff)))
(T (W x30 x32 x5f x43 x4c x45 x41 x52)
(L (W x6c x00 x00 x00 x60 x00 x00 x00)) E))
(T (W x00 x00 x00 x00 x00 x00 x00 x00)
(T (W xff xff xff xff x03 x00 x00 x00)
(L (W x00 x00 x80 xbf x00 x00 x80 xbf)) E)
(T (W x00 x00 x00 x00 x00 x00 x00 x00)
(L (W x03 x00 x00 x00 xd8 x00 x00 x00)) E))))
(T (W x64 xf9 xf9 xff x00 x01 x01 x01)
(T (W x00 x00 x00 x00 x00 x00 x00 x00)
(T (W x00 x00 x00 x00 x00 x00 x00 x00)
(T (W x00 x00 x80 x3f x00 x00 x80 x3f)
(L (W x92 xb4 xfd xff x74 x00 x00 x00))
(L (W x64 xb9 xff xff x00 x01 x01 x01)))
(T (W x45 x26 x22 x84 xe4 x9c xf2 xcb)
(L (W x00 x00 x00 x00 x00 x00 x00 x00)) E))
(T (W x00 x00 x00 x00 xc2 x3b xfb xff)
(T (W x00 x00 x80 x3f x00 x00 x80 x3f)
(L (W x2a x00 x00 x00 xff xff xff xff)) E)
(T (W x00 x00 x80 xbf x00 x00 x80 xbf)
(L (W x00 x00 x80 xbf x00 x00 x80 xbf)) E)))
(T (W xff xff xff xff xff xff xff xff)
(T (W x00 x00 x00 x00 x00 x00 x00 x00)
(T (W x50 x00 x00 x00 x44 x00 x00 x00)
(L (W x00 x00 x00 x00 x00 x00 x00 x00))
(L (W x00 x00 x00 x00 x00 x00 x00 x00)))
(T (W xff xff xff xff xff xff xff xff)
(L (W x5c x00 x00 x00 xff xff xff xff)) E))
(T (W x4f x84 x6f x8b xe8 xcb x63 xb7)
(T (W x00 x00 x80 x3f x00 x00 x80 x3f)
(L (W xff xff xff xff xff xff xff xff)) E)
(T (W x00 x00 x80 xbf x00 x00 x80 xbf)
(L (W x18 x00 x00 x00 x0c x00 x00 x00)) E)))))))))))))
(T (W xc0 x5a x06 x00 x84 x51 x06 x00)
(T (W xb0 x24 x06 x00 xb4 x1d x06 x00)
(T (W x78 xa7 x05 x00 x8c x99 x05 x00)
(T (W x38 xad x04 x00 xec xa3 x04 x00)
(T (W x98 x84 x03 x00 x2c x83 x03 x00)
(T (W x68 x81 x01 x00 xec x7e x01 x00)
(T (W xff xff xff xff x04 x00 x00 x00)
(T (W x00 x00 x80 x3f x00 x00 x80 x3f)
(T (W xff xff xff xff xff xff xff xff)
(T (W x00 x00 x00 x00 x00 x00 x00 x00)
(T (W x00 x00 x80 x3f x00 x00 x80 x3f)
(T (W xb8 x00 x00 x00 xac x00 x00 x00)
(T (W x46 x53 x59 x53 x5f x4e x53 x5f)
(L (W x00 x00 x00 x00 x00 x00 x00 x00))
(L (W x00 x00 x01 x01 x5d x00 x00 x00)))
(T (W x00 x00 x00 x00 x00 x00 x00 x00)
(L (W x18 x00 x00 x00 x0c x00 x00 x00)) E))
(T (W x00 x00 x00 x00 x00 x00 x00 x00)
(T (W x00 x00 x80 x3f x00 x00 x80 x3f)
(L (W x00 x00 x01 x01 x2e x00 x00 x00))
(L (W x00 x00 x00 x00 x62 xf7 xff xff)))
(T (W x00 x00 x00 x00 x04 xf8 xfc xff)
(L (W xff xff xff xff xff xff xff xff)) E)))
(T (W x01 x00 x00 x00 x04 x00 x00 x00)
(T (W x00 x00 x00 x00 x00 x00 x00 x00)
(T (W x00 x00 x00 x00 x00 x00 x00 x00)
(L (W x00 x00 x80 xbf x00 x00 x80 xbf))
(L (W x00 x00 x80 xbf x00 x00 x80 xbf)))
(T (W x00 x00 x00 x00 x00 x00 x00 x00)
(L (W x00 x00 x00 x00 x82 xbd xfe xff)) E))
(T (W xff xff xff xff xff xff xff xff)
(T (W x00 x00 x00 x00 x00 x00 x00 x00)
(L (W xff xff xff xff xff xff xff xff)) E)
(T (W x4f x84 x6f x8b xe8 xcb x63 xb7)
(L (W x00 x00 x00 x00 x00 x00 x00 x00)) E))))
(T (W x00 x00 x80 x3f x00 x00 x80 x3f)
(T (W x00 x00 x00 x00 x04 x18 xfa xff)
(T (W x04 x00 x00 x00 xb4 x03 x00 x00)
(T (W x00 x00 x01 x01 x9c x01 x00 x00)
(L (W x00 x00 x00 x00 x00 x00 x00 x00))
(L (W x00 x00 x80 xbf x00 x00 x80 xbf)))
(T (W xff xff xff xff xff xff xff xff)
(L (W xff xff xff xff xff xff xff xff)) E))
(T (W x00 x00 x01 x01 x9c x01 x00 x00)
(T (W x68 x00 x00 x00 x5c x00 x00 x00)
(L (W x00 x00 x80 xbf x00 x00 x80 xbf)) E)
(T (W x00 x00 x00 x00 x00 x00 x00 x00)
(L (W x45 x44 x00 x00 x00 x00 x00 x00)) E)))
(T (W x20 x01 x00 x00 x04 x00 x00 x00)
(T (W x3e x00 x00 x00 x10 x00 x00 x00)
(T (W xff xff xff xff xff xff xff xff)
(L (W x00 x00 x80 xbf x00 x00 x80 xbf))
(L (W x45 x26 x22 x84 xe4 x9c xf2 xcb)))
(T (W xff xff xff xff xff xff xff xff)
(L (W x00 x00 x80 xbf x00 x00 x80 xbf)) E))
(T (W x70 x5f x6c x65 x61 x64 x65 x72)
(T (W x72 x56 xfc xff x78 x00 x00 x00)
(L (W x00 x00 x00 x00 x00 x00 x00 x00)) E)
(T (W x04 x00 x00 x00 x82 x5d xfd xff)
(L (W x94 x59 xff xff x00 x01 x01 x01)) E)))))
(T (W xff xff xff xff xff xff xff xff)
(T (W x00 x00 x00 x00 x00 x00 x00 x00)
(T (W x00 x00 x80 x3f x00 x00 x80 x3f)
(T (W x01 x00 x00 x00 x9c x00 x00 x00)
(T (W x72 x86 xfb xff x78 x00 x00 x00)
(L (W x00 x00 x00 x00 x00 x00 x00 x00))
(L (W x00 x00 x00 x00 x00 x00 x00 x00)))
(T (W x33 x98 x30 x97 x85 x1d x5c x5f)
(L (W x18 x00 x00 x00 x1b x00 x00 x00)) E))
(T (W x00 x00 x00 x00 x00 x00 x00 x00)
(T (W x00 x00 x80 x3f x00 x00 x80 x3f)
(L (W x00 x00 x00 x00 x00 x00 x00 x00)) E)
(T (W xff xff xff xff xff xff xff xff)
(L (W xff xff xff xff xbc x00 x00 x00)) E)))
(T (W x2a x59 xfd xff x00 x00 x01 x01)
(T (W x00 x00 x00 x00 x00 x00 x00 x00)
(T (W x45 x26 x22 x84 xe4 x9c xf2 xcb)
(L (W x49 xa1 x68 x4a xeb x5f xdd x3d))
(L (W x54 x00 x00 x00 x48 x00 x00 x00)))
(T (W x00 x00 x00 x00 x04 xc8 xfc xff)
(L (W x00 x00 x00 x00 x00 x00 x00 x00)) E))
(T (W x00 x00 x80 x3f x00 x00 x80 x3f)
(T (W x00 x00 x80 x3f x00 x00 x80 x3f)
(L (W xff xff xff xff xff xff xff xff)) E)
(T (W x6c x00 x00 x00 x60 x00 x00 x00)
(L (W x00 x00 x80 xbf x00 x00 x80 xbf)) E))))
(T (W x00 x00 x80 x3f x00 x00 x80 x3f)
(T (W x00 x00 x00 x00 x00 x00 x00 x00)
(T (W x00 x00 x00 x00 x00 x00 x00 x00)
(T (W x00 x00 x00 x00 x04 xa8 xfb xff)
(L (W x00 x00 x80 xbf x00 x00 x80 xbf))
(L (W x46 x53 x59 x53 x5f x4e x53 x5f)))
(T (W x00 x00 x00 x00 x00 x00 x00 x00)
(L (W xff xff xff xff xff xff xff xff)) E))
(T (W x00 x00 x00 x00 x00 x00 x00 x00)
(T (W xff xff xff xff xff xff xff xff)
(L (W x18 x00 x00 x00 x10 x00 x00 x00)) E)
(T (W x00 x00 x00 x00 xa2 x25 xfd xff)
(L (W x00 x00 x00 x00 x00 x00 x00 x00)) E)))
(T (W xff xff xff xff xff xff xff xff)
(T (W x1c x01 x00 x00 x04 x00 x00 x00)
(T (W x00 x00 x00 x00 x00 x00 x00 x00)
(L (W xff xff xff xff xff xff xff xff))
(L (W xff xff xff xff xff xff xff xff)))
(T (W x5f x77 x69 x6c x64 x5f x70 x6f)
(L (W x72 xe6 xfe xff x78 x00 x00 x00)) E))
(T (W x00 x00 x80 x3f x00 x00 x80 x3f)
(T (W x00 x00 x00 x00 x00 x00 x00 x00)
(L (W x00 x00 x80 xbf x00 x00 x80 xbf)) E)
(T (W x00 x00 x00 x00 x00 x00 x00 x00)
(L (W xff xff xff xff xff xff xff xff)) E))))))
(T (W x00 x00 x00 x00 x00 x00 x00 x00)
(T (W x45 x26 x22 x84 xe4 x9c xf2 xcb)
(T (W x45 x26 x22 x84 xe4 x9c xf2 xcb)
(T (W x00 x00 x80 x3f x00 x00 x80 x3f)
(T (W x45 x26 x22 x84 xe4 x9c xf2 xcb)
(T (W x00 x00 x00 x00 x00 x00 x00 x00)
(L (W x00 x00 x00 x00 x00 x00 x00 x00))
(L (W x00 x00 x00 x00 x00 x00 x00 x00)))
(T (W x00 x00 x00 x00 x00 x00 x00 x00)
(L (W xbc x00 x00 x00 x1e x00 x00 x00)) E))
(T (W xff xff xff xff xff xff xff xff)
(T (W x00 x00 x80 x3f x00 x00 x80 x3f)
(L (W x00 x00 x00 x00 x00 x00 x00 x00))
(L (W x04 x00 x04 x00 x04 x00 x00 x00)))
(T (W xaf x68 xff x4b x84 x9a x7b x61)
(L (W xff xff xff xff xff xff xff xff)) E)))
(T (W xff xff xff xff xff xff xff xff)
(T (W x00 x00 x00 x00 x00 x00 x00 x00)
(T (W x00 x00 x80 x3f x00 x00 x80 x3f)
(L (W x34 x00 x38 x00 x3c x00 x40 x00))
(L (W x00 x00 x80 xbf x00 x00 x80 xbf)))
(T (W x00 x00 x00 x00 x00 x00 x00 x00)
(L (W x00 x00 x00 x00 x12 x00 x00 x00)) E))
(T (W x2c x01 x00 x00 x04 x00 x00 x00)
(T (W x00 x00 x80 x3f x00 x00 x80 x3f)
(L (W xff xff xff xff xff xff xff xff)) E)
(T (W x00 x00 x80 xbf x00 x00 x80 xbf)
(L (W x00 x00 x00 x00 x00 x00 x00 x00)) E))))
(T (W x00 x00 x80 x3f x00 x00 x80 x3f)
(T (W x29 x00 x00 x00 x67 x72 x6f x75)
(T (W x00 x00 x80 x3f x00 x00 x80 x3f)
(T (W x00 x00 x00 x00 x00 x00 x00 x00)
(L (W x49 xa1 x68 x4a xeb x5f xdd x3d))
(L (W x00 x00 x80 xbf x00 x00 x80 xbf)))
(T (W x00 x00 x00 x00 x00 x00 x00 x00)
(L (W xff xff xff xff xff xff xff xff)) E))
(T (W x46 x53 x59 x53 x5f x4e x53 x5f)
(T (W xff xff xff xff xff xff xff xff)
(L (W x6c x00 x00 x00 x60 x00 x00 x00)) E)
(T (W xff xff xff xff xff xff xff xff)
(L (W x14 x00 x00 x00 x0c x00 x00 x00)) E)))
(T (W xff xff xff xff xff xff xff xff)
(T (W x00 x00 x00 x00 xd2 xed xff xff)
(T (W x00 x00 x00 x00 xa2 xdd xfb xff)
(L (W x00 x00 x80 xbf x00 x00 x80 xbf))
(L (W xbc x00 x00 x00 x1e x00 x00 x00)))
(T (W x00 x00 x00 x00 x62 xdf xfc xff)
(L (W x00 x00 x80 xbf x00 x00 x80 xbf)) E))
(T (W x00 x00 x80 x3f x00 x00 x80 x3f)
(T (W x45 x26 x22 x84 xe4 x9c xf2 xcb)
(L (W x00 x00 x80 xbf x00 x00 x80 xbf)) E)
(T (W x45 x44 x00 x00 x00 x00 x00 x00)
(L (W xff xff xff xff xa0 x00 x00 x00)) E)))))
(T (W x00 x00 x80 x3f x00 x00 x80 x3f)
(T (W xff xff xff xff xff xff xff xff)
(T (W x45 x26 x22 x84 xe4 x9c xf2 xcb)
(T (W x0a x00 x00 x00 x3e x00 x00 x00)
(T (W x15 x00 x00 x00 x18 x00 x00 x00)
(L (W x12 x00 x00 x00 x46 x53 x59 x53))
(L (W x49 xa1 x68 x4a xeb x5f xdd x3d)))
(T (W xff xff xff xff xff xff xff xff)
(L (W xff xff xff xff xff xff xff xff)) E))
(T (W x00 x00 x00 x00 x00 x00 x00 x00)
(T (W x72 x0e xfc xff x78 x00 x00 x00)
(L (W x4f x84 x6f x8b xe8 xcb x63 xb7)) E)
(T (W xc2 x0c xfd xff x74 x00 x00 x00)
(L (W xff xff xff xff xff xff xff xff)) E)))
(T (W x00 x00 x00 x00 x00 x00 x00 x00)
(T (W x00 x00 x00 x00 x00 x00 x00 x00)
(T (W xff xff xff xff x9c x00 x00 x00)
(L (W x00 x00 x00 x00 x00 x00 x00 x00))
(L (W x45 x26 x22 x84 xe4 x9c xf2 xcb)))
(T (W x18 x00 x00 x00 x0c x00 x00 x00)
(L (W x00 x00 x00 x00 x00 x00 x00 x00)) E))
(T (W xff xff xff xff xff xff xff xff)
(T (W x00 x00 x80 x3f x00 x00 x80 x3f)
(L (W x00 x00 x00 x00 x00 x00 x00 x00)) E)
(T (W xff xff xff xff xbc x00 x00 x00)
(L (W x6c x00 x00 x00 x60 x00 x00 x00)) E))))
(T (W x00 x00 x80 x3f x00 x00 x80 x3f)
(T (W x00 x00 x00 x00 x00 x00 x00 x00)
(T (W x00 x00 x00 x00 x00 x00 x00 x00)
(T (W xff xff xff xff xff xff xff xff)
(L (W xff xff xff xff xff xff xff xff))
(L (W x45 x26 x22 x84 xe4 x9c xf2 xcb)))
(T (W x00 x00 x80 x3f x00 x00 x80 x3f)
(L (W x5c x00 x00 x00 xff xff xff xff)) E))
(T (W x24 x00 x00 x00 xb0 x00 x00 x00)
(T (W x00 x00 x00 x00 x00 x00 x00 x00)
(L (W x03 x00 x00 x00 xd0 x00 x00 x00)) E)
(T (W x00 x00 x00 x00 x00 x00 x00 x00)
(L (W x00 x00 x00 x00 x00 x00 x00 x00)) E)))
(T (W xff xff xff xff xff xff xff xff)
(T (W xff xff xff xff xff xff xff xff)
(T (W x00 x00 x00 x00 x00 x00 x00 x00)
(L (W xff xff xff xff xff xff xff xff))
(L (W xff xff xff xff xff xff xff xff)))
(T (W x4f x84 x6f x8b xe8 xcb x63 xb7)
(L (W x15 x00 x00 x00 x18 x00 x00 x00)) E))
(T (W xff xff xff xff xff xff xff xff)
(T (W x00 x00 x00 x00 x00 x00 x00 x00)
(L (W x72 x6e xfe xff x78 x00 x00 x00)) E)
(T (W x00 x00 x80 xbf x00 x00 x80 xbf)
(L (W xff xff xff xff xff xff xff xff)) E)))))))
(T (W x00 x00 x00 x00 x00 x00 x00 x00)
(T (W xff xff xff xff xff xff xff xff)
(T (W x00 x00 x00 x00 x00 x00 x00 x00)
(T (W x00 x00 x80 x3f x00 x00 x80 x3f)
(T (W x2a x0d xfd xff x00 x00 x01 x01)
(T (W x00 x00 x00 x00 x00 x00 x00 x00)
(T (W x45 x26 x22 x84 xe4 x9c xf2 xcb)
(L (W x18 x00 x00 x00 x0c x00 x00 x00))
(L (W x00 x00 x80 xbf x00 x00 x80 xbf)))
(T (W x18 x00 x00 x00 x10 x00 x00 x00)
(L (W x00 x00 x00 x00 x00 x00 x00 x00)) E))
(T (W x00 x00 x00 x00 x00 x00 x00 x00)
(T (W xff xff xff xff xff xff xff xff)
(L (W x45 x26 x22 x84 xe4 x9c xf2 xcb))
(L (W x00 x00 x00 x00 x00 x00 x00 x00)))
(T (W xd8 x00 x00 x00 xff xff xff xff)
(L (W x00 x00 x00 x00 x00 x00 x00 x00)) E)))
(T (W x68 x00 x00 x00 x5c x00 x00 x00)
(T (W x18 x00 x00 x00 x10 x00 x00 x00)
(T (W xff xff xff xff xff xff xff xff)
(L (W x45 x26 x22 x84 xe4 x9c xf2 xcb))
(L (W x04 x00 x00 x00 x82 xc1 xff xff)))
(T (W x00 x00 x00 x00 x04 xbc xfc xff)
(L (W x45 x26 x22 x84 xe4 x9c xf2 xcb)) E))
(T (W x00 x00 x80 x3f x00 x00 x80 x3f)
(T (W xff xff xff xff xff xff xff xff)
(L (W x00 x00 x80 xbf x00 x00 x80 xbf)) E)
(T (W xff xff xff xff xff xff xff xff)
(L (W xff xff xff xff xff xff xff xff)) E))))
(T (W xff xff xff xff xff xff xff xff)
(T (W x00 x00 x00 x00 x00 x00 x00 x00)
(T (W xb8 x00 x00 x00 xac x00 x00 x00)
(T (W x50 x00 x00 x00 x44 x00 x00 x00)
(L (W xff xff xff xff xff xff xff xff))
(L (W xff xff xff xff xff xff xff xff)))
(T (W x00 x00 x00 x00 x00 x00 x00 x00)
(L (W x00 x00 x80 xbf x00 x00 x80 xbf)) E))
(T (W x45 x26 x22 x84 xe4 x9c xf2 xcb)
(T (W x00 x00 x00 x00 x00 x00 x00 x00)
(L (W xff xff xff xff xff xff xff xff)) E)
(T (W x45 x26 x22 x84 xe4 x9c xf2 xcb)
(L (W x72 x1a xff xff x78 x00 x00 x00)) E)))
(T (W x45 x26 x22 x84 xe4 x9c xf2 xcb)
(T (W x00 x00 x80 x3f x00 x00 x80 x3f)
(T (W x00 x00 x80 x3f x00 x00 x80 x3f)
(L (W x44 x02 x00 x00 x30 x01 x00 x00))
(L (W x45 x26 x22 x84 xe4 x9c xf2 xcb)))
(T (W x6c x00 x00 x00 x60 x00 x00 x00)
(L (W xff xff xff xff xff xff xff xff)) E))
(T (W x68 x00 x00 x00 x5c x00 x00 x00)
(T (W x6b x65 x5f x6c x76 x31 x00 x00)
(L (W xff xff xff xff xb0 x00 x00 x00)) E)
(T (W x00 x00 x80 xbf x00 x00 x80 xbf)
(L (W x1c x6b xff xff x15 x00 x00 x00)) E)))))
(T (W x00 x00 x00 x00 x00 x00 x00 x00)
(T (W x54 x00 x00 x00 x48 x00 x00 x00)
(T (W xff xff xff xff xff xff xff xff)
(T (W x00 x00 x00 x00 x00 x00 x00 x00)
(T (W xff xff xff xff xff xff xff xff)
(L (W x45 x26 x22 x84 xe4 x9c xf2 xcb))
(L (W x00 x00 x00 x00 x04 x8c xff xff)))
(T (W x00 x00 x80 x3f x00 x00 x80 x3f)
(L (W x00 x00 x00 x00 x00 x00 x00 x00)) E))
(T (W xff xff xff xff xff xff xff xff)
(T (W x45 x44 x00 x00 x00 x00 x00 x00)
(L (W xff xff xff xff xff xff xff xff)) E)
(T (W x50 x00 x00 x00 x44 x00 x00 x00)
(L (W x00 x00 x80 xbf x00 x00 x80 xbf)) E)))
(T (W x00 x00 x80 x3f x00 x00 x80 x3f)
(T (W xc2 xc8 xfa xff x74 x00 x00 x00)
(T (W x5f x77 x69 x6c x64 x5f x70 x6f)
(L (W x03 x00 x00 x00 xd8 x00 x00 x00))
(L (W x00 x00 x00 x00 x00 x00 x00 x00)))
(T (W x00 x00 x00 x00 x00 x00 x00 x00)
(L (W xff xff xff xff xff xff xff xff)) E))
(T (W x00 x00 x00 x00 x22 x00 x00 x00)
(T (W x22 x53 xff xff x00 x00 x01 x01)
(L (W x72 x4a xfe xff x78 x00 x00 x00)) E)
(T (W x00 x00 x00 x00 x00 x00 x00 x00)
(L (W x04 x00 x00 x00 x82 x51 xff xff)) E))))
(T (W xff xff xff xff xff xff xff xff)
(T (W x68 x00 x00 x00 x5c x00 x00 x00)
(T (W xff xff xff xff xff xff xff xff)
(T (W x00 x00 x00 x00 x00 x00 x00 x00)
(L (W xff xff xff xff x9c x00 x00 x00))
(L (W xff xff xff xff xff xff xff xff)))
(T (W xff xff xff xff xff xff xff xff)
(L (W x00 x00 x80 xbf x00 x00 x80 xbf)) E))
(T (W xff xff xff xff x01 x00 x00 x00)
(T (W x49 xa1 x68 x4a xeb x5f xdd x3d)
(L (W x45 x44 x00 x00 x00 x00 x00 x00)) E)
(T (W x94 x2d xfd xff x00 x01 x01 x01)
(L (W xff xff xff xff xb0 x00 x00 x00)) E)))
(T (W x00 x00 x80 x3f x00 x00 x80 x3f)
(T (W x00 x00 x80 x3f x00 x00 x80 x3f)
(T (W x18 x00 x00 x00 x10 x00 x00 x00)
(L (W x00 x00 x80 xbf x00 x00 x80 xbf))
(L (W x45 x26 x22 x84 xe4 x9c xf2 xcb)))
(T (W x00 x00 x00 x00 x04 xec xfc xff)
(L (W x00 x00 x00 x00 x00 x00 x00 x00)) E))
(T (W x00 x00 x00 x00 x00 x00 x00 x00)
(T (W x64 x00 x00 x00 x9c x00 x00 x00)
(L (W x54 x02 x00 x00 x38 x01 x00 x00)) E)
(T (W xff xff xff xff xff xff xff xff)
(L (W x00 x00 x00 x00 x00 x00 x00 x00)) E))))))
(T (W x00 x00 x80 x3f x00 x00 x80 x3f)
(T (W x00 x00 x00 x00 x04 xa4 xf9 xff)
(T (W xff xff xff xff xff xff xff xff)
(T (W xff xff xff xff xff xff xff xff)
(T (W x00 x00 x00 x00 x00 x00 x00 x00)
(T (W xff xff xff xff xff xff xff xff)
(L (W x68 x00 x00 x00 x5c x00 x00 x00))
(L (W x00 x00 x80 xbf x00 x00 x80 xbf)))
(T (W x45 x26 x22 x84 xe4 x9c xf2 xcb)
(L (W x46 x53 x59 x53 x5f x4e x53 x5f)) E))
(T (W x00 x00 x80 x3f x00 x00 x80 x3f)
(T (W x4b x00 x00 x00 xff xff xff xff)
(L (W xc4 x00 x00 x00 x02 x00 x00 x00)) E)
(T (W x04 x00 x00 x00 xa2 x01 xfd xff)
(L (W x45 x26 x22 x84 xe4 x9c xf2 xcb)) E)))
(T (W x72 x42 xfa xff x78 x00 x00 x00)
(T (W x01 x00 x00 x00 xa0 x00 x00 x00)
(T (W x00 x00 x00 x00 x00 x00 x00 x00)
(L (W xff xff xff xff xff xff xff xff))
(L (W xc5 x01 x00 x00 xff xff xff xff)))
(T (W xc2 xc0 xfc xff x74 x00 x00 x00)
(L (W x03 x00 x00 x00 xd0 x00 x00 x00)) E))
(T (W xbc x00 x00 x00 x14 x00 x00 x00)
(T (W xff xff xff xff xff xff xff xff)
(L (W x00 x00 x80 xbf x00 x00 x80 xbf)) E)
(T (W x46 x53 x59 x53 x5f x4e x53 x5f)
(L (W xff xff xff xff xff xff xff xff)) E))))
(T (W xff xff xff xff xff xff xff xff)
(T (W x45 x26 x22 x84 xe4 x9c xf2 xcb)
(T (W xff xff xff xff xff xff xff xff)
(T (W x9f x01 x00 x00 xff xff xff xff)
(L (W x00 x00 x00 x00 x00 x00 x00 x00))
(L (W x00 x00 x80 xbf x00 x00 x80 xbf)))
(T (W xff xff xff xff xff xff xff xff)
(L (W x54 x00 x00 x00 x48 x00 x00 x00)) E))
(T (W xff xff xff xff xff xff xff xff)
(T (W x00 x00 x80 x3f x00 x00 x80 x3f)
(L (W x00 x00 x00 x00 x62 x23 xfe xff)) E)
(T (W x00 x00 x80 xbf x00 x00 x80 xbf)
(L (W x45 x26 x22 x84 xe4 x9c xf2 xcb)) E)))
(T (W x00 x00 x80 x3f x00 x00 x80 x3f)
(T (W x00 x00 x80 x3f x00 x00 x80 x3f)
(T (W x00 x00 x80 x3f x00 x00 x80 x3f)
(L (W x45 x44 x00 x00 x00 x00 x00 x00))
(L (W x00 x00 x80 xbf x00 x00 x80 xbf)))
(T (W x64 x5f x70 x6f x6b x65 x5f x77)
(L (W x00 x00 x00 x00 x00 x00 x00 x00)) E))
(T (W x6b x65 x5f x77 x61 x72 x6c x69)
(T (W x00 x00 x00 x00 x00 x00 x00 x00)
(L (W xff xff xff xff xff xff xff xff)) E)
(T (W x18 x00 x00 x00 x0c x00 x00 x00)
(L (W x46 x53 x59 x53 x5f x4e x53 x5f)) E)))))
(T (W xff xff xff xff xff xff xff xff)
(T (W x00 x00 x00 x00 x00 x00 x00 x00)
(T (W x00 x00 x00 x00 x00 x00 x00 x00)
(T (W x00 x00 x00 x00 x00 x00 x00 x00)
(T (W x00 x00 x80 x3f x00 x00 x80 x3f)
(L (W xc0 x00 x00 x00 x01 x00 x00 x00))
(L (W x03 x00 x00 x00 xd8 x00 x00 x00)))
(T (W x00 x00 x80 x3f x00 x00 x80 x3f)
(L (W x00 x00 x80 xbf x00 x00 x80 xbf)) E))
(T (W x45 x44 x00 x00 x00 x00 x00 x00)
(T (W x00 x00 x00 x00 x00 x00 x00 x00)
(L (W xff xff xff xff xff xff xff xff)) E)
(T (W x00 x00 x00 x00 x00 x00 x00 x00)
(L (W x00 x00 x00 x00 x04 x14 xff xff)) E)))
(T (W x00 x00 x80 x3f x00 x00 x80 x3f)
(T (W x00 x00 x80 x3f x00 x00 x80 x3f)
(T (W x00 x00 x00 x00 x00 x00 x00 x00)
(L (W xff xff xff xff xff xff xff xff))
(L (W x00 x00 x00 x00 x00 x00 x00 x00)))
(T (W x00 x00 x00 x00 x00 x00 x00 x00)
(L (W xff xff xff xff xff xff xff xff)) E))
(T (W x4f x84 x6f x8b xe8 xcb x63 xb7)
(T (W x00 x00 x00 x00 xa2 x51 xfc xff)
(L (W x50 x00 x00 x00 x44 x00 x00 x00)) E)
(T (W x00 x00 x80 xbf x00 x00 x80 xbf)
(L (W x00 x00 x00 x00 x12 x00 x00 x00)) E))))
(T (W xff xff xff xff xff xff xff xff)
(T (W x00 x00 x80 x3f x00 x00 x80 x3f)
(T (W xff xff xff xff xff xff xff xff)
(T (W x54 x00 x00 x00 x48 x00 x00 x00)
(L (W x00 x00 x00 x00 x00 x00 x00 x00))
(L (W xff xff xff xff xff xff xff xff)))
(T (W xff xff xff xff xff xff xff xff)
(L (W x6c x00 x00 x00 x60 x00 x00 x00)) E))
(T (W x00 x00 x00 x00 x00 x00 x00 x00)
(T (W x68 x00 x00 x00 x5c x00 x00 x00)
(L (W x00 x00 x00 x00 x00 x00 x00 x00)) E)
(T (W xff xff xff xff x9c x00 x00 x00)
(L (W x00 x34 xff xff x62 x8b xff xff)) E)))
(T (W x00 x00 x80 x3f x00 x00 x80 x3f)
(T (W xff xff xff xff xff xff xff xff)
(T (W x94 xf5 xfb xff x00 x01 x01 x01)
(L (W x54 x00 x00 x00 x48 x00 x00 x00))
(L (W x6c x00 x00 x00 x60 x00 x00 x00)))
(T (W x69 x6b x65 x5f x6c x76 x32 x00)
(L (W x00 x00 x00 x00 x00 x00 x00 x00)) E))
(T (W x00 x00 x80 x3f x00 x00 x80 x3f)
(T (W x18 x00 x00 x00 x0c x00 x00 x00)
(L (W x00 x00 x00 x00 x00 x00 x00 x00)) E)
(T (W xff xff xff xff xc8 x00 x00 x00)
(L (W x00 x00 x80 xbf x00 x00 x80 xbf)) E))))))))
(T (W xb0 x5d x00 x00 x74 x5c x00 x00)
(T (W xff xff xff xff xff xff xff xff)
(T (W x94 x8b xf9 xff x00 x01 x01 x01)
(T (W xff xff xff xff x02 x00 x00 x00)
(T (W x00 x00 x00 x00 x00 x00 x00 x00)
(T (W x45 x26 x22 x84 xe4 x9c xf2 xcb)
(T (W x32 x99 x1b xf2 x1e x1f x49 x87)
(T (W x49 xa1 x68 x4a xeb x5f xdd x3d)
(L (W x00 x00 x80 xbf x00 x00 x80 xbf))
(L (W x00 x00 x00 x00 x00 x00 x00 x00)))
(T (W x00 x00 x80 x3f x00 x00 x80 x3f)
(L (W xff xff xff xff xff xff xff xff)) E))
(T (W xff xff xff xff xff xff xff xff)
(T (W x50 x00 x00 x00 x44 x00 x00 x00)
(L (W x00 x00 x00 x00 x00 x00 x00 x00))
(L (W x00 x00 x00 x00 x00 x00 x00 x00)))
(T (W x00 x00 x80 x3f x00 x00 x80 x3f)
(L (W x00 x00 x00 x00 xa2 xf7 xfe xff)) E)))
(T (W x45 x26 x22 x84 xe4 x9c xf2 xcb)
(T (W x00 x00 x80 x3f x00 x00 x80 x3f)
(T (W x50 x00 x00 x00 x44 x00 x00 x00)
(L (W x50 x00 x00 x00 x44 x00 x00 x00))
(L (W x45 x26 x22 x84 xe4 x9c xf2 xcb)))
(T (W x00 x00 x80 x3f x00 x00 x80 x3f)
(L (W x45 x26 x22 x84 xe4 x9c xf2 xcb)) E))
(T (W x00 x00 x00 x00 x00 x00 x00 x00)
(T (W x72 x38 xfc xff x78 x00 x00 x00)
(L (W x00 x00 x00 x00 xa2 x37 xfe xff)) E)
(T (W x94 x3b xfd xff x00 x01 x01 x01)
(L (W x00 x00 x80 xbf x00 x00 x80 xbf)) E))))
(T (W x00 x00 x80 x3f x00 x00 x80 x3f)
(T (W xff xff xff xff xff xff xff xff)
(T (W x45 x26 x22 x84 xe4 x9c xf2 xcb)
(T (W x00 x00 x00 x00 x00 x00 x00 x00)
(L (W x50 x00 x00 x00 x44 x00 x00 x00))
(L (W x45 x26 x22 x84 xe4 x9c xf2 xcb)))
(T (W x56 xae x33 x97 x85 xa1 x5f x5f)
(L (W x00 x00 x00 x00 x00 x00 x00 x00)) E))
(T (W x00 x00 x00 x00 x00 x00 x00 x00)
(T (W x00 x00 x00 x00 x00 x00 x00 x00)
(L (W xff xff xff xff xa0 x00 x00 x00)) E)
(T (W x18 x00 x00 x00 x0c x00 x00 x00)
(L (W x49 xa1 x68 x4a xeb x5f xdd x3d)) E)))
(T (W x00 x00 x00 x00 x00 x00 x00 x00)
(T (W x45 x26 x22 x84 xe4 x9c xf2 xcb)
(T (W x00 x00 x00 x00 x00 x00 x00 x00)
(L (W xc4 x00 x00 x00 x02 x00 x00 x00))
(L (W x04 x00 x00 x00 x82 xdf xff xff)))
(T (W x00 x00 x00 x00 x12 x00 x00 x00)
(L (W x68 x00 x00 x00 x5c x00 x00 x00)) E))
(T (W x00 x00 x80 x3f x00 x00 x80 x3f)
(T (W xff xff xff xff x03 x00 x00 x00)
(L (W x00 x00 x80 xbf x00 x00 x80 xbf)) E)
(T (W x45 x26 x22 x84 xe4 x9c xf2 xcb)
(L (W xff xff xff xff xff xff xff xff)) E)))))
(T (W x00 x00 x00 x00 x00 x00 x00 x00)
(T (W x00 x00 x80 x3f x00 x00 x80 x3f)
(T (W x94 x0b xfa xff x00 x01 x01 x01)
(T (W xff xff xff xff xff xff xff xff)
(T (W xff xff xff xff xff xff xff xff)
(L (W x00 x00 x80 xbf x00 x00 x80 xbf))
(L (W x00 x00 x80 xbf x00 x00 x80 xbf)))
(T (W x00 x00 x00 x00 x00 x00 x00 x00)
(L (W xff xff xff xff xff xff xff xff)) E))
(T (W x00 x00 x80 x3f x00 x00 x80 x3f)
(T (W xb0 x00 x00 x00 x64 x00 x00 x00)
(L (W x00 x00 x80 xbf x00 x00 x80 xbf)) E)
(T (W x00 x00 x00 x00 x00 x00 x00 x00)
(L (W x00 x00 x00 x00 x12 x00 x00 x00)) E)))
(T (W x00 x00 x00 x00 x00 x00 x00 x00)
(T (W x00 x00 x00 x00 x00 x00 x00 x00)
(T (W xff xff xff xff xff xff xff xff)
(L (W x6c x00 x00 x00 x60 x00 x00 x00))
(L (W xff xff xff xff xff xff xff xff)))
(T (W x00 x00 x80 x3f x00 x00 x80 x3f)
(L (W x00 x00 x00 x00 x04 xca xfe xff)) E))
(T (W xff xff xff xff xff xff xff xff)
(T (W x18 x00 x00 x00 x0c x00 x00 x00)
(L (W x46 x53 x59 x53 x5f x4e x53 x5f)) E)
(T (W xff xff xff xff xff xff xff xff)
(L (W x18 x00 x00 x00 x0c x00 x00 x00)) E))))
(T (W xc0 x00 x00 x00 xb4 x00 x00 x00)
(T (W x00 x00 x80 x3f x00 x00 x80 x3f)
(T (W x00 x00 x80 x3f x00 x00 x80 x3f)
(T (W xff xff xff xff xff xff xff xff)
(L (W xc2 xa6 xfd xff x74 x00 x00 x00))
(L (W x18 x00 x00 x00 x0c x00 x00 x00)))
(T (W x00 x00 x80 x3f x00 x00 x80 x3f)
(L (W x00 x00 x00 x00 x00 x00 x00 x00)) E))
(T (W x18 x00 x00 x00 x10 x00 x00 x00)
(T (W x46 x53 x59 x53 x5f x4e x53 x5f)
(L (W xff xff xff xff xff xff xff xff)) E)
(T (W x00 x00 x80 xbf x00 x00 x80 xbf)
(L (W x00 x00 x00 x00 x00 x00 x00 x00)) E)))
(T (W x00 x00 x00 x00 x00 x00 x00 x00)
(T (W x00 x00 x00 x00 x00 x00 x00 x00)
(T (W x00 x00 x00 x00 x00 x00 x00 x00)
(L (W x00 x00 x00 x00 x00 x00 x00 x00))
(L (W x00 x00 x00 x00 x82 xef xff xff)))
(T (W x00 x00 x00 x00 x00 x00 x00 x00)
(L (W xff xff xff xff xff xff xff xff)) E))
(T (W xff xff xff xff xff xff xff xff)
(T (W x00 x00 x80 x3f x00 x00 x80 x3f)
(L (W x45 x26 x22 x84 xe4 x9c xf2 xcb)) E)
(T (W x00 x00 x80 xbf x00 x00 x80 xbf)
(L (W xff xff xff xff xff xff xff xff)) E))))))
(T (W x45 x26 x22 x84 xe4 x9c xf2 xcb)
(T (W x00 x00 x80 x3f x00 x00 x80 x3f)
(T (W xff xff xff xff xff xff xff xff)
(T (W x68 x00 x00 x00 x5c x00 x00 x00)
(T (W xc6 x00 x00 x00 xff xff xff xff)
(T (W xff xff xff xff x9c x00 x00 x00)
(L (W x00 x00 x80 xbf x00 x00 x80 xbf))
(L (W x00 x00 x00 x00 x00 x00 x00 x00)))
(T (W x00 x00 x80 x3f x00 x00 x80 x3f)
(L (W xff xff xff xff xff xff xff xff)) E))
(T (W x00 x00 x00 x00 x00 x00 x00 x00)
(T (W x45 x26 x22 x84 xe4 x9c xf2 xcb)
(L (W x00 x00 x80 xbf x00 x00 x80 xbf))
(L (W x49 xa1 x68 x4a xeb x5f xdd x3d)))
(T (W x00 x00 x80 xbf x00 x00 x80 xbf)
(L (W x00 x00 x00 x00 x82 x07 xff xff)) E)))
(T (W x00 x00 x00 x00 x00 x00 x00 x00)
(T (W x45 x26 x22 x84 xe4 x9c xf2 xcb)
(T (W xff xff xff xff xbc x00 x00 x00)
(L (W x00 x00 x80 xbf x00 x00 x80 xbf))
(L (W xbc x00 x00 x00 x32 x00 x00 x00)))
(T (W x00 x00 x80 x3f x00 x00 x80 x3f)
(L (W x00 x00 x80 xbf x00 x00 x80 xbf)) E))
(T (W x00 x00 x00 x00 x00 x00 x00 x00)
(T (W x68 x00 x00 x00 x5c x00 x00 x00)
(L (W x15 x00 x00 x00 x0c x00 x00 x00)) E)
(T (W xff xff xff xff xbc x00 x00 x00)
(L (W x50 x00 x00 x00 x44 x00 x00 x00)) E))))
(T (W x45 x26 x22 x84 xe4 x9c xf2 xcb)
(T (W x45 x26 x22 x84 xe4 x9c xf2 xcb)
(T (W x18 x00 x00 x00 x0c x00 x00 x00)
(T (W x18 x00 x00 x00 x0c x00 x00 x00)
(L (W xff xff xff xff xff xff xff xff))
(L (W xff xff xff xff xff xff xff xff)))
(T (W x94 xa3 xfc xff x00 x01 x01 x01)
(L (W x30 x32 x5f x43 x4c x45 x41 x52)) E))
(T (W x54 x00 x00 x00 x48 x00 x00 x00)
(T (W xa4 x7e x62 x05 x1c x58 x8e x41)
(L (W xff xff xff xff xff xff xff xff)) E)
(T (W x00 x00 x00 x00 x00 x00 x00 x00)
(L (W x00 x00 x80 xbf x00 x00 x80 xbf)) E)))
(T (W x00 x00 x00 x00 x00 x00 x00 x00)
(T (W x00 x00 x80 x3f x00 x00 x80 x3f)
(T (W x00 x00 x00 x00 x00 x00 x00 x00)
(L (W xff xff xff xff xff xff xff xff))
(L (W xff xff xff xff xff xff xff xff)))
(T (W x00 x00 x00 x00 x00 x00 x00 x00)
(L (W xff xff xff xff xff xff xff xff)) E))
(T (W xd4 x00 x00 x00 xc8 x00 x00 x00)
(T (W xff xff xff xff xff xff xff xff)
(L (W x6c x00 x00 x00 x60 x00 x00 x00)) E)
(T (W x00 x00 x80 xbf x00 x00 x80 xbf)
(L (W xff xff xff xff xff xff xff xff)) E)))))
(T (W x45 x26 x22 x84 xe4 x9c xf2 xcb)
(T (W xff xff xff xff xff xff xff xff)
(T (W xff xff xff xff xff xff xff xff)
(T (W xff xff xff xff xff xff xff xff)
(T (W x00 x00 x00 x00 x00 x00 x00 x00)
(L (W x00 x00 x80 xbf x00 x00 x80 xbf))
(L (W x6c x00 x00 x00 x60 x00 x00 x00)))
(T (W x00 x00 x00 x00 x00 x00 x00 x00)
(L (W x00 x00 x00 x00 x00 x00 x00 x00)) E))
(T (W xc2 x0e xfb xff x74 x00 x00 x00)
(T (W xff xff xff xff xff xff xff xff)
(L (W x54 x00 x00 x00 x48 x00 x00 x00)) E)
(T (W xff xff xff xff xff xff xff xff)
(L (W x00 x00 x00 x00 x00 x00 x00 x00)) E)))
(T (W x00 x00 x00 x00 x00 x00 x00 x00)
(T (W x45 x26 x22 x84 xe4 x9c xf2 xcb)
(T (W x45 x44 x00 x00 x00 x00 x00 x00)
(L (W x1b x00 x00 x00 x1e x00 x00 x00))
(L (W xff xff xff xff xff xff xff xff)))
(T (W x61 x72 x6c x69 x6b x65 x5f x6c)
(L (W xff xff xff xff xa0 x00 x00 x00)) E))
(T (W x30 x32 x5f x43 x4c x45 x41 x52)
(T (W xff xff xff xff xff xff xff xff)
(L (W x45 x26 x22 x84 xe4 x9c xf2 xcb)) E)
(T (W x30 x32 x5f x43 x4c x45 x41 x52)
(L (W xff xff xff xff xbc x00 x00 x00)) E))))
(T (W xff xff xff xff xff xff xff xff)
(T (W x00 x00 x80 x3f x00 x00 x80 x3f)
(T (W x54 x00 x00 x00 x48 x00 x00 x00)
(T (W x00 x00 x00 x00 x00 x00 x00 x00)
(L (W x00 x00 x00 x00 x00 x00 x00 x00))
(L (W x19 x00 x00 x00 x1c x00 x00 x00)))
(T (W xc2 xae xfc xff x74 x00 x00 x00)
(L (W x00 x00 x00 x00 x12 x00 x00 x00)) E))
(T (W xff xff xff xff xff xff xff xff)
(T (W x00 x00 x00 x00 x00 x00 x00 x00)
(L (W xff xff xff xff xff xff xff xff)) E)
(T (W x00 x00 x80 xbf x00 x00 x80 xbf)
(L (W x00 x00 x80 xbf x00 x00 x80 xbf)) E)))
(T (W x00 x00 x00 x00 x00 x00 x00 x00)
(T (W x00 x00 x00 x00 x00 x00 x00 x00)
(T (W x00 x00 x80 x3f x00 x00 x80 x3f)
(L (W x00 x00 x00 x00 x00 x00 x00 x00))
(L (W x4f x84 x6f x8b xe8 xcb x63 xb7)))
(T (W xff xff xff xff xff xff xff xff)
(L (W xff xff xff xff xff xff xff xff)) E))
(T (W x00 x00 x00 x00 x00 x00 x00 x00)
(T (W x00 x00 x80 x3f x00 x00 x80 x3f)
(L (W xff xff xff xff xff xff xff xff)) E)
(T (W x4c x00 x50 x00 x54 x00 x00 x00)
(L (W x46 x53 x59 x53 x5f x4e x53 x5f)) E)))))))
(T (W x00 x00 x00 x00 x00 x00 x00 x00)
(T (W xff xff xff xff xff xff xff xff)
(T (W xf4 x0a x00 x00 xe0 x09 x00 x00)
(T (W x00 x00 x80 x3f x00 x00 x80 x3f)
(T (W x00 x00 x00 x00 x00 x00 x00 x00)
(T (W x68 x00 x00 x00 x5c x00 x00 x00)
(T (W x02 x00 x00 x00 x2c x01 x00 x00)
(L (W x00 x00 x01 x01 x84 x01 x00 x00))
(L (W x18 x00 x00 x00 x10 x00 x00 x00)))
(T (W xff xff xff xff xff xff xff xff)
(L (W x45 x26 x22 x84 xe4 x9c xf2 xcb)) E))
(T (W x18 x00 x00 x00 x0c x00 x00 x00)
(T (W x45 x44 x00 x00 x00 x00 x00 x00)
(L (W xff xff xff xff xff xff xff xff))
(L (W xff xff xff xff xff xff xff xff)))
(T (W x00 x00 x80 xbf x00 x00 x80 xbf)
(L (W x00 x00 x80 xbf x00 x00 x80 xbf)) E)))
(T (W xff xff xff xff xff xff xff xff)
(T (W xff xff xff xff xff xff xff xff)
(T (W x00 x00 x00 x00 x00 x00 x00 x00)
(L (W xff xff xff xff xbc x00 x00 x00))
(L (W x45 x26 x22 x84 xe4 x9c xf2 xcb)))
(T (W xff xff xff xff xff xff xff xff)
(L (W xff xff xff xff xff xff xff xff)) E))
(T (W xc8 x00 x00 x00 xbc x00 x00 x00)
(T (W xce x08 x85 x8d x10 xcd x07 xf0)
(L (W x94 x3f xfe xff x00 x01 x01 x01)) E)
(T (W x00 x00 x00 x00 x00 x00 x00 x00)
(L (W x00 x00 x00 x00 x00 x00 x00 x00)) E))))
(T (W x00 x00 x00 x00 x00 x00 x00 x00)
(T (W xff xff xff xff xff xff xff xff)
(T (W x6f x42 xb0 x3a x49 xcd x33 x34)
(T (W xff xff xff xff xff xff xff xff)
(L (W x00 x00 x00 x00 x00 x00 x00 x00))
(L (W x00 x00 x00 x00 x00 x00 x00 x00)))
(T (W x64 x00 x00 x00 x9c x00 x00 x00)
(L (W xc2 x9a xfe xff x74 x00 x00 x00)) E))
(T (W xff xff xff xff xff xff xff xff)
(T (W x72 x1c xfc xff x78 x00 x00 x00)
(L (W x4f x84 x6f x8b xe8 xcb x63 xb7)) E)
(T (W xff xff xff xff xff xff xff xff)
(L (W xff xff xff xff xff xff xff xff)) E)))
(T (W x45 x26 x22 x84 xe4 x9c xf2 xcb)
(T (W xff xff xff xff x04 x00 x00 x00)
(T (W xff xff xff xff xff xff xff xff)
(L (W x00 x00 x00 x00 x00 x00 x00 x00))
(L (W x00 x00 x80 xbf x00 x00 x80 xbf)))
(T (W xff xff xff xff xff xff xff xff)
(L (W x00 x00 x00 x00 x00 x00 x00 x00)) E))
(T (W x00 x00 x00 x00 x00 x00 x00 x00)
(T (W x00 x00 x80 x3f x00 x00 x80 x3f)
(L (W x94 x04 x00 x00 x80 x03 x00 x00)) E)
(T (W xff xff xff xff xff xff xff xff)
(L (W x00 x00 x80 xbf x00 x00 x80 xbf)) E)))))
(T (W x00 x00 x80 x3f x00 x00 x80 x3f)
(T (W x18 x00 x00 x00 x0c x00 x00 x00)
(T (W x00 x00 x00 x00 x00 x00 x00 x00)
(T (W x00 x00 x80 x3f x00 x00 x80 x3f)
(T (W x00 x00 x00 x00 x00 x00 x00 x00)
(L (W xff xff xff xff xff xff xff xff))
(L (W xff xff xff xff xff xff xff xff)))
(T (W x18 x00 x00 x00 x10 x00 x00 x00)
(L (W x72 x8c xfe xff x78 x00 x00 x00)) E))
(T (W x00 x00 x00 x00 x00 x00 x00 x00)
(T (W x00 x00 x00 x00 x00 x00 x00 x00)
(L (W x00 x00 x00 x00 x00 x00 x00 x00)) E)
(T (W xff xff xff xff xff xff xff xff)
(L (W x94 x0f xff xff x00 x01 x01 x01)) E)))
(T (W xb8 x00 x00 x00 xac x00 x00 x00)
(T (W xff xff xff xff xff xff xff xff)
(T (W x50 x00 x00 x00 x44 x00 x00 x00)
(L (W x00 x00 x01 x01 x2e x00 x00 x00))
(L (W x00 x00 x80 xbf x00 x00 x80 xbf)))
(T (W x4c x45 x41 x52 x45 x44 x00 x00)
(L (W x00 x00 x00 x00 x00 x00 x00 x00)) E))
(T (W x00 x00 x80 x3f x00 x00 x80 x3f)
(T (W x00 x00 x00 x00 x00 x00 x00 x00)
(L (W xff xff xff xff xff xff xff xff)) E)
(T (W x00 x00 x80 xbf x00 x00 x80 xbf)
(L (W x45 x26 x22 x84 xe4 x9c xf2 xcb)) E))))
(T (W x00 x00 x00 x00 x00 x00 x00 x00)
(T (W xff xff xff xff xff xff xff xff)
(T (W xff xff xff xff xff xff xff xff)
(T (W x72 xac xfb xff x78 x00 x00 x00)
(L (W xff xff xff xff xff xff xff xff))
(L (W x00 x00 x00 x00 x00 x00 x00 x00)))
(T (W x00 x00 x00 x00 x00 x00 x00 x00)
(L (W xff xff xff xff xc8 x00 x00 x00)) E))
(T (W x00 x00 x80 x3f x00 x00 x80 x3f)
(T (W xff xff xff xff xff xff xff xff)
(L (W x54 x00 x00 x00 x48 x00 x00 x00)) E)
(T (W xff xff xff xff xff xff xff xff)
(L (W xff xff xff xff xff xff xff xff)) E)))
(T (W x00 x00 x80 x3f x00 x00 x80 x3f)
(T (W xc2 xea xfa xff x74 x00 x00 x00)
(T (W xff xff xff xff xff xff xff xff)
(L (W x18 x00 x00 x00 x10 x00 x00 x00))
(L (W x45 x26 x22 x84 xe4 x9c xf2 xcb)))
(T (W xff xff xff xff xff xff xff xff)
(L (W x00 x00 x80 xbf x00 x00 x80 xbf)) E))
(T (W x00 x00 x80 x3f x00 x00 x80 x3f)
(T (W xff xff xff xff xff xff xff xff)
(L (W x45 x26 x22 x84 xe4 x9c xf2 xcb)) E)
(T (W x45 x44 x00 x00 x00 x00 x00 x00)
(L (W x00 x00 x80 xbf x00 x00 x80 xbf)) E))))))
(T (W x45 x26 x22 x84 xe4 x9c xf2 xcb)
(T (W xff xff xff xff xff xff xff xff)
(T (W x00 x00 x00 x00 x00 x00 x00 x00)
(T (W x00 x00 x00 x00 x00 x00 x00 x00)
(T (W xc2 x82 xfa xff x74 x00 x00 x00)
(T (W x00 x00 x00 x00 x00 x00 x00 x00)
(L (W xff xff xff xff xff xff xff xff))
(L (W xff xff xff xff xff xff xff xff)))
(T (W xff xff xff xff xff xff xff xff)
(L (W x00 x00 x80 xbf x00 x00 x80 xbf)) E))
(T (W xff xff xff xff xff xff xff xff)
(T (W x00 x00 x00 x00 x00 x00 x00 x00)
(L (W xff xff xff xff xff xff xff xff)) E)
(T (W x00 x00 x80 xbf x00 x00 x80 xbf)
(L (W x6c x00 x00 x00 x60 x00 x00 x00)) E)))
(T (W xff xff xff xff xff xff xff xff)
(T (W xcf x01 x00 x00 xff xff xff xff)
(T (W x00 x00 x80 x3f x00 x00 x80 x3f)
(L (W x45 x44 x00 x00 x00 x00 x00 x00))
(L (W x49 xa1 x68 x4a xeb x5f xdd x3d)))
(T (W xff xff xff xff xff xff xff xff)
(L (W xff xff xff xff xff xff xff xff)) E))
(T (W x00 x00 x00 x00 x00 x00 x00 x00)
(T (W x30 x32 x5f x43 x4c x45 x41 x52)
(L (W x18 x00 x00 x00 x10 x00 x00 x00)) E)
(T (W x00 x00 x80 xbf x00 x00 x80 xbf)
(L (W x00 x00 x00 x00 x00 x00 x00 x00)) E))))
(T (W x00 x00 x00 x00 x00 x00 x00 x00)
(T (W xff xff xff xff xff xff xff xff)
(T (W xd1 x01 x00 x00 xff xff xff xff)
(T (W x00 x00 x00 x00 x00 x00 x00 x00)
(L (W x00 x00 x80 xbf x00 x00 x80 xbf))
(L (W xff xff xff xff xff xff xff xff)))
(T (W x00 x00 x00 x00 x02 x00 x00 x00)
(L (W x03 x00 x00 x00 xd0 x00 x00 x00)) E))
(T (W x00 x00 x00 x00 x00 x00 x00 x00)
(T (W x68 x00 x00 x00 x5c x00 x00 x00)
(L (W x00 x00 x00 x00 x00 x00 x00 x00)) E)
(T (W xff xff xff xff x9c x00 x00 x00)
(L (W xff xff xff xff xff xff xff xff)) E)))
(T (W x68 x00 x00 x00 x5c x00 x00 x00)
(T (W x18 x00 x00 x00 x0c x00 x00 x00)
(T (W xff xff xff xff xff xff xff xff)
(L (W x4f x84 x6f x8b xe8 xcb x63 xb7))
(L (W x72 xe4 xff xff x78 x00 x00 x00)))
(T (W x00 x00 x80 x3f x00 x00 x80 x3f)
(L (W x45 x26 x22 x84 xe4 x9c xf2 xcb)) E))
(T (W x45 x26 x22 x84 xe4 x9c xf2 xcb)
(T (W xff xff xff xff x03 x00 x00 x00)
(L (W x00 x00 x00 x00 x00 x00 x00 x00)) E)
(T (W xff xff xff xff xff xff xff xff)
(L (W x6c x00 x00 x00 x60 x00 x00 x00)) E)))))
(T (W xff xff xff xff xff xff xff xff)
(T (W x00 x00 x00 x00 x00 x00 x00 x00)
(T (W x00 x00 x80 x3f x00 x00 x80 x3f)
(T (W x00 x00 x80 x3f x00 x00 x80 x3f)
(T (W x72 x94 xfb xff x78 x00 x00 x00)
(L (W xc9 x00 x00 x00 xff xff xff xff))
(L (W x15 x00 x00 x00 x0c x00 x00 x00)))
(T (W x45 x26 x22 x84 xe4 x9c xf2 xcb)
(L (W x6c x00 x00 x00 x60 x00 x00 x00)) E))
(T (W xff xff xff xff x03 x00 x00 x00)
(T (W x00 x00 x80 x3f x00 x00 x80 x3f)
(L (W x00 x00 x00 x00 x00 x00 x00 x00)) E)
(T (W x18 x00 x00 x00 x0c x00 x00 x00)
(L (W xff xff xff xff xff xff xff xff)) E)))
(T (W xff xff xff xff x04 x00 x00 x00)
(T (W xff xff xff xff xff xff xff xff)
(T (W x00 x00 x80 x3f x00 x00 x80 x3f)
(L (W x00 x00 x00 x00 x00 x00 x00 x00))
(L (W x00 x00 x80 xbf x00 x00 x80 xbf)))
(T (W x1e x00 x00 x00 x21 x00 x00 x00)
(L (W x00 x00 x00 x00 x12 x00 x00 x00)) E))
(T (W xff xff xff xff xff xff xff xff)
(T (W x00 x00 x80 x3f x00 x00 x80 x3f)
(L (W xff xff xff xff xff xff xff xff)) E)
(T (W xff xff xff xff xb0 x00 x00 x00)
(L (W x00 x00 x80 xbf x00 x00 x80 xbf)) E))))
(T (W x00 x00 x00 x00 x00 x00 x00 x00)
(T (W xff xff xff xff xff xff xff xff)
(T (W xff xff xff xff xff xff xff xff)
(T (W xff xff xff xff xff xff xff xff)
(L (W x45 x26 x22 x84 xe4 x9c xf2 xcb))
(L (W x30 x32 x5f x43 x4c x45 x41 x52)))
(T (W x18 x01 x00 x00 x04 x00 x00 x00)
(L (W xff xff xff xff xff xff xff xff)) E))
(T (W x50 x00 x00 x00 x44 x00 x00 x00)
(T (W x00 x00 x00 x00 x00 x00 x00 x00)
(L (W x00 x00 x80 xbf x00 x00 x80 xbf)) E)
(T (W x00 x00 x00 x00 xa2 x33 xfd xff)
(L (W x5d x00 x00 x00 xff xff xff xff)) E)))
(T (W x50 x00 x00 x00 x44 x00 x00 x00)
(T (W x2e x00 x00 x00 xff xff xff xff)
(T (W x00 x00 x00 x00 x04 x00 x00 x00)
(L (W x03 x00 x00 x00 xd8 x00 x00 x00))
(L (W xff xff xff xff xff xff xff xff)))
(T (W x00 x00 x80 x3f x00 x00 x80 x3f)
(L (W x00 x00 x80 xbf x00 x00 x80 xbf)) E))
(T (W x18 x00 x00 x00 x10 x00 x00 x00)
(T (W x90 x5b x2e x97 x85 x19 x59 x5f)
(L (W x00 x00 x80 xbf x00 x00 x80 xbf)) E)
(T (W x00 x00 x00 x00 xf2 x79 xfd xff)
(L (W x94 x77 xff xff x00 x01 x01 x01)) E)))))))))
(T (W x98 xb2 x02 x00 x8c xab x02 x00)
(T (W x08 xed x00 x00 xbc xea x00 x00)
(T (W xff xff xff xff xff xff xff xff)
(T (W x54 x00 x00 x00 x48 x00 x00 x00)
(T (W xff xff xff xff xff xff xff xff)
(T (W x00 x00 x00 x00 x00 x00 x00 x00)
(T (W x00 x00 x80 x3f x00 x00 x80 x3f)
(T (W xff xff xff xff xff xff xff xff)
(T (W x00 x00 x00 x00 x00 x00 x00 x00)
(L (W x45 x26 x22 x84 xe4 x9c xf2 xcb))
(L (W x46 x53 x59 x53 x5f x4e x53 x5f)))
(T (W x00 x00 x80 x3f x00 x00 x80 x3f)
(L (W xff xff xff xff xff xff xff xff)) E))
(T (W x00 x00 x00 x00 x00 x00 x00 x00)
(T (W x00 x00 x80 x3f x00 x00 x80 x3f)
(L (W x30 x32 x5f x43 x4c x45 x41 x52))
(L (W x46 x53 x59 x53 x5f x4e x53 x5f)))
(T (W x24 x00 x28 x00 x2c x00 x30 x00)
(L (W xff xff xff xff xff xff xff xff)) E)))
(T (W x00 x00 x00 x00 x00 x00 x00 x00)
(T (W x00 x00 x00 x00 x00 x00 x00 x00)
(T (W x45 x26 x22 x84 xe4 x9c xf2 xcb)
(L (W x00 x00 x80 xbf x00 x00 x80 xbf))
(L (W x6c x00 x00 x00 x60 x00 x00 x00)))
(T (W x00 x00 x80 x3f x00 x00 x80 x3f)
(L (W x00 x00 x00 x00 x12 x00 x00 x00)) E))
(T (W xff xff xff xff xff xff xff xff)
(T (W x45 x26 x22 x84 xe4 x9c xf2 xcb)
(L (W xff xff xff xff xff xff xff xff)) E)
(T (W x00 x00 x80 xbf x00 x00 x80 xbf)
(L (W x45 x26 x22 x84 xe4 x9c xf2 xcb)) E))))
(T (W x00 x00 x80 x3f x00 x00 x80 x3f)
(T (W xff xff xff xff xff xff xff xff)
(T (W x00 x00 x00 x00 x00 x00 x00 x00)
(T (W x4c x45 x41 x52 x45 x44 x00 x00)
(L (W x00 x00 x80 xbf x00 x00 x80 xbf))
(L (W x54 x00 x00 x00 x48 x00 x00 x00)))
(T (W xff xff xff xff xff xff xff xff)
(L (W x00 x00 x00 x00 x00 x00 x00 x00)) E))
(T (W x4c x45 x41 x52 x45 x44 x00 x00)
(T (W xff xff xff xff xff xff xff xff)
(L (W x6c x00 x00 x00 x60 x00 x00 x00)) E)
(T (W x00 x00 x80 xbf x00 x00 x80 xbf)
(L (W x00 x00 x00 x00 x00 x00 x00 x00)) E)))
(T (W x00 x00 x00 x00 x00 x00 x00 x00)
(T (W x00 x00 x00 x00 x00 x00 x00 x00)
(T (W x45 x44 x00 x00 x00 x00 x00 x00)
(L (W x50 x00 x00 x00 x44 x00 x00 x00))
(L (W xff xff xff xff xbc x00 x00 x00)))
(T (W x00 x00 x00 x00 x00 x00 x00 x00)
(L (W x00 x00 x80 xbf x00 x00 x80 xbf)) E))
(T (W x00 x00 x00 x00 x00 x00 x00 x00)
(T (W xff xff xff xff x9c x00 x00 x00)
(L (W x45 x26 x22 x84 xe4 x9c xf2 xcb)) E)
(T (W x00 x00 x00 x00 x12 x00 x00 x00)
(L (W xbc x00 x00 x00 x32 x00 x00 x00)) E)))))
(T (W xff xff xff xff x16 x00 x00 x00)
(T (W x45 x26 x22 x84 xe4 x9c xf2 xcb)
(T (W x68 x00 x00 x00 x5c x00 x00 x00)
(T (W xb8 x00 x00 x00 xac x00 x00 x00)
(T (W x19 x00 x00 x00 x1c x00 x00 x00)
(L (W x00 x00 x00 x00 x00 x00 x00 x00))
(L (W x00 x00 x00 x00 x00 x00 x00 x00)))
(T (W x00 x00 x00 x00 x00 x00 x00 x00)
(L (W xff xff xff xff xff xff xff xff)) E))
(T (W x00 x00 x80 x3f x00 x00 x80 x3f)
(T (W x94 x0a xfc xff x00 x01 x01 x01)
(L (W x00 x00 x00 x00 x00 x00 x00 x00)) E)
(T (W x04 x00 x00 x00 x32 xee xff xff)
(L (W x04 x00 x00 x00 x82 x0e xff xff)) E)))
(T (W x00 x00 x00 x00 x00 x00 x00 x00)
(T (W x00 x00 x00 x00 x00 x00 x00 x00)
(T (W xff xff xff xff xbc x00 x00 x00)
(L (W x00 x00 x80 xbf x00 x00 x80 xbf))
(L (W x45 x26 x22 x84 xe4 x9c xf2 xcb)))
(T (W x28 x00 x2c x00 x30 x00 x34 x00)
(L (W x00 x00 x80 xbf x00 x00 x80 xbf)) E))
(T (W x00 x00 x80 x3f x00 x00 x80 x3f)
(T (W x00 x00 x00 x00 x04 x49 xfc xff)
(L (W x00 x00 x01 x01 x2e x00 x00 x00)) E)
(T (W x18 x00 x00 x00 x10 x00 x00 x00)
(L (W x72 x47 xff xff x78 x00 x00 x00)) E))))
(T (W x18 x00 x00 x00 x0c x00 x00 x00)
(T (W x45 x26 x22 x84 xe4 x9c xf2 xcb)
(T (W x00 x00 x80 x3f x00 x00 x80 x3f)
(T (W xff xff xff xff xff xff xff xff)
(L (W x50 x00 x00 x00 x44 x00 x00 x00))
(L (W x00 x00 x80 xbf x00 x00 x80 xbf)))
(T (W x00 x00 x80 x3f x00 x00 x80 x3f)
(L (W x00 x00 x00 x00 x00 x00 x00 x00)) E))
(T (W x54 x00 x00 x00 x48 x00 x00 x00)
(T (W x00 x00 x00 x00 x00 x00 x00 x00)
(L (W x03 x00 x00 x00 xd0 x00 x00 x00)) E)
(T (W x00 x00 x00 x00 x00 x00 x00 x00)
(L (W x00 x00 x00 x00 x00 x00 x00 x00)) E)))
(T (W x85 x03 x00 x00 xff xff xff xff)
(T (W x00 x00 x00 x00 x00 x00 x00 x00)
(T (W x00 x00 x00 x00 x12 x00 x00 x00)
(L (W x00 x00 x00 x00 x00 x00 x00 x00))
(L (W xff xff xff xff xff xff xff xff)))
(T (W x00 x00 x00 x00 x00 x00 x00 x00)
(L (W x18 x00 x00 x00 x0c x00 x00 x00)) E))
(T (W xff xff xff xff x03 x00 x00 x00)
(T (W x00 x00 x80 x3f x00 x00 x80 x3f)
(L (W x54 x00 x00 x00 x48 x00 x00 x00)) E)
(T (W x00 x00 x80 xbf x00 x00 x80 xbf)
(L (W xff xff xff xff xff xff xff xff)) E))))))
(T (W x00 x00 x00 x00 x00 x00 x00 x00)
(T (W x00 x00 x80 x3f x00 x00 x80 x3f)
(T (W xbc x00 x00 x00 xb0 x00 x00 x00)
(T (W x50 x00 x00 x00 x44 x00 x00 x00)
(T (W xff xff xff xff xff xff xff xff)
(T (W x6c x00 x00 x00 x60 x00 x00 x00)
(L (W x00 x00 x80 xbf x00 x00 x80 xbf))
(L (W x00 x00 x00 x00 x00 x00 x00 x00)))
(T (W x00 x00 x00 x00 x00 x00 x00 x00)
(L (W xff xff xff xff xff xff xff xff)) E))
(T (W x2a x41 xfd xff x9c x01 x00 x00)
(T (W xc2 xfd xfb xff x74 x00 x00 x00)
(L (W x00 x00 x00 x00 x00 x00 x00 x00))
(L (W x64 x00 x68 x00 x62 x00 x00 x00)))
(T (W x00 x00 x00 x00 x00 x00 x00 x00)
(L (W xff xff xff xff xff xff xff xff)) E)))
(T (W x1c x50 xfa xff x3e x00 x00 x00)
(T (W x00 x00 x00 x00 x00 x00 x00 x00)
(T (W x45 x26 x22 x84 xe4 x9c xf2 xcb)
(L (W x45 x26 x22 x84 xe4 x9c xf2 xcb))
(L (W x94 xc2 xff xff x00 x01 x01 x01)))
(T (W x00 x00 x00 x00 x00 x00 x00 x00)
(L (W x00 x00 x00 x00 x00 x00 x00 x00)) E))
(T (W x46 x53 x59 x53 x5f x4e x53 x5f)
(T (W x00 x00 x80 x3f x00 x00 x80 x3f)
(L (W xff xff xff xff xff xff xff xff)) E)
(T (W x45 x26 x22 x84 xe4 x9c xf2 xcb)
(L (W x00 x00 x80 xbf x00 x00 x80 xbf)) E))))
(T (W x6c x00 x00 x00 x60 x00 x00 x00)
(T (W x00 x00 x00 x00 x00 x00 x00 x00)
(T (W x00 x00 x80 x3f x00 x00 x80 x3f)
(T (W x00 x00 x80 x3f x00 x00 x80 x3f)
(L (W x00 x00 x80 xbf x00 x00 x80 xbf))
(L (W x5c x00 x00 x00 x50 x00 x00 x00)))
(T (W x00 x00 x00 x00 x00 x00 x00 x00)
(L (W x00 x00 x01 x01 x3b x01 x00 x00)) E))
(T (W x00 x00 x00 x00 x00 x00 x00 x00)
(T (W xff xff xff xff xff xff xff xff)
(L (W xff xff xff xff xa0 x00 x00 x00)) E)
(T (W x00 x00 x00 x00 x00 x00 x00 x00)
(L (W x49 xa1 x68 x4a xeb x5f xdd x3d)) E)))
(T (W x5a x4e x24 x85 x40 xa2 x9e x2b)
(T (W x00 x00 x00 x00 x00 x00 x00 x00)
(T (W x00 x00 x00 x00 x00 x00 x00 x00)
(L (W x29 x00 x00 x00 x2c x00 x00 x00))
(L (W xff xff xff xff xff xff xff xff)))
(T (W x46 x53 x59 x53 x5f x4e x53 x5f)
(L (W x50 x00 x00 x00 x44 x00 x00 x00)) E))
(T (W x00 x00 x80 x3f x00 x00 x80 x3f)
(T (W xff xff xff xff xff xff xff xff)
(L (W x00 x00 x80 xbf x00 x00 x80 xbf)) E)
(T (W x00 x00 x00 x00 x00 x00 x00 x00)
(L (W xff xff xff xff xff xff xff xff)) E)))))
(T (W x6c x00 x00 x00 x60 x00 x00 x00)
(T (W xff xff xff xff xff xff xff xff)
(T (W xff xff xff xff x03 x00 x00 x00)
(T (W xff xff xff xff xff xff xff xff)
(T (W xff xff xff xff xff xff xff xff)
(L (W x4f x84 x6f x8b xe8 xcb x63 xb7))
(L (W x00 x00 x80 xbf x00 x00 x80 xbf)))
(T (W xff x9e x30 x97 x85 x21 x5c x5f)
(L (W xff xff xff xff xff xff xff xff)) E))
(T (W x00 x00 x80 x3f x00 x00 x80 x3f)
(T (W xff xff xff xff x9c x00 x00 x00)
(L (W x00 x00 x80 xbf x00 x00 x80 xbf)) E)
(T (W xff xff xff xff xff xff xff xff)
(L (W x2e x00 x00 x00 xff xff xff xff)) E)))
(T (W x00 x00 x00 x00 x00 x00 x00 x00)
(T (W x00 x00 x00 x00 x00 x00 x00 x00)
(T (W xff xff xff xff xff xff xff xff)
(L (W x72 xcf xfd xff x78 x00 x00 x00))
(L (W xc4 x00 x00 x00 x02 x00 x00 x00)))
(T (W xff xff xff xff xff xff xff xff)
(L (W x6c x00 x00 x00 x60 x00 x00 x00)) E))
(T (W xa0 x01 x00 x00 xff xff xff xff)
(T (W x1c x00 x00 x00 xb0 x00 x00 x00)
(L (W x00 x00 x00 x00 x00 x00 x00 x00)) E)
(T (W x00 x00 x01 x01 xc7 x01 x00 x00)
(L (W x45 x26 x22 x84 xe4 x9c xf2 xcb)) E))))
(T (W x68 x00 x00 x00 x5c x00 x00 x00)
(T (W x45 x26 x22 x84 xe4 x9c xf2 xcb)
(T (W x45 x26 x22 x84 xe4 x9c xf2 xcb)
(T (W x00 x00 x00 x00 x00 x00 x00 x00)
(L (W xff xff xff xff x0f x00 x00 x00))
(L (W x72 xaf xff xff x78 x00 x00 x00)))
(T (W x00 x00 x80 x3f x00 x00 x80 x3f)
(L (W x00 x00 x00 x00 x00 x00 x00 x00)) E))
(T (W xff xff xff xff xff xff xff xff)
(T (W x46 x53 x59 x53 x5f x4e x53 x5f)
(L (W xff xff xff xff xff xff xff xff)) E)
(T (W x00 x00 x00 x00 x00 x00 x00 x00)
(L (W x00 x00 x00 x00 x00 x00 x00 x00)) E)))
(T (W x2a x82 xfd xff x00 x00 x01 x01)
(T (W x40 x00 x00 x00 x10 x00 x00 x00)
(T (W x00 x00 x80 x3f x00 x00 x80 x3f)
(L (W x08 x00 x00 x00 x20 x08 x00 x00))
(L (W xec x3f x45 xdc x00 xd8 x55 x2f)))
(T (W xb8 x00 x00 x00 xac x00 x00 x00)
(L (W xff xff xff xff xff xff xff xff)) E))
(T (W x00 x00 x00 x00 x00 x00 x00 x00)
(T (W x00 x00 x00 x00 x00 x00 x00 x00)
(L (W xff xff xff xff xb0 x00 x00 x00)) E)
(T (W x00 x00 x80 xbf x00 x00 x80 xbf)
(L (W x00 x00 x00 x00 x62 x70 xff xff)) E)))))))
(T (W x00 x00 x00 x00 x00 x00 x00 x00)
(T (W xff xff xff xff xff xff xff xff)
(T (W x00 x00 x00 x00 x00 x00 x00 x00)
(T (W x00 x00 x80 x3f x00 x00 x80 x3f)
(T (W x00 x00 x00 x00 x00 x00 x00 x00)
(T (W x00 x00 x80 x3f x00 x00 x80 x3f)
(T (W xff xff xff xff xbc x00 x00 x00)
(L (W xff xff xff xff xff xff xff xff))
(L (W x6c x00 x00 x00 x60 x00 x00 x00)))
(T (W xff xff xff xff xff xff xff xff)
(L (W x00 x00 x00 x00 x00 x00 x00 x00)) E))
(T (W x45 x26 x22 x84 xe4 x9c xf2 xcb)
(T (W x4a x00 x00 x00 xff xff xff xff)
(L (W xc4 x00 x00 x00 x02 x00 x00 x00))
(L (W x54 x00 x00 x00 x48 x00 x00 x00)))
(T (W x67 x72 x6f x75 x70 x5f x77 x69)
(L (W x45 x26 x22 x84 xe4 x9c xf2 xcb)) E)))
(T (W xff xff xff xff xff xff xff xff)
(T (W xff xff xff xff xff xff xff xff)
(T (W x00 x00 x00 x00 xf2 xc0 xfb xff)
(L (W xff xff xff xff x9c x00 x00 x00))
(L (W x00 x00 x00 x00 x12 x00 x00 x00)))
(T (W xff xff xff xff xff xff xff xff)
(L (W xc4 x00 x00 x00 x02 x00 x00 x00)) E))
(T (W x54 x00 x00 x00 x48 x00 x00 x00)
(T (W xff xff xff xff xff xff xff xff)
(L (W x54 x00 x00 x00 x48 x00 x00 x00)) E)
(T (W x00 x00 x00 x00 x00 x00 x00 x00)
(L (W xff xff xff xff xff xff xff xff)) E))))
(T (W x02 x00 x00 x00 x1c x01 x00 x00)
(T (W x45 x26 x22 x84 xe4 x9c xf2 xcb)
(T (W xff xff xff xff xff xff xff xff)
(T (W xff xff xff xff xff xff xff xff)
(L (W xff xff xff xff xff xff xff xff))
(L (W x84 x4d x45 xdc x00 xe0 x55 x2f)))
(T (W x18 x00 x00 x00 x0c x00 x00 x00)
(L (W x00 x00 x80 xbf x00 x00 x80 xbf)) E))
(T (W xff xff xff xff xff xff xff xff)
(T (W x45 x26 x22 x84 xe4 x9c xf2 xcb)
(L (W xb1 x29 x3c xdc x00 x66 x4b x2f)) E)
(T (W x68 x00 x00 x00 x5c x00 x00 x00)
(L (W x29 x00 x00 x00 x2c x00 x00 x00)) E)))
(T (W x00 x00 x80 x3f x00 x00 x80 x3f)
(T (W xc2 xd9 xfa xff x74 x00 x00 x00)
(T (W x2c x00 x00 x00 xb0 x00 x00 x00)
(L (W x00 x00 x00 x00 x12 x00 x00 x00))
(L (W x00 x00 x80 xbf x00 x00 x80 xbf)))
(T (W xff xff xff xff xa0 x00 x00 x00)
(L (W x00 x00 x00 x00 x00 x00 x00 x00)) E))
(T (W xff xff xff xff xff xff xff xff)
(T (W x49 xa1 x68 x4a xeb x5f xdd x3d)
(L (W xff xff xff xff xff xff xff xff)) E)
(T (W xcc x00 x00 x00 x01 x00 x00 x00)
(L (W x00 x00 x80 xbf x00 x00 x80 xbf)) E)))))
(T (W x00 x00 x00 x00 x00 x00 x00 x00)
(T (W x72 xcb xf9 xff x78 x00 x00 x00)
(T (W xc1 x01 x00 x00 xff xff xff xff)
(T (W x00 x00 x80 x3f x00 x00 x80 x3f)
(T (W x45 x44 x00 x00 x00 x00 x00 x00)
(L (W xff xff xff xff xff xff xff xff))
(L (W xff xff xff xff xff xff xff xff)))
(T (W x45 x26 x22 x84 xe4 x9c xf2 xcb)
(L (W x00 x00 x80 xbf x00 x00 x80 xbf)) E))
(T (W xa5 x01 x00 x00 xff xff xff xff)
(T (W x00 x00 x00 x00 x00 x00 x00 x00)
(L (W xff xff xff xff xff xff xff xff)) E)
(T (W xb0 x00 x00 x00 x64 x00 x00 x00)
(L (W x00 x00 x80 xbf x00 x00 x80 xbf)) E)))
(T (W x18 x00 x00 x00 x0c x00 x00 x00)
(T (W xff xff xff xff xff xff xff xff)
(T (W x00 x00 x80 x3f x00 x00 x80 x3f)
(L (W xff xff xff xff xff xff xff xff))
(L (W x00 x00 x00 x00 x00 x00 x00 x00)))
(T (W x01 x00 x00 x00 xff xff xff xff)
(L (W xff xff xff xff xff xff xff xff)) E))
(T (W x00 x00 x00 x00 x00 x00 x00 x00)
(T (W x46 x53 x59 x53 x5f x4e x53 x5f)
(L (W x19 x00 x00 x00 x1c x00 x00 x00)) E)
(T (W x4f x84 x6f x8b xe8 xcb x63 xb7)
(L (W x00 x00 x00 x00 x12 x00 x00 x00)) E))))
(T (W x04 x00 x00 x00 xb2 x87 xfd xff)
(T (W xb8 x00 x00 x00 xac x00 x00 x00)
(T (W xff xff xff xff xff xff xff xff)
(T (W x45 x26 x22 x84 xe4 x9c xf2 xcb)
(L (W xff xff xff xff xbc x00 x00 x00))
(L (W x00 x00 x00 x00 xa2 xaa xff xff)))
(T (W x18 x01 x00 x00 x04 x00 x00 x00)
(L (W x45 x26 x22 x84 xe4 x9c xf2 xcb)) E))
(T (W x00 x00 x00 x00 x00 x00 x00 x00)
(T (W x00 x00 x80 x3f x00 x00 x80 x3f)
(L (W x00 x00 x00 x00 x00 x00 x00 x00)) E)
(T (W xb4 x00 x00 x00 x32 x00 x00 x00)
(L (W xff xff xff xff xff xff xff xff)) E)))
(T (W x00 x00 x80 x3f x00 x00 x80 x3f)
(T (W x68 x00 x00 x00 x5c x00 x00 x00)
(T (W xcc x00 x00 x00 xc0 x00 x00 x00)
(L (W x54 x00 x00 x00 x48 x00 x00 x00))
(L (W x54 x00 x00 x00 x48 x00 x00 x00)))
(T (W x21 x00 x00 x00 xac x00 x00 x00)
(L (W x00 x00 x80 xbf x00 x00 x80 xbf)) E))
(T (W x00 x00 x80 x3f x00 x00 x80 x3f)
(T (W xff xff xff xff xff xff xff xff)
(L (W x00 x00 x00 x00 x00 x00 x00 x00)) E)
(T (W xff xff xff xff xff xff xff xff)
(L (W x00 x00 x80 xbf x00 x00 x80 xbf)) E))))))
(T (W x6c x00 x00 x00 x60 x00 x00 x00)
(T (W x01 x00 x00 x00 xa0 x00 x00 x00)
(T (W x00 x00 x01 x01 xc9 x00 x00 x00)
(T (W x04 x29 x7d x8f xb7 x84 x46 x36)
(T (W x45 x26 x22 x84 xe4 x9c xf2 xcb)
(T (W xff xff xff xff xff xff xff xff)
(L (W xff xff xff xff xac x00 x00 x00))
(L (W x45 x26 x22 x84 xe4 x9c xf2 xcb)))
(T (W x18 x00 x00 x00 x10 x00 x00 x00)
(L (W x00 x00 x00 x00 x00 x00 x00 x00)) E))
(T (W xff xff xff xff xff xff xff xff)
(T (W x30 x32 x5f x43 x4c x45 x41 x52)
(L (W xff xff xff xff xff xff xff xff)) E)
(T (W x00 x00 x00 x00 x26 x00 x00 x00)
(L (W x00 x00 x80 xbf x00 x00 x80 xbf)) E)))
(T (W x45 x26 x22 x84 xe4 x9c xf2 xcb)
(T (W xff xff xff xff x03 x00 x00 x00)
(T (W x00 x00 x00 x00 x00 x00 x00 x00)
(L (W xff xff xff xff xff xff xff xff))
(L (W x00 x00 x00 x00 x00 x00 x00 x00)))
(T (W x00 x00 x00 x00 x04 xc5 xfc xff)
(L (W xff xff xff xff xff xff xff xff)) E))
(T (W xff xff xff xff xff xff xff xff)
(T (W x2a x56 xff xff x00 x00 x01 x01)
(L (W x6c x00 x00 x00 x60 x00 x00 x00)) E)
(T (W x00 x00 x00 x00 x00 x00 x00 x00)
(L (W x00 x00 x00 x00 x00 x00 x00 x00)) E))))
(T (W x87 x00 xc5 x1b x64 xdd x14 xc6)
(T (W xff xff xff xff xff xff xff xff)
(T (W xff xff xff xff xff xff xff xff)
(T (W x45 x44 x00 x00 x00 x00 x00 x00)
(L (W x45 x26 x22 x84 xe4 x9c xf2 xcb))
(L (W xff xff xff xff xb0 x00 x00 x00)))
(T (W xff xff xff xff xff xff xff xff)
(L (W x18 x00 x00 x00 x10 x00 x00 x00)) E))
(T (W xa5 x01 x00 x00 xff xff xff xff)
(T (W x00 x00 x80 x3f x00 x00 x80 x3f)
(L (W x46 x53 x59 x53 x5f x4e x53 x5f)) E)
(T (W x72 x23 xfd xff x78 x00 x00 x00)
(L (W xc4 x00 x00 x00 x01 x00 x00 x00)) E)))
(T (W x00 x00 x80 x3f x00 x00 x80 x3f)
(T (W x00 x00 x80 x3f x00 x00 x80 x3f)
(T (W x00 x00 x00 x00 x04 xe5 xfb xff)
(L (W x00 x00 x00 x00 x00 x00 x00 x00))
(L (W x00 x00 x80 xbf x00 x00 x80 xbf)))
(T (W x00 x00 x00 x00 x00 x00 x00 x00)
(L (W x00 x00 x00 x00 x00 x00 x00 x00)) E))
(T (W x00 x00 x00 x00 x00 x00 x00 x00)
(T (W x00 x00 x00 x00 x00 x00 x00 x00)
(L (W x54 x02 x00 x00 x38 x01 x00 x00)) E)
(T (W xff xff xff xff xff xff xff xff)
(L (W x00 x00 x00 x00 x00 x00 x00 x00)) E)))))
(T (W xff xff xff xff xff xff xff xff)
(T (W x00 x00 x00 x00 x00 x00 x00 x00)
(T (W x00 x00 x00 x00 x00 x00 x00 x00)
(T (W x00 x00 x00 x00 x00 x00 x00 x00)
(T (W x50 x00 x00 x00 x44 x00 x00 x00)
(L (W xff xff xff xff xff xff xff xff))
(L (W xff xff xff xff xff xff xff xff)))
(T (W x00 x00 x80 x3f x00 x00 x80 x3f)
(L (W x00 x00 x80 xbf x00 x00 x80 xbf)) E))
(T (W x00 x00 x00 x00 x00 x00 x00 x00)
(T (W x00 x00 x00 x00 x00 x00 x00 x00)
(L (W x00 x00 x00 x00 x00 x00 x00 x00)) E)
(T (W x00 x00 x80 xbf x00 x00 x80 xbf)
(L (W x15 x00 x00 x00 x18 x00 x00 x00)) E)))
(T (W x68 x00 x00 x00 x5c x00 x00 x00)
(T (W x18 x00 x00 x00 x0c x00 x00 x00)
(T (W x00 x00 x80 x3f x00 x00 x80 x3f)
(L (W x00 x00 x00 x00 x00 x00 x00 x00))
(L (W x00 x00 x80 xbf x00 x00 x80 xbf)))
(T (W x72 xd3 xfc xff x78 x00 x00 x00)
(L (W x00 x00 x00 x00 x82 xda xfe xff)) E))
(T (W x00 x00 x80 x3f x00 x00 x80 x3f)
(T (W x00 x00 x00 x00 x00 x00 x00 x00)
(L (W xff xff xff xff xff xff xff xff)) E)
(T (W x00 x00 x00 x00 x04 x55 xfd xff)
(L (W x45 x26 x22 x84 xe4 x9c xf2 xcb)) E))))
(T (W xaa x04 xfd xff x24 x02 x00 x00)
(T (W x45 x26 x22 x84 xe4 x9c xf2 xcb)
(T (W xff xff xff xff xff xff xff xff)
(T (W xc8 x00 x00 x00 xbc x00 x00 x00)
(L (W x00 x00 x00 x00 x00 x00 x00 x00))
(L (W x00 x00 x01 x01 x72 x00 x00 x00)))
(T (W xff xff xff xff xff xff xff xff)
(L (W xff xff xff xff xa0 x00 x00 x00)) E))
(T (W x00 x00 x80 x3f x00 x00 x80 x3f)
(T (W xff xff xff xff xff xff xff xff)
(L (W x49 xa1 x68 x4a xeb x5f xdd x3d)) E)
(T (W xff xff xff xff xff xff xff xff)
(L (W xff xff xff xff xff xff xff xff)) E)))
(T (W x00 x00 x80 x3f x00 x00 x80 x3f)
(T (W xff xff xff xff xff xff xff xff)
(T (W xb8 x00 x00 x00 x14 x00 x00 x00)
(L (W x18 x00 x00 x00 x10 x00 x00 x00))
(L (W xff xff xff xff xa0 x00 x00 x00)))
(T (W x4f x84 x6f x8b xe8 xcb x63 xb7)
(L (W x4f x84 x6f x8b xe8 xcb x63 xb7)) E))
(T (W x6c x00 x00 x00 x60 x00 x00 x00)
(T (W x64 x00 x00 x00 x9c x00 x00 x00)
(L (W x00 x00 x00 x00 x00 x00 x00 x00)) E)
(T (W xff xff xff xff xff xff xff xff)
(L (W x00 x00 x80 xbf x00 x00 x80 xbf)) E))))))))
(T (W x18 x00 x00 x00 x0c x00 x00 x00)
(T (W x00 x00 x01 x01 xc9 x00 x00 x00)
(T (W x64 x00 x00 x00 xa0 x00 x00 x00)
(T (W x00 x00 x00 x00 x00 x00 x00 x00)
(T (W x45 x26 x22 x84 xe4 x9c xf2 xcb)
(T (W xff xff xff xff xff xff xff xff)
(T (W x00 x00 x00 x00 x00 x00 x00 x00)
(T (W x00 x00 x80 x3f x00 x00 x80 x3f)
(L (W x72 x79 xfd xff x78 x00 x00 x00))
(L (W x00 x00 x80 xbf x00 x00 x80 xbf)))
(T (W x45 x26 x22 x84 xe4 x9c xf2 xcb)
(L (W x00 x00 x00 x00 xf2 x7e xfe xff)) E))
(T (W x71 x33 x16 xcf x9c x32 x15 x04)
(T (W xff xff xff xff x03 x00 x00 x00)
(L (W x00 x00 x80 xbf x00 x00 x80 xbf))
(L (W xff xff xff xff xff xff xff xff)))
(T (W xff xff xff xff xff xff xff xff)
(L (W x00 x00 x00 x00 x00 x00 x00 x00)) E)))
(T (W x00 x00 x80 x3f x00 x00 x80 x3f)
(T (W x94 xbc xfa xff x00 x01 x01 x01)
(T (W x45 x26 x22 x84 xe4 x9c xf2 xcb)
(L (W xc2 xb7 xfd xff x74 x00 x00 x00))
(L (W xff xff xff xff xbc x00 x00 x00)))
(T (W xc2 xb7 xfc xff x74 x00 x00 x00)
(L (W x54 x00 x00 x00 x48 x00 x00 x00)) E))
(T (W x00 x00 x00 x00 x00 x00 x00 x00)
(T (W x19 x00 x00 x00 x1c x00 x00 x00)
(L (W x00 x00 x00 x00 x00 x00 x00 x00)) E)
(T (W xb0 x00 x00 x00 x64 x00 x00 x00)
(L (W x68 x00 x00 x00 x5c x00 x00 x00)) E))))
(T (W x18 x00 x00 x00 x0c x00 x00 x00)
(T (W xc4 x20 xfa xff x3e x00 x00 x00)
(T (W x01 x00 x00 x00 x9c x00 x00 x00)
(T (W x00 x00 x80 x3f x00 x00 x80 x3f)
(L (W x18 x00 x00 x00 x0c x00 x00 x00))
(L (W xcc x00 x00 x00 x02 x00 x00 x00)))
(T (W x00 x00 x00 x00 x00 x00 x00 x00)
(L (W x00 x00 x00 x00 x00 x00 x00 x00)) E))
(T (W x00 x00 x80 x3f x00 x00 x80 x3f)
(T (W x00 x00 x00 x00 x00 x00 x00 x00)
(L (W xff xff xff xff xff xff xff xff)) E)
(T (W x3c x00 x40 x00 x44 x00 x48 x00)
(L (W x00 x00 x80 xbf x00 x00 x80 xbf)) E)))
(T (W x00 x00 x00 x00 x00 x00 x00 x00)
(T (W x00 x00 x80 x3f x00 x00 x80 x3f)
(T (W x00 x00 x00 x00 x00 x00 x00 x00)
(L (W xff xff xff xff xff xff xff xff))
(L (W x00 x00 x00 x00 x12 x00 x00 x00)))
(T (W x00 x00 x00 x00 x00 x00 x00 x00)
(L (W xff xff xff xff xff xff xff xff)) E))
(T (W x00 x00 x80 x3f x00 x00 x80 x3f)
(T (W xff xff xff xff xff xff xff xff)
(L (W x72 x59 xfe xff x78 x00 x00 x00)) E)
(T (W x00 x00 x80 xbf x00 x00 x80 xbf)
(L (W xff xff xff xff xff xff xff xff)) E)))))
(T (W x00 x00 x00 x00 x00 x00 x00 x00)
(T (W x00 x00 x80 x3f x00 x00 x80 x3f)
(T (W x45 x26 x22 x84 xe4 x9c xf2 xcb)
(T (W x78 x65 xae x54 xf0 x6d x99 x85)
(T (W xff xff xff xff xff xff xff xff)
(L (W x00 x00 x80 xbf x00 x00 x80 xbf))
(L (W x00 x00 x80 xbf x00 x00 x80 xbf)))
(T (W x00 x00 x80 x3f x00 x00 x80 x3f)
(L (W x00 x00 x00 x00 x00 x00 x00 x00)) E))
(T (W x00 x00 x00 x00 x04 x0b xfb xff)
(T (W xff xff xff xff xff xff xff xff)
(L (W xff xff xff xff xb0 x00 x00 x00)) E)
(T (W x45 x26 x22 x84 xe4 x9c xf2 xcb)
(L (W x45 x26 x22 x84 xe4 x9c xf2 xcb)) E)))
(T (W x45 x26 x22 x84 xe4 x9c xf2 xcb)
(T (W x00 x00 x80 x3f x00 x00 x80 x3f)
(T (W xff xff xff xff xff xff xff xff)
(L (W x18 x00 x00 x00 x10 x00 x00 x00))
(L (W x00 x00 x00 x00 x00 x00 x00 x00)))
(T (W x74 x00 x08 x00 x09 x00 x0a x00)
(L (W x19 x00 x00 x00 x1c x00 x00 x00)) E))
(T (W xff xff xff xff xff xff xff xff)
(T (W xff xff xff xff xff xff xff xff)
(L (W x00 x00 x00 x00 x00 x00 x00 x00)) E)
(T (W xc1 x00 x00 x00 xff xff xff xff)
(L (W xff xff xff xff xff xff xff xff)) E))))
(T (W xff xff xff xff xff xff xff xff)
(T (W x00 x00 x80 x3f x00 x00 x80 x3f)
(T (W xc0 x00 x00 x00 xb4 x00 x00 x00)
(T (W x13 x00 x00 x00 x0c x00 x00 x00)
(L (W x45 x26 x22 x84 xe4 x9c xf2 xcb))
(L (W xff xff xff xff xff xff xff xff)))
(T (W xff xff xff xff xff xff xff xff)
(L (W x00 x00 x00 x00 x00 x00 x00 x00)) E))
(T (W xff xff xff xff xff xff xff xff)
(T (W x00 x00 x00 x00 x00 x00 x00 x00)
(L (W xff xff xff xff xff xff xff xff)) E)
(T (W x54 x00 x00 x00 x48 x00 x00 x00)
(L (W x00 x00 x80 xbf x00 x00 x80 xbf)) E)))
(T (W x45 x26 x22 x84 xe4 x9c xf2 xcb)
(T (W x00 x00 x80 x3f x00 x00 x80 x3f)
(T (W x54 x00 x00 x00 x48 x00 x00 x00)
(L (W x00 x00 x00 x00 x00 x00 x00 x00))
(L (W x00 x00 x00 x00 x12 x00 x00 x00)))
(T (W x50 x00 x00 x00 x44 x00 x00 x00)
(L (W xa4 x04 x00 x00 x88 x03 x00 x00)) E))
(T (W x5f x77 x69 x6c x64 x5f x70 x6f)
(T (W x18 x00 x00 x00 x0c x00 x00 x00)
(L (W xff xff xff xff xc4 x00 x00 x00)) E)
(T (W xcc x00 x00 x00 x01 x00 x00 x00)
(L (W x30 x32 x5f x43 x4c x45 x41 x52)) E))))))
(T (W x00 x00 x80 x3f x00 x00 x80 x3f)
(T (W x6c x00 x00 x00 x60 x00 x00 x00)
(T (W xff xff xff xff xff xff xff xff)
(T (W xb8 x00 x00 x00 xac x00 x00 x00)
(T (W x00 x00 x00 x00 x00 x00 x00 x00)
(T (W xff xff xff xff x03 x00 x00 x00)
(L (W x48 x22 x00 x00 x34 x21 x00 x00))
(L (W x00 x00 x80 xbf x00 x00 x80 xbf)))
(T (W x00 x00 x80 x3f x00 x00 x80 x3f)
(L (W x00 x00 x00 x00 x62 x82 xfe xff)) E))
(T (W x4f x84 x6f x8b xe8 xcb x63 xb7)
(T (W xff xff xff xff xbc x00 x00 x00)
(L (W x45 x26 x22 x84 xe4 x9c xf2 xcb))
(L (W xff xff xff xff xff xff xff xff)))
(T (W xff xff xff xff xd4 x00 x00 x00)
(L (W x00 x00 x00 x00 x12 x00 x00 x00)) E)))
(T (W x00 x00 x80 x3f x00 x00 x80 x3f)
(T (W x00 x00 x80 x3f x00 x00 x80 x3f)
(T (W xff xff xff xff xff xff xff xff)
(L (W x21 x00 x00 x00 x24 x00 x00 x00))
(L (W xff xff xff xff xff xff xff xff)))
(T (W x00 x00 x80 x3f x00 x00 x80 x3f)
(L (W x50 x00 x00 x00 x44 x00 x00 x00)) E))
(T (W x94 x44 xfb xff x00 x01 x01 x01)
(T (W xff xff xff xff xff xff xff xff)
(L (W x49 xa1 x68 x4a xeb x5f xdd x3d)) E)
(T (W x00 x00 x01 x01 x5d x00 x00 x00)
(L (W xff xff xff xff xff xff xff xff)) E))))
(T (W x64 x00 x00 x00 x9c x00 x00 x00)
(T (W x00 x00 x80 x3f x00 x00 x80 x3f)
(T (W x0a x00 x00 x00 x21 x00 x00 x00)
(T (W xff xff xff xff xff xff xff xff)
(L (W x00 x00 x00 x00 x00 x00 x00 x00))
(L (W x00 x00 x00 x00 x00 x00 x00 x00)))
(T (W x45 x26 x22 x84 xe4 x9c xf2 xcb)
(L (W x00 x00 x00 x00 x00 x00 x00 x00)) E))
(T (W x18 x00 x00 x00 x10 x00 x00 x00)
(T (W x00 x00 x00 x00 x00 x00 x00 x00)
(L (W xff xff xff xff xff xff xff xff)) E)
(T (W x00 x00 x00 x00 x00 x00 x00 x00)
(L (W x54 x00 x00 x00 x48 x00 x00 x00)) E)))
(T (W x45 x26 x22 x84 xe4 x9c xf2 xcb)
(T (W x00 x00 x80 x3f x00 x00 x80 x3f)
(T (W x49 xa1 x68 x4a xeb x5f xdd x3d)
(L (W xff xff xff xff xff xff xff xff))
(L (W x1c xf2 xff xff x15 x00 x00 x00)))
(T (W x01 x00 x00 x00 x19 x00 x00 x00)
(L (W xff xff xff xff xff xff xff xff)) E))
(T (W xff xff xff xff xff xff xff xff)
(T (W x00 x00 x00 x00 x02 x00 x00 x00)
(L (W x18 x00 x00 x00 x0c x00 x00 x00)) E)
(T (W x72 x61 xfd xff x78 x00 x00 x00)
(L (W x00 x00 x00 x00 x62 x62 xff xff)) E)))))
(T (W x64 x00 x00 x00 xa0 x00 x00 x00)
(T (W x00 x00 x00 x00 x3a x6c xfd xff)
(T (W x5f x77 x69 x6c x64 x5f x70 x6f)
(T (W x00 x00 x01 x01 x9d x00 x00 x00)
(T (W x00 x00 x00 x00 x00 x00 x00 x00)
(L (W xc2 x8f xfd xff x74 x00 x00 x00))
(L (W x18 x00 x00 x00 x10 x00 x00 x00)))
(T (W x00 x00 x00 x00 x00 x00 x00 x00)
(L (W x00 x00 x00 x00 x00 x00 x00 x00)) E))
(T (W xff xff xff xff xff xff xff xff)
(T (W x45 x44 x00 x00 x00 x00 x00 x00)
(L (W x45 x26 x22 x84 xe4 x9c xf2 xcb)) E)
(T (W x00 x00 x00 x00 x00 x00 x00 x00)
(L (W x00 x00 x80 xbf x00 x00 x80 xbf)) E)))
(T (W x00 x00 x00 x00 x00 x00 x00 x00)
(T (W x45 x26 x22 x84 xe4 x9c xf2 xcb)
(T (W x00 x00 x00 x00 x00 x00 x00 x00)
(L (W xff xff xff xff xff xff xff xff))
(L (W x94 x04 x00 x00 x80 x03 x00 x00)))
(T (W x00 x00 x00 x00 x12 x00 x00 x00)
(L (W xff xff xff xff xff xff xff xff)) E))
(T (W x00 x00 x00 x00 x00 x00 x00 x00)
(T (W xff xff xff xff xff xff xff xff)
(L (W x00 x00 x80 xbf x00 x00 x80 xbf)) E)
(T (W x00 x00 x00 x00 x00 x00 x00 x00)
(L (W x04 x00 x00 x00 x82 x58 xff xff)) E))))
(T (W xff xff xff xff xff xff xff xff)
(T (W x00 x00 x80 x3f x00 x00 x80 x3f)
(T (W xc2 xaf xfa xff x74 x00 x00 x00)
(T (W x00 x00 x80 x3f x00 x00 x80 x3f)
(L (W x00 x00 x00 x00 x00 x00 x00 x00))
(L (W xff xff xff xff xff xff xff xff)))
(T (W x00 x00 x00 x00 x04 xb3 xfc xff)
(L (W x00 x00 x00 x00 x00 x00 x00 x00)) E))
(T (W x00 x00 x00 x00 xa2 x30 xfb xff)
(T (W x00 x00 x80 x3f x00 x00 x80 x3f)
(L (W x45 x44 x00 x00 x00 x00 x00 x00)) E)
(T (W x72 x31 xfd xff x78 x00 x00 x00)
(L (W x00 x00 x80 xbf x00 x00 x80 xbf)) E)))
(T (W x00 x00 x00 x00 x00 x00 x00 x00)
(T (W x00 x00 x00 x00 x04 xf3 xfa xff)
(T (W x50 x00 x00 x00 x44 x00 x00 x00)
(L (W x00 x00 x80 xbf x00 x00 x80 xbf))
(L (W x00 x00 x80 xbf x00 x00 x80 xbf)))
(T (W xff xff xff xff xff xff xff xff)
(L (W x45 x44 x00 x00 x00 x00 x00 x00)) E))
(T (W x00 x00 x80 x3f x00 x00 x80 x3f)
(T (W x00 x00 x80 x3f x00 x00 x80 x3f)
(L (W xff xff xff xff xff xff xff xff)) E)
(T (W x4f x84 x6f x8b xe8 xcb x63 xb7)
(L (W x00 x00 x00 x00 x00 x00 x00 x00)) E)))))))
(T (W x00 x00 x80 x3f x00 x00 x80 x3f)
(T (W x00 x00 x00 x00 xb2 x29 xfd xff)
(T (W x00 x00 x00 x00 x00 x00 x00 x00)
(T (W x72 xbd xf9 xff x78 x00 x00 x00)
(T (W x00 x00 x80 x3f x00 x00 x80 x3f)
(T (W x94 x80 xfa xff x00 x01 x01 x01)
(T (W x12 x00 x00 x00 x46 x53 x59 x53)
(L (W x46 x53 x59 x53 x5f x4e x53 x5f))
(L (W xff xff xff xff xff xff xff xff)))
(T (W x5c x62 x2e x97 x85 x1d x59 x5f)
(L (W x94 x80 xfe xff x00 x01 x01 x01)) E))
(T (W xff xff xff xff xff xff xff xff)
(T (W x00 x00 x00 x00 x00 x00 x00 x00)
(L (W xff xff xff xff xff xff xff xff))
(L (W x46 x53 x59 x53 x5f x4e x53 x5f)))
(T (W xff xff xff xff xe4 x00 x00 x00)
(L (W x00 x00 x80 xbf x00 x00 x80 xbf)) E)))
(T (W xff xff xff xff xff xff xff xff)
(T (W x00 x00 x00 x00 x00 x00 x00 x00)
(T (W x49 xa1 x68 x4a xeb x5f xdd x3d)
(L (W xff xff xff xff xff xff xff xff))
(L (W x00 x00 x80 xbf x00 x00 x80 xbf)))
(T (W x18 x01 x00 x00 x04 x00 x00 x00)
(L (W x44 x02 x00 x00 x30 x01 x00 x00)) E))
(T (W xff xff xff xff xff xff xff xff)
(T (W x00 x00 x00 x00 x00 x00 x00 x00)
(L (W xb4 x00 x00 x00 x32 x00 x00 x00)) E)
(T (W x49 xa1 x68 x4a xeb x5f xdd x3d)
(L (W x00 x00 x00 x00 x12 x00 x00 x00)) E))))
(T (W x00 x00 x00 x00 x00 x00 x00 x00)
(T (W xff xff xff xff xff xff xff xff)
(T (W x00 x00 x00 x00 x00 x00 x00 x00)
(T (W xc4 xa4 xfb xff x11 x00 x00 x00)
(L (W x00 x00 x00 x00 x00 x00 x00 x00))
(L (W x00 x00 x80 xbf x00 x00 x80 xbf)))
(T (W x54 xbf x33 x97 x85 xab x5f x5f)
(L (W xff xff xff xff xff xff xff xff)) E))
(T (W x00 x00 x00 x00 x00 x00 x00 x00)
(T (W x19 x00 x00 x00 x1c x00 x00 x00)
(L (W x00 x00 x80 xbf x00 x00 x80 xbf)) E)
(T (W xff xff xff xff xff xff xff xff)
(L (W xff xff xff xff xff xff xff xff)) E)))
(T (W xff xff xff xff xff xff xff xff)
(T (W xff xff xff xff xff xff xff xff)
(T (W xff xff xff xff xff xff xff xff)
(L (W x00 x00 x80 xbf x00 x00 x80 xbf))
(L (W x94 xe0 xff xff x00 x01 x01 x01)))
(T (W xff xff xff xff xff xff xff xff)
(L (W x45 x26 x22 x84 xe4 x9c xf2 xcb)) E))
(T (W x00 x00 x00 x00 x00 x00 x00 x00)
(T (W x54 x00 x00 x00 x48 x00 x00 x00)
(L (W x00 x00 x00 x00 x00 x00 x00 x00)) E)
(T (W xff xff xff xff xff xff xff xff)
(L (W x72 x5d xff xff x78 x00 x00 x00)) E)))))
(T (W x00 x00 x80 x3f x00 x00 x80 x3f)
(T (W xbc x00 x00 x00 xb0 x00 x00 x00)
(T (W x00 x00 x00 x00 x00 x00 x00 x00)
(T (W x18 x00 x00 x00 x0c x00 x00 x00)
(T (W x72 x8d xfb xff x78 x00 x00 x00)
(L (W x00 x00 x00 x00 x00 x00 x00 x00))
(L (W x1c x9e xff xff x15 x00 x00 x00)))
(T (W xff xff xff xff xff xff xff xff)
(L (W xff xff xff xff xb0 x00 x00 x00)) E))
(T (W x00 x00 x00 x00 x12 x00 x00 x00)
(T (W x00 x00 x80 x3f x00 x00 x80 x3f)
(L (W x00 x00 x00 x00 x00 x00 x00 x00)) E)
(T (W x23 x00 x00 x00 x10 x00 x00 x00)
(L (W xbc x00 x00 x00 x32 x00 x00 x00)) E)))
(T (W xff xff xff xff xff xff xff xff)
(T (W x48 x03 x00 x00 x34 x02 x00 x00)
(T (W x72 xcd xfb xff x78 x00 x00 x00)
(L (W x46 x53 x59 x53 x5f x4e x53 x5f))
(L (W x00 x00 x80 xbf x00 x00 x80 xbf)))
(T (W x72 xcd xfc xff x78 x00 x00 x00)
(L (W x00 x00 x00 x00 x00 x00 x00 x00)) E))
(T (W x18 x00 x00 x00 x0c x00 x00 x00)
(T (W x49 xa1 x68 x4a xeb x5f xdd x3d)
(L (W xff xff xff xff xff xff xff xff)) E)
(T (W x24 x00 x28 x00 x2c x00 x30 x00)
(L (W x00 x00 x80 xbf x00 x00 x80 xbf)) E))))
(T (W x45 x26 x22 x84 xe4 x9c xf2 xcb)
(T (W xb3 x01 x00 x00 xff xff xff xff)
(T (W xfd x68 xa2 xcf xf2 xdd x51 x03)
(T (W x14 x00 x00 x00 x16 x00 x00 x00)
(L (W xff xff xff xff xff xff xff xff))
(L (W x00 x00 x00 x00 x00 x00 x00 x00)))
(T (W x00 x00 x00 x00 x00 x00 x00 x00)
(L (W xff xff xff xff xff xff xff xff)) E))
(T (W x00 x00 x80 x3f x00 x00 x80 x3f)
(T (W xff xff xff xff xff xff xff xff)
(L (W x18 x00 x00 x00 x10 x00 x00 x00)) E)
(T (W xff xff xff xff xff xff xff xff)
(L (W x00 x00 x00 x00 x00 x00 x00 x00)) E)))
(T (W x45 x26 x22 x84 xe4 x9c xf2 xcb)
(T (W xff xff xff xff x04 x00 x00 x00)
(T (W xb4 x05 x00 x00 x84 x04 x00 x00)
(L (W x03 x00 x00 x00 xd0 x00 x00 x00))
(L (W xc4 x00 x00 x00 x02 x00 x00 x00)))
(T (W x34 x00 x38 x00 x3c x00 x40 x00)
(L (W x00 x00 x00 x00 x04 xef xfe xff)) E))
(T (W x50 x00 x00 x00 x44 x00 x00 x00)
(T (W x28 x00 x00 x00 x10 x00 x00 x00)
(L (W x00 x00 x80 xbf x00 x00 x80 xbf)) E)
(T (W x00 x00 x00 x00 x00 x00 x00 x00)
(L (W xff xff xff xff xff xff xff xff)) E))))))
(T (W xbc x00 x00 x00 xb0 x00 x00 x00)
(T (W xff xff xff xff xff xff xff xff)
(T (W x00 x00 x00 x00 x00 x00 x00 x00)
(T (W x00 x00 x00 x00 x00 x00 x00 x00)
(T (W x45 x26 x22 x84 xe4 x9c xf2 xcb)
(T (W x00 x00 x00 x00 x00 x00 x00 x00)
(L (W x18 x00 x00 x00 xff xff xff xff))
(L (W x00 x00 x00 x00 x00 x00 x00 x00)))
(T (W xff xff xff xff xff xff xff xff)
(L (W x00 x00 x00 x00 x04 x87 xfe xff)) E))
(T (W x67 x72 x6f x75 x70 x5f x6c x65)
(T (W x4f x84 x6f x8b xe8 xcb x63 xb7)
(L (W x00 x00 x00 x00 x00 x00 x00 x00)) E)
(T (W x45 x26 x22 x84 xe4 x9c xf2 xcb)
(L (W x45 x26 x22 x84 xe4 x9c xf2 xcb)) E)))
(T (W xff xff xff xff xff xff xff xff)
(T (W x00 x00 x00 x00 x00 x00 x00 x00)
(T (W xc2 xc3 xfb xff x74 x00 x00 x00)
(L (W x00 x00 x00 x00 x00 x00 x00 x00))
(L (W x00 x00 x80 xbf x00 x00 x80 xbf)))
(T (W xc4 xcc xfc xff x46 x00 x00 x00)
(L (W x00 x00 x00 x00 x00 x00 x00 x00)) E))
(T (W x00 x00 x00 x00 x00 x00 x00 x00)
(T (W x00 x00 x00 x00 x00 x00 x00 x00)
(L (W x03 x00 x00 x00 xd8 x00 x00 x00)) E)
(T (W x00 x00 x80 xbf x00 x00 x80 xbf)
(L (W x45 x26 x22 x84 xe4 x9c xf2 xcb)) E))))
(T (W x00 x00 x80 x3f x00 x00 x80 x3f)
(T (W x41 xa4 x24 x44 xe3 x38 x6b xa2)
(T (W x00 x00 x00 x00 x00 x00 x00 x00)
(T (W x00 x00 x80 x3f x00 x00 x80 x3f)
(L (W x00 x00 x80 xbf x00 x00 x80 xbf))
(L (W xff xff xff xff xff xff xff xff)))
(T (W x00 x00 x00 x00 x00 x00 x00 x00)
(L (W xff xff xff xff xff xff xff xff)) E))
(T (W x00 x00 x00 x00 x12 x00 x00 x00)
(T (W xff xff xff xff xff xff xff xff)
(L (W x54 x00 x00 x00 x48 x00 x00 x00)) E)
(T (W xff xff xff xff xff xff xff xff)
(L (W xff xff xff xff xff xff xff xff)) E)))
(T (W xb8 x00 x00 x00 xac x00 x00 x00)
(T (W xff xff xff xff xff xff xff xff)
(T (W x4b x00 x00 x00 xff xff xff xff)
(L (W x00 x00 x80 xbf x00 x00 x80 xbf))
(L (W xff xff xff xff xa0 x00 x00 x00)))
(T (W xff xff xff xff xff xff xff xff)
(L (W x00 x00 x80 xbf x00 x00 x80 xbf)) E))
(T (W x00 x00 x80 x3f x00 x00 x80 x3f)
(T (W x00 x00 x4c x00 x50 x00 x00 x00)
(L (W x45 x26 x22 x84 xe4 x9c xf2 xcb)) E)
(T (W x45 x44 x00 x00 x00 x00 x00 x00)
(L (W xff xff xff xff xa0 x00 x00 x00)) E)))))
(T (W xc9 x00 x00 x00 xff xff xff xff)
(T (W x45 x26 x22 x84 xe4 x9c xf2 xcb)
(T (W xc2 x13 xfa xff x74 x00 x00 x00)
(T (W xff xff xff xff xff xff xff xff)
(T (W xff xff xff xff x9c x00 x00 x00)
(L (W x4c x45 x41 x52 x45 x44 x00 x00))
(L (W x4f x84 x6f x8b xe8 xcb x63 xb7)))
(T (W x18 x00 x00 x00 x10 x00 x00 x00)
(L (W x18 x00 x00 x00 x10 x00 x00 x00)) E))
(T (W xff xff xff xff xff xff xff xff)
(T (W x00 x00 x80 x3f x00 x00 x80 x3f)
(L (W x4f x84 x6f x8b xe8 xcb x63 xb7)) E)
(T (W x3c x00 x40 x00 x44 x00 x48 x00)
(L (W xff xff xff xff xff xff xff xff)) E)))
(T (W xff xff xff xff xff xff xff xff)
(T (W xff xff xff xff xff xff xff xff)
(T (W x00 x00 x00 x00 x04 xd7 xfb xff)
(L (W x45 x26 x22 x84 xe4 x9c xf2 xcb))
(L (W x6c x00 x00 x00 x60 x00 x00 x00)))
(T (W xff xff xff xff xff xff xff xff)
(L (W x45 x26 x22 x84 xe4 x9c xf2 xcb)) E))
(T (W xff xff xff xff xff xff xff xff)
(T (W x50 x00 x00 x00 x44 x00 x00 x00)
(L (W x00 x00 x00 x00 x00 x00 x00 x00)) E)
(T (W xff xff xff xff xff xff xff xff)
(L (W x00 x00 x80 xbf x00 x00 x80 xbf)) E))))
(T (W x00 x00 x00 x00 x00 x00 x00 x00)
(T (W xff xff xff xff xff xff xff xff)
(T (W xaa xc6 xfd xff x70 x00 x00 x00)
(T (W x98 x03 x00 x00 x70 x02 x00 x00)
(L (W x00 x00 x80 xbf x00 x00 x80 xbf))
(L (W x00 x00 x00 x00 x00 x00 x00 x00)))
(T (W x00 x00 x00 x00 x00 x00 x00 x00)
(L (W xff xff xff xff xff xff xff xff)) E))
(T (W x01 x00 x00 x00 x21 x00 x00 x00)
(T (W x00 x00 x00 x00 x00 x00 x00 x00)
(L (W xff xff xff xff xb0 x00 x00 x00)) E)
(T (W x00 x00 x00 x00 x00 x00 x00 x00)
(L (W x00 x00 x00 x00 x00 x00 x00 x00)) E)))
(T (W x68 x00 x00 x00 x5c x00 x00 x00)
(T (W x00 x00 x00 x00 x00 x00 x00 x00)
(T (W x00 x00 x00 x00 x00 x00 x00 x00)
(L (W xff xff xff xff xff xff xff xff))
(L (W xff xff xff xff xff xff xff xff)))
(T (W x00 x00 x80 x3f x00 x00 x80 x3f)
(L (W xff xff xff xff xb0 x00 x00 x00)) E))
(T (W x22 x7e xfe xff x00 x00 x01 x01)
(T (W x00 x00 x00 x00 x00 x00 x00 x00)
(L (W x72 x75 xfe xff x78 x00 x00 x00)) E)
(T (W x00 x00 x00 x00 x00 x00 x00 x00)
(L (W xb8 x00 x00 x00 x64 x00 x00 x00)) E))))))))))
(T (W x90 xbd x03 x00 x34 xbb x03 x00)
(T (W x70 x16 x03 x00 x2c x14 x03 x00)
(T (W x18 x37 x01 x00 xcc x34 x01 x00)
(T (W x45 x26 x22 x84 xe4 x9c xf2 xcb)
(T (W xff xff xff xff x12 x00 x00 x00)
(T (W x00 x00 x80 x3f x00 x00 x80 x3f)
(T (W x14 xba xf9 xff x00 x01 x01 x01)
(T (W xff xff xff xff xff xff xff xff)
(T (W x00 x00 x00 x00 x00 x00 x00 x00)
(T (W x19 x00 x00 x00 x1c x00 x00 x00)
(L (W xff xff xff xff xff xff xff xff))
(L (W xf2 x76 xff xff x78 x00 x00 x00)))
(T (W xff xff xff xff xff xff xff xff)
(L (W x00 x00 x00 x00 x00 x00 x00 x00)) E))
(T (W xbc x00 x00 x00 xb0 x00 x00 x00)
(T (W xff xff xff xff xff xff xff xff)
(L (W x6c x00 x00 x00 x60 x00 x00 x00))
(L (W xf2 xf6 xff xff x78 x00 x00 x00)))
(T (W x00 x00 x00 x00 x00 x00 x00 x00)
(L (W x00 x00 x80 xbf x00 x00 x80 xbf)) E)))
(T (W x42 x35 xfa xff x74 x00 x00 x00)
(T (W x64 x00 x00 x00 x9c x00 x00 x00)
(T (W xff xff xff xff xc8 x00 x00 x00)
(L (W xff xff xff xff xff xff xff xff))
(L (W x00 x00 x00 x00 x22 xb6 xff xff)))
(T (W xff xff xff xff xff xff xff xff)
(L (W x14 xba xfe xff x00 x01 x01 x01)) E))
(T (W x00 x00 x80 x3f x00 x00 x80 x3f)
(T (W xff xff xff xff xff xff xff xff)
(L (W x00 x00 x80 xbf x00 x00 x80 xbf)) E)
(T (W xff xff xff xff xff xff xff xff)
(L (W xff xff xff xff xc0 x00 x00 x00)) E))))
(T (W xff xff xff xff xff xff xff xff)
(T (W x00 x00 x00 x00 x00 x00 x00 x00)
(T (W x18 x00 x00 x00 x0c x00 x00 x00)
(T (W x68 x00 x00 x00 x5c x00 x00 x00)
(L (W xff xff xff xff xff xff xff xff))
(L (W xff xff xff xff xff xff xff xff)))
(T (W x00 x00 x80 x3f x00 x00 x80 x3f)
(L (W x00 x00 x80 xbf x00 x00 x80 xbf)) E))
(T (W x68 x00 x00 x00 x5c x00 x00 x00)
(T (W x00 x00 x00 x00 x00 x00 x00 x00)
(L (W xff xff xff xff xff xff xff xff)) E)
(T (W xff xff xff xff xff xff xff xff)
(L (W x18 x00 x00 x00 x10 x00 x00 x00)) E)))
(T (W x14 x5a xfa xff x00 x01 x01 x01)
(T (W x01 x00 x00 x00 x3e x00 x00 x00)
(T (W x54 x00 x00 x00 x48 x00 x00 x00)
(L (W x2e x00 x00 x00 xff xff xff xff))
(L (W x00 x00 x00 x00 x00 x00 x00 x00)))
(T (W x54 x00 x00 x00 x48 x00 x00 x00)
(L (W xff xff xff xff xff xff xff xff)) E))
(T (W x24 x00 x00 x00 xb0 x00 x00 x00)
(T (W x46 x53 x59 x53 x5f x4e x53 x5f)
(L (W xff xff xff xff xc8 x00 x00 x00)) E)
(T (W x14 x5a xfd xff x00 x01 x01 x01)
(L (W x00 x00 x00 x00 x12 x00 x00 x00)) E)))))
(T (W x00 x00 x80 x3f x00 x00 x80 x3f)
(T (W xff xff xff xff xff xff xff xff)
(T (W x1a x0e xfd xff xc4 x01 x00 x00)
(T (W x00 x00 x00 x00 x00 x00 x00 x00)
(T (W x46 x53 x59 x53 x5f x4e x53 x5f)
(L (W x18 x00 x00 x00 x0c x00 x00 x00))
(L (W xff xff xff xff xb0 x00 x00 x00)))
(T (W x45 x26 x22 x84 xe4 x9c xf2 xcb)
(L (W x00 x00 x00 x00 x00 x00 x00 x00)) E))
(T (W xff xff xff xff xff xff xff xff)
(T (W x00 x00 x00 x00 x02 x00 x00 x00)
(L (W xc4 x00 x00 x00 x02 x00 x00 x00)) E)
(T (W x00 x00 x80 xbf x00 x00 x80 xbf)
(L (W x45 x26 x22 x84 xe4 x9c xf2 xcb)) E)))
(T (W x68 x00 x00 x00 x5c x00 x00 x00)
(T (W x18 x00 x00 x00 x0c x00 x00 x00)
(T (W x00 x00 x00 x00 x00 x00 x00 x00)
(L (W xff xff xff xff xff xff xff xff))
(L (W x45 x44 x00 x00 x00 x00 x00 x00)))
(T (W x34 x30 x00 x00 x06 x00 x00 x00)
(L (W xff xff xff xff xff xff xff xff)) E))
(T (W xff xff xff xff xff xff xff xff)
(T (W x00 x00 x00 x00 x00 x00 x00 x00)
(L (W x00 x00 x80 xbf x00 x00 x80 xbf)) E)
(T (W x30 x32 x5f x43 x4c x45 x41 x52)
(L (W x00 x00 x00 x00 x72 x4c xff xff)) E))))
(T (W x04 x00 x00 x00 x54 x03 x00 x00)
(T (W xc0 x00 x00 x00 xb4 x00 x00 x00)
(T (W xff xff xff xff xff xff xff xff)
(T (W x00 x00 x00 x00 x00 x00 x00 x00)
(L (W xff xff xff xff x17 x00 x00 x00))
(L (W xff xff xff xff xc4 x00 x00 x00)))
(T (W xff xff xff xff xff xff xff xff)
(L (W x00 x00 x80 xbf x00 x00 x80 xbf)) E))
(T (W xff xff xff xff xff xff xff xff)
(T (W x50 x00 x00 x00 x44 x00 x00 x00)
(L (W x00 x00 x00 x00 x00 x00 x00 x00)) E)
(T (W x68 x00 x00 x00 x5c x00 x00 x00)
(L (W x45 x26 x22 x84 xe4 x9c xf2 xcb)) E)))
(T (W x00 x00 x80 x3f x00 x00 x80 x3f)
(T (W xf2 xe6 xfa xff x78 x00 x00 x00)
(T (W x14 xea xfb xff x00 x01 x01 x01)
(L (W x00 x00 x80 xbf x00 x00 x80 xbf))
(L (W x00 x00 x80 xbf x00 x00 x80 xbf)))
(T (W x45 x26 x22 x84 xe4 x9c xf2 xcb)
(L (W x00 x00 x00 x00 x00 x00 x00 x00)) E))
(T (W x44 x6e xfb xff x11 x00 x00 x00)
(T (W xff xff xff xff xff xff xff xff)
(L (W x29 x00 x00 x00 xff xff xff xff)) E)
(T (W xff xff xff xff xff xff xff xff)
(L (W x49 xa1 x68 x4a xeb x5f xdd x3d)) E))))))
(T (W x18 x00 x00 x00 x0c x00 x00 x00)
(T (W xff xff xff xff xff xff xff xff)
(T (W x00 x00 x00 x00 x00 x00 x00 x00)
(T (W xc5 x01 x00 x00 xff xff xff xff)
(T (W x00 x00 x00 x00 x00 x00 x00 x00)
(T (W xa5 x01 x00 x00 xff xff xff xff)
(L (W xff xff xff xff xff xff xff xff))
(L (W x45 x26 x22 x84 xe4 x9c xf2 xcb)))
(T (W x18 x00 x00 x00 x10 x00 x00 x00)
(L (W x45 x26 x22 x84 xe4 x9c xf2 xcb)) E))
(T (W x00 x00 x80 x3f x00 x00 x80 x3f)
(T (W x00 x00 x00 x00 x72 x04 xfc xff)
(L (W x45 x26 x22 x84 xe4 x9c xf2 xcb))
(L (W x00 x00 x00 x00 x00 x00 x00 x00)))
(T (W x00 x00 x00 x00 x84 x00 xfd xff)
(L (W x00 x00 x80 xbf x00 x00 x80 xbf)) E)))
(T (W x00 x00 x80 x3f x00 x00 x80 x3f)
(T (W x00 x00 x00 x00 x84 xc0 xfa xff)
(T (W xd3 xc9 xca x93 x3a x1f x21 x7b)
(L (W xff xff xff xff xc0 x00 x00 x00))
(L (W x00 x00 x00 x00 x02 xc6 xff xff)))
(T (W x00 x00 x00 x00 x84 xc0 xfc xff)
(L (W xb4 x00 x00 x00 x50 x00 x00 x00)) E))
(T (W xf2 x3e xfb xff x78 x00 x00 x00)
(T (W xff xff xff xff xff xff xff xff)
(L (W x00 x00 x80 xbf x00 x00 x80 xbf)) E)
(T (W x18 x65 xca xc9 x03 x8c xa3 xbc)
(L (W xff xff xff xff xff xff xff xff)) E))))
(T (W xc2 x02 x00 x00 xff xff xff xff)
(T (W xb8 x00 x00 x00 xac x00 x00 x00)
(T (W xff xff xff xff xff xff xff xff)
(T (W xff xff xff xff xff xff xff xff)
(L (W xff xff xff xff xff xff xff xff))
(L (W x00 x00 x00 x00 x72 xfd xff xff)))
(T (W x18 x00 x00 x00 x10 x00 x00 x00)
(L (W x00 x00 x80 xbf x00 x00 x80 xbf)) E))
(T (W xff xff xff xff x9c x00 x00 x00)
(T (W x49 xa1 x68 x4a xeb x5f xdd x3d)
(L (W x30 x32 x5f x43 x4c x45 x41 x52)) E)
(T (W x3c x00 x00 x00 x00 x00 x80 xbf)
(L (W xff xff xff xff xff xff xff xff)) E)))
(T (W x00 x00 x80 x3f x00 x00 x80 x3f)
(T (W x68 x00 x00 x00 x5c x00 x00 x00)
(T (W x68 x00 x00 x00 x5c x00 x00 x00)
(L (W xe6 x45 xbb x28 xbf xce x6a x6a))
(L (W x45 x26 x22 x84 xe4 x9c xf2 xcb)))
(T (W xf2 xde xfc xff x78 x00 x00 x00)
(L (W x9f x01 x00 x00 xff xff xff xff)) E))
(T (W xff xff xff xff xff xff xff xff)
(T (W x00 x00 x00 x00 x00 x00 x00 x00)
(L (W xff xff xff xff xff xff xff xff)) E)
(T (W x45 x26 x22 x84 xe4 x9c xf2 xcb)
(L (W x00 x00 x00 x00 x00 x00 x00 x00)) E)))))
(T (W x00 x00 x00 x00 xba x49 xfd xff)
(T (W x00 x00 x80 x3f x00 x00 x80 x3f)
(T (W x6b x65 x5f x6c x76 x32 x00 x00)
(T (W x00 x00 x00 x00 x00 x00 x00 x00)
(T (W x00 x00 x00 x00 x00 x00 x00 x00)
(L (W x03 x00 x00 x00 xcc x00 x00 x00))
(L (W xff xff xff xff xff xff xff xff)))
(T (W x00 x00 x80 x3f x00 x00 x80 x3f)
(L (W x00 x00 x80 xbf x00 x00 x80 xbf)) E))
(T (W xff xff xff xff xff xff xff xff)
(T (W x46 x53 x59 x53 x5f x4e x53 x5f)
(L (W xff xff xff xff xff xff xff xff)) E)
(T (W x00 x00 x00 x00 x00 x00 x00 x00)
(L (W x00 x00 x80 xbf x00 x00 x80 xbf)) E)))
(T (W x42 x4d xfa xff x74 x00 x00 x00)
(T (W x40 x00 x00 x00 x9c x00 x00 x00)
(T (W x00 x00 x00 x00 x00 x00 x00 x00)
(L (W x00 x00 x01 x01 x5d x00 x00 x00))
(L (W x00 x00 x00 x00 x00 x00 x00 x00)))
(T (W x00 x00 x00 x00 x00 x00 x00 x00)
(L (W xff xff xff xff xff xff xff xff)) E))
(T (W x00 x00 x80 x3f x00 x00 x80 x3f)
(T (W x2b xef xfa x2c x64 xd2 xa3 xcd)
(L (W x45 x26 x22 x84 xe4 x9c xf2 xcb)) E)
(T (W x00 x00 x80 xbf x00 x00 x80 xbf)
(L (W x00 x00 x00 x00 x00 x00 x00 x00)) E))))
(T (W x0a x5a xff xff x25 x02 x00 x00)
(T (W xff xff xff xff x03 x00 x00 x00)
(T (W xff xff xff xff xff xff xff xff)
(T (W x00 x00 x80 x3f x00 x00 x80 x3f)
(L (W x00 x00 x80 xbf x00 x00 x80 xbf))
(L (W x00 x00 x01 x01 x5d x00 x00 x00)))
(T (W xff xff xff xff xff xff xff xff)
(L (W x54 x00 x00 x00 x48 x00 x00 x00)) E))
(T (W x00 x00 x00 x00 x00 x00 x00 x00)
(T (W xf2 x2e xfc xff x78 x00 x00 x00)
(L (W x4f x84 x6f x8b xe8 xcb x63 xb7)) E)
(T (W xc4 x00 x00 x00 x02 x00 x00 x00)
(L (W xff xff xff xff xb0 x00 x00 x00)) E)))
(T (W x00 x00 x80 x3f x00 x00 x80 x3f)
(T (W x00 x00 x80 x3f x00 x00 x80 x3f)
(T (W xff xff xff xff xff xff xff xff)
(L (W x00 x00 x80 xbf x00 x00 x80 xbf))
(L (W x00 x00 x80 xbf x00 x00 x80 xbf)))
(T (W x30 x00 x34 x00 x38 x00 x3c x00)
(L (W x00 x00 x00 x00 x00 x00 x00 x00)) E))
(T (W x00 x00 x80 x3f x00 x00 x80 x3f)
(T (W x64 x00 x00 x00 x9c x00 x00 x00)
(L (W x00 x00 x00 x00 x00 x00 x00 x00)) E)
(T (W xff xff xff xff xff xff xff xff)
(L (W x00 x00 x80 xbf x00 x00 x80 xbf)) E)))))))
(T (W x45 x26 x22 x84 xe4 x9c xf2 xcb)
(T (W x45 x26 x22 x84 xe4 x9c xf2 xcb)
(T (W x18 x00 x00 x00 x0c x00 x00 x00)
(T (W xff xff xff xff xff xff xff xff)
(T (W x6c x00 x00 x00 x60 x00 x00 x00)
(T (W xff xff xff xff xff xff xff xff)
(T (W x00 x00 x00 x00 x00 x00 x00 x00)
(L (W x00 x00 x00 x00 x00 x00 x00 x00))
(L (W x00 x00 x01 x01 xa1 x01 x00 x00)))
(T (W x00 x00 x00 x00 x00 x00 x00 x00)
(L (W x18 x00 x00 x00 x0c x00 x00 x00)) E))
(T (W xff xff xff xff xbc x00 x00 x00)
(T (W x00 x00 x80 x3f x00 x00 x80 x3f)
(L (W x00 x00 x00 x00 x00 x00 x00 x00))
(L (W xff xff xff xff xff xff xff xff)))
(T (W x54 x00 x00 x00 x48 x00 x00 x00)
(L (W xff xff xff xff xc0 x00 x00 x00)) E)))
(T (W x00 x00 x00 x00 x00 x00 x00 x00)
(T (W x00 x00 x00 x00 x00 x00 x00 x00)
(T (W x00 x00 x80 x3f x00 x00 x80 x3f)
(L (W x00 x00 x00 x00 x00 x00 x00 x00))
(L (W x14 xbe xff xff x00 x01 x01 x01)))
(T (W x00 x00 x00 x00 x00 x00 x00 x00)
(L (W x00 x00 x00 x00 x00 x00 x00 x00)) E))
(T (W xff xff xff xff xff xff xff xff)
(T (W x49 xa1 x68 x4a xeb x5f xdd x3d)
(L (W xff xff xff xff xff xff xff xff)) E)
(T (W x00 x00 x80 xbf x00 x00 x80 xbf)
(L (W x00 x00 x80 xbf x00 x00 x80 xbf)) E))))
(T (W x00 x00 x80 x3f x00 x00 x80 x3f)
(T (W xff xff xff xff x03 x00 x00 x00)
(T (W x00 x00 x00 x00 x00 x00 x00 x00)
(T (W x22 x00 x00 x00 x67 x72 x6f x75)
(L (W x00 x00 x80 xbf x00 x00 x80 xbf))
(L (W x00 x00 x80 xbf x00 x00 x80 xbf)))
(T (W x1a x00 x00 x00 x10 x00 x00 x00)
(L (W xff xff xff xff xff xff xff xff)) E))
(T (W x00 x00 x00 x00 x00 x00 x00 x00)
(T (W xff xff xff xff xff xff xff xff)
(L (W x00 x00 x80 xbf x00 x00 x80 xbf)) E)
(T (W xff xff xff xff xff xff xff xff)
(L (W x46 x53 x59 x53 x5f x4e x53 x5f)) E)))
(T (W xff xff xff xff xff xff xff xff)
(T (W x01 x00 x00 x00 x04 x00 x00 x00)
(T (W x0c x08 x00 x00 xdc x06 x00 x00)
(L (W x14 xde xfd xff x00 x01 x01 x01))
(L (W xff xff xff xff xff xff xff xff)))
(T (W x30 x32 x5f x43 x4c x45 x41 x52)
(L (W x54 x00 x00 x00 x48 x00 x00 x00)) E))
(T (W x00 x00 x00 x00 x00 x00 x00 x00)
(T (W xff xff xff xff x03 x00 x00 x00)
(L (W x00 x00 x00 x00 x00 x00 x00 x00)) E)
(T (W x9c x6b xfd xff x1a x00 x00 x00)
(L (W xff xff xff xff xff xff xff xff)) E)))))
(T (W xbc x00 x00 x00 xb0 x00 x00 x00)
(T (W x00 x00 x00 x00 x00 x00 x00 x00)
(T (W x00 x00 x80 x3f x00 x00 x80 x3f)
(T (W xff xff xff xff xff xff xff xff)
(T (W x54 x00 x00 x00 x48 x00 x00 x00)
(L (W x00 x00 x00 x00 x00 x00 x00 x00))
(L (W x00 x00 x00 x00 x00 x00 x00 x00)))
(T (W x99 x9b x30 x97 x85 x1f x5c x5f)
(L (W xff xff xff xff xff xff xff xff)) E))
(T (W x00 x00 x80 x3f x00 x00 x80 x3f)
(T (W x18 x00 x00 x00 x10 x00 x00 x00)
(L (W x00 x00 x80 xbf x00 x00 x80 xbf)) E)
(T (W x00 x00 x00 x00 x00 x00 x00 x00)
(L (W xff xff xff xff xff xff xff xff)) E)))
(T (W x40 x00 x00 x00 x10 x00 x00 x00)
(T (W x00 x00 x00 x00 x00 x00 x00 x00)
(T (W xff xff xff xff xff xff xff xff)
(L (W x49 xa1 x68 x4a xeb x5f xdd x3d))
(L (W xc4 x00 x00 x00 x02 x00 x00 x00)))
(T (W x1c x03 x00 x00 xfc x01 x00 x00)
(L (W x00 x00 x80 xbf x00 x00 x80 xbf)) E))
(T (W xc8 x00 x00 x00 xbc x00 x00 x00)
(T (W xf2 x4a xfc xff x78 x00 x00 x00)
(L (W x46 x53 x59 x53 x5f x4e x53 x5f)) E)
(T (W x03 x00 x00 x00 xd0 x00 x00 x00)
(L (W x14 x4e xff xff x00 x01 x01 x01)) E))))
(T (W x00 x00 x80 x3f x00 x00 x80 x3f)
(T (W x00 x00 x00 x00 x00 x00 x00 x00)
(T (W x00 x00 x80 x3f x00 x00 x80 x3f)
(T (W xff xff xff xff xff xff xff xff)
(L (W x00 x00 x00 x00 x00 x00 x00 x00))
(L (W x00 x00 x80 xbf x00 x00 x80 xbf)))
(T (W x00 x00 x80 x3f x00 x00 x80 x3f)
(L (W x54 x02 x00 x00 x38 x01 x00 x00)) E))
(T (W x50 x00 x00 x00 x44 x00 x00 x00)
(T (W xff xff xff xff xff xff xff xff)
(L (W x18 x00 x00 x00 x10 x00 x00 x00)) E)
(T (W x00 x00 x00 x00 x12 x00 x00 x00)
(L (W x00 x00 x00 x00 x00 x00 x00 x00)) E)))
(T (W xff xff xff xff xff xff xff xff)
(T (W xaa xfd xfd xff x00 x00 x01 x01)
(T (W x00 x00 x00 x00 x00 x00 x00 x00)
(L (W xff xff xff xff xff xff xff xff))
(L (W xff xff xff xff xff xff xff xff)))
(T (W x00 x00 x00 x00 x00 x00 x00 x00)
(L (W xff xff xff xff xff xff xff xff)) E))
(T (W xff xff xff xff xff xff xff xff)
(T (W x00 x00 x00 x00 x00 x00 x00 x00)
(L (W x45 x26 x22 x84 xe4 x9c xf2 xcb)) E)
(T (W x00 x00 x80 xbf x00 x00 x80 xbf)
(L (W xff xff xff xff xff xff xff xff)) E))))))
(T (W x00 x00 x01 x01 xc9 x00 x00 x00)
(T (W x00 x00 x00 x00 x00 x00 x00 x00)
(T (W x00 x00 x80 x3f x00 x00 x80 x3f)
(T (W x00 x00 x80 x3f x00 x00 x80 x3f)
(T (W xff xff xff xff xff xff xff xff)
(T (W x00 x00 x80 x3f x00 x00 x80 x3f)
(L (W x4c x45 x41 x52 x45 x44 x00 x00))
(L (W x00 x00 x00 x00 x00 x00 x00 x00)))
(T (W x00 x00 x00 x00 x00 x00 x00 x00)
(L (W xff xff xff xff x9c x00 x00 x00)) E))
(T (W x6b x65 x5f x6c x76 x31 x00 x00)
(T (W x6c x00 x00 x00 x60 x00 x00 x00)
(L (W x00 x00 x00 x00 x00 x00 x00 x00)) E)
(T (W x6c x00 x00 x00 x60 x00 x00 x00)
(L (W xff xff xff xff xff xff xff xff)) E)))
(T (W x00 x00 x00 x00 x00 x00 x00 x00)
(T (W x00 x00 x00 x00 x00 x00 x00 x00)
(T (W x00 x00 x00 x00 x84 xc4 xfb xff)
(L (W x00 x00 x80 xbf x00 x00 x80 xbf))
(L (W x68 x00 x00 x00 x5c x00 x00 x00)))
(T (W x00 x00 x00 x00 x00 x00 x00 x00)
(L (W x4f x84 x6f x8b xe8 xcb x63 xb7)) E))
(T (W x45 x26 x22 x84 xe4 x9c xf2 xcb)
(T (W x00 x00 x80 x3f x00 x00 x80 x3f)
(L (W x00 x00 x01 x01 x29 x00 x00 x00)) E)
(T (W x19 x00 x00 x00 x1c x00 x00 x00)
(L (W x54 x00 x00 x00 x48 x00 x00 x00)) E))))
(T (W x00 x00 x80 x3f x00 x00 x80 x3f)
(T (W x00 x00 x00 x00 x00 x00 x00 x00)
(T (W x45 x26 x22 x84 xe4 x9c xf2 xcb)
(T (W x54 x00 x00 x00 x48 x00 x00 x00)
(L (W xff xff xff xff xbc x00 x00 x00))
(L (W x14 x00 x00 x00 x0c x00 x00 x00)))
(T (W x00 x00 x80 x3f x00 x00 x80 x3f)
(L (W x45 x44 x00 x00 x00 x00 x00 x00)) E))
(T (W x00 x00 x80 x3f x00 x00 x80 x3f)
(T (W xff xff xff xff xff xff xff xff)
(L (W xf2 x22 xfe xff x78 x00 x00 x00)) E)
(T (W x04 x00 x00 x00 xe2 x23 xfd xff)
(L (W x00 x00 x00 x00 x00 x00 x00 x00)) E)))
(T (W xff xff xff xff xff xff xff xff)
(T (W xff xff xff xff xff xff xff xff)
(T (W x00 x00 x00 x00 x00 x00 x00 x00)
(L (W x18 x00 x00 x00 x10 x00 x00 x00))
(L (W xff xff xff xff xff xff xff xff)))
(T (W x45 x26 x22 x84 xe4 x9c xf2 xcb)
(L (W x45 x26 x22 x84 xe4 x9c xf2 xcb)) E))
(T (W x45 x26 x22 x84 xe4 x9c xf2 xcb)
(T (W x45 x26 x22 x84 xe4 x9c xf2 xcb)
(L (W x00 x00 x80 xbf x00 x00 x80 xbf)) E)
(T (W x00 x00 x00 x00 x00 x00 x00 x00)
(L (W xff xff xff xff x9c x00 x00 x00)) E)))))
(T (W x45 x26 x22 x84 xe4 x9c xf2 xcb)
(T (W x45 x26 x22 x84 xe4 x9c xf2 xcb)
(T (W x18 x00 x00 x00 x10 x00 x00 x00)
(T (W xb8 x00 x00 x00 xac x00 x00 x00)
(T (W xff xff xff xff xff xff xff xff)
(L (W x00 x00 x00 x00 x00 x00 x00 x00))
(L (W x49 xa1 x68 x4a xeb x5f xdd x3d)))
(T (W xff xff xff xff xff xff xff xff)
(L (W xff xff xff xff xff xff xff xff)) E))
(T (W x18 x00 x00 x00 x10 x00 x00 x00)
(T (W xcc x00 x00 x00 xc0 x00 x00 x00)
(L (W x00 x00 x80 xbf x00 x00 x80 xbf)) E)
(T (W xff xff xff xff xff xff xff xff)
(L (W x00 x00 x00 x00 x00 x00 x00 x00)) E)))
(T (W xaa x65 xfd xff x00 x00 x01 x01)
(T (W x9c xe3 xfa xff x3c x00 x00 x00)
(T (W xff xff xff xff xff xff xff xff)
(L (W x54 x00 x00 x00 x48 x00 x00 x00))
(L (W xff xff xff xff xff xff xff xff)))
(T (W x00 x00 x01 x01 xda x01 x00 x00)
(L (W x00 x00 x80 xbf x00 x00 x80 xbf)) E))
(T (W xff xff xff xff xff xff xff xff)
(T (W x68 x00 x00 x00 x5c x00 x00 x00)
(L (W x00 x00 x00 x00 x00 x00 x00 x00)) E)
(T (W x00 x00 x00 x00 x00 x00 x00 x00)
(L (W xbc x00 x00 x00 x1e x00 x00 x00)) E))))
(T (W x00 x00 x80 x3f x00 x00 x80 x3f)
(T (W x3e x00 x00 x00 x0c x00 x00 x00)
(T (W x00 x00 x80 x3f x00 x00 x80 x3f)
(T (W x00 x00 x00 x00 x22 x00 x00 x00)
(L (W xff xff xff xff x9c x00 x00 x00))
(L (W x00 x00 x80 xbf x00 x00 x80 xbf)))
(T (W x00 x00 x80 x3f x00 x00 x80 x3f)
(L (W x30 x32 x5f x43 x4c x45 x41 x52)) E))
(T (W xff xff xff xff xff xff xff xff)
(T (W x00 x00 x00 x00 x00 x00 x00 x00)
(L (W x03 x00 x00 x00 xd8 x00 x00 x00)) E)
(T (W x00 x00 x00 x00 x00 x00 x00 x00)
(L (W x00 x00 x00 x00 x00 x00 x00 x00)) E)))
(T (W xff xff xff xff xff xff xff xff)
(T (W x00 x00 x80 x3f x00 x00 x80 x3f)
(T (W x00 x00 x00 x00 x12 x00 x00 x00)
(L (W x45 x44 x00 x00 x00 x00 x00 x00))
(L (W x30 x32 x5f x43 x4c x45 x41 x52)))
(T (W xd0 x00 x00 x00 xc4 x00 x00 x00)
(L (W x03 x00 x00 x00 xd0 x00 x00 x00)) E))
(T (W xaa x85 xfe xff x00 x00 x01 x01)
(T (W x00 x00 x00 x00 x00 x00 x00 x00)
(L (W x42 x71 xfe xff x74 x00 x00 x00)) E)
(T (W x45 x26 x22 x84 xe4 x9c xf2 xcb)
(L (W xff xff xff xff xff xff xff xff)) E))))))))
(T (W xac x06 x00 x00 x90 x05 x00 x00)
(T (W x00 x00 x80 x3f x00 x00 x80 x3f)
(T (W x00 x00 x00 x00 x00 x00 x00 x00)
(T (W x54 x00 x00 x00 x48 x00 x00 x00)
(T (W xff xff xff xff x03 x00 x00 x00)
(T (W x00 x00 x00 x00 x00 x00 x00 x00)
(T (W x45 x26 x22 x84 xe4 x9c xf2 xcb)
(T (W xff xff xff xff xff xff xff xff)
(L (W x00 x00 x00 x00 x72 x7e xfd xff))
(L (W xff xff xff xff xff xff xff xff)))
(T (W xc2 x65 x2e x97 x85 x1f x59 x5f)
(L (W x00 x00 x80 xbf x00 x00 x80 xbf)) E))
(T (W x00 x00 x80 x3f x00 x00 x80 x3f)
(T (W x00 x00 x00 x00 x00 x00 x00 x00)
(L (W xff xff xff xff xff xff xff xff))
(L (W x00 x00 x62 x00 x7c x00 x08 x00)))
(T (W x00 x00 x00 x00 x18 x00 x1c x00)
(L (W x6c x00 x00 x00 x60 x00 x00 x00)) E)))
(T (W xff xff xff xff xff xff xff xff)
(T (W x00 x00 x00 x00 x02 x00 x00 x00)
(T (W x00 x00 x00 x00 x00 x00 x00 x00)
(L (W x00 x00 x00 x00 x00 x00 x00 x00))
(L (W x00 x00 x00 x00 x00 x00 x00 x00)))
(T (W x18 x01 x00 x00 x04 x00 x00 x00)
(L (W xff xff xff xff xff xff xff xff)) E))
(T (W x42 x37 xfb xff x74 x00 x00 x00)
(T (W x46 x53 x59 x53 x5f x4e x53 x5f)
(L (W x68 x00 x00 x00 x5c x00 x00 x00)) E)
(T (W x00 x00 x00 x00 x12 x00 x00 x00)
(L (W xd8 x00 x00 x00 xff xff xff xff)) E))))
(T (W x40 x00 x00 x00 x10 x00 x00 x00)
(T (W x00 x00 x80 x3f x00 x00 x80 x3f)
(T (W x00 x00 x00 x00 x00 x00 x00 x00)
(T (W xff xff xff xff xff xff xff xff)
(L (W x00 x00 x00 x00 x00 x00 x00 x00))
(L (W x00 x00 x00 x00 x00 x00 x00 x00)))
(T (W x45 x26 x22 x84 xe4 x9c xf2 xcb)
(L (W xff xff xff xff xb0 x00 x00 x00)) E))
(T (W xff xff xff xff xff xff xff xff)
(T (W x00 x00 x00 x00 x84 x1a xfc xff)
(L (W x00 x00 x00 x00 x00 x00 x00 x00)) E)
(T (W x00 x00 x00 x00 x00 x00 x00 x00)
(L (W xff xff xff xff xff xff xff xff)) E)))
(T (W xb8 x00 x00 x00 xac x00 x00 x00)
(T (W xff xff xff xff xff xff xff xff)
(T (W xcc x00 x00 x00 xc0 x00 x00 x00)
(L (W x00 x00 x00 x00 x00 x00 x00 x00))
(L (W x14 xdc xff xff x00 x01 x01 x01)))
(T (W xb0 x00 x00 x00 x64 x00 x00 x00)
(L (W x00 x00 x00 x00 x00 x00 x00 x00)) E))
(T (W xff xff xff xff xff xff xff xff)
(T (W x4f x84 x6f x8b xe8 xcb x63 xb7)
(L (W x00 x00 x00 x00 x72 x5e xfe xff)) E)
(T (W xff xff xff xff xff xff xff xff)
(L (W x00 x00 x80 xbf x00 x00 x80 xbf)) E)))))
(T (W xf2 xa8 xf9 xff x78 x00 x00 x00)
(T (W xff xff xff xff xff xff xff xff)
(T (W x00 x00 x00 x00 x00 x00 x00 x00)
(T (W x00 x00 x80 x3f x00 x00 x80 x3f)
(T (W x49 xa1 x68 x4a xeb x5f xdd x3d)
(L (W xff xff xff xff xff xff xff xff))
(L (W xff xff xff xff xff xff xff xff)))
(T (W xff xff xff xff xff xff xff xff)
(L (W x00 x00 x80 xbf x00 x00 x80 xbf)) E))
(T (W x00 x00 x00 x00 x00 x00 x00 x00)
(T (W x00 x00 x00 x00 x00 x00 x00 x00)
(L (W xf4 x06 x00 x00 xd8 x05 x00 x00)) E)
(T (W xff xff xff xff xff xff xff xff)
(L (W xbc x00 x00 x00 x1e x00 x00 x00)) E)))
(T (W xff xff xff xff x04 x00 x00 x00)
(T (W xff xff xff xff xff xff xff xff)
(T (W x00 x00 x80 x3f x00 x00 x80 x3f)
(L (W x30 x32 x5f x43 x4c x45 x41 x52))
(L (W x00 x00 x80 xbf x00 x00 x80 xbf)))
(T (W x00 x00 x00 x00 x00 x00 x00 x00)
(L (W x00 x00 x00 x00 x00 x00 x00 x00)) E))
(T (W x00 x00 x80 x3f x00 x00 x80 x3f)
(T (W x00 x00 x00 x00 x00 x00 x00 x00)
(L (W x14 x00 x00 x00 x17 x00 x00 x00)) E)
(T (W x00 x00 x80 xbf x00 x00 x80 xbf)
(L (W x00 x00 x00 x00 x00 x00 x00 x00)) E))))
(T (W x45 x26 x22 x84 xe4 x9c xf2 xcb)
(T (W xff xff xff xff xff xff xff xff)
(T (W x44 xb0 xfa xff x3c x00 x00 x00)
(T (W x00 x00 x80 x3f x00 x00 x80 x3f)
(L (W x00 x00 x00 x00 x00 x00 x00 x00))
(L (W x00 x00 x00 x00 x00 x00 x00 x00)))
(T (W x70 x5f x6c x65 x61 x64 x65 x72)
(L (W xff xff xff xff xb0 x00 x00 x00)) E))
(T (W x00 x00 x00 x00 x00 x00 x00 x00)
(T (W xff xff xff xff x9c x00 x00 x00)
(L (W x00 x00 x80 xbf x00 x00 x80 xbf)) E)
(T (W xff xff xff xff xff xff xff xff)
(L (W xff xff xff xff xff xff xff xff)) E)))
(T (W xff xff xff xff x03 x00 x00 x00)
(T (W xff xff xff xff xff xff xff xff)
(T (W xff xff xff xff xff xff xff xff)
(L (W x15 x00 x00 x00 x18 x00 x00 x00))
(L (W x14 xec xff xff x00 x01 x01 x01)))
(T (W xd6 x00 x00 x00 xff xff xff xff)
(L (W x45 x26 x22 x84 xe4 x9c xf2 xcb)) E))
(T (W x00 x00 x80 x3f x00 x00 x80 x3f)
(T (W x28 x00 x00 x00 x10 x00 x00 x00)
(L (W x00 x00 x00 x00 x00 x00 x00 x00)) E)
(T (W x9c x79 xfd xff x1a x00 x00 x00)
(L (W x6c x00 x00 x00 x60 x00 x00 x00)) E))))))
(T (W xff xff xff xff xff xff xff xff)
(T (W x00 x00 x01 x01 xc9 x00 x00 x00)
(T (W x45 x26 x22 x84 xe4 x9c xf2 xcb)
(T (W x00 x00 x00 x00 x00 x00 x00 x00)
(T (W x50 x00 x00 x00 x44 x00 x00 x00)
(T (W x00 x00 x00 x00 x00 x00 x00 x00)
(L (W x19 x00 x00 x00 x10 x00 x00 x00))
(L (W xff xff xff xff xff xff xff xff)))
(T (W xff xff xff xff xff xff xff xff)
(L (W x00 x00 x80 xbf x00 x00 x80 xbf)) E))
(T (W xff xff xff xff x03 x00 x00 x00)
(T (W x00 x00 x00 x00 x00 x00 x00 x00)
(L (W x00 x00 x00 x00 x00 x00 x00 x00))
(L (W x18 x00 x1c x00 x20 x00 x24 x00)))
(T (W x61 x6c x6c x68 x65 x6c x70 x5f)
(L (W x14 x04 xff xff x00 x01 x01 x01)) E)))
(T (W xff xff xff xff xff xff xff xff)
(T (W xff xff xff xff xff xff xff xff)
(T (W x45 x26 x22 x84 xe4 x9c xf2 xcb)
(L (W x34 x09 x00 x00 x20 x08 x00 x00))
(L (W x45 x26 x22 x84 xe4 x9c xf2 xcb)))
(T (W xff xff xff xff xff xff xff xff)
(L (W xff xff xff xff xff xff xff xff)) E))
(T (W x34 x01 x00 x00 x04 x00 x00 x00)
(T (W x00 x00 x00 x00 x00 x00 x00 x00)
(L (W x03 x00 x00 x00 xd8 x00 x00 x00)) E)
(T (W x45 x26 x22 x84 xe4 x9c xf2 xcb)
(L (W x00 x00 x00 x00 x00 x00 x00 x00)) E))))
(T (W x00 x00 x00 x00 x00 x00 x00 x00)
(T (W xff xff xff xff xff xff xff xff)
(T (W x00 x00 x00 x00 x00 x00 x00 x00)
(T (W x00 x00 x00 x00 x00 x00 x00 x00)
(L (W x00 x00 x80 xbf x00 x00 x80 xbf))
(L (W x44 x00 x00 x00 x00 x00 x80 xbf)))
(T (W x00 x00 x00 x00 x00 x00 x00 x00)
(L (W x18 x00 x00 x00 x10 x00 x00 x00)) E))
(T (W x45 x44 x00 x00 x00 x00 x00 x00)
(T (W x1c x00 x00 x00 xb0 x00 x00 x00)
(L (W x00 x00 x80 xbf x00 x00 x80 xbf)) E)
(T (W xc4 x00 x00 x00 x02 x00 x00 x00)
(L (W xff xff xff xff xff xff xff xff)) E)))
(T (W xc0 x00 x00 x00 xb4 x00 x00 x00)
(T (W xff xff xff xff xff xff xff xff)
(T (W xff xff xff xff x03 x00 x00 x00)
(L (W x00 x00 x80 xbf x00 x00 x80 xbf))
(L (W x00 x00 x80 xbf x00 x00 x80 xbf)))
(T (W x48 x0b x00 x00 x1c x0a x00 x00)
(L (W x00 x00 x80 xbf x00 x00 x80 xbf)) E))
(T (W x4f x84 x6f x8b xe8 xcb x63 xb7)
(T (W x00 x00 x80 x3f x00 x00 x80 x3f)
(L (W x00 x00 x00 x00 x00 x00 x00 x00)) E)
(T (W x00 x00 x00 x00 x72 x66 xfd xff)
(L (W x00 x00 x80 xbf x00 x00 x80 xbf)) E)))))
(T (W x00 x00 x00 x00 x00 x00 x00 x00)
(T (W x00 x00 x80 x3f x00 x00 x80 x3f)
(T (W x00 x00 x80 x3f x00 x00 x80 x3f)
(T (W x00 x00 x80 x3f x00 x00 x80 x3f)
(T (W x42 x8f xfb xff x74 x00 x00 x00)
(L (W xfa xf0 xff xff x00 x00 x01 x01))
(L (W x30 x32 x5f x43 x4c x45 x41 x52)))
(T (W x18 x00 x00 x00 x10 x00 x00 x00)
(L (W x42 x8f xfe xff x74 x00 x00 x00)) E))
(T (W x00 x00 x00 x00 x00 x00 x00 x00)
(T (W x54 x00 x00 x00 x48 x00 x00 x00)
(L (W x45 x44 x00 x00 x00 x00 x00 x00)) E)
(T (W x50 x00 x00 x00 x44 x00 x00 x00)
(L (W xff xff xff xff xff xff xff xff)) E)))
(T (W x18 x00 x00 x00 x10 x00 x00 x00)
(T (W xff xff xff xff xff xff xff xff)
(T (W x18 x00 x00 x00 x10 x00 x00 x00)
(L (W x00 x00 x00 x00 x00 x00 x00 x00))
(L (W x00 x00 x80 xbf x00 x00 x80 xbf)))
(T (W x14 xd4 xfc xff x00 x01 x01 x01)
(L (W x00 x00 x00 x00 x00 x00 x00 x00)) E))
(T (W xff xff xff xff x9c x00 x00 x00)
(T (W x00 x00 x80 x3f x00 x00 x80 x3f)
(L (W xff xff xff xff xff xff xff xff)) E)
(T (W x18 x00 x00 x00 x10 x00 x00 x00)
(L (W x45 x26 x22 x84 xe4 x9c xf2 xcb)) E))))
(T (W x00 x00 x80 x3f x00 x00 x80 x3f)
(T (W xff xff xff xff xff xff xff xff)
(T (W x00 x00 x00 x00 x00 x00 x00 x00)
(T (W xff xff xff xff xff xff xff xff)
(L (W x42 xaf xfd xff x74 x00 x00 x00))
(L (W x00 x00 x00 x00 x00 x00 x00 x00)))
(T (W x00 x00 x00 x00 x00 x00 x00 x00)
(L (W xb0 x00 x00 x00 x64 x00 x00 x00)) E))
(T (W x00 x00 x80 x3f x00 x00 x80 x3f)
(T (W xff xff xff xff xff xff xff xff)
(L (W x54 x00 x00 x00 x48 x00 x00 x00)) E)
(T (W x04 x00 x00 x00 xe2 x31 xfd xff)
(L (W xff xff xff xff xff xff xff xff)) E)))
(T (W x00 x00 x00 x00 x84 x72 xfa xff)
(T (W x00 x00 x00 x00 x00 x00 x00 x00)
(T (W x4a x00 x00 x00 xff xff xff xff)
(L (W xff xff xff xff xff xff xff xff))
(L (W xff xff xff xff xff xff xff xff)))
(T (W x00 x00 x80 x3f x00 x00 x80 x3f)
(L (W x54 x00 x00 x00 x48 x00 x00 x00)) E))
(T (W xff xff xff xff xff xff xff xff)
(T (W xff xff xff xff xff xff xff xff)
(L (W x00 x00 x80 xbf x00 x00 x80 xbf)) E)
(T (W xc8 x00 x00 x00 x01 x00 x00 x00)
(L (W xff xff xff xff xa0 x00 x00 x00)) E)))))))
(T (W xff xff xff xff xff xff xff xff)
(T (W x00 x00 x80 x3f x00 x00 x80 x3f)
(T (W xbc x00 x00 x00 xb0 x00 x00 x00)
(T (W x00 x00 x00 x00 x32 x59 xfd xff)
(T (W xff xff xff xff xff xff xff xff)
(T (W x00 x00 x00 x00 x00 x00 x00 x00)
(T (W x14 x80 xfb xff x00 x01 x01 x01)
(L (W xf2 x7c xfd xff x78 x00 x00 x00))
(L (W x00 x00 x00 x00 x00 x00 x00 x00)))
(T (W x00 x00 x80 x3f x00 x00 x80 x3f)
(L (W x04 x00 x00 x00 x02 x84 xfe xff)) E))
(T (W x00 x00 x00 x00 x00 x00 x00 x00)
(T (W x45 x26 x22 x84 xe4 x9c xf2 xcb)
(L (W x00 x00 x80 xbf x00 x00 x80 xbf))
(L (W xf2 xfc xff xff x78 x00 x00 x00)))
(T (W x61 x6c x6c x68 x65 x6c x70 x5f)
(L (W xff xff xff xff xff xff xff xff)) E)))
(T (W x00 x00 x80 x3f x00 x00 x80 x3f)
(T (W x50 x00 x00 x00 x44 x00 x00 x00)
(T (W xff xff xff xff xff xff xff xff)
(L (W x45 x26 x22 x84 xe4 x9c xf2 xcb))
(L (W xff xff xff xff xff xff xff xff)))
(T (W x00 x00 x80 x3f x00 x00 x80 x3f)
(L (W x00 x00 x80 xbf x00 x00 x80 xbf)) E))
(T (W x00 x00 x00 x00 x00 x00 x00 x00)
(T (W x25 x00 x00 x00 xb0 x00 x00 x00)
(L (W x00 x00 x00 x00 x12 x00 x00 x00)) E)
(T (W xff xff xff xff xff xff xff xff)
(L (W x14 x40 xff xff x00 x01 x01 x01)) E))))
(T (W x18 x00 x00 x00 x10 x00 x00 x00)
(T (W x00 x00 x80 x3f x00 x00 x80 x3f)
(T (W x14 xa0 xfa xff x00 x01 x01 x01)
(T (W x00 x00 x80 x3f x00 x00 x80 x3f)
(L (W x45 x26 x22 x84 xe4 x9c xf2 xcb))
(L (W xff xff xff xff xff xff xff xff)))
(T (W x00 x00 x00 x00 x00 x00 x00 x00)
(L (W x00 x00 x00 x00 x00 x00 x00 x00)) E))
(T (W x50 x00 x00 x00 x44 x00 x00 x00)
(T (W x46 x53 x59 x53 x5f x4e x53 x5f)
(L (W xff xff xff xff xff xff xff xff)) E)
(T (W x49 xa1 x68 x4a xeb x5f xdd x3d)
(L (W x00 x00 x80 xbf x00 x00 x80 xbf)) E)))
(T (W x00 x00 x00 x00 x00 x00 x00 x00)
(T (W x45 x26 x22 x84 xe4 x9c xf2 xcb)
(T (W x00 x00 x80 x3f x00 x00 x80 x3f)
(L (W xff xff xff xff xff xff xff xff))
(L (W x00 x00 x00 x00 x02 xe4 xff xff)))
(T (W x00 x00 x80 x3f x00 x00 x80 x3f)
(L (W xff xff xff xff xc8 x00 x00 x00)) E))
(T (W x00 x00 x00 x00 x84 x5e xfb xff)
(T (W x4a x00 x00 x00 xff xff xff xff)
(L (W x18 x00 x00 x00 x0c x00 x00 x00)) E)
(T (W x00 x00 x80 xbf x00 x00 x80 xbf)
(L (W x00 x00 x00 x00 xe2 x5d xff xff)) E)))))
(T (W xff xff xff xff xff xff xff xff)
(T (W x00 x00 x00 x00 x00 x00 x00 x00)
(T (W xbc x00 x00 x00 xb0 x00 x00 x00)
(T (W x00 x00 x00 x00 x04 x00 x00 x00)
(T (W xa2 x95 xfe xff x00 x00 x01 x01)
(L (W x00 x00 x80 xbf x00 x00 x80 xbf))
(L (W x00 x00 x80 xbf x00 x00 x80 xbf)))
(T (W x00 x00 x00 x00 x00 x00 x00 x00)
(L (W x00 x00 x00 x00 x00 x00 x00 x00)) E))
(T (W x14 x10 xfb xff x00 x01 x01 x01)
(T (W xff xff xff xff xff xff xff xff)
(L (W x45 x26 x22 x84 xe4 x9c xf2 xcb)) E)
(T (W x00 x00 x80 xbf x00 x00 x80 xbf)
(L (W x00 x00 x00 x00 x12 x00 x00 x00)) E)))
(T (W x00 x00 x00 x00 x00 x00 x00 x00)
(T (W x00 x00 x80 x3f x00 x00 x80 x3f)
(T (W x00 x00 x00 x00 x00 x00 x00 x00)
(L (W xf2 xcc xfd xff x78 x00 x00 x00))
(L (W xff xff xff xff xff xff xff xff)))
(T (W x62 x00 x00 x00 x9d x00 x00 x00)
(L (W x00 x00 x00 x00 x84 xce xfe xff)) E))
(T (W xdc x05 x00 x00 xb4 x04 x00 x00)
(T (W xff xff xff xff xff xff xff xff)
(L (W x00 x00 x80 xbf x00 x00 x80 xbf)) E)
(T (W xff xff xff xff xff xff xff xff)
(L (W xff xff xff xff xff xff xff xff)) E))))
(T (W xff xff xff xff x04 x00 x00 x00)
(T (W x00 x00 x80 x3f x00 x00 x80 x3f)
(T (W x00 x00 x80 x3f x00 x00 x80 x3f)
(T (W x46 x53 x59 x53 x5f x4e x53 x5f)
(L (W x00 x00 x80 xbf x00 x00 x80 xbf))
(L (W x45 x26 x22 x84 xe4 x9c xf2 xcb)))
(T (W x00 x00 x00 x00 x84 xae xfc xff)
(L (W x45 x26 x22 x84 xe4 x9c xf2 xcb)) E))
(T (W xff xff xff xff xff xff xff xff)
(T (W x00 x00 x80 x3f x00 x00 x80 x3f)
(L (W x45 x44 x00 x00 x00 x00 x00 x00)) E)
(T (W x00 x00 x80 xbf x00 x00 x80 xbf)
(L (W x00 x00 x80 xbf x00 x00 x80 xbf)) E)))
(T (W x3e x00 x00 x00 x0c x00 x00 x00)
(T (W x00 x00 x00 x00 x00 x00 x00 x00)
(T (W x00 x00 x80 x3f x00 x00 x80 x3f)
(L (W x00 x00 x00 x00 x00 x00 x00 x00))
(L (W x00 x00 x00 x00 x00 x00 x00 x00)))
(T (W x00 x00 x80 x3f x00 x00 x80 x3f)
(L (W x00 x00 x00 x00 x00 x00 x00 x00)) E))
(T (W x9f x01 x00 x00 xff xff xff xff)
(T (W x00 x00 x80 x3f x00 x00 x80 x3f)
(L (W xff xff xff xff xff xff xff xff)) E)
(T (W x45 x26 x22 x84 xe4 x9c xf2 xcb)
(L (W x9c x7d xff xff x15 x00 x00 x00)) E))))))
(T (W x00 x00 x00 x00 x00 x00 x00 x00)
(T (W x45 x26 x22 x84 xe4 x9c xf2 xcb)
(T (W x00 x00 x00 x00 x84 xc6 xf9 xff)
(T (W x64 x00 x00 x00 x9c x00 x00 x00)
(T (W x00 x00 x00 x00 x00 x00 x00 x00)
(T (W x45 x26 x22 x84 xe4 x9c xf2 xcb)
(L (W x00 x00 x80 xbf x00 x00 x80 xbf))
(L (W x00 x00 x80 xbf x00 x00 x80 xbf)))
(T (W x00 x00 x80 x3f x00 x00 x80 x3f)
(L (W x00 x00 x00 x00 x00 x00 x00 x00)) E))
(T (W x00 x00 x80 x3f x00 x00 x80 x3f)
(T (W xff xff xff xff x03 x00 x00 x00)
(L (W x00 x00 x80 xbf x00 x00 x80 xbf)) E)
(T (W x20 x59 x6c x12 x83 xee x3a xc6)
(L (W x00 x00 x00 x00 x00 x00 x00 x00)) E)))
(T (W x00 x00 x80 x3f x00 x00 x80 x3f)
(T (W x68 x00 x00 x00 x5c x00 x00 x00)
(T (W x00 x00 x00 x00 x72 xca xfb xff)
(L (W x18 x00 x00 x00 x10 x00 x00 x00))
(L (W xff xff xff xff xff xff xff xff)))
(T (W x00 x00 x80 x3f x00 x00 x80 x3f)
(L (W x00 x00 x80 xbf x00 x00 x80 xbf)) E))
(T (W x00 x00 x00 x00 x84 x46 xfb xff)
(T (W x18 x00 x00 x00 x10 x00 x00 x00)
(L (W x00 x00 x00 x00 x00 x00 x00 x00)) E)
(T (W xff xff xff xff xff xff xff xff)
(L (W xff xff xff xff xc8 x00 x00 x00)) E))))
(T (W xff xff xff xff xff xff xff xff)
(T (W x00 x00 x80 x3f x00 x00 x80 x3f)
(T (W x50 x00 x00 x00 x44 x00 x00 x00)
(T (W xff xff xff xff xff xff xff xff)
(L (W xff xff xff xff xff xff xff xff))
(L (W x00 x00 x80 xbf x00 x00 x80 xbf)))
(T (W x14 xa8 xfc xff x00 x01 x01 x01)
(L (W x4f x84 x6f x8b xe8 xcb x63 xb7)) E))
(T (W x14 x28 xfb xff x00 x01 x01 x01)
(T (W x00 x00 x00 x00 x00 x00 x00 x00)
(L (W xff xff xff xff xff xff xff xff)) E)
(T (W x00 x00 x00 x00 x00 x00 x00 x00)
(L (W x00 x00 x80 xbf x00 x00 x80 xbf)) E)))
(T (W x00 x00 x00 x00 x00 x00 x00 x00)
(T (W x00 x00 x00 x00 x00 x00 x00 x00)
(T (W x00 x00 x80 x3f x00 x00 x80 x3f)
(L (W xff xff xff xff xff xff xff xff))
(L (W x46 x53 x59 x53 x5f x4e x53 x5f)))
(T (W x70 x5f x6c x65 x61 x64 x65 x72)
(L (W xff xff xff xff xff xff xff xff)) E))
(T (W xff xff xff xff xff xff xff xff)
(T (W x45 x26 x22 x84 xe4 x9c xf2 xcb)
(L (W xff xff xff xff xc8 x00 x00 x00)) E)
(T (W x54 x00 x00 x00 x48 x00 x00 x00)
(L (W x30 x32 x5f x43 x4c x45 x41 x52)) E)))))
(T (W x00 x00 x80 x3f x00 x00 x80 x3f)
(T (W xff xff xff xff xff xff xff xff)
(T (W x18 x01 x00 x00 x04 x00 x00 x00)
(T (W x0c x00 x00 x00 x00 x00 x10 x00)
(T (W x46 x53 x59 x53 x5f x4e x53 x5f)
(L (W x68 x00 x00 x00 x5c x00 x00 x00))
(L (W xcc x00 x00 x00 x01 x00 x00 x00)))
(T (W x00 x00 x00 x00 x00 x00 x00 x00)
(L (W x30 x32 x5f x43 x4c x45 x41 x52)) E))
(T (W x49 xa1 x68 x4a xeb x5f xdd x3d)
(T (W xff xff xff xff xff xff xff xff)
(L (W xcc x00 x00 x00 x02 x00 x00 x00)) E)
(T (W x00 x00 x00 x00 x00 x00 x00 x00)
(L (W x00 x00 x80 xbf x00 x00 x80 xbf)) E)))
(T (W x45 x26 x22 x84 xe4 x9c xf2 xcb)
(T (W x00 x00 x80 x3f x00 x00 x80 x3f)
(T (W x00 x00 x00 x00 x00 x00 x00 x00)
(L (W xff xff xff xff xc8 x00 x00 x00))
(L (W x00 x00 x00 x00 x22 xd4 xff xff)))
(T (W x00 x00 x00 x00 x00 x00 x00 x00)
(L (W xbc x00 x00 x00 x64 x00 x00 x00)) E))
(T (W x00 x00 x80 x3f x00 x00 x80 x3f)
(T (W xff xff xff xff xff xff xff xff)
(L (W x54 x00 x00 x00 x48 x00 x00 x00)) E)
(T (W x00 x00 x00 x00 x00 x00 x00 x00)
(L (W xff xff xff xff xff xff xff xff)) E))))
(T (W x64 x00 x00 x00 x9c x00 x00 x00)
(T (W x00 x00 x80 x3f x00 x00 x80 x3f)
(T (W x00 x00 x80 x3f x00 x00 x80 x3f)
(T (W x00 x00 x80 x3f x00 x00 x80 x3f)
(L (W xff xff xff xff xff xff xff xff))
(L (W x18 x00 x00 x00 x10 x00 x00 x00)))
(T (W x42 xb3 xfc xff x74 x00 x00 x00)
(L (W x00 x00 x80 xbf x00 x00 x80 xbf)) E))
(T (W x22 x00 x00 x00 x67 x72 x6f x75)
(T (W x00 x00 x00 x00 x84 x36 xfc xff)
(L (W x1c x00 x00 x00 x0c x00 x00 x00)) E)
(T (W x68 x00 x00 x00 x5c x00 x00 x00)
(L (W x6c x00 x00 x00 x60 x00 x00 x00)) E)))
(T (W x00 x00 x00 x00 x00 x00 x00 x00)
(T (W x50 x00 x00 x00 x44 x00 x00 x00)
(T (W x18 x00 x00 x00 x0c x00 x00 x00)
(L (W x49 xa1 x68 x4a xeb x5f xdd x3d))
(L (W x00 x00 x80 xbf x00 x00 x80 xbf)))
(T (W xff xff xff xff xff xff xff xff)
(L (W x08 x00 x00 x00 xf0 x07 x00 x00)) E))
(T (W x00 x00 x00 x00 x00 x00 x00 x00)
(T (W x45 x26 x22 x84 xe4 x9c xf2 xcb)
(L (W x00 x00 x00 x00 x72 x7a xfe xff)) E)
(T (W xf2 x74 xfd xff x78 x00 x00 x00)
(L (W x00 x00 x00 x00 x12 x00 x00 x00)) E)))))))))
(T (W x80 x23 x02 x00 x24 x21 x02 x00)
(T (W xf8 xa5 x00 x00 xc4 xa4 x00 x00)
(T (W x00 x00 x80 x3f x00 x00 x80 x3f)
(T (W x00 x00 x00 x00 x00 x00 x00 x00)
(T (W x00 x00 x80 x3f x00 x00 x80 x3f)
(T (W x18 x00 x00 x00 x10 x00 x00 x00)
(T (W x40 x00 x00 x00 x0c x00 x00 x00)
(T (W x00 x00 x80 x3f x00 x00 x80 x3f)
(T (W xff xff xff xff xff xff xff xff)
(L (W xff xff xff xff xff xff xff xff))
(L (W x19 x00 x00 x00 x1c x00 x00 x00)))
(T (W xff xff xff xff xff xff xff xff)
(L (W x45 x26 x22 x84 xe4 x9c xf2 xcb)) E))
(T (W x00 x00 x10 x00 x14 x00 x18 x00)
(T (W x4a x00 x00 x00 xff xff xff xff)
(L (W x18 x00 x00 x00 x10 x00 x00 x00))
(L (W xff xff xff xff xa0 x00 x00 x00)))
(T (W xff xff xff xff xff xff xff xff)
(L (W x00 x00 x80 xbf x00 x00 x80 xbf)) E)))
(T (W xff xff xff xff x04 x00 x00 x00)
(T (W xff xff xff xff xff xff xff xff)
(T (W xff xff xff xff x01 x00 x00 x00)
(L (W xff xff xff xff x07 x00 x00 x00))
(L (W x00 x00 x00 x00 x00 x00 x00 x00)))
(T (W xff xff xff xff xff xff xff xff)
(L (W xb8 x00 x00 x00 x64 x00 x00 x00)) E))
(T (W x00 x00 x80 x3f x00 x00 x80 x3f)
(T (W xa2 x40 xff xff x00 x00 x01 x01)
(L (W x00 x00 x80 xbf x00 x00 x80 xbf)) E)
(T (W x02 x00 x00 x00 x30 x01 x00 x00)
(L (W xff xff xff xff xff xff xff xff)) E))))
(T (W xff xff xff xff xff xff xff xff)
(T (W x45 x26 x22 x84 xe4 x9c xf2 xcb)
(T (W x00 x00 x00 x00 x00 x00 x00 x00)
(T (W x18 x00 x00 x00 x10 x00 x00 x00)
(L (W x08 x00 x00 x00 xff xff xff xff))
(L (W x45 x44 x00 x00 x00 x00 x00 x00)))
(T (W x00 x00 x80 x3f x00 x00 x80 x3f)
(L (W xf2 x97 xfe xff x78 x00 x00 x00)) E))
(T (W x18 x00 x00 x00 x10 x00 x00 x00)
(T (W x00 x00 x80 x3f x00 x00 x80 x3f)
(L (W x30 x32 x5f x43 x4c x45 x41 x52)) E)
(T (W x1e x00 x00 x00 x10 x00 x00 x00)
(L (W x03 x00 x00 x00 xd8 x00 x00 x00)) E)))
(T (W x18 x00 x00 x00 x10 x00 x00 x00)
(T (W xff xff xff xff xff xff xff xff)
(T (W x18 x00 x00 x00 x10 x00 x00 x00)
(L (W x00 x00 x00 x00 x00 x00 x00 x00))
(L (W x45 x26 x22 x84 xe4 x9c xf2 xcb)))
(T (W x14 xdb xfc xff x00 x01 x01 x01)
(L (W x00 x00 x00 x00 x22 xd7 xfe xff)) E))
(T (W xff xff xff xff xff xff xff xff)
(T (W x00 x00 x00 x00 x00 x00 x00 x00)
(L (W xff xff xff xff xff xff xff xff)) E)
(T (W xbc x00 x00 x00 x28 x00 x00 x00)
(L (W x45 x26 x22 x84 xe4 x9c xf2 xcb)) E)))))
(T (W x54 x00 x00 x00 x48 x00 x00 x00)
(T (W xff xff xff xff xff xff xff xff)
(T (W x00 x00 x00 x00 x00 x00 x00 x00)
(T (W x00 x00 x00 x00 x00 x00 x00 x00)
(T (W x00 x00 x00 x00 x00 x00 x00 x00)
(L (W xff xff xff xff xff xff xff xff))
(L (W xff xff xff xff xff xff xff xff)))
(T (W x18 x00 x00 x00 x10 x00 x00 x00)
(L (W x00 x00 x80 xbf x00 x00 x80 xbf)) E))
(T (W xff xff xff xff xff xff xff xff)
(T (W x00 x00 x00 x00 x12 x00 x00 x00)
(L (W xff xff xff xff xff xff xff xff)) E)
(T (W x42 x06 xfd xff x74 x00 x00 x00)
(L (W x14 x0b xff xff x00 x01 x01 x01)) E)))
(T (W x42 x46 xfa xff x74 x00 x00 x00)
(T (W x64 x00 x00 x00 x9c x00 x00 x00)
(T (W x45 x26 x22 x84 xe4 x9c xf2 xcb)
(L (W x00 x00 x01 x01 x83 x01 x00 x00))
(L (W x00 x00 x00 x00 x00 x00 x00 x00)))
(T (W xff xff xff xff xff xff xff xff)
(L (W x00 x00 x00 x00 x00 x00 x00 x00)) E))
(T (W x5f x77 x69 x6c x64 x5f x70 x6f)
(T (W x00 x00 x00 x00 x00 x00 x00 x00)
(L (W xf2 x47 xfe xff x78 x00 x00 x00)) E)
(T (W x00 x00 x00 x00 x00 x00 x00 x00)
(L (W x00 x00 x00 x00 x00 x00 x00 x00)) E))))
(T (W x00 x00 x00 x00 x00 x00 x00 x00)
(T (W xff xff xff xff xff xff xff xff)
(T (W xff xff xff xff xff xff xff xff)
(T (W x00 x00 x80 x3f x00 x00 x80 x3f)
(L (W x00 x00 x00 x00 x00 x00 x00 x00))
(L (W x94 x04 x00 x00 x80 x03 x00 x00)))
(T (W xff xff xff xff xff xff xff xff)
(L (W x00 x00 x00 x00 x84 xa9 xfe xff)) E))
(T (W x45 x44 x00 x00 x00 x00 x00 x00)
(T (W xf2 x27 xfc xff x78 x00 x00 x00)
(L (W x4f x84 x6f x8b xe8 xcb x63 xb7)) E)
(T (W xff xff xff xff xff xff xff xff)
(L (W xc4 x00 x00 x00 x02 x00 x00 x00)) E)))
(T (W x50 x00 x00 x00 x44 x00 x00 x00)
(T (W x45 x26 x22 x84 xe4 x9c xf2 xcb)
(T (W xb0 x00 x00 x00 x64 x00 x00 x00)
(L (W x00 x00 x00 x00 x84 xe9 xfd xff))
(L (W x00 x00 x80 xbf x00 x00 x80 xbf)))
(T (W xd0 x00 x00 x00 xac x00 x00 x00)
(L (W x00 x00 x00 x00 x00 x00 x00 x00)) E))
(T (W x49 xa1 x68 x4a xeb x5f xdd x3d)
(T (W xff xff xff xff xff xff xff xff)
(L (W x00 x00 x00 x00 x00 x00 x00 x00)) E)
(T (W xff xff xff xff xff xff xff xff)
(L (W x00 x00 x80 xbf x00 x00 x80 xbf)) E))))))
(T (W xff xff xff xff x04 x00 x00 x00)
(T (W xff xff xff xff xff xff xff xff)
(T (W x00 x00 x00 x00 x00 x00 x00 x00)
(T (W x00 x00 x00 x00 x00 x00 x00 x00)
(T (W x00 x00 x80 x3f x00 x00 x80 x3f)
(T (W x30 x32 x5f x43 x4c x45 x41 x52)
(L (W xff xff xff xff xff xff xff xff))
(L (W xc4 x00 x00 x00 x02 x00 x00 x00)))
(T (W xff xff xff xff xff xff xff xff)
(L (W x00 x00 x80 xbf x00 x00 x80 xbf)) E))
(T (W x68 x00 x00 x00 x5c x00 x00 x00)
(T (W x00 x00 x00 x00 x00 x00 x00 x00)
(L (W xff xff xff xff xff xff xff xff))
(L (W x08 x00 x09 x00 x0c x00 x00 x00)))
(T (W xff xff xff xff xff xff xff xff)
(L (W x00 x00 x80 xbf x00 x00 x80 xbf)) E)))
(T (W x18 x00 x00 x00 x0c x00 x00 x00)
(T (W xff xff xff xff xff xff xff xff)
(T (W x00 x00 x00 x00 x00 x00 x00 x00)
(L (W xff xff xff xff xff xff xff xff))
(L (W x00 x00 x00 x00 x12 x00 x00 x00)))
(T (W xff xff xff xff xff xff xff xff)
(L (W xff xff xff xff xff xff xff xff)) E))
(T (W xff xff xff xff x9c x00 x00 x00)
(T (W x00 x00 x00 x00 x22 x3f xfc xff)
(L (W x00 x00 x80 xbf x00 x00 x80 xbf)) E)
(T (W x00 x00 x00 x00 x00 x00 x00 x00)
(L (W xff xff xff xff xff xff xff xff)) E))))
(T (W x00 x00 x00 x00 x00 x00 x00 x00)
(T (W xff xff xff xff xff xff xff xff)
(T (W x00 x00 x00 x00 x04 x00 x00 x00)
(T (W x13 x00 x00 x00 x0c x00 x00 x00)
(L (W x00 x00 x00 x00 x00 x00 x62 x00))
(L (W x00 x00 x00 x00 x00 x00 x00 x00)))
(T (W x00 x00 x00 x00 x02 x00 x00 x00)
(L (W x6c x00 x00 x00 x60 x00 x00 x00)) E))
(T (W xff xff xff xff xff xff xff xff)
(T (W x00 x00 x80 x3f x00 x00 x80 x3f)
(L (W x00 x00 x00 x00 x00 x00 x00 x00)) E)
(T (W x68 x00 x00 x00 x5c x00 x00 x00)
(L (W xff xff xff xff xff xff xff xff)) E)))
(T (W x40 x00 x00 x00 x9c x00 x00 x00)
(T (W xff xff xff xff xff xff xff xff)
(T (W x45 x26 x22 x84 xe4 x9c xf2 xcb)
(L (W x00 x00 x00 x00 x00 x00 x00 x00))
(L (W x00 x00 x80 xbf x00 x00 x80 xbf)))
(T (W xff xff xff xff x9c x00 x00 x00)
(L (W x00 x00 x00 x00 x00 x00 x00 x00)) E))
(T (W x18 x00 x00 x00 x10 x00 x00 x00)
(T (W x00 x00 x80 x3f x00 x00 x80 x3f)
(L (W x00 x00 x00 x00 x22 x5f xfe xff)) E)
(T (W xff xff xff xff xff xff xff xff)
(L (W x00 x00 x80 xbf x00 x00 x80 xbf)) E)))))
(T (W x00 x00 x00 x00 x00 x00 x00 x00)
(T (W x00 x00 x80 x3f x00 x00 x80 x3f)
(T (W x45 x26 x22 x84 xe4 x9c xf2 xcb)
(T (W x45 x26 x22 x84 xe4 x9c xf2 xcb)
(T (W x00 x00 x80 x3f x00 x00 x80 x3f)
(L (W xff xff xff xff xff xff xff xff))
(L (W x00 x00 x01 x01 x5c x00 x00 x00)))
(T (W x45 x26 x22 x84 xe4 x9c xf2 xcb)
(L (W x00 x00 x80 xbf x00 x00 x80 xbf)) E))
(T (W x00 x00 x00 x00 x00 x00 x00 x00)
(T (W x00 x00 x00 x00 x00 x00 x00 x00)
(L (W xff xff xff xff xff xff xff xff)) E)
(T (W x45 x26 x22 x84 xe4 x9c xf2 xcb)
(L (W x68 x00 x00 x00 x5c x00 x00 x00)) E)))
(T (W x45 x26 x22 x84 xe4 x9c xf2 xcb)
(T (W xff xff xff xff x03 x00 x00 x00)
(T (W x54 x00 x00 x00 x48 x00 x00 x00)
(L (W x46 x53 x59 x53 x5f x4e x53 x5f))
(L (W x00 x00 x00 x00 x00 x00 x00 x00)))
(T (W x45 x26 x22 x84 xe4 x9c xf2 xcb)
(L (W x30 x32 x5f x43 x4c x45 x41 x52)) E))
(T (W x6c x00 x00 x00 x60 x00 x00 x00)
(T (W x00 x00 x00 x00 x00 x00 x00 x00)
(L (W xff xff xff xff xc8 x00 x00 x00)) E)
(T (W x6c x00 x00 x00 x60 x00 x00 x00)
(L (W x00 x00 x00 x00 x00 x00 x00 x00)) E))))
(T (W x00 x00 x00 x00 x00 x00 x00 x00)
(T (W xff xff xff xff xff xff xff xff)
(T (W xd0 x01 x00 x00 xff xff xff xff)
(T (W x42 xae xfb xff x74 x00 x00 x00)
(L (W x50 x00 x00 x00 x44 x00 x00 x00))
(L (W x46 x53 x59 x53 x5f x4e x53 x5f)))
(T (W x18 x01 x00 x00 x04 x00 x00 x00)
(L (W x14 xb3 xfe xff x00 x01 x01 x01)) E))
(T (W x00 x00 x80 x3f x00 x00 x80 x3f)
(T (W xff xff xff xff x9c x00 x00 x00)
(L (W x00 x00 x80 xbf x00 x00 x80 xbf)) E)
(T (W xff xff xff xff xff xff xff xff)
(L (W xff xff xff xff xff xff xff xff)) E)))
(T (W x6c x00 x00 x00 x60 x00 x00 x00)
(T (W x18 x00 x00 x00 x0c x00 x00 x00)
(T (W xff xff xff xff xff xff xff xff)
(L (W x29 x00 x00 x00 x2c x00 x00 x00))
(L (W xcc x00 x00 x00 x01 x00 x00 x00)))
(T (W x00 x00 x00 x00 x00 x00 x00 x00)
(L (W x00 x00 x80 xbf x00 x00 x80 xbf)) E))
(T (W x00 x00 x00 x00 x84 x71 xfb xff)
(T (W xff xff xff xff xff xff xff xff)
(L (W x00 x00 x00 x00 x00 x00 x00 x00)) E)
(T (W x44 x77 xfd xff x11 x00 x00 x00)
(L (W xf2 x6f xff xff x78 x00 x00 x00)) E)))))))
(T (W xbc x00 x00 x00 xb0 x00 x00 x00)
(T (W x00 x00 x80 x3f x00 x00 x80 x3f)
(T (W xf4 x2d x00 x00 xe0 x2c x00 x00)
(T (W x0d x00 x00 x00 xff xff xff xff)
(T (W x00 x00 x00 x00 x84 xfd xf9 xff)
(T (W x1a x83 xfd xff xdd x00 x00 x00)
(T (W x45 x26 x22 x84 xe4 x9c xf2 xcb)
(L (W x45 x26 x22 x84 xe4 x9c xf2 xcb))
(L (W x30 x32 x5f x43 x4c x45 x41 x52)))
(T (W x00 x00 x80 x3f x00 x00 x80 x3f)
(L (W xff xff xff xff xff xff xff xff)) E))
(T (W x04 x00 x00 x00 x7c x03 x00 x00)
(T (W x54 x00 x00 x00 x48 x00 x00 x00)
(L (W x00 x00 x00 x00 x00 x00 x00 x00))
(L (W x00 x00 x00 x00 x00 x00 x00 x00)))
(T (W xff xff xff xff xff xff xff xff)
(L (W xff xff xff xff xff xff xff xff)) E)))
(T (W x00 x00 x80 x3f x00 x00 x80 x3f)
(T (W x00 x00 x80 x3f x00 x00 x80 x3f)
(T (W xf2 xbb xfb xff x78 x00 x00 x00)
(L (W x00 x00 x00 x00 x00 x00 x00 x00))
(L (W xbc x00 x00 x00 x1e x00 x00 x00)))
(T (W x00 x00 x80 x3f x00 x00 x80 x3f)
(L (W x00 x00 x00 x00 x00 x00 x00 x00)) E))
(T (W x00 x00 x00 x00 x22 x00 x00 x00)
(T (W x00 x00 x80 x3f x00 x00 x80 x3f)
(L (W x00 x00 x00 x00 x00 x00 x00 x00)) E)
(T (W x42 x3a xfd xff x74 x00 x00 x00)
(L (W x54 x00 x00 x00 x48 x00 x00 x00)) E))))
(T (W x14 xdf xf9 xff x00 x01 x01 x01)
(T (W x6c x76 x31 x5f x74 x6f x5f x63)
(T (W x00 x00 x80 x3f x00 x00 x80 x3f)
(T (W x00 x00 x80 x3f x00 x00 x80 x3f)
(L (W x00 x00 x80 xbf x00 x00 x80 xbf))
(L (W xff xff xff xff xb0 x00 x00 x00)))
(T (W x00 x00 x00 x00 x00 x00 x00 x00)
(L (W x00 x00 x00 x00 x00 x00 x00 x00)) E))
(T (W x00 x00 x80 x3f x00 x00 x80 x3f)
(T (W xa2 x24 xff xff x00 x00 x01 x01)
(L (W xcc x00 x00 x00 x01 x00 x00 x00)) E)
(T (W x00 x00 x00 x00 x00 x00 x00 x00)
(L (W x00 x00 x00 x00 x00 x00 x00 x00)) E)))
(T (W x3e x00 x00 x00 x0c x00 x00 x00)
(T (W x00 x00 x00 x00 x00 x00 x00 x00)
(T (W x00 x00 x00 x00 x00 x00 x00 x00)
(L (W xb4 x00 x00 x00 x50 x00 x00 x00))
(L (W xff xff xff xff xff xff xff xff)))
(T (W x00 x00 x00 x00 x00 x00 x00 x00)
(L (W x45 x26 x22 x84 xe4 x9c xf2 xcb)) E))
(T (W x00 x00 x80 x3f x00 x00 x80 x3f)
(T (W xff xff xff xff xff xff xff xff)
(L (W x00 x00 x80 xbf x00 x00 x80 xbf)) E)
(T (W x4f x84 x6f x8b xe8 xcb x63 xb7)
(L (W xff xff xff xff xff xff xff xff)) E)))))
(T (W xff xff xff xff xff xff xff xff)
(T (W x00 x00 x00 x00 x00 x00 x00 x00)
(T (W x50 x00 x00 x00 x44 x00 x00 x00)
(T (W xff xff xff xff xff xff xff xff)
(T (W x18 x00 x00 x00 x10 x00 x00 x00)
(L (W x49 xa1 x68 x4a xeb x5f xdd x3d))
(L (W x00 x00 x80 xbf x00 x00 x80 xbf)))
(T (W x00 x00 x00 x00 x00 x00 x00 x00)
(L (W x00 x00 x00 x00 x72 x91 xfe xff)) E))
(T (W x68 x00 x00 x00 x5c x00 x00 x00)
(T (W xcc x00 x00 x00 xc0 x00 x00 x00)
(L (W x00 x00 x80 xbf x00 x00 x80 xbf)) E)
(T (W x00 x00 x00 x00 x00 x00 x00 x00)
(L (W x00 x00 x00 x00 x02 x13 xff xff)) E)))
(T (W x00 x00 x00 x00 x00 x00 x00 x00)
(T (W x45 x26 x22 x84 xe4 x9c xf2 xcb)
(T (W xff xff xff xff xff xff xff xff)
(L (W x00 x00 x80 xbf x00 x00 x80 xbf))
(L (W xff xff xff xff xff xff xff xff)))
(T (W x68 x00 x00 x00 x5c x00 x00 x00)
(L (W x00 x00 x80 xbf x00 x00 x80 xbf)) E))
(T (W xff xff xff xff xff xff xff xff)
(T (W x19 x00 x00 x00 x1c x00 x00 x00)
(L (W x00 x00 x00 x00 x00 x00 x00 x00)) E)
(T (W xff xff xff xff xff xff xff xff)
(L (W xbc x00 x00 x00 x64 x00 x00 x00)) E))))
(T (W x42 xea xf9 xff x74 x00 x00 x00)
(T (W x00 x00 x00 x00 x00 x00 x00 x00)
(T (W x00 x00 x80 x3f x00 x00 x80 x3f)
(T (W xa2 xb4 xfe xff x00 x00 x01 x01)
(L (W x45 x26 x22 x84 xe4 x9c xf2 xcb))
(L (W x6c x00 x00 x00 x60 x00 x00 x00)))
(T (W x42 xaa xfc xff x74 x00 x00 x00)
(L (W x00 x00 x00 x00 x00 x00 x00 x00)) E))
(T (W xff xff xff xff xff xff xff xff)
(T (W x5f x77 x69 x6c x64 x5f x70 x6f)
(L (W xff xff xff xff xff xff xff xff)) E)
(T (W x00 x00 x00 x00 x00 x00 x00 x00)
(L (W x00 x00 x80 xbf x00 x00 x80 xbf)) E)))
(T (W xff xff xff xff xff xff xff xff)
(T (W x00 x00 x00 x00 x00 x00 x00 x00)
(T (W x00 x00 x00 x00 x00 x00 x00 x00)
(L (W x45 x44 x00 x00 x00 x00 x00 x00))
(L (W x45 x44 x00 x00 x00 x00 x00 x00)))
(T (W x00 x00 x00 x00 x00 x00 x00 x00)
(L (W xff xff xff xff xff xff xff xff)) E))
(T (W xff xff xff xff xff xff xff xff)
(T (W x00 x00 x80 x3f x00 x00 x80 x3f)
(L (W xff xff xff xff xc8 x00 x00 x00)) E)
(T (W x54 x00 x00 x00 x48 x00 x00 x00)
(L (W xff xff xff xff xff xff xff xff)) E))))))
(T (W x00 x00 x00 x00 x00 x00 x00 x00)
(T (W x00 x00 x00 x00 x00 x00 x00 x00)
(T (W x6c x00 x00 x00 x60 x00 x00 x00)
(T (W x45 x26 x22 x84 xe4 x9c xf2 xcb)
(T (W xa2 x8c xfd xff x00 x00 x01 x01)
(T (W x00 x00 x80 x3f x00 x00 x80 x3f)
(L (W x00 x00 x00 x00 x00 x00 x00 x00))
(L (W x00 x00 x00 x00 x00 x00 x00 x00)))
(T (W x00 x00 x00 x00 x00 x00 x00 x00)
(L (W xff xff xff xff xff xff xff xff)) E))
(T (W x00 x00 x80 x3f x00 x00 x80 x3f)
(T (W xff xff xff xff x9c x00 x00 x00)
(L (W x00 x00 x80 xbf x00 x00 x80 xbf)) E)
(T (W xff xff xff xff xff xff xff xff)
(L (W x2f x00 x00 x00 xff xff xff xff)) E)))
(T (W x00 x00 x00 x00 x00 x00 x00 x00)
(T (W x45 x26 x22 x84 xe4 x9c xf2 xcb)
(T (W xff xff xff xff xff xff xff xff)
(L (W x54 x00 x00 x00 x48 x00 x00 x00))
(L (W xff xff xff xff xff xff xff xff)))
(T (W x00 x00 x00 x00 x00 x00 x00 x00)
(L (W x00 x00 x80 xbf x00 x00 x80 xbf)) E))
(T (W x00 x00 x80 x3f x00 x00 x80 x3f)
(T (W x6c x00 x00 x00 x60 x00 x00 x00)
(L (W x30 x32 x5f x43 x4c x45 x41 x52)) E)
(T (W xff xff xff xff xff xff xff xff)
(L (W x45 x26 x22 x84 xe4 x9c xf2 xcb)) E))))
(T (W x14 xe7 xf9 xff x00 x01 x01 x01)
(T (W x00 x00 x80 x3f x00 x00 x80 x3f)
(T (W x00 x00 x80 x3f x00 x00 x80 x3f)
(T (W x45 x26 x22 x84 xe4 x9c xf2 xcb)
(L (W xff xff xff xff xff xff xff xff))
(L (W x00 x00 x00 x00 x00 x00 x00 x00)))
(T (W x00 x00 x80 x3f x00 x00 x80 x3f)
(L (W x00 x00 x00 x00 x00 x00 x00 x00)) E))
(T (W x68 x00 x00 x00 x5c x00 x00 x00)
(T (W x00 x00 x00 x00 x22 x23 xfc xff)
(L (W xff xff xff xff x9c x00 x00 x00)) E)
(T (W x46 x53 x59 x53 x5f x4e x53 x5f)
(L (W x00 x00 x00 x00 x00 x00 x00 x00)) E)))
(T (W xaa x76 xfd xff x00 x00 x01 x01)
(T (W x9c xf4 xfa xff x3e x00 x00 x00)
(T (W x00 x00 x00 x00 x00 x00 x00 x00)
(L (W x03 x00 x00 x00 xd0 x00 x00 x00))
(L (W x00 x00 x00 x00 xe2 xe4 xff xff)))
(T (W xff xff xff xff xff xff xff xff)
(L (W xff xff xff xff xc8 x00 x00 x00)) E))
(T (W xff xff xff xff xc4 x00 x00 x00)
(T (W x40 x00 x44 x00 x48 x00 x4c x00)
(L (W x45 x26 x22 x84 xe4 x9c xf2 xcb)) E)
(T (W x45 x26 x22 x84 xe4 x9c xf2 xcb)
(L (W xff xff xff xff xff xff xff xff)) E)))))
(T (W x00 x00 x80 x3f x00 x00 x80 x3f)
(T (W x64 x00 x00 x00 xa0 x00 x00 x00)
(T (W xff xff xff xff xff xff xff xff)
(T (W xff xff xff xff xff xff xff xff)
(T (W x00 x00 x00 x00 x00 x00 x00 x00)
(L (W x00 x00 x80 xbf x00 x00 x80 xbf))
(L (W x00 x00 x80 xbf x00 x00 x80 xbf)))
(T (W x65 xa2 x30 x97 x85 x23 x5c x5f)
(L (W x00 x00 x01 x01 x36 x00 x00 x00)) E))
(T (W x40 x00 x44 x00 x48 x00 x4c x00)
(T (W xff xff xff xff xff xff xff xff)
(L (W x45 x26 x22 x84 xe4 x9c xf2 xcb)) E)
(T (W x25 x00 x00 x00 x10 x00 x00 x00)
(L (W x00 x00 x00 x00 x00 x00 x00 x00)) E)))
(T (W x00 x00 x00 x00 x00 x00 x00 x00)
(T (W x00 x00 x00 x00 x00 x00 x00 x00)
(T (W xff xff xff xff xff xff xff xff)
(L (W x45 x26 x22 x84 xe4 x9c xf2 xcb))
(L (W xff xff xff xff xff xff xff xff)))
(T (W x46 x53 x59 x53 x5f x4e x53 x5f)
(L (W x14 xd7 xfe xff x00 x01 x01 x01)) E))
(T (W x6b x65 x5f x6c x76 x31 x00 x00)
(T (W xff xff xff xff xff xff xff xff)
(L (W x00 x00 x80 xbf x00 x00 x80 xbf)) E)
(T (W x00 x00 x00 x00 x00 x00 x00 x00)
(L (W xff xff xff xff xff xff xff xff)) E))))
(T (W x50 x00 x00 x00 x44 x00 x00 x00)
(T (W x00 x00 x00 x00 x00 x00 x00 x00)
(T (W x00 x00 x80 x3f x00 x00 x80 x3f)
(T (W x00 x00 x00 x00 x00 x00 x00 x00)
(L (W xff xff xff xff xbc x00 x00 x00))
(L (W x6c x00 x00 x00 x60 x00 x00 x00)))
(T (W x00 x00 x80 x3f x00 x00 x80 x3f)
(L (W x00 x00 x00 x00 x00 x00 x00 x00)) E))
(T (W xff xff xff xff xff xff xff xff)
(T (W x00 x00 x80 x3f x00 x00 x80 x3f)
(L (W xff xff xff xff xff xff xff xff)) E)
(T (W x00 x00 x80 xbf x00 x00 x80 xbf)
(L (W x00 x00 x80 xbf x00 x00 x80 xbf)) E)))
(T (W xd8 x00 x00 x00 xff xff xff xff)
(T (W x00 x00 x80 x3f x00 x00 x80 x3f)
(T (W x45 x26 x22 x84 xe4 x9c xf2 xcb)
(L (W x00 x00 x00 x00 x00 x00 x00 x00))
(L (W x00 x00 x00 x00 x00 x00 x00 x00)))
(T (W xff xff xff xff xff xff xff xff)
(L (W xff xff xff xff xff xff xff xff)) E))
(T (W x30 x32 x5f x43 x4c x45 x41 x52)
(T (W x00 x00 x00 x00 x00 x00 x00 x00)
(L (W xff xff xff xff xff xff xff xff)) E)
(T (W x00 x00 x80 xbf x00 x00 x80 xbf)
(L (W x00 x00 x00 x00 x02 x7b xff xff)) E))))))))
(T (W x00 x00 x00 x00 x00 x00 x00 x00)
(T (W x6c x00 x00 x00 x60 x00 x00 x00)
(T (W x00 x00 x00 x00 x00 x00 x00 x00)
(T (W x14 x9d xf9 xff x00 x01 x01 x01)
(T (W xff xff xff xff xff xff xff xff)
(T (W x00 x00 x80 x3f x00 x00 x80 x3f)
(T (W x64 x00 x00 x00 x9c x00 x00 x00)
(T (W x67 x8f xb1 x0f x51 xd6 x17 x8f)
(L (W x00 x00 x00 x00 x00 x00 x00 x00))
(L (W xff xff xff xff xff xff xff xff)))
(T (W x00 x00 x00 x00 x00 x00 x00 x00)
(L (W xf2 x79 xfe xff x78 x00 x00 x00)) E))
(T (W x45 x26 x22 x84 xe4 x9c xf2 xcb)
(T (W x49 xa1 x68 x4a xeb x5f xdd x3d)
(L (W x00 x00 x00 x00 x00 x00 x00 x00))
(L (W x00 x00 x80 xbf x00 x00 x80 xbf)))
(T (W x00 x00 x80 x3f x00 x00 x80 x3f)
(L (W x45 x26 x22 x84 xe4 x9c xf2 xcb)) E)))
(T (W x00 x00 x00 x00 x52 x49 xff xff)
(T (W x00 x00 x00 x00 x00 x00 x00 x00)
(T (W x00 x00 x00 x00 x00 x00 x00 x00)
(L (W x00 x00 x00 x00 x00 x00 x00 x00))
(L (W x45 x26 x22 x84 xe4 x9c xf2 xcb)))
(T (W x00 x00 x00 x00 x00 x00 x00 x00)
(L (W x45 x44 x00 x00 x00 x00 x00 x00)) E))
(T (W xff xff xff xff xff xff xff xff)
(T (W x00 x00 x00 x00 x00 x00 x00 x00)
(L (W xff xff xff xff xff xff xff xff)) E)
(T (W x00 x00 x00 x00 x00 x00 x00 x00)
(L (W x00 x00 x00 x00 x00 x00 x00 x00)) E))))
(T (W x00 x00 x00 x00 x00 x00 x00 x00)
(T (W x01 x00 x00 x00 xa0 x00 x00 x00)
(T (W x00 x00 x00 x00 x00 x00 x00 x00)
(T (W x9f x01 x00 x00 xff xff xff xff)
(L (W x00 x00 x00 x00 x00 x00 x00 x00))
(L (W x4f x84 x6f x8b xe8 xcb x63 xb7)))
(T (W x18 x00 x00 x00 x10 x00 x00 x00)
(L (W xff xff xff xff xff xff xff xff)) E))
(T (W x00 x00 x00 x00 x00 x00 x00 x00)
(T (W x18 x00 x00 x00 x0c x00 x00 x00)
(L (W x49 xa1 x68 x4a xeb x5f xdd x3d)) E)
(T (W x03 x00 x00 x00 xbc x00 x00 x00)
(L (W x00 x00 x01 x01 x2f x00 x00 x00)) E)))
(T (W xff xff xff xff xff xff xff xff)
(T (W xff xff xff xff xff xff xff xff)
(T (W xff xff xff xff xff xff xff xff)
(L (W x00 x00 x80 xbf x00 x00 x80 xbf))
(L (W xbc x00 x00 x00 x14 x00 x00 x00)))
(T (W xff xff xff xff xff xff xff xff)
(L (W x00 x00 x80 xbf x00 x00 x80 xbf)) E))
(T (W x00 x00 x00 x00 x22 x59 xfb xff)
(T (W x00 x00 x80 x3f x00 x00 x80 x3f)
(L (W x00 x00 x00 x00 x00 x00 x00 x00)) E)
(T (W xff xff xff xff xff xff xff xff)
(L (W x00 x00 x80 xbf x00 x00 x80 xbf)) E)))))
(T (W x18 x00 x00 x00 x0c x00 x00 x00)
(T (W xff xff xff xff x06 x00 x00 x00)
(T (W x00 x00 x00 x00 x00 x00 x00 x00)
(T (W x14 x8d xfa xff x00 x01 x01 x01)
(T (W x00 x00 x80 x3f x00 x00 x80 x3f)
(L (W x00 x00 x00 x00 x00 x00 x00 x00))
(L (W x00 x00 x00 x00 x00 x00 x00 x00)))
(T (W xff xff xff xff xff xff xff xff)
(L (W x00 x00 x00 x00 x84 x8b xfe xff)) E))
(T (W x00 x00 x00 x00 x00 x00 x00 x00)
(T (W x54 x00 x00 x00 x48 x00 x00 x00)
(L (W x00 x00 x00 x00 x00 x00 x00 x00)) E)
(T (W xff xff xff xff xff xff xff xff)
(L (W xff xff xff xff xff xff xff xff)) E)))
(T (W xff xff xff xff xff xff xff xff)
(T (W x01 x00 x00 x00 x04 x00 x00 x00)
(T (W x00 x00 x80 x3f x00 x00 x80 x3f)
(L (W x00 x00 x00 x00 x00 x00 x00 x00))
(L (W x45 x26 x22 x84 xe4 x9c xf2 xcb)))
(T (W xca x01 x00 x00 x46 x01 x00 x00)
(L (W x00 x00 x00 x00 x00 x00 x00 x00)) E))
(T (W x54 x00 x00 x00 x48 x00 x00 x00)
(T (W x45 x26 x22 x84 xe4 x9c xf2 xcb)
(L (W x00 x00 x01 x01 x2a x00 x00 x00)) E)
(T (W x50 x00 x00 x00 x44 x00 x00 x00)
(L (W x45 x26 x22 x84 xe4 x9c xf2 xcb)) E))))
(T (W x00 x00 x80 x3f x00 x00 x80 x3f)
(T (W xaa x3c xfd xff x00 x00 x01 x01)
(T (W x45 x26 x22 x84 xe4 x9c xf2 xcb)
(T (W x18 x00 x00 x00 x0c x00 x00 x00)
(L (W x00 x00 x00 x00 x00 x00 x00 x00))
(L (W x00 x00 x80 xbf x00 x00 x80 xbf)))
(T (W x00 x00 x80 x3f x00 x00 x80 x3f)
(L (W xff xff xff xff xff xff xff xff)) E))
(T (W x00 x00 x80 x3f x00 x00 x80 x3f)
(T (W xff xff xff xff x03 x00 x00 x00)
(L (W x54 x00 x00 x00 x48 x00 x00 x00)) E)
(T (W x00 x00 x00 x00 x00 x00 x00 x00)
(L (W xdc x06 x00 x00 xc8 x05 x00 x00)) E)))
(T (W xff xff xff xff xff xff xff xff)
(T (W xff xff xff xff xff xff xff xff)
(T (W x45 x44 x00 x00 x00 x00 x00 x00)
(L (W xff xff xff xff xff xff xff xff))
(L (W xb8 x00 x00 x00 x64 x00 x00 x00)))
(T (W x00 x00 x00 x00 x00 x00 x00 x00)
(L (W x18 x00 x00 x00 x0c x00 x00 x00)) E))
(T (W x18 x00 x00 x00 x0c x00 x00 x00)
(T (W x00 x00 x00 x00 x00 x00 x00 x00)
(L (W x45 x26 x22 x84 xe4 x9c xf2 xcb)) E)
(T (W x4f x84 x6f x8b xe8 xcb x63 xb7)
(L (W xff xff xff xff xa0 x00 x00 x00)) E))))))
(T (W xff xff xff xff xff xff xff xff)
(T (W x00 x00 x00 x00 x00 x00 x00 x00)
(T (W x00 x00 x80 x3f x00 x00 x80 x3f)
(T (W x00 x00 x00 x00 x00 x00 x00 x00)
(T (W xbc x00 x00 x00 xb0 x00 x00 x00)
(T (W x4f x84 x6f x8b xe8 xcb x63 xb7)
(L (W xc9 x00 x00 x00 xff xff xff xff))
(L (W xff xff xff xff xff xff xff xff)))
(T (W xfd xaf x30 x97 x85 x2b x5c x5f)
(L (W xf2 x81 xfe xff x78 x00 x00 x00)) E))
(T (W xff xff xff xff xff xff xff xff)
(T (W x45 x26 x22 x84 xe4 x9c xf2 xcb)
(L (W x00 x00 x00 x00 x00 x00 x00 x00))
(L (W x00 x00 x80 xbf x00 x00 x80 xbf)))
(T (W x00 x00 x00 x00 x00 x00 x00 x00)
(L (W xbc x00 x00 x00 x46 x00 x00 x00)) E)))
(T (W x1c x01 x00 x00 x04 x00 x00 x00)
(T (W x44 xc9 xfa xff x3e x00 x00 x00)
(T (W x00 x00 x80 x3f x00 x00 x80 x3f)
(L (W x00 x00 x00 x00 x00 x00 x00 x00))
(L (W x00 x00 x80 xbf x00 x00 x80 xbf)))
(T (W x18 x01 x00 x00 x04 x00 x00 x00)
(L (W x00 x00 x00 x00 x00 x00 x00 x00)) E))
(T (W x00 x00 x00 x00 x12 x00 x00 x00)
(T (W x00 x00 x80 x3f x00 x00 x80 x3f)
(L (W xff xff xff xff xff xff xff xff)) E)
(T (W xf2 x41 xfd xff x78 x00 x00 x00)
(L (W x00 x00 x80 xbf x00 x00 x80 xbf)) E))))
(T (W x00 x00 x00 x00 x00 x00 x00 x00)
(T (W x20 x00 x00 x00 x0c x00 x00 x00)
(T (W x00 x00 x00 x00 x00 x00 x00 x00)
(T (W x45 x26 x22 x84 xe4 x9c xf2 xcb)
(L (W x45 x26 x22 x84 xe4 x9c xf2 xcb))
(L (W xff xff xff xff xff xff xff xff)))
(T (W x00 x00 x00 x00 x00 x00 x00 x00)
(L (W xff xff xff xff xff xff xff xff)) E))
(T (W x00 x00 x00 x00 x00 x00 x00 x00)
(T (W xff xff xff xff xff xff xff xff)
(L (W x00 x00 x80 xbf x00 x00 x80 xbf)) E)
(T (W xff xff xff xff xff xff xff xff)
(L (W x45 x44 x00 x00 x00 x00 x00 x00)) E)))
(T (W xff xff xff xff xff xff xff xff)
(T (W xff xff xff xff xff xff xff xff)
(T (W xff xff xff xff xff xff xff xff)
(L (W x54 x00 x00 x00 x48 x00 x00 x00))
(L (W xff xff xff xff xff xff xff xff)))
(T (W x00 x00 x00 x00 x00 x00 x00 x00)
(L (W x54 x00 x00 x00 x48 x00 x00 x00)) E))
(T (W x00 x00 x80 x3f x00 x00 x80 x3f)
(T (W x14 x65 xfc xff x00 x01 x01 x01)
(L (W x00 x00 x00 x00 x00 x00 x00 x00)) E)
(T (W x00 x00 x00 x00 x00 x00 x00 x00)
(L (W xf2 x61 xff xff x78 x00 x00 x00)) E)))))
(T (W x00 x00 x00 x00 x00 x00 x00 x00)
(T (W x6c x00 x00 x00 x60 x00 x00 x00)
(T (W x45 x26 x22 x84 xe4 x9c xf2 xcb)
(T (W x68 x00 x00 x00 x5c x00 x00 x00)
(T (W xff xff xff xff xff xff xff xff)
(L (W x5f x4e x53 x5f x30 x32 x5f x43))
(L (W x00 x00 x00 x00 x00 x00 x00 x00)))
(T (W xff xff xff xff xff xff xff xff)
(L (W xff xff xff xff xff xff xff xff)) E))
(T (W x54 x00 x00 x00 x48 x00 x00 x00)
(T (W x18 x00 x00 x00 x10 x00 x00 x00)
(L (W x00 x00 x00 x00 x00 x00 x00 x00)) E)
(T (W xb0 x00 x00 x00 x64 x00 x00 x00)
(L (W x00 x00 x00 x00 x00 x00 x00 x00)) E)))
(T (W xff xff xff xff xff xff xff xff)
(T (W xff xff xff xff xff xff xff xff)
(T (W xcc x00 x00 x00 xc0 x00 x00 x00)
(L (W x00 x00 x80 xbf x00 x00 x80 xbf))
(L (W x18 x00 x00 x00 x0c x00 x00 x00)))
(T (W xb4 x00 x00 x00 x64 x00 x00 x00)
(L (W x00 x00 x80 xbf x00 x00 x80 xbf)) E))
(T (W xff xff xff xff x03 x00 x00 x00)
(T (W x00 x00 x80 x3f x00 x00 x80 x3f)
(L (W x91 x01 x00 x00 xff xff xff xff)) E)
(T (W xff xff xff xff xff xff xff xff)
(L (W x14 x55 xff xff x00 x01 x01 x01)) E))))
(T (W x00 x00 x80 x3f x00 x00 x80 x3f)
(T (W xff xff xff xff xff xff xff xff)
(T (W x00 x00 x00 x00 x00 x00 x00 x00)
(T (W xff xff xff xff xff xff xff xff)
(L (W x45 x26 x22 x84 xe4 x9c xf2 xcb))
(L (W x00 x00 x80 xbf x00 x00 x80 xbf)))
(T (W x00 x00 x00 x00 x00 x00 x00 x00)
(L (W xff xff xff xff xff xff xff xff)) E))
(T (W x68 x00 x00 x00 x5c x00 x00 x00)
(T (W x00 x00 x00 x00 x22 x31 xfc xff)
(L (W x18 x00 x00 x00 x10 x00 x00 x00)) E)
(T (W x46 x53 x59 x53 x5f x4e x53 x5f)
(L (W x00 x00 x00 x00 x00 x00 x00 x00)) E)))
(T (W xff xff xff xff xff xff xff xff)
(T (W x00 x00 x00 x00 x00 x00 x00 x00)
(T (W x00 x00 x00 x00 x00 x00 x00 x00)
(L (W xff xff xff xff xff xff xff xff))
(L (W xff xff xff xff xff xff xff xff)))
(T (W x00 x00 x80 x3f x00 x00 x80 x3f)
(L (W x18 x00 x00 x00 x10 x00 x00 x00)) E))
(T (W xff xff xff xff xff xff xff xff)
(T (W x28 x00 x00 x00 x10 x00 x00 x00)
(L (W x00 x00 x80 xbf x00 x00 x80 xbf)) E)
(T (W x34 x00 x38 x00 x3c x00 x40 x00)
(L (W xff xff xff xff xff xff xff xff)) E)))))))
(T (W xff xff xff xff xff xff xff xff)
(T (W xf2 x8d xf9 xff x78 x00 x00 x00)
(T (W xff xff xff xff xff xff xff xff)
(T (W x00 x00 x00 x00 x00 x00 x00 x00)
(T (W xff xff xff xff xff xff xff xff)
(T (W x00 x00 x00 x00 x00 x00 x00 x00)
(T (W xb0 x00 x00 x00 x64 x00 x00 x00)
(L (W x1c x00 x00 x00 x1f x00 x00 x00))
(L (W x00 x00 x80 xbf x00 x00 x80 xbf)))
(T (W x45 x26 x22 x84 xe4 x9c xf2 xcb)
(L (W x00 x00 x00 x00 x12 x00 x00 x00)) E))
(T (W x00 x00 x80 x3f x00 x00 x80 x3f)
(T (W xff xff xff xff xff xff xff xff)
(L (W x00 x00 x80 xbf x00 x00 x80 xbf))
(L (W x00 x00 x60 x00 x00 x00 x00 x00)))
(T (W x45 x26 x22 x84 xe4 x9c xf2 xcb)
(L (W x9c x0e xff xff x14 x00 x00 x00)) E)))
(T (W x00 x00 x80 x3f x00 x00 x80 x3f)
(T (W x42 xbc xfa xff x74 x00 x00 x00)
(T (W xff xff xff xff xff xff xff xff)
(L (W x00 x00 x80 xbf x00 x00 x80 xbf))
(L (W xff xff xff xff xff xff xff xff)))
(T (W x42 xbc xfc xff x74 x00 x00 x00)
(L (W x14 xc1 xfe xff x00 x01 x01 x01)) E))
(T (W x00 x00 x80 x3f x00 x00 x80 x3f)
(T (W xff xff xff xff xff xff xff xff)
(L (W x00 x00 x00 x00 x00 x00 x00 x00)) E)
(T (W xff xff xff xff xff xff xff xff)
(L (W xb4 x00 x00 x00 x32 x00 x00 x00)) E))))
(T (W xff xff xff xff xff xff xff xff)
(T (W x00 x00 x80 x3f x00 x00 x80 x3f)
(T (W xff xff xff xff xff xff xff xff)
(T (W x01 x00 x00 x00 xb0 x00 x00 x00)
(L (W xff xff xff xff xff xff xff xff))
(L (W xff xff xff xff xff xff xff xff)))
(T (W x45 x26 x22 x84 xe4 x9c xf2 xcb)
(L (W x00 x00 x80 xbf x00 x00 x80 xbf)) E))
(T (W xf2 x1d xfb xff x78 x00 x00 x00)
(T (W x00 x00 x00 x00 x00 x00 x00 x00)
(L (W xff xff xff xff xff xff xff xff)) E)
(T (W x00 x00 x80 xbf x00 x00 x80 xbf)
(L (W x00 x00 x80 xbf x00 x00 x80 xbf)) E)))
(T (W x00 x00 x80 x3f x00 x00 x80 x3f)
(T (W x00 x00 x80 x3f x00 x00 x80 x3f)
(T (W x00 x00 x80 x3f x00 x00 x80 x3f)
(L (W xff xff xff xff xff xff xff xff))
(L (W x00 x00 x00 x00 x12 x00 x00 x00)))
(T (W x00 x00 x80 x3f x00 x00 x80 x3f)
(L (W xff xff xff xff xff xff xff xff)) E))
(T (W xff xff xff xff xff xff xff xff)
(T (W x45 x44 x00 x00 x00 x00 x00 x00)
(L (W xff xff xff xff xff xff xff xff)) E)
(T (W x54 x00 x00 x00 x48 x00 x00 x00)
(L (W x46 x53 x59 x53 x5f x4e x53 x5f)) E)))))
(T (W xff xff xff xff xff xff xff xff)
(T (W x00 x00 x00 x00 x00 x00 x00 x00)
(T (W xff xff xff xff xff xff xff xff)
(T (W x00 x00 x00 x00 x00 x00 x00 x00)
(T (W x46 x53 x59 x53 x5f x4e x53 x5f)
(L (W x14 x91 xfd xff x00 x01 x01 x01))
(L (W x03 x00 x00 x00 xd8 x00 x00 x00)))
(T (W x00 x00 x80 x3f x00 x00 x80 x3f)
(L (W x00 x00 x00 x00 x00 x00 x00 x00)) E))
(T (W xb0 x00 x00 x00 x64 x00 x00 x00)
(T (W x2c x01 x00 x00 x04 x00 x00 x00)
(L (W xcc x00 x00 x00 x01 x00 x00 x00)) E)
(T (W x62 x00 x00 x00 x00 x01 x01 x01)
(L (W x45 x26 x22 x84 xe4 x9c xf2 xcb)) E)))
(T (W x50 x00 x00 x00 x44 x00 x00 x00)
(T (W x45 x26 x22 x84 xe4 x9c xf2 xcb)
(T (W x46 x53 x59 x53 x5f x4e x53 x5f)
(L (W x14 x00 x00 x00 x17 x00 x00 x00))
(L (W x00 x00 x00 x00 x00 x00 x00 x00)))
(T (W x00 x00 x00 x00 x00 x00 x00 x00)
(L (W x18 x00 x00 x00 x10 x00 x00 x00)) E))
(T (W x00 x00 x00 x00 x00 x00 x00 x00)
(T (W xff xff xff xff xff xff xff xff)
(L (W x54 x00 x00 x00 x48 x00 x00 x00)) E)
(T (W x46 x53 x59 x53 x5f x4e x53 x5f)
(L (W x92 x01 x00 x00 xff xff xff xff)) E))))
(T (W xff xff xff xff xff xff xff xff)
(T (W x50 x00 x00 x00 x44 x00 x00 x00)
(T (W x14 xb1 xfa xff x00 x01 x01 x01)
(T (W x00 x00 x00 x00 x00 x00 x00 x00)
(L (W x00 x00 x80 xbf x00 x00 x80 xbf))
(L (W xff xff xff xff xbc x00 x00 x00)))
(T (W xff xff xff xff xff xff xff xff)
(L (W x00 x00 x80 xbf x00 x00 x80 xbf)) E))
(T (W x70 x5f x6c x65 x61 x64 x65 x72)
(T (W x50 x00 x00 x00 x44 x00 x00 x00)
(L (W x00 x00 x00 x00 x00 x00 x00 x00)) E)
(T (W x50 x00 x00 x00 x44 x00 x00 x00)
(L (W xf2 x2d xff xff x78 x00 x00 x00)) E)))
(T (W x00 x00 x00 x00 x00 x00 x00 x00)
(T (W x45 x26 x22 x84 xe4 x9c xf2 xcb)
(T (W x18 x00 x00 x00 x0c x00 x00 x00)
(L (W x4f x84 x6f x8b xe8 xcb x63 xb7))
(L (W x00 x00 x00 x00 x00 x00 x00 x00)))
(T (W xff xff xff xff x03 x00 x00 x00)
(L (W x00 x00 x00 x00 x00 x00 x00 x00)) E))
(T (W x22 x00 x00 x00 x67 x72 x6f x75)
(T (W x18 x00 x00 x00 x0c x00 x00 x00)
(L (W x00 x00 x00 x00 x72 x73 xfe xff)) E)
(T (W xff xff xff xff xff xff xff xff)
(L (W x00 x00 x80 xbf x00 x00 x80 xbf)) E))))))
(T (W x00 x00 x00 x00 x00 x00 x00 x00)
(T (W x00 x00 x80 x3f x00 x00 x80 x3f)
(T (W x01 x00 x00 x00 xa0 x00 x00 x00)
(T (W xff xff xff xff xff xff xff xff)
(T (W x00 x00 x00 x00 x00 x00 x00 x00)
(T (W xa2 x8e xfe xff x00 x00 x01 x01)
(L (W x50 x00 x00 x00 x44 x00 x00 x00))
(L (W x00 x00 x00 x00 x84 x87 xff xff)))
(T (W x00 x00 x80 x3f x00 x00 x80 x3f)
(L (W x00 x00 x00 x00 x00 x00 x00 x00)) E))
(T (W x01 x00 x00 x00 x29 x00 x00 x00)
(T (W xff xff xff xff xff xff xff xff)
(L (W x45 x26 x22 x84 xe4 x9c xf2 xcb)) E)
(T (W x00 x00 x00 x00 x00 x00 x00 x00)
(L (W x00 x00 x00 x00 x00 x00 x00 x00)) E)))
(T (W x00 x00 x80 x3f x00 x00 x80 x3f)
(T (W x00 x00 x00 x00 x84 xc7 xfa xff)
(T (W x00 x00 x00 x00 x00 x00 x00 x00)
(L (W x03 x00 x00 x00 xd8 x00 x00 x00))
(L (W xff xff xff xff xff xff xff xff)))
(T (W x00 x00 x00 x00 x68 x00 x6c x00)
(L (W x00 x00 x00 x00 x84 xc7 xfe xff)) E))
(T (W xff xff xff xff xff xff xff xff)
(T (W xff xff xff xff xff xff xff xff)
(L (W x49 xa1 x68 x4a xeb x5f xdd x3d)) E)
(T (W x00 x00 x01 x01 xc1 x00 x00 x00)
(L (W xff xff xff xff xff xff xff xff)) E))))
(T (W xff xff xff xff xff xff xff xff)
(T (W x40 x00 x00 x00 x9c x00 x00 x00)
(T (W x64 x00 x00 x00 x9c x00 x00 x00)
(T (W x00 x00 x00 x00 x00 x00 x00 x00)
(L (W xff xff xff xff xff xff xff xff))
(L (W x3c x00 x40 x00 x2a x00 x00 x00)))
(T (W x45 x26 x22 x84 xe4 x9c xf2 xcb)
(L (W x00 x00 x80 xbf x00 x00 x80 xbf)) E))
(T (W xb0 x00 x00 x00 x64 x00 x00 x00)
(T (W x00 x00 x80 x3f x00 x00 x80 x3f)
(L (W x45 x44 x00 x00 x00 x00 x00 x00)) E)
(T (W x00 x00 x80 xbf x00 x00 x80 xbf)
(L (W x00 x00 x80 xbf x00 x00 x80 xbf)) E)))
(T (W x00 x00 x00 x00 x00 x00 x00 x00)
(T (W x00 x00 x80 x3f x00 x00 x80 x3f)
(T (W x68 x00 x00 x00 x5c x00 x00 x00)
(L (W x70 x5f x6c x65 x61 x64 x65 x72))
(L (W x00 x00 x00 x00 x00 x00 x00 x00)))
(T (W x00 x00 x80 x3f x00 x00 x80 x3f)
(L (W x00 x00 x00 x00 x72 xeb xfe xff)) E))
(T (W xff xff xff xff xff xff xff xff)
(T (W x64 x00 x00 x00 x9c x00 x00 x00)
(L (W xff xff xff xff xff xff xff xff)) E)
(T (W x45 x26 x22 x84 xe4 x9c xf2 xcb)
(L (W x00 x00 x00 x00 x00 x00 x00 x00)) E)))))
(T (W x54 x00 x00 x00 x48 x00 x00 x00)
(T (W xff xff xff xff xff xff xff xff)
(T (W x00 x00 x00 x00 x00 x00 x00 x00)
(T (W x00 x00 x80 x3f x00 x00 x80 x3f)
(T (W x00 x00 x00 x00 x00 x00 x00 x00)
(L (W xff xff xff xff xac x00 x00 x00))
(L (W xff xff xff xff xff xff xff xff)))
(T (W x00 x00 x00 x00 x00 x00 x00 x00)
(L (W x00 x00 x00 x00 x00 x00 x00 x00)) E))
(T (W x00 x00 x80 x3f x00 x00 x80 x3f)
(T (W x00 x00 x00 x00 x22 x15 xfc xff)
(L (W xff xff xff xff xff xff xff xff)) E)
(T (W x03 x00 x00 x00 xb4 x00 x00 x00)
(L (W x54 x00 x00 x00 x48 x00 x00 x00)) E)))
(T (W x00 x00 x80 x3f x00 x00 x80 x3f)
(T (W x00 x00 x80 x3f x00 x00 x80 x3f)
(T (W x00 x00 x00 x00 x00 x00 x00 x00)
(L (W xff xff xff xff xff xff xff xff))
(L (W x00 x00 x00 x00 x00 x00 x00 x00)))
(T (W x00 x00 x80 x3f x00 x00 x80 x3f)
(L (W xff xff xff xff xff xff xff xff)) E))
(T (W x00 x00 x80 x3f x00 x00 x80 x3f)
(T (W x00 x00 x00 x00 x00 x00 x00 x00)
(L (W x45 x26 x22 x84 xe4 x9c xf2 xcb)) E)
(T (W x00 x00 x80 xbf x00 x00 x80 xbf)
(L (W x00 x00 x00 x00 x02 x5d xff xff)) E))))
(T (W xff xff xff xff xff xff xff xff)
(T (W x00 x00 x80 x3f x00 x00 x80 x3f)
(T (W x50 x00 x00 x00 x44 x00 x00 x00)
(T (W x45 x26 x22 x84 xe4 x9c xf2 xcb)
(L (W xff xff xff xff xff xff xff xff))
(L (W xff xff xff xff xff xff xff xff)))
(T (W x00 x00 x00 x00 x84 xb7 xfc xff)
(L (W x00 x00 x80 xbf x00 x00 x80 xbf)) E))
(T (W x00 x00 x00 x00 x00 x00 x00 x00)
(T (W x18 x00 x00 x00 x0c x00 x00 x00)
(L (W x00 x00 x00 x00 x00 x00 x00 x00)) E)
(T (W x03 x00 x00 x00 xd0 x00 x00 x00)
(L (W x45 x26 x22 x84 xe4 x9c xf2 xcb)) E)))
(T (W x00 x00 x00 x00 x00 x00 x00 x00)
(T (W x68 x00 x00 x00 x5c x00 x00 x00)
(T (W xff xff xff xff xff xff xff xff)
(L (W x00 x00 x80 xbf x00 x00 x80 xbf))
(L (W x00 x00 x80 xbf x00 x00 x80 xbf)))
(T (W x00 x00 x00 x00 x00 x00 x00 x00)
(L (W x00 x00 x00 x00 x00 x00 x00 x00)) E))
(T (W xf2 x75 xfb xff x78 x00 x00 x00)
(T (W x18 x00 x00 x00 x10 x00 x00 x00)
(L (W x00 x00 x00 x00 x00 x00 x00 x00)) E)
(T (W x18 x00 x00 x00 x0c x00 x00 x00)
(L (W x45 x26 x22 x84 xe4 x9c xf2 xcb)) E)))))))))))
(T (W xd8 x25 x05 x00 xec x1e x05 x00)
(T (W xe8 xf5 x03 x00 x3c xf1 x03 x00)
(T (W xa0 x3b x03 x00 x5c x39 x03 x00)
(T (W xb8 x5b x01 x00 x6c x59 x01 x00)
(T (W x54 x00 x00 x00 x48 x00 x00 x00)
(T (W x00 x00 x00 x00 x00 x00 x00 x00)
(T (W xb2 x96 xf9 xff x78 x00 x00 x00)
(T (W xff xff xff xff xff xff xff xff)
(T (W x00 x00 x00 x00 x00 x00 x00 x00)
(T (W x00 x00 x80 x3f x00 x00 x80 x3f)
(T (W xff xff xff xff xff xff xff xff)
(L (W x00 x00 x00 x00 xe2 x75 xfd xff))
(L (W xff xff xff xff xff xff xff xff)))
(T (W x75 x67 x2e x97 x85 x20 x59 x5f)
(L (W x00 x00 x80 xbf x00 x00 x80 xbf)) E))
(T (W xff xff xff xff xff xff xff xff)
(T (W x00 x00 x00 x00 x00 x00 x00 x00)
(L (W xff xff xff xff xff xff xff xff))
(L (W xff xff xff xff xff xff xff xff)))
(T (W x00 x00 x80 x3f x00 x00 x80 x3f)
(L (W xb2 xf6 xfe xff x78 x00 x00 x00)) E)))
(T (W xff xff xff xff xff xff xff xff)
(T (W xff xff xff xff xff xff xff xff)
(T (W xa1 x01 x00 x00 xff xff xff xff)
(L (W x00 x00 x00 x00 x00 x00 x00 x00))
(L (W x00 x00 x00 x00 x00 x00 x00 x00)))
(T (W x18 x01 x00 x00 x04 x00 x00 x00)
(L (W xff xff xff xff xff xff xff xff)) E))
(T (W x45 x26 x22 x84 xe4 x9c xf2 xcb)
(T (W x00 x00 x00 x00 xe2 x35 xfc xff)
(L (W xb2 x36 xfe xff x78 x00 x00 x00)) E)
(T (W x45 x44 x00 x00 x00 x00 x00 x00)
(L (W x5c x00 x00 x00 xff xff xff xff)) E))))
(T (W x00 x00 x00 x00 x00 x00 x00 x00)
(T (W x00 x00 x80 x3f x00 x00 x80 x3f)
(T (W xff xff xff xff xff xff xff xff)
(T (W xff xff xff xff xff xff xff xff)
(L (W x00 x00 x00 x00 x00 x00 x00 x00))
(L (W x00 x00 x00 x00 x00 x00 x00 x00)))
(T (W x45 x26 x22 x84 xe4 x9c xf2 xcb)
(L (W xff xff xff xff xb0 x00 x00 x00)) E))
(T (W xff xff xff xff xff xff xff xff)
(T (W x45 x26 x22 x84 xe4 x9c xf2 xcb)
(L (W x00 x00 x00 x00 x00 x00 x00 x00)) E)
(T (W x04 x1e xfd xff x23 x00 x00 x00)
(L (W xff xff xff xff xff xff xff xff)) E)))
(T (W xff xff xff xff xff xff xff xff)
(T (W xff xff xff xff xff xff xff xff)
(T (W xd4 x00 x00 x00 xc8 x00 x00 x00)
(L (W x00 x00 x00 x00 x00 x00 x00 x00))
(L (W x00 x00 x80 xbf x00 x00 x80 xbf)))
(T (W xbc x00 x00 x00 x0a x00 x00 x00)
(L (W x00 x00 x00 x00 x12 x00 x00 x00)) E))
(T (W xff xff xff xff xff xff xff xff)
(T (W x00 x00 x80 x3f x00 x00 x80 x3f)
(L (W x29 x00 x00 x00 xff xff xff xff)) E)
(T (W xff xff xff xff xff xff xff xff)
(L (W x00 x00 x80 xbf x00 x00 x80 xbf)) E)))))
(T (W x18 x00 x00 x00 x10 x00 x00 x00)
(T (W xc9 x00 x00 x00 xff xff xff xff)
(T (W x00 x00 x00 x00 x00 x00 x00 x00)
(T (W x00 x00 x80 x3f x00 x00 x80 x3f)
(T (W x00 x00 x80 x3f x00 x00 x80 x3f)
(L (W xff xff xff xff xff xff xff xff))
(L (W xff xff xff xff xff xff xff xff)))
(T (W xff xff xff xff xff xff xff xff)
(L (W x00 x00 x80 xbf x00 x00 x80 xbf)) E))
(T (W x00 x00 x00 x00 x00 x00 x00 x00)
(T (W x00 x00 x00 x00 x00 x00 x00 x00)
(L (W xff xff xff xff xff xff xff xff)) E)
(T (W x5c xeb xff xff x01 x01 x01 x01)
(L (W x50 x00 x00 x00 x44 x00 x00 x00)) E)))
(T (W xff xff xff xff xff xff xff xff)
(T (W xff xff xff xff xff xff xff xff)
(T (W x00 x00 x80 x3f x00 x00 x80 x3f)
(L (W x30 x32 x5f x43 x4c x45 x41 x52))
(L (W x4f x84 x6f x8b xe8 xcb x63 xb7)))
(T (W x00 x00 x80 x3f x00 x00 x80 x3f)
(L (W xe4 x06 x00 x00 xd0 x05 x00 x00)) E))
(T (W x46 x53 x59 x53 x5f x4e x53 x5f)
(T (W x00 x00 x00 x00 x00 x00 x00 x00)
(L (W xff xff xff xff xa0 x00 x00 x00)) E)
(T (W x49 xa1 x68 x4a xeb x5f xdd x3d)
(L (W x00 x00 x00 x00 x00 x00 x00 x00)) E))))
(T (W x00 x00 x00 x00 x00 x00 x00 x00)
(T (W xff xff xff xff xff xff xff xff)
(T (W x40 x00 x00 x00 x10 x00 x00 x00)
(T (W x00 x00 x80 x3f x00 x00 x80 x3f)
(L (W x00 x00 x00 x00 x00 x00 x00 x00))
(L (W xff xff xff xff xff xff xff xff)))
(T (W x00 x00 x00 x00 x02 x00 x00 x00)
(L (W xc4 x00 x00 x00 x01 x00 x00 x00)) E))
(T (W x04 x2e xfb xff x10 x00 x00 x00)
(T (W xb8 x00 x00 x00 x28 x00 x00 x00)
(L (W x00 x00 x80 xbf x00 x00 x80 xbf)) E)
(T (W xff xff xff xff xff xff xff xff)
(L (W xff xff xff xff xff xff xff xff)) E)))
(T (W x01 x00 x00 x00 xa0 x00 x00 x00)
(T (W xff xff xff xff xff xff xff xff)
(T (W xff xff xff xff xff xff xff xff)
(L (W xff xff xff xff xb0 x00 x00 x00))
(L (W xb2 xe6 xff xff x78 x00 x00 x00)))
(T (W xff xff xff xff xff xff xff xff)
(L (W x00 x00 x80 xbf x00 x00 x80 xbf)) E))
(T (W x00 x00 x00 x00 x00 x00 x00 x00)
(T (W x27 x00 x00 x00 x10 x00 x00 x00)
(L (W x00 x00 x00 x00 x00 x00 x00 x00)) E)
(T (W x02 x00 x00 x00 x30 x01 x00 x00)
(L (W x6c x00 x00 x00 x60 x00 x00 x00)) E))))))
(T (W xff xff xff xff xff xff xff xff)
(T (W x00 x00 x00 x00 x00 x00 x00 x00)
(T (W x00 x00 x80 x3f x00 x00 x80 x3f)
(T (W x00 x00 x00 x00 x00 x00 x00 x00)
(T (W x00 x00 x80 x3f x00 x00 x80 x3f)
(T (W x04 x86 xfb xff x14 x00 x00 x00)
(L (W x00 x00 x00 x00 xa2 x7f xfd xff))
(L (W xff xff xff xff xff xff xff xff)))
(T (W xff xff xff xff xff xff xff xff)
(L (W x54 x00 x00 x00 x48 x00 x00 x00)) E))
(T (W x18 x00 x00 x00 x0c x00 x00 x00)
(T (W x00 x00 x00 x00 x00 x00 x00 x00)
(L (W xff xff xff xff xff xff xff xff))
(L (W x00 x00 x80 xbf x00 x00 x80 xbf)))
(T (W xff xff xff xff xff xff xff xff)
(L (W xb2 xfe xfe xff x78 x00 x00 x00)) E)))
(T (W xb8 x00 x00 x00 xac x00 x00 x00)
(T (W xff xff xff xff xff xff xff xff)
(T (W x00 x00 x00 x00 x00 x00 x00 x00)
(L (W xff xff xff xff x01 x00 x00 x00))
(L (W x00 x00 x00 x00 x00 x00 x00 x00)))
(T (W xff xff xff xff xff xff xff xff)
(L (W xff xff xff xff xff xff xff xff)) E))
(T (W xff xff xff xff xff xff xff xff)
(T (W x00 x00 x00 x00 x00 x00 x00 x00)
(L (W xb2 x3e xfe xff x78 x00 x00 x00)) E)
(T (W x00 x00 x00 x00 x00 x00 x00 x00)
(L (W x00 x00 x00 x00 xc2 x45 xff xff)) E))))
(T (W x00 x00 x00 x00 x00 x00 x00 x00)
(T (W xff xff xff xff xff xff xff xff)
(T (W x00 x00 x00 x00 x00 x00 x00 x00)
(T (W x00 x00 x00 x00 x00 x00 x00 x00)
(L (W x4c x45 x41 x52 x45 x44 x00 x00))
(L (W x00 x00 x00 x00 x00 x00 x00 x00)))
(T (W xff xff xff xff xff xff xff xff)
(L (W xff xff xff xff xa0 x00 x00 x00)) E))
(T (W xff xff xff xff xff xff xff xff)
(T (W x6c x00 x00 x00 x60 x00 x00 x00)
(L (W x49 xa1 x68 x4a xeb x5f xdd x3d)) E)
(T (W xbc x00 x00 x00 x02 x00 x00 x00)
(L (W x00 x00 x01 x01 x5c x00 x00 x00)) E)))
(T (W x18 x00 x00 x00 x10 x00 x00 x00)
(T (W xff xff xff xff xff xff xff xff)
(T (W xff xff xff xff xff xff xff xff)
(L (W x00 x00 x00 x00 x00 x00 x00 x00))
(L (W x54 x00 x00 x00 x48 x00 x00 x00)))
(T (W xff xff xff xff xff xff xff xff)
(L (W x00 x00 x00 x00 x00 x00 x00 x00)) E))
(T (W x5f x4e x53 x5f x30 x32 x5f x43)
(T (W x00 x00 x80 x3f x00 x00 x80 x3f)
(L (W x00 x00 x00 x00 x00 x00 x00 x00)) E)
(T (W xff xff xff xff xff xff xff xff)
(L (W x00 x00 x80 xbf x00 x00 x80 xbf)) E)))))
(T (W x00 x00 x00 x00 x00 x00 x00 x00)
(T (W xb2 xce xf9 xff x78 x00 x00 x00)
(T (W x1b x00 x00 x00 x67 x72 x6f x75)
(T (W x00 x00 x80 x3f x00 x00 x80 x3f)
(T (W x00 x00 x80 x3f x00 x00 x80 x3f)
(L (W x10 x00 x00 x00 xff xff xff xff))
(L (W x30 x32 x5f x43 x4c x45 x41 x52)))
(T (W x18 x00 x00 x00 x10 x00 x00 x00)
(L (W x00 x00 x00 x00 x44 x90 xfe xff)) E))
(T (W x04 x16 xfb xff x29 x00 x00 x00)
(T (W x00 x00 x80 x3f x00 x00 x80 x3f)
(L (W x45 x44 x00 x00 x00 x00 x00 x00)) E)
(T (W x00 x00 x80 xbf x00 x00 x80 xbf)
(L (W x45 x26 x22 x84 xe4 x9c xf2 xcb)) E)))
(T (W xff xff xff xff xff xff xff xff)
(T (W xff xff xff xff xff xff xff xff)
(T (W x00 x00 x80 x3f x00 x00 x80 x3f)
(L (W x5c xdf xfd xff x14 x00 x00 x00))
(L (W x00 x00 x80 xbf x00 x00 x80 xbf)))
(T (W x00 x00 x80 x3f x00 x00 x80 x3f)
(L (W x6c x88 xa7 x28 xbf x4b x53 x6a)) E))
(T (W x02 x4d xfb xff x74 x00 x00 x00)
(T (W x00 x00 x00 x00 x00 x00 x00 x00)
(L (W xff xff xff xff xff xff xff xff)) E)
(T (W x24 x00 x28 x00 x2c x00 x30 x00)
(L (W x45 x26 x22 x84 xe4 x9c xf2 xcb)) E))))
(T (W x00 x00 x00 x00 x00 x00 x00 x00)
(T (W xb3 x01 x00 x00 xff xff xff xff)
(T (W x6a xc1 xfd xff x00 x00 x01 x01)
(T (W x01 x00 x00 x00 xac x00 x00 x00)
(L (W xff xff xff xff x9c x00 x00 x00))
(L (W x00 x00 x00 x00 x00 x00 x00 x00)))
(T (W x00 x00 x00 x00 x00 x00 x00 x00)
(L (W xff xff xff xff xc0 x00 x00 x00)) E))
(T (W x00 x00 x80 x3f x00 x00 x80 x3f)
(T (W xff xff xff xff xff xff xff xff)
(L (W x54 x00 x00 x00 x48 x00 x00 x00)) E)
(T (W xff xff xff xff xff xff xff xff)
(L (W xff xff xff xff xff xff xff xff)) E)))
(T (W x02 x6d xfa xff x74 x00 x00 x00)
(T (W x64 x00 x00 x00 x9c x00 x00 x00)
(T (W x00 x00 x00 x00 x32 xf4 xfb xff)
(L (W x45 x26 x22 x84 xe4 x9c xf2 xcb))
(L (W x00 x00 x00 x00 x44 xf0 xff xff)))
(T (W x00 x00 x00 x00 x00 x00 x00 x00)
(L (W x00 x00 x80 xbf x00 x00 x80 xbf)) E))
(T (W x24 x00 x00 x00 xb0 x00 x00 x00)
(T (W xff xff xff xff xff xff xff xff)
(L (W x00 x00 x80 xbf x00 x00 x80 xbf)) E)
(T (W x00 x00 x00 x00 x12 x00 x00 x00)
(L (W x21 x00 x00 x00 x24 x00 x00 x00)) E)))))))
(T (W xff xff xff xff xff xff xff xff)
(T (W x6c x00 x00 x00 x60 x00 x00 x00)
(T (W xff xff xff xff xff xff xff xff)
(T (W x00 x00 x00 x00 x00 x00 x00 x00)
(T (W xff xff xff xff xff xff xff xff)
(T (W x20 x00 x00 x00 x10 x00 x00 x00)
(T (W x00 x00 x80 x3f x00 x00 x80 x3f)
(L (W x00 x00 x80 xbf x00 x00 x80 xbf))
(L (W x00 x00 x00 x00 x00 x00 x00 x00)))
(T (W x00 x00 x80 x3f x00 x00 x80 x3f)
(L (W xff xff xff xff xff xff xff xff)) E))
(T (W xa1 x01 x00 x00 xff xff xff xff)
(T (W xff xff xff xff x9c x00 x00 x00)
(L (W x00 x00 x80 xbf x00 x00 x80 xbf))
(L (W x38 x00 x3c x00 x40 x00 x44 x00)))
(T (W xff xff xff xff xe4 x00 x00 x00)
(L (W x96 x01 x00 x00 xff xff xff xff)) E)))
(T (W x45 x26 x22 x84 xe4 x9c xf2 xcb)
(T (W x00 x00 x80 x3f x00 x00 x80 x3f)
(T (W x18 x00 x00 x00 x0c x00 x00 x00)
(L (W x00 x00 x80 xbf x00 x00 x80 xbf))
(L (W xff xff xff xff xff xff xff xff)))
(T (W x00 x00 x80 x3f x00 x00 x80 x3f)
(L (W x00 x00 x80 xbf x00 x00 x80 xbf)) E))
(T (W x00 x00 x00 x00 x12 x00 x00 x00)
(T (W x6c x00 x00 x00 x60 x00 x00 x00)
(L (W x00 x00 x00 x00 x12 x00 x00 x00)) E)
(T (W xff xff xff xff xb0 x00 x00 x00)
(L (W xd4 x3d xff xff x00 x01 x01 x01)) E))))
(T (W x45 x26 x22 x84 xe4 x9c xf2 xcb)
(T (W xb9 x00 x00 x00 xff xff xff xff)
(T (W x00 x00 x80 x3f x00 x00 x80 x3f)
(T (W x45 x26 x22 x84 xe4 x9c xf2 xcb)
(L (W x02 x99 xfd xff x74 x00 x00 x00))
(L (W x18 x00 x00 x00 x10 x00 x00 x00)))
(T (W x63 x6f x77 x61 x72 x64 x00 x00)
(L (W x00 x00 x00 x00 x00 x00 x00 x00)) E))
(T (W x00 x00 x80 x3f x00 x00 x80 x3f)
(T (W x00 x00 x00 x00 xe2 x19 xfc xff)
(L (W x18 x00 x00 x00 x10 x00 x00 x00)) E)
(T (W x00 x00 x00 x00 x00 x00 x00 x00)
(L (W x00 x00 x80 xbf x00 x00 x80 xbf)) E)))
(T (W x00 x00 x00 x00 x00 x00 x00 x00)
(T (W x00 x00 x00 x00 x00 x00 x00 x00)
(T (W x00 x00 x00 x00 x00 x00 x00 x00)
(L (W xff xff xff xff xff xff xff xff))
(L (W x00 x00 x00 x00 x00 x00 x00 x00)))
(T (W x49 xa1 x68 x4a xeb x5f xdd x3d)
(L (W xbc x00 x00 x00 x3c x00 x00 x00)) E))
(T (W x45 x26 x22 x84 xe4 x9c xf2 xcb)
(T (W x4b x00 x00 x00 xff xff xff xff)
(L (W x00 x00 x80 xbf x00 x00 x80 xbf)) E)
(T (W x00 x00 x00 x00 x00 x00 x00 x00)
(L (W x00 x00 x01 x01 x5d x00 x00 x00)) E)))))
(T (W x15 x00 x00 x00 xff xff xff xff)
(T (W x45 x26 x22 x84 xe4 x9c xf2 xcb)
(T (W x02 x09 xfa xff x74 x00 x00 x00)
(T (W x1c x01 x00 x00 x04 x00 x00 x00)
(T (W xd4 x00 x00 x00 xc8 x00 x00 x00)
(L (W x00 x00 x80 xbf x00 x00 x80 xbf))
(L (W x00 x00 x80 xbf x00 x00 x80 xbf)))
(T (W x00 x00 x00 x00 x00 x00 x00 x00)
(L (W xa4 x04 x00 x00 x88 x03 x00 x00)) E))
(T (W x45 x26 x22 x84 xe4 x9c xf2 xcb)
(T (W xff xff xff xff xff xff xff xff)
(L (W x00 x00 x00 x00 x44 x0c xfe xff)) E)
(T (W x45 x26 x22 x84 xe4 x9c xf2 xcb)
(L (W x00 x00 x00 x00 x12 x00 x00 x00)) E)))
(T (W x00 x00 x00 x00 x00 x00 x00 x00)
(T (W x00 x00 x80 x3f x00 x00 x80 x3f)
(T (W x34 x01 x00 x00 x04 x00 x00 x00)
(L (W x6c x00 x00 x00 x60 x00 x00 x00))
(L (W xff xff xff xff xff xff xff xff)))
(T (W x5c xdb xfc xff x14 x00 x00 x00)
(L (W x45 x26 x22 x84 xe4 x9c xf2 xcb)) E))
(T (W xff xff xff xff xff xff xff xff)
(T (W xff xff xff xff xff xff xff xff)
(L (W x00 x00 x80 xbf x00 x00 x80 xbf)) E)
(T (W xff xff xff xff xff xff xff xff)
(L (W xff xff xff xff xff xff xff xff)) E))))
(T (W x00 x00 x00 x00 x44 xec xf9 xff)
(T (W x45 x26 x22 x84 xe4 x9c xf2 xcb)
(T (W x02 xa9 xfa xff x74 x00 x00 x00)
(T (W x6a xec xfd xff x9c x01 x00 x00)
(L (W x00 x00 x80 xbf x00 x00 x80 xbf))
(L (W x18 x00 x00 x00 x0c x00 x00 x00)))
(T (W x00 x00 x00 x00 x44 xac xfc xff)
(L (W x00 x00 x00 x00 x00 x00 x00 x00)) E))
(T (W xff xff xff xff xbc x00 x00 x00)
(T (W x30 x32 x5f x43 x4c x45 x41 x52)
(L (W xff xff xff xff xff xff xff xff)) E)
(T (W x00 x00 x80 xbf x00 x00 x80 xbf)
(L (W x00 x00 x80 xbf x00 x00 x80 xbf)) E)))
(T (W x00 x00 x00 x00 x00 x00 x00 x00)
(T (W x00 x00 x00 x00 x00 x00 x00 x00)
(T (W x00 x00 x80 x3f x00 x00 x80 x3f)
(L (W x00 x00 x00 x00 x00 x00 x00 x00))
(L (W x00 x00 x00 x00 x00 x00 x00 x00)))
(T (W x00 x00 x80 x3f x00 x00 x80 x3f)
(L (W x00 x00 x00 x00 x32 xf0 xfe xff)) E))
(T (W x00 x00 x00 x00 x32 x70 xfb xff)
(T (W x00 x00 x80 x3f x00 x00 x80 x3f)
(L (W xff xff xff xff xff xff xff xff)) E)
(T (W x18 x00 x00 x00 x10 x00 x00 x00)
(L (W x00 x00 x01 x01 xb6 x01 x00 x00)) E))))))
(T (W x00 x00 x00 x00 x00 x00 x00 x00)
(T (W x00 x00 x80 x3f x00 x00 x80 x3f)
(T (W x64 x00 x00 x00 xa0 x00 x00 x00)
(T (W x18 x00 x00 x00 x0c x00 x00 x00)
(T (W x00 x00 x00 x00 x12 x92 xff xff)
(T (W x45 x26 x22 x84 xe4 x9c xf2 xcb)
(L (W x49 xa1 x68 x4a xeb x5f xdd x3d))
(L (W x00 x00 x00 x00 x00 x00 x00 x00)))
(T (W x00 x00 x80 x3f x00 x00 x80 x3f)
(L (W xff xff xff xff xff xff xff xff)) E))
(T (W x00 x00 x00 x00 x00 x00 x00 x00)
(T (W xff xff xff xff x03 x00 x00 x00)
(L (W x00 x00 x80 xbf x00 x00 x80 xbf)) E)
(T (W xff xff xff xff xff xff xff xff)
(L (W x00 x00 x00 x00 x00 x00 x00 x00)) E)))
(T (W x00 x00 x80 x3f x00 x00 x80 x3f)
(T (W x00 x00 x80 x3f x00 x00 x80 x3f)
(T (W xff xff xff xff xff xff xff xff)
(L (W x45 x26 x22 x84 xe4 x9c xf2 xcb))
(L (W xff xff xff xff xc4 x00 x00 x00)))
(T (W x00 x00 x80 x3f x00 x00 x80 x3f)
(L (W x54 x00 x00 x00 x48 x00 x00 x00)) E))
(T (W x54 x00 x00 x00 x48 x00 x00 x00)
(T (W x19 x00 x00 x00 x1c x00 x00 x00)
(L (W x00 x00 x00 x00 x00 x00 x00 x00)) E)
(T (W xff xff xff xff xff xff xff xff)
(L (W xbc x00 x00 x00 x1e x00 x00 x00)) E))))
(T (W x18 x00 x00 x00 x0c x00 x00 x00)
(T (W x00 x00 x80 x3f x00 x00 x80 x3f)
(T (W x68 x00 x00 x00 x5c x00 x00 x00)
(T (W xff xff xff xff x03 x00 x00 x00)
(L (W xff xff xff xff x1b x00 x00 x00))
(L (W x00 x00 x00 x00 x00 x00 x00 x00)))
(T (W xd4 xa5 xfc xff x00 x01 x01 x01)
(L (W x4f x84 x6f x8b xe8 xcb x63 xb7)) E))
(T (W x45 x26 x22 x84 xe4 x9c xf2 xcb)
(T (W x00 x00 x00 x00 x00 x00 x00 x00)
(L (W xff xff xff xff xff xff xff xff)) E)
(T (W x00 x00 x00 x00 x00 x00 x00 x00)
(L (W x00 x00 x80 xbf x00 x00 x80 xbf)) E)))
(T (W x00 x00 x00 x00 x00 x00 x00 x00)
(T (W x00 x00 x00 x00 x00 x00 x00 x00)
(T (W x00 x00 x00 x00 x00 x00 x00 x00)
(L (W xff xff xff xff xff xff xff xff))
(L (W x46 x53 x59 x53 x5f x4e x53 x5f)))
(T (W xff xff xff xff xff xff xff xff)
(L (W xff xff xff xff xff xff xff xff)) E))
(T (W xff xff xff xff xff xff xff xff)
(T (W xff xff xff xff xff xff xff xff)
(L (W x02 x61 xfe xff x74 x00 x00 x00)) E)
(T (W x00 x00 x80 xbf x00 x00 x80 xbf)
(L (W xff xff xff xff xff xff xff xff)) E)))))
(T (W x6c x00 x00 x00 x60 x00 x00 x00)
(T (W xff xff xff xff xff xff xff xff)
(T (W xff xff xff xff xff xff xff xff)
(T (W xff xff xff xff xff xff xff xff)
(T (W x00 x00 x00 x00 x12 x00 x00 x00)
(L (W x00 x00 x80 xbf x00 x00 x80 xbf))
(L (W x6c x00 x00 x00 x60 x00 x00 x00)))
(T (W x00 x00 x00 x00 x00 x00 x00 x00)
(L (W x46 x53 x59 x53 x5f x4e x53 x5f)) E))
(T (W xff xff xff xff xff xff xff xff)
(T (W xff xff xff xff xff xff xff xff)
(L (W x21 x00 x00 x00 x24 x00 x00 x00)) E)
(T (W x04 x1a xfd xff x1e x00 x00 x00)
(L (W x00 x00 x80 xbf x00 x00 x80 xbf)) E)))
(T (W x00 x00 x00 x00 x00 x00 x00 x00)
(T (W x00 x00 x00 x00 x00 x00 x00 x00)
(T (W x00 x00 x00 x00 x00 x00 x00 x00)
(L (W xbc x00 x00 x00 x46 x00 x00 x00))
(L (W x00 x00 x00 x00 x32 xd8 xff xff)))
(T (W x6c x64 x5f x70 x6f x6b x65 x5f)
(L (W x21 x00 x00 x00 x24 x00 x00 x00)) E))
(T (W x45 x44 x00 x00 x00 x00 x00 x00)
(T (W xff xff xff xff xff xff xff xff)
(L (W x45 x26 x22 x84 xe4 x9c xf2 xcb)) E)
(T (W x00 x00 x00 x00 x00 x00 x00 x00)
(L (W xff xff xff xff xff xff xff xff)) E))))
(T (W xb8 x00 x00 x00 xac x00 x00 x00)
(T (W x00 x00 x00 x00 x00 x00 x00 x00)
(T (W xd4 xb5 xfa xff x00 x01 x01 x01)
(T (W x45 x26 x22 x84 xe4 x9c xf2 xcb)
(L (W xff xff xff xff xff xff xff xff))
(L (W xff xff xff xff xa0 x00 x00 x00)))
(T (W x02 xb1 xfc xff x74 x00 x00 x00)
(L (W x49 xa1 x68 x4a xeb x5f xdd x3d)) E))
(T (W x34 x01 x00 x00 x04 x00 x00 x00)
(T (W x45 x26 x22 x84 xe4 x9c xf2 xcb)
(L (W xff xff xff xff xff xff xff xff)) E)
(T (W x00 x00 x80 xbf x00 x00 x80 xbf)
(L (W x00 x00 x80 xbf x00 x00 x80 xbf)) E)))
(T (W x00 x00 x00 x00 x00 x00 x00 x00)
(T (W x45 x26 x22 x84 xe4 x9c xf2 xcb)
(T (W x00 x00 x80 x3f x00 x00 x80 x3f)
(L (W x4f x84 x6f x8b xe8 xcb x63 xb7))
(L (W x49 xa1 x68 x4a xeb x5f xdd x3d)))
(T (W xff xff xff xff xff xff xff xff)
(L (W xff xff xff xff xff xff xff xff)) E))
(T (W x00 x00 x00 x00 x00 x00 x00 x00)
(T (W x00 x00 x80 x3f x00 x00 x80 x3f)
(L (W xff xff xff xff xff xff xff xff)) E)
(T (W x6c x00 x00 x00 x60 x00 x00 x00)
(L (W x46 x53 x59 x53 x5f x4e x53 x5f)) E))))))))
(T (W x6c x18 x00 x00 x50 x17 x00 x00)
(T (W x64 x00 x00 x00 xa0 x00 x00 x00)
(T (W x00 x00 x80 x3f x00 x00 x80 x3f)
(T (W xff xff xff xff x04 x00 x00 x00)
(T (W xff xff xff xff x0e x00 x00 x00)
(T (W x00 x00 x80 x3f x00 x00 x80 x3f)
(T (W xff xff xff xff xff xff xff xff)
(T (W x30 x32 x5f x43 x4c x45 x41 x52)
(L (W x00 x00 x00 x00 x00 x00 x00 x00))
(L (W x00 x00 x00 x00 xa2 x79 xff xff)))
(T (W x00 x00 x00 x00 x00 x00 x00 x00)
(L (W x18 x00 x00 x00 x0c x00 x00 x00)) E))
(T (W x00 x00 x00 x00 x44 xfa xfa xff)
(T (W x45 x26 x22 x84 xe4 x9c xf2 xcb)
(L (W x33 x44 xbb x28 xbf xcd x6a x6a))
(L (W x10 x00 x04 x00 x08 x00 x0c x00)))
(T (W x5f x4e x53 x5f x30 x32 x5f x43)
(L (W xff xff xff xff xff xff xff xff)) E)))
(T (W x00 x00 x00 x00 x00 x00 x00 x00)
(T (W x00 x00 x00 x00 x00 x00 x00 x00)
(T (W x4f x84 x6f x8b xe8 xcb x63 xb7)
(L (W x45 x26 x22 x84 xe4 x9c xf2 xcb))
(L (W x00 x00 x80 xbf x00 x00 x80 xbf)))
(T (W x00 x00 x00 x00 x00 x00 x00 x00)
(L (W x00 x00 x00 x00 x00 x00 x00 x00)) E))
(T (W xff xff xff xff xff xff xff xff)
(T (W x00 x00 x80 x3f x00 x00 x80 x3f)
(L (W xff xff xff xff xff xff xff xff)) E)
(T (W x00 x00 x80 xbf x00 x00 x80 xbf)
(L (W x00 x00 x00 x00 x00 x00 x00 x00)) E))))
(T (W x00 x00 x00 x00 x00 x00 x00 x00)
(T (W xb8 x00 x00 x00 xac x00 x00 x00)
(T (W x00 x00 x80 x3f x00 x00 x80 x3f)
(T (W x7a x1d x10 x5c x6e x7a x7c x57)
(L (W x4f x84 x6f x8b xe8 xcb x63 xb7))
(L (W x00 x00 x80 xbf x00 x00 x80 xbf)))
(T (W xff xff xff xff xff xff xff xff)
(L (W xff xff xff xff xff xff xff xff)) E))
(T (W x84 x76 x23 x82 xa4 xd7 x61 xf2)
(T (W xff xff xff xff xff xff xff xff)
(L (W x00 x00 x80 xbf x00 x00 x80 xbf)) E)
(T (W x00 x00 x80 xbf x00 x00 x80 xbf)
(L (W x30 x32 x5f x43 x4c x45 x41 x52)) E)))
(T (W xff xff xff xff xff xff xff xff)
(T (W x00 x00 x00 x00 x00 x00 x00 x00)
(T (W xff xff xff xff xff xff xff xff)
(L (W x00 x00 x80 xbf x00 x00 x80 xbf))
(L (W xff xff xff xff xff xff xff xff)))
(T (W xff xff xff xff xff xff xff xff)
(L (W x45 x26 x22 x84 xe4 x9c xf2 xcb)) E))
(T (W x00 x00 x00 x00 x00 x00 x00 x00)
(T (W x54 x00 x00 x00 x48 x00 x00 x00)
(L (W x00 x00 x00 x00 x00 x00 x00 x00)) E)
(T (W x00 x00 x00 x00 x00 x00 x00 x00)
(L (W xd4 x5b xff xff x00 x01 x01 x01)) E)))))
(T (W xff xff xff xff xff xff xff xff)
(T (W x00 x00 x00 x00 x00 x00 x00 x00)
(T (W x00 x00 x80 x3f x00 x00 x80 x3f)
(T (W x18 x00 x00 x00 x0c x00 x00 x00)
(T (W x6c x00 x00 x00 x60 x00 x00 x00)
(L (W x5f x4e x53 x5f x30 x32 x5f x43))
(L (W x00 x00 x00 x00 x00 x00 x00 x00)))
(T (W xe6 x99 x30 x97 x85 x1e x5c x5f)
(L (W xc4 x00 x00 x00 x02 x00 x00 x00)) E))
(T (W x00 x00 x00 x00 x00 x00 x00 x00)
(T (W x00 x00 x80 x3f x00 x00 x80 x3f)
(L (W x00 x00 x00 x00 x00 x00 x00 x00)) E)
(T (W x00 x00 x01 x01 xa1 x01 x00 x00)
(L (W xff xff xff xff xff xff xff xff)) E)))
(T (W x85 x01 x00 x00 xff xff xff xff)
(T (W x40 x00 x00 x00 x0c x00 x00 x00)
(T (W xb2 xc8 xfb xff x78 x00 x00 x00)
(L (W x49 xa1 x68 x4a xeb x5f xdd x3d))
(L (W x19 x00 x00 x00 x1c x00 x00 x00)))
(T (W x52 x54 x4f x4c x4f x53 x00 x00)
(L (W x00 x00 x80 xbf x00 x00 x80 xbf)) E))
(T (W xd4 x4b xfb xff x00 x01 x01 x01)
(T (W x00 x00 x80 x3f x00 x00 x80 x3f)
(L (W xff xff xff xff xff xff xff xff)) E)
(T (W x45 x26 x22 x84 xe4 x9c xf2 xcb)
(L (W x00 x00 x80 xbf x00 x00 x80 xbf)) E))))
(T (W x50 x00 x00 x00 x44 x00 x00 x00)
(T (W x00 x00 x00 x00 x00 x00 x00 x00)
(T (W x00 x00 x00 x00 x00 x00 x00 x00)
(T (W xff xff xff xff x9c x00 x00 x00)
(L (W x00 x00 x80 xbf x00 x00 x80 xbf))
(L (W x00 x00 x80 xbf x00 x00 x80 xbf)))
(T (W x00 x00 x00 x00 x00 x00 x00 x00)
(L (W xff xff xff xff xff xff xff xff)) E))
(T (W x00 x00 x80 x3f x00 x00 x80 x3f)
(T (W xff xff xff xff xff xff xff xff)
(L (W x45 x26 x22 x84 xe4 x9c xf2 xcb)) E)
(T (W x00 x00 x00 x00 x12 x00 x00 x00)
(L (W x00 x00 x00 x00 x00 x00 x00 x00)) E)))
(T (W x85 x03 x00 x00 xff xff xff xff)
(T (W x00 x00 x00 x00 x04 x00 x00 x00)
(T (W x04 xf0 xfb xff x15 x00 x00 x00)
(L (W xff xff xff xff xff xff xff xff))
(L (W xff xff xff xff xff xff xff xff)))
(T (W x6f x6b x65 x5f x77 x61 x72 x6c)
(L (W x68 x00 x00 x00 x5c x00 x00 x00)) E))
(T (W xff xff xff xff x9c x00 x00 x00)
(T (W x00 x00 x00 x00 x00 x00 x00 x00)
(L (W x00 x00 x80 xbf x00 x00 x80 xbf)) E)
(T (W x00 x00 x00 x00 x00 x00 x00 x00)
(L (W x03 x00 x00 x00 xd8 x00 x00 x00)) E))))))
(T (W x00 x00 x00 x00 x00 x00 x00 x00)
(T (W x00 x00 x00 x00 x00 x00 x00 x00)
(T (W x6c x00 x00 x00 x60 x00 x00 x00)
(T (W x45 x26 x22 x84 xe4 x9c xf2 xcb)
(T (W xff xff xff xff x04 x00 x00 x00)
(T (W x00 x00 x80 x3f x00 x00 x80 x3f)
(L (W x00 x00 x00 x00 x00 x00 x00 x00))
(L (W x00 x00 x00 x00 x00 x00 x00 x00)))
(T (W x00 x00 x00 x00 x00 x00 x00 x00)
(L (W xb4 x00 x00 x00 x32 x00 x00 x00)) E))
(T (W xa1 x01 x00 x00 xff xff xff xff)
(T (W x00 x00 x80 x3f x00 x00 x80 x3f)
(L (W x00 x00 x00 x00 x00 x00 x00 x00))
(L (W x30 x32 x5f x43 x4c x45 x41 x52)))
(T (W x00 x00 x00 x00 x00 x00 x00 x00)
(L (W xff xff xff xff xff xff xff xff)) E)))
(T (W x10 x7f xc9 x92 x00 xdf x53 xf4)
(T (W x00 x00 x00 x00 x00 x00 x00 x00)
(T (W x50 x00 x00 x00 x44 x00 x00 x00)
(L (W x00 x00 x00 x00 x00 x00 x00 x00))
(L (W x54 x00 x00 x00 x48 x00 x00 x00)))
(T (W x00 x00 x00 x00 x00 x00 x00 x00)
(L (W x00 x00 x00 x00 x12 x00 x00 x00)) E))
(T (W x5f x77 x69 x6c x64 x5f x70 x6f)
(T (W x45 x26 x22 x84 xe4 x9c xf2 xcb)
(L (W xff xff xff xff xff xff xff xff)) E)
(T (W x50 x00 x00 x00 x44 x00 x00 x00)
(L (W x45 x26 x22 x84 xe4 x9c xf2 xcb)) E))))
(T (W x00 x00 x80 x3f x00 x00 x80 x3f)
(T (W x00 x00 x00 x00 x00 x00 x00 x00)
(T (W x00 x00 x80 x3f x00 x00 x80 x3f)
(T (W x00 x00 x80 x3f x00 x00 x80 x3f)
(L (W xc4 x00 x00 x00 x01 x00 x00 x00))
(L (W xc4 x00 x00 x00 x02 x00 x00 x00)))
(T (W x00 x00 x80 x3f x00 x00 x80 x3f)
(L (W xff xff xff xff xff xff xff xff)) E))
(T (W x4f x84 x6f x8b xe8 xcb x63 xb7)
(T (W xff xff xff xff xff xff xff xff)
(L (W xb2 x20 xfe xff x78 x00 x00 x00)) E)
(T (W xff xff xff xff xff xff xff xff)
(L (W x00 x00 x00 x00 x00 x00 x00 x00)) E)))
(T (W xff xff xff xff xff xff xff xff)
(T (W x00 x00 x00 x00 x00 x00 x00 x00)
(T (W x4b x00 x00 x00 xff xff xff xff)
(L (W x45 x26 x22 x84 xe4 x9c xf2 xcb))
(L (W xb0 x00 x00 x00 x64 x00 x00 x00)))
(T (W x17 x00 x00 x00 x10 x00 x00 x00)
(L (W xd4 xe3 xfe xff x00 x01 x01 x01)) E))
(T (W x54 x00 x00 x00 x48 x00 x00 x00)
(T (W x45 x26 x22 x84 xe4 x9c xf2 xcb)
(L (W x45 x26 x22 x84 xe4 x9c xf2 xcb)) E)
(T (W x00 x00 x00 x00 x00 x00 x00 x00)
(L (W x19 x00 x00 x00 x1c x00 x00 x00)) E)))))
(T (W x00 x00 x80 x3f x00 x00 x80 x3f)
(T (W xbc x00 x00 x00 xb0 x00 x00 x00)
(T (W x00 x00 x00 x00 x44 x12 xfa xff)
(T (W x02 x8f xfa xff x74 x00 x00 x00)
(T (W xff xff xff xff xff xff xff xff)
(L (W x00 x00 x00 x00 x00 x00 x00 x00))
(L (W x49 xa1 x68 x4a xeb x5f xdd x3d)))
(T (W xff xff xff xff xff xff xff xff)
(L (W xff xff xff xff xff xff xff xff)) E))
(T (W x00 x00 x80 x3f x00 x00 x80 x3f)
(T (W xd4 x00 x00 x00 xc8 x00 x00 x00)
(L (W x4f x84 x6f x8b xe8 xcb x63 xb7)) E)
(T (W x03 x00 x00 x00 xbc x00 x00 x00)
(L (W xf4 x06 x00 x00 xd8 x05 x00 x00)) E)))
(T (W xff xff xff xff xff xff xff xff)
(T (W x00 x00 x00 x00 x00 x00 x00 x00)
(T (W xff xff xff xff xff xff xff xff)
(L (W x00 x00 x80 xbf x00 x00 x80 xbf))
(L (W x00 x00 x00 x00 x44 xd2 xff xff)))
(T (W xff xff xff xff xff xff xff xff)
(L (W x00 x00 x80 xbf x00 x00 x80 xbf)) E))
(T (W xff xff xff xff xff xff xff xff)
(T (W x00 x00 x00 x00 x44 x52 xfc xff)
(L (W x00 x00 x00 x00 x00 x00 x00 x00)) E)
(T (W xff xff xff xff xff xff xff xff)
(L (W x50 x00 x00 x00 x44 x00 x00 x00)) E))))
(T (W xb2 xf0 xf9 xff x78 x00 x00 x00)
(T (W x00 x00 x00 x00 x00 x00 x00 x00)
(T (W x45 x26 x22 x84 xe4 x9c xf2 xcb)
(T (W x34 x01 x00 x00 x04 x00 x00 x00)
(L (W xff xff xff xff xff xff xff xff))
(L (W x00 x00 x80 xbf x00 x00 x80 xbf)))
(T (W x00 x00 x80 x3f x00 x00 x80 x3f)
(L (W xff xff xff xff xff xff xff xff)) E))
(T (W x18 x00 x00 x00 x0c x00 x00 x00)
(T (W x16 x00 x00 x00 x10 x00 x00 x00)
(L (W xcc x00 x00 x00 x01 x00 x00 x00)) E)
(T (W x00 x00 x00 x00 x00 x00 x00 x00)
(L (W x00 x00 x00 x00 x00 x00 x00 x00)) E)))
(T (W xff xff xff xff xff xff xff xff)
(T (W x00 x00 x0c x00 x10 x00 x14 x00)
(T (W x00 x00 x00 x00 x00 x00 x00 x00)
(L (W x00 x00 x00 x00 x00 x00 x00 x00))
(L (W x45 x44 x00 x00 x00 x00 x00 x00)))
(T (W x02 xef xfc xff x74 x00 x00 x00)
(L (W xcc x00 x00 x00 x02 x00 x00 x00)) E))
(T (W x62 x79 xfe xff x00 x00 x01 x01)
(T (W x00 x00 x00 x00 x00 x00 x00 x00)
(L (W x00 x00 x00 x00 x44 x72 xfe xff)) E)
(T (W xff xff xff xff xff xff xff xff)
(L (W xff xff xff xff xff xff xff xff)) E)))))))
(T (W x00 x00 x00 x00 xf2 x20 xfd xff)
(T (W xbc x00 x00 x00 xb0 x00 x00 x00)
(T (W xff xff xff xff xff xff xff xff)
(T (W x00 x00 x00 x00 x00 x00 x00 x00)
(T (W x48 x03 x00 x00 x34 x02 x00 x00)
(T (W x45 x26 x22 x84 xe4 x9c xf2 xcb)
(T (W xff xff xff xff xff xff xff xff)
(L (W xff xff xff xff xff xff xff xff))
(L (W x00 x00 x80 xbf x00 x00 x80 xbf)))
(T (W x18 x00 x00 x00 x10 x00 x00 x00)
(L (W x00 x00 x00 x00 x00 x00 x00 x00)) E))
(T (W x00 x00 x80 x3f x00 x00 x80 x3f)
(T (W xff xff xff xff xff xff xff xff)
(L (W x00 x00 x00 x00 x44 xfe xfd xff))
(L (W xdc x00 x00 x00 x01 x00 x00 x00)))
(T (W x00 x00 x00 x00 x00 x00 x00 x00)
(L (W x00 x00 x00 x00 x12 x00 x00 x00)) E)))
(T (W x45 x26 x22 x84 xe4 x9c xf2 xcb)
(T (W xc0 x00 x00 x00 xb4 x00 x00 x00)
(T (W x00 x00 x01 x01 x9c x01 x00 x00)
(L (W x50 x00 x00 x00 x44 x00 x00 x00))
(L (W x00 x00 x00 x00 x00 x00 x00 x00)))
(T (W x00 x00 x00 x00 x44 xbe xfc xff)
(L (W x00 x00 x00 x00 x44 xbe xfe xff)) E))
(T (W x00 x00 x80 x3f x00 x00 x80 x3f)
(T (W xff xff xff xff xff xff xff xff)
(L (W x00 x00 x80 xbf x00 x00 x80 xbf)) E)
(T (W x00 x00 x01 x01 xc7 x01 x00 x00)
(L (W xff xff xff xff xff xff xff xff)) E))))
(T (W xff xff xff xff xff xff xff xff)
(T (W x02 x1b xfa xff x74 x00 x00 x00)
(T (W xff xff xff xff xff xff xff xff)
(T (W xb0 x00 x00 x00 x64 x00 x00 x00)
(L (W xff xff xff xff xff xff xff xff))
(L (W x00 x00 x00 x00 x00 x00 x00 x00)))
(T (W x00 x00 x80 x3f x00 x00 x80 x3f)
(L (W x00 x00 x80 xbf x00 x00 x80 xbf)) E))
(T (W xb8 x00 x00 x00 x14 x00 x00 x00)
(T (W x00 x00 x80 x3f x00 x00 x80 x3f)
(L (W x45 x44 x00 x00 x00 x00 x00 x00)) E)
(T (W x74 x00 x00 x00 x68 x00 x00 x00)
(L (W xb2 x1c xff xff x78 x00 x00 x00)) E)))
(T (W x00 x00 x80 x3f x00 x00 x80 x3f)
(T (W x50 x00 x00 x00 x44 x00 x00 x00)
(T (W x00 x00 x00 x00 x44 xde xfb xff)
(L (W x00 x00 x00 x00 xba x3c xfe xff))
(L (W x00 x00 x00 x00 x00 x00 x00 x00)))
(T (W xb2 xdc xfc xff x78 x00 x00 x00)
(L (W x29 x00 x00 x00 xff xff xff xff)) E))
(T (W xff xff xff xff xff xff xff xff)
(T (W x00 x00 x00 x00 x00 x00 x00 x00)
(L (W xff xff xff xff xff xff xff xff)) E)
(T (W x18 x00 x00 x00 x10 x00 x00 x00)
(L (W x00 x00 x00 x00 x00 x00 x00 x00)) E)))))
(T (W x00 x00 x00 x00 x00 x00 x00 x00)
(T (W x00 x00 x80 x3f x00 x00 x80 x3f)
(T (W xff xff xff xff xff xff xff xff)
(T (W x00 x00 x00 x00 x00 x00 x00 x00)
(T (W x6b x65 x5f x77 x61 x72 x6c x69)
(L (W xff xff xff xff xac x00 x00 x00))
(L (W x19 x00 x00 x00 x1c x00 x00 x00)))
(T (W x00 x00 x80 x3f x00 x00 x80 x3f)
(L (W x00 x00 x80 xbf x00 x00 x80 xbf)) E))
(T (W xff xff xff xff xff xff xff xff)
(T (W x00 x00 x00 x00 x00 x00 x00 x00)
(L (W xff xff xff xff xff xff xff xff)) E)
(T (W xff xff xff xff x9c x00 x00 x00)
(L (W x00 x00 x80 xbf x00 x00 x80 xbf)) E)))
(T (W x00 x00 x80 x3f x00 x00 x80 x3f)
(T (W x00 x00 x00 x00 x44 xce xfa xff)
(T (W x45 x26 x22 x84 xe4 x9c xf2 xcb)
(L (W xff xff xff xff xff xff xff xff))
(L (W x00 x00 x00 x00 x00 x00 x00 x00)))
(T (W x24 x00 x28 x00 x2c x00 x30 x00)
(L (W xff xff xff xff xff xff xff xff)) E))
(T (W x00 x00 x00 x00 x00 x00 x00 x00)
(T (W x6a x5f xff xff x00 x00 x01 x01)
(L (W xd4 x4f xfe xff x00 x01 x01 x01)) E)
(T (W x00 x00 x00 x00 x00 x00 x00 x00)
(L (W x00 x00 x00 x00 x00 x00 x00 x00)) E))))
(T (W x24 x02 x00 x00 xff xff xff xff)
(T (W x01 x00 x00 x00 xa0 x00 x00 x00)
(T (W x18 x00 x00 x00 x10 x00 x00 x00)
(T (W x00 x00 x80 x3f x00 x00 x80 x3f)
(L (W x02 xab xfd xff x74 x00 x00 x00))
(L (W xff xff xff xff xff xff xff xff)))
(T (W xff xff xff xff xff xff xff xff)
(L (W x6c x00 x00 x00 x60 x00 x00 x00)) E))
(T (W x46 x53 x59 x53 x5f x4e x53 x5f)
(T (W xd4 x2f xfc xff x00 x01 x01 x01)
(L (W x4f x84 x6f x8b xe8 xcb x63 xb7)) E)
(T (W xd4 x2f xfd xff x00 x01 x01 x01)
(L (W xff xff xff xff xb0 x00 x00 x00)) E)))
(T (W x00 x00 x00 x00 x00 x00 x00 x00)
(T (W x00 x00 x80 x3f x00 x00 x80 x3f)
(T (W x00 x00 x00 x00 x44 xee xfb xff)
(L (W x00 x00 x80 xbf x00 x00 x80 xbf))
(L (W x00 x00 x80 xbf x00 x00 x80 xbf)))
(T (W x02 xeb xfc xff x74 x00 x00 x00)
(L (W x00 x00 x00 x00 x00 x00 x00 x00)) E))
(T (W x00 x00 x00 x00 x00 x00 x00 x00)
(T (W x64 x00 x00 x00 x9c x00 x00 x00)
(L (W x00 x00 x00 x00 x00 x00 x00 x00)) E)
(T (W xff xff xff xff xff xff xff xff)
(L (W x00 x00 x00 x00 x00 x00 x00 x00)) E))))))
(T (W x00 x00 x80 x3f x00 x00 x80 x3f)
(T (W x54 x00 x00 x00 x48 x00 x00 x00)
(T (W xff xff xff xff xff xff xff xff)
(T (W xff xff xff xff xff xff xff xff)
(T (W x00 x00 x80 x3f x00 x00 x80 x3f)
(T (W xff xff xff xff xff xff xff xff)
(L (W xd4 x87 xfd xff x00 x01 x01 x01))
(L (W xff xff xff xff xb0 x00 x00 x00)))
(T (W x45 x26 x22 x84 xe4 x9c xf2 xcb)
(L (W x00 x00 x00 x00 x00 x00 x00 x00)) E))
(T (W x29 x00 x00 x00 x2c x00 x00 x00)
(T (W x4a x00 x00 x00 xff xff xff xff)
(L (W x1b x00 x00 x00 x1e x00 x00 x00)) E)
(T (W x00 x00 x00 x00 x00 x00 x00 x00)
(L (W x45 x26 x22 x84 xe4 x9c xf2 xcb)) E)))
(T (W x18 x00 x00 x00 x0c x00 x00 x00)
(T (W xff xff xff xff x03 x00 x00 x00)
(T (W x00 x00 x00 x00 x00 x00 x00 x00)
(L (W xff xff xff xff xff xff xff xff))
(L (W x30 x32 x5f x43 x4c x45 x41 x52)))
(T (W x02 xc3 xfc xff x8c x00 x00 x00)
(L (W xc4 x00 x00 x00 x02 x00 x00 x00)) E))
(T (W xff xff xff xff xff xff xff xff)
(T (W xff xff xff xff xff xff xff xff)
(L (W x00 x00 x80 xbf x00 x00 x80 xbf)) E)
(T (W x46 x53 x59 x53 x5f x4e x53 x5f)
(L (W x29 x00 x00 x00 xff xff xff xff)) E))))
(T (W x04 x00 x00 x00 xf2 x80 xfd xff)
(T (W x18 x00 x00 x00 x10 x00 x00 x00)
(T (W xff xff xff xff x04 x00 x00 x00)
(T (W x6b x65 x5f x6c x76 x31 x00 x00)
(L (W x00 x00 x00 x00 x00 x00 x00 x00))
(L (W xb2 xa4 xff xff x78 x00 x00 x00)))
(T (W xff xff xff xff xff xff xff xff)
(L (W x54 x00 x00 x00 x48 x00 x00 x00)) E))
(T (W xff xff xff xff xff xff xff xff)
(T (W x45 x26 x22 x84 xe4 x9c xf2 xcb)
(L (W x18 x00 x00 x00 x0c x00 x00 x00)) E)
(T (W x00 x00 x80 xbf x00 x00 x80 xbf)
(L (W x00 x00 x00 x00 x44 x26 xff xff)) E)))
(T (W x45 x26 x22 x84 xe4 x9c xf2 xcb)
(T (W x00 x00 x80 x3f x00 x00 x80 x3f)
(T (W x45 x26 x22 x84 xe4 x9c xf2 xcb)
(L (W x45 x44 x00 x00 x00 x00 x00 x00))
(L (W x00 x00 x80 xbf x00 x00 x80 xbf)))
(T (W x00 x00 x00 x00 x00 x00 x00 x00)
(L (W x00 x00 x00 x00 x00 x00 x00 x00)) E))
(T (W x00 x00 x00 x00 x00 x00 x00 x00)
(T (W x54 x00 x00 x00 x48 x00 x00 x00)
(L (W x2a x00 x00 x00 xff xff xff xff)) E)
(T (W x03 x00 x00 x00 xd0 x00 x00 x00)
(L (W x49 xa1 x68 x4a xeb x5f xdd x3d)) E)))))
(T (W x01 x00 x00 x00 xa0 x00 x00 x00)
(T (W x00 x00 x01 x01 xc9 x00 x00 x00)
(T (W x00 x00 x00 x00 x00 x00 x00 x00)
(T (W x00 x00 x00 x00 x00 x00 x00 x00)
(T (W x00 x00 x80 x3f x00 x00 x80 x3f)
(L (W xff xff xff xff xff xff xff xff))
(L (W xff xff xff xff xff xff xff xff)))
(T (W x00 x00 x80 x3f x00 x00 x80 x3f)
(L (W x49 xa1 x68 x4a xeb x5f xdd x3d)) E))
(T (W x68 x00 x00 x00 x5c x00 x00 x00)
(T (W x00 x00 x00 x00 x00 x00 x00 x00)
(L (W xff xff xff xff xff xff xff xff)) E)
(T (W x00 x00 x80 xbf x00 x00 x80 xbf)
(L (W x45 x26 x22 x84 xe4 x9c xf2 xcb)) E)))
(T (W x54 x00 x00 x00 x48 x00 x00 x00)
(T (W x45 x26 x22 x84 xe4 x9c xf2 xcb)
(T (W x00 x00 x00 x00 x00 x00 x00 x00)
(L (W x2f x00 x00 x00 xff xff xff xff))
(L (W x00 x00 x00 x00 x00 x00 x00 x00)))
(T (W x00 x00 x80 x3f x00 x00 x80 x3f)
(L (W xff xff xff xff xff xff xff xff)) E))
(T (W xb2 x54 xfb xff x78 x00 x00 x00)
(T (W x00 x00 x00 x00 x12 x00 x00 x00)
(L (W xbc x00 x00 x00 x1e x00 x00 x00)) E)
(T (W x00 x00 x80 xbf x00 x00 x80 xbf)
(L (W x00 x00 x00 x00 x12 x00 x00 x00)) E))))
(T (W xff xff xff xff xff xff xff xff)
(T (W xd4 x37 xfa xff x00 x01 x01 x01)
(T (W xb8 x00 x00 x00 xac x00 x00 x00)
(T (W x00 x00 x00 x00 x44 xb6 xfb xff)
(L (W x00 x00 x00 x00 x00 x00 x00 x00))
(L (W xff xff xff xff xff xff xff xff)))
(T (W xff xff xff xff xff xff xff xff)
(L (W xb2 xb4 xfe xff x78 x00 x00 x00)) E))
(T (W x45 x26 x22 x84 xe4 x9c xf2 xcb)
(T (W xff xff xff xff xff xff xff xff)
(L (W x00 x00 x00 x00 x00 x00 x00 x00)) E)
(T (W xff xff xff xff xff xff xff xff)
(L (W xff xff xff xff xc8 x00 x00 x00)) E)))
(T (W x45 x26 x22 x84 xe4 x9c xf2 xcb)
(T (W xff xff xff xff x03 x00 x00 x00)
(T (W xff xff xff xff xff xff xff xff)
(L (W x6c x00 x00 x00 x60 x00 x00 x00))
(L (W xb2 xf4 xff xff x78 x00 x00 x00)))
(T (W x00 x00 x00 x00 x00 x00 x00 x00)
(L (W x00 x00 x00 x00 x00 x00 x00 x00)) E))
(T (W x00 x00 x80 x3f x00 x00 x80 x3f)
(T (W xff xff xff xff xff xff xff xff)
(L (W x00 x00 x00 x00 x00 x00 x00 x00)) E)
(T (W xff xff xff xff xff xff xff xff)
(L (W x00 x00 x80 xbf x00 x00 x80 xbf)) E)))))))))
(T (W x20 x61 x02 x00 x7c x5c x02 x00)
(T (W x68 xc8 x00 x00 x1c xc6 x00 x00)
(T (W xd4 x82 xf9 xff x00 x01 x01 x01)
(T (W x45 x26 x22 x84 xe4 x9c xf2 xcb)
(T (W x18 x00 x00 x00 x0c x00 x00 x00)
(T (W xff xff xff xff xff xff xff xff)
(T (W x00 x00 x00 x00 x00 x00 x00 x00)
(T (W x18 x00 x00 x00 x0c x00 x00 x00)
(T (W x6a x8a xfe xff x00 x00 x01 x01)
(L (W x00 x00 x00 x00 x00 x00 x00 x00))
(L (W xff xff xff xff xff xff xff xff)))
(T (W x00 x00 x00 x00 x00 x00 x00 x00)
(L (W x6c x00 x00 x00 x60 x00 x00 x00)) E))
(T (W x77 x69 x6c x64 x5f x70 x6f x6b)
(T (W x00 x00 x00 x00 x00 x00 x00 x00)
(L (W xff xff xff xff xff xff xff xff))
(L (W xff xff xff xff xff xff xff xff)))
(T (W x62 x00 x00 x00 x00 x00 x01 x01)
(L (W x18 x00 x00 x00 x0c x00 x00 x00)) E)))
(T (W x96 x01 x00 x00 xff xff xff xff)
(T (W x29 x00 x00 x00 x0c x00 x00 x00)
(T (W x00 x00 x00 x00 x00 x00 x00 x00)
(L (W x00 x00 x00 x00 x00 x00 x00 x00))
(L (W x45 x26 x22 x84 xe4 x9c xf2 xcb)))
(T (W x00 x00 x00 x00 x00 x00 x00 x00)
(L (W xff xff xff xff xff xff xff xff)) E))
(T (W x01 x00 x00 x00 xb0 x00 x00 x00)
(T (W x00 x00 x00 x00 x00 x00 x00 x00)
(L (W x18 x00 x00 x00 x0c x00 x00 x00)) E)
(T (W x00 x00 x00 x00 x00 x00 x00 x00)
(L (W x00 x00 x00 x00 x00 x00 x00 x00)) E))))
(T (W x00 x00 x00 x00 x00 x00 x00 x00)
(T (W x68 x00 x00 x00 x5c x00 x00 x00)
(T (W x00 x00 x10 x00 x14 x00 x18 x00)
(T (W xff xff xff xff xff xff xff xff)
(L (W x12 x00 x00 x00 x46 x53 x59 x53))
(L (W x4f x84 x6f x8b xe8 xcb x63 xb7)))
(T (W x18 x00 x00 x00 x10 x00 x00 x00)
(L (W xff xff xff xff xff xff xff xff)) E))
(T (W xff xff xff xff xff xff xff xff)
(T (W x1c x00 x00 x00 xb0 x00 x00 x00)
(L (W x49 xa1 x68 x4a xeb x5f xdd x3d)) E)
(T (W x00 x00 x00 x00 x00 x00 x00 x00)
(L (W xff xff xff xff xff xff xff xff)) E)))
(T (W xff xff xff xff xff xff xff xff)
(T (W xda xde xfd xff x5e x00 x00 x00)
(T (W xff xff xff xff xff xff xff xff)
(L (W x45 x26 x22 x84 xe4 x9c xf2 xcb))
(L (W x50 x00 x00 x00 x44 x00 x00 x00)))
(T (W xff xff xff xff xff xff xff xff)
(L (W x00 x00 x00 x00 x00 x00 x00 x00)) E))
(T (W x00 x00 x00 x00 x00 x00 x00 x00)
(T (W x00 x00 x80 x3f x00 x00 x80 x3f)
(L (W x00 x00 x00 x00 x00 x00 x00 x00)) E)
(T (W xff xff xff xff xff xff xff xff)
(L (W x54 x00 x00 x00 x48 x00 x00 x00)) E)))))
(T (W xff xff xff xff x03 x00 x00 x00)
(T (W x00 x00 x00 x00 x00 x00 x00 x00)
(T (W x45 x26 x22 x84 xe4 x9c xf2 xcb)
(T (W x00 x00 x80 x3f x00 x00 x80 x3f)
(T (W x00 x00 x80 x3f x00 x00 x80 x3f)
(L (W xba xe7 xff xff x00 x00 x01 x01))
(L (W x00 x00 x00 x00 x00 x00 x00 x00)))
(T (W xff xff xff xff xff xff xff xff)
(L (W x45 x26 x22 x84 xe4 x9c xf2 xcb)) E))
(T (W x00 x00 x00 x00 x00 x00 x00 x00)
(T (W x00 x00 x80 x3f x00 x00 x80 x3f)
(L (W x00 x00 x00 x00 x00 x00 x00 x00)) E)
(T (W xff xff xff xff xff xff xff xff)
(L (W xff xff xff xff xff xff xff xff)) E)))
(T (W xff xff xff xff xff xff xff xff)
(T (W xff xff xff xff xff xff xff xff)
(T (W x50 x00 x00 x00 x44 x00 x00 x00)
(L (W x00 x00 x00 x00 x00 x00 x00 x00))
(L (W x00 x00 x80 xbf x00 x00 x80 xbf)))
(T (W x62 x00 x00 x00 x01 x01 x01 x01)
(L (W x00 x00 x00 x00 x00 x00 x00 x00)) E))
(T (W x00 x00 x00 x00 x00 x00 x00 x00)
(T (W x00 x00 x80 x3f x00 x00 x80 x3f)
(L (W xff xff xff xff xff xff xff xff)) E)
(T (W x00 x00 x80 xbf x00 x00 x80 xbf)
(L (W x00 x00 x80 xbf x00 x00 x80 xbf)) E))))
(T (W x00 x00 x80 x3f x00 x00 x80 x3f)
(T (W x00 x00 x00 x00 x00 x00 x00 x00)
(T (W x00 x00 x00 x00 x00 x00 x00 x00)
(T (W x02 xa6 xfb xff x74 x00 x00 x00)
(L (W x45 x26 x22 x84 xe4 x9c xf2 xcb))
(L (W x00 x00 x00 x00 x00 x00 x00 x00)))
(T (W x00 x00 x00 x00 x00 x00 x00 x00)
(L (W xff xff xff xff xff xff xff xff)) E))
(T (W x4f x84 x6f x8b xe8 xcb x63 xb7)
(T (W xff xff xff xff xff xff xff xff)
(L (W x54 x00 x00 x00 x48 x00 x00 x00)) E)
(T (W x04 x00 x00 x00 xc2 x2e xfd xff)
(L (W xff xff xff xff xff xff xff xff)) E)))
(T (W xff xff xff xff x03 x00 x00 x00)
(T (W xff xff xff xff xff xff xff xff)
(T (W xff xff xff xff xff xff xff xff)
(L (W xff xff xff xff xff xff xff xff))
(L (W x21 x00 x00 x00 x24 x00 x00 x00)))
(T (W xff xff xff xff xff xff xff xff)
(L (W x00 x00 x80 xbf x00 x00 x80 xbf)) E))
(T (W x6c x00 x00 x00 x60 x00 x00 x00)
(T (W x00 x00 x00 x00 x00 x00 x00 x00)
(L (W x45 x26 x22 x84 xe4 x9c xf2 xcb)) E)
(T (W x00 x00 x00 x00 x12 x00 x00 x00)
(L (W x18 x00 x00 x00 x10 x00 x00 x00)) E))))))
(T (W xff xff xff xff x0a x00 x00 x00)
(T (W x00 x00 x00 x00 x00 x00 x00 x00)
(T (W x00 x00 x80 x3f x00 x00 x80 x3f)
(T (W x45 x26 x22 x84 xe4 x9c xf2 xcb)
(T (W x02 x7e xfa xff x74 x00 x00 x00)
(T (W x49 xa1 x68 x4a xeb x5f xdd x3d)
(L (W x46 x53 x59 x53 x5f x4e x53 x5f))
(L (W xff xff xff xff xff xff xff xff)))
(T (W x4a xae x30 x97 x85 x2a x5c x5f)
(L (W xd4 x82 xfe xff x00 x01 x01 x01)) E))
(T (W xff xff xff xff xff xff xff xff)
(T (W x00 x00 x80 x3f x00 x00 x80 x3f)
(L (W x08 x00 x00 x00 x10 x08 x00 x00))
(L (W xff xff xff xff xff xff xff xff)))
(T (W x00 x00 x00 x00 x00 x00 x00 x00)
(L (W x21 x00 x00 x00 x24 x00 x00 x00)) E)))
(T (W xff xff xff xff xff xff xff xff)
(T (W x6a xd2 xfd xff x00 x00 x01 x01)
(T (W x00 x00 x80 x3f x00 x00 x80 x3f)
(L (W x00 x00 x00 x00 x00 x00 x00 x00))
(L (W x00 x00 x80 xbf x00 x00 x80 xbf)))
(T (W x18 x01 x00 x00 x04 x00 x00 x00)
(L (W x00 x00 x00 x00 xc2 xc6 xfe xff)) E))
(T (W xff xff xff xff xff xff xff xff)
(T (W x00 x00 x00 x00 x00 x00 x00 x00)
(L (W xff xff xff xff x9c x00 x00 x00)) E)
(T (W x00 x00 x80 xbf x00 x00 x80 xbf)
(L (W x00 x00 x00 x00 x12 x00 x00 x00)) E))))
(T (W x45 x26 x22 x84 xe4 x9c xf2 xcb)
(T (W xea x30 xfd xff xb6 x01 x00 x00)
(T (W x00 x00 x00 x00 x00 x00 x00 x00)
(T (W x00 x00 x00 x00 x00 x00 x00 x00)
(L (W x00 x00 x00 x00 x00 x00 x00 x00))
(L (W x45 x26 x22 x84 xe4 x9c xf2 xcb)))
(T (W x21 x00 x00 x00 x67 x72 x6f x75)
(L (W xff xff xff xff xff xff xff xff)) E))
(T (W x18 x00 x00 x00 x10 x00 x00 x00)
(T (W x18 x00 x00 x00 x10 x00 x00 x00)
(L (W x00 x00 x80 xbf x00 x00 x80 xbf)) E)
(T (W xff xff xff xff xff xff xff xff)
(L (W x30 x32 x5f x43 x4c x45 x41 x52)) E)))
(T (W xff xff xff xff xff xff xff xff)
(T (W x62 xe8 xfd xff x00 x00 x01 x01)
(T (W xff xff xff xff xff xff xff xff)
(L (W x00 x00 x80 xbf x00 x00 x80 xbf))
(L (W xd4 xe2 xff xff x00 x01 x01 x01)))
(T (W xff xff xff xff xff xff xff xff)
(L (W x45 x26 x22 x84 xe4 x9c xf2 xcb)) E))
(T (W x00 x00 x00 x00 x00 x00 x00 x00)
(T (W xd4 x62 xfc xff x00 x01 x01 x01)
(L (W x00 x00 x00 x00 x00 x00 x00 x00)) E)
(T (W x04 x00 x00 x00 x80 x03 x00 x00)
(L (W xb2 x5f xff xff x78 x00 x00 x00)) E)))))
(T (W x45 x26 x22 x84 xe4 x9c xf2 xcb)
(T (W x45 x26 x22 x84 xe4 x9c xf2 xcb)
(T (W x68 x00 x00 x00 x5c x00 x00 x00)
(T (W x68 x00 x00 x00 x5c x00 x00 x00)
(T (W x01 x00 x00 x00 xac x00 x00 x00)
(L (W x00 x00 x00 x00 x00 x00 x00 x00))
(L (W x00 x00 x00 x00 x00 x00 x00 x00)))
(T (W xff xff xff xff xff xff xff xff)
(L (W xff xff xff xff xb0 x00 x00 x00)) E))
(T (W x00 x00 x00 x00 x00 x00 x00 x00)
(T (W x00 x00 x80 x3f x00 x00 x80 x3f)
(L (W x00 x00 x00 x00 x00 x00 x00 x00)) E)
(T (W x68 x00 x00 x00 x5c x00 x00 x00)
(L (W xff xff xff xff xc4 x00 x00 x00)) E)))
(T (W xff xff xff xff xff xff xff xff)
(T (W x5f x00 x00 x00 xff xff xff xff)
(T (W xd4 x00 x00 x00 xc8 x00 x00 x00)
(L (W x00 x00 x80 xbf x00 x00 x80 xbf))
(L (W x00 x00 x80 xbf x00 x00 x80 xbf)))
(T (W x6c x00 x00 x00 x60 x00 x00 x00)
(L (W x49 xa1 x68 x4a xeb x5f xdd x3d)) E))
(T (W xff xff xff xff x03 x00 x00 x00)
(T (W x00 x00 x80 x3f x00 x00 x80 x3f)
(L (W x92 x01 x00 x00 xff xff xff xff)) E)
(T (W xff xff xff xff xff xff xff xff)
(L (W x00 x00 x80 xbf x00 x00 x80 xbf)) E))))
(T (W x45 x26 x22 x84 xe4 x9c xf2 xcb)
(T (W x00 x00 x00 x00 x00 x00 x00 x00)
(T (W x00 x00 x00 x00 x00 x00 x00 x00)
(T (W xff xff xff xff xff xff xff xff)
(L (W xff xff xff xff xbc x00 x00 x00))
(L (W x00 x00 x80 xbf x00 x00 x80 xbf)))
(T (W x00 x00 x00 x00 x00 x00 x00 x00)
(L (W xff xff xff xff xff xff xff xff)) E))
(T (W x00 x00 x00 x00 x44 x31 xfb xff)
(T (W xff xff xff xff xff xff xff xff)
(L (W x45 x26 x22 x84 xe4 x9c xf2 xcb)) E)
(T (W x00 x00 x00 x00 x00 x00 x00 x00)
(L (W x00 x00 x00 x00 x00 x00 x00 x00)) E)))
(T (W xff xff xff xff xff xff xff xff)
(T (W xff xff xff xff xff xff xff xff)
(T (W x00 x00 x00 x00 x00 x00 x00 x00)
(L (W xff xff xff xff xff xff xff xff))
(L (W xff xff xff xff xff xff xff xff)))
(T (W x00 x00 x80 x3f x00 x00 x80 x3f)
(L (W x45 x26 x22 x84 xe4 x9c xf2 xcb)) E))
(T (W xff xff xff xff xff xff xff xff)
(T (W x17 x00 x00 x00 x10 x00 x00 x00)
(L (W x00 x00 x80 xbf x00 x00 x80 xbf)) E)
(T (W x00 x00 x00 x00 x00 x00 x00 x00)
(L (W xff xff xff xff xff xff xff xff)) E)))))))
(T (W xff xff xff xff xff xff xff xff)
(T (W x45 x26 x22 x84 xe4 x9c xf2 xcb)
(T (W x30 x02 x81 x10 x0b x4a x06 x64)
(T (W x00 x00 x00 x00 x00 x00 x00 x00)
(T (W xff xff xff xff xff xff xff xff)
(T (W x00 x00 x00 x00 x00 x00 x00 x00)
(T (W x50 x00 x00 x00 x44 x00 x00 x00)
(L (W x68 x00 x00 x00 x5c x00 x00 x00))
(L (W x49 xa1 x68 x4a xeb x5f xdd x3d)))
(T (W x45 x26 x22 x84 xe4 x9c xf2 xcb)
(L (W x00 x00 x00 x00 xe2 x7a xfe xff)) E))
(T (W x22 x00 x00 x00 x67 x72 x6f x75)
(T (W xff xff xff xff x03 x00 x00 x00)
(L (W x00 x00 x80 xbf x00 x00 x80 xbf))
(L (W x45 x26 x22 x84 xe4 x9c xf2 xcb)))
(T (W x85 x80 x02 x4c x84 x1f x7f x61)
(L (W x00 x00 x00 x00 x00 x00 x00 x00)) E)))
(T (W x02 x3a xfa xff x74 x00 x00 x00)
(T (W x3e x00 x00 x00 x9c x00 x00 x00)
(T (W xff xff xff xff xff xff xff xff)
(L (W x00 x00 x80 xbf x00 x00 x80 xbf))
(L (W xff xff xff xff xff xff xff xff)))
(T (W x02 xba xfc xff x74 x00 x00 x00)
(L (W x00 x00 x80 xbf x00 x00 x80 xbf)) E))
(T (W x45 x26 x22 x84 xe4 x9c xf2 xcb)
(T (W x18 x00 x00 x00 x10 x00 x00 x00)
(L (W x45 x26 x22 x84 xe4 x9c xf2 xcb)) E)
(T (W xff xff xff xff xff xff xff xff)
(L (W xbc x00 x00 x00 x1e x00 x00 x00)) E))))
(T (W xff xff xff xff xff xff xff xff)
(T (W x70 x5f x77 x69 x6c x64 x5f x70)
(T (W x18 x00 x00 x00 x0c x00 x00 x00)
(T (W xd4 x9e xfb xff x00 x01 x01 x01)
(L (W xc0 x00 x00 x00 x01 x00 x00 x00))
(L (W xff xff xff xff xff xff xff xff)))
(T (W x00 x00 x80 x3f x00 x00 x80 x3f)
(L (W x00 x00 x00 x00 x00 x00 x00 x00)) E))
(T (W xd4 x1e xfb xff x00 x01 x01 x01)
(T (W x00 x00 x00 x00 x00 x00 x00 x00)
(L (W xff xff xff xff xff xff xff xff)) E)
(T (W x45 x26 x22 x84 xe4 x9c xf2 xcb)
(L (W x00 x00 x80 xbf x00 x00 x80 xbf)) E)))
(T (W x00 x00 x00 x00 x00 x00 x00 x00)
(T (W x00 x00 x80 x3f x00 x00 x80 x3f)
(T (W x00 x00 x80 x3f x00 x00 x80 x3f)
(L (W xff xff xff xff xff xff xff xff))
(L (W x00 x00 x00 x00 x12 x00 x00 x00)))
(T (W x00 x00 x80 x3f x00 x00 x80 x3f)
(L (W xff xff xff xff xff xff xff xff)) E))
(T (W x24 x00 x00 x00 xb0 x00 x00 x00)
(T (W x30 x32 x5f x43 x4c x45 x41 x52)
(L (W x00 x00 x00 x00 x44 x5d xfe xff)) E)
(T (W x54 x00 x00 x00 x48 x00 x00 x00)
(L (W x46 x53 x59 x53 x5f x4e x53 x5f)) E)))))
(T (W x00 x00 x00 x00 xf2 x47 xfd xff)
(T (W x00 x00 x80 x3f x00 x00 x80 x3f)
(T (W xff xff xff xff x04 x00 x00 x00)
(T (W x00 x00 x00 x00 x00 x00 x00 x00)
(T (W xff xff xff xff xff xff xff xff)
(L (W x68 x00 x00 x00 x5c x00 x00 x00))
(L (W xb2 x8b xff xff x78 x00 x00 x00)))
(T (W x00 x00 x80 x3f x00 x00 x80 x3f)
(L (W x00 x00 x00 x00 x00 x00 x00 x00)) E))
(T (W xff xff xff xff xc4 x00 x00 x00)
(T (W xff xff xff xff xff xff xff xff)
(L (W x15 x00 x00 x00 x18 x00 x00 x00)) E)
(T (W x00 x00 x80 xbf x00 x00 x80 xbf)
(L (W x00 x00 x00 x00 x00 x00 x00 x00)) E)))
(T (W x00 x00 x80 x3f x00 x00 x80 x3f)
(T (W x6c x00 x00 x00 x60 x00 x00 x00)
(T (W x00 x00 x00 x00 x12 x00 x00 x00)
(L (W xff xff xff xff xa0 x00 x00 x00))
(L (W x00 x00 x00 x00 x00 x00 x00 x00)))
(T (W x03 x00 x00 x00 xd4 x00 x00 x00)
(L (W xc4 x00 x00 x00 x02 x00 x00 x00)) E))
(T (W x00 x00 x00 x00 x00 x00 x00 x00)
(T (W xff xff xff xff xff xff xff xff)
(L (W x00 x00 x80 xbf x00 x00 x80 xbf)) E)
(T (W x45 x44 x00 x00 x00 x00 x00 x00)
(L (W xff xff xff xff xff xff xff xff)) E))))
(T (W xff xff xff xff xff xff xff xff)
(T (W x00 x00 x80 x3f x00 x00 x80 x3f)
(T (W x45 x26 x22 x84 xe4 x9c xf2 xcb)
(T (W x00 x00 x00 x00 x00 x00 x00 x00)
(L (W x50 x00 x00 x00 x44 x00 x00 x00))
(L (W xff xff xff xff xff xff xff xff)))
(T (W xff xff xff xff xff xff xff xff)
(L (W x00 x00 x80 xbf x00 x00 x80 xbf)) E))
(T (W x62 x34 xfe xff x00 x00 x01 x01)
(T (W x00 x00 x00 x00 x00 x00 x00 x00)
(L (W x8e x18 xb9 x28 xbf xd3 x67 x6a)) E)
(T (W x00 x00 x80 xbf x00 x00 x80 xbf)
(L (W x00 x00 x00 x00 x44 x2d xff xff)) E)))
(T (W x00 x00 x00 x00 x00 x00 x00 x00)
(T (W x45 x26 x22 x84 xe4 x9c xf2 xcb)
(T (W x00 x00 x80 x3f x00 x00 x80 x3f)
(L (W x4f x84 x6f x8b xe8 xcb x63 xb7))
(L (W x4f x84 x6f x8b xe8 xcb x63 xb7)))
(T (W x00 x00 x80 x3f x00 x00 x80 x3f)
(L (W x00 x00 x00 x00 x00 x00 x00 x00)) E))
(T (W x00 x00 x00 x00 x00 x00 x00 x00)
(T (W x18 x00 x00 x00 x0c x00 x00 x00)
(L (W x2a x00 x00 x00 xff xff xff xff)) E)
(T (W x03 x00 x00 x00 xd0 x00 x00 x00)
(L (W x46 x53 x59 x53 x5f x4e x53 x5f)) E))))))
(T (W x45 x26 x22 x84 xe4 x9c xf2 xcb)
(T (W x00 x00 x80 x3f x00 x00 x80 x3f)
(T (W xff xff xff xff xff xff xff xff)
(T (W xff xff xff xff xff xff xff xff)
(T (W x00 x00 x00 x00 x00 x00 x00 x00)
(T (W x01 x00 x00 x00 x15 x00 x00 x00)
(L (W x00 x00 x80 xbf x00 x00 x80 xbf))
(L (W x00 x00 x80 xbf x00 x00 x80 xbf)))
(T (W x00 x00 x80 x3f x00 x00 x80 x3f)
(L (W x16 x00 x00 x00 x0c x00 x00 x00)) E))
(T (W xb2 x03 xfb xff x78 x00 x00 x00)
(T (W xff xff xff xff xff xff xff xff)
(L (W x00 x00 x00 x00 x44 x05 xfe xff)) E)
(T (W x28 x00 x00 x00 x10 x00 x00 x00)
(L (W x00 x00 x00 x00 x00 x00 x00 x00)) E)))
(T (W x00 x00 x80 x3f x00 x00 x80 x3f)
(T (W x50 x00 x00 x00 x44 x00 x00 x00)
(T (W xac x05 x00 x00 x84 x04 x00 x00)
(L (W xcc x00 x00 x00 x02 x00 x00 x00))
(L (W x00 x00 x01 x01 x5c x00 x00 x00)))
(T (W x00 x00 x80 x3f x00 x00 x80 x3f)
(L (W x45 x26 x22 x84 xe4 x9c xf2 xcb)) E))
(T (W xc8 x00 x00 x00 xbc x00 x00 x00)
(T (W xff xff xff xff xff xff xff xff)
(L (W x49 xa1 x68 x4a xeb x5f xdd x3d)) E)
(T (W x00 x00 x00 x00 xa2 x44 xfd xff)
(L (W xff xff xff xff xff xff xff xff)) E))))
(T (W xff xff xff xff xff xff xff xff)
(T (W xd4 x26 xfa xff x00 x01 x01 x01)
(T (W x02 xa2 xfa xff x74 x00 x00 x00)
(T (W xff xff xff xff xff xff xff xff)
(L (W x00 x00 x00 x00 x00 x00 x00 x00))
(L (W x00 x00 x80 xbf x00 x00 x80 xbf)))
(T (W x45 x26 x22 x84 xe4 x9c xf2 xcb)
(L (W x00 x00 x80 xbf x00 x00 x80 xbf)) E))
(T (W xff xff xff xff xc4 x00 x00 x00)
(T (W x00 x00 x00 x00 x00 x00 x00 x00)
(L (W xff xff xff xff xff xff xff xff)) E)
(T (W x00 x00 x80 xbf x00 x00 x80 xbf)
(L (W x00 x00 x80 xbf x00 x00 x80 xbf)) E)))
(T (W x00 x00 x00 x00 x00 x00 x00 x00)
(T (W x00 x00 x00 x00 x00 x00 x00 x00)
(T (W x00 x00 x80 x3f x00 x00 x80 x3f)
(L (W xff xff xff xff xff xff xff xff))
(L (W x00 x00 x00 x00 x00 x00 x00 x00)))
(T (W x70 x5f x6c x65 x61 x64 x65 x72)
(L (W x5c x00 x00 x00 xff xff xff xff)) E))
(T (W xa5 x01 x00 x00 xff xff xff xff)
(T (W x00 x00 x00 x00 x02 x00 x00 x00)
(L (W xff xff xff xff xff xff xff xff)) E)
(T (W x68 x00 x00 x00 x5c x00 x00 x00)
(L (W x15 x00 x00 x00 x0c x00 x00 x00)) E)))))
(T (W x00 x00 x00 x00 x44 xb5 xf9 xff)
(T (W xff xff xff xff xff xff xff xff)
(T (W x12 xa2 x6c x4b x7d xc6 x8d x00)
(T (W x5c xa4 xfa xff x3e x00 x00 x00)
(T (W x45 x26 x22 x84 xe4 x9c xf2 xcb)
(L (W x45 x26 x22 x84 xe4 x9c xf2 xcb))
(L (W xff xff xff xff x9c x00 x00 x00)))
(T (W x00 x00 x00 x00 x00 x00 x00 x00)
(L (W x00 x00 x00 x00 x00 x00 x00 x00)) E))
(T (W x6b x65 x5f x77 x61 x72 x6c x69)
(T (W x00 x00 x00 x00 x00 x00 x00 x00)
(L (W xff xff xff xff xff xff xff xff)) E)
(T (W x00 x00 x00 x00 x00 x00 x00 x00)
(L (W x00 x00 x80 xbf x00 x00 x80 xbf)) E)))
(T (W x45 x26 x22 x84 xe4 x9c xf2 xcb)
(T (W x00 x00 x80 x3f x00 x00 x80 x3f)
(T (W x00 x00 x00 x00 x00 x00 x00 x00)
(L (W xff xff xff xff xff xff xff xff))
(L (W x00 x00 x00 x00 x00 x00 x00 x00)))
(T (W x00 x00 x80 x3f x00 x00 x80 x3f)
(L (W xff xff xff xff xff xff xff xff)) E))
(T (W x00 x00 x00 x00 x00 x00 x00 x00)
(T (W x34 x01 x00 x00 x04 x00 x00 x00)
(L (W xd4 x56 xfe xff x00 x01 x01 x01)) E)
(T (W x00 x00 x80 xbf x00 x00 x80 xbf)
(L (W x00 x00 x00 x00 x00 x00 x00 x00)) E))))
(T (W xff xff xff xff xff xff xff xff)
(T (W x00 x00 x80 x3f x00 x00 x80 x3f)
(T (W x18 x00 x00 x00 x10 x00 x00 x00)
(T (W x00 x00 x80 x3f x00 x00 x80 x3f)
(L (W xff xff xff xff x0b x00 x00 x00))
(L (W xff xff xff xff xff xff xff xff)))
(T (W x00 x00 x00 x00 x44 xb5 xfc xff)
(L (W x00 x00 x80 xbf x00 x00 x80 xbf)) E))
(T (W x00 x00 x00 x00 x12 x00 x00 x00)
(T (W x1c x00 x00 x00 xb0 x00 x00 x00)
(L (W x30 x32 x5f x43 x4c x45 x41 x52)) E)
(T (W x18 x00 x00 x00 x0c x00 x00 x00)
(L (W x45 x26 x22 x84 xe4 x9c xf2 xcb)) E)))
(T (W x00 x00 x00 x00 x00 x00 x00 x00)
(T (W x40 x00 x00 x00 x9c x00 x00 x00)
(T (W x50 x00 x00 x00 x44 x00 x00 x00)
(L (W x00 x00 x80 xbf x00 x00 x80 xbf))
(L (W x00 x00 x80 xbf x00 x00 x80 xbf)))
(T (W x00 x00 x00 x00 x00 x00 x00 x00)
(L (W x45 x44 x00 x00 x00 x00 x00 x00)) E))
(T (W x49 xa1 x68 x4a xeb x5f xdd x3d)
(T (W x00 x00 x80 x3f x00 x00 x80 x3f)
(L (W x94 x04 x00 x00 x80 x03 x00 x00)) E)
(T (W x18 x00 x00 x00 x0c x00 x00 x00)
(L (W x00 x00 x00 x00 x00 x00 x00 x00)) E))))))))
(T (W x00 x00 x80 x3f x00 x00 x80 x3f)
(T (W xff xff xff xff xff xff xff xff)
(T (W x00 x00 x80 x3f x00 x00 x80 x3f)
(T (W xff xff xff xff xff xff xff xff)
(T (W x00 x00 x00 x00 x00 x00 x00 x00)
(T (W x02 xf8 xf9 xff x74 x00 x00 x00)
(T (W xff xff xff xff xff xff xff xff)
(T (W x00 x00 x00 x00 x00 x00 x00 x00)
(L (W x00 x00 x80 xbf x00 x00 x80 xbf))
(L (W x46 x53 x59 x53 x5f x4e x53 x5f)))
(T (W x00 x00 x80 x3f x00 x00 x80 x3f)
(L (W xff xff xff xff xff xff xff xff)) E))
(T (W xff xff xff xff xff xff xff xff)
(T (W x6c x00 x00 x00 x60 x00 x00 x00)
(L (W x00 x00 x00 x00 x00 x00 x00 x00))
(L (W x13 x00 x00 x00 x16 x00 x00 x00)))
(T (W x02 xf8 xfc xff x74 x00 x00 x00)
(L (W xff xff xff xff xff xff xff xff)) E)))
(T (W x00 x00 x00 x00 x00 x00 x00 x00)
(T (W x00 x00 x80 x3f x00 x00 x80 x3f)
(T (W x00 x00 x80 x3f x00 x00 x80 x3f)
(L (W x00 x00 x80 xbf x00 x00 x80 xbf))
(L (W x50 x00 x00 x00 x44 x00 x00 x00)))
(T (W x00 x00 x80 x3f x00 x00 x80 x3f)
(L (W x4f x84 x6f x8b xe8 xcb x63 xb7)) E))
(T (W x34 x01 x00 x00 x04 x00 x00 x00)
(T (W x00 x00 x80 x3f x00 x00 x80 x3f)
(L (W x04 x00 x00 x00 xc2 x40 xfe xff)) E)
(T (W x00 x00 x80 xbf x00 x00 x80 xbf)
(L (W x45 x26 x22 x84 xe4 x9c xf2 xcb)) E))))
(T (W x00 x00 x80 x3f x00 x00 x80 x3f)
(T (W xff xff xff xff xff xff xff xff)
(T (W x00 x00 x80 x3f x00 x00 x80 x3f)
(T (W x00 x00 x00 x00 x00 x00 x00 x00)
(L (W x00 x00 x80 xbf x00 x00 x80 xbf))
(L (W x54 x00 x00 x00 x48 x00 x00 x00)))
(T (W xff xff xff xff xff xff xff xff)
(L (W x00 x00 x00 x00 x00 x00 x00 x00)) E))
(T (W x00 x00 x00 x00 x00 x00 x00 x00)
(T (W xff xff xff xff xff xff xff xff)
(L (W x6c x00 x00 x00 x60 x00 x00 x00)) E)
(T (W xff xff xff xff xff xff xff xff)
(L (W x00 x00 x00 x00 x00 x00 x00 x00)) E)))
(T (W xea x6a xfd xff x83 x01 x00 x00)
(T (W x00 x00 x00 x00 x00 x00 x00 x00)
(T (W x00 x00 x00 x00 x00 x00 x00 x00)
(L (W x00 x00 x00 x00 x44 xdb xfd xff))
(L (W xff xff xff xff xff xff xff xff)))
(T (W x5c xea xfc xff x14 x00 x00 x00)
(L (W xd4 xdc xfe xff x00 x01 x01 x01)) E))
(T (W x00 x00 x00 x00 x00 x00 x00 x00)
(T (W x45 x26 x22 x84 xe4 x9c xf2 xcb)
(L (W x00 x00 x80 xbf x00 x00 x80 xbf)) E)
(T (W x00 x00 x00 x00 x12 x00 x00 x00)
(L (W xb0 x00 x00 x00 x64 x00 x00 x00)) E)))))
(T (W xff xff xff xff xff xff xff xff)
(T (W x00 x00 x00 x00 x00 x00 x00 x00)
(T (W x00 x00 x80 x3f x00 x00 x80 x3f)
(T (W xff xff xff xff xff xff xff xff)
(T (W x18 x00 x00 x00 x10 x00 x00 x00)
(L (W x00 x00 x00 x00 x00 x00 x00 x00))
(L (W x00 x00 x00 x00 x00 x00 x00 x00)))
(T (W x00 x00 x00 x00 x00 x00 x00 x00)
(L (W xff xff xff xff xff xff xff xff)) E))
(T (W x00 x00 x80 x3f x00 x00 x80 x3f)
(T (W xd4 x00 x00 x00 xc8 x00 x00 x00)
(L (W x00 x00 x80 xbf x00 x00 x80 xbf)) E)
(T (W x00 x00 x00 x00 x00 x00 x00 x00)
(L (W x00 x00 x00 x00 x00 x00 x00 x00)) E)))
(T (W x00 x00 x00 x00 x00 x00 x00 x00)
(T (W x00 x00 x00 x00 x00 x00 x00 x00)
(T (W xff xff xff xff x9c x00 x00 x00)
(L (W x00 x00 x80 xbf x00 x00 x80 xbf))
(L (W xff xff xff xff xff xff xff xff)))
(T (W xff xff xff xff xff xff xff xff)
(L (W x00 x00 x80 xbf x00 x00 x80 xbf)) E))
(T (W xbc x00 x00 x00 x14 x00 x00 x00)
(T (W x68 x00 x00 x00 x5c x00 x00 x00)
(L (W x5c x5a xfe xff x06 x00 x00 x00)) E)
(T (W xff xff xff xff xbc x00 x00 x00)
(L (W x68 x00 x00 x00 x5c x00 x00 x00)) E))))
(T (W x02 xe8 xf9 xff x74 x00 x00 x00)
(T (W x00 x00 x00 x00 x00 x00 x00 x00)
(T (W x50 x00 x00 x00 x44 x00 x00 x00)
(T (W xff xff xff xff xff xff xff xff)
(L (W x00 x00 x80 xbf x00 x00 x80 xbf))
(L (W xb2 xa9 xff xff x78 x00 x00 x00)))
(T (W x02 xa8 xfc xff x74 x00 x00 x00)
(L (W x00 x00 x00 x00 x00 x00 x00 x00)) E))
(T (W x45 x26 x22 x84 xe4 x9c xf2 xcb)
(T (W xb6 x01 x00 x00 xff xff xff xff)
(L (W xcc x00 x00 x00 x02 x00 x00 x00)) E)
(T (W x45 x26 x22 x84 xe4 x9c xf2 xcb)
(L (W x00 x00 x00 x00 x00 x00 x00 x00)) E)))
(T (W x00 x00 x00 x00 x00 x00 x00 x00)
(T (W x00 x00 x00 x00 x00 x00 x00 x00)
(T (W x4f x84 x6f x8b xe8 xcb x63 xb7)
(L (W x00 x00 x00 x00 x00 x00 x00 x00))
(L (W xff xff xff xff xff xff xff xff)))
(T (W x4f x84 x6f x8b xe8 xcb x63 xb7)
(L (W xff xff xff xff xff xff xff xff)) E))
(T (W xff xff xff xff xff xff xff xff)
(T (W x00 x00 x80 x3f x00 x00 x80 x3f)
(L (W x68 x00 x00 x00 x5c x00 x00 x00)) E)
(T (W x54 x00 x00 x00 x48 x00 x00 x00)
(L (W xff xff xff xff xff xff xff xff)) E))))))
(T (W x00 x00 x00 x00 x00 x00 x00 x00)
(T (W x45 x26 x22 x84 xe4 x9c xf2 xcb)
(T (W x45 x26 x22 x84 xe4 x9c xf2 xcb)
(T (W x00 x00 x80 x3f x00 x00 x80 x3f)
(T (W xff xff xff xff xff xff xff xff)
(T (W x54 x00 x00 x00 x48 x00 x00 x00)
(L (W x40 x0f x00 x00 x14 x0e x00 x00))
(L (W x00 x00 x00 x00 x00 x00 x00 x00)))
(T (W x00 x00 x00 x00 x00 x00 x00 x00)
(L (W xff xff xff xff xff xff xff xff)) E))
(T (W x45 x44 x00 x00 x00 x00 x00 x00)
(T (W x50 x00 x00 x00 x44 x00 x00 x00)
(L (W x00 x00 x80 xbf x00 x00 x80 xbf))
(L (W x58 x00 x48 x00 x50 x00 x04 x00)))
(T (W x3c x00 x00 x00 x00 x00 x80 xbf)
(L (W xff xff xff xff xff xff xff xff)) E)))
(T (W x00 x00 x00 x00 x00 x00 x00 x00)
(T (W x00 x00 x00 x00 x00 x00 x00 x00)
(T (W xc8 x00 x00 x00 xbc x00 x00 x00)
(L (W x00 x00 x80 xbf x00 x00 x80 xbf))
(L (W x45 x26 x22 x84 xe4 x9c xf2 xcb)))
(T (W x00 x00 x00 x00 x00 x00 x00 x00)
(L (W x45 x26 x22 x84 xe4 x9c xf2 xcb)) E))
(T (W x00 x00 x80 x3f x00 x00 x80 x3f)
(T (W xb2 x41 xfc xff x78 x00 x00 x00)
(L (W x30 x32 x5f x43 x4c x45 x41 x52)) E)
(T (W xff xff xff xff xff xff xff xff)
(L (W xd4 x44 xff xff x00 x01 x01 x01)) E))))
(T (W x00 x00 x80 x3f x00 x00 x80 x3f)
(T (W x00 x00 x00 x00 x00 x00 x00 x00)
(T (W x00 x00 x80 x3f x00 x00 x80 x3f)
(T (W x68 x00 x00 x00 x5c x00 x00 x00)
(L (W xff xff xff xff xff xff xff xff))
(L (W x38 x00 x3c x00 x40 x00 x44 x00)))
(T (W x00 x00 x80 x3f x00 x00 x80 x3f)
(L (W xc3 x97 xaa x28 xbf xcb x56 x6a)) E))
(T (W x00 x00 x80 x3f x00 x00 x80 x3f)
(T (W x00 x00 x00 x00 x00 x00 x00 x00)
(L (W x21 x00 x00 x00 x24 x00 x00 x00)) E)
(T (W x00 x00 x00 x00 x00 x00 x00 x00)
(L (W x4f x84 x6f x8b xe8 xcb x63 xb7)) E)))
(T (W x00 x00 x00 x00 x00 x00 x00 x00)
(T (W x00 x00 x00 x00 x00 x00 x00 x00)
(T (W x4c x45 x41 x52 x45 x44 x00 x00)
(L (W xcc x00 x00 x00 x02 x00 x00 x00))
(L (W x00 x00 x01 x01 x5d x00 x00 x00)))
(T (W x00 x00 x80 x3f x00 x00 x80 x3f)
(L (W xbc x00 x00 x00 x1e x00 x00 x00)) E))
(T (W x18 x00 x00 x00 x10 x00 x00 x00)
(T (W xff xff xff xff xff xff xff xff)
(L (W x00 x00 x80 xbf x00 x00 x80 xbf)) E)
(T (W x00 x00 x80 xbf x00 x00 x80 xbf)
(L (W xff xff xff xff xff xff xff xff)) E)))))
(T (W x00 x00 x80 x3f x00 x00 x80 x3f)
(T (W xff xff xff xff xff xff xff xff)
(T (W xff xff xff xff xff xff xff xff)
(T (W xff xff xff xff xff xff xff xff)
(T (W x34 x01 x00 x00 x04 x00 x00 x00)
(L (W x00 x00 x80 xbf x00 x00 x80 xbf))
(L (W x00 x00 x80 xbf x00 x00 x80 xbf)))
(T (W xb2 xa0 x30 x97 x85 x22 x5c x5f)
(L (W x04 x00 x00 x00 xa2 x92 xfe xff)) E))
(T (W xd4 x00 x00 x00 xc8 x00 x00 x00)
(T (W xff xff xff xff xff xff xff xff)
(L (W x00 x00 x80 xbf x00 x00 x80 xbf)) E)
(T (W xff xff xff xff xff xff xff xff)
(L (W x00 x00 x00 x00 x00 x00 x00 x00)) E)))
(T (W x89 xd1 x59 x46 x48 x99 xd6 x99)
(T (W x00 x00 x00 x00 x00 x00 x00 x00)
(T (W xff xff xff xff xff xff xff xff)
(L (W xd4 xd4 xfd xff x00 x01 x01 x01))
(L (W xff xff xff xff xff xff xff xff)))
(T (W xff xff xff xff xff xff xff xff)
(L (W xb2 xd1 xfe xff x78 x00 x00 x00)) E))
(T (W x9f x01 x00 x00 xff xff xff xff)
(T (W x18 x00 x00 x00 x0c x00 x00 x00)
(L (W x00 x00 x00 x00 x00 x00 x00 x00)) E)
(T (W x6a xc0 x1c x76 x80 xbe xf7 x18)
(L (W xff xff xff xff xff xff xff xff)) E))))
(T (W x18 x00 x00 x00 x10 x00 x00 x00)
(T (W x00 x00 x00 x00 x00 x00 x00 x00)
(T (W x00 x00 x80 x3f x00 x00 x80 x3f)
(T (W x00 x00 x00 x00 x12 x00 x00 x00)
(L (W xff xff xff xff xff xff xff xff))
(L (W xb2 xb1 xff xff x78 x00 x00 x00)))
(T (W x00 x00 x80 x3f x00 x00 x80 x3f)
(L (W x5c xc2 xfe xff x15 x00 x00 x00)) E))
(T (W xff xff xff xff xff xff xff xff)
(T (W x00 x00 x00 x00 x00 x00 x00 x00)
(L (W xff xff xff xff xff xff xff xff)) E)
(T (W x00 x00 x80 xbf x00 x00 x80 xbf)
(L (W x00 x00 x00 x00 x00 x00 x00 x00)) E)))
(T (W x48 x03 x00 x00 x34 x02 x00 x00)
(T (W x00 x00 x80 x3f x00 x00 x80 x3f)
(T (W x45 x26 x22 x84 xe4 x9c xf2 xcb)
(L (W x00 x00 x00 x00 x00 x00 x00 x00))
(L (W x00 x00 x00 x00 x00 x00 x00 x00)))
(T (W x1c x00 x00 x00 x9c x00 x00 x00)
(L (W xff xff xff xff xff xff xff xff)) E))
(T (W x46 x53 x59 x53 x5f x4e x53 x5f)
(T (W x00 x00 x00 x00 x00 x00 x00 x00)
(L (W xff xff xff xff xb0 x00 x00 x00)) E)
(T (W x00 x00 x00 x00 x00 x00 x00 x00)
(L (W x00 x00 x01 x01 xaf x00 x00 x00)) E)))))))
(T (W x00 x00 x00 x00 x00 x00 x00 x00)
(T (W xff xff xff xff xff xff xff xff)
(T (W x00 x00 x00 x00 x7a x38 xfd xff)
(T (W x00 x00 x80 x3f x00 x00 x80 x3f)
(T (W x00 x00 x00 x00 x00 x00 x00 x00)
(T (W x00 x00 x80 x3f x00 x00 x80 x3f)
(T (W xff xff xff xff xff xff xff xff)
(L (W xff xff xff xff xff xff xff xff))
(L (W x17 x00 x00 x00 x1a x00 x00 x00)))
(T (W xff xff xff xff xff xff xff xff)
(L (W x00 x00 x80 xbf x00 x00 x80 xbf)) E))
(T (W xb2 xfd xfa xff x78 x00 x00 x00)
(T (W x00 x00 x00 x00 x04 x00 x00 x00)
(L (W x21 x00 x00 x00 x24 x00 x00 x00))
(L (W x00 x00 x00 x00 x00 x00 x00 x00)))
(T (W x54 x00 x00 x00 x48 x00 x00 x00)
(L (W x00 x00 x00 x00 x00 x00 x00 x00)) E)))
(T (W x01 x00 x00 x00 x9c x00 x00 x00)
(T (W xff xff xff xff xff xff xff xff)
(T (W x4c x45 x41 x52 x45 x44 x00 x00)
(L (W x02 xbc xfd xff x74 x00 x00 x00))
(L (W x00 x00 x00 x00 x12 x00 x00 x00)))
(T (W xff xff xff xff xff xff xff xff)
(L (W xff xff xff xff xff xff xff xff)) E))
(T (W x00 x00 x00 x00 x44 x3f xfb xff)
(T (W x00 x00 x00 x00 x00 x00 x00 x00)
(L (W x00 x00 x80 xbf x00 x00 x80 xbf)) E)
(T (W x30 x32 x5f x43 x4c x45 x41 x52)
(L (W xff xff xff xff xff xff xff xff)) E))))
(T (W x4e x29 x0c xc1 xeb x20 x39 x03)
(T (W x45 x26 x22 x84 xe4 x9c xf2 xcb)
(T (W x1c x01 x00 x00 x04 x00 x00 x00)
(T (W xff xff xff xff xff xff xff xff)
(L (W xc9 x00 x00 x00 xff xff xff xff))
(L (W x00 x00 x00 x00 x00 x00 x00 x00)))
(T (W xff xff xff xff xff xff xff xff)
(L (W xb2 x9d xfe xff x78 x00 x00 x00)) E))
(T (W xff xff xff xff xff xff xff xff)
(T (W x00 x00 x80 x3f x00 x00 x80 x3f)
(L (W x00 x00 x00 x00 x00 x00 x00 x00)) E)
(T (W x14 x00 x00 x00 x0c x00 x00 x00)
(L (W xff xff xff xff x9c x00 x00 x00)) E)))
(T (W xd4 x60 xfa xff x00 x01 x01 x01)
(T (W xbc x00 x00 x00 xb0 x00 x00 x00)
(T (W x18 x00 x00 x00 x0c x00 x00 x00)
(L (W x46 x53 x59 x53 x5f x4e x53 x5f))
(L (W x00 x00 x80 xbf x00 x00 x80 xbf)))
(T (W x19 x00 x00 x00 x1c x00 x00 x00)
(L (W x00 x00 x00 x00 x00 x00 x00 x00)) E))
(T (W x76 x31 x00 x00 xf2 xf9 xfe xff)
(T (W x4f x84 x6f x8b xe8 xcb x63 xb7)
(L (W x00 x00 x00 x00 x32 x63 xfe xff)) E)
(T (W x03 x00 x00 x00 xd0 x00 x00 x00)
(L (W x00 x00 x80 xbf x00 x00 x80 xbf)) E)))))
(T (W x00 x00 x00 x00 x00 x00 x00 x00)
(T (W x00 x00 x80 x3f x00 x00 x80 x3f)
(T (W x00 x00 x00 x00 x12 x1d xff xff)
(T (W x00 x00 x80 x3f x00 x00 x80 x3f)
(T (W x00 x00 x80 x3f x00 x00 x80 x3f)
(L (W xff xff xff xff xff xff xff xff))
(L (W xff xff xff xff xff xff xff xff)))
(T (W x45 x26 x22 x84 xe4 x9c xf2 xcb)
(L (W x00 x00 x80 xbf x00 x00 x80 xbf)) E))
(T (W xff xff xff xff xff xff xff xff)
(T (W x00 x00 x00 x00 x00 x00 x00 x00)
(L (W xff xff xff xff xff xff xff xff)) E)
(T (W x28 x00 x2c x00 x30 x00 x34 x00)
(L (W x54 x00 x00 x00 x48 x00 x00 x00)) E)))
(T (W xc0 x00 x00 x00 xb4 x00 x00 x00)
(T (W xff xff xff xff xff xff xff xff)
(T (W x00 x00 x80 x3f x00 x00 x80 x3f)
(L (W xff xff xff xff xff xff xff xff))
(L (W x00 x00 x00 x00 x00 x00 x00 x00)))
(T (W x00 x00 x80 x3f x00 x00 x80 x3f)
(L (W xff xff xff xff xff xff xff xff)) E))
(T (W x00 x00 x80 x3f x00 x00 x80 x3f)
(T (W x30 x32 x5f x43 x4c x45 x41 x52)
(L (W xbc x00 x00 x00 x46 x00 x00 x00)) E)
(T (W x00 x00 x80 xbf x00 x00 x80 xbf)
(L (W x00 x00 x00 x00 x00 x00 x00 x00)) E))))
(T (W x00 x00 x00 x00 x00 x00 x00 x00)
(T (W xff xff xff xff x03 x00 x00 x00)
(T (W xff xff xff xff xff xff xff xff)
(T (W x00 x00 x80 x3f x00 x00 x80 x3f)
(L (W x45 x26 x22 x84 xe4 x9c xf2 xcb))
(L (W x5f x00 x00 x00 xff xff xff xff)))
(T (W x18 x01 x00 x00 x04 x00 x00 x00)
(L (W x45 x26 x22 x84 xe4 x9c xf2 xcb)) E))
(T (W x00 x00 x00 x00 x00 x00 x00 x00)
(T (W xb8 x00 x00 x00 x28 x00 x00 x00)
(L (W x00 x00 x80 xbf x00 x00 x80 xbf)) E)
(T (W xb8 x00 x00 x00 x64 x00 x00 x00)
(L (W xff xff xff xff xff xff xff xff)) E)))
(T (W x00 x00 x80 x3f x00 x00 x80 x3f)
(T (W x50 x00 x00 x00 x44 x00 x00 x00)
(T (W xff xff xff xff xff xff xff xff)
(L (W x54 x00 x00 x00 x48 x00 x00 x00))
(L (W x00 x00 x80 xbf x00 x00 x80 xbf)))
(T (W x94 x01 x00 x00 xff xff xff xff)
(L (W x00 x00 x80 xbf x00 x00 x80 xbf)) E))
(T (W x45 x26 x22 x84 xe4 x9c xf2 xcb)
(T (W xff xff xff xff xff xff xff xff)
(L (W x00 x00 x00 x00 x00 x00 x00 x00)) E)
(T (W x02 x00 x00 x00 x30 x01 x00 x00)
(L (W xb2 x6d xff xff x78 x00 x00 x00)) E))))))
(T (W x00 x00 x80 x3f x00 x00 x80 x3f)
(T (W xd4 xa8 xf9 xff x00 x01 x01 x01)
(T (W xff xff xff xff xff xff xff xff)
(T (W x27 x00 x00 x00 x10 x00 x00 x00)
(T (W x00 x00 x80 x3f x00 x00 x80 x3f)
(T (W x6b x65 x5f x6c x76 x31 x00 x00)
(L (W x03 x00 x00 x00 xcc x00 x00 x00))
(L (W xff xff xff xff xff xff xff xff)))
(T (W x18 x00 x00 x00 x10 x00 x00 x00)
(L (W x00 x00 x80 xbf x00 x00 x80 xbf)) E))
(T (W xff xff xff xff xff xff xff xff)
(T (W x45 x44 x00 x00 x00 x00 x00 x00)
(L (W xff xff xff xff xff xff xff xff)) E)
(T (W x00 x00 x80 xbf x00 x00 x80 xbf)
(L (W x00 x00 x80 xbf x00 x00 x80 xbf)) E)))
(T (W x0a x00 x00 x00 x3e x00 x00 x00)
(T (W xff xff xff xff xff xff xff xff)
(T (W x00 x00 x80 x3f x00 x00 x80 x3f)
(L (W xff xff xff xff xff xff xff xff))
(L (W x00 x00 x00 x00 x00 x00 x00 x00)))
(T (W x07 x00 x00 x00 x20 x00 x24 x00)
(L (W xff xff xff xff xff xff xff xff)) E))
(T (W x2c x01 x00 x00 x04 x00 x00 x00)
(T (W xc9 x51 xe2 xd8 x75 xc6 x72 xd0)
(L (W x6c x00 x00 x00 x60 x00 x00 x00)) E)
(T (W x00 x00 x00 x00 x00 x00 x00 x00)
(L (W x00 x00 x00 x00 x00 x00 x00 x00)) E))))
(T (W x00 x00 x00 x00 x00 x00 x00 x00)
(T (W xff xff xff xff xff xff xff xff)
(T (W xff xff xff xff xff xff xff xff)
(T (W x00 x00 x00 x00 x00 x00 x00 x00)
(L (W x00 x00 x00 x00 x00 x00 x00 x00))
(L (W x44 x00 x00 x00 x0c x00 x00 x00)))
(T (W xff xff xff xff xff xff xff xff)
(L (W x45 x26 x22 x84 xe4 x9c xf2 xcb)) E))
(T (W xff xff xff xff xff xff xff xff)
(T (W xd4 x28 xfc xff x00 x01 x01 x01)
(L (W x4f x84 x6f x8b xe8 xcb x63 xb7)) E)
(T (W x18 x00 x00 x00 x0c x00 x00 x00)
(L (W x18 x00 x00 x00 x1b x00 x00 x00)) E)))
(T (W x00 x00 x80 x3f x00 x00 x80 x3f)
(T (W xd4 xe8 xfa xff x00 x01 x01 x01)
(T (W xff xff xff xff xc4 x00 x00 x00)
(L (W x00 x00 x00 x00 x00 x00 x00 x00))
(L (W x00 x00 x80 xbf x00 x00 x80 xbf)))
(T (W x00 x00 x00 x00 x44 xe7 xfc xff)
(L (W x00 x00 x00 x00 x00 x00 x00 x00)) E))
(T (W x00 x00 x00 x00 x12 x00 x00 x00)
(T (W xff xff xff xff xff xff xff xff)
(L (W x00 x00 x00 x00 x00 x00 x00 x00)) E)
(T (W xff xff xff xff xff xff xff xff)
(L (W x00 x00 x80 xbf x00 x00 x80 xbf)) E)))))
(T (W xff xff xff xff xff xff xff xff)
(T (W x00 x00 x00 x00 x00 x00 x00 x00)
(T (W x00 x00 x80 x3f x00 x00 x80 x3f)
(T (W x45 x26 x22 x84 xe4 x9c xf2 xcb)
(T (W x00 x00 x80 x3f x00 x00 x80 x3f)
(L (W xff xff xff xff xff xff xff xff))
(L (W x45 x44 x00 x00 x00 x00 x00 x00)))
(T (W x00 x00 x80 x3f x00 x00 x80 x3f)
(L (W x00 x00 x80 xbf x00 x00 x80 xbf)) E))
(T (W xff xff xff xff xa0 x00 x00 x00)
(T (W x00 x00 x00 x00 x00 x00 x00 x00)
(L (W x45 x44 x00 x00 x00 x00 x00 x00)) E)
(T (W xff xff xff xff xff xff xff xff)
(L (W xcc x00 x00 x00 x01 x00 x00 x00)) E)))
(T (W x02 x54 xfa xff x74 x00 x00 x00)
(T (W x64 x00 x00 x00 x9c x00 x00 x00)
(T (W x00 x00 x80 x3f x00 x00 x80 x3f)
(L (W x00 x00 x00 x00 x00 x00 x00 x00))
(L (W x45 x26 x22 x84 xe4 x9c xf2 xcb)))
(T (W xd4 xd8 xfc xff x00 x01 x01 x01)
(L (W x00 x00 x00 x00 x00 x00 x00 x00)) E))
(T (W x21 x00 x00 x00 x24 x00 x00 x00)
(T (W x45 x26 x22 x84 xe4 x9c xf2 xcb)
(L (W xff xff xff xff xff xff xff xff)) E)
(T (W x02 x54 xfd xff x74 x00 x00 x00)
(L (W x00 x00 x00 x00 x00 x00 x00 x00)) E))))
(T (W x3e x00 x00 x00 x10 x00 x00 x00)
(T (W x45 x26 x22 x84 xe4 x9c xf2 xcb)
(T (W xff xff xff xff xff xff xff xff)
(T (W xff xff xff xff xff xff xff xff)
(L (W x00 x00 x00 x00 x00 x00 x00 x00))
(L (W x00 xd1 xac x28 xbf xcd x59 x6a)))
(T (W xff xff xff xff xff xff xff xff)
(L (W x0f x00 x00 x00 x12 x00 x00 x00)) E))
(T (W x00 x00 x80 x3f x00 x00 x80 x3f)
(T (W xff xff xff xff xff xff xff xff)
(L (W x00 x00 x80 xbf x00 x00 x80 xbf)) E)
(T (W xff xff xff xff xff xff xff xff)
(L (W xff xff xff xff xff xff xff xff)) E)))
(T (W x45 x26 x22 x84 xe4 x9c xf2 xcb)
(T (W xff xff xff xff xff xff xff xff)
(T (W x00 x00 x00 x00 x32 xfb xfb xff)
(L (W xff xff xff xff xa0 x00 x00 x00))
(L (W x15 x00 x00 x00 x18 x00 x00 x00)))
(T (W x00 x00 x00 x00 x00 x00 x00 x00)
(L (W x00 x00 x80 xbf x00 x00 x80 xbf)) E))
(T (W xff xff xff xff xff xff xff xff)
(T (W xff xff xff xff xff xff xff xff)
(L (W x00 x00 x80 xbf x00 x00 x80 xbf)) E)
(T (W xff xff xff xff xff xff xff xff)
(L (W x50 x00 x00 x00 x44 x00 x00 x00)) E))))))))))
(T (W x48 x99 x03 x00 x0c x98 x03 x00)
(T (W xf8 xf1 x02 x00 xb4 xef x02 x00)
(T (W xa8 x11 x01 x00 x5c x0f x01 x00)
(T (W x00 x00 x00 x00 x00 x00 x00 x00)
(T (W xff xff xff xff x04 x00 x00 x00)
(T (W x00 x00 x00 x00 x00 x00 x00 x00)
(T (W x00 x00 x80 x3f x00 x00 x80 x3f)
(T (W x64 x00 x00 x00 x9c x00 x00 x00)
(T (W xdc x87 xfa xff x1e x00 x00 x00)
(T (W x00 x00 x80 x3f x00 x00 x80 x3f)
(L (W x6c x00 x00 x00 x60 x00 x00 x00))
(L (W x00 x00 x80 xbf x00 x00 x80 xbf)))
(T (W x45 x26 x22 x84 xe4 x9c xf2 xcb)
(L (W x00 x00 x00 x00 x62 x76 xfe xff)) E))
(T (W x00 x00 x80 x3f x00 x00 x80 x3f)
(T (W x45 x26 x22 x84 xe4 x9c xf2 xcb)
(L (W x49 xa1 x68 x4a xeb x5f xdd x3d))
(L (W x00 x00 x80 xbf x00 x00 x80 xbf)))
(T (W x61 x64 x65 x72 x5f x77 x69 x6c)
(L (W x00 x00 x00 x00 x00 x00 x00 x00)) E)))
(T (W x00 x00 x80 x3f x00 x00 x80 x3f)
(T (W x00 x00 x80 x3f x00 x00 x80 x3f)
(T (W x6c x00 x00 x00 x60 x00 x00 x00)
(L (W xff xff xff xff x9c x00 x00 x00))
(L (W xff xff xff xff xff xff xff xff)))
(T (W x82 xb5 xfc xff x74 x00 x00 x00)
(L (W x00 x00 x80 xbf x00 x00 x80 xbf)) E))
(T (W x00 x00 x00 x00 x00 x00 x00 x00)
(T (W x68 x00 x00 x00 x5c x00 x00 x00)
(L (W x00 x00 x00 x00 x00 x00 x00 x00)) E)
(T (W x45 x26 x22 x84 xe4 x9c xf2 xcb)
(L (W x54 x00 x00 x00 x48 x00 x00 x00)) E))))
(T (W x18 x00 x00 x00 x0c x00 x00 x00)
(T (W xea x29 xfd xff x00 x00 x01 x01)
(T (W x00 x00 x80 x3f x00 x00 x80 x3f)
(T (W x49 xa1 x68 x4a xeb x5f xdd x3d)
(L (W x54 x9a xfd xff x00 x01 x01 x01))
(L (W x03 x00 x00 x00 xd0 x00 x00 x00)))
(T (W x00 x00 x00 x00 x00 x00 x00 x00)
(L (W x00 x00 x00 x00 x00 x00 x00 x00)) E))
(T (W x49 xa1 x68 x4a xeb x5f xdd x3d)
(T (W xdb x26 xbd x0b x81 x72 x54 x0f)
(L (W x03 x00 x00 x00 xd8 x00 x00 x00)) E)
(T (W xff xff xff xff x9c x00 x00 x00)
(L (W x00 x00 x80 xbf x00 x00 x80 xbf)) E)))
(T (W x00 x00 x80 x3f x00 x00 x80 x3f)
(T (W x00 x00 x80 x3f x00 x00 x80 x3f)
(T (W x4f x84 x6f x8b xe8 xcb x63 xb7)
(L (W xff xff xff xff xbc x00 x00 x00))
(L (W xb2 x01 x00 x00 xff xff xff xff)))
(T (W x45 x26 x22 x84 xe4 x9c xf2 xcb)
(L (W xb4 x00 x00 x00 x64 x00 x00 x00)) E))
(T (W x00 x00 x80 x3f x00 x00 x80 x3f)
(T (W xff xff xff xff xff xff xff xff)
(L (W x6c x00 x00 x00 x60 x00 x00 x00)) E)
(T (W x00 x00 x80 xbf x00 x00 x80 xbf)
(L (W xff xff xff xff xff xff xff xff)) E)))))
(T (W x00 x00 x00 x00 x00 x00 x00 x00)
(T (W x54 x00 x00 x00 x48 x00 x00 x00)
(T (W xff xff xff xff xff xff xff xff)
(T (W xff xff xff xff xff xff xff xff)
(T (W xff xff xff xff xff xff xff xff)
(L (W x00 x00 x80 xbf x00 x00 x80 xbf))
(L (W x00 x00 x80 xbf x00 x00 x80 xbf)))
(T (W x00 x00 x80 x3f x00 x00 x80 x3f)
(L (W x00 x00 x00 x00 x00 x00 x00 x00)) E))
(T (W x45 x26 x22 x84 xe4 x9c xf2 xcb)
(T (W xff xff xff xff xff xff xff xff)
(L (W x00 x00 x80 xbf x00 x00 x80 xbf)) E)
(T (W x00 x00 x00 x00 x00 x00 x00 x00)
(L (W x00 x00 x00 x00 x00 x00 x00 x00)) E)))
(T (W x45 x26 x22 x84 xe4 x9c xf2 xcb)
(T (W x00 x00 x80 x3f x00 x00 x80 x3f)
(T (W x4a x00 x00 x00 xff xff xff xff)
(L (W xff xff xff xff xa0 x00 x00 x00))
(L (W xff xff xff xff xff xff xff xff)))
(T (W x46 x00 x00 x00 x10 x00 x00 x00)
(L (W xff xff xff xff xb0 x00 x00 x00)) E))
(T (W xff xff xff xff x9c x00 x00 x00)
(T (W xff xff xff xff xff xff xff xff)
(L (W x00 x00 x00 x00 x00 x00 x00 x00)) E)
(T (W xff xff xff xff xff xff xff xff)
(L (W xff xff xff xff xff xff xff xff)) E))))
(T (W xff xff xff xff xff xff xff xff)
(T (W x50 x00 x00 x00 x44 x00 x00 x00)
(T (W x18 x00 x00 x00 x0c x00 x00 x00)
(T (W x04 x00 x00 x00 x72 x43 xff xff)
(L (W xff xff xff xff xbc x00 x00 x00))
(L (W x2c x00 x30 x00 x34 x00 x38 x00)))
(T (W x54 xaa xfc xff x00 x01 x01 x01)
(L (W x00 x00 x00 x00 x00 x00 x00 x00)) E))
(T (W xd4 x00 x00 x00 xc8 x00 x00 x00)
(T (W x45 x26 x22 x84 xe4 x9c xf2 xcb)
(L (W xff xff xff xff xff xff xff xff)) E)
(T (W x45 x26 x22 x84 xe4 x9c xf2 xcb)
(L (W x00 x00 x80 xbf x00 x00 x80 xbf)) E)))
(T (W x00 x00 x00 x00 x00 x00 x00 x00)
(T (W x00 x00 x80 x3f x00 x00 x80 x3f)
(T (W x00 x00 x80 x3f x00 x00 x80 x3f)
(L (W x00 x00 x00 x00 x00 x00 x00 x00))
(L (W x46 x53 x59 x53 x5f x4e x53 x5f)))
(T (W x00 x00 x80 x3f x00 x00 x80 x3f)
(L (W xff xff xff xff xff xff xff xff)) E))
(T (W xa1 x01 x00 x00 xff xff xff xff)
(T (W x18 x00 x00 x00 x0c x00 x00 x00)
(L (W xff xff xff xff xc0 x00 x00 x00)) E)
(T (W x54 x6a xfd xff x00 x01 x01 x01)
(L (W x30 x32 x5f x43 x4c x45 x41 x52)) E))))))
(T (W x00 x00 x80 x3f x00 x00 x80 x3f)
(T (W x45 x26 x22 x84 xe4 x9c xf2 xcb)
(T (W xff xff xff xff xff xff xff xff)
(T (W xff xff xff xff x03 x00 x00 x00)
(T (W x01 x00 x00 x00 x04 x00 x00 x00)
(T (W xff xff xff xff x03 x00 x00 x00)
(L (W x32 x7f xfd xff x78 x00 x00 x00))
(L (W x00 x00 x80 xbf x00 x00 x80 xbf)))
(T (W x00 x00 x80 x3f x00 x00 x80 x3f)
(L (W x00 x00 x00 x00 x00 x00 x00 x00)) E))
(T (W x00 x00 x00 x00 x00 x00 x00 x00)
(T (W xff xff xff xff xff xff xff xff)
(L (W x00 x00 x80 xbf x00 x00 x80 xbf))
(L (W x1c x00 x20 x00 x24 x00 x28 x00)))
(T (W x00 x00 x80 xbf x00 x00 x80 xbf)
(L (W x46 x53 x59 x53 x5f x4e x53 x5f)) E)))
(T (W x00 x00 x00 x00 x00 x00 x00 x00)
(T (W x00 x00 x80 x3f x00 x00 x80 x3f)
(T (W xff xff xff xff xff xff xff xff)
(L (W x54 x00 x00 x00 x48 x00 x00 x00))
(L (W xff xff xff xff xff xff xff xff)))
(T (W x00 x00 x80 x3f x00 x00 x80 x3f)
(L (W x00 x00 x80 xbf x00 x00 x80 xbf)) E))
(T (W x00 x00 x80 x3f x00 x00 x80 x3f)
(T (W x18 x00 x00 x00 x0c x00 x00 x00)
(L (W x46 x53 x59 x53 x5f x4e x53 x5f)) E)
(T (W xff xff xff xff xff xff xff xff)
(L (W x54 x42 xff xff x00 x01 x01 x01)) E))))
(T (W xff xff xff xff xff xff xff xff)
(T (W x00 x00 x80 x3f x00 x00 x80 x3f)
(T (W x45 x26 x22 x84 xe4 x9c xf2 xcb)
(T (W x82 x9d xfb xff x74 x00 x00 x00)
(L (W xff xff xff xff xac x00 x00 x00))
(L (W xff xff xff xff xff xff xff xff)))
(T (W x00 x00 x80 x3f x00 x00 x80 x3f)
(L (W x00 x00 x00 x00 x00 x00 x00 x00)) E))
(T (W x00 x00 x80 x3f x00 x00 x80 x3f)
(T (W x30 x32 x5f x43 x4c x45 x41 x52)
(L (W xff xff xff xff xff xff xff xff)) E)
(T (W x00 x00 x00 x00 x00 x00 x00 x00)
(L (W x6c x00 x00 x00 x60 x00 x00 x00)) E)))
(T (W x00 x00 x00 x00 x00 x00 x00 x00)
(T (W x45 x26 x22 x84 xe4 x9c xf2 xcb)
(T (W x45 x26 x22 x84 xe4 x9c xf2 xcb)
(L (W xff xff xff xff xff xff xff xff))
(L (W x00 x00 x00 x00 x00 x00 x00 x00)))
(T (W x00 x00 x80 x3f x00 x00 x80 x3f)
(L (W xff xff xff xff xbc x00 x00 x00)) E))
(T (W xff xff xff xff x9c x00 x00 x00)
(T (W x00 x00 x00 x00 x02 x00 x00 x00)
(L (W x18 x00 x00 x00 x0c x00 x00 x00)) E)
(T (W x00 x00 x80 xbf x00 x00 x80 xbf)
(L (W x00 x00 x01 x01 x4b x00 x00 x00)) E)))))
(T (W xff xff xff xff xff xff xff xff)
(T (W x00 x00 x00 x00 x00 x00 x00 x00)
(T (W xc2 x01 x00 x00 xff xff xff xff)
(T (W xea xa1 xfd xff x00 x00 x01 x01)
(T (W x67 x72 x6f x75 x70 x5f x6c x65)
(L (W x50 x00 x00 x00 x44 x00 x00 x00))
(L (W xff xff xff xff xa0 x00 x00 x00)))
(T (W x00 x00 x00 x00 x00 x00 x00 x00)
(L (W x00 x00 x00 x00 x00 x00 x00 x00)) E))
(T (W x01 x00 x00 x00 xb0 x00 x00 x00)
(T (W xff xff xff xff xff xff xff xff)
(L (W x18 x00 x00 x00 x10 x00 x00 x00)) E)
(T (W x00 x00 x01 x01 xc7 x01 x00 x00)
(L (W x00 x00 x00 x00 x00 x00 x00 x00)) E)))
(T (W x00 x00 x80 x3f x00 x00 x80 x3f)
(T (W x00 x00 x80 x3f x00 x00 x80 x3f)
(T (W x18 x00 x00 x00 x10 x00 x00 x00)
(L (W xff xff xff xff xff xff xff xff))
(L (W xff xff xff xff xff xff xff xff)))
(T (W x00 x00 x00 x00 x62 xce xfc xff)
(L (W x03 x00 x00 x00 xd8 x00 x00 x00)) E))
(T (W x00 x00 x00 x00 x00 x00 x00 x00)
(T (W xff xff xff xff xff xff xff xff)
(L (W x00 x00 x80 xbf x00 x00 x80 xbf)) E)
(T (W x00 x00 x00 x00 x00 x00 x00 x00)
(L (W xff xff xff xff xff xff xff xff)) E))))
(T (W xff xff xff xff xff xff xff xff)
(T (W x68 x00 x00 x00 x5c x00 x00 x00)
(T (W x68 x00 x00 x00 x5c x00 x00 x00)
(T (W x00 x00 x00 x00 x00 x00 x00 x00)
(L (W x00 x00 x00 x00 x00 x00 x00 x00))
(L (W xff xff xff xff xff xff xff xff)))
(T (W x00 x00 x00 x00 xc4 xb0 xfc xff)
(L (W x45 x26 x22 x84 xe4 x9c xf2 xcb)) E))
(T (W x00 x00 x00 x00 x00 x00 x00 x00)
(T (W x00 x00 x80 x3f x00 x00 x80 x3f)
(L (W x45 x44 x00 x00 x00 x00 x00 x00)) E)
(T (W x00 x00 x80 xbf x00 x00 x80 xbf)
(L (W x00 x00 x80 xbf x00 x00 x80 xbf)) E)))
(T (W x00 x00 x00 x00 x00 x00 x00 x00)
(T (W x00 x00 x00 x00 x00 x00 x00 x00)
(T (W x82 xed xfb xff x74 x00 x00 x00)
(L (W x00 x00 x00 x00 x00 x00 x00 x00))
(L (W x00 x00 x00 x00 x00 x00 x00 x00)))
(T (W xff xff xff xff xff xff xff xff)
(L (W x00 x00 x00 x00 x00 x00 x00 x00)) E))
(T (W x00 x00 x00 x00 x00 x00 x00 x00)
(T (W x00 x00 x80 x3f x00 x00 x80 x3f)
(L (W xff xff xff xff xff xff xff xff)) E)
(T (W xb0 x00 x00 x00 x64 x00 x00 x00)
(L (W x00 x00 x00 x00 x00 x00 x00 x00)) E)))))))
(T (W x00 x00 x80 x3f x00 x00 x80 x3f)
(T (W x00 x00 x00 x00 x00 x00 x00 x00)
(T (W x00 x00 x80 x3f x00 x00 x80 x3f)
(T (W x18 x00 x00 x00 x0c x00 x00 x00)
(T (W x45 x26 x22 x84 xe4 x9c xf2 xcb)
(T (W x01 x00 x00 x00 x3c x00 x00 x00)
(T (W xa1 x01 x00 x00 xff xff xff xff)
(L (W x00 x00 x00 x00 x62 x7a xfd xff))
(L (W xff xff xff xff xff xff xff xff)))
(T (W x0f x64 x2e x97 x85 x1e x59 x5f)
(L (W x00 x00 x80 xbf x00 x00 x80 xbf)) E))
(T (W x50 x00 x00 x00 x44 x00 x00 x00)
(T (W x00 x00 x00 x00 x00 x00 x00 x00)
(L (W xff xff xff xff xff xff xff xff))
(L (W xbc x00 x00 x00 x64 x00 x00 x00)))
(T (W x45 x26 x22 x84 xe4 x9c xf2 xcb)
(L (W x54 x00 x00 x00 x48 x00 x00 x00)) E)))
(T (W xe2 x43 xfd xff x00 x00 x01 x01)
(T (W xe5 x29 xf1 x6c x21 x24 xc8 xcb)
(T (W x00 x00 x00 x00 x00 x00 x00 x00)
(L (W xff xff xff xff xff xff xff xff))
(L (W x00 x00 x80 xbf x00 x00 x80 xbf)))
(T (W x18 x01 x00 x00 x04 x00 x00 x00)
(L (W xff xff xff xff xff xff xff xff)) E))
(T (W xbc x00 x00 x00 x14 x00 x00 x00)
(T (W x30 x32 x5f x43 x4c x45 x41 x52)
(L (W xbc x00 x00 x00 x1e x00 x00 x00)) E)
(T (W x00 x00 x00 x00 x00 x00 x00 x00)
(L (W x00 x00 x00 x00 x12 x00 x00 x00)) E))))
(T (W x00 x00 x00 x00 x00 x00 x00 x00)
(T (W x50 x00 x00 x00 x44 x00 x00 x00)
(T (W xdc xab xfa xff x21 x00 x00 x00)
(T (W x02 x00 x00 x00 x2c x01 x00 x00)
(L (W x5f x4e x53 x5f x30 x32 x5f x43))
(L (W x00 x00 x00 x00 x00 x00 x00 x00)))
(T (W xff xff xff xff xff xff xff xff)
(L (W xff xff xff xff xb0 x00 x00 x00)) E))
(T (W x6b x65 x5f x6c x76 x31 x00 x00)
(T (W x68 x00 x00 x00 x5c x00 x00 x00)
(L (W x00 x00 x00 x00 x00 x00 x00 x00)) E)
(T (W xc0 x00 x00 x00 x64 x00 x00 x00)
(L (W xff xff xff xff xff xff xff xff)) E)))
(T (W x64 x00 x00 x00 x9c x00 x00 x00)
(T (W xff xff xff xff xff xff xff xff)
(T (W xff xff xff xff xff xff xff xff)
(L (W x00 x00 x80 xbf x00 x00 x80 xbf))
(L (W x54 xde xff xff x00 x01 x01 x01)))
(T (W xff xff xff xff xff xff xff xff)
(L (W x45 x26 x22 x84 xe4 x9c xf2 xcb)) E))
(T (W x8e xd3 x54 xf0 x7f x11 x65 xc2)
(T (W x6c x00 x00 x00 x60 x00 x00 x00)
(L (W x00 x00 x00 x00 x00 x00 x00 x00)) E)
(T (W xff xff xff xff xff xff xff xff)
(L (W x32 x5b xff xff x78 x00 x00 x00)) E)))))
(T (W x00 x00 x80 x3f x00 x00 x80 x3f)
(T (W xff xff xff xff xff xff xff xff)
(T (W x00 x00 x00 x00 x00 x00 x00 x00)
(T (W x32 x8b xfa xff x78 x00 x00 x00)
(T (W x4f x84 x6f x8b xe8 xcb x63 xb7)
(L (W xc9 x00 x00 x00 xff xff xff xff))
(L (W x04 x00 x00 x00 x22 x8c xff xff)))
(T (W xff xff xff xff xff xff xff xff)
(L (W x18 x00 x00 x00 x0c x00 x00 x00)) E))
(T (W x00 x00 x00 x00 x00 x00 x00 x00)
(T (W x00 x00 x80 x3f x00 x00 x80 x3f)
(L (W x00 x00 x00 x00 x00 x00 x00 x00)) E)
(T (W xff xff xff xff xff xff xff xff)
(L (W xb4 x00 x00 x00 x46 x00 x00 x00)) E)))
(T (W xff xff xff xff xff xff xff xff)
(T (W xea xdd xfd xff x00 x00 x01 x01)
(T (W x54 xce xfb xff x00 x01 x01 x01)
(L (W x30 x32 x5f x43 x4c x45 x41 x52))
(L (W x00 x00 x80 xbf x00 x00 x80 xbf)))
(T (W x48 x00 x4c x00 x50 x00 x54 x00)
(L (W x00 x00 x00 x00 x00 x00 x00 x00)) E))
(T (W x00 x00 x80 x3f x00 x00 x80 x3f)
(T (W x00 x00 x80 x3f x00 x00 x80 x3f)
(L (W xff xff xff xff xff xff xff xff)) E)
(T (W x5c x00 x00 x00 x50 x00 x00 x00)
(L (W x00 x00 x80 xbf x00 x00 x80 xbf)) E))))
(T (W x00 x00 x00 x00 x00 x00 x00 x00)
(T (W xff xff xff xff xff xff xff xff)
(T (W x00 x00 x00 x00 x00 x00 x00 x00)
(T (W x68 x00 x00 x00 x5c x00 x00 x00)
(L (W xff xff xff xff x13 x00 x00 x00))
(L (W x00 x00 x00 x00 x00 x00 x00 x00)))
(T (W x00 x00 x00 x00 x00 x00 x00 x00)
(L (W xff xff xff xff xff xff xff xff)) E))
(T (W x45 x26 x22 x84 xe4 x9c xf2 xcb)
(T (W xff xff xff xff x9c x00 x00 x00)
(L (W x00 x00 x80 xbf x00 x00 x80 xbf)) E)
(T (W xff xff xff xff xff xff xff xff)
(L (W x00 x00 x00 x00 x00 x00 x00 x00)) E)))
(T (W x18 x00 x00 x00 x0c x00 x00 x00)
(T (W xff xff xff xff xff xff xff xff)
(T (W xff xff xff xff xff xff xff xff)
(L (W xcc x00 x00 x00 x01 x00 x00 x00))
(L (W x03 x00 x00 x00 xd0 x00 x00 x00)))
(T (W xff xff xff xff xff xff xff xff)
(L (W x32 xeb xfe xff x78 x00 x00 x00)) E))
(T (W x82 x69 xfb xff x74 x00 x00 x00)
(T (W x16 x00 x00 x00 x10 x00 x00 x00)
(L (W x00 x00 x80 xbf x00 x00 x80 xbf)) E)
(T (W x00 x00 x00 x00 x00 x00 x00 x00)
(L (W x32 x6b xff xff x78 x00 x00 x00)) E))))))
(T (W xff xff xff xff xff xff xff xff)
(T (W xff xff xff xff xff xff xff xff)
(T (W x00 x00 x00 x00 x00 x00 x00 x00)
(T (W x00 x00 x00 x00 x00 x00 x00 x00)
(T (W x68 x00 x00 x00 x5c x00 x00 x00)
(T (W x00 x00 x00 x00 x00 x00 x00 x00)
(L (W xff xff xff xff xff xff xff xff))
(L (W xff xff xff xff xff xff xff xff)))
(T (W xff xff xff xff xff xff xff xff)
(L (W x00 x00 x80 xbf x00 x00 x80 xbf)) E))
(T (W xe2 x0b xfe xff x00 x00 x01 x01)
(T (W x49 xa1 x68 x4a xeb x5f xdd x3d)
(L (W x00 x00 x00 x00 x00 x00 x00 x00)) E)
(T (W x45 x26 x22 x84 xe4 x9c xf2 xcb)
(L (W x45 x26 x22 x84 xe4 x9c xf2 xcb)) E)))
(T (W xff xff xff xff xff xff xff xff)
(T (W xcf x01 x00 x00 xff xff xff xff)
(T (W x00 x00 x80 x3f x00 x00 x80 x3f)
(L (W x00 x00 x00 x00 x00 x00 x00 x00))
(L (W x45 x26 x22 x84 xe4 x9c xf2 xcb)))
(T (W xff xff xff xff xff xff xff xff)
(L (W x45 x44 x00 x00 x00 x00 x00 x00)) E))
(T (W x00 x00 x00 x00 x22 x00 x00 x00)
(T (W x00 x00 x00 x00 x00 x00 x00 x00)
(L (W xff xff xff xff xff xff xff xff)) E)
(T (W x00 x00 x80 xbf x00 x00 x80 xbf)
(L (W x45 x26 x22 x84 xe4 x9c xf2 xcb)) E))))
(T (W x00 x00 x00 x00 x00 x00 x00 x00)
(T (W x00 x00 x00 x00 x02 x00 x00 x00)
(T (W x00 x00 x00 x00 x00 x00 x00 x00)
(T (W x4f x84 x6f x8b xe8 xcb x63 xb7)
(L (W x50 x00 x00 x00 x44 x00 x00 x00))
(L (W xff xff xff xff xff xff xff xff)))
(T (W x00 x00 x00 x00 x00 x00 x00 x00)
(L (W xff xff xff xff xff xff xff xff)) E))
(T (W x00 x00 x00 x00 x00 x00 x00 x00)
(T (W x18 x00 x00 x00 x0c x00 x00 x00)
(L (W x00 x00 x80 xbf x00 x00 x80 xbf)) E)
(T (W xff xff xff xff xff xff xff xff)
(L (W xff xff xff xff xff xff xff xff)) E)))
(T (W x00 x00 x00 x00 xc4 x64 xfa xff)
(T (W xb8 x00 x00 x00 xac x00 x00 x00)
(T (W xff xff xff xff xff xff xff xff)
(L (W x00 x00 x80 xbf x00 x00 x80 xbf))
(L (W x21 x00 x00 x00 x24 x00 x00 x00)))
(T (W x00 x00 x80 x3f x00 x00 x80 x3f)
(L (W x00 x00 x80 xbf x00 x00 x80 xbf)) E))
(T (W x00 x00 x80 x3f x00 x00 x80 x3f)
(T (W x00 x00 x80 x3f x00 x00 x80 x3f)
(L (W x00 x00 x00 x00 x00 x00 x00 x00)) E)
(T (W x00 x00 x00 x00 x62 x62 xfd xff)
(L (W x00 x00 x80 xbf x00 x00 x80 xbf)) E)))))
(T (W x00 x00 x00 x00 x00 x00 x00 x00)
(T (W x00 x00 x80 x3f x00 x00 x80 x3f)
(T (W x00 x00 x80 x3f x00 x00 x80 x3f)
(T (W x00 x00 x80 x3f x00 x00 x80 x3f)
(T (W xb8 x00 x00 x00 x02 x00 x00 x00)
(L (W x00 x00 x00 x00 x00 x00 x00 x00))
(L (W x30 x32 x5f x43 x4c x45 x41 x52)))
(T (W x18 x00 x00 x00 x10 x00 x00 x00)
(L (W xff xff xff xff xa0 x00 x00 x00)) E))
(T (W x00 x00 x80 x3f x00 x00 x80 x3f)
(T (W x00 x00 x80 x3f x00 x00 x80 x3f)
(L (W x00 x00 x00 x00 x00 x00 x00 x00)) E)
(T (W xff xff xff xff x9c x00 x00 x00)
(L (W xff xff xff xff xff xff xff xff)) E)))
(T (W xff xff xff xff xff xff xff xff)
(T (W xff xff xff xff xff xff xff xff)
(T (W x00 x00 x00 x00 xc4 xd4 xfb xff)
(L (W x45 x26 x22 x84 xe4 x9c xf2 xcb))
(L (W x32 xd3 xff xff x78 x00 x00 x00)))
(T (W xff xff xff xff xff xff xff xff)
(L (W x00 x00 x00 x00 x00 x00 x00 x00)) E))
(T (W x45 x26 x22 x84 xe4 x9c xf2 xcb)
(T (W x45 x26 x22 x84 xe4 x9c xf2 xcb)
(L (W x04 x00 x00 x00 x42 x5a xfe xff)) E)
(T (W xff xff xff xff xff xff xff xff)
(L (W x54 x00 x00 x00 x48 x00 x00 x00)) E))))
(T (W x00 x00 x00 x00 x00 x00 x00 x00)
(T (W xff xff xff xff xff xff xff xff)
(T (W x00 x00 x00 x00 x00 x00 x00 x00)
(T (W xff xff xff xff xff xff xff xff)
(L (W x00 x00 x80 xbf x00 x00 x80 xbf))
(L (W x00 x00 x00 x00 x00 x00 x00 x00)))
(T (W x00 x00 x00 x00 x00 x00 x00 x00)
(L (W xff xff xff xff xff xff xff xff)) E))
(T (W x54 x36 xfb xff x00 x01 x01 x01)
(T (W x16 xca x33 xe6 x8d xc4 x48 xff)
(L (W x6c x00 x00 x00 x60 x00 x00 x00)) E)
(T (W x18 x00 x00 x00 x0c x00 x00 x00)
(L (W x54 x02 x00 x00 x38 x01 x00 x00)) E)))
(T (W x3e x00 x00 x00 x9c x00 x00 x00)
(T (W x00 x00 x00 x00 x00 x00 x00 x00)
(T (W xff xff xff xff xff xff xff xff)
(L (W xff xff xff xff xff xff xff xff))
(L (W xff xff xff xff xff xff xff xff)))
(T (W x50 x00 x00 x00 x44 x00 x00 x00)
(L (W x54 x00 x00 x00 x48 x00 x00 x00)) E))
(T (W xff xff xff xff xff xff xff xff)
(T (W xff xff xff xff xff xff xff xff)
(L (W x00 x00 x80 xbf x00 x00 x80 xbf)) E)
(T (W x00 x00 x00 x00 x00 x00 x00 x00)
(L (W x21 x00 x00 x00 x24 x00 x00 x00)) E))))))))
(T (W xff xff xff xff xff xff xff xff)
(T (W x00 x00 x00 x00 x00 x00 x00 x00)
(T (W xff xff xff xff xff xff xff xff)
(T (W x45 x26 x22 x84 xe4 x9c xf2 xcb)
(T (W x54 x00 x00 x00 x48 x00 x00 x00)
(T (W x01 x00 x00 x00 x04 x00 x00 x00)
(T (W x00 x00 x80 x3f x00 x00 x80 x3f)
(T (W x18 x00 x00 x00 x10 x00 x00 x00)
(L (W xff xff xff xff xff xff xff xff))
(L (W x32 x79 xff xff x78 x00 x00 x00)))
(T (W xff xff xff xff xff xff xff xff)
(L (W x00 x00 x00 x00 x00 x00 x00 x00)) E))
(T (W x00 x00 x00 x00 x00 x00 x00 x00)
(T (W x4b x00 x00 x00 xff xff xff xff)
(L (W x21 x00 x00 x00 x24 x00 x00 x00))
(L (W x58 x00 x5c x00 x60 x00 x64 x00)))
(T (W x00 x00 x00 x00 x60 x00 x64 x00)
(L (W x45 x26 x22 x84 xe4 x9c xf2 xcb)) E)))
(T (W xbc x00 x00 x00 xb0 x00 x00 x00)
(T (W xff xff xff xff xff xff xff xff)
(T (W xff xff xff xff xff xff xff xff)
(L (W xff xff xff xff xff xff xff xff))
(L (W x72 x00 x00 x00 xff xff xff xff)))
(T (W xff xff xff xff xff xff xff xff)
(L (W x03 x00 x00 x00 xd0 x00 x00 x00)) E))
(T (W x00 x00 x80 x3f x00 x00 x80 x3f)
(T (W xff xff xff xff xff xff xff xff)
(L (W x45 x26 x22 x84 xe4 x9c xf2 xcb)) E)
(T (W xff xff xff xff xff xff xff xff)
(L (W xff xff xff xff xc4 x00 x00 x00)) E))))
(T (W xff xff xff xff xff xff xff xff)
(T (W x00 x00 x00 x00 x00 x00 x00 x00)
(T (W xff xff xff xff xff xff xff xff)
(T (W x45 x26 x22 x84 xe4 x9c xf2 xcb)
(L (W xff xff xff xff xff xff xff xff))
(L (W xff xff xff xff xff xff xff xff)))
(T (W x00 x00 x80 x3f x00 x00 x80 x3f)
(L (W x00 x00 x80 xbf x00 x00 x80 xbf)) E))
(T (W x01 x00 x00 x00 x21 x00 x00 x00)
(T (W x00 x00 x80 x3f x00 x00 x80 x3f)
(L (W x00 x00 x01 x01 x8f x01 x00 x00)) E)
(T (W x2f x4d x69 x12 x83 x70 x37 xc6)
(L (W xff xff xff xff xa0 x00 x00 x00)) E)))
(T (W x00 x00 x80 x3f x00 x00 x80 x3f)
(T (W x54 xdc xfa xff x00 x01 x01 x01)
(T (W x00 x00 x80 x3f x00 x00 x80 x3f)
(L (W x00 x00 x00 x00 x00 x00 x00 x00))
(L (W x00 x00 x80 xbf x00 x00 x80 xbf)))
(T (W x00 x00 x80 x3f x00 x00 x80 x3f)
(L (W x04 x00 x00 x00 x42 xe0 xfe xff)) E))
(T (W x18 x00 x00 x00 x0c x00 x00 x00)
(T (W x45 x44 x00 x00 x00 x00 x00 x00)
(L (W xff xff xff xff xff xff xff xff)) E)
(T (W x54 x5c xfd xff x00 x01 x01 x01)
(L (W x00 x00 x00 x00 x12 x00 x00 x00)) E)))))
(T (W x00 x00 x80 x3f x00 x00 x80 x3f)
(T (W x18 x00 x00 x00 x10 x00 x00 x00)
(T (W xff xff xff xff xff xff xff xff)
(T (W x00 x00 x00 x00 x00 x00 x00 x00)
(T (W x30 x32 x5f x43 x4c x45 x41 x52)
(L (W xc0 x00 x00 x00 x01 x00 x00 x00))
(L (W xff xff xff xff xb0 x00 x00 x00)))
(T (W x45 x26 x22 x84 xe4 x9c xf2 xcb)
(L (W x00 x00 x00 x00 x00 x00 x00 x00)) E))
(T (W xff xff xff xff xff xff xff xff)
(T (W x84 x10 xfc xff x15 x00 x00 x00)
(L (W xff xff xff xff xff xff xff xff)) E)
(T (W x68 x00 x00 x00 x5c x00 x00 x00)
(L (W x54 x00 x00 x00 x48 x00 x00 x00)) E)))
(T (W x50 x00 x00 x00 x44 x00 x00 x00)
(T (W x45 x26 x22 x84 xe4 x9c xf2 xcb)
(T (W x46 x53 x59 x53 x5f x4e x53 x5f)
(L (W xff xff xff xff xff xff xff xff))
(L (W x00 x00 x00 x00 x00 x00 x00 x00)))
(T (W x00 x00 x18 x00 x1c x00 x20 x00)
(L (W xff xff xff xff xff xff xff xff)) E))
(T (W x00 x00 x00 x00 x12 x00 x00 x00)
(T (W x00 x00 x00 x00 x62 x48 xfc xff)
(L (W x00 x00 x80 xbf x00 x00 x80 xbf)) E)
(T (W x00 x00 x00 x00 x00 x00 x00 x00)
(L (W x00 x00 x00 x00 x62 x48 xff xff)) E))))
(T (W x00 x00 x00 x00 x00 x00 x00 x00)
(T (W x00 x00 x00 x00 xc4 x2a xfa xff)
(T (W xff xff xff xff xff xff xff xff)
(T (W x00 x00 x00 x00 x00 x00 x00 x00)
(L (W xff xff xff xff xff xff xff xff))
(L (W x00 x00 x00 x00 xb2 xae xff xff)))
(T (W x18 x01 x00 x00 x04 x00 x00 x00)
(L (W x00 x00 x80 xbf x00 x00 x80 xbf)) E))
(T (W x64 x5f x70 x6f x6b x65 x5f x77)
(T (W x00 x00 x80 x3f x00 x00 x80 x3f)
(L (W x00 x00 x00 x00 x00 x00 x00 x00)) E)
(T (W xbc x00 x00 x00 x1e x00 x00 x00)
(L (W x00 x00 x00 x00 xc4 x2a xff xff)) E)))
(T (W x68 x00 x00 x00 x5c x00 x00 x00)
(T (W x18 x00 x00 x00 x0c x00 x00 x00)
(T (W xd4 x00 x00 x00 xc8 x00 x00 x00)
(L (W x00 x00 x80 xbf x00 x00 x80 xbf))
(L (W x00 x00 x80 xbf x00 x00 x80 xbf)))
(T (W xff xff xff xff x03 x00 x00 x00)
(L (W x00 x00 x00 x00 x00 x00 x00 x00)) E))
(T (W x00 x00 x00 x00 x00 x00 x00 x00)
(T (W xff xff xff xff xff xff xff xff)
(L (W x5f x00 x00 x00 xff xff xff xff)) E)
(T (W xff xff xff xff xff xff xff xff)
(L (W x49 xa1 x68 x4a xeb x5f xdd x3d)) E))))))
(T (W x54 x94 xf9 xff x00 x01 x01 x01)
(T (W xff xff xff xff xff xff xff xff)
(T (W x00 x00 x00 x00 x00 x00 x00 x00)
(T (W xff xff xff xff xff xff xff xff)
(T (W x45 x26 x22 x84 xe4 x9c xf2 xcb)
(T (W xa4 x01 x00 x00 xff xff xff xff)
(L (W x88 x33 x00 x00 x74 x32 x00 x00))
(L (W x00 x00 x00 x00 xc4 x82 xff xff)))
(T (W x18 x00 x00 x00 x10 x00 x00 x00)
(L (W x00 x00 x00 x00 x00 x00 x00 x00)) E))
(T (W x54 x00 x00 x00 x48 x00 x00 x00)
(T (W x4a x00 x00 x00 xff xff xff xff)
(L (W xff xff xff xff xff xff xff xff))
(L (W x5c x00 x60 x00 x62 x00 x00 x00)))
(T (W xc6 x00 x00 x00 xff xff xff xff)
(L (W x00 x00 x80 xbf x00 x00 x80 xbf)) E)))
(T (W x54 x44 xfa xff x00 x01 x01 x01)
(T (W xb8 x00 x00 x00 xac x00 x00 x00)
(T (W x00 x00 x00 x00 x00 x00 x00 x00)
(L (W xff xff xff xff xff xff xff xff))
(L (W x00 x00 x00 x00 x00 x00 x00 x00)))
(T (W x00 x00 x00 x00 xc4 xc2 xfc xff)
(L (W xb8 x00 x00 x00 x64 x00 x00 x00)) E))
(T (W xff xff xff xff xff xff xff xff)
(T (W xe2 x49 xff xff x00 x00 x01 x01)
(L (W x6c x00 x00 x00 x60 x00 x00 x00)) E)
(T (W x00 x00 x00 x00 x00 x00 x00 x00)
(L (W x04 x00 x00 x00 x42 x48 xff xff)) E))))
(T (W xff xff xff xff xff xff xff xff)
(T (W x64 x00 x00 x00 x9c x00 x00 x00)
(T (W xff xff xff xff xff xff xff xff)
(T (W xea xe2 xfd xff x9c x01 x00 x00)
(L (W x00 x00 x00 x00 x00 x00 x00 x00))
(L (W x00 x00 x00 x00 x00 x00 x00 x00)))
(T (W xff xff xff xff xff xff xff xff)
(L (W x00 x00 x80 xbf x00 x00 x80 xbf)) E))
(T (W xff xff xff xff xff xff xff xff)
(T (W x00 x00 x80 x3f x00 x00 x80 x3f)
(L (W x46 x53 x59 x53 x5f x4e x53 x5f)) E)
(T (W x00 x00 x80 xbf x00 x00 x80 xbf)
(L (W x03 x00 x00 x00 xd0 x00 x00 x00)) E)))
(T (W x50 x00 x00 x00 x44 x00 x00 x00)
(T (W x45 x26 x22 x84 xe4 x9c xf2 xcb)
(T (W x68 x00 x00 x00 x5c x00 x00 x00)
(L (W x00 x00 x00 x00 x00 x00 x00 x00))
(L (W x00 x00 x00 x00 x00 x00 x00 x00)))
(T (W xff xff xff xff xff xff xff xff)
(L (W x00 x00 x00 x00 x12 x00 x00 x00)) E))
(T (W x45 x44 x00 x00 x00 x00 x00 x00)
(T (W x00 x00 x00 x00 x00 x00 x00 x00)
(L (W xff xff xff xff xff xff xff xff)) E)
(T (W xff xff xff xff xff xff xff xff)
(L (W x00 x00 x00 x00 x00 x00 x00 x00)) E)))))
(T (W xff xff xff xff xff xff xff xff)
(T (W x00 x00 x00 x00 x00 x00 x00 x00)
(T (W x00 x00 x00 x00 x00 x00 x00 x00)
(T (W x00 x00 x00 x00 x00 x00 x00 x00)
(T (W x00 x00 x80 x3f x00 x00 x80 x3f)
(L (W xff xff xff xff xff xff xff xff))
(L (W xff xff xff xff xff xff xff xff)))
(T (W x00 x00 x80 x3f x00 x00 x80 x3f)
(L (W x00 x00 x80 xbf x00 x00 x80 xbf)) E))
(T (W x13 x00 x00 x00 x10 x00 x00 x00)
(T (W x4f x84 x6f x8b xe8 xcb x63 xb7)
(L (W xff xff xff xff xff xff xff xff)) E)
(T (W x45 x26 x22 x84 xe4 x9c xf2 xcb)
(L (W xff xff xff xff xb0 x00 x00 x00)) E)))
(T (W x00 x00 x80 x3f x00 x00 x80 x3f)
(T (W x68 x00 x00 x00 x5c x00 x00 x00)
(T (W x00 x00 x80 x3f x00 x00 x80 x3f)
(L (W x00 x00 x00 x00 x42 xd8 xfd xff))
(L (W x00 x00 x00 x00 x00 x00 x00 x00)))
(T (W x00 x00 x80 x3f x00 x00 x80 x3f)
(L (W x00 x00 x01 x01 x5d x00 x00 x00)) E))
(T (W x00 x00 x80 x3f x00 x00 x80 x3f)
(T (W x00 x00 x00 x00 x00 x00 x00 x00)
(L (W x45 x26 x22 x84 xe4 x9c xf2 xcb)) E)
(T (W x00 x00 x80 xbf x00 x00 x80 xbf)
(L (W x00 x00 x00 x00 x00 x00 x00 x00)) E))))
(T (W x00 x00 x00 x00 x00 x00 x00 x00)
(T (W x18 x00 x00 x00 x0c x00 x00 x00)
(T (W xff xff xff xff xff xff xff xff)
(T (W x54 xb4 xfb xff x00 x01 x01 x01)
(L (W x00 x00 x80 xbf x00 x00 x80 xbf))
(L (W x00 x00 x00 x00 x22 xb2 xff xff)))
(T (W xff xff xff xff xff xff xff xff)
(L (W x00 x00 x80 xbf x00 x00 x80 xbf)) E))
(T (W x00 x00 x00 x00 x00 x00 x00 x00)
(T (W x18 x00 x00 x00 x0c x00 x00 x00)
(L (W x4f x84 x6f x8b xe8 xcb x63 xb7)) E)
(T (W xff xff xff xff xff xff xff xff)
(L (W xff xff xff xff xb0 x00 x00 x00)) E)))
(T (W x00 x00 x80 x3f x00 x00 x80 x3f)
(T (W xff xff xff xff xff xff xff xff)
(T (W xff xff xff xff xbc x00 x00 x00)
(L (W x45 x26 x22 x84 xe4 x9c xf2 xcb))
(L (W x18 x00 x00 x00 x10 x00 x00 x00)))
(T (W x5f x4e x53 x5f x30 x32 x5f x43)
(L (W x4f x84 x6f x8b xe8 xcb x63 xb7)) E))
(T (W x32 x71 xfb xff x78 x00 x00 x00)
(T (W x64 x00 x00 x00 x9c x00 x00 x00)
(L (W x00 x00 x00 x00 x00 x00 x00 x00)) E)
(T (W x50 x00 x00 x00 x44 x00 x00 x00)
(L (W x00 x00 x80 xbf x00 x00 x80 xbf)) E)))))))
(T (W x32 x85 xf9 xff x78 x00 x00 x00)
(T (W x00 x00 x00 x00 x00 x00 x00 x00)
(T (W x00 x00 x80 x3f x00 x00 x80 x3f)
(T (W xff xff xff xff xff xff xff xff)
(T (W x45 x26 x22 x84 xe4 x9c xf2 xcb)
(T (W xff xff xff xff xff xff xff xff)
(T (W x00 x00 x80 x3f x00 x00 x80 x3f)
(L (W x00 x00 x80 xbf x00 x00 x80 xbf))
(L (W x75 x59 x48 xdc x00 x5e x59 x2f)))
(T (W x00 x00 x00 x00 x00 x00 x00 x00)
(L (W xff xff xff xff xff xff xff xff)) E))
(T (W xa2 x30 xfe xff x9d x01 x00 x00)
(T (W x00 x00 x80 x3f x00 x00 x80 x3f)
(L (W x00 x00 x00 x00 x00 x00 x00 x00))
(L (W x00 x00 x80 xbf x00 x00 x80 xbf)))
(T (W xc0 x02 x00 x00 xff xff xff xff)
(L (W xb0 x00 x00 x00 x28 x00 x00 x00)) E)))
(T (W x00 x00 x00 x00 x00 x00 x00 x00)
(T (W x45 x26 x22 x84 xe4 x9c xf2 xcb)
(T (W x68 x00 x00 x00 x5c x00 x00 x00)
(L (W x00 x00 x00 x00 x00 x00 x00 x00))
(L (W x54 xc0 xff xff x00 x01 x01 x01)))
(T (W x00 x00 x00 x00 x00 x00 x00 x00)
(L (W x00 x00 x00 x00 x00 x00 x00 x00)) E))
(T (W x00 x00 x00 x00 x00 x00 x00 x00)
(T (W x00 x00 x80 x3f x00 x00 x80 x3f)
(L (W xff xff xff xff xff xff xff xff)) E)
(T (W x6c x00 x00 x00 x60 x00 x00 x00)
(L (W x00 x00 x80 xbf x00 x00 x80 xbf)) E))))
(T (W x00 x00 x80 x3f x00 x00 x80 x3f)
(T (W x00 x00 x00 x00 x00 x00 x00 x00)
(T (W x00 x00 x80 x3f x00 x00 x80 x3f)
(T (W x00 x00 x00 x00 x00 x00 x00 x00)
(L (W x00 x00 x80 xbf x00 x00 x80 xbf))
(L (W x32 x9d xff xff x78 x00 x00 x00)))
(T (W x72 x64 x5f x6c x76 x31 x00 x00)
(L (W x04 x00 x00 x00 x22 x9e xfe xff)) E))
(T (W x45 x26 x22 x84 xe4 x9c xf2 xcb)
(T (W xff xff xff xff xff xff xff xff)
(L (W x18 x00 x00 x00 x10 x00 x00 x00)) E)
(T (W x30 x32 x5f x43 x4c x45 x41 x52)
(L (W x46 x53 x59 x53 x5f x4e x53 x5f)) E)))
(T (W x00 x00 x00 x00 x02 x00 x00 x00)
(T (W x00 x00 x00 x00 x00 x00 x00 x00)
(T (W x00 x00 x00 x00 x00 x00 x00 x00)
(L (W x00 x01 x01 x01 x6a x37 xfe xff))
(L (W xff xff xff xff xff xff xff xff)))
(T (W x46 x53 x59 x53 x5f x4e x53 x5f)
(L (W x6c x00 x00 x00 x60 x00 x00 x00)) E))
(T (W x00 x00 x80 x3f x00 x00 x80 x3f)
(T (W xff xff xff xff x03 x00 x00 x00)
(L (W x00 x00 x80 xbf x00 x00 x80 xbf)) E)
(T (W x00 x00 x00 x00 x00 x00 x00 x00)
(L (W xff xff xff xff xff xff xff xff)) E)))))
(T (W x45 x26 x22 x84 xe4 x9c xf2 xcb)
(T (W x05 x00 x00 x00 xff xff xff xff)
(T (W x00 x00 x80 x3f x00 x00 x80 x3f)
(T (W xff xff xff xff xff xff xff xff)
(T (W xff xff xff xff xff xff xff xff)
(L (W x00 x00 x00 x00 x00 x00 x00 x00))
(L (W x00 x00 x00 x00 x00 x00 x00 x00)))
(T (W x4c x9d x30 x97 x85 x20 x5c x5f)
(L (W xff xff xff xff xff xff xff xff)) E))
(T (W x00 x00 x80 x3f x00 x00 x80 x3f)
(T (W x00 x00 x00 x00 xc4 x0e xfc xff)
(L (W x00 x00 x80 xbf x00 x00 x80 xbf)) E)
(T (W x00 x00 x00 x00 x00 x00 x00 x00)
(L (W xff xff xff xff xff xff xff xff)) E)))
(T (W x84 x54 xfa xff x1d x00 x00 x00)
(T (W x00 x00 x00 x00 x00 x00 x00 x00)
(T (W xff xff xff xff xff xff xff xff)
(L (W x00 x00 x80 xbf x00 x00 x80 xbf))
(L (W x22 x00 x00 x00 x25 x00 x00 x00)))
(T (W xff xff xff xff xff xff xff xff)
(L (W x00 x00 x80 xbf x00 x00 x80 xbf)) E))
(T (W xff xff xff xff xff xff xff xff)
(T (W x6c x00 x00 x00 x60 x00 x00 x00)
(L (W x00 x00 x00 x00 x12 x00 x00 x00)) E)
(T (W xff xff xff xff xd0 x00 x00 x00)
(L (W x45 x26 x22 x84 xe4 x9c xf2 xcb)) E))))
(T (W x50 x00 x00 x00 x44 x00 x00 x00)
(T (W x00 x00 x00 x00 x00 x00 x00 x00)
(T (W x00 x00 x00 x00 x00 x00 x00 x00)
(T (W xff xff xff xff xff xff xff xff)
(L (W x00 x00 x00 x00 x00 x00 x00 x00))
(L (W x00 x00 x80 xbf x00 x00 x80 xbf)))
(T (W x00 x00 x80 x3f x00 x00 x80 x3f)
(L (W x00 x00 x00 x00 x00 x00 x00 x00)) E))
(T (W x21 x00 x00 x00 x24 x00 x00 x00)
(T (W x00 x00 x00 x00 x12 x00 x00 x00)
(L (W xff xff xff xff xff xff xff xff)) E)
(T (W x00 x00 x00 x00 x12 x00 x00 x00)
(L (W x00 x00 x00 x00 x00 x00 x00 x00)) E)))
(T (W xff xff xff xff xff xff xff xff)
(T (W x2f x00 x00 x00 xff xff xff xff)
(T (W x00 x00 x00 x00 x00 x00 x00 x00)
(L (W xff xff xff xff xff xff xff xff))
(L (W xff xff xff xff xff xff xff xff)))
(T (W x00 x00 x00 x00 x00 x00 x00 x00)
(L (W xff xff xff xff xff xff xff xff)) E))
(T (W xff xff xff xff xbc x00 x00 x00)
(T (W x00 x00 x00 x00 x00 x00 x00 x00)
(L (W x18 x00 x00 x00 x0c x00 x00 x00)) E)
(T (W x00 x00 x80 xbf x00 x00 x80 xbf)
(L (W x00 x00 x01 x01 x5d x00 x00 x00)) E))))))
(T (W xff xff xff xff xff xff xff xff)
(T (W x00 x00 x00 x00 x00 x00 x00 x00)
(T (W x00 x00 x80 x3f x00 x00 x80 x3f)
(T (W x00 x00 x80 x3f x00 x00 x80 x3f)
(T (W xff xff xff xff xff xff xff xff)
(T (W x00 x00 x80 x3f x00 x00 x80 x3f)
(L (W x12 x00 x00 x00 x46 x53 x59 x53))
(L (W x00 x00 x00 x00 x00 x00 x00 x00)))
(T (W x00 x00 x00 x00 x00 x00 x00 x00)
(L (W xff xff xff xff xff xff xff xff)) E))
(T (W x00 x00 x00 x00 x00 x00 x00 x00)
(T (W x54 x00 x00 x00 x48 x00 x00 x00)
(L (W x00 x00 x00 x00 x00 x00 x00 x00)) E)
(T (W xff xff xff xff xff xff xff xff)
(L (W xff xff xff xff xff xff xff xff)) E)))
(T (W x00 x00 x00 x00 x00 x00 x00 x00)
(T (W x45 x26 x22 x84 xe4 x9c xf2 xcb)
(T (W xff xff xff xff xff xff xff xff)
(L (W x00 x00 x80 xbf x00 x00 x80 xbf))
(L (W x18 x00 x00 x00 x10 x00 x00 x00)))
(T (W x4e x00 x00 x00 x04 x00 x00 x00)
(L (W x00 x00 x00 x00 x00 x00 x00 x00)) E))
(T (W x00 x00 x80 x3f x00 x00 x80 x3f)
(T (W x00 x00 x80 x3f x00 x00 x80 x3f)
(L (W xff xff xff xff xff xff xff xff)) E)
(T (W xff xff xff xff xa0 x00 x00 x00)
(L (W x6c x00 x00 x00 x60 x00 x00 x00)) E))))
(T (W x82 xe3 xf9 xff x74 x00 x00 x00)
(T (W x00 x00 x00 x00 x00 x00 x00 x00)
(T (W x45 x26 x22 x84 xe4 x9c xf2 xcb)
(T (W xc8 x00 x00 x00 xbc x00 x00 x00)
(L (W x45 x26 x22 x84 xe4 x9c xf2 xcb))
(L (W x00 x00 x00 x00 x00 x00 x00 x00)))
(T (W x00 x00 x80 x3f x00 x00 x80 x3f)
(L (W x45 x44 x00 x00 x00 x00 x00 x00)) E))
(T (W x00 x00 x80 x3f x00 x00 x80 x3f)
(T (W x34 x01 x00 x00 x04 x00 x00 x00)
(L (W xcc x00 x00 x00 x01 x00 x00 x00)) E)
(T (W x1e x00 x00 x00 x0c x00 x00 x00)
(L (W x00 x00 x00 x00 x00 x00 x00 x00)) E)))
(T (W xff xff xff xff xff xff xff xff)
(T (W x6a xbf x38 x75 x73 xb6 xfc xcf)
(T (W x00 x00 x00 x00 x00 x00 x00 x00)
(L (W x45 x26 x22 x84 xe4 x9c xf2 xcb))
(L (W xff xff xff xff xff xff xff xff)))
(T (W x61 x72 x6c x69 x6b x65 x5f x6f)
(L (W x18 x00 x00 x00 x0c x00 x00 x00)) E))
(T (W x54 x68 xfb xff x00 x01 x01 x01)
(T (W x00 x00 x00 x00 x00 x00 x00 x00)
(L (W x6c x00 x00 x00 x60 x00 x00 x00)) E)
(T (W x4f x84 x6f x8b xe8 xcb x63 xb7)
(L (W xff xff xff xff xff xff xff xff)) E)))))
(T (W x00 x00 x00 x00 x00 x00 x00 x00)
(T (W x6c x00 x00 x00 x60 x00 x00 x00)
(T (W xff xff xff xff xff xff xff xff)
(T (W x00 x00 x00 x00 x00 x00 x00 x00)
(T (W xff xff xff xff xff xff xff xff)
(L (W x49 xa1 x68 x4a xeb x5f xdd x3d))
(L (W x54 x00 x00 x00 x48 x00 x00 x00)))
(T (W xff xff xff xff xff xff xff xff)
(L (W xff xff xff xff xff xff xff xff)) E))
(T (W x4c x45 x41 x52 x45 x44 x00 x00)
(T (W x18 x00 x00 x00 x0c x00 x00 x00)
(L (W x54 x00 x00 x00 x48 x00 x00 x00)) E)
(T (W xb0 x44 x69 x12 x83 x6b x37 xc6)
(L (W x00 x00 x00 x00 x00 x00 x00 x00)) E)))
(T (W x00 x00 x00 x00 x00 x00 x00 x00)
(T (W x00 x00 x00 x00 x00 x00 x00 x00)
(T (W xff xff xff xff xff xff xff xff)
(L (W x6c x00 x00 x00 x60 x00 x00 x00))
(L (W xff xff xff xff xff xff xff xff)))
(T (W x00 x00 x00 x00 x42 xdc xfc xff)
(L (W x54 x00 x00 x00 x48 x00 x00 x00)) E))
(T (W x46 x53 x59 x53 x5f x4e x53 x5f)
(T (W xb8 x00 x00 x00 x28 x00 x00 x00)
(L (W x45 x26 x22 x84 xe4 x9c xf2 xcb)) E)
(T (W x00 x00 x00 x00 x00 x00 x00 x00)
(L (W xb4 x00 x00 x00 x46 x00 x00 x00)) E))))
(T (W x00 x00 x80 x3f x00 x00 x80 x3f)
(T (W x00 x00 x00 x00 x00 x00 x00 x00)
(T (W x00 x00 x00 x00 x00 x00 x00 x00)
(T (W x00 x00 x00 x00 x00 x00 x00 x00)
(L (W x82 xb3 xfd xff x74 x00 x00 x00))
(L (W x00 x00 x80 xbf x00 x00 x80 xbf)))
(T (W x00 x00 x80 x3f x00 x00 x80 x3f)
(L (W x46 x53 x59 x53 x5f x4e x53 x5f)) E))
(T (W xff xff xff xff xff xff xff xff)
(T (W x00 x00 x80 x3f x00 x00 x80 x3f)
(L (W xff xff xff xff xff xff xff xff)) E)
(T (W x45 x26 x22 x84 xe4 x9c xf2 xcb)
(L (W x45 x26 x22 x84 xe4 x9c xf2 xcb)) E)))
(T (W xff xff xff xff xff xff xff xff)
(T (W x45 x26 x22 x84 xe4 x9c xf2 xcb)
(T (W x00 x00 x80 x3f x00 x00 x80 x3f)
(L (W x30 x32 x5f x43 x4c x45 x41 x52))
(L (W x46 x53 x59 x53 x5f x4e x53 x5f)))
(T (W x01 x00 x00 x00 x1e x00 x00 x00)
(L (W xff xff xff xff xff xff xff xff)) E))
(T (W x6b x65 x5f x77 x61 x72 x6c x69)
(T (W x00 x00 x80 x3f x00 x00 x80 x3f)
(L (W xff xff xff xff xff xff xff xff)) E)
(T (W x00 x00 x80 xbf x00 x00 x80 xbf)
(L (W xff xff xff xff xff xff xff xff)) E)))))))))
(T (W xa0 xd2 x01 x00 xd4 xcd x01 x00)
(T (W x60 x80 x00 x00 x14 x7e x00 x00)
(T (W x00 x00 x00 x00 x00 x00 x00 x00)
(T (W xff xff xff xff xff xff xff xff)
(T (W x00 x00 x00 x00 x00 x00 x00 x00)
(T (W x00 x00 x80 x3f x00 x00 x80 x3f)
(T (W xff xff xff xff xff xff xff xff)
(T (W x00 x00 x00 x00 x00 x00 x00 x00)
(T (W x6c x00 x00 x00 x60 x00 x00 x00)
(L (W x18 x00 x00 x00 x0c x00 x00 x00))
(L (W x00 x00 x80 xbf x00 x00 x80 xbf)))
(T (W x18 x00 x00 x00 x10 x00 x00 x00)
(L (W x00 x00 x00 x00 x00 x00 x00 x00)) E))
(T (W x00 x00 x00 x00 x00 x00 x00 x00)
(T (W xff xff xff xff xbc x00 x00 x00)
(L (W x00 x00 x80 xbf x00 x00 x80 xbf))
(L (W x00 x00 x80 xbf x00 x00 x80 xbf)))
(T (W x82 xf6 xfc xff x74 x00 x00 x00)
(L (W x00 x00 x00 x00 x00 x00 x00 x00)) E)))
(T (W x50 x00 x00 x00 x44 x00 x00 x00)
(T (W x45 x26 x22 x84 xe4 x9c xf2 xcb)
(T (W xff xff xff xff x03 x00 x00 x00)
(L (W xff xff xff xff xbc x00 x00 x00))
(L (W xff xff xff xff xff xff xff xff)))
(T (W x00 x00 x00 x00 xc4 xb9 xfc xff)
(L (W x50 x00 x00 x00 x44 x00 x00 x00)) E))
(T (W x00 x00 x00 x00 x00 x00 x00 x00)
(T (W xff xff xff xff xff xff xff xff)
(L (W x00 x00 x00 x00 x00 x00 x00 x00)) E)
(T (W xff xff xff xff xff xff xff xff)
(L (W x45 x26 x22 x84 xe4 x9c xf2 xcb)) E))))
(T (W x64 x00 x00 x00 x9c x00 x00 x00)
(T (W x00 x00 x00 x00 x00 x00 x00 x00)
(T (W xff xff xff xff xff xff xff xff)
(T (W x00 x00 x80 x3f x00 x00 x80 x3f)
(L (W x03 x00 x00 x00 xcc x00 x00 x00))
(L (W xff xff xff xff xff xff xff xff)))
(T (W x00 x00 x00 x00 x00 x00 x00 x00)
(L (W x00 x00 x80 xbf x00 x00 x80 xbf)) E))
(T (W x00 x00 x80 x3f x00 x00 x80 x3f)
(T (W x00 x00 x00 x00 x00 x00 x00 x00)
(L (W xff xff xff xff xff xff xff xff)) E)
(T (W xff xff xff xff xff xff xff xff)
(L (W x6c x00 x00 x00 x60 x00 x00 x00)) E)))
(T (W x00 x00 x80 x3f x00 x00 x80 x3f)
(T (W x68 x00 x00 x00 x5c x00 x00 x00)
(T (W x00 x00 x80 x3f x00 x00 x80 x3f)
(L (W xff xff xff xff xff xff xff xff))
(L (W x00 x00 x00 x00 x00 x00 x00 x00)))
(T (W x00 x00 x80 x3f x00 x00 x80 x3f)
(L (W xff xff xff xff xff xff xff xff)) E))
(T (W x00 x00 x00 x00 xc4 x59 xfb xff)
(T (W xb6 x01 x00 x00 xff xff xff xff)
(L (W x18 x00 x00 x00 x0c x00 x00 x00)) E)
(T (W x54 x00 x00 x00 x48 x00 x00 x00)
(L (W x00 x00 x00 x00 x00 x00 x00 x00)) E)))))
(T (W x45 x26 x22 x84 xe4 x9c xf2 xcb)
(T (W x54 xcb xf9 xff x00 x01 x01 x01)
(T (W xff xff xff xff xff xff xff xff)
(T (W xdc x98 xfa xff x3e x00 x00 x00)
(T (W xea x9a xfe xff x00 x00 x01 x01)
(L (W x82 x86 xfd xff x74 x00 x00 x00))
(L (W x32 x88 xff xff x78 x00 x00 x00)))
(T (W x00 x00 x80 x3f x00 x00 x80 x3f)
(L (W x00 x00 x00 x00 x00 x00 x00 x00)) E))
(T (W xc8 x00 x00 x00 xbc x00 x00 x00)
(T (W xff xff xff xff xff xff xff xff)
(L (W x00 x00 x00 x00 xc4 x09 xfe xff)) E)
(T (W x00 x00 x80 xbf x00 x00 x80 xbf)
(L (W x00 x00 x80 xbf x00 x00 x80 xbf)) E)))
(T (W x00 x00 x80 x3f x00 x00 x80 x3f)
(T (W x00 x00 x80 x3f x00 x00 x80 x3f)
(T (W x00 x00 x00 x00 x00 x00 x00 x00)
(L (W xff xff xff xff xff xff xff xff))
(L (W x08 x00 x00 x00 x10 x08 x00 x00)))
(T (W x82 xc6 xfc xff x90 x00 x00 x00)
(L (W xff xff xff xff xff xff xff xff)) E))
(T (W x34 x01 x00 x00 x04 x00 x00 x00)
(T (W xff xff xff xff xff xff xff xff)
(L (W x00 x00 x80 xbf x00 x00 x80 xbf)) E)
(T (W xcb x66 xca xc9 x03 x8d xa3 xbc)
(L (W xff xff xff xff xff xff xff xff)) E))))
(T (W x01 x00 x00 x00 xff xff xff xff)
(T (W x82 x26 xfa xff x74 x00 x00 x00)
(T (W xb8 x00 x00 x00 xac x00 x00 x00)
(T (W x5f x4e x53 x5f x30 x32 x5f x43)
(L (W xff xff xff xff xff xff xff xff))
(L (W xff xff xff xff xff xff xff xff)))
(T (W x45 x26 x22 x84 xe4 x9c xf2 xcb)
(L (W x00 x00 x80 xbf x00 x00 x80 xbf)) E))
(T (W xff xff xff xff xff xff xff xff)
(T (W x00 x00 x80 x3f x00 x00 x80 x3f)
(L (W x45 x44 x00 x00 x00 x00 x00 x00)) E)
(T (W x54 x2b xfd xff x00 x01 x01 x01)
(L (W x00 x00 x80 xbf x00 x00 x80 xbf)) E)))
(T (W x45 x26 x22 x84 xe4 x9c xf2 xcb)
(T (W x00 x00 x80 x3f x00 x00 x80 x3f)
(T (W x00 x00 x80 x3f x00 x00 x80 x3f)
(L (W x00 x00 x80 xbf x00 x00 x80 xbf))
(L (W x00 x00 x00 x00 x00 x00 x00 x00)))
(T (W x00 x00 x80 x3f x00 x00 x80 x3f)
(L (W x00 x00 x00 x00 x62 xe7 xfe xff)) E))
(T (W x30 x32 x5f x43 x4c x45 x41 x52)
(T (W x64 x00 x00 x00 x9c x00 x00 x00)
(L (W xff xff xff xff xff xff xff xff)) E)
(T (W xb0 x00 x00 x00 x64 x00 x00 x00)
(L (W x00 x00 x00 x00 x00 x00 x00 x00)) E))))))
(T (W x54 x00 x00 x00 x48 x00 x00 x00)
(T (W x64 x00 x00 x00 xa0 x00 x00 x00)
(T (W x00 x00 x00 x00 xfa x5a xfd xff)
(T (W xff xff xff xff xff xff xff xff)
(T (W x00 x00 x00 x00 x00 x00 x00 x00)
(T (W xff xff xff xff xff xff xff xff)
(L (W xff xff xff xff x9c x00 x00 x00))
(L (W x00 x00 x80 xbf x00 x00 x80 xbf)))
(T (W x45 x26 x22 x84 xe4 x9c xf2 xcb)
(L (W x00 x00 x00 x00 x12 x00 x00 x00)) E))
(T (W x45 x26 x22 x84 xe4 x9c xf2 xcb)
(T (W xff xff xff xff xff xff xff xff)
(L (W x1b x00 x00 x00 x1e x00 x00 x00))
(L (W x6c x00 x00 x00 x60 x00 x00 x00)))
(T (W xff xff xff xff x98 x00 x00 x00)
(L (W x00 x00 x00 x00 x00 x00 x00 x00)) E)))
(T (W x00 x00 x80 x3f x00 x00 x80 x3f)
(T (W x68 x00 x00 x00 x5c x00 x00 x00)
(T (W xff xff xff xff x01 x00 x00 x00)
(L (W x82 xbe xfd xff x74 x00 x00 x00))
(L (W xff xff xff xff xff xff xff xff)))
(T (W x82 xbe xfc xff x74 x00 x00 x00)
(L (W x54 xc3 xfe xff x00 x01 x01 x01)) E))
(T (W x00 x00 x80 x3f x00 x00 x80 x3f)
(T (W xff xff xff xff xff xff xff xff)
(L (W x00 x00 x00 x00 x00 x00 x00 x00)) E)
(T (W xc7 x01 x00 x00 xff xff xff xff)
(L (W xb8 x00 x00 x00 x64 x00 x00 x00)) E))))
(T (W xff xff xff xff xff xff xff xff)
(T (W x50 x00 x00 x00 x44 x00 x00 x00)
(T (W xff xff xff xff xff xff xff xff)
(T (W xff xff xff xff xff xff xff xff)
(L (W x58 x00 x00 x00 x5c x00 x00 x00))
(L (W x4c x00 x50 x00 x54 x00 x00 x00)))
(T (W xff xff xff xff xff xff xff xff)
(L (W x49 xa1 x68 x4a xeb x5f xdd x3d)) E))
(T (W xd4 x00 x00 x00 xc8 x00 x00 x00)
(T (W x00 x00 x00 x00 x00 x00 x00 x00)
(L (W x00 x00 x01 x01 x2f x00 x00 x00)) E)
(T (W x45 x26 x22 x84 xe4 x9c xf2 xcb)
(L (W x18 x00 x00 x00 x10 x00 x00 x00)) E)))
(T (W x00 x00 x80 x3f x00 x00 x80 x3f)
(T (W x82 xde xfa xff x74 x00 x00 x00)
(T (W x00 x00 x80 x3f x00 x00 x80 x3f)
(L (W x00 x00 x00 x00 x00 x00 x00 x00))
(L (W x00 x00 x00 x00 x12 x00 x00 x00)))
(T (W x00 x00 x80 x3f x00 x00 x80 x3f)
(L (W x04 x00 x00 x00 x42 xe7 xfe xff)) E))
(T (W xff xff xff xff xff xff xff xff)
(T (W x00 x00 x00 x00 x00 x00 x00 x00)
(L (W xff xff xff xff xff xff xff xff)) E)
(T (W x18 x00 x00 x00 x0c x00 x00 x00)
(L (W x46 x53 x59 x53 x5f x4e x53 x5f)) E)))))
(T (W xff xff xff xff xff xff xff xff)
(T (W x00 x00 x00 x00 x00 x00 x00 x00)
(T (W x00 x00 x00 x00 x00 x00 x00 x00)
(T (W x00 x00 x00 x00 x00 x00 x00 x00)
(T (W x00 x00 x00 x00 x00 x00 x00 x00)
(L (W x18 x00 x00 x00 x0c x00 x00 x00))
(L (W xff xff xff xff xff xff xff xff)))
(T (W x00 x00 x80 x3f x00 x00 x80 x3f)
(L (W x00 x00 x00 x00 x00 x00 x00 x00)) E))
(T (W xff xff xff xff xff xff xff xff)
(T (W x16 x00 x00 x00 x10 x00 x00 x00)
(L (W x03 x00 x00 x00 xd0 x00 x00 x00)) E)
(T (W x00 x00 x00 x00 x00 x00 x00 x00)
(L (W x45 x26 x22 x84 xe4 x9c xf2 xcb)) E)))
(T (W x00 x00 x80 x3f x00 x00 x80 x3f)
(T (W x50 x00 x00 x00 x44 x00 x00 x00)
(T (W x4f x84 x6f x8b xe8 xcb x63 xb7)
(L (W xff xff xff xff xff xff xff xff))
(L (W x00 x00 x00 x00 x00 x00 x00 x00)))
(T (W x00 x00 x00 x00 x1b x00 x00 x00)
(L (W xff xff xff xff xff xff xff xff)) E))
(T (W x49 xa1 x68 x4a xeb x5f xdd x3d)
(T (W x00 x00 x00 x00 x00 x00 x00 x00)
(L (W x6c x00 x00 x00 x60 x00 x00 x00)) E)
(T (W x49 xa1 x68 x4a xeb x5f xdd x3d)
(L (W x91 x01 x00 x00 xff xff xff xff)) E))))
(T (W x00 x00 x01 x01 x25 x02 x00 x00)
(T (W x00 x00 x00 x00 xc4 x31 xfa xff)
(T (W xff xff xff xff x04 x00 x00 x00)
(T (W x00 x00 x80 x3f x00 x00 x80 x3f)
(L (W x45 x26 x22 x84 xe4 x9c xf2 xcb))
(L (W xff xff xff xff xff xff xff xff)))
(T (W xff xff xff xff xff xff xff xff)
(L (W x00 x00 x80 xbf x00 x00 x80 xbf)) E))
(T (W x00 x00 x00 x00 x00 x00 x00 x00)
(T (W x00 x00 x80 x3f x00 x00 x80 x3f)
(L (W x00 x00 x00 x00 x00 x00 x00 x00)) E)
(T (W x00 x00 x00 x00 xc4 x31 xfd xff)
(L (W xc0 x31 xff xff x6a x8a xff xff)) E)))
(T (W x45 x26 x22 x84 xe4 x9c xf2 xcb)
(T (W x00 x00 x80 x3f x00 x00 x80 x3f)
(T (W x45 x26 x22 x84 xe4 x9c xf2 xcb)
(L (W x00 x00 x80 xbf x00 x00 x80 xbf))
(L (W x54 x00 x00 x00 x48 x00 x00 x00)))
(T (W xe2 xf8 xff xff x00 x00 x01 x01)
(L (W x00 x00 x00 x00 x00 x00 x00 x00)) E))
(T (W x00 x00 x80 x3f x00 x00 x80 x3f)
(T (W x18 x00 x00 x00 x0c x00 x00 x00)
(L (W x00 x00 x00 x00 x00 x00 x00 x00)) E)
(T (W xf8 x01 x00 x00 x68 x00 x00 x00)
(L (W x00 x00 x80 xbf x00 x00 x80 xbf)) E)))))))
(T (W x00 x00 x80 x3f x00 x00 x80 x3f)
(T (W x00 x00 x00 x00 x00 x00 x00 x00)
(T (W x74 x1c x00 x00 x60 x1b x00 x00)
(T (W xbc x00 x00 x00 xb0 x00 x00 x00)
(T (W x00 x00 x80 x3f x00 x00 x80 x3f)
(T (W xff xff xff xff xff xff xff xff)
(T (W x22 x00 x00 x00 x67 x72 x6f x75)
(L (W x00 x00 x00 x00 x00 x00 x00 x00))
(L (W xff xff xff xff xff xff xff xff)))
(T (W x00 x00 x00 x00 x00 x00 x00 x00)
(L (W x68 x00 x00 x00 x5c x00 x00 x00)) E))
(T (W xff xff xff xff xff xff xff xff)
(T (W x4f x84 x6f x8b xe8 xcb x63 xb7)
(L (W x00 x00 x00 x00 x00 x00 x00 x00))
(L (W x4c x00 x50 x00 x54 x00 x00 x00)))
(T (W x00 x00 x00 x00 x0c x00 x08 x00)
(L (W x54 xff xfe xff x00 x01 x01 x01)) E)))
(T (W x00 x00 x00 x00 x00 x00 x00 x00)
(T (W x00 x00 x00 x00 x00 x00 x00 x00)
(T (W x00 x00 x80 x3f x00 x00 x80 x3f)
(L (W xff xff xff xff x03 x00 x00 x00))
(L (W x54 x00 x00 x00 x48 x00 x00 x00)))
(T (W x00 x00 x00 x00 x00 x00 x00 x00)
(L (W x00 x00 x00 x00 x00 x00 x00 x00)) E))
(T (W xff xff xff xff xff xff xff xff)
(T (W x00 x00 x00 x00 x00 x00 x00 x00)
(L (W xff xff xff xff xff xff xff xff)) E)
(T (W x00 x00 x80 xbf x00 x00 x80 xbf)
(L (W x45 x26 x22 x84 xe4 x9c xf2 xcb)) E))))
(T (W x00 x00 x80 x3f x00 x00 x80 x3f)
(T (W xe2 x24 xfd xff x00 x00 x01 x01)
(T (W x00 x00 x00 x00 x00 x00 x00 x00)
(T (W x12 x00 x00 x00 x46 x53 x59 x53)
(L (W x00 x00 x00 x00 x00 x00 x00 x00))
(L (W x00 x00 x80 xbf x00 x00 x80 xbf)))
(T (W xff xff xff xff xff xff xff xff)
(L (W xff xff xff xff xff xff xff xff)) E))
(T (W x00 x00 x00 x00 x12 x00 x00 x00)
(T (W xff xff xff xff xff xff xff xff)
(L (W x54 x00 x00 x00 x48 x00 x00 x00)) E)
(T (W x00 x00 x01 x01 xc7 x01 x00 x00)
(L (W x00 x00 x00 x00 x22 x1d xff xff)) E)))
(T (W xff xff xff xff xff xff xff xff)
(T (W x5c x00 x00 x00 xff xff xff xff)
(T (W x00 x00 x00 x00 x00 x00 x00 x00)
(L (W x00 x00 x80 xbf x00 x00 x80 xbf))
(L (W xb4 x00 x00 x00 x50 x00 x00 x00)))
(T (W x00 x00 x01 x01 xe9 x00 x00 x00)
(L (W x00 x00 x80 xbf x00 x00 x80 xbf)) E))
(T (W x00 x00 x00 x00 x00 x00 x00 x00)
(T (W xff xff xff xff x9c x00 x00 x00)
(L (W x00 x00 x00 x00 x00 x00 x00 x00)) E)
(T (W x45 x44 x00 x00 x00 x00 x00 x00)
(L (W x19 x00 x00 x00 x1c x00 x00 x00)) E)))))
(T (W x32 xac xf9 xff x78 x00 x00 x00)
(T (W xff xff xff xff xff xff xff xff)
(T (W x45 x26 x22 x84 xe4 x9c xf2 xcb)
(T (W x45 x26 x22 x84 xe4 x9c xf2 xcb)
(T (W x00 x00 x80 x3f x00 x00 x80 x3f)
(L (W x4c x45 x41 x52 x45 x44 x00 x00))
(L (W x46 x53 x59 x53 x5f x4e x53 x5f)))
(T (W xff xff xff xff xff xff xff xff)
(L (W xff xff xff xff xff xff xff xff)) E))
(T (W x45 x26 x22 x84 xe4 x9c xf2 xcb)
(T (W x00 x00 x80 x3f x00 x00 x80 x3f)
(L (W x00 x00 x00 x00 x00 x00 x00 x00)) E)
(T (W x84 x13 xfd xff x1e x00 x00 x00)
(L (W xff xff xff xff xff xff xff xff)) E)))
(T (W xff xff xff xff xff xff xff xff)
(T (W x00 x00 x00 x00 x00 x00 x00 x00)
(T (W xb8 x00 x00 x00 x28 x00 x00 x00)
(L (W x00 x00 x00 x00 x00 x00 x00 x00))
(L (W x00 x00 x00 x00 xc4 xcd xff xff)))
(T (W x49 xa1 x68 x4a xeb x5f xdd x3d)
(L (W x00 x00 x00 x00 x00 x00 x00 x00)) E))
(T (W x00 x00 x00 x00 xc4 x4d xfb xff)
(T (W x00 x00 x80 x3f x00 x00 x80 x3f)
(L (W x00 x00 x00 x00 x42 x53 xfe xff)) E)
(T (W x45 x26 x22 x84 xe4 x9c xf2 xcb)
(L (W x54 x00 x00 x00 x48 x00 x00 x00)) E))))
(T (W x00 x00 x80 x3f x00 x00 x80 x3f)
(T (W x84 x33 xfa xff x3e x00 x00 x00)
(T (W x00 x00 x00 x00 x00 x00 x00 x00)
(T (W xff xff xff xff xff xff xff xff)
(L (W x00 x00 x00 x00 x00 x00 x00 x00))
(L (W x45 x26 x22 x84 xe4 x9c xf2 xcb)))
(T (W x00 x00 x80 x3f x00 x00 x80 x3f)
(L (W x5d x00 x00 x00 xff xff xff xff)) E))
(T (W x32 x2c xfb xff x78 x00 x00 x00)
(T (W x34 x01 x00 x00 x04 x00 x00 x00)
(L (W xcc x00 x00 x00 x01 x00 x00 x00)) E)
(T (W x00 x00 x00 x00 x42 x33 xfd xff)
(L (W x00 x00 x00 x00 x00 x00 x00 x00)) E)))
(T (W x64 x00 x00 x00 x9c x00 x00 x00)
(T (W xff xff xff xff xff xff xff xff)
(T (W x00 x00 x00 x00 x00 x00 x00 x00)
(L (W xff xff xff xff xff xff xff xff))
(L (W xff xff xff xff xff xff xff xff)))
(T (W x00 x00 x00 x00 x00 x00 x00 x00)
(L (W xff xff xff xff xb0 x00 x00 x00)) E))
(T (W x45 x26 x22 x84 xe4 x9c xf2 xcb)
(T (W x00 x00 x00 x00 x00 x00 x00 x00)
(L (W x6c x00 x00 x00 x60 x00 x00 x00)) E)
(T (W x4f x84 x6f x8b xe8 xcb x63 xb7)
(L (W x19 x00 x00 x00 x1c x00 x00 x00)) E))))))
(T (W xff xff xff xff xff xff xff xff)
(T (W xc9 x00 x00 x00 xff xff xff xff)
(T (W x45 x26 x22 x84 xe4 x9c xf2 xcb)
(T (W x00 x00 x80 x3f x00 x00 x80 x3f)
(T (W xff xff xff xff xff xff xff xff)
(T (W x00 x00 x00 x00 x00 x00 x00 x00)
(L (W x00 x00 x00 x00 x00 x00 x00 x00))
(L (W x06 x00 x00 x00 xc8 x05 x00 x00)))
(T (W x80 x96 x30 x97 x85 x1c x5c x5f)
(L (W xc4 x00 x00 x00 x02 x00 x00 x00)) E))
(T (W x46 x53 x59 x53 x5f x4e x53 x5f)
(T (W x00 x00 x80 x3f x00 x00 x80 x3f)
(L (W x00 x00 x00 x00 x00 x00 x00 x00)) E)
(T (W x18 x00 x00 x00 x0c x00 x00 x00)
(L (W xff xff xff xff xc8 x00 x00 x00)) E)))
(T (W x00 x00 x00 x00 x04 x00 x00 x00)
(T (W x00 x00 x00 x00 x00 x00 x00 x00)
(T (W x18 x00 x00 x00 x0c x00 x00 x00)
(L (W x4f x84 x6f x8b xe8 xcb x63 xb7))
(L (W x6c x00 x00 x00 x60 x00 x00 x00)))
(T (W x9a xfe xff xff x00 x01 x01 x01)
(L (W x00 x00 x00 x00 x00 x00 x00 x00)) E))
(T (W x00 x00 x00 x00 x00 x00 x00 x00)
(T (W x49 xa1 x68 x4a xeb x5f xdd x3d)
(L (W xff xff xff xff xff xff xff xff)) E)
(T (W x32 x44 xfd xff x78 x00 x00 x00)
(L (W x00 x00 x80 xbf x00 x00 x80 xbf)) E))))
(T (W x00 x00 x80 x3f x00 x00 x80 x3f)
(T (W x00 x00 x00 x00 x00 x00 x00 x00)
(T (W x00 x00 x00 x00 x00 x00 x00 x00)
(T (W x00 x00 x80 x3f x00 x00 x80 x3f)
(L (W x82 xa2 xfd xff x74 x00 x00 x00))
(L (W x00 x00 x00 x00 x00 x00 x00 x00)))
(T (W x00 x00 x00 x00 x00 x00 x00 x00)
(L (W xff xff xff xff xff xff xff xff)) E))
(T (W x45 x26 x22 x84 xe4 x9c xf2 xcb)
(T (W xff xff xff xff xff xff xff xff)
(L (W x00 x00 x80 xbf x00 x00 x80 xbf)) E)
(T (W xff xff xff xff xff xff xff xff)
(L (W x00 x00 x00 x00 x00 x00 x00 x00)) E)))
(T (W xff xff xff xff xff xff xff xff)
(T (W xff xff xff xff xff xff xff xff)
(T (W x74 x03 x00 x00 x4c x02 x00 x00)
(L (W x54 x00 x00 x00 x48 x00 x00 x00))
(L (W xff xff xff xff xff xff xff xff)))
(T (W x1c x00 x00 x00 xac x00 x00 x00)
(L (W x6c x00 x00 x00 x60 x00 x00 x00)) E))
(T (W x68 x00 x00 x00 x5c x00 x00 x00)
(T (W xff xff xff xff x01 x00 x00 x00)
(L (W x00 x00 x80 xbf x00 x00 x80 xbf)) E)
(T (W x00 x00 x00 x00 x00 x00 x00 x00)
(L (W x03 x00 x00 x00 xd8 x00 x00 x00)) E)))))
(T (W x00 x00 x00 x00 x00 x00 x00 x00)
(T (W x00 x00 x80 x3f x00 x00 x80 x3f)
(T (W x54 x17 xfa xff x00 x01 x01 x01)
(T (W x01 x00 x00 x00 x9c x00 x00 x00)
(T (W xff xff xff xff xff xff xff xff)
(L (W x00 x00 x00 x00 x00 x00 x00 x00))
(L (W x00 x00 x00 x00 x00 x00 x00 x00)))
(T (W xff xff xff xff xff xff xff xff)
(L (W xff xff xff xff xff xff xff xff)) E))
(T (W xff xff xff xff x01 x00 x00 x00)
(T (W x00 x00 x00 x00 xc4 x15 xfc xff)
(L (W x00 x00 x80 xbf x00 x00 x80 xbf)) E)
(T (W xff xff xff xff xff xff xff xff)
(L (W x00 x00 x00 x00 x00 x00 x00 x00)) E)))
(T (W x84 x01 x00 x00 xff xff xff xff)
(T (W xe5 x2b x34 x29 x3e x52 x68 xfc)
(T (W x2c x00 x00 x00 xb0 x00 x00 x00)
(L (W x00 x00 x80 xbf x00 x00 x80 xbf))
(L (W x18 x00 x00 x00 x0c x00 x00 x00)))
(T (W xff xff xff xff xff xff xff xff)
(L (W x00 x00 x80 xbf x00 x00 x80 xbf)) E))
(T (W xe2 x5c xfe xff x00 x00 x01 x01)
(T (W x54 x57 xfc xff x00 x01 x01 x01)
(L (W x00 x00 x00 x00 x12 x00 x00 x00)) E)
(T (W xff xff xff xff xff xff xff xff)
(L (W x54 x57 xff xff x00 x01 x01 x01)) E))))
(T (W x45 x26 x22 x84 xe4 x9c xf2 xcb)
(T (W x00 x00 x00 x00 x02 x00 x00 x00)
(T (W x00 x00 x00 x00 x00 x00 x00 x00)
(T (W x00 x00 x00 x00 x00 x00 x00 x00)
(L (W x50 x00 x00 x00 x44 x00 x00 x00))
(L (W x49 xa1 x68 x4a xeb x5f xdd x3d)))
(T (W x00 x00 x00 x00 x00 x00 x00 x00)
(L (W x00 x00 x01 x01 x29 x00 x00 x00)) E))
(T (W xb8 x00 x00 x00 x14 x00 x00 x00)
(T (W x00 x00 x00 x00 x00 x00 x00 x00)
(L (W xff xff xff xff x9c x00 x00 x00)) E)
(T (W x00 x00 x00 x00 x00 x00 x00 x00)
(L (W x00 x00 x00 x00 x00 x00 x00 x00)) E)))
(T (W xff xff xff xff x03 x00 x00 x00)
(T (W x00 x00 x00 x00 x00 x00 x00 x00)
(T (W x22 x00 x00 x00 x67 x72 x6f x75)
(L (W xff xff xff xff xff xff xff xff))
(L (W x00 x00 x01 x01 x90 x01 x00 x00)))
(T (W x45 x26 x22 x84 xe4 x9c xf2 xcb)
(L (W x45 x26 x22 x84 xe4 x9c xf2 xcb)) E))
(T (W xff xff xff xff xff xff xff xff)
(T (W x69 x6b x65 x5f x6c x76 x32 x00)
(L (W x18 x00 x00 x00 x0c x00 x00 x00)) E)
(T (W x00 x00 x00 x00 x00 x00 x00 x00)
(L (W xff xff xff xff xff xff xff xff)) E))))))))
(T (W xff xff xff xff x1a x00 x00 x00)
(T (W x45 x26 x22 x84 xe4 x9c xf2 xcb)
(T (W x00 x00 x01 x01 xc9 x00 x00 x00)
(T (W x00 x00 x80 x3f x00 x00 x80 x3f)
(T (W x32 xba xf9 xff x78 x00 x00 x00)
(T (W x00 x00 x00 x00 x00 x00 x00 x00)
(T (W x00 x00 x80 x3f x00 x00 x80 x3f)
(T (W xff xff xff xff xff xff xff xff)
(L (W xff xff xff xff xff xff xff xff))
(L (W xff xff xff xff xa0 x00 x00 x00)))
(T (W xff xff xff xff xff xff xff xff)
(L (W x00 x00 x80 xbf x00 x00 x80 xbf)) E))
(T (W x00 x00 x80 x3f x00 x00 x80 x3f)
(T (W x30 x32 x5f x43 x4c x45 x41 x52)
(L (W xff xff xff xff xff xff xff xff))
(L (W x00 x00 x00 x00 x00 x00 x00 x00)))
(T (W x00 x00 x00 x00 x00 x00 x00 x00)
(L (W x00 x00 x80 xbf x00 x00 x80 xbf)) E)))
(T (W xff xff xff xff xff xff xff xff)
(T (W xff xff xff xff xff xff xff xff)
(T (W x00 x00 x00 x00 x04 x00 x00 x00)
(L (W xff xff xff xff xff xff xff xff))
(L (W x00 x00 x00 x00 x00 x00 x00 x00)))
(T (W xff xff xff xff xff xff xff xff)
(L (W xff xff xff xff xff xff xff xff)) E))
(T (W x54 x3d xfb xff x00 x01 x01 x01)
(T (W xea x4c xff xff x00 x00 x01 x01)
(L (W x54 x3d xfe xff x00 x01 x01 x01)) E)
(T (W xdc x4a xfd xff x17 x00 x00 x00)
(L (W x04 x00 x00 x00 x42 x41 xff xff)) E))))
(T (W xed x41 x23 xde x87 x69 x31 xc9)
(T (W x00 x00 x80 x3f x00 x00 x80 x3f)
(T (W xff xff xff xff xff xff xff xff)
(T (W xff xff xff xff xbc x00 x00 x00)
(L (W x3a xfa xff xff x00 x00 x01 x01))
(L (W x45 x44 x00 x00 x00 x00 x00 x00)))
(T (W x00 x00 x80 x3f x00 x00 x80 x3f)
(L (W x00 x00 x00 x00 xc4 x9b xfe xff)) E))
(T (W xff xff xff xff xff xff xff xff)
(T (W x00 x00 x80 x3f x00 x00 x80 x3f)
(L (W x30 x32 x5f x43 x4c x45 x41 x52)) E)
(T (W x50 x00 x00 x00 x44 x00 x00 x00)
(L (W xff xff xff xff xff xff xff xff)) E)))
(T (W x50 x00 x00 x00 x44 x00 x00 x00)
(T (W x45 x26 x22 x84 xe4 x9c xf2 xcb)
(T (W x00 x00 x00 x00 xc4 xdb xfb xff)
(L (W x00 x00 x00 x00 x00 x00 x00 x00))
(L (W x54 x00 x00 x00 x48 x00 x00 x00)))
(T (W x03 x00 x00 x00 xd8 x00 x00 x00)
(L (W x00 x00 x00 x00 x12 x00 x00 x00)) E))
(T (W xff xff xff xff xff xff xff xff)
(T (W x00 x00 x00 x00 x00 x00 x00 x00)
(L (W xff xff xff xff xff xff xff xff)) E)
(T (W xb0 x00 x00 x00 x64 x00 x00 x00)
(L (W x00 x00 x00 x00 x00 x00 x00 x00)) E)))))
(T (W x00 x00 x80 x3f x00 x00 x80 x3f)
(T (W xff xff xff xff x03 x00 x00 x00)
(T (W x01 x00 x00 x00 x04 x00 x00 x00)
(T (W x00 x00 x80 x3f x00 x00 x80 x3f)
(T (W x00 x00 x00 x00 x00 x00 x00 x00)
(L (W xff xff xff xff xff xff xff xff))
(L (W xff xff xff xff xff xff xff xff)))
(T (W x18 x00 x00 x00 x10 x00 x00 x00)
(L (W x00 x00 x80 xbf x00 x00 x80 xbf)) E))
(T (W x74 x03 x00 x00 x4c x02 x00 x00)
(T (W x4f x84 x6f x8b xe8 xcb x63 xb7)
(L (W x00 x00 x00 x00 x00 x00 x00 x00)) E)
(T (W x03 x00 x00 x00 xbc x00 x00 x00)
(L (W x54 x0d xff xff x00 x01 x01 x01)) E)))
(T (W x64 x00 x00 x00 x9c x00 x00 x00)
(T (W xff xff xff xff xff xff xff xff)
(T (W x00 x00 x00 x00 x00 x00 x00 x00)
(L (W xff xff xff xff xff xff xff xff))
(L (W x00 x00 x80 xbf x00 x00 x80 xbf)))
(T (W x00 x00 x80 x3f x00 x00 x80 x3f)
(L (W x00 x00 x00 x00 x00 x00 x00 x00)) E))
(T (W x45 x26 x22 x84 xe4 x9c xf2 xcb)
(T (W x00 x00 x00 x00 x00 x00 x00 x00)
(L (W xff xff xff xff xff xff xff xff)) E)
(T (W x45 x26 x22 x84 xe4 x9c xf2 xcb)
(L (W x00 x00 x00 x00 x00 x00 x00 x00)) E))))
(T (W x00 x00 x00 x00 x00 x00 x00 x00)
(T (W xff xff xff xff xff xff xff xff)
(T (W x00 x00 x00 x00 x00 x00 x00 x00)
(T (W x00 x00 x80 x3f x00 x00 x80 x3f)
(L (W xff xff xff xff xff xff xff xff))
(L (W x00 x00 x00 x00 x00 x00 x00 x00)))
(T (W x00 x00 x00 x00 x00 x00 x00 x00)
(L (W x82 xa8 xfe xff x74 x00 x00 x00)) E))
(T (W x00 x00 x00 x00 x00 x00 x00 x00)
(T (W x6c x00 x00 x00 x60 x00 x00 x00)
(L (W x4f x84 x6f x8b xe8 xcb x63 xb7)) E)
(T (W xff xff xff xff xff xff xff xff)
(L (W xff xff xff xff xff xff xff xff)) E)))
(T (W x00 x00 x00 x00 xc4 x6b xfa xff)
(T (W x0a x00 x00 x00 x3e x00 x00 x00)
(T (W xff xff xff xff xff xff xff xff)
(L (W x45 x26 x22 x84 xe4 x9c xf2 xcb))
(L (W x50 x00 x00 x00 x44 x00 x00 x00)))
(T (W xff xff xff xff xff xff xff xff)
(L (W x00 x00 x80 xbf x00 x00 x80 xbf)) E))
(T (W x00 x00 x80 x3f x00 x00 x80 x3f)
(T (W xff xff xff xff xff xff xff xff)
(L (W x00 x00 x00 x00 x00 x00 x00 x00)) E)
(T (W x45 x44 x00 x00 x00 x00 x00 x00)
(L (W x00 x00 x80 xbf x00 x00 x80 xbf)) E))))))
(T (W x64 x00 x00 x00 xa0 x00 x00 x00)
(T (W xff xff xff xff xff xff xff xff)
(T (W x00 x00 x00 x00 x00 x00 x00 x00)
(T (W xdc x12 xfa xff x25 x00 x00 x00)
(T (W x00 x00 x80 x3f x00 x00 x80 x3f)
(T (W x45 x44 x00 x00 x00 x00 x00 x00)
(L (W xff xff xff xff xff xff xff xff))
(L (W x17 x00 x00 x00 x1a x00 x00 x00)))
(T (W xff xff xff xff xff xff xff xff)
(L (W x00 x00 x80 xbf x00 x00 x80 xbf)) E))
(T (W x45 x26 x22 x84 xe4 x9c xf2 xcb)
(T (W x00 x00 x00 x00 x00 x00 x00 x00)
(L (W xff xff xff xff xff xff xff xff))
(L (W x00 x00 x00 x00 x00 x00 x00 x00)))
(T (W x63 x6f x77 x61 x72 x64 x5f x63)
(L (W x54 x00 x00 x00 x48 x00 x00 x00)) E)))
(T (W xff xff xff xff xff xff xff xff)
(T (W xff xff xff xff xff xff xff xff)
(T (W x00 x00 x00 x00 x00 x00 x00 x00)
(L (W x00 x00 x00 x00 x00 x00 x00 x00))
(L (W x00 x00 x00 x00 x00 x00 x00 x00)))
(T (W xff xff xff xff xff xff xff xff)
(L (W xff xff xff xff xff xff xff xff)) E))
(T (W xff xff xff xff xff xff xff xff)
(T (W x46 x53 x59 x53 x5f x4e x53 x5f)
(L (W xff xff xff xff xa0 x00 x00 x00)) E)
(T (W x00 x00 x80 xbf x00 x00 x80 xbf)
(L (W x00 x00 x00 x00 x12 x00 x00 x00)) E))))
(T (W x40 x00 x00 x00 x10 x00 x00 x00)
(T (W xff xff xff xff xff xff xff xff)
(T (W xea xb4 xfd xff x00 x00 x01 x01)
(T (W x00 x00 x00 x00 x00 x00 x00 x00)
(L (W x00 x00 x80 xbf x00 x00 x80 xbf))
(L (W xa8 x00 x00 x00 x64 x00 x00 x00)))
(T (W x00 x00 x00 x00 x02 x00 x00 x00)
(L (W xcc x00 x00 x00 x01 x00 x00 x00)) E))
(T (W x6b x65 x5f x77 x61 x72 x6c x69)
(T (W x00 x00 x00 x00 xc4 x23 xfc xff)
(L (W x00 x00 x00 x00 x00 x00 x00 x00)) E)
(T (W x00 x00 x00 x00 xc4 x23 xfd xff)
(L (W xff xff xff xff xff xff xff xff)) E)))
(T (W x82 x60 xfa xff x74 x00 x00 x00)
(T (W x01 x00 x00 x00 x9c x00 x00 x00)
(T (W x2c x00 x00 x00 xb0 x00 x00 x00)
(L (W x4f x84 x6f x8b xe8 xcb x63 xb7))
(L (W x32 xe2 xff xff x78 x00 x00 x00)))
(T (W x25 x00 x00 x00 x67 x72 x6f x75)
(L (W x45 x26 x22 x84 xe4 x9c xf2 xcb)) E))
(T (W x00 x00 x00 x00 x00 x00 x00 x00)
(T (W x00 x00 x80 x3f x00 x00 x80 x3f)
(L (W x00 x00 x00 x00 xb2 x67 xfe xff)) E)
(T (W xff xff xff xff xff xff xff xff)
(L (W x00 x00 x80 xbf x00 x00 x80 xbf)) E)))))
(T (W x00 x00 x01 x01 xc9 x00 x00 x00)
(T (W x45 x26 x22 x84 xe4 x9c xf2 xcb)
(T (W x00 x00 x80 x3f x00 x00 x80 x3f)
(T (W x45 x26 x22 x84 xe4 x9c xf2 xcb)
(T (W x54 x95 xfb xff x00 x01 x01 x01)
(L (W xff xff xff xff xff xff xff xff))
(L (W xff xff xff xff xff xff xff xff)))
(T (W x45 x26 x22 x84 xe4 x9c xf2 xcb)
(L (W x32 x92 xfe xff x78 x00 x00 x00)) E))
(T (W x4f x84 x6f x8b xe8 xcb x63 xb7)
(T (W x00 x00 x80 x3f x00 x00 x80 x3f)
(L (W x08 x00 x00 x00 x20 x08 x00 x00)) E)
(T (W x00 x00 x80 xbf x00 x00 x80 xbf)
(L (W xff xff xff xff xff xff xff xff)) E)))
(T (W x54 x55 xfa xff x00 x01 x01 x01)
(T (W xb8 x00 x00 x00 xac x00 x00 x00)
(T (W x00 x00 x80 x3f x00 x00 x80 x3f)
(L (W x00 x00 x00 x00 x12 x00 x00 x00))
(L (W x00 x00 x80 xbf x00 x00 x80 xbf)))
(T (W x00 x00 x80 x3f x00 x00 x80 x3f)
(L (W x46 x53 x59 x53 x5f x4e x53 x5f)) E))
(T (W x54 x00 x00 x00 x48 x00 x00 x00)
(T (W x00 x00 x00 x00 x00 x00 x00 x00)
(L (W xff xff xff xff xbc x00 x00 x00)) E)
(T (W xff xff xff xff xb0 x00 x00 x00)
(L (W x00 x00 x80 xbf x00 x00 x80 xbf)) E))))
(T (W x00 x00 x00 x00 x00 x00 x00 x00)
(T (W x64 x00 x00 x00 x9c x00 x00 x00)
(T (W x20 x01 x00 x00 x04 x00 x00 x00)
(T (W xbc x00 x00 x00 x14 x00 x00 x00)
(L (W x00 x00 x80 xbf x00 x00 x80 xbf))
(L (W x46 x53 x59 x53 x5f x4e x53 x5f)))
(T (W x18 x01 x00 x00 x04 x00 x00 x00)
(L (W x03 x00 x00 x00 xd8 x00 x00 x00)) E))
(T (W x45 x26 x22 x84 xe4 x9c xf2 xcb)
(T (W xff xff xff xff xff xff xff xff)
(L (W x00 x00 x80 xbf x00 x00 x80 xbf)) E)
(T (W xff xff xff xff xff xff xff xff)
(L (W xff xff xff xff xff xff xff xff)) E)))
(T (W x45 x26 x22 x84 xe4 x9c xf2 xcb)
(T (W x48 x03 x00 x00 x34 x02 x00 x00)
(T (W xff xff xff xff xff xff xff xff)
(L (W xcc x00 x00 x00 x02 x00 x00 x00))
(L (W x03 x00 x00 x00 xd8 x00 x00 x00)))
(T (W x00 x00 x00 x00 x00 x00 x00 x00)
(L (W x00 x00 x80 xbf x00 x00 x80 xbf)) E))
(T (W x21 x00 x00 x00 x24 x00 x00 x00)
(T (W xff xff xff xff xff xff xff xff)
(L (W x00 x00 x00 x00 x00 x00 x00 x00)) E)
(T (W xba x01 x00 x00 xff xff xff xff)
(L (W x32 x72 xff xff x78 x00 x00 x00)) E)))))))
(T (W x18 x00 x00 x00 x0c x00 x00 x00)
(T (W x00 x00 x80 x3f x00 x00 x80 x3f)
(T (W x6c x00 x00 x00 x60 x00 x00 x00)
(T (W xff xff xff xff xff xff xff xff)
(T (W x40 x00 x00 x00 x9c x00 x00 x00)
(T (W xff xff xff xff xff xff xff xff)
(T (W x00 x00 x80 x3f x00 x00 x80 x3f)
(L (W x00 x00 x80 xbf x00 x00 x80 xbf))
(L (W x00 x00 x00 x00 x00 x00 x00 x00)))
(T (W x00 x00 x80 x3f x00 x00 x80 x3f)
(L (W xff xff xff xff xff xff xff xff)) E))
(T (W x00 x00 x00 x00 x00 x00 x00 x00)
(T (W x18 x00 x00 x00 x0c x00 x00 x00)
(L (W x00 x00 x00 x00 x00 x00 x00 x00))
(L (W xff xff xff xff xff xff xff xff)))
(T (W x67 x72 x6f x75 x70 x5f x77 x69)
(L (W x00 x00 x01 x01 x5d x00 x00 x00)) E)))
(T (W x00 x00 x00 x00 x00 x00 x00 x00)
(T (W x00 x00 x80 x3f x00 x00 x80 x3f)
(T (W x18 x00 x00 x00 x10 x00 x00 x00)
(L (W x00 x00 x00 x00 x00 x00 x00 x00))
(L (W xb4 x00 x00 x00 x46 x00 x00 x00)))
(T (W x00 x00 x80 x3f x00 x00 x80 x3f)
(L (W x00 x00 x80 xbf x00 x00 x80 xbf)) E))
(T (W x00 x00 x00 x00 x00 x00 x00 x00)
(T (W x00 x00 x00 x00 xc4 x3f xfc xff)
(L (W x00 x00 x00 x00 x22 x3f xfe xff)) E)
(T (W x18 x00 x00 x00 x10 x00 x00 x00)
(L (W x00 x00 x80 xbf x00 x00 x80 xbf)) E))))
(T (W x40 x00 x00 x00 xa0 x00 x00 x00)
(T (W x00 x00 x00 x00 x00 x00 x00 x00)
(T (W x32 x9e xfa xff x78 x00 x00 x00)
(T (W x00 x00 x80 x3f x00 x00 x80 x3f)
(L (W x68 x00 x00 x00 x5c x00 x00 x00))
(L (W x1c x00 x00 x00 x10 x00 x00 x00)))
(T (W x00 x00 x80 x3f x00 x00 x80 x3f)
(L (W x46 x53 x59 x53 x5f x4e x53 x5f)) E))
(T (W x00 x00 x80 x3f x00 x00 x80 x3f)
(T (W xea x30 xff xff x00 x00 x01 x01)
(L (W x03 x00 x00 x00 xd8 x00 x00 x00)) E)
(T (W x00 x00 x00 x00 x00 x00 x00 x00)
(L (W x00 x00 x00 x00 x00 x00 x00 x00)) E)))
(T (W x00 x00 x00 x00 x00 x00 x00 x00)
(T (W x00 x00 x00 x00 x00 x00 x00 x00)
(T (W x00 x00 x00 x00 x00 x00 x00 x00)
(L (W xff xff xff xff x94 x00 x00 x00))
(L (W xff xff xff xff xff xff xff xff)))
(T (W x00 x00 x00 x00 x00 x00 x00 x00)
(L (W x45 x26 x22 x84 xe4 x9c xf2 xcb)) E))
(T (W x82 x5c xfb xff x74 x00 x00 x00)
(T (W xff xff xff xff xff xff xff xff)
(L (W x32 x5e xfe xff x78 x00 x00 x00)) E)
(T (W x4f x84 x6f x8b xe8 xcb x63 xb7)
(L (W xff xff xff xff xff xff xff xff)) E)))))
(T (W xbc x00 x00 x00 xb0 x00 x00 x00)
(T (W x00 x00 x00 x00 x72 x6a xfd xff)
(T (W x68 x00 x00 x00 x5c x00 x00 x00)
(T (W xff xff xff xff xff xff xff xff)
(T (W xff xff xff xff xff xff xff xff)
(L (W x00 x00 x80 xbf x00 x00 x80 xbf))
(L (W x6c x00 x00 x00 x60 x00 x00 x00)))
(T (W x00 x00 x00 x00 x00 x00 x00 x00)
(L (W x00 x00 x00 x00 x00 x00 x00 x00)) E))
(T (W x00 x00 x80 x3f x00 x00 x80 x3f)
(T (W xff xff xff xff xff xff xff xff)
(L (W x54 x00 x00 x00 x48 x00 x00 x00)) E)
(T (W xff xff xff xff xff xff xff xff)
(L (W x00 x00 x00 x00 x00 x00 x00 x00)) E)))
(T (W x45 x26 x22 x84 xe4 x9c xf2 xcb)
(T (W x00 x00 x80 x3f x00 x00 x80 x3f)
(T (W xff xff xff xff xff xff xff xff)
(L (W x00 x00 x80 xbf x00 x00 x80 xbf))
(L (W xff xff xff xff xff xff xff xff)))
(T (W xff xff xff xff xff xff xff xff)
(L (W x00 x00 x80 xbf x00 x00 x80 xbf)) E))
(T (W x00 x00 x00 x00 xb2 x53 xfb xff)
(T (W x18 x00 x00 x00 x10 x00 x00 x00)
(L (W x45 x26 x22 x84 xe4 x9c xf2 xcb)) E)
(T (W xff xff xff xff xff xff xff xff)
(L (W xff xff xff xff xc8 x00 x00 x00)) E))))
(T (W xb8 x00 x00 x00 xac x00 x00 x00)
(T (W x45 x26 x22 x84 xe4 x9c xf2 xcb)
(T (W x00 x00 x80 x3f x00 x00 x80 x3f)
(T (W x67 x72 x6f x75 x70 x5f x6c x65)
(L (W x00 x00 x00 x00 x00 x00 x00 x00))
(L (W x50 x00 x00 x00 x44 x00 x00 x00)))
(T (W x82 xac xfc xff x74 x00 x00 x00)
(L (W x00 x00 x00 x00 x00 x00 x00 x00)) E))
(T (W xff xff xff xff xff xff xff xff)
(T (W x45 x26 x22 x84 xe4 x9c xf2 xcb)
(L (W xff xff xff xff xff xff xff xff)) E)
(T (W x45 x26 x22 x84 xe4 x9c xf2 xcb)
(L (W x00 x00 x80 xbf x00 x00 x80 xbf)) E)))
(T (W x01 x00 x00 x00 x04 x00 x00 x00)
(T (W x00 x00 x00 x00 x00 x00 x00 x00)
(T (W x00 x00 x80 x3f x00 x00 x80 x3f)
(L (W x45 x44 x00 x00 x00 x00 x00 x00))
(L (W x00 x00 x00 x00 x00 x00 x00 x00)))
(T (W x50 x00 x00 x00 x44 x00 x00 x00)
(L (W xff xff xff xff xff xff xff xff)) E))
(T (W x00 x00 x00 x00 x06 x00 x00 x00)
(T (W x00 x00 x80 x3f x00 x00 x80 x3f)
(L (W xff xff xff xff xff xff xff xff)) E)
(T (W x54 x71 xfd xff x00 x01 x01 x01)
(L (W x46 x53 x59 x53 x5f x4e x53 x5f)) E))))))
(T (W x00 x00 x00 x00 x72 x32 xfd xff)
(T (W x00 x00 x00 x00 x00 x00 x00 x00)
(T (W x00 x00 x80 x3f x00 x00 x80 x3f)
(T (W x01 x00 x00 x00 x3e x00 x00 x00)
(T (W xff xff xff xff xff xff xff xff)
(T (W xff xff xff xff xff xff xff xff)
(L (W x4f x84 x6f x8b xe8 xcb x63 xb7))
(L (W x00 x00 x80 xbf x00 x00 x80 xbf)))
(T (W x00 x00 x00 x00 x00 x00 x00 x00)
(L (W xff xff xff xff xff xff xff xff)) E))
(T (W x00 x00 x80 x3f x00 x00 x80 x3f)
(T (W x45 x26 x22 x84 xe4 x9c xf2 xcb)
(L (W x00 x00 x80 xbf x00 x00 x80 xbf)) E)
(T (W x00 x00 x00 x00 x01 x00 x00 x00)
(L (W x2e x00 x00 x00 xff xff xff xff)) E)))
(T (W x00 x00 x00 x00 x00 x00 x00 x00)
(T (W x00 x00 x80 x3f x00 x00 x80 x3f)
(T (W xff xff xff xff xff xff xff xff)
(L (W x6c x00 x00 x00 x60 x00 x00 x00))
(L (W x03 x00 x00 x00 xd0 x00 x00 x00)))
(T (W xff xff xff xff xff xff xff xff)
(L (W x00 x00 x80 xbf x00 x00 x80 xbf)) E))
(T (W x32 x46 xfb xff x78 x00 x00 x00)
(T (W x1c x00 x00 x00 xb0 x00 x00 x00)
(L (W x30 x32 x5f x43 x4c x45 x41 x52)) E)
(T (W xff xff xff xff xff xff xff xff)
(L (W x18 x00 x00 x00 x0c x00 x00 x00)) E))))
(T (W x45 x26 x22 x84 xe4 x9c xf2 xcb)
(T (W x00 x00 x80 x3f x00 x00 x80 x3f)
(T (W x00 x00 x80 x3f x00 x00 x80 x3f)
(T (W xff xff xff xff xff xff xff xff)
(L (W xff xff xff xff x9c x00 x00 x00))
(L (W x00 x00 x80 xbf x00 x00 x80 xbf)))
(T (W x00 x00 x80 x3f x00 x00 x80 x3f)
(L (W x00 x00 x00 x00 x00 x00 x00 x00)) E))
(T (W x00 x00 x80 x3f x00 x00 x80 x3f)
(T (W x00 x00 x00 x00 x12 x00 x00 x00)
(L (W xff xff xff xff xff xff xff xff)) E)
(T (W x00 x00 x00 x00 x00 x00 x00 x00)
(L (W x00 x00 x00 x00 x00 x00 x00 x00)) E)))
(T (W x84 x6d xfa xff x3e x00 x00 x00)
(T (W x00 x00 x00 x00 x00 x00 x00 x00)
(T (W x45 x26 x22 x84 xe4 x9c xf2 xcb)
(L (W xf4 x06 x00 x00 xd8 x05 x00 x00))
(L (W x00 x00 x01 x01 x37 x00 x00 x00)))
(T (W x00 x00 x00 x00 x00 x00 x00 x00)
(L (W xff xff xff xff xff xff xff xff)) E))
(T (W xb0 x00 x00 x00 x64 x00 x00 x00)
(T (W x00 x00 x80 x3f x00 x00 x80 x3f)
(L (W x45 x26 x22 x84 xe4 x9c xf2 xcb)) E)
(T (W x00 x00 x80 xbf x00 x00 x80 xbf)
(L (W x00 x00 x01 x01 x29 x00 x00 x00)) E)))))
(T (W x45 x26 x22 x84 xe4 x9c xf2 xcb)
(T (W x00 x00 x00 x00 xc4 xd7 xf9 xff)
(T (W xff xff xff xff xff xff xff xff)
(T (W x00 x00 x00 x00 x00 x00 x00 x00)
(T (W x5f x77 x69 x6c x64 x5f x70 x6f)
(L (W x00 x00 x80 xbf x00 x00 x80 xbf))
(L (W x18 x00 x00 x00 x10 x00 x00 x00)))
(T (W x09 xb0 x33 x97 x85 xa2 x5f x5f)
(L (W xf5 xa1 xaa x28 xbf xd1 x56 x6a)) E))
(T (W x00 x00 x00 x00 x00 x00 x00 x00)
(T (W xff xff xff xff xff xff xff xff)
(L (W x18 x00 x00 x00 x10 x00 x00 x00)) E)
(T (W x50 x00 x00 x00 x44 x00 x00 x00)
(L (W x4f x84 x6f x8b xe8 xcb x63 xb7)) E)))
(T (W x00 x00 x00 x00 x00 x00 x00 x00)
(T (W x00 x00 x00 x00 x00 x00 x00 x00)
(T (W x84 xdd xfb xff x15 x00 x00 x00)
(L (W x45 x26 x22 x84 xe4 x9c xf2 xcb))
(L (W xff xff xff xff xff xff xff xff)))
(T (W x00 x00 x00 x00 x12 x00 x00 x00)
(L (W x54 xd9 xfe xff x00 x01 x01 x01)) E))
(T (W x00 x00 x00 x00 x00 x00 x00 x00)
(T (W xff xff xff xff xff xff xff xff)
(L (W x00 x00 x80 xbf x00 x00 x80 xbf)) E)
(T (W x00 x00 x00 x00 x00 x00 x00 x00)
(L (W xff xff xff xff xff xff xff xff)) E))))
(T (W x18 x00 x00 x00 x0c x00 x00 x00)
(T (W x00 x00 x00 x00 x00 x00 x00 x00)
(T (W x45 x26 x22 x84 xe4 x9c xf2 xcb)
(T (W x00 x00 x80 x3f x00 x00 x80 x3f)
(L (W x45 x26 x22 x84 xe4 x9c xf2 xcb))
(L (W x18 x00 x00 x00 x0c x00 x00 x00)))
(T (W x00 x00 x80 x3f x00 x00 x80 x3f)
(L (W x00 x00 x00 x00 x00 x00 x00 x00)) E))
(T (W x00 x00 x00 x00 x00 x00 x00 x00)
(T (W x00 x00 x80 x3f x00 x00 x80 x3f)
(L (W x00 x00 x00 x00 x00 x00 x00 x00)) E)
(T (W x54 x00 x00 x00 x48 x00 x00 x00)
(L (W x00 x00 x80 xbf x00 x00 x80 xbf)) E)))
(T (W xff xff xff xff xff xff xff xff)
(T (W x45 x26 x22 x84 xe4 x9c xf2 xcb)
(T (W x82 xf4 xfb xff x74 x00 x00 x00)
(L (W x00 x00 x00 x00 x00 x00 x00 x00))
(L (W x00 x00 x00 x00 x00 x00 x00 x00)))
(T (W xff xff xff xff xff xff xff xff)
(L (W x00 x00 x00 x00 x00 x00 x00 x00)) E))
(T (W x00 x00 x80 x3f x00 x00 x80 x3f)
(T (W x00 x00 x80 x3f x00 x00 x80 x3f)
(L (W xff xff xff xff xff xff xff xff)) E)
(T (W x00 x00 x80 xbf x00 x00 x80 xbf)
(L (W x00 x00 x00 x00 x00 x00 x00 x00)) E))))))))))))
(T (W xd8 xec x05 x00 x9c xe3 x05 x00)
(T (W x90 x57 x05 x00 x7c x4f x05 x00)
(T (W x50 x67 x04 x00 xbc x62 x04 x00)
(T (W xe0 x4c x03 x00 x7c x4b x03 x00)
(T (W x08 x6e x01 x00 xbc x6b x01 x00)
(T (W x45 x26 x22 x84 xe4 x9c xf2 xcb)
(T (W x45 x26 x22 x84 xe4 x9c xf2 xcb)
(T (W x64 x00 x00 x00 xa0 x00 x00 x00)
(T (W xff xff xff xff xff xff xff xff)
(T (W x45 x26 x22 x84 xe4 x9c xf2 xcb)
(T (W xb4 x79 xfa xff x00 x01 x01 x01)
(T (W x00 x00 x00 x00 x00 x00 x00 x00)
(L (W x30 x32 x5f x43 x4c x45 x41 x52))
(L (W xff xff xff xff xff xff xff xff)))
(T (W x00 x00 x00 x00 x00 x00 x00 x00)
(L (W x6c x00 x00 x00 x60 x00 x00 x00)) E))
(T (W xab xc8 x7b x47 xb6 x1a x58 xe8)
(T (W x00 x00 x00 x00 x00 x00 x00 x00)
(L (W xff xff xff xff xff xff xff xff))
(L (W xff xff xff xff xff xff xff xff)))
(T (W x00 x00 x80 x3f x00 x00 x80 x3f)
(L (W xff xff xff xff xa0 x00 x00 x00)) E)))
(T (W xff xff xff xff xff xff xff xff)
(T (W x01 x00 x00 x00 x04 x00 x00 x00)
(T (W x45 x44 x00 x00 x00 x00 x00 x00)
(L (W x45 x26 x22 x84 xe4 x9c xf2 xcb))
(L (W x49 xa1 x68 x4a xeb x5f xdd x3d)))
(T (W xe4 xbd xfc xff x19 x00 x00 x00)
(L (W xff xff xff xff xff xff xff xff)) E))
(T (W xb8 x00 x00 x00 x14 x00 x00 x00)
(T (W x30 x32 x5f x43 x4c x45 x41 x52)
(L (W xff xff xff xff xa0 x00 x00 x00)) E)
(T (W x00 x00 x00 x00 x00 x00 x00 x00)
(L (W x45 x44 x00 x00 x00 x00 x00 x00)) E))))
(T (W x00 x00 x00 x00 x00 x00 x00 x00)
(T (W x00 x00 x80 x3f x00 x00 x80 x3f)
(T (W xff xff xff xff x01 x00 x00 x00)
(T (W xff xff xff xff xff xff xff xff)
(L (W x5f x4e x53 x5f x30 x32 x5f x43))
(L (W x45 x26 x22 x84 xe4 x9c xf2 xcb)))
(T (W xff xff xff xff x03 x00 x00 x00)
(L (W xff xff xff xff xff xff xff xff)) E))
(T (W xff xff xff xff xff xff xff xff)
(T (W x00 x00 x80 x3f x00 x00 x80 x3f)
(L (W x45 x26 x22 x84 xe4 x9c xf2 xcb)) E)
(T (W x00 x00 x00 x00 x00 x00 x00 x00)
(L (W x19 x00 x00 x00 xff xff xff xff)) E)))
(T (W xff xff xff xff xff xff xff xff)
(T (W x20 x01 x00 x00 x04 x00 x00 x00)
(T (W xff xff xff xff xff xff xff xff)
(L (W x4f x84 x6f x8b xe8 xcb x63 xb7))
(L (W x54 x00 x00 x00 x48 x00 x00 x00)))
(T (W xff xff xff xff xff xff xff xff)
(L (W x00 x00 x00 x00 x00 x00 x00 x00)) E))
(T (W x42 x5f xfe xff x00 x00 x01 x01)
(T (W x00 x00 x80 x3f x00 x00 x80 x3f)
(L (W x45 x44 x00 x00 x00 x00 x00 x00)) E)
(T (W xff xff xff xff xff xff xff xff)
(L (W x00 x00 x80 xbf x00 x00 x80 xbf)) E)))))
(T (W xff xff xff xff xff xff xff xff)
(T (W x00 x00 x00 x00 x00 x00 x00 x00)
(T (W x00 x00 x80 x3f x00 x00 x80 x3f)
(T (W xe2 x84 xfa xff x74 x00 x00 x00)
(T (W x00 x00 x80 x3f x00 x00 x80 x3f)
(L (W xc9 x00 x00 x00 xff xff xff xff))
(L (W x00 x00 x00 x00 x82 x87 xff xff)))
(T (W x83 x01 x00 x00 xff xff xff xff)
(L (W xb4 x89 xfe xff x00 x01 x01 x01)) E))
(T (W x12 x00 x00 x00 x46 x53 x59 x53)
(T (W x45 x26 x22 x84 xe4 x9c xf2 xcb)
(L (W x00 x00 x00 x00 x00 x00 x00 x00)) E)
(T (W xb0 x00 x00 x00 x64 x00 x00 x00)
(L (W x45 x26 x22 x84 xe4 x9c xf2 xcb)) E)))
(T (W xff xff xff xff xff xff xff xff)
(T (W x4a xd9 xfd xff x00 x00 x01 x01)
(T (W x54 x00 x00 x00 x48 x00 x00 x00)
(L (W x00 x00 x00 x00 x00 x00 x00 x00))
(L (W x00 x00 x80 xbf x00 x00 x80 xbf)))
(T (W x00 x00 x80 x3f x00 x00 x80 x3f)
(L (W xe4 xcd xfe xff x11 x00 x00 x00)) E))
(T (W x00 x00 x00 x00 x00 x00 x00 x00)
(T (W x00 x00 x80 x3f x00 x00 x80 x3f)
(L (W xff xff xff xff xff xff xff xff)) E)
(T (W x00 x00 x80 xbf x00 x00 x80 xbf)
(L (W x49 xa1 x68 x4a xeb x5f xdd x3d)) E))))
(T (W x45 x26 x22 x84 xe4 x9c xf2 xcb)
(T (W x00 x00 x00 x00 x00 x00 x00 x00)
(T (W x00 x00 x00 x00 x00 x00 x00 x00)
(T (W x00 x00 x80 x3f x00 x00 x80 x3f)
(L (W x00 x00 x80 xbf x00 x00 x80 xbf))
(L (W x00 x00 x00 x00 x00 x00 x00 x00)))
(T (W x00 x00 x00 x00 x00 x00 x00 x00)
(L (W xff xff xff xff xff xff xff xff)) E))
(T (W x00 x00 x00 x00 x00 x00 x00 x00)
(T (W xff xff xff xff xff xff xff xff)
(L (W x6c x00 x00 x00 x60 x00 x00 x00)) E)
(T (W xff xff xff xff xff xff xff xff)
(L (W xff xff xff xff xff xff xff xff)) E)))
(T (W xff xff xff xff xff xff xff xff)
(T (W xff xff xff xff xff xff xff xff)
(T (W xff xff xff xff xff xff xff xff)
(L (W xff xff xff xff xff xff xff xff))
(L (W xff xff xff xff xb0 x00 x00 x00)))
(T (W x85 x00 x00 x00 xff xff xff xff)
(L (W x00 x00 x80 xbf x00 x00 x80 xbf)) E))
(T (W x00 x00 x80 x3f x00 x00 x80 x3f)
(T (W x00 x00 x00 x00 x00 x00 x00 x00)
(L (W x4f x84 x6f x8b xe8 xcb x63 xb7)) E)
(T (W x00 x00 x00 x00 x00 x00 x00 x00)
(L (W x18 x00 x00 x00 x0c x00 x00 x00)) E))))))
(T (W x00 x00 x01 x01 xc9 x00 x00 x00)
(T (W x00 x00 x00 x00 x00 x00 x00 x00)
(T (W x54 x00 x00 x00 x48 x00 x00 x00)
(T (W x00 x00 x80 x3f x00 x00 x80 x3f)
(T (W x50 x00 x00 x00 x44 x00 x00 x00)
(T (W x00 x00 x00 x00 x00 x00 x00 x00)
(L (W x00 x00 x00 x00 x00 x00 x00 x00))
(L (W xff xff xff xff xff xff xff xff)))
(T (W x00 x00 x00 x00 x00 x00 x00 x00)
(L (W x45 x26 x22 x84 xe4 x9c xf2 xcb)) E))
(T (W xff xff xff xff xff xff xff xff)
(T (W x49 xa1 x68 x4a xeb x5f xdd x3d)
(L (W xff xff xff xff xff xff xff xff))
(L (W x00 x00 x80 xbf x00 x00 x80 xbf)))
(T (W xff xff xff xff xff xff xff xff)
(L (W xff xff xff xff xb0 x00 x00 x00)) E)))
(T (W xff xff xff xff xff xff xff xff)
(T (W xff xff xff xff xff xff xff xff)
(T (W x45 x26 x22 x84 xe4 x9c xf2 xcb)
(L (W x00 x00 x00 x00 x00 x00 x00 x00))
(L (W x00 x00 x80 xbf x00 x00 x80 xbf)))
(T (W xff xff xff xff xff xff xff xff)
(L (W x00 x00 x00 x00 x00 x00 x00 x00)) E))
(T (W xff xff xff xff xff xff xff xff)
(T (W x00 x00 x00 x00 x00 x00 x00 x00)
(L (W xff xff xff xff xb0 x00 x00 x00)) E)
(T (W x45 x26 x22 x84 xe4 x9c xf2 xcb)
(L (W x00 x00 x00 x00 x00 x00 x00 x00)) E))))
(T (W x00 x00 x80 x3f x00 x00 x80 x3f)
(T (W x6c x76 x31 x5f x74 x6f x5f x63)
(T (W x00 x00 x00 x00 x00 x00 x00 x00)
(T (W x46 x53 x59 x53 x5f x4e x53 x5f)
(L (W x00 x00 x00 x00 x00 x00 x00 x00))
(L (W x49 xa1 x68 x4a xeb x5f xdd x3d)))
(T (W x00 x00 x00 x00 x00 x00 x00 x00)
(L (W xff xff xff xff xff xff xff xff)) E))
(T (W x00 x00 x00 x00 x00 x00 x00 x00)
(T (W x18 x00 x00 x00 x0c x00 x00 x00)
(L (W x00 x00 x80 xbf x00 x00 x80 xbf)) E)
(T (W xff xff xff xff xff xff xff xff)
(L (W xc4 x06 x00 x00 xb0 x05 x00 x00)) E)))
(T (W xff xff xff xff xff xff xff xff)
(T (W xff xff xff xff xff xff xff xff)
(T (W xff xff xff xff xff xff xff xff)
(L (W x45 x26 x22 x84 xe4 x9c xf2 xcb))
(L (W x45 x26 x22 x84 xe4 x9c xf2 xcb)))
(T (W xff xff xff xff xff xff xff xff)
(L (W x4f x84 x6f x8b xe8 xcb x63 xb7)) E))
(T (W x00 x00 x00 x00 x00 x00 x00 x00)
(T (W x50 x00 x00 x00 x44 x00 x00 x00)
(L (W x00 x00 x00 x00 x00 x00 x00 x00)) E)
(T (W x53 x01 x00 x00 xff xff xff xff)
(L (W x92 x5e xff xff x78 x00 x00 x00)) E)))))
(T (W x00 x00 x80 x3f x00 x00 x80 x3f)
(T (W x01 x00 x00 x00 xa0 x00 x00 x00)
(T (W x00 x00 x00 x00 x00 x00 x00 x00)
(T (W x00 x00 x00 x00 x24 x90 xfa xff)
(T (W x00 x00 x00 x00 x24 x90 xfb xff)
(L (W x00 x00 x00 x00 x00 x00 x00 x00))
(L (W x00 x00 x00 x00 x00 x00 x00 x00)))
(T (W xff xff xff xff xff xff xff xff)
(L (W x13 x00 x00 x00 x16 x00 x00 x00)) E))
(T (W x00 x00 x00 x00 x00 x00 x00 x00)
(T (W x00 x00 x80 x3f x00 x00 x80 x3f)
(L (W x00 x00 x00 x00 x00 x00 x00 x00)) E)
(T (W x00 x00 x80 xbf x00 x00 x80 xbf)
(L (W xcc x00 x00 x00 x02 x00 x00 x00)) E)))
(T (W xff xff xff xff xff xff xff xff)
(T (W x00 x00 x00 x00 x00 x00 x00 x00)
(T (W xe2 xcc xfb xff x74 x00 x00 x00)
(L (W x00 x00 x00 x00 x00 x00 x00 x00))
(L (W x54 x00 x00 x00 x48 x00 x00 x00)))
(T (W x6c x00 x00 x00 x60 x00 x00 x00)
(L (W x00 x00 x00 x00 x00 x00 x00 x00)) E))
(T (W xff xff xff xff x9c x00 x00 x00)
(T (W x45 x26 x22 x84 xe4 x9c xf2 xcb)
(L (W xff xff xff xff xff xff xff xff)) E)
(T (W x00 x00 x2a x00 x4c x00 x3c x00)
(L (W x00 x00 x80 xbf x00 x00 x80 xbf)) E))))
(T (W x00 x00 x80 x3f x00 x00 x80 x3f)
(T (W x00 x00 x00 x00 x04 x00 x00 x00)
(T (W x3c xbf xfa xff x3c x00 x00 x00)
(T (W xff xff xff xff xff xff xff xff)
(L (W xff xff xff xff xff xff xff xff))
(L (W x00 x00 x00 x00 x00 x00 x00 x00)))
(T (W x00 x00 x00 x00 x00 x00 x00 x00)
(L (W xff xff xff xff xff xff xff xff)) E))
(T (W x92 x2e xfb xff x78 x00 x00 x00)
(T (W xff xff xff xff xff xff xff xff)
(L (W x45 x26 x22 x84 xe4 x9c xf2 xcb)) E)
(T (W x02 x00 x00 x00 x30 x01 x00 x00)
(L (W x00 x00 x01 x01 xd9 x00 x00 x00)) E)))
(T (W x64 x00 x00 x00 x9c x00 x00 x00)
(T (W xff xff xff xff xff xff xff xff)
(T (W x30 x32 x5f x43 x4c x45 x41 x52)
(L (W xff xff xff xff xbc x00 x00 x00))
(L (W xb4 x00 x00 x00 x64 x00 x00 x00)))
(T (W x00 x00 x00 x00 x00 x00 x00 x00)
(L (W xb4 xf1 xfe xff x00 x01 x01 x01)) E))
(T (W xff xff xff xff xff xff xff xff)
(T (W x00 x00 x00 x00 x00 x00 x00 x00)
(L (W x00 x00 x80 xbf x00 x00 x80 xbf)) E)
(T (W x00 x00 x00 x00 x00 x00 x00 x00)
(L (W xff xff xff xff xff xff xff xff)) E)))))))
(T (W xff xff xff xff x16 x00 x00 x00)
(T (W x18 x00 x00 x00 x0c x00 x00 x00)
(T (W x4a xad xfc xff x00 x00 x01 x01)
(T (W x00 x00 x00 x00 x00 x00 x00 x00)
(T (W xff xff xff xff xff xff xff xff)
(T (W x00 x00 x00 x00 x00 x00 x00 x00)
(T (W x54 x00 x00 x00 x48 x00 x00 x00)
(L (W x6c x00 x00 x00 x60 x00 x00 x00))
(L (W x00 x00 x80 xbf x00 x00 x80 xbf)))
(T (W x68 x00 x00 x00 x5c x00 x00 x00)
(L (W x00 x00 x01 x01 x4a x00 x00 x00)) E))
(T (W x45 x44 x00 x00 x00 x00 x00 x00)
(T (W xff xff xff xff xff xff xff xff)
(L (W x54 x00 x00 x00 x48 x00 x00 x00))
(L (W x00 x00 x0c x00 x10 x00 x14 x00)))
(T (W xff xff xff xff xff xff xff xff)
(L (W x45 x44 x00 x00 x00 x00 x00 x00)) E)))
(T (W x00 x00 x80 x3f x00 x00 x80 x3f)
(T (W x68 x00 x00 x00 x5c x00 x00 x00)
(T (W xff xff xff xff x03 x00 x00 x00)
(L (W x50 x00 x00 x00 x44 x00 x00 x00))
(L (W xff xff xff xff xff xff xff xff)))
(T (W x00 x00 x80 x3f x00 x00 x80 x3f)
(L (W x54 x00 x00 x00 x48 x00 x00 x00)) E))
(T (W x00 x00 x00 x00 x00 x00 x00 x00)
(T (W x18 x00 x00 x00 x0c x00 x00 x00)
(L (W x00 x00 x00 x00 x00 x00 x00 x00)) E)
(T (W xff xff xff xff xff xff xff xff)
(L (W x21 x00 x00 x00 x24 x00 x00 x00)) E))))
(T (W xff xff xff xff x04 x00 x00 x00)
(T (W x00 x00 x00 x00 x00 x00 x00 x00)
(T (W x00 x00 x00 x00 x24 x9c xfa xff)
(T (W x00 x00 x80 x3f x00 x00 x80 x3f)
(L (W xff xff xff xff xac x00 x00 x00))
(L (W xff xff xff xff xc4 x00 x00 x00)))
(T (W x22 x00 x00 x00 x67 x72 x6f x75)
(L (W x00 x00 x00 x00 x00 x00 x00 x00)) E))
(T (W x50 x00 x00 x00 x44 x00 x00 x00)
(T (W x30 x32 x5f x43 x4c x45 x41 x52)
(L (W xff xff xff xff xff xff xff xff)) E)
(T (W x00 x00 x00 x00 x00 x00 x00 x00)
(L (W x00 x00 x80 xbf x00 x00 x80 xbf)) E)))
(T (W x00 x00 x00 x00 x00 x00 x00 x00)
(T (W x45 x26 x22 x84 xe4 x9c xf2 xcb)
(T (W x00 x00 x00 x00 x00 x00 x00 x00)
(L (W xff xff xff xff xff xff xff xff))
(L (W x00 x00 x00 x00 x00 x00 x00 x00)))
(T (W x00 x00 x80 x3f x00 x00 x80 x3f)
(L (W xff xff xff xff xff xff xff xff)) E))
(T (W x00 x00 x80 x3f x00 x00 x80 x3f)
(T (W x00 x00 x00 x00 x04 x00 x00 x00)
(L (W x92 x5a xfe xff x78 x00 x00 x00)) E)
(T (W x00 x00 x80 xbf x00 x00 x80 xbf)
(L (W xe4 x06 x00 x00 xc8 x05 x00 x00)) E)))))
(T (W x00 x00 x00 x00 x00 x00 x00 x00)
(T (W x00 x00 x80 x3f x00 x00 x80 x3f)
(T (W x64 x00 x00 x00 x9c x00 x00 x00)
(T (W xe4 x91 xfa xff x3e x00 x00 x00)
(T (W xff xff xff xff xff xff xff xff)
(L (W x50 x00 x00 x00 x44 x00 x00 x00))
(L (W x00 x00 x80 xbf x00 x00 x80 xbf)))
(T (W x45 x26 x22 x84 xe4 x9c xf2 xcb)
(L (W x3c x9b xfe xff x06 x00 x00 x00)) E))
(T (W xd4 x00 x00 x00 xc8 x00 x00 x00)
(T (W x4b x00 x00 x00 xff xff xff xff)
(L (W x1b x00 x00 x00 x1e x00 x00 x00)) E)
(T (W x00 x00 x80 xbf x00 x00 x80 xbf)
(L (W x00 x00 x00 x00 x00 x00 x00 x00)) E)))
(T (W x00 x00 x80 x3f x00 x00 x80 x3f)
(T (W x00 x00 x80 x3f x00 x00 x80 x3f)
(T (W x18 x00 x00 x00 x10 x00 x00 x00)
(L (W x18 x00 x00 x00 x0c x00 x00 x00))
(L (W x00 x00 x00 x00 x00 x00 x00 x00)))
(T (W x03 x00 x00 x00 x34 x38 x32 x00)
(L (W xbc x00 x00 x00 x02 x00 x00 x00)) E))
(T (W x61 x72 x6c x69 x6b x65 x5f x6c)
(T (W xff xff xff xff xff xff xff xff)
(L (W x00 x00 x80 xbf x00 x00 x80 xbf)) E)
(T (W x04 x00 x00 x00 x88 x03 x00 x00)
(L (W xff xff xff xff xff xff xff xff)) E))))
(T (W xb8 x00 x00 x00 xac x00 x00 x00)
(T (W x00 x00 x80 x3f x00 x00 x80 x3f)
(T (W x40 x00 x00 x00 x9c x00 x00 x00)
(T (W x4c x45 x41 x52 x45 x44 x00 x00)
(L (W xe2 xa8 xfd xff x74 x00 x00 x00))
(L (W xff xff xff xff xff xff xff xff)))
(T (W xb8 x00 x00 x00 xac x00 x00 x00)
(L (W x00 x00 x00 x00 x00 x00 x00 x00)) E))
(T (W xff xff xff xff xff xff xff xff)
(T (W x00 x00 x00 x00 x00 x00 x00 x00)
(L (W xa1 x01 x00 x00 xff xff xff xff)) E)
(T (W x00 x00 x80 xbf x00 x00 x80 xbf)
(L (W x92 x2a xff xff x78 x00 x00 x00)) E)))
(T (W x00 x00 x00 x00 x00 x00 x00 x00)
(T (W x00 x00 x80 x3f x00 x00 x80 x3f)
(T (W x68 x00 x00 x00 x5c x00 x00 x00)
(L (W x45 x26 x22 x84 xe4 x9c xf2 xcb))
(L (W x00 x00 x00 x00 x00 x00 x00 x00)))
(T (W x00 x00 x80 x3f x00 x00 x80 x3f)
(L (W x30 x32 x5f x43 x4c x45 x41 x52)) E))
(T (W x30 x32 x5f x43 x4c x45 x41 x52)
(T (W xe2 x68 xfc xff x74 x00 x00 x00)
(L (W xff xff xff xff xff xff xff xff)) E)
(T (W xff xff xff xff xc8 x00 x00 x00)
(L (W x00 x00 x00 x00 x00 x00 x00 x00)) E))))))
(T (W x00 x00 x80 x3f x00 x00 x80 x3f)
(T (W x00 x00 x80 x3f x00 x00 x80 x3f)
(T (W xff xff xff xff xff xff xff xff)
(T (W xff xff xff xff xff xff xff xff)
(T (W x00 x00 x00 x00 x00 x00 x00 x00)
(T (W xff xff xff xff xbc x00 x00 x00)
(L (W x00 x00 x80 xbf x00 x00 x80 xbf))
(L (W x00 x00 x80 xbf x00 x00 x80 xbf)))
(T (W x50 x00 x00 x00 x44 x00 x00 x00)
(L (W x00 x00 x00 x00 x00 x00 x00 x00)) E))
(T (W x45 x26 x22 x84 xe4 x9c xf2 xcb)
(T (W xff xff xff xff xff xff xff xff)
(L (W xb4 x05 xfe xff x00 x01 x01 x01)) E)
(T (W xff xff xff xff xff xff xff xff)
(L (W x00 x00 x00 x00 x00 x00 x00 x00)) E)))
(T (W x00 x00 x80 x3f x00 x00 x80 x3f)
(T (W x92 xc2 xfa xff x78 x00 x00 x00)
(T (W xff xff xff xff xff xff xff xff)
(L (W xbc x00 x00 x00 x28 x00 x00 x00))
(L (W xff xff xff xff xff xff xff xff)))
(T (W x00 x00 x80 x3f x00 x00 x80 x3f)
(L (W x45 x26 x22 x84 xe4 x9c xf2 xcb)) E))
(T (W x45 x26 x22 x84 xe4 x9c xf2 xcb)
(T (W xff xff xff xff xff xff xff xff)
(L (W x00 x00 x80 xbf x00 x00 x80 xbf)) E)
(T (W x00 x00 x00 x00 x00 x00 x00 x00)
(L (W xff xff xff xff xff xff xff xff)) E))))
(T (W xff xff xff xff xff xff xff xff)
(T (W x50 x00 x00 x00 x44 x00 x00 x00)
(T (W x18 x00 x00 x00 x0c x00 x00 x00)
(T (W xff xff xff xff xff xff xff xff)
(L (W x00 x00 x00 x00 x00 x00 x00 x00))
(L (W x00 x00 x80 xbf x00 x00 x80 xbf)))
(T (W xb8 x00 x00 x00 xac x00 x00 x00)
(L (W x00 x00 x80 xbf x00 x00 x80 xbf)) E))
(T (W xd4 x00 x00 x00 xc8 x00 x00 x00)
(T (W x00 x00 x00 x00 x00 x00 x00 x00)
(L (W xff xff xff xff xff xff xff xff)) E)
(T (W x00 x00 x00 x00 x00 x00 x00 x00)
(L (W x54 x00 x00 x00 x48 x00 x00 x00)) E)))
(T (W x00 x00 x00 x00 x00 x00 x00 x00)
(T (W x00 x00 x80 x3f x00 x00 x80 x3f)
(T (W x00 x00 x80 x3f x00 x00 x80 x3f)
(L (W x29 x00 x00 x00 xff xff xff xff))
(L (W x00 x00 x00 x00 x00 x00 x00 x00)))
(T (W xff xff xff xff xff xff xff xff)
(L (W xff xff xff xff xff xff xff xff)) E))
(T (W xff xff xff xff xff xff xff xff)
(T (W xca x73 xff xff x53 x01 x00 x00)
(L (W xff xff xff xff x9c x00 x00 x00)) E)
(T (W x6c x00 x00 x00 x60 x00 x00 x00)
(L (W x00 x00 x00 x00 x00 x00 x00 x00)) E)))))
(T (W x18 x00 x00 x00 x0c x00 x00 x00)
(T (W xff xff xff xff x02 x00 x00 x00)
(T (W x00 x00 x00 x00 x00 x00 x00 x00)
(T (W xbb xe8 x4c x70 xaf xb5 x89 x4e)
(T (W x00 x00 x00 x00 x00 x00 x00 x00)
(L (W xb4 x95 xfd xff x00 x01 x01 x01))
(L (W x18 x00 x00 x00 x0c x00 x00 x00)))
(T (W x45 x26 x22 x84 xe4 x9c xf2 xcb)
(L (W x00 x00 x00 x00 x00 x00 x00 x00)) E))
(T (W xa1 x01 x00 x00 xff xff xff xff)
(T (W x00 x00 x00 x00 x00 x00 x00 x00)
(L (W xff xff xff xff xff xff xff xff)) E)
(T (W x00 x00 x00 x00 x00 x00 x00 x00)
(L (W x00 x00 x80 xbf x00 x00 x80 xbf)) E)))
(T (W x00 x00 x00 x00 x00 x00 x00 x00)
(T (W x00 x00 x80 x3f x00 x00 x80 x3f)
(T (W x00 x00 x00 x00 x12 x00 x00 x00)
(L (W xff xff xff xff xff xff xff xff))
(L (W x30 x32 x5f x43 x4c x45 x41 x52)))
(T (W x00 x00 x00 x00 x00 x00 x00 x00)
(L (W xff xff xff xff xff xff xff xff)) E))
(T (W x00 x00 x00 x00 x00 x00 x00 x00)
(T (W xff xff xff xff xff xff xff xff)
(L (W x00 x00 x80 xbf x00 x00 x80 xbf)) E)
(T (W x00 x00 x80 xbf x00 x00 x80 xbf)
(L (W x00 x00 x00 x00 x00 x00 x00 x00)) E))))
(T (W xff xff xff xff xff xff xff xff)
(T (W x00 x00 x80 x3f x00 x00 x80 x3f)
(T (W x01 x00 x00 x00 x3e x00 x00 x00)
(T (W x00 x00 x80 x3f x00 x00 x80 x3f)
(L (W x00 x00 x00 x00 x00 x00 x00 x00))
(L (W xff xff xff xff xff xff xff xff)))
(T (W x01 x00 x00 x00 x9c x00 x00 x00)
(L (W x00 x00 x80 xbf x00 x00 x80 xbf)) E))
(T (W x4e x04 x03 x1d x69 xd2 xed xbd)
(T (W x00 x00 x80 x3f x00 x00 x80 x3f)
(L (W x00 x00 x00 x00 x00 x00 x00 x00)) E)
(T (W xe2 x30 xfd xff x74 x00 x00 x00)
(L (W x00 x00 x80 xbf x00 x00 x80 xbf)) E)))
(T (W x45 x26 x22 x84 xe4 x9c xf2 xcb)
(T (W xc0 x00 x00 x00 xb4 x00 x00 x00)
(T (W x00 x00 x80 x3f x00 x00 x80 x3f)
(L (W x00 x00 x80 xbf x00 x00 x80 xbf))
(L (W x00 x00 x80 xbf x00 x00 x80 xbf)))
(T (W x6b x65 x5f x77 x61 x72 x6c x69)
(L (W x00 x00 x00 x00 x00 x00 x00 x00)) E))
(T (W x00 x00 x80 x3f x00 x00 x80 x3f)
(T (W x68 x00 x00 x00 x5c x00 x00 x00)
(L (W xff xff xff xff xff xff xff xff)) E)
(T (W x18 x00 x00 x00 x10 x00 x00 x00)
(L (W x00 x00 x00 x00 x00 x00 x00 x00)) E))))))))
(T (W xfc x00 x84 xb8 xa4 x11 xfb xd3)
(T (W xff xff xff xff xff xff xff xff)
(T (W x00 x00 x80 x3f x00 x00 x80 x3f)
(T (W xff xff xff xff xff xff xff xff)
(T (W x00 x00 x00 x00 x00 x00 x00 x00)
(T (W x50 x00 x00 x00 x44 x00 x00 x00)
(T (W xdd x00 x00 x00 xff xff xff xff)
(T (W x00 x00 x00 x00 x00 x00 x00 x00)
(L (W x49 xa1 x68 x4a xeb x5f xdd x3d))
(L (W x00 x00 x00 x00 x00 x00 x00 x00)))
(T (W x45 x26 x22 x84 xe4 x9c xf2 xcb)
(L (W x03 x00 x00 x00 xd8 x00 x00 x00)) E))
(T (W xbc x00 x00 x00 xb0 x00 x00 x00)
(T (W x00 x00 x80 x3f x00 x00 x80 x3f)
(L (W x00 x00 x00 x00 x00 x00 x00 x00))
(L (W x00 x00 x00 x00 x00 x00 x00 x00)))
(T (W x00 x00 x00 x00 x00 x00 x00 x00)
(L (W xff xff xff xff xff xff xff xff)) E)))
(T (W x00 x00 x00 x00 x00 x00 x00 x00)
(T (W x45 x26 x22 x84 xe4 x9c xf2 xcb)
(T (W x00 x00 x80 x3f x00 x00 x80 x3f)
(L (W x00 x00 x80 xbf x00 x00 x80 xbf))
(L (W x54 x00 x00 x00 x48 x00 x00 x00)))
(T (W x00 x00 x00 x00 x00 x00 x00 x00)
(L (W x00 x00 x00 x00 x00 x00 x00 x00)) E))
(T (W xff xff xff xff xff xff xff xff)
(T (W x00 x00 x80 x3f x00 x00 x80 x3f)
(L (W xff xff xff xff xff xff xff xff)) E)
(T (W x00 x00 x80 xbf x00 x00 x80 xbf)
(L (W x4f x84 x6f x8b xe8 xcb x63 xb7)) E))))
(T (W x00 x00 x80 x3f x00 x00 x80 x3f)
(T (W xff xff xff xff xff xff xff xff)
(T (W x50 x00 x00 x00 x44 x00 x00 x00)
(T (W x00 x00 x00 x00 x00 x00 x00 x00)
(L (W x00 x00 x80 xbf x00 x00 x80 xbf))
(L (W x54 x00 x00 x00 x48 x00 x00 x00)))
(T (W xb9 x00 x00 x00 xff xff xff xff)
(L (W x00 x00 x01 x01 x2f x00 x00 x00)) E))
(T (W x00 x00 x00 x00 x00 x00 x00 x00)
(T (W xff xff xff xff xff xff xff xff)
(L (W x92 x18 xfe xff x78 x00 x00 x00)) E)
(T (W x68 x00 x00 x00 x5c x00 x00 x00)
(L (W x00 x00 x00 x00 x00 x00 x00 x00)) E)))
(T (W x00 x00 x00 x00 x00 x00 x00 x00)
(T (W x00 x00 x00 x00 x00 x00 x00 x00)
(T (W x00 x00 x00 x00 x00 x00 x00 x00)
(L (W xb4 xdb xfd xff x00 x01 x01 x01))
(L (W xff xff xff xff xff xff xff xff)))
(T (W x00 x00 x00 x00 x00 x00 x00 x00)
(L (W x00 x00 x80 xbf x00 x00 x80 xbf)) E))
(T (W x00 x00 x00 x00 x00 x00 x00 x00)
(T (W x45 x26 x22 x84 xe4 x9c xf2 xcb)
(L (W x49 xa1 x68 x4a xeb x5f xdd x3d)) E)
(T (W x00 x00 x00 x00 x00 x00 x00 x00)
(L (W xc4 x00 x00 x00 x02 x00 x00 x00)) E)))))
(T (W xff xff xff xff xff xff xff xff)
(T (W x00 x00 x00 x00 x00 x00 x00 x00)
(T (W x00 x00 x80 x3f x00 x00 x80 x3f)
(T (W xff xff xff xff xff xff xff xff)
(T (W x18 x00 x00 x00 x0c x00 x00 x00)
(L (W x00 x00 x00 x00 x00 x00 x00 x00))
(L (W x00 x00 x00 x00 x00 x00 x00 x00)))
(T (W x00 x00 x00 x00 x00 x00 x00 x00)
(L (W xff xff xff xff xff xff xff xff)) E))
(T (W x00 x00 x80 x3f x00 x00 x80 x3f)
(T (W x00 x00 x00 x00 x24 x0a xfc xff)
(L (W x00 x00 x00 x00 x00 x00 x00 x00)) E)
(T (W x19 x00 x00 x00 x10 x00 x00 x00)
(L (W x00 x00 x00 x00 x00 x00 x00 x00)) E)))
(T (W x40 x00 x00 x00 x0c x00 x00 x00)
(T (W x00 x00 x00 x00 x00 x00 x00 x00)
(T (W x01 x00 x00 x00 xb0 x00 x00 x00)
(L (W x00 x00 x80 xbf x00 x00 x80 xbf))
(L (W xff xff xff xff xff xff xff xff)))
(T (W x00 x00 x00 x00 x00 x00 x00 x00)
(L (W x00 x00 x80 xbf x00 x00 x80 xbf)) E))
(T (W x01 x00 x00 x00 x1b x00 x00 x00)
(T (W x6c x00 x00 x00 x60 x00 x00 x00)
(L (W x00 x00 x00 x00 x00 x00 x00 x00)) E)
(T (W x03 x00 x00 x00 xd0 x00 x00 x00)
(L (W x6c x00 x00 x00 x60 x00 x00 x00)) E))))
(T (W x45 x26 x22 x84 xe4 x9c xf2 xcb)
(T (W x00 x00 x00 x00 x00 x00 x00 x00)
(T (W x00 x00 x80 x3f x00 x00 x80 x3f)
(T (W xff xff xff xff xff xff xff xff)
(L (W x00 x00 x80 xbf x00 x00 x80 xbf))
(L (W x6c x00 x00 x00 x60 x00 x00 x00)))
(T (W x45 x26 x22 x84 xe4 x9c xf2 xcb)
(L (W x00 x00 x00 x00 x82 xa9 xfe xff)) E))
(T (W x6c x00 x00 x00 x60 x00 x00 x00)
(T (W x00 x00 x00 x00 x00 x00 x00 x00)
(L (W xff xff xff xff xc0 x00 x00 x00)) E)
(T (W x00 x00 x00 x00 x00 x00 x00 x00)
(L (W x00 x00 x00 x00 x12 x00 x00 x00)) E)))
(T (W x00 x00 x00 x00 x04 x00 x00 x00)
(T (W x00 x00 x00 x00 x00 x00 x00 x00)
(T (W x00 x00 x00 x00 x00 x00 x00 x00)
(L (W x00 x00 x00 x00 xa2 xef xfd xff))
(L (W xff xff xff xff xff xff xff xff)))
(T (W x00 x00 x00 x00 x00 x00 x00 x00)
(L (W x18 x00 x00 x00 x10 x00 x00 x00)) E))
(T (W xff xff xff xff xff xff xff xff)
(T (W x00 x00 x80 x3f x00 x00 x80 x3f)
(L (W x54 x00 x00 x00 x48 x00 x00 x00)) E)
(T (W x00 x00 x80 xbf x00 x00 x80 xbf)
(L (W xff xff xff xff xff xff xff xff)) E))))))
(T (W x00 x00 x00 x00 x00 x00 x00 x00)
(T (W x00 x00 x80 x3f x00 x00 x80 x3f)
(T (W x18 x00 x00 x00 x10 x00 x00 x00)
(T (W x00 x00 x80 x3f x00 x00 x80 x3f)
(T (W xff xff xff xff xff xff xff xff)
(T (W xe2 x7e xfb xff x74 x00 x00 x00)
(L (W x00 x00 x80 xbf x00 x00 x80 xbf))
(L (W x00 x00 x00 x00 x12 x00 x00 x00)))
(T (W x45 x26 x22 x84 xe4 x9c xf2 xcb)
(L (W xff xff xff xff xff xff xff xff)) E))
(T (W xdc xf3 xac x6d x96 xa6 x0e xd8)
(T (W x54 x00 x00 x00 x48 x00 x00 x00)
(L (W x00 x00 x80 xbf x00 x00 x80 xbf))
(L (W x00 x00 x00 x00 x00 x00 x00 x00)))
(T (W x45 x26 x22 x84 xe4 x9c xf2 xcb)
(L (W xff xff xff xff xff xff xff xff)) E)))
(T (W x00 x00 x00 x00 x00 x00 x00 x00)
(T (W x00 x00 x00 x00 x00 x00 x00 x00)
(T (W x45 x26 x22 x84 xe4 x9c xf2 xcb)
(L (W x00 x00 x00 x00 x00 x00 x00 x00))
(L (W x45 x26 x22 x84 xe4 x9c xf2 xcb)))
(T (W x00 x00 x00 x00 x00 x00 x00 x00)
(L (W x00 x00 x00 x00 x00 x00 x00 x00)) E))
(T (W x00 x00 x00 x00 x00 x00 x00 x00)
(T (W x00 x00 x80 x3f x00 x00 x80 x3f)
(L (W x94 x04 x00 x00 x80 x03 x00 x00)) E)
(T (W x45 x26 x22 x84 xe4 x9c xf2 xcb)
(L (W x00 x00 x80 xbf x00 x00 x80 xbf)) E))))
(T (W x54 x00 x00 x00 x48 x00 x00 x00)
(T (W x00 x00 x00 x00 x00 x00 x00 x00)
(T (W x68 x00 x00 x00 x5c x00 x00 x00)
(T (W x68 x00 x00 x00 x5c x00 x00 x00)
(L (W xff xff xff xff xff xff xff xff))
(L (W xff xff xff xff xff xff xff xff)))
(T (W x00 x00 x80 x3f x00 x00 x80 x3f)
(L (W x00 x00 x00 x00 xc2 x9f xfe xff)) E))
(T (W x00 x00 x80 x3f x00 x00 x80 x3f)
(T (W x42 x29 xff xff x00 x00 x01 x01)
(L (W xff xff xff xff xb0 x00 x00 x00)) E)
(T (W x02 x00 x00 x00 x30 x01 x00 x00)
(L (W x45 x26 x22 x84 xe4 x9c xf2 xcb)) E)))
(T (W x00 x00 x00 x00 x00 x00 x00 x00)
(T (W x00 x00 x00 x00 x00 x00 x00 x00)
(T (W x00 x00 x00 x00 x00 x00 x00 x00)
(L (W xbc x00 x00 x00 x3c x00 x00 x00))
(L (W xff xff xff xff xff xff xff xff)))
(T (W x00 x00 x00 x00 x00 x00 x00 x00)
(L (W x19 x00 x00 x00 x1c x00 x00 x00)) E))
(T (W x45 x26 x22 x84 xe4 x9c xf2 xcb)
(T (W xff xff xff xff xff xff xff xff)
(L (W x00 x00 x80 xbf x00 x00 x80 xbf)) E)
(T (W x49 xa1 x68 x4a xeb x5f xdd x3d)
(L (W xff xff xff xff xff xff xff xff)) E)))))
(T (W x54 x00 x00 x00 x48 x00 x00 x00)
(T (W xff xff xff xff xff xff xff xff)
(T (W x0a x00 x00 x00 x3e x00 x00 x00)
(T (W x64 x00 x00 x00 x9c x00 x00 x00)
(T (W xff xff xff xff xff xff xff xff)
(L (W x49 xa1 x68 x4a xeb x5f xdd x3d))
(L (W x00 x00 x80 xbf x00 x00 x80 xbf)))
(T (W x00 x00 x00 x00 x00 x00 x00 x00)
(L (W xff xff xff xff xff xff xff xff)) E))
(T (W x00 x00 x80 x3f x00 x00 x80 x3f)
(T (W xff xff xff xff xff xff xff xff)
(L (W x00 x00 x80 xbf x00 x00 x80 xbf)) E)
(T (W xff xff xff xff xff xff xff xff)
(L (W x5a x65 x48 xdc x00 x65 x59 x2f)) E)))
(T (W x00 x00 x00 x00 x00 x00 x00 x00)
(T (W x00 x00 x00 x00 x00 x00 x00 x00)
(T (W x4b x00 x00 x00 xff xff xff xff)
(L (W x00 x00 x00 x00 x24 xd2 xfd xff))
(L (W xb0 x00 x00 x00 x64 x00 x00 x00)))
(T (W xff xff xff xff xff xff xff xff)
(L (W x92 xd0 xfe xff x78 x00 x00 x00)) E))
(T (W x00 x00 x00 x00 x12 x56 xfb xff)
(T (W x19 x00 x00 x00 x1c x00 x00 x00)
(L (W x00 x00 x00 x00 x00 x00 x00 x00)) E)
(T (W x00 x00 x00 x00 xc2 x4f xfd xff)
(L (W x45 x26 x22 x84 xe4 x9c xf2 xcb)) E))))
(T (W x40 x00 x00 x00 xa0 x00 x00 x00)
(T (W x00 x00 x00 x00 x00 x00 x00 x00)
(T (W x00 x00 x80 x3f x00 x00 x80 x3f)
(T (W x13 x00 x00 x00 x10 x00 x00 x00)
(L (W xff xff xff xff xff xff xff xff))
(L (W x00 x00 x00 x00 x24 xb2 xff xff)))
(T (W x00 x00 x80 x3f x00 x00 x80 x3f)
(L (W x00 x00 x00 x00 x00 x00 x00 x00)) E))
(T (W xff xff xff xff xff xff xff xff)
(T (W x00 x00 x00 x00 x00 x00 x00 x00)
(L (W xff xff xff xff xff xff xff xff)) E)
(T (W x00 x00 x00 x00 x00 x00 x00 x00)
(L (W x00 x00 x00 x00 x00 x00 x00 x00)) E)))
(T (W xff xff xff xff xff xff xff xff)
(T (W x00 x00 x00 x00 x00 x00 x00 x00)
(T (W x4f x84 x6f x8b xe8 xcb x63 xb7)
(L (W x00 x00 x00 x00 x12 x00 x00 x00))
(L (W x00 x00 x00 x00 x00 x00 x00 x00)))
(T (W x1c x00 x00 x00 xac x00 x00 x00)
(L (W xff xff xff xff xff xff xff xff)) E))
(T (W x70 x5f x6c x65 x61 x64 x65 x72)
(T (W x45 x26 x22 x84 xe4 x9c xf2 xcb)
(L (W x17 x00 x00 x00 x1a x00 x00 x00)) E)
(T (W x00 x00 x68 x00 x00 x00 x00 x00)
(L (W x00 x00 x00 x00 x00 x00 x00 x00)) E)))))))
(T (W x00 x00 x00 x00 x00 x00 x00 x00)
(T (W xff xff xff xff xff xff xff xff)
(T (W x34 x02 x00 x00 x20 x01 x00 x00)
(T (W x00 x00 x80 x3f x00 x00 x80 x3f)
(T (W xe4 x03 xfa xff x22 x00 x00 x00)
(T (W x00 x00 x80 x3f x00 x00 x80 x3f)
(T (W xff xff xff xff xff xff xff xff)
(L (W xff xff xff xff xff xff xff xff))
(L (W x68 x00 x00 x00 x5c x00 x00 x00)))
(T (W xff xff xff xff xff xff xff xff)
(L (W x00 x00 x00 x00 x00 x00 x00 x00)) E))
(T (W x68 x00 x00 x00 x5c x00 x00 x00)
(T (W x4a x00 x00 x00 xff xff xff xff)
(L (W xb4 x00 x00 x00 x32 x00 x00 x00))
(L (W xff xff xff xff xff xff xff xff)))
(T (W x45 x26 x22 x84 xe4 x9c xf2 xcb)
(L (W x00 x00 x00 x00 x00 x00 x00 x00)) E)))
(T (W xc0 x00 x00 x00 xb4 x00 x00 x00)
(T (W xff xff xff xff xff xff xff xff)
(T (W x61 x64 x65 x72 x5f x77 x69 x6c)
(L (W x45 x26 x22 x84 xe4 x9c xf2 xcb))
(L (W x00 x00 x00 x00 x00 x00 x00 x00)))
(T (W xb8 x00 x00 x00 xac x00 x00 x00)
(L (W xb0 x00 x00 x00 x64 x00 x00 x00)) E))
(T (W xb4 x3f xfb xff x00 x01 x01 x01)
(T (W x42 x45 xff xff x00 x00 x01 x01)
(L (W x00 x00 x80 xbf x00 x00 x80 xbf)) E)
(T (W x1a x00 x00 x00 x0c x00 x00 x00)
(L (W xff xff xff xff xff xff xff xff)) E))))
(T (W xaa x47 xff xff xc2 x02 x00 x00)
(T (W x40 x00 x00 x00 x9c x00 x00 x00)
(T (W xff xff xff xff xff xff xff xff)
(T (W xff xff xff xff xff xff xff xff)
(L (W x04 x00 x00 x00 xff xff xff xff))
(L (W x46 x53 x59 x53 x5f x4e x53 x5f)))
(T (W xe2 x9a xfc xff x74 x00 x00 x00)
(L (W x00 x00 x80 xbf x00 x00 x80 xbf)) E))
(T (W xff xff xff xff xff xff xff xff)
(T (W x00 x00 x80 x3f x00 x00 x80 x3f)
(L (W x00 x00 x00 x00 x00 x00 x00 x00)) E)
(T (W x1c x00 x00 x00 x10 x00 x00 x00)
(L (W xff xff xff xff xb0 x00 x00 x00)) E)))
(T (W x50 x00 x00 x00 x44 x00 x00 x00)
(T (W x45 x26 x22 x84 xe4 x9c xf2 xcb)
(T (W x29 x00 x00 x00 x2c x00 x00 x00)
(L (W x00 x00 x00 x00 x00 x00 x00 x00))
(L (W x00 x00 x80 xbf x00 x00 x80 xbf)))
(T (W xff xff xff xff xb0 x00 x00 x00)
(L (W x45 x44 x00 x00 x00 x00 x00 x00)) E))
(T (W xff xff xff xff xff xff xff xff)
(T (W x00 x00 x80 x3f x00 x00 x80 x3f)
(L (W xff xff xff xff xff xff xff xff)) E)
(T (W xff xff xff xff xc8 x00 x00 x00)
(L (W x00 x00 x80 xbf x00 x00 x80 xbf)) E)))))
(T (W x00 x00 x00 x00 x00 x00 x00 x00)
(T (W x6c x00 x00 x00 x60 x00 x00 x00)
(T (W x00 x00 x00 x00 x02 x00 x00 x00)
(T (W x45 x26 x22 x84 xe4 x9c xf2 xcb)
(T (W x00 x00 x00 x00 x00 x00 x00 x00)
(L (W xff xff xff xff xff xff xff xff))
(L (W xff xff xff xff xff xff xff xff)))
(T (W x68 x00 x00 x00 x5c x00 x00 x00)
(L (W x00 x00 x80 xbf x00 x00 x80 xbf)) E))
(T (W xff xff xff xff xff xff xff xff)
(T (W x00 x00 x00 x00 x12 x00 x00 x00)
(L (W xff xff xff xff xff xff xff xff)) E)
(T (W xff xff xff xff xff xff xff xff)
(L (W x00 x00 x80 xbf x00 x00 x80 xbf)) E)))
(T (W x00 x00 x00 x00 x24 x4e xfa xff)
(T (W xb8 x00 x00 x00 xac x00 x00 x00)
(T (W x00 x00 x80 x3f x00 x00 x80 x3f)
(L (W xff xff xff xff xff xff xff xff))
(L (W x00 x00 x00 x00 x00 x00 x00 x00)))
(T (W x7c x00 x04 x00 x70 x00 x08 x00)
(L (W xff xff xff xff xff xff xff xff)) E))
(T (W x00 x00 x00 x00 x00 x00 x00 x00)
(T (W x00 x00 x00 x00 x00 x00 x00 x00)
(L (W x12 x00 x00 x00 x15 x00 x00 x00)) E)
(T (W x00 x00 x00 x00 x00 x00 x00 x00)
(L (W x00 x00 x00 x00 x00 x00 x00 x00)) E))))
(T (W x3e x00 x00 x00 x0c x00 x00 x00)
(T (W xff xff xff xff xff xff xff xff)
(T (W xff xff xff xff xff xff xff xff)
(T (W x00 x00 x80 x3f x00 x00 x80 x3f)
(L (W xff xff xff xff x9c x00 x00 x00))
(L (W xff xff xff xff xff xff xff xff)))
(T (W xff xff xff xff xff xff xff xff)
(L (W x18 x00 x00 x00 x10 x00 x00 x00)) E))
(T (W x00 x00 x00 x00 x00 x00 x00 x00)
(T (W x01 x00 x00 x00 x19 x00 x00 x00)
(L (W x00 x00 x80 xbf x00 x00 x80 xbf)) E)
(T (W x21 x00 x00 x00 x24 x00 x00 x00)
(L (W xff xff xff xff xff xff xff xff)) E)))
(T (W x00 x00 x80 x3f x00 x00 x80 x3f)
(T (W x00 x00 x80 x3f x00 x00 x80 x3f)
(T (W xb0 x00 x00 x00 x64 x00 x00 x00)
(L (W x6c x00 x00 x00 x60 x00 x00 x00))
(L (W x54 x00 x00 x00 x48 x00 x00 x00)))
(T (W x21 x00 x00 x00 x9c x00 x00 x00)
(L (W x00 x00 x80 xbf x00 x00 x80 xbf)) E))
(T (W x4f x84 x6f x8b xe8 xcb x63 xb7)
(T (W xff xff xff xff xff xff xff xff)
(L (W x00 x00 x00 x00 x00 x00 x00 x00)) E)
(T (W x53 x01 x00 x00 xff xff xff xff)
(L (W x00 x00 x80 xbf x00 x00 x80 xbf)) E))))))
(T (W x54 x00 x00 x00 x48 x00 x00 x00)
(T (W x45 x26 x22 x84 xe4 x9c xf2 xcb)
(T (W x09 x00 x00 x00 xff xff xff xff)
(T (W x00 x00 x00 x00 x00 x00 x00 x00)
(T (W x00 x00 x80 x3f x00 x00 x80 x3f)
(T (W xff xff xff xff xff xff xff xff)
(L (W xc0 x00 x00 x00 x01 x00 x00 x00))
(L (W xff xff xff xff xff xff xff xff)))
(T (W xff xff xff xff x03 x00 x00 x00)
(L (W x00 x00 x80 xbf x00 x00 x80 xbf)) E))
(T (W xff xff xff xff xff xff xff xff)
(T (W x00 x00 x00 x00 x00 x00 x00 x00)
(L (W xff xff xff xff xff xff xff xff)) E)
(T (W x45 x26 x22 x84 xe4 x9c xf2 xcb)
(L (W x00 x00 x80 xbf x00 x00 x80 xbf)) E)))
(T (W xff xff xff xff x03 x00 x00 x00)
(T (W xff xff xff xff xff xff xff xff)
(T (W x49 xa1 x68 x4a xeb x5f xdd x3d)
(L (W x5c x00 x00 x00 xff xff xff xff))
(L (W x00 x00 x00 x00 x00 x00 x00 x00)))
(T (W xff xff xff xff xc4 x00 x00 x00)
(L (W xff xff xff xff xff xff xff xff)) E))
(T (W xff xff xff xff xff xff xff xff)
(T (W x00 x00 x00 x00 xc2 x43 xfc xff)
(L (W x6c x00 x00 x00 x60 x00 x00 x00)) E)
(T (W x00 x00 x00 x00 x00 x00 x00 x00)
(L (W x45 x44 x00 x00 x00 x00 x00 x00)) E))))
(T (W x3c xf5 xf9 xff x3c x00 x00 x00)
(T (W xff xff xff xff xff xff xff xff)
(T (W xff xff xff xff xff xff xff xff)
(T (W x22 x00 x00 x00 x67 x72 x6f x75)
(L (W x00 x00 x00 x00 x00 x00 x00 x00))
(L (W xff xff xff xff xa0 x00 x00 x00)))
(T (W xff xff xff xff xff xff xff xff)
(L (W x45 x26 x22 x84 xe4 x9c xf2 xcb)) E))
(T (W xff xff xff xff xff xff xff xff)
(T (W x00 x00 x80 x3f x00 x00 x80 x3f)
(L (W x00 x00 x00 x00 x00 x00 x00 x00)) E)
(T (W xe2 x22 xfd xff x74 x00 x00 x00)
(L (W xb4 x00 x00 x00 x0a x00 x00 x00)) E)))
(T (W x00 x00 x80 x3f x00 x00 x80 x3f)
(T (W x68 x00 x00 x00 x5c x00 x00 x00)
(T (W xd4 x00 x00 x00 xc8 x00 x00 x00)
(L (W x00 x00 x00 x00 x00 x00 x00 x00))
(L (W x00 x00 x80 xbf x00 x00 x80 xbf)))
(T (W x00 x00 x80 x3f x00 x00 x80 x3f)
(L (W x00 x00 x00 x00 x00 x00 x00 x00)) E))
(T (W x00 x00 x00 x00 x00 x00 x00 x00)
(T (W x45 x26 x22 x84 xe4 x9c xf2 xcb)
(L (W x45 x44 x00 x00 x00 x00 x00 x00)) E)
(T (W xff xff xff xff xff xff xff xff)
(L (W x00 x00 x80 xbf x00 x00 x80 xbf)) E)))))
(T (W xff xff xff xff xff xff xff xff)
(T (W x00 x00 x00 x00 x00 x00 x00 x00)
(T (W x00 x00 x00 x00 x00 x00 x00 x00)
(T (W x00 x00 x80 x3f x00 x00 x80 x3f)
(T (W x00 x00 x80 x3f x00 x00 x80 x3f)
(L (W xff xff xff xff xff xff xff xff))
(L (W x54 x02 x00 x00 x38 x01 x00 x00)))
(T (W x50 x00 x00 x00 x44 x00 x00 x00)
(L (W x00 x00 x80 xbf x00 x00 x80 xbf)) E))
(T (W x18 x00 x00 x00 x0c x00 x00 x00)
(T (W x00 x00 x00 x00 x00 x00 x00 x00)
(L (W x00 x00 x00 x00 x00 x00 x00 x00)) E)
(T (W x68 x00 x00 x00 x5c x00 x00 x00)
(L (W xbc x00 x00 x00 x5a x00 x00 x00)) E)))
(T (W x45 x26 x22 x84 xe4 x9c xf2 xcb)
(T (W xff xff xff xff x04 x00 x00 x00)
(T (W x00 x00 x80 x3f x00 x00 x80 x3f)
(L (W x45 x44 x00 x00 x00 x00 x00 x00))
(L (W x49 xa1 x68 x4a xeb x5f xdd x3d)))
(T (W x00 x00 x00 x00 x24 xd6 xfc xff)
(L (W x00 x00 x00 x00 x00 x00 x00 x00)) E))
(T (W x24 x00 x00 x00 xb0 x00 x00 x00)
(T (W x00 x00 x00 x00 x00 x00 x00 x00)
(L (W xff xff xff xff xff xff xff xff)) E)
(T (W x92 x54 xfd xff x78 x00 x00 x00)
(L (W x00 x00 x00 x00 x00 x00 x00 x00)) E))))
(T (W x01 x00 x00 x00 x04 x00 x00 x00)
(T (W xb8 x00 x00 x00 xac x00 x00 x00)
(T (W xff xff xff xff xff xff xff xff)
(T (W xb0 x00 x00 x00 x64 x00 x00 x00)
(L (W x00 x00 x00 x00 x00 x00 x00 x00))
(L (W x00 x00 x00 x00 xc2 xb3 xff xff)))
(T (W xff xff xff xff xff xff xff xff)
(L (W xff xff xff xff xb0 x00 x00 x00)) E))
(T (W x00 x00 x80 x3f x00 x00 x80 x3f)
(T (W xff xff xff xff xff xff xff xff)
(L (W x00 x00 x80 xbf x00 x00 x80 xbf)) E)
(T (W xff xff xff xff xff xff xff xff)
(L (W xff xff xff xff xff xff xff xff)) E)))
(T (W x00 x00 x80 x3f x00 x00 x80 x3f)
(T (W xff xff xff xff xff xff xff xff)
(T (W x4b x00 x00 x00 xff xff xff xff)
(L (W x18 x00 x00 x00 x0c x00 x00 x00))
(L (W xff xff xff xff xb0 x00 x00 x00)))
(T (W x45 x26 x22 x84 xe4 x9c xf2 xcb)
(L (W x45 x26 x22 x84 xe4 x9c xf2 xcb)) E))
(T (W x68 x00 x00 x00 x5c x00 x00 x00)
(T (W xc1 x01 x00 x00 xff xff xff xff)
(L (W x49 xa1 x68 x4a xeb x5f xdd x3d)) E)
(T (W xff xff xff xff xff xff xff xff)
(L (W x00 x00 x80 xbf x00 x00 x80 xbf)) E)))))))))
(T (W x48 x8d x02 x00 xa4 x88 x02 x00)
(T (W xb8 xda x00 x00 x6c xd8 x00 x00)
(T (W xbc x00 x00 x00 xb0 x00 x00 x00)
(T (W x00 x00 x80 x3f x00 x00 x80 x3f)
(T (W xff xff xff xff xff xff xff xff)
(T (W x00 x00 x00 x00 x5a x52 xfd xff)
(T (W x00 x00 x80 x3f x00 x00 x80 x3f)
(T (W xff xff xff xff xff xff xff xff)
(T (W x00 x00 x00 x00 x00 x00 x00 x00)
(L (W x00 x00 x00 x00 x00 x00 x00 x00))
(L (W x00 x00 x00 x00 x00 x00 x00 x00)))
(T (W x45 x26 x22 x84 xe4 x9c xf2 xcb)
(L (W x18 x00 x00 x00 x10 x00 x00 x00)) E))
(T (W x00 x00 x00 x00 x00 x00 x00 x00)
(T (W x4f x84 x6f x8b xe8 xcb x63 xb7)
(L (W x00 x00 x00 x00 xc2 xf6 xfd xff))
(L (W x00 x00 x00 x00 x00 x00 x00 x00)))
(T (W x60 x00 x00 x00 x00 x00 x00 x00)
(L (W xff xff xff xff xff xff xff xff)) E)))
(T (W x3e x00 x00 x00 x0c x00 x00 x00)
(T (W x00 x00 x00 x00 x00 x00 x00 x00)
(T (W x00 x00 x00 x00 x00 x00 x00 x00)
(L (W x00 x00 x80 xbf x00 x00 x80 xbf))
(L (W x00 x00 x80 xbf x00 x00 x80 xbf)))
(T (W x00 x00 x00 x00 x00 x00 x00 x00)
(L (W x00 x00 x00 x00 x00 x00 x00 x00)) E))
(T (W xff xff xff xff xff xff xff xff)
(T (W x00 x00 x00 x00 x00 x00 x00 x00)
(L (W xff xff xff xff xff xff xff xff)) E)
(T (W x45 x26 x22 x84 xe4 x9c xf2 xcb)
(L (W x00 x00 x00 x00 x00 x00 x00 x00)) E))))
(T (W x45 x26 x22 x84 xe4 x9c xf2 xcb)
(T (W x18 x00 x00 x00 x0c x00 x00 x00)
(T (W x00 x00 x00 x00 x00 x00 x00 x00)
(T (W x4a xd9 xfd xff x9c x01 x00 x00)
(L (W x00 x00 x00 x00 x00 x00 x00 x00))
(L (W x00 x00 x80 xbf x00 x00 x80 xbf)))
(T (W xff xff xff xff xff xff xff xff)
(L (W xff xff xff xff xff xff xff xff)) E))
(T (W x4a x59 xfd xff x9c x01 x00 x00)
(T (W xff xff xff xff xff xff xff xff)
(L (W x00 x00 x80 xbf x00 x00 x80 xbf)) E)
(T (W x00 x00 x80 xbf x00 x00 x80 xbf)
(L (W x00 x00 x00 x00 x00 x00 x00 x00)) E)))
(T (W xba x5e xfd xff x84 x01 x00 x00)
(T (W x00 x00 x00 x00 x00 x00 x00 x00)
(T (W x4b x00 x00 x00 xff xff xff xff)
(L (W x00 x00 x80 xbf x00 x00 x80 xbf))
(L (W x45 x26 x22 x84 xe4 x9c xf2 xcb)))
(T (W xff xff xff xff xff xff xff xff)
(L (W x00 x00 x80 xbf x00 x00 x80 xbf)) E))
(T (W x46 x53 x59 x53 x5f x4e x53 x5f)
(T (W xe2 x55 xfc xff x74 x00 x00 x00)
(L (W x00 x00 x00 x00 x00 x00 x00 x00)) E)
(T (W x00 x00 x00 x00 x00 x00 x00 x00)
(L (W x45 x26 x22 x84 xe4 x9c xf2 xcb)) E)))))
(T (W xff xff xff xff xff xff xff xff)
(T (W x00 x00 x00 x00 x00 x00 x00 x00)
(T (W x00 x00 x80 x3f x00 x00 x80 x3f)
(T (W x00 x00 x00 x00 x24 x89 xfa xff)
(T (W x00 x00 x00 x00 x24 x89 xfb xff)
(L (W x4c x45 x41 x52 x45 x44 x00 x00))
(L (W x46 x53 x59 x53 x5f x4e x53 x5f)))
(T (W x00 x00 x00 x00 x00 x00 x00 x00)
(L (W xbc x00 x00 x00 x32 x00 x00 x00)) E))
(T (W x45 x26 x22 x84 xe4 x9c xf2 xcb)
(T (W x00 x00 x80 x3f x00 x00 x80 x3f)
(L (W x00 x00 x00 x00 x12 x00 x00 x00)) E)
(T (W xff xff xff xff xff xff xff xff)
(L (W xff xff xff xff xff xff xff xff)) E)))
(T (W xff xff xff xff xff xff xff xff)
(T (W x00 x00 x00 x00 x00 x00 x00 x00)
(T (W x45 x26 x22 x84 xe4 x9c xf2 xcb)
(L (W x00 x00 x80 xbf x00 x00 x80 xbf))
(L (W x50 x00 x00 x00 x44 x00 x00 x00)))
(T (W x00 x00 x60 x00 x00 x00 x00 x00)
(L (W x00 x00 x80 xbf x00 x00 x80 xbf)) E))
(T (W x00 x00 x80 x3f x00 x00 x80 x3f)
(T (W x00 x00 x80 x3f x00 x00 x80 x3f)
(L (W xff xff xff xff xff xff xff xff)) E)
(T (W x68 x00 x00 x00 x5c x00 x00 x00)
(L (W x00 x00 x80 xbf x00 x00 x80 xbf)) E))))
(T (W x6c x00 x00 x00 x60 x00 x00 x00)
(T (W x00 x00 x00 x00 x00 x00 x00 x00)
(T (W x45 x26 x22 x84 xe4 x9c xf2 xcb)
(T (W x01 x00 x00 x00 xac x00 x00 x00)
(L (W x00 x00 x80 xbf x00 x00 x80 xbf))
(L (W x00 x00 x00 x00 x00 x00 x00 x00)))
(T (W x00 x00 x00 x00 x00 x00 x00 x00)
(L (W xff xff xff xff xff xff xff xff)) E))
(T (W x00 x00 x80 x3f x00 x00 x80 x3f)
(T (W xff xff xff xff xff xff xff xff)
(L (W x45 x26 x22 x84 xe4 x9c xf2 xcb)) E)
(T (W xb1 x0f xd2 x4f x49 xc6 x03 x36)
(L (W x00 x00 x00 x00 x00 x00 x00 x00)) E)))
(T (W xff xff xff xff xff xff xff xff)
(T (W x37 x00 x00 x00 xff xff xff xff)
(T (W x00 x00 x00 x00 x00 x00 x00 x00)
(L (W xff xff xff xff xff xff xff xff))
(L (W xff xff xff xff xff xff xff xff)))
(T (W x00 x00 x00 x00 x00 x00 x00 x00)
(L (W x6c x00 x00 x00 x60 x00 x00 x00)) E))
(T (W x18 x00 x00 x00 x0c x00 x00 x00)
(T (W x45 x26 x22 x84 xe4 x9c xf2 xcb)
(L (W x00 x00 x80 xbf x00 x00 x80 xbf)) E)
(T (W x00 x00 x00 x00 x00 x00 x00 x00)
(L (W xff xff xff xff xff xff xff xff)) E))))))
(T (W x00 x00 x00 x00 x00 x00 x00 x00)
(T (W x45 x26 x22 x84 xe4 x9c xf2 xcb)
(T (W xb4 xc2 xf9 xff x00 x01 x01 x01)
(T (W x00 x00 x80 x3f x00 x00 x80 x3f)
(T (W x64 x00 x00 x00 x9c x00 x00 x00)
(T (W x00 x00 x80 x3f x00 x00 x80 x3f)
(L (W x00 x00 x00 x00 x00 x00 x00 x00))
(L (W x00 x00 x00 x00 x00 x00 x00 x00)))
(T (W x00 x00 x00 x00 x00 x00 x00 x00)
(L (W xc4 x00 x00 x00 x02 x00 x00 x00)) E))
(T (W xff xff xff xff xff xff xff xff)
(T (W x00 x00 x80 x3f x00 x00 x80 x3f)
(L (W x00 x00 x00 x00 x00 x00 x00 x00))
(L (W xff xff xff xff xff xff xff xff)))
(T (W x6c x64 x5f x70 x6f x6b x65 x5f)
(L (W xff xff xff xff xff xff xff xff)) E)))
(T (W x4a x52 xfd xff x00 x00 x01 x01)
(T (W x3c xd0 xfa xff x3e x00 x00 x00)
(T (W x50 x00 x00 x00 x44 x00 x00 x00)
(L (W x00 x00 x00 x00 x00 x00 x00 x00))
(L (W x00 x00 x80 xbf x00 x00 x80 xbf)))
(T (W xe4 xc6 xfc xff x18 x00 x00 x00)
(L (W x00 x00 x00 x00 x00 x00 x00 x00)) E))
(T (W x00 x00 x00 x00 x00 x00 x00 x00)
(T (W x49 xa1 x68 x4a xeb x5f xdd x3d)
(L (W xff xff xff xff xff xff xff xff)) E)
(T (W x54 x00 x00 x00 x48 x00 x00 x00)
(L (W x00 x00 x00 x00 x00 x00 x00 x00)) E))))
(T (W x00 x00 x80 x3f x00 x00 x80 x3f)
(T (W x00 x00 x00 x00 x00 x00 x00 x00)
(T (W x45 x26 x22 x84 xe4 x9c xf2 xcb)
(T (W x00 x00 x00 x00 x00 x00 x00 x00)
(L (W x00 x00 x80 xbf x00 x00 x80 xbf))
(L (W x00 x00 x80 xbf x00 x00 x80 xbf)))
(T (W x1a x00 x00 x00 x67 x72 x6f x75)
(L (W xff xff xff xff xff xff xff xff)) E))
(T (W x00 x00 x00 x00 x00 x00 x00 x00)
(T (W xff xff xff xff xff xff xff xff)
(L (W x92 x1f xfe xff x78 x00 x00 x00)) E)
(T (W xff xff xff xff xff xff xff xff)
(L (W x00 x00 x00 x00 x00 x00 x00 x00)) E)))
(T (W x42 x68 xfd xff x00 x00 x01 x01)
(T (W x73 xa7 x78 xec xd8 xb9 xb4 x22)
(T (W xff xff xff xff xff xff xff xff)
(L (W xb4 xe2 xfd xff x00 x01 x01 x01))
(L (W xc4 x00 x00 x00 x02 x00 x00 x00)))
(T (W x00 x00 x00 x00 x00 x00 x00 x00)
(L (W x00 x00 x80 xbf x00 x00 x80 xbf)) E))
(T (W x00 x00 x80 x3f x00 x00 x80 x3f)
(T (W xb8 x00 x00 x00 xac x00 x00 x00)
(L (W x49 xa1 x68 x4a xeb x5f xdd x3d)) E)
(T (W x00 x00 x00 x00 x00 x00 x00 x00)
(L (W xff xff xff xff xb0 x00 x00 x00)) E)))))
(T (W x00 x00 x80 x3f x00 x00 x80 x3f)
(T (W xff xff xff xff xff xff xff xff)
(T (W x18 x00 x00 x00 x0c x00 x00 x00)
(T (W x18 x00 x00 x00 x0c x00 x00 x00)
(T (W xff xff xff xff xff xff xff xff)
(L (W x00 x00 x00 x00 x00 x00 x00 x00))
(L (W x00 x00 x80 xbf x00 x00 x80 xbf)))
(T (W xd8 x00 x00 x00 xff xff xff xff)
(L (W xff xff xff xff xff xff xff xff)) E))
(T (W x00 x00 x80 x3f x00 x00 x80 x3f)
(T (W xe2 x0d xfc xff x74 x00 x00 x00)
(L (W x45 x26 x22 x84 xe4 x9c xf2 xcb)) E)
(T (W x18 x00 x00 x00 x0c x00 x00 x00)
(L (W xff xff xff xff xff xff xff xff)) E)))
(T (W x84 x01 x00 x00 xff xff xff xff)
(T (W x00 x00 x00 x00 x00 x00 x00 x00)
(T (W xff xff xff xff xff xff xff xff)
(L (W x00 x00 x80 xbf x00 x00 x80 xbf))
(L (W xb4 xd2 xff xff x00 x01 x01 x01)))
(T (W x18 x00 x00 x00 x10 x00 x00 x00)
(L (W x00 x00 x80 xbf x00 x00 x80 xbf)) E))
(T (W xff xff xff xff xff xff xff xff)
(T (W x92 x4f xfc xff x78 x00 x00 x00)
(L (W x45 x44 x00 x00 x00 x00 x00 x00)) E)
(T (W xff xff xff xff xff xff xff xff)
(L (W x54 x00 x00 x00 x48 x00 x00 x00)) E))))
(T (W x00 x00 x80 x3f x00 x00 x80 x3f)
(T (W x00 x00 x00 x00 x00 x00 x00 x00)
(T (W x00 x00 x00 x00 x00 x00 x00 x00)
(T (W xff xff xff xff xff xff xff xff)
(L (W xff xff xff xff xff xff xff xff))
(L (W x00 x00 x80 xbf x00 x00 x80 xbf)))
(T (W x00 x00 x00 x00 x00 x00 x00 x00)
(L (W xff xff xff xff xff xff xff xff)) E))
(T (W x21 x00 x00 x00 x24 x00 x00 x00)
(T (W x00 x00 x00 x00 x00 x00 x00 x00)
(L (W xff xff xff xff xc0 x00 x00 x00)) E)
(T (W x00 x00 x00 x00 x12 x00 x00 x00)
(L (W x46 x53 x59 x53 x5f x4e x53 x5f)) E)))
(T (W xff xff xff xff xff xff xff xff)
(T (W x4a x02 xfe xff x00 x00 x01 x01)
(T (W x00 x00 x00 x00 x00 x00 x00 x00)
(L (W x04 x00 x00 x00 xa2 xf6 xfd xff))
(L (W x54 x02 x00 x00 x38 x01 x00 x00)))
(T (W x00 x00 x00 x00 x24 xf1 xfc xff)
(L (W xbc x00 x00 x00 x32 x00 x00 x00)) E))
(T (W xff xff xff xff xff xff xff xff)
(T (W x00 x00 x00 x00 x00 x00 x00 x00)
(L (W x92 x6f xfe xff x78 x00 x00 x00)) E)
(T (W x00 x00 x80 xbf x00 x00 x80 xbf)
(L (W xff xff xff xff xff xff xff xff)) E)))))))
(T (W x00 x00 x00 x00 x00 x00 x00 x00)
(T (W xff xff xff xff x04 x00 x00 x00)
(T (W x00 x00 x00 x00 x00 x00 x00 x00)
(T (W x45 x26 x22 x84 xe4 x9c xf2 xcb)
(T (W xff xff xff xff xff xff xff xff)
(T (W x00 x00 x80 x3f x00 x00 x80 x3f)
(T (W x45 x26 x22 x84 xe4 x9c xf2 xcb)
(L (W x18 x00 x00 x00 x10 x00 x00 x00))
(L (W x00 x00 x80 xbf x00 x00 x80 xbf)))
(T (W xff xff xff xff x03 x00 x00 x00)
(L (W x30 x32 x5f x43 x4c x45 x41 x52)) E))
(T (W x00 x00 x00 x00 x00 x00 x00 x00)
(T (W xff xff xff xff xff xff xff xff)
(L (W xb4 xfe xfd xff x00 x01 x01 x01))
(L (W x00 x00 x80 xbf x00 x00 x80 xbf)))
(T (W x6f x79 x61 x62 x75 x6e x00 x00)
(L (W x00 x00 x00 x00 x00 x00 x00 x00)) E)))
(T (W x40 x00 x00 x00 x9c x00 x00 x00)
(T (W xff xff xff xff xff xff xff xff)
(T (W xff xff xff xff xff xff xff xff)
(L (W xe2 xb9 xfd xff x74 x00 x00 x00))
(L (W x00 x00 x00 x00 x00 x00 x00 x00)))
(T (W x01 x00 x00 x00 x9c x00 x00 x00)
(L (W xb4 xbe xfe xff x00 x01 x01 x01)) E))
(T (W x00 x00 x80 x3f x00 x00 x80 x3f)
(T (W xff xff xff xff xff xff xff xff)
(L (W x00 x00 x80 xbf x00 x00 x80 xbf)) E)
(T (W xff xff xff xff xff xff xff xff)
(L (W xff xff xff xff xff xff xff xff)) E))))
(T (W xff xff xff xff xff xff xff xff)
(T (W x00 x00 x00 x00 x00 x00 x00 x00)
(T (W xff xff xff xff xff xff xff xff)
(T (W xc8 x00 x00 x00 xbc x00 x00 x00)
(L (W xff xff xff xff xff xff xff xff))
(L (W x04 x00 x00 x00 x82 x9c xff xff)))
(T (W x68 x00 x00 x00 x5c x00 x00 x00)
(L (W x00 x00 x80 xbf x00 x00 x80 xbf)) E))
(T (W x01 x00 x00 x00 x21 x00 x00 x00)
(T (W x00 x00 x00 x00 x00 x00 x00 x00)
(L (W x54 x02 x00 x00 x38 x01 x00 x00)) E)
(T (W x00 x00 x80 xbf x00 x00 x80 xbf)
(L (W x00 x00 x00 x00 x24 x1d xff xff)) E)))
(T (W x00 x00 x80 x3f x00 x00 x80 x3f)
(T (W x00 x00 x80 x3f x00 x00 x80 x3f)
(T (W x92 xdb xfb xff x78 x00 x00 x00)
(L (W x00 x00 x00 x00 x00 x00 x00 x00))
(L (W x00 x00 x00 x00 x00 x00 x00 x00)))
(T (W x92 xdb xfc xff x78 x00 x00 x00)
(L (W xff xff xff xff xff xff xff xff)) E))
(T (W xff xff xff xff xff xff xff xff)
(T (W x00 x00 x00 x00 x00 x00 x00 x00)
(L (W x05 x00 x00 x00 x06 x00 x00 x00)) E)
(T (W x45 x26 x22 x84 xe4 x9c xf2 xcb)
(L (W x00 x00 x00 x00 x00 x00 x00 x00)) E)))))
(T (W x00 x00 x00 x00 x00 x00 x00 x00)
(T (W x00 x00 x80 x3f x00 x00 x80 x3f)
(T (W xff xff xff xff xff xff xff xff)
(T (W x00 x00 x00 x00 x00 x00 x00 x00)
(T (W xa1 x01 x00 x00 xff xff xff xff)
(L (W x18 x00 x00 x00 x0c x00 x00 x00))
(L (W xff xff xff xff xb0 x00 x00 x00)))
(T (W x50 x00 x00 x00 x44 x00 x00 x00)
(L (W x49 xa1 x68 x4a xeb x5f xdd x3d)) E))
(T (W xff xff xff xff xff xff xff xff)
(T (W x00 x00 x00 x00 x00 x00 x00 x00)
(L (W xff xff xff xff xff xff xff xff)) E)
(T (W x3c xf0 xff xff x01 x01 x01 x01)
(L (W x00 x00 x80 xbf x00 x00 x80 xbf)) E)))
(T (W x6c x00 x00 x00 x60 x00 x00 x00)
(T (W x18 x00 x00 x00 x0c x00 x00 x00)
(T (W x00 x00 x00 x00 x00 x00 x00 x00)
(L (W xff xff xff xff xff xff xff xff))
(L (W x00 x00 x00 x00 x12 x00 x00 x00)))
(T (W xff xff xff xff xff xff xff xff)
(L (W xff xff xff xff xff xff xff xff)) E))
(T (W x12 x00 x00 x00 x46 x53 x59 x53)
(T (W x00 x00 x00 x00 x00 x00 x00 x00)
(L (W x00 x00 x00 x00 x24 x4d xfe xff)) E)
(T (W x00 x00 x00 x00 x00 x00 x00 x00)
(L (W x00 x00 x00 x00 x00 x00 x00 x00)) E))))
(T (W xff xff xff xff xff xff xff xff)
(T (W xb4 x2e xfa xff x00 x01 x01 x01)
(T (W xff xff xff xff x03 x00 x00 x00)
(T (W x00 x00 x00 x00 x00 x00 x00 x00)
(L (W x45 x26 x22 x84 xe4 x9c xf2 xcb))
(L (W xff xff xff xff xff xff xff xff)))
(T (W xff xff xff xff xff xff xff xff)
(L (W x54 x00 x00 x00 x48 x00 x00 x00)) E))
(T (W x00 x00 x00 x00 x06 x00 x00 x00)
(T (W x00 x00 x80 x3f x00 x00 x80 x3f)
(L (W x00 x00 x00 x00 x00 x00 x00 x00)) E)
(T (W x00 x00 x00 x00 x24 x2d xfd xff)
(L (W x21 x00 x00 x00 x24 x00 x00 x00)) E)))
(T (W x45 x26 x22 x84 xe4 x9c xf2 xcb)
(T (W x00 x00 x80 x3f x00 x00 x80 x3f)
(T (W xb4 xee xfb xff x00 x01 x01 x01)
(L (W x00 x00 x80 xbf x00 x00 x80 xbf))
(L (W x00 x00 x80 xbf x00 x00 x80 xbf)))
(T (W xe2 xe9 xfc xff x74 x00 x00 x00)
(L (W x00 x00 x00 x00 x00 x00 x00 x00)) E))
(T (W x00 x00 x00 x00 x00 x00 x00 x00)
(T (W xff xff xff xff xff xff xff xff)
(L (W x45 x44 x00 x00 x00 x00 x00 x00)) E)
(T (W xff xff xff xff xff xff xff xff)
(L (W x00 x00 x00 x00 x00 x00 x00 x00)) E))))))
(T (W x00 x00 x80 x3f x00 x00 x80 x3f)
(T (W x92 xa3 xf9 xff x78 x00 x00 x00)
(T (W xff xff xff xff xff xff xff xff)
(T (W xc4 x01 x00 x00 xff xff xff xff)
(T (W x00 x00 x00 x00 x00 x00 x00 x00)
(T (W xff xff xff xff xff xff xff xff)
(L (W xe2 x81 xfd xff x74 x00 x00 x00))
(L (W x50 x00 x00 x00 x44 x00 x00 x00)))
(T (W x68 x00 x00 x00 x5c x00 x00 x00)
(L (W x00 x00 x00 x00 x00 x00 x00 x00)) E))
(T (W x2c x00 x00 x00 xb0 x00 x00 x00)
(T (W x00 x00 x00 x00 x12 x09 xfc xff)
(L (W xb4 x00 x00 x00 x46 x00 x00 x00)) E)
(T (W x61 x6c x6c x68 x65 x6c x70 x5f)
(L (W x4f x84 x6f x8b xe8 xcb x63 xb7)) E)))
(T (W x50 x00 x00 x00 x44 x00 x00 x00)
(T (W x45 x26 x22 x84 xe4 x9c xf2 xcb)
(T (W xe4 xca xfb xff x15 x00 x00 x00)
(L (W xff xff xff xff xff xff xff xff))
(L (W x19 xd6 xac x28 xbf xd0 x59 x6a)))
(T (W x00 x00 x80 x3f x00 x00 x80 x3f)
(L (W xff xff xff xff xc0 x00 x00 x00)) E))
(T (W xff xff xff xff xff xff xff xff)
(T (W xff xff xff xff xff xff xff xff)
(L (W x00 x00 x80 xbf x00 x00 x80 xbf)) E)
(T (W x00 x00 x00 x00 x00 x00 x00 x00)
(L (W xff xff xff xff xff xff xff xff)) E))))
(T (W xff xff xff xff xff xff xff xff)
(T (W xbc x00 x00 x00 xb0 x00 x00 x00)
(T (W x64 x00 x00 x00 x9c x00 x00 x00)
(T (W x9f x01 x00 x00 xff xff xff xff)
(L (W x00 x00 x00 x00 x00 x00 x00 x00))
(L (W x92 xa3 xff xff x78 x00 x00 x00)))
(T (W xff xff xff xff xff xff xff xff)
(L (W x6c x00 x00 x00 x60 x00 x00 x00)) E))
(T (W xff xff xff xff xff xff xff xff)
(T (W x49 xa1 x68 x4a xeb x5f xdd x3d)
(L (W x00 x00 x00 x00 x00 x00 x00 x00)) E)
(T (W x00 x00 x80 xbf x00 x00 x80 xbf)
(L (W xb4 x26 xff xff x00 x01 x01 x01)) E)))
(T (W x00 x00 x00 x00 x00 x00 x00 x00)
(T (W x00 x00 x80 x3f x00 x00 x80 x3f)
(T (W x00 x00 x80 x3f x00 x00 x80 x3f)
(L (W x00 x00 x00 x00 x00 x00 x00 x00))
(L (W x00 x00 x80 xbf x00 x00 x80 xbf)))
(T (W x70 x5f x77 x69 x6c x64 x5f x70)
(L (W x45 x44 x00 x00 x00 x00 x00 x00)) E))
(T (W x45 x44 x00 x00 x00 x00 x00 x00)
(T (W x00 x00 x00 x00 x00 x00 x00 x00)
(L (W xff xff xff xff xff xff xff xff)) E)
(T (W x18 x00 x00 x00 x10 x00 x00 x00)
(L (W x00 x00 x00 x00 x00 x00 x00 x00)) E)))))
(T (W xbc x00 x00 x00 xb0 x00 x00 x00)
(T (W x00 x00 x00 x00 x00 x00 x00 x00)
(T (W x00 x00 x00 x00 x00 x00 x00 x00)
(T (W x00 x00 x00 x00 x00 x00 x00 x00)
(T (W x00 x00 x80 x3f x00 x00 x80 x3f)
(L (W x03 x00 x00 x00 xcc x00 x00 x00))
(L (W xff xff xff xff xff xff xff xff)))
(T (W x45 x26 x22 x84 xe4 x9c xf2 xcb)
(L (W x00 x00 x80 xbf x00 x00 x80 xbf)) E))
(T (W x00 x00 x00 x00 x00 x00 x00 x00)
(T (W x00 x00 x00 x00 x12 x00 x00 x00)
(L (W xff xff xff xff xff xff xff xff)) E)
(T (W x00 x00 x80 xbf x00 x00 x80 xbf)
(L (W xb4 x16 xff xff x00 x01 x01 x01)) E)))
(T (W x00 x00 x80 x3f x00 x00 x80 x3f)
(T (W x68 x00 x00 x00 x5c x00 x00 x00)
(T (W x00 x00 x00 x00 x00 x00 x00 x00)
(L (W xff xff xff xff xff xff xff xff))
(L (W x00 x00 x00 x00 x00 x00 x00 x00)))
(T (W x00 x00 x80 x3f x00 x00 x80 x3f)
(L (W xff xff xff xff xff xff xff xff)) E))
(T (W x45 x26 x22 x84 xe4 x9c xf2 xcb)
(T (W xcf x57 xed x05 x5f x89 x68 xcc)
(L (W x17 x00 x00 x00 x1a x00 x00 x00)) E)
(T (W x00 x00 x80 xbf x00 x00 x80 xbf)
(L (W x00 x00 x00 x00 x00 x00 x00 x00)) E))))
(T (W xff xff xff xff xff xff xff xff)
(T (W x50 x00 x00 x00 x44 x00 x00 x00)
(T (W xff xff xff xff xff xff xff xff)
(T (W xb4 xb6 xfb xff x00 x01 x01 x01)
(L (W x00 x00 x00 x00 x00 x00 x00 x00))
(L (W xff xff xff xff xff xff xff xff)))
(T (W xb8 x00 x00 x00 xac x00 x00 x00)
(L (W x92 xb3 xfe xff x78 x00 x00 x00)) E))
(T (W x00 x00 x00 x00 x00 x00 x00 x00)
(T (W xff xff xff xff xff xff xff xff)
(L (W x00 x00 x00 x00 x00 x00 x00 x00)) E)
(T (W xff xff xff xff xff xff xff xff)
(L (W xcc x00 x00 x00 x01 x00 x00 x00)) E)))
(T (W x00 x00 x80 x3f x00 x00 x80 x3f)
(T (W xff xff xff xff xff xff xff xff)
(T (W x45 x26 x22 x84 xe4 x9c xf2 xcb)
(L (W x6c x00 x00 x00 x60 x00 x00 x00))
(L (W x92 xf3 xff xff x78 x00 x00 x00)))
(T (W x00 x00 x00 x00 x00 x00 x00 x00)
(L (W x00 x00 x00 x00 x00 x00 x00 x00)) E))
(T (W x00 x00 x80 x3f x00 x00 x80 x3f)
(T (W xe2 x71 xfc xff x74 x00 x00 x00)
(L (W x18 x00 x00 x00 x0c x00 x00 x00)) E)
(T (W x03 x00 x00 x00 xd8 x00 x00 x00)
(L (W x00 x00 x80 xbf x00 x00 x80 xbf)) E))))))))
(T (W x6c x00 x00 x00 x60 x00 x00 x00)
(T (W xff xff xff xff xff xff xff xff)
(T (W x92 x89 xf9 xff x78 x00 x00 x00)
(T (W xff xff xff xff xff xff xff xff)
(T (W x00 x00 x00 x00 x00 x00 x00 x00)
(T (W x64 x00 x00 x00 x9c x00 x00 x00)
(T (W x00 x00 x00 x00 x00 x00 x00 x00)
(T (W x45 x26 x22 x84 xe4 x9c xf2 xcb)
(L (W x00 x00 x80 xbf x00 x00 x80 xbf))
(L (W x00 x00 x00 x00 x00 x00 x00 x00)))
(T (W x50 x00 x00 x00 x44 x00 x00 x00)
(L (W xff xff xff xff xff xff xff xff)) E))
(T (W xa1 x01 x00 x00 xff xff xff xff)
(T (W x18 x00 x00 x00 x0c x00 x00 x00)
(L (W x00 x00 x80 xbf x00 x00 x80 xbf))
(L (W xff xff xff xff xff xff xff xff)))
(T (W x1d x00 x00 x00 x9c x00 x00 x00)
(L (W xff xff xff xff xff xff xff xff)) E)))
(T (W x00 x00 x80 x3f x00 x00 x80 x3f)
(T (W x00 x00 x80 x3f x00 x00 x80 x3f)
(T (W x50 x00 x00 x00 x44 x00 x00 x00)
(L (W x00 x00 x80 xbf x00 x00 x80 xbf))
(L (W x45 x26 x22 x84 xe4 x9c xf2 xcb)))
(T (W x00 x00 x80 x3f x00 x00 x80 x3f)
(L (W x00 x00 x80 xbf x00 x00 x80 xbf)) E))
(T (W x13 x00 x00 x00 x10 x00 x00 x00)
(T (W x00 x00 x00 x00 x24 x3b xfc xff)
(L (W x5c x0e xb9 x28 xbf xcd x67 x6a)) E)
(T (W x00 x00 x00 x00 x24 x3b xfd xff)
(L (W x00 x00 x80 xbf x00 x00 x80 xbf)) E))))
(T (W x68 x00 x00 x00 x5c x00 x00 x00)
(T (W x1c x01 x00 x00 x04 x00 x00 x00)
(T (W xe2 x97 xfa xff x74 x00 x00 x00)
(T (W x4f x84 x6f x8b xe8 xcb x63 xb7)
(L (W x68 x00 x00 x00 x5c x00 x00 x00))
(L (W x45 x26 x22 x84 xe4 x9c xf2 xcb)))
(T (W x00 x00 x00 x00 x00 x00 x00 x00)
(L (W x46 x53 x59 x53 x5f x4e x53 x5f)) E))
(T (W x00 x00 x80 x3f x00 x00 x80 x3f)
(T (W x4a x2c xff xff x00 x00 x01 x01)
(L (W x18 x00 x00 x00 x0c x00 x00 x00)) E)
(T (W x00 x00 x00 x00 x00 x00 x00 x00)
(L (W x00 x00 x80 xbf x00 x00 x80 xbf)) E)))
(T (W x00 x00 x00 x00 x00 x00 x00 x00)
(T (W x00 x00 x00 x00 x00 x00 x00 x00)
(T (W x00 x00 x00 x00 x12 x00 x00 x00)
(L (W xb0 x00 x00 x00 x64 x00 x00 x00))
(L (W x00 x00 x00 x00 x00 x00 x00 x00)))
(T (W x00 x00 x00 x00 x00 x00 x00 x00)
(L (W x19 x00 x00 x00 x1c x00 x00 x00)) E))
(T (W x49 xa1 x68 x4a xeb x5f xdd x3d)
(T (W xff xff xff xff xbc x00 x00 x00)
(L (W x00 x00 x80 xbf x00 x00 x80 xbf)) E)
(T (W x00 x00 x00 x00 x00 x00 x00 x00)
(L (W xff xff xff xff xff xff xff xff)) E)))))
(T (W x00 x00 x01 x01 xc9 x00 x00 x00)
(T (W x45 x26 x22 x84 xe4 x9c xf2 xcb)
(T (W x50 x00 x00 x00 x44 x00 x00 x00)
(T (W xff xff xff xff xff xff xff xff)
(T (W xff xff xff xff xff xff xff xff)
(L (W x00 x00 x80 xbf x00 x00 x80 xbf))
(L (W x00 x00 x80 xbf x00 x00 x80 xbf)))
(T (W x45 x26 x22 x84 xe4 x9c xf2 xcb)
(L (W xff xff xff xff xff xff xff xff)) E))
(T (W x00 x00 x80 x3f x00 x00 x80 x3f)
(T (W xff xff xff xff xff xff xff xff)
(L (W x92 x09 xfe xff x78 x00 x00 x00)) E)
(T (W x00 x00 x00 x00 x00 x00 x00 x00)
(L (W x00 x00 x00 x00 x00 x00 x00 x00)) E)))
(T (W x00 x00 x00 x00 x00 x00 x00 x00)
(T (W x45 x26 x22 x84 xe4 x9c xf2 xcb)
(T (W xff xff xff xff xff xff xff xff)
(L (W x6c x00 x00 x00 x60 x00 x00 x00))
(L (W xff xff xff xff xff xff xff xff)))
(T (W xe2 x01 x00 x00 xff xff xff xff)
(L (W xb4 xcc xfe xff x00 x01 x01 x01)) E))
(T (W xff xff xff xff xff xff xff xff)
(T (W x18 x00 x00 x00 x10 x00 x00 x00)
(L (W x00 x00 x00 x00 x00 x00 x00 x00)) E)
(T (W xff xff xff xff xff xff xff xff)
(L (W x18 x00 x00 x00 x10 x00 x00 x00)) E))))
(T (W x01 x00 x00 x00 x9c x00 x00 x00)
(T (W x00 x00 x00 x00 x00 x00 x00 x00)
(T (W x45 x26 x22 x84 xe4 x9c xf2 xcb)
(T (W x00 x00 x01 x01 x9c x01 x00 x00)
(L (W x50 x00 x00 x00 x44 x00 x00 x00))
(L (W xff xff xff xff xa0 x00 x00 x00)))
(T (W x01 x00 x00 x00 x9c x00 x00 x00)
(L (W x46 x53 x59 x53 x5f x4e x53 x5f)) E))
(T (W xff xff xff xff x03 x00 x00 x00)
(T (W x00 x00 x00 x00 x00 x00 x00 x00)
(L (W xff xff xff xff xff xff xff xff)) E)
(T (W x00 x00 x80 xbf x00 x00 x80 xbf)
(L (W x00 x00 x00 x00 x00 x00 x00 x00)) E)))
(T (W x00 x00 x00 x00 x00 x00 x00 x00)
(T (W x45 x26 x22 x84 xe4 x9c xf2 xcb)
(T (W x00 x00 x80 x3f x00 x00 x80 x3f)
(L (W x00 x00 x00 x00 x12 x00 x00 x00))
(L (W x00 x00 x00 x00 x00 x00 x00 x00)))
(T (W x00 x00 x80 x3f x00 x00 x80 x3f)
(L (W xff xff xff xff xff xff xff xff)) E))
(T (W xa0 x01 x00 x00 xff xff xff xff)
(T (W x68 x00 x00 x00 x5c x00 x00 x00)
(L (W x18 x00 x00 x00 x10 x00 x00 x00)) E)
(T (W x45 x26 x22 x84 xe4 x9c xf2 xcb)
(L (W x00 x00 x00 x00 x12 x6f xff xff)) E))))))
(T (W x00 x00 x00 x00 x00 x00 x00 x00)
(T (W x00 x00 x80 x3f x00 x00 x80 x3f)
(T (W xff xff xff xff x03 x00 x00 x00)
(T (W xb4 x04 xfa xff x00 x01 x01 x01)
(T (W x00 x00 x00 x00 x02 x00 x00 x00)
(T (W x45 x26 x22 x84 xe4 x9c xf2 xcb)
(L (W xa0 x18 x00 x00 x74 x17 x00 x00))
(L (W x00 x00 x00 x00 x00 x00 x00 x00)))
(T (W x45 x26 x22 x84 xe4 x9c xf2 xcb)
(L (W xff xff xff xff xff xff xff xff)) E))
(T (W x00 x00 x00 x00 x00 x00 x00 x00)
(T (W x45 x26 x22 x84 xe4 x9c xf2 xcb)
(L (W x54 x00 x00 x00 x48 x00 x00 x00))
(L (W x48 x00 x00 x00 x14 x00 x00 x00)))
(T (W x45 x26 x22 x84 xe4 x9c xf2 xcb)
(L (W x00 x00 x00 x00 x00 x00 x00 x00)) E)))
(T (W x00 x00 x00 x00 x00 x00 x00 x00)
(T (W x00 x00 x80 x3f x00 x00 x80 x3f)
(T (W xff xff xff xff xff xff xff xff)
(L (W xb4 xc4 xfd xff x00 x01 x01 x01))
(L (W xcc x00 x00 x00 x02 x00 x00 x00)))
(T (W x00 x00 x00 x00 x00 x00 x00 x00)
(L (W x00 x00 x80 xbf x00 x00 x80 xbf)) E))
(T (W x00 x00 x80 x3f x00 x00 x80 x3f)
(T (W x1c x00 x00 x00 xb0 x00 x00 x00)
(L (W x00 x00 x00 x00 x00 x00 x00 x00)) E)
(T (W xff xff xff xff xff xff xff xff)
(L (W x16 x00 x00 x00 x19 x00 x00 x00)) E))))
(T (W xe2 xdf xf9 xff x74 x00 x00 x00)
(T (W x00 x00 x80 x3f x00 x00 x80 x3f)
(T (W x00 x00 x00 x00 x24 xa3 xfa xff)
(T (W x18 x00 x00 x00 x10 x00 x00 x00)
(L (W xff xff xff xff xff xff xff xff))
(L (W x00 x00 x0c x00 x10 x00 x14 x00)))
(T (W x50 x00 x00 x00 x44 x00 x00 x00)
(L (W x00 x00 x00 x00 x00 x00 x00 x00)) E))
(T (W x68 x00 x00 x00 x5c x00 x00 x00)
(T (W x46 x53 x59 x53 x5f x4e x53 x5f)
(L (W xff xff xff xff xff xff xff xff)) E)
(T (W x00 x00 x00 x00 x12 x00 x00 x00)
(L (W x00 x00 x80 xbf x00 x00 x80 xbf)) E)))
(T (W x00 x00 x00 x00 x00 x00 x00 x00)
(T (W x45 x26 x22 x84 xe4 x9c xf2 xcb)
(T (W x00 x00 x00 x00 x00 x00 x00 x00)
(L (W xff xff xff xff xff xff xff xff))
(L (W xe4 x06 x00 x00 xc8 x05 x00 x00)))
(T (W xb4 xe4 xfc xff x00 x01 x01 x01)
(L (W xff xff xff xff xff xff xff xff)) E))
(T (W xff xff xff xff xc4 x00 x00 x00)
(T (W xff xff xff xff xff xff xff xff)
(L (W x6c x00 x00 x00 x60 x00 x00 x00)) E)
(T (W x00 x00 x80 xbf x00 x00 x80 xbf)
(L (W xff xff xff xff xff xff xff xff)) E)))))
(T (W x92 xb1 xf9 xff x78 x00 x00 x00)
(T (W xff xff xff xff xff xff xff xff)
(T (W xc1 x01 x00 x00 xff xff xff xff)
(T (W xff xff xff xff xff xff xff xff)
(T (W x14 x00 x00 x00 x10 x00 x00 x00)
(L (W x00 x00 x80 xbf x00 x00 x80 xbf))
(L (W x6c x00 x00 x00 x60 x00 x00 x00)))
(T (W x00 x00 x00 x00 x00 x00 x00 x00)
(L (W x16 x00 x00 x00 x0c x00 x00 x00)) E))
(T (W xff xff xff xff xff xff xff xff)
(T (W x4b x00 x00 x00 xff xff xff xff)
(L (W x50 x00 x00 x00 x44 x00 x00 x00)) E)
(T (W x00 x00 x00 x00 x01 x00 x00 x00)
(L (W x00 x00 x80 xbf x00 x00 x80 xbf)) E)))
(T (W x00 x00 x00 x00 x00 x00 x00 x00)
(T (W x00 x00 x00 x00 x00 x00 x00 x00)
(T (W x00 x00 x00 x00 x00 x00 x00 x00)
(L (W x15 x00 x00 x00 x18 x00 x00 x00))
(L (W xff xff xff xff xff xff xff xff)))
(T (W x00 x00 x00 x00 x00 x00 x00 x00)
(L (W xff xff xff xff xb0 x00 x00 x00)) E))
(T (W x00 x00 x00 x00 x00 x00 x00 x00)
(T (W xff xff xff xff xff xff xff xff)
(L (W x4f x84 x6f x8b xe8 xcb x63 xb7)) E)
(T (W x00 x00 x00 x00 x00 x00 x00 x00)
(L (W xff xff xff xff xff xff xff xff)) E))))
(T (W xff xff xff xff xff xff xff xff)
(T (W x45 x26 x22 x84 xe4 x9c xf2 xcb)
(T (W x00 x00 x80 x3f x00 x00 x80 x3f)
(T (W x00 x00 x00 x00 x00 x00 x00 x00)
(L (W xff xff xff xff x0d x00 x00 x00))
(L (W xff xff xff xff xb0 x00 x00 x00)))
(T (W x00 x00 x80 x3f x00 x00 x80 x3f)
(L (W x00 x00 x00 x00 x00 x00 x00 x00)) E))
(T (W xff xff xff xff xff xff xff xff)
(T (W x49 xa1 x68 x4a xeb x5f xdd x3d)
(L (W x3b x01 x00 x00 xff xff xff xff)) E)
(T (W x00 x00 x80 xbf x00 x00 x80 xbf)
(L (W x00 x00 x80 xbf x00 x00 x80 xbf)) E)))
(T (W xe4 x78 xfa xff x1b x00 x00 x00)
(T (W x00 x00 x80 x3f x00 x00 x80 x3f)
(T (W x00 x00 x80 x3f x00 x00 x80 x3f)
(L (W x45 x26 x22 x84 xe4 x9c xf2 xcb))
(L (W x45 x26 x22 x84 xe4 x9c xf2 xcb)))
(T (W xff xff xff xff xff xff xff xff)
(L (W x96 x01 x00 x00 xff xff xff xff)) E))
(T (W x00 x00 x00 x00 x00 x00 x00 x00)
(T (W x00 x00 x80 x3f x00 x00 x80 x3f)
(L (W xff xff xff xff xff xff xff xff)) E)
(T (W x00 x00 x00 x00 x00 x00 x00 x00)
(L (W x00 x00 x00 x00 x00 x00 x00 x00)) E)))))))
(T (W x00 x00 x00 x00 x00 x00 x00 x00)
(T (W xff xff xff xff xff xff xff xff)
(T (W x00 x00 x00 x00 x00 x00 x00 x00)
(T (W x00 x00 x80 x3f x00 x00 x80 x3f)
(T (W x45 x26 x22 x84 xe4 x9c xf2 xcb)
(T (W x00 x00 x80 x3f x00 x00 x80 x3f)
(T (W x00 x00 x00 x00 x00 x00 x00 x00)
(L (W x00 x00 x00 x00 x00 x00 x00 x00))
(L (W xff xff xff xff xff xff xff xff)))
(T (W x9f x01 x00 x00 xff xff xff xff)
(L (W x00 x00 x80 xbf x00 x00 x80 xbf)) E))
(T (W xff xff xff xff xa0 x00 x00 x00)
(T (W x00 x00 x00 x00 x00 x00 x00 x00)
(L (W xff xff xff xff xff xff xff xff))
(L (W x00 x00 x00 x00 x00 x00 x00 x00)))
(T (W x45 x26 x22 x84 xe4 x9c xf2 xcb)
(L (W x00 x00 x80 xbf x00 x00 x80 xbf)) E)))
(T (W xff xff xff xff xff xff xff xff)
(T (W xff xff xff xff xff xff xff xff)
(T (W x00 x00 x00 x00 x00 x00 x00 x00)
(L (W xff xff xff xff x9c x00 x00 x00))
(L (W x00 x00 x00 x00 x00 x00 x00 x00)))
(T (W xff xff xff xff xff xff xff xff)
(L (W xff xff xff xff xff xff xff xff)) E))
(T (W xb0 x00 x00 x00 x64 x00 x00 x00)
(T (W x46 x53 x59 x53 x5f x4e x53 x5f)
(L (W x00 x00 x00 x00 x24 x3f xfe xff)) E)
(T (W x00 x00 x00 x00 x00 x00 x00 x00)
(L (W x00 x00 x00 x00 x00 x00 x00 x00)) E))))
(T (W x00 x00 x00 x00 x00 x00 x00 x00)
(T (W xe0 x00 x00 x00 xb4 x00 x00 x00)
(T (W xe4 xa4 xfa xff x21 x00 x00 x00)
(T (W x2c x01 x00 x00 x04 x00 x00 x00)
(L (W x00 x00 x00 x00 x00 x00 x00 x00))
(L (W x00 x00 x00 x00 x00 x00 x00 x00)))
(T (W xaf x00 x00 x00 xff xff xff xff)
(L (W xff xff xff xff xb0 x00 x00 x00)) E))
(T (W xff xff xff xff xff xff xff xff)
(T (W x00 x00 x00 x00 x24 x1f xfc xff)
(L (W x45 x26 x22 x84 xe4 x9c xf2 xcb)) E)
(T (W xff xff xff xff xff xff xff xff)
(L (W xff xff xff xff xff xff xff xff)) E)))
(T (W xbc x00 x00 x00 xb0 x00 x00 x00)
(T (W xff xff xff xff xff xff xff xff)
(T (W xff xff xff xff xff xff xff xff)
(L (W x00 x00 x00 x00 x00 x00 x00 x00))
(L (W x00 x00 x80 xbf x00 x00 x80 xbf)))
(T (W xff xff xff xff xff xff xff xff)
(L (W x00 x00 x00 x00 x00 x00 x00 x00)) E))
(T (W x67 x72 x6f x75 x70 x5f x6c x65)
(T (W x00 x00 x80 x3f x00 x00 x80 x3f)
(L (W x30 x32 x5f x43 x4c x45 x41 x52)) E)
(T (W xff xff xff xff xff xff xff xff)
(L (W x00 x00 x80 xbf x00 x00 x80 xbf)) E)))))
(T (W x45 x26 x22 x84 xe4 x9c xf2 xcb)
(T (W x00 x00 x00 x00 x24 xcf xf9 xff)
(T (W x00 x00 x00 x00 x00 x00 x00 x00)
(T (W x68 x00 x00 x00 x5c x00 x00 x00)
(T (W x00 x00 x80 x3f x00 x00 x80 x3f)
(L (W xff xff xff xff xff xff xff xff))
(L (W x94 x04 x00 x00 x80 x03 x00 x00)))
(T (W xff xff xff xff x03 x00 x00 x00)
(L (W x92 x8d xfe xff x78 x00 x00 x00)) E))
(T (W x00 x00 x00 x00 x00 x00 x00 x00)
(T (W x00 x00 x00 x00 x00 x00 x00 x00)
(L (W x00 x00 x00 x00 x00 x00 x00 x00)) E)
(T (W x78 x00 x08 x00 x70 x00 x0c x00)
(L (W x45 x26 x22 x84 xe4 x9c xf2 xcb)) E)))
(T (W xff xff xff xff xff xff xff xff)
(T (W xff xff xff xff xff xff xff xff)
(T (W x00 x00 x80 x3f x00 x00 x80 x3f)
(L (W x00 x00 x00 x00 x00 x00 x00 x00))
(L (W x00 x00 x80 xbf x00 x00 x80 xbf)))
(T (W x00 x00 x80 x3f x00 x00 x80 x3f)
(L (W x00 x00 x00 x00 xc2 xcc xfe xff)) E))
(T (W x6c x00 x00 x00 x60 x00 x00 x00)
(T (W x00 x00 x00 x00 x00 x00 x00 x00)
(L (W xff xff xff xff xff xff xff xff)) E)
(T (W x3c x00 x00 x00 x00 x00 x80 xbf)
(L (W x4f x84 x6f x8b xe8 xcb x63 xb7)) E))))
(T (W x00 x00 x00 x00 x00 x00 x00 x00)
(T (W xff xff xff xff xff xff xff xff)
(T (W xff xff xff xff xff xff xff xff)
(T (W x00 x00 x00 x00 x24 xaf xfb xff)
(L (W xff xff xff xff xbc x00 x00 x00))
(L (W x45 x44 x00 x00 x00 x00 x00 x00)))
(T (W xe4 xb4 xfc xff x23 x00 x00 x00)
(L (W x03 x00 x00 x00 xd0 x00 x00 x00)) E))
(T (W x00 x00 x80 x3f x00 x00 x80 x3f)
(T (W xff xff xff xff xff xff xff xff)
(L (W x6c x00 x00 x00 x60 x00 x00 x00)) E)
(T (W xff xff xff xff xff xff xff xff)
(L (W xff xff xff xff xff xff xff xff)) E)))
(T (W x50 x00 x00 x00 x44 x00 x00 x00)
(T (W x45 x26 x22 x84 xe4 x9c xf2 xcb)
(T (W x4b x00 x00 x00 xff xff xff xff)
(L (W x45 x26 x22 x84 xe4 x9c xf2 xcb))
(L (W xb4 xf0 xff xff x00 x01 x01 x01)))
(T (W x00 x00 x00 x00 x00 x00 x00 x00)
(L (W x00 x00 x80 xbf x00 x00 x80 xbf)) E))
(T (W x00 x00 x80 x3f x00 x00 x80 x3f)
(T (W x4a x80 xff xff x00 x00 x01 x01)
(L (W x49 xa1 x68 x4a xeb x5f xdd x3d)) E)
(T (W x00 x00 x00 x00 x00 x00 x00 x00)
(L (W xff xff xff xff xb0 x00 x00 x00)) E))))))
(T (W xb4 x98 xf9 xff x00 x01 x01 x01)
(T (W xbc x00 x00 x00 xb0 x00 x00 x00)
(T (W x00 x00 x00 x00 xd2 x61 xfd xff)
(T (W x00 x00 x00 x00 x00 x00 x00 x00)
(T (W x50 x00 x00 x00 x44 x00 x00 x00)
(T (W x22 x00 x00 x00 x67 x72 x6f x75)
(L (W xff xff xff xff xff xff xff xff))
(L (W xff xff xff xff xff xff xff xff)))
(T (W xff xff xff xff xff xff xff xff)
(L (W x00 x00 x80 xbf x00 x00 x80 xbf)) E))
(T (W x76 x31 x00 x00 xd2 xf1 xff xff)
(T (W x00 x00 x00 x00 x00 x00 x00 x00)
(L (W xff xff xff xff xff xff xff xff)) E)
(T (W x50 x00 x00 x00 x44 x00 x00 x00)
(L (W x54 x00 x00 x00 x48 x00 x00 x00)) E)))
(T (W xff xff xff xff xff xff xff xff)
(T (W xff xff xff xff xff xff xff xff)
(T (W x00 x00 x80 x3f x00 x00 x80 x3f)
(L (W x00 x00 x00 x00 x00 x00 x00 x00))
(L (W x45 x26 x22 x84 xe4 x9c xf2 xcb)))
(T (W x68 x00 x00 x00 x00 x00 x62 x00)
(L (W xff xff xff xff xff xff xff xff)) E))
(T (W xe4 x4c xfb xff x11 x00 x00 x00)
(T (W x00 x00 x00 x00 x00 x00 x00 x00)
(L (W x18 x00 x00 x00 x0c x00 x00 x00)) E)
(T (W x00 x00 x80 xbf x00 x00 x80 xbf)
(L (W x00 x00 x00 x00 x00 x00 x00 x00)) E))))
(T (W x00 x00 x00 x00 x00 x00 x00 x00)
(T (W x42 x2e xfd xff x00 x00 x01 x01)
(T (W x01 x00 x00 x00 x04 x00 x00 x00)
(T (W x00 x00 x80 x3f x00 x00 x80 x3f)
(L (W x45 x26 x22 x84 xe4 x9c xf2 xcb))
(L (W xff xff xff xff xff xff xff xff)))
(T (W xca xb6 xff xff x71 x00 x00 x00)
(L (W xff xff xff xff xc0 x00 x00 x00)) E))
(T (W x00 x00 x00 x00 x00 x00 x00 x00)
(T (W x01 x00 x00 x00 x19 x00 x00 x00)
(L (W x00 x00 x80 xbf x00 x00 x80 xbf)) E)
(T (W xff xff xff xff xff xff xff xff)
(L (W xff xff xff xff xff xff xff xff)) E)))
(T (W xb4 x68 xfa xff x00 x01 x01 x01)
(T (W xb8 x00 x00 x00 xac x00 x00 x00)
(T (W xff xff xff xff xff xff xff xff)
(L (W x45 x26 x22 x84 xe4 x9c xf2 xcb))
(L (W x92 xe5 xff xff x78 x00 x00 x00)))
(T (W x0a x00 x00 x00 x19 x00 x00 x00)
(L (W x49 xa1 x68 x4a xeb x5f xdd x3d)) E))
(T (W x00 x00 x00 x00 x00 x00 x00 x00)
(T (W x00 x00 x58 x00 x00 x00 x00 x00)
(L (W x00 x00 x00 x00 x00 x00 x00 x00)) E)
(T (W x53 x01 x00 x00 xff xff xff xff)
(L (W x92 x65 xff xff x78 x00 x00 x00)) E)))))
(T (W xff xff xff xff xff xff xff xff)
(T (W x00 x00 x00 x00 x00 x00 x00 x00)
(T (W x00 x00 x80 x3f x00 x00 x80 x3f)
(T (W xff xff xff xff x03 x00 x00 x00)
(T (W xe2 x93 xfb xff x74 x00 x00 x00)
(L (W x9a xf5 xff xff x00 x00 x01 x01))
(L (W x00 x00 x00 x00 x00 x00 x00 x00)))
(T (W x68 x00 x00 x00 x5c x00 x00 x00)
(L (W x68 x00 x00 x00 x5c x00 x00 x00)) E))
(T (W xff xff xff xff xff xff xff xff)
(T (W x49 xa1 x68 x4a xeb x5f xdd x3d)
(L (W x00 x00 x00 x00 x00 x00 x00 x00)) E)
(T (W x00 x00 x00 x00 x00 x00 x00 x00)
(L (W xff xff xff xff xff xff xff xff)) E)))
(T (W x64 x00 x00 x00 x9c x00 x00 x00)
(T (W xff xff xff xff xff xff xff xff)
(T (W x00 x00 x80 x3f x00 x00 x80 x3f)
(L (W x00 x00 x00 x00 x00 x00 x00 x00))
(L (W x00 x00 x80 xbf x00 x00 x80 xbf)))
(T (W x19 x00 x00 x00 x1c x00 x00 x00)
(L (W x00 x00 x00 x00 x00 x00 x00 x00)) E))
(T (W xff xff xff xff xff xff xff xff)
(T (W x00 x00 x80 x3f x00 x00 x80 x3f)
(L (W xff xff xff xff xff xff xff xff)) E)
(T (W xff xff xff xff x9c x00 x00 x00)
(L (W x00 x00 x80 xbf x00 x00 x80 xbf)) E))))
(T (W x00 x00 x00 x00 x00 x00 x00 x00)
(T (W xff xff xff xff xff xff xff xff)
(T (W xff xff xff xff xff xff xff xff)
(T (W xff xff xff xff xff xff xff xff)
(L (W x00 x00 x00 x00 x00 x00 x00 x00))
(L (W x00 x00 x00 x00 x00 x00 x00 x00)))
(T (W xff xff xff xff xff xff xff xff)
(L (W xff xff xff xff xff xff xff xff)) E))
(T (W xb4 x38 xfb xff x00 x01 x01 x01)
(T (W x4a x48 xff xff x00 x00 x01 x01)
(L (W x92 x35 xfe xff x78 x00 x00 x00)) E)
(T (W xe4 x6b xca xc9 x03 x90 xa3 xbc)
(L (W xff xff xff xff xff xff xff xff)) E)))
(T (W x00 x00 x80 x3f x00 x00 x80 x3f)
(T (W xff xff xff xff xff xff xff xff)
(T (W x30 x32 x5f x43 x4c x45 x41 x52)
(L (W xff xff xff xff xff xff xff xff))
(L (W xff xff xff xff xff xff xff xff)))
(T (W x00 x00 x80 x3f x00 x00 x80 x3f)
(L (W x92 xf5 xfe xff x78 x00 x00 x00)) E))
(T (W xff xff xff xff xff xff xff xff)
(T (W x00 x00 x00 x00 x00 x00 x00 x00)
(L (W x00 x00 x80 xbf x00 x00 x80 xbf)) E)
(T (W x00 x00 x01 x01 x5c x00 x00 x00)
(L (W x45 x26 x22 x84 xe4 x9c xf2 xcb)) E))))))))))
(T (W xf0 xa3 x03 x00 xa4 xa2 x03 x00)
(T (W x50 x04 x03 x00 x0c x02 x03 x00)
(T (W xc8 x24 x01 x00 x7c x22 x01 x00)
(T (W x00 x00 x00 x00 x00 x00 x00 x00)
(T (W xff xff xff xff xff xff xff xff)
(T (W x00 x00 x00 x00 x00 x00 x00 x00)
(T (W x00 x00 x80 x3f x00 x00 x80 x3f)
(T (W xff xff xff xff xff xff xff xff)
(T (W x00 x00 x00 x00 x00 x00 x00 x00)
(T (W x00 x00 x00 x00 xa4 x78 xfb xff)
(L (W x18 x00 x00 x00 x10 x00 x00 x00))
(L (W x00 x00 x80 xbf x00 x00 x80 xbf)))
(T (W xff xff xff xff x03 x00 x00 x00)
(L (W x30 x32 x5f x43 x4c x45 x41 x52)) E))
(T (W x00 x00 x00 x00 xa4 xf8 xfa xff)
(T (W xff xff xff xff x03 x00 x00 x00)
(L (W x00 x00 x80 xbf x00 x00 x80 xbf))
(L (W x00 x00 x80 xbf x00 x00 x80 xbf)))
(T (W x6c x64 x5f x70 x6f x6b x65 x5f)
(L (W x00 x00 x00 x00 x00 x00 x00 x00)) E)))
(T (W x00 x00 x80 x3f x00 x00 x80 x3f)
(T (W x62 xb5 xfa xff x74 x00 x00 x00)
(T (W x18 x00 x00 x00 x10 x00 x00 x00)
(L (W xff xff xff xff xff xff xff xff))
(L (W xff xff xff xff xff xff xff xff)))
(T (W x01 x00 x00 x00 x9c x00 x00 x00)
(L (W x00 x00 x80 xbf x00 x00 x80 xbf)) E))
(T (W x45 x26 x22 x84 xe4 x9c xf2 xcb)
(T (W x18 x00 x00 x00 x10 x00 x00 x00)
(L (W x00 x00 x00 x00 x00 x00 x00 x00)) E)
(T (W xff xff xff xff xbc x00 x00 x00)
(L (W x45 x26 x22 x84 xe4 x9c xf2 xcb)) E))))
(T (W xff xff xff xff xff xff xff xff)
(T (W xbc x27 xfa xff x3e x00 x00 x00)
(T (W x6c x00 x00 x00 x60 x00 x00 x00)
(T (W x00 x00 x80 x3f x00 x00 x80 x3f)
(L (W xc0 x00 x00 x00 x01 x00 x00 x00))
(L (W xff xff xff xff xff xff xff xff)))
(T (W x45 x26 x22 x84 xe4 x9c xf2 xcb)
(L (W x00 x00 x80 xbf x00 x00 x80 xbf)) E))
(T (W x00 x00 x80 x3f x00 x00 x80 x3f)
(T (W x6b x65 x5f x77 x61 x72 x6c x69)
(L (W xff xff xff xff xff xff xff xff)) E)
(T (W xff xff xff xff xff xff xff xff)
(L (W x6c x00 x00 x00 x60 x00 x00 x00)) E)))
(T (W x00 x00 x80 x3f x00 x00 x80 x3f)
(T (W x34 xda xfa xff x00 x01 x01 x01)
(T (W x00 x00 x80 x3f x00 x00 x80 x3f)
(L (W xff xff xff xff xff xff xff xff))
(L (W x45 x44 x00 x00 x00 x00 x00 x00)))
(T (W x00 x00 x80 x3f x00 x00 x80 x3f)
(L (W xff xff xff xff xff xff xff xff)) E))
(T (W x12 x57 xfb xff x78 x00 x00 x00)
(T (W x00 x00 x00 x00 x00 x00 x00 x00)
(L (W x18 x00 x00 x00 x10 x00 x00 x00)) E)
(T (W x00 x00 x80 xbf x00 x00 x80 xbf)
(L (W x00 x00 x00 x00 x00 x00 x00 x00)) E)))))
(T (W x45 x26 x22 x84 xe4 x9c xf2 xcb)
(T (W x45 x26 x22 x84 xe4 x9c xf2 xcb)
(T (W xff xff xff xff xff xff xff xff)
(T (W x00 x00 x00 x00 x00 x00 x00 x00)
(T (W x00 x00 x00 x00 x00 x00 x00 x00)
(L (W x68 x00 x00 x00 x5c x00 x00 x00))
(L (W x12 x87 xff xff x78 x00 x00 x00)))
(T (W x50 x00 x00 x00 x44 x00 x00 x00)
(L (W x00 x00 x00 x00 x12 x00 x00 x00)) E))
(T (W xbc x00 x00 x00 x14 x00 x00 x00)
(T (W xff xff xff xff xff xff xff xff)
(L (W x34 x0a xfe xff x00 x01 x01 x01)) E)
(T (W x00 x00 x00 x00 x00 x00 x00 x00)
(L (W x00 x00 x00 x00 x00 x00 x00 x00)) E)))
(T (W x00 x00 x80 x3f x00 x00 x80 x3f)
(T (W x68 x00 x00 x00 x5c x00 x00 x00)
(T (W x45 x44 x00 x00 x00 x00 x00 x00)
(L (W xff xff xff xff xff xff xff xff))
(L (W xc5 x01 x00 x00 xff xff xff xff)))
(T (W x10 x00 x00 x00 x65 x76 x65 x6e)
(L (W xff xff xff xff xff xff xff xff)) E))
(T (W xff xff xff xff xff xff xff xff)
(T (W xff xff xff xff xff xff xff xff)
(L (W x00 x00 x80 xbf x00 x00 x80 xbf)) E)
(T (W x00 x00 x00 x00 x42 x46 xfd xff)
(L (W xff xff xff xff xff xff xff xff)) E))))
(T (W xff xff xff xff x01 x00 x00 x00)
(T (W x45 x26 x22 x84 xe4 x9c xf2 xcb)
(T (W xff xff xff xff xff xff xff xff)
(T (W xbc xb7 xfb xff x10 x00 x00 x00)
(L (W xff xff xff xff xff xff xff xff))
(L (W x00 x00 x2a x00 x54 x00 x44 x00)))
(T (W xb8 x00 x00 x00 xac x00 x00 x00)
(L (W x00 x00 x80 xbf x00 x00 x80 xbf)) E))
(T (W xff xff xff xff xff xff xff xff)
(T (W x00 x00 x80 x3f x00 x00 x80 x3f)
(L (W x00 x00 x00 x00 x00 x00 x00 x00)) E)
(T (W x00 x00 x80 xbf x00 x00 x80 xbf)
(L (W x54 x00 x00 x00 x48 x00 x00 x00)) E)))
(T (W x00 x00 x80 x3f x00 x00 x80 x3f)
(T (W x00 x00 x80 x3f x00 x00 x80 x3f)
(T (W x00 x00 x80 x3f x00 x00 x80 x3f)
(L (W x00 x00 x80 xbf x00 x00 x80 xbf))
(L (W x00 x00 x00 x00 x00 x00 x00 x00)))
(T (W x50 x00 x00 x00 x44 x00 x00 x00)
(L (W x00 x00 x01 x01 x18 x01 x00 x00)) E))
(T (W xdc x05 x00 x00 xb4 x04 x00 x00)
(T (W xff xff xff xff xff xff xff xff)
(L (W xff xff xff xff xff xff xff xff)) E)
(T (W xc4 x00 x00 x00 x02 x00 x00 x00)
(L (W x00 x00 x00 x00 x00 x00 x00 x00)) E))))))
(T (W x6c x00 x00 x00 x60 x00 x00 x00)
(T (W xff xff xff xff x03 x00 x00 x00)
(T (W x00 x00 x00 x00 x00 x00 x00 x00)
(T (W xff xff xff xff xff xff xff xff)
(T (W x00 x00 x00 x00 x00 x00 x00 x00)
(T (W xff xff xff xff xff xff xff xff)
(L (W xff xff xff xff xb0 x00 x00 x00))
(L (W x54 x00 x00 x00 x48 x00 x00 x00)))
(T (W x68 x00 x00 x00 x5c x00 x00 x00)
(L (W x00 x00 x00 x00 x00 x00 x00 x00)) E))
(T (W x49 xa1 x68 x4a xeb x5f xdd x3d)
(T (W xff xff xff xff xff xff xff xff)
(L (W x50 x00 x00 x00 x44 x00 x00 x00))
(L (W x00 x00 x62 x00 x74 x00 x08 x00)))
(T (W x00 x00 x80 xbf x00 x00 x80 xbf)
(L (W x00 x00 x00 x00 x00 x00 x00 x00)) E)))
(T (W x00 x00 x80 x3f x00 x00 x80 x3f)
(T (W x00 x00 x80 x3f x00 x00 x80 x3f)
(T (W xff xff xff xff x01 x00 x00 x00)
(L (W x45 x26 x22 x84 xe4 x9c xf2 xcb))
(L (W xff xff xff xff xff xff xff xff)))
(T (W x00 x00 x80 x3f x00 x00 x80 x3f)
(L (W x00 x00 x00 x00 xa4 xc0 xfe xff)) E))
(T (W x00 x00 x80 x3f x00 x00 x80 x3f)
(T (W xff xff xff xff xff xff xff xff)
(L (W x00 x00 x00 x00 x00 x00 x00 x00)) E)
(T (W xff xff xff xff xff xff xff xff)
(L (W x21 x00 x00 x00 x24 x00 x00 x00)) E))))
(T (W xff xff xff xff xff xff xff xff)
(T (W x34 x22 xfa xff x00 x01 x01 x01)
(T (W xff xff xff xff x03 x00 x00 x00)
(T (W xff xff xff xff x9c x00 x00 x00)
(L (W xff xff xff xff xff xff xff xff))
(L (W xff xff xff xff xff xff xff xff)))
(T (W x68 x00 x00 x00 x5c x00 x00 x00)
(L (W x00 x00 x80 xbf x00 x00 x80 xbf)) E))
(T (W x62 x1d xfb xff x74 x00 x00 x00)
(T (W x00 x00 x00 x00 x00 x00 x00 x00)
(L (W x00 x00 x00 x00 x92 x24 xfe xff)) E)
(T (W x00 x00 x80 xbf x00 x00 x80 xbf)
(L (W x18 x00 x00 x00 x0c x00 x00 x00)) E)))
(T (W x45 x26 x22 x84 xe4 x9c xf2 xcb)
(T (W x00 x00 x80 x3f x00 x00 x80 x3f)
(T (W x00 x00 x80 x3f x00 x00 x80 x3f)
(L (W x04 x00 x00 x00 x22 xe6 xfd xff))
(L (W x00 x00 x00 x00 x00 x00 x00 x00)))
(T (W x00 x00 x80 x3f x00 x00 x80 x3f)
(L (W xff xff xff xff xff xff xff xff)) E))
(T (W xff xff xff xff xff xff xff xff)
(T (W x00 x00 x00 x00 x00 x00 x00 x00)
(L (W xff xff xff xff xff xff xff xff)) E)
(T (W x50 x00 x00 x00 x44 x00 x00 x00)
(L (W x00 x00 x00 x00 x00 x00 x00 x00)) E)))))
(T (W xff xff xff xff xff xff xff xff)
(T (W x00 x00 x00 x00 x00 x00 x00 x00)
(T (W x00 x00 x00 x00 x04 x00 x00 x00)
(T (W x00 x00 x00 x00 x00 x00 x00 x00)
(T (W x00 x00 x00 x00 x00 x00 x00 x00)
(L (W x45 x26 x22 x84 xe4 x9c xf2 xcb))
(L (W xff xff xff xff xff xff xff xff)))
(T (W x45 x26 x22 x84 xe4 x9c xf2 xcb)
(L (W x00 x00 x00 x00 x00 x00 x00 x00)) E))
(T (W xff xff xff xff xff xff xff xff)
(T (W x00 x00 x00 x00 x00 x00 x00 x00)
(L (W xff xff xff xff xc8 x00 x00 x00)) E)
(T (W x1c x00 x00 x00 x10 x00 x00 x00)
(L (W x4f x84 x6f x8b xe8 xcb x63 xb7)) E)))
(T (W x00 x00 x80 x3f x00 x00 x80 x3f)
(T (W x62 xcd xfa xff x74 x00 x00 x00)
(T (W x00 x00 x00 x00 x00 x00 x00 x00)
(L (W xff xff xff xff xff xff xff xff))
(L (W x00 x00 x00 x00 x00 x00 x00 x00)))
(T (W x30 x32 x5f x43 x4c x45 x41 x52)
(L (W xff xff xff xff xff xff xff xff)) E))
(T (W x00 x00 x00 x00 x00 x00 x00 x00)
(T (W xc2 x57 xff xff x00 x00 x01 x01)
(L (W x54 x00 x00 x00 x48 x00 x00 x00)) E)
(T (W x00 x00 x00 x00 x00 x00 x00 x00)
(L (W xff xff xff xff xff xff xff xff)) E))))
(T (W xff xff xff xff xff xff xff xff)
(T (W x18 x00 x00 x00 x0c x00 x00 x00)
(T (W x18 x00 x00 x00 x0c x00 x00 x00)
(T (W x00 x00 x80 x3f x00 x00 x80 x3f)
(L (W x00 x00 x80 xbf x00 x00 x80 xbf))
(L (W xff xff xff xff xff xff xff xff)))
(T (W xb8 x00 x00 x00 xac x00 x00 x00)
(L (W x00 x00 x80 xbf x00 x00 x80 xbf)) E))
(T (W x46 x53 x59 x53 x5f x4e x53 x5f)
(T (W x00 x00 x80 x3f x00 x00 x80 x3f)
(L (W x00 x00 x00 x00 x00 x00 x00 x00)) E)
(T (W x34 x32 xfd xff x00 x01 x01 x01)
(L (W x00 x01 x01 x01 x4a x89 xff xff)) E)))
(T (W x00 x00 x00 x00 x00 x00 x00 x00)
(T (W x00 x00 x80 x3f x00 x00 x80 x3f)
(T (W xff xff xff xff x9c x00 x00 x00)
(L (W x45 x26 x22 x84 xe4 x9c xf2 xcb))
(L (W x00 x00 x00 x00 x00 x00 x00 x00)))
(T (W x00 x00 x00 x00 x00 x00 x00 x00)
(L (W x00 x00 x00 x00 x12 x00 x00 x00)) E))
(T (W x00 x00 x80 x3f x00 x00 x80 x3f)
(T (W x62 x6d xfc xff x74 x00 x00 x00)
(L (W x00 x00 x01 x01 x92 x01 x00 x00)) E)
(T (W xff xff xff xff xff xff xff xff)
(L (W x00 x00 x80 xbf x00 x00 x80 xbf)) E)))))))
(T (W x54 x00 x00 x00 x48 x00 x00 x00)
(T (W x00 x00 x00 x00 x00 x00 x00 x00)
(T (W x68 x00 x00 x00 x5c x00 x00 x00)
(T (W xff xff xff xff xff xff xff xff)
(T (W x00 x00 x80 x3f x00 x00 x80 x3f)
(T (W xff xff xff xff xff xff xff xff)
(T (W x45 x44 x00 x00 x00 x00 x00 x00)
(L (W x30 x32 x5f x43 x4c x45 x41 x52))
(L (W xff xff xff xff xff xff xff xff)))
(T (W x00 x00 x00 x00 x00 x00 x00 x00)
(L (W x6c x00 x00 x00 x60 x00 x00 x00)) E))
(T (W x45 x26 x22 x84 xe4 x9c xf2 xcb)
(T (W x00 x00 x80 x3f x00 x00 x80 x3f)
(L (W x00 x00 x00 x00 x00 x00 x00 x00))
(L (W xff xff xff xff xff xff xff xff)))
(T (W x00 x00 x80 xbf x00 x00 x80 xbf)
(L (W x45 x26 x22 x84 xe4 x9c xf2 xcb)) E)))
(T (W x10 x2a x77 xfe x01 x6d xe2 x4f)
(T (W x00 x00 x00 x00 x00 x00 x00 x00)
(T (W x49 xa1 x68 x4a xeb x5f xdd x3d)
(L (W x00 x00 x00 x00 x00 x00 x00 x00))
(L (W x00 x00 x80 xbf x00 x00 x80 xbf)))
(T (W x64 xc2 xfc xff x21 x00 x00 x00)
(L (W x00 x00 x00 x00 x00 x00 x00 x00)) E))
(T (W xff xff xff xff xff xff xff xff)
(T (W x00 x00 x00 x00 x00 x00 x00 x00)
(L (W xff xff xff xff xff xff xff xff)) E)
(T (W x00 x00 x80 xbf x00 x00 x80 xbf)
(L (W x00 x00 x00 x00 x00 x00 x00 x00)) E))))
(T (W x45 x26 x22 x84 xe4 x9c xf2 xcb)
(T (W x45 x26 x22 x84 xe4 x9c xf2 xcb)
(T (W x00 x00 x00 x00 x00 x00 x00 x00)
(T (W x6b x65 x5f x6c x76 x31 x00 x00)
(L (W x00 x00 x00 x00 x00 x00 x00 x00))
(L (W x45 x26 x22 x84 xe4 x9c xf2 xcb)))
(T (W xca xad xff xff x00 x00 x01 x01)
(L (W xff xff xff xff xff xff xff xff)) E))
(T (W x22 x00 x00 x00 x67 x72 x6f x75)
(T (W x18 x00 x00 x00 x10 x00 x00 x00)
(L (W x45 x26 x22 x84 xe4 x9c xf2 xcb)) E)
(T (W xff xff xff xff xff xff xff xff)
(L (W x00 x00 x00 x00 x00 x00 x00 x00)) E)))
(T (W xff xff xff xff xff xff xff xff)
(T (W xff xff xff xff xff xff xff xff)
(T (W xc2 xe3 xfe xff x00 x00 x01 x01)
(L (W x00 x00 x80 xbf x00 x00 x80 xbf))
(L (W xc4 x00 x00 x00 x02 x00 x00 x00)))
(T (W x00 x00 x00 x00 x92 xe0 xfc xff)
(L (W x00 x00 x80 xbf x00 x00 x80 xbf)) E))
(T (W x6b x65 x5f x77 x61 x72 x6c x69)
(T (W x18 x00 x00 x00 x0c x00 x00 x00)
(L (W x46 x53 x59 x53 x5f x4e x53 x5f)) E)
(T (W x54 x02 x00 x00 x38 x01 x00 x00)
(L (W xff xff xff xff xb0 x00 x00 x00)) E)))))
(T (W x00 x00 x00 x00 xa4 xac xf9 xff)
(T (W xff xff xff xff xff xff xff xff)
(T (W x00 x00 x00 x00 x00 x00 x00 x00)
(T (W x01 x00 x00 x00 xa0 x00 x00 x00)
(T (W x00 x00 x80 x3f x00 x00 x80 x3f)
(L (W x00 x00 x00 x00 x00 x00 x00 x00))
(L (W xbc x9b xff xff x14 x00 x00 x00)))
(T (W x96 x01 x00 x00 xff xff xff xff)
(L (W x03 x00 x00 x00 xd8 x00 x00 x00)) E))
(T (W x4f x84 x6f x8b xe8 xcb x63 xb7)
(T (W x68 x00 x00 x00 x5c x00 x00 x00)
(L (W x00 x00 x00 x00 x00 x00 x00 x00)) E)
(T (W x00 x00 x00 x00 x01 x00 x00 x00)
(L (W xff xff xff xff xff xff xff xff)) E)))
(T (W xca x5d xfd xff x00 x00 x01 x01)
(T (W x40 x00 x00 x00 x10 x00 x00 x00)
(T (W x01 x00 x00 x00 x19 x00 x00 x00)
(L (W x00 x00 x00 x00 x00 x00 x00 x00))
(L (W x34 xce xff xff x00 x01 x01 x01)))
(T (W x18 x00 x1c x00 x06 x00 x07 x00)
(L (W x45 x26 x22 x84 xe4 x9c xf2 xcb)) E))
(T (W x34 x4e xfb xff x00 x01 x01 x01)
(T (W x00 x00 x80 x3f x00 x00 x80 x3f)
(L (W x00 x00 x00 x00 x00 x00 x00 x00)) E)
(T (W x45 x26 x22 x84 xe4 x9c xf2 xcb)
(L (W x00 x00 x80 xbf x00 x00 x80 xbf)) E))))
(T (W x00 x00 x00 x00 x00 x00 x00 x00)
(T (W x64 xa3 x37 xaa xb9 xf9 x88 x76)
(T (W x00 x00 x00 x00 x00 x00 x00 x00)
(T (W x18 x00 x00 x00 x10 x00 x00 x00)
(L (W x00 x00 x00 x00 x00 x00 x00 x00))
(L (W x49 xa1 x68 x4a xeb x5f xdd x3d)))
(T (W x00 x00 x00 x00 x00 x00 x00 x00)
(L (W xff xff xff xff xff xff xff xff)) E))
(T (W x00 x00 x80 x3f x00 x00 x80 x3f)
(T (W xff xff xff xff xff xff xff xff)
(L (W x68 x00 x00 x00 x5c x00 x00 x00)) E)
(T (W x00 x00 x00 x00 x00 x00 x00 x00)
(L (W x46 x53 x59 x53 x5f x4e x53 x5f)) E)))
(T (W xff xff xff xff xff xff xff xff)
(T (W xff xff xff xff xff xff xff xff)
(T (W x00 x00 x00 x00 x00 x00 x00 x00)
(L (W xff xff xff xff xff xff xff xff))
(L (W xff xff xff xff xff xff xff xff)))
(T (W xc2 xf3 xff xff x00 x00 x01 x01)
(L (W xff xff xff xff xa0 x00 x00 x00)) E))
(T (W xff xff xff xff x9c x00 x00 x00)
(T (W x00 x00 x00 x00 x00 x00 x00 x00)
(L (W x54 x00 x00 x00 x48 x00 x00 x00)) E)
(T (W x45 x26 x22 x84 xe4 x9c xf2 xcb)
(L (W xff xff xff xff xb0 x00 x00 x00)) E))))))
(T (W xff xff xff xff xff xff xff xff)
(T (W x00 x00 x00 x00 x52 x3f xfd xff)
(T (W x00 x00 x80 x3f x00 x00 x80 x3f)
(T (W x45 x26 x22 x84 xe4 x9c xf2 xcb)
(T (W x18 x00 x00 x00 x10 x00 x00 x00)
(T (W x45 x26 x22 x84 xe4 x9c xf2 xcb)
(L (W x1a xe3 xff xff x00 x00 x01 x01))
(L (W xff xff xff xff xff xff xff xff)))
(T (W x00 x00 x00 x00 x00 x00 x00 x00)
(L (W x62 x81 xfe xff x74 x00 x00 x00)) E))
(T (W x00 x00 x00 x00 x06 x00 x00 x00)
(T (W x00 x00 x80 x3f x00 x00 x80 x3f)
(L (W x00 x00 x00 x00 x12 x00 x00 x00)) E)
(T (W x00 x00 x80 xbf x00 x00 x80 xbf)
(L (W xcc x00 x00 x00 x01 x00 x00 x00)) E)))
(T (W x92 x01 x00 x00 xff xff xff xff)
(T (W x00 x00 x00 x00 x00 x00 x00 x00)
(T (W x00 x00 x80 x3f x00 x00 x80 x3f)
(L (W x45 x26 x22 x84 xe4 x9c xf2 xcb))
(L (W x00 x00 x80 xbf x00 x00 x80 xbf)))
(T (W xff xff xff xff xff xff xff xff)
(L (W x00 x00 x00 x00 x00 x00 x00 x00)) E))
(T (W x00 x00 x00 x00 x00 x00 x00 x00)
(T (W x00 x00 x80 x3f x00 x00 x80 x3f)
(L (W xff xff xff xff xff xff xff xff)) E)
(T (W x00 x00 x00 x00 xa4 x44 xfd xff)
(L (W x00 x00 x80 xbf x00 x00 x80 xbf)) E))))
(T (W x45 x26 x22 x84 xe4 x9c xf2 xcb)
(T (W x00 x00 x00 x00 x00 x00 x00 x00)
(T (W x00 x00 x00 x00 x00 x00 x00 x00)
(T (W x00 x00 x80 x3f x00 x00 x80 x3f)
(L (W x45 x26 x22 x84 xe4 x9c xf2 xcb))
(L (W x04 x00 x00 x00 x02 xa4 xff xff)))
(T (W x00 x00 x00 x00 x00 x00 x00 x00)
(L (W x5d x00 x00 x00 xff xff xff xff)) E))
(T (W x4f x84 x6f x8b xe8 xcb x63 xb7)
(T (W xff xff xff xff xff xff xff xff)
(L (W x00 x00 x80 xbf x00 x00 x80 xbf)) E)
(T (W xff xff xff xff xff xff xff xff)
(L (W x00 x00 x00 x00 x00 x00 x00 x00)) E)))
(T (W xb8 x00 x00 x00 xac x00 x00 x00)
(T (W xff xff xff xff xff xff xff xff)
(T (W xff xff xff xff xff xff xff xff)
(L (W x6c x00 x00 x00 x60 x00 x00 x00))
(L (W xff xff xff xff xff xff xff xff)))
(T (W x50 x00 x00 x00 x44 x00 x00 x00)
(L (W x54 x00 x00 x00 x48 x00 x00 x00)) E))
(T (W x54 x00 x00 x00 x48 x00 x00 x00)
(T (W x50 x00 x00 x00 x44 x00 x00 x00)
(L (W x00 x00 x00 x00 x00 x00 x00 x00)) E)
(T (W x30 x32 x5f x43 x4c x45 x41 x52)
(L (W x62 x61 xff xff x74 x00 x00 x00)) E)))))
(T (W x00 x00 x00 x00 x00 x00 x00 x00)
(T (W x54 x00 x00 x00 x48 x00 x00 x00)
(T (W x68 x00 x00 x00 x5c x00 x00 x00)
(T (W x34 x96 xfa xff x00 x01 x01 x01)
(T (W xff xff xff xff xff xff xff xff)
(L (W x12 x00 x00 x00 x46 x53 x59 x53))
(L (W x00 x00 x00 x00 x00 x00 x00 x00)))
(T (W xff xff xff xff xff xff xff xff)
(L (W xff xff xff xff xff xff xff xff)) E))
(T (W x68 x00 x00 x00 x5c x00 x00 x00)
(T (W x34 x16 xfc xff x00 x01 x01 x01)
(L (W x00 x00 x80 xbf x00 x00 x80 xbf)) E)
(T (W xff xff xff xff xff xff xff xff)
(L (W x00 x00 x00 x00 x22 x1a xff xff)) E)))
(T (W xff xff xff xff xff xff xff xff)
(T (W xca xe5 xfd xff x00 x00 x01 x01)
(T (W xb0 x00 x00 x00 x64 x00 x00 x00)
(L (W x00 x00 x80 xbf x00 x00 x80 xbf))
(L (W xff xff xff xff xa0 x00 x00 x00)))
(T (W xff xff xff xff xff xff xff xff)
(L (W x00 x00 x80 xbf x00 x00 x80 xbf)) E))
(T (W xff xff xff xff xbc x00 x00 x00)
(T (W x00 x00 x80 x3f x00 x00 x80 x3f)
(L (W x08 x00 x00 x00 x28 x08 x00 x00)) E)
(T (W xff xff xff xff xff xff xff xff)
(L (W x45 x26 x22 x84 xe4 x9c xf2 xcb)) E))))
(T (W x00 x00 x80 x3f x00 x00 x80 x3f)
(T (W xa1 x01 x00 x00 xff xff xff xff)
(T (W x00 x00 x00 x00 x00 x00 x00 x00)
(T (W x61 x72 x6c x69 x6b x65 x5f x6c)
(L (W x62 xb1 xfd xff x74 x00 x00 x00))
(L (W x00 x00 x80 xbf x00 x00 x80 xbf)))
(T (W x00 x00 x00 x00 x00 x00 x00 x00)
(L (W x00 x00 x00 x00 x92 xb8 xfe xff)) E))
(T (W x01 x00 x00 x00 x21 x00 x00 x00)
(T (W x6b x65 x5f x77 x61 x72 x6c x69)
(L (W x18 x00 x00 x00 x0c x00 x00 x00)) E)
(T (W x00 x00 x00 x00 x00 x00 x00 x00)
(L (W x18 x00 x00 x00 x0c x00 x00 x00)) E)))
(T (W xff xff xff xff xff xff xff xff)
(T (W x45 x26 x22 x84 xe4 x9c xf2 xcb)
(T (W x00 x00 x00 x00 x00 x00 x00 x00)
(L (W x5c x00 x00 x00 xff xff xff xff))
(L (W x00 x00 x00 x00 x92 xf8 xff xff)))
(T (W x45 x26 x22 x84 xe4 x9c xf2 xcb)
(L (W x45 x26 x22 x84 xe4 x9c xf2 xcb)) E))
(T (W xff xff xff xff xff xff xff xff)
(T (W x00 x00 x00 x00 x00 x00 x00 x00)
(L (W x00 x00 x80 xbf x00 x00 x80 xbf)) E)
(T (W x00 x00 x00 x00 x00 x00 x00 x00)
(L (W xff xff xff xff xff xff xff xff)) E))))))))
(T (W x00 x00 x01 x01 xc9 x00 x00 x00)
(T (W x00 x00 x80 x3f x00 x00 x80 x3f)
(T (W x00 x00 x00 x00 x52 x25 xfd xff)
(T (W x00 x00 x80 x3f x00 x00 x80 x3f)
(T (W x45 x26 x22 x84 xe4 x9c xf2 xcb)
(T (W x00 x00 x00 x00 x00 x00 x00 x00)
(T (W x54 x00 x00 x00 x48 x00 x00 x00)
(T (W xff xff xff xff xff xff xff xff)
(L (W xff xff xff xff xff xff xff xff))
(L (W xff xff xff xff xb0 x00 x00 x00)))
(T (W xb2 x01 x00 x00 xff xff xff xff)
(L (W x49 xa1 x68 x4a xeb x5f xdd x3d)) E))
(T (W x00 x00 x00 x00 x00 x00 x00 x00)
(T (W x00 x00 x00 x00 x04 x00 x00 x00)
(L (W xff xff xff xff xff xff xff xff))
(L (W x1c x00 x20 x00 x24 x00 x28 x00)))
(T (W x4c x00 x00 x00 x50 x00 x54 x00)
(L (W x00 x00 x80 xbf x00 x00 x80 xbf)) E)))
(T (W xff xff xff xff xff xff xff xff)
(T (W xff xff xff xff xff xff xff xff)
(T (W xff xff xff xff x01 x00 x00 x00)
(L (W xff xff xff xff xff xff xff xff))
(L (W x45 x44 x00 x00 x00 x00 x00 x00)))
(T (W xff xff xff xff xff xff xff xff)
(L (W xff xff xff xff xff xff xff xff)) E))
(T (W x00 x00 x80 x3f x00 x00 x80 x3f)
(T (W x00 x00 x00 x00 x00 x00 x00 x00)
(L (W x00 x00 x80 xbf x00 x00 x80 xbf)) E)
(T (W x00 x00 x00 x00 x00 x00 x00 x00)
(L (W xff xff xff xff xff xff xff xff)) E))))
(T (W x00 x00 x01 x01 xc2 x02 x00 x00)
(T (W x00 x00 x80 x3f x00 x00 x80 x3f)
(T (W x00 x00 x00 x00 x00 x00 x00 x00)
(T (W xff xff xff xff x03 x00 x00 x00)
(L (W xc9 x00 x00 x00 xff xff xff xff))
(L (W x00 x00 x00 x00 x00 x00 x00 x00)))
(T (W x50 x00 x00 x00 x44 x00 x00 x00)
(L (W x12 x99 xfe xff x78 x00 x00 x00)) E))
(T (W xff xff xff xff xff xff xff xff)
(T (W x00 x00 x80 x3f x00 x00 x80 x3f)
(L (W x00 x00 x00 x00 x00 x00 x00 x00)) E)
(T (W x00 x00 x00 x00 x00 x00 x00 x00)
(L (W xff xff xff xff xff xff xff xff)) E)))
(T (W x34 x5c xfa xff x00 x01 x01 x01)
(T (W xb8 x00 x00 x00 xac x00 x00 x00)
(T (W x34 xdc xfb xff x00 x01 x01 x01)
(L (W x00 x00 x00 x00 x12 x00 x00 x00))
(L (W x00 x00 x80 xbf x00 x00 x80 xbf)))
(T (W x00 x00 x00 x00 xa4 xda xfc xff)
(L (W xb9 x86 xa7 x28 xbf x4a x53 x6a)) E))
(T (W xff xff xff xff xff xff xff xff)
(T (W x00 x00 x00 x00 x00 x00 x00 x00)
(L (W xff xff xff xff xff xff xff xff)) E)
(T (W xc4 x00 x00 x00 x02 x00 x00 x00)
(L (W x00 x00 x00 x00 x00 x00 x00 x00)) E)))))
(T (W x00 x00 x80 x3f x00 x00 x80 x3f)
(T (W xff xff xff xff xff xff xff xff)
(T (W x4a x1a xfd xff xc3 x01 x00 x00)
(T (W x45 x26 x22 x84 xe4 x9c xf2 xcb)
(T (W x00 x00 x00 x00 x00 x00 x00 x00)
(L (W xff xff xff xff xff xff xff xff))
(L (W xff xff xff xff xff xff xff xff)))
(T (W xff xff xff xff x03 x00 x00 x00)
(L (W x00 x00 x80 xbf x00 x00 x80 xbf)) E))
(T (W xff xff xff xff xff xff xff xff)
(T (W x00 x00 x00 x00 x00 x00 x00 x00)
(L (W x00 x00 x01 x01 x5d x00 x00 x00)) E)
(T (W x18 x00 x00 x00 x0c x00 x00 x00)
(L (W x45 x26 x22 x84 xe4 x9c xf2 xcb)) E)))
(T (W x45 x26 x22 x84 xe4 x9c xf2 xcb)
(T (W xff xff xff xff x04 x00 x00 x00)
(T (W x00 x00 x00 x00 x00 x00 x00 x00)
(L (W x00 x00 x00 x00 x42 xc8 xfd xff))
(L (W x00 x00 x80 xbf x00 x00 x80 xbf)))
(T (W x83 x34 x22 x4b xf1 xed xc6 x32)
(L (W x00 x00 x00 x00 x22 xd0 xfe xff)) E))
(T (W x00 x00 x00 x00 x00 x00 x00 x00)
(T (W x30 x32 x5f x43 x4c x45 x41 x52)
(L (W x00 x00 x00 x00 xa4 x4a xfe xff)) E)
(T (W x4f x84 x6f x8b xe8 xcb x63 xb7)
(L (W x30 x32 x5f x43 x4c x45 x41 x52)) E))))
(T (W x00 x00 x00 x00 x00 x00 x00 x00)
(T (W xb8 x00 x00 x00 xac x00 x00 x00)
(T (W x48 x03 x00 x00 x34 x02 x00 x00)
(T (W x00 x00 x80 x3f x00 x00 x80 x3f)
(L (W xff xff xff xff x15 x00 x00 x00))
(L (W x30 x32 x5f x43 x4c x45 x41 x52)))
(T (W x64 xb0 xfc xff x2a x00 x00 x00)
(L (W x12 xa9 xfe xff x78 x00 x00 x00)) E))
(T (W x00 x00 x00 x00 x00 x00 x00 x00)
(T (W x62 x27 xfc xff x74 x00 x00 x00)
(L (W x45 x26 x22 x84 xe4 x9c xf2 xcb)) E)
(T (W xff xff xff xff xff xff xff xff)
(L (W xb0 x00 x00 x00 x64 x00 x00 x00)) E)))
(T (W x18 x00 x00 x00 x0c x00 x00 x00)
(T (W xff xff xff xff x03 x00 x00 x00)
(T (W xff xff xff xff xff xff xff xff)
(L (W x34 xec xfd xff x00 x01 x01 x01))
(L (W x00 x00 x80 xbf x00 x00 x80 xbf)))
(T (W xff xff xff xff xff xff xff xff)
(L (W x00 x00 x00 x00 x00 x00 x00 x00)) E))
(T (W x00 x00 x80 x3f x00 x00 x80 x3f)
(T (W xca x7b xff xff x00 x00 x01 x01)
(L (W x45 x44 x00 x00 x00 x00 x00 x00)) E)
(T (W x54 x02 x00 x00 x38 x01 x00 x00)
(L (W x00 x00 x80 xbf x00 x00 x80 xbf)) E))))))
(T (W xbc x00 x00 x00 xb0 x00 x00 x00)
(T (W xff xff xff xff xff xff xff xff)
(T (W x00 x00 x00 x00 x00 x00 x00 x00)
(T (W x6a x2c x7d x8f xb7 x86 x46 x36)
(T (W x00 x00 x80 x3f x00 x00 x80 x3f)
(T (W x00 x00 x00 x00 x00 x00 x00 x00)
(L (W x28 x3c x00 x00 x14 x3b x00 x00))
(L (W xb4 x00 x00 x00 x1e x00 x00 x00)))
(T (W xff xff xff xff xff xff xff xff)
(L (W x00 x00 x80 xbf x00 x00 x80 xbf)) E))
(T (W x45 x26 x22 x84 xe4 x9c xf2 xcb)
(T (W x45 x44 x00 x00 x00 x00 x00 x00)
(L (W xff xff xff xff xff xff xff xff))
(L (W x50 x00 x00 x00 x00 x00 x54 x00)))
(T (W x19 x00 x00 x00 x10 x00 x00 x00)
(L (W x00 x00 x80 xbf x00 x00 x80 xbf)) E)))
(T (W xb8 x00 x00 x00 xac x00 x00 x00)
(T (W xff xff xff xff xff xff xff xff)
(T (W x00 x00 x00 x00 x00 x00 x00 x00)
(L (W x04 x00 x00 x00 x22 xc8 xfd xff))
(L (W x00 x00 x00 x00 x00 x00 x00 x00)))
(T (W xb8 x00 x00 x00 xac x00 x00 x00)
(L (W xff xff xff xff xff xff xff xff)) E))
(T (W xff xff xff xff xff xff xff xff)
(T (W x41 x90 x34 xd2 xf4 x8e x15 x42)
(L (W x18 x00 x00 x00 x0c x00 x00 x00)) E)
(T (W x00 x00 x00 x00 x00 x00 x00 x00)
(L (W x08 x00 x00 x00 x20 x08 x00 x00)) E))))
(T (W x00 x00 x00 x00 x00 x00 x00 x00)
(T (W xff xff xff xff xff xff xff xff)
(T (W x00 x00 x00 x00 x00 x00 x00 x00)
(T (W x4c x45 x41 x52 x45 x44 x00 x00)
(L (W x00 x00 x80 xbf x00 x00 x80 xbf))
(L (W x00 x00 x80 xbf x00 x00 x80 xbf)))
(T (W x4a xb2 xff xff xd1 x01 x00 x00)
(L (W x68 x00 x00 x00 x5c x00 x00 x00)) E))
(T (W xa1 x01 x00 x00 xff xff xff xff)
(T (W x12 x21 xfc xff x78 x00 x00 x00)
(L (W x00 x00 x00 x00 x00 x00 x00 x00)) E)
(T (W x34 x24 xfd xff x00 x01 x01 x01)
(L (W xff xff xff xff xff xff xff xff)) E)))
(T (W x45 x26 x22 x84 xe4 x9c xf2 xcb)
(T (W xc0 x00 x00 x00 xb4 x00 x00 x00)
(T (W x18 x00 x00 x00 x0c x00 x00 x00)
(L (W x45 x26 x22 x84 xe4 x9c xf2 xcb))
(L (W x00 x00 x80 xbf x00 x00 x80 xbf)))
(T (W x78 x01 x00 x00 x04 x00 x00 x00)
(L (W x00 x00 x00 x00 x00 x00 x00 x00)) E))
(T (W x00 x00 x00 x00 x00 x00 x00 x00)
(T (W x45 x26 x22 x84 xe4 x9c xf2 xcb)
(L (W xff xff xff xff xff xff xff xff)) E)
(T (W xff xff xff xff xff xff xff xff)
(L (W x00 x00 x80 xbf x00 x00 x80 xbf)) E)))))
(T (W x00 x00 x00 x00 x00 x00 x00 x00)
(T (W x00 x00 x80 x3f x00 x00 x80 x3f)
(T (W x00 x00 x00 x00 x00 x00 x00 x00)
(T (W x00 x00 x00 x00 x00 x00 x00 x00)
(T (W x00 x00 x80 x3f x00 x00 x80 x3f)
(L (W xff xff xff xff xff xff xff xff))
(L (W x00 x00 x00 x00 x42 x90 xff xff)))
(T (W x68 x00 x00 x00 x5c x00 x00 x00)
(L (W x00 x00 x80 xbf x00 x00 x80 xbf)) E))
(T (W x5f x77 x69 x6c x64 x5f x70 x6f)
(T (W x00 x00 x80 x3f x00 x00 x80 x3f)
(L (W x8f x01 x00 x00 xff xff xff xff)) E)
(T (W x00 x00 x80 xbf x00 x00 x80 xbf)
(L (W xff xff xff xff xff xff xff xff)) E)))
(T (W x68 x00 x00 x00 x5c x00 x00 x00)
(T (W x18 x00 x00 x00 x10 x00 x00 x00)
(T (W x68 x00 x00 x00 x5c x00 x00 x00)
(L (W x00 x00 x00 x00 x00 x00 x00 x00))
(L (W x00 x00 x00 x00 x00 x00 x00 x00)))
(T (W x00 x00 x80 x3f x00 x00 x80 x3f)
(L (W x00 x00 x00 x00 x00 x00 x00 x00)) E))
(T (W x62 x4f xfb xff x74 x00 x00 x00)
(T (W x00 x00 x00 x00 x00 x00 x00 x00)
(L (W x03 x00 x00 x00 xd0 x00 x00 x00)) E)
(T (W x68 x00 x00 x00 x5c x00 x00 x00)
(L (W x00 x00 x00 x00 x00 x00 x00 x00)) E))))
(T (W x00 x00 x00 x00 x00 x00 x00 x00)
(T (W xff xff xff xff xff xff xff xff)
(T (W xff xff xff xff xff xff xff xff)
(T (W x01 x00 x00 x00 x14 x00 x00 x00)
(L (W x00 x00 x80 xbf x00 x00 x80 xbf))
(L (W x00 x00 x00 x00 x00 x00 x00 x00)))
(T (W xff xff xff xff xff xff xff xff)
(L (W x00 x00 x00 x00 xa4 xb2 xfe xff)) E))
(T (W x49 xa1 x68 x4a xeb x5f xdd x3d)
(T (W xff xff xff xff xff xff xff xff)
(L (W x00 x00 x80 xbf x00 x00 x80 xbf)) E)
(T (W xff xff xff xff xff xff xff xff)
(L (W xff xff xff xff xff xff xff xff)) E)))
(T (W x00 x00 x80 x3f x00 x00 x80 x3f)
(T (W xff xff xff xff xff xff xff xff)
(T (W xff xff xff xff xff xff xff xff)
(L (W xbc x00 x00 x00 x1e x00 x00 x00))
(L (W xff xff xff xff xc8 x00 x00 x00)))
(T (W x00 x00 x00 x00 x00 x00 x00 x00)
(L (W x00 x00 x80 xbf x00 x00 x80 xbf)) E))
(T (W x24 x00 x00 x00 xb0 x00 x00 x00)
(T (W xff xff xff xff xff xff xff xff)
(L (W x00 x00 x00 x00 x00 x00 x00 x00)) E)
(T (W x45 x26 x22 x84 xe4 x9c xf2 xcb)
(L (W x12 x71 xff xff x78 x00 x00 x00)) E)))))))
(T (W x64 x00 x00 x00 xa0 x00 x00 x00)
(T (W x00 x00 x80 x3f x00 x00 x80 x3f)
(T (W x34 xa0 xf9 xff x00 x01 x01 x01)
(T (W xff xff xff xff xff xff xff xff)
(T (W xc0 x00 x00 x00 xb4 x00 x00 x00)
(T (W xff xff xff xff xff xff xff xff)
(T (W x00 x00 x80 x3f x00 x00 x80 x3f)
(L (W x00 x00 x80 xbf x00 x00 x80 xbf))
(L (W x00 x00 x00 x00 x00 x00 x00 x00)))
(T (W x45 x26 x22 x84 xe4 x9c xf2 xcb)
(L (W xff xff xff xff xff xff xff xff)) E))
(T (W x4c x45 x41 x52 x45 x44 x00 x00)
(T (W x50 x00 x00 x00 x44 x00 x00 x00)
(L (W x00 x00 x00 x00 x00 x00 x00 x00))
(L (W x00 x00 x80 xbf x00 x00 x80 xbf)))
(T (W x20 x00 x00 x00 x10 x00 x00 x00)
(L (W xff xff xff xff xff xff xff xff)) E)))
(T (W x45 x26 x22 x84 xe4 x9c xf2 xcb)
(T (W x00 x00 x80 x3f x00 x00 x80 x3f)
(T (W x18 x00 x00 x00 x0c x00 x00 x00)
(L (W x00 x00 x00 x00 x00 x00 x00 x00))
(L (W xc4 x00 x00 x00 x02 x00 x00 x00)))
(T (W x00 x00 x00 x00 x00 x00 x00 x00)
(L (W x00 x00 x00 x00 x00 x00 x00 x00)) E))
(T (W x12 x00 x00 x00 x46 x53 x59 x53)
(T (W x12 x3d xfc xff x78 x00 x00 x00)
(L (W x00 x00 x00 x00 x00 x00 x00 x00)) E)
(T (W x18 x00 x00 x00 x0c x00 x00 x00)
(L (W x00 x00 x80 xbf x00 x00 x80 xbf)) E))))
(T (W x68 x00 x00 x00 x5c x00 x00 x00)
(T (W x00 x00 x00 x00 x00 x00 x00 x00)
(T (W x00 x00 x80 x3f x00 x00 x80 x3f)
(T (W x00 x00 x80 x3f x00 x00 x80 x3f)
(L (W x50 x00 x00 x00 x44 x00 x00 x00))
(L (W xff xff xff xff xa0 x00 x00 x00)))
(T (W x00 x00 x00 x00 x00 x00 x00 x00)
(L (W x1c x00 x00 x00 x0c x00 x00 x00)) E))
(T (W x00 x00 x80 x3f x00 x00 x80 x3f)
(T (W x00 x00 x00 x00 x00 x00 x00 x00)
(L (W xff xff xff xff xc8 x00 x00 x00)) E)
(T (W x00 x00 x00 x00 x00 x00 x00 x00)
(L (W x00 x00 x00 x00 x00 x00 x00 x00)) E)))
(T (W x00 x00 x00 x00 x00 x00 x00 x00)
(T (W x00 x00 x00 x00 x00 x00 x00 x00)
(T (W x00 x00 x00 x00 x00 x00 x00 x00)
(L (W xff xff xff xff xb0 x00 x00 x00))
(L (W xff xff xff xff xff xff xff xff)))
(T (W x00 x00 x00 x00 x00 x00 x00 x00)
(L (W x18 x00 x00 x00 x10 x00 x00 x00)) E))
(T (W x00 x00 x80 x3f x00 x00 x80 x3f)
(T (W xff xff xff xff xff xff xff xff)
(L (W x6c x00 x00 x00 x60 x00 x00 x00)) E)
(T (W x45 x26 x22 x84 xe4 x9c xf2 xcb)
(L (W xff xff xff xff xff xff xff xff)) E)))))
(T (W xff xff xff xff xff xff xff xff)
(T (W x00 x00 x00 x00 x00 x00 x00 x00)
(T (W x34 x10 xfa xff x00 x01 x01 x01)
(T (W xd5 x01 x00 x00 xff xff xff xff)
(T (W xff xff xff xff xff xff xff xff)
(L (W x00 x00 x80 xbf x00 x00 x80 xbf))
(L (W x00 x00 x80 xbf x00 x00 x80 xbf)))
(T (W x00 x00 x00 x00 x00 x00 x00 x00)
(L (W x00 x00 x01 x01 x92 x01 x00 x00)) E))
(T (W x00 x00 x80 x3f x00 x00 x80 x3f)
(T (W xb0 x00 x00 x00 x64 x00 x00 x00)
(L (W x54 x00 x00 x00 x48 x00 x00 x00)) E)
(T (W x00 x00 x80 xbf x00 x00 x80 xbf)
(L (W x00 x00 x00 x00 x00 x00 x00 x00)) E)))
(T (W x00 x00 x00 x00 x00 x00 x00 x00)
(T (W x00 x00 x00 x00 x00 x00 x00 x00)
(T (W xff xff xff xff xff xff xff xff)
(L (W x00 x00 x80 xbf x00 x00 x80 xbf))
(L (W xff xff xff xff xff xff xff xff)))
(T (W xff xff xff xff xff xff xff xff)
(L (W x00 x00 x80 xbf x00 x00 x80 xbf)) E))
(T (W xa1 x01 x00 x00 xff xff xff xff)
(T (W x18 x00 x00 x00 x0c x00 x00 x00)
(L (W x00 x00 x00 x00 x00 x00 x00 x00)) E)
(T (W xff xff xff xff xff xff xff xff)
(L (W xcc x00 x00 x00 x01 x00 x00 x00)) E))))
(T (W x45 x26 x22 x84 xe4 x9c xf2 xcb)
(T (W x00 x00 x80 x3f x00 x00 x80 x3f)
(T (W x45 x26 x22 x84 xe4 x9c xf2 xcb)
(T (W x00 x00 x00 x00 x00 x00 x00 x00)
(L (W x00 x00 x00 x00 x00 x00 x00 x00))
(L (W x54 x00 x00 x00 x48 x00 x00 x00)))
(T (W x00 x00 x80 x3f x00 x00 x80 x3f)
(L (W x00 x00 x00 x00 x00 x00 x00 x00)) E))
(T (W xff xff xff xff xff xff xff xff)
(T (W x00 x00 x00 x00 x00 x00 x00 x00)
(L (W x5d x00 x00 x00 xff xff xff xff)) E)
(T (W x00 x00 x00 x00 x00 x00 x00 x00)
(L (W x00 x00 x80 xbf x00 x00 x80 xbf)) E)))
(T (W xd9 x00 x00 x00 xff xff xff xff)
(T (W x40 x00 x00 x00 x0c x00 x00 x00)
(T (W x00 x00 x00 x00 x00 x00 x00 x00)
(L (W x00 x00 x00 x00 x00 x00 x00 x00))
(L (W x00 x00 x00 x00 x00 x00 x00 x00)))
(T (W x00 x00 x00 x00 x00 x00 x00 x00)
(L (W xff xff xff xff xff xff xff xff)) E))
(T (W xff xff xff xff xff xff xff xff)
(T (W x00 x00 x80 x3f x00 x00 x80 x3f)
(L (W x03 x00 x00 x00 xd8 x00 x00 x00)) E)
(T (W x50 x00 x00 x00 x44 x00 x00 x00)
(L (W xe4 x06 x00 x00 xc8 x05 x00 x00)) E))))))
(T (W x00 x00 x00 x00 x00 x00 x00 x00)
(T (W x00 x00 x00 x00 x00 x00 x00 x00)
(T (W x00 x00 x80 x3f x00 x00 x80 x3f)
(T (W x62 x03 xfa xff x74 x00 x00 x00)
(T (W xff xff xff xff xff xff xff xff)
(T (W x50 x00 x00 x00 x44 x00 x00 x00)
(L (W x00 x00 x00 x00 x00 x00 x00 x00))
(L (W x00 x00 x80 xbf x00 x00 x80 xbf)))
(T (W x45 x26 x22 x84 xe4 x9c xf2 xcb)
(L (W xff xff xff xff xff xff xff xff)) E))
(T (W x00 x00 x80 x3f x00 x00 x80 x3f)
(T (W x45 x26 x22 x84 xe4 x9c xf2 xcb)
(L (W x00 x00 x80 xbf x00 x00 x80 xbf)) E)
(T (W xff xff xff xff xff xff xff xff)
(L (W xff xff xff xff xff xff xff xff)) E)))
(T (W x45 x26 x22 x84 xe4 x9c xf2 xcb)
(T (W x00 x00 x80 x3f x00 x00 x80 x3f)
(T (W xff xff xff xff xff xff xff xff)
(L (W x6c x00 x00 x00 x60 x00 x00 x00))
(L (W xff xff xff xff xff xff xff xff)))
(T (W x00 x00 x00 x00 x00 x00 x00 x00)
(L (W x00 x00 x80 xbf x00 x00 x80 xbf)) E))
(T (W x00 x00 x80 x3f x00 x00 x80 x3f)
(T (W x68 x00 x00 x00 x5c x00 x00 x00)
(L (W x00 x00 x00 x00 x00 x00 x00 x00)) E)
(T (W xff xff xff xff xff xff xff xff)
(L (W x18 x00 x00 x00 x10 x00 x00 x00)) E))))
(T (W x01 x00 x00 x00 x9c x00 x00 x00)
(T (W x45 x26 x22 x84 xe4 x9c xf2 xcb)
(T (W x00 x00 x80 x3f x00 x00 x80 x3f)
(T (W xff xff xff xff xff xff xff xff)
(L (W xff xff xff xff xbc x00 x00 x00))
(L (W x00 x00 x00 x00 x00 x00 x00 x00)))
(T (W x00 x00 x80 x3f x00 x00 x80 x3f)
(L (W x00 x00 x00 x00 x00 x00 x00 x00)) E))
(T (W x00 x00 x80 x3f x00 x00 x80 x3f)
(T (W xe2 x38 x56 xf6 x11 x0d xd8 x96)
(L (W xff xff xff xff xff xff xff xff)) E)
(T (W x00 x00 x00 x00 x00 x00 x00 x00)
(L (W x00 x00 x00 x00 x00 x00 x00 x00)) E)))
(T (W x11 x74 x2e xc4 x8d x7f xa4 xe8)
(T (W x00 x00 x00 x00 x00 x00 x00 x00)
(T (W x4f x84 x6f x8b xe8 xcb x63 xb7)
(L (W xff xff xff xff xd4 x00 x00 x00))
(L (W x00 x00 x00 x00 x00 x00 x00 x00)))
(T (W x6e x00 x00 x00 x25 x00 x00 x00)
(L (W x03 x00 x00 x00 xd8 x00 x00 x00)) E))
(T (W xcc x00 x00 x00 xc0 x00 x00 x00)
(T (W x00 x00 x00 x00 x00 x00 x00 x00)
(L (W x18 x00 x00 x00 x10 x00 x00 x00)) E)
(T (W x00 x00 x80 xbf x00 x00 x80 xbf)
(L (W x00 x00 x00 x00 x92 x6a xff xff)) E)))))
(T (W x00 x00 x80 x3f x00 x00 x80 x3f)
(T (W x18 x00 x00 x00 x0c x00 x00 x00)
(T (W xff xff xff xff xff xff xff xff)
(T (W x34 x00 x38 x00 x3c x00 x40 x00)
(T (W x00 x00 x00 x00 x00 x00 x00 x00)
(L (W x00 x00 x80 xbf x00 x00 x80 xbf))
(L (W x45 x26 x22 x84 xe4 x9c xf2 xcb)))
(T (W x00 x00 x00 x00 x00 x00 x00 x00)
(L (W x00 x00 x00 x00 x42 x94 xfe xff)) E))
(T (W x00 x00 x00 x00 x00 x00 x00 x00)
(T (W xff xff xff xff xff xff xff xff)
(L (W x45 x26 x22 x84 xe4 x9c xf2 xcb)) E)
(T (W x00 x00 x00 x00 x00 x00 x00 x00)
(L (W x45 x26 x22 x84 xe4 x9c xf2 xcb)) E)))
(T (W x00 x00 x00 x00 x00 x00 x00 x00)
(T (W x45 x26 x22 x84 xe4 x9c xf2 xcb)
(T (W xff xff xff xff xff xff xff xff)
(L (W x18 x00 x00 x00 x10 x00 x00 x00))
(L (W xff xff xff xff xff xff xff xff)))
(T (W x00 x00 x00 x00 x00 x00 x00 x00)
(L (W x45 x26 x22 x84 xe4 x9c xf2 xcb)) E))
(T (W x00 x00 x00 x00 x00 x00 x00 x00)
(T (W xff xff xff xff xff xff xff xff)
(L (W x00 x00 x80 xbf x00 x00 x80 xbf)) E)
(T (W x46 x53 x59 x53 x5f x4e x53 x5f)
(L (W xff xff xff xff xff xff xff xff)) E))))
(T (W x62 xf3 xf9 xff x74 x00 x00 x00)
(T (W x00 x00 x00 x00 x00 x00 x00 x00)
(T (W x00 x00 x80 x3f x00 x00 x80 x3f)
(T (W x00 x00 x00 x00 x00 x00 x00 x00)
(L (W xff xff xff xff x9c x00 x00 x00))
(L (W x68 x00 x00 x00 x5c x00 x00 x00)))
(T (W x00 x00 x80 x3f x00 x00 x80 x3f)
(L (W x00 x00 x00 x00 x00 x00 x00 x00)) E))
(T (W x6b x65 x5f x6c x76 x31 x00 x00)
(T (W x00 x00 x80 x3f x00 x00 x80 x3f)
(L (W x04 x00 x00 x00 x02 x36 xfe xff)) E)
(T (W x00 x00 x80 xbf x00 x00 x80 xbf)
(L (W x00 x00 x80 xbf x00 x00 x80 xbf)) E)))
(T (W xff xff xff xff xff xff xff xff)
(T (W x00 x00 x80 x3f x00 x00 x80 x3f)
(T (W x6c x00 x00 x00 x60 x00 x00 x00)
(L (W x00 x00 x00 x00 x00 x00 x00 x00))
(L (W x00 x00 x00 x00 x00 x00 x00 x00)))
(T (W xff xff xff xff xff xff xff xff)
(L (W x04 x00 x00 x00 x02 xf6 xfe xff)) E))
(T (W x00 x00 x00 x00 x00 x00 x00 x00)
(T (W x50 x00 x00 x00 x44 x00 x00 x00)
(L (W xff xff xff xff xff xff xff xff)) E)
(T (W x00 x00 x80 xbf x00 x00 x80 xbf)
(L (W x00 x00 x00 x00 x00 x00 x00 x00)) E)))))))))
(T (W x48 x02 x02 x00 xcc xff x01 x00)
(T (W xe8 x92 x00 x00 x64 x90 x00 x00)
(T (W x00 x00 x00 x00 x00 x00 x00 x00)
(T (W xff xff xff xff xff xff xff xff)
(T (W x45 x26 x22 x84 xe4 x9c xf2 xcb)
(T (W x6c x00 x00 x00 x60 x00 x00 x00)
(T (W xc6 x01 x00 x00 xff xff xff xff)
(T (W x45 x26 x22 x84 xe4 x9c xf2 xcb)
(T (W x18 x00 x00 x00 x0c x00 x00 x00)
(L (W x03 x00 x00 x00 xd8 x00 x00 x00))
(L (W x00 x00 x00 x00 xa4 x79 xff xff)))
(T (W xff xff xff xff xff xff xff xff)
(L (W x00 x00 x00 x00 x00 x00 x00 x00)) E))
(T (W x3c x00 x40 x00 x44 x00 x48 x00)
(T (W xff xff xff xff xff xff xff xff)
(L (W x68 x00 x00 x00 x5c x00 x00 x00))
(L (W x12 xf8 xff xff x78 x00 x00 x00)))
(T (W x1d x00 x00 x00 xac x00 x00 x00)
(L (W x49 xa1 x68 x4a xeb x5f xdd x3d)) E)))
(T (W x45 x26 x22 x84 xe4 x9c xf2 xcb)
(T (W xff xff xff xff x04 x00 x00 x00)
(T (W xff xff xff xff xff xff xff xff)
(L (W xff xff xff xff xff xff xff xff))
(L (W xff xff xff xff xff xff xff xff)))
(T (W xb8 x00 x00 x00 xac x00 x00 x00)
(L (W x45 x26 x22 x84 xe4 x9c xf2 xcb)) E))
(T (W x00 x00 x80 x3f x00 x00 x80 x3f)
(T (W xff xff xff xff xff xff xff xff)
(L (W x49 xa1 x68 x4a xeb x5f xdd x3d)) E)
(T (W xff xff xff xff xff xff xff xff)
(L (W xcc x00 x00 x00 x02 x00 x00 x00)) E))))
(T (W xff xff xff xff xff xff xff xff)
(T (W x00 x00 x00 x00 x00 x00 x00 x00)
(T (W x01 x00 x00 x00 xff xff xff xff)
(T (W x68 x00 x00 x00 x5c x00 x00 x00)
(L (W xff xff xff xff xff xff xff xff))
(L (W x29 x00 x00 x00 xff xff xff xff)))
(T (W x45 x26 x22 x84 xe4 x9c xf2 xcb)
(L (W x00 x00 x80 xbf x00 x00 x80 xbf)) E))
(T (W x68 x00 x00 x00 x5c x00 x00 x00)
(T (W x00 x00 x80 x3f x00 x00 x80 x3f)
(L (W x00 x00 x00 x00 x92 x1d xfe xff)) E)
(T (W x00 x00 x01 x01 xb3 x01 x00 x00)
(L (W x18 x00 x00 x00 x0c x00 x00 x00)) E)))
(T (W x68 x00 x00 x00 x5c x00 x00 x00)
(T (W x18 x00 x00 x00 x10 x00 x00 x00)
(T (W x68 x00 x00 x00 x5c x00 x00 x00)
(L (W x02 x00 x00 x00 x30 x01 x00 x00))
(L (W x00 x00 x00 x00 x00 x00 x00 x00)))
(T (W x00 x00 x80 x3f x00 x00 x80 x3f)
(L (W xff xff xff xff xff xff xff xff)) E))
(T (W x21 x00 x00 x00 x24 x00 x00 x00)
(T (W x00 x00 x00 x00 x00 x00 x00 x00)
(L (W x03 x00 x00 x00 xd8 x00 x00 x00)) E)
(T (W x45 x26 x22 x84 xe4 x9c xf2 xcb)
(L (W x00 x00 x00 x00 x00 x00 x00 x00)) E)))))
(T (W x00 x00 x80 x3f x00 x00 x80 x3f)
(T (W xbc x00 x00 x00 xb0 x00 x00 x00)
(T (W xff xff xff xff xff xff xff xff)
(T (W x00 x00 x00 x00 x00 x00 x00 x00)
(T (W x00 x00 x00 x00 x00 x00 x00 x00)
(L (W xff xff xff xff xac x00 x00 x00))
(L (W xff xff xff xff xa0 x00 x00 x00)))
(T (W x68 x00 x00 x00 x5c x00 x00 x00)
(L (W x45 x26 x22 x84 xe4 x9c xf2 xcb)) E))
(T (W xff xff xff xff xff xff xff xff)
(T (W x00 x00 x00 x00 x00 x00 x00 x00)
(L (W xb0 x00 x00 x00 x64 x00 x00 x00)) E)
(T (W x00 x00 x80 xbf x00 x00 x80 xbf)
(L (W x00 x00 x80 xbf x00 x00 x80 xbf)) E)))
(T (W x00 x00 x80 x3f x00 x00 x80 x3f)
(T (W x62 xc6 xfa xff x74 x00 x00 x00)
(T (W x00 x00 x00 x00 x00 x00 x00 x00)
(L (W xff xff xff xff xff xff xff xff))
(L (W x00 x00 x00 x00 x00 x00 x00 x00)))
(T (W xff xff xff xff xd4 x00 x00 x00)
(L (W xff xff xff xff xff xff xff xff)) E))
(T (W x13 x00 x00 x00 x10 x00 x00 x00)
(T (W xca x5a xff xff x00 x00 x01 x01)
(L (W x00 x00 x80 xbf x00 x00 x80 xbf)) E)
(T (W x00 x00 x00 x00 x00 x00 x00 x00)
(L (W x00 x00 x01 x01 x91 x01 x00 x00)) E))))
(T (W x00 x00 x00 x00 x00 x00 x00 x00)
(T (W x01 x00 x00 x00 x9c x00 x00 x00)
(T (W xff xff xff xff xff xff xff xff)
(T (W x00 x00 x00 x00 x00 x00 x00 x00)
(L (W xff xff xff xff xff xff xff xff))
(L (W xff xff xff xff xff xff xff xff)))
(T (W xff xff xff xff xff xff xff xff)
(L (W x00 x00 x80 xbf x00 x00 x80 xbf)) E))
(T (W xa1 x01 x00 x00 xff xff xff xff)
(T (W x00 x00 x80 x3f x00 x00 x80 x3f)
(L (W x00 x00 x00 x00 x00 x00 x00 x00)) E)
(T (W x21 x00 x00 x00 x24 x00 x00 x00)
(L (W x34 x2b xff xff x00 x01 x01 x01)) E)))
(T (W x00 x00 x80 x3f x00 x00 x80 x3f)
(T (W x50 x00 x00 x00 x44 x00 x00 x00)
(T (W x00 x00 x00 x00 xa4 xe9 xfb xff)
(L (W x00 x00 x80 xbf x00 x00 x80 xbf))
(L (W x00 x00 x80 xbf x00 x00 x80 xbf)))
(T (W x00 x00 x00 x00 xa4 xe9 xfc xff)
(L (W x30 x32 x5f x43 x4c x45 x41 x52)) E))
(T (W x00 x00 x00 x00 x00 x00 x00 x00)
(T (W xff xff xff xff xff xff xff xff)
(L (W xff xff xff xff xff xff xff xff)) E)
(T (W xff xff xff xff xff xff xff xff)
(L (W x45 x26 x22 x84 xe4 x9c xf2 xcb)) E))))))
(T (W x45 x26 x22 x84 xe4 x9c xf2 xcb)
(T (W xff xff xff xff xff xff xff xff)
(T (W x00 x00 x00 x00 x00 x00 x00 x00)
(T (W xff xff xff xff xff xff xff xff)
(T (W x00 x00 x00 x00 x00 x00 x00 x00)
(T (W x00 x00 x00 x00 x92 x85 xfb xff)
(L (W xff xff xff xff xff xff xff xff))
(L (W x34 x83 xff xff x00 x01 x01 x01)))
(T (W xff xff xff xff x03 x00 x00 x00)
(L (W x00 x00 x00 x00 x00 x00 x00 x00)) E))
(T (W x00 x00 x80 x3f x00 x00 x80 x3f)
(T (W x4a x00 x00 x00 xff xff xff xff)
(L (W xff xff xff xff xff xff xff xff))
(L (W x18 x00 x1c x00 x20 x00 x24 x00)))
(T (W xff xff xff xff xff xff xff xff)
(L (W x00 x00 x80 xbf x00 x00 x80 xbf)) E)))
(T (W x68 x00 x00 x00 x5c x00 x00 x00)
(T (W x18 x00 x00 x00 x0c x00 x00 x00)
(T (W x00 x00 x00 x00 x00 x00 x00 x00)
(L (W xff xff xff xff x9c x00 x00 x00))
(L (W x00 x00 x00 x00 x00 x00 x00 x00)))
(T (W x01 x00 x00 x00 x9c x00 x00 x00)
(L (W x19 x00 x00 x00 x1c x00 x00 x00)) E))
(T (W x62 x3e xfb xff x74 x00 x00 x00)
(T (W xff xff xff xff xff xff xff xff)
(L (W x00 x00 x80 xbf x00 x00 x80 xbf)) E)
(T (W x45 x44 x00 x00 x00 x00 x00 x00)
(L (W xff xff xff xff xff xff xff xff)) E))))
(T (W xff xff xff xff x01 x00 x00 x00)
(T (W x45 x26 x22 x84 xe4 x9c xf2 xcb)
(T (W x9c x00 x00 x00 xff xff xff xff)
(T (W x00 x00 x01 x01 x9c x01 x00 x00)
(L (W x00 x00 x00 x00 x20 x00 x24 x00))
(L (W x06 x00 x07 x00 x00 x00 x00 x00)))
(T (W xff xff xff xff xff xff xff xff)
(L (W x00 x00 x80 xbf x00 x00 x80 xbf)) E))
(T (W xff xff xff xff xff xff xff xff)
(T (W x45 x26 x22 x84 xe4 x9c xf2 xcb)
(L (W x00 x00 x00 x00 x00 x00 x00 x00)) E)
(T (W x00 x00 x80 xbf x00 x00 x80 xbf)
(L (W xff xff xff xff xff xff xff xff)) E)))
(T (W x62 x5e xfa xff x74 x00 x00 x00)
(T (W x3e x00 x00 x00 x9c x00 x00 x00)
(T (W x50 x00 x00 x00 x44 x00 x00 x00)
(L (W x00 x00 x00 x00 x12 x00 x00 x00))
(L (W x00 x00 x00 x00 x00 x00 x00 x00)))
(T (W x62 xde xfc xff x74 x00 x00 x00)
(L (W x08 x00 x00 x00 x20 x08 x00 x00)) E))
(T (W x9c x03 x00 x00 x6c x02 x00 x00)
(T (W x00 x00 x00 x00 x00 x00 x00 x00)
(L (W xff xff xff xff xff xff xff xff)) E)
(T (W x03 x00 x00 x00 xd8 x00 x00 x00)
(L (W x00 x00 x00 x00 x00 x00 x00 x00)) E)))))
(T (W xff xff xff xff x12 x00 x00 x00)
(T (W x45 x26 x22 x84 xe4 x9c xf2 xcb)
(T (W x00 x00 x00 x00 x00 x00 x00 x00)
(T (W x00 x00 x00 x00 x00 x00 x00 x00)
(T (W x00 x00 x80 x3f x00 x00 x80 x3f)
(L (W xff xff xff xff xff xff xff xff))
(L (W xff xff xff xff xff xff xff xff)))
(T (W x50 x00 x00 x00 x44 x00 x00 x00)
(L (W x00 x00 x80 xbf x00 x00 x80 xbf)) E))
(T (W xff xff xff xff xff xff xff xff)
(T (W x00 x00 x00 x00 x00 x00 x00 x00)
(L (W xff xff xff xff xff xff xff xff)) E)
(T (W x00 x00 x00 x00 x00 x00 x00 x00)
(L (W x00 x00 x80 xbf x00 x00 x80 xbf)) E)))
(T (W x50 x00 x00 x00 x44 x00 x00 x00)
(T (W x45 x26 x22 x84 xe4 x9c xf2 xcb)
(T (W x00 x00 x80 x3f x00 x00 x80 x3f)
(L (W x00 x00 x00 x00 x00 x00 x00 x00))
(L (W x00 x00 x00 x00 x12 x00 x00 x00)))
(T (W x00 x00 x00 x00 x00 x00 x00 x00)
(L (W x00 x00 x00 x00 x92 xd5 xfe xff)) E))
(T (W x00 x00 x80 x3f x00 x00 x80 x3f)
(T (W x46 x53 x59 x53 x5f x4e x53 x5f)
(L (W x18 x00 x00 x00 x10 x00 x00 x00)) E)
(T (W x00 x00 x80 xbf x00 x00 x80 xbf)
(L (W x45 x44 x00 x00 x00 x00 x00 x00)) E))))
(T (W x35 x0e x95 xcc x06 x7a x9e xf5)
(T (W x0a x00 x00 x00 x3e x00 x00 x00)
(T (W xff xff xff xff xff xff xff xff)
(T (W x00 x00 x80 x3f x00 x00 x80 x3f)
(L (W x00 x00 x80 xbf x00 x00 x80 xbf))
(L (W x00 x00 x00 x00 x00 x00 x00 x00)))
(T (W xff xff xff xff xff xff xff xff)
(L (W x00 x00 x80 xbf x00 x00 x80 xbf)) E))
(T (W x00 x00 x00 x00 x00 x00 x00 x00)
(T (W x62 x2e xfc xff x74 x00 x00 x00)
(L (W x45 x26 x22 x84 xe4 x9c xf2 xcb)) E)
(T (W xb0 x00 x00 x00 x64 x00 x00 x00)
(L (W x21 x00 x00 x00 x24 x00 x00 x00)) E)))
(T (W x00 x00 x80 x3f x00 x00 x80 x3f)
(T (W x6c x00 x00 x00 x60 x00 x00 x00)
(T (W xff xff xff xff x03 x00 x00 x00)
(L (W x34 xf3 xfd xff x00 x01 x01 x01))
(L (W x45 x26 x22 x84 xe4 x9c xf2 xcb)))
(T (W x00 x00 x00 x00 x00 x00 x00 x00)
(L (W x45 x26 x22 x84 xe4 x9c xf2 xcb)) E))
(T (W x00 x00 x80 x3f x00 x00 x80 x3f)
(T (W xff xff xff xff xff xff xff xff)
(L (W x46 x53 x59 x53 x5f x4e x53 x5f)) E)
(T (W x24 x0b x00 x00 xf8 x09 x00 x00)
(L (W x00 x00 x80 xbf x00 x00 x80 xbf)) E)))))))
(T (W x34 x87 xf9 xff x00 x01 x01 x01)
(T (W x45 x26 x22 x84 xe4 x9c xf2 xcb)
(T (W x34 x25 x00 x00 x20 x24 x00 x00)
(T (W xff xff xff xff xff xff xff xff)
(T (W x00 x00 x80 x3f x00 x00 x80 x3f)
(T (W xff xff xff xff xff xff xff xff)
(T (W x00 x00 x00 x00 x00 x00 x00 x00)
(L (W x00 x00 x00 x00 x00 x00 x00 x00))
(L (W x00 x00 x00 x00 x42 x7b xff xff)))
(T (W x45 x26 x22 x84 xe4 x9c xf2 xcb)
(L (W x18 x00 x00 x00 x10 x00 x00 x00)) E))
(T (W xff xff xff xff x01 x00 x00 x00)
(T (W x00 x00 x80 x3f x00 x00 x80 x3f)
(L (W x00 x00 x00 x00 x12 x00 x00 x00))
(L (W x06 x00 x07 x00 x00 x00 x00 x00)))
(T (W xc4 x00 x00 x00 x64 x00 x00 x00)
(L (W xc4 x00 x00 x00 x01 x00 x00 x00)) E)))
(T (W x00 x00 x00 x00 x00 x00 x00 x00)
(T (W x00 x00 x80 x3f x00 x00 x80 x3f)
(T (W x00 x00 x80 x3f x00 x00 x80 x3f)
(L (W x00 x00 x00 x00 x00 x00 x00 x00))
(L (W x45 x26 x22 x84 xe4 x9c xf2 xcb)))
(T (W x00 x00 x00 x00 x00 x00 x00 x00)
(L (W x00 x00 x00 x00 x12 x00 x00 x00)) E))
(T (W x61 x72 x6c x69 x6b x65 x5f x6c)
(T (W x45 x26 x22 x84 xe4 x9c xf2 xcb)
(L (W xff xff xff xff xff xff xff xff)) E)
(T (W x00 x00 x80 xbf x00 x00 x80 xbf)
(L (W x00 x00 x80 xbf x00 x00 x80 xbf)) E))))
(T (W x00 x00 x80 x3f x00 x00 x80 x3f)
(T (W x77 xd7 x0a x74 xf1 x58 x4a x0e)
(T (W x45 x26 x22 x84 xe4 x9c xf2 xcb)
(T (W x00 x00 x00 x00 x00 x00 x00 x00)
(L (W x00 x00 x80 xbf x00 x00 x80 xbf))
(L (W x12 x9c xff xff x78 x00 x00 x00)))
(T (W x00 x00 x00 x00 x00 x00 x00 x00)
(L (W xff xff xff xff xff xff xff xff)) E))
(T (W x00 x00 x00 x00 x00 x00 x00 x00)
(T (W xff xff xff xff xff xff xff xff)
(L (W x45 x26 x22 x84 xe4 x9c xf2 xcb)) E)
(T (W x7d x16 xd2 x4f x49 xca x03 x36)
(L (W x00 x00 x00 x00 x00 x00 x00 x00)) E)))
(T (W x3b x01 x00 x00 xff xff xff xff)
(T (W x18 x00 x00 x00 x0c x00 x00 x00)
(T (W x46 x53 x59 x53 x5f x4e x53 x5f)
(L (W x00 x00 x00 x00 xa4 xdd xfd xff))
(L (W xff xff xff xff xff xff xff xff)))
(T (W x00 x00 x00 x00 x00 x00 x00 x00)
(L (W x54 x00 x00 x00 x48 x00 x00 x00)) E))
(T (W x00 x00 x80 x3f x00 x00 x80 x3f)
(T (W xff xff xff xff xff xff xff xff)
(L (W x00 x00 x00 x00 x00 x00 x00 x00)) E)
(T (W x00 x00 x00 x00 x00 x00 x00 x00)
(L (W xff xff xff xff xff xff xff xff)) E)))))
(T (W x01 x00 x00 x00 xa0 x00 x00 x00)
(T (W x00 x00 x01 x01 xc9 x00 x00 x00)
(T (W x00 x00 x80 x3f x00 x00 x80 x3f)
(T (W xff xff xff xff x03 x00 x00 x00)
(T (W x68 x00 x00 x00 x5c x00 x00 x00)
(L (W x00 x00 x00 x00 x00 x00 x00 x00))
(L (W x00 x00 x00 x00 x00 x00 x00 x00)))
(T (W x00 x00 x00 x00 x00 x00 x00 x00)
(L (W xff xff xff xff xff xff xff xff)) E))
(T (W x00 x00 x80 x3f x00 x00 x80 x3f)
(T (W x34 x0f xfc xff x00 x01 x01 x01)
(L (W x00 x00 x80 xbf x00 x00 x80 xbf)) E)
(T (W x00 x00 x00 x00 x00 x00 x00 x00)
(L (W xff xff xff xff xff xff xff xff)) E)))
(T (W x00 x00 x00 x00 x00 x00 x00 x00)
(T (W x00 x00 x00 x00 x00 x00 x00 x00)
(T (W xff xff xff xff xff xff xff xff)
(L (W x00 x00 x80 xbf x00 x00 x80 xbf))
(L (W xb4 x00 x00 x00 x46 x00 x00 x00)))
(T (W x00 x00 x80 x3f x00 x00 x80 x3f)
(L (W x00 x00 x80 xbf x00 x00 x80 xbf)) E))
(T (W xb0 x00 x00 x00 x64 x00 x00 x00)
(T (W x00 x00 x00 x00 xa4 x4d xfc xff)
(L (W x00 x00 x00 x00 x00 x00 x00 x00)) E)
(T (W xff xff xff xff xb8 x00 x00 x00)
(L (W x45 x26 x22 x84 xe4 x9c xf2 xcb)) E))))
(T (W x00 x00 x80 x3f x00 x00 x80 x3f)
(T (W x00 x00 x00 x00 x00 x00 x00 x00)
(T (W x45 x26 x22 x84 xe4 x9c xf2 xcb)
(T (W xff xff xff xff xff xff xff xff)
(L (W x00 x00 x00 x00 x00 x00 x00 x00))
(L (W x00 x00 x80 xbf x00 x00 x80 xbf)))
(T (W x00 x00 x80 x3f x00 x00 x80 x3f)
(L (W x45 x44 x00 x00 x00 x00 x00 x00)) E))
(T (W x24 x00 x00 x00 xb0 x00 x00 x00)
(T (W x18 x00 x00 x00 x10 x00 x00 x00)
(L (W xff xff xff xff xff xff xff xff)) E)
(T (W x00 x00 x00 x00 x00 x00 x00 x00)
(L (W x00 x00 x00 x00 x00 x00 x00 x00)) E)))
(T (W xff xff xff xff xff xff xff xff)
(T (W xff xff xff xff xff xff xff xff)
(T (W x00 x00 x00 x00 x12 x00 x00 x00)
(L (W x2f x00 x00 x00 xff xff xff xff))
(L (W x5c x00 x00 x00 xff xff xff xff)))
(T (W x5f x4e x53 x5f x30 x32 x5f x43)
(L (W xff xff xff xff xff xff xff xff)) E))
(T (W xff xff xff xff x03 x00 x00 x00)
(T (W x45 x26 x22 x84 xe4 x9c xf2 xcb)
(L (W x18 x00 x00 x00 x10 x00 x00 x00)) E)
(T (W x00 x00 x80 xbf x00 x00 x80 xbf)
(L (W xff xff xff xff xff xff xff xff)) E))))))
(T (W xff xff xff xff x06 x00 x00 x00)
(T (W x00 x00 x00 x00 x00 x00 x00 x00)
(T (W x00 x00 x80 x3f x00 x00 x80 x3f)
(T (W x54 x00 x00 x00 x48 x00 x00 x00)
(T (W xff xff xff xff xff xff xff xff)
(T (W x00 x00 x80 x3f x00 x00 x80 x3f)
(L (W x5f x4e x53 x5f x30 x32 x5f x43))
(L (W x00 x00 x00 x00 x00 x00 x00 x00)))
(T (W x00 x00 x00 x00 x00 x00 x00 x00)
(L (W xff xff xff xff xff xff xff xff)) E))
(T (W x00 x00 x00 x00 x00 x00 x00 x00)
(T (W x62 x02 xfc xff x74 x00 x00 x00)
(L (W x00 x00 x00 x00 x00 x00 x00 x00)) E)
(T (W xff xff xff xff xff xff xff xff)
(L (W xff xff xff xff xff xff xff xff)) E)))
(T (W x00 x00 x00 x00 x00 x00 x00 x00)
(T (W x00 x00 x00 x00 x00 x00 x00 x00)
(T (W xff xff xff xff x03 x00 x00 x00)
(L (W x00 x00 x80 xbf x00 x00 x80 xbf))
(L (W x18 x00 x00 x00 x0c x00 x00 x00)))
(T (W xbc xd4 xfc xff x3c x00 x00 x00)
(L (W x45 x26 x22 x84 xe4 x9c xf2 xcb)) E))
(T (W x00 x00 x80 x3f x00 x00 x80 x3f)
(T (W x00 x00 x80 x3f x00 x00 x80 x3f)
(L (W x00 x00 x00 x00 x42 x43 xfe xff)) E)
(T (W xff xff xff xff xb0 x00 x00 x00)
(L (W x54 x00 x00 x00 x48 x00 x00 x00)) E))))
(T (W x00 x00 x80 x3f x00 x00 x80 x3f)
(T (W x00 x00 x00 x00 x00 x00 x00 x00)
(T (W x00 x00 x00 x00 x00 x00 x00 x00)
(T (W x50 x00 x00 x00 x44 x00 x00 x00)
(L (W xff xff xff xff x9c x00 x00 x00))
(L (W x46 x53 x59 x53 x5f x4e x53 x5f)))
(T (W x45 x26 x22 x84 xe4 x9c xf2 xcb)
(L (W x00 x00 x00 x00 x00 x00 x00 x00)) E))
(T (W x00 x00 x80 x3f x00 x00 x80 x3f)
(T (W xff xff xff xff xff xff xff xff)
(L (W x62 x22 xfe xff x74 x00 x00 x00)) E)
(T (W x00 x00 x00 x00 x00 x00 x00 x00)
(L (W x00 x00 x00 x00 x12 x00 x00 x00)) E)))
(T (W xff xff xff xff xff xff xff xff)
(T (W xca xf6 xfd xff x00 x00 x01 x01)
(T (W x64 xeb xfb xff x15 x00 x00 x00)
(L (W x45 x26 x22 x84 xe4 x9c xf2 xcb))
(L (W xff xff xff xff xff xff xff xff)))
(T (W xff xff xff xff xff xff xff xff)
(L (W x18 x00 x00 x00 x10 x00 x00 x00)) E))
(T (W x18 x00 x00 x00 x10 x00 x00 x00)
(T (W x00 x00 x00 x00 x00 x00 x00 x00)
(L (W x54 x00 x00 x00 x48 x00 x00 x00)) E)
(T (W x00 x00 x00 x00 x00 x00 x00 x00)
(L (W xff xff xff xff xff xff xff xff)) E)))))
(T (W x00 x00 x00 x00 x00 x00 x00 x00)
(T (W x12 xd4 xf9 xff x78 x00 x00 x00)
(T (W xb8 x00 x00 x00 xac x00 x00 x00)
(T (W xff xff xff xff xff xff xff xff)
(T (W xff xff xff xff xff xff xff xff)
(L (W x4f x84 x6f x8b xe8 xcb x63 xb7))
(L (W x00 x00 x80 xbf x00 x00 x80 xbf)))
(T (W xd5 x01 x00 x00 xff xff xff xff)
(L (W xff xff xff xff xff xff xff xff)) E))
(T (W x00 x00 x00 x00 x00 x00 x00 x00)
(T (W xb0 x00 x00 x00 x64 x00 x00 x00)
(L (W x54 x00 x00 x00 x48 x00 x00 x00)) E)
(T (W x00 x00 x01 x01 xcf x01 x00 x00)
(L (W x00 x00 x00 x00 x12 x00 x00 x00)) E)))
(T (W x23 xce x59 x46 x48 x97 xd6 x99)
(T (W x00 x00 x00 x00 x00 x00 x00 x00)
(T (W xff xff xff xff xff xff xff xff)
(L (W x54 x00 x00 x00 x48 x00 x00 x00))
(L (W xff xff xff xff xff xff xff xff)))
(T (W x00 x00 x00 x00 x00 x00 x00 x00)
(L (W x00 x00 x80 xbf x00 x00 x80 xbf)) E))
(T (W x00 x00 x00 x00 x06 x00 x00 x00)
(T (W x01 x00 x00 x00 x19 x00 x00 x00)
(L (W x00 x00 x00 x00 x00 x00 x00 x00)) E)
(T (W x00 x00 x00 x00 x02 x55 xfd xff)
(L (W xc4 x00 x00 x00 x02 x00 x00 x00)) E))))
(T (W x00 x00 x80 x3f x00 x00 x80 x3f)
(T (W x00 x00 x00 x00 x00 x00 x00 x00)
(T (W x45 x26 x22 x84 xe4 x9c xf2 xcb)
(T (W x12 x00 x00 x00 x46 x53 x59 x53)
(L (W x45 x26 x22 x84 xe4 x9c xf2 xcb))
(L (W x00 x00 x80 xbf x00 x00 x80 xbf)))
(T (W x00 x00 x00 x00 x00 x00 x00 x00)
(L (W x00 x00 x00 x00 x00 x00 x00 x00)) E))
(T (W xff xff xff xff xff xff xff xff)
(T (W x00 x00 x80 x3f x00 x00 x80 x3f)
(L (W xff xff xff xff xff xff xff xff)) E)
(T (W x49 xa1 x68 x4a xeb x5f xdd x3d)
(L (W x4f x84 x6f x8b xe8 xcb x63 xb7)) E)))
(T (W xff xff xff xff xff xff xff xff)
(T (W x00 x00 x80 x3f x00 x00 x80 x3f)
(T (W x00 x00 x00 x00 x00 x00 x00 x00)
(L (W x00 x00 x00 x00 x00 x00 x00 x00))
(L (W x00 x00 x00 x00 x00 x00 x00 x00)))
(T (W xc0 x00 x00 x00 xb4 x00 x00 x00)
(L (W xff xff xff xff xbc x00 x00 x00)) E))
(T (W x00 x00 x00 x00 x42 x73 xfb xff)
(T (W x00 x00 x00 x00 x00 x00 x00 x00)
(L (W x03 x00 x00 x00 xd8 x00 x00 x00)) E)
(T (W x49 xa1 x68 x4a xeb x5f xdd x3d)
(L (W xff xff xff xff xff xff xff xff)) E))))))))
(T (W x00 x00 x00 x00 x00 x00 x00 x00)
(T (W x00 x00 x80 x3f x00 x00 x80 x3f)
(T (W x00 x00 x00 x00 x00 x00 x00 x00)
(T (W x00 x00 x80 x3f x00 x00 x80 x3f)
(T (W x64 x00 x00 x00 xa0 x00 x00 x00)
(T (W x00 x00 x00 x00 x00 x00 x00 x00)
(T (W x62 x78 xfa xff x74 x00 x00 x00)
(T (W xa1 x01 x00 x00 xff xff xff xff)
(L (W x00 x00 x01 x01 x18 x01 x00 x00))
(L (W xff xff xff xff xff xff xff xff)))
(T (W x00 x00 x00 x00 x00 x00 x00 x00)
(L (W x00 x00 x80 xbf x00 x00 x80 xbf)) E))
(T (W x54 x00 x00 x00 x48 x00 x00 x00)
(T (W x00 x00 x00 x00 x00 x00 x00 x00)
(L (W xff xff xff xff xff xff xff xff))
(L (W x00 x00 x80 xbf x00 x00 x80 xbf)))
(T (W x00 x00 x00 x00 x00 x00 x00 x00)
(L (W x54 x00 x00 x00 x48 x00 x00 x00)) E)))
(T (W xff xff xff xff xff xff xff xff)
(T (W x00 x00 x00 x00 x72 xc9 xff xff)
(T (W x00 x00 x00 x00 x00 x00 x00 x00)
(L (W xff xff xff xff x05 x00 x00 x00))
(L (W x00 x00 x00 x00 x00 x00 x00 x00)))
(T (W xff xff xff xff xff xff xff xff)
(L (W x2a x00 x00 x00 xff xff xff xff)) E))
(T (W x01 x00 x00 x00 x21 x00 x00 x00)
(T (W x00 x00 x00 x00 x00 x00 x00 x00)
(L (W x19 x00 x00 x00 x1c x00 x00 x00)) E)
(T (W x00 x00 x00 x00 x00 x00 x00 x00)
(L (W xed xfe xaf x28 xbf x5f x5d x6a)) E))))
(T (W x00 x00 x00 x00 x00 x00 x00 x00)
(T (W x12 x1a xfa xff x78 x00 x00 x00)
(T (W x00 x00 x00 x00 x00 x00 x00 x00)
(T (W xff xff xff xff xff xff xff xff)
(L (W x4c x45 x41 x52 x45 x44 x00 x00))
(L (W x00 x00 x00 x00 x00 x00 x00 x00)))
(T (W x68 x00 x00 x00 x5c x00 x00 x00)
(L (W x18 x00 x00 x00 x1b x00 x00 x00)) E))
(T (W xff xff xff xff xff xff xff xff)
(T (W x6c x00 x00 x00 x60 x00 x00 x00)
(L (W x00 x00 x00 x00 x00 x00 x00 x00)) E)
(T (W x45 x26 x22 x84 xe4 x9c xf2 xcb)
(L (W xff xff xff xff xff xff xff xff)) E)))
(T (W x45 x26 x22 x84 xe4 x9c xf2 xcb)
(T (W xff xff xff xff xff xff xff xff)
(T (W xb0 x00 x00 x00 x64 x00 x00 x00)
(L (W x00 x00 x00 x00 x00 x00 x00 x00))
(L (W x45 x26 x22 x84 xe4 x9c xf2 xcb)))
(T (W xff xff xff xff xff xff xff xff)
(L (W x00 x00 x00 x00 x00 x00 x00 x00)) E))
(T (W xff xff xff xff xff xff xff xff)
(T (W x45 x26 x22 x84 xe4 x9c xf2 xcb)
(L (W x00 x00 x01 x01 x91 x01 x00 x00)) E)
(T (W xff xff xff xff xff xff xff xff)
(L (W x00 x00 x80 xbf x00 x00 x80 xbf)) E)))))
(T (W x6c x00 x00 x00 x60 x00 x00 x00)
(T (W xff xff xff xff xff xff xff xff)
(T (W x00 x00 x00 x00 x00 x00 x00 x00)
(T (W x00 x00 x80 x3f x00 x00 x80 x3f)
(T (W x45 x26 x22 x84 xe4 x9c xf2 xcb)
(L (W x14 x00 x00 x00 xff xff xff xff))
(L (W xff xff xff xff xff xff xff xff)))
(T (W xff xff xff xff xff xff xff xff)
(L (W x00 x00 x80 xbf x00 x00 x80 xbf)) E))
(T (W x64 x11 xfb xff x15 x00 x00 x00)
(T (W x00 x00 x80 x3f x00 x00 x80 x3f)
(L (W x46 x53 x59 x53 x5f x4e x53 x5f)) E)
(T (W xff xff xff xff xff xff xff xff)
(L (W xc4 x00 x00 x00 x02 x00 x00 x00)) E)))
(T (W xff xff xff xff xff xff xff xff)
(T (W xff xff xff xff xff xff xff xff)
(T (W x00 x00 x80 x3f x00 x00 x80 x3f)
(L (W x00 x00 x00 x00 x00 x00 x00 x00))
(L (W x54 x00 x00 x00 x48 x00 x00 x00)))
(T (W x00 x00 x00 x00 xa4 xcb xfc xff)
(L (W x00 x00 x00 x00 x12 x00 x00 x00)) E))
(T (W x00 x00 x80 x3f x00 x00 x80 x3f)
(T (W x00 x00 x00 x00 x00 x00 x00 x00)
(L (W xff xff xff xff xff xff xff xff)) E)
(T (W x00 x00 x80 xbf x00 x00 x80 xbf)
(L (W x00 x00 x00 x00 x00 x00 x00 x00)) E))))
(T (W x00 x00 x00 x00 x00 x00 x00 x00)
(T (W xff xff xff xff xff xff xff xff)
(T (W x00 x00 x00 x00 x00 x00 x00 x00)
(T (W x68 x00 x00 x00 x5c x00 x00 x00)
(L (W x00 x00 x00 x00 x00 x00 x00 x00))
(L (W x00 x00 x00 x00 x00 x00 x00 x00)))
(T (W x00 x00 x00 x00 x00 x00 x00 x00)
(L (W xff xff xff xff x9c x00 x00 x00)) E))
(T (W x4f x84 x6f x8b xe8 xcb x63 xb7)
(T (W x18 x00 x00 x00 x0c x00 x00 x00)
(L (W x00 x00 x80 xbf x00 x00 x80 xbf)) E)
(T (W xff xff xff xff xff xff xff xff)
(L (W x00 x00 x01 x01 x5d x00 x00 x00)) E)))
(T (W x0a x00 x00 x00 x3e x00 x00 x00)
(T (W xff xff xff xff xff xff xff xff)
(T (W x4b x00 x00 x00 xff xff xff xff)
(L (W xbc x00 x00 x00 x46 x00 x00 x00))
(L (W x45 x26 x22 x84 xe4 x9c xf2 xcb)))
(T (W xff xff xff xff xff xff xff xff)
(L (W x6c x00 x00 x00 x60 x00 x00 x00)) E))
(T (W x6c x00 x00 x00 x60 x00 x00 x00)
(T (W x00 x00 x00 x00 x00 x00 x00 x00)
(L (W x00 x00 x00 x00 x00 x00 x00 x00)) E)
(T (W x00 x00 x00 x00 x00 x00 x00 x00)
(L (W x12 x6a xff xff x78 x00 x00 x00)) E))))))
(T (W xff xff xff xff xff xff xff xff)
(T (W x19 x00 x00 x00 xff xff xff xff)
(T (W x45 x26 x22 x84 xe4 x9c xf2 xcb)
(T (W x00 x00 x00 x00 x00 x00 x00 x00)
(T (W x34 x85 xfa xff x00 x01 x01 x01)
(T (W x00 x00 x00 x00 x00 x00 x00 x00)
(L (W xff xff xff xff xff xff xff xff))
(L (W xff xff xff xff xff xff xff xff)))
(T (W x91 x01 x00 x00 xff xff xff xff)
(L (W x00 x00 x80 xbf x00 x00 x80 xbf)) E))
(T (W xff xff xff xff xbc x00 x00 x00)
(T (W x00 x00 x00 x00 x00 x00 x00 x00)
(L (W x00 x00 x00 x00 x00 x00 x00 x00))
(L (W x00 x00 x80 xbf x00 x00 x80 xbf)))
(T (W x00 x00 x00 x00 x00 x00 x00 x00)
(L (W x45 x26 x22 x84 xe4 x9c xf2 xcb)) E)))
(T (W xff xff xff xff xff xff xff xff)
(T (W x1c x01 x00 x00 x04 x00 x00 x00)
(T (W x00 x00 x80 x3f x00 x00 x80 x3f)
(L (W x00 x00 x00 x00 x12 x00 x00 x00))
(L (W x4f x84 x6f x8b xe8 xcb x63 xb7)))
(T (W xff xff xff xff xff xff xff xff)
(L (W x04 x00 x00 x00 x70 x03 x00 x00)) E))
(T (W x00 x00 x00 x00 x00 x00 x00 x00)
(T (W x00 x00 x00 x00 x00 x00 x00 x00)
(L (W xff xff xff xff xff xff xff xff)) E)
(T (W x00 x00 x80 xbf x00 x00 x80 xbf)
(L (W x00 x00 x00 x00 x00 x00 x00 x00)) E))))
(T (W x00 x00 x00 x00 x00 x00 x00 x00)
(T (W xb4 x01 x00 x00 xff xff xff xff)
(T (W x00 x00 x00 x00 x00 x00 x00 x00)
(T (W x00 x00 x00 x00 x00 x00 x00 x00)
(L (W x50 x00 x00 x00 x44 x00 x00 x00))
(L (W xff xff xff xff xff xff xff xff)))
(T (W x00 x00 x00 x00 x00 x00 x00 x00)
(L (W xff xff xff xff xff xff xff xff)) E))
(T (W x00 x00 x00 x00 x00 x00 x00 x00)
(T (W x19 x00 x00 x00 x1c x00 x00 x00)
(L (W x00 x00 x80 xbf x00 x00 x80 xbf)) E)
(T (W xb0 x00 x00 x00 x64 x00 x00 x00)
(L (W x19 x00 x00 x00 xff xff xff xff)) E)))
(T (W x01 x00 x00 x00 x9c x00 x00 x00)
(T (W xff xff xff xff xff xff xff xff)
(T (W xff xff xff xff xff xff xff xff)
(L (W x00 x00 x80 xbf x00 x00 x80 xbf))
(L (W xff xff xff xff xb0 x00 x00 x00)))
(T (W x12 x00 x00 x00 x46 x53 x59 x53)
(L (W x00 x00 x80 xbf x00 x00 x80 xbf)) E))
(T (W x45 x26 x22 x84 xe4 x9c xf2 xcb)
(T (W x00 x00 x80 x3f x00 x00 x80 x3f)
(L (W x30 x32 x5f x43 x4c x45 x41 x52)) E)
(T (W x00 x00 x01 x01 x53 x01 x00 x00)
(L (W x00 x00 x80 xbf x00 x00 x80 xbf)) E)))))
(T (W x00 x00 x00 x00 x00 x00 x00 x00)
(T (W x00 x00 x80 x3f x00 x00 x80 x3f)
(T (W x50 x00 x00 x00 x44 x00 x00 x00)
(T (W x00 x00 x80 x3f x00 x00 x80 x3f)
(T (W x01 x00 x00 x00 x21 x00 x00 x00)
(L (W x00 x00 x00 x00 x00 x00 x00 x00))
(L (W x00 x00 x00 x00 x00 x00 x00 x00)))
(T (W xff xff xff xff x03 x00 x00 x00)
(L (W xff xff xff xff xb0 x00 x00 x00)) E))
(T (W x00 x00 x80 x3f x00 x00 x80 x3f)
(T (W x68 x00 x00 x00 x5c x00 x00 x00)
(L (W x00 x00 x00 x00 x00 x00 x00 x00)) E)
(T (W xbc xf6 xff xff x01 x01 x01 x01)
(L (W xff xff xff xff xff xff xff xff)) E)))
(T (W xb8 x00 x00 x00 xac x00 x00 x00)
(T (W xff xff xff xff xff xff xff xff)
(T (W x34 xd5 xfb xff x00 x01 x01 x01)
(L (W x00 x00 x00 x00 x00 x00 x00 x00))
(L (W x6c x00 x00 x00 x60 x00 x00 x00)))
(T (W x00 x00 x00 x00 xa4 xd3 xfc xff)
(L (W x00 x00 x00 x00 x00 x00 x00 x00)) E))
(T (W x45 x26 x22 x84 xe4 x9c xf2 xcb)
(T (W x49 xa1 x68 x4a xeb x5f xdd x3d)
(L (W xff xff xff xff xff xff xff xff)) E)
(T (W xff xff xff xff xff xff xff xff)
(L (W x00 x00 x80 xbf x00 x00 x80 xbf)) E))))
(T (W x45 x26 x22 x84 xe4 x9c xf2 xcb)
(T (W xff xff xff xff xff xff xff xff)
(T (W x3e x00 x00 x00 x10 x00 x00 x00)
(T (W xff xff xff xff xff xff xff xff)
(L (W x50 x00 x00 x00 x44 x00 x00 x00))
(L (W x00 x00 x00 x00 x00 x00 x00 x00)))
(T (W x64 xb9 xfc xff x19 x00 x00 x00)
(L (W xff xff xff xff xff xff xff xff)) E))
(T (W x00 x00 x80 x3f x00 x00 x80 x3f)
(T (W xff xff xff xff xff xff xff xff)
(L (W x6c x00 x00 x00 x60 x00 x00 x00)) E)
(T (W x00 x00 x00 x00 x00 x00 x00 x00)
(L (W xff xff xff xff xff xff xff xff)) E)))
(T (W xc0 x00 x00 x00 xb4 x00 x00 x00)
(T (W x64 xf9 xfa xff x15 x00 x00 x00)
(T (W xff xff xff xff xff xff xff xff)
(L (W xff xff xff xff xff xff xff xff))
(L (W xff xff xff xff xff xff xff xff)))
(T (W x00 x00 x80 x3f x00 x00 x80 x3f)
(L (W x6c x00 x00 x00 x60 x00 x00 x00)) E))
(T (W xff xff xff xff xff xff xff xff)
(T (W xca x84 xff xff x00 x00 x01 x01)
(L (W x00 x00 x80 xbf x00 x00 x80 xbf)) E)
(T (W x00 x00 x00 x00 x00 x00 x00 x00)
(L (W xff xff xff xff xb0 x00 x00 x00)) E)))))))
(T (W xff xff xff xff xff xff xff xff)
(T (W x00 x00 x80 x3f x00 x00 x80 x3f)
(T (W x18 x00 x00 x00 x10 x00 x00 x00)
(T (W xc9 x00 x00 x00 xff xff xff xff)
(T (W xff xff xff xff xff xff xff xff)
(T (W x4a x8f xfd xff xdc x00 x00 x00)
(T (W x00 x00 x00 x00 xa4 x7f xfb xff)
(L (W x00 x00 x00 x00 xa4 x7f xfd xff))
(L (W x00 x00 x80 xbf x00 x00 x80 xbf)))
(T (W x50 x00 x00 x00 x44 x00 x00 x00)
(L (W x00 x00 x00 x00 x00 x00 x00 x00)) E))
(T (W x00 x00 x00 x00 x00 x00 x00 x00)
(T (W xff xff xff xff x03 x00 x00 x00)
(L (W x00 x00 x80 xbf x00 x00 x80 xbf))
(L (W xff xff xff xff xff xff xff xff)))
(T (W x00 x00 x00 x00 x00 x00 x00 x00)
(L (W xf4 x06 x00 x00 xd8 x05 x00 x00)) E)))
(T (W x00 x00 x80 x3f x00 x00 x80 x3f)
(T (W x00 x00 x80 x3f x00 x00 x80 x3f)
(T (W xff xff xff xff xff xff xff xff)
(L (W x00 x00 x00 x00 x00 x00 x00 x00))
(L (W xff xff xff xff xff xff xff xff)))
(T (W x00 x00 x80 x3f x00 x00 x80 x3f)
(L (W x00 x00 x80 xbf x00 x00 x80 xbf)) E))
(T (W x00 x00 x00 x00 x00 x00 x00 x00)
(T (W x22 x00 x00 x00 x25 x00 x00 x00)
(L (W x00 x00 x00 x00 x00 x00 x00 x00)) E)
(T (W xff xff xff xff xff xff xff xff)
(L (W x00 x00 x00 x00 xa4 x3f xff xff)) E))))
(T (W xff xff xff xff xff xff xff xff)
(T (W x45 x26 x22 x84 xe4 x9c xf2 xcb)
(T (W x01 x00 x00 x00 xa0 x00 x00 x00)
(T (W x12 x9e xfb xff x78 x00 x00 x00)
(L (W x18 x00 x00 x00 x0c x00 x00 x00))
(L (W xff xff xff xff xff xff xff xff)))
(T (W x50 x00 x00 x00 x44 x00 x00 x00)
(L (W x00 x00 x00 x00 x00 x00 x00 x00)) E))
(T (W x00 x00 x80 x3f x00 x00 x80 x3f)
(T (W x00 x00 x00 x00 x00 x00 x00 x00)
(L (W xff xff xff xff xff xff xff xff)) E)
(T (W x45 x26 x22 x84 xe4 x9c xf2 xcb)
(L (W x00 x00 x80 xbf x00 x00 x80 xbf)) E)))
(T (W x00 x00 x00 x00 x00 x00 x00 x00)
(T (W x00 x00 x80 x3f x00 x00 x80 x3f)
(T (W x49 xa1 x68 x4a xeb x5f xdd x3d)
(L (W xff xff xff xff xff xff xff xff))
(L (W x00 x00 x00 x00 x00 x00 x00 x00)))
(T (W x00 x00 x80 x3f x00 x00 x80 x3f)
(L (W x03 x00 x00 x00 xd0 x00 x00 x00)) E))
(T (W x01 x00 x00 x00 xac x00 x00 x00)
(T (W x4a x00 x00 x00 xff xff xff xff)
(L (W xff xff xff xff xa0 x00 x00 x00)) E)
(T (W x00 x00 x80 xbf x00 x00 x80 xbf)
(L (W x00 x00 x00 x00 x00 x00 x00 x00)) E)))))
(T (W xff xff xff xff xff xff xff xff)
(T (W x00 x00 x00 x00 x00 x00 x00 x00)
(T (W x18 x00 x00 x00 x10 x00 x00 x00)
(T (W x00 x00 x00 x00 x00 x00 x00 x00)
(T (W x00 x00 x00 x00 x00 x00 x00 x00)
(L (W x00 x00 x80 xbf x00 x00 x80 xbf))
(L (W x18 x00 x00 x00 x0c x00 x00 x00)))
(T (W x45 x26 x22 x84 xe4 x9c xf2 xcb)
(L (W x46 x53 x59 x53 x5f x4e x53 x5f)) E))
(T (W x00 x00 x00 x00 xa4 x0f xfb xff)
(T (W xff xff xff xff xff xff xff xff)
(L (W x45 x26 x22 x84 xe4 x9c xf2 xcb)) E)
(T (W xff xff xff xff xff xff xff xff)
(L (W x00 x00 x00 x00 x00 x00 x00 x00)) E)))
(T (W x00 x00 x80 x3f x00 x00 x80 x3f)
(T (W x50 x00 x00 x00 x44 x00 x00 x00)
(T (W x00 x00 x00 x00 x00 x00 x00 x00)
(L (W x00 x00 x00 x00 xa4 xcf xfd xff))
(L (W xff xff xff xff xff xff xff xff)))
(T (W x00 x00 x01 x01 x9c x00 x00 x00)
(L (W x68 x00 x00 x00 x5c x00 x00 x00)) E))
(T (W x30 x32 x5f x43 x4c x45 x41 x52)
(T (W xff xff xff xff xff xff xff xff)
(L (W x00 x00 x80 xbf x00 x00 x80 xbf)) E)
(T (W x00 x00 x00 x00 x00 x00 x00 x00)
(L (W xff xff xff xff xff xff xff xff)) E))))
(T (W xff xff xff xff xff xff xff xff)
(T (W x00 x00 x80 x3f x00 x00 x80 x3f)
(T (W x00 x00 x80 x3f x00 x00 x80 x3f)
(T (W x00 x00 x00 x00 x00 x00 x00 x00)
(L (W x45 x26 x22 x84 xe4 x9c xf2 xcb))
(L (W x45 x26 x22 x84 xe4 x9c xf2 xcb)))
(T (W x01 x00 x00 x00 x9c x00 x00 x00)
(L (W x4f x84 x6f x8b xe8 xcb x63 xb7)) E))
(T (W xc2 x36 xfe xff x00 x00 x01 x01)
(T (W x00 x00 x80 x3f x00 x00 x80 x3f)
(L (W x00 x00 x00 x00 x00 x00 x00 x00)) E)
(T (W x00 x00 x80 xbf x00 x00 x80 xbf)
(L (W x00 x00 x80 xbf x00 x00 x80 xbf)) E)))
(T (W x00 x00 x00 x00 x00 x00 x00 x00)
(T (W x00 x00 x00 x00 x00 x00 x00 x00)
(T (W x6c x00 x00 x00 x60 x00 x00 x00)
(L (W x00 x00 x00 x00 x00 x00 x00 x00))
(L (W x00 x00 x00 x00 x12 x00 x00 x00)))
(T (W x45 x26 x22 x84 xe4 x9c xf2 xcb)
(L (W x00 x00 x00 x00 x22 xf5 xfe xff)) E))
(T (W x6b x65 x5f x6c x76 x31 x00 x00)
(T (W x68 x00 x00 x00 x5c x00 x00 x00)
(L (W xff xff xff xff xff xff xff xff)) E)
(T (W xc4 x00 x00 x00 x02 x00 x00 x00)
(L (W x00 x00 x00 x00 x00 x00 x00 x00)) E))))))
(T (W x00 x00 x00 x00 x00 x00 x00 x00)
(T (W x00 x00 x00 x00 x00 x00 x00 x00)
(T (W x12 xc6 xf9 xff x78 x00 x00 x00)
(T (W xff xff xff xff xff xff xff xff)
(T (W x00 x00 x00 x00 x00 x00 x00 x00)
(T (W xff xff xff xff xff xff xff xff)
(L (W x00 x00 x80 xbf x00 x00 x80 xbf))
(L (W x00 x00 x80 xbf x00 x00 x80 xbf)))
(T (W x45 x26 x22 x84 xe4 x9c xf2 xcb)
(L (W x00 x00 x00 x00 x22 x8d xfe xff)) E))
(T (W x34 x09 xfb xff x00 x01 x01 x01)
(T (W xff xff xff xff xbc x00 x00 x00)
(L (W x54 x00 x00 x00 x48 x00 x00 x00)) E)
(T (W x00 x00 x00 x00 x00 x00 x00 x00)
(L (W x45 x44 x00 x00 x00 x00 x00 x00)) E)))
(T (W x00 x00 x80 x3f x00 x00 x80 x3f)
(T (W x00 x00 x80 x3f x00 x00 x80 x3f)
(T (W x4a x00 x00 x00 xff xff xff xff)
(L (W x18 x00 x00 x00 x0c x00 x00 x00))
(L (W xff xff xff xff xff xff xff xff)))
(T (W x7f x00 x00 x00 x7f x00 x00 x00)
(L (W x00 x00 x80 xbf x00 x00 x80 xbf)) E))
(T (W x01 x00 x00 x00 xb0 x00 x00 x00)
(T (W xff xff xff xff xff xff xff xff)
(L (W x00 x00 x00 x00 x00 x00 x00 x00)) E)
(T (W xff xff xff xff xff xff xff xff)
(L (W x03 x00 x00 x00 xd8 x00 x00 x00)) E))))
(T (W xff xff xff xff x03 x00 x00 x00)
(T (W x62 x24 xfa xff x74 x00 x00 x00)
(T (W x62 xa4 xfa xff x74 x00 x00 x00)
(T (W xff xff xff xff xff xff xff xff)
(L (W xff xff xff xff xff xff xff xff))
(L (W x00 x00 x80 xbf x00 x00 x80 xbf)))
(T (W x50 x00 x00 x00 x44 x00 x00 x00)
(L (W x45 x26 x22 x84 xe4 x9c xf2 xcb)) E))
(T (W x00 x00 x00 x00 xa4 x27 xfb xff)
(T (W x00 x00 x00 x00 x00 x00 x00 x00)
(L (W x5d x00 x00 x00 xff xff xff xff)) E)
(T (W x49 xa1 x68 x4a xeb x5f xdd x3d)
(L (W x00 x00 x80 xbf x00 x00 x80 xbf)) E)))
(T (W x00 x00 x00 x00 x00 x00 x00 x00)
(T (W x00 x00 x00 x00 x00 x00 x00 x00)
(T (W x00 x00 x80 x3f x00 x00 x80 x3f)
(L (W xbc xf6 xfd xff x14 x00 x00 x00))
(L (W x00 x00 x00 x00 x00 x00 x00 x00)))
(T (W x00 x00 x00 x00 x00 x00 x00 x00)
(L (W xff xff xff xff xff xff xff xff)) E))
(T (W xff xff xff xff xff xff xff xff)
(T (W x62 x64 xfc xff x74 x00 x00 x00)
(L (W x03 x00 x00 x00 xd0 x00 x00 x00)) E)
(T (W x50 x00 x00 x00 x44 x00 x00 x00)
(L (W x00 x00 x00 x00 x00 x00 x00 x00)) E)))))
(T (W x00 x00 x80 x3f x00 x00 x80 x3f)
(T (W xb8 x00 x00 x00 xac x00 x00 x00)
(T (W xff xff xff xff xff xff xff xff)
(T (W x45 x26 x22 x84 xe4 x9c xf2 xcb)
(T (W x00 x00 x00 x00 x00 x00 x00 x00)
(L (W x62 x94 xfd xff x74 x00 x00 x00))
(L (W xff xff xff xff xc8 x00 x00 x00)))
(T (W x00 x00 x00 x00 x00 x00 x00 x00)
(L (W x00 x00 x00 x00 x00 x00 x00 x00)) E))
(T (W x00 x00 x80 x3f x00 x00 x80 x3f)
(T (W xff xff xff xff xff xff xff xff)
(L (W xff xff xff xff xc8 x00 x00 x00)) E)
(T (W x45 x26 x22 x84 xe4 x9c xf2 xcb)
(L (W x00 x00 x80 xbf x00 x00 x80 xbf)) E)))
(T (W x00 x00 x00 x00 x00 x00 x00 x00)
(T (W x00 x00 x80 x3f x00 x00 x80 x3f)
(T (W x70 x5f x6c x65 x61 x64 x65 x72)
(L (W x03 x00 x00 x00 xd0 x00 x00 x00))
(L (W xff xff xff xff xff xff xff xff)))
(T (W x00 x00 x00 x00 x00 x00 x00 x00)
(L (W xc4 x00 x00 x00 x02 x00 x00 x00)) E))
(T (W x00 x00 x80 x3f x00 x00 x80 x3f)
(T (W xff xff xff xff xff xff xff xff)
(L (W x54 x00 x00 x00 x48 x00 x00 x00)) E)
(T (W x00 x00 x00 x00 x00 x00 x00 x00)
(L (W xff xff xff xff xff xff xff xff)) E))))
(T (W xff xff xff xff xff xff xff xff)
(T (W x45 x26 x22 x84 xe4 x9c xf2 xcb)
(T (W x00 x00 x80 x3f x00 x00 x80 x3f)
(T (W x54 x00 x00 x00 x48 x00 x00 x00)
(L (W xff xff xff xff xbc x00 x00 x00))
(L (W xff xff xff xff xff xff xff xff)))
(T (W x00 x00 x80 x3f x00 x00 x80 x3f)
(L (W x00 x00 x80 xbf x00 x00 x80 xbf)) E))
(T (W x00 x00 x00 x00 x12 x00 x00 x00)
(T (W x6c x00 x00 x00 x60 x00 x00 x00)
(L (W x46 x53 x59 x53 x5f x4e x53 x5f)) E)
(T (W x45 x26 x22 x84 xe4 x9c xf2 xcb)
(L (W x54 x00 x00 x00 x48 x00 x00 x00)) E)))
(T (W xcc x95 x1b xf2 x1e x1d x49 x87)
(T (W x00 x00 x80 x3f x00 x00 x80 x3f)
(T (W xff xff xff xff x9c x00 x00 x00)
(L (W x00 x00 x80 xbf x00 x00 x80 xbf))
(L (W x00 x00 x80 xbf x00 x00 x80 xbf)))
(T (W xff xff xff xff xff xff xff xff)
(L (W x46 x53 x59 x53 x5f x4e x53 x5f)) E))
(T (W x00 x00 x80 x3f x00 x00 x80 x3f)
(T (W x68 x00 x00 x00 x5c x00 x00 x00)
(L (W x00 x00 x01 x01 x5c x00 x00 x00)) E)
(T (W x6c x00 x00 x00 x60 x00 x00 x00)
(L (W x00 x00 x00 x00 x00 x00 x00 x00)) E)))))))))))
(T (W xf8 xeb x04 x00 xfc xe4 x04 x00)
(T (W x78 xd7 x03 x00 xa4 xd2 x03 x00)
(T (W x48 x29 x03 x00 x04 x27 x03 x00)
(T (W x68 x49 x01 x00 x1c x47 x01 x00)
(T (W x00 x00 x80 x3f x00 x00 x80 x3f)
(T (W x00 x00 x00 x00 x00 x00 x00 x00)
(T (W x00 x00 x80 x3f x00 x00 x80 x3f)
(T (W xbc x00 x00 x00 xb0 x00 x00 x00)
(T (W x00 x00 x00 x00 x00 x00 x00 x00)
(T (W x00 x00 x80 x3f x00 x00 x80 x3f)
(T (W xff xff xff xff xff xff xff xff)
(L (W xff xff xff xff xff xff xff xff))
(L (W xff xff xff xff xb0 x00 x00 x00)))
(T (W xb3 x01 x00 x00 xff xff xff xff)
(L (W x49 xa1 x68 x4a xeb x5f xdd x3d)) E))
(T (W xff xff xff xff xff xff xff xff)
(T (W x4a x00 x00 x00 xff xff xff xff)
(L (W x18 x00 x00 x00 x0c x00 x00 x00))
(L (W xff xff xff xff xb0 x00 x00 x00)))
(T (W x00 x00 x00 x00 x00 x00 x00 x00)
(L (W x00 x00 x80 xbf x00 x00 x80 xbf)) E)))
(T (W x64 x00 x00 x00 x9c x00 x00 x00)
(T (W xff xff xff xff xff xff xff xff)
(T (W xff xff xff xff xff xff xff xff)
(L (W x00 x00 x00 x00 x00 x00 x00 x00))
(L (W x30 x32 x5f x43 x4c x45 x41 x52)))
(T (W xff xff xff xff xff xff xff xff)
(L (W x29 x00 x00 x00 x2c x00 x00 x00)) E))
(T (W x50 x00 x00 x00 x44 x00 x00 x00)
(T (W xff xff xff xff xff xff xff xff)
(L (W x00 x00 x80 xbf x00 x00 x80 xbf)) E)
(T (W xc7 x01 x00 x00 xff xff xff xff)
(L (W xff xff xff xff xff xff xff xff)) E))))
(T (W x8a xe9 xfc xff x00 x00 x01 x01)
(T (W x00 x00 x00 x00 x00 x00 x00 x00)
(T (W xff xff xff xff x03 x00 x00 x00)
(T (W x18 x00 x00 x00 x0c x00 x00 x00)
(L (W xff xff xff xff xff xff xff xff))
(L (W x00 x00 x00 x00 x00 x00 x00 x00)))
(T (W x50 x00 x00 x00 x44 x00 x00 x00)
(L (W xd2 x96 xfe xff x78 x00 x00 x00)) E))
(T (W x18 x00 x00 x00 x0c x00 x00 x00)
(T (W x00 x00 x00 x00 x00 x00 x00 x00)
(L (W x00 x00 x00 x00 x00 x00 x00 x00)) E)
(T (W x04 x00 x00 x00 xc2 x17 xfd xff)
(L (W xff xff xff xff xc8 x00 x00 x00)) E)))
(T (W x01 x00 x00 x00 x1d x00 x00 x00)
(T (W xff xff xff xff xff xff xff xff)
(T (W x45 x26 x22 x84 xe4 x9c xf2 xcb)
(L (W x45 x44 x00 x00 x00 x00 x00 x00))
(L (W x4f x84 x6f x8b xe8 xcb x63 xb7)))
(T (W x45 x26 x22 x84 xe4 x9c xf2 xcb)
(L (W x00 x00 x00 x00 x00 x00 x00 x00)) E))
(T (W xff xff xff xff xff xff xff xff)
(T (W x00 x00 x00 x00 x00 x00 x00 x00)
(L (W xff xff xff xff xff xff xff xff)) E)
(T (W x21 x00 x00 x00 x24 x00 x00 x00)
(L (W x00 x00 x00 x00 x00 x00 x00 x00)) E)))))
(T (W x6c x00 x00 x00 x60 x00 x00 x00)
(T (W xff xff xff xff xff xff xff xff)
(T (W x00 x00 x00 x00 x00 x00 x00 x00)
(T (W x00 x00 x80 x3f x00 x00 x80 x3f)
(T (W x00 x00 x00 x00 x00 x00 x00 x00)
(L (W xff xff xff xff xff xff xff xff))
(L (W xff xff xff xff xff xff xff xff)))
(T (W xff xff xff xff x03 x00 x00 x00)
(L (W x00 x00 x80 xbf x00 x00 x80 xbf)) E))
(T (W xff xff xff xff xff xff xff xff)
(T (W x00 x00 x00 x00 x00 x00 x00 x00)
(L (W xff xff xff xff xff xff xff xff)) E)
(T (W x00 x00 x80 xbf x00 x00 x80 xbf)
(L (W x00 x00 x80 xbf x00 x00 x80 xbf)) E)))
(T (W x18 x00 x00 x00 x0c x00 x00 x00)
(T (W xff xff xff xff xff xff xff xff)
(T (W x4f x84 x6f x8b xe8 xcb x63 xb7)
(L (W x00 x00 x00 x00 x52 xcc xfd xff))
(L (W x00 x00 x00 x00 x00 x00 x00 x00)))
(T (W x00 x00 x00 x00 x00 x00 x00 x00)
(L (W x00 x00 x01 x01 x2a x00 x00 x00)) E))
(T (W x00 x00 x00 x00 x00 x00 x00 x00)
(T (W x46 x53 x59 x53 x5f x4e x53 x5f)
(L (W xd2 x46 xfe xff x78 x00 x00 x00)) E)
(T (W x00 x00 x00 x00 x00 x00 x00 x00)
(L (W x30 x32 x5f x43 x4c x45 x41 x52)) E))))
(T (W x00 x00 x00 x00 x00 x00 x00 x00)
(T (W xff xff xff xff xff xff xff xff)
(T (W x8a xb9 xfd xff x00 x00 x01 x01)
(T (W x00 x00 x00 x00 x00 x00 x00 x00)
(L (W x00 x00 x00 x00 x00 x00 x00 x00))
(L (W xff xff xff xff xff xff xff xff)))
(T (W xff xff xff xff xff xff xff xff)
(L (W xf4 xa9 xfe xff x00 x01 x01 x01)) E))
(T (W x98 x03 x00 x00 x70 x02 x00 x00)
(T (W x45 x26 x22 x84 xe4 x9c xf2 xcb)
(L (W x45 x26 x22 x84 xe4 x9c xf2 xcb)) E)
(T (W x18 x00 x00 x00 x10 x00 x00 x00)
(L (W xbc x00 x00 x00 x28 x00 x00 x00)) E)))
(T (W xd2 x66 xfa xff x78 x00 x00 x00)
(T (W x01 x00 x00 x00 xa0 x00 x00 x00)
(T (W xcc x00 x00 x00 xc0 x00 x00 x00)
(L (W xd2 xe6 xfd xff x78 x00 x00 x00))
(L (W x00 x00 x80 xbf x00 x00 x80 xbf)))
(T (W xff xff xff xff x03 x00 x00 x00)
(L (W x00 x00 x00 x00 x00 x00 x00 x00)) E))
(T (W x00 x00 x00 x00 x00 x00 x00 x00)
(T (W x8a x79 xff xff x00 x00 x01 x01)
(L (W x45 x44 x00 x00 x00 x00 x00 x00)) E)
(T (W xff xff xff xff xff xff xff xff)
(L (W x00 x00 x80 xbf x00 x00 x80 xbf)) E))))))
(T (W xff xff xff xff xff xff xff xff)
(T (W xff xff xff xff x1a x00 x00 x00)
(T (W x45 x26 x22 x84 xe4 x9c xf2 xcb)
(T (W x00 x00 x00 x00 x00 x00 x00 x00)
(T (W x45 x26 x22 x84 xe4 x9c xf2 xcb)
(T (W xb4 x05 x00 x00 x84 x04 x00 x00)
(L (W xff xff xff xff xff xff xff xff))
(L (W xbc x00 x00 x00 x0a x00 x00 x00)))
(T (W xff xff xff xff xff xff xff xff)
(L (W x00 x00 x80 xbf x00 x00 x80 xbf)) E))
(T (W x68 x00 x00 x00 x5c x00 x00 x00)
(T (W x30 x32 x5f x43 x4c x45 x41 x52)
(L (W xb8 x00 x00 x00 x64 x00 x00 x00))
(L (W x00 x00 x00 x00 x00 x00 x00 x00)))
(T (W xb4 x00 x00 x00 x64 x00 x00 x00)
(L (W x00 x00 x80 xbf x00 x00 x80 xbf)) E)))
(T (W x00 x00 x00 x00 x64 x40 xfa xff)
(T (W xb8 x00 x00 x00 xac x00 x00 x00)
(T (W x00 x00 x00 x00 x00 x00 x00 x00)
(L (W xff xff xff xff xff xff xff xff))
(L (W x00 x00 x00 x00 x00 x00 x00 x00)))
(T (W xb8 x00 x00 x00 xac x00 x00 x00)
(L (W xff xff xff xff xff xff xff xff)) E))
(T (W x01 x00 x00 x00 xb0 x00 x00 x00)
(T (W x8a x51 xff xff x00 x00 x01 x01)
(L (W x00 x00 x80 xbf x00 x00 x80 xbf)) E)
(T (W x00 x00 x00 x00 x00 x00 x00 x00)
(L (W xff xff xff xff xff xff xff xff)) E))))
(T (W x00 x00 x00 x00 x00 x00 x00 x00)
(T (W xff xff xff xff xff xff xff xff)
(T (W x9c x00 x00 x00 xff xff xff xff)
(T (W xff xff xff xff xff xff xff xff)
(L (W xda xfe xff xff x00 x00 x01 x01))
(L (W x30 x32 x5f x43 x4c x45 x41 x52)))
(T (W xff xff xff xff xff xff xff xff)
(L (W xd2 x9e xfe xff x78 x00 x00 x00)) E))
(T (W xff xff xff xff xff xff xff xff)
(T (W x00 x00 x80 x3f x00 x00 x80 x3f)
(L (W x00 x00 x00 x00 x00 x00 x00 x00)) E)
(T (W x00 x00 x00 x00 xf8 x21 xfd xff)
(L (W xff xff xff xff xff xff xff xff)) E)))
(T (W x68 x00 x00 x00 x5c x00 x00 x00)
(T (W x18 x00 x00 x00 x10 x00 x00 x00)
(T (W x18 x00 x00 x00 x10 x00 x00 x00)
(L (W x00 x00 x00 x00 x00 x00 x00 x00))
(L (W x00 x00 x80 xbf x00 x00 x80 xbf)))
(T (W xff xff xff xff xb0 x00 x00 x00)
(L (W x45 x44 x00 x00 x00 x00 x00 x00)) E))
(T (W x00 x00 x00 x00 x00 x00 x00 x00)
(T (W x45 x26 x22 x84 xe4 x9c xf2 xcb)
(L (W x00 x00 x01 x01 x29 x00 x00 x00)) E)
(T (W xff xff xff xff xbc x00 x00 x00)
(L (W x00 x00 x80 xbf x00 x00 x80 xbf)) E)))))
(T (W x00 x00 x00 x00 x00 x00 x00 x00)
(T (W x00 x00 x80 x3f x00 x00 x80 x3f)
(T (W x22 x00 x00 x00 x67 x72 x6f x75)
(T (W x00 x00 x80 x3f x00 x00 x80 x3f)
(T (W x00 x00 x80 x3f x00 x00 x80 x3f)
(L (W xff xff xff xff xff xff xff xff))
(L (W x00 x00 x00 x00 x52 x94 xff xff)))
(T (W x68 x00 x00 x00 x5c x00 x00 x00)
(L (W x00 x00 x80 xbf x00 x00 x80 xbf)) E))
(T (W x2c x01 x00 x00 x04 x00 x00 x00)
(T (W x00 x00 x00 x00 x00 x00 x00 x00)
(L (W x90 x01 x00 x00 xff xff xff xff)) E)
(T (W x00 x00 x00 x00 x00 x00 x00 x00)
(L (W x54 x00 x00 x00 x48 x00 x00 x00)) E)))
(T (W x40 x00 x00 x00 x9c x00 x00 x00)
(T (W xff xff xff xff xff xff xff xff)
(T (W x00 x00 x80 x3f x00 x00 x80 x3f)
(L (W xf4 x06 x00 x00 xd8 x05 x00 x00))
(L (W x45 x26 x22 x84 xe4 x9c xf2 xcb)))
(T (W x49 xa1 x68 x4a xeb x5f xdd x3d)
(L (W xa4 x04 x00 x00 x88 x03 x00 x00)) E))
(T (W x00 x00 x80 x3f x00 x00 x80 x3f)
(T (W x00 x00 x00 x00 x00 x00 x00 x00)
(L (W xcc x00 x00 x00 x01 x00 x00 x00)) E)
(T (W x38 x00 x00 x00 x00 x00 x80 xbf)
(L (W x00 x00 x00 x00 x00 x00 x00 x00)) E))))
(T (W x00 x00 x00 x00 x00 x00 x00 x00)
(T (W xff xff xff xff xff xff xff xff)
(T (W xff xff xff xff xff xff xff xff)
(T (W x22 xad xfb xff x74 x00 x00 x00)
(L (W x22 xad xfd xff x74 x00 x00 x00))
(L (W x06 x00 x00 x00 xc0 x05 x00 x00)))
(T (W xff xff xff xff xff xff xff xff)
(L (W x45 x26 x22 x84 xe4 x9c xf2 xcb)) E))
(T (W x00 x00 x80 x3f x00 x00 x80 x3f)
(T (W x01 x00 x00 x00 xb0 x00 x00 x00)
(L (W x00 x00 x80 xbf x00 x00 x80 xbf)) E)
(T (W xff xff xff xff xff xff xff xff)
(L (W xff xff xff xff xff xff xff xff)) E)))
(T (W x00 x00 x80 x3f x00 x00 x80 x3f)
(T (W x22 xed xfa xff x74 x00 x00 x00)
(T (W xff xff xff xff xff xff xff xff)
(L (W x50 x00 x00 x00 x44 x00 x00 x00))
(L (W x00 x00 x80 xbf x00 x00 x80 xbf)))
(T (W x00 x00 x00 x00 x00 x00 x0c x00)
(L (W x00 x00 x80 xbf x00 x00 x80 xbf)) E))
(T (W xd2 x6e xfb xff x78 x00 x00 x00)
(T (W xff xff xff xff xff xff xff xff)
(L (W x00 x00 x00 x00 x00 x00 x00 x00)) E)
(T (W x00 x00 x00 x00 x00 x00 x00 x00)
(L (W x00 x00 x00 x00 x64 x70 xff xff)) E)))))))
(T (W xff xff xff xff x04 x00 x00 x00)
(T (W x00 x00 x80 x3f x00 x00 x80 x3f)
(T (W xff xff xff xff xff xff xff xff)
(T (W x00 x00 x01 x01 xc9 x00 x00 x00)
(T (W x18 x00 x00 x00 x0c x00 x00 x00)
(T (W x20 x01 x00 x00 x04 x00 x00 x00)
(T (W x4f x84 x6f x8b xe8 xcb x63 xb7)
(L (W x49 xa1 x68 x4a xeb x5f xdd x3d))
(L (W x00 x00 x00 x00 x00 x00 x00 x00)))
(T (W x45 x26 x22 x84 xe4 x9c xf2 xcb)
(L (W xff xff xff xff xff xff xff xff)) E))
(T (W xff xff xff xff xff xff xff xff)
(T (W x22 xf9 xfb xff x74 x00 x00 x00)
(L (W x45 x26 x22 x84 xe4 x9c xf2 xcb))
(L (W x00 x00 x00 x00 x00 x00 x00 x00)))
(T (W x45 x26 x22 x84 xe4 x9c xf2 xcb)
(L (W xff xff xff xff xff xff xff xff)) E)))
(T (W x00 x00 x00 x00 x00 x00 x00 x00)
(T (W x45 x26 x22 x84 xe4 x9c xf2 xcb)
(T (W x6c x00 x00 x00 x60 x00 x00 x00)
(L (W x45 x26 x22 x84 xe4 x9c xf2 xcb))
(L (W x21 x00 x00 x00 x24 x00 x00 x00)))
(T (W x00 x00 x00 x00 x00 x00 x00 x00)
(L (W x45 x26 x22 x84 xe4 x9c xf2 xcb)) E))
(T (W x00 x00 x00 x00 x00 x00 x00 x00)
(T (W x00 x00 x80 x3f x00 x00 x80 x3f)
(L (W x00 x00 x00 x00 x00 x00 x00 x00)) E)
(T (W xd2 x3a xfd xff x78 x00 x00 x00)
(L (W x00 x00 x80 xbf x00 x00 x80 xbf)) E))))
(T (W x50 x00 x00 x00 x44 x00 x00 x00)
(T (W xff xff xff xff xff xff xff xff)
(T (W x00 x00 x80 x3f x00 x00 x80 x3f)
(T (W x00 x00 x00 x00 x00 x00 x00 x00)
(L (W x00 x00 x80 xbf x00 x00 x80 xbf))
(L (W x68 x00 x00 x00 x5c x00 x00 x00)))
(T (W x6b x65 x5f x6d x69 x6c x64 x5f)
(L (W x00 x00 x00 x00 xc2 x9b xfe xff)) E))
(T (W x45 x26 x22 x84 xe4 x9c xf2 xcb)
(T (W xff xff xff xff xff xff xff xff)
(L (W x68 x00 x00 x00 x5c x00 x00 x00)) E)
(T (W x00 x00 x00 x00 x01 x00 x00 x00)
(L (W x00 x00 x00 x00 x00 x00 x00 x00)) E)))
(T (W x01 x00 x00 x00 x04 x00 x00 x00)
(T (W x00 x00 x00 x00 x00 x00 x00 x00)
(T (W x24 xe2 xfb xff x14 x00 x00 x00)
(L (W xc4 x00 x00 x00 x02 x00 x00 x00))
(L (W xff xff xff xff xff xff xff xff)))
(T (W x00 x00 x00 x00 x00 x00 x00 x00)
(L (W x45 x26 x22 x84 xe4 x9c xf2 xcb)) E))
(T (W x00 x00 x00 x00 x00 x00 x00 x00)
(T (W xff xff xff xff xff xff xff xff)
(L (W x00 x00 x80 xbf x00 x00 x80 xbf)) E)
(T (W x00 x00 x00 x00 x00 x00 x00 x00)
(L (W xff xff xff xff xff xff xff xff)) E)))))
(T (W xff xff xff xff xff xff xff xff)
(T (W x00 x00 x00 x00 x00 x00 x00 x00)
(T (W x00 x00 x80 x3f x00 x00 x80 x3f)
(T (W xff xff xff xff xff xff xff xff)
(T (W x45 x26 x22 x84 xe4 x9c xf2 xcb)
(L (W x4f x84 x6f x8b xe8 xcb x63 xb7))
(L (W x00 x00 x00 x00 x00 x00 x00 x00)))
(T (W x00 x00 x00 x00 x00 x00 x00 x00)
(L (W xff xff xff xff xff xff xff xff)) E))
(T (W x54 x00 x00 x00 x48 x00 x00 x00)
(T (W xff xff xff xff xc4 x00 x00 x00)
(L (W x00 x00 x80 xbf x00 x00 x80 xbf)) E)
(T (W x00 x00 x00 x00 x00 x00 x00 x00)
(L (W x00 x00 x00 x00 x00 x00 x00 x00)) E)))
(T (W x00 x00 x00 x00 x00 x00 x00 x00)
(T (W x00 x00 x00 x00 x00 x00 x00 x00)
(T (W xff xff xff xff xff xff xff xff)
(L (W x00 x00 x80 xbf x00 x00 x80 xbf))
(L (W xff xff xff xff xff xff xff xff)))
(T (W xac x0c x00 x00 x90 x0b x00 x00)
(L (W x54 x00 x00 x00 x48 x00 x00 x00)) E))
(T (W xff xff xff xff xff xff xff xff)
(T (W x1c x00 x00 x00 xb0 x00 x00 x00)
(L (W x00 x00 x00 x00 x00 x00 x00 x00)) E)
(T (W xff xff xff xff xff xff xff xff)
(L (W x11 x00 x00 x00 x14 x00 x00 x00)) E))))
(T (W x00 x00 x80 x3f x00 x00 x80 x3f)
(T (W x00 x00 x00 x00 x00 x00 x00 x00)
(T (W x00 x00 x80 x3f x00 x00 x80 x3f)
(T (W xff xff xff xff xff xff xff xff)
(L (W x00 x00 x80 xbf x00 x00 x80 xbf))
(L (W x6c x00 x00 x00 x60 x00 x00 x00)))
(T (W x00 x00 x80 x3f x00 x00 x80 x3f)
(L (W x18 x00 x00 x00 x0c x00 x00 x00)) E))
(T (W x45 x26 x22 x84 xe4 x9c xf2 xcb)
(T (W x00 x00 x00 x00 x52 x30 xfc xff)
(L (W xff xff xff xff xc4 x00 x00 x00)) E)
(T (W x00 x00 x00 x00 x00 x00 x00 x00)
(L (W x00 x00 x80 xbf x00 x00 x80 xbf)) E)))
(T (W x8a x7d xfd xff x00 x00 x01 x01)
(T (W x00 x00 x00 x00 x00 x00 x00 x00)
(T (W x45 x26 x22 x84 xe4 x9c xf2 xcb)
(L (W x00 x00 x00 x00 x00 x00 x00 x00))
(L (W x04 x00 x00 x00 x70 x03 x00 x00)))
(T (W x00 x00 x00 x00 x00 x00 x00 x00)
(L (W xff xff xff xff xff xff xff xff)) E))
(T (W xff xff xff xff xff xff xff xff)
(T (W x00 x00 x80 x3f x00 x00 x80 x3f)
(L (W xcc x00 x00 x00 x01 x00 x00 x00)) E)
(T (W x6c x00 x00 x00 x60 x00 x00 x00)
(L (W xff xff xff xff xff xff xff xff)) E))))))
(T (W x00 x00 x00 x00 x00 x00 x00 x00)
(T (W x00 x00 x00 x00 x00 x00 x00 x00)
(T (W xd2 xc2 xf9 xff x78 x00 x00 x00)
(T (W x68 x00 x00 x00 x5c x00 x00 x00)
(T (W xff xff xff xff xff xff xff xff)
(T (W x50 x00 x00 x00 x44 x00 x00 x00)
(L (W x00 x00 x00 x00 x00 x00 x00 x00))
(L (W x00 x00 x00 x00 x12 x00 x00 x00)))
(T (W x45 x26 x22 x84 xe4 x9c xf2 xcb)
(L (W xff xff xff xff xff xff xff xff)) E))
(T (W x22 x00 x00 x00 x67 x72 x6f x75)
(T (W x18 x00 x00 x00 x0c x00 x00 x00)
(L (W x00 x00 x80 xbf x00 x00 x80 xbf)) E)
(T (W x18 x00 x00 x00 x10 x00 x00 x00)
(L (W xff xff xff xff xff xff xff xff)) E)))
(T (W x00 x00 x00 x00 x00 x00 x00 x00)
(T (W x00 x00 x80 x3f x00 x00 x80 x3f)
(T (W xb0 x00 x00 x00 x64 x00 x00 x00)
(L (W x54 x00 x00 x00 x48 x00 x00 x00))
(L (W x18 x00 x00 x00 x10 x00 x00 x00)))
(T (W x00 x00 x00 x00 x00 x00 x00 x00)
(L (W x00 x00 x80 xbf x00 x00 x80 xbf)) E))
(T (W x00 x00 x80 x3f x00 x00 x80 x3f)
(T (W x00 x00 x00 x00 x64 x44 xfc xff)
(L (W x00 x00 x00 x00 x00 x00 x00 x00)) E)
(T (W xff xff xff xff xff xff xff xff)
(L (W x45 x26 x22 x84 xe4 x9c xf2 xcb)) E))))
(T (W x68 x00 x00 x00 x5c x00 x00 x00)
(T (W x45 x26 x22 x84 xe4 x9c xf2 xcb)
(T (W x00 x00 x80 x3f x00 x00 x80 x3f)
(T (W x45 x26 x22 x84 xe4 x9c xf2 xcb)
(L (W xff xff xff xff xff xff xff xff))
(L (W x00 x00 x00 x00 x00 x00 x00 x00)))
(T (W x00 x00 x80 x3f x00 x00 x80 x3f)
(L (W x00 x00 x00 x00 x00 x00 x00 x00)) E))
(T (W x54 x00 x00 x00 x48 x00 x00 x00)
(T (W x8a x35 xff xff x00 x00 x01 x01)
(L (W xff xff xff xff xb0 x00 x00 x00)) E)
(T (W x7c x33 xfd xff x21 x00 x00 x00)
(L (W x45 x26 x22 x84 xe4 x9c xf2 xcb)) E)))
(T (W xff xff xff xff xff xff xff xff)
(T (W x00 x00 x00 x00 x00 x00 x00 x00)
(T (W x46 x53 x59 x53 x5f x4e x53 x5f)
(L (W xff xff xff xff xc8 x00 x00 x00))
(L (W x00 x00 x00 x00 x00 x00 x00 x00)))
(T (W xd8 x00 x00 x00 xb4 x00 x00 x00)
(L (W xcc x00 x00 x00 x02 x00 x00 x00)) E))
(T (W xd4 x00 x00 x00 xc8 x00 x00 x00)
(T (W xff xff xff xff xff xff xff xff)
(L (W x00 x00 x80 xbf x00 x00 x80 xbf)) E)
(T (W x49 xa1 x68 x4a xeb x5f xdd x3d)
(L (W xff xff xff xff xff xff xff xff)) E)))))
(T (W x00 x00 x80 x3f x00 x00 x80 x3f)
(T (W xff xff xff xff x03 x00 x00 x00)
(T (W xff xff xff xff xff xff xff xff)
(T (W xff xff xff xff xff xff xff xff)
(T (W x00 x00 x00 x00 x00 x00 x00 x00)
(L (W x00 x00 x80 xbf x00 x00 x80 xbf))
(L (W x00 x00 x80 xbf x00 x00 x80 xbf)))
(T (W x00 x00 x00 x00 x00 x00 x00 x00)
(L (W x00 x00 x00 x00 x00 x00 x00 x00)) E))
(T (W xff xff xff xff xc4 x00 x00 x00)
(T (W xff xff xff xff xff xff xff xff)
(L (W xf4 x15 xfe xff x00 x01 x01 x01)) E)
(T (W x04 x00 x00 x00 x92 xfd xff xff)
(L (W x00 x00 x00 x00 x00 x00 x00 x00)) E)))
(T (W x7c x63 xfa xff x0f x00 x00 x00)
(T (W x00 x00 x00 x00 x00 x00 x00 x00)
(T (W xff xff xff xff xff xff xff xff)
(L (W x45 x26 x22 x84 xe4 x9c xf2 xcb))
(L (W xff xff xff xff xff xff xff xff)))
(T (W x61 x64 x65 x72 x5f x77 x69 x6c)
(L (W x00 x00 x00 x00 x64 xd4 xfe xff)) E))
(T (W x9f x01 x00 x00 xff xff xff xff)
(T (W x18 x00 x00 x00 x10 x00 x00 x00)
(L (W x00 x00 x00 x00 x00 x00 x00 x00)) E)
(T (W x46 x53 x59 x53 x5f x4e x53 x5f)
(L (W xff xff xff xff xff xff xff xff)) E))))
(T (W xf4 xf5 xf9 xff x00 x01 x01 x01)
(T (W x00 x00 x00 x00 x00 x00 x00 x00)
(T (W x00 x00 x80 x3f x00 x00 x80 x3f)
(T (W x00 x00 x00 x00 x00 x00 x00 x00)
(L (W xff xff xff xff xff xff xff xff))
(L (W xd2 xb2 xff xff x78 x00 x00 x00)))
(T (W x00 x00 x80 x3f x00 x00 x80 x3f)
(L (W x00 x00 x00 x00 x00 x00 x00 x00)) E))
(T (W xff xff xff xff xff xff xff xff)
(T (W x00 x00 x00 x00 x00 x00 x00 x00)
(L (W xff xff xff xff xff xff xff xff)) E)
(T (W x00 x00 x80 xbf x00 x00 x80 xbf)
(L (W x00 x00 x00 x00 x00 x00 x00 x00)) E)))
(T (W x00 x00 x00 x00 x00 x00 x00 x00)
(T (W x50 x00 x00 x00 x44 x00 x00 x00)
(T (W x00 x00 x00 x00 x00 x00 x00 x00)
(L (W x00 x00 x00 x00 x00 x00 x00 x00))
(L (W x00 x00 x00 x00 x00 x00 x00 x00)))
(T (W xff xff xff xff xff xff xff xff)
(L (W xff xff xff xff xff xff xff xff)) E))
(T (W x00 x00 x00 x00 x00 x00 x00 x00)
(T (W x45 x26 x22 x84 xe4 x9c xf2 xcb)
(L (W xff xff xff xff x9c x00 x00 x00)) E)
(T (W x00 x00 x80 xbf x00 x00 x80 xbf)
(L (W x00 x00 x00 x00 x00 x00 x00 x00)) E))))))))
(T (W x8c x0f x00 x00 x70 x0e x00 x00)
(T (W xd2 x80 xf9 xff x78 x00 x00 x00)
(T (W x00 x00 x00 x00 x00 x00 x00 x00)
(T (W x45 x26 x22 x84 xe4 x9c xf2 xcb)
(T (W xff xff xff xff xff xff xff xff)
(T (W x45 x26 x22 x84 xe4 x9c xf2 xcb)
(T (W xff xff xff xff x04 x00 x00 x00)
(T (W x00 x00 x00 x00 x02 x78 xfb xff)
(L (W x30 x32 x5f x43 x4c x45 x41 x52))
(L (W xff xff xff xff xff xff xff xff)))
(T (W x00 x00 x00 x00 x00 x00 x00 x00)
(L (W x6c x00 x00 x00 x60 x00 x00 x00)) E))
(T (W x00 x00 x80 x3f x00 x00 x80 x3f)
(T (W x00 x00 x00 x00 x00 x00 x00 x00)
(L (W x04 x00 x00 x00 xe2 xff xfd xff))
(L (W x00 x00 x00 x00 x06 x00 x00 x00)))
(T (W x00 x00 x00 x00 x00 x00 x62 x00)
(L (W x18 x00 x00 x00 x10 x00 x00 x00)) E)))
(T (W x00 x00 x00 x00 x02 x00 x00 x00)
(T (W x00 x00 x00 x00 x00 x00 x00 x00)
(T (W x00 x00 x00 x00 x00 x00 x00 x00)
(L (W x00 x00 x00 x00 x00 x00 x00 x00))
(L (W x4f x84 x6f x8b xe8 xcb x63 xb7)))
(T (W x24 xc0 xfc xff x16 x00 x00 x00)
(L (W x04 x00 x00 x00 x70 x03 x00 x00)) E))
(T (W xff xff xff xff x9c x00 x00 x00)
(T (W x00 x00 x00 x00 x00 x00 x00 x00)
(L (W x18 x00 x00 x00 x10 x00 x00 x00)) E)
(T (W x00 x00 x00 x00 x00 x00 x00 x00)
(L (W x45 x44 x00 x00 x00 x00 x00 x00)) E))))
(T (W x00 x00 x00 x00 x00 x00 x00 x00)
(T (W xf4 x1b xfa xff x00 x01 x01 x01)
(T (W x45 x26 x22 x84 xe4 x9c xf2 xcb)
(T (W x9f x01 x00 x00 xff xff xff xff)
(L (W x00 x00 x00 x00 x00 x00 x00 x00))
(L (W x45 x26 x22 x84 xe4 x9c xf2 xcb)))
(T (W xff xff xff xff x03 x00 x00 x00)
(L (W xff xff xff xff xff xff xff xff)) E))
(T (W x34 x01 x00 x00 x04 x00 x00 x00)
(T (W x19 x00 x00 x00 x1c x00 x00 x00)
(L (W x00 x00 x80 xbf x00 x00 x80 xbf)) E)
(T (W x45 x26 x22 x84 xe4 x9c xf2 xcb)
(L (W x00 x00 x00 x00 x52 x1e xff xff)) E)))
(T (W xff xff xff xff xff xff xff xff)
(T (W xff xff xff xff xff xff xff xff)
(T (W xff xff xff xff xff xff xff xff)
(L (W x00 x00 x80 xbf x00 x00 x80 xbf))
(L (W x19 x00 x00 x00 x1c x00 x00 x00)))
(T (W xff xff xff xff xff xff xff xff)
(L (W x00 x00 x00 x00 x00 x00 x00 x00)) E))
(T (W x8a x6b xfe xff x00 x00 x01 x01)
(T (W x00 x00 x80 x3f x00 x00 x80 x3f)
(L (W x30 x32 x5f x43 x4c x45 x41 x52)) E)
(T (W xff xff xff xff xff xff xff xff)
(L (W x00 x00 x80 xbf x00 x00 x80 xbf)) E)))))
(T (W x64 x00 x00 x00 xa0 x00 x00 x00)
(T (W x00 x00 x00 x00 x9a x63 xfd xff)
(T (W x00 x00 x00 x00 x00 x00 x00 x00)
(T (W x68 x00 x00 x00 x5c x00 x00 x00)
(T (W x00 x00 x80 x3f x00 x00 x80 x3f)
(L (W x00 x00 x00 x00 x00 x00 x00 x00))
(L (W x00 x00 x01 x01 x6c x00 x00 x00)))
(T (W x3b x01 x00 x00 xff xff xff xff)
(L (W xf4 x8b xfe xff x00 x01 x01 x01)) E))
(T (W x12 x00 x00 x00 x46 x53 x59 x53)
(T (W x00 x00 x80 x3f x00 x00 x80 x3f)
(L (W x7c x19 xfe xff x0b x00 x00 x00)) E)
(T (W xff xff xff xff xff xff xff xff)
(L (W xff xff xff xff xff xff xff xff)) E)))
(T (W xff xff xff xff xff xff xff xff)
(T (W xd0 x00 x00 x00 xff xff xff xff)
(T (W x00 x00 x80 x3f x00 x00 x80 x3f)
(L (W x00 x00 x00 x00 x00 x00 x00 x00))
(L (W xf4 xcb xff xff x00 x01 x01 x01)))
(T (W x4e x4f x54 x5f x52 x45 x53 x50)
(L (W x00 x00 x00 x00 x00 x00 x00 x00)) E))
(T (W x00 x00 x80 x3f x00 x00 x80 x3f)
(T (W x49 xa1 x68 x4a xeb x5f xdd x3d)
(L (W xff xff xff xff xff xff xff xff)) E)
(T (W x54 x00 x00 x00 x48 x00 x00 x00)
(L (W x49 xa1 x68 x4a xeb x5f xdd x3d)) E))))
(T (W x00 x00 x80 x3f x00 x00 x80 x3f)
(T (W xff xff xff xff xff xff xff xff)
(T (W x00 x00 x00 x00 x00 x00 x00 x00)
(T (W x22 xa7 xfb xff x74 x00 x00 x00)
(L (W x00 x00 x00 x00 x00 x00 x00 x00))
(L (W x49 xa1 x68 x4a xeb x5f xdd x3d)))
(T (W x70 x5f x77 x69 x6c x64 x5f x70)
(L (W xff xff xff xff xff xff xff xff)) E))
(T (W x45 x26 x22 x84 xe4 x9c xf2 xcb)
(T (W xff xff xff xff xff xff xff xff)
(L (W x54 x00 x00 x00 x48 x00 x00 x00)) E)
(T (W x00 x00 x00 x00 x00 x00 x00 x00)
(L (W xff xff xff xff xff xff xff xff)) E)))
(T (W xff xff xff xff xff xff xff xff)
(T (W x37 x00 x00 x00 xff xff xff xff)
(T (W x74 x03 x00 x00 x4c x02 x00 x00)
(L (W xff xff xff xff xff xff xff xff))
(L (W x1d x00 x00 x00 x20 x00 x00 x00)))
(T (W x5f x77 x69 x6c x64 x5f x70 x6f)
(L (W x00 x00 x80 xbf x00 x00 x80 xbf)) E))
(T (W x22 x67 xfb xff x74 x00 x00 x00)
(T (W x00 x00 x00 x00 x00 x00 x00 x00)
(L (W x4f x84 x6f x8b xe8 xcb x63 xb7)) E)
(T (W x00 x00 x00 x00 x00 x00 x00 x00)
(L (W x18 x00 x00 x00 x0c x00 x00 x00)) E))))))
(T (W xff xff xff xff xff xff xff xff)
(T (W x00 x00 x00 x00 x00 x00 x00 x00)
(T (W x00 x00 x80 x3f x00 x00 x80 x3f)
(T (W x00 x00 x00 x00 x00 x00 x00 x00)
(T (W x45 x26 x22 x84 xe4 x9c xf2 xcb)
(T (W x00 x00 x80 x3f x00 x00 x80 x3f)
(L (W x00 x00 x00 x00 x00 x00 x00 x00))
(L (W xff xff xff xff xff xff xff xff)))
(T (W x00 x00 x00 x00 x00 x00 x00 x00)
(L (W x00 x00 x00 x00 x64 x82 xfe xff)) E))
(T (W xff xff xff xff xff xff xff xff)
(T (W x4f x84 x6f x8b xe8 xcb x63 xb7)
(L (W x00 x00 x00 x00 x12 x00 x00 x00))
(L (W x00 x00 x62 x00 x70 x00 x04 x00)))
(T (W x00 x00 x00 x00 x26 x00 x00 x00)
(L (W x15 x00 x00 x00 x18 x00 x00 x00)) E)))
(T (W xff xff xff xff xff xff xff xff)
(T (W x2c x6e xe3 xa1 x8a x07 x04 x32)
(T (W x00 x00 x80 x3f x00 x00 x80 x3f)
(L (W x11 x00 x00 x00 x0c x00 x00 x00))
(L (W x00 x00 x80 xbf x00 x00 x80 xbf)))
(T (W xff xff xff xff xff xff xff xff)
(L (W x00 x00 x00 x00 x00 x00 x00 x00)) E))
(T (W x13 x00 x00 x00 x10 x00 x00 x00)
(T (W x00 x00 x00 x00 x00 x00 x00 x00)
(L (W xff xff xff xff xff xff xff xff)) E)
(T (W x00 x00 x80 xbf x00 x00 x80 xbf)
(L (W x00 x00 x00 x00 x00 x00 x00 x00)) E))))
(T (W x45 x26 x22 x84 xe4 x9c xf2 xcb)
(T (W x01 x00 x00 x00 x04 x00 x00 x00)
(T (W x45 x26 x22 x84 xe4 x9c xf2 xcb)
(T (W x49 xa1 x68 x4a xeb x5f xdd x3d)
(L (W xf4 xa3 xfd xff x00 x01 x01 x01))
(L (W x00 x00 x00 x00 xf8 xa3 xff xff)))
(T (W x00 x00 x00 x00 x00 x00 x00 x00)
(L (W xff xff xff xff xff xff xff xff)) E))
(T (W x00 x00 x00 x00 x00 x00 x00 x00)
(T (W xff xff xff xff xff xff xff xff)
(L (W x00 x00 x80 xbf x00 x00 x80 xbf)) E)
(T (W xff xff xff xff xff xff xff xff)
(L (W x00 x00 x00 x00 x00 x00 x00 x00)) E)))
(T (W xff xff xff xff xff xff xff xff)
(T (W xff xff xff xff xff xff xff xff)
(T (W xff xff xff xff xff xff xff xff)
(L (W x54 x00 x00 x00 x48 x00 x00 x00))
(L (W x00 x00 x00 x00 x64 xe2 xff xff)))
(T (W x30 x15 x00 x00 x04 x14 x00 x00)
(L (W x00 x00 x80 xbf x00 x00 x80 xbf)) E))
(T (W x00 x00 x80 x3f x00 x00 x80 x3f)
(T (W x50 x00 x00 x00 x44 x00 x00 x00)
(L (W x00 x00 x00 x00 x00 x00 x00 x00)) E)
(T (W x30 x32 x5f x43 x4c x45 x41 x52)
(L (W x00 x00 x00 x00 x64 x62 xff xff)) E)))))
(T (W x45 x26 x22 x84 xe4 x9c xf2 xcb)
(T (W xf4 xd3 xf9 xff x00 x01 x01 x01)
(T (W x00 x00 x80 x3f x00 x00 x80 x3f)
(T (W x00 x00 x80 x3f x00 x00 x80 x3f)
(T (W xff xff xff xff x9c x00 x00 x00)
(L (W x4c x45 x41 x52 x45 x44 x00 x00))
(L (W x00 x00 x00 x00 x00 x00 x00 x00)))
(T (W xff xff xff xff xff xff xff xff)
(L (W xff xff xff xff x9c x00 x00 x00)) E))
(T (W x00 x00 x00 x00 x00 x00 x00 x00)
(T (W x45 x26 x22 x84 xe4 x9c xf2 xcb)
(L (W x00 x00 x00 x00 x00 x00 x00 x00)) E)
(T (W x45 x26 x22 x84 xe4 x9c xf2 xcb)
(L (W x00 x00 x01 x01 x5d x00 x00 x00)) E)))
(T (W xff xff xff xff xff xff xff xff)
(T (W xff xff xff xff xff xff xff xff)
(T (W xff xff xff xff xc4 x00 x00 x00)
(L (W x00 x00 x80 xbf x00 x00 x80 xbf))
(L (W x00 x00 x80 xbf x00 x00 x80 xbf)))
(T (W xc4 x00 x00 x00 x01 x00 x00 x00)
(L (W x00 x00 x80 xbf x00 x00 x80 xbf)) E))
(T (W xff xff xff xff xff xff xff xff)
(T (W x00 x00 x80 x3f x00 x00 x80 x3f)
(L (W xff xff xff xff xff xff xff xff)) E)
(T (W xff xff xff xff xff xff xff xff)
(L (W x00 x00 x80 xbf x00 x00 x80 xbf)) E))))
(T (W x00 x00 x80 x3f x00 x00 x80 x3f)
(T (W x8a x43 xfd xff x00 x00 x01 x01)
(T (W x00 x00 x00 x00 x00 x00 x00 x00)
(T (W xff xff xff xff xff xff xff xff)
(L (W xff xff xff xff x9c x00 x00 x00))
(L (W x00 x00 x80 xbf x00 x00 x80 xbf)))
(T (W x00 x00 x00 x00 x00 x00 x00 x00)
(L (W xff xff xff xff xff xff xff xff)) E))
(T (W x6c x00 x00 x00 x60 x00 x00 x00)
(T (W x8a x43 xff xff x00 x00 x01 x01)
(L (W x45 x26 x22 x84 xe4 x9c xf2 xcb)) E)
(T (W x7c x41 xfd xff x19 x00 x00 x00)
(L (W x00 x00 x01 x01 xd8 x00 x00 x00)) E)))
(T (W xb8 x00 x00 x00 xac x00 x00 x00)
(T (W x38 x00 x3c x00 x40 x00 x44 x00)
(T (W x45 x44 x00 x00 x00 x00 x00 x00)
(L (W xff xff xff xff xff xff xff xff))
(L (W x5d x00 x00 x00 xff xff xff xff)))
(T (W x00 x00 x80 x3f x00 x00 x80 x3f)
(L (W x45 x26 x22 x84 xe4 x9c xf2 xcb)) E))
(T (W xff xff xff xff xff xff xff xff)
(T (W x00 x00 x00 x00 x00 x00 x00 x00)
(L (W x00 x00 x80 xbf x00 x00 x80 xbf)) E)
(T (W xff xff xff xff xff xff xff xff)
(L (W xff xff xff xff xff xff xff xff)) E)))))))
(T (W xff xff xff xff xff xff xff xff)
(T (W xf4 x8f xf9 xff x00 x01 x01 x01)
(T (W xff xff xff xff xff xff xff xff)
(T (W x00 x00 x00 x00 x00 x00 x00 x00)
(T (W xff xff xff xff xff xff xff xff)
(T (W x00 x00 x00 x00 x00 x00 x00 x00)
(T (W xc8 x00 x00 x00 xbc x00 x00 x00)
(L (W xff xff xff xff xb0 x00 x00 x00))
(L (W x45 x26 x22 x84 xe4 x9c xf2 xcb)))
(T (W x68 x00 x00 x00 x5c x00 x00 x00)
(L (W xc1 xa8 xaa x28 xbf xd5 x56 x6a)) E))
(T (W x49 xa1 x68 x4a xeb x5f xdd x3d)
(T (W xff xff xff xff xbc x00 x00 x00)
(L (W x00 x00 x80 xbf x00 x00 x80 xbf))
(L (W x45 x26 x22 x84 xe4 x9c xf2 xcb)))
(T (W x00 x00 x00 x00 x26 x00 x00 x00)
(L (W x00 x00 x00 x00 x00 x00 x00 x00)) E)))
(T (W x50 x00 x00 x00 x44 x00 x00 x00)
(T (W x45 x26 x22 x84 xe4 x9c xf2 xcb)
(T (W xff xff xff xff xff xff xff xff)
(L (W x00 x00 x80 xbf x00 x00 x80 xbf))
(L (W xff xff xff xff xff xff xff xff)))
(T (W x00 x00 x80 x3f x00 x00 x80 x3f)
(L (W x00 x00 x80 xbf x00 x00 x80 xbf)) E))
(T (W x00 x00 x80 x3f x00 x00 x80 x3f)
(T (W xff xff xff xff xff xff xff xff)
(L (W x00 x00 x00 x00 x00 x00 x00 x00)) E)
(T (W xff xff xff xff xff xff xff xff)
(L (W xc4 x00 x00 x00 x02 x00 x00 x00)) E))))
(T (W xff xff xff xff xff xff xff xff)
(T (W x00 x00 x80 x3f x00 x00 x80 x3f)
(T (W xb8 x00 x00 x00 xac x00 x00 x00)
(T (W x00 x00 x00 x00 x64 x9e xfb xff)
(L (W x03 x00 x00 x00 xcc x00 x00 x00))
(L (W xff xff xff xff xff xff xff xff)))
(T (W x00 x00 x80 x3f x00 x00 x80 x3f)
(L (W x00 x00 x00 x00 x00 x00 x00 x00)) E))
(T (W x45 x26 x22 x84 xe4 x9c xf2 xcb)
(T (W x00 x00 x00 x00 x00 x00 x00 x00)
(L (W x5d x00 x00 x00 xff xff xff xff)) E)
(T (W x00 x00 x80 xbf x00 x00 x80 xbf)
(L (W x00 x00 x80 xbf x00 x00 x80 xbf)) E)))
(T (W x45 x26 x22 x84 xe4 x9c xf2 xcb)
(T (W x00 x00 x80 x3f x00 x00 x80 x3f)
(T (W x00 x00 x80 x3f x00 x00 x80 x3f)
(L (W xff xff xff xff xff xff xff xff))
(L (W x00 x00 x00 x00 x00 x00 x00 x00)))
(T (W x00 x00 x80 x3f x00 x00 x80 x3f)
(L (W xff xff xff xff xff xff xff xff)) E))
(T (W x21 x00 x00 x00 x24 x00 x00 x00)
(T (W x00 x00 x00 x00 x00 x00 x00 x00)
(L (W x03 x00 x00 x00 xd8 x00 x00 x00)) E)
(T (W x6c x00 x00 x00 x60 x00 x00 x00)
(L (W x00 x00 x00 x00 x00 x00 x00 x00)) E)))))
(T (W xc9 x00 x00 x00 xff xff xff xff)
(T (W x45 x26 x22 x84 xe4 x9c xf2 xcb)
(T (W xff xff xff xff xff xff xff xff)
(T (W x00 x00 x00 x00 x00 x00 x00 x00)
(T (W x92 x45 x99 x81 x61 x09 x88 x67)
(L (W x22 x8b xfd xff x74 x00 x00 x00))
(L (W x00 x00 x00 x00 x64 x8e xff xff)))
(T (W x45 x26 x22 x84 xe4 x9c xf2 xcb)
(L (W x00 x00 x00 x00 x00 x00 x00 x00)) E))
(T (W xcc x00 x00 x00 xc0 x00 x00 x00)
(T (W xff xff xff xff xff xff xff xff)
(L (W xbc x00 x00 x00 x46 x00 x00 x00)) E)
(T (W x22 x0b xfd xff x74 x00 x00 x00)
(L (W x00 x00 x00 x00 x00 x00 x00 x00)) E)))
(T (W x00 x00 x80 x3f x00 x00 x80 x3f)
(T (W x00 x00 x80 x3f x00 x00 x80 x3f)
(T (W x00 x00 x00 x00 x00 x00 x00 x00)
(L (W xff xff xff xff xb0 x00 x00 x00))
(L (W x00 x00 x00 x00 xe2 xd3 xff xff)))
(T (W x5c x00 x60 x00 x00 x00 x00 x00)
(L (W xb4 x00 x00 x00 x64 x00 x00 x00)) E))
(T (W x24 x54 xfb xff x11 x00 x00 x00)
(T (W xff xff xff xff xff xff xff xff)
(L (W x00 x00 x80 xbf x00 x00 x80 xbf)) E)
(T (W x00 x00 x00 x00 xc2 x4d xfd xff)
(L (W xff xff xff xff xff xff xff xff)) E))))
(T (W xff xff xff xff xff xff xff xff)
(T (W xd2 x2c xfa xff x78 x00 x00 x00)
(T (W x68 x00 x00 x00 x5c x00 x00 x00)
(T (W x00 x00 x00 x00 x00 x00 x00 x00)
(L (W x00 x00 x80 xbf x00 x00 x80 xbf))
(L (W x03 x00 x00 x00 xd0 x00 x00 x00)))
(T (W xb8 x00 x00 x00 xac x00 x00 x00)
(L (W x00 x00 x80 xbf x00 x00 x80 xbf)) E))
(T (W x00 x00 x00 x00 x00 x00 x00 x00)
(T (W x00 x00 x80 x3f x00 x00 x80 x3f)
(L (W x00 x00 x00 x00 x00 x00 x00 x00)) E)
(T (W x00 x00 x80 xbf x00 x00 x80 xbf)
(L (W xd2 x2c xff xff x78 x00 x00 x00)) E)))
(T (W x00 x00 x00 x00 x00 x00 x00 x00)
(T (W x00 x00 x00 x00 x00 x00 x00 x00)
(T (W x00 x00 x80 x3f x00 x00 x80 x3f)
(L (W x45 x26 x22 x84 xe4 x9c xf2 xcb))
(L (W x45 x26 x22 x84 xe4 x9c xf2 xcb)))
(T (W x00 x00 x80 x3f x00 x00 x80 x3f)
(L (W x46 x53 x59 x53 x5f x4e x53 x5f)) E))
(T (W x45 x44 x00 x00 x00 x00 x00 x00)
(T (W x22 x6b xfc xff x74 x00 x00 x00)
(L (W xff xff xff xff xff xff xff xff)) E)
(T (W xff xff xff xff xbc x00 x00 x00)
(L (W x00 x00 x00 x00 x00 x00 x00 x00)) E))))))
(T (W x45 x26 x22 x84 xe4 x9c xf2 xcb)
(T (W x00 x00 x80 x3f x00 x00 x80 x3f)
(T (W xbc x00 x00 x00 xb0 x00 x00 x00)
(T (W xff xff xff xff xff xff xff xff)
(T (W x00 x00 x00 x00 x00 x00 x00 x00)
(T (W xb8 x00 x00 x00 x14 x00 x00 x00)
(L (W x00 x00 x80 xbf x00 x00 x80 xbf))
(L (W xd2 x84 xff xff x78 x00 x00 x00)))
(T (W x50 x00 x00 x00 x44 x00 x00 x00)
(L (W x00 x00 x00 x00 x12 x00 x00 x00)) E))
(T (W x00 x00 x00 x00 x64 x06 xfb xff)
(T (W xff xff xff xff xff xff xff xff)
(L (W xf4 x07 xfe xff x00 x01 x01 x01)) E)
(T (W x00 x00 x00 x00 x00 x00 x00 x00)
(L (W x00 x00 x00 x00 x00 x00 x00 x00)) E)))
(T (W x68 x00 x00 x00 x5c x00 x00 x00)
(T (W x18 x00 x00 x00 x0c x00 x00 x00)
(T (W x30 x32 x5f x43 x4c x45 x41 x52)
(L (W xff xff xff xff xc8 x00 x00 x00))
(L (W x00 x00 x00 x00 x02 xc4 xff xff)))
(T (W x00 x00 x80 x3f x00 x00 x80 x3f)
(L (W xf4 xc7 xfe xff x00 x01 x01 x01)) E))
(T (W xb0 x00 x00 x00 x64 x00 x00 x00)
(T (W xff xff xff xff xff xff xff xff)
(L (W x45 x26 x22 x84 xe4 x9c xf2 xcb)) E)
(T (W x00 x00 x00 x00 x00 x00 x00 x00)
(L (W xff xff xff xff xff xff xff xff)) E))))
(T (W xff xff xff xff xff xff xff xff)
(T (W x68 x00 x00 x00 x5c x00 x00 x00)
(T (W x45 x26 x22 x84 xe4 x9c xf2 xcb)
(T (W x02 x00 x00 x00 x2c x01 x00 x00)
(L (W xff xff xff xff x19 x00 x00 x00))
(L (W x00 x00 x80 xbf x00 x00 x80 xbf)))
(T (W xb8 x00 x00 x00 xac x00 x00 x00)
(L (W x00 x00 x80 xbf x00 x00 x80 xbf)) E))
(T (W xcc x00 x00 x00 xc0 x00 x00 x00)
(T (W x00 x00 x00 x00 x00 x00 x00 x00)
(L (W x54 x02 x00 x00 x38 x01 x00 x00)) E)
(T (W x00 x00 x80 xbf x00 x00 x80 xbf)
(L (W x00 x00 x80 xbf x00 x00 x80 xbf)) E)))
(T (W x00 x00 x00 x00 x00 x00 x00 x00)
(T (W x45 x26 x22 x84 xe4 x9c xf2 xcb)
(T (W x54 x00 x00 x00 x48 x00 x00 x00)
(L (W x9f x01 x00 x00 xff xff xff xff))
(L (W x00 x00 x00 x00 x00 x00 x00 x00)))
(T (W x5f x4e x53 x5f x30 x32 x5f x43)
(L (W xff xff xff xff xff xff xff xff)) E))
(T (W xff xff xff xff xff xff xff xff)
(T (W x00 x00 x80 x3f x00 x00 x80 x3f)
(L (W xff xff xff xff xff xff xff xff)) E)
(T (W x45 x26 x22 x84 xe4 x9c xf2 xcb)
(L (W x00 x00 x00 x00 x00 x00 x00 x00)) E)))))
(T (W xd2 xb4 xf9 xff x78 x00 x00 x00)
(T (W xff xff xff xff xff xff xff xff)
(T (W x24 x1c xfa xff x3c x00 x00 x00)
(T (W x00 x00 x00 x00 x00 x00 x00 x00)
(T (W x00 x00 x00 x00 x00 x00 x00 x00)
(L (W x18 x00 x00 x00 x0c x00 x00 x00))
(L (W xff xff xff xff xff xff xff xff)))
(T (W x45 x26 x22 x84 xe4 x9c xf2 xcb)
(L (W x00 x00 x00 x00 x00 x00 x00 x00)) E))
(T (W x00 x00 x80 x3f x00 x00 x80 x3f)
(T (W x8a x27 xff xff x00 x00 x01 x01)
(L (W xff xff xff xff xff xff xff xff)) E)
(T (W x45 x26 x22 x84 xe4 x9c xf2 xcb)
(L (W x54 x00 x00 x00 x48 x00 x00 x00)) E)))
(T (W x00 x00 x80 x3f x00 x00 x80 x3f)
(T (W x54 x00 x00 x00 x48 x00 x00 x00)
(T (W x46 x53 x59 x53 x5f x4e x53 x5f)
(L (W xff xff xff xff xff xff xff xff))
(L (W x30 x32 x5f x43 x4c x45 x41 x52)))
(T (W x00 x00 x80 x3f x00 x00 x80 x3f)
(L (W xff xff xff xff xff xff xff xff)) E))
(T (W x00 x00 x80 x3f x00 x00 x80 x3f)
(T (W x00 x00 x00 x00 x00 x00 x00 x00)
(L (W x45 x26 x22 x84 xe4 x9c xf2 xcb)) E)
(T (W x00 x00 x80 xbf x00 x00 x80 xbf)
(L (W x00 x00 x00 x00 x00 x00 x00 x00)) E))))
(T (W xff xff xff xff xff xff xff xff)
(T (W x00 x00 x80 x3f x00 x00 x80 x3f)
(T (W xf4 xb7 xfa xff x00 x01 x01 x01)
(T (W x00 x00 x80 x3f x00 x00 x80 x3f)
(L (W xff xff xff xff xff xff xff xff))
(L (W xff xff xff xff xff xff xff xff)))
(T (W x01 x00 x00 x00 x9c x00 x00 x00)
(L (W x00 x00 x80 xbf x00 x00 x80 xbf)) E))
(T (W x00 x00 x00 x00 x00 x00 x00 x00)
(T (W x19 x00 x00 x00 x1c x00 x00 x00)
(L (W x00 x00 x00 x00 x00 x00 x00 x00)) E)
(T (W x18 x00 x00 x00 x10 x00 x00 x00)
(L (W x18 x00 x00 x00 x10 x00 x00 x00)) E)))
(T (W x00 x00 x00 x00 x00 x00 x00 x00)
(T (W x45 x26 x22 x84 xe4 x9c xf2 xcb)
(T (W xff xff xff xff x03 x00 x00 x00)
(L (W x00 x00 x80 xbf x00 x00 x80 xbf))
(L (W x00 x00 x80 xbf x00 x00 x80 xbf)))
(T (W x00 x00 x00 x00 x00 x00 x00 x00)
(L (W x00 x00 x00 x00 x00 x00 x00 x00)) E))
(T (W x45 x26 x22 x84 xe4 x9c xf2 xcb)
(T (W xff xff xff xff x03 x00 x00 x00)
(L (W x30 x32 x5f x43 x4c x45 x41 x52)) E)
(T (W xff xff xff xff xa0 x00 x00 x00)
(L (W x00 x00 x00 x00 x00 x00 x00 x00)) E)))))))))
(T (W x80 x3b x02 x00 xb4 x36 x02 x00)
(T (W x48 xb8 x00 x00 x14 xb7 x00 x00)
(T (W x00 x00 x80 x3f x00 x00 x80 x3f)
(T (W x00 x00 x00 x00 x00 x00 x00 x00)
(T (W x6c x00 x00 x00 x60 x00 x00 x00)
(T (W xff xff xff xff xff xff xff xff)
(T (W x00 x00 x00 x00 x00 x00 x00 x00)
(T (W x68 x00 x00 x00 x5c x00 x00 x00)
(T (W xff xff xff xff xff xff xff xff)
(L (W xff xff xff xff xff xff xff xff))
(L (W xff xff xff xff xff xff xff xff)))
(T (W x00 x00 x00 x00 x00 x00 x00 x00)
(L (W x00 x00 x80 xbf x00 x00 x80 xbf)) E))
(T (W x5e xca x7b x47 xb6 x1b x58 xe8)
(T (W x45 x44 x00 x00 x00 x00 x00 x00)
(L (W xff xff xff xff xff xff xff xff))
(L (W xff xff xff xff xff xff xff xff)))
(T (W xff xff xff xff xff xff xff xff)
(L (W x6c x00 x00 x00 x60 x00 x00 x00)) E)))
(T (W xff xff xff xff xff xff xff xff)
(T (W x6f x00 x00 x00 xff xff xff xff)
(T (W x64 x5f x70 x6f x6b x65 x5f x77)
(L (W x00 x00 x00 x00 x00 x00 x00 x00))
(L (W x00 x00 x00 x00 x00 x00 x00 x00)))
(T (W xff xff xff xff xff xff xff xff)
(L (W xff xff xff xff xff xff xff xff)) E))
(T (W xd2 x37 xfb xff x78 x00 x00 x00)
(T (W x67 x67 x26 xbf x88 x9a x0d xfe)
(L (W x6c x00 x00 x00 x60 x00 x00 x00)) E)
(T (W x00 x00 x00 x00 x00 x00 x00 x00)
(L (W xff xff xff xff xff xff xff xff)) E))))
(T (W x00 x00 x00 x00 x00 x00 x00 x00)
(T (W x00 x00 x80 x3f x00 x00 x80 x3f)
(T (W x3c x00 x40 x00 x44 x00 x48 x00)
(T (W xff xff xff xff xff xff xff xff)
(L (W x00 x00 x00 x00 x00 x00 x00 x00))
(L (W x00 x00 x00 x00 x00 x00 x00 x00)))
(T (W x68 x00 x00 x00 x5c x00 x00 x00)
(L (W xff xff xff xff xa0 x00 x00 x00)) E))
(T (W xff xff xff xff xff xff xff xff)
(T (W xd2 x17 xfc xff x78 x00 x00 x00)
(L (W x00 x00 x00 x00 x00 x00 x00 x00)) E)
(T (W x00 x00 x00 x00 x00 x00 x00 x00)
(L (W xff xff xff xff xff xff xff xff)) E)))
(T (W xff xff xff xff xff xff xff xff)
(T (W xff xff xff xff xff xff xff xff)
(T (W xff xff xff xff xc4 x00 x00 x00)
(L (W x00 x00 x00 x00 x00 x00 x00 x00))
(L (W x00 x00 x80 xbf x00 x00 x80 xbf)))
(T (W xc4 x00 x00 x00 x01 x00 x00 x00)
(L (W x00 x00 x00 x00 x00 x00 x00 x00)) E))
(T (W xff xff xff xff xff xff xff xff)
(T (W x00 x00 x80 x3f x00 x00 x80 x3f)
(L (W xff xff xff xff xff xff xff xff)) E)
(T (W xff xff xff xff xff xff xff xff)
(L (W x00 x00 x80 xbf x00 x00 x80 xbf)) E)))))
(T (W x45 x26 x22 x84 xe4 x9c xf2 xcb)
(T (W xff xff xff xff xff xff xff xff)
(T (W x00 x00 x00 x00 x00 x00 x00 x00)
(T (W x00 x00 x80 x3f x00 x00 x80 x3f)
(T (W x00 x00 x80 x3f x00 x00 x80 x3f)
(L (W xff xff xff xff xff xff xff xff))
(L (W xff xff xff xff xff xff xff xff)))
(T (W xff xff xff xff xff xff xff xff)
(L (W x54 x00 x00 x00 x48 x00 x00 x00)) E))
(T (W x00 x00 x00 x00 x00 x00 x00 x00)
(T (W x00 x00 x00 x00 x00 x00 x00 x00)
(L (W xff xff xff xff xff xff xff xff)) E)
(T (W xff xff xff xff x9c x00 x00 x00)
(L (W x17 x00 x00 x00 x1a x00 x00 x00)) E)))
(T (W x64 x00 x00 x00 x9c x00 x00 x00)
(T (W xff xff xff xff xff xff xff xff)
(T (W x00 x00 x80 x3f x00 x00 x80 x3f)
(L (W x00 x00 x00 x00 x00 x00 x00 x00))
(L (W x45 x26 x22 x84 xe4 x9c xf2 xcb)))
(T (W xff xff xff xff xff xff xff xff)
(L (W x46 x53 x59 x53 x5f x4e x53 x5f)) E))
(T (W x00 x00 x00 x00 x00 x00 x00 x00)
(T (W x00 x00 x00 x00 x00 x00 x00 x00)
(L (W xff xff xff xff xb0 x00 x00 x00)) E)
(T (W x45 x26 x22 x84 xe4 x9c xf2 xcb)
(L (W x00 x00 x00 x00 x00 x00 x00 x00)) E))))
(T (W x45 x26 x22 x84 xe4 x9c xf2 xcb)
(T (W xff xff xff xff xff xff xff xff)
(T (W x00 x00 x00 x00 x00 x00 x00 x00)
(T (W x00 x00 x80 x3f x00 x00 x80 x3f)
(L (W x00 x00 x00 x00 x00 x00 x00 x00))
(L (W x7c xb8 xff xff x15 x00 x00 x00)))
(T (W x0a xb9 xff xff xb8 x01 x00 x00)
(L (W xb4 x00 x00 x00 x32 x00 x00 x00)) E))
(T (W x00 x00 x00 x00 x00 x00 x00 x00)
(T (W x01 x00 x00 x00 xb0 x00 x00 x00)
(L (W x00 x00 x80 xbf x00 x00 x80 xbf)) E)
(T (W xff xff xff xff xff xff xff xff)
(L (W xff xff xff xff xff xff xff xff)) E)))
(T (W x45 x26 x22 x84 xe4 x9c xf2 xcb)
(T (W xff xff xff xff x03 x00 x00 x00)
(T (W xff xff xff xff xff xff xff xff)
(L (W x29 x00 x00 x00 x2c x00 x00 x00))
(L (W x00 x00 x00 x00 x64 xe9 xff xff)))
(T (W xff xff xff xff xff xff xff xff)
(L (W x49 xa1 x68 x4a xeb x5f xdd x3d)) E))
(T (W x00 x00 x80 x3f x00 x00 x80 x3f)
(T (W x00 x00 x00 x00 x00 x00 x00 x00)
(L (W x00 x00 x00 x00 x00 x00 x00 x00)) E)
(T (W x00 x00 x00 x00 x00 x00 x00 x00)
(L (W x6c x00 x00 x00 x60 x00 x00 x00)) E))))))
(T (W xff xff xff xff xff xff xff xff)
(T (W x00 x00 x00 x00 x00 x00 x00 x00)
(T (W x00 x00 x80 x3f x00 x00 x80 x3f)
(T (W x00 x00 x00 x00 x00 x00 x00 x00)
(T (W x00 x00 x80 x3f x00 x00 x80 x3f)
(T (W x00 x00 x00 x00 x00 x00 x00 x00)
(L (W x00 x00 x00 x00 x00 x00 x00 x00))
(L (W xff xff xff xff xff xff xff xff)))
(T (W x92 x01 x00 x00 xff xff xff xff)
(L (W x00 x00 x80 xbf x00 x00 x80 xbf)) E))
(T (W x18 x00 x00 x00 x10 x00 x00 x00)
(T (W x00 x00 x00 x00 x00 x00 x00 x00)
(L (W x04 x00 x00 x00 xe2 x06 xfe xff))
(L (W xff xff xff xff xe8 x00 x00 x00)))
(T (W x00 x00 x00 x00 x01 x00 x00 x00)
(L (W x00 x00 x00 x00 x64 x01 xff xff)) E)))
(T (W xff xff xff xff xff xff xff xff)
(T (W xff xff xff xff xff xff xff xff)
(T (W x4f x84 x6f x8b xe8 xcb x63 xb7)
(L (W xff xff xff xff xff xff xff xff))
(L (W x00 x00 x00 x00 x00 x00 x00 x00)))
(T (W xff xff xff xff xff xff xff xff)
(L (W xff xff xff xff xff xff xff xff)) E))
(T (W xff xff xff xff xff xff xff xff)
(T (W x30 x32 x5f x43 x4c x45 x41 x52)
(L (W x22 x3e xfe xff x74 x00 x00 x00)) E)
(T (W x4f x84 x6f x8b xe8 xcb x63 xb7)
(L (W x00 x00 x00 x00 x00 x00 x00 x00)) E))))
(T (W x00 x00 x00 x00 x00 x00 x00 x00)
(T (W xff xff xff xff xff xff xff xff)
(T (W x00 x00 x00 x00 x00 x00 x00 x00)
(T (W x5f x77 x69 x6c x64 x5f x70 x6f)
(L (W x5f x4e x53 x5f x30 x32 x5f x43))
(L (W x00 x00 x00 x00 x00 x00 x00 x00)))
(T (W x64 x5f x6c x76 x31 x00 x00 x00)
(L (W x18 x00 x00 x00 x0c x00 x00 x00)) E))
(T (W x9c x03 x00 x00 x6c x02 x00 x00)
(T (W x68 x00 x00 x00 x5c x00 x00 x00)
(L (W x00 x00 x80 xbf x00 x00 x80 xbf)) E)
(T (W xff xff xff xff x8c x00 x00 x00)
(L (W x00 x00 x00 x00 x02 x1f xff xff)) E)))
(T (W xff xff xff xff xff xff xff xff)
(T (W xff xff xff xff xff xff xff xff)
(T (W xd0 x00 x00 x00 xc4 x00 x00 x00)
(L (W x00 x00 x80 xbf x00 x00 x80 xbf))
(L (W x00 x00 x80 xbf x00 x00 x80 xbf)))
(T (W xff xff xff xff xff xff xff xff)
(L (W x00 x00 x00 x00 x00 x00 x00 x00)) E))
(T (W x00 x00 x00 x00 x00 x00 x00 x00)
(T (W x00 x00 x80 x3f x00 x00 x80 x3f)
(L (W x30 x32 x5f x43 x4c x45 x41 x52)) E)
(T (W xff xff xff xff xff xff xff xff)
(L (W x00 x00 x80 xbf x00 x00 x80 xbf)) E)))))
(T (W x00 x00 x00 x00 x00 x00 x00 x00)
(T (W x54 x00 x00 x00 x48 x00 x00 x00)
(T (W x00 x00 x80 x3f x00 x00 x80 x3f)
(T (W x00 x00 x80 x3f x00 x00 x80 x3f)
(T (W x22 x8e xfb xff x74 x00 x00 x00)
(L (W xc9 x00 x00 x00 xff xff xff xff))
(L (W x00 x00 x00 x00 x00 x00 x00 x00)))
(T (W xff xff xff xff x03 x00 x00 x00)
(L (W xd2 x8f xfe xff x78 x00 x00 x00)) E))
(T (W x46 x53 x59 x53 x5f x4e x53 x5f)
(T (W x00 x00 x80 x3f x00 x00 x80 x3f)
(L (W x00 x00 x00 x00 x00 x00 x00 x00)) E)
(T (W x00 x00 x80 xbf x00 x00 x80 xbf)
(L (W x18 x00 x00 x00 x10 x00 x00 x00)) E)))
(T (W xff xff xff xff x03 x00 x00 x00)
(T (W xff xff xff xff xff xff xff xff)
(T (W x45 x26 x22 x84 xe4 x9c xf2 xcb)
(L (W x00 x00 x00 x00 x00 x00 x00 x00))
(L (W x00 x00 x80 xbf x00 x00 x80 xbf)))
(T (W x00 x00 x80 x3f x00 x00 x80 x3f)
(L (W x00 x00 x00 x00 x00 x00 x00 x00)) E))
(T (W x18 x00 x00 x00 x0c x00 x00 x00)
(T (W x00 x00 x80 x3f x00 x00 x80 x3f)
(L (W xff xff xff xff xff xff xff xff)) E)
(T (W x18 x00 x00 x00 x0c x00 x00 x00)
(L (W x4f x84 x6f x8b xe8 xcb x63 xb7)) E))))
(T (W x00 x00 x00 x00 x00 x00 x00 x00)
(T (W xff xff xff xff xff xff xff xff)
(T (W x97 x65 xa2 xcf xf2 xdb x51 x03)
(T (W xff xff xff xff x9c x00 x00 x00)
(L (W x45 x26 x22 x84 xe4 x9c xf2 xcb))
(L (W x00 x00 x00 x00 x00 x00 x00 x00)))
(T (W x24 xb7 xfc xff x1b x00 x00 x00)
(L (W xc4 x00 x00 x00 x02 x00 x00 x00)) E))
(T (W x00 x00 x80 x3f x00 x00 x80 x3f)
(T (W xff xff xff xff xff xff xff xff)
(L (W x54 x00 x00 x00 x48 x00 x00 x00)) E)
(T (W xff xff xff xff xff xff xff xff)
(L (W xff xff xff xff xff xff xff xff)) E)))
(T (W x18 x00 x00 x00 x0c x00 x00 x00)
(T (W xff xff xff xff xff xff xff xff)
(T (W x4a x00 x00 x00 xff xff xff xff)
(L (W xff xff xff xff xff xff xff xff))
(L (W xff xff xff xff xff xff xff xff)))
(T (W x00 x00 x80 x3f x00 x00 x80 x3f)
(L (W x54 x00 x00 x00 x48 x00 x00 x00)) E))
(T (W x21 x00 x00 x00 x24 x00 x00 x00)
(T (W x8a x82 xff xff x00 x00 x01 x01)
(L (W x00 x00 x80 xbf x00 x00 x80 xbf)) E)
(T (W x00 x00 x00 x00 x00 x00 x00 x00)
(L (W xff xff xff xff xb0 x00 x00 x00)) E)))))))
(T (W xff xff xff xff xff xff xff xff)
(T (W x54 x00 x00 x00 x48 x00 x00 x00)
(T (W xb4 x36 x00 x00 xa0 x35 x00 x00)
(T (W x00 x00 x00 x00 x00 x00 x00 x00)
(T (W xb8 x00 x00 x00 xac x00 x00 x00)
(T (W x00 x00 x00 x00 x00 x00 x00 x00)
(T (W x00 x00 x80 x3f x00 x00 x80 x3f)
(L (W x00 x00 x80 xbf x00 x00 x80 xbf))
(L (W x00 x00 x00 x00 x00 x00 x00 x00)))
(T (W x50 x00 x00 x00 x44 x00 x00 x00)
(L (W xff xff xff xff xff xff xff xff)) E))
(T (W x6b x65 x5f x6c x76 x31 x00 x00)
(T (W x45 x26 x22 x84 xe4 x9c xf2 xcb)
(L (W x00 x00 x80 xbf x00 x00 x80 xbf))
(L (W x00 x00 x00 x00 x00 x00 x00 x00)))
(T (W xff xff xff xff xff xff xff xff)
(L (W xff xff xff xff xff xff xff xff)) E)))
(T (W x00 x00 x80 x3f x00 x00 x80 x3f)
(T (W x22 xba xfa xff x74 x00 x00 x00)
(T (W xff xff xff xff xa0 x00 x00 x00)
(L (W x00 x00 x80 xbf x00 x00 x80 xbf))
(L (W xff xff xff xff xff xff xff xff)))
(T (W x00 x00 x80 x3f x00 x00 x80 x3f)
(L (W x00 x00 x80 xbf x00 x00 x80 xbf)) E))
(T (W x00 x00 x00 x00 x00 x00 x00 x00)
(T (W x68 x00 x00 x00 x5c x00 x00 x00)
(L (W x00 x00 x00 x00 x00 x00 x00 x00)) E)
(T (W xff xff xff xff x9c x00 x00 x00)
(L (W x45 x26 x22 x84 xe4 x9c xf2 xcb)) E))))
(T (W xb8 x00 x00 x00 xac x00 x00 x00)
(T (W x29 x00 x00 x00 x67 x72 x6f x75)
(T (W x68 x00 x00 x00 x5c x00 x00 x00)
(T (W x00 x00 x80 x3f x00 x00 x80 x3f)
(L (W xf4 x9e xfd xff x00 x01 x01 x01))
(L (W xff xff xff xff xff xff xff xff)))
(T (W x45 x26 x22 x84 xe4 x9c xf2 xcb)
(L (W x46 x53 x59 x53 x5f x4e x53 x5f)) E))
(T (W x00 x00 x80 x3f x00 x00 x80 x3f)
(T (W x0a x0e x25 x55 x8c xfc xd5 xe4)
(L (W xff xff xff xff xff xff xff xff)) E)
(T (W x00 x00 x00 x00 x00 x00 x00 x00)
(L (W x00 x00 x80 xbf x00 x00 x80 xbf)) E)))
(T (W x00 x00 x00 x00 x00 x00 x00 x00)
(T (W x00 x00 x00 x00 x00 x00 x00 x00)
(T (W x00 x00 x80 x3f x00 x00 x80 x3f)
(L (W xff xff xff xff xff xff xff xff))
(L (W x00 x00 x00 x00 x00 x00 x00 x00)))
(T (W x00 x00 x80 x3f x00 x00 x80 x3f)
(L (W xcc x00 x00 x00 x02 x00 x00 x00)) E))
(T (W xd2 x5b xfb xff x78 x00 x00 x00)
(T (W x00 x00 x00 x00 x52 x61 xfc xff)
(L (W x00 x00 x80 xbf x00 x00 x80 xbf)) E)
(T (W x00 x00 x80 xbf x00 x00 x80 xbf)
(L (W x00 x00 x00 x00 x00 x00 x00 x00)) E)))))
(T (W xff xff xff xff xff xff xff xff)
(T (W x00 x00 x00 x00 x00 x00 x00 x00)
(T (W x45 x26 x22 x84 xe4 x9c xf2 xcb)
(T (W xd5 x01 x00 x00 xff xff xff xff)
(T (W xff xff xff xff xc4 x00 x00 x00)
(L (W x00 x00 x80 xbf x00 x00 x80 xbf))
(L (W x00 x00 x80 xbf x00 x00 x80 xbf)))
(T (W x45 x26 x22 x84 xe4 x9c xf2 xcb)
(L (W x30 x32 x5f x43 x4c x45 x41 x52)) E))
(T (W x18 x00 x00 x00 x10 x00 x00 x00)
(T (W xff xff xff xff xff xff xff xff)
(L (W xf4 x0e xfe xff x00 x01 x01 x01)) E)
(T (W x00 x00 x80 xbf x00 x00 x80 xbf)
(L (W x00 x00 x00 x00 x00 x00 x00 x00)) E)))
(T (W x45 x26 x22 x84 xe4 x9c xf2 xcb)
(T (W x00 x00 x80 x3f x00 x00 x80 x3f)
(T (W x00 x00 x00 x00 x00 x00 x00 x00)
(L (W xd2 xcb xfd xff x78 x00 x00 x00))
(L (W xff xff xff xff xff xff xff xff)))
(T (W x18 x00 x00 x00 x0c x00 x00 x00)
(L (W xf4 xce xfe xff x00 x01 x01 x01)) E))
(T (W xff xff xff xff xff xff xff xff)
(T (W xff xff xff xff xff xff xff xff)
(L (W x00 x00 x80 xbf x00 x00 x80 xbf)) E)
(T (W xc7 x01 x00 x00 xff xff xff xff)
(L (W xff xff xff xff xff xff xff xff)) E))))
(T (W x64 x00 x00 x00 x9c x00 x00 x00)
(T (W x00 x00 x80 x3f x00 x00 x80 x3f)
(T (W x50 x00 x00 x00 x44 x00 x00 x00)
(T (W x5e xb6 xb2 x05 x4b x72 x91 x53)
(L (W x00 x00 x80 xbf x00 x00 x80 xbf))
(L (W x18 x00 x00 x00 x10 x00 x00 x00)))
(T (W x01 x00 x00 x00 x9c x00 x00 x00)
(L (W x4f x84 x6f x8b xe8 xcb x63 xb7)) E))
(T (W xff xff xff xff xff xff xff xff)
(T (W x00 x00 x00 x00 x00 x00 x00 x00)
(L (W x54 x02 x00 x00 x38 x01 x00 x00)) E)
(T (W x00 x00 x80 xbf x00 x00 x80 xbf)
(L (W x00 x00 x80 xbf x00 x00 x80 xbf)) E)))
(T (W x00 x00 x00 x00 x00 x00 x00 x00)
(T (W x00 x00 x00 x00 x00 x00 x00 x00)
(T (W x00 x00 x80 x3f x00 x00 x80 x3f)
(L (W x00 x00 x00 x00 x00 x00 x00 x00))
(L (W x00 x00 x00 x00 x00 x00 x00 x00)))
(T (W x00 x00 x80 x3f x00 x00 x80 x3f)
(L (W x00 x00 x01 x01 x5c x00 x00 x00)) E))
(T (W x9f x01 x00 x00 xff xff xff xff)
(T (W x68 x00 x00 x00 x5c x00 x00 x00)
(L (W xff xff xff xff xff xff xff xff)) E)
(T (W x45 x26 x22 x84 xe4 x9c xf2 xcb)
(L (W x00 x00 x00 x00 x00 x00 x00 x00)) E))))))
(T (W x00 x00 x00 x00 x00 x00 x00 x00)
(T (W x00 x00 x80 x3f x00 x00 x80 x3f)
(T (W x18 x00 x00 x00 x0c x00 x00 x00)
(T (W xff xff xff xff x04 x00 x00 x00)
(T (W x51 xca xd9 x92 x26 x6b x9a x03)
(T (W xf4 x86 xfb xff x00 x01 x01 x01)
(L (W x00 x00 x80 xbf x00 x00 x80 xbf))
(L (W x45 x26 x22 x84 xe4 x9c xf2 xcb)))
(T (W x45 x26 x22 x84 xe4 x9c xf2 xcb)
(L (W x44 x02 x00 x00 x30 x01 x00 x00)) E))
(T (W x00 x00 x80 x3f x00 x00 x80 x3f)
(T (W xff xff xff xff xff xff xff xff)
(L (W x00 x00 x80 xbf x00 x00 x80 xbf)) E)
(T (W x00 x00 x01 x01 xd9 x00 x00 x00)
(L (W x45 x44 x00 x00 x00 x00 x00 x00)) E)))
(T (W x45 x26 x22 x84 xe4 x9c xf2 xcb)
(T (W x00 x00 x80 x3f x00 x00 x80 x3f)
(T (W x4b x00 x00 x00 xff xff xff xff)
(L (W x45 x26 x22 x84 xe4 x9c xf2 xcb))
(L (W xff xff xff xff xff xff xff xff)))
(T (W x00 x00 x00 x00 x00 x00 x00 x00)
(L (W x54 x00 x00 x00 x48 x00 x00 x00)) E))
(T (W xf4 x46 xfb xff x00 x01 x01 x01)
(T (W x18 x00 x00 x00 x0c x00 x00 x00)
(L (W x00 x00 x00 x00 x00 x00 x00 x00)) E)
(T (W xff xff xff xff xff xff xff xff)
(L (W xcc x00 x00 x00 x02 x00 x00 x00)) E))))
(T (W xb8 x00 x00 x00 xac x00 x00 x00)
(T (W x00 x00 x80 x3f x00 x00 x80 x3f)
(T (W x00 x00 x80 x3f x00 x00 x80 x3f)
(T (W xff xff xff xff xbc x00 x00 x00)
(L (W xff xff xff xff xff xff xff xff))
(L (W x00 x00 x80 xbf x00 x00 x80 xbf)))
(T (W x50 x00 x00 x00 x44 x00 x00 x00)
(L (W x45 x26 x22 x84 xe4 x9c xf2 xcb)) E))
(T (W x18 x00 x00 x00 x10 x00 x00 x00)
(T (W x30 x32 x5f x43 x4c x45 x41 x52)
(L (W xff xff xff xff xff xff xff xff)) E)
(T (W x00 x00 x00 x00 x00 x00 x00 x00)
(L (W x00 x00 x80 xbf x00 x00 x80 xbf)) E)))
(T (W x7c x74 xfa xff x3e x00 x00 x00)
(T (W x00 x00 x00 x00 x00 x00 x00 x00)
(T (W x00 x00 x00 x00 x00 x00 x00 x00)
(L (W xff xff xff xff xff xff xff xff))
(L (W x00 x00 x00 x00 x00 x00 x00 x00)))
(T (W x82 xec xff xff x00 x00 x01 x01)
(L (W xff xff xff xff xff xff xff xff)) E))
(T (W xff xff xff xff xff xff xff xff)
(T (W x00 x00 x14 x00 x18 x00 x1c x00)
(L (W xcc x00 x00 x00 x01 x00 x00 x00)) E)
(T (W x00 x00 x80 xbf x00 x00 x80 xbf)
(L (W x94 x04 x00 x00 x80 x03 x00 x00)) E)))))
(T (W x00 x00 x80 x3f x00 x00 x80 x3f)
(T (W xff xff xff xff xff xff xff xff)
(T (W xff xff xff xff xff xff xff xff)
(T (W x04 x00 x00 x00 x12 x30 xfe xff)
(T (W x00 x00 x00 x00 x00 x00 x00 x00)
(L (W x50 x00 x00 x00 x44 x00 x00 x00))
(L (W x22 x92 xff xff x74 x00 x00 x00)))
(T (W x00 x00 x00 x00 x00 x00 x00 x00)
(L (W x00 x00 x00 x00 x00 x00 x00 x00)) E))
(T (W x00 x00 x14 x00 x18 x00 x1c x00)
(T (W xff xff xff xff xff xff xff xff)
(L (W xbc x00 x00 x00 x1e x00 x00 x00)) E)
(T (W x00 x00 x00 x00 x00 x00 x00 x00)
(L (W x00 x00 x80 xbf x00 x00 x80 xbf)) E)))
(T (W x00 x00 x00 x00 x00 x00 x00 x00)
(T (W x45 x26 x22 x84 xe4 x9c xf2 xcb)
(T (W x82 xdc xfe xff x00 x00 x01 x01)
(L (W xcc x00 x00 x00 x01 x00 x00 x00))
(L (W x00 x00 x01 x01 x5c x00 x00 x00)))
(T (W x00 x00 x00 x00 x00 x00 x00 x00)
(L (W x15 x00 x00 x00 x18 x00 x00 x00)) E))
(T (W x22 x00 x00 x00 x67 x72 x6f x75)
(T (W xff xff xff xff xff xff xff xff)
(L (W x00 x00 x80 xbf x00 x00 x80 xbf)) E)
(T (W x00 x00 x00 x00 x00 x00 x00 x00)
(L (W xff xff xff xff xff xff xff xff)) E))))
(T (W x45 x26 x22 x84 xe4 x9c xf2 xcb)
(T (W x45 x26 x22 x84 xe4 x9c xf2 xcb)
(T (W x68 x00 x00 x00 x5c x00 x00 x00)
(T (W x00 x00 x80 x3f x00 x00 x80 x3f)
(L (W xff xff xff xff xff xff xff xff))
(L (W x18 x00 x00 x00 x0c x00 x00 x00)))
(T (W x00 x00 x80 x3f x00 x00 x80 x3f)
(L (W x00 x00 x80 xbf x00 x00 x80 xbf)) E))
(T (W x00 x00 x00 x00 x00 x00 x00 x00)
(T (W xd2 x33 xfc xff x78 x00 x00 x00)
(L (W x00 x00 x00 x00 x52 x39 xfe xff)) E)
(T (W x6c x00 x00 x00 x60 x00 x00 x00)
(L (W x54 x00 x00 x00 x48 x00 x00 x00)) E)))
(T (W x00 x00 x00 x00 x00 x00 x00 x00)
(T (W x22 xf2 xfa xff x74 x00 x00 x00)
(T (W x00 x00 x80 x3f x00 x00 x80 x3f)
(L (W x45 x26 x22 x84 xe4 x9c xf2 xcb))
(L (W x00 x00 x80 xbf x00 x00 x80 xbf)))
(T (W xff xff xff xff xff xff xff xff)
(L (W x18 x01 x00 x00 xff xff xff xff)) E))
(T (W x00 x00 x00 x00 x00 x00 x00 x00)
(T (W x00 x00 x80 x3f x00 x00 x80 x3f)
(L (W xff xff xff xff xff xff xff xff)) E)
(T (W x6c x00 x00 x00 x60 x00 x00 x00)
(L (W x00 x00 x00 x00 x00 x00 x00 x00)) E))))))))
(T (W x45 x26 x22 x84 xe4 x9c xf2 xcb)
(T (W x18 x00 x00 x00 x0c x00 x00 x00)
(T (W x00 x00 x80 x3f x00 x00 x80 x3f)
(T (W xb8 x00 x00 x00 xac x00 x00 x00)
(T (W xff xff xff xff xff xff xff xff)
(T (W x00 x00 x80 x3f x00 x00 x80 x3f)
(T (W xff xff xff xff xff xff xff xff)
(T (W x00 x00 x00 x00 x00 x00 x00 x00)
(L (W x00 x00 x00 x00 x00 x00 x00 x00))
(L (W x00 x00 x00 x00 x00 x00 x00 x00)))
(T (W x45 x26 x22 x84 xe4 x9c xf2 xcb)
(L (W xff xff xff xff xa0 x00 x00 x00)) E))
(T (W xff xff xff xff x03 x00 x00 x00)
(T (W x00 x00 x80 x3f x00 x00 x80 x3f)
(L (W x00 x00 x00 x00 x12 x00 x00 x00))
(L (W xf4 xfc xff xff x00 x01 x01 x01)))
(T (W x00 x00 x80 x3f x00 x00 x80 x3f)
(L (W x03 x00 x00 x00 xd0 x00 x00 x00)) E)))
(T (W x00 x00 x00 x00 x00 x00 x00 x00)
(T (W x00 x00 x00 x00 x00 x00 x00 x00)
(T (W x45 x26 x22 x84 xe4 x9c xf2 xcb)
(L (W x00 x00 x00 x00 x00 x00 x00 x00))
(L (W x00 x00 x80 xbf x00 x00 x80 xbf)))
(T (W x00 x00 x00 x00 x00 x00 x00 x00)
(L (W x00 x00 x00 x00 x00 x00 x00 x00)) E))
(T (W xff xff xff xff xff xff xff xff)
(T (W x00 x00 x80 x3f x00 x00 x80 x3f)
(L (W xff xff xff xff xff xff xff xff)) E)
(T (W x00 x00 x80 xbf x00 x00 x80 xbf)
(L (W x00 x00 x00 x00 x00 x00 x00 x00)) E))))
(T (W x45 x26 x22 x84 xe4 x9c xf2 xcb)
(T (W xff xff xff xff xff xff xff xff)
(T (W x00 x00 x80 x3f x00 x00 x80 x3f)
(T (W x45 x44 x00 x00 x00 x00 x00 x00)
(L (W x49 xa1 x68 x4a xeb x5f xdd x3d))
(L (W x00 x00 x80 xbf x00 x00 x80 xbf)))
(T (W xff xff xff xff xff xff xff xff)
(L (W xff xff xff xff xff xff xff xff)) E))
(T (W x00 x00 x00 x00 x12 x00 x00 x00)
(T (W xff xff xff xff xff xff xff xff)
(L (W x00 x00 x80 xbf x00 x00 x80 xbf)) E)
(T (W xff xff xff xff xff xff xff xff)
(L (W x00 x00 x00 x00 x00 x00 x00 x00)) E)))
(T (W xff xff xff xff xff xff xff xff)
(T (W x0a xeb xfd xff x5d x00 x00 x00)
(T (W xff xff xff xff xff xff xff xff)
(L (W x00 x00 x80 xbf x00 x00 x80 xbf))
(L (W xff xff xff xff xff xff xff xff)))
(T (W xa4 x04 x00 x00 x88 x03 x00 x00)
(L (W x00 x00 x80 xbf x00 x00 x80 xbf)) E))
(T (W x30 x32 x5f x43 x4c x45 x41 x52)
(T (W x50 x00 x00 x00 x44 x00 x00 x00)
(L (W x00 x00 x00 x00 x00 x00 x00 x00)) E)
(T (W x00 x00 x00 x00 x00 x00 x00 x00)
(L (W x00 x00 x00 x00 x64 x5b xff xff)) E)))))
(T (W xff xff xff xff xff xff xff xff)
(T (W x00 x00 x00 x00 x00 x00 x00 x00)
(T (W x45 x26 x22 x84 xe4 x9c xf2 xcb)
(T (W xb8 x00 x00 x00 xac x00 x00 x00)
(T (W x68 x00 x00 x00 x5c x00 x00 x00)
(L (W x12 x00 x00 x00 x46 x53 x59 x53))
(L (W x46 x53 x59 x53 x5f x4e x53 x5f)))
(T (W x00 x00 x00 x00 x00 x00 x00 x00)
(L (W xb0 x00 x00 x00 x64 x00 x00 x00)) E))
(T (W x00 x00 x00 x00 x00 x00 x00 x00)
(T (W x45 x26 x22 x84 xe4 x9c xf2 xcb)
(L (W x00 x00 x80 xbf x00 x00 x80 xbf)) E)
(T (W xec x5f x6c x12 x83 xf2 x3a xc6)
(L (W xff xff xff xff xff xff xff xff)) E)))
(T (W x01 x00 x00 x00 x04 x00 x00 x00)
(T (W x00 x00 x00 x00 x00 x00 x00 x00)
(T (W x22 xc8 xfb xff x74 x00 x00 x00)
(L (W x45 x26 x22 x84 xe4 x9c xf2 xcb))
(L (W xbc x00 x00 x00 x1e x00 x00 x00)))
(T (W xff xff xff xff xff xff xff xff)
(L (W x00 x00 x80 xbf x00 x00 x80 xbf)) E))
(T (W x45 x26 x22 x84 xe4 x9c xf2 xcb)
(T (W x00 x00 x80 x3f x00 x00 x80 x3f)
(L (W xf4 x06 x00 x00 xd8 x05 x00 x00)) E)
(T (W x45 x26 x22 x84 xe4 x9c xf2 xcb)
(L (W x00 x00 x80 xbf x00 x00 x80 xbf)) E))))
(T (W x00 x00 x80 x3f x00 x00 x80 x3f)
(T (W x7c x3a xfa xff x3e x00 x00 x00)
(T (W x00 x00 x80 x3f x00 x00 x80 x3f)
(T (W xff xff xff xff xff xff xff xff)
(L (W x45 x26 x22 x84 xe4 x9c xf2 xcb))
(L (W x00 x00 x80 xbf x00 x00 x80 xbf)))
(T (W x00 x00 x80 x3f x00 x00 x80 x3f)
(L (W xff xff xff xff xff xff xff xff)) E))
(T (W x50 x00 x00 x00 x44 x00 x00 x00)
(T (W xff xff xff xff xff xff xff xff)
(L (W x45 x26 x22 x84 xe4 x9c xf2 xcb)) E)
(T (W x00 x00 x00 x00 x00 x00 x00 x00)
(L (W x7c x3a xff xff x15 x00 x00 x00)) E)))
(T (W xff xff xff xff xff xff xff xff)
(T (W x00 x00 x00 x00 x00 x00 x00 x00)
(T (W x00 x00 x00 x00 x00 x00 x00 x00)
(L (W xff xff xff xff xff xff xff xff))
(L (W xff xff xff xff xff xff xff xff)))
(T (W x00 x00 x00 x00 x00 x00 x00 x00)
(L (W x03 x00 x00 x00 xd8 x00 x00 x00)) E))
(T (W xff xff xff xff x03 x00 x00 x00)
(T (W x45 x26 x22 x84 xe4 x9c xf2 xcb)
(L (W x00 x00 x80 xbf x00 x00 x80 xbf)) E)
(T (W x00 x00 x80 xbf x00 x00 x80 xbf)
(L (W xff xff xff xff xff xff xff xff)) E))))))
(T (W x00 x00 x00 x00 x12 x2e xfd xff)
(T (W x00 x00 x00 x00 x00 x00 x00 x00)
(T (W x54 x00 x00 x00 x48 x00 x00 x00)
(T (W x00 x00 x80 x3f x00 x00 x80 x3f)
(T (W xff xff xff xff xff xff xff xff)
(T (W x00 x00 x80 x3f x00 x00 x80 x3f)
(L (W xe0 x05 x00 x00 xb4 x04 x00 x00))
(L (W x00 x00 x00 x00 xe2 x88 xff xff)))
(T (W x00 x00 x00 x00 x00 x00 x00 x00)
(L (W xff xff xff xff xb0 x00 x00 x00)) E))
(T (W xa1 x01 x00 x00 xff xff xff xff)
(T (W x00 x00 x80 x3f x00 x00 x80 x3f)
(L (W x45 x26 x22 x84 xe4 x9c xf2 xcb))
(L (W x38 x00 x3c x00 x40 x00 x44 x00)))
(T (W x00 x00 x80 xbf x00 x00 x80 xbf)
(L (W xff xff xff xff xff xff xff xff)) E)))
(T (W x24 x49 xfa xff x3e x00 x00 x00)
(T (W x00 x00 x00 x00 x00 x00 x00 x00)
(T (W xf4 xc4 xfb xff x00 x01 x01 x01)
(L (W x00 x00 x80 xbf x00 x00 x80 xbf))
(L (W x54 x00 x00 x00 x48 x00 x00 x00)))
(T (W x24 xc9 xfc xff x14 x00 x00 x00)
(L (W x00 x00 x00 x00 x00 x00 x00 x00)) E))
(T (W x00 x00 x00 x00 x00 x00 x00 x00)
(T (W x00 x00 x80 x3f x00 x00 x80 x3f)
(L (W x00 x00 x00 x00 x52 x47 xfe xff)) E)
(T (W xff xff xff xff xb0 x00 x00 x00)
(L (W x00 x00 x80 xbf x00 x00 x80 xbf)) E))))
(T (W x00 x00 x80 x3f x00 x00 x80 x3f)
(T (W x00 x00 x00 x00 x00 x00 x00 x00)
(T (W x00 x00 x80 x3f x00 x00 x80 x3f)
(T (W x00 x00 x80 x3f x00 x00 x80 x3f)
(L (W x03 x00 x00 x00 xcc x00 x00 x00))
(L (W x00 x00 x00 x00 x00 x00 x00 x00)))
(T (W x45 x26 x22 x84 xe4 x9c xf2 xcb)
(L (W x54 x02 x00 x00 x38 x01 x00 x00)) E))
(T (W x45 x26 x22 x84 xe4 x9c xf2 xcb)
(T (W xff xff xff xff xff xff xff xff)
(L (W x00 x00 x00 x00 x64 x23 xfe xff)) E)
(T (W xff xff xff xff xff xff xff xff)
(L (W x00 x00 x00 x00 x00 x00 x00 x00)) E)))
(T (W xff xff xff xff xff xff xff xff)
(T (W x00 x00 x00 x00 x00 x00 x00 x00)
(T (W x82 xea xfe xff x00 x00 x01 x01)
(L (W x45 x26 x22 x84 xe4 x9c xf2 xcb))
(L (W xff xff xff xff xff xff xff xff)))
(T (W x00 x00 x80 x3f x00 x00 x80 x3f)
(L (W x45 x26 x22 x84 xe4 x9c xf2 xcb)) E))
(T (W x68 x00 x00 x00 x5c x00 x00 x00)
(T (W xb8 x00 x00 x00 xac x00 x00 x00)
(L (W x49 xa1 x68 x4a xeb x5f xdd x3d)) E)
(T (W x00 x00 x00 x00 x00 x00 x00 x00)
(L (W xff xff xff xff xb0 x00 x00 x00)) E)))))
(T (W x00 x00 x80 x3f x00 x00 x80 x3f)
(T (W x18 x00 x00 x00 x10 x00 x00 x00)
(T (W xff xff xff xff x03 x00 x00 x00)
(T (W x18 x00 x00 x00 x0c x00 x00 x00)
(T (W xff xff xff xff xff xff xff xff)
(L (W x00 x00 x00 x00 x00 x00 x00 x00))
(L (W x45 x26 x22 x84 xe4 x9c xf2 xcb)))
(T (W xc6 x00 x00 x00 xff xff xff xff)
(L (W xff xff xff xff xff xff xff xff)) E))
(T (W x45 x26 x22 x84 xe4 x9c xf2 xcb)
(T (W xff xff xff xff xc4 x00 x00 x00)
(L (W x45 x26 x22 x84 xe4 x9c xf2 xcb)) E)
(T (W xff xff xff xff xff xff xff xff)
(L (W x46 x53 x59 x53 x5f x4e x53 x5f)) E)))
(T (W xff xff xff xff xff xff xff xff)
(T (W x7f x28 x34 x29 x3e x50 x68 xfc)
(T (W xff xff xff xff xff xff xff xff)
(L (W x00 x00 x80 xbf x00 x00 x80 xbf))
(L (W x03 x00 x00 x00 xd8 x00 x00 x00)))
(T (W xff xff xff xff xff xff xff xff)
(L (W x00 x00 x80 xbf x00 x00 x80 xbf)) E))
(T (W xff xff xff xff xff xff xff xff)
(T (W x6c x00 x00 x00 x60 x00 x00 x00)
(L (W x45 x44 x00 x00 x00 x00 x00 x00)) E)
(T (W x00 x00 x01 x01 x54 x01 x00 x00)
(L (W x17 x00 x00 x00 x1a x00 x00 x00)) E))))
(T (W x68 x00 x00 x00 x5c x00 x00 x00)
(T (W x00 x00 x00 x00 x00 x00 x00 x00)
(T (W x00 x00 x00 x00 x00 x00 x00 x00)
(T (W x00 x00 x00 x00 x00 x00 x00 x00)
(L (W xff xff xff xff xbc x00 x00 x00))
(L (W x00 x00 x80 xbf x00 x00 x80 xbf)))
(T (W x00 x00 x00 x00 x00 x00 x00 x00)
(L (W xa4 x04 x00 x00 x88 x03 x00 x00)) E))
(T (W x18 x00 x00 x00 x10 x00 x00 x00)
(T (W x30 x32 x5f x43 x4c x45 x41 x52)
(L (W xff xff xff xff xc8 x00 x00 x00)) E)
(T (W x00 x00 x00 x00 x00 x00 x00 x00)
(L (W x46 x53 x59 x53 x5f x4e x53 x5f)) E)))
(T (W xff xff xff xff xff xff xff xff)
(T (W x00 x00 x00 x00 x00 x00 x00 x00)
(T (W x00 x00 x00 x00 x00 x00 x00 x00)
(L (W x00 x00 x00 x00 x00 x00 x00 x00))
(L (W x00 x00 x00 x00 x00 x00 x00 x00)))
(T (W x22 xf0 xfc xff x74 x00 x00 x00)
(L (W xff xff xff xff xc8 x00 x00 x00)) E))
(T (W x00 x00 x00 x00 x00 x00 x00 x00)
(T (W x00 x00 x00 x00 x00 x00 x00 x00)
(L (W xd2 x71 xfe xff x78 x00 x00 x00)) E)
(T (W x00 x00 x00 x00 x00 x00 x10 x00)
(L (W xff xff xff xff xff xff xff xff)) E)))))))
(T (W x00 x00 x01 x01 xc9 x00 x00 x00)
(T (W x64 x00 x00 x00 xa0 x00 x00 x00)
(T (W xff xff xff xff xff xff xff xff)
(T (W x00 x00 x00 x00 x00 x00 x00 x00)
(T (W x00 x00 x00 x00 x00 x00 x00 x00)
(T (W x00 x00 x00 x00 x00 x00 x00 x00)
(T (W xff xff xff xff xff xff xff xff)
(L (W xff xff xff xff xff xff xff xff))
(L (W xf4 x80 xff xff x00 x01 x01 x01)))
(T (W xff xff xff xff x03 x00 x00 x00)
(L (W x00 x00 x00 x00 x00 x00 x00 x00)) E))
(T (W x00 x00 x80 x3f x00 x00 x80 x3f)
(T (W x4b x00 x00 x00 xff xff xff xff)
(L (W xf4 x00 xfe xff x00 x01 x01 x01))
(L (W x00 x00 x48 x00 x4c x00 x00 x00)))
(T (W x00 x00 x80 xbf x00 x00 x80 xbf)
(L (W x00 x00 x00 x00 x00 x00 x00 x00)) E)))
(T (W x22 x3c xfa xff x74 x00 x00 x00)
(T (W x01 x00 x00 x00 x9c x00 x00 x00)
(T (W x8a xff xfd xff x9c x01 x00 x00)
(L (W x00 x00 x80 xbf x00 x00 x80 xbf))
(L (W x00 x00 x00 x00 x00 x00 x00 x00)))
(T (W x01 x00 x00 x00 x9c x00 x00 x00)
(L (W xc4 x00 x00 x00 x01 x00 x00 x00)) E))
(T (W x00 x00 x80 x3f x00 x00 x80 x3f)
(T (W xff xff xff xff xff xff xff xff)
(L (W x00 x00 x80 xbf x00 x00 x80 xbf)) E)
(T (W x00 x00 x00 x00 x02 x3d xfd xff)
(L (W xff xff xff xff xff xff xff xff)) E))))
(T (W x00 x00 x01 x01 xc2 x02 x00 x00)
(T (W x50 x00 x00 x00 x44 x00 x00 x00)
(T (W xff xff xff xff xff xff xff xff)
(T (W xff xff xff xff xff xff xff xff)
(L (W xff xff xff xff xff xff xff xff))
(L (W x00 x00 x01 x01 x3b x01 x00 x00)))
(T (W xff xff xff xff x03 x00 x00 x00)
(L (W x00 x00 x80 xbf x00 x00 x80 xbf)) E))
(T (W x01 x00 x00 x00 xb0 x00 x00 x00)
(T (W x00 x00 x80 x3f x00 x00 x80 x3f)
(L (W x00 x00 x00 x00 x00 x00 x00 x00)) E)
(T (W x5c x00 x00 x00 x50 x00 x00 x00)
(L (W x22 x1c xff xff x74 x00 x00 x00)) E)))
(T (W x00 x00 x80 x3f x00 x00 x80 x3f)
(T (W xf4 xe0 xfa xff x00 x01 x01 x01)
(T (W x6c x00 x00 x00 x60 x00 x00 x00)
(L (W x00 x00 x00 x00 x00 x00 x00 x00))
(L (W x00 x00 x00 x00 x00 x00 x00 x00)))
(T (W x00 x00 x00 x00 x64 xdf xfc xff)
(L (W xff xff xff xff xff xff xff xff)) E))
(T (W xff xff xff xff xff xff xff xff)
(T (W x00 x00 x00 x00 x00 x00 x00 x00)
(L (W xff xff xff xff xff xff xff xff)) E)
(T (W x45 x26 x22 x84 xe4 x9c xf2 xcb)
(L (W x00 x00 x00 x00 x00 x00 x00 x00)) E)))))
(T (W x00 x00 x00 x00 x00 x00 x00 x00)
(T (W x00 x00 x80 x3f x00 x00 x80 x3f)
(T (W xff xff xff xff xff xff xff xff)
(T (W x45 x26 x22 x84 xe4 x9c xf2 xcb)
(T (W x00 x00 x00 x00 x00 x00 x00 x00)
(L (W xc0 x00 x00 x00 x01 x00 x00 x00))
(L (W xff xff xff xff xff xff xff xff)))
(T (W x50 x00 x00 x00 x44 x00 x00 x00)
(L (W x00 x00 x80 xbf x00 x00 x80 xbf)) E))
(T (W xff xff xff xff xff xff xff xff)
(T (W x24 x15 xfc xff x19 x00 x00 x00)
(L (W xff xff xff xff xff xff xff xff)) E)
(T (W x00 x00 x60 x00 x00 x00 x00 x00)
(L (W x00 x00 x80 xbf x00 x00 x80 xbf)) E)))
(T (W x45 x26 x22 x84 xe4 x9c xf2 xcb)
(T (W xc0 x00 x00 x00 xb4 x00 x00 x00)
(T (W x00 x00 x00 x00 x00 x00 x00 x00)
(L (W xff xff xff xff xff xff xff xff))
(L (W x00 x00 x00 x00 x12 x00 x00 x00)))
(T (W x00 x00 x00 x00 x00 x00 x00 x00)
(L (W xff xff xff xff xff xff xff xff)) E))
(T (W x49 xa1 x68 x4a xeb x5f xdd x3d)
(T (W x00 x00 x00 x00 x02 x4d xfc xff)
(L (W x45 x26 x22 x84 xe4 x9c xf2 xcb)) E)
(T (W x00 x00 x00 x00 x00 x00 x00 x00)
(L (W x45 x44 x00 x00 x00 x00 x00 x00)) E))))
(T (W x02 x00 x00 x00 x1c x01 x00 x00)
(T (W x45 x26 x22 x84 xe4 x9c xf2 xcb)
(T (W xb8 x00 x00 x00 xac x00 x00 x00)
(T (W x00 x00 x80 x3f x00 x00 x80 x3f)
(L (W x50 x00 x00 x00 x44 x00 x00 x00))
(L (W xff xff xff xff xff xff xff xff)))
(T (W xff xff xff xff xff xff xff xff)
(L (W x54 x00 x00 x00 x48 x00 x00 x00)) E))
(T (W x00 x00 x00 x00 x00 x00 x00 x00)
(T (W x45 x26 x22 x84 xe4 x9c xf2 xcb)
(L (W x45 x26 x22 x84 xe4 x9c xf2 xcb)) E)
(T (W x45 x26 x22 x84 xe4 x9c xf2 xcb)
(L (W xff xff xff xff xa0 x00 x00 x00)) E)))
(T (W x45 x26 x22 x84 xe4 x9c xf2 xcb)
(T (W x00 x00 x80 x3f x00 x00 x80 x3f)
(T (W xff xff xff xff x03 x00 x00 x00)
(L (W x00 x00 x80 xbf x00 x00 x80 xbf))
(L (W x00 x00 x80 xbf x00 x00 x80 xbf)))
(T (W xff xff xff xff xff xff xff xff)
(L (W x00 x00 x00 x00 x00 x00 x00 x00)) E))
(T (W x00 x00 x00 x00 x00 x00 x00 x00)
(T (W xff xff xff xff xff xff xff xff)
(L (W x30 x32 x5f x43 x4c x45 x41 x52)) E)
(T (W xff xff xff xff xff xff xff xff)
(L (W x00 x00 x80 xbf x00 x00 x80 xbf)) E))))))
(T (W x00 x00 x80 x3f x00 x00 x80 x3f)
(T (W x00 x00 x80 x3f x00 x00 x80 x3f)
(T (W xff xff xff xff xff xff xff xff)
(T (W x20 x01 x00 x00 x04 x00 x00 x00)
(T (W x45 x26 x22 x84 xe4 x9c xf2 xcb)
(T (W x00 x00 x00 x00 x06 x00 x00 x00)
(L (W x45 x26 x22 x84 xe4 x9c xf2 xcb))
(L (W x19 x00 x00 x00 x1c x00 x00 x00)))
(T (W x68 x00 x00 x00 x5c x00 x00 x00)
(L (W x00 x00 x00 x00 x00 x00 x00 x00)) E))
(T (W xff xff xff xff xff xff xff xff)
(T (W x4a x00 x00 x00 xff xff xff xff)
(L (W xbc x00 x00 x00 x32 x00 x00 x00)) E)
(T (W x45 x26 x22 x84 xe4 x9c xf2 xcb)
(L (W x4f x84 x6f x8b xe8 xcb x63 xb7)) E)))
(T (W x00 x00 x00 x00 x64 x47 xfa xff)
(T (W x0a x00 x00 x00 x3e x00 x00 x00)
(T (W x00 x00 x00 x00 x00 x00 x00 x00)
(L (W xff xff xff xff xff xff xff xff))
(L (W x00 x00 x00 x00 x00 x00 x00 x00)))
(T (W x58 x00 x00 x00 x5c x00 x00 x00)
(L (W xb0 x00 x00 x00 x64 x00 x00 x00)) E))
(T (W xff xff xff xff xff xff xff xff)
(T (W x82 x4e xff xff x00 x00 x01 x01)
(L (W x00 x00 x80 xbf x00 x00 x80 xbf)) E)
(T (W x00 x00 x00 x00 x00 x00 x00 x00)
(L (W xff xff xff xff xff xff xff xff)) E))))
(T (W xff xff xff xff x01 x00 x00 x00)
(T (W xff xff xff xff xff xff xff xff)
(T (W xff xff xff xff xff xff xff xff)
(T (W x12 x00 x00 x00 x46 x53 x59 x53)
(L (W x00 x00 x00 x00 x00 x00 x00 x00))
(L (W x4c x00 x04 x00 x08 x00 x0c x00)))
(T (W xff xff xff xff xff xff xff xff)
(L (W x54 x00 x00 x00 x48 x00 x00 x00)) E))
(T (W xff xff xff xff xff xff xff xff)
(T (W x00 x00 x80 x3f x00 x00 x80 x3f)
(L (W x00 x00 x00 x00 x00 x00 x00 x00)) E)
(T (W x6c x00 x00 x00 x60 x00 x00 x00)
(L (W xf4 x28 xff xff x00 x01 x01 x01)) E)))
(T (W x00 x00 x80 x3f x00 x00 x80 x3f)
(T (W x00 x00 x80 x3f x00 x00 x80 x3f)
(T (W x18 x00 x00 x00 x10 x00 x00 x00)
(L (W x70 x5f x77 x69 x6c x64 x5f x70))
(L (W x00 x00 x80 xbf x00 x00 x80 xbf)))
(T (W x00 x00 x80 x3f x00 x00 x80 x3f)
(L (W x30 x32 x5f x43 x4c x45 x41 x52)) E))
(T (W x00 x00 x00 x00 x00 x00 x00 x00)
(T (W xff xff xff xff xff xff xff xff)
(L (W xff xff xff xff xff xff xff xff)) E)
(T (W xff xff xff xff xbc x00 x00 x00)
(L (W x00 x00 x80 xbf x00 x00 x80 xbf)) E)))))
(T (W x45 x26 x22 x84 xe4 x9c xf2 xcb)
(T (W x01 x00 x00 x00 xff xff xff xff)
(T (W x00 x00 x00 x00 x00 x00 x00 x00)
(T (W x50 x00 x00 x00 x44 x00 x00 x00)
(T (W x00 x00 x80 x3f x00 x00 x80 x3f)
(L (W xff xff xff xff xff xff xff xff))
(L (W x2a x00 x00 x00 xff xff xff xff)))
(T (W x45 x26 x22 x84 xe4 x9c xf2 xcb)
(L (W x45 x26 x22 x84 xe4 x9c xf2 xcb)) E))
(T (W xd2 x15 xfb xff x78 x00 x00 x00)
(T (W x30 x32 x5f x43 x4c x45 x41 x52)
(L (W x5c x00 x00 x00 xff xff xff xff)) E)
(T (W xff xff xff xff xff xff xff xff)
(L (W x45 x26 x22 x84 xe4 x9c xf2 xcb)) E)))
(T (W x00 x00 x80 x3f x00 x00 x80 x3f)
(T (W x22 xd4 xfa xff x74 x00 x00 x00)
(T (W x00 x00 x00 x00 x00 x00 x00 x00)
(L (W xff xff xff xff xff xff xff xff))
(L (W x00 x00 x00 x00 x00 x00 x00 x00)))
(T (W x00 x00 x80 x3f x00 x00 x80 x3f)
(L (W xff xff xff xff xff xff xff xff)) E))
(T (W x00 x00 x00 x00 x64 x57 xfb xff)
(T (W x00 x00 x00 x00 x00 x00 x00 x00)
(L (W xcc x00 x00 x00 x02 x00 x00 x00)) E)
(T (W x00 x00 x80 xbf x00 x00 x80 xbf)
(L (W x00 x00 x00 x00 x00 x00 x00 x00)) E))))
(T (W x8a x08 xfd xff x00 x00 x01 x01)
(T (W x50 x00 x00 x00 x44 x00 x00 x00)
(T (W x45 x26 x22 x84 xe4 x9c xf2 xcb)
(T (W xd4 x00 x00 x00 xc8 x00 x00 x00)
(L (W xff xff xff xff x09 x00 x00 x00))
(L (W x00 x00 x01 x01 x5c x00 x00 x00)))
(T (W xb8 x00 x00 x00 xac x00 x00 x00)
(L (W x00 x00 x00 x00 x64 xb7 xfe xff)) E))
(T (W x00 x00 x80 x3f x00 x00 x80 x3f)
(T (W xff xff xff xff xff xff xff xff)
(L (W x00 x00 x80 xbf x00 x00 x80 xbf)) E)
(T (W xff xff xff xff xff xff xff xff)
(L (W x03 x00 x00 x00 xd0 x00 x00 x00)) E)))
(T (W x00 x00 x00 x00 x00 x00 x00 x00)
(T (W x18 x00 x00 x00 x10 x00 x00 x00)
(T (W xff xff xff xff xff xff xff xff)
(L (W xd2 xf5 xfd xff x78 x00 x00 x00))
(L (W x00 x00 x00 x00 x64 xf7 xff xff)))
(T (W x12 x00 x00 x00 x46 x53 x59 x53)
(L (W x00 x00 x80 xbf x00 x00 x80 xbf)) E))
(T (W x1c x00 x00 x00 xb0 x00 x00 x00)
(T (W xff xff xff xff xff xff xff xff)
(L (W x00 x00 x00 x00 x00 x00 x00 x00)) E)
(T (W xff xff xff xff xff xff xff xff)
(L (W x00 x00 x80 xbf x00 x00 x80 xbf)) E))))))))))
(T (W x00 x8f x03 x00 xc4 x8d x03 x00)
(T (W x90 xd5 x02 x00 xec xd0 x02 x00)
(T (W x58 xff x00 x00 x0c xfd x00 x00)
(T (W xff xff xff xff xff xff xff xff)
(T (W x45 x26 x22 x84 xe4 x9c xf2 xcb)
(T (W x00 x00 x01 x01 xc9 x00 x00 x00)
(T (W x00 x00 x00 x00 x00 x00 x00 x00)
(T (W xa2 xf5 xf9 xff x74 x00 x00 x00)
(T (W x0a x8a xfd xff x00 x00 x01 x01)
(T (W x00 x00 x80 x3f x00 x00 x80 x3f)
(L (W x00 x00 x80 xbf x00 x00 x80 xbf))
(L (W x00 x00 x00 x00 x00 x00 x00 x00)))
(T (W x50 x00 x00 x00 x44 x00 x00 x00)
(L (W xff xff xff xff xff xff xff xff)) E))
(T (W x00 x00 x80 x3f x00 x00 x80 x3f)
(T (W x54 x00 x00 x00 x48 x00 x00 x00)
(L (W x00 x00 x00 x00 x00 x00 x00 x00))
(L (W x00 x00 x00 x00 x00 x00 x00 x00)))
(T (W x78 x00 x08 x00 x70 x00 x0c x00)
(L (W x00 x00 x01 x01 x3b x01 x00 x00)) E)))
(T (W x00 x00 x00 x00 x00 x00 x00 x00)
(T (W x00 x00 x80 x3f x00 x00 x80 x3f)
(T (W x00 x00 x80 x3f x00 x00 x80 x3f)
(L (W xa2 xb5 xfd xff x74 x00 x00 x00))
(L (W x18 x00 x00 x00 x10 x00 x00 x00)))
(T (W x00 x00 x80 x3f x00 x00 x80 x3f)
(L (W x00 x00 x00 x00 x00 x00 x00 x00)) E))
(T (W x00 x00 x00 x00 x00 x00 x00 x00)
(T (W x00 x00 x80 x3f x00 x00 x80 x3f)
(L (W x00 x00 x01 x01 x4b x00 x00 x00)) E)
(T (W x50 x00 x00 x00 x44 x00 x00 x00)
(L (W x00 x00 x80 xbf x00 x00 x80 xbf)) E))))
(T (W x68 x00 x00 x00 x5c x00 x00 x00)
(T (W xff xff xff xff xff xff xff xff)
(T (W x45 x26 x22 x84 xe4 x9c xf2 xcb)
(T (W x00 x00 x00 x00 x00 x00 x00 x00)
(L (W x00 x00 x80 xbf x00 x00 x80 xbf))
(L (W x45 x26 x22 x84 xe4 x9c xf2 xcb)))
(T (W x00 x00 x00 x00 x00 x00 x00 x00)
(L (W x46 x53 x59 x53 x5f x4e x53 x5f)) E))
(T (W x00 x00 x00 x00 x00 x00 x00 x00)
(T (W x02 x20 xff xff x00 x00 x01 x01)
(L (W x18 x00 x00 x00 x0c x00 x00 x00)) E)
(T (W xa2 x15 xfd xff x74 x00 x00 x00)
(L (W x45 x26 x22 x84 xe4 x9c xf2 xcb)) E)))
(T (W x00 x00 x00 x00 x00 x00 x00 x00)
(T (W x00 x00 x80 x3f x00 x00 x80 x3f)
(T (W x00 x00 x00 x00 x00 x00 x00 x00)
(L (W x45 x26 x22 x84 xe4 x9c xf2 xcb))
(L (W xff xff xff xff xff xff xff xff)))
(T (W x00 x00 x00 x00 x00 x00 x00 x00)
(L (W x00 x00 x00 x00 xe4 xd8 xfe xff)) E))
(T (W x00 x00 x80 x3f x00 x00 x80 x3f)
(T (W xff xff xff xff xff xff xff xff)
(L (W x00 x00 x80 xbf x00 x00 x80 xbf)) E)
(T (W x00 x00 x00 x00 x00 x00 x00 x00)
(L (W xff xff xff xff xff xff xff xff)) E)))))
(T (W x00 x00 x00 x00 x00 x00 x00 x00)
(T (W x00 x00 x80 x3f x00 x00 x80 x3f)
(T (W x18 x00 x00 x00 x10 x00 x00 x00)
(T (W xff xff xff xff xff xff xff xff)
(T (W xff xff xff xff xff xff xff xff)
(L (W x49 xa1 x68 x4a xeb x5f xdd x3d))
(L (W x00 x00 x80 xbf x00 x00 x80 xbf)))
(T (W x45 x26 x22 x84 xe4 x9c xf2 xcb)
(L (W xff xff xff xff xff xff xff xff)) E))
(T (W x54 x00 x00 x00 x48 x00 x00 x00)
(T (W xcc x00 x00 x00 xc0 x00 x00 x00)
(L (W x00 x00 x80 xbf x00 x00 x80 xbf)) E)
(T (W xa4 x0e xfd xff x25 x00 x00 x00)
(L (W x08 x00 x00 x00 x18 x08 x00 x00)) E)))
(T (W x00 x00 x00 x00 x00 x00 x00 x00)
(T (W x45 x26 x22 x84 xe4 x9c xf2 xcb)
(T (W xff xff xff xff xff xff xff xff)
(L (W x52 xc7 xfd xff x78 x00 x00 x00))
(L (W xff xff xff xff xbc x00 x00 x00)))
(T (W x7c x00 x08 x00 x70 x00 x0c x00)
(L (W x52 xc7 xfe xff x78 x00 x00 x00)) E))
(T (W xa2 x45 xfb xff x74 x00 x00 x00)
(T (W x19 x00 x00 x00 x1c x00 x00 x00)
(L (W x00 x00 x00 x00 x00 x00 x00 x00)) E)
(T (W xff xff xff xff xff xff xff xff)
(L (W xff xff xff xff xa0 x00 x00 x00)) E))))
(T (W xff xff xff xff x03 x00 x00 x00)
(T (W x00 x00 x80 x3f x00 x00 x80 x3f)
(T (W x6c x00 x00 x00 x60 x00 x00 x00)
(T (W xff xff xff xff xff xff xff xff)
(L (W x45 x26 x22 x84 xe4 x9c xf2 xcb))
(L (W x40 x00 x00 x00 x00 x00 x80 xbf)))
(T (W x00 x00 x80 x3f x00 x00 x80 x3f)
(L (W x00 x00 x00 x00 x12 x00 x00 x00)) E))
(T (W x45 x26 x22 x84 xe4 x9c xf2 xcb)
(T (W x00 x00 x00 x00 x00 x00 x00 x00)
(L (W xff xff xff xff xff xff xff xff)) E)
(T (W x00 x00 x00 x00 x00 x00 x00 x00)
(L (W x45 x26 x22 x84 xe4 x9c xf2 xcb)) E)))
(T (W x00 x00 x00 x00 x00 x00 x00 x00)
(T (W x00 x00 x00 x00 x00 x00 x00 x00)
(T (W x00 x00 x00 x00 x00 x00 x00 x00)
(L (W x46 x53 x59 x53 x5f x4e x53 x5f))
(L (W x00 x00 x00 x00 x00 x00 x00 x00)))
(T (W x4f x84 x6f x8b xe8 xcb x63 xb7)
(L (W xff xff xff xff xff xff xff xff)) E))
(T (W xff xff xff xff xff xff xff xff)
(T (W x68 x00 x00 x00 x5c x00 x00 x00)
(L (W x45 x26 x22 x84 xe4 x9c xf2 xcb)) E)
(T (W x00 x00 x80 xbf x00 x00 x80 xbf)
(L (W x00 x00 x00 x00 x82 x66 xff xff)) E))))))
(T (W x45 x26 x22 x84 xe4 x9c xf2 xcb)
(T (W x54 x00 x00 x00 x48 x00 x00 x00)
(T (W xff xff xff xff xff xff xff xff)
(T (W x45 x26 x22 x84 xe4 x9c xf2 xcb)
(T (W xff xff xff xff xff xff xff xff)
(T (W x18 x00 x00 x00 x0c x00 x00 x00)
(L (W x00 x00 x80 xbf x00 x00 x80 xbf))
(L (W x45 x26 x22 x84 xe4 x9c xf2 xcb)))
(T (W x45 x26 x22 x84 xe4 x9c xf2 xcb)
(L (W xff xff xff xff xff xff xff xff)) E))
(T (W x4c x45 x41 x52 x45 x44 x00 x00)
(T (W xff xff xff xff x9c x00 x00 x00)
(L (W x45 x26 x22 x84 xe4 x9c xf2 xcb))
(L (W x58 x00 x00 x00 x00 x00 x5c x00)))
(T (W x00 x00 x00 x00 x00 x00 x00 x00)
(L (W x00 x00 x00 x00 x00 x00 x00 x00)) E)))
(T (W x00 x00 x00 x00 x00 x00 x00 x00)
(T (W x00 x00 x00 x00 x00 x00 x00 x00)
(T (W xff xff xff xff x03 x00 x00 x00)
(L (W x00 x00 x80 xbf x00 x00 x80 xbf))
(L (W x25 x00 x00 x00 x28 x00 x00 x00)))
(T (W x00 x00 x00 x00 x00 x00 x00 x00)
(L (W x00 x00 x80 xbf x00 x00 x80 xbf)) E))
(T (W x00 x00 x00 x00 x00 x00 x00 x00)
(T (W x6c x00 x00 x00 x60 x00 x00 x00)
(L (W x00 x00 x00 x00 x00 x00 x00 x00)) E)
(T (W x03 x00 x00 x00 xd0 x00 x00 x00)
(L (W x00 x00 x80 xbf x00 x00 x80 xbf)) E))))
(T (W x18 x00 x00 x00 x10 x00 x00 x00)
(T (W x00 x00 x80 x3f x00 x00 x80 x3f)
(T (W x50 x00 x00 x00 x44 x00 x00 x00)
(T (W x00 x00 x80 x3f x00 x00 x80 x3f)
(L (W xa2 x9d xfd xff x74 x00 x00 x00))
(L (W x14 x00 x00 x00 x0c x00 x00 x00)))
(T (W x45 x26 x22 x84 xe4 x9c xf2 xcb)
(L (W x00 x00 x00 x00 x00 x00 x00 x00)) E))
(T (W x00 x00 x80 x3f x00 x00 x80 x3f)
(T (W x00 x00 x00 x00 x82 x1e xfc xff)
(L (W xff xff xff xff xff xff xff xff)) E)
(T (W x46 x53 x59 x53 x5f x4e x53 x5f)
(L (W x00 x00 x80 xbf x00 x00 x80 xbf)) E)))
(T (W x00 x00 x00 x00 x00 x00 x00 x00)
(T (W x00 x00 x00 x00 x00 x00 x00 x00)
(T (W x00 x00 x00 x00 x00 x00 x00 x00)
(L (W xff xff xff xff xff xff xff xff))
(L (W xff xff xff xff xff xff xff xff)))
(T (W x00 x00 x00 x00 x00 x00 x00 x00)
(L (W x45 x26 x22 x84 xe4 x9c xf2 xcb)) E))
(T (W xa2 x5d xfb xff x74 x00 x00 x00)
(T (W xff xff xff xff xff xff xff xff)
(L (W x6c x00 x00 x00 x60 x00 x00 x00)) E)
(T (W x45 x26 x22 x84 xe4 x9c xf2 xcb)
(L (W xff xff xff xff xff xff xff xff)) E)))))
(T (W x18 x00 x00 x00 x10 x00 x00 x00)
(T (W xc9 x00 x00 x00 xff xff xff xff)
(T (W xff xff xff xff xff xff xff xff)
(T (W xff xff xff xff xff xff xff xff)
(T (W x76 x31 x00 x00 x92 x2b xff xff)
(L (W x00 x00 x80 xbf x00 x00 x80 xbf))
(L (W x52 x8f xff xff x78 x00 x00 x00)))
(T (W x00 x00 x00 x00 x00 x00 x00 x00)
(L (W x00 x00 x00 x00 x42 x90 xfe xff)) E))
(T (W x52 x0f xfb xff x78 x00 x00 x00)
(T (W xff xff xff xff xff xff xff xff)
(L (W x6c x00 x00 x00 x60 x00 x00 x00)) E)
(T (W xff xff xff xff xff xff xff xff)
(L (W x45 x44 x00 x00 x00 x00 x00 x00)) E)))
(T (W x00 x00 x00 x00 x00 x00 x00 x00)
(T (W x00 x00 x80 x3f x00 x00 x80 x3f)
(T (W x74 x03 x00 x00 x4c x02 x00 x00)
(L (W xff xff xff xff xb0 x00 x00 x00))
(L (W xff xff xff xff xff xff xff xff)))
(T (W xff xff xff xff xff xff xff xff)
(L (W x18 x00 x00 x00 x0c x00 x00 x00)) E))
(T (W x5f x77 x69 x6c x64 x5f x70 x6f)
(T (W xff xff xff xff xff xff xff xff)
(L (W x4f x84 x6f x8b xe8 xcb x63 xb7)) E)
(T (W x14 x00 x00 x00 x0c x00 x00 x00)
(L (W x03 x00 x00 x00 xd0 x00 x00 x00)) E))))
(T (W x18 x00 x00 x00 x10 x00 x00 x00)
(T (W x00 x00 x80 x3f x00 x00 x80 x3f)
(T (W x00 x00 x80 x3f x00 x00 x80 x3f)
(T (W x5f x4e x53 x5f x30 x32 x5f x43)
(L (W x00 x00 x00 x00 x00 x00 x00 x00))
(L (W xff xff xff xff xb0 x00 x00 x00)))
(T (W x00 x00 x80 x3f x00 x00 x80 x3f)
(L (W x00 x00 x00 x00 x00 x00 x00 x00)) E))
(T (W xff xff xff xff xff xff xff xff)
(T (W x00 x00 x00 x00 x00 x00 x00 x00)
(L (W x5c x00 x00 x00 xff xff xff xff)) E)
(T (W x00 x00 x80 xbf x00 x00 x80 xbf)
(L (W x00 x00 x80 xbf x00 x00 x80 xbf)) E)))
(T (W x3e x00 x00 x00 x10 x00 x00 x00)
(T (W x00 x00 x00 x00 x00 x00 x00 x00)
(T (W x00 x00 x80 x3f x00 x00 x80 x3f)
(L (W x00 x00 x00 x00 x00 x00 x00 x00))
(L (W x00 x00 x00 x00 x0c x00 x18 x00)))
(T (W xff xff xff xff xff xff xff xff)
(L (W xff xff xff xff xff xff xff xff)) E))
(T (W x46 x53 x59 x53 x5f x4e x53 x5f)
(T (W x00 x00 x80 x3f x00 x00 x80 x3f)
(L (W xff xff xff xff xff xff xff xff)) E)
(T (W x00 x00 x00 x00 xe4 x70 xfd xff)
(L (W x00 x00 x00 x00 x00 x00 x00 x00)) E)))))))
(T (W x45 x26 x22 x84 xe4 x9c xf2 xcb)
(T (W xff xff xff xff x0e x00 x00 x00)
(T (W x45 x26 x22 x84 xe4 x9c xf2 xcb)
(T (W x6c x00 x00 x00 x60 x00 x00 x00)
(T (W x00 x00 x00 x00 x00 x00 x00 x00)
(T (W x74 x7e xfa xff x00 x01 x01 x01)
(T (W xff xff xff xff xff xff xff xff)
(L (W xff xff xff xff xff xff xff xff))
(L (W x18 x00 x00 x00 x0c x00 x00 x00)))
(T (W xa1 x01 x00 x00 xff xff xff xff)
(L (W x49 xa1 x68 x4a xeb x5f xdd x3d)) E))
(T (W x00 x00 x80 x3f x00 x00 x80 x3f)
(T (W x00 x00 x00 x00 x00 x00 x00 x00)
(L (W xff xff xff xff xff xff xff xff))
(L (W x45 x26 x22 x84 xe4 x9c xf2 xcb)))
(T (W x00 x00 x00 x00 x00 x00 x00 x00)
(L (W x00 x00 x80 xbf x00 x00 x80 xbf)) E)))
(T (W xff xff xff xff xff xff xff xff)
(T (W x02 xc4 xfd xff x00 x00 x01 x01)
(T (W x30 x32 x5f x43 x4c x45 x41 x52)
(L (W xff xff xff xff xff xff xff xff))
(L (W x00 x00 x00 x00 x00 x00 x00 x00)))
(T (W xff xff xff xff xff xff xff xff)
(L (W xff xff xff xff xff xff xff xff)) E))
(T (W x45 x26 x22 x84 xe4 x9c xf2 xcb)
(T (W x00 x00 x00 x00 x82 x3a xfc xff)
(L (W x45 x26 x22 x84 xe4 x9c xf2 xcb)) E)
(T (W x46 x53 x59 x53 x5f x4e x53 x5f)
(L (W x00 x00 x00 x00 x00 x00 x00 x00)) E))))
(T (W x00 x00 x00 x00 x00 x00 x00 x00)
(T (W x00 x00 x80 x3f x00 x00 x80 x3f)
(T (W x0a xae xfd xff x00 x00 x01 x01)
(T (W xff xff xff xff xff xff xff xff)
(L (W x00 x00 x00 x00 x00 x00 x00 x00))
(L (W x00 x00 x00 x00 x00 x00 x00 x00)))
(T (W xff xff xff xff xff xff xff xff)
(L (W x52 x9b xfe xff x78 x00 x00 x00)) E))
(T (W xff xff xff xff xff xff xff xff)
(T (W x00 x00 x80 x3f x00 x00 x80 x3f)
(L (W x00 x00 x00 x00 x00 x00 x00 x00)) E)
(T (W x00 x00 x00 x00 x0c x00 x08 x00)
(L (W xff xff xff xff xff xff xff xff)) E)))
(T (W xa2 x59 xfa xff x74 x00 x00 x00)
(T (W x64 x00 x00 x00 x9c x00 x00 x00)
(T (W xff xff xff xff xff xff xff xff)
(L (W x00 x00 x00 x00 x00 x00 x00 x00))
(L (W x00 x00 x80 xbf x00 x00 x80 xbf)))
(T (W xff xff xff xff xff xff xff xff)
(L (W x00 x00 x00 x00 x00 x00 x00 x00)) E))
(T (W x02 x64 xfe xff x00 x00 x01 x01)
(T (W x00 x00 x80 x3f x00 x00 x80 x3f)
(L (W xff xff xff xff xff xff xff xff)) E)
(T (W xff xff xff xff xff xff xff xff)
(L (W x00 x00 x80 xbf x00 x00 x80 xbf)) E)))))
(T (W x00 x00 x80 x3f x00 x00 x80 x3f)
(T (W x64 x00 x00 x00 xa0 x00 x00 x00)
(T (W x21 x00 x00 x00 x0c x00 x00 x00)
(T (W x00 x00 x80 x3f x00 x00 x80 x3f)
(T (W x00 x00 x00 x00 x00 x00 x00 x00)
(L (W xff xff xff xff xff xff xff xff))
(L (W xff xff xff xff xff xff xff xff)))
(T (W xff xff xff xff x03 x00 x00 x00)
(L (W x6c x00 x00 x00 x60 x00 x00 x00)) E))
(T (W x45 x44 x00 x00 x00 x00 x00 x00)
(T (W x45 x26 x22 x84 xe4 x9c xf2 xcb)
(L (W x00 x00 x00 x00 x62 x12 xfe xff)) E)
(T (W xff xff xff xff xff xff xff xff)
(L (W x00 x00 x00 x00 xe4 x0c xff xff)) E)))
(T (W xff xff xff xff xff xff xff xff)
(T (W xff xff xff xff xff xff xff xff)
(T (W x00 x00 x80 x3f x00 x00 x80 x3f)
(L (W x00 x00 x00 x00 xd2 xd0 xfd xff))
(L (W x00 x00 x80 xbf x00 x00 x80 xbf)))
(T (W x00 x00 x00 x00 x00 x00 x6c x00)
(L (W x00 x00 x00 x00 x00 x00 x00 x00)) E))
(T (W x00 x00 x80 x3f x00 x00 x80 x3f)
(T (W x00 x00 x00 x00 x00 x00 x00 x00)
(L (W xff xff xff xff xff xff xff xff)) E)
(T (W x00 x00 x80 xbf x00 x00 x80 xbf)
(L (W x00 x00 x00 x00 x00 x00 x00 x00)) E))))
(T (W xa4 xf2 xf9 xff x3e x00 x00 x00)
(T (W xff xff xff xff xff xff xff xff)
(T (W x72 x00 x00 x00 xff xff xff xff)
(T (W x00 x00 x80 x3f x00 x00 x80 x3f)
(L (W xff xff xff xff xff xff xff xff))
(L (W x30 x32 x5f x43 x4c x45 x41 x52)))
(T (W xa4 xb2 xfc xff x1a x00 x00 x00)
(L (W xcc x00 x00 x00 x01 x00 x00 x00)) E))
(T (W x00 x00 x00 x00 x00 x00 x00 x00)
(T (W xa2 x29 xfc xff x74 x00 x00 x00)
(L (W x45 x26 x22 x84 xe4 x9c xf2 xcb)) E)
(T (W xff xff xff xff xff xff xff xff)
(L (W xff xff xff xff xff xff xff xff)) E)))
(T (W x68 x00 x00 x00 x5c x00 x00 x00)
(T (W x18 x00 x00 x00 x0c x00 x00 x00)
(T (W xff xff xff xff xff xff xff xff)
(L (W x45 x26 x22 x84 xe4 x9c xf2 xcb))
(L (W x45 x26 x22 x84 xe4 x9c xf2 xcb)))
(T (W xff xff xff xff xff xff xff xff)
(L (W x00 x00 x80 xbf x00 x00 x80 xbf)) E))
(T (W x00 x00 x80 x3f x00 x00 x80 x3f)
(T (W x0a x7e xff xff x00 x00 x01 x01)
(L (W x4f x84 x6f x8b xe8 xcb x63 xb7)) E)
(T (W x00 x00 x00 x00 x00 x00 x00 x00)
(L (W x00 x00 x80 xbf x00 x00 x80 xbf)) E))))))
(T (W x18 x00 x00 x00 x0c x00 x00 x00)
(T (W xff xff xff xff xff xff xff xff)
(T (W x00 x00 x00 x00 x00 x00 x00 x00)
(T (W x00 x00 x00 x00 x00 x00 x00 x00)
(T (W x00 x00 x80 x3f x00 x00 x80 x3f)
(T (W x00 x00 x00 x00 x00 x00 x00 x00)
(L (W xff xff xff xff xff xff xff xff))
(L (W xb8 x00 x00 x00 x64 x00 x00 x00)))
(T (W xff xff xff xff xff xff xff xff)
(L (W x00 x00 x80 xbf x00 x00 x80 xbf)) E))
(T (W xff xff xff xff xff xff xff xff)
(T (W x00 x00 x00 x00 x00 x00 x00 x00)
(L (W xff xff xff xff xff xff xff xff)) E)
(T (W x00 x00 x00 x00 x00 x00 x00 x00)
(L (W x54 x00 x00 x00 x48 x00 x00 x00)) E)))
(T (W xff xff xff xff x03 x00 x00 x00)
(T (W xff xff xff xff xff xff xff xff)
(T (W x00 x00 x00 x00 x00 x00 x00 x00)
(L (W x00 x00 x00 x00 x00 x00 x00 x00))
(L (W x00 x00 x00 x00 x00 x00 x00 x00)))
(T (W xb8 x00 x00 x00 xac x00 x00 x00)
(L (W x2a x00 x00 x00 xff xff xff xff)) E))
(T (W x61 x72 x6c x69 x6b x65 x5f x6c)
(T (W x00 x00 x00 x00 x00 x00 x00 x00)
(L (W x18 x00 x00 x00 x0c x00 x00 x00)) E)
(T (W x00 x00 x80 xbf x00 x00 x80 xbf)
(L (W x00 x00 x00 x00 x00 x00 x00 x00)) E))))
(T (W x00 x00 x00 x00 x00 x00 x00 x00)
(T (W xff xff xff xff xff xff xff xff)
(T (W xff xff xff xff xff xff xff xff)
(T (W x00 x00 x00 x00 x00 x00 x00 x00)
(L (W x00 x00 x80 xbf x00 x00 x80 xbf))
(L (W xff xff xff xff xff xff xff xff)))
(T (W x8a xb4 xff xff x72 x00 x00 x00)
(L (W xff xff xff xff xc8 x00 x00 x00)) E))
(T (W x45 x44 x00 x00 x00 x00 x00 x00)
(T (W x6c x00 x00 x00 x60 x00 x00 x00)
(L (W x00 x00 x00 x00 x00 x00 x00 x00)) E)
(T (W xff xff xff xff xb0 x00 x00 x00)
(L (W xff xff xff xff xff xff xff xff)) E)))
(T (W x00 x00 x80 x3f x00 x00 x80 x3f)
(T (W x00 x00 x00 x00 xe4 xe4 xfa xff)
(T (W x29 x00 x00 x00 x2c x00 x00 x00)
(L (W x45 x26 x22 x84 xe4 x9c xf2 xcb))
(L (W x00 x00 x00 x00 xe4 xe4 xff xff)))
(T (W x45 x26 x22 x84 xe4 x9c xf2 xcb)
(L (W x4f x84 x6f x8b xe8 xcb x63 xb7)) E))
(T (W x4f x84 x6f x8b xe8 xcb x63 xb7)
(T (W x45 x26 x22 x84 xe4 x9c xf2 xcb)
(L (W x15 x00 x00 x00 x0c x00 x00 x00)) E)
(T (W xff xff xff xff xff xff xff xff)
(L (W x00 x00 x80 xbf x00 x00 x80 xbf)) E)))))
(T (W x11 x00 x00 x00 xff xff xff xff)
(T (W x45 x26 x22 x84 xe4 x9c xf2 xcb)
(T (W x45 x26 x22 x84 xe4 x9c xf2 xcb)
(T (W x00 x00 x80 x3f x00 x00 x80 x3f)
(T (W x45 x26 x22 x84 xe4 x9c xf2 xcb)
(L (W x0c x00 x00 x00 xff xff xff xff))
(L (W x00 x00 x00 x00 xd2 x98 xff xff)))
(T (W x68 x00 x00 x00 x5c x00 x00 x00)
(L (W x52 x93 xfe xff x78 x00 x00 x00)) E))
(T (W x45 x26 x22 x84 xe4 x9c xf2 xcb)
(T (W x00 x00 x80 x3f x00 x00 x80 x3f)
(L (W x00 x00 x00 x00 x12 x00 x00 x00)) E)
(T (W x01 x01 x01 x01 x42 x6c xfd xff)
(L (W xff xff xff xff xff xff xff xff)) E)))
(T (W x18 x00 x00 x00 x0c x00 x00 x00)
(T (W xff xff xff xff xff xff xff xff)
(T (W x00 x00 x80 x3f x00 x00 x80 x3f)
(L (W x00 x00 x00 x00 x00 x00 x00 x00))
(L (W x00 x00 x80 xbf x00 x00 x80 xbf)))
(T (W xff xff xff xff xb0 x00 x00 x00)
(L (W x00 x00 x00 x00 x00 x00 x00 x00)) E))
(T (W x50 x00 x00 x00 x44 x00 x00 x00)
(T (W x00 x00 x00 x00 x00 x00 x00 x00)
(L (W xff xff xff xff xff xff xff xff)) E)
(T (W x35 x00 x00 x00 x38 x00 x00 x00)
(L (W x00 x00 x80 xbf x00 x00 x80 xbf)) E))))
(T (W x00 x00 x00 x00 x00 x00 x00 x00)
(T (W xff xff xff xff x04 x00 x00 x00)
(T (W x7a xba xfd xff xd0 x01 x00 x00)
(T (W xff xff xff xff xff xff xff xff)
(L (W x00 x00 x80 xbf x00 x00 x80 xbf))
(L (W x00 x00 x00 x00 x00 x00 x00 x00)))
(T (W xff xff xff xff xff xff xff xff)
(L (W xff xff xff xff xff xff xff xff)) E))
(T (W x00 x00 x80 x3f x00 x00 x80 x3f)
(T (W x02 x3c xff xff x00 x00 x01 x01)
(L (W x00 x00 x80 xbf x00 x00 x80 xbf)) E)
(T (W x00 x00 x01 x01 xc7 x01 x00 x00)
(L (W xff xff xff xff xff xff xff xff)) E)))
(T (W xa2 x71 xfa xff x74 x00 x00 x00)
(T (W x00 x00 x00 x00 x00 x00 x00 x00)
(T (W xff xff xff xff xff xff xff xff)
(L (W xff xff xff xff xc8 x00 x00 x00))
(L (W xff xff xff xff xff xff xff xff)))
(T (W x00 x00 x80 x3f x00 x00 x80 x3f)
(L (W x00 x00 x80 xbf x00 x00 x80 xbf)) E))
(T (W x18 x00 x00 x00 x0c x00 x00 x00)
(T (W xff xff xff xff xff xff xff xff)
(L (W x00 x00 x00 x00 x00 x00 x00 x00)) E)
(T (W xff xff xff xff xff xff xff xff)
(L (W x00 x00 x00 x00 xe4 x74 xff xff)) E))))))))
(T (W xff xff xff xff xff xff xff xff)
(T (W x00 x00 x00 x00 x00 x00 x00 x00)
(T (W xff xff xff xff xff xff xff xff)
(T (W x00 x00 x00 x00 x00 x00 x00 x00)
(T (W x00 x00 x80 x3f x00 x00 x80 x3f)
(T (W xff xff xff xff xff xff xff xff)
(T (W x45 x26 x22 x84 xe4 x9c xf2 xcb)
(T (W x68 x00 x00 x00 x5c x00 x00 x00)
(L (W xff xff xff xff xa0 x00 x00 x00))
(L (W x00 x00 x80 xbf x00 x00 x80 xbf)))
(T (W xff xff xff xff x03 x00 x00 x00)
(L (W x30 x32 x5f x43 x4c x45 x41 x52)) E))
(T (W x77 x69 x6c x64 x5f x70 x6f x6b)
(T (W xff xff xff xff xff xff xff xff)
(L (W x74 xfc xfd xff x00 x01 x01 x01))
(L (W x6c x00 x70 x00 x62 x00 x00 x00)))
(T (W xff xff xff xff xff xff xff xff)
(L (W x00 x00 x00 x00 x00 x00 x00 x00)) E)))
(T (W x74 x3c xfa xff x00 x01 x01 x01)
(T (W xbc x00 x00 x00 xb0 x00 x00 x00)
(T (W xff xff xff xff xbc x00 x00 x00)
(L (W xff xff xff xff x9c x00 x00 x00))
(L (W xff xff xff xff xff xff xff xff)))
(T (W x01 x00 x00 x00 x9c x00 x00 x00)
(L (W x45 x26 x22 x84 xe4 x9c xf2 xcb)) E))
(T (W x00 x00 x00 x00 x00 x00 x00 x00)
(T (W xff xff xff xff xff xff xff xff)
(L (W x00 x00 x00 x00 x00 x00 x00 x00)) E)
(T (W xff xff xff xff xff xff xff xff)
(L (W x18 x00 x00 x00 x10 x00 x00 x00)) E))))
(T (W xff xff xff xff xff xff xff xff)
(T (W x00 x00 x00 x00 x00 x00 x00 x00)
(T (W xff xff xff xff xff xff xff xff)
(T (W x54 x00 x00 x00 x48 x00 x00 x00)
(L (W xff xff xff xff xff xff xff xff))
(L (W xff xff xff xff xff xff xff xff)))
(T (W x45 x26 x22 x84 xe4 x9c xf2 xcb)
(L (W x00 x00 x80 xbf x00 x00 x80 xbf)) E))
(T (W x74 x1c xfb xff x00 x01 x01 x01)
(T (W x00 x00 x00 x00 x00 x00 x00 x00)
(L (W xff xff xff xff xff xff xff xff)) E)
(T (W x00 x00 x10 x00 x14 x00 x18 x00)
(L (W x52 x19 xff xff x78 x00 x00 x00)) E)))
(T (W x00 x00 x80 x3f x00 x00 x80 x3f)
(T (W x00 x00 x80 x3f x00 x00 x80 x3f)
(T (W x00 x00 x80 x3f x00 x00 x80 x3f)
(L (W xff xff xff xff xff xff xff xff))
(L (W x00 x00 x00 x00 x00 x00 x00 x00)))
(T (W x00 x00 x80 x3f x00 x00 x80 x3f)
(L (W xff xff xff xff xff xff xff xff)) E))
(T (W x6c x00 x00 x00 x60 x00 x00 x00)
(T (W xb6 x01 x00 x00 xff xff xff xff)
(L (W xff xff xff xff xa0 x00 x00 x00)) E)
(T (W x00 x00 x80 xbf x00 x00 x80 xbf)
(L (W x00 x00 x00 x00 x00 x00 x00 x00)) E)))))
(T (W x00 x00 x00 x00 x00 x00 x00 x00)
(T (W x6c x00 x00 x00 x60 x00 x00 x00)
(T (W xff xff xff xff xff xff xff xff)
(T (W x00 x00 x00 x00 x00 x00 x00 x00)
(T (W x00 x00 x00 x00 x82 x88 xfb xff)
(L (W x74 x8c xfd xff x00 x01 x01 x01))
(L (W x52 x89 xff xff x78 x00 x00 x00)))
(T (W x50 x00 x00 x00 x44 x00 x00 x00)
(L (W x00 x00 x00 x00 x12 x00 x00 x00)) E))
(T (W xb0 x00 x00 x00 x64 x00 x00 x00)
(T (W x74 x03 x00 x00 x4c x02 x00 x00)
(L (W xff xff xff xff xff xff xff xff)) E)
(T (W x00 x00 x80 xbf x00 x00 x80 xbf)
(L (W x00 x00 x80 xbf x00 x00 x80 xbf)) E)))
(T (W x00 x00 x80 x3f x00 x00 x80 x3f)
(T (W x50 x00 x00 x00 x44 x00 x00 x00)
(T (W x00 x00 x00 x00 x00 x00 x00 x00)
(L (W xff xff xff xff xff xff xff xff))
(L (W x00 x00 x00 x00 x12 x00 x00 x00)))
(T (W x44 x00 x48 x00 x4c x00 x50 x00)
(L (W xff xff xff xff xff xff xff xff)) E))
(T (W x00 x00 x00 x00 x00 x00 x00 x00)
(T (W xff xff xff xff xff xff xff xff)
(L (W x00 x00 x80 xbf x00 x00 x80 xbf)) E)
(T (W x45 x44 x00 x00 x00 x00 x00 x00)
(L (W xff xff xff xff xff xff xff xff)) E))))
(T (W xff xff xff xff xff xff xff xff)
(T (W x00 x00 x80 x3f x00 x00 x80 x3f)
(T (W xff xff xff xff xff xff xff xff)
(T (W x00 x00 x00 x00 x00 x00 x00 x00)
(L (W xff xff xff xff xbc x00 x00 x00))
(L (W xff xff xff xff xff xff xff xff)))
(T (W xff xff xff xff xff xff xff xff)
(L (W x00 x00 x80 xbf x00 x00 x80 xbf)) E))
(T (W xff xff xff xff x01 x00 x00 x00)
(T (W x00 x00 x80 x3f x00 x00 x80 x3f)
(L (W x00 x00 x00 x00 x00 x00 x00 x00)) E)
(T (W x45 x26 x22 x84 xe4 x9c xf2 xcb)
(L (W x00 x00 x80 xbf x00 x00 x80 xbf)) E)))
(T (W x00 x00 x80 x3f x00 x00 x80 x3f)
(T (W x68 x00 x00 x00 x5c x00 x00 x00)
(T (W x45 x26 x22 x84 xe4 x9c xf2 xcb)
(L (W x00 x00 x80 xbf x00 x00 x80 xbf))
(L (W x00 x00 x00 x00 x00 x00 x00 x00)))
(T (W x45 x26 x22 x84 xe4 x9c xf2 xcb)
(L (W x31 x9b x4a xdc x00 x65 x5c x2f)) E))
(T (W x00 x00 x00 x00 x00 x00 x00 x00)
(T (W xff xff xff xff xff xff xff xff)
(L (W xff xff xff xff xff xff xff xff)) E)
(T (W xff xff xff xff xff xff xff xff)
(L (W x00 x00 x00 x00 x00 x00 x00 x00)) E))))))
(T (W x00 x00 x80 x3f x00 x00 x80 x3f)
(T (W x18 x00 x00 x00 x0c x00 x00 x00)
(T (W xff xff xff xff x0a x00 x00 x00)
(T (W xff xff xff xff xff xff xff xff)
(T (W x00 x00 x00 x00 x00 x00 x00 x00)
(T (W xff xff xff xff xff xff xff xff)
(L (W xe8 x2a x00 x00 xd4 x29 x00 x00))
(L (W x00 x00 x80 xbf x00 x00 x80 xbf)))
(T (W x68 x00 x00 x00 x5c x00 x00 x00)
(L (W x00 x00 x00 x00 x00 x00 x00 x00)) E))
(T (W x00 x00 x80 x3f x00 x00 x80 x3f)
(T (W xff xff xff xff xff xff xff xff)
(L (W xbc x00 x00 x00 x1e x00 x00 x00))
(L (W xff xff xff xff xff xff xff xff)))
(T (W xff xff xff xff xff xff xff xff)
(L (W x00 x00 x00 x00 x00 x00 x00 x00)) E)))
(T (W x00 x00 x80 x3f x00 x00 x80 x3f)
(T (W x74 xc4 xfa xff x00 x01 x01 x01)
(T (W x02 x00 x00 x00 x2c x01 x00 x00)
(L (W xff xff xff xff xff xff xff xff))
(L (W xff xff xff xff xff xff xff xff)))
(T (W x00 x00 x80 x3f x00 x00 x80 x3f)
(L (W x45 x26 x22 x84 xe4 x9c xf2 xcb)) E))
(T (W x01 x00 x00 x00 x1b x00 x00 x00)
(T (W xff xff xff xff xff xff xff xff)
(L (W x00 x00 x80 xbf x00 x00 x80 xbf)) E)
(T (W x06 x00 x00 x00 xc0 x05 x00 x00)
(L (W xff xff xff xff xff xff xff xff)) E))))
(T (W xff xff xff xff xff xff xff xff)
(T (W xa2 x1f xfa xff x74 x00 x00 x00)
(T (W xff xff xff xff xff xff xff xff)
(T (W xff xff xff xff xff xff xff xff)
(L (W x00 x00 x00 x00 x12 x00 x00 x00))
(L (W x00 x00 x00 x00 x12 x00 x00 x00)))
(T (W xff xff xff xff xff xff xff xff)
(L (W x45 x26 x22 x84 xe4 x9c xf2 xcb)) E))
(T (W xff xff xff xff xc4 x00 x00 x00)
(T (W x00 x00 x80 x3f x00 x00 x80 x3f)
(L (W x00 x00 x00 x00 x00 x00 x00 x00)) E)
(T (W x00 x00 x80 xbf x00 x00 x80 xbf)
(L (W x45 x26 x22 x84 xe4 x9c xf2 xcb)) E)))
(T (W x00 x00 x80 x3f x00 x00 x80 x3f)
(T (W x50 x00 x00 x00 x44 x00 x00 x00)
(T (W x00 x00 x80 x3f x00 x00 x80 x3f)
(L (W x00 x00 x00 x00 x00 x00 x00 x00))
(L (W x00 x00 x00 x00 x00 x00 x00 x00)))
(T (W xff xff xff xff xff xff xff xff)
(L (W x00 x00 x00 x00 x00 x00 x00 x00)) E))
(T (W xa1 x01 x00 x00 xff xff xff xff)
(T (W x00 x00 x00 x00 x00 x00 x00 x00)
(L (W x03 x00 x00 x00 xd8 x00 x00 x00)) E)
(T (W xff xff xff xff xa0 x00 x00 x00)
(L (W x00 x00 x00 x00 x00 x00 x00 x00)) E)))))
(T (W xff xff xff xff xff xff xff xff)
(T (W x00 x00 x00 x00 x00 x00 x00 x00)
(T (W x6f x6b x65 x5f x77 x61 x72 x6c)
(T (W x40 x00 x00 x00 x10 x00 x00 x00)
(T (W x00 x00 x00 x00 x00 x00 x00 x00)
(L (W xff xff xff xff xac x00 x00 x00))
(L (W xff xff xff xff xff xff xff xff)))
(T (W x45 x26 x22 x84 xe4 x9c xf2 xcb)
(L (W x00 x00 x00 x00 x00 x00 x00 x00)) E))
(T (W x00 x04 x00 x00 xd0 x02 x00 x00)
(T (W x00 x00 x00 x00 x00 x00 x00 x00)
(L (W xff xff xff xff xbc x00 x00 x00)) E)
(T (W x00 x00 x00 x00 x00 x00 x00 x00)
(L (W x52 x11 xff xff x78 x00 x00 x00)) E)))
(T (W x45 x26 x22 x84 xe4 x9c xf2 xcb)
(T (W x00 x00 x80 x3f x00 x00 x80 x3f)
(T (W x45 x26 x22 x84 xe4 x9c xf2 xcb)
(L (W xff xff xff xff xff xff xff xff))
(L (W xfc xe1 xff xff x15 x00 x00 x00)))
(T (W x00 x00 x00 x00 x00 x00 x00 x00)
(L (W xff xff xff xff xff xff xff xff)) E))
(T (W x00 x00 x80 x3f x00 x00 x80 x3f)
(T (W x0a x64 xff xff x00 x00 x01 x01)
(L (W x54 x00 x00 x00 x48 x00 x00 x00)) E)
(T (W x45 x26 x22 x84 xe4 x9c xf2 xcb)
(L (W x08 x00 x00 x00 x10 x08 x00 x00)) E))))
(T (W x25 x02 x00 x00 xff xff xff xff)
(T (W x68 x00 x00 x00 x5c x00 x00 x00)
(T (W x64 x00 x00 x00 x9c x00 x00 x00)
(T (W x00 x00 x80 x3f x00 x00 x80 x3f)
(L (W x00 x00 x00 x00 x00 x00 x00 x00))
(L (W xff xff xff xff xff xff xff xff)))
(T (W xb8 x00 x00 x00 xac x00 x00 x00)
(L (W x00 x00 x80 xbf x00 x00 x80 xbf)) E))
(T (W x30 x32 x5f x43 x4c x45 x41 x52)
(T (W x6c x00 x00 x00 x60 x00 x00 x00)
(L (W x00 x00 x00 x00 x00 x00 x00 x00)) E)
(T (W xff xff xff xff xb0 x00 x00 x00)
(L (W x00 x01 x01 x01 x8a x8b xff xff)) E)))
(T (W x00 x00 x00 x00 x00 x00 x00 x00)
(T (W xb8 x00 x00 x00 xac x00 x00 x00)
(T (W x45 x26 x22 x84 xe4 x9c xf2 xcb)
(L (W x54 x00 x00 x00 x48 x00 x00 x00))
(L (W x6c x00 x00 x00 x60 x00 x00 x00)))
(T (W x00 x00 x00 x00 x00 x00 x00 x00)
(L (W x00 x00 x00 x00 x00 x00 x00 x00)) E))
(T (W x00 x00 x80 x3f x00 x00 x80 x3f)
(T (W xa2 x6f xfc xff x74 x00 x00 x00)
(L (W x00 x00 x00 x00 x42 x72 xfe xff)) E)
(T (W x00 x00 x80 xbf x00 x00 x80 xbf)
(L (W x00 x00 x80 xbf x00 x00 x80 xbf)) E)))))))
(T (W x00 x00 x80 x3f x00 x00 x80 x3f)
(T (W x00 x00 x00 x00 x00 x00 x00 x00)
(T (W x00 x00 x80 x3f x00 x00 x80 x3f)
(T (W x01 x00 x00 x00 xa0 x00 x00 x00)
(T (W x50 x00 x00 x00 x44 x00 x00 x00)
(T (W xb8 x00 x00 x00 xac x00 x00 x00)
(T (W x00 x00 x00 x00 x00 x00 x00 x00)
(L (W x00 x00 x00 x00 x00 x00 x00 x00))
(L (W x04 x00 x00 x00 x62 x84 xff xff)))
(T (W x00 x00 x00 x00 x00 x00 x00 x00)
(L (W x19 x00 x00 x00 x1c x00 x00 x00)) E))
(T (W xff xff xff xff xff xff xff xff)
(T (W x45 x26 x22 x84 xe4 x9c xf2 xcb)
(L (W x00 x00 x00 x00 x62 x04 xfe xff))
(L (W x00 x00 x00 x00 x00 x00 x00 x00)))
(T (W xff xff xff xff xff xff xff xff)
(L (W x00 x00 x00 x00 xe4 xfe xfe xff)) E)))
(T (W x00 x00 x00 x00 x00 x00 x00 x00)
(T (W x00 x00 x00 x00 x00 x00 x00 x00)
(T (W x00 x00 x80 x3f x00 x00 x80 x3f)
(L (W xff xff xff xff xff xff xff xff))
(L (W x00 x00 x80 xbf x00 x00 x80 xbf)))
(T (W xa4 xc4 xfc xff x18 x00 x00 x00)
(L (W xfc xcd xfe xff x17 x00 x00 x00)) E))
(T (W xff xff xff xff xff xff xff xff)
(T (W x00 x00 x80 x3f x00 x00 x80 x3f)
(L (W xff xff xff xff xff xff xff xff)) E)
(T (W x00 x00 x80 xbf x00 x00 x80 xbf)
(L (W x00 x00 x00 x00 x00 x00 x00 x00)) E))))
(T (W x45 x26 x22 x84 xe4 x9c xf2 xcb)
(T (W xff xff xff xff xff xff xff xff)
(T (W x00 x00 x00 x00 x00 x00 x00 x00)
(T (W x00 x00 x00 x00 x00 x00 x00 x00)
(L (W x4f x84 x6f x8b xe8 xcb x63 xb7))
(L (W x00 x00 x80 xbf x00 x00 x80 xbf)))
(T (W x6b x65 x5f x63 x6f x77 x61 x72)
(L (W xff xff xff xff xff xff xff xff)) E))
(T (W x00 x00 x00 x00 x00 x00 x00 x00)
(T (W xff xff xff xff xff xff xff xff)
(L (W x6c x00 x00 x00 x60 x00 x00 x00)) E)
(T (W x00 x00 x00 x00 xd2 x7b xfd xff)
(L (W x00 x00 x00 x00 x00 x00 x00 x00)) E)))
(T (W xff xff xff xff xff xff xff xff)
(T (W x00 x00 x00 x00 x02 x00 x00 x00)
(T (W x0a xf0 xfe xff x00 x00 x01 x01)
(L (W x00 x00 x80 xbf x00 x00 x80 xbf))
(L (W x22 x00 x00 x00 x25 x00 x00 x00)))
(T (W x00 x00 x00 x00 x00 x00 x00 x00)
(L (W x00 x00 x80 xbf x00 x00 x80 xbf)) E))
(T (W x00 x00 x00 x00 x00 x00 x00 x00)
(T (W x45 x26 x22 x84 xe4 x9c xf2 xcb)
(L (W x49 xa1 x68 x4a xeb x5f xdd x3d)) E)
(T (W x00 x00 x00 x00 x00 x00 x00 x00)
(L (W xff xff xff xff xb0 x00 x00 x00)) E)))))
(T (W x54 x00 x00 x00 x48 x00 x00 x00)
(T (W xff xff xff xff xff xff xff xff)
(T (W x00 x00 x80 x3f x00 x00 x80 x3f)
(T (W xff xff xff xff x03 x00 x00 x00)
(T (W x18 x00 x00 x00 xb0 x00 x00 x00)
(L (W x5f x4e x53 x5f x30 x32 x5f x43))
(L (W x00 x00 x00 x00 x00 x00 x00 x00)))
(T (W xd9 x00 x00 x00 xff xff xff xff)
(L (W xff xff xff xff xff xff xff xff)) E))
(T (W x00 x00 x00 x00 x00 x00 x00 x00)
(T (W x00 x00 x80 x3f x00 x00 x80 x3f)
(L (W x45 x26 x22 x84 xe4 x9c xf2 xcb)) E)
(T (W x00 x00 x00 x00 x00 x00 x00 x00)
(L (W xff xff xff xff xff xff xff xff)) E)))
(T (W x48 x03 x00 x00 x34 x02 x00 x00)
(T (W xa4 xd4 xfa xff x3c x00 x00 x00)
(T (W x01 x00 x00 x00 xb0 x00 x00 x00)
(L (W x00 x00 x00 x00 x00 x00 x00 x00))
(L (W x74 xd0 xff xff x00 x01 x01 x01)))
(T (W xff xff xff xff xa0 x00 x00 x00)
(L (W x00 x00 x00 x00 x00 x00 x00 x00)) E))
(T (W xff xff xff xff x03 x00 x00 x00)
(T (W x00 x00 x80 x3f x00 x00 x80 x3f)
(L (W x00 x00 x00 x00 x00 x00 x00 x00)) E)
(T (W x01 x01 x2a x00 x50 x00 x3c x00)
(L (W x54 x00 x00 x00 x48 x00 x00 x00)) E))))
(T (W x00 x00 x80 x3f x00 x00 x80 x3f)
(T (W x00 x00 x00 x00 x00 x00 x00 x00)
(T (W x00 x00 x00 x00 x00 x00 x00 x00)
(T (W xff xff xff xff xff xff xff xff)
(L (W xff xff xff xff x11 x00 x00 x00))
(L (W x4f x84 x6f x8b xe8 xcb x63 xb7)))
(T (W x00 x00 x00 x00 x00 x00 x00 x00)
(L (W xff xff xff xff xff xff xff xff)) E))
(T (W x00 x00 x00 x00 xe4 x2e xfb xff)
(T (W x00 x00 x00 x00 x00 x00 x00 x00)
(L (W xff xff xff xff xc8 x00 x00 x00)) E)
(T (W x00 x00 x00 x00 x00 x00 x00 x00)
(L (W x46 x53 x59 x53 x5f x4e x53 x5f)) E)))
(T (W xff xff xff xff x04 x00 x00 x00)
(T (W xff xff xff xff xff xff xff xff)
(T (W xa4 xf4 xfb xff x14 x00 x00 x00)
(L (W xff xff xff xff xff xff xff xff))
(L (W xff xff xff xff xff xff xff xff)))
(T (W x00 x00 x00 x00 x00 x00 x10 x00)
(L (W x15 x00 x00 x00 x18 x00 x00 x00)) E))
(T (W x45 x26 x22 x84 xe4 x9c xf2 xcb)
(T (W x00 x00 x00 x00 x00 x00 x00 x00)
(L (W x6c x00 x00 x00 x60 x00 x00 x00)) E)
(T (W x45 x26 x22 x84 xe4 x9c xf2 xcb)
(L (W xff xff xff xff xff xff xff xff)) E))))))
(T (W xff xff xff xff xff xff xff xff)
(T (W xff xff xff xff xff xff xff xff)
(T (W x00 x00 x00 x00 x00 x00 x00 x00)
(T (W x00 x00 x80 x3f x00 x00 x80 x3f)
(T (W xc0 x00 x00 x00 xb4 x00 x00 x00)
(T (W x45 x26 x22 x84 xe4 x9c xf2 xcb)
(L (W x00 x00 x00 x00 x00 x00 x00 x00))
(L (W x46 x53 x59 x53 x5f x4e x53 x5f)))
(T (W x00 x00 x00 x00 x00 x00 x00 x00)
(L (W xb4 x00 x00 x00 x64 x00 x00 x00)) E))
(T (W x00 x00 x00 x00 x00 x00 x00 x00)
(T (W x00 x00 x80 x3f x00 x00 x80 x3f)
(L (W x00 x00 x00 x00 x12 x00 x00 x00)) E)
(T (W x03 x00 x00 x00 xbc x00 x00 x00)
(L (W x03 x00 x00 x00 xd0 x00 x00 x00)) E)))
(T (W x00 x00 x00 x00 x00 x00 x00 x00)
(T (W x00 x00 x00 x00 x00 x00 x00 x00)
(T (W xff xff xff xff x9c x00 x00 x00)
(L (W x45 x26 x22 x84 xe4 x9c xf2 xcb))
(L (W x6c x00 x00 x00 x60 x00 x00 x00)))
(T (W x30 x5f x53 x50 x41 x57 x4e x00)
(L (W x00 x00 x00 x00 x12 x00 x00 x00)) E))
(T (W x00 x00 x00 x00 x00 x00 x00 x00)
(T (W x45 x26 x22 x84 xe4 x9c xf2 xcb)
(L (W xff xff xff xff xff xff xff xff)) E)
(T (W x52 x45 xfd xff x78 x00 x00 x00)
(L (W x00 x00 x80 xbf x00 x00 x80 xbf)) E))))
(T (W x00 x00 x80 x3f x00 x00 x80 x3f)
(T (W x00 x00 x00 x00 x00 x00 x00 x00)
(T (W x00 x00 x00 x00 x00 x00 x00 x00)
(T (W x74 xa8 xfb xff x00 x01 x01 x01)
(L (W x50 x00 x00 x00 x44 x00 x00 x00))
(L (W x00 x00 x01 x01 x96 x01 x00 x00)))
(T (W x00 x00 x00 x00 x00 x00 x00 x00)
(L (W x5c x00 x00 x00 xff xff xff xff)) E))
(T (W x00 x00 x00 x00 x00 x00 x00 x00)
(T (W xff xff xff xff xff xff xff xff)
(L (W x45 x26 x22 x84 xe4 x9c xf2 xcb)) E)
(T (W x00 x00 x01 x01 xc1 x00 x00 x00)
(L (W x00 x00 x00 x00 x62 x2c xff xff)) E)))
(T (W xff xff xff xff xff xff xff xff)
(T (W xff xff xff xff xff xff xff xff)
(T (W x45 x44 x00 x00 x00 x00 x00 x00)
(L (W x50 x00 x00 x00 x44 x00 x00 x00))
(L (W xff xff xff xff xff xff xff xff)))
(T (W xff xff xff xff xff xff xff xff)
(L (W x6c x00 x00 x00 x60 x00 x00 x00)) E))
(T (W x00 x00 x80 x3f x00 x00 x80 x3f)
(T (W x00 x00 x00 x00 x00 x00 x00 x00)
(L (W x00 x00 x80 xbf x00 x00 x80 xbf)) E)
(T (W x00 x00 x00 x00 x00 x00 x00 x00)
(L (W xff xff xff xff xff xff xff xff)) E)))))
(T (W x00 x00 x00 x00 x00 x00 x00 x00)
(T (W x00 x00 x80 x3f x00 x00 x80 x3f)
(T (W x01 x00 x00 x00 x9c x00 x00 x00)
(T (W xff xff xff xff x01 x00 x00 x00)
(T (W xff xff xff xff xff xff xff xff)
(L (W x00 x00 x00 x00 x00 x00 x00 x00))
(L (W x00 x00 x80 xbf x00 x00 x80 xbf)))
(T (W xff xff xff xff xff xff xff xff)
(L (W xff xff xff xff xff xff xff xff)) E))
(T (W xc2 x48 xfe xff x9d x01 x00 x00)
(T (W x6c x00 x00 x00 x60 x00 x00 x00)
(L (W x00 x00 x80 xbf x00 x00 x80 xbf)) E)
(T (W x00 x00 x10 x00 x14 x00 x18 x00)
(L (W x00 x00 x00 x00 x00 x00 x00 x00)) E)))
(T (W xff xff xff xff xff xff xff xff)
(T (W x00 x00 x00 x00 x00 x00 x00 x00)
(T (W x29 x00 x00 x00 x2c x00 x00 x00)
(L (W x00 x00 x80 xbf x00 x00 x80 xbf))
(L (W x18 x00 x00 x00 x10 x00 x00 x00)))
(T (W xff xff xff xff xff xff xff xff)
(L (W x00 x00 x80 xbf x00 x00 x80 xbf)) E))
(T (W x00 x00 x00 x00 x00 x00 x00 x00)
(T (W x45 x26 x22 x84 xe4 x9c xf2 xcb)
(L (W x00 x00 x00 x00 x00 x00 x00 x00)) E)
(T (W xff xff xff xff xff xff xff xff)
(L (W x00 x00 x00 x00 xe4 x56 xff xff)) E))))
(T (W x00 x00 x80 x3f x00 x00 x80 x3f)
(T (W x8a x46 xfd xff xa1 x01 x00 x00)
(T (W x00 x00 x00 x00 x00 x00 x00 x00)
(T (W xa4 xbc xfb xff x10 x00 x00 x00)
(L (W x00 x00 x80 xbf x00 x00 x80 xbf))
(L (W x45 x26 x22 x84 xe4 x9c xf2 xcb)))
(T (W x00 x00 x00 x00 x00 x00 x00 x00)
(L (W x00 x00 x00 x00 x00 x00 x00 x00)) E))
(T (W xff xff xff xff xff xff xff xff)
(T (W x00 x00 x00 x00 x00 x00 x00 x00)
(L (W xff xff xff xff xff xff xff xff)) E)
(T (W x00 x00 x00 x00 x00 x00 x00 x00)
(L (W x00 x00 x00 x00 x00 x00 x00 x00)) E)))
(T (W x18 x00 x00 x00 x10 x00 x00 x00)
(T (W x00 x00 x00 x00 x00 x00 x00 x00)
(T (W x49 xa1 x68 x4a xeb x5f xdd x3d)
(L (W x00 x00 x00 x00 xd2 xfa xfd xff))
(L (W x00 x00 x00 x00 x00 x00 x00 x00)))
(T (W x74 xf8 xfc xff x00 x01 x01 x01)
(L (W xff xff xff xff xff xff xff xff)) E))
(T (W x1a x91 xb1 x0f x51 xd7 x17 x8f)
(T (W x45 x26 x22 x84 xe4 x9c xf2 xcb)
(L (W xff xff xff xff xa0 x00 x00 x00)) E)
(T (W x00 x00 x00 x00 x00 x00 x00 x00)
(L (W xff xff xff xff xff xff xff xff)) E)))))))))
(T (W x60 xac x01 x00 x54 xa5 x01 x00)
(T (W x38 x70 x00 x00 xfc x6e x00 x00)
(T (W x00 x00 x00 x00 x92 x1c xfd xff)
(T (W xbc x00 x00 x00 xb0 x00 x00 x00)
(T (W x00 x00 x00 x00 x00 x00 x00 x00)
(T (W x45 x26 x22 x84 xe4 x9c xf2 xcb)
(T (W xff xff xff xff x04 x00 x00 x00)
(T (W x00 x00 x00 x00 x00 x00 x00 x00)
(T (W x00 x00 x80 x3f x00 x00 x80 x3f)
(L (W x6c x00 x00 x00 x60 x00 x00 x00))
(L (W x00 x00 x80 xbf x00 x00 x80 xbf)))
(T (W x68 x00 x00 x00 x5c x00 x00 x00)
(L (W xff xff xff xff xff xff xff xff)) E))
(T (W xff xff xff xff xff xff xff xff)
(T (W x45 x26 x22 x84 xe4 x9c xf2 xcb)
(L (W x45 x26 x22 x84 xe4 x9c xf2 xcb))
(L (W x00 x00 x80 xbf x00 x00 x80 xbf)))
(T (W x00 x00 x80 x3f x00 x00 x80 x3f)
(L (W x30 x32 x5f x43 x4c x45 x41 x52)) E)))
(T (W x00 x00 x80 x3f x00 x00 x80 x3f)
(T (W x50 x00 x00 x00 x44 x00 x00 x00)
(T (W x45 x26 x22 x84 xe4 x9c xf2 xcb)
(L (W x45 x26 x22 x84 xe4 x9c xf2 xcb))
(L (W x03 x00 x00 x00 xd0 x00 x00 x00)))
(T (W x00 x00 x80 x3f x00 x00 x80 x3f)
(L (W x00 x00 x80 xbf x00 x00 x80 xbf)) E))
(T (W x46 x53 x59 x53 x5f x4e x53 x5f)
(T (W x1c x00 x00 x00 xb0 x00 x00 x00)
(L (W x30 x32 x5f x43 x4c x45 x41 x52)) E)
(T (W xc4 x00 x00 x00 x02 x00 x00 x00)
(L (W x54 x00 x00 x00 x48 x00 x00 x00)) E))))
(T (W xa2 xd6 xf9 xff x74 x00 x00 x00)
(T (W xa0 x00 x6a xca x08 xbf x5a xe9)
(T (W xc0 x00 x00 x00 xb4 x00 x00 x00)
(T (W x45 x26 x22 x84 xe4 x9c xf2 xcb)
(L (W x45 x26 x22 x84 xe4 x9c xf2 xcb))
(L (W xff xff xff xff xc0 x00 x00 x00)))
(T (W x00 x00 x00 x00 x00 x00 x00 x00)
(L (W x00 x00 x00 x00 x00 x00 x00 x00)) E))
(T (W x45 x26 x22 x84 xe4 x9c xf2 xcb)
(T (W x46 x53 x59 x53 x5f x4e x53 x5f)
(L (W xff xff xff xff xff xff xff xff)) E)
(T (W xff xff xff xff xff xff xff xff)
(L (W x00 x00 x80 xbf x00 x00 x80 xbf)) E)))
(T (W x45 x26 x22 x84 xe4 x9c xf2 xcb)
(T (W x00 x00 x80 x3f x00 x00 x80 x3f)
(T (W x45 x26 x22 x84 xe4 x9c xf2 xcb)
(L (W xff xff xff xff xff xff xff xff))
(L (W x08 x00 x00 x00 x10 x08 x00 x00)))
(T (W x00 x00 x00 x00 x00 x00 x00 x00)
(L (W x18 x00 x00 x00 x10 x00 x00 x00)) E))
(T (W x00 x00 x80 x3f x00 x00 x80 x3f)
(T (W xff xff xff xff xff xff xff xff)
(L (W x6c x00 x00 x00 x60 x00 x00 x00)) E)
(T (W x00 x00 x80 xbf x00 x00 x80 xbf)
(L (W xff xff xff xff xff xff xff xff)) E)))))
(T (W x00 x00 x00 x00 x00 x00 x00 x00)
(T (W x00 x00 x80 x3f x00 x00 x80 x3f)
(T (W xb8 x00 x00 x00 xac x00 x00 x00)
(T (W x0a x9b xfd xff x00 x00 x01 x01)
(T (W xff xff xff xff xff xff xff xff)
(L (W x00 x00 x80 xbf x00 x00 x80 xbf))
(L (W x00 x00 x80 xbf x00 x00 x80 xbf)))
(T (W x45 x26 x22 x84 xe4 x9c xf2 xcb)
(L (W x00 x00 x00 x00 x00 x00 x00 x00)) E))
(T (W x74 x0b xfb xff x00 x01 x01 x01)
(T (W xff xff xff xff xff xff xff xff)
(L (W x00 x00 x80 xbf x00 x00 x80 xbf)) E)
(T (W x00 x00 x00 x00 x00 x00 x00 x00)
(L (W x00 x00 x00 x00 x00 x00 x00 x00)) E)))
(T (W x00 x00 x00 x00 x00 x00 x00 x00)
(T (W x00 x00 x80 x3f x00 x00 x80 x3f)
(T (W xff xff xff xff xff xff xff xff)
(L (W x18 x00 x00 x00 x0c x00 x00 x00))
(L (W x04 x00 x00 x00 x62 xcf xff xff)))
(T (W x00 x00 x80 x3f x00 x00 x80 x3f)
(L (W x19 x00 x00 x00 x1c x00 x00 x00)) E))
(T (W xff xff xff xff xff xff xff xff)
(T (W xff xff xff xff xff xff xff xff)
(L (W x00 x00 x00 x00 x00 x00 x00 x00)) E)
(T (W xff xff xff xff xff xff xff xff)
(L (W xff xff xff xff xff xff xff xff)) E))))
(T (W xff xff xff xff xff xff xff xff)
(T (W x00 x00 x80 x3f x00 x00 x80 x3f)
(T (W x00 x00 x00 x00 xe4 xa9 xfa xff)
(T (W x00 x00 x00 x00 x00 x00 x00 x00)
(L (W xff xff xff xff x9c x00 x00 x00))
(L (W x03 x00 x00 x00 xd8 x00 x00 x00)))
(T (W x50 x00 x00 x00 x44 x00 x00 x00)
(L (W x00 x00 x00 x00 x00 x00 x00 x00)) E))
(T (W xff xff xff xff xc8 x00 x00 x00)
(T (W x00 x00 x00 x00 x00 x00 x00 x00)
(L (W x5c x00 x00 x00 xff xff xff xff)) E)
(T (W x00 x00 x80 xbf x00 x00 x80 xbf)
(L (W x00 x00 x80 xbf x00 x00 x80 xbf)) E)))
(T (W x00 x00 x00 x00 x00 x00 x00 x00)
(T (W x45 x26 x22 x84 xe4 x9c xf2 xcb)
(T (W x00 x00 x80 x3f x00 x00 x80 x3f)
(L (W x00 x00 x00 x00 x00 x00 x00 x00))
(L (W x00 x00 x00 x00 x00 x00 x00 x00)))
(T (W x00 x00 x80 x3f x00 x00 x80 x3f)
(L (W xff xff xff xff xff xff xff xff)) E))
(T (W x00 x00 x00 x00 xd2 x6d xfb xff)
(T (W xa2 x66 xfc xff x74 x00 x00 x00)
(L (W xcc x00 x00 x00 x02 x00 x00 x00)) E)
(T (W x00 x00 x00 x00 xe4 x69 xfd xff)
(L (W x00 x00 x00 x00 x00 x00 x00 x00)) E))))))
(T (W x00 x00 x80 x3f x00 x00 x80 x3f)
(T (W x52 xa0 xf9 xff x78 x00 x00 x00)
(T (W xff xff xff xff xff xff xff xff)
(T (W x18 x00 x00 x00 x10 x00 x00 x00)
(T (W x3e x00 x00 x00 x0c x00 x00 x00)
(T (W xff xff xff xff xff xff xff xff)
(L (W xa2 x7e xfd xff x74 x00 x00 x00))
(L (W x00 x00 x80 xbf x00 x00 x80 xbf)))
(T (W x50 x00 x00 x00 x44 x00 x00 x00)
(L (W x00 x00 x00 x00 x00 x00 x00 x00)) E))
(T (W x00 x00 x00 x00 x00 x00 x00 x00)
(T (W xff xff xff xff x03 x00 x00 x00)
(L (W x74 x03 xfe xff x00 x01 x01 x01))
(L (W x00 x00 x80 xbf x00 x00 x80 xbf)))
(T (W x74 x00 x00 x00 x68 x00 x00 x00)
(L (W x00 x00 x00 x00 x00 x00 x00 x00)) E)))
(T (W x45 x26 x22 x84 xe4 x9c xf2 xcb)
(T (W x00 x00 x80 x3f x00 x00 x80 x3f)
(T (W xff xff xff xff xff xff xff xff)
(L (W x00 x00 x80 xbf x00 x00 x80 xbf))
(L (W xff xff xff xff xff xff xff xff)))
(T (W x00 x00 x80 x3f x00 x00 x80 x3f)
(L (W x00 x00 x80 xbf x00 x00 x80 xbf)) E))
(T (W x00 x00 x80 x3f x00 x00 x80 x3f)
(T (W x18 x00 x00 x00 x10 x00 x00 x00)
(L (W x00 x00 x00 x00 x00 x00 x00 x00)) E)
(T (W xff xff xff xff xff xff xff xff)
(L (W x45 x26 x22 x84 xe4 x9c xf2 xcb)) E))))
(T (W xff xff xff xff x03 x00 x00 x00)
(T (W x00 x00 x80 x3f x00 x00 x80 x3f)
(T (W xff xff xff xff x03 x00 x00 x00)
(T (W xff xff xff xff xff xff xff xff)
(L (W x00 x00 x00 x00 x68 x00 x6c x00))
(L (W x00 x00 x60 x00 x00 x00 x00 x00)))
(T (W xb8 x00 x00 x00 xac x00 x00 x00)
(L (W x00 x00 x00 x00 x00 x00 x00 x00)) E))
(T (W x45 x26 x22 x84 xe4 x9c xf2 xcb)
(T (W x00 x00 x00 x00 x00 x00 x00 x00)
(L (W xff xff xff xff xff xff xff xff)) E)
(T (W x00 x00 x00 x00 x00 x00 x00 x00)
(L (W x6c x00 x00 x00 x60 x00 x00 x00)) E)))
(T (W x00 x00 x80 x3f x00 x00 x80 x3f)
(T (W x00 x00 x80 x3f x00 x00 x80 x3f)
(T (W x4f x84 x6f x8b xe8 xcb x63 xb7)
(L (W xff xff xff xff xff xff xff xff))
(L (W x00 x00 x00 x00 x00 x00 x00 x00)))
(T (W x00 x00 x80 x3f x00 x00 x80 x3f)
(L (W xff xff xff xff xff xff xff xff)) E))
(T (W xff xff xff xff xff xff xff xff)
(T (W x8a x71 xff xff x54 x01 x00 x00)
(L (W x18 x00 x00 x00 x10 x00 x00 x00)) E)
(T (W x6c x00 x00 x00 x60 x00 x00 x00)
(L (W x00 x00 x00 x00 x00 x00 x00 x00)) E)))))
(T (W xff xff xff xff x03 x00 x00 x00)
(T (W x00 x00 x00 x00 x00 x00 x00 x00)
(T (W xff xff xff xff xff xff xff xff)
(T (W xff xff xff xff xff xff xff xff)
(T (W x5f x4e x53 x5f x30 x32 x5f x43)
(L (W x68 x00 x00 x00 x5c x00 x00 x00))
(L (W x18 x00 x00 x00 x0c x00 x00 x00)))
(T (W x45 x26 x22 x84 xe4 x9c xf2 xcb)
(L (W x46 x53 x59 x53 x5f x4e x53 x5f)) E))
(T (W xff xff xff xff x9c x00 x00 x00)
(T (W x74 x03 x00 x00 x4c x02 x00 x00)
(L (W x45 x26 x22 x84 xe4 x9c xf2 xcb)) E)
(T (W x14 x59 x69 x12 x83 x77 x37 xc6)
(L (W x00 x00 x00 x00 x00 x00 x00 x00)) E)))
(T (W x45 x26 x22 x84 xe4 x9c xf2 xcb)
(T (W x00 x00 x80 x3f x00 x00 x80 x3f)
(T (W x00 x00 x00 x00 x00 x00 x00 x00)
(L (W xff xff xff xff xff xff xff xff))
(L (W xff xff xff xff xff xff xff xff)))
(T (W x6c x76 x32 x00 x22 x00 x00 x00)
(L (W xff xff xff xff xff xff xff xff)) E))
(T (W x00 x00 x00 x00 x00 x00 x00 x00)
(T (W xff xff xff xff xff xff xff xff)
(L (W x00 x00 x80 xbf x00 x00 x80 xbf)) E)
(T (W x00 x00 x00 x00 x00 x00 x00 x00)
(L (W xff xff xff xff xff xff xff xff)) E))))
(T (W xff xff xff xff xff xff xff xff)
(T (W x00 x00 x80 x3f x00 x00 x80 x3f)
(T (W x45 x26 x22 x84 xe4 x9c xf2 xcb)
(T (W x00 x00 x00 x00 x00 x00 x00 x00)
(L (W x00 x00 x00 x00 x00 x00 x00 x00))
(L (W xff xff xff xff xff xff xff xff)))
(T (W x01 x00 x00 x00 x9c x00 x00 x00)
(L (W x00 x00 x00 x00 x00 x00 x00 x00)) E))
(T (W x0a x43 xfe xff x00 x00 x01 x01)
(T (W x00 x00 x80 x3f x00 x00 x80 x3f)
(L (W x00 x00 x00 x00 x00 x00 x00 x00)) E)
(T (W x00 x00 x80 xbf x00 x00 x80 xbf)
(L (W x00 x00 x80 xbf x00 x00 x80 xbf)) E)))
(T (W x00 x00 x00 x00 x00 x00 x00 x00)
(T (W x45 x26 x22 x84 xe4 x9c xf2 xcb)
(T (W x54 x00 x00 x00 x48 x00 x00 x00)
(L (W x00 x00 x80 xbf x00 x00 x80 xbf))
(L (W x00 x00 x80 xbf x00 x00 x80 xbf)))
(T (W xff xff xff xff xff xff xff xff)
(L (W x00 x00 x00 x00 x00 x00 x00 x00)) E))
(T (W x00 x00 x00 x00 x00 x00 x00 x00)
(T (W x68 x00 x00 x00 x5c x00 x00 x00)
(L (W xff xff xff xff xff xff xff xff)) E)
(T (W x05 x00 x06 x00 x07 x00 x00 x00)
(L (W x00 x00 x00 x00 x00 x00 x00 x00)) E)))))))
(T (W x00 x00 x80 x3f x00 x00 x80 x3f)
(T (W x00 x00 x00 x00 x00 x00 x00 x00)
(T (W xb4 x13 x00 x00 xa0 x12 x00 x00)
(T (W x00 x00 x00 x00 xe4 xbd xf9 xff)
(T (W x00 x00 x00 x00 x00 x00 x00 x00)
(T (W x18 x00 x00 x00 x10 x00 x00 x00)
(T (W x6b x65 x5f x6c x76 x31 x00 x00)
(L (W xe9 x88 xd4 x61 xf7 xdd xb2 x83))
(L (W xff xff xff xff xff xff xff xff)))
(T (W x00 x00 x00 x00 x00 x00 x00 x00)
(L (W x00 x00 x80 xbf x00 x00 x80 xbf)) E))
(T (W xff xff xff xff x03 x00 x00 x00)
(T (W x00 x00 x00 x00 x00 x00 x00 x00)
(L (W xff xff xff xff xff xff xff xff))
(L (W x00 x00 x68 x00 x00 x00 x00 x00)))
(T (W x6c x00 x00 x00 x60 x00 x00 x00)
(L (W x00 x00 x80 xbf x00 x00 x80 xbf)) E)))
(T (W xff xff xff xff xff xff xff xff)
(T (W x00 x00 x00 x00 x00 x00 x00 x00)
(T (W x00 x00 x00 x00 x00 x00 x00 x00)
(L (W xff xff xff xff xff xff xff xff))
(L (W x00 x00 x80 xbf x00 x00 x80 xbf)))
(T (W xff xff xff xff xff xff xff xff)
(L (W xff xff xff xff xff xff xff xff)) E))
(T (W xff xff xff xff xff xff xff xff)
(T (W x00 x00 x00 x00 x00 x00 x00 x00)
(L (W xc4 x00 x00 x00 x02 x00 x00 x00)) E)
(T (W x00 x00 x00 x00 x00 x00 x00 x00)
(L (W x00 x00 x00 x00 x00 x00 x00 x00)) E))))
(T (W x00 x00 x00 x00 x00 x00 x00 x00)
(T (W xff xff xff xff xff xff xff xff)
(T (W x00 x00 x00 x00 x00 x00 x00 x00)
(T (W x00 x00 x00 x00 x00 x00 x00 x00)
(L (W x12 x00 x00 x00 x46 x53 x59 x53))
(L (W x00 x00 x80 xbf x00 x00 x80 xbf)))
(T (W xff xff xff xff xff xff xff xff)
(L (W xff xff xff xff x9c x00 x00 x00)) E))
(T (W x00 x00 x00 x00 x00 x00 x00 x00)
(T (W x1c x00 x00 x00 xb0 x00 x00 x00)
(L (W x00 x00 x80 xbf x00 x00 x80 xbf)) E)
(T (W xff xff xff xff xff xff xff xff)
(L (W xff xff xff xff xff xff xff xff)) E)))
(T (W xff xff xff xff x04 x00 x00 x00)
(T (W xff xff xff xff xff xff xff xff)
(T (W xff xff xff xff xff xff xff xff)
(L (W x00 x00 x80 xbf x00 x00 x80 xbf))
(L (W x00 x00 x00 x00 xe4 xdd xff xff)))
(T (W xff xff xff xff xff xff xff xff)
(L (W x4f x84 x6f x8b xe8 xcb x63 xb7)) E))
(T (W x46 x53 x59 x53 x5f x4e x53 x5f)
(T (W xa2 x5a xfc xff x74 x00 x00 x00)
(L (W xfc x6c xfe xff x12 x00 x00 x00)) E)
(T (W x54 x01 x00 x00 xff xff xff xff)
(L (W x00 x00 x00 x00 xe4 x5d xff xff)) E)))))
(T (W x00 x00 x80 x3f x00 x00 x80 x3f)
(T (W xff xff xff xff xff xff xff xff)
(T (W x00 x00 x00 x00 x00 x00 x00 x00)
(T (W x50 x00 x00 x00 x44 x00 x00 x00)
(T (W x45 x26 x22 x84 xe4 x9c xf2 xcb)
(L (W x5a xec xff xff x00 x00 x01 x01))
(L (W x00 x00 x00 x00 x00 x00 x00 x00)))
(T (W xff xff xff xff xff xff xff xff)
(L (W xff xff xff xff xa0 x00 x00 x00)) E))
(T (W x00 x00 x00 x00 x00 x00 x00 x00)
(T (W x00 x00 x80 x3f x00 x00 x80 x3f)
(L (W x00 x00 x00 x00 x12 x00 x00 x00)) E)
(T (W x04 x00 x00 x00 x42 x0d xfd xff)
(L (W x18 x00 x00 x00 x1b x00 x00 x00)) E)))
(T (W xff xff xff xff xff xff xff xff)
(T (W xff xff xff xff xff xff xff xff)
(T (W x45 x26 x22 x84 xe4 x9c xf2 xcb)
(L (W x00 x00 x00 x00 x00 x00 x00 x00))
(L (W x00 x00 x80 xbf x00 x00 x80 xbf)))
(T (W x00 x00 x00 x00 x00 x00 x00 x00)
(L (W x00 x00 x00 x00 x12 x00 x00 x00)) E))
(T (W x00 x00 x80 x3f x00 x00 x80 x3f)
(T (W x00 x00 x80 x3f x00 x00 x80 x3f)
(L (W xff xff xff xff xff xff xff xff)) E)
(T (W x44 x00 x00 x00 x00 x00 x80 xbf)
(L (W x00 x00 x80 xbf x00 x00 x80 xbf)) E))))
(T (W x00 x00 x00 x00 x00 x00 x00 x00)
(T (W x1c x01 x00 x00 x04 x00 x00 x00)
(T (W x00 x00 x00 x00 x00 x00 x00 x00)
(T (W x16 x00 x00 x00 xb0 x00 x00 x00)
(L (W xff xff xff xff xff xff xff xff))
(L (W x00 x00 x00 x00 x00 x00 x00 x00)))
(T (W x00 x00 x00 x00 x00 x00 x00 x00)
(L (W xff xff xff xff xff xff xff xff)) E))
(T (W x00 x00 x80 x3f x00 x00 x80 x3f)
(T (W xff xff xff xff xff xff xff xff)
(L (W x45 x26 x22 x84 xe4 x9c xf2 xcb)) E)
(T (W xff xff xff xff xff xff xff xff)
(L (W x00 x00 x00 x00 x42 x2d xff xff)) E)))
(T (W xa2 x6a xfa xff x74 x00 x00 x00)
(T (W x64 x00 x00 x00 x9c x00 x00 x00)
(T (W xff xff xff xff xff xff xff xff)
(L (W xff xff xff xff xc8 x00 x00 x00))
(L (W xff xff xff xff xc0 x00 x00 x00)))
(T (W xff xff xff xff xff xff xff xff)
(L (W x52 xec xfe xff x78 x00 x00 x00)) E))
(T (W x54 x00 x00 x00 x48 x00 x00 x00)
(T (W x00 x00 x00 x00 x00 x00 x00 x00)
(L (W x00 x00 x80 xbf x00 x00 x80 xbf)) E)
(T (W x00 x00 x00 x00 x00 x00 x00 x00)
(L (W x00 x00 x00 x00 xe4 x6d xff xff)) E))))))
(T (W xff xff xff xff x04 x00 x00 x00)
(T (W xff xff xff xff xff xff xff xff)
(T (W x00 x00 x00 x00 x00 x00 x00 x00)
(T (W x45 x26 x22 x84 xe4 x9c xf2 xcb)
(T (W x40 x00 x00 x00 x9c x00 x00 x00)
(T (W x00 x00 x00 x00 x12 x00 x00 x00)
(L (W xff xff xff xff xff xff xff xff))
(L (W x00 x00 x01 x01 x5d x00 x00 x00)))
(T (W x84 x01 x00 x00 xff xff xff xff)
(L (W x74 x87 xfe xff x00 x01 x01 x01)) E))
(T (W x00 x00 x00 x00 x00 x00 x00 x00)
(T (W x00 x00 x80 x3f x00 x00 x80 x3f)
(L (W x00 x00 x00 x00 x62 x0b xfe xff)) E)
(T (W x68 x00 x00 x00 x5c x00 x00 x00)
(L (W x18 x00 x00 x00 x10 x00 x00 x00)) E)))
(T (W x92 x01 x00 x00 xff xff xff xff)
(T (W x00 x00 x00 x00 x04 x00 x00 x00)
(T (W x6c x00 x00 x00 x60 x00 x00 x00)
(L (W x00 x00 x00 x00 x00 x00 x00 x00))
(L (W x00 x00 x80 xbf x00 x00 x80 xbf)))
(T (W xff xff xff xff xff xff xff xff)
(L (W x00 x00 x00 x00 x00 x00 x00 x00)) E))
(T (W x12 x00 x00 x00 x46 x53 x59 x53)
(T (W x00 x00 x00 x00 x00 x00 x00 x00)
(L (W xff xff xff xff xff xff xff xff)) E)
(T (W x00 x00 x80 xbf x00 x00 x80 xbf)
(L (W x4f x84 x6f x8b xe8 xcb x63 xb7)) E))))
(T (W x00 x00 x00 x00 x00 x00 x00 x00)
(T (W x00 x00 x00 x00 xb2 x33 xff xff)
(T (W x40 x00 x00 x00 x0c x00 x00 x00)
(T (W x45 x26 x22 x84 xe4 x9c xf2 xcb)
(L (W x00 x00 x80 xbf x00 x00 x80 xbf))
(L (W xff xff xff xff xff xff xff xff)))
(T (W x00 x00 x00 x00 x00 x00 x00 x00)
(L (W xff xff xff xff xff xff xff xff)) E))
(T (W x00 x00 x00 x00 x00 x00 x00 x00)
(T (W x18 x00 x00 x00 x10 x00 x00 x00)
(L (W x00 x00 x80 xbf x00 x00 x80 xbf)) E)
(T (W xff xff xff xff xff xff xff xff)
(L (W xff xff xff xff xff xff xff xff)) E)))
(T (W x18 x00 x00 x00 x0c x00 x00 x00)
(T (W xff xff xff xff xff xff xff xff)
(T (W xff xff xff xff xff xff xff xff)
(L (W x00 x00 x80 xbf x00 x00 x80 xbf))
(L (W xff xff xff xff xb0 x00 x00 x00)))
(T (W xa2 xe2 xfc xff x74 x00 x00 x00)
(L (W x00 x00 x80 xbf x00 x00 x80 xbf)) E))
(T (W x00 x00 x80 x3f x00 x00 x80 x3f)
(T (W xff xff xff xff xff xff xff xff)
(L (W x4f x84 x6f x8b xe8 xcb x63 xb7)) E)
(T (W x5c x3e x54 x1d xca xa1 x99 xfd)
(L (W x18 x00 x00 x00 x0c x00 x00 x00)) E)))))
(T (W x00 x00 x00 x00 x92 x50 xfd xff)
(T (W x00 x00 x80 x3f x00 x00 x80 x3f)
(T (W x00 x00 x80 x3f x00 x00 x80 x3f)
(T (W xa2 x92 xfa xff x74 x00 x00 x00)
(T (W x01 x00 x00 x00 xb0 x00 x00 x00)
(L (W x00 x00 x00 x00 x00 x00 x00 x00))
(L (W x00 x00 x00 x00 x00 x00 x00 x00)))
(T (W xff xff xff xff x03 x00 x00 x00)
(L (W x18 x00 x00 x00 x0c x00 x00 x00)) E))
(T (W xff xff xff xff xff xff xff xff)
(T (W x00 x00 x80 x3f x00 x00 x80 x3f)
(L (W x45 x26 x22 x84 xe4 x9c xf2 xcb)) E)
(T (W xff xff xff xff xff xff xff xff)
(L (W xff xff xff xff xff xff xff xff)) E)))
(T (W xff xff xff xff xff xff xff xff)
(T (W x5e x00 x00 x00 xff xff xff xff)
(T (W x52 xd4 xfb xff x78 x00 x00 x00)
(L (W x4f x84 x6f x8b xe8 xcb x63 xb7))
(L (W x6c x00 x00 x00 x60 x00 x00 x00)))
(T (W xff xff xff xff xff xff xff xff)
(L (W x00 x00 x00 x00 x00 x00 x00 x00)) E))
(T (W xff xff xff xff xff xff xff xff)
(T (W x00 x00 x80 x3f x00 x00 x80 x3f)
(L (W x00 x00 x00 x00 x00 x00 x00 x00)) E)
(T (W xff xff xff xff xff xff xff xff)
(L (W x00 x00 x80 xbf x00 x00 x80 xbf)) E))))
(T (W x00 x00 x00 x00 x00 x00 x00 x00)
(T (W xff xff xff xff xff xff xff xff)
(T (W x00 x00 x00 x00 x00 x00 x00 x00)
(T (W xff xff xff xff xff xff xff xff)
(L (W x00 x00 x80 xbf x00 x00 x80 xbf))
(L (W x00 x00 x00 x00 x00 x00 x00 x00)))
(T (W xa4 xbb xfc xff x16 x00 x00 x00)
(L (W xff xff xff xff xff xff xff xff)) E))
(T (W x45 x26 x22 x84 xe4 x9c xf2 xcb)
(T (W x46 x53 x59 x53 x5f x4e x53 x5f)
(L (W xa2 x32 xfe xff x74 x00 x00 x00)) E)
(T (W x30 x32 x5f x43 x4c x45 x41 x52)
(L (W x45 x44 x00 x00 x00 x00 x00 x00)) E)))
(T (W x45 x26 x22 x84 xe4 x9c xf2 xcb)
(T (W x00 x00 x00 x00 x00 x00 x00 x00)
(T (W x6b x65 x5f x6c x76 x31 x00 x00)
(L (W xff xff xff xff xff xff xff xff))
(L (W xff xff xff xff xff xff xff xff)))
(T (W x50 x00 x00 x00 x44 x00 x00 x00)
(L (W x50 x00 x00 x00 x44 x00 x00 x00)) E))
(T (W xff xff xff xff xff xff xff xff)
(T (W x6b x65 x5f x77 x61 x72 x6c x69)
(L (W x6c x00 x00 x00 x60 x00 x00 x00)) E)
(T (W x30 x32 x5f x43 x4c x45 x41 x52)
(L (W x21 x00 x00 x00 x24 x00 x00 x00)) E))))))))
(T (W xff xff xff xff xff xff xff xff)
(T (W x00 x00 x00 x00 x00 x00 x00 x00)
(T (W xff xff xff xff xff xff xff xff)
(T (W x00 x00 x00 x00 x00 x00 x00 x00)
(T (W x00 x00 x80 x3f x00 x00 x80 x3f)
(T (W x40 x00 x00 x00 x10 x00 x00 x00)
(T (W x00 x00 x80 x3f x00 x00 x80 x3f)
(T (W xff xff xff xff x03 x00 x00 x00)
(L (W xff xff xff xff xff xff xff xff))
(L (W x52 x7a xff xff x78 x00 x00 x00)))
(T (W xff xff xff xff xff xff xff xff)
(L (W x00 x00 x00 x00 x00 x00 x00 x00)) E))
(T (W x4f x84 x6f x8b xe8 xcb x63 xb7)
(T (W x00 x00 x00 x00 xd2 xff xfb xff)
(L (W xbc x00 x00 x00 x1e x00 x00 x00))
(L (W x00 x00 x00 x00 x12 x00 x00 x00)))
(T (W x1d x00 x00 x00 x10 x00 x00 x00)
(L (W x4f x84 x6f x8b xe8 xcb x63 xb7)) E)))
(T (W x18 x00 x00 x00 x10 x00 x00 x00)
(T (W xff xff xff xff xff xff xff xff)
(T (W xa1 x01 x00 x00 xff xff xff xff)
(L (W xff xff xff xff xbc x00 x00 x00))
(L (W x08 x00 x00 x00 x18 x08 x00 x00)))
(T (W xb8 x00 x00 x00 xac x00 x00 x00)
(L (W xff xff xff xff xc0 x00 x00 x00)) E))
(T (W x00 x00 x80 x3f x00 x00 x80 x3f)
(T (W xff xff xff xff xff xff xff xff)
(L (W x00 x00 x80 xbf x00 x00 x80 xbf)) E)
(T (W x04 x00 x00 x00 x42 x3b xfd xff)
(L (W xff xff xff xff xff xff xff xff)) E))))
(T (W xff xff xff xff x01 x00 x00 x00)
(T (W x00 x00 x80 x3f x00 x00 x80 x3f)
(T (W xff xff xff xff xff xff xff xff)
(T (W x45 x26 x22 x84 xe4 x9c xf2 xcb)
(L (W xff xff xff xff xff xff xff xff))
(L (W x6f x00 x00 x00 xff xff xff xff)))
(T (W x45 x26 x22 x84 xe4 x9c xf2 xcb)
(L (W x00 x00 x80 xbf x00 x00 x80 xbf)) E))
(T (W xb8 x00 x00 x00 x14 x00 x00 x00)
(T (W x49 xa1 x68 x4a xeb x5f xdd x3d)
(L (W x00 x00 x00 x00 x82 x19 xfe xff)) E)
(T (W x00 x00 x80 xbf x00 x00 x80 xbf)
(L (W xff xff xff xff xb0 x00 x00 x00)) E)))
(T (W x00 x00 x80 x3f x00 x00 x80 x3f)
(T (W x50 x00 x00 x00 x44 x00 x00 x00)
(T (W x00 x00 x80 x3f x00 x00 x80 x3f)
(L (W xfc xea xfd xff x13 x00 x00 x00))
(L (W x00 x00 x80 xbf x00 x00 x80 xbf)))
(T (W x18 x00 x00 x00 x0c x00 x00 x00)
(L (W x00 x00 x00 x00 x00 x00 x00 x00)) E))
(T (W x18 x00 x00 x00 x10 x00 x00 x00)
(T (W x22 x00 x00 x00 x67 x72 x6f x75)
(L (W xff xff xff xff xff xff xff xff)) E)
(T (W x00 x00 x00 x00 xe4 x5b xfd xff)
(L (W x00 x00 x00 x00 x00 x00 x00 x00)) E)))))
(T (W x45 x26 x22 x84 xe4 x9c xf2 xcb)
(T (W x45 x26 x22 x84 xe4 x9c xf2 xcb)
(T (W xff xff xff xff xff xff xff xff)
(T (W x00 x00 x00 x00 x00 x00 x00 x00)
(T (W x00 x00 x00 x00 x00 x00 x00 x00)
(L (W x03 x00 x00 x00 xcc x00 x00 x00))
(L (W x19 x00 x00 x00 x1c x00 x00 x00)))
(T (W x68 x00 x00 x00 x5c x00 x00 x00)
(L (W x00 x00 x00 x00 x00 x00 x00 x00)) E))
(T (W xff xff xff xff xff xff xff xff)
(T (W x00 x00 x00 x00 x00 x00 x00 x00)
(L (W xff xff xff xff xff xff xff xff)) E)
(T (W x45 x26 x22 x84 xe4 x9c xf2 xcb)
(L (W x00 x00 x80 xbf x00 x00 x80 xbf)) E)))
(T (W xa2 x48 xfa xff x74 x00 x00 x00)
(T (W x64 x00 x00 x00 x9c x00 x00 x00)
(T (W x00 x00 x00 x00 x00 x00 x00 x00)
(L (W xff xff xff xff xff xff xff xff))
(L (W x45 x26 x22 x84 xe4 x9c xf2 xcb)))
(T (W x00 x00 x80 x3f x00 x00 x80 x3f)
(L (W xff xff xff xff xff xff xff xff)) E))
(T (W x00 x00 x00 x00 x00 x00 x00 x00)
(T (W x5a x44 xd5 x77 x6f xdc xd8 xa4)
(L (W xff xff xff xff xb0 x00 x00 x00)) E)
(T (W x00 x00 x00 x00 x00 x00 x00 x00)
(L (W xd4 xf9 xaf x28 xbf x5c x5d x6a)) E))))
(T (W xff xff xff xff xff xff xff xff)
(T (W x18 x00 x00 x00 x0c x00 x00 x00)
(T (W xff xff xff xff xff xff xff xff)
(T (W x49 xa1 x68 x4a xeb x5f xdd x3d)
(L (W xff xff xff xff xff xff xff xff))
(L (W x00 x00 x01 x01 x5c x00 x00 x00)))
(T (W xff xff xff xff xff xff xff xff)
(L (W x00 x00 x80 xbf x00 x00 x80 xbf)) E))
(T (W x00 x00 x00 x00 x00 x00 x00 x00)
(T (W x00 x00 x80 x3f x00 x00 x80 x3f)
(L (W x00 x00 x00 x00 x00 x00 x00 x00)) E)
(T (W xc4 x00 x00 x00 x02 x00 x00 x00)
(L (W xff xff xff xff xff xff xff xff)) E)))
(T (W x00 x00 x80 x3f x00 x00 x80 x3f)
(T (W x00 x00 x00 x00 xe4 xeb xfa xff)
(T (W xff xff xff xff xc4 x00 x00 x00)
(L (W x54 x00 x00 x00 x48 x00 x00 x00))
(L (W x00 x00 x80 xbf x00 x00 x80 xbf)))
(T (W xb8 x00 x00 x00 xac x00 x00 x00)
(L (W x49 xa1 x68 x4a xeb x5f xdd x3d)) E))
(T (W x49 xa1 x68 x4a xeb x5f xdd x3d)
(T (W xff xff xff xff xff xff xff xff)
(L (W xa8 xe9 x39 xdc x00 x60 x48 x2f)) E)
(T (W x54 x01 x00 x00 xff xff xff xff)
(L (W x00 x00 x80 xbf x00 x00 x80 xbf)) E))))))
(T (W x52 x92 xf9 xff x78 x00 x00 x00)
(T (W xbc x00 x00 x00 xb0 x00 x00 x00)
(T (W x00 x00 x00 x00 x00 x00 x00 x00)
(T (W x0a x15 xfd xff x00 x00 x01 x01)
(T (W x00 x00 x80 x3f x00 x00 x80 x3f)
(T (W xa4 x01 x00 x00 xff xff xff xff)
(L (W x18 x00 x00 x00 x0c x00 x00 x00))
(L (W x74 x85 xff xff x00 x01 x01 x01)))
(T (W xff xff xff xff x03 x00 x00 x00)
(L (W x00 x00 x00 x00 x00 x00 x00 x00)) E))
(T (W x50 x00 x00 x00 x44 x00 x00 x00)
(T (W x00 x00 x00 x00 x04 x00 x00 x00)
(L (W xff xff xff xff xff xff xff xff))
(L (W x00 x00 x00 x00 x00 x00 x00 x00)))
(T (W xa4 x09 xfd xff x15 x00 x00 x00)
(L (W x00 x00 x80 xbf x00 x00 x80 xbf)) E)))
(T (W x01 x00 x00 x00 xa0 x00 x00 x00)
(T (W xff xff xff xff xff xff xff xff)
(T (W x12 x00 x00 x00 x46 x53 x59 x53)
(L (W xff xff xff xff xff xff xff xff))
(L (W x45 x44 x00 x00 x00 x00 x00 x00)))
(T (W x01 x00 x00 x00 x9c x00 x00 x00)
(L (W xff xff xff xff xff xff xff xff)) E))
(T (W xff xff xff xff xff xff xff xff)
(T (W x00 x00 x00 x00 x00 x00 x00 x00)
(L (W x52 x42 xfe xff x78 x00 x00 x00)) E)
(T (W x00 x00 x00 x00 x00 x00 x00 x00)
(L (W x00 x00 x00 x00 x00 x00 x00 x00)) E))))
(T (W x00 x00 x01 x01 xc1 x02 x00 x00)
(T (W xff xff xff xff x04 x00 x00 x00)
(T (W xff xff xff xff xff xff xff xff)
(T (W x3c x2f x28 xea x5d x26 x0c x7f)
(L (W x4f x84 x6f x8b xe8 xcb x63 xb7))
(L (W xe0 xa3 xff xff x42 xfb xff xff)))
(T (W xff xff xff xff xff xff xff xff)
(L (W x45 x26 x22 x84 xe4 x9c xf2 xcb)) E))
(T (W xff xff xff xff xff xff xff xff)
(T (W x00 x00 x80 x3f x00 x00 x80 x3f)
(L (W x00 x00 x00 x00 x00 x00 x00 x00)) E)
(T (W x00 x00 x80 xbf x00 x00 x80 xbf)
(L (W xff xff xff xff xc0 x00 x00 x00)) E)))
(T (W x00 x00 x80 x3f x00 x00 x80 x3f)
(T (W xa2 xe0 xfa xff x74 x00 x00 x00)
(T (W x52 xe2 xfb xff x78 x00 x00 x00)
(L (W x00 x00 x00 x00 x00 x00 x00 x00))
(L (W x00 x00 x80 xbf x00 x00 x80 xbf)))
(T (W x6b x65 x5f x6f x79 x61 x62 x75)
(L (W x00 x00 x00 x00 x00 x00 x00 x00)) E))
(T (W x00 x00 x00 x00 x00 x00 x00 x00)
(T (W x00 x00 x00 x00 x00 x00 x00 x00)
(L (W xff xff xff xff xff xff xff xff)) E)
(T (W xff xff xff xff xff xff xff xff)
(L (W x00 x00 x00 x00 x00 x00 x00 x00)) E)))))
(T (W xff xff xff xff xff xff xff xff)
(T (W x00 x00 x00 x00 x00 x00 x00 x00)
(T (W x45 x26 x22 x84 xe4 x9c xf2 xcb)
(T (W x00 x00 x00 x00 x00 x00 x00 x00)
(T (W x00 x00 x80 x3f x00 x00 x80 x3f)
(L (W xff xff xff xff xff xff xff xff))
(L (W xff xff xff xff xff xff xff xff)))
(T (W x50 x00 x00 x00 x44 x00 x00 x00)
(L (W x00 x00 x80 xbf x00 x00 x80 xbf)) E))
(T (W x00 x00 x00 x00 x00 x00 x00 x00)
(T (W x45 x26 x22 x84 xe4 x9c xf2 xcb)
(L (W x04 x00 x00 x00 x62 x19 xfe xff)) E)
(T (W x00 x00 x80 xbf x00 x00 x80 xbf)
(L (W x29 x00 x00 x00 x2c x00 x00 x00)) E)))
(T (W x00 x00 x80 x3f x00 x00 x80 x3f)
(T (W x74 xd5 xfa xff x00 x01 x01 x01)
(T (W x00 x00 x80 x3f x00 x00 x80 x3f)
(L (W x00 x00 x00 x00 x00 x00 x00 x00))
(L (W x49 xa1 x68 x4a xeb x5f xdd x3d)))
(T (W x00 x00 x80 x3f x00 x00 x80 x3f)
(L (W x00 x00 x00 x00 x00 x00 x00 x00)) E))
(T (W x00 x00 x80 x3f x00 x00 x80 x3f)
(T (W x30 x32 x5f x43 x4c x45 x41 x52)
(L (W x45 x26 x22 x84 xe4 x9c xf2 xcb)) E)
(T (W x52 x52 xfd xff x78 x00 x00 x00)
(L (W x00 x00 x00 x00 x00 x00 x00 x00)) E))))
(T (W x00 x00 x00 x00 x00 x00 x00 x00)
(T (W xa2 x30 xfa xff x74 x00 x00 x00)
(T (W xff xff xff xff xff xff xff xff)
(T (W x45 x26 x22 x84 xe4 x9c xf2 xcb)
(L (W x45 x26 x22 x84 xe4 x9c xf2 xcb))
(L (W x00 x00 x00 x00 x00 x00 x00 x00)))
(T (W xff xff xff xff xff xff xff xff)
(L (W x18 x00 x00 x00 x0c x00 x00 x00)) E))
(T (W x00 x00 x00 x00 x00 x00 x00 x00)
(T (W x18 x00 x00 x00 x10 x00 x00 x00)
(L (W x45 x26 x22 x84 xe4 x9c xf2 xcb)) E)
(T (W xff xff xff xff xff xff xff xff)
(L (W x1a x00 x00 x00 x1d x00 x00 x00)) E)))
(T (W x50 x00 x00 x00 x44 x00 x00 x00)
(T (W xff xff xff xff xff xff xff xff)
(T (W x01 x00 x00 x00 x21 x00 x00 x00)
(L (W x45 x26 x22 x84 xe4 x9c xf2 xcb))
(L (W x18 x00 x00 x00 x0c x00 x00 x00)))
(T (W x00 x00 x00 x00 x00 x00 x00 x00)
(L (W x45 x26 x22 x84 xe4 x9c xf2 xcb)) E))
(T (W x00 x00 x00 x00 xe4 x73 xfb xff)
(T (W xff xff xff xff xff xff xff xff)
(L (W x46 x53 x59 x53 x5f x4e x53 x5f)) E)
(T (W xff xff xff xff xff xff xff xff)
(L (W x00 x00 x80 xbf x00 x00 x80 xbf)) E)))))))
(T (W x6c x00 x00 x00 x60 x00 x00 x00)
(T (W x00 x00 x00 x00 x00 x00 x00 x00)
(T (W x00 x00 x80 x3f x00 x00 x80 x3f)
(T (W xff xff xff xff xff xff xff xff)
(T (W xa2 xfc xf9 xff x74 x00 x00 x00)
(T (W xff xff xff xff xff xff xff xff)
(T (W x00 x00 x80 x3f x00 x00 x80 x3f)
(L (W x00 x00 x80 xbf x00 x00 x80 xbf))
(L (W x00 x00 x00 x00 x12 x00 x00 x00)))
(T (W x45 x26 x22 x84 xe4 x9c xf2 xcb)
(L (W xff xff xff xff xff xff xff xff)) E))
(T (W x00 x00 x01 x01 x9c x01 x00 x00)
(T (W x6c x00 x00 x00 x60 x00 x00 x00)
(L (W x00 x00 x00 x00 x12 x00 x00 x00))
(L (W x13 x00 x00 x00 x16 x00 x00 x00)))
(T (W x6f x79 x61 x62 x75 x6e x00 x00)
(L (W xff xff xff xff xff xff xff xff)) E)))
(T (W x00 x00 x00 x00 x00 x00 x00 x00)
(T (W x00 x00 x00 x00 x00 x00 x00 x00)
(T (W x68 x00 x00 x00 x5c x00 x00 x00)
(L (W x0c x00 x00 x00 x00 x00 x10 x00))
(L (W x00 x00 x00 x00 xe4 xbf xff xff)))
(T (W x00 x00 x00 x00 x00 x00 x00 x00)
(L (W x00 x00 x00 x00 x00 x00 x00 x00)) E))
(T (W xa4 x45 xfb xff x1b x00 x00 x00)
(T (W x00 x00 x80 x3f x00 x00 x80 x3f)
(L (W xff xff xff xff xff xff xff xff)) E)
(T (W x68 x00 x00 x00 x5c x00 x00 x00)
(L (W x00 x00 x80 xbf x00 x00 x80 xbf)) E))))
(T (W x52 xde xf9 xff x78 x00 x00 x00)
(T (W x70 x5f x77 x69 x6c x64 x5f x70)
(T (W x00 x00 x80 x3f x00 x00 x80 x3f)
(T (W x00 x00 x80 x3f x00 x00 x80 x3f)
(L (W x00 x00 x80 xbf x00 x00 x80 xbf))
(L (W x74 x00 x00 x00 x68 x00 x00 x00)))
(T (W x45 x26 x22 x84 xe4 x9c xf2 xcb)
(L (W x00 x00 x00 x00 x00 x00 x00 x00)) E))
(T (W x00 x00 x00 x00 x00 x00 x00 x00)
(T (W xff xff xff xff xff xff xff xff)
(L (W x18 x00 x00 x00 x0c x00 x00 x00)) E)
(T (W x00 x00 x00 x00 x00 x00 x00 x00)
(L (W x00 x00 x00 x00 x00 x00 x00 x00)) E)))
(T (W x00 x00 x00 x00 xb2 x6d xff xff)
(T (W x00 x00 x00 x00 x00 x00 x00 x00)
(T (W x30 x32 x5f x43 x4c x45 x41 x52)
(L (W x70 x00 x00 x00 x64 x00 x00 x00))
(L (W xff xff xff xff xff xff xff xff)))
(T (W x00 x00 x00 x00 x00 x00 x00 x00)
(L (W x54 x00 x00 x00 x48 x00 x00 x00)) E))
(T (W x00 x00 x80 x3f x00 x00 x80 x3f)
(T (W xff xff xff xff xbc x00 x00 x00)
(L (W x00 x00 x80 xbf x00 x00 x80 xbf)) E)
(T (W x00 x00 x00 x00 x00 x00 x00 x00)
(L (W xff xff xff xff xff xff xff xff)) E)))))
(T (W x74 xb1 xf9 xff x00 x01 x01 x01)
(T (W xff xff xff xff xff xff xff xff)
(T (W x00 x00 x80 x3f x00 x00 x80 x3f)
(T (W xff xff xff xff xff xff xff xff)
(T (W xff xff xff xff xff xff xff xff)
(L (W x00 x00 x00 x00 x00 x00 x00 x00))
(L (W x00 x00 x80 xbf x00 x00 x80 xbf)))
(T (W x00 x00 x00 x00 x00 x00 x00 x00)
(L (W xff xff xff xff xff xff xff xff)) E))
(T (W x00 x00 x80 x3f x00 x00 x80 x3f)
(T (W x01 x00 x00 x00 xb0 x00 x00 x00)
(L (W x00 x00 x80 xbf x00 x00 x80 xbf)) E)
(T (W xff xff xff xff x9c x00 x00 x00)
(L (W xff xff xff xff xff xff xff xff)) E)))
(T (W x00 x00 x00 x00 x00 x00 x00 x00)
(T (W x45 x26 x22 x84 xe4 x9c xf2 xcb)
(T (W xff xff xff xff xff xff xff xff)
(L (W x00 x00 x80 xbf x00 x00 x80 xbf))
(L (W xbc x00 x00 x00 x1e x00 x00 x00)))
(T (W xff xff xff xff xff xff xff xff)
(L (W x45 x26 x22 x84 xe4 x9c xf2 xcb)) E))
(T (W xff xff xff xff xff xff xff xff)
(T (W x68 x00 x00 x00 x5c x00 x00 x00)
(L (W x00 x00 x00 x00 x00 x00 x00 x00)) E)
(T (W xff xff xff xff xff xff xff xff)
(L (W x18 x00 x00 x00 x10 x00 x00 x00)) E))))
(T (W x74 xf1 xf9 xff x00 x01 x01 x01)
(T (W x00 x00 x00 x00 x00 x00 x00 x00)
(T (W x00 x00 x00 x00 x00 x00 x00 x00)
(T (W x76 x31 x00 x00 x92 x4a xff xff)
(L (W x00 x00 x00 x00 x00 x00 x00 x00))
(L (W x00 x00 x80 xbf x00 x00 x80 xbf)))
(T (W x00 x00 x80 x3f x00 x00 x80 x3f)
(L (W x45 x44 x00 x00 x00 x00 x00 x00)) E))
(T (W xff xff xff xff xff xff xff xff)
(T (W x00 x00 x00 x00 x00 x00 x00 x00)
(L (W xff xff xff xff xff xff xff xff)) E)
(T (W x00 x00 x00 x00 x00 x00 x00 x00)
(L (W x00 x00 x00 x00 x00 x00 x00 x00)) E)))
(T (W xff xff xff xff xff xff xff xff)
(T (W x01 x00 x00 x00 x04 x00 x00 x00)
(T (W x49 xa1 x68 x4a xeb x5f xdd x3d)
(L (W x2e x00 x00 x00 xff xff xff xff))
(L (W xff xff xff xff xff xff xff xff)))
(T (W x00 x00 x80 x3f x00 x00 x80 x3f)
(L (W xff xff xff xff xff xff xff xff)) E))
(T (W x02 x77 xfe xff x00 x00 x01 x01)
(T (W x45 x26 x22 x84 xe4 x9c xf2 xcb)
(L (W xff xff xff xff xa0 x00 x00 x00)) E)
(T (W x00 x00 x80 xbf x00 x00 x80 xbf)
(L (W x00 x00 x00 x00 x00 x00 x00 x00)) E))))))
(T (W xff xff xff xff xff xff xff xff)
(T (W x00 x00 x00 x00 x1a x41 xfd xff)
(T (W x00 x00 x80 x3f x00 x00 x80 x3f)
(T (W x74 x09 xfa xff x00 x01 x01 x01)
(T (W xff xff xff xff xff xff xff xff)
(T (W x1c x00 x00 x00 xb0 x00 x00 x00)
(L (W x00 x00 x00 x00 x00 x00 x00 x00))
(L (W x00 x00 x00 x00 x00 x00 x00 x00)))
(T (W x00 x00 x00 x00 x00 x00 x00 x00)
(L (W xff xff xff xff xff xff xff xff)) E))
(T (W x00 x00 x80 x3f x00 x00 x80 x3f)
(T (W x50 x00 x00 x00 x44 x00 x00 x00)
(L (W x45 x26 x22 x84 xe4 x9c xf2 xcb)) E)
(T (W xff xff xff xff xff xff xff xff)
(L (W xff xff xff xff xff xff xff xff)) E)))
(T (W x00 x00 x00 x00 x00 x00 x00 x00)
(T (W x00 x00 x00 x00 x00 x00 x00 x00)
(T (W xff xff xff xff x03 x00 x00 x00)
(L (W x00 x00 x80 xbf x00 x00 x80 xbf))
(L (W x45 x26 x22 x84 xe4 x9c xf2 xcb)))
(T (W xb8 x00 x00 x00 x64 x00 x00 x00)
(L (W x00 x00 x00 x00 x00 x00 x00 x00)) E))
(T (W x00 x00 x80 x3f x00 x00 x80 x3f)
(T (W x52 x46 xfc xff x78 x00 x00 x00)
(L (W x00 x00 x00 x00 xd2 x4b xfe xff)) E)
(T (W x18 x00 x00 x00 x0c x00 x00 x00)
(L (W x6c x00 x00 x00 x60 x00 x00 x00)) E))))
(T (W x50 x00 x00 x00 x44 x00 x00 x00)
(T (W x00 x00 x80 x3f x00 x00 x80 x3f)
(T (W x00 x00 x80 x3f x00 x00 x80 x3f)
(T (W xb0 x00 x00 x00 x64 x00 x00 x00)
(L (W xa2 xa4 xfd xff x74 x00 x00 x00))
(L (W x00 x00 x00 x00 x00 x00 x00 x00)))
(T (W x45 x26 x22 x84 xe4 x9c xf2 xcb)
(L (W x00 x00 x00 x00 x00 x00 x00 x00)) E))
(T (W x00 x00 x80 x3f x00 x00 x80 x3f)
(T (W x00 x00 x00 x00 x00 x00 x00 x00)
(L (W xff xff xff xff xc8 x00 x00 x00)) E)
(T (W x30 x32 x5f x43 x4c x45 x41 x52)
(L (W x00 x00 x00 x00 x12 x00 x00 x00)) E)))
(T (W x1c x01 x00 x00 x04 x00 x00 x00)
(T (W xa4 xed xfa xff x3e x00 x00 x00)
(T (W x00 x00 x00 x00 x00 x00 x00 x00)
(L (W x00 x00 x01 x01 x2a x00 x00 x00))
(L (W xff xff xff xff xff xff xff xff)))
(T (W x6f x6b x65 x5f x77 x61 x72 x6c)
(L (W xff xff xff xff xa0 x00 x00 x00)) E))
(T (W x00 x00 x00 x00 xe4 x67 xfb xff)
(T (W x00 x00 x80 x3f x00 x00 x80 x3f)
(L (W x54 x00 x00 x00 x48 x00 x00 x00)) E)
(T (W x45 x26 x22 x84 xe4 x9c xf2 xcb)
(L (W xff xff xff xff xff xff xff xff)) E)))))
(T (W x00 x00 x00 x00 x00 x00 x00 x00)
(T (W x00 x00 x80 x3f x00 x00 x80 x3f)
(T (W xb8 x00 x00 x00 xac x00 x00 x00)
(T (W x00 x00 x00 x00 x00 x00 x00 x00)
(T (W x13 x00 x00 x00 x0c x00 x00 x00)
(L (W x00 x00 x80 xbf x00 x00 x80 xbf))
(L (W x6c x00 x00 x00 x60 x00 x00 x00)))
(T (W xc1 x00 x00 x00 xff xff xff xff)
(L (W x04 x00 x00 x00 x42 x97 xfe xff)) E))
(T (W x00 x00 x00 x00 x00 x00 x00 x00)
(T (W x18 x00 x00 x00 x10 x00 x00 x00)
(L (W x6c x00 x00 x00 x60 x00 x00 x00)) E)
(T (W x00 x00 x80 xbf x00 x00 x80 xbf)
(L (W x00 x00 x00 x00 x00 x00 x00 x00)) E)))
(T (W x11 x00 x00 x00 x10 x00 x00 x00)
(T (W x00 x00 x00 x00 x00 x00 x00 x00)
(T (W x74 x03 x00 x00 x4c x02 x00 x00)
(L (W x54 x00 x00 x00 x48 x00 x00 x00))
(L (W x03 x00 x00 x00 xd0 x00 x00 x00)))
(T (W x00 x00 x00 x00 x00 x00 x00 x00)
(L (W x00 x00 x80 xbf x00 x00 x80 xbf)) E))
(T (W x00 x00 x00 x00 x00 x00 x00 x00)
(T (W x01 x00 x00 x00 xb0 x00 x00 x00)
(L (W x4f x84 x6f x8b xe8 xcb x63 xb7)) E)
(T (W x1d x00 x00 x00 x0c x00 x00 x00)
(L (W x19 x00 x00 x00 x1c x00 x00 x00)) E))))
(T (W x68 x00 x00 x00 x5c x00 x00 x00)
(T (W x00 x00 x00 x00 x00 x00 x00 x00)
(T (W x00 x00 x00 x00 x00 x00 x00 x00)
(T (W x4f x84 x6f x8b xe8 xcb x63 xb7)
(L (W x50 x00 x00 x00 x44 x00 x00 x00))
(L (W x6c x00 x00 x00 x60 x00 x00 x00)))
(T (W x00 x00 x00 x00 x00 x00 x00 x00)
(L (W x00 x00 x00 x00 x00 x00 x00 x00)) E))
(T (W xff xff xff xff xff xff xff xff)
(T (W x49 xa1 x68 x4a xeb x5f xdd x3d)
(L (W xff xff xff xff xff xff xff xff)) E)
(T (W x00 x00 x80 xbf x00 x00 x80 xbf)
(L (W x4f x84 x6f x8b xe8 xcb x63 xb7)) E)))
(T (W xff xff xff xff xff xff xff xff)
(T (W x00 x00 x00 x00 x00 x00 x00 x00)
(T (W x00 x00 x80 x3f x00 x00 x80 x3f)
(L (W x00 x00 x00 x00 x00 x00 x00 x00))
(L (W x00 x00 x00 x00 x00 x00 x00 x00)))
(T (W x0a x00 x00 x00 x1e x00 x00 x00)
(L (W xff xff xff xff xff xff xff xff)) E))
(T (W x00 x00 x00 x00 x00 x00 x00 x00)
(T (W x45 x26 x22 x84 xe4 x9c xf2 xcb)
(L (W xff xff xff xff xff xff xff xff)) E)
(T (W x49 xa1 x68 x4a xeb x5f xdd x3d)
(L (W x06 x00 x00 x00 xc0 x05 x00 x00)) E))))))))))))))).
