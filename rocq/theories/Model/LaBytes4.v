(** Generated by tools/gen_la.py from resources/encount/la/ha_area04_encounter.bin. *)
From Coq Require Import NArith Strings.Byte.
From Verif Require Import Model.Trie.
Definition area_4_size : N := 256192%N.
Definition area_4_trie : trie :=
(T (W x10 x00 x00 x00 x00 x00 x00 x00)
(T (W x00 x00 x06 x00 x08 x00 x04 x00)
(T (W x3d x01 x00 x00 x6c xdc x03 x00)
(T (W x18 xbf x03 x00 x0c xb5 x03 x00)
(T (W x18 x65 x03 x00 x6c x60 x03 x00)
(T (W x00 xb5 x02 x00 xa4 xb2 x02 x00)
(T (W x48 xf2 x01 x00 x04 xf0 x01 x00)
(T (W xc8 x9a x00 x00 x7c x98 x00 x00)
(T (W x01 x00 x00 x00 x9c x00 x00 x00)
(T (W xe0 x2c xfc xff x00 x01 x01 x01)
(T (W x40 x00 x00 x00 x9c x00 x00 x00)
(T (W x00 x00 x80 x3f x00 x00 x80 x3f)
(T (W x24 xa8 xfc xff x22 x00 x00 x00)
(T (W xff xff xff xff xff xff xff xff)
(L (W xff xff xff xff x03 x00 x00 x00))
(L (W x3c x02 x00 x00 x30 x01 x00 x00)))
(T (W x00 x00 x80 x3f x00 x00 x80 x3f)
(L (W x70 x5f x6c x65 x61 x64 x65 x72))
(L (W xff xff xff xff xff xff xff xff))))
(T (W xff xff xff xff xff xff xff xff)
(T (W xff xff xff xff xff xff xff xff)
(L (W x00 x00 x80 xbf x00 x00 x80 xbf))
(L (W x1a x00 x00 x00 x1d x00 x00 x00)))
(T (W xe0 xdc xfd xff x00 x01 x01 x01)
(L (W xe0 xdc xfe xff x00 x01 x01 x01))
(L (W x22 xe1 xff xff x78 x00 x00 x00)))))
(T (W x00 x00 x80 x3f x00 x00 x80 x3f)
(T (W x00 x00 x00 x00 x00 x00 x00 x00)
(T (W xe0 x3c xfd xff x00 x01 x01 x01)
(L (W xda x54 xfe xff x74 x00 x00 x00))
(L (W x45 x26 x22 x84 xe4 x9c xf2 xcb)))
(T (W xff xff xff xff x01 x00 x00 x00)
(L (W xff xff xff xff xff xff xff xff))
(L (W xac x06 x00 x00 x98 x05 x00 x00))))
(T (W xff xff xff xff xff xff xff xff)
(T (W x68 x00 x00 x00 x5c x00 x00 x00)
(L (W x45 x26 x22 x84 xe4 x9c xf2 xcb))
(L (W xff xff xff xff xff xff xff xff)))
(T (W x00 x00 x80 x3f x00 x00 x80 x3f)
(L (W xff xff xff xff xff xff xff xff))
(L (W x2b x00 x00 x00 x2e x00 x00 x00))))))
(T (W x6c x00 x00 x00 x60 x00 x00 x00)
(T (W x45 x26 x22 x84 xe4 x9c xf2 xcb)
(T (W xff xff xff xff xff xff xff xff)
(T (W x64 x00 x00 x00 x9c x00 x00 x00)
(L (W xef x00 x00 x00 xff xff xff xff))
(L (W x04 x00 x00 x00 x80 x03 x00 x00)))
(T (W x00 x00 x00 x00 x58 xae xfd xff)
(L (W xff xff xff xff xff xff xff xff))
(L (W x00 x00 x01 x01 x3b x01 x00 x00))))
(T (W xff xff xff xff xff xff xff xff)
(T (W x00 x00 x00 x00 x00 x00 x00 x00)
(L (W x00 x00 x00 x00 x00 x00 x00 x00))
(L (W xff xff xff xff xc8 x00 x00 x00)))
(T (W x01 x00 x00 x00 x9c x00 x00 x00)
(L (W xff xff xff xff xff xff xff xff))
(L (W x45 x26 x22 x84 xe4 x9c xf2 xcb)))))
(T (W x00 x00 x00 x00 x00 x00 x00 x00)
(T (W xff xff xff xff xff xff xff xff)
(T (W xff xff xff xff xff xff xff xff)
(L (W x00 x00 x00 x00 x18 x00 x1c x00))
(L (W x00 x00 x80 xbf x00 x00 x80 xbf)))
(T (W x00 x00 x00 x00 x00 x00 x00 x00)
(L (W x00 x00 x00 x00 x00 x00 x00 x00))
(L (W x64 x00 x00 x00 xff xff xff xff))))
(T (W xff xff xff xff xff xff xff xff)
(T (W x04 x00 x00 x00 xba x8d xfd xff)
(L (W xe0 x8c xfe xff x00 x01 x01 x01))
(L (W x00 x00 x00 x00 x00 x00 x00 x00)))
(T (W x22 x11 xfe xff x78 x00 x00 x00)
(L (W x00 x00 x01 x01 x5c x00 x00 x00)) E)))))
(T (W x50 x00 x00 x00 x44 x00 x00 x00)
(T (W x50 x00 x00 x00 x44 x00 x00 x00)
(T (W x00 x00 x00 x00 x00 x00 x00 x00)
(T (W x01 x00 x00 x00 x04 x00 x00 x00)
(T (W xff xff xff xff xff xff xff xff)
(L (W xff xff xff xff xff xff xff xff))
(L (W xff xff xff xff xff xff xff xff)))
(T (W x22 xa9 xfd xff x78 x00 x00 x00)
(L (W x45 x26 x22 x84 xe4 x9c xf2 xcb))
(L (W xff xff xff xff xc4 x00 x00 x00))))
(T (W xff xff xff xff xff xff xff xff)
(T (W x02 x00 x00 x00 x30 x01 x00 x00)
(L (W x00 x00 x80 xbf x00 x00 x80 xbf))
(L (W xe0 x64 xff xff x00 x01 x01 x01)))
(T (W x50 x00 x00 x00 x44 x00 x00 x00)
(L (W x68 x00 x00 x00 x5c x00 x00 x00))
(L (W x00 x00 x00 x00 x00 x00 x10 x00)))))
(T (W x00 x00 x00 x00 x00 x00 x00 x00)
(T (W x01 x00 x00 x00 x04 x00 x00 x00)
(T (W x00 x00 x80 x3f x00 x00 x80 x3f)
(L (W x68 x00 x00 x00 x5c x00 x00 x00))
(L (W x00 x00 x80 xbf x00 x00 x80 xbf)))
(T (W x13 x00 x00 x00 x10 x00 x00 x00)
(L (W x00 x00 x00 x00 x32 xcb xfe xff))
(L (W xff xff xff xff xff xff xff xff))))
(T (W xff xff xff xff xff xff xff xff)
(T (W xff xff xff xff xff xff xff xff)
(L (W x2d x00 x00 x00 x10 x00 x00 x00))
(L (W x00 x00 x00 x00 x52 x95 xff xff)))
(T (W x00 x00 x00 x00 x00 x00 x00 x00)
(L (W xff xff xff xff xff xff xff xff))
(L (W x45 x26 x22 x84 xe4 x9c xf2 xcb))))))
(T (W x00 x00 x80 x3f x00 x00 x80 x3f)
(T (W x00 x00 x80 x3f x00 x00 x80 x3f)
(T (W x8a x69 xfe xff x00 x00 x01 x01)
(T (W xbc x00 x00 x00 xb0 x00 x00 x00)
(L (W xff xff xff xff xff xff xff xff))
(L (W x46 x53 x59 x53 x5f x4e x53 x5f)))
(T (W xff xff xff xff xff xff xff xff)
(L (W xff xff xff xff xff xff xff xff))
(L (W x00 x00 x00 x00 x2a xb4 xff xff))))
(T (W xff xff xff xff xff xff xff xff)
(T (W x45 x26 x22 x84 xe4 x9c xf2 xcb)
(L (W x00 x00 x00 x00 x00 x00 x00 x00))
(L (W x03 x00 x00 x00 xd0 x00 x00 x00)))
(T (W x00 x00 x80 x3f x00 x00 x80 x3f)
(L (W xff xff xff xff xff xff xff xff))
(L (W x04 x00 x00 x00 x70 x03 x00 x00)))))
(T (W x00 x00 x00 x00 x00 x00 x00 x00)
(T (W xff xff xff xff xff xff xff xff)
(T (W xff xff xff xff xff xff xff xff)
(L (W x49 xa1 x68 x4a xeb x5f xdd x3d))
(L (W x45 x26 x22 x84 xe4 x9c xf2 xcb)))
(T (W x00 x00 x80 x3f x00 x00 x80 x3f)
(L (W x00 x00 x80 xbf x00 x00 x80 xbf))
(L (W xff xff xff xff xff xff xff xff))))
(T (W xff xff xff xff xff xff xff xff)
(T (W x12 x00 x00 x00 x46 x53 x59 x53)
(L (W x49 xa1 x68 x4a xeb x5f xdd x3d))
(L (W xff xff xff xff xff xff xff xff)))
(T (W xff xff xff xff xff xff xff xff)
(L (W x00 x00 x00 x00 x00 x00 x00 x00)) E))))))
(T (W x00 x00 x00 x00 x00 x00 x00 x00)
(T (W x00 x00 x00 x00 x00 x00 x00 x00)
(T (W x8a xf5 xfd xff x00 x00 x01 x01)
(T (W x8a x20 xff xff x00 x00 x01 x01)
(T (W x01 x00 x00 x00 x3c x00 x00 x00)
(T (W x00 x00 x00 x00 x00 x00 x00 x00)
(L (W x00 x00 x00 x00 x00 x00 x00 x00))
(L (W x00 x00 x80 xbf x00 x00 x80 xbf)))
(T (W x6a xc8 xfd xff x9d x01 x00 x00)
(L (W xcc x00 x00 x00 x01 x00 x00 x00))
(L (W x00 x00 x00 x00 x00 x00 x00 x00))))
(T (W x00 x00 x80 x3f x00 x00 x80 x3f)
(T (W x00 x00 x80 x3f x00 x00 x80 x3f)
(L (W x00 x00 x00 x00 xd2 x5c xfe xff))
(L (W x4f x84 x6f x8b xe8 xcb x63 xb7)))
(T (W x00 x00 x00 x00 x00 x00 x00 x00)
(L (W x00 x00 x00 x00 x32 xe7 xfe xff))
(L (W xb3 xd2 xac x28 xbf xce x59 x6a)))))
(T (W x64 x00 x00 x00 x9c x00 x00 x00)
(T (W x00 x00 x80 x3f x00 x00 x80 x3f)
(T (W xff xff xff xff xff xff xff xff)
(L (W x00 x00 x00 x00 x00 x00 x00 x00))
(L (W xff xff xff xff xff xff xff xff)))
(T (W xda xd8 xfd xff x74 x00 x00 x00)
(L (W x00 x00 x80 xbf x00 x00 x80 xbf))
(L (W x00 x00 x80 xbf x00 x00 x80 xbf))))
(T (W x45 x26 x22 x84 xe4 x9c xf2 xcb)
(T (W x22 x00 x00 x00 x67 x72 x6f x75)
(L (W x45 x26 x22 x84 xe4 x9c xf2 xcb))
(L (W x00 x00 x80 xbf x00 x00 x80 xbf)))
(T (W xff xff xff xff xff xff xff xff)
(L (W x00 x00 x00 x00 x00 x00 x00 x00))
(L (W x28 x00 x2c x00 x30 x00 x34 x00))))))
(T (W xbc x01 x00 x00 xff xff xff xff)
(T (W xff xff xff xff xff xff xff xff)
(T (W x22 xb5 xfc xff x78 x00 x00 x00)
(T (W x00 x00 x00 x00 x00 x00 x00 x00)
(L (W x45 x26 x22 x84 xe4 x9c xf2 xcb))
(L (W x68 x00 x00 x00 x5c x00 x00 x00)))
(T (W x00 x00 x00 x00 x00 x00 x00 x00)
(L (W x00 x00 x80 x3f x00 x00 x80 x3f))
(L (W x00 x00 x80 xbf x00 x00 x80 xbf))))
(T (W x00 x00 x00 x00 x00 x00 x00 x00)
(T (W xff xff xff xff xff xff xff xff)
(L (W xff xff xff xff xff xff xff xff))
(L (W x49 xa1 x68 x4a xeb x5f xdd x3d)))
(T (W x7c xf7 xfd xff x15 x00 x00 x00)
(L (W x45 x26 x22 x84 xe4 x9c xf2 xcb))
(L (W x00 x00 x00 x00 x12 x00 x00 x00)))))
(T (W x18 x00 x00 x00 x0c x00 x00 x00)
(T (W x00 x00 x80 x3f x00 x00 x80 x3f)
(T (W x4f x84 x6f x8b xe8 xcb x63 xb7)
(L (W x5e x00 x00 x00 x49 x02 x00 x00))
(L (W x00 x00 x00 x00 x00 x00 x00 x00)))
(T (W xff xff xff xff xff xff xff xff)
(L (W xff xff xff xff xff xff xff xff))
(L (W x24 x00 x28 x00 x2c x00 x30 x00))))
(T (W x00 x00 x80 x3f x00 x00 x80 x3f)
(T (W x68 x00 x00 x00 x5c x00 x00 x00)
(L (W x00 x00 x00 x00 x00 x00 x00 x00))
(L (W x00 x00 x80 xbf x00 x00 x80 xbf)))
(T (W x45 x26 x22 x84 xe4 x9c xf2 xcb)
(L (W x00 x00 x80 xbf x00 x00 x80 xbf)) E)))))
(T (W x27 x00 x00 x00 x0c x00 x00 x00)
(T (W xff xff xff xff xff xff xff xff)
(T (W xff xff xff xff xff xff xff xff)
(T (W x68 x00 x00 x00 x5c x00 x00 x00)
(T (W x00 x00 x00 x00 x00 x00 x00 x00)
(L (W x50 x00 x00 x00 x44 x00 x00 x00))
(L (W x00 x00 x80 xbf x00 x00 x80 xbf)))
(T (W x18 x00 x00 x00 x0c x00 x00 x00)
(L (W xff xff xff xff xff xff xff xff))
(L (W x00 x00 x80 xbf x00 x00 x80 xbf))))
(T (W x45 x26 x22 x84 xe4 x9c xf2 xcb)
(T (W xda x80 xfd xff x74 x00 x00 x00)
(L (W xff xff xff xff xff xff xff xff))
(L (W x00 x00 x00 x00 x00 x00 x00 x00)))
(T (W x1a x9c xff xff xc5 x01 x00 x00)
(L (W x00 x00 x00 x00 x00 x00 x00 x00))
(L (W x04 x00 x00 x00 x50 x03 x00 x00)))))
(T (W x00 x00 x00 x00 x58 x8a xfc xff)
(T (W x45 x26 x22 x84 xe4 x9c xf2 xcb)
(T (W x00 x00 x00 x00 x00 x00 x00 x00)
(L (W x8a xfd xff xff x00 x00 x01 x01))
(L (W x00 x00 x00 x00 x32 x4f xff xff)))
(T (W x45 x26 x22 x84 xe4 x9c xf2 xcb)
(L (W x00 x00 x00 x00 x58 xca xfe xff))
(L (W x3c x00 x00 x00 x00 x00 x80 xbf))))
(T (W x00 x00 x68 x00 x00 x00 x00 x00)
(T (W x00 x00 x80 x3f x00 x00 x80 x3f)
(L (W xff xff xff xff xff xff xff xff))
(L (W x00 x00 x80 xbf x00 x00 x80 xbf)))
(T (W xb8 x00 x00 x00 xac x00 x00 x00)
(L (W x00 x00 x80 xbf x00 x00 x80 xbf)) E))))
(T (W x12 x17 xff xff xbc x01 x00 x00)
(T (W xff xff xff xff xff xff xff xff)
(T (W x00 x00 x80 x3f x00 x00 x80 x3f)
(T (W x00 x00 x00 x00 x00 x00 x00 x00)
(L (W x00 x00 x80 x3f x00 x00 x80 x3f))
(L (W xc4 x00 x00 x00 x02 x00 x00 x00)))
(T (W x00 x00 x80 x3f x00 x00 x80 x3f)
(L (W x00 x00 x80 x3f x00 x00 x80 x3f))
(L (W x45 x26 x22 x84 xe4 x9c xf2 xcb))))
(T (W x00 x00 x00 x00 x00 x00 x00 x00)
(T (W xff xff xff xff xff xff xff xff)
(L (W xff xff xff xff xff xff xff xff))
(L (W x00 x00 x00 x00 x00 x00 x00 x00)))
(T (W xff xff xff xff xff xff xff xff)
(L (W x00 x00 x80 xbf x00 x00 x80 xbf))
(L (W x00 x00 x80 xbf x00 x00 x80 xbf)))))
(T (W x40 x00 x00 x00 x9c x00 x00 x00)
(T (W x00 x00 x80 x3f x00 x00 x80 x3f)
(T (W x00 x00 x80 x3f x00 x00 x80 x3f)
(L (W x00 x00 x01 x01 x2a x00 x00 x00))
(L (W x00 x00 x00 x00 x00 x00 x00 x00)))
(T (W x00 x00 x00 x00 x2a xd8 xfd xff)
(L (W xff xff xff xff xff xff xff xff))
(L (W xff xff xff xff x01 x00 x00 x00))))
(T (W x00 x00 x00 x00 x00 x00 x00 x00)
(T (W xff xff xff xff xff xff xff xff)
(L (W x6c x64 x5f x70 x6f x6b x65 x5f))
(L (W x24 x00 x28 x00 x2c x00 x30 x00)))
(T (W x45 x26 x22 x84 xe4 x9c xf2 xcb)
(L (W x00 x00 x80 xbf x00 x00 x80 xbf)) E)))))))
(T (W x45 x26 x22 x84 xe4 x9c xf2 xcb)
(T (W xff xff xff xff x01 x00 x00 x00)
(T (W xff xff xff xff xff xff xff xff)
(T (W xff xff xff xff xff xff xff xff)
(T (W xbc x00 x00 x00 xb0 x00 x00 x00)
(T (W x00 x00 x80 x3f x00 x00 x80 x3f)
(T (W xff xff xff xff xff xff xff xff)
(L (W xc1 x00 x00 x00 xff xff xff xff))
(L (W x00 x00 x00 x00 x00 x00 x00 x00)))
(T (W x00 x00 x00 x00 x58 xa0 xfd xff)
(L (W x54 x00 x00 x00 x48 x00 x00 x00))
(L (W x00 x00 x00 x00 x00 x00 x00 x00))))
(T (W x24 xea xfc xff x3e x00 x00 x00)
(T (W x00 x00 x00 x00 x00 x00 x00 x00)
(L (W xff xff xff xff xff xff xff xff))
(L (W x46 x53 x59 x53 x5f x4e x53 x5f)))
(T (W xff xff xff xff xff xff xff xff)
(L (W xff xff xff xff xff xff xff xff))
(L (W xff xff xff xff xff xff xff xff)))))
(T (W x00 x00 x80 x3f x00 x00 x80 x3f)
(T (W x00 x00 x00 x00 x00 x00 x00 x00)
(T (W x28 x00 x2c x00 x30 x00 x34 x00)
(L (W xff xff xff xff xff xff xff xff))
(L (W x50 x00 x00 x00 x44 x00 x00 x00)))
(T (W x00 x00 x00 x00 x00 x00 x00 x00)
(L (W x00 x00 x00 x00 x00 x00 x00 x00))
(L (W x45 x26 x22 x84 xe4 x9c xf2 xcb))))
(T (W xe5 x29 xf1 x6c x21 x24 xc8 xcb)
(T (W xff xff xff xff xff xff xff xff)
(L (W x04 x00 x00 x00 xba x7f xfe xff))
(L (W x00 x00 x00 x00 x00 x00 x00 x00)))
(T (W x01 x00 x00 x00 x9c x00 x00 x00)
(L (W x00 x00 x00 x00 x00 x00 x00 x00))
(L (W x45 x26 x22 x84 xe4 x9c xf2 xcb))))))
(T (W xff xff xff xff xff xff xff xff)
(T (W x50 x00 x00 x00 x44 x00 x00 x00)
(T (W x00 x00 x00 x00 x00 x00 x00 x00)
(T (W x12 xed xff xff x4c x00 x00 x00)
(L (W x00 x00 x00 x00 x00 x00 x00 x00))
(L (W x00 x00 x80 xbf x00 x00 x80 xbf)))
(T (W xa5 x01 x00 x00 xff xff xff xff)
(L (W x00 x00 x00 x00 x00 x00 x00 x00))
(L (W x00 x00 x00 x00 x00 x00 x00 x00))))
(T (W x00 x00 x00 x00 x00 x00 x00 x00)
(T (W x00 x00 x80 x3f x00 x00 x80 x3f)
(L (W x54 x70 xfe xff x52 x6d xfe xff))
(L (W x00 x00 x00 x00 x32 x71 xff xff)))
(T (W xff xff xff xff xff xff xff xff)
(L (W x00 x00 x00 x00 x00 x00 x00 x00))
(L (W x23 x00 x00 x00 x26 x00 x00 x00)))))
(T (W x68 x00 x00 x00 x5c x00 x00 x00)
(T (W x00 x00 x00 x00 x00 x00 x00 x00)
(T (W x4c x45 x41 x52 x45 x44 x00 x00)
(L (W x03 x00 x00 x00 x04 x01 x00 x00))
(L (W xff xff xff xff xff xff xff xff)))
(T (W x45 x26 x22 x84 xe4 x9c xf2 xcb)
(L (W x54 x00 x00 x00 x48 x00 x00 x00))
(L (W x00 x00 x00 x00 x00 x00 x00 x00))))
(T (W x3e x00 x00 x00 x0c x00 x00 x00)
(T (W x00 x00 x00 x00 x00 x00 x00 x00)
(L (W x76 x32 x00 x00 xba x8f xfe xff))
(L (W x00 x00 x00 x00 x00 x00 x00 x00)))
(T (W x00 x00 x00 x00 x00 x00 x00 x00)
(L (W x00 x00 x00 x00 x00 x00 x00 x00)) E)))))
(T (W xff xff xff xff xff xff xff xff)
(T (W xff xff xff xff xff xff xff xff)
(T (W xe0 x66 xfc xff x00 x01 x01 x01)
(T (W x45 x26 x22 x84 xe4 x9c xf2 xcb)
(T (W x4d x00 x00 x00 xff xff xff xff)
(L (W x45 x26 x22 x84 xe4 x9c xf2 xcb))
(L (W x46 x53 x59 x53 x5f x4e x53 x5f)))
(T (W xff xff xff xff xff xff xff xff)
(L (W x00 x00 x00 x00 x00 x00 x00 x00))
(L (W x46 x53 x59 x53 x5f x4e x53 x5f))))
(T (W x00 x00 x00 x00 x00 x00 x00 x00)
(T (W x00 x00 x00 x00 x00 x00 x00 x00)
(L (W x54 x00 x00 x00 x48 x00 x00 x00))
(L (W xff xff xff xff xff xff xff xff)))
(T (W xff xff xff xff xff xff xff xff)
(L (W xff xff xff xff xff xff xff xff))
(L (W xe0 xe6 xff xff x00 x01 x01 x01)))))
(T (W x50 x00 x00 x00 x44 x00 x00 x00)
(T (W x45 x26 x22 x84 xe4 x9c xf2 xcb)
(T (W xff xff xff xff xff xff xff xff)
(L (W xff xff xff xff xff xff xff xff))
(L (W xff xff xff xff xff xff xff xff)))
(T (W x00 x00 x80 x3f x00 x00 x80 x3f)
(L (W x45 x26 x22 x84 xe4 x9c xf2 xcb))
(L (W x49 xa1 x68 x4a xeb x5f xdd x3d))))
(T (W x00 x00 x00 x00 x00 x00 x62 x00)
(T (W x30 x34 x5f x43 x4c x45 x41 x52)
(L (W x00 x00 x80 xbf x00 x00 x80 xbf))
(L (W x00 x00 x00 x00 x00 x00 x00 x00)))
(T (W x00 x00 x80 x3f x00 x00 x80 x3f)
(L (W x46 x53 x59 x53 x5f x4e x53 x5f)) E))))
(T (W x64 x00 x00 x00 x9c x00 x00 x00)
(T (W x00 x00 x80 x3f x00 x00 x80 x3f)
(T (W x00 x00 x00 x00 x00 x00 x00 x00)
(T (W x8a xf6 xff xff x00 x00 x01 x01)
(L (W x00 x00 x00 x00 x00 x00 x00 x00))
(L (W x00 x00 x80 xbf x00 x00 x80 xbf)))
(T (W x1e xdb x03 x4d x64 x31 xc6 xac)
(L (W x00 x00 x00 x00 x00 x00 x00 x00))
(L (W x4f x84 x6f x8b xe8 xcb x63 xb7))))
(T (W x00 x00 x00 x00 x00 x00 x00 x00)
(T (W x45 x26 x22 x84 xe4 x9c xf2 xcb)
(L (W x68 x00 x00 x00 x5c x00 x00 x00))
(L (W x02 x00 x00 x00 x30 x01 x00 x00)))
(T (W xb8 x00 x00 x00 xac x00 x00 x00)
(L (W x00 x00 x00 x00 x00 x00 x00 x00))
(L (W x45 x26 x22 x84 xe4 x9c xf2 xcb)))))
(T (W x00 x00 x80 x3f x00 x00 x80 x3f)
(T (W x00 x00 x00 x00 x00 x00 x00 x00)
(T (W x24 x62 xfd xff x1d x00 x00 x00)
(L (W x18 x00 x00 x00 x0c x00 x00 x00))
(L (W xff xff xff xff xff xff xff xff)))
(T (W xff xff xff xff x9c x00 x00 x00)
(L (W xff xff xff xff xa0 x00 x00 x00))
(L (W x00 x00 x00 x00 x00 x00 x62 x00))))
(T (W x8a xcb xfe xff x00 x00 x01 x01)
(T (W x68 x00 x00 x00 x5c x00 x00 x00)
(L (W x6c x00 x00 x00 x60 x00 x00 x00))
(L (W x00 x00 x00 x00 x00 x00 x00 x00)))
(T (W x00 x00 x00 x00 x00 x00 x00 x00)
(L (W x00 x00 x00 x00 x00 x00 x00 x00)) E))))))
(T (W x00 x00 x00 x00 x00 x00 x00 x00)
(T (W x45 x26 x22 x84 xe4 x9c xf2 xcb)
(T (W x00 x00 x00 x00 x00 x00 x00 x00)
(T (W x00 x00 x00 x00 x00 x00 x00 x00)
(T (W xff xff xff xff xff xff xff xff)
(T (W x6c x00 x00 x00 x60 x00 x00 x00)
(L (W x45 x26 x22 x84 xe4 x9c xf2 xcb))
(L (W xff xff xff xff xa0 x00 x00 x00)))
(T (W x00 x00 x00 x00 x00 x00 x00 x00)
(L (W x00 x00 x00 x00 x00 x00 x00 x00))
(L (W x54 x00 x00 x00 x48 x00 x00 x00))))
(T (W x45 x26 x22 x84 xe4 x9c xf2 xcb)
(T (W x03 x00 x00 x00 xcc x00 x00 x00)
(L (W x46 x53 x59 x53 x5f x4e x53 x5f))
(L (W x00 x00 x80 xbf x00 x00 x80 xbf)))
(T (W x45 x26 x22 x84 xe4 x9c xf2 xcb)
(L (W x45 x26 x22 x84 xe4 x9c xf2 xcb))
(L (W x45 x26 x22 x84 xe4 x9c xf2 xcb)))))
(T (W x00 x00 x00 x00 x02 x00 x00 x00)
(T (W x64 x00 x00 x00 x9c x00 x00 x00)
(T (W x00 x00 x80 x3f x00 x00 x80 x3f)
(L (W x45 x26 x22 x84 xe4 x9c xf2 xcb))
(L (W x00 x00 x00 x00 x00 x00 x00 x00)))
(T (W xff xff xff xff xff xff xff xff)
(L (W xff xff xff xff xff xff xff xff))
(L (W x14 x00 x00 x00 x0c x00 x00 x00))))
(T (W x00 x00 x80 x3f x00 x00 x80 x3f)
(T (W x00 x00 x80 x3f x00 x00 x80 x3f)
(L (W xb0 x00 x00 x00 x64 x00 x00 x00))
(L (W xff xff xff xff xff xff xff xff)))
(T (W x7c x09 xfe xff x3d x00 x00 x00)
(L (W x35 x00 x00 x00 x38 x00 x00 x00))
(L (W xff xff xff xff xff xff xff xff))))))
(T (W x00 x00 x00 x00 x00 x00 x00 x00)
(T (W x7c x79 xfc xff x3c x00 x00 x00)
(T (W xff xff xff xff xff xff xff xff)
(T (W x00 x00 x80 x3f x00 x00 x80 x3f)
(L (W x68 x00 x00 x00 x5c x00 x00 x00))
(L (W xff xff xff xff xff xff xff xff)))
(T (W x6c x00 x00 x00 x60 x00 x00 x00)
(L (W xff xff xff xff xb0 x00 x00 x00))
(L (W xff xff xff xff xff xff xff xff))))
(T (W x68 x00 x00 x00 x5c x00 x00 x00)
(T (W x2e x00 x00 x00 x0c x00 x00 x00)
(L (W xff xff xff xff xff xff xff xff))
(L (W x00 x00 x80 xbf x00 x00 x80 xbf)))
(T (W x00 x00 x00 x00 x00 x00 x00 x00)
(L (W x68 x00 x00 x00 x5c x00 x00 x00))
(L (W x18 x00 x00 x00 x0c x00 x00 x00)))))
(T (W xff xff xff xff xff xff xff xff)
(T (W xff xff xff xff xff xff xff xff)
(T (W x45 x26 x22 x84 xe4 x9c xf2 xcb)
(L (W x00 x00 x00 x00 x00 x00 x00 x00))
(L (W x00 x00 x00 x00 x00 x00 x00 x00)))
(T (W x00 x00 x00 x00 x00 x00 x00 x00)
(L (W x24 xde xfe xff x15 x00 x00 x00))
(L (W x45 x26 x22 x84 xe4 x9c xf2 xcb))))
(T (W x40 x00 x00 x00 x9c x00 x00 x00)
(T (W xff xff xff xff xff xff xff xff)
(L (W xff xff xff xff xff xff xff xff))
(L (W xe0 x92 xff xff x00 x01 x01 x01)))
(T (W x50 x00 x00 x00 x44 x00 x00 x00)
(L (W x18 x00 x00 x00 x10 x00 x00 x00)) E)))))
(T (W x00 x00 x80 x3f x00 x00 x80 x3f)
(T (W x00 x00 x00 x00 x00 x00 x00 x00)
(T (W x00 x00 x00 x00 x00 x00 x00 x00)
(T (W xff xff xff xff xff xff xff xff)
(T (W x00 x00 x80 x3f x00 x00 x80 x3f)
(L (W xff xff xff xff x03 x00 x00 x00))
(L (W x03 x00 x00 x00 xd0 x00 x00 x00)))
(T (W x00 x00 x80 x3f x00 x00 x80 x3f)
(L (W x00 x00 x80 x3f x00 x00 x80 x3f))
(L (W x18 x00 x00 x00 x0c x00 x00 x00))))
(T (W x18 x00 x00 x00 x0c x00 x00 x00)
(T (W xff xff xff xff xff xff xff xff)
(L (W xff xff xff xff xff xff xff xff))
(L (W x54 x00 x00 x00 x48 x00 x00 x00)))
(T (W x00 x00 x00 x00 x00 x00 x00 x00)
(L (W x00 x00 x80 xbf x00 x00 x80 xbf))
(L (W x00 x00 x00 x00 x00 x00 x00 x00)))))
(T (W xff xff xff xff xff xff xff xff)
(T (W xff xff xff xff x03 x00 x00 x00)
(T (W xda x62 xfd xff x74 x00 x00 x00)
(L (W x00 x00 x00 x00 x00 x00 x00 x00))
(L (W x45 x26 x22 x84 xe4 x9c xf2 xcb)))
(T (W x00 x00 x00 x00 x00 x00 x00 x00)
(L (W xff xff xff xff xff xff xff xff))
(L (W x45 x26 x22 x84 xe4 x9c xf2 xcb))))
(T (W x00 x00 x00 x00 x58 x0c xfd xff)
(T (W xc4 x00 x00 x00 x01 x00 x00 x00)
(L (W x00 x00 x80 x3f x00 x00 x80 x3f))
(L (W x18 x00 x00 x00 x10 x00 x00 x00)))
(T (W xff xff xff xff xff xff xff xff)
(L (W x03 x00 x00 x00 xd8 x00 x00 x00)) E))))
(T (W x00 x00 x00 x00 x00 x00 x00 x00)
(T (W x00 x00 x00 x00 x00 x00 x00 x00)
(T (W xff xff xff xff x03 x00 x00 x00)
(T (W x00 x00 x00 x00 x00 x00 x00 x00)
(L (W x00 x00 x00 x00 x00 x00 x00 x00))
(L (W x54 x02 x00 x00 x38 x01 x00 x00)))
(T (W xda xd2 xfd xff x74 x00 x00 x00)
(L (W x18 x00 x00 x00 x10 x00 x00 x00))
(L (W x03 x00 x00 x00 xd0 x00 x00 x00))))
(T (W x00 x00 x80 x3f x00 x00 x80 x3f)
(T (W x00 x00 x00 x00 x00 x00 x00 x00)
(L (W x00 x00 x00 x00 x00 x00 x00 x00))
(L (W xda x92 xff xff x74 x00 x00 x00)))
(T (W x00 x00 x00 x00 x00 x00 x00 x00)
(L (W x03 x00 x00 x00 xc8 x00 x00 x00))
(L (W x49 xa1 x68 x4a xeb x5f xdd x3d)))))
(T (W xff xff xff xff xff xff xff xff)
(T (W xff xff xff xff xff xff xff xff)
(T (W x45 x26 x22 x84 xe4 x9c xf2 xcb)
(L (W x00 x00 x00 x00 x00 x00 x00 x00))
(L (W x00 x00 x80 xbf x00 x00 x80 xbf)))
(T (W x00 x00 x80 x3f x00 x00 x80 x3f)
(L (W x00 x00 x00 x00 x12 x00 x00 x00))
(L (W x00 x00 x00 x00 x00 x00 x00 x00))))
(T (W x50 x00 x00 x00 x44 x00 x00 x00)
(T (W x92 x45 x99 x81 x61 x09 x88 x67)
(L (W x00 x00 x80 x3f x00 x00 x80 x3f))
(L (W x22 x9f xff xff x78 x00 x00 x00)))
(T (W x50 x00 x00 x00 x44 x00 x00 x00)
(L (W xe0 x1a xff xff x00 x01 x01 x01)) E))))))))
(T (W x68 x32 x01 x00 xcc x2d x01 x00)
(T (W x70 x0a x00 x00 x3c x09 x00 x00)
(T (W xff xff xff xff x03 x00 x00 x00)
(T (W xff xff xff xff xff xff xff xff)
(T (W xc0 x00 x00 x00 xb4 x00 x00 x00)
(T (W x50 x00 x00 x00 x44 x00 x00 x00)
(T (W x00 x00 x00 x00 x00 x00 x00 x00)
(T (W xff xff xff xff xff xff xff xff)
(L (W xff xff xff xff xff xff xff xff))
(L (W x00 x00 x00 x00 x12 x00 x00 x00)))
(T (W x00 x00 x80 x3f x00 x00 x80 x3f)
(L (W x00 x00 x00 x00 x00 x00 x00 x00))
(L (W x45 x44 x00 x00 x00 x00 x00 x00))))
(T (W xff xff xff xff xff xff xff xff)
(T (W x24 x69 xfd xff x1d x00 x00 x00)
(L (W xff xff xff xff xb0 x00 x00 x00))
(L (W x04 x00 x00 x00 x92 x5b xff xff)))
(T (W xb0 x00 x00 x00 x28 x00 x00 x00)
(L (W xbc x00 x00 x00 x64 x00 x00 x00))
(L (W xff xff xff xff xa0 x00 x00 x00)))))
(T (W x00 x00 x80 x3f x00 x00 x80 x3f)
(T (W x00 x00 x00 x00 x00 x00 x00 x00)
(T (W xff xff xff xff xff xff xff xff)
(L (W xff xff xff xff xff xff xff xff))
(L (W x00 x00 x80 xbf x00 x00 x80 xbf)))
(T (W x00 x00 x00 x00 x00 x00 x00 x00)
(L (W x04 x00 x00 x00 x80 x03 x00 x00))
(L (W x00 x00 x00 x00 x00 x00 x00 x00))))
(T (W xff xff xff xff xff xff xff xff)
(T (W x18 x00 x00 x00 x10 x00 x00 x00)
(L (W xff xff xff xff xff xff xff xff))
(L (W x1f x8a xa7 x28 xbf x4c x53 x6a)))
(T (W x00 x00 x80 x3f x00 x00 x80 x3f)
(L (W x5d x00 x00 x00 xff xff xff xff))
(L (W x38 x00 x3c x00 x40 x00 x44 x00))))))
(T (W x00 x00 x00 x00 x58 x4f xfc xff)
(T (W x00 x00 x80 x3f x00 x00 x80 x3f)
(T (W x24 xb9 xfc xff x3c x00 x00 x00)
(T (W xff xff xff xff xff xff xff xff)
(L (W x00 x00 x00 x00 x00 x00 x00 x00))
(L (W x00 x00 x00 x00 x00 x00 x00 x00)))
(T (W xff xff xff xff xff xff xff xff)
(L (W x64 x5f x70 x6f x6b x65 x5f x77))
(L (W x30 x34 x5f x43 x4c x45 x41 x52))))
(T (W x00 x00 x00 x00 x00 x00 x00 x00)
(T (W x45 x26 x22 x84 xe4 x9c xf2 xcb)
(L (W x00 x00 x80 xbf x00 x00 x80 xbf))
(L (W xff xff xff xff xff xff xff xff)))
(T (W xb8 x00 x00 x00 xac x00 x00 x00)
(L (W x5d x00 x00 x00 xff xff xff xff))
(L (W x00 x00 x00 x00 xe4 xed xff xff)))))
(T (W x45 x26 x22 x84 xe4 x9c xf2 xcb)
(T (W x24 xd9 xfc xff x3c x00 x00 x00)
(T (W x00 x00 x01 x01 xdf x01 x00 x00)
(L (W x45 x26 x22 x84 xe4 x9c xf2 xcb))
(L (W x03 x00 x00 x00 xd0 x00 x00 x00)))
(T (W x00 x00 x80 x3f x00 x00 x80 x3f)
(L (W x45 x26 x22 x84 xe4 x9c xf2 xcb))
(L (W x4c x45 x41 x52 x45 x44 x00 x00))))
(T (W xff xff xff xff xff xff xff xff)
(T (W x46 x53 x59 x53 x5f x4e x53 x5f)
(L (W xbc x00 x00 x00 x32 x00 x00 x00))
(L (W x00 x00 x00 x00 x00 x00 x00 x00)))
(T (W x00 x00 x00 x01 x2b x01 x00 x00)
(L (W x30 x34 x5f x43 x4c x45 x41 x52)) E)))))
(T (W xb8 x00 x00 x00 xac x00 x00 x00)
(T (W xff xff xff xff x03 x00 x00 x00)
(T (W x00 x00 x80 x3f x00 x00 x80 x3f)
(T (W x00 x00 x00 x00 x00 x00 x00 x00)
(T (W xff xff xff xff xff xff xff xff)
(L (W x6b x65 x5f x63 x6f x77 x61 x72))
(L (W x00 x00 x00 x00 xba x26 xff xff)))
(T (W x35 x00 x00 x00 x38 x00 x00 x00)
(L (W xa4 x05 x00 x00 x50 x04 x00 x00))
(L (W x00 x00 x01 x01 x95 x01 x00 x00))))
(T (W x8a x9a xfe xff x00 x00 x01 x01)
(T (W x00 x00 x00 x00 x12 x00 x00 x00)
(L (W x00 x00 x80 xbf x00 x00 x80 xbf))
(L (W xbc x00 x00 x00 x0a x00 x00 x00)))
(T (W xb8 x00 x00 x00 xac x00 x00 x00)
(L (W xff xff xff xff xff xff xff xff))
(L (W x00 x00 x80 xbf x00 x00 x80 xbf)))))
(T (W x00 x00 x80 x3f x00 x00 x80 x3f)
(T (W x00 x00 x00 x00 x00 x00 x00 x00)
(T (W x45 x26 x22 x84 xe4 x9c xf2 xcb)
(L (W xda x5d xfe xff x74 x00 x00 x00))
(L (W x50 x00 x00 x00 x44 x00 x00 x00)))
(T (W x4f x84 x6f x8b xe8 xcb x63 xb7)
(L (W x00 x00 x00 x00 x12 x00 x00 x00))
(L (W x00 x00 x00 x00 x00 x00 x00 x00))))
(T (W xff xff xff xff x01 x00 x00 x00)
(T (W x00 x00 x01 x01 xb4 x01 x00 x00)
(L (W x00 x00 x00 x00 x00 x00 x00 x00))
(L (W x30 x34 x5f x43 x4c x45 x41 x52)))
(T (W x00 x00 x80 x3f x00 x00 x80 x3f)
(L (W x00 x00 x01 x01 x4b x00 x00 x00)) E))))
(T (W x45 x26 x22 x84 xe4 x9c xf2 xcb)
(T (W x00 x00 x80 x3f x00 x00 x80 x3f)
(T (W x00 x00 x00 x00 x00 x00 x00 x00)
(T (W xff xff xff xff xff xff xff xff)
(L (W x64 x5f x6c x76 x31 x00 x00 x00))
(L (W x00 x00 x00 x00 x00 x00 x00 x00)))
(T (W xff xff xff xff xff xff xff xff)
(L (W x00 x00 x00 x00 x00 x00 x00 x00))
(L (W x00 x00 x00 x00 x00 x00 x00 x00))))
(T (W x20 x01 x00 x00 x04 x00 x00 x00)
(T (W x54 x00 x00 x00 x48 x00 x00 x00)
(L (W x00 x00 x80 xbf x00 x00 x80 xbf))
(L (W xff xff xff xff xff xff xff xff)))
(T (W x01 x00 x00 x00 x9c x00 x00 x00)
(L (W x04 x00 x00 x00 x70 x03 x00 x00))
(L (W x00 x00 x00 x00 x00 x00 x00 x00)))))
(T (W x45 x26 x22 x84 xe4 x9c xf2 xcb)
(T (W x01 x00 x00 x00 x04 x00 x00 x00)
(T (W xff xff xff xff xff xff xff xff)
(L (W x00 x00 x80 xbf x00 x00 x80 xbf))
(L (W xff xff xff xff xc8 x00 x00 x00)))
(T (W x22 xda xfd xff x78 x00 x00 x00)
(L (W x22 xda xfe xff x78 x00 x00 x00))
(L (W xc5 x01 x00 x00 xff xff xff xff))))
(T (W xff xff xff xff xff xff xff xff)
(T (W x00 x00 x00 x00 x00 x00 x00 x00)
(L (W x00 x00 x80 x3f x00 x00 x80 x3f))
(L (W x00 x00 x00 x00 x00 x00 x00 x00)))
(T (W xd6 x00 x00 x00 xff xff xff xff)
(L (W x00 x00 x00 x00 x00 x00 x00 x00)) E))))))
(T (W x00 x00 x00 x00 x00 x00 x00 x00)
(T (W x00 x00 x00 x00 x00 x00 x00 x00)
(T (W x00 x00 x00 x00 x00 x00 x00 x00)
(T (W x00 x00 x00 x00 x00 x00 x00 x00)
(T (W xff xff xff xff xff xff xff xff)
(T (W x00 x00 x80 x3f x00 x00 x80 x3f)
(L (W x45 x26 x22 x84 xe4 x9c xf2 xcb))
(L (W x22 x26 xff xff x78 x00 x00 x00)))
(T (W x00 x00 x00 x00 x00 x00 x00 x00)
(L (W x70 x5f x6c x65 x61 x64 x65 x72))
(L (W x00 x00 x80 xbf x00 x00 x80 xbf))))
(T (W x22 xe6 xfc xff x78 x00 x00 x00)
(T (W x68 x00 x00 x00 x5c x00 x00 x00)
(L (W x00 x00 x00 x00 x00 x00 x00 x00))
(L (W x00 x00 x80 xbf x00 x00 x80 xbf)))
(T (W x00 x00 x00 x00 x00 x00 x00 x00)
(L (W x00 x00 x00 x00 x12 x00 x00 x00))
(L (W x00 x00 x00 x00 x00 x00 x00 x00)))))
(T (W xff xff xff xff xff xff xff xff)
(T (W x18 x00 x00 x00 x0c x00 x00 x00)
(T (W x10 x00 x14 x00 x00 x00 x00 x00)
(L (W x00 x00 x00 x00 x00 x00 x00 x00))
(L (W x54 x02 x00 x00 x38 x01 x00 x00)))
(T (W x2b x00 x00 x00 x2e x00 x00 x00)
(L (W x68 x00 x00 x00 x5c x00 x00 x00))
(L (W x5c x00 x00 x00 x50 x00 x00 x00))))
(T (W x00 x00 x80 x3f x00 x00 x80 x3f)
(T (W x00 x00 x80 x3f x00 x00 x80 x3f)
(L (W x50 x00 x00 x00 x44 x00 x00 x00))
(L (W xda x99 xff xff x74 x00 x00 x00)))
(T (W xff xff xff xff xff xff xff xff)
(L (W x22 x06 xff xff x78 x00 x00 x00))
(L (W x00 x00 x80 xbf x00 x00 x80 xbf))))))
(T (W x00 x00 x00 x00 x00 x00 x00 x00)
(T (W xff xff xff xff xff xff xff xff)
(T (W x45 x26 x22 x84 xe4 x9c xf2 xcb)
(T (W x00 x00 x00 x00 x00 x00 x00 x00)
(L (W x50 x00 x00 x00 x44 x00 x00 x00))
(L (W xff xff xff xff xff xff xff xff)))
(T (W x45 x26 x22 x84 xe4 x9c xf2 xcb)
(L (W x00 x00 x00 x00 x58 xb3 xfe xff))
(L (W x18 x00 x00 x00 x0c x00 x00 x00))))
(T (W x00 x00 x80 x3f x00 x00 x80 x3f)
(T (W xff xff xff xff xff xff xff xff)
(L (W xff xff xff xff xff xff xff xff))
(L (W x00 x00 x80 xbf x00 x00 x80 xbf)))
(T (W x00 x00 x00 x00 x00 x00 x00 x00)
(L (W x00 x00 x80 xbf x00 x00 x80 xbf))
(L (W x54 xf3 xff xff x9a xee xff xff)))))
(T (W x64 x00 x00 x00 x9c x00 x00 x00)
(T (W x01 x00 x00 x00 x3e x00 x00 x00)
(T (W x00 x00 x80 x3f x00 x00 x80 x3f)
(L (W xff xff xff xff xff xff xff xff))
(L (W x00 x00 x00 x00 x00 x00 x00 x00)))
(T (W xff xff xff xff x01 x00 x00 x00)
(L (W xff xff xff xff xff xff xff xff))
(L (W x45 x26 x22 x84 xe4 x9c xf2 xcb))))
(T (W x00 x00 x80 x3f x00 x00 x80 x3f)
(T (W xff xff xff xff xff xff xff xff)
(L (W x6c x00 x00 x00 x60 x00 x00 x00))
(L (W x00 x00 x80 xbf x00 x00 x80 xbf)))
(T (W x00 x00 x80 x3f x00 x00 x80 x3f)
(L (W x6c x00 x00 x00 x60 x00 x00 x00)) E)))))
(T (W x00 x00 x00 x00 x00 x00 x00 x00)
(T (W x40 x00 x00 x00 x0c x00 x00 x00)
(T (W x00 x00 x00 x00 x04 x00 x00 x00)
(T (W xff xff xff xff xff xff xff xff)
(T (W x00 x00 x00 x00 x00 x00 x00 x00)
(L (W x68 x00 x00 x00 x5c x00 x00 x00))
(L (W x68 x00 x00 x00 x5c x00 x00 x00)))
(T (W x00 x00 x00 x00 x00 x00 x00 x00)
(L (W x67 x72 x6f x75 x70 x5f x6c x65))
(L (W x00 x00 x80 xbf x00 x00 x80 xbf))))
(T (W x00 x00 x80 x3f x00 x00 x80 x3f)
(T (W xff xff xff xff xff xff xff xff)
(L (W xff xff xff xff xff xff xff xff))
(L (W x00 x00 x80 xbf x00 x00 x80 xbf)))
(T (W x00 x00 x00 x00 x00 x00 x00 x00)
(L (W x00 x00 x80 xbf x00 x00 x80 xbf))
(L (W x00 x00 x00 x00 x12 x00 x00 x00)))))
(T (W xff xff xff xff xff xff xff xff)
(T (W x40 x00 x00 x00 x9c x00 x00 x00)
(T (W x00 x00 x80 x3f x00 x00 x80 x3f)
(L (W x00 x00 x00 x00 x00 x00 x00 x00))
(L (W x00 x00 x00 x00 x12 x00 x00 x00)))
(T (W xff xff xff xff xff xff xff xff)
(L (W xff xff xff xff xff xff xff xff))
(L (W x6c x00 x00 x00 x60 x00 x00 x00))))
(T (W x00 x00 x00 x00 x00 x00 x00 x00)
(T (W x50 x00 x00 x00 x44 x00 x00 x00)
(L (W x64 x10 x00 x00 x38 x0f x00 x00))
(L (W x54 x00 x00 x00 x48 x00 x00 x00)))
(T (W xff xff xff xff xff xff xff xff)
(L (W x00 x00 x80 xbf x00 x00 x80 xbf)) E))))
(T (W x00 x00 x00 x00 x00 x00 x00 x00)
(T (W x7a x00 x00 x00 xff xff xff xff)
(T (W x01 x00 x00 x00 xa0 x00 x00 x00)
(T (W x00 x00 x00 x00 x00 x00 x00 x00)
(L (W x50 x00 x00 x00 x44 x00 x00 x00))
(L (W xff xff xff xff xff xff xff xff)))
(T (W x00 x00 x80 x3f x00 x00 x80 x3f)
(L (W x54 x00 x00 x00 x48 x00 x00 x00))
(L (W xa4 x00 x00 x00 x32 x00 x00 x00))))
(T (W x45 x26 x22 x84 xe4 x9c xf2 xcb)
(T (W x24 x85 xfd xff x35 x00 x00 x00)
(L (W x24 x85 xfe xff x32 x00 x00 x00))
(L (W x00 x00 x80 xbf x00 x00 x80 xbf)))
(T (W x7c x00 xfe xff x1f x00 x00 x00)
(L (W x00 x00 x80 xbf x00 x00 x80 xbf))
(L (W x3c x00 x40 x00 x44 x00 x48 x00)))))
(T (W xff xff xff xff x03 x00 x00 x00)
(T (W x68 x00 x00 x00 x5c x00 x00 x00)
(T (W x00 x00 x80 x3f x00 x00 x80 x3f)
(L (W x30 x34 x5f x43 x4c x45 x41 x52))
(L (W x49 xa1 x68 x4a xeb x5f xdd x3d)))
(T (W x00 x00 x00 x00 x00 x00 x00 x00)
(L (W x00 x00 x00 x00 x32 xe0 xfe xff))
(L (W x00 x00 x00 x00 x00 x00 x00 x00))))
(T (W x00 x00 x80 x3f x00 x00 x80 x3f)
(T (W xff xff xff xff xff xff xff xff)
(L (W x49 xa1 x68 x4a xeb x5f xdd x3d))
(L (W x00 x00 x80 xbf x00 x00 x80 xbf)))
(T (W x45 x26 x22 x84 xe4 x9c xf2 xcb)
(L (W x00 x00 x80 xbf x00 x00 x80 xbf)) E)))))))
(T (W x00 x00 x80 x3f x00 x00 x80 x3f)
(T (W x00 x00 x00 x00 x00 x00 x00 x00)
(T (W x00 x00 x00 x00 x04 x00 x00 x00)
(T (W xff xff xff xff xff xff xff xff)
(T (W xff xff xff xff xff xff xff xff)
(T (W x00 x00 x80 x3f x00 x00 x80 x3f)
(T (W x40 x00 x00 x00 x0c x00 x00 x00)
(L (W x00 x00 x00 x00 x00 x00 x00 x00))
(L (W x00 x00 x80 xbf x00 x00 x80 xbf)))
(T (W xff xff xff xff xff xff xff xff)
(L (W x45 x26 x22 x84 xe4 x9c xf2 xcb))
(L (W x00 x00 x00 x00 x00 x00 x00 x00))))
(T (W x00 x00 x00 x00 x00 x00 x00 x00)
(T (W x45 x26 x22 x84 xe4 x9c xf2 xcb)
(L (W xff xff xff xff xff xff xff xff))
(L (W x00 x00 x00 x00 x00 x00 x00 x00)))
(T (W xc1 x02 x00 x00 xff xff xff xff)
(L (W xff xff xff xff xff xff xff xff))
(L (W xff xff xff xff xff xff xff xff)))))
(T (W x50 x00 x00 x00 x44 x00 x00 x00)
(T (W x45 x26 x22 x84 xe4 x9c xf2 xcb)
(T (W x45 x26 x22 x84 xe4 x9c xf2 xcb)
(L (W x8a xf4 xff xff x00 x00 x01 x01))
(L (W xc4 x00 x00 x00 x02 x00 x00 x00)))
(T (W x45 x26 x22 x84 xe4 x9c xf2 xcb)
(L (W x00 x00 x80 xbf x00 x00 x80 xbf))
(L (W x00 x00 x80 xbf x00 x00 x80 xbf))))
(T (W x00 x00 x00 x00 x00 x00 x00 x00)
(T (W xb6 x01 x00 x00 xff xff xff xff)
(L (W x00 x00 x00 x00 x00 x00 x00 x00))
(L (W x00 x00 x80 xbf x00 x00 x80 xbf)))
(T (W xb8 x00 x00 x00 xac x00 x00 x00)
(L (W x00 x00 x00 x00 x12 x00 x00 x00))
(L (W xcc x00 x00 x00 x02 x00 x00 x00))))))
(T (W xff xff xff xff xff xff xff xff)
(T (W x64 x00 x00 x00 x9c x00 x00 x00)
(T (W x00 x00 x80 x3f x00 x00 x80 x3f)
(T (W x00 x00 x00 x00 x00 x00 x00 x00)
(L (W x45 x26 x22 x84 xe4 x9c xf2 xcb))
(L (W x00 x00 x80 xbf x00 x00 x80 xbf)))
(T (W x00 x00 x00 x00 x00 x00 x00 x00)
(L (W x00 x00 x80 x3f x00 x00 x80 x3f))
(L (W x4f x84 x6f x8b xe8 xcb x63 xb7))))
(T (W x00 x00 x00 x00 x00 x00 x00 x00)
(T (W x00 x00 x00 x00 x58 x71 xfd xff)
(L (W xff xff xff xff xa8 x00 x00 x00))
(L (W x00 x00 x00 x00 x00 x00 x00 x00)))
(T (W xff xff xff xff xff xff xff xff)
(L (W x00 x00 x00 x00 x00 x00 x00 x00))
(L (W x00 x00 x00 x00 x00 x00 x00 x00)))))
(T (W x00 x00 x00 x00 x58 x91 xfc xff)
(T (W x00 x00 x80 x3f x00 x00 x80 x3f)
(T (W x00 x00 x00 x00 x00 x00 x00 x00)
(L (W x00 x00 x00 x00 x00 x00 x00 x00))
(L (W xff xff xff xff xff xff xff xff)))
(T (W xff xff xff xff xc4 x00 x00 x00)
(L (W x45 x26 x22 x84 xe4 x9c xf2 xcb))
(L (W xff xff xff xff xff xff xff xff))))
(T (W x00 x00 x00 x00 x00 x00 x00 x00)
(T (W x00 x00 x80 x3f x00 x00 x80 x3f)
(L (W x46 x53 x59 x53 x5f x4e x53 x5f))
(L (W x00 x00 x00 x00 x00 x00 x00 x00)))
(T (W x00 x00 x00 x00 x00 x00 x00 x00)
(L (W x49 xa1 x68 x4a xeb x5f xdd x3d)) E)))))
(T (W xff xff xff xff xff xff xff xff)
(T (W xff xff xff xff xff xff xff xff)
(T (W xff xff xff xff xff xff xff xff)
(T (W x00 x00 x80 x3f x00 x00 x80 x3f)
(T (W x00 x00 x00 x00 x00 x00 x00 x00)
(L (W x45 x26 x22 x84 xe4 x9c xf2 xcb))
(L (W x00 x00 x00 x00 x00 x00 x00 x00)))
(T (W xff xff xff xff xff xff xff xff)
(L (W x00 x00 x00 x00 x58 xa9 xfe xff))
(L (W x00 x00 x00 x00 x00 x00 x00 x00))))
(T (W x00 x00 x00 x00 x00 x00 x00 x00)
(T (W x00 x00 x80 x3f x00 x00 x80 x3f)
(L (W x45 x26 x22 x84 xe4 x9c xf2 xcb))
(L (W x94 x01 x00 x00 xff xff xff xff)))
(T (W xff xff xff xff xff xff xff xff)
(L (W x33 x44 xbb x28 xbf xcd x6a x6a))
(L (W xd8 x00 x00 x00 x64 x00 x00 x00)))))
(T (W xda x9f xfc xff x74 x00 x00 x00)
(T (W x00 x00 x80 x3f x00 x00 x80 x3f)
(T (W x29 x00 x00 x00 x10 x00 x00 x00)
(L (W xff xff xff xff xff xff xff xff))
(L (W xff xff xff xff xff xff xff xff)))
(T (W x50 x00 x00 x00 x44 x00 x00 x00)
(L (W x00 x00 x80 xbf x00 x00 x80 xbf))
(L (W x00 x00 x80 xbf x00 x00 x80 xbf))))
(T (W x00 x00 x80 x3f x00 x00 x80 x3f)
(T (W x00 x00 x00 x00 x00 x00 x00 x00)
(L (W x00 x00 x00 x00 xd0 xfe xff xff))
(L (W x00 x00 x00 x00 x00 x00 x00 x00)))
(T (W x01 x00 x00 x00 x9c x00 x00 x00)
(L (W x00 x00 x00 x00 x00 x00 x00 x00)) E))))
(T (W xff xff xff xff xff xff xff xff)
(T (W xe0 x77 xfc xff x00 x01 x01 x01)
(T (W x45 x26 x22 x84 xe4 x9c xf2 xcb)
(T (W x00 x00 x00 x00 x00 x00 x00 x00)
(L (W x45 x26 x22 x84 xe4 x9c xf2 xcb))
(L (W x45 x26 x22 x84 xe4 x9c xf2 xcb)))
(T (W x00 x00 x00 x00 x00 x00 x00 x00)
(L (W x00 x00 x00 x00 x00 x00 x00 x00))
(L (W x00 x00 x80 xbf x00 x00 x80 xbf))))
(T (W x00 x00 x00 x00 x00 x00 x00 x00)
(T (W xff xff xff xff xff xff xff xff)
(L (W x03 x00 x00 x00 xbc x00 x00 x00))
(L (W x00 x00 x00 x00 x12 x00 x00 x00)))
(T (W xff xff xff xff xff xff xff xff)
(L (W x45 x26 x22 x84 xe4 x9c xf2 xcb))
(L (W x00 x00 x80 xbf x00 x00 x80 xbf)))))
(T (W x45 x26 x22 x84 xe4 x9c xf2 xcb)
(T (W x45 x26 x22 x84 xe4 x9c xf2 xcb)
(T (W x00 x00 x00 x00 x00 x00 x00 x00)
(L (W xff xff xff xff xff xff xff xff))
(L (W x94 x01 x00 x00 xff xff xff xff)))
(T (W xff xff xff xff xff xff xff xff)
(L (W xff xff xff xff xff xff xff xff))
(L (W x50 x00 x00 x00 x44 x00 x00 x00))))
(T (W x00 x00 x00 x00 x00 x00 x00 x00)
(T (W xff xff xff xff x9c x00 x00 x00)
(L (W xff xff xff xff xff xff xff xff))
(L (W x03 x00 x00 x00 xd4 x00 x00 x00)))
(T (W x00 x00 x00 x00 x00 x00 x00 x00)
(L (W x00 x00 x00 x00 x00 x00 x00 x00)) E))))))
(T (W x00 x00 x80 x3f x00 x00 x80 x3f)
(T (W x00 x00 x80 x3f x00 x00 x80 x3f)
(T (W x00 x00 x80 x3f x00 x00 x80 x3f)
(T (W x00 x00 x00 x00 x00 x00 x00 x00)
(T (W xff xff xff xff xff xff xff xff)
(T (W x00 x00 x00 x00 x58 x25 xfd xff)
(L (W xff xff xff xff xff xff xff xff))
(L (W xff xff xff xff xff xff xff xff)))
(T (W x45 x26 x22 x84 xe4 x9c xf2 xcb)
(L (W x54 x00 x00 x00 x48 x00 x00 x00))
(L (W x45 x26 x22 x84 xe4 x9c xf2 xcb))))
(T (W xff xff xff xff xff xff xff xff)
(T (W xff xff xff xff xff xff xff xff)
(L (W x00 x00 x00 x00 x00 x00 x00 x00))
(L (W x54 x00 x00 x00 x48 x00 x00 x00)))
(T (W x00 x00 x80 x3f x00 x00 x80 x3f)
(L (W x00 x00 x80 xbf x00 x00 x80 xbf))
(L (W xff xff xff xff xff xff xff xff)))))
(T (W x00 x00 x00 x00 x00 x00 x00 x00)
(T (W xff xff xff xff xff xff xff xff)
(T (W x00 x00 x80 x3f x00 x00 x80 x3f)
(L (W x00 x00 x80 x3f x00 x00 x80 x3f))
(L (W x45 x26 x22 x84 xe4 x9c xf2 xcb)))
(T (W xff xff xff xff xff xff xff xff)
(L (W xff xff xff xff xff xff xff xff))
(L (W xc4 x00 x00 x00 x02 x00 x00 x00))))
(T (W xda x1b xfd xff x74 x00 x00 x00)
(T (W xff xff xff xff xb0 x00 x00 x00)
(L (W xff xff xff xff xff xff xff xff))
(L (W x2a x00 x00 x00 xff xff xff xff)))
(T (W x00 x00 x00 x00 x00 x00 x00 x00)
(L (W xff xff xff xff xff xff xff xff))
(L (W x00 x00 x00 x00 x12 x00 x00 x00))))))
(T (W x00 x00 x00 x00 x00 x00 x00 x00)
(T (W x45 x26 x22 x84 xe4 x9c xf2 xcb)
(T (W xff xff xff xff xff xff xff xff)
(T (W x50 x00 x00 x00 x44 x00 x00 x00)
(L (W xff xff xff xff x03 x00 x00 x00))
(L (W x00 x00 x00 x00 xba x34 xff xff)))
(T (W xff xff xff xff xa0 x00 x00 x00)
(L (W xff xff xff xff xff xff xff xff))
(L (W xff xff xff xff xff xff xff xff))))
(T (W xff xff xff xff x04 x00 x00 x00)
(T (W x00 x00 x00 x00 x00 x00 x00 x00)
(L (W x00 x00 x00 x00 x01 x00 x00 x00))
(L (W x70 x00 x00 x00 x64 x00 x00 x00)))
(T (W x00 x00 x80 x3f x00 x00 x80 x3f)
(L (W x03 x00 x00 x00 xcc x00 x00 x00))
(L (W xff xff xff xff xff xff xff xff)))))
(T (W x01 x00 x00 x00 x04 x00 x00 x00)
(T (W xff xff xff xff xff xff xff xff)
(T (W xff xff xff xff xbc x00 x00 x00)
(L (W x00 x00 x00 x00 x00 x00 x00 x00))
(L (W x00 x00 x80 xbf x00 x00 x80 xbf)))
(T (W x00 x00 x00 x00 x00 x00 x00 x00)
(L (W x00 x00 x80 xbf x00 x00 x80 xbf))
(L (W xff xff xff xff xc8 x00 x00 x00))))
(T (W xc0 x00 x00 x00 xb4 x00 x00 x00)
(T (W x00 x00 x00 x00 x00 x00 x00 x00)
(L (W x6c x64 x5f x70 x6f x6b x65 x5f))
(L (W xb8 x00 x00 x00 x1e x00 x00 x00)))
(T (W xbc x00 x00 x00 xb0 x00 x00 x00)
(L (W xff xff xff xff xff xff xff xff)) E)))))
(T (W x00 x00 x80 x3f x00 x00 x80 x3f)
(T (W x00 x00 x80 x3f x00 x00 x80 x3f)
(T (W x00 x00 x00 x00 x00 x00 x00 x00)
(T (W xff xff xff xff xff xff xff xff)
(T (W x45 x26 x22 x84 xe4 x9c xf2 xcb)
(L (W xff xff xff xff xff xff xff xff))
(L (W xff xff xff xff xff xff xff xff)))
(T (W x00 x00 x80 x3f x00 x00 x80 x3f)
(L (W xff xff xff xff xb0 x00 x00 x00))
(L (W xff xff xff xff xff xff xff xff))))
(T (W xb8 x00 x00 x00 xac x00 x00 x00)
(T (W xb2 x18 x0d xe2 x46 xac xf1 x06)
(L (W x45 x44 x00 x00 x00 x00 x00 x00))
(L (W x45 x26 x22 x84 xe4 x9c xf2 xcb)))
(T (W x45 x26 x22 x84 xe4 x9c xf2 xcb)
(L (W xda x03 xff xff x74 x00 x00 x00))
(L (W x00 x00 x00 x00 x00 x00 x00 x00)))))
(T (W x7c x92 xfc xff x1b x00 x00 x00)
(T (W xff xff xff xff xff xff xff xff)
(T (W x18 x00 x00 x00 x0c x00 x00 x00)
(L (W xff xff xff xff xff xff xff xff))
(L (W x00 x00 x80 xbf x00 x00 x80 xbf)))
(T (W x00 x00 x00 x00 x00 x00 x00 x00)
(L (W x17 x00 x00 x00 x0c x00 x00 x00))
(L (W xff xff xff xff xc4 x00 x00 x00))))
(T (W x01 x00 x00 x00 xa0 x00 x00 x00)
(T (W xff xff xff xff xff xff xff xff)
(L (W x00 x00 x80 x3f x00 x00 x80 x3f))
(L (W xff xff xff xff xff xff xff xff)))
(T (W x24 x17 xfe xff x2f x00 x00 x00)
(L (W xff xff xff xff xff xff xff xff)) E))))
(T (W x00 x00 x00 x00 x00 x00 x00 x00)
(T (W x00 x00 x00 x00 x00 x00 x00 x00)
(T (W x87 x03 x00 x00 xff xff xff xff)
(T (W x00 x00 x80 x3f x00 x00 x80 x3f)
(L (W x00 x00 x00 x00 x00 x00 x00 x00))
(L (W x00 x00 x00 x00 x00 x00 x00 x00)))
(T (W xff xff xff xff xff xff xff xff)
(L (W x03 x00 x00 x00 xd0 x00 x00 x00))
(L (W xff xff xff xff xff xff xff xff))))
(T (W x45 x26 x22 x84 xe4 x9c xf2 xcb)
(T (W x00 x00 x80 x3f x00 x00 x80 x3f)
(L (W x00 x00 x80 xbf x00 x00 x80 xbf))
(L (W xff xff xff xff xff xff xff xff)))
(T (W x00 x00 x00 x00 x00 x00 x00 x00)
(L (W xff xff xff xff xff xff xff xff))
(L (W x38 x00 x3c x00 x40 x00 x44 x00)))))
(T (W xff xff xff xff xff xff xff xff)
(T (W xff xff xff xff xff xff xff xff)
(T (W xff xff xff xff xff xff xff xff)
(L (W x4f x84 x6f x8b xe8 xcb x63 xb7))
(L (W x22 x60 xff xff x78 x00 x00 x00)))
(T (W x50 x00 x00 x00 x44 x00 x00 x00)
(L (W x45 x26 x22 x84 xe4 x9c xf2 xcb))
(L (W x00 x00 x80 xbf x00 x00 x80 xbf))))
(T (W xff xff xff xff x03 x00 x00 x00)
(T (W x00 x00 x00 x00 x00 x00 x00 x00)
(L (W xcc x00 x00 x00 x01 x00 x00 x00))
(L (W xff xff xff xff x9c x00 x00 x00)))
(T (W x68 x00 x00 x00 x5c x00 x00 x00)
(L (W xb8 x00 x00 x00 x1e x00 x00 x00)) E)))))))))
(T (W xe8 x3e x02 x00 x4c x3a x02 x00)
(T (W x70 x97 x01 x00 xc4 x92 x01 x00)
(T (W x80 x51 x00 x00 x34 x4f x00 x00)
(T (W x00 x00 x00 x00 x00 x00 x00 x00)
(T (W x00 x00 x00 x00 x00 x00 x00 x00)
(T (W x00 x00 x00 x00 x00 x00 x00 x00)
(T (W xb4 x01 x00 x00 xff xff xff xff)
(T (W x18 x00 x00 x00 x0c x00 x00 x00)
(T (W x00 x00 x80 x3f x00 x00 x80 x3f)
(L (W x45 x26 x22 x84 xe4 x9c xf2 xcb))
(L (W x45 x26 x22 x84 xe4 x9c xf2 xcb)))
(T (W xff xff xff xff xff xff xff xff)
(L (W xff xff xff xff xa0 x00 x00 x00))
(L (W x6c x00 x00 x00 x60 x00 x00 x00))))
(T (W x00 x00 x80 x3f x00 x00 x80 x3f)
(T (W x00 x00 x80 x3f x00 x00 x80 x3f)
(L (W x06 x00 x00 x00 xa8 x05 x00 x00))
(L (W x00 x00 x00 x00 x00 x00 x00 x00)))
(T (W x12 x00 x00 x00 x46 x53 x59 x53)
(L (W x00 x00 x00 x00 x12 x00 x00 x00))
(L (W x46 x53 x59 x53 x5f x4e x53 x5f)))))
(T (W xff xff xff xff xff xff xff xff)
(T (W x00 x00 x00 x00 xd8 xbe xfc xff)
(T (W x00 x00 x00 x00 x00 x00 x00 x00)
(L (W x00 x00 x00 x00 x00 x00 x00 x00))
(L (W xff xff xff xff xff xff xff xff)))
(T (W x68 x00 x00 x00 x5c x00 x00 x00)
(L (W x00 x00 x80 x3f x00 x00 x80 x3f))
(L (W xff xff xff xff xa8 x00 x00 x00))))
(T (W x00 x00 x80 x3f x00 x00 x80 x3f)
(T (W x4c x45 x41 x52 x45 x44 x00 x00)
(L (W x00 x00 x00 x00 x00 x00 x00 x00))
(L (W x00 x00 x80 xbf x00 x00 x80 xbf)))
(T (W xff xff xff xff xff xff xff xff)
(L (W x00 x00 x80 xbf x00 x00 x80 xbf))
(L (W x00 x00 x00 x00 x00 x00 x00 x00))))))
(T (W x00 x00 x00 x00 x00 x00 x00 x00)
(T (W xff xff xff xff xff xff xff xff)
(T (W x00 x00 x80 x3f x00 x00 x80 x3f)
(T (W x00 x00 x00 x00 x00 x00 x00 x00)
(L (W x50 x00 x00 x00 x44 x00 x00 x00))
(L (W x18 x00 x00 x00 x0c x00 x00 x00)))
(T (W x00 x00 x00 x00 x00 x00 x00 x00)
(L (W x00 x00 x80 x3f x00 x00 x80 x3f))
(L (W x6c x00 x00 x00 x60 x00 x00 x00))))
(T (W x50 x00 x00 x00 x44 x00 x00 x00)
(T (W xff xff xff xff xbc x00 x00 x00)
(L (W xff xff xff xff xff xff xff xff))
(L (W x45 x26 x22 x84 xe4 x9c xf2 xcb)))
(T (W x00 x00 x00 x00 x00 x00 x00 x00)
(L (W x00 x00 x80 xbf x00 x00 x80 xbf))
(L (W x04 x00 x00 x00 x12 xeb xff xff)))))
(T (W xff xff xff xff x03 x00 x00 x00)
(T (W x00 x00 x80 x3f x00 x00 x80 x3f)
(T (W x45 x26 x22 x84 xe4 x9c xf2 xcb)
(L (W xff xff xff xff xff xff xff xff))
(L (W xa4 x58 xff xff x14 x00 x00 x00)))
(T (W xff xff xff xff xff xff xff xff)
(L (W xff xff xff xff xff xff xff xff))
(L (W x68 x00 x00 x00 x5c x00 x00 x00))))
(T (W x45 x26 x22 x84 xe4 x9c xf2 xcb)
(T (W xa2 x91 xfd xff x78 x00 x00 x00)
(L (W x00 x00 x00 x00 x12 x00 x00 x00))
(L (W x45 x26 x22 x84 xe4 x9c xf2 xcb)))
(T (W x00 x00 x00 x00 x00 x00 x00 x00)
(L (W x6c x00 x00 x00 x60 x00 x00 x00)) E)))))
(T (W x00 x00 x00 x00 x00 x00 x00 x00)
(T (W x00 x00 x00 x00 x00 x00 x00 x00)
(T (W xff xff xff xff xff xff xff xff)
(T (W x5a xbd xfc xff x74 x00 x00 x00)
(T (W x00 x00 x80 x3f x00 x00 x80 x3f)
(L (W x00 x00 x80 x3f x00 x00 x80 x3f))
(L (W x00 x00 x80 xbf x00 x00 x80 xbf)))
(T (W x46 x53 x59 x53 x5f x4e x53 x5f)
(L (W x00 x00 x00 x00 x00 x00 x00 x00))
(L (W x45 x26 x22 x84 xe4 x9c xf2 xcb))))
(T (W x00 x00 x80 x3f x00 x00 x80 x3f)
(T (W x60 x65 xfd xff x00 x01 x01 x01)
(L (W xff xff xff xff xff xff xff xff))
(L (W x00 x00 x00 x00 x12 x00 x00 x00)))
(T (W x00 x00 x00 x00 x00 x00 x00 x00)
(L (W x00 x00 x00 x00 x00 x00 x00 x00))
(L (W xff xff xff xff xff xff xff xff)))))
(T (W xff xff xff xff xff xff xff xff)
(T (W x5a xdd xfc xff x74 x00 x00 x00)
(T (W x31 x00 x00 x00 x10 x00 x00 x00)
(L (W x00 x00 x00 x00 x00 x00 x00 x00))
(L (W x36 x00 x00 x00 xff xff xff xff)))
(T (W xc8 x00 x00 x00 x01 x00 x00 x00)
(L (W x60 xc5 xfe xff x00 x01 x01 x01))
(L (W x58 x00 x00 x00 x4c x00 x00 x00))))
(T (W x45 x26 x22 x84 xe4 x9c xf2 xcb)
(T (W x00 x00 x80 x3f x00 x00 x80 x3f)
(L (W x18 x00 x00 x00 x0c x00 x00 x00))
(L (W x00 x01 x01 x01 x1a x82 xff xff)))
(T (W xff xff xff xff xff xff xff xff)
(L (W x00 x00 x80 xbf x00 x00 x80 xbf))
(L (W x45 x26 x22 x84 xe4 x9c xf2 xcb))))))
(T (W x04 x2f x68 x3d xa8 xc4 x47 x23)
(T (W xff xff xff xff xff xff xff xff)
(T (W x68 x00 x00 x00 x5c x00 x00 x00)
(T (W x00 x00 x00 x00 x00 x00 x00 x00)
(L (W x45 x26 x22 x84 xe4 x9c xf2 xcb))
(L (W xff xff xff xff x9c x00 x00 x00)))
(T (W x49 xa1 x68 x4a xeb x5f xdd x3d)
(L (W x00 x00 x80 x3f x00 x00 x80 x3f))
(L (W x68 x00 x00 x00 x5c x00 x00 x00))))
(T (W x00 x00 x80 x3f x00 x00 x80 x3f)
(T (W xff xff xff xff xff xff xff xff)
(L (W xff xff xff xff xff xff xff xff))
(L (W x4f x84 x6f x8b xe8 xcb x63 xb7)))
(T (W xfc xfb xfd xff x1e x00 x00 x00)
(L (W x00 x00 x80 xbf x00 x00 x80 xbf))
(L (W x45 x26 x22 x84 xe4 x9c xf2 xcb)))))
(T (W xff xff xff xff xff xff xff xff)
(T (W x00 x00 x80 x3f x00 x00 x80 x3f)
(T (W x00 x00 x80 x3f x00 x00 x80 x3f)
(L (W xff xff xff xff xff xff xff xff))
(L (W x00 x00 x00 x00 x00 x00 x00 x00)))
(T (W x04 x00 x00 x00 x3a xd6 xfd xff)
(L (W x00 x00 x00 x00 x3a xd6 xfe xff))
(L (W x00 x00 x80 xbf x00 x00 x80 xbf))))
(T (W x00 x00 x80 x3f x00 x00 x80 x3f)
(T (W xb0 x00 x00 x00 x28 x00 x00 x00)
(L (W xff xff xff xff xff xff xff xff))
(L (W x00 x00 x80 xbf x00 x00 x80 xbf)))
(T (W x45 x26 x22 x84 xe4 x9c xf2 xcb)
(L (W x45 x26 x22 x84 xe4 x9c xf2 xcb)) E))))))
(T (W x01 x00 x00 x00 x9c x00 x00 x00)
(T (W x0a x00 x00 x00 x21 x00 x00 x00)
(T (W x68 x00 x00 x00 x5c x00 x00 x00)
(T (W x5a x79 xfc xff x74 x00 x00 x00)
(T (W x00 x00 x00 x00 x00 x00 x00 x00)
(T (W xff xff xff xff xff xff xff xff)
(L (W xff xff xff xff x03 x00 x00 x00))
(L (W x00 x00 x00 x00 x3a x22 xff xff)))
(T (W x5a xb9 xfd xff x74 x00 x00 x00)
(L (W x4f x84 x6f x8b xe8 xcb x63 xb7))
(L (W xff xff xff xff xff xff xff xff))))
(T (W x1c x01 x00 x00 x04 x00 x00 x00)
(T (W x2b x01 x00 x00 xff xff xff xff)
(L (W x6c x00 x00 x00 x60 x00 x00 x00))
(L (W xff xff xff xff xff xff xff xff)))
(T (W xb8 x00 x00 x00 xac x00 x00 x00)
(L (W x60 xe1 xfe xff x00 x01 x01 x01))
(L (W x45 x26 x22 x84 xe4 x9c xf2 xcb)))))
(T (W x00 x00 x00 x00 x00 x00 x00 x00)
(T (W x3e x00 x00 x00 x10 x00 x00 x00)
(T (W x00 x00 x80 x3f x00 x00 x80 x3f)
(L (W x5a x59 xfe xff x74 x00 x00 x00))
(L (W x00 x00 x80 xbf x00 x00 x80 xbf)))
(T (W x5f x4e x53 x5f x30 x34 x5f x43)
(L (W x00 x00 x00 x00 xaa xc0 xfe xff))
(L (W xff xff xff xff xff xff xff xff))))
(T (W xff xff xff xff xff xff xff xff)
(T (W xff xff xff xff xff xff xff xff)
(L (W xff xff xff xff xff xff xff xff))
(L (W x00 x00 x00 x00 x00 x00 x00 x00)))
(T (W x00 x00 x80 x3f x00 x00 x80 x3f)
(L (W x00 x00 x01 x01 x5d x00 x00 x00))
(L (W xff xff xff xff xe8 x00 x00 x00))))))
(T (W x50 x00 x00 x00 x44 x00 x00 x00)
(T (W x00 x00 x80 x3f x00 x00 x80 x3f)
(T (W x00 x00 x00 x00 x00 x00 x00 x00)
(T (W x45 x26 x22 x84 xe4 x9c xf2 xcb)
(L (W x71 x00 x00 x00 xff xff xff xff))
(L (W x00 x00 x00 x00 x00 x00 x00 x00)))
(T (W xff xff xff xff xbc x00 x00 x00)
(L (W x00 x00 x00 x00 x00 x00 x00 x00))
(L (W x04 x00 x00 x00 x80 x03 x00 x00))))
(T (W xff xff xff xff xff xff xff xff)
(T (W x00 x00 x80 x3f x00 x00 x80 x3f)
(L (W x45 x26 x22 x84 xe4 x9c xf2 xcb))
(L (W xff xff xff xff xff xff xff xff)))
(T (W x01 x00 x00 x00 x9c x00 x00 x00)
(L (W xff xff xff xff xff xff xff xff))
(L (W x00 x00 x00 x00 x00 x00 x00 x00)))))
(T (W x00 x00 x00 x00 x00 x00 x00 x00)
(T (W x3e x00 x00 x00 x10 x00 x00 x00)
(T (W xff xff xff xff xff xff xff xff)
(L (W x00 x00 x00 x00 x00 x00 x00 x00))
(L (W x45 x26 x22 x84 xe4 x9c xf2 xcb)))
(T (W x00 x00 x80 x3f x00 x00 x80 x3f)
(L (W x00 x00 x80 xbf x00 x00 x80 xbf))
(L (W xff xff xff xff xff xff xff xff))))
(T (W xff xff xff xff xff xff xff xff)
(T (W x00 x00 x00 x00 x00 x00 x00 x00)
(L (W xff xff xff xff xff xff xff xff))
(L (W xff xff xff xff xff xff xff xff)))
(T (W xff xff xff xff xff xff xff xff)
(L (W x00 x00 x01 x01 x4a x00 x00 x00)) E)))))
(T (W x45 x26 x22 x84 xe4 x9c xf2 xcb)
(T (W x00 x00 x80 x3f x00 x00 x80 x3f)
(T (W x00 x00 x80 x3f x00 x00 x80 x3f)
(T (W x00 x00 x00 x00 x00 x00 x00 x00)
(T (W xb8 x00 x00 x00 xac x00 x00 x00)
(L (W x00 x00 x00 x00 x00 x00 x00 x00))
(L (W x00 x00 x00 x00 xaa x28 xff xff)))
(T (W x35 x00 x00 x00 x38 x00 x00 x00)
(L (W x00 x00 x80 x3f x00 x00 x80 x3f))
(L (W xff xff xff xff xff xff xff xff))))
(T (W xff xff xff xff xff xff xff xff)
(T (W x00 x00 x00 x00 x00 x00 x00 x00)
(L (W x00 x00 x80 xbf x00 x00 x80 xbf))
(L (W xff xff xff xff xff xff xff xff)))
(T (W x50 x00 x00 x00 x44 x00 x00 x00)
(L (W xff xff xff xff xff xff xff xff))
(L (W x45 x26 x22 x84 xe4 x9c xf2 xcb)))))
(T (W x00 x00 x00 x00 x00 x00 x00 x00)
(T (W x00 x00 x00 x00 x00 x00 x00 x00)
(T (W xff xff xff xff xff xff xff xff)
(L (W x68 x00 x00 x00 x5c x00 x00 x00))
(L (W x60 x49 xff xff x00 x01 x01 x01)))
(T (W x00 x00 x00 x00 x00 x00 x00 x00)
(L (W x00 x00 x00 x00 x00 x00 x00 x00))
(L (W x00 x00 x00 x00 x00 x00 x00 x00))))
(T (W x45 x26 x22 x84 xe4 x9c xf2 xcb)
(T (W xb4 x01 x00 x00 xff xff xff xff)
(L (W x00 x00 x80 xbf x00 x00 x80 xbf))
(L (W xff xff xff xff xff xff xff xff)))
(T (W x00 x00 x00 x00 x00 x00 x00 x00)
(L (W xff xff xff xff xff xff xff xff)) E))))
(T (W x68 x00 x00 x00 x5c x00 x00 x00)
(T (W x45 x26 x22 x84 xe4 x9c xf2 xcb)
(T (W xfc xbf xfc xff x3e x00 x00 x00)
(T (W x01 x00 x00 x00 x9c x00 x00 x00)
(L (W x9a xec xff xff x6f x00 x00 x00))
(L (W x00 x00 x00 x00 x00 x00 x00 x00)))
(T (W xff xff xff xff xff xff xff xff)
(L (W xff xff xff xff xff xff xff xff))
(L (W x00 x00 x00 x00 x12 x00 x00 x00))))
(T (W xff xff xff xff xff xff xff xff)
(T (W x00 x00 x80 x3f x00 x00 x80 x3f)
(L (W x00 x00 x80 xbf x00 x00 x80 xbf))
(L (W xff xff xff xff xff xff xff xff)))
(T (W x00 x00 x80 x3f x00 x00 x80 x3f)
(L (W xff xff xff xff xff xff xff xff))
(L (W x00 x00 x00 x00 x0c x00 x1c x00)))))
(T (W x00 x00 x00 x00 x00 x00 x00 x00)
(T (W x00 x00 x00 x00 xaa x9a xff xff)
(T (W xff xff xff xff xff xff xff xff)
(L (W x6c x00 x00 x00 x60 x00 x00 x00))
(L (W x03 x00 x00 x00 xd8 x00 x00 x00)))
(T (W x68 x00 x00 x00 x5c x00 x00 x00)
(L (W x00 x00 x80 xbf x00 x00 x80 xbf))
(L (W x6c x00 x00 x00 x60 x00 x00 x00))))
(T (W xff xff xff xff xff xff xff xff)
(T (W x49 xa1 x68 x4a xeb x5f xdd x3d)
(L (W xff xff xff xff xff xff xff xff))
(L (W xff xff xff xff xff xff xff xff)))
(T (W xff xff xff xff xff xff xff xff)
(L (W xff xff xff xff xff xff xff xff)) E)))))))
(T (W xff xff xff xff xff xff xff xff)
(T (W x6c x00 x00 x00 x60 x00 x00 x00)
(T (W x00 x00 x80 x3f x00 x00 x80 x3f)
(T (W x00 x00 x80 x3f x00 x00 x80 x3f)
(T (W x00 x00 x00 x00 x00 x00 x00 x00)
(T (W xff xff xff xff xff xff xff xff)
(T (W x00 x00 x80 x3f x00 x00 x80 x3f)
(L (W x50 x00 x00 x00 x44 x00 x00 x00))
(L (W xff xff xff xff xff xff xff xff)))
(T (W x00 x00 x00 x00 x00 x00 x00 x00)
(L (W x45 x44 x00 x00 x00 x00 x00 x00))
(L (W xff xff xff xff xa8 x00 x00 x00))))
(T (W x18 x00 x00 x00 x0c x00 x00 x00)
(T (W xff xff xff xff xc0 x00 x00 x00)
(L (W x00 x00 x80 xbf x00 x00 x80 xbf))
(L (W x27 x00 x00 x00 x2a x00 x00 x00)))
(T (W x00 x00 x80 x3f x00 x00 x80 x3f)
(L (W x00 x00 x80 xbf x00 x00 x80 xbf))
(L (W x49 xa1 x68 x4a xeb x5f xdd x3d)))))
(T (W x9a x32 xfe xff xb7 x01 x00 x00)
(T (W xff xff xff xff xff xff xff xff)
(T (W xff xff xff xff x03 x00 x00 x00)
(L (W x00 x00 x80 x3f x00 x00 x80 x3f))
(L (W x00 x00 x00 x00 x00 x00 x00 x00)))
(T (W xff xff xff xff xbc x00 x00 x00)
(L (W xff xff xff xff xff xff xff xff))
(L (W xff xff xff xff xff xff xff xff))))
(T (W x3e x00 x00 x00 x9c x00 x00 x00)
(T (W x00 x00 x80 x3f x00 x00 x80 x3f)
(L (W x5a x97 xfe xff x74 x00 x00 x00))
(L (W xff xff xff xff xff xff xff xff)))
(T (W x00 x00 x00 x00 x00 x00 x00 x00)
(L (W x60 xff xfe xff x00 x01 x01 x01))
(L (W x4c x00 x50 x00 x54 x00 x00 x00))))))
(T (W x00 x00 x80 x3f x00 x00 x80 x3f)
(T (W x00 x00 x00 x00 x00 x00 x00 x00)
(T (W xff xff xff xff xff xff xff xff)
(T (W x68 x00 x00 x00 x5c x00 x00 x00)
(L (W xff xff xff xff x03 x00 x00 x00))
(L (W xff xff xff xff xff xff xff xff)))
(T (W x6c x00 x00 x00 x60 x00 x00 x00)
(L (W xff xff xff xff xff xff xff xff))
(L (W x03 x00 x00 x00 xd0 x00 x00 x00))))
(T (W x45 x26 x22 x84 xe4 x9c xf2 xcb)
(T (W x00 x00 x00 x00 x00 x00 x00 x00)
(L (W x00 x00 x00 x00 x00 x00 x00 x00))
(L (W x5a x87 xff xff x74 x00 x00 x00)))
(T (W x00 x00 x80 x3f x00 x00 x80 x3f)
(L (W x45 x26 x22 x84 xe4 x9c xf2 xcb))
(L (W x00 x00 x00 x00 x00 x00 x00 x00)))))
(T (W x00 x00 x00 x00 x00 x00 x00 x00)
(T (W xff xff xff xff xff xff xff xff)
(T (W x18 x00 x00 x00 x10 x00 x00 x00)
(L (W x00 x00 x80 x3f x00 x00 x80 x3f))
(L (W x00 x00 x80 xbf x00 x00 x80 xbf)))
(T (W x00 x00 x00 x00 x00 x00 x00 x00)
(L (W x45 x44 x00 x00 x00 x00 x00 x00))
(L (W x38 x00 x3c x00 x40 x00 x44 x00))))
(T (W x45 x26 x22 x84 xe4 x9c xf2 xcb)
(T (W xff xff xff xff xff xff xff xff)
(L (W xa2 x93 xfe xff x78 x00 x00 x00))
(L (W xff xff xff xff xb0 x00 x00 x00)))
(T (W xb8 x00 x00 x00 xac x00 x00 x00)
(L (W x03 x00 x00 x00 xd8 x00 x00 x00)) E)))))
(T (W x45 x26 x22 x84 xe4 x9c xf2 xcb)
(T (W x00 x00 x80 x3f x00 x00 x80 x3f)
(T (W x00 x00 x00 x00 x00 x00 x00 x00)
(T (W xff xff xff xff xff xff xff xff)
(T (W x50 x00 x00 x00 x44 x00 x00 x00)
(L (W xff xff xff xff xff xff xff xff))
(L (W xff xff xff xff x9c x00 x00 x00)))
(T (W x00 x00 x80 x3f x00 x00 x80 x3f)
(L (W x6b x65 x5f x6f x79 x61 x62 x75))
(L (W x23 x00 x00 x00 x26 x00 x00 x00))))
(T (W x5a xff xfc xff x74 x00 x00 x00)
(T (W xff xff xff xff xff xff xff xff)
(L (W x45 x44 x00 x00 x00 x00 x00 x00))
(L (W x00 x00 x80 xbf x00 x00 x80 xbf)))
(T (W x45 x26 x22 x84 xe4 x9c xf2 xcb)
(L (W x00 x00 x80 xbf x00 x00 x80 xbf))
(L (W x00 x00 x00 x00 x12 x00 x00 x00)))))
(T (W x00 x00 x00 x00 x00 x00 x00 x00)
(T (W xff xff xff xff xff xff xff xff)
(T (W x00 x00 x80 x3f x00 x00 x80 x3f)
(L (W x45 x26 x22 x84 xe4 x9c xf2 xcb))
(L (W x00 x00 x80 xbf x00 x00 x80 xbf)))
(T (W x01 x00 x00 x00 xff xff xff xff)
(L (W xff xff xff xff xff xff xff xff))
(L (W xff xff xff xff xff xff xff xff))))
(T (W xff xff xff xff xff xff xff xff)
(T (W x18 x00 x00 x00 x10 x00 x00 x00)
(L (W x00 x00 x00 x00 x01 x00 x00 x00))
(L (W x23 x00 x00 x00 x26 x00 x00 x00)))
(T (W xfc x0d xfe xff x33 x00 x00 x00)
(L (W x35 x00 x00 x00 x38 x00 x00 x00)) E))))
(T (W x00 x00 x00 x00 x00 x00 x00 x00)
(T (W x39 x27 x40 xf1 x12 x34 x29 x1f)
(T (W xff xff xff xff x04 x00 x00 x00)
(T (W x5a x4f xfd xff x74 x00 x00 x00)
(L (W xff xff xff xff xff xff xff xff))
(L (W x00 x00 x00 x00 x00 x00 x00 x00)))
(T (W xff xff xff xff xb0 x00 x00 x00)
(L (W x25 x00 x00 x00 x28 x00 x00 x00))
(L (W xff xff xff xff xff xff xff xff))))
(T (W x18 x00 x00 x00 x10 x00 x00 x00)
(T (W x00 x00 x00 x00 x00 x00 x00 x00)
(L (W x00 x00 x00 x00 x00 x00 x00 x00))
(L (W x60 x77 xff xff x00 x01 x01 x01)))
(T (W x00 x00 x00 x00 x00 x00 x00 x00)
(L (W xff xff xff xff xc0 x00 x00 x00))
(L (W xff xff xff xff xff xff xff xff)))))
(T (W x48 x03 x00 x00 x34 x02 x00 x00)
(T (W xff xff xff xff x04 x00 x00 x00)
(T (W xc4 x00 x00 x00 x01 x00 x00 x00)
(L (W x00 x00 x00 x00 x00 x00 x00 x00))
(L (W x00 x00 x80 xbf x00 x00 x80 xbf)))
(T (W x00 x00 x00 x00 x00 x00 x00 x00)
(L (W x00 x00 x00 x00 x00 x00 x00 x00))
(L (W xff xff xff xff xff xff xff xff))))
(T (W x68 x00 x00 x00 x5c x00 x00 x00)
(T (W x4c x45 x41 x52 x45 x44 x00 x00)
(L (W x30 x34 x5f x43 x4c x45 x41 x52))
(L (W x3c x00 x40 x00 x44 x00 x48 x00)))
(T (W x68 x00 x00 x00 x5c x00 x00 x00)
(L (W xff xff xff xff xb0 x00 x00 x00)) E))))))
(T (W xff xff xff xff xff xff xff xff)
(T (W xff xff xff xff xff xff xff xff)
(T (W xff xff xff xff xff xff xff xff)
(T (W x01 x00 x00 x00 x9c x00 x00 x00)
(T (W x00 x00 x80 x3f x00 x00 x80 x3f)
(T (W x00 x00 x00 x00 x00 x00 x00 x00)
(L (W x6b x65 x5f x6d x69 x6c x64 x5f))
(L (W x00 x00 x00 x00 x00 x00 x00 x00)))
(T (W xff xff xff xff xff xff xff xff)
(L (W xff xff xff xff xff xff xff xff))
(L (W x00 x00 x00 x00 x00 x00 x00 x00))))
(T (W x00 x00 x00 x00 x00 x00 x00 x00)
(T (W x4f x84 x6f x8b xe8 xcb x63 xb7)
(L (W xff xff xff xff x8c x00 x00 x00))
(L (W x00 x00 x00 x00 x52 x72 xff xff)))
(T (W xff xff xff xff xff xff xff xff)
(L (W xff xff xff xff xff xff xff xff))
(L (W x00 x00 x10 x00 x14 x00 x18 x00)))))
(T (W x60 x83 xfc xff x00 x01 x01 x01)
(T (W x00 x00 x00 x00 x00 x00 x00 x00)
(T (W xff xff xff xff xff xff xff xff)
(L (W xff xff xff xff xff xff xff xff))
(L (W xff xff xff xff xc8 x00 x00 x00)))
(T (W x00 x00 x80 x3f x00 x00 x80 x3f)
(L (W x00 x00 x80 xbf x00 x00 x80 xbf))
(L (W x00 x00 x00 x00 x00 x00 x00 x00))))
(T (W x04 x00 x00 x00 xd2 xc8 xfe xff)
(T (W xa4 x8e xfd xff x1d x00 x00 x00)
(L (W x00 x00 x00 x00 x00 x00 x00 x00))
(L (W x00 x00 x80 xbf x00 x00 x80 xbf)))
(T (W x01 x00 x00 x00 x9c x00 x00 x00)
(L (W x00 x00 x00 x00 x00 x00 x00 x00))
(L (W x00 x00 x18 x00 x1c x00 x20 x00))))))
(T (W xb8 x00 x00 x00 xac x00 x00 x00)
(T (W xc0 x00 x00 x00 xb4 x00 x00 x00)
(T (W x00 x00 x80 x3f x00 x00 x80 x3f)
(T (W x4a x00 x00 x00 xff xff xff xff)
(L (W x00 x00 x00 x00 x00 x00 x00 x00))
(L (W x00 x00 x80 xbf x00 x00 x80 xbf)))
(T (W x30 x34 x5f x43 x4c x45 x41 x52)
(L (W x00 x00 x00 x00 x00 x00 x00 x00))
(L (W x00 x00 x80 xbf x00 x00 x80 xbf))))
(T (W x00 x00 x00 x00 x00 x00 x00 x00)
(T (W x18 x00 x00 x00 x0c x00 x00 x00)
(L (W x00 x00 x80 xbf x00 x00 x80 xbf))
(L (W x00 x00 x00 x00 x00 x00 x00 x00)))
(T (W xff xff xff xff xff xff xff xff)
(L (W x00 x00 x00 x00 x00 x00 x00 x00))
(L (W x00 x00 x00 x00 x00 x00 x00 x00)))))
(T (W x00 x00 x80 x3f x00 x00 x80 x3f)
(T (W x45 x26 x22 x84 xe4 x9c xf2 xcb)
(T (W x00 x00 x00 x00 x00 x00 x00 x00)
(L (W x5a x6b xfe xff x74 x00 x00 x00))
(L (W xff xff xff xff xff xff xff xff)))
(T (W xc4 x00 x00 x00 x01 x00 x00 x00)
(L (W xff xff xff xff xff xff xff xff))
(L (W x00 x00 x00 x00 x00 x00 x00 x00))))
(T (W x00 x00 x00 x00 x00 x00 x00 x00)
(T (W x50 x00 x00 x00 x44 x00 x00 x00)
(L (W x00 x00 x80 x3f x00 x00 x80 x3f))
(L (W x00 x00 x00 x00 x12 x00 x00 x00)))
(T (W x00 x00 x00 x00 x00 x00 x00 x00)
(L (W x00 x00 x00 x00 x00 x00 x00 x00)) E)))))
(T (W xff xff xff xff xff xff xff xff)
(T (W xff xff xff xff xff xff xff xff)
(T (W x0a x00 x00 x00 x3e x00 x00 x00)
(T (W x00 x00 x80 x3f x00 x00 x80 x3f)
(T (W xd1 x77 x16 x69 xd8 x99 xc1 xb5)
(L (W x45 x26 x22 x84 xe4 x9c xf2 xcb))
(L (W x4f x84 x6f x8b xe8 xcb x63 xb7)))
(T (W xff xff xff xff xff xff xff xff)
(L (W x67 x72 x6f x75 x70 x5f x6c x65))
(L (W x00 x00 x00 x00 x00 x00 x00 x00))))
(T (W x00 x00 x00 x00 x00 x00 x00 x00)
(T (W x00 x00 x80 x3f x00 x00 x80 x3f)
(L (W x54 x00 x00 x00 x48 x00 x00 x00))
(L (W x00 x00 x00 x00 x00 x00 x00 x00)))
(T (W xff xff xff xff xff xff xff xff)
(L (W x00 x00 x00 x00 x00 x00 x00 x00))
(L (W x03 x00 x00 x00 xc8 x00 x00 x00)))))
(T (W x00 x00 x80 x3f x00 x00 x80 x3f)
(T (W x45 x26 x22 x84 xe4 x9c xf2 xcb)
(T (W x00 x00 x00 x00 x00 x00 x00 x00)
(L (W x00 x00 x00 x00 x00 x00 x10 x00))
(L (W xff xff xff xff xff xff xff xff)))
(T (W x00 x00 x00 x00 xd8 xcc xfd xff)
(L (W x00 x00 x80 xbf x00 x00 x80 xbf))
(L (W x00 x00 x00 x00 x00 x00 x00 x00))))
(T (W x00 x00 x00 x00 x00 x00 x00 x00)
(T (W x00 x00 x00 x00 x00 x00 x00 x00)
(L (W xff xff xff xff xff xff xff xff))
(L (W x00 x00 x00 x00 x00 x00 x00 x00)))
(T (W x00 x00 x80 x3f x00 x00 x80 x3f)
(L (W x49 xa1 x68 x4a xeb x5f xdd x3d)) E))))
(T (W x45 x26 x22 x84 xe4 x9c xf2 xcb)
(T (W x5a x93 xfc xff x74 x00 x00 x00)
(T (W x45 x26 x22 x84 xe4 x9c xf2 xcb)
(T (W xff xff xff xff xff xff xff xff)
(L (W x45 x26 x22 x84 xe4 x9c xf2 xcb))
(L (W x45 x26 x22 x84 xe4 x9c xf2 xcb)))
(T (W x00 x00 x00 x00 x00 x00 x00 x00)
(L (W x00 x00 x00 x00 x00 x00 x00 x00))
(L (W x4f x84 x6f x8b xe8 xcb x63 xb7))))
(T (W x29 x00 x00 x00 x0c x00 x00 x00)
(T (W xff xff xff xff xff xff xff xff)
(L (W xff xff xff xff xff xff xff xff))
(L (W x00 x00 x00 x00 x00 x00 x00 x00)))
(T (W xb8 x00 x00 x00 xac x00 x00 x00)
(L (W x00 x00 x00 x00 x00 x00 x00 x00))
(L (W xff xff xff xff xff xff xff xff)))))
(T (W x45 x26 x22 x84 xe4 x9c xf2 xcb)
(T (W x00 x00 x80 x3f x00 x00 x80 x3f)
(T (W x00 x00 x00 x00 x00 x00 x00 x00)
(L (W x03 x00 x00 x00 xd0 x00 x00 x00))
(L (W x00 x00 x01 x01 x94 x01 x00 x00)))
(T (W xff xff xff xff xff xff xff xff)
(L (W xb8 x00 x00 x00 x1e x00 x00 x00))
(L (W xff xff xff xff xff xff xff xff))))
(T (W x00 x00 x00 x00 x00 x00 x00 x00)
(T (W x27 x00 x00 x00 x2a x00 x00 x00)
(L (W x47 x06 x12 x3a xb1 x83 x66 xe3))
(L (W x46 x53 x59 x53 x5f x4e x53 x5f)))
(T (W x00 x00 x00 x00 x00 x00 x00 x00)
(L (W x00 x00 x00 x00 x12 x00 x00 x00)) E))))))))
(T (W x18 xe4 x00 x00 xdc xe2 x00 x00)
(T (W xff xff xff xff xff xff xff xff)
(T (W x45 x26 x22 x84 xe4 x9c xf2 xcb)
(T (W x00 x00 x80 x3f x00 x00 x80 x3f)
(T (W x45 x26 x22 x84 xe4 x9c xf2 xcb)
(T (W x00 x00 x00 x00 x00 x00 x00 x00)
(T (W xff xff xff xff xff xff xff xff)
(T (W x00 x00 x80 x3f x00 x00 x80 x3f)
(L (W x45 x26 x22 x84 xe4 x9c xf2 xcb))
(L (W xac x00 x00 x00 x64 x00 x00 x00)))
(T (W x00 x00 x00 x00 x00 x00 x00 x00)
(L (W xff xff xff xff xff xff xff xff))
(L (W x14 x00 x00 x00 x0c x00 x00 x00))))
(T (W x00 x00 x80 x3f x00 x00 x80 x3f)
(T (W xff xff xff xff xa0 x00 x00 x00)
(L (W x00 x00 x00 x00 x00 x00 x00 x00))
(L (W x00 x00 x00 x00 x64 x5e xff xff)))
(T (W x00 x00 x00 x00 x00 x00 x00 x00)
(L (W x45 x26 x22 x84 xe4 x9c xf2 xcb))
(L (W x00 x00 x00 x00 x00 x00 x00 x00)))))
(T (W xff xff xff xff xff xff xff xff)
(T (W x01 x00 x00 x00 xa0 x00 x00 x00)
(T (W x00 x00 x80 x3f x00 x00 x80 x3f)
(L (W x45 x26 x22 x84 xe4 x9c xf2 xcb))
(L (W xb4 x01 x00 x00 xff xff xff xff)))
(T (W x45 x26 x22 x84 xe4 x9c xf2 xcb)
(L (W x18 x00 x00 x00 x0c x00 x00 x00))
(L (W xff xff xff xff xff xff xff xff))))
(T (W x00 x00 x80 x3f x00 x00 x80 x3f)
(T (W x00 x00 x00 x00 x00 x00 x00 x00)
(L (W x00 x00 x80 xbf x00 x00 x80 xbf))
(L (W xff xff xff xff xb0 x00 x00 x00)))
(T (W xfc x04 xfe xff x1b x00 x00 x00)
(L (W x54 x00 x00 x00 x48 x00 x00 x00))
(L (W xbc x00 x00 x00 x32 x00 x00 x00))))))
(T (W x00 x00 x00 x00 x00 x00 x00 x00)
(T (W x66 x01 x00 x00 xff xff xff xff)
(T (W x18 x00 x00 x00 x0c x00 x00 x00)
(T (W x00 x00 x80 x3f x00 x00 x80 x3f)
(L (W x68 x00 x00 x00 x5c x00 x00 x00))
(L (W xff xff xff xff xff xff xff xff)))
(T (W x00 x00 x80 x3f x00 x00 x80 x3f)
(L (W x18 x00 x00 x00 x0c x00 x00 x00))
(L (W x18 x00 x00 x00 x10 x00 x00 x00))))
(T (W x5a x06 xfd xff x74 x00 x00 x00)
(T (W xff xff xff xff xff xff xff xff)
(L (W x00 x00 x00 x00 x00 x00 x00 x00))
(L (W x00 x00 x80 xbf x00 x00 x80 xbf)))
(T (W x00 x00 x00 x00 x00 x00 x00 x00)
(L (W x6c x00 x00 x00 x60 x00 x00 x00))
(L (W x46 x53 x59 x53 x5f x4e x53 x5f)))))
(T (W x94 x01 x00 x00 xff xff xff xff)
(T (W x18 x00 x00 x00 x0c x00 x00 x00)
(T (W x68 x00 x00 x00 x5c x00 x00 x00)
(L (W x64 x5f x6c x76 x31 x00 x00 x00))
(L (W x4f x84 x6f x8b xe8 xcb x63 xb7)))
(T (W x38 x01 x00 x00 x04 x00 x00 x00)
(L (W xff xff xff xff xff xff xff xff))
(L (W x18 x00 x00 x00 x10 x00 x00 x00))))
(T (W x00 x00 x80 x3f x00 x00 x80 x3f)
(T (W xff xff xff xff x9c x00 x00 x00)
(L (W x45 x26 x22 x84 xe4 x9c xf2 xcb))
(L (W x1c x00 x00 x00 x10 x00 x00 x00)))
(T (W x50 x00 x00 x00 x44 x00 x00 x00)
(L (W x18 x00 x00 x00 x10 x00 x00 x00)) E)))))
(T (W x00 x00 x00 x00 x00 x00 x00 x00)
(T (W x45 x26 x22 x84 xe4 x9c xf2 xcb)
(T (W x64 xa3 x37 xaa xb9 xf9 x88 x76)
(T (W xff xff xff xff x04 x00 x00 x00)
(T (W x00 x00 x80 x3f x00 x00 x80 x3f)
(L (W xff xff xff xff x03 x00 x00 x00))
(L (W xa2 x2a xff xff x78 x00 x00 x00)))
(T (W x00 x00 x00 x00 x00 x00 x00 x00)
(L (W x18 x00 x00 x00 x0c x00 x00 x00))
(L (W xa2 xaa xff xff x78 x00 x00 x00))))
(T (W x68 x00 x00 x00 x5c x00 x00 x00)
(T (W xb0 x00 x00 x00 x64 x00 x00 x00)
(L (W xff xff xff xff xff xff xff xff))
(L (W x45 x26 x22 x84 xe4 x9c xf2 xcb)))
(T (W x00 x00 x00 x00 x00 x00 x00 x00)
(L (W x49 xa1 x68 x4a xeb x5f xdd x3d))
(L (W x02 x00 x00 x00 x30 x01 x00 x00)))))
(T (W xff xff xff xff xff xff xff xff)
(T (W xff xff xff xff xff xff xff xff)
(T (W x00 x00 x00 x00 x00 x00 x00 x00)
(L (W x00 x00 x00 x00 x00 x00 x00 x00))
(L (W x00 x00 x00 x00 x00 x00 x00 x00)))
(T (W xff xff xff xff xff xff xff xff)
(L (W xb8 x00 x00 x00 x1e x00 x00 x00))
(L (W xff xff xff xff xff xff xff xff))))
(T (W x50 x00 x00 x00 x44 x00 x00 x00)
(T (W x6c x00 x00 x00 x60 x00 x00 x00)
(L (W xff xff xff xff xff xff xff xff))
(L (W x14 x00 x00 x00 x0c x00 x00 x00)))
(T (W xff xff xff xff xff xff xff xff)
(L (W xa2 x0a xff xff x78 x00 x00 x00)) E))))
(T (W x00 x00 x00 x00 x00 x00 x00 x00)
(T (W xff xff xff xff xff xff xff xff)
(T (W x5a xce xfc xff x74 x00 x00 x00)
(T (W x45 x26 x22 x84 xe4 x9c xf2 xcb)
(L (W xb8 x00 x00 x00 xac x00 x00 x00))
(L (W xff xff xff xff xff xff xff xff)))
(T (W x00 x00 x80 x3f x00 x00 x80 x3f)
(L (W x00 x00 x00 x00 xd8 xb7 xfe xff))
(L (W x03 x00 x00 x00 xd0 x00 x00 x00))))
(T (W x60 xf6 xfc xff x00 x01 x01 x01)
(T (W x45 x44 x00 x00 x00 x00 x00 x00)
(L (W x00 x00 x01 x01 xd2 x01 x00 x00))
(L (W x00 x00 x80 xbf x00 x00 x80 xbf)))
(T (W x00 x00 x00 x00 x00 x00 x00 x00)
(L (W x45 x26 x22 x84 xe4 x9c xf2 xcb))
(L (W xff xff xff xff xc0 x00 x00 x00)))))
(T (W xff xff xff xff xff xff xff xff)
(T (W x5a xee xfc xff x74 x00 x00 x00)
(T (W x00 x00 x80 x3f x00 x00 x80 x3f)
(L (W x75 x43 x54 x1d xca xa4 x99 xfd))
(L (W x45 x26 x22 x84 xe4 x9c xf2 xcb)))
(T (W x46 x53 x59 x53 x5f x4e x53 x5f)
(L (W x46 x53 x59 x53 x5f x4e x53 x5f))
(L (W x50 x00 x00 x00 x44 x00 x00 x00))))
(T (W x00 x00 x80 x3f x00 x00 x80 x3f)
(T (W x01 x00 x00 x00 xff xff xff xff)
(L (W xff xff xff xff xff xff xff xff))
(L (W x00 x00 x00 x00 xd8 x97 xff xff)))
(T (W x50 x00 x00 x00 x44 x00 x00 x00)
(L (W x1c x00 x00 x00 x10 x00 x00 x00)) E))))))
(T (W xb8 x00 x00 x00 xac x00 x00 x00)
(T (W xff xff xff xff xff xff xff xff)
(T (W xb8 x00 x00 x00 xac x00 x00 x00)
(T (W x45 x26 x22 x84 xe4 x9c xf2 xcb)
(T (W x45 x26 x22 x84 xe4 x9c xf2 xcb)
(T (W x0a xd7 xfe xff x00 x00 x01 x01)
(L (W xff xff xff xff xff xff xff xff))
(L (W x46 x53 x59 x53 x5f x4e x53 x5f)))
(T (W x18 x00 x00 x00 x0c x00 x00 x00)
(L (W xff xff xff xff xa0 x00 x00 x00))
(L (W xff xff xff xff xff xff xff xff))))
(T (W x00 x00 x00 x00 x00 x00 x00 x00)
(T (W x00 x00 x00 x00 x00 x00 x00 x00)
(L (W x00 x00 x00 x00 x64 x62 xfe xff))
(L (W xff xff xff xff xff xff xff xff)))
(T (W xff xff xff xff xff xff xff xff)
(L (W xbc x00 x00 x00 x64 x00 x00 x00))
(L (W xff xff xff xff xbc x00 x00 x00)))))
(T (W x00 x00 x80 x3f x00 x00 x80 x3f)
(T (W x00 x00 x00 x00 x00 x00 x00 x00)
(T (W xff xff xff xff xff xff xff xff)
(L (W xff xff xff xff xff xff xff xff))
(L (W x45 x26 x22 x84 xe4 x9c xf2 xcb)))
(T (W x00 x00 x00 x00 x00 x00 x00 x00)
(L (W x00 x00 x00 x00 x00 x00 x00 x00))
(L (W x45 x44 x00 x00 x00 x00 x00 x00))))
(T (W xff xff xff xff xff xff xff xff)
(T (W xff xff xff xff xff xff xff xff)
(L (W x00 x00 x00 x00 x00 x00 x00 x00))
(L (W x00 x00 x00 x00 x00 x00 x00 x00)))
(T (W x00 x00 x80 x3f x00 x00 x80 x3f)
(L (W x46 x53 x59 x53 x5f x4e x53 x5f))
(L (W x00 x00 x10 x00 x14 x00 x18 x00))))))
(T (W x68 x00 x00 x00 x5c x00 x00 x00)
(T (W x00 x00 x80 x3f x00 x00 x80 x3f)
(T (W x00 x00 x00 x00 x00 x00 x00 x00)
(T (W xff xff xff xff xff xff xff xff)
(L (W x00 x00 x00 x00 x00 x00 x00 x00))
(L (W x00 x00 x80 xbf x00 x00 x80 xbf)))
(T (W xff xff xff xff xff xff xff xff)
(L (W x00 x00 x00 x00 x00 x00 x00 x00))
(L (W x00 x00 x00 x00 x00 x00 x00 x00))))
(T (W x0a xa7 xfe xff x00 x00 x01 x01)
(T (W x00 x00 x80 x3f x00 x00 x80 x3f)
(L (W x00 x00 x80 xbf x00 x00 x80 xbf))
(L (W xff xff xff xff xff xff xff xff)))
(T (W xb8 x00 x00 x00 xac x00 x00 x00)
(L (W xff xff xff xff x01 x00 x00 x00))
(L (W x00 x00 x00 x00 x00 x00 x00 x00)))))
(T (W x00 x00 x00 x00 x00 x00 x00 x00)
(T (W x00 x00 x00 x00 x00 x00 x00 x00)
(T (W x04 x00 x00 x00 x6c x03 x00 x00)
(L (W x00 x00 x80 xbf x00 x00 x80 xbf))
(L (W xc4 x00 x00 x00 x02 x00 x00 x00)))
(T (W x50 x00 x00 x00 x44 x00 x00 x00)
(L (W x00 x00 x80 xbf x00 x00 x80 xbf))
(L (W x54 x02 x00 x00 x38 x01 x00 x00))))
(T (W x69 x77 x79 xba x1f xca x8b xa1)
(T (W x00 x00 x80 x3f x00 x00 x80 x3f)
(L (W x30 x34 x5f x43 x4c x45 x41 x52))
(L (W x00 x00 x00 x00 xb2 x98 xff xff)))
(T (W x9a xc5 xff xff xd8 x00 x00 x00)
(L (W x30 x34 x5f x43 x4c x45 x41 x52)) E)))))
(T (W xff xff xff xff xff xff xff xff)
(T (W x45 x26 x22 x84 xe4 x9c xf2 xcb)
(T (W x18 x00 x00 x00 x0c x00 x00 x00)
(T (W x00 x00 x80 x3f x00 x00 x80 x3f)
(T (W xff xff xff xff xff xff xff xff)
(L (W x00 x00 x00 x00 x00 x00 x00 x00))
(L (W x00 x00 x00 x00 x00 x00 x00 x00)))
(T (W xff xff xff xff xff xff xff xff)
(L (W xff xff xff xff xff xff xff xff))
(L (W x1d x00 x00 x00 x0c x00 x00 x00))))
(T (W x40 x00 x00 x00 x10 x00 x00 x00)
(T (W x49 xa1 x68 x4a xeb x5f xdd x3d)
(L (W x00 x00 x80 xbf x00 x00 x80 xbf))
(L (W xff xff xff xff xff xff xff xff)))
(T (W xb8 x00 x00 x00 xac x00 x00 x00)
(L (W xff xff xff xff xff xff xff xff))
(L (W xa4 x00 x00 x00 x64 x00 x00 x00)))))
(T (W x45 x26 x22 x84 xe4 x9c xf2 xcb)
(T (W x00 x00 x00 x00 x00 x00 x00 x00)
(T (W x00 x00 x00 x00 x00 x00 x00 x00)
(L (W x5a x62 xfe xff x74 x00 x00 x00))
(L (W xbc x00 x00 x00 x64 x00 x00 x00)))
(T (W x00 x00 x80 x3f x00 x00 x80 x3f)
(L (W x00 x00 x80 xbf x00 x00 x80 xbf))
(L (W x00 x00 x00 x00 x00 x00 x00 x00))))
(T (W x00 x00 x60 x00 x00 x00 x00 x00)
(T (W x00 x00 x00 x00 x00 x00 x00 x00)
(L (W xff xff xff xff xff xff xff xff))
(L (W x45 x44 x00 x00 x00 x00 x00 x00)))
(T (W x00 x00 x80 x3f x00 x00 x80 x3f)
(L (W x18 x00 x00 x00 x0c x00 x00 x00)) E))))
(T (W x60 x5a xfc xff x00 x01 x01 x01)
(T (W x54 x00 x00 x00 x48 x00 x00 x00)
(T (W x00 x00 x00 x00 x00 x00 x00 x00)
(T (W xb8 x00 x00 x00 xac x00 x00 x00)
(L (W x00 x00 x00 x00 x00 x00 x00 x00))
(L (W x00 x00 x80 xbf x00 x00 x80 xbf)))
(T (W x00 x00 x00 x00 x00 x00 x00 x00)
(L (W x45 x44 x00 x00 x00 x00 x00 x00))
(L (W x00 x00 x00 x00 x00 x00 x00 x00))))
(T (W xff xff xff xff xff xff xff xff)
(T (W xff xff xff xff xb0 x00 x00 x00)
(L (W xff xff xff xff x9c x00 x00 x00))
(L (W x00 x00 x00 x00 x00 x00 x00 x00)))
(T (W x01 x00 x00 x00 x9c x00 x00 x00)
(L (W xa4 x05 xff xff x27 x00 x00 x00))
(L (W x03 x00 x00 x00 xd8 x00 x00 x00)))))
(T (W x45 x26 x22 x84 xe4 x9c xf2 xcb)
(T (W x00 x00 x00 x00 x00 x00 x00 x00)
(T (W x00 x00 x00 x00 x00 x00 x00 x00)
(L (W x18 x00 x00 x00 x10 x00 x00 x00))
(L (W xff xff xff xff xff xff xff xff)))
(T (W xff xff xff xff xff xff xff xff)
(L (W x60 xda xfe xff x00 x01 x01 x01))
(L (W x18 x00 x00 x00 x0c x00 x00 x00))))
(T (W x5d x00 x00 x00 xff xff xff xff)
(T (W x00 x00 x80 x3f x00 x00 x80 x3f)
(L (W xff xff xff xff xff xff xff xff))
(L (W x65 x6c x70 x00 x3a x9b xff xff)))
(T (W xc8 x00 x00 x00 xff xff xff xff)
(L (W x00 x00 x00 x00 xb2 x20 xff xff)) E)))))))
(T (W xa4 x2f xfc xff x3e x00 x00 x00)
(T (W x45 x26 x22 x84 xe4 x9c xf2 xcb)
(T (W x18 x00 x00 x00 x0c x00 x00 x00)
(T (W x00 x00 x80 x3f x00 x00 x80 x3f)
(T (W x45 x26 x22 x84 xe4 x9c xf2 xcb)
(T (W x24 x00 x00 x00 x10 x00 x00 x00)
(T (W x45 x26 x22 x84 xe4 x9c xf2 xcb)
(L (W x68 x00 x00 x00 x5c x00 x00 x00))
(L (W xff xff xff xff xff xff xff xff)))
(T (W x00 x00 x80 x3f x00 x00 x80 x3f)
(L (W x00 x00 x00 x00 x00 x00 x00 x00))
(L (W xff xff xff xff xff xff xff xff))))
(T (W xff xff xff xff xff xff xff xff)
(T (W xff xff xff xff xff xff xff xff)
(L (W x00 x00 x80 xbf x00 x00 x80 xbf))
(L (W x03 x00 x00 x00 xd0 x00 x00 x00)))
(T (W x50 x00 x00 x00 x44 x00 x00 x00)
(L (W x00 x00 x80 xbf x00 x00 x80 xbf))
(L (W x00 x00 x80 xbf x00 x00 x80 xbf)))))
(T (W x00 x00 x00 x00 x00 x00 x00 x00)
(T (W xff xff xff xff xff xff xff xff)
(T (W x00 x00 x00 x00 x00 x00 x10 x00)
(L (W x68 x00 x00 x00 x5c x00 x00 x00))
(L (W x00 x00 x00 x00 x00 x00 x00 x00)))
(T (W x9d x01 x00 x00 xff xff xff xff)
(L (W xff xff xff xff xff xff xff xff))
(L (W xff xff xff xff xff xff xff xff))))
(T (W xc0 x00 x00 x00 xb4 x00 x00 x00)
(T (W x50 x00 x00 x00 x44 x00 x00 x00)
(L (W xff xff xff xff xff xff xff xff))
(L (W xff xff xff xff xff xff xff xff)))
(T (W x00 x00 x00 x00 x00 x00 x00 x00)
(L (W xb0 x00 x00 x00 x64 x00 x00 x00))
(L (W x4f x84 x6f x8b xe8 xcb x63 xb7))))))
(T (W x00 x00 x80 x3f x00 x00 x80 x3f)
(T (W x00 x00 x00 x00 x00 x00 x00 x00)
(T (W x1c x01 x00 x00 x04 x00 x00 x00)
(T (W x60 x30 xfd xff x00 x01 x01 x01)
(L (W xff xff xff xff xff xff xff xff))
(L (W x00 x00 x00 x00 xaa x2f xff xff)))
(T (W x45 x26 x22 x84 xe4 x9c xf2 xcb)
(L (W xff xff xff xff xff xff xff xff))
(L (W xff xff xff xff xff xff xff xff))))
(T (W x18 x00 x00 x00 x10 x00 x00 x00)
(T (W x00 x00 x00 x00 x00 x00 x00 x00)
(L (W x00 x00 x00 x00 x00 x00 x00 x00))
(L (W xff xff xff xff xff xff xff xff)))
(T (W x00 x00 x80 x3f x00 x00 x80 x3f)
(L (W xff xff xff xff xbc x00 x00 x00))
(L (W x45 x26 x22 x84 xe4 x9c xf2 xcb)))))
(T (W x00 x00 x00 x00 x00 x00 x00 x00)
(T (W xff xff xff xff xff xff xff xff)
(T (W x03 x00 x00 x00 xcc x00 x00 x00)
(L (W x74 x00 x09 x00 x0a x00 x0b x00))
(L (W x00 x00 x80 xbf x00 x00 x80 xbf)))
(T (W x45 x26 x22 x84 xe4 x9c xf2 xcb)
(L (W x00 x00 x00 x00 x00 x00 x00 x00))
(L (W x49 xa1 x68 x4a xeb x5f xdd x3d))))
(T (W xff xff xff xff xff xff xff xff)
(T (W x00 x00 x00 x00 xaa x8f xfd xff)
(L (W xff xff xff xff xa0 x00 x00 x00))
(L (W xff xff xff xff xff xff xff xff)))
(T (W xff xff xff xff xff xff xff xff)
(L (W xff xff xff xff xff xff xff xff)) E)))))
(T (W x00 x00 x80 x3f x00 x00 x80 x3f)
(T (W x00 x00 x80 x3f x00 x00 x80 x3f)
(T (W x00 x00 x80 x3f x00 x00 x80 x3f)
(T (W x00 x00 x00 x00 xaa x69 xff xff)
(T (W x68 x00 x00 x00 x5c x00 x00 x00)
(L (W x81 x00 x00 x00 xff xff xff xff))
(L (W xff xff xff xff xff xff xff xff)))
(T (W x00 x00 x80 x3f x00 x00 x80 x3f)
(L (W x00 x00 x00 x00 x00 x00 x00 x00))
(L (W xff xff xff xff xff xff xff xff))))
(T (W xff xff xff xff x04 x00 x00 x00)
(T (W x00 x00 x00 x00 x00 x00 x00 x00)
(L (W x00 x00 x00 x00 x00 x00 x00 x00))
(L (W x68 x00 x00 x00 x5c x00 x00 x00)))
(T (W x00 x00 x80 x3f x00 x00 x80 x3f)
(L (W xff xff xff xff xb0 x00 x00 x00))
(L (W x00 x00 x80 xbf x00 x00 x80 xbf)))))
(T (W x00 x00 x00 x00 x00 x00 x00 x00)
(T (W x48 x03 x00 x00 x34 x02 x00 x00)
(T (W x45 x26 x22 x84 xe4 x9c xf2 xcb)
(L (W x00 x00 x80 x3f x00 x00 x80 x3f))
(L (W x00 x00 x80 xbf x00 x00 x80 xbf)))
(T (W x00 x00 x00 x00 x00 x00 x00 x00)
(L (W x00 x00 x00 x00 x00 x00 x00 x00))
(L (W xff xff xff xff xff xff xff xff))))
(T (W x3e x00 x00 x00 x10 x00 x00 x00)
(T (W xff xff xff xff xff xff xff xff)
(L (W x00 x00 x00 x00 x00 x00 x00 x00))
(L (W xff xff xff xff xff xff xff xff)))
(T (W x00 x00 x00 x00 x00 x00 x00 x00)
(L (W xff xff xff xff xff xff xff xff)) E))))
(T (W x00 x00 x80 x3f x00 x00 x80 x3f)
(T (W x00 x00 x00 x00 x00 x00 x00 x00)
(T (W xff xff xff xff xff xff xff xff)
(T (W x45 x26 x22 x84 xe4 x9c xf2 xcb)
(L (W xff xff xff xff xff xff xff xff))
(L (W x00 x00 x00 x00 x00 x00 x00 x00)))
(T (W xff xff xff xff xff xff xff xff)
(L (W xff xff xff xff xff xff xff xff))
(L (W x04 x00 x00 x00 x58 x03 x00 x00))))
(T (W xb8 x00 x00 x00 xac x00 x00 x00)
(T (W x00 x00 x80 x3f x00 x00 x80 x3f)
(L (W x45 x26 x22 x84 xe4 x9c xf2 xcb))
(L (W xb0 x00 x00 x00 x64 x00 x00 x00)))
(T (W x00 x00 x80 x3f x00 x00 x80 x3f)
(L (W xff xff xff xff xff xff xff xff))
(L (W xff xff xff xff xff xff xff xff)))))
(T (W x00 x00 x00 x00 x00 x00 x00 x00)
(T (W xff xff xff xff xff xff xff xff)
(T (W xff xff xff xff xff xff xff xff)
(L (W x45 x26 x22 x84 xe4 x9c xf2 xcb))
(L (W x50 x00 x00 x00 x44 x00 x00 x00)))
(T (W x00 x00 x80 x3f x00 x00 x80 x3f)
(L (W x00 x00 x80 xbf x00 x00 x80 xbf))
(L (W x00 x00 x00 x00 x00 x00 x00 x00))))
(T (W xb8 x00 x00 x00 xac x00 x00 x00)
(T (W x00 x00 x00 x00 x00 x00 x00 x00)
(L (W x00 x00 x80 x3f x00 x00 x80 x3f))
(L (W x49 xa1 x68 x4a xeb x5f xdd x3d)))
(T (W xff xff xff xff x03 x00 x00 x00)
(L (W xff xff xff xff xff xff xff xff)) E))))))
(T (W x27 x3d x7f xc3 xba xf0 x85 xe3)
(T (W xdf x01 x00 x00 xff xff xff xff)
(T (W xc2 x01 x00 x00 xff xff xff xff)
(T (W xb8 x00 x00 x00 xac x00 x00 x00)
(T (W x00 x00 x80 x3f x00 x00 x80 x3f)
(T (W x00 x00 x00 x00 x00 x00 x00 x00)
(L (W x45 x26 x22 x84 xe4 x9c xf2 xcb))
(L (W x00 x00 x80 xbf x00 x00 x80 xbf)))
(T (W x00 x00 x01 x01 xa5 x01 x00 x00)
(L (W x45 x44 x00 x00 x00 x00 x00 x00))
(L (W x00 x00 x00 x00 x00 x00 x00 x00))))
(T (W x00 x00 x80 x3f x00 x00 x80 x3f)
(T (W x00 x00 x80 x3f x00 x00 x80 x3f)
(L (W xff xff xff xff xff xff xff xff))
(L (W x00 x00 x00 x00 xb2 x6a xff xff)))
(T (W x9a x97 xff xff xdf x01 x00 x00)
(L (W x6f x00 x00 x00 xff xff xff xff))
(L (W x00 x00 x80 xbf x00 x00 x80 xbf)))))
(T (W x18 x00 x00 x00 x10 x00 x00 x00)
(T (W x00 x00 x80 x3f x00 x00 x80 x3f)
(T (W xff xff xff xff xff xff xff xff)
(L (W x0a xf9 xff xff x00 x00 x01 x01))
(L (W xff xff xff xff xff xff xff xff)))
(T (W x00 x00 x80 x3f x00 x00 x80 x3f)
(L (W x00 x00 x80 xbf x00 x00 x80 xbf))
(L (W x00 x00 x00 x00 x00 x00 x00 x00))))
(T (W x00 x00 x00 x00 x00 x00 x00 x00)
(T (W x00 x00 x00 x00 x00 x00 x00 x00)
(L (W x00 x00 x80 xbf x00 x00 x80 xbf))
(L (W x54 x00 x00 x00 x48 x00 x00 x00)))
(T (W xb8 x00 x00 x00 xac x00 x00 x00)
(L (W x00 x00 x80 xbf x00 x00 x80 xbf))
(L (W x00 x00 x00 x00 x00 x00 x00 x00))))))
(T (W xff xff xff xff xff xff xff xff)
(T (W xff xff xff xff xff xff xff xff)
(T (W x00 x00 x80 x3f x00 x00 x80 x3f)
(T (W x00 x00 x00 x00 x00 x00 x00 x00)
(L (W x45 x26 x22 x84 xe4 x9c xf2 xcb))
(L (W xa2 x38 xff xff x78 x00 x00 x00)))
(T (W x00 x00 x00 x00 x00 x00 x00 x00)
(L (W x00 x00 x80 x3f x00 x00 x80 x3f))
(L (W x00 x00 x80 xbf x00 x00 x80 xbf))))
(T (W x45 x26 x22 x84 xe4 x9c xf2 xcb)
(T (W xff xff xff xff xff xff xff xff)
(L (W x4c xeb xff xff x01 x01 x01 x01))
(L (W x00 x00 x00 x00 x00 x00 x00 x00)))
(T (W xff xff xff xff xff xff xff xff)
(L (W x4f x84 x6f x8b xe8 xcb x63 xb7))
(L (W x00 x00 x80 xbf x00 x00 x80 xbf)))))
(T (W x5a xac xfc xff x74 x00 x00 x00)
(T (W x00 x00 x80 x3f x00 x00 x80 x3f)
(T (W x45 x26 x22 x84 xe4 x9c xf2 xcb)
(L (W xff xff xff xff xff xff xff xff))
(L (W x54 x02 x00 x00 x38 x01 x00 x00)))
(T (W xff xff xff xff xff xff xff xff)
(L (W xff xff xff xff xff xff xff xff))
(L (W x45 x26 x22 x84 xe4 x9c xf2 xcb))))
(T (W x45 x26 x22 x84 xe4 x9c xf2 xcb)
(T (W x60 x94 xfd xff x00 x01 x01 x01)
(L (W xff xff xff xff xff xff xff xff))
(L (W x45 x26 x22 x84 xe4 x9c xf2 xcb)))
(T (W x00 x00 x00 x00 x00 x00 x00 x00)
(L (W x54 x00 x00 x00 x48 x00 x00 x00)) E)))))
(T (W x70 x0d x1a x77 xa4 x87 x95 x1f)
(T (W x0a x01 xfe xff x00 x00 x01 x01)
(T (W xff xff xff xff xff xff xff xff)
(T (W x00 x00 x80 x3f x00 x00 x80 x3f)
(T (W x00 x00 x00 x00 x00 x00 x00 x00)
(L (W x45 x26 x22 x84 xe4 x9c xf2 xcb))
(L (W x00 x00 x80 xbf x00 x00 x80 xbf)))
(T (W x00 x00 x00 x00 x00 x00 x00 x00)
(L (W x00 x00 x00 x00 x00 x00 x00 x00))
(L (W x45 x26 x22 x84 xe4 x9c xf2 xcb))))
(T (W x00 x00 x00 x00 x00 x00 x00 x00)
(T (W x45 x26 x22 x84 xe4 x9c xf2 xcb)
(L (W x45 x26 x22 x84 xe4 x9c xf2 xcb))
(L (W x00 x00 x00 x00 x00 x00 x00 x00)))
(T (W xfc xf2 xfd xff x1f x00 x00 x00)
(L (W x00 x00 x00 x00 x00 x00 x00 x00))
(L (W xff xff xff xff xff xff xff xff)))))
(T (W x01 x00 x00 x00 xa0 x00 x00 x00)
(T (W x45 x26 x22 x84 xe4 x9c xf2 xcb)
(T (W x00 x00 x00 x00 x00 x00 x00 x00)
(L (W x00 x00 x80 x3f x00 x00 x80 x3f))
(L (W xff xff xff xff xff xff xff xff)))
(T (W xff xff xff xff xac x00 x00 x00)
(L (W x18 x00 x00 x00 x0c x00 x00 x00))
(L (W x45 x26 x22 x84 xe4 x9c xf2 xcb))))
(T (W x00 x00 x00 x00 x00 x00 x00 x00)
(T (W x00 x00 x80 x3f x00 x00 x80 x3f)
(L (W x00 x00 x00 x00 xb2 x92 xfe xff))
(L (W x54 x00 x00 x00 x48 x00 x00 x00)))
(T (W x00 x00 x07 x00 x60 x00 x64 x00)
(L (W x00 x00 x80 xbf x00 x00 x80 xbf)) E))))
(T (W xff xff xff xff xff xff xff xff)
(T (W xff xff xff xff xff xff xff xff)
(T (W x68 x00 x00 x00 x5c x00 x00 x00)
(T (W x8a x02 xb4 x3d xd8 x37 x58 xd6)
(L (W x00 x00 x58 x00 x00 x00 x00 x00))
(L (W xff xff xff xff xc8 x00 x00 x00)))
(T (W x00 x00 x80 x3f x00 x00 x80 x3f)
(L (W x4f x84 x6f x8b xe8 xcb x63 xb7))
(L (W x00 x00 x80 xbf x00 x00 x80 xbf))))
(T (W x00 x00 x00 x00 x00 x00 x00 x00)
(T (W x00 x00 x01 x01 x2b x01 x00 x00)
(L (W x05 x65 x6c x12 x83 xf5 x3a xc6))
(L (W x49 xa1 x68 x4a xeb x5f xdd x3d)))
(T (W xff xff xff xff xff xff xff xff)
(L (W x45 x26 x22 x84 xe4 x9c xf2 xcb))
(L (W x00 x00 x00 x00 x00 x00 x00 x00)))))
(T (W x00 x00 x80 x3f x00 x00 x80 x3f)
(T (W x00 x00 x80 x3f x00 x00 x80 x3f)
(T (W x00 x00 x80 x3f x00 x00 x80 x3f)
(L (W xff xff xff xff xff xff xff xff))
(L (W x46 x53 x59 x53 x5f x4e x53 x5f)))
(T (W x00 x00 x00 x00 x00 x00 x00 x00)
(L (W x04 x00 x00 x00 xb2 xe2 xfe xff))
(L (W x04 x00 x00 x00 x3a xdd xff xff))))
(T (W x45 x26 x22 x84 xe4 x9c xf2 xcb)
(T (W xff xff xff xff xff xff xff xff)
(L (W x4f x84 x6f x8b xe8 xcb x63 xb7))
(L (W x00 x00 x00 x00 x00 x00 x00 x00)))
(T (W x00 x00 x00 x00 x00 x00 x00 x00)
(L (W x45 x26 x22 x84 xe4 x9c xf2 xcb)) E))))))))))
(T (W x78 x18 x03 x00 xcc x13 x03 x00)
(T (W x48 x64 x02 x00 x0c x63 x02 x00)
(T (W x40 xcd x01 x00 xc4 xca x01 x00)
(T (W x20 x76 x00 x00 xd4 x73 x00 x00)
(T (W x00 x00 x80 x3f x00 x00 x80 x3f)
(T (W x00 x00 x80 x3f x00 x00 x80 x3f)
(T (W x00 x00 x80 x3f x00 x00 x80 x3f)
(T (W x00 x00 x00 x00 x00 x00 x00 x00)
(T (W xff xff xff xff xff xff xff xff)
(T (W x00 x00 x00 x00 x98 x1e xfd xff)
(L (W x50 x00 x00 x00 x44 x00 x00 x00))
(L (W xff xff xff xff xff xff xff xff)))
(T (W x00 x00 x00 x00 x00 x00 x00 x00)
(L (W xff xff xff xff xff xff xff xff))
(L (W x03 x00 x00 x00 xd0 x00 x00 x00))))
(T (W x01 x00 x00 x00 x9c x00 x00 x00)
(T (W xb0 x00 x00 x00 x64 x00 x00 x00)
(L (W x00 x00 x00 x00 x00 x00 x00 x00))
(L (W x00 x00 x80 xbf x00 x00 x80 xbf)))
(T (W x00 x00 x80 x3f x00 x00 x80 x3f)
(L (W x00 x00 x80 xbf x00 x00 x80 xbf))
(L (W x00 x00 x80 xbf x00 x00 x80 xbf)))))
(T (W x00 x00 x00 x00 x00 x00 x00 x00)
(T (W xff xff xff xff xff xff xff xff)
(T (W x00 x00 x80 x3f x00 x00 x80 x3f)
(L (W x00 x00 x80 x3f x00 x00 x80 x3f))
(L (W x00 x00 x00 x00 x00 x00 x00 x00)))
(T (W xff xff xff xff xc4 x00 x00 x00)
(L (W x45 x26 x22 x84 xe4 x9c xf2 xcb))
(L (W xff xff xff xff xff xff xff xff))))
(T (W x20 xfd xfc xff x00 x01 x01 x01)
(T (W x49 xa1 x68 x4a xeb x5f xdd x3d)
(L (W x00 x00 x80 xbf x00 x00 x80 xbf))
(L (W x18 x00 x00 x00 x10 x00 x00 x00)))
(T (W x00 x00 x00 x00 x00 x00 x00 x00)
(L (W x45 x26 x22 x84 xe4 x9c xf2 xcb))
(L (W x44 x00 x00 x00 x00 x00 x80 xbf))))))
(T (W x45 x26 x22 x84 xe4 x9c xf2 xcb)
(T (W x00 x00 x00 x00 x00 x00 x00 x00)
(T (W xb8 x00 x00 x00 xac x00 x00 x00)
(T (W x00 x00 x80 x3f x00 x00 x80 x3f)
(L (W xff xff xff xff x03 x00 x00 x00))
(L (W xff xff xff xff xff xff xff xff)))
(T (W x00 x00 x80 x3f x00 x00 x80 x3f)
(L (W x62 xb1 xfe xff x78 x00 x00 x00))
(L (W xff xff xff xff xff xff xff xff))))
(T (W xc0 x00 x00 x00 xb4 x00 x00 x00)
(T (W x4b x00 x00 x00 xff xff xff xff)
(L (W x06 x00 x00 x00 xa8 x05 x00 x00))
(L (W x6c x00 x00 x00 x60 x00 x00 x00)))
(T (W x00 x00 x80 x3f x00 x00 x80 x3f)
(L (W x45 x26 x22 x84 xe4 x9c xf2 xcb))
(L (W x00 x00 x00 x00 x00 x00 x00 x00)))))
(T (W x94 x01 x00 x00 xff xff xff xff)
(T (W xb8 x00 x00 x00 xac x00 x00 x00)
(T (W x68 x00 x00 x00 x5c x00 x00 x00)
(L (W x00 x00 x00 x00 x58 x00 x5c x00))
(L (W x00 x00 x00 x00 x00 x00 x00 x00)))
(T (W x00 x00 x00 x00 x00 x00 x00 x00)
(L (W x00 x00 x00 x00 x6a xcc xfe xff))
(L (W xff xff xff xff xff xff xff xff))))
(T (W x50 x00 x00 x00 x44 x00 x00 x00)
(T (W xff xff xff xff xff xff xff xff)
(L (W x00 x00 x80 x3f x00 x00 x80 x3f))
(L (W xff xff xff xff xff xff xff xff)))
(T (W x00 x00 x80 x3f x00 x00 x80 x3f)
(L (W xff xff xff xff xff xff xff xff)) E)))))
(T (W x45 x26 x22 x84 xe4 x9c xf2 xcb)
(T (W x45 x26 x22 x84 xe4 x9c xf2 xcb)
(T (W x64 x70 xfc xff x3e x00 x00 x00)
(T (W xff xff xff xff xff xff xff xff)
(T (W x45 x26 x22 x84 xe4 x9c xf2 xcb)
(L (W x1a x3d xfe xff x74 x00 x00 x00))
(L (W x27 x00 x00 x00 x2a x00 x00 x00)))
(T (W x00 x00 x80 x3f x00 x00 x80 x3f)
(L (W x00 x00 x80 x3f x00 x00 x80 x3f))
(L (W x68 x00 x00 x00 x5c x00 x00 x00))))
(T (W x0a x00 x00 x00 x3e x00 x00 x00)
(T (W xff xff xff xff xff xff xff xff)
(L (W x00 x00 x00 x00 x12 x00 x00 x00))
(L (W x00 x00 x80 xbf x00 x00 x80 xbf)))
(T (W x45 x26 x22 x84 xe4 x9c xf2 xcb)
(L (W x45 x26 x22 x84 xe4 x9c xf2 xcb))
(L (W x00 x00 x00 x00 x00 x00 x00 x00)))))
(T (W x22 x00 x31 x12 x24 x27 xa3 xab)
(T (W xff xff xff xff xff xff xff xff)
(T (W x00 x00 x00 x00 x00 x00 x00 x00)
(L (W x45 x26 x22 x84 xe4 x9c xf2 xcb))
(L (W x00 x00 x00 x00 x00 x00 x00 x00)))
(T (W xff xff xff xff xff xff xff xff)
(L (W xff xff xff xff xff xff xff xff))
(L (W x00 x00 x00 x00 x3c xc0 xff xff))))
(T (W x68 x00 x00 x00 x5c x00 x00 x00)
(T (W x1a x9d xfd xff x74 x00 x00 x00)
(L (W xff xff xff xff xff xff xff xff))
(L (W xff xff xff xff xff xff xff xff)))
(T (W xbc x0b xfe xff x32 x00 x00 x00)
(L (W xff xff xff xff xa0 x00 x00 x00))
(L (W x68 x00 x00 x00 x5c x00 x00 x00))))))
(T (W x00 x00 x00 x00 x00 x00 x00 x00)
(T (W x00 x00 x00 x00 x00 x00 x00 x00)
(T (W xff xff xff xff xff xff xff xff)
(T (W x00 x00 x80 x3f x00 x00 x80 x3f)
(L (W x68 x00 x00 x00 x5c x00 x00 x00))
(L (W xff xff xff xff xff xff xff xff)))
(T (W x6c x00 x00 x00 x60 x00 x00 x00)
(L (W xff xff xff xff xb0 x00 x00 x00))
(L (W xff xff xff xff xff xff xff xff))))
(T (W x1a x0d xfd xff x74 x00 x00 x00)
(T (W x00 x00 x00 x00 x00 x00 x00 x00)
(L (W x04 x00 x00 x00 xfa x75 xfe xff))
(L (W x54 x00 x00 x00 x48 x00 x00 x00)))
(T (W x00 x00 x00 x00 x00 x00 x00 x00)
(L (W x45 x26 x22 x84 xe4 x9c xf2 xcb))
(L (W xff xff xff xff xff xff xff xff)))))
(T (W xca x49 xfe xff x00 x00 x01 x01)
(T (W x45 x26 x22 x84 xe4 x9c xf2 xcb)
(T (W x20 x55 xfd xff x00 x01 x01 x01)
(L (W x30 x34 x5f x43 x4c x45 x41 x52))
(L (W x00 x00 x80 xbf x00 x00 x80 xbf)))
(T (W x00 x00 x00 x00 x00 x00 x00 x00)
(L (W x00 x00 x00 x00 x00 x00 x00 x00))
(L (W x45 x26 x22 x84 xe4 x9c xf2 xcb))))
(T (W x1a x2d xfd xff x74 x00 x00 x00)
(T (W xff xff xff xff xff xff xff xff)
(L (W x30 x34 x5f x43 x4c x45 x41 x52))
(L (W xc4 x00 x00 x00 x01 x00 x00 x00)))
(T (W x68 x00 x00 x00 x5c x00 x00 x00)
(L (W xff xff xff xff xff xff xff xff)) E))))))
(T (W xff xff xff xff xff xff xff xff)
(T (W xff xff xff xff xff xff xff xff)
(T (W xff xff xff xff xff xff xff xff)
(T (W xff xff xff xff xff xff xff xff)
(T (W x00 x00 x80 x3f x00 x00 x80 x3f)
(T (W x01 x00 x00 x00 x04 x00 x00 x00)
(L (W xb9 x00 x00 x00 xff xff xff xff))
(L (W x00 x00 x00 x00 x00 x00 x00 x00)))
(T (W xff xff xff xff xff xff xff xff)
(L (W x54 x00 x00 x00 x48 x00 x00 x00))
(L (W x00 x00 x00 x00 x72 xa7 xff xff))))
(T (W x00 x00 x00 x00 x00 x00 x00 x00)
(T (W x00 x00 x00 x00 x00 x00 x00 x00)
(L (W xff xff xff xff xff xff xff xff))
(L (W x45 x44 x00 x00 x00 x00 x00 x00)))
(T (W xff xff xff xff xff xff xff xff)
(L (W xff xff xff xff xff xff xff xff))
(L (W xff xff xff xff xff xff xff xff)))))
(T (W x00 x00 x80 x3f x00 x00 x80 x3f)
(T (W x00 x00 x00 x00 x00 x00 x00 x00)
(T (W x18 x00 x00 x00 x0c x00 x00 x00)
(L (W xff xff xff xff xff xff xff xff))
(L (W x00 x00 x00 x00 x98 x42 xff xff)))
(T (W x00 x00 x80 x3f x00 x00 x80 x3f)
(L (W x00 x00 x00 x00 x00 x00 x00 x00))
(L (W x00 x00 x00 x00 x00 x00 x00 x00))))
(T (W x00 x00 x00 x00 x00 x00 x00 x00)
(T (W x02 x00 x00 x00 x30 x01 x00 x00)
(L (W x00 x00 x00 x00 x00 x00 x00 x00))
(L (W x00 x00 x00 x00 x00 x00 x00 x00)))
(T (W x01 x00 x00 x00 x9c x00 x00 x00)
(L (W x64 x0c xff xff x15 x00 x00 x00))
(L (W xb4 x01 x00 x00 xff xff xff xff))))))
(T (W xff xff xff xff x03 x00 x00 x00)
(T (W x18 x00 x00 x00 x0c x00 x00 x00)
(T (W x00 x00 x80 x3f x00 x00 x80 x3f)
(T (W xff xff xff xff xff xff xff xff)
(L (W x00 x00 x00 x00 x00 x00 x00 x00))
(L (W x45 x26 x22 x84 xe4 x9c xf2 xcb)))
(T (W xa4 x01 x00 x00 xff xff xff xff)
(L (W x00 x00 x00 x00 x00 x00 x00 x00))
(L (W x00 x00 x00 x00 x00 x00 x00 x00))))
(T (W xfd x68 xa2 xcf xf2 xdd x51 x03)
(T (W x62 x75 xfd xff x78 x00 x00 x00)
(L (W x6c x00 x00 x00 x60 x00 x00 x00))
(L (W x30 x34 x5f x43 x4c x45 x41 x52)))
(T (W xff xff xff xff xff xff xff xff)
(L (W x00 x00 x00 x00 x00 x00 x00 x00))
(L (W x00 x00 x0c x00 x10 x00 x14 x00)))))
(T (W x00 x00 x80 x3f x00 x00 x80 x3f)
(T (W x00 x00 x00 x00 x00 x00 x00 x00)
(T (W x00 x00 x00 x00 x00 x00 x00 x00)
(L (W x00 x00 x80 x3f x00 x00 x80 x3f))
(L (W xff xff xff xff xff xff xff xff)))
(T (W x45 x26 x22 x84 xe4 x9c xf2 xcb)
(L (W x20 xd1 xfe xff x00 x01 x01 x01))
(L (W x62 x00 x00 x00 xd7 x00 x00 x00))))
(T (W x00 x00 x00 x00 x00 x00 x00 x00)
(T (W x45 x26 x22 x84 xe4 x9c xf2 xcb)
(L (W x77 x61 x72 x6c x69 x6b x65 x5f))
(L (W x46 x53 x59 x53 x5f x4e x53 x5f)))
(T (W x00 x00 x00 x00 x00 x00 x00 x00)
(L (W x00 x00 x00 x00 x00 x00 x00 x00)) E)))))
(T (W xff xff xff xff xff xff xff xff)
(T (W x64 x00 x00 x00 x9c x00 x00 x00)
(T (W x45 x26 x22 x84 xe4 x9c xf2 xcb)
(T (W x45 x26 x22 x84 xe4 x9c xf2 xcb)
(T (W xff xff xff xff xff xff xff xff)
(L (W x45 x26 x22 x84 xe4 x9c xf2 xcb))
(L (W x00 x00 x00 x00 x00 x00 x00 x00)))
(T (W xff xff xff xff xff xff xff xff)
(L (W xff xff xff xff xb0 x00 x00 x00))
(L (W x46 x53 x59 x53 x5f x4e x53 x5f))))
(T (W x00 x00 x00 x00 x00 x00 x00 x00)
(T (W x00 x00 x80 x3f x00 x00 x80 x3f)
(L (W x45 x26 x22 x84 xe4 x9c xf2 xcb))
(L (W x04 x00 x00 x00 x72 x6f xff xff)))
(T (W xff xff xff xff xff xff xff xff)
(L (W x00 x00 x00 x00 x00 x00 x00 x00))
(L (W xff xff xff xff xff xff xff xff)))))
(T (W x00 x00 x80 x3f x00 x00 x80 x3f)
(T (W x00 x00 x80 x3f x00 x00 x80 x3f)
(T (W x2e x00 x00 x00 x0c x00 x00 x00)
(L (W xff xff xff xff xff xff xff xff))
(L (W xff xff xff xff xff xff xff xff)))
(T (W x00 x00 x80 x3f x00 x00 x80 x3f)
(L (W x00 x00 x80 xbf x00 x00 x80 xbf))
(L (W x00 x00 x00 x00 x00 x00 x00 x00))))
(T (W xff xff xff xff xff xff xff xff)
(T (W x00 x00 x00 x00 x00 x00 x00 x00)
(L (W x0c x00 x00 x00 x01 x01 x01 x01))
(L (W x00 x00 x00 x00 x00 x00 x00 x00)))
(T (W x00 x00 x80 x3f x00 x00 x80 x3f)
(L (W x46 x53 x59 x53 x5f x4e x53 x5f)) E))))
(T (W xff xff xff xff xff xff xff xff)
(T (W x68 x00 x00 x00 x5c x00 x00 x00)
(T (W x00 x00 x00 x00 x00 x00 x00 x00)
(T (W xff xff xff xff xff xff xff xff)
(L (W x00 x00 x00 x00 x00 x00 x00 x00))
(L (W x00 x00 x80 xbf x00 x00 x80 xbf)))
(T (W x00 x00 x00 x00 x00 x00 x00 x00)
(L (W x00 x00 x00 x00 x00 x00 x00 x00))
(L (W x00 x00 x80 xbf x00 x00 x80 xbf))))
(T (W x5a xac xfe xff x70 x00 x00 x00)
(T (W xb0 x00 x00 x00 x64 x00 x00 x00)
(L (W xb0 x00 x00 x00 x64 x00 x00 x00))
(L (W x64 x84 xff xff x2b x00 x00 x00)))
(T (W xb8 x00 x00 x00 xac x00 x00 x00)
(L (W x00 x00 x00 x00 x12 x00 x00 x00))
(L (W x00 x00 x00 x00 x00 x00 x00 x00)))))
(T (W x00 x00 x80 x3f x00 x00 x80 x3f)
(T (W x00 x00 x00 x00 x00 x00 x00 x00)
(T (W x00 x00 x00 x00 x00 x00 x00 x00)
(L (W xff xff xff xff xff xff xff xff))
(L (W xff xff xff xff xff xff xff xff)))
(T (W xff xff xff xff xff xff xff xff)
(L (W x2b x00 x00 x00 x2e x00 x00 x00))
(L (W xff xff xff xff xc8 x00 x00 x00))))
(T (W xbc x1f xfd xff x3c x00 x00 x00)
(T (W x68 x00 x00 x00 x5c x00 x00 x00)
(L (W x00 x00 x01 x01 x98 x01 x00 x00))
(L (W x62 x00 x00 x00 x00 x00 x00 x01)))
(T (W x00 x00 x00 x00 x00 x00 x00 x00)
(L (W x46 x53 x59 x53 x5f x4e x53 x5f)) E)))))))
(T (W x00 x00 x00 x00 x00 x00 x00 x00)
(T (W xff xff xff xff x03 x00 x00 x00)
(T (W x45 x26 x22 x84 xe4 x9c xf2 xcb)
(T (W x1a x57 xfc xff x74 x00 x00 x00)
(T (W x00 x00 x80 x3f x00 x00 x80 x3f)
(T (W x00 x00 x00 x00 x00 x00 x00 x00)
(T (W x64 x00 x00 x00 x9c x00 x00 x00)
(L (W xff xff xff xff x03 x00 x00 x00))
(L (W x00 x00 x01 x01 x5d x00 x00 x00)))
(T (W x00 x00 x80 x3f x00 x00 x80 x3f)
(L (W x4f x84 x6f x8b xe8 xcb x63 xb7))
(L (W xff xff xff xff xff xff xff xff))))
(T (W xff xff xff xff xff xff xff xff)
(T (W xb4 x01 x00 x00 xff xff xff xff)
(L (W x94 x60 xfe xff x92 x5d xfe xff))
(L (W xff xff xff xff xff xff xff xff)))
(T (W x01 x00 x00 x00 xa0 x00 x00 x00)
(L (W x20 xdf xfe xff x00 x01 x01 x01))
(L (W x6c x00 x00 x00 x60 x00 x00 x00)))))
(T (W x00 x00 x00 x00 x00 x00 x00 x00)
(T (W xd7 x00 x00 x00 xff xff xff xff)
(T (W x24 x00 x00 x00 xff xff xff xff)
(L (W x1a x57 xfe xff x74 x00 x00 x00))
(L (W x45 x26 x22 x84 xe4 x9c xf2 xcb)))
(T (W xff xff xff xff x01 x00 x00 x00)
(L (W x00 x00 x00 x00 x72 xc1 xfe xff))
(L (W x00 x00 x00 x00 x00 x00 x00 x00))))
(T (W xff xff xff xff xff xff xff xff)
(T (W x45 x26 x22 x84 xe4 x9c xf2 xcb)
(L (W xff xff xff xff xff xff xff xff))
(L (W x00 x00 x00 x00 x00 x00 x00 x00)))
(T (W x00 x00 x80 x3f x00 x00 x80 x3f)
(L (W xff xff xff xff xff xff xff xff))
(L (W x00 x00 x00 x00 x00 x00 x00 x00))))))
(T (W x45 x26 x22 x84 xe4 x9c xf2 xcb)
(T (W x45 x26 x22 x84 xe4 x9c xf2 xcb)
(T (W xa3 x7f xae xd0 x70 x7d x74 x12)
(T (W xff xff xff xff xff xff xff xff)
(L (W x7b x00 x00 x00 xff xff xff xff))
(L (W x00 x00 x00 x00 x00 x00 x00 x00)))
(T (W xff xff xff xff xc8 x00 x00 x00)
(L (W x00 x00 x00 x00 x72 xb1 xfe xff))
(L (W xff xff xff xff xff xff xff xff))))
(T (W xff xff xff xff xff xff xff xff)
(T (W x00 x00 x00 x00 x00 x00 x00 x00)
(L (W x00 x00 x80 xbf x00 x00 x80 xbf))
(L (W xff xff xff xff xff xff xff xff)))
(T (W x01 x00 x00 x00 x9c x00 x00 x00)
(L (W xff xff xff xff xff xff xff xff))
(L (W x00 x00 x80 xbf x00 x00 x80 xbf)))))
(T (W x45 x26 x22 x84 xe4 x9c xf2 xcb)
(T (W xd5 xd0 xfd x95 xcc x15 x31 xdf)
(T (W xff xff xff xff xff xff xff xff)
(L (W x62 x53 xfe xff x94 x00 x00 x00))
(L (W x14 x00 x00 x00 x0c x00 x00 x00)))
(T (W x00 x00 x80 x3f x00 x00 x80 x3f)
(L (W x4f x84 x6f x8b xe8 xcb x63 xb7))
(L (W x7d xea xac x28 xbf xdc x59 x6a))))
(T (W xff xff xff xff xff xff xff xff)
(T (W x26 x00 x00 x00 x0c x00 x00 x00)
(L (W xff xff xff xff xff xff xff xff))
(L (W x29 x00 x00 x00 xff xff xff xff)))
(T (W xff xff xff xff xff xff xff xff)
(L (W xff xff xff xff xff xff xff xff)) E)))))
(T (W x50 x00 x00 x00 x44 x00 x00 x00)
(T (W x00 x00 x00 x00 x98 x48 xfc xff)
(T (W x00 x00 x80 x3f x00 x00 x80 x3f)
(T (W x00 x00 x00 x00 x00 x00 x00 x00)
(T (W xff xff xff xff x03 x00 x00 x00)
(L (W x00 x00 x00 x00 x00 x00 x00 x00))
(L (W xff xff xff xff xff xff xff xff)))
(T (W x62 xab xfd xff x78 x00 x00 x00)
(L (W x61 x64 x65 x72 x5f x77 x69 x6c))
(L (W xff xff xff xff xff xff xff xff))))
(T (W xff xff xff xff xff xff xff xff)
(T (W x64 x72 xfd xff x35 x00 x00 x00)
(L (W x4f x84 x6f x8b xe8 xcb x63 xb7))
(L (W x45 x26 x22 x84 xe4 x9c xf2 xcb)))
(T (W x50 x00 x00 x00 x44 x00 x00 x00)
(L (W x18 x00 x00 x00 x10 x00 x00 x00))
(L (W x00 x00 x80 xbf x00 x00 x80 xbf)))))
(T (W x45 x26 x22 x84 xe4 x9c xf2 xcb)
(T (W x00 x00 x00 x00 x00 x00 x00 x00)
(T (W x45 x26 x22 x84 xe4 x9c xf2 xcb)
(L (W x68 x00 x00 x00 x5c x00 x00 x00))
(L (W x62 x4b xff xff x78 x00 x00 x00)))
(T (W x00 x00 x00 x00 x00 x00 x00 x00)
(L (W x00 x00 x00 x00 x00 x00 x00 x00))
(L (W x30 x34 x5f x43 x4c x45 x41 x52))))
(T (W x54 x00 x00 x00 x58 x00 x00 x00)
(T (W xff xff xff xff xff xff xff xff)
(L (W x00 x00 x00 x00 x00 x00 x00 x00))
(L (W xff xff xff xff xff xff xff xff)))
(T (W x00 x00 x00 x00 x00 x00 x00 x00)
(L (W xff xff xff xff xff xff xff xff)) E))))
(T (W x00 x00 x80 x3f x00 x00 x80 x3f)
(T (W x00 x00 x00 x00 x00 x00 x00 x00)
(T (W x87 x03 x00 x00 xff xff xff xff)
(T (W xff xff xff xff xff xff xff xff)
(L (W x5a xea xff xff x70 x00 x00 x00))
(L (W x00 x00 x00 x00 x00 x00 x00 x00)))
(T (W xff xff xff xff xff xff xff xff)
(L (W xff xff xff xff xff xff xff xff))
(L (W x45 x44 x00 x00 x00 x00 x00 x00))))
(T (W xff xff xff xff xff xff xff xff)
(T (W x00 x00 x80 x3f x00 x00 x80 x3f)
(L (W x45 x26 x22 x84 xe4 x9c xf2 xcb))
(L (W xff xff xff xff xff xff xff xff)))
(T (W x00 x00 x80 x3f x00 x00 x80 x3f)
(L (W x5d x00 x00 x00 xff xff xff xff))
(L (W x00 x00 x00 x00 x00 x00 x00 x00)))))
(T (W x00 x00 x00 x00 x00 x00 x00 x00)
(T (W xc1 x00 x00 x00 xff xff xff xff)
(T (W xff xff xff xff xff xff xff xff)
(L (W x00 x00 x80 xbf x00 x00 x80 xbf))
(L (W x45 x26 x22 x84 xe4 x9c xf2 xcb)))
(T (W x00 x00 x80 x3f x00 x00 x80 x3f)
(L (W x00 x00 x80 xbf x00 x00 x80 xbf))
(L (W x58 x00 x00 x00 x5c x00 x60 x00))))
(T (W xff xff xff xff xff xff xff xff)
(T (W x49 xa1 x68 x4a xeb x5f xdd x3d)
(L (W x49 xa1 x68 x4a xeb x5f xdd x3d))
(L (W x6c x04 x00 x00 x40 x03 x00 x00)))
(T (W xff xff xff xff xff xff xff xff)
(L (W x29 x00 x00 x00 xff xff xff xff)) E))))))
(T (W x64 x36 xfc xff x21 x00 x00 x00)
(T (W x00 x00 x00 x00 x00 x00 x00 x00)
(T (W xbc x49 xfc xff x3e x00 x00 x00)
(T (W xff xff xff xff xff xff xff xff)
(T (W x20 xa3 xfc xff x00 x01 x01 x01)
(T (W x45 x26 x22 x84 xe4 x9c xf2 xcb)
(L (W x22 x00 x00 x00 x67 x72 x6f x75))
(L (W x00 x00 x80 xbf x00 x00 x80 xbf)))
(T (W x62 xd2 xfd xff x9c x01 x00 x00)
(L (W x77 x61 x72 x6c x69 x6b x65 x5f))
(L (W x45 x26 x22 x84 xe4 x9c xf2 xcb))))
(T (W x00 x00 x80 x3f x00 x00 x80 x3f)
(T (W x50 x00 x00 x00 x44 x00 x00 x00)
(L (W xff xff xff xff xff xff xff xff))
(L (W x00 x00 x00 x00 x00 x00 x00 x00)))
(T (W x00 x00 x00 x00 x00 x00 x00 x00)
(L (W x00 x00 x00 x00 x00 x00 x00 x00))
(L (W x00 x00 x00 x00 x00 x00 x00 x00)))))
(T (W xff xff xff xff xff xff xff xff)
(T (W x00 x00 x80 x3f x00 x00 x80 x3f)
(T (W x00 x00 x00 x00 x00 x00 x00 x00)
(L (W x00 x00 x00 x00 x00 x00 x00 x00))
(L (W x37 x00 x00 x00 xff xff xff xff)))
(T (W x1a xdb xfd xff x74 x00 x00 x00)
(L (W x62 xc7 xfe xff x78 x00 x00 x00))
(L (W x00 x00 x80 xbf x00 x00 x80 xbf))))
(T (W x00 x00 x00 x00 x00 x00 x00 x00)
(T (W x00 x00 x00 x00 x00 x00 x00 x00)
(L (W x00 x00 x80 xbf x00 x00 x80 xbf))
(L (W x1c x00 x00 x00 x10 x00 x00 x00)))
(T (W xff xff xff xff xff xff xff xff)
(L (W x00 x00 x80 xbf x00 x00 x80 xbf))
(L (W x54 x00 x00 x00 x1c x00 x00 x00))))))
(T (W xff xff xff xff xff xff xff xff)
(T (W xff xff xff xff xff xff xff xff)
(T (W x18 x00 x00 x00 x0c x00 x00 x00)
(T (W x00 x00 x00 x00 x00 x00 x00 x00)
(L (W x45 x26 x22 x84 xe4 x9c xf2 xcb))
(L (W x27 x00 x00 x00 x2a x00 x00 x00)))
(T (W x49 xa1 x68 x4a xeb x5f xdd x3d)
(L (W x00 x00 x80 x3f x00 x00 x80 x3f))
(L (W x62 xb7 xff xff x78 x00 x00 x00))))
(T (W x45 x26 x22 x84 xe4 x9c xf2 xcb)
(T (W xff xff xff xff xff xff xff xff)
(L (W xff xff xff xff x8c x00 x00 x00))
(L (W x00 x00 x00 x00 x00 x00 x00 x00)))
(T (W xbc xf9 xfd xff x2a x00 x00 x00)
(L (W x45 x26 x22 x84 xe4 x9c xf2 xcb))
(L (W x00 x00 x80 xbf x00 x00 x80 xbf)))))
(T (W x45 x26 x22 x84 xe4 x9c xf2 xcb)
(T (W x68 x00 x00 x00 x5c x00 x00 x00)
(T (W x00 x00 x80 x3f x00 x00 x80 x3f)
(L (W xff xff xff xff xff xff xff xff))
(L (W x00 x00 x00 x00 x00 x00 x00 x00)))
(T (W xff xff xff xff xff xff xff xff)
(L (W x00 x00 x01 x01 x5d x00 x00 x00))
(L (W x00 x00 x80 xbf x00 x00 x80 xbf))))
(T (W x00 x00 x80 x3f x00 x00 x80 x3f)
(T (W xb8 x00 x00 x00 x64 x00 x00 x00)
(L (W x28 x00 x00 x00 x2b x00 x00 x00))
(L (W x00 x00 x80 xbf x00 x00 x80 xbf)))
(T (W x45 x26 x22 x84 xe4 x9c xf2 xcb)
(L (W x00 x00 x80 xbf x00 x00 x80 xbf)) E)))))
(T (W x00 x00 x00 x00 x00 x00 x00 x00)
(T (W x01 x00 x00 x00 x04 x00 x00 x00)
(T (W xff xff xff xff xff xff xff xff)
(T (W x45 x26 x22 x84 xe4 x9c xf2 xcb)
(T (W x00 x00 x00 x00 x00 x00 x00 x00)
(L (W x50 x00 x00 x00 x44 x00 x00 x00))
(L (W x54 x00 x00 x00 x48 x00 x00 x00)))
(T (W x00 x00 x00 x00 x00 x00 x00 x00)
(L (W x00 x00 x00 x00 x00 x00 x00 x00))
(L (W x00 x00 x80 xbf x00 x00 x80 xbf))))
(T (W x00 x00 x80 x3f x00 x00 x80 x3f)
(T (W x18 x00 x00 x00 x10 x00 x00 x00)
(L (W x03 x00 x00 x00 xd0 x00 x00 x00))
(L (W x45 x26 x22 x84 xe4 x9c xf2 xcb)))
(T (W x5a x9e xff xff xc2 x01 x00 x00)
(L (W x00 x00 x00 x00 x00 x00 x00 x00))
(L (W xff xff xff xff xff xff xff xff)))))
(T (W xb8 x00 x00 x00 xac x00 x00 x00)
(T (W x50 x00 x00 x00 x44 x00 x00 x00)
(T (W x00 x00 x80 x3f x00 x00 x80 x3f)
(L (W x6b x65 x5f x63 x6f x77 x61 x72))
(L (W x00 x00 x00 x00 x00 x00 x00 x00)))
(T (W xff xff xff xff xff xff xff xff)
(L (W xff xff xff xff x9c x00 x00 x00))
(L (W x00 x00 x80 xbf x00 x00 x80 xbf))))
(T (W x00 x00 x80 x3f x00 x00 x80 x3f)
(T (W x00 x00 x80 x3f x00 x00 x80 x3f)
(L (W x5f x4e x53 x5f x30 x34 x5f x43))
(L (W x00 x00 x80 xbf x00 x00 x80 xbf)))
(T (W xb8 x00 x00 x00 xac x00 x00 x00)
(L (W x6c x00 x00 x00 x60 x00 x00 x00)) E))))
(T (W xff xff xff xff xff xff xff xff)
(T (W xff xff xff xff xff xff xff xff)
(T (W x50 x00 x00 x00 x44 x00 x00 x00)
(T (W x64 x46 xfd xff x3e x00 x00 x00)
(L (W xff xff xff xff xff xff xff xff))
(L (W xff xff xff xff xff xff xff xff)))
(T (W x00 x00 x80 x3f x00 x00 x80 x3f)
(L (W x00 x00 x80 x3f x00 x00 x80 x3f))
(L (W x5c x00 x00 x00 x50 x00 x00 x00))))
(T (W x00 x00 x00 x00 x00 x00 x00 x00)
(T (W x00 x00 x00 x00 x00 x00 x00 x00)
(L (W x28 x00 x00 x00 x10 x00 x00 x00))
(L (W x00 x00 x80 xbf x00 x00 x80 xbf)))
(T (W xff xff xff xff xff xff xff xff)
(L (W x54 x00 x00 x00 x48 x00 x00 x00))
(L (W x30 x34 x5f x43 x4c x45 x41 x52)))))
(T (W x68 x00 x00 x00 x5c x00 x00 x00)
(T (W x1a xf3 xfc xff x74 x00 x00 x00)
(T (W x00 x00 x80 x3f x00 x00 x80 x3f)
(L (W xff xff xff xff xff xff xff xff))
(L (W x00 x00 x00 x00 x00 x00 x00 x00)))
(T (W x12 x00 x00 x00 x46 x53 x59 x53)
(L (W xff xff xff xff xff xff xff xff))
(L (W x00 x00 x00 x00 x72 xdd xff xff))))
(T (W x45 x26 x22 x84 xe4 x9c xf2 xcb)
(T (W xff xff xff xff xff xff xff xff)
(L (W x00 x00 x00 x00 x00 x00 x00 x00))
(L (W x00 x00 x80 xbf x00 x00 x80 xbf)))
(T (W x45 x26 x22 x84 xe4 x9c xf2 xcb)
(L (W x00 x00 x80 xbf x00 x00 x80 xbf)) E))))))))
(T (W x00 x0a x01 x00 xcc x08 x01 x00)
(T (W x00 x00 x01 x01 xd4 x02 x00 x00)
(T (W x50 x00 x00 x00 x44 x00 x00 x00)
(T (W x62 x32 xfc xff x78 x00 x00 x00)
(T (W x50 x00 x00 x00 x44 x00 x00 x00)
(T (W x45 x26 x22 x84 xe4 x9c xf2 xcb)
(T (W xcf xc6 x03 x75 xb1 xd1 x11 x74)
(T (W x18 x00 x00 x00 x0c x00 x00 x00)
(L (W x68 x00 x00 x00 x5c x00 x00 x00))
(L (W xff xff xff xff xff xff xff xff)))
(T (W x00 x00 x00 x00 x00 x00 x00 x00)
(L (W x77 x61 x72 x6c x69 x6b x65 x5f))
(L (W xff xff xff xff xff xff xff xff))))
(T (W xb8 x00 x00 x00 xac x00 x00 x00)
(T (W xff xff xff xff xff xff xff xff)
(L (W x00 x00 x80 xbf x00 x00 x80 xbf))
(L (W xff xff xff xff xff xff xff xff)))
(T (W x00 x00 x80 x3f x00 x00 x80 x3f)
(L (W x54 x00 x00 x00 x48 x00 x00 x00))
(L (W x00 x00 x80 xbf x00 x00 x80 xbf)))))
(T (W x00 x00 x00 x00 x00 x00 x00 x00)
(T (W xff xff xff xff xff xff xff xff)
(T (W x62 x42 xfd xff x78 x00 x00 x00)
(L (W x68 x00 x00 x00 x5c x00 x00 x00))
(L (W x00 x00 x00 x00 x00 x00 x00 x00)))
(T (W xff xff xff xff xff xff xff xff)
(L (W xff xff xff xff xff xff xff xff))
(L (W x00 x00 x00 x00 x12 xba xff xff))))
(T (W x18 x00 x00 x00 x10 x00 x00 x00)
(T (W x00 x00 x80 x3f x00 x00 x80 x3f)
(L (W x0c xf5 xff xff x01 x01 x01 x01))
(L (W xff xff xff xff xff xff xff xff)))
(T (W x00 x00 x00 x00 x00 x00 x00 x00)
(L (W xff xff xff xff xc0 x00 x00 x00))
(L (W xff xff xff xff xff xff xff xff))))))
(T (W x00 x00 x80 x3f x00 x00 x80 x3f)
(T (W x00 x00 x00 x00 x00 x00 x00 x00)
(T (W xff xff xff xff xff xff xff xff)
(T (W x01 x00 x00 x00 x3e x00 x00 x00)
(L (W xff xff xff xff xff xff xff xff))
(L (W x00 x00 x00 x00 x72 x30 xff xff)))
(T (W x45 x26 x22 x84 xe4 x9c xf2 xcb)
(L (W xff xff xff xff xff xff xff xff))
(L (W xff xff xff xff xff xff xff xff))))
(T (W xff xff xff xff xff xff xff xff)
(T (W x00 x00 x00 x00 x00 x00 x00 x00)
(L (W x00 x00 x00 x00 x00 x00 x00 x00))
(L (W x18 x00 x00 x00 x0c x00 x00 x00)))
(T (W x00 x00 x80 x3f x00 x00 x80 x3f)
(L (W xff xff xff xff xc8 x00 x00 x00))
(L (W x00 x00 x80 xbf x00 x00 x80 xbf)))))
(T (W x00 x00 x00 x00 x00 x00 x00 x00)
(T (W xff xff xff xff xff xff xff xff)
(T (W xff xff xff xff xff xff xff xff)
(L (W x1a x00 x00 x00 x67 x72 x6f x75))
(L (W x6c x00 x00 x00 x60 x00 x00 x00)))
(T (W x00 x00 x00 x00 x00 x00 x00 x00)
(L (W x00 x00 x00 x00 x00 x00 x00 x00))
(L (W xff xff xff xff xff xff xff xff))))
(T (W x64 x00 x00 x00 x9c x00 x00 x00)
(T (W xff xff xff xff xff xff xff xff)
(L (W x54 x00 x00 x00 x48 x00 x00 x00))
(L (W xff xff xff xff xff xff xff xff)))
(T (W xff xff xff xff xff xff xff xff)
(L (W xff xff xff xff xff xff xff xff)) E)))))
(T (W x00 x00 x80 x3f x00 x00 x80 x3f)
(T (W x68 x00 x00 x00 x5c x00 x00 x00)
(T (W x00 x00 x00 x00 x00 x00 x00 x00)
(T (W x2b x01 x00 x00 xff xff xff xff)
(T (W x40 x00 x00 x00 x9c x00 x00 x00)
(L (W x82 x00 x00 x00 xff xff xff xff))
(L (W xff xff xff xff xff xff xff xff)))
(T (W x00 x00 x80 x3f x00 x00 x80 x3f)
(L (W xff xff xff xff xff xff xff xff))
(L (W xff xff xff xff xff xff xff xff))))
(T (W xff xff xff xff xff xff xff xff)
(T (W xff xff xff xff xff xff xff xff)
(L (W x00 x00 x00 x00 x00 x00 x00 x00))
(L (W x54 x00 x00 x00 x48 x00 x00 x00)))
(T (W x00 x00 x80 x3f x00 x00 x80 x3f)
(L (W x68 x00 x00 x00 x5c x00 x00 x00))
(L (W x00 x00 x00 x00 x00 x00 x00 x00)))))
(T (W x00 x00 x00 x00 x00 x00 x00 x00)
(T (W xca x7a xfe xff x00 x00 x01 x01)
(T (W x00 x00 x80 x3f x00 x00 x80 x3f)
(L (W x00 x00 x80 x3f x00 x00 x80 x3f))
(L (W x45 x26 x22 x84 xe4 x9c xf2 xcb)))
(T (W x00 x00 x00 x00 x00 x00 x00 x00)
(L (W xff xff xff xff xff xff xff xff))
(L (W x00 x00 x01 x01 x2a x00 x00 x00))))
(T (W xff xff xff xff x04 x00 x00 x00)
(T (W xff xff xff xff xff xff xff xff)
(L (W xe2 x4e x69 x12 x83 x71 x37 xc6))
(L (W xff xff xff xff xff xff xff xff)))
(T (W x00 x00 x00 x00 x00 x00 x00 x00)
(L (W xff xff xff xff xff xff xff xff)) E))))
(T (W x00 x00 x80 x3f x00 x00 x80 x3f)
(T (W x00 x00 x00 x00 x00 x00 x00 x00)
(T (W xff xff xff xff xff xff xff xff)
(T (W x68 x00 x00 x00 x5c x00 x00 x00)
(L (W xff xff xff xff xff xff xff xff))
(L (W x20 x00 x00 x00 x0c x00 x00 x00)))
(T (W x18 x00 x00 x00 x10 x00 x00 x00)
(L (W xff xff xff xff xff xff xff xff))
(L (W xff xff xff xff xff xff xff xff))))
(T (W xff xff xff xff xff xff xff xff)
(T (W x4f x84 x6f x8b xe8 xcb x63 xb7)
(L (W x00 x00 x00 x00 x00 x00 x00 x00))
(L (W x45 x26 x22 x84 xe4 x9c xf2 xcb)))
(T (W x00 x00 x80 x3f x00 x00 x80 x3f)
(L (W xff xff xff xff xff xff xff xff))
(L (W x66 x01 x00 x00 xff xff xff xff)))))
(T (W x00 x00 x00 x00 x00 x00 x00 x00)
(T (W xff xff xff xff xff xff xff xff)
(T (W xb0 x00 x00 x00 x64 x00 x00 x00)
(L (W x00 x00 x00 x00 x00 x00 x00 x00))
(L (W x6c x00 x00 x00 x60 x00 x00 x00)))
(T (W x00 x00 x80 x3f x00 x00 x80 x3f)
(L (W x00 x00 x80 xbf x00 x00 x80 xbf))
(L (W xff xff xff xff xbc x00 x00 x00))))
(T (W x00 x00 x00 x00 x98 x17 xfd xff)
(T (W xbc x9c xfd xff x10 x00 x00 x00)
(L (W x00 x00 x00 x00 x00 x00 x00 x00))
(L (W xff xff xff xff xff xff xff xff)))
(T (W xff xff xff xff x03 x00 x00 x00)
(L (W xff xff xff xff xff xff xff xff)) E))))))
(T (W xff xff xff xff xff xff xff xff)
(T (W xca xe6 xfd xff x00 x00 x01 x01)
(T (W xff xff xff xff xff xff xff xff)
(T (W xff xff xff xff xff xff xff xff)
(T (W x68 x00 x00 x00 x5c x00 x00 x00)
(T (W x00 x00 x00 x00 x00 x00 x00 x00)
(L (W x00 x00 x00 x00 x00 x00 x00 x00))
(L (W x00 x00 x80 xbf x00 x00 x80 xbf)))
(T (W xff xff xff xff xff xff xff xff)
(L (W xff xff xff xff xff xff xff xff))
(L (W x00 x00 x00 x00 x12 x00 x00 x00))))
(T (W x00 x00 x80 x3f x00 x00 x80 x3f)
(T (W x45 x26 x22 x84 xe4 x9c xf2 xcb)
(L (W xff xff xff xff xff xff xff xff))
(L (W x00 x00 x00 x00 x00 x00 x00 x00)))
(T (W x5a x95 xff xff xc0 x02 x00 x00)
(L (W xff xff xff xff xff xff xff xff))
(L (W x7d x00 x00 x00 xff xff xff xff)))))
(T (W x45 x26 x22 x84 xe4 x9c xf2 xcb)
(T (W x00 x00 x80 x3f x00 x00 x80 x3f)
(T (W x00 x00 x00 x00 x00 x00 x5c x00)
(L (W xca xf6 xff xff x00 x00 x01 x01))
(L (W xff xff xff xff xff xff xff xff)))
(T (W x00 x00 x80 x3f x00 x00 x80 x3f)
(L (W x45 x26 x22 x84 xe4 x9c xf2 xcb))
(L (W x4f x84 x6f x8b xe8 xcb x63 xb7))))
(T (W x00 x00 x00 x00 x00 x00 x00 x00)
(T (W x00 x00 x00 x00 x12 x00 x00 x00)
(L (W x45 x26 x22 x84 xe4 x9c xf2 xcb))
(L (W x00 x00 x80 xbf x00 x00 x80 xbf)))
(T (W xb8 x00 x00 x00 xac x00 x00 x00)
(L (W x00 x00 x80 xbf x00 x00 x80 xbf))
(L (W x00 x00 x00 x00 x00 x00 x00 x00))))))
(T (W xff xff xff xff xff xff xff xff)
(T (W xb8 x00 x00 x00 xac x00 x00 x00)
(T (W x00 x00 x80 x3f x00 x00 x80 x3f)
(T (W x01 x00 x00 x00 x04 x00 x00 x00)
(L (W x45 x26 x22 x84 xe4 x9c xf2 xcb))
(L (W x62 x36 xff xff x78 x00 x00 x00)))
(T (W x00 x00 x00 x00 x00 x00 x00 x00)
(L (W x00 x00 x80 x3f x00 x00 x80 x3f))
(L (W x00 x00 x80 xbf x00 x00 x80 xbf))))
(T (W x00 x00 x00 x00 x00 x00 x00 x00)
(T (W xff xff xff xff x9c x00 x00 x00)
(L (W x00 x00 x00 x00 x24 x72 xfe xff))
(L (W x00 x00 x00 x00 x00 x00 x00 x00)))
(T (W xff xff xff xff xff xff xff xff)
(L (W x00 x00 x00 x00 x00 x00 x00 x00))
(L (W x45 x26 x22 x84 xe4 x9c xf2 xcb)))))
(T (W x00 x00 x80 x3f x00 x00 x80 x3f)
(T (W x00 x00 x80 x3f x00 x00 x80 x3f)
(T (W x00 x00 x00 x00 x00 x00 x00 x00)
(L (W xff xff xff xff xb0 x00 x00 x00))
(L (W xff xff xff xff xff xff xff xff)))
(T (W xff xff xff xff xbc x00 x00 x00)
(L (W xb0 x00 x00 x00 x64 x00 x00 x00))
(L (W x00 x00 x00 x00 x00 x00 x00 x00))))
(T (W x00 x00 x00 x00 x00 x00 x00 x00)
(T (W x20 x92 xfd xff x00 x01 x01 x01)
(L (W x49 xa1 x68 x4a xeb x5f xdd x3d))
(L (W x00 x00 x00 x00 x00 x00 x00 x00)))
(T (W x00 x00 x00 x00 x00 x00 x00 x00)
(L (W x49 xa1 x68 x4a xeb x5f xdd x3d)) E)))))
(T (W x00 x00 x00 x00 x02 x00 x00 x00)
(T (W xff xff xff xff xff xff xff xff)
(T (W xff xff xff xff xff xff xff xff)
(T (W x1a xc2 xfc xff x74 x00 x00 x00)
(T (W x64 x35 xfd xff x3c x00 x00 x00)
(L (W x45 x26 x22 x84 xe4 x9c xf2 xcb))
(L (W x45 x26 x22 x84 xe4 x9c xf2 xcb)))
(T (W x00 x00 x00 x00 x00 x00 x00 x00)
(L (W x6b x65 x5f x77 x61 x72 x6c x69))
(L (W x00 x00 x00 x00 x00 x00 x00 x00))))
(T (W x00 x00 x00 x00 x00 x00 x00 x00)
(T (W x6c x00 x00 x00 x60 x00 x00 x00)
(L (W xa4 x00 x00 x00 x32 x00 x00 x00))
(L (W x00 x00 x00 x00 x12 x00 x00 x00)))
(T (W xff xff xff xff xff xff xff xff)
(L (W x00 x00 x00 x00 x00 x00 x00 x00))
(L (W xff xff xff xff xff xff xff xff)))))
(T (W x68 x00 x00 x00 x5c x00 x00 x00)
(T (W x00 x00 x80 x3f x00 x00 x80 x3f)
(T (W x00 x00 x00 x00 x00 x00 x00 x00)
(L (W xff xff xff xff xff xff xff xff))
(L (W xff xff xff xff xff xff xff xff)))
(T (W xff xff xff xff xac x00 x00 x00)
(L (W x62 xce xfe xff x78 x00 x00 x00))
(L (W x45 x26 x22 x84 xe4 x9c xf2 xcb))))
(T (W x00 x00 x00 x00 x00 x00 x00 x00)
(T (W x45 x26 x22 x84 xe4 x9c xf2 xcb)
(L (W xd4 x02 x00 x00 xff xff xff xff))
(L (W x4f x84 x6f x8b xe8 xcb x63 xb7)))
(T (W x01 x00 x00 x00 x9c x00 x00 x00)
(L (W x00 x00 x00 x00 x00 x00 x00 x00)) E))))
(T (W xff xff xff xff xff xff xff xff)
(T (W xff xff xff xff x04 x00 x00 x00)
(T (W x00 x00 x80 x3f x00 x00 x80 x3f)
(T (W xff xff xff xff xff xff xff xff)
(L (W x45 x26 x22 x84 xe4 x9c xf2 xcb))
(L (W x00 x00 x00 x00 x98 x3b xff xff)))
(T (W x00 x00 x00 x00 x00 x00 x00 x00)
(L (W x4f x84 x6f x8b xe8 xcb x63 xb7))
(L (W x00 x00 x80 xbf x00 x00 x80 xbf))))
(T (W x00 x00 x00 x00 x00 x00 x00 x00)
(T (W xff xff xff xff xff xff xff xff)
(L (W xff xff xff xff xff xff xff xff))
(L (W x00 x00 x00 x00 x00 x00 x00 x00)))
(T (W xff xff xff xff xff xff xff xff)
(L (W x00 x00 x00 x00 x00 x00 x00 x00))
(L (W xff xff xff xff xff xff xff xff)))))
(T (W x50 x00 x00 x00 x44 x00 x00 x00)
(T (W x45 x26 x22 x84 xe4 x9c xf2 xcb)
(T (W x00 x00 x00 x00 x00 x00 x00 x00)
(L (W xff xff xff xff xff xff xff xff))
(L (W x30 x34 x5f x43 x4c x45 x41 x52)))
(T (W x3a x03 xfe xff x00 x00 x01 x01)
(L (W xff xff xff xff xff xff xff xff))
(L (W xff xff xff xff xff xff xff xff))))
(T (W x00 x00 x00 x00 x00 x00 x00 x00)
(T (W x18 x00 x00 x00 x10 x00 x00 x00)
(L (W x30 x34 x5f x43 x4c x45 x41 x52))
(L (W x00 x00 x00 x00 x00 x00 x00 x00)))
(T (W x00 x00 x00 x00 x00 x00 x00 x00)
(L (W x00 x00 x00 x00 x00 x00 x00 x00)) E)))))))
(T (W x00 x00 x00 x00 x00 x00 x00 x00)
(T (W xff xff xff xff xff xff xff xff)
(T (W xff xff xff xff xff xff xff xff)
(T (W x00 x00 x00 x00 x98 x41 xfc xff)
(T (W x68 x00 x00 x00 x5c x00 x00 x00)
(T (W x00 x00 x00 x00 x00 x00 x00 x00)
(T (W xff xff xff xff xff xff xff xff)
(L (W xff xff xff xff xff xff xff xff))
(L (W x46 x53 x59 x53 x5f x4e x53 x5f)))
(T (W x18 x00 x00 x00 x0c x00 x00 x00)
(L (W x00 x00 x80 x3f x00 x00 x80 x3f))
(L (W x00 x00 x00 x00 x12 xaf xff xff))))
(T (W x7b x31 x6d x52 x4c xfb xc4 x4d)
(T (W x00 x00 x00 x00 x00 x00 x00 x00)
(L (W xff xff xff xff xa8 x00 x00 x00))
(L (W xff xff xff xff xff xff xff xff)))
(T (W xff xff xff xff xff xff xff xff)
(L (W xb4 x00 x00 x00 x14 x00 x00 x00))
(L (W x18 x00 x00 x00 x10 x00 x00 x00)))))
(T (W x45 x26 x22 x84 xe4 x9c xf2 xcb)
(T (W x00 x00 x00 x00 x00 x00 x00 x00)
(T (W x00 x00 x00 x00 x00 x00 x00 x00)
(L (W xff xff xff xff xff xff xff xff))
(L (W x00 x00 x80 xbf x00 x00 x80 xbf)))
(T (W x00 x00 x00 x00 x00 x00 x00 x00)
(L (W x00 x00 x00 x00 x00 x00 x00 x00))
(L (W x46 x53 x59 x53 x5f x4e x53 x5f))))
(T (W xff xff xff xff xff xff xff xff)
(T (W xff xff xff xff xbc x00 x00 x00)
(L (W x00 x00 x01 x01 xbc x01 x00 x00))
(L (W x00 x00 x00 x00 x00 x00 x00 x00)))
(T (W x00 x00 x80 x3f x00 x00 x80 x3f)
(L (W xff xff xff xff xff xff xff xff))
(L (W x5c x00 x00 x00 x50 x00 x00 x00))))))
(T (W x40 x00 x00 x00 x9c x00 x00 x00)
(T (W x00 x00 x80 x3f x00 x00 x80 x3f)
(T (W x00 x00 x00 x00 x00 x00 x00 x00)
(T (W xff xff xff xff xff xff xff xff)
(L (W x00 x00 x00 x00 x00 x00 x00 x00))
(L (W x00 x00 x00 x00 x00 x00 x00 x00)))
(T (W xff xff xff xff xff xff xff xff)
(L (W x00 x00 x00 x00 x00 x00 x00 x00))
(L (W x45 x44 x00 x00 x00 x00 x00 x00))))
(T (W xff xff xff xff xff xff xff xff)
(T (W x00 x00 x80 x3f x00 x00 x80 x3f)
(L (W x00 x00 x80 xbf x00 x00 x80 xbf))
(L (W x04 x00 x00 x00 x92 x80 xff xff)))
(T (W xb8 x00 x00 x00 xac x00 x00 x00)
(L (W x5c x00 x00 x00 xff xff xff xff))
(L (W xff xff xff xff xff xff xff xff)))))
(T (W x00 x00 x80 x3f x00 x00 x80 x3f)
(T (W x00 x00 x00 x00 x00 x00 x00 x00)
(T (W x01 x00 x00 x00 xff xff xff xff)
(L (W x00 x00 x18 x00 x1c x00 x20 x00))
(L (W x23 x00 x00 x00 x26 x00 x00 x00)))
(T (W x68 x00 x00 x00 x5c x00 x00 x00)
(L (W x00 x00 x80 xbf x00 x00 x80 xbf))
(L (W x68 x00 x00 x00 x5c x00 x00 x00))))
(T (W x00 x00 x00 x00 x02 x00 x00 x00)
(T (W x00 x00 x00 x00 x00 x00 x00 x00)
(L (W xff xff xff xff xff xff xff xff))
(L (W x00 x00 x01 x01 x37 x00 x00 x00)))
(T (W x5a xc3 xff xff xd9 x00 x00 x00)
(L (W x30 x34 x5f x43 x4c x45 x41 x52)) E)))))
(T (W x64 x00 x00 x00 x9c x00 x00 x00)
(T (W x18 x00 x00 x00 x0c x00 x00 x00)
(T (W x62 x6c xfc xff x78 x00 x00 x00)
(T (W x00 x00 x00 x00 x00 x00 x00 x00)
(T (W xff xff xff xff xff xff xff xff)
(L (W x00 x00 x00 x00 x00 x00 x00 x00))
(L (W x38 x00 x00 x00 x0c x00 x00 x00)))
(T (W xff xff xff xff x9c x00 x00 x00)
(L (W x00 x00 x80 x3f x00 x00 x80 x3f))
(L (W x00 x00 x00 x00 xfa xa8 xff xff))))
(T (W xd2 x01 x00 x00 xff xff xff xff)
(T (W x00 x00 x00 x00 x00 x00 x00 x00)
(L (W x00 x00 x80 xbf x00 x00 x80 xbf))
(L (W xff xff xff xff xc4 x00 x00 x00)))
(T (W xb8 x00 x00 x00 xac x00 x00 x00)
(L (W xff xff xff xff xff xff xff xff))
(L (W x28 x00 x2c x00 x30 x00 x34 x00)))))
(T (W x00 x00 x80 x3f x00 x00 x80 x3f)
(T (W x00 x00 x00 x00 x00 x00 x00 x00)
(T (W xff xff xff xff xff xff xff xff)
(L (W x1a x60 xfe xff x74 x00 x00 x00))
(L (W x25 x00 x00 x00 x28 x00 x00 x00)))
(T (W x4f x84 x6f x8b xe8 xcb x63 xb7)
(L (W x00 x00 x00 x00 x00 x00 x00 x00))
(L (W x00 x00 x00 x00 x00 x00 x00 x00))))
(T (W x00 x00 x00 x00 x00 x00 x00 x00)
(T (W x38 x12 x4c x74 x7d x90 xd8 x26)
(L (W x00 x00 x80 xbf x00 x00 x80 xbf))
(L (W x00 x00 x00 x00 x00 x00 x00 x00)))
(T (W x00 x00 x80 x3f x00 x00 x80 x3f)
(L (W x00 x00 x00 x00 xfa x08 xff xff)) E))))
(T (W x01 x00 x00 x00 x2d x00 x00 x00)
(T (W x00 x00 x80 x3f x00 x00 x80 x3f)
(T (W x00 x00 x00 x00 x00 x00 x00 x00)
(T (W xff xff xff xff xff xff xff xff)
(L (W x00 x00 x00 x00 x00 x00 x00 x00))
(L (W x00 x00 x80 xbf x00 x00 x80 xbf)))
(T (W x00 x00 x00 x00 x00 x00 x00 x00)
(L (W x00 x00 x00 x00 x00 x00 x00 x00))
(L (W x00 x00 x00 x00 x00 x00 x00 x00))))
(T (W xff xff xff xff xff xff xff xff)
(T (W x20 x78 xfd xff x00 x01 x01 x01)
(L (W x50 x00 x00 x00 x44 x00 x00 x00))
(L (W xff xff xff xff xff xff xff xff)))
(T (W x01 x00 x00 x00 x9c x00 x00 x00)
(L (W x00 x00 x00 x00 x00 x00 x00 x00))
(L (W x00 x00 x00 x00 x12 x00 x00 x00)))))
(T (W x00 x00 x80 x3f x00 x00 x80 x3f)
(T (W x00 x00 x00 x00 x00 x00 x00 x00)
(T (W x00 x00 x00 x00 x00 x00 x00 x00)
(L (W x68 x00 x00 x00 x5c x00 x00 x00))
(L (W xff xff xff xff xbc x00 x00 x00)))
(T (W x18 x00 x00 x00 x0c x00 x00 x00)
(L (W x62 xdc xfe xff x78 x00 x00 x00))
(L (W x4f x84 x6f x8b xe8 xcb x63 xb7))))
(T (W xff xff xff xff xff xff xff xff)
(T (W x00 x00 x80 x3f x00 x00 x80 x3f)
(L (W x28 x00 x00 x00 x2b x00 x00 x00))
(L (W x68 x00 x00 x00 x5c x00 x00 x00)))
(T (W xcf x00 x00 x00 xff xff xff xff)
(L (W x00 x00 x01 x01 x4b x00 x00 x00)) E))))))
(T (W x00 x00 x00 x00 x00 x00 x00 x00)
(T (W x00 x00 x00 x00 x00 x00 x00 x00)
(T (W x00 x00 x00 x00 x00 x00 x00 x00)
(T (W xff xff xff xff xff xff xff xff)
(T (W x45 x26 x22 x84 xe4 x9c xf2 xcb)
(T (W x00 x00 x80 x3f x00 x00 x80 x3f)
(L (W x68 x00 x00 x00 x5c x00 x00 x00))
(L (W x62 x28 xff xff x78 x00 x00 x00)))
(T (W x00 x00 x00 x00 x00 x00 x00 x00)
(L (W x4f x84 x6f x8b xe8 xcb x63 xb7))
(L (W x00 x00 x80 xbf x00 x00 x80 xbf))))
(T (W x18 x00 x00 x00 x0c x00 x00 x00)
(T (W x45 x26 x22 x84 xe4 x9c xf2 xcb)
(L (W x04 x00 x00 x00 x58 x03 x00 x00))
(L (W x00 x00 x00 x00 x00 x00 x00 x00)))
(T (W x00 x00 x00 x00 x00 x00 x00 x00)
(L (W x00 x00 x00 x00 x00 x00 x00 x00))
(L (W x45 x26 x22 x84 xe4 x9c xf2 xcb)))))
(T (W xff xff xff xff xff xff xff xff)
(T (W x45 x26 x22 x84 xe4 x9c xf2 xcb)
(T (W x00 x00 x00 x00 x00 x00 x00 x00)
(L (W x00 x00 x00 x00 x00 x00 x00 x00))
(L (W x00 x00 x00 x00 x00 x00 x00 x00)))
(T (W xff xff xff xff x9c x00 x00 x00)
(L (W x25 x00 x00 x00 x28 x00 x00 x00))
(L (W x44 x00 x00 x00 x00 x00 x80 xbf))))
(T (W x00 x00 x80 x3f x00 x00 x80 x3f)
(T (W x00 x00 x80 x3f x00 x00 x80 x3f)
(L (W xff xff xff xff x9c x00 x00 x00))
(L (W xff xff xff xff xb8 x00 x00 x00)))
(T (W xff xff xff xff xff xff xff xff)
(L (W x62 x08 xff xff x78 x00 x00 x00))
(L (W x00 x00 x0c x00 x10 x00 x14 x00))))))
(T (W x64 x5f xfc xff x15 x00 x00 x00)
(T (W x00 x00 x00 x00 x00 x00 x00 x00)
(T (W x0a x00 x00 x00 x3c x00 x00 x00)
(T (W x45 x26 x22 x84 xe4 x9c xf2 xcb)
(L (W x50 x00 x00 x00 x44 x00 x00 x00))
(L (W xff xff xff xff xff xff xff xff)))
(T (W x00 x00 x80 x3f x00 x00 x80 x3f)
(L (W x62 xb8 xfe xff x78 x00 x00 x00))
(L (W x18 x00 x00 x00 x0c x00 x00 x00))))
(T (W x54 x00 x00 x00 x48 x00 x00 x00)
(T (W x00 x00 x00 x00 x6a x73 xfd xff)
(L (W xff xff xff xff xff xff xff xff))
(L (W x45 x26 x22 x84 xe4 x9c xf2 xcb)))
(T (W x00 x00 x00 x00 x00 x00 x00 x00)
(L (W x50 x00 x00 x00 x44 x00 x00 x00))
(L (W x62 xf8 xff xff x78 x00 x00 x00)))))
(T (W xff xff xff xff xff xff xff xff)
(T (W x20 xd4 xfc xff x00 x01 x01 x01)
(T (W x50 x00 x00 x00 x44 x00 x00 x00)
(L (W x00 x00 x01 x01 x81 x00 x00 x00))
(L (W x00 x00 x00 x00 x00 x00 x00 x00)))
(T (W x00 x00 x00 x00 x00 x00 x00 x00)
(L (W x46 x53 x59 x53 x5f x4e x53 x5f))
(L (W x6c x00 x00 x00 x60 x00 x00 x00))))
(T (W x50 x00 x00 x00 x44 x00 x00 x00)
(T (W xff xff xff xff xff xff xff xff)
(L (W x00 x00 x01 x01 x9a x01 x00 x00))
(L (W x50 x00 x00 x00 x44 x00 x00 x00)))
(T (W x00 x00 x80 x3f x00 x00 x80 x3f)
(L (W xc4 x00 x00 x00 x01 x00 x00 x00)) E)))))
(T (W x00 x00 x00 x00 x00 x00 x00 x00)
(T (W x00 x00 x00 x00 x00 x00 x00 x00)
(T (W xca x20 xfe xff x00 x00 x01 x01)
(T (W x01 x00 x00 x00 x9c x00 x00 x00)
(T (W x00 x00 x80 x3f x00 x00 x80 x3f)
(L (W x68 x00 x00 x00 x5c x00 x00 x00))
(L (W x45 x26 x22 x84 xe4 x9c xf2 xcb)))
(T (W x00 x00 x00 x00 x00 x00 x00 x00)
(L (W x00 x00 x80 x3f x00 x00 x80 x3f))
(L (W x68 x00 x00 x00 x5c x00 x00 x00))))
(T (W x00 x00 x80 x3f x00 x00 x80 x3f)
(T (W xff xff xff xff xff xff xff xff)
(L (W xff xff xff xff xff xff xff xff))
(L (W x00 x00 x80 xbf x00 x00 x80 xbf)))
(T (W x70 x5f x77 x69 x6c x64 x5f x70)
(L (W x00 x00 x80 xbf x00 x00 x80 xbf))
(L (W x00 x00 x00 x00 x00 x00 x00 x00)))))
(T (W xff xff xff xff xff xff xff xff)
(T (W x68 x00 x00 x00 x5c x00 x00 x00)
(T (W x00 x00 x80 x3f x00 x00 x80 x3f)
(L (W x45 x26 x22 x84 xe4 x9c xf2 xcb))
(L (W x00 x00 x00 x00 x12 x00 x00 x00)))
(T (W xff xff xff xff xff xff xff xff)
(L (W xff xff xff xff xff xff xff xff))
(L (W x68 x00 x00 x00 x5c x00 x00 x00))))
(T (W x00 x00 x80 x3f x00 x00 x80 x3f)
(T (W x00 x00 x00 x00 x98 x8d xfd xff)
(L (W x00 x00 x00 x00 x00 x00 x00 x00))
(L (W xc4 x00 x00 x00 x01 x00 x00 x00)))
(T (W x00 x00 x00 x00 x1c x00 x20 x00)
(L (W xff xff xff xff xa0 x00 x00 x00)) E))))
(T (W x01 x00 x00 x00 x04 x00 x00 x00)
(T (W x20 x01 x00 x00 x04 x00 x00 x00)
(T (W xff xff xff xff x03 x00 x00 x00)
(T (W x00 x00 x00 x00 x00 x00 x00 x00)
(L (W x00 x00 x00 x00 x00 x00 x00 x00))
(L (W xb5 x01 x00 x00 xff xff xff xff)))
(T (W x45 x26 x22 x84 xe4 x9c xf2 xcb)
(L (W x54 x00 x00 x00 x48 x00 x00 x00))
(L (W x45 x26 x22 x84 xe4 x9c xf2 xcb))))
(T (W x00 x00 x80 x3f x00 x00 x80 x3f)
(T (W x00 x00 x00 x00 x00 x00 x00 x00)
(L (W x00 x00 x00 x00 x00 x00 x00 x00))
(L (W x6c x00 x00 x00 x60 x00 x00 x00)))
(T (W xbc x02 xfe xff x2b x00 x00 x00)
(L (W x94 xfd xfe xff xda xf8 xfe xff))
(L (W x00 x00 x80 xbf x00 x00 x80 xbf)))))
(T (W xb8 x00 x00 x00 xac x00 x00 x00)
(T (W x45 x26 x22 x84 xe4 x9c xf2 xcb)
(T (W x20 x5c xfd xff x00 x01 x01 x01)
(L (W x45 x44 x00 x00 x00 x00 x00 x00))
(L (W x00 x00 x80 xbf x00 x00 x80 xbf)))
(T (W x45 x26 x22 x84 xe4 x9c xf2 xcb)
(L (W x00 x00 x00 x00 x00 x00 x00 x00))
(L (W x00 x00 x00 x00 x00 x00 x00 x00))))
(T (W x68 x00 x00 x00 x5c x00 x00 x00)
(T (W x00 x00 x00 x00 x00 x00 x00 x00)
(L (W x54 x00 x00 x00 x48 x00 x00 x00))
(L (W x00 x00 x80 xbf x00 x00 x80 xbf)))
(T (W x45 x26 x22 x84 xe4 x9c xf2 xcb)
(L (W x50 x00 x00 x00 x44 x00 x00 x00)) E)))))))))
(T (W x48 x17 x02 x00 xcc x14 x02 x00)
(T (W xf0 x5e x01 x00 x94 x5c x01 x00)
(T (W xe0 x2c x00 x00 x94 x2a x00 x00)
(T (W xff xff xff xff x01 x00 x00 x00)
(T (W x1c x01 x00 x00 x04 x00 x00 x00)
(T (W xff xff xff xff xff xff xff xff)
(T (W xff xff xff xff x04 x00 x00 x00)
(T (W x00 x00 x80 x3f x00 x00 x80 x3f)
(T (W x00 x00 x00 x00 x00 x00 x00 x00)
(L (W x00 x00 x00 x00 x00 x00 x00 x00))
(L (W x00 x00 x80 xbf x00 x00 x80 xbf)))
(T (W xc0 x00 x00 x00 x01 x00 x00 x00)
(L (W x00 x00 x80 x3f x00 x00 x80 x3f))
(L (W x4f x84 x6f x8b xe8 xcb x63 xb7))))
(T (W x00 x00 x00 x00 x00 x00 x00 x00)
(T (W x00 x00 x00 x00 x00 x00 x00 x00)
(L (W xff xff xff xff xff xff xff xff))
(L (W xe4 x68 xff xff x15 x00 x00 x00)))
(T (W xff xff xff xff xff xff xff xff)
(L (W xff xff xff xff xff xff xff xff))
(L (W xff xff xff xff xff xff xff xff)))))
(T (W x18 x00 x00 x00 x10 x00 x00 x00)
(T (W x00 x00 x80 x3f x00 x00 x80 x3f)
(T (W x7c x01 x00 x00 x04 x00 x00 x00)
(L (W x4a xf2 xff xff x00 x00 x01 x01))
(L (W x45 x26 x22 x84 xe4 x9c xf2 xcb)))
(T (W x45 x26 x22 x84 xe4 x9c xf2 xcb)
(L (W x00 x00 x00 x00 x00 x00 x00 x00))
(L (W x00 x00 x80 xbf x00 x00 x80 xbf))))
(T (W x00 x00 x00 x00 x00 x00 x00 x00)
(T (W xff xff xff xff xff xff xff xff)
(L (W x00 x00 x00 x00 x01 x00 x00 x00))
(L (W x00 x00 x00 x00 x00 x00 x00 x00)))
(T (W xb8 x00 x00 x00 xac x00 x00 x00)
(L (W x00 x00 x00 x00 x00 x00 x00 x00))
(L (W x00 x00 x00 x00 x00 x00 x00 x00))))))
(T (W xff xff xff xff xff xff xff xff)
(T (W x9a x85 xfc xff x74 x00 x00 x00)
(T (W x00 x00 x00 x00 x00 x00 x00 x00)
(T (W x3e x00 x00 x00 x10 x00 x00 x00)
(L (W x45 x26 x22 x84 xe4 x9c xf2 xcb))
(L (W x00 x00 x80 xbf x00 x00 x80 xbf)))
(T (W x54 x02 x00 x00 x38 x01 x00 x00)
(L (W x00 x00 x00 x00 x00 x00 x00 x00))
(L (W x49 xa1 x68 x4a xeb x5f xdd x3d))))
(T (W x45 x26 x22 x84 xe4 x9c xf2 xcb)
(T (W x50 x00 x00 x00 x44 x00 x00 x00)
(L (W xff xff xff xff xb0 x00 x00 x00))
(L (W x00 x00 x00 x00 x00 x00 x00 x00)))
(T (W xff xff xff xff xff xff xff xff)
(L (W x00 x00 x00 x00 x00 x00 x00 x00))
(L (W xff xff xff xff xff xff xff xff)))))
(T (W x50 x00 x00 x00 x44 x00 x00 x00)
(T (W x00 x00 x00 x00 x00 x00 x00 x00)
(T (W x00 x00 x00 x00 x00 x00 x00 x00)
(L (W x68 x00 x00 x00 x5c x00 x00 x00))
(L (W xff xff xff xff xff xff xff xff)))
(T (W x9a xe5 xfd xff x74 x00 x00 x00)
(L (W x68 x00 x00 x00 x5c x00 x00 x00))
(L (W x49 xa1 x68 x4a xeb x5f xdd x3d))))
(T (W x00 x00 x00 x00 x00 x00 x00 x00)
(T (W x00 x00 x80 x3f x00 x00 x80 x3f)
(L (W xff xff xff xff xff xff xff xff))
(L (W x00 x00 x80 xbf x00 x00 x80 xbf)))
(T (W x2c x00 x30 x00 x34 x00 x38 x00)
(L (W x49 xa1 x68 x4a xeb x5f xdd x3d)) E)))))
(T (W xff xff xff xff xff xff xff xff)
(T (W xc2 x01 x00 x00 xff xff xff xff)
(T (W x18 x00 x00 x00 x0c x00 x00 x00)
(T (W x00 x00 x80 x3f x00 x00 x80 x3f)
(T (W x00 x00 x00 x00 x00 x00 x00 x00)
(L (W x00 x00 x00 x00 x00 x00 x00 x00))
(L (W x00 x00 x00 x00 x00 x00 x00 x00)))
(T (W xff xff xff xff xff xff xff xff)
(L (W x14 x00 x00 x00 x18 x17 x00 x00))
(L (W x00 x00 x00 x00 x00 x00 x00 x00))))
(T (W x00 x00 x00 x00 x00 x00 x00 x00)
(T (W x00 x00 x80 x3f x00 x00 x80 x3f)
(L (W xa4 x00 x00 x00 x32 x00 x00 x00))
(L (W xff xff xff xff xff xff xff xff)))
(T (W xff xff xff xff xff xff xff xff)
(L (W xd7 x00 x00 x00 xff xff xff xff))
(L (W x45 x26 x22 x84 xe4 x9c xf2 xcb)))))
(T (W x40 x00 x00 x00 x9c x00 x00 x00)
(T (W x00 x00 x80 x3f x00 x00 x80 x3f)
(T (W xff xff xff xff xff xff xff xff)
(L (W xff xff xff xff xff xff xff xff))
(L (W xff xff xff xff xbc x00 x00 x00)))
(T (W x50 x00 x00 x00 x44 x00 x00 x00)
(L (W x00 x00 x80 xbf x00 x00 x80 xbf))
(L (W x45 x26 x22 x84 xe4 x9c xf2 xcb))))
(T (W x00 x00 x00 x00 x00 x00 x00 x00)
(T (W x00 x00 x00 x00 x00 x00 x00 x00)
(L (W x00 x00 x80 xbf x00 x00 x80 xbf))
(L (W x49 xa1 x68 x4a xeb x5f xdd x3d)))
(T (W x01 x00 x00 x00 x9c x00 x00 x00)
(L (W x00 x00 x00 x00 x00 x00 x00 x00))
(L (W x00 x00 x00 x00 x00 x00 x00 x00))))))
(T (W xff xff xff xff xff xff xff xff)
(T (W x45 x26 x22 x84 xe4 x9c xf2 xcb)
(T (W x45 x26 x22 x84 xe4 x9c xf2 xcb)
(T (W x00 x00 x00 x00 xea xf6 xff xff)
(L (W x1a x00 x00 x00 x67 x72 x6f x75))
(L (W x00 x00 x80 xbf x00 x00 x80 xbf)))
(T (W x30 x34 x5f x43 x4c x45 x41 x52)
(L (W x00 x00 x00 x00 x00 x00 x00 x00))
(L (W x45 x26 x22 x84 xe4 x9c xf2 xcb))))
(T (W x00 x00 x00 x00 x00 x00 x00 x00)
(T (W x03 x00 x00 x00 xd0 x00 x00 x00)
(L (W x9a x8d xfe xff x74 x00 x00 x00))
(L (W x45 x44 x00 x00 x00 x00 x00 x00)))
(T (W xff xff xff xff xff xff xff xff)
(L (W x00 x00 x00 x00 x00 x00 x00 x00))
(L (W x00 x00 x80 xbf x00 x00 x80 xbf)))))
(T (W x6c x00 x00 x00 x60 x00 x00 x00)
(T (W x00 x00 x00 x00 x00 x00 x00 x00)
(T (W x12 x00 x00 x00 x46 x53 x59 x53)
(L (W x18 x00 x00 x00 x10 x00 x00 x00))
(L (W x95 x01 x00 x00 xff xff xff xff)))
(T (W xff xff xff xff xff xff xff xff)
(L (W xff xff xff xff xff xff xff xff))
(L (W x00 x00 x00 x00 x00 x00 x00 x00))))
(T (W x00 x00 x00 x00 x00 x00 x00 x00)
(T (W x00 x00 x80 x3f x00 x00 x80 x3f)
(L (W x18 x00 x00 x00 x10 x00 x00 x00))
(L (W x00 x00 x00 x00 x00 x00 x00 x00)))
(T (W x00 x00 x00 x00 x00 x00 x00 x00)
(L (W x00 x00 x80 xbf x00 x00 x80 xbf)) E))))))
(T (W x00 x00 x80 x3f x00 x00 x80 x3f)
(T (W x00 x00 x80 x3f x00 x00 x80 x3f)
(T (W x45 x26 x22 x84 xe4 x9c xf2 xcb)
(T (W x00 x00 x80 x3f x00 x00 x80 x3f)
(T (W xd2 x5f xff xff x64 x01 x00 x00)
(T (W x9a x39 xfd xff x74 x00 x00 x00)
(L (W x50 x00 x00 x00 x44 x00 x00 x00))
(L (W xff xff xff xff xff xff xff xff)))
(T (W x00 x00 x80 x3f x00 x00 x80 x3f)
(L (W x45 x44 x00 x00 x00 x00 x00 x00))
(L (W xa0 xa1 xff xff x00 x01 x01 x01))))
(T (W xff xff xff xff xff xff xff xff)
(T (W xff xff xff xff xc4 x00 x00 x00)
(L (W x45 x26 x22 x84 xe4 x9c xf2 xcb))
(L (W x14 x00 x00 x00 x0c x00 x00 x00)))
(T (W x00 x00 x80 x3f x00 x00 x80 x3f)
(L (W x00 x00 x80 xbf x00 x00 x80 xbf))
(L (W x00 x00 x80 xbf x00 x00 x80 xbf)))))
(T (W x1d x00 x00 x00 x0c x00 x00 x00)
(T (W xff xff xff xff xff xff xff xff)
(T (W x00 x00 x00 x00 x00 x00 x00 x00)
(L (W x00 x00 x80 x3f x00 x00 x80 x3f))
(L (W x00 x00 x00 x00 x00 x00 x00 x00)))
(T (W xff xff xff xff xff xff xff xff)
(L (W xff xff xff xff xff xff xff xff))
(L (W xcc x00 x00 x00 x01 x00 x00 x00))))
(T (W x9a x19 xfd xff x74 x00 x00 x00)
(T (W xa0 x81 xfd xff x00 x01 x01 x01)
(L (W x03 x00 x00 x00 xbc x00 x00 x00))
(L (W xff xff xff xff xff xff xff xff)))
(T (W x00 x00 x00 x00 x00 x00 x00 x00)
(L (W xff xff xff xff xff xff xff xff))
(L (W x10 x00 x14 x00 x18 x00 x1c x00))))))
(T (W x45 x26 x22 x84 xe4 x9c xf2 xcb)
(T (W x00 x00 x00 x00 x00 x00 x00 x00)
(T (W xff xff xff xff xff xff xff xff)
(T (W x00 x00 x80 x3f x00 x00 x80 x3f)
(L (W xff xff xff xff x03 x00 x00 x00))
(L (W x00 x00 x01 x01 xb5 x01 x00 x00)))
(T (W x50 x00 x00 x00 x44 x00 x00 x00)
(L (W xff xff xff xff xff xff xff xff))
(L (W xff xff xff xff xff xff xff xff))))
(T (W xa0 xf1 xfc xff x00 x01 x01 x01)
(T (W x46 x53 x59 x53 x5f x4e x53 x5f)
(L (W x00 x00 x00 x00 x00 x00 x00 x00))
(L (W x14 x00 x00 x00 x0c x00 x00 x00)))
(T (W x00 x00 x80 x3f x00 x00 x80 x3f)
(L (W x45 x26 x22 x84 xe4 x9c xf2 xcb))
(L (W xff xff xff xff xff xff xff xff)))))
(T (W xff xff xff xff xff xff xff xff)
(T (W xff xff xff xff xff xff xff xff)
(T (W x45 x26 x22 x84 xe4 x9c xf2 xcb)
(L (W xe4 x5c xfe xff x35 x00 x00 x00))
(L (W x00 x00 x80 xbf x00 x00 x80 xbf)))
(T (W x00 x00 x00 x00 x00 x00 x00 x00)
(L (W x00 x00 x00 x00 x12 x00 x00 x00))
(L (W x68 x00 x00 x00 x5c x00 x00 x00))))
(T (W x18 x00 x00 x00 x10 x00 x00 x00)
(T (W xba xba xfd xff x00 x00 x01 x01)
(L (W x03 x00 x00 x00 xfc x00 x00 x00))
(L (W x23 x00 x00 x00 x26 x00 x00 x00)))
(T (W xb8 x00 x00 x00 xac x00 x00 x00)
(L (W xff xff xff xff xff xff xff xff)) E)))))
(T (W x00 x00 x80 x3f x00 x00 x80 x3f)
(T (W x00 x00 x00 x00 x00 x00 x00 x00)
(T (W x00 x00 x00 x00 x00 x00 x00 x00)
(T (W x4a x69 xff xff x00 x00 x01 x01)
(T (W x00 x00 x80 x3f x00 x00 x80 x3f)
(L (W xff xff xff xff xff xff xff xff))
(L (W xff xff xff xff xff xff xff xff)))
(T (W x00 x00 x80 x3f x00 x00 x80 x3f)
(L (W x00 x00 x00 x00 x00 x00 x00 x00))
(L (W xff xff xff xff x9c x00 x00 x00))))
(T (W x64 x00 x00 x00 x9c x00 x00 x00)
(T (W x00 x00 x01 x01 x4b x00 x00 x00)
(L (W x00 x00 x00 x00 x12 x00 x00 x00))
(L (W xa0 x69 xff xff x00 x01 x01 x01)))
(T (W x45 x26 x22 x84 xe4 x9c xf2 xcb)
(L (W x00 x00 x00 x00 x18 xeb xfe xff))
(L (W x00 x00 x80 xbf x00 x00 x80 xbf)))))
(T (W x4a x3e xfe xff x00 x00 x01 x01)
(T (W xff xff xff xff xff xff xff xff)
(T (W xff xff xff xff xac x00 x00 x00)
(L (W x45 x26 x22 x84 xe4 x9c xf2 xcb))
(L (W x00 x00 x80 xbf x00 x00 x80 xbf)))
(T (W x00 x00 x00 x00 x04 x00 x00 x00)
(L (W x04 x00 x00 x00 x7a xca xfe xff))
(L (W xff xff xff xff xff xff xff xff))))
(T (W x00 x00 x80 x3f x00 x00 x80 x3f)
(T (W xff xff xff xff xbc x00 x00 x00)
(L (W x00 x00 x00 x00 x00 x00 x00 x00))
(L (W xcc x00 x00 x00 x02 x00 x00 x00)))
(T (W x3c x10 xfe xff x30 x00 x00 x00)
(L (W xff xff xff xff x9c x00 x00 x00)) E))))
(T (W x45 x26 x22 x84 xe4 x9c xf2 xcb)
(T (W x00 x00 x00 x00 x00 x00 x00 x00)
(T (W xff xff xff xff xff xff xff xff)
(T (W x00 x00 x80 x3f x00 x00 x80 x3f)
(L (W xff xff xff xff xff xff xff xff))
(L (W x00 x00 x00 x00 x00 x00 x00 x00)))
(T (W xff xff xff xff xb0 x00 x00 x00)
(L (W xcc x00 x00 x00 x01 x00 x00 x00))
(L (W xff xff xff xff xff xff xff xff))))
(T (W x50 x00 x00 x00 x44 x00 x00 x00)
(T (W x00 x00 x00 x00 x00 x00 x00 x00)
(L (W x00 x00 x00 x00 x00 x00 x00 x00))
(L (W xff xff xff xff xb0 x00 x00 x00)))
(T (W x00 x00 x00 x00 x00 x00 x00 x00)
(L (W xb0 x00 x00 x00 x64 x00 x00 x00))
(L (W x74 x04 x00 x00 xe0 x02 x00 x00)))))
(T (W x64 x01 x00 x00 xff xff xff xff)
(T (W xff xff xff xff xff xff xff xff)
(T (W x35 x00 x00 x00 x38 x00 x00 x00)
(L (W x49 xa1 x68 x4a xeb x5f xdd x3d))
(L (W x6c x00 x00 x00 x60 x00 x00 x00)))
(T (W x45 x26 x22 x84 xe4 x9c xf2 xcb)
(L (W x00 x00 x00 x00 x00 x00 x00 x00))
(L (W x45 x26 x22 x84 xe4 x9c xf2 xcb))))
(T (W x01 x00 x00 x00 xa0 x00 x00 x00)
(T (W x4c x45 x41 x52 x45 x44 x00 x00)
(L (W x6c x00 x00 x00 x60 x00 x00 x00))
(L (W xe2 x9d xff xff x78 x00 x00 x00)))
(T (W x68 x00 x00 x00 x5c x00 x00 x00)
(L (W x2b x00 x00 x00 x2e x00 x00 x00)) E)))))))
(T (W xb8 x00 x00 x00 xac x00 x00 x00)
(T (W x45 x26 x22 x84 xe4 x9c xf2 xcb)
(T (W x00 x00 x00 x00 x00 x00 x00 x00)
(T (W x00 x00 x00 x00 x00 x00 x00 x00)
(T (W x00 x00 x00 x00 xea x20 xff xff)
(T (W x64 x00 x00 x00 x9c x00 x00 x00)
(T (W x00 x00 x00 x00 x00 x00 x00 x00)
(L (W x45 x26 x22 x84 xe4 x9c xf2 xcb))
(L (W xe2 x23 xff xff x78 x00 x00 x00)))
(T (W x80 x03 x00 x00 x54 x02 x00 x00)
(L (W xff xff xff xff xff xff xff xff))
(L (W x00 x00 x80 xbf x00 x00 x80 xbf))))
(T (W x00 x00 x80 x3f x00 x00 x80 x3f)
(T (W x54 x00 x00 x00 x48 x00 x00 x00)
(L (W x00 x00 x00 x00 x00 x00 x00 x00))
(L (W x00 x00 x80 xbf x00 x00 x80 xbf)))
(T (W x00 x00 x00 x00 x00 x00 x00 x00)
(L (W x00 x00 x00 x00 x12 x00 x00 x00))
(L (W x30 x34 x5f x43 x4c x45 x41 x52)))))
(T (W xff xff xff xff xff xff xff xff)
(T (W x50 x00 x00 x00 x44 x00 x00 x00)
(T (W x50 x00 x00 x00 x44 x00 x00 x00)
(L (W x00 x00 x00 x00 x00 x00 x00 x00))
(L (W xff xff xff xff xff xff xff xff)))
(T (W x50 x00 x00 x00 x44 x00 x00 x00)
(L (W xe2 xc3 xfe xff x78 x00 x00 x00))
(L (W x00 x00 x00 x00 xa4 xbf xff xff))))
(T (W x00 x00 x80 x3f x00 x00 x80 x3f)
(T (W x00 x00 x00 x00 x00 x00 x00 x00)
(L (W x00 x00 x80 x3f x00 x00 x80 x3f))
(L (W x00 x00 x00 x00 x18 x81 xff xff)))
(T (W xff xff xff xff xff xff xff xff)
(L (W x00 x00 x80 xbf x00 x00 x80 xbf))
(L (W xff xff xff xff xff xff xff xff))))))
(T (W x00 x00 x00 x00 x00 x00 x00 x00)
(T (W xff xff xff xff xff xff xff xff)
(T (W xa0 xaf xfc xff x00 x01 x01 x01)
(T (W x45 x26 x22 x84 xe4 x9c xf2 xcb)
(L (W x50 x00 x00 x00 x44 x00 x00 x00))
(L (W x18 x00 x00 x00 x0c x00 x00 x00)))
(T (W x45 x26 x22 x84 xe4 x9c xf2 xcb)
(L (W xe2 xb3 xfe xff x78 x00 x00 x00))
(L (W x54 x00 x00 x00 x48 x00 x00 x00))))
(T (W x00 x00 x80 x3f x00 x00 x80 x3f)
(T (W xff xff xff xff xff xff xff xff)
(L (W xff xff xff xff xff xff xff xff))
(L (W x00 x00 x80 xbf x00 x00 x80 xbf)))
(T (W x00 x00 x00 x00 x00 x00 x00 x00)
(L (W x00 x00 x80 xbf x00 x00 x80 xbf))
(L (W x00 x00 x10 x00 x14 x00 x18 x00)))))
(T (W xff xff xff xff xff xff xff xff)
(T (W x45 x26 x22 x84 xe4 x9c xf2 xcb)
(T (W x00 x00 x80 x3f x00 x00 x80 x3f)
(L (W x5f x44 x41 x52 x4b x52 x41 x49))
(L (W x00 x00 x00 x00 x00 x00 x00 x00)))
(T (W xff xff xff xff x01 x00 x00 x00)
(L (W xff xff xff xff xff xff xff xff))
(L (W xd7 x00 x00 x00 xff xff xff xff))))
(T (W x00 x00 x80 x3f x00 x00 x80 x3f)
(T (W x18 x00 x00 x00 x0c x00 x00 x00)
(L (W x00 x00 x80 x3f x00 x00 x80 x3f))
(L (W x3c x00 x00 x00 x00 x00 x80 xbf)))
(T (W x00 x00 x80 x3f x00 x00 x80 x3f)
(L (W x6c x00 x00 x00 x60 x00 x00 x00)) E)))))
(T (W x00 x00 x00 x00 x00 x00 x00 x00)
(T (W x00 x00 x00 x00 x00 x00 x00 x00)
(T (W x1c x01 x00 x00 x04 x00 x00 x00)
(T (W xbc x00 x00 x00 xb0 x00 x00 x00)
(T (W x45 x26 x22 x84 xe4 x9c xf2 xcb)
(L (W x68 x00 x00 x00 x5c x00 x00 x00))
(L (W x00 x00 x80 xbf x00 x00 x80 xbf)))
(T (W x46 x53 x59 x53 x5f x4e x53 x5f)
(L (W xff xff xff xff xff xff xff xff))
(L (W x00 x00 x80 xbf x00 x00 x80 xbf))))
(T (W x00 x00 x80 x3f x00 x00 x80 x3f)
(T (W xff xff xff xff xb0 x00 x00 x00)
(L (W xff xff xff xff xff xff xff xff))
(L (W x00 x00 x00 x00 x00 x00 x00 x00)))
(T (W x00 x00 x00 x00 x00 x00 x00 x00)
(L (W x00 x00 x00 x00 x00 x00 x00 x00))
(L (W xff xff xff xff xff xff xff xff)))))
(T (W xff xff xff xff xff xff xff xff)
(T (W x00 x00 x00 x00 x18 xc9 xfc xff)
(T (W x00 x00 x00 x00 x00 x00 x00 x00)
(L (W x00 x00 x00 x00 x00 x00 x00 x00))
(L (W x46 x53 x59 x53 x5f x4e x53 x5f)))
(T (W x03 x00 x00 x00 xcc x00 x00 x00)
(L (W xc4 x00 x00 x00 x01 x00 x00 x00))
(L (W xff xff xff xff x90 x00 x00 x00))))
(T (W x64 x00 x00 x00 x9c x00 x00 x00)
(T (W x00 x00 x80 x3f x00 x00 x80 x3f)
(L (W xff xff xff xff xff xff xff xff))
(L (W x00 x00 x80 xbf x00 x00 x80 xbf)))
(T (W xff xff xff xff xff xff xff xff)
(L (W x00 x00 x80 xbf x00 x00 x80 xbf)) E))))
(T (W x17 x00 x00 x00 x10 x00 x00 x00)
(T (W xff xff xff xff xff xff xff xff)
(T (W x50 x00 x00 x00 x44 x00 x00 x00)
(T (W x00 x00 x80 x3f x00 x00 x80 x3f)
(L (W x50 x00 x00 x00 x44 x00 x00 x00))
(L (W xff xff xff xff xff xff xff xff)))
(T (W x00 x00 x80 x3f x00 x00 x80 x3f)
(L (W x00 x00 x80 x3f x00 x00 x80 x3f))
(L (W x45 x26 x22 x84 xe4 x9c xf2 xcb))))
(T (W x00 x00 x80 x3f x00 x00 x80 x3f)
(T (W x02 x00 x00 x00 x30 x01 x00 x00)
(L (W xff xff xff xff xff xff xff xff))
(L (W x00 x00 x80 xbf x00 x00 x80 xbf)))
(T (W x3c xfe xfd xff x33 x00 x00 x00)
(L (W x54 x00 x00 x00 x48 x00 x00 x00))
(L (W xa0 xf7 xff xff x00 x01 x01 x01)))))
(T (W xff xff xff xff xff xff xff xff)
(T (W x50 x00 x00 x00 x44 x00 x00 x00)
(T (W x00 x00 x80 x3f x00 x00 x80 x3f)
(L (W xe2 x86 xfe xff x26 x02 x00 x00))
(L (W x00 x00 x00 x00 x00 x00 x00 x00)))
(T (W x26 x00 x00 x00 x0c x00 x00 x00)
(L (W x00 x00 x01 x01 x43 x00 x00 x00))
(L (W xc8 x00 x00 x00 x01 x00 x00 x00))))
(T (W x45 x26 x22 x84 xe4 x9c xf2 xcb)
(T (W xff xff xff xff xff xff xff xff)
(L (W x25 x00 x00 x00 x67 x72 x6f x75))
(L (W xff xff xff xff xff xff xff xff)))
(T (W x45 x26 x22 x84 xe4 x9c xf2 xcb)
(L (W x3c x00 x00 x00 x00 x00 x80 xbf)) E))))))
(T (W x18 x00 x00 x00 x0c x00 x00 x00)
(T (W x9a x4b xfc xff x74 x00 x00 x00)
(T (W x01 x00 x00 x00 xa0 x00 x00 x00)
(T (W x00 x00 x80 x3f x00 x00 x80 x3f)
(T (W x00 x00 x00 x00 x00 x00 x00 x00)
(T (W xff xff xff xff xff xff xff xff)
(L (W x4a xd8 xff xff x00 x00 x01 x01))
(L (W x00 x00 x01 x01 x4b x00 x00 x00)))
(T (W x68 x00 x00 x00 x5c x00 x00 x00)
(L (W x03 x00 x00 x00 xd0 x00 x00 x00))
(L (W xff xff xff xff xff xff xff xff))))
(T (W x00 x00 x00 x00 x04 x00 x00 x00)
(T (W x00 x00 x00 x00 x00 x00 x00 x00)
(L (W x00 x00 x80 xbf x00 x00 x80 xbf))
(L (W xff xff xff xff xff xff xff xff)))
(T (W xb8 x00 x00 x00 xac x00 x00 x00)
(L (W x45 x26 x22 x84 xe4 x9c xf2 xcb))
(L (W x00 x00 x00 x00 x00 x00 x00 x00)))))
(T (W x00 x00 x80 x3f x00 x00 x80 x3f)
(T (W x40 x00 x00 x00 x0c x00 x00 x00)
(T (W x18 x00 x00 x00 x0c x00 x00 x00)
(L (W x9a x5b xfe xff x74 x00 x00 x00))
(L (W x6c x00 x00 x00 x60 x00 x00 x00)))
(T (W x5f x4e x53 x5f x30 x34 x5f x43)
(L (W x46 x53 x59 x53 x5f x4e x53 x5f))
(L (W xff xff xff xff xff xff xff xff))))
(T (W xff xff xff xff xff xff xff xff)
(T (W xff xff xff xff xff xff xff xff)
(L (W x3c x8a xfe xff x2e x00 x00 x00))
(L (W x00 x00 x00 x00 x00 x00 x00 x00)))
(T (W x00 x00 x80 x3f x00 x00 x80 x3f)
(L (W x00 x00 x00 x00 x7a x04 xff xff))
(L (W x00 x00 x80 xbf x00 x00 x80 xbf))))))
(T (W x00 x00 x80 x3f x00 x00 x80 x3f)
(T (W x50 x00 x00 x00 x44 x00 x00 x00)
(T (W x00 x00 x00 x00 x00 x00 x00 x00)
(T (W xff xff xff xff x04 x00 x00 x00)
(L (W xb8 x01 x00 x00 xff xff xff xff))
(L (W x00 x00 x00 x00 x00 x00 x00 x00)))
(T (W xff xff xff xff xff xff xff xff)
(L (W x00 x00 x00 x00 x00 x00 x00 x00))
(L (W x00 x00 x00 x00 x00 x00 x00 x00))))
(T (W xd0 x01 x00 x00 xff xff xff xff)
(T (W x00 x00 x80 x3f x00 x00 x80 x3f)
(L (W x00 x00 x00 x00 x00 x00 x00 x00))
(L (W xff xff xff xff xff xff xff xff)))
(T (W x01 x00 x00 x00 x9c x00 x00 x00)
(L (W xff xff xff xff xff xff xff xff))
(L (W x00 x00 x00 x00 xf2 xf5 xff xff)))))
(T (W x00 x00 x00 x00 x00 x00 x00 x00)
(T (W x00 x00 x00 x00 x00 x00 x00 x00)
(T (W xdf x01 x00 x00 xff xff xff xff)
(L (W x00 x00 x80 xbf x00 x00 x80 xbf))
(L (W x00 x00 x00 x00 x18 x55 xff xff)))
(T (W x00 x00 x80 x3f x00 x00 x80 x3f)
(L (W xe2 xd7 xfe xff x78 x00 x00 x00))
(L (W xc6 x01 x00 x00 xff xff xff xff))))
(T (W xff xff xff xff xff xff xff xff)
(T (W x45 x26 x22 x84 xe4 x9c xf2 xcb)
(L (W x00 x00 x00 x00 x00 x00 x00 x00))
(L (W xff xff xff xff xff xff xff xff)))
(T (W xff xff xff xff xff xff xff xff)
(L (W x5c x0e xb9 x28 xbf xcd x67 x6a)) E)))))
(T (W x18 x00 x00 x00 x10 x00 x00 x00)
(T (W x9a x63 xfc xff x74 x00 x00 x00)
(T (W x00 x00 x80 x3f x00 x00 x80 x3f)
(T (W x00 x00 x00 x00 x00 x00 x00 x00)
(T (W xff xff xff xff xff xff xff xff)
(L (W x00 x00 x00 x00 x00 x00 x00 x00))
(L (W x45 x44 x00 x00 x00 x00 x00 x00)))
(T (W xc4 x00 x00 x00 x01 x00 x00 x00)
(L (W xff xff xff xff xff xff xff xff))
(L (W x00 x00 x00 x00 xea xaa xff xff))))
(T (W xff xff xff xff xff xff xff xff)
(T (W x00 x00 x00 x00 x00 x00 x00 x00)
(L (W x4f x84 x6f x8b xe8 xcb x63 xb7))
(L (W xff xff xff xff xff xff xff xff)))
(T (W x50 x00 x00 x00 x44 x00 x00 x00)
(L (W xff xff xff xff xff xff xff xff))
(L (W x54 x00 x00 x00 x48 x00 x00 x00)))))
(T (W x00 x00 x00 x00 x00 x00 x00 x00)
(T (W x00 x00 x00 x00 x00 x00 x00 x00)
(T (W xff xff xff xff xff xff xff xff)
(L (W x00 x00 x00 x00 x00 x00 x00 x00))
(L (W xa0 x4b xff xff x00 x01 x01 x01)))
(T (W x00 x00 x80 x3f x00 x00 x80 x3f)
(L (W x00 x00 x00 x00 x00 x00 x00 x00))
(L (W xea x00 x00 x00 xff xff xff xff))))
(T (W xff xff xff xff xff xff xff xff)
(T (W x00 x00 x00 x00 x00 x00 x00 x00)
(L (W x2d x00 x00 x00 x30 x00 x00 x00))
(L (W xb9 x86 xa7 x28 xbf x4a x53 x6a)))
(T (W x00 x00 x00 x00 x00 x00 x00 x00)
(L (W x30 x34 x5f x43 x4c x45 x41 x52)) E))))
(T (W x00 x00 x80 x3f x00 x00 x80 x3f)
(T (W x00 x00 x80 x3f x00 x00 x80 x3f)
(T (W x00 x00 x00 x00 x00 x00 x00 x00)
(T (W x18 x00 x00 x00 x0c x00 x00 x00)
(L (W x00 x00 x80 x3f x00 x00 x80 x3f))
(L (W x00 x00 x80 xbf x00 x00 x80 xbf)))
(T (W x38 x01 x00 x00 x04 x00 x00 x00)
(L (W xff xff xff xff xff xff xff xff))
(L (W x45 x44 x00 x00 x00 x00 x00 x00))))
(T (W xff xff xff xff xff xff xff xff)
(T (W x9a x93 xfd xff x74 x00 x00 x00)
(L (W x18 x00 x00 x00 x0c x00 x00 x00))
(L (W x00 x00 x01 x01 xc7 x01 x00 x00)))
(T (W x00 x00 x80 x3f x00 x00 x80 x3f)
(L (W x00 x00 x00 x00 x00 x00 x00 x00))
(L (W xff xff xff xff xc8 x00 x00 x00)))))
(T (W x00 x00 x00 x00 x00 x00 x00 x00)
(T (W x00 x00 x00 x00 x00 x00 x00 x00)
(T (W x02 x00 x00 x00 x2c x01 x00 x00)
(L (W x54 x00 x00 x00 x48 x00 x00 x00))
(L (W xff xff xff xff xff xff xff xff)))
(T (W xb8 x00 x00 x00 x64 x00 x00 x00)
(L (W x50 x00 x00 x00 x44 x00 x00 x00))
(L (W x9a xf3 xff xff x74 x00 x00 x00))))
(T (W x5d x00 x00 x00 xff xff xff xff)
(T (W x00 x00 x80 x3f x00 x00 x80 x3f)
(L (W xff xff xff xff xff xff xff xff))
(L (W xff xff xff xff xff xff xff xff)))
(T (W xff xff xff xff xff xff xff xff)
(L (W xff xff xff xff xff xff xff xff)) E))))))))
(T (W x70 xbf x00 x00 x3c xbe x00 x00)
(T (W x68 x00 x00 x00 x5c x00 x00 x00)
(T (W x00 x00 x00 x00 x00 x00 x00 x00)
(T (W x00 x00 x00 x00 x00 x00 x00 x00)
(T (W x00 x00 x00 x00 x00 x00 x00 x00)
(T (W xff xff xff xff xff xff xff xff)
(T (W x45 x26 x22 x84 xe4 x9c xf2 xcb)
(T (W x00 x00 x00 x00 x00 x00 x00 x00)
(L (W x00 x00 x00 x00 x00 x00 x00 x00))
(L (W x3c x00 x00 x00 x00 x00 x80 xbf)))
(T (W xff xff xff xff xff xff xff xff)
(L (W x03 x00 x00 x00 xd0 x00 x00 x00))
(L (W x00 x00 x80 xbf x00 x00 x80 xbf))))
(T (W x00 x00 x00 x00 x00 x00 x00 x00)
(T (W x00 x00 x80 x3f x00 x00 x80 x3f)
(L (W x00 x00 x00 x00 x00 x00 x00 x00))
(L (W x00 x00 x80 xbf x00 x00 x80 xbf)))
(T (W xe4 xe9 xfd xff x2f x00 x00 x00)
(L (W x00 x00 x00 x00 x00 x00 x00 x00))
(L (W x00 x00 x01 x01 xef x00 x00 x00)))))
(T (W xb8 x00 x00 x00 xac x00 x00 x00)
(T (W x00 x00 x80 x3f x00 x00 x80 x3f)
(T (W x00 x00 x00 x00 x00 x00 x00 x00)
(L (W x00 x00 x00 x00 x00 x00 x00 x00))
(L (W xff xff xff xff xbc x00 x00 x00)))
(T (W x00 x00 x80 x3f x00 x00 x80 x3f)
(L (W x00 x00 x80 xbf x00 x00 x80 xbf))
(L (W x6c x00 x00 x00 x60 x00 x00 x00))))
(T (W x00 x00 x00 x00 x00 x00 x00 x00)
(T (W xa4 x7e x62 x05 x1c x58 x8e x41)
(L (W x00 x00 x00 x00 x00 x00 x00 x00))
(L (W x00 x00 x80 xbf x00 x00 x80 xbf)))
(T (W xff xff xff xff xff xff xff xff)
(L (W x45 x26 x22 x84 xe4 x9c xf2 xcb))
(L (W x5c x00 x00 x00 x50 x00 x00 x00))))))
(T (W x48 x03 x00 x00 x34 x02 x00 x00)
(T (W xff xff xff xff x04 x00 x00 x00)
(T (W x00 x00 x80 x3f x00 x00 x80 x3f)
(T (W x00 x00 x00 x00 x00 x00 x00 x00)
(L (W x45 x26 x22 x84 xe4 x9c xf2 xcb))
(L (W xe2 x32 xff xff x78 x00 x00 x00)))
(T (W x00 x00 x00 x00 x00 x00 x00 x00)
(L (W x00 x00 x80 x3f x00 x00 x80 x3f))
(L (W x00 x00 x80 xbf x00 x00 x80 xbf))))
(T (W x00 x00 x80 x3f x00 x00 x80 x3f)
(T (W xc4 x00 x00 x00 x01 x00 x00 x00)
(L (W xff xff xff xff xff xff xff xff))
(L (W x00 x00 x00 x00 x00 x00 x00 x00)))
(T (W x3c xf5 xfd xff x2d x00 x00 x00)
(L (W x45 x26 x22 x84 xe4 x9c xf2 xcb))
(L (W xff xff xff xff xff xff xff xff)))))
(T (W xff xff xff xff x03 x00 x00 x00)
(T (W x00 x00 x80 x3f x00 x00 x80 x3f)
(T (W x49 xa1 x68 x4a xeb x5f xdd x3d)
(L (W x02 x00 x00 x00 xff xff xff xff))
(L (W x45 x44 x00 x00 x00 x00 x00 x00)))
(T (W xff xff xff xff xff xff xff xff)
(L (W x03 x00 x00 x00 xd0 x00 x00 x00))
(L (W x00 x00 x80 xbf x00 x00 x80 xbf))))
(T (W x00 x00 x00 x00 x00 x00 x00 x00)
(T (W x00 x00 x80 x3f x00 x00 x80 x3f)
(L (W x67 x72 x6f x75 x70 x5f x77 x69))
(L (W x00 x00 x80 xbf x00 x00 x80 xbf)))
(T (W x45 x26 x22 x84 xe4 x9c xf2 xcb)
(L (W x00 x00 x80 xbf x00 x00 x80 xbf)) E)))))
(T (W xda xe9 xfd xff xdf x01 x00 x00)
(T (W x00 x00 x00 x00 x00 x00 x00 x00)
(T (W xff xff xff xff xff xff xff xff)
(T (W x50 x00 x00 x00 x44 x00 x00 x00)
(T (W x00 x00 x00 x00 x00 x00 x00 x00)
(L (W x50 x00 x00 x00 x44 x00 x00 x00))
(L (W x00 x00 x80 xbf x00 x00 x80 xbf)))
(T (W x00 x00 x00 x00 x7a xa7 xfd xff)
(L (W x00 x00 x80 x3f x00 x00 x80 x3f))
(L (W x00 x00 x80 xbf x00 x00 x80 xbf))))
(T (W x45 x26 x22 x84 xe4 x9c xf2 xcb)
(T (W x00 x00 x80 x3f x00 x00 x80 x3f)
(L (W x03 x00 x00 x00 xd0 x00 x00 x00))
(L (W x00 x00 x00 x00 x00 x00 x00 x00)))
(T (W xda x99 xff xff xc6 x01 x00 x00)
(L (W x4c x45 x41 x52 x45 x44 x00 x00))
(L (W xff xff xff xff xff xff xff xff)))))
(T (W xc0 x00 x00 x00 xb4 x00 x00 x00)
(T (W x6c x00 x00 x00 x60 x00 x00 x00)
(T (W x31 x00 x00 x00 x10 x00 x00 x00)
(L (W x4a xfb xff xff x00 x00 x01 x01))
(L (W x00 x00 x01 x01 x95 x01 x00 x00)))
(T (W x18 x00 x00 x00 x10 x00 x00 x00)
(L (W x50 x00 x00 x00 x44 x00 x00 x00))
(L (W x00 x01 x01 x01 x5a xc3 xff xff))))
(T (W x45 x26 x22 x84 xe4 x9c xf2 xcb)
(T (W x49 xa1 x68 x4a xeb x5f xdd x3d)
(L (W x45 x26 x22 x84 xe4 x9c xf2 xcb))
(L (W x00 x00 x80 xbf x00 x00 x80 xbf)))
(T (W xb8 x00 x00 x00 xac x00 x00 x00)
(L (W x00 x00 x80 xbf x00 x00 x80 xbf)) E))))
(T (W xff xff xff xff xff xff xff xff)
(T (W x18 x00 x00 x00 x10 x00 x00 x00)
(T (W x00 x00 x80 x3f x00 x00 x80 x3f)
(T (W x00 x00 x00 x00 x00 x00 x00 x00)
(L (W x00 x00 x80 x3f x00 x00 x80 x3f))
(L (W x27 x00 x00 x00 x2a x00 x00 x00)))
(T (W x00 x00 x00 x00 x00 x00 x00 x00)
(L (W x00 x00 x80 x3f x00 x00 x80 x3f))
(L (W x54 x00 x00 x00 x48 x00 x00 x00))))
(T (W x00 x00 x80 x3f x00 x00 x80 x3f)
(T (W xff xff xff xff xff xff xff xff)
(L (W xff xff xff xff xff xff xff xff))
(L (W x00 x00 x00 x00 x00 x00 x00 x00)))
(T (W xff xff xff xff xff xff xff xff)
(L (W x00 x00 x80 xbf x00 x00 x80 xbf))
(L (W x54 x00 x00 x00 x48 x00 x00 x00)))))
(T (W x00 x00 x00 x00 x18 x98 xfc xff)
(T (W x00 x00 x80 x3f x00 x00 x80 x3f)
(T (W x00 x00 x00 x00 x00 x00 x00 x00)
(L (W xff xff xff xff xff xff xff xff))
(L (W x00 x00 x00 x00 x00 x00 x00 x00)))
(T (W xff xff xff xff xff xff xff xff)
(L (W xff xff xff xff xff xff xff xff))
(L (W x45 x26 x22 x84 xe4 x9c xf2 xcb))))
(T (W x00 x00 x00 x00 x00 x00 x00 x00)
(T (W x03 x00 x00 x00 xd4 x00 x00 x00)
(L (W x03 x00 x00 x00 xfc x00 x00 x00))
(L (W x00 x00 x80 xbf x00 x00 x80 xbf)))
(T (W x45 x26 x22 x84 xe4 x9c xf2 xcb)
(L (W x00 x00 x80 xbf x00 x00 x80 xbf)) E))))))
(T (W x00 x00 x80 x3f x00 x00 x80 x3f)
(T (W x68 x00 x00 x00 x5c x00 x00 x00)
(T (W x00 x00 x80 x3f x00 x00 x80 x3f)
(T (W x00 x00 x80 x3f x00 x00 x80 x3f)
(T (W x00 x00 x00 x00 x00 x00 x00 x00)
(T (W xff xff xff xff xff xff xff xff)
(L (W x68 x00 x00 x00 x5c x00 x00 x00))
(L (W xff xff xff xff xff xff xff xff)))
(T (W x00 x00 x80 x3f x00 x00 x80 x3f)
(L (W x00 x00 x80 x3f x00 x00 x80 x3f))
(L (W xbc x00 x00 x00 x64 x00 x00 x00))))
(T (W xff xff xff xff xff xff xff xff)
(T (W xff xff xff xff xff xff xff xff)
(L (W x00 x00 x80 xbf x00 x00 x80 xbf))
(L (W xff xff xff xff xa8 x00 x00 x00)))
(T (W x50 x00 x00 x00 x44 x00 x00 x00)
(L (W x54 x00 x00 x00 x48 x00 x00 x00))
(L (W x50 x00 x00 x00 x44 x00 x00 x00)))))
(T (W x00 x00 x00 x00 x00 x00 x00 x00)
(T (W xff xff xff xff xff xff xff xff)
(T (W x00 x00 x00 x00 x18 x44 xfd xff)
(L (W x68 x00 x00 x00 x5c x00 x00 x00))
(L (W x00 x00 x80 xbf x00 x00 x80 xbf)))
(T (W x6a xf3 xfd xff x00 x00 x01 x01)
(L (W x00 x00 x01 x01 xd9 x00 x00 x00))
(L (W xff xff xff xff xff xff xff xff))))
(T (W x00 x00 x00 x00 x18 x04 xfd xff)
(T (W xb0 x00 x00 x00 x64 x00 x00 x00)
(L (W xff xff xff xff xff xff xff xff))
(L (W x64 x04 x00 x00 x60 x03 x00 x00)))
(T (W x00 x00 x00 x00 x00 x00 x00 x00)
(L (W xff xff xff xff xff xff xff xff))
(L (W x00 x00 x00 x00 x00 x00 x00 x00))))))
(T (W x45 x26 x22 x84 xe4 x9c xf2 xcb)
(T (W x00 x00 x00 x00 x00 x00 x00 x00)
(T (W x00 x00 x00 x00 x04 x00 x00 x00)
(T (W x9a x4a xfd xff x74 x00 x00 x00)
(L (W xff xff xff xff xff xff xff xff))
(L (W x46 x53 x59 x53 x5f x4e x53 x5f)))
(T (W x03 x00 x00 x00 xd8 x00 x00 x00)
(L (W xff xff xff xff xff xff xff xff))
(L (W x00 x00 x00 x00 xf2 xb4 xff xff))))
(T (W xff xff xff xff xff xff xff xff)
(T (W x00 x00 x00 x00 x00 x00 x00 x00)
(L (W x46 x53 x59 x53 x5f x4e x53 x5f))
(L (W xff xff xff xff xb0 x00 x00 x00)))
(T (W x00 x00 x80 x3f x00 x00 x80 x3f)
(L (W xff xff xff xff xc4 x00 x00 x00))
(L (W xff xff xff xff xff xff xff xff)))))
(T (W x40 x00 x00 x00 x0c x00 x00 x00)
(T (W xd2 x90 xff xff xad x01 x00 x00)
(T (W xff xff xff xff xff xff xff xff)
(L (W x00 x00 x00 x00 x00 x00 x00 x00))
(L (W x00 x00 x80 xbf x00 x00 x80 xbf)))
(T (W x45 x26 x22 x84 xe4 x9c xf2 xcb)
(L (W x00 x00 x00 x00 x00 x00 x00 x00))
(L (W xff xff xff xff xff xff xff xff))))
(T (W xff xff xff xff xff xff xff xff)
(T (W x12 x00 x00 x00 x46 x53 x59 x53)
(L (W x25 x00 x00 x00 x67 x72 x6f x75))
(L (W xff xff xff xff xff xff xff xff)))
(T (W xff xff xff xff xff xff xff xff)
(L (W xff xff xff xff xff xff xff xff)) E)))))
(T (W xa0 x3a xfc xff x00 x01 x01 x01)
(T (W x00 x00 x80 x3f x00 x00 x80 x3f)
(T (W x00 x00 x80 x3f x00 x00 x80 x3f)
(T (W x00 x00 x00 x00 x00 x00 x00 x00)
(T (W x18 x00 x00 x00 x0c x00 x00 x00)
(L (W x7d x00 x00 x00 xff xff xff xff))
(L (W xff xff xff xff xff xff xff xff)))
(T (W x45 x26 x22 x84 xe4 x9c xf2 xcb)
(L (W x45 x26 x22 x84 xe4 x9c xf2 xcb))
(L (W xff xff xff xff xff xff xff xff))))
(T (W xff xff xff xff xff xff xff xff)
(T (W x30 x34 x5f x43 x4c x45 x41 x52)
(L (W x00 x00 x00 x00 x00 x00 x00 x00))
(L (W xbc x00 x00 x00 x1e x00 x00 x00)))
(T (W x00 x00 x80 x3f x00 x00 x80 x3f)
(L (W xff xff xff xff xb0 x00 x00 x00))
(L (W x00 x00 x80 xbf x00 x00 x80 xbf)))))
(T (W x00 x00 x00 x00 x00 x00 x00 x00)
(T (W xcf x00 x00 x00 xff xff xff xff)
(T (W xff xff xff xff xff xff xff xff)
(L (W x00 x00 x80 x3f x00 x00 x80 x3f))
(L (W x54 x00 x00 x00 x48 x00 x00 x00)))
(T (W x00 x00 x00 x00 x00 x00 x00 x00)
(L (W x46 x53 x59 x53 x5f x4e x53 x5f))
(L (W xff xff xff xff xff xff xff xff))))
(T (W xff xff xff xff xff xff xff xff)
(T (W xff xff xff xff xff xff xff xff)
(L (W x9a xa2 xfe xff x74 x00 x00 x00))
(L (W xff xff xff xff xff xff xff xff)))
(T (W x00 x00 x00 x00 x00 x00 x00 x00)
(L (W xff xff xff xff xff xff xff xff)) E))))
(T (W x00 x00 x80 x3f x00 x00 x80 x3f)
(T (W x45 x26 x22 x84 xe4 x9c xf2 xcb)
(T (W x87 x03 x00 x00 xff xff xff xff)
(T (W x00 x00 x80 x3f x00 x00 x80 x3f)
(L (W x00 x00 x14 x00 x18 x00 x1c x00))
(L (W x00 x00 x00 x00 x00 x00 x00 x00)))
(T (W xff xff xff xff xff xff xff xff)
(L (W xff xff xff xff xff xff xff xff))
(L (W xff xff xff xff xff xff xff xff))))
(T (W x64 x00 x00 x00 x9c x00 x00 x00)
(T (W x00 x00 x80 x3f x00 x00 x80 x3f)
(L (W x00 x00 x80 xbf x00 x00 x80 xbf))
(L (W xff xff xff xff xff xff xff xff)))
(T (W x00 x00 x80 x3f x00 x00 x80 x3f)
(L (W xff xff xff xff xff xff xff xff))
(L (W x6c x00 x00 x00 x60 x00 x00 x00)))))
(T (W x00 x00 x00 x00 x00 x00 x00 x00)
(T (W x4a x9a xff xff x00 x00 x01 x01)
(T (W xff xff xff xff xff xff xff xff)
(L (W x00 x00 x80 xbf x00 x00 x80 xbf))
(L (W xff xff xff xff xa0 x00 x00 x00)))
(T (W xa0 xda xfd xff x00 x01 x01 x01)
(L (W x00 x00 x80 xbf x00 x00 x80 xbf))
(L (W x00 x00 x80 xbf x00 x00 x80 xbf))))
(T (W xff xff xff xff x03 x00 x00 x00)
(T (W x00 x00 x00 x00 x00 x00 x00 x00)
(L (W x18 x00 x00 x00 x10 x00 x00 x00))
(L (W xff xff xff xff xff xff xff xff)))
(T (W xff xff xff xff x03 x00 x00 x00)
(L (W xff xff xff xff xff xff xff xff)) E)))))))
(T (W xff xff xff xff xff xff xff xff)
(T (W x00 x00 x80 x3f x00 x00 x80 x3f)
(T (W x00 x00 x80 x3f x00 x00 x80 x3f)
(T (W x00 x00 x00 x00 x00 x00 x00 x00)
(T (W x00 x00 x00 x00 x00 x00 x00 x00)
(T (W xff xff xff xff xff xff xff xff)
(T (W x00 x00 x80 x3f x00 x00 x80 x3f)
(L (W x45 x26 x22 x84 xe4 x9c xf2 xcb))
(L (W x27 x00 x00 x00 x2a x00 x00 x00)))
(T (W x00 x00 x00 x00 x00 x00 x00 x00)
(L (W xff xff xff xff xff xff xff xff))
(L (W x54 x00 x00 x00 x48 x00 x00 x00))))
(T (W xa0 xe0 xfc xff x00 x01 x01 x01)
(T (W x45 x26 x22 x84 xe4 x9c xf2 xcb)
(L (W x00 x00 x00 x00 x00 x00 x00 x00))
(L (W x6c x00 x00 x00 x60 x00 x00 x00)))
(T (W x45 x26 x22 x84 xe4 x9c xf2 xcb)
(L (W x00 x00 x00 x00 x00 x00 x00 x00))
(L (W x00 x00 x00 x00 x00 x00 x00 x00)))))
(T (W xff xff xff xff xff xff xff xff)
(T (W x64 x00 x00 x00 x9c x00 x00 x00)
(T (W x00 x00 x00 x00 x00 x00 x00 x00)
(L (W x45 x26 x22 x84 xe4 x9c xf2 xcb))
(L (W x00 x00 x00 x00 x00 x00 x00 x00)))
(T (W xff xff xff xff xff xff xff xff)
(L (W x18 x00 x00 x00 x0c x00 x00 x00))
(L (W xff xff xff xff x90 x00 x00 x00))))
(T (W x50 x00 x00 x00 x44 x00 x00 x00)
(T (W x45 x26 x22 x84 xe4 x9c xf2 xcb)
(L (W x68 x00 x00 x00 x5c x00 x00 x00))
(L (W xff xff xff xff xb0 x00 x00 x00)))
(T (W x3c x07 xfe xff x0c x00 x00 x00)
(L (W x00 x00 x80 xbf x00 x00 x80 xbf))
(L (W x45 x44 x00 x00 x00 x00 x00 x00))))))
(T (W x00 x00 x00 x00 x00 x00 x00 x00)
(T (W x40 x00 x00 x00 x10 x00 x00 x00)
(T (W xff xff xff xff xff xff xff xff)
(T (W x00 x00 x80 x3f x00 x00 x80 x3f)
(L (W x68 x00 x00 x00 x5c x00 x00 x00))
(L (W xff xff xff xff xff xff xff xff)))
(T (W x00 x00 x80 x3f x00 x00 x80 x3f)
(L (W xff xff xff xff xb0 x00 x00 x00))
(L (W x45 x26 x22 x84 xe4 x9c xf2 xcb))))
(T (W x00 x00 x80 x3f x00 x00 x80 x3f)
(T (W x04 x00 x00 x00 x7a x71 xfd xff)
(L (W x00 x00 x00 x00 x92 x6c xfe xff))
(L (W x00 x01 x01 x01 x5a x6d xff xff)))
(T (W x00 x00 x00 x00 x00 x00 x00 x00)
(L (W x50 x00 x00 x00 x44 x00 x00 x00))
(L (W x00 x00 x80 xbf x00 x00 x80 xbf)))))
(T (W xff xff xff xff xff xff xff xff)
(T (W x64 x00 x00 x00 x9c x00 x00 x00)
(T (W x50 x00 x00 x00 x44 x00 x00 x00)
(L (W xff xff xff xff xff xff xff xff))
(L (W x00 x00 x00 x00 x00 x00 x00 x00)))
(T (W x00 x00 x00 x00 x00 x00 x00 x00)
(L (W x02 x00 x00 x00 x30 x01 x00 x00))
(L (W x4c x45 x41 x52 x45 x44 x00 x00))))
(T (W xa0 x10 xfd xff x00 x01 x01 x01)
(T (W xff xff xff xff xff xff xff xff)
(L (W x00 x00 x80 x3f x00 x00 x80 x3f))
(L (W xe2 x94 xff xff x78 x00 x00 x00)))
(T (W x50 x00 x00 x00 x44 x00 x00 x00)
(L (W xff xff xff xff xa0 x00 x00 x00)) E)))))
(T (W x00 x00 x00 x00 x00 x00 x00 x00)
(T (W x00 x00 x00 x00 x00 x00 x00 x00)
(T (W x00 x00 x00 x00 x00 x00 x00 x00)
(T (W xff xff xff xff xff xff xff xff)
(T (W x45 x26 x22 x84 xe4 x9c xf2 xcb)
(L (W xff xff xff xff x03 x00 x00 x00))
(L (W x18 x00 x00 x00 x0c x00 x00 x00)))
(T (W x00 x00 x00 x00 x00 x00 x00 x00)
(L (W x61 x64 x65 x72 x5f x77 x69 x6c))
(L (W xe2 xac xff xff x78 x00 x00 x00))))
(T (W x50 x00 x00 x00 x44 x00 x00 x00)
(T (W xff xff xff xff xff xff xff xff)
(L (W x04 x00 x00 x00 x58 x03 x00 x00))
(L (W x45 x26 x22 x84 xe4 x9c xf2 xcb)))
(T (W x00 x00 x00 x00 x00 x00 x00 x00)
(L (W x00 x00 x80 xbf x00 x00 x80 xbf))
(L (W x00 x00 x00 x00 x00 x00 x00 x00)))))
(T (W xff xff xff xff xff xff xff xff)
(T (W xff xff xff xff xff xff xff xff)
(T (W x00 x00 x80 x3f x00 x00 x80 x3f)
(L (W x00 x00 x00 x00 x00 x00 x00 x00))
(L (W x00 x00 x00 x00 x00 x00 x00 x00)))
(T (W xff xff xff xff xff xff xff xff)
(L (W xff xff xff xff xff xff xff xff))
(L (W xbc x00 x00 x00 x02 x00 x00 x00))))
(T (W x06 x00 x07 x00 x00 x00 x00 x00)
(T (W x45 x26 x22 x84 xe4 x9c xf2 xcb)
(L (W x00 x00 x01 x01 xb5 x01 x00 x00))
(L (W x45 x26 x22 x84 xe4 x9c xf2 xcb)))
(T (W xff xff xff xff xff xff xff xff)
(L (W xe2 x0c xff xff x78 x00 x00 x00)) E))))
(T (W x00 x00 x00 x00 x00 x00 x00 x00)
(T (W x4a x2d xfe xff x00 x00 x01 x01)
(T (W xb8 x00 x00 x00 xac x00 x00 x00)
(T (W x00 x00 x80 x3f x00 x00 x80 x3f)
(L (W xb8 x00 x00 x00 xac x00 x00 x00))
(L (W xff xff xff xff xff xff xff xff)))
(T (W x00 x00 x00 x00 x18 xba xfd xff)
(L (W x45 x26 x22 x84 xe4 x9c xf2 xcb))
(L (W xff xff xff xff xff xff xff xff))))
(T (W x00 x00 x80 x3f x00 x00 x80 x3f)
(T (W x00 x00 x00 x00 x12 x00 x00 x00)
(L (W x00 x00 x00 x00 x00 x00 x00 x00))
(L (W x00 x00 x80 xbf x00 x00 x80 xbf)))
(T (W x00 x00 x00 x00 x00 x00 x00 x00)
(L (W xa0 xf8 xfe xff x00 x01 x01 x01))
(L (W xb4 x00 x00 x00 x64 x00 x00 x00)))))
(T (W xff xff xff xff xff xff xff xff)
(T (W xbc x00 x00 x00 xb0 x00 x00 x00)
(T (W x00 x00 x00 x00 x18 x5a xfd xff)
(L (W x00 x00 x00 x00 x00 x00 x00 x00))
(L (W x45 x26 x22 x84 xe4 x9c xf2 xcb)))
(T (W x00 x00 x00 x00 x00 x00 x00 x00)
(L (W x46 x53 x59 x53 x5f x4e x53 x5f))
(L (W x34 x00 x38 x00 x3c x00 x40 x00))))
(T (W x00 x00 x80 x3f x00 x00 x80 x3f)
(T (W x9c x01 x00 x00 xff xff xff xff)
(L (W x00 x00 x00 x00 x00 x00 x00 x00))
(L (W x4c x45 x41 x52 x45 x44 x00 x00)))
(T (W x50 x00 x00 x00 x44 x00 x00 x00)
(L (W xe2 x1c xff xff x78 x00 x00 x00)) E))))))
(T (W xff xff xff xff xff xff xff xff)
(T (W xff xff xff xff x04 x00 x00 x00)
(T (W xff xff xff xff x03 x00 x00 x00)
(T (W x00 x00 x80 x3f x00 x00 x80 x3f)
(T (W x00 x00 x00 x00 x00 x00 x00 x00)
(T (W x48 x03 x00 x00 x34 x02 x00 x00)
(L (W x00 x00 x00 x00 x00 x00 x00 x00))
(L (W x46 x53 x59 x53 x5f x4e x53 x5f)))
(T (W xff xff xff xff xff xff xff xff)
(L (W xff xff xff xff xff xff xff xff))
(L (W xb2 x01 x00 x00 xff xff xff xff))))
(T (W x00 x00 x00 x00 x00 x00 x00 x00)
(T (W x00 x00 x00 x00 x00 x00 x00 x00)
(L (W x45 x26 x22 x84 xe4 x9c xf2 xcb))
(L (W xff xff xff xff xff xff xff xff)))
(T (W xff xff xff xff xff xff xff xff)
(L (W xff xff xff xff xc4 x00 x00 x00))
(L (W x00 x00 x00 x00 x00 x00 x00 x00)))))
(T (W x00 x00 x80 x3f x00 x00 x80 x3f)
(T (W x00 x00 x00 x00 x00 x00 x00 x00)
(T (W x64 x00 x00 x00 x9c x00 x00 x00)
(L (W xff xff xff xff xff xff xff xff))
(L (W x45 x26 x22 x84 xe4 x9c xf2 xcb)))
(T (W x00 x00 x00 x00 x00 x00 x00 x00)
(L (W x00 x00 x00 x00 x00 x00 x00 x00))
(L (W x00 x00 x00 x00 x00 x00 x00 x00))))
(T (W x00 x00 x01 x01 x64 x00 x00 x00)
(T (W x00 x00 x00 x00 x00 x00 x00 x00)
(L (W x00 x00 x00 x00 x00 x00 x00 x00))
(L (W x00 x00 x00 x00 x00 x00 x00 x00)))
(T (W x00 x00 x80 x3f x00 x00 x80 x3f)
(L (W x46 x53 x59 x53 x5f x4e x53 x5f))
(L (W xff xff xff xff xff xff xff xff))))))
(T (W x18 x00 x00 x00 x0c x00 x00 x00)
(T (W x9a x8c xfc xff x74 x00 x00 x00)
(T (W x00 x00 x00 x00 x00 x00 x00 x00)
(T (W xff xff xff xff xff xff xff xff)
(L (W x00 x00 x00 x00 x00 x00 x00 x00))
(L (W x00 x00 x80 xbf x00 x00 x80 xbf)))
(T (W x00 x00 x01 x01 xa4 x01 x00 x00)
(L (W x00 x00 x00 x00 x00 x00 x00 x00))
(L (W x00 x00 x00 x00 x00 x00 x00 x00))))
(T (W x00 x00 x00 x00 x00 x00 x00 x00)
(T (W x68 x00 x00 x00 x5c x00 x00 x00)
(L (W x00 x00 x80 xbf x00 x00 x80 xbf))
(L (W xff xff xff xff xff xff xff xff)))
(T (W xb8 x00 x00 x00 xac x00 x00 x00)
(L (W x00 x00 x00 x00 x00 x00 x00 x00))
(L (W x00 x00 x00 x00 x00 x00 x00 x00)))))
(T (W x00 x00 x80 x3f x00 x00 x80 x3f)
(T (W x00 x00 x00 x00 x00 x00 x00 x00)
(T (W x00 x00 x00 x00 x00 x00 x00 x00)
(L (W x6c x00 x00 x00 x60 x00 x00 x00))
(L (W xff xff xff xff xff xff xff xff)))
(T (W x00 x00 x00 x00 x18 xd6 xfd xff)
(L (W x2b x00 x00 x00 x2e x00 x00 x00))
(L (W x00 x00 x00 x00 x00 x00 x00 x00))))
(T (W x00 x00 x00 x00 x00 x00 x00 x00)
(T (W x00 x00 x80 x3f x00 x00 x80 x3f)
(L (W x6c x00 x00 x00 x60 x00 x00 x00))
(L (W x00 x00 x00 x00 x00 x00 x00 x00)))
(T (W x00 x00 x00 x00 x9a xd8 xff xff)
(L (W x00 x00 x00 x00 x00 x00 x00 x00)) E)))))
(T (W xff xff xff xff xff xff xff xff)
(T (W xff xff xff xff xff xff xff xff)
(T (W x68 x00 x00 x00 x5c x00 x00 x00)
(T (W x00 x00 x00 x00 x00 x00 x00 x00)
(T (W xff xff xff xff xff xff xff xff)
(L (W x00 x00 x00 x00 x00 x00 x00 x00))
(L (W x00 x00 x00 x00 x00 x00 x00 x00)))
(T (W xff xff xff xff xff xff xff xff)
(L (W x00 x00 x00 x00 x00 x00 x00 x00))
(L (W x00 x00 x00 x00 x00 x00 x00 x00))))
(T (W x3c xf3 xfc xff x3c x00 x00 x00)
(T (W x00 x00 x80 x3f x00 x00 x80 x3f)
(L (W x00 x00 x80 xbf x00 x00 x80 xbf))
(L (W x95 x01 x00 x00 xff xff xff xff)))
(T (W xff xff xff xff xff xff xff xff)
(L (W x54 x02 x00 x00 x38 x01 x00 x00))
(L (W x14 xee xff xff xb2 xe7 xff xff)))))
(T (W x00 x00 x80 x3f x00 x00 x80 x3f)
(T (W x00 x00 x00 x00 x00 x00 x00 x00)
(T (W xe2 x7b xfd xff x64 x00 x00 x00)
(L (W x00 x00 x00 x00 x00 x00 x00 x00))
(L (W xb0 x00 x00 x00 x1e x00 x00 x00)))
(T (W x00 x00 x80 x3f x00 x00 x80 x3f)
(L (W x00 x00 x80 xbf x00 x00 x80 xbf))
(L (W x00 x00 x00 x00 x00 x00 x00 x00))))
(T (W x64 x00 x00 x00 xff xff xff xff)
(T (W x00 x00 x00 x00 x00 x00 x00 x00)
(L (W xff xff xff xff xff xff xff xff))
(L (W x00 x00 x00 x00 x00 x00 x00 x00)))
(T (W xff xff xff xff xff xff xff xff)
(L (W x00 x00 x00 x00 x00 x00 x00 x00)) E))))
(T (W x9a x74 xfc xff x74 x00 x00 x00)
(T (W xa0 x7c xfc xff x00 x01 x01 x01)
(T (W x45 x26 x22 x84 xe4 x9c xf2 xcb)
(T (W xff xff xff xff xff xff xff xff)
(L (W xff xff xff xff xff xff xff xff))
(L (W x6c x00 x00 x00 x60 x00 x00 x00)))
(T (W x00 x00 x00 x00 x00 x00 x00 x00)
(L (W x45 x44 x00 x00 x00 x00 x00 x00))
(L (W x00 x00 x00 x00 x00 x00 x00 x00))))
(T (W x00 x00 x00 x00 x02 x00 x00 x00)
(T (W xff xff xff xff xff xff xff xff)
(L (W xff xff xff xff xff xff xff xff))
(L (W x30 x34 x5f x43 x4c x45 x41 x52)))
(T (W x01 x00 x00 x00 x9c x00 x00 x00)
(L (W x00 x00 x00 x00 x00 x00 x00 x00))
(L (W xff xff xff xff xff xff xff xff)))))
(T (W x00 x00 x00 x00 x00 x00 x00 x00)
(T (W x00 x00 x00 x00 x00 x00 x00 x00)
(T (W x12 x00 x00 x00 x46 x53 x59 x53)
(L (W x45 x26 x22 x84 xe4 x9c xf2 xcb))
(L (W xff xff xff xff xff xff xff xff)))
(T (W xff xff xff xff xff xff xff xff)
(L (W xff xff xff xff xff xff xff xff))
(L (W xff xff xff xff xff xff xff xff))))
(T (W x00 x00 x00 x00 x00 x00 x00 x00)
(T (W x45 x26 x22 x84 xe4 x9c xf2 xcb)
(L (W x45 x44 x00 x00 x00 x00 x00 x00))
(L (W x15 x00 x00 x00 x0c x00 x00 x00)))
(T (W xd5 x01 x00 x00 xff xff xff xff)
(L (W x00 x00 x00 x00 x00 x00 x00 x00)) E)))))))))))
(T (W x08 x94 x03 x00 x6c x8f x03 x00)
(T (W x20 x40 x03 x00 x64 x3b x03 x00)
(T (W x88 x87 x02 x00 x4c x7d x02 x00)
(T (W x60 xdf x01 x00 x1c xdd x01 x00)
(T (W x70 x88 x00 x00 x24 x86 x00 x00)
(T (W xfa x3c xfc xff x74 x00 x00 x00)
(T (W x00 x00 x80 x3f x00 x00 x80 x3f)
(T (W xfa x54 xfc xff x74 x00 x00 x00)
(T (W x00 x00 x00 x00 x00 x00 x00 x00)
(T (W xaa x51 xfe xff x00 x00 x01 x01)
(T (W x0a x00 x00 x00 x3c x00 x00 x00)
(L (W x45 x26 x22 x84 xe4 x9c xf2 xcb))
(L (W xff xff xff xff xff xff xff xff)))
(T (W x45 x26 x22 x84 xe4 x9c xf2 xcb)
(L (W x6e x00 x00 x00 x52 x9f xfe xff))
(L (W xff xff xff xff xff xff xff xff))))
(T (W xff xff xff xff xff xff xff xff)
(T (W xff xff xff xff xff xff xff xff)
(L (W x45 x26 x22 x84 xe4 x9c xf2 xcb))
(L (W x00 x00 x00 x00 x78 x5e xff xff)))
(T (W x00 x00 x80 x3f x00 x00 x80 x3f)
(L (W x00 x00 x80 xbf x00 x00 x80 xbf))
(L (W x00 x00 x80 xbf x00 x00 x80 xbf)))))
(T (W x00 x00 x00 x00 x00 x00 x00 x00)
(T (W xff xff xff xff xff xff xff xff)
(T (W x00 x00 x80 x3f x00 x00 x80 x3f)
(L (W x00 x00 x80 x3f x00 x00 x80 x3f))
(L (W x00 x00 x00 x00 x00 x00 x00 x00)))
(T (W xff xff xff xff xff xff xff xff)
(L (W xff xff xff xff xbc x00 x00 x00))
(L (W x00 x00 x01 x01 x5d x00 x00 x00))))
(T (W xbc x00 x00 x00 xb0 x00 x00 x00)
(T (W x00 x00 x80 x3f x00 x00 x80 x3f)
(L (W x50 x00 x00 x00 x44 x00 x00 x00))
(L (W xff xff xff xff xff xff xff xff)))
(T (W x00 x00 x80 x3f x00 x00 x80 x3f)
(L (W x03 x00 x00 x00 xd0 x00 x00 x00))
(L (W x00 x00 x00 x00 x04 xfd xff xff))))))
(T (W x00 x00 x80 x3f x00 x00 x80 x3f)
(T (W x00 x00 x00 x00 x00 x00 x00 x00)
(T (W xff xff xff xff xff xff xff xff)
(T (W xfa x44 xfd xff x74 x00 x00 x00)
(L (W xff xff xff xff xff xff xff xff))
(L (W xff xff xff xff xff xff xff xff)))
(T (W x00 x00 x80 x3f x00 x00 x80 x3f)
(L (W xff xff xff xff xa0 x00 x00 x00))
(L (W xff xff xff xff xff xff xff xff))))
(T (W xff xff xff xff xff xff xff xff)
(T (W x45 x44 x00 x00 x00 x00 x00 x00)
(L (W x00 x00 x00 x00 x00 x00 x00 x00))
(L (W x18 x00 x00 x00 x10 x00 x00 x00)))
(T (W xfa x04 xfe xff x74 x00 x00 x00)
(L (W xcc x00 x00 x00 x01 x00 x00 x00))
(L (W x00 x00 x00 x00 x00 x00 x00 x00)))))
(T (W x00 x00 x00 x00 x00 x00 x00 x00)
(T (W xff xff xff xff xff xff xff xff)
(T (W x18 x00 x00 x00 x10 x00 x00 x00)
(L (W x4c x00 x00 x00 x50 x00 x00 x00))
(L (W x00 x00 x80 xbf x00 x00 x80 xbf)))
(T (W x5f x4e x53 x5f x30 x34 x5f x43)
(L (W x30 x34 x5f x43 x4c x45 x41 x52))
(L (W xff xff xff xff xff xff xff xff))))
(T (W x45 x26 x22 x84 xe4 x9c xf2 xcb)
(T (W xff xff xff xff xff xff xff xff)
(L (W x00 x00 x80 x3f x00 x00 x80 x3f))
(L (W xff xff xff xff xff xff xff xff)))
(T (W x00 x00 x80 x3f x00 x00 x80 x3f)
(L (W xff xff xff xff xff xff xff xff)) E)))))
(T (W x00 x00 x80 x3f x00 x00 x80 x3f)
(T (W x00 x00 x80 x3f x00 x00 x80 x3f)
(T (W x00 x00 x00 x00 x00 x00 x00 x00)
(T (W xff xff xff xff xff xff xff xff)
(T (W xc0 x00 x00 x00 xb4 x00 x00 x00)
(L (W x64 x00 x00 x00 x9c x00 x00 x00))
(L (W xff xff xff xff xff xff xff xff)))
(T (W x00 x00 x80 x3f x00 x00 x80 x3f)
(L (W x50 x00 x00 x00 x44 x00 x00 x00))
(L (W x18 x00 x00 x00 x10 x00 x00 x00))))
(T (W xff xff xff xff xff xff xff xff)
(T (W xff xff xff xff xff xff xff xff)
(L (W x00 x00 x00 x00 x00 x00 x00 x00))
(L (W x00 x00 x80 x3f x00 x00 x80 x3f)))
(T (W x00 x00 x80 x3f x00 x00 x80 x3f)
(L (W x00 x00 x80 xbf x00 x00 x80 xbf))
(L (W x34 x00 x38 x00 x3c x00 x40 x00)))))
(T (W x00 x00 x00 x00 x00 x00 x00 x00)
(T (W xff xff xff xff xff xff xff xff)
(T (W x00 x00 x80 x3f x00 x00 x80 x3f)
(L (W x00 x00 x80 x3f x00 x00 x80 x3f))
(L (W x4f x84 x6f x8b xe8 xcb x63 xb7)))
(T (W x38 x01 x00 x00 x04 x00 x00 x00)
(L (W xff xff xff xff xff xff xff xff))
(L (W xd8 x00 x00 x00 x1e x00 x00 x00))))
(T (W x18 x00 x00 x00 x0c x00 x00 x00)
(T (W xff xff xff xff x9c x00 x00 x00)
(L (W x00 x00 x01 x01 x4c x00 x00 x00))
(L (W xff xff xff xff xff xff xff xff)))
(T (W x00 x00 x00 x00 x00 x00 x00 x00)
(L (W xff xff xff xff xff xff xff xff))
(L (W x10 x00 x14 x00 x00 x00 x00 x00))))))
(T (W x45 x26 x22 x84 xe4 x9c xf2 xcb)
(T (W x00 x00 x00 x00 x00 x00 x00 x00)
(T (W xff xff xff xff xff xff xff xff)
(T (W x00 x35 xfd xff x00 x01 x01 x01)
(L (W x18 x00 x00 x00 x10 x00 x00 x00))
(L (W x00 x00 x00 x00 x00 x00 x00 x00)))
(T (W x18 x00 x00 x00 x0c x00 x00 x00)
(L (W xff xff xff xff xff xff xff xff))
(L (W xff xff xff xff xff xff xff xff))))
(T (W x64 x00 x00 x00 x9c x00 x00 x00)
(T (W x00 x00 x00 x00 x00 x00 x00 x00)
(L (W x9c x7b xfe xff x28 x00 x00 x00))
(L (W x45 x26 x22 x84 xe4 x9c xf2 xcb)))
(T (W x00 x00 x80 x3f x00 x00 x80 x3f)
(L (W xff xff xff xff xbc x00 x00 x00))
(L (W xff xff xff xff xff xff xff xff)))))
(T (W x40 x00 x00 x00 x10 x00 x00 x00)
(T (W xff xff xff xff xff xff xff xff)
(T (W xc0 x00 x00 x00 x01 x00 x00 x00)
(L (W x00 x00 x00 x00 x00 x00 x00 x00))
(L (W x54 x00 x00 x00 x48 x00 x00 x00)))
(T (W x00 x00 x00 x00 x00 x00 x00 x00)
(L (W x00 x00 x80 xbf x00 x00 x80 xbf))
(L (W x03 x00 x00 x00 xd0 x00 x00 x00))))
(T (W x01 x00 x00 x00 x9c x00 x00 x00)
(T (W x00 x00 x00 x00 x00 x00 x00 x00)
(L (W x00 x00 x00 x00 x00 x00 x00 x00))
(L (W xff xff xff xff xff xff xff xff)))
(T (W x18 x00 x00 x00 x10 x00 x00 x00)
(L (W xff xff xff xff xff xff xff xff)) E))))))
(T (W x00 x00 x00 x00 x00 x00 x00 x00)
(T (W x00 x00 x00 x00 x00 x00 x00 x00)
(T (W xff xff xff xff xff xff xff xff)
(T (W xff xff xff xff xff xff xff xff)
(T (W x00 xa1 xfc xff x00 x01 x01 x01)
(T (W x00 x00 x00 x00 x00 x00 x00 x00)
(L (W x56 xae x33 x97 x85 xa1 x5f x5f))
(L (W x00 x00 x80 xbf x00 x00 x80 xbf)))
(T (W xff xff xff xff xff xff xff xff)
(L (W x45 x26 x22 x84 xe4 x9c xf2 xcb))
(L (W x00 x00 x00 x00 x00 x00 x00 x00))))
(T (W x00 x00 x00 x00 x00 x00 x00 x00)
(T (W x4f x84 x6f x8b xe8 xcb x63 xb7)
(L (W xff xff xff xff xff xff xff xff))
(L (W x00 x00 x00 x00 x00 x00 x00 x00)))
(T (W x00 x00 x00 x00 x02 x00 x00 x00)
(L (W xff xff xff xff xff xff xff xff))
(L (W xff xff xff xff xff xff xff xff)))))
(T (W xfa x98 xfc xff x74 x00 x00 x00)
(T (W x00 x00 x80 x3f x00 x00 x80 x3f)
(T (W xff xff xff xff x03 x00 x00 x00)
(L (W xff xff xff xff xff xff xff xff))
(L (W xb0 x00 x00 x00 x64 x00 x00 x00)))
(T (W x00 x00 x80 x3f x00 x00 x80 x3f)
(L (W x49 xa1 x68 x4a xeb x5f xdd x3d))
(L (W x45 x26 x22 x84 xe4 x9c xf2 xcb))))
(T (W x00 x00 x00 x00 x00 x00 x00 x00)
(T (W x6b x65 x5f x6c x76 x31 x00 x00)
(L (W x00 x00 x00 x00 x00 x00 x00 x00))
(L (W x00 x00 x80 xbf x00 x00 x80 xbf)))
(T (W xff xff xff xff xff xff xff xff)
(L (W x00 x00 x00 x00 x00 x00 x00 x00))
(L (W x00 x00 x00 x00 x00 x00 x00 x00))))))
(T (W xff xff xff xff xff xff xff xff)
(T (W xff xff xff xff xff xff xff xff)
(T (W x00 x00 x80 x3f x00 x00 x80 x3f)
(T (W x3a xe4 xfe xff x4b x00 x00 x00)
(L (W x00 x00 x00 x00 x00 x00 x00 x00))
(L (W x00 x00 x80 xbf x00 x00 x80 xbf)))
(T (W x45 x44 x00 x00 x00 x00 x00 x00)
(L (W x00 x00 x80 x3f x00 x00 x80 x3f))
(L (W x45 x26 x22 x84 xe4 x9c xf2 xcb))))
(T (W x00 x00 x00 x00 x00 x00 x00 x00)
(T (W xff xff xff xff xb0 x00 x00 x00)
(L (W xff xff xff xff x90 x00 x00 x00))
(L (W x00 x00 x00 x00 x00 x00 x00 x00)))
(T (W x18 x01 x00 x00 x04 x00 x00 x00)
(L (W x00 x00 x00 x00 x00 x00 x00 x00))
(L (W x00 x00 x00 x00 x00 x00 x00 x00)))))
(T (W x68 x00 x00 x00 x5c x00 x00 x00)
(T (W x00 x00 x80 x3f x00 x00 x80 x3f)
(T (W x00 x00 x00 x00 x00 x00 x00 x00)
(L (W x00 x00 x00 x00 x78 x52 xfe xff))
(L (W xff xff xff xff xff xff xff xff)))
(T (W x03 x00 x00 x00 xcc x00 x00 x00)
(L (W xc4 x00 x00 x00 x01 x00 x00 x00))
(L (W x00 x00 x58 x00 x00 x00 x00 x00))))
(T (W x00 x00 x00 x00 x00 x00 x00 x00)
(T (W x00 x00 x80 x3f x00 x00 x80 x3f)
(L (W x00 x00 x00 x00 x00 x00 x00 x00))
(L (W x00 x00 x00 x00 x00 x00 x00 x00)))
(T (W x00 x00 x00 x00 x00 x00 x00 x00)
(L (W x00 x00 x80 xbf x00 x00 x80 xbf)) E)))))
(T (W xcb x01 x00 x00 xff xff xff xff)
(T (W xff xff xff xff xff xff xff xff)
(T (W xff xff xff xff x03 x00 x00 x00)
(T (W x00 x00 x80 x3f x00 x00 x80 x3f)
(T (W x6b x74 x16 x69 xd8 x97 xc1 xb5)
(L (W x00 x00 x80 x3f x00 x00 x80 x3f))
(L (W x49 xa1 x68 x4a xeb x5f xdd x3d)))
(T (W x04 x00 x00 x00 x52 xaf xfd xff)
(L (W xff xff xff xff xff xff xff xff))
(L (W x00 x00 x00 x00 x00 x00 x00 x00))))
(T (W x00 x00 x00 x00 x00 x00 x00 x00)
(T (W x00 x00 x80 x3f x00 x00 x80 x3f)
(L (W x03 x00 x00 x00 xc8 x00 x00 x00))
(L (W xc3 x97 xaa x28 xbf xcb x56 x6a)))
(T (W xff xff xff xff xff xff xff xff)
(L (W x46 x53 x59 x53 x5f x4e x53 x5f))
(L (W xff xff xff xff xff xff xff xff)))))
(T (W x00 x00 x80 x3f x00 x00 x80 x3f)
(T (W x50 x00 x00 x00 x44 x00 x00 x00)
(T (W x00 x00 x00 x00 x0d x00 x00 x00)
(L (W xff xff xff xff xff xff xff xff))
(L (W xff xff xff xff xff xff xff xff)))
(T (W x50 x00 x00 x00 x44 x00 x00 x00)
(L (W x00 x00 x80 xbf x00 x00 x80 xbf))
(L (W x00 x00 x80 xbf x00 x00 x80 xbf))))
(T (W xff xff xff xff xff xff xff xff)
(T (W x4f x84 x6f x8b xe8 xcb x63 xb7)
(L (W x28 x00 x00 x00 x1c x00 x00 x00))
(L (W x45 x26 x22 x84 xe4 x9c xf2 xcb)))
(T (W x00 x00 x00 x00 x78 x0a xfe xff)
(L (W x00 x00 x00 x00 x00 x00 x00 x00)) E))))
(T (W xff xff xff xff xff xff xff xff)
(T (W x18 x00 x00 x00 x0c x00 x00 x00)
(T (W x00 x00 x80 x3f x00 x00 x80 x3f)
(T (W x00 x00 x00 x00 x00 x00 x00 x00)
(L (W x00 x00 x80 x3f x00 x00 x80 x3f))
(L (W x00 x39 xff xff x00 x01 x01 x01)))
(T (W x00 x00 x00 x00 x00 x00 x00 x00)
(L (W x45 x26 x22 x84 xe4 x9c xf2 xcb))
(L (W x54 x00 x00 x00 x48 x00 x00 x00))))
(T (W x00 x00 x00 x00 x00 x00 x00 x00)
(T (W xff xff xff xff xff xff xff xff)
(L (W xff xff xff xff xff xff xff xff))
(L (W x00 x00 x00 x00 x00 x00 x00 x00)))
(T (W xff xff xff xff xff xff xff xff)
(L (W x00 x00 x00 x00 x00 x00 x00 x00))
(L (W x00 x00 x80 xbf x00 x00 x80 xbf)))))
(T (W xfa xb0 xfc xff x74 x00 x00 x00)
(T (W x00 x00 x80 x3f x00 x00 x80 x3f)
(T (W x00 x00 x00 x00 x00 x00 x00 x00)
(L (W xff xff xff xff xff xff xff xff))
(L (W x04 x00 x00 x00 x88 x03 x00 x00)))
(T (W xff xff xff xff xff xff xff xff)
(L (W xff xff xff xff xff xff xff xff))
(L (W xff xff xff xff xff xff xff xff))))
(T (W x00 x00 x00 x00 x00 x00 x00 x00)
(T (W x18 x00 x00 x00 x0c x00 x00 x00)
(L (W x61 x64 x65 x72 x5f x77 x69 x6c))
(L (W x5c x00 x60 x00 x00 x00 x00 x00)))
(T (W x00 x00 x00 x00 x00 x00 x00 x00)
(L (W x00 x00 x00 x00 x00 x00 x00 x00)) E)))))))
(T (W x00 x00 x00 x00 x00 x00 x00 x00)
(T (W xff xff xff xff xff xff xff xff)
(T (W xff xff xff xff x03 x00 x00 x00)
(T (W x01 x00 x00 x00 x9c x00 x00 x00)
(T (W x00 x5f xfc xff x00 x01 x01 x01)
(T (W x45 x26 x22 x84 xe4 x9c xf2 xcb)
(T (W xff xff xff xff xff xff xff xff)
(L (W xff xff xff xff xff xff xff xff))
(L (W x00 x00 x00 x00 x00 x00 x00 x00)))
(T (W x00 x00 x80 x3f x00 x00 x80 x3f)
(L (W x00 x00 x80 x3f x00 x00 x80 x3f))
(L (W x00 x00 x00 x00 x72 xaf xff xff))))
(T (W xaa x93 xfe xff x00 x00 x01 x01)
(T (W x00 x00 x00 x00 x00 x00 x00 x00)
(L (W x23 x00 x00 x00 x26 x00 x00 x00))
(L (W x00 x00 x00 x00 x00 x00 x00 x00)))
(T (W xff xff xff xff xff xff xff xff)
(L (W xc4 x00 x00 x00 x02 x00 x00 x00))
(L (W x18 x00 x00 x00 x0c x00 x00 x00)))))
(T (W x00 x00 x80 x3f x00 x00 x80 x3f)
(T (W x00 x00 x00 x00 x00 x00 x00 x00)
(T (W x00 x00 x00 x00 x00 x00 x00 x00)
(L (W x64 x00 x00 x00 x9c x00 x00 x00))
(L (W x00 x00 x80 xbf x00 x00 x80 xbf)))
(T (W x00 x00 x00 x00 x00 x00 x00 x00)
(L (W x30 x34 x5f x43 x4c x45 x41 x52))
(L (W x00 x00 x00 x00 x00 x00 x00 x00))))
(T (W xaa xbe xff xff x00 x00 x01 x01)
(T (W x03 x00 x00 x00 xcc x00 x00 x00)
(L (W xff xff xff xff xff xff xff xff))
(L (W x46 x53 x59 x53 x5f x4e x53 x5f)))
(T (W xfa x16 xfe xff x74 x00 x00 x00)
(L (W xff xff xff xff xff xff xff xff))
(L (W x00 x00 x00 x00 x00 x00 x00 x00))))))
(T (W xc0 x00 x00 x00 xb4 x00 x00 x00)
(T (W x00 x00 x80 x3f x00 x00 x80 x3f)
(T (W x00 x00 x00 x00 x00 x00 x00 x00)
(T (W xff xff xff xff xff xff xff xff)
(L (W x88 xb8 x33 x97 x85 xa7 x5f x5f))
(L (W x00 x00 x00 x00 x00 x00 x00 x00)))
(T (W xff xff xff xff xff xff xff xff)
(L (W x30 x34 x5f x43 x4c x45 x41 x52))
(L (W x00 x00 x00 x00 x00 x00 x00 x00))))
(T (W x7d x00 x00 x00 xff xff xff xff)
(T (W x00 x00 x80 x3f x00 x00 x80 x3f)
(L (W x00 x00 x80 xbf x00 x00 x80 xbf))
(L (W xff xff xff xff xff xff xff xff)))
(T (W xff xff xff xff xff xff xff xff)
(L (W xff xff xff xff xff xff xff xff))
(L (W x74 xf0 xff xff xba xeb xff xff)))))
(T (W x00 x00 x80 x3f x00 x00 x80 x3f)
(T (W x00 x00 x00 x00 x00 x00 x00 x00)
(T (W x2a x6a xfd xff x00 x00 x00 x01)
(L (W xd0 x01 x00 x00 xd4 x00 x00 x00))
(L (W xff xff xff xff xb8 x00 x00 x00)))
(T (W x50 x00 x00 x00 x44 x00 x00 x00)
(L (W x00 x00 x80 xbf x00 x00 x80 xbf))
(L (W x00 x00 x00 x00 x00 x00 x00 x00))))
(T (W x5d x00 x00 x00 xff xff xff xff)
(T (W x00 x00 x00 x00 x00 x00 x00 x00)
(L (W xff xff xff xff xff xff xff xff))
(L (W x45 x44 x00 x00 x00 x00 x00 x00)))
(T (W x00 x00 x00 x00 x02 x00 x00 x00)
(L (W x00 x00 x00 x00 x00 x00 x00 x00)) E)))))
(T (W x45 x26 x22 x84 xe4 x9c xf2 xcb)
(T (W x0a x00 x00 x00 x3e x00 x00 x00)
(T (W x00 x00 x80 x3f x00 x00 x80 x3f)
(T (W x00 x00 x00 x00 x00 x00 x00 x00)
(T (W xff xff xff xff xff xff xff xff)
(L (W x00 x00 x00 x00 x00 x00 x00 x00))
(L (W x00 x00 x00 x00 x00 x00 x00 x00)))
(T (W xff xff xff xff xb0 x00 x00 x00)
(L (W x30 x34 x5f x43 x4c x45 x41 x52))
(L (W x00 x00 x00 x00 x00 x00 x00 x00))))
(T (W xff xff xff xff xff xff xff xff)
(T (W x00 x00 x00 x00 x00 x00 x00 x00)
(L (W x00 x00 x80 xbf x00 x00 x80 xbf))
(L (W xcc x00 x00 x00 x02 x00 x00 x00)))
(T (W x45 x26 x22 x84 xe4 x9c xf2 xcb)
(L (W xff xff xff xff xff xff xff xff))
(L (W x00 x00 x80 xbf x00 x00 x80 xbf)))))
(T (W x00 x00 x80 x3f x00 x00 x80 x3f)
(T (W x00 x00 x00 x00 x00 x00 x00 x00)
(T (W xff xff xff xff xff xff xff xff)
(L (W x18 x00 x00 x00 x0c x00 x00 x00))
(L (W xff xff xff xff xb0 x00 x00 x00)))
(T (W x45 x26 x22 x84 xe4 x9c xf2 xcb)
(L (W x00 x00 x00 x00 x00 x00 x00 x00))
(L (W x00 x00 x00 x00 x00 x00 x00 x00))))
(T (W x00 x00 x00 x00 x1c x00 x20 x00)
(T (W x00 x00 x00 x00 x4a x86 xfd xff)
(L (W x45 x26 x22 x84 xe4 x9c xf2 xcb))
(L (W x00 x00 x00 x00 x52 x8d xff xff)))
(T (W x00 x00 x80 x3f x00 x00 x80 x3f)
(L (W x00 x00 x00 x00 x00 x00 x00 x00)) E))))
(T (W xfa x6e xfc xff x74 x00 x00 x00)
(T (W x45 x26 x22 x84 xe4 x9c xf2 xcb)
(T (W x40 x00 x00 x00 x0c x00 x00 x00)
(T (W xff xff xff xff xff xff xff xff)
(L (W x00 x00 x00 x00 x00 x00 x00 x00))
(L (W x00 x00 x80 xbf x00 x00 x80 xbf)))
(T (W x00 x00 x01 x01 xa5 x01 x00 x00)
(L (W x00 x00 x00 x00 x52 xbd xfe xff))
(L (W x00 x00 x00 x00 x00 x00 x00 x00))))
(T (W x32 xb5 xff xff xd0 x01 x00 x00)
(T (W x50 x00 x00 x00 x44 x00 x00 x00)
(L (W x00 x00 x80 xbf x00 x00 x80 xbf))
(L (W xff xff xff xff xff xff xff xff)))
(T (W x00 x00 x00 x00 x78 xf8 xfd xff)
(L (W x45 x44 x00 x00 x00 x00 x00 x00))
(L (W x00 x00 x00 x00 x00 x00 x00 x00)))))
(T (W x00 x00 x00 x00 x00 x00 x00 x00)
(T (W x3e x00 x00 x00 x0c x00 x00 x00)
(T (W x44 x02 x00 x00 x30 x01 x00 x00)
(L (W x68 x00 x00 x00 x5c x00 x00 x00))
(L (W x03 x00 x00 x00 xd0 x00 x00 x00)))
(T (W xfa xee xfd xff x74 x00 x00 x00)
(L (W x42 xdb xfe xff x78 x00 x00 x00))
(L (W x00 x00 x00 x00 x20 x00 x24 x00))))
(T (W xff xff xff xff xff xff xff xff)
(T (W x00 x00 x80 x3f x00 x00 x80 x3f)
(L (W x00 x00 x80 x3f x00 x00 x80 x3f))
(L (W x9c x9d xff xff x1e x00 x00 x00)))
(T (W xff xff xff xff xff xff xff xff)
(L (W x45 x44 x00 x00 x00 x00 x00 x00)) E))))))
(T (W x00 x00 x00 x00 x00 x00 x00 x00)
(T (W x00 x00 x00 x00 x00 x00 x00 x00)
(T (W x00 x00 x00 x00 x00 x00 x00 x00)
(T (W x00 x00 x00 x00 x00 x00 x00 x00)
(T (W xb8 x00 x00 x00 xac x00 x00 x00)
(T (W x00 x00 x80 x3f x00 x00 x80 x3f)
(L (W x00 x00 x00 x00 x00 x00 x00 x00))
(L (W x42 x27 xff xff x78 x00 x00 x00)))
(T (W x4c x45 x41 x52 x45 x44 x00 x00)
(L (W x00 x00 x00 x00 x00 x00 x00 x00))
(L (W x00 x00 x80 xbf x00 x00 x80 xbf))))
(T (W x50 x00 x00 x00 x44 x00 x00 x00)
(T (W x45 x26 x22 x84 xe4 x9c xf2 xcb)
(L (W x00 x00 x00 x00 x00 x00 x00 x00))
(L (W x49 xa1 x68 x4a xeb x5f xdd x3d)))
(T (W x00 x00 x00 x00 x00 x00 x00 x00)
(L (W x00 x00 x00 x00 x00 x00 x00 x00))
(L (W x00 x00 x00 x00 x00 x00 x00 x00)))))
(T (W xff xff xff xff xff xff xff xff)
(T (W xfa xda xfc xff x74 x00 x00 x00)
(T (W x00 x00 x00 x00 x00 x00 x00 x00)
(L (W x00 x00 x00 x00 x00 x00 x00 x00))
(L (W x45 x44 x00 x00 x00 x00 x00 x00)))
(T (W xff xff xff xff xac x00 x00 x00)
(L (W xff xff xff xff xb0 x00 x00 x00))
(L (W x5c x00 x00 x00 x50 x00 x00 x00))))
(T (W x00 x00 x00 x00 x00 x00 x00 x00)
(T (W x00 x00 x80 x3f x00 x00 x80 x3f)
(L (W xec xf9 xff xff x01 x01 x01 x01))
(L (W x03 x00 x00 x00 xd0 x00 x00 x00)))
(T (W x18 x01 x00 x00 x04 x00 x00 x00)
(L (W x00 x00 x00 x00 x78 x04 xff xff))
(L (W x03 x00 x00 x00 x08 x01 x00 x00))))))
(T (W x6a x32 x68 x3d xa8 xc6 x47 x23)
(T (W x48 x03 x00 x00 x34 x02 x00 x00)
(T (W xff xff xff xff x03 x00 x00 x00)
(T (W x00 x00 x00 x00 x00 x00 x00 x00)
(L (W x00 x00 x80 x3f x00 x00 x80 x3f))
(L (W xff xff xff xff xff xff xff xff)))
(T (W x00 x00 x80 x3f x00 x00 x80 x3f)
(L (W x42 xb7 xfe xff x78 x00 x00 x00))
(L (W xff xff xff xff xa0 x00 x00 x00))))
(T (W x00 x00 x80 x3f x00 x00 x80 x3f)
(T (W x00 x00 x01 x01 x4b x00 x00 x00)
(L (W xff xff xff xff xff xff xff xff))
(L (W x00 x00 x80 xbf x00 x00 x80 xbf)))
(T (W x00 x00 x00 x00 x00 x00 x00 x00)
(L (W x00 x00 x80 xbf x00 x00 x80 xbf))
(L (W x6c x00 x00 x00 x60 x00 x00 x00)))))
(T (W xff xff xff xff x04 x00 x00 x00)
(T (W x18 x00 x00 x00 x10 x00 x00 x00)
(T (W x50 x00 x00 x00 x44 x00 x00 x00)
(L (W xff xff xff xff xff xff xff xff))
(L (W x00 x00 x00 x00 x12 x00 x00 x00)))
(T (W x02 x00 x00 x00 x30 x01 x00 x00)
(L (W xe4 x06 x00 x00 xc8 x05 x00 x00))
(L (W x54 x00 x00 x00 x48 x00 x00 x00))))
(T (W xfa x2a xfd xff x74 x00 x00 x00)
(T (W xff xff xff xff xff xff xff xff)
(L (W xff xff xff xff xff xff xff xff))
(L (W x00 x00 x80 xbf x00 x00 x80 xbf)))
(T (W x00 x00 x80 x3f x00 x00 x80 x3f)
(L (W x68 x00 x00 x00 x5c x00 x00 x00)) E)))))
(T (W x00 x00 x00 x00 x00 x00 x00 x00)
(T (W x00 x00 x00 x00 x00 x00 x00 x00)
(T (W x00 x00 x00 x00 x00 x00 x00 x00)
(T (W xc0 x00 x00 x00 xb4 x00 x00 x00)
(T (W x45 x26 x22 x84 xe4 x9c xf2 xcb)
(L (W x45 x26 x22 x84 xe4 x9c xf2 xcb))
(L (W x45 x26 x22 x84 xe4 x9c xf2 xcb)))
(T (W x45 x26 x22 x84 xe4 x9c xf2 xcb)
(L (W x45 x26 x22 x84 xe4 x9c xf2 xcb))
(L (W x6c x00 x00 x00 x60 x00 x00 x00))))
(T (W x6c x00 x00 x00 x60 x00 x00 x00)
(T (W xff xff xff xff xff xff xff xff)
(L (W xff xff xff xff xff xff xff xff))
(L (W x00 x00 x80 xbf x00 x00 x80 xbf)))
(T (W x00 x00 x00 x00 x00 x00 x00 x00)
(L (W x00 x00 x80 xbf x00 x00 x80 xbf))
(L (W x00 x00 x00 x00 x00 x00 x00 x00)))))
(T (W xff xff xff xff xff xff xff xff)
(T (W x45 x26 x22 x84 xe4 x9c xf2 xcb)
(T (W x00 x00 x80 x3f x00 x00 x80 x3f)
(L (W x72 x64 x5f x6c x76 x31 x00 x00))
(L (W x00 x00 x00 x00 x00 x00 x00 x00)))
(T (W xff xff xff xff xff xff xff xff)
(L (W xff xff xff xff xff xff xff xff))
(L (W x54 x00 x00 x00 x48 x00 x00 x00))))
(T (W x00 x00 x80 x3f x00 x00 x80 x3f)
(T (W x00 x8b xfd xff x00 x01 x01 x01)
(L (W x00 x00 x00 x00 x00 x00 x00 x00))
(L (W x68 x00 x00 x00 x5c x00 x00 x00)))
(T (W xff xff xff xff xff xff xff xff)
(L (W x18 x00 x00 x00 x0c x00 x00 x00)) E))))
(T (W x3a x0e xfe xff xbb x01 x00 x00)
(T (W xff xff xff xff xff xff xff xff)
(T (W x45 x26 x22 x84 xe4 x9c xf2 xcb)
(T (W x00 x00 x00 x00 x00 x00 x00 x00)
(L (W xff xff xff xff x01 x00 x00 x00))
(L (W xff xff xff xff xff xff xff xff)))
(T (W x00 x00 x80 x3f x00 x00 x80 x3f)
(L (W x6c x00 x00 x00 x60 x00 x00 x00))
(L (W x45 x26 x22 x84 xe4 x9c xf2 xcb))))
(T (W x00 x00 x80 x3f x00 x00 x80 x3f)
(T (W x46 x53 x59 x53 x5f x4e x53 x5f)
(L (W x00 x00 x00 x00 x00 x00 x00 x00))
(L (W x00 x00 x80 xbf x00 x00 x80 xbf)))
(T (W x00 x00 x00 x00 x00 x00 x00 x00)
(L (W x45 x26 x22 x84 xe4 x9c xf2 xcb))
(L (W x00 x00 x00 x00 x00 x00 x00 x00)))))
(T (W x18 x00 x00 x00 x10 x00 x00 x00)
(T (W x40 x00 x00 x00 x9c x00 x00 x00)
(T (W x50 x00 x00 x00 x44 x00 x00 x00)
(L (W x00 x00 x00 x00 x00 x00 x00 x00))
(L (W x00 x00 x80 xbf x00 x00 x80 xbf)))
(T (W x00 x00 x00 x00 x00 x00 x00 x00)
(L (W x00 x00 x00 x00 x00 x00 x00 x00))
(L (W x30 x34 x5f x43 x4c x45 x41 x52))))
(T (W x00 x00 x80 x3f x00 x00 x80 x3f)
(T (W x1a xc4 xfd xff x00 x00 x01 x01)
(L (W x45 x26 x22 x84 xe4 x9c xf2 xcb))
(L (W x00 x00 x80 xbf x00 x00 x80 xbf)))
(T (W x00 x00 x80 x3f x00 x00 x80 x3f)
(L (W x00 x00 x80 xbf x00 x00 x80 xbf)) E))))))))
(T (W x50 x1c x01 x00 x1c x1b x01 x00)
(T (W x40 x00 x00 x00 x10 x00 x00 x00)
(T (W x45 x26 x22 x84 xe4 x9c xf2 xcb)
(T (W x01 x00 x00 x00 xa0 x00 x00 x00)
(T (W x45 x26 x22 x84 xe4 x9c xf2 xcb)
(T (W x00 x00 x80 x3f x00 x00 x80 x3f)
(T (W x00 x00 x00 x00 x00 x00 x00 x00)
(T (W xff xff xff xff xff xff xff xff)
(L (W x18 x00 x00 x00 x10 x00 x00 x00))
(L (W x00 x00 x00 x00 x00 x00 x00 x00)))
(T (W x00 x00 x80 x3f x00 x00 x80 x3f)
(L (W x00 x00 x00 x00 x00 x00 x00 x00))
(L (W x2a x00 x00 x00 xff xff xff xff))))
(T (W xff xff xff xff xff xff xff xff)
(T (W x2c x02 x00 x00 x18 x01 x00 x00)
(L (W x00 x01 x01 x01 x72 x5c xfe xff))
(L (W xff xff xff xff xff xff xff xff)))
(T (W x00 x00 x00 x00 x78 xdf xfd xff)
(L (W x45 x26 x22 x84 xe4 x9c xf2 xcb))
(L (W x42 xe2 xff xff x78 x00 x00 x00)))))
(T (W x45 x26 x22 x84 xe4 x9c xf2 xcb)
(T (W x00 x00 x00 x00 x72 x83 xfe xff)
(T (W x01 x00 x00 x00 xa0 x00 x00 x00)
(L (W x18 x00 x00 x00 x0c x00 x00 x00))
(L (W x4f x84 x6f x8b xe8 xcb x63 xb7)))
(T (W x01 x00 x00 x00 xff xff xff xff)
(L (W xff xff xff xff xff xff xff xff))
(L (W x30 x34 x5f x43 x4c x45 x41 x52))))
(T (W xff xff xff xff xff xff xff xff)
(T (W x68 x00 x00 x00 x5c x00 x00 x00)
(L (W xb0 x00 x00 x00 x64 x00 x00 x00))
(L (W x00 x00 x01 x01 x43 x00 x00 x00)))
(T (W x00 x00 x80 x3f x00 x00 x80 x3f)
(L (W xff xff xff xff xff xff xff xff))
(L (W x00 x00 x00 x00 x00 x00 x00 x00))))))
(T (W x00 x00 x80 x3f x00 x00 x80 x3f)
(T (W x00 x00 x00 x00 x00 x00 x00 x00)
(T (W xaa x62 xfe xff x00 x00 x01 x01)
(T (W xff xff xff xff xff xff xff xff)
(L (W xff xff xff xff xff xff xff xff))
(L (W x30 x34 x5f x43 x4c x45 x41 x52)))
(T (W xcc x00 x00 x00 x01 x00 x00 x00)
(L (W xff xff xff xff xff xff xff xff))
(L (W x00 x00 x00 x00 x4a xad xff xff))))
(T (W xff xff xff xff xff xff xff xff)
(T (W x00 x00 x00 x00 x00 x00 x00 x00)
(L (W x00 x00 x80 xbf x00 x00 x80 xbf))
(L (W x03 x00 x00 x00 xd8 x00 x00 x00)))
(T (W x00 x00 x00 x00 x78 xef xfd xff)
(L (W xff xff xff xff xff xff xff xff))
(L (W x3c x00 x00 x00 x00 x00 x80 xbf)))))
(T (W x00 x00 x00 x00 x00 x00 x00 x00)
(T (W xaa x82 xfe xff x00 x00 x01 x01)
(T (W xff xff xff xff xff xff xff xff)
(L (W x00 x00 x00 x00 x00 x00 x00 x00))
(L (W x1c x00 x00 x00 x10 x00 x00 x00)))
(T (W x00 x00 x00 x00 x00 x00 x00 x00)
(L (W x00 x00 x00 x00 x00 x00 x00 x00))
(L (W x42 xfd xff xff x64 x00 x00 x00))))
(T (W xff xff xff xff xff xff xff xff)
(T (W x00 x00 x00 x00 x00 x00 x00 x00)
(L (W x45 x26 x22 x84 xe4 x9c xf2 xcb))
(L (W x00 x00 x01 x01 x29 x00 x00 x00)))
(T (W xff xff xff xff xff xff xff xff)
(L (W x00 x00 x00 x00 x4a x0d xff xff)) E)))))
(T (W x00 x36 xfc xff x00 x01 x01 x01)
(T (W x18 x00 x00 x00 x0c x00 x00 x00)
(T (W x45 x26 x22 x84 xe4 x9c xf2 xcb)
(T (W x3e x00 x00 x00 x0c x00 x00 x00)
(T (W xff xff xff xff xff xff xff xff)
(L (W x54 xbf x33 x97 x85 xab x5f x5f))
(L (W xff xff xff xff xff xff xff xff)))
(T (W x00 x00 x00 x00 x78 xa7 xfd xff)
(L (W xff xff xff xff xff xff xff xff))
(L (W xff xff xff xff xff xff xff xff))))
(T (W xff xff xff xff xff xff xff xff)
(T (W x00 x00 x00 x00 x00 x00 x00 x00)
(L (W x45 x26 x22 x84 xe4 x9c xf2 xcb))
(L (W x45 x26 x22 x84 xe4 x9c xf2 xcb)))
(T (W x00 xe6 xfd xff x00 x01 x01 x01)
(L (W x18 x00 x00 x00 x0c x00 x00 x00))
(L (W x45 x26 x22 x84 xe4 x9c xf2 xcb)))))
(T (W x00 x00 x80 x3f x00 x00 x80 x3f)
(T (W x40 x00 x00 x00 x10 x00 x00 x00)
(T (W x54 x00 x00 x00 x48 x00 x00 x00)
(L (W x00 x00 x80 x3f x00 x00 x80 x3f))
(L (W x00 x00 x80 xbf x00 x00 x80 xbf)))
(T (W x00 x00 x00 x00 x00 x00 x00 x00)
(L (W x00 x00 x00 x00 x00 x00 x00 x00))
(L (W x06 x00 x00 x00 x98 x05 x00 x00))))
(T (W xff xff xff xff xff xff xff xff)
(T (W xff xff xff xff xff xff xff xff)
(L (W x00 x00 x00 x00 x00 x00 x00 x00))
(L (W x00 x00 x00 x00 xf2 x94 xff xff)))
(T (W x00 x00 x80 x3f x00 x00 x80 x3f)
(L (W xff xff xff xff xff xff xff xff)) E))))
(T (W x54 x00 x00 x00 x48 x00 x00 x00)
(T (W x45 x26 x22 x84 xe4 x9c xf2 xcb)
(T (W xff xff xff xff xff xff xff xff)
(T (W x18 x00 x00 x00 x10 x00 x00 x00)
(L (W x00 x00 x00 x00 x02 x00 x00 x00))
(L (W x00 x00 x00 x00 x00 x00 x00 x00)))
(T (W xff xff xff xff xff xff xff xff)
(L (W xff xff xff xff xff xff xff xff))
(L (W x87 xfb xaf x28 xbf x5d x5d x6a))))
(T (W xff xff xff xff xff xff xff xff)
(T (W x00 x00 x80 x3f x00 x00 x80 x3f)
(L (W x00 x00 x00 x00 x00 x00 x00 x00))
(L (W xff xff xff xff xbc x00 x00 x00)))
(T (W xfa x0d xfe xff x74 x00 x00 x00)
(L (W xff xff xff xff xff xff xff xff))
(L (W x45 x44 x00 x00 x00 x00 x00 x00)))))
(T (W x00 x00 x00 x00 x00 x00 x00 x00)
(T (W xff xff xff xff xff xff xff xff)
(T (W xff xff xff xff xff xff xff xff)
(L (W x45 x26 x22 x84 xe4 x9c xf2 xcb))
(L (W x18 x00 x00 x00 x10 x00 x00 x00)))
(T (W x00 x00 x80 x3f x00 x00 x80 x3f)
(L (W x00 x00 x80 xbf x00 x00 x80 xbf))
(L (W xff xff xff xff xff xff xff xff))))
(T (W xb8 x00 x00 x00 xac x00 x00 x00)
(T (W x00 x00 x00 x00 x00 x00 x00 x00)
(L (W x45 x26 x22 x84 xe4 x9c xf2 xcb))
(L (W xff xff xff xff xff xff xff xff)))
(T (W xff xff xff xff xff xff xff xff)
(L (W x00 x00 x01 x01 x29 x00 x00 x00)) E))))))
(T (W x00 x00 x00 x00 x00 x00 x00 x00)
(T (W x00 x00 x00 x00 x00 x00 x00 x00)
(T (W x3c xb1 x62 x14 x77 xc4 x0a x98)
(T (W xff xff xff xff xff xff xff xff)
(T (W x18 x00 x00 x00 x10 x00 x00 x00)
(T (W x00 x00 x00 x00 x00 x00 x00 x00)
(L (W x00 x00 x00 x00 x00 x00 x00 x00))
(L (W x00 x00 x80 xbf x00 x00 x80 xbf)))
(T (W x9c x01 x00 x00 xff xff xff xff)
(L (W x6e x00 x00 x00 x52 xa4 xfe xff))
(L (W x00 x00 x00 x00 x00 x00 x00 x00))))
(T (W x00 x00 x80 x3f x00 x00 x80 x3f)
(T (W x00 x00 x80 x3f x00 x00 x80 x3f)
(L (W xff xff xff xff xff xff xff xff))
(L (W x00 x00 x00 x00 x00 x00 x00 x00)))
(T (W x00 x00 x00 x00 x00 x00 x00 x00)
(L (W x00 x00 x00 x00 x00 x00 x00 x00))
(L (W x45 x44 x00 x00 x00 x00 x00 x00)))))
(T (W xff xff xff xff x04 x00 x00 x00)
(T (W x68 x00 x00 x00 x5c x00 x00 x00)
(T (W x40 x00 x44 x00 x00 x00 x48 x00)
(L (W x18 x00 x00 x00 x10 x00 x00 x00))
(L (W xff xff xff xff xff xff xff xff)))
(T (W x00 x00 x00 x00 x78 xc3 xfd xff)
(L (W x00 x00 x80 xbf x00 x00 x80 xbf))
(L (W x00 x00 x80 xbf x00 x00 x80 xbf))))
(T (W x00 x00 x00 x00 x00 x00 x00 x00)
(T (W x00 x00 x00 x00 x00 x00 x00 x00)
(L (W x00 x00 x80 xbf x00 x00 x80 xbf))
(L (W x00 x00 x80 xbf x00 x00 x80 xbf)))
(T (W xff xff xff xff xff xff xff xff)
(L (W x00 x00 x80 xbf x00 x00 x80 xbf))
(L (W x45 x26 x22 x84 xe4 x9c xf2 xcb))))))
(T (W xff xff xff xff xff xff xff xff)
(T (W xff xff xff xff xff xff xff xff)
(T (W x50 x00 x00 x00 x44 x00 x00 x00)
(T (W x00 x00 x00 x00 x00 x00 x00 x00)
(L (W x00 x00 x80 x3f x00 x00 x80 x3f))
(L (W xff xff xff xff xb0 x00 x00 x00)))
(T (W x00 x00 x00 x00 x00 x00 x00 x00)
(L (W x00 x00 x80 x3f x00 x00 x80 x3f))
(L (W x6c x00 x00 x00 x60 x00 x00 x00))))
(T (W x00 x00 x00 x00 x00 x00 x00 x00)
(T (W xff xff xff xff xff xff xff xff)
(L (W xbc x00 x00 x00 x02 x00 x00 x00))
(L (W x00 x00 x00 x00 x00 x00 x00 x00)))
(T (W x00 x00 x00 x00 x00 x00 x00 x00)
(L (W x4f x84 x6f x8b xe8 xcb x63 xb7))
(L (W x00 x00 x80 xbf x00 x00 x80 xbf)))))
(T (W xfa xa9 xfc xff x74 x00 x00 x00)
(T (W x00 xd2 xfc xff x00 x01 x01 x01)
(T (W x45 x26 x22 x84 xe4 x9c xf2 xcb)
(L (W xff xff xff xff xff xff xff xff))
(L (W x00 x00 x00 x00 x00 x00 x00 x00)))
(T (W xff xff xff xff xff xff xff xff)
(L (W xff xff xff xff xff xff xff xff))
(L (W x00 x00 x00 x00 x00 x00 x00 x00))))
(T (W x45 x26 x22 x84 xe4 x9c xf2 xcb)
(T (W x35 x00 x00 x00 x38 x00 x00 x00)
(L (W x00 x00 x80 x3f x00 x00 x80 x3f))
(L (W x00 x00 x80 xbf x00 x00 x80 xbf)))
(T (W x00 x00 x80 x3f x00 x00 x80 x3f)
(L (W x00 x00 x80 xbf x00 x00 x80 xbf)) E)))))
(T (W x00 x00 x00 x00 x00 x00 x00 x00)
(T (W xbd x01 x00 x00 xff xff xff xff)
(T (W xb3 x01 x00 x00 xff xff xff xff)
(T (W x40 x00 x00 x00 x9c x00 x00 x00)
(T (W x00 x00 x00 x00 x00 x00 x00 x00)
(L (W x00 x00 x80 x3f x00 x00 x80 x3f))
(L (W x00 x00 x80 xbf x00 x00 x80 xbf)))
(T (W x00 x00 x00 x00 x12 x00 x00 x00)
(L (W x79 x61 x62 x75 x6e x00 x00 x00))
(L (W x00 x00 x80 xbf x00 x00 x80 xbf))))
(T (W x00 x00 x80 x3f x00 x00 x80 x3f)
(T (W x18 x00 x00 x00 x0c x00 x00 x00)
(L (W xff xff xff xff xff xff xff xff))
(L (W x00 x00 x00 x00 x00 x00 x00 x00)))
(T (W x00 x00 x00 x00 x02 x00 x00 x00)
(L (W x00 x00 x00 x00 x00 x00 x00 x00))
(L (W x00 x00 x00 x00 x00 x00 x00 x00)))))
(T (W x18 x00 x00 x00 x0c x00 x00 x00)
(T (W xfa xe1 xfc xff x74 x00 x00 x00)
(T (W x00 x00 x80 x3f x00 x00 x80 x3f)
(L (W xff xff xff xff xff xff xff xff))
(L (W x00 x00 x00 x00 x00 x00 x00 x00)))
(T (W xff xff xff xff xff xff xff xff)
(L (W xff xff xff xff xb0 x00 x00 x00))
(L (W x00 x00 x80 xbf x00 x00 x80 xbf))))
(T (W x00 x00 x00 x00 x00 x00 x00 x00)
(T (W x00 x00 x80 x3f x00 x00 x80 x3f)
(L (W x0c x06 x00 x00 xe0 x04 x00 x00))
(L (W x00 x00 x80 xbf x00 x00 x80 xbf)))
(T (W xff xff xff xff xff xff xff xff)
(L (W x00 x00 x80 xbf x00 x00 x80 xbf)) E))))
(T (W xff xff xff xff xff xff xff xff)
(T (W xff xff xff xff xff xff xff xff)
(T (W x42 xbe xfc xff x78 x00 x00 x00)
(T (W x00 x00 x00 x00 x00 x00 x00 x00)
(L (W x00 x00 x80 x3f x00 x00 x80 x3f))
(L (W xb0 x00 x00 x00 x64 x00 x00 x00)))
(T (W x00 x00 x80 x3f x00 x00 x80 x3f)
(L (W x00 x00 x80 x3f x00 x00 x80 x3f))
(L (W x74 xbb xff xff xba xb6 xff xff))))
(T (W x00 x00 x00 x00 x00 x00 x00 x00)
(T (W x04 x00 x00 x00 xda x7a xfd xff)
(L (W xca xaa xfe xff x00 x00 x01 x01))
(L (W x00 x00 x80 xbf x00 x00 x80 xbf)))
(T (W x18 x01 x00 x00 x04 x00 x00 x00)
(L (W x00 x00 x80 xbf x00 x00 x80 xbf))
(L (W x00 x00 x00 x00 x00 x00 x00 x00)))))
(T (W x45 x26 x22 x84 xe4 x9c xf2 xcb)
(T (W x00 x00 x80 x3f x00 x00 x80 x3f)
(T (W x00 x00 x80 x3f x00 x00 x80 x3f)
(L (W x00 x00 x00 x00 x4a x59 xfe xff))
(L (W x00 x00 x00 x00 x00 x00 x00 x00)))
(T (W x84 xea x60 x32 x34 x35 x1a x4f)
(L (W xff xff xff xff xff xff xff xff))
(L (W xff xff xff xff xff xff xff xff))))
(T (W x00 x00 x80 x3f x00 x00 x80 x3f)
(T (W xff xff xff xff xff xff xff xff)
(L (W x00 x00 x00 x00 x00 x00 x00 x00))
(L (W x00 x00 x00 x00 x00 x00 x00 x00)))
(T (W x00 x00 x00 x00 x00 x00 x00 x00)
(L (W x00 x00 x80 xbf x00 x00 x80 xbf)) E)))))))
(T (W x00 x00 x80 x3f x00 x00 x80 x3f)
(T (W x01 x00 x00 x00 xff xff xff xff)
(T (W xd3 x02 x00 x00 xff xff xff xff)
(T (W xb8 x00 x00 x00 xac x00 x00 x00)
(T (W x18 x00 x00 x00 x10 x00 x00 x00)
(T (W x00 x00 x80 x3f x00 x00 x80 x3f)
(T (W x4e x00 x00 x00 xff xff xff xff)
(L (W xff xff xff xff xff xff xff xff))
(L (W x00 x00 x00 x00 x00 x00 x00 x00)))
(T (W x03 x00 x00 x00 xd4 x00 x00 x00)
(L (W x54 x00 x00 x00 x48 x00 x00 x00))
(L (W x30 x34 x5f x43 x4c x45 x41 x52))))
(T (W x00 x00 x00 x00 x00 x00 x00 x00)
(T (W x00 x00 x00 x00 x00 x00 x00 x00)
(L (W xff xff xff xff xff xff xff xff))
(L (W x00 x00 x00 x00 x00 x00 x00 x00)))
(T (W xff xff xff xff xff xff xff xff)
(L (W xff xff xff xff xff xff xff xff))
(L (W xff xff xff xff xff xff xff xff)))))
(T (W x00 x00 x80 x3f x00 x00 x80 x3f)
(T (W x00 x00 x00 x00 x00 x00 x00 x00)
(T (W x00 x00 x00 x00 x00 x00 x00 x00)
(L (W xff xff xff xff xff xff xff xff))
(L (W x00 x40 xff xff x00 x01 x01 x01)))
(T (W x00 x00 x00 x00 x00 x00 x00 x00)
(L (W x00 x00 x00 x00 x00 x00 x00 x00))
(L (W x00 x00 x00 x00 x00 x00 x00 x00))))
(T (W x00 x00 x00 x00 x00 x00 x00 x00)
(T (W xff xff xff xff xff xff xff xff)
(L (W x29 x00 x00 x00 x10 x00 x00 x00))
(L (W x00 x00 x00 x00 x00 x00 x00 x00)))
(T (W x00 x00 x00 x00 x78 x01 xfe xff)
(L (W x00 x00 x00 x00 x00 x00 x00 x00))
(L (W x0c x00 x08 x00 x05 x00 x00 x00))))))
(T (W xff xff xff xff xff xff xff xff)
(T (W xfa x87 xfc xff x74 x00 x00 x00)
(T (W x00 x00 x00 x00 x00 x00 x00 x00)
(T (W xff xff xff xff xff xff xff xff)
(L (W x00 x00 x00 x00 x00 x00 x00 x00))
(L (W x49 xa1 x68 x4a xeb x5f xdd x3d)))
(T (W xff xff xff xff xff xff xff xff)
(L (W x00 x00 x00 x00 x00 x00 x00 x00))
(L (W x00 x00 x00 x00 x00 x00 x00 x00))))
(T (W x00 x00 x00 x00 x00 x00 x00 x00)
(T (W x00 x00 x80 x3f x00 x00 x80 x3f)
(L (W x00 x01 x01 x01 xba x6c xfe xff))
(L (W x26 x00 x00 x00 x0c x00 x00 x00)))
(T (W xff xff xff xff xff xff xff xff)
(L (W x45 x44 x00 x00 x00 x00 x00 x00))
(L (W xff xff xff xff xff xff xff xff)))))
(T (W x00 x00 x80 x3f x00 x00 x80 x3f)
(T (W x45 x26 x22 x84 xe4 x9c xf2 xcb)
(T (W x00 x00 x00 x00 x00 x00 x00 x00)
(L (W xa5 x79 x24 x4b xf1 xf6 xc9 x32))
(L (W xff xff xff xff xff xff xff xff)))
(T (W x18 x00 x00 x00 x10 x00 x00 x00)
(L (W x50 x00 x00 x00 x44 x00 x00 x00))
(L (W x18 x00 x00 x00 x0c x00 x00 x00))))
(T (W x00 x00 x00 x00 x00 x00 x00 x00)
(T (W x49 xa1 x68 x4a xeb x5f xdd x3d)
(L (W x00 x00 x00 x00 x00 x00 x00 x00))
(L (W x00 x00 x00 x00 x00 x00 x00 x00)))
(T (W x00 x00 x00 x00 x00 x00 x00 x00)
(L (W x00 x00 x00 x00 x00 x00 x00 x00)) E)))))
(T (W xff xff xff xff xff xff xff xff)
(T (W xff xff xff xff xff xff xff xff)
(T (W x01 x00 x00 x00 xa0 x00 x00 x00)
(T (W x00 x00 x80 x3f x00 x00 x80 x3f)
(T (W xff xff xff xff xff xff xff xff)
(L (W x00 x00 x00 x00 x00 x00 x00 x00))
(L (W x00 x00 x00 x00 x00 x00 x00 x00)))
(T (W xff xff xff xff xff xff xff xff)
(L (W x00 x00 x80 x3f x00 x00 x80 x3f))
(L (W x00 x00 x00 x00 x00 x00 x00 x00))))
(T (W x40 x00 x00 x00 x0c x00 x00 x00)
(T (W x00 x00 x80 x3f x00 x00 x80 x3f)
(L (W x50 x00 x00 x00 x44 x00 x00 x00))
(L (W xff xff xff xff xff xff xff xff)))
(T (W xff xff xff xff xff xff xff xff)
(L (W x00 x00 x01 x01 xb3 x01 x00 x00))
(L (W x18 xe3 xff xff x00 x00 x2a x00)))))
(T (W x00 x00 x80 x3f x00 x00 x80 x3f)
(T (W x00 x00 x00 x00 x00 x00 x00 x00)
(T (W x00 x00 x00 x01 xce x01 x00 x00)
(L (W x64 x00 x00 x00 x9c x00 x00 x00))
(L (W xff xff xff xff xff xff xff xff)))
(T (W x00 x00 x80 x3f x00 x00 x80 x3f)
(L (W x00 x00 x80 xbf x00 x00 x80 xbf))
(L (W x45 x26 x22 x84 xe4 x9c xf2 xcb))))
(T (W x00 x00 x80 x3f x00 x00 x80 x3f)
(T (W x00 x00 x00 x00 x00 x00 x00 x00)
(L (W x38 x00 x00 x00 x00 x00 x80 xbf))
(L (W x00 x00 x00 x00 x12 x00 x00 x00)))
(T (W xfa x1f xfe xff x74 x00 x00 x00)
(L (W x00 x00 x00 x00 x00 x00 x00 x00)) E))))
(T (W xff xff xff xff xff xff xff xff)
(T (W x00 x00 x80 x3f x00 x00 x80 x3f)
(T (W x00 x00 x00 x00 x00 x00 x00 x00)
(T (W xff xff xff xff xff xff xff xff)
(L (W x00 x00 x00 x00 x00 x00 x00 x00))
(L (W x54 x00 x00 x00 x48 x00 x00 x00)))
(T (W x46 x53 x59 x53 x5f x4e x53 x5f)
(L (W x00 x00 x00 x00 x12 x00 x00 x00))
(L (W x45 x26 x22 x84 xe4 x9c xf2 xcb))))
(T (W x00 x00 x00 x00 x00 x00 x00 x00)
(T (W xc4 x00 x00 x00 x01 x00 x00 x00)
(L (W x45 x26 x22 x84 xe4 x9c xf2 xcb))
(L (W x00 x00 x00 x00 x00 x00 x00 x00)))
(T (W xff xff xff xff xff xff xff xff)
(L (W x00 x00 x00 x00 x00 x00 x00 x00))
(L (W x00 x00 x00 x00 x00 x00 x00 x00)))))
(T (W x50 x00 x00 x00 x44 x00 x00 x00)
(T (W x00 x00 x00 x00 x00 x00 x00 x00)
(T (W x00 x00 x00 x00 x12 x00 x00 x00)
(L (W x18 x00 x00 x00 x10 x00 x00 x00))
(L (W xff xff xff xff xff xff xff xff)))
(T (W xff xff xff xff xff xff xff xff)
(L (W xff xff xff xff xb0 x00 x00 x00))
(L (W x00 x00 x80 xbf x00 x00 x80 xbf))))
(T (W xe4 x7a x19 x96 xc1 x51 xa4 x47)
(T (W xfa xaf xfd xff x74 x00 x00 x00)
(L (W xff xff xff xff xff xff xff xff))
(L (W x18 x00 x00 x00 x0c x00 x00 x00)))
(T (W xff x9e x30 x97 x85 x21 x5c x5f)
(L (W x00 x00 x00 x00 x00 x00 x00 x00)) E))))))
(T (W x45 x26 x22 x84 xe4 x9c xf2 xcb)
(T (W x00 x00 x00 x00 x00 x00 x00 x00)
(T (W x00 x00 x80 x3f x00 x00 x80 x3f)
(T (W x00 x00 x00 x00 x00 x00 x00 x00)
(T (W xff xff xff xff xff xff xff xff)
(T (W x00 x00 x80 x3f x00 x00 x80 x3f)
(L (W x18 x00 x00 x00 x0c x00 x00 x00))
(L (W xff xff xff xff xb0 x00 x00 x00)))
(T (W x00 x00 x00 x00 x00 x00 x00 x00)
(L (W x00 x00 x80 x3f x00 x00 x80 x3f))
(L (W x54 x00 x00 x00 x48 x00 x00 x00))))
(T (W xff xff xff xff x03 x00 x00 x00)
(T (W xff xff xff xff xbc x00 x00 x00)
(L (W x00 x00 x00 x00 x00 x00 x00 x00))
(L (W x00 x00 x80 xbf x00 x00 x80 xbf)))
(T (W x00 x00 x80 x3f x00 x00 x80 x3f)
(L (W x4f x84 x6f x8b xe8 xcb x63 xb7))
(L (W x03 x00 x00 x00 xcc x00 x00 x00)))))
(T (W x00 x00 x00 x00 x4a x45 xff xff)
(T (W xff xff xff xff x04 x00 x00 x00)
(T (W x45 x26 x22 x84 xe4 x9c xf2 xcb)
(L (W x00 x00 x00 x00 x00 x00 x00 x00))
(L (W x00 x00 x00 x00 x00 x00 x00 x00)))
(T (W xff xff xff xff xff xff xff xff)
(L (W xff xff xff xff xff xff xff xff))
(L (W x00 x00 x00 x00 x04 xc4 xff xff))))
(T (W x00 x00 x80 x3f x00 x00 x80 x3f)
(T (W x42 x88 xfd xff x78 x00 x00 x00)
(L (W xff xff xff xff xff xff xff xff))
(L (W xff xff xff xff xff xff xff xff)))
(T (W x00 x00 x00 x00 x00 x00 x00 x00)
(L (W xff xff xff xff xb0 x00 x00 x00))
(L (W x00 x00 x00 x00 x00 x00 x00 x00))))))
(T (W x00 x00 x00 x00 x00 x00 x00 x00)
(T (W x00 x00 x00 x00 x00 x00 x00 x00)
(T (W xff xff xff xff xff xff xff xff)
(T (W x00 x00 x80 x3f x00 x00 x80 x3f)
(L (W x45 x26 x22 x84 xe4 x9c xf2 xcb))
(L (W xff xff xff xff xff xff xff xff)))
(T (W x42 xb8 xfd xff x78 x00 x00 x00)
(L (W xff xff xff xff xa0 x00 x00 x00))
(L (W xff xff xff xff xff xff xff xff))))
(T (W x45 x26 x22 x84 xe4 x9c xf2 xcb)
(T (W x30 x34 x5f x43 x4c x45 x41 x52)
(L (W xff xff xff xff xff xff xff xff))
(L (W x00 x00 x80 xbf x00 x00 x80 xbf)))
(T (W x00 x00 x80 x3f x00 x00 x80 x3f)
(L (W x45 x26 x22 x84 xe4 x9c xf2 xcb))
(L (W xff xff xff xff xa0 x00 x00 x00)))))
(T (W xff xff xff xff xff xff xff xff)
(T (W xb8 x00 x00 x00 xac x00 x00 x00)
(T (W x45 x26 x22 x84 xe4 x9c xf2 xcb)
(L (W x13 x00 x00 x00 x0c x00 x00 x00))
(L (W x00 x00 x00 x00 x00 x00 x00 x00)))
(T (W x00 x00 x00 x00 x12 x00 x00 x00)
(L (W x00 x00 x00 x00 x00 x00 x00 x00))
(L (W x18 x00 x00 x00 x10 x00 x00 x00))))
(T (W x45 x26 x22 x84 xe4 x9c xf2 xcb)
(T (W xff xff xff xff xff xff xff xff)
(L (W x61 x64 x65 x72 x5f x77 x69 x6c))
(L (W x45 x26 x22 x84 xe4 x9c xf2 xcb)))
(T (W x00 x14 xfe xff x00 x01 x01 x01)
(L (W xff xff xff xff xff xff xff xff)) E)))))
(T (W x45 x26 x22 x84 xe4 x9c xf2 xcb)
(T (W x00 x00 x00 x00 x00 x00 x00 x00)
(T (W x00 x00 x00 x00 x00 x00 x00 x00)
(T (W xff xff xff xff xff xff xff xff)
(T (W x54 x00 x00 x00 x48 x00 x00 x00)
(L (W x18 x00 x00 x00 x10 x00 x00 x00))
(L (W xff xff xff xff xbc x00 x00 x00)))
(T (W x00 x00 x80 x3f x00 x00 x80 x3f)
(L (W x42 xb0 xfe xff x78 x00 x00 x00))
(L (W x18 x00 x00 x00 x10 x00 x00 x00))))
(T (W x00 x00 x00 x00 x78 xed xfc xff)
(T (W xff xff xff xff xff xff xff xff)
(L (W x9e x01 x00 x00 xff xff xff xff))
(L (W x54 x00 x00 x00 x48 x00 x00 x00)))
(T (W x00 x00 x00 x00 x00 x00 x00 x00)
(L (W x00 x00 x80 xbf x00 x00 x80 xbf))
(L (W x00 x00 x00 x00 x12 x00 x00 x00)))))
(T (W x1c x01 x00 x00 x04 x00 x00 x00)
(T (W x18 x00 x00 x00 x10 x00 x00 x00)
(T (W x68 x00 x00 x00 x5c x00 x00 x00)
(L (W xff xff xff xff x03 x00 x00 x00))
(L (W x00 x00 x00 x00 x00 x00 x00 x00)))
(T (W xca xfc xfd xff x00 x00 x01 x01)
(L (W x00 x00 x01 x01 xbb x01 x00 x00))
(L (W x18 x00 x00 x00 x10 x00 x00 x00))))
(T (W x42 x10 xfd xff x78 x00 x00 x00)
(T (W xb0 x00 x00 x00 x64 x00 x00 x00)
(L (W x00 x00 x80 x3f x00 x00 x80 x3f))
(L (W xff xff xff xff xff xff xff xff)))
(T (W x68 x00 x00 x00 x00 x00 x62 x00)
(L (W xff xff xff xff xff xff xff xff)) E))))
(T (W x00 x00 x00 x00 x00 x00 x00 x00)
(T (W x3e x00 x00 x00 x10 x00 x00 x00)
(T (W xff xff xff xff xff xff xff xff)
(T (W x45 x26 x22 x84 xe4 x9c xf2 xcb)
(L (W x00 x00 x00 x00 x00 x00 x00 x00))
(L (W x45 x44 x00 x00 x00 x00 x00 x00)))
(T (W xc8 x00 x00 x00 x01 x00 x00 x00)
(L (W x45 x26 x22 x84 xe4 x9c xf2 xcb))
(L (W xff xff xff xff xb4 x00 x00 x00))))
(T (W x50 x00 x00 x00 x44 x00 x00 x00)
(T (W x00 x00 x00 x00 x00 x00 x00 x00)
(L (W x45 x26 x22 x84 xe4 x9c xf2 xcb))
(L (W x18 x00 x00 x00 x0c x00 x00 x00)))
(T (W x00 x00 x00 x00 x00 x00 x00 x00)
(L (W xa4 x00 x00 x00 x64 x00 x00 x00))
(L (W x00 x00 x80 xbf x00 x00 x80 xbf)))))
(T (W xff xff xff xff xff xff xff xff)
(T (W xc0 x00 x00 x00 xb4 x00 x00 x00)
(T (W xc0 x00 x00 x00 x01 x00 x00 x00)
(L (W x00 x00 x00 x00 x00 x00 x00 x00))
(L (W x00 x00 x80 xbf x00 x00 x80 xbf)))
(T (W x00 x00 x80 x3f x00 x00 x80 x3f)
(L (W x00 x00 x00 x00 x00 x00 x00 x00))
(L (W x00 x00 x00 x00 x00 x00 x00 x00))))
(T (W x18 x00 x00 x00 x0c x00 x00 x00)
(T (W x12 x00 x00 x00 x46 x53 x59 x53)
(L (W x45 x26 x22 x84 xe4 x9c xf2 xcb))
(L (W xfa xb3 xff xff x74 x00 x00 x00)))
(T (W x00 x00 x80 x3f x00 x00 x80 x3f)
(L (W x45 x26 x22 x84 xe4 x9c xf2 xcb)) E)))))))))
(T (W x38 x2a x02 x00 xf4 x27 x02 x00)
(T (W xf0 x71 x01 x00 x94 x6f x01 x00)
(T (W x30 x3f x00 x00 xe4 x3c x00 x00)
(T (W x00 x00 x00 x00 x00 x00 x00 x00)
(T (W x1c x34 xfc xff x21 x00 x00 x00)
(T (W x00 x00 x00 x00 x00 x00 x00 x00)
(T (W xff xff xff xff xff xff xff xff)
(T (W x68 x00 x00 x00 x5c x00 x00 x00)
(T (W x00 x00 x00 x00 x00 x00 x00 x00)
(L (W x00 x00 x00 x00 x00 x00 x00 x00))
(L (W x54 x00 x00 x00 x48 x00 x00 x00)))
(T (W xff xff xff xff xff xff xff xff)
(L (W xc2 xa1 xfe xff x78 x00 x00 x00))
(L (W x00 x00 x80 xbf x00 x00 x80 xbf))))
(T (W x00 x00 x80 x3f x00 x00 x80 x3f)
(T (W x00 x00 x80 x3f x00 x00 x80 x3f)
(L (W x00 x00 x01 x01 xd5 x01 x00 x00))
(L (W x00 x00 x00 x00 x00 x00 x00 x00)))
(T (W x00 x00 x00 x00 x00 x00 x00 x00)
(L (W x00 x00 x00 x00 x00 x00 x00 x00))
(L (W x00 x00 x00 x00 x00 x00 x00 x00)))))
(T (W xff xff xff xff xff xff xff xff)
(T (W x00 x00 x80 x3f x00 x00 x80 x3f)
(T (W x1c x44 xfd xff x3e x00 x00 x00)
(L (W x34 x00 x00 x00 x10 x00 x00 x00))
(L (W x03 x00 x00 x00 xd0 x00 x00 x00)))
(T (W x00 x00 x80 x3f x00 x00 x80 x3f)
(L (W x45 x26 x22 x84 xe4 x9c xf2 xcb))
(L (W x00 x01 x01 x01 x3a xba xff xff))))
(T (W x00 x00 x00 x00 x00 x00 x00 x00)
(T (W xaa x98 xfd xff x00 x00 x00 x01)
(L (W x00 x00 x00 x00 x00 x00 x00 x00))
(L (W x45 x26 x22 x84 xe4 x9c xf2 xcb)))
(T (W xff xff xff xff xff xff xff xff)
(L (W x4f x84 x6f x8b xe8 xcb x63 xb7))
(L (W x00 x00 x00 x00 x12 x00 x00 x00))))))
(T (W xff xff xff xff xff xff xff xff)
(T (W x64 x00 x00 x00 x9c x00 x00 x00)
(T (W x00 x00 x80 x3f x00 x00 x80 x3f)
(T (W x00 x00 x00 x00 x00 x00 x00 x00)
(L (W x00 x00 x80 x3f x00 x00 x80 x3f))
(L (W x6c x00 x00 x00 x60 x00 x00 x00)))
(T (W xc4 xb8 xfd xff x15 x00 x00 x00)
(L (W x00 x00 x00 x00 x00 x00 x00 x00))
(L (W x00 x00 x80 xbf x00 x00 x80 xbf))))
(T (W x00 x00 x80 x3f x00 x00 x80 x3f)
(T (W x45 x26 x22 x84 xe4 x9c xf2 xcb)
(L (W xff xff xff xff xff xff xff xff))
(L (W x00 x00 x00 x00 x00 x00 x00 x00)))
(T (W x00 x00 x00 x00 x00 x00 x00 x00)
(L (W x4f x84 x6f x8b xe8 xcb x63 xb7))
(L (W xff xff xff xff xff xff xff xff)))))
(T (W x45 x26 x22 x84 xe4 x9c xf2 xcb)
(T (W x00 x00 x80 x3f x00 x00 x80 x3f)
(T (W x00 x00 x00 x00 x00 x00 x00 x00)
(L (W x18 x00 x00 x00 x10 x00 x00 x00))
(L (W x8c x04 x00 x00 x70 x03 x00 x00)))
(T (W xff xff xff xff x9c x00 x00 x00)
(L (W x18 x00 x00 x00 x10 x00 x00 x00))
(L (W x00 x00 x80 xbf x00 x00 x80 xbf))))
(T (W x00 x00 x00 x00 x00 x00 x00 x00)
(T (W x00 x00 x80 x3f x00 x00 x80 x3f)
(L (W x00 x00 x00 x00 x00 x00 x00 x00))
(L (W x3c x00 x00 x00 x00 x00 x80 xbf)))
(T (W x64 x00 x0c x00 x00 x00 x00 x00)
(L (W x00 x00 x80 xbf x00 x00 x80 xbf)) E)))))
(T (W x00 x00 x00 x00 x02 x00 x00 x00)
(T (W x00 x00 x00 x00 x04 x00 x00 x00)
(T (W xff xff xff xff xff xff xff xff)
(T (W x00 x00 x80 x3f x00 x00 x80 x3f)
(T (W x45 x26 x22 x84 xe4 x9c xf2 xcb)
(L (W x00 x00 x00 x00 x00 x00 x00 x00))
(L (W x00 x00 x80 xbf x00 x00 x80 xbf)))
(T (W x00 x00 x00 x00 x00 x00 x00 x00)
(L (W x00 x00 x00 x00 x00 x00 x00 x00))
(L (W x00 x00 x00 x00 x00 x00 x00 x00))))
(T (W x00 x00 x80 x3f x00 x00 x80 x3f)
(T (W x00 x00 x80 x3f x00 x00 x80 x3f)
(L (W xff xff xff xff xff xff xff xff))
(L (W x00 x00 x00 x00 x00 x00 x00 x00)))
(T (W x00 x00 x00 x00 x02 x00 x00 x00)
(L (W x80 x42 xbb x28 xbf xcc x6a x6a))
(L (W xff xff xff xff xbc x00 x00 x00)))))
(T (W xff xff xff xff xff xff xff xff)
(T (W x00 x00 x80 x3f x00 x00 x80 x3f)
(T (W x00 x00 x00 x01 xce x01 x00 x00)
(L (W xff xff xff xff xff xff xff xff))
(L (W xff xff xff xff xff xff xff xff)))
(T (W x45 x26 x22 x84 xe4 x9c xf2 xcb)
(L (W x00 x00 x80 xbf x00 x00 x80 xbf))
(L (W x00 x00 x80 xbf x00 x00 x80 xbf))))
(T (W x00 x00 x00 x00 x00 x00 x00 x00)
(T (W x00 x00 x00 x00 x00 x00 x00 x00)
(L (W x68 x00 x00 x00 x5c x00 x00 x00))
(L (W x00 x00 x80 xbf x00 x00 x80 xbf)))
(T (W xff xff xff xff xff xff xff xff)
(L (W x00 x00 x80 xbf x00 x00 x80 xbf))
(L (W x00 x00 x00 x00 x00 x00 x00 x00))))))
(T (W xbc x01 x00 x00 xff xff xff xff)
(T (W xff xff xff xff x03 x00 x00 x00)
(T (W x00 x00 x80 x3f x00 x00 x80 x3f)
(T (W x00 x00 x00 x00 x00 x00 x00 x00)
(L (W x00 x00 x00 x00 x00 x00 x00 x00))
(L (W x7a x4d xff xff x74 x00 x00 x00)))
(T (W x00 x00 x00 x00 x00 x00 x00 x00)
(L (W x00 x00 x80 x3f x00 x00 x80 x3f))
(L (W x00 x00 x80 xbf x00 x00 x80 xbf))))
(T (W x00 x00 x00 x00 x00 x00 x00 x00)
(T (W xff xff xff xff xff xff xff xff)
(L (W xff xff xff xff x9c x00 x00 x00))
(L (W x00 x00 x00 x00 x00 x00 x00 x00)))
(T (W x18 x01 x00 x00 x04 x00 x00 x00)
(L (W x45 x26 x22 x84 xe4 x9c xf2 xcb))
(L (W x54 x00 x00 x00 x48 x00 x00 x00)))))
(T (W x18 x00 x00 x00 x0c x00 x00 x00)
(T (W x45 x26 x22 x84 xe4 x9c xf2 xcb)
(T (W x00 x00 x00 x00 x00 x00 x00 x00)
(L (W xff xff xff xff xff xff xff xff))
(L (W x45 x44 x00 x00 x00 x00 x00 x00)))
(T (W xff xff xff xff xff xff xff xff)
(L (W xff xff xff xff xff xff xff xff))
(L (W x4f x84 x6f x8b xe8 xcb x63 xb7))))
(T (W x00 x00 x00 x00 x00 x00 x00 x00)
(T (W x00 x00 x00 x00 xf8 x96 xfd xff)
(L (W xff xff xff xff xff xff xff xff))
(L (W x00 x00 x80 xbf x00 x00 x80 xbf)))
(T (W x00 x00 x00 x00 x00 x00 x00 x00)
(L (W x3c x00 x00 x00 x00 x00 x80 xbf)) E))))))
(T (W x7a x41 xfc xff x74 x00 x00 x00)
(T (W x00 x00 x00 x00 xf8 x32 xfc xff)
(T (W x00 x00 x80 x3f x00 x00 x80 x3f)
(T (W x00 x00 x80 x3f x00 x00 x80 x3f)
(T (W x00 x00 x00 x00 x00 x00 x00 x00)
(T (W x64 x00 x00 x00 x9c x00 x00 x00)
(L (W x45 x26 x22 x84 xe4 x9c xf2 xcb))
(L (W xff xff xff xff xff xff xff xff)))
(T (W x00 x00 x80 x3f x00 x00 x80 x3f)
(L (W x00 x00 x00 x00 x00 x00 x00 x00))
(L (W x2b x00 x00 x00 x2e x00 x00 x00))))
(T (W xff xff xff xff xff xff xff xff)
(T (W xff xff xff xff xff xff xff xff)
(L (W x00 x00 x80 xbf x00 x00 x80 xbf))
(L (W xff xff xff xff xb8 x00 x00 x00)))
(T (W x80 xe1 xfd xff x00 x01 x01 x01)
(L (W x00 x00 x80 xbf x00 x00 x80 xbf))
(L (W x54 x00 x00 x00 x48 x00 x00 x00)))))
(T (W x00 x00 x00 x00 x00 x00 x00 x00)
(T (W x2a x76 xfe xff x00 x00 x01 x01)
(T (W x45 x26 x22 x84 xe4 x9c xf2 xcb)
(L (W x00 x00 x80 x3f x00 x00 x80 x3f))
(L (W x00 x00 x00 x00 x00 x00 x00 x00)))
(T (W x00 x00 x00 x00 x00 x00 x00 x00)
(L (W xff xff xff xff xff xff xff xff))
(L (W xff xff xff xff xff xff xff xff))))
(T (W x01 x00 x00 x00 x9c x00 x00 x00)
(T (W xc4 x00 x00 x00 x01 x00 x00 x00)
(L (W xff xff xff xff xff xff xff xff))
(L (W xff xff xff xff xff xff xff xff)))
(T (W x00 x00 x80 x3f x00 x00 x80 x3f)
(L (W xff xff xff xff xff xff xff xff))
(L (W x45 x26 x22 x84 xe4 x9c xf2 xcb))))))
(T (W x00 x00 x80 x3f x00 x00 x80 x3f)
(T (W x45 x26 x22 x84 xe4 x9c xf2 xcb)
(T (W x7d x00 x00 x00 xff xff xff xff)
(T (W x50 x00 x00 x00 x44 x00 x00 x00)
(L (W xff xff xff xff xff xff xff xff))
(L (W xa9 x0c xb9 x28 xbf xcc x67 x6a)))
(T (W x45 x26 x22 x84 xe4 x9c xf2 xcb)
(L (W xff xff xff xff xff xff xff xff))
(L (W xff xff xff xff xff xff xff xff))))
(T (W xb8 x00 x00 x00 xac x00 x00 x00)
(T (W x00 x00 x00 x00 x00 x00 x00 x00)
(L (W x00 x00 x00 x00 x00 x00 x00 x00))
(L (W xff xff xff xff xff xff xff xff)))
(T (W x7a x09 xfe xff x74 x00 x00 x00)
(L (W xc8 x00 x00 x00 x01 x00 x00 x00))
(L (W xff xff xff xff xff xff xff xff)))))
(T (W x00 x00 x00 x00 x00 x00 x00 x00)
(T (W x20 x01 x00 x00 x04 x00 x00 x00)
(T (W xff xff xff xff xbc x00 x00 x00)
(L (W x03 x00 x00 x00 x34 x38 x38 x00))
(L (W x54 x00 x00 x00 x48 x00 x00 x00)))
(T (W x4f x84 x6f x8b xe8 xcb x63 xb7)
(L (W x00 x00 x00 x00 x00 x00 x00 x00))
(L (W x18 x00 x00 x00 x10 x00 x00 x00))))
(T (W xff xff xff xff xff xff xff xff)
(T (W x8f xf5 xac x6d x96 xa7 x0e xd8)
(L (W xff xff xff xff xff xff xff xff))
(L (W xff xff xff xff xff xff xff xff)))
(T (W xff xff xff xff xff xff xff xff)
(L (W xff xff xff xff xff xff xff xff)) E)))))
(T (W x50 x00 x00 x00 x44 x00 x00 x00)
(T (W x00 x00 x80 x3f x00 x00 x80 x3f)
(T (W x45 x26 x22 x84 xe4 x9c xf2 xcb)
(T (W x2b xfe x2a x13 x0c xfb x5c x53)
(T (W x80 x29 xfd xff x00 x01 x01 x01)
(L (W xff xff xff xff xff xff xff xff))
(L (W xff xff xff xff xff xff xff xff)))
(T (W x80 xa9 xfd xff x00 x01 x01 x01)
(L (W x00 x00 x80 x3f x00 x00 x80 x3f))
(L (W xff xff xff xff xff xff xff xff))))
(T (W xff xff xff xff xff xff xff xff)
(T (W x2e x00 x00 x00 x0c x00 x00 x00)
(L (W x00 x00 x00 x00 x00 x00 x00 x00))
(L (W x0b x00 x00 x00 x0e x00 x00 x00)))
(T (W x00 x00 x80 x3f x00 x00 x80 x3f)
(L (W x2b x00 x00 x00 x2e x00 x00 x00))
(L (W x54 x00 x00 x00 x48 x00 x00 x00)))))
(T (W xc4 x94 xfc xff x1b x00 x00 x00)
(T (W x00 x00 x00 x00 x00 x00 x00 x00)
(T (W xff xff xff xff xff xff xff xff)
(L (W x00 x00 x80 x3f x00 x00 x80 x3f))
(L (W x00 x00 x80 xbf x00 x00 x80 xbf)))
(T (W x00 x00 x00 x00 x00 x00 x00 x00)
(L (W xc4 xd4 xfe xff x14 x00 x00 x00))
(L (W xff xff xff xff xff xff xff xff))))
(T (W x54 x00 x00 x00 x48 x00 x00 x00)
(T (W xff xff xff xff xff xff xff xff)
(L (W x00 x00 x00 x00 x00 x00 x00 x00))
(L (W xff xff xff xff xff xff xff xff)))
(T (W x00 x00 x00 x00 x00 x00 x00 x00)
(L (W xff xff xff xff xff xff xff xff)) E))))
(T (W x00 x00 x80 x3f x00 x00 x80 x3f)
(T (W x00 x00 x00 x00 x00 x00 x00 x00)
(T (W x1c x01 x00 x00 x04 x00 x00 x00)
(T (W x7a x51 xfd xff x74 x00 x00 x00)
(L (W xff xff xff xff xff xff xff xff))
(L (W x00 x00 x00 x00 x12 x00 x00 x00)))
(T (W xff xff xff xff xff xff xff xff)
(L (W xff xff xff xff xff xff xff xff))
(L (W x00 x00 x00 x00 x00 x00 x00 x00))))
(T (W x45 x26 x22 x84 xe4 x9c xf2 xcb)
(T (W x00 x00 x80 x3f x00 x00 x80 x3f)
(L (W x00 x00 x80 xbf x00 x00 x80 xbf))
(L (W xff xff xff xff xff xff xff xff)))
(T (W x00 x00 x80 x3f x00 x00 x80 x3f)
(L (W xff xff xff xff xff xff xff xff))
(L (W x32 xdb xac x28 xbf xd3 x59 x6a)))))
(T (W x00 x00 x00 x00 x00 x00 x00 x00)
(T (W xff xff xff xff xff xff xff xff)
(T (W xff xff xff xff xff xff xff xff)
(L (W x00 x00 x80 xbf x00 x00 x80 xbf))
(L (W x18 x00 x00 x00 x0c x00 x00 x00)))
(T (W x00 x00 x80 x3f x00 x00 x80 x3f)
(L (W x00 x00 x80 xbf x00 x00 x80 xbf))
(L (W x00 x00 x80 xbf x00 x00 x80 xbf))))
(T (W xff xff xff xff xff xff xff xff)
(T (W x00 x00 x00 x00 x00 x00 x00 x00)
(L (W x18 x00 x00 x00 x0c x00 x00 x00))
(L (W xff xff xff xff xa0 x00 x00 x00)))
(T (W x18 x00 x00 x00 x10 x00 x00 x00)
(L (W xff xff xff xff xff xff xff xff)) E)))))))
(T (W xff xff xff xff xff xff xff xff)
(T (W x00 x00 x80 x3f x00 x00 x80 x3f)
(T (W x45 x26 x22 x84 xe4 x9c xf2 xcb)
(T (W x00 x00 x00 x00 x00 x00 x00 x00)
(T (W x00 x00 x00 x00 x00 x00 x00 x00)
(T (W xff xff xff xff xff xff xff xff)
(T (W x00 x00 x80 x3f x00 x00 x80 x3f)
(L (W x00 x00 x80 x3f x00 x00 x80 x3f))
(L (W xff xff xff xff xb0 x00 x00 x00)))
(T (W x1c xa6 xfd xff x10 x00 x00 x00)
(L (W x9a x01 x00 x00 xff xff xff xff))
(L (W x00 x01 x01 x01 x3a x9c xff xff))))
(T (W x68 x00 x00 x00 x5c x00 x00 x00)
(T (W x45 x26 x22 x84 xe4 x9c xf2 xcb)
(L (W x00 x00 x00 x00 x00 x00 x00 x00))
(L (W xf4 x60 xff xff x3a x5c xff xff)))
(T (W x00 x00 x80 x3f x00 x00 x80 x3f)
(L (W x00 x00 x00 x00 x00 x00 x00 x00))
(L (W x00 x00 x00 x00 x00 x00 x00 x00)))))
(T (W xff xff xff xff xff xff xff xff)
(T (W x45 x26 x22 x84 xe4 x9c xf2 xcb)
(T (W x45 x26 x22 x84 xe4 x9c xf2 xcb)
(L (W x00 x00 x00 x00 x00 x00 x00 x00))
(L (W x02 x00 x00 x00 x30 x01 x00 x00)))
(T (W x45 x26 x22 x84 xe4 x9c xf2 xcb)
(L (W xff xff xff xff xa0 x00 x00 x00))
(L (W xbc x00 x00 x00 x02 x00 x00 x00))))
(T (W x7a x17 xfd xff x74 x00 x00 x00)
(T (W x4f x84 x6f x8b xe8 xcb x63 xb7)
(L (W x00 x00 x80 x3f x00 x00 x80 x3f))
(L (W x35 x00 x00 x00 x38 x00 x00 x00)))
(T (W x00 x00 x00 x00 x00 x00 x00 x00)
(L (W x00 x00 x80 xbf x00 x00 x80 xbf))
(L (W x00 x00 x60 x00 x00 x00 x00 x00))))))
(T (W x45 x26 x22 x84 xe4 x9c xf2 xcb)
(T (W x01 x00 x00 x00 x04 x00 x00 x00)
(T (W xb8 x00 x00 x00 xac x00 x00 x00)
(T (W x00 x00 x80 x3f x00 x00 x80 x3f)
(L (W x45 x26 x22 x84 xe4 x9c xf2 xcb))
(L (W xff xff xff xff xff xff xff xff)))
(T (W x00 x00 x80 x3f x00 x00 x80 x3f)
(L (W xff xff xff xff xa0 x00 x00 x00))
(L (W x45 x26 x22 x84 xe4 x9c xf2 xcb))))
(T (W x50 x00 x00 x00 x44 x00 x00 x00)
(T (W xff xff xff xff xff xff xff xff)
(L (W x00 x00 x01 x01 x2a x00 x00 x00))
(L (W x00 x00 x80 xbf x00 x00 x80 xbf)))
(T (W x00 x00 x80 x3f x00 x00 x80 x3f)
(L (W x54 x00 x00 x00 x48 x00 x00 x00))
(L (W x00 x00 x00 x00 x00 x00 x00 x00)))))
(T (W xff xff xff xff xff xff xff xff)
(T (W xff xff xff xff x04 x00 x00 x00)
(T (W x68 x00 x00 x00 x5c x00 x00 x00)
(L (W x00 x00 x00 x00 x00 x00 x00 x00))
(L (W x00 x00 x00 x00 x00 x00 x00 x00)))
(T (W x00 x00 x00 x00 x00 x00 x00 x00)
(L (W x54 x01 x00 x00 xff xff xff xff))
(L (W x00 x00 x00 x00 x00 x00 x00 x00))))
(T (W x50 x00 x00 x00 x44 x00 x00 x00)
(T (W xff xff xff xff xff xff xff xff)
(L (W x00 x00 x80 x3f x00 x00 x80 x3f))
(L (W x45 x26 x22 x84 xe4 x9c xf2 xcb)))
(T (W x80 x0f xfe xff x00 x01 x01 x01)
(L (W x18 x00 x00 x00 x0c x00 x00 x00)) E)))))
(T (W x00 x00 x00 x00 x00 x00 x00 x00)
(T (W x00 x00 x00 x00 x00 x00 x00 x00)
(T (W x1c x6e xfc xff x3e x00 x00 x00)
(T (W xff xff xff xff xff xff xff xff)
(T (W x00 x00 x80 x3f x00 x00 x80 x3f)
(L (W x18 x00 x00 x00 x10 x00 x00 x00))
(L (W x7a x3f xff xff x74 x00 x00 x00)))
(T (W x00 x00 x00 x00 x00 x00 x00 x00)
(L (W xff xff xff xff xff xff xff xff))
(L (W x00 x00 x00 x00 xf8 xa8 xff xff))))
(T (W x00 x00 x80 x3f x00 x00 x80 x3f)
(T (W xff xff xff xff xff xff xff xff)
(L (W x9e x01 x00 x00 xff xff xff xff))
(L (W x4f x84 x6f x8b xe8 xcb x63 xb7)))
(T (W x00 x00 x00 x00 x00 x00 x00 x00)
(L (W x45 x26 x22 x84 xe4 x9c xf2 xcb))
(L (W x00 x00 x00 x00 x00 x00 x00 x00)))))
(T (W xff xff xff xff xff xff xff xff)
(T (W xb8 x00 x00 x00 xac x00 x00 x00)
(T (W x45 x26 x22 x84 xe4 x9c xf2 xcb)
(L (W x00 x00 x00 x00 x00 x00 x00 x00))
(L (W x00 x00 x00 x00 x00 x00 x00 x00)))
(T (W xff xff xff xff xff xff xff xff)
(L (W xff xff xff xff xff xff xff xff))
(L (W xff xff xff xff xff xff xff xff))))
(T (W xff xff xff xff xff xff xff xff)
(T (W x68 x00 x00 x00 x5c x00 x00 x00)
(L (W xff xff xff xff xff xff xff xff))
(L (W x80 x87 xff xff x00 x01 x01 x01)))
(T (W x18 x01 x00 x00 x04 x00 x00 x00)
(L (W x00 x00 x00 x00 xf8 x08 xff xff)) E))))
(T (W x00 x00 x00 x00 x00 x00 x00 x00)
(T (W xff xff xff xff xff xff xff xff)
(T (W x45 x26 x22 x84 xe4 x9c xf2 xcb)
(T (W x00 x00 x80 x3f x00 x00 x80 x3f)
(L (W x45 x26 x22 x84 xe4 x9c xf2 xcb))
(L (W xff xff xff xff xff xff xff xff)))
(T (W xc2 xbb xfd xff x78 x00 x00 x00)
(L (W x80 xb7 xfe xff x00 x01 x01 x01))
(L (W xff xff xff xff xbc x00 x00 x00))))
(T (W x68 x00 x00 x00 x5c x00 x00 x00)
(T (W x00 x00 x00 x00 x00 x00 x00 x00)
(L (W x39 x5e x6c x12 x83 xf1 x3a xc6))
(L (W x00 x00 x80 xbf x00 x00 x80 xbf)))
(T (W x00 x00 x00 x00 x00 x00 x00 x00)
(L (W x45 x26 x22 x84 xe4 x9c xf2 xcb))
(L (W xc4 x00 x00 x00 x02 x00 x00 x00)))))
(T (W xff xff xff xff xff xff xff xff)
(T (W x45 x26 x22 x84 xe4 x9c xf2 xcb)
(T (W x80 x57 xfd xff x00 x01 x01 x01)
(L (W x4c x45 x41 x52 x45 x44 x00 x00))
(L (W x4f x84 x6f x8b xe8 xcb x63 xb7)))
(T (W x00 x00 x00 x00 x00 x00 x00 x00)
(L (W x00 x00 x00 x00 x00 x00 x00 x00))
(L (W xff xff xff xff xff xff xff xff))))
(T (W x00 x00 x80 x3f x00 x00 x80 x3f)
(T (W x0a xbf xfd xff x9d x01 x00 x00)
(L (W x61 x64 x65 x72 x5f x77 x69 x6c))
(L (W x00 x00 x00 x00 x00 x00 x00 x00)))
(T (W x00 x00 x80 x3f x00 x00 x80 x3f)
(L (W x45 x26 x22 x84 xe4 x9c xf2 xcb)) E))))))
(T (W xff xff xff xff xff xff xff xff)
(T (W x64 x00 x00 x00 x9c x00 x00 x00)
(T (W xff xff xff xff xff xff xff xff)
(T (W x7a x7b xfc xff x74 x00 x00 x00)
(T (W x00 x00 x00 x00 x00 x00 x00 x00)
(T (W xff xff xff xff xff xff xff xff)
(L (W x2e x00 x00 x00 x10 x00 x00 x00))
(L (W x00 x00 x00 x00 x00 x00 x00 x00)))
(T (W x18 x00 x00 x00 x10 x00 x00 x00)
(L (W xff xff xff xff xff xff xff xff))
(L (W xff xff xff xff xff xff xff xff))))
(T (W x00 x00 x00 x00 x00 x00 x00 x00)
(T (W x00 x00 x00 x00 x00 x00 x00 x00)
(L (W x68 x00 x00 x00 x5c x00 x00 x00))
(L (W xff xff xff xff xff xff xff xff)))
(T (W xff xff xff xff xff xff xff xff)
(L (W xcc x00 x00 x00 x02 x00 x00 x00))
(L (W x3c x00 x40 x00 x44 x00 x48 x00)))))
(T (W x00 x00 x80 x3f x00 x00 x80 x3f)
(T (W x00 x00 x00 x00 x00 x00 x00 x00)
(T (W xff xff xff xff xff xff xff xff)
(L (W x64 x00 x00 x00 x9c x00 x00 x00))
(L (W x18 x00 x00 x00 x10 x00 x00 x00)))
(T (W x00 x00 x00 x00 x00 x00 x00 x00)
(L (W x00 x00 x00 x00 x00 x00 x00 x00))
(L (W x00 x00 x00 x00 x00 x00 x00 x00))))
(T (W xff xff xff xff xff xff xff xff)
(T (W x04 x00 x00 x00 x5a x84 xfd xff)
(L (W x00 x00 x00 x00 x00 x00 x00 x00))
(L (W x4f x84 x6f x8b xe8 xcb x63 xb7)))
(T (W x7a x1b xfe xff x74 x00 x00 x00)
(L (W x00 x00 x00 x00 x00 x00 x00 x00))
(L (W x54 x00 x00 x00 x48 x00 x00 x00))))))
(T (W x80 x53 xfc xff x00 x01 x01 x01)
(T (W x45 x26 x22 x84 xe4 x9c xf2 xcb)
(T (W x45 x26 x22 x84 xe4 x9c xf2 xcb)
(T (W xff xff xff xff xff xff xff xff)
(L (W xee xbb x33 x97 x85 xa9 x5f x5f))
(L (W x00 x00 x80 xbf x00 x00 x80 xbf)))
(T (W x00 x00 x00 x00 xd2 xb5 xfd xff)
(L (W x46 x53 x59 x53 x5f x4e x53 x5f))
(L (W x00 x00 x00 x00 x00 x00 x00 x00))))
(T (W x97 x65 xa2 xcf xf2 xdb x51 x03)
(T (W x6c x00 x00 x00 x60 x00 x00 x00)
(L (W x45 x26 x22 x84 xe4 x9c xf2 xcb))
(L (W xff xff xff xff xff xff xff xff)))
(T (W xff xff xff xff xff xff xff xff)
(L (W x4c x49 xbb x28 xbf xd0 x6a x6a))
(L (W x30 x34 x5f x43 x4c x45 x41 x52)))))
(T (W x45 x26 x22 x84 xe4 x9c xf2 xcb)
(T (W x00 x00 x00 x00 x00 x00 x00 x00)
(T (W x00 x00 x00 x00 x00 x00 x00 x00)
(L (W x00 x00 x80 xbf x00 x00 x80 xbf))
(L (W xb0 x00 x00 x00 x1e x00 x00 x00)))
(T (W x80 xd3 xfd xff x00 x01 x01 x01)
(L (W xff xff xff xff xb0 x00 x00 x00))
(L (W x45 x44 x00 x00 x00 x00 x00 x00))))
(T (W x00 x00 x00 x00 x00 x00 x00 x00)
(T (W x00 x00 x80 x3f x00 x00 x80 x3f)
(L (W x00 x00 x80 x3f x00 x00 x80 x3f))
(L (W x00 x00 x00 x00 x00 x00 x00 x00)))
(T (W x02 x00 x00 x00 x20 x01 x00 x00)
(L (W x00 x00 x00 x00 x00 x00 x00 x00)) E)))))
(T (W xff xff xff xff xff xff xff xff)
(T (W x64 x00 x00 x00 x9c x00 x00 x00)
(T (W x00 x00 x00 x00 xf8 x6c xfc xff)
(T (W x45 x26 x22 x84 xe4 x9c xf2 xcb)
(T (W x4c x00 x00 x00 xff xff xff xff)
(L (W x00 x00 x00 x00 x00 x00 x00 x00))
(L (W x00 x00 x00 x00 x00 x00 x00 x00)))
(T (W xff xff xff xff xff xff xff xff)
(L (W x76 x32 x00 x00 x5a xac xfe xff))
(L (W x30 x34 x5f x43 x4c x45 x41 x52))))
(T (W x00 x00 x00 x00 x00 x00 x00 x00)
(T (W x45 x26 x22 x84 xe4 x9c xf2 xcb)
(L (W x00 x00 x80 xbf x00 x00 x80 xbf))
(L (W xff xff xff xff xff xff xff xff)))
(T (W x45 x26 x22 x84 xe4 x9c xf2 xcb)
(L (W xff xff xff xff xff xff xff xff))
(L (W x45 x26 x22 x84 xe4 x9c xf2 xcb)))))
(T (W x00 x00 x80 x3f x00 x00 x80 x3f)
(T (W x00 x00 x00 x00 x00 x00 x00 x00)
(T (W x64 x00 x00 x00 xff xff xff xff)
(L (W x34 x00 x38 x00 x3c x00 x40 x00))
(L (W xc4 x00 x00 x00 x02 x00 x00 x00)))
(T (W x00 x00 x80 x3f x00 x00 x80 x3f)
(L (W x00 x00 x80 xbf x00 x00 x80 xbf))
(L (W x45 x44 x00 x00 x00 x00 x00 x00))))
(T (W x00 x00 x00 x00 xf2 xd0 xfe xff)
(T (W x00 x00 x00 x00 x12 x00 x00 x00)
(L (W xff xff xff xff xff xff xff xff))
(L (W x00 x00 x00 x00 x00 x00 x00 x00)))
(T (W x00 x00 x80 x3f x00 x00 x80 x3f)
(L (W x00 x00 x00 x00 x00 x00 x00 x00)) E))))
(T (W x50 x00 x00 x00 x44 x00 x00 x00)
(T (W x00 x00 x80 x3f x00 x00 x80 x3f)
(T (W x00 x00 x00 x00 x00 x00 x00 x00)
(T (W xff xff xff xff xff xff xff xff)
(L (W x54 x00 x00 x00 x48 x00 x00 x00))
(L (W x54 x00 x00 x00 x48 x00 x00 x00)))
(T (W x13 x00 x00 x00 x10 x00 x00 x00)
(L (W x00 x00 x00 x00 x00 x00 x00 x00))
(L (W x00 x00 x00 x00 x00 x00 x00 x00))))
(T (W x6f x00 x00 x00 xff xff xff xff)
(T (W xff xff xff xff x9c x00 x00 x00)
(L (W xff xff xff xff xff xff xff xff))
(L (W x28 x00 x00 x00 x0c x00 x00 x00)))
(T (W x00 x00 x00 x00 xf8 xfc xfd xff)
(L (W x00 x00 x00 x00 x12 x00 x00 x00))
(L (W xff xff xff xff xff xff xff xff)))))
(T (W x00 x00 x00 x00 x00 x00 x00 x00)
(T (W x00 x00 x00 x00 x00 x00 x00 x00)
(T (W x00 x00 x00 x00 x00 x00 x00 x00)
(L (W x45 x26 x22 x84 xe4 x9c xf2 xcb))
(L (W xff xff xff xff xff xff xff xff)))
(T (W xff xff xff xff xff xff xff xff)
(L (W x45 x26 x22 x84 xe4 x9c xf2 xcb))
(L (W xff xff xff xff x9c x00 x00 x00))))
(T (W x00 x00 x00 x00 x04 x00 x00 x00)
(T (W x80 x9b xfd xff x00 x01 x01 x01)
(L (W xd4 x02 x00 x00 x80 x01 x00 x00))
(L (W x00 x00 x00 x00 x00 x00 x00 x00)))
(T (W xff xff xff xff xff xff xff xff)
(L (W x00 x00 x00 x00 x00 x00 x00 x00)) E))))))))
(T (W xc0 xd1 x00 x00 x8c xd0 x00 x00)
(T (W x18 x00 x00 x00 x0c x00 x00 x00)
(T (W x00 x00 x00 x00 x00 x00 x00 x00)
(T (W x00 x00 x00 x00 x00 x00 x00 x00)
(T (W x00 x00 x00 x00 x00 x00 x00 x00)
(T (W x00 x00 x00 x00 x02 x00 x00 x00)
(T (W xff xff xff xff x04 x00 x00 x00)
(T (W x45 x26 x22 x84 xe4 x9c xf2 xcb)
(L (W x00 x00 x00 x00 x00 x00 x00 x00))
(L (W x45 x26 x22 x84 xe4 x9c xf2 xcb)))
(T (W xff xff xff xff xff xff xff xff)
(L (W xff xff xff xff xff xff xff xff))
(L (W x54 x00 x00 x00 x48 x00 x00 x00))))
(T (W x00 x00 x80 x3f x00 x00 x80 x3f)
(T (W xc2 x62 xfd xff x78 x00 x00 x00)
(L (W x46 x53 x59 x53 x5f x4e x53 x5f))
(L (W x3c x00 x00 x00 x00 x00 x80 xbf)))
(T (W x00 x00 x00 x00 x00 x00 x00 x00)
(L (W x00 x00 x00 x00 x00 x00 x00 x00))
(L (W x00 x00 x00 x00 x00 x00 x00 x00)))))
(T (W xff xff xff xff xff xff xff xff)
(T (W xc2 xc2 xfc xff x78 x00 x00 x00)
(T (W x00 x00 x00 x00 x00 x00 x00 x00)
(L (W x00 x00 x00 x00 x00 x00 x00 x00))
(L (W xff xff xff xff xff xff xff xff)))
(T (W x50 x00 x00 x00 x44 x00 x00 x00)
(L (W x6c x00 x00 x00 x60 x00 x00 x00))
(L (W xff xff xff xff x90 x00 x00 x00))))
(T (W x45 x26 x22 x84 xe4 x9c xf2 xcb)
(T (W x00 x00 x00 x00 x00 x00 x00 x00)
(L (W x00 x00 x00 x00 x00 x00 x00 x00))
(L (W xc2 x82 xff xff x78 x00 x00 x00)))
(T (W x18 x01 x00 x00 x04 x00 x00 x00)
(L (W x00 x00 x80 xbf x00 x00 x80 xbf))
(L (W x45 x26 x22 x84 xe4 x9c xf2 xcb))))))
(T (W x1c x55 xfc xff x2d x00 x00 x00)
(T (W xff xff xff xff xff xff xff xff)
(T (W x68 x00 x00 x00 x5c x00 x00 x00)
(T (W x00 x00 x80 x3f x00 x00 x80 x3f)
(L (W x00 x00 x80 x3f x00 x00 x80 x3f))
(L (W xff xff xff xff xa0 x00 x00 x00)))
(T (W x4f x84 x6f x8b xe8 xcb x63 xb7)
(L (W x6c x00 x00 x00 x60 x00 x00 x00))
(L (W x6c x00 x00 x00 x60 x00 x00 x00))))
(T (W x00 x00 x80 x3f x00 x00 x80 x3f)
(T (W xff xff xff xff xff xff xff xff)
(L (W xff xff xff xff xff xff xff xff))
(L (W x49 xa1 x68 x4a xeb x5f xdd x3d)))
(T (W x00 x00 x00 x00 x00 x00 x00 x00)
(L (W x00 x00 x80 xbf x00 x00 x80 xbf))
(L (W x00 x00 x00 x00 x00 x00 x00 x00)))))
(T (W xff xff xff xff xff xff xff xff)
(T (W x68 x00 x00 x00 x5c x00 x00 x00)
(T (W x00 x00 x80 x3f x00 x00 x80 x3f)
(L (W x00 x00 x00 x00 x01 x00 x00 x00))
(L (W x00 x00 x00 x00 x00 x00 x00 x00)))
(T (W xff xff xff xff xff xff xff xff)
(L (W xff xff xff xff xff xff xff xff))
(L (W x68 x00 x00 x00 x5c x00 x00 x00))))
(T (W x00 x00 x80 x3f x00 x00 x80 x3f)
(T (W x7a xa6 xfd xff x74 x00 x00 x00)
(L (W x00 x00 x00 x00 x00 x00 x00 x00))
(L (W x6c x00 x00 x00 x60 x00 x00 x00)))
(T (W x00 x00 x80 x3f x00 x00 x80 x3f)
(L (W x6c x00 x00 x00 x60 x00 x00 x00)) E)))))
(T (W x00 x00 x00 x00 x00 x00 x00 x00)
(T (W x00 x00 x00 x00 x00 x00 x00 x00)
(T (W xff xff xff xff xff xff xff xff)
(T (W x45 x26 x22 x84 xe4 x9c xf2 xcb)
(T (W x00 x00 x80 x3f x00 x00 x80 x3f)
(L (W x45 x26 x22 x84 xe4 x9c xf2 xcb))
(L (W x00 x00 x80 xbf x00 x00 x80 xbf)))
(T (W x00 x00 x00 x00 x00 x00 x00 x00)
(L (W x6c x00 x00 x00 x60 x00 x00 x00))
(L (W x00 x00 x80 xbf x00 x00 x80 xbf))))
(T (W x00 x00 x80 x3f x00 x00 x80 x3f)
(T (W x00 x00 x00 x00 xf8 x67 xfd xff)
(L (W xff xff xff xff xff xff xff xff))
(L (W x00 x00 x00 x00 x00 x00 x00 x00)))
(T (W x00 x00 x00 x00 x00 x00 x00 x00)
(L (W x00 x00 x00 x00 x00 x00 x00 x00))
(L (W xff xff xff xff xff xff xff xff)))))
(T (W xff xff xff xff xff xff xff xff)
(T (W x18 x00 x00 x00 x0c x00 x00 x00)
(T (W x00 x00 x00 x00 x0d x00 x00 x00)
(L (W x15 x00 x00 x00 x10 x00 x00 x00))
(L (W x06 x00 x00 x00 xd0 x05 x00 x00)))
(T (W xff xff xff xff xc4 x00 x00 x00)
(L (W x45 x26 x22 x84 xe4 x9c xf2 xcb))
(L (W xff xff xff xff xa8 x00 x00 x00))))
(T (W x00 x00 x80 x3f x00 x00 x80 x3f)
(T (W x00 x00 x80 x3f x00 x00 x80 x3f)
(L (W x03 x00 x00 x00 xbc x00 x00 x00))
(L (W x54 x00 x00 x00 x48 x00 x00 x00)))
(T (W xff xff xff xff xff xff xff xff)
(L (W x00 x00 x80 xbf x00 x00 x80 xbf)) E))))
(T (W x00 x00 x00 x00 x00 x00 x00 x00)
(T (W xff xff xff xff xff xff xff xff)
(T (W x00 x00 x80 x3f x00 x00 x80 x3f)
(T (W x00 x00 x00 x00 x00 x00 x00 x00)
(L (W x80 x36 xfe xff x00 x01 x01 x01))
(L (W xff xff xff xff xff xff xff xff)))
(T (W x45 x26 x22 x84 xe4 x9c xf2 xcb)
(L (W x00 x00 x80 x3f x00 x00 x80 x3f))
(L (W x45 x26 x22 x84 xe4 x9c xf2 xcb))))
(T (W x00 x00 x80 x3f x00 x00 x80 x3f)
(T (W x4b x00 x00 x00 xff xff xff xff)
(L (W xff xff xff xff xff xff xff xff))
(L (W x45 x26 x22 x84 xe4 x9c xf2 xcb)))
(T (W x00 x00 x00 x00 x00 x00 x00 x00)
(L (W x54 x00 x00 x00 x48 x00 x00 x00))
(L (W x45 x26 x22 x84 xe4 x9c xf2 xcb)))))
(T (W xb8 x00 x00 x00 xac x00 x00 x00)
(T (W x00 x00 x80 x3f x00 x00 x80 x3f)
(T (W x00 x00 x80 x3f x00 x00 x80 x3f)
(L (W x26 x02 x00 x00 xff xff xff xff))
(L (W x00 x00 x00 x00 x00 x00 x00 x00)))
(T (W x00 x00 x00 x00 x00 x00 x00 x00)
(L (W x00 x00 x00 x00 x00 x00 x00 x00))
(L (W x00 x00 x80 xbf x00 x00 x80 xbf))))
(T (W x00 x00 x00 x00 x00 x00 x00 x00)
(T (W xff xff xff xff xff xff xff xff)
(L (W xff xff xff xff xff xff xff xff))
(L (W x00 x00 x80 xbf x00 x00 x80 xbf)))
(T (W x00 x00 x80 x3f x00 x00 x80 x3f)
(L (W x6c x00 x00 x00 x60 x00 x00 x00)) E))))))
(T (W x00 x00 x00 x00 xf8 x2b xfc xff)
(T (W x18 x00 x00 x00 x0c x00 x00 x00)
(T (W x80 x42 xfc xff x00 x01 x01 x01)
(T (W x50 x00 x00 x00 x44 x00 x00 x00)
(T (W x00 x00 x00 x00 x00 x00 x00 x00)
(T (W xff xff xff xff xff xff xff xff)
(L (W x18 x00 x00 x00 x10 x00 x00 x00))
(L (W x00 x00 x00 x00 x00 x00 x00 x00)))
(T (W x68 x00 x00 x00 x5c x00 x00 x00)
(L (W xc2 xa6 xfe xff x78 x00 x00 x00))
(L (W xff xff xff xff xff xff xff xff))))
(T (W x23 x00 x00 x00 xff xff xff xff)
(T (W xed x78 x5a x26 x96 x98 x06 x58)
(L (W x3c x00 x00 x00 x00 x00 x80 xbf))
(L (W xff xff xff xff xff xff xff xff)))
(T (W x45 x26 x22 x84 xe4 x9c xf2 xcb)
(L (W x45 x26 x22 x84 xe4 x9c xf2 xcb))
(L (W x45 x26 x22 x84 xe4 x9c xf2 xcb)))))
(T (W x45 x26 x22 x84 xe4 x9c xf2 xcb)
(T (W x00 x00 x00 x00 x00 x00 x00 x00)
(T (W x0a x00 x00 x00 x3e x00 x00 x00)
(L (W x18 x00 x00 x00 x0c x00 x00 x00))
(L (W x54 x00 x00 x00 x48 x00 x00 x00)))
(T (W x00 x00 x00 x00 x00 x00 x00 x00)
(L (W x5d x13 xb3 x28 xbf xe2 x60 x6a))
(L (W x4b x00 x00 x00 xff xff xff xff))))
(T (W xb8 x00 x00 x00 xac x00 x00 x00)
(T (W xff xff xff xff xff xff xff xff)
(L (W x00 x00 x00 x00 x01 x00 x00 x00))
(L (W x15 x00 x00 x00 x0c x00 x00 x00)))
(T (W x00 x00 x80 x3f x00 x00 x80 x3f)
(L (W x00 x00 x00 x00 x00 x00 x00 x00))
(L (W x3c x00 x40 x00 x44 x00 x48 x00))))))
(T (W x00 x00 x80 x3f x00 x00 x80 x3f)
(T (W x00 x00 x80 x3f x00 x00 x80 x3f)
(T (W x00 x00 x00 x00 x00 x00 x00 x00)
(T (W x64 x00 x00 x00 x9c x00 x00 x00)
(L (W xff xff xff xff xff xff xff xff))
(L (W x00 x00 x00 x00 x00 x00 x00 x00)))
(T (W xff xff xff xff xff xff xff xff)
(L (W x00 x00 x00 x00 x5a xb3 xfe xff))
(L (W x30 x34 x5f x43 x4c x45 x41 x52))))
(T (W xff xff xff xff xff xff xff xff)
(T (W x00 x00 x80 x3f x00 x00 x80 x3f)
(L (W x00 x00 x00 x00 x00 x00 x00 x00))
(L (W xff xff xff xff xff xff xff xff)))
(T (W x00 x00 x00 x00 xf8 xf3 xfd xff)
(L (W xff xff xff xff xff xff xff xff))
(L (W xff xff xff xff xff xff xff xff)))))
(T (W x00 x00 x00 x00 x00 x00 x00 x00)
(T (W x00 x00 x00 x00 x00 x00 x00 x00)
(T (W xff xff xff xff xff xff xff xff)
(L (W x00 x00 x80 xbf x00 x00 x80 xbf))
(L (W x80 x52 xff xff x00 x01 x01 x01)))
(T (W x00 x00 x80 x3f x00 x00 x80 x3f)
(L (W x00 x00 x80 xbf x00 x00 x80 xbf))
(L (W xff xff xff xff xff xff xff xff))))
(T (W x2a xd2 xff xff x00 x00 x01 x01)
(T (W x00 x00 x00 x00 x00 x00 x00 x00)
(L (W x61 x64 x65 x72 x5f x77 x69 x6c))
(L (W xff xff xff xff xff xff xff xff)))
(T (W xff xff xff xff xff xff xff xff)
(L (W x00 x00 x00 x00 xca x11 xff xff)) E)))))
(T (W xbc x00 x00 x00 xb0 x00 x00 x00)
(T (W x50 x00 x00 x00 x44 x00 x00 x00)
(T (W x68 x00 x00 x00 x5c x00 x00 x00)
(T (W x00 x00 x00 x00 x00 x00 x00 x00)
(T (W xff xff xff xff xff xff xff xff)
(L (W xba xc2 x33 x97 x85 xad x5f x5f))
(L (W x43 x09 xb9 x28 xbf xca x67 x6a)))
(T (W xbc x00 x00 x00 x64 x00 x00 x00)
(L (W xbc x00 x00 x00 x0a x00 x00 x00))
(L (W x00 x00 x01 x01 x53 x01 x00 x00))))
(T (W x2a x9f xfe xff x00 x00 x01 x01)
(T (W x00 x00 x00 x00 x00 x00 x00 x00)
(L (W x45 x26 x22 x84 xe4 x9c xf2 xcb))
(L (W xff xff xff xff xff xff xff xff)))
(T (W x80 xea xfd xff x00 x01 x01 x01)
(L (W xff xff xff xff xff xff xff xff))
(L (W xf4 xeb xff xff x3a xe7 xff xff)))))
(T (W x00 x00 x00 x00 x00 x00 x00 x00)
(T (W x00 x00 x00 x00 x00 x00 x00 x00)
(T (W xff xff xff xff xff xff xff xff)
(L (W x00 x00 x80 x3f x00 x00 x80 x3f))
(L (W x45 x26 x22 x84 xe4 x9c xf2 xcb)))
(T (W x00 x00 x80 x3f x00 x00 x80 x3f)
(L (W x00 x00 x00 x00 x00 x00 x00 x00))
(L (W xff xff xff xff xff xff xff xff))))
(T (W xff xff xff xff xff xff xff xff)
(T (W x02 x00 x00 x00 x30 x01 x00 x00)
(L (W xff xff xff xff xac x00 x00 x00))
(L (W x2e x00 x00 x00 xff xff xff xff)))
(T (W x00 x00 x80 x3f x00 x00 x80 x3f)
(L (W x94 x04 x00 x00 x80 x03 x00 x00)) E))))
(T (W x00 x00 x80 x3f x00 x00 x80 x3f)
(T (W x00 x00 x80 x3f x00 x00 x80 x3f)
(T (W x00 x00 x00 x00 x00 x00 x00 x00)
(T (W x00 x00 x00 x00 xf8 x3b xfd xff)
(L (W x00 x00 x00 x00 x02 x00 x00 x00))
(L (W x00 x00 x00 x00 x00 x00 x00 x00)))
(T (W xff xff xff xff xff xff xff xff)
(L (W xd3 x01 x00 x00 xff xff xff xff))
(L (W x00 x00 x00 x00 x00 x00 x00 x00))))
(T (W xff xff xff xff xff xff xff xff)
(T (W xc2 x7e xfd xff x78 x00 x00 x00)
(L (W x7a x92 xfe xff x74 x00 x00 x00))
(L (W xff xff xff xff xff xff xff xff)))
(T (W x7a x12 xfe xff x74 x00 x00 x00)
(L (W x6c x04 x00 x00 x58 x03 x00 x00))
(L (W x18 x00 x00 x00 x0c x00 x00 x00)))))
(T (W x00 x00 x00 x00 x00 x00 x00 x00)
(T (W xff xb5 x07 x73 x55 x67 xb2 xeb)
(T (W xff xff xff xff xff xff xff xff)
(L (W x6c x00 x00 x00 x60 x00 x00 x00))
(L (W xff xff xff xff xff xff xff xff)))
(T (W x23 x00 x00 x00 x26 x00 x00 x00)
(L (W x00 x00 x80 xbf x00 x00 x80 xbf))
(L (W x6c x00 x00 x00 x60 x00 x00 x00))))
(T (W xff xff xff xff xff xff xff xff)
(T (W x45 x26 x22 x84 xe4 x9c xf2 xcb)
(L (W xff xff xff xff xff xff xff xff))
(L (W xff xff xff xff xff xff xff xff)))
(T (W xff xff xff xff xff xff xff xff)
(L (W xff xff xff xff xff xff xff xff)) E)))))))
(T (W x04 x00 x00 x00 xf2 xe9 xfd xff)
(T (W x50 x00 x00 x00 x44 x00 x00 x00)
(T (W x68 x00 x00 x00 x5c x00 x00 x00)
(T (W x00 x00 x00 x00 x00 x00 x00 x00)
(T (W x00 x00 x00 x00 x00 x00 x00 x00)
(T (W x20 x01 x00 x00 x04 x00 x00 x00)
(T (W x50 x00 x00 x00 x44 x00 x00 x00)
(L (W x00 x00 x80 x3f x00 x00 x80 x3f))
(L (W xff xff xff xff xff xff xff xff)))
(T (W x49 xa1 x68 x4a xeb x5f xdd x3d)
(L (W x00 x00 x00 x00 x00 x00 x00 x00))
(L (W x14 x00 x00 x00 x0c x00 x00 x00))))
(T (W xb8 x00 x00 x00 xac x00 x00 x00)
(T (W xcc x00 x00 x00 x01 x00 x00 x00)
(L (W x49 xa1 x68 x4a xeb x5f xdd x3d))
(L (W x1c x00 x00 x00 x10 x00 x00 x00)))
(T (W x00 x00 x80 x3f x00 x00 x80 x3f)
(L (W x00 x00 x80 xbf x00 x00 x80 xbf))
(L (W x45 x26 x22 x84 xe4 x9c xf2 xcb)))))
(T (W x01 x00 x00 x00 x04 x00 x00 x00)
(T (W xff xff xff xff xff xff xff xff)
(T (W x34 x00 x38 x00 x3c x00 x40 x00)
(L (W x00 x00 x80 x3f x00 x00 x80 x3f))
(L (W x00 x00 x00 x00 x12 x00 x00 x00)))
(T (W xff xff xff xff xff xff xff xff)
(L (W xff xff xff xff xff xff xff xff))
(L (W xff xff xff xff xff xff xff xff))))
(T (W x45 x26 x22 x84 xe4 x9c xf2 xcb)
(T (W x00 x00 x80 x3f x00 x00 x80 x3f)
(L (W x18 x00 x00 x00 x0c x00 x00 x00))
(L (W xff xff xff xff xff xff xff xff)))
(T (W x00 x00 x00 x00 x00 x00 x00 x00)
(L (W x00 x00 x00 x00 xf8 x01 xff xff))
(L (W x00 x00 x00 x00 x00 x00 x00 x00))))))
(T (W x00 x00 x80 x3f x00 x00 x80 x3f)
(T (W x00 x00 x00 x00 x00 x00 x00 x00)
(T (W xff xff xff xff xff xff xff xff)
(T (W x00 x00 x80 x3f x00 x00 x80 x3f)
(L (W x18 x00 x00 x00 x10 x00 x00 x00))
(L (W xff xff xff xff xff xff xff xff)))
(T (W x54 x00 x00 x00 x48 x00 x00 x00)
(L (W xff xff xff xff xff xff xff xff))
(L (W xff xff xff xff xbc x00 x00 x00))))
(T (W x68 x00 x00 x00 x5c x00 x00 x00)
(T (W xc4 x7b xfd xff x2b x00 x00 x00)
(L (W x30 x34 x5f x43 x4c x45 x41 x52))
(L (W xff xff xff xff xa8 x00 x00 x00)))
(T (W x00 x00 x80 x3f x00 x00 x80 x3f)
(L (W x45 x26 x22 x84 xe4 x9c xf2 xcb))
(L (W x54 x00 x00 x00 x48 x00 x00 x00)))))
(T (W x2a x45 xfe xff x00 x00 x01 x01)
(T (W xff xff xff xff xff xff xff xff)
(T (W x45 x26 x22 x84 xe4 x9c xf2 xcb)
(L (W xe8 x01 x00 x00 xff xff xff xff))
(L (W x00 x00 x80 xbf x00 x00 x80 xbf)))
(T (W x00 x00 x00 x00 x00 x00 x00 x00)
(L (W x00 x00 x00 x00 x00 x00 x00 x00))
(L (W x00 x00 x00 x00 x00 x00 x00 x00))))
(T (W xbc x00 x00 x00 xb0 x00 x00 x00)
(T (W xff xff xff xff xff xff xff xff)
(L (W xc2 x94 xfe xff x78 x00 x00 x00))
(L (W xff xff xff xff xb0 x00 x00 x00)))
(T (W x45 x26 x22 x84 xe4 x9c xf2 xcb)
(L (W xff xff xff xff xff xff xff xff)) E)))))
(T (W x00 x00 x80 x3f x00 x00 x80 x3f)
(T (W x45 x26 x22 x84 xe4 x9c xf2 xcb)
(T (W x00 x00 x00 x00 x00 x00 x00 x00)
(T (W xff xff xff xff xff xff xff xff)
(T (W x00 x00 x80 x3f x00 x00 x80 x3f)
(L (W xff xff xff xff xff xff xff xff))
(L (W xff xff xff xff xff xff xff xff)))
(T (W x00 x00 x80 x3f x00 x00 x80 x3f)
(L (W x6c x64 x5f x70 x6f x6b x65 x5f))
(L (W xff xff xff xff xb0 x00 x00 x00))))
(T (W x45 x26 x22 x84 xe4 x9c xf2 xcb)
(T (W xff xff xff xff xff xff xff xff)
(L (W x00 x00 x00 x00 x00 x00 x00 x00))
(L (W x00 x00 x80 xbf x00 x00 x80 xbf)))
(T (W x00 x00 x80 x3f x00 x00 x80 x3f)
(L (W xc2 xec xfe xff x78 x00 x00 x00))
(L (W x45 x26 x22 x84 xe4 x9c xf2 xcb)))))
(T (W xff xff xff xff xff xff xff xff)
(T (W xff xff xff xff xff xff xff xff)
(T (W x54 x00 x00 x00 x48 x00 x00 x00)
(L (W x00 x00 x00 x00 x00 x00 x00 x00))
(L (W x00 x00 x80 xbf x00 x00 x80 xbf)))
(T (W xff xff xff xff x01 x00 x00 x00)
(L (W xff xff xff xff xff xff xff xff))
(L (W xff xff xff xff xff xff xff xff))))
(T (W xec x01 x00 x00 x68 x00 x00 x00)
(T (W x03 x00 x00 x00 xd0 x00 x00 x00)
(L (W x28 x00 x00 x00 x10 x00 x00 x00))
(L (W xbc x00 x00 x00 x64 x00 x00 x00)))
(T (W x00 x00 x00 x00 x00 x00 x00 x00)
(L (W xff xff xff xff xb0 x00 x00 x00)) E))))
(T (W x00 x00 x80 x3f x00 x00 x80 x3f)
(T (W xc4 x83 xfc xff x3c x00 x00 x00)
(T (W xff xff xff xff xff xff xff xff)
(T (W x50 x00 x00 x00 x44 x00 x00 x00)
(L (W xff xff xff xff xff xff xff xff))
(L (W x00 x00 x00 x00 x00 x00 x00 x00)))
(T (W x25 x00 x00 x00 x28 x00 x00 x00)
(L (W xbc x00 x00 x00 x64 x00 x00 x00))
(L (W xff xff xff xff xff xff xff xff))))
(T (W x80 xf8 xfc xff x00 x01 x01 x01)
(T (W x00 x00 x00 x00 x00 x00 x00 x00)
(L (W x00 x00 x00 x00 x00 x00 x00 x00))
(L (W x00 x00 x00 x00 xf8 x79 xff xff)))
(T (W x00 x00 x80 x3f x00 x00 x80 x3f)
(L (W xc4 x00 x00 x00 x01 x00 x00 x00))
(L (W xff xff xff xff xff xff xff xff)))))
(T (W x00 x00 x00 x00 x00 x00 x00 x00)
(T (W xff xff xff xff xff xff xff xff)
(T (W xb4 x00 x00 x00 x64 x00 x00 x00)
(L (W x00 x00 x00 x00 x00 x00 x00 x00))
(L (W x00 x00 x80 xbf x00 x00 x80 xbf)))
(T (W x49 xa1 x68 x4a xeb x5f xdd x3d)
(L (W x00 x00 x00 x00 x00 x00 x00 x00))
(L (W x0c x00 x00 x00 x00 x00 x10 x00))))
(T (W x80 x18 xfd xff x00 x01 x01 x01)
(T (W x00 x00 x00 x00 x00 x00 x00 x00)
(L (W x00 x00 x80 x3f x00 x00 x80 x3f))
(L (W x00 x00 x00 x00 x00 x00 x00 x00)))
(T (W x45 x26 x22 x84 xe4 x9c xf2 xcb)
(L (W xff xff xff xff xb0 x00 x00 x00)) E))))))
(T (W xff xff xff xff xff xff xff xff)
(T (W xff xff xff xff xff xff xff xff)
(T (W xff xff xff xff xff xff xff xff)
(T (W x00 x00 x00 x00 xf8 x65 xfc xff)
(T (W x45 x26 x22 x84 xe4 x9c xf2 xcb)
(T (W x1c x2b xfd xff x25 x00 x00 x00)
(L (W x00 x00 x00 x00 x00 x00 x00 x00))
(L (W x00 x00 x00 x00 x00 x00 x00 x00)))
(T (W xff xff xff xff xff xff xff xff)
(L (W x98 x01 x00 x00 xff xff xff xff))
(L (W x45 x44 x00 x00 x00 x00 x00 x00))))
(T (W x45 x26 x22 x84 xe4 x9c xf2 xcb)
(T (W x45 x26 x22 x84 xe4 x9c xf2 xcb)
(L (W x03 x00 x00 x00 xc8 x00 x00 x00))
(L (W xff xff xff xff xff xff xff xff)))
(T (W xff xff xff xff xff xff xff xff)
(L (W xff xff xff xff xff xff xff xff))
(L (W x4f x84 x6f x8b xe8 xcb x63 xb7)))))
(T (W x68 x00 x00 x00 x5c x00 x00 x00)
(T (W x45 x26 x22 x84 xe4 x9c xf2 xcb)
(T (W xff xff xff xff xff xff xff xff)
(L (W xff xff xff xff xff xff xff xff))
(L (W x03 x00 x00 x00 xd0 x00 x00 x00)))
(T (W x00 x00 x80 x3f x00 x00 x80 x3f)
(L (W x00 x00 x80 xbf x00 x00 x80 xbf))
(L (W x00 x00 x00 x00 x12 x00 x00 x00))))
(T (W x3e x00 x00 x00 x10 x00 x00 x00)
(T (W x46 x53 x59 x53 x5f x4e x53 x5f)
(L (W x00 x00 x80 xbf x00 x00 x80 xbf))
(L (W x00 x00 x80 xbf x00 x00 x80 xbf)))
(T (W x00 x00 x00 x00 xf8 x05 xfe xff)
(L (W x00 x00 x00 x00 x00 x00 x00 x00))
(L (W xff xff xff xff xff xff xff xff))))))
(T (W xff xff xff xff xff xff xff xff)
(T (W x40 x00 x00 x00 x9c x00 x00 x00)
(T (W x00 x00 x80 x3f x00 x00 x80 x3f)
(T (W x00 x00 x00 x00 x02 x00 x00 x00)
(L (W x00 x00 x00 x00 x00 x00 x00 x00))
(L (W x00 x00 x80 xbf x00 x00 x80 xbf)))
(T (W x00 x00 x00 x00 x00 x00 x00 x00)
(L (W x00 x00 x00 x00 x00 x00 x00 x00))
(L (W x49 xa1 x68 x4a xeb x5f xdd x3d))))
(T (W x00 x00 x00 x00 x00 x00 x00 x00)
(T (W x18 x00 x00 x00 x10 x00 x00 x00)
(L (W x00 x00 x80 xbf x00 x00 x80 xbf))
(L (W x29 x9b xaa x28 xbf xcd x56 x6a)))
(T (W xff xff xff xff xff xff xff xff)
(L (W x00 x00 x00 x00 x00 x00 x00 x00))
(L (W x00 x00 x00 x00 x00 x00 x00 x00)))))
(T (W x00 x00 x80 x3f x00 x00 x80 x3f)
(T (W x00 x00 x00 x00 x00 x00 x00 x00)
(T (W x00 x00 x00 x00 x00 x00 x00 x00)
(L (W x18 x00 x00 x00 x0c x00 x00 x00))
(L (W xff xff xff xff xff xff xff xff)))
(T (W xb0 x00 x00 x00 x64 x00 x00 x00)
(L (W xff xff xff xff xff xff xff xff))
(L (W x00 x00 x00 x00 x00 x00 x00 x00))))
(T (W x00 x00 x00 x00 x00 x00 x00 x00)
(T (W x00 x00 x80 x3f x00 x00 x80 x3f)
(L (W x18 x00 x00 x00 x0c x00 x00 x00))
(L (W x00 x00 x00 x00 x00 x00 x00 x00)))
(T (W x00 x00 x00 x00 x00 x00 x00 x00)
(L (W x00 x00 x80 xbf x00 x00 x80 xbf)) E)))))
(T (W x2a xfc xfe xff x00 x00 x01 x01)
(T (W xff xff xff xff xff xff xff xff)
(T (W x18 x00 x00 x00 x0c x00 x00 x00)
(T (W x00 x00 x80 x3f x00 x00 x80 x3f)
(T (W x00 x00 x00 x00 x00 x00 x00 x00)
(L (W x00 x00 x00 x00 x00 x00 x00 x00))
(L (W x45 x26 x22 x84 xe4 x9c xf2 xcb)))
(T (W xff xff xff xff xff xff xff xff)
(L (W x46 x53 x59 x53 x5f x4e x53 x5f))
(L (W x00 x00 x00 x00 x00 x00 x00 x00))))
(T (W x00 x00 x00 x00 x00 x00 x00 x00)
(T (W x54 x00 x00 x00 x48 x00 x00 x00)
(L (W x50 x00 x00 x00 x44 x00 x00 x00))
(L (W x45 x44 x00 x00 x00 x00 x00 x00)))
(T (W x18 x01 x00 x00 x04 x00 x00 x00)
(L (W x18 x00 x00 x00 x0c x00 x00 x00))
(L (W xa0 x00 x00 x00 x0a x00 x00 x00)))))
(T (W xc2 x90 xfc xff x78 x00 x00 x00)
(T (W x00 x00 x00 x00 x00 x00 x00 x00)
(T (W x4c x45 x41 x52 x45 x44 x00 x00)
(L (W x45 x26 x22 x84 xe4 x9c xf2 xcb))
(L (W xff xff xff xff xff xff xff xff)))
(T (W x7a xe4 xfd xff x74 x00 x00 x00)
(L (W x6c x00 x00 x00 x60 x00 x00 x00))
(L (W x00 x00 x00 x00 x00 x00 x00 x00))))
(T (W x00 x00 x00 x00 x00 x00 x00 x00)
(T (W x00 x00 x00 x00 x00 x00 x00 x00)
(L (W xff xff xff xff xff xff xff xff))
(L (W x00 x00 x80 xbf x00 x00 x80 xbf)))
(T (W xff xff xff xff xff xff xff xff)
(L (W x00 x00 x80 xbf x00 x00 x80 xbf)) E))))
(T (W x64 x00 x00 x00 x9c x00 x00 x00)
(T (W x01 x00 x00 x00 x3e x00 x00 x00)
(T (W x00 x00 x80 x3f x00 x00 x80 x3f)
(T (W xff xff xff xff xff xff xff xff)
(L (W xff xff xff xff xff xff xff xff))
(L (W x18 x00 x00 x00 x10 x00 x00 x00)))
(T (W x4f x84 x6f x8b xe8 xcb x63 xb7)
(L (W x00 x00 x00 x00 x00 x00 x00 x00))
(L (W x00 x00 x00 x00 x00 x00 x00 x00))))
(T (W x00 x00 x00 x00 x00 x00 x00 x00)
(T (W xff xff xff xff xff xff xff xff)
(L (W xff xff xff xff xff xff xff xff))
(L (W x00 x00 x00 x00 x00 x00 x00 x00)))
(T (W xff xff xff xff xff xff xff xff)
(L (W x00 x00 x00 x00 x00 x00 x00 x00))
(L (W x00 x00 x00 x00 x32 xfa xff xff)))))
(T (W x00 x00 x80 x3f x00 x00 x80 x3f)
(T (W x45 x26 x22 x84 xe4 x9c xf2 xcb)
(T (W x00 x00 x00 x00 x00 x00 x00 x00)
(L (W xff xff xff xff xbc x00 x00 x00))
(L (W x00 x00 x00 x00 x00 x00 x00 x00)))
(T (W xff xff xff xff xff xff xff xff)
(L (W xff xff xff xff xff xff xff xff))
(L (W xff xff xff xff xff xff xff xff))))
(T (W x00 x00 x00 x00 x00 x00 x00 x00)
(T (W xb8 x00 x00 x00 x64 x00 x00 x00)
(L (W x00 x00 x00 x00 x00 x00 x00 x00))
(L (W x00 x00 x00 x00 x00 x00 x00 x00)))
(T (W x65 xa2 x30 x97 x85 x23 x5c x5f)
(L (W x00 x00 x00 x00 x00 x00 x00 x00)) E))))))))))
(T (W x60 xe3 x02 x00 x9c xdc x02 x00)
(T (W x68 x5a x02 x00 x2c x59 x02 x00)
(T (W x58 xb8 x01 x00 xfc xb5 x01 x00)
(T (W xd0 x63 x00 x00 x84 x61 x00 x00)
(T (W x00 x00 x80 x3f x00 x00 x80 x3f)
(T (W x00 x00 x00 x00 x00 x00 x00 x00)
(T (W x00 x00 x80 x3f x00 x00 x80 x3f)
(T (W x20 x00 x00 x00 x0c x00 x00 x00)
(T (W xff xff xff xff xff xff xff xff)
(T (W x00 x00 x80 x3f x00 x00 x80 x3f)
(L (W x00 x00 x80 x3f x00 x00 x80 x3f))
(L (W xc4 x00 x00 x00 x02 x00 x00 x00)))
(T (W x00 x00 x00 x00 x00 x00 x00 x00)
(L (W xff xff xff xff xff xff xff xff))
(L (W x1c x00 x00 x00 x10 x00 x00 x00))))
(T (W x3a xf5 xfc xff x74 x00 x00 x00)
(T (W x00 x00 x00 x00 xb8 x5e xfd xff)
(L (W x00 x00 x00 x00 x00 x00 x00 x00))
(L (W x00 x00 x80 xbf x00 x00 x80 xbf)))
(T (W x00 x00 x00 x00 x00 x00 x00 x00)
(L (W x00 x00 x00 x00 x00 x00 x00 x00))
(L (W x00 x00 x00 x00 x00 x00 x00 x00)))))
(T (W x72 x3b xff xff x7a x00 x00 x00)
(T (W x0a x00 x00 x00 x3e x00 x00 x00)
(T (W x00 x00 x00 x00 x00 x00 x00 x00)
(L (W x00 x00 x00 x00 x00 x00 x00 x00))
(L (W xff xff xff xff xff xff xff xff)))
(T (W x18 x00 x00 x00 x10 x00 x00 x00)
(L (W x50 x00 x00 x00 x44 x00 x00 x00))
(L (W xff xff xff xff xff xff xff xff))))
(T (W x00 x00 x80 x3f x00 x00 x80 x3f)
(T (W x00 x00 x00 x00 x00 x00 x00 x00)
(L (W x45 x26 x22 x84 xe4 x9c xf2 xcb))
(L (W x68 x00 x00 x00 x5c x00 x00 x00)))
(T (W x00 x00 x00 x00 x00 x00 x00 x00)
(L (W x54 x00 x00 x00 x48 x00 x00 x00))
(L (W x00 x00 x80 xbf x00 x00 x80 xbf))))))
(T (W x00 x00 x00 x00 x00 x00 x00 x00)
(T (W xff xff xff xff xff xff xff xff)
(T (W x00 x00 x00 x00 xb8 xae xfc xff)
(T (W x00 x00 x80 x3f x00 x00 x80 x3f)
(L (W x45 x26 x22 x84 xe4 x9c xf2 xcb))
(L (W x03 x00 x00 x00 xd8 x00 x00 x00)))
(T (W x00 x00 x00 x00 x00 x00 x00 x00)
(L (W x00 x00 x80 x3f x00 x00 x80 x3f))
(L (W x18 x00 x00 x00 x0c x00 x00 x00))))
(T (W x45 x26 x22 x84 xe4 x9c xf2 xcb)
(T (W xff xff xff xff xff xff xff xff)
(L (W x00 x00 x01 x01 xc1 x00 x00 x00))
(L (W x00 x00 x80 xbf x00 x00 x80 xbf)))
(T (W x00 x00 x80 x3f x00 x00 x80 x3f)
(L (W x54 x00 x00 x00 x48 x00 x00 x00))
(L (W xcc xd7 xac x28 xbf xd1 x59 x6a)))))
(T (W xff xff xff xff xff xff xff xff)
(T (W x40 xcd xfc xff x00 x01 x01 x01)
(T (W x00 x00 x80 x3f x00 x00 x80 x3f)
(L (W xff xff xff xff xff xff xff xff))
(L (W x00 x00 x00 x00 x00 x00 x00 x00)))
(T (W xff xff xff xff xff xff xff xff)
(L (W xff xff xff xff xff xff xff xff))
(L (W x18 x00 x00 x00 x0c x00 x00 x00))))
(T (W x00 x00 x80 x3f x00 x00 x80 x3f)
(T (W xff xff xff xff xb0 x00 x00 x00)
(L (W x00 x00 x00 x00 x00 x00 x00 x00))
(L (W xac x00 x00 x00 x64 x00 x00 x00)))
(T (W x00 x00 x00 x00 x00 x00 x00 x00)
(L (W x18 x00 x00 x00 x0c x00 x00 x00)) E)))))
(T (W x00 x00 x00 x00 x00 x00 x00 x00)
(T (W x00 x00 x00 x00 x00 x00 x00 x00)
(T (W xea x19 xfe xff x00 x00 x01 x01)
(T (W x64 x00 x00 x00 x9c x00 x00 x00)
(T (W x50 x00 x00 x00 x44 x00 x00 x00)
(L (W x00 x00 x80 x3f x00 x00 x80 x3f))
(L (W x00 x00 x00 x00 xb8 x26 xff xff)))
(T (W x00 x00 x00 x00 x00 x00 x00 x00)
(L (W x45 x26 x22 x84 xe4 x9c xf2 xcb))
(L (W x00 x00 x80 xbf x00 x00 x80 xbf))))
(T (W x00 x00 x00 x00 xb8 xe6 xfc xff)
(T (W xc4 x00 x00 x00 x01 x00 x00 x00)
(L (W x00 x00 x00 x00 x00 x00 x00 x00))
(L (W x00 x00 x00 x00 x00 x00 x00 x00)))
(T (W x00 x00 x00 x00 x00 x00 x00 x00)
(L (W x00 x00 x00 x00 x00 x00 x00 x00))
(L (W x2b x01 x00 x00 xff xff xff xff)))))
(T (W xea x44 xff xff x00 x00 x01 x01)
(T (W x64 x00 x00 x00 x9c x00 x00 x00)
(T (W x00 x00 x00 x00 x00 x00 x00 x00)
(L (W x00 x00 x00 x00 x00 x00 x00 x00))
(L (W x45 x44 x00 x00 x00 x00 x00 x00)))
(T (W xff xff xff xff xff xff xff xff)
(L (W x1a x00 x00 x00 x1d x00 x00 x00))
(L (W x20 x00 x00 x00 x24 x00 x28 x00))))
(T (W x00 x00 x80 x3f x00 x00 x80 x3f)
(T (W x00 x00 x80 x3f x00 x00 x80 x3f)
(L (W xff xff xff xff xff xff xff xff))
(L (W xff xff xff xff xa8 x00 x00 x00)))
(T (W x18 x01 x00 x00 x04 x00 x00 x00)
(L (W x82 x09 xff xff x78 x00 x00 x00))
(L (W x00 x00 x80 xbf x00 x00 x80 xbf))))))
(T (W x00 x00 x00 x00 x00 x00 x00 x00)
(T (W xb1 x01 x00 x00 xff xff xff xff)
(T (W x18 x00 x00 x00 x0c x00 x00 x00)
(T (W x00 x00 x80 x3f x00 x00 x80 x3f)
(L (W x00 x00 x80 x3f x00 x00 x80 x3f))
(L (W xff xff xff xff xff xff xff xff)))
(T (W x00 x00 x80 x3f x00 x00 x80 x3f)
(L (W x82 xb9 xfe xff x78 x00 x00 x00))
(L (W x18 x00 x00 x00 x10 x00 x00 x00))))
(T (W x00 x00 x80 x3f x00 x00 x80 x3f)
(T (W x57 x86 x76 x62 xa4 xfa xab x13)
(L (W xff xff xff xff xff xff xff xff))
(L (W x00 x00 x80 xbf x00 x00 x80 xbf)))
(T (W x00 x00 x00 x00 x00 x00 x00 x00)
(L (W x50 x00 x00 x00 x44 x00 x00 x00))
(L (W x03 x00 x00 x00 xd0 x00 x00 x00)))))
(T (W xff xff xff xff xff xff xff xff)
(T (W x50 x00 x00 x00 x44 x00 x00 x00)
(T (W x00 x00 x80 x3f x00 x00 x80 x3f)
(L (W x00 x00 x00 x00 x8a x54 xfe xff))
(L (W x4f x84 x6f x8b xe8 xcb x63 xb7)))
(T (W x84 xe0 xfd xff x25 x00 x00 x00)
(L (W x00 x00 x00 x00 x00 x00 x00 x00))
(L (W x54 x00 x00 x00 x48 x00 x00 x00))))
(T (W x00 x00 x80 x3f x00 x00 x80 x3f)
(T (W xff xff xff xff xff xff xff xff)
(L (W x00 x00 x00 x00 x8a x94 xfe xff))
(L (W x40 x95 xff xff x00 x01 x01 x01)))
(T (W x00 x00 x80 x3f x00 x00 x80 x3f)
(L (W xac x00 x00 x00 x64 x00 x00 x00)) E))))))
(T (W xff xff xff xff xff xff xff xff)
(T (W xff xff xff xff xff xff xff xff)
(T (W x18 x00 x00 x00 x0c x00 x00 x00)
(T (W x40 x00 x00 x00 x9c x00 x00 x00)
(T (W x00 x00 x80 x3f x00 x00 x80 x3f)
(T (W xff xff xff xff xff xff xff xff)
(L (W xff xff xff xff xff xff xff xff))
(L (W x00 x00 x00 x00 x00 x00 x00 x00)))
(T (W xff xff xff xff x9c x00 x00 x00)
(L (W x00 x00 x80 x3f x00 x00 x80 x3f))
(L (W xff xff xff xff xff xff xff xff))))
(T (W xdc xe7 xfc xff x3e x00 x00 x00)
(T (W x45 x44 x00 x00 x00 x00 x00 x00)
(L (W xff xff xff xff x90 x00 x00 x00))
(L (W x5d x00 x00 x00 xff xff xff xff)))
(T (W xff xff xff xff xff xff xff xff)
(L (W x35 x00 x00 x00 x38 x00 x00 x00))
(L (W x03 x00 x00 x00 xd0 x00 x00 x00)))))
(T (W x00 x00 x80 x3f x00 x00 x80 x3f)
(T (W x00 x00 x00 x00 x00 x00 x00 x00)
(T (W x68 x00 x00 x00 x5c x00 x00 x00)
(L (W x64 x00 x00 x00 x9c x00 x00 x00))
(L (W x00 x00 x80 xbf x00 x00 x80 xbf)))
(T (W x00 x00 x00 x00 x00 x00 x00 x00)
(L (W x30 x34 x5f x43 x4c x45 x41 x52))
(L (W x00 x00 x00 x00 x00 x00 x00 x00))))
(T (W xff xff xff xff xff xff xff xff)
(T (W xff xff xff xff xff xff xff xff)
(L (W x16 x48 x69 x12 x83 x6d x37 xc6))
(L (W x46 x53 x59 x53 x5f x4e x53 x5f)))
(T (W x3a x19 xfe xff x74 x00 x00 x00)
(L (W xe4 x06 x00 x00 xc8 x05 x00 x00))
(L (W xff xff xff xff xff xff xff xff))))))
(T (W x45 x26 x22 x84 xe4 x9c xf2 xcb)
(T (W x6c x00 x00 x00 x60 x00 x00 x00)
(T (W x00 x00 x00 x00 x00 x00 x00 x00)
(T (W xff xff xff xff xff xff xff xff)
(L (W xa1 xbd x33 x97 x85 xaa x5f x5f))
(L (W x00 x00 x00 x00 x00 x00 x00 x00)))
(T (W xff xff xff xff xff xff xff xff)
(L (W x46 x53 x59 x53 x5f x4e x53 x5f))
(L (W x00 x00 x00 x00 x00 x00 x00 x00))))
(T (W xff xff xff xff xff xff xff xff)
(T (W x00 x00 x80 x3f x00 x00 x80 x3f)
(L (W x00 x00 x80 xbf x00 x00 x80 xbf))
(L (W x00 x00 x00 x00 x32 x80 xff xff)))
(T (W xff xff xff xff xff xff xff xff)
(L (W xff xff xff xff xff xff xff xff))
(L (W x38 x00 x3c x00 x40 x00 x44 x00)))))
(T (W x45 x26 x22 x84 xe4 x9c xf2 xcb)
(T (W x00 x00 x00 x00 x00 x00 x00 x00)
(T (W xff xff xff xff x01 x00 x00 x00)
(L (W x00 x00 x80 x3f x00 x00 x80 x3f))
(L (W xbc x00 x00 x00 x64 x00 x00 x00)))
(T (W x50 x00 x00 x00 x44 x00 x00 x00)
(L (W x00 x00 x80 xbf x00 x00 x80 xbf))
(L (W xff xff xff xff xff xff xff xff))))
(T (W x00 x00 x00 x00 x8a xd2 xff xff)
(T (W x00 x00 x00 x00 x00 x00 x00 x00)
(L (W x64 x5f x70 x6f x6b x65 x5f x77))
(L (W x00 x00 x00 x00 x00 x00 x00 x00)))
(T (W x00 x00 x00 x00 x02 x00 x00 x00)
(L (W x00 x00 x00 x00 x00 x00 x00 x00)) E)))))
(T (W xff xff xff xff x04 x00 x00 x00)
(T (W x3a x61 xfc xff x74 x00 x00 x00)
(T (W x50 x00 x00 x00 x44 x00 x00 x00)
(T (W x00 x00 x00 x00 x00 x00 x00 x00)
(T (W xff xff xff xff xff xff xff xff)
(L (W x00 x00 x00 x00 x00 x00 x00 x00))
(L (W x30 x34 x5f x43 x4c x45 x41 x52)))
(T (W xff xff xff xff xff xff xff xff)
(L (W x82 xad xfe xff x78 x00 x00 x00))
(L (W x00 x00 x00 x00 x00 x00 x00 x00))))
(T (W x01 x00 x00 x00 x04 x00 x00 x00)
(T (W x00 x00 x00 x00 x00 x00 x00 x00)
(L (W x54 x00 x00 x00 x48 x00 x00 x00))
(L (W xff xff xff xff xff xff xff xff)))
(T (W x45 x26 x22 x84 xe4 x9c xf2 xcb)
(L (W xff xff xff xff xff xff xff xff))
(L (W x03 x00 x00 x00 xc8 x00 x00 x00)))))
(T (W x00 x00 x00 x00 x00 x00 x00 x00)
(T (W x45 x26 x22 x84 xe4 x9c xf2 xcb)
(T (W x04 x00 x00 x00 x1a x4a xfd xff)
(L (W x18 x00 x00 x00 x0c x00 x00 x00))
(L (W x1a x00 x00 x00 x1d x00 x00 x00)))
(T (W x45 x26 x22 x84 xe4 x9c xf2 xcb)
(L (W x00 x00 x00 x00 x00 x00 x00 x00))
(L (W x46 x53 x59 x53 x5f x4e x53 x5f))))
(T (W xc4 x00 x00 x00 xb8 x00 x00 x00)
(T (W x45 x44 x00 x00 x00 x00 x00 x00)
(L (W x00 x00 x80 xbf x00 x00 x80 xbf))
(L (W x00 x00 x00 x00 x00 x00 x00 x00)))
(T (W x00 x00 x80 x3f x00 x00 x80 x3f)
(L (W x00 x00 x00 x00 x00 x00 x00 x00)) E))))
(T (W x18 x00 x00 x00 x10 x00 x00 x00)
(T (W x00 x00 x80 x3f x00 x00 x80 x3f)
(T (W x00 x00 x00 x00 x00 x00 x00 x00)
(T (W xff xff xff xff xff xff xff xff)
(L (W x00 x00 x00 x00 x00 x00 x00 x00))
(L (W x00 x00 x80 xbf x00 x00 x80 xbf)))
(T (W x00 x00 x00 x00 x1a xba xfd xff)
(L (W x00 x00 x00 x00 x00 x00 x00 x00))
(L (W x00 x00 x00 x00 x00 x00 x00 x00))))
(T (W xff xff xff xff xff xff xff xff)
(T (W x00 x00 x00 x00 xb8 x7a xfd xff)
(L (W x2c xf0 xff xff x01 x01 x01 x01))
(L (W x04 x00 x00 x00 x1a x7a xff xff)))
(T (W x00 x00 x00 x00 xb8 xfa xfd xff)
(L (W x00 x00 x00 x00 x00 x00 x00 x00))
(L (W x00 x00 x00 x00 x00 x00 x00 x00)))))
(T (W x00 x00 x80 x3f x00 x00 x80 x3f)
(T (W x00 x00 x00 x00 x00 x00 x00 x00)
(T (W x00 x00 x00 x00 x92 x5f xfd xff)
(L (W x18 x00 x00 x00 x0c x00 x00 x00))
(L (W xff xff xff xff xff xff xff xff)))
(T (W x18 x00 x00 x00 x10 x00 x00 x00)
(L (W x00 x00 x00 x00 xb8 xda xfe xff))
(L (W x18 x00 x00 x00 x10 x00 x00 x00))))
(T (W x1c x01 x00 x00 x04 x00 x00 x00)
(T (W x00 x00 x80 x3f x00 x00 x80 x3f)
(L (W xff xff xff xff xff xff xff xff))
(L (W xff xff xff xff xff xff xff xff)))
(T (W xff xff xff xff xff xff xff xff)
(L (W x00 x00 x00 x00 x00 x00 x00 x00)) E)))))))
(T (W xc1 x4b xc3 xc0 xa9 xee x57 x9f)
(T (W x18 x00 x00 x00 x0c x00 x00 x00)
(T (W x50 x00 x00 x00 x44 x00 x00 x00)
(T (W x00 x00 x80 x3f x00 x00 x80 x3f)
(T (W x00 x00 x80 x3f x00 x00 x80 x3f)
(T (W x00 x00 x00 x00 x00 x00 x00 x00)
(T (W x3a x37 xfd xff x74 x00 x00 x00)
(L (W x45 x26 x22 x84 xe4 x9c xf2 xcb))
(L (W xff xff xff xff xff xff xff xff)))
(T (W x00 x00 x00 x00 x00 x00 x00 x00)
(L (W x00 x00 x00 x00 x00 x00 x00 x00))
(L (W xff xff xff xff xff xff xff xff))))
(T (W xff xff xff xff xff xff xff xff)
(T (W xff xff xff xff xff xff xff xff)
(L (W x00 x00 x80 xbf x00 x00 x80 xbf))
(L (W xff xff xff xff xff xff xff xff)))
(T (W x82 xe3 xfd xff x78 x00 x00 x00)
(L (W x00 x00 x80 xbf x00 x00 x80 xbf))
(L (W x00 x00 x80 xbf x00 x00 x80 xbf)))))
(T (W x00 x00 x00 x00 x00 x00 x00 x00)
(T (W xff xff xff xff xff xff xff xff)
(T (W xff xff xff xff xff xff xff xff)
(L (W x00 x00 x80 x3f x00 x00 x80 x3f))
(L (W x00 x00 x00 x00 x00 x00 x00 x00)))
(T (W xff xff xff xff xff xff xff xff)
(L (W xff xff xff xff xff xff xff xff))
(L (W xff xff xff xff xff xff xff xff))))
(T (W xff xff xff xff xff xff xff xff)
(T (W x50 x00 x00 x00 x44 x00 x00 x00)
(L (W xff xff xff xff x9c x00 x00 x00))
(L (W xff xff xff xff xff xff xff xff)))
(T (W x00 x00 x80 x3f x00 x00 x80 x3f)
(L (W xc4 x00 x00 x00 x01 x00 x00 x00))
(L (W x06 x00 x07 x00 x00 x00 x00 x00))))))
(T (W x50 x00 x00 x00 x44 x00 x00 x00)
(T (W x00 x00 x00 x00 x00 x00 x00 x00)
(T (W xff xff xff xff xff xff xff xff)
(T (W x18 x00 x00 x00 x10 x00 x00 x00)
(L (W xff xff xff xff xff xff xff xff))
(L (W x00 x00 x01 x01 xb4 x01 x00 x00)))
(T (W x18 x00 x00 x00 x10 x00 x00 x00)
(L (W xff xff xff xff xff xff xff xff))
(L (W xff xff xff xff xff xff xff xff))))
(T (W xff xff xff xff x03 x00 x00 x00)
(T (W x00 x00 x00 x00 x12 x00 x00 x00)
(L (W x00 x00 x00 x00 x00 x00 x00 x00))
(L (W xff xff xff xff x9c x00 x00 x00)))
(T (W x3a x07 xfe xff x74 x00 x00 x00)
(L (W x03 x00 x00 x00 xd0 x00 x00 x00))
(L (W x45 x26 x22 x84 xe4 x9c xf2 xcb)))))
(T (W x00 x00 x00 x00 x00 x00 x00 x00)
(T (W xad x01 x00 x00 xff xff xff xff)
(T (W xff xff xff xff xff xff xff xff)
(L (W x00 x00 x80 x3f x00 x00 x80 x3f))
(L (W x54 x00 x00 x00 x48 x00 x00 x00)))
(T (W x4f x84 x6f x8b xe8 xcb x63 xb7)
(L (W x00 x00 x00 x00 x00 x00 x00 x00))
(L (W x10 x00 x00 x00 x00 x00 x14 x00))))
(T (W xff xff xff xff x04 x00 x00 x00)
(T (W x00 x00 x01 x01 x4b x00 x00 x00)
(L (W xff xff xff xff xb0 x00 x00 x00))
(L (W xff xff xff xff xff xff xff xff)))
(T (W xff xff xff xff xff xff xff xff)
(L (W xff xff xff xff xff xff xff xff)) E)))))
(T (W x00 x00 x80 x3f x00 x00 x80 x3f)
(T (W x00 x00 x80 x3f x00 x00 x80 x3f)
(T (W x00 x00 x00 x00 x00 x00 x00 x00)
(T (W x00 x00 x00 x00 x02 x00 x00 x00)
(T (W x45 x26 x22 x84 xe4 x9c xf2 xcb)
(L (W xff xff xff xff xff xff xff xff))
(L (W xff xff xff xff xff xff xff xff)))
(T (W x00 x00 x80 x3f x00 x00 x80 x3f)
(L (W x25 x00 x00 x00 x67 x72 x6f x75))
(L (W xff xff xff xff xff xff xff xff))))
(T (W x64 x00 x00 x00 x9c x00 x00 x00)
(T (W x04 x00 x00 x00 x1a x68 xfd xff)
(L (W x00 x00 x00 x00 x00 x00 x00 x00))
(L (W x54 x00 x00 x00 x48 x00 x00 x00)))
(T (W x00 x00 x80 x3f x00 x00 x80 x3f)
(L (W x68 x00 x00 x00 x5c x00 x00 x00))
(L (W x00 x00 x00 x00 x00 x00 x00 x00)))))
(T (W x00 x00 x00 x00 x00 x00 x00 x00)
(T (W xff xff xff xff xff xff xff xff)
(T (W x54 x00 x00 x00 x48 x00 x00 x00)
(L (W x00 x00 x80 x3f x00 x00 x80 x3f))
(L (W x00 x00 x80 xbf x00 x00 x80 xbf)))
(T (W x00 x00 x00 x00 x00 x00 x00 x00)
(L (W x02 x00 x00 x00 x30 x01 x00 x00))
(L (W x00 x00 x00 x00 x32 xc3 xff xff))))
(T (W x00 x00 x00 x00 x60 x00 x64 x00)
(T (W xff xff xff xff xff xff xff xff)
(L (W x00 x00 x00 x00 x00 x00 x00 x00))
(L (W xff xff xff xff xff xff xff xff)))
(T (W x00 x00 x00 x00 x00 x00 x00 x00)
(L (W xff xff xff xff xff xff xff xff)) E))))
(T (W x00 x00 x80 x3f x00 x00 x80 x3f)
(T (W x00 x00 x00 x00 x00 x00 x00 x00)
(T (W xff xff xff xff xff xff xff xff)
(T (W x3e x00 x00 x00 x9c x00 x00 x00)
(L (W xff xff xff xff xff xff xff xff))
(L (W x00 x00 x00 x00 x12 x00 x00 x00)))
(T (W xff xff xff xff xff xff xff xff)
(L (W xff xff xff xff xff xff xff xff))
(L (W x5f x00 x00 x00 xff xff xff xff))))
(T (W xff xff xff xff xff xff xff xff)
(T (W x45 x26 x22 x84 xe4 x9c xf2 xcb)
(L (W x00 x00 x00 x00 x00 x00 x00 x00))
(L (W xc4 x00 x00 x00 x01 x00 x00 x00)))
(T (W x00 x00 x80 x3f x00 x00 x80 x3f)
(L (W xff xff xff xff xff xff xff xff))
(L (W xff xff xff xff xff xff xff xff)))))
(T (W xdc x9d xfc xff x3c x00 x00 x00)
(T (W xff xff xff xff xff xff xff xff)
(T (W xff xff xff xff xff xff xff xff)
(L (W x49 xa1 x68 x4a xeb x5f xdd x3d))
(L (W x54 x00 x00 x00 x48 x00 x00 x00)))
(T (W x00 x00 x80 x3f x00 x00 x80 x3f)
(L (W x00 x00 x80 xbf x00 x00 x80 xbf))
(L (W x00 x00 x00 x00 x70 x00 x74 x00))))
(T (W x18 x00 x00 x00 x0c x00 x00 x00)
(T (W x00 x00 x00 x00 x00 x00 x00 x00)
(L (W x00 x00 x00 x00 x00 x00 x00 x00))
(L (W x00 x00 x10 x00 x14 x00 x18 x00)))
(T (W x18 x00 x00 x00 x10 x00 x00 x00)
(L (W xff xff xff xff xff xff xff xff)) E))))))
(T (W xea xdf xfd xff x00 x00 x01 x01)
(T (W xff xff xff xff xff xff xff xff)
(T (W x1c x01 x00 x00 x04 x00 x00 x00)
(T (W xff xff xff xff xff xff xff xff)
(T (W x00 x00 x80 x3f x00 x00 x80 x3f)
(T (W x00 x00 x00 x00 x00 x00 x00 x00)
(L (W x63 x6f x77 x61 x72 x64 x00 x00))
(L (W x00 x00 x80 xbf x00 x00 x80 xbf)))
(T (W xff xff xff xff xff xff xff xff)
(L (W x64 x5f x70 x6f x6b x65 x5f x77))
(L (W x00 x00 x00 x00 x00 x00 x00 x00))))
(T (W x45 x26 x22 x84 xe4 x9c xf2 xcb)
(T (W x00 x00 x80 x3f x00 x00 x80 x3f)
(L (W xff xff xff xff xff xff xff xff))
(L (W x30 x34 x5f x43 x4c x45 x41 x52)))
(T (W x00 x00 x00 x00 x02 x00 x00 x00)
(L (W xff xff xff xff xff xff xff xff))
(L (W x00 x00 x00 x00 x02 x00 x00 x00)))))
(T (W xbc x00 x00 x00 xb0 x00 x00 x00)
(T (W x00 x00 x80 x3f x00 x00 x80 x3f)
(T (W xea xf7 xfe xff x00 x00 x01 x01)
(L (W xff xff xff xff xff xff xff xff))
(L (W xff xff xff xff xff xff xff xff)))
(T (W x00 x00 x80 x3f x00 x00 x80 x3f)
(L (W x00 x00 x80 xbf x00 x00 x80 xbf))
(L (W x45 x26 x22 x84 xe4 x9c xf2 xcb))))
(T (W xdc x09 xfd xff x3e x00 x00 x00)
(T (W x00 x00 x00 x00 x00 x00 x00 x00)
(L (W x00 x00 x80 xbf x00 x00 x80 xbf))
(L (W x6c x00 x00 x00 x60 x00 x00 x00)))
(T (W xff xff xff xff xff xff xff xff)
(L (W x00 x00 x80 xbf x00 x00 x80 xbf))
(L (W x0c x00 x00 x00 x00 x00 x00 x01))))))
(T (W xff xff xff xff xff xff xff xff)
(T (W xff xff xff xff xff xff xff xff)
(T (W x68 x00 x00 x00 x5c x00 x00 x00)
(T (W x18 x00 x00 x00 x0c x00 x00 x00)
(L (W x00 x00 x00 x00 x00 x00 x00 x00))
(L (W x00 x00 x00 x00 xb8 x34 xff xff)))
(T (W x00 x00 x00 x00 x00 x00 x00 x00)
(L (W x00 x00 x80 x3f x00 x00 x80 x3f))
(L (W x00 x00 x80 xbf x00 x00 x80 xbf))))
(T (W x00 x00 x00 x00 x00 x00 x00 x00)
(T (W xff xff xff xff xff xff xff xff)
(L (W x68 x00 x00 x00 x5c x00 x00 x00))
(L (W x46 x53 x59 x53 x5f x4e x53 x5f)))
(T (W x18 x01 x00 x00 x04 x00 x00 x00)
(L (W x00 x00 x00 x00 x00 x00 x00 x00))
(L (W x49 xa1 x68 x4a xeb x5f xdd x3d)))))
(T (W x50 x00 x00 x00 x44 x00 x00 x00)
(T (W x00 x00 x80 x3f x00 x00 x80 x3f)
(T (W x4f x84 x6f x8b xe8 xcb x63 xb7)
(L (W xff xff xff xff x9c x00 x00 x00))
(L (W xff xff xff xff xff xff xff xff)))
(T (W xff xff xff xff xff xff xff xff)
(L (W xff xff xff xff xff xff xff xff))
(L (W x4f x84 x6f x8b xe8 xcb x63 xb7))))
(T (W x00 x00 x80 x3f x00 x00 x80 x3f)
(T (W x45 x26 x22 x84 xe4 x9c xf2 xcb)
(L (W x00 x00 x00 x00 xb8 x94 xfe xff))
(L (W x00 x00 x00 x00 x00 x00 x00 x00)))
(T (W x00 x00 x00 x00 x00 x00 x00 x00)
(L (W x45 x26 x22 x84 xe4 x9c xf2 xcb)) E)))))
(T (W x00 x00 x00 x00 x8a xfc xfe xff)
(T (W xff xff xff xff xff xff xff xff)
(T (W xff xff xff xff xff xff xff xff)
(T (W x50 x00 x00 x00 x44 x00 x00 x00)
(T (W x00 x00 x00 x00 x00 x00 x00 x00)
(L (W x00 x00 x80 x3f x00 x00 x80 x3f))
(L (W x00 x00 x80 xbf x00 x00 x80 xbf)))
(T (W x00 x00 x00 x00 x00 x00 x00 x00)
(L (W x67 x72 x6f x75 x70 x5f x77 x69))
(L (W x49 xa1 x68 x4a xeb x5f xdd x3d))))
(T (W x45 x26 x22 x84 xe4 x9c xf2 xcb)
(T (W x68 x00 x00 x00 x5c x00 x00 x00)
(L (W x45 x26 x22 x84 xe4 x9c xf2 xcb))
(L (W x00 x00 x00 x00 x00 x00 x00 x00)))
(T (W xff xff xff xff xff xff xff xff)
(L (W x46 x53 x59 x53 x5f x4e x53 x5f))
(L (W xff xff xff xff xff xff xff xff)))))
(T (W x40 x8b xfc xff x00 x01 x01 x01)
(T (W x00 x00 x80 x3f x00 x00 x80 x3f)
(T (W x00 x00 x00 x00 x00 x00 x00 x00)
(L (W x77 xd5 x36 x97 x85 x2f x63 x5f))
(L (W xff xff xff xff xff xff xff xff)))
(T (W x2b x00 x00 x00 x2e x00 x00 x00)
(L (W x3a xe3 xfe xff x74 x00 x00 x00))
(L (W x4f x84 x6f x8b xe8 xcb x63 xb7))))
(T (W x00 x00 x00 x00 x00 x00 x00 x00)
(T (W x00 x00 x80 x3f x00 x00 x80 x3f)
(L (W x00 x00 x00 x00 x00 x00 x00 x00))
(L (W x45 x26 x22 x84 xe4 x9c xf2 xcb)))
(T (W x00 x00 x00 x00 xb8 x0c xfe xff)
(L (W x00 x00 x80 xbf x00 x00 x80 xbf)) E))))
(T (W xff xff xff xff xff xff xff xff)
(T (W x64 x00 x00 x00 x9c x00 x00 x00)
(T (W x00 x00 x80 x3f x00 x00 x80 x3f)
(T (W xea xef xfe xff x00 x00 x01 x01)
(L (W xff xff xff xff x03 x00 x00 x00))
(L (W xcc x00 x00 x00 x01 x00 x00 x00)))
(T (W x00 x00 x00 x00 x00 x00 x00 x00)
(L (W x45 x26 x22 x84 xe4 x9c xf2 xcb))
(L (W x00 x00 x80 xbf x00 x00 x80 xbf))))
(T (W x00 x00 x00 x00 x00 x00 x00 x00)
(T (W xff xff xff xff xff xff xff xff)
(L (W x00 x00 x01 x01 x95 x01 x00 x00))
(L (W x00 x00 x00 x00 x00 x00 x00 x00)))
(T (W xff xff xff xff xff xff xff xff)
(L (W x00 x00 x80 xbf x00 x00 x80 xbf))
(L (W x00 x00 x00 x00 x32 xf7 xff xff)))))
(T (W x00 x00 x80 x3f x00 x00 x80 x3f)
(T (W x00 x00 x80 x3f x00 x00 x80 x3f)
(T (W x45 x26 x22 x84 xe4 x9c xf2 xcb)
(L (W xff xff xff xff xff xff xff xff))
(L (W x00 x00 x00 x00 x00 x00 x00 x00)))
(T (W x00 x00 x00 x00 x00 x00 x00 x00)
(L (W xff xff xff xff xff xff xff xff))
(L (W xff xff xff xff xff xff xff xff))))
(T (W x00 x00 x00 x00 x00 x00 x00 x00)
(T (W xff xff xff xff xff xff xff xff)
(L (W x00 x00 x00 x00 x00 x00 x00 x00))
(L (W x00 x00 x00 x00 x00 x00 x00 x00)))
(T (W x00 x00 x00 x00 x00 x00 x00 x00)
(L (W x00 x00 x00 x00 x00 x00 x00 x00)) E))))))))
(T (W xb0 xf7 x00 x00 x7c xf6 x00 x00)
(T (W xff xff xff xff xff xff xff xff)
(T (W x00 x00 x80 x3f x00 x00 x80 x3f)
(T (W x00 x00 x80 x3f x00 x00 x80 x3f)
(T (W x00 x00 x80 x3f x00 x00 x80 x3f)
(T (W x00 x00 x00 x00 x00 x00 x00 x00)
(T (W x64 x01 x00 x00 xff xff xff xff)
(T (W x68 x00 x00 x00 x5c x00 x00 x00)
(L (W x00 x00 x80 x3f x00 x00 x80 x3f))
(L (W xff xff xff xff xff xff xff xff)))
(T (W x12 x00 x00 x00 x46 x53 x59 x53)
(L (W x64 x5f x70 x6f x6b x65 x5f x77))
(L (W xff xff xff xff xb8 x00 x00 x00))))
(T (W x00 x00 x00 x00 xb8 xdf xfc xff)
(T (W xff xff xff xff xff xff xff xff)
(L (W x00 x00 x80 xbf x00 x00 x80 xbf))
(L (W x27 x00 x00 x00 x2a x00 x00 x00)))
(T (W x00 x00 x80 x3f x00 x00 x80 x3f)
(L (W x00 x00 x80 xbf x00 x00 x80 xbf))
(L (W x00 x00 x80 xbf x00 x00 x80 xbf)))))
(T (W x00 x00 x00 x00 x00 x00 x00 x00)
(T (W xff xff xff xff xff xff xff xff)
(T (W x00 x00 x80 x3f x00 x00 x80 x3f)
(L (W x00 x00 x80 x3f x00 x00 x80 x3f))
(L (W x45 x44 x00 x00 x00 x00 x00 x00)))
(T (W x03 x00 x00 x00 xcc x00 x00 x00)
(L (W x03 x00 x00 x00 xd8 x00 x00 x00))
(L (W xff xff xff xff xff xff xff xff))))
(T (W x68 x00 x00 x00 x5c x00 x00 x00)
(T (W x45 x26 x22 x84 xe4 x9c xf2 xcb)
(L (W x00 x00 x80 xbf x00 x00 x80 xbf))
(L (W xff xff xff xff xff xff xff xff)))
(T (W x00 x00 x00 x00 x00 x00 x00 x00)
(L (W x45 x26 x22 x84 xe4 x9c xf2 xcb))
(L (W xff xff xff xff xff xff xff xff))))))
(T (W x00 x00 x00 x00 x00 x00 x00 x00)
(T (W x40 x00 x00 x00 x0c x00 x00 x00)
(T (W xff xff xff xff xff xff xff xff)
(T (W x40 x2e xfd xff x00 x01 x01 x01)
(L (W x18 x00 x00 x00 x10 x00 x00 x00))
(L (W xff xff xff xff xff xff xff xff)))
(T (W x54 x00 x00 x00 x48 x00 x00 x00)
(L (W x03 x00 x00 x00 xd8 x00 x00 x00))
(L (W xff xff xff xff xff xff xff xff))))
(T (W x40 x00 x00 x00 x9c x00 x00 x00)
(T (W x02 x00 x00 x00 x30 x01 x00 x00)
(L (W x46 x53 x59 x53 x5f x4e x53 x5f))
(L (W x6c x00 x00 x00 x60 x00 x00 x00)))
(T (W x00 x00 x80 x3f x00 x00 x80 x3f)
(L (W x18 x00 x00 x00 x10 x00 x00 x00))
(L (W x00 x00 x00 x00 x00 x00 x00 x00)))))
(T (W x00 x00 x00 x00 x04 x00 x00 x00)
(T (W xff xff xff xff xff xff xff xff)
(T (W x18 x00 x00 x00 x0c x00 x00 x00)
(L (W x21 x00 x00 x00 x67 x72 x6f x75))
(L (W x00 x00 x80 xbf x00 x00 x80 xbf)))
(T (W x13 x00 x00 x00 x10 x00 x00 x00)
(L (W xe4 x56 xbb x28 xbf xd8 x6a x6a))
(L (W xff xff xff xff xff xff xff xff))))
(T (W x3a x26 xfd xff x74 x00 x00 x00)
(T (W xff xff xff xff xff xff xff xff)
(L (W x00 x00 x80 x3f x00 x00 x80 x3f))
(L (W xff xff xff xff xff xff xff xff)))
(T (W x45 x26 x22 x84 xe4 x9c xf2 xcb)
(L (W xff xff xff xff xff xff xff xff)) E)))))
(T (W x00 x00 x80 x3f x00 x00 x80 x3f)
(T (W x00 x00 x80 x3f x00 x00 x80 x3f)
(T (W x00 x00 x00 x00 x00 x00 x00 x00)
(T (W xff xff xff xff xff xff xff xff)
(T (W x3a x3e xfd xff x74 x00 x00 x00)
(L (W xff xff xff xff xff xff xff xff))
(L (W xff xff xff xff xb0 x00 x00 x00)))
(T (W x00 x00 x80 x3f x00 x00 x80 x3f)
(L (W x03 x00 x00 x00 xfc x00 x00 x00))
(L (W xff xff xff xff xb0 x00 x00 x00))))
(T (W x18 x00 x00 x00 x0c x00 x00 x00)
(T (W xff xff xff xff xff xff xff xff)
(L (W x00 x00 x00 x00 x00 x00 x00 x00))
(L (W x00 x00 x80 xbf x00 x00 x80 xbf)))
(T (W x00 x00 x80 x3f x00 x00 x80 x3f)
(L (W x00 x00 x80 xbf x00 x00 x80 xbf))
(L (W x00 x00 x00 x00 x00 x00 x00 x00)))))
(T (W x00 x00 x00 x00 x00 x00 x00 x00)
(T (W xff xff xff xff xff xff xff xff)
(T (W x45 x26 x22 x84 xe4 x9c xf2 xcb)
(L (W x00 x00 x00 x00 x00 x00 x00 x00))
(L (W x00 x00 x00 x00 x00 x00 x00 x00)))
(T (W xff xff xff xff x01 x00 x00 x00)
(L (W xff xff xff xff xff xff xff xff))
(L (W xff xff xff xff xff xff xff xff))))
(T (W x45 x26 x22 x84 xe4 x9c xf2 xcb)
(T (W x18 x00 x00 x00 x0c x00 x00 x00)
(L (W xff xff xff xff xff xff xff xff))
(L (W xff xff xff xff xff xff xff xff)))
(T (W x00 x00 x00 x00 x00 x00 x00 x00)
(L (W xff xff xff xff xb0 x00 x00 x00)) E))))
(T (W x45 x26 x22 x84 xe4 x9c xf2 xcb)
(T (W x00 x00 x00 x00 x00 x00 x00 x00)
(T (W x64 x00 x00 x00 x9c x00 x00 x00)
(T (W x00 x00 x80 x3f x00 x00 x80 x3f)
(L (W xff xff xff xff xff xff xff xff))
(L (W x04 x00 x00 x00 x92 x3c xff xff)))
(T (W x68 x00 x00 x00 x5c x00 x00 x00)
(L (W x2d x00 x00 x00 x30 x00 x00 x00))
(L (W xff xff xff xff xff xff xff xff))))
(T (W x01 x00 x00 x00 x3e x00 x00 x00)
(T (W x00 x00 x00 x00 x00 x00 x00 x00)
(L (W x32 x00 x00 x00 x10 x00 x00 x00))
(L (W x50 x00 x00 x00 x44 x00 x00 x00)))
(T (W x00 x00 x80 x3f x00 x00 x80 x3f)
(L (W x03 x00 x00 x00 xd0 x00 x00 x00))
(L (W xff xff xff xff xff xff xff xff)))))
(T (W xff xff xff xff xff xff xff xff)
(T (W x64 x00 x00 x00 x9c x00 x00 x00)
(T (W x00 x00 x00 x00 xb8 x57 xfd xff)
(L (W x00 x00 x00 x00 x00 x00 x00 x00))
(L (W x00 x00 x80 xbf x00 x00 x80 xbf)))
(T (W x00 x00 x00 x00 x00 x00 x00 x00)
(L (W x00 x00 x00 x00 x00 x00 x00 x00))
(L (W x45 x26 x22 x84 xe4 x9c xf2 xcb))))
(T (W x00 x00 x80 x3f x00 x00 x80 x3f)
(T (W x80 x03 x00 x00 x54 x02 x00 x00)
(L (W x00 x00 x00 x00 x00 x00 x00 x00))
(L (W xb0 x00 x00 x00 x64 x00 x00 x00)))
(T (W x45 x26 x22 x84 xe4 x9c xf2 xcb)
(L (W xff xff xff xff xff xff xff xff)) E))))))
(T (W xff xff xff xff xff xff xff xff)
(T (W xff xff xff xff xff xff xff xff)
(T (W xff xff xff xff xff xff xff xff)
(T (W xc0 x00 x00 x00 xb4 x00 x00 x00)
(T (W x00 x00 x80 x3f x00 x00 x80 x3f)
(T (W x40 x00 x00 x00 x10 x00 x00 x00)
(L (W xff xff xff xff xff xff xff xff))
(L (W x00 x00 x00 x00 x00 x00 x00 x00)))
(T (W xff xff xff xff xff xff xff xff)
(L (W xff xff xff xff xff xff xff xff))
(L (W x00 x00 x00 x00 x00 x00 x00 x00))))
(T (W x00 x00 x00 x00 x00 x00 x00 x00)
(T (W x00 x00 x00 x00 x00 x00 x00 x00)
(L (W xbc x00 x00 x00 x02 x00 x00 x00))
(L (W x00 x00 x00 x00 xb2 x72 xff xff)))
(T (W xff xff xff xff xff xff xff xff)
(L (W xff xff xff xff xff xff xff xff))
(L (W xff xff xff xff xff xff xff xff)))))
(T (W x50 x00 x00 x00 x44 x00 x00 x00)
(T (W x45 x26 x22 x84 xe4 x9c xf2 xcb)
(T (W xff xff xff xff xff xff xff xff)
(L (W xff xff xff xff xff xff xff xff))
(L (W xcc x00 x00 x00 x01 x00 x00 x00)))
(T (W x00 x00 x80 x3f x00 x00 x80 x3f)
(L (W x00 x00 x00 x00 x00 x00 x00 x00))
(L (W x00 x00 x00 x00 x00 x00 x00 x00))))
(T (W xff xff xff xff xff xff xff xff)
(T (W x00 x00 x00 x00 x00 x00 x00 x00)
(L (W x00 x00 x00 x00 x00 x00 x00 x00))
(L (W x00 x00 x00 x00 x00 x00 x00 x00)))
(T (W x00 x00 x00 x00 xb8 x03 xfe xff)
(L (W x00 x00 x00 x00 x00 x00 x00 x00))
(L (W x00 x00 x00 x00 x00 x00 x00 x00))))))
(T (W x18 x00 x00 x00 x10 x00 x00 x00)
(T (W x00 x00 x00 x00 xb8 x73 xfc xff)
(T (W x45 x26 x22 x84 xe4 x9c xf2 xcb)
(T (W xff xff xff xff xff xff xff xff)
(L (W x00 x00 x00 x00 x00 x00 x00 x00))
(L (W x00 x00 x80 xbf x00 x00 x80 xbf)))
(T (W x04 x00 x00 x00 x80 x03 x00 x00)
(L (W x00 x00 x00 x00 x00 x00 x00 x00))
(L (W x49 xa1 x68 x4a xeb x5f xdd x3d))))
(T (W x84 xfd xfc xff x3c x00 x00 x00)
(T (W x3a x8a xfd xff x74 x00 x00 x00)
(L (W x3c x00 x00 x00 x00 x00 x80 xbf))
(L (W x00 x00 x00 x00 xb2 x82 xff xff)))
(T (W xff xff xff xff xff xff xff xff)
(L (W x00 x00 x00 x00 x00 x00 x00 x00))
(L (W x00 x00 x00 x00 x00 x00 x00 x00)))))
(T (W x00 x00 x80 x3f x00 x00 x80 x3f)
(T (W x00 x00 x80 x3f x00 x00 x80 x3f)
(T (W x00 x00 x00 x00 x00 x00 x00 x00)
(L (W x82 x56 xfe xff x78 x00 x00 x00))
(L (W xff xff xff xff xff xff xff xff)))
(T (W x45 x26 x22 x84 xe4 x9c xf2 xcb)
(L (W x00 x00 x00 x00 xb8 xd3 xfe xff))
(L (W xca xe8 xac x28 xbf xdb x59 x6a))))
(T (W x00 x00 x00 x00 x00 x00 x00 x00)
(T (W x00 x00 x80 x3f x00 x00 x80 x3f)
(L (W x00 x00 x00 x00 x00 x00 x00 x00))
(L (W x00 x00 x00 x00 x00 x00 x00 x00)))
(T (W x00 x00 x00 x00 x00 x00 x00 x00)
(L (W x00 x00 x00 x00 x00 x00 x00 x00)) E)))))
(T (W xff xff xff xff xff xff xff xff)
(T (W xff xff xff xff x04 x00 x00 x00)
(T (W xff xff xff xff x03 x00 x00 x00)
(T (W x00 x00 x80 x3f x00 x00 x80 x3f)
(T (W xea xde xfe xff x00 x00 x01 x01)
(L (W x00 x00 x00 x00 x00 x00 x00 x00))
(L (W x00 x00 x00 x00 x00 x00 x00 x00)))
(T (W xff xff xff xff xff xff xff xff)
(L (W xff xff xff xff xff xff xff xff))
(L (W x00 x00 x00 x00 x00 x00 x00 x00))))
(T (W x00 x00 x00 x00 x00 x00 x00 x00)
(T (W x00 x00 x80 x3f x00 x00 x80 x3f)
(L (W xb4 x6b xfe xff xfa x66 xfe xff))
(L (W x00 x00 x00 x00 x00 x00 x00 x00)))
(T (W xff xff xff xff xff xff xff xff)
(L (W x00 x00 x00 x00 x1a xeb xfe xff))
(L (W xff xff xff xff xff xff xff xff)))))
(T (W x00 x00 x80 x3f x00 x00 x80 x3f)
(T (W x00 x00 x80 x3f x00 x00 x80 x3f)
(T (W x5f x4e x53 x5f x30 x34 x5f x43)
(L (W x64 x00 x00 x00 x9c x00 x00 x00))
(L (W xff xff xff xff xff xff xff xff)))
(T (W x3a xe2 xfd xff x74 x00 x00 x00)
(L (W x00 x00 x80 xbf x00 x00 x80 xbf))
(L (W x00 x00 x00 x00 x00 x00 x00 x00))))
(T (W x00 x00 x4c x00 x50 x00 x00 x00)
(T (W x00 x00 x00 x00 x00 x00 x00 x00)
(L (W xff xff xff xff xff xff xff xff))
(L (W x00 x00 x00 x00 x00 x00 x00 x00)))
(T (W x3a x22 xfe xff x74 x00 x00 x00)
(L (W x00 x00 x00 x00 x00 x00 x00 x00)) E))))
(T (W xb8 x00 x00 x00 xac x00 x00 x00)
(T (W x45 x26 x22 x84 xe4 x9c xf2 xcb)
(T (W x00 x00 x80 x3f x00 x00 x80 x3f)
(T (W xff xff xff xff xff xff xff xff)
(L (W x00 x00 x00 x00 x00 x00 x00 x00))
(L (W x00 x00 x80 xbf x00 x00 x80 xbf)))
(T (W x46 x53 x59 x53 x5f x4e x53 x5f)
(L (W x00 x00 x00 x00 x00 x00 x00 x00))
(L (W x45 x26 x22 x84 xe4 x9c xf2 xcb))))
(T (W x01 x00 x00 x00 x04 x00 x00 x00)
(T (W xff xff xff xff xff xff xff xff)
(L (W xff xff xff xff xff xff xff xff))
(L (W x46 x53 x59 x53 x5f x4e x53 x5f)))
(T (W xff xff xff xff xff xff xff xff)
(L (W x00 x00 x00 x00 x00 x00 x00 x00))
(L (W xff xff xff xff xff xff xff xff)))))
(T (W x00 x00 x80 x3f x00 x00 x80 x3f)
(T (W x00 x00 x00 x00 x00 x00 x00 x00)
(T (W x00 x00 x00 x00 x12 x00 x00 x00)
(L (W xff xff xff xff xff xff xff xff))
(L (W x00 x00 x00 x00 x92 x5c xff xff)))
(T (W xff xff xff xff xff xff xff xff)
(L (W x18 x00 x00 x00 x1b x00 x00 x00))
(L (W x03 x00 x00 x00 xd8 x00 x00 x00))))
(T (W x00 x00 x00 x00 x00 x00 x00 x00)
(T (W x68 x00 x00 x00 x5c x00 x00 x00)
(L (W x00 x00 x00 x00 x8a x99 xfe xff))
(L (W x61 x64 x65 x72 x5f x77 x69 x6c)))
(T (W xb2 xa0 x30 x97 x85 x22 x5c x5f)
(L (W x00 x00 x00 x00 x00 x00 x00 x00)) E)))))))
(T (W x00 x00 x00 x00 x00 x00 x00 x00)
(T (W xc0 x00 x00 x00 xb4 x00 x00 x00)
(T (W xff xff xff xff x03 x00 x00 x00)
(T (W x00 x00 x80 x3f x00 x00 x80 x3f)
(T (W x00 x00 x80 x3f x00 x00 x80 x3f)
(T (W x00 x00 x00 x00 x00 x00 x00 x00)
(T (W xff xff xff xff x04 x00 x00 x00)
(L (W x18 x00 x00 x00 x10 x00 x00 x00))
(L (W x00 x00 x00 x00 x00 x00 x00 x00)))
(T (W x68 x00 x00 x00 x5c x00 x00 x00)
(L (W x45 x26 x22 x84 xe4 x9c xf2 xcb))
(L (W xff xff xff xff xff xff xff xff))))
(T (W xff xff xff xff xff xff xff xff)
(T (W xff xff xff xff xff xff xff xff)
(L (W x00 x01 x01 x01 xfa x5c xfe xff))
(L (W xff xff xff xff xff xff xff xff)))
(T (W x45 x26 x22 x84 xe4 x9c xf2 xcb)
(L (W x00 x00 x00 x00 xb8 xe1 xfe xff))
(L (W x68 x00 x00 x00 x5c x00 x00 x00)))))
(T (W x00 x00 x00 x00 x00 x00 x00 x00)
(T (W x01 x00 x00 x00 x04 x00 x00 x00)
(T (W x04 x00 x00 x00 x0c x04 x00 x00)
(L (W x18 x00 x00 x00 x0c x00 x00 x00))
(L (W x00 x00 x80 xbf x00 x00 x80 xbf)))
(T (W x00 x00 x00 x00 x04 x00 x00 x00)
(L (W x00 x00 x01 x01 x93 x01 x00 x00))
(L (W x00 x00 x00 x00 x00 x00 x00 x00))))
(T (W xff xff xff xff xff xff xff xff)
(T (W x45 x26 x22 x84 xe4 x9c xf2 xcb)
(L (W xff xff xff xff xff xff xff xff))
(L (W x00 x00 x00 x00 x1a x81 xff xff)))
(T (W x00 x00 x80 x3f x00 x00 x80 x3f)
(L (W xff xff xff xff xff xff xff xff))
(L (W x00 x00 x80 xbf x00 x00 x80 xbf))))))
(T (W x3a x68 xfc xff x74 x00 x00 x00)
(T (W x00 x00 x80 x3f x00 x00 x80 x3f)
(T (W xdc xb6 xfc xff x3c x00 x00 x00)
(T (W xb8 x00 x00 x00 xac x00 x00 x00)
(L (W xff xff xff xff xff xff xff xff))
(L (W x30 x34 x5f x43 x4c x45 x41 x52)))
(T (W x03 x00 x00 x00 xd0 x00 x00 x00)
(L (W x00 x00 x01 x01 xc4 x01 x00 x00))
(L (W x96 x01 x00 x00 xff xff xff xff))))
(T (W xff xff xff xff xff xff xff xff)
(T (W x00 x00 x00 x00 x00 x00 x00 x00)
(L (W x49 xa1 x68 x4a xeb x5f xdd x3d))
(L (W xff xff xff xff xff xff xff xff)))
(T (W x00 x00 x00 x00 xb8 xf1 xfd xff)
(L (W xff xff xff xff xff xff xff xff))
(L (W x03 x00 x00 x00 xc8 x00 x00 x00)))))
(T (W x00 x00 x00 x00 x00 x00 x00 x00)
(T (W x00 x00 x00 x00 x00 x00 x00 x00)
(T (W xff xff xff xff xff xff xff xff)
(L (W x44 x00 x48 x00 x4c x00 x50 x00))
(L (W x40 x50 xff xff x00 x01 x01 x01)))
(T (W x00 x00 x80 x3f x00 x00 x80 x3f)
(L (W x45 x26 x22 x84 xe4 x9c xf2 xcb))
(L (W x00 x00 x80 xbf x00 x00 x80 xbf))))
(T (W xff xff xff xff xff xff xff xff)
(T (W x30 x34 x5f x43 x4c x45 x41 x52)
(L (W xff xff xff xff xff xff xff xff))
(L (W xff xff xff xff xff xff xff xff)))
(T (W xff xff xff xff xff xff xff xff)
(L (W x00 x00 x00 x00 x92 x12 xff xff)) E)))))
(T (W x3a x50 xfc xff x74 x00 x00 x00)
(T (W x68 x00 x00 x00 x5c x00 x00 x00)
(T (W x00 x00 x80 x3f x00 x00 x80 x3f)
(T (W x00 x00 x00 x00 x00 x00 x00 x00)
(T (W x18 x00 x00 x00 x10 x00 x00 x00)
(L (W x6d xc4 x33 x97 x85 xae x5f x5f))
(L (W x00 x00 x01 x01 xcf x00 x00 x00)))
(T (W x3a xc0 xfd xff x74 x00 x00 x00)
(L (W x00 x00 x00 x00 x00 x00 x00 x00))
(L (W xff xff xff xff xff xff xff xff))))
(T (W xff xff xff xff xff xff xff xff)
(T (W x46 x53 x59 x53 x5f x4e x53 x5f)
(L (W x45 x26 x22 x84 xe4 x9c xf2 xcb))
(L (W x18 x00 x00 x00 x10 x00 x00 x00)))
(T (W x40 xe8 xfd xff x00 x01 x01 x01)
(L (W xff xff xff xff xff xff xff xff))
(L (W x50 x00 x00 x00 x44 x00 x00 x00)))))
(T (W x00 x00 x00 x00 x00 x00 x00 x00)
(T (W xdc xce xfc xff x3c x00 x00 x00)
(T (W xff xff xff xff xff xff xff xff)
(L (W x00 x00 x80 x3f x00 x00 x80 x3f))
(L (W x00 x00 x00 x00 xb8 x49 xff xff)))
(T (W x00 x00 x00 x00 x00 x00 x00 x00)
(L (W x00 x00 x00 x00 x12 x00 x00 x00))
(L (W x00 x00 x00 x00 x00 x00 x00 x00))))
(T (W x00 x00 x00 x00 x00 x00 x00 x00)
(T (W xff xff xff xff xff xff xff xff)
(L (W x00 x00 x00 x00 x00 x00 x00 x00))
(L (W xff xff xff xff xff xff xff xff)))
(T (W x00 x00 x80 x3f x00 x00 x80 x3f)
(L (W xff xff xff xff xff xff xff xff)) E))))
(T (W x40 x58 xfc xff x00 x01 x01 x01)
(T (W x00 x00 x00 x00 x00 x00 x00 x00)
(T (W x00 x00 x00 x00 x01 x00 x00 x00)
(T (W xc0 x00 x00 x00 xb4 x00 x00 x00)
(L (W x00 x00 x00 x00 x02 x00 x00 x00))
(L (W x45 x26 x22 x84 xe4 x9c xf2 xcb)))
(T (W xff xff xff xff xff xff xff xff)
(L (W xff xff xff xff xff xff xff xff))
(L (W x00 x00 x00 x00 x00 x00 x00 x00))))
(T (W xff xff xff xff xff xff xff xff)
(T (W x00 x00 x80 x3f x00 x00 x80 x3f)
(L (W x00 x00 x80 xbf x00 x00 x80 xbf))
(L (W xff xff xff xff xff xff xff xff)))
(T (W x3a x10 xfe xff x74 x00 x00 x00)
(L (W xff xff xff xff xff xff xff xff))
(L (W x00 x00 x00 x00 x00 x00 x00 x00)))))
(T (W x45 x26 x22 x84 xe4 x9c xf2 xcb)
(T (W x00 x00 x00 x00 x02 x00 x00 x00)
(T (W xff xff xff xff xff xff xff xff)
(L (W x00 x00 x80 xbf x00 x00 x80 xbf))
(L (W x45 x26 x22 x84 xe4 x9c xf2 xcb)))
(T (W x6c x00 x00 x00 x60 x00 x00 x00)
(L (W x00 x00 x80 xbf x00 x00 x80 xbf))
(L (W x00 x00 x00 x00 x00 x00 x00 x00))))
(T (W xff xff xff xff xff xff xff xff)
(T (W x00 x00 x80 x3f x00 x00 x80 x3f)
(L (W x00 x00 x00 x00 xb8 x99 xfe xff))
(L (W x00 x00 x80 xbf x00 x00 x80 xbf)))
(T (W xff xff xff xff xff xff xff xff)
(L (W xff xff xff xff xff xff xff xff)) E))))))
(T (W x00 x00 x00 x00 x00 x00 x00 x00)
(T (W x3e x00 x00 x00 x0c x00 x00 x00)
(T (W x00 x00 x00 x00 x00 x00 x00 x00)
(T (W xff xff xff xff xff xff xff xff)
(T (W x50 x00 x00 x00 x44 x00 x00 x00)
(T (W x00 x00 x00 x00 x00 x00 x00 x00)
(L (W x00 x00 x80 x3f x00 x00 x80 x3f))
(L (W x00 x00 x80 xbf x00 x00 x80 xbf)))
(T (W x31 x64 xc4 xfb x85 xf3 x9d xff)
(L (W x00 x00 x00 x00 x00 x00 x00 x00))
(L (W x4f x84 x6f x8b xe8 xcb x63 xb7))))
(T (W x68 x00 x00 x00 x5c x00 x00 x00)
(T (W x50 x00 x00 x00 x44 x00 x00 x00)
(L (W xff xff xff xff xff xff xff xff))
(L (W x00 x00 x00 x00 x00 x00 x00 x00)))
(T (W x00 x00 x00 x00 x00 x00 x00 x00)
(L (W x45 x44 x00 x00 x00 x00 x00 x00))
(L (W x50 x00 x00 x00 x44 x00 x00 x00)))))
(T (W xff xff xff xff xff xff xff xff)
(T (W x50 x00 x00 x00 x44 x00 x00 x00)
(T (W x00 x00 x00 x00 x00 x00 x00 x00)
(L (W x2b x00 x00 x00 x10 x00 x00 x00))
(L (W xff xff xff xff xff xff xff xff)))
(T (W x3a xdc xfd xff x74 x00 x00 x00)
(L (W x00 x00 x00 x00 xb8 xc5 xfe xff))
(L (W x00 x00 x80 xbf x00 x00 x80 xbf))))
(T (W x00 x00 x00 x00 x00 x00 x00 x00)
(T (W x00 x00 x80 x3f x00 x00 x80 x3f)
(L (W x3a x9c xfe xff x74 x00 x00 x00))
(L (W x14 x00 x00 x00 x0c x00 x00 x00)))
(T (W xff xff xff xff xff xff xff xff)
(L (W x00 x00 x80 xbf x00 x00 x80 xbf))
(L (W x38 x00 x3c x00 x40 x00 x44 x00))))))
(T (W xea x08 xfe xff x00 x00 x01 x01)
(T (W xff xff xff xff xff xff xff xff)
(T (W x00 x00 x00 x00 xb8 xb5 xfc xff)
(T (W x00 x00 x00 x00 x00 x00 x00 x00)
(L (W x00 x00 x80 x3f x00 x00 x80 x3f))
(L (W xff xff xff xff xb0 x00 x00 x00)))
(T (W x00 x00 x80 x3f x00 x00 x80 x3f)
(L (W x00 x00 x80 x3f x00 x00 x80 x3f))
(L (W x6c x00 x00 x00 x60 x00 x00 x00))))
(T (W x00 x00 x80 x3f x00 x00 x80 x3f)
(T (W xff xff xff xff xff xff xff xff)
(L (W xb0 x00 x00 x00 x64 x00 x00 x00))
(L (W x00 x00 x00 x00 x00 x00 x00 x00)))
(T (W x00 x00 x00 x00 x00 x00 x00 x00)
(L (W x00 x00 x80 xbf x00 x00 x80 xbf))
(L (W x00 x00 x80 xbf x00 x00 x80 xbf)))))
(T (W x64 x00 x00 x00 x9c x00 x00 x00)
(T (W x00 x00 x80 x3f x00 x00 x80 x3f)
(T (W x00 x00 x80 x3f x00 x00 x80 x3f)
(L (W xff xff xff xff xff xff xff xff))
(L (W x84 x5f xff xff x1a x00 x00 x00)))
(T (W xff xff xff xff xff xff xff xff)
(L (W x00 x00 x00 x00 x00 x00 x00 x00))
(L (W x00 x00 x80 xbf x00 x00 x80 xbf))))
(T (W x00 x00 x80 x3f x00 x00 x80 x3f)
(T (W xc0 x00 x00 x00 x01 x00 x00 x00)
(L (W xff xff xff xff xff xff xff xff))
(L (W x00 x00 x80 xbf x00 x00 x80 xbf)))
(T (W x00 x00 x80 x3f x00 x00 x80 x3f)
(L (W x45 x26 x22 x84 xe4 x9c xf2 xcb)) E)))))
(T (W x00 x00 x00 x00 x00 x00 x00 x00)
(T (W x40 x00 x00 x00 x10 x00 x00 x00)
(T (W xff xff xff xff xff xff xff xff)
(T (W x3a xc4 xfc xff x74 x00 x00 x00)
(T (W x45 x26 x22 x84 xe4 x9c xf2 xcb)
(L (W x00 x00 x80 x3f x00 x00 x80 x3f))
(L (W x50 x00 x00 x00 x44 x00 x00 x00)))
(T (W x00 x00 x00 x00 x12 x00 x00 x00)
(L (W x00 x00 x80 x3f x00 x00 x80 x3f))
(L (W x00 x00 x80 xbf x00 x00 x80 xbf))))
(T (W x00 x00 x80 x3f x00 x00 x80 x3f)
(T (W x03 x00 x00 x00 xd0 x00 x00 x00)
(L (W xff xff xff xff xbc x00 x00 x00))
(L (W x4f x84 x6f x8b xe8 xcb x63 xb7)))
(T (W x70 x5f x6c x65 x61 x64 x65 x72)
(L (W x00 x00 x00 x00 x00 x00 x00 x00))
(L (W xff xff xff xff xff xff xff xff)))))
(T (W xff xff xff xff xff xff xff xff)
(T (W x00 x00 x80 x3f x00 x00 x80 x3f)
(T (W x49 xa1 x68 x4a xeb x5f xdd x3d)
(L (W x50 x00 x00 x00 x44 x00 x00 x00))
(L (W x00 x00 x00 x00 x00 x00 x00 x00)))
(T (W xff xff xff xff xff xff xff xff)
(L (W xff xff xff xff xff xff xff xff))
(L (W x00 x00 x80 xbf x00 x00 x80 xbf))))
(T (W x00 x00 x80 x3f x00 x00 x80 x3f)
(T (W x00 x00 x80 x3f x00 x00 x80 x3f)
(L (W x00 x00 x00 x00 x00 x00 x00 x00))
(L (W x45 x26 x22 x84 xe4 x9c xf2 xcb)))
(T (W x54 x00 x00 x00 x58 x00 x00 x00)
(L (W x82 x10 xff xff x78 x00 x00 x00)) E))))
(T (W xff xff xff xff xff xff xff xff)
(T (W xff xff xff xff xff xff xff xff)
(T (W x18 x00 x00 x00 x0c x00 x00 x00)
(T (W x00 x00 x00 x00 x00 x00 x00 x00)
(L (W x00 x00 x4c x00 x50 x00 x00 x00))
(L (W xff xff xff xff xff xff xff xff)))
(T (W x50 x00 x00 x00 x44 x00 x00 x00)
(L (W x00 x00 x80 x3f x00 x00 x80 x3f))
(L (W x40 x00 x00 x00 x00 x00 x80 xbf))))
(T (W x45 x26 x22 x84 xe4 x9c xf2 xcb)
(T (W x2a x00 x00 x00 x0c x00 x00 x00)
(L (W x00 x00 x00 x00 x00 x00 x00 x00))
(L (W x00 x00 x80 xbf x00 x00 x80 xbf)))
(T (W x18 x01 x00 x00 x04 x00 x00 x00)
(L (W x00 x00 x80 xbf x00 x00 x80 xbf))
(L (W x00 x00 x00 x00 x00 x00 x00 x00)))))
(T (W x40 x9c xfc xff x00 x01 x01 x01)
(T (W x50 x00 x00 x00 x44 x00 x00 x00)
(T (W x00 x00 x80 x3f x00 x00 x80 x3f)
(L (W x29 x00 x00 x00 xff xff xff xff))
(L (W x00 x00 x00 x00 x00 x00 x00 x00)))
(T (W x00 x00 x00 x00 x00 x00 x00 x00)
(L (W x08 x00 x00 x00 x18 x08 x00 x00))
(L (W x38 x00 x00 x00 x0c x00 x00 x00))))
(T (W x00 x00 x80 x3f x00 x00 x80 x3f)
(T (W xff xff xff xff xff xff xff xff)
(L (W x00 x00 x80 x3f x00 x00 x80 x3f))
(L (W x00 x00 x80 xbf x00 x00 x80 xbf)))
(T (W x00 x00 x00 x00 x00 x00 x00 x00)
(L (W x00 x00 x80 xbf x00 x00 x80 xbf)) E)))))))))
(T (W xb8 x04 x02 x00 x2c x02 x02 x00)
(T (W x10 x4c x01 x00 xb4 x49 x01 x00)
(T (W x90 x1a x00 x00 x44 x18 x00 x00)
(T (W xff xff xff xff xff xff xff xff)
(T (W xff xff xff xff xff xff xff xff)
(T (W xff xff xff xff xff xff xff xff)
(T (W x45 x26 x22 x84 xe4 x9c xf2 xcb)
(T (W x45 x26 x22 x84 xe4 x9c xf2 xcb)
(T (W x6a xd2 xfe xff x00 x00 x01 x01)
(L (W xff xff xff xff xff xff xff xff))
(L (W x00 x00 x00 x00 x00 x00 x00 x00)))
(T (W xc0 x9d xfd xff x00 x01 x01 x01)
(L (W x00 x00 x80 x3f x00 x00 x80 x3f))
(L (W x00 x00 x00 x00 x00 x00 x00 x00))))
(T (W x00 x00 x00 x00 x00 x00 x00 x00)
(T (W x00 x00 x00 x00 x00 x00 x00 x00)
(L (W xff xff xff xff xff xff xff xff))
(L (W xec x08 x00 x00 xd0 x07 x00 x00)))
(T (W xff xff xff xff xff xff xff xff)
(L (W xff xff xff xff xff xff xff xff))
(L (W xff xff xff xff xff xff xff xff)))))
(T (W x68 x00 x00 x00 x5c x00 x00 x00)
(T (W x00 x00 x00 x00 x00 x00 x00 x00)
(T (W xff xff xff xff xff xff xff xff)
(L (W xff xff xff xff xff xff xff xff))
(L (W x54 x00 x00 x00 x48 x00 x00 x00)))
(T (W x00 x00 x00 x00 x00 x00 x00 x00)
(L (W x00 x00 x00 x00 x00 x00 x00 x00))
(L (W x49 xa1 x68 x4a xeb x5f xdd x3d))))
(T (W x00 x00 x00 x00 x0a xbf xff xff)
(T (W xff xff xff xff xff xff xff xff)
(L (W xff xff xff xff xff xff xff xff))
(L (W x00 x00 x00 x00 x00 x00 x00 x00)))
(T (W x00 x00 x00 x00 x38 xff xfd xff)
(L (W x45 x44 x00 x00 x00 x00 x00 x00))
(L (W x00 x00 x0c x00 x10 x00 x14 x00))))))
(T (W xb8 x00 x00 x00 xac x00 x00 x00)
(T (W x00 x00 x80 x3f x00 x00 x80 x3f)
(T (W x00 x00 x00 x00 x00 x00 x00 x00)
(T (W x20 x01 x00 x00 x04 x00 x00 x00)
(L (W x00 x00 x00 x00 x00 x00 x00 x00))
(L (W x49 xa1 x68 x4a xeb x5f xdd x3d)))
(T (W xff xff xff xff xff xff xff xff)
(L (W x77 x61 x72 x6c x69 x6b x65 x5f))
(L (W x00 x00 x00 x00 x00 x00 x00 x00))))
(T (W x00 x00 x00 x00 x00 x00 x00 x00)
(T (W x00 x00 x80 x3f x00 x00 x80 x3f)
(L (W x00 x01 x01 x01 x32 x6c xfe xff))
(L (W xff xff xff xff xff xff xff xff)))
(T (W xff xff xff xff xff xff xff xff)
(L (W x45 x44 x00 x00 x00 x00 x00 x00))
(L (W x23 x00 x00 x00 x26 x00 x00 x00)))))
(T (W x00 x00 x80 x3f x00 x00 x80 x3f)
(T (W x00 x00 x00 x00 x00 x00 x00 x00)
(T (W x35 xfe xd6 x52 x93 x5c x32 x49)
(L (W x00 x00 x80 x3f x00 x00 x80 x3f))
(L (W xff xff xff xff xff xff xff xff)))
(T (W x00 x00 x80 x3f x00 x00 x80 x3f)
(L (W x00 x00 x80 xbf x00 x00 x80 xbf))
(L (W x00 x00 x00 x00 x00 x00 x00 x00))))
(T (W x01 x00 x00 x00 x04 x00 x00 x00)
(T (W x00 x00 x00 x00 x00 x00 x00 x00)
(L (W xff xff xff xff xff xff xff xff))
(L (W x00 x00 x00 x00 x00 x00 x00 x00)))
(T (W x00 x00 x00 x00 x00 x00 x00 x00)
(L (W x00 x00 x00 x00 x00 x00 x00 x00)) E)))))
(T (W xff xff xff xff xff xff xff xff)
(T (W xff xff xff xff xff xff xff xff)
(T (W x68 x00 x00 x00 x5c x00 x00 x00)
(T (W x00 x00 x00 x00 x00 x00 x00 x00)
(T (W x00 x00 x00 x00 x00 x00 x00 x00)
(L (W x72 x64 x5f x6c x76 x31 x00 x00))
(L (W x00 x00 x00 x00 x00 x00 x00 x00)))
(T (W xff xff xff xff xff xff xff xff)
(L (W xfc x0e x00 x00 xe8 x0d x00 x00))
(L (W x70 xe5 xaf x28 xbf x50 x5d x6a))))
(T (W x00 x00 x00 x00 x00 x00 x00 x00)
(T (W x00 x00 x00 x00 x00 x00 x00 x00)
(L (W x34 x67 xfe xff x7a x62 xfe xff))
(L (W xff xff xff xff xff xff xff xff)))
(T (W xff xff xff xff xff xff xff xff)
(L (W xff xff xff xff xff xff xff xff))
(L (W x50 x00 x00 x00 x44 x00 x00 x00)))))
(T (W xba x9d xfc xff x74 x00 x00 x00)
(T (W x00 x00 x00 x00 x00 x00 x00 x00)
(T (W xff xff xff xff xff xff xff xff)
(L (W x64 x00 x00 x00 x9c x00 x00 x00))
(L (W x45 x26 x22 x84 xe4 x9c xf2 xcb)))
(T (W x00 x00 x80 x3f x00 x00 x80 x3f)
(L (W x00 x00 x00 x00 x00 x00 x00 x00))
(L (W x00 x00 x00 x00 x00 x00 x00 x00))))
(T (W xf9 x9f x62 x68 xef x88 x7c x99)
(T (W x20 x00 x00 x00 x0c x00 x00 x00)
(L (W x45 x26 x22 x84 xe4 x9c xf2 xcb))
(L (W x00 x00 x00 x00 x00 x00 x00 x00)))
(T (W xba x1d xfe xff x74 x00 x00 x00)
(L (W x00 x00 x00 x00 x00 x00 x00 x00)) E))))
(T (W xff xff xff xff x04 x00 x00 x00)
(T (W x50 x00 x00 x00 x44 x00 x00 x00)
(T (W x00 x00 x00 x00 x00 x00 x00 x00)
(T (W xff xff xff xff xff xff xff xff)
(L (W x21 x00 x00 x00 x67 x72 x6f x75))
(L (W x00 x00 x80 xbf x00 x00 x80 xbf)))
(T (W x00 x00 x00 x00 x0a xb5 xfd xff)
(L (W x46 x53 x59 x53 x5f x4e x53 x5f))
(L (W x00 x00 x00 x00 x00 x00 x00 x00))))
(T (W x3e x00 x00 x00 x10 x00 x00 x00)
(T (W x45 x26 x22 x84 xe4 x9c xf2 xcb)
(L (W x00 x00 x80 xbf x00 x00 x80 xbf))
(L (W xcf x00 x00 x00 xff xff xff xff)))
(T (W xff xff xff xff xff xff xff xff)
(L (W x00 x00 x00 x00 x00 x00 x00 x00))
(L (W x4f x84 x6f x8b xe8 xcb x63 xb7)))))
(T (W x00 x00 x80 x3f x00 x00 x80 x3f)
(T (W x00 x00 x00 x00 x00 x00 x00 x00)
(T (W x00 x00 x00 x00 x00 x00 x00 x00)
(L (W x68 x00 x00 x00 x5c x00 x00 x00))
(L (W xff xff xff xff xff xff xff xff)))
(T (W xff xff xff xff xb0 x00 x00 x00)
(L (W xff xff xff xff xb0 x00 x00 x00))
(L (W x45 x44 x00 x00 x00 x00 x00 x00))))
(T (W xff xff xff xff xff xff xff xff)
(T (W x00 x00 x80 x3f x00 x00 x80 x3f)
(L (W x6c x00 x00 x00 x60 x00 x00 x00))
(L (W x00 x00 x00 x00 x12 x00 x00 x00)))
(T (W x4c x9d x30 x97 x85 x20 x5c x5f)
(L (W x00 x00 x00 x00 x00 x00 x00 x00)) E))))))
(T (W x00 x00 x80 x3f x00 x00 x80 x3f)
(T (W x00 x00 x80 x3f x00 x00 x80 x3f)
(T (W x00 x00 x00 x00 x00 x00 x00 x00)
(T (W x00 x00 x00 x00 x00 x00 x00 x00)
(T (W xff xff xff xff xff xff xff xff)
(T (W x00 x00 x80 x3f x00 x00 x80 x3f)
(L (W x00 x00 x80 x3f x00 x00 x80 x3f))
(L (W xff xff xff xff xb0 x00 x00 x00)))
(T (W x00 x00 x00 x00 x00 x00 x00 x00)
(L (W x64 x5f x70 x6f x6b x65 x5f x77))
(L (W x00 x00 x80 xbf x00 x00 x80 xbf))))
(T (W x01 x00 x00 x00 xa0 x00 x00 x00)
(T (W x18 x00 x00 x00 x10 x00 x00 x00)
(L (W x00 x00 x00 x00 x00 x00 x00 x00))
(L (W x54 x00 x00 x00 x48 x00 x00 x00)))
(T (W x00 x00 x80 x3f x00 x00 x80 x3f)
(L (W x00 x00 x00 x00 x00 x00 x00 x00))
(L (W x4f x84 x6f x8b xe8 xcb x63 xb7)))))
(T (W x94 x01 x00 x00 xff xff xff xff)
(T (W xff xff xff xff xff xff xff xff)
(T (W x00 x00 x00 x00 x00 x00 x00 x00)
(L (W x00 x00 x00 x00 x00 x00 x00 x00))
(L (W x04 x4d xff xff x1d x00 x00 x00)))
(T (W xff xff xff xff xff xff xff xff)
(L (W x18 x00 x00 x00 x10 x00 x00 x00))
(L (W x45 x26 x22 x84 xe4 x9c xf2 xcb))))
(T (W x00 x00 x80 x3f x00 x00 x80 x3f)
(T (W x00 x00 x80 x3f x00 x00 x80 x3f)
(L (W x45 x26 x22 x84 xe4 x9c xf2 xcb))
(L (W xff xff xff xff x9c x00 x00 x00)))
(T (W x00 x00 x00 x00 x00 x00 x00 x00)
(L (W xff xff xff xff xb0 x00 x00 x00))
(L (W x74 x00 x00 x00 x68 x00 x00 x00))))))
(T (W x00 x00 x00 x00 x00 x00 x00 x00)
(T (W x00 x00 x00 x00 x00 x00 x00 x00)
(T (W xff xff xff xff x03 x00 x00 x00)
(T (W x45 x26 x22 x84 xe4 x9c xf2 xcb)
(L (W x45 x26 x22 x84 xe4 x9c xf2 xcb))
(L (W xff xff xff xff xff xff xff xff)))
(T (W x00 x00 x80 x3f x00 x00 x80 x3f)
(L (W x28 x00 x00 x00 x2b x00 x00 x00))
(L (W x03 x00 x00 x00 xd8 x00 x00 x00))))
(T (W x00 x00 x80 x3f x00 x00 x80 x3f)
(T (W x00 x00 x00 x00 x00 x00 x00 x00)
(L (W xff xff xff xff xff xff xff xff))
(L (W x54 x00 x00 x00 x48 x00 x00 x00)))
(T (W x00 x00 x80 x3f x00 x00 x80 x3f)
(L (W x50 x00 x00 x00 x44 x00 x00 x00))
(L (W xa4 x00 x00 x00 x64 x00 x00 x00)))))
(T (W xff xff xff xff xff xff xff xff)
(T (W xff xff xff xff xff xff xff xff)
(T (W x50 x00 x00 x00 x44 x00 x00 x00)
(L (W x04 x00 x00 x00 x9a x52 xfe xff))
(L (W x45 x26 x22 x84 xe4 x9c xf2 xcb)))
(T (W x00 x00 x00 x00 x00 x00 x00 x00)
(L (W x00 x00 x00 x00 x00 x00 x00 x00))
(L (W x00 x00 x80 xbf x00 x00 x80 xbf))))
(T (W x68 x00 x00 x00 x5c x00 x00 x00)
(T (W xff xff xff xff xff xff xff xff)
(L (W x18 x00 x00 x00 x0c x00 x00 x00))
(L (W x00 x00 x00 x00 x38 x93 xff xff)))
(T (W xc0 x11 xfe xff x00 x01 x01 x01)
(L (W x18 x00 x00 x00 x0c x00 x00 x00)) E)))))
(T (W x45 x26 x22 x84 xe4 x9c xf2 xcb)
(T (W x00 x00 x00 x00 x00 x00 x00 x00)
(T (W x00 x00 x00 x00 x00 x00 x00 x00)
(T (W xff xff xff xff xff xff xff xff)
(T (W x00 x00 x80 x3f x00 x00 x80 x3f)
(L (W x18 x00 x00 x00 x10 x00 x00 x00))
(L (W x18 x00 x00 x00 x10 x00 x00 x00)))
(T (W x00 x00 x80 x3f x00 x00 x80 x3f)
(L (W x46 x53 x59 x53 x5f x4e x53 x5f))
(L (W xba xc1 xff xff x74 x00 x00 x00))))
(T (W xba x01 xfd xff x74 x00 x00 x00)
(T (W xff xff xff xff xff xff xff xff)
(L (W x00 x00 x00 x00 x00 x00 x00 x00))
(L (W x00 x00 x80 xbf x00 x00 x80 xbf)))
(T (W x00 x00 x00 x00 x00 x00 x00 x00)
(L (W x00 x00 x80 xbf x00 x00 x80 xbf))
(L (W x00 x00 x00 x00 x00 x00 x00 x00)))))
(T (W xff xff xff xff xff xff xff xff)
(T (W xff xff xff xff xff xff xff xff)
(T (W xba x61 xfd xff x74 x00 x00 x00)
(L (W x00 x00 x00 x00 x00 x00 x00 x00))
(L (W x00 x00 x00 x00 x00 x00 x00 x00)))
(T (W x9d x01 x00 x00 xff xff xff xff)
(L (W xff xff xff xff xff xff xff xff))
(L (W xff xff xff xff x90 x00 x00 x00))))
(T (W x45 x26 x22 x84 xe4 x9c xf2 xcb)
(T (W x45 x26 x22 x84 xe4 x9c xf2 xcb)
(L (W x5c x90 xfe xff x23 x00 x00 x00))
(L (W x45 x26 x22 x84 xe4 x9c xf2 xcb)))
(T (W x18 x01 x00 x00 x04 x00 x00 x00)
(L (W xba x21 xff xff x74 x00 x00 x00)) E))))
(T (W x00 x00 x00 x00 x00 x00 x00 x00)
(T (W xd3 x23 x40 xf1 x12 x32 x29 x1f)
(T (W xff xff xff xff xff xff xff xff)
(T (W x00 x00 x80 x3f x00 x00 x80 x3f)
(L (W x45 x26 x22 x84 xe4 x9c xf2 xcb))
(L (W xff xff xff xff xff xff xff xff)))
(T (W x02 xbe xfd xff x78 x00 x00 x00)
(L (W x45 x26 x22 x84 xe4 x9c xf2 xcb))
(L (W xff xff xff xff xff xff xff xff))))
(T (W x00 x00 x80 x3f x00 x00 x80 x3f)
(T (W x00 x00 x00 x00 x00 x00 x00 x00)
(L (W x00 x00 x00 x00 x00 x00 x00 x00))
(L (W x02 x7e xff xff x78 x00 x00 x00)))
(T (W x00 x00 x00 x00 x00 x00 x00 x00)
(L (W x00 x00 x00 x00 x38 xfb xfe xff))
(L (W x00 x00 x10 x00 x14 x00 x18 x00)))))
(T (W xff xff xff xff xff xff xff xff)
(T (W x18 x00 x00 x00 x10 x00 x00 x00)
(T (W xc0 x59 xfd xff x00 x01 x01 x01)
(L (W x00 x00 x00 x00 x00 x00 x00 x00))
(L (W x00 x00 x80 xbf x00 x00 x80 xbf)))
(T (W x00 x00 x00 x00 x00 x00 x00 x00)
(L (W x00 x00 x00 x00 x00 x00 x00 x00))
(L (W x00 x00 x00 x00 x00 x00 x00 x00))))
(T (W x02 x1e xfd xff x78 x00 x00 x00)
(T (W x02 xc9 xfd xff x9c x01 x00 x00)
(L (W x00 x00 x80 x3f x00 x00 x80 x3f))
(L (W x00 x00 x80 xbf x00 x00 x80 xbf)))
(T (W x00 x00 x80 x3f x00 x00 x80 x3f)
(L (W x00 x00 x00 x00 x38 x1b xff xff)) E)))))))
(T (W xc0 x23 xfc xff x00 x01 x01 x01)
(T (W x00 x00 x00 x00 x00 x00 x00 x00)
(T (W x00 x00 x00 x00 x00 x00 x00 x00)
(T (W xff xff xff xff xff xff xff xff)
(T (W xff xff xff xff xff xff xff xff)
(T (W xba xb7 xfc xff x74 x00 x00 x00)
(T (W x00 x00 x00 x00 x00 x00 x00 x00)
(L (W x00 x00 x00 x00 x00 x00 x00 x00))
(L (W x00 x00 x80 xbf x00 x00 x80 xbf)))
(T (W x01 x00 x00 x00 xff xff xff xff)
(L (W xff xff xff xff xc0 x00 x00 x00))
(L (W x49 xa1 x68 x4a xeb x5f xdd x3d))))
(T (W x45 x26 x22 x84 xe4 x9c xf2 xcb)
(T (W x00 x00 x80 x3f x00 x00 x80 x3f)
(L (W x00 x00 x01 x01 x2a x00 x00 x00))
(L (W x45 x26 x22 x84 xe4 x9c xf2 xcb)))
(T (W x00 x00 x00 x00 x00 x00 x00 x00)
(L (W x00 x00 x00 x00 x00 x00 x00 x00))
(L (W x00 x00 x00 x00 x0a xdf xff xff)))))
(T (W x45 x26 x22 x84 xe4 x9c xf2 xcb)
(T (W x00 x00 x80 x3f x00 x00 x80 x3f)
(T (W x00 x00 x80 x3f x00 x00 x80 x3f)
(L (W x30 x00 x00 x00 x10 x00 x00 x00))
(L (W xff xff xff xff xff xff xff xff)))
(T (W x00 x00 x80 x3f x00 x00 x80 x3f)
(L (W x00 x00 x80 xbf x00 x00 x80 xbf))
(L (W x3c x00 x00 x00 x00 x00 x80 xbf))))
(T (W x00 x00 x80 x3f x00 x00 x80 x3f)
(T (W x00 x00 x00 x00 x00 x00 x00 x00)
(L (W x00 x00 x00 x00 x00 x00 x00 x00))
(L (W x00 x00 x80 xbf x00 x00 x80 xbf)))
(T (W xff xff xff xff xff xff xff xff)
(L (W x00 x00 x00 x00 x00 x00 x00 x00))
(L (W xff xff xff xff xff xff xff xff))))))
(T (W x00 x00 x00 x00 x00 x00 x00 x00)
(T (W xff xff xff xff xff xff xff xff)
(T (W x00 x00 x80 x3f x00 x00 x80 x3f)
(T (W x00 x00 x00 x00 x00 x00 x00 x00)
(L (W x00 x00 x80 x3f x00 x00 x80 x3f))
(L (W x6c x00 x00 x00 x60 x00 x00 x00)))
(T (W x00 x00 x00 x00 x00 x00 x00 x00)
(L (W x00 x00 x80 x3f x00 x00 x80 x3f))
(L (W x00 x00 x80 xbf x00 x00 x80 xbf))))
(T (W x45 x26 x22 x84 xe4 x9c xf2 xcb)
(T (W xb0 x00 x00 x00 x64 x00 x00 x00)
(L (W xff xff xff xff xff xff xff xff))
(L (W x00 x00 x00 x00 x00 x00 x00 x00)))
(T (W x00 x00 x00 x00 x00 x00 x00 x00)
(L (W x4f x84 x6f x8b xe8 xcb x63 xb7))
(L (W x3c x00 x40 x00 x44 x00 x48 x00)))))
(T (W x0a x00 x00 x00 x1b x00 x00 x00)
(T (W x54 x00 x00 x00 x48 x00 x00 x00)
(T (W x45 x26 x22 x84 xe4 x9c xf2 xcb)
(L (W x5f x43 x41 x4e x4e x4f x54 x5f))
(L (W x00 x00 x00 x00 x12 x56 xff xff)))
(T (W xff xff xff xff xff xff xff xff)
(L (W xff xff xff xff xbc x00 x00 x00))
(L (W xff xff xff xff xff xff xff xff))))
(T (W x45 x26 x22 x84 xe4 x9c xf2 xcb)
(T (W x6c x00 x00 x00 x60 x00 x00 x00)
(L (W x00 x00 x00 x00 x00 x00 x00 x00))
(L (W x00 x00 x80 xbf x00 x00 x80 xbf)))
(T (W x00 x00 x80 x3f x00 x00 x80 x3f)
(L (W x00 x00 x80 xbf x00 x00 x80 xbf)) E)))))
(T (W x01 x00 x00 x00 x04 x00 x00 x00)
(T (W x6a xfc xfd xff x00 x00 x01 x01)
(T (W xff xff xff xff xff xff xff xff)
(T (W xc0 xa7 xfc xff x00 x01 x01 x01)
(T (W x00 x00 x00 x00 x00 x00 x00 x00)
(L (W x00 x00 x80 x3f x00 x00 x80 x3f))
(L (W x00 x00 x80 xbf x00 x00 x80 xbf)))
(T (W x00 x00 x00 x00 x00 x00 x00 x00)
(L (W x28 x00 x00 x00 x2b x00 x00 x00))
(L (W x00 x00 x80 xbf x00 x00 x80 xbf))))
(T (W x00 x00 x00 x00 x00 x00 x00 x00)
(T (W x02 x6c xfd xff x78 x00 x00 x00)
(L (W xff xff xff xff xbc x00 x00 x00))
(L (W x45 x44 x00 x00 x00 x00 x00 x00)))
(T (W x00 x00 x00 x00 x02 x00 x00 x00)
(L (W x00 x00 x00 x00 x00 x00 x00 x00))
(L (W xff xff xff xff xff xff xff xff)))))
(T (W x01 x00 x00 x00 x9c x00 x00 x00)
(T (W x00 x00 x80 x3f x00 x00 x80 x3f)
(T (W x00 x00 x00 x00 x0d x00 x00 x00)
(L (W xff xff xff xff xff xff xff xff))
(L (W x00 x00 x00 x00 x00 x00 x00 x00)))
(T (W x45 x26 x22 x84 xe4 x9c xf2 xcb)
(L (W xc0 xc7 xfe xff x00 x01 x01 x01))
(L (W x6c x00 x00 x00 x60 x00 x00 x00))))
(T (W xba x1f xfd xff x74 x00 x00 x00)
(T (W x45 x26 x22 x84 xe4 x9c xf2 xcb)
(L (W xa8 x00 x00 x00 x64 x00 x00 x00))
(L (W x00 x00 x80 xbf x00 x00 x80 xbf)))
(T (W xff xff xff xff xff xff xff xff)
(L (W x00 x00 x80 xbf x00 x00 x80 xbf)) E))))
(T (W x20 x01 x00 x00 x04 x00 x00 x00)
(T (W xb8 x00 x00 x00 xac x00 x00 x00)
(T (W x00 x00 x80 x3f x00 x00 x80 x3f)
(T (W x00 x00 x00 x00 x00 x00 x00 x00)
(L (W x00 x00 x80 x3f x00 x00 x80 x3f))
(L (W xbc x00 x00 x00 x32 x00 x00 x00)))
(T (W x00 x00 x80 x3f x00 x00 x80 x3f)
(L (W x00 x00 x80 x3f x00 x00 x80 x3f))
(L (W x50 x00 x00 x00 x44 x00 x00 x00))))
(T (W x45 x26 x22 x84 xe4 x9c xf2 xcb)
(T (W xff xff xff xff xff xff xff xff)
(L (W xff xff xff xff xff xff xff xff))
(L (W x00 x00 x00 x00 x00 x00 x00 x00)))
(T (W x18 x01 x00 x00 x04 x00 x00 x00)
(L (W x00 x00 x80 xbf x00 x00 x80 xbf))
(L (W x00 x00 x80 xbf x00 x00 x80 xbf)))))
(T (W xc0 x00 x00 x00 xb4 x00 x00 x00)
(T (W x00 x00 x80 x3f x00 x00 x80 x3f)
(T (W x00 x00 x80 x3f x00 x00 x80 x3f)
(L (W xff xff xff xff xff xff xff xff))
(L (W x45 x44 x00 x00 x00 x00 x00 x00)))
(T (W x00 x00 x01 x01 xd6 x00 x00 x00)
(L (W xff xff xff xff xff xff xff xff))
(L (W x45 x26 x22 x84 xe4 x9c xf2 xcb))))
(T (W x00 x00 x00 x00 x00 x00 x00 x00)
(T (W xff xff xff xff xff xff xff xff)
(L (W x6b x65 x5f x6f x79 x61 x62 x75))
(L (W xff xff xff xff xff xff xff xff)))
(T (W x00 x00 x00 x00 x00 x00 x00 x00)
(L (W x00 x00 x80 xbf x00 x00 x80 xbf)) E))))))
(T (W x68 x00 x00 x00 x5c x00 x00 x00)
(T (W x00 x00 x80 x3f x00 x00 x80 x3f)
(T (W x02 x48 xfc xff x78 x00 x00 x00)
(T (W x00 x00 x80 x3f x00 x00 x80 x3f)
(T (W xfa x56 xfe xff x63 x01 x00 x00)
(T (W xb8 x00 x00 x00 xac x00 x00 x00)
(L (W xff xff xff xff xff xff xff xff))
(L (W xff xff xff xff xff xff xff xff)))
(T (W x00 x00 x80 x3f x00 x00 x80 x3f)
(L (W x45 x26 x22 x84 xe4 x9c xf2 xcb))
(L (W xcc x00 x00 x00 x02 x00 x00 x00))))
(T (W x23 x00 x00 x00 xff xff xff xff)
(T (W x2b x01 x00 x00 xff xff xff xff)
(L (W x45 x26 x22 x84 xe4 x9c xf2 xcb))
(L (W x14 x00 x00 x00 x0c x00 x00 x00)))
(T (W xc0 xe3 xfd xff x00 x01 x01 x01)
(L (W x54 x00 x00 x00 x48 x00 x00 x00))
(L (W xff xff xff xff xff xff xff xff)))))
(T (W x00 x00 x00 x00 x00 x00 x00 x00)
(T (W xd8 x01 x00 x00 xff xff xff xff)
(T (W x68 x00 x00 x00 x5c x00 x00 x00)
(L (W x00 x00 x80 x3f x00 x00 x80 x3f))
(L (W x00 x00 x80 xbf x00 x00 x80 xbf)))
(T (W x00 x00 x00 x00 x00 x00 x00 x00)
(L (W x00 x00 x00 x00 x00 x00 x00 x00))
(L (W xff xff xff xff xff xff xff xff))))
(T (W x64 x00 x00 x00 x9c x00 x00 x00)
(T (W xff xff xff xff xff xff xff xff)
(L (W x04 x00 x00 x00 x9a x84 xfe xff))
(L (W x45 x44 x00 x00 x00 x00 x00 x00)))
(T (W x00 x00 x80 x3f x00 x00 x80 x3f)
(L (W xff xff xff xff xff xff xff xff))
(L (W x00 x00 x00 x00 x00 x00 x00 x00))))))
(T (W x00 x00 x80 x3f x00 x00 x80 x3f)
(T (W x00 x00 x80 x3f x00 x00 x80 x3f)
(T (W x00 x00 x00 x00 x00 x00 x00 x00)
(T (W x45 x26 x22 x84 xe4 x9c xf2 xcb)
(L (W xff xff xff xff xff xff xff xff))
(L (W x00 x00 x00 x00 x00 x00 x00 x00)))
(T (W xff xff xff xff xff xff xff xff)
(L (W xff xff xff xff xff xff xff xff))
(L (W x00 x00 x01 x01 x6f x00 x00 x00))))
(T (W xff xff xff xff xff xff xff xff)
(T (W x49 xa1 x68 x4a xeb x5f xdd x3d)
(L (W x00 x00 x00 x00 x00 x00 x00 x00))
(L (W xff xff xff xff x94 x00 x00 x00)))
(T (W xba x0b xfe xff x74 x00 x00 x00)
(L (W xff xff xff xff xff xff xff xff))
(L (W xff xff xff xff xff xff xff xff)))))
(T (W x00 x00 x00 x00 x00 x00 x00 x00)
(T (W xff xff xff xff xff xff xff xff)
(T (W xff xff xff xff xff xff xff xff)
(L (W x00 x00 x00 x00 x00 x00 x00 x00))
(L (W x00 x00 x80 xbf x00 x00 x80 xbf)))
(T (W x00 x00 x80 x3f x00 x00 x80 x3f)
(L (W x00 x00 x80 xbf x00 x00 x80 xbf))
(L (W xff xff xff xff xff xff xff xff))))
(T (W xff xff xff xff xff xff xff xff)
(T (W x00 x00 x00 x00 x00 x00 x00 x00)
(L (W x00 x00 x00 x00 x00 x00 x00 x00))
(L (W xff xff xff xff xff xff xff xff)))
(T (W xff xff xff xff xff xff xff xff)
(L (W x3c x02 x00 x00 x30 x01 x00 x00)) E)))))
(T (W x68 x00 x00 x00 x5c x00 x00 x00)
(T (W x00 x00 x80 x3f x00 x00 x80 x3f)
(T (W x00 x00 x80 x3f x00 x00 x80 x3f)
(T (W x00 x00 x00 x00 x00 x00 x00 x00)
(T (W xff xff xff xff x04 x00 x00 x00)
(L (W xff xff xff xff xff xff xff xff))
(L (W xcf x00 x00 x00 xff xff xff xff)))
(T (W xc0 xab xfd xff x00 x01 x01 x01)
(L (W xff xff xff xff xff xff xff xff))
(L (W xff xff xff xff xff xff xff xff))))
(T (W xff xff xff xff xff xff xff xff)
(T (W x00 x00 x00 x00 x00 x00 x00 x00)
(L (W x00 x00 x00 x00 x00 x00 x00 x00))
(L (W xcc x00 x00 x00 x01 x00 x00 x00)))
(T (W x00 x00 x80 x3f x00 x00 x80 x3f)
(L (W xff xff xff xff x9c x00 x00 x00))
(L (W x00 x00 x80 xbf x00 x00 x80 xbf)))))
(T (W x00 x00 x00 x00 x00 x00 x00 x00)
(T (W xff xff xff xff xff xff xff xff)
(T (W xff xff xff xff xff xff xff xff)
(L (W xad x00 x00 x00 xff xff xff xff))
(L (W x00 x00 x80 xbf x00 x00 x80 xbf)))
(T (W x00 x00 x00 x00 x00 x00 x00 x00)
(L (W x00 x00 x00 x00 x00 x00 x00 x00))
(L (W xff xff xff xff xff xff xff xff))))
(T (W xff xff xff xff xff xff xff xff)
(T (W xff xff xff xff xff xff xff xff)
(L (W x00 x00 x00 x00 x38 x8d xfe xff))
(L (W x3c x02 x00 x00 x30 x01 x00 x00)))
(T (W x00 x00 x00 x00 x00 x00 x00 x00)
(L (W x00 x00 x00 x00 x12 x0e xff xff)) E))))
(T (W x45 x26 x22 x84 xe4 x9c xf2 xcb)
(T (W x00 x00 x00 x00 x00 x00 x00 x00)
(T (W x00 x00 x00 x00 x04 x00 x00 x00)
(T (W x68 x00 x00 x00 x5c x00 x00 x00)
(L (W x45 x26 x22 x84 xe4 x9c xf2 xcb))
(L (W x4f x84 x6f x8b xe8 xcb x63 xb7)))
(T (W xff xff xff xff xff xff xff xff)
(L (W xff xff xff xff xff xff xff xff))
(L (W x4b x00 x00 x00 xff xff xff xff))))
(T (W xff xff xff xff x04 x00 x00 x00)
(T (W x00 x00 x80 x3f x00 x00 x80 x3f)
(L (W x68 x00 x00 x00 x5c x00 x00 x00))
(L (W xff xff xff xff xff xff xff xff)))
(T (W x00 x00 x80 x3f x00 x00 x80 x3f)
(L (W xff xff xff xff xff xff xff xff))
(L (W x5c x00 x48 x00 x50 x00 x04 x00)))))
(T (W x35 xca x03 x75 xb1 xd3 x11 x74)
(T (W xff xff xff xff xff xff xff xff)
(T (W xff xff xff xff xff xff xff xff)
(L (W x00 x00 x80 xbf x00 x00 x80 xbf))
(L (W xff xff xff xff xb0 x00 x00 x00)))
(T (W x45 x26 x22 x84 xe4 x9c xf2 xcb)
(L (W x00 x00 x80 xbf x00 x00 x80 xbf))
(L (W x00 x00 x80 xbf x00 x00 x80 xbf))))
(T (W xff xff xff xff xff xff xff xff)
(T (W x00 x00 x80 x3f x00 x00 x80 x3f)
(L (W xff xff xff xff xff xff xff xff))
(L (W xff xff xff xff xff xff xff xff)))
(T (W x18 x00 x00 x00 x10 x00 x00 x00)
(L (W xff xff xff xff xff xff xff xff)) E))))))))
(T (W x20 xad x00 x00 xec xab x00 x00)
(T (W x00 x00 x80 x3f x00 x00 x80 x3f)
(T (W x04 x00 x00 x00 x54 x03 x00 x00)
(T (W xd3 x02 x00 x00 xff xff xff xff)
(T (W xff xff xff xff xff xff xff xff)
(T (W xff xff xff xff xff xff xff xff)
(T (W x54 x00 x00 x00 x48 x00 x00 x00)
(T (W x00 x00 x00 x00 x00 x00 x00 x00)
(L (W x09 xb0 x33 x97 x85 xa2 x5f x5f))
(L (W x00 x00 x80 xbf x00 x00 x80 xbf)))
(T (W xb0 x00 x00 x00 x28 x00 x00 x00)
(L (W x45 x26 x22 x84 xe4 x9c xf2 xcb))
(L (W x00 x00 x00 x00 x00 x00 x00 x00))))
(T (W x00 x00 x00 x00 x00 x00 x00 x00)
(T (W x00 x00 x80 x3f x00 x00 x80 x3f)
(L (W xff xff xff xff xff xff xff xff))
(L (W x00 x00 x00 x00 x00 x00 x00 x00)))
(T (W x04 x00 x00 x00 x32 xa4 xff xff)
(L (W xff xff xff xff xff xff xff xff))
(L (W xff xff xff xff xff xff xff xff)))))
(T (W xc0 x7e xfc xff x00 x01 x01 x01)
(T (W x00 x00 x80 x3f x00 x00 x80 x3f)
(T (W x64 x00 x08 x00 x00 x00 x00 x00)
(L (W xff xff xff xff xff xff xff xff))
(L (W x45 x26 x22 x84 xe4 x9c xf2 xcb)))
(T (W x4f x84 x6f x8b xe8 xcb x63 xb7)
(L (W x49 xa1 x68 x4a xeb x5f xdd x3d))
(L (W x00 x00 x80 xbf x00 x00 x80 xbf))))
(T (W x00 x00 x00 x00 x00 x00 x00 x00)
(T (W xff xff xff xff xff xff xff xff)
(L (W x5c x85 xfe xff x28 x00 x00 x00))
(L (W x00 x00 x80 xbf x00 x00 x80 xbf)))
(T (W xff xff xff xff xff xff xff xff)
(L (W x00 x00 x00 x00 x00 x00 x00 x00))
(L (W x00 x00 x80 xbf x00 x00 x80 xbf))))))
(T (W xff xff xff xff xff xff xff xff)
(T (W x45 x26 x22 x84 xe4 x9c xf2 xcb)
(T (W x45 x26 x22 x84 xe4 x9c xf2 xcb)
(T (W x00 x00 x00 x00 x00 x00 x00 x00)
(L (W x00 x00 x00 x00 x00 x00 x00 x00))
(L (W x00 x00 x80 xbf x00 x00 x80 xbf)))
(T (W x45 x44 x00 x00 x00 x00 x00 x00)
(L (W x49 xa1 x68 x4a xeb x5f xdd x3d))
(L (W x45 x26 x22 x84 xe4 x9c xf2 xcb))))
(T (W x00 x00 x00 x00 x00 x00 x00 x00)
(T (W xc0 x6e xfd xff x00 x01 x01 x01)
(L (W x23 x00 x00 x00 x26 x00 x00 x00))
(L (W x30 x34 x5f x43 x4c x45 x41 x52)))
(T (W x18 x01 x00 x00 x04 x00 x00 x00)
(L (W x00 x00 x00 x00 x00 x00 x00 x00))
(L (W xff xff xff xff xff xff xff xff)))))
(T (W x18 x00 x00 x00 x0c x00 x00 x00)
(T (W x45 x26 x22 x84 xe4 x9c xf2 xcb)
(T (W x00 x00 x00 x00 x00 x00 x00 x00)
(L (W xff xff xff xff xff xff xff xff))
(L (W x2a x00 x00 x00 xff xff xff xff)))
(T (W xc8 x00 x00 x00 x01 x00 x00 x00)
(L (W x45 x26 x22 x84 xe4 x9c xf2 xcb))
(L (W x45 x26 x22 x84 xe4 x9c xf2 xcb))))
(T (W x00 x00 x00 x00 x00 x00 x00 x00)
(T (W x00 x00 x80 x3f x00 x00 x80 x3f)
(L (W x67 x72 x6f x75 x70 x5f x6c x65))
(L (W x4f x84 x6f x8b xe8 xcb x63 xb7)))
(T (W x00 x00 x00 x00 x00 x00 x00 x00)
(L (W x45 x26 x22 x84 xe4 x9c xf2 xcb)) E)))))
(T (W xff xff xff xff xff xff xff xff)
(T (W xff xff xff xff xff xff xff xff)
(T (W xb8 x00 x00 x00 xac x00 x00 x00)
(T (W x00 x00 x80 x3f x00 x00 x80 x3f)
(T (W x00 x00 x00 x00 x00 x00 x00 x00)
(L (W x00 x00 x80 x3f x00 x00 x80 x3f))
(L (W x00 x00 x00 x00 x00 x00 x00 x00)))
(T (W xff xff xff xff xff xff xff xff)
(L (W x49 xa1 x68 x4a xeb x5f xdd x3d))
(L (W x00 x00 x00 x00 x00 x00 x00 x00))))
(T (W x00 x00 x00 x00 x00 x00 x00 x00)
(T (W x00 x00 x80 x3f x00 x00 x80 x3f)
(L (W x45 x26 x22 x84 xe4 x9c xf2 xcb))
(L (W xff xff xff xff xff xff xff xff)))
(T (W xff xff xff xff xff xff xff xff)
(L (W x02 x16 xff xff xd7 x00 x00 x00))
(L (W xc4 x00 x00 x00 x01 x00 x00 x00)))))
(T (W x45 x26 x22 x84 xe4 x9c xf2 xcb)
(T (W x00 x00 x80 x3f x00 x00 x80 x3f)
(T (W x00 x00 x00 x01 xce x01 x00 x00)
(L (W xff xff xff xff xff xff xff xff))
(L (W xff xff xff xff xff xff xff xff)))
(T (W x68 x00 x00 x00 x5c x00 x00 x00)
(L (W x00 x00 x80 xbf x00 x00 x80 xbf))
(L (W x00 x00 x80 xbf x00 x00 x80 xbf))))
(T (W x00 x00 x00 x00 x00 x00 x00 x00)
(T (W x00 x00 x00 x00 x00 x00 x00 x00)
(L (W x50 x00 x00 x00 x44 x00 x00 x00))
(L (W x00 x00 x00 x00 x00 x00 x00 x00)))
(T (W x00 x00 x00 x00 x38 x08 xfe xff)
(L (W x00 x00 x00 x00 x00 x00 x00 x00)) E))))
(T (W xff xff xff xff xff xff xff xff)
(T (W x68 x00 x00 x00 x5c x00 x00 x00)
(T (W x00 x00 x00 x00 x00 x00 x00 x00)
(T (W xfb x4e xe1 x6b x0c x74 x80 xe6)
(L (W x00 x00 x80 x3f x00 x00 x80 x3f))
(L (W xc0 x36 xff xff x00 x01 x01 x01)))
(T (W x00 x00 x00 x00 x00 x00 x00 x00)
(L (W x00 x00 x00 x00 x00 x00 x00 x00))
(L (W x00 x00 x80 xbf x00 x00 x80 xbf))))
(T (W x00 x00 x00 x00 x00 x00 x00 x00)
(T (W xff xff xff xff xbc x00 x00 x00)
(L (W x18 x00 x00 x00 x0c x00 x00 x00))
(L (W x00 x00 x00 x00 x00 x00 x00 x00)))
(T (W xff xff xff xff xff xff xff xff)
(L (W x4f x84 x6f x8b xe8 xcb x63 xb7))
(L (W x00 x00 x80 xbf x00 x00 x80 xbf)))))
(T (W x00 x00 x80 x3f x00 x00 x80 x3f)
(T (W x00 x00 x00 x00 x00 x00 x00 x00)
(T (W x00 x00 x00 x00 x00 x00 x00 x00)
(L (W xff xff xff xff xff xff xff xff))
(L (W xff xff xff xff xff xff xff xff)))
(T (W xff xff xff xff xff xff xff xff)
(L (W xff xff xff xff xff xff xff xff))
(L (W x00 x00 x00 x00 x00 x00 x00 x00))))
(T (W x04 x22 xfd xff x3c x00 x00 x00)
(T (W x18 x00 x00 x00 x0c x00 x00 x00)
(L (W x18 x00 x00 x00 x0c x00 x00 x00))
(L (W x00 x00 x00 x00 x00 x00 x00 x00)))
(T (W x00 x00 x00 x00 x00 x00 x00 x00)
(L (W x4f x84 x6f x8b xe8 xcb x63 xb7)) E))))))
(T (W x00 x00 x80 x3f x00 x00 x80 x3f)
(T (W x00 x00 x80 x3f x00 x00 x80 x3f)
(T (W x00 x00 x80 x3f x00 x00 x80 x3f)
(T (W x45 x26 x22 x84 xe4 x9c xf2 xcb)
(T (W xff xff xff xff xff xff xff xff)
(T (W x18 x00 x00 x00 x0c x00 x00 x00)
(L (W x00 x00 x80 x3f x00 x00 x80 x3f))
(L (W xff xff xff xff xff xff xff xff)))
(T (W x49 xa1 x68 x4a xeb x5f xdd x3d)
(L (W x00 x00 x80 x3f x00 x00 x80 x3f))
(L (W x45 x26 x22 x84 xe4 x9c xf2 xcb))))
(T (W xff xff xff xff x03 x00 x00 x00)
(T (W xff xff xff xff xff xff xff xff)
(L (W x00 x00 x00 x00 x00 x00 x00 x00))
(L (W x00 x01 x01 x01 x7a x5f xff xff)))
(T (W x00 x00 x80 x3f x00 x00 x80 x3f)
(L (W x00 x00 x80 xbf x00 x00 x80 xbf))
(L (W x00 x00 x80 xbf x00 x00 x80 xbf)))))
(T (W x00 x00 x00 x00 x00 x00 x00 x00)
(T (W xff xff xff xff xff xff xff xff)
(T (W x00 x00 x80 x3f x00 x00 x80 x3f)
(L (W x00 x00 x80 x3f x00 x00 x80 x3f))
(L (W x4f x84 x6f x8b xe8 xcb x63 xb7)))
(T (W xff xff xff xff xff xff xff xff)
(L (W xff xff xff xff xff xff xff xff))
(L (W xff xff xff xff xc0 x00 x00 x00))))
(T (W x00 x00 x80 x3f x00 x00 x80 x3f)
(T (W x00 x00 x00 x00 x38 x84 xfd xff)
(L (W xff xff xff xff xff xff xff xff))
(L (W xff xff xff xff xff xff xff xff)))
(T (W x00 x00 x00 x00 x00 x00 x00 x00)
(L (W xff xff xff xff xff xff xff xff))
(L (W xff xff xff xff xff xff xff xff))))))
(T (W x00 x00 x00 x00 x00 x00 x00 x00)
(T (W x00 x00 x00 x00 x00 x00 x00 x00)
(T (W x7d x00 x00 x00 xff xff xff xff)
(T (W x00 x00 x80 x3f x00 x00 x80 x3f)
(L (W x18 x00 x00 x00 x10 x00 x00 x00))
(L (W x00 x00 x00 x00 x00 x00 x00 x00)))
(T (W x18 x00 x00 x00 x0c x00 x00 x00)
(L (W xff xff xff xff xff xff xff xff))
(L (W xff xff xff xff xff xff xff xff))))
(T (W x18 x00 x00 x00 x0c x00 x00 x00)
(T (W x00 x00 x00 x00 x00 x00 x00 x00)
(L (W x00 x00 x00 x00 x00 x00 x00 x00))
(L (W x00 x01 x01 x01 x32 x71 xff xff)))
(T (W x00 x00 x80 x3f x00 x00 x80 x3f)
(L (W x18 x00 x00 x00 x10 x00 x00 x00))
(L (W x03 x00 x00 x00 xd8 x00 x00 x00)))))
(T (W xdd x01 x00 x00 xff xff xff xff)
(T (W xff xff xff xff xff xff xff xff)
(T (W x03 x00 x00 x00 xcc x00 x00 x00)
(L (W x46 x53 x59 x53 x5f x4e x53 x5f))
(L (W x00 x00 x80 xbf x00 x00 x80 xbf)))
(T (W x00 x00 x00 x00 x00 x00 x00 x00)
(L (W x00 x00 x00 x00 x00 x00 x00 x00))
(L (W xcc x00 x00 x00 x01 x00 x00 x00))))
(T (W xff xff xff xff xff xff xff xff)
(T (W x00 x00 x00 x00 x00 x00 x00 x00)
(L (W x6b x65 x5f x6f x79 x61 x62 x75))
(L (W x1d x00 x00 x00 x20 x00 x00 x00)))
(T (W x45 x26 x22 x84 xe4 x9c xf2 xcb)
(L (W xff xff xff xff xff xff xff xff)) E)))))
(T (W x00 x00 x80 x3f x00 x00 x80 x3f)
(T (W x45 x26 x22 x84 xe4 x9c xf2 xcb)
(T (W x45 x26 x22 x84 xe4 x9c xf2 xcb)
(T (W xff xff xff xff xff xff xff xff)
(T (W x68 x00 x00 x00 x5c x00 x00 x00)
(L (W xff xff xff xff xff xff xff xff))
(L (W xff xff xff xff xff xff xff xff)))
(T (W x54 x00 x00 x00 x48 x00 x00 x00)
(L (W x54 x00 x00 x00 x48 x00 x00 x00))
(L (W xff xff xff xff xff xff xff xff))))
(T (W xff xff xff xff xff xff xff xff)
(T (W x00 x00 x00 x00 x0a x6a xfd xff)
(L (W x00 x00 x00 x00 x00 x00 x00 x00))
(L (W x45 x26 x22 x84 xe4 x9c xf2 xcb)))
(T (W x00 x00 x80 x3f x00 x00 x80 x3f)
(L (W x02 xef xfe xff x78 x00 x00 x00))
(L (W x45 x26 x22 x84 xe4 x9c xf2 xcb)))))
(T (W x46 xf0 xcb x0f xd1 x25 xaa xe4)
(T (W xff xff xff xff xff xff xff xff)
(T (W xff xff xff xff x9c x00 x00 x00)
(L (W x00 x00 x00 x00 x00 x00 x00 x00))
(L (W x00 x00 x80 xbf x00 x00 x80 xbf)))
(T (W x5f x4e x53 x5f x30 x34 x5f x43)
(L (W x00 x00 x00 x00 x00 x00 x00 x00))
(L (W xcc x00 x00 x00 x01 x00 x00 x00))))
(T (W x0a x00 x00 x00 x3e x00 x00 x00)
(T (W xff xff xff xff xff xff xff xff)
(L (W x00 x00 x80 x3f x00 x00 x80 x3f))
(L (W xff xff xff xff xc4 x00 x00 x00)))
(T (W x00 x00 x00 x00 x00 x00 x00 x00)
(L (W xff xff xff xff xff xff xff xff)) E))))
(T (W x00 x00 x00 x00 x00 x00 x00 x00)
(T (W x00 x00 x00 x00 x00 x00 x00 x00)
(T (W xff xff xff xff xff xff xff xff)
(T (W x00 x00 x80 x3f x00 x00 x80 x3f)
(L (W x40 x00 x44 x00 x48 x00 x4c x00))
(L (W x04 x46 xff xff x1d x00 x00 x00)))
(T (W xff xff xff xff x9c x00 x00 x00)
(L (W xff xff xff xff xc8 x00 x00 x00))
(L (W xff xff xff xff xff xff xff xff))))
(T (W xba x12 xfd xff x74 x00 x00 x00)
(T (W x00 x00 x80 x3f x00 x00 x80 x3f)
(L (W x00 x00 x80 xbf x00 x00 x80 xbf))
(L (W xff xff xff xff x9c x00 x00 x00)))
(T (W x00 x00 x80 x3f x00 x00 x80 x3f)
(L (W xff xff xff xff xff xff xff xff))
(L (W x00 x00 x80 xbf x00 x00 x80 xbf)))))
(T (W xff xff xff xff xff xff xff xff)
(T (W xff xff xff xff xff xff xff xff)
(T (W xb8 x00 x00 x00 x64 x00 x00 x00)
(L (W x45 x26 x22 x84 xe4 x9c xf2 xcb))
(L (W x02 x5f xff xff x78 x00 x00 x00)))
(T (W x00 x00 x80 x3f x00 x00 x80 x3f)
(L (W x00 x00 x00 x00 x00 x00 x00 x00))
(L (W x49 xa1 x68 x4a xeb x5f xdd x3d))))
(T (W x45 x26 x22 x84 xe4 x9c xf2 xcb)
(T (W x00 x00 x00 x00 x00 x00 x00 x00)
(L (W x68 x00 x00 x00 x5c x00 x00 x00))
(L (W xff xff xff xff xb0 x00 x00 x00)))
(T (W x45 x26 x22 x84 xe4 x9c xf2 xcb)
(L (W x15 x00 x00 x00 x18 x00 x00 x00)) E)))))))
(T (W xff xff xff xff xff xff xff xff)
(T (W x45 x26 x22 x84 xe4 x9c xf2 xcb)
(T (W x45 x26 x22 x84 xe4 x9c xf2 xcb)
(T (W x04 x4c xfc xff x3e x00 x00 x00)
(T (W x41 xa4 x24 x44 xe3 x38 x6b xa2)
(T (W xff xff xff xff xff xff xff xff)
(T (W x45 x26 x22 x84 xe4 x9c xf2 xcb)
(L (W x00 x00 x00 x00 x00 x00 x00 x00))
(L (W x00 x00 x00 x00 x38 x22 xff xff)))
(T (W x4c x45 x41 x52 x45 x44 x00 x00)
(L (W xff xff xff xff xff xff xff xff))
(L (W x00 x00 x80 xbf x00 x00 x80 xbf))))
(T (W x00 x00 x80 x3f x00 x00 x80 x3f)
(T (W x54 x00 x00 x00 x48 x00 x00 x00)
(L (W x30 x34 x5f x43 x4c x45 x41 x52))
(L (W x00 x00 x80 xbf x00 x00 x80 xbf)))
(T (W x00 x00 x00 x00 x00 x00 x00 x00)
(L (W x00 x00 x00 x00 x00 x00 x00 x00))
(L (W x00 x00 x00 x00 x00 x00 x00 x00)))))
(T (W xff xff xff xff xff xff xff xff)
(T (W xba xd8 xfc xff x74 x00 x00 x00)
(T (W x24 x00 x00 x00 xff xff xff xff)
(L (W x00 x00 x00 x00 x00 x00 x00 x00))
(L (W xff xff xff xff xff xff xff xff)))
(T (W xff xff xff xff xac x00 x00 x00)
(L (W x6c x00 x00 x00 x60 x00 x00 x00))
(L (W x6c x00 x00 x00 x60 x00 x00 x00))))
(T (W x00 x00 x80 x3f x00 x00 x80 x3f)
(T (W x00 x00 x00 x00 x00 x00 x00 x00)
(L (W x00 x00 x80 xbf x00 x00 x80 xbf))
(L (W x02 x85 xff xff x78 x00 x00 x00)))
(T (W x18 x01 x00 x00 x04 x00 x00 x00)
(L (W x00 x00 x80 xbf x00 x00 x80 xbf))
(L (W x64 x00 x08 x00 x00 x00 x00 x00))))))
(T (W x00 x00 x00 x00 x00 x00 x00 x00)
(T (W x6a x25 xfe xff x00 x00 x01 x01)
(T (W x01 x00 x00 x00 xa0 x00 x00 x00)
(T (W x00 x00 x00 x00 x00 x00 x00 x00)
(L (W x00 x00 x80 x3f x00 x00 x80 x3f))
(L (W x18 x00 x00 x00 x10 x00 x00 x00)))
(T (W x4f x84 x6f x8b xe8 xcb x63 xb7)
(L (W x02 xb5 xfe xff x78 x00 x00 x00))
(L (W x50 x00 x00 x00 x44 x00 x00 x00))))
(T (W x45 x26 x22 x84 xe4 x9c xf2 xcb)
(T (W xff xff xff xff xff xff xff xff)
(L (W xff xff xff xff xff xff xff xff))
(L (W x00 x00 x80 xbf x00 x00 x80 xbf)))
(T (W x00 x00 x00 x00 x00 x00 x00 x00)
(L (W x00 x00 x80 xbf x00 x00 x80 xbf))
(L (W x00 x00 x00 x00 x00 x00 x00 x00)))))
(T (W xff xff xff xff xff xff xff xff)
(T (W xba xe8 xfc xff x74 x00 x00 x00)
(T (W x00 x00 x80 x3f x00 x00 x80 x3f)
(L (W xff xff xff xff xff xff xff xff))
(L (W x00 x00 x00 x00 x12 x00 x00 x00)))
(T (W x01 x00 x00 x00 xff xff xff xff)
(L (W xff xff xff xff xff xff xff xff))
(L (W x74 x00 x04 x00 x68 x00 x08 x00))))
(T (W x00 x00 x80 x3f x00 x00 x80 x3f)
(T (W x18 x00 x00 x00 x10 x00 x00 x00)
(L (W x00 x00 x80 x3f x00 x00 x80 x3f))
(L (W x00 x00 x80 xbf x00 x00 x80 xbf)))
(T (W x00 x00 x80 x3f x00 x00 x80 x3f)
(L (W x02 x15 xff xff x78 x00 x00 x00)) E)))))
(T (W x00 x00 x00 x00 x00 x00 x00 x00)
(T (W x00 x00 x00 x00 x00 x00 x00 x00)
(T (W xb3 x01 x00 x00 xff xff xff xff)
(T (W x18 x00 x00 x00 x10 x00 x00 x00)
(T (W x00 x00 x00 x00 x00 x00 x00 x00)
(L (W x45 x26 x22 x84 xe4 x9c xf2 xcb))
(L (W x6c x00 x00 x00 x60 x00 x00 x00)))
(T (W x00 x00 x00 x00 x00 x00 x00 x00)
(L (W x00 x00 x01 x01 x87 x00 x00 x00))
(L (W x00 x00 x80 xbf x00 x00 x80 xbf))))
(T (W x00 x00 x80 x3f x00 x00 x80 x3f)
(T (W xff xff xff xff x9c x00 x00 x00)
(L (W xff xff xff xff xff xff xff xff))
(L (W x00 x00 x00 x00 x00 x00 x00 x00)))
(T (W x00 x00 x00 x00 x00 x00 x00 x00)
(L (W x00 x00 x80 xbf x00 x00 x80 xbf))
(L (W x00 x00 x00 x00 x00 x00 x00 x00)))))
(T (W xb8 x00 x00 x00 xac x00 x00 x00)
(T (W xc0 x00 x00 x00 xb4 x00 x00 x00)
(T (W x45 x26 x22 x84 xe4 x9c xf2 xcb)
(L (W x35 x00 x00 x00 x10 x00 x00 x00))
(L (W x00 x00 x00 x00 x00 x00 x00 x00)))
(T (W xff xff xff xff xbc x00 x00 x00)
(L (W xb0 x00 x00 x00 x64 x00 x00 x00))
(L (W x00 x00 x00 x00 xc4 xc8 xff xff))))
(T (W x50 x00 x54 x00 x58 x00 x00 x00)
(T (W x54 x00 x00 x00 x48 x00 x00 x00)
(L (W xff xff xff xff xff xff xff xff))
(L (W x54 x00 x00 x00 x48 x00 x00 x00)))
(T (W xff xff xff xff xff xff xff xff)
(L (W x00 x00 x80 xbf x00 x00 x80 xbf)) E))))
(T (W x00 x00 x00 x00 x00 x00 x00 x00)
(T (W xff xff xff xff xff xff xff xff)
(T (W xc0 xb8 xfc xff x00 x01 x01 x01)
(T (W x45 x26 x22 x84 xe4 x9c xf2 xcb)
(L (W xc0 x38 xfe xff x00 x01 x01 x01))
(L (W xff xff xff xff xff xff xff xff)))
(T (W x00 x00 x80 x3f x00 x00 x80 x3f)
(L (W x54 x00 x00 x00 x48 x00 x00 x00))
(L (W x03 x00 x00 x00 xc8 x00 x00 x00))))
(T (W x00 x00 x80 x3f x00 x00 x80 x3f)
(T (W x00 x00 x00 x00 x00 x00 x00 x00)
(L (W x00 x00 x00 x00 x01 x00 x00 x00))
(L (W x00 x00 x80 xbf x00 x00 x80 xbf)))
(T (W x00 x00 x00 x00 x00 x00 x00 x00)
(L (W x00 x00 x80 xbf x00 x00 x80 xbf))
(L (W x00 x00 x00 x00 x38 xfa xff xff)))))
(T (W xff xff xff xff xff xff xff xff)
(T (W xc0 xd8 xfc xff x00 x01 x01 x01)
(T (W x00 x00 x80 x3f x00 x00 x80 x3f)
(L (W x77 xd4 xae x42 xc4 x37 xb1 x7d))
(L (W x00 x00 x00 x00 x00 x00 x00 x00)))
(T (W x30 x34 x5f x43 x4c x45 x41 x52)
(L (W x00 x00 x00 x00 x00 x00 x00 x00))
(L (W x00 x00 x00 x00 x00 x00 x00 x00))))
(T (W x00 x00 x80 x3f x00 x00 x80 x3f)
(T (W xff xff xff xff xff xff xff xff)
(L (W x00 x00 x00 x00 x00 x00 x00 x00))
(L (W x7c x00 x08 x00 x70 x00 x0c x00)))
(T (W x00 x00 x80 x3f x00 x00 x80 x3f)
(L (W x00 x00 x80 xbf x00 x00 x80 xbf)) E))))))
(T (W xb8 x00 x00 x00 xac x00 x00 x00)
(T (W x45 x26 x22 x84 xe4 x9c xf2 xcb)
(T (W x45 x26 x22 x84 xe4 x9c xf2 xcb)
(T (W x00 x00 x80 x3f x00 x00 x80 x3f)
(T (W x00 x00 x00 x00 x00 x00 x00 x00)
(T (W xff xff xff xff xff xff xff xff)
(L (W xff xff xff xff xff xff xff xff))
(L (W x00 x00 x00 x00 x00 x00 x00 x00)))
(T (W xff xff xff xff xb0 x00 x00 x00)
(L (W xff xff xff xff xbc x00 x00 x00))
(L (W xff xff xff xff xff xff xff xff))))
(T (W x00 x00 x00 x00 x00 x00 x00 x00)
(T (W x00 x00 x00 x00 x00 x00 x00 x00)
(L (W x54 x00 x00 x00 x48 x00 x00 x00))
(L (W x27 x00 x00 x00 x2a x00 x00 x00)))
(T (W x45 x26 x22 x84 xe4 x9c xf2 xcb)
(L (W x18 x00 x00 x00 x10 x00 x00 x00))
(L (W x00 x00 x00 x00 x00 x00 x00 x00)))))
(T (W x45 x26 x22 x84 xe4 x9c xf2 xcb)
(T (W x00 x00 x00 x00 x00 x00 x00 x00)
(T (W xba x5c xfd xff x74 x00 x00 x00)
(L (W x18 x00 x00 x00 x0c x00 x00 x00))
(L (W x54 x00 x00 x00 x48 x00 x00 x00)))
(T (W x00 x00 x00 x00 x00 x00 x00 x00)
(L (W x00 x00 x00 x00 x00 x00 x00 x00))
(L (W xff xff xff xff xff xff xff xff))))
(T (W xff xff xff xff xff xff xff xff)
(T (W xff xff xff xff xff xff xff xff)
(L (W x00 x00 x00 x00 x00 x00 x00 x00))
(L (W x00 x00 x00 x00 x00 x00 x00 x00)))
(T (W x00 x00 x80 x3f x00 x00 x80 x3f)
(L (W x00 x00 x00 x00 x00 x00 x00 x00))
(L (W xd8 x00 x00 x00 x64 x00 x00 x00))))))
(T (W x68 x00 x00 x00 x5c x00 x00 x00)
(T (W x00 x00 x80 x3f x00 x00 x80 x3f)
(T (W x00 x00 x00 x00 x00 x00 x00 x00)
(T (W xff xff xff xff xff xff xff xff)
(L (W xff xff xff xff xff xff xff xff))
(L (W x00 x00 x00 x00 x00 x00 x00 x00)))
(T (W xff xff xff xff xff xff xff xff)
(L (W x00 x00 x01 x01 xdd x01 x00 x00))
(L (W x30 x34 x5f x43 x4c x45 x41 x52))))
(T (W xff xff xff xff xff xff xff xff)
(T (W x00 x00 x80 x3f x00 x00 x80 x3f)
(L (W x00 x00 x00 x00 x00 x00 x00 x00))
(L (W xff xff xff xff xff xff xff xff)))
(T (W x00 x00 x00 x00 x38 xf6 xfd xff)
(L (W x2b x01 x00 x00 xff xff xff xff))
(L (W x10 x00 x04 x00 x08 x00 x0c x00)))))
(T (W x00 x00 x00 x00 x00 x00 x00 x00)
(T (W xfa x87 xfe xff xc8 x00 x00 x00)
(T (W xff xff xff xff xff xff xff xff)
(L (W x00 x00 x80 xbf x00 x00 x80 xbf))
(L (W xcc x00 x00 x00 x01 x00 x00 x00)))
(T (W x00 x00 x80 x3f x00 x00 x80 x3f)
(L (W x00 x00 x00 x00 x38 xd6 xfe xff))
(L (W xff xff xff xff xff xff xff xff))))
(T (W xff xff xff xff xff xff xff xff)
(T (W x00 x00 x00 x00 x00 x00 x00 x00)
(L (W x00 x00 x80 x3f x00 x00 x80 x3f))
(L (W x02 x00 x00 x00 x30 x01 x00 x00)))
(T (W xff xff xff xff xff xff xff xff)
(L (W x00 x00 x00 x00 x12 x00 x00 x00)) E)))))
(T (W xff xff xff xff xff xff xff xff)
(T (W x18 x00 x00 x00 x0c x00 x00 x00)
(T (W x00 x00 x80 x3f x00 x00 x80 x3f)
(T (W x00 x00 x00 x00 x00 x00 x00 x00)
(T (W xff xff xff xff xff xff xff xff)
(L (W x3b xba x33 x97 x85 xa8 x5f x5f))
(L (W x00 x00 x00 x00 x00 x00 x00 x00)))
(T (W xb0 x00 x00 x00 x28 x00 x00 x00)
(L (W xff xff xff xff xff xff xff xff))
(L (W xed xfe xaf x28 xbf x5f x5d x6a))))
(T (W x48 x03 x00 x00 x34 x02 x00 x00)
(T (W x4f x84 x6f x8b xe8 xcb x63 xb7)
(L (W x45 x26 x22 x84 xe4 x9c xf2 xcb))
(L (W xff xff xff xff xff xff xff xff)))
(T (W xff xff xff xff xff xff xff xff)
(L (W xff xff xff xff xff xff xff xff))
(L (W x00 x00 x80 xbf x00 x00 x80 xbf)))))
(T (W x00 x00 x80 x3f x00 x00 x80 x3f)
(T (W x6f xcd xfd x95 xcc x13 x31 xdf)
(T (W xff xff xff xff xff xff xff xff)
(L (W x00 x00 x00 x00 x00 x00 x62 x00))
(L (W x00 x00 x00 x00 x38 x4e xff xff)))
(T (W x00 x00 x80 x3f x00 x00 x80 x3f)
(L (W x49 xa1 x68 x4a xeb x5f xdd x3d))
(L (W xbb xf4 xaf x28 xbf x59 x5d x6a))))
(T (W xff xff xff xff xff xff xff xff)
(T (W x04 x98 xfd xff x14 x00 x00 x00)
(L (W x28 x00 x00 x00 x2b x00 x00 x00))
(L (W x00 x00 x00 x00 x12 x00 x00 x00)))
(T (W x01 x00 x00 x00 xa0 x00 x00 x00)
(L (W x00 x00 x00 x00 x00 x00 x00 x00)) E))))
(T (W x00 x00 x80 x3f x00 x00 x80 x3f)
(T (W x00 x00 x80 x3f x00 x00 x80 x3f)
(T (W x00 x00 x00 x00 x00 x00 x00 x00)
(T (W xb8 x00 x00 x00 xac x00 x00 x00)
(L (W x64 x00 x00 x00 x9c x00 x00 x00))
(L (W x00 x00 x80 xbf x00 x00 x80 xbf)))
(T (W x00 x00 x00 x00 x00 x00 x00 x00)
(L (W x7e x00 x00 x00 xff xff xff xff))
(L (W x04 xc8 xff xff x15 x00 x00 x00))))
(T (W xff xff xff xff xff xff xff xff)
(T (W x18 x00 x00 x00 x0c x00 x00 x00)
(L (W x03 x00 x00 x00 xbc x00 x00 x00))
(L (W x00 x00 x00 x00 x0a x7c xff xff)))
(T (W xba x14 xfe xff x74 x00 x00 x00)
(L (W xff xff xff xff xff xff xff xff))
(L (W xff xff xff xff xff xff xff xff)))))
(T (W x00 x00 x00 x00 x00 x00 x00 x00)
(T (W x00 x00 x00 x00 x00 x00 x00 x00)
(T (W x00 x00 x00 x00 x00 x00 x00 x00)
(L (W x50 x00 x00 x00 x44 x00 x00 x00))
(L (W xff xff xff xff xff xff xff xff)))
(T (W xc0 x00 x00 x00 x01 x00 x00 x00)
(L (W x35 x00 x00 x00 x38 x00 x00 x00))
(L (W xff xff xff xff xb0 x00 x00 x00))))
(T (W xff xff xff xff xff xff xff xff)
(T (W x50 x00 x00 x00 x44 x00 x00 x00)
(L (W x64 x5f x70 x6f x6b x65 x5f x77))
(L (W x64 x04 x00 x00 x60 x03 x00 x00)))
(T (W xff xff xff xff xff xff xff xff)
(L (W x0a x00 x00 x00 x48 x0a x00 x00)) E))))))))))))
(T (W xb8 xcb x03 x00 x34 xc9 x03 x00)
(T (W xb8 xa8 x03 x00 x8c x9f x03 x00)
(T (W x58 x59 x03 x00 xfc x56 x03 x00)
(T (W x90 xab x02 x00 x34 xa9 x02 x00)
(T (W x70 xe8 x01 x00 x2c xe6 x01 x00)
(T (W x98 x91 x00 x00 x4c x8f x00 x00)
(T (W x45 x26 x22 x84 xe4 x9c xf2 xcb)
(T (W x68 x00 x00 x00 x5c x00 x00 x00)
(T (W x45 x26 x22 x84 xe4 x9c xf2 xcb)
(T (W x45 x26 x22 x84 xe4 x9c xf2 xcb)
(T (W x1c xc5 x03 x75 xb1 xd0 x11 x74)
(T (W xff xff xff xff xff xff xff xff)
(L (W x01 x00 x00 x00 x9c x00 x00 x00))
(L (W x00 x00 x01 x01 xc8 x00 x00 x00)))
(T (W x00 x00 x80 x3f x00 x00 x80 x3f)
(L (W x6b x65 x5f x77 x61 x72 x6c x69))
(L (W xff xff xff xff xff xff xff xff))))
(T (W xff xff xff xff xff xff xff xff)
(T (W xff xff xff xff xff xff xff xff)
(L (W x00 x00 x80 xbf x00 x00 x80 xbf))
(L (W x18 x00 x00 x00 x10 x00 x00 x00)))
(T (W x68 x00 x00 x00 x5c x00 x00 x00)
(L (W x6c x00 x00 x00 x60 x00 x00 x00))
(L (W x54 x00 x00 x00 x48 x00 x00 x00)))))
(T (W x45 x26 x22 x84 xe4 x9c xf2 xcb)
(T (W x22 x7b xff xff x87 x03 x00 x00)
(T (W x68 x00 x00 x00 x5c x00 x00 x00)
(L (W x50 x00 x00 x00 x44 x00 x00 x00))
(L (W x00 x00 x00 x00 x00 x00 x00 x00)))
(T (W xff xff xff xff xff xff xff xff)
(L (W xff xff xff xff xff xff xff xff))
(L (W x3c x02 x00 x00 x30 x01 x00 x00))))
(T (W xff xff xff xff xff xff xff xff)
(T (W x00 x00 x80 x3f x00 x00 x80 x3f)
(L (W xea x94 xfe xff x74 x00 x00 x00))
(L (W xff xff xff xff xff xff xff xff)))
(T (W x00 x00 x80 x3f x00 x00 x80 x3f)
(L (W xff xff xff xff xff xff xff xff))
(L (W x1c x00 x00 x00 x10 x00 x00 x00))))))
(T (W x00 x00 x80 x3f x00 x00 x80 x3f)
(T (W x00 x00 x00 x00 x00 x00 x00 x00)
(T (W xff xff xff xff xff xff xff xff)
(T (W x45 x26 x22 x84 xe4 x9c xf2 xcb)
(L (W xff xff xff xff xff xff xff xff))
(L (W x04 x00 x00 x00 x42 x33 xff xff)))
(T (W x68 x00 x00 x00 x5c x00 x00 x00)
(L (W xff xff xff xff xd8 x00 x00 x00))
(L (W xff xff xff xff xff xff xff xff))))
(T (W xff xff xff xff xff xff xff xff)
(T (W x46 x53 x59 x53 x5f x4e x53 x5f)
(L (W x00 x00 x00 x00 x00 x00 x00 x00))
(L (W x23 x00 x00 x00 x26 x00 x00 x00)))
(T (W x45 x26 x22 x84 xe4 x9c xf2 xcb)
(L (W xff xff xff xff xff xff xff xff))
(L (W x00 x00 x00 x00 x00 x00 x00 x00)))))
(T (W x00 x00 x00 x00 x00 x00 x00 x00)
(T (W xff xff xff xff xff xff xff xff)
(T (W xb0 x00 x00 x00 x64 x00 x00 x00)
(L (W x30 x00 x34 x00 x38 x00 x3c x00))
(L (W x00 x00 x80 xbf x00 x00 x80 xbf)))
(T (W x00 x00 x00 x00 x00 x00 x00 x00)
(L (W x00 x00 x00 x00 x12 x00 x00 x00))
(L (W xff xff xff xff xff xff xff xff))))
(T (W x64 x00 x00 x00 x9c x00 x00 x00)
(T (W xff xff xff xff xff xff xff xff)
(L (W x6c x00 x00 x00 x60 x00 x00 x00))
(L (W x00 x00 x00 x00 xe2 x88 xff xff)))
(T (W x54 x00 x00 x00 x48 x00 x00 x00)
(L (W xff xff xff xff xff xff xff xff)) E)))))
(T (W x00 x00 x80 x3f x00 x00 x80 x3f)
(T (W x00 x00 x80 x3f x00 x00 x80 x3f)
(T (W x00 x00 x00 x00 x00 x00 x00 x00)
(T (W xdc x01 x00 x00 xff xff xff xff)
(T (W xff xff xff xff xff xff xff xff)
(L (W xff xff xff xff xff xff xff xff))
(L (W xff xff xff xff xff xff xff xff)))
(T (W x54 x00 x00 x00 x48 x00 x00 x00)
(L (W xea xbc xfe xff x74 x00 x00 x00))
(L (W x1e x00 x00 x00 x21 x00 x00 x00))))
(T (W xff xff xff xff xff xff xff xff)
(T (W x00 x00 x01 x01 xb4 x01 x00 x00)
(L (W x49 xa1 x68 x4a xeb x5f xdd x3d))
(L (W x6c x00 x00 x00 x60 x00 x00 x00)))
(T (W x00 x00 x80 x3f x00 x00 x80 x3f)
(L (W x00 x00 x80 xbf x00 x00 x80 xbf))
(L (W x00 x00 x00 x00 x1c x00 x20 x00)))))
(T (W x00 x00 x00 x00 x00 x00 x00 x00)
(T (W xcf x00 x00 x00 xff xff xff xff)
(T (W x00 x00 x80 x3f x00 x00 x80 x3f)
(L (W x00 x00 x80 x3f x00 x00 x80 x3f))
(L (W x00 x00 x80 xbf x00 x00 x80 xbf)))
(T (W x00 x00 x00 x00 x04 x00 x00 x00)
(L (W xff xff xff xff xff xff xff xff))
(L (W xff xff xff xff xff xff xff xff))))
(T (W xb8 x00 x00 x00 xac x00 x00 x00)
(T (W xff xff xff xff xbc x00 x00 x00)
(L (W x00 x00 x00 x00 x01 x00 x00 x00))
(L (W xff xff xff xff xff xff xff xff)))
(T (W x00 x00 x00 x00 x00 x00 x00 x00)
(L (W xff xff xff xff xff xff xff xff))
(L (W x00 x00 x2a x00 x4c x00 x3c x00))))))
(T (W x00 x00 x80 x3f x00 x00 x80 x3f)
(T (W x45 x26 x22 x84 xe4 x9c xf2 xcb)
(T (W xff xff xff xff xff xff xff xff)
(T (W x18 x00 x00 x00 x0c x00 x00 x00)
(L (W xd0 x00 x00 x00 xac x00 x00 x00))
(L (W x45 x44 x00 x00 x00 x00 x00 x00)))
(T (W xc4 x00 x00 x00 x01 x00 x00 x00)
(L (W xff xff xff xff xff xff xff xff))
(L (W xff xff xff xff xff xff xff xff))))
(T (W xff xff xff xff x03 x00 x00 x00)
(T (W x00 x00 x00 x00 x00 x00 x00 x00)
(L (W x00 x00 x00 x00 x00 x00 x00 x00))
(L (W xff xff xff xff xb0 x00 x00 x00)))
(T (W x00 x00 x80 x3f x00 x00 x80 x3f)
(L (W xff xff xff xff xff xff xff xff))
(L (W x04 x00 x00 x00 xca xf5 xff xff)))))
(T (W x00 x00 x00 x00 x00 x00 x00 x00)
(T (W xff xff xff xff xff xff xff xff)
(T (W xff xff xff xff xff xff xff xff)
(L (W x00 x00 x00 x00 x00 x00 x00 x00))
(L (W x32 x59 xff xff x78 x00 x00 x00)))
(T (W x45 x26 x22 x84 xe4 x9c xf2 xcb)
(L (W x00 x00 x80 xbf x00 x00 x80 xbf))
(L (W xff xff xff xff xff xff xff xff))))
(T (W xff xff xff xff x03 x00 x00 x00)
(T (W x4c x45 x41 x52 x45 x44 x00 x00)
(L (W x00 x00 x00 x00 x00 x00 x00 x00))
(L (W xff xff xff xff xff xff xff xff)))
(T (W xb8 x00 x00 x00 xac x00 x00 x00)
(L (W x00 x00 x00 x00 xe2 x10 xff xff)) E))))))
(T (W x00 x00 x00 x00 x00 x00 x00 x00)
(T (W x00 x00 x00 x00 x00 x00 x00 x00)
(T (W xff xff xff xff xff xff xff xff)
(T (W xff xff xff xff xff xff xff xff)
(T (W x18 x00 x00 x00 x0c x00 x00 x00)
(T (W x00 x00 x00 x00 x00 x00 x00 x00)
(L (W x8c x27 xfe xff x2f x00 x00 x00))
(L (W x00 x00 x80 xbf x00 x00 x80 xbf)))
(T (W xff xff xff xff xff xff xff xff)
(L (W xff xff xff xff xb0 x00 x00 x00))
(L (W x00 x00 x00 x00 x00 x00 x00 x00))))
(T (W x45 x26 x22 x84 xe4 x9c xf2 xcb)
(T (W x00 x00 x80 x3f x00 x00 x80 x3f)
(L (W xff xff xff xff xff xff xff xff))
(L (W x00 x00 x00 x00 x00 x00 x00 x00)))
(T (W x27 x00 x00 x00 x10 x00 x00 x00)
(L (W xff xff xff xff xff xff xff xff))
(L (W x04 x00 x00 x00 xca xe1 xff xff)))))
(T (W x45 x26 x22 x84 xe4 x9c xf2 xcb)
(T (W x00 x00 x80 x3f x00 x00 x80 x3f)
(T (W xff xff xff xff xff xff xff xff)
(L (W x2a xf4 xff xff x4b x00 x00 x00))
(L (W xff xff xff xff xff xff xff xff)))
(T (W x50 x00 x00 x00 x44 x00 x00 x00)
(L (W x00 x00 x80 xbf x00 x00 x80 xbf))
(L (W x00 x00 x80 xbf x00 x00 x80 xbf))))
(T (W x00 x00 x00 x00 x00 x00 x00 x00)
(T (W x5f x77 x69 x6c x64 x5f x70 x6f)
(L (W x00 x00 x00 x00 x00 x00 x00 x00))
(L (W x00 x00 x80 xbf x00 x00 x80 xbf)))
(T (W xff xff xff xff xff xff xff xff)
(L (W x00 x00 x00 x00 x00 x00 x00 x00))
(L (W x00 x00 x48 x00 x4c x00 x00 x00))))))
(T (W xff xff xff xff xff xff xff xff)
(T (W xff xff xff xff xff xff xff xff)
(T (W x54 x00 x00 x00 x48 x00 x00 x00)
(T (W x00 x00 x00 x00 x00 x00 x00 x00)
(L (W x00 x00 x00 x00 x00 x00 x00 x00))
(L (W x00 x00 x80 xbf x00 x00 x80 xbf)))
(T (W x46 x53 x59 x53 x5f x4e x53 x5f)
(L (W x00 x00 x80 x3f x00 x00 x80 x3f))
(L (W x00 x00 x80 xbf x00 x00 x80 xbf))))
(T (W x00 x00 x00 x00 x00 x00 x00 x00)
(T (W x03 x00 x00 x00 xd0 x00 x00 x00)
(L (W xac x00 x00 x00 x64 x00 x00 x00))
(L (W x00 x00 x00 x00 x00 x00 x00 x00)))
(T (W xa7 x71 x2e x97 x85 x26 x59 x5f)
(L (W x00 x00 x00 x00 x00 x00 x00 x00))
(L (W x30 x34 x5f x43 x4c x45 x41 x52)))))
(T (W xf0 x90 xfc xff x00 x01 x01 x01)
(T (W x00 x00 x80 x3f x00 x00 x80 x3f)
(T (W x00 x00 x00 x00 x00 x00 x00 x00)
(L (W x18 x00 x00 x00 x10 x00 x00 x00))
(L (W x00 x00 x00 x00 x42 x53 xff xff)))
(T (W xff xff xff xff xff xff xff xff)
(L (W xff xff xff xff xff xff xff xff))
(L (W x44 x00 x48 x00 x00 x00 x4c x00))))
(T (W x45 x26 x22 x84 xe4 x9c xf2 xcb)
(T (W x00 x00 x80 x3f x00 x00 x80 x3f)
(L (W x00 x00 x00 x00 x00 x00 x00 x00))
(L (W x4f x84 x6f x8b xe8 xcb x63 xb7)))
(T (W x00 x00 x00 x00 x00 x00 x00 x00)
(L (W x00 x00 x80 xbf x00 x00 x80 xbf)) E)))))
(T (W x01 x00 x00 x00 x04 x00 x00 x00)
(T (W xff xff xff xff xff xff xff xff)
(T (W xff xff xff xff xff xff xff xff)
(T (W x00 x00 x80 x3f x00 x00 x80 x3f)
(T (W x34 x34 xfd xff x3e x00 x00 x00)
(L (W x00 x00 x80 x3f x00 x00 x80 x3f))
(L (W x00 x00 x80 xbf x00 x00 x80 xbf)))
(T (W x04 x00 x00 x00 x80 x03 x00 x00)
(L (W xff xff xff xff xff xff xff xff))
(L (W x4f x84 x6f x8b xe8 xcb x63 xb7))))
(T (W x00 x00 x00 x00 x00 x00 x00 x00)
(T (W x50 x00 x00 x00 x44 x00 x00 x00)
(L (W xff xff xff xff xff xff xff xff))
(L (W x34 x74 xff xff x12 x00 x00 x00)))
(T (W xff xff xff xff xff xff xff xff)
(L (W x00 x00 x00 x00 x00 x00 x00 x00))
(L (W x04 x00 x00 x00 x62 xf9 xff xff)))))
(T (W x68 x00 x00 x00 x5c x00 x00 x00)
(T (W xea xe0 xfc xff x74 x00 x00 x00)
(T (W x00 x00 x00 x00 x00 x00 x00 x00)
(L (W xff xff xff xff xff xff xff xff))
(L (W xff xff xff xff xff xff xff xff)))
(T (W xea xe0 xfd xff x74 x00 x00 x00)
(L (W x68 x00 x00 x00 x5c x00 x00 x00))
(L (W x00 x00 x80 xbf x00 x00 x80 xbf))))
(T (W x00 x00 x01 x01 x65 x00 x00 x00)
(T (W x00 x00 x80 x3f x00 x00 x80 x3f)
(L (W xc0 x00 x00 x00 x64 x00 x00 x00))
(L (W x00 x00 x80 xbf x00 x00 x80 xbf)))
(T (W x18 x00 x00 x00 x10 x00 x00 x00)
(L (W x4f x84 x6f x8b xe8 xcb x63 xb7)) E))))
(T (W xff xff xff xff xff xff xff xff)
(T (W xb8 x00 x00 x00 xac x00 x00 x00)
(T (W x00 x00 x80 x3f x00 x00 x80 x3f)
(T (W x00 x00 x00 x00 x00 x00 x00 x00)
(L (W x00 x00 x80 x3f x00 x00 x80 x3f))
(L (W x18 x00 x00 x00 x0c x00 x00 x00)))
(T (W x45 x26 x22 x84 xe4 x9c xf2 xcb)
(L (W x00 x00 x80 x3f x00 x00 x80 x3f))
(L (W x00 x01 x01 x01 xaa xb5 xff xff))))
(T (W x00 x00 x00 x00 x00 x00 x00 x00)
(T (W xff xff xff xff xff xff xff xff)
(L (W xff xff xff xff xff xff xff xff))
(L (W x00 x00 x00 x00 x00 x00 x00 x00)))
(T (W xff xff xff xff xff xff xff xff)
(L (W x49 xa1 x68 x4a xeb x5f xdd x3d))
(L (W x00 x00 x80 xbf x00 x00 x80 xbf)))))
(T (W x45 x26 x22 x84 xe4 x9c xf2 xcb)
(T (W x00 x00 x80 x3f x00 x00 x80 x3f)
(T (W x45 x26 x22 x84 xe4 x9c xf2 xcb)
(L (W xff xff xff xff xff xff xff xff))
(L (W x15 x00 x00 x00 x0c x00 x00 x00)))
(T (W xff xff xff xff xff xff xff xff)
(L (W xff xff xff xff xff xff xff xff))
(L (W xff xff xff xff xff xff xff xff))))
(T (W x00 x00 x00 x00 x00 x00 x00 x00)
(T (W xc0 x00 x00 x00 x01 x00 x00 x00)
(L (W x6c x76 x32 x00 x22 x00 x00 x00))
(L (W x44 x00 x48 x00 x00 x00 x4c x00)))
(T (W x00 x00 x00 x00 x00 x00 x00 x00)
(L (W x4f x84 x6f x8b xe8 xcb x63 xb7)) E)))))))
(T (W x00 x00 x00 x00 x00 x00 x00 x00)
(T (W xff xff xff xff xff xff xff xff)
(T (W xff xff xff xff xff xff xff xff)
(T (W xff xff xff xff x03 x00 x00 x00)
(T (W x18 x00 x00 x00 x0c x00 x00 x00)
(T (W x00 x00 x80 x3f x00 x00 x80 x3f)
(T (W xff xff xff xff xff xff xff xff)
(L (W xff xff xff xff xff xff xff xff))
(L (W x00 x00 x00 x00 x00 x00 x00 x00)))
(T (W x68 x00 x00 x00 x5c x00 x00 x00)
(L (W x00 x00 x80 x3f x00 x00 x80 x3f))
(L (W x00 x00 x00 x00 x00 x00 x00 x00))))
(T (W x2e x33 x6d x52 x4c xfc xc4 x4d)
(T (W x00 x00 x00 x00 x00 x00 x00 x00)
(L (W xff xff xff xff xc0 x00 x00 x00))
(L (W x45 x44 x00 x00 x00 x00 x00 x00)))
(T (W xff xff xff xff xff xff xff xff)
(L (W xff xff xff xff xff xff xff xff))
(L (W xc4 x00 x00 x00 x01 x00 x00 x00)))))
(T (W x00 x00 x80 x3f x00 x00 x80 x3f)
(T (W x00 x00 x00 x00 x00 x00 x00 x00)
(T (W x48 x00 x4c x00 x50 x00 x00 x00)
(L (W xff xff xff xff xff xff xff xff))
(L (W x00 x00 x80 xbf x00 x00 x80 xbf)))
(T (W x5f x4e x53 x5f x30 x34 x5f x43)
(L (W x00 x00 x00 x00 x12 x00 x00 x00))
(L (W x00 x00 x00 x00 x00 x00 x00 x00))))
(T (W x48 x03 x00 x00 x34 x02 x00 x00)
(T (W xff xff xff xff xff xff xff xff)
(L (W xff xff xff xff xff xff xff xff))
(L (W x00 x00 x00 x00 x00 x00 x00 x00)))
(T (W x45 x26 x22 x84 xe4 x9c xf2 xcb)
(L (W x00 x00 x01 x01 x4b x00 x00 x00))
(L (W x00 x00 x00 x00 x00 x00 x00 x00))))))
(T (W xff xff xff xff xff xff xff xff)
(T (W x00 x00 x80 x3f x00 x00 x80 x3f)
(T (W x00 x00 x00 x00 x00 x00 x00 x00)
(T (W xff xff xff xff xff xff xff xff)
(L (W x8c x35 xfe xff x3f x00 x00 x00))
(L (W x45 x26 x22 x84 xe4 x9c xf2 xcb)))
(T (W xff xff xff xff xff xff xff xff)
(L (W x00 x00 x00 x00 x12 x00 x00 x00))
(L (W x00 x00 x00 x00 x00 x00 x00 x00))))
(T (W x00 x00 x00 x00 x00 x00 x00 x00)
(T (W x00 x00 x80 x3f x00 x00 x80 x3f)
(L (W x5c x00 x00 x00 x50 x00 x00 x00))
(L (W xff xff xff xff xff xff xff xff)))
(T (W xff xff xff xff xff xff xff xff)
(L (W x00 x00 x00 x00 xca xef xfe xff))
(L (W x14 x00 x00 x00 x0c x00 x00 x00)))))
(T (W x00 x00 x80 x3f x00 x00 x80 x3f)
(T (W x00 x00 x00 x00 x00 x00 x00 x00)
(T (W x00 x00 x00 x00 x00 x00 x00 x00)
(L (W xff xff xff xff xfa x01 x00 x00))
(L (W xff xff xff xff xff xff xff xff)))
(T (W xea xe6 xfd xff x74 x00 x00 x00)
(L (W x00 x00 x80 xbf x00 x00 x80 xbf))
(L (W x00 x00 x00 x00 x00 x00 x00 x00))))
(T (W x01 x00 x00 x00 x04 x00 x00 x00)
(T (W x00 x00 x00 x00 x00 x00 x00 x00)
(L (W xff xff xff xff xff xff xff xff))
(L (W x46 x53 x59 x53 x5f x4e x53 x5f)))
(T (W x40 x00 x00 x00 x10 x00 x00 x00)
(L (W x00 x00 x00 x00 x00 x00 x00 x00)) E)))))
(T (W x64 x00 x00 x00 x9c x00 x00 x00)
(T (W xff xff xff xff xff xff xff xff)
(T (W x68 x00 x00 x00 x5c x00 x00 x00)
(T (W x00 x00 x00 x00 x00 x00 x00 x00)
(T (W xff xff xff xff xff xff xff xff)
(L (W x00 x00 x00 x00 x00 x00 x00 x00))
(L (W x45 x44 x00 x00 x00 x00 x00 x00)))
(T (W x03 x00 x00 x00 xd0 x00 x00 x00)
(L (W x00 x00 x00 x00 x12 x00 x00 x00))
(L (W x45 x44 x00 x00 x00 x00 x00 x00))))
(T (W x2a x9a xfe xff xad x00 x00 x00)
(T (W x00 x00 x00 x00 x00 x00 x00 x00)
(L (W x00 x00 x80 xbf x00 x00 x80 xbf))
(L (W xff xff xff xff xff xff xff xff)))
(T (W x64 x00 x00 x00 x9c x00 x00 x00)
(L (W xff xff xff xff xff xff xff xff))
(L (W x6c x00 x00 x00 x60 x00 x00 x00)))))
(T (W x00 x00 x80 x3f x00 x00 x80 x3f)
(T (W x00 x00 x00 x00 x00 x00 x00 x00)
(T (W xff xff xff xff xff xff xff xff)
(L (W xb8 x00 x00 x00 xac x00 x00 x00))
(L (W xcc x00 x00 x00 x01 x00 x00 x00)))
(T (W x00 x00 x80 x3f x00 x00 x80 x3f)
(L (W x00 x00 x00 x00 x00 x00 x00 x00))
(L (W x00 x00 x00 x00 x00 x00 x00 x00))))
(T (W x0c x00 x00 x00 x00 x00 x10 x00)
(T (W x00 x00 x00 x00 x00 x00 x00 x00)
(L (W x00 x00 x80 xbf x00 x00 x80 xbf))
(L (W x00 x00 x00 x00 x00 x00 x00 x00)))
(T (W x00 x00 x80 x3f x00 x00 x80 x3f)
(L (W x45 x44 x00 x00 x00 x00 x00 x00)) E))))
(T (W x45 x26 x22 x84 xe4 x9c xf2 xcb)
(T (W x00 x00 x80 x3f x00 x00 x80 x3f)
(T (W x00 x00 x00 x00 x00 x00 x00 x00)
(T (W xff xff xff xff xff xff xff xff)
(L (W x00 x00 x00 x00 x00 x00 x00 x00))
(L (W x00 x00 x80 xbf x00 x00 x80 xbf)))
(T (W x54 x02 x00 x00 x38 x01 x00 x00)
(L (W x00 x00 x00 x00 x00 x00 x00 x00))
(L (W x00 x00 x00 x00 x00 x00 x00 x00))))
(T (W x00 x00 x00 x00 x00 x00 x00 x00)
(T (W xea x8e xfd xff x74 x00 x00 x00)
(L (W x00 x00 x80 xbf x00 x00 x80 xbf))
(L (W x00 x00 x01 x01 x7b x00 x00 x00)))
(T (W x18 x00 x00 x00 x10 x00 x00 x00)
(L (W x46 x53 x59 x53 x5f x4e x53 x5f))
(L (W x00 x00 x00 x00 x00 x00 x00 x00)))))
(T (W x45 x26 x22 x84 xe4 x9c xf2 xcb)
(T (W x00 x00 x00 x00 x00 x00 x00 x00)
(T (W x69 x23 x88 xb5 x85 xc2 xdc x80)
(L (W xf0 x56 xfe xff x00 x01 x01 x01))
(L (W xff xff xff xff xff xff xff xff)))
(T (W x45 x26 x22 x84 xe4 x9c xf2 xcb)
(L (W x45 x26 x22 x84 xe4 x9c xf2 xcb))
(L (W x10 x00 x00 x00 x00 x00 x14 x00))))
(T (W xff xff xff xff xff xff xff xff)
(T (W x00 x00 x80 x3f x00 x00 x80 x3f)
(L (W x00 x00 x80 x3f x00 x00 x80 x3f))
(L (W x00 x00 x00 x00 x00 x00 x00 x00)))
(T (W xff xff xff xff xff xff xff xff)
(L (W x46 x53 x59 x53 x5f x4e x53 x5f)) E))))))
(T (W x00 x00 x00 x00 x00 x00 x00 x00)
(T (W x00 x00 x00 x00 x00 x00 x00 x00)
(T (W x00 x00 x00 x00 x00 x00 x00 x00)
(T (W x00 x00 x00 x00 x00 x00 x00 x00)
(T (W xff xff xff xff xff xff xff xff)
(T (W x00 x00 x80 x3f x00 x00 x80 x3f)
(L (W x00 x00 x00 x00 x00 x00 x00 x00))
(L (W x45 x26 x22 x84 xe4 x9c xf2 xcb)))
(T (W x12 x00 x00 x00 x46 x53 x59 x53)
(L (W x00 x00 x00 x00 x00 x00 x00 x00))
(L (W x00 x00 x80 xbf x00 x00 x80 xbf))))
(T (W xea xfa xfc xff x74 x00 x00 x00)
(T (W xff xff xff xff xac x00 x00 x00)
(L (W x45 x44 x00 x00 x00 x00 x00 x00))
(L (W x00 x00 x80 xbf x00 x00 x80 xbf)))
(T (W x00 x00 x00 x00 x00 x00 x00 x00)
(L (W x00 x00 x00 x00 x00 x00 x00 x00))
(L (W x00 x00 x00 x00 x00 x00 x00 x00)))))
(T (W x9a x37 xfe xff x00 x00 x01 x01)
(T (W x45 x26 x22 x84 xe4 x9c xf2 xcb)
(T (W x45 x26 x22 x84 xe4 x9c xf2 xcb)
(L (W x00 x00 x00 x00 x00 x00 x00 x00))
(L (W x46 x53 x59 x53 x5f x4e x53 x5f)))
(T (W x03 x00 x00 x00 xcc x00 x00 x00)
(L (W xcc x00 x00 x00 x01 x00 x00 x00))
(L (W x64 xc4 xff xff x62 xc1 xff xff))))
(T (W x45 x26 x22 x84 xe4 x9c xf2 xcb)
(T (W x00 x00 x80 x3f x00 x00 x80 x3f)
(L (W x18 x00 x00 x00 x0c x00 x00 x00))
(L (W xff xff xff xff xff xff xff xff)))
(T (W x0f x64 x2e x97 x85 x1e x59 x5f)
(L (W x18 x00 x00 x00 x10 x00 x00 x00))
(L (W xff xff xff xff xff xff xff xff))))))
(T (W x34 x5e xfc xff x2d x00 x00 x00)
(T (W xbd x9c x60 x82 x57 x3f x58 x1f)
(T (W xff xff xff xff xff xff xff xff)
(T (W x45 x26 x22 x84 xe4 x9c xf2 xcb)
(L (W x00 x00 x80 x3f x00 x00 x80 x3f))
(L (W xff xff xff xff xff xff xff xff)))
(T (W x00 x00 x80 x3f x00 x00 x80 x3f)
(L (W x45 x26 x22 x84 xe4 x9c xf2 xcb))
(L (W xbc x00 x00 x00 x28 x00 x00 x00))))
(T (W x00 x00 x80 x3f x00 x00 x80 x3f)
(T (W x02 x00 x00 x00 x30 x01 x00 x00)
(L (W xff xff xff xff xff xff xff xff))
(L (W x00 x00 x80 xbf x00 x00 x80 xbf)))
(T (W x00 x00 x00 x00 x00 x00 x00 x00)
(L (W x00 x00 x80 xbf x00 x00 x80 xbf))
(L (W xf0 xf2 xff xff x00 x01 x01 x01)))))
(T (W xff xff xff xff xff xff xff xff)
(T (W x0a x00 x00 x00 x3e x00 x00 x00)
(T (W xea x6a xfd xff x74 x00 x00 x00)
(L (W x82 x00 x00 x00 xff xff xff xff))
(L (W x00 x00 x00 x00 x00 x00 x00 x00)))
(T (W x28 x00 x00 x00 x0c x00 x00 x00)
(L (W xe6 x45 xbb x28 xbf xce x6a x6a))
(L (W x32 xd7 xff xff x78 x00 x00 x00))))
(T (W x45 x26 x22 x84 xe4 x9c xf2 xcb)
(T (W xff xff xff xff xff xff xff xff)
(L (W xff xff xff xff xff xff xff xff))
(L (W x6c x00 x00 x00 x60 x00 x00 x00)))
(T (W x00 x00 x80 x3f x00 x00 x80 x3f)
(L (W x00 x00 x00 x00 x68 x14 xff xff)) E)))))
(T (W x45 x26 x22 x84 xe4 x9c xf2 xcb)
(T (W x00 x00 x00 x00 x00 x00 x00 x00)
(T (W x00 x00 x00 x00 x00 x00 x00 x00)
(T (W xff xff xff xff xff xff xff xff)
(T (W x00 x00 x80 x3f x00 x00 x80 x3f)
(L (W x01 x00 x00 x00 x9c x00 x00 x00))
(L (W xff xff xff xff xb0 x00 x00 x00)))
(T (W x00 x00 x80 x3f x00 x00 x80 x3f)
(L (W x00 x00 x80 x3f x00 x00 x80 x3f))
(L (W xf0 xaa xff xff x00 x01 x01 x01))))
(T (W xf0 xea xfc xff x00 x01 x01 x01)
(T (W xff xff xff xff xff xff xff xff)
(L (W xff xff xff xff xff xff xff xff))
(L (W x00 x00 x80 xbf x00 x00 x80 xbf)))
(T (W x00 x00 x00 x00 x00 x00 x00 x00)
(L (W x00 x00 x80 xbf x00 x00 x80 xbf))
(L (W x00 x00 x00 x00 x00 x00 x00 x00)))))
(T (W xff xff xff xff xff xff xff xff)
(T (W x01 x00 x00 x00 x9c x00 x00 x00)
(T (W x50 x00 x00 x00 x44 x00 x00 x00)
(L (W x70 x5f x77 x69 x6c x64 x5f x70))
(L (W x00 x00 x00 x00 x00 x00 x00 x00)))
(T (W xff xff xff xff x01 x00 x00 x00)
(L (W xff xff xff xff xff xff xff xff))
(L (W x32 xcf xff xff x78 x00 x00 x00))))
(T (W x6c x00 x00 x00 x60 x00 x00 x00)
(T (W x18 x00 x00 x00 x0c x00 x00 x00)
(L (W x4f x84 x6f x8b xe8 xcb x63 xb7))
(L (W x00 x00 x00 x00 x68 x8c xff xff)))
(T (W xff xff xff xff xff xff xff xff)
(L (W x2b x00 x00 x00 x2e x00 x00 x00)) E))))
(T (W x00 x00 x00 x00 x00 x00 x00 x00)
(T (W x7a x00 x00 x00 xff xff xff xff)
(T (W x64 x00 x00 x00 x9c x00 x00 x00)
(T (W x00 x00 x00 x00 x00 x00 x00 x00)
(L (W x64 x00 x68 x00 x62 x00 x00 x00))
(L (W x00 x00 x01 x01 xb5 x01 x00 x00)))
(T (W x50 x00 x00 x00 x44 x00 x00 x00)
(L (W x00 x00 x00 x00 x68 xbc xfe xff))
(L (W xff xff xff xff xb0 x00 x00 x00))))
(T (W x00 x00 x80 x3f x00 x00 x80 x3f)
(T (W x00 x00 x00 x00 x00 x00 x00 x00)
(L (W x00 x00 x00 x00 x00 x00 x00 x00))
(L (W x50 x00 x00 x00 x44 x00 x00 x00)))
(T (W x00 x00 x00 x00 x00 x00 x00 x00)
(L (W xff xff xff xff xa8 x00 x00 x00))
(L (W x00 x00 x00 x00 x00 x00 x00 x00)))))
(T (W xb8 x00 x00 x00 xac x00 x00 x00)
(T (W xc0 x00 x00 x00 xb4 x00 x00 x00)
(T (W xea x72 xfd xff x74 x00 x00 x00)
(L (W x00 x00 x00 x00 x00 x00 x00 x00))
(L (W x00 x00 x80 xbf x00 x00 x80 xbf)))
(T (W x49 xa1 x68 x4a xeb x5f xdd x3d)
(L (W x30 x34 x5f x43 x4c x45 x41 x52))
(L (W x00 x00 x00 x00 x12 x00 x00 x00))))
(T (W x00 x00 x80 x3f x00 x00 x80 x3f)
(T (W x80 x03 x00 x00 x54 x02 x00 x00)
(L (W x00 x00 x80 x3f x00 x00 x80 x3f))
(L (W x54 x00 x00 x00 x48 x00 x00 x00)))
(T (W x00 x00 x80 x3f x00 x00 x80 x3f)
(L (W x6c x00 x00 x00 x60 x00 x00 x00)) E))))))))
(T (W xa8 x26 x01 x00 x64 x25 x01 x00)
(T (W x40 x01 x00 x00 x04 x00 x00 x00)
(T (W x64 x00 x00 x00 x9c x00 x00 x00)
(T (W xff xff xff xff x04 x00 x00 x00)
(T (W x40 x00 x00 x00 x9c x00 x00 x00)
(T (W x00 x00 x80 x3f x00 x00 x80 x3f)
(T (W x00 x00 x00 x00 x00 x00 x00 x00)
(T (W xff xff xff xff xff xff xff xff)
(L (W xb8 x00 x00 x00 xac x00 x00 x00))
(L (W x30 x34 x5f x43 x4c x45 x41 x52)))
(T (W x00 x00 x80 x3f x00 x00 x80 x3f)
(L (W x00 x00 x00 x00 x00 x00 x00 x00))
(L (W x00 x00 x00 x00 x00 x00 x00 x00))))
(T (W xff xff xff xff xff xff xff xff)
(T (W xb6 x9b xd9 xc2 x9d xc0 xb2 xaf)
(L (W x45 x26 x22 x84 xe4 x9c xf2 xcb))
(L (W xff xff xff xff xff xff xff xff)))
(T (W x18 x00 x00 x00 x10 x00 x00 x00)
(L (W xff xff xff xff xa0 x00 x00 x00))
(L (W x45 x26 x22 x84 xe4 x9c xf2 xcb)))))
(T (W x00 x00 x80 x3f x00 x00 x80 x3f)
(T (W x00 x00 x00 x00 x00 x00 x00 x00)
(T (W xff xff xff xff x04 x00 x00 x00)
(L (W xb8 x00 x00 x00 xac x00 x00 x00))
(L (W x00 x00 x80 xbf x00 x00 x80 xbf)))
(T (W xba xee xfd xff x00 x00 x01 x01)
(L (W x04 x00 x00 x00 x42 xc4 xfe xff))
(L (W x00 x00 x00 x00 x12 x00 x00 x00))))
(T (W xff xff xff xff xff xff xff xff)
(T (W x00 x00 x00 x00 x68 x7f xfd xff)
(L (W xff xff xff xff xff xff xff xff))
(L (W x54 x02 x00 x00 x38 x01 x00 x00)))
(T (W x00 x00 x80 x3f x00 x00 x80 x3f)
(L (W xff xff xff xff xff xff xff xff))
(L (W x50 x00 x54 x00 x58 x00 x5c x00))))))
(T (W x68 x00 x00 x00 x5c x00 x00 x00)
(T (W x45 x26 x22 x84 xe4 x9c xf2 xcb)
(T (W x56 x81 xae xd0 x70 x7e x74 x12)
(T (W xff xff xff xff xff xff xff xff)
(L (W xff xff xff xff xff xff xff xff))
(L (W x00 x00 x00 x00 x12 x00 x00 x00)))
(T (W xff xff xff xff xff xff xff xff)
(L (W x76 x31 x00 x00 x42 xb4 xfe xff))
(L (W x00 x00 x00 x00 x00 x00 x00 x00))))
(T (W xff xff xff xff xff xff xff xff)
(T (W x00 x00 x00 x00 x00 x00 x00 x00)
(L (W x00 x00 x80 xbf x00 x00 x80 xbf))
(L (W xff xff xff xff xff xff xff xff)))
(T (W x18 x00 x00 x00 x10 x00 x00 x00)
(L (W xff xff xff xff xff xff xff xff))
(L (W x6c x00 x00 x00 x60 x00 x00 x00)))))
(T (W x00 x00 x00 x00 x00 x00 x00 x00)
(T (W x22 xcf xfd x95 xcc x14 x31 xdf)
(T (W xff xff xff xff xff xff xff xff)
(L (W x00 x00 x00 x00 x00 x00 x00 x00))
(L (W x23 x00 x00 x00 x26 x00 x00 x00)))
(T (W x45 x26 x22 x84 xe4 x9c xf2 xcb)
(L (W x00 x00 x00 x00 x00 x00 x00 x00))
(L (W x00 x00 x00 x00 x00 x00 x00 x00))))
(T (W xff xff xff xff xff xff xff xff)
(T (W x45 x44 x00 x00 x00 x00 x00 x00)
(L (W xff xff xff xff xa0 x00 x00 x00))
(L (W x00 x00 x00 x00 x00 x00 x00 x00)))
(T (W xff xff xff xff xff xff xff xff)
(L (W x00 x00 x00 x00 x00 x00 x00 x00)) E)))))
(T (W x18 x00 x00 x00 x0c x00 x00 x00)
(T (W x01 x00 x00 x00 x3e x00 x00 x00)
(T (W x00 x00 x80 x3f x00 x00 x80 x3f)
(T (W x00 x00 x00 x00 x00 x00 x00 x00)
(T (W xff xff xff xff xff xff xff xff)
(L (W x8c x2c xfe xff x3e x00 x00 x00))
(L (W xff xff xff xff xff xff xff xff)))
(T (W x18 x00 x00 x00 x10 x00 x00 x00)
(L (W x04 x00 x00 x00 x42 xac xfe xff))
(L (W xff xff xff xff xff xff xff xff))))
(T (W xff xff xff xff xff xff xff xff)
(T (W x30 x34 x5f x43 x4c x45 x41 x52)
(L (W x00 x00 x80 xbf x00 x00 x80 xbf))
(L (W xff xff xff xff xa0 x00 x00 x00)))
(T (W x18 x00 x00 x00 x0c x00 x00 x00)
(L (W xc0 x00 x00 x00 x01 x00 x00 x00))
(L (W x00 x00 x80 xbf x00 x00 x80 xbf)))))
(T (W x00 x00 x80 x3f x00 x00 x80 x3f)
(T (W x00 x00 x00 x00 x00 x00 x00 x00)
(T (W x32 x4a xfd xff x78 x00 x00 x00)
(L (W x50 x00 x00 x00 x44 x00 x00 x00))
(L (W x00 x00 x80 xbf x00 x00 x80 xbf)))
(T (W x00 x00 x00 x00 x00 x00 x00 x00)
(L (W x30 x34 x5f x43 x4c x45 x41 x52))
(L (W x15 x00 x00 x00 x0c x00 x00 x00))))
(T (W xff xff xff xff xff xff xff xff)
(T (W xff xff xff xff xff xff xff xff)
(L (W x00 x00 x00 x00 x00 x00 x00 x00))
(L (W x00 x00 x00 x00 x00 x00 x00 x00)))
(T (W x00 x00 x80 x3f x00 x00 x80 x3f)
(L (W xff xff xff xff xff xff xff xff)) E))))
(T (W x32 x5a xfc xff x78 x00 x00 x00)
(T (W x00 x00 x80 x3f x00 x00 x80 x3f)
(T (W x2a x69 xfe xff xef x00 x00 x00)
(T (W xb8 x00 x00 x00 xac x00 x00 x00)
(L (W x34 x00 x00 x00 x10 x00 x00 x00))
(L (W x00 x00 x00 x00 x00 x00 x00 x00)))
(T (W xff xff xff xff xff xff xff xff)
(L (W xdd x01 x00 x00 xff xff xff xff))
(L (W x34 xc1 xff xff x2b x00 x00 x00))))
(T (W xd0 x01 x00 x00 xff xff xff xff)
(T (W x00 x00 x80 x3f x00 x00 x80 x3f)
(L (W x45 x26 x22 x84 xe4 x9c xf2 xcb))
(L (W xff xff xff xff xff xff xff xff)))
(T (W x45 x26 x22 x84 xe4 x9c xf2 xcb)
(L (W x04 x00 x00 x00 xca xf6 xfe xff))
(L (W x46 x53 x59 x53 x5f x4e x53 x5f)))))
(T (W x00 x00 x00 x00 x00 x00 x00 x00)
(T (W xd5 x01 x00 x00 xff xff xff xff)
(T (W xff xff xff xff xff xff xff xff)
(L (W x00 x00 x80 xbf x00 x00 x80 xbf))
(L (W x35 x00 x00 x00 x38 x00 x00 x00)))
(T (W x54 x00 x00 x00 x48 x00 x00 x00)
(L (W x54 x00 x00 x00 x48 x00 x00 x00))
(L (W xff xff xff xff xff xff xff xff))))
(T (W xff xff xff xff xff xff xff xff)
(T (W x00 x00 x00 x00 x00 x00 x00 x00)
(L (W x00 x00 x80 x3f x00 x00 x80 x3f))
(L (W x00 x00 x00 x00 x3a x95 xff xff)))
(T (W xff xff xff xff xff xff xff xff)
(L (W x00 x00 x00 x00 x00 x00 x00 x00)) E))))))
(T (W x00 x00 x00 x00 x00 x00 x00 x00)
(T (W x00 x00 x00 x00 x00 x00 x00 x00)
(T (W x34 x4d xfc xff x1f x00 x00 x00)
(T (W x00 x00 x00 x00 x00 x00 x00 x00)
(T (W x0a x00 x00 x00 x3c x00 x00 x00)
(T (W x45 x26 x22 x84 xe4 x9c xf2 xcb)
(L (W x00 x00 x00 x00 x00 x00 x00 x00))
(L (W x54 x00 x00 x00 x48 x00 x00 x00)))
(T (W x00 x00 x00 x00 x00 x00 x00 x00)
(L (W x6b x65 x5f x77 x61 x72 x6c x69))
(L (W x49 xa1 x68 x4a xeb x5f xdd x3d))))
(T (W x54 x00 x00 x00 x48 x00 x00 x00)
(T (W x00 x00 x80 x3f x00 x00 x80 x3f)
(L (W x00 x00 x01 x01 x29 x00 x00 x00))
(L (W x45 x26 x22 x84 xe4 x9c xf2 xcb)))
(T (W x00 x00 x00 x00 x00 x00 x00 x00)
(L (W x30 x34 x5f x43 x4c x45 x41 x52))
(L (W x46 x53 x59 x53 x5f x4e x53 x5f)))))
(T (W xff xff xff xff xff xff xff xff)
(T (W xf0 xc1 xfc xff x00 x01 x01 x01)
(T (W x20 x00 x24 x00 x28 x00 x2c x00)
(L (W x00 x00 x00 x00 x00 x00 x00 x00))
(L (W x00 x00 x01 x01 x37 x00 x00 x00)))
(T (W x18 x00 x00 x00 x10 x00 x00 x00)
(L (W x00 x00 x80 xbf x00 x00 x80 xbf))
(L (W x00 x00 x80 xbf x00 x00 x80 xbf))))
(T (W x45 x26 x22 x84 xe4 x9c xf2 xcb)
(T (W x49 xa1 x68 x4a xeb x5f xdd x3d)
(L (W x00 x00 x80 xbf x00 x00 x80 xbf))
(L (W x50 x00 x00 x00 x44 x00 x00 x00)))
(T (W xff xff xff xff xff xff xff xff)
(L (W x54 x00 x00 x00 x48 x00 x00 x00))
(L (W x00 x00 x80 xbf x00 x00 x80 xbf))))))
(T (W xff xff xff xff xff xff xff xff)
(T (W xff xff xff xff xff xff xff xff)
(T (W xea xc9 xfc xff x74 x00 x00 x00)
(T (W x00 x00 x00 x00 x00 x00 x00 x00)
(L (W x00 x00 x80 x3f x00 x00 x80 x3f))
(L (W xcc x00 x00 x00 x01 x00 x00 x00)))
(T (W x00 x00 x00 x00 x00 x00 x00 x00)
(L (W x6c x00 x00 x00 x60 x00 x00 x00))
(L (W xf0 xb1 xff xff x00 x01 x01 x01))))
(T (W x45 x26 x22 x84 xe4 x9c xf2 xcb)
(T (W xff xff xff xff xff xff xff xff)
(L (W xff xff xff xff xff xff xff xff))
(L (W x45 x26 x22 x84 xe4 x9c xf2 xcb)))
(T (W x00 x00 x00 x00 x00 x00 x00 x00)
(L (W x00 x00 x80 xbf x00 x00 x80 xbf))
(L (W x54 x00 x00 x00 x48 x00 x00 x00)))))
(T (W x45 x26 x22 x84 xe4 x9c xf2 xcb)
(T (W x18 x00 x00 x00 x0c x00 x00 x00)
(T (W x00 x00 x80 x3f x00 x00 x80 x3f)
(L (W xff xff xff xff xff xff xff xff))
(L (W x00 x00 x00 x00 x00 x00 x00 x00)))
(T (W xff xff xff xff xff xff xff xff)
(L (W xff xff xff xff xff xff xff xff))
(L (W x00 x00 x00 x00 x00 x00 x00 x00))))
(T (W x00 x00 x80 x3f x00 x00 x80 x3f)
(T (W x03 x00 x00 x00 xd4 x00 x00 x00)
(L (W x00 x00 x80 x3f x00 x00 x80 x3f))
(L (W x00 x00 x80 xbf x00 x00 x80 xbf)))
(T (W x00 x00 x80 x3f x00 x00 x80 x3f)
(L (W x00 x00 x80 xbf x00 x00 x80 xbf)) E)))))
(T (W x00 x00 x00 x00 x00 x00 x00 x00)
(T (W x01 x00 x00 x00 x04 x00 x00 x00)
(T (W x20 x01 x00 x00 x04 x00 x00 x00)
(T (W xc0 x00 x00 x00 xb4 x00 x00 x00)
(T (W x00 x00 x00 x00 x00 x00 x00 x00)
(L (W x00 x00 x80 x3f x00 x00 x80 x3f))
(L (W x00 x00 x80 xbf x00 x00 x80 xbf)))
(T (W x00 x00 x00 x00 x00 x00 x00 x00)
(L (W x64 x5f x70 x6f x6b x65 x5f x77))
(L (W x00 x00 x80 xbf x00 x00 x80 xbf))))
(T (W x00 x00 x80 x3f x00 x00 x80 x3f)
(T (W xc4 x00 x00 x00 x01 x00 x00 x00)
(L (W xff xff xff xff xff xff xff xff))
(L (W x49 xa1 x68 x4a xeb x5f xdd x3d)))
(T (W x34 x00 x00 x00 x10 x00 x00 x00)
(L (W x45 x26 x22 x84 xe4 x9c xf2 xcb))
(L (W x30 x34 x5f x43 x4c x45 x41 x52)))))
(T (W xb8 x00 x00 x00 xac x00 x00 x00)
(T (W x45 x26 x22 x84 xe4 x9c xf2 xcb)
(T (W x00 x00 x80 x3f x00 x00 x80 x3f)
(L (W x2a xfd xff xff x23 x00 x00 x00))
(L (W x30 x34 x5f x43 x4c x45 x41 x52)))
(T (W xff xff xff xff xff xff xff xff)
(L (W x03 x00 x00 x00 xd0 x00 x00 x00))
(L (W x3c x00 x00 x00 x00 x00 x80 xbf))))
(T (W x00 x00 x00 x00 x00 x00 x00 x00)
(T (W x00 x00 x80 x3f x00 x00 x80 x3f)
(L (W x54 x0b x00 x00 x28 x0a x00 x00))
(L (W x00 x00 x80 xbf x00 x00 x80 xbf)))
(T (W xff xff xff xff xff xff xff xff)
(L (W x00 x00 x80 xbf x00 x00 x80 xbf)) E))))
(T (W x9a x0e xfe xff x00 x00 x01 x01)
(T (W xff xff xff xff xff xff xff xff)
(T (W x45 x26 x22 x84 xe4 x9c xf2 xcb)
(T (W x00 x00 x00 x00 x00 x00 x00 x00)
(L (W x00 x00 x80 x3f x00 x00 x80 x3f))
(L (W xff xff xff xff xff xff xff xff)))
(T (W x00 x00 x80 x3f x00 x00 x80 x3f)
(L (W x00 x00 x80 x3f x00 x00 x80 x3f))
(L (W x14 x00 x00 x00 x0c x00 x00 x00))))
(T (W x00 x00 x00 x00 x00 x00 x00 x00)
(T (W x8c x09 xaf xaa x7a xe8 xb9 xe3)
(L (W x9f x61 x6c x12 x83 xf3 x3a xc6))
(L (W x00 x00 x80 xbf x00 x00 x80 xbf)))
(T (W x43 x5d x2e x97 x85 x1a x59 x5f)
(L (W x00 x00 x80 xbf x00 x00 x80 xbf))
(L (W x58 x00 x5c x00 x60 x00 x64 x00)))))
(T (W x01 x00 x00 x00 x9c x00 x00 x00)
(T (W x00 x00 x80 x3f x00 x00 x80 x3f)
(T (W x00 x00 x80 x3f x00 x00 x80 x3f)
(L (W x00 x00 x00 x00 x00 x00 x00 x00))
(L (W x00 x00 x00 x00 x00 x00 x00 x00)))
(T (W x8c xe0 xfd xff x10 x00 x00 x00)
(L (W xff xff xff xff xff xff xff xff))
(L (W x00 x00 x00 x00 x42 xe0 xff xff))))
(T (W x00 x00 x80 x3f x00 x00 x80 x3f)
(T (W xff xff xff xff xff xff xff xff)
(L (W x00 x00 x00 x00 x00 x00 x00 x00))
(L (W x45 x26 x22 x84 xe4 x9c xf2 xcb)))
(T (W x00 x00 x00 x00 x00 x00 x00 x00)
(L (W x00 x00 x80 xbf x00 x00 x80 xbf)) E)))))))
(T (W x00 x00 x80 x3f x00 x00 x80 x3f)
(T (W x00 x00 x00 x00 xea x1d xff xff)
(T (W x20 x01 x00 x00 x04 x00 x00 x00)
(T (W xff xff xff xff xff xff xff xff)
(T (W xb8 x00 x00 x00 xac x00 x00 x00)
(T (W x00 x00 x80 x3f x00 x00 x80 x3f)
(T (W x01 x00 x00 x00 x04 x00 x00 x00)
(L (W xff xff xff xff xff xff xff xff))
(L (W x4f x84 x6f x8b xe8 xcb x63 xb7)))
(T (W xff xff xff xff xff xff xff xff)
(L (W x32 xa4 xfe xff x78 x00 x00 x00))
(L (W x00 x00 x00 x00 x12 x00 x00 x00))))
(T (W x00 x00 x00 x00 x00 x00 x00 x00)
(T (W x00 x00 x00 x00 x00 x00 x00 x00)
(L (W xff xff xff xff xff xff xff xff))
(L (W x00 x00 x00 x00 x00 x00 x00 x00)))
(T (W xff xff xff xff xff xff xff xff)
(L (W xff xff xff xff xff xff xff xff))
(L (W xff xff xff xff xff xff xff xff)))))
(T (W x00 x00 x80 x3f x00 x00 x80 x3f)
(T (W x00 x00 x00 x00 x00 x00 x00 x00)
(T (W x00 x00 x00 x00 x00 x00 x00 x00)
(L (W xff xff xff xff xff xff xff xff))
(L (W x18 x00 x00 x00 x0c x00 x00 x00)))
(T (W x00 x00 x00 x00 x00 x00 x00 x00)
(L (W x45 x26 x22 x84 xe4 x9c xf2 xcb))
(L (W x4f x84 x6f x8b xe8 xcb x63 xb7))))
(T (W x00 x00 x00 x00 x00 x00 x00 x00)
(T (W xff xff xff xff xff xff xff xff)
(L (W x00 x00 x00 x00 x00 x00 x00 x00))
(L (W x45 x26 x22 x84 xe4 x9c xf2 xcb)))
(T (W x18 x00 x00 x00 x10 x00 x00 x00)
(L (W x30 x34 x5f x43 x4c x45 x41 x52))
(L (W x24 x00 x00 x00 x18 x00 x00 x00))))))
(T (W xff xff xff xff xff xff xff xff)
(T (W x45 x26 x22 x84 xe4 x9c xf2 xcb)
(T (W x45 x26 x22 x84 xe4 x9c xf2 xcb)
(T (W x9a xe4 xfe xff x00 x00 x01 x01)
(L (W x00 x00 x00 x00 x00 x00 x00 x00))
(L (W x00 x00 x80 xbf x00 x00 x80 xbf)))
(T (W x00 x00 x00 x00 xca xb0 xfd xff)
(L (W x45 x26 x22 x84 xe4 x9c xf2 xcb))
(L (W x00 x00 x00 x00 x00 x00 x00 x00))))
(T (W x00 x00 x00 x00 x00 x00 x00 x00)
(T (W x68 x00 x00 x00 x5c x00 x00 x00)
(L (W x45 x26 x22 x84 xe4 x9c xf2 xcb))
(L (W x00 x00 x00 x00 x00 x00 x00 x00)))
(T (W xff xff xff xff xff xff xff xff)
(L (W x46 x53 x59 x53 x5f x4e x53 x5f))
(L (W x64 x00 x68 x00 x62 x00 x00 x00)))))
(T (W x68 x00 x00 x00 x5c x00 x00 x00)
(T (W x00 x00 x80 x3f x00 x00 x80 x3f)
(T (W x00 x00 x00 x00 x00 x00 x00 x00)
(L (W x34 x5b xfe xff x46 x00 x00 x00))
(L (W xff xff xff xff xff xff xff xff)))
(T (W x27 x00 x00 x00 x2a x00 x00 x00)
(L (W xea xe7 xfe xff x74 x00 x00 x00))
(L (W xc0 x00 x00 x00 x01 x00 x00 x00))))
(T (W x00 x00 x00 x00 x00 x00 x00 x00)
(T (W x00 x00 x80 x3f x00 x00 x80 x3f)
(L (W x45 x44 x00 x00 x00 x00 x00 x00))
(L (W x00 x00 x00 x00 x00 x00 x00 x00)))
(T (W x00 x00 x00 x00 x00 x00 x00 x00)
(L (W x00 x00 x00 x00 x00 x00 x00 x00)) E)))))
(T (W xff xff xff xff xff xff xff xff)
(T (W xff xff xff xff xff xff xff xff)
(T (W xff xff xff xff x04 x00 x00 x00)
(T (W x00 x00 x80 x3f x00 x00 x80 x3f)
(T (W xff xff xff xff xff xff xff xff)
(L (W x00 x00 x00 x00 x00 x00 x00 x00))
(L (W x00 x00 x00 x00 x00 x00 x00 x00)))
(T (W xff xff xff xff xff xff xff xff)
(L (W x6c x00 x00 x00 x60 x00 x00 x00))
(L (W x00 x00 x00 x00 x00 x00 x00 x00))))
(T (W x00 x00 x00 x00 x00 x00 x00 x00)
(T (W x00 x00 x80 x3f x00 x00 x80 x3f)
(L (W xea x7f xfe xff x74 x00 x00 x00))
(L (W xff xff xff xff xff xff xff xff)))
(T (W xff xff xff xff xff xff xff xff)
(L (W x54 x02 x00 x00 x38 x01 x00 x00))
(L (W x40 x00 x00 x00 x0c x00 x00 x00)))))
(T (W x50 x00 x00 x00 x44 x00 x00 x00)
(T (W x45 x26 x22 x84 xe4 x9c xf2 xcb)
(T (W x00 x00 x00 x00 x01 x00 x00 x00)
(L (W xff xff xff xff xff xff xff xff))
(L (W xff xff xff xff xff xff xff xff)))
(T (W x00 x00 x80 x3f x00 x00 x80 x3f)
(L (W x00 x00 x80 xbf x00 x00 x80 xbf))
(L (W x00 x00 x80 xbf x00 x00 x80 xbf))))
(T (W x00 x00 x80 x3f x00 x00 x80 x3f)
(T (W x00 x00 x00 x00 x00 x00 x00 x00)
(L (W x68 x00 x00 x00 x5c x00 x00 x00))
(L (W x00 x00 x00 x00 x00 x00 x00 x00)))
(T (W x45 x26 x22 x84 xe4 x9c xf2 xcb)
(L (W x00 x00 x00 x00 x00 x00 x00 x00)) E))))
(T (W xff xff xff xff xff xff xff xff)
(T (W x68 x00 x00 x00 x5c x00 x00 x00)
(T (W x00 x00 x00 x00 x00 x00 x00 x00)
(T (W x00 x00 x00 x00 x00 x00 x00 x00)
(L (W x00 x00 x00 x00 x00 x00 x00 x00))
(L (W x32 x3c xff xff x78 x00 x00 x00)))
(T (W x00 x00 x00 x00 x00 x00 x00 x00)
(L (W x00 x00 x00 x00 x00 x00 x00 x00))
(L (W x00 x00 x80 xbf x00 x00 x80 xbf))))
(T (W x00 x00 x00 x00 x00 x00 x00 x00)
(T (W xff xff xff xff xff xff xff xff)
(L (W xff xff xff xff x9c x00 x00 x00))
(L (W x30 x34 x5f x43 x4c x45 x41 x52)))
(T (W xff xff xff xff xff xff xff xff)
(L (W x00 x00 x00 x00 x00 x00 x00 x00))
(L (W x49 xa1 x68 x4a xeb x5f xdd x3d)))))
(T (W xea xaf xfc xff x74 x00 x00 x00)
(T (W x00 x00 x00 x00 x00 x00 x00 x00)
(T (W x00 x00 x00 x00 x00 x00 x00 x00)
(L (W xb0 x00 x00 x00 x64 x00 x00 x00))
(L (W xff xff xff xff xff xff xff xff)))
(T (W xff xff xff xff xff xff xff xff)
(L (W xcc x00 x00 x00 x01 x00 x00 x00))
(L (W x00 x00 x80 xbf x00 x00 x80 xbf))))
(T (W x34 x23 xfd xff x16 x00 x00 x00)
(T (W x45 x26 x22 x84 xe4 x9c xf2 xcb)
(L (W xff xff xff xff xff xff xff xff))
(L (W x2b x00 x00 x00 x2e x00 x00 x00)))
(T (W x8c x1e xfe xff x2e x00 x00 x00)
(L (W x00 x00 x00 x00 x00 x00 x00 x00)) E))))))
(T (W x00 x00 x80 x3f x00 x00 x80 x3f)
(T (W x45 x26 x22 x84 xe4 x9c xf2 xcb)
(T (W x00 x00 x80 x3f x00 x00 x80 x3f)
(T (W x00 x00 x00 x00 x00 x00 x00 x00)
(T (W xff xff xff xff xff xff xff xff)
(T (W x68 x00 x00 x00 x5c x00 x00 x00)
(L (W xb8 x00 x00 x00 xac x00 x00 x00))
(L (W xcc x00 x00 x00 x01 x00 x00 x00)))
(T (W x00 x00 x00 x00 x00 x00 x00 x00)
(L (W x00 x00 x80 x3f x00 x00 x80 x3f))
(L (W x32 xa8 xff xff x78 x00 x00 x00))))
(T (W xff xff xff xff xff xff xff xff)
(T (W xff xff xff xff xff xff xff xff)
(L (W x00 x00 x00 x00 x00 x00 x00 x00))
(L (W x00 x00 x80 xbf x00 x00 x80 xbf)))
(T (W x00 x00 x80 x3f x00 x00 x80 x3f)
(L (W x00 x00 x80 xbf x00 x00 x80 xbf))
(L (W xff xff xff xff xff xff xff xff)))))
(T (W x00 x00 x00 x00 x00 x00 x00 x00)
(T (W xff xff xff xff xff xff xff xff)
(T (W x00 x00 x80 x3f x00 x00 x80 x3f)
(L (W x45 x26 x22 x84 xe4 x9c xf2 xcb))
(L (W x00 x00 x00 x00 x00 x00 x00 x00)))
(T (W xff xff xff xff xff xff xff xff)
(L (W xff xff xff xff xff xff xff xff))
(L (W x1c x00 x00 x00 x10 x00 x00 x00))))
(T (W x50 x00 x00 x00 x44 x00 x00 x00)
(T (W x45 x26 x22 x84 xe4 x9c xf2 xcb)
(L (W xff xff xff xff xff xff xff xff))
(L (W xff xff xff xff xff xff xff xff)))
(T (W x00 x00 x00 x00 x00 x00 x00 x00)
(L (W x03 x00 x00 x00 xd0 x00 x00 x00))
(L (W x30 x34 x5f x43 x4c x45 x41 x52))))))
(T (W x00 x00 x00 x00 x00 x00 x00 x00)
(T (W x00 x00 x00 x00 x00 x00 x00 x00)
(T (W xff xff xff xff xff xff xff xff)
(T (W x00 x00 x80 x3f x00 x00 x80 x3f)
(L (W x01 x00 x00 x00 x9c x00 x00 x00))
(L (W xff xff xff xff xff xff xff xff)))
(T (W x45 x26 x22 x84 xe4 x9c xf2 xcb)
(L (W xff xff xff xff xc0 x00 x00 x00))
(L (W xff xff xff xff xff xff xff xff))))
(T (W x01 x00 x00 x00 xa0 x00 x00 x00)
(T (W x00 x00 x00 x00 x12 x00 x00 x00)
(L (W x00 x00 x01 x01 xcf x00 x00 x00))
(L (W x40 x00 x00 x00 x00 x00 x80 xbf)))
(T (W x00 x00 x80 x3f x00 x00 x80 x3f)
(L (W xff xff xff xff xac x00 x00 x00))
(L (W xbc x00 x00 x00 x64 x00 x00 x00)))))
(T (W x64 x01 x00 x00 xff xff xff xff)
(T (W xff xff xff xff xff xff xff xff)
(T (W xff xff xff xff x9c x00 x00 x00)
(L (W x00 x00 x00 x00 x00 x00 x00 x00))
(L (W x45 x26 x22 x84 xe4 x9c xf2 xcb)))
(T (W x00 x00 x00 x00 x00 x00 x00 x00)
(L (W x4f x84 x6f x8b xe8 xcb x63 xb7))
(L (W x2b x00 x00 x00 x2e x00 x00 x00))))
(T (W x40 x00 x00 x00 x9c x00 x00 x00)
(T (W x9c x01 x00 x00 xff xff xff xff)
(L (W x6c x76 x32 x00 x22 x00 x00 x00))
(L (W xff xff xff xff x9c x00 x00 x00)))
(T (W x18 x00 x00 x00 x0c x00 x00 x00)
(L (W xff xff xff xff xff xff xff xff)) E)))))
(T (W x00 x00 x80 x3f x00 x00 x80 x3f)
(T (W x45 x26 x22 x84 xe4 x9c xf2 xcb)
(T (W x00 x00 x00 x00 x00 x00 x00 x00)
(T (W xff xff xff xff xff xff xff xff)
(T (W x32 x30 xfd xff x78 x00 x00 x00)
(L (W xb8 x00 x00 x00 xac x00 x00 x00))
(L (W xff xff xff xff xff xff xff xff)))
(T (W x00 x00 x80 x3f x00 x00 x80 x3f)
(L (W x45 x26 x22 x84 xe4 x9c xf2 xcb))
(L (W xb0 x00 x00 x00 x64 x00 x00 x00))))
(T (W x18 x00 x00 x00 x10 x00 x00 x00)
(T (W x04 x00 x00 x00 xca x6c xfd xff)
(L (W x00 x00 x00 x00 x00 x00 x00 x00))
(L (W x32 x70 xff xff x78 x00 x00 x00)))
(T (W x00 x00 x00 x00 x00 x00 x00 x00)
(L (W x50 x00 x00 x00 x44 x00 x00 x00))
(L (W x00 x00 x00 x00 x00 x00 x00 x00)))))
(T (W xf9 xf1 xcb x0f xd1 x26 xaa xe4)
(T (W xb8 x00 x00 x00 xac x00 x00 x00)
(T (W xf0 x4b xfd xff x00 x01 x01 x01)
(L (W xff xff xff xff xff xff xff xff))
(L (W x49 xa1 x68 x4a xeb x5f xdd x3d)))
(T (W x00 x00 x00 x00 x00 x00 x00 x00)
(L (W x02 x00 x00 x00 x30 x01 x00 x00))
(L (W x23 x00 x00 x00 x26 x00 x00 x00))))
(T (W x45 x26 x22 x84 xe4 x9c xf2 xcb)
(T (W xff xff xff xff xff xff xff xff)
(L (W x00 x00 x80 x3f x00 x00 x80 x3f))
(L (W xff xff xff xff xff xff xff xff)))
(T (W x80 x96 x30 x97 x85 x1c x5c x5f)
(L (W xff xff xff xff xff xff xff xff)) E))))
(T (W x00 x00 x00 x00 x00 x00 x00 x00)
(T (W x00 x00 x00 x00 x00 x00 x00 x00)
(T (W xff xff xff xff xff xff xff xff)
(T (W x00 x00 x80 x3f x00 x00 x80 x3f)
(L (W x00 x00 x00 x00 x00 x00 x00 x00))
(L (W x46 x53 x59 x53 x5f x4e x53 x5f)))
(T (W xff xff xff xff xff xff xff xff)
(L (W xff xff xff xff xb0 x00 x00 x00))
(L (W xff xff xff xff xff xff xff xff))))
(T (W xea x13 xfd xff x74 x00 x00 x00)
(T (W x45 x26 x22 x84 xe4 x9c xf2 xcb)
(L (W x00 x00 x80 xbf x00 x00 x80 xbf))
(L (W xc4 x00 x00 x00 x01 x00 x00 x00)))
(T (W x00 x00 x00 x00 x00 x00 x00 x00)
(L (W xff xff xff xff xff xff xff xff))
(L (W x6c x00 x00 x00 x60 x00 x00 x00)))))
(T (W xff xff xff xff xff xff xff xff)
(T (W xff xff xff xff xff xff xff xff)
(T (W xff xff xff xff xff xff xff xff)
(L (W x00 x00 x00 x00 x00 x00 x00 x00))
(L (W x54 x00 x00 x00 x48 x00 x00 x00)))
(T (W x00 x00 x80 x3f x00 x00 x80 x3f)
(L (W x00 x00 x00 x00 x00 x00 x00 x00))
(L (W x45 x26 x22 x84 xe4 x9c xf2 xcb))))
(T (W x01 x00 x00 x00 x3c x00 x00 x00)
(T (W x00 x00 x00 x00 x00 x00 x00 x00)
(L (W xff xff xff xff xb0 x00 x00 x00))
(L (W x45 x26 x22 x84 xe4 x9c xf2 xcb)))
(T (W x00 x00 x80 x3f x00 x00 x80 x3f)
(L (W xff xff xff xff x9c x00 x00 x00)) E)))))))))
(T (W x30 x33 x02 x00 x7c x31 x02 x00)
(T (W xc0 x84 x01 x00 x0c x80 x01 x00)
(T (W x58 x48 x00 x00 x0c x46 x00 x00)
(T (W x00 x00 x00 x00 x00 x00 x00 x00)
(T (W x00 x00 x00 x00 x00 x00 x00 x00)
(T (W x00 x00 x00 x00 x00 x00 x00 x00)
(T (W xff xff xff xff xff xff xff xff)
(T (W x70 x9d xfc xff x00 x01 x01 x01)
(T (W x45 x26 x22 x84 xe4 x9c xf2 xcb)
(L (W x00 x00 x00 x00 x00 x00 x00 x00))
(L (W x00 x01 x01 x01 x2a x1a xff xff)))
(T (W xff xff xff xff xff xff xff xff)
(L (W x45 x26 x22 x84 xe4 x9c xf2 xcb))
(L (W x3c x00 x00 x00 x00 x00 x80 xbf))))
(T (W x00 x00 x80 x3f x00 x00 x80 x3f)
(T (W x00 x00 x80 x3f x00 x00 x80 x3f)
(L (W x4c x02 x00 x00 x38 x01 x00 x00))
(L (W x00 x00 x00 x00 x00 x00 x00 x00)))
(T (W x4c x45 x41 x52 x45 x44 x00 x00)
(L (W x30 x34 x5f x43 x4c x45 x41 x52))
(L (W x45 x44 x00 x00 x00 x00 x00 x00)))))
(T (W xff xff xff xff xff xff xff xff)
(T (W x6c x00 x00 x00 x60 x00 x00 x00)
(T (W x00 x00 x00 x00 x00 x00 x00 x00)
(L (W x00 x00 x00 x00 x00 x00 x00 x00))
(L (W xff xff xff xff xff xff xff xff)))
(T (W x00 x00 x80 x3f x00 x00 x80 x3f)
(L (W x00 x00 x80 x3f x00 x00 x80 x3f))
(L (W x45 x26 x22 x84 xe4 x9c xf2 xcb))))
(T (W x45 x26 x22 x84 xe4 x9c xf2 xcb)
(T (W x00 x00 x00 x00 x00 x00 x00 x00)
(L (W x00 x00 x00 x00 x00 x00 x00 x00))
(L (W x00 x00 x80 xbf x00 x00 x80 xbf)))
(T (W xff xff xff xff xff xff xff xff)
(L (W x00 x00 x80 xbf x00 x00 x80 xbf))
(L (W x00 x00 x00 x00 x00 x00 x00 x00))))))
(T (W x00 x00 x00 x00 xba x0e xff xff)
(T (W xff xff xff xff xff xff xff xff)
(T (W x00 x00 x80 x3f x00 x00 x80 x3f)
(T (W x00 x00 x00 x00 x00 x00 x00 x00)
(L (W x00 x00 x80 x3f x00 x00 x80 x3f))
(L (W x70 x2d xff xff x00 x01 x01 x01)))
(T (W x00 x00 x00 x00 x00 x00 x00 x00)
(L (W x45 x26 x22 x84 xe4 x9c xf2 xcb))
(L (W x00 x00 x80 xbf x00 x00 x80 xbf))))
(T (W x00 x00 x80 x3f x00 x00 x80 x3f)
(T (W xff xff xff xff x9c x00 x00 x00)
(L (W xff xff xff xff xff xff xff xff))
(L (W x00 x00 x00 x00 x00 x00 x00 x00)))
(T (W x00 x00 x00 x00 x00 x00 x00 x00)
(L (W x00 x00 x80 xbf x00 x00 x80 xbf))
(L (W xff xff xff xff xff xff xff xff)))))
(T (W x64 x00 x00 x00 x9c x00 x00 x00)
(T (W x00 x00 x80 x3f x00 x00 x80 x3f)
(T (W x00 x00 x00 x00 x00 x00 x00 x00)
(L (W xd0 x00 x00 x00 xac x00 x00 x00))
(L (W x42 xa0 xaa x28 xbf xd0 x56 x6a)))
(T (W xff xff xff xff xbc x00 x00 x00)
(L (W xb0 x00 x00 x00 x64 x00 x00 x00))
(L (W x00 x00 x80 xbf x00 x00 x80 xbf))))
(T (W x00 x00 x00 x00 x00 x00 x00 x00)
(T (W x54 x00 x00 x00 x48 x00 x00 x00)
(L (W x30 x34 x5f x43 x4c x45 x41 x52))
(L (W x6c x00 x00 x00 x60 x00 x00 x00)))
(T (W x00 x00 x00 x00 x00 x00 x00 x00)
(L (W x00 x00 x80 xbf x00 x00 x80 xbf)) E)))))
(T (W x3e x00 x00 x00 x10 x00 x00 x00)
(T (W x21 x00 x00 x00 x10 x00 x00 x00)
(T (W xff xff xff xff xff xff xff xff)
(T (W x50 x00 x00 x00 x44 x00 x00 x00)
(T (W x00 x00 x80 x3f x00 x00 x80 x3f)
(L (W x45 x26 x22 x84 xe4 x9c xf2 xcb))
(L (W x00 x00 x80 xbf x00 x00 x80 xbf)))
(T (W x45 x44 x00 x00 x00 x00 x00 x00)
(L (W x00 x00 x00 x00 x00 x00 x00 x00))
(L (W x00 x00 x00 x00 x00 x00 x00 x00))))
(T (W x00 x00 x80 x3f x00 x00 x80 x3f)
(T (W x6c x00 x00 x00 x60 x00 x00 x00)
(L (W xff xff xff xff xff xff xff xff))
(L (W x30 x34 x5f x43 x4c x45 x41 x52)))
(T (W x40 x00 x00 x00 x10 x00 x00 x00)
(L (W x0c xec xfe xff x35 x00 x00 x00))
(L (W xff xff xff xff xff xff xff xff)))))
(T (W xff xff xff xff xff xff xff xff)
(T (W x50 x00 x00 x00 x44 x00 x00 x00)
(T (W x00 x00 x00 x00 x01 x00 x00 x00)
(L (W xaa xf8 xff xff x2a x00 x00 x00))
(L (W xff xff xff xff xff xff xff xff)))
(T (W xff xff xff xff xac x00 x00 x00)
(L (W x6c x00 x00 x00 x60 x00 x00 x00))
(L (W x00 x00 x80 xbf x00 x00 x80 xbf))))
(T (W x00 x00 x00 x00 x00 x00 x00 x00)
(T (W x45 x26 x22 x84 xe4 x9c xf2 xcb)
(L (W x5c xfc xff xff x01 x01 x01 x01))
(L (W x54 x00 x00 x00 x48 x00 x00 x00)))
(T (W xff xff xff xff xff xff xff xff)
(L (W x00 x00 x80 xbf x00 x00 x80 xbf))
(L (W x00 x00 x00 x00 x00 x00 x00 x00))))))
(T (W x1c x01 x00 x00 x04 x00 x00 x00)
(T (W xff xff xff xff xff xff xff xff)
(T (W x00 x00 x80 x3f x00 x00 x80 x3f)
(T (W x00 x00 x00 x00 x00 x00 x00 x00)
(L (W x00 x00 x00 x00 x00 x00 x00 x00))
(L (W x45 x26 x22 x84 xe4 x9c xf2 xcb)))
(T (W x00 x00 x00 x00 x00 x00 x00 x00)
(L (W x00 x00 x80 x3f x00 x00 x80 x3f))
(L (W x00 x00 x80 xbf x00 x00 x80 xbf))))
(T (W x45 x26 x22 x84 xe4 x9c xf2 xcb)
(T (W xff xff xff xff xff xff xff xff)
(L (W x03 x00 x00 x00 xbc x00 x00 x00))
(L (W x00 x00 x00 x00 x00 x00 x00 x00)))
(T (W xa9 x60 x2e x97 x85 x1c x59 x5f)
(L (W x00 x00 x80 xbf x00 x00 x80 xbf))
(L (W xb2 xf9 xff xff x78 x00 x00 x00)))))
(T (W xbc x00 x00 x00 xb0 x00 x00 x00)
(T (W x00 x00 x80 x3f x00 x00 x80 x3f)
(T (W x49 xa1 x68 x4a xeb x5f xdd x3d)
(L (W xff xff xff xff xff xff xff xff))
(L (W x46 x53 x59 x53 x5f x4e x53 x5f)))
(T (W xff xff xff xff xff xff xff xff)
(L (W xff xff xff xff xff xff xff xff))
(L (W x00 x00 x80 xbf x00 x00 x80 xbf))))
(T (W x45 x26 x22 x84 xe4 x9c xf2 xcb)
(T (W x18 x00 x00 x00 x10 x00 x00 x00)
(L (W xff xff xff xff xff xff xff xff))
(L (W x00 x00 x80 xbf x00 x00 x80 xbf)))
(T (W x00 x00 x00 x00 x00 x00 x00 x00)
(L (W x6c x00 x00 x00 x60 x00 x00 x00)) E))))))
(T (W x45 x26 x22 x84 xe4 x9c xf2 xcb)
(T (W x18 x00 x00 x00 x10 x00 x00 x00)
(T (W x00 x00 x80 x3f x00 x00 x80 x3f)
(T (W x50 x00 x00 x00 x44 x00 x00 x00)
(T (W x00 x00 x00 x00 x00 x00 x00 x00)
(T (W xff xff xff xff x04 x00 x00 x00)
(L (W x01 x00 x00 x00 x9c x00 x00 x00))
(L (W xff xff xff xff xff xff xff xff)))
(T (W x50 x00 x00 x00 x44 x00 x00 x00)
(L (W x00 x00 x00 x00 x00 x00 x00 x00))
(L (W x03 x00 x00 x00 xd8 x00 x00 x00))))
(T (W x23 x00 x00 x00 xff xff xff xff)
(T (W xff xff xff xff xff xff xff xff)
(L (W x3c x00 x00 x00 x00 x00 x80 xbf))
(L (W xff xff xff xff xff xff xff xff)))
(T (W x18 x00 x00 x00 x0c x00 x00 x00)
(L (W x6c x00 x00 x00 x60 x00 x00 x00))
(L (W xb2 xe5 xff xff x78 x00 x00 x00)))))
(T (W x00 x00 x00 x00 x00 x00 x00 x00)
(T (W x00 x00 x00 x00 x02 x00 x00 x00)
(T (W x00 x00 x80 x3f x00 x00 x80 x3f)
(L (W x50 x00 x00 x00 x44 x00 x00 x00))
(L (W x45 x26 x22 x84 xe4 x9c xf2 xcb)))
(T (W x00 x00 x00 x00 x00 x00 x00 x00)
(L (W xff xff xff xff xff xff xff xff))
(L (W xff xff xff xff xff xff xff xff))))
(T (W xff xff xff xff x03 x00 x00 x00)
(T (W xff xff xff xff xff xff xff xff)
(L (W xff xff xff xff xff xff xff xff))
(L (W x42 x00 x00 x00 xff xff xff xff)))
(T (W x00 x00 x80 x3f x00 x00 x80 x3f)
(L (W xff xff xff xff xff xff xff xff))
(L (W xff xff xff xff xc8 x00 x00 x00))))))
(T (W x00 x00 x80 x3f x00 x00 x80 x3f)
(T (W x00 x00 x80 x3f x00 x00 x80 x3f)
(T (W x00 x00 x00 x00 x00 x00 x00 x00)
(T (W x6a x49 xfd xff x74 x00 x00 x00)
(L (W xff xff xff xff xff xff xff xff))
(L (W xb4 x3c xff xff x1d x00 x00 x00)))
(T (W xff xff xff xff x9c x00 x00 x00)
(L (W xc4 x01 x00 x00 xff xff xff xff))
(L (W x04 x00 x00 x00 xc2 xb7 xff xff))))
(T (W xff xff xff xff xff xff xff xff)
(T (W x4f x84 x6f x8b xe8 xcb x63 xb7)
(L (W x00 x00 x00 x00 x00 x00 x00 x00))
(L (W xff xff xff xff xff xff xff xff)))
(T (W x45 x26 x22 x84 xe4 x9c xf2 xcb)
(L (W xff xff xff xff xff xff xff xff))
(L (W x5c x00 x60 x00 x62 x00 x00 x00)))))
(T (W x00 x00 x00 x00 x00 x00 x00 x00)
(T (W x00 x00 x00 x00 x04 x00 x00 x00)
(T (W xff xff xff xff xff xff xff xff)
(L (W x00 x00 x00 x00 x00 x00 x00 x00))
(L (W xb2 x55 xff xff x78 x00 x00 x00)))
(T (W x00 x00 x80 x3f x00 x00 x80 x3f)
(L (W x49 xa1 x68 x4a xeb x5f xdd x3d))
(L (W xb0 x00 x00 x00 x64 x00 x00 x00))))
(T (W xff xff xff xff xff xff xff xff)
(T (W x0c x98 xfd xff x10 x00 x00 x00)
(L (W xff xff xff xff xff xff xff xff))
(L (W xff xff xff xff xff xff xff xff)))
(T (W xff xff xff xff xff xff xff xff)
(L (W xff xff xff xff xff xff xff xff)) E)))))
(T (W x6a x51 xfc xff x74 x00 x00 x00)
(T (W x00 x00 x80 x3f x00 x00 x80 x3f)
(T (W x00 x00 x80 x3f x00 x00 x80 x3f)
(T (W x0c xb0 xfc xff x3c x00 x00 x00)
(T (W x18 x00 x00 x00 x0c x00 x00 x00)
(L (W xff xff xff xff xff xff xff xff))
(L (W xff xff xff xff xff xff xff xff)))
(T (W x18 x00 x00 x00 x0c x00 x00 x00)
(L (W x00 x00 x80 x3f x00 x00 x80 x3f))
(L (W xff xff xff xff xff xff xff xff))))
(T (W xff xff xff xff xff xff xff xff)
(T (W x00 x00 x00 x00 x00 x00 x00 x00)
(L (W x49 xa1 x68 x4a xeb x5f xdd x3d))
(L (W x03 x00 x00 x00 xd8 x00 x00 x00)))
(T (W x00 x00 x80 x3f x00 x00 x80 x3f)
(L (W xff xff xff xff xc8 x00 x00 x00))
(L (W x00 x01 x01 x01 x2a xe6 xff xff)))))
(T (W x00 x00 x00 x00 x00 x00 x00 x00)
(T (W x00 x00 x00 x00 x00 x00 x00 x00)
(T (W xff xff xff xff xff xff xff xff)
(L (W x00 x00 x80 x3f x00 x00 x80 x3f))
(L (W x6c x00 x00 x00 x60 x00 x00 x00)))
(T (W x00 x00 x00 x00 x00 x00 x00 x00)
(L (W x00 x00 x00 x00 x00 x00 x00 x00))
(L (W x29 x00 x00 x00 xff xff xff xff))))
(T (W xb2 x0d xfd xff x78 x00 x00 x00)
(T (W xff xff xff xff xff xff xff xff)
(L (W x45 x26 x22 x84 xe4 x9c xf2 xcb))
(L (W xff xff xff xff xff xff xff xff)))
(T (W x00 x00 x00 x00 x00 x00 x00 x00)
(L (W xff xff xff xff xff xff xff xff)) E))))
(T (W x00 x00 x80 x3f x00 x00 x80 x3f)
(T (W x00 x00 x00 x00 x00 x00 x00 x00)
(T (W xb4 xa3 xc4 x40 xdf x3d x69 xaa)
(T (W x45 x26 x22 x84 xe4 x9c xf2 xcb)
(L (W xff xff xff xff xff xff xff xff))
(L (W x00 x00 x00 x00 x00 x00 x00 x00)))
(T (W xff xff xff xff xff xff xff xff)
(L (W xff xff xff xff xff xff xff xff))
(L (W x30 x34 x5f x43 x4c x45 x41 x52))))
(T (W x64 x00 x00 x00 x9c x00 x00 x00)
(T (W x00 x00 x80 x3f x00 x00 x80 x3f)
(L (W x00 x00 x80 xbf x00 x00 x80 xbf))
(L (W xff xff xff xff xff xff xff xff)))
(T (W x00 x00 x80 x3f x00 x00 x80 x3f)
(L (W xff xff xff xff xff xff xff xff))
(L (W x0c x00 x00 x00 x1d x00 x00 x00)))))
(T (W x00 x00 x00 x00 x00 x00 x00 x00)
(T (W xff xff xff xff xff xff xff xff)
(T (W xff xff xff xff xff xff xff xff)
(L (W x00 x00 x80 x3f x00 x00 x80 x3f))
(L (W x25 x00 x00 x00 x28 x00 x00 x00)))
(T (W x00 x00 x80 x3f x00 x00 x80 x3f)
(L (W x00 x00 x80 xbf x00 x00 x80 xbf))
(L (W x00 x00 x80 xbf x00 x00 x80 xbf))))
(T (W xff xff xff xff xff xff xff xff)
(T (W x00 x00 x00 x00 x00 x00 x00 x00)
(L (W xc4 x00 x00 x00 x01 x00 x00 x00))
(L (W xbc x00 x00 x00 x64 x00 x00 x00)))
(T (W xb8 x00 x00 x00 xac x00 x00 x00)
(L (W xff xff xff xff xff xff xff xff)) E)))))))
(T (W xff xff xff xff xff xff xff xff)
(T (W x00 x00 x80 x3f x00 x00 x80 x3f)
(T (W x00 x00 x80 x3f x00 x00 x80 x3f)
(T (W x45 x26 x22 x84 xe4 x9c xf2 xcb)
(T (W x00 x00 x00 x00 x00 x00 x00 x00)
(T (W xff xff xff xff xff xff xff xff)
(T (W x00 x00 x80 x3f x00 x00 x80 x3f)
(L (W x00 x00 x80 x3f x00 x00 x80 x3f))
(L (W xcc x00 x00 x00 x01 x00 x00 x00)))
(T (W x00 x00 x00 x00 x00 x00 x00 x00)
(L (W x00 x00 x00 x00 x00 x00 x00 x00))
(L (W x45 x26 x22 x84 xe4 x9c xf2 xcb))))
(T (W x70 xdf xfc xff x00 x01 x01 x01)
(T (W xff xff xff xff xa0 x00 x00 x00)
(L (W x45 x26 x22 x84 xe4 x9c xf2 xcb))
(L (W x14 x00 x00 x00 x0c x00 x00 x00)))
(T (W x00 x00 x80 x3f x00 x00 x80 x3f)
(L (W x49 xa1 x68 x4a xeb x5f xdd x3d))
(L (W x00 x00 x00 x00 x00 x00 x00 x00)))))
(T (W xff xff xff xff xff xff xff xff)
(T (W x64 x00 x00 x00 x9c x00 x00 x00)
(T (W x64 x00 x00 x00 x9c x00 x00 x00)
(L (W x45 x26 x22 x84 xe4 x9c xf2 xcb))
(L (W x20 x00 x00 x00 x0c x00 x00 x00)))
(T (W xff xff xff xff x9c x00 x00 x00)
(L (W xbc x00 x00 x00 x64 x00 x00 x00))
(L (W xff xff xff xff xff xff xff xff))))
(T (W x45 x26 x22 x84 xe4 x9c xf2 xcb)
(T (W x00 x00 x80 x3f x00 x00 x80 x3f)
(L (W x50 x00 x00 x00 x44 x00 x00 x00))
(L (W xff xff xff xff xc8 x00 x00 x00)))
(T (W x00 x00 x00 x00 x00 x00 x00 x00)
(L (W x6c x00 x00 x00 x60 x00 x00 x00))
(L (W x00 x00 x00 x00 x00 x00 x00 x00))))))
(T (W x00 x00 x80 x3f x00 x00 x80 x3f)
(T (W x3e x00 x00 x00 x0c x00 x00 x00)
(T (W xff xff xff xff xff xff xff xff)
(T (W x00 x00 x80 x3f x00 x00 x80 x3f)
(L (W x01 x00 x00 x00 x9c x00 x00 x00))
(L (W xff xff xff xff xff xff xff xff)))
(T (W x00 x00 x80 x3f x00 x00 x80 x3f)
(L (W xbc x00 x00 x00 x28 x00 x00 x00))
(L (W xff xff xff xff xb0 x00 x00 x00))))
(T (W x6a x07 xfd xff x74 x00 x00 x00)
(T (W x00 x00 x00 x00 xba x6e xfd xff)
(L (W x00 x00 x00 x00 x00 x00 x00 x00))
(L (W x50 x00 x00 x00 x44 x00 x00 x00)))
(T (W x00 x00 x80 x3f x00 x00 x80 x3f)
(L (W xb2 xf3 xfe xff x78 x00 x00 x00))
(L (W x00 x00 x00 x00 x00 x00 x00 x00)))))
(T (W xa2 x4d xff xff x94 x01 x00 x00)
(T (W xff xff xff xff xff xff xff xff)
(T (W x00 x00 x00 x00 xe8 x50 xfd xff)
(L (W x55 x6c xfc xf1 x99 x9e xc9 x88))
(L (W x45 x26 x22 x84 xe4 x9c xf2 xcb)))
(T (W x5f x4e x53 x5f x30 x34 x5f x43)
(L (W x00 x00 x00 x00 x00 x00 x00 x00))
(L (W x58 x00 x00 x00 x5c x00 x00 x00))))
(T (W x6a x27 xfd xff x74 x00 x00 x00)
(T (W xff xff xff xff xff xff xff xff)
(L (W x54 x00 x00 x00 x48 x00 x00 x00))
(L (W xff xff xff xff x90 x00 x00 x00)))
(T (W x18 x00 x00 x00 x0c x00 x00 x00)
(L (W x2b x00 x00 x00 x2e x00 x00 x00)) E)))))
(T (W x00 x00 x00 x00 x00 x00 x00 x00)
(T (W x45 x26 x22 x84 xe4 x9c xf2 xcb)
(T (W x00 x00 x00 x00 x00 x00 x00 x00)
(T (W xff xff xff xff xff xff xff xff)
(T (W x00 x00 x80 x3f x00 x00 x80 x3f)
(L (W xb8 x00 x00 x00 xac x00 x00 x00))
(L (W x45 x26 x22 x84 xe4 x9c xf2 xcb)))
(T (W x4f x84 x6f x8b xe8 xcb x63 xb7)
(L (W xbc x02 x00 x00 xff xff xff xff))
(L (W x18 x00 x00 x00 x10 x00 x00 x00))))
(T (W x50 x00 x00 x00 x44 x00 x00 x00)
(T (W xff xff xff xff xff xff xff xff)
(L (W x00 x00 x00 x00 x00 x00 x00 x00))
(L (W x00 x00 x80 xbf x00 x00 x80 xbf)))
(T (W x00 x00 x00 x00 x00 x00 x00 x00)
(L (W x00 x00 x80 xbf x00 x00 x80 xbf))
(L (W x30 x34 x5f x43 x4c x45 x41 x52)))))
(T (W x94 x01 x00 x00 xff xff xff xff)
(T (W xff xff xff xff xff xff xff xff)
(T (W x00 x00 x80 x3f x00 x00 x80 x3f)
(L (W x00 x00 x00 x00 x00 x00 x00 x00))
(L (W x4f x84 x6f x8b xe8 xcb x63 xb7)))
(T (W xff xff xff xff xff xff xff xff)
(L (W xff xff xff xff xff xff xff xff))
(L (W xff xff xff xff xff xff xff xff))))
(T (W xff xff xff xff xff xff xff xff)
(T (W x00 x00 x00 x00 xe8 x88 xfd xff)
(L (W x00 x00 x01 x01 x24 x00 x00 x00))
(L (W x18 x00 x00 x00 x0c x00 x00 x00)))
(T (W x4a xae x30 x97 x85 x2a x5c x5f)
(L (W x18 x00 x00 x00 x10 x00 x00 x00)) E))))
(T (W x00 x00 x00 x00 x00 x00 x00 x00)
(T (W x1a x2c xfe xff x00 x00 x01 x01)
(T (W x64 x00 x00 x00 x9c x00 x00 x00)
(T (W x50 x00 x00 x00 x44 x00 x00 x00)
(L (W x64 x00 x00 x00 x9c x00 x00 x00))
(L (W x00 x00 x00 x00 xc2 x39 xff xff)))
(T (W x45 x26 x22 x84 xe4 x9c xf2 xcb)
(L (W x18 x00 x00 x00 x0c x00 x00 x00))
(L (W xff xff xff xff xff xff xff xff))))
(T (W x00 x00 x00 x00 xe8 xf8 xfc xff)
(T (W x00 x00 x00 x00 x00 x00 x00 x00)
(L (W x0c x7e xfe xff x39 x00 x00 x00))
(L (W x6c x00 x00 x00 x60 x00 x00 x00)))
(T (W x00 x00 x00 x00 x00 x00 x00 x00)
(L (W xff xff xff xff xa0 x00 x00 x00))
(L (W xff xff xff xff xff xff xff xff)))))
(T (W x1a x57 xff xff x00 x00 x01 x01)
(T (W x64 x00 x00 x00 x9c x00 x00 x00)
(T (W x18 x00 x00 x00 x0c x00 x00 x00)
(L (W x12 x00 x00 x00 x46 x53 x59 x53))
(L (W x00 x00 x80 xbf x00 x00 x80 xbf)))
(T (W x00 x00 x00 x00 x00 x00 x00 x00)
(L (W x00 x00 x00 x00 x00 x00 x00 x00))
(L (W xff xff xff xff xff xff xff xff))))
(T (W x00 x00 x80 x3f x00 x00 x80 x3f)
(T (W x00 x00 x00 x00 x00 x00 x00 x00)
(L (W x00 x00 x00 x00 x25 x00 x00 x00))
(L (W x58 x00 x5c x00 x60 x00 x64 x00)))
(T (W x00 x00 x80 x3f x00 x00 x80 x3f)
(L (W xff xff xff xff x90 x00 x00 x00)) E))))))
(T (W xff xff xff xff xff xff xff xff)
(T (W xff xff xff xff xff xff xff xff)
(T (W xff xff xff xff xff xff xff xff)
(T (W x45 x26 x22 x84 xe4 x9c xf2 xcb)
(T (W x45 x26 x22 x84 xe4 x9c xf2 xcb)
(T (W x00 x00 x00 x00 xba xe4 xff xff)
(L (W x6f x77 x61 x72 x64 x00 x00 x00))
(L (W x00 x00 x00 x00 x00 x00 x00 x00)))
(T (W xb0 x00 x00 x00 x28 x00 x00 x00)
(L (W xff xff xff xff xff xff xff xff))
(L (W x00 x00 x01 x01 xb2 x01 x00 x00))))
(T (W x00 x00 x00 x00 x00 x00 x00 x00)
(T (W x00 x00 x00 x00 x00 x00 x00 x00)
(L (W x45 x26 x22 x84 xe4 x9c xf2 xcb))
(L (W xff xff xff xff xff xff xff xff)))
(T (W xff xff xff xff xff xff xff xff)
(L (W xff xff xff xff xff xff xff xff))
(L (W x1c x00 x20 x00 x24 x00 x28 x00)))))
(T (W x6c x00 x00 x00 x60 x00 x00 x00)
(T (W x00 x00 x00 x00 x00 x00 x00 x00)
(T (W xff xff xff xff xff xff xff xff)
(L (W xff xff xff xff xff xff xff xff))
(L (W x25 x00 x00 x00 x28 x00 x00 x00)))
(T (W x4f x84 x6f x8b xe8 xcb x63 xb7)
(L (W x4f x84 x6f x8b xe8 xcb x63 xb7))
(L (W x00 x00 x00 x00 x00 x00 x00 x00))))
(T (W xff xff xff xff x01 x00 x00 x00)
(T (W x16 xca x33 xe6 x8d xc4 x48 xff)
(L (W x00 x00 x00 x00 x00 x00 x00 x00))
(L (W x00 x00 x80 xbf x00 x00 x80 xbf)))
(T (W x45 x26 x22 x84 xe4 x9c xf2 xcb)
(L (W x00 x00 x00 x00 x00 x00 x00 x00))
(L (W x34 x00 x38 x00 x2a x00 x00 x00))))))
(T (W x18 x00 x00 x00 x0c x00 x00 x00)
(T (W x40 x00 x00 x00 x9c x00 x00 x00)
(T (W x00 x00 x80 x3f x00 x00 x80 x3f)
(T (W xff xff xff xff xff xff xff xff)
(L (W x0c x3a xfe xff x2d x00 x00 x00))
(L (W x00 x00 x80 xbf x00 x00 x80 xbf)))
(T (W x00 x00 x00 x00 x00 x00 x00 x00)
(L (W x00 x00 x00 x00 x00 x00 x00 x00))
(L (W x45 x26 x22 x84 xe4 x9c xf2 xcb))))
(T (W x0c xfa xfc xff x3e x00 x00 x00)
(T (W x70 x73 xfd xff x00 x01 x01 x01)
(L (W x00 x00 x80 xbf x00 x00 x80 xbf))
(L (W xd6 x00 x00 x00 xff xff xff xff)))
(T (W xff xff xff xff xff xff xff xff)
(L (W xb4 xfe xfe xff x35 x00 x00 x00))
(L (W x00 x00 x00 x00 x12 x00 x00 x00)))))
(T (W x00 x00 x80 x3f x00 x00 x80 x3f)
(T (W x00 x00 x00 x00 x00 x00 x00 x00)
(T (W x5f x4e x53 x5f x30 x34 x5f x43)
(L (W x50 x00 x00 x00 x44 x00 x00 x00))
(L (W xff xff xff xff xff xff xff xff)))
(T (W x18 x00 x00 x00 x0c x00 x00 x00)
(L (W xcc x00 x00 x00 x01 x00 x00 x00))
(L (W x46 x53 x59 x53 x5f x4e x53 x5f))))
(T (W x00 x00 x00 x00 x00 x00 x00 x00)
(T (W x00 x00 x80 x3f x00 x00 x80 x3f)
(L (W x00 x00 x80 x3f x00 x00 x80 x3f))
(L (W x30 x34 x5f x43 x4c x45 x41 x52)))
(T (W x34 x00 x00 x00 x0c x00 x00 x00)
(L (W x00 x00 x00 x00 x00 x00 x00 x00)) E)))))
(T (W xff xff xff xff xff xff xff xff)
(T (W xff xff xff xff x04 x00 x00 x00)
(T (W x18 x00 x00 x00 x10 x00 x00 x00)
(T (W x00 x00 x80 x3f x00 x00 x80 x3f)
(T (W x1c x01 x00 x00 x04 x00 x00 x00)
(L (W x00 x00 x00 x00 x00 x00 x00 x00))
(L (W x00 x00 x00 x00 x00 x00 x00 x00)))
(T (W xff xff xff xff xff xff xff xff)
(L (W x64 x5f x70 x6f x6b x65 x5f x77))
(L (W x00 x00 x00 x00 x12 x00 x00 x00))))
(T (W x00 x00 x00 x00 x00 x00 x00 x00)
(T (W x00 x00 x80 x3f x00 x00 x80 x3f)
(L (W x00 x00 x80 xbf x00 x00 x80 xbf))
(L (W x00 x00 x01 x01 x95 x01 x00 x00)))
(T (W x64 x00 x00 x00 x9c x00 x00 x00)
(L (W xb2 x01 x00 x00 xff xff xff xff))
(L (W xff xff xff xff xa8 x00 x00 x00)))))
(T (W x00 x00 x80 x3f x00 x00 x80 x3f)
(T (W x00 x00 x00 x00 x00 x00 x00 x00)
(T (W x00 x00 x00 x00 x00 x00 x00 x00)
(L (W x00 x00 x00 x00 x1c x00 x20 x00))
(L (W xff xff xff xff xff xff xff xff)))
(T (W x68 x00 x00 x00 x5c x00 x00 x00)
(L (W x00 x00 x80 xbf x00 x00 x80 xbf))
(L (W x46 x53 x59 x53 x5f x4e x53 x5f))))
(T (W x00 x00 x00 x00 x00 x00 x00 x00)
(T (W x00 x00 x00 x00 x00 x00 x00 x00)
(L (W xff xff xff xff xff xff xff xff))
(L (W x00 x00 x00 x00 x00 x00 x00 x00)))
(T (W x00 x00 x80 x3f x00 x00 x80 x3f)
(L (W x00 x00 x00 x00 x00 x00 x00 x00)) E))))
(T (W x6a x73 xfc xff x74 x00 x00 x00)
(T (W x50 x00 x00 x00 x44 x00 x00 x00)
(T (W x00 x00 x00 x00 x00 x00 x00 x00)
(T (W xff xff xff xff xff xff xff xff)
(L (W xb2 x3f xfe xff x78 x00 x00 x00))
(L (W xb2 x3f xff xff x78 x00 x00 x00)))
(T (W x00 x00 x00 x00 x00 x00 x00 x00)
(L (W x00 x00 x00 x00 x00 x00 x00 x00))
(L (W x00 x00 x00 x00 x00 x00 x00 x00))))
(T (W x01 x00 x00 x00 x04 x00 x00 x00)
(T (W xff xff xff xff xbc x00 x00 x00)
(L (W xff xff xff xff xff xff xff xff))
(L (W x00 x00 x00 x00 x00 x00 x00 x00)))
(T (W x18 x00 x00 x00 x10 x00 x00 x00)
(L (W x00 x00 x00 x00 x00 x00 x00 x00))
(L (W xff xff xff xff xff xff xff xff)))))
(T (W x00 x00 x00 x00 x00 x00 x00 x00)
(T (W x45 x26 x22 x84 xe4 x9c xf2 xcb)
(T (W x00 x00 x00 x00 x00 x00 x00 x00)
(L (W xff xff xff xff xb0 x00 x00 x00))
(L (W xff xff xff xff xff xff xff xff)))
(T (W xff xff xff xff xff xff xff xff)
(L (W xff xff xff xff x9c x00 x00 x00))
(L (W xb8 x00 x00 x00 x1e x00 x00 x00))))
(T (W x18 x00 x00 x00 x10 x00 x00 x00)
(T (W x18 x00 x00 x00 x0c x00 x00 x00)
(L (W xe4 x07 x00 x00 x90 x06 x00 x00))
(L (W x45 x44 x00 x00 x00 x00 x00 x00)))
(T (W xff xff xff xff xff xff xff xff)
(L (W x30 x34 x5f x43 x4c x45 x41 x52)) E))))))))
(T (W xe8 xda x00 x00 xb4 xd9 x00 x00)
(T (W xb8 x00 x00 x00 xac x00 x00 x00)
(T (W x00 x00 x00 x00 x00 x00 x00 x00)
(T (W x45 x26 x22 x84 xe4 x9c xf2 xcb)
(T (W x00 x00 x00 x00 x00 x00 x00 x00)
(T (W x40 x00 x00 x00 x10 x00 x00 x00)
(T (W xff xff xff xff xff xff xff xff)
(T (W x00 x00 x80 x3f x00 x00 x80 x3f)
(L (W x00 x00 x00 x00 x00 x00 x00 x00))
(L (W xff xff xff xff x90 x00 x00 x00)))
(T (W xb2 xcd xfd xff x9c x01 x00 x00)
(L (W xff xff xff xff xff xff xff xff))
(L (W xe4 x9f xff xff x2a x9b xff xff))))
(T (W x00 x00 x80 x3f x00 x00 x80 x3f)
(T (W x45 x26 x22 x84 xe4 x9c xf2 xcb)
(L (W x00 x00 x00 x00 x00 x00 x00 x00))
(L (W x6c x00 x00 x00 x60 x00 x00 x00)))
(T (W x00 x00 x00 x00 x00 x00 x00 x00)
(L (W x00 x00 x00 x00 x00 x00 x00 x00))
(L (W x00 x00 x00 x00 x00 x00 x00 x00)))))
(T (W xff xff xff xff xff xff xff xff)
(T (W x45 x26 x22 x84 xe4 x9c xf2 xcb)
(T (W x45 x26 x22 x84 xe4 x9c xf2 xcb)
(L (W x00 x00 x00 x00 x00 x00 x00 x00))
(L (W xff xff xff xff xff xff xff xff)))
(T (W x6a xd6 xfd xff x74 x00 x00 x00)
(L (W x70 xbe xfe xff x00 x01 x01 x01))
(L (W xac x00 x00 x00 x64 x00 x00 x00))))
(T (W x00 x00 x80 x3f x00 x00 x80 x3f)
(T (W x00 x00 x00 x00 x00 x00 x00 x00)
(L (W x45 x26 x22 x84 xe4 x9c xf2 xcb))
(L (W x45 x26 x22 x84 xe4 x9c xf2 xcb)))
(T (W x75 x67 x2e x97 x85 x20 x59 x5f)
(L (W x00 x00 x80 xbf x00 x00 x80 xbf))
(L (W xff xff xff xff xa0 x00 x00 x00))))))
(T (W x00 x00 x00 x00 x00 x00 x00 x00)
(T (W xff xff xff xff xff xff xff xff)
(T (W x70 xae xfc xff x00 x01 x01 x01)
(T (W x00 x00 x80 x3f x00 x00 x80 x3f)
(L (W x00 x00 x80 x3f x00 x00 x80 x3f))
(L (W xbc x00 x00 x00 x64 x00 x00 x00)))
(T (W x00 x00 x80 x3f x00 x00 x80 x3f)
(L (W x70 xae xfe xff x00 x01 x01 x01))
(L (W x00 x00 x00 x00 xe8 xaf xff xff))))
(T (W x50 x00 x00 x00 x44 x00 x00 x00)
(T (W xff xff xff xff xff xff xff xff)
(L (W xc1 x00 x00 x00 xff xff xff xff))
(L (W x00 x00 x80 xbf x00 x00 x80 xbf)))
(T (W x00 x00 x00 x00 x00 x00 x00 x00)
(L (W x00 x00 x80 xbf x00 x00 x80 xbf))
(L (W x45 x44 x00 x00 x00 x00 x00 x00)))))
(T (W xff xff xff xff xff xff xff xff)
(T (W x70 xce xfc xff x00 x01 x01 x01)
(T (W x00 x00 x80 x3f x00 x00 x80 x3f)
(L (W x46 x00 x00 x00 x10 x00 x00 x00))
(L (W x00 x00 x00 x00 x00 x00 x00 x00)))
(T (W x9d x01 x00 x00 xff xff xff xff)
(L (W xff xff xff xff xff xff xff xff))
(L (W x00 x00 x00 x00 xe8 xcf xff xff))))
(T (W x00 x00 x80 x3f x00 x00 x80 x3f)
(T (W x45 x26 x22 x84 xe4 x9c xf2 xcb)
(L (W x00 x00 x00 x00 x00 x00 x00 x00))
(L (W x00 x00 x00 x00 x74 x8e xff xff)))
(T (W x00 x00 x80 x3f x00 x00 x80 x3f)
(L (W x00 x00 x00 x00 xe8 x0f xff xff)) E)))))
(T (W x00 x00 x00 x00 x00 x00 x00 x00)
(T (W x00 x00 x00 x00 x00 x00 x00 x00)
(T (W x1a x1b xfe xff x00 x00 x01 x01)
(T (W x64 x00 x00 x00 x9c x00 x00 x00)
(T (W x00 x00 x80 x3f x00 x00 x80 x3f)
(L (W x01 x00 x00 x00 x9c x00 x00 x00))
(L (W x54 x00 x00 x00 x48 x00 x00 x00)))
(T (W x00 x00 x00 x00 x00 x00 x00 x00)
(L (W x70 xa6 xfe xff x00 x01 x01 x01))
(L (W x54 x00 x00 x00 x48 x00 x00 x00))))
(T (W x00 x00 x80 x3f x00 x00 x80 x3f)
(T (W x18 x00 x00 x00 x10 x00 x00 x00)
(L (W xff xff xff xff xff xff xff xff))
(L (W x00 x00 x00 x00 x00 x00 x00 x00)))
(T (W x00 x00 x00 x00 x00 x00 x00 x00)
(L (W x00 x00 x00 x00 x00 x00 x00 x00))
(L (W x00 x00 x01 x01 xcf x00 x00 x00)))))
(T (W xff xff xff xff xff xff xff xff)
(T (W xbc x00 x00 x00 xb0 x00 x00 x00)
(T (W x00 x00 x00 x00 x00 x00 x00 x00)
(L (W x00 x00 x00 x00 x00 x00 x00 x00))
(L (W x0e x00 x00 x00 x0c x00 x00 x00)))
(T (W xff xff xff xff xff xff xff xff)
(L (W xff xff xff xff x9c x00 x00 x00))
(L (W xc4 x00 x00 x00 x01 x00 x00 x00))))
(T (W x00 x00 x80 x3f x00 x00 x80 x3f)
(T (W x00 x00 x80 x3f x00 x00 x80 x3f)
(L (W xff xff xff xff xff xff xff xff))
(L (W xe4 x87 xff xff x2a x83 xff xff)))
(T (W xff xff xff xff xff xff xff xff)
(L (W x54 x00 x00 x00 x48 x00 x00 x00)) E))))
(T (W x00 x00 x00 x00 x00 x00 x00 x00)
(T (W xff xff xff xff xff xff xff xff)
(T (W x50 x00 x00 x00 x44 x00 x00 x00)
(T (W x00 x00 x00 x00 x00 x00 x00 x00)
(L (W x18 x00 x00 x00 x0c x00 x00 x00))
(L (W xff xff xff xff xff xff xff xff)))
(T (W x00 x00 x80 x3f x00 x00 x80 x3f)
(L (W x6c x00 x00 x00 x60 x00 x00 x00))
(L (W xff xff xff xff xb0 x00 x00 x00))))
(T (W x68 x00 x00 x00 x5c x00 x00 x00)
(T (W x00 x00 x00 x00 x00 x00 x00 x00)
(L (W xff xff xff xff xff xff xff xff))
(L (W x00 x00 x80 xbf x00 x00 x80 xbf)))
(T (W x00 x00 x00 x00 x00 x00 x00 x00)
(L (W xb2 xfa xfe xff x78 x00 x00 x00))
(L (W xff xff xff xff xa0 x00 x00 x00)))))
(T (W xff xff xff xff xff xff xff xff)
(T (W x50 x00 x00 x00 x44 x00 x00 x00)
(T (W x00 x00 x80 x3f x00 x00 x80 x3f)
(L (W x30 x01 x00 x00 x04 x00 x00 x00))
(L (W x00 x00 x00 x00 x00 x00 x00 x00)))
(T (W x45 x44 x00 x00 x00 x00 x00 x00)
(L (W x45 x44 x00 x00 x00 x00 x00 x00))
(L (W x00 x00 x80 xbf x00 x00 x80 xbf))))
(T (W x45 x26 x22 x84 xe4 x9c xf2 xcb)
(T (W xff xff xff xff xff xff xff xff)
(L (W xff xff xff xff xff xff xff xff))
(L (W x68 x00 x00 x00 x5c x00 x00 x00)))
(T (W x00 x00 x80 x3f x00 x00 x80 x3f)
(L (W x00 x00 x00 x00 x74 x16 xff xff)) E))))))
(T (W x18 x00 x00 x00 x10 x00 x00 x00)
(T (W xb8 x00 x00 x00 xac x00 x00 x00)
(T (W x18 x00 x00 x00 x0c x00 x00 x00)
(T (W x6a x7a xfc xff x74 x00 x00 x00)
(T (W x00 x00 x00 x00 x00 x00 x00 x00)
(T (W xff xff xff xff xff xff xff xff)
(L (W xd8 x00 x00 x00 xac x00 x00 x00))
(L (W x45 x44 x00 x00 x00 x00 x00 x00)))
(T (W x70 xa2 xfd xff x00 x01 x01 x01)
(L (W x45 x26 x22 x84 xe4 x9c xf2 xcb))
(L (W xff xff xff xff xff xff xff xff))))
(T (W x00 x00 x00 x00 x00 x00 x00 x00)
(T (W xb4 x6d xfd xff x37 x00 x00 x00)
(L (W x6c x00 x00 x00 x60 x00 x00 x00))
(L (W xff xff xff xff xff xff xff xff)))
(T (W x64 x00 x00 x00 x9c x00 x00 x00)
(L (W xff xff xff xff xa0 x00 x00 x00))
(L (W xff xff xff xff x9c x00 x00 x00)))))
(T (W x00 x00 x80 x3f x00 x00 x80 x3f)
(T (W x00 x00 x00 x00 x00 x00 x00 x00)
(T (W xff xff xff xff xff xff xff xff)
(L (W xb8 x00 x00 x00 xac x00 x00 x00))
(L (W xb2 x46 xff xff x78 x00 x00 x00)))
(T (W x00 x00 x00 x00 x00 x00 x00 x00)
(L (W xb4 xcd xfe xff x15 x00 x00 x00))
(L (W x00 x00 x00 x00 x00 x00 x00 x00))))
(T (W xff xff xff xff xff xff xff xff)
(T (W xff xff xff xff xff xff xff xff)
(L (W x3a x00 x00 x00 x10 x00 x00 x00))
(L (W x00 x00 x00 x00 x00 x00 x00 x00)))
(T (W x00 x00 x80 x3f x00 x00 x80 x3f)
(L (W x45 x44 x00 x00 x00 x00 x00 x00))
(L (W x1c x00 x20 x00 x24 x00 x28 x00))))))
(T (W x00 x00 x80 x3f x00 x00 x80 x3f)
(T (W x00 x00 x80 x3f x00 x00 x80 x3f)
(T (W x00 x00 x00 x00 x00 x00 x00 x00)
(T (W xff xff xff xff x04 x00 x00 x00)
(L (W xff xff xff xff xff xff xff xff))
(L (W x4f x84 x6f x8b xe8 xcb x63 xb7)))
(T (W xff xff xff xff xff xff xff xff)
(L (W x00 x00 x00 x00 x00 x00 x00 x00))
(L (W x00 x00 x00 x00 x12 x00 x00 x00))))
(T (W xff xff xff xff xff xff xff xff)
(T (W x00 x00 x80 x3f x00 x00 x80 x3f)
(L (W x4f x84 x6f x8b xe8 xcb x63 xb7))
(L (W xff xff xff xff xff xff xff xff)))
(T (W x18 x00 x00 x00 x10 x00 x00 x00)
(L (W xff xff xff xff xff xff xff xff))
(L (W x00 x00 x00 x00 xc2 xf8 xff xff)))))
(T (W x00 x00 x00 x00 x00 x00 x00 x00)
(T (W x00 x00 x00 x00 x00 x00 x00 x00)
(T (W x04 x00 x00 x00 x4a x53 xfd xff)
(L (W x00 x00 x80 xbf x00 x00 x80 xbf))
(L (W x18 x00 x00 x00 x0c x00 x00 x00)))
(T (W x00 x00 x80 x3f x00 x00 x80 x3f)
(L (W x00 x00 x80 xbf x00 x00 x80 xbf))
(L (W x00 x00 x01 x01 xc6 x01 x00 x00))))
(T (W x48 x03 x00 x00 x34 x02 x00 x00)
(T (W x49 xa1 x68 x4a xeb x5f xdd x3d)
(L (W x00 x00 x00 x00 x25 x00 x00 x00))
(L (W xff xff xff xff xff xff xff xff)))
(T (W xff xff xff xff xff xff xff xff)
(L (W x00 x00 x00 x00 x00 x00 x00 x00)) E)))))
(T (W xff xff xff xff xff xff xff xff)
(T (W x6a x62 xfc xff x74 x00 x00 x00)
(T (W x70 x6a xfc xff x00 x01 x01 x01)
(T (W x45 x26 x22 x84 xe4 x9c xf2 xcb)
(T (W xff xff xff xff xff xff xff xff)
(L (W x0c x31 xfe xff x3e x00 x00 x00))
(L (W xb4 x35 xff xff x27 x00 x00 x00)))
(T (W xff xff xff xff xff xff xff xff)
(L (W xff xff xff xff xff xff xff xff))
(L (W x02 x00 x00 x00 x30 x01 x00 x00))))
(T (W x00 x00 x00 x00 x02 x00 x00 x00)
(T (W x00 x00 x00 x00 x00 x00 x00 x00)
(L (W x00 x00 x80 xbf x00 x00 x80 xbf))
(L (W xff xff xff xff xff xff xff xff)))
(T (W x18 x00 x00 x00 x0c x00 x00 x00)
(L (W xff xff xff xff xff xff xff xff))
(L (W x14 x00 x00 x00 x0c x00 x00 x00)))))
(T (W x00 x00 x00 x00 x00 x00 x00 x00)
(T (W x00 x00 x00 x00 x00 x00 x00 x00)
(T (W xdf x01 x00 x00 xff xff xff xff)
(L (W x50 x00 x00 x00 x44 x00 x00 x00))
(L (W xff xff xff xff xa0 x00 x00 x00)))
(T (W x00 x00 x80 x3f x00 x00 x80 x3f)
(L (W x4f x84 x6f x8b xe8 xcb x63 xb7))
(L (W x00 x00 x01 x01 xea x00 x00 x00))))
(T (W x65 x00 x00 x00 xff xff xff xff)
(T (W x20 x00 x00 x00 x0c x00 x00 x00)
(L (W xc8 x00 x00 x00 x01 x00 x00 x00))
(L (W x00 x00 x00 x00 x00 x00 x00 x00)))
(T (W x00 x00 x80 x3f x00 x00 x80 x3f)
(L (W x08 x00 x00 x00 x10 x08 x00 x00)) E))))
(T (W x68 x00 x00 x00 x5c x00 x00 x00)
(T (W x00 x00 x80 x3f x00 x00 x80 x3f)
(T (W x00 x00 x00 x00 x00 x00 x00 x00)
(T (W x18 x00 x00 x00 x10 x00 x00 x00)
(L (W x32 x00 x00 x00 x10 x00 x00 x00))
(L (W x45 x26 x22 x84 xe4 x9c xf2 xcb)))
(T (W xa4 x01 x00 x00 xff xff xff xff)
(L (W x00 x00 x00 x00 x00 x00 x00 x00))
(L (W x00 x00 x00 x00 x00 x00 x00 x00))))
(T (W xff xff xff xff xff xff xff xff)
(T (W x45 x26 x22 x84 xe4 x9c xf2 xcb)
(L (W x45 x26 x22 x84 xe4 x9c xf2 xcb))
(L (W x66 x01 x00 x00 xff xff xff xff)))
(T (W x45 x26 x22 x84 xe4 x9c xf2 xcb)
(L (W xc3 xdd x39 xdc x00 x59 x48 x2f))
(L (W x2b x00 x00 x00 x2e x00 x00 x00)))))
(T (W x00 x00 x00 x00 x00 x00 x00 x00)
(T (W x0c xe1 xfc xff x3c x00 x00 x00)
(T (W x00 x00 x00 x00 xc2 x5c xfd xff)
(L (W x00 x00 x00 x00 xe8 x5b xfe xff))
(L (W xff xff xff xff xff xff xff xff)))
(T (W x03 x00 x00 x00 xd4 x00 x00 x00)
(L (W x6c x00 x00 x00 x60 x00 x00 x00))
(L (W x70 xda xff xff x00 x01 x01 x01))))
(T (W xff xff xff xff xff xff xff xff)
(T (W x00 x00 x80 x3f x00 x00 x80 x3f)
(L (W xff xff xff xff xff xff xff xff))
(L (W xff xff xff xff xff xff xff xff)))
(T (W xff xff xff xff xff xff xff xff)
(L (W xff xff xff xff xff xff xff xff)) E)))))))
(T (W x0e x4a xc3 xc0 xa9 xed x57 x9f)
(T (W x6a x40 xfc xff x74 x00 x00 x00)
(T (W x70 x30 xfc xff x00 x01 x01 x01)
(T (W x45 x26 x22 x84 xe4 x9c xf2 xcb)
(T (W x00 x00 x00 x00 x00 x00 x00 x00)
(T (W x00 x00 x00 x00 x04 x00 x00 x00)
(T (W x6a x38 xfd xff x74 x00 x00 x00)
(L (W x00 x00 x80 x3f x00 x00 x80 x3f))
(L (W xff xff xff xff xff xff xff xff)))
(T (W x00 x00 x80 x3f x00 x00 x80 x3f)
(L (W x00 x00 x00 x00 x00 x00 x00 x00))
(L (W xa4 x00 x00 x00 x1e x00 x00 x00))))
(T (W xff xff xff xff xff xff xff xff)
(T (W xff xff xff xff xff xff xff xff)
(L (W x00 x00 x80 xbf x00 x00 x80 xbf))
(L (W x27 x00 x00 x00 x2a x00 x00 x00)))
(T (W x00 x00 x80 x3f x00 x00 x80 x3f)
(L (W x00 x00 x80 xbf x00 x00 x80 xbf))
(L (W x00 x00 x80 xbf x00 x00 x80 xbf)))))
(T (W x40 x00 x00 x00 x0c x00 x00 x00)
(T (W xff xff xff xff xff xff xff xff)
(T (W x00 x00 x00 x00 x1c x00 x20 x00)
(L (W x00 x00 x80 x3f x00 x00 x80 x3f))
(L (W x00 x00 x00 x00 x00 x00 x00 x00)))
(T (W xff xff xff xff xff xff xff xff)
(L (W xff xff xff xff xff xff xff xff))
(L (W xff xff xff xff xff xff xff xff))))
(T (W x3e x00 x00 x00 x9c x00 x00 x00)
(T (W x00 x00 x80 x3f x00 x00 x80 x3f)
(L (W xb0 x00 x00 x00 x64 x00 x00 x00))
(L (W xff xff xff xff xff xff xff xff)))
(T (W x00 x00 x00 x00 x00 x00 x00 x00)
(L (W x18 x00 x00 x00 x10 x00 x00 x00))
(L (W x00 x00 x00 x00 x00 x00 x00 x00))))))
(T (W x00 x00 x80 x3f x00 x00 x80 x3f)
(T (W x00 x00 x00 x00 x00 x00 x00 x00)
(T (W x7d x00 x00 x00 xff xff xff xff)
(T (W x68 x00 x00 x00 x5c x00 x00 x00)
(L (W xb8 x00 x00 x00 xac x00 x00 x00))
(L (W xff xff xff xff xff xff xff xff)))
(T (W xb2 xb4 xfd xff x78 x00 x00 x00)
(L (W xff xff xff xff xff xff xff xff))
(L (W xff xff xff xff xff xff xff xff))))
(T (W x00 x00 x00 x00 xe8 xf1 xfc xff)
(T (W x00 x00 x00 x00 x00 x00 x00 x00)
(L (W x00 x00 x00 x00 x12 x00 x00 x00))
(L (W x03 x00 x00 x00 xc8 x00 x00 x00)))
(T (W x00 x00 x80 x3f x00 x00 x80 x3f)
(L (W xff xff xff xff x9c x00 x00 x00))
(L (W x00 x01 x01 x01 x2a xed xff xff)))))
(T (W x00 x00 x00 x00 x00 x00 x00 x00)
(T (W xff xff xff xff xff xff xff xff)
(T (W xff xff xff xff xac x00 x00 x00)
(L (W x7c x00 x80 x00 x62 x00 x00 x00))
(L (W x00 x00 x80 xbf x00 x00 x80 xbf)))
(T (W x00 x00 x00 x00 x00 x00 x00 x00)
(L (W x00 x00 x00 x00 x00 x00 x00 x00))
(L (W x00 x00 x00 x00 x00 x00 x00 x00))))
(T (W xff xff xff xff xff xff xff xff)
(T (W xff xff xff xff xff xff xff xff)
(L (W x45 x26 x22 x84 xe4 x9c xf2 xcb))
(L (W xcc x00 x00 x00 x01 x00 x00 x00)))
(T (W x64 x00 x00 x00 x9c x00 x00 x00)
(L (W xff xff xff xff xff xff xff xff)) E)))))
(T (W x00 x00 x80 x3f x00 x00 x80 x3f)
(T (W x00 x00 x80 x3f x00 x00 x80 x3f)
(T (W x45 x26 x22 x84 xe4 x9c xf2 xcb)
(T (W xff xff xff xff xff xff xff xff)
(T (W x00 x00 x80 x3f x00 x00 x80 x3f)
(L (W xff xff xff xff xff xff xff xff))
(L (W xff xff xff xff xff xff xff xff)))
(T (W x00 x00 x80 x3f x00 x00 x80 x3f)
(L (W x00 x00 x00 x00 x1b x00 x00 x00))
(L (W x03 x00 x00 x00 xd0 x00 x00 x00))))
(T (W x64 x00 x00 x00 x9c x00 x00 x00)
(T (W x4b x00 x00 x00 xff xff xff xff)
(L (W x00 x00 x00 x00 x00 x00 x00 x00))
(L (W x00 x00 x80 xbf x00 x00 x80 xbf)))
(T (W x00 x00 x80 x3f x00 x00 x80 x3f)
(L (W x45 x26 x22 x84 xe4 x9c xf2 xcb))
(L (W x00 x00 x80 xbf x00 x00 x80 xbf)))))
(T (W x00 x00 x00 x00 x00 x00 x00 x00)
(T (W x1a x88 xff xff x00 x00 x01 x01)
(T (W xb2 x4c xfd xff x78 x00 x00 x00)
(L (W x45 x26 x22 x84 xe4 x9c xf2 xcb))
(L (W x00 x00 x80 xbf x00 x00 x80 xbf)))
(T (W x00 x00 x00 x00 x00 x00 x00 x00)
(L (W x00 x00 x00 x00 xba xc7 xfe xff))
(L (W xff xff xff xff xff xff xff xff))))
(T (W x00 x00 x00 x00 x04 x00 x00 x00)
(T (W xff xff xff xff xff xff xff xff)
(L (W x00 x00 x00 x00 x00 x00 x00 x00))
(L (W xff xff xff xff xff xff xff xff)))
(T (W x00 x00 x00 x00 x00 x00 x00 x00)
(L (W x03 x00 x00 x00 xd0 x00 x00 x00)) E))))
(T (W x00 x00 x80 x3f x00 x00 x80 x3f)
(T (W x00 x00 x00 x00 x00 x00 x00 x00)
(T (W xff xff xff xff xff xff xff xff)
(T (W x6a x50 xfd xff x74 x00 x00 x00)
(L (W xff xff xff xff xff xff xff xff))
(L (W x00 x00 x00 x00 x00 x00 x00 x00)))
(T (W xff xff xff xff xc8 x00 x00 x00)
(L (W xff xff xff xff xff xff xff xff))
(L (W x04 x00 x00 x00 xe2 xc8 xff xff))))
(T (W x18 x00 x00 x00 x0c x00 x00 x00)
(T (W x49 xa1 x68 x4a xeb x5f xdd x3d)
(L (W x00 x00 x00 x00 x00 x00 x00 x00))
(L (W x18 x00 x00 x00 x10 x00 x00 x00)))
(T (W x00 x00 x80 x3f x00 x00 x80 x3f)
(L (W xff xff xff xff xff xff xff xff))
(L (W xff xff xff xff xff xff xff xff)))))
(T (W x00 x00 x00 x00 x00 x00 x00 x00)
(T (W xff xff xff xff xff xff xff xff)
(T (W xff xff xff xff xff xff xff xff)
(L (W x00 x00 x00 x00 x00 x00 x00 x00))
(L (W x00 x00 x80 xbf x00 x00 x80 xbf)))
(T (W x00 x00 x80 x3f x00 x00 x80 x3f)
(L (W x4f x84 x6f x8b xe8 xcb x63 xb7))
(L (W x00 x00 x00 x00 x00 x00 x62 x00))))
(T (W x18 x00 x00 x00 x0c x00 x00 x00)
(T (W x00 x00 x00 x00 x00 x00 x00 x00)
(L (W x00 x00 x80 x3f x00 x00 x80 x3f))
(L (W x00 x00 x00 x00 x00 x00 x00 x00)))
(T (W x01 x00 x00 x00 x9c x00 x00 x00)
(L (W xcc x00 x00 x00 x01 x00 x00 x00)) E))))))
(T (W x1a xe1 xfd xff x00 x00 x01 x01)
(T (W xff xff xff xff xff xff xff xff)
(T (W xff xff xff xff xff xff xff xff)
(T (W x18 x00 x00 x00 x10 x00 x00 x00)
(T (W x00 x00 x80 x3f x00 x00 x80 x3f)
(T (W x00 x00 x00 x00 x00 x00 x00 x00)
(L (W x00 x00 x00 x00 x00 x00 x00 x00))
(L (W x4f x84 x6f x8b xe8 xcb x63 xb7)))
(T (W xff xff xff xff xff xff xff xff)
(L (W x00 x00 x00 x00 x00 x00 x00 x00))
(L (W x46 x53 x59 x53 x5f x4e x53 x5f))))
(T (W x00 x00 x80 x3f x00 x00 x80 x3f)
(T (W x00 x00 x80 x3f x00 x00 x80 x3f)
(L (W xff xff xff xff xff xff xff xff))
(L (W xff xff xff xff xff xff xff xff)))
(T (W xff xff xff xff xff xff xff xff)
(L (W xff xff xff xff xff xff xff xff))
(L (W x00 x00 x80 xbf x00 x00 x80 xbf)))))
(T (W x00 x00 x00 x00 xe8 x85 xfc xff)
(T (W x00 x00 x80 x3f x00 x00 x80 x3f)
(T (W xff xff xff xff xff xff xff xff)
(L (W xff xff xff xff xff xff xff xff))
(L (W xff xff xff xff xff xff xff xff)))
(T (W x00 x00 x80 x3f x00 x00 x80 x3f)
(L (W x00 x00 x80 xbf x00 x00 x80 xbf))
(L (W x00 x00 x00 x00 x00 x00 x00 x00))))
(T (W x00 x00 x00 x00 x00 x00 x00 x00)
(T (W x00 x00 x00 x00 x00 x00 x00 x00)
(L (W x00 x00 x80 xbf x00 x00 x80 xbf))
(L (W x00 x00 x80 xbf x00 x00 x80 xbf)))
(T (W x18 x00 x00 x00 x10 x00 x00 x00)
(L (W x4f x84 x6f x8b xe8 xcb x63 xb7))
(L (W x64 x00 x68 x00 x62 x00 x00 x00))))))
(T (W xff xff xff xff xff xff xff xff)
(T (W xc0 x00 x00 x00 xb4 x00 x00 x00)
(T (W x00 x00 x80 x3f x00 x00 x80 x3f)
(T (W x3e x00 x00 x00 x10 x00 x00 x00)
(L (W x00 x00 x00 x00 x00 x00 x00 x00))
(L (W x54 x00 x00 x00 x48 x00 x00 x00)))
(T (W x00 x00 x00 x00 x00 x00 x00 x00)
(L (W x45 x26 x22 x84 xe4 x9c xf2 xcb))
(L (W x00 x00 x80 xbf x00 x00 x80 xbf))))
(T (W x00 x00 x00 x00 x00 x00 x00 x00)
(T (W xb0 x00 x00 x00 x64 x00 x00 x00)
(L (W x68 x00 x00 x00 x5c x00 x00 x00))
(L (W xb4 x7f xff xff x35 x00 x00 x00)))
(T (W xff xff xff xff xff xff xff xff)
(L (W x00 x00 x00 x00 x00 x00 x00 x00))
(L (W x45 x26 x22 x84 xe4 x9c xf2 xcb)))))
(T (W x50 x00 x00 x00 x44 x00 x00 x00)
(T (W x45 x26 x22 x84 xe4 x9c xf2 xcb)
(T (W x00 x00 x00 x00 x00 x00 x00 x00)
(L (W xc4 x00 x00 x00 x01 x00 x00 x00))
(L (W x00 x00 x01 x01 x95 x01 x00 x00)))
(T (W xff xff xff xff xff xff xff xff)
(L (W xff xff xff xff xff xff xff xff))
(L (W x00 x00 x00 x00 x00 x00 x00 x00))))
(T (W x00 x00 x00 x00 x00 x00 x00 x00)
(T (W x68 x00 x00 x00 x5c x00 x00 x00)
(L (W xc4 x00 x00 x00 x01 x00 x00 x00))
(L (W x00 x00 x00 x00 x00 x00 x00 x00)))
(T (W x00 x00 x00 x00 x00 x00 x00 x00)
(L (W x00 x00 x80 xbf x00 x00 x80 xbf)) E)))))
(T (W x48 x03 x00 x00 x34 x02 x00 x00)
(T (W xff xff xff xff xff xff xff xff)
(T (W xb8 x00 x00 x00 xac x00 x00 x00)
(T (W x00 x00 x80 x3f x00 x00 x80 x3f)
(T (W x00 x00 x00 x00 x00 x00 x00 x00)
(L (W x00 x00 x00 x00 x00 x00 x00 x00))
(L (W x00 x00 x80 xbf x00 x00 x80 xbf)))
(T (W x00 x00 x00 x00 xba xab xfd xff)
(L (W x00 x00 x00 x00 x00 x00 x00 x00))
(L (W x00 x00 x00 x00 x00 x00 x00 x00))))
(T (W x00 x00 x00 x00 x00 x00 x00 x00)
(T (W xb2 x70 xfd xff x78 x00 x00 x00)
(L (W x6a x84 xfe xff x74 x00 x00 x00))
(L (W x46 x53 x59 x53 x5f x4e x53 x5f)))
(T (W x20 x47 x2b x97 x85 x96 x55 x5f)
(L (W x00 x00 x00 x00 x00 x00 x00 x00))
(L (W xff xff xff xff xff xff xff xff)))))
(T (W x45 x26 x22 x84 xe4 x9c xf2 xcb)
(T (W x00 x00 x00 x00 x00 x00 x00 x00)
(T (W x12 x00 x00 x00 x46 x53 x59 x53)
(L (W x00 x00 x80 x3f x00 x00 x80 x3f))
(L (W xff xff xff xff xff xff xff xff)))
(T (W x45 x26 x22 x84 xe4 x9c xf2 xcb)
(L (W x70 xcc xfe xff x00 x01 x01 x01))
(L (W x00 x00 x00 x00 x00 x00 x00 x00))))
(T (W x00 x00 x00 x00 x00 x00 x00 x00)
(T (W x45 x26 x22 x84 xe4 x9c xf2 xcb)
(L (W xff xff xff xff xff xff xff xff))
(L (W x00 x00 x80 xbf x00 x00 x80 xbf)))
(T (W x2b x01 x00 x00 xff xff xff xff)
(L (W x00 x00 x80 xbf x00 x00 x80 xbf)) E))))
(T (W xff xff xff xff x04 x00 x00 x00)
(T (W xff xff xff xff x03 x00 x00 x00)
(T (W x00 x00 x80 x3f x00 x00 x80 x3f)
(T (W x1a xf1 xfe xff x00 x00 x01 x01)
(L (W x64 x00 x00 x00 xff xff xff xff))
(L (W x25 x00 x00 x00 x28 x00 x00 x00)))
(T (W x00 x00 x80 x3f x00 x00 x80 x3f)
(L (W x00 x00 x00 x00 x00 x00 x00 x00))
(L (W x45 x26 x22 x84 xe4 x9c xf2 xcb))))
(T (W x00 x00 x00 x00 x00 x00 x00 x00)
(T (W xff xff xff xff xff xff xff xff)
(L (W x04 x00 x00 x00 x4a x7d xfe xff))
(L (W x00 x00 x00 x00 x00 x00 x00 x00)))
(T (W xff xff xff xff xff xff xff xff)
(L (W x00 x00 x00 x00 x00 x00 x00 x00))
(L (W x00 x00 x00 x00 x00 x00 x00 x00)))))
(T (W x00 x00 x80 x3f x00 x00 x80 x3f)
(T (W x00 x00 x80 x3f x00 x00 x80 x3f)
(T (W x49 xa1 x68 x4a xeb x5f xdd x3d)
(L (W xff xff xff xff xff xff xff xff))
(L (W x45 x44 x00 x00 x00 x00 x00 x00)))
(T (W x9c x01 x00 x00 xff xff xff xff)
(L (W xff xff xff xff xff xff xff xff))
(L (W xff xff xff xff xff xff xff xff))))
(T (W x00 x00 x00 x00 x00 x00 x00 x00)
(T (W xff xff xff xff xff xff xff xff)
(L (W x00 x00 x00 x00 x00 x00 x00 x00))
(L (W x00 x00 x00 x00 x00 x00 x00 x00)))
(T (W x0c x23 xfe xff x28 x00 x00 x00)
(L (W x00 x00 x00 x00 x00 x00 x00 x00)) E))))))))))
(T (W x68 x0a x03 x00 xf4 xfe x02 x00)
(T (W x58 x5f x02 x00 x1c x5e x02 x00)
(T (W xf8 xc3 x01 x00 xb4 xc1 x01 x00)
(T (W xf8 x6c x00 x00 xac x6a x00 x00)
(T (W x00 x00 x80 x3f x00 x00 x80 x3f)
(T (W x45 x26 x22 x84 xe4 x9c xf2 xcb)
(T (W x00 x00 x80 x3f x00 x00 x80 x3f)
(T (W x00 x00 x00 x00 x00 x00 x00 x00)
(T (W xff xff xff xff xff xff xff xff)
(T (W x68 x00 x00 x00 x5c x00 x00 x00)
(L (W x00 x00 x80 x3f x00 x00 x80 x3f))
(L (W xff xff xff xff xff xff xff xff)))
(T (W x00 x00 x00 x00 x00 x00 x00 x00)
(L (W xff xff xff xff xff xff xff xff))
(L (W x2b x00 x00 x00 x2e x00 x00 x00))))
(T (W x45 x26 x22 x84 xe4 x9c xf2 xcb)
(T (W x18 x00 x00 x00 x10 x00 x00 x00)
(L (W x00 x00 x00 x00 x00 x00 x00 x00))
(L (W x00 x00 x80 xbf x00 x00 x80 xbf)))
(T (W x49 xa1 x68 x4a xeb x5f xdd x3d)
(L (W x49 xa1 x68 x4a xeb x5f xdd x3d))
(L (W x4f x84 x6f x8b xe8 xcb x63 xb7)))))
(T (W x00 x00 x00 x00 x00 x00 x00 x00)
(T (W xff xff xff xff xff xff xff xff)
(T (W x45 x26 x22 x84 xe4 x9c xf2 xcb)
(L (W x45 x26 x22 x84 xe4 x9c xf2 xcb))
(L (W x00 x00 x00 x00 x0a x3e xff xff)))
(T (W x2b x00 x00 x00 x2e x00 x00 x00)
(L (W x2a xd5 xfe xff x74 x00 x00 x00))
(L (W xff xff xff xff xff xff xff xff))))
(T (W x6c x00 x00 x00 x60 x00 x00 x00)
(T (W x00 x00 x00 x00 x00 x00 x00 x00)
(L (W x00 x00 x80 xbf x00 x00 x80 xbf))
(L (W x00 x00 x00 x00 xa8 x7e xff xff)))
(T (W x00 x00 x00 x00 x00 x00 x00 x00)
(L (W x72 x01 xff xff x78 x00 x00 x00))
(L (W x00 x00 x80 xbf x00 x00 x80 xbf))))))
(T (W x00 x00 x00 x00 x00 x00 x00 x00)
(T (W x6a x20 xfe xff xb2 x01 x00 x00)
(T (W x18 x00 x00 x00 x10 x00 x00 x00)
(T (W x00 x00 x80 x3f x00 x00 x80 x3f)
(L (W x01 x00 x00 x00 x9c x00 x00 x00))
(L (W xff xff xff xff xff xff xff xff)))
(T (W x45 x26 x22 x84 xe4 x9c xf2 xcb)
(L (W x54 x00 x00 x00 x48 x00 x00 x00))
(L (W xc4 x00 x00 x00 x01 x00 x00 x00))))
(T (W x40 x00 x00 x00 x9c x00 x00 x00)
(T (W xff xff xff xff xff xff xff xff)
(L (W x4c x02 x00 x00 x38 x01 x00 x00))
(L (W x00 x00 x80 xbf x00 x00 x80 xbf)))
(T (W x00 x00 x80 x3f x00 x00 x80 x3f)
(L (W x72 xf1 xfe xff x78 x00 x00 x00))
(L (W x74 xf8 xff xff x12 x00 x00 x00)))))
(T (W xff xff xff xff xff xff xff xff)
(T (W x18 x00 x00 x00 x0c x00 x00 x00)
(T (W x00 x00 x80 x3f x00 x00 x80 x3f)
(L (W xff xff xff xff xff xff xff xff))
(L (W x00 x00 x00 x00 x00 x00 x00 x00)))
(T (W xff xff xff xff x01 x00 x00 x00)
(L (W xff xff xff xff xff xff xff xff))
(L (W xc0 x00 x00 x00 x01 x00 x00 x00))))
(T (W x00 x00 x80 x3f x00 x00 x80 x3f)
(T (W x03 x00 x00 x00 xd0 x00 x00 x00)
(L (W x49 xa1 x68 x4a xeb x5f xdd x3d))
(L (W xff xff xff xff xff xff xff xff)))
(T (W x45 x26 x22 x84 xe4 x9c xf2 xcb)
(L (W xc4 x00 x00 x00 x02 x00 x00 x00)) E)))))
(T (W x00 x00 x00 x00 x00 x00 x00 x00)
(T (W x00 x00 x00 x00 x00 x00 x00 x00)
(T (W x7d xa8 x37 xaa xb9 xfc x88 x76)
(T (W xff xff xff xff x04 x00 x00 x00)
(T (W x2a x3d xfd xff x74 x00 x00 x00)
(L (W x50 x00 x00 x00 x44 x00 x00 x00))
(L (W x18 x00 x00 x00 x10 x00 x00 x00)))
(T (W x4f x84 x6f x8b xe8 xcb x63 xb7)
(L (W x00 x00 x80 x3f x00 x00 x80 x3f))
(L (W x00 x00 x80 xbf x00 x00 x80 xbf))))
(T (W x18 x00 x00 x00 x10 x00 x00 x00)
(T (W xff xff xff xff xff xff xff xff)
(L (W x30 x34 x5f x43 x4c x45 x41 x52))
(L (W x49 xa1 x68 x4a xeb x5f xdd x3d)))
(T (W x00 x00 x00 x00 x00 x00 x00 x00)
(L (W x00 x00 x00 x00 x00 x00 x00 x00))
(L (W x00 x00 x07 x00 x60 x00 x64 x00)))))
(T (W x48 x03 x00 x00 x34 x02 x00 x00)
(T (W xff xff xff xff x04 x00 x00 x00)
(T (W x00 x00 x00 x00 x00 x00 x00 x00)
(L (W x00 x00 x00 x00 x00 x00 x00 x00))
(L (W x46 x53 x59 x53 x5f x4e x53 x5f)))
(T (W xff xff xff xff xff xff xff xff)
(L (W x03 x00 x00 x00 xd8 x00 x00 x00))
(L (W x4c x00 x04 x00 x08 x00 x0c x00))))
(T (W x00 x00 x80 x3f x00 x00 x80 x3f)
(T (W x50 x00 x00 x00 x44 x00 x00 x00)
(L (W xff xff xff xff xff xff xff xff))
(L (W x03 x00 x00 x00 xc8 x00 x00 x00)))
(T (W x5c x62 x2e x97 x85 x1d x59 x5f)
(L (W x45 x26 x22 x84 xe4 x9c xf2 xcb))
(L (W x38 x00 x00 x00 x00 x00 x80 xbf))))))
(T (W x00 x00 x00 x00 x00 x00 x00 x00)
(T (W x00 x00 x00 x00 x00 x00 x00 x00)
(T (W xb8 x00 x00 x00 xac x00 x00 x00)
(T (W x00 x00 x80 x3f x00 x00 x80 x3f)
(L (W x00 x00 x80 x3f x00 x00 x80 x3f))
(L (W xff xff xff xff xff xff xff xff)))
(T (W x00 x00 x80 x3f x00 x00 x80 x3f)
(L (W x45 x26 x22 x84 xe4 x9c xf2 xcb))
(L (W xb0 x00 x00 x00 x64 x00 x00 x00))))
(T (W x50 x00 x00 x00 x44 x00 x00 x00)
(T (W x74 x80 xfd xff x2b x00 x00 x00)
(L (W xff xff xff xff xff xff xff xff))
(L (W x00 x00 x80 xbf x00 x00 x80 xbf)))
(T (W x00 x00 x00 x00 x00 x00 x00 x00)
(L (W x2a x0d xff xff x74 x00 x00 x00))
(L (W xff xff xff xff xff xff xff xff)))))
(T (W xff xff xff xff xff xff xff xff)
(T (W x2a xed xfc xff x74 x00 x00 x00)
(T (W x68 x00 x00 x00 x5c x00 x00 x00)
(L (W x00 x00 x00 x00 x00 x00 x00 x00))
(L (W x00 x00 x80 xbf x00 x00 x80 xbf)))
(T (W x00 x00 x00 x00 x00 x00 x00 x00)
(L (W x00 x00 x00 x00 x00 x00 x00 x00))
(L (W x72 xd9 xff xff x78 x00 x00 x00))))
(T (W x50 x00 x00 x00 x44 x00 x00 x00)
(T (W xff xff xff xff xff xff xff xff)
(L (W x00 x00 x00 x00 x00 x00 x00 x00))
(L (W x18 x00 x00 x00 x0c x00 x00 x00)))
(T (W x00 x00 x80 x3f x00 x00 x80 x3f)
(L (W xff xff xff xff xff xff xff xff)) E))))))
(T (W xff xff xff xff xff xff xff xff)
(T (W xff xff xff xff xff xff xff xff)
(T (W xb8 x00 x00 x00 xac x00 x00 x00)
(T (W xc0 x00 x00 x00 xb4 x00 x00 x00)
(T (W x00 x00 x80 x3f x00 x00 x80 x3f)
(T (W x4d x00 x00 x00 xff xff xff xff)
(L (W xff xff xff xff xff xff xff xff))
(L (W x00 x00 x00 x00 x00 x00 x00 x00)))
(T (W xb8 x00 x00 x00 x64 x00 x00 x00)
(L (W x00 x00 x80 x3f x00 x00 x80 x3f))
(L (W xff xff xff xff xff xff xff xff))))
(T (W x00 x00 x00 x00 x00 x00 x00 x00)
(T (W x46 x53 x59 x53 x5f x4e x53 x5f)
(L (W xac x00 x00 x00 x64 x00 x00 x00))
(L (W x00 x00 x00 x00 x00 x00 x00 x00)))
(T (W xff xff xff xff xff xff xff xff)
(L (W x03 x00 x00 x00 xd8 x00 x00 x00))
(L (W xff xff xff xff xff xff xff xff)))))
(T (W x00 x00 x80 x3f x00 x00 x80 x3f)
(T (W x00 x00 x00 x00 x00 x00 x00 x00)
(T (W x30 x41 xfd xff x00 x01 x01 x01)
(L (W xff xff xff xff xff xff xff xff))
(L (W x68 x00 x00 x00 x5c x00 x00 x00)))
(T (W x4f x84 x6f x8b xe8 xcb x63 xb7)
(L (W x00 x00 x00 x00 x12 x00 x00 x00))
(L (W x00 x00 x00 x00 x00 x00 x00 x00))))
(T (W x6f x00 x00 x00 xff xff xff xff)
(T (W x00 x00 x01 x01 xbb x01 x00 x00)
(L (W xcc x87 xfe xff x31 x00 x00 x00))
(L (W x00 x00 x00 x00 x00 x00 x00 x00)))
(T (W x45 x26 x22 x84 xe4 x9c xf2 xcb)
(L (W x8e x18 xb9 x28 xbf xd3 x67 x6a))
(L (W xff xff xff xff xff xff xff xff))))))
(T (W x01 x00 x00 x00 x9c x00 x00 x00)
(T (W x30 x71 xfc xff x00 x01 x01 x01)
(T (W x45 x26 x22 x84 xe4 x9c xf2 xcb)
(T (W xff xff xff xff xff xff xff xff)
(L (W xcc x37 xfe xff x30 x00 x00 x00))
(L (W x00 x00 x00 x00 x00 x00 x00 x00)))
(T (W xff xff xff xff xff xff xff xff)
(L (W x00 x00 x00 x00 x00 x00 x00 x00))
(L (W x00 x00 x00 x00 x00 x00 x00 x00))))
(T (W xda xa5 xfe xff x00 x00 x01 x01)
(T (W x54 x00 x00 x00 x48 x00 x00 x00)
(L (W x3c x00 x00 x00 x00 x00 x80 xbf))
(L (W x00 x00 x00 x00 x00 x00 x00 x00)))
(T (W xff xff xff xff xff xff xff xff)
(L (W x64 x00 x00 x00 xff xff xff xff))
(L (W x18 x00 x1c x00 x20 x00 x24 x00)))))
(T (W x00 x00 x80 x3f x00 x00 x80 x3f)
(T (W x00 x00 x00 x00 x00 x00 x00 x00)
(T (W x00 x00 x00 x00 x00 x00 x00 x00)
(L (W x00 x00 x80 x3f x00 x00 x80 x3f))
(L (W xff xff xff xff xff xff xff xff)))
(T (W x2a xe9 xfd xff x74 x00 x00 x00)
(L (W x6c x00 x00 x00 x60 x00 x00 x00))
(L (W xff xff xff xff xff xff xff xff))))
(T (W x00 x00 x00 x00 x00 x00 x00 x00)
(T (W x00 x00 x00 x00 x00 x00 x00 x00)
(L (W x67 x72 x6f x75 x70 x5f x6c x65))
(L (W x45 x44 x00 x00 x00 x00 x00 x00)))
(T (W x1d x00 x00 x00 x10 x00 x00 x00)
(L (W x00 x00 x00 x00 x00 x00 x00 x00)) E)))))
(T (W xff xff xff xff xff xff xff xff)
(T (W x45 x26 x22 x84 xe4 x9c xf2 xcb)
(T (W x2a x81 xfc xff x74 x00 x00 x00)
(T (W x00 x00 x00 x00 x00 x00 x00 x00)
(T (W xff xff xff xff xff xff xff xff)
(L (W x00 x00 x00 x00 x00 x00 x00 x00))
(L (W x00 x00 x00 x00 x12 x00 x00 x00)))
(T (W xff xff xff xff xff xff xff xff)
(L (W x45 x26 x22 x84 xe4 x9c xf2 xcb))
(L (W x45 x44 x00 x00 x00 x00 x00 x00))))
(T (W x3e x00 x00 x00 x0c x00 x00 x00)
(T (W x45 x26 x22 x84 xe4 x9c xf2 xcb)
(L (W x00 x01 x01 x01 xea x65 xfe xff))
(L (W xff xff xff xff xff xff xff xff)))
(T (W x64 x00 x00 x00 x9c x00 x00 x00)
(L (W xb3 x01 x00 x00 xff xff xff xff))
(L (W xff xff xff xff xff xff xff xff)))))
(T (W x45 x26 x22 x84 xe4 x9c xf2 xcb)
(T (W x00 x00 x80 x3f x00 x00 x80 x3f)
(T (W x04 x00 x00 x00 x6c x03 x00 x00)
(L (W xb8 x00 x00 x00 xac x00 x00 x00))
(L (W x03 x00 x00 x00 xd8 x00 x00 x00)))
(T (W x00 x00 x80 x3f x00 x00 x80 x3f)
(L (W x45 x26 x22 x84 xe4 x9c xf2 xcb))
(L (W x00 x00 x00 x00 x00 x00 x00 x00))))
(T (W xff xff xff xff xff xff xff xff)
(T (W x46 x53 x59 x53 x5f x4e x53 x5f)
(L (W x68 x00 x00 x00 x5c x00 x00 x00))
(L (W x00 x00 x00 x00 x00 x00 x00 x00)))
(T (W x00 x00 x80 x3f x00 x00 x80 x3f)
(L (W x45 x44 x00 x00 x00 x00 x00 x00)) E))))
(T (W x0a x00 x00 x00 x2d x00 x00 x00)
(T (W x00 x00 x80 x3f x00 x00 x80 x3f)
(T (W x00 x00 x00 x00 x00 x00 x00 x00)
(T (W xff xff xff xff xff xff xff xff)
(L (W x00 x00 x00 x00 x00 x00 x00 x00))
(L (W x00 x00 x80 xbf x00 x00 x80 xbf)))
(T (W x00 x00 x00 x00 x00 x00 x00 x00)
(L (W x00 x00 x00 x00 x00 x00 x00 x00))
(L (W x49 xa1 x68 x4a xeb x5f xdd x3d))))
(T (W xff xff xff xff xff xff xff xff)
(T (W x18 x00 x00 x00 x10 x00 x00 x00)
(L (W x18 x00 x00 x00 x0c x00 x00 x00))
(L (W x85 x8d xa7 x28 xbf x4e x53 x6a)))
(T (W x18 x00 x00 x00 x10 x00 x00 x00)
(L (W x30 x34 x5f x43 x4c x45 x41 x52))
(L (W x00 x00 x00 x00 x00 x00 x00 x00)))))
(T (W x00 x00 x80 x3f x00 x00 x80 x3f)
(T (W x00 x00 x00 x00 x00 x00 x00 x00)
(T (W x00 x00 x00 x00 x00 x00 x00 x00)
(L (W xc4 x00 x00 x00 x01 x00 x00 x00))
(L (W xff xff xff xff xff xff xff xff)))
(T (W xb0 x00 x00 x00 x64 x00 x00 x00)
(L (W x18 x00 x00 x00 x10 x00 x00 x00))
(L (W x2b x00 x00 x00 x2e x00 x00 x00))))
(T (W x97 x7c x19 x96 xc1 x52 xa4 x47)
(T (W x00 x00 x80 x3f x00 x00 x80 x3f)
(L (W xff xff xff xff xff xff xff xff))
(L (W xff xff xff xff xff xff xff xff)))
(T (W xff xff xff xff xff xff xff xff)
(L (W x45 x44 x00 x00 x00 x00 x00 x00)) E)))))))
(T (W x74 x2e xfc xff x21 x00 x00 x00)
(T (W x01 x00 x00 x00 x3e x00 x00 x00)
(T (W x2a x47 xfc xff x74 x00 x00 x00)
(T (W x50 x00 x00 x00 x44 x00 x00 x00)
(T (W x00 x00 x80 x3f x00 x00 x80 x3f)
(T (W x00 x00 x00 x00 x00 x00 x00 x00)
(T (W x45 x26 x22 x84 xe4 x9c xf2 xcb)
(L (W x01 x00 x00 x00 x9c x00 x00 x00))
(L (W xff xff xff xff xff xff xff xff)))
(T (W x45 x26 x22 x84 xe4 x9c xf2 xcb)
(L (W x00 x00 x00 x00 x00 x00 x00 x00))
(L (W xff xff xff xff xff xff xff xff))))
(T (W xff xff xff xff xff xff xff xff)
(T (W xff xff xff xff xff xff xff xff)
(L (W x5c x00 x00 x00 x50 x00 x00 x00))
(L (W xff xff xff xff xff xff xff xff)))
(T (W x45 x26 x22 x84 xe4 x9c xf2 xcb)
(L (W x6c x00 x00 x00 x60 x00 x00 x00))
(L (W x00 x00 x80 xbf x00 x00 x80 xbf)))))
(T (W x00 x00 x00 x00 x00 x00 x00 x00)
(T (W xff xff xff xff xff xff xff xff)
(T (W xff xff xff xff xff xff xff xff)
(L (W x50 x00 x00 x00 x44 x00 x00 x00))
(L (W x00 x00 x00 x00 x00 x00 x00 x00)))
(T (W xff xff xff xff xff xff xff xff)
(L (W xff xff xff xff xff xff xff xff))
(L (W x00 x00 x01 x01 x5c x00 x00 x00))))
(T (W xff xff xff xff xff xff xff xff)
(T (W x2a x97 xfd xff x74 x00 x00 x00)
(L (W x03 x00 x00 x00 xbc x00 x00 x00))
(L (W x43 x00 x00 x00 xff xff xff xff)))
(T (W x00 x00 x80 x3f x00 x00 x80 x3f)
(L (W xff xff xff xff xff xff xff xff))
(L (W x6c x00 x0c x00 x00 x00 x00 x00))))))
(T (W x2a x67 xfc xff x74 x00 x00 x00)
(T (W x00 x00 x00 x00 x00 x00 x00 x00)
(T (W xda x63 xfe xff x00 x00 x01 x01)
(T (W x0a x00 x00 x00 x3e x00 x00 x00)
(L (W xff xff xff xff xff xff xff xff))
(L (W x00 x00 x00 x00 x00 x00 x00 x00)))
(T (W x2b x00 x00 x00 x2e x00 x00 x00)
(L (W xff xff xff xff xff xff xff xff))
(L (W xff xff xff xff xff xff xff xff))))
(T (W xff xff xff xff xff xff xff xff)
(T (W x00 x00 x00 x00 x00 x00 x00 x00)
(L (W x45 x26 x22 x84 xe4 x9c xf2 xcb))
(L (W xb8 x00 x00 x00 x64 x00 x00 x00)))
(T (W x45 x26 x22 x84 xe4 x9c xf2 xcb)
(L (W xff xff xff xff xff xff xff xff))
(L (W x00 x00 x80 xbf x00 x00 x80 xbf)))))
(T (W x00 x00 x00 x00 x00 x00 x00 x00)
(T (W x1c x01 x00 x00 x04 x00 x00 x00)
(T (W xff xff xff xff xff xff xff xff)
(L (W x54 x00 x00 x00 x48 x00 x00 x00))
(L (W xa4 x50 xff xff xea x4b xff xff)))
(T (W x00 x00 x80 x3f x00 x00 x80 x3f)
(L (W x00 x00 x00 x00 x00 x00 x00 x00))
(L (W x68 x00 x00 x00 x00 x00 x62 x00))))
(T (W xff xff xff xff xff xff xff xff)
(T (W x02 x00 x00 x00 x30 x01 x00 x00)
(L (W x03 x00 x00 x00 xd0 x00 x00 x00))
(L (W xff xff xff xff xff xff xff xff)))
(T (W xff xff xff xff xff xff xff xff)
(L (W xff xff xff xff xff xff xff xff)) E)))))
(T (W x00 x00 x80 x3f x00 x00 x80 x3f)
(T (W x68 x00 x00 x00 x5c x00 x00 x00)
(T (W x45 x26 x22 x84 xe4 x9c xf2 xcb)
(T (W x40 x00 x00 x00 x10 x00 x00 x00)
(T (W x01 x00 x00 x00 x9c x00 x00 x00)
(L (W xff xff xff xff xff xff xff xff))
(L (W xff xff xff xff xff xff xff xff)))
(T (W x54 x00 x00 x00 x48 x00 x00 x00)
(L (W x61 x72 x6c x69 x6b x65 x5f x6f))
(L (W xff xff xff xff xff xff xff xff))))
(T (W xff xff xff xff xff xff xff xff)
(T (W x87 x75 x5a x26 x96 x96 x06 x58)
(L (W x00 x00 x00 x00 x00 x00 x00 x00))
(L (W x72 x6b xff xff x78 x00 x00 x00)))
(T (W x00 x00 x80 x3f x00 x00 x80 x3f)
(L (W x00 x00 x00 x00 xa8 xe8 xfe xff))
(L (W x49 xa1 x68 x4a xeb x5f xdd x3d)))))
(T (W x00 x00 x00 x00 x00 x00 x00 x00)
(T (W x00 x00 x00 x00 x7a x88 xff xff)
(T (W x72 x4b xfd xff x78 x00 x00 x00)
(L (W x00 x00 x80 x3f x00 x00 x80 x3f))
(L (W x54 x00 x00 x00 x48 x00 x00 x00)))
(T (W x00 x00 x00 x00 x00 x00 x00 x00)
(L (W x28 x00 x00 x00 x0c x00 x00 x00))
(L (W x00 x00 x00 x00 x00 x00 x00 x00))))
(T (W x00 x00 x00 x00 x00 x00 x00 x00)
(T (W xff xff xff xff xff xff xff xff)
(L (W x00 x00 x00 x00 x00 x00 x00 x00))
(L (W xff xff xff xff xff xff xff xff)))
(T (W x00 x00 x00 x00 x00 x00 x00 x00)
(L (W xff xff xff xff xff xff xff xff)) E))))
(T (W x00 x00 x80 x3f x00 x00 x80 x3f)
(T (W x00 x00 x00 x00 x00 x00 x00 x00)
(T (W xff xff xff xff xff xff xff xff)
(T (W xc0 x00 x00 x00 xb4 x00 x00 x00)
(L (W xff xff xff xff xff xff xff xff))
(L (W x00 x00 x00 x00 x00 x00 x00 x00)))
(T (W xff xff xff xff xff xff xff xff)
(L (W xff xff xff xff xff xff xff xff))
(L (W x00 x00 x00 x00 x00 x00 x00 x00))))
(T (W xff xff xff xff xff xff xff xff)
(T (W x00 x00 x80 x3f x00 x00 x80 x3f)
(L (W x00 x00 x00 x00 x00 x00 x00 x00))
(L (W xff xff xff xff xff xff xff xff)))
(T (W x00 x00 x80 x3f x00 x00 x80 x3f)
(L (W xff xff xff xff xff xff xff xff))
(L (W x00 x00 x01 x01 xb1 x01 x00 x00)))))
(T (W x00 x00 x00 x00 x00 x00 x00 x00)
(T (W xff xff xff xff xff xff xff xff)
(T (W xff xff xff xff xff xff xff xff)
(L (W x00 x00 x80 xbf x00 x00 x80 xbf))
(L (W x72 x5b xff xff x78 x00 x00 x00)))
(T (W x00 x00 x80 x3f x00 x00 x80 x3f)
(L (W x00 x00 x80 xbf x00 x00 x80 xbf))
(L (W x00 x00 x00 x00 x00 x00 x00 x00))))
(T (W xb8 x00 x00 x00 xac x00 x00 x00)
(T (W x00 x00 x00 x00 x00 x00 x00 x00)
(L (W x00 x00 x00 x00 x00 x00 x00 x00))
(L (W x00 x00 x62 x00 x7c x00 x08 x00)))
(T (W xb8 x00 x00 x00 xac x00 x00 x00)
(L (W xff xff xff xff xff xff xff xff)) E))))))
(T (W xda x3e x7f xc3 xba xf1 x85 xe3)
(T (W x6a xe6 xfd xff xd2 x02 x00 x00)
(T (W xef xb2 x62 x14 x77 xc5 x0a x98)
(T (W xff xff xff xff xff xff xff xff)
(T (W x68 x00 x00 x00 x5c x00 x00 x00)
(T (W x00 x00 x00 x00 x00 x00 x00 x00)
(L (W x6f x6b x65 x5f x6d x69 x6c x64))
(L (W x00 x00 x80 xbf x00 x00 x80 xbf)))
(T (W xff xff xff xff xff xff xff xff)
(L (W x67 x72 x6f x75 x70 x5f x6c x65))
(L (W x00 x00 x00 x00 x00 x00 x00 x00))))
(T (W x00 x00 x80 x3f x00 x00 x80 x3f)
(T (W x00 x00 x80 x3f x00 x00 x80 x3f)
(L (W xff xff xff xff xff xff xff xff))
(L (W x00 x00 x00 x00 x12 x00 x00 x00)))
(T (W x32 x00 x00 x00 x10 x00 x00 x00)
(L (W x00 x00 x01 x01 x6f x00 x00 x00))
(L (W x2a x00 x00 x00 x10 x00 x00 x00)))))
(T (W xff xff xff xff xff xff xff xff)
(T (W x00 x00 x80 x3f x00 x00 x80 x3f)
(T (W x00 x00 x00 x00 x00 x00 x00 x00)
(L (W x6a xf6 xff xff x4a x00 x00 x00))
(L (W xff xff xff xff xff xff xff xff)))
(T (W x50 x00 x00 x00 x44 x00 x00 x00)
(L (W x54 x00 x00 x00 x48 x00 x00 x00))
(L (W x00 x00 x80 xbf x00 x00 x80 xbf))))
(T (W x00 x00 x00 x00 x00 x00 x00 x00)
(T (W x00 x00 x00 x00 x00 x00 x00 x00)
(L (W x00 x00 x80 xbf x00 x00 x80 xbf))
(L (W x00 x00 x00 x00 x34 x83 xff xff)))
(T (W xff xff xff xff xff xff xff xff)
(L (W x00 x00 x80 xbf x00 x00 x80 xbf))
(L (W x00 x00 x00 x00 x0c x00 x0a x00))))))
(T (W xff xff xff xff xff xff xff xff)
(T (W xff xff xff xff xff xff xff xff)
(T (W x30 xb3 xfc xff x00 x01 x01 x01)
(T (W x00 x00 x00 x00 x00 x00 x00 x00)
(L (W x00 x00 x00 x00 x00 x00 x00 x00))
(L (W x18 x00 x00 x00 x10 x00 x00 x00)))
(T (W x00 x00 x00 x00 x00 x00 x00 x00)
(L (W x00 x00 x80 x3f x00 x00 x80 x3f))
(L (W x54 x00 x00 x00 x48 x00 x00 x00))))
(T (W x00 x00 x00 x00 x00 x00 x00 x00)
(T (W xff xff xff xff xff xff xff xff)
(L (W x45 x26 x22 x84 xe4 x9c xf2 xcb))
(L (W x00 x00 x00 x00 x00 x00 x00 x00)))
(T (W xf4 x6f x2e x97 x85 x25 x59 x5f)
(L (W x00 x00 x00 x00 x00 x00 x00 x00))
(L (W x00 x00 x80 xbf x00 x00 x80 xbf)))))
(T (W x2a xab xfc xff x74 x00 x00 x00)
(T (W x00 x00 x80 x3f x00 x00 x80 x3f)
(T (W x00 x00 x80 x3f x00 x00 x80 x3f)
(L (W xff xff xff xff xbc x00 x00 x00))
(L (W x00 x00 x00 x00 x7a x52 xff xff)))
(T (W xff xff xff xff xff xff xff xff)
(L (W xff xff xff xff xff xff xff xff))
(L (W x00 x00 x80 xbf x00 x00 x80 xbf))))
(T (W x00 x00 x80 x3f x00 x00 x80 x3f)
(T (W xff xff xff xff x9c x00 x00 x00)
(L (W x18 x00 x00 x00 x10 x00 x00 x00))
(L (W x49 xa1 x68 x4a xeb x5f xdd x3d)))
(T (W x00 x00 x00 x00 x00 x00 x00 x00)
(L (W x00 x00 x80 xbf x00 x00 x80 xbf)) E)))))
(T (W x00 x00 x00 x00 x00 x00 x00 x00)
(T (W xbc x01 x00 x00 xff xff xff xff)
(T (W xff xff xff xff xff xff xff xff)
(T (W x2a xc3 xfc xff x74 x00 x00 x00)
(T (W x00 x00 x00 x00 x00 x00 x00 x00)
(L (W x00 x00 x80 x3f x00 x00 x80 x3f))
(L (W x00 x00 x80 xbf x00 x00 x80 xbf)))
(T (W x00 x00 x00 x00 x00 x00 x00 x00)
(L (W x00 x00 x00 x00 x00 x00 x00 x00))
(L (W x00 x00 x80 xbf x00 x00 x80 xbf))))
(T (W x00 x00 x80 x3f x00 x00 x80 x3f)
(T (W x00 x00 x00 x00 xa8 x6c xfd xff)
(L (W xff xff xff xff xb0 x00 x00 x00))
(L (W x00 x00 x00 x00 x00 x00 x00 x00)))
(T (W xff xff xff xff xff xff xff xff)
(L (W x00 x00 x00 x00 x00 x00 x00 x00))
(L (W xff xff xff xff xff xff xff xff)))))
(T (W x18 x00 x00 x00 x0c x00 x00 x00)
(T (W x00 x00 x80 x3f x00 x00 x80 x3f)
(T (W x45 x26 x22 x84 xe4 x9c xf2 xcb)
(L (W x74 x56 xfe xff x30 x00 x00 x00))
(L (W x00 x00 x01 x01 x93 x01 x00 x00)))
(T (W xff xff xff xff xc4 x00 x00 x00)
(L (W x45 x26 x22 x84 xe4 x9c xf2 xcb))
(L (W x00 x00 x80 xbf x00 x00 x80 xbf))))
(T (W x45 x26 x22 x84 xe4 x9c xf2 xcb)
(T (W x00 x00 x80 x3f x00 x00 x80 x3f)
(L (W x00 x00 x00 x00 x00 x00 x00 x00))
(L (W x00 x00 x80 xbf x00 x00 x80 xbf)))
(T (W x18 x00 x00 x00 x10 x00 x00 x00)
(L (W x00 x00 x80 xbf x00 x00 x80 xbf)) E))))
(T (W xff xff xff xff xff xff xff xff)
(T (W xff xff xff xff x03 x00 x00 x00)
(T (W x00 x00 x80 x3f x00 x00 x80 x3f)
(T (W xd7 x00 xb4 x3d xd8 x36 x58 xd6)
(L (W xff xff xff xff xff xff xff xff))
(L (W xff xff xff xff xff xff xff xff)))
(T (W x45 x26 x22 x84 xe4 x9c xf2 xcb)
(L (W x00 x00 x80 x3f x00 x00 x80 x3f))
(L (W x00 x00 x80 xbf x00 x00 x80 xbf))))
(T (W x00 x00 x00 x00 x00 x00 x00 x00)
(T (W x4b x00 x00 x00 xff xff xff xff)
(L (W x00 x00 x00 x00 x01 x00 x00 x00))
(L (W x45 x26 x22 x84 xe4 x9c xf2 xcb)))
(T (W xff xff xff xff xff xff xff xff)
(L (W x00 x00 x80 xbf x00 x00 x80 xbf))
(L (W x00 x00 x00 x00 x00 x00 x00 x00)))))
(T (W x00 x00 x80 x3f x00 x00 x80 x3f)
(T (W x50 x00 x00 x00 x44 x00 x00 x00)
(T (W x00 x00 x80 x3f x00 x00 x80 x3f)
(L (W xff xff xff xff xff xff xff xff))
(L (W x00 x00 x00 x00 x00 x00 x00 x00)))
(T (W x4c x45 x41 x52 x45 x44 x00 x00)
(L (W xff xff xff xff xff xff xff xff))
(L (W xff xff xff xff xff xff xff xff))))
(T (W x00 x00 x00 x00 x00 x00 x00 x00)
(T (W xff xff xff xff xff xff xff xff)
(L (W x00 x00 x00 x00 x00 x00 x00 x00))
(L (W x4f x84 x6f x8b xe8 xcb x63 xb7)))
(T (W x00 x00 x00 x00 x00 x00 x00 x00)
(L (W x49 xa1 x68 x4a xeb x5f xdd x3d)) E))))))))
(T (W xd8 x00 x01 x00 xa4 xff x00 x00)
(T (W xff xff xff xff xff xff xff xff)
(T (W x00 x00 x80 x3f x00 x00 x80 x3f)
(T (W x54 x00 x00 x00 x48 x00 x00 x00)
(T (W x00 x00 x80 x3f x00 x00 x80 x3f)
(T (W x00 x00 x00 x00 x00 x00 x00 x00)
(T (W x1c x01 x00 x00 x04 x00 x00 x00)
(T (W x30 x1e xfd xff x00 x01 x01 x01)
(L (W x00 x00 x80 x3f x00 x00 x80 x3f))
(L (W xff xff xff xff xff xff xff xff)))
(T (W x00 x00 x00 x00 x00 x00 x00 x00)
(L (W x67 x72 x6f x75 x70 x5f x6c x65))
(L (W xff xff xff xff xff xff xff xff))))
(T (W x18 x00 x00 x00 x10 x00 x00 x00)
(T (W xff xff xff xff xff xff xff xff)
(L (W x00 x00 x80 xbf x00 x00 x80 xbf))
(L (W x03 x00 x00 x00 xd0 x00 x00 x00)))
(T (W x00 x00 x80 x3f x00 x00 x80 x3f)
(L (W x00 x00 x80 xbf x00 x00 x80 xbf))
(L (W x00 x00 x80 xbf x00 x00 x80 xbf)))))
(T (W x00 x00 x00 x00 x00 x00 x00 x00)
(T (W xff xff xff xff xff xff xff xff)
(T (W x54 x00 x00 x00 x48 x00 x00 x00)
(L (W x00 x00 x80 x3f x00 x00 x80 x3f))
(L (W x46 x53 x59 x53 x5f x4e x53 x5f)))
(T (W xff xff xff xff xff xff xff xff)
(L (W xff xff xff xff xff xff xff xff))
(L (W xff xff xff xff xff xff xff xff))))
(T (W x00 x00 x00 x00 xa8 xff xfc xff)
(T (W x00 x00 x80 x3f x00 x00 x80 x3f)
(L (W x68 x00 x00 x00 x5c x00 x00 x00))
(L (W xff xff xff xff xff xff xff xff)))
(T (W x00 x00 x00 x00 x00 x00 x00 x00)
(L (W xff xff xff xff xa0 x00 x00 x00))
(L (W xff xff xff xff xff xff xff xff))))))
(T (W x45 x26 x22 x84 xe4 x9c xf2 xcb)
(T (W x00 x00 x00 x00 x00 x00 x00 x00)
(T (W xff xff xff xff xff xff xff xff)
(T (W x18 x00 x00 x00 x0c x00 x00 x00)
(L (W xb8 x00 x00 x00 xac x00 x00 x00))
(L (W xff xff xff xff xff xff xff xff)))
(T (W x72 xb2 xfd xff x78 x00 x00 x00)
(L (W xff xff xff xff xff xff xff xff))
(L (W xff xff xff xff xff xff xff xff))))
(T (W xc0 x00 x00 x00 xb4 x00 x00 x00)
(T (W x20 x00 x00 x00 x0c x00 x00 x00)
(L (W x00 x00 x00 x00 x00 x00 x00 x00))
(L (W x30 x6e xff xff x00 x01 x01 x01)))
(T (W x00 x00 x80 x3f x00 x00 x80 x3f)
(L (W x35 x00 x00 x00 x38 x00 x00 x00))
(L (W x4f x84 x6f x8b xe8 xcb x63 xb7)))))
(T (W x0e x00 x00 x00 x10 x00 x00 x00)
(T (W xff xff xff xff xff xff xff xff)
(T (W xc0 x00 x00 x00 x01 x00 x00 x00)
(L (W x6f x6b x65 x5f x63 x6f x77 x61))
(L (W x3c x00 x00 x00 x00 x00 x80 xbf)))
(T (W x00 x00 x00 x00 x00 x00 x00 x00)
(L (W x74 xd9 xfe xff x23 x00 x00 x00))
(L (W xff xff xff xff xff xff xff xff))))
(T (W x45 x26 x22 x84 xe4 x9c xf2 xcb)
(T (W xff xff xff xff xff xff xff xff)
(L (W x00 x00 x80 x3f x00 x00 x80 x3f))
(L (W xff xff xff xff xff xff xff xff)))
(T (W x64 x00 x00 x00 x9c x00 x00 x00)
(L (W xff xff xff xff xff xff xff xff)) E)))))
(T (W x00 x00 x80 x3f x00 x00 x80 x3f)
(T (W x00 x00 x80 x3f x00 x00 x80 x3f)
(T (W x00 x00 x00 x00 x00 x00 x00 x00)
(T (W xff xff xff xff xff xff xff xff)
(T (W x45 x26 x22 x84 xe4 x9c xf2 xcb)
(L (W xff xff xff xff xff xff xff xff))
(L (W x03 x00 x00 x00 xd0 x00 x00 x00)))
(T (W x00 x00 x80 x3f x00 x00 x80 x3f)
(L (W xff xff xff xff xff xff xff xff))
(L (W xcc x00 x00 x00 x01 x00 x00 x00))))
(T (W xb8 x00 x00 x00 xac x00 x00 x00)
(T (W xff xff xff xff xff xff xff xff)
(L (W x00 x00 x00 x00 x00 x00 x00 x00))
(L (W x00 x00 x80 x3f x00 x00 x80 x3f)))
(T (W x00 x00 x80 x3f x00 x00 x80 x3f)
(L (W x00 x00 x80 xbf x00 x00 x80 xbf))
(L (W x00 x00 x00 x00 x00 x00 x00 x00)))))
(T (W x00 x00 x00 x00 x00 x00 x00 x00)
(T (W xff xff xff xff xff xff xff xff)
(T (W x00 x00 x80 x3f x00 x00 x80 x3f)
(L (W x45 x26 x22 x84 xe4 x9c xf2 xcb))
(L (W x00 x00 x00 x00 x00 x00 x00 x00)))
(T (W x00 x00 x00 x00 x00 x00 x00 x00)
(L (W xff xff xff xff xff xff xff xff))
(L (W xff xff xff xff xff xff xff xff))))
(T (W x01 x00 x00 x00 x9c x00 x00 x00)
(T (W xc4 x00 x00 x00 x01 x00 x00 x00)
(L (W x04 x00 x00 x00 x0a x87 xfe xff))
(L (W xff xff xff xff xff xff xff xff)))
(T (W x00 x00 x00 x00 x00 x00 x00 x00)
(L (W xcc x00 x00 x00 x01 x00 x00 x00)) E))))
(T (W x00 x00 x80 x3f x00 x00 x80 x3f)
(T (W x00 x00 x00 x00 x00 x00 x00 x00)
(T (W xff xff xff xff xff xff xff xff)
(T (W x00 x00 x80 x3f x00 x00 x80 x3f)
(L (W xff xff xff xff xff xff xff xff))
(L (W x04 x00 x00 x00 x80 x03 x00 x00)))
(T (W x00 x00 x00 x00 xa8 xb7 xfd xff)
(L (W xff xff xff xff xc8 x00 x00 x00))
(L (W xff xff xff xff xff xff xff xff))))
(T (W xff xff xff xff x03 x00 x00 x00)
(T (W x00 x00 x00 x00 x00 x00 x00 x00)
(L (W x00 x00 x00 x00 x00 x00 x00 x00))
(L (W x2a x8e xff xff x74 x00 x00 x00)))
(T (W x00 x00 x80 x3f x00 x00 x80 x3f)
(L (W xff xff xff xff xff xff xff xff))
(L (W xff xff xff xff xff xff xff xff)))))
(T (W x00 x00 x00 x00 x7a x57 xff xff)
(T (W xff xff xff xff x04 x00 x00 x00)
(T (W x18 x00 x00 x00 x10 x00 x00 x00)
(L (W x00 x00 x00 x00 x00 x00 x00 x00))
(L (W x00 x00 x80 xbf x00 x00 x80 xbf)))
(T (W x4f x84 x6f x8b xe8 xcb x63 xb7)
(L (W x4f x84 x6f x8b xe8 xcb x63 xb7))
(L (W xff xff xff xff x9c x00 x00 x00))))
(T (W x68 x00 x00 x00 x5c x00 x00 x00)
(T (W x3b xb9 xba x38 x99 xcf xdf x1c)
(L (W x00 x00 x00 x00 x00 x00 x00 x00))
(L (W xff xff xff xff xff xff xff xff)))
(T (W x01 x00 x00 x00 x9c x00 x00 x00)
(L (W xff xff xff xff xff xff xff xff)) E))))))
(T (W xff xff xff xff xff xff xff xff)
(T (W xff xff xff xff xff xff xff xff)
(T (W xff xff xff xff xff xff xff xff)
(T (W xff xff xff xff xff xff xff xff)
(T (W x00 x00 x80 x3f x00 x00 x80 x3f)
(T (W x00 x00 x00 x00 x00 x00 x00 x00)
(L (W xff xff xff xff xff xff xff xff))
(L (W x4f x84 x6f x8b xe8 xcb x63 xb7)))
(T (W xff xff xff xff xff xff xff xff)
(L (W xff xff xff xff xff xff xff xff))
(L (W x30 x34 x5f x43 x4c x45 x41 x52))))
(T (W x45 x26 x22 x84 xe4 x9c xf2 xcb)
(T (W x00 x00 x00 x00 x00 x00 x00 x00)
(L (W xff xff xff xff xff xff xff xff))
(L (W x00 x00 x00 x00 x00 x00 x00 x00)))
(T (W xff xff xff xff xff xff xff xff)
(L (W xff xff xff xff xff xff xff xff))
(L (W xff xff xff xff xff xff xff xff)))))
(T (W x2a x9a xfc xff x74 x00 x00 x00)
(T (W x00 x00 x80 x3f x00 x00 x80 x3f)
(T (W x62 x00 x00 x00 x24 x00 x00 x00)
(L (W xff xff xff xff xff xff xff xff))
(L (W xff xff xff xff xff xff xff xff)))
(T (W x00 x00 x80 x3f x00 x00 x80 x3f)
(L (W x00 x00 x00 x00 x00 x00 x00 x00))
(L (W x00 x00 x00 x00 x00 x00 x00 x00))))
(T (W x00 x00 x00 x00 x00 x00 x00 x00)
(T (W x30 x34 x5f x43 x4c x45 x41 x52)
(L (W x00 x00 x00 x00 x00 x00 x00 x00))
(L (W x45 x26 x22 x84 xe4 x9c xf2 xcb)))
(T (W x18 x00 x00 x00 x10 x00 x00 x00)
(L (W x4f x84 x6f x8b xe8 xcb x63 xb7))
(L (W x00 x00 x00 x00 x00 x00 x00 x00))))))
(T (W xb8 x00 x00 x00 xac x00 x00 x00)
(T (W x18 x00 x00 x00 x10 x00 x00 x00)
(T (W x00 x00 x80 x3f x00 x00 x80 x3f)
(T (W x4b x00 x00 x00 xff xff xff xff)
(L (W x00 x00 x00 x00 x00 x00 x00 x00))
(L (W x54 x00 x00 x00 x48 x00 x00 x00)))
(T (W x18 x00 x00 x00 x0c x00 x00 x00)
(L (W x45 x26 x22 x84 xe4 x9c xf2 xcb))
(L (W x00 x00 x80 xbf x00 x00 x80 xbf))))
(T (W x00 x00 x00 x00 x00 x00 x00 x00)
(T (W x45 x26 x22 x84 xe4 x9c xf2 xcb)
(L (W x6c x00 x00 x00 x60 x00 x00 x00))
(L (W x00 x00 x00 x00 x00 x00 x00 x00)))
(T (W xff xff xff xff xff xff xff xff)
(L (W x5f x4e x53 x5f x30 x34 x5f x43))
(L (W x00 x00 x00 x00 x00 x00 x00 x00)))))
(T (W x00 x00 x80 x3f x00 x00 x80 x3f)
(T (W x00 x00 x80 x3f x00 x00 x80 x3f)
(T (W x00 x00 x00 x00 x00 x00 x00 x00)
(L (W x45 x26 x22 x84 xe4 x9c xf2 xcb))
(L (W xff xff xff xff xff xff xff xff)))
(T (W xff xff xff xff x9c x00 x00 x00)
(L (W x18 x00 x00 x00 x10 x00 x00 x00))
(L (W x74 xdd xff xff x21 x00 x00 x00))))
(T (W x00 x00 x00 x00 x00 x00 x00 x00)
(T (W x68 x00 x00 x00 x5c x00 x00 x00)
(L (W x00 x00 x00 x00 x00 x00 x00 x00))
(L (W x00 x00 x00 x00 x00 x00 x00 x00)))
(T (W x00 x00 x00 x00 x00 x00 x00 x00)
(L (W x00 x00 x00 x00 x00 x00 x00 x00)) E)))))
(T (W xda xee xfd xff x00 x00 x01 x01)
(T (W xff xff xff xff xff xff xff xff)
(T (W xff xff xff xff xff xff xff xff)
(T (W x50 x00 x00 x00 x44 x00 x00 x00)
(T (W x1e x76 x16 x69 xd8 x98 xc1 xb5)
(L (W x00 x00 x00 x00 x00 x00 x00 x00))
(L (W x00 x00 x00 x00 x00 x00 x00 x00)))
(T (W x00 x00 x00 x00 x82 xac xfd xff)
(L (W x6e x00 x00 x00 x82 xac xfe xff))
(L (W x00 x00 x00 x00 x00 x00 x00 x00))))
(T (W x00 x00 x00 x00 x00 x00 x00 x00)
(T (W x00 x00 x80 x3f x00 x00 x80 x3f)
(L (W x14 x00 x00 x00 x0c x00 x00 x00))
(L (W x30 x34 x5f x43 x4c x45 x41 x52)))
(T (W xff xff xff xff xff xff xff xff)
(L (W x00 x00 x00 x00 x00 x00 x00 x00))
(L (W xff xff xff xff xff xff xff xff)))))
(T (W x00 x00 x80 x3f x00 x00 x80 x3f)
(T (W x00 x00 x80 x3f x00 x00 x80 x3f)
(T (W x00 x00 x00 x00 x00 x00 x00 x00)
(L (W xff xff xff xff xff xff xff xff))
(L (W xff xff xff xff xff xff xff xff)))
(T (W x45 x26 x22 x84 xe4 x9c xf2 xcb)
(L (W x54 x00 x00 x00 x48 x00 x00 x00))
(L (W x00 x00 x00 x00 x00 x00 x00 x00))))
(T (W x2c x00 x30 x00 x34 x00 x38 x00)
(T (W x00 x00 x00 x00 x00 x00 x00 x00)
(L (W xff xff xff xff xff xff xff xff))
(L (W x00 x00 x00 x00 x00 x00 x00 x00)))
(T (W x45 x26 x22 x84 xe4 x9c xf2 xcb)
(L (W x00 x00 x00 x00 x00 x00 x00 x00)) E))))
(T (W xff xff xff xff xff xff xff xff)
(T (W x01 x00 x00 x00 xa0 x00 x00 x00)
(T (W x00 x00 x80 x3f x00 x00 x80 x3f)
(T (W xff xff xff xff xff xff xff xff)
(L (W x00 x00 x00 x00 x00 x00 x00 x00))
(L (W x68 x00 x00 x00 x5c x00 x00 x00)))
(T (W x00 x00 x00 x00 x00 x00 x00 x00)
(L (W x00 x00 x00 x00 x00 x00 x00 x00))
(L (W x00 x00 x80 xbf x00 x00 x80 xbf))))
(T (W x3e x00 x00 x00 x0c x00 x00 x00)
(T (W xff xff xff xff xff xff xff xff)
(L (W xff xff xff xff xff xff xff xff))
(L (W x00 x00 x00 x00 x00 x00 x00 x00)))
(T (W xff xff xff xff xff xff xff xff)
(L (W x00 x00 x00 x00 x00 x00 x00 x00))
(L (W xff xff xff xff xff xff xff xff)))))
(T (W x00 x00 x80 x3f x00 x00 x80 x3f)
(T (W x00 x00 x00 x00 x00 x00 x00 x00)
(T (W x00 x00 x00 x00 x00 x00 x00 x00)
(L (W xff xff xff xff xff xff xff xff))
(L (W x00 x00 x00 x00 x00 x00 x00 x00)))
(T (W x01 x00 x00 x00 xff xff xff xff)
(L (W x03 x00 x00 x00 xd8 x00 x00 x00))
(L (W xff xff xff xff xff xff xff xff))))
(T (W x00 x00 x00 x00 x00 x00 x00 x00)
(T (W x00 x00 x00 x00 xa8 x9b xfd xff)
(L (W x00 x00 x00 x00 x00 x00 x00 x00))
(L (W x00 x00 x00 x00 x2b x00 x00 x00)))
(T (W xcc x20 xfe xff x3b x00 x00 x00)
(L (W x00 x00 x00 x00 x00 x00 x00 x00)) E)))))))
(T (W x00 x00 x00 x00 x00 x00 x00 x00)
(T (W xff xff xff xff xff xff xff xff)
(T (W xff xff xff xff xff xff xff xff)
(T (W x68 x00 x00 x00 x5c x00 x00 x00)
(T (W x00 x00 x80 x3f x00 x00 x80 x3f)
(T (W x00 x00 x00 x00 x00 x00 x00 x00)
(T (W xff xff xff xff xff xff xff xff)
(L (W xb8 x00 x00 x00 xac x00 x00 x00))
(L (W x45 x44 x00 x00 x00 x00 x00 x00)))
(T (W x30 xa0 xfd xff x00 x01 x01 x01)
(L (W x00 x00 x80 x3f x00 x00 x80 x3f))
(L (W xff xff xff xff xff xff xff xff))))
(T (W xda x94 xfe xff x00 x00 x01 x01)
(T (W x00 x00 x01 x01 x2b x01 x00 x00)
(L (W x45 x26 x22 x84 xe4 x9c xf2 xcb))
(L (W xff xff xff xff xff xff xff xff)))
(T (W x64 x00 x00 x00 x9c x00 x00 x00)
(L (W x18 x00 x00 x00 x10 x00 x00 x00))
(L (W x00 x00 x00 x00 xa8 xe1 xff xff)))))
(T (W x00 x00 x00 x00 x00 x00 x00 x00)
(T (W x3e x00 x00 x00 x0c x00 x00 x00)
(T (W x3e x00 x00 x00 x0c x00 x00 x00)
(L (W xb8 x00 x00 x00 xac x00 x00 x00))
(L (W x00 x00 x80 xbf x00 x00 x80 xbf)))
(T (W x13 x00 x00 x00 x10 x00 x00 x00)
(L (W x00 x00 x00 x00 x00 x00 x00 x00))
(L (W x45 x44 x00 x00 x00 x00 x00 x00))))
(T (W xff xff xff xff xff xff xff xff)
(T (W xff xff xff xff x9c x00 x00 x00)
(L (W xff xff xff xff xff xff xff xff))
(L (W x00 x00 x00 x00 x00 x00 x00 x00)))
(T (W x00 x00 x80 x3f x00 x00 x80 x3f)
(L (W xff xff xff xff xff xff xff xff))
(L (W x00 x00 x80 xbf x00 x00 x80 xbf))))))
(T (W x45 x26 x22 x84 xe4 x9c xf2 xcb)
(T (W x00 x00 x80 x3f x00 x00 x80 x3f)
(T (W x00 x00 x00 x00 x00 x00 x00 x00)
(T (W xff xff xff xff xff xff xff xff)
(L (W xff xff xff xff xff xff xff xff))
(L (W x00 x00 x00 x00 x12 x00 x00 x00)))
(T (W xff xff xff xff xff xff xff xff)
(L (W x00 x00 x00 x00 x00 x00 x00 x00))
(L (W x00 x00 x00 x00 x00 x00 x00 x00))))
(T (W xff xff xff xff xff xff xff xff)
(T (W x45 x26 x22 x84 xe4 x9c xf2 xcb)
(L (W x00 x00 x80 xbf x00 x00 x80 xbf))
(L (W xff xff xff xff xff xff xff xff)))
(T (W x18 x00 x00 x00 x10 x00 x00 x00)
(L (W xff xff xff xff xff xff xff xff))
(L (W xff xff xff xff xff xff xff xff)))))
(T (W x45 x26 x22 x84 xe4 x9c xf2 xcb)
(T (W x00 x00 x00 x00 x00 x00 x00 x00)
(T (W xff xff xff xff xff xff xff xff)
(L (W x24 x00 x28 x00 x2c x00 x30 x00))
(L (W x18 x00 x00 x00 x0c x00 x00 x00)))
(T (W x00 x00 x80 x3f x00 x00 x80 x3f)
(L (W x00 x00 x80 xbf x00 x00 x80 xbf))
(L (W x00 x00 x80 xbf x00 x00 x80 xbf))))
(T (W xda xc4 xfe xff x00 x00 x01 x01)
(T (W x00 x00 x00 x00 x12 x00 x00 x00)
(L (W xff xff xff xff xff xff xff xff))
(L (W xff xff xff xff xff xff xff xff)))
(T (W xff xff xff xff xff xff xff xff)
(L (W x00 x00 x00 x00 x00 x00 x00 x00)) E)))))
(T (W x45 x26 x22 x84 xe4 x9c xf2 xcb)
(T (W x30 x48 xfc xff x00 x01 x01 x01)
(T (W x54 x00 x00 x00 x48 x00 x00 x00)
(T (W x00 x00 x00 x00 x00 x00 x00 x00)
(T (W xb8 x00 x00 x00 xac x00 x00 x00)
(L (W xcc x2e xfe xff x11 x00 x00 x00))
(L (W x02 x00 x00 x00 x30 x01 x00 x00)))
(T (W x45 x26 x22 x84 xe4 x9c xf2 xcb)
(L (W x45 x26 x22 x84 xe4 x9c xf2 xcb))
(L (W xff xff xff xff xff xff xff xff))))
(T (W xff xff xff xff xff xff xff xff)
(T (W x00 x00 x00 x00 x00 x00 x00 x00)
(L (W x00 x00 x80 xbf x00 x00 x80 xbf))
(L (W x1a x00 x00 x00 x1d x00 x00 x00)))
(T (W x18 x00 x00 x00 x0c x00 x00 x00)
(L (W xff xff xff xff xff xff xff xff))
(L (W x2a x00 x00 x00 x74 x00 x00 x00)))))
(T (W x45 x26 x22 x84 xe4 x9c xf2 xcb)
(T (W x00 x00 x00 x00 x00 x00 x00 x00)
(T (W xff xff xff xff xff xff xff xff)
(L (W x50 x00 x00 x00 x44 x00 x00 x00))
(L (W x18 x00 x00 x00 x10 x00 x00 x00)))
(T (W x00 x00 x00 x00 x00 x00 x00 x00)
(L (W x00 x00 x00 x00 x00 x00 x00 x00))
(L (W x00 x00 x00 x00 x00 x00 x00 x00))))
(T (W x00 x00 x00 x00 x00 x00 x00 x00)
(T (W x04 x00 x00 x00 x0a x89 xfd xff)
(L (W x45 x26 x22 x84 xe4 x9c xf2 xcb))
(L (W x00 x00 x00 x00 x82 x8a xff xff)))
(T (W x00 x00 x80 x3f x00 x00 x80 x3f)
(L (W xff xff xff xff xff xff xff xff)) E))))
(T (W x18 x00 x00 x00 x0c x00 x00 x00)
(T (W x45 x26 x22 x84 xe4 x9c xf2 xcb)
(T (W x3e x00 x00 x00 x10 x00 x00 x00)
(T (W xff xff xff xff xff xff xff xff)
(L (W x29 x00 x00 x00 x10 x00 x00 x00))
(L (W x00 x00 x80 xbf x00 x00 x80 xbf)))
(T (W xa5 x01 x00 x00 xff xff xff xff)
(L (W x00 x00 x00 x00 x82 xba xfe xff))
(L (W x00 x00 x00 x00 x00 x00 x00 x00))))
(T (W xff xff xff xff xff xff xff xff)
(T (W x6c x00 x00 x00 x60 x00 x00 x00)
(L (W x00 x00 x80 xbf x00 x00 x80 xbf))
(L (W xff xff xff xff xff xff xff xff)))
(T (W x45 x26 x22 x84 xe4 x9c xf2 xcb)
(L (W x00 x00 x01 x01 x4b x00 x00 x00))
(L (W x30 x34 x5f x43 x4c x45 x41 x52)))))
(T (W x00 x00 x80 x3f x00 x00 x80 x3f)
(T (W x40 x00 x00 x00 x10 x00 x00 x00)
(T (W x00 x00 x00 x00 x7a x57 xfd xff)
(L (W x00 x00 x80 xbf x00 x00 x80 xbf))
(L (W xff xff xff xff x9c x00 x00 x00)))
(T (W x30 xd8 xfd xff x00 x01 x01 x01)
(L (W x54 x00 x00 x00 x48 x00 x00 x00))
(L (W x00 x00 x00 x00 x00 x00 x00 x00))))
(T (W xff xff xff xff xff xff xff xff)
(T (W x00 x00 x80 x3f x00 x00 x80 x3f)
(L (W x18 x00 x00 x00 x10 x00 x00 x00))
(L (W x00 x00 x80 xbf x00 x00 x80 xbf)))
(T (W xff xff xff xff xff xff xff xff)
(L (W xff xff xff xff xff xff xff xff)) E))))))
(T (W x00 x00 x00 x00 x00 x00 x00 x00)
(T (W x00 x00 x00 x00 x00 x00 x00 x00)
(T (W x00 x00 x00 x00 x00 x00 x00 x00)
(T (W xff xff xff xff xff xff xff xff)
(T (W x2a xbc xfc xff x74 x00 x00 x00)
(T (W x45 x26 x22 x84 xe4 x9c xf2 xcb)
(L (W x00 x00 x80 x3f x00 x00 x80 x3f))
(L (W x54 x00 x00 x00 x48 x00 x00 x00)))
(T (W x74 xaf xfd xff x15 x00 x00 x00)
(L (W x00 x00 x00 x00 x00 x00 x00 x00))
(L (W x00 x00 x80 xbf x00 x00 x80 xbf))))
(T (W x30 xe4 xfc xff x00 x01 x01 x01)
(T (W x2a x7c xfd xff x74 x00 x00 x00)
(L (W x04 x00 x00 x00 xa2 x74 xfe xff))
(L (W x00 x00 x00 x00 x00 x00 x00 x00)))
(T (W x00 x00 x00 x00 x00 x00 x00 x00)
(L (W x46 x53 x59 x53 x5f x4e x53 x5f))
(L (W x2a xfc xff xff x74 x00 x00 x00)))))
(T (W xff xff xff xff xff xff xff xff)
(T (W x2a xdc xfc xff x74 x00 x00 x00)
(T (W x00 x00 x00 x00 x00 x00 x00 x00)
(L (W x00 x00 x00 x00 x00 x00 x00 x00))
(L (W x00 x00 x00 x00 x0a x45 xff xff)))
(T (W x45 x26 x22 x84 xe4 x9c xf2 xcb)
(L (W x18 x00 x00 x00 x10 x00 x00 x00))
(L (W x00 x00 x80 xbf x00 x00 x80 xbf))))
(T (W x45 x26 x22 x84 xe4 x9c xf2 xcb)
(T (W x00 x00 x80 x3f x00 x00 x80 x3f)
(L (W x45 x26 x22 x84 xe4 x9c xf2 xcb))
(L (W x23 x00 x00 x00 x26 x00 x00 x00)))
(T (W xff xff xff xff xff xff xff xff)
(L (W x54 x00 x00 x00 x48 x00 x00 x00))
(L (W x18 x00 x1c x00 x20 x00 x24 x00))))))
(T (W xb7 x30 x68 x3d xa8 xc5 x47 x23)
(T (W xff xff xff xff xff xff xff xff)
(T (W x18 x00 x00 x00 x10 x00 x00 x00)
(T (W x00 x00 x00 x00 x00 x00 x00 x00)
(L (W x00 x00 x80 x3f x00 x00 x80 x3f))
(L (W x03 x00 x00 x00 xd0 x00 x00 x00)))
(T (W x00 x00 x80 x3f x00 x00 x80 x3f)
(L (W x54 x00 x00 x00 x48 x00 x00 x00))
(L (W x30 xb4 xff xff x00 x01 x01 x01))))
(T (W x00 x00 x80 x3f x00 x00 x80 x3f)
(T (W xff xff xff xff xff xff xff xff)
(L (W xff xff xff xff xff xff xff xff))
(L (W x00 x00 x00 x00 x00 x00 x00 x00)))
(T (W x00 x00 x00 x00 x00 x00 x00 x00)
(L (W x00 x00 x80 xbf x00 x00 x80 xbf))
(L (W x54 x00 x00 x00 x48 x00 x00 x00)))))
(T (W xff xff xff xff x04 x00 x00 x00)
(T (W x68 x00 x00 x00 x5c x00 x00 x00)
(T (W x00 x00 x80 x3f x00 x00 x80 x3f)
(L (W xff xff xff xff xff xff xff xff))
(L (W x00 x00 x00 x00 x00 x00 x00 x00)))
(T (W x00 x00 x00 x00 x7a xd3 xfd xff)
(L (W x45 x44 x00 x00 x00 x00 x00 x00))
(L (W x00 x00 x80 xbf x00 x00 x80 xbf))))
(T (W x00 x00 x80 x3f x00 x00 x80 x3f)
(T (W xff xff xff xff xff xff xff xff)
(L (W xff xff xff xff xff xff xff xff))
(L (W x00 x00 x80 xbf x00 x00 x80 xbf)))
(T (W x00 x00 x80 x3f x00 x00 x80 x3f)
(L (W xff xff xff xff xa8 x00 x00 x00)) E)))))
(T (W x00 x00 x00 x00 x00 x00 x00 x00)
(T (W x00 x00 x00 x00 x00 x00 x00 x00)
(T (W xff xff xff xff xff xff xff xff)
(T (W x45 x26 x22 x84 xe4 x9c xf2 xcb)
(T (W x00 x00 x80 x3f x00 x00 x80 x3f)
(L (W x00 x00 x80 x3f x00 x00 x80 x3f))
(L (W x2a x44 xff xff x74 x00 x00 x00)))
(T (W x00 x00 x00 x00 x00 x00 x00 x00)
(L (W x00 x00 x80 x3f x00 x00 x80 x3f))
(L (W x00 x00 x80 xbf x00 x00 x80 xbf))))
(T (W x00 x00 x80 x3f x00 x00 x80 x3f)
(T (W xff xff xff xff xff xff xff xff)
(L (W xff xff xff xff xff xff xff xff))
(L (W x00 x00 x80 xbf x00 x00 x80 xbf)))
(T (W x69 x6b x65 x5f x6c x76 x32 x00)
(L (W x45 x26 x22 x84 xe4 x9c xf2 xcb))
(L (W x00 x00 x00 x00 x22 xfb xff xff)))))
(T (W xff xff xff xff xff xff xff xff)
(T (W x00 x00 x80 x3f x00 x00 x80 x3f)
(T (W x00 x00 x80 x3f x00 x00 x80 x3f)
(L (W x2a x64 xfe xff x74 x00 x00 x00))
(L (W x30 x34 x5f x43 x4c x45 x41 x52)))
(T (W xff xff xff xff xff xff xff xff)
(L (W xff xff xff xff xff xff xff xff))
(L (W x00 x00 x80 xbf x00 x00 x80 xbf))))
(T (W x00 x00 x80 x3f x00 x00 x80 x3f)
(T (W x68 x00 x00 x00 x5c x00 x00 x00)
(L (W x00 x00 x00 x00 x00 x00 x00 x00))
(L (W xff xff xff xff xa8 x00 x00 x00)))
(T (W x34 x00 x38 x00 x3c x00 x40 x00)
(L (W x45 x26 x22 x84 xe4 x9c xf2 xcb)) E))))
(T (W xb5 x01 x00 x00 xff xff xff xff)
(T (W x7a x00 x00 x00 xff xff xff xff)
(T (W x01 x00 x00 x00 x3e x00 x00 x00)
(T (W x00 x00 x00 x00 x00 x00 x00 x00)
(L (W x2c x00 x30 x00 x34 x00 x38 x00))
(L (W xff xff xff xff xff xff xff xff)))
(T (W x2a xd4 xfd xff x74 x00 x00 x00)
(L (W x00 x00 x80 x3f x00 x00 x80 x3f))
(L (W x70 x00 x00 x00 x64 x00 x00 x00))))
(T (W x00 x00 x80 x3f x00 x00 x80 x3f)
(T (W x00 x00 x00 x00 x00 x00 x00 x00)
(L (W x00 x00 x00 x00 x00 x00 x00 x00))
(L (W x00 x00 x80 xbf x00 x00 x80 xbf)))
(T (W x90 x5b x2e x97 x85 x19 x59 x5f)
(L (W x54 x00 x00 x00 x48 x00 x00 x00))
(L (W x45 x26 x22 x84 xe4 x9c xf2 xcb)))))
(T (W x18 x00 x00 x00 x0c x00 x00 x00)
(T (W x2a xf4 xfc xff x74 x00 x00 x00)
(T (W x68 x00 x00 x00 x5c x00 x00 x00)
(L (W x00 x00 x00 x00 x00 x00 x00 x00))
(L (W x4f x84 x6f x8b xe8 xcb x63 xb7)))
(T (W x00 x00 x00 x00 x00 x00 x00 x00)
(L (W x18 x00 x00 x00 x0c x00 x00 x00))
(L (W x00 x00 x00 x00 x00 x00 x00 x00))))
(T (W x00 x00 x80 x3f x00 x00 x80 x3f)
(T (W xba xc3 xfd xff x9d x01 x00 x00)
(L (W x00 x00 x80 x3f x00 x00 x80 x3f))
(L (W x00 x00 x80 xbf x00 x00 x80 xbf)))
(T (W x00 x00 x00 x00 x00 x00 x00 x00)
(L (W x00 x00 x80 xbf x00 x00 x80 xbf)) E)))))))))
(T (W x00 x0e x02 x00 xbc x0b x02 x00)
(T (W x80 x55 x01 x00 x24 x53 x01 x00)
(T (W xb8 x23 x00 x00 x6c x21 x00 x00)
(T (W xff xff xff xff xff xff xff xff)
(T (W xd3 x02 x00 x00 xff xff xff xff)
(T (W xff xff xff xff xff xff xff xff)
(T (W x64 x00 x00 x00 x9c x00 x00 x00)
(T (W x00 x00 x80 x3f x00 x00 x80 x3f)
(T (W x00 x00 x00 x00 x00 x00 x00 x00)
(L (W xff xff xff xff xff xff xff xff))
(L (W x49 xa1 x68 x4a xeb x5f xdd x3d)))
(T (W x18 x00 x00 x00 x0c x00 x00 x00)
(L (W x00 x00 x80 x3f x00 x00 x80 x3f))
(L (W x00 x00 x00 x00 x00 x00 x00 x00))))
(T (W x00 x00 x00 x00 x00 x00 x00 x00)
(T (W x00 x00 x00 x00 x00 x00 x00 x00)
(L (W xff xff xff xff xff xff xff xff))
(L (W x6d xb6 x4d xdc x00 xec x5f x2f)))
(T (W xff xff xff xff xff xff xff xff)
(L (W xff xff xff xff xff xff xff xff))
(L (W xff xff xff xff xff xff xff xff)))))
(T (W x00 x00 x00 x00 x28 x7f xfc xff)
(T (W x45 x26 x22 x84 xe4 x9c xf2 xcb)
(T (W x24 x00 x00 x00 xff xff xff xff)
(L (W xff xff xff xff xff xff xff xff))
(L (W xf2 x41 xff xff x78 x00 x00 x00)))
(T (W x00 x00 x00 x00 x00 x00 x00 x00)
(L (W x00 x00 x00 x00 x00 x00 x00 x00))
(L (W x00 x00 x80 xbf x00 x00 x80 xbf))))
(T (W x00 x00 x00 x00 x00 x00 x00 x00)
(T (W xff xff xff xff xff xff xff xff)
(L (W x00 x00 x01 x01 xc7 x01 x00 x00))
(L (W x00 x00 x00 x00 x00 x00 x00 x00)))
(T (W x18 x00 x00 x00 x10 x00 x00 x00)
(L (W x46 x53 x59 x53 x5f x4e x53 x5f))
(L (W x00 x00 x62 x00 x78 x00 x04 x00))))))
(T (W xff xff xff xff xff xff xff xff)
(T (W x50 x00 x00 x00 x44 x00 x00 x00)
(T (W x00 x00 x00 x00 x00 x00 x00 x00)
(T (W x00 x00 x00 x00 x04 x00 x00 x00)
(L (W x00 x00 x00 x00 x00 x00 x00 x00))
(L (W x00 x00 x80 xbf x00 x00 x80 xbf)))
(T (W x00 x00 x01 x01 xa5 x01 x00 x00)
(L (W x67 x72 x6f x75 x70 x5f x77 x69))
(L (W x00 x00 x00 x00 x00 x00 x00 x00))))
(T (W x00 x00 x00 x00 x00 x00 x00 x00)
(T (W x00 x00 x80 x3f x00 x00 x80 x3f)
(L (W x45 x26 x22 x84 xe4 x9c xf2 xcb))
(L (W x00 x00 x00 x00 x02 x74 xff xff)))
(T (W xff xff xff xff xff xff xff xff)
(L (W x46 x53 x59 x53 x5f x4e x53 x5f))
(L (W x03 x00 x00 x00 xd0 x00 x00 x00)))))
(T (W x00 x00 x80 x3f x00 x00 x80 x3f)
(T (W x00 x00 x00 x00 x00 x00 x00 x00)
(T (W xf4 x58 xfd xff x27 x00 x00 x00)
(L (W x00 x00 x80 x3f x00 x00 x80 x3f))
(L (W xff xff xff xff xff xff xff xff)))
(T (W x50 x00 x00 x00 x44 x00 x00 x00)
(L (W x00 x00 x80 xbf x00 x00 x80 xbf))
(L (W x00 x00 x00 x00 x00 x00 x00 x00))))
(T (W x40 x00 x00 x00 x0c x00 x00 x00)
(T (W x4f x84 x6f x8b xe8 xcb x63 xb7)
(L (W xff xff xff xff xff xff xff xff))
(L (W x45 x26 x22 x84 xe4 x9c xf2 xcb)))
(T (W x00 x00 x4c x00 x50 x00 x00 x00)
(L (W x00 x00 x00 x00 x00 x00 x00 x00)) E)))))
(T (W xff xff xff xff xff xff xff xff)
(T (W xff xff xff xff xff xff xff xff)
(T (W xb0 x65 xfc xff x00 x01 x01 x01)
(T (W x45 x26 x22 x84 xe4 x9c xf2 xcb)
(T (W x00 x00 x00 x00 x00 x00 x00 x00)
(L (W x70 x5f x77 x69 x6c x64 x5f x70))
(L (W x00 x00 x00 x00 x00 x00 x00 x00)))
(T (W xff xff xff xff xff xff xff xff)
(L (W x9c x13 x00 x00 x80 x12 x00 x00))
(L (W xf4 xb0 xff xff x1a x00 x00 x00))))
(T (W x00 x00 x00 x00 x00 x00 x00 x00)
(T (W x49 xa1 x68 x4a xeb x5f xdd x3d)
(L (W x14 x00 x00 x00 x0c x00 x00 x00))
(L (W xff xff xff xff xff xff xff xff)))
(T (W xff xff xff xff xff xff xff xff)
(L (W xff xff xff xff xff xff xff xff))
(L (W xaa xfd xff xff x74 x00 x00 x00)))))
(T (W x45 x26 x22 x84 xe4 x9c xf2 xcb)
(T (W x45 x26 x22 x84 xe4 x9c xf2 xcb)
(T (W xff xff xff xff xff xff xff xff)
(L (W xff xff xff xff xff xff xff xff))
(L (W xff xff xff xff x9c x00 x00 x00)))
(T (W x00 x00 x80 x3f x00 x00 x80 x3f)
(L (W x49 xa1 x68 x4a xeb x5f xdd x3d))
(L (W x00 x00 x00 x00 x00 x00 x00 x00))))
(T (W xf4 x10 xfd xff x3e x00 x00 x00)
(T (W x00 x00 x00 x00 x00 x00 x00 x00)
(L (W x00 x00 x80 xbf x00 x00 x80 xbf))
(L (W x00 x00 x00 x00 x00 x00 x00 x00)))
(T (W x45 x26 x22 x84 xe4 x9c xf2 xcb)
(L (W x00 x00 x00 x00 x00 x00 x00 x00)) E))))
(T (W xff xff xff xff xff xff xff xff)
(T (W xaa x8d xfc xff x74 x00 x00 x00)
(T (W x00 x00 x00 x00 x00 x00 x00 x00)
(T (W xff xff xff xff xff xff xff xff)
(L (W x6f x6b x65 x5f x63 x6f x77 x61))
(L (W x00 x00 x80 xbf x00 x00 x80 xbf)))
(T (W x00 x00 x00 x00 x00 x00 x00 x00)
(L (W x00 x00 x00 x00 x00 x00 x00 x00))
(L (W x00 x00 x00 x00 x00 x00 x00 x00))))
(T (W x00 x00 x00 x00 x00 x00 x00 x00)
(T (W xff xff xff xff xb0 x00 x00 x00)
(L (W x50 x00 x00 x00 x44 x00 x00 x00))
(L (W x00 x00 x00 x00 x00 x00 x00 x00)))
(T (W xff xff xff xff xff xff xff xff)
(L (W x00 x00 x00 x00 x00 x00 x00 x00))
(L (W x00 x00 x80 xbf x00 x00 x80 xbf)))))
(T (W x00 x00 x80 x3f x00 x00 x80 x3f)
(T (W x00 x00 x00 x00 x00 x00 x00 x00)
(T (W x4c x45 x41 x52 x45 x44 x00 x00)
(L (W x00 x00 x00 x00 x28 x57 xfe xff))
(L (W xff xff xff xff xff xff xff xff)))
(T (W x03 x00 x00 x00 xd0 x00 x00 x00)
(L (W x03 x00 x00 x00 xd0 x00 x00 x00))
(L (W x46 x53 x59 x53 x5f x4e x53 x5f))))
(T (W x00 x00 x00 x00 x00 x00 x00 x00)
(T (W x00 x00 x80 x3f x00 x00 x80 x3f)
(L (W x00 x00 x00 x00 x28 x97 xfe xff))
(L (W x00 x00 x00 x00 x00 x00 x00 x00)))
(T (W x4c x1c xfe xff x2a x00 x00 x00)
(L (W x45 x26 x22 x84 xe4 x9c xf2 xcb)) E))))))
(T (W x00 x00 x80 x3f x00 x00 x80 x3f)
(T (W x00 x00 x80 x3f x00 x00 x80 x3f)
(T (W x00 x00 x00 x00 x00 x00 x00 x00)
(T (W x45 x26 x22 x84 xe4 x9c xf2 xcb)
(T (W xff xff xff xff xff xff xff xff)
(T (W x50 x00 x00 x00 x44 x00 x00 x00)
(L (W x00 x00 x80 x3f x00 x00 x80 x3f))
(L (W x03 x00 x00 x00 xd0 x00 x00 x00)))
(T (W x45 x26 x22 x84 xe4 x9c xf2 xcb)
(L (W x67 x72 x6f x75 x70 x5f x6c x65))
(L (W x6c x00 x00 x00 x60 x00 x00 x00))))
(T (W xff xff xff xff x04 x00 x00 x00)
(T (W x35 x00 x00 x00 x38 x00 x00 x00)
(L (W x00 x00 x00 x00 x00 x00 x00 x00))
(L (W x24 x63 xff xff x6a x5e xff xff)))
(T (W x00 x00 x80 x3f x00 x00 x80 x3f)
(L (W x49 xa1 x68 x4a xeb x5f xdd x3d))
(L (W x00 x00 x80 xbf x00 x00 x80 xbf)))))
(T (W x01 x00 x00 x00 x04 x00 x00 x00)
(T (W xff xff xff xff xff xff xff xff)
(T (W x00 x00 x00 x00 x00 x00 x00 x00)
(L (W x45 x26 x22 x84 xe4 x9c xf2 xcb))
(L (W x00 x00 x00 x00 x00 x00 x00 x00)))
(T (W xff xff xff xff xff xff xff xff)
(L (W xb0 x00 x00 x00 x1e x00 x00 x00))
(L (W xff xff xff xff xb0 x00 x00 x00))))
(T (W x50 x00 x00 x00 x44 x00 x00 x00)
(T (W x6c x00 x00 x00 x60 x00 x00 x00)
(L (W xff xff xff xff x9c x00 x00 x00))
(L (W xff xff xff xff xbc x00 x00 x00)))
(T (W x00 x00 x00 x00 x00 x00 x00 x00)
(L (W xcc x00 x00 x00 x01 x00 x00 x00))
(L (W x2c x00 x30 x00 x34 x00 x38 x00))))))
(T (W x00 x00 x00 x00 x00 x00 x00 x00)
(T (W x00 x00 x00 x00 x00 x00 x00 x00)
(T (W xff xff xff xff xff xff xff xff)
(T (W x00 x00 x80 x3f x00 x00 x80 x3f)
(L (W x01 x00 x00 x00 x9c x00 x00 x00))
(L (W xff xff xff xff xff xff xff xff)))
(T (W x00 x00 x80 x3f x00 x00 x80 x3f)
(L (W xff xff xff xff xc8 x00 x00 x00))
(L (W xff xff xff xff xff xff xff xff))))
(T (W x68 x00 x00 x00 x5c x00 x00 x00)
(T (W x45 x44 x00 x00 x00 x00 x00 x00)
(L (W x00 x00 x01 x01 x29 x00 x00 x00))
(L (W x24 x73 xff xff x6a x6e xff xff)))
(T (W x00 x00 x80 x3f x00 x00 x80 x3f)
(L (W xaa x09 xff xff x74 x00 x00 x00))
(L (W xff xff xff xff xff xff xff xff)))))
(T (W xff xff xff xff xff xff xff xff)
(T (W xff xff xff xff xff xff xff xff)
(T (W xaa x69 xfd xff x74 x00 x00 x00)
(L (W x0f x40 x54 x1d xca xa2 x99 xfd))
(L (W x00 x00 x80 xbf x00 x00 x80 xbf)))
(T (W x5f x4e x53 x5f x30 x34 x5f x43)
(L (W x30 x34 x5f x43 x4c x45 x41 x52))
(L (W x00 x00 x80 xbf x00 x00 x80 xbf))))
(T (W x00 x00 x00 x00 x28 x13 xfd xff)
(T (W x01 x00 x00 x00 xff xff xff xff)
(L (W x28 x00 x00 x00 x2b x00 x00 x00))
(L (W x18 x00 x00 x00 x10 x00 x00 x00)))
(T (W x18 x00 x00 x00 x0c x00 x00 x00)
(L (W xc4 x00 x00 x00 x02 x00 x00 x00)) E)))))
(T (W x00 x00 x80 x3f x00 x00 x80 x3f)
(T (W x00 x00 x00 x00 x00 x00 x00 x00)
(T (W x00 x00 x00 x00 x00 x00 x00 x00)
(T (W xff xff xff xff xff xff xff xff)
(T (W x00 x00 x80 x3f x00 x00 x80 x3f)
(L (W xb8 x00 x00 x00 xac x00 x00 x00))
(L (W xb0 x00 x00 x00 x64 x00 x00 x00)))
(T (W x00 x00 x80 x3f x00 x00 x80 x3f)
(L (W x00 x00 x00 x00 x00 x00 x00 x00))
(L (W x45 x26 x22 x84 xe4 x9c xf2 xcb))))
(T (W x45 x26 x22 x84 xe4 x9c xf2 xcb)
(T (W xff xff xff xff xff xff xff xff)
(L (W x30 x34 x5f x43 x4c x45 x41 x52))
(L (W x6c x00 x00 x00 x60 x00 x00 x00)))
(T (W x00 x00 x00 x00 x00 x00 x00 x00)
(L (W x6c x00 x00 x00 x60 x00 x00 x00))
(L (W x49 xa1 x68 x4a xeb x5f xdd x3d)))))
(T (W xff xff xff xff xff xff xff xff)
(T (W xff xff xff xff xff xff xff xff)
(T (W x45 x26 x22 x84 xe4 x9c xf2 xcb)
(L (W x00 x00 x00 x00 x00 x00 x00 x00))
(L (W x49 xa1 x68 x4a xeb x5f xdd x3d)))
(T (W x38 x01 x00 x00 x04 x00 x00 x00)
(L (W xff xff xff xff xff xff xff xff))
(L (W xff xff xff xff xb0 x00 x00 x00))))
(T (W x00 x00 x80 x3f x00 x00 x80 x3f)
(T (W xff xff xff xff x9c x00 x00 x00)
(L (W x00 x00 x00 x00 x00 x00 x00 x00))
(L (W xff xff xff xff xb0 x00 x00 x00)))
(T (W xfd xaf x30 x97 x85 x2b x5c x5f)
(L (W x45 x26 x22 x84 xe4 x9c xf2 xcb)) E))))
(T (W x00 x00 x00 x00 x00 x00 x00 x00)
(T (W x4c x80 xfc xff x3e x00 x00 x00)
(T (W xff xff xff xff xff xff xff xff)
(T (W x00 x00 x80 x3f x00 x00 x80 x3f)
(L (W x64 x00 x00 x00 x9c x00 x00 x00))
(L (W x00 x00 x00 x00 xfa x38 xff xff)))
(T (W x45 x26 x22 x84 xe4 x9c xf2 xcb)
(L (W xff xff xff xff xb0 x00 x00 x00))
(L (W xff xff xff xff xff xff xff xff))))
(T (W x00 x00 x80 x3f x00 x00 x80 x3f)
(T (W x00 x00 x00 x00 x00 x00 x00 x00)
(L (W x00 x00 x00 x00 x00 x00 x00 x00))
(L (W x45 x26 x22 x84 xe4 x9c xf2 xcb)))
(T (W x00 x00 x00 x00 x00 x00 x00 x00)
(L (W x18 x00 x00 x00 x10 x00 x00 x00))
(L (W x00 x00 x62 x00 x7c x00 x08 x00)))))
(T (W xff xff xff xff xff xff xff xff)
(T (W xb8 x00 x00 x00 xac x00 x00 x00)
(T (W x18 x00 x00 x00 x0c x00 x00 x00)
(L (W x00 x00 x00 x00 x00 x00 x00 x00))
(L (W x00 x00 x80 xbf x00 x00 x80 xbf)))
(T (W x00 x00 x00 x00 x00 x00 x00 x00)
(L (W x00 x00 x00 x00 x00 x00 x00 x00))
(L (W x00 x00 x00 x00 x00 x00 x00 x00))))
(T (W x45 x26 x22 x84 xe4 x9c xf2 xcb)
(T (W x00 x00 x00 x00 x00 x00 x00 x00)
(L (W x00 x00 x80 x3f x00 x00 x80 x3f))
(L (W x54 x00 x00 x00 x48 x00 x00 x00)))
(T (W x00 x00 x80 x3f x00 x00 x80 x3f)
(L (W x18 x00 x00 x00 x10 x00 x00 x00)) E)))))))
(T (W x18 x00 x00 x00 x0c x00 x00 x00)
(T (W x00 x00 x00 x00 x00 x00 x00 x00)
(T (W x00 x00 x00 x00 x00 x00 x00 x00)
(T (W x00 x00 x00 x00 x00 x00 x00 x00)
(T (W xff xff xff xff xff xff xff xff)
(T (W x45 x26 x22 x84 xe4 x9c xf2 xcb)
(T (W x00 x00 x00 x00 x00 x00 x00 x00)
(L (W x00 x00 x00 x00 x00 x00 x00 x00))
(L (W x54 x00 x00 x00 x48 x00 x00 x00)))
(T (W xca xc8 xfd xff x00 x00 x01 x01)
(L (W xff xff xff xff xff xff xff xff))
(L (W x00 x00 x80 xbf x00 x00 x80 xbf))))
(T (W x00 x00 x80 x3f x00 x00 x80 x3f)
(T (W x00 x00 x80 x3f x00 x00 x80 x3f)
(L (W x00 x00 x00 x00 x00 x00 x00 x00))
(L (W x00 x00 x80 xbf x00 x00 x80 xbf)))
(T (W x00 x00 x00 x00 x00 x00 x00 x00)
(L (W x30 x34 x5f x43 x4c x45 x41 x52))
(L (W x00 x00 x00 x00 x00 x00 x00 x00)))))
(T (W x64 x00 x00 x00 x9c x00 x00 x00)
(T (W x00 x00 x80 x3f x00 x00 x80 x3f)
(T (W x00 x00 x80 x3f x00 x00 x80 x3f)
(L (W x00 x00 x00 x00 x00 x00 x00 x00))
(L (W xff xff xff xff xff xff xff xff)))
(T (W x00 x00 x80 x3f x00 x00 x80 x3f)
(L (W x54 x00 x00 x00 x48 x00 x00 x00))
(L (W x6c x00 x00 x00 x60 x00 x00 x00))))
(T (W x00 x00 x80 x3f x00 x00 x80 x3f)
(T (W x5f x4e x53 x5f x30 x34 x5f x43)
(L (W x45 x26 x22 x84 xe4 x9c xf2 xcb))
(L (W x6c x00 x00 x00 x60 x00 x00 x00)))
(T (W xff xff xff xff xff xff xff xff)
(L (W x49 xa1 x68 x4a xeb x5f xdd x3d))
(L (W xff xff xff xff xff xff xff xff))))))
(T (W x00 x00 x00 x00 x00 x00 x00 x00)
(T (W xff xff xff xff xff xff xff xff)
(T (W x68 x00 x00 x00 x5c x00 x00 x00)
(T (W x00 x00 x00 x00 x00 x00 x00 x00)
(L (W x00 x00 x80 x3f x00 x00 x80 x3f))
(L (W xb0 x2f xff xff x00 x01 x01 x01)))
(T (W x00 x00 x00 x00 x00 x00 x00 x00)
(L (W x54 x00 x00 x00 x48 x00 x00 x00))
(L (W x00 x00 x80 xbf x00 x00 x80 xbf))))
(T (W x00 x00 x80 x3f x00 x00 x80 x3f)
(T (W xff xff xff xff xff xff xff xff)
(L (W xff xff xff xff xff xff xff xff))
(L (W x45 x26 x22 x84 xe4 x9c xf2 xcb)))
(T (W x00 x00 x00 x00 x00 x00 x00 x00)
(L (W x00 x00 x80 xbf x00 x00 x80 xbf))
(L (W x1c x00 x20 x00 x24 x00 x28 x00)))))
(T (W xff xff xff xff xff xff xff xff)
(T (W xf2 xd3 xfc xff x78 x00 x00 x00)
(T (W x00 x00 x80 x3f x00 x00 x80 x3f)
(L (W xe2 x97 x8f x3d x00 x00 x00 x00))
(L (W x00 x00 x00 x00 x00 x00 x00 x00)))
(T (W xff xff xff xff xff xff xff xff)
(L (W xff xff xff xff xff xff xff xff))
(L (W xff xff xff xff xff xff xff xff))))
(T (W x00 x00 x80 x3f x00 x00 x80 x3f)
(T (W xb0 x8f xfd xff x00 x01 x01 x01)
(L (W x4f x84 x6f x8b xe8 xcb x63 xb7))
(L (W x00 x00 x80 xbf x00 x00 x80 xbf)))
(T (W x00 x00 x80 x3f x00 x00 x80 x3f)
(L (W x00 x00 x80 xbf x00 x00 x80 xbf)) E)))))
(T (W x40 x00 x00 x00 x0c x00 x00 x00)
(T (W x00 x00 x00 x00 x00 x00 x00 x00)
(T (W xb3 x01 x00 x00 xff xff xff xff)
(T (W x18 x00 x00 x00 x0c x00 x00 x00)
(T (W x00 x00 x00 x00 x00 x00 x00 x00)
(L (W x00 x00 x80 x3f x00 x00 x80 x3f))
(L (W x00 x00 x80 xbf x00 x00 x80 xbf)))
(T (W x45 x44 x00 x00 x00 x00 x00 x00)
(L (W xff xff xff xff xe0 x00 x00 x00))
(L (W x00 x00 x80 xbf x00 x00 x80 xbf))))
(T (W x45 x26 x22 x84 xe4 x9c xf2 xcb)
(T (W x45 x26 x22 x84 xe4 x9c xf2 xcb)
(L (W xff xff xff xff xff xff xff xff))
(L (W x46 x53 x59 x53 x5f x4e x53 x5f)))
(T (W x24 x00 x00 x00 x10 x00 x00 x00)
(L (W x00 x00 x00 x00 x00 x00 x00 x00))
(L (W xff xff xff xff xff xff xff xff)))))
(T (W xff xff xff xff x03 x00 x00 x00)
(T (W x68 x00 x00 x00 x5c x00 x00 x00)
(T (W x00 x00 x00 x00 x00 x00 x00 x00)
(L (W xea xfa xff xff x29 x00 x00 x00))
(L (W x45 x44 x00 x00 x00 x00 x00 x00)))
(T (W xff xff xff xff xac x00 x00 x00)
(L (W x18 x00 x00 x00 x0c x00 x00 x00))
(L (W x45 x26 x22 x84 xe4 x9c xf2 xcb))))
(T (W x45 x26 x22 x84 xe4 x9c xf2 xcb)
(T (W x00 x00 x80 x3f x00 x00 x80 x3f)
(L (W xff xff xff xff xff xff xff xff))
(L (W x00 x00 x80 xbf x00 x00 x80 xbf)))
(T (W xff xff xff xff xff xff xff xff)
(L (W x00 x00 x80 xbf x00 x00 x80 xbf)) E))))
(T (W x00 x00 x00 x00 x04 x00 x00 x00)
(T (W xff xff xff xff xff xff xff xff)
(T (W x00 x00 x80 x3f x00 x00 x80 x3f)
(T (W x45 x26 x22 x84 xe4 x9c xf2 xcb)
(L (W x00 x00 x80 x3f x00 x00 x80 x3f))
(L (W xff xff xff xff xff xff xff xff)))
(T (W x00 x00 x80 x3f x00 x00 x80 x3f)
(L (W x00 x00 x80 x3f x00 x00 x80 x3f))
(L (W xaa xcf xff xff x74 x00 x00 x00))))
(T (W x00 x00 x80 x3f x00 x00 x80 x3f)
(T (W x00 x00 x01 x01 xb4 x01 x00 x00)
(L (W xff xff xff xff xff xff xff xff))
(L (W x49 xa1 x68 x4a xeb x5f xdd x3d)))
(T (W xf6 x5e x2e x97 x85 x1b x59 x5f)
(L (W x00 x00 x80 xbf x00 x00 x80 xbf))
(L (W x6c x00 x00 x00 x60 x00 x00 x00)))))
(T (W xff xff xff xff xff xff xff xff)
(T (W x00 x00 x80 x3f x00 x00 x80 x3f)
(T (W x00 x00 x80 x3f x00 x00 x80 x3f)
(L (W xff xff xff xff xff xff xff xff))
(L (W x46 x53 x59 x53 x5f x4e x53 x5f)))
(T (W x02 x00 x00 x00 x30 x01 x00 x00)
(L (W xff xff xff xff xff xff xff xff))
(L (W xff xff xff xff xac x00 x00 x00))))
(T (W x00 x00 x00 x00 x00 x00 x00 x00)
(T (W xff xff xff xff xff xff xff xff)
(L (W x5f x77 x69 x6c x64 x5f x70 x6f))
(L (W xff xff xff xff xff xff xff xff)))
(T (W x00 x00 x00 x00 x00 x00 x00 x00)
(L (W x00 x00 x80 xbf x00 x00 x80 xbf)) E))))))
(T (W xb0 x2b xfc xff x00 x01 x01 x01)
(T (W x50 x00 x00 x00 x44 x00 x00 x00)
(T (W x45 x26 x22 x84 xe4 x9c xf2 xcb)
(T (W x00 x00 x80 x3f x00 x00 x80 x3f)
(T (W x00 x00 x00 x00 x00 x00 x00 x00)
(T (W xff xff xff xff xff xff xff xff)
(L (W xff xff xff xff xff xff xff xff))
(L (W xff xff xff xff xff xff xff xff)))
(T (W x00 x00 x80 x3f x00 x00 x80 x3f)
(L (W xff xff xff xff xb0 x00 x00 x00))
(L (W xff xff xff xff xff xff xff xff))))
(T (W x20 x01 x00 x00 x04 x00 x00 x00)
(T (W x00 x00 x00 x00 x00 x00 x00 x00)
(L (W x00 x00 x80 xbf x00 x00 x80 xbf))
(L (W xa4 x00 x00 x00 x19 x00 x00 x00)))
(T (W x18 x00 x00 x00 x0c x00 x00 x00)
(L (W xf2 xe7 xfe xff x78 x00 x00 x00))
(L (W x64 x00 x68 x00 x62 x00 x00 x00)))))
(T (W x45 x26 x22 x84 xe4 x9c xf2 xcb)
(T (W x01 x00 x00 x00 x04 x00 x00 x00)
(T (W xb0 x43 xfd xff x00 x01 x01 x01)
(L (W x50 x00 x00 x00 x44 x00 x00 x00))
(L (W x00 x00 x80 xbf x00 x00 x80 xbf)))
(T (W x00 x00 x00 x00 x00 x00 x00 x00)
(L (W x45 x44 x00 x00 x00 x00 x00 x00))
(L (W xff xff xff xff xff xff xff xff))))
(T (W xff xff xff xff x04 x00 x00 x00)
(T (W xff xff xff xff xff xff xff xff)
(L (W xb0 x44 x69 x12 x83 x6b x37 xc6))
(L (W x46 x53 x59 x53 x5f x4e x53 x5f)))
(T (W x00 x00 x80 x3f x00 x00 x80 x3f)
(L (W xff xff xff xff xff xff xff xff))
(L (W x49 xa1 x68 x4a xeb x5f xdd x3d))))))
(T (W x00 x00 x80 x3f x00 x00 x80 x3f)
(T (W x00 x00 x80 x3f x00 x00 x80 x3f)
(T (W x00 x00 x00 x00 x00 x00 x00 x00)
(T (W x64 x00 x00 x00 x9c x00 x00 x00)
(L (W xff xff xff xff xff xff xff xff))
(L (W x00 x00 x00 x00 x00 x00 x00 x00)))
(T (W xff xff xff xff xff xff xff xff)
(L (W xe0 x00 x00 x00 xff xff xff xff))
(L (W x00 x00 x00 x00 x00 x00 x00 x00))))
(T (W xff xff xff xff xff xff xff xff)
(T (W x00 x00 x80 x3f x00 x00 x80 x3f)
(L (W x00 x00 x00 x00 x00 x00 x00 x00))
(L (W xff xff xff xff xb4 x00 x00 x00)))
(T (W x45 x26 x22 x84 xe4 x9c xf2 xcb)
(L (W xff xff xff xff xff xff xff xff))
(L (W xff xff xff xff xff xff xff xff)))))
(T (W x00 x00 x00 x00 x00 x00 x00 x00)
(T (W x5a x88 xfe xff x00 x00 x01 x01)
(T (W xff xff xff xff xff xff xff xff)
(L (W x45 x26 x22 x84 xe4 x9c xf2 xcb))
(L (W x68 x00 x00 x00 x5c x00 x00 x00)))
(T (W x00 x00 x80 x3f x00 x00 x80 x3f)
(L (W x54 x00 x00 x00 x48 x00 x00 x00))
(L (W xff xff xff xff xff xff xff xff))))
(T (W xff xff xff xff xff xff xff xff)
(T (W x00 x00 x00 x00 x00 x00 x00 x00)
(L (W x00 x00 x00 x00 x00 x00 x00 x00))
(L (W xff xff xff xff xff xff xff xff)))
(T (W xff xff xff xff xff xff xff xff)
(L (W xb4 x06 x00 x00 x98 x05 x00 x00)) E)))))
(T (W x00 x00 x00 x00 x28 x3d xfc xff)
(T (W x50 x00 x00 x00 x44 x00 x00 x00)
(T (W x00 x00 x80 x3f x00 x00 x80 x3f)
(T (W x00 x00 x00 x00 x00 x00 x00 x00)
(T (W xff xff xff xff xff xff xff xff)
(L (W xff xff xff xff xff xff xff xff))
(L (W x00 x00 x00 x00 x00 x00 x00 x00)))
(T (W x18 x00 x00 x00 x0c x00 x00 x00)
(L (W xff xff xff xff xff xff xff xff))
(L (W xff xff xff xff xff xff xff xff))))
(T (W xff xff xff xff xff xff xff xff)
(T (W x00 x00 x00 x00 x00 x00 x00 x00)
(L (W x00 x00 x00 x00 x00 x00 x00 x00))
(L (W xff xff xff xff xff xff xff xff)))
(T (W x00 x00 x80 x3f x00 x00 x80 x3f)
(L (W xff xff xff xff xbc x00 x00 x00))
(L (W x00 x00 x80 xbf x00 x00 x80 xbf)))))
(T (W x00 x00 x00 x00 x00 x00 x00 x00)
(T (W xff xff xff xff xff xff xff xff)
(T (W xff xff xff xff xff xff xff xff)
(L (W x00 x00 x00 x00 x60 x00 x64 x00))
(L (W x6c x00 x00 x00 x60 x00 x00 x00)))
(T (W x45 x26 x22 x84 xe4 x9c xf2 xcb)
(L (W x00 x00 x00 x00 x00 x00 x00 x00))
(L (W xff xff xff xff xff xff xff xff))))
(T (W xff xff xff xff xff xff xff xff)
(T (W x00 x00 x00 x00 xfa x8a xfd xff)
(L (W x18 x00 x00 x00 x10 x00 x00 x00))
(L (W xb4 x06 x00 x00 x98 x05 x00 x00)))
(T (W x00 x00 x00 x00 x00 x00 x00 x00)
(L (W x00 x00 x00 x00 x00 x00 x00 x00)) E))))
(T (W x00 x00 x80 x3f x00 x00 x80 x3f)
(T (W x45 x26 x22 x84 xe4 x9c xf2 xcb)
(T (W x3e x00 x00 x00 x10 x00 x00 x00)
(T (W xb0 x3b xfd xff x00 x01 x01 x01)
(L (W x00 x00 x80 x3f x00 x00 x80 x3f))
(L (W x00 x00 x80 xbf x00 x00 x80 xbf)))
(T (W x9d x01 x00 x00 xff xff xff xff)
(L (W xff xff xff xff xff xff xff xff))
(L (W x00 x00 x00 x00 x00 x00 x00 x00))))
(T (W xff xff xff xff xff xff xff xff)
(T (W x50 x00 x00 x00 x44 x00 x00 x00)
(L (W x9c xf2 xff xff x01 x01 x01 x01))
(L (W xff xff xff xff xff xff xff xff)))
(T (W x00 x00 x80 x3f x00 x00 x80 x3f)
(L (W x00 x00 x00 x00 xa2 x0a xff xff))
(L (W x45 x26 x22 x84 xe4 x9c xf2 xcb)))))
(T (W xf4 xa6 xfc xff x3c x00 x00 x00)
(T (W x00 x00 x00 x00 x00 x00 x00 x00)
(T (W x00 x00 x01 x01 x2b x01 x00 x00)
(L (W x00 x00 x80 x3f x00 x00 x80 xbf))
(L (W xcc x00 x00 x00 x02 x00 x00 x00)))
(T (W xff xff xff xff x9c x00 x00 x00)
(L (W x00 x00 x80 xbf x00 x00 x80 xbf))
(L (W x50 x00 x00 x00 x44 x00 x00 x00))))
(T (W xff xff xff xff xff xff xff xff)
(T (W x00 x00 x80 x3f x00 x00 x80 x3f)
(L (W xff xff xff xff xff xff xff xff))
(L (W xff xff xff xff xff xff xff xff)))
(T (W xb8 x00 x00 x00 xac x00 x00 x00)
(L (W xff xff xff xff xff xff xff xff)) E))))))))
(T (W x48 xb6 x00 x00 x14 xb5 x00 x00)
(T (W x00 x00 x80 x3f x00 x00 x80 x3f)
(T (W x23 x00 x00 x00 x0c x00 x00 x00)
(T (W x00 x00 x00 x00 x00 x00 x00 x00)
(T (W xcb x01 x00 x00 xff xff xff xff)
(T (W xff xff xff xff xff xff xff xff)
(T (W xf2 xa2 xfc xff x78 x00 x00 x00)
(T (W x00 x00 x00 x00 x00 x00 x00 x00)
(L (W x4c x25 xfe xff x1c x00 x00 x00))
(L (W x00 x00 x80 xbf x00 x00 x80 xbf)))
(T (W xff xff xff xff xff xff xff xff)
(L (W xff xff xff xff xb0 x00 x00 x00))
(L (W x45 x26 x22 x84 xe4 x9c xf2 xcb))))
(T (W x00 x00 x00 x00 x00 x00 x00 x00)
(T (W x00 x00 x80 x3f x00 x00 x80 x3f)
(L (W xd5 x01 x00 x00 xff xff xff xff))
(L (W x4f x84 x6f x8b xe8 xcb x63 xb7)))
(T (W x52 x51 x2b x97 x85 x9c x55 x5f)
(L (W x00 x00 x01 x01 x5c x00 x00 x00))
(L (W xff xff xff xff xff xff xff xff)))))
(T (W x18 x00 x00 x00 x0c x00 x00 x00)
(T (W x00 x00 x80 x3f x00 x00 x80 x3f)
(T (W x00 x00 x00 x00 x00 x00 x00 x00)
(L (W xea xf1 xff xff x5f x00 x00 x00))
(L (W xff xff xff xff x9c x00 x00 x00)))
(T (W x00 x00 x80 x3f x00 x00 x80 x3f)
(L (W x00 x00 x80 xbf x00 x00 x80 xbf))
(L (W x3c x00 x00 x00 x00 x00 x80 xbf))))
(T (W x00 x00 x00 x00 x00 x00 x00 x00)
(T (W x04 x00 x00 x00 x8a x7f xfd xff)
(L (W x00 x00 x00 x00 x00 x00 x00 x00))
(L (W x00 x00 x80 xbf x00 x00 x80 xbf)))
(T (W xff xff xff xff xff xff xff xff)
(L (W x00 x00 x00 x00 x00 x00 x00 x00))
(L (W x00 x00 x80 xbf x00 x00 x80 xbf))))))
(T (W x5a x0e xff xff x00 x00 x01 x01)
(T (W x64 x00 x00 x00 x9c x00 x00 x00)
(T (W x00 x00 x80 x3f x00 x00 x80 x3f)
(T (W x00 x00 x00 x00 x00 x00 x00 x00)
(L (W x00 x00 x00 x00 x00 x00 x00 x00))
(L (W x54 x00 x00 x00 x48 x00 x00 x00)))
(T (W x46 x53 x59 x53 x5f x4e x53 x5f)
(L (W x00 x00 x80 x3f x00 x00 x80 x3f))
(L (W x00 x00 x80 xbf x00 x00 x80 xbf))))
(T (W x45 x26 x22 x84 xe4 x9c xf2 xcb)
(T (W x18 x00 x00 x00 x0c x00 x00 x00)
(L (W xff xff xff xff xc0 x00 x00 x00))
(L (W x00 x00 x00 x00 x12 x00 x00 x00)))
(T (W xd3 x48 x2b x97 x85 x97 x55 x5f)
(L (W x00 x00 x00 x00 x00 x00 x00 x00))
(L (W xff xff xff xff xff xff xff xff)))))
(T (W x01 x00 x00 x00 x1b x00 x00 x00)
(T (W x00 x00 x80 x3f x00 x00 x80 x3f)
(T (W x00 x00 x00 x00 x00 x00 x00 x00)
(L (W xff xff xff xff xff xff xff xff))
(L (W x00 x00 x00 x00 x00 x00 x00 x00)))
(T (W xff xff xff xff xff xff xff xff)
(L (W xff xff xff xff xb0 x00 x00 x00))
(L (W x00 x00 x80 xbf x00 x00 x80 xbf))))
(T (W x00 x00 x00 x00 x00 x00 x00 x00)
(T (W x00 x00 x80 x3f x00 x00 x80 x3f)
(L (W x77 x61 x72 x6c x69 x6b x65 x5f))
(L (W x00 x00 x80 xbf x00 x00 x80 xbf)))
(T (W x00 x00 x00 x00 x00 x00 x00 x00)
(L (W x00 x00 x80 xbf x00 x00 x80 xbf)) E)))))
(T (W xff xff xff xff xff xff xff xff)
(T (W xe2 x04 xff xff xc2 x01 x00 x00)
(T (W xff xff xff xff xff xff xff xff)
(T (W x00 x00 x80 x3f x00 x00 x80 x3f)
(T (W x00 x00 x00 x00 x00 x00 x00 x00)
(L (W x00 x00 x80 x3f x00 x00 x80 x3f))
(L (W x4f x84 x6f x8b xe8 xcb x63 xb7)))
(T (W xff xff xff xff xff xff xff xff)
(L (W x00 x00 x80 x3f x00 x00 x80 x3f))
(L (W x4f x84 x6f x8b xe8 xcb x63 xb7))))
(T (W x00 x00 x00 x00 x00 x00 x00 x00)
(T (W x00 x00 x80 x3f x00 x00 x80 x3f)
(L (W xff xff xff xff xb0 x00 x00 x00))
(L (W x00 x00 x01 x01 x94 x01 x00 x00)))
(T (W xff xff xff xff xff xff xff xff)
(L (W x00 x00 x00 x00 x00 x00 x00 x00))
(L (W xff xff xff xff xff xff xff xff)))))
(T (W x40 x00 x00 x00 x9c x00 x00 x00)
(T (W x00 x00 x80 x3f x00 x00 x80 x3f)
(T (W x00 x00 x00 x00 x01 x00 x00 x00)
(L (W xff xff xff xff xff xff xff xff))
(L (W xff xff xff xff xff xff xff xff)))
(T (W x00 x00 x00 x00 x28 xc8 xfd xff)
(L (W x00 x00 x80 xbf x00 x00 x80 xbf))
(L (W x54 x00 x00 x00 x48 x00 x00 x00))))
(T (W x00 x00 x00 x00 x00 x00 x00 x00)
(T (W x00 x00 x00 x00 x00 x00 x00 x00)
(L (W xaa x9e xfe xff x74 x00 x00 x00))
(L (W x45 x26 x22 x84 xe4 x9c xf2 xcb)))
(T (W x18 x00 x00 x00 x10 x00 x00 x00)
(L (W x4f x84 x6f x8b xe8 xcb x63 xb7)) E))))
(T (W xff xff xff xff xff xff xff xff)
(T (W x00 x00 x00 x00 x28 x78 xfc xff)
(T (W x45 x26 x22 x84 xe4 x9c xf2 xcb)
(T (W x4c x3d xfd xff x16 x00 x00 x00)
(L (W x00 x00 x80 x3f x00 x00 x80 x3f))
(L (W x18 x00 x00 x00 x0c x00 x00 x00)))
(T (W x00 x00 x00 x00 x00 x00 x00 x00)
(L (W x45 x26 x22 x84 xe4 x9c xf2 xcb))
(L (W x00 x00 x80 xbf x00 x00 x80 xbf))))
(T (W x45 x26 x22 x84 xe4 x9c xf2 xcb)
(T (W xff xff xff xff xff xff xff xff)
(L (W xb0 x00 x00 x00 x64 x00 x00 x00))
(L (W x00 x00 x00 x00 x00 x00 x00 x00)))
(T (W xff xff xff xff xff xff xff xff)
(L (W x00 x00 x80 xbf x00 x00 x80 xbf))
(L (W x00 x00 x80 xbf x00 x00 x80 xbf)))))
(T (W x68 x00 x00 x00 x5c x00 x00 x00)
(T (W x45 x26 x22 x84 xe4 x9c xf2 xcb)
(T (W x00 x00 x00 x00 x00 x00 x00 x00)
(L (W xff xff xff xff xff xff xff xff))
(L (W x00 x00 x00 x00 x8a x57 xff xff)))
(T (W xff xff xff xff xff xff xff xff)
(L (W xff xff xff xff xff xff xff xff))
(L (W x00 x00 x00 x00 x00 x00 x00 x00))))
(T (W x00 x00 x00 x00 x00 x00 x00 x00)
(T (W x2b x00 x00 x00 x2e x00 x00 x00)
(L (W x28 x00 x00 x00 x2b x00 x00 x00))
(L (W x45 x26 x22 x84 xe4 x9c xf2 xcb)))
(T (W x00 x00 x00 x00 x00 x00 x00 x00)
(L (W x00 x00 x80 xbf x00 x00 x80 xbf)) E))))))
(T (W x00 x00 x80 x3f x00 x00 x80 x3f)
(T (W x00 x00 x80 x3f x00 x00 x80 x3f)
(T (W x00 x00 x80 x3f x00 x00 x80 x3f)
(T (W x00 x00 x80 x3f x00 x00 x80 x3f)
(T (W x5a x57 xfe xff x00 x00 x01 x01)
(T (W xbc x00 x00 x00 xb0 x00 x00 x00)
(L (W x00 x00 x80 x3f x00 x00 x80 x3f))
(L (W xff xff xff xff xff xff xff xff)))
(T (W x00 x00 x80 x3f x00 x00 x80 x3f)
(L (W x00 x00 x80 x3f x00 x00 x80 x3f))
(L (W xff xff xff xff xa0 x00 x00 x00))))
(T (W xff xff xff xff xff xff xff xff)
(T (W xff xff xff xff xff xff xff xff)
(L (W x4f x84 x6f x8b xe8 xcb x63 xb7))
(L (W x45 x26 x22 x84 xe4 x9c xf2 xcb)))
(T (W x00 x00 x80 x3f x00 x00 x80 x3f)
(L (W x00 x00 x80 xbf x00 x00 x80 xbf))
(L (W x00 x00 x80 xbf x00 x00 x80 xbf)))))
(T (W x00 x00 x00 x00 x00 x00 x00 x00)
(T (W xff xff xff xff xff xff xff xff)
(T (W x68 x00 x00 x00 x5c x00 x00 x00)
(L (W x00 x00 x80 x3f x00 x00 x80 x3f))
(L (W x00 x00 x80 xbf x00 x00 x80 xbf)))
(T (W x01 x00 x00 x00 xff xff xff xff)
(L (W xff xff xff xff xff xff xff xff))
(L (W xff xff xff xff xff xff xff xff))))
(T (W x68 x00 x00 x00 x5c x00 x00 x00)
(T (W x18 x00 x00 x00 x10 x00 x00 x00)
(L (W xff xff xff xff xff xff xff xff))
(L (W x04 x00 x00 x00 x62 x80 xff xff)))
(T (W x00 x00 x00 x00 x00 x00 x00 x00)
(L (W xff xff xff xff xff xff xff xff))
(L (W x6c x00 x70 x00 x62 x00 x00 x00))))))
(T (W x00 x00 x00 x00 x00 x00 x00 x00)
(T (W x00 x00 x00 x00 x00 x00 x00 x00)
(T (W x20 x01 x00 x00 x04 x00 x00 x00)
(T (W x50 x00 x00 x00 x44 x00 x00 x00)
(L (W xb8 x00 x00 x00 xac x00 x00 x00))
(L (W x45 x44 x00 x00 x00 x00 x00 x00)))
(T (W x2b x00 x00 x00 x2e x00 x00 x00)
(L (W xff xff xff xff xff xff xff xff))
(L (W xff xff xff xff xff xff xff xff))))
(T (W xb8 x00 x00 x00 xac x00 x00 x00)
(T (W x00 x00 x00 x00 x00 x00 x00 x00)
(L (W x45 x44 x00 x00 x00 x00 x00 x00))
(L (W x45 x26 x22 x84 xe4 x9c xf2 xcb)))
(T (W x00 x00 x80 x3f x00 x00 x80 x3f)
(L (W x37 x00 x00 x00 x3a x00 x00 x00))
(L (W xff xff xff xff xff xff xff xff)))))
(T (W x01 x00 x00 x00 x04 x00 x00 x00)
(T (W xff xff xff xff xff xff xff xff)
(T (W xff xff xff xff xff xff xff xff)
(L (W x00 x00 x00 x00 x00 x00 x00 x00))
(L (W x00 x00 x80 xbf x00 x00 x80 xbf)))
(T (W x00 x00 x00 x00 x00 x00 x00 x00)
(L (W x00 x00 x00 x00 x00 x00 x00 x00))
(L (W xff xff xff xff xff xff xff xff))))
(T (W xff xff xff xff xff xff xff xff)
(T (W x4c x45 x41 x52 x45 x44 x00 x00)
(L (W x5f x77 x69 x6c x64 x5f x70 x6f))
(L (W x03 x00 x00 x00 xd8 x00 x00 x00)))
(T (W x64 x00 x00 x00 x9c x00 x00 x00)
(L (W xff xff xff xff xff xff xff xff)) E)))))
(T (W x6c x00 x00 x00 x60 x00 x00 x00)
(T (W x00 x00 x80 x3f x00 x00 x80 x3f)
(T (W x00 x00 x80 x3f x00 x00 x80 x3f)
(T (W x00 x00 x00 x00 x00 x00 x00 x00)
(T (W xb0 x2a xfd xff x00 x01 x01 x01)
(L (W xff xff xff xff xff xff xff xff))
(L (W xff xff xff xff xff xff xff xff)))
(T (W xf2 xae xfd xff x78 x00 x00 x00)
(L (W xf2 xae xfe xff x78 x00 x00 x00))
(L (W xff xff xff xff xff xff xff xff))))
(T (W xff xff xff xff xff xff xff xff)
(T (W x00 x00 x00 x00 x00 x00 x00 x00)
(L (W x00 x00 x00 x00 x00 x00 x00 x00))
(L (W xff xff xff xff xa0 x00 x00 x00)))
(T (W x00 x00 x80 x3f x00 x00 x80 x3f)
(L (W x45 x26 x22 x84 xe4 x9c xf2 xcb))
(L (W x00 x00 x80 xbf x00 x00 x80 xbf)))))
(T (W xf4 x95 xfc xff x0c x00 x00 x00)
(T (W xff xff xff xff xff xff xff xff)
(T (W xff xff xff xff xbc x00 x00 x00)
(L (W x45 x26 x22 x84 xe4 x9c xf2 xcb))
(L (W x00 x00 x80 xbf x00 x00 x80 xbf)))
(T (W x00 x00 x00 x00 x00 x00 x00 x00)
(L (W x45 x44 x00 x00 x00 x00 x00 x00))
(L (W xff xff xff xff xff xff xff xff))))
(T (W xff xff xff xff xff xff xff xff)
(T (W xff xff xff xff xff xff xff xff)
(L (W x50 x00 x00 x00 x44 x00 x00 x00))
(L (W xff xff xff xff xff xff xff xff)))
(T (W x00 x00 x00 x00 x00 x00 x00 x00)
(L (W xff xff xff xff xff xff xff xff)) E))))
(T (W x45 x26 x22 x84 xe4 x9c xf2 xcb)
(T (W x00 x00 x00 x00 x00 x00 x00 x00)
(T (W xff xff xff xff xff xff xff xff)
(T (W x00 x00 x80 x3f x00 x00 x80 x3f)
(L (W x20 x00 x24 x00 x28 x00 x2c x00))
(L (W x00 x00 x00 x00 x00 x00 x00 x00)))
(T (W xff xff xff xff xbc x00 x00 x00)
(L (W xff xff xff xff xff xff xff xff))
(L (W xff xff xff xff xff xff xff xff))))
(T (W x45 x26 x22 x84 xe4 x9c xf2 xcb)
(T (W x00 x00 x80 x3f x00 x00 x80 x3f)
(L (W x00 x00 x80 xbf x00 x00 x80 xbf))
(L (W xff xff xff xff xbc x00 x00 x00)))
(T (W x00 x00 x80 x3f x00 x00 x80 x3f)
(L (W xff xff xff xff xff xff xff xff))
(L (W x00 x00 x80 xbf x00 x00 x80 xbf)))))
(T (W xff xff xff xff xff xff xff xff)
(T (W xff xff xff xff xff xff xff xff)
(T (W xff xff xff xff xff xff xff xff)
(L (W x00 x00 x80 xbf x00 x00 x80 xbf))
(L (W x45 x26 x22 x84 xe4 x9c xf2 xcb)))
(T (W x68 x00 x00 x00 x5c x00 x00 x00)
(L (W x49 xa1 x68 x4a xeb x5f xdd x3d))
(L (W x00 x00 x80 xbf x00 x00 x80 xbf))))
(T (W x64 x00 x00 x00 x9c x00 x00 x00)
(T (W x00 x00 x00 x00 x00 x00 x00 x00)
(L (W x00 x00 x00 x00 x28 x9c xfe xff))
(L (W x03 x00 x00 x00 xd0 x00 x00 x00)))
(T (W x01 x00 x00 x00 x9c x00 x00 x00)
(L (W x03 x00 x00 x00 xd8 x00 x00 x00)) E)))))))
(T (W xff xff xff xff xff xff xff xff)
(T (W x00 x00 x80 x3f x00 x00 x80 x3f)
(T (W x00 x00 x80 x3f x00 x00 x80 x3f)
(T (W x00 x00 x00 x00 x00 x00 x00 x00)
(T (W x4c x67 xfc xff x1e x00 x00 x00)
(T (W xff xff xff xff xff xff xff xff)
(T (W x00 x00 x80 x3f x00 x00 x80 x3f)
(L (W x00 x00 x00 x00 x00 x00 x00 x00))
(L (W x18 x00 x00 x00 x10 x00 x00 x00)))
(T (W x12 x00 x00 x00 x46 x53 x59 x53)
(L (W xff xff xff xff xff xff xff xff))
(L (W x00 x00 x80 xbf x00 x00 x80 xbf))))
(T (W x68 x00 x00 x00 x5c x00 x00 x00)
(T (W xf2 x64 xfd xff x78 x00 x00 x00)
(L (W x00 x00 x00 x00 x12 x00 x00 x00))
(L (W x3c x00 x00 x00 x00 x00 x80 xbf)))
(T (W x00 x00 x00 x00 x00 x00 x00 x00)
(L (W x00 x00 x00 x00 x00 x00 x00 x00))
(L (W x00 x00 x00 x00 x00 x00 x00 x00)))))
(T (W xff xff xff xff xff xff xff xff)
(T (W x45 x26 x22 x84 xe4 x9c xf2 xcb)
(T (W x00 x00 x00 x00 x68 x00 x6c x00)
(L (W x00 x00 x00 x00 x00 x00 x00 x00))
(L (W x00 x00 x00 x00 xfa x3f xff xff)))
(T (W xc8 x00 x00 x00 x01 x00 x00 x00)
(L (W xb0 xc0 xfe xff x00 x01 x01 x01))
(L (W x45 x26 x22 x84 xe4 x9c xf2 xcb))))
(T (W x00 x00 x80 x3f x00 x00 x80 x3f)
(T (W x00 x00 x00 x00 x00 x00 x00 x00)
(L (W x00 x00 x80 xbf x00 x00 x80 xbf))
(L (W x45 x26 x22 x84 xe4 x9c xf2 xcb)))
(T (W xc2 x65 x2e x97 x85 x1f x59 x5f)
(L (W x00 x00 x80 xbf x00 x00 x80 xbf))
(L (W x00 x00 x00 x00 x00 x00 x00 x00))))))
(T (W x00 x00 x00 x00 x00 x00 x00 x00)
(T (W x00 x00 x00 x00 x02 x00 x00 x00)
(T (W xff xff xff xff x04 x00 x00 x00)
(T (W x45 x26 x22 x84 xe4 x9c xf2 xcb)
(L (W x00 x00 x80 x3f x00 x00 x80 x3f))
(L (W xb0 x00 x00 x00 x14 x00 x00 x00)))
(T (W x00 x00 x80 x3f x00 x00 x80 x3f)
(L (W x45 x26 x22 x84 xe4 x9c xf2 xcb))
(L (W xaa xc8 xff xff x74 x00 x00 x00))))
(T (W x00 x00 x80 x3f x00 x00 x80 x3f)
(T (W xff xff xff xff xff xff xff xff)
(L (W xff xff xff xff xff xff xff xff))
(L (W x54 x00 x00 x00 x48 x00 x00 x00)))
(T (W x00 x00 x00 x00 x00 x00 x00 x00)
(L (W x00 x00 x80 xbf x00 x00 x80 xbf))
(L (W x49 xa1 x68 x4a xeb x5f xdd x3d)))))
(T (W xff xff xff xff xff xff xff xff)
(T (W x45 x26 x22 x84 xe4 x9c xf2 xcb)
(T (W x00 x00 x80 x3f x00 x00 x80 x3f)
(L (W xff xff xff xff xff xff xff xff))
(L (W x00 x00 x00 x00 x00 x00 x00 x00)))
(T (W x7a x01 xfe xff x00 x00 x01 x01)
(L (W x00 x00 x01 x01 x66 x01 x00 x00))
(L (W x00 x00 x00 x00 x00 x00 x00 x00))))
(T (W x6c x00 x00 x00 x60 x00 x00 x00)
(T (W xb0 x00 x00 x00 x64 x00 x00 x00)
(L (W x00 x00 x80 x3f x00 x00 x80 x3f))
(L (W x54 x00 x00 x00 x48 x00 x00 x00)))
(T (W x00 x00 x80 x3f x00 x00 x80 x3f)
(L (W x45 x26 x22 x84 xe4 x9c xf2 xcb)) E)))))
(T (W x00 x00 x00 x00 x00 x00 x00 x00)
(T (W x00 x00 x00 x00 x00 x00 x00 x00)
(T (W x00 x00 x00 x00 x00 x00 x00 x00)
(T (W xb8 x00 x00 x00 xac x00 x00 x00)
(T (W x00 x00 x00 x00 x00 x00 x00 x00)
(L (W x01 x00 x00 x00 x9c x00 x00 x00))
(L (W xb0 x28 xff xff x00 x01 x01 x01)))
(T (W x00 x00 x00 x00 x00 x00 x00 x00)
(L (W x61 x72 x6c x69 x6b x65 x5f x6c))
(L (W x54 x00 x00 x00 x48 x00 x00 x00))))
(T (W x00 x00 x80 x3f x00 x00 x80 x3f)
(T (W xff xff xff xff xbc x00 x00 x00)
(L (W x04 x00 x00 x00 x22 x79 xfe xff))
(L (W x00 x00 x00 x00 x00 x00 x00 x00)))
(T (W x00 x00 x00 x00 x00 x00 x00 x00)
(L (W x00 x00 x80 xbf x00 x00 x80 xbf))
(L (W x00 x00 x00 x00 x00 x00 x00 x00)))))
(T (W xff xff xff xff xff xff xff xff)
(T (W xff xff xff xff xff xff xff xff)
(T (W x00 x00 x80 x3f x00 x00 x80 x3f)
(L (W x00 x00 x00 x00 x00 x00 x00 x00))
(L (W x00 x00 x00 x00 x00 x00 x00 x00)))
(T (W xff xff xff xff xff xff xff xff)
(L (W xff xff xff xff xff xff xff xff))
(L (W x1c x00 x00 x00 x10 x00 x00 x00))))
(T (W x30 x00 x34 x00 x38 x00 x3c x00)
(T (W xf2 x8c xfd xff x78 x00 x00 x00)
(L (W xff xff xff xff xff xff xff xff))
(L (W xf2 x8c xff xff x78 x00 x00 x00)))
(T (W xff xff xff xff xff xff xff xff)
(L (W x54 x00 x00 x00 x48 x00 x00 x00)) E))))
(T (W x00 x00 x00 x00 x00 x00 x00 x00)
(T (W xff xff xff xff xff xff xff xff)
(T (W x18 x00 x00 x00 x0c x00 x00 x00)
(T (W x00 x00 x80 x3f x00 x00 x80 x3f)
(L (W x18 x00 x00 x00 x0c x00 x00 x00))
(L (W xff xff xff xff xff xff xff xff)))
(T (W x6c x00 x00 x00 x60 x00 x00 x00)
(L (W xf2 xbc xfe xff x78 x00 x00 x00))
(L (W xff xff xff xff xff xff xff xff))))
(T (W x00 x00 x80 x3f x00 x00 x80 x3f)
(T (W x30 x34 x5f x43 x4c x45 x41 x52)
(L (W x28 x00 x00 x00 x10 x00 x00 x00))
(L (W x00 x00 x80 xbf x00 x00 x80 xbf)))
(T (W x00 x00 x00 x00 x00 x00 x00 x00)
(L (W x6c x00 x00 x00 x60 x00 x00 x00))
(L (W x18 x00 x00 x00 x10 x00 x00 x00)))))
(T (W xff xff xff xff xff xff xff xff)
(T (W x18 x00 x00 x00 x0c x00 x00 x00)
(T (W x6c x00 x00 x00 x60 x00 x00 x00)
(L (W xf4 x63 xfe xff x28 x00 x00 x00))
(L (W x00 x00 x00 x00 x00 x00 x00 x00)))
(T (W x00 x00 x00 x00 x12 x00 x00 x00)
(L (W x45 x44 x00 x00 x00 x00 x00 x00))
(L (W x50 x00 x00 x00 x54 x00 x58 x00))))
(T (W x00 x00 x80 x3f x00 x00 x80 x3f)
(T (W xff xff xff xff xff xff xff xff)
(L (W x00 x00 x00 x00 x00 x00 x00 x00))
(L (W x00 x00 x00 x00 x00 x00 x00 x00)))
(T (W x00 x00 x80 x3f x00 x00 x80 x3f)
(L (W x54 x00 x00 x00 x48 x00 x00 x00)) E))))))
(T (W xff xff xff xff xff xff xff xff)
(T (W x64 x00 x00 x00 x9c x00 x00 x00)
(T (W x64 x00 x00 x00 x9c x00 x00 x00)
(T (W x00 x00 x80 x3f x00 x00 x80 x3f)
(T (W x00 x00 x00 x00 x00 x00 x00 x00)
(T (W x5a xe4 xff xff x00 x00 x01 x01)
(L (W xea xd7 xff xff xb6 x01 x00 x00))
(L (W x45 x44 x00 x00 x00 x00 x00 x00)))
(T (W xcc x00 x00 x00 x01 x00 x00 x00)
(L (W xff xff xff xff xff xff xff xff))
(L (W xff xff xff xff xff xff xff xff))))
(T (W x00 x00 x00 x00 x00 x00 x00 x00)
(T (W x00 x00 x00 x00 x00 x00 x00 x00)
(L (W x00 x01 x01 x01 x6a x61 xfe xff))
(L (W x03 x00 x00 x00 xd8 x00 x00 x00)))
(T (W x64 x00 x00 x00 x9c x00 x00 x00)
(L (W x26 x00 x00 x00 x29 x00 x00 x00))
(L (W x5f x4e x53 x5f x30 x34 x5f x43)))))
(T (W x00 x00 x80 x3f x00 x00 x80 x3f)
(T (W x00 x00 x00 x00 x00 x00 x00 x00)
(T (W x45 x26 x22 x84 xe4 x9c xf2 xcb)
(L (W xb8 x00 x00 x00 xac x00 x00 x00))
(L (W xf2 x48 xff xff x78 x00 x00 x00)))
(T (W x00 x00 x00 x00 x00 x00 x00 x00)
(L (W x00 x00 x00 x00 x00 x00 x00 x00))
(L (W x00 x00 x00 x00 xfa xc3 xff xff))))
(T (W xff xff xff xff xff xff xff xff)
(T (W xb4 x01 x00 x00 xff xff xff xff)
(L (W x00 x00 x00 x00 x00 x00 x00 x00))
(L (W x00 x00 x00 x00 x00 x00 x00 x00)))
(T (W x00 x00 x80 x3f x00 x00 x80 x3f)
(L (W x45 x44 x00 x00 x00 x00 x00 x00))
(L (W xff xff xff xff xff xff xff xff))))))
(T (W xb0 x54 xfc xff x00 x01 x01 x01)
(T (W x50 x00 x00 x00 x44 x00 x00 x00)
(T (W x00 x00 x00 x00 x00 x00 x00 x00)
(T (W xff xff xff xff xff xff xff xff)
(L (W xff xff xff xff xff xff xff xff))
(L (W x4f x84 x6f x8b xe8 xcb x63 xb7)))
(T (W xff xff xff xff xff xff xff xff)
(L (W x00 x00 x00 x00 x00 x00 x00 x00))
(L (W x00 x00 x00 x00 x12 x00 x00 x00))))
(T (W xd0 x01 x00 x00 xff xff xff xff)
(T (W x00 x00 x80 x3f x00 x00 x80 x3f)
(L (W x45 x26 x22 x84 xe4 x9c xf2 xcb))
(L (W xff xff xff xff xff xff xff xff)))
(T (W x18 x00 x00 x00 x10 x00 x00 x00)
(L (W x00 x00 x00 x00 x00 x00 x00 x00))
(L (W x00 x00 x00 x00 x00 x00 x00 x00)))))
(T (W x45 x26 x22 x84 xe4 x9c xf2 xcb)
(T (W x00 x00 x00 x00 x00 x00 x00 x00)
(T (W x64 x00 x00 x00 xff xff xff xff)
(L (W x00 x00 x80 xbf x00 x00 x80 xbf))
(L (W xff xff xff xff xff xff xff xff)))
(T (W x68 x00 x00 x00 x5c x00 x00 x00)
(L (W x18 x00 x00 x00 x10 x00 x00 x00))
(L (W x00 x00 x00 x00 x8a xd5 xff xff))))
(T (W x5d x00 x00 x00 xff xff xff xff)
(T (W x49 xa1 x68 x4a xeb x5f xdd x3d)
(L (W x00 x00 x80 x3f x00 x00 x80 x3f))
(L (W x2a x00 x00 x00 x0c x00 x00 x00)))
(T (W x01 x00 x00 x00 xff xff xff xff)
(L (W x00 x00 x00 x00 x00 x00 x00 x00)) E)))))
(T (W xff xff xff xff xff xff xff xff)
(T (W xbc x00 x00 x00 xb0 x00 x00 x00)
(T (W x00 x00 x80 x3f x00 x00 x80 x3f)
(T (W x00 x00 x00 x00 x00 x00 x00 x00)
(T (W xff xff xff xff xff xff xff xff)
(L (W x4c x33 xfe xff x3b x00 x00 x00))
(L (W x00 x00 x00 x00 x00 x00 x00 x00)))
(T (W xff xff xff xff xff xff xff xff)
(L (W x85 x00 x00 x00 xff xff xff xff))
(L (W xf4 xb7 xff xff x2b x00 x00 x00))))
(T (W x11 x43 xc0 x52 xe4 x85 x68 x7e)
(T (W x00 x00 x80 x3f x00 x00 x80 x3f)
(L (W x00 x00 x80 xbf x00 x00 x80 xbf))
(L (W xff xff xff xff xff xff xff xff)))
(T (W xff xff xff xff xff xff xff xff)
(L (W x00 x00 x01 x01 x5d x00 x00 x00))
(L (W x50 x00 x00 x00 x44 x00 x00 x00)))))
(T (W x00 x00 x80 x3f x00 x00 x80 x3f)
(T (W xf4 xd7 xfc xff x3e x00 x00 x00)
(T (W xff xff xff xff xff xff xff xff)
(L (W x00 x00 x00 x00 x00 x00 x00 x00))
(L (W x18 x00 x00 x00 x10 x00 x00 x00)))
(T (W x00 x00 x80 x3f x00 x00 x80 x3f)
(L (W x00 x00 x80 xbf x00 x00 x80 xbf))
(L (W x4c xd3 xff xff x27 x00 x00 x00))))
(T (W xff xff xff xff xff xff xff xff)
(T (W x00 x00 x00 x00 x00 x00 x00 x00)
(L (W x03 x00 x00 x00 xd8 x00 x00 x00))
(L (W x00 x00 x00 x00 x00 x00 x00 x00)))
(T (W xff xff xff xff x03 x00 x00 x00)
(L (W x00 x00 x00 x00 x00 x00 x00 x00)) E))))
(T (W x50 x00 x00 x00 x44 x00 x00 x00)
(T (W x68 x00 x00 x00 x5c x00 x00 x00)
(T (W x00 x00 x00 x00 x00 x00 x00 x00)
(T (W xff xff xff xff xff xff xff xff)
(L (W xff xff xff xff xff xff xff xff))
(L (W x00 x00 x80 xbf x00 x00 x80 xbf)))
(T (W x5f x4e x53 x5f x30 x34 x5f x43)
(L (W x00 x00 x00 x00 x00 x00 x00 x00))
(L (W x00 x00 x00 x00 x00 x00 x00 x00))))
(T (W x5a xb1 xfe xff x00 x00 x01 x01)
(T (W xc0 x00 x00 x00 x01 x00 x00 x00)
(L (W xff xff xff xff xff xff xff xff))
(L (W x00 x00 x00 x00 x00 x00 x00 x00)))
(T (W x45 x26 x22 x84 xe4 x9c xf2 xcb)
(L (W x00 x00 x00 x00 x8a xfd xfe xff))
(L (W xff xff xff xff xff xff xff xff)))))
(T (W x00 x00 x00 x00 x00 x00 x00 x00)
(T (W x00 x00 x00 x00 x00 x00 x00 x00)
(T (W x4c x45 x41 x52 x45 x44 x00 x00)
(L (W xaa x74 xfe xff x74 x00 x00 x00))
(L (W xff xff xff xff xff xff xff xff)))
(T (W xff xff xff xff xff xff xff xff)
(L (W x03 x00 x00 x00 xd8 x00 x00 x00))
(L (W x03 x00 x00 x00 xd0 x00 x00 x00))))
(T (W xe2 xda xff xff x5d x00 x00 x00)
(T (W xaa xb4 xfd xff x74 x00 x00 x00)
(L (W x67 x72 x6f x75 x70 x5f x6c x65))
(L (W x08 x00 x00 x00 xe8 x07 x00 x00)))
(T (W xff xff xff xff xff xff xff xff)
(L (W x18 x00 x00 x00 x0c x00 x00 x00)) E)))))))))))
(T (W x48 x7f x03 x00 xac x79 x03 x00)
(T (W xd8 x28 x03 x00 x2c x24 x03 x00)
(T (W x38 x69 x02 x00 xfc x67 x02 x00)
(T (W x50 xd6 x01 x00 x0c xd4 x01 x00)
(T (W x48 x7f x00 x00 xfc x7c x00 x00)
(T (W x50 x00 x00 x00 x44 x00 x00 x00)
(T (W x00 x00 x80 x3f x00 x00 x80 x3f)
(T (W x50 x00 x00 x00 x44 x00 x00 x00)
(T (W x00 x00 x00 x00 x00 x00 x00 x00)
(T (W xff xff xff xff xff xff xff xff)
(T (W x18 x00 x00 x00 x10 x00 x00 x00)
(L (W x0a x35 xfe xff x74 x00 x00 x00))
(L (W xff xff xff xff xff xff xff xff)))
(T (W x00 x00 x00 x00 x00 x00 x00 x00)
(L (W xff xff xff xff xff xff xff xff))
(L (W xff xff xff xff xff xff xff xff))))
(T (W xff xff xff xff x03 x00 x00 x00)
(T (W xff xff xff xff xff xff xff xff)
(L (W x00 x00 x00 x00 x00 x00 x00 x00))
(L (W x68 x00 x00 x00 x5c x00 x00 x00)))
(T (W x00 x00 x80 x3f x00 x00 x80 x3f)
(L (W x00 x00 x80 xbf x00 x00 x80 xbf))
(L (W x00 x00 x80 xbf x00 x00 x80 xbf)))))
(T (W x00 x00 x00 x00 x00 x00 x00 x00)
(T (W xff xff xff xff xff xff xff xff)
(T (W x00 x00 x80 x3f x00 x00 x80 x3f)
(L (W x00 x00 x80 x3f x00 x00 x80 x3f))
(L (W x00 x00 x00 x00 x00 x00 x00 x00)))
(T (W xff xff xff xff xff xff xff xff)
(L (W xff xff xff xff x9c x00 x00 x00))
(L (W xff xff xff xff xff xff xff xff))))
(T (W x18 x00 x00 x00 x0c x00 x00 x00)
(T (W x00 x00 x80 x3f x00 x00 x80 x3f)
(L (W x00 x00 x80 xbf x00 x00 x80 xbf))
(L (W xb0 x00 x00 x00 x64 x00 x00 x00)))
(T (W x45 x26 x22 x84 xe4 x9c xf2 xcb)
(L (W xff xff xff xff xb0 x00 x00 x00))
(L (W x74 x00 x00 x00 x68 x00 x00 x00))))))
(T (W x00 x00 x80 x3f x00 x00 x80 x3f)
(T (W x00 x00 x00 x00 x00 x00 x00 x00)
(T (W xff xff xff xff xff xff xff xff)
(T (W x50 x00 x00 x00 x44 x00 x00 x00)
(L (W xff xff xff xff xff xff xff xff))
(L (W xff xff xff xff xff xff xff xff)))
(T (W x00 x00 x80 x3f x00 x00 x80 x3f)
(L (W x45 x26 x22 x84 xe4 x9c xf2 xcb))
(L (W xff xff xff xff xff xff xff xff))))
(T (W xff xff xff xff xff xff xff xff)
(T (W x00 x00 x00 x00 x00 x00 x00 x00)
(L (W x15 x00 x00 x00 x0c x00 x00 x00))
(L (W x00 x00 x00 x00 x88 x6e xff xff)))
(T (W x50 x00 x00 x00 x44 x00 x00 x00)
(L (W xff xff xff xff xb0 x00 x00 x00))
(L (W x00 x00 x00 x00 x00 x00 x00 x00)))))
(T (W x00 x00 x00 x00 x00 x00 x00 x00)
(T (W xff xff xff xff xff xff xff xff)
(T (W x00 x00 x00 x00 x88 x4e xfd xff)
(L (W x00 x00 x00 x00 x00 x00 x00 x00))
(L (W x45 x26 x22 x84 xe4 x9c xf2 xcb)))
(T (W x00 x00 x00 x00 x00 x00 x00 x00)
(L (W x00 x00 x00 x00 x00 x00 x00 x00))
(L (W xff xff xff xff xff xff xff xff))))
(T (W x0a x25 xfd xff x74 x00 x00 x00)
(T (W xff xff xff xff xff xff xff xff)
(L (W x00 x00 x80 x3f x00 x00 x80 x3f))
(L (W xff xff xff xff xff xff xff xff)))
(T (W x00 x00 x80 x3f x00 x00 x80 x3f)
(L (W xff xff xff xff xff xff xff xff)) E)))))
(T (W x00 x00 x80 x3f x00 x00 x80 x3f)
(T (W x00 x00 x80 x3f x00 x00 x80 x3f)
(T (W x00 x00 x00 x00 x00 x00 x00 x00)
(T (W xff xff xff xff xff xff xff xff)
(T (W x40 x00 x00 x00 x9c x00 x00 x00)
(L (W x45 x26 x22 x84 xe4 x9c xf2 xcb))
(L (W xff xff xff xff xc8 x00 x00 x00)))
(T (W x00 x00 x80 x3f x00 x00 x80 x3f)
(L (W x00 x00 x80 x3f x00 x00 x80 x3f))
(L (W x00 x00 x00 x00 x88 xa6 xff xff))))
(T (W xff xff xff xff xff xff xff xff)
(T (W xff xff xff xff xff xff xff xff)
(L (W x00 x00 x00 x00 x00 x00 x00 x00))
(L (W x00 x00 x80 xbf x00 x00 x80 xbf)))
(T (W x00 x00 x80 x3f x00 x00 x80 x3f)
(L (W x00 x00 x80 xbf x00 x00 x80 xbf))
(L (W x50 x00 x00 x00 x54 x00 x00 x00)))))
(T (W xac x8b xfc xff x1b x00 x00 x00)
(T (W xff xff xff xff xff xff xff xff)
(T (W x45 x26 x22 x84 xe4 x9c xf2 xcb)
(L (W x00 x00 x80 x3f x00 x00 x80 x3f))
(L (W x00 x00 x00 x00 x00 x00 x00 x00)))
(T (W x9d x01 x00 x00 xff xff xff xff)
(L (W xff xff xff xff xff xff xff xff))
(L (W x44 x00 x00 x00 x10 x00 x00 x00))))
(T (W x10 x05 xfd xff x00 x01 x01 x01)
(T (W x45 x26 x22 x84 xe4 x9c xf2 xcb)
(L (W xff xff xff xff xff xff xff xff))
(L (W xff xff xff xff xff xff xff xff)))
(T (W x00 x00 x00 x00 x00 x00 x00 x00)
(L (W xff xff xff xff xc0 x00 x00 x00))
(L (W x24 x00 x28 x00 x2c x00 x30 x00))))))
(T (W x00 x00 x00 x00 x00 x00 x00 x00)
(T (W x00 x00 x00 x00 x00 x00 x00 x00)
(T (W xff xff xff xff xff xff xff xff)
(T (W x6c x00 x00 x00 x60 x00 x00 x00)
(L (W x00 x00 x00 x00 x88 x36 xfe xff))
(L (W xb4 x01 x00 x00 xff xff xff xff)))
(T (W x10 xb5 xfd xff x00 x01 x01 x01)
(L (W xcc x00 x00 x00 x01 x00 x00 x00))
(L (W xff xff xff xff xff xff xff xff))))
(T (W x45 x26 x22 x84 xe4 x9c xf2 xcb)
(T (W x00 x00 x00 x00 x00 x00 x00 x00)
(L (W xd3 x5a x6c x12 x83 xef x3a xc6))
(L (W x52 x79 xff xff x78 x00 x00 x00)))
(T (W x45 x26 x22 x84 xe4 x9c xf2 xcb)
(L (W xff xff xff xff x9c x00 x00 x00))
(L (W xff xff xff xff xff xff xff xff)))))
(T (W x00 x00 x00 x00 x02 x00 x00 x00)
(T (W x64 x00 x00 x00 x9c x00 x00 x00)
(T (W x18 x00 x00 x00 x0c x00 x00 x00)
(L (W x00 x00 x00 x00 x12 x00 x00 x00))
(L (W x00 x00 x80 xbf x00 x00 x80 xbf)))
(T (W x00 x00 x00 x00 x00 x00 x00 x00)
(L (W x45 x26 x22 x84 xe4 x9c xf2 xcb))
(L (W xff xff xff xff xb0 x00 x00 x00))))
(T (W x45 x26 x22 x84 xe4 x9c xf2 xcb)
(T (W x52 xc4 xfd xff x9c x01 x00 x00)
(L (W x00 x00 x00 x00 x12 x00 x00 x00))
(L (W xff xff xff xff xff xff xff xff)))
(T (W x00 x00 x00 x00 x88 x16 xfe xff)
(L (W xff xff xff xff xff xff xff xff)) E))))))
(T (W xd3 x02 x00 x00 xff xff xff xff)
(T (W x42 xef xfe xff xd3 x02 x00 x00)
(T (W xff xff xff xff xff xff xff xff)
(T (W xff xff xff xff xff xff xff xff)
(T (W x68 x00 x00 x00 x5c x00 x00 x00)
(T (W x27 x00 x00 x00 x0c x00 x00 x00)
(L (W x18 x01 x00 x00 x04 x00 x00 x00))
(L (W x45 x26 x22 x84 xe4 x9c xf2 xcb)))
(T (W xff xff xff xff xff xff xff xff)
(L (W x52 xa5 xfe xff x78 x00 x00 x00))
(L (W x00 x00 x00 x00 x00 x00 x00 x00))))
(T (W x00 x00 x00 x00 x00 x00 x00 x00)
(T (W x00 x00 x00 x00 x00 x00 x00 x00)
(L (W xff xff xff xff xff xff xff xff))
(L (W x46 x53 x59 x53 x5f x4e x53 x5f)))
(T (W xba x95 xff xff x00 x00 x01 x01)
(L (W xff xff xff xff xff xff xff xff))
(L (W xff xff xff xff xff xff xff xff)))))
(T (W x50 x00 x00 x00 x44 x00 x00 x00)
(T (W x45 x26 x22 x84 xe4 x9c xf2 xcb)
(T (W x01 x00 x00 x00 x3e x00 x00 x00)
(L (W xff xff xff xff xff xff xff xff))
(L (W x18 x00 x00 x00 x10 x00 x00 x00)))
(T (W x00 x00 x80 x3f x00 x00 x80 x3f)
(L (W x00 x00 x00 x00 x00 x00 x00 x00))
(L (W x00 x00 x00 x00 x00 x00 x00 x00))))
(T (W x00 x00 x00 x00 x00 x00 x00 x00)
(T (W x17 x00 x00 x00 x0c x00 x00 x00)
(L (W x00 x00 x00 x00 x00 x00 x00 x00))
(L (W x4f x84 x6f x8b xe8 xcb x63 xb7)))
(T (W xff xff xff xff x03 x00 x00 x00)
(L (W x00 x00 x00 x00 x00 x00 x00 x00))
(L (W x00 x00 x58 x00 x00 x00 x00 x00))))))
(T (W xff xff xff xff xff xff xff xff)
(T (W xbc x00 x00 x00 xb0 x00 x00 x00)
(T (W x00 x00 x80 x3f x00 x00 x80 x3f)
(T (W xff xff xff xff xff xff xff xff)
(L (W x00 x00 x00 x00 x00 x00 x00 x00))
(L (W x00 x00 x80 xbf x00 x00 x80 xbf)))
(T (W x00 x00 x00 x00 x00 x00 x00 x00)
(L (W x4f x84 x6f x8b xe8 xcb x63 xb7))
(L (W x00 x00 x00 x00 x00 x00 x00 x00))))
(T (W x54 xfc xfc xff x3e x00 x00 x00)
(T (W x45 x26 x22 x84 xe4 x9c xf2 xcb)
(L (W x45 x26 x22 x84 xe4 x9c xf2 xcb))
(L (W x00 x00 x00 x00 x12 x00 x00 x00)))
(T (W xbb x01 x00 x00 xff xff xff xff)
(L (W x00 x00 x00 x00 x00 x00 x00 x00))
(L (W x00 x00 x62 x00 x6c x00 x04 x00)))))
(T (W x00 x00 x80 x3f x00 x00 x80 x3f)
(T (W x45 x26 x22 x84 xe4 x9c xf2 xcb)
(T (W x5f x4e x53 x5f x30 x34 x5f x43)
(L (W x68 x00 x00 x00 x5c x00 x00 x00))
(L (W xff xff xff xff xff xff xff xff)))
(T (W xff xff xff xff xac x00 x00 x00)
(L (W x18 x00 x00 x00 x0c x00 x00 x00))
(L (W x00 x00 x00 x00 x00 x00 x5c x00))))
(T (W x00 x00 x00 x00 x00 x00 x00 x00)
(T (W x00 x00 x80 x3f x00 x00 x80 x3f)
(L (W x67 x72 x6f x75 x70 x5f x77 x69))
(L (W x00 x00 x00 x00 x00 x00 x00 x00)))
(T (W x00 x00 x00 x00 x00 x00 x00 x00)
(L (W x45 x26 x22 x84 xe4 x9c xf2 xcb)) E)))))
(T (W xff xff xff xff xff xff xff xff)
(T (W xff xff xff xff xff xff xff xff)
(T (W x64 x00 x00 x00 x9c x00 x00 x00)
(T (W x00 x00 x80 x3f x00 x00 x80 x3f)
(T (W xba xdd xfe xff x00 x00 x01 x01)
(L (W x00 x00 x80 x3f x00 x00 x80 x3f))
(L (W x00 x00 x00 x00 x00 x00 x00 x00)))
(T (W xff xff xff xff xff xff xff xff)
(L (W xcc x00 x00 x00 x01 x00 x00 x00))
(L (W x00 x00 x00 x00 x00 x00 x00 x00))))
(T (W x00 x00 x00 x00 x00 x00 x00 x00)
(T (W x00 x00 x80 x3f x00 x00 x80 x3f)
(L (W xff xff xff xff xa8 x00 x00 x00))
(L (W xa4 x04 x00 x00 x88 x03 x00 x00)))
(T (W xff xff xff xff xff xff xff xff)
(L (W x45 x44 x00 x00 x00 x00 x00 x00))
(L (W xff xff xff xff xff xff xff xff)))))
(T (W x00 x00 x80 x3f x00 x00 x80 x3f)
(T (W x00 x00 x80 x3f x00 x00 x80 x3f)
(T (W x65 x5f x73 x6b x79 x00 x00 x00)
(L (W xff xff xff xff xff xff xff xff))
(L (W xff xff xff xff xff xff xff xff)))
(T (W x00 x00 x80 x3f x00 x00 x80 x3f)
(L (W x00 x00 x80 xbf x00 x00 x80 xbf))
(L (W x4f x84 x6f x8b xe8 xcb x63 xb7))))
(T (W xff xff xff xff xff xff xff xff)
(T (W x00 x00 x00 x00 x00 x00 x00 x00)
(L (W x00 x00 x00 x00 x0c x00 x08 x00))
(L (W x00 x00 x00 x00 x00 x00 x00 x00)))
(T (W x68 x00 x00 x00 x5c x00 x00 x00)
(L (W x00 x00 x00 x00 x00 x00 x00 x00)) E))))
(T (W xff xff xff xff xff xff xff xff)
(T (W x10 x79 xfc xff x00 x01 x01 x01)
(T (W x45 x26 x22 x84 xe4 x9c xf2 xcb)
(T (W x4a x00 x00 x00 xff xff xff xff)
(L (W x45 x26 x22 x84 xe4 x9c xf2 xcb))
(L (W x6c x00 x00 x00 x60 x00 x00 x00)))
(T (W x00 x00 x00 x00 x00 x00 x00 x00)
(L (W x00 x00 x00 x00 x00 x00 x00 x00))
(L (W x00 x00 x80 xbf x00 x00 x80 xbf))))
(T (W x00 x00 x00 x00 x00 x00 x00 x00)
(T (W xff xff xff xff xff xff xff xff)
(L (W xff xff xff xff xff xff xff xff))
(L (W x00 x00 x00 x00 x00 x00 x00 x00)))
(T (W xff xff xff xff xff xff xff xff)
(L (W x00 x00 x00 x00 x00 x00 x00 x00))
(L (W x45 x26 x22 x84 xe4 x9c xf2 xcb)))))
(T (W x50 x00 x00 x00 x44 x00 x00 x00)
(T (W x45 x26 x22 x84 xe4 x9c xf2 xcb)
(T (W x00 x00 x00 x00 x00 x00 x00 x00)
(L (W xff xff xff xff xff xff xff xff))
(L (W x04 x00 x00 x00 x62 x5f xff xff)))
(T (W xff xff xff xff xff xff xff xff)
(L (W xff xff xff xff xc8 x00 x00 x00))
(L (W xff xff xff xff xff xff xff xff))))
(T (W x00 x00 x00 x00 x00 x00 x00 x00)
(T (W x10 x99 xfd xff x00 x01 x01 x01)
(L (W x61 x72 x6c x69 x6b x65 x5f x6c))
(L (W x00 x00 x00 x00 x00 x00 x64 x00)))
(T (W x00 x00 x00 x00 x00 x00 x00 x00)
(L (W x00 x00 x00 x00 x00 x00 x00 x00)) E)))))))
(T (W x00 x00 x00 x00 x00 x00 x00 x00)
(T (W xff xff xff xff xff xff xff xff)
(T (W x64 x00 x00 x00 x9c x00 x00 x00)
(T (W x45 x26 x22 x84 xe4 x9c xf2 xcb)
(T (W x6c x00 x00 x00 x60 x00 x00 x00)
(T (W x00 x00 x00 x00 x00 x00 x00 x00)
(T (W xff xff xff xff xff xff xff xff)
(L (W xff xff xff xff xff xff xff xff))
(L (W x00 x00 x00 x00 x00 x00 x00 x00)))
(T (W x00 x00 x80 x3f x00 x00 x80 x3f)
(L (W x00 x00 x80 x3f x00 x00 x80 x3f))
(L (W xff xff xff xff xff xff xff xff))))
(T (W xff xff xff xff xff xff xff xff)
(T (W x00 x00 x00 x00 x00 x00 x00 x00)
(L (W x14 x00 x00 x00 x0c x00 x00 x00))
(L (W xc8 x00 x00 x00 xff xff xff xff)))
(T (W xff xff xff xff x03 x00 x00 x00)
(L (W x18 x00 x00 x00 x0c x00 x00 x00))
(L (W x10 xdf xff xff x00 x01 x01 x01)))))
(T (W x45 x26 x22 x84 xe4 x9c xf2 xcb)
(T (W x00 x00 x00 x00 x00 x00 x00 x00)
(T (W x00 x00 x58 x00 x00 x00 x00 x00)
(L (W x45 x26 x22 x84 xe4 x9c xf2 xcb))
(L (W x00 x00 x80 xbf x00 x00 x80 xbf)))
(T (W x00 x00 x00 x00 x00 x00 x00 x00)
(L (W x00 x00 x00 x00 x00 x00 x00 x00))
(L (W x00 x00 x00 x00 x00 x00 x00 x00))))
(T (W xff xff xff xff xff xff xff xff)
(T (W xff xff xff xff xac x00 x00 x00)
(L (W xff xff xff xff xff xff xff xff))
(L (W x45 x44 x00 x00 x00 x00 x00 x00)))
(T (W x50 x00 x00 x00 x44 x00 x00 x00)
(L (W xff xff xff xff xff xff xff xff))
(L (W x00 x00 x00 x00 x00 x00 x00 x00))))))
(T (W x40 x00 x00 x00 x9c x00 x00 x00)
(T (W x00 x00 x80 x3f x00 x00 x80 x3f)
(T (W x54 xba xfc xff x1b x00 x00 x00)
(T (W xff xff xff xff xff xff xff xff)
(L (W x18 x01 x00 x00 x04 x00 x00 x00))
(L (W x00 x00 x00 x00 x00 x00 x00 x00)))
(T (W xff xff xff xff xff xff xff xff)
(L (W x00 x00 x00 x00 x00 x00 x00 x00))
(L (W x00 x00 x00 x00 xea xaf xff xff))))
(T (W xff xff xff xff xff xff xff xff)
(T (W x49 xa1 x68 x4a xeb x5f xdd x3d)
(L (W x00 x00 x80 xbf x00 x00 x80 xbf))
(L (W xff xff xff xff xff xff xff xff)))
(T (W xff xff xff xff x03 x00 x00 x00)
(L (W xff xff xff xff xff xff xff xff))
(L (W x54 x00 x00 x00 x48 x00 x00 x00)))))
(T (W x00 x00 x80 x3f x00 x00 x80 x3f)
(T (W xac xd5 xfc xff x3e x00 x00 x00)
(T (W xff xff xff xff xff xff xff xff)
(L (W x45 x26 x22 x84 xe4 x9c xf2 xcb))
(L (W x23 x00 x00 x00 x26 x00 x00 x00)))
(T (W x00 x00 x80 x3f x00 x00 x80 x3f)
(L (W x00 x00 x80 xbf x00 x00 x80 xbf))
(L (W x54 xda xff xff x2b x00 x00 x00))))
(T (W xff xff xff xff xff xff xff xff)
(T (W x00 x00 x00 x00 x00 x00 x00 x00)
(L (W xff xff xff xff xff xff xff xff))
(L (W x00 x00 x00 x00 x00 x00 x00 x00)))
(T (W xba xc3 xff xff x00 x00 x01 x01)
(L (W x00 x00 x00 x00 x62 x15 xff xff)) E)))))
(T (W x0a x4f xfc xff x74 x00 x00 x00)
(T (W x18 x00 x00 x00 x10 x00 x00 x00)
(T (W x00 x00 x80 x3f x00 x00 x80 x3f)
(T (W x00 x00 x00 x00 x00 x00 x00 x00)
(T (W xff xff xff xff xff xff xff xff)
(L (W x00 x00 x00 x00 x00 x00 x00 x00))
(L (W x4a x00 x00 x00 xff xff xff xff)))
(T (W x45 x26 x22 x84 xe4 x9c xf2 xcb)
(L (W x00 x00 x00 x00 x25 x00 x00 x00))
(L (W x95 x01 x00 x00 xff xff xff xff))))
(T (W xff xff xff xff xff xff xff xff)
(T (W x00 x00 x00 x00 x00 x00 x00 x00)
(L (W x00 x00 x80 xbf x00 x00 x80 xbf))
(L (W xff xff xff xff xb0 x00 x00 x00)))
(T (W x0a xff xfd xff x74 x00 x00 x00)
(L (W xb0 x00 x00 x00 x64 x00 x00 x00))
(L (W x00 x00 x80 xbf x00 x00 x80 xbf)))))
(T (W x00 x00 x80 x3f x00 x00 x80 x3f)
(T (W x00 x00 x00 x00 x00 x00 x00 x00)
(T (W x64 x00 x00 x00 xa0 x00 x00 x00)
(L (W x10 x47 xfe xff x00 x01 x01 x01))
(L (W x45 x26 x22 x84 xe4 x9c xf2 xcb)))
(T (W x00 x00 x00 x00 x00 x00 x00 x00)
(L (W x00 x00 x00 x00 x00 x00 x00 x00))
(L (W x00 x00 x00 x00 x12 x00 x00 x00))))
(T (W x34 x00 x38 x00 x3c x00 x40 x00)
(T (W xff xff xff xff xff xff xff xff)
(L (W x00 x00 x00 x00 x00 x00 x00 x00))
(L (W xff xff xff xff xff xff xff xff)))
(T (W x45 x26 x22 x84 xe4 x9c xf2 xcb)
(L (W x4b x00 x00 x00 xff xff xff xff)) E))))
(T (W x50 x00 x00 x00 x44 x00 x00 x00)
(T (W x00 x00 x00 x00 x00 x00 x00 x00)
(T (W x01 x00 x00 x00 x04 x00 x00 x00)
(T (W xff xff xff xff xff xff xff xff)
(L (W x00 x00 x00 x00 x00 x00 x00 x00))
(L (W x49 xa1 x68 x4a xeb x5f xdd x3d)))
(T (W xff xff xff xff xff xff xff xff)
(L (W xff xff xff xff xff xff xff xff))
(L (W x46 x53 x59 x53 x5f x4e x53 x5f))))
(T (W xff xff xff xff xff xff xff xff)
(T (W x00 x00 x80 x3f x00 x00 x80 x3f)
(L (W x00 x00 x80 xbf x00 x00 x80 xbf))
(L (W xff xff xff xff xff xff xff xff)))
(T (W x68 x00 x00 x00 x5c x00 x00 x00)
(L (W x00 x00 x00 x00 x00 x00 x00 x00))
(L (W x00 x00 x00 x00 x00 x00 x00 x00)))))
(T (W x00 x00 x00 x00 x00 x00 x00 x00)
(T (W x01 x00 x00 x00 x04 x00 x00 x00)
(T (W x00 x00 x01 x01 xb4 x01 x00 x00)
(L (W x00 x00 x80 xbf x00 x00 x80 xbf))
(L (W xff xff xff xff xb0 x00 x00 x00)))
(T (W x50 x00 x00 x00 x44 x00 x00 x00)
(L (W x54 x00 x00 x00 x48 x00 x00 x00))
(L (W x38 x00 x3c x00 x40 x00 x44 x00))))
(T (W xff xff xff xff xff xff xff xff)
(T (W x00 x00 x80 x3f x00 x00 x80 x3f)
(L (W x00 x00 x80 x3f x00 x00 x80 x3f))
(L (W x53 x83 xa7 x28 xbf x48 x53 x6a)))
(T (W xff xff xff xff xff xff xff xff)
(L (W x00 x00 x00 x00 x00 x00 x00 x00)) E))))))
(T (W x00 x00 x00 x00 x00 x00 x00 x00)
(T (W x00 x00 x00 x00 x00 x00 x00 x00)
(T (W x00 x00 x00 x00 x00 x00 x00 x00)
(T (W xb4 x01 x00 x00 xff xff xff xff)
(T (W x18 x00 x00 x00 x0c x00 x00 x00)
(T (W x00 x00 x80 x3f x00 x00 x80 x3f)
(L (W x00 x00 x00 x00 x00 x00 x00 x00))
(L (W x54 x00 x00 x00 x48 x00 x00 x00)))
(T (W x00 x00 x00 x00 x00 x00 x00 x00)
(L (W x67 x72 x6f x75 x70 x5f x77 x69))
(L (W x00 x00 x80 xbf x00 x00 x80 xbf))))
(T (W x00 x00 x80 x3f x00 x00 x80 x3f)
(T (W x0a x7b xfd xff x74 x00 x00 x00)
(L (W x29 x00 x00 x00 xff xff xff xff))
(L (W x00 x00 x00 x00 x00 x00 x00 x00)))
(T (W x00 x00 x00 x00 x00 x00 x00 x00)
(L (W x00 x00 x00 x00 x00 x00 x00 x00))
(L (W x00 x00 x00 x00 x00 x00 x00 x00)))))
(T (W xff xff xff xff xff xff xff xff)
(T (W x50 x00 x00 x00 x44 x00 x00 x00)
(T (W x00 x00 x00 x00 x00 x00 x00 x00)
(L (W x00 x00 x00 x00 x00 x00 x00 x00))
(L (W x00 x00 x00 x00 x00 x00 x00 x00)))
(T (W x45 x26 x22 x84 xe4 x9c xf2 xcb)
(L (W x45 x26 x22 x84 xe4 x9c xf2 xcb))
(L (W x00 x00 x80 xbf x00 x00 x80 xbf))))
(T (W x00 x00 x00 x00 x00 x00 x00 x00)
(T (W x45 x26 x22 x84 xe4 x9c xf2 xcb)
(L (W x68 x00 x00 x00 x5c x00 x00 x00))
(L (W x23 x00 x00 x00 x26 x00 x00 x00)))
(T (W x66 x01 x00 x00 xff xff xff xff)
(L (W x6c x00 x00 x00 x60 x00 x00 x00))
(L (W x2b x00 x00 x00 x2e x00 x00 x00))))))
(T (W xba x07 xfe xff x00 x00 x01 x01)
(T (W xba x32 xff xff x00 x00 x01 x01)
(T (W x01 x00 x00 x00 x3c x00 x00 x00)
(T (W x00 x00 x00 x00 x00 x00 x00 x00)
(L (W x00 x00 x80 x3f x00 x00 x80 x3f))
(L (W xff xff xff xff xc8 x00 x00 x00)))
(T (W x00 x00 x80 x3f x00 x00 x80 x3f)
(L (W x54 x00 x00 x00 x48 x00 x00 x00))
(L (W x45 x26 x22 x84 xe4 x9c xf2 xcb))))
(T (W x00 x00 x80 x3f x00 x00 x80 x3f)
(T (W xff xff xff xff xff xff xff xff)
(L (W xff xff xff xff xac x00 x00 x00))
(L (W x4f x84 x6f x8b xe8 xcb x63 xb7)))
(T (W x00 x00 x00 x00 x00 x00 x00 x00)
(L (W x00 x00 x80 xbf x00 x00 x80 xbf))
(L (W x00 x00 x80 xbf x00 x00 x80 xbf)))))
(T (W x64 x00 x00 x00 x9c x00 x00 x00)
(T (W x00 x00 x00 x00 x88 xd4 xfc xff)
(T (W x00 x00 x80 x3f x00 x00 x80 x3f)
(L (W xff xff xff xff xff xff xff xff))
(L (W x30 x34 x5f x43 x4c x45 x41 x52)))
(T (W x00 x00 x01 x01 xd6 x00 x00 x00)
(L (W x54 x02 x00 x00 x38 x01 x00 x00))
(L (W x00 x00 x80 xbf x00 x00 x80 xbf))))
(T (W x50 x00 x00 x00 x44 x00 x00 x00)
(T (W xff xff xff xff xff xff xff xff)
(L (W xff xff xff xff xe0 x00 x00 x00))
(L (W x00 x00 x80 xbf x00 x00 x80 xbf)))
(T (W x00 x00 x80 x3f x00 x00 x80 x3f)
(L (W x00 x00 x80 xbf x00 x00 x80 xbf)) E)))))
(T (W x00 x00 x00 x00 x00 x00 x00 x00)
(T (W x2f x00 x00 x00 x0c x00 x00 x00)
(T (W x42 x29 xff xff xb3 x01 x00 x00)
(T (W x40 x00 x00 x00 x9c x00 x00 x00)
(T (W x00 x00 x00 x00 x00 x00 x00 x00)
(L (W x0a x43 xfe xff x74 x00 x00 x00))
(L (W x52 x2f xff xff x78 x00 x00 x00)))
(T (W x00 x00 x00 x00 x00 x00 x00 x00)
(L (W x00 x00 x00 x00 x00 x00 x00 x00))
(L (W x00 x00 x80 xbf x00 x00 x80 xbf))))
(T (W x00 x00 x80 x3f x00 x00 x80 x3f)
(T (W xb0 x00 x00 x00 x64 x00 x00 x00)
(L (W xff xff xff xff xff xff xff xff))
(L (W x00 x00 x80 xbf x00 x00 x80 xbf)))
(T (W x00 x00 x00 x00 x00 x00 x00 x00)
(L (W x4f x84 x6f x8b xe8 xcb x63 xb7))
(L (W x00 x00 x00 x00 x82 xfb xff xff)))))
(T (W xff xff xff xff xff xff xff xff)
(T (W x0a xe3 xfc xff x74 x00 x00 x00)
(T (W x00 x00 x80 x3f x00 x00 x80 x3f)
(L (W x70 x5f x6c x65 x61 x64 x65 x72))
(L (W x00 x00 x00 x00 x00 x00 x00 x00)))
(T (W xff xff xff xff xff xff xff xff)
(L (W xff xff xff xff xbc x00 x00 x00))
(L (W x00 x00 x80 xbf x00 x00 x80 xbf))))
(T (W x00 x00 x80 x3f x00 x00 x80 x3f)
(T (W x6c x00 x00 x00 x60 x00 x00 x00)
(L (W x00 x00 x00 x00 x00 x00 x00 x00))
(L (W x00 x00 x80 xbf x00 x00 x80 xbf)))
(T (W xff xff xff xff xff xff xff xff)
(L (W x10 x0b xff xff x00 x01 x01 x01)) E))))
(T (W xff xff xff xff xff xff xff xff)
(T (W xff xff xff xff xff xff xff xff)
(T (W x0a xd3 xfc xff x74 x00 x00 x00)
(T (W x00 x00 x00 x00 x00 x00 x00 x00)
(L (W xff xff xff xff xff xff xff xff))
(L (W xff xff xff xff xff xff xff xff)))
(T (W x00 x00 x80 x3f x00 x00 x80 x3f)
(L (W x00 x00 x80 x3f x00 x00 x80 x3f))
(L (W x00 x01 x01 x01 x82 xb9 xff xff))))
(T (W x45 x26 x22 x84 xe4 x9c xf2 xcb)
(T (W x45 x44 x00 x00 x00 x00 x00 x00)
(L (W x00 x00 x00 x00 x00 x00 x00 x00))
(L (W x00 x00 x80 xbf x00 x00 x80 xbf)))
(T (W x00 x00 x00 x00 x00 x00 x00 x00)
(L (W x00 x01 x01 x01 xca xf7 xfe xff))
(L (W x00 x00 x00 x00 x12 x00 x00 x00)))))
(T (W x00 x00 x00 x00 x88 x9c xfc xff)
(T (W x45 x26 x22 x84 xe4 x9c xf2 xcb)
(T (W x00 x00 x80 x3f x00 x00 x80 x3f)
(L (W x00 x00 x00 x00 xea x5b xfe xff))
(L (W x45 x26 x22 x84 xe4 x9c xf2 xcb)))
(T (W x00 x00 x00 x00 x00 x00 x00 x00)
(L (W x00 x00 x00 x00 x62 xdd xfe xff))
(L (W x00 x00 x00 x00 x00 x00 x00 x00))))
(T (W x00 x00 x80 x3f x00 x00 x80 x3f)
(T (W x01 x00 x00 x00 xff xff xff xff)
(L (W x00 x00 x00 x00 x00 x00 x00 x00))
(L (W x00 x00 x80 xbf x00 x00 x80 xbf)))
(T (W x00 x00 x80 x3f x00 x00 x80 x3f)
(L (W x00 x00 x80 xbf x00 x00 x80 xbf)) E))))))))
(T (W x28 x13 x01 x00 xf4 x11 x01 x00)
(T (W x00 x00 x00 x00 x01 x00 x00 x00)
(T (W x0a x3e xfc xff x74 x00 x00 x00)
(T (W x45 x26 x22 x84 xe4 x9c xf2 xcb)
(T (W x0a x56 xfc xff x74 x00 x00 x00)
(T (W x00 x00 x80 x3f x00 x00 x80 x3f)
(T (W xac xa4 xfc xff x3c x00 x00 x00)
(T (W xb8 x00 x00 x00 xac x00 x00 x00)
(L (W x00 x00 x00 x00 x88 x1f xfe xff))
(L (W x00 x00 x00 x00 x02 x1a xff xff)))
(T (W x49 xa1 x68 x4a xeb x5f xdd x3d)
(L (W x67 x72 x6f x75 x70 x5f x77 x69))
(L (W xff xff xff xff xff xff xff xff))))
(T (W xff xff xff xff xff xff xff xff)
(T (W xb4 x01 x00 x00 xff xff xff xff)
(L (W x5c x00 x00 x00 x50 x00 x00 x00))
(L (W xff xff xff xff xff xff xff xff)))
(T (W x68 x00 x00 x00 x5c x00 x00 x00)
(L (W x52 xe2 xfe xff x78 x00 x00 x00))
(L (W x54 x00 x00 x00 x48 x00 x00 x00)))))
(T (W x00 x00 x00 x00 x00 x00 x00 x00)
(T (W xff xff xff xff x01 x00 x00 x00)
(T (W x45 x26 x22 x84 xe4 x9c xf2 xcb)
(L (W x10 x3e xfe xff x00 x01 x01 x01))
(L (W x00 x00 x00 x00 x00 x00 x00 x00)))
(T (W xff xff xff xff xff xff xff xff)
(L (W xff xff xff xff xff xff xff xff))
(L (W x00 x00 x00 x00 x00 x00 x00 x00))))
(T (W xb8 x00 x00 x00 xac x00 x00 x00)
(T (W x00 x00 x80 x3f x00 x00 x80 x3f)
(L (W x18 x00 x00 x00 x0c x00 x00 x00))
(L (W xff xff xff xff xff xff xff xff)))
(T (W x45 x26 x22 x84 xe4 x9c xf2 xcb)
(L (W xff xff xff xff xff xff xff xff))
(L (W x64 x00 x68 x00 x62 x00 x00 x00))))))
(T (W x00 x00 x80 x3f x00 x00 x80 x3f)
(T (W x00 x00 x00 x00 x00 x00 x00 x00)
(T (W xff xff xff xff xff xff xff xff)
(T (W xff xff xff xff x03 x00 x00 x00)
(L (W xff xff xff xff xff xff xff xff))
(L (W x00 x00 x00 x00 x00 x00 x00 x00)))
(T (W xff xff xff xff xb0 x00 x00 x00)
(L (W xff xff xff xff xff xff xff xff))
(L (W xff xff xff xff xff xff xff xff))))
(T (W xff xff xff xff xff xff xff xff)
(T (W x00 x00 x00 x00 x00 x00 x00 x00)
(L (W x4f x84 x6f x8b xe8 xcb x63 xb7))
(L (W x1a x00 x00 x00 x1d x00 x00 x00)))
(T (W x68 x00 x00 x00 x5c x00 x00 x00)
(L (W xff xff xff xff xff xff xff xff))
(L (W x00 x00 x80 xbf x00 x00 x80 xbf)))))
(T (W x00 x00 x00 x00 x00 x00 x00 x00)
(T (W xff xff xff xff xff xff xff xff)
(T (W xff xff xff xff xff xff xff xff)
(L (W x00 x00 x00 x00 x00 x00 x00 x00))
(L (W x00 x00 x00 x00 x14 x4e xff xff)))
(T (W x00 x00 x00 x00 x00 x00 x00 x00)
(L (W x00 x00 x00 x00 x00 x00 x00 x00))
(L (W xff xff xff xff xff xff xff xff))))
(T (W xff xff xff xff x04 x00 x00 x00)
(T (W xbb x01 x00 x00 xff xff xff xff)
(L (W x52 x92 xfe xff x78 x00 x00 x00))
(L (W xff xff xff xff xff xff xff xff)))
(T (W xff xff xff xff xff xff xff xff)
(L (W xff xff xff xff xff xff xff xff)) E)))))
(T (W x68 x00 x00 x00 x5c x00 x00 x00)
(T (W x10 x46 xfc xff x00 x01 x01 x01)
(T (W x00 x00 x00 x00 x00 x00 x00 x00)
(T (W x01 x00 x00 x00 x04 x00 x00 x00)
(T (W xc0 x00 x00 x00 xb4 x00 x00 x00)
(L (W x18 x01 x00 x00 x04 x00 x00 x00))
(L (W xff xff xff xff xff xff xff xff)))
(T (W x6c x00 x00 x00 x60 x00 x00 x00)
(L (W xff xff xff xff xff xff xff xff))
(L (W xff xff xff xff xff xff xff xff))))
(T (W xff xff xff xff xff xff xff xff)
(T (W x00 x00 x00 x00 x5a x65 xfd xff)
(L (W x00 x00 x00 x00 x00 x00 x00 x00))
(L (W x52 x6a xff xff x78 x00 x00 x00)))
(T (W x68 x00 x00 x00 x5c x00 x00 x00)
(L (W x10 xe6 xfe xff x00 x01 x01 x01))
(L (W x00 x00 x00 x00 x00 x00 x00 x00)))))
(T (W x45 x26 x22 x84 xe4 x9c xf2 xcb)
(T (W x00 x00 x00 x00 x02 x00 x00 x00)
(T (W x00 x00 x80 x3f x00 x00 x80 x3f)
(L (W x00 x00 x80 x3f x00 x00 x80 x3f))
(L (W x00 x00 x80 xbf x00 x00 x80 xbf)))
(T (W x5f x4e x53 x5f x30 x34 x5f x43)
(L (W x00 x00 x00 x00 x62 xc8 xfe xff))
(L (W x3c x02 x00 x00 x30 x01 x00 x00))))
(T (W xff xff xff xff xff xff xff xff)
(T (W xff xff xff xff xff xff xff xff)
(L (W xac x8c xfe xff x36 x00 x00 x00))
(L (W xff xff xff xff xff xff xff xff)))
(T (W x45 x26 x22 x84 xe4 x9c xf2 xcb)
(L (W xff xff xff xff xff xff xff xff)) E))))
(T (W x00 x00 x80 x3f x00 x00 x80 x3f)
(T (W x00 x00 x00 x00 x00 x00 x00 x00)
(T (W xff xff xff xff xff xff xff xff)
(T (W x00 x00 x00 x00 x88 x37 xfd xff)
(L (W xba xea xff xff x00 x00 x01 x01))
(L (W x00 x00 x00 x00 x00 x00 x00 x00)))
(T (W xb0 x00 x00 x00 x28 x00 x00 x00)
(L (W xff xff xff xff xff xff xff xff))
(L (W x04 x00 x00 x00 xea xb6 xff xff))))
(T (W xff xff xff xff xff xff xff xff)
(T (W x00 x00 x80 x3f x00 x00 x80 x3f)
(L (W x00 x00 x00 x00 x00 x00 x00 x00))
(L (W xff xff xff xff x9c x00 x00 x00)))
(T (W x50 x00 x00 x00 x44 x00 x00 x00)
(L (W xff xff xff xff xff xff xff xff))
(L (W x00 x00 x00 x00 x00 x00 x00 x00)))))
(T (W x00 x00 x00 x00 x00 x00 x00 x00)
(T (W xff xff xff xff xff xff xff xff)
(T (W xff xff xff xff xff xff xff xff)
(L (W x00 x00 x00 x00 x00 x00 x00 x00))
(L (W x00 x00 x00 x00 x88 x57 xff xff)))
(T (W x00 x00 x80 x3f x00 x00 x80 x3f)
(L (W x00 x00 x80 xbf x00 x00 x80 xbf))
(L (W xff xff xff xff xff xff xff xff))))
(T (W x18 x00 x00 x00 x10 x00 x00 x00)
(T (W x00 x00 x00 x00 x00 x00 x00 x00)
(L (W x00 x00 x00 x00 x00 x00 x00 x00))
(L (W xff xff xff xff xff xff xff xff)))
(T (W xff xff xff xff xff xff xff xff)
(L (W xff xff xff xff xff xff xff xff)) E))))))
(T (W x00 x00 x00 x00 x00 x00 x00 x00)
(T (W x00 x00 x00 x00 x00 x00 x00 x00)
(T (W xba xf6 xfd xff x00 x00 x01 x01)
(T (W xff xff xff xff xff xff xff xff)
(T (W x00 x00 x00 x00 x88 xa3 xfc xff)
(T (W x00 x00 x00 x00 x00 x00 x00 x00)
(L (W x00 x00 x00 x00 x00 x00 x00 x00))
(L (W x00 x00 x80 xbf x00 x00 x80 xbf)))
(T (W xff xff xff xff xff xff xff xff)
(L (W xff xff xff xff xff xff xff xff))
(L (W x00 x00 x00 x00 x00 x00 x00 x00))))
(T (W x00 x00 x80 x3f x00 x00 x80 x3f)
(T (W x00 x00 x80 x3f x00 x00 x80 x3f)
(L (W xff xff xff xff xff xff xff xff))
(L (W x00 x00 x00 x00 x00 x00 x00 x00)))
(T (W x00 x00 x00 x00 x00 x00 x00 x00)
(L (W x00 x00 x00 x00 x62 xe4 xfe xff))
(L (W x00 x00 x00 x00 x00 x00 x00 x00)))))
(T (W x64 x00 x00 x00 x9c x00 x00 x00)
(T (W x00 x00 x80 x3f x00 x00 x80 x3f)
(T (W x58 x00 x00 x00 x00 x00 x00 x00)
(L (W x00 x00 x00 x00 x02 x00 x00 x00))
(L (W xff xff xff xff xff xff xff xff)))
(T (W x68 x00 x00 x00 x5c x00 x00 x00)
(L (W x00 x00 x80 xbf x00 x00 x80 xbf))
(L (W x00 x00 x80 xbf x00 x00 x80 xbf))))
(T (W x00 x00 x00 x00 x00 x00 x00 x00)
(T (W x00 x00 x00 x00 x00 x00 x00 x00)
(L (W x00 x00 x80 xbf x00 x00 x80 xbf))
(L (W x00 x00 x80 xbf x00 x00 x80 xbf)))
(T (W xff xff xff xff xff xff xff xff)
(L (W x00 x00 x80 xbf x00 x00 x80 xbf))
(L (W x00 x00 x00 x00 x00 x00 x00 x00))))))
(T (W xff xff xff xff xff xff xff xff)
(T (W xff xff xff xff xff xff xff xff)
(T (W x00 x00 x80 x3f x00 x00 x80 x3f)
(T (W x3e x00 x00 x00 x0c x00 x00 x00)
(L (W x00 x00 x80 x3f x00 x00 x80 x3f))
(L (W x45 x26 x22 x84 xe4 x9c xf2 xcb)))
(T (W x00 x00 x00 x00 x00 x00 x00 x00)
(L (W x00 x00 x80 x3f x00 x00 x80 x3f))
(L (W x00 x00 x80 xbf x00 x00 x80 xbf))))
(T (W x00 x00 x00 x00 x00 x00 x00 x00)
(T (W xff xff xff xff xbc x00 x00 x00)
(L (W x1c x00 x00 x00 x10 x00 x00 x00))
(L (W x00 x00 x00 x00 x00 x00 x00 x00)))
(T (W x00 x00 x00 x00 x00 x00 x00 x00)
(L (W x00 x00 x00 x00 x00 x00 x00 x00))
(L (W x00 x00 x80 xbf x00 x00 x80 xbf)))))
(T (W x50 x00 x00 x00 x44 x00 x00 x00)
(T (W x68 x00 x00 x00 x5c x00 x00 x00)
(T (W x00 x00 x00 x00 x00 x00 x00 x00)
(L (W x03 x00 x00 x00 xd0 x00 x00 x00))
(L (W x00 x00 x01 x01 x2e x00 x00 x00)))
(T (W xff xff xff xff xff xff xff xff)
(L (W xff xff xff xff xff xff xff xff))
(L (W x00 x00 x00 x00 x00 x00 x00 x00))))
(T (W x00 x00 x00 x00 x00 x00 x00 x00)
(T (W x18 x00 x00 x00 x0c x00 x00 x00)
(L (W x00 x00 x80 x3f x00 x00 x80 x3f))
(L (W x45 x26 x22 x84 xe4 x9c xf2 xcb)))
(T (W x45 x26 x22 x84 xe4 x9c xf2 xcb)
(L (W x00 x00 x80 xbf x00 x00 x80 xbf)) E)))))
(T (W x40 x00 x00 x00 x10 x00 x00 x00)
(T (W xff xff xff xff xff xff xff xff)
(T (W xff xff xff xff xff xff xff xff)
(T (W x45 x26 x22 x84 xe4 x9c xf2 xcb)
(T (W x00 x00 x00 x00 x00 x00 x00 x00)
(L (W x00 x00 x80 x3f x00 x00 x80 x3f))
(L (W x00 x00 x80 xbf x00 x00 x80 xbf)))
(T (W x30 x34 x5f x43 x4c x45 x41 x52)
(L (W x70 x5f x6c x65 x61 x64 x65 x72))
(L (W x45 x26 x22 x84 xe4 x9c xf2 xcb))))
(T (W x45 x26 x22 x84 xe4 x9c xf2 xcb)
(T (W x10 x6a xfd xff x00 x01 x01 x01)
(L (W xff xff xff xff xff xff xff xff))
(L (W x00 x00 x00 x00 x00 x00 x00 x00)))
(T (W xba x9e xff xff x00 x00 x01 x01)
(L (W x00 x00 x00 x00 x00 x00 x00 x00))
(L (W x00 x00 x00 x00 x02 xf9 xff xff)))))
(T (W x10 x8a xfc xff x00 x01 x01 x01)
(T (W x50 x00 x00 x00 x44 x00 x00 x00)
(T (W x4f x84 x6f x8b xe8 xcb x63 xb7)
(L (W xff xff xff xff xff xff xff xff))
(L (W x00 x00 x00 x00 x62 x4c xff xff)))
(T (W xc8 x00 x00 x00 x01 x00 x00 x00)
(L (W x45 x26 x22 x84 xe4 x9c xf2 xcb))
(L (W x00 x00 x80 xbf x00 x00 x80 xbf))))
(T (W x6c x00 x08 x00 x0c x00 x00 x00)
(T (W x00 x00 x80 x3f x00 x00 x80 x3f)
(L (W x38 x01 x00 x00 x04 x00 x00 x00))
(L (W x00 x00 x80 xbf x00 x00 x80 xbf)))
(T (W xff xff xff xff x03 x00 x00 x00)
(L (W x45 x26 x22 x84 xe4 x9c xf2 xcb)) E))))
(T (W xff xff xff xff xff xff xff xff)
(T (W xff xff xff xff xff xff xff xff)
(T (W x54 x00 x00 x00 x48 x00 x00 x00)
(T (W x00 x00 x00 x00 x00 x00 x00 x00)
(L (W x00 x00 x80 x3f x00 x00 x80 x3f))
(L (W x18 x00 x00 x00 x10 x00 x00 x00)))
(T (W x4f x84 x6f x8b xe8 xcb x63 xb7)
(L (W x00 x00 x80 x3f x00 x00 x80 x3f))
(L (W x54 x00 x00 x00 x48 x00 x00 x00))))
(T (W x00 x00 x00 x00 x00 x00 x00 x00)
(T (W xff xff xff xff xff xff xff xff)
(L (W x01 x00 x00 x00 xff xff xff xff))
(L (W x4f x84 x6f x8b xe8 xcb x63 xb7)))
(T (W xb2 x01 x00 x00 xff xff xff xff)
(L (W x45 x26 x22 x84 xe4 x9c xf2 xcb))
(L (W x6c x00 x70 x00 x62 x00 x00 x00)))))
(T (W x0a xb2 xfc xff x74 x00 x00 x00)
(T (W x00 x00 x80 x3f x00 x00 x80 x3f)
(T (W x49 xa1 x68 x4a xeb x5f xdd x3d)
(L (W xff xff xff xff xff xff xff xff))
(L (W x00 x00 x00 x00 x12 x00 x00 x00)))
(T (W x80 x03 x00 x00 x54 x02 x00 x00)
(L (W xff xff xff xff xff xff xff xff))
(L (W xff xff xff xff xff xff xff xff))))
(T (W x45 x26 x22 x84 xe4 x9c xf2 xcb)
(T (W xb0 x00 x00 x00 x28 x00 x00 x00)
(L (W x00 x00 x00 x00 x12 x00 x00 x00))
(L (W x00 x00 x00 x00 x00 x00 x00 x00)))
(T (W x00 x00 x00 x00 x00 x00 x00 x00)
(L (W x45 x26 x22 x84 xe4 x9c xf2 xcb)) E)))))))
(T (W x45 x26 x22 x84 xe4 x9c xf2 xcb)
(T (W xff xff xff xff xff xff xff xff)
(T (W xff xff xff xff xff xff xff xff)
(T (W x18 x00 x00 x00 x10 x00 x00 x00)
(T (W x00 x00 x00 x00 x88 x61 xfc xff)
(T (W x45 x26 x22 x84 xe4 x9c xf2 xcb)
(T (W xff xff xff xff xff xff xff xff)
(L (W xff xff xff xff xff xff xff xff))
(L (W x00 x00 x00 x00 x00 x00 x00 x00)))
(T (W x27 x00 x00 x00 x2a x00 x00 x00)
(L (W x00 x00 x80 x3f x00 x00 x80 x3f))
(L (W x00 x00 x00 x00 x00 x00 x00 x00))))
(T (W x54 xeb xfc xff x3c x00 x00 x00)
(T (W x00 x00 x00 x00 x00 x00 x00 x00)
(L (W xc4 x00 x00 x00 x01 x00 x00 x00))
(L (W x00 x00 x00 x00 xc2 x5d xff xff)))
(T (W xff xff xff xff xff xff xff xff)
(L (W xff xff xff xff xff xff xff xff))
(L (W xb0 x00 x00 x00 x0a x00 x00 x00)))))
(T (W x00 x00 x80 x3f x00 x00 x80 x3f)
(T (W x00 x00 x00 x00 x00 x00 x00 x00)
(T (W x00 x00 x00 x00 x00 x00 x00 x00)
(L (W xff xff xff xff xff xff xff xff))
(L (W x6c x00 x00 x00 x60 x00 x00 x00)))
(T (W x00 x00 x00 x00 x00 x00 x00 x00)
(L (W x00 x00 x00 x00 x00 x00 x00 x00))
(L (W x00 x00 x00 x00 x00 x00 x00 x00))))
(T (W x00 x00 x00 x00 x00 x00 x00 x00)
(T (W xff xff xff xff xff xff xff xff)
(L (W x00 x00 x00 x00 x01 x00 x00 x00))
(L (W x00 x00 x00 x00 x00 x00 x00 x00)))
(T (W x68 x00 x00 x00 x5c x00 x00 x00)
(L (W x00 x00 x00 x00 x5a xff xfe xff))
(L (W x00 x01 x01 x01 x82 xfe xff xff))))))
(T (W xc0 x00 x00 x00 xb4 x00 x00 x00)
(T (W x50 x00 x00 x00 x44 x00 x00 x00)
(T (W x00 x00 x00 x00 x00 x00 x00 x00)
(T (W xff xff xff xff xff xff xff xff)
(L (W x00 x00 x00 x00 x00 x00 x00 x00))
(L (W x00 x00 x00 x00 x00 x00 x00 x00)))
(T (W xff xff xff xff xff xff xff xff)
(L (W x00 x00 x00 x00 x00 x00 x00 x00))
(L (W x46 x53 x59 x53 x5f x4e x53 x5f))))
(T (W xff xff xff xff xff xff xff xff)
(T (W x00 x00 x80 x3f x00 x00 x80 x3f)
(L (W x54 x00 x00 x00 x48 x00 x00 x00))
(L (W x04 x00 x00 x00 x58 x03 x00 x00)))
(T (W xff xff xff xff xff xff xff xff)
(L (W x00 x00 x00 x00 x00 x00 x00 x00))
(L (W xff xff xff xff xff xff xff xff)))))
(T (W x00 x00 x80 x3f x00 x00 x80 x3f)
(T (W x00 x00 x00 x00 x00 x00 x00 x00)
(T (W xda x80 xfd xff x00 x00 x01 x01)
(L (W x00 x00 x62 x00 x90 x00 x0c x00))
(L (W x03 x00 x00 x00 xd8 x00 x00 x00)))
(T (W x00 x00 x00 x00 x88 xd1 xfd xff)
(L (W x00 x00 x80 xbf x00 x00 x80 xbf))
(L (W x10 xd0 xff xff x00 x01 x01 x01))))
(T (W x40 x00 x00 x00 x10 x00 x00 x00)
(T (W x00 x00 x00 x00 x00 x00 x00 x00)
(L (W xd2 x02 x00 x00 xff xff xff xff))
(L (W x00 x00 x00 x00 x00 x00 x00 x00)))
(T (W x00 x00 x00 x00 x00 x00 x00 x00)
(L (W x00 x00 x00 x00 x12 x00 x00 x00)) E)))))
(T (W xff xff xff xff x04 x00 x00 x00)
(T (W xb8 x00 x00 x00 xac x00 x00 x00)
(T (W x45 x26 x22 x84 xe4 x9c xf2 xcb)
(T (W x45 x26 x22 x84 xe4 x9c xf2 xcb)
(T (W xff xff xff xff xff xff xff xff)
(L (W x00 x00 x00 x00 x00 x00 x00 x00))
(L (W x00 x00 x00 x00 x00 x00 x00 x00)))
(T (W xff xff xff xff xbc x00 x00 x00)
(L (W x00 x00 x80 x3f x00 x00 x80 x3f))
(L (W x00 x00 x00 x00 x00 x00 x00 x00))))
(T (W x01 x00 x00 x00 x04 x00 x00 x00)
(T (W x4f x84 x6f x8b xe8 xcb x63 xb7)
(L (W x00 x00 x80 xbf x00 x00 x80 xbf))
(L (W xff xff xff xff xff xff xff xff)))
(T (W xff xff xff xff xff xff xff xff)
(L (W xff xff xff xff xff xff xff xff))
(L (W x08 x00 x0c x00 x10 x00 x14 x00)))))
(T (W x00 x00 x80 x3f x00 x00 x80 x3f)
(T (W x00 x00 x00 x00 x00 x00 x00 x00)
(T (W xff xff xff xff xff xff xff xff)
(L (W x45 x26 x22 x84 xe4 x9c xf2 xcb))
(L (W xff xff xff xff xc8 x00 x00 x00)))
(T (W x00 x00 x80 x3f x00 x00 x80 x3f)
(L (W x49 xa1 x68 x4a xeb x5f xdd x3d))
(L (W x00 x00 x00 x00 x00 x00 x00 x00))))
(T (W x45 x26 x22 x84 xe4 x9c xf2 xcb)
(T (W x54 x93 xfd xff x1d x00 x00 x00)
(L (W x00 x00 x80 xbf x00 x00 x80 xbf))
(L (W x30 x34 x5f x43 x4c x45 x41 x52)))
(T (W x50 x00 x00 x00 x44 x00 x00 x00)
(L (W x00 x00 x00 x00 x00 x00 x00 x00)) E))))
(T (W xff xff xff xff x03 x00 x00 x00)
(T (W x00 x00 x80 x3f x00 x00 x80 x3f)
(T (W x00 x00 x00 x00 x00 x00 x00 x00)
(T (W xff xff xff xff xff xff xff xff)
(L (W x00 x00 x00 x00 x00 x00 x00 x00))
(L (W x00 x00 x80 xbf x00 x00 x80 xbf)))
(T (W x45 x44 x00 x00 x00 x00 x00 x00)
(L (W x30 x34 x5f x43 x4c x45 x41 x52))
(L (W x00 x00 x00 x00 x00 x00 x00 x00))))
(T (W xba xac xfe xff x00 x00 x01 x01)
(T (W x18 x00 x00 x00 x0c x00 x00 x00)
(L (W x0a x90 xfe xff x74 x00 x00 x00))
(L (W x00 x00 x00 x00 x5a x77 xff xff)))
(T (W xff xff xff xff x03 x00 x00 x00)
(L (W x00 x00 x00 x00 x00 x00 x00 x00))
(L (W x00 x00 x00 x00 x00 x00 x00 x00)))))
(T (W x00 x00 x80 x3f x00 x00 x80 x3f)
(T (W x00 x00 x00 x00 x00 x00 x00 x00)
(T (W x30 x34 x5f x43 x4c x45 x41 x52)
(L (W x00 x00 x00 x00 x88 x59 xfe xff))
(L (W xff xff xff xff xff xff xff xff)))
(T (W xc4 x00 x00 x00 x01 x00 x00 x00)
(L (W x45 x26 x22 x84 xe4 x9c xf2 xcb))
(L (W x00 x00 x80 xbf x00 x00 x80 xbf))))
(T (W xba xcc xfe xff x00 x00 x01 x01)
(T (W x50 x00 x00 x00 x44 x00 x00 x00)
(L (W xff xff xff xff xe0 x00 x00 x00))
(L (W x10 x98 xff xff x00 x01 x01 x01)))
(T (W x18 x01 x00 x00 x04 x00 x00 x00)
(L (W x00 x00 x00 x00 x00 x00 x00 x00)) E))))))
(T (W x00 x00 x00 x00 x00 x00 x00 x00)
(T (W x00 x00 x00 x00 x00 x00 x00 x00)
(T (W x45 x26 x22 x84 xe4 x9c xf2 xcb)
(T (W x00 x00 x00 x00 x00 x00 x00 x00)
(T (W x64 x00 x00 x00 x9c x00 x00 x00)
(T (W x00 x00 x80 x3f x00 x00 x80 x3f)
(L (W x10 x24 xfe xff x00 x01 x01 x01))
(L (W x45 x26 x22 x84 xe4 x9c xf2 xcb)))
(T (W x00 x00 x00 x00 x00 x00 x00 x00)
(L (W x00 x00 x80 x3f x00 x00 x80 x3f))
(L (W x00 x00 x80 xbf x00 x00 x80 xbf))))
(T (W x01 x00 x00 x00 x3e x00 x00 x00)
(T (W xff xff xff xff x9c x00 x00 x00)
(L (W x2e x00 x00 x00 x0c x00 x00 x00))
(L (W x45 x26 x22 x84 xe4 x9c xf2 xcb)))
(T (W x45 x26 x22 x84 xe4 x9c xf2 xcb)
(L (W x00 x00 x00 x00 x00 x00 x00 x00))
(L (W xff xff xff xff xac x00 x00 x00)))))
(T (W xff xff xff xff xff xff xff xff)
(T (W x64 x00 x00 x00 x9c x00 x00 x00)
(T (W x00 x00 x00 x00 x00 x00 x00 x00)
(L (W x00 x00 x00 x00 x00 x00 x00 x00))
(L (W x00 x00 x00 x00 x00 x00 x00 x00)))
(T (W xff xff xff xff xbc x00 x00 x00)
(L (W xff xff xff xff xc8 x00 x00 x00))
(L (W x74 x00 x00 x00 x68 x00 x00 x00))))
(T (W x00 x00 x80 x3f x00 x00 x80 x3f)
(T (W x54 x00 x00 x00 x48 x00 x00 x00)
(L (W x03 x00 x00 x00 xbc x00 x00 x00))
(L (W xff xff xff xff xff xff xff xff)))
(T (W x00 x00 x00 x00 x00 x00 x00 x00)
(L (W x45 x26 x22 x84 xe4 x9c xf2 xcb))
(L (W x00 x00 x62 x00 x74 x00 x04 x00))))))
(T (W x00 x00 x00 x00 x00 x00 x00 x00)
(T (W x00 x00 x00 x00 x00 x00 x00 x00)
(T (W xff xff xff xff xff xff xff xff)
(T (W x00 x00 x80 x3f x00 x00 x80 x3f)
(L (W x0a x4c xfe xff x74 x00 x00 x00))
(L (W xff xff xff xff xff xff xff xff)))
(T (W x54 x00 x00 x00 x48 x00 x00 x00)
(L (W x45 x26 x22 x84 xe4 x9c xf2 xcb))
(L (W xc4 x00 x00 x00 x02 x00 x00 x00))))
(T (W x52 xf8 xfc xff x78 x00 x00 x00)
(T (W x00 x00 x00 x00 x00 x00 x00 x00)
(L (W xff xff xff xff xff xff xff xff))
(L (W x00 x00 x80 xbf x00 x00 x80 xbf)))
(T (W x45 x26 x22 x84 xe4 x9c xf2 xcb)
(L (W x0a x0c xff xff x74 x00 x00 x00))
(L (W x45 x26 x22 x84 xe4 x9c xf2 xcb)))))
(T (W xff xff xff xff xff xff xff xff)
(T (W x18 x00 x00 x00 x0c x00 x00 x00)
(T (W x0a x6c xfd xff x74 x00 x00 x00)
(L (W x02 x00 x00 x00 x30 x01 x00 x00))
(L (W x00 x00 x00 x00 x00 x00 x00 x00)))
(T (W x30 x34 x5f x43 x4c x45 x41 x52)
(L (W x00 x00 x00 x00 x00 x00 x00 x00))
(L (W x00 x00 x00 x00 x88 xd5 xff xff))))
(T (W x0a x2c xfd xff x74 x00 x00 x00)
(T (W xff xff xff xff xff xff xff xff)
(L (W x61 x72 x6c x69 x6b x65 x5f x6c))
(L (W x0a xac xff xff x74 x00 x00 x00)))
(T (W x6c x00 x00 x00 x60 x00 x00 x00)
(L (W xff xff xff xff xff xff xff xff)) E)))))
(T (W x00 x00 x00 x00 x00 x00 x00 x00)
(T (W x00 x00 x00 x00 x00 x00 x00 x00)
(T (W x00 x00 x00 x00 x00 x00 x00 x00)
(T (W xff xff xff xff x03 x00 x00 x00)
(T (W x00 x00 x80 x3f x00 x00 x80 x3f)
(L (W x00 x00 x00 x00 x88 x2d xfe xff))
(L (W xff xff xff xff x9c x00 x00 x00)))
(T (W x49 xa1 x68 x4a xeb x5f xdd x3d)
(L (W x54 x00 x00 x00 x48 x00 x00 x00))
(L (W x00 x00 x00 x00 x88 xad xff xff))))
(T (W x68 x00 x00 x00 x5c x00 x00 x00)
(T (W xff xff xff xff xff xff xff xff)
(L (W xff xff xff xff xff xff xff xff))
(L (W x00 x00 x80 xbf x00 x00 x80 xbf)))
(T (W x00 x00 x00 x00 x00 x00 x00 x00)
(L (W x00 x00 x80 xbf x00 x00 x80 xbf))
(L (W x30 x34 x5f x43 x4c x45 x41 x52)))))
(T (W x94 x01 x00 x00 xff xff xff xff)
(T (W x00 x00 x00 x00 x88 xcd xfc xff)
(T (W x00 x00 x80 x3f x00 x00 x80 x3f)
(L (W x01 x00 x00 x00 x9c x00 x00 x00))
(L (W x00 x00 x00 x00 x00 x00 x00 x00)))
(T (W x01 x00 x00 x00 xff xff xff xff)
(L (W xff xff xff xff xff xff xff xff))
(L (W x00 x00 x00 x00 x88 xcd xff xff))))
(T (W x54 x00 x00 x00 x48 x00 x00 x00)
(T (W x18 x00 x00 x00 x10 x00 x00 x00)
(L (W x45 x26 x22 x84 xe4 x9c xf2 xcb))
(L (W xff xff xff xff xff xff xff xff)))
(T (W x00 x00 x00 x00 x00 x00 x10 x00)
(L (W xbc x00 x00 x00 x64 x00 x00 x00)) E))))
(T (W x40 x00 x00 x00 x0c x00 x00 x00)
(T (W x00 x00 x00 x00 x04 x00 x00 x00)
(T (W xff xff xff xff xff xff xff xff)
(T (W x00 x00 x00 x00 x00 x00 x00 x00)
(L (W x64 x00 x08 x00 x0c x00 x00 x00))
(L (W x00 x00 x00 x00 x00 x00 x00 x00)))
(T (W xff xff xff xff xac x00 x00 x00)
(L (W x52 xc0 xfe xff x78 x00 x00 x00))
(L (W xff xff xff xff x94 x00 x00 x00))))
(T (W x00 x00 x80 x3f x00 x00 x80 x3f)
(T (W x00 x00 x00 x00 x00 x00 x00 x00)
(L (W x00 x00 x00 x00 x00 x00 x00 x00))
(L (W x10 x7c xff xff x00 x01 x01 x01)))
(T (W x00 x00 x00 x00 x00 x00 x00 x00)
(L (W x14 x00 x00 x00 x0c x00 x00 x00))
(L (W x00 x00 x80 xbf x00 x00 x80 xbf)))))
(T (W xff xff xff xff xff xff xff xff)
(T (W x40 x00 x00 x00 x9c x00 x00 x00)
(T (W x18 x00 x00 x00 x0c x00 x00 x00)
(L (W x46 x53 x59 x53 x5f x4e x53 x5f))
(L (W x00 x00 x80 xbf x00 x00 x80 xbf)))
(T (W x00 x00 x80 x3f x00 x00 x80 x3f)
(L (W x00 x00 x00 x00 x00 x00 x00 x00))
(L (W x00 x00 x00 x00 x00 x00 x00 x00))))
(T (W x10 x1c xfd xff x00 x01 x01 x01)
(T (W x4c x45 x41 x52 x45 x44 x00 x00)
(L (W x52 xa0 xfe xff x78 x00 x00 x00))
(L (W x50 x00 x00 x00 x44 x00 x00 x00)))
(T (W x00 x00 x80 x3f x00 x00 x80 x3f)
(L (W x0a x34 xff xff x74 x00 x00 x00)) E)))))))))
(T (W x28 x21 x02 x00 xe4 x1e x02 x00)
(T (W x80 x68 x01 x00 x24 x66 x01 x00)
(T (W x08 x36 x00 x00 xbc x33 x00 x00)
(T (W x00 x00 x00 x00 x00 x00 x00 x00)
(T (W x74 x3b x7f xc3 xba xef x85 xe3)
(T (W x00 x00 x00 x00 x00 x00 x00 x00)
(T (W xff xff xff xff xff xff xff xff)
(T (W x00 x00 x80 x3f x00 x00 x80 x3f)
(T (W x00 x00 x00 x00 x00 x00 x00 x00)
(L (W x00 x00 x00 x00 x00 x00 x00 x00))
(L (W x00 x00 x80 xbf x00 x00 x80 xbf)))
(T (W xff xff xff xff xff xff xff xff)
(L (W x54 x00 x00 x00 x48 x00 x00 x00))
(L (W x00 x00 x80 xbf x00 x00 x80 xbf))))
(T (W x45 x26 x22 x84 xe4 x9c xf2 xcb)
(T (W x45 x26 x22 x84 xe4 x9c xf2 xcb)
(L (W xff xff xff xff xff xff xff xff))
(L (W x00 x00 x00 x00 x00 x00 x00 x00)))
(T (W xd2 x0c xfe xff x9c x01 x00 x00)
(L (W x00 x00 x00 x00 xe2 xdf xfe xff))
(L (W x7d x00 x00 x00 xff xff xff xff)))))
(T (W x0a x00 x00 x00 x3e x00 x00 x00)
(T (W x00 x00 x80 x3f x00 x00 x80 x3f)
(T (W x3d x04 xb4 x3d xd8 x38 x58 xd6)
(L (W x00 x00 x00 x00 x02 x00 x00 x00))
(L (W xff xff xff xff xb0 x00 x00 x00)))
(T (W x00 x00 x80 x3f x00 x00 x80 x3f)
(L (W x00 x00 x00 x00 x00 x00 x00 x00))
(L (W x54 x00 x00 x00 x48 x00 x00 x00))))
(T (W x00 x00 x00 x00 x00 x00 x00 x00)
(T (W xff xff xff xff xff xff xff xff)
(L (W x25 x00 x00 x00 x10 x00 x00 x00))
(L (W x00 x00 x00 x00 x00 x00 x00 x00)))
(T (W xff xff xff xff xff xff xff xff)
(L (W x00 x00 x00 x00 x00 x00 x00 x00))
(L (W x30 x34 x5f x43 x4c x45 x41 x52))))))
(T (W xff xff xff xff xff xff xff xff)
(T (W x45 x26 x22 x84 xe4 x9c xf2 xcb)
(T (W x45 x26 x22 x84 xe4 x9c xf2 xcb)
(T (W x00 x00 x00 x00 x00 x00 x00 x00)
(L (W x00 x00 x80 x3f x00 x00 x80 x3f))
(L (W x00 x00 x80 xbf x00 x00 x80 xbf)))
(T (W xea x79 x23 x82 xa4 xd9 x61 xf2)
(L (W x00 x00 x00 x00 x00 x00 x00 x00))
(L (W x00 x00 x80 xbf x00 x00 x80 xbf))))
(T (W x00 x00 x80 x3f x00 x00 x80 x3f)
(T (W x8a x85 xfd xff x74 x00 x00 x00)
(L (W xcc x00 x00 x00 x02 x00 x00 x00))
(L (W x00 x00 x00 x00 x00 x00 x00 x00)))
(T (W x00 x00 x00 x00 x00 x00 x00 x00)
(L (W x00 x00 x00 x00 x00 x00 x00 x00))
(L (W xff xff xff xff xff xff xff xff)))))
(T (W x8a xa5 xfc xff x74 x00 x00 x00)
(T (W x45 x26 x22 x84 xe4 x9c xf2 xcb)
(T (W x00 x00 x00 x00 x00 x00 x00 x00)
(L (W x00 x00 x00 x00 x08 x4f xfe xff))
(L (W x04 x00 x00 x00 x42 x4b xff xff)))
(T (W x45 x26 x22 x84 xe4 x9c xf2 xcb)
(L (W x00 x00 x00 x00 x08 xcf xfe xff))
(L (W x00 x00 x80 xbf x00 x00 x80 xbf))))
(T (W x00 x00 x00 x00 x00 x00 x00 x00)
(T (W x00 x00 x80 x3f x00 x00 x80 x3f)
(L (W x00 x00 x00 x00 xe2 x8f xfe xff))
(L (W x00 x00 x80 xbf x00 x00 x80 xbf)))
(T (W x00 x00 x00 x00 x00 x00 x00 x00)
(L (W x00 x00 x80 xbf x00 x00 x80 xbf)) E)))))
(T (W x3a xea xfd xff x00 x00 x01 x01)
(T (W x20 x01 x00 x00 x04 x00 x00 x00)
(T (W xb8 x00 x00 x00 xac x00 x00 x00)
(T (W x00 x00 x80 x3f x00 x00 x80 x3f)
(T (W x00 x00 x00 x00 x00 x00 x00 x00)
(L (W x00 x00 x00 x00 x00 x00 x00 x00))
(L (W x45 x26 x22 x84 xe4 x9c xf2 xcb)))
(T (W xa5 x01 x00 x00 xff xff xff xff)
(L (W x26 x00 x00 x00 x0c x00 x00 x00))
(L (W x00 x00 x00 x00 x00 x00 x00 x00))))
(T (W x45 x26 x22 x84 xe4 x9c xf2 xcb)
(T (W x00 x00 x80 x3f x00 x00 x80 x3f)
(L (W xff xff xff xff xff xff xff xff))
(L (W x00 x00 x00 x00 xe2 x67 xff xff)))
(T (W x3a x9a xff xff x00 x00 x01 x01)
(L (W x30 x01 x00 x00 x04 x00 x00 x00))
(L (W xff xff xff xff x9c x00 x00 x00)))))
(T (W xc0 x00 x00 x00 xb4 x00 x00 x00)
(T (W x00 x00 x80 x3f x00 x00 x80 x3f)
(T (W xff xff xff xff xff xff xff xff)
(L (W xff xff xff xff xff xff xff xff))
(L (W xff xff xff xff xff xff xff xff)))
(T (W x8a xdd xfd xff x74 x00 x00 x00)
(L (W x00 x00 x80 xbf x00 x00 x80 xbf))
(L (W x00 x00 x80 xbf x00 x00 x80 xbf))))
(T (W x00 x00 x00 x00 x00 x00 x00 x00)
(T (W x00 x00 x00 x00 x00 x00 x00 x00)
(L (W x00 x00 x80 xbf x00 x00 x80 xbf))
(L (W x00 x00 x80 xbf x00 x00 x80 xbf)))
(T (W xff xff xff xff x03 x00 x00 x00)
(L (W x45 x26 x22 x84 xe4 x9c xf2 xcb))
(L (W x00 x00 x00 x00 x00 x00 x00 x00))))))
(T (W xff xff xff xff xff xff xff xff)
(T (W x01 x00 x00 x00 x9c x00 x00 x00)
(T (W x00 x00 x80 x3f x00 x00 x80 x3f)
(T (W x00 x00 x00 x00 x00 x00 x00 x00)
(L (W x00 x00 x00 x00 x00 x00 x00 x00))
(L (W x50 x00 x00 x00 x44 x00 x00 x00)))
(T (W x00 x00 x00 x00 x12 x00 x00 x00)
(L (W x4f x84 x6f x8b xe8 xcb x63 xb7))
(L (W x00 x00 x80 xbf x00 x00 x80 xbf))))
(T (W x00 x00 x00 x00 x00 x00 x00 x00)
(T (W xff xff xff xff xff xff xff xff)
(L (W x45 x26 x22 x84 xe4 x9c xf2 xcb))
(L (W x46 x53 x59 x53 x5f x4e x53 x5f)))
(T (W xb4 x01 x00 x00 xff xff xff xff)
(L (W x00 x00 x00 x00 x00 x00 x00 x00))
(L (W x00 x00 x80 xbf x00 x00 x80 xbf)))))
(T (W x90 x95 xfc xff x00 x01 x01 x01)
(T (W x00 x00 x00 x00 x00 x00 x00 x00)
(T (W x00 x00 x00 x00 x00 x00 x00 x00)
(L (W xb0 x00 x00 x00 x64 x00 x00 x00))
(L (W x00 x00 x00 x00 x00 x00 x00 x00)))
(T (W xff xff xff xff xff xff xff xff)
(L (W xff xff xff xff xff xff xff xff))
(L (W x00 x00 x00 x00 x00 x00 x00 x00))))
(T (W x00 x00 x00 x00 x00 x00 x00 x00)
(T (W x68 x00 x00 x00 x5c x00 x00 x00)
(L (W xb4 x00 x00 x00 x64 x00 x00 x00))
(L (W x49 xa1 x68 x4a xeb x5f xdd x3d)))
(T (W x00 x00 x00 x00 x00 x00 x00 x00)
(L (W x00 x00 x80 xbf x00 x00 x80 xbf)) E))))))
(T (W x50 x00 x00 x00 x44 x00 x00 x00)
(T (W x68 x00 x00 x00 x5c x00 x00 x00)
(T (W x00 x00 x80 x3f x00 x00 x80 x3f)
(T (W x00 x00 x80 x3f x00 x00 x80 x3f)
(T (W x00 x00 x00 x00 x00 x00 x00 x00)
(T (W x45 x26 x22 x84 xe4 x9c xf2 xcb)
(L (W x8a x39 xfe xff x74 x00 x00 x00))
(L (W xff xff xff xff xff xff xff xff)))
(T (W x00 x00 x80 x3f x00 x00 x80 x3f)
(L (W x46 x53 x59 x53 x5f x4e x53 x5f))
(L (W x18 x00 x00 x00 x0c x00 x00 x00))))
(T (W xff xff xff xff xff xff xff xff)
(T (W xff xff xff xff xff xff xff xff)
(L (W x00 x00 x80 xbf x00 x00 x80 xbf))
(L (W x27 x00 x00 x00 x2a x00 x00 x00)))
(T (W x68 x00 x00 x00 x5c x00 x00 x00)
(L (W x00 x00 x80 xbf x00 x00 x80 xbf))
(L (W x00 x00 x80 xbf x00 x00 x80 xbf)))))
(T (W x00 x00 x00 x00 x00 x00 x00 x00)
(T (W xff xff xff xff xff xff xff xff)
(T (W x00 x00 x00 x00 x00 x00 x00 x00)
(L (W x00 x00 x80 x3f x00 x00 x80 x3f))
(L (W x00 x00 x00 x00 x00 x00 x00 x00)))
(T (W xff xff xff xff x01 x00 x00 x00)
(L (W xff xff xff xff xff xff xff xff))
(L (W xff xff xff xff xff xff xff xff))))
(T (W x45 x26 x22 x84 xe4 x9c xf2 xcb)
(T (W x18 x00 x00 x00 x0c x00 x00 x00)
(L (W xff xff xff xff xff xff xff xff))
(L (W xff xff xff xff xff xff xff xff)))
(T (W x45 x26 x22 x84 xe4 x9c xf2 xcb)
(L (W xff xff xff xff xff xff xff xff))
(L (W x00 x00 x2a x00 x58 x00 x44 x00))))))
(T (W x00 x00 x80 x3f x00 x00 x80 x3f)
(T (W x00 x00 x00 x00 x00 x00 x00 x00)
(T (W xff xff xff xff xff xff xff xff)
(T (W x00 x00 x80 x3f x00 x00 x80 x3f)
(L (W xff xff xff xff xff xff xff xff))
(L (W x54 x02 x00 x00 x38 x01 x00 x00)))
(T (W x8a xc9 xfd xff x74 x00 x00 x00)
(L (W xff xff xff xff xff xff xff xff))
(L (W xff xff xff xff xff xff xff xff))))
(T (W x18 x00 x00 x00 x0c x00 x00 x00)
(T (W x00 x00 x00 x00 x00 x00 x00 x00)
(L (W x00 x00 x00 x00 x00 x00 x00 x00))
(L (W xa4 x00 x00 x00 x64 x00 x00 x00)))
(T (W x50 x00 x00 x00 x44 x00 x00 x00)
(L (W xff xff xff xff xac x00 x00 x00))
(L (W xff xff xff xff xff xff xff xff)))))
(T (W xca x44 xfe xff x93 x01 x00 x00)
(T (W xad x01 x00 x00 xff xff xff xff)
(T (W xff xff xff xff x9c x00 x00 x00)
(L (W x00 x00 x00 x00 x00 x00 x00 x00))
(L (W x00 x00 x80 xbf x00 x00 x80 xbf)))
(T (W x00 x00 x00 x00 x00 x00 x00 x00)
(L (W x00 x00 x00 x00 x00 x00 x00 x00))
(L (W x00 x00 x00 x00 x08 xd3 xff xff))))
(T (W xb8 x00 x00 x00 xac x00 x00 x00)
(T (W x80 x03 x00 x00 x54 x02 x00 x00)
(L (W xff xff xff xff xff xff xff xff))
(L (W xff xff xff xff xc8 x00 x00 x00)))
(T (W xff xff xff xff xff xff xff xff)
(L (W xff xff xff xff xff xff xff xff)) E)))))
(T (W x00 x00 x80 x3f x00 x00 x80 x3f)
(T (W x45 x26 x22 x84 xe4 x9c xf2 xcb)
(T (W x00 x00 x00 x00 x00 x00 x00 x00)
(T (W x48 x03 x00 x00 x34 x02 x00 x00)
(T (W x68 x00 x00 x00 x5c x00 x00 x00)
(L (W xff xff xff xff xff xff xff xff))
(L (W xff xff xff xff xff xff xff xff)))
(T (W x6c x00 x00 x00 x60 x00 x00 x00)
(L (W x4f x84 x6f x8b xe8 xcb x63 xb7))
(L (W xff xff xff xff xbc x00 x00 x00))))
(T (W xff xff xff xff x04 x00 x00 x00)
(T (W x02 x00 x00 x00 x30 x01 x00 x00)
(L (W x00 x00 x00 x00 x00 x00 x00 x00))
(L (W x18 x00 x00 x00 x0c x00 x00 x00)))
(T (W x00 x00 x80 x3f x00 x00 x80 x3f)
(L (W x18 x00 x00 x00 x10 x00 x00 x00))
(L (W x00 x00 x80 xbf x00 x00 x80 xbf)))))
(T (W x93 xee xcb x0f xd1 x24 xaa xe4)
(T (W xff xff xff xff xff xff xff xff)
(T (W x03 x00 x00 x00 xcc x00 x00 x00)
(L (W x00 x00 x80 x3f x00 x00 x80 x3f))
(L (W x00 x00 x80 xbf x00 x00 x80 xbf)))
(T (W x13 x00 x00 x00 x10 x00 x00 x00)
(L (W xf7 x0f xb3 x28 xbf xe0 x60 x6a))
(L (W xff xff xff xff xff xff xff xff))))
(T (W x00 x00 x80 x3f x00 x00 x80 x3f)
(T (W xff xff xff xff xff xff xff xff)
(L (W x00 x00 x00 x00 x00 x00 x00 x00))
(L (W xff xff xff xff xff xff xff xff)))
(T (W x00 x00 x00 x00 x00 x00 x00 x00)
(L (W xff xff xff xff xbc x00 x00 x00)) E))))
(T (W x00 x00 x80 x3f x00 x00 x80 x3f)
(T (W x00 x00 x00 x00 x00 x00 x00 x00)
(T (W x87 x03 x00 x00 xff xff xff xff)
(T (W x50 x00 x00 x00 x44 x00 x00 x00)
(L (W xff xff xff xff xff xff xff xff))
(L (W x30 x34 x5f x43 x4c x45 x41 x52)))
(T (W x03 x00 x00 x00 xd0 x00 x00 x00)
(L (W xff xff xff xff xff xff xff xff))
(L (W x00 x00 x00 x00 x82 xc8 xff xff))))
(T (W x8a x11 xfd xff x74 x00 x00 x00)
(T (W x45 x26 x22 x84 xe4 x9c xf2 xcb)
(L (W x45 x26 x22 x84 xe4 x9c xf2 xcb))
(L (W x03 x00 x00 x00 xd0 x00 x00 x00)))
(T (W x45 x26 x22 x84 xe4 x9c xf2 xcb)
(L (W xff xff xff xff xff xff xff xff))
(L (W xe4 x0a x00 x00 x20 x09 x00 x00)))))
(T (W x00 x00 x00 x00 x00 x00 x00 x00)
(T (W xff xff xff xff xff xff xff xff)
(T (W x03 x00 x00 x00 xd8 x00 x00 x00)
(L (W x00 x00 x80 xbf x00 x00 x80 xbf))
(L (W x90 x59 xff xff x00 x01 x01 x01)))
(T (W x00 x00 x80 x3f x00 x00 x80 x3f)
(L (W x45 x26 x22 x84 xe4 x9c xf2 xcb))
(L (W x00 x00 x80 xbf x00 x00 x80 xbf))))
(T (W xff xff xff xff x04 x00 x00 x00)
(T (W x12 x00 x00 x00 x46 x53 x59 x53)
(L (W x90 x99 xfe xff x00 x01 x01 x01))
(L (W x45 x26 x22 x84 xe4 x9c xf2 xcb)))
(T (W x00 x00 x00 x00 x08 x1b xfe xff)
(L (W xff xff xff xff xc8 x00 x00 x00)) E)))))))
(T (W xff xff xff xff xff xff xff xff)
(T (W x00 x00 x80 x3f x00 x00 x80 x3f)
(T (W x00 x00 x00 x00 x00 x00 x00 x00)
(T (W x00 x00 x00 x00 x00 x00 x00 x00)
(T (W x00 x00 x00 x00 x00 x00 x00 x00)
(T (W xff xff xff xff x03 x00 x00 x00)
(T (W x45 x26 x22 x84 xe4 x9c xf2 xcb)
(L (W x00 x00 x80 x3f x00 x00 x80 x3f))
(L (W x45 x26 x22 x84 xe4 x9c xf2 xcb)))
(T (W x7c xfe x79 xbd x74 x65 x83 x83)
(L (W xff xff xff xff xff xff xff xff))
(L (W x54 x00 x00 x00 x48 x00 x00 x00))))
(T (W x00 x00 x80 x3f x00 x00 x80 x3f)
(T (W xd2 x63 xfd xff x78 x00 x00 x00)
(L (W x00 x00 x00 x00 x00 x00 x00 x00))
(L (W x54 x00 x00 x00 x48 x00 x00 x00)))
(T (W x45 x26 x22 x84 xe4 x9c xf2 xcb)
(L (W x00 x00 x00 x00 x00 x00 x00 x00))
(L (W x00 x00 x00 x00 x12 x00 x00 x00)))))
(T (W xff xff xff xff xff xff xff xff)
(T (W x8a xd7 xfc xff x74 x00 x00 x00)
(T (W x8a x57 xfd xff x74 x00 x00 x00)
(L (W x00 x00 x00 x00 x00 x00 x00 x00))
(L (W x00 x00 x01 x01 xb4 x01 x00 x00)))
(T (W x8a xd7 xfd xff x74 x00 x00 x00)
(L (W x45 x26 x22 x84 xe4 x9c xf2 xcb))
(L (W x1c x00 x00 x00 x10 x00 x00 x00))))
(T (W x50 x00 x00 x00 x44 x00 x00 x00)
(T (W x00 x00 x00 x00 x00 x00 x00 x00)
(L (W x00 x00 x80 x3f x00 x00 x80 x3f))
(L (W x18 x00 x00 x00 x10 x00 x00 x00)))
(T (W x00 x00 x00 x00 x00 x00 x00 x00)
(L (W x00 x00 x80 xbf x00 x00 x80 xbf))
(L (W x00 x00 x01 x01 xb4 x01 x00 x00))))))
(T (W x00 x00 x00 x00 x00 x00 x00 x00)
(T (W xb1 x01 x00 x00 xff xff xff xff)
(T (W x18 x00 x00 x00 x0c x00 x00 x00)
(T (W x00 x00 x80 x3f x00 x00 x80 x3f)
(L (W x8a x47 xfe xff x74 x00 x00 x00))
(L (W xc4 x00 x00 x00 x02 x00 x00 x00)))
(T (W x00 x00 x80 x3f x00 x00 x80 x3f)
(L (W x45 x26 x22 x84 xe4 x9c xf2 xcb))
(L (W xd2 xb3 xff xff x78 x00 x00 x00))))
(T (W x00 x00 x80 x3f x00 x00 x80 x3f)
(T (W xff xff xff xff xff xff xff xff)
(L (W xff xff xff xff xff xff xff xff))
(L (W x00 x00 x80 xbf x00 x00 x80 xbf)))
(T (W x45 x26 x22 x84 xe4 x9c xf2 xcb)
(L (W x00 x00 x80 xbf x00 x00 x80 xbf))
(L (W x00 x00 x62 x00 x78 x00 x08 x00)))))
(T (W xff xff xff xff xff xff xff xff)
(T (W x01 x00 x00 x00 xa0 x00 x00 x00)
(T (W x00 x00 x80 x3f x00 x00 x80 x3f)
(L (W x46 x53 x59 x53 x5f x53 x50 x41))
(L (W x00 x00 x00 x00 x00 x00 x00 x00)))
(T (W x00 x00 x00 x00 x00 x00 x00 x00)
(L (W xff xff xff xff xff xff xff xff))
(L (W x00 x00 x00 x00 x68 x00 x6c x00))))
(T (W x00 x00 x80 x3f x00 x00 x80 x3f)
(T (W xc4 x00 x00 x00 x01 x00 x00 x00)
(L (W x00 x00 x80 x3f x00 x00 x80 x3f))
(L (W x6c x00 x00 x00 x60 x00 x00 x00)))
(T (W x68 x00 x00 x00 x5c x00 x00 x00)
(L (W x90 x0f xff xff x00 x01 x01 x01)) E)))))
(T (W x00 x00 x00 x00 x00 x00 x00 x00)
(T (W x00 x00 x00 x00 x00 x00 x00 x00)
(T (W x17 xa5 x37 xaa xb9 xfa x88 x76)
(T (W xff xff xff xff xff xff xff xff)
(T (W x00 x00 x80 x3f x00 x00 x80 x3f)
(L (W x00 x00 x00 x00 x08 x29 xfe xff))
(L (W x50 x00 x00 x00 x44 x00 x00 x00)))
(T (W x00 x00 x00 x00 x00 x00 x00 x00)
(L (W xff xff xff xff xff xff xff xff))
(L (W x6c x00 x00 x00 x60 x00 x00 x00))))
(T (W x00 x00 x80 x3f x00 x00 x80 x3f)
(T (W x03 x00 x00 x00 xd0 x00 x00 x00)
(L (W xff xff xff xff xff xff xff xff))
(L (W x00 x00 x00 x00 x00 x00 x00 x00)))
(T (W x00 x00 x00 x00 x00 x00 x00 x00)
(L (W x00 x00 x00 x00 x00 x00 x00 x00))
(L (W x00 x00 x00 x00 x82 xf6 xff xff)))))
(T (W xff xff xff xff xff xff xff xff)
(T (W x18 x00 x00 x00 x10 x00 x00 x00)
(T (W x00 x00 x00 x00 x00 x00 x00 x00)
(L (W x00 x00 x00 x00 x00 x00 x00 x00))
(L (W x00 x00 x00 x00 x00 x00 x00 x00)))
(T (W xff xff xff xff xff xff xff xff)
(L (W xff xff xff xff xff xff xff xff))
(L (W xac x00 x00 x00 x64 x00 x00 x00))))
(T (W xff xff xff xff x03 x00 x00 x00)
(T (W x00 x00 x80 x3f x00 x00 x80 x3f)
(L (W xff xff xff xff xff xff xff xff))
(L (W x6c x00 x00 x00 x60 x00 x00 x00)))
(T (W x3b x01 x00 x00 xff xff xff xff)
(L (W x6c x00 x00 x00 x60 x00 x00 x00)) E))))
(T (W x00 x00 x00 x00 x00 x00 x00 x00)
(T (W xff xff xff xff xff xff xff xff)
(T (W x8a xcf xfc xff x74 x00 x00 x00)
(T (W x00 x00 x80 x3f x00 x00 x80 x3f)
(L (W x8a x4f xfe xff x74 x00 x00 x00))
(L (W xff xff xff xff xff xff xff xff)))
(T (W x54 x00 x00 x00 x48 x00 x00 x00)
(L (W x6c x00 x00 x00 x60 x00 x00 x00))
(L (W xff xff xff xff x9c x00 x00 x00))))
(T (W x00 x00 x80 x3f x00 x00 x80 x3f)
(T (W x20 x00 x00 x00 x0c x00 x00 x00)
(L (W x04 x00 x00 x00 x6a x78 xfe xff))
(L (W x00 x00 x80 xbf x00 x00 x80 xbf)))
(T (W x00 x00 x00 x00 x00 x00 x00 x00)
(L (W xd2 xfb xfe xff x78 x00 x00 x00))
(L (W x18 x00 x00 x00 x0c x00 x00 x00)))))
(T (W xff xff xff xff xff xff xff xff)
(T (W x8a xef xfc xff x74 x00 x00 x00)
(T (W x6c x00 x00 x00 x60 x00 x00 x00)
(L (W x00 x00 x00 x00 x00 x00 x00 x00))
(L (W x00 x00 x00 x00 x00 x00 x00 x00)))
(T (W x00 x00 x00 x00 x00 x00 x00 x00)
(L (W x00 x00 x00 x00 x00 x00 x00 x00))
(L (W xff xff xff xff xff xff xff xff))))
(T (W x00 x00 x80 x3f x00 x00 x80 x3f)
(T (W xff xff xff xff xff xff xff xff)
(L (W x61 x72 x6c x69 x6b x65 x5f x6f))
(L (W x6c x00 x70 x00 x62 x00 x00 x00)))
(T (W x00 x00 x80 x3f x00 x00 x80 x3f)
(L (W x6c x00 x00 x00 x60 x00 x00 x00)) E))))))
(T (W xb8 x00 x00 x00 xac x00 x00 x00)
(T (W x45 x26 x22 x84 xe4 x9c xf2 xcb)
(T (W xff xff xff xff x04 x00 x00 x00)
(T (W x50 x00 x00 x00 x44 x00 x00 x00)
(T (W x00 x00 x00 x00 x00 x00 x00 x00)
(T (W xff xff xff xff xff xff xff xff)
(L (W x00 x00 x00 x00 x02 x00 x00 x00))
(L (W x00 x00 x00 x00 x00 x00 x00 x00)))
(T (W x00 x00 x00 x00 x08 xa5 xfd xff)
(L (W xff xff xff xff xff xff xff xff))
(L (W xff xff xff xff xff xff xff xff))))
(T (W x3e x00 x00 x00 x10 x00 x00 x00)
(T (W x5f x4e x53 x5f x30 x34 x5f x43)
(L (W x38 x00 x00 x00 x00 x00 x80 xbf))
(L (W xff xff xff xff xff xff xff xff)))
(T (W xff xff xff xff xff xff xff xff)
(L (W xff xff xff xff xb0 x00 x00 x00))
(L (W x58 x00 x00 x00 x00 x00 x5c x00)))))
(T (W x00 x00 x80 x3f x00 x00 x80 x3f)
(T (W x00 x00 x00 x00 x00 x00 x00 x00)
(T (W xb8 x00 x00 x00 xac x00 x00 x00)
(L (W x45 x26 x22 x84 xe4 x9c xf2 xcb))
(L (W x00 x00 x00 x00 x08 x45 xff xff)))
(T (W x00 x00 x00 x00 x00 x00 x00 x00)
(L (W x00 x00 x00 x00 x00 x00 x00 x00))
(L (W x00 x00 x01 x01 x4a x00 x00 x00))))
(T (W xff xff xff xff xff xff xff xff)
(T (W xff xff xff xff xff xff xff xff)
(L (W x00 x00 x00 x00 x00 x00 x00 x00))
(L (W x00 x00 x00 x00 x00 x00 x00 x00)))
(T (W x50 x00 x00 x00 x44 x00 x00 x00)
(L (W x00 x00 x00 x00 x00 x00 x00 x00))
(L (W x00 x00 x80 xbf x00 x00 x80 xbf))))))
(T (W x68 x00 x00 x00 x5c x00 x00 x00)
(T (W x8a x8b xfc xff x74 x00 x00 x00)
(T (W x00 x00 x00 x00 x00 x00 x00 x00)
(T (W xff xff xff xff xff xff xff xff)
(L (W x18 x01 x00 x00 x04 x00 x00 x00))
(L (W x45 x26 x22 x84 xe4 x9c xf2 xcb)))
(T (W xff xff xff xff xff xff xff xff)
(L (W x45 x44 x00 x00 x00 x00 x00 x00))
(L (W x00 x00 x00 x00 x00 x00 x00 x00))))
(T (W x1c x01 x00 x00 x04 x00 x00 x00)
(T (W x00 x00 x80 x3f x00 x00 x80 x3f)
(L (W x00 x00 x00 x00 x00 x00 x00 x00))
(L (W xff xff xff xff xff xff xff xff)))
(T (W xff xff xff xff x03 x00 x00 x00)
(L (W x04 x00 x00 x00 x42 x10 xff xff))
(L (W x00 x00 x00 x00 x00 x00 x00 x00)))))
(T (W x00 x00 x00 x00 x00 x00 x00 x00)
(T (W x00 x00 x00 x00 x00 x00 x00 x00)
(T (W x00 x00 x00 x00 x00 x00 x00 x00)
(L (W x00 x00 x80 xbf x00 x00 x80 xbf))
(L (W x18 x00 x00 x00 x10 x00 x00 x00)))
(T (W x6c x00 x00 x00 x60 x00 x00 x00)
(L (W x45 x26 x22 x84 xe4 x9c xf2 xcb))
(L (W x00 x00 x00 x00 x00 x00 x00 x00))))
(T (W x00 x00 x00 x00 x00 x00 x00 x00)
(T (W x00 x00 x80 x3f x00 x00 x80 x3f)
(L (W x45 x26 x22 x84 xe4 x9c xf2 xcb))
(L (W x00 x00 x00 x00 xe2 x95 xff xff)))
(T (W x00 x00 x01 x01 xd7 x00 x00 x00)
(L (W xd4 x1e xff xff x12 x00 x00 x00)) E)))))
(T (W xb8 x00 x00 x00 xac x00 x00 x00)
(T (W x45 x26 x22 x84 xe4 x9c xf2 xcb)
(T (W x68 x00 x00 x00 x5c x00 x00 x00)
(T (W x00 x00 x00 x00 x00 x00 x00 x00)
(T (W xff xff xff xff xff xff xff xff)
(L (W x00 x00 x00 x00 x00 x00 x00 x00))
(L (W x46 x53 x59 x53 x5f x4e x53 x5f)))
(T (W xff xff xff xff xff xff xff xff)
(L (W xff xff xff xff xff xff xff xff))
(L (W x00 x00 x00 x00 x00 x00 x00 x00))))
(T (W x00 x00 x00 x00 xda xac xff xff)
(T (W x00 x00 x00 x00 x00 x00 x00 x00)
(L (W x00 x00 x80 xbf x00 x00 x80 xbf))
(L (W xff xff xff xff xff xff xff xff)))
(T (W x8a x03 xfe xff x74 x00 x00 x00)
(L (W xff xff xff xff xff xff xff xff))
(L (W x00 x01 x01 x01 x4a xe8 xff xff)))))
(T (W x45 x26 x22 x84 xe4 x9c xf2 xcb)
(T (W x00 x00 x00 x00 x00 x00 x00 x00)
(T (W xff xff xff xff xff xff xff xff)
(L (W x54 x00 x00 x00 x58 x00 x00 x00))
(L (W x18 x00 x00 x00 x0c x00 x00 x00)))
(T (W x00 x00 x80 x3f x00 x00 x80 x3f)
(L (W x45 x26 x22 x84 xe4 x9c xf2 xcb))
(L (W x00 x00 x00 x00 x00 x00 x00 x00))))
(T (W xff xff xff xff x01 x00 x00 x00)
(T (W x30 x34 x5f x43 x4c x45 x41 x52)
(L (W xff xff xff xff xc8 x00 x00 x00))
(L (W xd4 x96 xff xff x12 x00 x00 x00)))
(T (W x45 x26 x22 x84 xe4 x9c xf2 xcb)
(L (W x00 x00 x00 x00 x12 x00 x00 x00)) E))))
(T (W x00 x00 x80 x3f x00 x00 x80 x3f)
(T (W x00 x00 x80 x3f x00 x00 x80 x3f)
(T (W x00 x00 x00 x00 x00 x00 x00 x00)
(T (W xb8 x00 x00 x00 xac x00 x00 x00)
(L (W x00 x00 x80 x3f x00 x00 x80 x3f))
(L (W x00 x00 x80 xbf x00 x00 x80 xbf)))
(T (W x00 x00 x00 x00 x04 x00 x00 x00)
(L (W x00 x00 x00 x00 x6a xbc xfe xff))
(L (W x46 x53 x59 x53 x5f x4e x53 x5f))))
(T (W xff xff xff xff xff xff xff xff)
(T (W x45 x26 x22 x84 xe4 x9c xf2 xcb)
(L (W xb0 x00 x00 x00 x64 x00 x00 x00))
(L (W x02 x00 x00 x00 x30 x01 x00 x00)))
(T (W x68 x00 x00 x00 x5c x00 x00 x00)
(L (W x30 x34 x5f x43 x4c x45 x41 x52))
(L (W xe4 x00 x00 x00 x0a x00 x00 x00)))))
(T (W x00 x00 x00 x00 x00 x00 x00 x00)
(T (W x00 x00 x00 x00 x00 x00 x00 x00)
(T (W x3a x00 x00 x00 x0c x00 x00 x00)
(L (W xd2 x5f xfe xff x78 x00 x00 x00))
(L (W xff xff xff xff xff xff xff xff)))
(T (W xff xff xff xff xff xff xff xff)
(L (W x8a xf3 xfe xff x74 x00 x00 x00))
(L (W x45 x26 x22 x84 xe4 x9c xf2 xcb))))
(T (W x20 x01 x00 x00 x04 x00 x00 x00)
(T (W x68 x00 x00 x00 x5c x00 x00 x00)
(L (W x00 x00 x01 x01 x9b x01 x00 x00))
(L (W xc1 x01 x00 x00 xff xff xff xff)))
(T (W xff xff xff xff xff xff xff xff)
(L (W x00 x00 x00 x00 xe2 x1d xff xff)) E))))))))
(T (W x98 xc8 x00 x00 x64 xc7 x00 x00)
(T (W x90 x22 xfc xff x00 x01 x01 x01)
(T (W x00 x00 x00 x00 x00 x00 x00 x00)
(T (W x00 x00 x00 x00 x00 x00 x00 x00)
(T (W x00 x00 x00 x00 x00 x00 x00 x00)
(T (W x3a x13 xfe xff x00 x00 x01 x01)
(T (W x01 x00 x00 x00 xa0 x00 x00 x00)
(T (W x00 x00 x00 x00 x00 x00 x00 x00)
(L (W x00 x00 x00 x00 x00 x00 x00 x00))
(L (W x6c x00 x00 x00 x60 x00 x00 x00)))
(T (W xff xff xff xff xff xff xff xff)
(L (W xff xff xff xff xff xff xff xff))
(L (W x00 x00 x80 xbf x00 x00 x80 xbf))))
(T (W x45 x26 x22 x84 xe4 x9c xf2 xcb)
(T (W x54 x00 x00 x00 x48 x00 x00 x00)
(L (W x45 x44 x00 x00 x00 x00 x00 x00))
(L (W x00 x00 x80 xbf x00 x00 x80 xbf)))
(T (W x00 x00 x00 x00 x00 x00 x00 x00)
(L (W x00 x00 x00 x00 x00 x00 x00 x00))
(L (W x00 x00 x00 x00 x00 x00 x00 x00)))))
(T (W xff xff xff xff xff xff xff xff)
(T (W x54 x00 x00 x00 x48 x00 x00 x00)
(T (W x00 x00 x00 x00 x00 x00 x00 x00)
(L (W x00 x00 x00 x00 x00 x00 x00 x00))
(L (W xff xff xff xff xff xff xff xff)))
(T (W x00 x00 x80 x3f x00 x00 x80 x3f)
(L (W x00 x00 x80 xbf x00 x00 x80 xbf))
(L (W x45 x26 x22 x84 xe4 x9c xf2 xcb))))
(T (W x00 x00 x00 x00 x00 x00 x00 x00)
(T (W xd4 x89 xfd xff x27 x00 x00 x00)
(L (W x00 x00 x00 x00 x00 x00 x00 x00))
(L (W x54 x00 x00 x00 x48 x00 x00 x00)))
(T (W x94 x01 x00 x00 xff xff xff xff)
(L (W x00 x00 x80 xbf x00 x00 x80 xbf))
(L (W x04 x00 x00 x00 x02 xfd xff xff))))))
(T (W x88 x85 x34 xcf x05 x41 x71 x85)
(T (W xff xff xff xff xff xff xff xff)
(T (W x00 x00 x80 x3f x00 x00 x80 x3f)
(T (W x45 x26 x22 x84 xe4 x9c xf2 xcb)
(L (W x00 x00 x80 x3f x00 x00 x80 x3f))
(L (W x45 x26 x22 x84 xe4 x9c xf2 xcb)))
(T (W x00 x00 x00 x00 x00 x00 x00 x00)
(L (W x00 x00 x80 x3f x00 x00 x80 x3f))
(L (W x00 x00 x80 xbf x00 x00 x80 xbf))))
(T (W x00 x00 x80 x3f x00 x00 x80 x3f)
(T (W xff xff xff xff xff xff xff xff)
(L (W xff xff xff xff xff xff xff xff))
(L (W x00 x00 x00 x00 x00 x00 x00 x00)))
(T (W x00 x00 x00 x00 x00 x00 x00 x00)
(L (W x00 x00 x80 xbf x00 x00 x80 xbf))
(L (W x2a x00 x00 x00 xff xff xff xff)))))
(T (W xff xff xff xff xff xff xff xff)
(T (W x00 x00 x80 x3f x00 x00 x80 x3f)
(T (W x00 x00 x80 x3f x00 x00 x80 x3f)
(L (W x00 x01 x01 x01 x01 x01 x01 x01))
(L (W x46 x53 x59 x53 x5f x4e x53 x5f)))
(T (W xff xff xff xff xff xff xff xff)
(L (W xff xff xff xff xff xff xff xff))
(L (W x00 x00 x80 xbf x00 x00 x80 xbf))))
(T (W x45 x26 x22 x84 xe4 x9c xf2 xcb)
(T (W x50 x00 x00 x00 x44 x00 x00 x00)
(L (W x00 x00 x00 x00 x00 x00 x00 x00))
(L (W x3c x00 x00 x00 x00 x00 x80 xbf)))
(T (W x00 x00 x80 x3f x00 x00 x80 x3f)
(L (W x00 x00 x80 xbf x00 x00 x80 xbf)) E)))))
(T (W x00 x00 x00 x00 x00 x00 x00 x00)
(T (W x00 x00 x00 x00 x00 x00 x00 x00)
(T (W xff xff xff xff xff xff xff xff)
(T (W x8a xbe xfc xff x74 x00 x00 x00)
(T (W x45 x26 x22 x84 xe4 x9c xf2 xcb)
(L (W x8a x3e xfe xff x74 x00 x00 x00))
(L (W x00 x00 x80 xbf x00 x00 x80 xbf)))
(T (W x00 x00 x00 x00 x00 x00 x00 x00)
(L (W x00 x00 x80 x3f x00 x00 x80 x3f))
(L (W x00 x00 x80 xbf x00 x00 x80 xbf))))
(T (W x00 x00 x80 x3f x00 x00 x80 x3f)
(T (W x68 x00 x00 x00 x5c x00 x00 x00)
(L (W xff xff xff xff xff xff xff xff))
(L (W x00 x00 x00 x00 x00 x00 x00 x00)))
(T (W x00 x00 x00 x00 x00 x00 x00 x00)
(L (W x12 x00 x00 x00 x46 x53 x59 x53))
(L (W xff xff xff xff xff xff xff xff)))))
(T (W xff xff xff xff xff xff xff xff)
(T (W x90 xc6 xfc xff x00 x01 x01 x01)
(T (W x65 x5f x73 x6b x79 x00 x00 x00)
(L (W x00 x00 x00 x00 x02 x00 x00 x00))
(L (W x54 x02 x00 x00 x38 x01 x00 x00)))
(T (W x2b x00 x00 x00 x2e x00 x00 x00)
(L (W x8a xde xfe xff x74 x00 x00 x00))
(L (W x45 x26 x22 x84 xe4 x9c xf2 xcb))))
(T (W x00 x00 x80 x3f x00 x00 x80 x3f)
(T (W x00 x00 x80 x3f x00 x00 x80 x3f)
(L (W xff xff xff xff x9c x00 x00 x00))
(L (W x00 x00 x80 xbf x00 x00 x80 xbf)))
(T (W xff xff xff xff xff xff xff xff)
(L (W x00 x00 x80 xbf x00 x00 x80 xbf)) E))))
(T (W xbc x01 x00 x00 xff xff xff xff)
(T (W xb8 x00 x00 x00 xac x00 x00 x00)
(T (W x00 x00 x80 x3f x00 x00 x80 x3f)
(T (W x00 x00 x00 x00 x00 x00 x00 x00)
(L (W x68 x00 x00 x00 x5c x00 x00 x00))
(L (W x03 x00 x00 x00 xd8 x00 x00 x00)))
(T (W x00 x00 x00 x00 x00 x00 x00 x00)
(L (W x00 x00 x80 x3f x00 x00 x80 x3f))
(L (W xd2 xba xff xff x78 x00 x00 x00))))
(T (W x00 x00 x80 x3f x00 x00 x80 x3f)
(T (W xff xff xff xff xff xff xff xff)
(L (W xff xff xff xff xff xff xff xff))
(L (W x00 x00 x00 x00 x00 x00 x00 x00)))
(T (W x00 x00 x00 x00 x00 x00 x00 x00)
(L (W x00 x00 x80 xbf x00 x00 x80 xbf))
(L (W xd2 xfa xff xff x78 x00 x00 x00)))))
(T (W x18 x00 x00 x00 x10 x00 x00 x00)
(T (W x00 x00 x80 x3f x00 x00 x80 x3f)
(T (W x45 x26 x22 x84 xe4 x9c xf2 xcb)
(L (W xff xff xff xff xff xff xff xff))
(L (W x00 x00 x00 x00 x00 x00 x00 x00)))
(T (W xd6 x00 x00 x00 xff xff xff xff)
(L (W x5c x00 x00 x00 xff xff xff xff))
(L (W x00 x00 x80 xbf x00 x00 x80 xbf))))
(T (W x00 x00 x00 x00 x00 x00 x00 x00)
(T (W xff xff xff xff xff xff xff xff)
(L (W xff xff xff xff xff xff xff xff))
(L (W x00 x00 x80 xbf x00 x00 x80 xbf)))
(T (W x00 x00 x80 x3f x00 x00 x80 x3f)
(L (W x3c x00 x00 x00 x00 x00 x80 xbf)) E))))))
(T (W x68 x00 x00 x00 x5c x00 x00 x00)
(T (W x90 x32 xfc xff x00 x01 x01 x01)
(T (W x68 x00 x00 x00 x5c x00 x00 x00)
(T (W x00 x00 x80 x3f x00 x00 x80 x3f)
(T (W x00 x00 x00 x00 x00 x00 x00 x00)
(T (W xff xff xff xff xff xff xff xff)
(L (W x00 x00 x00 x00 x08 x24 xfe xff))
(L (W x5c x00 x00 x00 xff xff xff xff)))
(T (W x00 x00 x80 x3f x00 x00 x80 x3f)
(L (W x54 x00 x00 x00 x48 x00 x00 x00))
(L (W xff xff xff xff xff xff xff xff))))
(T (W xff xff xff xff xff xff xff xff)
(T (W x04 x00 x00 x00 x6a x63 xfd xff)
(L (W x00 x00 x80 xbf x00 x00 x80 xbf))
(L (W x03 x00 x00 x00 xc8 x00 x00 x00)))
(T (W x8a xfa xfd xff x74 x00 x00 x00)
(L (W xd2 xe6 xfe xff x78 x00 x00 x00))
(L (W x8a xfa xff xff x74 x00 x00 x00)))))
(T (W x00 x00 x00 x00 x00 x00 x00 x00)
(T (W xca x75 xfe xff xd6 x00 x00 x00)
(T (W x18 x00 x00 x00 x10 x00 x00 x00)
(L (W x90 x42 xfe xff x00 x01 x01 x01))
(L (W x00 x00 x80 xbf x00 x00 x80 xbf)))
(T (W x00 x00 x00 x00 x00 x00 x00 x00)
(L (W x54 x02 x00 x00 x38 x01 x00 x00))
(L (W xff xff xff xff xff xff xff xff))))
(T (W x18 x00 x00 x00 x10 x00 x00 x00)
(T (W xff xff xff xff xff xff xff xff)
(L (W x00 x00 x01 x01 xdc x01 x00 x00))
(L (W x08 x00 x00 x00 xe8 x07 x00 x00)))
(T (W x45 x26 x22 x84 xe4 x9c xf2 xcb)
(L (W x5d x00 x00 x00 xff xff xff xff))
(L (W x58 x00 x5c x00 x60 x00 x64 x00))))))
(T (W x00 x00 x80 x3f x00 x00 x80 x3f)
(T (W x45 x26 x22 x84 xe4 x9c xf2 xcb)
(T (W x1d x00 x00 x00 x10 x00 x00 x00)
(T (W x45 x26 x22 x84 xe4 x9c xf2 xcb)
(L (W xff xff xff xff xff xff xff xff))
(L (W x00 x00 x00 x00 x00 x00 x00 x00)))
(T (W xff xff xff xff xff xff xff xff)
(L (W xff xff xff xff xff xff xff xff))
(L (W x00 x00 x00 x00 x00 x00 x00 x00))))
(T (W xff xff xff xff xff xff xff xff)
(T (W x45 x26 x22 x84 xe4 x9c xf2 xcb)
(L (W x00 x00 x00 x00 x00 x00 x00 x00))
(L (W x03 x00 x00 x00 xd0 x00 x00 x00)))
(T (W x68 x00 x00 x00 x5c x00 x00 x00)
(L (W xff xff xff xff xff xff xff xff))
(L (W xff xff xff xff xff xff xff xff)))))
(T (W x00 x00 x00 x00 x00 x00 x00 x00)
(T (W x00 x00 x00 x00 x00 x00 x00 x00)
(T (W xff xff xff xff xff xff xff xff)
(L (W x4f x84 x6f x8b xe8 xcb x63 xb7))
(L (W x6c x00 x00 x00 x60 x00 x00 x00)))
(T (W x00 x00 x80 x3f x00 x00 x80 x3f)
(L (W x45 x26 x22 x84 xe4 x9c xf2 xcb))
(L (W xff xff xff xff xff xff xff xff))))
(T (W xff xff xff xff xff xff xff xff)
(T (W x00 x00 x00 x00 x00 x00 x00 x00)
(L (W x61 x72 x6c x69 x6b x65 x5f x6f))
(L (W xff xff xff xff xff xff xff xff)))
(T (W xff xff xff xff xff xff xff xff)
(L (W xff xff xff xff xff xff xff xff)) E)))))
(T (W x18 x00 x00 x00 x0c x00 x00 x00)
(T (W x00 x00 x80 x3f x00 x00 x80 x3f)
(T (W x00 x00 x80 x3f x00 x00 x80 x3f)
(T (W x00 x00 x00 x00 x00 x00 x00 x00)
(T (W xb8 x00 x00 x00 xac x00 x00 x00)
(L (W x18 x01 x00 x00 x04 x00 x00 x00))
(L (W x04 x00 x00 x00 x6a x2b xff xff)))
(T (W xff xff xff xff xa0 x00 x00 x00)
(L (W xff xff xff xff xa0 x00 x00 x00))
(L (W xff xff xff xff xff xff xff xff))))
(T (W xff xff xff xff xff xff xff xff)
(T (W x00 x00 x00 x00 x12 x00 x00 x00)
(L (W x00 x00 x00 x00 x00 x00 x00 x00))
(L (W xff xff xff xff xff xff xff xff)))
(T (W x68 x00 x00 x00 x5c x00 x00 x00)
(L (W x03 x00 x00 x00 xd0 x00 x00 x00))
(L (W x54 x00 x00 x00 x48 x00 x00 x00)))))
(T (W x00 x00 x00 x00 x00 x00 x00 x00)
(T (W x00 x00 x00 x00 x00 x00 x00 x00)
(T (W xff xff xff xff xff xff xff xff)
(L (W x00 x00 x80 x3f x00 x00 x80 x3f))
(L (W xd2 x4e xff xff x78 x00 x00 x00)))
(T (W x4f x84 x6f x8b xe8 xcb x63 xb7)
(L (W x00 x00 x00 x00 x00 x00 x00 x00))
(L (W xff xff xff xff xff xff xff xff))))
(T (W xff xff xff xff xff xff xff xff)
(T (W x00 x00 x01 x01 xb4 x01 x00 x00)
(L (W x45 x26 x22 x84 xe4 x9c xf2 xcb))
(L (W xff xff xff xff xff xff xff xff)))
(T (W x45 x26 x22 x84 xe4 x9c xf2 xcb)
(L (W x04 x00 x00 x00 xe2 x10 xff xff)) E))))
(T (W x00 x00 x80 x3f x00 x00 x80 x3f)
(T (W x00 x00 x80 x3f x00 x00 x80 x3f)
(T (W x00 x00 x00 x00 x00 x00 x00 x00)
(T (W x68 x00 x00 x00 x5c x00 x00 x00)
(L (W x00 x00 x62 x00 x74 x00 x08 x00))
(L (W x00 x00 x00 x00 x00 x00 x00 x00)))
(T (W xff xff xff xff xff xff xff xff)
(L (W xff xff xff xff xff xff xff xff))
(L (W x00 x00 x00 x00 x02 xcb xff xff))))
(T (W xff xff xff xff x04 x00 x00 x00)
(T (W x54 x00 x00 x00 x48 x00 x00 x00)
(L (W x50 x00 x00 x00 x44 x00 x00 x00))
(L (W xff xff xff xff xff xff xff xff)))
(T (W x50 x00 x00 x00 x44 x00 x00 x00)
(L (W x04 x00 x00 x00 x02 x0b xff xff))
(L (W x90 xfa xff xff x00 x01 x01 x01)))))
(T (W x00 x00 x00 x00 x00 x00 x00 x00)
(T (W x48 x03 x00 x00 x34 x02 x00 x00)
(T (W xff xff xff xff xff xff xff xff)
(L (W x00 x00 x80 x3f x00 x00 x80 x3f))
(L (W xbc x00 x00 x00 x64 x00 x00 x00)))
(T (W x18 x00 x00 x00 x0c x00 x00 x00)
(L (W x00 x00 x80 xbf x00 x00 x80 xbf))
(L (W x00 x00 x80 xbf x00 x00 x80 xbf))))
(T (W xff xff xff xff xff xff xff xff)
(T (W x00 x00 x00 x00 x00 x00 x00 x00)
(L (W xb0 x00 x00 x00 x64 x00 x00 x00))
(L (W xff xff xff xff xff xff xff xff)))
(T (W xff xff xff xff xff xff xff xff)
(L (W xff xff xff xff xff xff xff xff)) E)))))))
(T (W xff xff xff xff x01 x00 x00 x00)
(T (W x00 x00 x80 x3f x00 x00 x80 x3f)
(T (W x00 x00 x80 x3f x00 x00 x80 x3f)
(T (W x00 x00 x00 x00 x00 x00 x00 x00)
(T (W x00 x00 x00 x00 x00 x00 x00 x00)
(T (W x64 x01 x00 x00 xff xff xff xff)
(T (W x00 x00 x80 x3f x00 x00 x80 x3f)
(L (W x00 x00 x80 x3f x00 x00 x80 x3f))
(L (W xff xff xff xff xc8 x00 x00 x00)))
(T (W x00 x00 x00 x00 x00 x00 x00 x00)
(L (W x00 x00 x01 x01 x99 x01 x00 x00))
(L (W x04 xa2 xff xff x4a x9d xff xff))))
(T (W x18 x00 x00 x00 x0c x00 x00 x00)
(T (W xff xff xff xff xb0 x00 x00 x00)
(L (W x00 x00 x00 x00 x00 x00 x00 x00))
(L (W x00 x00 x00 x00 x94 x60 xff xff)))
(T (W x00 x00 x80 x3f x00 x00 x80 x3f)
(L (W x45 x26 x22 x84 xe4 x9c xf2 xcb))
(L (W x00 x00 x00 x00 x00 x00 x00 x00)))))
(T (W x95 x01 x00 x00 xff xff xff xff)
(T (W xff xff xff xff x04 x00 x00 x00)
(T (W x54 x00 x00 x00 x58 x00 x5c x00)
(L (W x00 x00 x80 x3f x00 x00 x80 x3f))
(L (W x30 x34 x5f x43 x4c x45 x41 x52)))
(T (W xff xff xff xff xff xff xff xff)
(L (W xc4 x00 x00 x00 x01 x00 x00 x00))
(L (W xff xff xff xff xb0 x00 x00 x00))))
(T (W x8a x18 xfd xff x74 x00 x00 x00)
(T (W x00 x00 x80 x3f x00 x00 x80 x3f)
(L (W x7c xf7 xff xff x01 x01 x01 x01))
(L (W x03 x00 x00 x00 xd0 x00 x00 x00)))
(T (W x00 x00 x00 x00 x00 x00 x00 x00)
(L (W x68 x00 x00 x00 x5c x00 x00 x00))
(L (W x46 x53 x59 x53 x5f x4e x53 x5f))))))
(T (W x45 x26 x22 x84 xe4 x9c xf2 xcb)
(T (W x00 x00 x00 x00 x00 x00 x00 x00)
(T (W xff xff xff xff xff xff xff xff)
(T (W x00 x00 x80 x3f x00 x00 x80 x3f)
(L (W x00 x00 x00 x00 x08 x32 xfe xff))
(L (W xff xff xff xff xff xff xff xff)))
(T (W x00 x00 x80 x3f x00 x00 x80 x3f)
(L (W xcc x00 x00 x00 x01 x00 x00 x00))
(L (W xff xff xff xff x9c x00 x00 x00))))
(T (W x00 x00 x80 x3f x00 x00 x80 x3f)
(T (W x39 x34 xa4 xf1 x93 x26 x82 x3c)
(L (W x00 x00 x00 x00 x00 x00 x00 x00))
(L (W x45 x26 x22 x84 xe4 x9c xf2 xcb)))
(T (W x45 x26 x22 x84 xe4 x9c xf2 xcb)
(L (W x8a x08 xff xff x74 x00 x00 x00))
(L (W x00 x00 x80 xbf x00 x00 x80 xbf)))))
(T (W xff xff xff xff xff xff xff xff)
(T (W xff xff xff xff x03 x00 x00 x00)
(T (W x8a x68 xfd xff x74 x00 x00 x00)
(L (W x7f x00 x00 x00 x7f x00 x00 x00))
(L (W x49 xa1 x68 x4a xeb x5f xdd x3d)))
(T (W x00 x00 x00 x00 x00 x00 x00 x00)
(L (W x38 x00 x00 x00 x0c x00 x00 x00))
(L (W x12 x00 x00 x00 x46 x53 x59 x53))))
(T (W x18 x00 x00 x00 x0c x00 x00 x00)
(T (W xff xff xff xff xff xff xff xff)
(L (W x54 x00 x00 x00 x48 x00 x00 x00))
(L (W x45 x26 x22 x84 xe4 x9c xf2 xcb)))
(T (W x8a x28 xfe xff x74 x00 x00 x00)
(L (W xbc x00 x00 x00 x64 x00 x00 x00)) E)))))
(T (W x45 x26 x22 x84 xe4 x9c xf2 xcb)
(T (W x00 x00 x00 x00 x00 x00 x00 x00)
(T (W x00 x00 x00 x00 x00 x00 x00 x00)
(T (W xff xff xff xff xff xff xff xff)
(T (W x00 x00 x80 x3f x00 x00 x80 x3f)
(L (W xff xff xff xff xff xff xff xff))
(L (W xc4 x00 x00 x00 x01 x00 x00 x00)))
(T (W x45 x26 x22 x84 xe4 x9c xf2 xcb)
(L (W x6c x76 x32 x00 x22 x00 x00 x00))
(L (W x45 x26 x22 x84 xe4 x9c xf2 xcb))))
(T (W x8a x00 xfd xff x74 x00 x00 x00)
(T (W xff xff xff xff xff xff xff xff)
(L (W x26 x00 x00 x00 x0c x00 x00 x00))
(L (W x00 x00 x80 xbf x00 x00 x80 xbf)))
(T (W x45 x26 x22 x84 xe4 x9c xf2 xcb)
(L (W x54 x00 x00 x00 x48 x00 x00 x00))
(L (W x00 x00 x00 x00 x00 x00 x00 x00)))))
(T (W xff xff xff xff xff xff xff xff)
(T (W xff xff xff xff xff xff xff xff)
(T (W x00 x00 x80 x3f x00 x00 x80 x3f)
(L (W x00 x00 x00 x00 x00 x00 x00 x00))
(L (W x45 x26 x22 x84 xe4 x9c xf2 xcb)))
(T (W xff xff xff xff xff xff xff xff)
(L (W xff xff xff xff xff xff xff xff))
(L (W xff xff xff xff xff xff xff xff))))
(T (W x74 x00 x0c x00 x10 x00 x00 x00)
(T (W xff xff xff xff xb0 x00 x00 x00)
(L (W x00 x00 x00 x00 x01 x00 x00 x00))
(L (W xff xff xff xff xa0 x00 x00 x00)))
(T (W x00 x00 x00 x00 x00 x00 x00 x00)
(L (W x45 x26 x22 x84 xe4 x9c xf2 xcb)) E))))
(T (W x45 x26 x22 x84 xe4 x9c xf2 xcb)
(T (W x20 x22 x40 xf1 x12 x31 x29 x1f)
(T (W xff xff xff xff xff xff xff xff)
(T (W x00 x00 x80 x3f x00 x00 x80 x3f)
(L (W xff xff xff xff xff xff xff xff))
(L (W x00 x00 x01 x01 xb4 x01 x00 x00)))
(T (W x18 x00 x00 x00 x10 x00 x00 x00)
(L (W xff xff xff xff xa0 x00 x00 x00))
(L (W xff xff xff xff xff xff xff xff))))
(T (W x68 x00 x00 x00 x5c x00 x00 x00)
(T (W x00 x00 x00 x00 x00 x00 x00 x00)
(L (W x00 x00 x00 x00 x00 x00 x00 x00))
(L (W x68 x00 x00 x00 x5c x00 x00 x00)))
(T (W x45 x26 x22 x84 xe4 x9c xf2 xcb)
(L (W x18 x00 x00 x00 x0c x00 x00 x00))
(L (W xff xff xff xff xff xff xff xff)))))
(T (W xff xff xff xff xff xff xff xff)
(T (W xff xff xff xff xff xff xff xff)
(T (W x18 x00 x00 x00 x10 x00 x00 x00)
(L (W x00 x00 x00 x00 x00 x00 x00 x00))
(L (W x00 x00 x80 xbf x00 x00 x80 xbf)))
(T (W x00 x00 x00 x00 x00 x00 x00 x00)
(L (W x00 x00 x00 x00 x00 x00 x00 x00))
(L (W x00 x00 x00 x00 x1c x00 x20 x00))))
(T (W x68 x00 x00 x00 x5c x00 x00 x00)
(T (W x00 x00 x00 x00 x00 x00 x00 x00)
(L (W x45 x26 x22 x84 xe4 x9c xf2 xcb))
(L (W x12 x00 x00 x00 x46 x53 x59 x53)))
(T (W x8a x30 xfe xff x74 x00 x00 x00)
(L (W x45 x26 x22 x84 xe4 x9c xf2 xcb)) E))))))
(T (W xff xff xff xff xff xff xff xff)
(T (W xff xff xff xff xff xff xff xff)
(T (W xff xff xff xff xff xff xff xff)
(T (W x68 x00 x00 x00 x5c x00 x00 x00)
(T (W x00 x00 x00 x00 x00 x00 x00 x00)
(T (W xa0 x75 xb7 x5e x0b x75 x51 x8e)
(L (W x00 x00 x00 x00 x00 x00 x00 x00))
(L (W x00 x00 x00 x00 x00 x00 x00 x00)))
(T (W xff xff xff xff xff xff xff xff)
(L (W xff xff xff xff xff xff xff xff))
(L (W x00 x00 x00 x00 x00 x00 x00 x00))))
(T (W x00 x00 x00 x00 x00 x00 x00 x00)
(T (W x00 x00 x00 x00 x00 x00 x00 x00)
(L (W xff xff xff xff xa8 x00 x00 x00))
(L (W xff xff xff xff xff xff xff xff)))
(T (W xff xff xff xff xff xff xff xff)
(L (W xff xff xff xff xff xff xff xff))
(L (W x00 x00 x00 x00 x00 x00 x00 x00)))))
(T (W x00 x00 x80 x3f x00 x00 x80 x3f)
(T (W x00 x00 x00 x00 x00 x00 x00 x00)
(T (W xff xff xff xff xff xff xff xff)
(L (W xff xff xff xff xff xff xff xff))
(L (W xff xff xff xff xb0 x00 x00 x00)))
(T (W x45 x26 x22 x84 xe4 x9c xf2 xcb)
(L (W x45 x26 x22 x84 xe4 x9c xf2 xcb))
(L (W x30 x34 x5f x43 x4c x45 x41 x52))))
(T (W x00 x00 x00 x00 x01 x00 x00 x00)
(T (W x45 x44 x00 x00 x00 x00 x00 x00)
(L (W x45 x26 x22 x84 xe4 x9c xf2 xcb))
(L (W x45 x26 x22 x84 xe4 x9c xf2 xcb)))
(T (W x68 x00 x00 x00 x5c x00 x00 x00)
(L (W x00 x00 x00 x00 x00 x00 x00 x00))
(L (W xff xff xff xff xff xff xff xff))))))
(T (W xb8 x00 x00 x00 xac x00 x00 x00)
(T (W x45 x26 x22 x84 xe4 x9c xf2 xcb)
(T (W x45 x26 x22 x84 xe4 x9c xf2 xcb)
(T (W x3a xe9 xfe xff x00 x00 x01 x01)
(L (W x00 x00 x00 x00 x00 x00 x00 x00))
(L (W x00 x00 x80 xbf x00 x00 x80 xbf)))
(T (W x00 x00 x00 x00 x00 x00 x00 x00)
(L (W x00 x00 x00 x00 x00 x00 x00 x00))
(L (W x00 x00 x00 x00 x00 x00 x00 x00))))
(T (W x00 x00 x00 x00 x00 x00 x00 x00)
(T (W x00 x00 x00 x00 x08 x76 xfd xff)
(L (W x00 x00 x80 xbf x00 x00 x80 xbf))
(L (W x04 x00 x00 x00 x6a x75 xff xff)))
(T (W xff xff xff xff xff xff xff xff)
(L (W x5f x4e x53 x5f x30 x34 x5f x43))
(L (W x00 x00 x00 x00 x00 x00 x00 x00)))))
(T (W x00 x00 x80 x3f x00 x00 x80 x3f)
(T (W x00 x00 x00 x00 x00 x00 x00 x00)
(T (W x00 x00 x00 x00 x00 x00 x00 x00)
(L (W x90 x54 xfe xff x00 x01 x01 x01))
(L (W xff xff xff xff xff xff xff xff)))
(T (W x18 x00 x00 x00 x10 x00 x00 x00)
(L (W xff xff xff xff xc8 x00 x00 x00))
(L (W x00 x00 x00 x00 x00 x00 x00 x00))))
(T (W x00 x00 x00 x00 x00 x00 x00 x00)
(T (W x00 x00 x80 x3f x00 x00 x80 x3f)
(L (W x90 x94 xfe xff x00 x01 x01 x01))
(L (W x00 x00 x00 x00 x00 x00 x00 x00)))
(T (W x00 x00 x00 x00 x00 x00 x00 x00)
(L (W x49 xa1 x68 x4a xeb x5f xdd x3d)) E)))))
(T (W xff xff xff xff xff xff xff xff)
(T (W xff xff xff xff xff xff xff xff)
(T (W x90 x6c xfc xff x00 x01 x01 x01)
(T (W x45 x26 x22 x84 xe4 x9c xf2 xcb)
(T (W x4c x00 x00 x00 xff xff xff xff)
(L (W x00 x00 x00 x00 x00 x00 x00 x00))
(L (W x00 x00 x00 x00 x00 x00 x00 x00)))
(T (W xff xff xff xff xff xff xff xff)
(L (W x45 x44 x00 x00 x00 x00 x00 x00))
(L (W x00 x00 x00 x00 x00 x00 x00 x00))))
(T (W x00 x00 x00 x00 x00 x00 x00 x00)
(T (W x00 x00 x80 x3f x00 x00 x80 x3f)
(L (W x00 x00 x80 xbf x00 x00 x80 xbf))
(L (W x00 x00 x00 x00 x00 x00 x00 x00)))
(T (W xc1 x01 x00 x00 xff xff xff xff)
(L (W x06 x00 x00 x00 xc4 x05 x00 x00))
(L (W x14 x00 x00 x00 x0c x00 x00 x00)))))
(T (W x54 x00 x00 x00 x48 x00 x00 x00)
(T (W x00 x00 x00 x00 x00 x00 x00 x00)
(T (W x00 x00 x00 x00 x00 x00 x00 x00)
(L (W x00 x00 x00 x00 x00 x00 x00 x00))
(L (W xff xff xff xff xff xff xff xff)))
(T (W x50 x00 x00 x00 x44 x00 x00 x00)
(L (W x00 x00 x80 xbf x00 x00 x80 xbf))
(L (W x00 x00 x00 x00 x00 x00 x00 x00))))
(T (W x00 x00 x00 x00 x00 x00 x00 x00)
(T (W x00 x00 x00 x00 x00 x00 x00 x00)
(L (W xff xff xff xff xff xff xff xff))
(L (W x49 xa1 x68 x4a xeb x5f xdd x3d)))
(T (W xff xff xff xff xff xff xff xff)
(L (W x45 x26 x22 x84 xe4 x9c xf2 xcb)) E))))
(T (W x45 x26 x22 x84 xe4 x9c xf2 xcb)
(T (W x18 x00 x00 x00 x0c x00 x00 x00)
(T (W x00 x00 x80 x3f x00 x00 x80 x3f)
(T (W xff xff xff xff xff xff xff xff)
(L (W xff xff xff xff xff xff xff xff))
(L (W x00 x00 x00 x00 x08 x3e xff xff)))
(T (W x00 x00 x00 x00 x00 x00 x00 x00)
(L (W x46 x53 x59 x53 x5f x4e x53 x5f))
(L (W x00 x00 x00 x00 x00 x00 x00 x00))))
(T (W x3e x00 x00 x00 x10 x00 x00 x00)
(T (W xff xff xff xff xff xff xff xff)
(L (W xff xff xff xff xff xff xff xff))
(L (W x00 x00 x00 x00 x12 x00 x00 x00)))
(T (W xff xff xff xff x03 x00 x00 x00)
(L (W x00 x00 x00 x00 x00 x00 x00 x00))
(L (W xff xff xff xff xff xff xff xff)))))
(T (W x45 x26 x22 x84 xe4 x9c xf2 xcb)
(T (W x00 x00 x00 x00 x00 x00 x00 x00)
(T (W x00 x00 x00 x00 x00 x00 x00 x00)
(L (W xff xff xff xff x9c x00 x00 x00))
(L (W x94 x01 x00 x00 xff xff xff xff)))
(T (W xff xff xff xff xff xff xff xff)
(L (W xff xff xff xff xff xff xff xff))
(L (W xff xff xff xff xff xff xff xff))))
(T (W x00 x00 x00 x00 x00 x00 x00 x00)
(T (W xff xff xff xff x9c x00 x00 x00)
(L (W x46 x53 x59 x53 x5f x4e x53 x5f))
(L (W x00 x00 x00 x00 x00 x00 x00 x00)))
(T (W x18 x01 x00 x00 x04 x00 x00 x00)
(L (W x00 x00 x00 x00 x00 x00 x00 x00)) E))))))))))
(T (W xa8 xce x02 x00 xfc xc9 x02 x00)
(T (W x78 x55 x02 x00 xb4 x4e x02 x00)
(T (W x38 xaa x01 x00 x84 xa5 x01 x00)
(T (W xa8 x5a x00 x00 x5c x58 x00 x00)
(T (W x45 x26 x22 x84 xe4 x9c xf2 xcb)
(T (W x00 x00 x00 x00 x00 x00 x00 x00)
(T (W x45 x26 x22 x84 xe4 x9c xf2 xcb)
(T (W x01 x00 x00 x00 x04 x00 x00 x00)
(T (W xb8 x00 x00 x00 xac x00 x00 x00)
(T (W x00 x00 x80 x3f x00 x00 x80 x3f)
(L (W x00 x00 x80 x3f x00 x00 x80 x3f))
(L (W xff xff xff xff xa8 x00 x00 x00)))
(T (W x9c x01 x00 x00 xff xff xff xff)
(L (W xbc x00 x00 x00 x0a x00 x00 x00))
(L (W x00 x00 x00 x00 x54 x9d xff xff))))
(T (W x50 x00 x00 x00 x44 x00 x00 x00)
(T (W x68 x00 x00 x00 x5c x00 x00 x00)
(L (W x15 x00 x00 x00 x0c x00 x00 x00))
(L (W x45 x26 x22 x84 xe4 x9c xf2 xcb)))
(T (W x00 x00 x00 x00 x00 x00 x00 x00)
(L (W x00 x00 x00 x00 x00 x00 x00 x00))
(L (W x00 x00 x00 x00 x00 x00 x00 x00)))))
(T (W xff xff xff xff xff xff xff xff)
(T (W x18 x00 x00 x00 x10 x00 x00 x00)
(T (W x00 x00 x00 x00 x00 x00 x00 x00)
(L (W x00 x00 x00 x00 x00 x00 x00 x00))
(L (W xff xff xff xff xff xff xff xff)))
(T (W x00 x00 x00 x00 xc8 xbe xfd xff)
(L (W x00 x00 x80 x3f x00 x00 x80 x3f))
(L (W xc4 x00 x00 x00 x01 x00 x00 x00))))
(T (W x00 x00 x80 x3f x00 x00 x80 x3f)
(T (W x12 x00 x00 x00 x46 x53 x59 x53)
(L (W x00 x00 x00 x00 x00 x00 x00 x00))
(L (W x00 x00 x80 xbf x00 x00 x80 xbf)))
(T (W x00 x00 x00 x00 x00 x00 x00 x00)
(L (W x00 x00 x80 xbf x00 x00 x80 xbf))
(L (W x49 xa1 x68 x4a xeb x5f xdd x3d))))))
(T (W x00 x00 x00 x00 x00 x00 x00 x00)
(T (W xff xff xff xff xff xff xff xff)
(T (W x68 x00 x00 x00 x5c x00 x00 x00)
(T (W x45 x26 x22 x84 xe4 x9c xf2 xcb)
(L (W x4a x45 xfe xff x74 x00 x00 x00))
(L (W x35 x00 x00 x00 x38 x00 x00 x00)))
(T (W x00 x00 x00 x00 x00 x00 x00 x00)
(L (W x00 x00 x80 x3f x00 x00 x80 x3f))
(L (W x50 xad xff xff x00 x01 x01 x01))))
(T (W x4a x05 xfd xff x74 x00 x00 x00)
(T (W xff xff xff xff xff xff xff xff)
(L (W xff xff xff xff xff xff xff xff))
(L (W x00 x00 x80 xbf x00 x00 x80 xbf)))
(T (W x45 x26 x22 x84 xe4 x9c xf2 xcb)
(L (W x00 x00 x80 xbf x00 x00 x80 xbf))
(L (W x24 x05 x00 x00 x20 x04 x00 x00)))))
(T (W xff xff xff xff xff xff xff xff)
(T (W x68 x00 x00 x00 x5c x00 x00 x00)
(T (W x00 x00 x80 x3f x00 x00 x80 x3f)
(L (W xff xff xff xff xff xff xff xff))
(L (W x00 x00 x00 x00 x00 x00 x00 x00)))
(T (W xff xff xff xff xff xff xff xff)
(L (W xff xff xff xff xff xff xff xff))
(L (W x50 xcd xff xff x00 x01 x01 x01))))
(T (W x00 x00 x80 x3f x00 x00 x80 x3f)
(T (W x45 x26 x22 x84 xe4 x9c xf2 xcb)
(L (W x00 x00 x00 x00 x00 x00 x00 x00))
(L (W xff xff xff xff x90 x00 x00 x00)))
(T (W x00 x00 x00 x00 x00 x00 x00 x00)
(L (W x50 x0d xff xff x00 x01 x01 x01)) E)))))
(T (W x00 x00 x00 x00 x00 x00 x00 x00)
(T (W x00 x00 x00 x00 x00 x00 x00 x00)
(T (W xff xff xff xff xff xff xff xff)
(T (W x45 x26 x22 x84 xe4 x9c xf2 xcb)
(T (W x00 x00 x80 x3f x00 x00 x80 x3f)
(L (W x00 x00 x80 x3f x00 x00 x80 x3f))
(L (W x6c x00 x00 x00 x60 x00 x00 x00)))
(T (W x00 x00 x00 x00 x00 x00 x00 x00)
(L (W x00 x00 x00 x00 x00 x00 x00 x00))
(L (W x00 x00 x80 xbf x00 x00 x80 xbf))))
(T (W x68 x00 x00 x00 x5c x00 x00 x00)
(T (W x18 x00 x00 x00 x0c x00 x00 x00)
(L (W x00 x00 x00 x00 x42 x74 xfe xff))
(L (W x00 x00 x00 x00 x00 x00 x00 x00)))
(T (W x00 x00 x00 x00 x00 x00 x00 x00)
(L (W x00 x00 x00 x00 x00 x00 x00 x00))
(L (W xff xff xff xff xff xff xff xff)))))
(T (W xff xff xff xff xff xff xff xff)
(T (W x45 x26 x22 x84 xe4 x9c xf2 xcb)
(T (W x00 x00 x00 x00 x00 x00 x00 x00)
(L (W x00 x00 x00 x00 x00 x00 x00 x00))
(L (W x00 x00 x00 x00 x00 x00 x00 x00)))
(T (W xff xff xff xff xff xff xff xff)
(L (W x18 x00 x00 x00 x0c x00 x00 x00))
(L (W x3c x00 x40 x00 x2a x00 x00 x00))))
(T (W x00 x00 x80 x3f x00 x00 x80 x3f)
(T (W x00 x00 x80 x3f x00 x00 x80 x3f)
(L (W xb0 x00 x00 x00 x64 x00 x00 x00))
(L (W x45 x26 x22 x84 xe4 x9c xf2 xcb)))
(T (W xb1 x01 x00 x00 xff xff xff xff)
(L (W x54 x00 x00 x00 x48 x00 x00 x00))
(L (W x00 x00 x80 xbf x00 x00 x80 xbf))))))
(T (W xec x5b xfc xff x2d x00 x00 x00)
(T (W xff xff xff xff xff xff xff xff)
(T (W x50 xb5 xfc xff x00 x01 x01 x01)
(T (W x45 x26 x22 x84 xe4 x9c xf2 xcb)
(L (W x00 x00 x80 x3f x00 x00 x80 x3f))
(L (W xff xff xff xff xbc x00 x00 x00)))
(T (W x00 x00 x80 x3f x00 x00 x80 x3f)
(L (W x54 x00 x00 x00 x48 x00 x00 x00))
(L (W x00 x00 x00 x00 xc8 xb6 xff xff))))
(T (W x00 x00 x80 x3f x00 x00 x80 x3f)
(T (W x04 x00 x00 x00 x2a x76 xfd xff)
(L (W xff xff xff xff xff xff xff xff))
(L (W x00 x00 x80 xbf x00 x00 x80 xbf)))
(T (W x00 x00 x00 x00 x00 x00 x00 x00)
(L (W x00 x00 x80 xbf x00 x00 x80 xbf))
(L (W xff xff xff xff xb0 x00 x00 x00)))))
(T (W xff xff xff xff xff xff xff xff)
(T (W x00 x00 x80 x3f x00 x00 x80 x3f)
(T (W x00 x00 x80 x3f x00 x00 x80 x3f)
(L (W xff xff xff xff xff xff xff xff))
(L (W x00 x00 x00 x00 x00 x00 x00 x00)))
(T (W x40 x70 xbf xa0 x52 x1d x8a xa9)
(L (W x00 x00 x00 x00 x00 x00 x00 x00))
(L (W x00 x00 x80 xbf x00 x00 x80 xbf))))
(T (W x00 x00 x80 x3f x00 x00 x80 x3f)
(T (W xff xff xff xff xff xff xff xff)
(L (W xff xff xff xff xff xff xff xff))
(L (W x6c x00 x00 x00 x60 x00 x00 x00)))
(T (W x00 x00 x80 x3f x00 x00 x80 x3f)
(L (W xff xff xff xff x90 x00 x00 x00)) E))))))
(T (W xff xff xff xff x03 x00 x00 x00)
(T (W xff xff xff xff xff xff xff xff)
(T (W x50 x41 xfc xff x00 x01 x01 x01)
(T (W x45 x26 x22 x84 xe4 x9c xf2 xcb)
(T (W x45 x26 x22 x84 xe4 x9c xf2 xcb)
(T (W xff xff xff xff xff xff xff xff)
(L (W xff xff xff xff xff xff xff xff))
(L (W x00 x00 x00 x00 x00 x00 x00 x00)))
(T (W x45 x26 x22 x84 xe4 x9c xf2 xcb)
(L (W x00 x00 x80 x3f x00 x00 x80 x3f))
(L (W xff xff xff xff xff xff xff xff))))
(T (W xc8 x2f x6d x52 x4c xfa xc4 x4d)
(T (W x00 x00 x00 x00 x00 x00 x00 x00)
(L (W x45 x26 x22 x84 xe4 x9c xf2 xcb))
(L (W xff xff xff xff xff xff xff xff)))
(T (W xff xff xff xff xff xff xff xff)
(L (W x18 x00 x00 x00 x0c x00 x00 x00))
(L (W xff xff xff xff xb0 x00 x00 x00)))))
(T (W x45 x26 x22 x84 xe4 x9c xf2 xcb)
(T (W x00 x00 x00 x00 x00 x00 x00 x00)
(T (W x00 x00 x80 x3f x00 x00 x80 x3f)
(L (W x45 x26 x22 x84 xe4 x9c xf2 xcb))
(L (W x00 x00 x80 xbf x00 x00 x80 xbf)))
(T (W x00 x00 x00 x00 x00 x00 x00 x00)
(L (W x00 x00 x00 x00 x00 x00 x00 x00))
(L (W x00 x00 x01 x01 x4b x00 x00 x00))))
(T (W xff xff xff xff xff xff xff xff)
(T (W xff xff xff xff xff xff xff xff)
(L (W x04 x00 x00 x00 x2a x82 xfe xff))
(L (W x45 x44 x00 x00 x00 x00 x00 x00)))
(T (W x50 x00 x00 x00 x44 x00 x00 x00)
(L (W x54 x02 x00 x00 x38 x01 x00 x00))
(L (W xff xff xff xff xff xff xff xff))))))
(T (W x4a x69 xfc xff x74 x00 x00 x00)
(T (W x00 x00 x80 x3f x00 x00 x80 x3f)
(T (W x00 x00 x00 x00 x00 x00 x00 x00)
(T (W x64 x00 x00 x00 x9c x00 x00 x00)
(L (W x18 x01 x00 x00 x04 x00 x00 x00))
(L (W x00 x00 x00 x00 x00 x00 x00 x00)))
(T (W xff xff xff xff xff xff xff xff)
(L (W x45 x44 x00 x00 x00 x00 x00 x00))
(L (W x29 x00 x00 x00 x0c x00 x00 x00))))
(T (W xff xff xff xff xff xff xff xff)
(T (W x00 x00 x80 x3f x00 x00 x80 x3f)
(L (W x00 x00 x80 xbf x00 x00 x80 xbf))
(L (W xff xff xff xff xff xff xff xff)))
(T (W xff xff xff xff x03 x00 x00 x00)
(L (W xff xff xff xff xff xff xff xff))
(L (W x50 x00 x00 x00 x00 x00 x54 x00)))))
(T (W x00 x00 x00 x00 x00 x00 x00 x00)
(T (W x00 x00 x00 x00 x00 x00 x00 x00)
(T (W xff xff xff xff xff xff xff xff)
(L (W x0e x4c xac xeb x6f x4d xab x7a))
(L (W xff xff xff xff xa0 x00 x00 x00)))
(T (W x00 x00 x80 x3f x00 x00 x80 x3f)
(L (W x00 x00 x80 xbf x00 x00 x80 xbf))
(L (W xff xff xff xff xff xff xff xff))))
(T (W xff xff xff xff xff xff xff xff)
(T (W x00 x00 x00 x00 x00 x00 x00 x00)
(L (W x76 x31 x00 x00 xa2 x97 xfe xff))
(L (W x37 x00 x00 x00 xff xff xff xff)))
(T (W xfa xc5 xff xff x00 x00 x01 x01)
(L (W x00 x00 x00 x00 x00 x00 x00 x00)) E)))))
(T (W x64 x00 x00 x00 x9c x00 x00 x00)
(T (W x50 x00 x00 x00 x44 x00 x00 x00)
(T (W x00 x00 x80 x3f x00 x00 x80 x3f)
(T (W x00 x00 x00 x00 x00 x00 x00 x00)
(T (W xff xff xff xff xff xff xff xff)
(L (W x00 x00 x00 x00 x00 x00 x00 x00))
(L (W x00 x00 x00 x00 x00 x00 x00 x00)))
(T (W x03 x00 x00 x00 xd8 x00 x00 x00)
(L (W x54 x00 x00 x00 x48 x00 x00 x00))
(L (W x94 x01 x00 x00 xff xff xff xff))))
(T (W x7d x00 x00 x00 xff xff xff xff)
(T (W x00 x00 x00 x00 x00 x00 x00 x00)
(L (W x00 x00 x80 xbf x00 x00 x80 xbf))
(L (W xff xff xff xff xff xff xff xff)))
(T (W x4a x01 xfe xff x74 x00 x00 x00)
(L (W xff xff xff xff xff xff xff xff))
(L (W xff xff xff xff xa8 x00 x00 x00)))))
(T (W x00 x00 x00 x00 x00 x00 x00 x00)
(T (W x00 x00 x00 x00 x00 x00 x00 x00)
(T (W xff xff xff xff xff xff xff xff)
(L (W x50 x49 xfe xff x00 x01 x01 x01))
(L (W x18 x00 x00 x00 x0c x00 x00 x00)))
(T (W x00 x00 x00 x00 x00 x00 x00 x00)
(L (W x00 x00 x00 x00 x00 x00 x00 x00))
(L (W x45 x44 x00 x00 x00 x00 x00 x00))))
(T (W x40 x00 x00 x00 xa0 x00 x00 x00)
(T (W x00 x00 x00 x00 x00 x00 x00 x00)
(L (W x00 x00 x80 xbf x00 x00 x80 xbf))
(L (W x00 x00 x01 x01 x2e x00 x00 x00)))
(T (W x45 x26 x22 x84 xe4 x9c xf2 xcb)
(L (W x4a x00 x00 x00 xff xff xff xff)) E))))
(T (W x00 x00 x00 x00 xc8 x5a xfc xff)
(T (W x00 x00 x80 x3f x00 x00 x80 x3f)
(T (W x00 x00 x00 x00 x00 x00 x00 x00)
(T (W xff xff xff xff x03 x00 x00 x00)
(L (W x00 x00 x00 x00 x00 x00 x00 x00))
(L (W x49 xa1 x68 x4a xeb x5f xdd x3d)))
(T (W xff xff xff xff xff xff xff xff)
(L (W x00 x00 x01 x01 xd3 x01 x00 x00))
(L (W x00 x00 x00 x00 x00 x00 x00 x00))))
(T (W xff xff xff xff xff xff xff xff)
(T (W x68 x00 x00 x00 x5c x00 x00 x00)
(L (W x68 x00 x00 x00 x5c x00 x00 x00))
(L (W xff xff xff xff xff xff xff xff)))
(T (W x68 x00 x00 x00 x5c x00 x00 x00)
(L (W x00 x00 x00 x00 x9a xf8 xfe xff))
(L (W x00 x00 x00 x00 x00 x00 x00 x00)))))
(T (W x45 x26 x22 x84 xe4 x9c xf2 xcb)
(T (W x00 x00 x00 x00 x00 x00 x00 x00)
(T (W xff xff xff xff xff xff xff xff)
(L (W x50 x59 xfe xff x00 x01 x01 x01))
(L (W xff xff xff xff xff xff xff xff)))
(T (W x00 x00 x00 x00 xc8 xda xfd xff)
(L (W x6c x00 x00 x00 x60 x00 x00 x00))
(L (W x00 x00 x00 x00 xc8 xda xff xff))))
(T (W x5d x00 x00 x00 xff xff xff xff)
(T (W x00 x00 x80 x3f x00 x00 x80 x3f)
(L (W xff xff xff xff xff xff xff xff))
(L (W xff xff xff xff xff xff xff xff)))
(T (W xff xff xff xff xff xff xff xff)
(L (W x4b x00 x00 x00 xff xff xff xff)) E)))))))
(T (W xfa xd7 xfd xff x00 x00 x01 x01)
(T (W x50 x27 xfc xff x00 x01 x01 x01)
(T (W x00 x00 x80 x3f x00 x00 x80 x3f)
(T (W x00 x00 x80 x3f x00 x00 x80 x3f)
(T (W x45 x26 x22 x84 xe4 x9c xf2 xcb)
(T (W x64 x01 x00 x00 xff xff xff xff)
(T (W x50 x00 x00 x00 x44 x00 x00 x00)
(L (W x4a x37 xfe xff x74 x00 x00 x00))
(L (W xff xff xff xff xff xff xff xff)))
(T (W x00 x00 x00 x00 x00 x00 x00 x00)
(L (W x46 x53 x59 x53 x5f x4e x53 x5f))
(L (W x03 x00 x00 x00 xc8 x00 x00 x00))))
(T (W xb8 x00 x00 x00 xac x00 x00 x00)
(T (W xff xff xff xff xff xff xff xff)
(L (W x00 x00 x80 xbf x00 x00 x80 xbf))
(L (W xff xff xff xff xb8 x00 x00 x00)))
(T (W x54 x00 x00 x00 x48 x00 x00 x00)
(L (W x00 x00 x80 xbf x00 x00 x80 xbf))
(L (W x00 x00 x80 xbf x00 x00 x80 xbf)))))
(T (W x00 x00 x00 x00 x00 x00 x00 x00)
(T (W xff xff xff xff xff xff xff xff)
(T (W xff xff xff xff xff xff xff xff)
(L (W x00 x00 x80 x3f x00 x00 x80 x3f))
(L (W x00 x00 x00 x00 x00 x00 x00 x00)))
(T (W xff xff xff xff xff xff xff xff)
(L (W xff xff xff xff xff xff xff xff))
(L (W xff xff xff xff xff xff xff xff))))
(T (W xc0 x00 x00 x00 xb4 x00 x00 x00)
(T (W x00 x00 x80 x3f x00 x00 x80 x3f)
(L (W x45 x26 x22 x84 xe4 x9c xf2 xcb))
(L (W xff xff xff xff xff xff xff xff)))
(T (W x45 x26 x22 x84 xe4 x9c xf2 xcb)
(L (W x18 x00 x00 x00 x0c x00 x00 x00))
(L (W x2c x00 x30 x00 x34 x00 x38 x00))))))
(T (W x00 x00 x80 x3f x00 x00 x80 x3f)
(T (W x00 x00 x00 x00 x00 x00 x00 x00)
(T (W xff xff xff xff xff xff xff xff)
(T (W x00 x00 x00 x00 xc8 x30 xfd xff)
(L (W xff xff xff xff xff xff xff xff))
(L (W xff xff xff xff xff xff xff xff)))
(T (W x00 x00 x00 x00 xc8 xb0 xfd xff)
(L (W xff xff xff xff xff xff xff xff))
(L (W xff xff xff xff xff xff xff xff))))
(T (W x01 x00 x00 x00 x9c x00 x00 x00)
(T (W x30 x34 x5f x43 x4c x45 x41 x52)
(L (W x00 x00 x00 x00 x00 x00 x00 x00))
(L (W x45 x26 x22 x84 xe4 x9c xf2 xcb)))
(T (W x50 x00 x00 x00 x44 x00 x00 x00)
(L (W xff xff xff xff xb0 x00 x00 x00))
(L (W x00 x00 x00 x00 x00 x00 x00 x00)))))
(T (W x00 x00 x00 x00 x00 x00 x00 x00)
(T (W xff xff xff xff xff xff xff xff)
(T (W xb0 x00 x00 x00 x0a x00 x00 x00)
(L (W x00 x00 x80 x3f x00 x00 x80 x3f))
(L (W x00 x00 x80 xbf x00 x00 x80 xbf)))
(T (W x00 x00 x00 x00 x00 x00 x00 x00)
(L (W x46 x53 x59 x53 x5f x4e x53 x5f))
(L (W x00 x00 x00 x00 x20 x00 x24 x00))))
(T (W x64 x00 x00 x00 x9c x00 x00 x00)
(T (W xff xff xff xff xff xff xff xff)
(L (W x45 x26 x22 x84 xe4 x9c xf2 xcb))
(L (W xff xff xff xff xff xff xff xff)))
(T (W xff xff xff xff xff xff xff xff)
(L (W xff xff xff xff xff xff xff xff)) E)))))
(T (W x00 x00 x80 x3f x00 x00 x80 x3f)
(T (W x00 x00 x80 x3f x00 x00 x80 x3f)
(T (W x00 x00 x00 x00 x00 x00 x00 x00)
(T (W xfa x5b xfe xff x00 x00 x01 x01)
(T (W x4a x3f xfd xff x74 x00 x00 x00)
(L (W xff xff xff xff xff xff xff xff))
(L (W xff xff xff xff xbc x00 x00 x00)))
(T (W x00 x00 x80 x3f x00 x00 x80 x3f)
(L (W x5f x77 x69 x6c x64 x5f x70 x6f))
(L (W xff xff xff xff xc8 x00 x00 x00))))
(T (W x45 x26 x22 x84 xe4 x9c xf2 xcb)
(T (W xff xff xff xff xff xff xff xff)
(L (W x46 x53 x59 x53 x5f x4e x53 x5f))
(L (W x00 x00 x80 xbf x00 x00 x80 xbf)))
(T (W x00 x00 x80 x3f x00 x00 x80 x3f)
(L (W x00 x00 x80 xbf x00 x00 x80 xbf))
(L (W x00 x00 x00 x00 x00 x00 x00 x00)))))
(T (W x00 x00 x00 x00 x00 x00 x00 x00)
(T (W xff xff xff xff xff xff xff xff)
(T (W x00 x00 x80 x3f x00 x00 x80 x3f)
(L (W x00 x00 x80 x3f x00 x00 x80 x3f))
(L (W x00 x00 x80 xbf x00 x00 x80 xbf)))
(T (W x1a xf8 xfd xff x00 x00 x01 x01)
(L (W x00 x00 x01 x01 xb5 x01 x00 x00))
(L (W xff xff xff xff xff xff xff xff))))
(T (W xff xff xff xff x01 x00 x00 x00)
(T (W xb0 x00 x00 x00 x64 x00 x00 x00)
(L (W x2f x00 x00 x00 x10 x00 x00 x00))
(L (W x03 x00 x00 x00 xd8 x00 x00 x00)))
(T (W x00 x00 x00 x00 x00 x00 x00 x00)
(L (W xff xff xff xff xc8 x00 x00 x00)) E))))
(T (W x45 x26 x22 x84 xe4 x9c xf2 xcb)
(T (W x94 x82 xfc xff x3e x00 x00 x00)
(T (W xff xff xff xff xff xff xff xff)
(T (W x45 x26 x22 x84 xe4 x9c xf2 xcb)
(L (W xff xff xff xff xff xff xff xff))
(L (W x30 x34 x5f x43 x4c x45 x41 x52)))
(T (W xcc x00 x00 x00 x01 x00 x00 x00)
(L (W x03 x00 x00 x00 xd8 x00 x00 x00))
(L (W xff xff xff xff xff xff xff xff))))
(T (W x0a x00 x00 x00 x3e x00 x00 x00)
(T (W x00 x00 x00 x00 x00 x00 x00 x00)
(L (W x00 x00 x00 x00 x00 x00 x00 x00))
(L (W x18 x00 x00 x00 x0c x00 x00 x00)))
(T (W x45 x26 x22 x84 xe4 x9c xf2 xcb)
(L (W xff xff xff xff xff xff xff xff))
(L (W xff xff xff xff xff xff xff xff)))))
(T (W x75 xac x2c x15 x19 xb3 x9a x71)
(T (W xff xff xff xff xff xff xff xff)
(T (W xff xff xff xff xff xff xff xff)
(L (W x00 x00 x00 x00 x00 x00 x00 x00))
(L (W x00 x00 x80 xbf x00 x00 x80 xbf)))
(T (W x45 x26 x22 x84 xe4 x9c xf2 xcb)
(L (W x45 x26 x22 x84 xe4 x9c xf2 xcb))
(L (W xc1 x02 x00 x00 xff xff xff xff))))
(T (W x50 x17 xfd xff x00 x01 x01 x01)
(T (W x12 x00 x00 x00 x46 x53 x59 x53)
(L (W x00 x00 x00 x00 x12 x00 x00 x00))
(L (W x1c x00 x20 x00 x24 x00 x28 x00)))
(T (W x00 x00 x00 x00 xc8 x18 xfe xff)
(L (W xff xff xff xff xff xff xff xff)) E))))))
(T (W xff xff xff xff xff xff xff xff)
(T (W xff xff xff xff xff xff xff xff)
(T (W xc2 x01 x00 x00 xff xff xff xff)
(T (W xff xff xff xff x03 x00 x00 x00)
(T (W x00 x00 x80 x3f x00 x00 x80 x3f)
(T (W x00 x00 x00 x00 x00 x00 x00 x00)
(L (W x70 x5f x6c x65 x61 x64 x65 x72))
(L (W x45 x26 x22 x84 xe4 x9c xf2 xcb)))
(T (W xff xff xff xff xff xff xff xff)
(L (W x76 x32 x00 x00 x2a xa4 xfe xff))
(L (W x00 x00 x00 x00 x00 x00 x00 x00))))
(T (W x00 x00 x00 x00 x00 x00 x00 x00)
(T (W x00 x00 x80 x3f x00 x00 x80 x3f)
(L (W xff xff xff xff xac x00 x00 x00))
(L (W x00 x00 x00 x00 x00 x00 x00 x00)))
(T (W xfa x97 xff xff x00 x00 x01 x01)
(L (W xff xff xff xff xff xff xff xff))
(L (W x00 x00 x62 x00 x74 x00 x08 x00)))))
(T (W x18 x00 x00 x00 x0c x00 x00 x00)
(T (W x45 x26 x22 x84 xe4 x9c xf2 xcb)
(T (W xff xff xff xff xff xff xff xff)
(L (W xff xff xff xff xff xff xff xff))
(L (W xff xff xff xff xff xff xff xff)))
(T (W x00 x00 x80 x3f x00 x00 x80 x3f)
(L (W x00 x00 x80 xbf x00 x00 x80 xbf))
(L (W x00 x00 x00 x00 x00 x00 x00 x00))))
(T (W x93 x9c x62 x68 xef x86 x7c x99)
(T (W x00 x00 x00 x00 x00 x00 x00 x00)
(L (W x45 x26 x22 x84 xe4 x9c xf2 xcb))
(L (W x3c x00 x00 x00 x00 x00 x80 xbf)))
(T (W xff xff xff xff x03 x00 x00 x00)
(L (W x45 x26 x22 x84 xe4 x9c xf2 xcb))
(L (W x44 x00 x04 x00 x08 x00 x0c x00))))))
(T (W xff xff xff xff xff xff xff xff)
(T (W xff xff xff xff xff xff xff xff)
(T (W x00 x00 x80 x3f x00 x00 x80 x3f)
(T (W x01 x00 x00 x00 x04 x00 x00 x00)
(L (W x00 x00 x00 x00 x00 x00 x00 x00))
(L (W x6c x00 x00 x00 x60 x00 x00 x00)))
(T (W x00 x00 x00 x00 x12 x00 x00 x00)
(L (W x4f x84 x6f x8b xe8 xcb x63 xb7))
(L (W x00 x00 x80 xbf x00 x00 x80 xbf))))
(T (W x00 x00 x00 x00 x00 x00 x00 x00)
(T (W xc4 x00 x00 x00 x01 x00 x00 x00)
(L (W x38 x00 x00 x00 x00 x00 x80 xbf))
(L (W x45 x44 x00 x00 x00 x00 x00 x00)))
(T (W xb5 x01 x00 x00 xff xff xff xff)
(L (W x00 x00 x00 x00 x00 x00 x00 x00))
(L (W x00 x00 x00 x00 x00 x00 x00 x00)))))
(T (W x00 x00 x80 x3f x00 x00 x80 x3f)
(T (W x00 x00 x80 x3f x00 x00 x80 x3f)
(T (W x00 x00 x00 x00 x00 x00 x00 x00)
(L (W x45 x26 x22 x84 xe4 x9c xf2 xcb))
(L (W xff xff xff xff xff xff xff xff)))
(T (W xff xff xff xff xff xff xff xff)
(L (W xff xff xff xff xff xff xff xff))
(L (W x00 x00 x00 x00 x00 x00 x00 x00))))
(T (W x45 x26 x22 x84 xe4 x9c xf2 xcb)
(T (W x4a xab xfd xff x74 x00 x00 x00)
(L (W x6c x00 x00 x00 x60 x00 x00 x00))
(L (W x00 x00 x00 x00 x00 x00 x00 x00)))
(T (W x00 x00 x00 x00 x00 x00 x00 x00)
(L (W x00 x00 x00 x00 x00 x00 x00 x00)) E)))))
(T (W xff xff xff xff xff xff xff xff)
(T (W xff xff xff xff xff xff xff xff)
(T (W xff xff xff xff xff xff xff xff)
(T (W x00 x00 x80 x3f x00 x00 x80 x3f)
(T (W xec x31 xfd xff x3e x00 x00 x00)
(L (W x00 x00 x80 x3f x00 x00 x80 x3f))
(L (W x00 x00 x80 xbf x00 x00 x80 xbf)))
(T (W x00 x00 x01 x01 xa4 x01 x00 x00)
(L (W x77 x61 x72 x6c x69 x6b x65 x5f))
(L (W x00 x00 x00 x00 x00 x00 x00 x00))))
(T (W x00 x00 x00 x00 x00 x00 x00 x00)
(T (W x00 x00 x80 x3f x00 x00 x80 x3f)
(L (W x92 x6f xfe xff x78 x00 x00 x00))
(L (W x00 x00 x00 x00 x00 x00 x00 x00)))
(T (W xff xff xff xff xff xff xff xff)
(L (W x45 x44 x00 x00 x00 x00 x00 x00))
(L (W xff xff xff xff xff xff xff xff)))))
(T (W x68 x00 x00 x00 x5c x00 x00 x00)
(T (W x00 x00 x80 x3f x00 x00 x80 x3f)
(T (W x00 x00 x00 x00 x00 x00 x00 x00)
(L (W x68 x00 x00 x00 x00 x00 x62 x00))
(L (W xff xff xff xff xff xff xff xff)))
(T (W x18 x00 x00 x00 x10 x00 x00 x00)
(L (W x50 x00 x00 x00 x44 x00 x00 x00))
(L (W x00 x00 x00 x00 x00 x00 x00 x00))))
(T (W x00 x00 x00 x00 x00 x00 x00 x00)
(T (W x49 xa1 x68 x4a xeb x5f xdd x3d)
(L (W xff xff xff xff x01 x00 x00 x00))
(L (W x00 x00 x00 x00 x00 x00 x00 x00)))
(T (W x68 x00 x00 x00 x5c x00 x00 x00)
(L (W x00 x00 x80 xbf x00 x00 x80 xbf)) E))))
(T (W x64 x00 x00 x00 x9c x00 x00 x00)
(T (W x45 x26 x22 x84 xe4 x9c xf2 xcb)
(T (W x00 x00 x80 x3f x00 x00 x80 x3f)
(T (W xff xff xff xff xff xff xff xff)
(L (W x01 x00 x00 x00 xa0 x00 x00 x00))
(L (W xff xff xff xff xb0 x00 x00 x00)))
(T (W x00 x00 x00 x00 x00 x00 x00 x00)
(L (W x00 x00 x00 x00 x00 x00 x00 x00))
(L (W x00 x00 x80 xbf x00 x00 x80 xbf))))
(T (W x00 x00 x00 x00 x00 x00 x00 x00)
(T (W xff xff xff xff xff xff xff xff)
(L (W xff xff xff xff xff xff xff xff))
(L (W x00 x00 x00 x00 x00 x00 x00 x00)))
(T (W xff xff xff xff xff xff xff xff)
(L (W x49 xa1 x68 x4a xeb x5f xdd x3d))
(L (W xff xff xff xff xff xff xff xff)))))
(T (W x00 x00 x80 x3f x00 x00 x80 x3f)
(T (W x00 x00 x80 x3f x00 x00 x80 x3f)
(T (W x00 x00 x00 x00 x00 x00 x00 x00)
(L (W xff xff xff xff xff xff xff xff))
(L (W x00 x00 x00 x00 x00 x00 x00 x00)))
(T (W xda x02 xfe xff x9d x01 x00 x00)
(L (W xff xff xff xff xff xff xff xff))
(L (W xff xff xff xff xff xff xff xff))))
(T (W x00 x00 x00 x00 x00 x00 x00 x00)
(T (W x03 x00 x00 x00 xd4 x00 x00 x00)
(L (W x94 xa6 xfe xff x23 x00 x00 x00))
(L (W x00 x00 x00 x00 x00 x00 x00 x00)))
(T (W x00 x00 x00 x00 x00 x00 x00 x00)
(L (W x00 x00 x00 x00 x00 x00 x00 x00)) E))))))))
(T (W x88 xee x00 x00 x54 xed x00 x00)
(T (W xff xff xff xff xff xff xff xff)
(T (W x00 x00 x80 x3f x00 x00 x80 x3f)
(T (W x00 x00 x80 x3f x00 x00 x80 x3f)
(T (W x00 x00 x80 x3f x00 x00 x80 x3f)
(T (W x00 x00 x00 x00 x00 x00 x00 x00)
(T (W xff xff xff xff xff xff xff xff)
(T (W x00 x00 x80 x3f x00 x00 x80 x3f)
(L (W x00 x00 x80 x3f x00 x00 x80 x3f))
(L (W xff xff xff xff xff xff xff xff)))
(T (W x4c x45 x41 x52 x45 x44 x00 x00)
(L (W x76 x32 x00 x00 x2a x9f xfe xff))
(L (W x2b x00 x00 x00 x2e x00 x00 x00))))
(T (W x68 x00 x00 x00 x5c x00 x00 x00)
(T (W xff xff xff xff xc0 x00 x00 x00)
(L (W x4f x84 x6f x8b xe8 xcb x63 xb7))
(L (W x1c x00 x00 x00 x10 x00 x00 x00)))
(T (W x45 x26 x22 x84 xe4 x9c xf2 xcb)
(L (W x00 x00 x80 xbf x00 x00 x80 xbf))
(L (W x45 x26 x22 x84 xe4 x9c xf2 xcb)))))
(T (W xfa x32 xfe xff x00 x00 x01 x01)
(T (W xff xff xff xff x03 x00 x00 x00)
(T (W x00 x00 x80 x3f x00 x00 x80 x3f)
(L (W x00 x00 x80 x3f x00 x00 x80 x3f))
(L (W x00 x00 x00 x00 x00 x00 x00 x00)))
(T (W xff xff xff xff xac x00 x00 x00)
(L (W x1a x00 x00 x00 x1d x00 x00 x00))
(L (W xff xff xff xff xff xff xff xff))))
(T (W x00 x00 x80 x3f x00 x00 x80 x3f)
(T (W x00 x00 x00 x00 x00 x00 x00 x00)
(L (W x00 x00 x80 xbf x00 x00 x80 xbf))
(L (W xcc x00 x00 x00 x01 x00 x00 x00)))
(T (W x00 x00 x00 x00 x00 x00 x00 x00)
(L (W x92 x02 xff xff x78 x00 x00 x00))
(L (W xff xff xff xff xff xff xff xff))))))
(T (W x00 x00 x00 x00 x00 x00 x00 x00)
(T (W x01 x00 x00 x00 x04 x00 x00 x00)
(T (W xb8 x00 x00 x00 xac x00 x00 x00)
(T (W x68 x00 x00 x00 x5c x00 x00 x00)
(L (W x00 x00 x00 x00 xc8 x2f xfe xff))
(L (W xff xff xff xff xff xff xff xff)))
(T (W x00 x00 x80 x3f x00 x00 x80 x3f)
(L (W x28 x00 x00 x00 x2b x00 x00 x00))
(L (W xb4 x00 x00 x00 x64 x00 x00 x00))))
(T (W x45 x26 x22 x84 xe4 x9c xf2 xcb)
(T (W x00 x00 x01 x01 xb4 x01 x00 x00)
(L (W x45 x44 x00 x00 x00 x00 x00 x00))
(L (W x00 x00 x80 xbf x00 x00 x80 xbf)))
(T (W x45 x26 x22 x84 xe4 x9c xf2 xcb)
(L (W x00 x00 x00 x00 xc8 xef xfe xff))
(L (W x00 x00 x00 x00 x00 x00 x00 x00)))))
(T (W x20 x01 x00 x00 x04 x00 x00 x00)
(T (W xb8 x00 x00 x00 xac x00 x00 x00)
(T (W x50 x4e xfd xff x00 x01 x01 x01)
(L (W x5f x77 x69 x6c x64 x5f x70 x6f))
(L (W x00 x00 x80 xbf x00 x00 x80 xbf)))
(T (W x00 x00 x00 x00 x04 x00 x00 x00)
(L (W x04 x00 x00 x00 x2a xcf xfe xff))
(L (W xb0 x00 x00 x00 x64 x00 x00 x00))))
(T (W x50 x00 x00 x00 x44 x00 x00 x00)
(T (W xff xff xff xff xbc x00 x00 x00)
(L (W x00 x00 x80 x3f x00 x00 x80 x3f))
(L (W xbc x00 x00 x00 x02 x00 x00 x00)))
(T (W x4a x26 xfe xff x74 x00 x00 x00)
(L (W xb4 x00 x00 x00 x1e x00 x00 x00)) E)))))
(T (W x45 x26 x22 x84 xe4 x9c xf2 xcb)
(T (W x00 x00 x80 x3f x00 x00 x80 x3f)
(T (W x94 x71 xfc xff x1f x00 x00 x00)
(T (W xff xff xff xff xff xff xff xff)
(T (W x50 x00 x00 x00 x44 x00 x00 x00)
(L (W xff xff xff xff xff xff xff xff))
(L (W x45 x26 x22 x84 xe4 x9c xf2 xcb)))
(T (W x45 x26 x22 x84 xe4 x9c xf2 xcb)
(L (W x28 x00 x00 x00 x2b x00 x00 x00))
(L (W x45 x26 x22 x84 xe4 x9c xf2 xcb))))
(T (W x50 xe6 xfc xff x00 x01 x01 x01)
(T (W xff xff xff xff xff xff xff xff)
(L (W x00 x00 x00 x00 x2a x67 xfe xff))
(L (W x00 x00 x80 xbf x00 x00 x80 xbf)))
(T (W x45 x26 x22 x84 xe4 x9c xf2 xcb)
(L (W x00 x00 x80 xbf x00 x00 x80 xbf))
(L (W x2a x00 x00 x00 x0c x00 x00 x00)))))
(T (W x00 x00 x00 x00 x00 x00 x00 x00)
(T (W xff xff xff xff xff xff xff xff)
(T (W x00 x00 x00 x00 x00 x00 x00 x00)
(L (W x00 x00 x00 x00 x00 x00 x00 x00))
(L (W x00 x00 x00 x00 x00 x00 x00 x00)))
(T (W xff xff xff xff xff xff xff xff)
(L (W xff xff xff xff xff xff xff xff))
(L (W xff xff xff xff xff xff xff xff))))
(T (W x4a x1e xfd xff x74 x00 x00 x00)
(T (W x50 x86 xfd xff x00 x01 x01 x01)
(L (W xff xff xff xff xff xff xff xff))
(L (W xa4 x00 x00 x00 x1e x00 x00 x00)))
(T (W x00 x00 x00 x00 x00 x00 x00 x00)
(L (W x45 x26 x22 x84 xe4 x9c xf2 xcb)) E))))
(T (W x00 x00 x00 x00 x00 x00 x00 x00)
(T (W xff xff xff xff xff xff xff xff)
(T (W x45 x26 x22 x84 xe4 x9c xf2 xcb)
(T (W x00 x00 x80 x3f x00 x00 x80 x3f)
(L (W xff xff xff xff xff xff xff xff))
(L (W xff xff xff xff xff xff xff xff)))
(T (W x00 x00 x80 x3f x00 x00 x80 x3f)
(L (W x18 x00 x00 x00 x10 x00 x00 x00))
(L (W xff xff xff xff xff xff xff xff))))
(T (W x18 x00 x00 x00 x0c x00 x00 x00)
(T (W x46 x53 x59 x53 x5f x4e x53 x5f)
(L (W x00 x00 x00 x00 x01 x00 x00 x00))
(L (W x00 x00 x80 xbf x00 x00 x80 xbf)))
(T (W x45 x26 x22 x84 xe4 x9c xf2 xcb)
(L (W xff xff xff xff xb0 x00 x00 x00))
(L (W xff xff xff xff xff xff xff xff)))))
(T (W xff xff xff xff xff xff xff xff)
(T (W x45 x26 x22 x84 xe4 x9c xf2 xcb)
(T (W x68 x00 x00 x00 x5c x00 x00 x00)
(L (W xec x5c xfe xff x2b x00 x00 x00))
(L (W x00 x00 x80 xbf x00 x00 x80 xbf)))
(T (W x00 x00 x00 x00 x00 x00 x00 x00)
(L (W x00 x00 x00 x00 x00 x00 x00 x00))
(L (W x4a xee xff xff x74 x00 x00 x00))))
(T (W x00 x00 x80 x3f x00 x00 x80 x3f)
(T (W x6a xbf xfd xff x00 x00 x01 x01)
(L (W x00 x00 x00 x00 xa2 x9c xfe xff))
(L (W x18 x00 x00 x00 x10 x00 x00 x00)))
(T (W x4a x2e xfe xff x74 x00 x00 x00)
(L (W xbc x00 x00 x00 x02 x00 x00 x00)) E))))))
(T (W xff xff xff xff xff xff xff xff)
(T (W xff xff xff xff xff xff xff xff)
(T (W xff xff xff xff xff xff xff xff)
(T (W x40 x00 x00 x00 x9c x00 x00 x00)
(T (W x00 x00 x80 x3f x00 x00 x80 x3f)
(T (W x00 x00 x00 x00 x02 x00 x00 x00)
(L (W xff xff xff xff xff xff xff xff))
(L (W x00 x00 x00 x00 x00 x00 x00 x00)))
(T (W xc0 x00 x00 x00 x01 x00 x00 x00)
(L (W xbc x00 x00 x00 x0a x00 x00 x00))
(L (W x00 x00 x00 x00 xa2 xa4 xff xff))))
(T (W x00 x00 x00 x00 x00 x00 x00 x00)
(T (W x00 x00 x00 x00 x00 x00 x00 x00)
(L (W x1c x00 x00 x00 x10 x00 x00 x00))
(L (W xff xff xff xff xff xff xff xff)))
(T (W xff xff xff xff xff xff xff xff)
(L (W xff xff xff xff xff xff xff xff))
(L (W xff xff xff xff xff xff xff xff)))))
(T (W x00 x00 x80 x3f x00 x00 x80 x3f)
(T (W x00 x00 x00 x00 x00 x00 x00 x00)
(T (W xff xff xff xff xff xff xff xff)
(L (W xff xff xff xff xff xff xff xff))
(L (W xff xff xff xff xb0 x00 x00 x00)))
(T (W x45 x26 x22 x84 xe4 x9c xf2 xcb)
(L (W x00 x00 x00 x00 x00 x00 x00 x00))
(L (W x46 x53 x59 x53 x5f x4e x53 x5f))))
(T (W xff xff xff xff xff xff xff xff)
(T (W x00 x00 x00 x00 x9a x81 xfd xff)
(L (W x00 x00 x00 x00 x00 x00 x00 x00))
(L (W x00 x00 x00 x00 x00 x00 x00 x00)))
(T (W x68 x00 x00 x00 x5c x00 x00 x00)
(L (W x00 x00 x00 x00 x00 x00 x00 x00))
(L (W x00 x00 x62 x00 x80 x00 x08 x00))))))
(T (W x00 x00 x00 x00 xc8 x53 xfc xff)
(T (W x68 x00 x00 x00 x5c x00 x00 x00)
(T (W x00 x00 x00 x00 x00 x00 x00 x00)
(T (W xff xff xff xff xff xff xff xff)
(L (W x00 x00 x00 x00 x00 x00 x00 x00))
(L (W x00 x00 x80 xbf x00 x00 x80 xbf)))
(T (W x04 x00 x00 x00 xa2 xb8 xfd xff)
(L (W x00 x00 x00 x00 x00 x00 x00 x00))
(L (W x00 x00 x00 x00 x00 x00 x00 x00))))
(T (W xe4 x63 xa2 xcf xf2 xda x51 x03)
(T (W x50 x00 x00 x00 x44 x00 x00 x00)
(L (W x00 x00 x80 xbf x00 x00 x80 xbf))
(L (W xff xff xff xff xff xff xff xff)))
(T (W xff xff xff xff xff xff xff xff)
(L (W x00 x00 x00 x00 x00 x00 x00 x00))
(L (W x00 x00 x00 x00 x00 x00 x00 x00)))))
(T (W x45 x26 x22 x84 xe4 x9c xf2 xcb)
(T (W x45 x26 x22 x84 xe4 x9c xf2 xcb)
(T (W x2a x00 x00 x00 x0c x00 x00 x00)
(L (W x54 x00 x00 x00 x48 x00 x00 x00))
(L (W xff xff xff xff xff xff xff xff)))
(T (W x4a xea xfd xff x74 x00 x00 x00)
(L (W x68 x00 x00 x00 x5c x00 x00 x00))
(L (W xa4 x07 x00 x00 x84 x06 x00 x00))))
(T (W xec x18 xfd xff x3c x00 x00 x00)
(T (W x00 x00 x80 x3f x00 x00 x80 x3f)
(L (W x00 x00 x00 x00 x12 x00 x00 x00))
(L (W x00 x00 x00 x00 x00 x00 x00 x00)))
(T (W x00 x00 x00 x00 x00 x00 x00 x00)
(L (W x00 x00 x00 x00 x12 x00 x00 x00)) E)))))
(T (W xff xff xff xff xff xff xff xff)
(T (W x64 x00 x00 x00 x9c x00 x00 x00)
(T (W x01 x00 x00 x00 x3e x00 x00 x00)
(T (W x00 x00 x80 x3f x00 x00 x80 x3f)
(T (W xff xff xff xff xff xff xff xff)
(L (W x00 x00 x00 x00 x00 x00 x00 x00))
(L (W x00 x00 x00 x00 x00 x00 x00 x00)))
(T (W xff xff xff xff xff xff xff xff)
(L (W xff xff xff xff xff xff xff xff))
(L (W x00 x00 x00 x00 x00 x00 x00 x00))))
(T (W x00 x00 x00 x00 x00 x00 x00 x00)
(T (W x00 x00 x80 x3f x00 x00 x80 x3f)
(L (W x54 x00 x00 x00 x48 x00 x00 x00))
(L (W x00 x00 x00 x00 xa2 x6c xff xff)))
(T (W xff xff xff xff xff xff xff xff)
(L (W xff xff xff xff xff xff xff xff))
(L (W xff xff xff xff xff xff xff xff)))))
(T (W x00 x00 x80 x3f x00 x00 x80 x3f)
(T (W x45 x26 x22 x84 xe4 x9c xf2 xcb)
(T (W x00 x00 x00 x00 x00 x00 x00 x00)
(L (W x45 x26 x22 x84 xe4 x9c xf2 xcb))
(L (W xff xff xff xff xff xff xff xff)))
(T (W x50 x00 x00 x00 x44 x00 x00 x00)
(L (W x00 x00 x80 xbf x00 x00 x80 xbf))
(L (W x00 x00 x00 x00 x00 x00 x00 x00))))
(T (W x00 x00 x00 x00 x00 x00 x00 x00)
(T (W x00 x00 x00 x00 x00 x00 x00 x00)
(L (W xff xff xff xff xff xff xff xff))
(L (W x46 x53 x59 x53 x5f x4e x53 x5f)))
(T (W x50 x00 x00 x00 x44 x00 x00 x00)
(L (W x00 x00 x00 x00 x00 x00 x00 x00)) E))))
(T (W x18 x00 x00 x00 x0c x00 x00 x00)
(T (W x92 x7e xfc xff x78 x00 x00 x00)
(T (W x45 x26 x22 x84 xe4 x9c xf2 xcb)
(T (W xff xff xff xff xff xff xff xff)
(L (W x00 x00 x00 x00 x00 x00 x00 x00))
(L (W x00 x00 x80 xbf x00 x00 x80 xbf)))
(T (W x45 x44 x00 x00 x00 x00 x00 x00)
(L (W x46 x53 x59 x53 x5f x4e x53 x5f))
(L (W x00 x00 x00 x00 x00 x00 x00 x00))))
(T (W x70 x00 x00 x00 xff xff xff xff)
(T (W x03 x00 x00 x00 xd0 x00 x00 x00)
(L (W x03 x00 x00 x00 xbc x00 x00 x00))
(L (W x45 x44 x00 x00 x00 x00 x00 x00)))
(T (W xff xff xff xff x03 x00 x00 x00)
(L (W x00 x00 x00 x00 x00 x00 x00 x00))
(L (W xff xff xff xff xff xff xff xff)))))
(T (W x00 x00 x80 x3f x00 x00 x80 x3f)
(T (W x00 x00 x00 x00 x00 x00 x00 x00)
(T (W x30 x34 x5f x43 x4c x45 x41 x52)
(L (W xb4 x00 x00 x00 x64 x00 x00 x00))
(L (W xff xff xff xff xff xff xff xff)))
(T (W xff xff xff xff xff xff xff xff)
(L (W x18 x00 x00 x00 x0c x00 x00 x00))
(L (W x24 x00 x00 x00 x27 x00 x00 x00))))
(T (W x00 x00 x00 x00 x00 x00 x00 x00)
(T (W x00 x00 x80 x3f x00 x00 x80 x3f)
(L (W xff xff xff xff xff xff xff xff))
(L (W x61 x72 x6c x69 x6b x65 x5f x6c)))
(T (W x18 x01 x00 x00 x04 x00 x00 x00)
(L (W x00 x00 x00 x00 x00 x00 x00 x00)) E)))))))
(T (W x00 x00 x00 x00 x00 x00 x00 x00)
(T (W x40 x00 x00 x00 x9c x00 x00 x00)
(T (W x01 x00 x00 x00 x21 x00 x00 x00)
(T (W x00 x00 x80 x3f x00 x00 x80 x3f)
(T (W x00 x00 x80 x3f x00 x00 x80 x3f)
(T (W x00 x00 x00 x00 x00 x00 x00 x00)
(T (W x64 x00 x00 x00 x9c x00 x00 x00)
(L (W x00 x00 x00 x00 xc8 x21 xfe xff))
(L (W x5d x00 x00 x00 xff xff xff xff)))
(T (W x00 x00 x80 x3f x00 x00 x80 x3f)
(L (W x00 x00 x00 x00 x00 x00 x00 x00))
(L (W xff xff xff xff xff xff xff xff))))
(T (W xff xff xff xff xff xff xff xff)
(T (W xff xff xff xff xff xff xff xff)
(L (W x54 x00 x00 x00 x48 x00 x00 x00))
(L (W xff xff xff xff xff xff xff xff)))
(T (W x4a xf8 xfd xff x74 x00 x00 x00)
(L (W x6c x00 x00 x00 x60 x00 x00 x00))
(L (W x00 x00 x80 xbf x00 x00 x80 xbf)))))
(T (W x00 x00 x00 x00 x00 x00 x00 x00)
(T (W xd6 x00 x00 x00 xff xff xff xff)
(T (W x68 x00 x00 x00 x00 x00 x62 x00)
(L (W x50 x40 xfe xff x00 x01 x01 x01))
(L (W x49 xa1 x68 x4a xeb x5f xdd x3d)))
(T (W x38 x01 x00 x00 x04 x00 x00 x00)
(L (W xff xff xff xff xff xff xff xff))
(L (W x5c x00 x00 x00 xff xff xff xff))))
(T (W xff xff xff xff xff xff xff xff)
(T (W x4a x98 xfd xff x74 x00 x00 x00)
(L (W xff xff xff xff xff xff xff xff))
(L (W xff xff xff xff xff xff xff xff)))
(T (W x45 x26 x22 x84 xe4 x9c xf2 xcb)
(L (W xff xff xff xff xff xff xff xff))
(L (W x00 x00 x80 xbf x00 x00 x80 xbf))))))
(T (W x50 x00 x00 x00 x44 x00 x00 x00)
(T (W x45 x26 x22 x84 xe4 x9c xf2 xcb)
(T (W xf0 x7d xae xd0 x70 x7c x74 x12)
(T (W x18 x00 x00 x00 x0c x00 x00 x00)
(L (W xff xff xff xff xff xff xff xff))
(L (W x00 x00 x00 x00 x00 x00 x00 x00)))
(T (W xff xff xff xff xb0 x00 x00 x00)
(L (W xff xff xff xff xff xff xff xff))
(L (W xff xff xff xff xff xff xff xff))))
(T (W xb8 x00 x00 x00 xac x00 x00 x00)
(T (W x00 x00 x00 x00 x00 x00 x00 x00)
(L (W x00 x00 x00 x00 x00 x00 x00 x00))
(L (W xff xff xff xff xff xff xff xff)))
(T (W x68 x00 x00 x00 x5c x00 x00 x00)
(L (W xff xff xff xff xff xff xff xff))
(L (W xff xff xff xff xa8 x00 x00 x00)))))
(T (W x00 x00 x00 x00 x00 x00 x00 x00)
(T (W xad x01 x00 x00 xff xff xff xff)
(T (W xff xff xff xff xff xff xff xff)
(L (W x60 x00 x00 x00 x00 x00 x64 x00))
(L (W x6c x00 x00 x00 x60 x00 x00 x00)))
(T (W x00 x00 x80 x3f x00 x00 x80 x3f)
(L (W x00 x00 x00 x00 x00 x00 x00 x00))
(L (W x00 x00 x80 xbf x00 x00 x80 xbf))))
(T (W xff xff xff xff xff xff xff xff)
(T (W x00 x00 x00 x00 x00 x00 x00 x00)
(L (W xff xff xff xff xd8 x00 x00 x00))
(L (W xff xff xff xff xff xff xff xff)))
(T (W xff xff xff xff xff xff xff xff)
(L (W xff xff xff xff xff xff xff xff)) E)))))
(T (W x50 x00 x00 x00 x44 x00 x00 x00)
(T (W x00 x00 x80 x3f x00 x00 x80 x3f)
(T (W x00 x00 x80 x3f x00 x00 x80 x3f)
(T (W x00 x00 x00 x00 x00 x00 x00 x00)
(T (W x00 x00 x00 x00 xc8 x29 xfd xff)
(L (W x18 x01 x00 x00 x04 x00 x00 x00))
(L (W xff xff xff xff xff xff xff xff)))
(T (W x50 x00 x00 x00 x44 x00 x00 x00)
(L (W x00 x00 x00 x00 x00 x00 x00 x00))
(L (W xff xff xff xff xff xff xff xff))))
(T (W xff xff xff xff xff xff xff xff)
(T (W x45 x44 x00 x00 x00 x00 x00 x00)
(L (W x00 x00 x00 x00 x00 x00 x00 x00))
(L (W x00 x00 x00 x00 xc8 x69 xff xff)))
(T (W x68 x00 x00 x00 x5c x00 x00 x00)
(L (W xcc x00 x00 x00 x01 x00 x00 x00))
(L (W x00 x00 x80 xbf x00 x00 x80 xbf)))))
(T (W x00 x00 x00 x00 x00 x00 x00 x00)
(T (W x1e xe1 xb4 xfb xd0 xad x49 xb5)
(T (W x64 x00 x00 x00 xa0 x00 x00 x00)
(L (W x00 x00 x80 x3f x00 x00 x80 x3f))
(L (W x6c x00 x00 x00 x60 x00 x00 x00)))
(T (W x5f x4e x53 x5f x30 x34 x5f x43)
(L (W x30 x34 x5f x43 x4c x45 x41 x52))
(L (W x00 x00 x01 x01 x29 x00 x00 x00))))
(T (W x00 x00 x00 x00 x00 x00 x00 x00)
(T (W xff xff xff xff xff xff xff xff)
(L (W x00 x00 x00 x00 x00 x00 x00 x00))
(L (W xff xff xff xff xff xff xff xff)))
(T (W x45 x26 x22 x84 xe4 x9c xf2 xcb)
(L (W xff xff xff xff xff xff xff xff)) E))))
(T (W x68 x00 x00 x00 x5c x00 x00 x00)
(T (W x00 x00 x00 x00 x00 x00 x00 x00)
(T (W x00 x00 x01 x01 xd7 x00 x00 x00)
(T (W x3e x00 x00 x00 x9c x00 x00 x00)
(L (W xfa xec xff xff x00 x00 x01 x01))
(L (W x00 x00 x00 x00 x00 x00 x00 x00)))
(T (W xff xff xff xff xff xff xff xff)
(L (W xff xff xff xff xff xff xff xff))
(L (W x2a x00 x00 x00 x0c x00 x00 x00))))
(T (W xff xff xff xff xff xff xff xff)
(T (W x00 x00 x80 x3f x00 x00 x80 x3f)
(L (W x00 x00 x80 xbf x00 x00 x80 xbf))
(L (W xff xff xff xff xff xff xff xff)))
(T (W x50 x00 x00 x00 x44 x00 x00 x00)
(L (W xff xff xff xff xff xff xff xff))
(L (W x00 x00 x00 x00 x9a xf7 xff xff)))))
(T (W x00 x00 x00 x00 x00 x00 x00 x00)
(T (W xfa x8c xfe xff x00 x00 x01 x01)
(T (W xff xff xff xff xff xff xff xff)
(L (W x00 x00 x80 xbf x00 x00 x80 xbf))
(L (W x4a x70 xff xff x74 x00 x00 x00)))
(T (W x00 x00 x80 x3f x00 x00 x80 x3f)
(L (W x00 x00 x80 xbf x00 x00 x80 xbf))
(L (W x5f x4e x53 x5f x30 x34 x5f x43))))
(T (W xff xff xff xff xff xff xff xff)
(T (W x45 x26 x22 x84 xe4 x9c xf2 xcb)
(L (W x6c x00 x00 x00 x60 x00 x00 x00))
(L (W x00 x00 x80 xbf x00 x00 x80 xbf)))
(T (W xff xff xff xff xff xff xff xff)
(L (W xff xff xff xff xff xff xff xff)) E))))))
(T (W x94 x37 xfc xff x0e x00 x00 x00)
(T (W x01 x00 x00 x00 x04 x00 x00 x00)
(T (W x00 x00 x00 x00 x00 x00 x00 x00)
(T (W xff xff xff xff xff xff xff xff)
(T (W x00 x00 x80 x3f x00 x00 x80 x3f)
(T (W x00 x00 x00 x00 x00 x00 x00 x00)
(L (W x00 x00 x80 x3f x00 x00 x80 x3f))
(L (W x00 x00 x80 xbf x00 x00 x80 xbf)))
(T (W x54 x02 x00 x00 x38 x01 x00 x00)
(L (W x46 x53 x59 x53 x5f x4e x53 x5f))
(L (W x00 x00 x00 x00 x00 x00 x00 x00))))
(T (W x00 x00 x80 x3f x00 x00 x80 x3f)
(T (W x00 x00 x80 x3f x00 x00 x80 x3f)
(L (W xff xff xff xff xff xff xff xff))
(L (W x00 x00 x00 x00 x00 x00 x00 x00)))
(T (W x00 x00 x00 x00 x00 x00 x00 x00)
(L (W x00 x00 x00 x00 x00 x00 x00 x00))
(L (W x00 x00 x80 xbf x00 x00 x80 xbf)))))
(T (W xb8 x00 x00 x00 xac x00 x00 x00)
(T (W x00 x00 x80 x3f x00 x00 x80 x3f)
(T (W x8a xf7 xfe xff x23 x00 x00 x00)
(L (W x00 x00 x00 x00 x02 x00 x00 x00))
(L (W xff xff xff xff xff xff xff xff)))
(T (W x50 x00 x00 x00 x44 x00 x00 x00)
(L (W x6c x00 x00 x00 x60 x00 x00 x00))
(L (W x49 xa1 x68 x4a xeb x5f xdd x3d))))
(T (W x00 x00 x00 x00 x00 x00 x00 x00)
(T (W x4f x84 x6f x8b xe8 xcb x63 xb7)
(L (W x50 x00 x00 x00 x44 x00 x00 x00))
(L (W xc4 x85 xff xff x0a x81 xff xff)))
(T (W xff xff xff xff xff xff xff xff)
(L (W x00 x00 x80 xbf x00 x00 x80 xbf))
(L (W x50 x00 x54 x00 x58 x00 x5c x00))))))
(T (W xff xff xff xff xff xff xff xff)
(T (W xff xff xff xff xff xff xff xff)
(T (W x68 x00 x00 x00 x5c x00 x00 x00)
(T (W x00 x00 x00 x00 x00 x00 x00 x00)
(L (W x00 x00 x80 x3f x00 x00 x80 x3f))
(L (W x45 x26 x22 x84 xe4 x9c xf2 xcb)))
(T (W x45 x26 x22 x84 xe4 x9c xf2 xcb)
(L (W x00 x00 x80 x3f x00 x00 x80 x3f))
(L (W x00 x00 x80 xbf x00 x00 x80 xbf))))
(T (W x00 x00 x80 x3f x00 x00 x80 x3f)
(T (W xff xff xff xff xff xff xff xff)
(L (W x18 x00 x00 x00 x0c x00 x00 x00))
(L (W x00 x00 x00 x00 x00 x00 x00 x00)))
(T (W x00 x00 x00 x00 x00 x00 x00 x00)
(L (W x00 x00 x80 xbf x00 x00 x80 xbf))
(L (W x00 x00 x80 xbf x00 x00 x80 xbf)))))
(T (W x45 x26 x22 x84 xe4 x9c xf2 xcb)
(T (W x00 x00 x80 x3f x00 x00 x80 x3f)
(T (W x00 x00 x80 x3f x00 x00 x80 x3f)
(L (W xff xff xff xff xff xff xff xff))
(L (W xf5 xa1 xaa x28 xbf xd1 x56 x6a)))
(T (W xff xff xff xff xff xff xff xff)
(L (W x5d x00 x00 x00 xff xff xff xff))
(L (W x00 x00 x80 xbf x00 x00 x80 xbf))))
(T (W x00 x00 x80 x3f x00 x00 x80 x3f)
(T (W x18 x00 x00 x00 x0c x00 x00 x00)
(L (W xff xff xff xff xff xff xff xff))
(L (W x00 x00 x80 xbf x00 x00 x80 xbf)))
(T (W x45 x26 x22 x84 xe4 x9c xf2 xcb)
(L (W x00 x01 x01 x01 x0a x11 xff xff)) E)))))
(T (W xec x42 xfc xff x25 x00 x00 x00)
(T (W x00 x00 x00 x00 x02 x00 x00 x00)
(T (W xff xff xff xff xff xff xff xff)
(T (W x50 x00 x00 x00 x44 x00 x00 x00)
(T (W x00 x00 x00 x00 x00 x00 x00 x00)
(L (W x00 x00 x80 x3f x00 x00 x80 x3f))
(L (W x00 x00 x80 xbf x00 x00 x80 xbf)))
(T (W x30 x34 x5f x43 x4c x45 x41 x52)
(L (W x4f x84 x6f x8b xe8 xcb x63 xb7))
(L (W x00 x00 x80 xbf x00 x00 x80 xbf))))
(T (W x45 x26 x22 x84 xe4 x9c xf2 xcb)
(T (W xff xff xff xff xb0 x00 x00 x00)
(L (W xff xff xff xff x9c x00 x00 x00))
(L (W x00 x00 x00 x00 x00 x00 x00 x00)))
(T (W x6b x65 x5f x77 x61 x72 x6c x69)
(L (W x00 x00 x00 x00 x00 x00 x00 x00))
(L (W xff xff xff xff xff xff xff xff)))))
(T (W xff xff xff xff x04 x00 x00 x00)
(T (W x00 x00 x80 x3f x00 x00 x80 x3f)
(T (W x00 x00 x00 x00 x00 x00 x00 x00)
(L (W x00 x00 x80 x3f x00 x00 x80 x3f))
(L (W x00 x00 x00 x00 x9a x4b xff xff)))
(T (W x03 x00 x00 x00 xcc x00 x00 x00)
(L (W xc4 x00 x00 x00 x01 x00 x00 x00))
(L (W x00 x00 x80 xbf x00 x00 x80 xbf))))
(T (W x45 x26 x22 x84 xe4 x9c xf2 xcb)
(T (W x00 x00 x80 x3f x00 x00 x80 x3f)
(L (W x00 x00 x00 x00 x00 x00 x00 x00))
(L (W x00 x01 x01 x01 x0a x89 xff xff)))
(T (W x00 x00 x00 x00 x00 x00 x00 x00)
(L (W x54 x00 x00 x00 x48 x00 x00 x00)) E))))
(T (W xff xff xff xff xff xff xff xff)
(T (W xff xff xff xff xff xff xff xff)
(T (W x50 xbc xfc xff x00 x01 x01 x01)
(T (W x94 x47 xfd xff x3c x00 x00 x00)
(L (W x00 x00 x00 x00 x00 x00 x00 x00))
(L (W xff xff xff xff xff xff xff xff)))
(T (W x00 x00 x80 x3f x00 x00 x80 x3f)
(L (W x00 x00 x80 x3f x00 x00 x80 x3f))
(L (W x00 x00 x80 xbf x00 x00 x80 xbf))))
(T (W x00 x00 x00 x00 x00 x00 x00 x00)
(T (W x02 x00 x00 x00 x2c x01 x00 x00)
(L (W xec x82 xfe xff x2d x00 x00 x00))
(L (W x00 x00 x80 xbf x00 x00 x80 xbf)))
(T (W x95 x01 x00 x00 xff xff xff xff)
(L (W x00 x00 x80 xbf x00 x00 x80 xbf))
(L (W x00 x00 x00 x00 x00 x00 x00 x00)))))
(T (W x68 x00 x00 x00 x5c x00 x00 x00)
(T (W x00 x00 x80 x3f x00 x00 x80 x3f)
(T (W x00 x00 x80 x3f x00 x00 x80 x3f)
(L (W xff xff xff xff xff xff xff xff))
(L (W x00 x00 x00 x00 x00 x00 x00 x00)))
(T (W x00 x00 x00 x00 x00 x00 x00 x00)
(L (W x94 x04 x00 x00 x80 x03 x00 x00))
(L (W x04 x00 x00 x00 x70 x03 x00 x00))))
(T (W x00 x00 x80 x3f x00 x00 x80 x3f)
(T (W xff xff xff xff xff xff xff xff)
(L (W x00 x00 x80 x3f x00 x00 x80 x3f))
(L (W x45 x26 x22 x84 xe4 x9c xf2 xcb)))
(T (W x00 x00 x00 x00 x00 x00 x00 x00)
(L (W x00 x00 x80 xbf x00 x00 x80 xbf)) E)))))))))
(T (W x60 xfb x01 x00 x1c xf9 x01 x00)
(T (W xa0 x42 x01 x00 x0c x3e x01 x00)
(T (W x98 x13 x00 x00 x64 x12 x00 x00)
(T (W xff xff xff xff xff xff xff xff)
(T (W xff xff xff xff xff xff xff xff)
(T (W xff xff xff xff xff xff xff xff)
(T (W xca x75 xfc xff x74 x00 x00 x00)
(T (W x00 x00 x00 x00 x00 x00 x00 x00)
(T (W xff xff xff xff xff xff xff xff)
(L (W xff xff xff xff xff xff xff xff))
(L (W x00 x00 x00 x00 x00 x00 x00 x00)))
(T (W x68 x00 x00 x00 x5c x00 x00 x00)
(L (W x45 x26 x22 x84 xe4 x9c xf2 xcb))
(L (W x46 x53 x59 x53 x5f x4e x53 x5f))))
(T (W x00 x00 x00 x00 x00 x00 x00 x00)
(T (W x00 x00 x00 x00 x00 x00 x00 x00)
(L (W xcc x00 x00 x00 x02 x00 x00 x00))
(L (W x74 x04 x00 x00 x68 x03 x00 x00)))
(T (W xff xff xff xff xff xff xff xff)
(L (W xff xff xff xff xff xff xff xff))
(L (W xff xff xff xff xc0 x00 x00 x00)))))
(T (W x00 x00 x80 x3f x00 x00 x80 x3f)
(T (W x00 x00 x00 x00 x00 x00 x00 x00)
(T (W xff xff xff xff xff xff xff xff)
(L (W xff xff xff xff xff xff xff xff))
(L (W x00 x00 x80 xbf x00 x00 x80 xbf)))
(T (W x00 x00 x00 x00 x00 x00 x00 x00)
(L (W x0e x00 x00 x00 x0c x00 x00 x00))
(L (W x00 x00 x00 x00 x00 x00 x00 x00))))
(T (W xff xff xff xff xff xff xff xff)
(T (W xb0 x00 x00 x00 x64 x00 x00 x00)
(L (W xff xff xff xff xff xff xff xff))
(L (W x14 x89 xff xff x18 x00 x00 x00)))
(T (W x68 x00 x00 x00 x5c x00 x00 x00)
(L (W x00 x00 x00 x00 x00 x00 x00 x00))
(L (W x18 x00 x1c x00 x20 x00 x24 x00))))))
(T (W x18 x00 x00 x00 x10 x00 x00 x00)
(T (W x00 x00 x80 x3f x00 x00 x80 x3f)
(T (W x00 x00 x00 x00 x00 x00 x00 x00)
(T (W x4c x00 x00 x00 xff xff xff xff)
(L (W x00 x00 x00 x00 x00 x00 x00 x00))
(L (W x00 x00 x00 x00 x00 x00 x00 x00)))
(T (W xff xff xff xff xff xff xff xff)
(L (W x67 x72 x6f x75 x70 x5f x6c x65))
(L (W x00 x00 x00 x00 x12 x00 x00 x00))))
(T (W x00 x00 x00 x00 x00 x00 x00 x00)
(T (W x00 x00 x80 x3f x00 x00 x80 x3f)
(L (W x5c x00 x00 x00 x50 x00 x00 x00))
(L (W xff xff xff xff xff xff xff xff)))
(T (W xff xff xff xff xff xff xff xff)
(L (W x00 x00 x00 x00 x00 x00 x00 x00))
(L (W x1c x00 x00 x00 x10 x00 x00 x00)))))
(T (W x00 x00 x80 x3f x00 x00 x80 x3f)
(T (W x00 x00 x00 x00 x00 x00 x00 x00)
(T (W x40 x02 x00 x00 x2c x01 x00 x00)
(L (W x00 x00 x80 x3f x00 x00 x80 x3f))
(L (W xff xff xff xff xff xff xff xff)))
(T (W x00 x00 x80 x3f x00 x00 x80 x3f)
(L (W x00 x00 x80 xbf x00 x00 x80 xbf))
(L (W x12 x00 x00 x00 x46 x53 x59 x53))))
(T (W x5e x00 x00 x00 xff xff xff xff)
(T (W x00 x00 x00 x00 x00 x00 x00 x00)
(L (W xff xff xff xff xff xff xff xff))
(L (W x00 x00 x00 x00 x00 x00 x00 x00)))
(T (W x00 x00 x58 x00 x00 x00 x07 x00)
(L (W x00 x00 x00 x00 x12 x00 x00 x00)) E)))))
(T (W xff xff xff xff xff xff xff xff)
(T (W xff xff xff xff xff xff xff xff)
(T (W x00 x00 x80 x3f x00 x00 x80 x3f)
(T (W x00 x00 x00 x00 x00 x00 x00 x00)
(T (W xff xff xff xff xff xff xff xff)
(L (W x70 x5f x6c x65 x61 x64 x65 x72))
(L (W x00 x00 x00 x00 x00 x00 x00 x00)))
(T (W xff xff xff xff xc8 x00 x00 x00)
(L (W x6c x0a x00 x00 x50 x09 x00 x00))
(L (W x54 x02 x00 x00 x38 x01 x00 x00))))
(T (W x00 x00 x00 x00 x00 x00 x00 x00)
(T (W x00 x00 x00 x00 x00 x00 x00 x00)
(L (W x54 x00 x00 x00 x48 x00 x00 x00))
(L (W xff xff xff xff xff xff xff xff)))
(T (W xff xff xff xff xff xff xff xff)
(L (W xff xff xff xff xff xff xff xff))
(L (W x00 x00 x80 xbf x00 x00 x80 xbf)))))
(T (W x50 x00 x00 x00 x44 x00 x00 x00)
(T (W x00 x00 x00 x00 x00 x00 x00 x00)
(T (W x64 x00 x00 x00 xa0 x00 x00 x00)
(L (W x45 x26 x22 x84 xe4 x9c xf2 xcb))
(L (W xca x5d xff xff x74 x00 x00 x00)))
(T (W x00 x00 x80 x3f x00 x00 x80 x3f)
(L (W x00 x00 x00 x00 x00 x00 x00 x00))
(L (W x00 x00 x00 x00 x00 x00 x00 x00))))
(T (W x04 x00 x00 x00 x42 xcb xfe xff)
(T (W x02 x00 x00 x00 x30 x01 x00 x00)
(L (W x00 x00 x00 x00 x00 x00 x00 x00))
(L (W x00 x00 x00 x00 x12 x00 x00 x00)))
(T (W x50 x00 x00 x00 x44 x00 x00 x00)
(L (W x00 x00 x00 x00 x00 x00 x00 x00)) E))))
(T (W x01 x00 x00 x00 xa0 x00 x00 x00)
(T (W x00 x00 x80 x3f x00 x00 x80 x3f)
(T (W x00 x00 x00 x00 x00 x00 x00 x00)
(T (W xff xff xff xff xff xff xff xff)
(L (W x5f x77 x69 x6c x64 x5f x70 x6f))
(L (W x45 x26 x22 x84 xe4 x9c xf2 xcb)))
(T (W xff xff xff xff xff xff xff xff)
(L (W x45 x44 x00 x00 x00 x00 x00 x00))
(L (W x00 x00 x00 x00 x00 x00 x00 x00))))
(T (W x00 x00 x00 x00 x04 x00 x00 x00)
(T (W x12 x7a xfd xff x78 x00 x00 x00)
(L (W x00 x00 x80 xbf x00 x00 x80 xbf))
(L (W xff xff xff xff xff xff xff xff)))
(T (W xff xff xff xff x03 x00 x00 x00)
(L (W x2e x00 x00 x00 x0c x00 x00 x00))
(L (W x00 x00 x00 x00 x00 x00 x00 x00)))))
(T (W x00 x00 x80 x3f x00 x00 x80 x3f)
(T (W x40 x00 x00 x00 x0c x00 x00 x00)
(T (W x12 x85 xfd xff x64 x00 x00 x00)
(L (W x00 x00 x80 xbf x00 x00 x80 xbf))
(L (W xff xff xff xff xff xff xff xff)))
(T (W x45 x26 x22 x84 xe4 x9c xf2 xcb)
(L (W x45 x26 x22 x84 xe4 x9c xf2 xcb))
(L (W x00 x00 x00 x00 x00 x00 x00 x00))))
(T (W xff xff xff xff xff xff xff xff)
(T (W x45 x26 x22 x84 xe4 x9c xf2 xcb)
(L (W x00 x00 x80 x3f x00 x00 x80 x3f))
(L (W x30 x34 x5f x43 x4c x45 x41 x52)))
(T (W x18 x01 x00 x00 x04 x00 x00 x00)
(L (W x00 x00 x00 x00 x00 x00 x00 x00)) E))))))
(T (W x45 x26 x22 x84 xe4 x9c xf2 xcb)
(T (W x45 x26 x22 x84 xe4 x9c xf2 xcb)
(T (W x00 x00 x00 x00 x00 x00 x00 x00)
(T (W x00 x00 x00 x00 x00 x00 x00 x00)
(T (W xff xff xff xff xff xff xff xff)
(T (W x00 x00 x80 x3f x00 x00 x80 x3f)
(L (W x00 x00 x80 x3f x00 x00 x80 x3f))
(L (W x45 x26 x22 x84 xe4 x9c xf2 xcb)))
(T (W x00 x00 x00 x00 x00 x00 x00 x00)
(L (W x79 x61 x62 x75 x6e x00 x00 x00))
(L (W x00 x00 x80 xbf x00 x00 x80 xbf))))
(T (W x45 x26 x22 x84 xe4 x9c xf2 xcb)
(T (W x00 x00 x00 x00 x48 x63 xfd xff)
(L (W x00 x00 x00 x00 x00 x00 x00 x00))
(L (W x00 x00 x80 xbf x00 x00 x80 xbf)))
(T (W x45 x26 x22 x84 xe4 x9c xf2 xcb)
(L (W x00 x00 x00 x00 x00 x00 x00 x00))
(L (W x00 x00 x00 x00 x00 x00 x00 x00)))))
(T (W xff xff xff xff xff xff xff xff)
(T (W xb8 x00 x00 x00 xac x00 x00 x00)
(T (W x74 x00 x04 x00 x68 x00 x08 x00)
(L (W x00 x00 x00 x00 x00 x00 x00 x00))
(L (W xdc x9c xaa x28 xbf xce x56 x6a)))
(T (W xff xff xff xff xc4 x00 x00 x00)
(L (W x00 x00 x00 x00 x48 xc3 xfe xff))
(L (W x00 x01 x01 x01 x42 xc0 xff xff))))
(T (W x00 x00 x80 x3f x00 x00 x80 x3f)
(T (W x00 x00 x80 x3f x00 x00 x80 x3f)
(L (W xca x99 xfe xff x74 x00 x00 x00))
(L (W x45 x26 x22 x84 xe4 x9c xf2 xcb)))
(T (W x00 x00 x00 x00 x00 x00 x00 x00)
(L (W x45 x26 x22 x84 xe4 x9c xf2 xcb))
(L (W x44 x00 x00 x00 x00 x00 x80 xbf))))))
(T (W x00 x00 x00 x00 x00 x00 x00 x00)
(T (W x00 x00 x00 x00 x1a x33 xff xff)
(T (W x64 x00 x00 x00 x9c x00 x00 x00)
(T (W x00 x00 x00 x00 x00 x00 x00 x00)
(L (W xca x49 xfe xff x74 x00 x00 x00))
(L (W xff xff xff xff xff xff xff xff)))
(T (W x00 x00 x80 x3f x00 x00 x80 x3f)
(L (W x18 x00 x00 x00 x10 x00 x00 x00))
(L (W x2b x00 x00 x00 x2e x00 x00 x00))))
(T (W x00 x00 x80 x3f x00 x00 x80 x3f)
(T (W x4b x00 x00 x00 xff xff xff xff)
(L (W xff xff xff xff xff xff xff xff))
(L (W x00 x00 x80 xbf x00 x00 x80 xbf)))
(T (W x45 x26 x22 x84 xe4 x9c xf2 xcb)
(L (W x00 x00 x80 xbf x00 x00 x80 xbf))
(L (W x14 x00 x00 x00 x0c x00 x00 x00)))))
(T (W xff xff xff xff xff xff xff xff)
(T (W xff xff xff xff x03 x00 x00 x00)
(T (W x00 x00 x80 x3f x00 x00 x80 x3f)
(L (W xff xff xff xff xff xff xff xff))
(L (W x00 x00 x00 x00 x00 x00 x00 x00)))
(T (W x00 x00 x00 x00 x00 x00 x00 x00)
(L (W x00 x00 x00 x00 x1a xd1 xfe xff))
(L (W x00 x00 x80 xbf x00 x00 x80 xbf))))
(T (W x00 x00 x80 x3f x00 x00 x80 x3f)
(T (W xff xff xff xff xff xff xff xff)
(L (W xd0 x91 xfe xff x00 x01 x01 x01))
(L (W x6c x00 x00 x00 x60 x00 x00 x00)))
(T (W x68 x00 x00 x00 x5c x00 x00 x00)
(L (W xd0 x11 xff xff x00 x01 x01 x01)) E)))))
(T (W x00 x00 x00 x00 x00 x00 x00 x00)
(T (W x00 x00 x00 x00 x00 x00 x00 x00)
(T (W x21 x00 x00 x00 x10 x00 x00 x00)
(T (W xff xff xff xff xff xff xff xff)
(T (W x45 x26 x22 x84 xe4 x9c xf2 xcb)
(L (W x00 x00 x00 x00 x48 x2b xfe xff))
(L (W x00 x00 x00 x00 x48 x2b xff xff)))
(T (W x49 xa1 x68 x4a xeb x5f xdd x3d)
(L (W x45 x44 x00 x00 x00 x00 x00 x00))
(L (W x50 x00 x00 x00 x44 x00 x00 x00))))
(T (W x50 x00 x00 x00 x44 x00 x00 x00)
(T (W xff xff xff xff xff xff xff xff)
(L (W x00 x00 x00 x00 xc2 x78 xfe xff))
(L (W x00 x00 x80 xbf x00 x00 x80 xbf)))
(T (W x00 x00 x00 x00 x00 x00 x00 x00)
(L (W x00 x00 x80 xbf x00 x00 x80 xbf))
(L (W x00 x00 x00 x00 x00 x00 x00 x00)))))
(T (W xff xff xff xff xff xff xff xff)
(T (W xc0 x00 x00 x00 xb4 x00 x00 x00)
(T (W x50 x00 x00 x00 x44 x00 x00 x00)
(L (W x00 x00 x00 x00 x00 x00 x00 x00))
(L (W x00 x00 x00 x00 x00 x00 x00 x00)))
(T (W xff xff xff xff xff xff xff xff)
(L (W xff xff xff xff xff xff xff xff))
(L (W x45 x26 x22 x84 xe4 x9c xf2 xcb))))
(T (W x00 x00 x00 x00 x00 x00 x00 x00)
(T (W xca xa1 xfd xff x74 x00 x00 x00)
(L (W x94 x04 x12 x3a xb1 x82 x66 xe3))
(L (W x12 x8e xff xff x78 x00 x00 x00)))
(T (W x96 x01 x00 x00 xff xff xff xff)
(L (W x50 x00 x00 x00 x44 x00 x00 x00)) E))))
(T (W x00 x00 x00 x00 x00 x00 x00 x00)
(T (W x1c x01 x00 x00 x04 x00 x00 x00)
(T (W xff xff xff xff x04 x00 x00 x00)
(T (W x45 x26 x22 x84 xe4 x9c xf2 xcb)
(L (W xca x51 xfe xff x74 x00 x00 x00))
(L (W xff xff xff xff xff xff xff xff)))
(T (W x54 x00 x00 x00 x48 x00 x00 x00)
(L (W x12 xbe xfe xff x78 x00 x00 x00))
(L (W xff xff xff xff xff xff xff xff))))
(T (W x00 x00 x80 x3f x00 x00 x80 x3f)
(T (W x00 x00 x00 x00 x00 x00 x00 x00)
(L (W x00 x00 x00 x00 x00 x00 x00 x00))
(L (W x54 x00 x00 x00 x48 x00 x00 x00)))
(T (W x00 x00 x00 x00 x00 x00 x00 x00)
(L (W x68 x00 x00 x00 x5c x00 x00 x00))
(L (W x1c x00 x20 x00 x24 x00 x28 x00)))))
(T (W xff xff xff xff xff xff xff xff)
(T (W x00 x00 x00 x00 x48 xdb xfc xff)
(T (W x6c x00 x00 x00 x60 x00 x00 x00)
(L (W x00 x00 x00 x00 x12 x00 x00 x00))
(L (W x00 x00 x80 xbf x00 x00 x80 xbf)))
(T (W x00 x00 x00 x00 x00 x00 x00 x00)
(L (W x00 x00 x00 x00 x00 x00 x00 x00))
(L (W x00 x00 x00 x00 x00 x00 x00 x00))))
(T (W x54 x00 x00 x00 x48 x00 x00 x00)
(T (W xff xff xff xff xff xff xff xff)
(L (W x00 x00 x80 x3f x00 x00 x80 x3f))
(L (W x00 x00 x80 xbf x00 x00 x80 xbf)))
(T (W x00 x00 x80 x3f x00 x00 x80 x3f)
(L (W x6c x00 x00 x00 x60 x00 x00 x00)) E)))))))
(T (W x68 x00 x00 x00 x5c x00 x00 x00)
(T (W x00 x00 x00 x00 x00 x00 x00 x00)
(T (W x10 x00 x00 x00 x10 x00 x00 x00)
(T (W xff xff xff xff xff xff xff xff)
(T (W xff xff xff xff xff xff xff xff)
(T (W x50 x00 x00 x00 x44 x00 x00 x00)
(T (W x00 x00 x00 x00 x00 x00 x00 x00)
(L (W x00 x00 x00 x00 x00 x00 x00 x00))
(L (W x00 x00 x80 xbf x00 x00 x80 xbf)))
(T (W xff xff xff xff xff xff xff xff)
(L (W xff xff xff xff xa0 x00 x00 x00))
(L (W x00 x00 x00 x00 x00 x00 x00 x00))))
(T (W x00 x00 x00 x00 x00 x00 x00 x00)
(T (W x00 x00 x80 x3f x00 x00 x80 x3f)
(L (W xff xff xff xff xff xff xff xff))
(L (W x00 x00 x00 x00 x00 x00 x00 x00)))
(T (W x00 x00 x00 x00 x00 x00 x00 x00)
(L (W x00 x00 x00 x00 x1a xdf xfe xff))
(L (W xff xff xff xff xff xff xff xff)))))
(T (W xca x97 xfc xff x74 x00 x00 x00)
(T (W x00 x00 x80 x3f x00 x00 x80 x3f)
(T (W x00 x00 x80 x3f x00 x00 x80 x3f)
(L (W x00 x00 x00 x00 x02 x00 x00 x00))
(L (W xff xff xff xff xff xff xff xff)))
(T (W x00 x00 x80 x3f x00 x00 x80 x3f)
(L (W x00 x00 x80 xbf x00 x00 x80 xbf))
(L (W x00 x00 x80 xbf x00 x00 x80 xbf))))
(T (W x45 x26 x22 x84 xe4 x9c xf2 xcb)
(T (W x00 x00 x00 x00 x00 x00 x00 x00)
(L (W x00 x00 x00 x00 x00 x00 x00 x00))
(L (W x00 x00 x80 xbf x00 x00 x80 xbf)))
(T (W xff xff xff xff xff xff xff xff)
(L (W x00 x00 x00 x00 x00 x00 x00 x00))
(L (W xff xff xff xff xff xff xff xff))))))
(T (W xff xff xff xff xff xff xff xff)
(T (W xff xff xff xff x04 x00 x00 x00)
(T (W x00 x00 x80 x3f x00 x00 x80 x3f)
(T (W x00 x00 x00 x00 x00 x00 x00 x00)
(L (W x00 x00 x80 x3f x00 x00 x80 x3f))
(L (W x00 x00 x80 xbf x00 x00 x80 xbf)))
(T (W x00 x00 x00 x00 x00 x00 x00 x00)
(L (W x00 x00 x80 x3f x00 x00 x80 x3f))
(L (W x00 x00 x80 xbf x00 x00 x80 xbf))))
(T (W x00 x00 x00 x00 x00 x00 x00 x00)
(T (W x18 x00 x00 x00 x10 x00 x00 x00)
(L (W xc4 x00 x00 x00 x01 x00 x00 x00))
(L (W x00 x00 x00 x00 x00 x00 x00 x00)))
(T (W x00 x00 x00 x00 x00 x00 x00 x00)
(L (W x00 x00 x00 x00 x00 x00 x00 x00))
(L (W x58 x00 x00 x00 x00 x00 x5c x00)))))
(T (W x18 x00 x00 x00 x10 x00 x00 x00)
(T (W x00 x00 x80 x3f x00 x00 x80 x3f)
(T (W x00 x00 x00 x00 x00 x00 x00 x00)
(L (W x44 x41 x52 x4b x52 x41 x49 x00))
(L (W xff xff xff xff xff xff xff xff)))
(T (W xff xff xff xff xff xff xff xff)
(L (W xff xff xff xff x9c x00 x00 x00))
(L (W xff xff xff xff xff xff xff xff))))
(T (W x00 x00 x00 x00 x00 x00 x00 x00)
(T (W x00 x00 x80 x3f x00 x00 x80 x3f)
(L (W x00 x00 x00 x00 x00 x00 x00 x00))
(L (W x45 x26 x22 x84 xe4 x9c xf2 xcb)))
(T (W x45 x26 x22 x84 xe4 x9c xf2 xcb)
(L (W x00 x00 x80 xbf x00 x00 x80 xbf)) E)))))
(T (W xcc x01 x00 x00 xff xff xff xff)
(T (W xff xff xff xff xff xff xff xff)
(T (W xff xff xff xff xff xff xff xff)
(T (W x6c x00 x00 x00 x60 x00 x00 x00)
(T (W x00 x00 x00 x00 x00 x00 x00 x00)
(L (W x00 x00 x80 x3f x00 x00 x80 x3f))
(L (W x45 x26 x22 x84 xe4 x9c xf2 xcb)))
(T (W xa4 x01 x00 x00 xff xff xff xff)
(L (W x18 x00 x00 x00 x10 x00 x00 x00))
(L (W x45 x26 x22 x84 xe4 x9c xf2 xcb))))
(T (W x00 x00 x00 x00 x00 x00 x00 x00)
(T (W x54 x00 x00 x00 x48 x00 x00 x00)
(L (W xff xff xff xff x9c x00 x00 x00))
(L (W x00 x00 x00 x00 x00 x00 x00 x00)))
(T (W x7a x9c xff xff x00 x00 x01 x01)
(L (W x14 xf3 xfe xff x1e x00 x00 x00))
(L (W xff xff xff xff xff xff xff xff)))))
(T (W x45 x26 x22 x84 xe4 x9c xf2 xcb)
(T (W x00 x00 x80 x3f x00 x00 x80 x3f)
(T (W x65 x5f x73 x6b x79 x00 x00 x00)
(L (W xff xff xff xff xff xff xff xff))
(L (W x95 x01 x00 x00 xff xff xff xff)))
(T (W xca xdf xfd xff x74 x00 x00 x00)
(L (W x6c x00 x00 x00 x60 x00 x00 x00))
(L (W x3c x00 x00 x00 x00 x00 x80 xbf))))
(T (W x50 x00 x00 x00 x44 x00 x00 x00)
(T (W x00 x00 x00 x00 x00 x00 x00 x00)
(L (W x1c x00 x00 x00 x10 x00 x00 x00))
(L (W x49 xa1 x68 x4a xeb x5f xdd x3d)))
(T (W xff xff xff xff x03 x00 x00 x00)
(L (W x45 x26 x22 x84 xe4 x9c xf2 xcb)) E))))
(T (W xbc x01 x00 x00 xff xff xff xff)
(T (W x18 x00 x00 x00 x0c x00 x00 x00)
(T (W x00 x00 x80 x3f x00 x00 x80 x3f)
(T (W x00 x00 x00 x00 x00 x00 x00 x00)
(L (W x00 x00 x80 x3f x00 x00 x80 x3f))
(L (W xff xff xff xff xa0 x00 x00 x00)))
(T (W x4f x84 x6f x8b xe8 xcb x63 xb7)
(L (W x49 xa1 x68 x4a xeb x5f xdd x3d))
(L (W x00 x00 x80 xbf x00 x00 x80 xbf))))
(T (W x00 x00 x00 x00 x00 x00 x00 x00)
(T (W xff xff xff xff xff xff xff xff)
(L (W xff xff xff xff xff xff xff xff))
(L (W x00 x00 x00 x00 x00 x00 x00 x00)))
(T (W xb3 x01 x00 x00 xff xff xff xff)
(L (W x00 x00 x80 xbf x00 x00 x80 xbf))
(L (W x00 x00 x80 xbf x00 x00 x80 xbf)))))
(T (W x40 x00 x00 x00 x9c x00 x00 x00)
(T (W x00 x00 x80 x3f x00 x00 x80 x3f)
(T (W x49 xa1 x68 x4a xeb x5f xdd x3d)
(L (W xff xff xff xff xff xff xff xff))
(L (W x00 x00 x00 x00 x00 x00 x00 x00)))
(T (W xff xff xff xff xff xff xff xff)
(L (W xff xff xff xff xff xff xff xff))
(L (W xca xef xff xff x74 x00 x00 x00))))
(T (W x00 x00 x00 x00 x00 x00 x00 x00)
(T (W xb8 x00 x00 x00 x64 x00 x00 x00)
(L (W x99 x01 x00 x00 xff xff xff xff))
(L (W xff xff xff xff xff xff xff xff)))
(T (W x00 x00 x00 x00 x00 x00 x00 x00)
(L (W x45 x26 x22 x84 xe4 x9c xf2 xcb)) E))))))
(T (W x00 x00 x80 x3f x00 x00 x80 x3f)
(T (W x00 x00 x80 x3f x00 x00 x80 x3f)
(T (W x54 x00 x00 x00 x48 x00 x00 x00)
(T (W x45 x26 x22 x84 xe4 x9c xf2 xcb)
(T (W xff xff xff xff xff xff xff xff)
(T (W x18 x00 x00 x00 x10 x00 x00 x00)
(L (W xff xff xff xff xff xff xff xff))
(L (W xff xff xff xff xff xff xff xff)))
(T (W x00 x00 x80 x3f x00 x00 x80 x3f)
(L (W x12 xa8 xfe xff x78 x00 x00 x00))
(L (W xff xff xff xff xb0 x00 x00 x00))))
(T (W xff xff xff xff xff xff xff xff)
(T (W xff xff xff xff xff xff xff xff)
(L (W x00 x00 x00 x00 x00 x00 x00 x00))
(L (W x44 x65 xff xff x8a x60 xff xff)))
(T (W x68 x00 x00 x00 x5c x00 x00 x00)
(L (W x00 x00 x80 xbf x00 x00 x80 xbf))
(L (W xff xff xff xff xff xff xff xff)))))
(T (W x00 x00 x00 x00 x00 x00 x00 x00)
(T (W xff xff xff xff xff xff xff xff)
(T (W x00 x00 x80 x3f x00 x00 x80 x3f)
(L (W x00 x00 x80 x3f x00 x00 x80 x3f))
(L (W x00 x00 x80 xbf x00 x00 x80 xbf)))
(T (W xff xff xff xff x01 x00 x00 x00)
(L (W xd9 x00 x00 x00 xff xff xff xff))
(L (W xff xff xff xff xff xff xff xff))))
(T (W x45 x26 x22 x84 xe4 x9c xf2 xcb)
(T (W x03 x00 x00 x00 xd0 x00 x00 x00)
(L (W xff xff xff xff xff xff xff xff))
(L (W x00 x00 x00 x00 x00 x00 x00 x00)))
(T (W x45 x26 x22 x84 xe4 x9c xf2 xcb)
(L (W xff xff xff xff xff xff xff xff))
(L (W x00 x00 x00 x00 x00 x00 x00 x00))))))
(T (W x45 x26 x22 x84 xe4 x9c xf2 xcb)
(T (W x00 x00 x80 x3f x00 x00 x80 x3f)
(T (W x02 x72 xff xff x7d x00 x00 x00)
(T (W xca x4b xfd xff x74 x00 x00 x00)
(L (W xff xff xff xff xff xff xff xff))
(L (W x00 x00 x00 x00 x00 x00 x00 x00)))
(T (W xbc x00 x00 x00 x64 x00 x00 x00)
(L (W xff xff xff xff xff xff xff xff))
(L (W xff xff xff xff xff xff xff xff))))
(T (W xff xff xff xff xff xff xff xff)
(T (W x00 x00 x00 x00 x00 x00 x00 x00)
(L (W x25 x00 x00 x00 x10 x00 x00 x00))
(L (W x45 x26 x22 x84 xe4 x9c xf2 xcb)))
(T (W x50 x00 x00 x00 x44 x00 x00 x00)
(L (W xff xff xff xff xff xff xff xff))
(L (W xff xff xff xff xff xff xff xff)))))
(T (W x3e x00 x00 x00 x0c x00 x00 x00)
(T (W xff xff xff xff xff xff xff xff)
(T (W xff xff xff xff xff xff xff xff)
(L (W x00 x00 x00 x00 x00 x00 x00 x00))
(L (W x00 x00 x80 xbf x00 x00 x80 xbf)))
(T (W x49 xa1 x68 x4a xeb x5f xdd x3d)
(L (W x00 x00 x80 xbf x00 x00 x80 xbf))
(L (W xff xff xff xff xff xff xff xff))))
(T (W xff xff xff xff xff xff xff xff)
(T (W x00 x00 x00 x00 x00 x00 x00 x00)
(L (W x00 x00 x00 x00 x1b x00 x00 x00))
(L (W xff xff xff xff xff xff xff xff)))
(T (W xff xff xff xff xff xff xff xff)
(L (W x00 x00 x01 x01 x2a x00 x00 x00)) E)))))
(T (W x00 x00 x80 x3f x00 x00 x80 x3f)
(T (W x00 x00 x80 x3f x00 x00 x80 x3f)
(T (W x45 x26 x22 x84 xe4 x9c xf2 xcb)
(T (W x2b x01 x00 x00 xff xff xff xff)
(T (W x01 x00 x00 x00 xa0 x00 x00 x00)
(L (W xff xff xff xff xff xff xff xff))
(L (W xff xff xff xff xff xff xff xff)))
(T (W x6c x00 x00 x00 x60 x00 x00 x00)
(L (W x03 x00 x00 x00 xd0 x00 x00 x00))
(L (W xff xff xff xff xff xff xff xff))))
(T (W xff xff xff xff xff xff xff xff)
(T (W x14 x77 xfd xff x2b x00 x00 x00)
(L (W x46 x53 x59 x53 x5f x4e x53 x5f))
(L (W xff xff xff xff xb0 x00 x00 x00)))
(T (W x00 x00 x80 x3f x00 x00 x80 x3f)
(L (W x45 x26 x22 x84 xe4 x9c xf2 xcb))
(L (W x49 xa1 x68 x4a xeb x5f xdd x3d)))))
(T (W x00 x00 x00 x00 x00 x00 x00 x00)
(T (W xff xff xff xff xff xff xff xff)
(T (W xc0 x00 x00 x00 x01 x00 x00 x00)
(L (W xff xff xff xff xff xff xff xff))
(L (W x00 x00 x80 xbf x00 x00 x80 xbf)))
(T (W x00 x00 x00 x00 x00 x00 x00 x00)
(L (W x00 x00 x00 x00 x00 x00 x00 x00))
(L (W xff xff xff xff xff xff xff xff))))
(T (W xff xff xff xff x03 x00 x00 x00)
(T (W xff xff xff xff xff xff xff xff)
(L (W x6c x00 x00 x00 x60 x00 x00 x00))
(L (W x00 x00 x01 x01 x2a x00 x00 x00)))
(T (W x00 x00 x00 x00 x00 x00 x00 x00)
(L (W xff xff xff xff xff xff xff xff)) E))))
(T (W x00 x00 x00 x00 x00 x00 x00 x00)
(T (W x00 x00 x00 x00 x00 x00 x00 x00)
(T (W x20 x01 x00 x00 x04 x00 x00 x00)
(T (W x00 x00 x80 x3f x00 x00 x80 x3f)
(L (W x00 x00 x00 x00 x00 x00 x00 x00))
(L (W x00 x00 x00 x00 x00 x00 x00 x00)))
(T (W xff xff xff xff xff xff xff xff)
(L (W xff xff xff xff xff xff xff xff))
(L (W xff xff xff xff xff xff xff xff))))
(T (W x64 x00 x00 x00 x9c x00 x00 x00)
(T (W x00 x00 x80 x3f x00 x00 x80 x3f)
(L (W x00 x00 x80 xbf x00 x00 x80 xbf))
(L (W xff xff xff xff xff xff xff xff)))
(T (W x45 x26 x22 x84 xe4 x9c xf2 xcb)
(L (W xff xff xff xff xff xff xff xff))
(L (W x18 x00 x1c x00 x20 x00 x24 x00)))))
(T (W x7a x50 xfe xff x00 x00 x01 x01)
(T (W xff xff xff xff xff xff xff xff)
(T (W xff xff xff xff xff xff xff xff)
(L (W x00 x00 x80 xbf x00 x00 x80 xbf))
(L (W x45 x26 x22 x84 xe4 x9c xf2 xcb)))
(T (W xca xf3 xfd xff x74 x00 x00 x00)
(L (W x00 x00 x80 xbf x00 x00 x80 xbf))
(L (W x00 x00 x80 xbf x00 x00 x80 xbf))))
(T (W xff xff xff xff xff xff xff xff)
(T (W x49 xa1 x68 x4a xeb x5f xdd x3d)
(L (W xff xff xff xff xff xff xff xff))
(L (W xff xff xff xff xbc x00 x00 x00)))
(T (W x00 x00 x00 x00 x48 x1d xfe xff)
(L (W xff xff xff xff xff xff xff xff)) E))))))))
(T (W xf8 xa3 x00 x00 xc4 xa2 x00 x00)
(T (W x00 x00 x80 x3f x00 x00 x80 x3f)
(T (W x04 x00 x00 x00 x4a x1e xff xff)
(T (W xff xff xff xff xff xff xff xff)
(T (W xff xff xff xff xff xff xff xff)
(T (W xff xff xff xff xff xff xff xff)
(T (W x00 x00 x80 x3f x00 x00 x80 x3f)
(T (W x0a xd2 xfe xff x5c x00 x00 x00)
(L (W x18 x01 x00 x00 x04 x00 x00 x00))
(L (W x45 x26 x22 x84 xe4 x9c xf2 xcb)))
(T (W x18 x00 x00 x00 x10 x00 x00 x00)
(L (W x12 xa3 xfe xff x78 x00 x00 x00))
(L (W x00 x00 x00 x00 x00 x00 x00 x00))))
(T (W x00 x00 x00 x00 x00 x00 x00 x00)
(T (W x45 x26 x22 x84 xe4 x9c xf2 xcb)
(L (W xff xff xff xff xff xff xff xff))
(L (W x00 x00 x00 x00 x00 x00 x00 x00)))
(T (W xff xff xff xff x01 x00 x00 x00)
(L (W xff xff xff xff xff xff xff xff))
(L (W xff xff xff xff xff xff xff xff)))))
(T (W x68 x00 x00 x00 x5c x00 x00 x00)
(T (W x45 x26 x22 x84 xe4 x9c xf2 xcb)
(T (W x00 x00 x00 x00 x00 x00 x00 x00)
(L (W xff xff xff xff xff xff xff xff))
(L (W xca x56 xff xff x74 x00 x00 x00)))
(T (W x00 x00 x00 x00 x00 x00 x00 x00)
(L (W x00 x00 x00 x00 x00 x00 x00 x00))
(L (W x00 x00 x80 xbf x00 x00 x80 xbf))))
(T (W x6c x05 xfd xff x27 x00 x00 x00)
(T (W xff xff xff xff xff xff xff xff)
(L (W x14 x59 x69 x12 x83 x77 x37 xc6))
(L (W x4f x84 x6f x8b xe8 xcb x63 xb7)))
(T (W xff xff xff xff x03 x00 x00 x00)
(L (W x00 x00 x00 x00 x00 x00 x00 x00))
(L (W x00 x00 x80 xbf x00 x00 x80 xbf))))))
(T (W xff xff xff xff xff xff xff xff)
(T (W xca x86 xfc xff x74 x00 x00 x00)
(T (W x00 x00 x00 x00 x00 x00 x00 x00)
(T (W x00 x00 x00 x00 x00 x00 x00 x00)
(L (W x00 x00 x00 x00 x00 x00 x00 x00))
(L (W x00 x00 x80 xbf x00 x00 x80 xbf)))
(T (W x00 x00 x00 x00 x00 x00 x00 x00)
(L (W x00 x00 x00 x00 x00 x00 x00 x00))
(L (W x00 x00 x00 x00 x00 x00 x00 x00))))
(T (W x00 x00 x00 x00 x00 x00 x00 x00)
(T (W x6c x00 x00 x00 x60 x00 x00 x00)
(L (W x14 x00 x00 x00 x0c x00 x00 x00))
(L (W x00 x00 x00 x00 x00 x00 x00 x00)))
(T (W xbc x01 x00 x00 xff xff xff xff)
(L (W x00 x00 x00 x00 x00 x00 x00 x00))
(L (W xff xff xff xff xb8 x00 x00 x00)))))
(T (W xd0 x8e xfc xff x00 x01 x01 x01)
(T (W x00 x00 x00 x00 x00 x00 x00 x00)
(T (W x12 x00 x00 x00 x46 x53 x59 x53)
(L (W xff xff xff xff xff xff xff xff))
(L (W xff xff xff xff xff xff xff xff)))
(T (W xff xff xff xff xac x00 x00 x00)
(L (W x12 xd3 xfe xff x78 x00 x00 x00))
(L (W x00 x00 x00 x00 x00 x00 x00 x00))))
(T (W x00 x00 x00 x00 x00 x00 x00 x00)
(T (W x45 x26 x22 x84 xe4 x9c xf2 xcb)
(L (W x64 x5f x70 x6f x6b x65 x5f x77))
(L (W x00 x00 x00 x00 x00 x00 x00 x00)))
(T (W x00 x00 x00 x00 x00 x00 x00 x00)
(L (W x00 x00 x00 x00 x00 x00 x00 x00)) E)))))
(T (W xff xff xff xff xff xff xff xff)
(T (W xff xff xff xff xff xff xff xff)
(T (W x18 x00 x00 x00 x0c x00 x00 x00)
(T (W x00 x00 x80 x3f x00 x00 x80 x3f)
(T (W x00 x00 x00 x00 x00 x00 x00 x00)
(L (W x00 x00 x80 x3f x00 x00 x80 x3f))
(L (W x00 x00 x00 x00 x00 x00 x00 x00)))
(T (W xff xff xff xff xff xff xff xff)
(L (W x00 x00 x00 x00 x00 x00 x00 x00))
(L (W x00 x00 x00 x00 x00 x00 x00 x00))))
(T (W x00 x00 x00 x00 x00 x00 x00 x00)
(T (W x45 x26 x22 x84 xe4 x9c xf2 xcb)
(L (W x12 x6b xfe xff x78 x00 x00 x00))
(L (W xff xff xff xff xff xff xff xff)))
(T (W xff xff xff xff xff xff xff xff)
(L (W xff xff xff xff xff xff xff xff))
(L (W x18 x00 x00 x00 x0c x00 x00 x00)))))
(T (W xca x9e xfc xff x74 x00 x00 x00)
(T (W x00 x00 x80 x3f x00 x00 x80 x3f)
(T (W xff xff xff xff xff xff xff xff)
(L (W xff xff xff xff xff xff xff xff))
(L (W xff xff xff xff xff xff xff xff)))
(T (W x00 x00 x80 x3f x00 x00 x80 x3f)
(L (W x00 x00 x80 xbf x00 x00 x80 xbf))
(L (W x00 x00 x80 xbf x00 x00 x80 xbf))))
(T (W x00 x00 x00 x00 x00 x00 x00 x00)
(T (W x00 x00 x00 x00 x12 x00 x00 x00)
(L (W x00 x00 x80 xbf x00 x00 x80 xbf))
(L (W x00 x00 x00 x00 x00 x00 x00 x00)))
(T (W x68 x00 x00 x00 x5c x00 x00 x00)
(L (W x00 x00 x00 x00 x00 x00 x00 x00)) E))))
(T (W xff xff xff xff x03 x00 x00 x00)
(T (W x00 x00 x80 x3f x00 x00 x80 x3f)
(T (W x00 x00 x00 x00 x00 x00 x00 x00)
(T (W x48 x03 x00 x00 x34 x02 x00 x00)
(L (W x45 x26 x22 x84 xe4 x9c xf2 xcb))
(L (W x6c x00 x00 x00 x60 x00 x00 x00)))
(T (W x14 xc2 xfd xff x15 x00 x00 x00)
(L (W x00 x00 x00 x00 x00 x00 x00 x00))
(L (W x00 x00 x80 xbf x00 x00 x80 xbf))))
(T (W x00 x00 x00 x00 x00 x00 x00 x00)
(T (W xff xff xff xff x9c x00 x00 x00)
(L (W xbc xed xff xff x01 x01 x01 x01))
(L (W x38 x00 x00 x00 x0c x00 x00 x00)))
(T (W xff xff xff xff xff xff xff xff)
(L (W x00 x00 x00 x00 x00 x00 x00 x00))
(L (W x00 x00 x80 xbf x00 x00 x80 xbf)))))
(T (W x00 x00 x80 x3f x00 x00 x80 x3f)
(T (W x00 x00 x00 x00 x00 x00 x00 x00)
(T (W x00 x00 x00 x00 x00 x00 x00 x00)
(L (W xc0 x00 x00 x00 x01 x00 x00 x00))
(L (W xff xff xff xff xff xff xff xff)))
(T (W xff xff xff xff xbc x00 x00 x00)
(L (W xff xff xff xff xc0 x00 x00 x00))
(L (W x00 x00 x00 x00 x00 x00 x00 x00))))
(T (W xfd x7f x19 x96 xc1 x54 xa4 x47)
(T (W xd0 x96 xfd xff x00 x01 x01 x01)
(L (W xd0 x96 xfe xff x00 x01 x01 x01))
(L (W x00 x00 x00 x00 x00 x00 x00 x00)))
(T (W x00 x00 x00 x00 x00 x00 x00 x00)
(L (W x00 x00 x00 x00 x00 x00 x00 x00)) E))))))
(T (W x45 x26 x22 x84 xe4 x9c xf2 xcb)
(T (W x00 x00 x80 x3f x00 x00 x80 x3f)
(T (W x45 x26 x22 x84 xe4 x9c xf2 xcb)
(T (W x00 x00 x00 x00 x00 x00 x00 x00)
(T (W xff xff xff xff xff xff xff xff)
(T (W xd0 x22 xfd xff x00 x01 x01 x01)
(L (W x00 x00 x80 x3f x00 x00 x80 x3f))
(L (W xff xff xff xff xc0 x00 x00 x00)))
(T (W x00 x00 x00 x00 x00 x00 x00 x00)
(L (W x45 x26 x22 x84 xe4 x9c xf2 xcb))
(L (W x12 xa7 xff xff x78 x00 x00 x00))))
(T (W x64 x00 x00 x00 x9c x00 x00 x00)
(T (W xff xff xff xff xff xff xff xff)
(L (W x00 x00 x00 x00 x00 x00 x00 x00))
(L (W x54 x00 x00 x00 x48 x00 x00 x00)))
(T (W x00 x00 x80 x3f x00 x00 x80 x3f)
(L (W x00 x00 x80 xbf x00 x00 x80 xbf))
(L (W x00 x00 x80 xbf x00 x00 x80 xbf)))))
(T (W x40 x00 x00 x00 x10 x00 x00 x00)
(T (W xff xff xff xff xff xff xff xff)
(T (W x00 x00 x80 x3f x00 x00 x80 x3f)
(L (W x00 x00 x80 x3f x00 x00 x80 x3f))
(L (W x00 x00 x00 x00 x00 x00 x00 x00)))
(T (W xff xff xff xff xff xff xff xff)
(L (W xff xff xff xff xff xff xff xff))
(L (W x27 x00 x00 x00 x2a x00 x00 x00))))
(T (W x00 x00 x80 x3f x00 x00 x80 x3f)
(T (W x68 x00 x00 x00 x5c x00 x00 x00)
(L (W xff xff xff xff xff xff xff xff))
(L (W xff xff xff xff xff xff xff xff)))
(T (W x00 x00 x00 x00 x00 x00 x00 x00)
(L (W xff xff xff xff xc8 x00 x00 x00))
(L (W xff xff xff xff xff xff xff xff))))))
(T (W x00 x00 x00 x00 x00 x00 x00 x00)
(T (W x00 x00 x00 x00 x00 x00 x00 x00)
(T (W xff xff xff xff xff xff xff xff)
(T (W x00 x00 x80 x3f x00 x00 x80 x3f)
(L (W x00 x00 x00 x00 x48 x34 xfe xff))
(L (W xb5 x01 x00 x00 xff xff xff xff)))
(T (W xd0 xb2 xfd xff x00 x01 x01 x01)
(L (W x03 x00 x00 x00 xd0 x00 x00 x00))
(L (W xff xff xff xff xff xff xff xff))))
(T (W xd0 xf2 xfc xff x00 x01 x01 x01)
(T (W x00 x00 x00 x00 x00 x00 x00 x00)
(L (W x29 x00 x00 x00 xff xff xff xff))
(L (W x5c x00 x00 x00 x50 x00 x00 x00)))
(T (W x45 x26 x22 x84 xe4 x9c xf2 xcb)
(L (W x00 x00 x00 x00 x48 xf4 xfe xff))
(L (W x1d x00 x00 x00 x20 x00 x00 x00)))))
(T (W xff xff xff xff xff xff xff xff)
(T (W xff xff xff xff xff xff xff xff)
(T (W xff xff xff xff xac x00 x00 x00)
(L (W x45 x44 x00 x00 x00 x00 x00 x00))
(L (W x49 xa1 x68 x4a xeb x5f xdd x3d)))
(T (W x00 x00 x00 x00 x00 x00 x00 x00)
(L (W x00 x00 x00 x00 x00 x00 x00 x00))
(L (W xff xff xff xff xb0 x00 x00 x00))))
(T (W xc0 x00 x00 x00 xb4 x00 x00 x00)
(T (W x5a xba xfd xff x9d x01 x00 x00)
(L (W x9b x01 x00 x00 xff xff xff xff))
(L (W x18 x00 x00 x00 x0c x00 x00 x00)))
(T (W xca x2a xfe xff x74 x00 x00 x00)
(L (W xb0 x00 x00 x00 x1e x00 x00 x00)) E)))))
(T (W x00 x00 x80 x3f x00 x00 x80 x3f)
(T (W x00 x00 x00 x00 x00 x00 x00 x00)
(T (W x00 x00 x00 x00 x00 x00 x00 x00)
(T (W xff xff xff xff xff xff xff xff)
(T (W x00 x00 x80 x3f x00 x00 x80 x3f)
(L (W xff xff xff xff xff xff xff xff))
(L (W xff xff xff xff xff xff xff xff)))
(T (W x00 x00 x80 x3f x00 x00 x80 x3f)
(L (W x00 x00 x80 x3f x00 x00 x80 x3f))
(L (W xc4 x00 x00 x00 x02 x00 x00 x00))))
(T (W xbc x00 x00 x00 xb0 x00 x00 x00)
(T (W xff xff xff xff xff xff xff xff)
(L (W x00 x00 x00 x00 xaa x6b xfe xff))
(L (W x12 x6f xff xff x78 x00 x00 x00)))
(T (W x45 x26 x22 x84 xe4 x9c xf2 xcb)
(L (W x54 x00 x00 x00 x48 x00 x00 x00))
(L (W x00 x00 x00 x00 x00 x00 x00 x00)))))
(T (W x7a x3f xfe xff x00 x00 x01 x01)
(T (W xff xff xff xff xff xff xff xff)
(T (W x45 x26 x22 x84 xe4 x9c xf2 xcb)
(L (W x00 x00 x00 x00 x00 x00 x00 x00))
(L (W x00 x00 x80 xbf x00 x00 x80 xbf)))
(T (W x00 x00 x00 x00 x00 x00 x00 x00)
(L (W xbb x01 x00 x00 xff xff xff xff))
(L (W xff xff xff xff xb0 x00 x00 x00))))
(T (W x18 x00 x00 x00 x10 x00 x00 x00)
(T (W xff xff xff xff xff xff xff xff)
(L (W x00 x00 x80 x3f x00 x00 x80 x3f))
(L (W x14 x00 x00 x00 x17 x00 x00 x00)))
(T (W x00 x00 x00 x00 x00 x00 x00 x00)
(L (W xff xff xff xff xff xff xff xff)) E))))
(T (W x00 x00 x00 x00 x00 x00 x00 x00)
(T (W x00 x00 x00 x00 x00 x00 x00 x00)
(T (W xff xff xff xff xff xff xff xff)
(T (W x45 x26 x22 x84 xe4 x9c xf2 xcb)
(L (W x5c x00 x00 x00 x00 x00 x00 x00))
(L (W x0e xa7 xaa x28 xbf xd4 x56 x6a)))
(T (W x45 x26 x22 x84 xe4 x9c xf2 xcb)
(L (W x28 x00 x00 x00 x2b x00 x00 x00))
(L (W xff xff xff xff xff xff xff xff))))
(T (W x50 x00 x00 x00 x44 x00 x00 x00)
(T (W x4f x84 x6f x8b xe8 xcb x63 xb7)
(L (W x45 x26 x22 x84 xe4 x9c xf2 xcb))
(L (W x45 x26 x22 x84 xe4 x9c xf2 xcb)))
(T (W x45 x26 x22 x84 xe4 x9c xf2 xcb)
(L (W xff xff xff xff xff xff xff xff))
(L (W x00 x00 x80 xbf x00 x00 x80 xbf)))))
(T (W xff xff xff xff xff xff xff xff)
(T (W xff xff xff xff xff xff xff xff)
(T (W xff xff xff xff x9c x00 x00 x00)
(L (W x00 x00 x00 x00 x00 x00 x00 x00))
(L (W x54 x00 x00 x00 x48 x00 x00 x00)))
(T (W x00 x00 x80 x3f x00 x00 x80 x3f)
(L (W x00 x00 x00 x00 x00 x00 x00 x00))
(L (W x00 x00 x00 x00 x00 x00 x00 x00))))
(T (W xca x32 xfd xff x74 x00 x00 x00)
(T (W x6c xa1 xfd xff x10 x00 x00 x00)
(L (W x00 x00 x80 x3f x00 x00 x80 x3f))
(L (W x45 x26 x22 x84 xe4 x9c xf2 xcb)))
(T (W xca x32 xfe xff x74 x00 x00 x00)
(L (W x18 x00 x00 x00 x0c x00 x00 x00)) E)))))))
(T (W xff xff xff xff x04 x00 x00 x00)
(T (W x00 x00 x00 x00 x00 x00 x00 x00)
(T (W x00 x00 x00 x00 x00 x00 x00 x00)
(T (W x55 xb6 x62 x14 x77 xc7 x0a x98)
(T (W x48 x03 x00 x00 x34 x02 x00 x00)
(T (W xff xff xff xff x03 x00 x00 x00)
(T (W x00 x00 x00 x00 x00 x00 x00 x00)
(L (W x00 x00 x00 x00 x00 x00 x00 x00))
(L (W x6c x00 x00 x00 x60 x00 x00 x00)))
(T (W x00 x00 x00 x00 x00 x00 x00 x00)
(L (W xff xff xff xff xff xff xff xff))
(L (W x45 x26 x22 x84 xe4 x9c xf2 xcb))))
(T (W x00 x00 x80 x3f x00 x00 x80 x3f)
(T (W x00 x00 x80 x3f x00 x00 x80 x3f)
(L (W x00 x00 x00 x00 x00 x00 x00 x00))
(L (W x00 x00 x80 xbf x00 x00 x80 xbf)))
(T (W x00 x00 x00 x00 x00 x00 x00 x00)
(L (W x00 x00 x00 x00 x00 x00 x00 x00))
(L (W x14 xec xff xff x35 x00 x00 x00)))))
(T (W xff xff xff xff x04 x00 x00 x00)
(T (W x50 x00 x00 x00 x44 x00 x00 x00)
(T (W xff xff xff xff xff xff xff xff)
(L (W x00 x00 x00 x00 x00 x00 x00 x00))
(L (W xff xff xff xff xff xff xff xff)))
(T (W x45 x26 x22 x84 xe4 x9c xf2 xcb)
(L (W x00 x00 x80 xbf x00 x00 x80 xbf))
(L (W x3c x00 x00 x00 x00 x00 x80 xbf))))
(T (W x00 x00 x80 x3f x00 x00 x80 x3f)
(T (W x00 x00 x00 x00 x00 x00 x00 x00)
(L (W x00 x00 x80 xbf x00 x00 x80 xbf))
(L (W x54 x00 x00 x00 x48 x00 x00 x00)))
(T (W x93 x01 x00 x00 xff xff xff xff)
(L (W x45 x26 x22 x84 xe4 x9c xf2 xcb))
(L (W x00 x00 x00 x00 x00 x00 x00 x00))))))
(T (W x00 x00 x00 x00 x00 x00 x00 x00)
(T (W xff xff xff xff xff xff xff xff)
(T (W x45 x26 x22 x84 xe4 x9c xf2 xcb)
(T (W x00 x00 x00 x00 x00 x00 x00 x00)
(L (W x00 x00 x80 x3f x00 x00 x80 x3f))
(L (W x00 x00 x00 x00 x48 x32 xff xff)))
(T (W x00 x00 x00 x00 x00 x00 x00 x00)
(L (W x54 x00 x00 x00 x48 x00 x00 x00))
(L (W x00 x00 x80 xbf x00 x00 x80 xbf))))
(T (W x00 x00 x00 x00 x00 x00 x00 x00)
(T (W xff xff xff xff xff xff xff xff)
(L (W xff xff xff xff xff xff xff xff))
(L (W x00 x00 x80 xbf x00 x00 x80 xbf)))
(T (W x00 x00 x00 x00 x00 x00 x00 x00)
(L (W x00 x00 x80 xbf x00 x00 x80 xbf))
(L (W x00 x00 x00 x00 x00 x00 x00 x00)))))
(T (W xb8 x00 x00 x00 xac x00 x00 x00)
(T (W x50 x00 x00 x00 x44 x00 x00 x00)
(T (W x00 x00 x80 x3f x00 x00 x80 x3f)
(L (W xc0 x00 x00 x00 x64 x00 x00 x00))
(L (W x30 x34 x5f x43 x4c x45 x41 x52)))
(T (W xff xff xff xff xff xff xff xff)
(L (W xff xff xff xff xff xff xff xff))
(L (W x14 x00 x18 x00 x00 x00 x00 x00))))
(T (W x00 x00 x80 x3f x00 x00 x80 x3f)
(T (W x00 x00 x00 x00 x48 x92 xfd xff)
(L (W x45 x26 x22 x84 xe4 x9c xf2 xcb))
(L (W x00 x00 x80 xbf x00 x00 x80 xbf)))
(T (W x00 x00 x80 x3f x00 x00 x80 x3f)
(L (W x54 x00 x00 x00 x48 x00 x00 x00)) E)))))
(T (W x00 x00 x00 x00 x00 x00 x00 x00)
(T (W x0a xfc xfd xff xc1 x01 x00 x00)
(T (W xff xff xff xff xff xff xff xff)
(T (W x00 x00 x00 x00 x48 xaa xfc xff)
(T (W x00 x00 x00 x00 x00 x00 x00 x00)
(L (W xca x40 xfe xff x74 x00 x00 x00))
(L (W x00 x00 x80 xbf x00 x00 x80 xbf)))
(T (W x00 x00 x00 x00 x00 x00 x00 x00)
(L (W xff xff xff xff xff xff xff xff))
(L (W x00 x00 x80 xbf x00 x00 x80 xbf))))
(T (W x00 x00 x80 x3f x00 x00 x80 x3f)
(T (W x45 x26 x22 x84 xe4 x9c xf2 xcb)
(L (W xff xff xff xff xff xff xff xff))
(L (W x00 x00 x00 x00 x00 x00 x00 x00)))
(T (W x00 x00 x00 x00 x00 x00 x00 x00)
(L (W x4f x84 x6f x8b xe8 xcb x63 xb7))
(L (W x2e x00 x00 x00 x0c x00 x00 x00)))))
(T (W x18 x00 x00 x00 x10 x00 x00 x00)
(T (W x40 x00 x00 x00 x9c x00 x00 x00)
(T (W x00 x00 x00 x00 x00 x00 x00 x00)
(L (W x00 x00 x00 x00 x02 x00 x00 x00))
(L (W x00 x00 x00 x00 x00 x00 x00 x00)))
(T (W xff xff xff xff x9c x00 x00 x00)
(L (W x18 x00 x00 x00 x10 x00 x00 x00))
(L (W x6c x00 x00 x00 x60 x00 x00 x00))))
(T (W x00 x00 x00 x00 x00 x00 x00 x00)
(T (W x00 x00 x80 x3f x00 x00 x80 x3f)
(L (W xff xff xff xff xff xff xff xff))
(L (W x00 x00 x80 xbf x00 x00 x80 xbf)))
(T (W xff xff xff xff xff xff xff xff)
(L (W x00 x00 x80 xbf x00 x00 x80 xbf)) E))))
(T (W x00 x00 x00 x00 x00 x00 x00 x00)
(T (W xff xff xff xff xff xff xff xff)
(T (W x68 x00 x00 x00 x5c x00 x00 x00)
(T (W x00 x00 x00 x00 x00 x00 x00 x00)
(L (W x68 x00 x00 x00 x5c x00 x00 x00))
(L (W xff xff xff xff xff xff xff xff)))
(T (W x00 x00 x80 x3f x00 x00 x80 x3f)
(L (W x00 x00 x80 x3f x00 x00 x80 x3f))
(L (W xff xff xff xff xa8 x00 x00 x00))))
(T (W x45 x26 x22 x84 xe4 x9c xf2 xcb)
(T (W x00 x00 x00 x00 x1a x78 xfd xff)
(L (W x00 x00 x01 x01 xd0 x00 x00 x00))
(L (W x45 x26 x22 x84 xe4 x9c xf2 xcb)))
(T (W x00 x00 x00 x00 x00 x00 x00 x00)
(L (W x00 x00 x80 xbf x00 x00 x80 xbf))
(L (W x6c x00 x00 x00 x60 x00 x00 x00)))))
(T (W xc0 x00 x00 x00 xb4 x00 x00 x00)
(T (W x6c x00 x00 x00 x60 x00 x00 x00)
(T (W x00 x00 x80 x3f x00 x00 x80 x3f)
(L (W x44 x02 x00 x00 x30 x01 x00 x00))
(L (W x00 x00 x00 x00 x00 x00 x00 x00)))
(T (W x00 x00 x00 x00 x00 x00 x00 x00)
(L (W x43 x00 x00 x00 xff xff xff xff))
(L (W x00 x00 x00 x00 x68 x00 x6c x00))))
(T (W x45 x26 x22 x84 xe4 x9c xf2 xcb)
(T (W xff xff xff xff xff xff xff xff)
(L (W x00 x00 x00 x00 x1b x00 x00 x00))
(L (W x14 x00 x18 x00 x00 x00 x00 x00)))
(T (W x00 x00 x80 x3f x00 x00 x80 x3f)
(L (W x00 x00 x80 xbf x00 x00 x80 xbf)) E))))))
(T (W x18 x00 x00 x00 x0c x00 x00 x00)
(T (W xca x4c xfc xff x74 x00 x00 x00)
(T (W xca x5c xfc xff x74 x00 x00 x00)
(T (W x45 x26 x22 x84 xe4 x9c xf2 xcb)
(T (W x40 x00 x00 x00 x0c x00 x00 x00)
(T (W xff xff xff xff xff xff xff xff)
(L (W xff xff xff xff xff xff xff xff))
(L (W x4b x00 x00 x00 xff xff xff xff)))
(T (W x45 x26 x22 x84 xe4 x9c xf2 xcb)
(L (W xff xff xff xff x9c x00 x00 x00))
(L (W xff xff xff xff xff xff xff xff))))
(T (W x02 xa3 xff xff x23 x00 x00 x00)
(T (W x20 x00 x00 x00 x0c x00 x00 x00)
(L (W x00 x00 x80 xbf x00 x00 x80 xbf))
(L (W x18 x00 x00 x00 x0c x00 x00 x00)))
(T (W xca xfc xfd xff x74 x00 x00 x00)
(L (W x00 x00 x00 x00 x48 xe6 xfe xff))
(L (W x00 x00 x00 x00 x00 x00 x62 x00)))))
(T (W x00 x00 x00 x00 x00 x00 x00 x00)
(T (W x3e x00 x00 x00 x0c x00 x00 x00)
(T (W x50 x00 x00 x00 x44 x00 x00 x00)
(L (W xd0 x44 xfe xff x00 x01 x01 x01))
(L (W x00 x00 x80 xbf x00 x00 x80 xbf)))
(T (W x00 x00 x00 x00 x00 x00 x00 x00)
(L (W x00 x00 x00 x00 x00 x00 x00 x00))
(L (W xff xff xff xff xff xff xff xff))))
(T (W xff xff xff xff xff xff xff xff)
(T (W xff xff xff xff xff xff xff xff)
(L (W x00 x00 x00 x00 x00 x00 x00 x00))
(L (W x00 x00 x00 x00 x00 x00 x00 x00)))
(T (W x45 x26 x22 x84 xe4 x9c xf2 xcb)
(L (W x5c x00 x00 x00 xff xff xff xff))
(L (W xff xff xff xff xbc x00 x00 x00))))))
(T (W x00 x00 x80 x3f x00 x00 x80 x3f)
(T (W x00 x00 x80 x3f x00 x00 x80 x3f)
(T (W x00 x00 x00 x00 x00 x00 x00 x00)
(T (W xff xff xff xff xff xff xff xff)
(L (W xff xff xff xff xff xff xff xff))
(L (W x00 x00 x00 x00 x00 x00 x00 x00)))
(T (W xff xff xff xff xff xff xff xff)
(L (W xff xff xff xff xff xff xff xff))
(L (W x00 x00 x00 x00 x00 x00 x00 x00))))
(T (W xff xff xff xff xff xff xff xff)
(T (W x00 x00 x80 x3f x00 x00 x80 x3f)
(L (W x00 x00 x00 x00 x00 x00 x00 x00))
(L (W xff xff xff xff xff xff xff xff)))
(T (W x68 x00 x00 x00 x5c x00 x00 x00)
(L (W xff xff xff xff xff xff xff xff))
(L (W x38 x00 x00 x00 x0c x00 x00 x00)))))
(T (W x00 x00 x00 x00 x00 x00 x00 x00)
(T (W xff xff xff xff xff xff xff xff)
(T (W xff xff xff xff xff xff xff xff)
(L (W x00 x00 x80 xbf x00 x00 x80 xbf))
(L (W xff xff xff xff xb0 x00 x00 x00)))
(T (W x00 x00 x80 x3f x00 x00 x80 x3f)
(L (W x6c x00 x00 x00 x60 x00 x00 x00))
(L (W xff xff xff xff xff xff xff xff))))
(T (W xff xff xff xff xff xff xff xff)
(T (W x00 x00 x00 x00 x00 x00 x00 x00)
(L (W x00 x00 x80 x3f x00 x00 x80 x3f))
(L (W x00 x00 x01 x01 xb9 x00 x00 x00)))
(T (W xff xff xff xff xff xff xff xff)
(L (W x30 x34 x5f x43 x4c x45 x41 x52)) E)))))
(T (W xc0 x00 x00 x00 xb4 x00 x00 x00)
(T (W xd0 x4c xfc xff x00 x01 x01 x01)
(T (W x00 x00 x80 x3f x00 x00 x80 x3f)
(T (W x00 x00 x00 x00 x00 x00 x00 x00)
(T (W xff xff xff xff x03 x00 x00 x00)
(L (W x18 x01 x00 x00 x04 x00 x00 x00))
(L (W x20 x00 x00 x00 x0c x00 x00 x00)))
(T (W x18 x00 x00 x00 x10 x00 x00 x00)
(L (W xff xff xff xff xff xff xff xff))
(L (W x44 x02 x00 x00 x30 x01 x00 x00))))
(T (W x7a xac xff xff x00 x00 x01 x01)
(T (W x00 x00 x00 x00 x00 x00 x00 x00)
(L (W x00 x00 x00 x00 x00 x00 x00 x00))
(L (W xff xff xff xff xff xff xff xff)))
(T (W xff xff xff xff x03 x00 x00 x00)
(L (W xff xff xff xff xff xff xff xff))
(L (W x00 x00 x80 xbf x00 x00 x80 xbf)))))
(T (W x45 x26 x22 x84 xe4 x9c xf2 xcb)
(T (W x7a x81 xfe xff x00 x00 x01 x01)
(T (W xff xff xff xff xff xff xff xff)
(L (W x00 x00 x00 x00 x00 x00 x0c x00))
(L (W x68 x00 x00 x00 x5c x00 x00 x00)))
(T (W x4f x84 x6f x8b xe8 xcb x63 xb7)
(L (W x00 x00 x00 x00 x00 x00 x00 x00))
(L (W x30 x01 x00 x00 x04 x00 x00 x00))))
(T (W xff xff xff xff xff xff xff xff)
(T (W x2b xef xfa x2c x64 xd2 xa3 xcd)
(L (W x18 x00 x00 x00 x0c x00 x00 x00))
(L (W x30 x34 x5f x43 x4c x45 x41 x52)))
(T (W x45 x26 x22 x84 xe4 x9c xf2 xcb)
(L (W x00 x00 x00 x00 x00 x00 x00 x00)) E))))
(T (W x00 x00 x80 x3f x00 x00 x80 x3f)
(T (W x00 x00 x80 x3f x00 x00 x80 x3f)
(T (W x00 x00 x00 x00 x00 x00 x00 x00)
(T (W x18 x00 x00 x00 x0c x00 x00 x00)
(L (W x45 x26 x22 x84 xe4 x9c xf2 xcb))
(L (W x00 x00 x80 xbf x00 x00 x80 xbf)))
(T (W x00 x00 x00 x00 x00 x00 x00 x00)
(L (W xff xff xff xff xff xff xff xff))
(L (W x21 xf8 xaf x28 xbf x5b x5d x6a))))
(T (W xff xff xff xff xff xff xff xff)
(T (W xd0 x7c xfd xff x00 x01 x01 x01)
(L (W xff xff xff xff x9c x00 x00 x00))
(L (W xff xff xff xff xff xff xff xff)))
(T (W x50 x00 x00 x00 x44 x00 x00 x00)
(L (W xff xff xff xff xff xff xff xff))
(L (W x03 x00 x00 x00 xd8 x00 x00 x00)))))
(T (W x00 x00 x00 x00 x00 x00 x00 x00)
(T (W xc1 x00 x00 x00 xff xff xff xff)
(T (W xfa x77 xfd xff x00 x00 x00 x01)
(L (W x00 x00 x80 x3f x00 x00 x80 xbf))
(L (W xff xff xff xff xc4 x00 x00 x00)))
(T (W x18 x00 x00 x00 x0c x00 x00 x00)
(L (W x18 x00 x00 x00 x0c x00 x00 x00))
(L (W x45 x26 x22 x84 xe4 x9c xf2 xcb))))
(T (W xff xff xff xff xff xff xff xff)
(T (W x00 x00 x80 x3f x00 x00 x80 x3f)
(L (W x79 x61 x62 x75 x6e x00 x00 x00))
(L (W x04 x00 x00 x00 x82 x9a xff xff)))
(T (W xff xff xff xff xff xff xff xff)
(L (W xcc x06 x00 x00 xb8 x05 x00 x00)) E)))))))))))))
(T (W x06 x00 x00 x00 x04 x00 x00 x00)
(T (W xc0 xd7 x03 x00 x24 xd0 x03 x00)
(T (W xe8 xb1 x03 x00 x84 xaf x03 x00)
(T (W x10 x5e x03 x00 xb4 x5b x03 x00)
(T (W x48 xb0 x02 x00 xec xad x02 x00)
(T (W xf8 xec x01 x00 xb4 xea x01 x00)
(T (W x40 x97 x00 x00 x0c x96 x00 x00)
(T (W x18 x00 x00 x00 x0c x00 x00 x00)
(T (W xe2 x44 xfc xff x74 x00 x00 x00)
(T (W x18 x00 x00 x00 x0c x00 x00 x00)
(T (W x45 x26 x22 x84 xe4 x9c xf2 xcb)
(T (W x24 x00 x00 x00 x0c x00 x00 x00)
(T (W xff xff xff xff xff xff xff xff)
(L (W xb8 x00 x00 x00 xac x00 x00 x00))
(L (W x04 x00 x00 x00 x9a x1a xff xff)))
(T (W x00 x00 x80 x3f x00 x00 x80 x3f)
(L (W x5f x77 x69 x6c x64 x5f x70 x6f))
(L (W xff xff xff xff xff xff xff xff))))
(T (W xff xff xff xff xff xff xff xff)
(T (W xff xff xff xff xff xff xff xff)
(L (W x00 x00 x80 xbf x00 x00 x80 xbf))
(L (W xff xff xff xff x9c x00 x00 x00)))
(T (W xe2 xf4 xfd xff x74 x00 x00 x00)
(L (W x2a xe1 xfe xff x78 x00 x00 x00))
(L (W x6c x00 x00 x00 x60 x00 x00 x00)))))
(T (W x00 x00 x80 x3f x00 x00 x80 x3f)
(T (W x00 x00 x00 x00 x00 x00 x00 x00)
(T (W xe2 x54 xfd xff x74 x00 x00 x00)
(L (W x68 x00 x00 x00 x5c x00 x00 x00))
(L (W x45 x26 x22 x84 xe4 x9c xf2 xcb)))
(T (W xff xff xff xff xff xff xff xff)
(L (W xff xff xff xff xff xff xff xff))
(L (W x64 x04 x00 x00 x60 x03 x00 x00))))
(T (W xff xff xff xff xff xff xff xff)
(T (W x50 x00 x00 x00 x44 x00 x00 x00)
(L (W xd4 xf3 xff xff x01 x01 x01 x01))
(L (W xff xff xff xff xff xff xff xff)))
(T (W x00 x00 x80 x3f x00 x00 x80 x3f)
(L (W xff xff xff xff xff xff xff xff))
(L (W xff xff xff xff xb0 x00 x00 x00))))))
(T (W x54 x00 x00 x00 x48 x00 x00 x00)
(T (W x45 x26 x22 x84 xe4 x9c xf2 xcb)
(T (W xff xff xff xff xff xff xff xff)
(T (W x18 x00 x00 x00 x10 x00 x00 x00)
(L (W xff xff xff xff xff xff xff xff))
(L (W x54 x02 x00 x00 x38 x01 x00 x00)))
(T (W xe2 xc4 xfd xff x74 x00 x00 x00)
(L (W xff xff xff xff xff xff xff xff))
(L (W xff xff xff xff xff xff xff xff))))
(T (W xff xff xff xff xff xff xff xff)
(T (W x00 x00 x00 x00 x12 x00 x00 x00)
(L (W x00 x00 x00 x00 x00 x00 x00 x00))
(L (W xbc x00 x00 x00 x1e x00 x00 x00)))
(T (W x18 x00 x00 x00 x0c x00 x00 x00)
(L (W xff xff xff xff xff xff xff xff))
(L (W x45 x26 x22 x84 xe4 x9c xf2 xcb)))))
(T (W x00 x00 x00 x00 x00 x00 x00 x00)
(T (W xff xff xff xff xff xff xff xff)
(T (W xff xff xff xff xbc x00 x00 x00)
(L (W x20 x00 x24 x00 x28 x00 x2c x00))
(L (W x00 x00 x80 xbf x00 x00 x80 xbf)))
(T (W x00 x00 x00 x00 x00 x00 x00 x00)
(L (W x00 x00 x00 x00 x00 x00 x00 x00))
(L (W x01 x00 x00 x00 xff xff xff xff))))
(T (W xb8 x00 x00 x00 xac x00 x00 x00)
(T (W x00 x00 x01 x01 xbb x01 x00 x00)
(L (W x2a x91 xfe xff x78 x00 x00 x00))
(L (W x00 x00 x00 x00 x00 x00 x00 x00)))
(T (W x6c x00 x00 x00 x60 x00 x00 x00)
(L (W xff xff xff xff xff xff xff xff)) E)))))
(T (W x00 x00 x80 x3f x00 x00 x80 x3f)
(T (W x00 x00 x80 x3f x00 x00 x80 x3f)
(T (W x00 x00 x00 x00 x00 x00 x00 x00)
(T (W x92 x59 xfe xff x00 x00 x01 x01)
(T (W xff xff xff xff xff xff xff xff)
(L (W xff xff xff xff xff xff xff xff))
(L (W xff xff xff xff xff xff xff xff)))
(T (W x6c x00 x00 x00 x60 x00 x00 x00)
(L (W x00 x00 x00 x00 x60 xa6 xfe xff))
(L (W xb8 x00 x00 x00 x1e x00 x00 x00))))
(T (W xff xff xff xff xff xff xff xff)
(T (W x04 x00 x00 x00 xc2 x65 xfd xff)
(L (W x00 x00 x80 xbf x00 x00 x80 xbf))
(L (W x2a x69 xff xff x78 x00 x00 x00)))
(T (W x00 x00 x80 x3f x00 x00 x80 x3f)
(L (W x50 x00 x00 x00 x44 x00 x00 x00))
(L (W x14 x00 x18 x00 x00 x00 x00 x00)))))
(T (W x00 x00 x00 x00 x00 x00 x00 x00)
(T (W x92 x79 xfe xff x00 x00 x01 x01)
(T (W x00 x00 x80 x3f x00 x00 x80 x3f)
(L (W x50 x00 x00 x00 x44 x00 x00 x00))
(L (W x00 x00 x80 xbf x00 x00 x80 xbf)))
(T (W x9f x68 xea xc8 x7a xc7 xbc xc0)
(L (W x00 x00 x01 x01 xd8 x00 x00 x00))
(L (W xff xff xff xff xff xff xff xff))))
(T (W xff xff xff xff x04 x00 x00 x00)
(T (W xff xff xff xff xff xff xff xff)
(L (W x95 x50 x69 x12 x83 x72 x37 xc6))
(L (W x00 x00 x01 x01 x29 x00 x00 x00)))
(T (W x00 x00 x00 x00 x00 x00 x00 x00)
(L (W xff xff xff xff xff xff xff xff))
(L (W x04 x00 x06 x00 x04 x00 x00 x00))))))
(T (W x00 x00 x80 x3f x00 x00 x80 x3f)
(T (W x45 x26 x22 x84 xe4 x9c xf2 xcb)
(T (W xef x00 x00 x00 xff xff xff xff)
(T (W x01 x00 x00 x00 xa0 x00 x00 x00)
(L (W xff xff xff xff xff xff xff xff))
(L (W x30 x34 x5f x43 x4c x45 x41 x52)))
(T (W x03 x00 x00 x00 xd0 x00 x00 x00)
(L (W xff xff xff xff xff xff xff xff))
(L (W x6f x00 x00 x00 xff xff xff xff))))
(T (W xff xff xff xff xff xff xff xff)
(T (W x45 x26 x22 x84 xe4 x9c xf2 xcb)
(L (W x00 x00 x00 x00 x00 x00 x00 x00))
(L (W xc4 x00 x00 x00 x01 x00 x00 x00)))
(T (W x00 x00 x80 x3f x00 x00 x80 x3f)
(L (W xff xff xff xff xff xff xff xff))
(L (W x44 x02 x00 x00 x30 x01 x00 x00)))))
(T (W x00 x00 x00 x00 x00 x00 x00 x00)
(T (W xff xff xff xff xff xff xff xff)
(T (W xff xff xff xff xff xff xff xff)
(L (W x4f x84 x6f x8b xe8 xcb x63 xb7))
(L (W xe8 x54 xff xff x00 x01 x01 x01)))
(T (W x00 x00 x80 x3f x00 x00 x80 x3f)
(L (W x00 x00 x80 xbf x00 x00 x80 xbf))
(L (W xff xff xff xff xff xff xff xff))))
(T (W xff xff xff xff xff xff xff xff)
(T (W x5f x4e x53 x5f x30 x34 x5f x43)
(L (W x4f x84 x6f x8b xe8 xcb x63 xb7))
(L (W xff xff xff xff xff xff xff xff)))
(T (W xff xff xff xff xff xff xff xff)
(L (W x00 x00 x00 x00 x00 x00 x00 x00)) E))))))
(T (W x00 x00 x00 x00 x00 x00 x00 x00)
(T (W x00 x00 x00 x00 x00 x00 x00 x00)
(T (W xc2 x01 x00 x00 xff xff xff xff)
(T (W xb5 x01 x00 x00 xff xff xff xff)
(T (W x3e x00 x00 x00 x9c x00 x00 x00)
(T (W x00 x00 x00 x00 x00 x00 x00 x00)
(L (W x00 x00 x00 x00 x00 x00 x00 x00))
(L (W x00 x00 x80 xbf x00 x00 x80 xbf)))
(T (W xff xff xff xff x01 x00 x00 x00)
(L (W x28 x00 x00 x00 x2b x00 x00 x00))
(L (W x00 x00 x00 x00 x00 x00 x00 x00))))
(T (W x00 x00 x80 x3f x00 x00 x80 x3f)
(T (W x00 x00 x80 x3f x00 x00 x80 x3f)
(L (W x2a x00 x00 x00 xff xff xff xff))
(L (W x00 x00 x00 x00 x00 x00 x00 x00)))
(T (W x84 xe7 xfd xff x25 x00 x00 x00)
(L (W x00 x00 x01 x01 x70 x00 x00 x00))
(L (W x02 x00 x00 x00 x30 x01 x00 x00)))))
(T (W x18 x00 x00 x00 x0c x00 x00 x00)
(T (W x00 x00 x80 x3f x00 x00 x80 x3f)
(T (W xff xff xff xff xff xff xff xff)
(L (W x00 x00 x00 x00 x00 x00 x00 x00))
(L (W xff xff xff xff xff xff xff xff)))
(T (W x68 x00 x00 x00 x5c x00 x00 x00)
(L (W x00 x00 x80 xbf x00 x00 x80 xbf))
(L (W x00 x00 x80 xbf x00 x00 x80 xbf))))
(T (W x00 x00 x00 x00 x00 x00 x00 x00)
(T (W x70 x5f x6c x65 x61 x64 x65 x72)
(L (W x45 x26 x22 x84 xe4 x9c xf2 xcb))
(L (W x00 x00 x80 xbf x00 x00 x80 xbf)))
(T (W xff xff xff xff xff xff xff xff)
(L (W x00 x00 x00 x00 x00 x00 x00 x00))
(L (W x38 x00 x3c x00 x40 x00 x44 x00))))))
(T (W xff xff xff xff xff xff xff xff)
(T (W xff xff xff xff xff xff xff xff)
(T (W x6c x00 x00 x00 x60 x00 x00 x00)
(T (W x00 x00 x00 x00 x00 x00 x00 x00)
(L (W x45 x26 x22 x84 xe4 x9c xf2 xcb))
(L (W x50 x00 x00 x00 x44 x00 x00 x00)))
(T (W x00 x00 x00 x00 x12 x00 x00 x00)
(L (W x00 x00 x80 x3f x00 x00 x80 x3f))
(L (W x00 x00 x80 xbf x00 x00 x80 xbf))))
(T (W x00 x00 x00 x00 x00 x00 x00 x00)
(T (W xff xff xff xff xff xff xff xff)
(L (W xff xff xff xff xb8 x00 x00 x00))
(L (W x4f x84 x6f x8b xe8 xcb x63 xb7)))
(T (W x17 x00 x00 x00 x10 x00 x00 x00)
(L (W x00 x00 x00 x00 x00 x00 x00 x00))
(L (W x46 x53 x59 x53 x5f x4e x53 x5f)))))
(T (W x45 x26 x22 x84 xe4 x9c xf2 xcb)
(T (W x00 x00 x80 x3f x00 x00 x80 x3f)
(T (W x00 x00 x00 x00 x00 x00 x00 x00)
(L (W x51 x03 x00 x00 x9c x00 x00 x00))
(L (W x00 x00 x00 x00 x00 x00 x00 x00)))
(T (W xff xff xff xff xff xff xff xff)
(L (W xff xff xff xff xff xff xff xff))
(L (W x34 x00 x38 x00 x3c x00 x40 x00))))
(T (W x00 x00 x80 x3f x00 x00 x80 x3f)
(T (W x50 x00 x00 x00 x44 x00 x00 x00)
(L (W x00 x00 x00 x00 x00 x00 x00 x00))
(L (W x49 xa1 x68 x4a xeb x5f xdd x3d)))
(T (W x00 x00 x00 x00 x00 x00 x00 x00)
(L (W x00 x00 x80 xbf x00 x00 x80 xbf)) E)))))
(T (W xef xb8 x1b x07 x43 x50 x05 x39)
(T (W xff xff xff xff xff xff xff xff)
(T (W xff xff xff xff xff xff xff xff)
(T (W x50 x00 x00 x00 x44 x00 x00 x00)
(T (W x00 x00 x00 x00 x00 x00 x00 x00)
(L (W x00 x00 x80 x3f x00 x00 x80 x3f))
(L (W x00 x00 x80 xbf x00 x00 x80 xbf)))
(T (W xbe x31 x16 xcf x9c x31 x15 x04)
(L (W xff xff xff xff xff xff xff xff))
(L (W x49 xa1 x68 x4a xeb x5f xdd x3d))))
(T (W x00 x00 x00 x00 x00 x00 x00 x00)
(T (W x68 x00 x00 x00 x5c x00 x00 x00)
(L (W xff xff xff xff xff xff xff xff))
(L (W x00 x00 x00 x00 x00 x00 x00 x00)))
(T (W xff xff xff xff xff xff xff xff)
(L (W x00 x00 x00 x00 x00 x00 x00 x00))
(L (W x2c x02 x00 x00 x28 x01 x00 x00)))))
(T (W xe2 xa0 xfc xff x74 x00 x00 x00)
(T (W xe8 xc8 xfc xff x00 x01 x01 x01)
(T (W x00 x00 x00 x00 x00 x00 x00 x00)
(L (W x23 x00 x00 x00 xff xff xff xff))
(L (W x00 x00 x01 x01 x94 x01 x00 x00)))
(T (W x00 x00 x00 x00 x60 xca xfd xff)
(L (W xe2 xe0 xfe xff x74 x00 x00 x00))
(L (W x00 x00 x80 xbf x00 x00 x80 xbf))))
(T (W x6c x00 x70 x00 x62 x00 x00 x00)
(T (W x00 x00 x80 x3f x00 x00 x80 x3f)
(L (W x03 x00 x00 x00 xcc x00 x00 x00))
(L (W x00 x00 x80 xbf x00 x00 x80 xbf)))
(T (W x64 x00 x00 x00 x9c x00 x00 x00)
(L (W x49 xa1 x68 x4a xeb x5f xdd x3d)) E))))
(T (W xff xff xff xff xff xff xff xff)
(T (W xff xff xff xff x04 x00 x00 x00)
(T (W x00 x00 x80 x3f x00 x00 x80 x3f)
(T (W x00 x00 x00 x00 x00 x00 x00 x00)
(L (W x00 x00 x80 x3f x00 x00 x80 x3f))
(L (W xff xff xff xff xb0 x00 x00 x00)))
(T (W x00 x00 x80 x3f x00 x00 x80 x3f)
(L (W x00 x00 x80 x3f x00 x00 x80 x3f))
(L (W x00 x00 x00 x00 xec xb8 xff xff))))
(T (W x00 x00 x00 x00 x00 x00 x00 x00)
(T (W xff xff xff xff xff xff xff xff)
(L (W xff xff xff xff xff xff xff xff))
(L (W x00 x00 x00 x00 x00 x00 x00 x00)))
(T (W xff xff xff xff xff xff xff xff)
(L (W x00 x00 x80 xbf x00 x00 x80 xbf))
(L (W x00 x00 x80 xbf x00 x00 x80 xbf)))))
(T (W x18 x00 x00 x00 x10 x00 x00 x00)
(T (W x00 x00 x80 x3f x00 x00 x80 x3f)
(T (W x00 x00 x80 x3f x00 x00 x80 x3f)
(L (W xff xff xff xff xff xff xff xff))
(L (W x2c x64 xff xff x12 x00 x00 x00)))
(T (W xd6 x00 x00 x00 xff xff xff xff)
(L (W xff xff xff xff xff xff xff xff))
(L (W xff xff xff xff xff xff xff xff))))
(T (W x00 x00 x00 x00 x00 x00 x00 x00)
(T (W x03 x00 x00 x00 xcc x00 x00 x00)
(L (W x77 x61 x72 x6c x69 x6b x65 x5f))
(L (W x34 x00 x38 x00 x3c x00 x40 x00)))
(T (W x00 x00 x00 x00 x00 x00 x00 x00)
(L (W x49 xa1 x68 x4a xeb x5f xdd x3d)) E)))))))
(T (W x45 x26 x22 x84 xe4 x9c xf2 xcb)
(T (W xff xff xff xff xff xff xff xff)
(T (W xff xff xff xff xff xff xff xff)
(T (W xff xff xff xff xff xff xff xff)
(T (W x01 x00 x00 x00 xa0 x00 x00 x00)
(T (W x00 x00 x80 x3f x00 x00 x80 x3f)
(T (W xff xff xff xff xff xff xff xff)
(L (W xff xff xff xff xff xff xff xff))
(L (W x00 x00 x00 x00 x00 x00 x00 x00)))
(T (W xe2 xb6 xfd xff x74 x00 x00 x00)
(L (W x00 x00 x80 x3f x00 x00 x80 x3f))
(L (W x00 x00 x00 x00 x00 x00 x00 x00))))
(T (W x40 x00 x00 x00 x0c x00 x00 x00)
(T (W x00 x00 x00 x00 x00 x00 x00 x00)
(L (W xff xff xff xff xff xff xff xff))
(L (W x30 x34 x5f x43 x4c x45 x41 x52)))
(T (W xff xff xff xff xff xff xff xff)
(L (W xff xff xff xff xff xff xff xff))
(L (W x03 x00 x00 x00 xd0 x00 x00 x00)))))
(T (W x00 x00 x80 x3f x00 x00 x80 x3f)
(T (W x00 x00 x00 x00 x00 x00 x00 x00)
(T (W x38 x00 x3c x00 x40 x00 x44 x00)
(L (W xff xff xff xff xff xff xff xff))
(L (W x00 x00 x80 xbf x00 x00 x80 xbf)))
(T (W x12 x00 x00 x00 x46 x53 x59 x53)
(L (W x00 x00 x00 x00 x00 x00 x00 x00))
(L (W x00 x00 x00 x00 x00 x00 x00 x00))))
(T (W x00 x00 x00 x00 x04 x00 x00 x00)
(T (W xff xff xff xff xff xff xff xff)
(L (W x00 x00 x01 x01 xa9 x00 x00 x00))
(L (W x00 x00 x00 x00 x00 x00 x00 x00)))
(T (W x18 x00 x00 x00 x0c x00 x00 x00)
(L (W x00 x00 x00 x00 xc2 xff xfe xff))
(L (W x00 x00 x00 x00 x00 x00 x00 x00))))))
(T (W xff xff xff xff xff xff xff xff)
(T (W x00 x00 x80 x3f x00 x00 x80 x3f)
(T (W x00 x00 x00 x00 x00 x00 x00 x00)
(T (W xff xff xff xff xff xff xff xff)
(L (W x00 x00 x00 x00 x00 x00 x00 x00))
(L (W x45 x26 x22 x84 xe4 x9c xf2 xcb)))
(T (W xff xff xff xff xff xff xff xff)
(L (W x00 x00 x00 x00 x00 x00 x00 x00))
(L (W x00 x00 x00 x00 x00 x00 x00 x00))))
(T (W x00 x00 x00 x00 x00 x00 x00 x00)
(T (W x00 x00 x80 x3f x00 x00 x80 x3f)
(L (W x74 x00 x00 x00 x68 x00 x00 x00))
(L (W x94 x01 x00 x00 xff xff xff xff)))
(T (W xff xff xff xff xff xff xff xff)
(L (W x00 x00 x00 x00 x00 x00 x00 x00))
(L (W xff xff xff xff x90 x00 x00 x00)))))
(T (W x50 x00 x00 x00 x44 x00 x00 x00)
(T (W x00 x00 x00 x00 x00 x00 x00 x00)
(T (W x00 x00 x00 x00 x00 x00 x00 x00)
(L (W xf8 x00 x00 x00 x64 x00 x00 x00))
(L (W xff xff xff xff xff xff xff xff)))
(T (W xe8 xce xfd xff x00 x01 x01 x01)
(L (W x00 x00 x80 xbf x00 x00 x80 xbf))
(L (W x00 x00 x00 x00 x00 x00 x00 x00))))
(T (W x32 x2a x34 x29 x3e x51 x68 xfc)
(T (W x00 x00 x00 x00 x00 x00 x00 x00)
(L (W x00 x00 x01 x01 xd2 x02 x00 x00))
(L (W x00 x00 x00 x00 x12 x00 x00 x00)))
(T (W x84 x15 xfe xff x3e x00 x00 x00)
(L (W x00 x00 x00 x00 x00 x00 x00 x00)) E)))))
(T (W xb8 x00 x00 x00 xac x00 x00 x00)
(T (W xff xff xff xff xff xff xff xff)
(T (W xe2 x7e xfc xff x74 x00 x00 x00)
(T (W x00 x00 x00 x00 x00 x00 x00 x00)
(T (W xff xff xff xff xff xff xff xff)
(L (W x00 x00 x00 x00 x00 x00 x00 x00))
(L (W x30 x34 x5f x43 x4c x45 x41 x52)))
(T (W xff xff xff xff xff xff xff xff)
(L (W x00 x00 x00 x00 x00 x00 x00 x00))
(L (W x30 x34 x5f x43 x4c x45 x41 x52))))
(T (W x00 x00 x00 x00 x00 x00 x00 x00)
(T (W x00 x00 x00 x00 x00 x00 x00 x00)
(L (W x00 x00 x80 xbf x00 x00 x80 xbf))
(L (W xff xff xff xff xff xff xff xff)))
(T (W xb8 x00 x00 x00 xac x00 x00 x00)
(L (W xff xff xff xff xff xff xff xff))
(L (W x2a xeb xff xff x78 x00 x00 x00)))))
(T (W x00 x00 x80 x3f x00 x00 x80 x3f)
(T (W x45 x26 x22 x84 xe4 x9c xf2 xcb)
(T (W xff xff xff xff xff xff xff xff)
(L (W xff xff xff xff x03 x00 x00 x00))
(L (W x03 x00 x00 x00 xd8 x00 x00 x00)))
(T (W x00 x00 x80 x3f x00 x00 x80 x3f)
(L (W x00 x00 x00 x00 x00 x00 x00 x00))
(L (W x4f x84 x6f x8b xe8 xcb x63 xb7))))
(T (W x74 x00 x04 x00 x68 x00 x08 x00)
(T (W x45 x44 x00 x00 x00 x00 x00 x00)
(L (W x00 x00 x80 xbf x00 x00 x80 xbf))
(L (W x00 x00 x00 x00 x00 x00 x00 x00)))
(T (W x00 x00 x80 x3f x00 x00 x80 x3f)
(L (W x30 x34 x5f x43 x4c x45 x41 x52)) E))))
(T (W x18 x00 x00 x00 x10 x00 x00 x00)
(T (W x00 x00 x80 x3f x00 x00 x80 x3f)
(T (W x00 x00 x00 x00 x00 x00 x00 x00)
(T (W x4b x00 x00 x00 xff xff xff xff)
(L (W x00 x00 x00 x00 x00 x00 x00 x00))
(L (W x00 x00 x80 xbf x00 x00 x80 xbf)))
(T (W x04 x00 x00 x00 x80 x03 x00 x00)
(L (W x00 x00 x00 x00 x00 x00 x00 x00))
(L (W x00 x00 x00 x00 x00 x00 x00 x00))))
(T (W x00 x00 x00 x00 x00 x00 x00 x00)
(T (W x00 x00 x00 x00 x60 x78 xfd xff)
(L (W x50 x00 x00 x00 x44 x00 x00 x00))
(L (W x04 x00 x00 x00 xc2 x77 xff xff)))
(T (W x64 x00 x00 x00 x9c x00 x00 x00)
(L (W x00 x00 x00 x00 x12 x00 x00 x00))
(L (W x00 x00 x00 x00 x00 x00 x00 x00)))))
(T (W x00 x00 x80 x3f x00 x00 x80 x3f)
(T (W x00 x00 x00 x00 x00 x00 x00 x00)
(T (W x20 x00 x00 x00 x0c x00 x00 x00)
(L (W x45 x26 x22 x84 xe4 x9c xf2 xcb))
(L (W xff xff xff xff xff xff xff xff)))
(T (W x18 x00 x00 x00 x10 x00 x00 x00)
(L (W x18 x00 x00 x00 x10 x00 x00 x00))
(L (W x80 x00 x08 x00 x78 x00 x0c x00))))
(T (W x5d x00 x00 x00 xff xff xff xff)
(T (W x50 x00 x00 x00 x44 x00 x00 x00)
(L (W x54 x00 x00 x00 x48 x00 x00 x00))
(L (W x00 x00 x00 x00 x00 x00 x00 x00)))
(T (W x22 xca xff xff xd6 x00 x00 x00)
(L (W x00 x00 x00 x00 x12 x00 x00 x00)) E))))))
(T (W x00 x00 x00 x00 x00 x00 x00 x00)
(T (W x45 x26 x22 x84 xe4 x9c xf2 xcb)
(T (W x00 x00 x00 x00 x00 x00 x00 x00)
(T (W x00 x00 x00 x00 x00 x00 x00 x00)
(T (W xff xff xff xff xff xff xff xff)
(T (W x54 x00 x00 x00 x48 x00 x00 x00)
(L (W x45 x26 x22 x84 xe4 x9c xf2 xcb))
(L (W x18 x00 x00 x00 x10 x00 x00 x00)))
(T (W x00 x00 x00 x00 x00 x00 x00 x00)
(L (W x00 x00 x00 x00 x00 x00 x00 x00))
(L (W x00 x00 x80 xbf x00 x00 x80 xbf))))
(T (W x00 x00 x00 x00 x60 xe4 xfc xff)
(T (W xc0 x00 x00 x00 x01 x00 x00 x00)
(L (W x30 x34 x5f x43 x4c x45 x41 x52))
(L (W x00 x00 x80 xbf x00 x00 x80 xbf)))
(T (W x00 x00 x00 x00 x00 x00 x00 x00)
(L (W x00 x00 x00 x00 x00 x00 x00 x00))
(L (W x00 x00 x00 x00 x00 x00 x00 x00)))))
(T (W x1c x01 x00 x00 x04 x00 x00 x00)
(T (W x18 x00 x00 x00 x10 x00 x00 x00)
(T (W x00 x00 x80 x3f x00 x00 x80 x3f)
(L (W x45 x26 x22 x84 xe4 x9c xf2 xcb))
(L (W x00 x00 x00 x00 x12 x00 x00 x00)))
(T (W xff xff xff xff xff xff xff xff)
(L (W x03 x00 x00 x00 xd8 x00 x00 x00))
(L (W x45 x26 x22 x84 xe4 x9c xf2 xcb))))
(T (W x00 x00 x80 x3f x00 x00 x80 x3f)
(T (W x00 x00 x80 x3f x00 x00 x80 x3f)
(L (W xff xff xff xff x9c x00 x00 x00))
(L (W xff xff xff xff xff xff xff xff)))
(T (W x3f x00 x00 x00 x10 x00 x00 x00)
(L (W xff xff xff xff xa0 x00 x00 x00))
(L (W xff xff xff xff xff xff xff xff))))))
(T (W x00 x00 x00 x00 x00 x00 x00 x00)
(T (W x3e x00 x00 x00 x10 x00 x00 x00)
(T (W xff xff xff xff xff xff xff xff)
(T (W x45 x26 x22 x84 xe4 x9c xf2 xcb)
(L (W x50 x00 x00 x00 x44 x00 x00 x00))
(L (W xff xff xff xff xff xff xff xff)))
(T (W x54 x00 x00 x00 x48 x00 x00 x00)
(L (W x18 x00 x00 x00 x0c x00 x00 x00))
(L (W xff xff xff xff xc8 x00 x00 x00))))
(T (W x50 x00 x00 x00 x44 x00 x00 x00)
(T (W xe8 x49 x0e x53 x9a x30 x89 x68)
(L (W xff xff xff xff xff xff xff xff))
(L (W x00 x00 x80 xbf x00 x00 x80 xbf)))
(T (W x00 x00 x00 x00 x00 x00 x00 x00)
(L (W x50 x00 x00 x00 x44 x00 x00 x00))
(L (W x45 x26 x22 x84 xe4 x9c xf2 xcb)))))
(T (W xff xff xff xff xff xff xff xff)
(T (W xc0 x00 x00 x00 xb4 x00 x00 x00)
(T (W xe8 x52 xfd xff x00 x01 x01 x01)
(L (W x00 x00 x00 x00 x32 x52 xfe xff))
(L (W x00 x00 x00 x00 x00 x00 x00 x00)))
(T (W x2c xde xfd xff x25 x00 x00 x00)
(L (W x18 x00 x00 x00 x0c x00 x00 x00))
(L (W xe8 xd2 xff xff x00 x01 x01 x01))))
(T (W x18 x00 x00 x00 x0c x00 x00 x00)
(T (W xff xff xff xff xff xff xff xff)
(L (W xff xff xff xff xff xff xff xff))
(L (W x2a x97 xff xff x78 x00 x00 x00)))
(T (W x00 x00 x80 x3f x00 x00 x80 x3f)
(L (W x45 x26 x22 x84 xe4 x9c xf2 xcb)) E)))))
(T (W x00 x00 x80 x3f x00 x00 x80 x3f)
(T (W x00 x00 x00 x00 x00 x00 x00 x00)
(T (W x00 x00 x00 x00 x00 x00 x00 x00)
(T (W xff xff xff xff xff xff xff xff)
(T (W x00 x00 x80 x3f x00 x00 x80 x3f)
(L (W xb8 x00 x00 x00 xac x00 x00 x00))
(L (W xc4 x00 x00 x00 x01 x00 x00 x00)))
(T (W x00 x00 x80 x3f x00 x00 x80 x3f)
(L (W x00 x00 x80 x3f x00 x00 x80 x3f))
(L (W x45 x26 x22 x84 xe4 x9c xf2 xcb))))
(T (W x45 x26 x22 x84 xe4 x9c xf2 xcb)
(T (W xff xff xff xff xff xff xff xff)
(L (W xff xff xff xff xff xff xff xff))
(L (W x00 x00 x80 xbf x00 x00 x80 xbf)))
(T (W x00 x00 x00 x00 x00 x00 x00 x00)
(L (W x00 x00 x80 xbf x00 x00 x80 xbf))
(L (W x00 x00 x00 x00 x00 x00 x00 x00)))))
(T (W xff xff xff xff xff xff xff xff)
(T (W xb8 x00 x00 x00 xac x00 x00 x00)
(T (W x68 x00 x00 x00 x5c x00 x00 x00)
(L (W x1a x00 x00 x00 x67 x72 x6f x75))
(L (W x00 x00 x00 x00 x00 x00 x00 x00)))
(T (W x72 xf2 xfd xff x9d x01 x00 x00)
(L (W xff xff xff xff xff xff xff xff))
(L (W xe8 xca xff xff x00 x01 x01 x01))))
(T (W x2a x0f xfd xff x78 x00 x00 x00)
(T (W xff xff xff xff xb0 x00 x00 x00)
(L (W x49 xa1 x68 x4a xeb x5f xdd x3d))
(L (W x45 x26 x22 x84 xe4 x9c xf2 xcb)))
(T (W xff xff xff xff xff xff xff xff)
(L (W xcc x00 x00 x00 x01 x00 x00 x00)) E))))
(T (W x00 x00 x00 x00 x00 x00 x00 x00)
(T (W x00 x00 x00 x00 x32 x3c xff xff)
(T (W xb8 x00 x00 x00 xac x00 x00 x00)
(T (W x00 x00 x00 x00 x00 x00 x00 x00)
(L (W x00 x00 x60 x00 x00 x00 x00 x00))
(L (W x04 x00 x00 x00 x3a x41 xff xff)))
(T (W x68 x00 x00 x00 x5c x00 x00 x00)
(L (W x45 x26 x22 x84 xe4 x9c xf2 xcb))
(L (W xc4 x00 x00 x00 x01 x00 x00 x00))))
(T (W x00 x00 x80 x3f x00 x00 x80 x3f)
(T (W x00 x00 x00 x00 x00 x00 x00 x00)
(L (W x00 x00 x00 x00 x00 x00 x00 x00))
(L (W x68 x00 x00 x00 x5c x00 x00 x00)))
(T (W x00 x00 x00 x00 x00 x00 x00 x00)
(L (W xbc x00 x00 x00 x02 x00 x00 x00))
(L (W x4f x84 x6f x8b xe8 xcb x63 xb7)))))
(T (W xff xff xff xff xff xff xff xff)
(T (W xff xff xff xff x03 x00 x00 x00)
(T (W x00 x00 x00 x00 x60 x5c xfd xff)
(L (W x00 x00 x00 x00 x00 x00 x00 x00))
(L (W x00 x00 x80 xbf x00 x00 x80 xbf)))
(T (W x00 x00 x80 x3f x00 x00 x80 x3f)
(L (W x46 x53 x59 x53 x5f x4e x53 x5f))
(L (W x00 x00 x00 x00 x00 x00 x00 x00))))
(T (W x00 x00 x80 x3f x00 x00 x80 x3f)
(T (W x00 x00 x00 x00 x04 x00 x00 x00)
(L (W x00 x00 x80 x3f x00 x00 x80 x3f))
(L (W x6c x00 x00 x00 x60 x00 x00 x00)))
(T (W x00 x00 x80 x3f x00 x00 x80 x3f)
(L (W x2a x1f xff xff x78 x00 x00 x00)) E))))))))
(T (W x30 x29 x01 x00 xec x27 x01 x00)
(T (W xc0 x04 x00 x00 x74 x02 x00 x00)
(T (W xb8 x00 x00 x00 xac x00 x00 x00)
(T (W xff xff xff xff xff xff xff xff)
(T (W x0a x00 x00 x00 x3e x00 x00 x00)
(T (W x00 x00 x80 x3f x00 x00 x80 x3f)
(T (W x00 x00 x00 x00 x00 x00 x00 x00)
(T (W xff xff xff xff xff xff xff xff)
(L (W xff xff xff xff xff xff xff xff))
(L (W x46 x53 x59 x53 x5f x4e x53 x5f)))
(T (W x00 x00 x80 x3f x00 x00 x80 x3f)
(L (W x00 x00 x00 x00 x00 x00 x00 x00))
(L (W x00 x00 x00 x00 x00 x00 x00 x00))))
(T (W xff xff xff xff xff xff xff xff)
(T (W x20 x00 x00 x00 x0c x00 x00 x00)
(L (W x1c x00 x00 x00 x10 x00 x00 x00))
(L (W x00 x00 x01 x01 xc8 x00 x00 x00)))
(T (W xff xff xff xff x9c x00 x00 x00)
(L (W x35 x00 x00 x00 x38 x00 x00 x00))
(L (W x18 x00 x00 x00 x10 x00 x00 x00)))))
(T (W x00 x00 x80 x3f x00 x00 x80 x3f)
(T (W x00 x00 x00 x00 x00 x00 x00 x00)
(T (W xff xff xff xff xff xff xff xff)
(L (W xff xff xff xff x03 x00 x00 x00))
(L (W x00 x00 x80 xbf x00 x00 x80 xbf)))
(T (W x00 x00 x00 x00 x00 x00 x00 x00)
(L (W x54 x02 x00 x00 x38 x01 x00 x00))
(L (W x00 x00 x00 x00 x00 x00 x00 x00))))
(T (W xff xff xff xff xff xff xff xff)
(T (W x45 x26 x22 x84 xe4 x9c xf2 xcb)
(L (W xff xff xff xff xff xff xff xff))
(L (W x04 x00 x00 x00 x80 x03 x00 x00)))
(T (W x00 x00 x80 x3f x00 x00 x80 x3f)
(L (W xff xff xff xff xff xff xff xff))
(L (W x00 x00 x48 x00 x4c x00 x00 x00))))))
(T (W xe2 x65 xfc xff x74 x00 x00 x00)
(T (W x45 x26 x22 x84 xe4 x9c xf2 xcb)
(T (W x3e x00 x00 x00 x0c x00 x00 x00)
(T (W xff xff xff xff xff xff xff xff)
(L (W x22 xe1 xff xff xef x00 x00 x00))
(L (W x00 x00 x00 x00 x00 x00 x00 x00)))
(T (W xff xff xff xff xff xff xff xff)
(L (W x61 x72 x6c x69 x6b x65 x5f x6c))
(L (W x45 x44 x00 x00 x00 x00 x00 x00))))
(T (W x1a xac xff xff xd2 x01 x00 x00)
(T (W x00 x00 x00 x00 x00 x00 x00 x00)
(L (W x00 x00 x80 xbf x00 x00 x80 xbf))
(L (W xff xff xff xff xff xff xff xff)))
(T (W x64 x00 x00 x00 x9c x00 x00 x00)
(L (W xff xff xff xff xff xff xff xff))
(L (W x00 x01 x01 x01 xa2 xea xff xff)))))
(T (W x00 x00 x00 x00 x00 x00 x00 x00)
(T (W x3e x00 x00 x00 x0c x00 x00 x00)
(T (W xff xff xff xff xff xff xff xff)
(L (W x45 x26 x22 x84 xe4 x9c xf2 xcb))
(L (W xc4 x00 x00 x00 x01 x00 x00 x00)))
(T (W x45 x26 x22 x84 xe4 x9c xf2 xcb)
(L (W x45 x26 x22 x84 xe4 x9c xf2 xcb))
(L (W x00 x00 x00 x00 x00 x00 x00 x00))))
(T (W xff xff xff xff xff xff xff xff)
(T (W x30 x34 x5f x43 x4c x45 x41 x52)
(L (W x28 x00 x00 x00 x2b x00 x00 x00))
(L (W x00 x00 x00 x00 x00 x00 x00 x00)))
(T (W xff xff xff xff xff xff xff xff)
(L (W x45 x44 x00 x00 x00 x00 x00 x00)) E)))))
(T (W x01 x00 x00 x00 x9c x00 x00 x00)
(T (W xc0 x00 x00 x00 xb4 x00 x00 x00)
(T (W x00 x00 x80 x3f x00 x00 x80 x3f)
(T (W x00 x00 x00 x00 x00 x00 x00 x00)
(T (W xff xff xff xff xff xff xff xff)
(L (W x64 x5f x6c x76 x31 x00 x00 x00))
(L (W x00 x00 x01 x01 x4a x00 x00 x00)))
(T (W xff xff xff xff xa0 x00 x00 x00)
(L (W xd4 x02 x00 x00 x80 x01 x00 x00))
(L (W xff xff xff xff xff xff xff xff))))
(T (W xad x00 x00 x00 xff xff xff xff)
(T (W x46 x53 x59 x53 x5f x4e x53 x5f)
(L (W x00 x00 x80 xbf x00 x00 x80 xbf))
(L (W x27 x00 x00 x00 x2a x00 x00 x00)))
(T (W x01 x00 x00 x00 x9c x00 x00 x00)
(L (W x03 x00 x00 x00 xcc x00 x00 x00))
(L (W x00 x00 x80 xbf x00 x00 x80 xbf)))))
(T (W x00 x00 x80 x3f x00 x00 x80 x3f)
(T (W x00 x00 x00 x00 x00 x00 x00 x00)
(T (W x00 x00 x00 x00 x60 x47 xfd xff)
(L (W x68 x00 x00 x00 x5c x00 x00 x00))
(L (W x00 x00 x80 xbf x00 x00 x80 xbf)))
(T (W x00 x00 x00 x00 x00 x00 x00 x00)
(L (W x46 x53 x59 x53 x5f x4e x53 x5f))
(L (W x2c xd1 xff xff x12 x00 x00 x00))))
(T (W xff xff xff xff xff xff xff xff)
(T (W xff xff xff xff xff xff xff xff)
(L (W x00 x00 x00 x00 x00 x00 x00 x00))
(L (W x45 x44 x00 x00 x00 x00 x00 x00)))
(T (W x00 x00 x80 x3f x00 x00 x80 x3f)
(L (W xff xff xff xff xff xff xff xff)) E))))
(T (W xe8 x55 xfc xff x00 x01 x01 x01)
(T (W x00 x00 x80 x3f x00 x00 x80 x3f)
(T (W x00 x00 x00 x00 x00 x00 x00 x00)
(T (W xff xff xff xff x03 x00 x00 x00)
(L (W x84 x3c xfe xff x32 x00 x00 x00))
(L (W x00 x00 x00 x00 x00 x00 x00 x00)))
(T (W xff xff xff xff xff xff xff xff)
(L (W x00 x00 x00 x00 x3a xb8 xfe xff))
(L (W x00 x00 x00 x00 x00 x00 x00 x00))))
(T (W x92 xb5 xff xff x00 x00 x01 x01)
(T (W x00 x00 x80 x3f x00 x00 x80 x3f)
(L (W x45 x26 x22 x84 xe4 x9c xf2 xcb))
(L (W xff xff xff xff xff xff xff xff)))
(T (W x18 x00 x00 x00 x0c x00 x00 x00)
(L (W x44 x02 x00 x00 x30 x01 x00 x00))
(L (W x00 x00 x00 x00 x12 x00 x00 x00)))))
(T (W x45 x26 x22 x84 xe4 x9c xf2 xcb)
(T (W x92 x8a xfe xff x00 x00 x01 x01)
(T (W xff xff xff xff xff xff xff xff)
(L (W x00 x00 x80 xbf x00 x00 x80 xbf))
(L (W xbc x00 x00 x00 x64 x00 x00 x00)))
(T (W x6c x00 x00 x00 x60 x00 x00 x00)
(L (W x6c x00 x00 x00 x60 x00 x00 x00))
(L (W xff xff xff xff xff xff xff xff))))
(T (W xff xff xff xff xff xff xff xff)
(T (W x00 x00 x00 x00 x00 x00 x00 x00)
(L (W x00 x00 x80 x3f x00 x00 x80 x3f))
(L (W x00 x00 x00 x00 x00 x00 x00 x00)))
(T (W xff xff xff xff xff xff xff xff)
(L (W x00 x00 x00 x00 x00 x00 x00 x00)) E))))))
(T (W x00 x00 x00 x00 x00 x00 x00 x00)
(T (W x00 x00 x00 x00 x00 x00 x00 x00)
(T (W x00 x00 x00 x00 x00 x00 x00 x00)
(T (W x00 x00 x00 x00 x00 x00 x00 x00)
(T (W xc0 x00 x00 x00 xb4 x00 x00 x00)
(T (W x45 x26 x22 x84 xe4 x9c xf2 xcb)
(L (W x00 x00 x00 x00 x00 x00 x00 x00))
(L (W x6c x00 x00 x00 x60 x00 x00 x00)))
(T (W x00 x00 x00 x00 x00 x00 x00 x00)
(L (W x5f x77 x69 x6c x64 x5f x70 x6f))
(L (W x00 x00 x80 xbf x00 x00 x80 xbf))))
(T (W x6c x00 x00 x00 x60 x00 x00 x00)
(T (W x50 x00 x00 x00 x44 x00 x00 x00)
(L (W x00 x00 x00 x00 x5a x72 xfe xff))
(L (W x00 x00 x80 xbf x00 x00 x80 xbf)))
(T (W x00 x00 x00 x00 x00 x00 x00 x00)
(L (W x46 x53 x59 x53 x5f x4e x53 x5f))
(L (W x00 x00 x00 x00 x12 x00 x00 x00)))))
(T (W xff xff xff xff xff xff xff xff)
(T (W x45 x26 x22 x84 xe4 x9c xf2 xcb)
(T (W x00 x00 x00 x00 x18 x00 x1c x00)
(L (W x00 x00 x00 x00 x00 x00 x00 x00))
(L (W x04 x00 x00 x00 x3a x48 xff xff)))
(T (W xff xff xff xff x9c x00 x00 x00)
(L (W x50 x00 x00 x00 x44 x00 x00 x00))
(L (W x44 x00 x00 x00 x00 x00 x80 xbf))))
(T (W x45 x26 x22 x84 xe4 x9c xf2 xcb)
(T (W x00 x00 x80 x3f x00 x00 x80 x3f)
(L (W x00 x00 x80 xbf x00 x00 x80 xbf))
(L (W x68 x00 x00 x00 x5c x00 x00 x00)))
(T (W xff xff xff xff xff xff xff xff)
(L (W x6c x00 x00 x00 x60 x00 x00 x00))
(L (W x00 x00 x80 xbf x00 x00 x80 xbf))))))
(T (W x22 x05 xfe xff xbc x01 x00 x00)
(T (W xff xff xff xff xff xff xff xff)
(T (W x00 x00 x00 x00 x60 xb3 xfc xff)
(T (W x00 x00 x00 x00 x00 x00 x00 x00)
(L (W x00 x00 x80 x3f x00 x00 x80 x3f))
(L (W x03 x00 x00 x00 xd8 x00 x00 x00)))
(T (W x00 x00 x00 x00 x00 x00 x00 x00)
(L (W x2a xb6 xfe xff x78 x00 x00 x00))
(L (W x45 x26 x22 x84 xe4 x9c xf2 xcb))))
(T (W x00 x00 x80 x3f x00 x00 x80 x3f)
(T (W xff xff xff xff xff xff xff xff)
(L (W xff xff xff xff xff xff xff xff))
(L (W x00 x00 x80 xbf x00 x00 x80 xbf)))
(T (W x00 x00 x00 x00 x00 x00 x00 x00)
(L (W x00 x00 x80 xbf x00 x00 x80 xbf))
(L (W x6c x00 x00 x00 x60 x00 x00 x00)))))
(T (W x18 x00 x00 x00 x10 x00 x00 x00)
(T (W x40 x00 x00 x00 x9c x00 x00 x00)
(T (W x00 x00 x80 x3f x00 x00 x80 x3f)
(L (W xff xff xff xff xff xff xff xff))
(L (W x00 x00 x00 x00 x00 x00 x00 x00)))
(T (W xff xff xff xff xff xff xff xff)
(L (W xff xff xff xff xff xff xff xff))
(L (W x45 x26 x22 x84 xe4 x9c xf2 xcb))))
(T (W x00 x00 x80 x3f x00 x00 x80 x3f)
(T (W xff xff xff xff xff xff xff xff)
(L (W x54 x00 x00 x00 x48 x00 x00 x00))
(L (W x00 x00 x80 xbf x00 x00 x80 xbf)))
(T (W x00 x00 x80 x3f x00 x00 x80 x3f)
(L (W x54 x00 x00 x00 x48 x00 x00 x00)) E)))))
(T (W x00 x00 x00 x00 x00 x00 x00 x00)
(T (W xea x94 x93 x5f x1e x8a xe0 x8a)
(T (W x48 x03 x00 x00 x34 x02 x00 x00)
(T (W xff xff xff xff x03 x00 x00 x00)
(T (W x00 x00 x00 x00 x00 x00 x00 x00)
(L (W x50 x00 x00 x00 x44 x00 x00 x00))
(L (W x50 x00 x00 x00 x44 x00 x00 x00)))
(T (W x00 x00 x00 x00 x00 x00 x00 x00)
(L (W x61 x64 x65 x72 x5f x77 x69 x6c))
(L (W x00 x00 x80 xbf x00 x00 x80 xbf))))
(T (W x00 x00 x80 x3f x00 x00 x80 x3f)
(T (W x03 x00 x00 x00 xd0 x00 x00 x00)
(L (W xff xff xff xff xff xff xff xff))
(L (W x00 x00 x80 xbf x00 x00 x80 xbf)))
(T (W x84 xf0 xfd xff x32 x00 x00 x00)
(L (W x00 x00 x80 xbf x00 x00 x80 xbf))
(L (W x46 x53 x59 x53 x5f x4e x53 x5f)))))
(T (W xff xff xff xff x04 x00 x00 x00)
(T (W x18 x00 x00 x00 x10 x00 x00 x00)
(T (W x00 x00 x80 x3f x00 x00 x80 x3f)
(L (W x00 x00 x00 x00 x00 x00 x00 x00))
(L (W x46 x53 x59 x53 x5f x4e x53 x5f)))
(T (W xff xff xff xff xff xff xff xff)
(L (W xff xff xff xff xff xff xff xff))
(L (W x54 x00 x00 x00 x48 x00 x00 x00))))
(T (W x00 x00 x00 x00 x00 x00 x00 x00)
(T (W x00 x00 x80 x3f x00 x00 x80 x3f)
(L (W xe4 x0d x00 x00 x68 x0c x00 x00))
(L (W x00 x00 x80 xbf x00 x00 x80 xbf)))
(T (W xff xff xff xff xff xff xff xff)
(L (W x00 x00 x80 xbf x00 x00 x80 xbf)) E))))
(T (W x00 x00 x00 x00 x00 x00 x00 x00)
(T (W xff xff xff xff xff xff xff xff)
(T (W x18 x00 x00 x00 x0c x00 x00 x00)
(T (W x00 x00 x00 x00 x00 x00 x00 x00)
(L (W x00 x00 x80 x3f x00 x00 x80 x3f))
(L (W xff xff xff xff xff xff xff xff)))
(T (W x00 x00 x80 x3f x00 x00 x80 x3f)
(L (W x00 x00 x80 x3f x00 x00 x80 x3f))
(L (W xff xff xff xff x90 x00 x00 x00))))
(T (W x00 x00 x00 x00 x00 x00 x00 x00)
(T (W x38 x00 x00 x00 x0c x00 x00 x00)
(L (W x32 x00 x00 x00 x0c x00 x00 x00))
(L (W x00 x00 x80 xbf x00 x00 x80 xbf)))
(T (W x21 x00 x00 x00 x10 x00 x00 x00)
(L (W x00 x00 x80 xbf x00 x00 x80 xbf))
(L (W x4c x00 x50 x00 x54 x00 x00 x00)))))
(T (W xb8 x00 x00 x00 xac x00 x00 x00)
(T (W x50 x00 x00 x00 x44 x00 x00 x00)
(T (W x00 x00 x80 x3f x00 x00 x80 x3f)
(L (W x45 x44 x00 x00 x00 x00 x00 x00))
(L (W x4f x84 x6f x8b xe8 xcb x63 xb7)))
(T (W x00 x00 x00 x00 x00 x00 x00 x00)
(L (W x00 x00 x01 x01 x42 x00 x00 x00))
(L (W x00 x00 x00 x00 x00 x00 x00 x00))))
(T (W x00 x00 x80 x3f x00 x00 x80 x3f)
(T (W xff xff xff xff xff xff xff xff)
(L (W x4f x84 x6f x8b xe8 xcb x63 xb7))
(L (W x45 x26 x22 x84 xe4 x9c xf2 xcb)))
(T (W x45 x26 x22 x84 xe4 x9c xf2 xcb)
(L (W x00 x00 x80 xbf x00 x00 x80 xbf)) E)))))))
(T (W x00 x00 x80 x3f x00 x00 x80 x3f)
(T (W x00 x00 x00 x00 x00 x00 x00 x00)
(T (W x48 x03 x00 x00 x34 x02 x00 x00)
(T (W xff xff xff xff xff xff xff xff)
(T (W xff xff xff xff x03 x00 x00 x00)
(T (W x00 x00 x80 x3f x00 x00 x80 x3f)
(T (W xf2 xbc x29 x42 xb2 x7f x32 x53)
(L (W x22 xd3 xff xff xc1 x00 x00 x00))
(L (W x49 xa1 x68 x4a xeb x5f xdd x3d)))
(T (W xff xff xff xff xff xff xff xff)
(L (W x00 x00 x00 x00 x60 xa1 xfe xff))
(L (W x00 x00 x00 x00 x00 x00 x00 x00))))
(T (W x00 x00 x00 x00 x00 x00 x00 x00)
(T (W x00 x00 x00 x00 x00 x00 x00 x00)
(L (W xff xff xff xff xff xff xff xff))
(L (W x00 x00 x00 x00 x00 x00 x00 x00)))
(T (W x01 x00 x00 x00 xff xff xff xff)
(L (W xff xff xff xff xff xff xff xff))
(L (W xff xff xff xff xff xff xff xff)))))
(T (W x00 x00 x80 x3f x00 x00 x80 x3f)
(T (W x00 x00 x00 x00 x00 x00 x00 x00)
(T (W x00 x00 x00 x00 x00 x00 x00 x00)
(L (W x4b x00 x00 x00 xff xff xff xff))
(L (W xff xff xff xff xb0 x00 x00 x00)))
(T (W x00 x00 x00 x00 x00 x00 x00 x00)
(L (W x45 x26 x22 x84 xe4 x9c xf2 xcb))
(L (W x49 xa1 x68 x4a xeb x5f xdd x3d))))
(T (W x00 x00 x00 x00 x00 x00 x00 x00)
(T (W xff xff xff xff xff xff xff xff)
(L (W x00 x00 x00 x00 x00 x00 x00 x00))
(L (W x00 x00 x80 xbf x00 x00 x80 xbf)))
(T (W x64 x00 x00 x00 x9c x00 x00 x00)
(L (W x46 x53 x59 x53 x5f x4e x53 x5f))
(L (W xff xff xff xff xb8 x00 x00 x00))))))
(T (W xff xff xff xff xff xff xff xff)
(T (W x18 x00 x00 x00 x0c x00 x00 x00)
(T (W x00 x00 x80 x3f x00 x00 x80 x3f)
(T (W x00 x00 x00 x00 x00 x00 x00 x00)
(L (W x00 x00 x00 x00 x00 x00 x00 x00))
(L (W x00 x00 x80 xbf x00 x00 x80 xbf)))
(T (W x00 x00 x00 x00 x00 x00 x00 x00)
(L (W x45 x26 x22 x84 xe4 x9c xf2 xcb))
(L (W x00 x00 x00 x00 x00 x00 x00 x00))))
(T (W x00 x00 x00 x00 x00 x00 x00 x00)
(T (W xe2 x87 xfd xff x74 x00 x00 x00)
(L (W x1c x00 x00 x00 x10 x00 x00 x00))
(L (W x00 x00 x00 x00 x00 x00 x00 x00)))
(T (W xff xff xff xff xff xff xff xff)
(L (W x00 x00 x00 x00 x12 x00 x00 x00))
(L (W x00 x00 x60 x00 x00 x00 x00 x00)))))
(T (W xe2 xa7 xfc xff x74 x00 x00 x00)
(T (W x00 x00 x80 x3f x00 x00 x80 x3f)
(T (W x00 x00 x00 x00 x00 x00 x00 x00)
(L (W x00 x00 x00 x00 x00 x00 x00 x00))
(L (W xff xff xff xff xff xff xff xff)))
(T (W xb8 x00 x00 x00 x64 x00 x00 x00)
(L (W x00 x00 x00 x00 x60 xd1 xfe xff))
(L (W x03 x00 x00 x00 xcc x00 x00 x00))))
(T (W x00 x00 x00 x00 x00 x00 x00 x00)
(T (W x00 x00 x80 x3f x00 x00 x80 x3f)
(L (W x30 x34 x5f x43 x4c x45 x41 x52))
(L (W x00 x00 x00 x00 x00 x00 x00 x00)))
(T (W x00 x00 x00 x00 x00 x00 x00 x00)
(L (W x4f x84 x6f x8b xe8 xcb x63 xb7)) E)))))
(T (W xff xff xff xff xff xff xff xff)
(T (W xff xff xff xff xff xff xff xff)
(T (W xff xff xff xff xff xff xff xff)
(T (W x00 x00 x80 x3f x00 x00 x80 x3f)
(T (W x22 xdb xfe xff x4d x00 x00 x00)
(L (W x45 x26 x22 x84 xe4 x9c xf2 xcb))
(L (W x00 x00 x00 x00 x00 x00 x00 x00)))
(T (W xff xff xff xff xff xff xff xff)
(L (W x2a xac xfe xff x78 x00 x00 x00))
(L (W x00 x00 x00 x00 x00 x00 x00 x00))))
(T (W x00 x00 x00 x00 x00 x00 x00 x00)
(T (W x00 x00 x80 x3f x00 x00 x80 x3f)
(L (W x00 x00 x00 x00 x60 x69 xfe xff))
(L (W xff xff xff xff xff xff xff xff)))
(T (W xff xff xff xff xff xff xff xff)
(L (W x04 x00 x00 x00 x80 x03 x00 x00))
(L (W xff xff xff xff xc4 x00 x00 x00)))))
(T (W x68 x00 x00 x00 x5c x00 x00 x00)
(T (W x00 x00 x80 x3f x00 x00 x80 x3f)
(T (W x20 xdc x93 xd5 xa5 xc7 xe7 x0f)
(L (W xff xff xff xff xff xff xff xff))
(L (W xff xff xff xff xff xff xff xff)))
(T (W x00 x00 x80 x3f x00 x00 x80 x3f)
(L (W x00 x00 x80 xbf x00 x00 x80 xbf))
(L (W x00 x00 x80 xbf x00 x00 x80 xbf))))
(T (W x00 x00 x80 x3f x00 x00 x80 x3f)
(T (W x00 x00 x00 x00 x00 x00 x00 x00)
(L (W x01 x01 x01 x01 xfa x82 xfe xff))
(L (W x00 x00 x00 x00 x00 x00 x00 x00)))
(T (W x18 x00 x00 x00 x0c x00 x00 x00)
(L (W x00 x00 x00 x00 x00 x00 x00 x00)) E))))
(T (W xff xff xff xff xff xff xff xff)
(T (W xe2 x8f xfc xff x74 x00 x00 x00)
(T (W x00 x00 x00 x00 x00 x00 x00 x00)
(T (W x00 x00 x00 x00 x00 x00 x00 x00)
(L (W x00 x00 x00 x00 x00 x00 x00 x00))
(L (W x00 x00 x00 x00 x60 x39 xff xff)))
(T (W x00 x00 x00 x00 x00 x00 x00 x00)
(L (W x00 x00 x00 x00 x00 x00 x00 x00))
(L (W x00 x00 x80 xbf x00 x00 x80 xbf))))
(T (W x00 x00 x00 x00 x00 x00 x00 x00)
(T (W xff xff xff xff xff xff xff xff)
(L (W xb0 x00 x00 x00 x64 x00 x00 x00))
(L (W x46 x53 x59 x53 x5f x4e x53 x5f)))
(T (W xff xff xff xff xff xff xff xff)
(L (W x00 x00 x00 x00 x00 x00 x00 x00))
(L (W x00 x00 x80 xbf x00 x00 x80 xbf)))))
(T (W xe8 x97 xfc xff x00 x01 x01 x01)
(T (W x00 x00 x00 x00 x00 x00 x00 x00)
(T (W x00 x00 x00 x00 x00 x00 x00 x00)
(L (W xff xff xff xff xbc x00 x00 x00))
(L (W xff xff xff xff xff xff xff xff)))
(T (W xff xff xff xff xff xff xff xff)
(L (W x03 x00 x00 x00 xd8 x00 x00 x00))
(L (W x00 x00 x80 xbf x00 x00 x80 xbf))))
(T (W x00 x00 x00 x00 x00 x00 x00 x00)
(T (W x18 x00 x00 x00 x10 x00 x00 x00)
(L (W xff xff xff xff xff xff xff xff))
(L (W xc8 x00 x00 x00 x01 x00 x00 x00)))
(T (W x00 x00 x00 x00 x00 x00 x00 x00)
(L (W x00 x00 x00 x00 x00 x00 x00 x00)) E))))))
(T (W x00 x00 x80 x3f x00 x00 x80 x3f)
(T (W x45 x26 x22 x84 xe4 x9c xf2 xcb)
(T (W x00 x00 x80 x3f x00 x00 x80 x3f)
(T (W x00 x00 x00 x00 x00 x00 x00 x00)
(T (W xff xff xff xff xff xff xff xff)
(T (W xe2 x3b xfd xff x74 x00 x00 x00)
(L (W xff xff xff xff x03 x00 x00 x00))
(L (W x03 x00 x00 x00 xd8 x00 x00 x00)))
(T (W x45 x26 x22 x84 xe4 x9c xf2 xcb)
(L (W x00 x00 x80 x3f x00 x00 x80 x3f))
(L (W xe8 xa3 xff xff x00 x01 x01 x01))))
(T (W xff xff xff xff xff xff xff xff)
(T (W xff xff xff xff xff xff xff xff)
(L (W x00 x00 x00 x00 x00 x00 x00 x00))
(L (W x3c x00 x00 x00 x00 x00 x80 xbf)))
(T (W x00 x00 x80 x3f x00 x00 x80 x3f)
(L (W x00 x00 x80 xbf x00 x00 x80 xbf))
(L (W xff xff xff xff xff xff xff xff)))))
(T (W x00 x00 x00 x00 x00 x00 x00 x00)
(T (W xff xff xff xff xff xff xff xff)
(T (W x00 x00 x80 x3f x00 x00 x80 x3f)
(L (W x45 x26 x22 x84 xe4 x9c xf2 xcb))
(L (W x45 x26 x22 x84 xe4 x9c xf2 xcb)))
(T (W xff xff xff xff xff xff xff xff)
(L (W xff xff xff xff xff xff xff xff))
(L (W xff xff xff xff xb0 x00 x00 x00))))
(T (W x68 x00 x00 x00 x5c x00 x00 x00)
(T (W x18 x00 x00 x00 x0c x00 x00 x00)
(L (W xff xff xff xff xff xff xff xff))
(L (W xff xff xff xff xff xff xff xff)))
(T (W x00 x00 x00 x00 x00 x00 x00 x00)
(L (W xff xff xff xff xff xff xff xff))
(L (W x46 x53 x59 x53 x5f x4e x53 x5f))))))
(T (W x00 x00 x00 x00 x00 x00 x00 x00)
(T (W x00 x00 x00 x00 x00 x00 x00 x00)
(T (W xff xff xff xff xff xff xff xff)
(T (W x00 x00 x80 x3f x00 x00 x80 x3f)
(L (W xb8 x00 x00 x00 xac x00 x00 x00))
(L (W x00 x00 x01 x01 xb4 x01 x00 x00)))
(T (W x18 x00 x00 x00 x10 x00 x00 x00)
(L (W xff xff xff xff xff xff xff xff))
(L (W xff xff xff xff xff xff xff xff))))
(T (W xbc x00 x00 x00 xb0 x00 x00 x00)
(T (W x00 x00 x00 x00 x00 x00 x00 x00)
(L (W x04 x00 x00 x00 xc2 x74 xfe xff))
(L (W x58 x00 x00 x00 x4c x00 x00 x00)))
(T (W x00 x00 x80 x3f x00 x00 x80 x3f)
(L (W xc0 x00 x00 x00 x01 x00 x00 x00))
(L (W xff xff xff xff xc8 x00 x00 x00)))))
(T (W x92 x48 xfe xff x00 x00 x01 x01)
(T (W xff xff xff xff xff xff xff xff)
(T (W xb0 x00 x00 x00 x0a x00 x00 x00)
(L (W x00 x00 x00 x00 x00 x00 x00 x00))
(L (W x00 x00 x80 xbf x00 x00 x80 xbf)))
(T (W x00 x00 x00 x00 x00 x00 x00 x00)
(L (W x49 xa1 x68 x4a xeb x5f xdd x3d))
(L (W xbc x00 x00 x00 x64 x00 x00 x00))))
(T (W x0a x00 x00 x00 x3e x00 x00 x00)
(T (W xb2 xc4 xfd xff x00 x00 x01 x01)
(L (W x77 x61 x72 x6c x69 x6b x65 x5f))
(L (W x1d x00 x00 x00 x20 x00 x00 x00)))
(T (W x01 x00 x00 x00 xa0 x00 x00 x00)
(L (W xff xff xff xff xff xff xff xff)) E)))))
(T (W x00 x00 x80 x3f x00 x00 x80 x3f)
(T (W x45 x26 x22 x84 xe4 x9c xf2 xcb)
(T (W x00 x00 x00 x00 x00 x00 x00 x00)
(T (W xff xff xff xff xff xff xff xff)
(T (W xe8 x2b xfd xff x00 x01 x01 x01)
(L (W xff xff xff xff xff xff xff xff))
(L (W xff xff xff xff xff xff xff xff)))
(T (W x00 x00 x80 x3f x00 x00 x80 x3f)
(L (W x18 x00 x00 x00 x0c x00 x00 x00))
(L (W xff xff xff xff xbc x00 x00 x00))))
(T (W x64 x00 x00 x00 x9c x00 x00 x00)
(T (W x02 x00 x00 x00 x30 x01 x00 x00)
(L (W x00 x00 x00 x00 x00 x00 x00 x00))
(L (W xe8 x6b xff xff x00 x01 x01 x01)))
(T (W x00 x00 x00 x00 x00 x00 x00 x00)
(L (W x68 x00 x00 x00 x5c x00 x00 x00))
(L (W x00 x00 x00 x00 x00 x00 x00 x00)))))
(T (W x1d x00 x00 x00 x10 x00 x00 x00)
(T (W xff xff xff xff xff xff xff xff)
(T (W x45 x26 x22 x84 xe4 x9c xf2 xcb)
(L (W xff xff xff xff xff xff xff xff))
(L (W x00 x00 x80 xbf x00 x00 x80 xbf)))
(T (W x00 x00 x00 x00 x00 x00 x00 x00)
(L (W x44 x0e xb3 x28 xbf xdf x60 x6a))
(L (W xb8 x00 x00 x00 x64 x00 x00 x00))))
(T (W x18 x00 x00 x00 x0c x00 x00 x00)
(T (W xff xff xff xff xff xff xff xff)
(L (W x00 x00 x80 x3f x00 x00 x80 x3f))
(L (W xff xff xff xff xff xff xff xff)))
(T (W x31 x00 x00 x00 x0c x00 x00 x00)
(L (W xff xff xff xff xff xff xff xff)) E))))
(T (W x00 x00 x00 x00 x00 x00 x00 x00)
(T (W x00 x00 x00 x00 x00 x00 x00 x00)
(T (W xff xff xff xff xff xff xff xff)
(T (W x00 x00 x80 x3f x00 x00 x80 x3f)
(L (W x00 x00 x00 x00 x00 x00 x00 x00))
(L (W x00 x00 x00 x00 x12 x00 x00 x00)))
(T (W xff xff xff xff xff xff xff xff)
(L (W xc4 x00 x00 x00 x01 x00 x00 x00))
(L (W xff xff xff xff xff xff xff xff))))
(T (W xe8 xfb xfc xff x00 x01 x01 x01)
(T (W x45 x26 x22 x84 xe4 x9c xf2 xcb)
(L (W x00 x00 x80 xbf x00 x00 x80 xbf))
(L (W x03 x00 x00 x00 xd0 x00 x00 x00)))
(T (W x00 x00 x00 x00 x00 x00 x00 x00)
(L (W xff xff xff xff xff xff xff xff))
(L (W x2a x00 x00 x00 x78 x00 x00 x00)))))
(T (W xff xff xff xff xff xff xff xff)
(T (W xff xff xff xff xff xff xff xff)
(T (W xff xff xff xff xff xff xff xff)
(L (W x00 x00 x00 x00 x00 x00 x00 x00))
(L (W x6c x00 x00 x00 x60 x00 x00 x00)))
(T (W x00 x00 x80 x3f x00 x00 x80 x3f)
(L (W x00 x00 x00 x00 x00 x00 x00 x00))
(L (W x45 x26 x22 x84 xe4 x9c xf2 xcb))))
(T (W xc0 x00 x00 x00 xb4 x00 x00 x00)
(T (W x00 x00 x00 x00 x00 x00 x00 x00)
(L (W x28 x00 x00 x00 x2b x00 x00 x00))
(L (W x18 x00 x00 x00 x10 x00 x00 x00)))
(T (W x50 x00 x00 x00 x44 x00 x00 x00)
(L (W x15 x00 x00 x00 x18 x00 x00 x00)) E)))))))))
(T (W xe8 x37 x02 x00 x8c x35 x02 x00)
(T (W x18 x8e x01 x00 x6c x89 x01 x00)
(T (W x00 x4e x00 x00 xcc x4c x00 x00)
(T (W x00 x00 x00 x00 x00 x00 x00 x00)
(T (W x00 x00 x00 x00 x00 x00 x00 x00)
(T (W x00 x00 x00 x00 x00 x00 x00 x00)
(T (W xff xff xff xff xff xff xff xff)
(T (W x45 x26 x22 x84 xe4 x9c xf2 xcb)
(T (W x00 x00 x80 x3f x00 x00 x80 x3f)
(L (W x00 x00 x00 x00 x00 x00 x00 x00))
(L (W x00 x00 x00 x00 x6c x1d xff xff)))
(T (W xff xff xff xff xff xff xff xff)
(L (W x18 x00 x00 x00 x10 x00 x00 x00))
(L (W x54 x00 x00 x00 x48 x00 x00 x00))))
(T (W x00 x00 x80 x3f x00 x00 x80 x3f)
(T (W x00 x00 x80 x3f x00 x00 x80 x3f)
(L (W x84 x04 x00 x00 x78 x03 x00 x00))
(L (W x00 x00 x00 x00 x00 x00 x00 x00)))
(T (W x5f x4e x53 x5f x30 x34 x5f x43)
(L (W x46 x53 x59 x53 x5f x4e x53 x5f))
(L (W x30 x34 x5f x43 x4c x45 x41 x52)))))
(T (W xff xff xff xff xff xff xff xff)
(T (W xaa xc1 xfc xff x78 x00 x00 x00)
(T (W x00 x00 x00 x00 x00 x00 x00 x00)
(L (W x00 x00 x00 x00 x00 x00 x00 x00))
(L (W xff xff xff xff xff xff xff xff)))
(T (W x50 x00 x00 x00 x44 x00 x00 x00)
(L (W x00 x00 x80 x3f x00 x00 x80 x3f))
(L (W x1c x00 x00 x00 x10 x00 x00 x00))))
(T (W x00 x00 x80 x3f x00 x00 x80 x3f)
(T (W x00 x00 x00 x00 x00 x00 x00 x00)
(L (W x00 x00 x00 x00 x00 x00 x00 x00))
(L (W x00 x00 x80 xbf x00 x00 x80 xbf)))
(T (W xff xff xff xff xff xff xff xff)
(L (W x00 x00 x80 xbf x00 x00 x80 xbf))
(L (W x00 x00 x00 x00 x00 x00 x00 x00))))))
(T (W x00 x00 x00 x00 x00 x00 x00 x00)
(T (W xff xff xff xff xff xff xff xff)
(T (W x00 x00 x80 x3f x00 x00 x80 x3f)
(T (W x00 x00 x00 x00 x00 x00 x00 x00)
(L (W x00 x00 x80 x3f x00 x00 x80 x3f))
(L (W x45 x26 x22 x84 xe4 x9c xf2 xcb)))
(T (W x00 x00 x00 x00 x00 x00 x00 x00)
(L (W x45 x26 x22 x84 xe4 x9c xf2 xcb))
(L (W x54 x00 x00 x00 x48 x00 x00 x00))))
(T (W x00 x00 x80 x3f x00 x00 x80 x3f)
(T (W xb0 x00 x00 x00 x64 x00 x00 x00)
(L (W xff xff xff xff xff xff xff xff))
(L (W x45 x26 x22 x84 xe4 x9c xf2 xcb)))
(T (W x00 x00 x00 x00 x00 x00 x00 x00)
(L (W x00 x00 x80 xbf x00 x00 x80 xbf))
(L (W x00 x00 x01 x01 x2a x00 x00 x00)))))
(T (W xb8 x00 x00 x00 xac x00 x00 x00)
(T (W x00 x00 x80 x3f x00 x00 x80 x3f)
(T (W x45 x26 x22 x84 xe4 x9c xf2 xcb)
(L (W xff xff xff xff xff xff xff xff))
(L (W x17 x00 x00 x00 x0c x00 x00 x00)))
(T (W xff xff xff xff xff xff xff xff)
(L (W xff xff xff xff xbc x00 x00 x00))
(L (W x50 x00 x00 x00 x44 x00 x00 x00))))
(T (W x00 x00 x00 x00 x00 x00 x00 x00)
(T (W x6c x00 x00 x00 x60 x00 x00 x00)
(L (W x46 x53 x59 x53 x5f x4e x53 x5f))
(L (W xdc x8e xff xff x22 x8a xff xff)))
(T (W x00 x00 x00 x00 x00 x00 x00 x00)
(L (W x54 x00 x00 x00 x48 x00 x00 x00)) E)))))
(T (W x04 x3c xfc xff x3c x00 x00 x00)
(T (W x04 x4c xfc xff x1f x00 x00 x00)
(T (W xff xff xff xff xff xff xff xff)
(T (W x68 x00 x00 x00 x5c x00 x00 x00)
(T (W x00 x00 x80 x3f x00 x00 x80 x3f)
(L (W x45 x26 x22 x84 xe4 x9c xf2 xcb))
(L (W x00 x00 x80 xbf x00 x00 x80 xbf)))
(T (W x30 x34 x5f x43 x4c x45 x41 x52)
(L (W x00 x00 x00 x00 x00 x00 x00 x00))
(L (W x45 x26 x22 x84 xe4 x9c xf2 xcb))))
(T (W x00 x00 x80 x3f x00 x00 x80 x3f)
(T (W xaa x69 xfd xff x78 x00 x00 x00)
(L (W xff xff xff xff xff xff xff xff))
(L (W x46 x53 x59 x53 x5f x4e x53 x5f)))
(T (W x04 xec xfd xff x3e x00 x00 x00)
(L (W x00 x00 x00 x00 x00 x00 x00 x00))
(L (W xff xff xff xff xff xff xff xff)))))
(T (W xff xff xff xff xff xff xff xff)
(T (W x68 x00 x00 x00 x5c x00 x00 x00)
(T (W x86 xdf x93 xd5 xa5 xc9 xe7 x0f)
(L (W x00 x00 x00 x00 x00 x00 x00 x00))
(L (W xff xff xff xff xff xff xff xff)))
(T (W x2b x00 x00 x00 x2e x00 x00 x00)
(L (W xaa xc9 xfe xff x78 x00 x00 x00))
(L (W x40 x00 x00 x00 x00 x00 x80 xbf))))
(T (W x45 x26 x22 x84 xe4 x9c xf2 xcb)
(T (W x45 x26 x22 x84 xe4 x9c xf2 xcb)
(L (W x45 x26 x22 x84 xe4 x9c xf2 xcb))
(L (W x6c x00 x00 x00 x60 x00 x00 x00)))
(T (W xff xff xff xff xff xff xff xff)
(L (W x00 x00 x80 xbf x00 x00 x80 xbf))
(L (W x00 x00 x00 x00 x00 x00 x00 x00))))))
(T (W x00 x00 x00 x00 x02 x00 x00 x00)
(T (W xff xff xff xff xff xff xff xff)
(T (W x50 x00 x00 x00 x44 x00 x00 x00)
(T (W x00 x00 x00 x00 x00 x00 x00 x00)
(L (W x45 x26 x22 x84 xe4 x9c xf2 xcb))
(L (W x18 x00 x00 x00 x10 x00 x00 x00)))
(T (W x4f x84 x6f x8b xe8 xcb x63 xb7)
(L (W x00 x00 x80 x3f x00 x00 x80 x3f))
(L (W x50 x00 x00 x00 x44 x00 x00 x00))))
(T (W x45 x26 x22 x84 xe4 x9c xf2 xcb)
(T (W xff xff xff xff xff xff xff xff)
(L (W xff xff xff xff xff xff xff xff))
(L (W x00 x00 x00 x00 x00 x00 x00 x00)))
(T (W x20 x00 x00 x00 x10 x00 x00 x00)
(L (W x00 x00 x80 xbf x00 x00 x80 xbf))
(L (W x68 xf5 xff xff x00 x01 x01 x01)))))
(T (W xff xff xff xff x04 x00 x00 x00)
(T (W x00 x00 x80 x3f x00 x00 x80 x3f)
(T (W x00 x00 x80 x3f x00 x00 x80 x3f)
(L (W xff xff xff xff xff xff xff xff))
(L (W x00 x00 x00 x00 x12 x00 x00 x00)))
(T (W x00 x00 x01 x01 xd6 x00 x00 x00)
(L (W x00 x00 x01 x01 x5c x00 x00 x00))
(L (W x00 x00 x80 xbf x00 x00 x80 xbf))))
(T (W x45 x26 x22 x84 xe4 x9c xf2 xcb)
(T (W xff xff xff xff x9c x00 x00 x00)
(L (W xff xff xff xff xff xff xff xff))
(L (W x00 x00 x80 xbf x00 x00 x80 xbf)))
(T (W x45 x26 x22 x84 xe4 x9c xf2 xcb)
(L (W xdc x16 xff xff x22 x12 xff xff)) E))))))
(T (W x18 x00 x00 x00 x0c x00 x00 x00)
(T (W x23 x00 x00 x00 x9c x00 x00 x00)
(T (W x50 x00 x00 x00 x44 x00 x00 x00)
(T (W x68 x00 x00 x00 x5c x00 x00 x00)
(T (W x00 x00 x00 x00 x00 x00 x00 x00)
(T (W xff xff xff xff xff xff xff xff)
(L (W xb8 x00 x00 x00 xac x00 x00 x00))
(L (W x00 x00 x01 x01 x5c x00 x00 x00)))
(T (W x68 x00 x00 x00 x5c x00 x00 x00)
(L (W x00 x00 x00 x00 x00 x00 x00 x00))
(L (W xff xff xff xff xff xff xff xff))))
(T (W x12 x96 xfe xff x00 x00 x01 x01)
(T (W xff xff xff xff xff xff xff xff)
(L (W x54 x00 x00 x00 x48 x00 x00 x00))
(L (W xff xff xff xff xff xff xff xff)))
(T (W x01 x00 x00 x00 x9c x00 x00 x00)
(L (W xaa xe5 xfe xff x78 x00 x00 x00))
(L (W x68 xe1 xff xff x00 x01 x01 x01)))))
(T (W x00 x00 x00 x00 x00 x00 x00 x00)
(T (W x8e xc7 x59 x88 x5c xf7 xf1 x43)
(T (W x00 x00 x80 x3f x00 x00 x80 x3f)
(L (W x68 x00 x00 x00 x5c x00 x00 x00))
(L (W x00 x00 x80 xbf x00 x00 x80 xbf)))
(T (W x4c x45 x41 x52 x45 x44 x00 x00)
(L (W x93 x01 x00 x00 xff xff xff xff))
(L (W xff xff xff xff xff xff xff xff))))
(T (W xff xff xff xff xff xff xff xff)
(T (W xff xff xff xff xff xff xff xff)
(L (W xff xff xff xff xff xff xff xff))
(L (W x00 x00 x00 x00 xb2 x80 xff xff)))
(T (W x00 x00 x80 x3f x00 x00 x80 x3f)
(L (W xff xff xff xff xff xff xff xff))
(L (W xdc x00 x00 x00 x64 x00 x00 x00))))))
(T (W x00 x00 x80 x3f x00 x00 x80 x3f)
(T (W x00 x00 x80 x3f x00 x00 x80 x3f)
(T (W x00 x00 x00 x00 x00 x00 x00 x00)
(T (W x00 x00 x00 x00 xe0 x32 xfd xff)
(L (W xff xff xff xff xff xff xff xff))
(L (W x00 x00 x00 x00 x00 x00 x00 x00)))
(T (W xb0 x00 x00 x00 x28 x00 x00 x00)
(L (W x00 x00 x00 x00 xba xb3 xfe xff))
(L (W x54 x02 x00 x00 x38 x01 x00 x00))))
(T (W xff xff xff xff xff xff xff xff)
(T (W x49 xa1 x68 x4a xeb x5f xdd x3d)
(L (W x00 x00 x00 x00 x00 x00 x00 x00))
(L (W xff xff xff xff xff xff xff xff)))
(T (W x18 x00 x00 x00 x0c x00 x00 x00)
(L (W xff xff xff xff xff xff xff xff))
(L (W x00 x00 x58 x00 x00 x00 x00 x00)))))
(T (W x00 x00 x00 x00 x00 x00 x00 x00)
(T (W x39 x77 x42 x3f xb5 x0e xb4 x03)
(T (W xff xff xff xff xff xff xff xff)
(L (W x00 x00 x00 x00 x00 x00 x00 x00))
(L (W x00 x00 x00 x00 xe0 x52 xff xff)))
(T (W x00 x00 x80 x3f x00 x00 x80 x3f)
(L (W x00 x00 x80 xbf x00 x00 x80 xbf))
(L (W xff xff xff xff xbc x00 x00 x00))))
(T (W xff xff xff xff xff xff xff xff)
(T (W x00 x00 x00 x00 x00 x00 x00 x00)
(L (W xff xff xff xff xff xff xff xff))
(L (W xff xff xff xff xff xff xff xff)))
(T (W xff xff xff xff xff xff xff xff)
(L (W xff xff xff xff xff xff xff xff)) E)))))
(T (W x68 x39 xfc xff x00 x01 x01 x01)
(T (W x00 x00 x80 x3f x00 x00 x80 x3f)
(T (W x00 x00 x80 x3f x00 x00 x80 x3f)
(T (W x00 x00 x00 x00 x00 x00 x00 x00)
(T (W x64 x00 x00 x00 x9c x00 x00 x00)
(L (W xa2 xdc xff xff x81 x00 x00 x00))
(L (W xcf x00 x00 x00 xff xff xff xff)))
(T (W xff xff xff xff xb0 x00 x00 x00)
(L (W x00 x00 x80 x3f x00 x00 x80 x3f))
(L (W xff xff xff xff xff xff xff xff))))
(T (W xff xff xff xff xff xff xff xff)
(T (W x00 x00 x00 x00 x00 x00 x00 x00)
(L (W x00 x00 x80 xbf x00 x00 x80 xbf))
(L (W xff xff xff xff xff xff xff xff)))
(T (W x00 x00 x80 x3f x00 x00 x80 x3f)
(L (W xff xff xff xff xff xff xff xff))
(L (W x00 x00 x00 x00 x6c xe9 xff xff)))))
(T (W x00 x00 x00 x00 x00 x00 x00 x00)
(T (W x00 x00 x00 x00 x00 x00 x00 x00)
(T (W xff xff xff xff xff xff xff xff)
(L (W x50 x00 x00 x00 x44 x00 x00 x00))
(L (W xaa x4d xff xff x78 x00 x00 x00)))
(T (W x00 x00 x00 x00 x00 x00 x00 x00)
(L (W x00 x00 x00 x00 x00 x00 x00 x00))
(L (W x00 x00 x00 x00 x5a xd8 xff xff))))
(T (W x68 x09 xfd xff x00 x01 x01 x01)
(T (W xff xff xff xff xff xff xff xff)
(L (W x00 x00 x80 xbf x00 x00 x80 xbf))
(L (W xff xff xff xff xff xff xff xff)))
(T (W x00 x00 x00 x00 x00 x00 x00 x00)
(L (W xff xff xff xff xff xff xff xff)) E))))
(T (W x50 x00 x00 x00 x44 x00 x00 x00)
(T (W x45 x26 x22 x84 xe4 x9c xf2 xcb)
(T (W x40 x00 x00 x00 x10 x00 x00 x00)
(T (W x18 x00 x00 x00 x0c x00 x00 x00)
(L (W xff xff xff xff xff xff xff xff))
(L (W x00 x00 x00 x00 x00 x00 x00 x00)))
(T (W xff xff xff xff xff xff xff xff)
(L (W xff xff xff xff xff xff xff xff))
(L (W x46 x53 x59 x53 x5f x4e x53 x5f))))
(T (W xb8 x00 x00 x00 xac x00 x00 x00)
(T (W x00 x00 x80 x3f x00 x00 x80 x3f)
(L (W x00 x00 x80 xbf x00 x00 x80 xbf))
(L (W xff xff xff xff xff xff xff xff)))
(T (W x00 x00 x80 x3f x00 x00 x80 x3f)
(L (W xff xff xff xff xff xff xff xff))
(L (W x10 x00 x04 x00 x08 x00 x0c x00)))))
(T (W x00 x00 x00 x00 x00 x00 x00 x00)
(T (W xd5 x01 x00 x00 xff xff xff xff)
(T (W xff xff xff xff xff xff xff xff)
(L (W x54 x00 x00 x00 x48 x00 x00 x00))
(L (W xcc x00 x00 x00 x01 x00 x00 x00)))
(T (W x50 x00 x00 x00 x44 x00 x00 x00)
(L (W x00 x00 x80 xbf x00 x00 x80 xbf))
(L (W x54 x00 x00 x00 x48 x00 x00 x00))))
(T (W xff xff xff xff xff xff xff xff)
(T (W x4f x84 x6f x8b xe8 xcb x63 xb7)
(L (W x03 x00 x00 x00 xd0 x00 x00 x00))
(L (W xff xff xff xff xc8 x00 x00 x00)))
(T (W xff xff xff xff xff xff xff xff)
(L (W xff xff xff xff xff xff xff xff)) E)))))))
(T (W xff xff xff xff xff xff xff xff)
(T (W x54 x00 x00 x00 x48 x00 x00 x00)
(T (W x00 x00 x80 x3f x00 x00 x80 x3f)
(T (W x45 x26 x22 x84 xe4 x9c xf2 xcb)
(T (W x00 x00 x00 x00 x00 x00 x00 x00)
(T (W xff xff xff xff xff xff xff xff)
(T (W x00 x00 x80 x3f x00 x00 x80 x3f)
(L (W x00 x00 x80 x3f x00 x00 x80 x3f))
(L (W x03 x00 x00 x00 xd8 x00 x00 x00)))
(T (W x00 x00 x00 x00 x00 x00 x00 x00)
(L (W x00 x00 x00 x00 x00 x00 x00 x00))
(L (W x1c x00 x00 x00 x10 x00 x00 x00))))
(T (W x45 x26 x22 x84 xe4 x9c xf2 xcb)
(T (W xb4 x00 x00 x00 x64 x00 x00 x00)
(L (W x45 x26 x22 x84 xe4 x9c xf2 xcb))
(L (W xff xff xff xff x90 x00 x00 x00)))
(T (W x00 x00 x80 x3f x00 x00 x80 x3f)
(L (W x00 x00 x80 xbf x00 x00 x80 xbf))
(L (W x4f x84 x6f x8b xe8 xcb x63 xb7)))))
(T (W xff xff xff xff xff xff xff xff)
(T (W xb8 x00 x00 x00 xac x00 x00 x00)
(T (W xb8 x00 x00 x00 xac x00 x00 x00)
(L (W x45 x26 x22 x84 xe4 x9c xf2 xcb))
(L (W xac x4a xff xff x1d x00 x00 x00)))
(T (W xb0 x00 x00 x00 x28 x00 x00 x00)
(L (W xff xff xff xff xc8 x00 x00 x00))
(L (W xff xff xff xff xff xff xff xff))))
(T (W x18 x00 x00 x00 x0c x00 x00 x00)
(T (W x00 x00 x80 x3f x00 x00 x80 x3f)
(L (W x68 x00 x00 x00 x5c x00 x00 x00))
(L (W xff xff xff xff xff xff xff xff)))
(T (W x00 x00 x00 x00 x00 x00 x00 x00)
(L (W xaa x03 xff xff x78 x00 x00 x00))
(L (W x58 x00 x00 x00 x00 x00 x5c x00))))))
(T (W x00 x00 x80 x3f x00 x00 x80 x3f)
(T (W xac x7a xfc xff x3c x00 x00 x00)
(T (W xff xff xff xff xff xff xff xff)
(T (W x50 x00 x00 x00 x44 x00 x00 x00)
(L (W xb8 x00 x00 x00 xac x00 x00 x00))
(L (W xff xff xff xff xff xff xff xff)))
(T (W x54 x00 x00 x00 x48 x00 x00 x00)
(L (W xff xff xff xff xc8 x00 x00 x00))
(L (W xc4 x00 x00 x00 x02 x00 x00 x00))))
(T (W x68 xef xfc xff x00 x01 x01 x01)
(T (W x00 x00 x00 x00 x00 x00 x00 x00)
(L (W x00 x00 x00 x00 x00 x00 x00 x00))
(L (W x68 x00 x00 x00 x5c x00 x00 x00)))
(T (W x00 x00 x80 x3f x00 x00 x80 x3f)
(L (W x68 xef xfe xff x00 x01 x01 x01))
(L (W x00 x00 x00 x00 x00 x00 x00 x00)))))
(T (W x00 x00 x00 x00 x00 x00 x00 x00)
(T (W xff xff xff xff xff xff xff xff)
(T (W x45 x26 x22 x84 xe4 x9c xf2 xcb)
(L (W x55 x39 x81 x6a xc4 xc7 x74 x14))
(L (W x00 x00 x80 xbf x00 x00 x80 xbf)))
(T (W x12 x00 x00 x00 x46 x53 x59 x53)
(L (W x00 x00 x00 x00 x00 x00 x00 x00))
(L (W x48 x00 x4c x00 x50 x00 x54 x00))))
(T (W x68 x0f xfd xff x00 x01 x01 x01)
(T (W xff xff xff xff xff xff xff xff)
(L (W x6c x00 x00 x00 x60 x00 x00 x00))
(L (W xa4 x00 x00 x00 x1e x00 x00 x00)))
(T (W x01 x00 x00 x00 x9c x00 x00 x00)
(L (W xcc x00 x00 x00 x01 x00 x00 x00)) E)))))
(T (W x00 x00 x00 x00 x00 x00 x00 x00)
(T (W x00 x00 x80 x3f x00 x00 x80 x3f)
(T (W x00 x00 x00 x00 x00 x00 x00 x00)
(T (W xff xff xff xff xff xff xff xff)
(T (W x00 x00 x80 x3f x00 x00 x80 x3f)
(L (W xff xff xff xff xff xff xff xff))
(L (W x18 x00 x00 x00 x10 x00 x00 x00)))
(T (W x49 xa1 x68 x4a xeb x5f xdd x3d)
(L (W x6e x00 x00 x00 xba xa9 xfe xff))
(L (W xff xff xff xff xa0 x00 x00 x00))))
(T (W x68 x00 x00 x00 x5c x00 x00 x00)
(T (W xff xff xff xff xff xff xff xff)
(L (W x00 x00 x00 x00 x00 x00 x00 x00))
(L (W x00 x00 x80 xbf x00 x00 x80 xbf)))
(T (W x00 x00 x00 x00 x00 x00 x00 x00)
(L (W x00 x00 x80 xbf x00 x00 x80 xbf))
(L (W x46 x53 x59 x53 x5f x4e x53 x5f)))))
(T (W x12 x3c xfe xff x00 x00 x01 x01)
(T (W xff xff xff xff xff xff xff xff)
(T (W x00 x00 x80 x3f x00 x00 x80 x3f)
(L (W x45 x26 x22 x84 xe4 x9c xf2 xcb))
(L (W x49 xa1 x68 x4a xeb x5f xdd x3d)))
(T (W xff xff xff xff xff xff xff xff)
(L (W xff xff xff xff xff xff xff xff))
(L (W xff xff xff xff xff xff xff xff))))
(T (W xff xff xff xff xff xff xff xff)
(T (W x45 x26 x22 x84 xe4 x9c xf2 xcb)
(L (W x04 x00 x00 x00 xda x97 xfe xff))
(L (W xff xff xff xff xb0 x00 x00 x00)))
(T (W x35 x00 x00 x00 x10 x00 x00 x00)
(L (W xff xff xff xff xa0 x00 x00 x00)) E))))
(T (W x00 x00 x00 x00 x00 x00 x00 x00)
(T (W x01 x00 x00 x00 x04 x00 x00 x00)
(T (W xb8 x00 x00 x00 xac x00 x00 x00)
(T (W x68 x00 x00 x00 x5c x00 x00 x00)
(L (W xb8 x00 x00 x00 xac x00 x00 x00))
(L (W x00 x00 x00 x00 x00 x00 x00 x00)))
(T (W x18 x00 x00 x00 x0c x00 x00 x00)
(L (W xff xff xff xff xb0 x00 x00 x00))
(L (W xff xff xff xff xff xff xff xff))))
(T (W x45 x26 x22 x84 xe4 x9c xf2 xcb)
(T (W x00 x00 x00 x00 x00 x00 x00 x00)
(L (W x00 x00 x00 x00 x00 x00 x00 x00))
(L (W xaa x7b xff xff x78 x00 x00 x00)))
(T (W x00 x00 x00 x00 x00 x00 x00 x00)
(L (W xb4 x00 x00 x00 x64 x00 x00 x00))
(L (W xff xff xff xff xff xff xff xff)))))
(T (W x20 x01 x00 x00 x04 x00 x00 x00)
(T (W xb8 x00 x00 x00 xac x00 x00 x00)
(T (W xff xff xff xff xb0 x00 x00 x00)
(L (W x00 x00 x00 x00 x00 x00 x00 x00))
(L (W x00 x00 x80 xbf x00 x00 x80 xbf)))
(T (W x00 x00 x00 x00 x00 x00 x00 x00)
(L (W x00 x00 x00 x00 x00 x00 x00 x00))
(L (W xff xff xff xff xff xff xff xff))))
(T (W x50 x00 x00 x00 x44 x00 x00 x00)
(T (W x00 x00 x00 x00 x00 x00 x00 x00)
(L (W x45 x44 x00 x00 x00 x00 x00 x00))
(L (W x4c x00 x50 x00 x54 x00 x07 x00)))
(T (W x50 x00 x00 x00 x44 x00 x00 x00)
(L (W xa4 x00 x00 x00 x1e x00 x00 x00)) E))))))
(T (W xff xff xff xff xff xff xff xff)
(T (W xff xff xff xff xff xff xff xff)
(T (W xff xff xff xff xff xff xff xff)
(T (W x18 x00 x00 x00 x0c x00 x00 x00)
(T (W x00 x00 x80 x3f x00 x00 x80 x3f)
(T (W x00 x00 x00 x00 x00 x00 x00 x00)
(L (W x6c x76 x31 x5f x74 x6f x5f x63))
(L (W x00 x00 x00 x00 x00 x00 x00 x00)))
(T (W xff xff xff xff xbc x00 x00 x00)
(L (W xff xff xff xff xff xff xff xff))
(L (W x00 x00 x00 x00 xba xa9 xff xff))))
(T (W x00 x00 x00 x00 x00 x00 x00 x00)
(T (W x00 x00 x00 x00 x00 x00 x00 x00)
(L (W x14 x00 x00 x00 x0c x00 x00 x00))
(L (W x5c x00 x00 x00 xff xff xff xff)))
(T (W xff xff xff xff xff xff xff xff)
(L (W xff xff xff xff xff xff xff xff))
(L (W x05 x00 x06 x00 x00 x00 x00 x00)))))
(T (W xaa x87 xfc xff x78 x00 x00 x00)
(T (W x00 x00 x00 x00 x00 x00 x00 x00)
(T (W xff xff xff xff xff xff xff xff)
(L (W xff xff xff xff xff xff xff xff))
(L (W xbc x00 x00 x00 x64 x00 x00 x00)))
(T (W x49 xa1 x68 x4a xeb x5f xdd x3d)
(L (W x49 xa1 x68 x4a xeb x5f xdd x3d))
(L (W x00 x00 x00 x00 x00 x00 x00 x00))))
(T (W x00 x00 x01 x01 x65 x00 x00 x00)
(T (W x20 x00 x00 x00 x0c x00 x00 x00)
(L (W x00 x00 x00 x00 x00 x00 x00 x00))
(L (W x00 x00 x80 xbf x00 x00 x80 xbf)))
(T (W x18 x00 x00 x00 x0c x00 x00 x00)
(L (W x00 x00 x00 x00 x00 x00 x00 x00))
(L (W x24 x00 x28 x00 x2c x00 x30 x00))))))
(T (W x64 x00 x00 x00 x9c x00 x00 x00)
(T (W x01 x00 x00 x00 x3e x00 x00 x00)
(T (W x00 x00 x80 x3f x00 x00 x80 x3f)
(T (W xff xff xff xff xff xff xff xff)
(L (W x00 x00 x00 x00 x00 x00 x00 x00))
(L (W x00 x00 x80 xbf x00 x00 x80 xbf)))
(T (W x45 x44 x00 x00 x00 x00 x00 x00)
(L (W x00 x00 x00 x00 x00 x00 x00 x00))
(L (W x45 x26 x22 x84 xe4 x9c xf2 xcb))))
(T (W x00 x00 x00 x00 x00 x00 x00 x00)
(T (W x45 x26 x22 x84 xe4 x9c xf2 xcb)
(L (W x00 x00 x80 xbf x00 x00 x80 xbf))
(L (W x00 x00 x00 x00 x5a x82 xff xff)))
(T (W xff xff xff xff xff xff xff xff)
(L (W x00 x00 x00 x00 x00 x00 x00 x00))
(L (W x00 x00 x00 x00 x00 x00 x00 x00)))))
(T (W x00 x00 x80 x3f x00 x00 x80 x3f)
(T (W x45 x26 x22 x84 xe4 x9c xf2 xcb)
(T (W x12 x00 x00 x00 x46 x53 x59 x53)
(L (W x68 x00 x00 x00 x5c x00 x00 x00))
(L (W xff xff xff xff xff xff xff xff)))
(T (W xff xff xff xff xb0 x00 x00 x00)
(L (W x03 x00 x00 x00 xd8 x00 x00 x00))
(L (W x00 x00 x00 x00 x12 x00 x00 x00))))
(T (W x00 x00 x00 x00 x00 x00 x00 x00)
(T (W x00 x00 x80 x3f x00 x00 x80 x3f)
(L (W x00 x00 x80 x3f x00 x00 x80 x3f))
(L (W x46 x53 x59 x53 x5f x4e x53 x5f)))
(T (W xac x1e xfe xff x32 x00 x00 x00)
(L (W x00 x00 x00 x00 x00 x00 x00 x00)) E)))))
(T (W xff xff xff xff xff xff xff xff)
(T (W xff xff xff xff xff xff xff xff)
(T (W x40 x00 x00 x00 x9c x00 x00 x00)
(T (W x00 x00 x80 x3f x00 x00 x80 x3f)
(T (W x00 x00 x00 x00 x02 x00 x00 x00)
(L (W x00 x00 x00 x00 x00 x00 x00 x00))
(L (W x00 x00 x00 x00 x00 x00 x00 x00)))
(T (W xff xff xff xff xff xff xff xff)
(L (W x61 x64 x65 x72 x5f x77 x69 x6c))
(L (W x00 x00 x00 x00 x00 x00 x00 x00))))
(T (W x00 x00 x00 x00 x00 x00 x00 x00)
(T (W x00 x00 x80 x3f x00 x00 x80 x3f)
(L (W x00 x00 x80 xbf x00 x00 x80 xbf))
(L (W x00 x00 x00 x00 xba x71 xff xff)))
(T (W xd0 x00 x00 x00 xac x00 x00 x00)
(L (W x00 x00 x00 x00 xb2 xea xfe xff))
(L (W xbc x00 x00 x00 x01 x00 x00 x00)))))
(T (W x00 x00 x80 x3f x00 x00 x80 x3f)
(T (W x00 x00 x00 x00 x00 x00 x00 x00)
(T (W x00 x00 x00 x00 x00 x00 x00 x00)
(L (W x14 x00 x18 x00 x06 x00 x07 x00))
(L (W xff xff xff xff xff xff xff xff)))
(T (W x62 xe3 xfd xff x74 x00 x00 x00)
(L (W x00 x00 x80 xbf x00 x00 x80 xbf))
(L (W x00 x00 x00 x00 x12 x00 x00 x00))))
(T (W x00 x00 x00 x00 x00 x00 x00 x00)
(T (W x00 x00 x00 x00 x00 x00 x00 x00)
(L (W xff xff xff xff xff xff xff xff))
(L (W x00 x00 x00 x00 x00 x00 x00 x00)))
(T (W x00 x00 x80 x3f x00 x00 x80 x3f)
(L (W x4f x84 x6f x8b xe8 xcb x63 xb7)) E))))
(T (W x00 x00 x00 x00 xe0 x5c xfc xff)
(T (W x68 x00 x00 x00 x5c x00 x00 x00)
(T (W x00 x00 x00 x00 x00 x00 x00 x00)
(T (W xff xff xff xff xff xff xff xff)
(L (W x68 x3b xfe xff x00 x01 x01 x01))
(L (W x68 x3b xff xff x00 x01 x01 x01)))
(T (W x00 x00 x00 x00 x00 x00 x00 x00)
(L (W x00 x00 x00 x00 x00 x00 x00 x00))
(L (W x00 x00 x00 x00 x00 x00 x00 x00))))
(T (W xb6 x73 x36 xfe x02 x9b xeb x70)
(T (W xff xff xff xff xff xff xff xff)
(L (W xff xff xff xff xff xff xff xff))
(L (W x00 x00 x00 x00 x00 x00 x00 x00)))
(T (W x64 x00 x00 x00 x9c x00 x00 x00)
(L (W x00 x00 x00 x00 x00 x00 x00 x00))
(L (W xff xff xff xff xff xff xff xff)))))
(T (W x45 x26 x22 x84 xe4 x9c xf2 xcb)
(T (W x45 x26 x22 x84 xe4 x9c xf2 xcb)
(T (W x00 x00 x00 x00 x00 x00 x00 x00)
(L (W xc4 x00 x00 x00 x02 x00 x00 x00))
(L (W xff xff xff xff xff xff xff xff)))
(T (W xff xff xff xff xff xff xff xff)
(L (W x18 x00 x00 x00 x1b x00 x00 x00))
(L (W xff xff xff xff xc4 x00 x00 x00))))
(T (W x04 x22 xfd xff x16 x00 x00 x00)
(T (W xff xff xff xff xac x00 x00 x00)
(L (W x08 x00 x00 x00 x10 x09 x00 x00))
(L (W x30 x34 x5f x43 x4c x45 x41 x52)))
(T (W xa2 xce xff xff xc8 x00 x00 x00)
(L (W x46 x53 x59 x53 x5f x4e x53 x5f)) E))))))))
(T (W x68 xde x00 x00 x1c xdc x00 x00)
(T (W xff xff xff xff x04 x00 x00 x00)
(T (W x00 x00 x00 x00 x00 x00 x00 x00)
(T (W x45 x26 x22 x84 xe4 x9c xf2 xcb)
(T (W x00 x00 x00 x00 x00 x00 x00 x00)
(T (W x04 x65 xfc xff x3e x00 x00 x00)
(T (W xff xff xff xff xff xff xff xff)
(T (W x00 x00 x80 x3f x00 x00 x80 x3f)
(L (W x45 x26 x22 x84 xe4 x9c xf2 xcb))
(L (W x27 x00 x00 x00 x2a x00 x00 x00)))
(T (W x00 x00 x00 x00 x00 x00 x00 x00)
(L (W xff xff xff xff xff xff xff xff))
(L (W x45 x26 x22 x84 xe4 x9c xf2 xcb))))
(T (W x00 x00 x80 x3f x00 x00 x80 x3f)
(T (W x18 x00 x00 x00 x10 x00 x00 x00)
(L (W x00 x00 x00 x00 x00 x00 x00 x00))
(L (W x00 x01 x01 x01 x22 x5b xff xff)))
(T (W x00 x00 x00 x00 x00 x00 x00 x00)
(L (W x00 x00 x00 x00 x00 x00 x00 x00))
(L (W x00 x00 x00 x00 x00 x00 x00 x00)))))
(T (W xff xff xff xff xff xff xff xff)
(T (W x18 x00 x00 x00 x0c x00 x00 x00)
(T (W x45 x26 x22 x84 xe4 x9c xf2 xcb)
(L (W x45 x26 x22 x84 xe4 x9c xf2 xcb))
(L (W xff xff xff xff xff xff xff xff)))
(T (W x68 xbe xfd xff x00 x01 x01 x01)
(L (W x45 x26 x22 x84 xe4 x9c xf2 xcb))
(L (W xff xff xff xff xb8 x00 x00 x00))))
(T (W x00 x00 x80 x3f x00 x00 x80 x3f)
(T (W x00 x00 x00 x00 x00 x00 x00 x00)
(L (W x00 x00 x80 xbf x00 x00 x80 xbf))
(L (W x18 x00 x00 x00 x0c x00 x00 x00)))
(T (W x1d x00 x00 x00 x10 x00 x00 x00)
(L (W x00 x00 x80 xbf x00 x00 x80 xbf))
(L (W x2b x00 x00 x00 x2e x00 x00 x00))))))
(T (W x00 x00 x00 x00 x00 x00 x00 x00)
(T (W xff xff xff xff xff xff xff xff)
(T (W x45 x26 x22 x84 xe4 x9c xf2 xcb)
(T (W x00 x00 x80 x3f x00 x00 x80 x3f)
(L (W x50 x00 x00 x00 x44 x00 x00 x00))
(L (W xff xff xff xff xc8 x00 x00 x00)))
(T (W x00 x00 x80 x3f x00 x00 x80 x3f)
(L (W x45 x26 x22 x84 xe4 x9c xf2 xcb))
(L (W x45 x26 x22 x84 xe4 x9c xf2 xcb))))
(T (W x68 x00 x00 x00 x5c x00 x00 x00)
(T (W xff xff xff xff xff xff xff xff)
(L (W x00 x00 x00 x00 x5a x6a xfe xff))
(L (W x00 x00 x80 xbf x00 x00 x80 xbf)))
(T (W x00 x00 x00 x00 x00 x00 x00 x00)
(L (W x54 x00 x00 x00 x48 x00 x00 x00))
(L (W x30 x34 x5f x43 x4c x45 x41 x52)))))
(T (W xff xff xff xff xff xff xff xff)
(T (W x45 x26 x22 x84 xe4 x9c xf2 xcb)
(T (W x50 x00 x00 x00 x44 x00 x00 x00)
(L (W x04 x55 xfe xff x46 x00 x00 x00))
(L (W x00 x00 x00 x00 x00 x00 x00 x00)))
(T (W x82 xf7 xfd xff x00 x00 x01 x01)
(L (W xff xff xff xff xff xff xff xff))
(L (W x45 x26 x22 x84 xe4 x9c xf2 xcb))))
(T (W x00 x00 x80 x3f x00 x00 x80 x3f)
(T (W x18 x00 x00 x00 x10 x00 x00 x00)
(L (W x00 x00 x00 x00 x00 x00 x00 x00))
(L (W x45 x26 x22 x84 xe4 x9c xf2 xcb)))
(T (W x00 x00 x80 x3f x00 x00 x80 x3f)
(L (W x45 x26 x22 x84 xe4 x9c xf2 xcb)) E)))))
(T (W x00 x00 x00 x00 x00 x00 x00 x00)
(T (W x45 x26 x22 x84 xe4 x9c xf2 xcb)
(T (W x01 x00 x00 x00 x04 x00 x00 x00)
(T (W xb8 x00 x00 x00 xac x00 x00 x00)
(T (W x00 x00 x80 x3f x00 x00 x80 x3f)
(L (W xb8 x00 x00 x00 xac x00 x00 x00))
(L (W x6c x00 x00 x00 x60 x00 x00 x00)))
(T (W x00 x00 x00 x00 x00 x00 x00 x00)
(L (W x45 x26 x22 x84 xe4 x9c xf2 xcb))
(L (W x6c x00 x00 x00 x60 x00 x00 x00))))
(T (W x50 x00 x00 x00 x44 x00 x00 x00)
(T (W xff xff xff xff x9c x00 x00 x00)
(L (W xff xff xff xff xff xff xff xff))
(L (W x00 x00 x00 x00 x00 x00 x00 x00)))
(T (W x00 x00 x00 x00 x00 x00 x00 x00)
(L (W x4f x84 x6f x8b xe8 xcb x63 xb7))
(L (W x04 x00 x00 x00 x42 xe7 xff xff)))))
(T (W xff xff xff xff xff xff xff xff)
(T (W xff xff xff xff x04 x00 x00 x00)
(T (W x00 x00 x00 x00 x00 x00 x00 x00)
(L (W x00 x00 x00 x00 x00 x00 x00 x00))
(L (W xac x51 xff xff x0b x00 x00 x00)))
(T (W xff xff xff xff xff xff xff xff)
(L (W x1a x00 x00 x00 x1d x00 x00 x00))
(L (W x03 x00 x00 x00 xd0 x00 x00 x00))))
(T (W x00 x00 x80 x3f x00 x00 x80 x3f)
(T (W x54 x00 x00 x00 x48 x00 x00 x00)
(L (W xff xff xff xff xff xff xff xff))
(L (W x45 x26 x22 x84 xe4 x9c xf2 xcb)))
(T (W xff xff xff xff xff xff xff xff)
(L (W x6c x00 x00 x00 x60 x00 x00 x00)) E))))
(T (W x00 x00 x00 x00 x00 x00 x00 x00)
(T (W xff xff xff xff xff xff xff xff)
(T (W x68 x00 x00 x00 x5c x00 x00 x00)
(T (W x45 x26 x22 x84 xe4 x9c xf2 xcb)
(L (W x01 x00 x00 x00 x9c x00 x00 x00))
(L (W xff xff xff xff xff xff xff xff)))
(T (W x00 x00 x80 x3f x00 x00 x80 x3f)
(L (W xaa xba xfe xff x78 x00 x00 x00))
(L (W xc4 x00 x00 x00 x01 x00 x00 x00))))
(T (W x62 x0e xfd xff x74 x00 x00 x00)
(T (W x00 x00 x00 x00 x00 x00 x00 x00)
(L (W xff xff xff xff xff xff xff xff))
(L (W x00 x00 x80 xbf x00 x00 x80 xbf)))
(T (W x00 x00 x00 x00 x00 x00 x00 x00)
(L (W x68 xf6 xfe xff x00 x01 x01 x01))
(L (W xb4 x00 x00 x00 x1e x00 x00 x00)))))
(T (W xff xff xff xff xff xff xff xff)
(T (W x68 x00 x00 x00 x5c x00 x00 x00)
(T (W x00 x00 x80 x3f x00 x00 x80 x3f)
(L (W x00 x00 x00 x00 x02 x00 x00 x00))
(L (W x45 x26 x22 x84 xe4 x9c xf2 xcb)))
(T (W x30 x34 x5f x43 x4c x45 x41 x52)
(L (W x30 x34 x5f x43 x4c x45 x41 x52))
(L (W x00 x00 x80 xbf x00 x00 x80 xbf))))
(T (W x00 x00 x80 x3f x00 x00 x80 x3f)
(T (W xff xff xff xff xff xff xff xff)
(L (W xff xff xff xff xff xff xff xff))
(L (W x62 xae xff xff x74 x00 x00 x00)))
(T (W x00 x00 x80 x3f x00 x00 x80 x3f)
(L (W x45 x26 x22 x84 xe4 x9c xf2 xcb)) E))))))
(T (W x64 x00 x00 x00 x9c x00 x00 x00)
(T (W xff xff xff xff x03 x00 x00 x00)
(T (W x64 x00 x00 x00 x9c x00 x00 x00)
(T (W x00 x00 x00 x00 xe0 x63 xfc xff)
(T (W x45 x26 x22 x84 xe4 x9c xf2 xcb)
(T (W x4e x00 x00 x00 xff xff xff xff)
(L (W xff xff xff xff xff xff xff xff))
(L (W x30 x34 x5f x43 x4c x45 x41 x52)))
(T (W x45 x26 x22 x84 xe4 x9c xf2 xcb)
(L (W x18 x00 x00 x00 x10 x00 x00 x00))
(L (W xff xff xff xff xff xff xff xff))))
(T (W x00 x00 x00 x00 x00 x00 x00 x00)
(T (W x00 x00 x00 x00 x00 x00 x00 x00)
(L (W x00 x01 x01 x01 x22 x5f xfe xff))
(L (W xff xff xff xff xff xff xff xff)))
(T (W xb8 x00 x00 x00 xac x00 x00 x00)
(L (W x35 x00 x00 x00 x38 x00 x00 x00))
(L (W xb0 x00 x00 x00 x64 x00 x00 x00)))))
(T (W x00 x00 x80 x3f x00 x00 x80 x3f)
(T (W x00 x00 x00 x00 x00 x00 x00 x00)
(T (W xff xff xff xff xff xff xff xff)
(L (W xff xff xff xff x03 x00 x00 x00))
(L (W x68 x42 xff xff x00 x01 x01 x01)))
(T (W x00 x00 x00 x00 x00 x00 x00 x00)
(L (W x00 x00 x00 x00 x00 x00 x00 x00))
(L (W x00 x00 x00 x00 x00 x00 x00 x00))))
(T (W xff xff xff xff xff xff xff xff)
(T (W xff xff xff xff xff xff xff xff)
(L (W x04 x89 xfe xff x3a x00 x00 x00))
(L (W x00 x00 x00 x00 x00 x00 x00 x00)))
(T (W x00 x00 x80 x3f x00 x00 x80 x3f)
(L (W x30 x34 x5f x43 x4c x45 x41 x52))
(L (W x06 x00 x07 x00 x00 x00 x00 x00))))))
(T (W x50 x00 x00 x00 x44 x00 x00 x00)
(T (W x00 x00 x80 x3f x00 x00 x80 x3f)
(T (W x00 x00 x00 x00 x00 x00 x00 x00)
(T (W xff xff xff xff xff xff xff xff)
(L (W xa2 xe5 xff xff x71 x00 x00 x00))
(L (W x49 xa1 x68 x4a xeb x5f xdd x3d)))
(T (W xff xff xff xff xff xff xff xff)
(L (W x00 x00 x00 x00 x00 x00 x00 x00))
(L (W x00 x00 x00 x00 x00 x00 x00 x00))))
(T (W x70 x00 x00 x00 xff xff xff xff)
(T (W x00 x00 x80 x3f x00 x00 x80 x3f)
(L (W x49 xa1 x68 x4a xeb x5f xdd x3d))
(L (W xff xff xff xff xff xff xff xff)))
(T (W x64 x00 x00 x00 x9c x00 x00 x00)
(L (W xff xff xff xff xff xff xff xff))
(L (W x00 x00 x00 x00 x00 x00 x00 x00)))))
(T (W x00 x00 x00 x00 x00 x00 x00 x00)
(T (W x00 x00 x00 x00 x00 x00 x00 x00)
(T (W x40 x02 x00 x00 x2c x01 x00 x00)
(L (W x00 x00 x80 xbf x00 x00 x80 xbf))
(L (W xff xff xff xff xb0 x00 x00 x00)))
(T (W x00 x00 x80 x3f x00 x00 x80 x3f)
(L (W x00 x00 x80 xbf x00 x00 x80 xbf))
(L (W x04 x00 x00 x00 xba xd8 xff xff))))
(T (W x00 x00 x00 x00 x04 x00 x00 x00)
(T (W x00 x00 x80 x3f x00 x00 x80 x3f)
(L (W x45 x44 x00 x00 x00 x00 x00 x00))
(L (W x00 x00 x01 x01 x36 x00 x00 x00)))
(T (W xff xff xff xff xff xff xff xff)
(L (W x45 x44 x00 x00 x00 x00 x00 x00)) E)))))
(T (W xff xff xff xff xff xff xff xff)
(T (W x68 x4a xfc xff x00 x01 x01 x01)
(T (W x45 x26 x22 x84 xe4 x9c xf2 xcb)
(T (W x45 x26 x22 x84 xe4 x9c xf2 xcb)
(T (W xff xff xff xff xff xff xff xff)
(L (W x00 x00 x00 x00 x00 x00 x00 x00))
(L (W x00 x00 x00 x00 x00 x00 x00 x00)))
(T (W xff xff xff xff xff xff xff xff)
(L (W xff xff xff xff xff xff xff xff))
(L (W x23 xe7 xaf x28 xbf x51 x5d x6a))))
(T (W x9d x8e xd6 x35 x8b x0e xdd x42)
(T (W x4f x84 x6f x8b xe8 xcb x63 xb7)
(L (W x00 x00 x80 xbf x00 x00 x80 xbf))
(L (W xff xff xff xff xff xff xff xff)))
(T (W x01 x00 x00 x00 x9c x00 x00 x00)
(L (W xff xff xff xff xff xff xff xff))
(L (W xff xff xff xff x90 x00 x00 x00)))))
(T (W x45 x26 x22 x84 xe4 x9c xf2 xcb)
(T (W x00 x00 x00 x00 x00 x00 x00 x00)
(T (W x92 x65 xfd xff x00 x00 x00 x01)
(L (W x68 x00 x00 x00 x5c x00 x00 x00))
(L (W x1a x00 x00 x00 x1d x00 x00 x00)))
(T (W x00 x00 x80 x3f x00 x00 x80 x3f)
(L (W x49 xa1 x68 x4a xeb x5f xdd x3d))
(L (W x00 x00 x00 x00 xba xd0 xff xff))))
(T (W x64 x00 x68 x00 x62 x00 x00 x00)
(T (W xac x95 xfd xff x1d x00 x00 x00)
(L (W x03 x00 x00 x00 xd4 x00 x00 x00))
(L (W x00 x00 x00 x00 x00 x00 x00 x00)))
(T (W x00 x00 x80 x3f x00 x00 x80 x3f)
(L (W x0f x10 xb9 x28 xbf xce x67 x6a)) E))))
(T (W x62 x72 xfc xff x74 x00 x00 x00)
(T (W x00 x00 x80 x3f x00 x00 x80 x3f)
(T (W x00 x00 x00 x00 x00 x00 x00 x00)
(T (W x64 x00 x00 x00 x9c x00 x00 x00)
(L (W x04 x41 xfe xff x30 x00 x00 x00))
(L (W x00 x00 x80 xbf x00 x00 x80 xbf)))
(T (W x00 x00 x00 x00 xb2 xb9 xfd xff)
(L (W x00 x00 x00 x00 x00 x00 x00 x00))
(L (W x00 x00 x00 x00 x00 x00 x00 x00))))
(T (W xff xff xff xff xff xff xff xff)
(T (W x18 x00 x00 x00 x0c x00 x00 x00)
(L (W x18 x00 x00 x00 x0c x00 x00 x00))
(L (W x00 x00 x00 x00 xb2 x79 xff xff)))
(T (W x18 x00 x00 x00 x0c x00 x00 x00)
(L (W x2a x00 x00 x00 x0c x00 x00 x00))
(L (W xcc x00 x00 x00 x01 x00 x00 x00)))))
(T (W x00 x00 x00 x00 x00 x00 x00 x00)
(T (W x00 x00 x00 x00 x00 x00 x00 x00)
(T (W x00 x00 x00 x00 x00 x00 x00 x00)
(L (W x45 x26 x22 x84 xe4 x9c xf2 xcb))
(L (W xff xff xff xff xff xff xff xff)))
(T (W xff xff xff xff xff xff xff xff)
(L (W xaa xde xfe xff x78 x00 x00 x00))
(L (W x45 x26 x22 x84 xe4 x9c xf2 xcb))))
(T (W xff xff xff xff xff xff xff xff)
(T (W x00 x00 x80 x3f x00 x00 x80 x3f)
(L (W xff xff xff xff xff xff xff xff))
(L (W x00 x00 x01 x01 xc1 x01 x00 x00)))
(T (W xff xff xff xff xff xff xff xff)
(L (W x00 x00 x01 x01 x4a x00 x00 x00)) E)))))))
(T (W x40 x00 x00 x00 x0c x00 x00 x00)
(T (W x00 x00 x00 x00 xe0 x29 xfc xff)
(T (W x45 x26 x22 x84 xe4 x9c xf2 xcb)
(T (W x00 x00 x80 x3f x00 x00 x80 x3f)
(T (W x45 x26 x22 x84 xe4 x9c xf2 xcb)
(T (W x5b x12 x1a x58 x58 x5a x86 x38)
(T (W x68 x20 xfd xff x00 x01 x01 x01)
(L (W x50 x00 x00 x00 x44 x00 x00 x00))
(L (W xff xff xff xff xff xff xff xff)))
(T (W x00 x00 x80 x3f x00 x00 x80 x3f)
(L (W x00 x00 x00 x00 x00 x00 x00 x00))
(L (W xff xff xff xff xb0 x00 x00 x00))))
(T (W xff xff xff xff xff xff xff xff)
(T (W xff xff xff xff xff xff xff xff)
(L (W x00 x00 x80 xbf x00 x00 x80 xbf))
(L (W xc4 x00 x00 x00 x01 x00 x00 x00)))
(T (W x00 x00 x80 x3f x00 x00 x80 x3f)
(L (W x00 x00 x80 xbf x00 x00 x80 xbf))
(L (W x00 x00 x80 xbf x00 x00 x80 xbf)))))
(T (W xac x8b xfc xff x3e x00 x00 x00)
(T (W xff xff xff xff xff xff xff xff)
(T (W x14 x00 x18 x00 x06 x00 x07 x00)
(L (W x50 x00 x00 x00 x44 x00 x00 x00))
(L (W x00 x00 x00 x00 x00 x00 x00 x00)))
(T (W x01 x00 x00 x00 xff xff xff xff)
(L (W xff xff xff xff xff xff xff xff))
(L (W xff xff xff xff xff xff xff xff))))
(T (W x0a x00 x00 x00 x3c x00 x00 x00)
(T (W x00 x00 x80 x3f x00 x00 x80 x3f)
(L (W x03 x00 x00 x00 xbc x00 x00 x00))
(L (W xff xff xff xff xff xff xff xff)))
(T (W x00 x00 x00 x00 x00 x00 x00 x00)
(L (W xff xff xff xff x9c x00 x00 x00))
(L (W x00 x00 x00 x00 x00 x00 x00 x00))))))
(T (W x00 x00 x80 x3f x00 x00 x80 x3f)
(T (W x00 x00 x00 x00 x00 x00 x00 x00)
(T (W x12 x65 xfe xff x00 x00 x01 x01)
(T (W x62 x48 xfd xff x74 x00 x00 x00)
(L (W xff xff xff xff xff xff xff xff))
(L (W xb4 x01 x00 x00 xff xff xff xff)))
(T (W x68 xb0 xfd xff x00 x01 x01 x01)
(L (W xff xff xff xff xff xff xff xff))
(L (W xff xff xff xff xff xff xff xff))))
(T (W x45 x26 x22 x84 xe4 x9c xf2 xcb)
(T (W x00 x00 x00 x00 x00 x00 x00 x00)
(L (W x00 x00 x00 x00 x00 x00 x00 x00))
(L (W xff xff xff xff xff xff xff xff)))
(T (W x00 x00 x80 x3f x00 x00 x80 x3f)
(L (W xb0 x00 x00 x00 x1e x00 x00 x00))
(L (W x00 x00 x00 x00 x6c xf0 xff xff)))))
(T (W x00 x00 x00 x00 x00 x00 x00 x00)
(T (W xff xff xff xff xff xff xff xff)
(T (W xc0 x00 x00 x00 x01 x00 x00 x00)
(L (W x00 x00 x78 x00 x00 x00 x00 x00))
(L (W x00 x00 x80 xbf x00 x00 x80 xbf)))
(T (W x45 x26 x22 x84 xe4 x9c xf2 xcb)
(L (W x00 x00 x00 x00 x00 x00 x00 x00))
(L (W x4f x84 x6f x8b xe8 xcb x63 xb7))))
(T (W xff xff xff xff xff xff xff xff)
(T (W x4b x00 x00 x00 xff xff xff xff)
(L (W x18 x00 x00 x00 x10 x00 x00 x00))
(L (W x03 x00 x00 x00 xd8 x00 x00 x00)))
(T (W xb8 x00 x00 x00 xac x00 x00 x00)
(L (W xff xff xff xff xff xff xff xff)) E)))))
(T (W x00 x00 x80 x3f x00 x00 x80 x3f)
(T (W x00 x00 x80 x3f x00 x00 x80 x3f)
(T (W x45 x26 x22 x84 xe4 x9c xf2 xcb)
(T (W xdc x01 x00 x00 xff xff xff xff)
(T (W x50 x00 x00 x00 x44 x00 x00 x00)
(L (W xff xff xff xff xff xff xff xff))
(L (W xff xff xff xff xff xff xff xff)))
(T (W x00 x00 x80 x3f x00 x00 x80 x3f)
(L (W x00 x00 x00 x00 x00 x00 x00 x00))
(L (W xff xff xff xff xff xff xff xff))))
(T (W xb8 x00 x00 x00 xac x00 x00 x00)
(T (W x00 x00 x00 x00 xb2 x67 xfd xff)
(L (W x00 x00 x00 x00 x00 x00 x00 x00))
(L (W x50 x00 x00 x00 x44 x00 x00 x00)))
(T (W x00 x00 x80 x3f x00 x00 x80 x3f)
(L (W x18 x00 x00 x00 x0c x00 x00 x00))
(L (W x00 x00 x80 xbf x00 x00 x80 xbf)))))
(T (W x00 x00 x00 x00 x00 x00 x00 x00)
(T (W x20 x01 x00 x00 x04 x00 x00 x00)
(T (W x00 x00 x00 x00 xe0 x49 xfd xff)
(L (W x45 x26 x22 x84 xe4 x9c xf2 xcb))
(L (W x00 x00 x80 xbf x00 x00 x80 xbf)))
(T (W x00 x00 x00 x00 x00 x00 x00 x00)
(L (W x00 x00 x00 x00 x00 x00 x00 x00))
(L (W xff xff xff xff xff xff xff xff))))
(T (W x95 xf9 x1d xbf x06 x90 xf9 x74)
(T (W xff xff xff xff xff xff xff xff)
(L (W x00 x00 x00 x00 x00 x00 x00 x00))
(L (W xff xff xff xff xff xff xff xff)))
(T (W x00 x00 x00 x00 x00 x00 x00 x00)
(L (W xff xff xff xff xff xff xff xff)) E))))
(T (W x00 x00 x80 x3f x00 x00 x80 x3f)
(T (W x00 x00 x00 x00 x00 x00 x00 x00)
(T (W xff xff xff xff xff xff xff xff)
(T (W x00 x00 x00 x00 xe0 x39 xfd xff)
(L (W xff xff xff xff xff xff xff xff))
(L (W x00 x00 x00 x00 x00 x00 x00 x00)))
(T (W xff xff xff xff xff xff xff xff)
(L (W xff xff xff xff xff xff xff xff))
(L (W x2c x02 x00 x00 x28 x01 x00 x00))))
(T (W x01 x00 x00 x00 x9c x00 x00 x00)
(T (W x00 x00 x80 x3f x00 x00 x80 x3f)
(L (W x00 x00 x00 x00 x00 x00 x00 x00))
(L (W xff xff xff xff x9c x00 x00 x00)))
(T (W x00 x00 x80 x3f x00 x00 x80 x3f)
(L (W xff xff xff xff xff xff xff xff))
(L (W xff xff xff xff xff xff xff xff)))))
(T (W x00 x00 x00 x00 x00 x00 x00 x00)
(T (W xff xff xff xff xff xff xff xff)
(T (W xff xff xff xff xff xff xff xff)
(L (W x45 x26 x22 x84 xe4 x9c xf2 xcb))
(L (W x00 x00 x80 xbf x00 x00 x80 xbf)))
(T (W x00 x00 x80 x3f x00 x00 x80 x3f)
(L (W x49 xa1 x68 x4a xeb x5f xdd x3d))
(L (W x00 x00 x00 x00 x00 x00 x00 x00))))
(T (W x64 x00 x00 x00 x9c x00 x00 x00)
(T (W x00 x00 x00 x00 x00 x00 x00 x00)
(L (W x00 x00 x80 x3f x00 x00 x80 x3f))
(L (W x4f x84 x6f x8b xe8 xcb x63 xb7)))
(T (W xb8 x00 x00 x00 xac x00 x00 x00)
(L (W x03 x00 x00 x00 xd8 x00 x00 x00)) E))))))
(T (W x01 x00 x00 x00 x04 x00 x00 x00)
(T (W xff xff xff xff xff xff xff xff)
(T (W xff xff xff xff xff xff xff xff)
(T (W x64 x00 x00 x00 x9c x00 x00 x00)
(T (W x00 x00 x80 x3f x00 x00 x80 x3f)
(T (W x00 x00 x00 x00 x00 x00 x00 x00)
(L (W x45 x26 x22 x84 xe4 x9c xf2 xcb))
(L (W x49 xa1 x68 x4a xeb x5f xdd x3d)))
(T (W xff xff xff xff xff xff xff xff)
(L (W x00 x00 x00 x00 x00 x00 x00 x00))
(L (W x00 x00 x00 x00 x12 x00 x00 x00))))
(T (W x00 x00 x80 x3f x00 x00 x80 x3f)
(T (W x00 x00 x80 x3f x00 x00 x80 x3f)
(L (W xff xff xff xff xff xff xff xff))
(L (W x00 x00 x01 x01 xdf x01 x00 x00)))
(T (W xff xff xff xff xff xff xff xff)
(L (W xff xff xff xff xff xff xff xff))
(L (W x00 x00 x80 xbf x00 x00 x80 xbf)))))
(T (W x45 x26 x22 x84 xe4 x9c xf2 xcb)
(T (W x00 x00 x80 x3f x00 x00 x80 x3f)
(T (W xff xff xff xff xff xff xff xff)
(L (W x2a x00 x00 x00 xff xff xff xff))
(L (W xff xff xff xff xff xff xff xff)))
(T (W x00 x00 x80 x3f x00 x00 x80 x3f)
(L (W x00 x00 x80 xbf x00 x00 x80 xbf))
(L (W x00 x00 x00 x00 x00 x00 x00 x00))))
(T (W x00 x00 x00 x00 x00 x00 x00 x00)
(T (W x00 x00 x00 x00 x00 x00 x00 x00)
(L (W x00 x00 x80 xbf x00 x00 x80 xbf))
(L (W x3c x00 x00 x00 x00 x00 x80 xbf)))
(T (W x64 x00 x00 x00 x9c x00 x00 x00)
(L (W x49 xa1 x68 x4a xeb x5f xdd x3d))
(L (W x00 x00 x60 x00 x00 x00 x00 x00))))))
(T (W xff xff xff xff xff xff xff xff)
(T (W xff xff xff xff xff xff xff xff)
(T (W x00 x00 x80 x3f x00 x00 x80 x3f)
(T (W x04 x3b xfd xff x3c x00 x00 x00)
(L (W x00 x00 x00 x00 x00 x00 x00 x00))
(L (W x6c x00 x00 x00 x60 x00 x00 x00)))
(T (W x00 x00 x00 x00 x00 x00 x00 x00)
(L (W x45 x26 x22 x84 xe4 x9c xf2 xcb))
(L (W x00 x00 x80 xbf x00 x00 x80 xbf))))
(T (W x00 x00 x00 x00 x00 x00 x00 x00)
(T (W xff xff xff xff xbc x00 x00 x00)
(L (W x62 x8c xfe xff x74 x00 x00 x00))
(L (W x00 x00 x00 x00 x00 x00 x00 x00)))
(T (W xff xff xff xff xff xff xff xff)
(L (W x00 x00 x00 x00 x00 x00 x00 x00))
(L (W x45 x26 x22 x84 xe4 x9c xf2 xcb)))))
(T (W x68 x00 x00 x00 x5c x00 x00 x00)
(T (W x00 x00 x80 x3f x00 x00 x80 x3f)
(T (W x00 x00 x00 x00 x00 x00 x00 x00)
(L (W x03 x00 x00 x00 xd0 x00 x00 x00))
(L (W x04 x00 x00 x00 xba x5a xff xff)))
(T (W xff xff xff xff xff xff xff xff)
(L (W xff xff xff xff xff xff xff xff))
(L (W x45 x26 x22 x84 xe4 x9c xf2 xcb))))
(T (W x00 x00 x00 x00 x00 x00 x00 x00)
(T (W x62 xac xfd xff x74 x00 x00 x00)
(L (W x03 x00 x00 x00 xd0 x00 x00 x00))
(L (W x00 x00 x00 x00 x00 x00 x00 x00)))
(T (W x00 x00 x00 x00 x00 x00 x00 x00)
(L (W x3c x00 x00 x00 x00 x00 x80 xbf)) E)))))
(T (W x00 x00 x00 x00 x04 x00 x00 x00)
(T (W xbd x01 x00 x00 xff xff xff xff)
(T (W xff xff xff xff x03 x00 x00 x00)
(T (W x00 x00 x80 x3f x00 x00 x80 x3f)
(T (W x00 x00 x00 x00 x00 x00 x00 x00)
(L (W x45 x26 x22 x84 xe4 x9c xf2 xcb))
(L (W x00 x00 x80 xbf x00 x00 x80 xbf)))
(T (W x00 x00 x00 x00 x00 x00 x00 x00)
(L (W x00 x00 x00 x00 x00 x00 x00 x00))
(L (W x45 x26 x22 x84 xe4 x9c xf2 xcb))))
(T (W x00 x00 x00 x00 x00 x00 x00 x00)
(T (W x68 x6c xfd xff x00 x01 x01 x01)
(L (W x00 x00 x00 x00 xe0 x6d xfe xff))
(L (W x00 x00 x00 x00 x12 x00 x00 x00)))
(T (W x21 x00 x00 x00 x10 x00 x00 x00)
(L (W x00 x00 x00 x00 x00 x00 x00 x00))
(L (W xff xff xff xff xff xff xff xff)))))
(T (W x18 x00 x00 x00 x0c x00 x00 x00)
(T (W x45 x26 x22 x84 xe4 x9c xf2 xcb)
(T (W x00 x00 x00 x00 x00 x00 x00 x00)
(L (W x00 x00 x80 x3f x00 x00 x80 x3f))
(L (W xff xff xff xff xff xff xff xff)))
(T (W x18 x00 x00 x00 x0c x00 x00 x00)
(L (W x45 x26 x22 x84 xe4 x9c xf2 xcb))
(L (W x45 x26 x22 x84 xe4 x9c xf2 xcb))))
(T (W x00 x00 x00 x00 x00 x00 x00 x00)
(T (W x00 x00 x80 x3f x00 x00 x80 x3f)
(L (W x00 x00 x01 x01 xd3 x02 x00 x00))
(L (W x3c x00 x00 x00 x00 x00 x80 xbf)))
(T (W x62 x00 x00 x00 x00 x01 x01 x01)
(L (W x00 x00 x80 xbf x00 x00 x80 xbf)) E))))
(T (W xff xff xff xff xff xff xff xff)
(T (W xff xff xff xff xff xff xff xff)
(T (W x50 x00 x00 x00 x44 x00 x00 x00)
(T (W x01 x00 x00 x00 x04 x00 x00 x00)
(L (W x5c x00 x60 x00 x62 x00 x00 x00))
(L (W xbc x00 x00 x00 x32 x00 x00 x00)))
(T (W x00 x00 x80 x3f x00 x00 x80 x3f)
(L (W x00 x00 x00 x00 x00 x00 x00 x00))
(L (W x00 x00 x80 xbf x00 x00 x80 xbf))))
(T (W x00 x00 x00 x00 x00 x00 x00 x00)
(T (W xff xff xff xff xff xff xff xff)
(L (W x00 x00 x00 x00 x01 x00 x00 x00))
(L (W x4f x84 x6f x8b xe8 xcb x63 xb7)))
(T (W xff xff xff xff xff xff xff xff)
(L (W x45 x26 x22 x84 xe4 x9c xf2 xcb))
(L (W x00 x00 x00 x00 x00 x00 x00 x00)))))
(T (W x00 x00 x80 x3f x00 x00 x80 x3f)
(T (W x00 x00 x80 x3f x00 x00 x80 x3f)
(T (W x00 x00 x80 x3f x00 x00 x80 x3f)
(L (W xff xff xff xff xff xff xff xff))
(L (W x30 x34 x5f x43 x4c x45 x41 x52)))
(T (W x32 x0d xfe xff x00 x00 x01 x01)
(L (W x00 x00 x01 x01 x5d x00 x00 x00))
(L (W x00 x00 x01 x01 x7d x00 x00 x00))))
(T (W x45 x26 x22 x84 xe4 x9c xf2 xcb)
(T (W xff xff xff xff xff xff xff xff)
(L (W x00 x00 x00 x00 x00 x00 x00 x00))
(L (W x00 x00 x00 x00 x00 x00 x00 x00)))
(T (W x00 x00 x00 x00 x00 x00 x00 x00)
(L (W x00 x00 x00 x00 x00 x00 x00 x00)) E))))))))))
(T (W x20 x0f x03 x00 xc4 x0c x03 x00)
(T (W xd0 x61 x02 x00 x94 x60 x02 x00)
(T (W x80 xc8 x01 x00 x3c xc6 x01 x00)
(T (W xa0 x72 x00 x00 x6c x71 x00 x00)
(T (W x00 x00 x80 x3f x00 x00 x80 x3f)
(T (W x00 x00 x80 x3f x00 x00 x80 x3f)
(T (W x00 x00 x80 x3f x00 x00 x80 x3f)
(T (W x00 x00 x00 x00 x00 x00 x00 x00)
(T (W xff xff xff xff xff xff xff xff)
(T (W x22 x35 xfd xff x74 x00 x00 x00)
(L (W x00 x00 x80 x3f x00 x00 x80 x3f))
(L (W xff xff xff xff xff xff xff xff)))
(T (W x00 x00 x00 x00 x00 x00 x00 x00)
(L (W xff xff xff xff xff xff xff xff))
(L (W xc4 x00 x00 x00 x01 x00 x00 x00))))
(T (W x18 x00 x00 x00 x0c x00 x00 x00)
(T (W xff xff xff xff x9c x00 x00 x00)
(L (W x00 x00 x00 x00 x00 x00 x00 x00))
(L (W x00 x00 x80 xbf x00 x00 x80 xbf)))
(T (W x00 x00 x80 x3f x00 x00 x80 x3f)
(L (W x00 x00 x80 xbf x00 x00 x80 xbf))
(L (W x49 xa1 x68 x4a xeb x5f xdd x3d)))))
(T (W x00 x00 x00 x00 x00 x00 x00 x00)
(T (W xff xff xff xff xff xff xff xff)
(T (W x00 x00 x80 x3f x00 x00 x80 x3f)
(L (W x45 x26 x22 x84 xe4 x9c xf2 xcb))
(L (W x00 x00 x00 x00 x00 x00 x00 x00)))
(T (W xb8 x00 x00 x00 x64 x00 x00 x00)
(L (W x00 x00 x00 x00 xa0 xbe xfe xff))
(L (W xff xff xff xff xff xff xff xff))))
(T (W x6a x01 xfd xff x78 x00 x00 x00)
(T (W x4f x84 x6f x8b xe8 xcb x63 xb7)
(L (W x00 x00 x80 xbf x00 x00 x80 xbf))
(L (W x45 x26 x22 x84 xe4 x9c xf2 xcb)))
(T (W x00 x00 x00 x00 x00 x00 x00 x00)
(L (W x28 xfd xfe xff x00 x01 x01 x01))
(L (W x00 x00 x80 xbf x00 x00 x80 xbf))))))
(T (W x45 x26 x22 x84 xe4 x9c xf2 xcb)
(T (W x00 x00 x00 x00 x00 x00 x00 x00)
(T (W x64 x00 x00 x00 x9c x00 x00 x00)
(T (W x00 x00 x80 x3f x00 x00 x80 x3f)
(L (W xb8 x00 x00 x00 xac x00 x00 x00))
(L (W xff xff xff xff xff xff xff xff)))
(T (W x00 x00 x80 x3f x00 x00 x80 x3f)
(L (W x6c x00 x00 x00 x60 x00 x00 x00))
(L (W x03 x00 x00 x00 xd0 x00 x00 x00))))
(T (W x01 x00 x00 x00 x3e x00 x00 x00)
(T (W xff xff xff xff xff xff xff xff)
(L (W x84 x04 x00 x00 x78 x03 x00 x00))
(L (W x54 x00 x00 x00 x48 x00 x00 x00)))
(T (W x00 x00 x80 x3f x00 x00 x80 x3f)
(L (W x28 xed xfe xff x00 x01 x01 x01))
(L (W x00 x00 x00 x00 x00 x00 x00 x00)))))
(T (W xff xff xff xff xff xff xff xff)
(T (W x64 x00 x00 x00 x9c x00 x00 x00)
(T (W x50 x00 x00 x00 x44 x00 x00 x00)
(L (W x62 x00 x00 x00 xad x00 x00 x00))
(L (W x00 x00 x00 x00 x00 x00 x00 x00)))
(T (W x6a xfc xfd xff x9c x01 x00 x00)
(L (W xbb x01 x00 x00 xff xff xff xff))
(L (W x03 x00 x00 x00 xcc x00 x00 x00))))
(T (W x00 x00 x80 x3f x00 x00 x80 x3f)
(T (W xff xff xff xff xff xff xff xff)
(L (W x00 x00 x80 x3f x00 x00 x80 x3f))
(L (W xff xff xff xff xff xff xff xff)))
(T (W x45 x26 x22 x84 xe4 x9c xf2 xcb)
(L (W x03 x00 x00 x00 xd0 x00 x00 x00)) E)))))
(T (W x00 x00 x00 x00 x00 x00 x00 x00)
(T (W x00 x00 x00 x00 x00 x00 x00 x00)
(T (W x40 x00 x00 x00 x0c x00 x00 x00)
(T (W xff xff xff xff xff xff xff xff)
(T (W x28 x25 xfd xff x00 x01 x01 x01)
(L (W x68 x00 x00 x00 x5c x00 x00 x00))
(L (W xff xff xff xff xa0 x00 x00 x00)))
(T (W x49 xa1 x68 x4a xeb x5f xdd x3d)
(L (W x00 x00 x80 x3f x00 x00 x80 x3f))
(L (W x50 x00 x00 x00 x44 x00 x00 x00))))
(T (W x40 x00 x00 x00 x9c x00 x00 x00)
(T (W xff xff xff xff xff xff xff xff)
(L (W x46 x53 x59 x53 x5f x4e x53 x5f))
(L (W x00 x00 x80 xbf x00 x00 x80 xbf)))
(T (W x00 x00 x00 x00 x00 x00 x00 x00)
(L (W x45 x26 x22 x84 xe4 x9c xf2 xcb))
(L (W x00 x00 x00 x00 x00 x00 x5c x00)))))
(T (W x00 x00 x00 x00 x04 x00 x00 x00)
(T (W xff xff xff xff xff xff xff xff)
(T (W x00 x00 x00 x00 x00 x00 x00 x00)
(L (W x45 x26 x22 x84 xe4 x9c xf2 xcb))
(L (W x00 x00 x00 x00 x12 x00 x00 x00)))
(T (W xff xff xff xff xff xff xff xff)
(L (W xff xff xff xff xff xff xff xff))
(L (W x00 x00 x2a x00 x54 x00 x44 x00))))
(T (W x50 x00 x00 x00 x44 x00 x00 x00)
(T (W x68 x00 x00 x00 x5c x00 x00 x00)
(L (W xff xff xff xff xff xff xff xff))
(L (W xff xff xff xff xff xff xff xff)))
(T (W x34 x00 x00 x00 x10 x00 x00 x00)
(L (W x18 x00 x00 x00 x10 x00 x00 x00))
(L (W x50 x00 x00 x00 x44 x00 x00 x00))))))
(T (W x00 x00 x00 x00 x00 x00 x00 x00)
(T (W x00 x00 x00 x00 x00 x00 x00 x00)
(T (W xff xff xff xff x03 x00 x00 x00)
(T (W x00 x00 x80 x3f x00 x00 x80 x3f)
(L (W x50 x00 x00 x00 x44 x00 x00 x00))
(L (W xff xff xff xff xff xff xff xff)))
(T (W x54 x00 x00 x00 x48 x00 x00 x00)
(L (W x18 x00 x00 x00 x0c x00 x00 x00))
(L (W xff xff xff xff xbc x00 x00 x00))))
(T (W x68 x00 x00 x00 x5c x00 x00 x00)
(T (W x00 x00 x00 x00 x00 x00 x00 x00)
(L (W x00 x00 x01 x01 x9e x01 x00 x00))
(L (W x00 x00 x80 xbf x00 x00 x80 xbf)))
(T (W x00 x00 x00 x00 x00 x00 x00 x00)
(L (W x00 x00 x00 x00 xa0 xf6 xfe xff))
(L (W xff xff xff xff xff xff xff xff)))))
(T (W xdd x01 x00 x00 xff xff xff xff)
(T (W x00 x00 x00 x00 xa0 xd6 xfc xff)
(T (W x22 x6d xfd xff x74 x00 x00 x00)
(L (W x45 x44 x00 x00 x00 x00 x00 x00))
(L (W x00 x00 x80 xbf x00 x00 x80 xbf)))
(T (W x00 x00 x00 x00 x00 x00 x00 x00)
(L (W x00 x00 x00 x00 x00 x00 x00 x00))
(L (W x28 xd5 xff xff x00 x01 x01 x01))))
(T (W x68 x00 x00 x00 x5c x00 x00 x00)
(T (W xff xff xff xff xff xff xff xff)
(L (W x45 x44 x00 x00 x00 x00 x00 x00))
(L (W xff xff xff xff xb0 x00 x00 x00)))
(T (W x50 x00 x00 x00 x44 x00 x00 x00)
(L (W xff xff xff xff xff xff xff xff)) E))))))
(T (W xff xff xff xff xff xff xff xff)
(T (W xff xff xff xff xff xff xff xff)
(T (W xff xff xff xff x04 x00 x00 x00)
(T (W xff xff xff xff x03 x00 x00 x00)
(T (W x00 x00 x80 x3f x00 x00 x80 x3f)
(T (W xd2 xd5 xfe xff x00 x00 x01 x01)
(L (W xff xff xff xff xff xff xff xff))
(L (W x00 x00 x00 x00 x00 x00 x00 x00)))
(T (W xff xff xff xff xc4 x00 x00 x00)
(L (W x00 x00 x80 x3f x00 x00 x80 x3f))
(L (W x00 x00 x01 x01 xb3 x01 x00 x00))))
(T (W x00 x00 x00 x00 x00 x00 x00 x00)
(T (W x00 x00 x00 x00 x12 x00 x00 x00)
(L (W xff xff xff xff xb8 x00 x00 x00))
(L (W x00 x00 x00 x00 x00 x00 x00 x00)))
(T (W xff xff xff xff xff xff xff xff)
(L (W xff xff xff xff xff xff xff xff))
(L (W xff xff xff xff xff xff xff xff)))))
(T (W x00 x00 x80 x3f x00 x00 x80 x3f)
(T (W x00 x00 x00 x00 x00 x00 x00 x00)
(T (W x45 x26 x22 x84 xe4 x9c xf2 xcb)
(L (W xff xff xff xff xff xff xff xff))
(L (W x22 x59 xff xff x74 x00 x00 x00)))
(T (W x49 xa1 x68 x4a xeb x5f xdd x3d)
(L (W x00 x00 x00 x00 x00 x00 x00 x00))
(L (W x00 x00 x00 x00 x00 x00 x00 x00))))
(T (W xd2 xb5 xfe xff x00 x00 x01 x01)
(T (W x04 x00 x00 x00 x02 x82 xfd xff)
(L (W x00 x00 x00 x00 x00 x00 x00 x00))
(L (W x00 x00 x00 x00 x00 x00 x00 x00)))
(T (W x18 x00 x00 x00 x0c x00 x00 x00)
(L (W x18 x00 x00 x00 x0c x00 x00 x00))
(L (W xff xff xff xff xff xff xff xff))))))
(T (W xb8 x00 x00 x00 xac x00 x00 x00)
(T (W x45 x26 x22 x84 xe4 x9c xf2 xcb)
(T (W x45 x26 x22 x84 xe4 x9c xf2 xcb)
(T (W xff xff xff xff xff xff xff xff)
(L (W x00 x00 x00 x00 x00 x00 x00 x00))
(L (W x45 x26 x22 x84 xe4 x9c xf2 xcb)))
(T (W xff xff xff xff xff xff xff xff)
(L (W x00 x00 x00 x00 x00 x00 x00 x00))
(L (W x00 x00 x00 x00 x00 x00 x00 x00))))
(T (W x01 x00 x00 x00 x04 x00 x00 x00)
(T (W x6c x00 x00 x00 x60 x00 x00 x00)
(L (W x54 x00 x00 x00 x48 x00 x00 x00))
(L (W x45 x44 x00 x00 x00 x00 x00 x00)))
(T (W xff xff xff xff xff xff xff xff)
(L (W x42 x1a xff xff x00 x00 x01 x01))
(L (W x00 x00 x00 x00 x00 x00 x00 x00)))))
(T (W x00 x00 x80 x3f x00 x00 x80 x3f)
(T (W x00 x00 x00 x00 x00 x00 x00 x00)
(T (W x00 x00 x00 x00 x00 x00 x00 x00)
(L (W x00 x00 x80 x3f x00 x00 x80 x3f))
(L (W xff xff xff xff xff xff xff xff)))
(T (W x28 xd1 xfd xff x00 x01 x01 x01)
(L (W x6a xd5 xfe xff x78 x00 x00 x00))
(L (W xff xff xff xff x01 x00 x00 x00))))
(T (W x00 x00 x00 x00 x00 x00 x00 x00)
(T (W x45 x26 x22 x84 xe4 x9c xf2 xcb)
(L (W x6c x76 x31 x00 x22 x00 x00 x00))
(L (W x30 x34 x5f x43 x4c x45 x41 x52)))
(T (W xc4 x17 xfe xff x1b x00 x00 x00)
(L (W x00 x00 x00 x00 x00 x00 x00 x00)) E)))))
(T (W xff xff xff xff xff xff xff xff)
(T (W x18 x00 x00 x00 x10 x00 x00 x00)
(T (W x00 x00 x00 x00 xa0 x6a xfc xff)
(T (W x45 x26 x22 x84 xe4 x9c xf2 xcb)
(T (W xff xff xff xff xff xff xff xff)
(L (W x00 x00 x00 x00 x00 x00 x00 x00))
(L (W x00 x00 x00 x00 x00 x00 x00 x00)))
(T (W xff xff xff xff xff xff xff xff)
(L (W x18 x00 x00 x00 x0c x00 x00 x00))
(L (W x30 x34 x5f x43 x4c x45 x41 x52))))
(T (W x6c xf4 xfc xff x3c x00 x00 x00)
(T (W x45 x26 x22 x84 xe4 x9c xf2 xcb)
(L (W x00 x00 x00 x00 x2c x69 xfe xff))
(L (W x00 x00 x01 x01 x93 x01 x00 x00)))
(T (W xb8 x00 x00 x00 xac x00 x00 x00)
(L (W x00 x00 x00 x00 x7a xeb xfe xff))
(L (W xff xff xff xff xff xff xff xff)))))
(T (W x00 x00 x80 x3f x00 x00 x80 x3f)
(T (W x00 x00 x80 x3f x00 x00 x80 x3f)
(T (W x3c x40 x6d x62 xe0 x56 xc2 x7e)
(L (W xff xff xff xff x03 x00 x00 x00))
(L (W xff xff xff xff xff xff xff xff)))
(T (W x00 x00 x80 x3f x00 x00 x80 x3f)
(L (W x00 x00 x80 xbf x00 x00 x80 xbf))
(L (W x00 x00 x00 x00 x00 x00 x00 x00))))
(T (W xff xff xff xff xff xff xff xff)
(T (W x00 x00 x00 x00 x12 x00 x00 x00)
(L (W x22 xa1 xfe xff x74 x00 x00 x00))
(L (W x00 x00 x00 x00 x00 x00 x00 x00)))
(T (W x00 x00 x80 x3f x00 x00 x80 x3f)
(L (W x30 x34 x5f x43 x4c x45 x41 x52)) E))))
(T (W xc0 x00 x00 x00 xb4 x00 x00 x00)
(T (W x50 x00 x00 x00 x44 x00 x00 x00)
(T (W x00 x00 x00 x00 x00 x00 x00 x00)
(T (W xff xff xff xff xff xff xff xff)
(L (W x00 x00 x00 x00 x00 x00 x00 x00))
(L (W x00 x00 x80 xbf x00 x00 x80 xbf)))
(T (W x00 x00 x00 x00 x00 x00 x00 x00)
(L (W x00 x00 x00 x00 x00 x00 x00 x00))
(L (W x00 x00 x80 xbf x00 x00 x80 xbf))))
(T (W xff xff xff xff xff xff xff xff)
(T (W xff xff xff xff x9c x00 x00 x00)
(L (W xff xff xff xff x9c x00 x00 x00))
(L (W x2e x00 x00 x00 x0c x00 x00 x00)))
(T (W x64 x00 x00 x00 x9c x00 x00 x00)
(L (W x46 x53 x59 x53 x5f x4e x53 x5f))
(L (W x00 x00 x00 x00 x00 x00 x00 x00)))))
(T (W x00 x00 x80 x3f x00 x00 x80 x3f)
(T (W x00 x00 x00 x00 x00 x00 x00 x00)
(T (W x00 x00 x00 x00 x00 x00 x00 x00)
(L (W x03 x00 x00 x00 xd0 x00 x00 x00))
(L (W xff xff xff xff xff xff xff xff)))
(T (W xff xff xff xff xbc x00 x00 x00)
(L (W xff xff xff xff xa0 x00 x00 x00))
(L (W xbc x00 x00 x00 x0a x00 x00 x00))))
(T (W x3e x00 x00 x00 x10 x00 x00 x00)
(T (W x50 x00 x00 x00 x44 x00 x00 x00)
(L (W xff xff xff xff xff xff xff xff))
(L (W xc2 x01 x00 x00 xff xff xff xff)))
(T (W x62 xcc xff xff xcf x00 x00 x00)
(L (W x30 x34 x5f x43 x4c x45 x41 x52)) E)))))))
(T (W x00 x00 x00 x00 x00 x00 x00 x00)
(T (W xc4 x00 x00 x00 xb8 x00 x00 x00)
(T (W x00 x00 x00 x00 xa0 x30 xfc xff)
(T (W x68 x00 x00 x00 x5c x00 x00 x00)
(T (W x00 x00 x80 x3f x00 x00 x80 x3f)
(T (W x00 x00 x00 x00 x00 x00 x00 x00)
(T (W x18 x00 x00 x00 x10 x00 x00 x00)
(L (W xb8 x00 x00 x00 xac x00 x00 x00))
(L (W xff xff xff xff xff xff xff xff)))
(T (W x00 x00 x80 x3f x00 x00 x80 x3f)
(L (W x00 x00 x00 x00 x00 x00 x00 x00))
(L (W xff xff xff xff xff xff xff xff))))
(T (W xff xff xff xff xff xff xff xff)
(T (W xff xff xff xff xff xff xff xff)
(L (W x74 x00 x00 x00 x68 x00 x00 x00))
(L (W xff xff xff xff xff xff xff xff)))
(T (W x18 x00 x00 x00 x0c x00 x00 x00)
(L (W x6a xe3 xfe xff x78 x00 x00 x00))
(L (W x54 x00 x00 x00 x48 x00 x00 x00)))))
(T (W x00 x00 x00 x00 x00 x00 x00 x00)
(T (W x01 x00 x00 x00 xff xff xff xff)
(T (W xff xff xff xff xff xff xff xff)
(L (W x68 x00 x00 x00 x5c x00 x00 x00))
(L (W x00 x00 x00 x00 x00 x00 x00 x00)))
(T (W xff xff xff xff xff xff xff xff)
(L (W x94 x01 x00 x00 xff xff xff xff))
(L (W x00 x00 x00 x00 x9a xcf xff xff))))
(T (W xff xff xff xff xff xff xff xff)
(T (W x28 x7f xfd xff x00 x01 x01 x01)
(L (W xff xff xff xff xff xff xff xff))
(L (W x00 x00 x00 x00 x7a x81 xff xff)))
(T (W x00 x00 x80 x3f x00 x00 x80 x3f)
(L (W xff xff xff xff xff xff xff xff))
(L (W x00 x00 x62 x00 x74 x00 x08 x00))))))
(T (W x28 x4f xfc xff x00 x01 x01 x01)
(T (W x00 x00 x00 x00 x00 x00 x00 x00)
(T (W x01 x00 x00 x00 x04 x00 x00 x00)
(T (W xc0 x00 x00 x00 xb4 x00 x00 x00)
(L (W xff xff xff xff xff xff xff xff))
(L (W x00 x00 x00 x00 x00 x00 x00 x00)))
(T (W xbc x00 x00 x00 x64 x00 x00 x00)
(L (W xa8 x01 x00 x00 xff xff xff xff))
(L (W xff xff xff xff xff xff xff xff))))
(T (W xff xff xff xff xff xff xff xff)
(T (W x00 x00 x00 x00 x00 x00 x00 x00)
(L (W x45 x26 x22 x84 xe4 x9c xf2 xcb))
(L (W xff xff xff xff xc4 x00 x00 x00)))
(T (W x18 x00 x00 x00 x0c x00 x00 x00)
(L (W xff xff xff xff xff xff xff xff))
(L (W x00 x00 x80 xbf x00 x00 x80 xbf)))))
(T (W x45 x26 x22 x84 xe4 x9c xf2 xcb)
(T (W x00 x00 x00 x00 x02 x00 x00 x00)
(T (W xff xff xff xff xff xff xff xff)
(L (W x84 x00 x00 x00 x60 x00 x00 x00))
(L (W x45 x26 x22 x84 xe4 x9c xf2 xcb)))
(T (W x00 x00 x80 x3f x00 x00 x80 x3f)
(L (W x00 x00 x00 x00 x00 x00 x00 x00))
(L (W x02 x00 x00 x00 xf4 x01 x00 x00))))
(T (W xff xff xff xff xff xff xff xff)
(T (W x1c x56 xed x05 x5f x88 x68 xcc)
(L (W xff xff xff xff xff xff xff xff))
(L (W xff xff xff xff xff xff xff xff)))
(T (W xff xff xff xff xff xff xff xff)
(L (W xff xff xff xff xff xff xff xff)) E)))))
(T (W x00 x00 x80 x3f x00 x00 x80 x3f)
(T (W x22 x5f xfc xff x74 x00 x00 x00)
(T (W x00 x00 x80 x3f x00 x00 x80 x3f)
(T (W xc4 xad xfc xff x3e x00 x00 x00)
(T (W xb8 x00 x00 x00 xac x00 x00 x00)
(L (W x62 xda xff xff x82 x00 x00 x00))
(L (W xff xff xff xff xff xff xff xff)))
(T (W x6c x00 x00 x00 x60 x00 x00 x00)
(L (W x64 x5f x70 x6f x6b x65 x5f x77))
(L (W xff xff xff xff xff xff xff xff))))
(T (W xff xff xff xff xff xff xff xff)
(T (W x38 x00 x00 x00 x0c x00 x00 x00)
(L (W x00 x00 x00 x00 x00 x00 x00 x00))
(L (W x28 x67 xff xff x00 x01 x01 x01)))
(T (W x00 x00 x80 x3f x00 x00 x80 x3f)
(L (W x45 x26 x22 x84 xe4 x9c xf2 xcb))
(L (W x00 x00 x80 xbf x00 x00 x80 xbf)))))
(T (W x00 x00 x00 x00 x00 x00 x00 x00)
(T (W x00 x00 x00 x00 x00 x00 x00 x00)
(T (W x00 x00 x00 x00 xa0 x48 xfd xff)
(L (W x50 x00 x00 x00 x44 x00 x00 x00))
(L (W x6c x00 x00 x00 x60 x00 x00 x00)))
(T (W x00 x00 x00 x00 x00 x00 x00 x00)
(L (W x6c xd2 xfe xff x25 x00 x00 x00))
(L (W x45 x44 x00 x00 x00 x00 x00 x00))))
(T (W x00 x00 x00 x00 x00 x00 x00 x00)
(T (W xff xff xff xff xff xff xff xff)
(L (W x00 x00 x00 x00 x00 x00 x00 x00))
(L (W xff xff xff xff xff xff xff xff)))
(T (W x00 x00 x00 x00 x00 x00 x00 x00)
(L (W xff xff xff xff xff xff xff xff)) E))))
(T (W x00 x00 x80 x3f x00 x00 x80 x3f)
(T (W x00 x00 x00 x00 x00 x00 x00 x00)
(T (W xff xff xff xff xff xff xff xff)
(T (W xff xff xff xff x03 x00 x00 x00)
(L (W xff xff xff xff xff xff xff xff))
(L (W x00 x00 x00 x00 x00 x00 x00 x00)))
(T (W xff xff xff xff xff xff xff xff)
(L (W xff xff xff xff xff xff xff xff))
(L (W x00 x00 x00 x00 x00 x00 x00 x00))))
(T (W xff xff xff xff xff xff xff xff)
(T (W x00 x00 x80 x3f x00 x00 x80 x3f)
(L (W x45 x26 x22 x84 xe4 x9c xf2 xcb))
(L (W xff xff xff xff xff xff xff xff)))
(T (W x00 x00 x80 x3f x00 x00 x80 x3f)
(L (W xff xff xff xff xff xff xff xff))
(L (W x00 x00 x00 x00 x02 xf8 xff xff)))))
(T (W x00 x00 x00 x00 x00 x00 x00 x00)
(T (W xff xff xff xff xff xff xff xff)
(T (W xff xff xff xff xff xff xff xff)
(L (W x00 x00 x80 xbf x00 x00 x80 xbf))
(L (W x28 x57 xff xff x00 x01 x01 x01)))
(T (W x00 x00 x80 x3f x00 x00 x80 x3f)
(L (W x00 x00 x80 xbf x00 x00 x80 xbf))
(L (W x64 x00 x68 x00 x00 x00 x00 x00))))
(T (W xff xff xff xff x04 x00 x00 x00)
(T (W x4f x84 x6f x8b xe8 xcb x63 xb7)
(L (W x4f x84 x6f x8b xe8 xcb x63 xb7))
(L (W xf8 x01 x00 x00 x68 x00 x00 x00)))
(T (W xff xff xff xff xff xff xff xff)
(L (W xff xff xff xff xff xff xff xff)) E))))))
(T (W x23 x00 x00 x00 x0c x00 x00 x00)
(T (W x00 x00 x00 x00 x00 x00 x00 x00)
(T (W x40 x00 x00 x00 x10 x00 x00 x00)
(T (W xff xff xff xff xff xff xff xff)
(T (W x22 xbb xfc xff x74 x00 x00 x00)
(T (W x45 x26 x22 x84 xe4 x9c xf2 xcb)
(L (W x70 x5f x77 x69 x6c x64 x5f x70))
(L (W x00 x00 x80 xbf x00 x00 x80 xbf)))
(T (W xff xff xff xff x01 x00 x00 x00)
(L (W x6c x76 x32 x00 x22 x00 x00 x00))
(L (W x00 x00 x00 x00 x00 x00 x00 x00))))
(T (W x00 x00 x80 x3f x00 x00 x80 x3f)
(T (W x00 x00 x80 x3f x00 x00 x80 x3f)
(L (W xff xff xff xff xff xff xff xff))
(L (W x00 x00 x00 x00 x00 x00 x00 x00)))
(T (W xc4 xe9 xfd xff x30 x00 x00 x00)
(L (W x00 x00 x00 x00 x7a xe9 xfe xff))
(L (W xc4 xe9 xff xff x27 x00 x00 x00)))))
(T (W xff xff xff xff xff xff xff xff)
(T (W x00 x00 x80 x3f x00 x00 x80 x3f)
(T (W x00 x00 x00 x00 x00 x00 x00 x00)
(L (W x00 x00 x00 x00 x00 x00 x00 x00))
(L (W xff xff xff xff xff xff xff xff)))
(T (W x68 x00 x00 x00 x5c x00 x00 x00)
(L (W x6c x00 x00 x00 x60 x00 x00 x00))
(L (W x00 x00 x80 xbf x00 x00 x80 xbf))))
(T (W x00 x00 x00 x00 x00 x00 x00 x00)
(T (W x00 x00 x00 x00 x00 x00 x00 x00)
(L (W x00 x00 x80 xbf x00 x00 x80 xbf))
(L (W x45 x26 x22 x84 xe4 x9c xf2 xcb)))
(T (W xff xff xff xff xff xff xff xff)
(L (W x00 x00 x80 xbf x00 x00 x80 xbf))
(L (W x45 x26 x22 x84 xe4 x9c xf2 xcb))))))
(T (W xff xff xff xff xff xff xff xff)
(T (W xff xff xff xff xff xff xff xff)
(T (W x45 x26 x22 x84 xe4 x9c xf2 xcb)
(T (W x00 x00 x00 x00 x00 x00 x00 x00)
(L (W x45 x26 x22 x84 xe4 x9c xf2 xcb))
(L (W xff xff xff xff xa0 x00 x00 x00)))
(T (W x4f x84 x6f x8b xe8 xcb x63 xb7)
(L (W x00 x00 x80 x3f x00 x00 x80 x3f))
(L (W x6c x00 x00 x00 x60 x00 x00 x00))))
(T (W x45 x26 x22 x84 xe4 x9c xf2 xcb)
(T (W xff xff xff xff xff xff xff xff)
(L (W x14 x00 x00 x00 x0c x00 x00 x00))
(L (W x00 x00 x00 x00 x00 x00 x00 x00)))
(T (W x2c x00 x00 x00 x10 x00 x00 x00)
(L (W x45 x26 x22 x84 xe4 x9c xf2 xcb))
(L (W x00 x00 x80 xbf x00 x00 x80 xbf)))))
(T (W x28 x93 xfc xff x00 x01 x01 x01)
(T (W x50 x00 x00 x00 x44 x00 x00 x00)
(T (W x00 x00 x80 x3f x00 x00 x80 x3f)
(L (W xff xff xff xff xff xff xff xff))
(L (W x00 x00 x00 x00 x00 x00 x00 x00)))
(T (W xff xff xff xff xff xff xff xff)
(L (W xff xff xff xff xff xff xff xff))
(L (W x00 x00 x80 xbf x00 x00 x80 xbf))))
(T (W x00 x00 x80 x3f x00 x00 x80 x3f)
(T (W x35 x00 x00 x00 x38 x00 x00 x00)
(L (W xff xff xff xff xa0 x00 x00 x00))
(L (W x00 x00 x80 xbf x00 x00 x80 xbf)))
(T (W x00 x00 x00 x00 x00 x00 x00 x00)
(L (W x00 x00 x80 xbf x00 x00 x80 xbf)) E)))))
(T (W x00 x00 x00 x00 x00 x00 x00 x00)
(T (W xd2 xff xfd xff x00 x00 x01 x01)
(T (W xff xff xff xff xff xff xff xff)
(T (W x00 x00 x00 x00 xa0 xac xfc xff)
(T (W x00 x00 x00 x00 x00 x00 x00 x00)
(L (W x00 x00 x80 x3f x00 x00 x80 x3f))
(L (W x00 x00 x80 xbf x00 x00 x80 xbf)))
(T (W x00 x00 x00 x00 x00 x00 x00 x00)
(L (W x00 x00 x00 x00 x00 x00 x00 x00))
(L (W x00 x00 x80 xbf x00 x00 x80 xbf))))
(T (W x00 x00 x80 x3f x00 x00 x80 x3f)
(T (W x45 x26 x22 x84 xe4 x9c xf2 xcb)
(L (W xc4 x00 x00 x00 x01 x00 x00 x00))
(L (W x00 x00 x00 x00 x00 x00 x00 x00)))
(T (W xff xff xff xff xff xff xff xff)
(L (W x00 x00 x00 x00 x00 x00 x00 x00))
(L (W xff xff xff xff xff xff xff xff)))))
(T (W x64 x00 x00 x00 x9c x00 x00 x00)
(T (W x00 x00 x80 x3f x00 x00 x80 x3f)
(T (W x45 x26 x22 x84 xe4 x9c xf2 xcb)
(L (W x64 x5f x6c x76 x31 x00 x00 x00))
(L (W x00 x00 x00 x00 x02 x4c xff xff)))
(T (W xff xff xff xff xff xff xff xff)
(L (W x18 x00 x00 x00 x10 x00 x00 x00))
(L (W x00 x00 x80 xbf x00 x00 x80 xbf))))
(T (W x00 x00 x80 x3f x00 x00 x80 x3f)
(T (W x00 x00 x80 x3f x00 x00 x80 x3f)
(L (W x4c x45 x41 x52 x45 x44 x00 x00))
(L (W x00 x00 x80 xbf x00 x00 x80 xbf)))
(T (W x64 x00 x00 x00 x9c x00 x00 x00)
(L (W x54 x00 x00 x00 x48 x00 x00 x00)) E))))
(T (W xff xff xff xff xff xff xff xff)
(T (W xff xff xff xff xff xff xff xff)
(T (W x00 x00 x80 x3f x00 x00 x80 x3f)
(T (W x40 x00 x00 x00 x0c x00 x00 x00)
(L (W xff xff xff xff xff xff xff xff))
(L (W xff xff xff xff xff xff xff xff)))
(T (W x45 x26 x22 x84 xe4 x9c xf2 xcb)
(L (W x00 x00 x80 x3f x00 x00 x80 x3f))
(L (W x44 x00 x00 x00 x00 x00 x80 xbf))))
(T (W x00 x00 x00 x00 x00 x00 x00 x00)
(T (W x00 x00 x00 x00 x72 x7a xfd xff)
(L (W x52 x63 x6c x12 x83 xf4 x3a xc6))
(L (W x45 x26 x22 x84 xe4 x9c xf2 xcb)))
(T (W xff xff xff xff xff xff xff xff)
(L (W x3c x00 x00 x00 x00 x00 x80 xbf))
(L (W x45 x44 x00 x00 x00 x00 x00 x00)))))
(T (W x50 x00 x00 x00 x44 x00 x00 x00)
(T (W x68 x00 x00 x00 x5c x00 x00 x00)
(T (W x00 x00 x80 x3f x00 x00 x80 x3f)
(L (W xff xff xff xff xff xff xff xff))
(L (W x00 x00 x00 x00 x00 x00 x00 x00)))
(T (W x5f x4e x53 x5f x30 x34 x5f x43)
(L (W xff xff xff xff xff xff xff xff))
(L (W xc0 x02 x00 x00 xff xff xff xff))))
(T (W x00 x00 x00 x00 x00 x00 x00 x00)
(T (W xff xff xff xff xff xff xff xff)
(L (W x00 x00 x00 x00 x00 x00 x00 x00))
(L (W x49 xa1 x68 x4a xeb x5f xdd x3d)))
(T (W x00 x00 x00 x00 x00 x00 x00 x00)
(L (W x00 x00 x80 xbf x00 x00 x80 xbf)) E))))))))
(T (W x58 x04 x01 x00 x0c x02 x01 x00)
(T (W xff xff xff xff x01 x00 x00 x00)
(T (W x00 x00 x80 x3f x00 x00 x80 x3f)
(T (W x6c x00 x00 x00 x60 x00 x00 x00)
(T (W x00 x00 x80 x3f x00 x00 x80 x3f)
(T (W x00 x00 x00 x00 x00 x00 x00 x00)
(T (W x00 x00 x00 x00 x02 x00 x00 x00)
(T (W x45 x26 x22 x84 xe4 x9c xf2 xcb)
(L (W x50 x00 x00 x00 x44 x00 x00 x00))
(L (W xff xff xff xff xff xff xff xff)))
(T (W x00 x00 x00 x00 x00 x00 x00 x00)
(L (W x6c x76 x32 x00 x22 x00 x00 x00))
(L (W xff xff xff xff xff xff xff xff))))
(T (W x64 x00 x00 x00 x9c x00 x00 x00)
(T (W xff xff xff xff xff xff xff xff)
(L (W x00 x00 x80 xbf x00 x00 x80 xbf))
(L (W xff xff xff xff xff xff xff xff)))
(T (W x00 x00 x80 x3f x00 x00 x80 x3f)
(L (W x00 x00 x80 xbf x00 x00 x80 xbf))
(L (W x00 x00 x80 xbf x00 x00 x80 xbf)))))
(T (W x00 x00 x00 x00 x00 x00 x00 x00)
(T (W xff xff xff xff xff xff xff xff)
(T (W x6c x00 x00 x00 x60 x00 x00 x00)
(L (W x50 x00 x00 x00 x44 x00 x00 x00))
(L (W x00 x00 x00 x00 x12 x00 x00 x00)))
(T (W xff xff xff xff xff xff xff xff)
(L (W xff xff xff xff xff xff xff xff))
(L (W x5d x00 x00 x00 xff xff xff xff))))
(T (W x45 x26 x22 x84 xe4 x9c xf2 xcb)
(T (W x00 x00 x80 x3f x00 x00 x80 x3f)
(L (W x22 x96 xfe xff x74 x00 x00 x00))
(L (W xff xff xff xff xff xff xff xff)))
(T (W x00 x00 x00 x00 x00 x00 x00 x00)
(L (W xb4 x00 x00 x00 x32 x00 x00 x00))
(L (W xff xff xff xff xff xff xff xff))))))
(T (W x00 x00 x80 x3f x00 x00 x80 x3f)
(T (W x00 x00 x00 x00 x00 x00 x00 x00)
(T (W xff xff xff xff xff xff xff xff)
(T (W x40 x00 x00 x00 x9c x00 x00 x00)
(L (W xff xff xff xff xff xff xff xff))
(L (W xb5 x01 x00 x00 xff xff xff xff)))
(T (W x28 xae xfd xff x00 x01 x01 x01)
(L (W xff xff xff xff xff xff xff xff))
(L (W xff xff xff xff xff xff xff xff))))
(T (W xff xff xff xff xff xff xff xff)
(T (W x6c x79 xfd xff x1d x00 x00 x00)
(L (W x00 x00 x00 x00 x00 x00 x00 x00))
(L (W x45 x26 x22 x84 xe4 x9c xf2 xcb)))
(T (W x00 x00 x80 x3f x00 x00 x80 x3f)
(L (W xbc x00 x00 x00 x64 x00 x00 x00))
(L (W x49 xa1 x68 x4a xeb x5f xdd x3d)))))
(T (W xc4 x94 xfc xff x0c x00 x00 x00)
(T (W xff xff xff xff xff xff xff xff)
(T (W x03 x00 x00 x00 xcc x00 x00 x00)
(L (W x70 x5f x77 x69 x6c x64 x5f x70))
(L (W x54 x00 x00 x00 x48 x00 x00 x00)))
(T (W x00 x00 x00 x00 x00 x00 x00 x00)
(L (W x00 x00 x00 x00 x00 x00 x00 x00))
(L (W xff xff xff xff xff xff xff xff))))
(T (W x18 x00 x00 x00 x0c x00 x00 x00)
(T (W xff xff xff xff xff xff xff xff)
(L (W x00 x00 x80 x3f x00 x00 x80 x3f))
(L (W xff xff xff xff xff xff xff xff)))
(T (W xb8 x00 x00 x00 xac x00 x00 x00)
(L (W xff xff xff xff xff xff xff xff)) E)))))
(T (W x00 x00 x80 x3f x00 x00 x80 x3f)
(T (W x50 x00 x00 x00 x44 x00 x00 x00)
(T (W x00 x00 x00 x00 x00 x00 x00 x00)
(T (W xff xff xff xff xff xff xff xff)
(T (W x18 x00 x00 x00 x10 x00 x00 x00)
(L (W xff xff xff xff xff xff xff xff))
(L (W xff xff xff xff xff xff xff xff)))
(T (W x00 x00 x80 x3f x00 x00 x80 x3f)
(L (W xff xff xff xff xff xff xff xff))
(L (W x03 x00 x00 x00 xd8 x00 x00 x00))))
(T (W xff xff xff xff x03 x00 x00 x00)
(T (W xff xff xff xff xff xff xff xff)
(L (W x00 x00 x00 x00 x00 x00 x00 x00))
(L (W x00 x00 x80 x3f x00 x00 x80 x3f)))
(T (W x00 x00 x80 x3f x00 x00 x80 x3f)
(L (W x50 x00 x00 x00 x44 x00 x00 x00))
(L (W x00 x00 x00 x00 x00 x00 x00 x00)))))
(T (W x00 x00 x00 x00 x00 x00 x00 x00)
(T (W xd8 x01 x00 x00 xff xff xff xff)
(T (W x00 x00 x80 x3f x00 x00 x80 x3f)
(L (W x45 x26 x22 x84 xe4 x9c xf2 xcb))
(L (W x00 x00 x00 x00 x00 x00 x00 x00)))
(T (W x00 x00 x00 x00 x00 x00 x00 x00)
(L (W xff xff xff xff xff xff xff xff))
(L (W xff xff xff xff xff xff xff xff))))
(T (W xb8 x00 x00 x00 xac x00 x00 x00)
(T (W x03 x00 x00 x00 xd0 x00 x00 x00)
(L (W x00 x00 x00 x00 x01 x00 x00 x00))
(L (W xff xff xff xff xff xff xff xff)))
(T (W x00 x00 x00 x00 x00 x00 x00 x00)
(L (W x03 x00 x00 x00 xd8 x00 x00 x00)) E))))
(T (W x00 x00 x80 x3f x00 x00 x80 x3f)
(T (W x00 x00 x00 x00 x00 x00 x00 x00)
(T (W xff xff xff xff xff xff xff xff)
(T (W x50 x00 x00 x00 x44 x00 x00 x00)
(L (W xff xff xff xff xff xff xff xff))
(L (W xf6 x0a xb9 x28 xbf xcb x67 x6a)))
(T (W x45 x26 x22 x84 xe4 x9c xf2 xcb)
(L (W xff xff xff xff xff xff xff xff))
(L (W xff xff xff xff xff xff xff xff))))
(T (W xff xff xff xff xff xff xff xff)
(T (W x00 x00 x00 x00 x00 x00 x00 x00)
(L (W x00 x00 x00 x00 x00 x00 x00 x00))
(L (W x00 x00 x00 x00 xa0 x77 xff xff)))
(T (W x00 x00 x80 x3f x00 x00 x80 x3f)
(L (W xff xff xff xff xff xff xff xff))
(L (W xff xff xff xff xff xff xff xff)))))
(T (W x00 x00 x00 x00 x00 x00 x00 x00)
(T (W xff xff xff xff xff xff xff xff)
(T (W xff xff xff xff x9c x00 x00 x00)
(L (W x00 x00 x00 x00 x00 x00 x00 x00))
(L (W x54 x00 x00 x00 x48 x00 x00 x00)))
(T (W x49 xa1 x68 x4a xeb x5f xdd x3d)
(L (W x49 xa1 x68 x4a xeb x5f xdd x3d))
(L (W xb0 x00 x00 x00 x1e x00 x00 x00))))
(T (W x22 x2e xfd xff x74 x00 x00 x00)
(T (W x13 x00 x00 x00 x10 x00 x00 x00)
(L (W x00 x00 x00 x00 x00 x00 x00 x00))
(L (W xff xff xff xff xff xff xff xff)))
(T (W xb8 x00 x00 x00 xac x00 x00 x00)
(L (W xff xff xff xff xff xff xff xff)) E))))))
(T (W xff xff xff xff xff xff xff xff)
(T (W xd2 x02 x00 x00 xff xff xff xff)
(T (W xff xff xff xff xff xff xff xff)
(T (W xff xff xff xff xff xff xff xff)
(T (W x50 x00 x00 x00 x44 x00 x00 x00)
(T (W x00 x00 x00 x00 x00 x00 x00 x00)
(L (W x62 xd5 xff xff xb9 x00 x00 x00))
(L (W x49 xa1 x68 x4a xeb x5f xdd x3d)))
(T (W xff xff xff xff xff xff xff xff)
(L (W xff xff xff xff xff xff xff xff))
(L (W x46 x53 x59 x53 x5f x4e x53 x5f))))
(T (W x45 x26 x22 x84 xe4 x9c xf2 xcb)
(T (W x45 x26 x22 x84 xe4 x9c xf2 xcb)
(L (W xff xff xff xff xff xff xff xff))
(L (W x00 x00 x00 x00 x00 x00 x00 x00)))
(T (W xff xff xff xff xff xff xff xff)
(L (W xff xff xff xff xff xff xff xff))
(L (W xff xff xff xff xff xff xff xff)))))
(T (W x28 x82 xfc xff x00 x01 x01 x01)
(T (W x00 x00 x80 x3f x00 x00 x80 x3f)
(T (W x00 x00 x00 x00 x60 x00 x64 x00)
(L (W x4a x00 x00 x00 xff xff xff xff))
(L (W xff xff xff xff xff xff xff xff)))
(T (W x00 x00 x80 x3f x00 x00 x80 x3f)
(L (W x45 x26 x22 x84 xe4 x9c xf2 xcb))
(L (W x00 x00 x00 x00 x00 x00 x00 x00))))
(T (W x00 x00 x00 x00 x00 x00 x00 x00)
(T (W x46 x53 x59 x53 x5f x4e x53 x5f)
(L (W x00 x00 x00 x00 x00 x00 x00 x00))
(L (W x45 x26 x22 x84 xe4 x9c xf2 xcb)))
(T (W x64 x00 x00 x00 x9c x00 x00 x00)
(L (W x49 xa1 x68 x4a xeb x5f xdd x3d))
(L (W x00 x00 x00 x00 x00 x00 x00 x00))))))
(T (W xff xff xff xff xff xff xff xff)
(T (W x64 x00 x00 x00 x9c x00 x00 x00)
(T (W x00 x00 x80 x3f x00 x00 x80 x3f)
(T (W xd2 xe6 xfe xff x00 x00 x01 x01)
(L (W x00 x00 x00 x00 x00 x00 x00 x00))
(L (W x6c x00 x00 x00 x60 x00 x00 x00)))
(T (W x6c xbd xfd xff x15 x00 x00 x00)
(L (W x00 x00 x80 x3f x00 x00 x80 x3f))
(L (W x00 x00 x80 xbf x00 x00 x80 xbf))))
(T (W x00 x00 x00 x00 x00 x00 x00 x00)
(T (W x18 x00 x00 x00 x10 x00 x00 x00)
(L (W x00 x01 x01 x01 xe2 x6e xfe xff))
(L (W x00 x00 x00 x00 x00 x00 x00 x00)))
(T (W xff xff xff xff xff xff xff xff)
(L (W x12 x00 x00 x00 x46 x53 x59 x53))
(L (W x45 x26 x22 x84 xe4 x9c xf2 xcb)))))
(T (W x00 x00 x80 x3f x00 x00 x80 x3f)
(T (W x00 x00 x80 x3f x00 x00 x80 x3f)
(T (W x00 x00 x00 x00 x00 x00 x00 x00)
(L (W x18 x00 x00 x00 x0c x00 x00 x00))
(L (W xff xff xff xff xff xff xff xff)))
(T (W xb0 x00 x00 x00 x28 x00 x00 x00)
(L (W xff xff xff xff x9c x00 x00 x00))
(L (W x00 x00 x00 x00 x00 x00 x00 x00))))
(T (W x00 x00 x00 x00 x00 x00 x00 x00)
(T (W x22 xaa xfd xff x74 x00 x00 x00)
(L (W x4f x84 x6f x8b xe8 xcb x63 xb7))
(L (W x00 x00 x00 x00 x00 x00 x00 x00)))
(T (W x00 x00 x00 x00 x00 x00 x00 x00)
(L (W x4f x84 x6f x8b xe8 xcb x63 xb7)) E)))))
(T (W x1c x01 x00 x00 x04 x00 x00 x00)
(T (W xff xff xff xff xff xff xff xff)
(T (W xff xff xff xff xff xff xff xff)
(T (W x68 x00 x00 x00 x5c x00 x00 x00)
(T (W x3e x00 x00 x00 x0c x00 x00 x00)
(L (W x45 x26 x22 x84 xe4 x9c xf2 xcb))
(L (W x45 x26 x22 x84 xe4 x9c xf2 xcb)))
(T (W x00 x00 x00 x00 x00 x00 x00 x00)
(L (W x6b x65 x5f x6f x79 x61 x62 x75))
(L (W x00 x00 x00 x00 x00 x00 x00 x00))))
(T (W x00 x00 x00 x00 x00 x00 x00 x00)
(T (W x54 x00 x00 x00 x48 x00 x00 x00)
(L (W xff xff xff xff x90 x00 x00 x00))
(L (W x46 x53 x59 x53 x5f x4e x53 x5f)))
(T (W xff xff xff xff xff xff xff xff)
(L (W x00 x00 x00 x00 x00 x00 x00 x00))
(L (W xff xff xff xff xff xff xff xff)))))
(T (W x50 x00 x00 x00 x44 x00 x00 x00)
(T (W x00 x00 x80 x3f x00 x00 x80 x3f)
(T (W x00 x00 x00 x00 x00 x00 x00 x00)
(L (W xff xff xff xff xff xff xff xff))
(L (W xff xff xff xff xff xff xff xff)))
(T (W x18 x00 x00 x00 x0c x00 x00 x00)
(L (W x6c x00 x00 x00 x60 x00 x00 x00))
(L (W x00 x00 x00 x00 x00 x00 x00 x00))))
(T (W x1c x00 x20 x00 x24 x00 x28 x00)
(T (W x00 x00 x00 x00 x00 x00 x00 x00)
(L (W x01 x00 x00 x00 xff xff xff xff))
(L (W x00 x00 x00 x00 x00 x00 x00 x00)))
(T (W x18 x00 x00 x00 x0c x00 x00 x00)
(L (W x00 x00 x00 x00 x00 x00 x00 x00)) E))))
(T (W xff xff xff xff xff xff xff xff)
(T (W xbc x00 x00 x00 xb0 x00 x00 x00)
(T (W x00 x00 x80 x3f x00 x00 x80 x3f)
(T (W xff xff xff xff xff xff xff xff)
(L (W x00 x00 x00 x00 x00 x00 x00 x00))
(L (W x22 x52 xff xff x74 x00 x00 x00)))
(T (W x00 x00 x00 x00 x00 x00 x00 x00)
(L (W x00 x00 x00 x00 x00 x00 x00 x00))
(L (W x00 x00 x80 xbf x00 x00 x80 xbf))))
(T (W x6c x05 xfd xff x3c x00 x00 x00)
(T (W xff xff xff xff xff xff xff xff)
(L (W xff xff xff xff xff xff xff xff))
(L (W x00 x00 x00 x00 x00 x00 x00 x00)))
(T (W xff xff xff xff xff xff xff xff)
(L (W x00 x00 x00 x00 x00 x00 x00 x00))
(L (W xff xff xff xff xff xff xff xff)))))
(T (W x00 x00 x80 x3f x00 x00 x80 x3f)
(T (W x45 x26 x22 x84 xe4 x9c xf2 xcb)
(T (W x00 x00 x00 x00 x00 x00 x00 x00)
(L (W xff xff xff xff xff xff xff xff))
(L (W x45 x44 x00 x00 x00 x00 x00 x00)))
(T (W x9d x01 x00 x00 xff xff xff xff)
(L (W xff xff xff xff xff xff xff xff))
(L (W xff xff xff xff xff xff xff xff))))
(T (W x00 x00 x00 x00 x00 x00 x00 x00)
(T (W x45 x26 x22 x84 xe4 x9c xf2 xcb)
(L (W x45 x44 x00 x00 x00 x00 x00 x00))
(L (W x00 x00 x00 x00 x00 x00 x00 x00)))
(T (W x00 x00 x00 x00 x00 x00 x00 x00)
(L (W x00 x00 x00 x00 x00 x00 x00 x00)) E)))))))
(T (W x00 x00 x00 x00 x00 x00 x00 x00)
(T (W xff xff xff xff xff xff xff xff)
(T (W xff xff xff xff xff xff xff xff)
(T (W x22 x58 xfc xff x74 x00 x00 x00)
(T (W x50 x00 x00 x00 x44 x00 x00 x00)
(T (W x00 x00 x00 x00 x00 x00 x00 x00)
(T (W xff xff xff xff xff xff xff xff)
(L (W xff xff xff xff xff xff xff xff))
(L (W x30 x34 x5f x43 x4c x45 x41 x52)))
(T (W x45 x26 x22 x84 xe4 x9c xf2 xcb)
(L (W x00 x00 x80 x3f x00 x00 x80 x3f))
(L (W x29 x00 x00 x00 xff xff xff xff))))
(T (W x01 x00 x00 x00 x04 x00 x00 x00)
(T (W x00 x00 x00 x00 x7a x66 xfd xff)
(L (W x1c x00 x00 x00 x10 x00 x00 x00))
(L (W xff xff xff xff xff xff xff xff)))
(T (W xb8 x00 x00 x00 xac x00 x00 x00)
(L (W xff xff xff xff xa0 x00 x00 x00))
(L (W x45 x26 x22 x84 xe4 x9c xf2 xcb)))))
(T (W x00 x00 x00 x00 x00 x00 x00 x00)
(T (W x6c xcb xfc xff x3c x00 x00 x00)
(T (W x6c x4b xfd xff x3c x00 x00 x00)
(L (W xff xff xff xff x03 x00 x00 x00))
(L (W x00 x00 x80 xbf x00 x00 x80 xbf)))
(T (W xc4 xc6 xfd xff x10 x00 x00 x00)
(L (W x00 x00 x00 x00 x00 x00 x00 x00))
(L (W x30 x34 x5f x43 x4c x45 x41 x52))))
(T (W xff xff xff xff xff xff xff xff)
(T (W xb0 x00 x00 x00 x64 x00 x00 x00)
(L (W xff xff xff xff xff xff xff xff))
(L (W x00 x00 x00 x00 x00 x00 x00 x00)))
(T (W x00 x00 x80 x3f x00 x00 x80 x3f)
(L (W xff xff xff xff xff xff xff xff))
(L (W x44 x00 x00 x00 x00 x00 x80 xbf))))))
(T (W x18 x00 x00 x00 x10 x00 x00 x00)
(T (W x00 x00 x80 x3f x00 x00 x80 x3f)
(T (W x00 x00 x00 x00 x00 x00 x00 x00)
(T (W xff xff xff xff xff xff xff xff)
(L (W x62 xe3 xff xff x7b x00 x00 x00))
(L (W x00 x00 x00 x00 x00 x00 x00 x00)))
(T (W xff xff xff xff xff xff xff xff)
(L (W x00 x00 x00 x00 x00 x00 x00 x00))
(L (W x00 x00 x00 x00 x00 x00 x00 x00))))
(T (W xff xff xff xff xff xff xff xff)
(T (W x00 x00 x80 x3f x00 x00 x80 x3f)
(L (W x00 x00 x80 xbf x00 x00 x80 xbf))
(L (W x00 x00 x01 x01 x2a x00 x00 x00)))
(T (W x64 x00 x00 x00 x9c x00 x00 x00)
(L (W xff xff xff xff xff xff xff xff))
(L (W xff xff xff xff xff xff xff xff)))))
(T (W x00 x00 x80 x3f x00 x00 x80 x3f)
(T (W x00 x00 x00 x00 x00 x00 x00 x00)
(T (W xff xff xff xff xff xff xff xff)
(L (W x05 x00 x06 x00 x07 x00 x00 x00))
(L (W xff xff xff xff xb0 x00 x00 x00)))
(T (W x50 x00 x00 x00 x44 x00 x00 x00)
(L (W x00 x00 x80 xbf x00 x00 x80 xbf))
(L (W x50 x00 x00 x00 x44 x00 x00 x00))))
(T (W x1c x01 x00 x00 x04 x00 x00 x00)
(T (W x00 x00 x00 x00 x00 x00 x00 x00)
(L (W xff xff xff xff xff xff xff xff))
(L (W xff xff xff xff xff xff xff xff)))
(T (W xff xff xff xff xff xff xff xff)
(L (W x45 x44 x00 x00 x00 x00 x00 x00)) E)))))
(T (W x18 x00 x00 x00 x0c x00 x00 x00)
(T (W x45 x26 x22 x84 xe4 x9c xf2 xcb)
(T (W x6c x00 x00 x00 x60 x00 x00 x00)
(T (W x00 x00 x00 x00 x00 x00 x00 x00)
(T (W xff xff xff xff xff xff xff xff)
(L (W x00 x00 x00 x00 x00 x00 x00 x00))
(L (W xc2 x11 xb9 x28 xbf xcf x67 x6a)))
(T (W x18 x00 x00 x00 x10 x00 x00 x00)
(L (W x00 x00 x80 x3f x00 x00 x80 x3f))
(L (W x00 x00 x01 x01 x94 x01 x00 x00))))
(T (W xff xff xff xff xff xff xff xff)
(T (W x00 x00 x00 x00 x00 x00 x00 x00)
(L (W x00 x00 x80 xbf x00 x00 x80 xbf))
(L (W xb8 x00 x00 x00 x64 x00 x00 x00)))
(T (W x01 x00 x00 x00 x9c x00 x00 x00)
(L (W xff xff xff xff xff xff xff xff))
(L (W x38 x00 x3c x00 x40 x00 x44 x00)))))
(T (W x45 x26 x22 x84 xe4 x9c xf2 xcb)
(T (W x00 x00 x00 x00 x00 x00 x00 x00)
(T (W xff xff xff xff xff xff xff xff)
(L (W x68 x00 x00 x00 x5c x00 x00 x00))
(L (W xff xff xff xff xa0 x00 x00 x00)))
(T (W x00 x00 x00 x00 x00 x00 x00 x00)
(L (W x00 x00 x00 x00 x00 x00 x00 x00))
(L (W x00 x00 x00 x00 x00 x00 x00 x00))))
(T (W x00 x00 x00 x00 x00 x00 x00 x00)
(T (W x02 x00 x00 x00 x30 x01 x00 x00)
(L (W x45 x26 x22 x84 xe4 x9c xf2 xcb))
(L (W x00 x00 x00 x00 x00 x00 x00 x00)))
(T (W x00 x00 x80 x3f x00 x00 x80 x3f)
(L (W x00 x00 x01 x01 x4a x00 x00 x00)) E))))
(T (W x2f x00 x00 x00 x9c x00 x00 x00)
(T (W x00 x00 x80 x3f x00 x00 x80 x3f)
(T (W xc4 xbe xfc xff x3c x00 x00 x00)
(T (W xff xff xff xff xff xff xff xff)
(L (W xc4 x3e xfe xff x27 x00 x00 x00))
(L (W x00 x00 x80 xbf x00 x00 x80 xbf)))
(T (W x00 x00 x00 x00 x7a xba xfd xff)
(L (W x00 x00 x00 x00 x00 x00 x00 x00))
(L (W x00 x00 x00 x00 x00 x00 x00 x00))))
(T (W xff xff xff xff xff xff xff xff)
(T (W x6a x7c xfd xff x78 x00 x00 x00)
(L (W x00 x00 x80 xbf x00 x00 x80 xbf))
(L (W xff xff xff xff xff xff xff xff)))
(T (W x18 x00 x00 x00 x0c x00 x00 x00)
(L (W x00 x00 x00 x00 x02 xf9 xfe xff))
(L (W x46 x53 x59 x53 x5f x4e x53 x5f)))))
(T (W x00 x00 x80 x3f x00 x00 x80 x3f)
(T (W xc4 xde xfc xff x3e x00 x00 x00)
(T (W x00 x00 x00 x00 x00 x00 x00 x00)
(L (W x50 x00 x00 x00 x44 x00 x00 x00))
(L (W xb0 x00 x00 x00 x0a x00 x00 x00)))
(T (W x45 x26 x22 x84 xe4 x9c xf2 xcb)
(L (W x6c x00 x00 x00 x60 x00 x00 x00))
(L (W x00 x00 x00 x00 x00 x00 x00 x00))))
(T (W xff xff xff xff xff xff xff xff)
(T (W x00 x00 x80 x3f x00 x00 x80 x3f)
(L (W xff xff xff xff xa0 x00 x00 x00))
(L (W x50 x00 x00 x00 x44 x00 x00 x00)))
(T (W xff xff xff xff xff xff xff xff)
(L (W xff xff xff xff xff xff xff xff)) E))))))
(T (W x00 x00 x00 x00 x00 x00 x00 x00)
(T (W x00 x00 x00 x00 x00 x00 x00 x00)
(T (W x00 x00 x00 x00 x00 x00 x00 x00)
(T (W xff xff xff xff xff xff xff xff)
(T (W x00 x00 x00 x00 xa0 xa5 xfc xff)
(T (W x00 x00 x80 x3f x00 x00 x80 x3f)
(L (W x50 x00 x00 x00 x44 x00 x00 x00))
(L (W x6c x00 x00 x00 x60 x00 x00 x00)))
(T (W x00 x00 x00 x00 x00 x00 x00 x00)
(L (W x00 x00 x00 x00 x00 x00 x00 x00))
(L (W x00 x00 x80 xbf x00 x00 x80 xbf))))
(T (W x45 x26 x22 x84 xe4 x9c xf2 xcb)
(T (W x00 x00 x00 x00 xa0 x65 xfd xff)
(L (W x2c x02 x00 x00 x28 x01 x00 x00))
(L (W x00 x00 x00 x00 x00 x00 x00 x00)))
(T (W x00 x00 x00 x00 x00 x00 x00 x00)
(L (W x00 x00 x00 x00 x12 x00 x00 x00))
(L (W x28 xe4 xff xff x00 x01 x01 x01)))))
(T (W xff xff xff xff xff xff xff xff)
(T (W x28 xc4 xfc xff x00 x01 x01 x01)
(T (W x00 x00 x00 x00 x00 x00 x00 x00)
(L (W x00 x00 x00 x00 x00 x00 x00 x00))
(L (W x00 x00 x00 x00 x00 x00 x00 x00)))
(T (W x18 x00 x00 x00 x10 x00 x00 x00)
(L (W xff xff xff xff xa0 x00 x00 x00))
(L (W x00 x00 x80 xbf x00 x00 x80 xbf))))
(T (W x45 x26 x22 x84 xe4 x9c xf2 xcb)
(T (W x00 x00 x80 x3f x00 x00 x80 x3f)
(L (W x18 x00 x00 x00 x0c x00 x00 x00))
(L (W xac x00 x00 x00 x64 x00 x00 x00)))
(T (W xff xff xff xff xff xff xff xff)
(L (W x6c x00 x00 x00 x60 x00 x00 x00))
(L (W x00 x00 x00 x00 x00 x00 x00 x00))))))
(T (W x17 x00 x00 x00 x0c x00 x00 x00)
(T (W x5a x32 xff xff x66 x01 x00 x00)
(T (W x3e x00 x00 x00 x9c x00 x00 x00)
(T (W x00 x00 x00 x00 x00 x00 x00 x00)
(L (W x00 x00 x80 x3f x00 x00 x80 x3f))
(L (W xff xff xff xff xff xff xff xff)))
(T (W x00 x00 x80 x3f x00 x00 x80 x3f)
(L (W x6c x00 x00 x00 x60 x00 x00 x00))
(L (W x45 x26 x22 x84 xe4 x9c xf2 xcb))))
(T (W x00 x00 x80 x3f x00 x00 x80 x3f)
(T (W x4b x00 x00 x00 xff xff xff xff)
(L (W xff xff xff xff xff xff xff xff))
(L (W x45 x26 x22 x84 xe4 x9c xf2 xcb)))
(T (W x00 x00 x00 x00 x00 x00 x00 x00)
(L (W x00 x00 x80 xbf x00 x00 x80 xbf))
(L (W x6c x00 x00 x00 x60 x00 x00 x00)))))
(T (W xff xff xff xff xff xff xff xff)
(T (W x22 xec xfc xff x74 x00 x00 x00)
(T (W x00 x00 x80 x3f x00 x00 x80 x3f)
(L (W xff xff xff xff xff xff xff xff))
(L (W x00 x00 x00 x00 x00 x00 x00 x00)))
(T (W x00 x00 x00 x00 x00 x00 x00 x00)
(L (W x30 x34 x5f x43 x4c x45 x41 x52))
(L (W x54 x00 x00 x00 x48 x00 x00 x00))))
(T (W x00 x00 x80 x3f x00 x00 x80 x3f)
(T (W xff xff xff xff xff xff xff xff)
(L (W xff xff xff xff xff xff xff xff))
(L (W x00 x00 x80 xbf x00 x00 x80 xbf)))
(T (W x00 x00 x80 x3f x00 x00 x80 x3f)
(L (W x2b x00 x00 x00 x2e x00 x00 x00)) E)))))
(T (W x00 x00 x00 x00 x00 x00 x00 x00)
(T (W x00 x00 x00 x00 x00 x00 x00 x00)
(T (W xb2 x01 x00 x00 xff xff xff xff)
(T (W x18 x00 x00 x00 x0c x00 x00 x00)
(T (W x00 x00 x80 x3f x00 x00 x80 x3f)
(L (W x50 x00 x00 x00 x44 x00 x00 x00))
(L (W x00 x00 x00 x00 xa0 x2d xff xff)))
(T (W x00 x00 x00 x00 x00 x00 x00 x00)
(L (W x00 x00 x80 x3f x00 x00 x80 x3f))
(L (W x50 x00 x00 x00 x44 x00 x00 x00))))
(T (W x00 x00 x80 x3f x00 x00 x80 x3f)
(T (W xff xff xff xff xff xff xff xff)
(L (W xff xff xff xff xff xff xff xff))
(L (W x00 x00 x80 xbf x00 x00 x80 xbf)))
(T (W x6f x6b x65 x5f x77 x61 x72 x6c)
(L (W x45 x26 x22 x84 xe4 x9c xf2 xcb))
(L (W x00 x00 x00 x00 x00 x00 x00 x00)))))
(T (W xff xff xff xff xff xff xff xff)
(T (W x50 x00 x00 x00 x44 x00 x00 x00)
(T (W x00 x00 x80 x3f x00 x00 x80 x3f)
(L (W x28 x4c xfe xff x00 x01 x01 x01))
(L (W x46 x53 x59 x53 x5f x4e x53 x5f)))
(T (W xff xff xff xff xff xff xff xff)
(L (W xff xff xff xff xff xff xff xff))
(L (W x50 x00 x00 x00 x44 x00 x00 x00))))
(T (W x00 x00 x80 x3f x00 x00 x80 x3f)
(T (W x22 xa4 xfd xff x74 x00 x00 x00)
(L (W x00 x00 x00 x00 x00 x00 x00 x00))
(L (W x23 x00 x00 x00 x26 x00 x00 x00)))
(T (W x24 x00 x28 x00 x2c x00 x30 x00)
(L (W x18 x00 x00 x00 x10 x00 x00 x00)) E))))
(T (W xd2 x10 xfe xff x00 x00 x01 x01)
(T (W xd2 x3b xff xff x00 x00 x01 x01)
(T (W xc0 x00 x00 x00 xb4 x00 x00 x00)
(T (W x00 x00 x00 x00 x00 x00 x00 x00)
(L (W x1c x00 x20 x00 x24 x00 x28 x00))
(L (W xff xff xff xff xff xff xff xff)))
(T (W x28 xbc xfd xff x00 x01 x01 x01)
(L (W x00 x00 x80 x3f x00 x00 x80 x3f))
(L (W x9c xbd xff xff x02 xf7 xff xff))))
(T (W x00 x00 x80 x3f x00 x00 x80 x3f)
(T (W x00 x00 x00 x00 x00 x00 x00 x00)
(L (W x00 x00 x00 x00 x00 x00 x00 x00))
(L (W x54 x00 x00 x00 x48 x00 x00 x00)))
(T (W x2d x00 x00 x00 x10 x00 x00 x00)
(L (W x6c x00 x00 x00 x60 x00 x00 x00))
(L (W x00 x00 x80 xbf x00 x00 x80 xbf)))))
(T (W x64 x00 x00 x00 x9c x00 x00 x00)
(T (W x00 x00 x00 x00 xa0 xdd xfc xff)
(T (W x22 x74 xfd xff x74 x00 x00 x00)
(L (W x00 x00 x00 x00 x00 x00 x00 x00))
(L (W x49 xa1 x68 x4a xeb x5f xdd x3d)))
(T (W x00 x00 x00 x00 x00 x00 x00 x00)
(L (W x6c xe7 xfe xff x15 x00 x00 x00))
(L (W x00 x00 x00 x00 x00 x00 x00 x00))))
(T (W x50 x00 x00 x00 x44 x00 x00 x00)
(T (W x00 x00 x00 x00 x00 x00 x00 x00)
(L (W x00 x00 x80 x3f x00 x00 x80 x3f))
(L (W x00 x00 x80 xbf x00 x00 x80 xbf)))
(T (W x45 x26 x22 x84 xe4 x9c xf2 xcb)
(L (W x00 x00 x80 xbf x00 x00 x80 xbf)) E)))))))))
(T (W x88 x12 x02 x00 x44 x10 x02 x00)
(T (W x38 x5a x01 x00 xdc x57 x01 x00)
(T (W x60 x29 x00 x00 x2c x28 x00 x00)
(T (W xff xff xff xff xff xff xff xff)
(T (W x52 xe2 xfd xff x00 x00 x01 x01)
(T (W xff xff xff xff xff xff xff xff)
(T (W xb8 x00 x00 x00 xac x00 x00 x00)
(T (W x00 x00 x80 x3f x00 x00 x80 x3f)
(T (W x00 x00 x00 x00 x00 x00 x00 x00)
(L (W xe2 xd0 xff xff xd5 x01 x00 x00))
(L (W x00 x00 x80 xbf x00 x00 x80 xbf)))
(T (W xff xff xff xff xac x00 x00 x00)
(L (W x00 x00 x80 x3f x00 x00 x80 x3f))
(L (W x00 x00 x00 x00 x00 x00 x00 x00))))
(T (W x00 x00 x00 x00 x00 x00 x00 x00)
(T (W x00 x00 x00 x00 x00 x00 x00 x00)
(L (W xff xff xff xff xff xff xff xff))
(L (W x18 x00 x00 x00 x0c x00 x00 x00)))
(T (W xff xff xff xff xff xff xff xff)
(L (W xff xff xff xff xff xff xff xff))
(L (W xff xff xff xff xff xff xff xff)))))
(T (W x45 x26 x22 x84 xe4 x9c xf2 xcb)
(T (W x00 x00 x80 x3f x00 x00 x80 x3f)
(T (W x52 xf2 xfe xff x00 x00 x01 x01)
(L (W x5f x00 x00 x00 xff xff xff xff))
(L (W xa8 x3d xff xff x00 x01 x01 x01)))
(T (W x45 x26 x22 x84 xe4 x9c xf2 xcb)
(L (W x00 x00 x00 x00 x00 x00 x00 x00))
(L (W x00 x00 x80 xbf x00 x00 x80 xbf))))
(T (W x00 x00 x00 x00 x00 x00 x00 x00)
(T (W xff xff xff xff xff xff xff xff)
(L (W x04 x00 x00 x00 x82 x7e xfe xff))
(L (W x00 x00 x00 x00 x00 x00 x00 x00)))
(T (W x64 x00 x00 x00 x9c x00 x00 x00)
(L (W x00 x00 x00 x00 x12 x00 x00 x00))
(L (W x00 x00 x00 x00 x00 x00 x00 x00))))))
(T (W xff xff xff xff xff xff xff xff)
(T (W x68 x00 x00 x00 x5c x00 x00 x00)
(T (W x00 x00 x00 x00 x00 x00 x00 x00)
(T (W x5d xc3 x2c x4c x7f x22 x36 x7a)
(L (W x00 x00 x00 x00 x00 x00 x00 x00))
(L (W x00 x00 x80 xbf x00 x00 x80 xbf)))
(T (W x04 x00 x00 x00 xfa xb3 xfd xff)
(L (W x00 x00 x00 x00 x1b x00 x00 x00))
(L (W x4f x84 x6f x8b xe8 xcb x63 xb7))))
(T (W x00 x00 x00 x00 x00 x00 x00 x00)
(T (W x00 x00 x80 x3f x00 x00 x80 x3f)
(L (W x1c x00 x00 x00 x10 x00 x00 x00))
(L (W x00 x00 x00 x00 x00 x00 x00 x00)))
(T (W xff xff xff xff xff xff xff xff)
(L (W x00 x00 x00 x00 x12 x00 x00 x00))
(L (W xff xff xff xff xff xff xff xff)))))
(T (W x00 x00 x80 x3f x00 x00 x80 x3f)
(T (W x00 x00 x00 x00 x00 x00 x00 x00)
(T (W x00 x00 x00 x00 x00 x00 x00 x00)
(L (W x50 x00 x00 x00 x44 x00 x00 x00))
(L (W xff xff xff xff xff xff xff xff)))
(T (W x68 x00 x00 x00 x5c x00 x00 x00)
(L (W x50 x00 x00 x00 x44 x00 x00 x00))
(L (W x4f x84 x6f x8b xe8 xcb x63 xb7))))
(T (W xec x18 xfd xff x3e x00 x00 x00)
(T (W x49 xa1 x68 x4a xeb x5f xdd x3d)
(L (W xff xff xff xff xff xff xff xff))
(L (W x45 x26 x22 x84 xe4 x9c xf2 xcb)))
(T (W x3c x00 x40 x00 x44 x00 x48 x00)
(L (W x4f x84 x6f x8b xe8 xcb x63 xb7)) E)))))
(T (W xff xff xff xff xff xff xff xff)
(T (W xff xff xff xff xff xff xff xff)
(T (W x45 x26 x22 x84 xe4 x9c xf2 xcb)
(T (W x45 x26 x22 x84 xe4 x9c xf2 xcb)
(T (W x00 x00 x00 x00 x00 x00 x00 x00)
(L (W x1a x00 x00 x00 x67 x72 x6f x75))
(L (W x00 x00 x00 x00 x00 x00 x00 x00)))
(T (W xff xff xff xff xff xff xff xff)
(L (W xec x15 x00 x00 xd0 x14 x00 x00))
(L (W x00 x00 x00 x00 x00 x00 x00 x00))))
(T (W x00 x00 x00 x00 x00 x00 x00 x00)
(T (W x00 x00 x80 x3f x00 x00 x80 x3f)
(L (W xff xff xff xff x90 x00 x00 x00))
(L (W xff xff xff xff xff xff xff xff)))
(T (W xff xff xff xff xff xff xff xff)
(L (W x01 x00 x00 x00 xff xff xff xff))
(L (W x00 x00 x00 x00 x20 xe7 xff xff)))))
(T (W x18 x00 x00 x00 x0c x00 x00 x00)
(T (W x45 x26 x22 x84 xe4 x9c xf2 xcb)
(T (W xff xff xff xff xff xff xff xff)
(L (W xff xff xff xff xff xff xff xff))
(L (W xb0 x00 x00 x00 x1e x00 x00 x00)))
(T (W x00 x00 x80 x3f x00 x00 x80 x3f)
(L (W x00 x00 x80 xbf x00 x00 x80 xbf))
(L (W x00 x00 x00 x00 x00 x00 x00 x00))))
(T (W x00 x00 x00 x00 x00 x00 x00 x00)
(T (W x00 x00 x00 x00 x00 x00 x00 x00)
(L (W x00 x00 x80 xbf x00 x00 x80 xbf))
(L (W x4f x84 x6f x8b xe8 xcb x63 xb7)))
(T (W x18 x00 x00 x00 x0c x00 x00 x00)
(L (W x00 x00 x00 x00 x00 x00 x00 x00)) E))))
(T (W xff xff xff xff xff xff xff xff)
(T (W xa8 x75 xfc xff x00 x01 x01 x01)
(T (W x45 x26 x22 x84 xe4 x9c xf2 xcb)
(T (W x4b x00 x00 x00 xff xff xff xff)
(L (W x70 x5f x77 x69 x6c x64 x5f x70))
(L (W x00 x00 x80 xbf x00 x00 x80 xbf)))
(T (W x45 x44 x00 x00 x00 x00 x00 x00)
(L (W x00 x00 x00 x00 x00 x00 x00 x00))
(L (W x45 x26 x22 x84 xe4 x9c xf2 xcb))))
(T (W x00 x00 x00 x00 x00 x00 x00 x00)
(T (W xc4 x00 x00 x00 x01 x00 x00 x00)
(L (W x68 x00 x00 x00 x5c x00 x00 x00))
(L (W x00 x00 x00 x00 x00 x00 x00 x00)))
(T (W xff xff xff xff xff xff xff xff)
(L (W x00 x00 x00 x00 x00 x00 x00 x00))
(L (W x00 x00 x80 xbf x00 x00 x80 xbf)))))
(T (W x54 x00 x00 x00 x48 x00 x00 x00)
(T (W x00 x00 x00 x00 x00 x00 x00 x00)
(T (W x5f x4e x53 x5f x30 x34 x5f x43)
(L (W x45 x26 x22 x84 xe4 x9c xf2 xcb))
(L (W xff xff xff xff xff xff xff xff)))
(T (W xff xff xff xff xff xff xff xff)
(L (W xff xff xff xff xff xff xff xff))
(L (W x00 x00 x00 x00 x12 x00 x00 x00))))
(T (W x00 x00 x00 x00 x00 x00 x00 x00)
(T (W x00 x00 x80 x3f x00 x00 x80 x3f)
(L (W x45 x26 x22 x84 xe4 x9c xf2 xcb))
(L (W x00 x00 x00 x00 x00 x00 x00 x00)))
(T (W x00 x00 x00 x00 x00 x00 x00 x00)
(L (W x45 x26 x22 x84 xe4 x9c xf2 xcb)) E))))))
(T (W x00 x00 x80 x3f x00 x00 x80 x3f)
(T (W x00 x00 x80 x3f x00 x00 x80 x3f)
(T (W x45 x26 x22 x84 xe4 x9c xf2 xcb)
(T (W x45 x26 x22 x84 xe4 x9c xf2 xcb)
(T (W xff xff xff xff xff xff xff xff)
(T (W x68 x00 x00 x00 x5c x00 x00 x00)
(L (W x00 x00 x80 x3f x00 x00 x80 x3f))
(L (W xff xff xff xff xff xff xff xff)))
(T (W x45 x26 x22 x84 xe4 x9c xf2 xcb)
(L (W x00 x00 x00 x00 x25 x00 x00 x00))
(L (W xea xa5 xff xff x78 x00 x00 x00))))
(T (W xff xff xff xff xff xff xff xff)
(T (W xb8 x00 x00 x00 x64 x00 x00 x00)
(L (W x00 x00 x00 x00 x00 x00 x00 x00))
(L (W x45 x26 x22 x84 xe4 x9c xf2 xcb)))
(T (W x00 x00 x80 x3f x00 x00 x80 x3f)
(L (W x00 x00 x80 xbf x00 x00 x80 xbf))
(L (W x00 x00 x80 xbf x00 x00 x80 xbf)))))
(T (W x59 x4b xd1 xf5 x0d x61 xf1 xfa)
(T (W xff xff xff xff xff xff xff xff)
(T (W x00 x00 x00 x00 x00 x00 x00 x00)
(L (W x45 x26 x22 x84 xe4 x9c xf2 xcb))
(L (W x00 x00 x00 x00 x00 x00 x00 x00)))
(T (W xff xff xff xff xff xff xff xff)
(L (W xff xff xff xff xbc x00 x00 x00))
(L (W x27 x00 x00 x00 x2a x00 x00 x00))))
(T (W x68 x00 x00 x00 x5c x00 x00 x00)
(T (W xea x85 xfd xff x78 x00 x00 x00)
(L (W xb0 x00 x00 x00 x64 x00 x00 x00))
(L (W xff xff xff xff xff xff xff xff)))
(T (W x00 x00 x00 x00 x00 x00 x00 x00)
(L (W x03 x00 x00 x00 xd8 x00 x00 x00))
(L (W x20 x00 x00 x00 x24 x00 x28 x00))))))
(T (W x00 x00 x00 x00 x00 x00 x00 x00)
(T (W x00 x00 x00 x00 x00 x00 x00 x00)
(T (W xff xff xff xff xff xff xff xff)
(T (W x00 x00 x80 x3f x00 x00 x80 x3f)
(L (W xb8 x00 x00 x00 xac x00 x00 x00))
(L (W xff xff xff xff xff xff xff xff)))
(T (W x00 x00 x80 x3f x00 x00 x80 x3f)
(L (W xff xff xff xff xff xff xff xff))
(L (W xff xff xff xff xff xff xff xff))))
(T (W xa2 x09 xfd xff x74 x00 x00 x00)
(T (W x30 x34 x5f x43 x4c x45 x41 x52)
(L (W x00 x00 x00 x00 x1a x82 xfe xff))
(L (W x45 x26 x22 x84 xe4 x9c xf2 xcb)))
(T (W x00 x00 x80 x3f x00 x00 x80 x3f)
(L (W xa8 xf1 xfe xff x00 x01 x01 x01))
(L (W xff xff xff xff xff xff xff xff)))))
(T (W xff xff xff xff xff xff xff xff)
(T (W xff xff xff xff xff xff xff xff)
(T (W x00 x00 x00 x00 x20 x53 xfd xff)
(L (W x38 x00 x00 x00 x0c x00 x00 x00))
(L (W x00 x00 x80 xbf x00 x00 x80 xbf)))
(T (W x12 x00 x00 x00 x46 x53 x59 x53)
(L (W x46 x53 x59 x53 x5f x4e x53 x5f))
(L (W x50 x00 x00 x00 x44 x00 x00 x00))))
(T (W x45 x26 x22 x84 xe4 x9c xf2 xcb)
(T (W x9d x01 x00 x00 xff xff xff xff)
(L (W xcc x00 x00 x00 x01 x00 x00 x00))
(L (W xff xff xff xff xa0 x00 x00 x00)))
(T (W x01 x00 x00 x00 x9c x00 x00 x00)
(L (W x03 x00 x00 x00 xd0 x00 x00 x00)) E)))))
(T (W x00 x00 x80 x3f x00 x00 x80 x3f)
(T (W x00 x00 x00 x00 x00 x00 x00 x00)
(T (W x00 x00 x00 x00 x00 x00 x00 x00)
(T (W xdc x01 x00 x00 xff xff xff xff)
(T (W x00 x00 x80 x3f x00 x00 x80 x3f)
(L (W xff xff xff xff xff xff xff xff))
(L (W xff xff xff xff xbc x00 x00 x00)))
(T (W x00 x00 x80 x3f x00 x00 x80 x3f)
(L (W x00 x00 x00 x00 x00 x00 x00 x00))
(L (W x18 x00 x00 x00 x10 x00 x00 x00))))
(T (W x18 x00 x00 x00 x0c x00 x00 x00)
(T (W xff xff xff xff xff xff xff xff)
(L (W x46 x53 x59 x53 x5f x4e x53 x5f))
(L (W xea x6d xff xff x78 x00 x00 x00)))
(T (W x00 x00 x00 x00 x00 x00 x00 x00)
(L (W xea xed xfe xff x78 x00 x00 x00))
(L (W x00 x00 x80 xbf x00 x00 x80 xbf)))))
(T (W x94 x01 x00 x00 xff xff xff xff)
(T (W xff xff xff xff xff xff xff xff)
(T (W x18 x00 x00 x00 x0c x00 x00 x00)
(L (W x45 x26 x22 x84 xe4 x9c xf2 xcb))
(L (W x00 x00 x80 xbf x00 x00 x80 xbf)))
(T (W x80 x03 x00 x00 x54 x02 x00 x00)
(L (W x00 x00 x01 x01 xbb x01 x00 x00))
(L (W xff xff xff xff xff xff xff xff))))
(T (W x00 x00 x80 x3f x00 x00 x80 x3f)
(T (W xb0 x00 x00 x00 x64 x00 x00 x00)
(L (W x00 x00 x00 x00 x00 x00 x00 x00))
(L (W x14 x00 x00 x00 x17 x00 x00 x00)))
(T (W x32 x00 x00 x00 x10 x00 x00 x00)
(L (W x18 x00 x00 x00 x10 x00 x00 x00)) E))))
(T (W x45 x26 x22 x84 xe4 x9c xf2 xcb)
(T (W x00 x00 x00 x00 x00 x00 x00 x00)
(T (W xff xff xff xff xff xff xff xff)
(T (W x00 x00 x80 x3f x00 x00 x80 x3f)
(L (W xb8 x00 x00 x00 xac x00 x00 x00))
(L (W x00 x00 x00 x00 x00 x00 x00 x00)))
(T (W x18 x00 x00 x00 x0c x00 x00 x00)
(L (W x28 x00 x00 x00 x2b x00 x00 x00))
(L (W xff xff xff xff xff xff xff xff))))
(T (W x00 x00 x80 x3f x00 x00 x80 x3f)
(T (W x00 x00 x00 x00 x00 x00 x00 x00)
(L (W x00 x00 x00 x00 x00 x00 x00 x00))
(L (W x18 x00 x00 x00 x0c x00 x00 x00)))
(T (W x00 x00 x00 x00 x00 x00 x00 x00)
(L (W xff xff xff xff x9c x00 x00 x00))
(L (W x9c x01 x00 x00 x68 x00 x00 x00)))))
(T (W xff xff xff xff xff xff xff xff)
(T (W xff xff xff xff x03 x00 x00 x00)
(T (W xff xff xff xff xb0 x00 x00 x00)
(L (W x4f x84 x6f x8b xe8 xcb x63 xb7))
(L (W x54 x00 x00 x00 x48 x00 x00 x00)))
(T (W x45 x26 x22 x84 xe4 x9c xf2 xcb)
(L (W x00 x00 x00 x00 x00 x00 x00 x00))
(L (W x45 x26 x22 x84 xe4 x9c xf2 xcb))))
(T (W x18 x00 x00 x00 x0c x00 x00 x00)
(T (W x00 x00 x00 x00 x00 x00 x00 x00)
(L (W x54 x00 x00 x00 x48 x00 x00 x00))
(L (W x6c x00 x00 x00 x60 x00 x00 x00)))
(T (W x50 x00 x00 x00 x44 x00 x00 x00)
(L (W xff xff xff xff xa0 x00 x00 x00)) E)))))))
(T (W x64 x00 x00 x00 x9c x00 x00 x00)
(T (W x45 x26 x22 x84 xe4 x9c xf2 xcb)
(T (W x00 x00 x00 x00 x00 x00 x00 x00)
(T (W x00 x00 x00 x00 x00 x00 x00 x00)
(T (W xb5 x01 x00 x00 xff xff xff xff)
(T (W x18 x00 x00 x00 x10 x00 x00 x00)
(T (W x00 x00 x00 x00 x00 x00 x00 x00)
(L (W x00 x00 x00 x00 x00 x00 x00 x00))
(L (W x6c x00 x00 x00 x60 x00 x00 x00)))
(T (W x38 x01 x00 x00 x04 x00 x00 x00)
(L (W xff xff xff xff xff xff xff xff))
(L (W x00 x00 x80 xbf x00 x00 x80 xbf))))
(T (W x00 x00 x80 x3f x00 x00 x80 x3f)
(T (W x00 x00 x80 x3f x00 x00 x80 x3f)
(L (W x00 x00 x00 x00 x00 x00 x00 x00))
(L (W x00 x00 x80 xbf x00 x00 x80 xbf)))
(T (W x00 x00 x00 x00 x00 x00 x00 x00)
(L (W x46 x53 x59 x53 x5f x4e x53 x5f))
(L (W x45 x44 x00 x00 x00 x00 x00 x00)))))
(T (W xb8 x00 x00 x00 xac x00 x00 x00)
(T (W x00 x00 x80 x3f x00 x00 x80 x3f)
(T (W x00 x00 x80 x3f x00 x00 x80 x3f)
(L (W x00 x00 x00 x00 x00 x00 x00 x00))
(L (W xff xff xff xff xff xff xff xff)))
(T (W x00 x00 x80 x3f x00 x00 x80 x3f)
(L (W x6c x00 x00 x00 x60 x00 x00 x00))
(L (W x00 x01 x01 x01 x62 xbc xff xff))))
(T (W x00 x00 x80 x3f x00 x00 x80 x3f)
(T (W x12 x00 x00 x00 x46 x53 x59 x53)
(L (W x45 x26 x22 x84 xe4 x9c xf2 xcb))
(L (W xea x83 xff xff x78 x00 x00 x00)))
(T (W xff xff xff xff xff xff xff xff)
(L (W x00 x00 x80 xbf x00 x00 x80 xbf))
(L (W xff xff xff xff xff xff xff xff))))))
(T (W x00 x00 x00 x00 x00 x00 x00 x00)
(T (W xff xff xff xff xff xff xff xff)
(T (W xa2 xc7 xfc xff x74 x00 x00 x00)
(T (W x45 x26 x22 x84 xe4 x9c xf2 xcb)
(L (W x00 x00 x80 x3f x00 x00 x80 x3f))
(L (W x45 x26 x22 x84 xe4 x9c xf2 xcb)))
(T (W x45 x26 x22 x84 xe4 x9c xf2 xcb)
(L (W x6c x00 x00 x00 x60 x00 x00 x00))
(L (W x00 x00 x80 xbf x00 x00 x80 xbf))))
(T (W x00 x00 x80 x3f x00 x00 x80 x3f)
(T (W xff xff xff xff xff xff xff xff)
(L (W xff xff xff xff xff xff xff xff))
(L (W x45 x26 x22 x84 xe4 x9c xf2 xcb)))
(T (W x00 x00 x00 x00 x00 x00 x00 x00)
(L (W x00 x00 x80 xbf x00 x00 x80 xbf))
(L (W x06 x00 x07 x00 x00 x00 x00 x00)))))
(T (W xff xff xff xff xff xff xff xff)
(T (W xa8 xcf xfc xff x00 x01 x01 x01)
(T (W x00 x00 x80 x3f x00 x00 x80 x3f)
(L (W x00 x00 x00 x00 x04 x00 x00 x00))
(L (W x00 x00 x00 x00 x00 x00 x00 x00)))
(T (W xff xff xff xff xff xff xff xff)
(L (W xff xff xff xff xff xff xff xff))
(L (W x01 x00 x00 x00 xff xff xff xff))))
(T (W x00 x00 x80 x3f x00 x00 x80 x3f)
(T (W x45 x26 x22 x84 xe4 x9c xf2 xcb)
(L (W x49 xa1 x68 x4a xeb x5f xdd x3d))
(L (W x00 x00 x80 xbf x00 x00 x80 xbf)))
(T (W x00 x00 x80 x3f x00 x00 x80 x3f)
(L (W x54 x00 x00 x00 x48 x00 x00 x00)) E)))))
(T (W xec x42 xfc xff x3e x00 x00 x00)
(T (W x00 x00 x00 x00 x00 x00 x00 x00)
(T (W x52 x1c xfe xff x00 x00 x01 x01)
(T (W x01 x00 x00 x00 xa0 x00 x00 x00)
(T (W x00 x00 x00 x00 x00 x00 x00 x00)
(L (W x50 x00 x00 x00 x44 x00 x00 x00))
(L (W x00 x00 x80 xbf x00 x00 x80 xbf)))
(T (W x30 x34 x5f x43 x4c x45 x41 x52)
(L (W xff xff xff xff xff xff xff xff))
(L (W x00 x00 x80 xbf x00 x00 x80 xbf))))
(T (W x45 x26 x22 x84 xe4 x9c xf2 xcb)
(T (W x18 x00 x00 x00 x0c x00 x00 x00)
(L (W xff xff xff xff xff xff xff xff))
(L (W x00 x00 x00 x00 x12 x00 x00 x00)))
(T (W x44 xee xfd xff x22 x00 x00 x00)
(L (W x00 x00 x00 x00 x00 x00 x00 x00))
(L (W xff xff xff xff xff xff xff xff)))))
(T (W xff xff xff xff xff xff xff xff)
(T (W xa2 xdf xfc xff x74 x00 x00 x00)
(T (W x00 x00 x00 x00 x00 x00 x00 x00)
(L (W x00 x00 x00 x00 x00 x00 x00 x00))
(L (W x30 x34 x5f x43 x4c x45 x41 x52)))
(T (W xc0 x00 x00 x00 x01 x00 x00 x00)
(L (W xff xff xff xff xb0 x00 x00 x00))
(L (W x14 x00 x00 x00 x0c x00 x00 x00))))
(T (W x18 x00 x00 x00 x10 x00 x00 x00)
(T (W x00 x00 x80 x3f x00 x00 x80 x3f)
(L (W xff xff xff xff xff xff xff xff))
(L (W x00 x00 x80 xbf x00 x00 x80 xbf)))
(T (W xff xff xff xff xff xff xff xff)
(L (W x00 x00 x80 xbf x00 x00 x80 xbf)) E))))
(T (W x08 x23 x09 xad x8f x7d xd8 x1d)
(T (W xff xff xff xff xff xff xff xff)
(T (W x00 x00 x80 x3f x00 x00 x80 x3f)
(T (W x45 x26 x22 x84 xe4 x9c xf2 xcb)
(L (W x00 x00 x80 x3f x00 x00 x80 x3f))
(L (W xff xff xff xff xff xff xff xff)))
(T (W x00 x00 x80 x3f x00 x00 x80 x3f)
(L (W x00 x00 x80 x3f x00 x00 x80 x3f))
(L (W x00 x00 x00 x00 x20 xb9 xff xff))))
(T (W x00 x00 x80 x3f x00 x00 x80 x3f)
(T (W x04 x00 x00 x00 x82 x78 xfd xff)
(L (W xff xff xff xff xff xff xff xff))
(L (W x00 x00 x80 xbf x00 x00 x80 xbf)))
(T (W x35 x00 x00 x00 x10 x00 x00 x00)
(L (W x00 x00 x80 xbf x00 x00 x80 xbf))
(L (W xea xfb xff xff x78 x00 x00 x00)))))
(T (W xff xff xff xff xff xff xff xff)
(T (W x00 x00 x80 x3f x00 x00 x80 x3f)
(T (W x00 x00 x80 x3f x00 x00 x80 x3f)
(L (W xff xff xff xff x02 x00 x00 x00))
(L (W x00 x00 x00 x00 x12 x00 x00 x00)))
(T (W xe2 x0d xd7 xa2 x44 x69 xd7 x25)
(L (W xff xff xff xff xff xff xff xff))
(L (W x2b x00 x00 x00 x2e x00 x00 x00))))
(T (W x45 x26 x22 x84 xe4 x9c xf2 xcb)
(T (W xff xff xff xff xff xff xff xff)
(L (W x70 x5f x6c x65 x61 x64 x65 x72))
(L (W xff xff xff xff xff xff xff xff)))
(T (W x45 x26 x22 x84 xe4 x9c xf2 xcb)
(L (W x00 x00 x80 xbf x00 x00 x80 xbf)) E))))))
(T (W x45 x26 x22 x84 xe4 x9c xf2 xcb)
(T (W x68 x00 x00 x00 x5c x00 x00 x00)
(T (W x18 x00 x00 x00 x0c x00 x00 x00)
(T (W x00 x00 x80 x3f x00 x00 x80 x3f)
(T (W x00 x00 x00 x00 x00 x00 x00 x00)
(T (W xff xff xff xff xff xff xff xff)
(L (W xb6 x01 x00 x00 xff xff xff xff))
(L (W xff xff xff xff xff xff xff xff)))
(T (W x50 x00 x00 x00 x44 x00 x00 x00)
(L (W xc4 x00 x00 x00 x01 x00 x00 x00))
(L (W xff xff xff xff xff xff xff xff))))
(T (W x48 x03 x00 x00 x34 x02 x00 x00)
(T (W x00 x00 x00 x00 x00 x00 x00 x00)
(L (W x00 x00 x80 xbf x00 x00 x80 xbf))
(L (W xff xff xff xff xb0 x00 x00 x00)))
(T (W x01 x00 x00 x00 x9c x00 x00 x00)
(L (W xa8 xe3 xfe xff x00 x01 x01 x01))
(L (W x00 x00 x60 x00 x00 x00 x07 x00)))))
(T (W x00 x00 x80 x3f x00 x00 x80 x3f)
(T (W x44 x29 xcb xde x77 x34 xbe x79)
(T (W x45 x26 x22 x84 xe4 x9c xf2 xcb)
(L (W x68 x00 x00 x00 x5c x00 x00 x00))
(L (W x54 x00 x00 x00 x48 x00 x00 x00)))
(T (W x4c x45 x41 x52 x45 x44 x00 x00)
(L (W x30 x34 x5f x43 x4c x45 x41 x52))
(L (W xff xff xff xff xff xff xff xff))))
(T (W xff xff xff xff xff xff xff xff)
(T (W xff xff xff xff xff xff xff xff)
(L (W x2e x00 x00 x00 x10 x00 x00 x00))
(L (W x00 x00 x00 x00 x12 x00 x00 x00)))
(T (W x00 x00 x80 x3f x00 x00 x80 x3f)
(L (W x00 x00 x01 x01 x5c x00 x00 x00))
(L (W x00 x00 x80 xbf x00 x00 x80 xbf))))))
(T (W x00 x00 x80 x3f x00 x00 x80 x3f)
(T (W x00 x00 x80 x3f x00 x00 x80 x3f)
(T (W x00 x00 x00 x00 x00 x00 x00 x00)
(T (W xb8 x00 x00 x00 xac x00 x00 x00)
(L (W xff xff xff xff xff xff xff xff))
(L (W x00 x00 x00 x00 x00 x00 x00 x00)))
(T (W xff xff xff xff xff xff xff xff)
(L (W x00 x00 x00 x00 xf2 xb2 xfe xff))
(L (W x00 x00 x00 x00 x00 x00 x00 x00))))
(T (W xff xff xff xff xff xff xff xff)
(T (W x00 x00 x80 x3f x00 x00 x80 x3f)
(L (W x00 x00 x00 x00 x00 x00 x00 x00))
(L (W xff xff xff xff xff xff xff xff)))
(T (W x18 x00 x00 x00 x0c x00 x00 x00)
(L (W xff xff xff xff xff xff xff xff))
(L (W xb4 x01 x00 x00 xff xff xff xff)))))
(T (W x00 x00 x00 x00 x00 x00 x00 x00)
(T (W x00 x00 x00 x00 x00 x00 x00 x00)
(T (W xff xff xff xff xff xff xff xff)
(L (W x45 x26 x22 x84 xe4 x9c xf2 xcb))
(L (W xa2 x6b xff xff x74 x00 x00 x00)))
(T (W x00 x00 x80 x3f x00 x00 x80 x3f)
(L (W x6c x00 x00 x00 x60 x00 x00 x00))
(L (W xff xff xff xff xff xff xff xff))))
(T (W xff xff xff xff xff xff xff xff)
(T (W x00 x00 x00 x00 x00 x00 x00 x00)
(L (W x00 x00 x00 x00 x00 x00 x00 x00))
(L (W xff xff xff xff xff xff xff xff)))
(T (W xff xff xff xff xff xff xff xff)
(L (W x08 x00 x00 x00 xe8 x07 x00 x00)) E)))))
(T (W x45 x26 x22 x84 xe4 x9c xf2 xcb)
(T (W x68 x00 x00 x00 x5c x00 x00 x00)
(T (W x00 x00 x80 x3f x00 x00 x80 x3f)
(T (W x00 x00 x00 x00 x00 x00 x00 x00)
(T (W xff xff xff xff xff xff xff xff)
(L (W xe2 xde xff xff x7d x00 x00 x00))
(L (W x00 x00 x00 x00 x00 x00 x00 x00)))
(T (W xff xff xff xff xb0 x00 x00 x00)
(L (W xff xff xff xff xff xff xff xff))
(L (W x53 x01 x00 x00 xff xff xff xff))))
(T (W xff xff xff xff xff xff xff xff)
(T (W x00 x00 x00 x00 x00 x00 x00 x00)
(L (W x00 x00 x00 x00 x00 x00 x00 x00))
(L (W xff xff xff xff xff xff xff xff)))
(T (W x00 x00 x80 x3f x00 x00 x80 x3f)
(L (W xff xff xff xff xff xff xff xff))
(L (W x3c x00 x00 x00 x00 x00 x80 xbf)))))
(T (W x00 x00 x00 x00 x00 x00 x00 x00)
(T (W xe2 x7e xfe xff xcf x00 x00 x00)
(T (W xff xff xff xff xff xff xff xff)
(L (W x00 x00 x00 x00 x00 x00 x5c x00))
(L (W xea x4f xff xff x78 x00 x00 x00)))
(T (W x00 x00 x80 x3f x00 x00 x80 x3f)
(L (W x00 x00 x00 x00 x00 x00 x00 x00))
(L (W xff xff xff xff xff xff xff xff))))
(T (W xff xff xff xff xff xff xff xff)
(T (W x00 x00 x00 x00 x00 x00 x00 x00)
(L (W xff xff xff xff xa0 x00 x00 x00))
(L (W x08 x00 x00 x00 xe8 x07 x00 x00)))
(T (W x00 x00 x00 x00 x00 x00 x00 x00)
(L (W x45 x44 x00 x00 x00 x00 x00 x00)) E))))
(T (W x00 x00 x80 x3f x00 x00 x80 x3f)
(T (W x45 x26 x22 x84 xe4 x9c xf2 xcb)
(T (W x44 xc2 xfc xff x3c x00 x00 x00)
(T (W x45 x26 x22 x84 xe4 x9c xf2 xcb)
(L (W x00 x00 x80 x3f x00 x00 x80 x3f))
(L (W x00 x00 x80 xbf x00 x00 x80 xbf)))
(T (W xc2 xe4 xfd xff x00 x00 x01 x01)
(L (W xff xff xff xff xff xff xff xff))
(L (W x00 x00 x00 x00 x00 x00 x00 x00))))
(T (W xff xff xff xff xff xff xff xff)
(T (W x68 x00 x00 x00 x5c x00 x00 x00)
(L (W x45 x26 x22 x84 xe4 x9c xf2 xcb))
(L (W xff xff xff xff xff xff xff xff)))
(T (W x00 x00 x80 x3f x00 x00 x80 x3f)
(L (W x00 x00 x00 x00 x00 x00 x00 x00))
(L (W x40 x00 x00 x00 x0c x00 x00 x00)))))
(T (W x00 x00 x00 x00 x00 x00 x00 x00)
(T (W x00 x00 x00 x00 x00 x00 x00 x00)
(T (W x04 x00 x00 x00 x82 x5c xfd xff)
(L (W x00 x00 x80 x3f x00 x00 x80 x3f))
(L (W x03 x00 x00 x00 xd8 x00 x00 x00)))
(T (W x23 x00 x00 x00 x26 x00 x00 x00)
(L (W x00 x00 x80 xbf x00 x00 x80 xbf))
(L (W x68 x00 x00 x00 x5c x00 x00 x00))))
(T (W xff xff xff xff xff xff xff xff)
(T (W x00 x00 x80 x3f x00 x00 x80 x3f)
(L (W xff xff xff xff xff xff xff xff))
(L (W xff xff xff xff xff xff xff xff)))
(T (W xff xff xff xff xff xff xff xff)
(L (W xff xff xff xff xff xff xff xff)) E))))))))
(T (W xc8 xb9 x00 x00 x7c xb7 x00 x00)
(T (W x50 x00 x00 x00 x44 x00 x00 x00)
(T (W xec x31 xfc xff x21 x00 x00 x00)
(T (W x00 x00 x00 x00 x00 x00 x00 x00)
(T (W x52 xf3 xfd xff x00 x00 x01 x01)
(T (W xff xff xff xff xff xff xff xff)
(T (W xa8 x9e xfc xff x00 x01 x01 x01)
(T (W x00 x00 x00 x00 x00 x00 x00 x00)
(L (W x00 x00 x00 x00 x00 x00 x00 x00))
(L (W x00 x00 x80 xbf x00 x00 x80 xbf)))
(T (W xff xff xff xff xff xff xff xff)
(L (W xc4 x00 x00 x00 x01 x00 x00 x00))
(L (W x00 x00 x80 xbf x00 x00 x80 xbf))))
(T (W x00 x00 x00 x00 x00 x00 x00 x00)
(T (W x00 x00 x80 x3f x00 x00 x80 x3f)
(L (W x00 x00 x00 x00 x9a x5a xfe xff))
(L (W x49 xa1 x68 x4a xeb x5f xdd x3d)))
(T (W x31 x00 x00 x00 x0c x00 x00 x00)
(L (W x00 x00 x00 x00 x82 xdf xfe xff))
(L (W xff xff xff xff xff xff xff xff)))))
(T (W x01 x00 x00 x00 x9c x00 x00 x00)
(T (W x00 x00 x80 x3f x00 x00 x80 x3f)
(T (W x00 x00 x00 x00 x00 x00 x00 x00)
(L (W x00 x00 x00 x00 x00 x00 x00 x00))
(L (W xb0 x00 x00 x00 x64 x00 x00 x00)))
(T (W x00 x00 x80 x3f x00 x00 x80 x3f)
(L (W x00 x00 x80 xbf x00 x00 x80 xbf))
(L (W x54 x00 x00 x00 x48 x00 x00 x00))))
(T (W x00 x00 x00 x00 x00 x00 x00 x00)
(T (W x02 x00 x00 x00 x2c x01 x00 x00)
(L (W x00 x00 x00 x00 x00 x00 x00 x00))
(L (W x00 x00 x80 xbf x00 x00 x80 xbf)))
(T (W xff xff xff xff xff xff xff xff)
(L (W x00 x00 x00 x00 x00 x00 x00 x00))
(L (W x44 x00 x00 x00 x00 x00 x80 xbf))))))
(T (W x20 x01 x00 x00 x04 x00 x00 x00)
(T (W xb8 x00 x00 x00 xac x00 x00 x00)
(T (W x00 x00 x80 x3f x00 x00 x80 x3f)
(T (W x00 x00 x00 x00 x00 x00 x00 x00)
(L (W x45 x26 x22 x84 xe4 x9c xf2 xcb))
(L (W x6c x00 x00 x00 x60 x00 x00 x00)))
(T (W x00 x00 x00 x00 x12 x00 x00 x00)
(L (W x00 x00 x80 x3f x00 x00 x80 x3f))
(L (W x00 x00 x80 xbf x00 x00 x80 xbf))))
(T (W x45 x26 x22 x84 xe4 x9c xf2 xcb)
(T (W xff xff xff xff xb0 x00 x00 x00)
(L (W xff xff xff xff xff xff xff xff))
(L (W x00 x00 x00 x00 x00 x00 x00 x00)))
(T (W x2f x00 x00 x00 x10 x00 x00 x00)
(L (W x45 x26 x22 x84 xe4 x9c xf2 xcb))
(L (W xff xff xff xff xff xff xff xff)))))
(T (W xc0 x00 x00 x00 xb4 x00 x00 x00)
(T (W x00 x00 x80 x3f x00 x00 x80 x3f)
(T (W x4f x84 x6f x8b xe8 xcb x63 xb7)
(L (W x7f x00 x00 x00 x7f x00 x00 x00))
(L (W x00 x00 x00 x00 x00 x00 x00 x00)))
(T (W xff xff xff xff xff xff xff xff)
(L (W xc4 x00 x00 x00 x01 x00 x00 x00))
(L (W x00 x00 x80 xbf x00 x00 x80 xbf))))
(T (W x00 x00 x00 x00 x00 x00 x00 x00)
(T (W x00 x00 x80 x3f x00 x00 x80 x3f)
(L (W x6c x64 x5f x70 x6f x6b x65 x5f))
(L (W x00 x00 x80 xbf x00 x00 x80 xbf)))
(T (W x00 x00 x00 x00 x00 x00 x00 x00)
(L (W x00 x00 x80 xbf x00 x00 x80 xbf)) E)))))
(T (W xff xff xff xff xff xff xff xff)
(T (W x00 x00 x00 x00 x00 x00 x00 x00)
(T (W xff xff xff xff xff xff xff xff)
(T (W x00 x00 x80 x3f x00 x00 x80 x3f)
(T (W x00 x00 x00 x00 x00 x00 x00 x00)
(L (W x00 x00 x80 x3f x00 x00 x80 x3f))
(L (W x49 xa1 x68 x4a xeb x5f xdd x3d)))
(T (W x00 x00 x01 x01 xa4 x01 x00 x00)
(L (W x00 x00 x80 x3f x00 x00 x80 x3f))
(L (W x49 xa1 x68 x4a xeb x5f xdd x3d))))
(T (W x45 x26 x22 x84 xe4 x9c xf2 xcb)
(T (W x00 x00 x80 x3f x00 x00 x80 x3f)
(L (W xc4 x00 x00 x00 x01 x00 x00 x00))
(L (W x00 x00 x00 x00 xfa x6c xff xff)))
(T (W xff xff xff xff xff xff xff xff)
(L (W x00 x00 x00 x00 x00 x00 x00 x00))
(L (W xff xff xff xff xff xff xff xff)))))
(T (W x0a x00 x00 x00 x3e x00 x00 x00)
(T (W x54 x00 x00 x00 x48 x00 x00 x00)
(T (W x39 xe1 x93 xd5 xa5 xca xe7 x0f)
(L (W x29 x00 x00 x00 xff xff xff xff))
(L (W xff xff xff xff xff xff xff xff)))
(T (W x45 x26 x22 x84 xe4 x9c xf2 xcb)
(L (W x00 x00 x80 xbf x00 x00 x80 xbf))
(L (W x6c x00 x00 x00 x60 x00 x00 x00))))
(T (W x00 x00 x00 x00 x00 x00 x00 x00)
(T (W x4f x84 x6f x8b xe8 xcb x63 xb7)
(L (W x94 xfd xff xff x01 x01 x01 x01))
(L (W x00 x00 x80 xbf x00 x00 x80 xbf)))
(T (W x64 x00 x00 x00 x9c x00 x00 x00)
(L (W x49 xa1 x68 x4a xeb x5f xdd x3d)) E))))
(T (W xff xff xff xff xff xff xff xff)
(T (W x45 x26 x22 x84 xe4 x9c xf2 xcb)
(T (W x45 x26 x22 x84 xe4 x9c xf2 xcb)
(T (W x00 x00 x00 x00 x00 x00 x00 x00)
(L (W x00 x00 x80 x3f x00 x00 x80 x3f))
(L (W xff xff xff xff xb0 x00 x00 x00)))
(T (W x00 x00 x00 x00 x00 x00 x00 x00)
(L (W x00 x00 x80 x3f x00 x00 x80 x3f))
(L (W x00 x00 x80 xbf x00 x00 x80 xbf))))
(T (W x00 x00 x80 x3f x00 x00 x80 x3f)
(T (W xff xff xff xff xff xff xff xff)
(L (W x03 x00 x00 x00 xbc x00 x00 x00))
(L (W x00 x00 x00 x00 x00 x00 x00 x00)))
(T (W xff xff xff xff xff xff xff xff)
(L (W x00 x00 x80 xbf x00 x00 x80 xbf))
(L (W x00 x00 x80 xbf x00 x00 x80 xbf)))))
(T (W xa2 xae xfc xff x74 x00 x00 x00)
(T (W x45 x26 x22 x84 xe4 x9c xf2 xcb)
(T (W x00 x00 x00 x00 x00 x00 x00 x00)
(L (W xff xff xff xff xff xff xff xff))
(L (W x00 x00 x00 x00 x00 x00 x00 x00)))
(T (W xff xff xff xff xff xff xff xff)
(L (W xff xff xff xff xff xff xff xff))
(L (W x00 x00 x00 x00 x00 x00 x00 x00))))
(T (W x00 x00 x00 x00 x00 x00 x00 x00)
(T (W xc8 x00 x00 x00 x01 x00 x00 x00)
(L (W xcc x00 x00 x00 x01 x00 x00 x00))
(L (W x00 x00 x80 xbf x00 x00 x80 xbf)))
(T (W x00 x00 x00 x00 x00 x00 x00 x00)
(L (W x00 x00 x80 xbf x00 x00 x80 xbf)) E))))))
(T (W x00 x00 x80 x3f x00 x00 x80 x3f)
(T (W x50 x00 x00 x00 x44 x00 x00 x00)
(T (W x00 x00 x80 x3f x00 x00 x80 x3f)
(T (W x00 x00 x80 x3f x00 x00 x80 x3f)
(T (W x00 x00 x00 x00 x00 x00 x00 x00)
(T (W xff xff xff xff x04 x00 x00 x00)
(L (W x50 x00 x00 x00 x44 x00 x00 x00))
(L (W xff xff xff xff xff xff xff xff)))
(T (W x00 x00 x80 x3f x00 x00 x80 x3f)
(L (W x00 x00 x80 x3f x00 x00 x80 x3f))
(L (W x2b x00 x00 x00 x2e x00 x00 x00))))
(T (W xff xff xff xff xff xff xff xff)
(T (W xff xff xff xff xff xff xff xff)
(L (W x49 xa1 x68 x4a xeb x5f xdd x3d))
(L (W x1c x00 x00 x00 x10 x00 x00 x00)))
(T (W x00 x00 x80 x3f x00 x00 x80 x3f)
(L (W x00 x00 x80 xbf x00 x00 x80 xbf))
(L (W x00 x00 x80 xbf x00 x00 x80 xbf)))))
(T (W x00 x00 x00 x00 x00 x00 x00 x00)
(T (W xff xff xff xff xff xff xff xff)
(T (W xa2 x5a xfd xff x74 x00 x00 x00)
(L (W x50 x00 x00 x00 x44 x00 x00 x00))
(L (W x00 x00 x80 xbf x00 x00 x80 xbf)))
(T (W x9c x01 x00 x00 xff xff xff xff)
(L (W xff xff xff xff xff xff xff xff))
(L (W xff xff xff xff xff xff xff xff))))
(T (W xa2 x1a xfd xff x74 x00 x00 x00)
(T (W xff xff xff xff x9c x00 x00 x00)
(L (W xff xff xff xff xff xff xff xff))
(L (W x3c x02 x00 x00 x30 x01 x00 x00)))
(T (W x00 x00 x00 x00 x00 x00 x00 x00)
(L (W xff xff xff xff xff xff xff xff))
(L (W x00 x00 x68 x00 x00 x00 x00 x00))))))
(T (W x45 x26 x22 x84 xe4 x9c xf2 xcb)
(T (W x00 x00 x00 x00 x00 x00 x00 x00)
(T (W x48 x03 x00 x00 x34 x02 x00 x00)
(T (W x68 x00 x00 x00 x5c x00 x00 x00)
(L (W xff xff xff xff xff xff xff xff))
(L (W x30 x34 x5f x43 x4c x45 x41 x52)))
(T (W xcc x00 x00 x00 x01 x00 x00 x00)
(L (W xff xff xff xff xff xff xff xff))
(L (W x70 x00 x00 x00 xff xff xff xff))))
(T (W xff xff xff xff x04 x00 x00 x00)
(T (W x00 x00 x00 x00 x00 x00 x00 x00)
(L (W x30 x34 x5f x43 x4c x45 x41 x52))
(L (W x1c x00 x00 x00 x10 x00 x00 x00)))
(T (W x00 x00 x80 x3f x00 x00 x80 x3f)
(L (W xb8 x00 x00 x00 x64 x00 x00 x00))
(L (W xff xff xff xff xff xff xff xff)))))
(T (W xf3 x75 x70 xbe x01 x2a x1d x96)
(T (W xff xff xff xff xff xff xff xff)
(T (W xff xff xff xff xff xff xff xff)
(L (W x00 x00 x00 x00 x00 x00 x00 x00))
(L (W x00 x00 x80 xbf x00 x00 x80 xbf)))
(T (W x00 x00 x00 x00 x00 x00 x00 x00)
(L (W x00 x00 x00 x00 x00 x00 x00 x00))
(L (W xff xff xff xff xff xff xff xff))))
(T (W xff xff xff xff xff xff xff xff)
(T (W x5f x4e x53 x5f x30 x34 x5f x43)
(L (W x70 x5f x6c x65 x61 x64 x65 x72))
(L (W xff xff xff xff xff xff xff xff)))
(T (W xb8 x00 x00 x00 xac x00 x00 x00)
(L (W xff xff xff xff xff xff xff xff)) E)))))
(T (W xea x3e xfc xff x78 x00 x00 x00)
(T (W x00 x00 x80 x3f x00 x00 x80 x3f)
(T (W x00 x00 x80 x3f x00 x00 x80 x3f)
(T (W x00 x00 x00 x00 x00 x00 x00 x00)
(T (W x45 x26 x22 x84 xe4 x9c xf2 xcb)
(L (W xff xff xff xff xff xff xff xff))
(L (W xff xff xff xff xff xff xff xff)))
(T (W x00 x00 x00 x00 x20 xac xfd xff)
(L (W x00 x00 x00 x00 x20 xac xfe xff))
(L (W xff xff xff xff xff xff xff xff))))
(T (W xff xff xff xff xff xff xff xff)
(T (W x45 x44 x00 x00 x00 x00 x00 x00)
(L (W x00 x00 x00 x00 x00 x00 x00 x00))
(L (W x0b x00 x00 x00 x0e x00 x00 x00)))
(T (W x00 x00 x80 x3f x00 x00 x80 x3f)
(L (W x18 x00 x00 x00 x0c x00 x00 x00))
(L (W x00 x00 x80 xbf x00 x00 x80 xbf)))))
(T (W x00 x00 x00 x00 x00 x00 x00 x00)
(T (W xff xff xff xff xff xff xff xff)
(T (W xff xff xff xff xff xff xff xff)
(L (W x45 x26 x22 x84 xe4 x9c xf2 xcb))
(L (W x00 x00 x80 xbf x00 x00 x80 xbf)))
(T (W x00 x00 x00 x00 x00 x00 x00 x00)
(L (W x30 x34 x5f x43 x4c x45 x41 x52))
(L (W xff xff xff xff xff xff xff xff))))
(T (W xff xff xff xff xff xff xff xff)
(T (W xff xff xff xff xff xff xff xff)
(L (W x68 x00 x00 x00 x5c x00 x00 x00))
(L (W xff xff xff xff xff xff xff xff)))
(T (W x00 x00 x00 x00 x00 x00 x00 x00)
(L (W xff xff xff xff xff xff xff xff)) E))))
(T (W x00 x00 x80 x3f x00 x00 x80 x3f)
(T (W x00 x00 x00 x00 x00 x00 x00 x00)
(T (W xff xff xff xff xff xff xff xff)
(T (W x00 x00 x80 x3f x00 x00 x80 x3f)
(L (W x06 x00 x07 x00 x00 x00 x00 x00))
(L (W x00 x00 x00 x00 x00 x00 x00 x00)))
(T (W xff xff xff xff xff xff xff xff)
(L (W xff xff xff xff xff xff xff xff))
(L (W xff xff xff xff xff xff xff xff))))
(T (W x18 x00 x00 x00 x0c x00 x00 x00)
(T (W x00 x00 x80 x3f x00 x00 x80 x3f)
(L (W x00 x00 x80 xbf x00 x00 x80 xbf))
(L (W xff xff xff xff xff xff xff xff)))
(T (W x00 x00 x80 x3f x00 x00 x80 x3f)
(L (W xff xff xff xff xff xff xff xff))
(L (W x54 x00 x00 x00 x48 x00 x00 x00)))))
(T (W xe2 x4d xfe xff x64 x01 x00 x00)
(T (W xd5 x01 x00 x00 xff xff xff xff)
(T (W xff xff xff xff xff xff xff xff)
(L (W x00 x00 x80 xbf x00 x00 x80 xbf))
(L (W x18 x00 x00 x00 x10 x00 x00 x00)))
(T (W xa2 xf2 xfd xff x74 x00 x00 x00)
(L (W x00 x00 x80 xbf x00 x00 x80 xbf))
(L (W x00 x00 x80 xbf x00 x00 x80 xbf))))
(T (W xb8 x00 x00 x00 xac x00 x00 x00)
(T (W x00 x00 x00 x00 x00 x00 x00 x00)
(L (W x45 x26 x22 x84 xe4 x9c xf2 xcb))
(L (W xff xff xff xff xff xff xff xff)))
(T (W xb8 x00 x00 x00 xac x00 x00 x00)
(L (W xff xff xff xff xff xff xff xff)) E)))))))
(T (W xff xff xff xff xff xff xff xff)
(T (W x00 x00 x80 x3f x00 x00 x80 x3f)
(T (W x00 x00 x80 x3f x00 x00 x80 x3f)
(T (W x00 x00 x00 x00 x00 x00 x00 x00)
(T (W x00 x00 x00 x00 x00 x00 x00 x00)
(T (W xff xff xff xff xff xff xff xff)
(T (W x00 x00 x80 x3f x00 x00 x80 x3f)
(L (W x45 x26 x22 x84 xe4 x9c xf2 xcb))
(L (W xff xff xff xff xa0 x00 x00 x00)))
(T (W x00 x00 x00 x00 x00 x00 x00 x00)
(L (W xff xff xff xff xff xff xff xff))
(L (W x3c x00 x00 x00 x00 x00 x80 xbf))))
(T (W xa2 xf8 xfc xff x74 x00 x00 x00)
(T (W xa8 x60 xfd xff x00 x01 x01 x01)
(L (W x00 x00 x00 x00 x00 x00 x00 x00))
(L (W x54 x00 x00 x00 x48 x00 x00 x00)))
(T (W x00 x00 x00 x00 x00 x00 x00 x00)
(L (W x00 x00 x00 x00 x00 x00 x00 x00))
(L (W x00 x00 x00 x00 x00 x00 x00 x00)))))
(T (W xff xff xff xff xff xff xff xff)
(T (W x18 x00 x00 x00 x0c x00 x00 x00)
(T (W x00 x00 x00 x00 x00 x00 x64 x00)
(L (W x45 x26 x22 x84 xe4 x9c xf2 xcb))
(L (W x00 x00 x00 x00 x00 x00 x00 x00)))
(T (W x03 x00 x00 x00 xd4 x00 x00 x00)
(L (W x45 x26 x22 x84 xe4 x9c xf2 xcb))
(L (W x14 x00 x00 x00 x0c x00 x00 x00))))
(T (W x00 x00 x80 x3f x00 x00 x80 x3f)
(T (W x00 x00 x00 x00 x00 x00 x00 x00)
(L (W x50 x00 x00 x00 x44 x00 x00 x00))
(L (W x18 x00 x00 x00 x0c x00 x00 x00)))
(T (W x0e x00 x00 x00 x10 x00 x00 x00)
(L (W x00 x00 x80 xbf x00 x00 x80 xbf))
(L (W x00 x00 x00 x00 x00 x00 x00 x00))))))
(T (W x00 x00 x00 x00 x00 x00 x00 x00)
(T (W x31 x51 x4a x9f xb0 xb6 xe3 x5a)
(T (W xff xff xff xff xff xff xff xff)
(T (W x00 x00 x80 x3f x00 x00 x80 x3f)
(L (W x50 x00 x00 x00 x44 x00 x00 x00))
(L (W xff xff xff xff xbc x00 x00 x00)))
(T (W x00 x00 x80 x3f x00 x00 x80 x3f)
(L (W x18 x00 x00 x00 x0c x00 x00 x00))
(L (W x00 x00 x00 x00 x20 xb2 xff xff))))
(T (W x00 x00 x80 x3f x00 x00 x80 x3f)
(T (W x00 x00 x01 x01 x4b x00 x00 x00)
(L (W x2a x00 x00 x00 xff xff xff xff))
(L (W x6c x00 x00 x00 x60 x00 x00 x00)))
(T (W x00 x00 x00 x00 x00 x00 x00 x00)
(L (W x00 x00 x80 xbf x00 x00 x80 xbf))
(L (W x00 x00 x80 xbf x00 x00 x80 xbf)))))
(T (W xff xff xff xff xff xff xff xff)
(T (W x18 x00 x00 x00 x10 x00 x00 x00)
(T (W x00 x00 x80 x3f x00 x00 x80 x3f)
(L (W xff xff xff xff xff xff xff xff))
(L (W x00 x00 x00 x00 x00 x00 x00 x00)))
(T (W x00 x00 x00 x00 x00 x00 x00 x00)
(L (W x04 x00 x00 x00 x82 xd1 xfe xff))
(L (W x00 x00 x00 x00 x00 x00 x00 x00))))
(T (W xea x14 xfd xff x78 x00 x00 x00)
(T (W xff xff xff xff xbc x00 x00 x00)
(L (W x00 x00 x80 x3f x00 x00 x80 x3f))
(L (W x6c x00 x00 x00 x60 x00 x00 x00)))
(T (W x00 x00 x80 x3f x00 x00 x80 x3f)
(L (W x18 x00 x00 x00 x10 x00 x00 x00)) E)))))
(T (W x00 x00 x00 x00 x00 x00 x00 x00)
(T (W x00 x00 x00 x00 x00 x00 x00 x00)
(T (W x00 x00 x00 x00 x00 x00 x00 x00)
(T (W xff xff xff xff x03 x00 x00 x00)
(T (W x45 x26 x22 x84 xe4 x9c xf2 xcb)
(L (W xb8 x00 x00 x00 xac x00 x00 x00))
(L (W x45 x26 x22 x84 xe4 x9c xf2 xcb)))
(T (W x00 x00 x00 x00 x00 x00 x00 x00)
(L (W x64 x5f x70 x6f x6b x65 x5f x77))
(L (W x6c x00 x00 x00 x60 x00 x00 x00))))
(T (W x00 x00 x80 x3f x00 x00 x80 x3f)
(T (W xff xff xff xff xff xff xff xff)
(L (W x2c x02 x00 x00 x28 x01 x00 x00))
(L (W x45 x26 x22 x84 xe4 x9c xf2 xcb)))
(T (W x00 x00 x00 x00 x00 x00 x00 x00)
(L (W x00 x00 x80 xbf x00 x00 x80 xbf))
(L (W x00 x00 x00 x00 x00 x00 x00 x00)))))
(T (W xff xff xff xff xff xff xff xff)
(T (W xff xff xff xff xff xff xff xff)
(T (W x00 x00 x80 x3f x00 x00 x80 x3f)
(L (W x00 x00 x00 x00 x00 x00 x00 x00))
(L (W x00 x00 x00 x00 x00 x00 x00 x00)))
(T (W xff xff xff xff xff xff xff xff)
(L (W xff xff xff xff xff xff xff xff))
(L (W xff xff xff xff xa8 x00 x00 x00))))
(T (W x20 x00 x24 x00 x28 x00 x2c x00)
(T (W xa8 x88 xfd xff x00 x01 x01 x01)
(L (W xff xff xff xff xff xff xff xff))
(L (W x00 x00 x00 x00 x20 x8a xff xff)))
(T (W xff xff xff xff xff xff xff xff)
(L (W x6c x00 x00 x00 x60 x00 x00 x00)) E))))
(T (W x00 x00 x00 x00 x00 x00 x00 x00)
(T (W xb7 x01 x00 x00 xff xff xff xff)
(T (W x64 x00 x00 x00 x9c x00 x00 x00)
(T (W x00 x00 x80 x3f x00 x00 x80 x3f)
(L (W x01 x00 x00 x00 x9c x00 x00 x00))
(L (W xff xff xff xff xff xff xff xff)))
(T (W xea xbc xfd xff x78 x00 x00 x00)
(L (W x00 x00 x00 x00 x20 xba xfe xff))
(L (W xff xff xff xff xff xff xff xff))))
(T (W x00 x00 x80 x3f x00 x00 x80 x3f)
(T (W x46 x53 x59 x53 x5f x4e x53 x5f)
(L (W x44 x7f xfe xff x28 x00 x00 x00))
(L (W x00 x00 x80 xbf x00 x00 x80 xbf)))
(T (W x00 x00 x00 x00 x00 x00 x00 x00)
(L (W xea xfc xfe xff x78 x00 x00 x00))
(L (W xff xff xff xff xa0 x00 x00 x00)))))
(T (W xff xff xff xff xff xff xff xff)
(T (W x01 x00 x00 x00 xa0 x00 x00 x00)
(T (W xea x5c xfd xff x78 x00 x00 x00)
(L (W x00 x00 x00 x00 x00 x00 x00 x00))
(L (W x00 x00 x00 x00 x00 x00 x00 x00)))
(T (W x00 x00 x00 x00 x00 x00 x00 x00)
(L (W x30 x34 x5f x43 x4c x45 x41 x52))
(L (W x44 x00 x48 x00 x00 x00 x4c x00))))
(T (W x00 x00 x80 x3f x00 x00 x80 x3f)
(T (W x01 x00 x00 x00 xff xff xff xff)
(L (W x00 x00 x00 x00 x00 x00 x00 x00))
(L (W x00 x00 x00 x00 x00 x00 x00 x00)))
(T (W x00 x00 x80 x3f x00 x00 x80 x3f)
(L (W x6c x00 x00 x00 x60 x00 x00 x00)) E))))))
(T (W xff xff xff xff xff xff xff xff)
(T (W xb8 x00 x00 x00 xac x00 x00 x00)
(T (W xb8 x00 x00 x00 xac x00 x00 x00)
(T (W x00 x00 x80 x3f x00 x00 x80 x3f)
(T (W x00 x00 x00 x00 x00 x00 x00 x00)
(T (W x20 x01 x00 x00 x04 x00 x00 x00)
(L (W x00 x00 x00 x00 x00 x00 x00 x00))
(L (W x30 x34 x5f x43 x4c x45 x41 x52)))
(T (W x03 x00 x00 x00 xd8 x00 x00 x00)
(L (W xff xff xff xff xff xff xff xff))
(L (W xff xff xff xff xff xff xff xff))))
(T (W x00 x00 x00 x00 x00 x00 x00 x00)
(T (W x00 x00 x00 x00 x00 x00 x00 x00)
(L (W x00 x00 x00 x00 xac x64 xfe xff))
(L (W xff xff xff xff xff xff xff xff)))
(T (W xb8 x00 x00 x00 xac x00 x00 x00)
(L (W xb8 x00 x00 x00 x14 x00 x00 x00))
(L (W x12 x00 x00 x00 x46 x53 x59 x53)))))
(T (W x00 x00 x80 x3f x00 x00 x80 x3f)
(T (W x00 x00 x00 x00 x00 x00 x00 x00)
(T (W x18 x00 x00 x00 x10 x00 x00 x00)
(L (W xff xff xff xff x03 x00 x00 x00))
(L (W xa8 x44 xff xff x00 x01 x01 x01)))
(T (W x00 x00 x00 x00 x00 x00 x00 x00)
(L (W x00 x00 x00 x00 x00 x00 x00 x00))
(L (W x00 x00 x00 x00 x00 x00 x00 x00))))
(T (W xff xff xff xff x01 x00 x00 x00)
(T (W x00 x00 x00 x00 xf2 x83 xfd xff)
(L (W x00 x00 x00 x00 x00 x00 x00 x00))
(L (W x00 x00 x00 x00 x00 x00 x00 x00)))
(T (W x00 x00 x80 x3f x00 x00 x80 x3f)
(L (W x30 x34 x5f x43 x4c x45 x41 x52))
(L (W xff xff xff xff xff xff xff xff))))))
(T (W x45 x26 x22 x84 xe4 x9c xf2 xcb)
(T (W x68 x00 x00 x00 x5c x00 x00 x00)
(T (W x00 x00 x00 x00 x00 x00 x00 x00)
(T (W xff xff xff xff xff xff xff xff)
(L (W xe2 xe7 xff xff xb8 x01 x00 x00))
(L (W x49 xa1 x68 x4a xeb x5f xdd x3d)))
(T (W xff xff xff xff xff xff xff xff)
(L (W x00 x00 x00 x00 x00 x00 x00 x00))
(L (W x00 x00 x00 x00 x00 x00 x00 x00))))
(T (W x00 x00 x00 x00 xf2 xb5 xff xff)
(T (W x50 x00 x00 x00 x44 x00 x00 x00)
(L (W x00 x00 x80 xbf x00 x00 x80 xbf))
(L (W xff xff xff xff xff xff xff xff)))
(T (W x64 x00 x00 x00 x9c x00 x00 x00)
(L (W x00 x00 x00 x00 x00 x00 x00 x00))
(L (W x00 x00 x00 x00 x00 x00 x00 x00)))))
(T (W x45 x26 x22 x84 xe4 x9c xf2 xcb)
(T (W x00 x00 x00 x00 x00 x00 x00 x00)
(T (W x72 x85 xfd xff x00 x00 x01 x01)
(L (W x54 x00 x00 x00 x48 x00 x00 x00))
(L (W xff xff xff xff xff xff xff xff)))
(T (W xa2 xec xfd xff x74 x00 x00 x00)
(L (W xff xff xff xff xa0 x00 x00 x00))
(L (W x00 x00 x00 x00 x00 x00 x00 x00))))
(T (W x52 xc9 xfe xff x00 x00 x01 x01)
(T (W x00 x00 x80 x3f x00 x00 x80 x3f)
(L (W x54 x00 x00 x00 x48 x00 x00 x00))
(L (W xec x9f xff xff x27 x00 x00 x00)))
(T (W xd7 x00 x00 x00 xff xff xff xff)
(L (W x00 x00 x00 x00 x00 x00 x00 x00)) E)))))
(T (W xff xff xff xff xff xff xff xff)
(T (W xff xff xff xff x04 x00 x00 x00)
(T (W x50 x00 x00 x00 x44 x00 x00 x00)
(T (W x00 x00 x00 x00 x00 x00 x00 x00)
(T (W xff xff xff xff xff xff xff xff)
(L (W x00 x00 x00 x00 x00 x00 x00 x00))
(L (W x00 x00 x00 x00 x00 x00 x00 x00)))
(T (W xff xff xff xff xff xff xff xff)
(L (W x00 x00 x00 x00 xf2 xab xfe xff))
(L (W x00 x00 x00 x00 x00 x00 x00 x00))))
(T (W x3e x00 x00 x00 x10 x00 x00 x00)
(T (W x00 x00 x80 x3f x00 x00 x80 x3f)
(L (W x00 x00 x80 xbf x00 x00 x80 xbf))
(L (W xff xff xff xff xff xff xff xff)))
(T (W xff xff xff xff xff xff xff xff)
(L (W x04 x00 x00 x00 xfa xf2 xfe xff))
(L (W x68 x00 x00 x00 x5c x00 x00 x00)))))
(T (W x00 x00 x80 x3f x00 x00 x80 x3f)
(T (W x00 x00 x00 x00 x00 x00 x00 x00)
(T (W xff xff xff xff x01 x00 x00 x00)
(L (W x00 x00 x00 x00 x00 x00 x00 x00))
(L (W xff xff xff xff x9c x00 x00 x00)))
(T (W x00 x00 x80 x3f x00 x00 x80 x3f)
(L (W x00 x00 x80 xbf x00 x00 x80 xbf))
(L (W x00 x00 x00 x00 x00 x00 x00 x00))))
(T (W x01 x00 x00 x00 xff xff xff xff)
(T (W x00 x00 x00 x00 x00 x00 x00 x00)
(L (W xff xff xff xff xff xff xff xff))
(L (W x00 x00 x00 x00 x00 x00 x00 x00)))
(T (W xff xff xff xff xff xff xff xff)
(L (W x00 x00 x00 x00 x00 x00 x00 x00)) E))))
(T (W x68 x00 x00 x00 x5c x00 x00 x00)
(T (W xa2 x94 xfc xff x74 x00 x00 x00)
(T (W x45 x26 x22 x84 xe4 x9c xf2 xcb)
(T (W xff xff xff xff xff xff xff xff)
(L (W xff xff xff xff xff xff xff xff))
(L (W x54 x00 x00 x00 x48 x00 x00 x00)))
(T (W x12 x00 x00 x00 x46 x53 x59 x53)
(L (W x00 x00 x00 x00 x00 x00 x00 x00))
(L (W x00 x00 x00 x00 x00 x00 x00 x00))))
(T (W x1c x01 x00 x00 x04 x00 x00 x00)
(T (W x03 x00 x00 x00 xcc x00 x00 x00)
(L (W xff xff xff xff xff xff xff xff))
(L (W x45 x44 x00 x00 x00 x00 x00 x00)))
(T (W x18 x00 x00 x00 x0c x00 x00 x00)
(L (W x00 x00 x00 x00 x00 x00 x00 x00))
(L (W xff xff xff xff xff xff xff xff)))))
(T (W x00 x00 x00 x00 x00 x00 x00 x00)
(T (W x00 x00 x00 x00 x00 x00 x00 x00)
(T (W x5f x4e x53 x5f x30 x34 x5f x43)
(L (W x00 x00 x00 x00 x20 x5e xfe xff))
(L (W xff xff xff xff xff xff xff xff)))
(T (W xff xff xff xff xff xff xff xff)
(L (W xff xff xff xff xff xff xff xff))
(L (W xff xff xff xff xff xff xff xff))))
(T (W x00 x00 x00 x00 x00 x00 x00 x00)
(T (W x00 x00 x00 x00 x20 x9e xfd xff)
(L (W x00 x00 x00 x00 x25 x00 x00 x00))
(L (W xa0 x81 xa7 x28 xbf x47 x53 x6a)))
(T (W xff xff xff xff xff xff xff xff)
(L (W xec x27 xff xff x15 x00 x00 x00)) E)))))))))))
(T (W x10 x8d x03 x00 x64 x88 x03 x00)
(T (W xb8 x36 x03 x00 xd4 x2f x03 x00)
(T (W xb8 x6b x02 x00 x6c x6a x02 x00)
(T (W xd8 xda x01 x00 x94 xd8 x01 x00)
(T (W xf0 x84 x00 x00 xbc x83 x00 x00)
(T (W x68 x00 x00 x00 x5c x00 x00 x00)
(T (W x00 x00 x80 x3f x00 x00 x80 x3f)
(T (W x68 x00 x00 x00 x5c x00 x00 x00)
(T (W x00 x00 x00 x00 x00 x00 x00 x00)
(T (W x63 x01 x00 x00 xff xff xff xff)
(T (W x3e x00 x00 x00 x9c x00 x00 x00)
(L (W x08 x1d xfe xff x00 x01 x01 x01))
(L (W xff xff xff xff xff xff xff xff)))
(T (W x00 x00 x00 x00 x00 x00 x00 x00)
(L (W x9b x01 x00 x00 xff xff xff xff))
(L (W xff xff xff xff xff xff xff xff))))
(T (W xff xff xff xff xff xff xff xff)
(T (W xff xff xff xff xff xff xff xff)
(L (W x00 x00 x00 x00 x00 x00 x00 x00))
(L (W x02 x75 xff xff x74 x00 x00 x00)))
(T (W x00 x00 x80 x3f x00 x00 x80 x3f)
(L (W x00 x00 x80 xbf x00 x00 x80 xbf))
(L (W x00 x00 x80 xbf x00 x00 x80 xbf)))))
(T (W x00 x00 x00 x00 x00 x00 x00 x00)
(T (W xff xff xff xff xff xff xff xff)
(T (W x00 x00 x80 x3f x00 x00 x80 x3f)
(L (W x00 x00 x80 x3f x00 x00 x80 x3f))
(L (W x00 x00 x00 x00 x00 x00 x00 x00)))
(T (W xff xff xff xff xff xff xff xff)
(L (W xb0 x00 x00 x00 x64 x00 x00 x00))
(L (W xff xff xff xff xff xff xff xff))))
(T (W x01 x00 x00 x00 xa0 x00 x00 x00)
(T (W x00 x00 x80 x3f x00 x00 x80 x3f)
(L (W x00 x00 x80 xbf x00 x00 x80 xbf))
(L (W xff xff xff xff xbc x00 x00 x00)))
(T (W x45 x26 x22 x84 xe4 x9c xf2 xcb)
(L (W xc4 x00 x00 x00 x01 x00 x00 x00))
(L (W x00 x01 x01 x01 x7a xfb xff xff))))))
(T (W x00 x00 x80 x3f x00 x00 x80 x3f)
(T (W x00 x00 x00 x00 x00 x00 x00 x00)
(T (W xff xff xff xff xff xff xff xff)
(T (W x68 x00 x00 x00 x5c x00 x00 x00)
(L (W xff xff xff xff xff xff xff xff))
(L (W xff xff xff xff xff xff xff xff)))
(T (W x00 x00 x80 x3f x00 x00 x80 x3f)
(L (W x18 x00 x00 x00 x10 x00 x00 x00))
(L (W xff xff xff xff xff xff xff xff))))
(T (W xff xff xff xff xff xff xff xff)
(T (W x00 x00 x00 x00 x00 x00 x00 x00)
(L (W x4c x78 xfe xff x12 x00 x00 x00))
(L (W x45 x26 x22 x84 xe4 x9c xf2 xcb)))
(T (W x68 x00 x00 x00 x5c x00 x00 x00)
(L (W x35 x00 x00 x00 x38 x00 x00 x00))
(L (W x00 x00 x00 x00 x00 x00 x00 x00)))))
(T (W x00 x00 x00 x00 x00 x00 x00 x00)
(T (W xff xff xff xff xff xff xff xff)
(T (W x45 x26 x22 x84 xe4 x9c xf2 xcb)
(L (W x00 x00 x00 x00 x00 x00 x00 x00))
(L (W x00 x00 x80 xbf x00 x00 x80 xbf)))
(T (W x4c x45 x41 x52 x45 x44 x00 x00)
(L (W x45 x44 x00 x00 x00 x00 x00 x00))
(L (W xff xff xff xff xff xff xff xff))))
(T (W x00 x00 x00 x00 x80 x0e xfd xff)
(T (W xff xff xff xff xff xff xff xff)
(L (W x00 x00 x80 x3f x00 x00 x80 x3f))
(L (W xff xff xff xff xff xff xff xff)))
(T (W x00 x00 x80 x3f x00 x00 x80 x3f)
(L (W xff xff xff xff xff xff xff xff)) E)))))
(T (W x00 x00 x80 x3f x00 x00 x80 x3f)
(T (W x00 x00 x80 x3f x00 x00 x80 x3f)
(T (W x00 x00 x00 x00 x00 x00 x00 x00)
(T (W xff xff xff xff xff xff xff xff)
(T (W x01 x00 x00 x00 x3e x00 x00 x00)
(L (W x18 x00 x00 x00 x10 x00 x00 x00))
(L (W xff xff xff xff xff xff xff xff)))
(T (W x00 x00 x80 x3f x00 x00 x80 x3f)
(L (W x00 x00 x80 x3f x00 x00 x80 x3f))
(L (W x45 x26 x22 x84 xe4 x9c xf2 xcb))))
(T (W xff xff xff xff xff xff xff xff)
(T (W xff xff xff xff xff xff xff xff)
(L (W x00 x00 x00 x00 x00 x00 x00 x00))
(L (W x00 x00 x80 x3f x00 x00 x80 x3f)))
(T (W x00 x00 x80 x3f x00 x00 x80 x3f)
(L (W x00 x00 x80 xbf x00 x00 x80 xbf))
(L (W x44 x00 x48 x00 x00 x00 x4c x00)))))
(T (W x00 x00 x00 x00 x00 x00 x00 x00)
(T (W xff xff xff xff xff xff xff xff)
(T (W x45 x26 x22 x84 xe4 x9c xf2 xcb)
(L (W x00 x00 x80 x3f x00 x00 x80 x3f))
(L (W x00 x00 x00 x00 x00 x00 x00 x00)))
(T (W x22 xee xfd xff x00 x00 x01 x01)
(L (W xff xff xff xff xff xff xff xff))
(L (W xff xff xff xff xc4 x00 x00 x00))))
(T (W x45 x26 x22 x84 xe4 x9c xf2 xcb)
(T (W x18 x00 x00 x00 x10 x00 x00 x00)
(L (W xff xff xff xff xff xff xff xff))
(L (W xff xff xff xff xff xff xff xff)))
(T (W x00 x00 x00 x00 x00 x00 x00 x00)
(L (W xff xff xff xff xff xff xff xff))
(L (W x00 x00 x18 x00 x1c x00 x20 x00))))))
(T (W x45 x26 x22 x84 xe4 x9c xf2 xcb)
(T (W x00 x00 x00 x00 x00 x00 x00 x00)
(T (W xff xff xff xff xff xff xff xff)
(T (W x4a x39 xfd xff x78 x00 x00 x00)
(L (W x45 x26 x22 x84 xe4 x9c xf2 xcb))
(L (W x00 x00 x00 x00 x52 x34 xff xff)))
(T (W x45 x26 x22 x84 xe4 x9c xf2 xcb)
(L (W x03 x00 x00 x00 xd8 x00 x00 x00))
(L (W xff xff xff xff xff xff xff xff))))
(T (W x18 x00 x00 x00 x10 x00 x00 x00)
(T (W x00 x00 x00 x00 x00 x00 x00 x00)
(L (W x28 x00 x00 x00 x10 x00 x00 x00))
(L (W x08 x75 xff xff x00 x01 x01 x01)))
(T (W x00 x00 x80 x3f x00 x00 x80 x3f)
(L (W xb0 x00 x00 x00 x64 x00 x00 x00))
(L (W xff xff xff xff xff xff xff xff)))))
(T (W x59 x79 x70 xbe x01 x2c x1d x96)
(T (W xb8 x00 x00 x00 xac x00 x00 x00)
(T (W xff xff xff xff xac x00 x00 x00)
(L (W x00 x00 x00 x00 x00 x00 x00 x00))
(L (W x00 x00 x80 xbf x00 x00 x80 xbf)))
(T (W x00 x00 x00 x00 x00 x00 x00 x00)
(L (W x00 x00 x80 xbf x00 x00 x80 xbf))
(L (W xc4 x00 x00 x00 x02 x00 x00 x00))))
(T (W x18 x00 x00 x00 x0c x00 x00 x00)
(T (W x00 x00 x00 x00 x00 x00 x00 x00)
(L (W x00 x00 x00 x00 x00 x00 x00 x00))
(L (W xff xff xff xff xff xff xff xff)))
(T (W x45 x26 x22 x84 xe4 x9c xf2 xcb)
(L (W xff xff xff xff xff xff xff xff)) E))))))
(T (W xb2 xdd xfd xff x00 x00 x01 x01)
(T (W x00 x00 x00 x00 x00 x00 x00 x00)
(T (W xff xff xff xff xff xff xff xff)
(T (W xff xff xff xff xff xff xff xff)
(T (W x02 xb9 xfc xff x74 x00 x00 x00)
(T (W x4c x2c xfd xff x25 x00 x00 x00)
(L (W x00 x00 x00 x00 x02 x00 x00 x00))
(L (W x00 x00 x80 xbf x00 x00 x80 xbf)))
(T (W xff xff xff xff xff xff xff xff)
(L (W x08 xa1 xfe xff x00 x01 x01 x01))
(L (W x00 x00 x00 x00 x00 x00 x00 x00))))
(T (W x00 x00 x00 x00 x00 x00 x00 x00)
(T (W x00 x00 x00 x00 x00 x00 x00 x00)
(L (W xff xff xff xff xff xff xff xff))
(L (W x00 x00 x00 x00 x12 x00 x00 x00)))
(T (W x18 x01 x00 x00 x04 x00 x00 x00)
(L (W xff xff xff xff xff xff xff xff))
(L (W xff xff xff xff xff xff xff xff)))))
(T (W x68 x00 x00 x00 x5c x00 x00 x00)
(T (W x45 x26 x22 x84 xe4 x9c xf2 xcb)
(T (W xc0 x00 x00 x00 xb4 x00 x00 x00)
(L (W xff xff xff xff xff xff xff xff))
(L (W xff xff xff xff x9c x00 x00 x00)))
(T (W x00 x00 x80 x3f x00 x00 x80 x3f)
(L (W x4f x84 x6f x8b xe8 xcb x63 xb7))
(L (W x00 x00 x00 x00 x00 x00 x00 x00))))
(T (W x00 x00 x00 x00 x00 x00 x00 x00)
(T (W x4c x8c xfd xff x14 x00 x00 x00)
(L (W x00 x00 x00 x00 x00 x00 x00 x00))
(L (W x49 xa1 x68 x4a xeb x5f xdd x3d)))
(T (W xff xff xff xff xff xff xff xff)
(L (W x00 x00 x00 x00 x00 x00 x00 x00))
(L (W x00 x00 x00 x00 x00 x00 x00 x00))))))
(T (W xff xff xff xff xff xff xff xff)
(T (W xff xff xff xff x04 x00 x00 x00)
(T (W x00 x00 x80 x3f x00 x00 x80 x3f)
(T (W xff xff xff xff xff xff xff xff)
(L (W x00 x00 x00 x00 x00 x00 x00 x00))
(L (W x00 x00 x80 xbf x00 x00 x80 xbf)))
(T (W x00 x00 x00 x00 x00 x00 x00 x00)
(L (W x49 xa1 x68 x4a xeb x5f xdd x3d))
(L (W x00 x00 x00 x00 x00 x00 x00 x00))))
(T (W x00 x00 x00 x00 x00 x00 x00 x00)
(T (W x18 x00 x00 x00 x0c x00 x00 x00)
(L (W x14 x00 x00 x00 x0c x00 x00 x00))
(L (W x00 x00 x00 x00 x00 x00 x00 x00)))
(T (W xb2 xa5 xff xff x00 x00 x01 x01)
(L (W x00 x00 x00 x00 x00 x00 x00 x00))
(L (W x00 x00 x00 x00 x00 x00 x00 x00)))))
(T (W x50 x00 x00 x00 x44 x00 x00 x00)
(T (W x45 x26 x22 x84 xe4 x9c xf2 xcb)
(T (W x12 x00 x00 x00 x46 x53 x59 x53)
(L (W x02 x69 xfe xff x74 x00 x00 x00))
(L (W xff xff xff xff xff xff xff xff)))
(T (W xc0 x00 x00 x00 x01 x00 x00 x00)
(L (W xff xff xff xff xb0 x00 x00 x00))
(L (W x00 x00 x00 x00 x00 x00 x00 x00))))
(T (W x00 x00 x00 x00 x00 x00 x00 x00)
(T (W x00 x00 x80 x3f x00 x00 x80 x3f)
(L (W x00 x00 x00 x00 x1b x00 x00 x00))
(L (W x00 x00 x00 x00 x00 x00 x00 x00)))
(T (W x00 x00 x00 x00 x00 x00 x00 x00)
(L (W x45 x26 x22 x84 xe4 x9c xf2 xcb)) E)))))
(T (W xff xff xff xff xff xff xff xff)
(T (W xff xff xff xff xff xff xff xff)
(T (W xb8 x00 x00 x00 xac x00 x00 x00)
(T (W x00 x00 x80 x3f x00 x00 x80 x3f)
(T (W x01 x00 x00 x00 x04 x00 x00 x00)
(L (W x00 x00 x80 x3f x00 x00 x80 x3f))
(L (W x4f x84 x6f x8b xe8 xcb x63 xb7)))
(T (W x00 x00 x01 x01 xa5 x01 x00 x00)
(L (W x03 x00 x00 x00 xfc x00 x00 x00))
(L (W x00 x00 x00 x00 x00 x00 x00 x00))))
(T (W x00 x00 x00 x00 x00 x00 x00 x00)
(T (W x00 x00 x80 x3f x00 x00 x80 x3f)
(L (W xbc x00 x00 x00 x01 x00 x00 x00))
(L (W x06 x00 x00 x00 xd8 x05 x00 x00)))
(T (W xff xff xff xff xff xff xff xff)
(L (W x30 x34 x5f x43 x4c x45 x41 x52))
(L (W xff xff xff xff xff xff xff xff)))))
(T (W x00 x00 x80 x3f x00 x00 x80 x3f)
(T (W x00 x00 x80 x3f x00 x00 x80 x3f)
(T (W x77 x69 x6c x64 x5f x70 x6f x6b)
(L (W xff xff xff xff xff xff xff xff))
(L (W xff xff xff xff xff xff xff xff)))
(T (W x00 x00 x80 x3f x00 x00 x80 x3f)
(L (W x00 x00 x80 xbf x00 x00 x80 xbf))
(L (W x49 xa1 x68 x4a xeb x5f xdd x3d))))
(T (W xff xff xff xff xff xff xff xff)
(T (W x00 x00 x00 x00 x00 x00 x00 x00)
(L (W x45 x26 x22 x84 xe4 x9c xf2 xcb))
(L (W x00 x00 x00 x00 x00 x00 x00 x00)))
(T (W x02 x21 xfe xff x74 x00 x00 x00)
(L (W x00 x00 x00 x00 x00 x00 x00 x00)) E))))
(T (W xff xff xff xff xff xff xff xff)
(T (W x45 x26 x22 x84 xe4 x9c xf2 xcb)
(T (W x00 x00 x80 x3f x00 x00 x80 x3f)
(T (W xb2 xed xfe xff x00 x00 x01 x01)
(L (W x00 x00 x80 x3f x00 x00 x80 x3f))
(L (W x4a x3d xff xff x78 x00 x00 x00)))
(T (W x00 x00 x00 x00 x00 x00 x00 x00)
(L (W x00 x00 x00 x00 x00 x00 x00 x00))
(L (W x3c x00 x00 x00 x00 x00 x80 xbf))))
(T (W x00 x00 x00 x00 x00 x00 x00 x00)
(T (W xff xff xff xff xff xff xff xff)
(L (W xff xff xff xff xff xff xff xff))
(L (W x00 x00 x00 x00 x00 x00 x00 x00)))
(T (W xff xff xff xff xff xff xff xff)
(L (W x00 x00 x00 x00 x00 x00 x00 x00))
(L (W x00 x00 x80 xbf x00 x00 x80 xbf)))))
(T (W x68 x00 x00 x00 x5c x00 x00 x00)
(T (W x00 x00 x80 x3f x00 x00 x80 x3f)
(T (W x00 x00 x00 x00 x00 x00 x00 x00)
(L (W xff xff xff xff xff xff xff xff))
(L (W x54 x02 x00 x00 x38 x01 x00 x00)))
(T (W xff xff xff xff xff xff xff xff)
(L (W xff xff xff xff xff xff xff xff))
(L (W xff xff xff xff xff xff xff xff))))
(T (W x00 x00 x00 x00 x00 x00 x00 x00)
(T (W x45 x26 x22 x84 xe4 x9c xf2 xcb)
(L (W x64 x5f x70 x6f x6b x65 x5f x77))
(L (W x00 x00 x00 x00 x00 x00 x00 x00)))
(T (W x00 x00 x00 x00 x00 x00 x00 x00)
(L (W x00 x00 x00 x00 x00 x00 x00 x00)) E)))))))
(T (W x00 x00 x00 x00 x00 x00 x00 x00)
(T (W xff xff xff xff xff xff xff xff)
(T (W xb8 x00 x00 x00 xac x00 x00 x00)
(T (W x18 x00 x00 x00 x0c x00 x00 x00)
(T (W x4a x63 xfc xff x78 x00 x00 x00)
(T (W x00 x00 x00 x00 x00 x00 x00 x00)
(T (W xff xff xff xff xff xff xff xff)
(L (W xff xff xff xff xff xff xff xff))
(L (W x00 x00 x00 x00 x00 x00 x00 x00)))
(T (W x00 x00 x80 x3f x00 x00 x80 x3f)
(L (W x00 x00 x80 x3f x00 x00 x80 x3f))
(L (W x00 x00 x01 x01 x29 x00 x00 x00))))
(T (W x23 x00 x00 x00 xff xff xff xff)
(T (W x00 x00 x00 x00 x00 x00 x00 x00)
(L (W xff xff xff xff x98 x00 x00 x00))
(L (W x00 x00 x00 x00 xfa x5a xff xff)))
(T (W xff xff xff xff xff xff xff xff)
(L (W xff xff xff xff xb0 x00 x00 x00))
(L (W x45 x26 x22 x84 xe4 x9c xf2 xcb)))))
(T (W x00 x00 x80 x3f x00 x00 x80 x3f)
(T (W x00 x00 x00 x00 x00 x00 x00 x00)
(T (W x00 x00 x00 x00 x00 x00 x00 x00)
(L (W x18 x00 x00 x00 x10 x00 x00 x00))
(L (W x00 x00 x80 xbf x00 x00 x80 xbf)))
(T (W x00 x00 x00 x00 x00 x00 x00 x00)
(L (W x45 x44 x00 x00 x00 x00 x00 x00))
(L (W x00 x00 x00 x00 x00 x00 x00 x00))))
(T (W x70 x00 x00 x00 xff xff xff xff)
(T (W xc0 x00 x00 x00 x01 x00 x00 x00)
(L (W xff xff xff xff xff xff xff xff))
(L (W x30 x34 x5f x43 x4c x45 x41 x52)))
(T (W x68 x00 x00 x00 x5c x00 x00 x00)
(L (W xff xff xff xff xff xff xff xff))
(L (W x00 x00 x00 x00 x00 x00 x00 x00))))))
(T (W x01 x00 x00 x00 x3e x00 x00 x00)
(T (W x00 x00 x80 x3f x00 x00 x80 x3f)
(T (W x00 x00 x00 x00 x00 x00 x00 x00)
(T (W xff xff xff xff xff xff xff xff)
(L (W x00 x00 x00 x00 x02 x00 x00 x00))
(L (W x00 x00 x00 x00 x00 x00 x00 x00)))
(T (W xff xff xff xff xff xff xff xff)
(L (W x45 x44 x00 x00 x00 x00 x00 x00))
(L (W x00 x00 x00 x00 x00 x00 x00 x00))))
(T (W xff xff xff xff xff xff xff xff)
(T (W x00 x00 x80 x3f x00 x00 x80 x3f)
(L (W x00 x00 x80 xbf x00 x00 x80 xbf))
(L (W xff xff xff xff xff xff xff xff)))
(T (W xff xff xff xff xff xff xff xff)
(L (W xff xff xff xff xff xff xff xff))
(L (W x6c x00 x00 x00 x60 x00 x00 x00)))))
(T (W x00 x00 x80 x3f x00 x00 x80 x3f)
(T (W x00 x00 x00 x00 x00 x00 x00 x00)
(T (W xdf x01 x00 x00 xff xff xff xff)
(L (W x18 x00 x00 x00 x10 x00 x00 x00))
(L (W xac x00 x00 x00 x64 x00 x00 x00)))
(T (W x00 x00 x80 x3f x00 x00 x80 x3f)
(L (W x00 x00 x80 xbf x00 x00 x80 xbf))
(L (W x00 x00 x00 x00 x00 x00 x00 x00))))
(T (W xff xff xff xff xff xff xff xff)
(T (W x00 x00 x00 x00 x00 x00 x00 x00)
(L (W xff xff xff xff xff xff xff xff))
(L (W x00 x00 x00 x00 x00 x00 x00 x00)))
(T (W x18 x01 x00 x00 x04 x00 x00 x00)
(L (W x00 x00 x00 x00 x00 x00 x00 x00)) E)))))
(T (W x00 x00 x00 x00 x80 x38 xfc xff)
(T (W x40 x00 x00 x00 x9c x00 x00 x00)
(T (W x00 x00 x80 x3f x00 x00 x80 x3f)
(T (W x00 x00 x00 x00 x00 x00 x00 x00)
(T (W xff xff xff xff xff xff xff xff)
(L (W x00 x00 x00 x00 x00 x00 x00 x00))
(L (W x00 x00 x00 x00 x52 x26 xff xff)))
(T (W x18 x00 x00 x00 x0c x00 x00 x00)
(L (W x45 x44 x00 x00 x00 x00 x00 x00))
(L (W x00 x00 x00 x00 x5a xa9 xff xff))))
(T (W xff xff xff xff xff xff xff xff)
(T (W x00 x00 x00 x00 x00 x00 x00 x00)
(L (W x00 x00 x80 xbf x00 x00 x80 xbf))
(L (W x1a x00 x00 x00 x1d x00 x00 x00)))
(T (W x00 x00 x00 x00 x80 xe8 xfd xff)
(L (W xff xff xff xff xbc x00 x00 x00))
(L (W x00 x00 x80 xbf x00 x00 x80 xbf)))))
(T (W x00 x00 x80 x3f x00 x00 x80 x3f)
(T (W x00 x00 x00 x00 x00 x00 x00 x00)
(T (W xbc x00 x00 x00 xb0 x00 x00 x00)
(L (W x45 x26 x22 x84 xe4 x9c xf2 xcb))
(L (W x18 x00 x00 x00 x0c x00 x00 x00)))
(T (W x45 x26 x22 x84 xe4 x9c xf2 xcb)
(L (W x00 x00 x00 x00 x00 x00 x00 x00))
(L (W x00 x00 x00 x00 x00 x00 x00 x00))))
(T (W x24 x00 x28 x00 x2c x00 x30 x00)
(T (W xb4 x01 x00 x00 xff xff xff xff)
(L (W x00 x00 x00 x00 x00 x00 x00 x00))
(L (W x00 x00 x01 x01 x2f x00 x00 x00)))
(T (W x00 x00 x80 x3f x00 x00 x80 x3f)
(L (W x00 x00 x00 x00 x5a x09 xff xff)) E))))
(T (W x68 x00 x00 x00 x5c x00 x00 x00)
(T (W x45 x26 x22 x84 xe4 x9c xf2 xcb)
(T (W x1a xa7 xc4 x40 xdf x3f x69 xaa)
(T (W xff xff xff xff xff xff xff xff)
(L (W x00 x00 x00 x00 x00 x00 x00 x00))
(L (W x00 x00 x80 xbf x00 x00 x80 xbf)))
(T (W xff xff xff xff xff xff xff xff)
(L (W x00 x00 x01 x01 x64 x01 x00 x00))
(L (W x00 x00 x00 x00 x12 x00 x00 x00))))
(T (W xff xff xff xff xff xff xff xff)
(T (W x00 x00 x80 x3f x00 x00 x80 x3f)
(L (W x00 x00 x80 xbf x00 x00 x80 xbf))
(L (W xff xff xff xff xff xff xff xff)))
(T (W x02 x0f xfe xff x74 x00 x00 x00)
(L (W x00 x00 x00 x00 x00 x00 x00 x00))
(L (W x00 x00 x00 x00 x00 x00 x00 x00)))))
(T (W x00 x00 x00 x00 x00 x00 x00 x00)
(T (W x78 x65 xae x54 xf0 x6d x99 x85)
(T (W x04 x00 x00 x00 xe2 x57 xfd xff)
(L (W x50 x00 x00 x00 x44 x00 x00 x00))
(L (W xc4 x00 x00 x00 x01 x00 x00 x00)))
(T (W x68 x00 x00 x00 x5c x00 x00 x00)
(L (W x6c x00 x00 x00 x60 x00 x00 x00))
(L (W x28 x00 x2c x00 x30 x00 x34 x00))))
(T (W xff xff xff xff xff xff xff xff)
(T (W x00 x00 x80 x3f x00 x00 x80 x3f)
(L (W x00 x00 x80 x3f x00 x00 x80 x3f))
(L (W x21 x00 x00 x00 x10 x00 x00 x00)))
(T (W xff xff xff xff xff xff xff xff)
(L (W x00 x00 x00 x00 x00 x00 x00 x00)) E))))))
(T (W x00 x00 x00 x00 x00 x00 x00 x00)
(T (W x00 x00 x00 x00 x00 x00 x00 x00)
(T (W x00 x00 x00 x00 x00 x00 x00 x00)
(T (W xb2 x17 xfe xff x00 x00 x01 x01)
(T (W x01 x00 x00 x00 x9c x00 x00 x00)
(T (W x00 x00 x80 x3f x00 x00 x80 x3f)
(L (W x00 x00 x00 x00 x00 x00 x00 x00))
(L (W x6c x00 x00 x00 x60 x00 x00 x00)))
(T (W x00 x00 x00 x00 x00 x00 x00 x00)
(L (W x00 x00 x00 x00 x1b x00 x00 x00))
(L (W x00 x00 x80 xbf x00 x00 x80 xbf))))
(T (W x00 x00 x80 x3f x00 x00 x80 x3f)
(T (W x08 x63 xfd xff x00 x01 x01 x01)
(L (W x00 x00 x00 x00 xfa x71 xfe xff))
(L (W x4f x84 x6f x8b xe8 xcb x63 xb7)))
(T (W x00 x00 x00 x00 x00 x00 x00 x00)
(L (W x00 x00 x00 x00 x00 x00 x00 x00))
(L (W x00 x00 x00 x00 x00 x00 x00 x00)))))
(T (W xff xff xff xff xff xff xff xff)
(T (W x68 x00 x00 x00 x5c x00 x00 x00)
(T (W x00 x00 x00 x00 x00 x00 x00 x00)
(L (W x00 x00 x00 x00 x00 x00 x00 x00))
(L (W x00 x00 x00 x00 x00 x00 x00 x00)))
(T (W x18 x00 x00 x00 x0c x00 x00 x00)
(L (W x18 x00 x00 x00 x0c x00 x00 x00))
(L (W x44 x00 x00 x00 x00 x00 x80 xbf))))
(T (W x00 x00 x00 x00 x00 x00 x00 x00)
(T (W x00 x00 x80 x3f x00 x00 x80 x3f)
(L (W x02 x9b xfe xff x74 x00 x00 x00))
(L (W xc4 x00 x00 x00 x01 x00 x00 x00)))
(T (W xb2 xb7 xff xff x00 x00 x01 x01)
(L (W x4a x07 xff xff x78 x00 x00 x00))
(L (W xfc x00 x00 x00 x02 x00 x00 x00))))))
(T (W x01 x00 x00 x00 x04 x00 x00 x00)
(T (W x20 x01 x00 x00 x04 x00 x00 x00)
(T (W xc0 x00 x00 x00 xb4 x00 x00 x00)
(T (W x00 x00 x00 x00 x00 x00 x00 x00)
(L (W x00 x00 x80 x3f x00 x00 x80 x3f))
(L (W xff xff xff xff xff xff xff xff)))
(T (W x00 x00 x80 x3f x00 x00 x80 x3f)
(L (W x6c x00 x00 x00 x60 x00 x00 x00))
(L (W x18 x00 x00 x00 x10 x00 x00 x00))))
(T (W x00 x00 x80 x3f x00 x00 x80 x3f)
(T (W xff xff xff xff xff xff xff xff)
(L (W xff xff xff xff xff xff xff xff))
(L (W x49 xa1 x68 x4a xeb x5f xdd x3d)))
(T (W x00 x00 x00 x00 x00 x00 x00 x00)
(L (W x00 x00 x80 xbf x00 x00 x80 xbf))
(L (W x54 x00 x00 x00 x48 x00 x00 x00)))))
(T (W xb8 x00 x00 x00 xac x00 x00 x00)
(T (W x45 x26 x22 x84 xe4 x9c xf2 xcb)
(T (W x00 x00 x80 x3f x00 x00 x80 x3f)
(L (W xff xff xff xff xff xff xff xff))
(L (W x46 x53 x59 x53 x5f x4e x53 x5f)))
(T (W x04 x00 x00 x00 xe2 xd3 xfd xff)
(L (W x94 x04 x00 x00 x80 x03 x00 x00))
(L (W x00 x00 x80 xbf x00 x00 x80 xbf))))
(T (W x68 x00 x00 x00 x5c x00 x00 x00)
(T (W xff xff xff xff xff xff xff xff)
(L (W xff xff xff xff xff xff xff xff))
(L (W x00 x00 x80 xbf x00 x00 x80 xbf)))
(T (W x00 x00 x80 x3f x00 x00 x80 x3f)
(L (W x50 x00 x00 x00 x44 x00 x00 x00)) E)))))
(T (W x00 x00 x00 x00 x00 x00 x00 x00)
(T (W x4c x56 xfc xff x2d x00 x00 x00)
(T (W x00 x00 x00 x00 x00 x00 x00 x00)
(T (W x0a x00 x00 x00 x3e x00 x00 x00)
(T (W x45 x26 x22 x84 xe4 x9c xf2 xcb)
(L (W x08 x2b xfe xff x00 x01 x01 x01))
(L (W x08 x2b xff xff x00 x01 x01 x01)))
(T (W x00 x00 x00 x00 x00 x00 x00 x00)
(L (W x00 x00 x00 x00 x00 x00 x00 x00))
(L (W x54 x00 x00 x00 x48 x00 x00 x00))))
(T (W x54 x00 x00 x00 x48 x00 x00 x00)
(T (W xff xff xff xff xbc x00 x00 x00)
(L (W xff xff xff xff xff xff xff xff))
(L (W x00 x00 x80 xbf x00 x00 x80 xbf)))
(T (W x00 x00 x00 x00 x00 x00 x00 x00)
(L (W x49 xa1 x68 x4a xeb x5f xdd x3d))
(L (W x00 x00 x00 x00 x00 x00 x00 x00)))))
(T (W xff xff xff xff xff xff xff xff)
(T (W x08 xcb xfc xff x00 x01 x01 x01)
(T (W x00 x00 x80 x3f x00 x00 x80 x3f)
(L (W x21 x00 x00 x00 x67 x72 x6f x75))
(L (W x00 x00 x00 x00 x00 x00 x00 x00)))
(T (W xff xff xff xff xff xff xff xff)
(L (W xff xff xff xff xff xff xff xff))
(L (W x00 x00 x80 xbf x00 x00 x80 xbf))))
(T (W x00 x00 x80 x3f x00 x00 x80 x3f)
(T (W x4a x8f xfd xff x78 x00 x00 x00)
(L (W x00 x00 x00 x00 x00 x00 x00 x00))
(L (W x50 x00 x00 x00 x44 x00 x00 x00)))
(T (W xff xff xff xff xff xff xff xff)
(L (W x45 x26 x22 x84 xe4 x9c xf2 xcb)) E))))
(T (W xff xff xff xff xff xff xff xff)
(T (W xff xff xff xff xff xff xff xff)
(T (W x00 x00 x00 x00 x80 xbc xfc xff)
(T (W x00 x00 x00 x00 x00 x00 x00 x00)
(L (W xff xff xff xff xff xff xff xff))
(L (W xff xff xff xff xff xff xff xff)))
(T (W x00 x00 x80 x3f x00 x00 x80 x3f)
(L (W x54 x00 x00 x00 x48 x00 x00 x00))
(L (W x00 x00 x00 x00 x0c xbb xff xff))))
(T (W x45 x26 x22 x84 xe4 x9c xf2 xcb)
(T (W x30 x34 x5f x43 x4c x45 x41 x52)
(L (W x00 x00 x00 x00 x00 x00 x00 x00))
(L (W x00 x00 x80 xbf x00 x00 x80 xbf)))
(T (W x00 x00 x00 x00 x00 x00 x00 x00)
(L (W x00 x00 x00 x00 x0c xfb xfe xff))
(L (W x00 x00 x00 x00 x00 x00 x00 x00)))))
(T (W x45 x26 x22 x84 xe4 x9c xf2 xcb)
(T (W x18 x00 x00 x00 x0c x00 x00 x00)
(T (W x00 x00 x80 x3f x00 x00 x80 x3f)
(L (W x00 x00 x00 x00 x00 x00 x00 x00))
(L (W x45 x26 x22 x84 xe4 x9c xf2 xcb)))
(T (W x00 x00 x00 x00 x00 x00 x00 x00)
(L (W x00 x00 x00 x00 x00 x00 x00 x00))
(L (W x45 x44 x00 x00 x00 x00 x00 x00))))
(T (W x00 x00 x80 x3f x00 x00 x80 x3f)
(T (W x9d x01 x00 x00 xff xff xff xff)
(L (W x45 x26 x22 x84 xe4 x9c xf2 xcb))
(L (W x00 x00 x80 xbf x00 x00 x80 xbf)))
(T (W x00 x00 x80 x3f x00 x00 x80 x3f)
(L (W x00 x00 x80 xbf x00 x00 x80 xbf)) E))))))))
(T (W xa8 x16 x01 x00 x5c x14 x01 x00)
(T (W xa8 x46 xc3 xc0 xa9 xeb x57 x9f)
(T (W x00 x00 x00 x00 x80 x27 xfc xff)
(T (W x18 x00 x00 x00 x0c x00 x00 x00)
(T (W x00 x00 x00 x00 x80 x3f xfc xff)
(T (W x00 x00 x80 x3f x00 x00 x80 x3f)
(T (W x00 x00 x00 x00 x00 x00 x00 x00)
(T (W xff xff xff xff x03 x00 x00 x00)
(L (W x45 x26 x22 x84 xe4 x9c xf2 xcb))
(L (W x00 x00 x00 x00 x00 x00 x00 x00)))
(T (W x00 x00 x80 x3f x00 x00 x80 x3f)
(L (W x00 x00 x00 x00 x1b x00 x00 x00))
(L (W xff xff xff xff xff xff xff xff))))
(T (W xff xff xff xff xff xff xff xff)
(T (W x04 x00 x00 x00 x52 x5d xfd xff)
(L (W x74 x00 x00 x00 x68 x00 x00 x00))
(L (W xff xff xff xff xff xff xff xff)))
(T (W x02 xf6 xfd xff x74 x00 x00 x00)
(L (W x00 x00 x00 x00 x80 xdf xfe xff))
(L (W x6c x00 x00 x00 x60 x00 x00 x00)))))
(T (W x45 x26 x22 x84 xe4 x9c xf2 xcb)
(T (W x00 x00 x01 x01 xd7 x00 x00 x00)
(T (W x18 x00 x00 x00 x0c x00 x00 x00)
(L (W x45 x26 x22 x84 xe4 x9c xf2 xcb))
(L (W x00 x00 x00 x00 x00 x00 x00 x00)))
(T (W xff xff xff xff xff xff xff xff)
(L (W xff xff xff xff xff xff xff xff))
(L (W x45 x44 x00 x00 x00 x00 x00 x00))))
(T (W xff xff xff xff x03 x00 x00 x00)
(T (W x50 x00 x00 x00 x44 x00 x00 x00)
(L (W xff xff xff xff x9c x00 x00 x00))
(L (W xff xff xff xff xff xff xff xff)))
(T (W x00 x00 x80 x3f x00 x00 x80 x3f)
(L (W xff xff xff xff xff xff xff xff))
(L (W x00 x00 x60 x00 x00 x00 x00 x00))))))
(T (W x00 x00 x80 x3f x00 x00 x80 x3f)
(T (W x00 x00 x00 x00 x00 x00 x00 x00)
(T (W x7d x00 x00 x00 xff xff xff xff)
(T (W xff xff xff xff xff xff xff xff)
(L (W xff xff xff xff xff xff xff xff))
(L (W x45 x44 x00 x00 x00 x00 x00 x00)))
(T (W x2b x00 x00 x00 x2e x00 x00 x00)
(L (W xff xff xff xff xff xff xff xff))
(L (W x3b x01 x00 x00 xff xff xff xff))))
(T (W xff xff xff xff xff xff xff xff)
(T (W x00 x00 x00 x00 x00 x00 x00 x00)
(L (W x49 xa1 x68 x4a xeb x5f xdd x3d))
(L (W xcc x00 x00 x00 x02 x00 x00 x00)))
(T (W x02 x06 xfe xff x74 x00 x00 x00)
(L (W xff xff xff xff xff xff xff xff))
(L (W x00 x00 x80 xbf x00 x00 x80 xbf)))))
(T (W x00 x00 x00 x00 x00 x00 x00 x00)
(T (W xc8 x00 x00 x00 xff xff xff xff)
(T (W xff xff xff xff xff xff xff xff)
(L (W x00 x00 x00 x00 x00 x00 x00 x00))
(L (W x45 x26 x22 x84 xe4 x9c xf2 xcb)))
(T (W x00 x00 x00 x00 x00 x00 x00 x00)
(L (W x00 x00 x00 x00 x00 x00 x00 x00))
(L (W xff xff xff xff x01 x00 x00 x00))))
(T (W xff xff xff xff xff xff xff xff)
(T (W x00 x00 x00 x00 x52 x8d xfd xff)
(L (W x00 x00 x00 x00 x80 x8f xfe xff))
(L (W xff xff xff xff xff xff xff xff)))
(T (W xff xff xff xff xff xff xff xff)
(L (W x5c x00 x00 x00 xff xff xff xff)) E)))))
(T (W x02 x4e xfc xff x74 x00 x00 x00)
(T (W x45 x26 x22 x84 xe4 x9c xf2 xcb)
(T (W x45 x26 x22 x84 xe4 x9c xf2 xcb)
(T (W x4c x4b x84 x31 x71 xf2 x75 xb9)
(T (W xff xff xff xff xff xff xff xff)
(L (W x00 x00 x00 x00 x02 x00 x00 x00))
(L (W xff xff xff xff xff xff xff xff)))
(T (W x4a xaa xfd xff x78 x00 x00 x00)
(L (W xff xff xff xff xff xff xff xff))
(L (W xff xff xff xff xff xff xff xff))))
(T (W xff xff xff xff xff xff xff xff)
(T (W x00 x00 x00 x00 x00 x00 x00 x00)
(L (W x45 x26 x22 x84 xe4 x9c xf2 xcb))
(L (W x00 x00 x00 x00 x80 x67 xff xff)))
(T (W x02 xfe xfd xff x74 x00 x00 x00)
(L (W x45 x26 x22 x84 xe4 x9c xf2 xcb))
(L (W x00 x00 x00 x00 x00 x00 x00 x00)))))
(T (W x45 x26 x22 x84 xe4 x9c xf2 xcb)
(T (W xaa x2c xcb xde x77 x36 xbe x79)
(T (W x00 x00 x80 x3f x00 x00 x80 x3f)
(L (W x00 x00 x80 x3f x00 x00 x80 x3f))
(L (W x00 x00 x80 xbf x00 x00 x80 xbf)))
(T (W x12 x00 x00 x00 x46 x53 x59 x53)
(L (W x00 x00 x00 x00 x00 x00 x00 x00))
(L (W x64 x04 x00 x00 x60 x03 x00 x00))))
(T (W xff xff xff xff xff xff xff xff)
(T (W xff xff xff xff xff xff xff xff)
(L (W x00 x00 x00 x00 x00 x00 x00 x00))
(L (W x29 x00 x00 x00 xff xff xff xff)))
(T (W x45 x26 x22 x84 xe4 x9c xf2 xcb)
(L (W xff xff xff xff xff xff xff xff)) E))))
(T (W x00 x00 x80 x3f x00 x00 x80 x3f)
(T (W x00 x00 x00 x00 x00 x00 x00 x00)
(T (W xff xff xff xff xff xff xff xff)
(T (W x45 x26 x22 x84 xe4 x9c xf2 xcb)
(L (W x18 x01 x00 x00 x04 x00 x00 x00))
(L (W x00 x00 x00 x00 x00 x00 x00 x00)))
(T (W xff xff xff xff xbc x00 x00 x00)
(L (W xff xff xff xff xff xff xff xff))
(L (W x02 x00 x00 x00 x30 x01 x00 x00))))
(T (W xff xff xff xff xff xff xff xff)
(T (W x00 x00 x80 x3f x00 x00 x80 x3f)
(L (W x00 x00 x00 x00 x00 x00 x00 x00))
(L (W xb0 x00 x00 x00 x64 x00 x00 x00)))
(T (W x68 x00 x00 x00 x5c x00 x00 x00)
(L (W xff xff xff xff xff xff xff xff))
(L (W x00 x00 x00 x00 x00 x00 x00 x00)))))
(T (W x00 x00 x00 x00 x00 x00 x00 x00)
(T (W xff xff xff xff xff xff xff xff)
(T (W xff xff xff xff xff xff xff xff)
(L (W x45 x26 x22 x84 xe4 x9c xf2 xcb))
(L (W x45 x26 x22 x84 xe4 x9c xf2 xcb)))
(T (W x00 x00 x80 x3f x00 x00 x80 x3f)
(L (W x00 x00 x80 xbf x00 x00 x80 xbf))
(L (W xff xff xff xff xff xff xff xff))))
(T (W x64 x00 x00 x00 x9c x00 x00 x00)
(T (W x00 x00 x00 x00 x00 x00 x00 x00)
(L (W x45 x26 x22 x84 xe4 x9c xf2 xcb))
(L (W xff xff xff xff xff xff xff xff)))
(T (W xff xff xff xff xff xff xff xff)
(L (W xff xff xff xff xff xff xff xff)) E))))))
(T (W x00 x00 x00 x00 x00 x00 x00 x00)
(T (W x00 x00 x00 x00 x00 x00 x00 x00)
(T (W x01 x00 x00 x00 x04 x00 x00 x00)
(T (W xff xff xff xff xff xff xff xff)
(T (W x45 x26 x22 x84 xe4 x9c xf2 xcb)
(T (W x00 x00 x00 x00 x00 x00 x00 x00)
(L (W x00 x00 x00 x00 x00 x00 x00 x00))
(L (W x00 x00 x80 xbf x00 x00 x80 xbf)))
(T (W x01 x00 x00 x00 xff xff xff xff)
(L (W x99 x01 x00 x00 xff xff xff xff))
(L (W x00 x00 x00 x00 x00 x00 x00 x00))))
(T (W x00 x00 x80 x3f x00 x00 x80 x3f)
(T (W x00 x00 x80 x3f x00 x00 x80 x3f)
(L (W xff xff xff xff xff xff xff xff))
(L (W x00 x00 x00 x00 x00 x00 x00 x00)))
(T (W x00 x00 x00 x00 x00 x00 x00 x00)
(L (W x00 x00 x00 x00 x00 x00 x00 x00))
(L (W x00 x00 x00 x00 x00 x00 x00 x00)))))
(T (W xb8 x00 x00 x00 xac x00 x00 x00)
(T (W x50 x00 x00 x00 x44 x00 x00 x00)
(T (W x4c x00 x00 x00 x50 x00 x54 x00)
(L (W xab xce x36 x97 x85 x2b x63 x5f))
(L (W xff xff xff xff xff xff xff xff)))
(T (W x02 xda xfd xff x74 x00 x00 x00)
(L (W x00 x00 x80 xbf x00 x00 x80 xbf))
(L (W x00 x00 x80 xbf x00 x00 x80 xbf))))
(T (W x00 x00 x00 x00 x00 x00 x00 x00)
(T (W x00 x00 x00 x00 x00 x00 x00 x00)
(L (W x00 x00 x80 xbf x00 x00 x80 xbf))
(L (W x00 x00 x80 xbf x00 x00 x80 xbf)))
(T (W xff xff xff xff xff xff xff xff)
(L (W x00 x00 x80 xbf x00 x00 x80 xbf))
(L (W x45 x26 x22 x84 xe4 x9c xf2 xcb))))))
(T (W xff xff xff xff xff xff xff xff)
(T (W xff xff xff xff xff xff xff xff)
(T (W x00 x00 x80 x3f x00 x00 x80 x3f)
(T (W x4c x3d xfd xff x3c x00 x00 x00)
(L (W x00 x00 x80 x3f x00 x00 x80 x3f))
(L (W x18 x00 x00 x00 x0c x00 x00 x00)))
(T (W x00 x00 x00 x00 x00 x00 x00 x00)
(L (W x00 x00 x80 x3f x00 x00 x80 x3f))
(L (W x54 x00 x00 x00 x48 x00 x00 x00))))
(T (W x00 x00 x00 x00 x00 x00 x00 x00)
(T (W xff xff xff xff xff xff xff xff)
(L (W xff xff xff xff xa8 x00 x00 x00))
(L (W x00 x00 x00 x00 x00 x00 x00 x00)))
(T (W x00 x00 x00 x00 x00 x00 x00 x00)
(L (W x00 x00 x00 x00 x00 x00 x00 x00))
(L (W x00 x00 x80 xbf x00 x00 x80 xbf)))))
(T (W x68 x00 x00 x00 x5c x00 x00 x00)
(T (W x02 xea xfc xff x74 x00 x00 x00)
(T (W x00 x00 x00 x00 x00 x00 x00 x00)
(L (W xff xff xff xff xff xff xff xff))
(L (W x00 x00 x00 x00 xe2 x52 xff xff)))
(T (W xff xff xff xff xff xff xff xff)
(L (W xff xff xff xff xff xff xff xff))
(L (W x00 x00 x00 x00 x00 x00 x00 x00))))
(T (W x45 x26 x22 x84 xe4 x9c xf2 xcb)
(T (W xff xff xff xff xac x00 x00 x00)
(L (W x00 x00 x80 x3f x00 x00 x80 x3f))
(L (W x00 x00 x80 xbf x00 x00 x80 xbf)))
(T (W x00 x00 x80 x3f x00 x00 x80 x3f)
(L (W x00 x00 x80 xbf x00 x00 x80 xbf)) E)))))
(T (W xa4 x40 xfc xff x3e x00 x00 x00)
(T (W xff xff xff xff xff xff xff xff)
(T (W xff xff xff xff xff xff xff xff)
(T (W x18 x00 x00 x00 x0c x00 x00 x00)
(T (W x00 x00 x00 x00 x00 x00 x00 x00)
(L (W x00 x00 x80 x3f x00 x00 x80 x3f))
(L (W x00 x00 x80 xbf x00 x00 x80 xbf)))
(T (W x46 x53 x59 x53 x5f x4e x53 x5f)
(L (W x25 x00 x00 x00 x67 x72 x6f x75))
(L (W x45 x26 x22 x84 xe4 x9c xf2 xcb))))
(T (W x45 x26 x22 x84 xe4 x9c xf2 xcb)
(T (W x45 x26 x22 x84 xe4 x9c xf2 xcb)
(L (W xff xff xff xff xff xff xff xff))
(L (W x00 x00 x00 x00 x00 x00 x00 x00)))
(T (W x18 x01 x00 x00 x04 x00 x00 x00)
(L (W x00 x00 x00 x00 x00 x00 x00 x00))
(L (W x00 x00 x00 x00 x00 x00 x00 x00)))))
(T (W x45 x26 x22 x84 xe4 x9c xf2 xcb)
(T (W x68 x00 x00 x00 x5c x00 x00 x00)
(T (W x49 xa1 x68 x4a xeb x5f xdd x3d)
(L (W xff xff xff xff xff xff xff xff))
(L (W x00 x00 x00 x00 x00 x00 x00 x00)))
(T (W x03 x00 x00 x00 xd4 x00 x00 x00)
(L (W x18 x00 x00 x00 x0c x00 x00 x00))
(L (W x00 x00 x80 xbf x00 x00 x80 xbf))))
(T (W x00 x00 x62 x00 x78 x00 x04 x00)
(T (W x00 x00 x80 x3f x00 x00 x80 x3f)
(L (W x8c x03 x00 x00 x58 x02 x00 x00))
(L (W x00 x00 x80 xbf x00 x00 x80 xbf)))
(T (W xff xff xff xff xff xff xff xff)
(L (W x45 x26 x22 x84 xe4 x9c xf2 xcb)) E))))
(T (W xff xff xff xff xff xff xff xff)
(T (W xff xff xff xff xff xff xff xff)
(T (W x6c x00 x00 x00 x60 x00 x00 x00)
(T (W x00 x00 x00 x00 x00 x00 x00 x00)
(L (W x00 x00 x80 x3f x00 x00 x80 x3f))
(L (W xff xff xff xff x9c x00 x00 x00)))
(T (W x49 xa1 x68 x4a xeb x5f xdd x3d)
(L (W x00 x00 x80 x3f x00 x00 x80 x3f))
(L (W x6c x00 x00 x00 x60 x00 x00 x00))))
(T (W x00 x00 x00 x00 x00 x00 x00 x00)
(T (W x00 x00 x01 x01 x4b x00 x00 x00)
(L (W xc2 x02 x00 x00 xff xff xff xff))
(L (W x49 xa1 x68 x4a xeb x5f xdd x3d)))
(T (W xb2 xae xff xff x00 x00 x01 x01)
(L (W x00 x00 x80 xbf x00 x00 x80 xbf))
(L (W x00 x00 x68 x00 x00 x00 x00 x00)))))
(T (W x08 x9a xfc xff x00 x01 x01 x01)
(T (W x00 x00 x80 x3f x00 x00 x80 x3f)
(T (W x00 x00 x80 x3f x00 x00 x80 x3f)
(L (W x2a x00 x00 x00 xff xff xff xff))
(L (W x00 x00 x00 x00 x00 x00 x00 x00)))
(T (W x00 x00 x00 x00 x04 x00 x00 x00)
(L (W xff xff xff xff xff xff xff xff))
(L (W xff xff xff xff xff xff xff xff))))
(T (W x45 x26 x22 x84 xe4 x9c xf2 xcb)
(T (W xff xff xff xff xbc x00 x00 x00)
(L (W x00 x00 x00 x00 x00 x00 x00 x00))
(L (W x00 x00 x00 x00 x00 x00 x00 x00)))
(T (W x00 x00 x00 x00 x00 x00 x00 x00)
(L (W x00 x00 x80 xbf x00 x00 x80 xbf)) E)))))))
(T (W x00 x00 x80 x3f x00 x00 x80 x3f)
(T (W xff xff xff xff xff xff xff xff)
(T (W xff xff xff xff xff xff xff xff)
(T (W x64 x00 x00 x00 x9c x00 x00 x00)
(T (W x45 x26 x22 x84 xe4 x9c xf2 xcb)
(T (W x45 x26 x22 x84 xe4 x9c xf2 xcb)
(T (W xff xff xff xff xff xff xff xff)
(L (W xff xff xff xff xff xff xff xff))
(L (W x00 x00 x00 x00 x00 x00 x00 x00)))
(T (W xc8 x00 x00 x00 x01 x00 x00 x00)
(L (W x00 x00 x80 x3f x00 x00 x80 x3f))
(L (W x45 x44 x00 x00 x00 x00 x00 x00))))
(T (W x00 x00 x00 x00 x00 x00 x00 x00)
(T (W x00 x00 x00 x00 x00 x00 x00 x00)
(L (W x03 x00 x00 x00 xd0 x00 x00 x00))
(L (W x00 x00 x00 x00 x00 x00 x00 x00)))
(T (W xff xff xff xff xff xff xff xff)
(L (W xff xff xff xff xff xff xff xff))
(L (W xff xff xff xff xbc x00 x00 x00)))))
(T (W x00 x00 x80 x3f x00 x00 x80 x3f)
(T (W x00 x00 x00 x00 x00 x00 x00 x00)
(T (W x00 x00 x00 x00 x00 x00 x00 x00)
(L (W xff xff xff xff xff xff xff xff))
(L (W x4a x44 xff xff x78 x00 x00 x00)))
(T (W x00 x00 x00 x00 x00 x00 x00 x00)
(L (W x00 x00 x00 x00 x00 x00 x00 x00))
(L (W x00 x00 x00 x00 x00 x00 x00 x00))))
(T (W x00 x00 x00 x00 x00 x00 x00 x00)
(T (W xff xff xff xff xff xff xff xff)
(L (W xc9 x49 x69 x12 x83 x6e x37 xc6))
(L (W x00 x00 x00 x00 x00 x00 x00 x00)))
(T (W x02 x18 xfe xff x74 x00 x00 x00)
(L (W x00 x00 x00 x00 x00 x00 x00 x00))
(L (W x06 x00 x07 x00 x0c x00 x00 x00))))))
(T (W xff xff xff xff xff xff xff xff)
(T (W x68 x00 x00 x00 x5c x00 x00 x00)
(T (W x00 x00 x00 x00 x00 x00 x00 x00)
(T (W xff xff xff xff xff xff xff xff)
(L (W x00 x00 x00 x00 x00 x00 x00 x00))
(L (W x4f x84 x6f x8b xe8 xcb x63 xb7)))
(T (W xff xff xff xff xff xff xff xff)
(L (W x00 x00 x00 x00 x00 x00 x00 x00))
(L (W x00 x00 x00 x00 x12 x00 x00 x00))))
(T (W x42 xa3 xfe xff x7d x00 x00 x00)
(T (W x00 x00 x80 x3f x00 x00 x80 x3f)
(L (W x6c x00 x00 x00 x60 x00 x00 x00))
(L (W x76 x99 xaa x28 xbf xcc x56 x6a)))
(T (W xff xff xff xff xff xff xff xff)
(L (W x00 x00 x00 x00 x00 x00 x00 x00))
(L (W xff xff xff xff xff xff xff xff)))))
(T (W x00 x00 x80 x3f x00 x00 x80 x3f)
(T (W x00 x00 x00 x00 x00 x00 x00 x00)
(T (W x00 x00 x00 x00 x00 x00 x00 x00)
(L (W x01 x00 x00 x00 x68 x00 x00 x00))
(L (W xff xff xff xff xff xff xff xff)))
(T (W x45 x26 x22 x84 xe4 x9c xf2 xcb)
(L (W x00 x00 x80 xbf x00 x00 x80 xbf))
(L (W x45 x26 x22 x84 xe4 x9c xf2 xcb))))
(T (W xa4 x16 xfd xff x3e x00 x00 x00)
(T (W x4f x84 x6f x8b xe8 xcb x63 xb7)
(L (W x00 x00 x00 x00 x52 x8f xfe xff))
(L (W x00 x00 x00 x00 x00 x00 x00 x00)))
(T (W x00 x00 x00 x00 x00 x00 x00 x00)
(L (W x00 x00 x00 x00 x00 x00 x00 x00)) E)))))
(T (W xff xff xff xff xff xff xff xff)
(T (W xff xff xff xff x03 x00 x00 x00)
(T (W x18 x00 x00 x00 x0c x00 x00 x00)
(T (W x00 x00 x80 x3f x00 x00 x80 x3f)
(T (W xff xff xff xff xff xff xff xff)
(L (W x00 x00 x00 x00 x00 x00 x00 x00))
(L (W x00 x00 x00 x00 x00 x00 x00 x00)))
(T (W xff xff xff xff xff xff xff xff)
(L (W x00 x00 x80 x3f x00 x00 x80 x3f))
(L (W x00 x00 x00 x00 x00 x00 x00 x00))))
(T (W x37 x8b xd6 x35 x8b x0c xdd x42)
(T (W x49 xa1 x68 x4a xeb x5f xdd x3d)
(L (W x00 x00 x80 xbf x00 x00 x80 xbf))
(L (W xff xff xff xff xff xff xff xff)))
(T (W xff xff xff xff xff xff xff xff)
(L (W xff xff xff xff xff xff xff xff))
(L (W x58 x00 x48 x00 x50 x00 x04 x00)))))
(T (W x00 x00 x80 x3f x00 x00 x80 x3f)
(T (W x00 x00 x00 x00 x00 x00 x00 x00)
(T (W xff xff xff xff xff xff xff xff)
(L (W x18 x00 x00 x00 x10 x00 x00 x00))
(L (W xff xff xff xff xff xff xff xff)))
(T (W x00 x00 x80 x3f x00 x00 x80 x3f)
(L (W x00 x00 x80 xbf x00 x00 x80 xbf))
(L (W x00 x00 x00 x00 x00 x00 x00 x00))))
(T (W x45 x26 x22 x84 xe4 x9c xf2 xcb)
(T (W x00 x00 x00 x00 x00 x00 x00 x00)
(L (W x00 x00 x80 xbf x00 x00 x80 xbf))
(L (W x46 x53 x59 x53 x5f x4e x53 x5f)))
(T (W x68 x00 x00 x00 x5c x00 x00 x00)
(L (W x00 x00 x00 x00 x00 x00 x00 x00)) E))))
(T (W xff xff xff xff xff xff xff xff)
(T (W x00 x00 x80 x3f x00 x00 x80 x3f)
(T (W x00 x00 x00 x00 x00 x00 x00 x00)
(T (W xff xff xff xff xff xff xff xff)
(L (W x00 x00 x00 x00 x00 x00 x00 x00))
(L (W x00 x00 x80 xbf x00 x00 x80 xbf)))
(T (W x30 x34 x5f x43 x4c x45 x41 x52)
(L (W x46 x53 x59 x53 x5f x4e x53 x5f))
(L (W x00 x00 x00 x00 x00 x00 x00 x00))))
(T (W x00 x00 x00 x00 x00 x00 x00 x00)
(T (W xff xff xff xff xb0 x00 x00 x00)
(L (W xf4 xee xff xff x01 x01 x01 x01))
(L (W x00 x00 x00 x00 x00 x00 x00 x00)))
(T (W xff xff xff xff xff xff xff xff)
(L (W x00 x00 x00 x00 x00 x00 x00 x00))
(L (W x00 x00 x00 x00 x00 x00 x00 x00)))))
(T (W x00 x00 x80 x3f x00 x00 x80 x3f)
(T (W x00 x00 x00 x00 x00 x00 x00 x00)
(T (W x46 x53 x59 x53 x5f x4e x53 x5f)
(L (W x45 x26 x22 x84 xe4 x9c xf2 xcb))
(L (W xff xff xff xff xff xff xff xff)))
(T (W x03 x00 x00 x00 xd0 x00 x00 x00)
(L (W x18 x00 x00 x00 x0c x00 x00 x00))
(L (W x00 x00 x80 xbf x00 x00 x80 xbf))))
(T (W x01 x00 x00 x00 x04 x00 x00 x00)
(T (W x68 x00 x00 x00 x5c x00 x00 x00)
(L (W xff xff xff xff xff xff xff xff))
(L (W x45 x26 x22 x84 xe4 x9c xf2 xcb)))
(T (W x00 x00 x00 x00 x02 x00 x00 x00)
(L (W x00 x00 x00 x00 x00 x00 x00 x00)) E))))))
(T (W x45 x26 x22 x84 xe4 x9c xf2 xcb)
(T (W x00 x00 x00 x00 x00 x00 x00 x00)
(T (W x45 x26 x22 x84 xe4 x9c xf2 xcb)
(T (W x00 x00 x00 x00 x00 x00 x00 x00)
(T (W xb8 x00 x00 x00 xac x00 x00 x00)
(T (W x00 x00 x80 x3f x00 x00 x80 x3f)
(L (W x45 x26 x22 x84 xe4 x9c xf2 xcb))
(L (W x18 x00 x00 x00 x0c x00 x00 x00)))
(T (W x00 x00 x00 x00 x00 x00 x00 x00)
(L (W x00 x00 x80 x3f x00 x00 x80 x3f))
(L (W x00 x00 x80 xbf x00 x00 x80 xbf))))
(T (W xc0 x00 x00 x00 xb4 x00 x00 x00)
(T (W xb0 x00 x00 x00 x64 x00 x00 x00)
(L (W x4c x6f xfe xff x2b x00 x00 x00))
(L (W x00 x00 x80 xbf x00 x00 x80 xbf)))
(T (W x00 x00 x80 x3f x00 x00 x80 x3f)
(L (W x00 x00 x00 x00 x00 x00 x00 x00))
(L (W xc0 x00 x00 x00 x01 x00 x00 x00)))))
(T (W x95 x01 x00 x00 xff xff xff xff)
(T (W xb8 x00 x00 x00 xac x00 x00 x00)
(T (W x45 x26 x22 x84 xe4 x9c xf2 xcb)
(L (W x00 x00 x00 x00 x00 x00 x00 x00))
(L (W x00 x00 x00 x00 x00 x00 x00 x00)))
(T (W xff xff xff xff xff xff xff xff)
(L (W xff xff xff xff xff xff xff xff))
(L (W x00 x01 x01 x01 x7a xc2 xff xff))))
(T (W x00 x00 x80 x3f x00 x00 x80 x3f)
(T (W x6c x00 x00 x00 x60 x00 x00 x00)
(L (W xff xff xff xff xff xff xff xff))
(L (W xff xff xff xff xff xff xff xff)))
(T (W x00 x00 x00 x00 x00 x00 x00 x00)
(L (W x18 x00 x00 x00 x0c x00 x00 x00))
(L (W x00 x00 x00 x00 x00 x00 x00 x00))))))
(T (W x00 x00 x00 x00 x00 x00 x00 x00)
(T (W x00 x00 x00 x00 x00 x00 x00 x00)
(T (W xff xff xff xff xff xff xff xff)
(T (W x00 x00 x80 x3f x00 x00 x80 x3f)
(L (W x08 x34 xfe xff x00 x01 x01 x01))
(L (W xff xff xff xff xff xff xff xff)))
(T (W x6c x00 x00 x00 x60 x00 x00 x00)
(L (W x18 x00 x00 x00 x10 x00 x00 x00))
(L (W x03 x00 x00 x00 xd0 x00 x00 x00))))
(T (W x08 xf4 xfc xff x00 x01 x01 x01)
(T (W x45 x44 x00 x00 x00 x00 x00 x00)
(L (W xff xff xff xff xff xff xff xff))
(L (W x00 x00 x80 xbf x00 x00 x80 xbf)))
(T (W x45 x26 x22 x84 xe4 x9c xf2 xcb)
(L (W x08 xf4 xfe xff x00 x01 x01 x01))
(L (W x18 x00 x00 x00 x10 x00 x00 x00)))))
(T (W xff xff xff xff xff xff xff xff)
(T (W x01 x00 x00 x00 x9c x00 x00 x00)
(T (W x00 x00 x00 x00 x80 x55 xfd xff)
(L (W xc2 x41 x54 x1d xca xa3 x99 xfd))
(L (W x00 x00 x00 x00 x00 x00 x00 x00)))
(T (W x46 x53 x59 x53 x5f x4e x53 x5f)
(L (W x00 x00 x00 x00 x00 x00 x00 x00))
(L (W x45 x26 x22 x84 xe4 x9c xf2 xcb))))
(T (W x00 x00 x00 x00 x80 x15 xfd xff)
(T (W xff xff xff xff xff xff xff xff)
(L (W x64 x5f x70 x6f x6b x65 x5f x77))
(L (W x00 x00 x00 x00 x80 x95 xff xff)))
(T (W x4a x18 xfe xff x78 x00 x00 x00)
(L (W xff xff xff xff xff xff xff xff)) E)))))
(T (W x45 x26 x22 x84 xe4 x9c xf2 xcb)
(T (W x00 x00 x00 x00 x00 x00 x00 x00)
(T (W x00 x00 x00 x00 x00 x00 x00 x00)
(T (W xff xff xff xff xff xff xff xff)
(T (W x00 x00 x80 x3f x00 x00 x80 x3f)
(L (W x45 x26 x22 x84 xe4 x9c xf2 xcb))
(L (W xb0 x00 x00 x00 x64 x00 x00 x00)))
(T (W x00 x00 x80 x3f x00 x00 x80 x3f)
(L (W x6c x00 x00 x00 x60 x00 x00 x00))
(L (W x45 x26 x22 x84 xe4 x9c xf2 xcb))))
(T (W x02 x04 xfd xff x74 x00 x00 x00)
(T (W xff xff xff xff xff xff xff xff)
(L (W xff xff xff xff xff xff xff xff))
(L (W x00 x00 x80 xbf x00 x00 x80 xbf)))
(T (W x00 x00 x00 x00 x00 x00 x00 x00)
(L (W x00 x00 x80 xbf x00 x00 x80 xbf))
(L (W x46 x53 x59 x53 x5f x4e x53 x5f)))))
(T (W xb2 x40 xfe xff x00 x00 x01 x01)
(T (W x45 x26 x22 x84 xe4 x9c xf2 xcb)
(T (W x50 x00 x00 x00 x44 x00 x00 x00)
(L (W xb8 x00 x00 x00 xac x00 x00 x00))
(L (W x00 x00 x00 x00 x00 x00 x00 x00)))
(T (W x9c x01 x00 x00 xff xff xff xff)
(L (W xff xff xff xff xff xff xff xff))
(L (W x45 x26 x22 x84 xe4 x9c xf2 xcb))))
(T (W x6c x00 x00 x00 x60 x00 x00 x00)
(T (W xff xff xff xff x9c x00 x00 x00)
(L (W x00 x00 x80 x3f x00 x00 x80 x3f))
(L (W xff xff xff xff xff xff xff xff)))
(T (W x70 x00 x08 x00 x68 x00 x0c x00)
(L (W xff xff xff xff xc8 x00 x00 x00)) E))))
(T (W x4c x67 xfc xff x3e x00 x00 x00)
(T (W xf7 xf8 xe0 x9a xfb xca x18 x44)
(T (W xff xff xff xff xff xff xff xff)
(T (W x45 x26 x22 x84 xe4 x9c xf2 xcb)
(L (W x00 x00 x62 x00 x70 x00 x04 x00))
(L (W x00 x00 x00 x00 x00 x00 x00 x00)))
(T (W x2b x00 x00 x00 x2e x00 x00 x00)
(L (W x08 xbc xfe xff x00 x01 x01 x01))
(L (W xa8 x00 x00 x00 x64 x00 x00 x00))))
(T (W x00 x00 x80 x3f x00 x00 x80 x3f)
(T (W x00 x00 x00 x00 x00 x00 x00 x00)
(L (W x45 x26 x22 x84 xe4 x9c xf2 xcb))
(L (W x45 x26 x22 x84 xe4 x9c xf2 xcb)))
(T (W x00 x00 x00 x00 x00 x00 x00 x00)
(L (W xff xff xff xff x90 x00 x00 x00))
(L (W x00 x00 x80 xbf x00 x00 x80 xbf)))))
(T (W xff xff xff xff xff xff xff xff)
(T (W x0a x00 x00 x00 x3e x00 x00 x00)
(T (W xff xff xff xff xac x00 x00 x00)
(L (W x00 x00 x00 x00 x12 x00 x00 x00))
(L (W x00 x00 x80 xbf x00 x00 x80 xbf)))
(T (W x00 x00 x80 x3f x00 x00 x80 x3f)
(L (W x00 x00 x00 x00 x00 x00 x00 x00))
(L (W x00 x00 x00 x00 x00 x00 x00 x00))))
(T (W x45 x26 x22 x84 xe4 x9c xf2 xcb)
(T (W x5f x4e x53 x5f x30 x34 x5f x43)
(L (W x08 x9c xfe xff x00 x01 x01 x01))
(L (W x68 x00 x00 x00 x5c x00 x00 x00)))
(T (W x00 x00 x80 x3f x00 x00 x80 x3f)
(L (W x00 x00 x00 x00 x80 x1d xff xff)) E)))))))))
(T (W xb0 x25 x02 x00 x6c x23 x02 x00)
(T (W x38 x6d x01 x00 xdc x6a x01 x00)
(T (W xb0 x3b x00 x00 x7c x3a x00 x00)
(T (W x00 x00 x00 x00 x00 x00 x00 x00)
(T (W x23 x00 x00 x00 x10 x00 x00 x00)
(T (W x00 x00 x00 x00 x00 x00 x00 x00)
(T (W xff xff xff xff xff xff xff xff)
(T (W x50 x00 x00 x00 x44 x00 x00 x00)
(T (W x00 x00 x00 x00 x00 x00 x00 x00)
(L (W x00 x00 x00 x00 x00 x00 x00 x00))
(L (W x3c x00 x00 x00 x00 x00 x80 xbf)))
(T (W xff xff xff xff xff xff xff xff)
(L (W x6c x00 x00 x00 x60 x00 x00 x00))
(L (W x00 x00 x80 xbf x00 x00 x80 xbf))))
(T (W x45 x26 x22 x84 xe4 x9c xf2 xcb)
(T (W x00 x00 x80 x3f x00 x00 x80 x3f)
(L (W xff xff xff xff xff xff xff xff))
(L (W x00 x00 x00 x00 x00 x00 x00 x00)))
(T (W x00 x00 x00 x00 x00 x00 x00 x00)
(L (W x00 x00 x00 x00 x00 x00 x00 x00))
(L (W x00 x00 x00 x00 xd2 xdc xff xff)))))
(T (W xc0 x00 x00 x00 xb4 x00 x00 x00)
(T (W x00 x00 x80 x3f x00 x00 x80 x3f)
(T (W x40 x00 x00 x00 x10 x00 x00 x00)
(L (W x11 xd2 x36 x97 x85 x2d x63 x5f))
(L (W xc4 x00 x00 x00 x02 x00 x00 x00)))
(T (W x00 x00 x80 x3f x00 x00 x80 x3f)
(L (W x00 x00 x00 x00 x00 x00 x00 x00))
(L (W x6c x00 x00 x00 x60 x00 x00 x00))))
(T (W x00 x00 x00 x00 x00 x00 x00 x00)
(T (W x2b x01 x00 x00 xff xff xff xff)
(L (W x24 x84 xfe xff x25 x00 x00 x00))
(L (W x45 x26 x22 x84 xe4 x9c xf2 xcb)))
(T (W xff xff xff xff xff xff xff xff)
(L (W x00 x00 x00 x00 x00 x00 x00 x00))
(L (W x46 x53 x59 x53 x5f x4e x53 x5f))))))
(T (W xff xff xff xff xff xff xff xff)
(T (W x18 x00 x00 x00 x10 x00 x00 x00)
(T (W x00 x00 x80 x3f x00 x00 x80 x3f)
(T (W x00 x00 x00 x00 x00 x00 x00 x00)
(L (W x00 x00 x80 x3f x00 x00 x80 x3f))
(L (W x54 x00 x00 x00 x48 x00 x00 x00)))
(T (W x18 x00 x00 x00 x0c x00 x00 x00)
(L (W x00 x00 x00 x00 x00 x00 x00 x00))
(L (W x00 x00 x80 xbf x00 x00 x80 xbf))))
(T (W x00 x00 x80 x3f x00 x00 x80 x3f)
(T (W x00 x00 x00 x00 x00 x6f xfd xff)
(L (W x03 x00 x00 x00 xd8 x00 x00 x00))
(L (W x00 x00 x00 x00 x00 x00 x00 x00)))
(T (W x00 x00 x00 x00 x00 x00 x00 x00)
(L (W x00 x00 x00 x00 x00 x00 x00 x00))
(L (W xff xff xff xff xff xff xff xff)))))
(T (W x00 x00 x00 x00 x00 x8f xfc xff)
(T (W x00 x00 x80 x3f x00 x00 x80 x3f)
(T (W x00 x00 x00 x00 x00 x00 x00 x00)
(L (W x45 x26 x22 x84 xe4 x9c xf2 xcb))
(L (W x3c x02 x00 x00 x30 x01 x00 x00)))
(T (W x18 x00 x00 x00 x10 x00 x00 x00)
(L (W x45 x26 x22 x84 xe4 x9c xf2 xcb))
(L (W x00 x00 x80 xbf x00 x00 x80 xbf))))
(T (W x00 x00 x00 x00 x00 x00 x00 x00)
(T (W x00 x00 x80 x3f x00 x00 x80 x3f)
(L (W x00 x00 x00 x00 x00 x00 x00 x00))
(L (W x00 x00 x80 xbf x00 x00 x80 xbf)))
(T (W x00 x00 x10 x00 x14 x00 x18 x00)
(L (W x00 x00 x80 xbf x00 x00 x80 xbf)) E)))))
(T (W x18 x01 x00 x00 x04 x00 x00 x00)
(T (W x48 x03 x00 x00 x34 x02 x00 x00)
(T (W xff xff xff xff x04 x00 x00 x00)
(T (W x00 x00 x80 x3f x00 x00 x80 x3f)
(T (W x00 x00 x00 x00 x00 x00 x00 x00)
(L (W x00 x00 x00 x00 x00 x00 x00 x00))
(L (W x00 x00 x80 xbf x00 x00 x80 xbf)))
(T (W x00 x00 x00 x00 xda xa7 xfd xff)
(L (W xcc xb0 xfe xff x23 x00 x00 x00))
(L (W x00 x00 x00 x00 x00 x00 x00 x00))))
(T (W x00 x00 x80 x3f x00 x00 x80 x3f)
(T (W x00 x00 x80 x3f x00 x00 x80 x3f)
(L (W xff xff xff xff xff xff xff xff))
(L (W x00 x00 x00 x00 x00 x00 x00 x00)))
(T (W x18 x01 x00 x00 x04 x00 x00 x00)
(L (W x00 x00 x00 x00 x02 x00 x00 x00))
(L (W xb0 x00 x00 x00 x64 x00 x00 x00)))))
(T (W xff xff xff xff x03 x00 x00 x00)
(T (W x00 x00 x80 x3f x00 x00 x80 x3f)
(T (W xff xff xff xff xff xff xff xff)
(L (W xff xff xff xff xff xff xff xff))
(L (W xff xff xff xff xff xff xff xff)))
(T (W x88 xc5 xfd xff x00 x01 x01 x01)
(L (W x00 x00 x80 xbf x00 x00 x80 xbf))
(L (W x00 x00 x80 xbf x00 x00 x80 xbf))))
(T (W x00 x00 x00 x00 x00 x00 x00 x00)
(T (W x00 x00 x00 x00 x00 x00 x00 x00)
(L (W x50 x00 x00 x00 x44 x00 x00 x00))
(L (W x00 x00 x80 xbf x00 x00 x80 xbf)))
(T (W xff xff xff xff xff xff xff xff)
(L (W x45 x26 x22 x84 xe4 x9c xf2 xcb))
(L (W x00 x00 x00 x00 x00 x00 x00 x00))))))
(T (W xff xff xff xff xff xff xff xff)
(T (W xb8 x00 x00 x00 xac x00 x00 x00)
(T (W x00 x00 x80 x3f x00 x00 x80 x3f)
(T (W x00 x00 x00 x00 x00 x00 x00 x00)
(L (W x00 x00 x00 x00 x00 x00 x00 x00))
(L (W x68 x00 x00 x00 x5c x00 x00 x00)))
(T (W x00 x00 x00 x00 x00 x00 x00 x00)
(L (W x49 xa1 x68 x4a xeb x5f xdd x3d))
(L (W x00 x00 x80 xbf x00 x00 x80 xbf))))
(T (W x00 x00 x00 x00 x00 x00 x00 x00)
(T (W xff xff xff xff xff xff xff xff)
(L (W x18 x00 x00 x00 x0c x00 x00 x00))
(L (W x00 x00 x00 x00 x12 x00 x00 x00)))
(T (W x32 xaa xff xff x00 x00 x01 x01)
(L (W x00 x00 x00 x00 x00 x00 x00 x00))
(L (W x00 x00 x80 xbf x00 x00 x80 xbf)))))
(T (W x45 x26 x22 x84 xe4 x9c xf2 xcb)
(T (W x00 x00 x00 x00 x00 x00 x00 x00)
(T (W x00 x00 x00 x00 x00 x00 x00 x00)
(L (W xff xff xff xff xbc x00 x00 x00))
(L (W x00 x00 x00 x00 x00 x00 x00 x00)))
(T (W xff xff xff xff xff xff xff xff)
(L (W xff xff xff xff xff xff xff xff))
(L (W x00 x00 x00 x00 x00 x00 x00 x00))))
(T (W x00 x00 x00 x00 x00 x00 x00 x00)
(T (W x82 xad xfd xff x74 x00 x00 x00)
(L (W xff xff xff xff xc0 x00 x00 x00))
(L (W x00 x00 x80 xbf x00 x00 x80 xbf)))
(T (W x00 x00 x00 x00 x00 x00 x00 x00)
(L (W x00 x00 x80 xbf x00 x00 x80 xbf)) E))))))
(T (W x68 x00 x00 x00 x5c x00 x00 x00)
(T (W x82 x49 xfc xff x74 x00 x00 x00)
(T (W x00 x00 x80 x3f x00 x00 x80 x3f)
(T (W x00 x00 x80 x3f x00 x00 x80 x3f)
(T (W x00 x00 x00 x00 x00 x00 x00 x00)
(T (W x18 x00 x00 x00 x0c x00 x00 x00)
(L (W x88 x21 xfe xff x00 x01 x01 x01))
(L (W xff xff xff xff xff xff xff xff)))
(T (W x00 x00 x80 x3f x00 x00 x80 x3f)
(L (W x00 x00 x00 x00 x12 x00 x00 x00))
(L (W xff xff xff xff xb0 x00 x00 x00))))
(T (W xff xff xff xff xff xff xff xff)
(T (W xff xff xff xff xff xff xff xff)
(L (W x00 x00 x80 xbf x00 x00 x80 xbf))
(L (W xac x00 x00 x00 x32 x00 x00 x00)))
(T (W x82 xf9 xfd xff x74 x00 x00 x00)
(L (W x00 x00 x80 xbf x00 x00 x80 xbf))
(L (W x00 x00 x80 xbf x00 x00 x80 xbf)))))
(T (W x00 x00 x00 x00 x00 x00 x00 x00)
(T (W xd6 x00 x00 x00 xff xff xff xff)
(T (W x45 x26 x22 x84 xe4 x9c xf2 xcb)
(L (W x00 x00 x80 x3f x00 x00 x80 x3f))
(L (W x00 x00 x00 x00 x00 x00 x00 x00)))
(T (W x12 xe9 xfd xff x9d x01 x00 x00)
(L (W xff xff xff xff xff xff xff xff))
(L (W xff xff xff xff xff xff xff xff))))
(T (W x18 x00 x00 x00 x0c x00 x00 x00)
(T (W xff xff xff xff xb0 x00 x00 x00)
(L (W xff xff xff xff xff xff xff xff))
(L (W xff xff xff xff xff xff xff xff)))
(T (W x45 x26 x22 x84 xe4 x9c xf2 xcb)
(L (W xff xff xff xff xff xff xff xff))
(L (W x00 x00 x00 x00 xa4 xfc xff xff))))))
(T (W x00 x00 x80 x3f x00 x00 x80 x3f)
(T (W x45 x26 x22 x84 xe4 x9c xf2 xcb)
(T (W xff xff xff xff xff xff xff xff)
(T (W x00 x00 x80 x3f x00 x00 x80 x3f)
(L (W xff xff xff xff xff xff xff xff))
(L (W x04 x00 x00 x00 x80 x03 x00 x00)))
(T (W x00 x00 x00 x00 x00 xb3 xfd xff)
(L (W xff xff xff xff xff xff xff xff))
(L (W xff xff xff xff xff xff xff xff))))
(T (W x64 x00 x00 x00 x9c x00 x00 x00)
(T (W x00 x00 x00 x00 x00 x00 x00 x00)
(L (W x00 x00 x00 x00 x00 x00 x00 x00))
(L (W xff xff xff xff xb0 x00 x00 x00)))
(T (W x68 x00 x00 x00 x5c x00 x00 x00)
(L (W x37 x00 x00 x00 x3a x00 x00 x00))
(L (W xff xff xff xff xff xff xff xff)))))
(T (W x00 x00 x00 x00 x00 x00 x00 x00)
(T (W x32 x91 xff xff x00 x00 x01 x01)
(T (W xb0 x00 x00 x00 x64 x00 x00 x00)
(L (W x00 x00 x00 x00 x00 x00 x00 x00))
(L (W x00 x00 x80 xbf x00 x00 x80 xbf)))
(T (W x00 x00 x00 x00 x00 x00 x00 x00)
(L (W x00 x00 x00 x00 x00 x00 x00 x00))
(L (W x45 x26 x22 x84 xe4 x9c xf2 xcb))))
(T (W xff xff xff xff x03 x00 x00 x00)
(T (W x00 x00 x00 x00 x04 x00 x00 x00)
(L (W xff xff xff xff xff xff xff xff))
(L (W xff xff xff xff xff xff xff xff)))
(T (W xff xff xff xff xff xff xff xff)
(L (W xff xff xff xff xff xff xff xff)) E)))))
(T (W x00 x00 x80 x3f x00 x00 x80 x3f)
(T (W x45 x26 x22 x84 xe4 x9c xf2 xcb)
(T (W x00 x00 x00 x00 x00 x00 x00 x00)
(T (W x00 x00 x00 x00 x04 x00 x00 x00)
(T (W x82 x41 xfd xff x74 x00 x00 x00)
(L (W xff xff xff xff xff xff xff xff))
(L (W xff xff xff xff xff xff xff xff)))
(T (W xca xad xfd xff x78 x00 x00 x00)
(L (W x49 xa1 x68 x4a xeb x5f xdd x3d))
(L (W xff xff xff xff xff xff xff xff))))
(T (W xff xff xff xff xff xff xff xff)
(T (W x63 x40 x8e x7f x40 xa2 xa4 xd9)
(L (W x00 x00 x00 x00 x00 x00 x00 x00))
(L (W xff xff xff xff xb0 x00 x00 x00)))
(T (W x00 x00 x80 x3f x00 x00 x80 x3f)
(L (W xff xff xff xff xa0 x00 x00 x00))
(L (W x3c x00 x00 x00 x00 x00 x80 xbf)))))
(T (W x1d x00 x00 x00 x0c x00 x00 x00)
(T (W xba x87 xff xff xd8 x01 x00 x00)
(T (W xff xff xff xff xff xff xff xff)
(L (W x00 x00 x80 x3f x00 x00 x80 x3f))
(L (W x00 x00 x80 xbf x00 x00 x80 xbf)))
(T (W x24 xd0 xfd xff x10 x00 x00 x00)
(L (W x17 x00 x00 x00 x0c x00 x00 x00))
(L (W xff xff xff xff xff xff xff xff))))
(T (W x00 x00 x80 x3f x00 x00 x80 x3f)
(T (W xff xff xff xff xff xff xff xff)
(L (W x00 x00 x00 x00 x00 x00 x00 x00))
(L (W xff xff xff xff xff xff xff xff)))
(T (W x00 x00 x00 x00 x00 x00 x00 x00)
(L (W xff xff xff xff xff xff xff xff)) E))))
(T (W x00 x00 x80 x3f x00 x00 x80 x3f)
(T (W x00 x00 x00 x00 x00 x00 x00 x00)
(T (W x32 x6e xfe xff x00 x00 x01 x01)
(T (W x68 x00 x00 x00 x5c x00 x00 x00)
(L (W xff xff xff xff xff xff xff xff))
(L (W x46 x53 x59 x53 x5f x4e x53 x5f)))
(T (W xff xff xff xff xff xff xff xff)
(L (W xff xff xff xff xff xff xff xff))
(L (W x00 x00 x00 x00 x00 x00 x00 x00))))
(T (W x00 x00 x00 x00 x00 xfb xfc xff)
(T (W x00 x00 x80 x3f x00 x00 x80 x3f)
(L (W x00 x00 x80 xbf x00 x00 x80 xbf))
(L (W xff xff xff xff xff xff xff xff)))
(T (W x00 x00 x80 x3f x00 x00 x80 x3f)
(L (W xff xff xff xff xff xff xff xff))
(L (W x00 x00 x00 x00 x08 x00 x00 x00)))))
(T (W x00 x00 x00 x00 x00 x00 x00 x00)
(T (W xff xff xff xff xff xff xff xff)
(T (W xff xff xff xff xff xff xff xff)
(L (W x00 x00 x80 xbf x00 x00 x80 xbf))
(L (W x45 x26 x22 x84 xe4 x9c xf2 xcb)))
(T (W x00 x00 x80 x3f x00 x00 x80 x3f)
(L (W x00 x00 x80 xbf x00 x00 x80 xbf))
(L (W x00 x00 x80 xbf x00 x00 x80 xbf))))
(T (W xff xff xff xff xff xff xff xff)
(T (W x00 x00 x00 x00 x00 x00 x00 x00)
(L (W x45 x26 x22 x84 xe4 x9c xf2 xcb))
(L (W x18 x00 x00 x00 x10 x00 x00 x00)))
(T (W x45 x26 x22 x84 xe4 x9c xf2 xcb)
(L (W xff xff xff xff xff xff xff xff)) E)))))))
(T (W xff xff xff xff xff xff xff xff)
(T (W x00 x00 x80 x3f x00 x00 x80 x3f)
(T (W x00 x00 x00 x00 x00 x00 x00 x00)
(T (W x00 x00 x00 x00 x00 x00 x00 x00)
(T (W x00 x00 x00 x00 x00 x00 x00 x00)
(T (W xff xff xff xff xff xff xff xff)
(T (W x45 x26 x22 x84 xe4 x9c xf2 xcb)
(L (W x00 x00 x80 x3f x00 x00 x80 x3f))
(L (W x18 x00 x00 x00 x0c x00 x00 x00)))
(T (W x13 x00 x00 x00 x10 x00 x00 x00)
(L (W xff xff xff xff xff xff xff xff))
(L (W x6c x00 x00 x00 x60 x00 x00 x00))))
(T (W x50 x00 x00 x00 x44 x00 x00 x00)
(T (W x00 x00 x00 x00 x00 x61 xfd xff)
(L (W x00 x00 x00 x00 x00 x00 x00 x00))
(L (W x6c x00 x00 x00 x60 x00 x00 x00)))
(T (W x45 x26 x22 x84 xe4 x9c xf2 xcb)
(L (W x00 x00 x00 x00 x00 x00 x00 x00))
(L (W x00 x00 x00 x00 x00 x00 x00 x00)))))
(T (W xff xff xff xff xff xff xff xff)
(T (W x00 x00 x00 x00 x00 xc1 xfc xff)
(T (W x00 x00 x00 x00 x00 x41 xfd xff)
(L (W x00 x00 x00 x00 x00 x00 x00 x00))
(L (W x04 x00 x00 x00 x62 x40 xff xff)))
(T (W x00 x00 x00 x00 x00 xc1 xfd xff)
(L (W x18 x00 x00 x00 x10 x00 x00 x00))
(L (W xff xff xff xff xa8 x00 x00 x00))))
(T (W x68 x00 x00 x00 x5c x00 x00 x00)
(T (W x00 x00 x00 x00 x00 x00 x00 x00)
(L (W x00 x00 x80 x3f x00 x00 x80 x3f))
(L (W xff xff xff xff xa0 x00 x00 x00)))
(T (W x00 x00 x00 x00 x00 x00 x00 x00)
(L (W x00 x00 x80 xbf x00 x00 x80 xbf))
(L (W x64 x00 x68 x00 x62 x00 x00 x00))))))
(T (W x00 x00 x00 x00 x00 x00 x00 x00)
(T (W x32 x24 xfe xff x00 x00 x01 x01)
(T (W x64 x00 x00 x00 x9c x00 x00 x00)
(T (W x00 x00 x80 x3f x00 x00 x80 x3f)
(L (W x88 x2f xfe xff x00 x01 x01 x01))
(L (W x03 x00 x00 x00 xd0 x00 x00 x00)))
(T (W x00 x00 x80 x3f x00 x00 x80 x3f)
(L (W x18 x00 x00 x00 x10 x00 x00 x00))
(L (W x88 xaf xff xff x00 x01 x01 x01))))
(T (W x00 x00 x80 x3f x00 x00 x80 x3f)
(T (W xff xff xff xff xff xff xff xff)
(L (W xff xff xff xff xff xff xff xff))
(L (W x00 x00 x80 xbf x00 x00 x80 xbf)))
(T (W x45 x26 x22 x84 xe4 x9c xf2 xcb)
(L (W x00 x00 x80 xbf x00 x00 x80 xbf))
(L (W x00 x00 x00 x00 x00 x00 x00 x00)))))
(T (W xff xff xff xff xff xff xff xff)
(T (W xbc x00 x00 x00 xb0 x00 x00 x00)
(T (W x50 x00 x00 x00 x44 x00 x00 x00)
(L (W x00 x00 x00 x00 x18 x00 x00 x00))
(L (W x00 x00 x00 x00 x00 x00 x00 x00)))
(T (W x00 x00 x00 x00 x00 x00 x00 x00)
(L (W xff xff xff xff xff xff xff xff))
(L (W x00 x00 x00 x00 x00 x00 x64 x00))))
(T (W x00 x00 x80 x3f x00 x00 x80 x3f)
(T (W x03 x00 x00 x00 xd0 x00 x00 x00)
(L (W x00 x00 x80 x3f x00 x00 x80 x3f))
(L (W xfc x90 xff xff x42 x8c xff xff)))
(T (W x82 x27 xfe xff x74 x00 x00 x00)
(L (W x45 x26 x22 x84 xe4 x9c xf2 xcb)) E)))))
(T (W x00 x00 x00 x00 x00 x00 x00 x00)
(T (W x00 x00 x00 x00 x00 x00 x00 x00)
(T (W x40 x00 x00 x00 x10 x00 x00 x00)
(T (W xff xff xff xff xff xff xff xff)
(T (W x00 x00 x80 x3f x00 x00 x80 x3f)
(L (W x45 x26 x22 x84 xe4 x9c xf2 xcb))
(L (W x68 x00 x00 x00 x5c x00 x00 x00)))
(T (W x00 x00 x00 x00 x00 x00 x00 x00)
(L (W xff xff xff xff xff xff xff xff))
(L (W xca xab xff xff x78 x00 x00 x00))))
(T (W x00 x00 x80 x3f x00 x00 x80 x3f)
(T (W xff xff xff xff xff xff xff xff)
(L (W xff xff xff xff xff xff xff xff))
(L (W x00 x00 x00 x00 x00 x00 x00 x00)))
(T (W x00 x00 x00 x00 x00 x00 x00 x00)
(L (W x45 x26 x22 x84 xe4 x9c xf2 xcb))
(L (W x00 x00 x00 x00 x00 x00 x00 x00)))))
(T (W xff xff xff xff xff xff xff xff)
(T (W x64 x00 x00 x00 x9c x00 x00 x00)
(T (W x00 x00 x00 x00 x00 x00 x00 x00)
(L (W x00 x00 x00 x00 x00 x00 x00 x00))
(L (W x00 x00 x00 x00 x00 x00 x00 x00)))
(T (W xff xff xff xff xff xff xff xff)
(L (W xff xff xff xff xff xff xff xff))
(L (W xff xff xff xff xb8 x00 x00 x00))))
(T (W xff xff xff xff xff xff xff xff)
(T (W x50 x00 x00 x00 x44 x00 x00 x00)
(L (W xff xff xff xff xff xff xff xff))
(L (W xca x8b xff xff x78 x00 x00 x00)))
(T (W x32 xbc xff xff x00 x00 x01 x01)
(L (W xca x0b xff xff x78 x00 x00 x00)) E))))
(T (W x00 x00 x00 x00 x00 x00 x00 x00)
(T (W xff xff xff xff xff xff xff xff)
(T (W x88 xb7 xfc xff x00 x01 x01 x01)
(T (W x00 x00 x80 x3f x00 x00 x80 x3f)
(L (W x00 x00 x00 x00 x00 x39 xfe xff))
(L (W xff xff xff xff xff xff xff xff)))
(T (W x6c x00 x00 x00 x60 x00 x00 x00)
(L (W xca xbb xfe xff x78 x00 x00 x00))
(L (W xb0 x00 x00 x00 x64 x00 x00 x00))))
(T (W x50 x00 x00 x00 x44 x00 x00 x00)
(T (W xcc x82 xfd xff x1d x00 x00 x00)
(L (W x00 x00 x00 x00 x01 x00 x00 x00))
(L (W x00 x00 x80 xbf x00 x00 x80 xbf)))
(T (W x00 x00 x00 x00 x00 x00 x00 x00)
(L (W x00 x00 x00 x00 x00 xf9 xfe xff))
(L (W xff xff xff xff xb0 x00 x00 x00)))))
(T (W xff xff xff xff xff xff xff xff)
(T (W x88 xd7 xfc xff x00 x01 x01 x01)
(T (W xca x5b xfd xff x78 x00 x00 x00)
(L (W x00 x00 x00 x00 x00 x00 x00 x00))
(L (W x00 x00 x00 x00 x00 x00 x00 x00)))
(T (W x00 x00 x00 x00 x00 x00 x00 x00)
(L (W x00 x00 x00 x00 x00 x00 x00 x00))
(L (W xff xff xff xff xff xff xff xff))))
(T (W x00 x00 x80 x3f x00 x00 x80 x3f)
(T (W xff xff xff xff x01 x00 x00 x00)
(L (W x64 x5f x70 x6f x6b x65 x5f x77))
(L (W x00 x00 x68 x00 x00 x00 x00 x00)))
(T (W x00 x00 x80 x3f x00 x00 x80 x3f)
(L (W xfc x18 xff xff x42 x14 xff xff)) E))))))
(T (W xff xff xff xff x04 x00 x00 x00)
(T (W x18 x00 x00 x00 x10 x00 x00 x00)
(T (W xff xff xff xff xff xff xff xff)
(T (W x68 x00 x00 x00 x5c x00 x00 x00)
(T (W x00 x00 x00 x00 x00 x00 x00 x00)
(T (W xff xff xff xff xff xff xff xff)
(L (W x07 xc1 x33 x97 x85 xac x5f x5f))
(L (W x00 x00 x00 x00 x00 x00 x00 x00)))
(T (W x45 x26 x22 x84 xe4 x9c xf2 xcb)
(L (W xff xff xff xff xff xff xff xff))
(L (W xff xff xff xff xff xff xff xff))))
(T (W x24 xea xfc xff x3c x00 x00 x00)
(T (W x12 x00 x00 x00 x46 x53 x59 x53)
(L (W x50 x00 x00 x00 x44 x00 x00 x00))
(L (W xff xff xff xff xff xff xff xff)))
(T (W xff xff xff xff xff xff xff xff)
(L (W x26 x00 x00 x00 x29 x00 x00 x00))
(L (W x4c x00 x50 x00 x54 x00 x00 x00)))))
(T (W x00 x00 x80 x3f x00 x00 x80 x3f)
(T (W x00 x00 x00 x00 x00 x00 x00 x00)
(T (W xff xff xff xff x03 x00 x00 x00)
(L (W x18 x00 x00 x00 x10 x00 x00 x00))
(L (W x45 x26 x22 x84 xe4 x9c xf2 xcb)))
(T (W x00 x00 x00 x00 x00 x00 x00 x00)
(L (W x00 x00 x00 x00 x00 x00 x00 x00))
(L (W x00 x00 x00 x00 xfa xd3 xff xff))))
(T (W xff xff xff xff xff xff xff xff)
(T (W x00 x00 x01 x01 xb4 x01 x00 x00)
(L (W x00 x00 x00 x00 x00 x00 x00 x00))
(L (W x00 x00 x00 x00 x00 x00 x00 x00)))
(T (W x68 x00 x00 x00 x5c x00 x00 x00)
(L (W x00 x00 x00 x00 x00 x00 x00 x00))
(L (W x3c x00 x00 x00 x00 x00 x80 xbf))))))
(T (W x82 x6b xfc xff x74 x00 x00 x00)
(T (W x88 x73 xfc xff x00 x01 x01 x01)
(T (W x45 x26 x22 x84 xe4 x9c xf2 xcb)
(T (W xff xff xff xff xff xff xff xff)
(L (W x00 x00 x00 x00 x02 x00 x00 x00))
(L (W x00 x00 x80 xbf x00 x00 x80 xbf)))
(T (W xa5 x01 x00 x00 xff xff xff xff)
(L (W x30 x34 x5f x43 x4c x45 x41 x52))
(L (W x00 x00 x00 x00 x00 x00 x00 x00))))
(T (W x00 x00 x00 x00 x02 x00 x00 x00)
(T (W x54 x00 x00 x00 x48 x00 x00 x00)
(L (W x00 x00 x00 x00 x00 x00 x00 x00))
(L (W xff xff xff xff xff xff xff xff)))
(T (W xff xff xff xff xff xff xff xff)
(L (W x02 x00 x00 x00 x2c x01 x00 x00))
(L (W x45 x44 x00 x00 x00 x00 x00 x00)))))
(T (W x00 x00 x00 x00 x00 x00 x00 x00)
(T (W x00 x00 x00 x00 x00 x00 x00 x00)
(T (W x00 x00 x00 x00 x00 x00 x00 x00)
(L (W x00 x00 x80 xbf x00 x00 x80 xbf))
(L (W xff xff xff xff x9c x00 x00 x00)))
(T (W xca xd7 xfd xff x78 x00 x00 x00)
(L (W x18 x00 x00 x00 x0c x00 x00 x00))
(L (W x00 x00 x00 x00 x00 x00 x00 x00))))
(T (W x00 x00 x00 x00 x00 x00 x00 x00)
(T (W x00 x00 x80 x3f x00 x00 x80 x3f)
(L (W x00 x00 x80 x3f x00 x00 x80 x3f))
(L (W x00 x00 x00 x00 x00 x00 x00 x00)))
(T (W x04 x00 x00 x00 xfa xd8 xff xff)
(L (W x00 x00 x00 x00 x00 x00 x00 x00)) E)))))
(T (W xff xff xff xff x03 x00 x00 x00)
(T (W x18 x00 x00 x00 x0c x00 x00 x00)
(T (W x82 x83 xfc xff x74 x00 x00 x00)
(T (W x00 x00 x00 x00 x00 x00 x00 x00)
(T (W xff xff xff xff xff xff xff xff)
(L (W x00 x00 x00 x00 x00 x00 x00 x00))
(L (W x00 x00 x00 x00 x12 x00 x00 x00)))
(T (W xff xff xff xff xff xff xff xff)
(L (W x00 x00 x01 x01 x85 x00 x00 x00))
(L (W x45 x44 x00 x00 x00 x00 x00 x00))))
(T (W x00 x00 x00 x00 x00 x00 x00 x00)
(T (W x45 x26 x22 x84 xe4 x9c xf2 xcb)
(L (W x00 x00 x80 xbf x00 x00 x80 xbf))
(L (W xff xff xff xff xff xff xff xff)))
(T (W x00 x00 x00 x00 x00 xed xfd xff)
(L (W xff xff xff xff xff xff xff xff))
(L (W x00 x00 x00 x00 x8c xeb xff xff)))))
(T (W x00 x00 x80 x3f x00 x00 x80 x3f)
(T (W x00 x00 x00 x00 x00 x00 x00 x00)
(T (W x01 x00 x00 x00 xff xff xff xff)
(L (W x44 x00 x48 x00 x4c x00 x50 x00))
(L (W xff xff xff xff xb0 x00 x00 x00)))
(T (W x00 x00 x80 x3f x00 x00 x80 x3f)
(L (W x45 x26 x22 x84 xe4 x9c xf2 xcb))
(L (W x00 x00 x00 x00 x00 x00 x00 x00))))
(T (W x00 x00 x01 x01 x64 x00 x00 x00)
(T (W x46 x53 x59 x53 x5f x4e x53 x5f)
(L (W xff xff xff xff xff xff xff xff))
(L (W x00 x00 x00 x00 x00 x00 x00 x00)))
(T (W x00 x00 x80 x3f x00 x00 x80 x3f)
(L (W x00 x00 x00 x00 x00 x00 x00 x00)) E))))
(T (W x00 x00 x80 x3f x00 x00 x80 x3f)
(T (W x00 x00 x80 x3f x00 x00 x80 x3f)
(T (W x00 x00 x00 x00 x00 x00 x00 x00)
(T (W xff xff xff xff x04 x00 x00 x00)
(L (W x00 x00 x80 x3f x00 x00 x80 x3f))
(L (W x00 x00 x80 xbf x00 x00 x80 xbf)))
(T (W x01 x06 x03 x1d x69 xd3 xed xbd)
(L (W x00 x00 x00 x00 x00 x00 x00 x00))
(L (W x00 x00 x00 x00 x12 x00 x00 x00))))
(T (W xff xff xff xff xff xff xff xff)
(T (W x18 x00 x00 x00 x10 x00 x00 x00)
(L (W x03 x00 x00 x00 xbc x00 x00 x00))
(L (W xd2 x8b xa7 x28 xbf x4d x53 x6a)))
(T (W x82 x13 xfe xff x74 x00 x00 x00)
(L (W x46 x53 x59 x53 x5f x4e x53 x5f))
(L (W xff xff xff xff xf0 x00 x00 x00)))))
(T (W x00 x00 x00 x00 x00 x00 x00 x00)
(T (W x00 x00 x00 x00 x00 x00 x00 x00)
(T (W xcc x66 xfd xff x37 x00 x00 x00)
(L (W x88 x5b xfe xff x00 x01 x01 x01))
(L (W xff xff xff xff xff xff xff xff)))
(T (W xff xff xff xff xff xff xff xff)
(L (W x00 x00 x00 x00 x00 xdd xfe xff))
(L (W x18 x00 x00 x00 x10 x00 x00 x00))))
(T (W x48 x03 x00 x00 x34 x02 x00 x00)
(T (W x82 xb3 xfd xff x74 x00 x00 x00)
(L (W x04 x00 x00 x00 xda xa1 xfe xff))
(L (W x00 x00 x00 x00 xd2 x9a xff xff)))
(T (W xff xff xff xff xff xff xff xff)
(L (W x00 x00 x00 x00 x00 x00 x00 x00)) E))))))))
(T (W x18 xcc x00 x00 xcc xc9 x00 x00)
(T (W x45 x26 x22 x84 xe4 x9c xf2 xcb)
(T (W x00 x00 x00 x00 x00 x00 x00 x00)
(T (W x00 x00 x00 x00 x00 x00 x00 x00)
(T (W x00 x00 x00 x00 x00 x00 x00 x00)
(T (W x1c x01 x00 x00 x04 x00 x00 x00)
(T (W xbc x00 x00 x00 xb0 x00 x00 x00)
(T (W x45 x26 x22 x84 xe4 x9c xf2 xcb)
(L (W x00 x00 x00 x00 x00 x00 x00 x00))
(L (W xfc x1f xff xff x42 x1b xff xff)))
(T (W xff xff xff xff xff xff xff xff)
(L (W xff xff xff xff xff xff xff xff))
(L (W x3c x00 x00 x00 x00 x00 x80 xbf))))
(T (W x00 x00 x80 x3f x00 x00 x80 x3f)
(T (W x6c x00 x00 x00 x60 x00 x00 x00)
(L (W x30 x34 x5f x43 x4c x45 x41 x52))
(L (W x00 x00 x80 xbf x00 x00 x80 xbf)))
(T (W x00 x00 x00 x00 x00 x00 x00 x00)
(L (W x00 x00 x00 x00 x00 x00 x00 x00))
(L (W x00 x00 x00 x00 x00 x00 x00 x00)))))
(T (W xff xff xff xff xff xff xff xff)
(T (W x6c x00 x00 x00 x60 x00 x00 x00)
(T (W x00 x00 x00 x00 x00 x00 x00 x00)
(L (W x00 x00 x00 x00 x00 x00 x00 x00))
(L (W xff xff xff xff xff xff xff xff)))
(T (W x00 x00 x80 x3f x00 x00 x80 x3f)
(L (W x54 x00 x00 x00 x48 x00 x00 x00))
(L (W x14 x00 x00 x00 x0c x00 x00 x00))))
(T (W x45 x26 x22 x84 xe4 x9c xf2 xcb)
(T (W x00 x00 x00 x00 x00 x00 x00 x00)
(L (W x00 x00 x00 x00 x00 x00 x00 x00))
(L (W x6c x00 x00 x00 x60 x00 x00 x00)))
(T (W x32 xb3 xff xff x00 x00 x01 x01)
(L (W x00 x00 x80 xbf x00 x00 x80 xbf))
(L (W x00 x00 x00 x00 x04 x00 x04 x00))))))
(T (W x2f x00 x00 x00 x10 x00 x00 x00)
(T (W xff xff xff xff xff xff xff xff)
(T (W x50 x00 x00 x00 x44 x00 x00 x00)
(T (W x00 x00 x80 x3f x00 x00 x80 x3f)
(L (W x00 x00 x80 x3f x00 x00 x80 x3f))
(L (W x18 x00 x00 x00 x10 x00 x00 x00)))
(T (W x00 x00 x00 x00 x00 x00 x00 x00)
(L (W x54 x00 x00 x00 x48 x00 x00 x00))
(L (W x54 x00 x00 x00 x48 x00 x00 x00))))
(T (W x00 x00 x80 x3f x00 x00 x80 x3f)
(T (W xff xff xff xff xff xff xff xff)
(L (W xff xff xff xff xff xff xff xff))
(L (W x4f x84 x6f x8b xe8 xcb x63 xb7)))
(T (W x00 x00 x00 x00 x00 x00 x00 x00)
(L (W x00 x00 x80 xbf x00 x00 x80 xbf))
(L (W x00 x00 x00 x00 x7a xea xff xff)))))
(T (W xff xff xff xff xff xff xff xff)
(T (W x50 x00 x00 x00 x44 x00 x00 x00)
(T (W x00 x00 x80 x3f x00 x00 x80 x3f)
(L (W x04 x00 x00 x00 x7a xfe xff xff))
(L (W x00 x00 x00 x00 x12 x00 x00 x00)))
(T (W xff xff xff xff xff xff xff xff)
(L (W xff xff xff xff xff xff xff xff))
(L (W x50 x00 x00 x00 x44 x00 x00 x00))))
(T (W x45 x26 x22 x84 xe4 x9c xf2 xcb)
(T (W x68 x00 x00 x00 x5c x00 x00 x00)
(L (W x00 x00 x00 x00 x00 x00 x00 x00))
(L (W x54 x00 x00 x00 x48 x00 x00 x00)))
(T (W x00 x00 x80 x3f x00 x00 x80 x3f)
(L (W x54 x00 x00 x00 x48 x00 x00 x00)) E)))))
(T (W x00 x00 x00 x00 x00 x00 x00 x00)
(T (W x00 x00 x00 x00 x00 x00 x00 x00)
(T (W xff xff xff xff xff xff xff xff)
(T (W x88 xa6 xfc xff x00 x01 x01 x01)
(T (W x45 x26 x22 x84 xe4 x9c xf2 xcb)
(L (W x88 x26 xfe xff x00 x01 x01 x01))
(L (W x00 x00 x80 xbf x00 x00 x80 xbf)))
(T (W x00 x00 x00 x00 x00 x00 x00 x00)
(L (W x54 x00 x00 x00 x48 x00 x00 x00))
(L (W x00 x00 x80 xbf x00 x00 x80 xbf))))
(T (W x00 x00 x80 x3f x00 x00 x80 x3f)
(T (W x82 x7e xfd xff x74 x00 x00 x00)
(L (W xff xff xff xff xff xff xff xff))
(L (W x00 x00 x00 x00 x00 x00 x00 x00)))
(T (W x00 x00 x00 x00 x00 x00 x00 x00)
(L (W x00 x00 x00 x00 x00 x00 x00 x00))
(L (W xff xff xff xff xff xff xff xff)))))
(T (W xff xff xff xff xff xff xff xff)
(T (W x45 x26 x22 x84 xe4 x9c xf2 xcb)
(T (W x77 x69 x6c x64 x5f x70 x6f x6b)
(L (W xdd xd8 x36 x97 x85 x31 x63 x5f))
(L (W xa4 x04 x00 x00 x88 x03 x00 x00)))
(T (W xb8 x00 x00 x00 x64 x00 x00 x00)
(L (W x00 x00 x00 x00 x00 xc8 xfe xff))
(L (W x1c x00 x00 x00 x10 x00 x00 x00))))
(T (W x00 x00 x80 x3f x00 x00 x80 x3f)
(T (W x00 x00 x80 x3f x00 x00 x80 x3f)
(L (W xb0 x00 x00 x00 x64 x00 x00 x00))
(L (W x3c x00 x00 x00 x00 x00 x80 xbf)))
(T (W xff xff xff xff xff xff xff xff)
(L (W x00 x00 x80 xbf x00 x00 x80 xbf)) E))))
(T (W x00 x00 x00 x00 xd2 x17 xff xff)
(T (W xff xff xff xff xff xff xff xff)
(T (W x00 x00 x80 x3f x00 x00 x80 x3f)
(T (W x00 x00 x00 x00 x00 x00 x00 x00)
(L (W x82 x4e xfe xff x74 x00 x00 x00))
(L (W xff xff xff xff xff xff xff xff)))
(T (W x45 x26 x22 x84 xe4 x9c xf2 xcb)
(L (W x00 x00 x80 x3f x00 x00 x80 x3f))
(L (W x88 xb6 xff xff x00 x01 x01 x01))))
(T (W x00 x00 x80 x3f x00 x00 x80 x3f)
(T (W xff xff xff xff xff xff xff xff)
(L (W xff xff xff xff xff xff xff xff))
(L (W x00 x00 x00 x00 x00 x00 x00 x00)))
(T (W x00 x00 x00 x00 x00 x00 x00 x00)
(L (W x00 x00 x80 xbf x00 x00 x80 xbf))
(L (W x00 x00 x00 x00 x00 xf8 xff xff)))))
(T (W x64 x00 x00 x00 x9c x00 x00 x00)
(T (W x00 x00 x80 x3f x00 x00 x80 x3f)
(T (W x00 x00 x80 x3f x00 x00 x80 x3f)
(L (W x02 x00 x00 x00 xff xff xff xff))
(L (W x00 x00 x00 x00 x00 x00 x00 x00)))
(T (W x00 x00 x00 x00 xd2 xd5 xfd xff)
(L (W x00 x00 x00 x00 xd2 xd5 xfe xff))
(L (W x00 x00 x80 xbf x00 x00 x80 xbf))))
(T (W x00 x00 x00 x00 x00 x00 x00 x00)
(T (W xff xff xff xff xff xff xff xff)
(L (W xff xff xff xff xff xff xff xff))
(L (W x00 x00 x80 xbf x00 x00 x80 xbf)))
(T (W x00 x00 x80 x3f x00 x00 x80 x3f)
(L (W x54 x00 x00 x00 x48 x00 x00 x00)) E))))))
(T (W x82 x42 xfc xff x74 x00 x00 x00)
(T (W x45 x26 x22 x84 xe4 x9c xf2 xcb)
(T (W x82 x5a xfc xff x74 x00 x00 x00)
(T (W x00 x00 x80 x3f x00 x00 x80 x3f)
(T (W x00 x00 x00 x00 x00 x00 x00 x00)
(T (W xff xff xff xff xff xff xff xff)
(L (W x45 x26 x22 x84 xe4 x9c xf2 xcb))
(L (W x00 x00 x00 x00 xd2 x21 xff xff)))
(T (W x50 x00 x00 x00 x44 x00 x00 x00)
(L (W x6c x00 x00 x00 x60 x00 x00 x00))
(L (W xff xff xff xff xff xff xff xff))))
(T (W xff xff xff xff xff xff xff xff)
(T (W x02 x00 x00 x00 x2c x01 x00 x00)
(L (W x00 x00 x80 xbf x00 x00 x80 xbf))
(L (W xff xff xff xff xff xff xff xff)))
(T (W x00 x00 x00 x00 x00 xe4 xfd xff)
(L (W x00 x00 x00 x00 x00 xe4 xfe xff))
(L (W x00 x00 x00 x00 x00 xe4 xff xff)))))
(T (W x00 x00 x00 x00 x00 x00 x00 x00)
(T (W x00 x00 x00 x00 x00 x00 x00 x00)
(T (W x40 x00 x00 x00 x9c x00 x00 x00)
(L (W x45 x26 x22 x84 xe4 x9c xf2 xcb))
(L (W x00 x00 x80 xbf x00 x00 x80 xbf)))
(T (W x00 x00 x00 x00 x00 x00 x00 x00)
(L (W x04 x00 x00 x00 x88 x03 x00 x00))
(L (W xff xff xff xff xff xff xff xff))))
(T (W x64 x00 x00 x00 x9c x00 x00 x00)
(T (W xff xff xff xff xff xff xff xff)
(L (W x04 x00 x00 x00 x62 x83 xfe xff))
(L (W x6c x88 xa7 x28 xbf x4b x53 x6a)))
(T (W x00 x00 x80 x3f x00 x00 x80 x3f)
(L (W x00 x00 x00 x00 xda x04 xff xff))
(L (W x4c x00 x50 x00 x54 x00 x00 x00))))))
(T (W x00 x00 x80 x3f x00 x00 x80 x3f)
(T (W x00 x00 x80 x3f x00 x00 x80 x3f)
(T (W x24 xb9 xfc xff x1b x00 x00 x00)
(T (W x18 x00 x00 x00 x0c x00 x00 x00)
(L (W xff xff xff xff xff xff xff xff))
(L (W x00 x00 x00 x00 x00 x00 x00 x00)))
(T (W xff xff xff xff xff xff xff xff)
(L (W x00 x00 x01 x01 xe0 x00 x00 x00))
(L (W x45 x44 x00 x00 x00 x00 x00 x00))))
(T (W xff xff xff xff xff xff xff xff)
(T (W x45 x26 x22 x84 xe4 x9c xf2 xcb)
(L (W x00 x00 x00 x00 x00 x00 x00 x00))
(L (W xff xff xff xff xff xff xff xff)))
(T (W x82 x0a xfe xff x74 x00 x00 x00)
(L (W xff xff xff xff xff xff xff xff))
(L (W xff xff xff xff xff xff xff xff)))))
(T (W x00 x00 x00 x00 x00 x00 x00 x00)
(T (W x00 x00 x00 x00 x00 x00 x00 x00)
(T (W xff xff xff xff xff xff xff xff)
(L (W x49 xa1 x68 x4a xeb x5f xdd x3d))
(L (W xca x56 xff xff x78 x00 x00 x00)))
(T (W x00 x00 x80 x3f x00 x00 x80 x3f)
(L (W x00 x00 x80 xbf x00 x00 x80 xbf))
(L (W xff xff xff xff xff xff xff xff))))
(T (W x5e x00 x00 x00 xff xff xff xff)
(T (W x00 x00 x00 x00 x00 x00 x00 x00)
(L (W x64 x5f x70 x6f x6b x65 x5f x77))
(L (W xff xff xff xff xff xff xff xff)))
(T (W xff xff xff xff xff xff xff xff)
(L (W x4a x00 x00 x00 xff xff xff xff)) E)))))
(T (W x01 x00 x00 x00 xa0 x00 x00 x00)
(T (W x00 x00 x80 x3f x00 x00 x80 x3f)
(T (W x50 x00 x00 x00 x44 x00 x00 x00)
(T (W x00 x00 x00 x00 x00 x00 x00 x00)
(T (W xff xff xff xff x04 x00 x00 x00)
(L (W x00 x00 x00 x00 x02 x00 x00 x00))
(L (W x02 x00 x00 x00 x30 x01 x00 x00)))
(T (W x35 x00 x00 x00 x38 x00 x00 x00)
(L (W x28 x00 x00 x00 x2b x00 x00 x00))
(L (W xff xff xff xff xff xff xff xff))))
(T (W xd2 x01 x00 x00 xff xff xff xff)
(T (W x00 x00 x00 x00 x00 x00 x00 x00)
(L (W x45 x26 x22 x84 xe4 x9c xf2 xcb))
(L (W xff xff xff xff xff xff xff xff)))
(T (W x82 x02 xfe xff x74 x00 x00 x00)
(L (W xff xff xff xff xff xff xff xff))
(L (W x6c x00 x00 x00 x60 x00 x00 x00)))))
(T (W x00 x00 x00 x00 x00 x00 x00 x00)
(T (W x00 x00 x00 x00 x00 x00 x00 x00)
(T (W xff xff xff xff xff xff xff xff)
(L (W x00 x00 x80 x3f x00 x00 x80 x3f))
(L (W x00 x00 x00 x00 x00 x4c xff xff)))
(T (W x49 xa1 x68 x4a xeb x5f xdd x3d)
(L (W x00 x00 x00 x00 x00 x00 x00 x00))
(L (W xff xff xff xff xff xff xff xff))))
(T (W xff xff xff xff xff xff xff xff)
(T (W x04 x00 x00 x00 x62 x8b xfd xff)
(L (W x18 x00 x00 x00 x0c x00 x00 x00))
(L (W xff xff xff xff xff xff xff xff)))
(T (W x45 x26 x22 x84 xe4 x9c xf2 xcb)
(L (W x54 x02 x00 x00 x38 x01 x00 x00)) E))))
(T (W x00 x00 x80 x3f x00 x00 x80 x3f)
(T (W x00 x00 x80 x3f x00 x00 x80 x3f)
(T (W x00 x00 x00 x00 x00 x00 x00 x00)
(T (W x82 x52 xfd xff x74 x00 x00 x00)
(L (W xe4 x01 x00 x00 x68 x00 x00 x00))
(L (W x00 x00 x00 x00 x00 x00 x00 x00)))
(T (W xff xff xff xff xff xff xff xff)
(L (W xff xff xff xff xff xff xff xff))
(L (W x00 x00 x00 x00 x00 x00 x00 x00))))
(T (W xff xff xff xff xff xff xff xff)
(T (W x6c x00 x00 x00 x60 x00 x00 x00)
(L (W x68 x00 x00 x00 x5c x00 x00 x00))
(L (W xff xff xff xff xff xff xff xff)))
(T (W x68 x00 x00 x00 x5c x00 x00 x00)
(L (W x2c x02 x00 x00 x28 x01 x00 x00))
(L (W x45 x26 x22 x84 xe4 x9c xf2 xcb)))))
(T (W x00 x00 x00 x00 x00 x00 x00 x00)
(T (W x00 x00 x00 x00 x04 x00 x00 x00)
(T (W xff xff xff xff xff xff xff xff)
(L (W x54 x00 x00 x00 x48 x00 x00 x00))
(L (W xff xff xff xff xc8 x00 x00 x00)))
(T (W xff xff xff xff xac x00 x00 x00)
(L (W x00 x00 x80 xbf x00 x00 x80 xbf))
(L (W x54 x00 x00 x00 x48 x00 x00 x00))))
(T (W xff xff xff xff xff xff xff xff)
(T (W x45 x26 x22 x84 xe4 x9c xf2 xcb)
(L (W xff xff xff xff xbc x00 x00 x00))
(L (W xff xff xff xff xff xff xff xff)))
(T (W xff xff xff xff xff xff xff xff)
(L (W xff xff xff xff xff xff xff xff)) E)))))))
(T (W x00 x00 x01 x01 xd4 x02 x00 x00)
(T (W x00 x00 x80 x3f x00 x00 x80 x3f)
(T (W x50 x00 x00 x00 x44 x00 x00 x00)
(T (W x00 x00 x00 x00 x00 x00 x00 x00)
(T (W x00 x00 x00 x00 x00 x00 x00 x00)
(T (W x32 x60 xff xff x00 x00 x01 x01)
(T (W x00 x00 x80 x3f x00 x00 x80 x3f)
(L (W x00 x00 x80 x3f x00 x00 x80 x3f))
(L (W xff xff xff xff xff xff xff xff)))
(T (W x4f x84 x6f x8b xe8 xcb x63 xb7)
(L (W x00 x00 x00 x00 xda xa6 xfe xff))
(L (W x45 x26 x22 x84 xe4 x9c xf2 xcb))))
(T (W x64 x00 x00 x00 x9c x00 x00 x00)
(T (W x35 x00 x00 x00 x38 x00 x00 x00)
(L (W x4f x84 x6f x8b xe8 xcb x63 xb7))
(L (W x45 x26 x22 x84 xe4 x9c xf2 xcb)))
(T (W x00 x00 x80 x3f x00 x00 x80 x3f)
(L (W x00 x00 x80 xbf x00 x00 x80 xbf))
(L (W x45 x26 x22 x84 xe4 x9c xf2 xcb)))))
(T (W x32 x35 xfe xff x00 x00 x01 x01)
(T (W xff xff xff xff xff xff xff xff)
(T (W x44 x00 x48 x00 x4c x00 x50 x00)
(L (W x00 x00 x80 x3f x00 x00 x80 x3f))
(L (W x46 x53 x59 x53 x5f x4e x53 x5f)))
(T (W xff xff xff xff xff xff xff xff)
(L (W x03 x00 x00 x00 xd0 x00 x00 x00))
(L (W xff xff xff xff xff xff xff xff))))
(T (W x00 x00 x00 x00 x00 x02 xfd xff)
(T (W x00 x00 x80 x3f x00 x00 x80 x3f)
(L (W x45 x26 x22 x84 xe4 x9c xf2 xcb))
(L (W xff xff xff xff xff xff xff xff)))
(T (W x00 x00 x00 x00 x00 x00 x00 x00)
(L (W x82 x18 xff xff x74 x00 x00 x00))
(L (W x00 x00 x00 x00 x12 x00 x00 x00))))))
(T (W x45 x26 x22 x84 xe4 x9c xf2 xcb)
(T (W x00 x00 x00 x00 x00 x00 x00 x00)
(T (W xff xff xff xff xff xff xff xff)
(T (W x00 x00 x80 x3f x00 x00 x80 x3f)
(L (W x45 x26 x22 x84 xe4 x9c xf2 xcb))
(L (W xff xff xff xff xff xff xff xff)))
(T (W x00 x00 x80 x3f x00 x00 x80 x3f)
(L (W x03 x00 x00 x00 xd8 x00 x00 x00))
(L (W xb0 x00 x00 x00 x1e x00 x00 x00))))
(T (W x50 x00 x00 x00 x44 x00 x00 x00)
(T (W x2e x00 x00 x00 x0c x00 x00 x00)
(L (W x45 x44 x00 x00 x00 x00 x00 x00))
(L (W x1c x00 x00 x00 x10 x00 x00 x00)))
(T (W x00 x00 x80 x3f x00 x00 x80 x3f)
(L (W x00 x00 x00 x00 x00 xf2 xfe xff))
(L (W x3c x00 x00 x00 x00 x00 x80 xbf)))))
(T (W x93 x01 x00 x00 xff xff xff xff)
(T (W xff xff xff xff xff xff xff xff)
(T (W x88 x50 xfd xff x00 x01 x01 x01)
(L (W x02 x00 x00 x00 xff xff xff xff))
(L (W x00 x00 x80 xbf x00 x00 x80 xbf)))
(T (W x00 x00 x00 x00 x00 x00 x00 x00)
(L (W xcc xdb xfe xff x35 x00 x00 x00))
(L (W x00 x00 x00 x00 x00 x00 x00 x00))))
(T (W x01 x00 x00 x00 xa0 x00 x00 x00)
(T (W xff xff xff xff xff xff xff xff)
(L (W x6c x00 x00 x00 x60 x00 x00 x00))
(L (W x18 x00 x00 x00 x0c x00 x00 x00)))
(T (W x00 x00 x00 x00 x00 x12 xfe xff)
(L (W xff xff xff xff xc8 x00 x00 x00)) E)))))
(T (W x45 x26 x22 x84 xe4 x9c xf2 xcb)
(T (W x45 x26 x22 x84 xe4 x9c xf2 xcb)
(T (W x00 x00 x00 x00 x00 x00 x00 x00)
(T (W xff xff xff xff xff xff xff xff)
(T (W x00 x00 x80 x3f x00 x00 x80 x3f)
(L (W xff xff xff xff xff xff xff xff))
(L (W x03 x00 x00 x00 xd0 x00 x00 x00)))
(T (W x45 x26 x22 x84 xe4 x9c xf2 xcb)
(L (W x77 x61 x72 x6c x69 x6b x65 x5f))
(L (W x18 x00 x00 x00 x0c x00 x00 x00))))
(T (W x88 xe8 xfc xff x00 x01 x01 x01)
(T (W xff xff xff xff xff xff xff xff)
(L (W xcc x73 xfe xff x23 x00 x00 x00))
(L (W x00 x00 x80 xbf x00 x00 x80 xbf)))
(T (W x00 x00 x80 x3f x00 x00 x80 x3f)
(L (W x6c x00 x00 x00 x60 x00 x00 x00))
(L (W x00 x00 x00 x00 x00 x00 x00 x00)))))
(T (W xff xff xff xff xff xff xff xff)
(T (W xff xff xff xff xff xff xff xff)
(T (W x00 x00 x80 x3f x00 x00 x80 x3f)
(L (W x00 x00 x00 x00 x00 x00 x00 x00))
(L (W x00 x00 x80 xbf x00 x00 x80 xbf)))
(T (W xff xff xff xff xff xff xff xff)
(L (W xff xff xff xff xff xff xff xff))
(L (W xff xff xff xff xff xff xff xff))))
(T (W x00 x00 x62 x00 x7c x00 x08 x00)
(T (W xc4 x00 x00 x00 x01 x00 x00 x00)
(L (W x7c x4b x69 x12 x83 x6f x37 xc6))
(L (W x23 x00 x00 x00 x26 x00 x00 x00)))
(T (W x00 x00 x00 x00 x00 x00 x00 x00)
(L (W x18 x00 x00 x00 x0c x00 x00 x00)) E))))
(T (W x00 x00 x80 x3f x00 x00 x80 x3f)
(T (W x3e x00 x00 x00 x0c x00 x00 x00)
(T (W xff xff xff xff xff xff xff xff)
(T (W x00 x00 x80 x3f x00 x00 x80 x3f)
(L (W xff xff xff xff xff xff xff xff))
(L (W x00 x00 x00 x00 x62 x39 xff xff)))
(T (W xff xff xff xff xa0 x00 x00 x00)
(L (W x25 x00 x00 x00 x28 x00 x00 x00))
(L (W xff xff xff xff xff xff xff xff))))
(T (W x82 x10 xfd xff x74 x00 x00 x00)
(T (W x00 x00 x00 x00 x00 x00 x00 x00)
(L (W x00 x00 x00 x00 x00 x00 x00 x00))
(L (W x82 x90 xff xff x74 x00 x00 x00)))
(T (W x45 x26 x22 x84 xe4 x9c xf2 xcb)
(L (W xff xff xff xff xb0 x00 x00 x00))
(L (W xff xff xff xff xff xff xff xff)))))
(T (W xba x56 xff xff xdd x01 x00 x00)
(T (W xff xff xff xff xff xff xff xff)
(T (W xff xff xff xff xa0 x00 x00 x00)
(L (W x00 x00 x00 x00 x00 x00 x00 x00))
(L (W x00 x00 x80 xbf x00 x00 x80 xbf)))
(T (W x4f x84 x6f x8b xe8 xcb x63 xb7)
(L (W x00 x00 x00 x00 x00 x00 x00 x00))
(L (W x14 x00 x18 x00 x00 x00 x00 x00))))
(T (W x82 x30 xfd xff x74 x00 x00 x00)
(T (W x00 x00 x00 x00 x00 x00 x00 x00)
(L (W x00 x00 x80 x3f x00 x00 x80 x3f))
(L (W x00 x00 x00 x00 x00 x00 x00 x00)))
(T (W x88 x18 xfe xff x00 x01 x01 x01)
(L (W x18 x00 x00 x00 x0c x00 x00 x00)) E))))))
(T (W xff xff xff xff xff xff xff xff)
(T (W xff xff xff xff xff xff xff xff)
(T (W xff xff xff xff xff xff xff xff)
(T (W x82 x7c xfc xff x74 x00 x00 x00)
(T (W x00 x00 x00 x00 x00 x00 x00 x00)
(T (W x27 x00 x00 x00 x10 x00 x00 x00)
(L (W x00 x00 x00 x00 x00 x00 x00 x00))
(L (W x00 x00 x00 x00 x00 x00 x00 x00)))
(T (W xff xff xff xff xff xff xff xff)
(L (W xff xff xff xff xff xff xff xff))
(L (W x00 x00 x00 x00 x00 x00 x00 x00))))
(T (W x45 x26 x22 x84 xe4 x9c xf2 xcb)
(T (W x00 x00 x00 x00 x00 x00 x00 x00)
(L (W xbc x00 x00 x00 x01 x00 x00 x00))
(L (W xff xff xff xff xff xff xff xff)))
(T (W xff xff xff xff xff xff xff xff)
(L (W xff xff xff xff xff xff xff xff))
(L (W x00 x00 x00 x00 x00 x00 x00 x00)))))
(T (W x50 x00 x00 x00 x44 x00 x00 x00)
(T (W x00 x00 x00 x00 x00 x00 x00 x00)
(T (W xff xff xff xff xff xff xff xff)
(L (W xff xff xff xff xff xff xff xff))
(L (W xc4 x00 x00 x00 x02 x00 x00 x00)))
(T (W x45 x26 x22 x84 xe4 x9c xf2 xcb)
(L (W x00 x00 x80 xbf x00 x00 x80 xbf))
(L (W x46 x53 x59 x53 x5f x4e x53 x5f))))
(T (W x46 x9e x62 x68 xef x87 x7c x99)
(T (W x30 x34 x5f x43 x4c x45 x41 x52)
(L (W x45 x26 x22 x84 xe4 x9c xf2 xcb))
(L (W x00 x00 x80 xbf x00 x00 x80 xbf)))
(T (W x82 x1c xfe xff x74 x00 x00 x00)
(L (W x00 x00 x00 x00 x00 x00 x00 x00))
(L (W xff xff xff xff xff xff xff xff))))))
(T (W xff xff xff xff x04 x00 x00 x00)
(T (W x18 x00 x00 x00 x10 x00 x00 x00)
(T (W x00 x00 x80 x3f x00 x00 x80 x3f)
(T (W x1c x01 x00 x00 x04 x00 x00 x00)
(L (W x00 x00 x00 x00 x00 x00 x00 x00))
(L (W x00 x00 x80 xbf x00 x00 x80 xbf)))
(T (W x00 x00 x00 x00 x00 x00 x00 x00)
(L (W x00 x00 x00 x00 x00 x00 x00 x00))
(L (W x4f x84 x6f x8b xe8 xcb x63 xb7))))
(T (W x00 x00 x00 x00 x00 x00 x00 x00)
(T (W x45 x26 x22 x84 xe4 x9c xf2 xcb)
(L (W x00 x00 x80 xbf x00 x00 x80 xbf))
(L (W x02 x00 x00 x00 x30 x01 x00 x00)))
(T (W xff xff xff xff xff xff xff xff)
(L (W x12 x00 x00 x00 x46 x53 x59 x53))
(L (W x00 x00 x00 x00 x00 x00 x00 x00)))))
(T (W x00 x00 x80 x3f x00 x00 x80 x3f)
(T (W x00 x00 x00 x00 x00 x00 x00 x00)
(T (W x00 x00 x00 x00 x00 x00 x00 x00)
(L (W x45 x26 x22 x84 xe4 x9c xf2 xcb))
(L (W xff xff xff xff xff xff xff xff)))
(T (W xff xff xff xff x9c x00 x00 x00)
(L (W xff xff xff xff xff xff xff xff))
(L (W x00 x00 x00 x00 x00 x00 x00 x00))))
(T (W x00 x00 x00 x00 x00 x00 x00 x00)
(T (W x00 x00 x80 x3f x00 x00 x80 x3f)
(L (W x45 x26 x22 x84 xe4 x9c xf2 xcb))
(L (W x00 x00 x00 x00 x00 x00 x00 x00)))
(T (W x00 x00 x00 x00 x00 x00 x00 x00)
(L (W x00 x00 x80 xbf x00 x00 x80 xbf)) E)))))
(T (W xcc x01 x00 x00 xff xff xff xff)
(T (W xff xff xff xff xff xff xff xff)
(T (W x45 x26 x22 x84 xe4 x9c xf2 xcb)
(T (W x45 x26 x22 x84 xe4 x9c xf2 xcb)
(T (W x00 x00 x00 x00 xd2 xed xff xff)
(L (W x00 x00 x00 x00 x00 x00 x00 x00))
(L (W x00 x00 x00 x00 x00 x00 x00 x00)))
(T (W xff xff xff xff xff xff xff xff)
(L (W x30 x34 x5f x43 x4c x45 x41 x52))
(L (W x00 x00 x00 x00 x00 x00 x00 x00))))
(T (W x00 x00 x00 x00 x00 x00 x00 x00)
(T (W x00 x00 x80 x3f x00 x00 x80 x3f)
(L (W x00 x00 x80 xbf x00 x00 x80 xbf))
(L (W x00 x00 x00 x00 x00 x00 x00 x00)))
(T (W x32 xa1 xff xff x00 x00 x01 x01)
(L (W x65 x4e xbb x28 xbf xd3 x6a x6a))
(L (W xff xff xff xff x8c x00 x00 x00)))))
(T (W x6c x00 x00 x00 x60 x00 x00 x00)
(T (W x00 x00 x00 x00 x00 x00 x00 x00)
(T (W x00 x00 x00 x00 x00 x00 x00 x00)
(L (W x00 x00 x00 x00 x00 x00 x00 x00))
(L (W xff xff xff xff xff xff xff xff)))
(T (W x68 x00 x00 x00 x5c x00 x00 x00)
(L (W x54 x00 x00 x00 x48 x00 x00 x00))
(L (W x00 x00 x00 x00 x00 x00 x00 x00))))
(T (W x00 x00 x00 x00 x00 x00 x00 x00)
(T (W x00 x00 x00 x00 x00 x00 x00 x00)
(L (W xff xff xff xff xff xff xff xff))
(L (W x00 x00 x80 xbf x00 x00 x80 xbf)))
(T (W xff xff xff xff xff xff xff xff)
(L (W x45 x26 x22 x84 xe4 x9c xf2 xcb)) E))))
(T (W x18 x00 x00 x00 x0c x00 x00 x00)
(T (W x40 x00 x00 x00 x9c x00 x00 x00)
(T (W x00 x00 x80 x3f x00 x00 x80 x3f)
(T (W xff xff xff xff xff xff xff xff)
(L (W xff xff xff xff xff xff xff xff))
(L (W x45 x26 x22 x84 xe4 x9c xf2 xcb)))
(T (W x00 x00 x00 x00 x00 x00 x00 x00)
(L (W x00 x00 x00 x00 x12 x00 x00 x00))
(L (W x00 x00 x00 x00 x00 x00 x00 x00))))
(T (W x24 x03 xfd xff x3c x00 x00 x00)
(T (W xff xff xff xff xff xff xff xff)
(L (W xff xff xff xff xff xff xff xff))
(L (W x00 x00 x00 x00 x00 x00 x00 x00)))
(T (W xff xff xff xff xff xff xff xff)
(L (W x00 x00 x00 x00 x00 x00 x00 x00))
(L (W x00 x00 x01 x01 xb5 x01 x00 x00)))))
(T (W x00 x00 x80 x3f x00 x00 x80 x3f)
(T (W x00 x00 x00 x00 x00 x00 x00 x00)
(T (W x00 x00 x00 x00 x00 x00 x00 x00)
(L (W xb0 x00 x00 x00 x1e x00 x00 x00))
(L (W x00 x00 x00 x00 xda x5e xff xff)))
(T (W xff xff xff xff xff xff xff xff)
(L (W xff xff xff xff xff xff xff xff))
(L (W xff xff xff xff xff xff xff xff))))
(T (W x00 x00 x00 x00 x00 x00 x00 x00)
(T (W x27 x00 x00 x00 x2a x00 x00 x00)
(L (W x00 x00 x00 x00 x12 x00 x00 x00))
(L (W x00 x00 x00 x00 x00 x00 x00 x00)))
(T (W x00 x00 x00 x00 x02 x00 x00 x00)
(L (W x00 x00 x00 x00 x00 x00 x00 x00)) E))))))))))
(T (W x00 xd8 x02 x00 xa4 xd5 x02 x00)
(T (W xf0 x57 x02 x00 xb4 x56 x02 x00)
(T (W xa0 xb3 x01 x00 xec xae x01 x00)
(T (W x50 x60 x00 x00 x1c x5f x00 x00)
(T (W x45 x26 x22 x84 xe4 x9c xf2 xcb)
(T (W x00 x00 x00 x00 x00 x00 x00 x00)
(T (W x45 x26 x22 x84 xe4 x9c xf2 xcb)
(T (W xfa x0e x3b xd5 x81 xff x20 xbd)
(T (W xff xff xff xff x04 x00 x00 x00)
(T (W x00 x00 x80 x3f x00 x00 x80 x3f)
(L (W x00 x00 x80 x3f x00 x00 x80 x3f))
(L (W x27 x00 x00 x00 x2a x00 x00 x00)))
(T (W x12 xce xfd xff x00 x00 x01 x01)
(L (W xff xff xff xff xe0 x00 x00 x00))
(L (W x45 x26 x22 x84 xe4 x9c xf2 xcb))))
(T (W x68 x00 x00 x00 x5c x00 x00 x00)
(T (W x42 x75 xfd xff x74 x00 x00 x00)
(L (W x8c x68 xfe xff x12 x00 x00 x00))
(L (W x00 x00 x80 xbf x00 x00 x80 xbf)))
(T (W x00 x00 x00 x00 x00 x00 x00 x00)
(L (W x00 x00 x00 x00 x00 x00 x00 x00))
(L (W x00 x00 x00 x00 x00 x00 x00 x00)))))
(T (W xff xff xff xff xff xff xff xff)
(T (W x40 x00 x00 x00 xa0 x00 x00 x00)
(T (W x00 x00 x00 x00 x00 x00 x00 x00)
(L (W x00 x00 x00 x00 x00 x00 x00 x00))
(L (W xff xff xff xff xff xff xff xff)))
(T (W x45 x26 x22 x84 xe4 x9c xf2 xcb)
(L (W x00 x00 x80 x3f x00 x00 x80 x3f))
(L (W x03 x00 x00 x00 xd0 x00 x00 x00))))
(T (W x00 x00 x80 x3f x00 x00 x80 x3f)
(T (W x00 x00 x00 x00 x00 x00 x00 x00)
(L (W x00 x00 x00 x00 x00 x00 x00 x00))
(L (W x50 x00 x00 x00 x44 x00 x00 x00)))
(T (W x00 x00 x00 x00 x00 x00 x00 x00)
(L (W x00 x00 x80 xbf x00 x00 x80 xbf))
(L (W x00 x00 x80 xbf x00 x00 x80 xbf))))))
(T (W x00 x00 x00 x00 x00 x00 x00 x00)
(T (W xff xff xff xff xff xff xff xff)
(T (W x42 xc5 xfc xff x74 x00 x00 x00)
(T (W x45 x26 x22 x84 xe4 x9c xf2 xcb)
(L (W x48 x2d xfe xff x00 x01 x01 x01))
(L (W xcc x00 x00 x00 x01 x00 x00 x00)))
(T (W x00 x00 x00 x00 x00 x00 x00 x00)
(L (W x00 x00 x80 x3f x00 x00 x80 x3f))
(L (W x45 x26 x22 x84 xe4 x9c xf2 xcb))))
(T (W x48 xed xfc xff x00 x01 x01 x01)
(T (W xff xff xff xff xff xff xff xff)
(L (W xff xff xff xff xff xff xff xff))
(L (W x00 x00 x80 xbf x00 x00 x80 xbf)))
(T (W x45 x26 x22 x84 xe4 x9c xf2 xcb)
(L (W x00 x00 x80 xbf x00 x00 x80 xbf))
(L (W x06 x00 x00 x00 x58 x06 x00 x00)))))
(T (W xff xff xff xff xff xff xff xff)
(T (W x42 xe5 xfc xff x74 x00 x00 x00)
(T (W x00 x00 x80 x3f x00 x00 x80 x3f)
(L (W xff xff xff xff xff xff xff xff))
(L (W x00 x00 x00 x00 x00 x00 x00 x00)))
(T (W xff xff xff xff xff xff xff xff)
(L (W xff xff xff xff xff xff xff xff))
(L (W x45 x26 x22 x84 xe4 x9c xf2 xcb))))
(T (W x00 x00 x80 x3f x00 x00 x80 x3f)
(T (W x18 x00 x00 x00 x0c x00 x00 x00)
(L (W x00 x00 x00 x00 x00 x00 x00 x00))
(L (W x23 x00 x00 x00 x26 x00 x00 x00)))
(T (W x00 x00 x00 x00 x00 x00 x00 x00)
(L (W x45 x26 x22 x84 xe4 x9c xf2 xcb)) E)))))
(T (W x00 x00 x00 x00 x00 x00 x00 x00)
(T (W x00 x00 x00 x00 x00 x00 x00 x00)
(T (W xb3 x01 x00 x00 xff xff xff xff)
(T (W x18 x00 x00 x00 x0c x00 x00 x00)
(T (W x00 x00 x80 x3f x00 x00 x80 x3f)
(L (W x00 x00 x80 x3f x00 x00 x80 x3f))
(L (W x8a x29 xff xff x78 x00 x00 x00)))
(T (W x00 x00 x00 x00 x00 x00 x00 x00)
(L (W x00 x00 x00 x00 x00 x00 x00 x00))
(L (W x00 x00 x80 xbf x00 x00 x80 xbf))))
(T (W x42 xfd xfc xff x74 x00 x00 x00)
(T (W xff xff xff xff xb0 x00 x00 x00)
(L (W x00 x00 x00 x00 x00 x00 x00 x00))
(L (W x00 x00 x00 x00 x00 x00 x00 x00)))
(T (W x00 x00 x00 x00 x00 x00 x00 x00)
(L (W x00 x00 x00 x00 x00 x00 x00 x00))
(L (W xff xff xff xff xff xff xff xff)))))
(T (W x95 x01 x00 x00 xff xff xff xff)
(T (W x18 x00 x00 x00 x0c x00 x00 x00)
(T (W x00 x00 x00 x00 x00 x00 x00 x00)
(L (W x00 x00 x00 x00 x00 x00 x00 x00))
(L (W x00 x00 x00 x00 x00 x00 x00 x00)))
(T (W xff xff xff xff xff xff xff xff)
(L (W xff xff xff xff xb0 x00 x00 x00))
(L (W x2c x00 x30 x00 x34 x00 x38 x00))))
(T (W x00 x00 x80 x3f x00 x00 x80 x3f)
(T (W x00 x00 x80 x3f x00 x00 x80 x3f)
(L (W x03 x00 x00 x00 xbc x00 x00 x00))
(L (W x1c x00 x00 x00 x10 x00 x00 x00)))
(T (W xf2 xb9 xff xff x00 x00 x01 x01)
(L (W x6c x00 x00 x00 x60 x00 x00 x00))
(L (W x00 x00 x80 xbf x00 x00 x80 xbf))))))
(T (W x00 x00 x00 x00 x00 x00 x00 x00)
(T (W xff xff xff xff xff xff xff xff)
(T (W x45 x26 x22 x84 xe4 x9c xf2 xcb)
(T (W x00 x00 x80 x3f x00 x00 x80 x3f)
(L (W x00 x00 x80 x3f x00 x00 x80 x3f))
(L (W xff xff xff xff xff xff xff xff)))
(T (W x00 x00 x80 x3f x00 x00 x80 x3f)
(L (W x6c x00 x00 x00 x60 x00 x00 x00))
(L (W x45 x26 x22 x84 xe4 x9c xf2 xcb))))
(T (W x00 x00 x80 x3f x00 x00 x80 x3f)
(T (W x02 x00 x00 x00 x30 x01 x00 x00)
(L (W xff xff xff xff xff xff xff xff))
(L (W x00 x00 x80 xbf x00 x00 x80 xbf)))
(T (W x00 x00 x00 x00 x00 x00 x00 x00)
(L (W x00 x00 x80 xbf x00 x00 x80 xbf))
(L (W xc4 x00 x00 x00 x01 x00 x00 x00)))))
(T (W xff xff xff xff xff xff xff xff)
(T (W x00 x00 x80 x3f x00 x00 x80 x3f)
(T (W x00 x00 x80 x3f x00 x00 x80 x3f)
(L (W x81 x00 x00 x00 xff xff xff xff))
(L (W x00 x00 x00 x00 x00 x00 x00 x00)))
(T (W x28 x00 x00 x00 x0c x00 x00 x00)
(L (W x00 x00 x00 x00 x00 x00 x00 x00))
(L (W x00 x00 x80 xbf x00 x00 x80 xbf))))
(T (W x00 x00 x80 x3f x00 x00 x80 x3f)
(T (W xff xff xff xff xff xff xff xff)
(L (W x9a x01 x00 x00 xff xff xff xff))
(L (W x8a x99 xff xff x78 x00 x00 x00)))
(T (W x00 x00 x80 x3f x00 x00 x80 x3f)
(L (W x2b x00 x00 x00 x2e x00 x00 x00)) E))))))
(T (W xff xff xff xff xff xff xff xff)
(T (W xff xff xff xff xff xff xff xff)
(T (W x45 x26 x22 x84 xe4 x9c xf2 xcb)
(T (W x18 x00 x00 x00 x0c x00 x00 x00)
(T (W x00 x00 x80 x3f x00 x00 x80 x3f)
(T (W xff xff xff xff xff xff xff xff)
(L (W xff xff xff xff xff xff xff xff))
(L (W x00 x00 x00 x00 x00 x00 x00 x00)))
(T (W x18 x00 x00 x00 x10 x00 x00 x00)
(L (W x00 x00 x80 x3f x00 x00 x80 x3f))
(L (W xff xff xff xff xff xff xff xff))))
(T (W x40 x00 x00 x00 x10 x00 x00 x00)
(T (W x00 x00 x00 x00 x00 x00 x00 x00)
(L (W x14 x00 x00 x00 x0c x00 x00 x00))
(L (W xff xff xff xff xff xff xff xff)))
(T (W xff xff xff xff xff xff xff xff)
(L (W xff xff xff xff xb0 x00 x00 x00))
(L (W xc4 x00 x00 x00 x01 x00 x00 x00)))))
(T (W x45 x26 x22 x84 xe4 x9c xf2 xcb)
(T (W x00 x00 x00 x00 x00 x00 x00 x00)
(T (W x50 x00 x00 x00 x44 x00 x00 x00)
(L (W x18 x00 x00 x00 x10 x00 x00 x00))
(L (W x00 x00 x80 xbf x00 x00 x80 xbf)))
(T (W x00 x00 x00 x00 x00 x00 x00 x00)
(L (W x45 x44 x00 x00 x00 x00 x00 x00))
(L (W x00 x00 x00 x00 xfa xbe xff xff))))
(T (W xff xff xff xff xff xff xff xff)
(T (W xff xff xff xff xff xff xff xff)
(L (W x00 x00 x00 x00 x01 x00 x00 x00))
(L (W x30 x34 x5f x43 x4c x45 x41 x52)))
(T (W x68 x00 x00 x00 x5c x00 x00 x00)
(L (W x94 x04 x00 x00 x80 x03 x00 x00))
(L (W xff xff xff xff xff xff xff xff))))))
(T (W x48 x51 xfc xff x00 x01 x01 x01)
(T (W x54 x00 x00 x00 x48 x00 x00 x00)
(T (W x00 x00 x00 x00 x00 x00 x00 x00)
(T (W xb8 x00 x00 x00 xac x00 x00 x00)
(L (W x00 x00 x00 x00 x02 x00 x00 x00))
(L (W x00 x00 x00 x00 x00 x00 x00 x00)))
(T (W xff xff xff xff xff xff xff xff)
(L (W x30 x34 x5f x43 x4c x45 x41 x52))
(L (W x8c xbc xff xff x26 x00 x00 x00))))
(T (W xff xff xff xff xff xff xff xff)
(T (W x00 x00 x80 x3f x00 x00 x80 x3f)
(L (W x00 x00 x80 xbf x00 x00 x80 xbf))
(L (W x2a x00 x00 x00 xff xff xff xff)))
(T (W xff xff xff xff xff xff xff xff)
(L (W xff xff xff xff xff xff xff xff))
(L (W x00 x00 x48 x00 x4c x00 x00 x00)))))
(T (W x45 x26 x22 x84 xe4 x9c xf2 xcb)
(T (W x00 x00 x00 x00 x00 x00 x00 x00)
(T (W xff xff xff xff xff xff xff xff)
(L (W x00 x00 x80 x3f x00 x00 x80 x3f))
(L (W x23 x00 x00 x00 x26 x00 x00 x00)))
(T (W x00 x00 x80 x3f x00 x00 x80 x3f)
(L (W x00 x00 x80 xbf x00 x00 x80 xbf))
(L (W xff xff xff xff xff xff xff xff))))
(T (W x5e x00 x00 x00 xff xff xff xff)
(T (W x00 x00 x00 x00 x00 x00 x00 x00)
(L (W x61 x72 x6c x69 x6b x65 x5f x6c))
(L (W x00 x00 x00 x00 x9a x93 xff xff)))
(T (W x18 x01 x00 x00 x04 x00 x00 x00)
(L (W x00 x00 x00 x00 x00 x00 x00 x00)) E)))))
(T (W xb8 x00 x00 x00 xac x00 x00 x00)
(T (W x68 x00 x00 x00 x5c x00 x00 x00)
(T (W x00 x00 x80 x3f x00 x00 x80 x3f)
(T (W x00 x00 x00 x00 x00 x00 x00 x00)
(T (W xff xff xff xff xff xff xff xff)
(L (W x00 x00 x00 x00 x00 x00 x00 x00))
(L (W x45 x44 x00 x00 x00 x00 x00 x00)))
(T (W xff xff xff xff xff xff xff xff)
(L (W x6c x00 x00 x00 x60 x00 x00 x00))
(L (W x00 x00 x00 x00 x92 xa8 xff xff))))
(T (W xf2 x9d xfe xff x00 x00 x01 x01)
(T (W x00 x00 x00 x00 x00 x00 x00 x00)
(L (W x3c x00 x00 x00 x00 x00 x80 xbf))
(L (W xff xff xff xff xff xff xff xff)))
(T (W x00 x00 x00 x00 xc0 xea xfd xff)
(L (W xff xff xff xff xff xff xff xff))
(L (W xbc x00 x00 x00 x01 x00 x00 x00)))))
(T (W x00 x00 x00 x00 x00 x00 x00 x00)
(T (W x00 x00 x00 x00 x00 x00 x00 x00)
(T (W x00 x00 x01 x01 xdf x01 x00 x00)
(L (W x45 x26 x22 x84 xe4 x9c xf2 xcb))
(L (W xff xff xff xff xb0 x00 x00 x00)))
(T (W x00 x00 x00 x00 x00 x00 x00 x00)
(L (W x00 x00 x00 x00 x00 x00 x00 x00))
(L (W x30 x34 x5f x43 x4c x45 x41 x52))))
(T (W x01 x00 x00 x00 x3e x00 x00 x00)
(T (W x00 x00 x00 x00 x00 x00 x00 x00)
(L (W x00 x00 x80 xbf x00 x00 x80 xbf))
(L (W x00 x00 x00 x00 x9a x8f xff xff)))
(T (W x00 x00 x80 x3f x00 x00 x80 x3f)
(L (W x00 x00 x00 x00 x92 x08 xff xff)) E))))
(T (W x45 x26 x22 x84 xe4 x9c xf2 xcb)
(T (W x00 x00 x80 x3f x00 x00 x80 x3f)
(T (W x00 x00 x00 x00 x00 x00 x00 x00)
(T (W xff xff xff xff xff xff xff xff)
(L (W x00 x00 x00 x00 x00 x00 x00 x00))
(L (W x00 x00 x80 xbf x00 x00 x80 xbf)))
(T (W x00 x00 x01 x01 xa4 x01 x00 x00)
(L (W x00 x00 x00 x00 x9a xbf xfe xff))
(L (W x00 x00 x00 x00 x00 x00 x00 x00))))
(T (W xff xff xff xff xff xff xff xff)
(T (W x42 x91 xfd xff x74 x00 x00 x00)
(L (W x42 x91 xfe xff x74 x00 x00 x00))
(L (W x00 x00 x01 x01 x66 x01 x00 x00)))
(T (W x42 x11 xfe xff x74 x00 x00 x00)
(L (W x00 x00 x00 x00 x00 x00 x00 x00))
(L (W x00 x00 x00 x00 x00 x00 x00 x00)))))
(T (W x45 x26 x22 x84 xe4 x9c xf2 xcb)
(T (W x00 x00 x00 x00 x00 x00 x00 x00)
(T (W x00 x00 x01 x01 x2b x01 x00 x00)
(L (W x45 x26 x22 x84 xe4 x9c xf2 xcb))
(L (W xff xff xff xff xff xff xff xff)))
(T (W x45 x26 x22 x84 xe4 x9c xf2 xcb)
(L (W x8a xdd xfe xff x78 x00 x00 x00))
(L (W x45 x26 x22 x84 xe4 x9c xf2 xcb))))
(T (W xf2 xcd xfe xff x00 x00 x01 x01)
(T (W x00 x00 x80 x3f x00 x00 x80 x3f)
(L (W xff xff xff xff xff xff xff xff))
(L (W xff xff xff xff xff xff xff xff)))
(T (W xff xff xff xff xff xff xff xff)
(L (W x00 x00 x00 x00 x9a x1b xff xff)) E)))))))
(T (W x01 x00 x00 x00 x04 x00 x00 x00)
(T (W x45 x26 x22 x84 xe4 x9c xf2 xcb)
(T (W x00 x00 x80 x3f x00 x00 x80 x3f)
(T (W x00 x00 x80 x3f x00 x00 x80 x3f)
(T (W x00 x00 x80 x3f x00 x00 x80 x3f)
(T (W x00 x00 x00 x00 x92 x60 xff xff)
(T (W x68 x00 x00 x00 x5c x00 x00 x00)
(L (W x48 x1f xfe xff x00 x01 x01 x01))
(L (W xff xff xff xff xff xff xff xff)))
(T (W x00 x00 x00 x00 x00 x00 x00 x00)
(L (W x00 x00 x00 x00 x12 x00 x00 x00))
(L (W xff xff xff xff xff xff xff xff))))
(T (W xff xff xff xff x04 x00 x00 x00)
(T (W xff xff xff xff xff xff xff xff)
(L (W x00 x00 x80 xbf x00 x00 x80 xbf))
(L (W xff xff xff xff xff xff xff xff)))
(T (W x6c x00 x00 x00 x60 x00 x00 x00)
(L (W x00 x00 x80 xbf x00 x00 x80 xbf))
(L (W x00 x00 x80 xbf x00 x00 x80 xbf)))))
(T (W x00 x00 x00 x00 x00 x00 x00 x00)
(T (W xff xff xff xff xff xff xff xff)
(T (W xff xff xff xff xff xff xff xff)
(L (W x00 x00 x80 x3f x00 x00 x80 x3f))
(L (W x00 x00 x00 x00 x00 x00 x00 x00)))
(T (W xff xff xff xff xff xff xff xff)
(L (W xff xff xff xff xff xff xff xff))
(L (W xff xff xff xff xff xff xff xff))))
(T (W xff xff xff xff x03 x00 x00 x00)
(T (W x00 x00 x80 x3f x00 x00 x80 x3f)
(L (W x18 x00 x00 x00 x0c x00 x00 x00))
(L (W xff xff xff xff xff xff xff xff)))
(T (W x45 x26 x22 x84 xe4 x9c xf2 xcb)
(L (W xff xff xff xff xb0 x00 x00 x00))
(L (W x1c x00 x20 x00 x24 x00 x28 x00))))))
(T (W x00 x00 x80 x3f x00 x00 x80 x3f)
(T (W x00 x00 x00 x00 x00 x00 x00 x00)
(T (W xff xff xff xff xff xff xff xff)
(T (W x45 x26 x22 x84 xe4 x9c xf2 xcb)
(L (W xff xff xff xff xff xff xff xff))
(L (W xff xff xff xff xff xff xff xff)))
(T (W x45 x26 x22 x84 xe4 x9c xf2 xcb)
(L (W xff xff xff xff xff xff xff xff))
(L (W xff xff xff xff xff xff xff xff))))
(T (W xb8 x00 x00 x00 xac x00 x00 x00)
(T (W x46 x53 x59 x53 x5f x4e x53 x5f)
(L (W x00 x00 x00 x00 x00 x00 x00 x00))
(L (W x18 x00 x00 x00 x10 x00 x00 x00)))
(T (W x68 x00 x00 x00 x5c x00 x00 x00)
(L (W xc4 x00 x00 x00 x02 x00 x00 x00))
(L (W x45 x26 x22 x84 xe4 x9c xf2 xcb)))))
(T (W x00 x00 x00 x00 x00 x00 x00 x00)
(T (W xff xff xff xff xff xff xff xff)
(T (W xff xff xff xff xbc x00 x00 x00)
(L (W x00 x00 x80 x3f x00 x00 x80 x3f))
(L (W x3c x00 x00 x00 x00 x00 x80 xbf)))
(T (W x00 x00 x00 x00 x00 x00 x00 x00)
(L (W x00 x00 x00 x00 x12 x00 x00 x00))
(L (W x18 x00 x1c x00 x06 x00 x07 x00))))
(T (W xb8 x00 x00 x00 xac x00 x00 x00)
(T (W xff xff xff xff xff xff xff xff)
(L (W x18 x00 x00 x00 x0c x00 x00 x00))
(L (W xff xff xff xff xff xff xff xff)))
(T (W xff xff xff xff xff xff xff xff)
(L (W xff xff xff xff xff xff xff xff)) E)))))
(T (W x00 x00 x80 x3f x00 x00 x80 x3f)
(T (W x00 x00 x80 x3f x00 x00 x80 x3f)
(T (W x00 x00 x00 x00 x00 x00 x00 x00)
(T (W x1c x01 x00 x00 x04 x00 x00 x00)
(T (W x48 x27 xfd xff x00 x01 x01 x01)
(L (W xff xff xff xff xff xff xff xff))
(L (W xff xff xff xff xff xff xff xff)))
(T (W x00 x00 x80 x3f x00 x00 x80 x3f)
(L (W x70 x5f x6c x65 x61 x64 x65 x72))
(L (W xff xff xff xff xff xff xff xff))))
(T (W x18 x00 x00 x00 x10 x00 x00 x00)
(T (W x00 x00 x01 x01 x4b x00 x00 x00)
(L (W x00 x00 x00 x00 x12 x00 x00 x00))
(L (W x00 x00 x80 xbf x00 x00 x80 xbf)))
(T (W x00 x00 x80 x3f x00 x00 x80 x3f)
(L (W x50 x00 x00 x00 x44 x00 x00 x00))
(L (W x00 x00 x00 x00 x00 x00 x00 x00)))))
(T (W x00 x00 x00 x00 x00 x00 x00 x00)
(T (W xff xff xff xff xff xff xff xff)
(T (W x00 x00 x80 x3f x00 x00 x80 x3f)
(L (W x00 x00 x80 x3f x00 x00 x80 x3f))
(L (W x00 x00 x80 xbf x00 x00 x80 xbf)))
(T (W x00 x00 x00 x00 x00 x00 x00 x00)
(L (W x04 x00 x00 x00 x22 xc8 xfe xff))
(L (W x2a x00 x00 x00 xff xff xff xff))))
(T (W x62 x00 x00 x00 x65 x00 x00 x00)
(T (W xff xff xff xff xbc x00 x00 x00)
(L (W xe4 x8d xfe xff x2f x00 x00 x00))
(L (W xff xff xff xff xff xff xff xff)))
(T (W x00 x00 x00 x00 x00 x00 x00 x00)
(L (W xff xff xff xff xff xff xff xff)) E))))
(T (W x45 x26 x22 x84 xe4 x9c xf2 xcb)
(T (W x00 x00 x00 x00 x00 x00 x00 x00)
(T (W xff xff xff xff xff xff xff xff)
(T (W x18 x00 x00 x00 x0c x00 x00 x00)
(L (W xff xff xff xff xff xff xff xff))
(L (W x46 x53 x59 x53 x5f x4e x53 x5f)))
(T (W x03 x00 x00 x00 xd8 x00 x00 x00)
(L (W xff xff xff xff xff xff xff xff))
(L (W xff xff xff xff xff xff xff xff))))
(T (W xc0 x00 x00 x00 xb4 x00 x00 x00)
(T (W x00 x00 x00 x00 x00 x00 x00 x00)
(L (W x00 x00 x00 x00 x00 x00 x00 x00))
(L (W xff xff xff xff xb0 x00 x00 x00)))
(T (W x00 x00 x80 x3f x00 x00 x80 x3f)
(L (W xff xff xff xff xff xff xff xff))
(L (W xff xff xff xff xff xff xff xff)))))
(T (W x3e x00 x00 x00 x10 x00 x00 x00)
(T (W xff xff xff xff xff xff xff xff)
(T (W xff xff xff xff xff xff xff xff)
(L (W x4f x84 x6f x8b xe8 xcb x63 xb7))
(L (W x00 x00 x80 xbf x00 x00 x80 xbf)))
(T (W x45 x26 x22 x84 xe4 x9c xf2 xcb)
(L (W x45 x26 x22 x84 xe4 x9c xf2 xcb))
(L (W x62 x00 x00 x00 x00 x00 x01 x01))))
(T (W x45 x26 x22 x84 xe4 x9c xf2 xcb)
(T (W x00 x00 x00 x00 x00 x00 x00 x00)
(L (W x00 x00 x00 x00 x00 x00 x00 x00))
(L (W x05 x00 x06 x00 x00 x00 x00 x00)))
(T (W x45 x26 x22 x84 xe4 x9c xf2 xcb)
(L (W xff xff xff xff xff xff xff xff)) E))))))
(T (W xd3 x02 x00 x00 xff xff xff xff)
(T (W xff xff xff xff xff xff xff xff)
(T (W xf2 xf7 xfd xff x00 x00 x01 x01)
(T (W xff xff xff xff xff xff xff xff)
(T (W x00 x00 x80 x3f x00 x00 x80 x3f)
(T (W x00 x00 x00 x00 x00 x00 x00 x00)
(L (W x29 x00 x00 x00 x67 x72 x6f x75))
(L (W x45 x26 x22 x84 xe4 x9c xf2 xcb)))
(T (W xff xff xff xff xff xff xff xff)
(L (W x61 x72 x6c x69 x6b x65 x5f x6c))
(L (W x00 x00 x00 x00 x00 x00 x00 x00))))
(T (W x00 x00 x00 x00 x00 x00 x00 x00)
(T (W x00 x00 x80 x3f x00 x00 x80 x3f)
(L (W xff xff xff xff xff xff xff xff))
(L (W x45 x44 x00 x00 x00 x00 x00 x00)))
(T (W x18 x01 x00 x00 x04 x00 x00 x00)
(L (W xff xff xff xff xff xff xff xff))
(L (W xf0 x01 x00 x00 x68 x00 x00 x00)))))
(T (W x01 x00 x00 x00 xa0 x00 x00 x00)
(T (W x45 x26 x22 x84 xe4 x9c xf2 xcb)
(T (W x23 x00 x00 x00 xff xff xff xff)
(L (W xff xff xff xff xff xff xff xff))
(L (W xff xff xff xff xff xff xff xff)))
(T (W x00 x00 x80 x3f x00 x00 x80 x3f)
(L (W x00 x00 x80 xbf x00 x00 x80 xbf))
(L (W x00 x00 x00 x00 x00 x00 x00 x00))))
(T (W x40 x00 x00 x00 x10 x00 x00 x00)
(T (W x00 x00 x00 x00 x00 x00 x00 x00)
(L (W x00 x00 x80 xbf x00 x00 x80 xbf))
(L (W x54 x00 x00 x00 x48 x00 x00 x00)))
(T (W xff xff xff xff xff xff xff xff)
(L (W x00 x00 x80 xbf x00 x00 x80 xbf))
(L (W x01 x01 x2a x00 x50 x00 x3c x00))))))
(T (W xff xff xff xff xff xff xff xff)
(T (W xff xff xff xff xff xff xff xff)
(T (W x50 x00 x00 x00 x44 x00 x00 x00)
(T (W x3c x6d x59 x87 x65 xea x58 x20)
(L (W x00 x00 x00 x00 x00 x00 x00 x00))
(L (W x8a x37 xff xff x78 x00 x00 x00)))
(T (W x00 x00 x00 x00 x00 x00 x00 x00)
(L (W x49 xa1 x68 x4a xeb x5f xdd x3d))
(L (W x00 x00 x80 xbf x00 x00 x80 xbf))))
(T (W x00 x00 x00 x00 x00 x00 x00 x00)
(T (W x03 x00 x00 x00 xd0 x00 x00 x00)
(L (W x50 x00 x00 x00 x44 x00 x00 x00))
(L (W x30 x34 x5f x43 x4c x45 x41 x52)))
(T (W xf2 xa7 xff xff x00 x00 x01 x01)
(L (W x00 x00 x00 x00 x00 x00 x00 x00))
(L (W x4f x84 x6f x8b xe8 xcb x63 xb7)))))
(T (W x00 x00 x80 x3f x00 x00 x80 x3f)
(T (W x00 x00 x80 x3f x00 x00 x80 x3f)
(T (W x00 x00 x00 x00 x00 x00 x00 x00)
(L (W x18 x00 x00 x00 x10 x00 x00 x00))
(L (W xff xff xff xff xff xff xff xff)))
(T (W xff xff xff xff xff xff xff xff)
(L (W xff xff xff xff xff xff xff xff))
(L (W x00 x00 x00 x00 x00 x00 x00 x00))))
(T (W x45 x26 x22 x84 xe4 x9c xf2 xcb)
(T (W x00 x00 x00 x00 xc0 x94 xfd xff)
(L (W x8a x97 xfe xff x78 x00 x00 x00))
(L (W x00 x00 x00 x00 x00 x00 x00 x00)))
(T (W x00 x00 x00 x00 x00 x00 x00 x00)
(L (W x45 x26 x22 x84 xe4 x9c xf2 xcb)) E)))))
(T (W xcc x01 x00 x00 xff xff xff xff)
(T (W xff xff xff xff xff xff xff xff)
(T (W xff xff xff xff xff xff xff xff)
(T (W x00 x00 x80 x3f x00 x00 x80 x3f)
(T (W x00 x00 x00 x00 x00 x00 x00 x00)
(L (W x00 x00 x80 x3f x00 x00 x80 x3f))
(L (W x00 x00 x80 xbf x00 x00 x80 xbf)))
(T (W x00 x00 x00 x00 x22 xac xfd xff)
(L (W x6c x64 x5f x70 x6f x6b x65 x5f))
(L (W x4f x84 x6f x8b xe8 xcb x63 xb7))))
(T (W x45 x26 x22 x84 xe4 x9c xf2 xcb)
(T (W x50 x00 x00 x00 x44 x00 x00 x00)
(L (W x48 x6b xfe xff x00 x01 x01 x01))
(L (W x00 x00 x00 x00 x00 x00 x00 x00)))
(T (W xff xff xff xff xff xff xff xff)
(L (W x30 x34 x5f x43 x4c x45 x41 x52))
(L (W xff xff xff xff xff xff xff xff)))))
(T (W x42 xa3 xfc xff x74 x00 x00 x00)
(T (W x00 x00 x80 x3f x00 x00 x80 x3f)
(T (W x00 x00 x00 x00 x00 x00 x00 x00)
(L (W x02 x00 x00 x00 xdc x01 x00 x00))
(L (W xff xff xff xff xff xff xff xff)))
(T (W xff xff xff xff x9c x00 x00 x00)
(L (W x68 x00 x00 x00 x5c x00 x00 x00))
(L (W x00 x00 x00 x00 x00 x00 x00 x00))))
(T (W x00 x00 x00 x00 x00 x00 x00 x00)
(T (W x00 x00 x80 x3f x00 x00 x80 x3f)
(L (W xd2 xb2 xfe xff xd4 x02 x00 x00))
(L (W x45 x26 x22 x84 xe4 x9c xf2 xcb)))
(T (W x42 x23 xfe xff x74 x00 x00 x00)
(L (W x00 x00 x80 xbf x00 x00 x80 xbf)) E))))
(T (W xb8 x00 x00 x00 xac x00 x00 x00)
(T (W x18 x00 x00 x00 x10 x00 x00 x00)
(T (W x00 x00 x80 x3f x00 x00 x80 x3f)
(T (W x24 x00 x00 x00 xff xff xff xff)
(L (W xbc x00 x00 x00 xb0 x00 x00 x00))
(L (W x25 x00 x00 x00 x28 x00 x00 x00)))
(T (W x00 x00 x00 x00 x00 x00 x00 x00)
(L (W x45 x26 x22 x84 xe4 x9c xf2 xcb))
(L (W x00 x00 x80 xbf x00 x00 x80 xbf))))
(T (W x00 x00 x00 x00 x00 x00 x00 x00)
(T (W xff xff xff xff xff xff xff xff)
(L (W xff xff xff xff xff xff xff xff))
(L (W x00 x00 x00 x00 x00 x00 x00 x00)))
(T (W xff xff xff xff xff xff xff xff)
(L (W x00 x00 x80 xbf x00 x00 x80 xbf))
(L (W xdf x01 x00 x00 xff xff xff xff)))))
(T (W x00 x00 x80 x3f x00 x00 x80 x3f)
(T (W x00 x00 x80 x3f x00 x00 x80 x3f)
(T (W x00 x00 x00 x00 x00 x00 x00 x00)
(L (W xff xff xff xff xff xff xff xff))
(L (W x00 x00 x00 x00 x00 x00 x00 x00)))
(T (W x00 x00 x00 x00 x00 x00 x00 x00)
(L (W xff xff xff xff xff xff xff xff))
(L (W xff xff xff xff xff xff xff xff))))
(T (W x00 x00 x00 x00 x00 x00 x00 x00)
(T (W xff xff xff xff xff xff xff xff)
(L (W x00 x00 x00 x00 x00 x00 x00 x00))
(L (W x00 x00 x00 x00 x00 x00 x00 x00)))
(T (W x00 x00 x00 x00 x00 x00 x00 x00)
(L (W x00 x00 x00 x00 x00 x00 x00 x00)) E))))))))
(T (W x08 xf2 x00 x00 xbc xef x00 x00)
(T (W xff xff xff xff xff xff xff xff)
(T (W x00 x00 x80 x3f x00 x00 x80 x3f)
(T (W x00 x00 x80 x3f x00 x00 x80 x3f)
(T (W x00 x00 x80 x3f x00 x00 x80 x3f)
(T (W x00 x00 x00 x00 x00 x00 x00 x00)
(T (W xff xff xff xff xff xff xff xff)
(T (W x50 x00 x00 x00 x44 x00 x00 x00)
(L (W x00 x00 x80 x3f x00 x00 x80 x3f))
(L (W xff xff xff xff xff xff xff xff)))
(T (W x5f x4e x53 x5f x30 x34 x5f x43)
(L (W x61 x72 x6c x69 x6b x65 x5f x6c))
(L (W xac x00 x00 x00 x64 x00 x00 x00))))
(T (W x42 xf6 xfc xff x74 x00 x00 x00)
(T (W xff xff xff xff xff xff xff xff)
(L (W x49 xa1 x68 x4a xeb x5f xdd x3d))
(L (W xff xff xff xff xa8 x00 x00 x00)))
(T (W x00 x00 x80 x3f x00 x00 x80 x3f)
(L (W x00 x00 x80 xbf x00 x00 x80 xbf))
(L (W x45 x26 x22 x84 xe4 x9c xf2 xcb)))))
(T (W x00 x00 x00 x00 x00 x00 x00 x00)
(T (W xff xff xff xff xff xff xff xff)
(T (W x00 x00 x80 x3f x00 x00 x80 x3f)
(L (W x00 x00 x80 x3f x00 x00 x80 x3f))
(L (W x00 x00 x00 x00 x00 x00 x00 x00)))
(T (W xc0 x00 x00 x00 x01 x00 x00 x00)
(L (W xcc x00 x00 x00 x01 x00 x00 x00))
(L (W xff xff xff xff xff xff xff xff))))
(T (W x50 x00 x00 x00 x44 x00 x00 x00)
(T (W x45 x26 x22 x84 xe4 x9c xf2 xcb)
(L (W x00 x00 x80 xbf x00 x00 x80 xbf))
(L (W x03 x00 x00 x00 xd8 x00 x00 x00)))
(T (W x00 x00 x00 x00 x00 x00 x00 x00)
(L (W x00 x00 x00 x00 xc0 xff xfe xff))
(L (W xff xff xff xff xff xff xff xff))))))
(T (W x00 x00 x00 x00 x00 x00 x00 x00)
(T (W xcb x4d x4a x9f xb0 xb4 xe3 x5a)
(T (W xff xff xff xff x04 x00 x00 x00)
(T (W x42 x46 xfd xff x74 x00 x00 x00)
(L (W x45 x26 x22 x84 xe4 x9c xf2 xcb))
(L (W xff xff xff xff xff xff xff xff)))
(T (W x00 x00 x80 x3f x00 x00 x80 x3f)
(L (W xcc x00 x00 x00 x01 x00 x00 x00))
(L (W xff xff xff xff xc0 x00 x00 x00))))
(T (W x18 x00 x00 x00 x10 x00 x00 x00)
(T (W x04 x00 x00 x00 x22 x6f xfd xff)
(L (W x30 x34 x5f x43 x4c x45 x41 x52))
(L (W x54 x00 x00 x00 x48 x00 x00 x00)))
(T (W x00 x00 x80 x3f x00 x00 x80 x3f)
(L (W x45 x26 x22 x84 xe4 x9c xf2 xcb))
(L (W x00 x00 x00 x00 x00 x00 x00 x00)))))
(T (W x48 x03 x00 x00 x34 x02 x00 x00)
(T (W xff xff xff xff x04 x00 x00 x00)
(T (W x45 x26 x22 x84 xe4 x9c xf2 xcb)
(L (W x70 x5f x6c x65 x61 x64 x65 x72))
(L (W x00 x00 x80 xbf x00 x00 x80 xbf)))
(T (W x2d x1f x10 x5c x6e x7b x7c x57)
(L (W x02 x00 x00 x00 x30 x01 x00 x00))
(L (W xff xff xff xff xbc x00 x00 x00))))
(T (W x68 x00 x00 x00 x5c x00 x00 x00)
(T (W xff xff xff xff xff xff xff xff)
(L (W x00 x00 x80 x3f x00 x00 x80 x3f))
(L (W x03 x00 x00 x00 xc8 x00 x00 x00)))
(T (W x00 x00 x00 x00 xc0 x0f xfe xff)
(L (W xff xff xff xff xc0 x00 x00 x00)) E)))))
(T (W x00 x00 x80 x3f x00 x00 x80 x3f)
(T (W x00 x00 x80 x3f x00 x00 x80 x3f)
(T (W x00 x00 x00 x00 x00 x00 x00 x00)
(T (W xff xff xff xff xff xff xff xff)
(T (W x68 x00 x00 x00 x5c x00 x00 x00)
(L (W xff xff xff xff xff xff xff xff))
(L (W x18 x00 x00 x00 x0c x00 x00 x00)))
(T (W x00 x00 x80 x3f x00 x00 x80 x3f)
(L (W xcc x00 x00 x00 x01 x00 x00 x00))
(L (W x18 x00 x00 x00 x0c x00 x00 x00))))
(T (W x45 x26 x22 x84 xe4 x9c xf2 xcb)
(T (W xff xff xff xff xff xff xff xff)
(L (W x00 x00 x00 x00 x00 x00 x00 x00))
(L (W x00 x00 x80 xbf x00 x00 x80 xbf)))
(T (W x00 x00 x80 x3f x00 x00 x80 x3f)
(L (W x00 x00 x80 xbf x00 x00 x80 xbf))
(L (W x8c xf1 xff xff x27 x00 x00 x00)))))
(T (W x00 x00 x00 x00 x00 x00 x00 x00)
(T (W xff xff xff xff xff xff xff xff)
(T (W x00 x00 x00 x00 x00 x00 x00 x00)
(L (W x00 x00 x00 x00 x00 x00 x00 x00))
(L (W x00 x00 x00 x00 x00 x00 x00 x00)))
(T (W xff xff xff xff xff xff xff xff)
(L (W xff xff xff xff xff xff xff xff))
(L (W xff xff xff xff xff xff xff xff))))
(T (W x48 x06 xfd xff x00 x01 x01 x01)
(T (W x45 x26 x22 x84 xe4 x9c xf2 xcb)
(L (W xff xff xff xff xff xff xff xff))
(L (W xff xff xff xff xb0 x00 x00 x00)))
(T (W x00 x00 x00 x00 x00 x00 x00 x00)
(L (W x18 x00 x00 x00 x0c x00 x00 x00)) E))))
(T (W x00 x00 x00 x00 x00 x00 x00 x00)
(T (W x82 x29 xfe xff xb1 x01 x00 x00)
(T (W x18 x00 x00 x00 x10 x00 x00 x00)
(T (W x00 x00 x80 x3f x00 x00 x80 x3f)
(L (W xff xff xff xff xff xff xff xff))
(L (W x00 x00 x01 x01 xb5 x01 x00 x00)))
(T (W x50 x00 x00 x00 x44 x00 x00 x00)
(L (W xff xff xff xff xa0 x00 x00 x00))
(L (W xff xff xff xff xff xff xff xff))))
(T (W x40 x00 x00 x00 x9c x00 x00 x00)
(T (W x00 x00 x00 x00 x12 x00 x00 x00)
(L (W x86 x5c x6c x12 x83 xf0 x3a xc6))
(L (W x00 x00 x80 xbf x00 x00 x80 xbf)))
(T (W x45 x26 x22 x84 xe4 x9c xf2 xcb)
(L (W xc4 x00 x00 x00 x01 x00 x00 x00))
(L (W xff xff xff xff xff xff xff xff)))))
(T (W xff xff xff xff xff xff xff xff)
(T (W x18 x00 x00 x00 x0c x00 x00 x00)
(T (W x42 x6e xfd xff x74 x00 x00 x00)
(L (W x00 x00 x00 x00 x00 x00 x00 x00))
(L (W x00 x00 x80 xbf x00 x00 x80 xbf)))
(T (W x00 x00 x00 x00 x00 x00 x00 x00)
(L (W x00 x00 x00 x00 x00 x00 x00 x00))
(L (W x00 x00 x00 x00 xc0 xd7 xff xff))))
(T (W x00 x00 x80 x3f x00 x00 x80 x3f)
(T (W x38 x01 x00 x00 x04 x00 x00 x00)
(L (W x00 x00 x00 x00 x00 x00 x00 x00))
(L (W xff xff xff xff x9c x00 x00 x00)))
(T (W x48 x16 xfe xff x00 x01 x01 x01)
(L (W x03 x00 x00 x00 xc8 x00 x00 x00)) E))))))
(T (W xff xff xff xff xff xff xff xff)
(T (W xff xff xff xff xff xff xff xff)
(T (W xff xff xff xff xff xff xff xff)
(T (W x0a x00 x00 x00 x3e x00 x00 x00)
(T (W x00 x00 x80 x3f x00 x00 x80 x3f)
(T (W x8c xb9 x29 x42 xb2 x7d x32 x53)
(L (W xff xff xff xff xff xff xff xff))
(L (W x00 x00 x00 x00 x00 x00 x00 x00)))
(T (W x03 x00 x00 x00 xcc x00 x00 x00)
(L (W xff xff xff xff xe0 x00 x00 x00))
(L (W x00 x00 x00 x00 x00 x00 x00 x00))))
(T (W x00 x00 x00 x00 x00 x00 x00 x00)
(T (W x00 x00 x00 x00 x00 x00 x00 x00)
(L (W xff xff xff xff xa8 x00 x00 x00))
(L (W x00 x00 x01 x01 x5c x00 x00 x00)))
(T (W xff xff xff xff xff xff xff xff)
(L (W xff xff xff xff xff xff xff xff))
(L (W xff xff xff xff xff xff xff xff)))))
(T (W x00 x00 x80 x3f x00 x00 x80 x3f)
(T (W x45 x26 x22 x84 xe4 x9c xf2 xcb)
(T (W xff xff xff xff xff xff xff xff)
(L (W xff xff xff xff xff xff xff xff))
(L (W x25 x00 x00 x00 x28 x00 x00 x00)))
(T (W x00 x00 x80 x3f x00 x00 x80 x3f)
(L (W x00 x00 x00 x00 x00 x00 x00 x00))
(L (W x00 x00 x00 x00 x12 x00 x00 x00))))
(T (W xff xff xff xff xff xff xff xff)
(T (W x00 x00 x00 x00 x00 x00 x00 x00)
(L (W x00 x00 x00 x00 x00 x00 x00 x00))
(L (W x00 x00 x00 x00 x00 x00 x00 x00)))
(T (W x42 x1a xfe xff x74 x00 x00 x00)
(L (W x00 x00 x00 x00 x00 x00 x00 x00))
(L (W x00 x00 x00 x00 x00 x00 x00 x00))))))
(T (W x45 x26 x22 x84 xe4 x9c xf2 xcb)
(T (W x42 x8a xfc xff x74 x00 x00 x00)
(T (W x00 x00 x00 x00 x00 x00 x00 x00)
(T (W xff xff xff xff xff xff xff xff)
(L (W x00 x00 x00 x00 x00 x00 x00 x00))
(L (W x00 x00 x80 xbf x00 x00 x80 xbf)))
(T (W x54 x02 x00 x00 x38 x01 x00 x00)
(L (W x00 x00 x00 x00 x00 x00 x00 x00))
(L (W x4f x84 x6f x8b xe8 xcb x63 xb7))))
(T (W x3e x00 x00 x00 x0c x00 x00 x00)
(T (W x68 x00 x00 x00 x5c x00 x00 x00)
(L (W x00 x00 x80 xbf x00 x00 x80 xbf))
(L (W x00 x00 x01 x01 xd6 x00 x00 x00)))
(T (W xff xff xff xff xff xff xff xff)
(L (W x00 x00 x00 x00 x00 x00 x00 x00))
(L (W x00 x00 x00 x00 x00 x00 x00 x00)))))
(T (W x45 x26 x22 x84 xe4 x9c xf2 xcb)
(T (W x00 x00 x80 x3f x00 x00 x80 x3f)
(T (W x8c x5d xfd xff x27 x00 x00 x00)
(L (W x6c x00 x00 x00 x60 x00 x00 x00))
(L (W xff xff xff xff xff xff xff xff)))
(T (W x00 x00 x00 x00 xc0 xd3 xfd xff)
(L (W x42 xea xfe xff x74 x00 x00 x00))
(L (W x08 x00 x00 x00 xd8 x08 x00 x00))))
(T (W x00 x00 x00 x00 x00 x00 x00 x00)
(T (W x00 x00 x80 x3f x00 x00 x80 x3f)
(L (W x00 x00 x00 x00 x00 x00 x00 x00))
(L (W x00 x00 x00 x00 x00 x00 x00 x00)))
(T (W x00 x00 x00 x00 x00 x00 x00 x00)
(L (W x00 x00 x00 x00 x00 x00 x00 x00)) E)))))
(T (W xff xff xff xff xff xff xff xff)
(T (W xb8 x00 x00 x00 xac x00 x00 x00)
(T (W xc0 x00 x00 x00 xb4 x00 x00 x00)
(T (W x00 x00 x80 x3f x00 x00 x80 x3f)
(T (W x4b x00 x00 x00 xff xff xff xff)
(L (W x00 x00 x00 x00 x00 x00 x00 x00))
(L (W x00 x00 x00 x00 x00 x00 x00 x00)))
(T (W xff xff xff xff xff xff xff xff)
(L (W xff xff xff xff xff xff xff xff))
(L (W x00 x00 x00 x00 x00 x00 x00 x00))))
(T (W x00 x00 x00 x00 x00 x00 x00 x00)
(T (W x00 x00 x80 x3f x00 x00 x80 x3f)
(L (W x6c x00 x00 x00 x60 x00 x00 x00))
(L (W x00 x00 x00 x00 x00 x00 x00 x00)))
(T (W xff xff xff xff xff xff xff xff)
(L (W x00 x00 x01 x01 xb2 x01 x00 x00))
(L (W xff xff xff xff xff xff xff xff)))))
(T (W x00 x00 x80 x3f x00 x00 x80 x3f)
(T (W x45 x26 x22 x84 xe4 x9c xf2 xcb)
(T (W x4c x45 x41 x52 x45 x44 x00 x00)
(L (W x18 x00 x00 x00 x10 x00 x00 x00))
(L (W xff xff xff xff xff xff xff xff)))
(T (W x68 x00 x00 x00 x5c x00 x00 x00)
(L (W x00 x00 x80 xbf x00 x00 x80 xbf))
(L (W x00 x00 x00 x00 x00 x00 x00 x00))))
(T (W x54 x00 x58 x00 x5c x00 x00 x00)
(T (W x00 x00 x00 x00 x00 x00 x00 x00)
(L (W xff xff xff xff xff xff xff xff))
(L (W x00 x00 x00 x00 x12 x00 x00 x00)))
(T (W x68 x00 x00 x00 x5c x00 x00 x00)
(L (W x00 x00 x00 x00 x00 x00 x00 x00)) E))))
(T (W x01 x00 x00 x00 x9c x00 x00 x00)
(T (W x48 x7a xfc xff x00 x01 x01 x01)
(T (W x45 x26 x22 x84 xe4 x9c xf2 xcb)
(T (W xff xff xff xff xff xff xff xff)
(L (W x00 x00 x00 x00 x00 x00 x00 x00))
(L (W x00 x00 x80 xbf x00 x00 x80 xbf)))
(T (W x30 x34 x5f x43 x4c x45 x41 x52)
(L (W x00 x00 x00 x00 x12 x00 x00 x00))
(L (W x45 x26 x22 x84 xe4 x9c xf2 xcb))))
(T (W xf2 xae xfe xff x00 x00 x01 x01)
(T (W xff xff xff xff xff xff xff xff)
(L (W xff xff xff xff xff xff xff xff))
(L (W x30 x34 x5f x43 x4c x45 x41 x52)))
(T (W xff xff xff xff xff xff xff xff)
(L (W x00 x00 x00 x00 x00 x00 x00 x00))
(L (W xff xff xff xff xff xff xff xff)))))
(T (W x00 x00 x80 x3f x00 x00 x80 x3f)
(T (W x00 x00 x00 x00 x00 x00 x00 x00)
(T (W x46 x53 x59 x53 x5f x4e x53 x5f)
(L (W xff xff xff xff xc0 x00 x00 x00))
(L (W x95 x01 x00 x00 xff xff xff xff)))
(T (W xff xff xff xff xff xff xff xff)
(L (W xff xff xff xff xb0 x00 x00 x00))
(L (W xcc x00 x00 x00 x01 x00 x00 x00))))
(T (W x00 x00 x00 x00 x00 x00 x00 x00)
(T (W x50 x00 x00 x00 x44 x00 x00 x00)
(L (W x98 x01 x00 x00 xff xff xff xff))
(L (W x64 x5f x70 x6f x6b x65 x5f x77)))
(T (W x00 x00 x00 x00 x02 x00 x00 x00)
(L (W x00 x00 x00 x00 x00 x00 x00 x00)) E)))))))
(T (W x00 x00 x00 x00 x00 x00 x00 x00)
(T (W x0a x00 x00 x00 x3e x00 x00 x00)
(T (W xc0 x00 x00 x00 xb4 x00 x00 x00)
(T (W x00 x00 x80 x3f x00 x00 x80 x3f)
(T (W x00 x00 x80 x3f x00 x00 x80 x3f)
(T (W x00 x00 x00 x00 x00 x00 x00 x00)
(T (W xb8 x00 x00 x00 xac x00 x00 x00)
(L (W x45 x26 x22 x84 xe4 x9c xf2 xcb))
(L (W x00 x00 x00 x00 x9a x22 xff xff)))
(T (W x50 x00 x00 x00 x44 x00 x00 x00)
(L (W x00 x00 x00 x00 x00 x00 x00 x00))
(L (W xff xff xff xff xff xff xff xff))))
(T (W xff xff xff xff xff xff xff xff)
(T (W xff xff xff xff xff xff xff xff)
(L (W x6c x00 x00 x00 x60 x00 x00 x00))
(L (W xff xff xff xff xff xff xff xff)))
(T (W x00 x00 x00 x00 xc0 xe1 xfd xff)
(L (W x8a xe4 xfe xff x78 x00 x00 x00))
(L (W x50 x00 x00 x00 x44 x00 x00 x00)))))
(T (W x00 x00 x00 x00 x00 x00 x00 x00)
(T (W xf2 x74 xfe xff x00 x00 x01 x01)
(T (W xf8 x02 x00 x00 xe4 x01 x00 x00)
(L (W x45 x26 x22 x84 xe4 x9c xf2 xcb))
(L (W x00 x00 x80 xbf x00 x00 x80 xbf)))
(T (W x80 x03 x00 x00 x54 x02 x00 x00)
(L (W xff xff xff xff xff xff xff xff))
(L (W x00 x00 x00 x00 x3a xcf xff xff))))
(T (W xff xff xff xff xff xff xff xff)
(T (W x00 x00 x00 x00 xc0 x81 xfd xff)
(L (W xff xff xff xff xff xff xff xff))
(L (W x00 x00 x01 x01 x42 x00 x00 x00)))
(T (W x00 x00 x80 x3f x00 x00 x80 x3f)
(L (W xff xff xff xff xff xff xff xff))
(L (W x00 x00 x80 xbf x00 x00 x80 xbf))))))
(T (W x68 x00 x00 x00 x5c x00 x00 x00)
(T (W x45 x26 x22 x84 xe4 x9c xf2 xcb)
(T (W x3e x00 x00 x00 x10 x00 x00 x00)
(T (W x01 x00 x00 x00 x9c x00 x00 x00)
(L (W xff xff xff xff xff xff xff xff))
(L (W x45 x44 x00 x00 x00 x00 x00 x00)))
(T (W xc4 x00 x00 x00 x01 x00 x00 x00)
(L (W xff xff xff xff xff xff xff xff))
(L (W xff xff xff xff xff xff xff xff))))
(T (W xff xff xff xff xff xff xff xff)
(T (W x00 x00 x00 x00 x00 x00 x00 x00)
(L (W x4f x84 x6f x8b xe8 xcb x63 xb7))
(L (W xff xff xff xff xff xff xff xff)))
(T (W x42 x08 xfe xff x74 x00 x00 x00)
(L (W xff xff xff xff xff xff xff xff))
(L (W xbc x00 x00 x00 x02 x00 x00 x00)))))
(T (W x00 x00 x00 x00 x00 x00 x00 x00)
(T (W x00 x00 x00 x00 x92 x91 xff xff)
(T (W xff xff xff xff xff xff xff xff)
(L (W x54 x00 x58 x00 x5c x00 x00 x00))
(L (W x8a x54 xff xff x78 x00 x00 x00)))
(T (W x00 x00 x80 x3f x00 x00 x80 x3f)
(L (W x00 x00 x00 x00 x00 x00 x00 x00))
(L (W x00 x00 x80 xbf x00 x00 x80 xbf))))
(T (W xff xff xff xff xff xff xff xff)
(T (W x45 x44 x00 x00 x00 x00 x00 x00)
(L (W xff xff xff xff xff xff xff xff))
(L (W xff xff xff xff xff xff xff xff)))
(T (W xff xff xff xff xff xff xff xff)
(L (W x4b x00 x00 x00 xff xff xff xff)) E)))))
(T (W x68 x00 x00 x00 x5c x00 x00 x00)
(T (W x50 x00 x00 x00 x44 x00 x00 x00)
(T (W x00 x00 x80 x3f x00 x00 x80 x3f)
(T (W x00 x00 x00 x00 x00 x00 x00 x00)
(T (W x45 x26 x22 x84 xe4 x9c xf2 xcb)
(L (W x00 x00 x00 x00 x02 x00 x00 x00))
(L (W xff xff xff xff xff xff xff xff)))
(T (W x68 x00 x00 x00 x5c x00 x00 x00)
(L (W x00 x00 x00 x00 x00 x00 x00 x00))
(L (W xff xff xff xff xff xff xff xff))))
(T (W xff xff xff xff xff xff xff xff)
(T (W x30 x34 x5f x43 x4c x45 x41 x52)
(L (W x00 x00 x00 x00 x00 x00 x00 x00))
(L (W x45 x26 x22 x84 xe4 x9c xf2 xcb)))
(T (W x42 x00 xfe xff x74 x00 x00 x00)
(L (W x03 x00 x00 x00 xd8 x00 x00 x00))
(L (W x00 x00 x80 xbf x00 x00 x80 xbf)))))
(T (W x00 x00 x00 x00 x00 x00 x00 x00)
(T (W x3e x00 x00 x00 x10 x00 x00 x00)
(T (W xbc x00 x00 x00 xb0 x00 x00 x00)
(L (W x00 x00 x80 x3f x00 x00 x80 x3f))
(L (W x8a x4c xff xff x78 x00 x00 x00)))
(T (W x12 x00 x00 x00 x46 x53 x59 x53)
(L (W x46 x53 x59 x53 x5f x4e x53 x5f))
(L (W x00 x00 x00 x00 xba xd8 xff xff))))
(T (W x00 x00 x00 x00 x00 x00 x00 x00)
(T (W xff xff xff xff xff xff xff xff)
(L (W x00 x00 x00 x00 x00 x00 x00 x00))
(L (W xff xff xff xff xff xff xff xff)))
(T (W x45 x26 x22 x84 xe4 x9c xf2 xcb)
(L (W xff xff xff xff xff xff xff xff)) E))))
(T (W x42 x70 xfc xff x74 x00 x00 x00)
(T (W x00 x00 x00 x00 x00 x00 x00 x00)
(T (W x04 x00 x00 x00 xba x7d xfe xff)
(T (W x0a x00 x00 x00 x3c x00 x00 x00)
(L (W x18 x01 x00 x00 x04 x00 x00 x00))
(L (W x00 x00 x00 x00 x00 x00 x00 x00)))
(T (W xff xff xff xff xff xff xff xff)
(L (W xff xff xff xff xff xff xff xff))
(L (W x8c xc3 xff xff x27 x00 x00 x00))))
(T (W xff xff xff xff xff xff xff xff)
(T (W x00 x00 x80 x3f x00 x00 x80 x3f)
(L (W x00 x00 x80 xbf x00 x00 x80 xbf))
(L (W xff xff xff xff xff xff xff xff)))
(T (W x68 x00 x00 x00 x5c x00 x00 x00)
(L (W xff xff xff xff xff xff xff xff))
(L (W x00 x00 x00 x00 x00 x00 x00 x00)))))
(T (W x00 x00 x00 x00 x00 x00 x00 x00)
(T (W x1c x01 x00 x00 x04 x00 x00 x00)
(T (W xff xff xff xff xff xff xff xff)
(L (W x00 x00 x80 xbf x00 x00 x80 xbf))
(L (W x00 x00 x00 x00 xc0 x59 xff xff)))
(T (W x54 x00 x00 x00 x48 x00 x00 x00)
(L (W x00 x00 x80 xbf x00 x00 x80 xbf))
(L (W x12 x00 x00 x00 x46 x53 x59 x53))))
(T (W xff xff xff xff xff xff xff xff)
(T (W x45 x26 x22 x84 xe4 x9c xf2 xcb)
(L (W x8a x9c xfe xff x78 x00 x00 x00))
(L (W x00 x00 x80 xbf x00 x00 x80 xbf)))
(T (W xff xff xff xff xff xff xff xff)
(L (W xff xff xff xff xff xff xff xff)) E))))))
(T (W x00 x00 x00 x00 x00 x00 x00 x00)
(T (W x57 x95 xa6 xe7 x69 x4a x9f x97)
(T (W x00 x00 x00 x00 x00 x00 x00 x00)
(T (W xff xff xff xff xff xff xff xff)
(T (W x00 x00 x80 x3f x00 x00 x80 x3f)
(T (W x00 x00 x00 x00 x00 x00 x00 x00)
(L (W x00 x00 x80 x3f x00 x00 x80 x3f))
(L (W x00 x00 x80 xbf x00 x00 x80 xbf)))
(T (W x04 x00 x00 x00 x80 x03 x00 x00)
(L (W x00 x00 x00 x00 x12 x00 x00 x00))
(L (W x00 x00 x00 x00 x00 x00 x00 x00))))
(T (W x50 x00 x00 x00 x44 x00 x00 x00)
(T (W x00 x00 x80 x3f x00 x00 x80 x3f)
(L (W xff xff xff xff xff xff xff xff))
(L (W x00 x00 x00 x00 x00 x00 x00 x00)))
(T (W x00 x00 x00 x00 x00 x00 x00 x00)
(L (W x00 x00 x00 x00 x00 x00 x00 x00))
(L (W x00 x00 x80 xbf x00 x00 x80 xbf)))))
(T (W xff xff xff xff x03 x00 x00 x00)
(T (W x00 x00 x80 x3f x00 x00 x80 x3f)
(T (W x00 x00 x00 x00 x00 x00 x00 x00)
(L (W x2a xd7 x36 x97 x85 x30 x63 x5f))
(L (W xff xff xff xff xff xff xff xff)))
(T (W x68 x00 x00 x00 x5c x00 x00 x00)
(L (W x8a xc8 xfe xff x78 x00 x00 x00))
(L (W x00 x00 x80 xbf x00 x00 x80 xbf))))
(T (W x00 x00 x00 x00 x00 x00 x00 x00)
(T (W x49 xa1 x68 x4a xeb x5f xdd x3d)
(L (W x68 x00 x00 x00 x5c x00 x00 x00))
(L (W x45 x26 x22 x84 xe4 x9c xf2 xcb)))
(T (W xff xff xff xff xff xff xff xff)
(L (W x00 x00 x80 xbf x00 x00 x80 xbf))
(L (W x00 x00 x48 x00 x4c x00 x00 x00))))))
(T (W xbb x01 x00 x00 xff xff xff xff)
(T (W xff xff xff xff xff xff xff xff)
(T (W x42 xcc xfc xff x74 x00 x00 x00)
(T (W x00 x00 x00 x00 x00 x00 x00 x00)
(L (W x00 x00 x80 x3f x00 x00 x80 x3f))
(L (W x18 x00 x00 x00 x0c x00 x00 x00)))
(T (W x45 x26 x22 x84 xe4 x9c xf2 xcb)
(L (W x00 x00 x80 x3f x00 x00 x80 x3f))
(L (W x54 x00 x00 x00 x48 x00 x00 x00))))
(T (W x00 x00 x80 x3f x00 x00 x80 x3f)
(T (W xff xff xff xff xff xff xff xff)
(L (W xff xff xff xff x9c x00 x00 x00))
(L (W x00 x00 x00 x00 x00 x00 x00 x00)))
(T (W x00 x00 x00 x00 x00 x00 x00 x00)
(L (W x00 x00 x80 xbf x00 x00 x80 xbf))
(L (W x00 x00 x80 xbf x00 x00 x80 xbf)))))
(T (W x18 x00 x00 x00 x0c x00 x00 x00)
(T (W x00 x00 x80 x3f x00 x00 x80 x3f)
(T (W x00 x00 x80 x3f x00 x00 x80 x3f)
(L (W xff xff xff xff xff xff xff xff))
(L (W x1d x00 x00 x00 x0c x00 x00 x00)))
(T (W xff xff xff xff xff xff xff xff)
(L (W x00 x00 x00 x00 x9a xd6 xfe xff))
(L (W x00 x00 x80 xbf x00 x00 x80 xbf))))
(T (W x00 x00 x80 x3f x00 x00 x80 x3f)
(T (W xff xff xff xff xac x00 x00 x00)
(L (W xff xff xff xff xff xff xff xff))
(L (W x00 x00 x80 xbf x00 x00 x80 xbf)))
(T (W x00 x00 x80 x3f x00 x00 x80 x3f)
(L (W x00 x00 x00 x00 x4c x14 xff xff)) E)))))
(T (W x00 x00 x00 x00 x00 x00 x00 x00)
(T (W x84 x91 x93 x5f x1e x88 xe0 x8a)
(T (W xff xff xff xff xff xff xff xff)
(T (W x68 x00 x00 x00 x5c x00 x00 x00)
(T (W x00 x00 x00 x00 x00 x00 x00 x00)
(L (W x00 x00 x80 x3f x00 x00 x80 x3f))
(L (W x00 x00 x80 xbf x00 x00 x80 xbf)))
(T (W x46 x53 x59 x53 x5f x4e x53 x5f)
(L (W x49 xa1 x68 x4a xeb x5f xdd x3d))
(L (W x00 x00 x80 xbf x00 x00 x80 xbf))))
(T (W x00 x00 x80 x3f x00 x00 x80 x3f)
(T (W xc4 x00 x00 x00 x01 x00 x00 x00)
(L (W xb0 x00 x00 x00 x64 x00 x00 x00))
(L (W x00 x00 x00 x00 x00 x00 x00 x00)))
(T (W x5f x77 x69 x6c x64 x5f x70 x6f)
(L (W x00 x00 x00 x00 x00 x00 x00 x00))
(L (W xff xff xff xff xff xff xff xff)))))
(T (W xff xff xff xff xff xff xff xff)
(T (W x00 x00 x80 x3f x00 x00 x80 x3f)
(T (W x4f x84 x6f x8b xe8 xcb x63 xb7)
(L (W x00 x00 x80 x3f x00 x00 x80 x3f))
(L (W x00 x00 x00 x00 x00 x00 x00 x00)))
(T (W xff xff xff xff xff xff xff xff)
(L (W x03 x00 x00 x00 xd0 x00 x00 x00))
(L (W x00 x00 x80 xbf x00 x00 x80 xbf))))
(T (W x45 x26 x22 x84 xe4 x9c xf2 xcb)
(T (W x00 x00 x80 x3f x00 x00 x80 x3f)
(L (W x00 x00 x00 x00 x00 x00 x00 x00))
(L (W x00 x00 x00 x00 x4c x8c xff xff)))
(T (W x00 x00 x00 x00 x00 x00 x00 x00)
(L (W x6c x00 x00 x00 x60 x00 x00 x00)) E))))
(T (W xff xff xff xff xff xff xff xff)
(T (W xff xff xff xff xff xff xff xff)
(T (W x45 x26 x22 x84 xe4 x9c xf2 xcb)
(T (W x00 x00 x00 x00 x00 x00 x00 x00)
(L (W x54 x00 x00 x00 x00 x00 x00 x00))
(L (W xff xff xff xff xff xff xff xff)))
(T (W x00 x00 x80 x3f x00 x00 x80 x3f)
(L (W x00 x00 x80 x3f x00 x00 x80 x3f))
(L (W x00 x00 x80 xbf x00 x00 x80 xbf))))
(T (W x00 x00 x00 x00 x00 x00 x00 x00)
(T (W x0a x0e x25 x55 x8c xfc xd5 xe4)
(L (W x00 x00 x00 x00 x00 x00 x00 x00))
(L (W x00 x00 x80 xbf x00 x00 x80 xbf)))
(T (W xf2 xb0 xff xff x00 x00 x01 x01)
(L (W x00 x00 x80 xbf x00 x00 x80 xbf))
(L (W x00 x00 x00 x00 x00 x00 x00 x00)))))
(T (W x42 xb4 xfc xff x74 x00 x00 x00)
(T (W x00 x00 x80 x3f x00 x00 x80 x3f)
(T (W x00 x00 x80 x3f x00 x00 x80 x3f)
(L (W xff xff xff xff xff xff xff xff))
(L (W x00 x00 x00 x00 x00 x00 x00 x00)))
(T (W x00 x00 x00 x00 x00 x00 x00 x00)
(L (W xe4 x06 x00 x00 xc8 x05 x00 x00))
(L (W x39 x3e x45 xdc x00 xd7 x55 x2f))))
(T (W x00 x00 x80 x3f x00 x00 x80 x3f)
(T (W xff xff xff xff xff xff xff xff)
(L (W x00 x00 x80 x3f x00 x00 x80 x3f))
(L (W x45 x26 x22 x84 xe4 x9c xf2 xcb)))
(T (W x00 x00 x00 x00 x00 x00 x00 x00)
(L (W x00 x00 x80 xbf x00 x00 x80 xbf)) E)))))))))
(T (W xe8 xff x01 x00 xa4 xfd x01 x00)
(T (W x58 x47 x01 x00 xfc x44 x01 x00)
(T (W x10 x17 x00 x00 xdc x15 x00 x00)
(T (W xff xff xff xff xff xff xff xff)
(T (W xff xff xff xff xff xff xff xff)
(T (W xff xff xff xff xff xff xff xff)
(T (W xc8 x5d xfc xff x00 x01 x01 x01)
(T (W x45 x26 x22 x84 xe4 x9c xf2 xcb)
(T (W x5c x00 x00 x00 xff xff xff xff)
(L (W xff xff xff xff xff xff xff xff))
(L (W x00 x00 x00 x00 x00 x00 x00 x00)))
(T (W xc2 xb5 xfd xff x74 x00 x00 x00)
(L (W x45 x26 x22 x84 xe4 x9c xf2 xcb))
(L (W x00 x00 x00 x00 x12 x00 x00 x00))))
(T (W x00 x00 x00 x00 x00 x00 x00 x00)
(T (W x00 x00 x00 x00 x00 x00 x00 x00)
(L (W x03 x00 x00 x00 xd8 x00 x00 x00))
(L (W x9c x06 x00 x00 x98 x05 x00 x00)))
(T (W xff xff xff xff xff xff xff xff)
(L (W xff xff xff xff xff xff xff xff))
(L (W xff xff xff xff xff xff xff xff)))))
(T (W x50 x00 x00 x00 x44 x00 x00 x00)
(T (W x00 x00 x00 x00 x00 x00 x00 x00)
(T (W xff xff xff xff xff xff xff xff)
(L (W xff xff xff xff xff xff xff xff))
(L (W x00 x00 x80 xbf x00 x00 x80 xbf)))
(T (W x00 x00 x00 x00 x00 x00 x00 x00)
(L (W x0c xc9 xfe xff x0b x00 x00 x00))
(L (W x4f x84 x6f x8b xe8 xcb x63 xb7))))
(T (W x70 x00 x00 x00 xff xff xff xff)
(T (W xff xff xff xff xbc x00 x00 x00)
(L (W xff xff xff xff xff xff xff xff))
(L (W x00 x00 x00 x00 x00 x00 x00 x00)))
(T (W xc2 x15 xfe xff x74 x00 x00 x00)
(L (W x00 x00 x00 x00 x00 x00 x00 x00))
(L (W x00 x00 x00 x00 x00 x00 x00 x00))))))
(T (W x64 x00 x00 x00 x9c x00 x00 x00)
(T (W x00 x00 x80 x3f x00 x00 x80 x3f)
(T (W x00 x00 x00 x00 x00 x00 x00 x00)
(T (W x72 xed xff xff x00 x00 x01 x01)
(L (W x00 x00 x00 x00 x00 x00 x00 x00))
(L (W x4f x84 x6f x8b xe8 xcb x63 xb7)))
(T (W xff xff xff xff xff xff xff xff)
(L (W x6c x76 x31 x00 x22 x00 x00 x00))
(L (W x00 x00 x00 x00 x00 x00 x00 x00))))
(T (W x00 x00 x00 x00 x00 x00 x00 x00)
(T (W x00 x00 x80 x3f x00 x00 x80 x3f)
(L (W x74 x00 x00 x00 x68 x00 x00 x00))
(L (W xff xff xff xff xff xff xff xff)))
(T (W xff xff xff xff xff xff xff xff)
(L (W x00 x00 x00 x00 x00 x00 x00 x00))
(L (W xff xff xff xff xa8 x00 x00 x00)))))
(T (W x00 x00 x80 x3f x00 x00 x80 x3f)
(T (W x00 x00 x00 x00 x00 x00 x00 x00)
(T (W x04 x00 x00 x00 x6c x03 x00 x00)
(L (W x00 x00 x80 x3f x00 x00 x80 x3f))
(L (W xff xff xff xff xff xff xff xff)))
(T (W x00 x00 x80 x3f x00 x00 x80 x3f)
(L (W x00 x00 x80 xbf x00 x00 x80 xbf))
(L (W x00 x00 x00 x00 x00 x00 x00 x00))))
(T (W x72 xc2 xfe xff x00 x00 x01 x01)
(T (W x00 x00 x00 x00 x00 x00 x00 x00)
(L (W xff xff xff xff xff xff xff xff))
(L (W x00 x00 x00 x00 x00 x00 x00 x00)))
(T (W x00 x00 x00 x00 x00 x00 x00 x00)
(L (W x00 x00 x00 x00 x00 x00 x00 x00)) E)))))
(T (W xff xff xff xff xff xff xff xff)
(T (W xff xff xff xff xff xff xff xff)
(T (W x50 x00 x00 x00 x44 x00 x00 x00)
(T (W x00 x00 x00 x00 x00 x00 x00 x00)
(T (W xfa xe3 xff xff x4e x00 x00 x00)
(L (W x21 x00 x00 x00 x67 x72 x6f x75))
(L (W x00 x00 x00 x00 x00 x00 x00 x00)))
(T (W xff xff xff xff xff xff xff xff)
(L (W xbc x0c x00 x00 xa0 x0b x00 x00))
(L (W x04 x00 x00 x00 x80 x03 x00 x00))))
(T (W x00 x00 x00 x00 x00 x00 x00 x00)
(T (W x00 x00 x00 x00 x00 x00 x00 x00)
(L (W x6c x00 x00 x00 x60 x00 x00 x00))
(L (W xff xff xff xff xff xff xff xff)))
(T (W xff xff xff xff xff xff xff xff)
(L (W xff xff xff xff xff xff xff xff))
(L (W x00 x00 x80 xbf x00 x00 x80 xbf)))))
(T (W x68 x00 x00 x00 x5c x00 x00 x00)
(T (W x00 x00 x00 x00 x00 x00 x00 x00)
(T (W xbc x00 x00 x00 xb0 x00 x00 x00)
(L (W x18 x00 x00 x00 x10 x00 x00 x00))
(L (W x00 x00 x00 x00 x40 x47 xff xff)))
(T (W x00 x00 x80 x3f x00 x00 x80 x3f)
(L (W x00 x00 x00 x00 x00 x00 x00 x00))
(L (W x00 x00 x00 x00 x00 x00 x00 x00))))
(T (W x02 x00 x00 x00 x7c x01 x00 x00)
(T (W x67 x67 x26 xbf x88 x9a x0d xfe)
(L (W x45 x26 x22 x84 xe4 x9c xf2 xcb))
(L (W x00 x00 x00 x00 x00 x00 x00 x00)))
(T (W x68 x00 x00 x00 x5c x00 x00 x00)
(L (W x00 x00 x00 x00 x00 x00 x00 x00)) E))))
(T (W xbc x00 x00 x00 xb0 x00 x00 x00)
(T (W x00 x00 x80 x3f x00 x00 x80 x3f)
(T (W x00 x00 x00 x00 x00 x00 x00 x00)
(T (W xff xff xff xff xff xff xff xff)
(L (W x70 x5f x6c x65 x61 x64 x65 x72))
(L (W x45 x26 x22 x84 xe4 x9c xf2 xcb)))
(T (W xa4 x01 x00 x00 xff xff xff xff)
(L (W x30 x34 x5f x43 x4c x45 x41 x52))
(L (W x00 x00 x00 x00 x00 x00 x00 x00))))
(T (W x73 x90 x01 x26 x0a x43 x62 xde)
(T (W xc8 x75 xfd xff x00 x01 x01 x01)
(L (W x00 x00 x80 xbf x00 x00 x80 xbf))
(L (W xff xff xff xff xff xff xff xff)))
(T (W xff xff xff xff xff xff xff xff)
(L (W x0c x01 xff xff x2b x00 x00 x00))
(L (W x00 x00 x00 x00 x00 x00 x00 x00)))))
(T (W x00 x00 x80 x3f x00 x00 x80 x3f)
(T (W x0c xe1 xfc xff x3e x00 x00 x00)
(T (W x00 x00 x00 x00 x00 x00 x00 x00)
(L (W x50 x00 x00 x00 x44 x00 x00 x00))
(L (W xff xff xff xff xff xff xff xff)))
(T (W x18 x00 x00 x00 x0c x00 x00 x00)
(L (W x18 x00 x00 x00 x0c x00 x00 x00))
(L (W x00 x00 x00 x00 x00 x00 x00 x00))))
(T (W xff xff xff xff xff xff xff xff)
(T (W x00 x00 x80 x3f x00 x00 x80 x3f)
(L (W x54 x00 x00 x00 x48 x00 x00 x00))
(L (W x46 x53 x59 x53 x5f x4e x53 x5f)))
(T (W x00 x00 x00 x00 x02 x00 x00 x00)
(L (W x00 x00 x00 x00 x00 x00 x00 x00)) E))))))
(T (W x45 x26 x22 x84 xe4 x9c xf2 xcb)
(T (W x00 x00 x80 x3f x00 x00 x80 x3f)
(T (W x00 x00 x00 x00 x00 x00 x00 x00)
(T (W x00 x00 x00 x00 x00 x00 x00 x00)
(T (W xff xff xff xff xff xff xff xff)
(T (W x00 x00 x80 x3f x00 x00 x80 x3f)
(L (W x00 x00 x80 x3f x00 x00 x80 x3f))
(L (W x18 x00 x00 x00 x0c x00 x00 x00)))
(T (W x00 x00 x00 x00 x00 x00 x00 x00)
(L (W x61 x72 x6c x69 x6b x65 x5f x6f))
(L (W x00 x00 x80 xbf x00 x00 x80 xbf))))
(T (W x18 x00 x00 x00 x0c x00 x00 x00)
(T (W x45 x26 x22 x84 xe4 x9c xf2 xcb)
(L (W x00 x00 x00 x00 x00 x00 x00 x00))
(L (W x3c x00 x00 x00 x00 x00 x80 xbf)))
(T (W x00 x00 x80 x3f x00 x00 x80 x3f)
(L (W x00 x00 x00 x00 x00 x00 x00 x00))
(L (W x00 x00 x00 x00 x00 x00 x00 x00)))))
(T (W xff xff xff xff xff xff xff xff)
(T (W xff xff xff xff x03 x00 x00 x00)
(T (W x00 x00 x00 x00 x00 x00 x62 x00)
(L (W x00 x00 x00 x00 x00 x00 x00 x00))
(L (W x20 x00 x00 x00 x0c x00 x00 x00)))
(T (W xff xff xff xff xff xff xff xff)
(L (W x45 x26 x22 x84 xe4 x9c xf2 xcb))
(L (W x00 x00 x00 x00 xcc xc1 xff xff))))
(T (W x00 x00 x80 x3f x00 x00 x80 x3f)
(T (W x00 x00 x80 x3f x00 x00 x80 x3f)
(L (W xb4 xf8 xff xff x01 x01 x01 x01))
(L (W x18 x00 x00 x00 x10 x00 x00 x00)))
(T (W x00 x00 x00 x00 x00 x00 x00 x00)
(L (W x18 x00 x00 x00 x0c x00 x00 x00))
(L (W x5c x00 x00 x00 x50 x00 x00 x00))))))
(T (W x00 x00 x00 x00 x00 x00 x00 x00)
(T (W x00 x00 x00 x00 x00 x00 x00 x00)
(T (W xb8 x00 x00 x00 xac x00 x00 x00)
(T (W x00 x00 x00 x00 x00 x00 x00 x00)
(L (W xc8 x31 xfe xff x00 x01 x01 x01))
(L (W xff xff xff xff xff xff xff xff)))
(T (W x00 x00 x80 x3f x00 x00 x80 x3f)
(L (W xff xff xff xff xa0 x00 x00 x00))
(L (W xcc x00 x00 x00 x01 x00 x00 x00))))
(T (W x00 x00 x80 x3f x00 x00 x80 x3f)
(T (W x00 x00 x00 x00 x12 x71 xfd xff)
(L (W xff xff xff xff xff xff xff xff))
(L (W x3c x00 x00 x00 x00 x00 x80 xbf)))
(T (W x45 x26 x22 x84 xe4 x9c xf2 xcb)
(L (W x00 x00 x80 xbf x00 x00 x80 xbf))
(L (W xff xff xff xff x90 x00 x00 x00)))))
(T (W xff xff xff xff xff xff xff xff)
(T (W xff xff xff xff xff xff xff xff)
(T (W x00 x00 x80 x3f x00 x00 x80 x3f)
(L (W x00 x00 x01 x01 x82 x00 x00 x00))
(L (W x00 x00 x00 x00 x00 x00 x00 x00)))
(T (W x00 x00 x00 x00 x00 x00 x00 x00)
(L (W x00 x00 x00 x00 x00 x00 x00 x00))
(L (W x00 x00 x80 xbf x00 x00 x80 xbf))))
(T (W x50 x00 x00 x00 x44 x00 x00 x00)
(T (W xff xff xff xff xff xff xff xff)
(L (W x45 x26 x22 x84 xe4 x9c xf2 xcb))
(L (W x0a x96 xff xff x78 x00 x00 x00)))
(T (W xc2 x29 xfe xff x74 x00 x00 x00)
(L (W x45 x26 x22 x84 xe4 x9c xf2 xcb)) E)))))
(T (W x00 x00 x00 x00 x00 x00 x00 x00)
(T (W x00 x00 x00 x00 x00 x00 x00 x00)
(T (W x64 x70 xfc xff x1f x00 x00 x00)
(T (W xff xff xff xff xff xff xff xff)
(T (W x00 x00 x80 x3f x00 x00 x80 x3f)
(L (W x45 x26 x22 x84 xe4 x9c xf2 xcb))
(L (W x45 x26 x22 x84 xe4 x9c xf2 xcb)))
(T (W x00 x00 x80 x3f x00 x00 x80 x3f)
(L (W x30 x34 x5f x43 x4c x45 x41 x52))
(L (W x68 x00 x00 x00 x5c x00 x00 x00))))
(T (W x68 x00 x00 x00 x5c x00 x00 x00)
(T (W xff xff xff xff xff xff xff xff)
(L (W x00 x00 x00 x00 x00 x00 x00 x00))
(L (W x00 x00 x80 xbf x00 x00 x80 xbf)))
(T (W x00 x00 x00 x00 x00 x00 x00 x00)
(L (W x00 x00 x80 xbf x00 x00 x80 xbf))
(L (W x00 x00 x00 x00 x00 x00 x00 x00)))))
(T (W xff xff xff xff xff xff xff xff)
(T (W xff xff xff xff xff xff xff xff)
(T (W x68 x00 x00 x00 x5c x00 x00 x00)
(L (W x00 x00 x00 x00 x00 x00 x00 x00))
(L (W x00 x00 x00 x00 x00 x00 x00 x00)))
(T (W x01 x00 x00 x00 xff xff xff xff)
(L (W xff xff xff xff xff xff xff xff))
(L (W x14 x00 x00 x00 x0c x00 x00 x00))))
(T (W x00 x00 x00 x00 x00 x00 x00 x00)
(T (W x00 x00 x00 x00 x40 x8b xfd xff)
(L (W x26 x00 x00 x00 x10 x00 x00 x00))
(L (W xc8 x89 xff xff x00 x01 x01 x01)))
(T (W x72 xbe xff xff x00 x00 x01 x01)
(L (W x68 x00 x00 x00 x5c x00 x00 x00)) E))))
(T (W x00 x00 x00 x00 x00 x00 x00 x00)
(T (W x00 x00 x00 x00 x02 x00 x00 x00)
(T (W xff xff xff xff xff xff xff xff)
(T (W x45 x26 x22 x84 xe4 x9c xf2 xcb)
(L (W x00 x00 x00 x00 x40 x3b xfe xff))
(L (W xff xff xff xff xff xff xff xff)))
(T (W x6c x00 x00 x00 x60 x00 x00 x00)
(L (W xc8 xb9 xfe xff x00 x01 x01 x01))
(L (W xff xff xff xff xff xff xff xff))))
(T (W x00 x00 x80 x3f x00 x00 x80 x3f)
(T (W x00 x00 x00 x00 x00 x00 x00 x00)
(L (W x00 x00 x00 x00 x00 x00 x00 x00))
(L (W x6c x00 x00 x00 x60 x00 x00 x00)))
(T (W x00 x00 x00 x00 x00 x00 x00 x00)
(L (W xc2 x11 xff xff x74 x00 x00 x00))
(L (W x06 x00 x07 x00 x00 x00 x00 x00)))))
(T (W xff xff xff xff xff xff xff xff)
(T (W x45 x26 x22 x84 xe4 x9c xf2 xcb)
(T (W x0a x5e xfd xff x78 x00 x00 x00)
(L (W x00 x00 x00 x00 x00 x00 x00 x00))
(L (W x00 x00 x80 xbf x00 x00 x80 xbf)))
(T (W x00 x00 x00 x00 x00 x00 x00 x00)
(L (W x00 x00 x00 x00 x00 x00 x00 x00))
(L (W x00 x00 x00 x00 x00 x00 x00 x00))))
(T (W x6c x00 x00 x00 x60 x00 x00 x00)
(T (W xff xff xff xff x01 x00 x00 x00)
(L (W x00 x00 x80 x3f x00 x00 x80 x3f))
(L (W x00 x00 x80 xbf x00 x00 x80 xbf)))
(T (W x00 x00 x80 x3f x00 x00 x80 x3f)
(L (W x0a x1e xff xff x78 x00 x00 x00)) E)))))))
(T (W xc2 x3b xfc xff x74 x00 x00 x00)
(T (W x00 x00 x00 x00 x00 x00 x00 x00)
(T (W x64 x36 xfc xff x0e x00 x00 x00)
(T (W xff xff xff xff xff xff xff xff)
(T (W xff xff xff xff xff xff xff xff)
(T (W x68 x00 x00 x00 x5c x00 x00 x00)
(T (W x00 x00 x00 x00 x00 x00 x00 x00)
(L (W x00 x00 x00 x00 x00 x00 x00 x00))
(L (W x00 x00 x80 xbf x00 x00 x80 xbf)))
(T (W xff xff xff xff xff xff xff xff)
(L (W xb4 x00 x00 x00 x64 x00 x00 x00))
(L (W x4f x84 x6f x8b xe8 xcb x63 xb7))))
(T (W x45 x26 x22 x84 xe4 x9c xf2 xcb)
(T (W x00 x00 x80 x3f x00 x00 x80 x3f)
(L (W xff xff xff xff xff xff xff xff))
(L (W x45 x26 x22 x84 xe4 x9c xf2 xcb)))
(T (W x00 x00 x00 x00 x00 x00 x00 x00)
(L (W x00 x00 x00 x00 x00 x00 x00 x00))
(L (W xef x00 x00 x00 xff xff xff xff)))))
(T (W x00 x00 x00 x00 x40 x81 xfc xff)
(T (W x00 x00 x80 x3f x00 x00 x80 x3f)
(T (W x00 x00 x80 x3f x00 x00 x80 x3f)
(L (W xf8 xcc x36 x97 x85 x2a x63 x5f))
(L (W xff xff xff xff xff xff xff xff)))
(T (W x00 x00 x80 x3f x00 x00 x80 x3f)
(L (W x00 x00 x80 xbf x00 x00 x80 xbf))
(L (W x00 x00 x80 xbf x00 x00 x80 xbf))))
(T (W x45 x26 x22 x84 xe4 x9c xf2 xcb)
(T (W x00 x00 x00 x00 x00 x00 x00 x00)
(L (W x00 x00 x00 x00 x00 x00 x00 x00))
(L (W x00 x00 x80 xbf x00 x00 x80 xbf)))
(T (W xff xff xff xff xff xff xff xff)
(L (W x00 x00 x00 x00 x00 x00 x00 x00))
(L (W xff xff xff xff xff xff xff xff))))))
(T (W xfa x0d xff xff xbd x01 x00 x00)
(T (W xff xff xff xff xff xff xff xff)
(T (W x00 x00 x80 x3f x00 x00 x80 x3f)
(T (W x00 x00 x00 x00 x00 x00 x00 x00)
(L (W x00 x00 x80 x3f x00 x00 x80 x3f))
(L (W x54 x00 x00 x00 x48 x00 x00 x00)))
(T (W x00 x00 x00 x00 x00 x00 x00 x00)
(L (W x00 x00 x80 x3f x00 x00 x80 x3f))
(L (W x00 x00 x80 xbf x00 x00 x80 xbf))))
(T (W x00 x00 x00 x00 x00 x00 x00 x00)
(T (W xff xff xff xff x9c x00 x00 x00)
(L (W x03 x00 x00 x00 xd0 x00 x00 x00))
(L (W x00 x00 x00 x00 x00 x00 x00 x00)))
(T (W x00 x00 x00 x00 x00 x00 x00 x00)
(L (W x00 x00 x00 x00 x00 x00 x00 x00))
(L (W x4c x00 x50 x00 x54 x00 x00 x00)))))
(T (W x1d x00 x00 x00 x9c x00 x00 x00)
(T (W x00 x00 x80 x3f x00 x00 x80 x3f)
(T (W x45 x26 x22 x84 xe4 x9c xf2 xcb)
(L (W x52 x45 x53 x50 x41 x57 x4e x5f))
(L (W x00 x00 x01 x01 x2f x00 x00 x00)))
(T (W xff xff xff xff xff xff xff xff)
(L (W xb0 x00 x00 x00 x64 x00 x00 x00))
(L (W xff xff xff xff xff xff xff xff))))
(T (W x00 x00 x00 x00 x00 x00 x00 x00)
(T (W x54 x00 x00 x00 x48 x00 x00 x00)
(L (W x00 x00 x00 x00 x00 x00 x00 x00))
(L (W x45 x26 x22 x84 xe4 x9c xf2 xcb)))
(T (W x00 x00 x80 x3f x00 x00 x80 x3f)
(L (W x00 x00 x80 xbf x00 x00 x80 xbf)) E)))))
(T (W x72 xec xfd xff x00 x00 x01 x01)
(T (W xc1 x01 x00 x00 xff xff xff xff)
(T (W xff xff xff xff xff xff xff xff)
(T (W x0a xac xfc xff x78 x00 x00 x00)
(T (W x00 x00 x00 x00 x00 x00 x00 x00)
(L (W x00 x00 x80 x3f x00 x00 x80 x3f))
(L (W x45 x26 x22 x84 xe4 x9c xf2 xcb)))
(T (W x00 x00 x00 x00 x12 xa7 xfd xff)
(L (W xff xff xff xff xa0 x00 x00 x00))
(L (W x00 x00 x80 xbf x00 x00 x80 xbf))))
(T (W x00 x00 x00 x00 x00 x00 x00 x00)
(T (W x6c x00 x00 x00 x60 x00 x00 x00)
(L (W xb0 x00 x00 x00 x64 x00 x00 x00))
(L (W x00 x00 x00 x00 x00 x00 x00 x00)))
(T (W x18 x01 x00 x00 x04 x00 x00 x00)
(L (W x00 x00 x00 x00 x00 x00 x00 x00))
(L (W xff xff xff xff xff xff xff xff)))))
(T (W x18 x00 x00 x00 x0c x00 x00 x00)
(T (W x00 x00 x80 x3f x00 x00 x80 x3f)
(T (W x77 x69 x6c x64 x5f x70 x6f x6b)
(L (W xff xff xff xff xff xff xff xff))
(L (W x00 x00 x00 x00 x1a x4a xff xff)))
(T (W xc8 xc7 xfd xff x00 x01 x01 x01)
(L (W x0a xcc xfe xff x78 x00 x00 x00))
(L (W x54 x00 x00 x00 x48 x00 x00 x00))))
(T (W x68 x00 x00 x00 x5c x00 x00 x00)
(T (W x45 x26 x22 x84 xe4 x9c xf2 xcb)
(L (W xff xff xff xff x94 x00 x00 x00))
(L (W x00 x00 x80 xbf x00 x00 x80 xbf)))
(T (W xff xff xff xff xff xff xff xff)
(L (W x00 x00 x80 xbf x00 x00 x80 xbf)) E))))
(T (W x72 x17 xff xff x00 x00 x01 x01)
(T (W x64 x00 x00 x00 x9c x00 x00 x00)
(T (W x00 x00 x80 x3f x00 x00 x80 x3f)
(T (W x00 x00 x00 x00 x00 x00 x00 x00)
(L (W x00 x00 x80 x3f x00 x00 x80 x3f))
(L (W x27 x00 x00 x00 x2a x00 x00 x00)))
(T (W x49 xa1 x68 x4a xeb x5f xdd x3d)
(L (W x00 x00 x80 x3f x00 x00 x80 x3f))
(L (W x00 x00 x80 xbf x00 x00 x80 xbf))))
(T (W x45 x26 x22 x84 xe4 x9c xf2 xcb)
(T (W xff xff xff xff xff xff xff xff)
(L (W xff xff xff xff xff xff xff xff))
(L (W x00 x00 x00 x00 x00 x00 x00 x00)))
(T (W x72 xac xff xff x00 x00 x01 x01)
(L (W x00 x00 x80 xbf x00 x00 x80 xbf))
(L (W x00 x00 x80 xbf x00 x00 x80 xbf)))))
(T (W x01 x00 x00 x00 x3e x00 x00 x00)
(T (W x00 x00 x80 x3f x00 x00 x80 x3f)
(T (W x00 x00 x80 x3f x00 x00 x80 x3f)
(L (W xff xff xff xff xff xff xff xff))
(L (W x00 x00 x00 x00 x00 x00 x00 x00)))
(T (W xff xff xff xff xff xff xff xff)
(L (W xff xff xff xff xff xff xff xff))
(L (W xc8 xd7 xff xff x00 x01 x01 x01))))
(T (W x00 x00 x00 x00 x00 x00 x00 x00)
(T (W xff xff xff xff xc4 x00 x00 x00)
(L (W x6e x00 x00 x00 x1a x9a xfe xff))
(L (W xff xff xff xff xff xff xff xff)))
(T (W x00 x00 x00 x00 x00 x00 x00 x00)
(L (W x45 x26 x22 x84 xe4 x9c xf2 xcb)) E))))))
(T (W x50 x00 x00 x00 x44 x00 x00 x00)
(T (W x00 x00 x80 x3f x00 x00 x80 x3f)
(T (W x6c x00 x00 x00 x60 x00 x00 x00)
(T (W x45 x26 x22 x84 xe4 x9c xf2 xcb)
(T (W xff xff xff xff xff xff xff xff)
(T (W x64 x00 x00 x00 x9c x00 x00 x00)
(L (W xff xff xff xff xff xff xff xff))
(L (W xff xff xff xff xff xff xff xff)))
(T (W x00 x00 x80 x3f x00 x00 x80 x3f)
(L (W xc8 xa3 xfe xff x00 x01 x01 x01))
(L (W x1e x00 x00 x00 x21 x00 x00 x00))))
(T (W xff xff xff xff xff xff xff xff)
(T (W xff xff xff xff xff xff xff xff)
(L (W x00 x00 x00 x00 x00 x00 x00 x00))
(L (W x45 x26 x22 x84 xe4 x9c xf2 xcb)))
(T (W xc2 xfb xfd xff x74 x00 x00 x00)
(L (W x00 x00 x80 xbf x00 x00 x80 xbf))
(L (W xff xff xff xff xff xff xff xff)))))
(T (W x00 x00 x00 x00 x00 x00 x00 x00)
(T (W xff xff xff xff xff xff xff xff)
(T (W x50 x00 x00 x00 x44 x00 x00 x00)
(L (W x00 x00 x80 x3f x00 x00 x80 x3f))
(L (W x00 x00 x80 xbf x00 x00 x80 xbf)))
(T (W x0a xf3 xfd xff x9c x01 x00 x00)
(L (W x00 x00 x00 x00 x1a xc6 xfe xff))
(L (W xff xff xff xff xff xff xff xff))))
(T (W x18 x00 x00 x00 x0c x00 x00 x00)
(T (W xff xff xff xff xff xff xff xff)
(L (W x00 x00 x01 x01 xad x01 x00 x00))
(L (W x00 x00 x00 x00 x00 x00 x00 x00)))
(T (W x45 x26 x22 x84 xe4 x9c xf2 xcb)
(L (W xff xff xff xff xff xff xff xff))
(L (W x00 x00 x00 x00 x00 x00 x00 x00))))))
(T (W x00 x00 x80 x3f x00 x00 x80 x3f)
(T (W x00 x00 x80 x3f x00 x00 x80 x3f)
(T (W x00 x00 x00 x00 x00 x00 x00 x00)
(T (W xc8 x33 xfd xff x00 x01 x01 x01)
(L (W xff xff xff xff xff xff xff xff))
(L (W x00 x00 x00 x00 x00 x00 x00 x00)))
(T (W xff xff xff xff xc8 x00 x00 x00)
(L (W xff xff xff xff xff xff xff xff))
(L (W xff xff xff xff xff xff xff xff))))
(T (W xff xff xff xff xff xff xff xff)
(T (W x4f x84 x6f x8b xe8 xcb x63 xb7)
(L (W x64 x7a xfe xff x25 x00 x00 x00))
(L (W x14 x00 x00 x00 x0c x00 x00 x00)))
(T (W x68 x00 x00 x00 x5c x00 x00 x00)
(L (W xff xff xff xff xff xff xff xff))
(L (W xff xff xff xff xff xff xff xff)))))
(T (W x0c x9f xfc xff x3c x00 x00 x00)
(T (W xff xff xff xff xff xff xff xff)
(T (W xff xff xff xff xff xff xff xff)
(L (W x00 x00 x00 x00 x00 x00 x00 x00))
(L (W x00 x00 x80 xbf x00 x00 x80 xbf)))
(T (W x00 x00 x80 x3f x00 x00 x80 x3f)
(L (W x00 x00 x80 xbf x00 x00 x80 xbf))
(L (W xff xff xff xff xff xff xff xff))))
(T (W xff xff xff xff xff xff xff xff)
(T (W x00 x00 x00 x00 x00 x00 x00 x00)
(L (W x00 x00 x00 x00 x00 x00 x00 x00))
(L (W xff xff xff xff xff xff xff xff)))
(T (W xff xff xff xff xff xff xff xff)
(L (W x04 x00 x00 x00 x7a x11 xff xff)) E)))))
(T (W x50 x00 x00 x00 x44 x00 x00 x00)
(T (W x00 x00 x80 x3f x00 x00 x80 x3f)
(T (W x00 x00 x80 x3f x00 x00 x80 x3f)
(T (W x72 x60 xfe xff x00 x00 x01 x01)
(T (W xbc x00 x00 x00 xb0 x00 x00 x00)
(L (W xff xff xff xff xff xff xff xff))
(L (W xff xff xff xff xff xff xff xff)))
(T (W x0a xb0 xfd xff x78 x00 x00 x00)
(L (W xff xff xff xff xff xff xff xff))
(L (W xff xff xff xff xff xff xff xff))))
(T (W xff xff xff xff xff xff xff xff)
(T (W x00 x00 x00 x00 x00 x00 x00 x00)
(L (W x00 x00 x00 x00 x12 x00 x00 x00))
(L (W x23 x00 x00 x00 x26 x00 x00 x00)))
(T (W x00 x00 x80 x3f x00 x00 x80 x3f)
(L (W x18 x00 x00 x00 x10 x00 x00 x00))
(L (W x00 x00 x80 xbf x00 x00 x80 xbf)))))
(T (W x00 x00 x00 x00 x00 x00 x00 x00)
(T (W xff xff xff xff xff xff xff xff)
(T (W x03 x00 x00 x00 xcc x00 x00 x00)
(L (W xff xff xff xff xff xff xff xff))
(L (W x00 x00 x80 xbf x00 x00 x80 xbf)))
(T (W x00 x00 x00 x00 x00 x00 x00 x00)
(L (W x00 x00 x00 x00 x00 x00 x00 x00))
(L (W xff xff xff xff xff xff xff xff))))
(T (W xff xff xff xff xff xff xff xff)
(T (W xff xff xff xff xff xff xff xff)
(L (W x0a x90 xfe xff x78 x00 x00 x00))
(L (W x04 x00 x00 x00 x7a x89 xff xff)))
(T (W x00 x00 x00 x00 x00 x00 x00 x00)
(L (W x5d x00 x00 x00 xff xff xff xff)) E))))
(T (W x00 x00 x00 x00 x00 x00 x00 x00)
(T (W x00 x00 x00 x00 x00 x00 x00 x00)
(T (W x54 x03 x00 x00 x38 x02 x00 x00)
(T (W x50 x00 x00 x00 x44 x00 x00 x00)
(L (W x00 x00 x00 x00 x00 x00 x00 x00))
(L (W x00 x00 x00 x00 x00 x00 x00 x00)))
(T (W xff xff xff xff xff xff xff xff)
(L (W xff xff xff xff xff xff xff xff))
(L (W xff xff xff xff xff xff xff xff))))
(T (W xb8 x00 x00 x00 xac x00 x00 x00)
(T (W x00 x00 x80 x3f x00 x00 x80 x3f)
(L (W x50 x00 x00 x00 x44 x00 x00 x00))
(L (W xff xff xff xff xff xff xff xff)))
(T (W x00 x00 x80 x3f x00 x00 x80 x3f)
(L (W xff xff xff xff xff xff xff xff))
(L (W x08 x00 x0c x00 x10 x00 x14 x00)))))
(T (W x01 x00 x00 x00 x04 x00 x00 x00)
(T (W xff xff xff xff xff xff xff xff)
(T (W xff xff xff xff xff xff xff xff)
(L (W x00 x00 x80 xbf x00 x00 x80 xbf))
(L (W x18 x00 x00 x00 x0c x00 x00 x00)))
(T (W x00 x00 x00 x00 x40 xdd xfd xff)
(L (W x00 x00 x80 xbf x00 x00 x80 xbf))
(L (W x00 x00 x80 xbf x00 x00 x80 xbf))))
(T (W xff xff xff xff xff xff xff xff)
(T (W x00 x00 x80 x3f x00 x00 x80 x3f)
(L (W xff xff xff xff xff xff xff xff))
(L (W xff xff xff xff xff xff xff xff)))
(T (W x45 x26 x22 x84 xe4 x9c xf2 xcb)
(L (W xff xff xff xff xff xff xff xff)) E))))))))
(T (W x78 xa7 x00 x00 x2c xa5 x00 x00)
(T (W x00 x00 x80 x3f x00 x00 x80 x3f)
(T (W x40 x02 x00 x00 x28 x01 x00 x00)
(T (W xff xff xff xff xff xff xff xff)
(T (W xff xff xff xff xff xff xff xff)
(T (W xff xff xff xff xff xff xff xff)
(T (W x00 x00 x80 x3f x00 x00 x80 x3f)
(T (W x00 x00 x00 x00 x00 x00 x00 x00)
(L (W x00 x00 x00 x00 x02 x00 x00 x00))
(L (W x45 x26 x22 x84 xe4 x9c xf2 xcb)))
(T (W xff xff xff xff x9c x00 x00 x00)
(L (W xc8 x9e xfe xff x00 x01 x01 x01))
(L (W x00 x00 x00 x00 x00 x00 x00 x00))))
(T (W x00 x00 x00 x00 x00 x00 x00 x00)
(T (W x45 x26 x22 x84 xe4 x9c xf2 xcb)
(L (W xff xff xff xff xff xff xff xff))
(L (W x00 x00 x00 x00 x00 x00 x00 x00)))
(T (W x00 x00 x01 x01 xc1 x02 x00 x00)
(L (W xff xff xff xff xff xff xff xff))
(L (W xff xff xff xff xff xff xff xff)))))
(T (W xc2 x96 xfc xff x74 x00 x00 x00)
(T (W x45 x26 x22 x84 xe4 x9c xf2 xcb)
(T (W x00 x00 x0c x00 x10 x00 x14 x00)
(L (W xff xff xff xff xff xff xff xff))
(L (W x00 x00 x00 x00 x40 x40 xff xff)))
(T (W x00 x00 x00 x00 x00 x00 x00 x00)
(L (W x4f x84 x6f x8b xe8 xcb x63 xb7))
(L (W x00 x00 x80 xbf x00 x00 x80 xbf))))
(T (W x00 x00 x00 x00 x00 x00 x00 x00)
(T (W xff xff xff xff xff xff xff xff)
(L (W x28 x00 x00 x00 x10 x00 x00 x00))
(L (W x49 xa1 x68 x4a xeb x5f xdd x3d)))
(T (W xff xff xff xff xff xff xff xff)
(L (W x00 x00 x00 x00 x00 x00 x00 x00))
(L (W x00 x00 x80 xbf x00 x00 x80 xbf))))))
(T (W xff xff xff xff xff xff xff xff)
(T (W xc8 x6e xfc xff x00 x01 x01 x01)
(T (W x45 x26 x22 x84 xe4 x9c xf2 xcb)
(T (W x00 x00 x00 x00 x00 x00 x00 x00)
(L (W x00 x00 x00 x00 x00 x00 x00 x00))
(L (W x00 x00 x80 xbf x00 x00 x80 xbf)))
(T (W x00 x00 x00 x00 x00 x00 x00 x00)
(L (W x4f x84 x6f x8b xe8 xcb x63 xb7))
(L (W x45 x26 x22 x84 xe4 x9c xf2 xcb))))
(T (W x00 x00 x00 x00 x00 x00 x00 x00)
(T (W x0a x73 xfd xff x78 x00 x00 x00)
(L (W xff xff xff xff x98 x00 x00 x00))
(L (W x45 x44 x00 x00 x00 x00 x00 x00)))
(T (W x72 xa3 xff xff x00 x00 x01 x01)
(L (W x00 x00 x00 x00 x00 x00 x00 x00))
(L (W xff xff xff xff xff xff xff xff)))))
(T (W x45 x26 x22 x84 xe4 x9c xf2 xcb)
(T (W x45 x26 x22 x84 xe4 x9c xf2 xcb)
(T (W x00 x00 x00 x00 x00 x00 x00 x00)
(L (W xff xff xff xff xff xff xff xff))
(L (W xff xff xff xff xff xff xff xff)))
(T (W x27 x00 x00 x00 x2a x00 x00 x00)
(L (W xc8 xce xfe xff x00 x01 x01 x01))
(L (W x45 x26 x22 x84 xe4 x9c xf2 xcb))))
(T (W x00 x00 x00 x00 x00 x00 x00 x00)
(T (W x45 x26 x22 x84 xe4 x9c xf2 xcb)
(L (W x61 x64 x65 x72 x5f x77 x69 x6c))
(L (W x00 x00 x00 x00 x00 x00 x00 x00)))
(T (W x00 x00 x00 x00 x00 x00 x00 x00)
(L (W x45 x26 x22 x84 xe4 x9c xf2 xcb)) E)))))
(T (W xff xff xff xff xff xff xff xff)
(T (W xff xff xff xff xff xff xff xff)
(T (W x64 x00 x00 x00 x9c x00 x00 x00)
(T (W x00 x00 x80 x3f x00 x00 x80 x3f)
(T (W x00 x00 x00 x00 x00 x00 x00 x00)
(L (W x00 x00 x80 x3f x00 x00 x80 x3f))
(L (W x00 x00 x00 x00 x00 x00 x00 x00)))
(T (W xff xff xff xff xff xff xff xff)
(L (W x4f x84 x6f x8b xe8 xcb x63 xb7))
(L (W x00 x00 x00 x00 x00 x00 x00 x00))))
(T (W x00 x00 x00 x00 x00 x00 x00 x00)
(T (W x00 x00 x80 x3f x00 x00 x80 x3f)
(L (W xc8 x66 xfe xff x00 x01 x01 x01))
(L (W xff xff xff xff xff xff xff xff)))
(T (W xff xff xff xff xff xff xff xff)
(L (W xff xff xff xff x01 x00 x00 x00))
(L (W xff xff xff xff xb0 x00 x00 x00)))))
(T (W x00 x00 x00 x00 x40 x88 xfc xff)
(T (W x00 x00 x80 x3f x00 x00 x80 x3f)
(T (W xff xff xff xff xff xff xff xff)
(L (W xff xff xff xff xff xff xff xff))
(L (W xff xff xff xff xff xff xff xff)))
(T (W x50 x00 x00 x00 x44 x00 x00 x00)
(L (W x00 x00 x80 xbf x00 x00 x80 xbf))
(L (W x00 x00 x80 xbf x00 x00 x80 xbf))))
(T (W x00 x00 x00 x00 x00 x00 x00 x00)
(T (W x00 x00 x00 x00 x00 x00 x00 x00)
(L (W x00 x00 x80 xbf x00 x00 x80 xbf))
(L (W x00 x00 x00 x00 x00 x00 x00 x00)))
(T (W xc2 x1e xfe xff x74 x00 x00 x00)
(L (W x00 x00 x00 x00 x00 x00 x00 x00)) E))))
(T (W xff xff xff xff xff xff xff xff)
(T (W x50 x00 x00 x00 x44 x00 x00 x00)
(T (W x00 x00 x00 x00 x00 x00 x00 x00)
(T (W x00 x00 x00 x00 x04 x00 x00 x00)
(L (W x00 x00 x80 x3f x00 x00 x80 x3f))
(L (W x0a x3b xff xff x78 x00 x00 x00)))
(T (W x00 x00 x00 x00 x00 x00 x00 x00)
(L (W x00 x00 x00 x00 x00 x00 x00 x00))
(L (W x00 x00 x80 xbf x00 x00 x80 xbf))))
(T (W x00 x00 x00 x00 x00 x00 x00 x00)
(T (W xb0 x00 x00 x00 x64 x00 x00 x00)
(L (W x45 x26 x22 x84 xe4 x9c xf2 xcb))
(L (W x0c x82 xff xff x35 x00 x00 x00)))
(T (W xff xff xff xff xff xff xff xff)
(L (W x00 x00 x00 x00 x00 x00 x00 x00))
(L (W x00 x00 x80 xbf x00 x00 x80 xbf)))))
(T (W x00 x00 x80 x3f x00 x00 x80 x3f)
(T (W x00 x00 x00 x00 x00 x00 x00 x00)
(T (W x00 x00 x00 x00 x00 x00 x00 x00)
(L (W x03 x00 x00 x00 xcc x00 x00 x00))
(L (W xff xff xff xff xff xff xff xff)))
(T (W xff xff xff xff xff xff xff xff)
(L (W xff xff xff xff xff xff xff xff))
(L (W x00 x00 x00 x00 x00 x00 x00 x00))))
(T (W x3e x00 x00 x00 x0c x00 x00 x00)
(T (W x45 x26 x22 x84 xe4 x9c xf2 xcb)
(L (W x45 x26 x22 x84 xe4 x9c xf2 xcb))
(L (W x00 x00 x00 x00 x00 x00 x00 x00)))
(T (W x00 x00 x00 x00 x00 x00 x00 x00)
(L (W x00 x00 x00 x00 x00 x00 x00 x00)) E))))))
(T (W x00 x00 x80 x3f x00 x00 x80 x3f)
(T (W x00 x00 x80 x3f x00 x00 x80 x3f)
(T (W x00 x00 x80 x3f x00 x00 x80 x3f)
(T (W x00 x00 x00 x00 x00 x00 x00 x00)
(T (W xff xff xff xff xff xff xff xff)
(T (W x45 x26 x22 x84 xe4 x9c xf2 xcb)
(L (W x00 x00 x80 x3f x00 x00 x80 x3f))
(L (W xff xff xff xff xff xff xff xff)))
(T (W x4f x84 x6f x8b xe8 xcb x63 xb7)
(L (W x45 x26 x22 x84 xe4 x9c xf2 xcb))
(L (W x00 x00 x00 x00 x40 xa4 xff xff))))
(T (W xb8 x00 x00 x00 xac x00 x00 x00)
(T (W xff xff xff xff xff xff xff xff)
(L (W x00 x00 x00 x00 x00 x00 x00 x00))
(L (W x6c x00 x00 x00 x60 x00 x00 x00)))
(T (W x00 x00 x80 x3f x00 x00 x80 x3f)
(L (W x00 x00 x80 xbf x00 x00 x80 xbf))
(L (W x00 x00 x80 xbf x00 x00 x80 xbf)))))
(T (W x64 x89 xfc xff x3e x00 x00 x00)
(T (W xff xff xff xff xff xff xff xff)
(T (W x00 x00 x80 x3f x00 x00 x80 x3f)
(L (W x00 x00 x80 x3f x00 x00 x80 x3f))
(L (W x00 x00 x00 x00 x00 x00 x00 x00)))
(T (W xff xff xff xff xff xff xff xff)
(L (W xff xff xff xff xff xff xff xff))
(L (W xb4 x00 x00 x00 x64 x00 x00 x00))))
(T (W x00 x00 x80 x3f x00 x00 x80 x3f)
(T (W xc2 x9a xfd xff x74 x00 x00 x00)
(L (W xff xff xff xff xff xff xff xff))
(L (W xff xff xff xff xff xff xff xff)))
(T (W x00 x00 x00 x00 x00 x00 x00 x00)
(L (W xff xff xff xff xff xff xff xff))
(L (W xff xff xff xff xff xff xff xff))))))
(T (W x00 x00 x00 x00 x00 x00 x00 x00)
(T (W x00 x00 x00 x00 x00 x00 x00 x00)
(T (W xff xff xff xff xff xff xff xff)
(T (W x00 x00 x80 x3f x00 x00 x80 x3f)
(L (W x45 x26 x22 x84 xe4 x9c xf2 xcb))
(L (W x00 x00 x00 x00 x1a x35 xff xff)))
(T (W x45 x26 x22 x84 xe4 x9c xf2 xcb)
(L (W xff xff xff xff xff xff xff xff))
(L (W xff xff xff xff xff xff xff xff))))
(T (W x45 x26 x22 x84 xe4 x9c xf2 xcb)
(T (W x00 x00 x00 x00 x00 x00 x00 x00)
(L (W x00 x00 x00 x00 xba x81 xfe xff))
(L (W x74 x00 x00 x00 x68 x00 x00 x00)))
(T (W x00 x00 x80 x3f x00 x00 x80 x3f)
(L (W x45 x26 x22 x84 xe4 x9c xf2 xcb))
(L (W xcc x00 x00 x00 x02 x00 x00 x00)))))
(T (W xff xff xff xff xff xff xff xff)
(T (W xff xff xff xff xff xff xff xff)
(T (W xc0 x00 x00 x00 x01 x00 x00 x00)
(L (W x30 x34 x5f x43 x4c x45 x41 x52))
(L (W x00 x00 x80 xbf x00 x00 x80 xbf)))
(T (W x00 x00 x00 x00 x00 x00 x00 x00)
(L (W x00 x00 x00 x00 x00 x00 x00 x00))
(L (W x2b x00 x00 x00 x2e x00 x00 x00))))
(T (W xff xff xff xff x03 x00 x00 x00)
(T (W x00 x00 x00 x00 x00 x00 x00 x00)
(L (W x6e x00 x00 x00 x1a x95 xfe xff))
(L (W xff xff xff xff xb0 x00 x00 x00)))
(T (W x00 x00 x00 x00 x40 x14 xfe xff)
(L (W xff xff xff xff xbc x00 x00 x00)) E)))))
(T (W x00 x00 x80 x3f x00 x00 x80 x3f)
(T (W x00 x00 x00 x00 x00 x00 x00 x00)
(T (W x45 x26 x22 x84 xe4 x9c xf2 xcb)
(T (W xff xff xff xff xff xff xff xff)
(T (W x50 x00 x00 x00 x44 x00 x00 x00)
(L (W xff xff xff xff xff xff xff xff))
(L (W xff xff xff xff xff xff xff xff)))
(T (W x00 x00 x80 x3f x00 x00 x80 x3f)
(L (W x00 x00 x80 x3f x00 x00 x80 x3f))
(L (W x03 x00 x00 x00 xd0 x00 x00 x00))))
(T (W xff xff xff xff x04 x00 x00 x00)
(T (W x4b x00 x00 x00 xff xff xff xff)
(L (W x00 x00 x00 x00 x00 x00 x00 x00))
(L (W x00 x00 x00 x00 x40 x6c xff xff)))
(T (W x00 x00 x80 x3f x00 x00 x80 x3f)
(L (W x6c x00 x00 x00 x60 x00 x00 x00))
(L (W x45 x26 x22 x84 xe4 x9c xf2 xcb)))))
(T (W x01 x00 x00 x00 x04 x00 x00 x00)
(T (W xff xff xff xff xff xff xff xff)
(T (W x18 x00 x00 x00 x10 x00 x00 x00)
(L (W x00 x00 x00 x00 x00 x00 x00 x00))
(L (W x00 x00 x80 xbf x00 x00 x80 xbf)))
(T (W x4c x45 x41 x52 x45 x44 x00 x00)
(L (W x00 x00 x00 x00 x12 xca xfe xff))
(L (W x23 x00 x00 x00 x26 x00 x00 x00))))
(T (W x40 x00 x00 x00 xa0 x00 x00 x00)
(T (W xff xff xff xff xff xff xff xff)
(L (W x00 x00 x80 x3f x00 x00 x80 x3f))
(L (W xb8 x00 x00 x00 x1e x00 x00 x00)))
(T (W x00 x00 x00 x00 x00 x00 x00 x00)
(L (W xff xff xff xff xff xff xff xff)) E))))
(T (W x00 x00 x00 x00 x00 x00 x00 x00)
(T (W x00 x00 x00 x00 x00 x00 x00 x00)
(T (W xff xff xff xff xff xff xff xff)
(T (W x00 x00 x80 x3f x00 x00 x80 x3f)
(L (W x50 x00 x54 x00 x58 x00 x00 x00))
(L (W x20 x00 x00 x00 x0c x00 x00 x00)))
(T (W x18 x00 x00 x00 x10 x00 x00 x00)
(L (W xbc x00 x00 x00 x0a x00 x00 x00))
(L (W xff xff xff xff xff xff xff xff))))
(T (W x68 x00 x00 x00 x5c x00 x00 x00)
(T (W x49 xa1 x68 x4a xeb x5f xdd x3d)
(L (W x45 x26 x22 x84 xe4 x9c xf2 xcb))
(L (W x18 x00 x00 x00 x10 x00 x00 x00)))
(T (W x45 x26 x22 x84 xe4 x9c xf2 xcb)
(L (W xff xff xff xff xff xff xff xff))
(L (W x00 x00 x80 xbf x00 x00 x80 xbf)))))
(T (W xff xff xff xff xff xff xff xff)
(T (W xff xff xff xff xff xff xff xff)
(T (W x35 x00 x00 x00 x38 x00 x00 x00)
(L (W x45 x26 x22 x84 xe4 x9c xf2 xcb))
(L (W x6c x00 x00 x00 x60 x00 x00 x00)))
(T (W x00 x00 x80 x3f x00 x00 x80 x3f)
(L (W x00 x00 x00 x00 x00 x00 x00 x00))
(L (W x4f x84 x6f x8b xe8 xcb x63 xb7))))
(T (W x00 x00 x00 x00 x40 x1c xfd xff)
(T (W x00 x00 x00 x00 x00 x00 x00 x00)
(L (W x50 x00 x00 x00 x44 x00 x00 x00))
(L (W x18 x00 x00 x00 x0c x00 x00 x00)))
(T (W xc8 x1a xfe xff x00 x01 x01 x01)
(L (W xff xff xff xff xb0 x00 x00 x00)) E)))))))
(T (W xff xff xff xff xff xff xff xff)
(T (W x00 x00 x00 x00 x00 x00 x00 x00)
(T (W x45 x26 x22 x84 xe4 x9c xf2 xcb)
(T (W x40 x00 x00 x00 x0c x00 x00 x00)
(T (W x00 x00 x00 x00 x04 x00 x00 x00)
(T (W xff xff xff xff xff xff xff xff)
(T (W x00 x00 x00 x00 x00 x00 x00 x00)
(L (W x00 x00 x00 x00 x00 x00 x00 x00))
(L (W x0a x25 xff xff x78 x00 x00 x00)))
(T (W x00 x00 x00 x00 x00 x00 x00 x00)
(L (W xff xff xff xff xff xff xff xff))
(L (W x00 x00 x80 xbf x00 x00 x80 xbf))))
(T (W x00 x00 x80 x3f x00 x00 x80 x3f)
(T (W x00 x00 x80 x3f x00 x00 x80 x3f)
(L (W x45 x44 x00 x00 x00 x00 x00 x00))
(L (W x00 x00 x80 xbf x00 x00 x80 xbf)))
(T (W x00 x00 x00 x00 x00 x00 x00 x00)
(L (W x00 x00 x00 x00 x00 x00 x00 x00))
(L (W x00 x00 x00 x00 x00 x00 x00 x00)))))
(T (W xff xff xff xff xff xff xff xff)
(T (W x68 x00 x00 x00 x5c x00 x00 x00)
(T (W xff xff xff xff xff xff xff xff)
(L (W x00 x00 x00 x00 x00 x00 x00 x00))
(L (W xff xff xff xff xff xff xff xff)))
(T (W x18 x00 x00 x00 x0c x00 x00 x00)
(L (W x54 x00 x00 x00 x48 x00 x00 x00))
(L (W x54 x00 x00 x00 x48 x00 x00 x00))))
(T (W x00 x00 x80 x3f x00 x00 x80 x3f)
(T (W x00 x00 x00 x00 x00 x00 x00 x00)
(L (W x00 x00 x80 xbf x00 x00 x80 xbf))
(L (W x6c x00 x00 x00 x60 x00 x00 x00)))
(T (W x72 xb5 xff xff x00 x00 x01 x01)
(L (W x00 x00 x80 xbf x00 x00 x80 xbf))
(L (W x00 x00 x0c x00 x10 x00 x14 x00))))))
(T (W x00 x00 x00 x00 x00 x00 x00 x00)
(T (W x66 x01 x00 x00 xff xff xff xff)
(T (W x18 x00 x00 x00 x0c x00 x00 x00)
(T (W x00 x00 x00 x00 x00 x00 x00 x00)
(L (W x00 x00 x80 x3f x00 x00 x80 x3f))
(L (W x45 x26 x22 x84 xe4 x9c xf2 xcb)))
(T (W x00 x00 x00 x00 x00 x00 x00 x00)
(L (W x6c x00 x00 x00 x60 x00 x00 x00))
(L (W x00 x00 x80 xbf x00 x00 x80 xbf))))
(T (W x45 x26 x22 x84 xe4 x9c xf2 xcb)
(T (W xff xff xff xff xff xff xff xff)
(L (W xff xff xff xff xff xff xff xff))
(L (W x00 x00 x80 xbf x00 x00 x80 xbf)))
(T (W x00 x00 x00 x00 x00 x00 x00 x00)
(L (W x00 x00 x80 xbf x00 x00 x80 xbf))
(L (W x00 x00 x00 x00 x00 x00 x00 x00)))))
(T (W xff xff xff xff x03 x00 x00 x00)
(T (W x68 x00 x00 x00 x5c x00 x00 x00)
(T (W x00 x00 x80 x3f x00 x00 x80 x3f)
(L (W x03 x00 x00 x00 xcc x00 x00 x00))
(L (W x46 x53 x59 x53 x5f x4e x53 x5f)))
(T (W xff xff xff xff xff xff xff xff)
(L (W xff xff xff xff xff xff xff xff))
(L (W x0c x00 x00 x00 x00 x00 x10 x00))))
(T (W x00 x00 x80 x3f x00 x00 x80 x3f)
(T (W x45 x26 x22 x84 xe4 x9c xf2 xcb)
(L (W x45 x26 x22 x84 xe4 x9c xf2 xcb))
(L (W x00 x00 x80 xbf x00 x00 x80 xbf)))
(T (W x00 x00 x80 x3f x00 x00 x80 x3f)
(L (W x6c x00 x00 x00 x60 x00 x00 x00)) E)))))
(T (W x00 x00 x00 x00 x00 x00 x00 x00)
(T (W x00 x00 x00 x00 x00 x00 x00 x00)
(T (W xff xff xff xff xff xff xff xff)
(T (W x45 x26 x22 x84 xe4 x9c xf2 xcb)
(T (W x00 x00 x00 x00 x00 x00 x00 x00)
(L (W xc8 x28 xfe xff x00 x01 x01 x01))
(L (W x54 x00 x00 x00 x48 x00 x00 x00)))
(T (W x00 x00 x00 x00 x00 x00 x00 x00)
(L (W xff xff xff xff xff xff xff xff))
(L (W x00 x00 x80 xbf x00 x00 x80 xbf))))
(T (W x00 x00 x80 x3f x00 x00 x80 x3f)
(T (W x18 x00 x00 x00 x10 x00 x00 x00)
(L (W xff xff xff xff xff xff xff xff))
(L (W x00 x00 x00 x00 x00 x00 x00 x00)))
(T (W x00 x00 x00 x00 x00 x00 x00 x00)
(L (W x49 xa1 x68 x4a xeb x5f xdd x3d))
(L (W x0c xf4 xff xff x2b x00 x00 x00)))))
(T (W x64 x00 x00 x00 x9c x00 x00 x00)
(T (W x01 x00 x00 x00 x3e x00 x00 x00)
(T (W x00 x00 x00 x00 x00 x00 x00 x00)
(L (W xc4 xd3 x36 x97 x85 x2e x63 x5f))
(L (W x00 x00 x00 x00 x00 x00 x00 x00)))
(T (W xb0 x00 x00 x00 x28 x00 x00 x00)
(L (W xff xff xff xff x9c x00 x00 x00))
(L (W x00 x01 x01 x01 x82 xc5 xff xff))))
(T (W x5c x00 x60 x00 x64 x00 x00 x00)
(T (W x00 x00 x80 x3f x00 x00 x80 x3f)
(L (W xff xff xff xff xff xff xff xff))
(L (W x00 x00 x80 xbf x00 x00 x80 xbf)))
(T (W xff xff xff xff xff xff xff xff)
(L (W x00 x00 x80 xbf x00 x00 x80 xbf)) E))))
(T (W x00 x00 x00 x00 x00 x00 x00 x00)
(T (W xff xff xff xff xff xff xff xff)
(T (W xc2 xd0 xfc xff x74 x00 x00 x00)
(T (W x00 x00 x00 x00 x00 x00 x00 x00)
(L (W xc2 x50 xfe xff x74 x00 x00 x00))
(L (W xff xff xff xff xff xff xff xff)))
(T (W x00 x00 x80 x3f x00 x00 x80 x3f)
(L (W x00 x00 x80 x3f x00 x00 x80 x3f))
(L (W xbc x00 x00 x00 x01 x00 x00 x00))))
(T (W x00 x00 x80 x3f x00 x00 x80 x3f)
(T (W x00 x00 x00 x00 x00 x00 x00 x00)
(L (W x04 x00 x00 x00 xa2 x79 xfe xff))
(L (W x00 x00 x80 xbf x00 x00 x80 xbf)))
(T (W x00 x00 x00 x00 x00 x00 x00 x00)
(L (W x00 x00 x80 xbf x00 x00 x80 xbf))
(L (W x0a xfd xff xff x78 x00 x00 x00)))))
(T (W xff xff xff xff xff xff xff xff)
(T (W x0a xdd xfc xff x78 x00 x00 x00)
(T (W x00 x00 x80 x3f x00 x00 x80 x3f)
(L (W x04 x00 x00 x00 x70 x03 x00 x00))
(L (W x00 x00 x00 x00 x00 x00 x00 x00)))
(T (W x45 x44 x00 x00 x00 x00 x00 x00)
(L (W x00 x00 x00 x00 x1a xdb xfe xff))
(L (W x00 x00 x00 x00 x00 x00 x64 x00))))
(T (W x00 x00 x80 x3f x00 x00 x80 x3f)
(T (W xff xff xff xff xff xff xff xff)
(L (W x00 x00 x00 x00 x00 x00 x00 x00))
(L (W x00 x00 x00 x00 x00 x00 x10 x00)))
(T (W x00 x00 x80 x3f x00 x00 x80 x3f)
(L (W x00 x00 x80 xbf x00 x00 x80 xbf)) E))))))
(T (W x64 x00 x00 x00 x9c x00 x00 x00)
(T (W xc8 x34 xfc xff x00 x01 x01 x01)
(T (W x00 x00 x00 x00 x40 x46 xfc xff)
(T (W x00 x00 x80 x3f x00 x00 x80 x3f)
(T (W x0c xb0 xfc xff x3e x00 x00 x00)
(T (W xff xff xff xff xff xff xff xff)
(L (W xff xff xff xff xff xff xff xff))
(L (W x00 x00 x00 x00 x1a x27 xff xff)))
(T (W x18 x00 x00 x00 x0c x00 x00 x00)
(L (W xb0 x00 x00 x00 x64 x00 x00 x00))
(L (W xff xff xff xff xff xff xff xff))))
(T (W x00 x00 x00 x00 x00 x00 x00 x00)
(T (W x0c x70 xfd xff x1d x00 x00 x00)
(L (W x3c x00 x00 x00 x00 x00 x80 xbf))
(L (W xff xff xff xff xb0 x00 x00 x00)))
(T (W x00 x00 x00 x00 x40 xe6 xfd xff)
(L (W x45 x26 x22 x84 xe4 x9c xf2 xcb))
(L (W x00 x00 x00 x00 x00 x00 x00 x00)))))
(T (W x45 x26 x22 x84 xe4 x9c xf2 xcb)
(T (W x0c xd0 xfc xff x3c x00 x00 x00)
(T (W x68 x00 x00 x00 x5c x00 x00 x00)
(L (W x45 x26 x22 x84 xe4 x9c xf2 xcb))
(L (W x00 x00 x80 xbf x00 x00 x80 xbf)))
(T (W x00 x00 x00 x00 x00 x00 x00 x00)
(L (W x00 x00 x00 x00 x00 x00 x00 x00))
(L (W xff xff xff xff xff xff xff xff))))
(T (W xff xff xff xff xff xff xff xff)
(T (W xff xff xff xff xff xff xff xff)
(L (W x00 x00 x00 x00 x00 x00 x00 x00))
(L (W x00 x00 x00 x00 x00 x00 x00 x00)))
(T (W x00 x00 x80 x3f x00 x00 x80 x3f)
(L (W x00 x00 x00 x00 x12 x04 xff xff))
(L (W x2b x00 x00 x00 x2e x00 x00 x00))))))
(T (W x50 x00 x00 x00 x44 x00 x00 x00)
(T (W x00 x00 x80 x3f x00 x00 x80 x3f)
(T (W x00 x00 x00 x00 x00 x00 x00 x00)
(T (W xff xff xff xff xff xff xff xff)
(L (W xff xff xff xff xff xff xff xff))
(L (W x00 x00 x00 x00 x00 x00 x00 x00)))
(T (W xff xff xff xff xff xff xff xff)
(L (W xff xff xff xff xff xff xff xff))
(L (W x45 x44 x00 x00 x00 x00 x00 x00))))
(T (W xff xff xff xff xff xff xff xff)
(T (W x00 x00 x80 x3f x00 x00 x80 x3f)
(L (W x00 x00 x00 x00 x00 x00 x00 x00))
(L (W xff xff xff xff xff xff xff xff)))
(T (W xc2 x0c xfe xff x74 x00 x00 x00)
(L (W xff xff xff xff xff xff xff xff))
(L (W x0c x00 x00 x00 x35 x00 x00 x00)))))
(T (W x00 x00 x00 x00 x00 x00 x00 x00)
(T (W xff xff xff xff xff xff xff xff)
(T (W xff xff xff xff xff xff xff xff)
(L (W x00 x00 x80 xbf x00 x00 x80 xbf))
(L (W x35 x00 x00 x00 x38 x00 x00 x00)))
(T (W x00 x00 x80 x3f x00 x00 x80 x3f)
(L (W x0a xd9 xfe xff x78 x00 x00 x00))
(L (W xff xff xff xff xff xff xff xff))))
(T (W xff xff xff xff xff xff xff xff)
(T (W x00 x00 x00 x00 x00 x00 x00 x00)
(L (W x00 x00 x80 x3f x00 x00 x80 x3f))
(L (W x04 x00 x00 x00 xa2 x95 xff xff)))
(T (W xff xff xff xff xff xff xff xff)
(L (W x46 x53 x59 x53 x5f x4e x53 x5f)) E)))))
(T (W xff xff xff xff x03 x00 x00 x00)
(T (W x45 x26 x22 x84 xe4 x9c xf2 xcb)
(T (W x00 x00 x80 x3f x00 x00 x80 x3f)
(T (W x00 x00 x00 x00 x00 x00 x00 x00)
(T (W xff xff xff xff xff xff xff xff)
(L (W x00 x00 x00 x00 x02 x00 x00 x00))
(L (W x0c x38 xff xff x1d x00 x00 x00)))
(T (W xff xff xff xff x9c x00 x00 x00)
(L (W xff xff xff xff xff xff xff xff))
(L (W x04 x00 x00 x00 x70 x03 x00 x00))))
(T (W x20 x01 x00 x00 x04 x00 x00 x00)
(T (W x00 x00 x00 x00 x00 x00 x00 x00)
(L (W x00 x00 x00 x00 x00 x00 x00 x00))
(L (W xff xff xff xff xff xff xff xff)))
(T (W xff xff xff xff xff xff xff xff)
(L (W xff xff xff xff xff xff xff xff))
(L (W x00 x00 x80 xbf x00 x00 x80 xbf)))))
(T (W x45 x26 x22 x84 xe4 x9c xf2 xcb)
(T (W x01 x00 x00 x00 x04 x00 x00 x00)
(T (W xff xff xff xff xff xff xff xff)
(L (W x6c x00 x04 x00 x60 x00 x08 x00))
(L (W xc2 x64 xff xff x74 x00 x00 x00)))
(T (W x49 xa1 x68 x4a xeb x5f xdd x3d)
(L (W x4f x84 x6f x8b xe8 xcb x63 xb7))
(L (W x00 x00 x00 x00 x02 x00 x00 x00))))
(T (W xff xff xff xff xff xff xff xff)
(T (W x17 x00 x00 x00 x0c x00 x00 x00)
(L (W xff xff xff xff xb0 x00 x00 x00))
(L (W x46 x53 x59 x53 x5f x4e x53 x5f)))
(T (W x18 x00 x00 x00 x0c x00 x00 x00)
(L (W x00 x00 x00 x00 x00 x00 x00 x00)) E))))
(T (W x00 x00 x80 x3f x00 x00 x80 x3f)
(T (W x00 x00 x80 x3f x00 x00 x80 x3f)
(T (W x00 x00 x00 x00 x00 x00 x00 x00)
(T (W x64 x00 x00 x00 x9c x00 x00 x00)
(L (W x18 x00 x00 x00 x10 x00 x00 x00))
(L (W x00 x00 x80 xbf x00 x00 x80 xbf)))
(T (W x00 x00 x00 x00 x00 x00 x00 x00)
(L (W xff xff xff xff xff xff xff xff))
(L (W x18 x00 x00 x00 x0c x00 x00 x00))))
(T (W xff xff xff xff xff xff xff xff)
(T (W x45 x26 x22 x84 xe4 x9c xf2 xcb)
(L (W xb0 x00 x00 x00 x64 x00 x00 x00))
(L (W xc7 x01 x00 x00 xff xff xff xff)))
(T (W x68 x00 x00 x00 x5c x00 x00 x00)
(L (W xff xff xff xff xff xff xff xff))
(L (W xff xff xff xff xff xff xff xff)))))
(T (W x00 x00 x00 x00 x00 x00 x00 x00)
(T (W x72 x91 xfe xff x00 x00 x01 x01)
(T (W x00 x00 x00 x00 x00 x00 x00 x00)
(L (W x00 x00 x80 x3f x00 x00 x80 x3f))
(L (W xff xff xff xff xff xff xff xff)))
(T (W xff xff xff xff xac x00 x00 x00)
(L (W xff xff xff xff xb0 x00 x00 x00))
(L (W x18 x00 x00 x00 x0c x00 x00 x00))))
(T (W xff xff xff xff xff xff xff xff)
(T (W x00 x00 x80 x3f x00 x00 x80 x3f)
(L (W x61 x72 x6c x69 x6b x65 x5f x6f))
(L (W x3c x02 x00 x00 x30 x01 x00 x00)))
(T (W xff xff xff xff xff xff xff xff)
(L (W x1c x09 x00 x00 x00 x08 x00 x00)) E))))))))))))
(T (W x10 xc6 x03 x00 xb4 xc3 x03 x00)
(T (W x10 x9b x03 x00 xb4 x98 x03 x00)
(T (W x80 x52 x03 x00 x74 x4b x03 x00)
(T (W x78 xa4 x02 x00 xcc x9f x02 x00)
(T (W xe8 xe3 x01 x00 xa4 xe1 x01 x00)
(T (W x18 x8e x00 x00 xe4 x8c x00 x00)
(T (W xf8 x24 xfc xff x00 x01 x01 x01)
(T (W x50 x00 x00 x00 x44 x00 x00 x00)
(T (W xf8 x3c xfc xff x00 x01 x01 x01)
(T (W x00 x00 x00 x00 x00 x00 x00 x00)
(T (W x01 x00 x00 x00 x04 x00 x00 x00)
(T (W xc0 x00 x00 x00 xb4 x00 x00 x00)
(L (W x18 x00 x00 x00 x0c x00 x00 x00))
(L (W xff xff xff xff xff xff xff xff)))
(T (W x45 x26 x22 x84 xe4 x9c xf2 xcb)
(L (W x6b x65 x5f x6f x79 x61 x62 x75))
(L (W xff xff xff xff xff xff xff xff))))
(T (W xff xff xff xff xff xff xff xff)
(T (W xff xff xff xff xff xff xff xff)
(L (W x45 x26 x22 x84 xe4 x9c xf2 xcb))
(L (W x45 x26 x22 x84 xe4 x9c xf2 xcb)))
(T (W x50 x00 x00 x00 x44 x00 x00 x00)
(L (W x54 x00 x00 x00 x48 x00 x00 x00))
(L (W x00 x00 x80 xbf x00 x00 x80 xbf)))))
(T (W x45 x26 x22 x84 xe4 x9c xf2 xcb)
(T (W xff xff xff xff xff xff xff xff)
(T (W x50 x00 x00 x00 x44 x00 x00 x00)
(L (W x00 x00 x80 x3f x00 x00 x80 x3f))
(L (W x00 x00 x00 x00 x00 x00 x00 x00)))
(T (W xff xff xff xff xff xff xff xff)
(L (W xff xff xff xff xff xff xff xff))
(L (W x04 x00 x00 x00 xaa xba xff xff))))
(T (W xff xff xff xff x04 x00 x00 x00)
(T (W x00 x00 x80 x3f x00 x00 x80 x3f)
(L (W x68 x00 x00 x00 x5c x00 x00 x00))
(L (W xff xff xff xff xff xff xff xff)))
(T (W x00 x00 x80 x3f x00 x00 x80 x3f)
(L (W xff xff xff xff xff xff xff xff))
(L (W x45 x26 x22 x84 xe4 x9c xf2 xcb))))))
(T (W x00 x00 x80 x3f x00 x00 x80 x3f)
(T (W x00 x00 x00 x00 x00 x00 x00 x00)
(T (W xff xff xff xff xff xff xff xff)
(T (W x00 x00 x00 x00 x70 x2e xfd xff)
(L (W xff xff xff xff xff xff xff xff))
(L (W x00 x00 x01 x01 xb5 x01 x00 x00)))
(T (W x50 x00 x00 x00 x44 x00 x00 x00)
(L (W xb4 x00 x00 x00 x32 x00 x00 x00))
(L (W xff xff xff xff xff xff xff xff))))
(T (W xff xff xff xff xff xff xff xff)
(T (W x30 x34 x5f x43 x4c x45 x41 x52)
(L (W x00 x00 x00 x00 x00 x00 x00 x00))
(L (W xff xff xff xff xa0 x00 x00 x00)))
(T (W xf8 xec xfd xff x00 x01 x01 x01)
(L (W x03 x00 x00 x00 xd8 x00 x00 x00))
(L (W x00 x00 x00 x00 x00 x00 x00 x00)))))
(T (W x00 x00 x00 x00 x00 x00 x00 x00)
(T (W xff xff xff xff xff xff xff xff)
(T (W xff xff xff xff x9c x00 x00 x00)
(L (W x40 x00 x44 x00 x00 x00 x48 x00))
(L (W x00 x00 x80 xbf x00 x00 x80 xbf)))
(T (W x12 x00 x00 x00 x46 x53 x59 x53)
(L (W x46 x53 x59 x53 x5f x4e x53 x5f))
(L (W xff xff xff xff xff xff xff xff))))
(T (W x18 x00 x00 x00 x10 x00 x00 x00)
(T (W xff xff xff xff xff xff xff xff)
(L (W x54 x00 x00 x00 x48 x00 x00 x00))
(L (W x2a x00 x00 x00 xff xff xff xff)))
(T (W x00 x00 x80 x3f x00 x00 x80 x3f)
(L (W xff xff xff xff xff xff xff xff)) E)))))
(T (W x00 x00 x80 x3f x00 x00 x80 x3f)
(T (W x00 x00 x80 x3f x00 x00 x80 x3f)
(T (W x00 x00 x00 x00 x00 x00 x00 x00)
(T (W xff xff xff xff xff xff xff xff)
(T (W xff xff xff xff x03 x00 x00 x00)
(L (W xd0 x00 x00 x00 xac x00 x00 x00))
(L (W xff xff xff xff xff xff xff xff)))
(T (W x00 x00 x80 x3f x00 x00 x80 x3f)
(L (W x68 x00 x00 x00 x5c x00 x00 x00))
(L (W xff xff xff xff x9c x00 x00 x00))))
(T (W xff xff xff xff xff xff xff xff)
(T (W xff xff xff xff xff xff xff xff)
(L (W x4f x84 x6f x8b xe8 xcb x63 xb7))
(L (W x54 x00 x00 x00 x48 x00 x00 x00)))
(T (W x00 x00 x80 x3f x00 x00 x80 x3f)
(L (W x00 x00 x80 xbf x00 x00 x80 xbf))
(L (W x24 x00 x28 x00 x2c x00 x30 x00)))))
(T (W x00 x00 x00 x00 x00 x00 x00 x00)
(T (W xff xff xff xff xff xff xff xff)
(T (W x00 x00 x80 x3f x00 x00 x80 x3f)
(L (W x00 x00 x80 x3f x00 x00 x80 x3f))
(L (W x49 xa1 x68 x4a xeb x5f xdd x3d)))
(T (W x80 x03 x00 x00 x54 x02 x00 x00)
(L (W xff xff xff xff xff xff xff xff))
(L (W xff xff xff xff xe4 x00 x00 x00))))
(T (W x64 x00 x00 x00 x9c x00 x00 x00)
(T (W xb0 x00 x00 x00 x64 x00 x00 x00)
(L (W x04 x00 x00 x00 xd2 x85 xfe xff))
(L (W xff xff xff xff xff xff xff xff)))
(T (W x00 x00 x00 x00 x00 x00 x00 x00)
(L (W xff xff xff xff xff xff xff xff))
(L (W x44 x00 x04 x00 x08 x00 x0c x00))))))
(T (W x00 x00 x80 x3f x00 x00 x80 x3f)
(T (W x00 x00 x00 x00 x00 x00 x00 x00)
(T (W xff xff xff xff xff xff xff xff)
(T (W x45 x26 x22 x84 xe4 x9c xf2 xcb)
(L (W x64 x00 x00 x00 x9c x00 x00 x00))
(L (W x00 x00 x00 x00 x00 x00 x00 x00)))
(T (W xff xff xff xff xb0 x00 x00 x00)
(L (W xff xff xff xff xff xff xff xff))
(L (W xff xff xff xff xff xff xff xff))))
(T (W xb8 x00 x00 x00 xac x00 x00 x00)
(T (W x00 x00 x00 x00 x00 x00 x00 x00)
(L (W x00 x00 x00 x00 x00 x00 x00 x00))
(L (W x18 x00 x00 x00 x0c x00 x00 x00)))
(T (W x00 x00 x80 x3f x00 x00 x80 x3f)
(L (W xff xff xff xff xff xff xff xff))
(L (W x00 x00 x01 x01 x66 x01 x00 x00)))))
(T (W x94 x9b xfc xff x3e x00 x00 x00)
(T (W xff xff xff xff xff xff xff xff)
(T (W x03 x00 x00 x00 xcc x00 x00 x00)
(L (W x00 x00 x00 x00 x00 x00 x00 x00))
(L (W x6c x00 x00 x00 x60 x00 x00 x00)))
(T (W x45 x26 x22 x84 xe4 x9c xf2 xcb)
(L (W x00 x00 x80 xbf x00 x00 x80 xbf))
(L (W xff xff xff xff xff xff xff xff))))
(T (W xb8 x00 x00 x00 xac x00 x00 x00)
(T (W x00 x00 x00 x00 x00 x00 x00 x00)
(L (W x00 x00 x00 x00 x00 x00 x00 x00))
(L (W xff xff xff xff xff xff xff xff)))
(T (W x64 x00 x00 x00 x9c x00 x00 x00)
(L (W x2a x00 x00 x00 xff xff xff xff)) E))))))
(T (W x00 x00 x00 x00 x00 x00 x00 x00)
(T (W x00 x00 x00 x00 x00 x00 x00 x00)
(T (W xff xff xff xff xff xff xff xff)
(T (W xff xff xff xff xff xff xff xff)
(T (W x45 x26 x22 x84 xe4 x9c xf2 xcb)
(T (W x00 x00 x00 x00 x00 x00 x00 x00)
(L (W x31 x00 x00 x00 x10 x00 x00 x00))
(L (W x00 x00 x80 xbf x00 x00 x80 xbf)))
(T (W xff xff xff xff xff xff xff xff)
(L (W x18 x00 x00 x00 x0c x00 x00 x00))
(L (W x00 x00 x00 x00 x00 x00 x00 x00))))
(T (W x45 x26 x22 x84 xe4 x9c xf2 xcb)
(T (W x49 xa1 x68 x4a xeb x5f xdd x3d)
(L (W xff xff xff xff xff xff xff xff))
(L (W x00 x00 x00 x00 x00 x00 x00 x00)))
(T (W x05 x53 x2b x97 x85 x9d x55 x5f)
(L (W xff xff xff xff xff xff xff xff))
(L (W x00 x00 x01 x01 x7d x00 x00 x00)))))
(T (W xf8 x80 xfc xff x00 x01 x01 x01)
(T (W x00 x00 x80 x3f x00 x00 x80 x3f)
(T (W xff xff xff xff xff xff xff xff)
(L (W xff xff xff xff xff xff xff xff))
(L (W xff xff xff xff xbc x00 x00 x00)))
(T (W x00 x00 x80 x3f x00 x00 x80 x3f)
(L (W x00 x00 x80 xbf x00 x00 x80 xbf))
(L (W x45 x26 x22 x84 xe4 x9c xf2 xcb))))
(T (W x00 x00 x00 x00 x00 x00 x00 x00)
(T (W x6b x65 x5f x77 x61 x72 x6c x69)
(L (W x00 x00 x00 x00 x00 x00 x00 x00))
(L (W x00 x00 x80 xbf x00 x00 x80 xbf)))
(T (W xff xff xff xff xff xff xff xff)
(L (W x00 x00 x00 x00 x00 x00 x00 x00))
(L (W x50 x00 x00 x00 x00 x00 x54 x00))))))
(T (W xff xff xff xff xff xff xff xff)
(T (W xff xff xff xff xff xff xff xff)
(T (W x00 x00 x80 x3f x00 x00 x80 x3f)
(T (W x00 x00 x00 x00 x00 x00 x00 x00)
(L (W x00 x00 x00 x00 x00 x00 x00 x00))
(L (W x00 x00 x80 xbf x00 x00 x80 xbf)))
(T (W x30 x34 x5f x43 x4c x45 x41 x52)
(L (W x00 x00 x80 x3f x00 x00 x80 x3f))
(L (W x45 x26 x22 x84 xe4 x9c xf2 xcb))))
(T (W x00 x00 x00 x00 x00 x00 x00 x00)
(T (W xc4 x00 x00 x00 x01 x00 x00 x00)
(L (W x23 x00 x00 x00 x26 x00 x00 x00))
(L (W x00 x00 x00 x00 x00 x00 x00 x00)))
(T (W x00 x00 x00 x00 x02 x00 x00 x00)
(L (W x00 x00 x00 x00 x00 x00 x00 x00))
(L (W x45 x44 x00 x00 x00 x00 x00 x00)))))
(T (W xf2 xa8 xfc xff x74 x00 x00 x00)
(T (W x00 x00 x80 x3f x00 x00 x80 x3f)
(T (W x00 x00 x00 x00 x00 x00 x00 x00)
(L (W xc2 x08 xa1 xa8 x4a x35 x57 x43))
(L (W x2f x00 x00 x00 xff xff xff xff)))
(T (W xff xff xff xff xff xff xff xff)
(L (W x03 x00 x00 x00 xd0 x00 x00 x00))
(L (W x50 x00 x00 x00 x54 x00 x00 x00))))
(T (W x45 x26 x22 x84 xe4 x9c xf2 xcb)
(T (W x00 x00 x80 x3f x00 x00 x80 x3f)
(L (W x00 x00 x00 x00 x00 x00 x00 x00))
(L (W x00 x00 x00 x00 x00 x00 x00 x00)))
(T (W x00 x00 x00 x00 x00 x00 x00 x00)
(L (W x00 x00 x80 xbf x00 x00 x80 xbf)) E)))))
(T (W xa2 xed xfd xff x00 x00 x01 x01)
(T (W xff xff xff xff xff xff xff xff)
(T (W xff xff xff xff xff xff xff xff)
(T (W x00 x00 x80 x3f x00 x00 x80 x3f)
(T (W x40 x00 x00 x00 x0c x00 x00 x00)
(L (W x00 x00 x80 x3f x00 x00 x80 x3f))
(L (W x00 x00 x80 xbf x00 x00 x80 xbf)))
(T (W x54 x02 x00 x00 x38 x01 x00 x00)
(L (W xff xff xff xff xff xff xff xff))
(L (W x00 x00 x00 x00 x00 x00 x00 x00))))
(T (W x00 x00 x00 x00 x00 x00 x00 x00)
(T (W x00 x00 x80 x3f x00 x00 x80 x3f)
(L (W xff xff xff xff xff xff xff xff))
(L (W x15 x00 x00 x00 x0c x00 x00 x00)))
(T (W xff xff xff xff xff xff xff xff)
(L (W x00 x00 x00 x00 x12 x00 x00 x00))
(L (W x00 x00 x01 x01 x23 x00 x00 x00)))))
(T (W x50 x00 x00 x00 x44 x00 x00 x00)
(T (W x68 x00 x00 x00 x5c x00 x00 x00)
(T (W x00 x00 x00 x00 x00 x00 x00 x00)
(L (W xff xff xff xff xff xff xff xff))
(L (W xff xff xff xff xff xff xff xff)))
(T (W x68 x00 x00 x00 x5c x00 x00 x00)
(L (W x50 x00 x00 x00 x44 x00 x00 x00))
(L (W x00 x00 x80 xbf x00 x00 x80 xbf))))
(T (W xff xff xff xff x01 x00 x00 x00)
(T (W x49 xa1 x68 x4a xeb x5f xdd x3d)
(L (W xff xff xff xff xac x00 x00 x00))
(L (W x45 x26 x22 x84 xe4 x9c xf2 xcb)))
(T (W x45 x26 x22 x84 xe4 x9c xf2 xcb)
(L (W x00 x00 x00 x00 x00 x00 x00 x00)) E))))
(T (W xff xff xff xff xff xff xff xff)
(T (W x64 x00 x00 x00 x9c x00 x00 x00)
(T (W x00 x00 x80 x3f x00 x00 x80 x3f)
(T (W x00 x00 x00 x00 x00 x00 x00 x00)
(L (W x00 x00 x80 x3f x00 x00 x80 x3f))
(L (W x45 x26 x22 x84 xe4 x9c xf2 xcb)))
(T (W x45 x26 x22 x84 xe4 x9c xf2 xcb)
(L (W x45 x26 x22 x84 xe4 x9c xf2 xcb))
(L (W x6c x00 x00 x00 x60 x00 x00 x00))))
(T (W x00 x00 x00 x00 x00 x00 x00 x00)
(T (W xff xff xff xff xff xff xff xff)
(L (W xff xff xff xff xff xff xff xff))
(L (W x00 x00 x00 x00 x00 x00 x00 x00)))
(T (W xff xff xff xff xff xff xff xff)
(L (W x4f x84 x6f x8b xe8 xcb x63 xb7))
(L (W x00 x00 x80 xbf x00 x00 x80 xbf)))))
(T (W x00 x00 x00 x00 x70 x9a xfc xff)
(T (W x00 x00 x80 x3f x00 x00 x80 x3f)
(T (W x45 x26 x22 x84 xe4 x9c xf2 xcb)
(L (W xff xff xff xff xff xff xff xff))
(L (W x10 x96 xaa x28 xbf xca x56 x6a)))
(T (W xff xff xff xff xff xff xff xff)
(L (W xff xff xff xff xff xff xff xff))
(L (W xff xff xff xff xff xff xff xff))))
(T (W x00 x00 x00 x00 x00 x00 x00 x00)
(T (W xff xff xff xff xac x00 x00 x00)
(L (W x67 x72 x6f x75 x70 x5f x6c x65))
(L (W x50 x00 x07 x00 x54 x00 x58 x00)))
(T (W x00 x00 x00 x00 x00 x00 x00 x00)
(L (W x00 x00 x00 x00 x00 x00 x00 x00)) E)))))))
(T (W x00 x00 x00 x00 x00 x00 x00 x00)
(T (W xff xff xff xff xff xff xff xff)
(T (W xff xff xff xff xff xff xff xff)
(T (W xb8 x00 x00 x00 xac x00 x00 x00)
(T (W x45 x26 x22 x84 xe4 x9c xf2 xcb)
(T (W x45 x26 x22 x84 xe4 x9c xf2 xcb)
(T (W xff xff xff xff xff xff xff xff)
(L (W xff xff xff xff xff xff xff xff))
(L (W x00 x00 x00 x00 x00 x00 x00 x00)))
(T (W x50 x00 x00 x00 x44 x00 x00 x00)
(L (W x00 x00 x80 x3f x00 x00 x80 x3f))
(L (W x00 x00 x00 x00 x00 x00 x00 x00))))
(T (W x01 x00 x00 x00 x04 x00 x00 x00)
(T (W x00 x00 x00 x00 x00 x00 x00 x00)
(L (W xb4 x00 x00 x00 x64 x00 x00 x00))
(L (W x00 x00 x00 x00 x00 x00 x00 x00)))
(T (W xff xff xff xff xff xff xff xff)
(L (W x03 x00 x00 x00 xd0 x00 x00 x00))
(L (W xff xff xff xff xb0 x00 x00 x00)))))
(T (W x00 x00 x80 x3f x00 x00 x80 x3f)
(T (W x00 x00 x00 x00 x00 x00 x00 x00)
(T (W x54 x00 x00 x00 x00 x00 x00 x00)
(L (W xb8 x00 x00 x00 xac x00 x00 x00))
(L (W x00 x00 x80 xbf x00 x00 x80 xbf)))
(T (W x4c x45 x41 x52 x45 x44 x00 x00)
(L (W x46 x53 x59 x53 x5f x4e x53 x5f))
(L (W x00 x00 x00 x00 x00 x00 x00 x00))))
(T (W x20 x01 x00 x00 x04 x00 x00 x00)
(T (W xff xff xff xff xff xff xff xff)
(L (W xff xff xff xff xff xff xff xff))
(L (W x00 x00 x00 x00 x12 x00 x00 x00)))
(T (W xf8 xfe xfd xff x00 x01 x01 x01)
(L (W xff xff xff xff xff xff xff xff))
(L (W x00 x00 x00 x00 x00 x00 x00 x00))))))
(T (W xff xff xff xff x03 x00 x00 x00)
(T (W x00 x00 x80 x3f x00 x00 x80 x3f)
(T (W x00 x00 x00 x00 x00 x00 x00 x00)
(T (W xff xff xff xff xff xff xff xff)
(L (W x41 x00 x00 x00 x10 x00 x00 x00))
(L (W x00 x00 x00 x00 x00 x00 x00 x00)))
(T (W xff xff xff xff xff xff xff xff)
(L (W x46 x53 x59 x53 x5f x4e x53 x5f))
(L (W x00 x00 x00 x00 x00 x00 x00 x00))))
(T (W xa2 xa3 xfe xff x00 x00 x01 x01)
(T (W x00 x00 x80 x3f x00 x00 x80 x3f)
(L (W x44 x00 x00 x00 x00 x00 x80 xbf))
(L (W xff xff xff xff xff xff xff xff)))
(T (W xff xff xff xff xff xff xff xff)
(L (W x00 x00 x01 x01 x5c x00 x00 x00))
(L (W x45 x26 x22 x84 xe4 x9c xf2 xcb)))))
(T (W x00 x00 x80 x3f x00 x00 x80 x3f)
(T (W x00 x00 x00 x00 x00 x00 x00 x00)
(T (W x00 x00 x00 x00 x00 x00 x00 x00)
(L (W x8f x01 x00 x00 x5e x00 x00 x00))
(L (W xff xff xff xff xff xff xff xff)))
(T (W x68 x00 x00 x00 x5c x00 x00 x00)
(L (W x00 x00 x80 xbf x00 x00 x80 xbf))
(L (W x00 x00 x00 x00 x00 x00 x00 x00))))
(T (W xa2 xc3 xfe xff x00 x00 x01 x01)
(T (W x00 x00 x00 x00 x00 x00 x00 x00)
(L (W xff xff xff xff xff xff xff xff))
(L (W x30 x34 x5f x43 x4c x45 x41 x52)))
(T (W x33 x98 x30 x97 x85 x1d x5c x5f)
(L (W x00 x00 x00 x00 x00 x00 x00 x00)) E)))))
(T (W x18 x00 x00 x00 x10 x00 x00 x00)
(T (W xc0 x00 x00 x00 xb4 x00 x00 x00)
(T (W x50 x00 x00 x00 x44 x00 x00 x00)
(T (W x00 x00 x00 x00 x00 x00 x00 x00)
(T (W xff xff xff xff xff xff xff xff)
(L (W x00 x00 x00 x00 x00 x00 x00 x00))
(L (W x00 x00 x00 x00 x00 x00 x00 x00)))
(T (W xc4 x00 x00 x00 x01 x00 x00 x00)
(L (W x46 x53 x59 x53 x5f x4e x53 x5f))
(L (W x00 x00 x00 x00 x00 x00 x00 x00))))
(T (W xff xff xff xff xff xff xff xff)
(T (W x00 x00 x00 x00 x00 x00 x00 x00)
(L (W x00 x00 x80 xbf x00 x00 x80 xbf))
(L (W x03 x00 x00 x00 xd8 x00 x00 x00)))
(T (W x18 x00 x00 x00 x10 x00 x00 x00)
(L (W xff xff xff xff xff xff xff xff))
(L (W x54 x00 x00 x00 x48 x00 x00 x00)))))
(T (W x00 x00 x80 x3f x00 x00 x80 x3f)
(T (W x00 x00 x00 x00 x00 x00 x00 x00)
(T (W xff xff xff xff xff xff xff xff)
(L (W x01 x00 x00 x00 x9c x00 x00 x00))
(L (W x25 x00 x00 x00 x28 x00 x00 x00)))
(T (W x00 x00 x80 x3f x00 x00 x80 x3f)
(L (W x00 x00 x00 x00 x00 x00 x00 x00))
(L (W x00 x00 x00 x00 x00 x00 x00 x00))))
(T (W x14 x00 x18 x00 x00 x00 x00 x00)
(T (W x00 x00 x00 x00 x00 x00 x00 x00)
(L (W x45 x26 x22 x84 xe4 x9c xf2 xcb))
(L (W x00 x00 x00 x00 x00 x00 x00 x00)))
(T (W x00 x00 x80 x3f x00 x00 x80 x3f)
(L (W x00 x00 x00 x00 x00 x00 x00 x00)) E))))
(T (W x00 x00 x00 x00 x70 x58 xfc xff)
(T (W x00 x00 x80 x3f x00 x00 x80 x3f)
(T (W x3c xc2 xfc xff x3e x00 x00 x00)
(T (W xff xff xff xff xff xff xff xff)
(L (W x00 x00 x00 x00 x00 x00 x00 x00))
(L (W x00 x00 x80 xbf x00 x00 x80 xbf)))
(T (W x04 x00 x00 x00 x4a xbd xfd xff)
(L (W x00 x00 x00 x00 x00 x00 x00 x00))
(L (W x00 x00 x00 x00 x00 x00 x00 x00))))
(T (W x00 x00 x00 x00 x00 x00 x00 x00)
(T (W x68 x00 x00 x00 x5c x00 x00 x00)
(L (W x00 x00 x80 xbf x00 x00 x80 xbf))
(L (W xff xff xff xff xff xff xff xff)))
(T (W x45 x26 x22 x84 xe4 x9c xf2 xcb)
(L (W x30 x34 x5f x43 x4c x45 x41 x52))
(L (W x00 x00 x00 x00 x00 x00 x00 x00)))))
(T (W x45 x26 x22 x84 xe4 x9c xf2 xcb)
(T (W x3c xe2 xfc xff x3c x00 x00 x00)
(T (W x04 x00 x00 x00 x78 x03 x00 x00)
(L (W xf2 x6e xfe xff x74 x00 x00 x00))
(L (W xff xff xff xff xff xff xff xff)))
(T (W x00 x00 x00 x00 x70 xd8 xfd xff)
(L (W x00 x00 x00 x00 x70 xd8 xfe xff))
(L (W x18 x00 x1c x00 x06 x00 x07 x00))))
(T (W xff xff xff xff xff xff xff xff)
(T (W x00 x00 x80 x3f x00 x00 x80 x3f)
(L (W x00 x00 x80 x3f x00 x00 x80 x3f))
(L (W x00 x00 x00 x00 x00 x00 x00 x00)))
(T (W xff xff xff xff xff xff xff xff)
(L (W x30 x34 x5f x43 x4c x45 x41 x52)) E))))))
(T (W x00 x00 x00 x00 x00 x00 x00 x00)
(T (W x00 x00 x00 x00 x00 x00 x00 x00)
(T (W x00 x00 x00 x00 x00 x00 x00 x00)
(T (W x00 x00 x00 x00 x00 x00 x00 x00)
(T (W xff xff xff xff x03 x00 x00 x00)
(T (W x00 x00 x80 x3f x00 x00 x80 x3f)
(L (W x00 x00 x00 x00 x00 x00 x00 x00))
(L (W x00 x00 x00 x00 x70 x24 xff xff)))
(T (W x5f x4e x53 x5f x30 x34 x5f x43)
(L (W x00 x00 x00 x00 x00 x00 x00 x00))
(L (W x00 x00 x80 xbf x00 x00 x80 xbf))))
(T (W x68 x00 x00 x00 x5c x00 x00 x00)
(T (W x18 x00 x00 x00 x0c x00 x00 x00)
(L (W x00 x00 x00 x00 x00 x00 x00 x00))
(L (W x00 x00 x80 xbf x00 x00 x80 xbf)))
(T (W x00 x00 x00 x00 x00 x00 x00 x00)
(L (W x00 x00 x00 x00 x00 x00 x00 x00))
(L (W x00 x00 x00 x00 x00 x00 x00 x00)))))
(T (W x95 x01 x00 x00 xff xff xff xff)
(T (W x00 x00 x00 x00 x70 xc4 xfc xff)
(T (W x45 x26 x22 x84 xe4 x9c xf2 xcb)
(L (W x00 x00 x00 x00 x00 x00 x00 x00))
(L (W x30 x34 x5f x43 x4c x45 x41 x52)))
(T (W xc0 x00 x00 x00 x01 x00 x00 x00)
(L (W x25 x00 x00 x00 x28 x00 x00 x00))
(L (W x74 x00 x00 x00 x68 x00 x00 x00))))
(T (W x45 x26 x22 x84 xe4 x9c xf2 xcb)
(T (W x00 x00 x80 x3f x00 x00 x80 x3f)
(L (W x45 x26 x22 x84 xe4 x9c xf2 xcb))
(L (W xff xff xff xff xff xff xff xff)))
(T (W x00 x00 x00 x00 x02 x00 x00 x00)
(L (W x45 x26 x22 x84 xe4 x9c xf2 xcb))
(L (W xff xff xff xff xff xff xff xff))))))
(T (W x2f x00 x00 x00 x0c x00 x00 x00)
(T (W x00 x00 x00 x00 x04 x00 x00 x00)
(T (W xff xff xff xff xff xff xff xff)
(T (W x00 x00 x00 x00 x00 x00 x00 x00)
(L (W x00 x00 x80 x3f x00 x00 x80 x3f))
(L (W xff xff xff xff xff xff xff xff)))
(T (W x00 x00 x80 x3f x00 x00 x80 x3f)
(L (W xf8 xb2 xfe xff x00 x01 x01 x01))
(L (W x2b x00 x00 x00 x2e x00 x00 x00))))
(T (W x00 x00 x80 x3f x00 x00 x80 x3f)
(T (W x04 x00 x00 x00 xd2 x73 xfd xff)
(L (W xff xff xff xff xff xff xff xff))
(L (W x00 x00 x80 xbf x00 x00 x80 xbf)))
(T (W x00 x00 x00 x00 x00 x00 x00 x00)
(L (W x00 x00 x80 xbf x00 x00 x80 xbf))
(L (W x3a xf7 xff xff x78 x00 x00 x00)))))
(T (W xff xff xff xff xff xff xff xff)
(T (W x40 x00 x00 x00 x9c x00 x00 x00)
(T (W x68 x00 x00 x00 x5c x00 x00 x00)
(L (W xff xff xff xff xff xff xff xff))
(L (W x00 x00 x00 x00 x00 x00 x00 x00)))
(T (W xef x30 x28 xea x5d x27 x0c x7f)
(L (W x08 x00 x00 x00 x18 x08 x00 x00))
(L (W x6c x00 x00 x00 x60 x00 x00 x00))))
(T (W xf8 x12 xfd xff x00 x01 x01 x01)
(T (W xff xff xff xff xff xff xff xff)
(L (W xff xff xff xff xff xff xff xff))
(L (W x54 x00 x00 x00 x48 x00 x00 x00)))
(T (W x00 x00 x80 x3f x00 x00 x80 x3f)
(L (W xf2 x2a xff xff x74 x00 x00 x00)) E)))))
(T (W x45 x26 x22 x84 xe4 x9c xf2 xcb)
(T (W x00 x00 x00 x00 x00 x00 x00 x00)
(T (W x00 x00 x00 x00 x00 x00 x00 x00)
(T (W xff xff xff xff xff xff xff xff)
(T (W x00 x00 x80 x3f x00 x00 x80 x3f)
(L (W x18 x00 x00 x00 x0c x00 x00 x00))
(L (W x18 x00 x00 x00 x0c x00 x00 x00)))
(T (W x45 x26 x22 x84 xe4 x9c xf2 xcb)
(L (W x45 x26 x22 x84 xe4 x9c xf2 xcb))
(L (W x3a xaf xff xff x78 x00 x00 x00))))
(T (W x3a xef xfc xff x78 x00 x00 x00)
(T (W xff xff xff xff xff xff xff xff)
(L (W xff xff xff xff xff xff xff xff))
(L (W x00 x00 x80 xbf x00 x00 x80 xbf)))
(T (W x00 x00 x00 x00 x00 x00 x00 x00)
(L (W x00 x00 x80 xbf x00 x00 x80 xbf))
(L (W x00 x00 x00 x00 x00 x00 x00 x00)))))
(T (W xff xff xff xff xff xff xff xff)
(T (W x18 x00 x00 x00 x0c x00 x00 x00)
(T (W x00 x00 x80 x3f x00 x00 x80 x3f)
(L (W x6f x6b x65 x5f x63 x6f x77 x61))
(L (W x00 x00 x00 x00 x00 x00 x00 x00)))
(T (W xff xff xff xff xff xff xff xff)
(L (W xff xff xff xff xff xff xff xff))
(L (W x6c x00 x00 x00 x60 x00 x00 x00))))
(T (W x54 x00 x00 x00 x48 x00 x00 x00)
(T (W x45 x26 x22 x84 xe4 x9c xf2 xcb)
(L (W x00 x00 x00 x00 x00 x00 x00 x00))
(L (W xf2 xa2 xff xff x74 x00 x00 x00)))
(T (W xff xff xff xff xff xff xff xff)
(L (W xff xff xff xff xb0 x00 x00 x00)) E))))
(T (W x00 x00 x00 x00 x00 x00 x00 x00)
(T (W xff xff xff xff xff xff xff xff)
(T (W x18 x00 x00 x00 x10 x00 x00 x00)
(T (W x00 x00 x00 x00 x00 x00 x00 x00)
(L (W x00 x00 x01 x01 x64 x00 x00 x00))
(L (W xff xff xff xff xff xff xff xff)))
(T (W x00 x00 x80 x3f x00 x00 x80 x3f)
(L (W x3a xbf xfe xff x78 x00 x00 x00))
(L (W x1c x00 x00 x00 x10 x00 x00 x00))))
(T (W x00 x00 x80 x3f x00 x00 x80 x3f)
(T (W x00 x00 x00 x00 x12 x00 x00 x00)
(L (W x00 x00 x00 x00 x00 x00 x00 x00))
(L (W x00 x00 x80 xbf x00 x00 x80 xbf)))
(T (W x00 x00 x00 x00 x00 x00 x00 x00)
(L (W x1c x00 x00 x00 x10 x00 x00 x00))
(L (W x00 x00 x00 x00 x00 x00 x00 x00)))))
(T (W x64 x00 x00 x00 x9c x00 x00 x00)
(T (W x01 x00 x00 x00 x3e x00 x00 x00)
(T (W x68 x00 x00 x00 x5c x00 x00 x00)
(L (W x00 x00 x00 x00 x00 x00 x00 x00))
(L (W x00 x00 x80 xbf x00 x00 x80 xbf)))
(T (W x4f x84 x6f x8b xe8 xcb x63 xb7)
(L (W x45 x44 x00 x00 x00 x00 x00 x00))
(L (W x46 x53 x59 x53 x5f x4e x53 x5f))))
(T (W x00 x00 x80 x3f x00 x00 x80 x3f)
(T (W x38 x01 x00 x00 x04 x00 x00 x00)
(L (W x00 x00 x80 x3f x00 x00 x80 x3f))
(L (W x00 x00 x80 xbf x00 x00 x80 xbf)))
(T (W x00 x00 x80 x3f x00 x00 x80 x3f)
(L (W x54 x00 x00 x00 x48 x00 x00 x00)) E))))))))
(T (W x30 x20 x01 x00 x84 x1d x01 x00)
(T (W x94 x28 xfc xff x3e x00 x00 x00)
(T (W x18 x00 x00 x00 x10 x00 x00 x00)
(T (W xbc x00 x00 x00 xb0 x00 x00 x00)
(T (W x18 x00 x00 x00 x10 x00 x00 x00)
(T (W x00 x00 x80 x3f x00 x00 x80 x3f)
(T (W x00 x00 x00 x00 x00 x00 x00 x00)
(T (W xff xff xff xff xff xff xff xff)
(L (W x64 x00 x00 x00 x9c x00 x00 x00))
(L (W x45 x44 x00 x00 x00 x00 x00 x00)))
(T (W x00 x00 x80 x3f x00 x00 x80 x3f)
(L (W x00 x00 x00 x00 x00 x00 x00 x00))
(L (W x00 x00 x00 x00 xea x99 xff xff))))
(T (W xff xff xff xff xff xff xff xff)
(T (W x04 x00 x00 x00 x60 x03 x00 x00)
(L (W x00 x00 x00 x00 xfc x5d xfe xff))
(L (W xff xff xff xff xff xff xff xff)))
(T (W x45 x26 x22 x84 xe4 x9c xf2 xcb)
(L (W x18 x00 x00 x00 x10 x00 x00 x00))
(L (W x00 x00 x00 x00 x70 xdf xff xff)))))
(T (W x00 x00 x80 x3f x00 x00 x80 x3f)
(T (W x00 x00 x00 x00 x00 x00 x00 x00)
(T (W xbc x00 x00 x00 xb0 x00 x00 x00)
(L (W x01 x00 x00 x00 x9c x00 x00 x00))
(L (W x49 xa1 x68 x4a xeb x5f xdd x3d)))
(T (W x9c x01 x00 x00 xff xff xff xff)
(L (W x00 x00 x01 x01 x94 x01 x00 x00))
(L (W x46 x53 x59 x53 x5f x4e x53 x5f))))
(T (W xff xff xff xff xff xff xff xff)
(T (W xf2 x95 xfd xff x74 x00 x00 x00)
(L (W x03 x00 x00 x00 xbc x00 x00 x00))
(L (W x04 x00 x00 x00 x4a x84 xff xff)))
(T (W x00 x00 x80 x3f x00 x00 x80 x3f)
(L (W xff xff xff xff xff xff xff xff))
(L (W x00 x00 x00 x00 x00 x00 x00 x00))))))
(T (W x50 x00 x00 x00 x44 x00 x00 x00)
(T (W x00 x00 x00 x00 x00 x00 x00 x00)
(T (W x01 x00 x00 x00 x04 x00 x00 x00)
(T (W xff xff xff xff xff xff xff xff)
(L (W xff xff xff xff xff xff xff xff))
(L (W x46 x53 x59 x53 x5f x4e x53 x5f)))
(T (W x03 x00 x00 x00 xd8 x00 x00 x00)
(L (W x00 x00 x01 x01 xa8 x01 x00 x00))
(L (W x00 x00 x00 x00 x00 x00 x00 x00))))
(T (W xff xff xff xff xff xff xff xff)
(T (W x00 x00 x00 x00 x00 x00 x00 x00)
(L (W x00 x00 x80 xbf x00 x00 x80 xbf))
(L (W xff xff xff xff xff xff xff xff)))
(T (W x45 x26 x22 x84 xe4 x9c xf2 xcb)
(L (W xff xff xff xff xff xff xff xff))
(L (W x54 x00 x00 x00 x48 x00 x00 x00)))))
(T (W x00 x00 x00 x00 x00 x00 x00 x00)
(T (W x01 x00 x00 x00 x04 x00 x00 x00)
(T (W xff xff xff xff xff xff xff xff)
(L (W x00 x00 x00 x00 x00 x00 x00 x00))
(L (W xff xff xff xff xa8 x00 x00 x00)))
(T (W x00 x00 x00 x00 x00 x00 x00 x00)
(L (W x00 x00 x00 x00 x00 x00 x00 x00))
(L (W x00 x00 x00 x00 x00 x00 x00 x00))))
(T (W xff xff xff xff xff xff xff xff)
(T (W x00 x00 x00 x00 x00 x00 x00 x00)
(L (W x18 x00 x00 x00 x10 x00 x00 x00))
(L (W x00 x00 x00 x00 x6a x9e xff xff)))
(T (W xff xff xff xff xff xff xff xff)
(L (W x00 x00 x00 x00 x00 x00 x00 x00)) E)))))
(T (W x45 x26 x22 x84 xe4 x9c xf2 xcb)
(T (W x40 x00 x00 x00 x9c x00 x00 x00)
(T (W x00 x00 x80 x3f x00 x00 x80 x3f)
(T (W x3c xb1 xfc xff x3c x00 x00 x00)
(T (W xff xff xff xff xff xff xff xff)
(L (W x40 x00 x00 x00 x10 x00 x00 x00))
(L (W xff xff xff xff xff xff xff xff)))
(T (W x45 x26 x22 x84 xe4 x9c xf2 xcb)
(L (W x00 x00 x01 x01 xbc x02 x00 x00))
(L (W xff xff xff xff xff xff xff xff))))
(T (W xff xff xff xff xff xff xff xff)
(T (W x45 x44 x00 x00 x00 x00 x00 x00)
(L (W x00 x00 x80 xbf x00 x00 x80 xbf))
(L (W x18 x00 x00 x00 x10 x00 x00 x00)))
(T (W x45 x26 x22 x84 xe4 x9c xf2 xcb)
(L (W xff xff xff xff xac x00 x00 x00))
(L (W x45 x26 x22 x84 xe4 x9c xf2 xcb)))))
(T (W x00 x00 x80 x3f x00 x00 x80 x3f)
(T (W x94 xcc xfc xff x3e x00 x00 x00)
(T (W x6c x00 x00 x00 x60 x00 x00 x00)
(L (W x00 x00 x80 x3f x00 x00 x80 x3f))
(L (W x00 x00 x80 xbf x00 x00 x80 xbf)))
(T (W x00 x00 x00 x00 x00 x00 x00 x00)
(L (W x45 x44 x00 x00 x00 x00 x00 x00))
(L (W x08 xf3 xaf x28 xbf x58 x5d x6a))))
(T (W xff xff xff xff xff xff xff xff)
(T (W xff xff xff xff xff xff xff xff)
(L (W x00 x00 x00 x00 x00 x00 x00 x00))
(L (W x00 x00 x00 x00 x00 x00 x00 x00)))
(T (W x00 x00 x80 x3f x00 x00 x80 x3f)
(L (W xff xff xff xff xff xff xff xff)) E))))
(T (W x6c x00 x00 x00 x60 x00 x00 x00)
(T (W x45 x26 x22 x84 xe4 x9c xf2 xcb)
(T (W xff xff xff xff xff xff xff xff)
(T (W x64 x00 x00 x00 x9c x00 x00 x00)
(L (W x2c xc6 x36 x97 x85 x26 x63 x5f))
(L (W x00 x00 x00 x00 x00 x00 x00 x00)))
(T (W xff xff xff xff xff xff xff xff)
(L (W xff xff xff xff xff xff xff xff))
(L (W x2e x00 x00 x00 x0c x00 x00 x00))))
(T (W xff xff xff xff xff xff xff xff)
(T (W x00 x00 x80 x3f x00 x00 x80 x3f)
(L (W x00 x00 x00 x00 x00 x00 x00 x00))
(L (W xff xff xff xff xff xff xff xff)))
(T (W xf8 xf5 xfd xff x00 x01 x01 x01)
(L (W x00 x00 x01 x01 x5d x00 x00 x00))
(L (W x30 x34 x5f x43 x4c x45 x41 x52)))))
(T (W x00 x00 x00 x00 x00 x00 x00 x00)
(T (W xff xff xff xff xff xff xff xff)
(T (W xff xff xff xff xff xff xff xff)
(L (W x00 x00 x80 xbf x00 x00 x80 xbf))
(L (W xff xff xff xff xa0 x00 x00 x00)))
(T (W x00 x00 x80 x3f x00 x00 x80 x3f)
(L (W x00 x00 x80 xbf x00 x00 x80 xbf))
(L (W xff xff xff xff xff xff xff xff))))
(T (W xff xff xff xff xff xff xff xff)
(T (W x00 x00 x00 x00 x00 x00 x00 x00)
(L (W x00 x00 x80 x3f x00 x00 x80 x3f))
(L (W xb9 x00 x00 x00 xff xff xff xff)))
(T (W xff xff xff xff xff xff xff xff)
(L (W x00 x00 x00 x00 x6a x26 xff xff)) E))))))
(T (W x00 x00 x00 x00 x00 x00 x00 x00)
(T (W x00 x00 x00 x00 x00 x00 x00 x00)
(T (W x21 x00 x00 x00 x0c x00 x00 x00)
(T (W x2a x20 xff xff xb5 x01 x00 x00)
(T (W x3e x00 x00 x00 x9c x00 x00 x00)
(T (W x00 x00 x00 x00 x00 x00 x00 x00)
(L (W x00 x00 x00 x00 x00 x00 x00 x00))
(L (W x00 x00 x80 xbf x00 x00 x80 xbf)))
(T (W xc2 xd2 xfd xff x00 x00 x01 x01)
(L (W x6b x65 x5f x6f x79 x61 x62 x75))
(L (W x4f x84 x6f x8b xe8 xcb x63 xb7))))
(T (W x00 x00 x80 x3f x00 x00 x80 x3f)
(T (W x00 x00 x80 x3f x00 x00 x80 x3f)
(L (W xff xff xff xff xff xff xff xff))
(L (W x45 x26 x22 x84 xe4 x9c xf2 xcb)))
(T (W x00 x00 x00 x00 x00 x00 x00 x00)
(L (W x45 x44 x00 x00 x00 x00 x00 x00))
(L (W x30 x34 x5f x43 x4c x45 x41 x52)))))
(T (W xff xff xff xff xff xff xff xff)
(T (W xf2 xd9 xfc xff x74 x00 x00 x00)
(T (W x30 x00 x34 x00 x38 x00 x3c x00)
(L (W x94 x48 xfe xff x16 x00 x00 x00))
(L (W xff xff xff xff xff xff xff xff)))
(T (W x45 x26 x22 x84 xe4 x9c xf2 xcb)
(L (W x00 x00 x80 xbf x00 x00 x80 xbf))
(L (W x00 x00 x80 xbf x00 x00 x80 xbf))))
(T (W x00 x00 x00 x00 x00 x00 x00 x00)
(T (W x4f x84 x6f x8b xe8 xcb x63 xb7)
(L (W x00 x00 x80 xbf x00 x00 x80 xbf))
(L (W x00 x00 x80 xbf x00 x00 x80 xbf)))
(T (W xff xff xff xff xff xff xff xff)
(L (W x00 x00 x80 xbf x00 x00 x80 xbf))
(L (W x00 x00 x80 xbf x00 x00 x80 xbf))))))
(T (W xff xff xff xff xff xff xff xff)
(T (W xff xff xff xff xff xff xff xff)
(T (W x68 x00 x00 x00 x5c x00 x00 x00)
(T (W x00 x00 x00 x00 x00 x00 x00 x00)
(L (W x00 x00 x80 x3f x00 x00 x80 x3f))
(L (W x27 x00 x00 x00 x2a x00 x00 x00)))
(T (W x00 x00 x00 x00 x00 x00 x00 x00)
(L (W x54 x00 x00 x00 x48 x00 x00 x00))
(L (W x3a xb6 xff xff x78 x00 x00 x00))))
(T (W x45 x26 x22 x84 xe4 x9c xf2 xcb)
(T (W xff xff xff xff xff xff xff xff)
(L (W x03 x00 x00 x00 xc8 x00 x00 x00))
(L (W x45 x26 x22 x84 xe4 x9c xf2 xcb)))
(T (W x00 x00 x00 x00 x00 x00 x00 x00)
(L (W x49 xa1 x68 x4a xeb x5f xdd x3d))
(L (W x3c x00 x00 x00 x00 x00 x80 xbf)))))
(T (W x00 x00 x00 x00 x70 x93 xfc xff)
(T (W x45 x26 x22 x84 xe4 x9c xf2 xcb)
(T (W x45 x26 x22 x84 xe4 x9c xf2 xcb)
(L (W xff xff xff xff xff xff xff xff))
(L (W x00 x00 x00 x00 x00 x00 x00 x00)))
(T (W xff xff xff xff xff xff xff xff)
(L (W xff xff xff xff xff xff xff xff))
(L (W x00 x00 x00 x00 x00 x00 x00 x00))))
(T (W x00 x00 x80 x3f x00 x00 x80 x3f)
(T (W xc8 x00 x00 x00 x01 x00 x00 x00)
(L (W x00 x00 x80 x3f x00 x00 x80 x3f))
(L (W x00 x00 x80 xbf x00 x00 x80 xbf)))
(T (W x00 x00 x80 x3f x00 x00 x80 x3f)
(L (W x00 x00 x80 xbf x00 x00 x80 xbf)) E)))))
(T (W x00 x00 x00 x00 x00 x00 x00 x00)
(T (W xa2 xfe xfd xff x00 x00 x01 x01)
(T (W xa2 x29 xff xff x00 x00 x01 x01)
(T (W x01 x00 x00 x00 x3e x00 x00 x00)
(T (W x00 x00 x00 x00 x00 x00 x00 x00)
(L (W x00 x00 x80 x3f x00 x00 x80 x3f))
(L (W x00 x00 x80 xbf x00 x00 x80 xbf)))
(T (W x00 x00 x00 x00 x00 x00 x00 x00)
(L (W x61 x72 x6c x69 x6b x65 x5f x6f))
(L (W x00 x00 x80 xbf x00 x00 x80 xbf))))
(T (W x00 x00 x80 x3f x00 x00 x80 x3f)
(T (W xff xff xff xff xb0 x00 x00 x00)
(L (W xff xff xff xff xff xff xff xff))
(L (W x4f x84 x6f x8b xe8 xcb x63 xb7)))
(T (W x39 x4c x2b x97 x85 x99 x55 x5f)
(L (W x45 x26 x22 x84 xe4 x9c xf2 xcb))
(L (W x45 x44 x00 x00 x00 x00 x00 x00)))))
(T (W x64 x00 x00 x00 x9c x00 x00 x00)
(T (W x00 x00 x00 x00 x70 xcb xfc xff)
(T (W x00 x00 x80 x3f x00 x00 x80 x3f)
(L (W xff xff xff xff xff xff xff xff))
(L (W x45 x44 x00 x00 x00 x00 x00 x00)))
(T (W xff xff xff xff xff xff xff xff)
(L (W xc4 x00 x00 x00 x01 x00 x00 x00))
(L (W x00 x00 x80 xbf x00 x00 x80 xbf))))
(T (W x00 x00 x00 x00 x00 x00 x00 x00)
(T (W x00 x00 x80 x3f x00 x00 x80 x3f)
(L (W xd4 x08 x00 x00 x58 x07 x00 x00))
(L (W x00 x00 x80 xbf x00 x00 x80 xbf)))
(T (W xff xff xff xff xff xff xff xff)
(L (W x00 x00 x80 xbf x00 x00 x80 xbf)) E))))
(T (W xbb x01 x00 x00 xff xff xff xff)
(T (W xff xff xff xff xff xff xff xff)
(T (W xf8 xb9 xfc xff x00 x01 x01 x01)
(T (W x00 x00 x00 x00 x00 x00 x00 x00)
(L (W x00 x00 x80 x3f x00 x00 x80 x3f))
(L (W xff xff xff xff xbc x00 x00 x00)))
(T (W x00 x00 x80 x3f x00 x00 x80 x3f)
(L (W x00 x00 x80 x3f x00 x00 x80 x3f))
(L (W x45 x26 x22 x84 xe4 x9c xf2 xcb))))
(T (W x00 x00 x00 x00 x00 x00 x00 x00)
(T (W x02 x00 x00 x00 x30 x01 x00 x00)
(L (W x01 x00 x00 x00 x04 x00 x00 x00))
(L (W x00 x00 x80 xbf x00 x00 x80 xbf)))
(T (W x00 x00 x00 x00 x02 x00 x00 x00)
(L (W x00 x00 x80 xbf x00 x00 x80 xbf))
(L (W x00 x00 x00 x00 x00 x00 x00 x00)))))
(T (W x18 x00 x00 x00 x0c x00 x00 x00)
(T (W x00 x00 x80 x3f x00 x00 x80 x3f)
(T (W x00 x00 x80 x3f x00 x00 x80 x3f)
(L (W x00 x00 x00 x00 x00 x00 x00 x00))
(L (W x00 x00 x00 x00 x00 x00 x00 x00)))
(T (W x13 x00 x00 x00 x10 x00 x00 x00)
(L (W xff xff xff xff xff xff xff xff))
(L (W x00 x00 x01 x01 xc0 x02 x00 x00))))
(T (W x00 x00 x80 x3f x00 x00 x80 x3f)
(T (W xff xff xff xff xff xff xff xff)
(L (W x00 x00 x00 x00 x00 x00 x00 x00))
(L (W x00 x00 x00 x00 x00 x00 x00 x00)))
(T (W x00 x00 x00 x00 x00 x00 x00 x00)
(L (W x00 x00 x80 xbf x00 x00 x80 xbf)) E)))))))
(T (W x00 x00 x80 x3f x00 x00 x80 x3f)
(T (W xd4 x02 x00 x00 xff xff xff xff)
(T (W xa2 xef xfe xff x00 x00 x01 x01)
(T (W xff xff xff xff xff xff xff xff)
(T (W x64 x00 x00 x00 x9c x00 x00 x00)
(T (W x00 x00 x80 x3f x00 x00 x80 x3f)
(T (W xa2 xd4 xfe xff x00 x00 x01 x01)
(L (W xff xff xff xff xff xff xff xff))
(L (W x00 x00 x00 x00 x00 x00 x00 x00)))
(T (W xff xff xff xff xff xff xff xff)
(L (W x6c x00 x00 x00 x60 x00 x00 x00))
(L (W x46 x53 x59 x53 x5f x4e x53 x5f))))
(T (W x00 x00 x00 x00 x00 x00 x00 x00)
(T (W x00 x00 x00 x00 x00 x00 x00 x00)
(L (W xff xff xff xff xff xff xff xff))
(L (W x00 x00 x00 x00 x00 x00 x00 x00)))
(T (W xff xff xff xff xff xff xff xff)
(L (W xff xff xff xff xff xff xff xff))
(L (W xff xff xff xff xff xff xff xff)))))
(T (W x00 x00 x80 x3f x00 x00 x80 x3f)
(T (W x00 x00 x00 x00 x00 x00 x00 x00)
(T (W x00 x00 x00 x00 x00 x00 x00 x00)
(L (W xff xff xff xff xff xff xff xff))
(L (W x45 x26 x22 x84 xe4 x9c xf2 xcb)))
(T (W x00 x00 x00 x00 x00 x00 x00 x00)
(L (W x00 x00 x00 x00 x00 x00 x00 x00))
(L (W x00 x00 x00 x00 x00 x00 x00 x00))))
(T (W x00 x00 x00 x00 x00 x00 x00 x00)
(T (W xff xff xff xff xff xff xff xff)
(L (W x94 x86 xfe xff x29 x00 x00 x00))
(L (W x45 x26 x22 x84 xe4 x9c xf2 xcb)))
(T (W x45 x26 x22 x84 xe4 x9c xf2 xcb)
(L (W x45 x44 x00 x00 x00 x00 x00 x00))
(L (W x45 x26 x22 x84 xe4 x9c xf2 xcb))))))
(T (W xff xff xff xff xff xff xff xff)
(T (W xf8 x6f xfc xff x00 x01 x01 x01)
(T (W x45 x26 x22 x84 xe4 x9c xf2 xcb)
(T (W x4b x00 x00 x00 xff xff xff xff)
(L (W x00 x00 x00 x00 x00 x00 x00 x00))
(L (W x00 x00 x80 xbf x00 x00 x80 xbf)))
(T (W x00 x00 x01 x01 xa4 x01 x00 x00)
(L (W x00 x00 x00 x00 x00 x00 x00 x00))
(L (W x00 x00 x00 x00 x00 x00 x00 x00))))
(T (W x00 x00 x00 x00 x00 x00 x00 x00)
(T (W x50 x00 x00 x00 x44 x00 x00 x00)
(L (W x00 x00 x00 x00 xfc x6f xfe xff))
(L (W x3c x7b xff xff x23 x00 x00 x00)))
(T (W xff xff xff xff xff xff xff xff)
(L (W x30 x34 x5f x43 x4c x45 x41 x52))
(L (W x00 x00 x01 x01 x29 x00 x00 x00)))))
(T (W x50 x00 x00 x00 x44 x00 x00 x00)
(T (W x45 x26 x22 x84 xe4 x9c xf2 xcb)
(T (W x00 x00 x00 x00 x00 x00 x00 x00)
(L (W x46 x00 x00 x00 x0c x00 x00 x00))
(L (W xff xff xff xff xff xff xff xff)))
(T (W xff xff xff xff x9c x00 x00 x00)
(L (W x68 x00 x00 x00 x5c x00 x00 x00))
(L (W xff xff xff xff xac x00 x00 x00))))
(T (W x00 x00 x00 x00 x00 x00 x00 x00)
(T (W x00 x00 x80 x3f x00 x00 x80 x3f)
(L (W x00 x00 x00 x00 x00 x00 x00 x00))
(L (W x00 x00 x00 x00 x00 x00 x00 x00)))
(T (W x00 x00 x00 x00 x00 x00 x00 x00)
(L (W x00 x00 x00 x00 x00 x00 x00 x00)) E)))))
(T (W xff xff xff xff xff xff xff xff)
(T (W xff xff xff xff xff xff xff xff)
(T (W xbc x00 x00 x00 xb0 x00 x00 x00)
(T (W x00 x00 x80 x3f x00 x00 x80 x3f)
(T (W xff xff xff xff xff xff xff xff)
(L (W x00 x00 x00 x00 x00 x00 x00 x00))
(L (W x00 x00 x00 x00 x00 x00 x00 x00)))
(T (W xff xff xff xff xff xff xff xff)
(L (W x54 x00 x00 x00 x48 x00 x00 x00))
(L (W x00 x00 x00 x00 x00 x00 x00 x00))))
(T (W x3c xf3 xfc xff x3e x00 x00 x00)
(T (W x00 x00 x80 x3f x00 x00 x80 x3f)
(L (W x68 x00 x00 x00 x5c x00 x00 x00))
(L (W xff xff xff xff xff xff xff xff)))
(T (W xff xff xff xff xff xff xff xff)
(L (W x04 x00 x00 x00 x4a xee xfe xff))
(L (W x45 x26 x22 x84 xe4 x9c xf2 xcb)))))
(T (W x00 x00 x80 x3f x00 x00 x80 x3f)
(T (W x45 x26 x22 x84 xe4 x9c xf2 xcb)
(T (W x04 x00 x00 x00 x82 x3a xff xff)
(L (W xb8 x00 x00 x00 xac x00 x00 x00))
(L (W xff xff xff xff xff xff xff xff)))
(T (W x00 x00 x80 x3f x00 x00 x80 x3f)
(L (W x00 x00 x80 xbf x00 x00 x80 xbf))
(L (W x45 x26 x22 x84 xe4 x9c xf2 xcb))))
(T (W x00 x00 x80 x3f x00 x00 x80 x3f)
(T (W x00 x00 x00 x00 x00 x00 x00 x00)
(L (W x50 x00 x00 x00 x44 x00 x00 x00))
(L (W x00 x00 x00 x00 x00 x00 x00 x00)))
(T (W xf8 x07 xfe xff x00 x01 x01 x01)
(L (W x00 x00 x00 x00 x00 x00 x00 x00)) E))))
(T (W xff xff xff xff xff xff xff xff)
(T (W x50 x00 x00 x00 x44 x00 x00 x00)
(T (W x00 x00 x00 x00 x00 x00 x00 x00)
(T (W x2a xf6 xff xff x4b x00 x00 x00)
(L (W x00 x00 x00 x00 x00 x00 x00 x00))
(L (W x6c x00 x00 x00 x60 x00 x00 x00)))
(T (W x00 x00 x00 x00 x12 x00 x00 x00)
(L (W x00 x00 x00 x00 x00 x00 x00 x00))
(L (W x45 x26 x22 x84 xe4 x9c xf2 xcb))))
(T (W x00 x00 x00 x00 x00 x00 x00 x00)
(T (W x03 x00 x00 x00 xd0 x00 x00 x00)
(L (W x18 x00 x00 x00 x0c x00 x00 x00))
(L (W x45 x44 x00 x00 x00 x00 x00 x00)))
(T (W xff xff xff xff xff xff xff xff)
(L (W x00 x00 x00 x00 x00 x00 x00 x00))
(L (W x4f x84 x6f x8b xe8 xcb x63 xb7)))))
(T (W x68 x00 x00 x00 x5c x00 x00 x00)
(T (W x00 x00 x00 x00 x00 x00 x00 x00)
(T (W x00 x00 x00 x00 x00 x00 x00 x00)
(L (W xff xff xff xff x9c x00 x00 x00))
(L (W xff xff xff xff xff xff xff xff)))
(T (W xff xff xff xff xff xff xff xff)
(L (W x2b x00 x00 x00 x2e x00 x00 x00))
(L (W x00 x00 x80 xbf x00 x00 x80 xbf))))
(T (W x18 x00 x00 x00 x0c x00 x00 x00)
(T (W x00 x00 x00 x00 x70 x99 xfd xff)
(L (W xff xff xff xff xff xff xff xff))
(L (W xff xff xff xff xac x00 x00 x00)))
(T (W x30 x00 x00 x00 x10 x00 x00 x00)
(L (W x00 x00 x00 x00 x00 x00 x00 x00)) E))))))
(T (W x00 x00 x80 x3f x00 x00 x80 x3f)
(T (W x00 x00 x00 x00 x00 x00 x00 x00)
(T (W x00 x00 x80 x3f x00 x00 x80 x3f)
(T (W x00 x00 x00 x00 x00 x00 x00 x00)
(T (W xff xff xff xff xff xff xff xff)
(T (W x50 x00 x00 x00 x44 x00 x00 x00)
(L (W x01 x00 x00 x00 x9c x00 x00 x00))
(L (W x27 x00 x00 x00 x2a x00 x00 x00)))
(T (W x00 x00 x00 x00 x00 x00 x00 x00)
(L (W x00 x00 x80 x3f x00 x00 x80 x3f))
(L (W x6c x00 x00 x00 x60 x00 x00 x00))))
(T (W xff xff xff xff xff xff xff xff)
(T (W xff xff xff xff xff xff xff xff)
(L (W x00 x00 x00 x00 x00 x00 x00 x00))
(L (W x00 x00 x80 xbf x00 x00 x80 xbf)))
(T (W x00 x00 x80 x3f x00 x00 x80 x3f)
(L (W x49 xa1 x68 x4a xeb x5f xdd x3d))
(L (W xff xff xff xff xff xff xff xff)))))
(T (W x00 x00 x00 x00 x00 x00 x00 x00)
(T (W xff xff xff xff xff xff xff xff)
(T (W x00 x00 x80 x3f x00 x00 x80 x3f)
(L (W x00 x00 x00 x00 x00 x00 x00 x00))
(L (W x00 x00 x00 x00 x00 x00 x00 x00)))
(T (W xff xff xff xff xff xff xff xff)
(L (W xff xff xff xff xff xff xff xff))
(L (W x45 x26 x22 x84 xe4 x9c xf2 xcb))))
(T (W x00 x00 x80 x3f x00 x00 x80 x3f)
(T (W xf8 x83 xfd xff x00 x01 x01 x01)
(L (W xff xff xff xff xff xff xff xff))
(L (W xff xff xff xff xff xff xff xff)))
(T (W x00 x00 x00 x00 x00 x00 x00 x00)
(L (W xc4 x00 x00 x00 x02 x00 x00 x00))
(L (W x45 x44 x00 x00 x00 x00 x00 x00))))))
(T (W x00 x00 x00 x00 x00 x00 x00 x00)
(T (W x00 x00 x00 x00 x00 x00 x00 x00)
(T (W xff xff xff xff xff xff xff xff)
(T (W x00 x00 x80 x3f x00 x00 x80 x3f)
(L (W x18 x00 x00 x00 x0c x00 x00 x00))
(L (W xff xff xff xff xff xff xff xff)))
(T (W x00 x00 x00 x00 x70 xb5 xfd xff)
(L (W xb4 x00 x00 x00 x64 x00 x00 x00))
(L (W xff xff xff xff xff xff xff xff))))
(T (W x18 x00 x00 x00 x0c x00 x00 x00)
(T (W x46 x53 x59 x53 x5f x4e x53 x5f)
(L (W xff xff xff xff xff xff xff xff))
(L (W x00 x00 x80 xbf x00 x00 x80 xbf)))
(T (W x00 x00 x80 x3f x00 x00 x80 x3f)
(L (W x18 x00 x00 x00 x0c x00 x00 x00))
(L (W x1d x00 x00 x00 x20 x00 x00 x00)))))
(T (W xff xff xff xff xff xff xff xff)
(T (W xff xff xff xff x03 x00 x00 x00)
(T (W x18 x00 x00 x00 x10 x00 x00 x00)
(L (W x3c x5f xfe xff x10 x00 x00 x00))
(L (W x45 x26 x22 x84 xe4 x9c xf2 xcb)))
(T (W x00 x00 x00 x00 x00 x00 x00 x00)
(L (W x00 x00 x00 x00 x00 x00 x00 x00))
(L (W xff xff xff xff xa0 x00 x00 x00))))
(T (W x18 x00 x00 x00 x10 x00 x00 x00)
(T (W x01 x00 x00 x00 xff xff xff xff)
(L (W x67 x72 x6f x75 x70 x5f x6c x65))
(L (W x18 x00 x00 x00 x10 x00 x00 x00)))
(T (W x45 x26 x22 x84 xe4 x9c xf2 xcb)
(L (W xff xff xff xff xff xff xff xff)) E)))))
(T (W x00 x00 x80 x3f x00 x00 x80 x3f)
(T (W x00 x00 x00 x00 x00 x00 x00 x00)
(T (W x00 x00 x00 x00 x00 x00 x00 x00)
(T (W xff xff xff xff xff xff xff xff)
(T (W x6c x00 x00 x00 x60 x00 x00 x00)
(L (W x64 x00 x00 x00 x9c x00 x00 x00))
(L (W xff xff xff xff xff xff xff xff)))
(T (W x00 x00 x80 x3f x00 x00 x80 x3f)
(L (W xf8 xab xfe xff x00 x01 x01 x01))
(L (W xff xff xff xff x9c x00 x00 x00))))
(T (W x45 x26 x22 x84 xe4 x9c xf2 xcb)
(T (W x00 x00 x01 x01 x4b x00 x00 x00)
(L (W x00 x00 x00 x00 x42 x6b xfe xff))
(L (W x6c x00 x00 x00 x60 x00 x00 x00)))
(T (W x00 x00 x00 x00 x00 x00 x00 x00)
(L (W x00 x00 x80 xbf x00 x00 x80 xbf))
(L (W x00 x00 x00 x00 x00 x00 x00 x00)))))
(T (W x00 x00 x00 x00 x02 x00 x00 x00)
(T (W x64 x00 x00 x00 x9c x00 x00 x00)
(T (W xf2 x63 xfd xff x74 x00 x00 x00)
(L (W xff xff xff xff xff xff xff xff))
(L (W x4f x84 x6f x8b xe8 xcb x63 xb7)))
(T (W x00 x00 x00 x00 x00 x00 x00 x00)
(L (W x04 x00 x00 x00 xd2 xcc xfe xff))
(L (W xff xff xff xff x9c x00 x00 x00))))
(T (W xf8 x0b xfd xff x00 x01 x01 x01)
(T (W xff xff xff xff xbc x00 x00 x00)
(L (W x00 x00 x80 x3f x00 x00 x80 x3f))
(L (W xff xff xff xff xff xff xff xff)))
(T (W x02 x00 x00 x00 xe0 x01 x00 x00)
(L (W xff xff xff xff xff xff xff xff)) E))))
(T (W x00 x00 x00 x00 x00 x00 x00 x00)
(T (W x94 x82 xfc xff x3c x00 x00 x00)
(T (W xff xff xff xff xff xff xff xff)
(T (W x00 x00 x80 x3f x00 x00 x80 x3f)
(L (W x00 x00 x00 x00 x00 x00 x00 x00))
(L (W x30 x34 x5f x43 x4c x45 x41 x52)))
(T (W x03 x00 x00 x00 xd4 x00 x00 x00)
(L (W x18 x00 x00 x00 x0c x00 x00 x00))
(L (W xff xff xff xff xff xff xff xff))))
(T (W x68 x00 x00 x00 x5c x00 x00 x00)
(T (W x00 x00 x00 x00 x00 x00 x00 x00)
(L (W x00 x00 x80 xbf x00 x00 x80 xbf))
(L (W xff xff xff xff xb0 x00 x00 x00)))
(T (W x00 x00 x00 x00 x00 x00 x00 x00)
(L (W xff xff xff xff xb0 x00 x00 x00))
(L (W x54 x00 x00 x00 x48 x00 x00 x00)))))
(T (W xff xff xff xff xff xff xff xff)
(T (W xff xff xff xff xff xff xff xff)
(T (W x03 x00 x00 x00 xcc x00 x00 x00)
(L (W x00 x00 x00 x00 x00 x00 x00 x00))
(L (W x00 x00 x80 xbf x00 x00 x80 xbf)))
(T (W x00 x00 x80 x3f x00 x00 x80 x3f)
(L (W x00 x00 x00 x00 x00 x00 x00 x00))
(L (W x00 x00 x00 x00 x00 x00 x00 x00))))
(T (W x3e x00 x00 x00 x9c x00 x00 x00)
(T (W x00 x00 x00 x00 x00 x00 x00 x00)
(L (W x18 x00 x00 x00 x0c x00 x00 x00))
(L (W x00 x00 x00 x00 x70 x9d xff xff)))
(T (W x00 x00 x80 x3f x00 x00 x80 x3f)
(L (W x18 x00 x00 x00 x10 x00 x00 x00)) E)))))))))
(T (W xf0 x2f x02 x00 xb4 x2c x02 x00)
(T (W x58 x7b x01 x00 xa4 x76 x01 x00)
(T (W xd8 x44 x00 x00 xa4 x43 x00 x00)
(T (W x00 x00 x00 x00 x00 x00 x00 x00)
(T (W x00 x00 x00 x00 x00 x00 x00 x00)
(T (W x00 x00 x00 x00 x00 x00 x00 x00)
(T (W xff xff xff xff xff xff xff xff)
(T (W x72 xb5 xfc xff x74 x00 x00 x00)
(T (W x45 x26 x22 x84 xe4 x9c xf2 xcb)
(L (W x00 x00 x00 x00 x00 x00 x00 x00))
(L (W x6c x00 x00 x00 x60 x00 x00 x00)))
(T (W xff xff xff xff xff xff xff xff)
(L (W x00 x00 x00 x00 xf0 x9e xfe xff))
(L (W x00 x00 x80 xbf x00 x00 x80 xbf))))
(T (W x00 x00 x80 x3f x00 x00 x80 x3f)
(T (W x00 x00 x80 x3f x00 x00 x80 x3f)
(L (W x04 x00 x00 x00 x2a x5b xfe xff))
(L (W x00 x00 x00 x00 x00 x00 x00 x00)))
(T (W x00 x00 x00 x00 x00 x00 x00 x00)
(L (W x45 x44 x00 x00 x00 x00 x00 x00))
(L (W x00 x00 x00 x00 x00 x00 x00 x00)))))
(T (W xff xff xff xff xff xff xff xff)
(T (W x54 x00 x00 x00 x48 x00 x00 x00)
(T (W x00 x00 x00 x00 x00 x00 x00 x00)
(L (W x14 x44 xfe xff x32 x00 x00 x00))
(L (W xff xff xff xff xff xff xff xff)))
(T (W x00 x00 x80 x3f x00 x00 x80 x3f)
(L (W x45 x26 x22 x84 xe4 x9c xf2 xcb))
(L (W x00 x00 x00 x00 x7c xbd xff xff))))
(T (W x45 x26 x22 x84 xe4 x9c xf2 xcb)
(T (W x00 x00 x00 x00 x00 x00 x00 x00)
(L (W x00 x00 x00 x00 x00 x00 x00 x00))
(L (W x00 x00 x80 xbf x00 x00 x80 xbf)))
(T (W xff xff xff xff xff xff xff xff)
(L (W x49 xa1 x68 x4a xeb x5f xdd x3d))
(L (W x00 x00 x00 x00 x00 x00 x00 x00))))))
(T (W xbd x01 x00 x00 xff xff xff xff)
(T (W xb8 x00 x00 x00 xac x00 x00 x00)
(T (W x00 x00 x80 x3f x00 x00 x80 x3f)
(T (W x00 x00 x00 x00 x00 x00 x00 x00)
(L (W x00 x00 x80 x3f x00 x00 x80 x3f))
(L (W xba x31 xff xff x78 x00 x00 x00)))
(T (W x00 x00 x00 x00 x00 x00 x00 x00)
(L (W x00 x00 x00 x00 x00 x00 x00 x00))
(L (W x00 x00 x80 xbf x00 x00 x80 xbf))))
(T (W x00 x00 x80 x3f x00 x00 x80 x3f)
(T (W x18 x00 x00 x00 x10 x00 x00 x00)
(L (W xff xff xff xff xff xff xff xff))
(L (W x00 x00 x00 x00 x00 x00 x00 x00)))
(T (W x00 x00 x00 x00 x00 x00 x00 x00)
(L (W x49 xa1 x68 x4a xeb x5f xdd x3d))
(L (W xff xff xff xff xff xff xff xff)))))
(T (W x18 x00 x00 x00 x10 x00 x00 x00)
(T (W x00 x00 x80 x3f x00 x00 x80 x3f)
(T (W x00 x00 x00 x00 x00 x00 x00 x00)
(L (W x64 x00 x00 x00 x9c x00 x00 x00))
(L (W x06 x00 x00 x00 xb8 x05 x00 x00)))
(T (W xb0 x00 x00 x00 x28 x00 x00 x00)
(L (W xff xff xff xff x9c x00 x00 x00))
(L (W x00 x00 x80 xbf x00 x00 x80 xbf))))
(T (W x00 x00 x00 x00 x00 x00 x00 x00)
(T (W x00 x00 x80 x3f x00 x00 x80 x3f)
(L (W x45 x44 x00 x00 x00 x00 x00 x00))
(L (W x54 x00 x00 x00 x48 x00 x00 x00)))
(T (W x00 x00 x62 x00 x70 x00 x08 x00)
(L (W x00 x00 x80 xbf x00 x00 x80 xbf)) E)))))
(T (W x33 xc0 x05 x3e x81 xb1 xaf x72)
(T (W xfb x92 xea xf8 x1d x4e x32 x5e)
(T (W xff xff xff xff xff xff xff xff)
(T (W x00 x00 x80 x3f x00 x00 x80 x3f)
(T (W x45 x26 x22 x84 xe4 x9c xf2 xcb)
(L (W x00 x00 x00 x00 x00 x00 x00 x00))
(L (W x00 x00 x80 xbf x00 x00 x80 xbf)))
(T (W x00 x00 x00 x00 x00 x00 x00 x00)
(L (W x00 x00 x00 x00 x00 x00 x00 x00))
(L (W x00 x00 x00 x00 x00 x00 x00 x00))))
(T (W x00 x00 x80 x3f x00 x00 x80 x3f)
(T (W x54 x00 x00 x00 x48 x00 x00 x00)
(L (W xff xff xff xff xff xff xff xff))
(L (W x45 x44 x00 x00 x00 x00 x00 x00)))
(T (W x9f x4f x2b x97 x85 x9b x55 x5f)
(L (W x38 x00 x00 x00 x10 x00 x00 x00))
(L (W xff xff xff xff xff xff xff xff)))))
(T (W xff xff xff xff xff xff xff xff)
(T (W x00 x00 x80 x3f x00 x00 x80 x3f)
(T (W x04 x00 x00 x00 x02 x38 xff xff)
(L (W xff xff xff xff xff xff xff xff))
(L (W xff xff xff xff xff xff xff xff)))
(T (W x18 x00 x00 x00 x0c x00 x00 x00)
(L (W x54 x00 x00 x00 x48 x00 x00 x00))
(L (W x00 x00 x80 xbf x00 x00 x80 xbf))))
(T (W x00 x00 x00 x00 x00 x00 x00 x00)
(T (W x00 x00 x00 x00 x00 x00 x00 x00)
(L (W x72 x9d xfe xff x74 x00 x00 x00))
(L (W x3c x00 x00 x00 x00 x00 x80 xbf)))
(T (W xff xff xff xff xff xff xff xff)
(L (W x00 x00 x80 xbf x00 x00 x80 xbf))
(L (W x00 x00 x00 x00 x00 x00 x00 x00))))))
(T (W x22 x0a xfe xff x00 x00 x01 x01)
(T (W xff xff xff xff xff xff xff xff)
(T (W x00 x00 x80 x3f x00 x00 x80 x3f)
(T (W x00 x00 x00 x00 x00 x00 x00 x00)
(L (W x00 x00 x00 x00 x00 x00 x00 x00))
(L (W x00 x00 x00 x00 xf0 x36 xff xff)))
(T (W x00 x00 x00 x00 x00 x00 x00 x00)
(L (W x00 x00 x80 x3f x00 x00 x80 x3f))
(L (W x00 x00 x80 xbf x00 x00 x80 xbf))))
(T (W x00 x00 x00 x00 x00 x00 x00 x00)
(T (W xff xff xff xff xff xff xff xff)
(L (W xb0 x00 x00 x00 x64 x00 x00 x00))
(L (W x00 x00 x00 x00 x00 x00 x00 x00)))
(T (W x00 x00 x00 x00 x02 x00 x00 x00)
(L (W x45 x26 x22 x84 xe4 x9c xf2 xcb))
(L (W x6c x00 x00 x00 x60 x00 x00 x00)))))
(T (W x01 x00 x00 x00 xa0 x00 x00 x00)
(T (W x45 x26 x22 x84 xe4 x9c xf2 xcb)
(T (W x4f x84 x6f x8b xe8 xcb x63 xb7)
(L (W xff xff xff xff xff xff xff xff))
(L (W x30 x34 x5f x43 x4c x45 x41 x52)))
(T (W xff xff xff xff xff xff xff xff)
(L (W xff xff xff xff xff xff xff xff))
(L (W x49 xa1 x68 x4a xeb x5f xdd x3d))))
(T (W x00 x00 x00 x00 x00 x00 x00 x00)
(T (W x45 x26 x22 x84 xe4 x9c xf2 xcb)
(L (W xff xff xff xff xff xff xff xff))
(L (W x00 x00 x80 xbf x00 x00 x80 xbf)))
(T (W x00 x00 x00 x00 x00 x00 x00 x00)
(L (W x54 x00 x00 x00 x48 x00 x00 x00)) E))))))
(T (W x78 x29 xfc xff x00 x01 x01 x01)
(T (W x45 x26 x22 x84 xe4 x9c xf2 xcb)
(T (W x00 x00 x80 x3f x00 x00 x80 x3f)
(T (W x00 x00 x80 x3f x00 x00 x80 x3f)
(T (W x00 x00 x00 x00 x00 x00 x00 x00)
(T (W xb8 x00 x00 x00 xac x00 x00 x00)
(L (W x18 x00 x00 x00 x0c x00 x00 x00))
(L (W xff xff xff xff xff xff xff xff)))
(T (W x00 x00 x80 x3f x00 x00 x80 x3f)
(L (W x00 x00 x00 x00 x00 x00 x00 x00))
(L (W xcc x00 x00 x00 x01 x00 x00 x00))))
(T (W xff xff xff xff xff xff xff xff)
(T (W xff xff xff xff xff xff xff xff)
(L (W x00 x00 x80 xbf x00 x00 x80 xbf))
(L (W xff xff xff xff xff xff xff xff)))
(T (W x45 x26 x22 x84 xe4 x9c xf2 xcb)
(L (W x54 x00 x00 x00 x48 x00 x00 x00))
(L (W x6c x00 x00 x00 x60 x00 x00 x00)))))
(T (W x00 x00 x00 x00 x00 x00 x00 x00)
(T (W x18 x01 x00 x00 x04 x00 x00 x00)
(T (W x00 x00 x80 x3f x00 x00 x80 x3f)
(L (W x00 x00 x80 x3f x00 x00 x80 x3f))
(L (W x45 x26 x22 x84 xe4 x9c xf2 xcb)))
(T (W x00 x00 x00 x00 x00 x00 x00 x00)
(L (W xff xff xff xff xff xff xff xff))
(L (W xff xff xff xff xff xff xff xff))))
(T (W xb8 x00 x00 x00 xac x00 x00 x00)
(T (W x03 x00 x00 x00 xd0 x00 x00 x00)
(L (W xff xff xff xff xff xff xff xff))
(L (W xff xff xff xff xff xff xff xff)))
(T (W x00 x00 x80 x3f x00 x00 x80 x3f)
(L (W xff xff xff xff xff xff xff xff))
(L (W x44 x00 x00 x00 x10 x00 x00 x00))))))
(T (W x00 x00 x80 x3f x00 x00 x80 x3f)
(T (W x00 x00 x80 x3f x00 x00 x80 x3f)
(T (W x00 x00 x00 x00 xc2 x72 xff xff)
(T (W x68 x00 x00 x00 x5c x00 x00 x00)
(L (W xff xff xff xff xff xff xff xff))
(L (W x20 x00 x00 x00 x0c x00 x00 x00)))
(T (W x18 x00 x00 x00 x10 x00 x00 x00)
(L (W xff xff xff xff xff xff xff xff))
(L (W x00 x00 x01 x01 x70 x00 x00 x00))))
(T (W xff xff xff xff x04 x00 x00 x00)
(T (W x00 x00 x00 x00 x00 x00 x00 x00)
(L (W x00 x00 x00 x00 x00 x00 x00 x00))
(L (W xff xff xff xff xff xff xff xff)))
(T (W x78 xf1 xfd xff x00 x01 x01 x01)
(L (W x03 x00 x00 x00 xd4 x00 x00 x00))
(L (W x29 x00 x00 x00 xff xff xff xff)))))
(T (W x00 x00 x00 x00 x00 x00 x00 x00)
(T (W x48 x03 x00 x00 x34 x02 x00 x00)
(T (W xff xff xff xff xff xff xff xff)
(L (W x00 x00 x00 x00 x00 x00 x00 x00))
(L (W x6c x00 x00 x00 x60 x00 x00 x00)))
(T (W x49 xa1 x68 x4a xeb x5f xdd x3d)
(L (W x4f x84 x6f x8b xe8 xcb x63 xb7))
(L (W xff xff xff xff x9c x00 x00 x00))))
(T (W xff xff xff xff xff xff xff xff)
(T (W x13 x00 x00 x00 x10 x00 x00 x00)
(L (W xff xff xff xff xff xff xff xff))
(L (W xff xff xff xff xff xff xff xff)))
(T (W xff xff xff xff xff xff xff xff)
(L (W xff xff xff xff xff xff xff xff)) E)))))
(T (W x68 x00 x00 x00 x5c x00 x00 x00)
(T (W x00 x00 x80 x3f x00 x00 x80 x3f)
(T (W x45 x26 x22 x84 xe4 x9c xf2 xcb)
(T (W x3e x00 x00 x00 x10 x00 x00 x00)
(T (W x45 x26 x22 x84 xe4 x9c xf2 xcb)
(L (W xff xff xff xff xff xff xff xff))
(L (W xff xff xff xff xff xff xff xff)))
(T (W x45 x26 x22 x84 xe4 x9c xf2 xcb)
(L (W x00 x00 x80 x3f x00 x00 x80 x3f))
(L (W xff xff xff xff xff xff xff xff))))
(T (W xff xff xff xff xff xff xff xff)
(T (W xbc x74 xfd xff x2b x00 x00 x00)
(L (W x4f x84 x6f x8b xe8 xcb x63 xb7))
(L (W xcc x00 x00 x00 x02 x00 x00 x00)))
(T (W x00 x00 x80 x3f x00 x00 x80 x3f)
(L (W xbc x00 x00 x00 x64 x00 x00 x00))
(L (W x6c x00 x00 x00 x60 x00 x00 x00)))))
(T (W x00 x00 x00 x00 x00 x00 x00 x00)
(T (W x00 x00 x00 x00 x00 x00 x00 x00)
(T (W xff xff xff xff xff xff xff xff)
(L (W x00 x00 x80 x3f x00 x00 x80 x3f))
(L (W x54 x00 x00 x00 x48 x00 x00 x00)))
(T (W x00 x00 x00 x00 x00 x00 x00 x00)
(L (W x00 x00 x00 x00 x00 x00 x00 x00))
(L (W xff xff xff xff xff xff xff xff))))
(T (W x6c x00 x00 x00 x60 x00 x00 x00)
(T (W xff xff xff xff xff xff xff xff)
(L (W x45 x26 x22 x84 xe4 x9c xf2 xcb))
(L (W xff xff xff xff xff xff xff xff)))
(T (W x00 x00 x00 x00 x00 x00 x00 x00)
(L (W xff xff xff xff xff xff xff xff)) E))))
(T (W x00 x00 x80 x3f x00 x00 x80 x3f)
(T (W x00 x00 x00 x00 x00 x00 x00 x00)
(T (W x00 x00 x00 x00 x02 x00 x00 x00)
(T (W x78 x39 xfd xff x00 x01 x01 x01)
(L (W xff xff xff xff xff xff xff xff))
(L (W x00 x00 x00 x00 x00 x00 x00 x00)))
(T (W xff xff xff xff xff xff xff xff)
(L (W xff xff xff xff xff xff xff xff))
(L (W x45 x44 x00 x00 x00 x00 x00 x00))))
(T (W x18 x00 x00 x00 x10 x00 x00 x00)
(T (W x00 x00 x80 x3f x00 x00 x80 x3f)
(L (W x00 x00 x80 xbf x00 x00 x80 xbf))
(L (W xff xff xff xff xff xff xff xff)))
(T (W x00 x00 x80 x3f x00 x00 x80 x3f)
(L (W xff xff xff xff xff xff xff xff))
(L (W x20 x00 x00 x00 x10 x00 x00 x00)))))
(T (W x00 x00 x00 x00 x00 x00 x00 x00)
(T (W xff xff xff xff xff xff xff xff)
(T (W xff xff xff xff xff xff xff xff)
(L (W x00 x00 x80 x3f x00 x00 x80 xbf))
(L (W xff xff xff xff xb0 x00 x00 x00)))
(T (W x00 x00 x80 x3f x00 x00 x80 x3f)
(L (W x00 x00 x80 xbf x00 x00 x80 xbf))
(L (W x00 x00 x80 xbf x00 x00 x80 xbf))))
(T (W xff xff xff xff xff xff xff xff)
(T (W x00 x00 x00 x00 x00 x00 x00 x00)
(L (W xff xff xff xff xb0 x00 x00 x00))
(L (W x2b x00 x00 x00 x2e x00 x00 x00)))
(T (W x64 x00 x00 x00 x9c x00 x00 x00)
(L (W xff xff xff xff xff xff xff xff)) E)))))))
(T (W xff xff xff xff xff xff xff xff)
(T (W x00 x00 x80 x3f x00 x00 x80 x3f)
(T (W x45 x26 x22 x84 xe4 x9c xf2 xcb)
(T (W x00 x00 x00 x00 x00 x00 x00 x00)
(T (W x00 x00 x00 x00 x00 x00 x00 x00)
(T (W xff xff xff xff xff xff xff xff)
(T (W x00 x00 x80 x3f x00 x00 x80 x3f)
(L (W x00 x00 x80 x3f x00 x00 x80 x3f))
(L (W x27 x00 x00 x00 x2a x00 x00 x00)))
(T (W x00 x00 x00 x00 x00 x00 x00 x00)
(L (W x00 x00 x00 x00 xc2 x9e xfe xff))
(L (W x00 x00 x00 x00 x7c x9f xff xff))))
(T (W x72 xf7 xfc xff x74 x00 x00 x00)
(T (W x18 x00 x00 x00 x10 x00 x00 x00)
(L (W x00 x00 x00 x00 x00 x00 x00 x00))
(L (W x45 x26 x22 x84 xe4 x9c xf2 xcb)))
(T (W x00 x00 x80 x3f x00 x00 x80 x3f)
(L (W x4f x84 x6f x8b xe8 xcb x63 xb7))
(L (W x00 x00 x00 x00 x00 x00 x00 x00)))))
(T (W xff xff xff xff xff xff xff xff)
(T (W x18 x00 x00 x00 x10 x00 x00 x00)
(T (W x18 x00 x00 x00 x10 x00 x00 x00)
(L (W x00 x00 x00 x00 x00 x00 x00 x00))
(L (W xc1 xa8 xaa x28 xbf xd5 x56 x6a)))
(T (W x18 x00 x00 x00 x10 x00 x00 x00)
(L (W x1a x00 x00 x00 x1d x00 x00 x00))
(L (W x03 x00 x00 x00 xc8 x00 x00 x00))))
(T (W x78 xff xfc xff x00 x01 x01 x01)
(T (W x49 xa1 x68 x4a xeb x5f xdd x3d)
(L (W x00 x00 x80 x3f x00 x00 x80 x3f))
(L (W xbc x00 x00 x00 x64 x00 x00 x00)))
(T (W x00 x00 x00 x00 x00 x00 x00 x00)
(L (W x54 x00 x00 x00 x48 x00 x00 x00))
(L (W x00 x00 x00 x00 x00 x00 x00 x00))))))
(T (W x45 x26 x22 x84 xe4 x9c xf2 xcb)
(T (W x7e x4f x4a x9f xb0 xb5 xe3 x5a)
(T (W xff xff xff xff x04 x00 x00 x00)
(T (W x00 x00 x80 x3f x00 x00 x80 x3f)
(L (W x18 x00 x00 x00 x0c x00 x00 x00))
(L (W xff xff xff xff xff xff xff xff)))
(T (W x00 x00 x80 x3f x00 x00 x80 x3f)
(L (W x28 x00 x00 x00 x2b x00 x00 x00))
(L (W x18 x00 x00 x00 x0c x00 x00 x00))))
(T (W x68 x00 x00 x00 x5c x00 x00 x00)
(T (W xb4 x01 x00 x00 xff xff xff xff)
(L (W x00 x00 x00 x00 x2a x6d xfe xff))
(L (W x00 x00 x80 xbf x00 x00 x80 xbf)))
(T (W x00 x00 x80 x3f x00 x00 x80 x3f)
(L (W x6c x00 x00 x00 x60 x00 x00 x00))
(L (W x00 x00 x00 x00 x00 x00 x00 x00)))))
(T (W xff xff xff xff xff xff xff xff)
(T (W xff xff xff xff xff xff xff xff)
(T (W x72 x67 xfd xff x74 x00 x00 x00)
(L (W x00 x00 x00 x00 x00 x00 x00 x00))
(L (W x45 x26 x22 x84 xe4 x9c xf2 xcb)))
(T (W x4c x45 x41 x52 x45 x44 x00 x00)
(L (W x00 x00 x00 x00 xc2 xce xfe xff))
(L (W x00 x00 x60 x00 x00 x00 x00 x00))))
(T (W x68 x00 x00 x00 x5c x00 x00 x00)
(T (W xff xff xff xff xff xff xff xff)
(L (W x00 x00 x80 x3f x00 x00 x80 x3f))
(L (W x14 x00 x00 x00 x0c x00 x00 x00)))
(T (W x45 x26 x22 x84 xe4 x9c xf2 xcb)
(L (W xff xff xff xff xb0 x00 x00 x00)) E)))))
(T (W x00 x00 x00 x00 x00 x00 x00 x00)
(T (W x45 x26 x22 x84 xe4 x9c xf2 xcb)
(T (W x00 x00 x00 x00 x00 x00 x00 x00)
(T (W xff xff xff xff xff xff xff xff)
(T (W x00 x00 x80 x3f x00 x00 x80 x3f)
(L (W x64 x00 x00 x00 x9c x00 x00 x00))
(L (W x00 x00 x00 x00 xf0 x28 xff xff)))
(T (W x00 x00 x00 x00 x00 x00 x00 x00)
(L (W xff xff xff xff xff xff xff xff))
(L (W x45 x26 x22 x84 xe4 x9c xf2 xcb))))
(T (W x00 x00 x80 x3f x00 x00 x80 x3f)
(T (W xff xff xff xff xff xff xff xff)
(L (W x00 x00 x00 x00 xc2 x66 xfe xff))
(L (W x49 xa1 x68 x4a xeb x5f xdd x3d)))
(T (W x00 x00 x00 x00 x00 x00 x00 x00)
(L (W x00 x00 x80 xbf x00 x00 x80 xbf))
(L (W x45 x44 x00 x00 x00 x00 x00 x00)))))
(T (W xff xff xff xff xff xff xff xff)
(T (W xff xff xff xff x03 x00 x00 x00)
(T (W x45 x26 x22 x84 xe4 x9c xf2 xcb)
(L (W x00 x00 x00 x00 x00 x00 x00 x00))
(L (W x00 x00 x00 x00 x00 x00 x00 x00)))
(T (W xff xff xff xff xff xff xff xff)
(L (W xff xff xff xff xff xff xff xff))
(L (W xff xff xff xff xff xff xff xff))))
(T (W xff xff xff xff xff xff xff xff)
(T (W x72 x9f xfd xff x74 x00 x00 x00)
(L (W xff xff xff xff xff xff xff xff))
(L (W x45 x26 x22 x84 xe4 x9c xf2 xcb)))
(T (W x00 x00 x00 x00 x02 x00 x00 x00)
(L (W x45 x26 x22 x84 xe4 x9c xf2 xcb)) E))))
(T (W x00 x00 x00 x00 x00 x00 x00 x00)
(T (W x7a x00 x00 x00 xff xff xff xff)
(T (W x18 x00 x00 x00 x0c x00 x00 x00)
(T (W x00 x00 x80 x3f x00 x00 x80 x3f)
(L (W x18 x00 x00 x00 x10 x00 x00 x00))
(L (W xb5 x01 x00 x00 xff xff xff xff)))
(T (W x78 xb7 xfd xff x00 x01 x01 x01)
(L (W x45 x26 x22 x84 xe4 x9c xf2 xcb))
(L (W xff xff xff xff xff xff xff xff))))
(T (W x72 x0f xfd xff x74 x00 x00 x00)
(T (W x00 x00 x00 x00 x00 x00 x00 x00)
(L (W x39 x00 x00 x00 x10 x00 x00 x00))
(L (W x54 x00 x00 x00 x48 x00 x00 x00)))
(T (W x00 x00 x00 x00 x00 x00 x00 x00)
(L (W x18 x00 x00 x00 x10 x00 x00 x00))
(L (W x03 x00 x00 x00 xd0 x00 x00 x00)))))
(T (W xdd x01 x00 x00 xff xff xff xff)
(T (W x18 x00 x00 x00 x0c x00 x00 x00)
(T (W x45 x26 x22 x84 xe4 x9c xf2 xcb)
(L (W x5f x4e x53 x5f x30 x34 x5f x43))
(L (W x49 xa1 x68 x4a xeb x5f xdd x3d)))
(T (W x00 x00 x00 x00 x00 x00 x00 x00)
(L (W x00 x00 x00 x00 x00 x00 x00 x00))
(L (W xff xff xff xff xff xff xff xff))))
(T (W x00 x00 x80 x3f x00 x00 x80 x3f)
(T (W x00 x00 x00 x00 x00 x00 x00 x00)
(L (W x67 x72 x6f x75 x70 x5f x6c x65))
(L (W x00 x00 x00 x00 x00 x00 x00 x00)))
(T (W x00 x00 x80 x3f x00 x00 x80 x3f)
(L (W x14 x00 x00 x00 x0c x00 x00 x00)) E))))))
(T (W xff xff xff xff xff xff xff xff)
(T (W xb8 x00 x00 x00 xac x00 x00 x00)
(T (W xff xff xff xff xff xff xff xff)
(T (W x78 x63 xfc xff x00 x01 x01 x01)
(T (W x45 x26 x22 x84 xe4 x9c xf2 xcb)
(T (W x4e x00 x00 x00 xff xff xff xff)
(L (W x14 x2a xfe xff x2c x00 x00 x00))
(L (W x00 x00 x00 x00 x00 x00 x00 x00)))
(T (W xff xff xff xff x9c x00 x00 x00)
(L (W xff xff xff xff xff xff xff xff))
(L (W xff xff xff xff xff xff xff xff))))
(T (W x00 x00 x00 x00 x00 x00 x00 x00)
(T (W x00 x00 x00 x00 x00 x00 x00 x00)
(L (W xec x64 xfe xff x8a x5e xfe xff))
(L (W xff xff xff xff xff xff xff xff)))
(T (W xff xff xff xff xff xff xff xff)
(L (W x03 x00 x00 x00 xd8 x00 x00 x00))
(L (W x2c x00 x30 x00 x34 x00 x38 x00)))))
(T (W x54 x00 x00 x00 x48 x00 x00 x00)
(T (W x00 x00 x00 x00 x00 x00 x00 x00)
(T (W xff xff xff xff xff xff xff xff)
(L (W xb8 x00 x00 x00 xac x00 x00 x00))
(L (W xff xff xff xff xa0 x00 x00 x00)))
(T (W x00 x00 x00 x00 x00 x00 x00 x00)
(L (W x00 x00 x00 x00 x00 x00 x00 x00))
(L (W x00 x00 x00 x00 x00 x00 x00 x00))))
(T (W xff xff xff xff xff xff xff xff)
(T (W x02 x00 x00 x00 x30 x01 x00 x00)
(L (W x00 x00 x00 x00 x00 x00 x00 x00))
(L (W x49 xa1 x68 x4a xeb x5f xdd x3d)))
(T (W x78 x03 xfe xff x00 x01 x01 x01)
(L (W x00 x00 x00 x00 x00 x00 x00 x00))
(L (W x6c x00 x00 x00 x60 x00 x00 x00))))))
(T (W x45 x26 x22 x84 xe4 x9c xf2 xcb)
(T (W x18 x00 x00 x00 x0c x00 x00 x00)
(T (W x00 x00 x80 x3f x00 x00 x80 x3f)
(T (W xff xff xff xff xff xff xff xff)
(L (W x2f x00 x00 x00 x10 x00 x00 x00))
(L (W x00 x00 x80 xbf x00 x00 x80 xbf)))
(T (W x00 x00 x00 x00 x00 x00 x00 x00)
(L (W x00 x00 x00 x00 x12 x00 x00 x00))
(L (W x00 x00 x00 x00 x00 x00 x00 x00))))
(T (W x40 x00 x00 x00 x10 x00 x00 x00)
(T (W xba x77 xfd xff x78 x00 x00 x00)
(L (W x45 x26 x22 x84 xe4 x9c xf2 xcb))
(L (W xff xff xff xff xff xff xff xff)))
(T (W xff xff xff xff xff xff xff xff)
(L (W x38 x00 x00 x00 x0c x00 x00 x00))
(L (W x46 x53 x59 x53 x5f x4e x53 x5f)))))
(T (W x45 x26 x22 x84 xe4 x9c xf2 xcb)
(T (W x00 x00 x00 x00 x00 x00 x00 x00)
(T (W x4c x45 x41 x52 x45 x44 x00 x00)
(L (W x00 x00 x80 xbf x00 x00 x80 xbf))
(L (W xff xff xff xff xbc x00 x00 x00)))
(T (W x45 x26 x22 x84 xe4 x9c xf2 xcb)
(L (W x2b x00 x00 x00 x2e x00 x00 x00))
(L (W x30 x34 x5f x43 x4c x45 x41 x52))))
(T (W x00 x00 x00 x00 x00 x00 x00 x00)
(T (W x00 x00 x80 x3f x00 x00 x80 x3f)
(L (W x00 x00 x80 x3f x00 x00 x80 x3f))
(L (W x45 x44 x00 x00 x00 x00 x00 x00)))
(T (W x99 x9b x30 x97 x85 x1f x5c x5f)
(L (W x00 x00 x00 x00 x00 x00 x00 x00)) E)))))
(T (W xff xff xff xff xff xff xff xff)
(T (W xb8 x00 x00 x00 xac x00 x00 x00)
(T (W x45 x26 x22 x84 xe4 x9c xf2 xcb)
(T (W x45 x26 x22 x84 xe4 x9c xf2 xcb)
(T (W x22 xe0 xfe xff x00 x00 x01 x01)
(L (W x00 x00 x00 x00 x00 x00 x00 x00))
(L (W x00 x00 x00 x00 x00 x00 x00 x00)))
(T (W xff xff xff xff xff xff xff xff)
(L (W x61 x72 x6c x69 x6b x65 x5f x6c))
(L (W x46 x53 x59 x53 x5f x4e x53 x5f))))
(T (W x00 x00 x00 x00 x00 x00 x00 x00)
(T (W x00 x00 x80 x3f x00 x00 x80 x3f)
(L (W x00 x00 x80 xbf x00 x00 x80 xbf))
(L (W xff xff xff xff xff xff xff xff)))
(T (W x18 x00 x00 x00 x10 x00 x00 x00)
(L (W xff xff xff xff xff xff xff xff))
(L (W x1c x00 x00 x00 x10 x00 x00 x00)))))
(T (W x00 x00 x80 x3f x00 x00 x80 x3f)
(T (W x00 x00 x00 x00 x00 x00 x00 x00)
(T (W x42 x7c xfd xff x00 x00 x01 x01)
(L (W x24 x00 x28 x00 x2c x00 x30 x00))
(L (W x03 x00 x00 x00 xd0 x00 x00 x00)))
(T (W x50 x00 x00 x00 x44 x00 x00 x00)
(L (W x00 x00 x80 xbf x00 x00 x80 xbf))
(L (W x30 x34 x5f x43 x4c x45 x41 x52))))
(T (W x00 x00 x00 x00 x00 x00 x00 x00)
(T (W x00 x00 x00 x00 x00 x00 x00 x00)
(L (W xff xff xff xff xff xff xff xff))
(L (W x00 x00 x00 x00 x00 x00 x00 x00)))
(T (W x00 x00 x80 x3f x00 x00 x80 x3f)
(L (W x00 x00 x00 x00 x00 x00 x00 x00)) E))))
(T (W x68 x00 x00 x00 x5c x00 x00 x00)
(T (W x00 x00 x80 x3f x00 x00 x80 x3f)
(T (W x00 x00 x00 x00 x00 x00 x00 x00)
(T (W xff xff xff xff xff xff xff xff)
(L (W x6c x00 x00 x00 x60 x00 x00 x00))
(L (W x6c x00 x00 x00 x60 x00 x00 x00)))
(T (W x14 xc2 xfd xff x10 x00 x00 x00)
(L (W x00 x00 x00 x00 x00 x00 x00 x00))
(L (W x00 x00 x00 x00 x00 x00 x00 x00))))
(T (W x22 xb0 xfe xff x00 x00 x01 x01)
(T (W xb0 x00 x00 x00 x64 x00 x00 x00)
(L (W xff xff xff xff xff xff xff xff))
(L (W xbc x86 xff xff x25 x00 x00 x00)))
(T (W x45 x26 x22 x84 xe4 x9c xf2 xcb)
(L (W x00 x00 x00 x00 x00 x00 x00 x00))
(L (W xff xff xff xff xff xff xff xff)))))
(T (W x00 x00 x00 x00 x00 x00 x00 x00)
(T (W x00 x00 x00 x00 x00 x00 x00 x00)
(T (W x00 x00 x00 x00 x00 x00 x00 x00)
(L (W x18 x00 x00 x00 x0c x00 x00 x00))
(L (W xff xff xff xff xff xff xff xff)))
(T (W xff xff xff xff xff xff xff xff)
(L (W x18 x00 x00 x00 x10 x00 x00 x00))
(L (W x24 x00 x00 x00 x27 x00 x00 x00))))
(T (W x73 xa7 x78 xec xd8 xb9 xb4 x22)
(T (W x45 x26 x22 x84 xe4 x9c xf2 xcb)
(L (W x14 x05 x00 x00 x00 x04 x00 x00))
(L (W x00 x00 x00 x00 x00 x00 x00 x00)))
(T (W xff xff xff xff xff xff xff xff)
(L (W x45 x44 x00 x00 x00 x00 x00 x00)) E))))))))
(T (W x40 xd5 x00 x00 xf4 xd2 x00 x00)
(T (W x64 x00 x00 x00 x9c x00 x00 x00)
(T (W x00 x00 x00 x00 x00 x00 x00 x00)
(T (W x00 x00 x00 x00 x00 x00 x00 x00)
(T (W x00 x00 x00 x00 x00 x00 x00 x00)
(T (W xad x10 x3b xd5 x81 x00 x21 xbd)
(T (W xff xff xff xff xff xff xff xff)
(T (W x00 x00 x80 x3f x00 x00 x80 x3f)
(L (W x00 x00 x00 x00 x00 x00 x00 x00))
(L (W x14 x00 x00 x00 x0c x00 x00 x00)))
(T (W xff xff xff xff x01 x00 x00 x00)
(L (W xff xff xff xff xff xff xff xff))
(L (W x6c x00 x00 x00 x60 x00 x00 x00))))
(T (W x00 x00 x80 x3f x00 x00 x80 x3f)
(T (W x00 x00 x00 x00 xf0 x5f xfd xff)
(L (W x00 x00 x00 x00 x12 x00 x00 x00))
(L (W x54 x00 x00 x00 x48 x00 x00 x00)))
(T (W x00 x00 x00 x00 x00 x00 x00 x00)
(L (W x00 x00 x00 x00 x00 x00 x00 x00))
(L (W x00 x00 x00 x00 x00 x00 x00 x00)))))
(T (W xff xff xff xff xff xff xff xff)
(T (W x78 xbe xfc xff x00 x01 x01 x01)
(T (W x00 x00 x00 x00 x00 x00 x00 x00)
(L (W x00 x00 x00 x00 x00 x00 x00 x00))
(L (W xff xff xff xff xff xff xff xff)))
(T (W x68 x00 x00 x00 x5c x00 x00 x00)
(L (W xba xc2 xfe xff x78 x00 x00 x00))
(L (W x27 x00 x00 x00 x2a x00 x00 x00))))
(T (W x00 x00 x80 x3f x00 x00 x80 x3f)
(T (W x00 x00 x00 x00 x00 x00 x00 x00)
(L (W x45 x26 x22 x84 xe4 x9c xf2 xcb))
(L (W x78 x7e xff xff x00 x01 x01 x01)))
(T (W x00 x00 x00 x00 x02 x00 x00 x00)
(L (W x00 x00 x80 xbf x00 x00 x80 xbf))
(L (W x1c x00 x00 x00 x14 x00 x00 x00))))))
(T (W x00 x00 x00 x00 x00 x00 x00 x00)
(T (W xff xff xff xff xff xff xff xff)
(T (W x72 xc6 xfc xff x74 x00 x00 x00)
(T (W x00 x00 x80 x3f x00 x00 x80 x3f)
(L (W x00 x00 x80 x3f x00 x00 x80 x3f))
(L (W x35 x00 x00 x00 x38 x00 x00 x00)))
(T (W x49 xa1 x68 x4a xeb x5f xdd x3d)
(L (W xba xb2 xfe xff x78 x00 x00 x00))
(L (W xba xb2 xff xff x78 x00 x00 x00))))
(T (W x00 x00 x80 x3f x00 x00 x80 x3f)
(T (W xff xff xff xff xff xff xff xff)
(L (W xff xff xff xff xff xff xff xff))
(L (W x00 x00 x80 xbf x00 x00 x80 xbf)))
(T (W x00 x00 x00 x00 x00 x00 x00 x00)
(L (W x00 x00 x80 xbf x00 x00 x80 xbf))
(L (W x00 x00 x00 x00 x00 x00 x00 x00)))))
(T (W xff xff xff xff xff xff xff xff)
(T (W x72 xe6 xfc xff x74 x00 x00 x00)
(T (W x00 x00 x80 x3f x00 x00 x80 x3f)
(L (W xf2 x77 x24 x4b xf1 xf5 xc9 x32))
(L (W x00 x00 x00 x00 x00 x00 x00 x00)))
(T (W x01 x00 x00 x00 xff xff xff xff)
(L (W xff xff xff xff xff xff xff xff))
(L (W x72 xe6 xff xff x74 x00 x00 x00))))
(T (W x00 x00 x80 x3f x00 x00 x80 x3f)
(T (W x00 x00 x00 x00 xf0 x8f xfd xff)
(L (W x00 x00 x00 x00 x00 x00 x00 x00))
(L (W x00 x01 x01 x01 x32 x8b xff xff)))
(T (W x00 x00 x80 x3f x00 x00 x80 x3f)
(L (W xba x12 xff xff x78 x00 x00 x00)) E)))))
(T (W x00 x00 x00 x00 x00 x00 x00 x00)
(T (W x00 x00 x00 x00 x00 x00 x00 x00)
(T (W xb2 x01 x00 x00 xff xff xff xff)
(T (W x18 x00 x00 x00 x0c x00 x00 x00)
(T (W x00 x00 x80 x3f x00 x00 x80 x3f)
(L (W x18 x00 x00 x00 x0c x00 x00 x00))
(L (W x00 x00 x80 xbf x00 x00 x80 xbf)))
(T (W x00 x00 x00 x00 x00 x00 x00 x00)
(L (W xba xaa xfe xff x78 x00 x00 x00))
(L (W x00 x00 x80 xbf x00 x00 x80 xbf))))
(T (W x00 x00 x80 x3f x00 x00 x80 x3f)
(T (W x45 x26 x22 x84 xe4 x9c xf2 xcb)
(L (W xff xff xff xff xff xff xff xff))
(L (W x00 x00 x00 x00 x00 x00 x00 x00)))
(T (W x00 x00 x00 x00 x00 x00 x00 x00)
(L (W x00 x00 x00 x00 x00 x00 x00 x00))
(L (W xff xff xff xff xff xff xff xff)))))
(T (W xff xff xff xff xff xff xff xff)
(T (W x01 x00 x00 x00 xa0 x00 x00 x00)
(T (W x00 x00 x00 x00 x00 x00 x00 x00)
(L (W x14 x4d xfe xff x13 x00 x00 x00))
(L (W x8f x9e xaa x28 xbf xcf x56 x6a)))
(T (W xff xff xff xff xff xff xff xff)
(L (W x18 x00 x00 x00 x10 x00 x00 x00))
(L (W x23 x00 x00 x00 x26 x00 x00 x00))))
(T (W x00 x00 x80 x3f x00 x00 x80 x3f)
(T (W x00 x00 x80 x3f x00 x00 x80 x3f)
(L (W xff xff xff xff xff xff xff xff))
(L (W x6c x00 x00 x00 x60 x00 x00 x00)))
(T (W xff xff xff xff xff xff xff xff)
(L (W x00 x00 x80 xbf x00 x00 x80 xbf)) E))))
(T (W x00 x00 x00 x00 x00 x00 x00 x00)
(T (W xff xff xff xff xff xff xff xff)
(T (W x00 x00 x80 x3f x00 x00 x80 x3f)
(T (W x00 x00 x00 x00 x00 x00 x00 x00)
(L (W x45 x26 x22 x84 xe4 x9c xf2 xcb))
(L (W xff xff xff xff xff xff xff xff)))
(T (W x00 x00 x80 x3f x00 x00 x80 x3f)
(L (W x54 x00 x00 x00 x48 x00 x00 x00))
(L (W x18 x00 x00 x00 x0c x00 x00 x00))))
(T (W x50 x00 x00 x00 x44 x00 x00 x00)
(T (W x00 x00 x00 x00 xc2 x75 xfd xff)
(L (W xff xff xff xff xff xff xff xff))
(L (W x45 x26 x22 x84 xe4 x9c xf2 xcb)))
(T (W x00 x00 x00 x00 x00 x00 x00 x00)
(L (W x6c x00 x00 x00 x60 x00 x00 x00))
(L (W x18 x00 x00 x00 x10 x00 x00 x00)))))
(T (W xff xff xff xff x03 x00 x00 x00)
(T (W x00 x00 x80 x3f x00 x00 x80 x3f)
(T (W x00 x00 x80 x3f x00 x00 x80 x3f)
(L (W x42 x87 xfe xff x00 x00 x01 x01))
(L (W x00 x00 x00 x00 x00 x00 x00 x00)))
(T (W x00 x00 x00 x00 x00 x00 x00 x00)
(L (W x00 x00 x00 x00 x00 x00 x00 x00))
(L (W x00 x00 x80 xbf x00 x00 x80 xbf))))
(T (W x45 x26 x22 x84 xe4 x9c xf2 xcb)
(T (W xff xff xff xff xff xff xff xff)
(L (W xff xff xff xff xff xff xff xff))
(L (W x50 x00 x00 x00 x44 x00 x00 x00)))
(T (W x00 x00 x80 x3f x00 x00 x80 x3f)
(L (W x00 x01 x01 x01 x32 x13 xff xff)) E))))))
(T (W x45 x26 x22 x84 xe4 x9c xf2 xcb)
(T (W x01 x00 x00 x00 x9c x00 x00 x00)
(T (W x45 x26 x22 x84 xe4 x9c xf2 xcb)
(T (W x68 x00 x00 x00 x5c x00 x00 x00)
(T (W x00 x00 x00 x00 x00 x00 x00 x00)
(T (W xff xff xff xff xff xff xff xff)
(L (W x64 x00 x00 x00 x9c x00 x00 x00))
(L (W x00 x00 x00 x00 x00 x00 x00 x00)))
(T (W x72 xba xfd xff x74 x00 x00 x00)
(L (W x00 x00 x00 x00 xf0 xa3 xfe xff))
(L (W xff xff xff xff xff xff xff xff))))
(T (W x00 x00 x00 x00 xc2 xa3 xff xff)
(T (W x3a x00 x00 x00 x0c x00 x00 x00)
(L (W x54 x00 x00 x00 x48 x00 x00 x00))
(L (W xff xff xff xff xff xff xff xff)))
(T (W x18 x00 x00 x00 x10 x00 x00 x00)
(L (W x18 x00 x00 x00 x10 x00 x00 x00))
(L (W x18 x00 x00 x00 x10 x00 x00 x00)))))
(T (W x45 x26 x22 x84 xe4 x9c xf2 xcb)
(T (W x00 x00 x00 x00 x00 x00 x00 x00)
(T (W xc0 x00 x00 x00 xb4 x00 x00 x00)
(L (W x01 x00 x00 x00 x9c x00 x00 x00))
(L (W x6c x00 x00 x00 x60 x00 x00 x00)))
(T (W x00 x00 x00 x00 x00 x00 x00 x00)
(L (W x18 x00 x00 x00 x0c x00 x00 x00))
(L (W x00 x00 x00 x00 x6a xbe xff xff))))
(T (W xff xff xff xff xff xff xff xff)
(T (W xff xff xff xff xff xff xff xff)
(L (W x63 x46 x69 x12 x83 x6c x37 xc6))
(L (W xbc x8d xff xff x12 x00 x00 x00)))
(T (W x00 x00 x80 x3f x00 x00 x80 x3f)
(L (W x00 x00 x00 x00 x00 x00 x00 x00))
(L (W x2c x00 x30 x00 x34 x00 x38 x00))))))
(T (W x00 x00 x80 x3f x00 x00 x80 x3f)
(T (W x00 x00 x80 x3f x00 x00 x80 x3f)
(T (W x00 x00 x00 x00 x00 x00 x00 x00)
(T (W xb8 x00 x00 x00 xac x00 x00 x00)
(L (W xff xff xff xff xff xff xff xff))
(L (W x00 x00 x00 x00 x00 x00 x00 x00)))
(T (W xff xff xff xff xff xff xff xff)
(L (W x00 x00 x00 x00 x00 x00 x00 x00))
(L (W x46 x53 x59 x53 x5f x4e x53 x5f))))
(T (W xff xff xff xff xff xff xff xff)
(T (W x00 x00 x80 x3f x00 x00 x80 x3f)
(L (W x00 x00 x00 x00 x00 x00 x00 x00))
(L (W xff xff xff xff xff xff xff xff)))
(T (W x45 x26 x22 x84 xe4 x9c xf2 xcb)
(L (W xff xff xff xff xff xff xff xff))
(L (W x00 x00 x01 x01 xb4 x01 x00 x00)))))
(T (W x00 x00 x00 x00 x00 x00 x00 x00)
(T (W x00 x00 x00 x00 x00 x00 x00 x00)
(T (W x00 x00 x01 x01 xdf x01 x00 x00)
(L (W x00 x00 x80 xbf x00 x00 x80 xbf))
(L (W x45 x26 x22 x84 xe4 x9c xf2 xcb)))
(T (W x00 x00 x80 x3f x00 x00 x80 x3f)
(L (W x00 x00 x80 xbf x00 x00 x80 xbf))
(L (W xff xff xff xff xff xff xff xff))))
(T (W x20 x01 x00 x00 x04 x00 x00 x00)
(T (W x4f x84 x6f x8b xe8 xcb x63 xb7)
(L (W x67 x72 x6f x75 x70 x5f x6c x65))
(L (W xff xff xff xff xff xff xff xff)))
(T (W xff xff xff xff xff xff xff xff)
(L (W x00 x00 x00 x00 x00 x00 x00 x00)) E)))))
(T (W xff xff xff xff x04 x00 x00 x00)
(T (W x68 x00 x00 x00 x5c x00 x00 x00)
(T (W x72 x82 xfc xff x74 x00 x00 x00)
(T (W x00 x00 x00 x00 x00 x00 x00 x00)
(T (W xff xff xff xff xff xff xff xff)
(L (W x40 x00 x00 x00 x10 x00 x00 x00))
(L (W x2a x00 x00 x00 x0c x00 x00 x00)))
(T (W xff xff xff xff xc8 x00 x00 x00)
(L (W xff xff xff xff xe0 x00 x00 x00))
(L (W x04 x00 x00 x00 x52 xab xff xff))))
(T (W x1c x01 x00 x00 x04 x00 x00 x00)
(T (W x00 x00 x00 x00 x00 x00 x00 x00)
(L (W x00 x00 x80 xbf x00 x00 x80 xbf))
(L (W xff xff xff xff xff xff xff xff)))
(T (W x45 x26 x22 x84 xe4 x9c xf2 xcb)
(L (W xff xff xff xff xff xff xff xff))
(L (W x45 x26 x22 x84 xe4 x9c xf2 xcb)))))
(T (W x00 x00 x00 x00 x00 x00 x00 x00)
(T (W x00 x00 x00 x00 x00 x00 x00 x00)
(T (W xff xff xff xff xff xff xff xff)
(L (W x00 x00 x80 x3f x00 x00 x80 x3f))
(L (W x18 x00 x00 x00 x10 x00 x00 x00)))
(T (W x00 x00 x80 x3f x00 x00 x80 x3f)
(L (W x00 x00 x00 x00 x00 x00 x00 x00))
(L (W xff xff xff xff xff xff xff xff))))
(T (W x01 x00 x00 x00 xff xff xff xff)
(T (W x5a x44 xd5 x77 x6f xdc xd8 xa4)
(L (W x2d x00 x00 x00 x30 x00 x00 x00))
(L (W x00 x00 x00 x00 xca x8c xff xff)))
(T (W x00 x00 x80 x3f x00 x00 x80 x3f)
(L (W xe4 x06 x00 x00 xc8 x05 x00 x00)) E))))
(T (W x50 x00 x00 x00 x44 x00 x00 x00)
(T (W x00 x00 x80 x3f x00 x00 x80 x3f)
(T (W x00 x00 x00 x00 x00 x00 x00 x00)
(T (W x45 x26 x22 x84 xe4 x9c xf2 xcb)
(L (W x5e xd0 x36 x97 x85 x2c x63 x5f))
(L (W x45 x26 x22 x84 xe4 x9c xf2 xcb)))
(T (W xff xff xff xff xff xff xff xff)
(L (W x00 x00 x00 x00 xca xbc xfe xff))
(L (W x00 x00 x00 x00 x00 x00 x00 x00))))
(T (W xff xff xff xff xff xff xff xff)
(T (W x78 x7a xfd xff x00 x01 x01 x01)
(L (W x64 xf1 xff xff x01 x01 x01 x01))
(L (W xff xff xff xff xff xff xff xff)))
(T (W x78 xfa xfd xff x00 x01 x01 x01)
(L (W x06 x00 x00 x00 x98 x05 x00 x00))
(L (W xff xff xff xff xb0 x00 x00 x00)))))
(T (W x00 x00 x00 x00 x00 x00 x00 x00)
(T (W x3e x00 x00 x00 x10 x00 x00 x00)
(T (W x2b x01 x00 x00 xff xff xff xff)
(L (W xba x5e xfe xff x78 x00 x00 x00))
(L (W xff xff xff xff xff xff xff xff)))
(T (W xc8 x00 x00 x00 x01 x00 x00 x00)
(L (W x54 x00 x00 x00 x48 x00 x00 x00))
(L (W xba xde xff xff x78 x00 x00 x00))))
(T (W xff xff xff xff xff xff xff xff)
(T (W x00 x00 x80 x3f x00 x00 x80 x3f)
(L (W xff xff xff xff xff xff xff xff))
(L (W xff xff xff xff xff xff xff xff)))
(T (W xff xff xff xff xff xff xff xff)
(L (W xff xff xff xff xff xff xff xff)) E)))))))
(T (W x02 x00 x00 x00 x1c x01 x00 x00)
(T (W x68 x00 x00 x00 x5c x00 x00 x00)
(T (W x72 x48 xfc xff x74 x00 x00 x00)
(T (W x45 x26 x22 x84 xe4 x9c xf2 xcb)
(T (W x00 x00 x00 x00 x00 x00 x00 x00)
(T (W x48 x03 x00 x00 x34 x02 x00 x00)
(T (W x68 x00 x00 x00 x5c x00 x00 x00)
(L (W x00 x00 x80 x3f x00 x00 x80 x3f))
(L (W xff xff xff xff xff xff xff xff)))
(T (W x00 x00 x80 x3f x00 x00 x80 x3f)
(L (W x00 x00 x00 x00 x00 x00 x00 x00))
(L (W xff xff xff xff x90 x00 x00 x00))))
(T (W xff xff xff xff x04 x00 x00 x00)
(T (W x03 x00 x00 x00 xd8 x00 x00 x00)
(L (W x00 x00 x80 xbf x00 x00 x80 xbf))
(L (W xff xff xff xff xa8 x00 x00 x00)))
(T (W x00 x00 x80 x3f x00 x00 x80 x3f)
(L (W x00 x00 x80 xbf x00 x00 x80 xbf))
(L (W x00 x00 x80 xbf x00 x00 x80 xbf)))))
(T (W x40 x46 xd1 xf5 x0d x5e xf1 xfa)
(T (W xff xff xff xff xff xff xff xff)
(T (W x24 x00 x28 x00 x2c x00 x30 x00)
(L (W x00 x00 x80 x3f x00 x00 x80 x3f))
(L (W x00 x00 x00 x00 x00 x00 x00 x00)))
(T (W xff xff xff xff xff xff xff xff)
(L (W xff xff xff xff xff xff xff xff))
(L (W xff xff xff xff xff xff xff xff))))
(T (W x18 x00 x00 x00 x10 x00 x00 x00)
(T (W x00 x00 x80 x3f x00 x00 x80 x3f)
(L (W xff xff xff xff x9c x00 x00 x00))
(L (W xff xff xff xff xff xff xff xff)))
(T (W x00 x00 x00 x00 x00 x00 x00 x00)
(L (W x45 x26 x22 x84 xe4 x9c xf2 xcb))
(L (W x00 x00 x00 x00 x00 x00 x00 x00))))))
(T (W x00 x00 x80 x3f x00 x00 x80 x3f)
(T (W x00 x00 x00 x00 x00 x00 x00 x00)
(T (W xff xff xff xff xff xff xff xff)
(T (W x50 x00 x00 x00 x44 x00 x00 x00)
(L (W x64 x00 x00 x00 x9c x00 x00 x00))
(L (W xff xff xff xff xff xff xff xff)))
(T (W x6c x00 x00 x00 x60 x00 x00 x00)
(L (W xff xff xff xff xff xff xff xff))
(L (W xff xff xff xff xff xff xff xff))))
(T (W x72 x08 xfd xff x74 x00 x00 x00)
(T (W x00 x00 x00 x00 x00 x00 x00 x00)
(L (W x46 x53 x59 x53 x5f x4e x53 x5f))
(L (W xbc x00 x00 x00 x01 x00 x00 x00)))
(T (W x00 x00 x80 x3f x00 x00 x80 x3f)
(L (W x18 x00 x00 x00 x10 x00 x00 x00))
(L (W x6c x00 x00 x00 x60 x00 x00 x00)))))
(T (W x00 x00 x00 x00 x00 x00 x00 x00)
(T (W xff xff xff xff xff xff xff xff)
(T (W x18 x00 x00 x00 x0c x00 x00 x00)
(L (W x00 x01 x01 x01 x01 x01 x01 x01))
(L (W x00 x00 x80 xbf x00 x00 x80 xbf)))
(T (W x00 x00 x00 x00 x00 x00 x00 x00)
(L (W x00 x00 x00 x00 x00 x00 x00 x00))
(L (W x00 x00 x00 x00 x00 x00 x00 x00))))
(T (W xff xff xff xff x04 x00 x00 x00)
(T (W xff xff xff xff xff xff xff xff)
(L (W x00 x00 x00 x00 xf0 x91 xfe xff))
(L (W x23 x00 x00 x00 x26 x00 x00 x00)))
(T (W x18 x00 x00 x00 x10 x00 x00 x00)
(L (W xff xff xff xff xff xff xff xff)) E)))))
(T (W x00 x00 x80 x3f x00 x00 x80 x3f)
(T (W x00 x00 x80 x3f x00 x00 x80 x3f)
(T (W x00 x00 x00 x00 x00 x00 x00 x00)
(T (W xff xff xff xff xff xff xff xff)
(T (W x00 x00 x80 x3f x00 x00 x80 x3f)
(L (W xff xff xff xff xff xff xff xff))
(L (W xff xff xff xff xff xff xff xff)))
(T (W x00 x00 x80 x3f x00 x00 x80 x3f)
(L (W x67 x72 x6f x75 x70 x5f x77 x69))
(L (W xc4 x00 x00 x00 x01 x00 x00 x00))))
(T (W x18 x00 x00 x00 x0c x00 x00 x00)
(T (W xff xff xff xff xff xff xff xff)
(L (W x00 x00 x00 x00 x00 x00 x00 x00))
(L (W x00 x00 x80 xbf x00 x00 x80 xbf)))
(T (W x00 x00 x80 x3f x00 x00 x80 x3f)
(L (W x78 xe8 xfe xff x00 x01 x01 x01))
(L (W x45 x26 x22 x84 xe4 x9c xf2 xcb)))))
(T (W xb2 x3b xfe xff x94 x01 x00 x00)
(T (W xd8 x01 x00 x00 xff xff xff xff)
(T (W x6c x00 x00 x00 x60 x00 x00 x00)
(L (W x00 x00 x00 x00 x00 x00 x00 x00))
(L (W x00 x00 x80 xbf x00 x00 x80 xbf)))
(T (W xba xf7 xfd xff x9c x01 x00 x00)
(L (W xb5 x01 x00 x00 xff xff xff xff))
(L (W xff xff xff xff xff xff xff xff))))
(T (W x24 x04 x00 x00 x08 x03 x00 x00)
(T (W xff xff xff xff xff xff xff xff)
(L (W x14 x8f xfe xff x28 x00 x00 x00))
(L (W xff xff xff xff xc8 x00 x00 x00)))
(T (W x00 x00 x00 x00 x00 x00 x00 x00)
(L (W xc4 x00 x00 x00 x02 x00 x00 x00)) E))))
(T (W x00 x00 x80 x3f x00 x00 x80 x3f)
(T (W x00 x00 x00 x00 x00 x00 x00 x00)
(T (W xff xff xff xff xff xff xff xff)
(T (W x68 x00 x00 x00 x5c x00 x00 x00)
(L (W xff xff xff xff xff xff xff xff))
(L (W x00 x00 x00 x00 x00 x00 x00 x00)))
(T (W xbc x00 x00 x00 x64 x00 x00 x00)
(L (W xff xff xff xff xc8 x00 x00 x00))
(L (W x00 x00 x01 x01 x5d x00 x00 x00))))
(T (W x45 x26 x22 x84 xe4 x9c xf2 xcb)
(T (W x4f x84 x6f x8b xe8 xcb x63 xb7)
(L (W x00 x00 x00 x00 x00 x00 x00 x00))
(L (W x45 x26 x22 x84 xe4 x9c xf2 xcb)))
(T (W x00 x00 x80 x3f x00 x00 x80 x3f)
(L (W x03 x00 x00 x00 xd0 x00 x00 x00))
(L (W xff xff xff xff xff xff xff xff)))))
(T (W x00 x00 x00 x00 x00 x00 x00 x00)
(T (W xff xff xff xff xff xff xff xff)
(T (W xff xff xff xff xc0 x00 x00 x00)
(L (W x00 x00 x00 x00 x00 x00 x00 x00))
(L (W x00 x00 x80 xbf x00 x00 x80 xbf)))
(T (W x00 x00 x80 x3f x00 x00 x80 x3f)
(L (W x00 x00 x00 x00 x00 x00 x00 x00))
(L (W x7c x00 x04 x00 x70 x00 x08 x00))))
(T (W x45 x26 x22 x84 xe4 x9c xf2 xcb)
(T (W x00 x00 x00 x00 x00 x00 x00 x00)
(L (W x00 x00 x80 x3f x00 x00 x80 x3f))
(L (W x00 x00 x00 x00 x00 x00 x00 x00)))
(T (W x18 x00 x00 x00 x0c x00 x00 x00)
(L (W x2b x00 x00 x00 x2e x00 x00 x00)) E))))))
(T (W xd2 x02 x00 x00 xff xff xff xff)
(T (W xff xff xff xff xff xff xff xff)
(T (W xff xff xff xff xff xff xff xff)
(T (W x45 x26 x22 x84 xe4 x9c xf2 xcb)
(T (W x45 x26 x22 x84 xe4 x9c xf2 xcb)
(T (W x00 x00 x00 x00 x00 x00 x00 x00)
(L (W x00 x00 x00 x00 x00 x00 x00 x00))
(L (W x00 x00 x00 x00 x00 x00 x00 x00)))
(T (W xff xff xff xff xff xff xff xff)
(L (W x00 x00 x00 x00 xc2 xa3 xfe xff))
(L (W x30 x34 x5f x43 x4c x45 x41 x52))))
(T (W x00 x00 x80 x3f x00 x00 x80 x3f)
(T (W x45 x26 x22 x84 xe4 x9c xf2 xcb)
(L (W xff xff xff xff xff xff xff xff))
(L (W xff xff xff xff xff xff xff xff)))
(T (W xff xff xff xff xff xff xff xff)
(L (W xff xff xff xff xff xff xff xff))
(L (W x49 xa1 x68 x4a xeb x5f xdd x3d)))))
(T (W x72 x9c xfc xff x74 x00 x00 x00)
(T (W x45 x26 x22 x84 xe4 x9c xf2 xcb)
(T (W xff xff xff xff xff xff xff xff)
(L (W xff xff xff xff xff xff xff xff))
(L (W xff xff xff xff xff xff xff xff)))
(T (W x00 x00 x80 x3f x00 x00 x80 x3f)
(L (W x00 x00 x80 xbf x00 x00 x80 xbf))
(L (W x00 x00 x00 x00 x00 x00 x00 x00))))
(T (W x14 x0b xfd xff x3c x00 x00 x00)
(T (W x00 x00 x00 x00 x12 x00 x00 x00)
(L (W x00 x00 x80 xbf x00 x00 x80 xbf))
(L (W x00 x00 x80 xbf x00 x00 x80 xbf)))
(T (W x45 x26 x22 x84 xe4 x9c xf2 xcb)
(L (W x00 x00 x00 x00 x00 x00 x00 x00))
(L (W xc8 x00 x00 x00 xff xff xff xff))))))
(T (W xff xff xff xff xff xff xff xff)
(T (W x0a x00 x00 x00 x3e x00 x00 x00)
(T (W x00 x00 x80 x3f x00 x00 x80 x3f)
(T (W xef x6e x59 x87 x65 xeb x58 x20)
(L (W x00 x00 x00 x00 x00 x00 x00 x00))
(L (W x00 x00 x80 xbf x00 x00 x80 xbf)))
(T (W x00 x00 x00 x00 x00 x00 x00 x00)
(L (W x00 x00 x00 x00 x00 x00 x00 x00))
(L (W x00 x00 x80 xbf x00 x00 x80 xbf))))
(T (W x00 x00 x00 x00 x00 x00 x00 x00)
(T (W xff xff xff xff x9c x00 x00 x00)
(L (W x50 x00 x00 x00 x44 x00 x00 x00))
(L (W x38 x00 x00 x00 x0c x00 x00 x00)))
(T (W xff xff xff xff xff xff xff xff)
(L (W x00 x00 x00 x00 x00 x00 x00 x00))
(L (W x00 x00 x00 x00 x00 x00 x00 x00)))))
(T (W x00 x00 x80 x3f x00 x00 x80 x3f)
(T (W x45 x26 x22 x84 xe4 x9c xf2 xcb)
(T (W x00 x00 x00 x00 x00 x00 x00 x00)
(L (W xff xff xff xff xb0 x00 x00 x00))
(L (W xff xff xff xff xff xff xff xff)))
(T (W xff xff xff xff xbc x00 x00 x00)
(L (W xff xff xff xff xff xff xff xff))
(L (W x00 x00 x00 x00 x00 x00 x00 x00))))
(T (W x00 x00 x00 x00 x00 x00 x00 x00)
(T (W x50 x00 x00 x00 x44 x00 x00 x00)
(L (W xff xff xff xff xb0 x00 x00 x00))
(L (W x00 x00 x00 x00 x00 x00 x00 x00)))
(T (W x00 x00 x00 x00 x00 x00 x00 x00)
(L (W x00 x00 x80 xbf x00 x00 x80 xbf)) E)))))
(T (W x20 x01 x00 x00 x04 x00 x00 x00)
(T (W xff xff xff xff xff xff xff xff)
(T (W x01 x00 x00 x00 x9c x00 x00 x00)
(T (W x00 x00 x80 x3f x00 x00 x80 x3f)
(T (W x00 x00 x00 x00 x00 x00 x00 x00)
(L (W x00 x00 x00 x00 x00 x00 x00 x00))
(L (W x45 x26 x22 x84 xe4 x9c xf2 xcb)))
(T (W xa4 x01 x00 x00 xff xff xff xff)
(L (W x00 x00 x00 x00 x12 x00 x00 x00))
(L (W x00 x00 x00 x00 x00 x00 x00 x00))))
(T (W x00 x00 x00 x00 x00 x00 x00 x00)
(T (W x6c x00 x00 x00 x60 x00 x00 x00)
(L (W x68 x00 x00 x00 x5c x00 x00 x00))
(L (W x30 x34 x5f x43 x4c x45 x41 x52)))
(T (W x00 x00 x00 x00 x02 x00 x00 x00)
(L (W xbc xf7 xfe xff x15 x00 x00 x00))
(L (W xff xff xff xff xac x00 x00 x00)))))
(T (W x78 x8c xfc xff x00 x01 x01 x01)
(T (W x00 x00 x00 x00 x00 x00 x00 x00)
(T (W x5f x4e x53 x5f x30 x34 x5f x43)
(L (W x45 x26 x22 x84 xe4 x9c xf2 xcb))
(L (W xff xff xff xff xff xff xff xff)))
(T (W x78 xcc xfd xff x00 x01 x01 x01)
(L (W xba xd0 xfe xff x78 x00 x00 x00))
(L (W x00 x00 x00 x00 x00 x00 x00 x00))))
(T (W x00 x00 x00 x00 x00 x00 x00 x00)
(T (W x45 x26 x22 x84 xe4 x9c xf2 xcb)
(L (W xff xff xff xff xff xff xff xff))
(L (W x00 x00 x80 xbf x00 x00 x80 xbf)))
(T (W xff xff xff xff xff xff xff xff)
(L (W x00 x00 x80 xbf x00 x00 x80 xbf)) E))))
(T (W xb8 x00 x00 x00 xac x00 x00 x00)
(T (W xc0 x00 x00 x00 xb4 x00 x00 x00)
(T (W x00 x00 x80 x3f x00 x00 x80 x3f)
(T (W x23 x00 x00 x00 xff xff xff xff)
(L (W x01 x00 x00 x00 xff xff xff xff))
(L (W xff xff xff xff xa0 x00 x00 x00)))
(T (W x49 xa1 x68 x4a xeb x5f xdd x3d)
(L (W x00 x00 x00 x00 x00 x00 x00 x00))
(L (W x45 x26 x22 x84 xe4 x9c xf2 xcb))))
(T (W x00 x00 x00 x00 x00 x00 x00 x00)
(T (W xff xff xff xff xff xff xff xff)
(L (W x00 x00 x01 x01 x54 x01 x00 x00))
(L (W x00 x00 x00 x00 x00 x00 x00 x00)))
(T (W xff xff xff xff xff xff xff xff)
(L (W x00 x00 x00 x00 x00 x00 x00 x00))
(L (W x00 x00 x00 x00 x00 x00 x00 x00)))))
(T (W x00 x00 x80 x3f x00 x00 x80 x3f)
(T (W x45 x26 x22 x84 xe4 x9c xf2 xcb)
(T (W x4f x84 x6f x8b xe8 xcb x63 xb7)
(L (W xff xff xff xff xff xff xff xff))
(L (W x00 x00 x00 x00 x00 x00 x00 x00)))
(T (W x01 x00 x00 x00 xff xff xff xff)
(L (W xff xff xff xff xff xff xff xff))
(L (W xff xff xff xff xff xff xff xff))))
(T (W x00 x00 x00 x00 x00 x00 x00 x00)
(T (W xff xff xff xff xc4 x00 x00 x00)
(L (W x00 x00 x00 x00 x00 x00 x00 x00))
(L (W x00 x00 x00 x00 x00 x00 x00 x00)))
(T (W x2a x00 x00 x00 x10 x00 x00 x00)
(L (W x00 x00 x00 x00 x00 x00 x00 x00)) E))))))))))
(T (W xd8 xf5 x02 x00 x9c xec x02 x00)
(T (W xe0 x5c x02 x00 xa4 x5b x02 x00)
(T (W x68 xbf x01 x00 xb4 xba x01 x00)
(T (W x78 x69 x00 x00 x44 x68 x00 x00)
(T (W x00 x00 x80 x3f x00 x00 x80 x3f)
(T (W x45 x26 x22 x84 xe4 x9c xf2 xcb)
(T (W x00 x00 x80 x3f x00 x00 x80 x3f)
(T (W x7c x68 xfc xff x1e x00 x00 x00)
(T (W xff xff xff xff xff xff xff xff)
(T (W x50 x00 x00 x00 x44 x00 x00 x00)
(L (W x00 x00 x80 x3f x00 x00 x80 x3f))
(L (W x03 x00 x00 x00 xd0 x00 x00 x00)))
(T (W x00 x00 x00 x00 x00 x00 x00 x00)
(L (W xff xff xff xff xff xff xff xff))
(L (W xff xff xff xff xa8 x00 x00 x00))))
(T (W x38 xdd xfc xff x00 x01 x01 x01)
(T (W x45 x26 x22 x84 xe4 x9c xf2 xcb)
(L (W x00 x00 x00 x00 x00 x00 x00 x00))
(L (W x00 x00 x80 xbf x00 x00 x80 xbf)))
(T (W x4f x84 x6f x8b xe8 xcb x63 xb7)
(L (W x4f x84 x6f x8b xe8 xcb x63 xb7))
(L (W x00 x00 x00 x00 x00 x00 x00 x00)))))
(T (W x00 x00 x00 x00 x00 x00 x00 x00)
(T (W xc4 x00 x00 x00 xb8 x00 x00 x00)
(T (W x45 x26 x22 x84 xe4 x9c xf2 xcb)
(L (W x00 x00 x00 x00 x00 x00 x00 x00))
(L (W x00 x00 x01 x01 xb4 x01 x00 x00)))
(T (W xff xff xff xff x9c x00 x00 x00)
(L (W x68 x00 x00 x00 x5c x00 x00 x00))
(L (W xff xff xff xff xff xff xff xff))))
(T (W x54 x00 x00 x00 x48 x00 x00 x00)
(T (W x00 x00 x00 x00 x00 x00 x00 x00)
(L (W x45 x26 x22 x84 xe4 x9c xf2 xcb))
(L (W x32 x95 xff xff x74 x00 x00 x00)))
(T (W x00 x00 x00 x00 x00 x00 x00 x00)
(L (W x6c x00 x00 x00 x60 x00 x00 x00))
(L (W x00 x00 x80 xbf x00 x00 x80 xbf))))))
(T (W x00 x00 x00 x00 x00 x00 x00 x00)
(T (W xff xff xff xff xff xff xff xff)
(T (W x45 x26 x22 x84 xe4 x9c xf2 xcb)
(T (W x00 x00 x80 x3f x00 x00 x80 x3f)
(L (W x18 x00 x00 x00 x0c x00 x00 x00))
(L (W xff xff xff xff xff xff xff xff)))
(T (W x45 x26 x22 x84 xe4 x9c xf2 xcb)
(L (W x00 x00 x80 x3f x00 x00 x80 x3f))
(L (W xff xff xff xff xb0 x00 x00 x00))))
(T (W x18 x00 x00 x00 x0c x00 x00 x00)
(T (W xff xff xff xff xff xff xff xff)
(L (W x04 x00 x00 x00 xea x6a xfe xff))
(L (W x00 x00 x80 xbf x00 x00 x80 xbf)))
(T (W x00 x00 x80 x3f x00 x00 x80 x3f)
(L (W x6c x00 x00 x00 x60 x00 x00 x00))
(L (W x15 x00 x00 x00 x0c x00 x00 x00)))))
(T (W xff xff xff xff xff xff xff xff)
(T (W x45 x26 x22 x84 xe4 x9c xf2 xcb)
(T (W x00 x00 x80 x3f x00 x00 x80 x3f)
(L (W xff xff xff xff xff xff xff xff))
(L (W x00 x00 x00 x00 x00 x00 x00 x00)))
(T (W xff xff xff xff xff xff xff xff)
(L (W xff xff xff xff xff xff xff xff))
(L (W xff xff xff xff xac x00 x00 x00))))
(T (W x00 x00 x80 x3f x00 x00 x80 x3f)
(T (W xc4 x00 x00 x00 x01 x00 x00 x00)
(L (W x4f x84 x6f x8b xe8 xcb x63 xb7))
(L (W xff xff xff xff xb8 x00 x00 x00)))
(T (W x00 x00 x00 x00 x00 x00 x00 x00)
(L (W xff xff xff xff xb0 x00 x00 x00)) E)))))
(T (W x00 x00 x00 x00 x00 x00 x00 x00)
(T (W x00 x00 x00 x00 x00 x00 x00 x00)
(T (W x01 x00 x00 x00 x04 x00 x00 x00)
(T (W xb8 x00 x00 x00 xac x00 x00 x00)
(T (W x68 x00 x00 x00 x5c x00 x00 x00)
(L (W x00 x00 x80 x3f x00 x00 x80 x3f))
(L (W x45 x26 x22 x84 xe4 x9c xf2 xcb)))
(T (W x00 x00 x00 x00 x00 x00 x00 x00)
(L (W x45 x26 x22 x84 xe4 x9c xf2 xcb))
(L (W x00 x00 x80 xbf x00 x00 x80 xbf))))
(T (W x45 x26 x22 x84 xe4 x9c xf2 xcb)
(T (W x03 x00 x00 x00 xd0 x00 x00 x00)
(L (W x45 x44 x00 x00 x00 x00 x00 x00))
(L (W x4f x84 x6f x8b xe8 xcb x63 xb7)))
(T (W x00 x00 x00 x00 x00 x00 x00 x00)
(L (W x00 x00 x00 x00 x00 x00 x00 x00))
(L (W x62 x00 x00 x00 x00 x00 x00 x01)))))
(T (W x20 x01 x00 x00 x04 x00 x00 x00)
(T (W xb8 x00 x00 x00 xac x00 x00 x00)
(T (W x00 x00 x00 x00 x00 x00 x00 x00)
(L (W x00 x00 x00 x00 x00 x00 x00 x00))
(L (W x30 x34 x5f x43 x4c x45 x41 x52)))
(T (W xff xff xff xff xff xff xff xff)
(L (W xcc x00 x00 x00 x02 x00 x00 x00))
(L (W x10 x00 x14 x00 x18 x00 x1c x00))))
(T (W x00 x00 x80 x3f x00 x00 x80 x3f)
(T (W x00 x00 x80 x3f x00 x00 x80 x3f)
(L (W xff xff xff xff xff xff xff xff))
(L (W xbc x00 x00 x00 x02 x00 x00 x00)))
(T (W x00 x00 x00 x00 x02 x00 x00 x00)
(L (W x00 x00 x00 x00 xb0 x06 xff xff))
(L (W x00 x00 x80 xbf x00 x00 x80 xbf))))))
(T (W x00 x00 x00 x00 x00 x00 x00 x00)
(T (W xe2 x29 xfe xff x00 x00 x01 x01)
(T (W x01 x00 x00 x00 x9c x00 x00 x00)
(T (W x00 x00 x80 x3f x00 x00 x80 x3f)
(L (W x00 x00 x80 x3f x00 x00 x80 x3f))
(L (W xff xff xff xff xff xff xff xff)))
(T (W x00 x00 x80 x3f x00 x00 x80 x3f)
(L (W x38 xb5 xfe xff x00 x01 x01 x01))
(L (W xff xff xff xff x9c x00 x00 x00))))
(T (W x00 x00 x80 x3f x00 x00 x80 x3f)
(T (W x2e x00 x00 x00 x0c x00 x00 x00)
(L (W xff xff xff xff xff xff xff xff))
(L (W x00 x00 x80 xbf x00 x00 x80 xbf)))
(T (W x00 x00 x00 x00 x00 x00 x00 x00)
(L (W x68 x00 x00 x00 x5c x00 x00 x00))
(L (W xff xff xff xff xff xff xff xff)))))
(T (W xff xff xff xff xff xff xff xff)
(T (W x68 x00 x00 x00 x5c x00 x00 x00)
(T (W x50 x00 x00 x00 x44 x00 x00 x00)
(L (W x00 x00 x00 x00 x00 x00 x00 x00))
(L (W x49 xa1 x68 x4a xeb x5f xdd x3d)))
(T (W x00 x00 x00 x00 x00 x00 x00 x00)
(L (W x00 x00 x00 x00 x00 x00 x00 x00))
(L (W x6c x00 x00 x00 x60 x00 x00 x00))))
(T (W x00 x00 x80 x3f x00 x00 x80 x3f)
(T (W xff xff xff xff xff xff xff xff)
(L (W x00 x00 x00 x00 x00 x00 x00 x00))
(L (W xe2 xa1 x61 x36 xc9 xc1 xb3 x20)))
(T (W x00 x00 x80 x3f x00 x00 x80 x3f)
(L (W xff xff xff xff xb8 x00 x00 x00)) E))))))
(T (W xff xff xff xff xff xff xff xff)
(T (W xff xff xff xff xff xff xff xff)
(T (W x64 x00 x00 x00 x9c x00 x00 x00)
(T (W x01 x00 x00 x00 x3e x00 x00 x00)
(T (W x00 x00 x80 x3f x00 x00 x80 x3f)
(T (W xff xff xff xff xff xff xff xff)
(L (W xff xff xff xff xff xff xff xff))
(L (W x00 x00 x00 x00 x00 x00 x00 x00)))
(T (W x27 x00 x00 x00 x2a x00 x00 x00)
(L (W x00 x00 x80 x3f x00 x00 x80 x3f))
(L (W xff xff xff xff xff xff xff xff))))
(T (W x00 x00 x00 x00 x00 x00 x00 x00)
(T (W x30 x34 x5f x43 x4c x45 x41 x52)
(L (W x23 x00 x00 x00 x26 x00 x00 x00))
(L (W x00 x00 x00 x00 x2a x5d xff xff)))
(T (W xff xff xff xff xff xff xff xff)
(L (W xcc x00 x00 x00 x01 x00 x00 x00))
(L (W xff xff xff xff xff xff xff xff)))))
(T (W x00 x00 x80 x3f x00 x00 x80 x3f)
(T (W x00 x00 x00 x00 x00 x00 x00 x00)
(T (W x32 x59 xfd xff x74 x00 x00 x00)
(L (W xb8 x00 x00 x00 xac x00 x00 x00))
(L (W x50 x00 x00 x00 x44 x00 x00 x00)))
(T (W x00 x00 x00 x00 x00 x00 x00 x00)
(L (W x46 x53 x59 x53 x5f x4e x53 x5f))
(L (W x00 x00 x00 x00 x00 x00 x00 x00))))
(T (W xff xff xff xff xff xff xff xff)
(T (W xff xff xff xff xff xff xff xff)
(L (W x31 x00 x00 x00 x10 x00 x00 x00))
(L (W x00 x00 x00 x00 x12 x00 x00 x00)))
(T (W x38 x01 xfe xff x00 x01 x01 x01)
(L (W x08 x00 x00 x00 x10 x08 x00 x00))
(L (W xff xff xff xff xff xff xff xff))))))
(T (W x18 x00 x00 x00 x0c x00 x00 x00)
(T (W x7a x75 xfc xff x78 x00 x00 x00)
(T (W x00 x00 x00 x00 x00 x00 x00 x00)
(T (W xff xff xff xff xff xff xff xff)
(L (W x32 x00 x00 x00 x10 x00 x00 x00))
(L (W x00 x00 x00 x00 x00 x00 x00 x00)))
(T (W xff xff xff xff xff xff xff xff)
(L (W x00 x00 x00 x00 x12 x00 x00 x00))
(L (W x00 x00 x00 x00 x00 x00 x00 x00))))
(T (W xd0 x01 x00 x00 xff xff xff xff)
(T (W x00 x00 x80 x3f x00 x00 x80 x3f)
(L (W x00 x00 x80 xbf x00 x00 x80 xbf))
(L (W x00 x00 x00 x00 x00 x00 x00 x00)))
(T (W xff xff xff xff xff xff xff xff)
(L (W x01 x00 x00 x00 xff xff xff xff))
(L (W x28 x00 x2c x00 x30 x00 x34 x00)))))
(T (W x00 x00 x80 x3f x00 x00 x80 x3f)
(T (W x00 x00 x00 x00 x00 x00 x00 x00)
(T (W x7a x80 xfd xff x64 x00 x00 x00)
(L (W x00 x00 x80 x3f x00 x00 x80 x3f))
(L (W xff xff xff xff xc8 x00 x00 x00)))
(T (W x68 x00 x00 x00 x5c x00 x00 x00)
(L (W x54 x00 x00 x00 x48 x00 x00 x00))
(L (W xff xff xff xff xff xff xff xff))))
(T (W x00 x00 x00 x00 x00 x00 x00 x00)
(T (W x00 x00 x00 x00 x00 x00 x00 x00)
(L (W x61 x64 x65 x72 x5f x77 x69 x6c))
(L (W x00 x00 x00 x00 x00 x00 x00 x00)))
(T (W xe6 x99 x30 x97 x85 x1e x5c x5f)
(L (W x00 x00 x00 x00 x00 x00 x00 x00)) E)))))
(T (W xff xff xff xff xff xff xff xff)
(T (W x00 x00 x00 x00 xb0 x4a xfc xff)
(T (W x68 x00 x00 x00 x5c x00 x00 x00)
(T (W x00 x00 x00 x00 x00 x00 x00 x00)
(T (W xff xff xff xff xff xff xff xff)
(L (W x00 x00 x00 x00 x00 x00 x00 x00))
(L (W x46 x53 x59 x53 x5f x4e x53 x5f)))
(T (W xff xff xff xff xff xff xff xff)
(L (W x38 xa9 xfe xff x00 x01 x01 x01))
(L (W x00 x00 x00 x00 x00 x00 x00 x00))))
(T (W xea x8c xd6 x35 x8b x0d xdd x42)
(T (W x00 x00 x00 x00 x00 x00 x00 x00)
(L (W x6c x00 x00 x00 x60 x00 x00 x00))
(L (W xff xff xff xff xff xff xff xff)))
(T (W x18 x00 x00 x00 x10 x00 x00 x00)
(L (W xff xff xff xff xff xff xff xff))
(L (W xff xff xff xff xff xff xff xff)))))
(T (W x45 x26 x22 x84 xe4 x9c xf2 xcb)
(T (W x45 x26 x22 x84 xe4 x9c xf2 xcb)
(T (W x40 x02 x00 x00 x2c x01 x00 x00)
(L (W x01 x00 x00 x00 x9c x00 x00 x00))
(L (W xcc x00 x00 x00 x01 x00 x00 x00)))
(T (W x45 x26 x22 x84 xe4 x9c xf2 xcb)
(L (W x45 x26 x22 x84 xe4 x9c xf2 xcb))
(L (W x00 x00 x00 x00 x12 x00 x00 x00))))
(T (W xff xff xff xff x03 x00 x00 x00)
(T (W x30 x34 x5f x43 x4c x45 x41 x52)
(L (W x50 x00 x00 x00 x44 x00 x00 x00))
(L (W x00 x00 x00 x00 x00 x00 x00 x00)))
(T (W x00 x00 x80 x3f x00 x00 x80 x3f)
(L (W x00 x00 x00 x00 x00 x00 x00 x00)) E))))
(T (W x2f x00 x00 x00 x9c x00 x00 x00)
(T (W x00 x00 x80 x3f x00 x00 x80 x3f)
(T (W x00 x00 x00 x00 x00 x00 x00 x00)
(T (W xff xff xff xff xff xff xff xff)
(L (W x00 x00 x00 x00 x00 x00 x00 x00))
(L (W x00 x00 x80 xbf x00 x00 x80 xbf)))
(T (W x00 x00 x00 x00 x00 x00 x00 x00)
(L (W x00 x00 x00 x00 x00 x00 x00 x00))
(L (W x4f x84 x6f x8b xe8 xcb x63 xb7))))
(T (W xff xff xff xff xff xff xff xff)
(T (W x45 x26 x22 x84 xe4 x9c xf2 xcb)
(L (W x45 x26 x22 x84 xe4 x9c xf2 xcb))
(L (W x02 x00 x00 x00 x30 x01 x00 x00)))
(T (W x45 x26 x22 x84 xe4 x9c xf2 xcb)
(L (W x45 x44 x00 x00 x00 x00 x00 x00))
(L (W x00 x00 x00 x00 x00 x00 x00 x00)))))
(T (W x00 x00 x80 x3f x00 x00 x80 x3f)
(T (W x00 x00 x00 x00 x00 x00 x00 x00)
(T (W x00 x00 x00 x00 x00 x00 x00 x00)
(L (W xff xff xff xff xb0 x00 x00 x00))
(L (W xff xff xff xff xff xff xff xff)))
(T (W xff xff xff xff x9c x00 x00 x00)
(L (W x45 x26 x22 x84 xe4 x9c xf2 xcb))
(L (W xff xff xff xff xa0 x00 x00 x00))))
(T (W x00 x00 x00 x00 x02 x00 x00 x00)
(T (W x00 x00 x80 x3f x00 x00 x80 x3f)
(L (W xff xff xff xff xff xff xff xff))
(L (W xff xff xff xff xff xff xff xff)))
(T (W xff xff xff xff xff xff xff xff)
(L (W x00 x00 x00 x00 x00 x00 x00 x00)) E)))))))
(T (W x23 x00 x00 x00 x0c x00 x00 x00)
(T (W x40 x00 x00 x00 xa0 x00 x00 x00)
(T (W x68 x00 x00 x00 x5c x00 x00 x00)
(T (W x00 x00 x80 x3f x00 x00 x80 x3f)
(T (W x00 x00 x80 x3f x00 x00 x80 x3f)
(T (W x00 x00 x00 x00 x00 x00 x00 x00)
(T (W x00 x00 x00 x00 xb0 x20 xfd xff)
(L (W x18 x00 x00 x00 x0c x00 x00 x00))
(L (W xff xff xff xff xff xff xff xff)))
(T (W x45 x26 x22 x84 xe4 x9c xf2 xcb)
(L (W x00 x00 x00 x00 x00 x00 x00 x00))
(L (W xff xff xff xff xff xff xff xff))))
(T (W xff xff xff xff xff xff xff xff)
(T (W xff xff xff xff xff xff xff xff)
(L (W x44 x00 x00 x00 x00 x00 x80 xbf))
(L (W xff xff xff xff xff xff xff xff)))
(T (W x38 xdf xfd xff x00 x01 x01 x01)
(L (W x54 x00 x00 x00 x48 x00 x00 x00))
(L (W x00 x00 x80 xbf x00 x00 x80 xbf)))))
(T (W x00 x00 x00 x00 x00 x00 x00 x00)
(T (W xff xff xff xff xff xff xff xff)
(T (W xff xff xff xff xff xff xff xff)
(L (W x00 x00 x80 x3f x00 x00 x80 x3f))
(L (W x00 x00 x00 x00 x00 x00 x00 x00)))
(T (W xff xff xff xff xff xff xff xff)
(L (W xff xff xff xff xff xff xff xff))
(L (W xff xff xff xff xff xff xff xff))))
(T (W xff xff xff xff xff xff xff xff)
(T (W x68 x00 x00 x00 x5c x00 x00 x00)
(L (W xb0 x00 x00 x00 x64 x00 x00 x00))
(L (W xff xff xff xff xff xff xff xff)))
(T (W x00 x00 x80 x3f x00 x00 x80 x3f)
(L (W x03 x00 x00 x00 xd0 x00 x00 x00))
(L (W x00 x00 x10 x00 x14 x00 x18 x00))))))
(T (W x68 x00 x00 x00 x5c x00 x00 x00)
(T (W x00 x00 x00 x00 x00 x00 x00 x00)
(T (W xef x00 x00 x00 xff xff xff xff)
(T (W x40 x00 x00 x00 x9c x00 x00 x00)
(L (W xff xff xff xff xff xff xff xff))
(L (W x00 x00 x00 x00 x12 x30 xff xff)))
(T (W xff xff xff xff xa0 x00 x00 x00)
(L (W xff xff xff xff xff xff xff xff))
(L (W xff xff xff xff xff xff xff xff))))
(T (W xff xff xff xff xff xff xff xff)
(T (W x00 x00 x00 x00 x00 x00 x00 x00)
(L (W x00 x00 x00 x00 x00 x00 x00 x00))
(L (W x1a x00 x00 x00 x1d x00 x00 x00)))
(T (W x38 xef xfd xff x00 x01 x01 x01)
(L (W xff xff xff xff xff xff xff xff))
(L (W x00 x00 x80 xbf x00 x00 x80 xbf)))))
(T (W x00 x00 x00 x00 x00 x00 x00 x00)
(T (W xe2 x83 xfe xff x00 x00 x01 x01)
(T (W xff xff xff xff xff xff xff xff)
(L (W x00 x00 x80 x3f x00 x00 x80 x3f))
(L (W x6c x00 x00 x00 x60 x00 x00 x00)))
(T (W x49 xa1 x68 x4a xeb x5f xdd x3d)
(L (W x00 x00 x00 x00 x00 x00 x00 x00))
(L (W x78 x00 x08 x00 x70 x00 x0c x00))))
(T (W xff xff xff xff xff xff xff xff)
(T (W x04 x00 x00 x00 x12 x90 xfd xff)
(L (W xc4 x00 x00 x00 x01 x00 x00 x00))
(L (W xff xff xff xff xff xff xff xff)))
(T (W xff xff xff xff xff xff xff xff)
(L (W xff xff xff xff xff xff xff xff)) E)))))
(T (W x00 x00 x80 x3f x00 x00 x80 x3f)
(T (W x50 x00 x00 x00 x44 x00 x00 x00)
(T (W x45 x26 x22 x84 xe4 x9c xf2 xcb)
(T (W xff x4c x84 x31 x71 xf3 x75 xb9)
(T (W x18 x00 x00 x00 x0c x00 x00 x00)
(L (W xff xff xff xff xff xff xff xff))
(L (W xff xff xff xff xff xff xff xff)))
(T (W x00 x00 x80 x3f x00 x00 x80 x3f)
(L (W x79 x61 x62 x75 x6e x00 x00 x00))
(L (W xff xff xff xff xff xff xff xff))))
(T (W xb8 x00 x00 x00 xac x00 x00 x00)
(T (W x02 x00 x00 x00 x30 x01 x00 x00)
(L (W x00 x00 x00 x00 x00 x00 x00 x00))
(L (W x6c x00 x00 x00 x60 x00 x00 x00)))
(T (W x00 x00 x80 x3f x00 x00 x80 x3f)
(L (W x32 xff xfe xff x74 x00 x00 x00))
(L (W x4f x84 x6f x8b xe8 xcb x63 xb7)))))
(T (W x00 x00 x00 x00 x00 x00 x00 x00)
(T (W xd8 x01 x00 x00 xff xff xff xff)
(T (W x6c x00 x00 x00 x60 x00 x00 x00)
(L (W x00 x00 x80 x3f x00 x00 x80 x3f))
(L (W x00 x00 x80 xbf x00 x00 x80 xbf)))
(T (W x00 x00 x00 x00 x00 x00 x00 x00)
(L (W xaa x11 xb3 x28 xbf xe1 x60 x6a))
(L (W x00 x00 x00 x00 x00 x00 x00 x00))))
(T (W x00 x00 x00 x00 x00 x00 x5c x00)
(T (W xff xff xff xff xff xff xff xff)
(L (W x00 x00 x00 x00 x00 x00 x00 x00))
(L (W xff xff xff xff xff xff xff xff)))
(T (W x00 x00 x00 x00 x00 x00 x00 x00)
(L (W xff xff xff xff xff xff xff xff)) E))))
(T (W x00 x00 x80 x3f x00 x00 x80 x3f)
(T (W x00 x00 x00 x00 x00 x00 x00 x00)
(T (W xff xff xff xff xff xff xff xff)
(T (W x01 x00 x00 x00 x3c x00 x00 x00)
(L (W xff xff xff xff xff xff xff xff))
(L (W x00 x00 x00 x00 x00 x00 x00 x00)))
(T (W xff xff xff xff xff xff xff xff)
(L (W xff xff xff xff xff xff xff xff))
(L (W x00 x00 x00 x00 x82 xb6 xff xff))))
(T (W xff xff xff xff xff xff xff xff)
(T (W x45 x26 x22 x84 xe4 x9c xf2 xcb)
(L (W x00 x00 x00 x00 x00 x00 x00 x00))
(L (W x03 x00 x00 x00 xd0 x00 x00 x00)))
(T (W x00 x00 x80 x3f x00 x00 x80 x3f)
(L (W xff xff xff xff xff xff xff xff))
(L (W xff xff xff xff xff xff xff xff)))))
(T (W x00 x00 x00 x00 x00 x00 x00 x00)
(T (W xff xff xff xff xff xff xff xff)
(T (W xff xff xff xff xff xff xff xff)
(L (W x00 x00 x80 xbf x00 x00 x80 xbf))
(L (W x6c x00 x00 x00 x60 x00 x00 x00)))
(T (W x00 x00 x80 x3f x00 x00 x80 x3f)
(L (W x00 x00 x80 xbf x00 x00 x80 xbf))
(L (W x00 x00 x00 x00 x00 x00 x6c x00))))
(T (W x64 x00 x00 x00 x9c x00 x00 x00)
(T (W x00 x00 x00 x00 x00 x00 x00 x00)
(L (W x00 x00 x00 x00 x00 x00 x00 x00))
(L (W x74 x00 x0c x00 x00 x00 x00 x00)))
(T (W x64 x00 x00 x00 x9c x00 x00 x00)
(L (W xff xff xff xff xff xff xff xff)) E))))))
(T (W x01 x00 x00 x00 x04 x00 x00 x00)
(T (W xff xff xff xff xff xff xff xff)
(T (W x00 x00 x00 x00 x02 x00 x00 x00)
(T (W xff xff xff xff xff xff xff xff)
(T (W x50 x00 x00 x00 x44 x00 x00 x00)
(T (W x00 x00 x00 x00 x00 x00 x00 x00)
(L (W x5f x6c x76 x31 x5f x74 x6f x5f))
(L (W x00 x00 x80 xbf x00 x00 x80 xbf)))
(T (W xff xff xff xff xff xff xff xff)
(L (W x61 x64 x65 x72 x5f x77 x69 x6c))
(L (W x00 x00 x00 x00 x00 x00 x00 x00))))
(T (W x45 x26 x22 x84 xe4 x9c xf2 xcb)
(T (W x00 x00 x80 x3f x00 x00 x80 x3f)
(L (W xff xff xff xff xff xff xff xff))
(L (W x46 x53 x59 x53 x5f x4e x53 x5f)))
(T (W xec x4d x2b x97 x85 x9a x55 x5f)
(L (W xff xff xff xff xff xff xff xff))
(L (W x00 xd1 xac x28 xbf xcd x59 x6a)))))
(T (W xff xff xff xff x04 x00 x00 x00)
(T (W x00 x00 x80 x3f x00 x00 x80 x3f)
(T (W x00 x00 x00 x00 x00 x00 x00 x00)
(L (W xff xff xff xff xff xff xff xff))
(L (W xff xff xff xff xff xff xff xff)))
(T (W x00 x00 x80 x3f x00 x00 x80 x3f)
(L (W x00 x00 x80 xbf x00 x00 x80 xbf))
(L (W x45 x26 x22 x84 xe4 x9c xf2 xcb))))
(T (W x00 x00 x00 x00 x00 x00 x00 x00)
(T (W x00 x00 x00 x00 x00 x00 x00 x00)
(L (W x00 x00 x80 xbf x00 x00 x80 xbf))
(L (W x00 x01 x01 x01 xf2 x7f xff xff)))
(T (W xff xff xff xff xff xff xff xff)
(L (W x00 x00 x80 xbf x00 x00 x80 xbf))
(L (W x07 x00 x00 x00 x08 x00 x09 x00))))))
(T (W xff xff xff xff xff xff xff xff)
(T (W xff xff xff xff xff xff xff xff)
(T (W x32 xcb xfc xff x74 x00 x00 x00)
(T (W x7c x3e xfd xff x16 x00 x00 x00)
(L (W x00 x00 x00 x00 x00 x00 x00 x00))
(L (W x45 x26 x22 x84 xe4 x9c xf2 xcb)))
(T (W x00 x00 x00 x00 x00 x00 x00 x00)
(L (W x00 x00 x80 x3f x00 x00 x80 x3f))
(L (W x00 x00 x80 xbf x00 x00 x80 xbf))))
(T (W x00 x00 x00 x00 x00 x00 x00 x00)
(T (W xff xff xff xff xff xff xff xff)
(L (W xac x74 xfe xff x4a x6e xfe xff))
(L (W x00 x00 x00 x00 x12 x00 x00 x00)))
(T (W x00 x00 x00 x00 x02 x00 x00 x00)
(L (W x00 x00 x00 x00 x00 x00 x00 x00))
(L (W x00 x00 x80 xbf x00 x00 x80 xbf)))))
(T (W x68 x00 x00 x00 x5c x00 x00 x00)
(T (W x00 x00 x80 x3f x00 x00 x80 x3f)
(T (W x49 xa1 x68 x4a xeb x5f xdd x3d)
(L (W xb0 x00 x00 x00 x64 x00 x00 x00))
(L (W x2e x00 x00 x00 xff xff xff xff)))
(T (W xff xff xff xff xff xff xff xff)
(L (W xff xff xff xff xff xff xff xff))
(L (W x49 xa1 x68 x4a xeb x5f xdd x3d))))
(T (W x00 x00 x80 x3f x00 x00 x80 x3f)
(T (W x18 x00 x00 x00 x10 x00 x00 x00)
(L (W x45 x26 x22 x84 xe4 x9c xf2 xcb))
(L (W x4f x84 x6f x8b xe8 xcb x63 xb7)))
(T (W x00 x00 x00 x00 x00 x00 x00 x00)
(L (W x00 x00 x80 xbf x00 x00 x80 xbf)) E)))))
(T (W x00 x00 x00 x00 x00 x00 x00 x00)
(T (W xff xff xff xff xff xff xff xff)
(T (W xff xff xff xff xff xff xff xff)
(T (W x68 x00 x00 x00 x5c x00 x00 x00)
(T (W x00 x00 x00 x00 x00 x00 x00 x00)
(L (W x00 x00 x80 x3f x00 x00 x80 x3f))
(L (W x00 x00 x80 xbf x00 x00 x80 xbf)))
(T (W x00 x00 x00 x00 x00 x00 x00 x00)
(L (W x00 x00 x00 x00 x1b x00 x00 x00))
(L (W x00 x00 x80 xbf x00 x00 x80 xbf))))
(T (W x00 x00 x80 x3f x00 x00 x80 x3f)
(T (W x32 x83 xfd xff x74 x00 x00 x00)
(L (W x18 x00 x00 x00 x0c x00 x00 x00))
(L (W x00 x00 x00 x00 x00 x00 x00 x00)))
(T (W xff xff xff xff xff xff xff xff)
(L (W x00 x00 x00 x00 x12 x00 x00 x00))
(L (W xff xff xff xff xff xff xff xff)))))
(T (W x45 x26 x22 x84 xe4 x9c xf2 xcb)
(T (W x00 x00 x80 x3f x00 x00 x80 x3f)
(T (W x00 x00 x00 x00 x00 x00 x00 x00)
(L (W x32 x00 x00 x00 x0c x00 x00 x00))
(L (W xff xff xff xff xff xff xff xff)))
(T (W xb8 x00 x00 x00 x64 x00 x00 x00)
(L (W x00 x00 x00 x00 xb0 xcc xfe xff))
(L (W x49 xa1 x68 x4a xeb x5f xdd x3d))))
(T (W x45 x26 x22 x84 xe4 x9c xf2 xcb)
(T (W x00 x00 x80 x3f x00 x00 x80 x3f)
(L (W x00 x00 x00 x00 x00 x00 x00 x00))
(L (W x00 x00 x80 xbf x00 x00 x80 xbf)))
(T (W x45 x26 x22 x84 xe4 x9c xf2 xcb)
(L (W x00 x00 x80 xbf x00 x00 x80 xbf)) E))))
(T (W xff xff xff xff xff xff xff xff)
(T (W xb8 x00 x00 x00 xac x00 x00 x00)
(T (W x00 x00 x80 x3f x00 x00 x80 x3f)
(T (W x01 x00 x00 x00 x04 x00 x00 x00)
(L (W xff xff xff xff xff xff xff xff))
(L (W x03 x00 x00 x00 xd8 x00 x00 x00)))
(T (W x00 x00 x00 x00 x00 x00 x00 x00)
(L (W x00 x00 x80 x3f x00 x00 x80 x3f))
(L (W x00 x00 x80 xbf x00 x00 x80 xbf))))
(T (W x00 x00 x00 x00 x00 x00 x00 x00)
(T (W xff xff xff xff xff xff xff xff)
(L (W x04 x00 x00 x00 x12 x7c xfe xff))
(L (W x00 x00 x00 x00 x00 x00 x00 x00)))
(T (W xff xff xff xff xff xff xff xff)
(L (W x00 x00 x80 xbf x00 x00 x80 xbf))
(L (W x00 x00 x00 x00 x00 x00 x00 x00)))))
(T (W x00 x00 x80 x3f x00 x00 x80 x3f)
(T (W x00 x00 x80 x3f x00 x00 x80 x3f)
(T (W x45 x26 x22 x84 xe4 x9c xf2 xcb)
(L (W xff xff xff xff xff xff xff xff))
(L (W x00 x00 x00 x00 x00 x00 x00 x00)))
(T (W x00 x00 x00 x00 x00 x00 x00 x00)
(L (W xff xff xff xff xff xff xff xff))
(L (W xff xff xff xff xff xff xff xff))))
(T (W x00 x00 x00 x00 x00 x00 x00 x00)
(T (W xff xff xff xff xff xff xff xff)
(L (W x00 x00 x00 x00 x00 x00 x00 x00))
(L (W x00 x00 x00 x00 x00 x00 x00 x00)))
(T (W x00 x00 x00 x00 x00 x00 x00 x00)
(L (W x4f x84 x6f x8b xe8 xcb x63 xb7)) E))))))))
(T (W x30 xfb x00 x00 xe4 xf8 x00 x00)
(T (W xff xff xff xff xff xff xff xff)
(T (W x00 x00 x80 x3f x00 x00 x80 x3f)
(T (W x00 x00 x80 x3f x00 x00 x80 x3f)
(T (W x00 x00 x80 x3f x00 x00 x80 x3f)
(T (W x00 x00 x00 x00 x00 x00 x00 x00)
(T (W xe2 x52 xfe xff x00 x00 x01 x01)
(T (W x32 x36 xfd xff x74 x00 x00 x00)
(L (W x00 x00 x80 x3f x00 x00 x80 x3f))
(L (W xff xff xff xff xff xff xff xff)))
(T (W x00 x00 x00 x00 x00 x00 x00 x00)
(L (W x61 x64 x65 x72 x5f x77 x69 x6c))
(L (W xff xff xff xff xff xff xff xff))))
(T (W x45 x26 x22 x84 xe4 x9c xf2 xcb)
(T (W xff xff xff xff xff xff xff xff)
(L (W x00 x00 x80 xbf x00 x00 x80 xbf))
(L (W xc4 x00 x00 x00 x02 x00 x00 x00)))
(T (W x00 x00 x80 x3f x00 x00 x80 x3f)
(L (W x00 x00 x80 xbf x00 x00 x80 xbf))
(L (W x00 x00 x80 xbf x00 x00 x80 xbf)))))
(T (W x00 x00 x00 x00 x00 x00 x00 x00)
(T (W xff xff xff xff xff xff xff xff)
(T (W x00 x00 x80 x3f x00 x00 x80 x3f)
(L (W x00 x00 x80 x3f x00 x00 x80 x3f))
(L (W x30 x34 x5f x43 x4c x45 x41 x52)))
(T (W xff xff xff xff xff xff xff xff)
(L (W xff xff xff xff xff xff xff xff))
(L (W xff xff xff xff xff xff xff xff))))
(T (W x32 x16 xfd xff x74 x00 x00 x00)
(T (W x00 x00 x80 x3f x00 x00 x80 x3f)
(L (W x50 x00 x00 x00 x44 x00 x00 x00))
(L (W xff xff xff xff xff xff xff xff)))
(T (W x00 x00 x00 x00 x00 x00 x00 x00)
(L (W x18 x00 x00 x00 x10 x00 x00 x00))
(L (W xff xff xff xff xff xff xff xff))))))
(T (W x45 x26 x22 x84 xe4 x9c xf2 xcb)
(T (W x7c x79 xfc xff x3e x00 x00 x00)
(T (W xff xff xff xff xff xff xff xff)
(T (W x45 x26 x22 x84 xe4 x9c xf2 xcb)
(L (W x64 x00 x00 x00 x9c x00 x00 x00))
(L (W xff xff xff xff xff xff xff xff)))
(T (W x6c x00 x00 x00 x60 x00 x00 x00)
(L (W xff xff xff xff xff xff xff xff))
(L (W xff xff xff xff xff xff xff xff))))
(T (W x0a x00 x00 x00 x3e x00 x00 x00)
(T (W x86 x32 xa4 xf1 x93 x25 x82 x3c)
(L (W x00 x00 x00 x00 x12 x00 x00 x00))
(L (W x7a x72 xff xff x78 x00 x00 x00)))
(T (W x00 x00 x80 x3f x00 x00 x80 x3f)
(L (W xff xff xff xff xa0 x00 x00 x00))
(L (W x00 x00 x00 x00 x00 x00 x00 x00)))))
(T (W x95 x4b x87 x66 xe8 x2d x27 xc0)
(T (W xff xff xff xff xff xff xff xff)
(T (W xff xff xff xff xac x00 x00 x00)
(L (W x72 x64 x5f x6c x76 x31 x00 x00))
(L (W x00 x00 x80 xbf x00 x00 x80 xbf)))
(T (W xd4 xd4 xfd xff x10 x00 x00 x00)
(L (W x26 x00 x00 x00 x0c x00 x00 x00))
(L (W xff xff xff xff xff xff xff xff))))
(T (W x38 x0e xfd xff x00 x01 x01 x01)
(T (W xff xff xff xff xff xff xff xff)
(L (W x00 x00 x80 x3f x00 x00 x80 x3f))
(L (W xff xff xff xff xff xff xff xff)))
(T (W x18 x00 x00 x00 x10 x00 x00 x00)
(L (W xff xff xff xff xff xff xff xff)) E)))))
(T (W x00 x00 x80 x3f x00 x00 x80 x3f)
(T (W x00 x00 x80 x3f x00 x00 x80 x3f)
(T (W x00 x00 x00 x00 x00 x00 x00 x00)
(T (W xff xff xff xff xff xff xff xff)
(T (W x00 x00 x00 x00 xb0 x27 xfd xff)
(L (W xff xff xff xff xff xff xff xff))
(L (W xc4 x00 x00 x00 x02 x00 x00 x00)))
(T (W x00 x00 x80 x3f x00 x00 x80 x3f)
(L (W xff xff xff xff xff xff xff xff))
(L (W x23 x00 x00 x00 x26 x00 x00 x00))))
(T (W x01 x00 x00 x00 x9c x00 x00 x00)
(T (W xff xff xff xff xff xff xff xff)
(L (W x00 x00 x00 x00 x00 x00 x00 x00))
(L (W x00 x00 x80 xbf x00 x00 x80 xbf)))
(T (W x00 x00 x80 x3f x00 x00 x80 x3f)
(L (W x00 x00 x80 xbf x00 x00 x80 xbf))
(L (W x00 x00 x00 x00 x00 x00 x00 x00)))))
(T (W x00 x00 x00 x00 x00 x00 x00 x00)
(T (W xff xff xff xff xff xff xff xff)
(T (W x45 x26 x22 x84 xe4 x9c xf2 xcb)
(L (W x00 x00 x00 x00 x00 x00 x00 x00))
(L (W x00 x00 x00 x00 x00 x00 x00 x00)))
(T (W xc2 xed xfd xff x9d x01 x00 x00)
(L (W xff xff xff xff xff xff xff xff))
(L (W xff xff xff xff xff xff xff xff))))
(T (W x18 x00 x00 x00 x0c x00 x00 x00)
(T (W xff xff xff xff xb0 x00 x00 x00)
(L (W x00 x00 x01 x01 xd0 x01 x00 x00))
(L (W xff xff xff xff xff xff xff xff)))
(T (W x00 x00 x00 x00 x00 x00 x00 x00)
(L (W x35 x00 x00 x00 x38 x00 x00 x00)) E))))
(T (W x45 x26 x22 x84 xe4 x9c xf2 xcb)
(T (W x00 x00 x00 x00 x00 x00 x00 x00)
(T (W xb8 x00 x00 x00 xac x00 x00 x00)
(T (W x00 x00 x80 x3f x00 x00 x80 x3f)
(L (W xff xff xff xff xff xff xff xff))
(L (W x54 x02 x00 x00 x38 x01 x00 x00)))
(T (W x32 xce xfd xff x74 x00 x00 x00)
(L (W xbc x00 x00 x00 x0a x00 x00 x00))
(L (W xff xff xff xff xff xff xff xff))))
(T (W xc0 x00 x00 x00 xb4 x00 x00 x00)
(T (W x00 x00 x00 x00 x00 x00 x00 x00)
(L (W xd4 x7c xfe xff x32 x00 x00 x00))
(L (W x68 x00 x00 x00 x5c x00 x00 x00)))
(T (W x00 x00 x80 x3f x00 x00 x80 x3f)
(L (W xff xff xff xff xff xff xff xff))
(L (W xff xff xff xff xff xff xff xff)))))
(T (W xdd x01 x00 x00 xff xff xff xff)
(T (W xb8 x00 x00 x00 xac x00 x00 x00)
(T (W x45 x26 x22 x84 xe4 x9c xf2 xcb)
(L (W x00 x00 x00 x00 x00 x00 x00 x00))
(L (W x00 x00 x80 xbf x00 x00 x80 xbf)))
(T (W x00 x00 x00 x00 x00 x00 x00 x00)
(L (W x00 x00 x00 x00 x00 x00 x00 x00))
(L (W x18 x00 x00 x00 x10 x00 x00 x00))))
(T (W x50 x00 x00 x00 x44 x00 x00 x00)
(T (W x00 x00 x00 x00 x04 x00 x00 x00)
(L (W x00 x00 x00 x00 x00 x00 x00 x00))
(L (W xff xff xff xff xbc x00 x00 x00)))
(T (W x18 x00 x00 x00 x0c x00 x00 x00)
(L (W xff xff xff xff xff xff xff xff)) E))))))
(T (W xff xff xff xff xff xff xff xff)
(T (W xff xff xff xff xff xff xff xff)
(T (W xff xff xff xff xff xff xff xff)
(T (W xff xff xff xff xff xff xff xff)
(T (W x00 x00 x80 x3f x00 x00 x80 x3f)
(T (W xd4 x28 xfd xff x3e x00 x00 x00)
(L (W xff xff xff xff xff xff xff xff))
(L (W x00 x00 x00 x00 x00 x00 x00 x00)))
(T (W xff xff xff xff xff xff xff xff)
(L (W xff xff xff xff xff xff xff xff))
(L (W x45 x44 x00 x00 x00 x00 x00 x00))))
(T (W x00 x00 x00 x00 x00 x00 x00 x00)
(T (W x00 x00 x00 x00 x00 x00 x00 x00)
(L (W x03 x00 x00 x00 xc8 x00 x00 x00))
(L (W x00 x00 x00 x00 x00 x00 x00 x00)))
(T (W xff xff xff xff xff xff xff xff)
(L (W xff xff xff xff xff xff xff xff))
(L (W xff xff xff xff xff xff xff xff)))))
(T (W x68 x00 x00 x00 x5c x00 x00 x00)
(T (W x00 x00 x80 x3f x00 x00 x80 x3f)
(T (W xff xff xff xff xff xff xff xff)
(L (W xff xff xff xff xff xff xff xff))
(L (W x03 x00 x00 x00 xd8 x00 x00 x00)))
(T (W x00 x00 x80 x3f x00 x00 x80 x3f)
(L (W x00 x00 x00 x00 x00 x00 x00 x00))
(L (W x00 x00 x00 x00 x00 x00 x00 x00))))
(T (W x72 xb5 xfe xff x6f x00 x00 x00)
(T (W x45 x44 x00 x00 x00 x00 x00 x00)
(L (W x00 x00 x00 x00 x00 x00 x00 x00))
(L (W x00 x00 x00 x00 x00 x00 x00 x00)))
(T (W x45 x26 x22 x84 xe4 x9c xf2 xcb)
(L (W x00 x00 x00 x00 x00 x00 x00 x00))
(L (W x00 x00 x00 x00 x00 x00 x00 x00))))))
(T (W x64 x00 x00 x00 x9c x00 x00 x00)
(T (W x45 x26 x22 x84 xe4 x9c xf2 xcb)
(T (W x45 x26 x22 x84 xe4 x9c xf2 xcb)
(T (W xff xff xff xff xff xff xff xff)
(L (W x00 x00 x00 x00 x00 x00 x00 x00))
(L (W x00 x00 x80 xbf x00 x00 x80 xbf)))
(T (W x4e x04 x03 x1d x69 xd2 xed xbd)
(L (W x45 x26 x22 x84 xe4 x9c xf2 xcb))
(L (W x00 x00 x80 xbf x00 x00 x80 xbf))))
(T (W x00 x00 x00 x00 x00 x00 x00 x00)
(T (W x00 x00 x00 x00 xb0 x73 xfd xff)
(L (W x54 x00 x00 x00 x48 x00 x00 x00))
(L (W x00 x00 x00 x00 x00 x00 x00 x00)))
(T (W xff xff xff xff xff xff xff xff)
(L (W x4c x45 x41 x52 x45 x44 x00 x00))
(L (W x00 x00 x00 x00 x00 x00 x00 x00)))))
(T (W x00 x00 x80 x3f x00 x00 x80 x3f)
(T (W x00 x00 x80 x3f x00 x00 x80 x3f)
(T (W x00 x00 x00 x00 x00 x00 x00 x00)
(L (W x38 x52 xfe xff x00 x01 x01 x01))
(L (W xff xff xff xff xff xff xff xff)))
(T (W x18 x00 x00 x00 x10 x00 x00 x00)
(L (W x45 x26 x22 x84 xe4 x9c xf2 xcb))
(L (W x24 x00 x00 x00 x0c x00 x00 x00))))
(T (W x00 x00 x00 x00 x00 x00 x00 x00)
(T (W x50 x00 x00 x00 x44 x00 x00 x00)
(L (W x00 x00 x00 x00 x00 x00 x00 x00))
(L (W x00 x00 x00 x00 x00 x00 x00 x00)))
(T (W x00 x00 x00 x00 x00 x00 x00 x00)
(L (W x00 x00 x00 x00 x00 x00 x00 x00)) E)))))
(T (W xcc x01 x00 x00 xff xff xff xff)
(T (W xff xff xff xff xff xff xff xff)
(T (W xff xff xff xff xff xff xff xff)
(T (W x00 x00 x80 x3f x00 x00 x80 x3f)
(T (W x01 x00 x00 x00 x04 x00 x00 x00)
(L (W x00 x00 x00 x00 x00 x00 x00 x00))
(L (W x00 x00 x00 x00 x00 x00 x00 x00)))
(T (W xa5 x01 x00 x00 xff xff xff xff)
(L (W x87 x00 x00 x00 xff xff xff xff))
(L (W x00 x00 x00 x00 x00 x00 x00 x00))))
(T (W x00 x00 x00 x00 x00 x00 x00 x00)
(T (W x00 x00 x80 x3f x00 x00 x80 x3f)
(L (W x45 x26 x22 x84 xe4 x9c xf2 xcb))
(L (W x45 x44 x00 x00 x00 x00 x00 x00)))
(T (W xff xff xff xff xff xff xff xff)
(L (W x00 x00 x00 x00 x00 x00 x00 x00))
(L (W xff xff xff xff xff xff xff xff)))))
(T (W x00 x00 x80 x3f x00 x00 x80 x3f)
(T (W x00 x00 x80 x3f x00 x00 x80 x3f)
(T (W x12 x00 x00 x00 x46 x53 x59 x53)
(L (W xd0 x00 x00 x00 xac x00 x00 x00))
(L (W xff xff xff xff xff xff xff xff)))
(T (W x38 xca xfd xff x00 x01 x01 x01)
(L (W x00 x00 x80 xbf x00 x00 x80 xbf))
(L (W x00 x00 x00 x00 x00 x00 x00 x00))))
(T (W x3c x00 x40 x00 x44 x00 x48 x00)
(T (W x00 x00 x00 x00 x00 x00 x00 x00)
(L (W xff xff xff xff xff xff xff xff))
(L (W x00 x00 x00 x00 x00 x00 x00 x00)))
(T (W x38 x0a xfe xff x00 x01 x01 x01)
(L (W x00 x00 x00 x00 x00 x00 x00 x00)) E))))
(T (W xff xff xff xff x03 x00 x00 x00)
(T (W x18 x00 x00 x00 x0c x00 x00 x00)
(T (W x00 x00 x80 x3f x00 x00 x80 x3f)
(T (W xff xff xff xff xff xff xff xff)
(L (W x00 x00 x00 x00 x00 x00 x00 x00))
(L (W x50 x00 x00 x00 x44 x00 x00 x00)))
(T (W x00 x00 x00 x00 x12 x00 x00 x00)
(L (W x00 x00 x00 x00 x00 x00 x00 x00))
(L (W x00 x00 x80 xbf x00 x00 x80 xbf))))
(T (W x03 x72 x36 xfe x02 x9a xeb x70)
(T (W xff xff xff xff xff xff xff xff)
(L (W xff xff xff xff xff xff xff xff))
(L (W x00 x00 x00 x00 x12 x00 x00 x00)))
(T (W xff xff xff xff xff xff xff xff)
(L (W x00 x00 x00 x00 x00 x00 x00 x00))
(L (W xff xff xff xff xff xff xff xff)))))
(T (W x00 x00 x80 x3f x00 x00 x80 x3f)
(T (W x00 x00 x00 x00 x00 x00 x00 x00)
(T (W x00 x00 x00 x00 x00 x00 x00 x00)
(L (W xff xff xff xff xff xff xff xff))
(L (W x00 x00 x00 x00 x00 x00 x00 x00)))
(T (W xff xff xff xff xff xff xff xff)
(L (W xcc x00 x00 x00 x02 x00 x00 x00))
(L (W xff xff xff xff xff xff xff xff))))
(T (W x00 x00 x00 x00 x00 x00 x00 x00)
(T (W x32 xb2 xfd xff x74 x00 x00 x00)
(L (W x00 x00 x00 x00 x00 x00 x00 x00))
(L (W x67 x72 x6f x75 x70 x5f x6c x65)))
(T (W x3d x00 x00 x00 x10 x00 x00 x00)
(L (W x00 x00 x00 x00 x00 x00 x00 x00)) E)))))))
(T (W x00 x00 x00 x00 x00 x00 x00 x00)
(T (W xff xff xff xff xff xff xff xff)
(T (W xff xff xff xff xff xff xff xff)
(T (W x50 x00 x00 x00 x44 x00 x00 x00)
(T (W x00 x00 x80 x3f x00 x00 x80 x3f)
(T (W x00 x00 x00 x00 x00 x00 x00 x00)
(T (W xff xff xff xff xff xff xff xff)
(L (W x64 x00 x00 x00 x9c x00 x00 x00))
(L (W x00 x00 x00 x00 x00 x00 x00 x00)))
(T (W x32 xb8 xfd xff x74 x00 x00 x00)
(L (W x45 x26 x22 x84 xe4 x9c xf2 xcb))
(L (W xff xff xff xff xff xff xff xff))))
(T (W xad x00 x00 x00 xff xff xff xff)
(T (W xff xff xff xff xff xff xff xff)
(L (W x00 x00 x00 x00 x3c x60 xfe xff))
(L (W xff xff xff xff xff xff xff xff)))
(T (W x18 x00 x00 x00 x10 x00 x00 x00)
(L (W x45 x26 x22 x84 xe4 x9c xf2 xcb))
(L (W x32 xf8 xff xff x74 x00 x00 x00)))))
(T (W x00 x00 x00 x00 x00 x00 x00 x00)
(T (W x7a xde x70 xa5 xf8 x3e xea x09)
(T (W xb1 xb8 x9d x5a x31 xb0 xe3 x11)
(L (W x01 x00 x00 x00 x9c x00 x00 x00))
(L (W x00 x00 x80 xbf x00 x00 x80 xbf)))
(T (W xf0 xa7 x81 x7f x6f xbd x3a xeb)
(L (W x00 x00 x00 x00 x12 xc1 xfe xff))
(L (W x00 x00 x00 x00 x00 x00 x00 x00))))
(T (W xff xff xff xff xff xff xff xff)
(T (W x18 x00 x00 x00 x10 x00 x00 x00)
(L (W xff xff xff xff xff xff xff xff))
(L (W x00 x00 x00 x00 x00 x00 x00 x00)))
(T (W x00 x00 x80 x3f x00 x00 x80 x3f)
(L (W xff xff xff xff xff xff xff xff))
(L (W x00 x00 x80 xbf x00 x00 x80 xbf))))))
(T (W x00 x00 x00 x00 xb0 x51 xfc xff)
(T (W x00 x00 x80 x3f x00 x00 x80 x3f)
(T (W x00 x00 x00 x00 x00 x00 x00 x00)
(T (W xff xff xff xff x03 x00 x00 x00)
(L (W xff xff xff xff xff xff xff xff))
(L (W x46 x53 x59 x53 x5f x4e x53 x5f)))
(T (W xff xff xff xff xff xff xff xff)
(L (W x00 x00 x00 x00 x8a xb6 xfe xff))
(L (W x00 x00 x00 x00 x82 xaf xff xff))))
(T (W xff xff xff xff xff xff xff xff)
(T (W x45 x26 x22 x84 xe4 x9c xf2 xcb)
(L (W x00 x00 x80 xbf x00 x00 x80 xbf))
(L (W xff xff xff xff xff xff xff xff)))
(T (W x45 x26 x22 x84 xe4 x9c xf2 xcb)
(L (W xff xff xff xff xff xff xff xff))
(L (W xff xff xff xff xff xff xff xff)))))
(T (W x45 x26 x22 x84 xe4 x9c xf2 xcb)
(T (W x00 x00 x00 x00 x00 x00 x00 x00)
(T (W xff xff xff xff xff xff xff xff)
(L (W x34 x00 x38 x00 x3c x00 x40 x00))
(L (W x45 x26 x22 x84 xe4 x9c xf2 xcb)))
(T (W x00 x00 x80 x3f x00 x00 x80 x3f)
(L (W x45 x26 x22 x84 xe4 x9c xf2 xcb))
(L (W x00 x00 x80 xbf x00 x00 x80 xbf))))
(T (W x5e x00 x00 x00 xff xff xff xff)
(T (W x46 x53 x59 x53 x5f x4e x53 x5f)
(L (W xff xff xff xff xff xff xff xff))
(L (W xff xff xff xff xff xff xff xff)))
(T (W xff xff xff xff xff xff xff xff)
(L (W x00 x00 x00 x00 x00 x00 x00 x00)) E)))))
(T (W x38 x38 xfc xff x00 x01 x01 x01)
(T (W x32 x60 xfc xff x74 x00 x00 x00)
(T (W x00 x00 x80 x3f x00 x00 x80 x3f)
(T (W x00 x00 x00 x00 x00 x00 x00 x00)
(T (W x64 x00 x00 x00 x9c x00 x00 x00)
(L (W x13 x00 x00 x00 x10 x00 x00 x00))
(L (W x04 x00 x00 x00 x12 x29 xff xff)))
(T (W x00 x00 x00 x00 xb0 xa9 xfd xff)
(L (W x45 x26 x22 x84 xe4 x9c xf2 xcb))
(L (W xff xff xff xff xff xff xff xff))))
(T (W xff xff xff xff xff xff xff xff)
(T (W x00 x00 x00 x00 x12 x00 x00 x00)
(L (W x45 x26 x22 x84 xe4 x9c xf2 xcb))
(L (W xff xff xff xff x9c x00 x00 x00)))
(T (W x45 x26 x22 x84 xe4 x9c xf2 xcb)
(L (W xff xff xff xff xff xff xff xff))
(L (W x68 x00 x00 x00 x5c x00 x00 x00)))))
(T (W x00 x00 x00 x00 x00 x00 x00 x00)
(T (W x00 x00 x00 x00 x00 x00 x00 x00)
(T (W xff xff xff xff xff xff xff xff)
(L (W x00 x00 x80 x3f x00 x00 x80 x3f))
(L (W x45 x26 x22 x84 xe4 x9c xf2 xcb)))
(T (W x00 x00 x00 x00 x00 x00 x00 x00)
(L (W x00 x00 x00 x00 x00 x00 x00 x00))
(L (W x00 x00 x00 x00 x00 x00 x00 x00))))
(T (W x00 x00 x00 x00 x00 x00 x00 x00)
(T (W x00 x00 x01 x01 xb4 x01 x00 x00)
(L (W x00 x00 x00 x00 x00 x00 x00 x00))
(L (W x2f x00 x00 x00 xff xff xff xff)))
(T (W x00 x00 x80 x3f x00 x00 x80 x3f)
(L (W xff xff xff xff xff xff xff xff)) E))))
(T (W x45 x26 x22 x84 xe4 x9c xf2 xcb)
(T (W x45 x26 x22 x84 xe4 x9c xf2 xcb)
(T (W x67 xa5 xc4 x40 xdf x3e x69 xaa)
(T (W xff xff xff xff xff xff xff xff)
(L (W xdf xc7 x36 x97 x85 x27 x63 x5f))
(L (W x45 x26 x22 x84 xe4 x9c xf2 xcb)))
(T (W xff xff xff xff xff xff xff xff)
(L (W x64 x01 x00 x00 xff xff xff xff))
(L (W x00 x00 x00 x00 x00 x00 x00 x00))))
(T (W xff xff xff xff xff xff xff xff)
(T (W x54 x00 x00 x00 x48 x00 x00 x00)
(L (W x00 x00 x80 xbf x00 x00 x80 xbf))
(L (W xff xff xff xff xff xff xff xff)))
(T (W x38 xf8 xfd xff x00 x01 x01 x01)
(L (W xff xff xff xff xff xff xff xff))
(L (W x45 x44 x00 x00 x00 x00 x00 x00)))))
(T (W x45 x26 x22 x84 xe4 x9c xf2 xcb)
(T (W x2b x67 xae x54 xf0 x6e x99 x85)
(T (W xb4 x01 x00 x00 xff xff xff xff)
(L (W x00 x00 x80 xbf x00 x00 x80 xbf))
(L (W x18 x00 x00 x00 x10 x00 x00 x00)))
(T (W x7a xdc xfd xff x78 x00 x00 x00)
(L (W x00 x00 x80 xbf x00 x00 x80 xbf))
(L (W x00 x00 x00 x00 x00 x00 x00 x00))))
(T (W xff xff xff xff xff xff xff xff)
(T (W x00 x00 x80 x3f x00 x00 x80 x3f)
(L (W x45 x26 x22 x84 xe4 x9c xf2 xcb))
(L (W x00 x00 x80 xbf x00 x00 x80 xbf)))
(T (W xff xff xff xff xff xff xff xff)
(L (W xff xff xff xff xff xff xff xff)) E))))))
(T (W x00 x00 x00 x00 x00 x00 x00 x00)
(T (W x7c x3f xfc xff x3c x00 x00 x00)
(T (W x00 x00 x00 x00 x00 x00 x00 x00)
(T (W xff xff xff xff xff xff xff xff)
(T (W x68 x00 x00 x00 x5c x00 x00 x00)
(T (W x45 x26 x22 x84 xe4 x9c xf2 xcb)
(L (W x00 x00 x80 x3f x00 x00 x80 x3f))
(L (W x00 x00 x80 xbf x00 x00 x80 xbf)))
(T (W x18 x00 x00 x00 x0c x00 x00 x00)
(L (W x00 x00 x00 x00 x00 x00 x00 x00))
(L (W x49 xa1 x68 x4a xeb x5f xdd x3d))))
(T (W x32 xfc xfc xff x74 x00 x00 x00)
(T (W x68 x00 x00 x00 x5c x00 x00 x00)
(L (W x00 x00 x01 x01 x2a x00 x00 x00))
(L (W x00 x00 x00 x00 x00 x00 x00 x00)))
(T (W x00 x00 x00 x00 x00 x00 x00 x00)
(L (W x30 x34 x5f x43 x4c x45 x41 x52))
(L (W x68 x00 x00 x00 x5c x00 x00 x00)))))
(T (W xff xff xff xff xff xff xff xff)
(T (W x68 x00 x00 x00 x5c x00 x00 x00)
(T (W x00 x00 x00 x00 x00 x00 x00 x00)
(L (W xd4 x4a xfe xff x29 x00 x00 x00))
(L (W x00 x00 x01 x01 x36 x00 x00 x00)))
(T (W x00 x00 x00 x00 xb0 xc5 xfd xff)
(L (W x45 x26 x22 x84 xe4 x9c xf2 xcb))
(L (W x00 x00 x80 xbf x00 x00 x80 xbf))))
(T (W x00 x00 x00 x00 x00 x00 x00 x00)
(T (W x00 x00 x80 x3f x00 x00 x80 x3f)
(L (W x24 xfb xff xff x01 x01 x01 x01))
(L (W xff xff xff xff x90 x00 x00 x00)))
(T (W xff xff xff xff xff xff xff xff)
(L (W x00 x00 x80 xbf x00 x00 x80 xbf))
(L (W x28 x00 x2c x00 x30 x00 x34 x00))))))
(T (W x01 x00 x00 x00 x04 x00 x00 x00)
(T (W xff xff xff xff xff xff xff xff)
(T (W x45 x26 x22 x84 xe4 x9c xf2 xcb)
(T (W x00 x00 x00 x00 x00 x00 x00 x00)
(L (W x00 x00 x80 x3f x00 x00 x80 x3f))
(L (W xc4 x00 x00 x00 x02 x00 x00 x00)))
(T (W x00 x00 x80 x3f x00 x00 x80 x3f)
(L (W x00 x00 x80 x3f x00 x00 x80 x3f))
(L (W x7a xb8 xff xff x78 x00 x00 x00))))
(T (W x00 x00 x80 x3f x00 x00 x80 x3f)
(T (W xff xff xff xff xff xff xff xff)
(L (W x03 x00 x00 x00 xbc x00 x00 x00))
(L (W x00 x00 x00 x00 x00 x00 x00 x00)))
(T (W x00 x00 x00 x00 x00 x00 x00 x00)
(L (W x00 x00 x80 xbf x00 x00 x80 xbf))
(L (W x00 x00 x80 xbf x00 x00 x80 xbf)))))
(T (W xb8 x00 x00 x00 xac x00 x00 x00)
(T (W x50 x00 x00 x00 x44 x00 x00 x00)
(T (W x00 x00 x80 x3f x00 x00 x80 x3f)
(L (W xff xff xff xff xff xff xff xff))
(L (W x00 x00 x00 x00 x00 x00 x00 x00)))
(T (W xd6 x00 x00 x00 xff xff xff xff)
(L (W x00 x00 x00 x00 x00 x00 x00 x00))
(L (W x00 x00 x80 xbf x00 x00 x80 xbf))))
(T (W x00 x00 x80 x3f x00 x00 x80 x3f)
(T (W x03 x00 x00 x00 xcc x00 x00 x00)
(L (W xff xff xff xff xff xff xff xff))
(L (W x00 x00 x80 xbf x00 x00 x80 xbf)))
(T (W x00 x00 x80 x3f x00 x00 x80 x3f)
(L (W x1c x00 x00 x00 x10 x00 x00 x00)) E)))))
(T (W x00 x00 x00 x00 x00 x00 x00 x00)
(T (W xd4 x52 xfc xff x3e x00 x00 x00)
(T (W xff xff xff xff xff xff xff xff)
(T (W x38 xac xfc xff x00 x01 x01 x01)
(T (W x45 x26 x22 x84 xe4 x9c xf2 xcb)
(L (W x00 x00 x80 x3f x00 x00 x80 x3f))
(L (W x68 x00 x00 x00 x5c x00 x00 x00)))
(T (W x00 x00 x00 x00 x00 x00 x00 x00)
(L (W x00 x00 x80 x3f x00 x00 x80 x3f))
(L (W x00 x00 x80 xbf x00 x00 x80 xbf))))
(T (W x00 x00 x80 x3f x00 x00 x80 x3f)
(T (W xff xff xff xff xff xff xff xff)
(L (W xff xff xff xff xff xff xff xff))
(L (W x49 xa1 x68 x4a xeb x5f xdd x3d)))
(T (W x22 x00 x00 x00 x67 x72 x6f x75)
(L (W x00 x00 x00 x00 x00 x00 x00 x00))
(L (W xad x00 x00 x00 xff xff xff xff)))))
(T (W xff xff xff xff xff xff xff xff)
(T (W x00 x00 x80 x3f x00 x00 x80 x3f)
(T (W x00 x00 x80 x3f x00 x00 x80 x3f)
(L (W x68 x00 x00 x00 x5c x00 x00 x00))
(L (W x45 x44 x00 x00 x00 x00 x00 x00)))
(T (W xff xff xff xff xff xff xff xff)
(L (W xff xff xff xff xff xff xff xff))
(L (W x00 x00 x80 xbf x00 x00 x80 xbf))))
(T (W x00 x00 x80 x3f x00 x00 x80 x3f)
(T (W x50 x00 x00 x00 x44 x00 x00 x00)
(L (W x00 x00 x00 x00 x00 x00 x00 x00))
(L (W x1c x00 x00 x00 x10 x00 x00 x00)))
(T (W x44 x00 x48 x00 x4c x00 x50 x00)
(L (W x00 x00 x00 x00 xb0 x0d xff xff)) E))))
(T (W xff xff xff xff xff xff xff xff)
(T (W xff xff xff xff xff xff xff xff)
(T (W x40 x00 x00 x00 x9c x00 x00 x00)
(T (W x00 x00 x00 x00 x00 x00 x00 x00)
(L (W x3c x00 x40 x00 x44 x00 x48 x00))
(L (W xff xff xff xff xff xff xff xff)))
(T (W x68 x00 x00 x00 x5c x00 x00 x00)
(L (W x00 x00 x80 x3f x00 x00 x80 x3f))
(L (W x58 x00 x00 x00 x4c x00 x00 x00))))
(T (W x45 x26 x22 x84 xe4 x9c xf2 xcb)
(T (W x7c x87 xfd xff x27 x00 x00 x00)
(L (W x00 x00 x00 x00 x00 x00 x00 x00))
(L (W x00 x00 x80 xbf x00 x00 x80 xbf)))
(T (W x00 x00 x00 x00 x02 x00 x00 x00)
(L (W x3c x00 x00 x00 x00 x00 x80 xbf))
(L (W x45 x26 x22 x84 xe4 x9c xf2 xcb)))))
(T (W x45 x26 x22 x84 xe4 x9c xf2 xcb)
(T (W x68 x00 x00 x00 x5c x00 x00 x00)
(T (W x50 x00 x00 x00 x44 x00 x00 x00)
(L (W x00 x00 x00 x00 x82 x5b xfe xff))
(L (W x00 x00 x00 x00 x00 x00 x00 x00)))
(T (W x00 x00 x00 x00 x00 x00 x00 x00)
(L (W x99 x47 xbb x28 xbf xcf x6a x6a))
(L (W x7c xe7 xff xff x35 x00 x00 x00))))
(T (W x00 x00 x80 x3f x00 x00 x80 x3f)
(T (W xff xff xff xff x01 x00 x00 x00)
(L (W x00 x00 x80 x3f x00 x00 x80 x3f))
(L (W x00 x00 x80 xbf x00 x00 x80 xbf)))
(T (W x00 x00 x00 x00 x00 x00 x00 x00)
(L (W x00 x00 x80 xbf x00 x00 x80 xbf)) E)))))))))
(T (W x78 x09 x02 x00 x34 x07 x02 x00)
(T (W xc8 x50 x01 x00 x6c x4e x01 x00)
(T (W x38 x20 x00 x00 x04 x1f x00 x00)
(T (W xff xff xff xff xff xff xff xff)
(T (W xff xff xff xff xff xff xff xff)
(T (W xff xff xff xff xff xff xff xff)
(T (W x18 x00 x00 x00 x0c x00 x00 x00)
(T (W x00 x00 x80 x3f x00 x00 x80 x3f)
(T (W x00 x00 x00 x00 x00 x00 x00 x00)
(L (W xff xff xff xff xff xff xff xff))
(L (W x4f x84 x6f x8b xe8 xcb x63 xb7)))
(T (W x45 x26 x22 x84 xe4 x9c xf2 xcb)
(L (W x00 x00 x80 x3f x00 x00 x80 x3f))
(L (W x00 x00 x00 x00 x00 x00 x00 x00))))
(T (W x00 x00 x00 x00 x00 x00 x00 x00)
(T (W x00 x00 x00 x00 x00 x00 x00 x00)
(L (W xff xff xff xff xff xff xff xff))
(L (W x0a x00 x00 x00 x20 x0a x00 x00)))
(T (W xff xff xff xff xff xff xff xff)
(L (W xff xff xff xff xff xff xff xff))
(L (W xff xff xff xff xff xff xff xff)))))
(T (W xb2 x95 xfc xff x74 x00 x00 x00)
(T (W x45 x26 x22 x84 xe4 x9c xf2 xcb)
(T (W xff xff xff xff xff xff xff xff)
(L (W xff xff xff xff xff xff xff xff))
(L (W x6c x00 x00 x00 x60 x00 x00 x00)))
(T (W x00 x00 x00 x00 x00 x00 x00 x00)
(L (W x00 x00 x00 x00 x00 x00 x00 x00))
(L (W x00 x00 x80 xbf x00 x00 x80 xbf))))
(T (W x00 x00 x00 x00 x00 x00 x00 x00)
(T (W xff xff xff xff xff xff xff xff)
(L (W xff xff xff xff xff xff xff xff))
(L (W x00 x00 x00 x00 x00 x00 x00 x00)))
(T (W x45 x26 x22 x84 xe4 x9c xf2 xcb)
(L (W x30 x34 x5f x43 x4c x45 x41 x52))
(L (W x6c x00 x08 x00 x00 x00 x00 x00))))))
(T (W xff xff xff xff x03 x00 x00 x00)
(T (W x00 x00 x80 x3f x00 x00 x80 x3f)
(T (W x00 x00 x00 x00 x00 x00 x00 x00)
(T (W x48 x03 x00 x00 x34 x02 x00 x00)
(L (W x00 x00 x00 x00 x00 x00 x00 x00))
(L (W x00 x00 x80 xbf x00 x00 x80 xbf)))
(T (W xff xff xff xff xff xff xff xff)
(L (W x6c x64 x5f x70 x6f x6b x65 x5f))
(L (W x00 x00 x00 x00 x00 x00 x00 x00))))
(T (W x00 x00 x00 x00 x00 x00 x00 x00)
(T (W x00 x00 x80 x3f x00 x00 x80 x3f)
(L (W x00 x00 x00 x00 xbc x6d xfe xff))
(L (W x00 x00 x01 x01 x94 x01 x00 x00)))
(T (W xff xff xff xff xff xff xff xff)
(L (W x30 x34 x5f x43 x4c x45 x41 x52))
(L (W xc4 x00 x00 x00 x01 x00 x00 x00)))))
(T (W x00 x00 x80 x3f x00 x00 x80 x3f)
(T (W x00 x00 x00 x00 x00 x00 x00 x00)
(T (W x2a x00 x00 x00 x0c x00 x00 x00)
(L (W x00 x00 x80 x3f x00 x00 x80 x3f))
(L (W xff xff xff xff xff xff xff xff)))
(T (W x00 x00 x80 x3f x00 x00 x80 x3f)
(L (W x00 x00 x80 xbf x00 x00 x80 xbf))
(L (W x00 x00 x00 x00 x00 x00 x00 x00))))
(T (W x7f x28 x34 x29 x3e x50 x68 xfc)
(T (W x00 x00 x00 x00 x00 x00 x00 x00)
(L (W xff xff xff xff xff xff xff xff))
(L (W x00 x00 x00 x00 x00 x00 x00 x00)))
(T (W x54 x00 x00 x00 x00 x00 x00 x00)
(L (W x00 x00 x00 x00 x00 x00 x00 x00)) E)))))
(T (W xff xff xff xff xff xff xff xff)
(T (W xff xff xff xff xff xff xff xff)
(T (W xb2 x7d xfc xff x74 x00 x00 x00)
(T (W x00 x00 x00 x00 x00 x00 x00 x00)
(T (W x00 x00 x00 x00 x00 x00 x00 x00)
(L (W x6f x6b x65 x5f x63 x6f x77 x61))
(L (W x00 x00 x00 x00 x00 x00 x00 x00)))
(T (W xff xff xff xff xff xff xff xff)
(L (W x4c x11 x00 x00 x30 x10 x00 x00))
(L (W x1d x00 x00 x00 x0c x00 x00 x00))))
(T (W x00 x00 x00 x00 x00 x00 x00 x00)
(T (W x4f x84 x6f x8b xe8 xcb x63 xb7)
(L (W x45 x26 x22 x84 xe4 x9c xf2 xcb))
(L (W xff xff xff xff xff xff xff xff)))
(T (W xff xff xff xff xff xff xff xff)
(L (W xff xff xff xff xff xff xff xff))
(L (W x68 x00 x00 x00 x5c x00 x00 x00)))))
(T (W xb8 x85 xfc xff x00 x01 x01 x01)
(T (W x00 x00 x00 x00 x00 x00 x00 x00)
(T (W xff xff xff xff xff xff xff xff)
(L (W xb8 x00 x00 x00 xac x00 x00 x00))
(L (W x18 x00 x00 x00 x10 x00 x00 x00)))
(T (W x00 x00 x80 x3f x00 x00 x80 x3f)
(L (W x4f x84 x6f x8b xe8 xcb x63 xb7))
(L (W x00 x00 x00 x00 x00 x00 x00 x00))))
(T (W x40 x00 x00 x00 x0c x00 x00 x00)
(T (W xfc x90 xfd xff x1d x00 x00 x00)
(L (W x00 x00 x80 xbf x00 x00 x80 xbf))
(L (W x00 x00 x00 x00 x00 x00 x00 x00)))
(T (W xb8 x05 xfe xff x00 x01 x01 x01)
(L (W x00 x00 x00 x00 x00 x00 x00 x00)) E))))
(T (W xff xff xff xff xff xff xff xff)
(T (W x68 x00 x00 x00 x5c x00 x00 x00)
(T (W x00 x00 x00 x00 x00 x00 x00 x00)
(T (W xff xff xff xff xff xff xff xff)
(L (W x72 x64 x5f x6c x76 x31 x00 x00))
(L (W x00 x00 x80 xbf x00 x00 x80 xbf)))
(T (W x00 x00 x00 x00 x00 x00 x00 x00)
(L (W x00 x00 x00 x00 x12 x00 x00 x00))
(L (W x00 x00 x00 x00 x00 x00 x00 x00))))
(T (W x54 xfc xfc xff x3c x00 x00 x00)
(T (W x18 x00 x00 x00 x0c x00 x00 x00)
(L (W x00 x00 x80 xbf x00 x00 x80 xbf))
(L (W x00 x00 x00 x00 x02 x75 xff xff)))
(T (W xff xff xff xff xff xff xff xff)
(L (W x00 x00 x00 x00 x00 x00 x00 x00))
(L (W x49 xa1 x68 x4a xeb x5f xdd x3d)))))
(T (W x00 x00 x80 x3f x00 x00 x80 x3f)
(T (W x00 x00 x00 x00 x00 x00 x00 x00)
(T (W x00 x00 x00 x00 x00 x00 x00 x00)
(L (W xb2 x6d xfe xff x74 x00 x00 x00))
(L (W xff xff xff xff xff xff xff xff)))
(T (W xc4 x00 x00 x00 x01 x00 x00 x00)
(L (W xc4 x00 x00 x00 x02 x00 x00 x00))
(L (W x30 x34 x5f x43 x4c x45 x41 x52))))
(T (W xf2 xc8 xfe xff x5d x00 x00 x00)
(T (W x00 x00 x80 x3f x00 x00 x80 x3f)
(L (W xfa x99 xfe xff x78 x00 x00 x00))
(L (W x00 x00 x00 x00 x00 x00 x00 x00)))
(T (W x2c x00 x00 x00 x10 x00 x00 x00)
(L (W x00 x00 x00 x00 x00 x00 x00 x00)) E))))))
(T (W x00 x00 x80 x3f x00 x00 x80 x3f)
(T (W x00 x00 x80 x3f x00 x00 x80 x3f)
(T (W x00 x00 x00 x00 x00 x00 x00 x00)
(T (W x00 x00 x00 x00 x00 x00 x00 x00)
(T (W xff xff xff xff xff xff xff xff)
(T (W x00 x00 x80 x3f x00 x00 x80 x3f)
(L (W x00 x00 x80 x3f x00 x00 x80 x3f))
(L (W xc4 x00 x00 x00 x02 x00 x00 x00)))
(T (W x00 x00 x00 x00 x00 x00 x00 x00)
(L (W x61 x64 x65 x72 x5f x77 x69 x6c))
(L (W x54 x00 x00 x00 x48 x00 x00 x00))))
(T (W xbc x00 x00 x00 xb0 x00 x00 x00)
(T (W xff xff xff xff x9c x00 x00 x00)
(L (W x00 x00 x00 x00 x00 x00 x00 x00))
(L (W x6c x00 x00 x00 x60 x00 x00 x00)))
(T (W x00 x00 x80 x3f x00 x00 x80 x3f)
(L (W x4f x84 x6f x8b xe8 xcb x63 xb7))
(L (W x49 xa1 x68 x4a xeb x5f xdd x3d)))))
(T (W x62 x36 xfe xff x00 x00 x01 x01)
(T (W xff xff xff xff xff xff xff xff)
(T (W x00 x00 x00 x00 x00 x00 x00 x00)
(L (W x00 x00 x00 x00 x00 x00 x00 x00))
(L (W x00 x00 x00 x00 x00 x00 x00 x00)))
(T (W xff xff xff xff xff xff xff xff)
(L (W xff xff xff xff x9c x00 x00 x00))
(L (W x1c x00 x00 x00 x10 x00 x00 x00))))
(T (W x00 x00 x80 x3f x00 x00 x80 x3f)
(T (W x54 x00 x00 x00 x48 x00 x00 x00)
(L (W x18 x00 x00 x00 x0c x00 x00 x00))
(L (W xb0 x00 x00 x00 x0a x00 x00 x00)))
(T (W x00 x00 x00 x00 x00 x00 x00 x00)
(L (W x35 x00 x00 x00 x38 x00 x00 x00))
(L (W x3c x00 x40 x00 x2a x00 x00 x00))))))
(T (W x00 x00 x00 x00 x00 x00 x00 x00)
(T (W x00 x00 x00 x00 x00 x00 x00 x00)
(T (W xff xff xff xff xff xff xff xff)
(T (W x45 x26 x22 x84 xe4 x9c xf2 xcb)
(L (W x18 x00 x00 x00 x0c x00 x00 x00))
(L (W xff xff xff xff xff xff xff xff)))
(T (W x00 x00 x80 x3f x00 x00 x80 x3f)
(L (W xbc x00 x00 x00 x64 x00 x00 x00))
(L (W xff xff xff xff xff xff xff xff))))
(T (W x50 x00 x00 x00 x44 x00 x00 x00)
(T (W x00 x00 x00 x00 x00 x00 x00 x00)
(L (W xff xff xff xff xff xff xff xff))
(L (W x6c x00 x00 x00 x60 x00 x00 x00)))
(T (W x00 x00 x80 x3f x00 x00 x80 x3f)
(L (W x68 x00 x00 x00 x5c x00 x00 x00))
(L (W xff xff xff xff xb0 x00 x00 x00)))))
(T (W xff xff xff xff xff xff xff xff)
(T (W xff xff xff xff xff xff xff xff)
(T (W x68 x00 x00 x00 x5c x00 x00 x00)
(L (W x02 x00 x00 x00 x30 x01 x00 x00))
(L (W x45 x26 x22 x84 xe4 x9c xf2 xcb)))
(T (W x4c x45 x41 x52 x45 x44 x00 x00)
(L (W x45 x44 x00 x00 x00 x00 x00 x00))
(L (W x00 x00 x80 xbf x00 x00 x80 xbf))))
(T (W xb2 x29 xfd xff x74 x00 x00 x00)
(T (W xff xff xff xff xff xff xff xff)
(L (W xff xff xff xff xb0 x00 x00 x00))
(L (W x45 x26 x22 x84 xe4 x9c xf2 xcb)))
(T (W x45 x26 x22 x84 xe4 x9c xf2 xcb)
(L (W xff xff xff xff xb0 x00 x00 x00)) E)))))
(T (W x45 x26 x22 x84 xe4 x9c xf2 xcb)
(T (W x00 x00 x00 x00 x00 x00 x00 x00)
(T (W x00 x00 x00 x00 x00 x00 x00 x00)
(T (W xff xff xff xff xff xff xff xff)
(T (W x00 x00 x80 x3f x00 x00 x80 x3f)
(L (W x64 x00 x00 x00 x9c x00 x00 x00))
(L (W xff xff xff xff x9c x00 x00 x00)))
(T (W x00 x00 x80 x3f x00 x00 x80 x3f)
(L (W x00 x00 x00 x00 x12 x00 x00 x00))
(L (W x00 x00 x00 x00 x30 xab xff xff))))
(T (W xb8 xe9 xfc xff x00 x01 x01 x01)
(T (W xff xff xff xff xff xff xff xff)
(L (W x45 x44 x00 x00 x00 x00 x00 x00))
(L (W x54 x00 x00 x00 x48 x00 x00 x00)))
(T (W x00 x00 x00 x00 x00 x00 x00 x00)
(L (W x54 x00 x00 x00 x48 x00 x00 x00))
(L (W x4f x84 x6f x8b xe8 xcb x63 xb7)))))
(T (W xff xff xff xff xff xff xff xff)
(T (W xff xff xff xff xff xff xff xff)
(T (W xb8 x49 xfd xff x00 x01 x01 x01)
(L (W x00 x00 x00 x00 x00 x00 x00 x00))
(L (W x4f x84 x6f x8b xe8 xcb x63 xb7)))
(T (W xd2 xf2 xfd xff x00 x00 x01 x01)
(L (W xff xff xff xff xff xff xff xff))
(L (W xa4 x00 x00 x00 x1e x00 x00 x00))))
(T (W x45 x26 x22 x84 xe4 x9c xf2 xcb)
(T (W x18 x00 x00 x00 x10 x00 x00 x00)
(L (W x00 x00 x00 x00 x00 x00 x00 x00))
(L (W x18 x00 x00 x00 x0c x00 x00 x00)))
(T (W x00 x00 x00 x00 x02 x00 x00 x00)
(L (W x00 x00 x00 x00 x30 x0b xff xff)) E))))
(T (W x00 x00 x00 x00 x00 x00 x00 x00)
(T (W x40 x00 x00 x00 x10 x00 x00 x00)
(T (W xff xff xff xff xff xff xff xff)
(T (W x00 x00 x80 x3f x00 x00 x80 x3f)
(L (W x18 x00 x00 x00 x10 x00 x00 x00))
(L (W xb4 x01 x00 x00 xff xff xff xff)))
(T (W xb8 xb9 xfd xff x00 x01 x01 x01)
(L (W x18 x00 x00 x00 x0c x00 x00 x00))
(L (W xff xff xff xff xff xff xff xff))))
(T (W x00 x00 x80 x3f x00 x00 x80 x3f)
(T (W x00 x00 x00 x00 x00 x00 x00 x00)
(L (W x00 x00 x00 x00 x00 x00 x00 x00))
(L (W xb8 x79 xff xff x00 x01 x01 x01)))
(T (W x00 x00 x00 x00 x00 x00 x00 x00)
(L (W x45 x26 x22 x84 xe4 x9c xf2 xcb))
(L (W x74 x00 x0c x00 x00 x00 x00 x00)))))
(T (W xff xff xff xff xff xff xff xff)
(T (W x64 x00 x00 x00 x9c x00 x00 x00)
(T (W x45 x26 x22 x84 xe4 x9c xf2 xcb)
(L (W x00 x00 x00 x00 x00 x00 x00 x00))
(L (W x00 x00 x80 xbf x00 x00 x80 xbf)))
(T (W x00 x00 x00 x00 x00 x00 x00 x00)
(L (W x00 x00 x00 x00 x00 x00 x00 x00))
(L (W x00 x00 x00 x00 x00 x00 x00 x00))))
(T (W xb8 x19 xfd xff x00 x01 x01 x01)
(T (W x00 x00 x00 x00 x00 x00 x00 x00)
(L (W x00 x00 x80 x3f x00 x00 x80 x3f))
(L (W x00 x00 x80 xbf x00 x00 x80 xbf)))
(T (W x00 x00 x80 x3f x00 x00 x80 x3f)
(L (W x45 x26 x22 x84 xe4 x9c xf2 xcb)) E)))))))
(T (W x45 x26 x22 x84 xe4 x9c xf2 xcb)
(T (W x00 x00 x00 x00 x00 x00 x00 x00)
(T (W x00 x00 x00 x00 x00 x00 x00 x00)
(T (W xf2 xf2 xfd xff xcb x01 x00 x00)
(T (W xff xff xff xff xff xff xff xff)
(T (W x00 x00 x00 x00 x30 xa1 xfc xff)
(T (W x00 x00 x00 x00 x00 x00 x00 x00)
(L (W x00 x00 x00 x00 x00 x00 x00 x00))
(L (W x00 x00 x80 xbf x00 x00 x80 xbf)))
(T (W x9d x01 x00 x00 xff xff xff xff)
(L (W xff xff xff xff xff xff xff xff))
(L (W x00 x00 x80 xbf x00 x00 x80 xbf))))
(T (W x00 x00 x80 x3f x00 x00 x80 x3f)
(T (W x00 x00 x80 x3f x00 x00 x80 x3f)
(L (W x00 x00 x00 x00 x6a x5d xfe xff))
(L (W x00 x00 x80 xbf x00 x00 x80 xbf)))
(T (W x00 x00 x00 x00 x00 x00 x00 x00)
(L (W x45 x44 x00 x00 x00 x00 x00 x00))
(L (W x00 x00 x00 x00 x00 x00 x00 x00)))))
(T (W x18 x00 x00 x00 x10 x00 x00 x00)
(T (W x00 x00 x80 x3f x00 x00 x80 x3f)
(T (W x00 x00 x80 x3f x00 x00 x80 x3f)
(L (W x54 x46 xfe xff x2e x00 x00 x00))
(L (W xff xff xff xff xff xff xff xff)))
(T (W x00 x00 x80 x3f x00 x00 x80 x3f)
(L (W x00 x00 x80 xbf x00 x00 x80 xbf))
(L (W x54 x00 x00 x00 x48 x00 x00 x00))))
(T (W x00 x00 x80 x3f x00 x00 x80 x3f)
(T (W x4c x45 x41 x52 x45 x44 x00 x00)
(L (W x00 x00 x00 x00 x00 x00 x00 x00))
(L (W x54 x00 x00 x00 x48 x00 x00 x00)))
(T (W xff xff xff xff xff xff xff xff)
(L (W x4f x84 x6f x8b xe8 xcb x63 xb7))
(L (W xff xff xff xff xff xff xff xff))))))
(T (W x00 x00 x00 x00 x00 x00 x00 x00)
(T (W xff xff xff xff xff xff xff xff)
(T (W x50 x00 x00 x00 x44 x00 x00 x00)
(T (W x00 x00 x00 x00 x00 x00 x00 x00)
(L (W x00 x00 x80 x3f x00 x00 x80 x3f))
(L (W xfa x33 xff xff x78 x00 x00 x00)))
(T (W x00 x00 x00 x00 x00 x00 x00 x00)
(L (W x00 x00 x80 x3f x00 x00 x80 x3f))
(L (W x00 x00 x80 xbf x00 x00 x80 xbf))))
(T (W x45 x26 x22 x84 xe4 x9c xf2 xcb)
(T (W xff xff xff xff xbc x00 x00 x00)
(L (W xff xff xff xff xff xff xff xff))
(L (W x00 x00 x00 x00 x00 x00 x00 x00)))
(T (W x00 x00 x00 x00 x00 x00 x00 x00)
(L (W x49 xa1 x68 x4a xeb x5f xdd x3d))
(L (W x2c x00 x30 x00 x34 x00 x38 x00)))))
(T (W xc0 x00 x00 x00 xb4 x00 x00 x00)
(T (W x6c x00 x00 x00 x60 x00 x00 x00)
(T (W x00 x00 x80 x3f x00 x00 x80 x3f)
(L (W x1b x00 x00 x00 x46 x4d x41 x50))
(L (W x00 x00 x00 x00 x00 x00 x00 x00)))
(T (W xff xff xff xff xff xff xff xff)
(L (W xff xff xff xff xff xff xff xff))
(L (W xff xff xff xff xff xff xff xff))))
(T (W x45 x26 x22 x84 xe4 x9c xf2 xcb)
(T (W xfa x93 xfd xff x78 x00 x00 x00)
(L (W x00 x00 x00 x00 x00 x00 x00 x00))
(L (W x00 x00 x80 xbf x00 x00 x80 xbf)))
(T (W x00 x00 x80 x3f x00 x00 x80 x3f)
(L (W x00 x00 x80 xbf x00 x00 x80 xbf)) E)))))
(T (W xa2 xba x1b x07 x43 x51 x05 x39)
(T (W x00 x00 x00 x00 x00 x00 x00 x00)
(T (W xff xff xff xff xff xff xff xff)
(T (W x45 x26 x22 x84 xe4 x9c xf2 xcb)
(T (W x00 x00 x00 x00 x00 x00 x00 x00)
(L (W x00 x00 x80 x3f x00 x00 x80 x3f))
(L (W x00 x00 x80 xbf x00 x00 x80 xbf)))
(T (W x00 x00 x00 x00 x00 x00 x00 x00)
(L (W xbc x00 x00 x00 x0a x00 x00 x00))
(L (W x00 x00 x80 xbf x00 x00 x80 xbf))))
(T (W x00 x00 x00 x00 x00 x00 x00 x00)
(T (W xb8 x67 xfd xff x00 x01 x01 x01)
(L (W xff xff xff xff xff xff xff xff))
(L (W x30 x34 x5f x43 x4c x45 x41 x52)))
(T (W x86 x4a x2b x97 x85 x98 x55 x5f)
(L (W x00 x00 x00 x00 x00 x00 x00 x00))
(L (W xff xff xff xff xff xff xff xff)))))
(T (W xb8 x00 x00 x00 xac x00 x00 x00)
(T (W x50 x00 x00 x00 x44 x00 x00 x00)
(T (W x00 x00 x00 x00 x00 x00 x00 x00)
(L (W xff xff xff xff xff xff xff xff))
(L (W x00 x00 x00 x00 x00 x00 x00 x00)))
(T (W x18 x00 x00 x00 x0c x00 x00 x00)
(L (W x45 x26 x22 x84 xe4 x9c xf2 xcb))
(L (W x2c xc9 xff xff x72 xc4 xff xff))))
(T (W x00 x00 x00 x00 x30 x09 xfd xff)
(T (W x00 x00 x80 x3f x00 x00 x80 x3f)
(L (W x03 x00 x00 x00 xb4 x00 x00 x00))
(L (W x00 x00 x80 xbf x00 x00 x80 xbf)))
(T (W xff xff xff xff xff xff xff xff)
(L (W x00 x00 x80 xbf x00 x00 x80 xbf)) E))))
(T (W x48 x03 x00 x00 x34 x02 x00 x00)
(T (W xff xff xff xff x04 x00 x00 x00)
(T (W x00 x00 x80 x3f x00 x00 x80 x3f)
(T (W x00 x00 x00 x00 x00 x00 x00 x00)
(L (W x00 x00 x80 x3f x00 x00 x80 x3f))
(L (W xff xff xff xff xc8 x00 x00 x00)))
(T (W x00 x00 x80 x3f x00 x00 x80 x3f)
(L (W x00 x00 x80 x3f x00 x00 x80 x3f))
(L (W x68 x00 x00 x00 x5c x00 x00 x00))))
(T (W x00 x00 x80 x3f x00 x00 x80 x3f)
(T (W xff xff xff xff xff xff xff xff)
(L (W xff xff xff xff xff xff xff xff))
(L (W x4f x84 x6f x8b xe8 xcb x63 xb7)))
(T (W x00 x00 x00 x00 x02 x00 x00 x00)
(L (W x00 x00 x80 xbf x00 x00 x80 xbf))
(L (W x54 x00 x00 x00 x48 x00 x00 x00)))))
(T (W xff xff xff xff x03 x00 x00 x00)
(T (W x00 x00 x80 x3f x00 x00 x80 x3f)
(T (W x00 x00 x80 x3f x00 x00 x80 x3f)
(L (W xff xff xff xff xff xff xff xff))
(L (W x30 x34 x5f x43 x4c x45 x41 x52)))
(T (W x04 x00 x00 x00 x92 xd8 xfd xff)
(L (W xff xff xff xff xff xff xff xff))
(L (W x18 x00 x00 x00 x0c x00 x00 x00))))
(T (W x00 x00 x00 x00 x00 x00 x00 x00)
(T (W xff xff xff xff xff xff xff xff)
(L (W x6b x65 x5f x77 x61 x72 x6c x69))
(L (W xff xff xff xff xff xff xff xff)))
(T (W x00 x00 x00 x00 x00 x00 x00 x00)
(L (W x00 x00 x80 xbf x00 x00 x80 xbf)) E))))))
(T (W xb2 x43 xfc xff x74 x00 x00 x00)
(T (W x00 x00 x80 x3f x00 x00 x80 x3f)
(T (W xb8 x43 xfc xff x00 x01 x01 x01)
(T (W x00 x00 x80 x3f x00 x00 x80 x3f)
(T (W x00 x00 x00 x00 x00 x00 x00 x00)
(T (W xff xff xff xff x03 x00 x00 x00)
(L (W xff xff xff xff xff xff xff xff))
(L (W xff xff xff xff xff xff xff xff)))
(T (W x00 x00 x80 x3f x00 x00 x80 x3f)
(L (W x18 x00 x00 x00 x0c x00 x00 x00))
(L (W x03 x00 x00 x00 xd8 x00 x00 x00))))
(T (W x62 xa3 xff xff x00 x00 x01 x01)
(T (W xe2 x7e xfd xff x00 x00 x00 x01)
(L (W x45 x26 x22 x84 xe4 x9c xf2 xcb))
(L (W xff xff xff xff x90 x00 x00 x00)))
(T (W x45 x26 x22 x84 xe4 x9c xf2 xcb)
(L (W x6c x00 x00 x00 x60 x00 x00 x00))
(L (W x00 x01 x01 x01 x2b x01 x00 x00)))))
(T (W x45 x26 x22 x84 xe4 x9c xf2 xcb)
(T (W x62 x78 xfe xff x00 x00 x01 x01)
(T (W xb2 x5b xfd xff x74 x00 x00 x00)
(L (W x00 x00 x80 x3f x00 x00 x80 x3f))
(L (W x00 x00 x80 xbf x00 x00 x80 xbf)))
(T (W x00 x00 x00 x00 x00 x00 x00 x00)
(L (W x00 x00 x00 x00 x00 x00 x00 x00))
(L (W xff xff xff xff xff xff xff xff))))
(T (W xb8 x00 x00 x00 xac x00 x00 x00)
(T (W xff xff xff xff xff xff xff xff)
(L (W x00 x00 x00 x00 x01 x00 x00 x00))
(L (W x30 x34 x5f x43 x4c x45 x41 x52)))
(T (W x00 x00 x80 x3f x00 x00 x80 x3f)
(L (W xff xff xff xff xff xff xff xff))
(L (W x4f x84 x6f x8b xe8 xcb x63 xb7))))))
(T (W x00 x00 x80 x3f x00 x00 x80 x3f)
(T (W x00 x00 x80 x3f x00 x00 x80 x3f)
(T (W x00 x00 x00 x00 x00 x00 x00 x00)
(T (W x18 x00 x00 x00 x0c x00 x00 x00)
(L (W xff xff xff xff xff xff xff xff))
(L (W x00 x00 x00 x00 x00 x00 x00 x00)))
(T (W xff xff xff xff xff xff xff xff)
(L (W xff xff xff xff xff xff xff xff))
(L (W x00 x00 x00 x00 x92 xb4 xff xff))))
(T (W xff xff xff xff xff xff xff xff)
(T (W x00 x00 x80 x3f x00 x00 x80 x3f)
(L (W x00 x00 x00 x00 x00 x00 x00 x00))
(L (W xa8 x00 x00 x00 x64 x00 x00 x00)))
(T (W xb8 xf3 xfd xff x00 x01 x01 x01)
(L (W xff xff xff xff xff xff xff xff))
(L (W xff xff xff xff xff xff xff xff)))))
(T (W x00 x00 x00 x00 x00 x00 x00 x00)
(T (W xc8 x00 x00 x00 xff xff xff xff)
(T (W xff xff xff xff xff xff xff xff)
(L (W x00 x00 x00 x00 x00 x00 x00 x00))
(L (W x50 x00 x00 x00 x44 x00 x00 x00)))
(T (W x00 x00 x80 x3f x00 x00 x80 x3f)
(L (W x00 x00 x80 xbf x00 x00 x80 xbf))
(L (W xff xff xff xff xff xff xff xff))))
(T (W xff xff xff xff xff xff xff xff)
(T (W x00 x00 x00 x00 x00 x00 x00 x00)
(L (W x00 x00 x00 x00 x00 x00 x00 x00))
(L (W xff xff xff xff xff xff xff xff)))
(T (W xff xff xff xff xff xff xff xff)
(L (W x64 x04 x00 x00 x60 x03 x00 x00)) E)))))
(T (W xb2 x53 xfc xff x74 x00 x00 x00)
(T (W x00 x00 x80 x3f x00 x00 x80 x3f)
(T (W x00 x00 x80 x3f x00 x00 x80 x3f)
(T (W x00 x00 x00 x00 x00 x00 x00 x00)
(T (W xff xff xff xff xff xff xff xff)
(L (W xff xff xff xff xff xff xff xff))
(L (W x00 x00 x00 x00 x02 x2b xff xff)))
(T (W x45 x26 x22 x84 xe4 x9c xf2 xcb)
(L (W xff xff xff xff xff xff xff xff))
(L (W xff xff xff xff xff xff xff xff))))
(T (W xff xff xff xff xff xff xff xff)
(T (W x00 x00 x00 x00 x00 x00 x00 x00)
(L (W x00 x00 x00 x00 x00 x00 x00 x00))
(L (W x03 x00 x00 x00 xd8 x00 x00 x00)))
(T (W x00 x00 x80 x3f x00 x00 x80 x3f)
(L (W xb0 x00 x00 x00 x1e x00 x00 x00))
(L (W x00 x00 x80 xbf x00 x00 x80 xbf)))))
(T (W x00 x00 x00 x00 x00 x00 x00 x00)
(T (W xff xff xff xff xff xff xff xff)
(T (W xff xff xff xff xff xff xff xff)
(L (W x62 x00 x00 x00 x00 x00 x01 x01))
(L (W x54 x00 x00 x00 x48 x00 x00 x00)))
(T (W x45 x26 x22 x84 xe4 x9c xf2 xcb)
(L (W x00 x00 x00 x00 x00 x00 x00 x00))
(L (W xff xff xff xff xff xff xff xff))))
(T (W xff xff xff xff xff xff xff xff)
(T (W xb4 x01 x00 x00 xff xff xff xff)
(L (W x45 x26 x22 x84 xe4 x9c xf2 xcb))
(L (W x64 x04 x00 x00 x60 x03 x00 x00)))
(T (W x00 x00 x00 x00 x00 x00 x00 x00)
(L (W x00 x00 x00 x00 x00 x00 x00 x00)) E))))
(T (W x45 x26 x22 x84 xe4 x9c xf2 xcb)
(T (W x00 x00 x00 x00 x00 x00 x00 x00)
(T (W x58 xb8 x66 xb0 xba xf5 x1e x7c)
(T (W xb2 x53 xfd xff x74 x00 x00 x00)
(L (W x45 x26 x22 x84 xe4 x9c xf2 xcb))
(L (W x49 xa1 x68 x4a xeb x5f xdd x3d)))
(T (W x01 x00 x00 x00 xff xff xff xff)
(L (W xff xff xff xff xff xff xff xff))
(L (W x00 x00 x00 x00 xaa xca xff xff))))
(T (W xff xff xff xff xff xff xff xff)
(T (W x00 x00 x80 x3f x00 x00 x80 x3f)
(L (W xb2 x93 xfe xff x74 x00 x00 x00))
(L (W xff xff xff xff xff xff xff xff)))
(T (W x00 x00 x80 x3f x00 x00 x80 x3f)
(L (W xc8 x00 x00 x00 xff xff xff xff))
(L (W xd0 xf6 xff xff x00 x00 x2a x00)))))
(T (W x3e x00 x00 x00 x0c x00 x00 x00)
(T (W xea x99 xff xff xd5 x01 x00 x00)
(T (W xff xff xff xff xff xff xff xff)
(L (W x00 x00 x80 xbf x00 x00 x80 xbf))
(L (W x1a x00 x00 x00 x1d x00 x00 x00)))
(T (W x18 x00 x00 x00 x10 x00 x00 x00)
(L (W x00 x00 x80 xbf x00 x00 x80 xbf))
(L (W x00 x00 x80 xbf x00 x00 x80 xbf))))
(T (W xff xff xff xff xff xff xff xff)
(T (W x00 x00 x80 x3f x00 x00 x80 x3f)
(L (W xff xff xff xff xff xff xff xff))
(L (W xff xff xff xff xff xff xff xff)))
(T (W x64 x00 x00 x00 x9c x00 x00 x00)
(L (W xff xff xff xff xff xff xff xff)) E))))))))
(T (W xa0 xb0 x00 x00 x54 xae x00 x00)
(T (W x00 x00 x80 x3f x00 x00 x80 x3f)
(T (W xfa x60 xda xdd x45 x35 x50 x65)
(T (W x00 x00 x00 x00 x02 xf0 xfe xff)
(T (W xff xff xff xff xff xff xff xff)
(T (W xff xff xff xff xff xff xff xff)
(T (W x6c x00 x00 x00 x60 x00 x00 x00)
(T (W x00 x00 x00 x00 x00 x00 x00 x00)
(L (W x1e x00 x00 x00 x10 x00 x00 x00))
(L (W x00 x00 x80 xbf x00 x00 x80 xbf)))
(T (W xff xff xff xff xbc x00 x00 x00)
(L (W x18 x00 x00 x00 x0c x00 x00 x00))
(L (W x45 x26 x22 x84 xe4 x9c xf2 xcb))))
(T (W x00 x00 x00 x00 x00 x00 x00 x00)
(T (W x00 x00 x80 x3f x00 x00 x80 x3f)
(L (W xff xff xff xff xff xff xff xff))
(L (W x00 x00 x00 x00 x00 x00 x00 x00)))
(T (W x02 x00 x00 x00 x20 x01 x00 x00)
(L (W xff xff xff xff xff xff xff xff))
(L (W xff xff xff xff xff xff xff xff)))))
(T (W x45 x26 x22 x84 xe4 x9c xf2 xcb)
(T (W x00 x00 x80 x3f x00 x00 x80 x3f)
(T (W x00 x00 x62 x00 x70 x00 x04 x00)
(L (W xff xff xff xff xff xff xff xff))
(L (W x18 x00 x00 x00 x10 x00 x00 x00)))
(T (W x49 xa1 x68 x4a xeb x5f xdd x3d)
(L (W x00 x00 x80 xbf x00 x00 x80 xbf))
(L (W x00 x00 x80 xbf x00 x00 x80 xbf))))
(T (W x00 x00 x00 x00 x00 x00 x00 x00)
(T (W x00 x00 x01 x01 xb6 x01 x00 x00)
(L (W x00 x00 x00 x00 x00 x00 x00 x00))
(L (W x00 x00 x80 xbf x00 x00 x80 xbf)))
(T (W xff xff xff xff xff xff xff xff)
(L (W x00 x00 x00 x00 x00 x00 x00 x00))
(L (W x00 x00 x80 xbf x00 x00 x80 xbf))))))
(T (W xbd x01 x00 x00 xff xff xff xff)
(T (W x18 x00 x00 x00 x0c x00 x00 x00)
(T (W x00 x00 x80 x3f x00 x00 x80 x3f)
(T (W x00 x00 x00 x00 x00 x00 x00 x00)
(L (W x00 x00 x00 x00 x00 x00 x00 x00))
(L (W x00 x00 x80 xbf x00 x00 x80 xbf)))
(T (W x30 x34 x5f x43 x4c x45 x41 x52)
(L (W x00 x00 x80 x3f x00 x00 x80 x3f))
(L (W x00 x00 x80 xbf x00 x00 x80 xbf))))
(T (W x00 x00 x00 x00 x00 x00 x00 x00)
(T (W x45 x26 x22 x84 xe4 x9c xf2 xcb)
(L (W xb4 x00 x00 x00 x64 x00 x00 x00))
(L (W x46 x53 x59 x53 x5f x4e x53 x5f)))
(T (W x00 x00 x00 x00 x02 x00 x00 x00)
(L (W x00 x00 x00 x00 x00 x00 x00 x00))
(L (W xff xff xff xff xff xff xff xff)))))
(T (W x1d x00 x00 x00 x9c x00 x00 x00)
(T (W x00 x00 x80 x3f x00 x00 x80 x3f)
(T (W x00 x00 x00 x00 x00 x00 x00 x00)
(L (W xff xff xff xff xff xff xff xff))
(L (W x00 x00 x00 x00 xaa x4a xff xff)))
(T (W x03 x00 x00 x00 xd4 x00 x00 x00)
(L (W x18 x00 x00 x00 x0c x00 x00 x00))
(L (W x00 x00 x80 xbf x00 x00 x80 xbf))))
(T (W x00 x00 x00 x00 x00 x00 x00 x00)
(T (W x00 x00 x80 x3f x00 x00 x80 x3f)
(L (W x6c x76 x32 x00 x22 x00 x00 x00))
(L (W x49 xa1 x68 x4a xeb x5f xdd x3d)))
(T (W x00 x00 x00 x00 x00 x00 x00 x00)
(L (W x00 x00 x80 xbf x00 x00 x80 xbf)) E)))))
(T (W xff xff xff xff xff xff xff xff)
(T (W xff xff xff xff xff xff xff xff)
(T (W xff xff xff xff x04 x00 x00 x00)
(T (W x00 x00 x80 x3f x00 x00 x80 x3f)
(T (W x00 x00 x00 x00 x00 x00 x00 x00)
(L (W x00 x00 x80 x3f x00 x00 x80 x3f))
(L (W x00 x00 x00 x00 x00 x00 x00 x00)))
(T (W xff xff xff xff xff xff xff xff)
(L (W x00 x00 x80 x3f x00 x00 x80 x3f))
(L (W x00 x00 x00 x00 x00 x00 x00 x00))))
(T (W x00 x00 x00 x00 x00 x00 x00 x00)
(T (W x00 x00 x80 x3f x00 x00 x80 x3f)
(L (W x18 x00 x00 x00 x0c x00 x00 x00))
(L (W xff xff xff xff xff xff xff xff)))
(T (W xff xff xff xff xff xff xff xff)
(L (W x00 x00 x00 x00 x00 x00 x00 x00))
(L (W x03 x00 x00 x00 xd0 x00 x00 x00)))))
(T (W x18 x00 x00 x00 x10 x00 x00 x00)
(T (W x00 x00 x80 x3f x00 x00 x80 x3f)
(T (W x04 x00 x00 x00 x42 x39 xff xff)
(L (W xff xff xff xff xff xff xff xff))
(L (W xff xff xff xff xff xff xff xff)))
(T (W xb2 xde xfd xff x74 x00 x00 x00)
(L (W x00 x00 x80 xbf x00 x00 x80 xbf))
(L (W x3c x00 x00 x00 x00 x00 x80 xbf))))
(T (W x00 x00 x00 x00 x00 x00 x00 x00)
(T (W x00 x00 x00 x00 x00 x00 x00 x00)
(L (W x68 x00 x00 x00 x5c x00 x00 x00))
(L (W x45 x26 x22 x84 xe4 x9c xf2 xcb)))
(T (W x45 x26 x22 x84 xe4 x9c xf2 xcb)
(L (W x00 x00 x00 x00 x00 x00 x00 x00)) E))))
(T (W xff xff xff xff xff xff xff xff)
(T (W xb2 x8e xfc xff x74 x00 x00 x00)
(T (W x00 x00 x00 x00 x00 x00 x00 x00)
(T (W x18 x00 x00 x00 x10 x00 x00 x00)
(L (W x00 x00 x80 x3f x00 x00 x80 x3f))
(L (W x45 x26 x22 x84 xe4 x9c xf2 xcb)))
(T (W x00 x00 x00 x00 x00 x00 x00 x00)
(L (W x45 x26 x22 x84 xe4 x9c xf2 xcb))
(L (W x00 x00 x80 xbf x00 x00 x80 xbf))))
(T (W x45 x26 x22 x84 xe4 x9c xf2 xcb)
(T (W xff xff xff xff xff xff xff xff)
(L (W xff xff xff xff x9c x00 x00 x00))
(L (W x00 x00 x00 x00 x00 x00 x00 x00)))
(T (W xff xff xff xff xff xff xff xff)
(L (W x49 xa1 x68 x4a xeb x5f xdd x3d))
(L (W x00 x00 x80 xbf x00 x00 x80 xbf)))))
(T (W x50 x00 x00 x00 x44 x00 x00 x00)
(T (W x00 x00 x00 x00 x00 x00 x00 x00)
(T (W x00 x00 x00 x00 x00 x00 x00 x00)
(L (W xff xff xff xff xff xff xff xff))
(L (W x00 x00 x01 x01 x94 x01 x00 x00)))
(T (W xff xff xff xff xff xff xff xff)
(L (W xff xff xff xff xff xff xff xff))
(L (W x00 x00 x00 x00 x00 x00 x00 x00))))
(T (W x00 x00 x00 x00 x00 x00 x00 x00)
(T (W xff xff xff xff xac x00 x00 x00)
(L (W xff xff xff xff xb0 x00 x00 x00))
(L (W x45 x26 x22 x84 xe4 x9c xf2 xcb)))
(T (W x00 x00 x00 x00 x00 x00 x00 x00)
(L (W x49 xa1 x68 x4a xeb x5f xdd x3d)) E))))))
(T (W x00 x00 x80 x3f x00 x00 x80 x3f)
(T (W x00 x00 x80 x3f x00 x00 x80 x3f)
(T (W x00 x00 x80 x3f x00 x00 x80 x3f)
(T (W x45 x26 x22 x84 xe4 x9c xf2 xcb)
(T (W x63 x01 x00 x00 xff xff xff xff)
(T (W x01 x00 x00 x00 xa0 x00 x00 x00)
(L (W x00 x00 x80 x3f x00 x00 x80 x3f))
(L (W xff xff xff xff xff xff xff xff)))
(T (W x00 x00 x80 x3f x00 x00 x80 x3f)
(L (W x00 x00 x80 x3f x00 x00 x80 x3f))
(L (W x18 x00 x00 x00 x10 x00 x00 x00))))
(T (W xff xff xff xff xff xff xff xff)
(T (W xff xff xff xff xff xff xff xff)
(L (W x00 x00 x00 x00 x00 x00 x00 x00))
(L (W x00 x00 x00 x00 xbc x62 xff xff)))
(T (W x00 x00 x80 x3f x00 x00 x80 x3f)
(L (W x00 x00 x80 xbf x00 x00 x80 xbf))
(L (W x00 x00 x80 xbf x00 x00 x80 xbf)))))
(T (W x00 x00 x00 x00 x00 x00 x00 x00)
(T (W xff xff xff xff xff xff xff xff)
(T (W x50 x00 x00 x00 x44 x00 x00 x00)
(L (W x00 x00 x80 x3f x00 x00 x80 x3f))
(L (W x49 xa1 x68 x4a xeb x5f xdd x3d)))
(T (W xff xff xff xff xff xff xff xff)
(L (W xff xff xff xff xff xff xff xff))
(L (W xff xff xff xff xff xff xff xff))))
(T (W x50 x00 x00 x00 x44 x00 x00 x00)
(T (W x45 x26 x22 x84 xe4 x9c xf2 xcb)
(L (W xff xff xff xff xff xff xff xff))
(L (W x00 x00 x01 x01 x2a x00 x00 x00)))
(T (W x00 x00 x00 x00 x00 x00 x00 x00)
(L (W xff xff xff xff xff xff xff xff))
(L (W x00 x00 x01 x01 xc8 x00 x00 x00))))))
(T (W x00 x00 x00 x00 x00 x00 x00 x00)
(T (W x00 x00 x00 x00 x00 x00 x00 x00)
(T (W x62 x72 xff xff x00 x00 x01 x01)
(T (W x00 x00 x80 x3f x00 x00 x80 x3f)
(L (W x64 x00 x00 x00 x9c x00 x00 x00))
(L (W x00 x00 x00 x00 x00 x00 x00 x00)))
(T (W xff xff xff xff xb0 x00 x00 x00)
(L (W xff xff xff xff xff xff xff xff))
(L (W xff xff xff xff xff xff xff xff))))
(T (W x64 x00 x00 x00 x9c x00 x00 x00)
(T (W x00 x00 x00 x00 x00 x00 x00 x00)
(L (W x00 x00 x00 x00 x00 x00 x00 x00))
(L (W x00 x00 x00 x00 xbc x72 xff xff)))
(T (W x00 x00 x80 x3f x00 x00 x80 x3f)
(L (W xff xff xff xff x9c x00 x00 x00))
(L (W xff xff xff xff xff xff xff xff)))))
(T (W x62 x47 xfe xff x00 x00 x01 x01)
(T (W xff xff xff xff xff xff xff xff)
(T (W xff xff xff xff xff xff xff xff)
(L (W x00 x00 x00 x00 x12 x00 x00 x00))
(L (W x00 x00 x80 xbf x00 x00 x80 xbf)))
(T (W x00 x00 x00 x00 x00 x00 x00 x00)
(L (W x00 x00 x00 x00 x00 x00 x00 x00))
(L (W x03 x00 x00 x00 xd8 x00 x00 x00))))
(T (W xff xff xff xff xff xff xff xff)
(T (W x00 x00 x00 x00 x00 x00 x00 x00)
(L (W x6b x65 x5f x77 x61 x72 x6c x69))
(L (W xcc x00 x00 x00 x02 x00 x00 x00)))
(T (W x18 x00 x00 x00 x10 x00 x00 x00)
(L (W xff xff xff xff xff xff xff xff)) E)))))
(T (W x54 x00 x00 x00 x48 x00 x00 x00)
(T (W x45 x26 x22 x84 xe4 x9c xf2 xcb)
(T (W x00 x00 x80 x3f x00 x00 x80 x3f)
(T (W xea x68 xff xff xdc x01 x00 x00)
(T (W xb2 x42 xfd xff x74 x00 x00 x00)
(L (W xff xff xff xff xff xff xff xff))
(L (W xff xff xff xff xff xff xff xff)))
(T (W x6c x00 x00 x00 x60 x00 x00 x00)
(L (W x6c x00 x00 x00 x60 x00 x00 x00))
(L (W xff xff xff xff xff xff xff xff))))
(T (W xff xff xff xff xff xff xff xff)
(T (W x00 x00 x00 x00 x00 x00 x00 x00)
(L (W x00 x00 x00 x00 x00 x00 x00 x00))
(L (W x18 x00 x00 x00 x10 x00 x00 x00)))
(T (W x00 x00 x80 x3f x00 x00 x80 x3f)
(L (W xb8 xea xfe xff x00 x01 x01 x01))
(L (W x00 x00 x80 xbf x00 x00 x80 xbf)))))
(T (W x0e x00 x00 x00 x0c x00 x00 x00)
(T (W xff xff xff xff xff xff xff xff)
(T (W xb0 x00 x00 x00 x0a x00 x00 x00)
(L (W x00 x00 x00 x00 x00 x00 x00 x00))
(L (W x00 x00 x80 xbf x00 x00 x80 xbf)))
(T (W x12 x00 x00 x00 x46 x53 x59 x53)
(L (W x00 x00 x00 x00 x00 x00 x00 x00))
(L (W x03 x00 x00 x00 xd8 x00 x00 x00))))
(T (W xc4 x00 x00 x00 xb8 x00 x00 x00)
(T (W xff xff xff xff xff xff xff xff)
(L (W x00 x00 x80 x3f x00 x00 x80 x3f))
(L (W xff xff xff xff xff xff xff xff)))
(T (W x00 x00 x00 x00 x00 x00 x00 x00)
(L (W xff xff xff xff xff xff xff xff)) E))))
(T (W x45 x26 x22 x84 xe4 x9c xf2 xcb)
(T (W x00 x00 x00 x00 x00 x00 x00 x00)
(T (W xff xff xff xff xff xff xff xff)
(T (W x00 x00 x80 x3f x00 x00 x80 x3f)
(L (W x30 x00 x34 x00 x38 x00 x3c x00))
(L (W x00 x00 x00 x00 x00 x00 x00 x00)))
(T (W xb0 x00 x00 x00 x28 x00 x00 x00)
(L (W xff xff xff xff xff xff xff xff))
(L (W xff xff xff xff xff xff xff xff))))
(T (W xb8 xfa xfc xff x00 x01 x01 x01)
(T (W x00 x00 x80 x3f x00 x00 x80 x3f)
(L (W x00 x00 x80 xbf x00 x00 x80 xbf))
(L (W xb0 x00 x00 x00 x64 x00 x00 x00)))
(T (W x00 x00 x80 x3f x00 x00 x80 x3f)
(L (W xff xff xff xff xff xff xff xff))
(L (W x00 x00 x80 xbf x00 x00 x80 xbf)))))
(T (W xff xff xff xff xff xff xff xff)
(T (W xff xff xff xff xff xff xff xff)
(T (W xff xff xff xff xc4 x00 x00 x00)
(L (W x00 x00 x80 xbf x00 x00 x80 xbf))
(L (W x00 x00 x00 x00 x30 x5c xff xff)))
(T (W x50 x00 x00 x00 x44 x00 x00 x00)
(L (W x4f x84 x6f x8b xe8 xcb x63 xb7))
(L (W x00 x00 x80 xbf x00 x00 x80 xbf))))
(T (W x18 x00 x00 x00 x10 x00 x00 x00)
(T (W x00 x00 x00 x00 x00 x00 x00 x00)
(L (W xb2 xb2 xfe xff x74 x00 x00 x00))
(L (W xc4 x00 x00 x00 x02 x00 x00 x00)))
(T (W x18 x00 x00 x00 x0c x00 x00 x00)
(L (W xcc x00 x00 x00 x02 x00 x00 x00)) E)))))))
(T (W xff xff xff xff xff xff xff xff)
(T (W x45 x26 x22 x84 xe4 x9c xf2 xcb)
(T (W x00 x00 x80 x3f x00 x00 x80 x3f)
(T (W x00 x00 x00 x00 x00 x00 x00 x00)
(T (W x20 x00 x00 x00 x10 x00 x00 x00)
(T (W xff xff xff xff xff xff xff xff)
(T (W x45 x26 x22 x84 xe4 x9c xf2 xcb)
(L (W x00 x00 x00 x00 x00 x00 x00 x00))
(L (W x45 x26 x22 x84 xe4 x9c xf2 xcb)))
(T (W x5f x4e x53 x5f x30 x34 x5f x43)
(L (W xff xff xff xff xff xff xff xff))
(L (W x00 x00 x80 xbf x00 x00 x80 xbf))))
(T (W x50 x00 x00 x00 x44 x00 x00 x00)
(T (W x6c x00 x00 x00 x60 x00 x00 x00)
(L (W x46 x53 x59 x53 x5f x4e x53 x5f))
(L (W x00 x00 x80 xbf x00 x00 x80 xbf)))
(T (W x00 x00 x00 x00 x00 x00 x00 x00)
(L (W x00 x00 x00 x00 x00 x00 x00 x00))
(L (W x00 x00 x00 x00 x00 x00 x00 x00)))))
(T (W xff xff xff xff xff xff xff xff)
(T (W xb8 xc0 xfc xff x00 x01 x01 x01)
(T (W x62 x00 x00 x00 x00 x00 x01 x01)
(L (W x00 x00 x00 x00 x00 x00 x00 x00))
(L (W xb4 x01 x00 x00 xff xff xff xff)))
(T (W x2b x00 x00 x00 x2e x00 x00 x00)
(L (W xfa xc4 xfe xff x78 x00 x00 x00))
(L (W x2c xc2 xff xff x72 xbd xff xff))))
(T (W x00 x00 x80 x3f x00 x00 x80 x3f)
(T (W x00 x00 x00 x00 x00 x00 x00 x00)
(L (W x00 x00 x80 xbf x00 x00 x80 xbf))
(L (W xb8 x80 xff xff x00 x01 x01 x01)))
(T (W x00 x00 x00 x00 x02 x00 x00 x00)
(L (W x00 x00 x80 xbf x00 x00 x80 xbf))
(L (W x00 x00 x62 x00 x70 x00 x04 x00))))))
(T (W x00 x00 x00 x00 x00 x00 x00 x00)
(T (W x1c x01 x00 x00 x04 x00 x00 x00)
(T (W xbc x00 x00 x00 xb0 x00 x00 x00)
(T (W x45 x26 x22 x84 xe4 x9c xf2 xcb)
(L (W x00 x00 x80 x3f x00 x00 x80 x3f))
(L (W xff xff xff xff x9c x00 x00 x00)))
(T (W x49 xa1 x68 x4a xeb x5f xdd x3d)
(L (W xb8 xb0 xfe xff x00 x01 x01 x01))
(L (W x68 x00 x00 x00 x5c x00 x00 x00))))
(T (W x00 x00 x80 x3f x00 x00 x80 x3f)
(T (W xff xff xff xff xff xff xff xff)
(L (W xff xff xff xff xff xff xff xff))
(L (W x3c x00 x00 x00 x00 x00 x80 xbf)))
(T (W x00 x00 x00 x00 x00 x00 x00 x00)
(L (W x00 x00 x80 xbf x00 x00 x80 xbf))
(L (W x4f x84 x6f x8b xe8 xcb x63 xb7)))))
(T (W xff xff xff xff xff xff xff xff)
(T (W x00 x00 x00 x00 x30 xd2 xfc xff)
(T (W x00 x00 x80 x3f x00 x00 x80 x3f)
(L (W xff xff xff xff xff xff xff xff))
(L (W x00 x00 x00 x00 x00 x00 x00 x00)))
(T (W x9c x01 x00 x00 xff xff xff xff)
(L (W xff xff xff xff xff xff xff xff))
(L (W x00 x00 x00 x00 x00 x00 x62 x00))))
(T (W x54 x00 x00 x00 x48 x00 x00 x00)
(T (W xff xff xff xff x9c x00 x00 x00)
(L (W x00 x00 x80 x3f x00 x00 x80 x3f))
(L (W x00 x00 x80 xbf x00 x00 x80 xbf)))
(T (W x00 x00 x80 x3f x00 x00 x80 x3f)
(L (W x00 x00 x00 x00 x30 x12 xff xff)) E)))))
(T (W x00 x00 x00 x00 x00 x00 x00 x00)
(T (W x00 x00 x00 x00 x00 x00 x00 x00)
(T (W x00 x00 x00 x00 x02 x2a xff xff)
(T (W x64 x00 x00 x00 x9c x00 x00 x00)
(T (W x00 x00 x00 x00 x00 x00 x00 x00)
(L (W x18 x00 x00 x00 x0c x00 x00 x00))
(L (W xfa x2c xff xff x78 x00 x00 x00)))
(T (W x00 x00 x00 x00 x00 x00 x00 x00)
(L (W x76 x32 x00 x00 x0a xaf xfe xff))
(L (W x00 x00 x80 xbf x00 x00 x80 xbf))))
(T (W x00 x00 x80 x3f x00 x00 x80 x3f)
(T (W xb0 x00 x00 x00 x64 x00 x00 x00)
(L (W x00 x00 x01 x01 x2a x00 x00 x00))
(L (W x00 x00 x00 x00 x00 x00 x00 x00)))
(T (W x00 x00 x00 x00 x00 x00 x00 x00)
(L (W x00 x00 x80 xbf x00 x00 x80 xbf))
(L (W x00 x00 x00 x00 x00 x00 x00 x00)))))
(T (W xff xff xff xff xff xff xff xff)
(T (W xff xff xff xff x03 x00 x00 x00)
(T (W x45 x26 x22 x84 xe4 x9c xf2 xcb)
(L (W x54 x4f xfe xff x33 x00 x00 x00))
(L (W x00 x00 x00 x00 x00 x00 x00 x00)))
(T (W xff xff xff xff xff xff xff xff)
(L (W xff xff xff xff xbc x00 x00 x00))
(L (W x45 x26 x22 x84 xe4 x9c xf2 xcb))))
(T (W x40 x00 x44 x00 x48 x00 x4c x00)
(T (W x6c x00 x00 x00 x60 x00 x00 x00)
(L (W xff xff xff xff xff xff xff xff))
(L (W x6c x00 x00 x00 x60 x00 x00 x00)))
(T (W xff xff xff xff xff xff xff xff)
(L (W x00 x00 x80 xbf x00 x00 x80 xbf)) E))))
(T (W x00 x00 x00 x00 x00 x00 x00 x00)
(T (W xff xff xff xff xff xff xff xff)
(T (W x45 x26 x22 x84 xe4 x9c xf2 xcb)
(T (W x45 x26 x22 x84 xe4 x9c xf2 xcb)
(L (W x45 x26 x22 x84 xe4 x9c xf2 xcb))
(L (W xff xff xff xff xff xff xff xff)))
(T (W x54 x00 x00 x00 x48 x00 x00 x00)
(L (W x6c x00 x00 x00 x60 x00 x00 x00))
(L (W xff xff xff xff xff xff xff xff))))
(T (W x00 x00 x80 x3f x00 x00 x80 x3f)
(T (W x45 x44 x00 x00 x00 x00 x00 x00)
(L (W xec x5f x6c x12 x83 xf2 x3a xc6))
(L (W x00 x00 x80 xbf x00 x00 x80 xbf)))
(T (W x00 x00 x00 x00 x00 x00 x00 x00)
(L (W x54 x00 x00 x00 x48 x00 x00 x00))
(L (W x45 x26 x22 x84 xe4 x9c xf2 xcb)))))
(T (W xff xff xff xff xff xff xff xff)
(T (W x45 x26 x22 x84 xe4 x9c xf2 xcb)
(T (W x54 x00 x00 x00 x48 x00 x00 x00)
(L (W x2a x00 x00 x00 x0c x00 x00 x00))
(L (W x00 x00 x00 x00 x00 x00 x00 x00)))
(T (W x46 x53 x59 x53 x5f x4e x53 x5f)
(L (W x00 x00 x00 x00 x00 x00 x00 x00))
(L (W x5c x00 x60 x00 x00 x00 x00 x00))))
(T (W x00 x00 x80 x3f x00 x00 x80 x3f)
(T (W xff xff xff xff xff xff xff xff)
(L (W x00 x00 x00 x00 x00 x00 x00 x00))
(L (W x00 x00 x00 x00 x00 x00 x62 x00)))
(T (W x00 x00 x80 x3f x00 x00 x80 x3f)
(L (W x00 x00 x80 xbf x00 x00 x80 xbf)) E))))))
(T (W xff xff xff xff x04 x00 x00 x00)
(T (W x18 x00 x00 x00 x0c x00 x00 x00)
(T (W x18 x00 x00 x00 x10 x00 x00 x00)
(T (W x00 x00 x80 x3f x00 x00 x80 x3f)
(T (W x00 x00 x00 x00 x00 x00 x00 x00)
(T (W x4e x00 x00 x00 xff xff xff xff)
(L (W xff xff xff xff xff xff xff xff))
(L (W x00 x00 x00 x00 x00 x00 x00 x00)))
(T (W x35 x00 x00 x00 x38 x00 x00 x00)
(L (W xff xff xff xff xff xff xff xff))
(L (W xff xff xff xff xff xff xff xff))))
(T (W x00 x00 x00 x00 x00 x00 x00 x00)
(T (W x00 x00 x00 x00 x00 x00 x00 x00)
(L (W x6c x00 x00 x00 x60 x00 x00 x00))
(L (W xcc x00 x00 x00 x01 x00 x00 x00)))
(T (W x18 x00 x00 x00 x10 x00 x00 x00)
(L (W xff xff xff xff x9c x00 x00 x00))
(L (W x4c x45 x41 x52 x45 x44 x00 x00)))))
(T (W x00 x00 x80 x3f x00 x00 x80 x3f)
(T (W x00 x00 x00 x00 x00 x00 x00 x00)
(T (W x00 x00 x00 x00 x30 x46 xfd xff)
(L (W x01 x00 x00 x00 x9c x00 x00 x00))
(L (W x6c x00 x00 x00 x60 x00 x00 x00)))
(T (W x00 x00 x00 x00 x00 x00 x00 x00)
(L (W x00 x00 x00 x00 x00 x00 x00 x00))
(L (W x4a x00 x00 x00 xff xff xff xff))))
(T (W xff xff xff xff xff xff xff xff)
(T (W xff xff xff xff xff xff xff xff)
(L (W x00 x00 x00 x00 x00 x00 x00 x00))
(L (W x00 x00 x00 x00 x00 x00 x00 x00)))
(T (W x00 x00 x80 x3f x00 x00 x80 x3f)
(L (W x00 x00 x00 x00 x00 x00 x00 x00))
(L (W xff xff xff xff xe4 x00 x00 x00))))))
(T (W xb2 x6c xfc xff x74 x00 x00 x00)
(T (W x00 x00 x80 x3f x00 x00 x80 x3f)
(T (W x00 x00 x00 x00 x00 x00 x00 x00)
(T (W xff xff xff xff xff xff xff xff)
(L (W xff xff xff xff xff xff xff xff))
(L (W x00 x00 x00 x00 x00 x00 x00 x00)))
(T (W xff xff xff xff xff xff xff xff)
(L (W x00 x00 x00 x00 x0a xbb xfe xff))
(L (W x46 x53 x59 x53 x5f x4e x53 x5f))))
(T (W xff xff xff xff xff xff xff xff)
(T (W x00 x00 x80 x3f x00 x00 x80 x3f)
(L (W x45 x26 x22 x84 xe4 x9c xf2 xcb))
(L (W xff xff xff xff xff xff xff xff)))
(T (W x45 x26 x22 x84 xe4 x9c xf2 xcb)
(L (W xe2 x0f xff xff x00 x00 x00 x01))
(L (W x00 x00 x00 x00 x0c x00 x18 x00)))))
(T (W x00 x00 x00 x00 x00 x00 x00 x00)
(T (W x00 x00 x00 x00 x00 x00 x00 x00)
(T (W x01 x00 x00 x00 xff xff xff xff)
(L (W x00 x00 x80 xbf x00 x00 x80 xbf))
(L (W x03 x00 x00 x00 xd8 x00 x00 x00)))
(T (W x50 x00 x00 x00 x44 x00 x00 x00)
(L (W x45 x26 x22 x84 xe4 x9c xf2 xcb))
(L (W x00 x00 x01 x01 xc5 x01 x00 x00))))
(T (W xff xff xff xff xff xff xff xff)
(T (W x4f x84 x6f x8b xe8 xcb x63 xb7)
(L (W x00 x00 x80 x3f x00 x00 x80 x3f))
(L (W x06 x85 xa7 x28 xbf x49 x53 x6a)))
(T (W xff xff xff xff xff xff xff xff)
(L (W x00 x00 x00 x00 x00 x00 x00 x00)) E)))))
(T (W xff xff xff xff xff xff xff xff)
(T (W x01 x00 x00 x00 xa0 x00 x00 x00)
(T (W x00 x00 x80 x3f x00 x00 x80 x3f)
(T (W x00 x00 x00 x00 x00 x00 x00 x00)
(T (W xff xff xff xff xff xff xff xff)
(L (W x3d x00 x00 x00 x10 x00 x00 x00))
(L (W x00 x00 x00 x00 x00 x00 x00 x00)))
(T (W xff xff xff xff xbc x00 x00 x00)
(L (W xff xff xff xff xff xff xff xff))
(L (W x2e x00 x00 x00 x0c x00 x00 x00))))
(T (W x00 x00 x00 x00 x04 x00 x00 x00)
(T (W x49 xa1 x68 x4a xeb x5f xdd x3d)
(L (W x45 x26 x22 x84 xe4 x9c xf2 xcb))
(L (W xff xff xff xff xff xff xff xff)))
(T (W xff xff xff xff xff xff xff xff)
(L (W xff xff xff xff xff xff xff xff))
(L (W x38 x00 x00 x00 x00 x00 x80 xbf)))))
(T (W x00 x00 x80 x3f x00 x00 x80 x3f)
(T (W x40 x00 x00 x00 x0c x00 x00 x00)
(T (W xff xff xff xff xff xff xff xff)
(L (W x00 x00 x00 x00 x00 x00 x00 x00))
(L (W x45 x26 x22 x84 xe4 x9c xf2 xcb)))
(T (W x00 x00 x80 x3f x00 x00 x80 x3f)
(L (W x00 x00 x80 xbf x00 x00 x80 xbf))
(L (W x2a x00 x00 x00 x10 x00 x00 x00))))
(T (W xff xff xff xff xff xff xff xff)
(T (W x00 x00 x00 x00 x00 x00 x00 x00)
(L (W xcc x00 x00 x00 x01 x00 x00 x00))
(L (W x00 x00 x00 x00 x00 x00 x00 x00)))
(T (W xbc x00 x00 x00 xb0 x00 x00 x00)
(L (W x00 x00 x00 x00 x00 x00 x00 x00)) E))))
(T (W x00 x00 x80 x3f x00 x00 x80 x3f)
(T (W x50 x00 x00 x00 x44 x00 x00 x00)
(T (W x00 x00 x00 x00 x00 x00 x00 x00)
(T (W xff xff xff xff x04 x00 x00 x00)
(L (W xb8 x00 x00 x00 xac x00 x00 x00))
(L (W x00 x00 x80 xbf x00 x00 x80 xbf)))
(T (W x4c x45 x41 x52 x45 x44 x00 x00)
(L (W x00 x00 x00 x00 x02 xbc xfe xff))
(L (W x00 x00 x00 x00 x00 x00 x00 x00))))
(T (W x70 x00 x00 x00 xff xff xff xff)
(T (W xff xff xff xff xac x00 x00 x00)
(L (W xff xff xff xff xff xff xff xff))
(L (W x00 x00 x00 x00 x00 x00 x00 x00)))
(T (W xb8 xfc xfd xff x00 x01 x01 x01)
(L (W x00 x00 x01 x01 x5d x00 x00 x00))
(L (W xff xff xff xff xff xff xff xff)))))
(T (W x00 x00 x00 x00 x00 x00 x00 x00)
(T (W x00 x00 x00 x00 x00 x00 x00 x00)
(T (W x00 x00 x00 x00 x00 x00 x00 x00)
(L (W x68 x00 x00 x00 x5c x00 x00 x00))
(L (W xff xff xff xff xff xff xff xff)))
(T (W x03 x00 x00 x00 xcc x00 x00 x00)
(L (W xcc x00 x00 x00 x01 x00 x00 x00))
(L (W xc4 x00 x00 x00 x01 x00 x00 x00))))
(T (W xff xff xff xff xff xff xff xff)
(T (W x68 x00 x00 x00 x5c x00 x00 x00)
(L (W x61 x64 x65 x72 x5f x77 x69 x6c))
(L (W xb4 x06 x00 x00 x98 x05 x00 x00)))
(T (W xff xff xff xff xff xff xff xff)
(L (W x75 x13 xb9 x28 xbf xd0 x67 x6a)) E)))))))))))
(T (W x50 x77 x03 x00 x34 x6e x03 x00)
(T (W xd0 x21 x03 x00 x24 x1d x03 x00)
(T (W xc0 x66 x02 x00 x84 x65 x02 x00)
(T (W xc8 xd1 x01 x00 x84 xcf x01 x00)
(T (W xc8 x7b x00 x00 x94 x7a x00 x00)
(T (W x00 x00 x80 x3f x00 x00 x80 x3f)
(T (W x00 x00 x80 x3f x00 x00 x80 x3f)
(T (W x00 x00 x80 x3f x00 x00 x80 x3f)
(T (W x00 x00 x00 x00 x00 x00 x00 x00)
(T (W xff xff xff xff xff xff xff xff)
(T (W x45 x26 x22 x84 xe4 x9c xf2 xcb)
(L (W x68 x00 x00 x00 x5c x00 x00 x00))
(L (W xff xff xff xff xff xff xff xff)))
(T (W x00 x00 x00 x00 x00 x00 x00 x00)
(L (W xff xff xff xff xff xff xff xff))
(L (W xff xff xff xff xff xff xff xff))))
(T (W xb8 x00 x00 x00 xac x00 x00 x00)
(T (W xff xff xff xff xbc x00 x00 x00)
(L (W x00 x00 x00 x00 x00 x00 x00 x00))
(L (W x50 x00 x00 x00 x44 x00 x00 x00)))
(T (W x00 x00 x80 x3f x00 x00 x80 x3f)
(L (W x00 x00 x80 xbf x00 x00 x80 xbf))
(L (W x00 x00 x80 xbf x00 x00 x80 xbf)))))
(T (W x00 x00 x00 x00 x00 x00 x00 x00)
(T (W xff xff xff xff xff xff xff xff)
(T (W x00 x00 x80 x3f x00 x00 x80 x3f)
(L (W x00 x00 x80 x3f x00 x00 x80 x3f))
(L (W x00 x00 x00 x00 x00 x00 x00 x00)))
(T (W xff xff xff xff xff xff xff xff)
(L (W x18 x00 x00 x00 x10 x00 x00 x00))
(L (W xff xff xff xff xff xff xff xff))))
(T (W x45 x26 x22 x84 xe4 x9c xf2 xcb)
(T (W x00 x00 x80 x3f x00 x00 x80 x3f)
(L (W x00 x00 x80 xbf x00 x00 x80 xbf))
(L (W xff xff xff xff x9c x00 x00 x00)))
(T (W x00 x00 x00 x00 x00 x00 x00 x00)
(L (W x18 x00 x00 x00 x0c x00 x00 x00))
(L (W x5c x00 x00 x00 x50 x00 x00 x00))))))
(T (W x00 x00 x80 x3f x00 x00 x80 x3f)
(T (W x00 x00 x00 x00 x00 x00 x00 x00)
(T (W xff xff xff xff xff xff xff xff)
(T (W x00 x00 x80 x3f x00 x00 x80 x3f)
(L (W xff xff xff xff xff xff xff xff))
(L (W xff xff xff xff xff xff xff xff)))
(T (W x00 x00 x80 x3f x00 x00 x80 x3f)
(L (W x00 x00 x00 x00 x90 xae xfe xff))
(L (W xff xff xff xff xff xff xff xff))))
(T (W xff xff xff xff x03 x00 x00 x00)
(T (W x00 x00 x00 x00 x62 x6c xfd xff)
(L (W x7e x68 xca xc9 x03 x8e xa3 xbc))
(L (W x5a x71 xff xff x78 x00 x00 x00)))
(T (W x00 x00 x80 x3f x00 x00 x80 x3f)
(L (W x18 x00 x00 x00 x0c x00 x00 x00))
(L (W x00 x00 x00 x00 x00 x00 x00 x00)))))
(T (W x00 x00 x00 x00 x62 x4e xff xff)
(T (W xff xff xff xff x04 x00 x00 x00)
(T (W x12 x65 xfd xff x74 x00 x00 x00)
(L (W x00 x00 x00 x00 x00 x00 x54 x00))
(L (W x45 x26 x22 x84 xe4 x9c xf2 xcb)))
(T (W x00 x00 x00 x00 x00 x00 x00 x00)
(L (W x00 x00 x00 x00 x00 x00 x00 x00))
(L (W xff xff xff xff xff xff xff xff))))
(T (W x68 x00 x00 x00 x5c x00 x00 x00)
(T (W xff xff xff xff xff xff xff xff)
(L (W x00 x00 x80 x3f x00 x00 x80 x3f))
(L (W xff xff xff xff xff xff xff xff)))
(T (W x00 x00 x80 x3f x00 x00 x80 x3f)
(L (W xff xff xff xff xff xff xff xff)) E)))))
(T (W x45 x26 x22 x84 xe4 x9c xf2 xcb)
(T (W x45 x26 x22 x84 xe4 x9c xf2 xcb)
(T (W x00 x00 x00 x00 x00 x00 x00 x00)
(T (W xff xff xff xff xff xff xff xff)
(T (W x18 x00 x00 x00 x0c x00 x00 x00)
(L (W x00 x00 x00 x00 x90 x26 xfe xff))
(L (W xbc x00 x00 x00 x64 x00 x00 x00)))
(T (W x00 x00 x80 x3f x00 x00 x80 x3f)
(L (W x00 x00 x80 x3f x00 x00 x80 x3f))
(L (W x12 xbd xff xff x74 x00 x00 x00))))
(T (W xc0 x00 x00 x00 xb4 x00 x00 x00)
(T (W xff xff xff xff xff xff xff xff)
(L (W x00 x00 x00 x00 x00 x00 x00 x00))
(L (W x00 x00 x80 xbf x00 x00 x80 xbf)))
(T (W x45 x26 x22 x84 xe4 x9c xf2 xcb)
(L (W x00 x00 x80 xbf x00 x00 x80 xbf))
(L (W x00 x00 x58 x00 x00 x00 x00 x00)))))
(T (W x1d x00 x00 x00 x10 x00 x00 x00)
(T (W xff xff xff xff xff xff xff xff)
(T (W x00 x00 x00 x00 x00 x00 x00 x00)
(L (W x00 x00 x80 x3f x00 x00 x80 x3f))
(L (W x00 x00 x00 x00 x00 x00 x00 x00)))
(T (W x01 x00 x00 x00 xff xff xff xff)
(L (W xff xff xff xff xff xff xff xff))
(L (W x45 x26 x22 x84 xe4 x9c xf2 xcb))))
(T (W x12 x1d xfd xff x74 x00 x00 x00)
(T (W x00 x00 x00 x00 x90 x86 xfd xff)
(L (W xff xff xff xff xff xff xff xff))
(L (W xff xff xff xff xff xff xff xff)))
(T (W x00 x00 x00 x00 x00 x00 x00 x00)
(L (W xb4 x00 x00 x00 x1e x00 x00 x00))
(L (W x34 x00 x38 x00 x2a x00 x00 x00))))))
(T (W x00 x00 x00 x00 x00 x00 x00 x00)
(T (W x00 x00 x00 x00 x00 x00 x00 x00)
(T (W xff xff xff xff xff xff xff xff)
(T (W x54 x00 x00 x00 x48 x00 x00 x00)
(L (W x12 x4d xfe xff x74 x00 x00 x00))
(L (W xff xff xff xff xff xff xff xff)))
(T (W x5a xb9 xfd xff x78 x00 x00 x00)
(L (W x2d x00 x00 x00 x30 x00 x00 x00))
(L (W xff xff xff xff xff xff xff xff))))
(T (W x00 x00 x00 x00 x90 xf6 xfc xff)
(T (W x00 x00 x00 x00 x00 x00 x00 x00)
(L (W x00 x00 x00 x00 x01 x00 x00 x00))
(L (W x6c x00 x00 x00 x60 x00 x00 x00)))
(T (W x45 x26 x22 x84 xe4 x9c xf2 xcb)
(L (W x18 x00 x00 x00 x10 x00 x00 x00))
(L (W xff xff xff xff xff xff xff xff)))))
(T (W x1c x01 x00 x00 x04 x00 x00 x00)
(T (W x18 x00 x00 x00 x10 x00 x00 x00)
(T (W x45 x26 x22 x84 xe4 x9c xf2 xcb)
(L (W x46 x53 x59 x53 x5f x4e x53 x5f))
(L (W x00 x00 x80 xbf x00 x00 x80 xbf)))
(T (W x00 x00 x00 x00 x00 x00 x00 x00)
(L (W x45 x26 x22 x84 xe4 x9c xf2 xcb))
(L (W x18 x00 x00 x00 x0c x00 x00 x00))))
(T (W x18 x15 xfd xff x00 x01 x01 x01)
(T (W xff xff xff xff x01 x00 x00 x00)
(L (W x46 x53 x59 x53 x5f x4e x53 x5f))
(L (W x03 x00 x00 x00 xd0 x00 x00 x00)))
(T (W x12 x2d xfe xff x74 x00 x00 x00)
(L (W xff xff xff xff xff xff xff xff)) E))))))
(T (W xff xff xff xff xff xff xff xff)
(T (W xff xff xff xff xff xff xff xff)
(T (W xff xff xff xff xff xff xff xff)
(T (W xff xff xff xff xff xff xff xff)
(T (W x50 x00 x00 x00 x44 x00 x00 x00)
(T (W x3f xbb x29 x42 xb2 x7e x32 x53)
(L (W xc2 xd5 xff xff x00 x00 x01 x01))
(L (W x45 x26 x22 x84 xe4 x9c xf2 xcb)))
(T (W xff xff xff xff xff xff xff xff)
(L (W x6c x00 x00 x00 x60 x00 x00 x00))
(L (W x00 x00 x00 x00 x00 x00 x00 x00))))
(T (W x00 x00 x00 x00 x00 x00 x00 x00)
(T (W x00 x00 x00 x00 x00 x00 x00 x00)
(L (W xff xff xff xff xff xff xff xff))
(L (W x30 x34 x5f x43 x4c x45 x41 x52)))
(T (W xc0 x02 x00 x00 xff xff xff xff)
(L (W xff xff xff xff xff xff xff xff))
(L (W xff xff xff xff xff xff xff xff)))))
(T (W x00 x00 x80 x3f x00 x00 x80 x3f)
(T (W x00 x00 x00 x00 x00 x00 x00 x00)
(T (W x40 x00 x00 x00 x9c x00 x00 x00)
(L (W xff xff xff xff xff xff xff xff))
(L (W x45 x26 x22 x84 xe4 x9c xf2 xcb)))
(T (W x00 x00 x80 x3f x00 x00 x80 x3f)
(L (W x00 x00 x00 x00 x00 x00 x00 x00))
(L (W x00 x00 x00 x00 x00 x00 x00 x00))))
(T (W x00 x00 x00 x00 x00 x00 x00 x00)
(T (W x95 x3a x56 xf6 x11 x0e xd8 x96)
(L (W x00 x00 x00 x00 x00 x00 x00 x00))
(L (W x00 x00 x00 x00 x00 x00 x00 x00)))
(T (W xb8 x00 x00 x00 xac x00 x00 x00)
(L (W x00 x00 x00 x00 x00 x00 x00 x00))
(L (W x5c x00 x60 x00 x62 x00 x00 x00))))))
(T (W xff xff xff xff xff xff xff xff)
(T (W x01 x00 x00 x00 xa0 x00 x00 x00)
(T (W x00 x00 x80 x3f x00 x00 x80 x3f)
(T (W xff xff xff xff xff xff xff xff)
(L (W x00 x00 x00 x00 x00 x00 x00 x00))
(L (W x00 x00 x80 xbf x00 x00 x80 xbf)))
(T (W x00 x00 x00 x00 x62 xb0 xfd xff)
(L (W x00 x00 x00 x00 x00 x00 x00 x00))
(L (W x00 x00 x00 x00 x00 x00 x00 x00))))
(T (W x40 x00 x00 x00 x0c x00 x00 x00)
(T (W x18 x71 xfd xff x00 x01 x01 x01)
(L (W x8c x72 xfe xff xd2 x6d xfe xff))
(L (W x46 x53 x59 x53 x5f x4e x53 x5f)))
(T (W xff xff xff xff xff xff xff xff)
(L (W x00 x00 x00 x00 x00 x00 x00 x00))
(L (W x64 x00 x08 x00 x00 x00 x00 x00)))))
(T (W x00 x00 x80 x3f x00 x00 x80 x3f)
(T (W x00 x00 x00 x00 x00 x00 x00 x00)
(T (W x4c x45 x41 x52 x45 x44 x00 x00)
(L (W x50 x00 x00 x00 x44 x00 x00 x00))
(L (W xff xff xff xff xff xff xff xff)))
(T (W x18 x00 x00 x00 x0c x00 x00 x00)
(L (W x45 x26 x22 x84 xe4 x9c xf2 xcb))
(L (W x00 x00 x00 x00 x60 x00 x64 x00))))
(T (W x00 x00 x00 x00 x00 x00 x00 x00)
(T (W x00 x00 x80 x3f x00 x00 x80 x3f)
(L (W x6c x64 x5f x70 x6f x6b x65 x5f))
(L (W x00 x00 x00 x00 x12 x00 x00 x00)))
(T (W x00 x00 x00 x00 x00 x00 x00 x00)
(L (W x00 x00 x00 x00 x00 x00 x00 x00)) E)))))
(T (W xff xff xff xff xff xff xff xff)
(T (W xb8 x00 x00 x00 xac x00 x00 x00)
(T (W x18 x00 x00 x00 x10 x00 x00 x00)
(T (W x00 x00 x80 x3f x00 x00 x80 x3f)
(T (W x4c x00 x00 x00 xff xff xff xff)
(L (W x45 x26 x22 x84 xe4 x9c xf2 xcb))
(L (W x00 x00 x00 x00 x00 x00 x00 x00)))
(T (W xff xff xff xff xff xff xff xff)
(L (W x28 x00 x00 x00 x2b x00 x00 x00))
(L (W x00 x00 x00 x00 x12 x00 x00 x00))))
(T (W x00 x00 x00 x00 x00 x00 x00 x00)
(T (W x00 x00 x80 x3f x00 x00 x80 x3f)
(L (W x1c x00 x00 x00 x10 x00 x00 x00))
(L (W x54 x02 x00 x00 x38 x01 x00 x00)))
(T (W xff xff xff xff xff xff xff xff)
(L (W x00 x00 x00 x00 x00 x00 x00 x00))
(L (W xff xff xff xff xff xff xff xff)))))
(T (W x00 x00 x80 x3f x00 x00 x80 x3f)
(T (W x00 x00 x80 x3f x00 x00 x80 x3f)
(T (W x5c x54 xfd xff x2b x00 x00 x00)
(L (W xff xff xff xff xff xff xff xff))
(L (W xff xff xff xff xff xff xff xff)))
(T (W x00 x00 x80 x3f x00 x00 x80 x3f)
(L (W x00 x00 x80 xbf x00 x00 x80 xbf))
(L (W x00 x00 x00 x00 x00 x00 x00 x00))))
(T (W xff xff xff xff xff xff xff xff)
(T (W x00 x00 x00 x00 x00 x00 x00 x00)
(L (W x04 x00 x05 x00 x06 x00 x07 x00))
(L (W x00 x00 x00 x00 x00 x00 x00 x00)))
(T (W x50 x00 x00 x00 x44 x00 x00 x00)
(L (W x00 x00 x00 x00 x12 x00 x00 x00)) E))))
(T (W xff xff xff xff xff xff xff xff)
(T (W x12 x91 xfc xff x74 x00 x00 x00)
(T (W x45 x26 x22 x84 xe4 x9c xf2 xcb)
(T (W xff xff xff xff xff xff xff xff)
(L (W x45 x26 x22 x84 xe4 x9c xf2 xcb))
(L (W x54 x00 x00 x00 x48 x00 x00 x00)))
(T (W x00 x00 x00 x00 x00 x00 x00 x00)
(L (W x00 x00 x00 x00 x00 x00 x00 x00))
(L (W x00 x00 x80 xbf x00 x00 x80 xbf))))
(T (W x00 x00 x00 x00 x00 x00 x00 x00)
(T (W xff xff xff xff xbc x00 x00 x00)
(L (W x03 x00 x00 x00 xbc x00 x00 x00))
(L (W x00 x00 x00 x00 x00 x00 x00 x00)))
(T (W xff xff xff xff xff xff xff xff)
(L (W x00 x00 x00 x00 x00 x00 x00 x00))
(L (W x45 x26 x22 x84 xe4 x9c xf2 xcb)))))
(T (W x00 x00 x80 x3f x00 x00 x80 x3f)
(T (W x45 x26 x22 x84 xe4 x9c xf2 xcb)
(T (W x00 x00 x00 x00 x00 x00 x00 x00)
(L (W xff xff xff xff xff xff xff xff))
(L (W x00 x00 x01 x01 x95 x01 x00 x00)))
(T (W xff xff xff xff xff xff xff xff)
(L (W xbc x00 x00 x00 x64 x00 x00 x00))
(L (W xff xff xff xff xff xff xff xff))))
(T (W x00 x00 x00 x00 x00 x00 x00 x00)
(T (W x12 xb1 xfd xff x74 x00 x00 x00)
(L (W x76 x32 x00 x00 xf2 x99 xfe xff))
(L (W x00 x00 x00 x00 x68 x00 x6c x00)))
(T (W x00 x00 x00 x00 x00 x00 x00 x00)
(L (W x00 x00 x00 x00 x12 x00 x00 x00)) E)))))))
(T (W x00 x00 x00 x00 x00 x00 x00 x00)
(T (W xff xff xff xff xff xff xff xff)
(T (W x18 x00 x00 x00 x10 x00 x00 x00)
(T (W x18 x3f xfc xff x00 x01 x01 x01)
(T (W x54 x00 x00 x00 x48 x00 x00 x00)
(T (W x00 x00 x00 x00 x00 x00 x00 x00)
(T (W xb8 x00 x00 x00 xac x00 x00 x00)
(L (W xff xff xff xff xff xff xff xff))
(L (W x00 x00 x00 x00 x6a x25 xff xff)))
(T (W x00 x00 x80 x3f x00 x00 x80 x3f)
(L (W x49 xa1 x68 x4a xeb x5f xdd x3d))
(L (W xff xff xff xff xff xff xff xff))))
(T (W xff xff xff xff xff xff xff xff)
(T (W x00 x00 x00 x00 x62 x5e xfd xff)
(L (W x45 x26 x22 x84 xe4 x9c xf2 xcb))
(L (W xff xff xff xff xff xff xff xff)))
(T (W xbc x00 x00 x00 xb0 x00 x00 x00)
(L (W x45 x26 x22 x84 xe4 x9c xf2 xcb))
(L (W x5a xe3 xff xff x78 x00 x00 x00)))))
(T (W x45 x26 x22 x84 xe4 x9c xf2 xcb)
(T (W x00 x00 x00 x00 x12 x83 xfe xff)
(T (W x5c x00 x60 x00 x62 x00 x00 x00)
(L (W x00 x00 x00 x00 x90 x40 xfe xff))
(L (W x45 x26 x22 x84 xe4 x9c xf2 xcb)))
(T (W x5a xee xfd xff x9c x01 x00 x00)
(L (W x00 x00 x00 x00 x00 x00 x00 x00))
(L (W x00 x00 x00 x00 x00 x00 x00 x00))))
(T (W xff xff xff xff xff xff xff xff)
(T (W x18 x00 x00 x00 x0c x00 x00 x00)
(L (W xff xff xff xff xff xff xff xff))
(L (W x00 x00 x00 x00 x00 x00 x00 x00)))
(T (W x00 x00 x80 x3f x00 x00 x80 x3f)
(L (W xff xff xff xff xff xff xff xff))
(L (W x00 x00 x00 x00 x00 x00 x00 x00))))))
(T (W x18 x00 x00 x00 x0c x00 x00 x00)
(T (W x45 x26 x22 x84 xe4 x9c xf2 xcb)
(T (W x1d x00 x00 x00 x0c x00 x00 x00)
(T (W xff xff xff xff xff xff xff xff)
(L (W xc2 xe3 xff xff x00 x00 x01 x01))
(L (W x00 x00 x00 x00 x00 x00 x00 x00)))
(T (W xff xff xff xff xff xff xff xff)
(L (W x00 x00 x00 x00 x00 x00 x00 x00))
(L (W x00 x00 x01 x01 x96 x01 x00 x00))))
(T (W xff xff xff xff xff xff xff xff)
(T (W x4f x84 x6f x8b xe8 xcb x63 xb7)
(L (W x00 x00 x80 xbf x00 x00 x80 xbf))
(L (W xff xff xff xff xff xff xff xff)))
(T (W xb8 x00 x00 x00 xac x00 x00 x00)
(L (W xff xff xff xff xff xff xff xff))
(L (W x3c x00 x00 x00 x00 x00 x80 xbf)))))
(T (W x00 x00 x80 x3f x00 x00 x80 x3f)
(T (W x40 x00 x00 x00 x10 x00 x00 x00)
(T (W xff xff xff xff xff xff xff xff)
(L (W x00 x00 x00 x00 x90 x50 xfe xff))
(L (W xff xff xff xff x90 x00 x00 x00)))
(T (W x00 x00 x80 x3f x00 x00 x80 x3f)
(L (W x49 xa1 x68 x4a xeb x5f xdd x3d))
(L (W x2e x00 x00 x00 x0c x00 x00 x00))))
(T (W xff xff xff xff xff xff xff xff)
(T (W x5c x9a xfd xff x23 x00 x00 x00)
(L (W xff xff xff xff xff xff xff xff))
(L (W x00 x00 x00 x00 x0a x9e xff xff)))
(T (W xd9 x00 x00 x00 xff xff xff xff)
(L (W x00 x00 x01 x01 x4b x00 x00 x00)) E)))))
(T (W x68 x00 x00 x00 x5c x00 x00 x00)
(T (W x45 x26 x22 x84 xe4 x9c xf2 xcb)
(T (W x00 x00 x80 x3f x00 x00 x80 x3f)
(T (W x00 x00 x00 x00 x00 x00 x00 x00)
(T (W xff xff xff xff xff xff xff xff)
(L (W x00 x00 x00 x00 x00 x00 x00 x00))
(L (W xff xff xff xff xff xff xff xff)))
(T (W x18 xa7 xfd xff x00 x01 x01 x01)
(L (W x67 x72 x6f x75 x70 x5f x6c x65))
(L (W xff xff xff xff xff xff xff xff))))
(T (W xff xff xff xff xff xff xff xff)
(T (W x00 x00 x00 x00 x00 x00 x00 x00)
(L (W x49 xa1 x68 x4a xeb x5f xdd x3d))
(L (W x18 x00 x00 x00 x0c x00 x00 x00)))
(T (W x68 x00 x00 x00 x5c x00 x00 x00)
(L (W xff xff xff xff x9c x00 x00 x00))
(L (W x00 x00 x80 xbf x00 x00 x80 xbf)))))
(T (W x45 x26 x22 x84 xe4 x9c xf2 xcb)
(T (W x00 x00 x00 x00 x00 x00 x00 x00)
(T (W x18 x00 x00 x00 x10 x00 x00 x00)
(L (W x12 x5f xfe xff x74 x00 x00 x00))
(L (W x18 x47 xff xff x00 x01 x01 x01)))
(T (W x00 x00 x00 x00 x00 x00 x00 x00)
(L (W x00 x00 x00 x00 x00 x00 x00 x00))
(L (W x46 x53 x59 x53 x5f x4e x53 x5f))))
(T (W x44 x00 x48 x00 x4c x00 x50 x00)
(T (W xff xff xff xff xff xff xff xff)
(L (W x00 x00 x00 x00 x00 x00 x00 x00))
(L (W xff xff xff xff xff xff xff xff)))
(T (W x45 x26 x22 x84 xe4 x9c xf2 xcb)
(L (W xff xff xff xff xff xff xff xff)) E))))
(T (W x00 x00 x80 x3f x00 x00 x80 x3f)
(T (W x00 x00 x00 x00 x00 x00 x00 x00)
(T (W xc2 x6b xfe xff x00 x00 x01 x01)
(T (W xff xff xff xff xff xff xff xff)
(L (W x00 x00 x00 x00 x00 x00 x00 x00))
(L (W x4f x84 x6f x8b xe8 xcb x63 xb7)))
(T (W xff xff xff xff xff xff xff xff)
(L (W xff xff xff xff xff xff xff xff))
(L (W x30 x34 x5f x43 x4c x45 x41 x52))))
(T (W xff xff xff xff xff xff xff xff)
(T (W x00 x00 x80 x3f x00 x00 x80 x3f)
(L (W x00 x00 x80 xbf x00 x00 x80 xbf))
(L (W xff xff xff xff xff xff xff xff)))
(T (W x50 x00 x00 x00 x44 x00 x00 x00)
(L (W x00 x00 x00 x00 x62 xf6 xfe xff))
(L (W x00 x00 x00 x00 x00 x00 x00 x00)))))
(T (W x00 x00 x00 x00 x00 x00 x00 x00)
(T (W xc2 x8b xfe xff x00 x00 x01 x01)
(T (W xff xff xff xff xff xff xff xff)
(L (W x00 x00 x80 xbf x00 x00 x80 xbf))
(L (W x18 x00 x00 x00 x0c x00 x00 x00)))
(T (W x00 x00 x80 x3f x00 x00 x80 x3f)
(L (W x00 x00 x80 xbf x00 x00 x80 xbf))
(L (W x48 x00 x4c x00 x50 x00 x54 x00))))
(T (W xff xff xff xff xff xff xff xff)
(T (W x00 x00 x80 x3f x00 x00 x80 x3f)
(L (W x00 x00 x80 x3f x00 x00 x80 x3f))
(L (W x00 x00 x00 x00 x04 x00 x00 x00)))
(T (W xff xff xff xff xff xff xff xff)
(L (W x00 x00 x00 x00 x0a x26 xff xff)) E))))))
(T (W x00 x00 x00 x00 x00 x00 x00 x00)
(T (W x00 x00 x00 x00 x00 x00 x00 x00)
(T (W x00 x00 x00 x00 x00 x00 x00 x00)
(T (W xff xff xff xff xff xff xff xff)
(T (W x45 x26 x22 x84 xe4 x9c xf2 xcb)
(T (W x00 x00 x80 x3f x00 x00 x80 x3f)
(L (W x00 x00 x00 x00 x00 x00 x00 x00))
(L (W x00 x00 x80 xbf x00 x00 x80 xbf)))
(T (W x00 x00 x00 x00 x00 x00 x00 x00)
(L (W x6c x64 x5f x70 x6f x6b x65 x5f))
(L (W x45 x26 x22 x84 xe4 x9c xf2 xcb))))
(T (W x00 x00 x80 x3f x00 x00 x80 x3f)
(T (W x68 x00 x00 x00 x5c x00 x00 x00)
(L (W xff xff xff xff xff xff xff xff))
(L (W x00 x00 x00 x00 x00 x00 x00 x00)))
(T (W x00 x00 x00 x00 x00 x00 x00 x00)
(L (W x00 x00 x00 x00 x00 x00 x00 x00))
(L (W x00 x00 x00 x00 x00 x00 x00 x00)))))
(T (W xff xff xff xff xff xff xff xff)
(T (W x00 x00 x80 x3f x00 x00 x80 x3f)
(T (W x00 x00 x00 x00 x00 x00 x00 x00)
(L (W x00 x00 x00 x00 x00 x00 x00 x00))
(L (W x00 x00 x00 x00 x6a x45 xff xff)))
(T (W x18 xc3 xfd xff x00 x01 x01 x01)
(L (W x18 xc3 xfe xff x00 x01 x01 x01))
(L (W x00 x00 x80 xbf x00 x00 x80 xbf))))
(T (W x00 x00 x00 x00 x00 x00 x00 x00)
(T (W x45 x26 x22 x84 xe4 x9c xf2 xcb)
(L (W x50 x00 x00 x00 x44 x00 x00 x00))
(L (W xff xff xff xff xa8 x00 x00 x00)))
(T (W xff xff xff xff xff xff xff xff)
(L (W x54 x00 x00 x00 x48 x00 x00 x00))
(L (W xff xff xff xff xe0 x00 x00 x00))))))
(T (W xbc x01 x00 x00 xff xff xff xff)
(T (W x66 x01 x00 x00 xff xff xff xff)
(T (W x3e x00 x00 x00 x9c x00 x00 x00)
(T (W x00 x00 x00 x00 x00 x00 x00 x00)
(L (W x00 x00 x80 x3f x00 x00 x80 x3f))
(L (W xbc x00 x00 x00 x32 x00 x00 x00)))
(T (W x00 x00 x80 x3f x00 x00 x80 x3f)
(L (W x00 x00 x80 x3f x00 x00 x80 x3f))
(L (W x00 x00 x00 x00 x90 xb4 xff xff))))
(T (W x00 x00 x80 x3f x00 x00 x80 x3f)
(T (W xff xff xff xff xff xff xff xff)
(L (W xa0 x00 x00 x00 x1e x00 x00 x00))
(L (W x00 x00 x00 x00 x00 x00 x00 x00)))
(T (W x00 x00 x00 x00 x00 x00 x00 x00)
(L (W x00 x00 x80 xbf x00 x00 x80 xbf))
(L (W x00 x00 x80 xbf x00 x00 x80 xbf)))))
(T (W x18 x00 x00 x00 x0c x00 x00 x00)
(T (W x12 xeb xfc xff x74 x00 x00 x00)
(T (W x00 x00 x80 x3f x00 x00 x80 x3f)
(L (W xff xff xff xff xff xff xff xff))
(L (W x45 x44 x00 x00 x00 x00 x00 x00)))
(T (W xff xff xff xff xff xff xff xff)
(L (W x04 x00 x00 x00 x6a xd9 xfe xff))
(L (W x00 x00 x80 xbf x00 x00 x80 xbf))))
(T (W x00 x00 x80 x3f x00 x00 x80 x3f)
(T (W xff xff xff xff xc4 x00 x00 x00)
(L (W xbc x00 x00 x00 x0a x00 x00 x00))
(L (W x00 x00 x80 xbf x00 x00 x80 xbf)))
(T (W x45 x26 x22 x84 xe4 x9c xf2 xcb)
(L (W x00 x00 x80 xbf x00 x00 x80 xbf)) E)))))
(T (W x00 x00 x00 x00 x00 x00 x00 x00)
(T (W x37 x93 x93 x5f x1e x89 xe0 x8a)
(T (W xff xff xff xff xff xff xff xff)
(T (W x18 x00 x00 x00 x10 x00 x00 x00)
(T (W x00 x00 x00 x00 x00 x00 x00 x00)
(L (W x68 x00 x00 x00 x5c x00 x00 x00))
(L (W x6c x00 x00 x00 x60 x00 x00 x00)))
(T (W x00 x00 x00 x00 x00 x00 x00 x00)
(L (W x00 x00 x00 x00 x00 x00 x00 x00))
(L (W x00 x00 x80 xbf x00 x00 x80 xbf))))
(T (W x00 x00 x80 x3f x00 x00 x80 x3f)
(T (W xff xff xff xff x9c x00 x00 x00)
(L (W xff xff xff xff xff xff xff xff))
(L (W x45 x26 x22 x84 xe4 x9c xf2 xcb)))
(T (W x00 x00 x00 x00 x00 x00 x00 x00)
(L (W x00 x00 x00 x00 x00 x00 x00 x00))
(L (W x00 x00 x01 x01 xad x00 x00 x00)))))
(T (W xff xff xff xff x04 x00 x00 x00)
(T (W x68 x00 x00 x00 x5c x00 x00 x00)
(T (W x00 x00 x80 x3f x00 x00 x80 x3f)
(L (W x5f x77 x69 x6c x64 x5f x70 x6f))
(L (W x00 x00 x00 x00 x00 x00 x00 x00)))
(T (W xff xff xff xff xff xff xff xff)
(L (W xb0 x00 x00 x00 x64 x00 x00 x00))
(L (W x00 x00 x80 xbf x00 x00 x80 xbf))))
(T (W x00 x00 x80 x3f x00 x00 x80 x3f)
(T (W x54 x00 x00 x00 x48 x00 x00 x00)
(L (W x12 x00 x00 x00 x46 x53 x59 x53))
(L (W x00 x00 x80 xbf x00 x00 x80 xbf)))
(T (W xff xff xff xff xff xff xff xff)
(L (W x5a x0f xff xff x78 x00 x00 x00)) E))))
(T (W xff xff xff xff xff xff xff xff)
(T (W xff xff xff xff xff xff xff xff)
(T (W x68 x00 x00 x00 x5c x00 x00 x00)
(T (W x00 x00 x00 x00 x00 x00 x00 x00)
(L (W xff xff xff xff xff xff xff xff))
(L (W xff xff xff xff xff xff xff xff)))
(T (W x00 x00 x80 x3f x00 x00 x80 x3f)
(L (W x00 x00 x80 x3f x00 x00 x80 x3f))
(L (W x74 x00 x00 x00 x68 x00 x00 x00))))
(T (W x00 x00 x00 x00 x00 x00 x00 x00)
(T (W x00 x00 x00 x00 x00 x00 x00 x00)
(L (W xb4 x81 xfe xff x28 x00 x00 x00))
(L (W x00 x00 x80 xbf x00 x00 x80 xbf)))
(T (W x52 xae xff xff xb2 x01 x00 x00)
(L (W x6c x00 x00 x00 x60 x00 x00 x00))
(L (W x46 x53 x59 x53 x5f x4e x53 x5f)))))
(T (W x12 xb3 xfc xff x74 x00 x00 x00)
(T (W x18 xdb xfc xff x00 x01 x01 x01)
(T (W x00 x00 x80 x3f x00 x00 x80 x3f)
(L (W x00 x00 x01 x01 x29 x00 x00 x00))
(L (W x00 x00 x00 x00 x00 x00 x00 x00)))
(T (W x00 x00 x00 x00 x00 x00 x00 x00)
(L (W x42 x00 x00 x00 xff xff xff xff))
(L (W x00 x00 x00 x00 x00 x00 x00 x00))))
(T (W x45 x26 x22 x84 xe4 x9c xf2 xcb)
(T (W xff xff xff xff xff xff xff xff)
(L (W x00 x00 x00 x00 x00 x00 x00 x00))
(L (W x00 x00 x80 xbf x00 x00 x80 xbf)))
(T (W x45 x26 x22 x84 xe4 x9c xf2 xcb)
(L (W x00 x00 x80 xbf x00 x00 x80 xbf)) E))))))))
(T (W x80 x0d x01 x00 x34 x0b x01 x00)
(T (W x04 x00 x00 x00 x8a xe7 xfd xff)
(T (W x68 x00 x00 x00 x5c x00 x00 x00)
(T (W x18 x2e xfc xff x00 x01 x01 x01)
(T (W x68 x00 x00 x00 x5c x00 x00 x00)
(T (W x45 x26 x22 x84 xe4 x9c xf2 xcb)
(T (W x3e x00 x00 x00 x10 x00 x00 x00)
(T (W x01 x00 x00 x00 x9c x00 x00 x00)
(L (W x12 x36 xfe xff x74 x00 x00 x00))
(L (W xc8 x00 x00 x00 xff xff xff xff)))
(T (W x4f x84 x6f x8b xe8 xcb x63 xb7)
(L (W x6c x64 x5f x70 x6f x6b x65 x5f))
(L (W xff xff xff xff xff xff xff xff))))
(T (W xff xff xff xff xff xff xff xff)
(T (W xff xff xff xff xff xff xff xff)
(L (W x44 x00 x00 x00 x00 x00 x80 xbf))
(L (W xff xff xff xff xff xff xff xff)))
(T (W x50 x00 x00 x00 x44 x00 x00 x00)
(L (W x6c x00 x00 x00 x60 x00 x00 x00))
(L (W x00 x00 x80 xbf x00 x00 x80 xbf)))))
(T (W x00 x00 x00 x00 x00 x00 x00 x00)
(T (W xff xff xff xff xff xff xff xff)
(T (W x18 x3e xfd xff x00 x01 x01 x01)
(L (W x12 x56 xfe xff x74 x00 x00 x00))
(L (W x00 x00 x00 x00 x00 x00 x00 x00)))
(T (W xff xff xff xff xff xff xff xff)
(L (W xff xff xff xff xff xff xff xff))
(L (W x00 x00 x00 x00 x00 x00 x00 x00))))
(T (W x64 x00 x00 x00 x9c x00 x00 x00)
(T (W x00 x00 x80 x3f x00 x00 x80 x3f)
(L (W x45 x26 x22 x84 xe4 x9c xf2 xcb))
(L (W xff xff xff xff xff xff xff xff)))
(T (W x45 x26 x22 x84 xe4 x9c xf2 xcb)
(L (W xff xff xff xff xff xff xff xff))
(L (W xb5 x01 x00 x00 xff xff xff xff))))))
(T (W x00 x00 x80 x3f x00 x00 x80 x3f)
(T (W x00 x00 x00 x00 x00 x00 x00 x00)
(T (W xff xff xff xff xff xff xff xff)
(T (W xc0 x00 x00 x00 xb4 x00 x00 x00)
(L (W xff xff xff xff xff xff xff xff))
(L (W x00 x00 x00 x00 x00 x00 x00 x00)))
(T (W x18 x00 x00 x00 x0c x00 x00 x00)
(L (W xff xff xff xff xff xff xff xff))
(L (W xff xff xff xff xff xff xff xff))))
(T (W xff xff xff xff xff xff xff xff)
(T (W x00 x00 x00 x00 x00 x00 x00 x00)
(L (W x00 x00 x00 x00 x00 x00 x00 x00))
(L (W xff xff xff xff xb0 x00 x00 x00)))
(T (W x50 x00 x00 x00 x44 x00 x00 x00)
(L (W xff xff xff xff xff xff xff xff))
(L (W x00 x00 x80 xbf x00 x00 x80 xbf)))))
(T (W x00 x00 x00 x00 x00 x00 x00 x00)
(T (W xff xff xff xff xff xff xff xff)
(T (W xff xff xff xff xff xff xff xff)
(L (W x00 x00 x00 x00 x00 x00 x00 x00))
(L (W x00 x01 x01 x01 xd2 x4a xff xff)))
(T (W x00 x00 x00 x00 x00 x00 x00 x00)
(L (W x00 x00 x00 x00 x00 x00 x00 x00))
(L (W xff xff xff xff xff xff xff xff))))
(T (W xb8 x00 x00 x00 xac x00 x00 x00)
(T (W xff xff xff xff xff xff xff xff)
(L (W x6c x00 x00 x00 x60 x00 x00 x00))
(L (W xff xff xff xff xff xff xff xff)))
(T (W xff xff xff xff xff xff xff xff)
(L (W xff xff xff xff xff xff xff xff)) E)))))
(T (W x50 x00 x00 x00 x44 x00 x00 x00)
(T (W x12 x5e xfc xff x74 x00 x00 x00)
(T (W x00 x00 x00 x00 x00 x00 x00 x00)
(T (W xc2 x5a xfe xff x00 x00 x01 x01)
(T (W x0a x00 x00 x00 x3e x00 x00 x00)
(L (W xc2 xda xff xff x00 x00 x01 x01))
(L (W xff xff xff xff xff xff xff xff)))
(T (W x54 x00 x00 x00 x48 x00 x00 x00)
(L (W xff xff xff xff xff xff xff xff))
(L (W xff xff xff xff xff xff xff xff))))
(T (W xff xff xff xff xff xff xff xff)
(T (W xb4 x01 x00 x00 xff xff xff xff)
(L (W x00 x00 x00 x00 x00 x00 x00 x00))
(L (W x6c x00 x00 x00 x60 x00 x00 x00)))
(T (W x50 x00 x00 x00 x44 x00 x00 x00)
(L (W x12 xfe xfe xff x74 x00 x00 x00))
(L (W x00 x00 x00 x00 x00 x00 x00 x00)))))
(T (W x00 x00 x00 x00 x00 x00 x00 x00)
(T (W x1c x01 x00 x00 x04 x00 x00 x00)
(T (W x00 x00 x80 x3f x00 x00 x80 x3f)
(L (W x00 x00 x80 x3f x00 x00 x80 x3f))
(L (W x45 x26 x22 x84 xe4 x9c xf2 xcb)))
(T (W x4c x45 x41 x52 x45 x44 x00 x00)
(L (W xd8 x00 x00 x00 xff xff xff xff))
(L (W x04 x00 x00 x00 xca xc3 xff xff))))
(T (W xff xff xff xff xff xff xff xff)
(T (W xff xff xff xff xff xff xff xff)
(L (W x36 x00 x00 x00 x10 x00 x00 x00))
(L (W xff xff xff xff xff xff xff xff)))
(T (W x00 x00 x00 x00 x00 x00 x00 x00)
(L (W xff xff xff xff xff xff xff xff)) E))))
(T (W x00 x00 x80 x3f x00 x00 x80 x3f)
(T (W x00 x00 x00 x00 x00 x00 x00 x00)
(T (W xff xff xff xff xff xff xff xff)
(T (W x12 x4e xfd xff x74 x00 x00 x00)
(L (W x70 x00 x00 x00 xff xff xff xff))
(L (W x5c x41 xff xff x1d x00 x00 x00)))
(T (W xff xff xff xff x9c x00 x00 x00)
(L (W xff xff xff xff xff xff xff xff))
(L (W x00 x00 x01 x01 x5f x00 x00 x00))))
(T (W xff xff xff xff xff xff xff xff)
(T (W x49 xa1 x68 x4a xeb x5f xdd x3d)
(L (W x00 x00 x00 x00 x00 x00 x00 x00))
(L (W x18 x00 x00 x00 x10 x00 x00 x00)))
(T (W x00 x00 x80 x3f x00 x00 x80 x3f)
(L (W xff xff xff xff xff xff xff xff))
(L (W x00 x00 x00 x00 x62 xf5 xff xff)))))
(T (W x00 x00 x00 x00 x00 x00 x00 x00)
(T (W xff xff xff xff xff xff xff xff)
(T (W xff xff xff xff xbc x00 x00 x00)
(L (W x00 x00 x00 x00 x00 x00 x00 x00))
(L (W x5a x5a xff xff x78 x00 x00 x00)))
(T (W x00 x00 x80 x3f x00 x00 x80 x3f)
(L (W x00 x00 x80 xbf x00 x00 x80 xbf))
(L (W xff xff xff xff xff xff xff xff))))
(T (W x45 x26 x22 x84 xe4 x9c xf2 xcb)
(T (W x00 x00 x00 x00 x00 x00 x00 x00)
(L (W x00 x00 x00 x00 x00 x00 x00 x00))
(L (W xff xff xff xff xff xff xff xff)))
(T (W xff xff xff xff xff xff xff xff)
(L (W xff xff xff xff xff xff xff xff)) E))))))
(T (W x52 xdd xfd xff xd3 x02 x00 x00)
(T (W x00 x00 x00 x00 x00 x00 x00 x00)
(T (W xc1 x01 x00 x00 xff xff xff xff)
(T (W xff xff xff xff xff xff xff xff)
(T (W x12 xba xfc xff x74 x00 x00 x00)
(T (W x00 x00 x00 x00 x00 x00 x00 x00)
(L (W x00 x00 x00 x00 x00 x00 x00 x00))
(L (W x00 x00 x80 xbf x00 x00 x80 xbf)))
(T (W xff xff xff xff xff xff xff xff)
(L (W xff xff xff xff xff xff xff xff))
(L (W x00 x00 x00 x00 x00 x00 x00 x00))))
(T (W x00 x00 x80 x3f x00 x00 x80 x3f)
(T (W x00 x00 x80 x3f x00 x00 x80 x3f)
(L (W xff xff xff xff xff xff xff xff))
(L (W x00 x00 x00 x00 x00 x00 x00 x00)))
(T (W x00 x00 x00 x00 x00 x00 x00 x00)
(L (W x70 x00 x00 x00 xff xff xff xff))
(L (W x00 x00 x00 x00 x62 xe1 xff xff)))))
(T (W x18 x00 x00 x00 x0c x00 x00 x00)
(T (W x00 x00 x80 x3f x00 x00 x80 x3f)
(T (W x00 x00 x00 x00 x00 x00 x00 x00)
(L (W x18 x01 x00 x00 x04 x00 x00 x00))
(L (W xff xff xff xff xff xff xff xff)))
(T (W x50 x00 x00 x00 x44 x00 x00 x00)
(L (W x00 x00 x80 xbf x00 x00 x80 xbf))
(L (W x49 xa1 x68 x4a xeb x5f xdd x3d))))
(T (W x00 x00 x00 x00 x00 x00 x00 x00)
(T (W x00 x00 x00 x00 x00 x00 x00 x00)
(L (W x45 x26 x22 x84 xe4 x9c xf2 xcb))
(L (W x00 x00 x80 xbf x00 x00 x80 xbf)))
(T (W xff xff xff xff xff xff xff xff)
(L (W x00 x00 x80 xbf x00 x00 x80 xbf))
(L (W x00 x00 x00 x00 x00 x00 x00 x00))))))
(T (W xff xff xff xff xff xff xff xff)
(T (W xff xff xff xff x03 x00 x00 x00)
(T (W x00 x00 x80 x3f x00 x00 x80 x3f)
(T (W x55 x72 x59 x87 x65 xed x58 x20)
(L (W x45 x26 x22 x84 xe4 x9c xf2 xcb))
(L (W x18 x32 xff xff x00 x01 x01 x01)))
(T (W x00 x00 x00 x00 x00 x00 x00 x00)
(L (W x00 x00 x80 x3f x00 x00 x80 x3f))
(L (W x00 x00 x80 xbf x00 x00 x80 xbf))))
(T (W x00 x00 x00 x00 x00 x00 x00 x00)
(T (W xb0 x00 x00 x00 x64 x00 x00 x00)
(L (W x45 x26 x22 x84 xe4 x9c xf2 xcb))
(L (W x00 x00 x00 x00 x00 x00 x00 x00)))
(T (W x52 xa5 xff xff xbb x01 x00 x00)
(L (W x00 x00 x00 x00 x00 x00 x00 x00))
(L (W x00 x00 x80 xbf x00 x00 x80 xbf)))))
(T (W x00 x00 x80 x3f x00 x00 x80 x3f)
(T (W x50 x00 x00 x00 x44 x00 x00 x00)
(T (W x00 x00 x00 x00 x00 x00 x00 x00)
(L (W xc4 x00 x00 x00 x01 x00 x00 x00))
(L (W xff xff xff xff xff xff xff xff)))
(T (W xff xff xff xff xff xff xff xff)
(L (W xff xff xff xff xbc x00 x00 x00))
(L (W x00 x00 x00 x00 x00 x00 x00 x00))))
(T (W x00 x00 x00 x00 x00 x00 x00 x00)
(T (W x45 x26 x22 x84 xe4 x9c xf2 xcb)
(L (W x00 x00 x80 x3f x00 x00 x80 x3f))
(L (W x45 x26 x22 x84 xe4 x9c xf2 xcb)))
(T (W x45 x26 x22 x84 xe4 x9c xf2 xcb)
(L (W x00 x00 x80 xbf x00 x00 x80 xbf)) E)))))
(T (W x3c xb7 x1b x07 x43 x4f x05 x39)
(T (W xff xff xff xff xff xff xff xff)
(T (W xff xff xff xff xff xff xff xff)
(T (W x18 xaa xfc xff x00 x01 x01 x01)
(T (W x00 x00 x00 x00 x00 x00 x00 x00)
(L (W x00 x00 x80 x3f x00 x00 x80 x3f))
(L (W x00 x00 x80 xbf x00 x00 x80 xbf)))
(T (W x45 x44 x00 x00 x00 x00 x00 x00)
(L (W x5f x77 x69 x6c x64 x5f x70 x6f))
(L (W x00 x00 x00 x00 x00 x00 x00 x00))))
(T (W x00 x00 x00 x00 x00 x00 x00 x00)
(T (W x5a x6e xfd xff x78 x00 x00 x00)
(L (W xff xff xff xff xb0 x00 x00 x00))
(L (W x00 x00 x00 x00 x00 x00 x00 x00)))
(T (W xc2 x01 x00 x00 xff xff xff xff)
(L (W x00 x00 x00 x00 x00 x00 x00 x00))
(L (W x23 x00 x00 x00 xff xff xff xff)))))
(T (W x12 xa2 xfc xff x74 x00 x00 x00)
(T (W x00 x00 x80 x3f x00 x00 x80 x3f)
(T (W x00 x00 x00 x00 x00 x00 x00 x00)
(L (W xff xff xff xff xff xff xff xff))
(L (W x94 x01 x00 x00 xff xff xff xff)))
(T (W x2b x00 x00 x00 x2e x00 x00 x00)
(L (W x18 xca xfe xff x00 x01 x01 x01))
(L (W x45 x26 x22 x84 xe4 x9c xf2 xcb))))
(T (W x00 x00 x10 x00 x14 x00 x18 x00)
(T (W x45 x26 x22 x84 xe4 x9c xf2 xcb)
(L (W x32 xb3 xfe xff x00 x00 x01 x01))
(L (W x49 xa1 x68 x4a xeb x5f xdd x3d)))
(T (W xb8 x00 x00 x00 xac x00 x00 x00)
(L (W x00 x00 x00 x00 x00 x00 x00 x00)) E))))
(T (W xff xff xff xff xff xff xff xff)
(T (W xff xff xff xff xff xff xff xff)
(T (W x00 x00 x80 x3f x00 x00 x80 x3f)
(T (W x52 xed xfe xff x4a x00 x00 x00)
(L (W x45 x26 x22 x84 xe4 x9c xf2 xcb))
(L (W x45 x26 x22 x84 xe4 x9c xf2 xcb)))
(T (W x00 x00 x00 x00 x00 x00 x00 x00)
(L (W x49 xa1 x68 x4a xeb x5f xdd x3d))
(L (W x3c x00 x00 x00 x00 x00 x80 xbf))))
(T (W x00 x00 x00 x00 x00 x00 x00 x00)
(T (W xff xff xff xff xff xff xff xff)
(L (W xff xff xff xff xff xff xff xff))
(L (W x00 x00 x00 x00 x00 x00 x00 x00)))
(T (W xff xff xff xff xff xff xff xff)
(L (W x45 x26 x22 x84 xe4 x9c xf2 xcb))
(L (W x00 x00 x01 x01 xdf x01 x00 x00)))))
(T (W x68 x00 x00 x00 x5c x00 x00 x00)
(T (W x00 x00 x80 x3f x00 x00 x80 x3f)
(T (W x4f x84 x6f x8b xe8 xcb x63 xb7)
(L (W xff xff xff xff xff xff xff xff))
(L (W x46 x53 x59 x53 x5f x4e x53 x5f)))
(T (W x38 x01 x00 x00 x04 x00 x00 x00)
(L (W xff xff xff xff xff xff xff xff))
(L (W xff xff xff xff xff xff xff xff))))
(T (W x00 x00 x00 x00 x00 x00 x00 x00)
(T (W xff xff xff xff x9c x00 x00 x00)
(L (W x46 x53 x59 x53 x5f x4e x53 x5f))
(L (W x00 x00 x00 x00 x00 x00 x00 x00)))
(T (W x00 x00 x00 x00 x00 x00 x00 x00)
(L (W x45 x26 x22 x84 xe4 x9c xf2 xcb)) E)))))))
(T (W x45 x26 x22 x84 xe4 x9c xf2 xcb)
(T (W xff xff xff xff xff xff xff xff)
(T (W xff xff xff xff xff xff xff xff)
(T (W x45 x26 x22 x84 xe4 x9c xf2 xcb)
(T (W x12 x78 xfc xff x74 x00 x00 x00)
(T (W x00 x00 x00 x00 x00 x00 x00 x00)
(T (W xff xff xff xff xff xff xff xff)
(L (W xff xff xff xff xff xff xff xff))
(L (W x00 x00 x00 x00 x12 x00 x00 x00)))
(T (W xff xff xff xff xac x00 x00 x00)
(L (W x00 x00 x80 x3f x00 x00 x80 x3f))
(L (W x00 x00 x00 x00 x00 x00 x00 x00))))
(T (W x3e x00 x00 x00 x0c x00 x00 x00)
(T (W x00 x00 x00 x00 x00 x00 x00 x00)
(L (W x23 x00 x00 x00 x26 x00 x00 x00))
(L (W x00 x00 x01 x01 x5d x00 x00 x00)))
(T (W xff xff xff xff xff xff xff xff)
(L (W xff xff xff xff xc0 x00 x00 x00))
(L (W xff xff xff xff x9c x00 x00 x00)))))
(T (W x45 x26 x22 x84 xe4 x9c xf2 xcb)
(T (W x00 x00 x00 x00 x00 x00 x00 x00)
(T (W x00 x00 x00 x00 x00 x00 x00 x00)
(L (W xff xff xff xff xff xff xff xff))
(L (W x54 x00 x00 x00 x48 x00 x00 x00)))
(T (W x00 x00 x00 x00 x00 x00 x00 x00)
(L (W x00 x00 x00 x00 x00 x00 x00 x00))
(L (W x00 x00 x00 x00 x12 x00 x00 x00))))
(T (W x4a xbe xff xff x70 x00 x00 x00)
(T (W xff xff xff xff xff xff xff xff)
(L (W x04 x00 x00 x00 xf2 x80 xfe xff))
(L (W x00 x00 x00 x00 x00 x00 x00 x00)))
(T (W x50 x00 x00 x00 x44 x00 x00 x00)
(L (W x4b x00 x00 x00 xff xff xff xff))
(L (W x74 x00 x00 x00 x68 x00 x00 x00))))))
(T (W x0a x00 x00 x00 x3e x00 x00 x00)
(T (W x00 x00 x80 x3f x00 x00 x80 x3f)
(T (W x00 x00 x00 x00 x00 x00 x00 x00)
(T (W xff xff xff xff xff xff xff xff)
(L (W x00 x00 x00 x00 x00 x00 x00 x00))
(L (W x00 x00 x00 x00 x00 x00 x00 x00)))
(T (W xff xff xff xff xff xff xff xff)
(L (W x00 x00 x00 x00 x00 x00 x00 x00))
(L (W x30 x34 x5f x43 x4c x45 x41 x52))))
(T (W xff xff xff xff xff xff xff xff)
(T (W x00 x00 x80 x3f x00 x00 x80 x3f)
(L (W x3c x00 x00 x00 x00 x00 x80 xbf))
(L (W x2c x02 x00 x00 x28 x01 x00 x00)))
(T (W xff xff xff xff xff xff xff xff)
(L (W x00 x00 x00 x00 x62 xef xfe xff))
(L (W xff xff xff xff xff xff xff xff)))))
(T (W x00 x00 x80 x3f x00 x00 x80 x3f)
(T (W x00 x00 x00 x00 x00 x00 x00 x00)
(T (W x64 x00 x00 x00 xff xff xff xff)
(L (W x84 x00 x10 x00 x00 x00 x14 x00))
(L (W xcc x00 x00 x00 x01 x00 x00 x00)))
(T (W x12 xe8 xfd xff x74 x00 x00 x00)
(L (W x00 x00 x80 xbf x00 x00 x80 xbf))
(L (W x12 xe8 xff xff x74 x00 x00 x00))))
(T (W xe5 x2b x34 x29 x3e x52 x68 xfc)
(T (W x00 x00 x00 x00 x00 x00 x00 x00)
(L (W xff xff xff xff xff xff xff xff))
(L (W x00 x00 x00 x00 x6a x96 xff xff)))
(T (W x00 x00 x00 x00 x00 x00 x00 x00)
(L (W x46 x53 x59 x53 x5f x4e x53 x5f)) E)))))
(T (W xb8 x00 x00 x00 xac x00 x00 x00)
(T (W x01 x00 x00 x00 x9c x00 x00 x00)
(T (W x18 x68 xfc xff x00 x01 x01 x01)
(T (W x45 x26 x22 x84 xe4 x9c xf2 xcb)
(T (W xff xff xff xff xff xff xff xff)
(L (W x00 x00 x00 x00 x00 x00 x00 x00))
(L (W x5c x33 xff xff x35 x00 x00 x00)))
(T (W xb0 x00 x00 x00 x28 x00 x00 x00)
(L (W x00 x00 x80 x3f x00 x00 x80 x3f))
(L (W x00 x00 x00 x00 x00 x00 x00 x00))))
(T (W xc2 x9c xfe xff x00 x00 x01 x01)
(T (W x00 x00 x00 x00 x00 x00 x00 x00)
(L (W x00 x00 x80 xbf x00 x00 x80 xbf))
(L (W xff xff xff xff xff xff xff xff)))
(T (W xff xff xff xff x03 x00 x00 x00)
(L (W xff xff xff xff xff xff xff xff))
(L (W x18 x00 x1c x00 x20 x00 x24 x00)))))
(T (W x00 x00 x80 x3f x00 x00 x80 x3f)
(T (W x00 x00 x00 x00 x00 x00 x00 x00)
(T (W xff xff xff xff xff xff xff xff)
(L (W x00 x00 x00 x00 x90 x49 xfe xff))
(L (W xbc x00 x00 x00 x3c x00 x00 x00)))
(T (W x49 xa1 x68 x4a xeb x5f xdd x3d)
(L (W x4f x84 x6f x8b xe8 xcb x63 xb7))
(L (W x00 x00 x00 x00 x00 x00 x00 x00))))
(T (W x00 x00 x00 x00 x00 x00 x00 x00)
(T (W x20 x00 x00 x00 x0c x00 x00 x00)
(L (W x00 x00 x80 xbf x00 x00 x80 xbf))
(L (W x45 x44 x00 x00 x00 x00 x00 x00)))
(T (W x00 x00 x80 x3f x00 x00 x80 x3f)
(L (W x00 x00 x00 x00 x00 x00 x00 x00)) E))))
(T (W xc0 x00 x00 x00 xb4 x00 x00 x00)
(T (W x00 x00 x80 x3f x00 x00 x80 x3f)
(T (W x00 x00 x00 x00 x00 x00 x00 x00)
(T (W xff xff xff xff xff xff xff xff)
(L (W x00 x00 x00 x00 x00 x00 x00 x00))
(L (W x00 x00 x80 xbf x00 x00 x80 xbf)))
(T (W x00 x00 x00 x00 x00 x00 x00 x00)
(L (W x45 x44 x00 x00 x00 x00 x00 x00))
(L (W x00 x00 x00 x00 x00 x00 x00 x00))))
(T (W x70 x00 x00 x00 xff xff xff xff)
(T (W x45 x26 x22 x84 xe4 x9c xf2 xcb)
(L (W x68 x00 x00 x00 x5c x00 x00 x00))
(L (W x7b x00 x00 x00 xff xff xff xff)))
(T (W xb8 x00 x00 x00 xac x00 x00 x00)
(L (W x00 x00 x00 x00 x00 x00 x00 x00))
(L (W x00 x00 x00 x00 x00 x00 x00 x00)))))
(T (W x00 x00 x80 x3f x00 x00 x80 x3f)
(T (W x00 x00 x00 x00 x00 x00 x00 x00)
(T (W x45 x44 x00 x00 x00 x00 x00 x00)
(L (W x12 x70 xfe xff x74 x00 x00 x00))
(L (W xff xff xff xff xff xff xff xff)))
(T (W xff xff xff xff xb0 x00 x00 x00)
(L (W x18 xd8 xfe xff x00 x01 x01 x01))
(L (W x49 xa1 x68 x4a xeb x5f xdd x3d))))
(T (W x5c x00 x00 x00 xff xff xff xff)
(T (W x00 x00 x80 x3f x00 x00 x80 x3f)
(L (W xbc x00 x00 x00 x0a x00 x00 x00))
(L (W x12 xb0 xff xff x74 x00 x00 x00)))
(T (W xc2 xcc xff xff x00 x00 x01 x01)
(L (W x00 x00 x00 x00 x6a x1e xff xff)) E))))))
(T (W x00 x00 x00 x00 x00 x00 x00 x00)
(T (W x00 x00 x00 x00 x00 x00 x00 x00)
(T (W x00 x00 x00 x00 x00 x00 x00 x00)
(T (W x52 x17 xfe xff xb4 x01 x00 x00)
(T (W x18 x00 x00 x00 x10 x00 x00 x00)
(T (W x00 x00 x80 x3f x00 x00 x80 x3f)
(L (W x12 x3c xfe xff x74 x00 x00 x00))
(L (W x18 x24 xff xff x00 x01 x01 x01)))
(T (W x00 x00 x00 x00 x00 x00 x00 x00)
(L (W x49 xa1 x68 x4a xeb x5f xdd x3d))
(L (W x00 x00 x80 xbf x00 x00 x80 xbf))))
(T (W x40 x00 x00 x00 x9c x00 x00 x00)
(T (W x18 x00 x00 x00 x10 x00 x00 x00)
(L (W x18 x65 xca xc9 x03 x8c xa3 xbc))
(L (W x45 x26 x22 x84 xe4 x9c xf2 xcb)))
(T (W x45 x26 x22 x84 xe4 x9c xf2 xcb)
(L (W x00 x00 x00 x00 x00 x00 x00 x00))
(L (W x18 x00 x00 x00 x0c x00 x00 x00)))))
(T (W xff xff xff xff xff xff xff xff)
(T (W x18 x00 x00 x00 x0c x00 x00 x00)
(T (W x00 x00 x00 x00 x00 x00 x00 x00)
(L (W x00 x00 x00 x00 x00 x00 x00 x00))
(L (W x00 x00 x00 x00 x00 x00 x00 x00)))
(T (W xb0 x00 x00 x00 x28 x00 x00 x00)
(L (W xbc x00 x00 x00 x64 x00 x00 x00))
(L (W x5c x00 x00 x00 x50 x00 x00 x00))))
(T (W x00 x00 x80 x3f x00 x00 x80 x3f)
(T (W x00 x00 x80 x3f x00 x00 x80 x3f)
(L (W xb0 x00 x00 x00 x64 x00 x00 x00))
(L (W xff xff xff xff xff xff xff xff)))
(T (W x52 xb7 xff xff x66 x01 x00 x00)
(L (W x18 x04 xff xff x00 x01 x01 x01))
(L (W x6c x00 x08 x00 x00 x00 x00 x00))))))
(T (W x00 x00 x00 x00 x00 x00 x00 x00)
(T (W x00 x00 x00 x00 x00 x00 x00 x00)
(T (W xc0 x00 x00 x00 xb4 x00 x00 x00)
(T (W x45 x26 x22 x84 xe4 x9c xf2 xcb)
(L (W x68 x00 x00 x00 x5c x00 x00 x00))
(L (W xff xff xff xff xff xff xff xff)))
(T (W x00 x00 x80 x3f x00 x00 x80 x3f)
(L (W x00 x00 x00 x00 x90 xb5 xfe xff))
(L (W xff xff xff xff xb0 x00 x00 x00))))
(T (W x6c x00 x00 x00 x60 x00 x00 x00)
(T (W x00 x00 x00 x00 x00 x00 x00 x00)
(L (W xff xff xff xff xff xff xff xff))
(L (W x00 x00 x80 xbf x00 x00 x80 xbf)))
(T (W x00 x00 x00 x00 x00 x00 x00 x00)
(L (W x68 x00 x00 x00 x5c x00 x00 x00))
(L (W x00 x00 x00 x00 x90 xf5 xff xff)))))
(T (W xff xff xff xff xff xff xff xff)
(T (W x45 x26 x22 x84 xe4 x9c xf2 xcb)
(T (W x68 x00 x00 x00 x5c x00 x00 x00)
(L (W x04 x00 x00 x00 xf2 x54 xfe xff))
(L (W x00 x00 x00 x00 x00 x00 x00 x00)))
(T (W x45 x44 x00 x00 x00 x00 x00 x00)
(L (W x00 x00 x00 x00 x12 x00 x00 x00))
(L (W x5a xd8 xff xff x78 x00 x00 x00))))
(T (W x68 x00 x00 x00 x5c x00 x00 x00)
(T (W xff xff xff xff xff xff xff xff)
(L (W x76 x32 x00 x00 xf2 x94 xfe xff))
(L (W x68 x00 x00 x00 x5c x00 x00 x00)))
(T (W x54 x00 x00 x00 x48 x00 x00 x00)
(L (W x03 x00 x00 x00 xd0 x00 x00 x00)) E)))))
(T (W x00 x00 x00 x00 x00 x00 x00 x00)
(T (W x00 x00 x00 x00 x00 x00 x00 x00)
(T (W x00 x00 x00 x00 x00 x00 x00 x00)
(T (W xb8 x00 x00 x00 xac x00 x00 x00)
(T (W x00 x00 x80 x3f x00 x00 x80 x3f)
(L (W x12 x44 xfe xff x74 x00 x00 x00))
(L (W x18 x00 x00 x00 x10 x00 x00 x00)))
(T (W x4f x84 x6f x8b xe8 xcb x63 xb7)
(L (W x00 x00 x80 x3f x00 x00 x80 x3f))
(L (W x12 xc4 xff xff x74 x00 x00 x00))))
(T (W x50 x00 x00 x00 x44 x00 x00 x00)
(T (W xff xff xff xff xff xff xff xff)
(L (W xff xff xff xff xff xff xff xff))
(L (W x00 x00 x80 xbf x00 x00 x80 xbf)))
(T (W x1b x00 x00 x00 x67 x72 x6f x75)
(L (W x00 x00 x80 xbf x00 x00 x80 xbf))
(L (W x45 x44 x00 x00 x00 x00 x00 x00)))))
(T (W xff xff xff xff xff xff xff xff)
(T (W x12 xe4 xfc xff x74 x00 x00 x00)
(T (W x00 x00 x80 x3f x00 x00 x80 x3f)
(L (W x18 x00 x00 x00 x0c x00 x00 x00))
(L (W x00 x00 x00 x00 x00 x00 x00 x00)))
(T (W xff xff xff xff xff xff xff xff)
(L (W xff xff xff xff xff xff xff xff))
(L (W x12 xe4 xff xff x74 x00 x00 x00))))
(T (W x00 x00 x80 x3f x00 x00 x80 x3f)
(T (W x45 x26 x22 x84 xe4 x9c xf2 xcb)
(L (W x45 x26 x22 x84 xe4 x9c xf2 xcb))
(L (W x03 x00 x00 x00 xd0 x00 x00 x00)))
(T (W x14 x00 x18 x00 x05 x00 x06 x00)
(L (W x2b x00 x00 x00 x2e x00 x00 x00)) E))))
(T (W x47 x0d x3b xd5 x81 xfe x20 xbd)
(T (W x48 x03 x00 x00 x34 x02 x00 x00)
(T (W xff xff xff xff xff xff xff xff)
(T (W x00 x00 x00 x00 x00 x00 x00 x00)
(L (W x00 x00 x10 x00 x14 x00 x18 x00))
(L (W x00 x00 x00 x00 x6a x3e xff xff)))
(T (W x18 x00 x00 x00 x0c x00 x00 x00)
(L (W x6c x00 x00 x00 x60 x00 x00 x00))
(L (W x14 x00 x00 x00 x0c x00 x00 x00))))
(T (W x00 x00 x80 x3f x00 x00 x80 x3f)
(T (W x00 x00 x00 x00 x00 x00 x00 x00)
(L (W x00 x00 x00 x00 x00 x00 x00 x00))
(L (W x5a x80 xff xff x78 x00 x00 x00)))
(T (W x00 x00 x00 x00 x00 x00 x00 x00)
(L (W x45 x26 x22 x84 xe4 x9c xf2 xcb))
(L (W x00 x00 x80 xbf x00 x00 x80 xbf)))))
(T (W xff xff xff xff x04 x00 x00 x00)
(T (W x18 x00 x00 x00 x10 x00 x00 x00)
(T (W x45 x26 x22 x84 xe4 x9c xf2 xcb)
(L (W x30 x34 x5f x43 x4c x45 x41 x52))
(L (W x00 x00 x80 xbf x00 x00 x80 xbf)))
(T (W x45 x26 x22 x84 xe4 x9c xf2 xcb)
(L (W x00 x00 x00 x00 x00 x00 x00 x00))
(L (W x00 x00 x00 x00 x00 x00 x00 x00))))
(T (W x12 x34 xfd xff x74 x00 x00 x00)
(T (W x00 x00 x00 x00 x00 x00 x00 x00)
(L (W x6c x00 x00 x00 x60 x00 x00 x00))
(L (W x00 x00 x80 xbf x00 x00 x80 xbf)))
(T (W x00 x00 x80 x3f x00 x00 x80 x3f)
(L (W x68 x00 x00 x00 x5c x00 x00 x00)) E)))))))))
(T (W xd0 x1b x02 x00 x8c x19 x02 x00)
(T (W xc8 x63 x01 x00 x6c x61 x01 x00)
(T (W x88 x32 x00 x00 x54 x31 x00 x00)
(T (W xb2 x1e xff xff xd4 x02 x00 x00)
(T (W x00 x00 x00 x00 x02 x00 x00 x00)
(T (W xca xfb xfe xff xcc x01 x00 x00)
(T (W xff xff xff xff xff xff xff xff)
(T (W x00 x00 x80 x3f x00 x00 x80 x3f)
(T (W x00 x00 x00 x00 x00 x00 x00 x00)
(L (W x00 x00 x00 x00 x00 x00 x00 x00))
(L (W x00 x00 x80 xbf x00 x00 x80 xbf)))
(T (W x03 x00 x00 x00 xcc x00 x00 x00)
(L (W x00 x00 x80 x3f x00 x00 x80 x3f))
(L (W x49 xa1 x68 x4a xeb x5f xdd x3d))))
(T (W x00 x00 x00 x00 x00 x00 x00 x00)
(T (W x45 x26 x22 x84 xe4 x9c xf2 xcb)
(L (W xff xff xff xff xff xff xff xff))
(L (W x00 x00 x00 x00 x00 x00 x00 x00)))
(T (W xff xff xff xff x01 x00 x00 x00)
(L (W x5d x00 x00 x00 xff xff xff xff))
(L (W xff xff xff xff xff xff xff xff)))))
(T (W x40 x00 x00 x00 x9c x00 x00 x00)
(T (W x00 x00 x80 x3f x00 x00 x80 x3f)
(T (W x00 x00 x00 x00 x02 x00 x00 x00)
(L (W x18 x01 x00 x00 x04 x00 x00 x00))
(L (W x18 x00 x00 x00 x0c x00 x00 x00)))
(T (W x00 x00 x80 x3f x00 x00 x80 x3f)
(L (W x00 x00 x00 x00 x00 x00 x00 x00))
(L (W x3c x00 x00 x00 x00 x00 x80 xbf))))
(T (W x00 x00 x00 x00 x00 x00 x00 x00)
(T (W xff xff xff xff xff xff xff xff)
(L (W xc7 x5a x69 x12 x83 x78 x37 xc6))
(L (W x00 x00 x00 x00 x00 x00 x00 x00)))
(T (W xff xff xff xff xff xff xff xff)
(L (W x00 x00 x00 x00 x00 x00 x00 x00))
(L (W x45 x44 x00 x00 x00 x00 x00 x00))))))
(T (W xff xff xff xff xff xff xff xff)
(T (W x00 x00 x00 x00 x10 x6f xfc xff)
(T (W x45 x26 x22 x84 xe4 x9c xf2 xcb)
(T (W x34 x34 xfd xff x3c x00 x00 x00)
(L (W x45 x26 x22 x84 xe4 x9c xf2 xcb))
(L (W x00 x00 x80 xbf x00 x00 x80 xbf)))
(T (W x04 x00 x00 x00 x80 x03 x00 x00)
(L (W x00 x00 x00 x00 x00 x00 x00 x00))
(L (W x00 x00 x80 xbf x00 x00 x80 xbf))))
(T (W x45 x26 x22 x84 xe4 x9c xf2 xcb)
(T (W x68 x00 x00 x00 x5c x00 x00 x00)
(L (W x23 x00 x00 x00 x26 x00 x00 x00))
(L (W x00 x00 x00 x00 x00 x00 x00 x00)))
(T (W xd2 xa0 xff xff xc1 x01 x00 x00)
(L (W x00 x00 x00 x00 x00 x00 x00 x00))
(L (W xff xff xff xff xff xff xff xff)))))
(T (W x68 x00 x00 x00 x5c x00 x00 x00)
(T (W x45 x26 x22 x84 xe4 x9c xf2 xcb)
(T (W x00 x00 x00 x00 x00 x00 x00 x00)
(L (W x92 x65 xfe xff x74 x00 x00 x00))
(L (W x00 x00 x01 x01 x2a x00 x00 x00)))
(T (W x00 x00 x00 x00 x10 xcf xfd xff)
(L (W x92 xe5 xfe xff x74 x00 x00 x00))
(L (W x00 x00 x80 xbf x00 x00 x80 xbf))))
(T (W x00 x00 x00 x00 x00 x00 x00 x00)
(T (W x00 x00 x80 x3f x00 x00 x80 x3f)
(L (W xd3 x02 x00 x00 xff xff xff xff))
(L (W x00 x00 x80 xbf x00 x00 x80 xbf)))
(T (W x1c x00 x20 x00 x24 x00 x28 x00)
(L (W x00 x00 x80 xbf x00 x00 x80 xbf)) E)))))
(T (W xdf x01 x00 x00 xff xff xff xff)
(T (W x42 x05 xff xff x00 x00 x01 x01)
(T (W x64 x00 x00 x00 x9c x00 x00 x00)
(T (W x00 x00 x80 x3f x00 x00 x80 x3f)
(T (W x00 x00 x00 x00 x00 x00 x00 x00)
(L (W x00 x00 x00 x00 x00 x00 x00 x00))
(L (W x45 x26 x22 x84 xe4 x9c xf2 xcb)))
(T (W xff xff xff xff xff xff xff xff)
(L (W xf1 xd9 xc3 xe9 xc1 xcf xae x64))
(L (W x00 x00 x00 x00 x00 x00 x00 x00))))
(T (W x45 x26 x22 x84 xe4 x9c xf2 xcb)
(T (W x00 x00 x80 x3f x00 x00 x80 x3f)
(L (W xff xff xff xff xb0 x00 x00 x00))
(L (W xdf x01 x00 x00 xff xff xff xff)))
(T (W xc6 x01 x00 x00 xff xff xff xff)
(L (W x62 x16 xff xff x00 x00 x01 x01))
(L (W x18 x00 x00 x00 x10 x00 x00 x00)))))
(T (W x01 x00 x00 x00 x3e x00 x00 x00)
(T (W x00 x00 x80 x3f x00 x00 x80 x3f)
(T (W xff xff xff xff xff xff xff xff)
(L (W xff xff xff xff xff xff xff xff))
(L (W xff xff xff xff xff xff xff xff)))
(T (W x68 x00 x00 x00 x5c x00 x00 x00)
(L (W x00 x00 x80 xbf x00 x00 x80 xbf))
(L (W x45 x26 x22 x84 xe4 x9c xf2 xcb))))
(T (W x00 x00 x00 x00 x00 x00 x00 x00)
(T (W x00 x00 x00 x00 x00 x00 x00 x00)
(L (W x00 x00 x80 xbf x00 x00 x80 xbf))
(L (W x00 x00 x80 xbf x00 x00 x80 xbf)))
(T (W xb8 x00 x00 x00 xac x00 x00 x00)
(L (W x00 x00 x00 x00 x00 x00 x00 x00))
(L (W x00 x00 x00 x00 x00 x00 x00 x00))))))
(T (W xff xff xff xff xff xff xff xff)
(T (W x18 x00 x00 x00 x0c x00 x00 x00)
(T (W x00 x00 x80 x3f x00 x00 x80 x3f)
(T (W x00 x00 x00 x00 x00 x00 x00 x00)
(L (W x00 x00 x00 x00 x00 x00 x00 x00))
(L (W x00 x00 x80 xbf x00 x00 x80 xbf)))
(T (W x46 x53 x59 x53 x5f x4e x53 x5f)
(L (W x00 x00 x00 x00 x00 x00 x00 x00))
(L (W x00 x00 x80 xbf x00 x00 x80 xbf))))
(T (W x00 x00 x00 x00 x00 x00 x00 x00)
(T (W xff xff xff xff xff xff xff xff)
(L (W x84 xec xff xff x01 x01 x01 x01))
(L (W x30 x34 x5f x43 x4c x45 x41 x52)))
(T (W xff xff xff xff xff xff xff xff)
(L (W x00 x00 x00 x00 x00 x00 x00 x00))
(L (W x00 x00 x80 xbf x00 x00 x80 xbf)))))
(T (W xda x99 xfc xff x78 x00 x00 x00)
(T (W x00 x00 x00 x00 x00 x00 x00 x00)
(T (W x00 x00 x00 x00 x00 x00 x00 x00)
(L (W xff xff xff xff x9c x00 x00 x00))
(L (W x00 x00 x00 x00 xea x57 xff xff)))
(T (W xff xff xff xff xff xff xff xff)
(L (W xff xff xff xff xff xff xff xff))
(L (W x00 x00 x00 x00 x00 x00 x00 x00))))
(T (W x00 x00 x00 x00 x00 x00 x00 x00)
(T (W x50 x00 x00 x00 x44 x00 x00 x00)
(L (W xff xff xff xff xa0 x00 x00 x00))
(L (W x4f x84 x6f x8b xe8 xcb x63 xb7)))
(T (W x00 x00 x00 x00 x00 x00 x00 x00)
(L (W x00 x00 x80 xbf x00 x00 x80 xbf)) E))))))
(T (W x00 x00 x80 x3f x00 x00 x80 x3f)
(T (W x50 x00 x00 x00 x44 x00 x00 x00)
(T (W x00 x00 x80 x3f x00 x00 x80 x3f)
(T (W x00 x00 x80 x3f x00 x00 x80 x3f)
(T (W x00 x00 x00 x00 x00 x00 x00 x00)
(T (W x98 x21 xfd xff x00 x01 x01 x01)
(L (W x68 x00 x00 x00 x5c x00 x00 x00))
(L (W xff xff xff xff xff xff xff xff)))
(T (W x00 x00 x80 x3f x00 x00 x80 x3f)
(L (W x30 x34 x5f x43 x4c x45 x41 x52))
(L (W x45 x26 x22 x84 xe4 x9c xf2 xcb))))
(T (W xff xff xff xff xff xff xff xff)
(T (W xff xff xff xff xff xff xff xff)
(L (W x45 x26 x22 x84 xe4 x9c xf2 xcb))
(L (W xff xff xff xff x90 x00 x00 x00)))
(T (W x50 x00 x00 x00 x44 x00 x00 x00)
(L (W x00 x00 x80 xbf x00 x00 x80 xbf))
(L (W x00 x00 x80 xbf x00 x00 x80 xbf)))))
(T (W xdc x8c xfc xff x1b x00 x00 x00)
(T (W xff xff xff xff xff xff xff xff)
(T (W x00 x00 x00 x00 x00 x00 x00 x00)
(L (W x00 x00 x80 x3f x00 x00 x80 x3f))
(L (W x00 x00 x00 x00 x00 x00 x00 x00)))
(T (W xff xff xff xff xff xff xff xff)
(L (W xff xff xff xff xff xff xff xff))
(L (W x03 x00 x00 x00 xd8 x00 x00 x00))))
(T (W x98 x01 xfd xff x00 x01 x01 x01)
(T (W x45 x26 x22 x84 xe4 x9c xf2 xcb)
(L (W xff xff xff xff xff xff xff xff))
(L (W xff xff xff xff xff xff xff xff)))
(T (W x00 x00 x00 x00 x00 x00 x00 x00)
(L (W xff xff xff xff xff xff xff xff))
(L (W x4c x00 x04 x00 x08 x00 x0c x00))))))
(T (W x45 x26 x22 x84 xe4 x9c xf2 xcb)
(T (W x00 x00 x00 x00 x00 x00 x00 x00)
(T (W xff xff xff xff xff xff xff xff)
(T (W x00 x00 x80 x3f x00 x00 x80 x3f)
(L (W xff xff xff xff xff xff xff xff))
(L (W x04 x00 x00 x00 xea x37 xff xff)))
(T (W x68 x00 x00 x00 x5c x00 x00 x00)
(L (W xff xff xff xff xff xff xff xff))
(L (W xff xff xff xff xff xff xff xff))))
(T (W x45 x26 x22 x84 xe4 x9c xf2 xcb)
(T (W x00 x00 x00 x00 x12 x00 x00 x00)
(L (W x00 x00 x00 x00 x00 x00 x00 x00))
(L (W xff xff xff xff x90 x00 x00 x00)))
(T (W x00 x00 x80 x3f x00 x00 x80 x3f)
(L (W x18 x00 x00 x00 x0c x00 x00 x00))
(L (W xff xff xff xff xff xff xff xff)))))
(T (W xff xff xff xff xff xff xff xff)
(T (W xff xff xff xff xff xff xff xff)
(T (W x18 x00 x00 x00 x10 x00 x00 x00)
(L (W x00 x00 x00 x00 x00 x00 x00 x00))
(L (W x00 x00 x80 xbf x00 x00 x80 xbf)))
(T (W x00 x00 x00 x00 x00 x00 x00 x00)
(L (W x00 x00 x00 x00 x00 x00 x00 x00))
(L (W x92 xe9 xff xff x74 x00 x00 x00))))
(T (W x64 x00 x00 x00 x9c x00 x00 x00)
(T (W x38 x01 x00 x00 x04 x00 x00 x00)
(L (W xff xff xff xff xff xff xff xff))
(L (W xbc x00 x00 x00 x64 x00 x00 x00)))
(T (W xff xff xff xff x03 x00 x00 x00)
(L (W xff xff xff xff xff xff xff xff)) E)))))
(T (W x00 x00 x80 x3f x00 x00 x80 x3f)
(T (W x00 x00 x00 x00 x00 x00 x00 x00)
(T (W x00 x00 x00 x00 x00 x00 x00 x00)
(T (W x20 x01 x00 x00 x04 x00 x00 x00)
(T (W x50 x00 x00 x00 x44 x00 x00 x00)
(L (W xff xff xff xff xff xff xff xff))
(L (W xff xff xff xff xff xff xff xff)))
(T (W x54 x00 x00 x00 x48 x00 x00 x00)
(L (W x00 x00 x00 x00 x00 x00 x00 x00))
(L (W xb0 x00 x00 x00 x64 x00 x00 x00))))
(T (W xb8 x00 x00 x00 xac x00 x00 x00)
(T (W x04 x00 x00 x00 x72 x6a xfd xff)
(L (W x00 x00 x00 x00 x00 x00 x00 x00))
(L (W x45 x26 x22 x84 xe4 x9c xf2 xcb)))
(T (W x45 x26 x22 x84 xe4 x9c xf2 xcb)
(L (W x45 x26 x22 x84 xe4 x9c xf2 xcb))
(L (W x00 x00 x80 xbf x00 x00 x80 xbf)))))
(T (W x01 x00 x00 x00 x04 x00 x00 x00)
(T (W xff xff xff xff xff xff xff xff)
(T (W xc0 x00 x00 x00 x01 x00 x00 x00)
(L (W x00 x00 x80 x3f x00 x00 x80 x3f))
(L (W x00 x00 x80 xbf x00 x00 x80 xbf)))
(T (W x8e xd3 x54 xf0 x7f x11 x65 xc2)
(L (W x02 x00 x00 x00 x30 x01 x00 x00))
(L (W xff xff xff xff xff xff xff xff))))
(T (W x00 x00 x80 x3f x00 x00 x80 x3f)
(T (W xff xff xff xff xff xff xff xff)
(L (W x00 x00 x00 x00 x00 x00 x00 x00))
(L (W x03 x00 x00 x00 xd8 x00 x00 x00)))
(T (W x00 x00 x00 x00 x00 x00 x00 x00)
(L (W xb0 x00 x00 x00 x1e x00 x00 x00)) E))))
(T (W x00 x00 x80 x3f x00 x00 x80 x3f)
(T (W x00 x00 x00 x00 x00 x00 x00 x00)
(T (W xff xff xff xff xff xff xff xff)
(T (W x00 x00 x80 x3f x00 x00 x80 x3f)
(L (W xff xff xff xff xff xff xff xff))
(L (W x45 x44 x00 x00 x00 x00 x00 x00)))
(T (W xc4 x00 x00 x00 x01 x00 x00 x00)
(L (W x03 x00 x00 x00 xd8 x00 x00 x00))
(L (W x5d x00 x00 x00 xff xff xff xff))))
(T (W x68 x00 x00 x00 x5c x00 x00 x00)
(T (W x45 x26 x22 x84 xe4 x9c xf2 xcb)
(L (W x45 x26 x22 x84 xe4 x9c xf2 xcb))
(L (W xc4 x00 x00 x00 x01 x00 x00 x00)))
(T (W x45 x26 x22 x84 xe4 x9c xf2 xcb)
(L (W xff xff xff xff xbc x00 x00 x00))
(L (W x84 x07 x00 x00 xf0 x05 x00 x00)))))
(T (W x42 x4e xfe xff x00 x00 x01 x01)
(T (W xff xff xff xff xff xff xff xff)
(T (W xcc x00 x00 x00 x01 x00 x00 x00)
(L (W x00 x00 x80 xbf x00 x00 x80 xbf))
(L (W xda x5d xff xff x78 x00 x00 x00)))
(T (W x00 x00 x80 x3f x00 x00 x80 x3f)
(L (W x45 x26 x22 x84 xe4 x9c xf2 xcb))
(L (W x00 x00 x80 xbf x00 x00 x80 xbf))))
(T (W xbc x00 x00 x00 xb0 x00 x00 x00)
(T (W x5f x4e x53 x5f x30 x34 x5f x43)
(L (W xda x9d xfe xff x78 x00 x00 x00))
(L (W x00 x00 x00 x00 x10 x9b xff xff)))
(T (W x92 x31 xfe xff x74 x00 x00 x00)
(L (W xbc x00 x00 x00 x64 x00 x00 x00)) E)))))))
(T (W xff xff xff xff x04 x00 x00 x00)
(T (W x00 x00 x80 x3f x00 x00 x80 x3f)
(T (W x00 x00 x00 x00 x00 x00 x00 x00)
(T (W x00 x00 x00 x00 x00 x00 x00 x00)
(T (W x00 x00 x00 x00 x00 x00 x00 x00)
(T (W xb8 x00 x00 x00 xac x00 x00 x00)
(T (W x00 x00 x00 x00 x00 x00 x00 x00)
(L (W x45 x26 x22 x84 xe4 x9c xf2 xcb))
(L (W x98 x1f xff xff x00 x01 x01 x01)))
(T (W x00 x00 x00 x00 x04 x00 x00 x00)
(L (W xff xff xff xff xff xff xff xff))
(L (W x3c x00 x00 x00 x00 x00 x80 xbf))))
(T (W x00 x00 x80 x3f x00 x00 x80 x3f)
(T (W x6c x00 x00 x00 x60 x00 x00 x00)
(L (W x00 x00 x00 x00 x00 x00 x00 x00))
(L (W x3c x00 x00 x00 x00 x00 x80 xbf)))
(T (W x00 x00 x00 x00 x00 x00 x00 x00)
(L (W x00 x00 x00 x00 x00 x00 x00 x00))
(L (W x46 x53 x59 x53 x5f x4e x53 x5f)))))
(T (W xff xff xff xff xff xff xff xff)
(T (W x68 x00 x00 x00 x5c x00 x00 x00)
(T (W x68 x00 x00 x00 x5c x00 x00 x00)
(L (W x00 x00 x00 x00 x00 x00 x00 x00))
(L (W xff xff xff xff xff xff xff xff)))
(T (W x68 x00 x00 x00 x5c x00 x00 x00)
(L (W x00 x00 x00 x00 x10 xc1 xfe xff))
(L (W x45 x26 x22 x84 xe4 x9c xf2 xcb))))
(T (W x00 x00 x80 x3f x00 x00 x80 x3f)
(T (W x00 x00 x00 x00 x00 x00 x00 x00)
(L (W x00 x00 x80 x3f x00 x00 x80 x3f))
(L (W x45 x26 x22 x84 xe4 x9c xf2 xcb)))
(T (W xd2 xb2 xff xff x94 x01 x00 x00)
(L (W x00 x00 x80 xbf x00 x00 x80 xbf))
(L (W xff xff xff xff xff xff xff xff))))))
(T (W x00 x00 x00 x00 x00 x00 x00 x00)
(T (W xff xff xff xff xff xff xff xff)
(T (W x45 x26 x22 x84 xe4 x9c xf2 xcb)
(T (W x00 x00 x80 x3f x00 x00 x80 x3f)
(L (W x68 x00 x00 x00 x5c x00 x00 x00))
(L (W xff xff xff xff xb0 x00 x00 x00)))
(T (W x00 x00 x80 x3f x00 x00 x80 x3f)
(L (W x00 x00 x00 x00 x10 xb1 xfe xff))
(L (W x6c x00 x00 x00 x60 x00 x00 x00))))
(T (W x00 x00 x80 x3f x00 x00 x80 x3f)
(T (W xff xff xff xff xff xff xff xff)
(L (W xff xff xff xff xff xff xff xff))
(L (W x00 x00 x80 xbf x00 x00 x80 xbf)))
(T (W x00 x00 x00 x00 x00 x00 x00 x00)
(L (W x00 x00 x80 xbf x00 x00 x80 xbf))
(L (W x6c x00 x0c x00 x00 x00 x00 x00)))))
(T (W xff xff xff xff xff xff xff xff)
(T (W x18 x00 x00 x00 x0c x00 x00 x00)
(T (W x00 x00 x80 x3f x00 x00 x80 x3f)
(L (W x57 x4e x5f x53 x54 x41 x52 x54))
(L (W x00 x00 x00 x00 x00 x00 x00 x00)))
(T (W x22 xf7 xfd xff x9d x01 x00 x00)
(L (W xff xff xff xff xff xff xff xff))
(L (W x62 x00 x00 x00 x00 x00 x01 x01))))
(T (W x00 x00 x80 x3f x00 x00 x80 x3f)
(T (W xff xff xff xff xb0 x00 x00 x00)
(L (W x00 x00 x80 x3f x00 x00 x80 x3f))
(L (W x54 x00 x00 x00 x48 x00 x00 x00)))
(T (W x50 x00 x00 x00 x44 x00 x00 x00)
(L (W xda x13 xff xff x78 x00 x00 x00)) E)))))
(T (W x00 x00 x00 x00 x00 x00 x00 x00)
(T (W x00 x00 x00 x00 x00 x00 x00 x00)
(T (W x00 x00 x00 x00 x02 x00 x00 x00)
(T (W xff xff xff xff x04 x00 x00 x00)
(T (W x45 x26 x22 x84 xe4 x9c xf2 xcb)
(L (W x92 x3f xfe xff x74 x00 x00 x00))
(L (W x00 x00 x80 xbf x00 x00 x80 xbf)))
(T (W x00 x00 x00 x00 x12 x00 x00 x00)
(L (W xff xff xff xff xff xff xff xff))
(L (W x54 x00 x00 x00 x48 x00 x00 x00))))
(T (W x00 x00 x80 x3f x00 x00 x80 x3f)
(T (W xc4 x00 x00 x00 x01 x00 x00 x00)
(L (W xff xff xff xff xff xff xff xff))
(L (W x00 x00 x00 x00 x00 x00 x00 x00)))
(T (W x00 x00 x00 x00 x00 x00 x00 x00)
(L (W x00 x00 x00 x00 x00 x00 x00 x00))
(L (W xcf x00 x00 x00 xff xff xff xff)))))
(T (W xff xff xff xff xff xff xff xff)
(T (W x45 x26 x22 x84 xe4 x9c xf2 xcb)
(T (W x00 x00 x00 x00 x00 x00 x00 x00)
(L (W x00 x00 x00 x00 x00 x00 x00 x00))
(L (W x00 x00 x00 x00 x12 x00 x00 x00)))
(T (W xff xff xff xff xff xff xff xff)
(L (W x03 x00 x00 x00 xd0 x00 x00 x00))
(L (W x23 x00 x00 x00 x26 x00 x00 x00))))
(T (W xb8 x00 x00 x00 xac x00 x00 x00)
(T (W x00 x00 x80 x3f x00 x00 x80 x3f)
(L (W xff xff xff xff xff xff xff xff))
(L (W x54 x00 x00 x00 x48 x00 x00 x00)))
(T (W xff xff xff xff xff xff xff xff)
(L (W x54 x00 x00 x00 x48 x00 x00 x00)) E))))
(T (W x34 x5e xfc xff x15 x00 x00 x00)
(T (W xff xff xff xff xff xff xff xff)
(T (W x68 x00 x00 x00 x5c x00 x00 x00)
(T (W x00 x00 x80 x3f x00 x00 x80 x3f)
(L (W x68 x00 x00 x00 x5c x00 x00 x00))
(L (W xff xff xff xff xff xff xff xff)))
(T (W x00 x00 x80 x3f x00 x00 x80 x3f)
(L (W x54 x00 x00 x00 x48 x00 x00 x00))
(L (W x18 x00 x00 x00 x10 x00 x00 x00))))
(T (W x00 x00 x80 x3f x00 x00 x80 x3f)
(T (W xc6 x01 xf6 xc4 xaa x64 xf9 x40)
(L (W x00 x00 x01 x01 xd8 x01 x00 x00))
(L (W x00 x00 x80 xbf x00 x00 x80 xbf)))
(T (W x00 x00 x00 x00 x00 x00 x00 x00)
(L (W x6c x00 x00 x00 x60 x00 x00 x00))
(L (W x45 x26 x22 x84 xe4 x9c xf2 xcb)))))
(T (W xff xff xff xff xff xff xff xff)
(T (W x68 x00 x00 x00 x5c x00 x00 x00)
(T (W x54 x00 x00 x00 x48 x00 x00 x00)
(L (W x00 x00 x00 x00 x00 x00 x00 x00))
(L (W x00 x00 x00 x00 x00 x00 x00 x00)))
(T (W xdc xe2 xfd xff x23 x00 x00 x00)
(L (W x00 x00 x00 x00 xea xdd xfe xff))
(L (W x03 x00 x00 x00 xd4 x00 x00 x00))))
(T (W x00 x00 x80 x3f x00 x00 x80 x3f)
(T (W xff xff xff xff xff xff xff xff)
(L (W x79 x61 x62 x75 x6e x00 x00 x00))
(L (W x00 x01 x01 x01 xc2 x01 x00 x00)))
(T (W x00 x00 x80 x3f x00 x00 x80 x3f)
(L (W x54 x00 x00 x00 x48 x00 x00 x00)) E))))))
(T (W x64 x00 x00 x00 x9c x00 x00 x00)
(T (W x00 x00 x00 x00 x10 x35 xfc xff)
(T (W xbc x00 x00 x00 xb0 x00 x00 x00)
(T (W x00 x00 x80 x3f x00 x00 x80 x3f)
(T (W x00 x00 x00 x00 x00 x00 x00 x00)
(T (W xff xff xff xff xff xff xff xff)
(L (W x18 x01 x00 x00 x04 x00 x00 x00))
(L (W x00 x00 x00 x00 xea x29 xff xff)))
(T (W x92 xbb xfd xff x74 x00 x00 x00)
(L (W xff xff xff xff xff xff xff xff))
(L (W xff xff xff xff xff xff xff xff))))
(T (W xc4 x90 xcd xfa x5f x41 xb9 xa9)
(T (W x4c x45 x41 x52 x45 x44 x00 x00)
(L (W x00 x00 x80 xbf x00 x00 x80 xbf))
(L (W xff xff xff xff xff xff xff xff)))
(T (W xff xff xff xff x03 x00 x00 x00)
(L (W x18 x00 x00 x00 x0c x00 x00 x00))
(L (W x00 x00 x00 x00 x00 x00 x00 x00)))))
(T (W x00 x00 x80 x3f x00 x00 x80 x3f)
(T (W xdc xce xfc xff x3e x00 x00 x00)
(T (W x01 x00 x00 x00 x9c x00 x00 x00)
(L (W x00 x00 x00 x00 x10 x45 xfe xff))
(L (W xda x47 xff xff x78 x00 x00 x00)))
(T (W x12 x00 x00 x00 x46 x53 x59 x53)
(L (W x00 x00 x00 x00 x12 x00 x00 x00))
(L (W xff xff xff xff xff xff xff xff))))
(T (W xff xff xff xff xff xff xff xff)
(T (W xff xff xff xff xff xff xff xff)
(L (W x00 x00 x00 x00 x00 x00 x00 x00))
(L (W x00 x00 x00 x00 x00 x00 x00 x00)))
(T (W x00 x00 x80 x3f x00 x00 x80 x3f)
(L (W x00 x00 x00 x00 x00 x00 x00 x00))
(L (W x00 x00 x80 xbf x00 x00 x80 xbf))))))
(T (W x50 x00 x00 x00 x44 x00 x00 x00)
(T (W x68 x00 x00 x00 x5c x00 x00 x00)
(T (W x00 x00 x00 x00 x00 x00 x00 x00)
(T (W xff xff xff xff xff xff xff xff)
(L (W x42 xe8 xff xff x00 x00 x01 x01))
(L (W x45 x26 x22 x84 xe4 x9c xf2 xcb)))
(T (W xff xff xff xff xff xff xff xff)
(L (W x00 x00 x00 x00 x00 x00 x00 x00))
(L (W x00 x00 x00 x00 x00 x00 x00 x00))))
(T (W x42 xa8 xfe xff x00 x00 x01 x01)
(T (W x00 x00 x80 x3f x00 x00 x80 x3f)
(L (W x00 x00 x00 x00 x00 x00 x00 x00))
(L (W xff xff xff xff xff xff xff xff)))
(T (W xb8 x00 x00 x00 xac x00 x00 x00)
(L (W x00 x01 x01 x01 x2b x01 x00 x00))
(L (W x00 x00 x00 x00 x00 x00 x00 x00)))))
(T (W x00 x00 x00 x00 x00 x00 x00 x00)
(T (W x00 x00 x00 x00 x00 x00 x00 x00)
(T (W xc2 x6e xfd xff x00 x00 x00 x01)
(L (W x00 x00 x80 xbf x00 x00 x80 xbf))
(L (W x45 x26 x22 x84 xe4 x9c xf2 xcb)))
(T (W x54 x00 x00 x00 x48 x00 x00 x00)
(L (W x98 xd3 xfe xff x00 x01 x01 x01))
(L (W x00 x00 x00 x00 xea xd5 xff xff))))
(T (W xca xd1 xff xff x5e x00 x00 x00)
(T (W x45 x26 x22 x84 xe4 x9c xf2 xcb)
(L (W x45 x26 x22 x84 xe4 x9c xf2 xcb))
(L (W x36 x00 x00 x00 xff xff xff xff)))
(T (W xff xff xff xff x01 x00 x00 x00)
(L (W x15 x00 x00 x00 x0c x00 x00 x00)) E)))))
(T (W x64 x00 x00 x00 x9c x00 x00 x00)
(T (W x98 x4b xfc xff x00 x01 x01 x01)
(T (W x50 x00 x00 x00 x44 x00 x00 x00)
(T (W x00 x00 x00 x00 x00 x00 x00 x00)
(T (W xff xff xff xff xff xff xff xff)
(L (W x00 x00 x00 x00 x00 x00 x00 x00))
(L (W x30 x34 x5f x43 x4c x45 x41 x52)))
(T (W x03 x00 x00 x00 xd0 x00 x00 x00)
(L (W xff xff xff xff xff xff xff xff))
(L (W x00 x00 x00 x00 x00 x00 x00 x00))))
(T (W xd2 x01 x00 x00 xff xff xff xff)
(T (W x00 x00 x00 x00 x00 x00 x00 x00)
(L (W x49 xa1 x68 x4a xeb x5f xdd x3d))
(L (W xff xff xff xff xff xff xff xff)))
(T (W x68 x00 x00 x00 x5c x00 x00 x00)
(L (W xff xff xff xff xff xff xff xff))
(L (W x6c x00 x00 x00 x60 x00 x00 x00)))))
(T (W x45 x26 x22 x84 xe4 x9c xf2 xcb)
(T (W x00 x00 x00 x00 x00 x00 x00 x00)
(T (W xff xff xff xff xff xff xff xff)
(L (W x00 x00 x00 x00 x00 x00 x00 x00))
(L (W x45 x26 x22 x84 xe4 x9c xf2 xcb)))
(T (W x00 x00 x80 x3f x00 x00 x80 x3f)
(L (W x00 x00 x00 x00 x00 x00 x00 x00))
(L (W x00 x00 x00 x00 xea xcd xff xff))))
(T (W xff xff xff xff xff xff xff xff)
(T (W x45 x44 x00 x00 x00 x00 x00 x00)
(L (W xbc x00 x00 x00 x05 x00 x00 x00))
(L (W x15 x00 x00 x00 x0c x00 x00 x00)))
(T (W x45 x26 x22 x84 xe4 x9c xf2 xcb)
(L (W x46 x53 x59 x53 x5f x4e x53 x5f)) E))))
(T (W x00 x00 x80 x3f x00 x00 x80 x3f)
(T (W x00 x00 x80 x3f x00 x00 x80 x3f)
(T (W x00 x00 x00 x00 x00 x00 x00 x00)
(T (W x64 x00 x00 x00 x9c x00 x00 x00)
(L (W x00 x00 x80 x3f x00 x00 x80 x3f))
(L (W x00 x00 x80 xbf x00 x00 x80 xbf)))
(T (W x80 x03 x00 x00 x54 x02 x00 x00)
(L (W x00 x00 x01 x01 x7e x00 x00 x00))
(L (W x30 x34 x5f x43 x4c x45 x41 x52))))
(T (W xff xff xff xff xff xff xff xff)
(T (W x00 x00 x00 x00 x10 x7d xfd xff)
(L (W xff xff xff xff x9c x00 x00 x00))
(L (W x04 x00 x00 x00 x72 x7c xff xff)))
(T (W x50 x00 x00 x00 x44 x00 x00 x00)
(L (W x45 x44 x00 x00 x00 x00 x00 x00))
(L (W x2b x00 x00 x00 x2e x00 x00 x00)))))
(T (W x00 x00 x00 x00 x00 x00 x00 x00)
(T (W x00 x00 x00 x00 x00 x00 x00 x00)
(T (W x69 x9d xd9 xc2 x9d xc1 xb2 xaf)
(L (W x6c x00 x00 x00 x60 x00 x00 x00))
(L (W xff xff xff xff xff xff xff xff)))
(T (W xff xff xff xff xc4 x00 x00 x00)
(L (W x68 x00 x00 x00 x5c x00 x00 x00))
(L (W x00 x00 x00 x00 x10 xdd xff xff))))
(T (W x42 xdb xff xff x00 x00 x01 x01)
(T (W x50 x00 x00 x00 x44 x00 x00 x00)
(L (W xff xff xff xff xff xff xff xff))
(L (W xff xff xff xff xff xff xff xff)))
(T (W xff xff xff xff xff xff xff xff)
(L (W x4a x00 x00 x00 xff xff xff xff)) E))))))))
(T (W xf0 xc2 x00 x00 xa4 xc0 x00 x00)
(T (W x92 x3a xfc xff x74 x00 x00 x00)
(T (W x00 x00 x00 x00 x00 x00 x00 x00)
(T (W x00 x00 x00 x00 x00 x00 x00 x00)
(T (W x00 x00 x00 x00 x00 x00 x00 x00)
(T (W xb5 x01 x00 x00 xff xff xff xff)
(T (W x18 x00 x00 x00 x0c x00 x00 x00)
(T (W x00 x00 x00 x00 x00 x00 x00 x00)
(L (W x00 x00 x00 x00 x00 x00 x00 x00))
(L (W x54 x00 x00 x00 x48 x00 x00 x00)))
(T (W xff xff xff xff xff xff xff xff)
(L (W xff xff xff xff xff xff xff xff))
(L (W x00 x00 x80 xbf x00 x00 x80 xbf))))
(T (W x45 x26 x22 x84 xe4 x9c xf2 xcb)
(T (W x00 x00 x80 x3f x00 x00 x80 x3f)
(L (W x00 x00 x00 x00 x00 x00 x00 x00))
(L (W x00 x00 x80 xbf x00 x00 x80 xbf)))
(T (W x00 x00 x00 x00 x00 x00 x00 x00)
(L (W x00 x00 x00 x00 x00 x00 x00 x00))
(L (W x00 x00 x00 x00 x72 xdf xff xff)))))
(T (W xff xff xff xff x03 x00 x00 x00)
(T (W x00 x00 x80 x3f x00 x00 x80 x3f)
(T (W x00 x00 x00 x00 x00 x00 x00 x00)
(L (W x00 x00 x00 x00 x00 x00 x00 x00))
(L (W xff xff xff xff xff xff xff xff)))
(T (W x00 x00 x80 x3f x00 x00 x80 x3f)
(L (W x00 x00 x80 xbf x00 x00 x80 xbf))
(L (W x0c xc0 xff xff x52 xbb xff xff))))
(T (W x00 x00 x00 x00 x00 x00 x00 x00)
(T (W x2a x00 x00 x00 x0c x00 x00 x00)
(L (W x00 x00 x00 x00 x00 x00 x00 x00))
(L (W x00 x00 x80 xbf x00 x00 x80 xbf)))
(T (W xff xff xff xff xff xff xff xff)
(L (W x45 x26 x22 x84 xe4 x9c xf2 xcb))
(L (W x74 x00 x00 x00 x68 x00 x00 x00))))))
(T (W x00 x00 x00 x00 x04 x00 x00 x00)
(T (W xff xff xff xff xff xff xff xff)
(T (W x00 x00 x80 x3f x00 x00 x80 x3f)
(T (W x45 x26 x22 x84 xe4 x9c xf2 xcb)
(L (W x00 x00 x80 x3f x00 x00 x80 x3f))
(L (W x00 x00 x00 x00 x10 x30 xff xff)))
(T (W x00 x00 x00 x00 x00 x00 x00 x00)
(L (W x00 x00 x80 x3f x00 x00 x80 x3f))
(L (W x00 x00 x80 xbf x00 x00 x80 xbf))))
(T (W x00 x00 x80 x3f x00 x00 x80 x3f)
(T (W x03 x00 x00 x00 xd0 x00 x00 x00)
(L (W xff xff xff xff xff xff xff xff))
(L (W x00 x00 x00 x00 x00 x00 x00 x00)))
(T (W x00 x00 x00 x00 x00 x00 x00 x00)
(L (W x00 x00 x80 xbf x00 x00 x80 xbf))
(L (W xff xff xff xff xff xff xff xff)))))
(T (W xff xff xff xff xff xff xff xff)
(T (W x00 x00 x80 x3f x00 x00 x80 x3f)
(T (W x00 x00 x80 x3f x00 x00 x80 x3f)
(L (W xeb x01 x00 x00 xff xff xff xff))
(L (W x30 x34 x5f x43 x4c x45 x41 x52)))
(T (W xff xff xff xff xff xff xff xff)
(L (W xff xff xff xff xff xff xff xff))
(L (W x00 x00 x80 xbf x00 x00 x80 xbf))))
(T (W x00 x00 x00 x00 x00 x00 x00 x00)
(T (W x00 x00 x80 x3f x00 x00 x80 x3f)
(L (W x00 x00 x00 x00 x1b x00 x00 x00))
(L (W x00 x00 x80 xbf x00 x00 x80 xbf)))
(T (W x45 x26 x22 x84 xe4 x9c xf2 xcb)
(L (W x00 x00 x80 xbf x00 x00 x80 xbf)) E)))))
(T (W x00 x00 x00 x00 x00 x00 x00 x00)
(T (W x00 x00 x00 x00 x00 x00 x00 x00)
(T (W xff xff xff xff xff xff xff xff)
(T (W x68 x00 x00 x00 x5c x00 x00 x00)
(T (W x00 x00 x00 x00 x00 x00 x00 x00)
(L (W x68 x00 x00 x00 x5c x00 x00 x00))
(L (W x00 x00 x80 xbf x00 x00 x80 xbf)))
(T (W x00 x00 x00 x00 x00 x00 x00 x00)
(L (W x00 x00 x80 x3f x00 x00 x80 x3f))
(L (W x00 x00 x80 xbf x00 x00 x80 xbf))))
(T (W x00 x00 x80 x3f x00 x00 x80 x3f)
(T (W x50 x00 x00 x00 x44 x00 x00 x00)
(L (W xff xff xff xff xff xff xff xff))
(L (W x00 x00 x00 x00 x00 x00 x00 x00)))
(T (W x00 x00 x00 x00 x00 x00 x00 x00)
(L (W x5f x4e x53 x5f x30 x34 x5f x43))
(L (W xff xff xff xff xff xff xff xff)))))
(T (W xff xff xff xff xff xff xff xff)
(T (W xda xca xfc xff x78 x00 x00 x00)
(T (W x34 x4d xfd xff x2e x00 x00 x00)
(L (W x18 x01 x00 x00 x04 x00 x00 x00))
(L (W x04 x00 x00 x00 xea x4c xff xff)))
(T (W xff xff xff xff x9c x00 x00 x00)
(L (W x68 x00 x00 x00 x5c x00 x00 x00))
(L (W x00 x00 x00 x00 x9c xc6 xff xff))))
(T (W x45 x26 x22 x84 xe4 x9c xf2 xcb)
(T (W x00 x00 x80 x3f x00 x00 x80 x3f)
(L (W x18 x00 x00 x00 x0c x00 x00 x00))
(L (W x00 x00 x80 xbf x00 x00 x80 xbf)))
(T (W xff xff xff xff xff xff xff xff)
(L (W x00 x00 x80 xbf x00 x00 x80 xbf)) E))))
(T (W xff xff xff xff xff xff xff xff)
(T (W x64 x00 x00 x00 x9c x00 x00 x00)
(T (W x00 x00 x80 x3f x00 x00 x80 x3f)
(T (W x00 x00 x00 x00 x00 x00 x00 x00)
(L (W x50 x00 x00 x00 x44 x00 x00 x00))
(L (W xcc x00 x00 x00 x01 x00 x00 x00)))
(T (W x00 x00 x00 x00 x00 x00 x00 x00)
(L (W x00 x00 x80 x3f x00 x00 x80 x3f))
(L (W x6c x00 x00 x00 x60 x00 x00 x00))))
(T (W x00 x00 x80 x3f x00 x00 x80 x3f)
(T (W xff xff xff xff xff xff xff xff)
(L (W xff xff xff xff xff xff xff xff))
(L (W x00 x00 x00 x00 x00 x00 x00 x00)))
(T (W xd2 xa9 xff xff xb4 x01 x00 x00)
(L (W x00 x00 x80 xbf x00 x00 x80 xbf))
(L (W x6c x00 x00 x00 x60 x00 x00 x00)))))
(T (W x45 x26 x22 x84 xe4 x9c xf2 xcb)
(T (W x00 x00 x80 x3f x00 x00 x80 x3f)
(T (W x45 x26 x22 x84 xe4 x9c xf2 xcb)
(L (W xff xff xff xff xff xff xff xff))
(L (W x00 x00 x00 x00 x00 x00 x00 x00)))
(T (W xff xff xff xff xff xff xff xff)
(L (W xff xff xff xff xff xff xff xff))
(L (W x45 x26 x22 x84 xe4 x9c xf2 xcb))))
(T (W x00 x00 x00 x00 x00 x00 x00 x00)
(T (W xff xff xff xff xff xff xff xff)
(L (W xff xff xff xff xff xff xff xff))
(L (W x00 x00 x80 xbf x00 x00 x80 xbf)))
(T (W x45 x26 x22 x84 xe4 x9c xf2 xcb)
(L (W x00 x00 x80 xbf x00 x00 x80 xbf)) E))))))
(T (W x50 x00 x00 x00 x44 x00 x00 x00)
(T (W x92 x4a xfc xff x74 x00 x00 x00)
(T (W x50 x00 x00 x00 x44 x00 x00 x00)
(T (W x00 x00 x80 x3f x00 x00 x80 x3f)
(T (W x00 x00 x00 x00 x00 x00 x00 x00)
(T (W xff xff xff xff xff xff xff xff)
(L (W x92 x3a xfe xff x74 x00 x00 x00))
(L (W xff xff xff xff xff xff xff xff)))
(T (W x00 x00 x80 x3f x00 x00 x80 x3f)
(L (W x00 x00 x80 x3f x00 x00 x80 x3f))
(L (W xff xff xff xff xc8 x00 x00 x00))))
(T (W xff xff xff xff xff xff xff xff)
(T (W x00 x00 x01 x01 x2b x01 x00 x00)
(L (W x00 x00 x80 xbf x00 x00 x80 xbf))
(L (W xbc x00 x00 x00 x02 x00 x00 x00)))
(T (W x68 x00 x00 x00 x5c x00 x00 x00)
(L (W x6c x00 x00 x00 x60 x00 x00 x00))
(L (W x68 x00 x00 x00 x5c x00 x00 x00)))))
(T (W x00 x00 x00 x00 x00 x00 x00 x00)
(T (W xff xff xff xff xff xff xff xff)
(T (W x45 x26 x22 x84 xe4 x9c xf2 xcb)
(L (W x92 x5a xfe xff x74 x00 x00 x00))
(L (W x00 x00 x80 xbf x00 x00 x80 xbf)))
(T (W x00 x00 x00 x00 x00 x00 x00 x00)
(L (W x04 x00 x00 x00 xea xc8 xfe xff))
(L (W xff xff xff xff xff xff xff xff))))
(T (W x45 x26 x22 x84 xe4 x9c xf2 xcb)
(T (W xff xff xff xff xbc x00 x00 x00)
(L (W xff xff xff xff xff xff xff xff))
(L (W xb4 x06 x00 x00 x98 x05 x00 x00)))
(T (W x45 x26 x22 x84 xe4 x9c xf2 xcb)
(L (W xff xff xff xff xff xff xff xff))
(L (W x00 x00 x00 x00 x00 x00 x00 x00))))))
(T (W x00 x00 x80 x3f x00 x00 x80 x3f)
(T (W x45 x26 x22 x84 xe4 x9c xf2 xcb)
(T (W xbc x27 xb0 x60 x0f x44 xe4 x2b)
(T (W x98 x32 xfd xff x00 x01 x01 x01)
(L (W xff xff xff xff xff xff xff xff))
(L (W x00 x00 x00 x00 x12 x00 x00 x00)))
(T (W xff xff xff xff xff xff xff xff)
(L (W xff xff xff xff xff xff xff xff))
(L (W x00 x00 x00 x00 x00 x00 x00 x00))))
(T (W xff xff xff xff xff xff xff xff)
(T (W x00 x00 x00 x00 x00 x00 x00 x00)
(L (W x00 x00 x00 x00 x12 x00 x00 x00))
(L (W xc4 x00 x00 x00 x01 x00 x00 x00)))
(T (W x50 x00 x00 x00 x44 x00 x00 x00)
(L (W xff xff xff xff xff xff xff xff))
(L (W xff xff xff xff xff xff xff xff)))))
(T (W xdc x9d xfc xff x3e x00 x00 x00)
(T (W x00 x00 x00 x00 x00 x00 x00 x00)
(T (W xff xff xff xff xff xff xff xff)
(L (W x00 x00 x00 x00 x00 x00 x00 x00))
(L (W x54 x00 x00 x00 x48 x00 x00 x00)))
(T (W x45 x26 x22 x84 xe4 x9c xf2 xcb)
(L (W x45 x26 x22 x84 xe4 x9c xf2 xcb))
(L (W xff xff xff xff xff xff xff xff))))
(T (W xff xff xff xff xff xff xff xff)
(T (W x00 x00 x00 x00 x00 x00 x00 x00)
(L (W x79 x61 x62 x75 x6e x00 x00 x00))
(L (W xff xff xff xff xff xff xff xff)))
(T (W xff xff xff xff xff xff xff xff)
(L (W xff xff xff xff xff xff xff xff)) E)))))
(T (W x45 x26 x22 x84 xe4 x9c xf2 xcb)
(T (W x00 x00 x80 x3f x00 x00 x80 x3f)
(T (W x00 x00 x80 x3f x00 x00 x80 x3f)
(T (W x00 x00 x00 x00 x00 x00 x00 x00)
(T (W x64 x00 x00 x00 x9c x00 x00 x00)
(L (W x42 xdf xff xff x00 x00 x01 x01))
(L (W x00 x00 x01 x01 xcf x00 x00 x00)))
(T (W x18 x00 x00 x00 x10 x00 x00 x00)
(L (W x18 x00 x00 x00 x10 x00 x00 x00))
(L (W xff xff xff xff xff xff xff xff))))
(T (W xff xff xff xff xff xff xff xff)
(T (W x46 x53 x59 x53 x5f x4e x53 x5f)
(L (W x00 x00 x00 x00 x00 x00 x00 x00))
(L (W xff xff xff xff xc8 x00 x00 x00)))
(T (W x50 x00 x00 x00 x44 x00 x00 x00)
(L (W xc4 x00 x00 x00 x02 x00 x00 x00))
(L (W x3c x00 x00 x00 x00 x00 x80 xbf)))))
(T (W x00 x00 x00 x00 x00 x00 x00 x00)
(T (W x42 x7f xfe xff x00 x00 x01 x01)
(T (W xff xff xff xff xff xff xff xff)
(L (W x00 x00 x80 x3f x00 x00 x80 x3f))
(L (W x6c x00 x00 x00 x60 x00 x00 x00)))
(T (W x00 x00 x00 x00 x00 x00 x00 x00)
(L (W x00 x00 x00 x00 x12 x00 x00 x00))
(L (W xff xff xff xff xff xff xff xff))))
(T (W xff xff xff xff xff xff xff xff)
(T (W xff xff xff xff xff xff xff xff)
(L (W x98 x8a xfe xff x00 x01 x01 x01))
(L (W xff xff xff xff xff xff xff xff)))
(T (W x00 x00 x00 x00 x00 x00 x00 x00)
(L (W x00 x00 x01 x01 x5d x00 x00 x00)) E))))
(T (W x00 x00 x80 x3f x00 x00 x80 x3f)
(T (W x45 x26 x22 x84 xe4 x9c xf2 xcb)
(T (W x00 x00 x00 x00 xe2 x7b xff xff)
(T (W x50 x00 x00 x00 x44 x00 x00 x00)
(L (W x6c x00 x0c x00 x10 x00 x00 x00))
(L (W x00 x00 x00 x00 x00 x00 x00 x00)))
(T (W xff xff xff xff xff xff xff xff)
(L (W xff xff xff xff xff xff xff xff))
(L (W x00 x00 x01 x01 x4b x00 x00 x00))))
(T (W xb8 x00 x00 x00 xac x00 x00 x00)
(T (W x00 x00 x80 x3f x00 x00 x80 x3f)
(L (W x00 x00 x80 xbf x00 x00 x80 xbf))
(L (W xff xff xff xff xff xff xff xff)))
(T (W x00 x00 x80 x3f x00 x00 x80 x3f)
(L (W x00 x00 x01 x01 xc8 x00 x00 x00))
(L (W xda xfe xff xff x78 x00 x00 x00)))))
(T (W x00 x00 x00 x00 x00 x00 x00 x00)
(T (W x20 x01 x00 x00 x04 x00 x00 x00)
(T (W xff xff xff xff xff xff xff xff)
(L (W x00 x00 x80 x3f x00 x00 x80 xbf))
(L (W x25 x00 x00 x00 x28 x00 x00 x00)))
(T (W x45 x26 x22 x84 xe4 x9c xf2 xcb)
(L (W x00 x00 x80 xbf x00 x00 x80 xbf))
(L (W x00 x00 x80 xbf x00 x00 x80 xbf))))
(T (W xff xff xff xff xff xff xff xff)
(T (W x00 x00 x00 x00 x00 x00 x00 x00)
(L (W xff xff xff xff x9c x00 x00 x00))
(L (W xff xff xff xff xff xff xff xff)))
(T (W xff xff xff xff xff xff xff xff)
(L (W xff xff xff xff xff xff xff xff)) E)))))))
(T (W xff xff xff xff xff xff xff xff)
(T (W x00 x00 x80 x3f x00 x00 x80 x3f)
(T (W x00 x00 x80 x3f x00 x00 x80 x3f)
(T (W x00 x00 x00 x00 x00 x00 x00 x00)
(T (W x00 x00 x00 x00 x00 x00 x00 x00)
(T (W xff xff xff xff xff xff xff xff)
(T (W x00 x00 x80 x3f x00 x00 x80 x3f)
(L (W x00 x00 x80 x3f x00 x00 x80 x3f))
(L (W xbc x00 x00 x00 x64 x00 x00 x00)))
(T (W x00 x00 x00 x00 x00 x00 x00 x00)
(L (W xff xff xff xff xff xff xff xff))
(L (W x6c x00 x00 x00 x60 x00 x00 x00))))
(T (W x45 x26 x22 x84 xe4 x9c xf2 xcb)
(T (W x18 x00 x00 x00 x0c x00 x00 x00)
(L (W x00 x00 x00 x00 x00 x00 x00 x00))
(L (W x00 x01 x01 x01 x52 x5d xff xff)))
(T (W x45 x26 x22 x84 xe4 x9c xf2 xcb)
(L (W x45 x26 x22 x84 xe4 x9c xf2 xcb))
(L (W x00 x00 x00 x00 x00 x00 x00 x00)))))
(T (W xff xff xff xff xff xff xff xff)
(T (W xb8 x00 x00 x00 xac x00 x00 x00)
(T (W x60 x00 x00 x00 x00 x00 x00 x00)
(L (W x00 x00 x80 x3f x00 x00 x80 x3f))
(L (W x45 x44 x00 x00 x00 x00 x00 x00)))
(T (W xff xff xff xff xff xff xff xff)
(L (W xff xff xff xff xb0 x00 x00 x00))
(L (W xa4 x00 x00 x00 x1e x00 x00 x00))))
(T (W x68 x00 x00 x00 x5c x00 x00 x00)
(T (W x45 x26 x22 x84 xe4 x9c xf2 xcb)
(L (W x92 x98 xfe xff x74 x00 x00 x00))
(L (W xc4 x00 x00 x00 x01 x00 x00 x00)))
(T (W x00 x00 x00 x00 x00 x00 x00 x00)
(L (W x50 x00 x00 x00 x44 x00 x00 x00))
(L (W x30 x34 x5f x43 x4c x45 x41 x52))))))
(T (W x00 x00 x00 x00 x00 x00 x00 x00)
(T (W x34 x77 xfc xff x3e x00 x00 x00)
(T (W xff xff xff xff xff xff xff xff)
(T (W x00 x00 x80 x3f x00 x00 x80 x3f)
(L (W x92 x48 xfe xff x74 x00 x00 x00))
(L (W xff xff xff xff xff xff xff xff)))
(T (W x00 x00 x80 x3f x00 x00 x80 x3f)
(L (W x28 x00 x00 x00 x2b x00 x00 x00))
(L (W x18 x00 x00 x00 x10 x00 x00 x00))))
(T (W x00 x00 x80 x3f x00 x00 x80 x3f)
(T (W x02 x00 x00 x00 x30 x01 x00 x00)
(L (W x00 x00 x00 x00 x00 x00 x00 x00))
(L (W x00 x00 x00 x00 x9c x70 xff xff)))
(T (W x45 x26 x22 x84 xe4 x9c xf2 xcb)
(L (W x68 x00 x00 x00 x5c x00 x00 x00))
(L (W x00 x00 x80 xbf x00 x00 x80 xbf)))))
(T (W xff xff xff xff xff xff xff xff)
(T (W xb8 x00 x00 x00 xac x00 x00 x00)
(T (W x68 x00 x00 x00 x5c x00 x00 x00)
(L (W xff xff xff xff xff xff xff xff))
(L (W x4f x84 x6f x8b xe8 xcb x63 xb7)))
(T (W x00 x00 x00 x00 x00 x00 x00 x00)
(L (W x97 x58 xbb x28 xbf xd9 x6a x6a))
(L (W x5f x4e x53 x5f x30 x34 x5f x43))))
(T (W x45 x26 x22 x84 xe4 x9c xf2 xcb)
(T (W xff xff xff xff xff xff xff xff)
(L (W x00 x00 x80 x3f x00 x00 x80 x3f))
(L (W x98 x90 xff xff x00 x01 x01 x01)))
(T (W x68 x00 x00 x00 x5c x00 x00 x00)
(L (W x2b x00 x00 x00 x2e x00 x00 x00)) E)))))
(T (W x00 x00 x00 x00 x00 x00 x00 x00)
(T (W x00 x00 x00 x00 x00 x00 x00 x00)
(T (W x00 x00 x00 x00 x00 x00 x00 x00)
(T (W xff xff xff xff xff xff xff xff)
(T (W x00 x00 x80 x3f x00 x00 x80 x3f)
(L (W xff xff xff xff xff xff xff xff))
(L (W xff xff xff xff xb0 x00 x00 x00)))
(T (W x00 x00 x00 x00 x00 x00 x00 x00)
(L (W x67 x72 x6f x75 x70 x5f x6c x65))
(L (W x98 xa8 xff xff x00 x01 x01 x01))))
(T (W x68 x00 x00 x00 x5c x00 x00 x00)
(T (W xff xff xff xff xff xff xff xff)
(L (W xcb x66 xca xc9 x03 x8d xa3 xbc))
(L (W x00 x00 x80 xbf x00 x00 x80 xbf)))
(T (W x45 x26 x22 x84 xe4 x9c xf2 xcb)
(L (W x00 x00 x80 xbf x00 x00 x80 xbf))
(L (W x00 x00 x00 x00 x00 x00 x00 x00)))))
(T (W xff xff xff xff xff xff xff xff)
(T (W xff xff xff xff xff xff xff xff)
(T (W x00 x00 x80 x3f x00 x00 x80 x3f)
(L (W x00 x00 x00 x00 x00 x00 x00 x00))
(L (W x45 x26 x22 x84 xe4 x9c xf2 xcb)))
(T (W xff xff xff xff xff xff xff xff)
(L (W xff xff xff xff xff xff xff xff))
(L (W x03 x00 x00 x00 xc8 x00 x00 x00))))
(T (W x00 x00 x14 x00 x18 x00 x1c x00)
(T (W x18 x00 x00 x00 x0c x00 x00 x00)
(L (W x04 x00 x00 x00 x0a x99 xfe xff))
(L (W x18 x00 x00 x00 x10 x00 x00 x00)))
(T (W xd2 xbb xff xff x3b x01 x00 x00)
(L (W x98 x08 xff xff x00 x01 x01 x01)) E))))
(T (W x45 x26 x22 x84 xe4 x9c xf2 xcb)
(T (W x01 x00 x00 x00 x04 x00 x00 x00)
(T (W xff xff xff xff x04 x00 x00 x00)
(T (W x00 x00 x80 x3f x00 x00 x80 x3f)
(L (W xff xff xff xff x03 x00 x00 x00))
(L (W xff xff xff xff xff xff xff xff)))
(T (W x45 x26 x22 x84 xe4 x9c xf2 xcb)
(L (W x18 x00 x00 x00 x10 x00 x00 x00))
(L (W xff xff xff xff xff xff xff xff))))
(T (W x50 x00 x00 x00 x44 x00 x00 x00)
(T (W x00 x00 x00 x00 x00 x00 x00 x00)
(L (W x00 x00 x00 x00 x00 x00 x00 x00))
(L (W x50 x00 x00 x00 x44 x00 x00 x00)))
(T (W x00 x00 x00 x00 x00 x00 x00 x00)
(L (W x45 x26 x22 x84 xe4 x9c xf2 xcb))
(L (W xff xff xff xff xc0 x00 x00 x00)))))
(T (W xff xff xff xff xff xff xff xff)
(T (W xff xff xff xff x04 x00 x00 x00)
(T (W x45 x26 x22 x84 xe4 x9c xf2 xcb)
(L (W x00 x00 x00 x00 x00 x00 x00 x00))
(L (W x45 x26 x22 x84 xe4 x9c xf2 xcb)))
(T (W x00 x00 x00 x00 x00 x00 x00 x00)
(L (W x00 x00 x00 x00 x12 x00 x00 x00))
(L (W x24 x00 x28 x00 x2c x00 x30 x00))))
(T (W x50 x00 x00 x00 x44 x00 x00 x00)
(T (W x62 xc9 xfd xff x00 x00 x01 x01)
(L (W x45 x26 x22 x84 xe4 x9c xf2 xcb))
(L (W x5f x4e x53 x5f x30 x34 x5f x43)))
(T (W x68 x00 x00 x00 x5c x00 x00 x00)
(L (W x98 x18 xff xff x00 x01 x01 x01)) E))))))
(T (W xff xff xff xff xff xff xff xff)
(T (W xff xff xff xff xff xff xff xff)
(T (W xff xff xff xff xff xff xff xff)
(T (W x50 x00 x00 x00 x44 x00 x00 x00)
(T (W x00 x00 x00 x00 x00 x00 x00 x00)
(T (W x00 x00 x00 x00 x04 x00 x00 x00)
(L (W x00 x00 x00 x00 x00 x00 x00 x00))
(L (W x00 x00 x00 x00 x12 x00 x00 x00)))
(T (W xff xff xff xff xff xff xff xff)
(L (W xff xff xff xff xff xff xff xff))
(L (W x00 x00 x00 x00 xea xa6 xff xff))))
(T (W x00 x00 x00 x00 x00 x00 x00 x00)
(T (W x00 x00 x00 x00 x00 x00 x00 x00)
(L (W x1c x00 x00 x00 x10 x00 x00 x00))
(L (W xff xff xff xff xff xff xff xff)))
(T (W xff xff xff xff xff xff xff xff)
(L (W xff xff xff xff xff xff xff xff))
(L (W x00 x00 x00 x00 x00 x00 x00 x00)))))
(T (W x00 x00 x80 x3f x00 x00 x80 x3f)
(T (W x00 x00 x00 x00 x00 x00 x00 x00)
(T (W xb8 x00 x00 x00 xac x00 x00 x00)
(L (W xff xff xff xff xff xff xff xff))
(L (W x18 x00 x00 x00 x0c x00 x00 x00)))
(T (W x00 x00 x00 x00 x00 x00 x00 x00)
(L (W x45 x26 x22 x84 xe4 x9c xf2 xcb))
(L (W x45 x44 x00 x00 x00 x00 x00 x00))))
(T (W x04 x00 x00 x00 x0a xca xfe xff)
(T (W x00 x00 x00 x00 x00 x00 x00 x00)
(L (W x00 x00 x00 x00 x00 x00 x00 x00))
(L (W x45 x26 x22 x84 xe4 x9c xf2 xcb)))
(T (W x50 x00 x00 x00 x44 x00 x00 x00)
(L (W x00 x00 x00 x00 x12 x00 x00 x00))
(L (W xff xff xff xff xff xff xff xff))))))
(T (W x64 x00 x00 x00 x9c x00 x00 x00)
(T (W x00 x00 x00 x00 x10 x76 xfc xff)
(T (W x45 x26 x22 x84 xe4 x9c xf2 xcb)
(T (W x4b x00 x00 x00 xff xff xff xff)
(L (W x00 x00 x00 x00 x00 x00 x00 x00))
(L (W x00 x00 x80 xbf x00 x00 x80 xbf)))
(T (W x00 x00 x00 x00 x72 xb5 xfd xff)
(L (W x00 x00 x00 x00 x00 x00 x00 x00))
(L (W x00 x00 x00 x00 x00 x00 x00 x00))))
(T (W x00 x00 x00 x00 x00 x00 x00 x00)
(T (W x92 x8c xfd xff x74 x00 x00 x00)
(L (W x00 x00 x80 xbf x00 x00 x80 xbf))
(L (W x00 x00 x01 x01 xcf x00 x00 x00)))
(T (W xff xff xff xff xff xff xff xff)
(L (W x4c x45 x41 x52 x45 x44 x00 x00))
(L (W x00 x00 x00 x00 x00 x00 x00 x00)))))
(T (W x00 x00 x80 x3f x00 x00 x80 x3f)
(T (W x00 x00 x00 x00 x00 x00 x00 x00)
(T (W x00 x00 x00 x00 x00 x00 x00 x00)
(L (W xda x58 xfe xff x78 x00 x00 x00))
(L (W xff xff xff xff xff xff xff xff)))
(T (W x45 x26 x22 x84 xe4 x9c xf2 xcb)
(L (W xbc x00 x00 x00 x64 x00 x00 x00))
(L (W x00 x00 x00 x00 x00 x00 x00 x00))))
(T (W x00 x00 x00 x00 x00 x00 x00 x00)
(T (W x00 x00 x80 x3f x00 x00 x80 x3f)
(L (W xda x98 xfe xff x78 x00 x00 x00))
(L (W x00 x00 x00 x00 x00 x00 x00 x00)))
(T (W x00 x00 x00 x00 x00 x00 x00 x00)
(L (W x4f x84 x6f x8b xe8 xcb x63 xb7)) E)))))
(T (W xff xff xff xff xff xff xff xff)
(T (W xff xff xff xff xff xff xff xff)
(T (W x92 x84 xfc xff x74 x00 x00 x00)
(T (W x00 x00 x00 x00 x00 x00 x00 x00)
(T (W xff xff xff xff xff xff xff xff)
(L (W x00 x00 x00 x00 x00 x00 x00 x00))
(L (W x00 x00 x00 x00 x00 x00 x00 x00)))
(T (W xff xff xff xff xff xff xff xff)
(L (W x00 x00 x00 x00 x00 x00 x00 x00))
(L (W x00 x00 x00 x00 x00 x00 x00 x00))))
(T (W x00 x00 x00 x00 x00 x00 x00 x00)
(T (W x00 x00 x80 x3f x00 x00 x80 x3f)
(L (W x00 x00 x80 xbf x00 x00 x80 xbf))
(L (W x00 x00 x00 x00 xea x6e xff xff)))
(T (W xff xff xff xff xff xff xff xff)
(L (W x90 x04 x00 x00 x80 x03 x00 x00))
(L (W x45 x26 x22 x84 xe4 x9c xf2 xcb)))))
(T (W x00 x00 x80 x3f x00 x00 x80 x3f)
(T (W x00 x00 x00 x00 x00 x00 x00 x00)
(T (W x00 x00 x00 x00 x00 x00 x00 x00)
(L (W x00 x00 x00 x00 x00 x00 x00 x00))
(L (W xff xff xff xff xbc x00 x00 x00)))
(T (W x00 x00 x80 x3f x00 x00 x80 x3f)
(L (W x00 x00 x80 xbf x00 x00 x80 xbf))
(L (W x00 x00 x00 x00 x00 x00 x00 x00))))
(T (W x00 x00 x00 x00 x92 xd0 xfe xff)
(T (W x00 x00 x00 x00 x00 x00 x00 x00)
(L (W xff xff xff xff xff xff xff xff))
(L (W x4f x84 x6f x8b xe8 xcb x63 xb7)))
(T (W xff xff xff xff xff xff xff xff)
(L (W x00 x00 x00 x00 x00 x00 x00 x00)) E))))
(T (W x98 x5c xfc xff x00 x01 x01 x01)
(T (W x45 x26 x22 x84 xe4 x9c xf2 xcb)
(T (W x00 x00 x80 x3f x00 x00 x80 x3f)
(T (W xff xff xff xff xff xff xff xff)
(L (W xff xff xff xff xff xff xff xff))
(L (W xda x40 xff xff x78 x00 x00 x00)))
(T (W x00 x00 x00 x00 x00 x00 x00 x00)
(L (W x30 x34 x5f x43 x4c x45 x41 x52))
(L (W x00 x00 x00 x00 x00 x00 x00 x00))))
(T (W x69 x75 x36 xfe x02 x9c xeb x70)
(T (W xff xff xff xff xff xff xff xff)
(L (W xff xff xff xff xff xff xff xff))
(L (W x46 x53 x59 x53 x5f x4e x53 x5f)))
(T (W xb8 x00 x00 x00 xac x00 x00 x00)
(L (W x00 x00 x00 x00 x00 x00 x00 x00))
(L (W xff xff xff xff xff xff xff xff)))))
(T (W x45 x26 x22 x84 xe4 x9c xf2 xcb)
(T (W x00 x00 x00 x00 x00 x00 x00 x00)
(T (W x00 x00 x00 x00 x00 x00 x00 x00)
(L (W x18 x00 x00 x00 x10 x00 x00 x00))
(L (W xff xff xff xff xff xff xff xff)))
(T (W xff xff xff xff xff xff xff xff)
(L (W xff xff xff xff xff xff xff xff))
(L (W xff xff xff xff xff xff xff xff))))
(T (W x00 x00 x00 x00 x00 x00 x00 x00)
(T (W x18 x00 x00 x00 x10 x00 x00 x00)
(L (W x30 x34 x5f x43 x4c x45 x41 x52))
(L (W xdc xa7 xff xff x12 x00 x00 x00)))
(T (W x42 xd1 xff xff x00 x00 x01 x01)
(L (W x00 x00 x00 x00 x00 x00 x00 x00)) E))))))))))
(T (W x98 xc7 x02 x00 x4c xbe x02 x00)
(T (W x30 x4a x02 x00 xac x45 x02 x00)
(T (W xd0 xa0 x01 x00 x1c x9c x01 x00)
(T (W x28 x57 x00 x00 xf4 x55 x00 x00)
(T (W x00 x00 x00 x00 x00 x00 x00 x00)
(T (W x00 x00 x00 x00 x00 x00 x00 x00)
(T (W x00 x00 x00 x00 x00 x00 x00 x00)
(T (W x02 x12 xfe xff x00 x00 x01 x01)
(T (W x64 x00 x00 x00 x9c x00 x00 x00)
(T (W x00 x00 x80 x3f x00 x00 x80 x3f)
(L (W x45 x26 x22 x84 xe4 x9c xf2 xcb))
(L (W x1c x00 x00 x00 x10 x00 x00 x00)))
(T (W x01 x00 x00 x00 xff xff xff xff)
(L (W x28 x00 x00 x00 x2b x00 x00 x00))
(L (W x00 x01 x01 x01 x12 x9a xff xff))))
(T (W x00 x00 x80 x3f x00 x00 x80 x3f)
(T (W x50 x00 x00 x00 x44 x00 x00 x00)
(L (W xfd x70 xca xc9 x03 x93 xa3 xbc))
(L (W x45 x26 x22 x84 xe4 x9c xf2 xcb)))
(T (W x00 x00 x00 x00 x00 x00 x00 x00)
(L (W x00 x00 x00 x00 x00 x00 x00 x00))
(L (W x00 x00 x00 x00 x12 x00 x00 x00)))))
(T (W xff xff xff xff xff xff xff xff)
(T (W x45 x26 x22 x84 xe4 x9c xf2 xcb)
(T (W x00 x00 x00 x00 x00 x00 x00 x00)
(L (W x00 x00 x00 x00 x00 x00 x00 x00))
(L (W xff xff xff xff xff xff xff xff)))
(T (W x52 xd5 xfd xff x74 x00 x00 x00)
(L (W x00 x00 x80 x3f x00 x00 x80 x3f))
(L (W x27 x00 x00 x00 x2a x00 x00 x00))))
(T (W x00 x00 x80 x3f x00 x00 x80 x3f)
(T (W x5f x4e x53 x5f x30 x34 x5f x43)
(L (W x00 x00 x00 x00 x00 x00 x00 x00))
(L (W x00 x00 x80 xbf x00 x00 x80 xbf)))
(T (W x92 xb0 xff xff x95 x01 x00 x00)
(L (W x00 x00 x80 xbf x00 x00 x80 xbf))
(L (W x4f x84 x6f x8b xe8 xcb x63 xb7))))))
(T (W x00 x00 x00 x00 x00 x00 x00 x00)
(T (W xff xff xff xff xff xff xff xff)
(T (W x50 x00 x00 x00 x44 x00 x00 x00)
(T (W x00 x00 x00 x00 x00 x00 x00 x00)
(L (W x68 x00 x00 x00 x5c x00 x00 x00))
(L (W xff xff xff xff xb0 x00 x00 x00)))
(T (W x00 x00 x00 x00 x00 x00 x00 x00)
(L (W x00 x00 x80 x3f x00 x00 x80 x3f))
(L (W x9a xb1 xff xff x78 x00 x00 x00))))
(T (W x68 x00 x00 x00 x5c x00 x00 x00)
(T (W xff xff xff xff xff xff xff xff)
(L (W xff xff xff xff xff xff xff xff))
(L (W x00 x00 x80 xbf x00 x00 x80 xbf)))
(T (W x00 x00 x00 x00 x00 x00 x00 x00)
(L (W x00 x00 x80 xbf x00 x00 x80 xbf))
(L (W x9c x02 x00 x00 x30 x01 x00 x00)))))
(T (W xff xff xff xff xff xff xff xff)
(T (W x50 x00 x00 x00 x44 x00 x00 x00)
(T (W x00 x00 x80 x3f x00 x00 x80 x3f)
(L (W xff xff xff xff xff xff xff xff))
(L (W x00 x00 x00 x00 x00 x00 x00 x00)))
(T (W xff xff xff xff xff xff xff xff)
(L (W xff xff xff xff xff xff xff xff))
(L (W x52 xe5 xff xff x74 x00 x00 x00))))
(T (W x45 x26 x22 x84 xe4 x9c xf2 xcb)
(T (W x58 x8d xfd xff x00 x01 x01 x01)
(L (W x00 x00 x00 x00 x00 x00 x00 x00))
(L (W x14 x00 x00 x00 x0c x00 x00 x00)))
(T (W x00 x00 x00 x00 x00 x00 x00 x00)
(L (W x9a x11 xff xff x78 x00 x00 x00)) E)))))
(T (W x00 x00 x00 x00 x00 x00 x00 x00)
(T (W x00 x00 x00 x00 x00 x00 x00 x00)
(T (W xff xff xff xff xff xff xff xff)
(T (W x58 xa5 xfc xff x00 x01 x01 x01)
(T (W x00 x00 x80 x3f x00 x00 x80 x3f)
(L (W x00 x00 x80 x3f x00 x00 x80 x3f))
(L (W x54 x00 x00 x00 x48 x00 x00 x00)))
(T (W x00 x00 x00 x00 x12 x00 x00 x00)
(L (W x00 x00 x00 x00 x00 x00 x00 x00))
(L (W x00 x00 x80 xbf x00 x00 x80 xbf))))
(T (W x50 x00 x00 x00 x44 x00 x00 x00)
(T (W x45 x26 x22 x84 xe4 x9c xf2 xcb)
(L (W x2a x00 x00 x00 xff xff xff xff))
(L (W x00 x00 x00 x00 x00 x00 x00 x00)))
(T (W x00 x00 x00 x00 x00 x00 x00 x00)
(L (W x00 x00 x00 x00 x00 x00 x00 x00))
(L (W xff xff xff xff xff xff xff xff)))))
(T (W xff xff xff xff xff xff xff xff)
(T (W x58 xc5 xfc xff x00 x01 x01 x01)
(T (W xf4 x4b xfd xff x2e x00 x00 x00)
(L (W x00 x00 x00 x00 x00 x00 x00 x00))
(L (W x00 x00 x00 x00 xa2 x44 xff xff)))
(T (W x03 x00 x00 x00 xd4 x00 x00 x00)
(L (W x45 x26 x22 x84 xe4 x9c xf2 xcb))
(L (W x70 x00 x00 x00 x64 x00 x00 x00))))
(T (W x00 x00 x80 x3f x00 x00 x80 x3f)
(T (W x00 x00 x80 x3f x00 x00 x80 x3f)
(L (W xff xff xff xff x9c x00 x00 x00))
(L (W x00 x00 x00 x00 x5c x85 xff xff)))
(T (W xff xff xff xff xff xff xff xff)
(L (W x00 x00 x80 xbf x00 x00 x80 xbf))
(L (W x45 x26 x22 x84 xe4 x9c xf2 xcb))))))
(T (W x2f x00 x00 x00 x10 x00 x00 x00)
(T (W xff xff xff xff xff xff xff xff)
(T (W x52 xcd xfc xff x74 x00 x00 x00)
(T (W x45 x26 x22 x84 xe4 x9c xf2 xcb)
(L (W x00 x00 x80 x3f x00 x00 x80 x3f))
(L (W xb0 x00 x00 x00 x64 x00 x00 x00)))
(T (W x00 x00 x80 x3f x00 x00 x80 x3f)
(L (W x00 x00 x80 x3f x00 x00 x80 x3f))
(L (W x52 xcd xff xff x74 x00 x00 x00))))
(T (W x00 x00 x80 x3f x00 x00 x80 x3f)
(T (W x00 x00 x01 x01 x4b x00 x00 x00)
(L (W xff xff xff xff xff xff xff xff))
(L (W x49 xa1 x68 x4a xeb x5f xdd x3d)))
(T (W x00 x00 x00 x00 x00 x00 x00 x00)
(L (W x00 x00 x80 xbf x00 x00 x80 xbf))
(L (W x18 x00 x00 x00 x0c x00 x00 x00)))))
(T (W xff xff xff xff xff xff xff xff)
(T (W x00 x00 x80 x3f x00 x00 x80 x3f)
(T (W x00 x00 x80 x3f x00 x00 x80 x3f)
(L (W xff xff xff xff xff xff xff xff))
(L (W x00 x00 x00 x00 x00 x00 x00 x00)))
(T (W x02 x00 x00 x00 x30 x01 x00 x00)
(L (W x00 x00 x00 x00 x00 x00 x00 x00))
(L (W x00 x00 x80 xbf x00 x00 x80 xbf))))
(T (W x00 x00 x80 x3f x00 x00 x80 x3f)
(T (W xff xff xff xff xbc x00 x00 x00)
(L (W xff xff xff xff xff xff xff xff))
(L (W x54 x00 x00 x00 x48 x00 x00 x00)))
(T (W x00 x00 x80 x3f x00 x00 x80 x3f)
(L (W x14 x00 x00 x00 x0c x00 x00 x00)) E))))))
(T (W xb8 x00 x00 x00 xac x00 x00 x00)
(T (W xc0 x00 x00 x00 xb4 x00 x00 x00)
(T (W x52 x59 xfc xff x74 x00 x00 x00)
(T (W x58 x61 xfc xff x00 x01 x01 x01)
(T (W x45 x26 x22 x84 xe4 x9c xf2 xcb)
(T (W xff xff xff xff xff xff xff xff)
(L (W xff xff xff xff xff xff xff xff))
(L (W x00 x00 x00 x00 x00 x00 x00 x00)))
(T (W x00 x00 x00 x00 xd0 xa2 xfd xff)
(L (W x49 xa1 x68 x4a xeb x5f xdd x3d))
(L (W xff xff xff xff xff xff xff xff))))
(T (W x00 x00 x00 x00 x02 x00 x00 x00)
(T (W x00 x00 x00 x00 xaa x63 xfd xff)
(L (W xcc x62 xfe xff x12 x5e xfe xff))
(L (W xff xff xff xff xff xff xff xff)))
(T (W xff xff xff xff x03 x00 x00 x00)
(L (W x45 x26 x22 x84 xe4 x9c xf2 xcb))
(L (W x18 x00 x00 x00 x0c x00 x00 x00)))))
(T (W x00 x00 x00 x00 x00 x00 x00 x00)
(T (W xf4 xc7 xfc xff x3c x00 x00 x00)
(T (W x00 x00 x80 x3f x00 x00 x80 x3f)
(L (W x00 x00 x00 x00 xd0 x42 xfe xff))
(L (W x00 x00 x80 xbf x00 x00 x80 xbf)))
(T (W x12 x00 x00 x00 x46 x53 x59 x53)
(L (W x00 x00 x00 x00 x00 x00 x00 x00))
(L (W xff xff xff xff xff xff xff xff))))
(T (W xff xff xff xff xff xff xff xff)
(T (W xff xff xff xff xff xff xff xff)
(L (W x00 x00 x01 x01 xd2 x01 x00 x00))
(L (W x00 x00 x00 x00 x00 x00 x00 x00)))
(T (W x00 x00 x80 x3f x00 x00 x80 x3f)
(L (W x04 x00 x00 x00 xaa x07 xff xff))
(L (W xff xff xff xff xff xff xff xff))))))
(T (W x68 x00 x00 x00 x5c x00 x00 x00)
(T (W x00 x00 x80 x3f x00 x00 x80 x3f)
(T (W x00 x00 x00 x00 x00 x00 x00 x00)
(T (W x18 x00 x00 x00 x10 x00 x00 x00)
(L (W x02 xe6 xff xff x00 x00 x01 x01))
(L (W x00 x00 x00 x00 x00 x00 x00 x00)))
(T (W xff xff xff xff xff xff xff xff)
(L (W x00 x00 x00 x00 x00 x00 x00 x00))
(L (W xd4 xf9 xaf x28 xbf x5c x5d x6a))))
(T (W xff xff xff xff xff xff xff xff)
(T (W x00 x00 x80 x3f x00 x00 x80 x3f)
(L (W x45 x26 x22 x84 xe4 x9c xf2 xcb))
(L (W xff xff xff xff xff xff xff xff)))
(T (W xb8 x00 x00 x00 xac x00 x00 x00)
(L (W xff xff xff xff xff xff xff xff))
(L (W x00 x00 x00 x00 x00 x00 x00 x00)))))
(T (W x00 x00 x00 x00 x00 x00 x00 x00)
(T (W xf4 xd7 xfc xff x3c x00 x00 x00)
(T (W xff xff xff xff xff xff xff xff)
(L (W x55 x6c xfc xf1 x99 x9e xc9 x88))
(L (W x18 x00 x00 x00 x10 x00 x00 x00)))
(T (W x00 x00 x80 x3f x00 x00 x80 x3f)
(L (W x00 x00 x80 xbf x00 x00 x80 xbf))
(L (W xff xff xff xff xff xff xff xff))))
(T (W xff xff xff xff xff xff xff xff)
(T (W x00 x00 x00 x00 x00 x00 x00 x00)
(L (W x00 x00 x01 x01 x9b x01 x00 x00))
(L (W xff xff xff xff xff xff xff xff)))
(T (W xd8 x00 x00 x00 xff xff xff xff)
(L (W x00 x00 x00 x00 x32 x12 xff xff)) E)))))
(T (W x18 x00 x00 x00 x0c x00 x00 x00)
(T (W x00 x00 x80 x3f x00 x00 x80 x3f)
(T (W x00 x00 x80 x3f x00 x00 x80 x3f)
(T (W x00 x00 x00 x00 x00 x00 x00 x00)
(T (W xff xff xff xff x04 x00 x00 x00)
(L (W x00 x00 x00 x00 x00 x00 x00 x00))
(L (W x00 x00 x00 x00 x00 x00 x00 x00)))
(T (W xcc x00 x00 x00 x01 x00 x00 x00)
(L (W x00 x00 x80 x3f x00 x00 x80 x3f))
(L (W xff xff xff xff xff xff xff xff))))
(T (W xff xff xff xff xff xff xff xff)
(T (W x00 x00 x00 x00 x00 x00 x00 x00)
(L (W x00 x00 x80 xbf x00 x00 x80 xbf))
(L (W xff xff xff xff xff xff xff xff)))
(T (W x68 x00 x00 x00 x5c x00 x00 x00)
(L (W xff xff xff xff xff xff xff xff))
(L (W x1c x00 x00 x00 x10 x00 x00 x00)))))
(T (W x00 x00 x00 x00 x00 x00 x00 x00)
(T (W x00 x00 x00 x00 x00 x00 x00 x00)
(T (W xff xff xff xff xff xff xff xff)
(L (W x52 x61 xfe xff x74 x00 x00 x00))
(L (W x45 x26 x22 x84 xe4 x9c xf2 xcb)))
(T (W x00 x00 x00 x00 x00 x00 x00 x00)
(L (W x00 x00 x00 x00 x00 x00 x00 x00))
(L (W x00 x00 x00 x00 x00 x00 x00 x00))))
(T (W x18 x00 x00 x00 x0c x00 x00 x00)
(T (W x00 x00 x00 x00 xa2 x88 xfd xff)
(L (W x00 x00 x80 xbf x00 x00 x80 xbf))
(L (W xff xff xff xff xff xff xff xff)))
(T (W x45 x26 x22 x84 xe4 x9c xf2 xcb)
(L (W xff xff xff xff xff xff xff xff)) E))))
(T (W x52 x71 xfc xff x74 x00 x00 x00)
(T (W x00 x00 x80 x3f x00 x00 x80 x3f)
(T (W x00 x00 x00 x00 x00 x00 x00 x00)
(T (W xb8 x00 x00 x00 xac x00 x00 x00)
(L (W x00 x00 x00 x00 x00 x00 x00 x00))
(L (W x4f x84 x6f x8b xe8 xcb x63 xb7)))
(T (W xff xff xff xff xff xff xff xff)
(L (W xff xff xff xff xff xff xff xff))
(L (W x00 x00 x00 x00 x00 x00 x00 x00))))
(T (W xff xff xff xff xff xff xff xff)
(T (W x50 x00 x00 x00 x44 x00 x00 x00)
(L (W x50 x00 x00 x00 x44 x00 x00 x00))
(L (W xff xff xff xff xff xff xff xff)))
(T (W x50 x00 x00 x00 x44 x00 x00 x00)
(L (W x4b x00 x00 x00 xff xff xff xff))
(L (W x00 x00 x00 x00 x00 x00 x00 x00)))))
(T (W x00 x00 x00 x00 x00 x00 x00 x00)
(T (W x00 x00 x00 x00 x00 x00 x00 x00)
(T (W xff xff xff xff xff xff xff xff)
(L (W x9a x5d xfe xff x78 x00 x00 x00))
(L (W xff xff xff xff xff xff xff xff)))
(T (W x52 xf1 xfd xff x74 x00 x00 x00)
(L (W x54 x00 x00 x00 x48 x00 x00 x00))
(L (W x9a xdd xff xff x78 x00 x00 x00))))
(T (W xff xff xff xff xff xff xff xff)
(T (W x00 x00 x80 x3f x00 x00 x80 x3f)
(L (W xff xff xff xff xff xff xff xff))
(L (W xff xff xff xff xff xff xff xff)))
(T (W xff xff xff xff xff xff xff xff)
(L (W xff xff xff xff xff xff xff xff)) E)))))))
(T (W xd3 x02 x00 x00 xff xff xff xff)
(T (W x9a x2b xfc xff x78 x00 x00 x00)
(T (W x00 x00 x80 x3f x00 x00 x80 x3f)
(T (W x00 x00 x80 x3f x00 x00 x80 x3f)
(T (W x45 x26 x22 x84 xe4 x9c xf2 xcb)
(T (W xff xff xff xff xff xff xff xff)
(T (W x00 x00 x80 x3f x00 x00 x80 x3f)
(L (W x68 x00 x00 x00 x5c x00 x00 x00))
(L (W xff xff xff xff xff xff xff xff)))
(T (W x00 x00 x00 x00 x00 x00 x00 x00)
(L (W x30 x34 x5f x43 x4c x45 x41 x52))
(L (W xbc x00 x00 x00 x02 x00 x00 x00))))
(T (W x64 x00 x00 x00 x9c x00 x00 x00)
(T (W xff xff xff xff xff xff xff xff)
(L (W x00 x00 x80 xbf x00 x00 x80 xbf))
(L (W xac x00 x00 x00 x19 x00 x00 x00)))
(T (W x00 x00 x80 x3f x00 x00 x80 x3f)
(L (W x00 x00 x80 xbf x00 x00 x80 xbf))
(L (W x00 x00 x80 xbf x00 x00 x80 xbf)))))
(T (W x00 x00 x00 x00 x00 x00 x00 x00)
(T (W xff xff xff xff xff xff xff xff)
(T (W xff xff xff xff xff xff xff xff)
(L (W x00 x00 x80 x3f x00 x00 x80 x3f))
(L (W x00 x00 x00 x00 x00 x00 x00 x00)))
(T (W xff xff xff xff xff xff xff xff)
(L (W xff xff xff xff xff xff xff xff))
(L (W xff xff xff xff xff xff xff xff))))
(T (W x01 x00 x00 x00 x3c x00 x00 x00)
(T (W x00 x00 x80 x3f x00 x00 x80 x3f)
(L (W x44 xf6 xff xff x01 x01 x01 x01))
(L (W xff xff xff xff xff xff xff xff)))
(T (W x00 x00 x00 x00 x00 x00 x00 x00)
(L (W x45 x26 x22 x84 xe4 x9c xf2 xcb))
(L (W x3c x00 x40 x00 x44 x00 x48 x00))))))
(T (W x00 x00 x80 x3f x00 x00 x80 x3f)
(T (W x00 x00 x00 x00 x00 x00 x00 x00)
(T (W xff xff xff xff xff xff xff xff)
(T (W x52 x47 xfd xff x74 x00 x00 x00)
(L (W xff xff xff xff xff xff xff xff))
(L (W xff xff xff xff xff xff xff xff)))
(T (W x9a xb3 xfd xff x78 x00 x00 x00)
(L (W xff xff xff xff xff xff xff xff))
(L (W xff xff xff xff xff xff xff xff))))
(T (W x18 x00 x00 x00 x0c x00 x00 x00)
(T (W x45 x44 x00 x00 x00 x00 x00 x00)
(L (W x00 x00 x00 x00 x00 x00 x00 x00))
(L (W x00 x00 x00 x00 xd0 x70 xff xff)))
(T (W x00 x00 x80 x3f x00 x00 x80 x3f)
(L (W x18 x00 x00 x00 x0c x00 x00 x00))
(L (W x00 x00 x00 x00 x00 x00 x00 x00)))))
(T (W x00 x00 x00 x00 x00 x00 x00 x00)
(T (W xff xff xff xff xff xff xff xff)
(T (W xff xff xff xff x9c x00 x00 x00)
(L (W x00 x00 x80 x3f x00 x00 x80 x3f))
(L (W x00 x00 x80 xbf x00 x00 x80 xbf)))
(T (W x00 x00 x00 x00 x00 x00 x00 x00)
(L (W x30 x34 x5f x43 x4c x45 x41 x52))
(L (W x28 x00 x2c x00 x30 x00 x34 x00))))
(T (W x18 x00 x00 x00 x0c x00 x00 x00)
(T (W xff xff xff xff xff xff xff xff)
(L (W x58 x8f xfe xff x00 x01 x01 x01))
(L (W xff xff xff xff xff xff xff xff)))
(T (W xff xff xff xff x03 x00 x00 x00)
(L (W xff xff xff xff xff xff xff xff)) E)))))
(T (W x45 x26 x22 x84 xe4 x9c xf2 xcb)
(T (W x00 x00 x80 x3f x00 x00 x80 x3f)
(T (W x00 x00 x00 x00 x00 x00 x00 x00)
(T (W xdc x01 x00 x00 xff xff xff xff)
(T (W x68 x00 x00 x00 x5c x00 x00 x00)
(L (W xff xff xff xff xff xff xff xff))
(L (W xb0 x00 x00 x00 x1e x00 x00 x00)))
(T (W x00 x00 x80 x3f x00 x00 x80 x3f)
(L (W x6b x65 x5f x77 x61 x72 x6c x69))
(L (W xbc x00 x00 x00 x1e x00 x00 x00))))
(T (W x00 x00 x00 x00 xd0 xe8 xfc xff)
(T (W xff xff xff xff xff xff xff xff)
(L (W x30 x34 x5f x43 x4c x45 x41 x52))
(L (W x00 x00 x80 xbf x00 x00 x80 xbf)))
(T (W x45 x26 x22 x84 xe4 x9c xf2 xcb)
(L (W x00 x00 x80 xbf x00 x00 x80 xbf))
(L (W x00 x00 x00 x00 x00 x00 x00 x00)))))
(T (W x00 x00 x00 x00 x00 x00 x00 x00)
(T (W xff xff xff xff xff xff xff xff)
(T (W x00 x00 x80 x3f x00 x00 x80 x3f)
(L (W x00 x00 x80 x3f x00 x00 x80 x3f))
(L (W x00 x00 x80 xbf x00 x00 x80 xbf)))
(T (W x9c x01 x00 x00 xff xff xff xff)
(L (W xff xff xff xff xff xff xff xff))
(L (W xff xff xff xff xff xff xff xff))))
(T (W xff xff xff xff xff xff xff xff)
(T (W xff xff xff xff x9c x00 x00 x00)
(L (W x2f x4d x69 x12 x83 x70 x37 xc6))
(L (W xcc x00 x00 x00 x01 x00 x00 x00)))
(T (W x00 x00 x00 x00 x00 x00 x00 x00)
(L (W xbc x00 x00 x00 x64 x00 x00 x00)) E))))
(T (W x00 x00 x00 x00 x00 x00 x00 x00)
(T (W x40 x00 x00 x00 x0c x00 x00 x00)
(T (W xff xff xff xff xff xff xff xff)
(T (W x58 x37 xfd xff x00 x01 x01 x01)
(L (W xff xff xff xff xff xff xff xff))
(L (W x45 x44 x00 x00 x00 x00 x00 x00)))
(T (W x25 x00 x00 x00 x28 x00 x00 x00)
(L (W xcc x00 x00 x00 x01 x00 x00 x00))
(L (W xff xff xff xff xff xff xff xff))))
(T (W x40 x00 x00 x00 x9c x00 x00 x00)
(T (W x00 x00 x00 x00 x00 x00 x00 x00)
(L (W x00 x00 x00 x00 x00 x00 x00 x00))
(L (W x45 x26 x22 x84 xe4 x9c xf2 xcb)))
(T (W x45 x26 x22 x84 xe4 x9c xf2 xcb)
(L (W xff xff xff xff xff xff xff xff))
(L (W xff xff xff xff xff xff xff xff)))))
(T (W x00 x00 x00 x00 x04 x00 x00 x00)
(T (W xff xff xff xff xff xff xff xff)
(T (W x03 x00 x00 x00 xd0 x00 x00 x00)
(L (W x00 x00 x00 x00 x00 x00 x00 x00))
(L (W x00 x00 x80 xbf x00 x00 x80 xbf)))
(T (W x00 x00 x00 x00 x00 x00 x00 x00)
(L (W x00 x00 x00 x00 x00 x00 x00 x00))
(L (W x01 x00 x00 x00 xff xff xff xff))))
(T (W x52 x2f xfd xff x74 x00 x00 x00)
(T (W x5f x4e x53 x5f x30 x34 x5f x43)
(L (W x46 x53 x59 x53 x5f x4e x53 x5f))
(L (W x2c x00 x30 x00 x34 x00 x38 x00)))
(T (W x52 x2f xfe xff x74 x00 x00 x00)
(L (W xff xff xff xff xff xff xff xff)) E))))))
(T (W xff xff xff xff xff xff xff xff)
(T (W xff xff xff xff xff xff xff xff)
(T (W xff xff xff xff xff xff xff xff)
(T (W xb8 x00 x00 x00 xac x00 x00 x00)
(T (W x00 x00 x80 x3f x00 x00 x80 x3f)
(T (W x00 x00 x00 x00 x00 x00 x00 x00)
(L (W x5f x77 x69 x6c x64 x5f x70 x6f))
(L (W x00 x00 x00 x00 x00 x00 x00 x00)))
(T (W xff xff xff xff xff xff xff xff)
(L (W x00 x00 x01 x01 x98 x01 x00 x00))
(L (W x00 x00 x00 x00 x00 x00 x00 x00))))
(T (W x00 x00 x00 x00 x00 x00 x00 x00)
(T (W x49 xa1 x68 x4a xeb x5f xdd x3d)
(L (W xa0 x00 x00 x00 x1e x00 x00 x00))
(L (W x00 x00 x00 x00 x00 x00 x00 x00)))
(T (W xdf x01 x00 x00 xff xff xff xff)
(L (W xff xff xff xff xff xff xff xff))
(L (W x6c x00 x0c x00 x00 x00 x00 x00)))))
(T (W x45 x26 x22 x84 xe4 x9c xf2 xcb)
(T (W x00 x00 x00 x00 x00 x00 x00 x00)
(T (W xff xff xff xff xff xff xff xff)
(L (W xff xff xff xff xff xff xff xff))
(L (W xff xff xff xff xff xff xff xff)))
(T (W x00 x00 x80 x3f x00 x00 x80 x3f)
(L (W x00 x00 x80 xbf x00 x00 x80 xbf))
(L (W x00 x00 x00 x00 x00 x00 x00 x00))))
(T (W x00 x00 x00 x00 x01 x00 x00 x00)
(T (W x00 x00 x00 x00 x00 x00 x00 x00)
(L (W x45 x26 x22 x84 xe4 x9c xf2 xcb))
(L (W x00 x00 x80 xbf x00 x00 x80 xbf)))
(T (W xb8 x00 x00 x00 xac x00 x00 x00)
(L (W x45 x26 x22 x84 xe4 x9c xf2 xcb))
(L (W x10 x00 x14 x00 x00 x00 x00 x00))))))
(T (W xff xff xff xff x04 x00 x00 x00)
(T (W xff xff xff xff x03 x00 x00 x00)
(T (W x00 x00 x80 x3f x00 x00 x80 x3f)
(T (W x02 xe8 xfe xff x00 x00 x01 x01)
(L (W x00 x00 x00 x00 x00 x00 x00 x00))
(L (W x54 x00 x00 x00 x48 x00 x00 x00)))
(T (W x46 x53 x59 x53 x5f x4e x53 x5f)
(L (W x00 x00 x00 x00 x00 x00 x00 x00))
(L (W x00 x00 x80 xbf x00 x00 x80 xbf))))
(T (W x00 x00 x00 x00 x00 x00 x00 x00)
(T (W xff xff xff xff xb0 x00 x00 x00)
(L (W x00 x00 x80 xbf x00 x00 x80 xbf))
(L (W x00 x00 x00 x00 x00 x00 x00 x00)))
(T (W xff xff xff xff xff xff xff xff)
(L (W x00 x00 x00 x00 x00 x00 x00 x00))
(L (W x00 x00 x00 x00 x00 x00 x00 x00)))))
(T (W x00 x00 x80 x3f x00 x00 x80 x3f)
(T (W x00 x00 x80 x3f x00 x00 x80 x3f)
(T (W x00 x00 x00 x00 x00 x00 x00 x00)
(L (W x00 x00 x00 x00 xd0 x54 xfe xff))
(L (W xff xff xff xff xff xff xff xff)))
(T (W x03 x00 x00 x00 xd0 x00 x00 x00)
(L (W xff xff xff xff xff xff xff xff))
(L (W x00 x00 x00 x00 x00 x00 x00 x00))))
(T (W x00 x00 x00 x00 x00 x00 x00 x00)
(T (W x68 x00 x00 x00 x5c x00 x00 x00)
(L (W x54 x00 x00 x00 x48 x00 x00 x00))
(L (W x00 x00 x00 x00 x00 x00 x00 x00)))
(T (W x00 x00 x00 x00 x00 x00 x00 x00)
(L (W x00 x00 x00 x00 x00 x00 x00 x00)) E)))))
(T (W xff xff xff xff xff xff xff xff)
(T (W xff xff xff xff xff xff xff xff)
(T (W xc0 x00 x00 x00 xb4 x00 x00 x00)
(T (W x00 x00 x80 x3f x00 x00 x80 x3f)
(T (W x40 x00 x00 x00 x10 x00 x00 x00)
(L (W x45 x26 x22 x84 xe4 x9c xf2 xcb))
(L (W x49 xa1 x68 x4a xeb x5f xdd x3d)))
(T (W xff xff xff xff xff xff xff xff)
(L (W x6c x76 x32 x00 x22 x00 x00 x00))
(L (W x00 x00 x00 x00 x00 x00 x00 x00))))
(T (W x00 x00 x00 x00 x00 x00 x00 x00)
(T (W x00 x00 x80 x3f x00 x00 x80 x3f)
(L (W x6c x00 x00 x00 x60 x00 x00 x00))
(L (W x00 x00 x00 x00 x00 x00 x00 x00)))
(T (W xff xff xff xff xff xff xff xff)
(L (W x00 x00 x00 x00 x00 x00 x00 x00))
(L (W xff xff xff xff xff xff xff xff)))))
(T (W x50 x00 x00 x00 x44 x00 x00 x00)
(T (W x45 x26 x22 x84 xe4 x9c xf2 xcb)
(T (W x00 x00 x00 x00 x00 x00 x00 x00)
(L (W x70 x00 x08 x00 x68 x00 x0c x00))
(L (W xff xff xff xff xff xff xff xff)))
(T (W x45 x26 x22 x84 xe4 x9c xf2 xcb)
(L (W x00 x00 x80 xbf x00 x00 x80 xbf))
(L (W x00 x00 x00 x00 x00 x00 x00 x00))))
(T (W x00 x00 x00 x00 x00 x00 x00 x00)
(T (W x4f x84 x6f x8b xe8 xcb x63 xb7)
(L (W xff xff xff xff xff xff xff xff))
(L (W x00 x00 x00 x00 x00 x00 x00 x00)))
(T (W x50 x00 x00 x00 x44 x00 x00 x00)
(L (W x00 x00 x80 xbf x00 x00 x80 xbf)) E))))
(T (W x18 x00 x00 x00 x10 x00 x00 x00)
(T (W x00 x00 x00 x00 xd0 x7c xfc xff)
(T (W x45 x26 x22 x84 xe4 x9c xf2 xcb)
(T (W xff xff xff xff xff xff xff xff)
(L (W x18 x00 x00 x00 x0c x00 x00 x00))
(L (W x18 x00 x00 x00 x0c x00 x00 x00)))
(T (W x00 x00 x00 x00 x00 x00 x00 x00)
(L (W x00 x00 x00 x00 x00 x00 x00 x00))
(L (W x49 xa1 x68 x4a xeb x5f xdd x3d))))
(T (W x9c x06 xfd xff x27 x00 x00 x00)
(T (W xff xff xff xff xff xff xff xff)
(L (W xff xff xff xff xff xff xff xff))
(L (W x00 x00 x00 x00 x00 x00 x00 x00)))
(T (W xff xff xff xff xff xff xff xff)
(L (W x4f x84 x6f x8b xe8 xcb x63 xb7))
(L (W xff xff xff xff xff xff xff xff)))))
(T (W x00 x00 x80 x3f x00 x00 x80 x3f)
(T (W x00 x00 x80 x3f x00 x00 x80 x3f)
(T (W x00 x00 x00 x00 x00 x00 x00 x00)
(L (W xff xff xff xff xff xff xff xff))
(L (W x00 x00 x00 x00 xaa x61 xff xff)))
(T (W xff xff xff xff x01 x00 x00 x00)
(L (W xff xff xff xff xc4 x00 x00 x00))
(L (W xff xff xff xff xff xff xff xff))))
(T (W x00 x00 x00 x00 x00 x00 x00 x00)
(T (W xc8 x00 x00 x00 x01 x00 x00 x00)
(L (W x26 x00 x00 x00 x0c x00 x00 x00))
(L (W x00 x00 x00 x00 x12 x00 x00 x00)))
(T (W x00 x00 x00 x00 x00 x00 x00 x00)
(L (W x00 x00 x00 x00 x00 x00 x00 x00)) E))))))))
(T (W x00 xe8 x00 x00 x54 xe5 x00 x00)
(T (W xff xff xff xff xff xff xff xff)
(T (W x45 x26 x22 x84 xe4 x9c xf2 xcb)
(T (W x00 x00 x80 x3f x00 x00 x80 x3f)
(T (W x45 x26 x22 x84 xe4 x9c xf2 xcb)
(T (W x00 x00 x00 x00 x00 x00 x00 x00)
(T (W xff xff xff xff xff xff xff xff)
(T (W x00 x00 x80 x3f x00 x00 x80 x3f)
(L (W x00 x00 x80 x3f x00 x00 x80 x3f))
(L (W xff xff xff xff xb8 x00 x00 x00)))
(T (W x00 x00 x00 x00 x00 x00 x00 x00)
(L (W x00 x00 x01 x01 x9a x01 x00 x00))
(L (W xff xff xff xff x90 x00 x00 x00))))
(T (W x50 x00 x00 x00 x44 x00 x00 x00)
(T (W xb4 x00 x00 x00 x64 x00 x00 x00)
(L (W x00 x00 x00 x00 x00 x00 x00 x00))
(L (W x45 x26 x22 x84 xe4 x9c xf2 xcb)))
(T (W x45 x26 x22 x84 xe4 x9c xf2 xcb)
(L (W x45 x26 x22 x84 xe4 x9c xf2 xcb))
(L (W x00 x00 x00 x00 x00 x00 x00 x00)))))
(T (W xb7 x01 x00 x00 xff xff xff xff)
(T (W xbc x00 x00 x00 xb0 x00 x00 x00)
(T (W x00 x00 x80 x3f x00 x00 x80 x3f)
(L (W x00 x00 x80 x3f x00 x00 x80 x3f))
(L (W x00 x00 x00 x00 xa2 x3d xff xff)))
(T (W x18 x00 x00 x00 x0c x00 x00 x00)
(L (W xff xff xff xff xb0 x00 x00 x00))
(L (W xff xff xff xff xff xff xff xff))))
(T (W x00 x00 x80 x3f x00 x00 x80 x3f)
(T (W x00 x00 x00 x00 x00 x00 x00 x00)
(L (W x00 x00 x80 xbf x00 x00 x80 xbf))
(L (W x35 x00 x00 x00 x38 x00 x00 x00)))
(T (W x00 x00 x00 x00 x00 x00 x00 x00)
(L (W x6c x00 x00 x00 x60 x00 x00 x00))
(L (W xff xff xff xff xc8 x00 x00 x00))))))
(T (W x00 x00 x00 x00 x00 x00 x00 x00)
(T (W x02 x23 xfe xff x00 x00 x01 x01)
(T (W x64 x00 x00 x00 x9c x00 x00 x00)
(T (W x50 x00 x00 x00 x44 x00 x00 x00)
(L (W x52 x46 xfe xff x74 x00 x00 x00))
(L (W xff xff xff xff xff xff xff xff)))
(T (W x00 x00 x80 x3f x00 x00 x80 x3f)
(L (W xff xff xff xff xb0 x00 x00 x00))
(L (W xff xff xff xff xa0 x00 x00 x00))))
(T (W x00 x00 x00 x00 xd0 xef xfc xff)
(T (W xff xff xff xff xff xff xff xff)
(L (W x00 x00 x00 x00 x00 x00 x00 x00))
(L (W x00 x00 x80 xbf x00 x00 x80 xbf)))
(T (W x45 x26 x22 x84 xe4 x9c xf2 xcb)
(L (W x9a xf2 xfe xff x78 x00 x00 x00))
(L (W x00 x00 x00 x00 x12 x00 x00 x00)))))
(T (W x02 x4e xff xff x00 x00 x01 x01)
(T (W x64 x00 x00 x00 x9c x00 x00 x00)
(T (W x52 x66 xfd xff x74 x00 x00 x00)
(L (W x6b x65 x5f x63 x6f x77 x61 x72))
(L (W x49 xa1 x68 x4a xeb x5f xdd x3d)))
(T (W x80 x03 x00 x00 x54 x02 x00 x00)
(L (W x00 x00 x01 x01 x54 x01 x00 x00))
(L (W xff xff xff xff x9c x00 x00 x00))))
(T (W x00 x00 x80 x3f x00 x00 x80 x3f)
(T (W xb0 x00 x00 x00 x64 x00 x00 x00)
(L (W x45 x26 x22 x84 xe4 x9c xf2 xcb))
(L (W xff xff xff xff xa8 x00 x00 x00)))
(T (W x68 x00 x00 x00 x5c x00 x00 x00)
(L (W xff xff xff xff xa0 x00 x00 x00)) E)))))
(T (W x45 x26 x22 x84 xe4 x9c xf2 xcb)
(T (W x00 x00 x80 x3f x00 x00 x80 x3f)
(T (W x21 x00 x00 x00 x0c x00 x00 x00)
(T (W xff xff xff xff xff xff xff xff)
(T (W x00 x00 x80 x3f x00 x00 x80 x3f)
(L (W xff xff xff xff xff xff xff xff))
(L (W x58 x26 xff xff x00 x01 x01 x01)))
(T (W x45 x26 x22 x84 xe4 x9c xf2 xcb)
(L (W xff xff xff xff xb0 x00 x00 x00))
(L (W x58 xa6 xff xff x00 x01 x01 x01))))
(T (W x52 xfe xfc xff x74 x00 x00 x00)
(T (W xff xff xff xff xbc x00 x00 x00)
(L (W x00 x00 x01 x01 x9e x01 x00 x00))
(L (W x45 x26 x22 x84 xe4 x9c xf2 xcb)))
(T (W x45 x26 x22 x84 xe4 x9c xf2 xcb)
(L (W x00 x00 x80 xbf x00 x00 x80 xbf))
(L (W x19 xd6 xac x28 xbf xd0 x59 x6a)))))
(T (W x8a x44 xff xff x95 x01 x00 x00)
(T (W xff xff xff xff xff xff xff xff)
(T (W x00 x00 x00 x00 x00 x00 x00 x00)
(L (W x00 x00 x00 x00 x00 x00 x00 x00))
(L (W x00 x00 x00 x00 x00 x00 x00 x00)))
(T (W xff xff xff xff xff xff xff xff)
(L (W xff xff xff xff xc4 x00 x00 x00))
(L (W xff xff xff xff xff xff xff xff))))
(T (W x68 x00 x00 x00 x5c x00 x00 x00)
(T (W x9a x8a xfd xff x78 x00 x00 x00)
(L (W xff xff xff xff xff xff xff xff))
(L (W xff xff xff xff x90 x00 x00 x00)))
(T (W x92 xb9 xff xff xb1 x01 x00 x00)
(L (W x58 x06 xff xff x00 x01 x01 x01)) E))))
(T (W x00 x00 x00 x00 x00 x00 x00 x00)
(T (W xff xff xff xff xff xff xff xff)
(T (W x00 x00 x00 x00 xd0 xb7 xfc xff)
(T (W x00 x00 x80 x3f x00 x00 x80 x3f)
(L (W xff xff xff xff x03 x00 x00 x00))
(L (W xff xff xff xff xff xff xff xff)))
(T (W x00 x00 x80 x3f x00 x00 x80 x3f)
(L (W x45 x26 x22 x84 xe4 x9c xf2 xcb))
(L (W xff xff xff xff xff xff xff xff))))
(T (W x45 x26 x22 x84 xe4 x9c xf2 xcb)
(T (W x30 x34 x5f x43 x4c x45 x41 x52)
(L (W x04 x00 x00 x00 x32 x77 xfe xff))
(L (W x00 x00 x80 xbf x00 x00 x80 xbf)))
(T (W x00 x00 x00 x00 x00 x00 x00 x00)
(L (W x18 x00 x00 x00 x0c x00 x00 x00))
(L (W xff xff xff xff xff xff xff xff)))))
(T (W xff xff xff xff xff xff xff xff)
(T (W x58 xd6 xfc xff x00 x01 x01 x01)
(T (W x50 x00 x00 x00 x44 x00 x00 x00)
(L (W x2e x00 x00 x00 x10 x00 x00 x00))
(L (W x00 x00 x80 xbf x00 x00 x80 xbf)))
(T (W x00 x00 x00 x00 x12 x00 x00 x00)
(L (W x00 x00 x00 x00 x12 x00 x00 x00))
(L (W x68 x00 x00 x00 x5c x00 x00 x00))))
(T (W x00 x00 x80 x3f x00 x00 x80 x3f)
(T (W x9d x01 x00 x00 xff xff xff xff)
(L (W x00 x00 x01 x01 x99 x01 x00 x00))
(L (W x2f xa0 x61 x36 xc9 xc0 xb3 x20)))
(T (W x68 x00 x00 x00 x5c x00 x00 x00)
(L (W xff xff xff xff xa8 x00 x00 x00)) E))))))
(T (W xff xff xff xff xff xff xff xff)
(T (W xff xff xff xff xff xff xff xff)
(T (W xff xff xff xff x04 x00 x00 x00)
(T (W x18 x00 x00 x00 x10 x00 x00 x00)
(T (W x00 x00 x80 x3f x00 x00 x80 x3f)
(T (W x1c x01 x00 x00 x04 x00 x00 x00)
(L (W xff xff xff xff xff xff xff xff))
(L (W x00 x00 x00 x00 x12 x00 x00 x00)))
(T (W xff xff xff xff xac x00 x00 x00)
(L (W x28 x00 x00 x00 x2b x00 x00 x00))
(L (W xb3 x01 x00 x00 xff xff xff xff))))
(T (W x00 x00 x00 x00 x00 x00 x00 x00)
(T (W x00 x00 x00 x00 x00 x00 x00 x00)
(L (W x45 x26 x22 x84 xe4 x9c xf2 xcb))
(L (W xff xff xff xff xff xff xff xff)))
(T (W xff xff xff xff xff xff xff xff)
(L (W xff xff xff xff xc8 x00 x00 x00))
(L (W xff xff xff xff xff xff xff xff)))))
(T (W x00 x00 x80 x3f x00 x00 x80 x3f)
(T (W x00 x00 x00 x00 x00 x00 x00 x00)
(T (W xff xff xff xff xff xff xff xff)
(L (W xff xff xff xff xff xff xff xff))
(L (W x18 x00 x00 x00 x0c x00 x00 x00)))
(T (W x45 x26 x22 x84 xe4 x9c xf2 xcb)
(L (W x00 x00 x00 x00 x00 x00 x00 x00))
(L (W x30 x34 x5f x43 x4c x45 x41 x52))))
(T (W xff xff xff xff xff xff xff xff)
(T (W xbb x01 x00 x00 xff xff xff xff)
(L (W x00 x00 x00 x00 x00 x00 x00 x00))
(L (W x00 x00 x00 x00 x00 x00 x00 x00)))
(T (W x50 x00 x00 x00 x44 x00 x00 x00)
(L (W x00 x00 x00 x00 x12 x00 x00 x00))
(L (W x74 x00 x0c x00 x00 x00 x00 x00))))))
(T (W x52 x6a xfc xff x74 x00 x00 x00)
(T (W x50 x00 x00 x00 x44 x00 x00 x00)
(T (W x00 x00 x00 x00 x00 x00 x00 x00)
(T (W xff xff xff xff xff xff xff xff)
(L (W x00 x00 x00 x00 x00 x00 x00 x00))
(L (W x00 x00 x80 xbf x00 x00 x80 xbf)))
(T (W x00 x00 x01 x01 xa5 x01 x00 x00)
(L (W x00 x00 x00 x00 x00 x00 x00 x00))
(L (W x00 x00 x00 x00 x00 x00 x00 x00))))
(T (W x01 x00 x00 x00 x04 x00 x00 x00)
(T (W x00 x00 x80 x3f x00 x00 x80 x3f)
(L (W x00 x00 x80 xbf x00 x00 x80 xbf))
(L (W xff xff xff xff xff xff xff xff)))
(T (W xff xff xff xff xff xff xff xff)
(L (W xe2 x19 xff xff x64 x00 x00 x00))
(L (W x00 x00 x00 x00 x00 x00 x00 x00)))))
(T (W x00 x00 x00 x00 x00 x00 x00 x00)
(T (W x45 x26 x22 x84 xe4 x9c xf2 xcb)
(T (W xfb xfa xad xdd x04 xc1 x1e x18)
(L (W x00 x00 x80 xbf x00 x00 x80 xbf))
(L (W x03 x00 x00 x00 xd0 x00 x00 x00)))
(T (W x68 x00 x00 x00 x5c x00 x00 x00)
(L (W x50 x00 x00 x00 x44 x00 x00 x00))
(L (W xf0 x04 x00 x00 x80 x03 x00 x00))))
(T (W x3e x00 x00 x00 x10 x00 x00 x00)
(T (W x00 x00 x80 x3f x00 x00 x80 x3f)
(L (W x46 x53 x59 x53 x5f x4e x53 x5f))
(L (W x00 x00 x00 x00 x00 x00 x00 x00)))
(T (W x00 x00 x00 x00 x00 x00 x00 x00)
(L (W x46 x53 x59 x53 x5f x4e x53 x5f)) E)))))
(T (W xff xff xff xff xff xff xff xff)
(T (W x18 x00 x00 x00 x0c x00 x00 x00)
(T (W x40 x00 x00 x00 x9c x00 x00 x00)
(T (W x00 x00 x80 x3f x00 x00 x80 x3f)
(T (W xff xff xff xff xff xff xff xff)
(L (W x00 x00 x00 x00 x00 x00 x00 x00))
(L (W x00 x00 x00 x00 x00 x00 x00 x00)))
(T (W xff xff xff xff xff xff xff xff)
(L (W xff xff xff xff xff xff xff xff))
(L (W x9c xb5 xff xff x1a x00 x00 x00))))
(T (W xf4 xf0 xfc xff x3e x00 x00 x00)
(T (W x00 x00 x80 x3f x00 x00 x80 x3f)
(L (W x3c x00 x00 x00 x00 x00 x80 xbf))
(L (W x93 x01 x00 x00 xff xff xff xff)))
(T (W xff xff xff xff x03 x00 x00 x00)
(L (W xff xff xff xff xff xff xff xff))
(L (W xff xff xff xff xb0 x00 x00 x00)))))
(T (W x00 x00 x80 x3f x00 x00 x80 x3f)
(T (W x00 x00 x00 x00 x00 x00 x00 x00)
(T (W x00 x00 x00 x00 x00 x00 x00 x00)
(L (W x00 x00 x00 x00 xd0 x4b xfe xff))
(L (W xff xff xff xff xc8 x00 x00 x00)))
(T (W x00 x00 x80 x3f x00 x00 x80 x3f)
(L (W x00 x00 x80 xbf x00 x00 x80 xbf))
(L (W x00 x00 x00 x00 x00 x00 x00 x00))))
(T (W x00 x00 x00 x00 x00 x00 x00 x00)
(T (W x00 x00 x00 x00 x00 x00 x00 x00)
(L (W xff xff xff xff xff xff xff xff))
(L (W x30 x34 x5f x43 x4c x45 x41 x52)))
(T (W x00 x00 x80 x3f x00 x00 x80 x3f)
(L (W x9c x15 xff xff x15 x00 x00 x00)) E))))
(T (W x45 x26 x22 x84 xe4 x9c xf2 xcb)
(T (W x6c x00 x00 x00 x60 x00 x00 x00)
(T (W x00 x00 x00 x00 x00 x00 x00 x00)
(T (W xff xff xff xff xff xff xff xff)
(L (W x00 x00 x00 x00 x00 x00 x00 x00))
(L (W x00 x00 x80 xbf x00 x00 x80 xbf)))
(T (W x00 x00 x00 x00 x00 x00 x00 x00)
(L (W x30 x34 x5f x43 x4c x45 x41 x52))
(L (W x00 x00 x00 x00 x00 x00 x00 x00))))
(T (W xff xff xff xff xff xff xff xff)
(T (W xc4 x00 x00 x00 x01 x00 x00 x00)
(L (W xb0 x00 x00 x00 x64 x00 x00 x00))
(L (W x00 x00 x00 x00 x00 x00 x00 x00)))
(T (W xb8 x00 x00 x00 xac x00 x00 x00)
(L (W x00 x00 x00 x00 x00 x00 x00 x00))
(L (W xff xff xff xff xff xff xff xff)))))
(T (W x45 x26 x22 x84 xe4 x9c xf2 xcb)
(T (W x00 x00 x00 x00 x00 x00 x00 x00)
(T (W x45 x44 x00 x00 x00 x00 x00 x00)
(L (W xff xff xff xff xa0 x00 x00 x00))
(L (W xff xff xff xff xff xff xff xff)))
(T (W xff xff xff xff xff xff xff xff)
(L (W x45 x26 x22 x84 xe4 x9c xf2 xcb))
(L (W xff xff xff xff xb0 x00 x00 x00))))
(T (W x00 x00 x00 x00 xa2 xdb xff xff)
(T (W x00 x00 x80 x3f x00 x00 x80 x3f)
(L (W xff xff xff xff xff xff xff xff))
(L (W x76 x32 x5f x63 x61 x6c x6c x68)))
(T (W x02 xcf xff xff x00 x00 x01 x01)
(L (W x00 x00 x00 x00 x00 x00 x00 x00)) E)))))))
(T (W x00 x00 x00 x00 x00 x00 x00 x00)
(T (W x18 x00 x00 x00 x10 x00 x00 x00)
(T (W x23 x00 x00 x00 x9c x00 x00 x00)
(T (W x00 x00 x80 x3f x00 x00 x80 x3f)
(T (W x00 x00 x80 x3f x00 x00 x80 x3f)
(T (W xf4 xa6 xfc xff x22 x00 x00 x00)
(T (W x18 x00 x00 x00 x0c x00 x00 x00)
(L (W x52 x38 xfe xff x74 x00 x00 x00))
(L (W xff xff xff xff xff xff xff xff)))
(T (W x00 x00 x80 x3f x00 x00 x80 x3f)
(L (W x00 x00 x00 x00 x00 x00 x00 x00))
(L (W xff xff xff xff xff xff xff xff))))
(T (W xff xff xff xff xff xff xff xff)
(T (W xff xff xff xff xff xff xff xff)
(L (W x3c x00 x00 x00 x00 x00 x80 xbf))
(L (W xff xff xff xff xff xff xff xff)))
(T (W x68 x00 x00 x00 x5c x00 x00 x00)
(L (W x54 x00 x00 x00 x48 x00 x00 x00))
(L (W x00 x00 x80 xbf x00 x00 x80 xbf)))))
(T (W x00 x00 x00 x00 x00 x00 x00 x00)
(T (W xff xff xff xff xff xff xff xff)
(T (W x78 x00 x08 x00 x70 x00 x0c x00)
(L (W x52 x58 xfe xff x74 x00 x00 x00))
(L (W x4f x84 x6f x8b xe8 xcb x63 xb7)))
(T (W x72 xe9 xfd xff x00 x00 x01 x01)
(L (W xff xff xff xff xff xff xff xff))
(L (W xff xff xff xff xff xff xff xff))))
(T (W xff xff xff xff xff xff xff xff)
(T (W x68 x00 x00 x00 x5c x00 x00 x00)
(L (W xff xff xff xff xff xff xff xff))
(L (W xff xff xff xff xff xff xff xff)))
(T (W x45 x26 x22 x84 xe4 x9c xf2 xcb)
(L (W xff xff xff xff xbc x00 x00 x00))
(L (W x49 xa1 x68 x4a xeb x5f xdd x3d))))))
(T (W x00 x00 x80 x3f x00 x00 x80 x3f)
(T (W x00 x00 x00 x00 x00 x00 x00 x00)
(T (W x00 x00 x00 x00 x02 x00 x00 x00)
(T (W x45 x26 x22 x84 xe4 x9c xf2 xcb)
(L (W xff xff xff xff xff xff xff xff))
(L (W x00 x00 x00 x00 x00 x00 x00 x00)))
(T (W x18 x00 x00 x00 x0c x00 x00 x00)
(L (W xff xff xff xff xff xff xff xff))
(L (W xff xff xff xff xff xff xff xff))))
(T (W x64 x00 x00 x00 x9c x00 x00 x00)
(T (W x00 x00 x00 x00 x00 x00 x00 x00)
(L (W x00 x00 x00 x00 x00 x00 x00 x00))
(L (W xff xff xff xff xff xff xff xff)))
(T (W x50 x00 x00 x00 x44 x00 x00 x00)
(L (W xff xff xff xff xff xff xff xff))
(L (W x1c x00 x00 x00 x10 x00 x00 x00)))))
(T (W x00 x00 x00 x00 x00 x00 x00 x00)
(T (W xff xff xff xff xff xff xff xff)
(T (W xff xff xff xff xff xff xff xff)
(L (W x08 x00 x68 x00 x6c x00 x70 x00))
(L (W x54 x00 x00 x00 x48 x00 x00 x00)))
(T (W x00 x00 x80 x3f x00 x00 x80 x3f)
(L (W x00 x00 x00 x00 x00 x00 x00 x00))
(L (W x00 x00 x80 xbf x00 x00 x80 xbf))))
(T (W xff xff xff xff xff xff xff xff)
(T (W x00 x00 x00 x00 x00 x00 x00 x00)
(L (W xb4 x00 x00 x00 x64 x00 x00 x00))
(L (W xff xff xff xff xff xff xff xff)))
(T (W xff xff xff xff xff xff xff xff)
(L (W xff xff xff xff xff xff xff xff)) E)))))
(T (W x00 x00 x80 x3f x00 x00 x80 x3f)
(T (W x00 x00 x80 x3f x00 x00 x80 x3f)
(T (W x00 x00 x80 x3f x00 x00 x80 x3f)
(T (W x00 x00 x00 x00 x00 x00 x00 x00)
(T (W x52 x40 xfd xff x74 x00 x00 x00)
(L (W x02 xdd xff xff x00 x00 x01 x01))
(L (W xff xff xff xff xff xff xff xff)))
(T (W x00 x00 x80 x3f x00 x00 x80 x3f)
(L (W x00 x00 x00 x00 x00 x00 x00 x00))
(L (W xff xff xff xff xff xff xff xff))))
(T (W xff xff xff xff xff xff xff xff)
(T (W x00 x00 x00 x00 x00 x00 x00 x00)
(L (W x00 x00 x00 x00 x00 x00 x00 x00))
(L (W x52 x80 xff xff x74 x00 x00 x00)))
(T (W x50 x00 x00 x00 x44 x00 x00 x00)
(L (W x2b x00 x00 x00 x2e x00 x00 x00))
(L (W x00 x00 x80 xbf x00 x00 x80 xbf)))))
(T (W x00 x00 x00 x00 x00 x00 x00 x00)
(T (W x00 x00 x00 x00 x04 x00 x00 x00)
(T (W x18 x00 x00 x00 x10 x00 x00 x00)
(L (W x00 x00 x80 x3f x00 x00 x80 x3f))
(L (W x54 x00 x00 x00 x48 x00 x00 x00)))
(T (W x4c x45 x41 x52 x45 x44 x00 x00)
(L (W x45 x44 x00 x00 x00 x00 x00 x00))
(L (W xff xff xff xff xff xff xff xff))))
(T (W xf4 x0e xfd xff x3c x00 x00 x00)
(T (W xff xff xff xff xff xff xff xff)
(L (W x00 x00 x00 x00 x00 x00 x00 x00))
(L (W xff xff xff xff xff xff xff xff)))
(T (W x00 x00 x00 x00 x00 x00 x00 x00)
(L (W xff xff xff xff xff xff xff xff)) E))))
(T (W x50 x00 x00 x00 x44 x00 x00 x00)
(T (W x00 x00 x00 x00 x00 x00 x00 x00)
(T (W xff xff xff xff x01 x00 x00 x00)
(T (W x18 x00 x00 x00 x10 x00 x00 x00)
(L (W x6f x00 x00 x00 xff xff xff xff))
(L (W x00 x00 x00 x00 x00 x00 x00 x00)))
(T (W xff xff xff xff xff xff xff xff)
(L (W xff xff xff xff xff xff xff xff))
(L (W x0f x56 x48 xdc x00 x5c x59 x2f))))
(T (W xff xff xff xff x03 x00 x00 x00)
(T (W x00 x00 x80 x3f x00 x00 x80 x3f)
(L (W x45 x26 x22 x84 xe4 x9c xf2 xcb))
(L (W xff xff xff xff xbc x00 x00 x00)))
(T (W x00 x00 x80 x3f x00 x00 x80 x3f)
(L (W xff xff xff xff xff xff xff xff))
(L (W xb1 x01 x00 x00 xff xff xff xff)))))
(T (W x00 x00 x00 x00 x00 x00 x00 x00)
(T (W xd5 x01 x00 x00 xff xff xff xff)
(T (W xff xff xff xff xff xff xff xff)
(L (W x00 x00 x80 xbf x00 x00 x80 xbf))
(L (W x68 x00 x00 x00 x5c x00 x00 x00)))
(T (W x00 x00 x80 x3f x00 x00 x80 x3f)
(L (W x00 x00 x80 xbf x00 x00 x80 xbf))
(L (W x4c x45 x41 x52 x45 x44 x00 x00))))
(T (W xff xff xff xff x04 x00 x00 x00)
(T (W x00 x00 x00 x00 x00 x00 x00 x00)
(L (W x54 x00 x00 x00 x48 x00 x00 x00))
(L (W x00 x00 x80 xbf x00 x00 x80 xbf)))
(T (W xff xff xff xff xff xff xff xff)
(L (W xff xff xff xff xff xff xff xff)) E))))))
(T (W x10 x00 x00 x00 x0c x00 x00 x00)
(T (W x02 xe9 xfd xff x00 x00 x01 x01)
(T (W x00 x00 x00 x00 xa2 x05 xff xff)
(T (W xff xff xff xff xff xff xff xff)
(T (W x00 x00 x80 x3f x00 x00 x80 x3f)
(T (W x00 x00 x00 x00 x00 x00 x00 x00)
(L (W x00 x00 x80 x3f x00 x00 x80 x3f))
(L (W x00 x00 x80 xbf x00 x00 x80 xbf)))
(T (W x04 x00 x00 x00 xaa xaa xfd xff)
(L (W x30 x34 x5f x43 x4c x45 x41 x52))
(L (W x00 x00 x00 x00 x00 x00 x00 x00))))
(T (W x00 x00 x80 x3f x00 x00 x80 x3f)
(T (W x00 x00 x80 x3f x00 x00 x80 x3f)
(L (W xff xff xff xff xff xff xff xff))
(L (W x00 x00 x00 x00 x00 x00 x00 x00)))
(T (W x00 x00 x00 x00 x00 x00 x00 x00)
(L (W x00 x00 x00 x00 xaa xe6 xfe xff))
(L (W x00 x00 x80 xbf x00 x00 x80 xbf)))))
(T (W x64 x00 x00 x00 x9c x00 x00 x00)
(T (W x00 x00 x80 x3f x00 x00 x80 x3f)
(T (W xff xff xff xff xff xff xff xff)
(L (W x18 x01 x00 x00 x04 x00 x00 x00))
(L (W xff xff xff xff xff xff xff xff)))
(T (W x00 x00 x80 x3f x00 x00 x80 x3f)
(L (W x54 x00 x00 x00 x48 x00 x00 x00))
(L (W x4f x84 x6f x8b xe8 xcb x63 xb7))))
(T (W x00 x00 x00 x00 x00 x00 x00 x00)
(T (W x00 x00 x00 x00 x00 x00 x00 x00)
(L (W x00 x00 x80 xbf x00 x00 x80 xbf))
(L (W x6c x00 x00 x00 x60 x00 x00 x00)))
(T (W xff xff xff xff xff xff xff xff)
(L (W x00 x00 x80 xbf x00 x00 x80 xbf))
(L (W x00 x00 x00 x00 x00 x00 x00 x00))))))
(T (W xff xff xff xff xff xff xff xff)
(T (W xff xff xff xff xff xff xff xff)
(T (W x50 x00 x00 x00 x44 x00 x00 x00)
(T (W x00 x00 x00 x00 x00 x00 x00 x00)
(L (W x45 x26 x22 x84 xe4 x9c xf2 xcb))
(L (W x58 x34 xff xff x00 x01 x01 x01)))
(T (W x00 x00 x00 x00 x00 x00 x00 x00)
(L (W x00 x00 x80 x3f x00 x00 x80 x3f))
(L (W x00 x00 x80 xbf x00 x00 x80 xbf))))
(T (W x45 x26 x22 x84 xe4 x9c xf2 xcb)
(T (W xff xff xff xff xff xff xff xff)
(L (W x45 x26 x22 x84 xe4 x9c xf2 xcb))
(L (W x00 x00 x00 x00 x00 x00 x00 x00)))
(T (W x92 xa7 xff xff xb5 x01 x00 x00)
(L (W x49 xa1 x68 x4a xeb x5f xdd x3d))
(L (W x00 x00 x80 xbf x00 x00 x80 xbf)))))
(T (W x58 x94 xfc xff x00 x01 x01 x01)
(T (W x00 x00 x80 x3f x00 x00 x80 x3f)
(T (W x45 x26 x22 x84 xe4 x9c xf2 xcb)
(L (W xff xff xff xff xff xff xff xff))
(L (W x04 x00 x00 x00 x80 x03 x00 x00)))
(T (W xff xff xff xff xff xff xff xff)
(L (W xff xff xff xff xff xff xff xff))
(L (W x00 x00 x80 xbf x00 x00 x80 xbf))))
(T (W x45 x26 x22 x84 xe4 x9c xf2 xcb)
(T (W x45 x26 x22 x84 xe4 x9c xf2 xcb)
(L (W xff xff xff xff xff xff xff xff))
(L (W x45 x26 x22 x84 xe4 x9c xf2 xcb)))
(T (W x45 x26 x22 x84 xe4 x9c xf2 xcb)
(L (W x6c x00 x00 x00 x60 x00 x00 x00)) E)))))
(T (W x27 x00 x00 x00 x10 x00 x00 x00)
(T (W x1c x01 x00 x00 x04 x00 x00 x00)
(T (W xff xff xff xff xff xff xff xff)
(T (W x00 x00 x80 x3f x00 x00 x80 x3f)
(T (W x00 x00 x00 x00 x00 x00 x00 x00)
(L (W x00 x00 x80 x3f x00 x00 x80 x3f))
(L (W x00 x00 x80 xbf x00 x00 x80 xbf)))
(T (W x45 x44 x00 x00 x00 x00 x00 x00)
(L (W x00 x00 x00 x00 x00 x00 x00 x00))
(L (W x00 x00 x80 xbf x00 x00 x80 xbf))))
(T (W x45 x26 x22 x84 xe4 x9c xf2 xcb)
(T (W x18 x00 x00 x00 x0c x00 x00 x00)
(L (W x18 x00 x00 x00 x10 x00 x00 x00))
(L (W x00 x00 x00 x00 x00 x00 x00 x00)))
(T (W x6b x65 x5f x6c x76 x32 x00 x00)
(L (W x00 x00 x00 x00 x00 x00 x00 x00))
(L (W xff xff xff xff xff xff xff xff)))))
(T (W xbc x00 x00 x00 xb0 x00 x00 x00)
(T (W x00 x00 x80 x3f x00 x00 x80 x3f)
(T (W x00 x00 x00 x00 x00 x00 x00 x00)
(L (W x00 x00 x80 x3f x00 x00 x80 x3f))
(L (W x93 x01 x00 x00 xff xff xff xff)))
(T (W xc0 x00 x00 x00 x01 x00 x00 x00)
(L (W xff xff xff xff xb0 x00 x00 x00))
(L (W x00 x00 x80 xbf x00 x00 x80 xbf))))
(T (W x00 x00 x00 x00 x00 x00 x00 x00)
(T (W x00 x00 x80 x3f x00 x00 x80 x3f)
(L (W x00 x00 x00 x00 x00 x00 x00 x00))
(L (W x6c x00 x00 x00 x60 x00 x00 x00)))
(T (W x00 x00 x00 x00 x00 x00 x5c x00)
(L (W x00 x00 x80 xbf x00 x00 x80 xbf)) E))))
(T (W xff xff xff xff xff xff xff xff)
(T (W xff xff xff xff xff xff xff xff)
(T (W x52 xd4 xfc xff x74 x00 x00 x00)
(T (W x3e x00 x00 x00 x0c x00 x00 x00)
(L (W x00 x00 x00 x00 x00 x00 x00 x00))
(L (W xff xff xff xff xff xff xff xff)))
(T (W x00 x00 x80 x3f x00 x00 x80 x3f)
(L (W x49 xa1 x68 x4a xeb x5f xdd x3d))
(L (W x00 x00 x80 xbf x00 x00 x80 xbf))))
(T (W x00 x00 x00 x00 x00 x00 x00 x00)
(T (W x04 x00 x00 x00 x32 x7d xfd xff)
(L (W x2d x00 x00 x00 x10 x00 x00 x00))
(L (W x00 x00 x80 xbf x00 x00 x80 xbf)))
(T (W xff xff xff xff xff xff xff xff)
(L (W x00 x00 x80 xbf x00 x00 x80 xbf))
(L (W x00 x00 x00 x00 x00 x00 x00 x00)))))
(T (W x50 x00 x00 x00 x44 x00 x00 x00)
(T (W x00 x00 x80 x3f x00 x00 x80 x3f)
(T (W x00 x00 x80 x3f x00 x00 x80 x3f)
(L (W xff xff xff xff xff xff xff xff))
(L (W x00 x00 x00 x00 x12 x00 x00 x00)))
(T (W x00 x00 x00 x00 x00 x00 x00 x00)
(L (W x54 x02 x00 x00 x38 x01 x00 x00))
(L (W x44 x02 x00 x00 x30 x01 x00 x00))))
(T (W x00 x00 x80 x3f x00 x00 x80 x3f)
(T (W xff xff xff xff xff xff xff xff)
(L (W x49 xa1 x68 x4a xeb x5f xdd x3d))
(L (W x00 x00 x00 x00 x00 x00 x00 x00)))
(T (W x00 x00 x00 x00 x00 x00 x00 x00)
(L (W x45 x26 x22 x84 xe4 x9c xf2 xcb)) E)))))))))
(T (W xd8 xf6 x01 x00 x8c xf4 x01 x00)
(T (W xb0 x3b x01 x00 x04 x37 x01 x00)
(T (W xf0 x0d x00 x00 xa4 x0b x00 x00)
(T (W xff xff xff xff xff xff xff xff)
(T (W xff xff xff xff xff xff xff xff)
(T (W xff xff xff xff xff xff xff xff)
(T (W x68 x00 x00 x00 x5c x00 x00 x00)
(T (W x00 x00 x00 x00 x00 x00 x00 x00)
(T (W xff xff xff xff xff xff xff xff)
(L (W xff xff xff xff xff xff xff xff))
(L (W x00 x00 x00 x00 x00 x00 x00 x00)))
(T (W x50 x00 x00 x00 x44 x00 x00 x00)
(L (W x00 x00 x00 x00 x00 x00 x00 x00))
(L (W x30 x34 x5f x43 x4c x45 x41 x52))))
(T (W x12 x91 xfe xff xc1 x00 x00 x00)
(T (W x00 x00 x00 x00 x00 x00 x00 x00)
(L (W x23 x00 x00 x00 x26 x00 x00 x00))
(L (W x3c x02 x00 x00 x30 x01 x00 x00)))
(T (W xff xff xff xff xbc x00 x00 x00)
(L (W xff xff xff xff xc8 x00 x00 x00))
(L (W xb4 x00 x00 x00 x64 x00 x00 x00)))))
(T (W x00 x00 x80 x3f x00 x00 x80 x3f)
(T (W x00 x00 x00 x00 x00 x00 x00 x00)
(T (W xff xff xff xff xff xff xff xff)
(L (W xff xff xff xff xff xff xff xff))
(L (W x00 x00 x80 xbf x00 x00 x80 xbf)))
(T (W x00 x00 x00 x00 x00 x00 x00 x00)
(L (W x78 x07 xb3 x28 xbf xdb x60 x6a))
(L (W x00 x00 x00 x00 x00 x00 x00 x00))))
(T (W xff xff xff xff xff xff xff xff)
(T (W xff xff xff xff x9c x00 x00 x00)
(L (W xff xff xff xff xff xff xff xff))
(L (W x1b x00 x00 x00 x0c x00 x00 x00)))
(T (W x50 x00 x00 x00 x44 x00 x00 x00)
(L (W x00 x00 x00 x00 x22 xfd xfe xff))
(L (W x28 x00 x2c x00 x30 x00 x34 x00))))))
(T (W x45 x26 x22 x84 xe4 x9c xf2 xcb)
(T (W x00 x00 x80 x3f x00 x00 x80 x3f)
(T (W x00 x00 x00 x00 x00 x00 x00 x00)
(T (W xff xff xff xff xff xff xff xff)
(L (W x00 x00 x00 x00 x00 x00 x00 x00))
(L (W x00 x00 x00 x00 x00 x00 x00 x00)))
(T (W xff xff xff xff xff xff xff xff)
(L (W x61 x64 x65 x72 x5f x77 x69 x6c))
(L (W x46 x53 x59 x53 x5f x4e x53 x5f))))
(T (W x00 x00 x00 x00 x00 x00 x00 x00)
(T (W x45 x26 x22 x84 xe4 x9c xf2 xcb)
(L (W x44 x00 x00 x00 x00 x00 x80 xbf))
(L (W xff xff xff xff xff xff xff xff)))
(T (W xff xff xff xff xff xff xff xff)
(L (W x00 x00 x00 x00 x2a xf0 xfe xff))
(L (W x45 x26 x22 x84 xe4 x9c xf2 xcb)))))
(T (W x45 x26 x22 x84 xe4 x9c xf2 xcb)
(T (W x00 x00 x00 x00 x00 x00 x00 x00)
(T (W x04 x00 x00 x00 xb2 x4e xfd xff)
(L (W x00 x00 x80 x3f x00 x00 x80 x3f))
(L (W xff xff xff xff xff xff xff xff)))
(T (W x00 x00 x80 x3f x00 x00 x80 x3f)
(L (W x00 x00 x80 xbf x00 x00 x80 xbf))
(L (W x5f x4e x53 x5f x30 x34 x5f x43))))
(T (W xff xff xff xff xff xff xff xff)
(T (W x00 x00 x00 x00 x12 x00 x00 x00)
(L (W xff xff xff xff xe0 x00 x00 x00))
(L (W x00 x00 x00 x00 x00 x00 x00 x00)))
(T (W x5c x00 x60 x00 x62 x00 x00 x00)
(L (W x46 x53 x59 x53 x5f x4e x53 x5f)) E)))))
(T (W xff xff xff xff x03 x00 x00 x00)
(T (W xff xff xff xff xff xff xff xff)
(T (W x00 x00 x80 x3f x00 x00 x80 x3f)
(T (W x00 x00 x00 x00 x00 x00 x00 x00)
(T (W xff xff xff xff xff xff xff xff)
(L (W x5f x77 x69 x6c x64 x5f x70 x6f))
(L (W x00 x00 x00 x00 x00 x00 x00 x00)))
(T (W xbc x00 x00 x00 x64 x00 x00 x00)
(L (W x1c x08 x00 x00 xd0 x06 x00 x00))
(L (W x04 x00 x00 x00 x2a xac xff xff))))
(T (W x00 x00 x00 x00 x00 x00 x00 x00)
(T (W x00 x00 x00 x00 x00 x00 x00 x00)
(L (W x3c x00 x00 x00 x00 x00 x80 xbf))
(L (W xff xff xff xff xc8 x00 x00 x00)))
(T (W xff xff xff xff x03 x00 x00 x00)
(L (W xff xff xff xff xff xff xff xff))
(L (W x00 x00 x80 xbf x00 x00 x80 xbf)))))
(T (W x00 x00 x80 x3f x00 x00 x80 x3f)
(T (W x00 x00 x00 x00 x00 x00 x00 x00)
(T (W x18 x00 x00 x00 x10 x00 x00 x00)
(L (W x00 x00 x00 x00 x50 x47 xfe xff))
(L (W x68 x00 x00 x00 x5c x00 x00 x00)))
(T (W x49 xa1 x68 x4a xeb x5f xdd x3d)
(L (W x00 x00 x00 x00 x00 x00 x00 x00))
(L (W x00 x00 x00 x00 x00 x00 x00 x00))))
(T (W x00 x00 x01 x01 x65 x00 x00 x00)
(T (W x04 x00 x00 x00 xb2 x86 xfd xff)
(L (W x00 x00 x00 x00 x00 x00 x00 x00))
(L (W x46 x53 x59 x53 x5f x4e x53 x5f)))
(T (W x00 x00 x80 x3f x00 x00 x80 x3f)
(L (W x00 x00 x00 x00 x2a x0c xff xff)) E))))
(T (W x18 x00 x00 x00 x0c x00 x00 x00)
(T (W x00 x00 x80 x3f x00 x00 x80 x3f)
(T (W x00 x00 x00 x00 x00 x00 x00 x00)
(T (W xff xff xff xff xff xff xff xff)
(L (W x6b x65 x5f x63 x6f x77 x61 x72))
(L (W x00 x00 x00 x00 x00 x00 x00 x00)))
(T (W xff xff xff xff xff xff xff xff)
(L (W x00 x00 x00 x00 x00 x00 x00 x00))
(L (W x00 x00 x00 x00 x00 x00 x00 x00))))
(T (W x48 x03 x00 x00 x34 x02 x00 x00)
(T (W x6c x00 x00 x00 x60 x00 x00 x00)
(L (W x00 x00 x80 xbf x00 x00 x80 xbf))
(L (W xff xff xff xff xff xff xff xff)))
(T (W xb8 x00 x00 x00 xac x00 x00 x00)
(L (W xb1 x29 x3c xdc x00 x66 x4b x2f))
(L (W x00 x00 x00 x00 x00 x00 x00 x00)))))
(T (W x00 x00 x80 x3f x00 x00 x80 x3f)
(T (W x91 x6a xae x54 xf0 x70 x99 x85)
(T (W xff xff xff xff x01 x00 x00 x00)
(L (W x00 x00 x80 xbf x00 x00 x80 xbf))
(L (W xff xff xff xff xff xff xff xff)))
(T (W xd8 xd5 xfd xff x00 x01 x01 x01)
(L (W xd8 xd5 xfe xff x00 x01 x01 x01))
(L (W x00 x00 x00 x00 x22 xd5 xff xff))))
(T (W xff xff xff xff xff xff xff xff)
(T (W x45 x26 x22 x84 xe4 x9c xf2 xcb)
(L (W x00 x00 x80 x3f x00 x00 x80 x3f))
(L (W x45 x44 x00 x00 x00 x00 x00 x00)))
(T (W x82 xca xff xff x00 x00 x01 x01)
(L (W x00 x00 x00 x00 x00 x00 x00 x00)) E))))))
(T (W x00 x00 x00 x00 x00 x00 x00 x00)
(T (W x45 x26 x22 x84 xe4 x9c xf2 xcb)
(T (W x00 x00 x00 x00 x00 x00 x00 x00)
(T (W x00 x00 x00 x00 x00 x00 x00 x00)
(T (W xff xff xff xff xff xff xff xff)
(T (W x00 x00 x80 x3f x00 x00 x80 x3f)
(L (W x45 x26 x22 x84 xe4 x9c xf2 xcb))
(L (W xd8 x21 xff xff x00 x01 x01 x01)))
(T (W x00 x00 x00 x00 x00 x00 x00 x00)
(L (W x25 x00 x00 x00 x67 x72 x6f x75))
(L (W x00 x00 x80 xbf x00 x00 x80 xbf))))
(T (W xd8 xe1 xfc xff x00 x01 x01 x01)
(T (W xd2 x79 xfd xff x74 x00 x00 x00)
(L (W x00 x00 x00 x00 x00 x00 x00 x00))
(L (W x00 x00 x80 xbf x00 x00 x80 xbf)))
(T (W x45 x26 x22 x84 xe4 x9c xf2 xcb)
(L (W x00 x00 x00 x00 x00 x00 x00 x00))
(L (W x00 x00 x00 x00 x00 x00 x00 x00)))))
(T (W xff xff xff xff xff xff xff xff)
(T (W x01 x00 x00 x00 x9c x00 x00 x00)
(T (W x00 x00 x00 x00 x00 x00 x0c x00)
(L (W x00 x00 x00 x00 x00 x00 x00 x00))
(L (W x04 x00 x00 x00 x80 x03 x00 x00)))
(T (W xb8 x00 x00 x00 x64 x00 x00 x00)
(L (W xd2 xd9 xfe xff x74 x00 x00 x00))
(L (W x74 x00 x00 x00 x68 x00 x00 x00))))
(T (W x00 x00 x80 x3f x00 x00 x80 x3f)
(T (W x00 x00 x80 x3f x00 x00 x80 x3f)
(L (W x68 x00 x00 x00 x5c x00 x00 x00))
(L (W x00 x00 x00 x00 x50 x83 xff xff)))
(T (W x12 xb5 xff xff x93 x01 x00 x00)
(L (W xd8 x01 xff xff x00 x01 x01 x01))
(L (W x00 x00 x80 xbf x00 x00 x80 xbf))))))
(T (W x00 x00 x00 x00 x00 x00 x00 x00)
(T (W x66 x01 x00 x00 xff xff xff xff)
(T (W x18 x00 x00 x00 x10 x00 x00 x00)
(T (W x00 x00 x00 x00 x00 x00 x00 x00)
(L (W x68 x00 x00 x00 x5c x00 x00 x00))
(L (W xff xff xff xff xff xff xff xff)))
(T (W x45 x26 x22 x84 xe4 x9c xf2 xcb)
(L (W x45 x26 x22 x84 xe4 x9c xf2 xcb))
(L (W xff xff xff xff xb0 x00 x00 x00))))
(T (W x00 x00 x80 x3f x00 x00 x80 x3f)
(T (W xff xff xff xff xff xff xff xff)
(L (W xff xff xff xff xff xff xff xff))
(L (W x00 x00 x80 xbf x00 x00 x80 xbf)))
(T (W x00 x00 x00 x00 x00 x00 x00 x00)
(L (W x00 x00 x80 xbf x00 x00 x80 xbf))
(L (W x45 x26 x22 x84 xe4 x9c xf2 xcb)))))
(T (W xb8 x00 x00 x00 xac x00 x00 x00)
(T (W xc0 x00 x00 x00 xb4 x00 x00 x00)
(T (W x00 x00 x80 x3f x00 x00 x80 x3f)
(L (W xff xff xff xff xff xff xff xff))
(L (W x00 x00 x00 x00 x00 x00 x00 x00)))
(T (W x1a x01 xfe xff x9c x01 x00 x00)
(L (W x66 x01 x00 x00 xff xff xff xff))
(L (W x00 x00 x80 xbf x00 x00 x80 xbf))))
(T (W x00 x00 x80 x3f x00 x00 x80 x3f)
(T (W xff xff xff xff xff xff xff xff)
(L (W x1a x96 xfe xff x78 x00 x00 x00))
(L (W x54 x00 x00 x00 x48 x00 x00 x00)))
(T (W x50 x00 x00 x00 x44 x00 x00 x00)
(L (W x1a x16 xff xff x78 x00 x00 x00)) E)))))
(T (W x00 x00 x00 x00 x00 x00 x00 x00)
(T (W x1c x55 xfc xff x3e x00 x00 x00)
(T (W xf3 xcf x96 x00 xd1 x61 x99 x51)
(T (W xff xff xff xff xff xff xff xff)
(T (W x45 x26 x22 x84 xe4 x9c xf2 xcb)
(L (W xd2 x41 xfe xff x74 x00 x00 x00))
(L (W xd2 x41 xff xff x74 x00 x00 x00)))
(T (W x4f x84 x6f x8b xe8 xcb x63 xb7)
(L (W x00 x00 x00 x00 x25 x00 x00 x00))
(L (W x00 x00 x80 xbf x00 x00 x80 xbf))))
(T (W x00 x00 x80 x3f x00 x00 x80 x3f)
(T (W xff xff xff xff xff xff xff xff)
(L (W x2a x00 x00 x00 xff xff xff xff))
(L (W x00 x00 x80 xbf x00 x00 x80 xbf)))
(T (W x00 x00 x00 x00 x00 x00 x00 x00)
(L (W x00 x00 x80 xbf x00 x00 x80 xbf))
(L (W x00 x00 x00 x00 x00 x00 x00 x00)))))
(T (W xff xff xff xff xff xff xff xff)
(T (W x0a x00 x00 x00 x3e x00 x00 x00)
(T (W x00 x00 x80 x3f x00 x00 x80 x3f)
(L (W x00 x00 x00 x00 x00 x00 x00 x00))
(L (W x00 x00 x00 x00 x00 x00 x00 x00)))
(T (W xff xff xff xff xff xff xff xff)
(L (W xff xff xff xff xff xff xff xff))
(L (W x4c xcb xff xff x92 xc6 xff xff))))
(T (W x00 x00 x00 x00 x00 x00 x00 x00)
(T (W x68 x00 x00 x00 x5c x00 x00 x00)
(L (W x00 x00 x00 x00 x0e x00 x00 x00))
(L (W x6c x00 x00 x00 x60 x00 x00 x00)))
(T (W xff xff xff xff xff xff xff xff)
(L (W x00 x00 x80 xbf x00 x00 x80 xbf)) E))))
(T (W x00 x00 x00 x00 x00 x00 x00 x00)
(T (W x82 x2e xfe xff x00 x00 x01 x01)
(T (W xbc x00 x00 x00 xb0 x00 x00 x00)
(T (W x00 x00 x00 x00 x00 x00 x00 x00)
(L (W x68 x00 x00 x00 x5c x00 x00 x00))
(L (W xff xff xff xff xff xff xff xff)))
(T (W x00 x00 x80 x3f x00 x00 x80 x3f)
(L (W x6c x00 x00 x00 x60 x00 x00 x00))
(L (W xff xff xff xff xb0 x00 x00 x00))))
(T (W x45 x26 x22 x84 xe4 x9c xf2 xcb)
(T (W x00 x00 x00 x00 x00 x00 x00 x00)
(L (W x00 x00 x00 x00 x00 x00 x00 x00))
(L (W x00 x00 x80 xbf x00 x00 x80 xbf)))
(T (W x00 x00 x00 x00 x00 x00 x00 x00)
(L (W x50 x00 x00 x00 x44 x00 x00 x00))
(L (W x2c x00 x30 x00 x34 x00 x38 x00)))))
(T (W xff xff xff xff xff xff xff xff)
(T (W xd2 xf1 xfc xff x74 x00 x00 x00)
(T (W x54 x00 x00 x00 x48 x00 x00 x00)
(L (W x46 x53 x59 x53 x5f x4e x53 x5f))
(L (W x00 x00 x80 xbf x00 x00 x80 xbf)))
(T (W x00 x00 x00 x00 x00 x00 x00 x00)
(L (W x00 x00 x00 x00 x00 x00 x00 x00))
(L (W x00 x00 x00 x00 x00 x00 x00 x00))))
(T (W x00 x00 x80 x3f x00 x00 x80 x3f)
(T (W xff xff xff xff xff xff xff xff)
(L (W x00 x00 x80 x3f x00 x00 x80 x3f))
(L (W x00 x00 x80 xbf x00 x00 x80 xbf)))
(T (W x00 x00 x80 x3f x00 x00 x80 x3f)
(L (W x54 x00 x00 x00 x48 x00 x00 x00)) E)))))))
(T (W x50 x00 x00 x00 x44 x00 x00 x00)
(T (W x00 x00 x00 x00 x00 x00 x00 x00)
(T (W x18 xfb x1f x1b x9b xa7 xb6 x5e)
(T (W xff xff xff xff xff xff xff xff)
(T (W xff xff xff xff xff xff xff xff)
(T (W x00 x00 x80 x3f x00 x00 x80 x3f)
(T (W x1c x2b xfd xff x3e x00 x00 x00)
(L (W x00 x00 x00 x00 x00 x00 x00 x00))
(L (W x00 x00 x80 xbf x00 x00 x80 xbf)))
(T (W xff xff xff xff xff xff xff xff)
(L (W x18 x00 x00 x00 x10 x00 x00 x00))
(L (W x00 x00 x00 x00 x00 x00 x00 x00))))
(T (W x00 x00 x00 x00 x00 x00 x00 x00)
(T (W x45 x26 x22 x84 xe4 x9c xf2 xcb)
(L (W xff xff xff xff xff xff xff xff))
(L (W x00 x00 x00 x00 x00 x00 x00 x00)))
(T (W x00 x00 x00 x00 xd2 xa3 xff xff)
(L (W x5c x00 x00 x00 xff xff xff xff))
(L (W xff xff xff xff xff xff xff xff)))))
(T (W x68 x00 x00 x00 x5c x00 x00 x00)
(T (W x45 x26 x22 x84 xe4 x9c xf2 xcb)
(T (W x45 x26 x22 x84 xe4 x9c xf2 xcb)
(L (W x18 x01 x00 x00 x04 x00 x00 x00))
(L (W x03 x00 x00 x00 xd0 x00 x00 x00)))
(T (W x45 x26 x22 x84 xe4 x9c xf2 xcb)
(L (W x00 x00 x80 xbf x00 x00 x80 xbf))
(L (W x00 x00 x80 xbf x00 x00 x80 xbf))))
(T (W x00 x00 x00 x00 x00 x00 x00 x00)
(T (W x02 x9b xfd xff x00 x00 x00 x01)
(L (W x00 x00 x00 x00 x00 x00 x00 x00))
(L (W x00 x00 x80 xbf x00 x00 x80 xbf)))
(T (W xff xff xff xff xff xff xff xff)
(L (W x00 x00 x00 x00 x00 x00 x00 x00))
(L (W x03 x00 x00 x00 xd8 x00 x00 x00))))))
(T (W xff xff xff xff xff xff xff xff)
(T (W xb8 x00 x00 x00 xac x00 x00 x00)
(T (W x00 x00 x80 x3f x00 x00 x80 x3f)
(T (W x00 x00 x00 x00 x00 x00 x00 x00)
(L (W x45 x26 x22 x84 xe4 x9c xf2 xcb))
(L (W x00 x00 x80 xbf x00 x00 x80 xbf)))
(T (W x00 x00 x00 x00 x00 x00 x00 x00)
(L (W x00 x00 x80 x3f x00 x00 x80 x3f))
(L (W x49 xa1 x68 x4a xeb x5f xdd x3d))))
(T (W x00 x00 x00 x00 x00 x00 x00 x00)
(T (W x45 x26 x22 x84 xe4 x9c xf2 xcb)
(L (W x23 x00 x00 x00 x26 x00 x00 x00))
(L (W x00 x00 x00 x00 x00 x00 x00 x00)))
(T (W x12 xa3 xff xff xbc x01 x00 x00)
(L (W x00 x00 x00 x00 x00 x00 x00 x00))
(L (W x00 x00 x00 x00 x00 x00 x00 x00)))))
(T (W x45 x26 x22 x84 xe4 x9c xf2 xcb)
(T (W x00 x00 x80 x3f x00 x00 x80 x3f)
(T (W x00 x00 x00 x00 x00 x00 x00 x00)
(L (W x00 x00 x00 x00 x00 x00 x00 x00))
(L (W xff xff xff xff xff xff xff xff)))
(T (W xff xff xff xff xff xff xff xff)
(L (W x18 x00 x00 x00 x10 x00 x00 x00))
(L (W xff xff xff xff xff xff xff xff))))
(T (W x00 x00 x00 x00 x00 x00 x00 x00)
(T (W x00 x00 x80 x3f x00 x00 x80 x3f)
(L (W x00 x00 x00 x00 x12 x00 x00 x00))
(L (W x00 x00 x00 x00 x00 x00 x00 x00)))
(T (W x45 x26 x22 x84 xe4 x9c xf2 xcb)
(L (W x00 x00 x80 xbf x00 x00 x80 xbf)) E)))))
(T (W xff xff xff xff xff xff xff xff)
(T (W xff xff xff xff xff xff xff xff)
(T (W xff xff xff xff xff xff xff xff)
(T (W x54 x00 x00 x00 x48 x00 x00 x00)
(T (W x00 x00 x00 x00 x00 x00 x00 x00)
(L (W x00 x00 x80 x3f x00 x00 x80 x3f))
(L (W x00 x00 x00 x00 x00 x00 x00 x00)))
(T (W xff xff xff xff xff xff xff xff)
(L (W x45 x26 x22 x84 xe4 x9c xf2 xcb))
(L (W x45 x26 x22 x84 xe4 x9c xf2 xcb))))
(T (W x00 x00 x00 x00 x00 x00 x00 x00)
(T (W x00 x00 x80 x3f x00 x00 x80 x3f)
(L (W x18 x00 x00 x00 x10 x00 x00 x00))
(L (W x00 x00 x00 x00 x2a x6a xff xff)))
(T (W xc5 x01 x00 x00 xff xff xff xff)
(L (W x21 x00 x00 x00 x0c x00 x00 x00))
(L (W xff xff xff xff xe4 x00 x00 x00)))))
(T (W xd8 x87 xfc xff x00 x01 x01 x01)
(T (W x00 x00 x80 x3f x00 x00 x80 x3f)
(T (W x74 x4e xfd xff x26 x00 x00 x00)
(L (W xff xff xff xff xff xff xff xff))
(L (W xff xff xff xff xff xff xff xff)))
(T (W x68 x00 x00 x00 x5c x00 x00 x00)
(L (W x54 x00 x00 x00 x48 x00 x00 x00))
(L (W x00 x00 x80 xbf x00 x00 x80 xbf))))
(T (W x00 x00 x80 x3f x00 x00 x80 x3f)
(T (W x00 x00 x00 x00 x00 x00 x00 x00)
(L (W x45 x26 x22 x84 xe4 x9c xf2 xcb))
(L (W x4f x84 x6f x8b xe8 xcb x63 xb7)))
(T (W xb8 x00 x00 x00 xac x00 x00 x00)
(L (W x45 x26 x22 x84 xe4 x9c xf2 xcb)) E))))
(T (W xff xff xff xff xff xff xff xff)
(T (W x45 x26 x22 x84 xe4 x9c xf2 xcb)
(T (W x45 x26 x22 x84 xe4 x9c xf2 xcb)
(T (W x00 x00 x00 x00 x00 x00 x00 x00)
(L (W x45 x26 x22 x84 xe4 x9c xf2 xcb))
(L (W x18 x00 x00 x00 x10 x00 x00 x00)))
(T (W x00 x00 x00 x00 x00 x00 x00 x00)
(L (W x4f x84 x6f x8b xe8 xcb x63 xb7))
(L (W x00 x00 x80 xbf x00 x00 x80 xbf))))
(T (W x00 x00 x00 x00 x00 x00 x00 x00)
(T (W xff xff xff xff xff xff xff xff)
(L (W xff xff xff xff xff xff xff xff))
(L (W x00 x00 x00 x00 x00 x00 x00 x00)))
(T (W xff xff xff xff xff xff xff xff)
(L (W x45 x26 x22 x84 xe4 x9c xf2 xcb))
(L (W x00 x00 x80 xbf x00 x00 x80 xbf)))))
(T (W x18 x00 x00 x00 x0c x00 x00 x00)
(T (W x45 x26 x22 x84 xe4 x9c xf2 xcb)
(T (W x4f x84 x6f x8b xe8 xcb x63 xb7)
(L (W xff xff xff xff xff xff xff xff))
(L (W x00 x00 x00 x00 x22 x57 xff xff)))
(T (W xff xff xff xff xff xff xff xff)
(L (W xff xff xff xff xff xff xff xff))
(L (W x68 x00 x00 x00 x5c x00 x00 x00))))
(T (W x00 x00 x00 x00 x00 x00 x00 x00)
(T (W x2b x00 x00 x00 x2e x00 x00 x00)
(L (W xff xff xff xff xff xff xff xff))
(L (W xff xff xff xff xff xff xff xff)))
(T (W x00 x00 x00 x00 x00 x00 x00 x00)
(L (W x00 x00 x00 x00 x00 x00 x00 x00)) E))))))
(T (W x00 x00 x80 x3f x00 x00 x80 x3f)
(T (W x00 x00 x80 x3f x00 x00 x80 x3f)
(T (W x00 x00 x80 x3f x00 x00 x80 x3f)
(T (W x00 x00 x00 x00 x00 x00 x00 x00)
(T (W xff xff xff xff xff xff xff xff)
(T (W x45 x26 x22 x84 xe4 x9c xf2 xcb)
(L (W xff xff xff xff xff xff xff xff))
(L (W xff xff xff xff xff xff xff xff)))
(T (W x00 x00 x80 x3f x00 x00 x80 x3f)
(L (W x6c x00 x00 x00 x60 x00 x00 x00))
(L (W x18 x00 x00 x00 x0c x00 x00 x00))))
(T (W xff xff xff xff xff xff xff xff)
(T (W xff xff xff xff xff xff xff xff)
(L (W x00 x00 x00 x00 x00 x00 x00 x00))
(L (W x6c x00 x00 x00 x60 x00 x00 x00)))
(T (W x50 x00 x00 x00 x44 x00 x00 x00)
(L (W x00 x00 x80 xbf x00 x00 x80 xbf))
(L (W xff xff xff xff xff xff xff xff)))))
(T (W x00 x00 x00 x00 x00 x00 x00 x00)
(T (W xff xff xff xff xff xff xff xff)
(T (W x00 x00 x80 x3f x00 x00 x80 x3f)
(L (W x00 x00 x80 x3f x00 x00 x80 x3f))
(L (W x00 x00 x80 xbf x00 x00 x80 xbf)))
(T (W xff xff xff xff xff xff xff xff)
(L (W xff xff xff xff xff xff xff xff))
(L (W x03 x00 x00 x00 xd0 x00 x00 x00))))
(T (W xd8 x03 xfd xff x00 x01 x01 x01)
(T (W xc4 x00 x00 x00 x01 x00 x00 x00)
(L (W xff xff xff xff xff xff xff xff))
(L (W x00 x00 x00 x00 xca x7f xff xff)))
(T (W x00 x00 x00 x00 x00 x00 x00 x00)
(L (W xff xff xff xff xff xff xff xff))
(L (W x00 x00 x00 x00 x00 x00 x00 x00))))))
(T (W x45 x26 x22 x84 xe4 x9c xf2 xcb)
(T (W x45 x26 x22 x84 xe4 x9c xf2 xcb)
(T (W xff xff xff xff xff xff xff xff)
(T (W x68 x00 x00 x00 x5c x00 x00 x00)
(L (W xff xff xff xff xff xff xff xff))
(L (W x00 x00 x00 x00 x00 x00 x00 x00)))
(T (W x2b x00 x00 x00 x2e x00 x00 x00)
(L (W xff xff xff xff xff xff xff xff))
(L (W xff xff xff xff xff xff xff xff))))
(T (W xff xff xff xff xff xff xff xff)
(T (W x00 x00 x00 x00 x00 x00 x00 x00)
(L (W x20 x59 x6c x12 x83 xee x3a xc6))
(L (W x4c x75 xff xff xb2 xae xff xff)))
(T (W x00 x00 x80 x3f x00 x00 x80 x3f)
(L (W xff xff xff xff xff xff xff xff))
(L (W xff xff xff xff xff xff xff xff)))))
(T (W xa6 x77 x70 xbe x01 x2b x1d x96)
(T (W xff xff xff xff xff xff xff xff)
(T (W xff xff xff xff xff xff xff xff)
(L (W x00 x00 x00 x00 x00 x00 x00 x00))
(L (W x00 x00 x80 xbf x00 x00 x80 xbf)))
(T (W x4f x84 x6f x8b xe8 xcb x63 xb7)
(L (W x00 x00 x80 xbf x00 x00 x80 xbf))
(L (W xff xff xff xff xff xff xff xff))))
(T (W xff xff xff xff xff xff xff xff)
(T (W x00 x00 x00 x00 x00 x00 x00 x00)
(L (W x67 x72 x6f x75 x70 x5f x77 x69))
(L (W xff xff xff xff xc4 x00 x00 x00)))
(T (W xff xff xff xff x03 x00 x00 x00)
(L (W xff xff xff xff xff xff xff xff)) E)))))
(T (W x00 x00 x80 x3f x00 x00 x80 x3f)
(T (W x00 x00 x80 x3f x00 x00 x80 x3f)
(T (W x45 x26 x22 x84 xe4 x9c xf2 xcb)
(T (W xff xff xff xff xff xff xff xff)
(T (W x18 x00 x00 x00 x0c x00 x00 x00)
(L (W xff xff xff xff xff xff xff xff))
(L (W xff xff xff xff xff xff xff xff)))
(T (W x54 x00 x00 x00 x48 x00 x00 x00)
(L (W xc4 x00 x00 x00 x01 x00 x00 x00))
(L (W xff xff xff xff xff xff xff xff))))
(T (W xff xff xff xff x03 x00 x00 x00)
(T (W x2e x00 x00 x00 x0c x00 x00 x00)
(L (W x30 x34 x5f x43 x4c x45 x41 x52))
(L (W x18 x00 x00 x00 x0c x00 x00 x00)))
(T (W x45 x26 x22 x84 xe4 x9c xf2 xcb)
(L (W x00 x00 x00 x00 x50 xed xfe xff))
(L (W x4f x84 x6f x8b xe8 xcb x63 xb7)))))
(T (W x00 x00 x00 x00 x00 x00 x00 x00)
(T (W xff xff xff xff xff xff xff xff)
(T (W xff xff xff xff xac x00 x00 x00)
(L (W xff xff xff xff xff xff xff xff))
(L (W x00 x00 x80 xbf x00 x00 x80 xbf)))
(T (W x00 x00 x00 x00 x00 x00 x00 x00)
(L (W x1c xd7 xfe xff x14 x00 x00 x00))
(L (W xff xff xff xff xff xff xff xff))))
(T (W xbc x00 x00 x00 xb0 x00 x00 x00)
(T (W xff xff xff xff xff xff xff xff)
(L (W x54 x00 x00 x00 x48 x00 x00 x00))
(L (W xff xff xff xff xff xff xff xff)))
(T (W x00 x00 x00 x00 x00 x00 x00 x00)
(L (W xff xff xff xff xff xff xff xff)) E))))
(T (W x00 x00 x00 x00 x00 x00 x00 x00)
(T (W x00 x00 x00 x00 x00 x00 x00 x00)
(T (W x82 x7b xff xff x00 x00 x01 x01)
(T (W x00 x00 x80 x3f x00 x00 x80 x3f)
(L (W x00 x00 x00 x00 x00 x00 x00 x00))
(L (W x00 x00 x00 x00 x00 x00 x00 x00)))
(T (W xff xff xff xff xff xff xff xff)
(L (W xff xff xff xff xff xff xff xff))
(L (W xff xff xff xff xff xff xff xff))))
(T (W x18 x00 x00 x00 x0c x00 x00 x00)
(T (W x00 x00 x80 x3f x00 x00 x80 x3f)
(L (W x00 x00 x80 xbf x00 x00 x80 xbf))
(L (W xff xff xff xff xff xff xff xff)))
(T (W x45 x26 x22 x84 xe4 x9c xf2 xcb)
(L (W xff xff xff xff xff xff xff xff))
(L (W x28 x00 x2c x00 x30 x00 x34 x00)))))
(T (W x64 x01 x00 x00 xff xff xff xff)
(T (W xff xff xff xff xff xff xff xff)
(T (W xff xff xff xff xff xff xff xff)
(L (W x49 xa1 x68 x4a xeb x5f xdd x3d))
(L (W xd8 x5b xff xff x00 x01 x01 x01)))
(T (W x68 x00 x00 x00 x5c x00 x00 x00)
(L (W x45 x26 x22 x84 xe4 x9c xf2 xcb))
(L (W x00 x00 x80 xbf x00 x00 x80 xbf))))
(T (W xff xff xff xff xff xff xff xff)
(T (W x4f x84 x6f x8b xe8 xcb x63 xb7)
(L (W x03 x00 x00 x00 xfc x00 x00 x00))
(L (W xb0 x00 x00 x00 x1e x00 x00 x00)))
(T (W xd2 x33 xfe xff x74 x00 x00 x00)
(L (W xff xff xff xff xc4 x00 x00 x00)) E))))))))
(T (W x80 xa0 x00 x00 x4c x9f x00 x00)
(T (W x00 x00 x80 x3f x00 x00 x80 x3f)
(T (W x00 x00 x01 x01 xd4 x02 x00 x00)
(T (W xff xff xff xff xff xff xff xff)
(T (W xff xff xff xff xff xff xff xff)
(T (W xff xff xff xff x04 x00 x00 x00)
(T (W x00 x00 x80 x3f x00 x00 x80 x3f)
(T (W xff xff xff xff xff xff xff xff)
(L (W x82 xd3 xff xff x00 x00 x01 x01))
(L (W x00 x00 x00 x00 x00 x00 x00 x00)))
(T (W x45 x26 x22 x84 xe4 x9c xf2 xcb)
(L (W x6c x00 x00 x00 x60 x00 x00 x00))
(L (W x00 x00 x00 x00 x00 x00 x00 x00))))
(T (W x00 x00 x00 x00 x00 x00 x00 x00)
(T (W x00 x00 x00 x00 x00 x00 x00 x00)
(L (W xff xff xff xff xff xff xff xff))
(L (W x00 x00 x00 x00 x12 x00 x00 x00)))
(T (W xff xff xff xff xff xff xff xff)
(L (W xff xff xff xff xff xff xff xff))
(L (W xff xff xff xff xff xff xff xff)))))
(T (W x50 x00 x00 x00 x44 x00 x00 x00)
(T (W x00 x00 x00 x00 x00 x00 x00 x00)
(T (W x18 x00 x1c x00 x20 x00 x24 x00)
(L (W xff xff xff xff xff xff xff xff))
(L (W x68 x00 x00 x00 x5c x00 x00 x00)))
(T (W x00 x00 x00 x00 x00 x00 x00 x00)
(L (W x00 x00 x00 x00 x00 x00 x00 x00))
(L (W x45 x26 x22 x84 xe4 x9c xf2 xcb))))
(T (W x29 x00 x00 x00 x10 x00 x00 x00)
(T (W xff xff xff xff xff xff xff xff)
(L (W x00 x00 x00 x00 x01 x00 x00 x00))
(L (W x00 x00 x00 x00 x00 x00 x00 x00)))
(T (W xb8 x00 x00 x00 xac x00 x00 x00)
(L (W x00 x00 x00 x00 x00 x00 x00 x00))
(L (W x45 x26 x22 x84 xe4 x9c xf2 xcb))))))
(T (W xff xff xff xff xff xff xff xff)
(T (W x68 x00 x00 x00 x5c x00 x00 x00)
(T (W x00 x00 x00 x00 x00 x00 x00 x00)
(T (W x00 x00 x00 x00 x00 x00 x00 x00)
(L (W x00 x00 x00 x00 x00 x00 x00 x00))
(L (W x00 x00 x80 xbf x00 x00 x80 xbf)))
(T (W x00 x00 x00 x00 x2a xb1 xfd xff)
(L (W x00 x00 x00 x00 x00 x00 x00 x00))
(L (W x00 x00 x00 x00 x00 x00 x00 x00))))
(T (W x00 x00 x00 x00 x00 x00 x00 x00)
(T (W x54 x00 x00 x00 x48 x00 x00 x00)
(L (W x45 x26 x22 x84 xe4 x9c xf2 xcb))
(L (W x00 x00 x00 x00 x00 x00 x00 x00)))
(T (W xff xff xff xff xff xff xff xff)
(L (W x00 x00 x00 x00 x00 x00 x00 x00))
(L (W xac x00 x00 x00 x32 x00 x00 x00)))))
(T (W xd2 xa6 xfc xff x74 x00 x00 x00)
(T (W x00 x00 x00 x00 x00 x00 x00 x00)
(T (W x5f x4e x53 x5f x30 x34 x5f x43)
(L (W xff xff xff xff xff xff xff xff))
(L (W xff xff xff xff xff xff xff xff)))
(T (W x18 x00 x00 x00 x0c x00 x00 x00)
(L (W x6c x00 x00 x00 x60 x00 x00 x00))
(L (W x00 x00 x00 x00 x00 x00 x00 x00))))
(T (W x1c x1a xfd xff x3c x00 x00 x00)
(T (W x00 x00 x00 x00 x00 x00 x00 x00)
(L (W x61 x72 x6c x69 x6b x65 x5f x6c))
(L (W x00 x00 x00 x00 x00 x00 x00 x00)))
(T (W x00 x00 x00 x00 x00 x00 x00 x00)
(L (W x00 x00 x00 x00 x00 x00 x00 x00)) E)))))
(T (W xff xff xff xff xff xff xff xff)
(T (W xff xff xff xff xff xff xff xff)
(T (W x45 x26 x22 x84 xe4 x9c xf2 xcb)
(T (W x45 x26 x22 x84 xe4 x9c xf2 xcb)
(T (W x82 xdb xfe xff x00 x00 x01 x01)
(L (W x45 x26 x22 x84 xe4 x9c xf2 xcb))
(L (W x00 x00 x00 x00 x12 x00 x00 x00)))
(T (W xff xff xff xff xff xff xff xff)
(L (W x00 x00 x00 x00 x00 x00 x00 x00))
(L (W x00 x00 x00 x00 x12 x00 x00 x00))))
(T (W x00 x00 x00 x00 x00 x00 x00 x00)
(T (W x45 x26 x22 x84 xe4 x9c xf2 xcb)
(L (W x6c x00 x00 x00 x60 x00 x00 x00))
(L (W xff xff xff xff xff xff xff xff)))
(T (W xff xff xff xff xff xff xff xff)
(L (W xff xff xff xff xff xff xff xff))
(L (W x45 x26 x22 x84 xe4 x9c xf2 xcb)))))
(T (W x68 x00 x00 x00 x5c x00 x00 x00)
(T (W x00 x00 x80 x3f x00 x00 x80 x3f)
(T (W xff xff xff xff xff xff xff xff)
(L (W xff xff xff xff xff xff xff xff))
(L (W xff xff xff xff xff xff xff xff)))
(T (W x00 x00 x80 x3f x00 x00 x80 x3f)
(L (W x45 x26 x22 x84 xe4 x9c xf2 xcb))
(L (W x00 x00 x80 xbf x00 x00 x80 xbf))))
(T (W x00 x00 x00 x00 x00 x00 x00 x00)
(T (W x46 x53 x59 x53 x5f x4e x53 x5f)
(L (W x00 x00 x80 xbf x00 x00 x80 xbf))
(L (W x00 x00 x00 x00 x00 x00 x00 x00)))
(T (W x50 x00 x00 x00 x44 x00 x00 x00)
(L (W x00 x00 x00 x00 x12 x00 x00 x00)) E))))
(T (W xb8 x00 x00 x00 xac x00 x00 x00)
(T (W x00 x00 x80 x3f x00 x00 x80 x3f)
(T (W x00 x00 x00 x00 x00 x00 x00 x00)
(T (W x20 x01 x00 x00 x04 x00 x00 x00)
(L (W x45 x26 x22 x84 xe4 x9c xf2 xcb))
(L (W x54 x00 x00 x00 x48 x00 x00 x00)))
(T (W x18 x00 x00 x00 x0c x00 x00 x00)
(L (W x00 x00 x00 x00 x00 x00 x00 x00))
(L (W x49 xa1 x68 x4a xeb x5f xdd x3d))))
(T (W x00 x00 x00 x00 x00 x00 x00 x00)
(T (W x18 x00 x00 x00 x10 x00 x00 x00)
(L (W xd2 x8e xfe xff x74 x00 x00 x00))
(L (W x38 x8f xa7 x28 xbf x4f x53 x6a)))
(T (W xff xff xff xff xff xff xff xff)
(L (W x00 x00 x00 x00 x00 x00 x00 x00))
(L (W x45 x26 x22 x84 xe4 x9c xf2 xcb)))))
(T (W x00 x00 x80 x3f x00 x00 x80 x3f)
(T (W x00 x00 x00 x00 x00 x00 x00 x00)
(T (W x00 x00 x00 x00 x00 x00 x00 x00)
(L (W xff xff xff xff xac x00 x00 x00))
(L (W xff xff xff xff xff xff xff xff)))
(T (W xb0 x00 x00 x00 x64 x00 x00 x00)
(L (W xb4 x00 x00 x00 x1e x00 x00 x00))
(L (W x00 x00 x00 x00 x00 x00 x00 x00))))
(T (W x01 x00 x00 x00 x04 x00 x00 x00)
(T (W xd2 xae xfd xff x74 x00 x00 x00)
(L (W x1a x9b xfe xff x78 x00 x00 x00))
(L (W x00 x00 x00 x00 x00 x00 x00 x00)))
(T (W x00 x00 x00 x00 x00 x00 x00 x00)
(L (W x00 x00 x00 x00 x00 x00 x00 x00)) E))))))
(T (W x45 x26 x22 x84 xe4 x9c xf2 xcb)
(T (W x00 x00 x80 x3f x00 x00 x80 x3f)
(T (W x45 x26 x22 x84 xe4 x9c xf2 xcb)
(T (W x00 x00 x00 x00 x00 x00 x00 x00)
(T (W xff xff xff xff xff xff xff xff)
(T (W x1a x27 xfd xff x78 x00 x00 x00)
(L (W x00 x00 x80 x3f x00 x00 x80 x3f))
(L (W xb4 x00 x00 x00 x1e x00 x00 x00)))
(T (W x00 x00 x00 x00 x00 x00 x00 x00)
(L (W x00 x00 x00 x00 x00 x00 x00 x00))
(L (W x6c x00 x00 x00 x60 x00 x00 x00))))
(T (W x18 x00 x00 x00 x10 x00 x00 x00)
(T (W xff xff xff xff xff xff xff xff)
(L (W x00 x00 x00 x00 x12 x00 x00 x00))
(L (W x3c x00 x00 x00 x00 x00 x80 xbf)))
(T (W x45 x26 x22 x84 xe4 x9c xf2 xcb)
(L (W x45 x26 x22 x84 xe4 x9c xf2 xcb))
(L (W x45 x26 x22 x84 xe4 x9c xf2 xcb)))))
(T (W xa6 x49 xd1 xf5 x0d x60 xf1 xfa)
(T (W xb8 x00 x00 x00 xac x00 x00 x00)
(T (W x00 x00 x80 x3f x00 x00 x80 x3f)
(L (W x00 x00 x80 x3f x00 x00 x80 x3f))
(L (W x00 x00 x00 x00 x00 x00 x00 x00)))
(T (W xff xff xff xff xff xff xff xff)
(L (W xff xff xff xff xff xff xff xff))
(L (W xff xff xff xff x98 x00 x00 x00))))
(T (W x00 x00 x80 x3f x00 x00 x80 x3f)
(T (W x50 x00 x00 x00 x44 x00 x00 x00)
(L (W x03 x00 x00 x00 xbc x00 x00 x00))
(L (W xff xff xff xff xff xff xff xff)))
(T (W x00 x00 x00 x00 x00 x00 x00 x00)
(L (W xbc x00 x00 x00 x64 x00 x00 x00))
(L (W xff xff xff xff xff xff xff xff))))))
(T (W x00 x00 x00 x00 x00 x00 x00 x00)
(T (W x00 x00 x00 x00 x00 x00 x00 x00)
(T (W xff xff xff xff xff xff xff xff)
(T (W x00 x00 x80 x3f x00 x00 x80 x3f)
(L (W xd2 x4a xfe xff x74 x00 x00 x00))
(L (W xff xff xff xff xff xff xff xff)))
(T (W x1a xb7 xfd xff x78 x00 x00 x00)
(L (W xc4 x00 x00 x00 x01 x00 x00 x00))
(L (W xff xff xff xff xff xff xff xff))))
(T (W xd2 x0a xfd xff x74 x00 x00 x00)
(T (W x1c x7e xfd xff x2b x00 x00 x00)
(L (W xff xff xff xff xff xff xff xff))
(L (W x44 x00 x00 x00 x00 x00 x80 xbf)))
(T (W x45 x26 x22 x84 xe4 x9c xf2 xcb)
(L (W xd2 x0a xff xff x74 x00 x00 x00))
(L (W xff xff xff xff xb0 x00 x00 x00)))))
(T (W xff xff xff xff xff xff xff xff)
(T (W xff xff xff xff xff xff xff xff)
(T (W x18 x00 x00 x00 x0c x00 x00 x00)
(L (W x00 x00 x00 x00 x00 x00 x00 x00))
(L (W x4f x84 x6f x8b xe8 xcb x63 xb7)))
(T (W x00 x00 x00 x00 x00 x00 x00 x00)
(L (W x00 x00 x00 x00 x00 x00 x00 x00))
(L (W x18 x00 x00 x00 x0c x00 x00 x00))))
(T (W x01 x00 x00 x00 x3e x00 x00 x00)
(T (W xff xff xff xff x01 x00 x00 x00)
(L (W xff xff xff xff xff xff xff xff))
(L (W x45 x26 x22 x84 xe4 x9c xf2 xcb)))
(T (W x68 x00 x00 x00 x5c x00 x00 x00)
(L (W xff xff xff xff x9c x00 x00 x00)) E)))))
(T (W x00 x00 x80 x3f x00 x00 x80 x3f)
(T (W x00 x00 x00 x00 x00 x00 x00 x00)
(T (W x00 x00 x00 x00 x00 x00 x00 x00)
(T (W xff xff xff xff xff xff xff xff)
(T (W x00 x00 x80 x3f x00 x00 x80 x3f)
(L (W xff xff xff xff xff xff xff xff))
(L (W xff xff xff xff xff xff xff xff)))
(T (W x00 x00 x80 x3f x00 x00 x80 x3f)
(L (W x00 x00 x80 x3f x00 x00 x80 x3f))
(L (W xff xff xff xff xb0 x00 x00 x00))))
(T (W x01 x00 x00 x00 xa0 x00 x00 x00)
(T (W xff xff xff xff xff xff xff xff)
(L (W x00 x00 x01 x01 x9e x01 x00 x00))
(L (W x6c x00 x00 x00 x60 x00 x00 x00)))
(T (W x45 x26 x22 x84 xe4 x9c xf2 xcb)
(L (W x00 x00 x80 xbf x00 x00 x80 xbf))
(L (W x00 x00 x00 x00 x00 x00 x00 x00)))))
(T (W x93 x01 x00 x00 xff xff xff xff)
(T (W xff xff xff xff xff xff xff xff)
(T (W x00 x00 x00 x00 x50 x4c xfd xff)
(L (W x00 x00 x00 x00 x00 x00 x00 x00))
(L (W x45 x26 x22 x84 xe4 x9c xf2 xcb)))
(T (W x00 x00 x00 x00 x00 x00 x00 x00)
(L (W xff xff xff xff xff xff xff xff))
(L (W x18 x00 x00 x00 x0c x00 x00 x00))))
(T (W x45 x26 x22 x84 xe4 x9c xf2 xcb)
(T (W x03 x00 x00 x00 xd0 x00 x00 x00)
(L (W x00 x00 x80 x3f x00 x00 x80 x3f))
(L (W xff xff xff xff x9c x00 x00 x00)))
(T (W x12 xbe xff xff x96 x01 x00 x00)
(L (W xff xff xff xff xff xff xff xff)) E))))
(T (W x00 x00 x00 x00 x00 x00 x00 x00)
(T (W x00 x00 x00 x00 x00 x00 x00 x00)
(T (W xff xff xff xff xff xff xff xff)
(T (W x45 x26 x22 x84 xe4 x9c xf2 xcb)
(L (W x00 x00 x00 x00 x00 x00 x00 x00))
(L (W x04 x00 x00 x00 x80 x03 x00 x00)))
(T (W x00 x00 x00 x00 x50 xbc xfd xff)
(L (W xff xff xff xff xa0 x00 x00 x00))
(L (W xff xff xff xff xff xff xff xff))))
(T (W x00 x00 x80 x3f x00 x00 x80 x3f)
(T (W x00 x00 x00 x00 x00 x00 x00 x00)
(L (W x00 x00 x00 x00 x00 x00 x00 x00))
(L (W x00 x00 x00 x00 x50 x7c xff xff)))
(T (W x00 x00 x00 x00 x00 x00 x00 x00)
(L (W xff xff xff xff xff xff xff xff))
(L (W x00 x00 x80 xbf x00 x00 x80 xbf)))))
(T (W xff xff xff xff xff xff xff xff)
(T (W xff xff xff xff xff xff xff xff)
(T (W x18 x00 x00 x00 x10 x00 x00 x00)
(L (W x00 x00 x00 x00 x00 x00 x00 x00))
(L (W x00 x00 x80 xbf x00 x00 x80 xbf)))
(T (W x00 x00 x80 x3f x00 x00 x80 x3f)
(L (W x00 x00 x00 x00 x00 x00 x00 x00))
(L (W x00 x00 x00 x00 x00 x00 x00 x00))))
(T (W x68 x00 x00 x00 x5c x00 x00 x00)
(T (W x13 x00 x00 x00 x10 x00 x00 x00)
(L (W x00 x00 x80 x3f x00 x00 x80 x3f))
(L (W xd8 x9a xff xff x00 x01 x01 x01)))
(T (W x68 x00 x00 x00 x5c x00 x00 x00)
(L (W x45 x26 x22 x84 xe4 x9c xf2 xcb)) E)))))))
(T (W xb8 x00 x00 x00 xac x00 x00 x00)
(T (W x00 x00 x00 x00 x00 x00 x00 x00)
(T (W x00 x00 x00 x00 x00 x00 x00 x00)
(T (W x01 x00 x00 x00 x04 x00 x00 x00)
(T (W x20 x01 x00 x00 x04 x00 x00 x00)
(T (W xc0 x00 x00 x00 xb4 x00 x00 x00)
(T (W x00 x00 x00 x00 x00 x00 x00 x00)
(L (W x00 x00 x00 x00 x00 x00 x00 x00))
(L (W x54 x00 x00 x00 x48 x00 x00 x00)))
(T (W x00 x00 x00 x00 x00 x00 x00 x00)
(L (W x03 x00 x00 x00 xfc x00 x00 x00))
(L (W x45 x26 x22 x84 xe4 x9c xf2 xcb))))
(T (W x00 x00 x80 x3f x00 x00 x80 x3f)
(T (W x00 x00 x80 x3f x00 x00 x80 x3f)
(L (W x00 x00 x00 x00 x00 x00 x00 x00))
(L (W x49 xa1 x68 x4a xeb x5f xdd x3d)))
(T (W x00 x00 x00 x00 x00 x00 x00 x00)
(L (W x00 x00 x00 x00 x00 x00 x00 x00))
(L (W x38 x00 x00 x00 x0c x00 x00 x00)))))
(T (W xb8 x00 x00 x00 xac x00 x00 x00)
(T (W x00 x00 x80 x3f x00 x00 x80 x3f)
(T (W xff xff xff xff xff xff xff xff)
(L (W x00 x00 x00 x00 x00 x00 x00 x00))
(L (W xff xff xff xff xff xff xff xff)))
(T (W xd8 xc0 xfd xff x00 x01 x01 x01)
(L (W x00 x00 x80 xbf x00 x00 x80 xbf))
(L (W x00 x00 x80 xbf x00 x00 x80 xbf))))
(T (W x45 x26 x22 x84 xe4 x9c xf2 xcb)
(T (W x00 x00 x00 x00 x00 x00 x00 x00)
(L (W x00 x00 x80 xbf x00 x00 x80 xbf))
(L (W x00 x00 x80 xbf x00 x00 x80 xbf)))
(T (W xff xff xff xff xff xff xff xff)
(L (W x45 x26 x22 x84 xe4 x9c xf2 xcb))
(L (W x18 x00 x1c x00 x20 x00 x24 x00))))))
(T (W x82 x05 xfe xff x00 x00 x01 x01)
(T (W xff xff xff xff xff xff xff xff)
(T (W xd8 xb0 xfc xff x00 x01 x01 x01)
(T (W x00 x00 x00 x00 x00 x00 x00 x00)
(L (W x00 x00 x80 x3f x00 x00 x80 x3f))
(L (W xd2 x48 xff xff x74 x00 x00 x00)))
(T (W x00 x00 x00 x00 x00 x00 x00 x00)
(L (W x00 x00 x80 x3f x00 x00 x80 x3f))
(L (W x00 x00 x80 xbf x00 x00 x80 xbf))))
(T (W x00 x00 x00 x00 x00 x00 x00 x00)
(T (W xff xff xff xff xff xff xff xff)
(L (W xff xff xff xff xff xff xff xff))
(L (W x00 x00 x80 xbf x00 x00 x80 xbf)))
(T (W x00 x00 x00 x00 x00 x00 x00 x00)
(L (W x45 x26 x22 x84 xe4 x9c xf2 xcb))
(L (W x00 x00 x00 x00 x00 x00 x00 x00)))))
(T (W x01 x00 x00 x00 x9c x00 x00 x00)
(T (W x00 x00 x80 x3f x00 x00 x80 x3f)
(T (W x49 xa1 x68 x4a xeb x5f xdd x3d)
(L (W xff xff xff xff xab x01 x00 x00))
(L (W x45 x44 x00 x00 x00 x00 x00 x00)))
(T (W xff xff xff xff xff xff xff xff)
(L (W xff xff xff xff xff xff xff xff))
(L (W x00 x00 x00 x00 x1c x00 x20 x00))))
(T (W x00 x00 x80 x3f x00 x00 x80 x3f)
(T (W xd2 xa8 xfd xff x74 x00 x00 x00)
(L (W x00 x00 x00 x00 x00 x00 x00 x00))
(L (W x00 x00 x80 xbf x00 x00 x80 xbf)))
(T (W x45 x26 x22 x84 xe4 x9c xf2 xcb)
(L (W x00 x00 x80 xbf x00 x00 x80 xbf)) E)))))
(T (W x1c x44 xfc xff x25 x00 x00 x00)
(T (W xff xff xff xff xff xff xff xff)
(T (W xff xff xff xff xff xff xff xff)
(T (W xd2 xc0 xfc xff x74 x00 x00 x00)
(T (W x00 x00 x00 x00 x00 x00 x00 x00)
(L (W x68 x00 x00 x00 x5c x00 x00 x00))
(L (W x00 x00 x80 xbf x00 x00 x80 xbf)))
(T (W x1c xb4 xfd xff x15 x00 x00 x00)
(L (W xff xff xff xff xff xff xff xff))
(L (W x00 x00 x80 xbf x00 x00 x80 xbf))))
(T (W x45 x26 x22 x84 xe4 x9c xf2 xcb)
(T (W x00 x00 x00 x00 x50 x6a xfd xff)
(L (W xff xff xff xff xff xff xff xff))
(L (W x00 x00 x00 x00 x00 x00 x00 x00)))
(T (W x00 x00 x00 x00 x00 x00 x00 x00)
(L (W x00 x00 x00 x00 x00 x00 x00 x00))
(L (W x7f xd9 xac x28 xbf xd2 x59 x6a)))))
(T (W x45 x26 x22 x84 xe4 x9c xf2 xcb)
(T (W x18 x00 x00 x00 x0c x00 x00 x00)
(T (W x00 x00 x00 x00 x00 x00 x00 x00)
(L (W x18 x01 x00 x00 x04 x00 x00 x00))
(L (W x00 x00 x00 x00 x00 x00 x00 x00)))
(T (W x18 x00 x00 x00 x10 x00 x00 x00)
(L (W x45 x26 x22 x84 xe4 x9c xf2 xcb))
(L (W x54 x00 x00 x00 x48 x00 x00 x00))))
(T (W x00 x00 x00 x00 x00 x00 x00 x00)
(T (W x00 x00 x80 x3f x00 x00 x80 x3f)
(L (W xff xff xff xff xff xff xff xff))
(L (W x00 x00 x80 xbf x00 x00 x80 xbf)))
(T (W xff xff xff xff xff xff xff xff)
(L (W x00 x00 x80 xbf x00 x00 x80 xbf)) E))))
(T (W x00 x00 x00 x00 x00 x00 x00 x00)
(T (W xff xff xff xff xff xff xff xff)
(T (W x50 x00 x00 x00 x44 x00 x00 x00)
(T (W x00 x00 x00 x00 x00 x00 x00 x00)
(L (W x50 x00 x00 x00 x44 x00 x00 x00))
(L (W x03 x00 x00 x00 xd0 x00 x00 x00)))
(T (W x00 x00 x80 x3f x00 x00 x80 x3f)
(L (W x00 x00 x80 x3f x00 x00 x80 x3f))
(L (W x1c x00 x00 x00 x10 x00 x00 x00))))
(T (W x45 x26 x22 x84 xe4 x9c xf2 xcb)
(T (W xb4 x01 x00 x00 xff xff xff xff)
(L (W xff xff xff xff xff xff xff xff))
(L (W x45 x26 x22 x84 xe4 x9c xf2 xcb)))
(T (W x12 xac xff xff xb3 x01 x00 x00)
(L (W x00 x00 x80 xbf x00 x00 x80 xbf))
(L (W x54 x00 x00 x00 x48 x00 x00 x00)))))
(T (W x0a x00 x00 x00 x3e x00 x00 x00)
(T (W x54 x00 x00 x00 x48 x00 x00 x00)
(T (W x00 x00 x80 x3f x00 x00 x80 x3f)
(L (W x04 x00 x00 x00 xb2 x59 xfe xff))
(L (W x00 x00 x00 x00 x00 x00 x00 x00)))
(T (W x00 x00 x00 x00 x00 x00 x00 x00)
(L (W xff xff xff xff xff xff xff xff))
(L (W x62 x00 x00 x00 xc1 x02 x00 x00))))
(T (W x45 x26 x22 x84 xe4 x9c xf2 xcb)
(T (W xff xff xff xff xff xff xff xff)
(L (W x67 x72 x6f x75 x70 x5f x77 x69))
(L (W x00 x00 x00 x00 x1c x00 x20 x00)))
(T (W x45 x26 x22 x84 xe4 x9c xf2 xcb)
(L (W x00 x00 x80 xbf x00 x00 x80 xbf)) E))))))
(T (W x45 x26 x22 x84 xe4 x9c xf2 xcb)
(T (W x68 x00 x00 x00 x5c x00 x00 x00)
(T (W x68 x00 x00 x00 x5c x00 x00 x00)
(T (W x45 x26 x22 x84 xe4 x9c xf2 xcb)
(T (W x65 x50 x84 x31 x71 xf5 x75 xb9)
(T (W xff xff xff xff xff xff xff xff)
(L (W xff xff xff xff xff xff xff xff))
(L (W xff xff xff xff xff xff xff xff)))
(T (W xd8 xa4 xfd xff x00 x01 x01 x01)
(L (W x18 x00 x00 x00 x10 x00 x00 x00))
(L (W xff xff xff xff xff xff xff xff))))
(T (W xff xff xff xff xff xff xff xff)
(T (W xd4 x73 x5a x26 x96 x95 x06 x58)
(L (W x00 x00 x80 xbf x00 x00 x80 xbf))
(L (W x45 x26 x22 x84 xe4 x9c xf2 xcb)))
(T (W x68 x00 x00 x00 x5c x00 x00 x00)
(L (W xd2 xfc xfe xff x74 x00 x00 x00))
(L (W x74 x00 x08 x00 x68 x00 x0c x00)))))
(T (W x00 x00 x00 x00 x00 x00 x00 x00)
(T (W x5d x2e xcb xde x77 x37 xbe x79)
(T (W x00 x00 x80 x3f x00 x00 x80 x3f)
(L (W xd2 x5c xfe xff x74 x00 x00 x00))
(L (W x00 x00 x80 xbf x00 x00 x80 xbf)))
(T (W x74 xcb xfd xff x10 x00 x00 x00)
(L (W x00 x00 x00 x00 x00 x00 x00 x00))
(L (W xff xff xff xff xff xff xff xff))))
(T (W xff xff xff xff xff xff xff xff)
(T (W xff xff xff xff xff xff xff xff)
(L (W x74 x8b xfe xff x2d x00 x00 x00))
(L (W x00 x00 x00 x00 x00 x00 x00 x00)))
(T (W x45 x26 x22 x84 xe4 x9c xf2 xcb)
(L (W xff xff xff xff xff xff xff xff))
(L (W x44 x00 x00 x00 x10 x00 x00 x00))))))
(T (W x00 x00 x80 x3f x00 x00 x80 x3f)
(T (W x00 x00 x80 x3f x00 x00 x80 x3f)
(T (W x00 x00 x00 x00 x00 x00 x00 x00)
(T (W xff xff xff xff x04 x00 x00 x00)
(L (W xff xff xff xff xff xff xff xff))
(L (W x00 x00 x00 x00 x12 x00 x00 x00)))
(T (W xff xff xff xff xff xff xff xff)
(L (W xff xff xff xff xff xff xff xff))
(L (W x00 x00 x00 x00 x00 x00 x00 x00))))
(T (W xff xff xff xff xff xff xff xff)
(T (W x00 x00 x80 x3f x00 x00 x80 x3f)
(L (W x00 x00 x00 x00 x00 x00 x00 x00))
(L (W xff xff xff xff xff xff xff xff)))
(T (W x50 x00 x00 x00 x44 x00 x00 x00)
(L (W xff xff xff xff xff xff xff xff))
(L (W x9f x41 x45 xdc x00 xd9 x55 x2f)))))
(T (W x00 x00 x00 x00 x00 x00 x00 x00)
(T (W xff xff xff xff xff xff xff xff)
(T (W xff xff xff xff xff xff xff xff)
(L (W x00 x00 x80 xbf x00 x00 x80 xbf))
(L (W x18 x00 x00 x00 x0c x00 x00 x00)))
(T (W x00 x00 x80 x3f x00 x00 x80 x3f)
(L (W x54 x00 x00 x00 x48 x00 x00 x00))
(L (W xff xff xff xff xff xff xff xff))))
(T (W xff xff xff xff xff xff xff xff)
(T (W x00 x00 x00 x00 x00 x00 x00 x00)
(L (W x00 x00 x80 x3f x00 x00 x80 x3f))
(L (W xff xff xff xff xff xff xff xff)))
(T (W xff xff xff xff xff xff xff xff)
(L (W x45 x44 x00 x00 x00 x00 x00 x00)) E)))))
(T (W x01 x00 x00 x00 x3e x00 x00 x00)
(T (W x1a x51 xfc xff x78 x00 x00 x00)
(T (W x00 x00 x80 x3f x00 x00 x80 x3f)
(T (W x12 x60 xfe xff x2b x01 x00 x00)
(T (W xb8 x00 x00 x00 xac x00 x00 x00)
(L (W x82 xe1 xff xff x00 x00 x01 x01))
(L (W x90 x07 xb9 x28 xbf xc9 x67 x6a)))
(T (W x45 x26 x22 x84 xe4 x9c xf2 xcb)
(L (W xff xff xff xff xff xff xff xff))
(L (W x04 x00 x00 x00 xb2 xad xff xff))))
(T (W xd2 x01 x00 x00 xff xff xff xff)
(T (W x00 x00 x00 x00 x00 x00 x00 x00)
(L (W x00 x00 x00 x00 x00 x00 x00 x00))
(L (W xff xff xff xff xff xff xff xff)))
(T (W xb8 x00 x00 x00 xac x00 x00 x00)
(L (W xff xff xff xff xff xff xff xff))
(L (W x00 x00 x80 xbf x00 x00 x80 xbf)))))
(T (W x00 x00 x00 x00 x00 x00 x00 x00)
(T (W xad x01 x00 x00 xff xff xff xff)
(T (W xff xff xff xff xff xff xff xff)
(L (W x10 x00 x14 x00 x00 x00 x00 x00))
(L (W x50 x00 x00 x00 x44 x00 x00 x00)))
(T (W x00 x00 x00 x00 x00 x00 x00 x00)
(L (W x00 x00 x00 x00 x00 x00 x00 x00))
(L (W xa2 xfd xff xff x00 x00 x01 x01))))
(T (W xff xff xff xff xff xff xff xff)
(T (W x02 x00 x00 x00 x30 x01 x00 x00)
(L (W x45 x26 x22 x84 xe4 x9c xf2 xcb))
(L (W x45 x44 x00 x00 x00 x00 x00 x00)))
(T (W xd8 x0c xfe xff x00 x01 x01 x01)
(L (W x00 x00 x00 x00 xb2 x0d xff xff)) E))))
(T (W x00 x00 x80 x3f x00 x00 x80 x3f)
(T (W x00 x00 x80 x3f x00 x00 x80 x3f)
(T (W x00 x00 x00 x00 x00 x00 x00 x00)
(T (W x45 x26 x22 x84 xe4 x9c xf2 xcb)
(L (W x00 x00 x00 x00 x50 x3e xfe xff))
(L (W x00 x00 x80 xbf x00 x00 x80 xbf)))
(T (W x62 xe4 xfd xff x9d x01 x00 x00)
(L (W xff xff xff xff xff xff xff xff))
(L (W x08 x00 x00 x00 xd8 x07 x00 x00))))
(T (W xff xff xff xff xff xff xff xff)
(T (W xd2 x94 xfd xff x74 x00 x00 x00)
(L (W x18 x00 x00 x00 x0c x00 x00 x00))
(L (W xff xff xff xff xff xff xff xff)))
(T (W x00 x00 x80 x3f x00 x00 x80 x3f)
(L (W xff xff xff xff xff xff xff xff))
(L (W xcc x00 x00 x00 x01 x00 x00 x00)))))
(T (W x00 x00 x00 x00 x00 x00 x00 x00)
(T (W xff xff xff xff xff xff xff xff)
(T (W x2b x01 x00 x00 xff xff xff xff)
(L (W x00 x00 x80 xbf x00 x00 x80 xbf))
(L (W xb8 x00 x00 x00 x1e x00 x00 x00)))
(T (W x45 x26 x22 x84 xe4 x9c xf2 xcb)
(L (W x45 x26 x22 x84 xe4 x9c xf2 xcb))
(L (W xd8 xdc xff xff x00 x01 x01 x01))))
(T (W xff xff xff xff xff xff xff xff)
(T (W x00 x00 x80 x3f x00 x00 x80 x3f)
(L (W x25 x00 x00 x00 x67 x72 x6f x75))
(L (W x00 x00 x01 x01 x2a x00 x00 x00)))
(T (W xff xff xff xff xff xff xff xff)
(L (W x8c x04 x00 x00 x70 x03 x00 x00)) E)))))))))))))).
