(** Generated by tools/gen_la.py from resources/encount/la/poke_misc.bin. *)
From Coq Require Import NArith Strings.Byte.
From Verif Require Import Model.Trie.
Definition poke_misc_size : N := 40368%N.
Definition poke_misc_trie : trie :=
(T (W x0c x00 x00 x00 x00 x00 x06 x00)
(T (W x08 x00 x04 x00 x06 x00 x00 x00)
(T (W x2c x9d x00 x00 x8c x9c x00 x00)
(T (W xa8 x98 x00 x00 x0c x98 x00 x00)
(T (W x94 x8f x00 x00 x20 x8f x00 x00)
(T (W x60 x7f x00 x00 xec x7e x00 x00)
(T (W xd8 x60 x00 x00 x64 x60 x00 x00)
(T (W x24 x24 x00 x00 x80 x23 x00 x00)
(T (W x0a xbe x4c xc8 x17 x2f xef x62)
(T (W x00 x00 x80 x3f x66 x66 xa6 x3f)
(T (W x00 x00 x00 x01 xed x01 x00 x00)
(T (W x00 x00 x80 x3f x66 x66 xe6 x3f)
(L (W x00 x00 x00 x40 x02 x00 x00 x00)) E)
(L (W x03 x00 x00 x00 x0c x00 x00 x00)))
(T (W x00 x00 x80 x3f x00 x00 xc0 x3f)
(T (W x01 x00 x00 x00 x01 x00 x00 x00)
(L (W x0c x00 x00 x00 x70 x6d x30 x30)) E)
(L (W x02 x00 x00 x00 xcd xcc x4c x3f))))
(T (W x02 x00 x00 x00 x03 x00 x00 x00)
(T (W x10 x00 x14 x00 x18 x00 x1c x00)
(T (W x0c x00 x00 x00 x10 x00 x14 x00)
(L (W x28 x00 x00 x00 x04 x00 x00 x00)) E)
(L (W x02 x00 x00 x00 x40 x00 x00 x00)))
(T (W x52 x66 x45 x71 x09 xcd x24 x44)
(T (W x00 x00 x00 x00 x06 xdb xff xff)
(L (W x00 x00 x00 x00 x01 x00 x00 x00)) E)
(L (W x00 x00 x00 x00 x01 x00 x00 x00)))))
(T (W xec xfb xec x78 x0b xcb xee x0f)
(T (W x30 x00 x00 x00 x00 x00 x34 x00)
(T (W x00 x00 x00 x00 x04 x00 x00 x00)
(T (W x00 x00 x00 x00 xd6 xb1 xff xff)
(L (W x01 x00 x00 x00 xcd xcc xcc x3f)) E)
(L (W x01 x00 x00 x00 x02 x00 x00 x00)))
(T (W x28 x00 x00 x00 x04 x00 x00 x00)
(T (W x0a x00 x00 x00 x0a xd7 x23 x3c)
(L (W x02 x00 x00 x00 x00 x00 x80 x3f)) E)
(L (W xa4 xba x4c xc8 x17 x2d xef x62))))
(T (W x02 x00 x00 x00 x03 x00 x00 x00)
(T (W x03 x00 x00 x00 x0c x00 x00 x00)
(T (W xd3 xf6 xec x78 x0b xc8 xee x0f)
(L (W x39 x33 x5f x30 x30 x5f x30 x30)) E)
(L (W x3c x00 x00 x00 x24 x00 x00 x00)))
(T (W x0a x00 x00 x00 x0a xd7 xa3 x3c)
(T (W x03 x00 x00 x00 x0c x00 x00 x00)
(L (W x28 x00 x00 x00 x00 x00 x2c x00)) E)
(L (W x00 x00 x00 x00 x01 x00 x00 x00))))))
(T (W x00 x00 x80 x3f x33 x33 xb3 x3f)
(T (W x04 x00 x00 x00 x00 x00 x00 x00)
(T (W x40 x00 x00 x00 x28 x00 x00 x00)
(T (W xbb xa7 xa1 x5a xaa x2e xd7 x83)
(T (W x02 x00 x00 x00 x00 x00 x00 x3f)
(L (W x01 x00 x00 x00 x02 x00 x00 x00)) E)
(L (W x46 xc9 xff xff x0d x01 x00 x00)))
(T (W x0c x00 x00 x00 x70 x6d x30 x30)
(T (W x03 x00 x00 x00 x0c x00 x00 x00)
(L (W xbd xbf x4c xc8 x17 x30 xef x62)) E)
(L (W x3e xf9 xff xff x00 x00 x00 x01))))
(T (W x02 x00 x00 x00 x03 x00 x00 x00)
(T (W x0c x00 x00 x00 x70 x6d x30 x34)
(T (W x02 x00 x00 x00 x03 x00 x00 x00)
(L (W x0c x00 x00 x00 x70 x6d x30 x31)) E)
(L (W x0a x00 x00 x00 x0a xd7 xa3 x3c)))
(T (W x04 x00 x00 x00 x00 x00 x00 x00)
(T (W x85 x01 x00 x00 x00 x00 x80 x3f)
(L (W x66 x66 xe6 x3f x02 x00 x00 x00)) E)
(L (W x00 x00 x00 x01 xc8 x00 x00 x00)))))
(T (W xa4 xba x4c xc8 x17 x2d xef x62)
(T (W x04 x00 x00 x00 x0a x00 x00 x00)
(T (W xbb xa7 xa1 x5a xaa x2e xd7 x83)
(T (W xbd xbf x4c xc8 x17 x30 xef x62)
(L (W x00 x00 x2e x00 x48 x00 x08 x00)) E)
(L (W x70 x6d x30 x30 x30 x30 x5f x30)))
(T (W x03 x00 x00 x00 x0c x00 x00 x00)
(T (W x00 x00 x80 x3f x9a x99 xd9 x3f)
(L (W x50 x00 x04 x00 x00 x00 x00 x00)) E)
(L (W x02 x00 x00 x00 x00 x00 x80 x3f))))
(T (W x02 x00 x00 x00 x03 x00 x00 x00)
(T (W x0a xbe x4c xc8 x17 x2f xef x62)
(T (W x3c x00 x00 x00 x24 x00 x00 x00)
(L (W x04 x00 x00 x00 x00 x00 x00 x00)) E)
(L (W x70 x6d x30 x32 x30 x31 x5f x30)))
(T (W x30 x5f x30 x30 x00 x00 x00 x00)
(L (W x64 x01 x00 x00 x00 x00 x80 x3f))
(L (W x00 x00 x00 x00 xe6 xe0 xff xff)))))))
(T (W xbc x42 x00 x00 x4c x42 x00 x00)
(T (W x54 x02 x00 x00 xd8 x01 x00 x00)
(T (W x03 x00 x00 x00 x0c x00 x00 x00)
(T (W x02 x00 x00 x00 x00 x00 x40 x40)
(T (W x00 x00 x00 x00 x01 x00 x00 x00)
(T (W x9a x99 x99 x3f x66 x66 x26 x40)
(L (W x00 x00 x80 x3f x00 x00 xc0 x40)) E)
(L (W x0c x00 x10 x00 x00 x00 x14 x00)))
(T (W x9a x99 x99 x3f xcd xcc xcc x3f)
(T (W x05 x68 x45 x71 x09 xce x24 x44)
(L (W x02 x00 x00 x00 x03 x00 x00 x00)) E)
(L (W x01 x00 x00 x00 x02 x00 x00 x00))))
(T (W x02 x00 x00 x00 x03 x00 x00 x00)
(T (W x38 x32 x5f x30 x30 x5f x30 x30)
(T (W x9a x99 x99 x3f x33 x33 x33 x3f)
(L (W x02 x00 x00 x00 x00 x00 x40 x40)) E)
(L (W xd3 xf6 xec x78 x0b xc8 xee x0f)))
(T (W x0a x00 x00 x00 x0a xd7 x23 x3d)
(T (W x48 x00 x00 x00 x30 x00 x00 x00)
(L (W x3c x00 x00 x00 x24 x00 x00 x00)) E)
(L (W x02 x00 x00 x00 x00 x00 x80 x3f)))))
(T (W x0a x00 x00 x00 x8f xc2 xf5 x3c)
(T (W xa9 x0e xf0 x78 x0b x4d xf2 x0f)
(T (W x02 x00 x00 x00 x03 x00 x00 x00)
(T (W x3c x00 x00 x00 x24 x00 x00 x00)
(L (W x01 x00 x00 x00 x02 x00 x00 x00)) E)
(L (W xa4 xba x4c xc8 x17 x2d xef x62)))
(T (W x75 x15 xf0 x78 x0b x51 xf2 x0f)
(T (W x04 x00 x00 x00 x00 x00 x00 x00)
(L (W x00 x00 x28 x00 x2c x00 x06 x00)) E)
(L (W x70 x6d x30 x32 x30 x31 x5f x30))))
(T (W x02 x00 x00 x00 x03 x00 x00 x00)
(T (W x3c x00 x00 x00 x24 x00 x00 x00)
(T (W x0c x00 x00 x00 x70 x6d x30 x30)
(L (W x02 x00 x00 x00 x03 x00 x00 x00)) E)
(L (W xa4 xba x4c xc8 x17 x2d xef x62)))
(T (W x04 x00 x00 x00 x00 x00 x00 x00)
(T (W x9a x99 xd9 x3f x01 x00 x00 x00)
(L (W x01 x00 x00 x00 x02 x00 x00 x00)) E)
(L (W x40 x00 x04 x00 x00 x00 x00 x00))))))
(T (W x40 x00 x00 x00 x28 x00 x00 x00)
(T (W x48 x00 x08 x00 x0c x00 x00 x00)
(T (W x00 x00 x01 x01 x3a x02 x00 x00)
(T (W x03 x00 x00 x00 x0c x00 x00 x00)
(T (W x00 x00 x00 x00 x01 x00 x00 x00)
(L (W x00 x00 x00 x00 xe6 xe5 xff xff)) E)
(L (W x02 x00 x00 x00 x00 x00 xc0 x3f)))
(T (W xfe xac xff xff x00 x00 x01 x01)
(T (W x95 x01 x00 x00 x00 x00 x80 x3f)
(L (W x02 x00 x00 x00 x33 x33 x33 x40)) E)
(L (W x3c x00 x00 x00 x24 x00 x00 x00))))
(T (W x02 x00 x00 x00 x03 x00 x00 x00)
(T (W x50 x00 x08 x00 x0c x00 x10 x00)
(T (W x00 x00 x80 x3f xcd xcc x0c x40)
(L (W x00 x00 x00 x00 x04 x00 x00 x00)) E)
(L (W x28 x00 x00 x00 x04 x00 x00 x00)))
(T (W xd1 x07 xed x78 x0b xd2 xee x0f)
(T (W x0a x00 x00 x00 x0a xd7 x23 x3c)
(L (W x00 x00 x00 x00 xe6 xfd xff xff)) E)
(L (W x0a x00 x00 x00 x0a xd7 xa3 x3c)))))
(T (W x0c x00 x00 x00 x70 x6d x30 x36)
(T (W x02 x00 x00 x00 x03 x00 x00 x00)
(T (W x2c x00 x00 x00 x04 x00 x00 x00)
(T (W x03 x00 x00 x00 x0c x00 x00 x00)
(L (W x00 x00 x80 x3f x66 x66 x26 x40)) E)
(L (W x00 x00 x20 x00 x24 x00 x00 x00)))
(T (W x40 x00 x00 x00 x28 x00 x00 x00)
(T (W xa4 xba x4c xc8 x17 x2d xef x62)
(L (W x9a x99 x99 x3f x66 x66 xa6 x3f)) E)
(L (W x02 x00 x00 x00 xcd xcc x4c x3f))))
(T (W x02 x00 x00 x00 x03 x00 x00 x00)
(T (W x70 x6d x30 x34 x37 x35 x5f x30)
(T (W x00 x00 x24 x00 x28 x00 x00 x00)
(L (W x30 x5f x30 x30 x00 x00 x00 x00)) E)
(L (W x02 x00 x00 x00 x00 x00 x80 x3f)))
(T (W x70 x6d x30 x30 x30 x30 x5f x30)
(L (W x01 x00 x00 x00 xcd xcc xcc x3f))
(L (W x30 x30 x5f x30 x30 x5f x30 x30))))))))
(T (W x10 x70 x00 x00 x9c x6f x00 x00)
(T (W x3c x52 x00 x00 xc4 x51 x00 x00)
(T (W x9c x12 x00 x00 x30 x12 x00 x00)
(T (W x04 x00 x00 x00 x00 x00 x00 x00)
(T (W x40 x00 x00 x00 x28 x00 x00 x00)
(T (W x10 x00 x14 x00 x18 x00 x1c x00)
(T (W x3c x00 x00 x00 x24 x00 x00 x00)
(L (W x28 x00 x00 x00 x04 x00 x00 x00)) E)
(L (W x30 x5f x30 x30 x00 x00 x00 x00)))
(T (W x28 x00 x00 x00 x04 x00 x00 x00)
(T (W x0a x00 x00 x00 x8f xc2 xf5 x3c)
(L (W x48 x00 x08 x00 x00 x00 x00 x00)) E)
(L (W xa4 xba x4c xc8 x17 x2d xef x62))))
(T (W x02 x00 x00 x00 x03 x00 x00 x00)
(T (W x02 x00 x00 x00 x03 x00 x00 x00)
(T (W x01 x00 x00 x00 x02 x00 x00 x00)
(L (W x00 x00 x80 x3f x66 x66 x26 x40)) E)
(L (W x0a x00 x00 x00 x0a xd7 x23 x3c)))
(T (W x44 x00 x00 x00 x2c x00 x00 x00)
(T (W x02 x00 x00 x00 x04 x00 x00 x00)
(L (W x91 x0e xea x78 x0b x5f xeb x0f)) E)
(L (W x02 x00 x00 x00 xcd xcc x4c x3f)))))
(T (W x04 x00 x00 x00 x00 x00 x00 x00)
(T (W x0c x00 x00 x00 x70 x6d x30 x30)
(T (W x00 x00 x00 x00 x01 x00 x00 x00)
(T (W x00 x00 x00 x01 xab x01 x00 x00)
(L (W xbd xbf x4c xc8 x17 x30 xef x62)) E)
(L (W x00 x00 x80 x3f x00 x00 x40 x40)))
(T (W x02 x00 x00 x00 x00 x00 xc0 x40)
(T (W x9f x64 x45 x71 x09 xcc x24 x44)
(L (W x02 x00 x00 x00 x00 x00 x00 x40)) E)
(L (W x01 x00 x00 x00 x02 x00 x00 x00))))
(T (W x02 x00 x00 x00 x03 x00 x00 x00)
(T (W x52 x66 x45 x71 x09 xcd x24 x44)
(T (W x04 x00 x00 x00 x00 x00 x00 x00)
(L (W x00 x00 x0c x00 x10 x00 x14 x00)) E)
(L (W x66 x66 x66 x3f x00 x00 x10 x41)))
(T (W xec xfb xec x78 x0b xcb xee x0f)
(T (W x00 x00 x00 x00 x46 xc9 xff xff)
(L (W x00 x00 x2e x00 x48 x00 x08 x00)) E)
(L (W x70 x6d x30 x30 x30 x30 x5f x30))))))
(T (W x48 x00 x00 x00 x30 x00 x00 x00)
(T (W x0c x00 x00 x00 x70 x6d x30 x38)
(T (W x2e x00 x00 x00 x00 x00 x01 x01)
(T (W x00 x00 x00 x00 x01 x00 x00 x00)
(T (W xbd xbf x4c xc8 x17 x30 xef x62)
(L (W x70 x6d x30 x30 x30 x30 x5f x30)) E)
(L (W x01 x00 x00 x00 x40 x00 x00 x00)))
(T (W x30 x30 x5f x30 x30 x5f x30 x30)
(T (W x30 x30 x5f x30 x30 x5f x30 x30)
(L (W x04 x00 x00 x00 x0a x00 x00 x00)) E)
(L (W x02 x00 x00 x00 x00 x00 x80 x3f))))
(T (W x02 x00 x00 x00 x03 x00 x00 x00)
(T (W x37 x39 x5f x31 x36 x5f x30 x30)
(T (W x00 x00 x00 x00 x66 xad xff xff)
(L (W x86 x5f x45 x71 x09 xc9 x24 x44)) E)
(L (W x00 x00 x80 x3f x00 x00 x00 x40)))
(T (W x03 x00 x00 x00 x0c x00 x00 x00)
(T (W x03 x00 x00 x00 x40 x00 x00 x00)
(L (W x28 x00 x00 x00 x00 x00 x2c x00)) E)
(L (W x01 x00 x00 x00 x02 x00 x00 x00)))))
(T (W x01 x00 x00 x00 x02 x00 x00 x00)
(T (W xbd xbf x4c xc8 x17 x30 xef x62)
(T (W x03 x00 x00 x00 x05 x00 x00 x00)
(T (W x04 x00 x00 x00 x00 x00 x00 x00)
(L (W x01 x00 x00 x00 x02 x00 x00 x00)) E)
(L (W xc6 xcd xff xff xe2 x00 x00 x00)))
(T (W xc6 x9d xff xff xc9 x01 x00 x00)
(T (W x04 x00 x00 x00 x0a x00 x00 x00)
(L (W x00 x00 x00 x00 x01 x00 x00 x00)) E)
(L (W x3c x00 x00 x00 x24 x00 x00 x00))))
(T (W x02 x00 x00 x00 x03 x00 x00 x00)
(T (W x02 x00 x00 x00 x03 x00 x00 x00)
(T (W x9d x01 x00 x00 x01 x00 x00 x00)
(L (W x03 x00 x00 x00 x0c x00 x00 x00)) E)
(L (W xbe xf5 xff xff x00 x00 x00 x01)))
(T (W x00 x00 x18 x00 x38 x00 x40 x00)
(L (W x01 x00 x00 x00 x01 x00 x00 x00))
(L (W x34 x00 x3c x00 x18 x00 x1c x00)))))))
(T (W x68 x33 x00 x00 xfc x32 x00 x00)
(T (W x30 x30 x5f x30 x30 x5f x30 x30)
(T (W x30 x30 x5f x30 x30 x5f x30 x30)
(T (W x00 x00 x80 x3f x33 x33 xb3 x3f)
(T (W x9a x99 x19 x3f xcd xcc x4c x3f)
(T (W xa4 xba x4c xc8 x17 x2d xef x62)
(L (W xa4 xba x4c xc8 x17 x2d xef x62)) E)
(L (W x0c x00 x00 x00 x70 x6d x30 x32)))
(T (W x04 x00 x00 x00 x00 x00 x00 x00)
(T (W x04 x00 x00 x00 x00 x00 x00 x00)
(L (W x70 x6d x30 x30 x30 x30 x5f x30)) E)
(L (W x70 x6d x30 x32 x30 x31 x5f x30))))
(T (W x02 x00 x00 x00 x03 x00 x00 x00)
(T (W x00 x00 x08 x00 x0c x00 x10 x00)
(T (W xa4 xba x4c xc8 x17 x2d xef x62)
(L (W x24 x00 x28 x00 x00 x00 x2c x00)) E)
(L (W x00 x00 x00 x00 x04 x00 x00 x00)))
(T (W x05 x68 x45 x71 x09 xce x24 x44)
(T (W x2c x00 x07 x00 x30 x00 x34 x00)
(L (W x00 x00 x00 x01 x26 x00 x00 x00)) E)
(L (W x2c x00 x00 x00 x00 x00 x00 x00)))))
(T (W x9a x99 x99 x3f xcd xcc x0c x40)
(T (W x01 x00 x00 x00 x44 x00 x00 x00)
(T (W x00 x00 x00 x3f x00 x00 x30 x41)
(T (W x39 x61 x45 x71 x09 xca x24 x44)
(L (W x30 x30 x5f x30 x30 x5f x30 x30)) E)
(L (W x01 x00 x00 x00 x02 x00 x00 x00)))
(T (W x04 x00 x00 x00 x00 x00 x00 x00)
(T (W x70 x6d x30 x30 x30 x30 x5f x30)
(L (W x35 x39 x5f x30 x30 x5f x34 x31)) E)
(L (W xbe xfc xff xff x00 x00 x00 x01))))
(T (W x02 x00 x00 x00 x03 x00 x00 x00)
(T (W x02 x00 x00 x00 xcd xcc xcc x3f)
(T (W xbd xbf x4c xc8 x17 x30 xef x62)
(L (W xc2 x13 xf0 x78 x0b x50 xf2 x0f)) E)
(L (W x01 x00 x00 x00 x02 x00 x00 x00)))
(T (W x03 x00 x00 x00 x0c x00 x00 x00)
(T (W x04 x00 x00 x00 x0a x00 x00 x00)
(L (W x5d x15 xea x78 x0b x63 xeb x0f)) E)
(L (W x0c x00 x00 x00 x70 x6d x30 x30))))))
(T (W x01 x00 x00 x00 x33 x33 x83 x40)
(T (W x03 x00 x00 x00 x0c x00 x00 x00)
(T (W x00 x00 x80 x3f x9a x99 xd9 x3f)
(T (W xbb xa7 xa1 x5a xaa x2e xd7 x83)
(T (W x0c x00 x00 x00 x70 x6d x30 x34)
(L (W x03 x00 x00 x00 x03 x00 x00 x00)) E)
(L (W xa4 xba x4c xc8 x17 x2d xef x62)))
(T (W x33 x33 x93 x3f x03 x00 x00 x00)
(T (W x02 x00 x00 x00 x40 x00 x00 x00)
(L (W x02 x00 x00 x00 x02 x00 x00 x00)) E)
(L (W x02 x00 x00 x00 xcd xcc x4c x3f))))
(T (W x02 x00 x00 x00 x03 x00 x00 x00)
(T (W x00 x00 x00 x00 x01 x00 x00 x00)
(T (W x04 x00 x00 x00 x0a x00 x00 x00)
(L (W x02 x00 x00 x00 x03 x00 x00 x00)) E)
(L (W xc2 x13 xf0 x78 x0b x50 xf2 x0f)))
(T (W x44 x00 x00 x00 x2c x00 x00 x00)
(T (W x0a xbe x4c xc8 x17 x2f xef x62)
(L (W x66 x66 xa6 x3f x01 x00 x00 x00)) E)
(L (W xc5 x07 xea x78 x0b x5b xeb x0f)))))
(T (W x3e xfe xff xff x00 x00 x00 x01)
(T (W x02 x00 x00 x00 x03 x00 x00 x00)
(T (W x00 x00 x38 x00 x32 x00 x00 x00)
(T (W x30 x30 x5f x30 x30 x5f x30 x30)
(L (W x02 x00 x00 x00 x02 x00 x00 x00)) E)
(L (W xc6 xce xff xff xdf x00 x00 x00)))
(T (W x02 x00 x00 x00 x66 x66 x66 x40)
(T (W x03 x00 x00 x00 x0c x00 x00 x00)
(L (W xbd xbf x4c xc8 x17 x30 xef x62)) E)
(L (W xa4 xba x4c xc8 x17 x2d xef x62))))
(T (W x0a xd7 xa3 x3d x9a x99 x19 x3f)
(T (W x9e x93 xff xff x00 x00 x00 x01)
(T (W x00 x00 x00 x00 xce xe3 xff xff)
(L (W x0c x00 x10 x00 x14 x00 x18 x00)) E)
(L (W x3c x00 x00 x00 x24 x00 x00 x00)))
(T (W x00 x00 x00 x00 x66 xa2 xff xff)
(L (W x04 x00 x00 x00 x00 x00 x00 x00))
(L (W x00 x00 x00 x01 x9d x00 x00 x00)))))))))
(T (W x20 x87 x00 x00 xa8 x86 x00 x00)
(T (W xb0 x77 x00 x00 x0c x77 x00 x00)
(T (W x70 x59 x00 x00 x04 x59 x00 x00)
(T (W x0c x1b x00 x00 x58 x1a x00 x00)
(T (W x01 x00 x00 x00 x00 x00 x00 x40)
(T (W x01 x00 x00 x00 x02 x00 x00 x00)
(T (W xbb xa7 xa1 x5a xaa x2e xd7 x83)
(T (W x01 x00 x00 x00 x02 x00 x00 x00)
(L (W x01 x00 x00 x00 x02 x00 x00 x00)) E)
(L (W x0a x00 x00 x00 x0a xd7 xa3 x3c)))
(T (W x01 x00 x00 x00 x02 x00 x00 x00)
(T (W x03 x00 x00 x00 x0c x00 x00 x00)
(L (W x02 x00 x00 x00 x33 x33 x33 x40)) E)
(L (W x7e xf7 xff xff x00 x00 x00 x01))))
(T (W x48 x00 x00 x00 x30 x00 x00 x00)
(T (W x05 x00 x00 x00 x44 x00 x00 x00)
(T (W x01 x00 x00 x00 x02 x00 x00 x00)
(L (W x70 x6d x30 x30 x30 x30 x5f x30)) E)
(L (W x03 x00 x00 x00 x0c x00 x00 x00)))
(T (W x0c x00 x10 x00 x14 x00 x18 x00)
(T (W x00 x00 x00 x00 x04 x00 x00 x00)
(L (W x24 x00 x00 x00 x28 x00 x00 x00)) E)
(L (W x2c x00 x07 x00 x30 x00 x00 x00)))))
(T (W xc8 x02 x00 x00 x00 x00 x80 x3f)
(T (W x04 x00 x00 x00 x0a x00 x00 x00)
(T (W x00 x00 x80 x3f x66 x66 x66 x3f)
(T (W x5d x15 xea x78 x0b x63 xeb x0f)
(L (W xbe xe7 xff xff x00 x00 x00 x01)) E)
(L (W x00 x00 x30 x00 x34 x00 x07 x00)))
(T (W x70 x6d x30 x30 x30 x30 x5f x30)
(T (W x30 x5f x30 x30 x00 x00 x00 x00)
(L (W x00 x00 x32 x00 x4c x00 x08 x00)) E)
(L (W x02 x00 x00 x00 x00 x00 x80 x3f))))
(T (W x48 x00 x00 x00 x30 x00 x00 x00)
(T (W x00 x00 x38 x00 x2e x00 x00 x00)
(T (W x9e x01 x00 x00 x01 x00 x00 x00)
(L (W x91 x0e xea x78 x0b x5f xeb x0f)) E)
(L (W x70 x6d x30 x30 x30 x30 x5f x30)))
(T (W x30 x5f x30 x30 x00 x00 x00 x00)
(T (W x01 x00 x00 x00 x33 x33 xb3 x3f)
(L (W x9a x99 x99 x3f x66 x66 x66 x3f)) E)
(L (W x28 x00 x00 x00 x04 x00 x00 x00))))))
(T (W x00 x00 x00 x00 x01 x00 x00 x00)
(T (W x40 x00 x00 x00 x28 x00 x00 x00)
(T (W x0c x00 x00 x00 x70 x6d x30 x36)
(T (W x00 x00 x80 x3f x33 x33 x93 x3f)
(T (W x76 xe4 xff xff x00 x00 x01 x01)
(L (W x28 x00 x00 x00 x04 x00 x00 x00)) E)
(L (W x04 x00 x00 x00 x00 x00 x00 x00)))
(T (W x0a xd7 x23 x3d x00 x00 x80 x3f)
(T (W x0a x00 x00 x00 x0a xd7 xa3 x3c)
(L (W x3c x00 x44 x00 x1c x00 x20 x00)) E)
(L (W xa4 xba x4c xc8 x17 x2d xef x62))))
(T (W x48 x00 x00 x00 x30 x00 x00 x00)
(T (W x04 x00 x00 x00 x0a x00 x00 x00)
(T (W x01 x00 x00 x00 x66 x66 x66 x3f)
(L (W x2e x00 x00 x00 x00 x00 x00 x01)) E)
(L (W x30 x5f x34 x31 x00 x00 x2e x00)))
(T (W x01 x00 x00 x00 x40 x00 x00 x00)
(T (W x04 x00 x00 x00 x00 x00 x00 x00)
(L (W x00 x00 x00 x00 x01 x00 x00 x00)) E)
(L (W x00 x00 x00 x00 x04 x00 x00 x00)))))
(T (W x9a x99 xd9 x3f x01 x00 x00 x00)
(T (W x30 x5f x30 x30 x00 x00 x00 x00)
(T (W x1c x00 x20 x00 x3c x00 x44 x00)
(T (W x01 x00 x00 x00 x00 x00 x80 x3f)
(L (W xcd xcc xcc x3f x01 x00 x00 x00)) E)
(L (W x02 x00 x00 x00 x9a x99 x99 x3f)))
(T (W x01 x00 x00 x00 x9a x99 x19 x40)
(T (W x01 x00 x00 x00 x02 x00 x00 x00)
(L (W x03 x00 x00 x00 x4c x00 x00 x00)) E)
(L (W x01 x00 x00 x00 x02 x00 x00 x00))))
(T (W x48 x00 x00 x00 x30 x00 x00 x00)
(T (W x03 x00 x00 x00 x03 x00 x00 x00)
(T (W x70 x6d x30 x30 x30 x30 x5f x30)
(L (W x02 x00 x00 x00 x40 x00 x00 x00)) E)
(L (W x02 x00 x00 x00 xcd xcc x4c x3f)))
(T (W xbd xbf x4c xc8 x17 x30 xef x62)
(L (W x00 x00 x00 x00 x04 x00 x00 x00))
(L (W xa4 xba x4c xc8 x17 x2d xef x62)))))))
(T (W x60 x3b x00 x00 xc4 x3a x00 x00)
(T (W x04 x00 x00 x00 x0a x00 x00 x00)
(T (W x0a x00 x00 x00 x8f xc2 xf5 x3c)
(T (W x00 x00 x2e x00 x4c x00 x08 x00)
(T (W x28 x00 x00 x00 x00 x00 x2c x00)
(T (W xbe xa4 xff xff x00 x00 x00 x01)
(L (W x26 xf4 xff xff x00 x00 x00 x01)) E)
(L (W x2c x00 x00 x00 x04 x00 x00 x00)))
(T (W x86 x98 xff xff xd5 x01 x00 x00)
(T (W x99 x01 x00 x00 x00 x00 x80 x3f)
(L (W x04 x00 x00 x00 x0a x00 x00 x00)) E)
(L (W x3c x00 x00 x00 x24 x00 x00 x00))))
(T (W x48 x00 x00 x00 x30 x00 x00 x00)
(T (W xbb xa7 xa1 x5a xaa x2e xd7 x83)
(T (W x00 x00 x00 x00 x26 xac xff xff)
(L (W x00 x00 x00 x00 x04 x00 x00 x00)) E)
(L (W x00 x00 x00 x01 xd8 x00 x00 x00)))
(T (W x30 x5f x30 x30 x00 x00 x00 x00)
(T (W x02 x00 x00 x00 x03 x00 x00 x00)
(L (W x70 x6d x30 x30 x34 x31 x5f x30)) E)
(L (W x01 x00 x00 x00 x02 x00 x00 x00)))))
(T (W x30 x30 x5f x30 x30 x5f x30 x30)
(T (W x00 x00 x0c x00 x10 x00 x14 x00)
(T (W x34 x00 x07 x00 x38 x00 x3c x00)
(T (W x70 x6d x30 x30 x30 x30 x5f x30)
(L (W x04 x00 x00 x00 x0a x00 x00 x00)) E)
(L (W xcd xcc x0c x40 x01 x00 x00 x00)))
(T (W xcc x01 x00 x00 x00 x00 x80 x3f)
(T (W x3c x00 x00 x00 x24 x00 x00 x00)
(L (W x0a x00 x00 x00 x0a xd7 x23 x3d)) E)
(L (W x02 x00 x00 x00 xcd xcc x4c x3f))))
(T (W x48 x00 x00 x00 x30 x00 x00 x00)
(T (W x70 x6d x30 x34 x37 x39 x5f x31)
(T (W x2e x00 x00 x00 x9d x01 x00 x00)
(L (W x00 x00 x00 x00 x00 x00 x34 x00)) E)
(L (W x02 x00 x00 x00 x00 x00 x80 x3f)))
(T (W x02 x00 x00 x00 x40 x00 x00 x00)
(T (W x01 x00 x00 x00 x02 x00 x00 x00)
(L (W x00 x00 x28 x00 x2c x00 x07 x00)) E)
(L (W x40 x00 x00 x00 x28 x00 x00 x00))))))
(T (W x0c x00 x00 x00 x70 x6d x31 x30)
(T (W x03 x00 x00 x00 x05 x00 x00 x00)
(T (W xa4 xba x4c xc8 x17 x2d xef x62)
(T (W x00 x00 x38 x00 x2e x00 x00 x00)
(T (W x40 x00 x00 x00 x28 x00 x00 x00)
(L (W xa4 xba x4c xc8 x17 x2d xef x62)) E)
(L (W x5e xc7 xff xff x00 x00 x00 x01)))
(T (W xbd xbf x4c xc8 x17 x30 xef x62)
(T (W x04 x00 x00 x00 x00 x00 x00 x00)
(L (W x44 x00 x08 x00 x00 x00 x00 x00)) E)
(L (W x70 x6d x30 x32 x30 x31 x5f x30))))
(T (W x48 x00 x00 x00 x30 x00 x00 x00)
(T (W x00 x00 x80 x3f xcd xcc x6c x40)
(T (W x00 x00 x00 x00 x01 x00 x00 x00)
(L (W x03 x00 x00 x00 x04 x00 x00 x00)) E)
(L (W x70 x6d x30 x30 x30 x30 x5f x30)))
(T (W x00 x00 x00 x00 x0c x00 x10 x00)
(T (W x30 x5f x30 x30 x00 x00 x00 x00)
(L (W xa4 xba x4c xc8 x17 x2d xef x62)) E)
(L (W x30 x5f x30 x30 x00 x00 x00 x00)))))
(T (W x02 x00 x00 x00 x00 x00 x40 x40)
(T (W x48 x00 x00 x00 x30 x00 x00 x00)
(T (W x0c x00 x00 x00 x70 x6d x30 x34)
(T (W x0a x00 x00 x00 x0a xd7 x23 x3c)
(L (W x4c x00 x08 x00 x00 x00 x00 x00)) E)
(L (W x9a x99 x99 x3f x66 x66 xe6 x3f)))
(T (W x0c x00 x00 x00 x70 x6d x30 x30)
(T (W x02 x00 x00 x00 x04 x00 x00 x00)
(L (W xbe xfa xff xff x00 x00 x00 x01)) E)
(L (W x7e xfe xff xff x00 x00 x00 x01))))
(T (W x38 x00 x00 x00 x00 x00 x3c x00)
(T (W x02 x00 x00 x00 xcd xcc xcc x3f)
(T (W x02 x00 x00 x00 x9a x99 x19 x3f)
(L (W xa7 x1f xf0 x78 x0b x57 xf2 x0f)) E)
(L (W x01 x00 x00 x00 x02 x00 x00 x00)))
(T (W x9a x99 x99 x3f x66 x66 x66 x3f)
(L (W x86 xc6 xff xff x53 x01 x00 x00))
(L (W x91 x0e xea x78 x0b x5f xeb x0f))))))))
(T (W xb4 x68 x00 x00 x14 x68 x00 x00)
(T (W x80 x4a x00 x00 xe4 x49 x00 x00)
(T (W x54 x0a x00 x00 xdc x09 x00 x00)
(T (W x03 x00 x00 x00 x40 x00 x00 x00)
(T (W x0c x00 x00 x00 x70 x6d x30 x36)
(T (W x02 x00 x00 x00 x05 x00 x00 x00)
(T (W x70 x6d x30 x34 x33 x36 x5f x30)
(L (W x70 x6d x30 x30 x30 x30 x5f x30)) E)
(L (W xd3 x5d x45 x71 x09 xc8 x24 x44)))
(T (W x70 x6d x30 x30 x30 x30 x5f x30)
(T (W x30 x5f x30 x30 x00 x00 x00 x00)
(L (W x01 x00 x00 x00 x01 x00 x00 x00)) E)
(L (W x02 x00 x00 x00 x00 x00 x80 x3f))))
(T (W x48 x00 x00 x00 x30 x00 x00 x00)
(T (W x04 x00 x00 x00 x0a x00 x00 x00)
(T (W x00 x00 x30 x00 x34 x00 x07 x00)
(L (W x54 x00 x08 x00 x0c x00 x10 x00)) E)
(L (W x30 x5f x30 x30 x00 x00 x00 x00)))
(T (W x03 x00 x00 x00 x0c x00 x00 x00)
(T (W x00 x00 x00 x00 x01 x00 x00 x00)
(L (W x00 x00 x00 x00 x08 x00 x0c x00)) E)
(L (W x00 x00 x2e x00 x48 x00 x08 x00)))))
(T (W x00 x00 x28 x00 x2c x00 x00 x00)
(T (W x2e x00 x00 x00 x00 x00 x00 x01)
(T (W x05 x00 x00 x00 x44 x00 x00 x00)
(T (W x04 x00 x00 x00 x00 x00 x00 x00)
(L (W x66 x66 xe6 x3f x02 x00 x00 x00)) E)
(L (W x00 x00 x00 x00 xa6 xc7 xff xff)))
(T (W x00 x00 x00 x00 x8e xfc xff xff)
(T (W x00 x00 x00 x01 x91 x01 x00 x00)
(L (W x04 x00 x00 x00 x00 x00 x00 x00)) E)
(L (W x3c x00 x00 x00 x24 x00 x00 x00))))
(T (W x48 x00 x00 x00 x30 x00 x00 x00)
(T (W x10 x00 x14 x00 x00 x00 x18 x00)
(T (W x40 x00 x00 x00 x28 x00 x00 x00)
(L (W x02 x00 x00 x00 x02 x00 x00 x00)) E)
(L (W x00 x00 x00 x00 x86 xd9 xff xff)))
(T (W xbc x01 x00 x00 x00 x00 x80 x3f)
(T (W xbd xbf x4c xc8 x17 x30 xef x62)
(L (W x66 x66 x06 x40 x01 x00 x00 x00)) E)
(L (W x00 x00 x80 x3f x66 x66 xa6 x3f))))))
(T (W x02 x00 x00 x00 x03 x00 x00 x00)
(T (W x02 x00 x00 x00 x00 x00 x80 x3f)
(T (W x39 xfa xec x78 x0b xca xee x0f)
(T (W x44 x00 x00 x00 x2c x00 x00 x00)
(T (W x00 x00 x80 x3f x00 x00 x20 x40)
(L (W x9a x99 x99 x3f x33 x33 xb3 x3f)) E)
(L (W x03 x00 x00 x00 x0c x00 x00 x00)))
(T (W xec x51 x38 x3e x00 x00 xa0 x40)
(T (W x52 xff xec x78 x0b xcd xee x0f)
(L (W x0c x00 x00 x00 x70 x6d x30 x30)) E)
(L (W x01 x00 x00 x00 x02 x00 x00 x00))))
(T (W x48 x00 x00 x00 x30 x00 x00 x00)
(T (W x02 x00 x00 x00 x00 x00 x00 x40)
(T (W xa4 xba x4c xc8 x17 x2d xef x62)
(L (W x5f x00 x00 x00 x00 x00 x80 x3f)) E)
(L (W x01 x00 x00 x00 x02 x00 x00 x00)))
(T (W x34 x00 x38 x00 x2e x00 x00 x00)
(T (W x03 x00 x00 x00 x0c x00 x00 x00)
(L (W x9a x99 x99 x3f x66 x66 x66 x3f)) E)
(L (W x03 x00 x00 x00 x0c x00 x00 x00)))))
(T (W x40 x00 x00 x00 x28 x00 x00 x00)
(T (W x00 x00 x00 x40 x02 x00 x00 x00)
(T (W x02 x00 x00 x00 x03 x00 x00 x00)
(T (W x02 x00 x00 x00 x40 x00 x00 x00)
(L (W x00 x00 x30 x00 x34 x00 x07 x00)) E)
(L (W x04 x00 x00 x00 x00 x00 x00 x00)))
(T (W x04 x00 x00 x00 x00 x00 x00 x00)
(T (W x30 x5f x30 x30 x00 x00 x00 x00)
(L (W x24 x00 x00 x00 x28 x00 x2c x00)) E)
(L (W x70 x6d x30 x32 x30 x31 x5f x30))))
(T (W x48 x00 x00 x00 x30 x00 x00 x00)
(T (W x04 x00 x00 x00 x0a x00 x00 x00)
(T (W x04 x00 x00 x00 x00 x00 x00 x00)
(L (W x0a x00 x00 x00 x0a xd7 x23 x3d)) E)
(L (W xa4 xba x4c xc8 x17 x2d xef x62)))
(T (W x28 x00 x00 x00 x04 x00 x00 x00)
(L (W x03 x00 x00 x00 x0c x00 x00 x00))
(L (W x0a x00 x00 x00 x0a xd7 x23 x3c)))))))
(T (W x34 x2c x00 x00 xbc x2b x00 x00)
(T (W xbb xa7 xa1 x5a xaa x2e xd7 x83)
(T (W xd4 x02 x00 x00 x01 x00 x00 x00)
(T (W x00 x00 x00 x00 x01 x00 x00 x00)
(T (W x4e xe3 xff xff x00 x00 x00 x01)
(T (W x2c x00 x34 x00 x14 x00 x18 x00)
(L (W xcd xcc xcc x3f x01 x00 x00 x00)) E)
(L (W x9a x99 x99 x3f x00 x00 x80 x3f)))
(T (W x40 x00 x00 x00 x28 x00 x00 x00)
(T (W x02 x00 x00 x00 x40 x00 x00 x00)
(L (W x00 x00 x00 x01 x43 x00 x00 x00)) E)
(L (W x02 x00 x00 x00 xcd xcc x4c x3f))))
(T (W x48 x00 x00 x00 x30 x00 x00 x00)
(T (W x40 x00 x00 x00 x28 x00 x00 x00)
(T (W x01 x00 x00 x00 x02 x00 x00 x00)
(L (W x2c x00 x00 x00 x04 x00 x00 x00)) E)
(L (W x1c x00 x20 x00 x00 x00 x24 x00)))
(T (W xc2 x01 x00 x00 x00 x00 x80 x3f)
(T (W x5d x15 xea x78 x0b x63 xeb x0f)
(L (W xbd xbf x4c xc8 x17 x30 xef x62)) E)
(L (W xbb xa7 xa1 x5a xaa x2e xd7 x83)))))
(T (W x3e x71 xff xff x00 x00 x00 x01)
(T (W x02 x00 x00 x00 x03 x00 x00 x00)
(T (W xf6 xc7 xff xff x00 x00 x01 x01)
(T (W x00 x00 x00 x01 xa8 x01 x00 x00)
(L (W xcd xcc x4c x3e xcd xcc x0c x40)) E)
(L (W x28 x00 x00 x00 x04 x00 x00 x00)))
(T (W x01 x00 x00 x00 x40 x00 x00 x00)
(T (W x5d x15 xea x78 x0b x63 xeb x0f)
(L (W x9a x99 x99 x3f x66 x66 xa6 x3f)) E)
(L (W xa4 xba x4c xc8 x17 x2d xef x62))))
(T (W x48 x00 x00 x00 x30 x00 x00 x00)
(T (W x00 x00 x00 x00 x86 x9a xff xff)
(T (W x18 x00 x1c x00 x38 x00 x40 x00)
(L (W x4e x00 x00 x00 x00 x00 x80 x3f)) E)
(L (W x3c x00 x00 x00 x24 x00 x00 x00)))
(T (W x0a x00 x00 x00 x0a xd7 x23 x3c)
(L (W x30 x30 x5f x30 x30 x5f x30 x30))
(L (W x9a x99 x99 x3f x33 x33 x33 x3f))))))
(T (W xde x6b xff xff x00 x00 x00 x01)
(T (W x00 x00 x38 x00 x2e x00 x00 x00)
(T (W x00 x00 x00 x00 x01 x00 x00 x00)
(T (W xe8 x01 x00 x00 x01 x00 x00 x00)
(T (W x02 x00 x00 x00 x00 x00 xc0 x3f)
(L (W x03 x00 x00 x00 x0c x00 x00 x00)) E)
(L (W x00 x00 x80 x3f xcd xcc x8c x40)))
(T (W x01 x00 x00 x00 x02 x00 x00 x00)
(T (W x03 x00 x00 x00 x0c x00 x00 x00)
(L (W x03 x00 x00 x00 x0c x00 x00 x00)) E)
(L (W xfe xfa xff xff x00 x00 x00 x01))))
(T (W x48 x00 x00 x00 x30 x00 x00 x00)
(T (W x01 x00 x00 x00 x04 x00 x00 x00)
(T (W x30 x30 x5f x30 x30 x5f x30 x30)
(L (W x04 x00 x00 x00 x0a x00 x00 x00)) E)
(L (W x0c x00 x10 x00 x14 x00 x18 x00)))
(T (W x03 x00 x00 x00 x0c x00 x00 x00)
(T (W x02 x00 x00 x00 x02 x00 x00 x00)
(L (W x00 x00 x00 x00 x01 x00 x00 x00)) E)
(L (W x00 x00 x80 x3f x00 x00 xc0 x3f)))))
(T (W xbb xa7 xa1 x5a xaa x2e xd7 x83)
(T (W x48 x00 x00 x00 x30 x00 x00 x00)
(T (W xbb xa7 xa1 x5a xaa x2e xd7 x83)
(T (W x86 xf8 xec x78 x0b xc9 xee x0f)
(L (W x01 x00 x00 x00 x02 x00 x00 x00)) E)
(L (W x04 x00 x00 x00 x00 x00 x00 x00)))
(T (W x00 x00 x00 x00 x8e xff xff xff)
(T (W x01 x00 x00 x00 xcd xcc x8c x3f)
(L (W x00 x00 x20 x40 x01 x00 x00 x00)) E)
(L (W x02 x00 x00 x00 x00 x00 x80 x3f))))
(T (W x39 x33 x5f x31 x33 x5f x30 x30)
(T (W x0a xbe x4c xc8 x17 x2f xef x62)
(T (W xa4 xba x4c xc8 x17 x2d xef x62)
(L (W x40 x00 x00 x00 x28 x00 x00 x00)) E)
(L (W x70 x6d x30 x32 x30 x31 x5f x30)))
(T (W xa4 xba x4c xc8 x17 x2d xef x62)
(L (W x03 x00 x00 x00 x40 x00 x00 x00))
(L (W x0a xbe x4c xc8 x17 x2f xef x62))))))))))
(T (W x14 x94 x00 x00 x74 x93 x00 x00)
(T (W x6c x8b x00 x00 xf8 x8a x00 x00)
(T (W x70 x7b x00 x00 x00 x7b x00 x00)
(T (W x20 x5d x00 x00 xb4 x5c x00 x00)
(T (W x98 x1f x00 x00 x20 x1f x00 x00)
(T (W x0c x00 x00 x00 x70 x6d x30 x30)
(T (W x02 x00 x00 x00 x00 x00 x40 x40)
(T (W x44 x00 x00 x00 x2c x00 x00 x00)
(T (W x02 x00 x00 x00 x00 x00 x80 x40)
(L (W x9a x99 x99 x3f x00 x00 x00 x40)) E)
(L (W x2b x01 x00 x00 x00 x00 x80 x3f)))
(T (W x02 x00 x00 x00 x00 x00 x80 x40)
(T (W x90 x09 xf0 x78 x0b x4a xf2 x0f)
(L (W x00 x00 x80 x3f x00 x00 x00 x40)) E)
(L (W x01 x00 x00 x00 x02 x00 x00 x00))))
(T (W x00 x00 x00 x01 xed x01 x00 x00)
(T (W x00 x00 x38 x00 x2e x00 x00 x00)
(T (W x38 x00 x07 x00 x00 x00 x3c x00)
(L (W xa4 xba x4c xc8 x17 x2d xef x62)) E)
(L (W xec xfb xec x78 x0b xcb xee x0f)))
(T (W x03 x00 x00 x00 x0c x00 x00 x00)
(T (W x04 x00 x00 x00 x0a x00 x00 x00)
(L (W x00 x00 x2e x00 x44 x00 x04 x00)) E)
(L (W x00 x00 x2e x00 x4c x00 x08 x00)))))
(T (W x03 x00 x00 x00 x0c x00 x00 x00)
(T (W x02 x00 x00 x00 x01 x00 x00 x00)
(T (W x38 x38 x5f x30 x30 x5f x30 x30)
(T (W x48 x00 x00 x00 x30 x00 x00 x00)
(L (W x01 x00 x00 x00 x02 x00 x00 x00)) E)
(L (W x50 x00 x08 x00 x00 x00 x0c x00)))
(T (W x0a xbe x4c xc8 x17 x2f xef x62)
(T (W x04 x00 x00 x00 x00 x00 x00 x00)
(L (W x00 x00 x00 x00 x01 x00 x00 x00)) E)
(L (W x70 x6d x30 x32 x30 x31 x5f x30))))
(T (W x00 x00 x00 x01 xed x01 x00 x00)
(T (W x14 x00 x18 x00 x1c x00 x20 x00)
(T (W x02 x00 x00 x00 x03 x00 x00 x00)
(L (W x01 x00 x00 x00 x01 x00 x00 x00)) E)
(L (W xa4 xba x4c xc8 x17 x2d xef x62)))
(T (W x04 x00 x00 x00 x00 x00 x00 x00)
(T (W x00 x00 x80 x3f xcd xcc xac x3f)
(L (W x66 x66 xe6 x3f x01 x00 x00 x00)) E)
(L (W x00 x00 x00 x00 x06 xdf xff xff))))))
(T (W x01 x00 x00 x00 x9a x99 x39 x40)
(T (W x30 x5f x34 x31 x00 x00 x00 x00)
(T (W xa4 xba x4c xc8 x17 x2d xef x62)
(T (W x70 x6d x30 x30 x30 x30 x5f x30)
(T (W x01 x00 x00 x00 x02 x00 x00 x00)
(L (W x9e xe5 xff xff x00 x00 x00 x01)) E)
(L (W x04 x00 x00 x00 x0a x00 x00 x00)))
(T (W x00 x00 x80 x3f x66 x66 xe6 x3f)
(T (W x97 x01 x00 x00 x00 x00 x80 x3f)
(L (W x70 x6d x30 x30 x30 x30 x5f x30)) E)
(L (W x3c x00 x00 x00 x24 x00 x00 x00))))
(T (W x00 x00 x00 x01 xed x01 x00 x00)
(T (W x05 x00 x00 x00 x02 x00 x00 x00)
(T (W xa2 x01 x00 x00 x00 x00 x80 x3f)
(L (W x1c x00 x20 x00 x40 x00 x48 x00)) E)
(L (W x04 x00 x00 x00 x00 x00 x00 x00)))
(T (W x30 x5f x30 x30 x00 x00 x00 x00)
(T (W x0a x00 x00 x00 x8f xc2 xf5 x3c)
(L (W x00 x00 x80 x3f x66 x66 x26 x40)) E)
(L (W x04 x00 x00 x00 x0a x00 x00 x00)))))
(T (W x70 x6d x30 x30 x30 x30 x5f x30)
(T (W x04 x00 x00 x00 x00 x00 x00 x00)
(T (W x0c x00 x00 x00 x70 x6d x30 x34)
(T (W x0c x00 x00 x00 x70 x6d x30 x30)
(L (W x28 x00 x06 x00 x00 x00 x2c x00)) E)
(L (W x00 x00 x80 x3f x00 x00 x00 x40)))
(T (W x00 x00 x80 x3f x00 x00 x00 x40)
(T (W x02 x00 x00 x00 x00 x00 x40 x40)
(L (W x28 x00 x2c x00 x30 x00 x00 x00)) E)
(L (W x02 x00 x00 x00 xcd xcc x4c x3f))))
(T (W x00 x00 x00 x01 xed x01 x00 x00)
(T (W x70 x6d x30 x34 x37 x37 x5f x30)
(T (W xbd xbf x4c xc8 x17 x30 xef x62)
(L (W x30 x5f x30 x30 x00 x00 x00 x00)) E)
(L (W x02 x00 x00 x00 x00 x00 x80 x3f)))
(T (W x40 x00 x00 x00 x28 x00 x00 x00)
(L (W x0a x00 x00 x00 x0a xd7 x23 x3d))
(L (W x28 x00 x00 x00 x04 x00 x00 x00)))))))
(T (W x20 x3f x00 x00 xb8 x3e x00 x00)
(T (W x89 x03 x00 x00 x01 x00 x00 x00)
(T (W x83 x03 x00 x00 x00 x00 x80 x3f)
(T (W x00 x00 x00 x00 x01 x00 x00 x00)
(T (W x00 x00 x2e x00 x48 x00 x04 x00)
(T (W x01 x00 x00 x00 x02 x00 x00 x00)
(L (W x01 x00 x00 x00 x02 x00 x00 x00)) E)
(L (W x00 x00 x30 x00 x2e x00 x00 x00)))
(T (W x01 x00 x00 x00 x02 x00 x00 x00)
(T (W x03 x00 x00 x00 x0c x00 x00 x00)
(L (W x00 x00 x00 x01 x44 x00 x00 x00)) E)
(L (W x5e xf8 xff xff x00 x00 x00 x01))))
(T (W x00 x00 x00 x01 xed x01 x00 x00)
(T (W x5c x8f x02 x40 x04 x00 x00 x00)
(T (W x00 x00 x00 x00 x01 x00 x00 x00)
(L (W x0a x00 x00 x00 x8f xc2 xf5 x3c)) E)
(L (W x02 x00 x00 x00 x03 x00 x00 x00)))
(T (W x04 x00 x00 x00 x00 x00 x00 x00)
(T (W xaa x13 xea x78 x0b x62 xeb x0f)
(L (W xa4 xba x4c xc8 x17 x2d xef x62)) E)
(L (W x02 x00 x00 x00 xcd xcc x4c x3f)))))
(T (W x00 x00 x00 x00 x04 x00 x00 x00)
(T (W x02 x00 x00 x00 x03 x00 x00 x00)
(T (W x00 x00 x0c x00 x10 x00 x14 x00)
(T (W xbd xbf x4c xc8 x17 x30 xef x62)
(L (W xfe xec xff xff x7b x00 x00 x00)) E)
(L (W x70 x6d x30 x30 x30 x30 x5f x30)))
(T (W x03 x00 x00 x00 x0c x00 x00 x00)
(T (W x30 x5f x30 x30 x00 x00 x00 x00)
(L (W x01 x00 x00 x00 x00 x00 x80 x3f)) E)
(L (W x02 x00 x00 x00 x00 x00 x80 x3f))))
(T (W x00 x00 x00 x01 xed x01 x00 x00)
(T (W xbd xbf x4c xc8 x17 x30 xef x62)
(T (W x18 x00 x1c x00 x38 x00 x40 x00)
(L (W x00 x00 x0c x00 x10 x00 x14 x00)) E)
(L (W x70 x6d x30 x32 x30 x37 x5f x30)))
(T (W x30 x5f x30 x30 x00 x00 x00 x00)
(T (W x9a x99 x99 x3f x00 x00 x80 x3f)
(L (W x44 x00 x08 x00 x00 x00 x00 x00)) E)
(L (W x24 x00 x00 x00 x00 x00 x00 x00))))))
(T (W xbd xbf x4c xc8 x17 x30 xef x62)
(T (W x00 x00 x30 x00 x34 x00 x07 x00)
(T (W x2c x00 x00 x00 x04 x00 x00 x00)
(T (W x10 x00 x14 x00 x00 x00 x18 x00)
(T (W x00 x00 x00 x00 xa6 xb2 xff xff)
(L (W x28 x00 x00 x00 x04 x00 x00 x00)) E)
(L (W x01 x00 x00 x00 x02 x00 x00 x00)))
(T (W x28 x00 x00 x00 x04 x00 x00 x00)
(T (W x0a x00 x00 x00 x8f xc2 xf5 x3c)
(L (W x01 x00 x00 x00 x02 x00 x00 x00)) E)
(L (W xa4 xba x4c xc8 x17 x2d xef x62))))
(T (W x00 x00 x00 x01 xed x01 x00 x00)
(T (W x34 x00 x00 x00 x00 x00 x00 x00)
(T (W x02 x00 x00 x00 x66 x66 x66 x40)
(L (W x30 x30 x5f x30 x30 x5f x30 x30)) E)
(L (W xbd xbf x4c xc8 x17 x30 xef x62)))
(T (W x02 x00 x00 x00 x03 x00 x00 x00)
(T (W x04 x00 x00 x00 x00 x00 x00 x00)
(L (W x28 x00 x00 x00 x04 x00 x00 x00)) E)
(L (W x04 x00 x00 x00 x00 x00 x00 x00)))))
(T (W x00 x00 x80 x3f x66 x66 xa6 x3f)
(T (W x00 x00 x00 x01 xed x01 x00 x00)
(T (W xbb xa7 xa1 x5a xaa x2e xd7 x83)
(T (W xa6 x01 x00 x00 x01 x00 x00 x00)
(L (W x01 x00 x00 x00 x02 x00 x00 x00)) E)
(L (W x00 x00 x20 x40 x02 x00 x00 x00)))
(T (W xa4 xba x4c xc8 x17 x2d xef x62)
(T (W x70 x6d x30 x30 x30 x30 x5f x30)
(L (W x01 x00 x00 x00 x02 x00 x00 x00)) E)
(L (W x01 x00 x00 x00 x02 x00 x00 x00))))
(T (W x0c x00 x10 x00 x14 x00 x18 x00)
(T (W x00 x00 x80 x3f x00 x00 x00 x40)
(T (W x00 x00 x80 x3f x00 x00 xa0 x40)
(L (W x02 x00 x00 x00 x40 x00 x00 x00)) E)
(L (W x02 x00 x00 x00 xcd xcc x4c x3f)))
(T (W x00 x00 x00 x40 x01 x00 x00 x00)
(L (W x01 x00 x00 x00 x02 x00 x00 x00))
(L (W x02 x00 x00 x00 x04 x00 x00 x00))))))))
(T (W x70 x6c x00 x00 xfc x6b x00 x00)
(T (W x98 x4e x00 x00 x24 x4e x00 x00)
(T (W x5c x0e x00 x00 xdc x0d x00 x00)
(T (W x30 x5f x30 x30 x00 x00 x00 x00)
(T (W xbb xa7 xa1 x5a xaa x2e xd7 x83)
(T (W x00 x00 x38 x00 x00 x00 x3c x00)
(T (W xa4 xba x4c xc8 x17 x2d xef x62)
(L (W xa4 xba x4c xc8 x17 x2d xef x62)) E)
(L (W x03 x00 x00 x00 x40 x00 x00 x00)))
(T (W xbd xbf x4c xc8 x17 x30 xef x62)
(T (W x04 x00 x00 x00 x00 x00 x00 x00)
(L (W x2c x00 x00 x00 x00 x00 x00 x00)) E)
(L (W x70 x6d x30 x32 x30 x31 x5f x30))))
(T (W x00 x00 x00 x01 xed x01 x00 x00)
(T (W x00 x00 x00 x01 xe2 x01 x00 x00)
(T (W x50 x00 x08 x00 x00 x00 x00 x00)
(L (W x01 x00 x00 x00 x02 x00 x00 x00)) E)
(L (W x04 x00 x00 x00 x00 x00 x00 x00)))
(T (W x52 x66 x45 x71 x09 xcd x24 x44)
(T (W x9a x99 x19 x3e x33 x33 x33 x40)
(L (W x02 x00 x00 x00 x03 x00 x00 x00)) E)
(L (W x00 x00 x00 x00 x01 x00 x00 x00)))))
(T (W x30 x5f x30 x30 x00 x00 x2e x00)
(T (W x00 x00 x1c x00 x40 x00 x48 x00)
(T (W x00 x00 x00 x00 xae xfc xff xff)
(T (W x0a x00 x00 x00 x0a xd7 xa3 x3c)
(L (W x70 x6d x30 x30 x30 x30 x5f x30)) E)
(L (W x00 x00 x00 x00 x01 x00 x00 x00)))
(T (W x00 x00 x00 x00 x01 x00 x00 x00)
(T (W x02 x00 x00 x00 x03 x00 x00 x00)
(L (W x0a x00 x00 x00 x0a xd7 x23 x3d)) E)
(L (W xde xfb xff xff x00 x00 x00 x01))))
(T (W x00 x00 x00 x01 xed x01 x00 x00)
(T (W x03 x00 x00 x00 x0c x00 x00 x00)
(T (W x30 x5f x30 x30 x00 x00 x00 x00)
(L (W x00 x00 x00 x00 x00 x00 x34 x00)) E)
(L (W x00 x00 x00 x00 x01 x00 x00 x00)))
(T (W x03 x00 x00 x00 x0c x00 x00 x00)
(T (W x3c x00 x00 x00 x24 x00 x00 x00)
(L (W x28 x00 x00 x00 x00 x00 x2c x00)) E)
(L (W x00 x00 x00 x40 x01 x00 x00 x00))))))
(T (W x75 x15 xf0 x78 x0b x51 xf2 x0f)
(T (W x00 x00 x80 x3f x00 x00 x40 x40)
(T (W x48 x00 x00 x00 x30 x00 x00 x00)
(T (W x00 x00 x00 x00 x8e xff xff xff)
(T (W x0c x00 x00 x00 x70 x6d x30 x34)
(L (W x9a x99 xd9 x3f x01 x00 x00 x00)) E)
(L (W x9f x64 x45 x71 x09 xcc x24 x44)))
(T (W x03 x00 x00 x00 x04 x00 x00 x00)
(T (W x02 x00 x00 x00 x40 x00 x00 x00)
(L (W xa4 xba x4c xc8 x17 x2d xef x62)) E)
(L (W x02 x00 x00 x00 xcd xcc x4c x3f))))
(T (W x00 x00 x00 x01 xed x01 x00 x00)
(T (W x00 x00 x80 x3f x00 x00 x80 x40)
(T (W x28 x00 x00 x00 x04 x00 x00 x00)
(L (W x03 x00 x00 x00 x0c x00 x00 x00)) E)
(L (W x9a x99 x99 x3f x66 x66 x66 x3f)))
(T (W x0c x00 x10 x00 x14 x00 x18 x00)
(T (W xaa x13 xea x78 x0b x62 xeb x0f)
(L (W x00 x00 x80 x3f x33 x33 xf3 x3f)) E)
(L (W x05 x01 xed x78 x0b xce xee x0f)))))
(T (W x5e xfd xff xff x00 x00 x00 x01)
(T (W x0c x00 x00 x00 x70 x6d x30 x30)
(T (W xbb xa7 xa1 x5a xaa x2e xd7 x83)
(T (W x30 x5f x30 x30 x00 x00 x00 x00)
(L (W x4c x00 x08 x00 x00 x00 x0c x00)) E)
(L (W x04 x00 x00 x00 x0a x00 x00 x00)))
(T (W x04 x00 x00 x00 x0a x00 x00 x00)
(T (W x04 x00 x00 x00 x00 x00 x00 x00)
(L (W x00 x00 x2e x00 x48 x00 x04 x00)) E)
(L (W xa4 xba x4c xc8 x17 x2d xef x62))))
(T (W x00 x00 x00 x01 xed x01 x00 x00)
(T (W x00 x00 x01 x01 xdb x01 x00 x00)
(T (W x04 x00 x00 x00 x0a x00 x00 x00)
(L (W x4c x00 x00 x00 x00 x00 x80 x3f)) E)
(L (W x3c x00 x00 x00 x24 x00 x00 x00)))
(T (W x2e x00 x00 x00 x00 x00 x00 x01)
(L (W x43 x0b xf0 x78 x0b x4b xf2 x0f))
(L (W x00 x00 x00 x01 xac x00 x00 x00)))))))
(T (W xd0 x2f x00 x00 x5c x2f x00 x00)
(T (W x01 x00 x00 x00 x04 x00 x00 x00)
(T (W x20 x00 x24 x00 x00 x00 x28 x00)
(T (W x02 x00 x00 x00 x66 x66 x86 x40)
(T (W x01 x00 x00 x00 x02 x00 x00 x00)
(T (W x70 x6d x30 x30 x30 x30 x5f x30)
(L (W x70 x6d x30 x31 x33 x37 x5f x30)) E)
(L (W x00 x00 x80 x3f x66 x66 x26 x40)))
(T (W x30 x5f x30 x30 x00 x00 x00 x00)
(T (W x30 x5f x30 x30 x00 x00 x00 x00)
(L (W x3c x00 x44 x00 x1c x00 x20 x00)) E)
(L (W x02 x00 x00 x00 x00 x00 x80 x3f))))
(T (W x00 x00 x00 x01 xed x01 x00 x00)
(T (W x00 x00 x00 x00 x00 x00 x2c x00)
(T (W x70 x6d x30 x30 x30 x30 x5f x30)
(L (W x65 x00 x00 x00 x01 x00 x00 x00)) E)
(L (W x30 x30 x5f x30 x30 x5f x30 x30)))
(T (W x03 x00 x00 x00 x0c x00 x00 x00)
(T (W x44 x00 x00 x00 x2c x00 x00 x00)
(L (W x28 x00 x00 x00 x04 x00 x00 x00)) E)
(L (W x9a x99 xd9 x3f x02 x00 x00 x00)))))
(T (W x01 x00 x00 x00 x02 x00 x00 x00)
(T (W x90 x09 xf0 x78 x0b x4a xf2 x0f)
(T (W x01 x00 x00 x00 x02 x00 x00 x00)
(T (W x02 x00 x00 x00 x03 x00 x00 x00)
(L (W x01 x00 x00 x00 x03 x00 x00 x00)) E)
(L (W x1e xc9 xff xff x00 x00 x00 x01)))
(T (W x30 x5f x30 x30 x00 x00 x00 x00)
(T (W x01 x00 x00 x00 x01 x00 x00 x00)
(L (W x00 x00 x00 x40 x01 x00 x00 x00)) E)
(L (W x3c x00 x00 x00 x24 x00 x00 x00))))
(T (W x00 x00 x00 x01 xed x01 x00 x00)
(T (W x00 x00 x00 x00 x01 x00 x00 x00)
(T (W x0c x00 x00 x00 x70 x6d x30 x30)
(L (W x03 x00 x00 x00 x0c x00 x00 x00)) E)
(L (W xde xf4 xff xff x00 x00 x00 x01)))
(T (W xba x01 x00 x00 x00 x00 x80 x3f)
(T (W x00 x00 x00 x00 x04 x00 x00 x00)
(L (W x03 x00 x00 x00 x0c x00 x00 x00)) E)
(L (W x00 x00 x80 x3f x33 x33 x33 x40))))))
(T (W x01 x00 x00 x00 x02 x00 x00 x00)
(T (W x10 x00 x14 x00 x18 x00 x1c x00)
(T (W x01 x00 x00 x00 x00 x00 xc0 x3f)
(T (W x03 x00 x00 x00 x0c x00 x00 x00)
(T (W x00 x00 x80 x3f x00 x00 x20 x40)
(L (W x20 x5c x45 x71 x09 xc7 x24 x44)) E)
(L (W x0c x00 x00 x00 x70 x6d x30 x30)))
(T (W x00 x00 x80 x3f x00 x00 xe0 x40)
(T (W xf7 x11 xea x78 x0b x61 xeb x0f)
(L (W x39 xfa xec x78 x0b xca xee x0f)) E)
(L (W x01 x00 x00 x00 x02 x00 x00 x00))))
(T (W x00 x00 x00 x01 xed x01 x00 x00)
(T (W x00 x00 x00 x00 x8e xff xff xff)
(T (W x00 x00 x00 x00 x04 x00 x00 x00)
(L (W x00 x00 x00 x01 x5d x00 x00 x00)) E)
(L (W x03 x00 x00 x00 x0c x00 x00 x00)))
(T (W xd1 x07 xed x78 x0b xd2 xee x0f)
(T (W x70 x6d x30 x30 x30 x30 x5f x30)
(L (W x00 x00 x80 x3f xcd xcc x0c x40)) E)
(L (W x03 x00 x00 x00 x0c x00 x00 x00)))))
(T (W x40 x00 x00 x00 x28 x00 x00 x00)
(T (W x00 x00 x00 x01 xed x01 x00 x00)
(T (W x03 x00 x00 x00 x05 x00 x00 x00)
(T (W x01 x00 x00 x00 x44 x00 x00 x00)
(L (W x00 x00 x80 x3f xcd xcc x8c x40)) E)
(L (W x04 x00 x00 x00 x0a x00 x00 x00)))
(T (W x00 x00 x00 x00 x01 x00 x00 x00)
(T (W x00 x00 x80 x3f x66 x66 x06 x40)
(L (W x70 x6d x30 x30 x34 x37 x5f x30)) E)
(L (W x70 x6d x30 x32 x30 x31 x5f x30))))
(T (W x00 x00 x00 x00 x04 x00 x00 x00)
(T (W x2c x00 x00 x00 x04 x00 x00 x00)
(T (W x3c x00 x00 x00 x24 x00 x00 x00)
(L (W x00 x00 x30 x00 x2e x00 x00 x00)) E)
(L (W xa4 xba x4c xc8 x17 x2d xef x62)))
(T (W x28 x00 x00 x00 x04 x00 x00 x00)
(L (W x30 x5f x30 x30 x00 x00 x00 x00))
(L (W x28 x00 x00 x00 x04 x00 x00 x00)))))))))
(T (W xf8 x82 x00 x00 x8c x82 x00 x00)
(T (W xb0 x73 x00 x00 x3c x73 x00 x00)
(T (W xa4 x55 x00 x00 x34 x55 x00 x00)
(T (W xbc x16 x00 x00 x38 x16 x00 x00)
(T (W x0a x00 x00 x00 x8f xc2 xf5 x3c)
(T (W x1e xff xff xff x00 x00 x00 x01)
(T (W x03 x00 x00 x00 x0c x00 x00 x00)
(T (W x46 xb3 xff xff x00 x00 x00 x01)
(L (W xde xe3 xff xff x00 x00 x00 x01)) E)
(L (W x04 x00 x00 x00 x00 x00 x00 x00)))
(T (W xde x93 xff xff x00 x00 x00 x01)
(T (W x9b x01 x00 x00 x00 x00 x80 x3f)
(L (W x01 x00 x00 x00 x02 x00 x00 x00)) E)
(L (W x3c x00 x00 x00 x24 x00 x00 x00))))
(T (W xbb xa7 xa1 x5a xaa x2e xd7 x83)
(T (W xbb xa7 xa1 x5a xaa x2e xd7 x83)
(T (W x9a x99 x99 x3f x33 x33 x33 x3f)
(L (W x33 x33 xb3 x3f x01 x00 x00 x00)) E)
(L (W xdc x00 x00 x00 x00 x00 x80 x3f)))
(T (W x34 x00 x38 x00 x2e x00 x00 x00)
(T (W x30 x30 x5f x30 x30 x5f x30 x30)
(L (W x02 x00 x00 x00 x02 x00 x00 x00)) E)
(L (W x02 x00 x00 x00 x00 x00 x80 x3f)))))
(T (W x0a x00 x00 x00 x0a xd7 xa3 x3c)
(T (W xbb xa7 xa1 x5a xaa x2e xd7 x83)
(T (W x02 x00 x00 x00 x00 x00 x00 x41)
(T (W x02 x00 x00 x00 x03 x00 x00 x00)
(L (W x28 x00 x00 x00 x04 x00 x00 x00)) E)
(L (W x66 x66 xe6 x3f x02 x00 x00 x00)))
(T (W x00 x00 x80 x3f x66 x66 xa6 x3f)
(T (W x02 x00 x00 x00 x44 x00 x00 x00)
(L (W x2c x00 x00 x00 x00 x00 x30 x00)) E)
(L (W x02 x00 x00 x00 xcd xcc x4c x3f))))
(T (W xbb xa7 xa1 x5a xaa x2e xd7 x83)
(T (W x01 x00 x00 x00 x04 x00 x00 x00)
(T (W x04 x00 x00 x00 x0a x00 x00 x00)
(L (W x02 x00 x00 x00 x03 x00 x00 x00)) E)
(L (W x48 xe1 x7a x3f x03 x00 x00 x00)))
(T (W x04 x00 x00 x00 x40 x00 x00 x00)
(T (W x00 x00 x00 x00 x01 x00 x00 x00)
(L (W x00 x00 x00 x00 x01 x00 x00 x00)) E)
(L (W xa4 xba x4c xc8 x17 x2d xef x62))))))
(T (W x00 x00 x00 x00 xce xcb xff xff)
(T (W xbd xbf x4c xc8 x17 x30 xef x62)
(T (W x18 x00 x1c x00 x40 x00 x48 x00)
(T (W x02 x00 x00 x00 x9a x99 x19 x40)
(T (W x2c x00 x00 x00 x04 x00 x00 x00)
(L (W xbd xbf x4c xc8 x17 x30 xef x62)) E)
(L (W x30 x5f x30 x30 x00 x00 x00 x00)))
(T (W x00 x00 x00 x00 x04 x00 x00 x00)
(T (W x00 x00 x00 x00 x04 x00 x00 x00)
(L (W x00 x00 x00 x01 x42 x00 x00 x00)) E)
(L (W x70 x6d x30 x32 x30 x31 x5f x30))))
(T (W xbb xa7 xa1 x5a xaa x2e xd7 x83)
(T (W x00 x00 x00 x00 x04 x00 x00 x00)
(T (W x00 x00 x00 x00 x01 x00 x00 x00)
(L (W x01 x00 x00 x00 x40 x00 x00 x00)) E)
(L (W x00 x00 x20 x00 x24 x00 x06 x00)))
(T (W x9f xfd xec x78 x0b xcc xee x0f)
(T (W x30 x5f x30 x30 x00 x00 x00 x00)
(L (W x00 x00 x2e x00 x4c x00 x08 x00)) E)
(L (W x30 x30 x5f x30 x30 x5f x30 x30)))))
(T (W x9a x99 x99 x3f x66 x66 xa6 x3f)
(T (W x40 x00 x00 x00 x28 x00 x00 x00)
(T (W x00 x00 x38 x00 x32 x00 x00 x00)
(T (W x0a x00 x00 x00 x8f xc2 xf5 x3c)
(L (W x9a x99 x99 x3f x9a x99 x19 x40)) E)
(L (W x01 x00 x00 x00 x02 x00 x00 x00)))
(T (W x01 x00 x00 x00 x02 x00 x00 x00)
(T (W xa6 xbd xff xff x8d x01 x00 x00)
(L (W x9a x99 x19 x3e x33 x33 xf3 x3f)) E)
(L (W x9e xfd xff xff x00 x00 x00 x01))))
(T (W xbb xa7 xa1 x5a xaa x2e xd7 x83)
(T (W xd1 x07 xed x78 x0b xd2 xee x0f)
(T (W x34 x00 x3c x00 x1c x00 x20 x00)
(L (W xde x0c xea x78 x0b x5e xeb x0f)) E)
(L (W x01 x00 x00 x00 x02 x00 x00 x00)))
(T (W x0c x00 x00 x00 x70 x6d x30 x30)
(L (W x35 x36 x5f x30 x30 x5f x30 x30))
(L (W x70 x6d x30 x30 x30 x30 x5f x30)))))))
(T (W x64 x37 x00 x00 xc4 x36 x00 x00)
(T (W x00 x00 x00 x00 x04 x00 x00 x00)
(T (W x00 x00 x00 x00 x04 x00 x00 x00)
(T (W x2c x00 x07 x00 x30 x00 x00 x00)
(T (W x00 x00 x80 x3f x29 x5c xef x3f)
(T (W x28 x00 x00 x00 x04 x00 x00 x00)
(L (W x3c x00 x00 x00 x24 x00 x00 x00)) E)
(L (W xbd xbf x4c xc8 x17 x30 xef x62)))
(T (W x04 x00 x00 x00 x0a x00 x00 x00)
(T (W x0a x00 x00 x00 x8f xc2 xf5 x3c)
(L (W x0a xbe x4c xc8 x17 x2f xef x62)) E)
(L (W xa4 xba x4c xc8 x17 x2d xef x62))))
(T (W xbb xa7 xa1 x5a xaa x2e xd7 x83)
(T (W x02 x00 x00 x00 x03 x00 x00 x00)
(T (W x28 x00 x00 x00 x04 x00 x00 x00)
(L (W x30 x30 x5f x30 x30 x5f x30 x30)) E)
(L (W x0a x00 x00 x00 x0a xd7 xa3 x3c)))
(T (W x01 x00 x00 x00 x40 x00 x00 x00)
(T (W x00 x00 x00 x00 x0c x00 x10 x00)
(L (W x3c x00 x44 x00 x20 x00 x24 x00)) E)
(L (W x48 x00 x08 x00 x00 x00 x0c x00)))))
(T (W xcd xcc xcc x3f x01 x00 x00 x00)
(T (W x30 x00 x07 x00 x00 x00 x34 x00)
(T (W x03 x00 x00 x00 x04 x00 x00 x00)
(T (W x01 x00 x00 x00 x01 x00 x00 x00)
(L (W x00 x00 x00 x00 x04 x00 x00 x00)) E)
(L (W x9a x99 x99 x3f x00 x00 x80 x3f)))
(T (W x0a x00 x00 x00 x8f xc2 xf5 x3c)
(T (W xa4 xba x4c xc8 x17 x2d xef x62)
(L (W x00 x00 x00 x00 x04 x00 x00 x00)) E)
(L (W x01 x00 x00 x00 x02 x00 x00 x00))))
(T (W xbb xa7 xa1 x5a xaa x2e xd7 x83)
(T (W x00 x00 x80 x3f xcd xcc xcc x3f)
(T (W x40 x00 x00 x00 x28 x00 x00 x00)
(L (W x01 x00 x00 x00 x01 x00 x00 x00)) E)
(L (W x02 x00 x00 x00 xcd xcc x4c x3f)))
(T (W xec xfb xec x78 x0b xcb xee x0f)
(T (W x3e xc5 xff xff x66 x01 x00 x00)
(L (W x02 x00 x00 x00 x40 x00 x00 x00)) E)
(L (W xbd xbf x4c xc8 x17 x30 xef x62))))))
(T (W x00 x00 x80 x3f x9a x99 x99 x3f)
(T (W xbb xa7 xa1 x5a xaa x2e xd7 x83)
(T (W x0c x00 x00 x00 x70 x6d x30 x35)
(T (W x44 x00 x00 x00 x2c x00 x00 x00)
(T (W xbd xbf x4c xc8 x17 x30 xef x62)
(L (W x70 x6d x30 x30 x30 x30 x5f x30)) E)
(L (W x2c x00 x00 x00 x04 x00 x00 x00)))
(T (W x70 x6d x30 x34 x36 x35 x5f x30)
(T (W x30 x5f x30 x30 x00 x00 x00 x00)
(L (W x2c x00 x00 x00 x00 x00 x00 x00)) E)
(L (W x02 x00 x00 x00 x00 x00 x80 x3f))))
(T (W xbb xa7 xa1 x5a xaa x2e xd7 x83)
(T (W x02 x00 x00 x00 x00 x00 x00 x40)
(T (W x00 x00 x00 x00 x66 xce xff xff)
(L (W x91 x0e xea x78 x0b x5f xeb x0f)) E)
(L (W x02 x00 x00 x00 x04 x00 x00 x00)))
(T (W x2c x00 x07 x00 x30 x00 x34 x00)
(T (W x3c x00 x00 x00 x24 x00 x00 x00)
(L (W x70 x6d x30 x30 x30 x30 x5f x30)) E)
(L (W x04 x00 x00 x00 x40 x00 x00 x00)))))
(T (W x01 x00 x00 x00 x02 x00 x00 x00)
(T (W xbb xa7 xa1 x5a xaa x2e xd7 x83)
(T (W x1c x00 x20 x00 x3c x00 x44 x00)
(T (W x00 x00 x00 x00 x04 x00 x00 x00)
(L (W x00 x00 x30 x00 x34 x00 x07 x00)) E)
(L (W x01 x00 x00 x00 x02 x00 x00 x00)))
(T (W x00 x00 x80 x3f x66 x66 xe6 x3f)
(T (W xf6 x0c xf0 x78 x0b x4c xf2 x0f)
(L (W x28 x00 x00 x00 x04 x00 x00 x00)) E)
(L (W x3c x00 x00 x00 x24 x00 x00 x00))))
(T (W x00 x00 x80 x3f x33 x33 x73 x3f)
(T (W x01 x00 x00 x00 x02 x00 x00 x00)
(T (W x00 x00 x00 x00 x01 x00 x00 x00)
(L (W x03 x00 x00 x00 x0c x00 x00 x00)) E)
(L (W x9e xf6 xff xff x00 x00 x00 x01)))
(T (W x00 x00 x00 x00 x01 x00 x00 x00)
(L (W x04 x00 x00 x00 x0a x00 x00 x00))
(L (W x02 x00 x00 x00 x03 x00 x00 x00))))))))
(T (W xa0 x64 x00 x00 x2c x64 x00 x00)
(T (W xd0 x46 x00 x00 x60 x46 x00 x00)
(T (W x48 x06 x00 x00 xb0 x05 x00 x00)
(T (W x37 x72 x45 x71 x09 xd4 x24 x44)
(T (W x00 x00 x80 x3f x66 x66 xa6 x3f)
(T (W x00 x00 x80 x40 x00 x00 x40 x40)
(T (W xcd xcc x0c x40 x02 x00 x00 x00)
(L (W x9a x99 xd9 x3f x03 x00 x00 x00)) E)
(L (W x03 x00 x00 x00 x0c x00 x00 x00)))
(T (W x9a x99 xd9 x3f x01 x00 x00 x00)
(T (W x02 x00 x00 x00 x40 x00 x00 x00)
(L (W x44 x10 xea x78 x0b x60 xeb x0f)) E)
(L (W x02 x00 x00 x00 xcd xcc x4c x3f))))
(T (W xbb xa7 xa1 x5a xaa x2e xd7 x83)
(T (W x00 x00 x00 x00 x04 x00 x00 x00)
(T (W x01 x00 x00 x00 x02 x00 x00 x00)
(L (W x00 x00 x34 x00 x38 x00 x07 x00)) E)
(L (W x03 x00 x00 x00 x44 x00 x00 x00)))
(T (W xc4 x01 x00 x00 x00 x00 x80 x3f)
(T (W x00 x00 x00 x00 xb6 xc6 xff xff)
(L (W x00 x00 x00 x00 x00 x00 x2c x00)) E)
(L (W x2c x00 x07 x00 x30 x00 x00 x00)))))
(T (W x01 x00 x00 x00 x00 x00 x80 x3f)
(T (W x48 x00 x00 x00 x30 x00 x00 x00)
(T (W xbb xa7 xa1 x5a xaa x2e xd7 x83)
(T (W x30 x5f x30 x30 x00 x00 x00 x00)
(L (W x00 x00 x80 x3f xcd xcc x0c x40)) E)
(L (W x28 x00 x00 x00 x04 x00 x00 x00)))
(T (W x44 x00 x00 x00 x2c x00 x00 x00)
(T (W x0a x00 x00 x00 x0a xd7 x23 x3c)
(L (W x30 x5f x30 x30 x00 x00 x2e x00)) E)
(L (W xa4 xba x4c xc8 x17 x2d xef x62))))
(T (W xbb xa7 xa1 x5a xaa x2e xd7 x83)
(T (W x00 x00 x30 x00 x2e x00 x00 x00)
(T (W xbd xbf x4c xc8 x17 x30 xef x62)
(L (W xc2 x13 xf0 x78 x0b x50 xf2 x0f)) E)
(L (W x3c x00 x00 x00 x24 x00 x00 x00)))
(T (W x0a x00 x00 x00 x8f xc2 xf5 x3c)
(T (W x70 x6d x30 x33 x36 x32 x5f x30)
(L (W x00 x00 x80 x3f x66 x66 xa6 x3f)) E)
(L (W x01 x00 x00 x00 x02 x00 x00 x00))))))
(T (W x00 x00 x00 x01 x86 x03 x00 x00)
(T (W x01 x00 x00 x00 x02 x00 x00 x00)
(T (W x02 x00 x00 x00 x03 x00 x00 x00)
(T (W xbb xa7 xa1 x5a xaa x2e xd7 x83)
(T (W x9a x99 x99 x3f x66 x66 x66 x3f)
(L (W x00 x00 x00 x00 x01 x00 x00 x00)) E)
(L (W x00 x00 x80 x3f x00 x00 x00 x40)))
(T (W x01 x00 x00 x00 x02 x00 x00 x00)
(T (W x03 x00 x00 x00 x0c x00 x00 x00)
(L (W x00 x00 x80 x3f x66 x66 xe6 x3f)) E)
(L (W x1e xfa xff xff x00 x00 x00 x01))))
(T (W xbb xa7 xa1 x5a xaa x2e xd7 x83)
(T (W x01 x00 x00 x00 x02 x00 x00 x00)
(T (W x70 x6d x30 x30 x30 x30 x5f x30)
(L (W x0a x00 x00 x00 x8f xc2 x75 x3d)) E)
(L (W x5e xce xff xff x00 x00 x00 x01)))
(T (W x48 x00 x00 x00 x30 x00 x00 x00)
(T (W x83 x01 x00 x00 x00 x00 x80 x3f)
(L (W x00 x00 x00 x00 x01 x00 x00 x00)) E)
(L (W xc5 x00 x00 x00 x00 x00 x80 x3f)))))
(T (W xbb xa7 xa1 x5a xaa x2e xd7 x83)
(T (W x5d x15 xea x78 x0b x63 xeb x0f)
(T (W x00 x00 x00 x01 xe4 x01 x00 x00)
(T (W x86 xf8 xec x78 x0b xc9 xee x0f)
(L (W x33 x33 xf3 x3f x02 x00 x00 x00)) E)
(L (W x30 x5f x30 x30 x00 x00 x2e x00)))
(T (W x30 x5f x30 x30 x00 x00 x00 x00)
(T (W x3c x00 x00 x00 x24 x00 x00 x00)
(L (W x01 x00 x00 x00 x01 x00 x00 x00)) E)
(L (W x02 x00 x00 x00 x00 x00 x80 x3f))))
(T (W xbb xa7 xa1 x5a xaa x2e xd7 x83)
(T (W x0a xbe x4c xc8 x17 x2f xef x62)
(T (W x30 x5f x30 x30 x00 x00 x2e x00)
(L (W x04 x00 x00 x00 x00 x00 x00 x00)) E)
(L (W x70 x6d x30 x32 x30 x31 x5f x30)))
(T (W xa4 xba x4c xc8 x17 x2d xef x62)
(L (W x00 x00 x80 x3f xcd xcc x0c x40))
(L (W x00 x00 x00 x00 x04 x00 x00 x00)))))))
(T (W x64 x28 x00 x00 xc0 x27 x00 x00)
(T (W x03 x00 x00 x00 x0c x00 x00 x00)
(T (W x04 x00 x00 x00 x0a x00 x00 x00)
(T (W x00 x00 x00 x00 x66 x81 xff xff)
(T (W x28 x00 x00 x00 x04 x00 x00 x00)
(T (W xb1 x01 x00 x00 x00 x00 x80 x3f)
(L (W x9a x99 x99 x3f x66 x66 xa6 x3f)) E)
(L (W x01 x00 x00 x00 x02 x00 x00 x00)))
(T (W x0a xbe x4c xc8 x17 x2f xef x62)
(T (W x05 x68 x45 x71 x09 xce x24 x44)
(L (W x04 x00 x00 x00 x0a x00 x00 x00)) E)
(L (W x01 x00 x00 x00 x02 x00 x00 x00))))
(T (W xbb xa7 xa1 x5a xaa x2e xd7 x83)
(T (W xbb xa7 xa1 x5a xaa x2e xd7 x83)
(T (W xd3 x5d x45 x71 x09 xc8 x24 x44)
(L (W xbd xbf x4c xc8 x17 x30 xef x62)) E)
(L (W xd7 x00 x00 x00 x01 x00 x00 x00)))
(T (W x0a x00 x00 x00 x8f xc2 xf5 x3c)
(T (W x03 x00 x00 x00 x0c x00 x00 x00)
(L (W x70 x6d x30 x30 x30 x30 x5f x30)) E)
(L (W x02 x00 x00 x00 x03 x00 x00 x00)))))
(T (W x28 x00 x00 x00 x04 x00 x00 x00)
(T (W xf7 x01 x00 x00 x01 x00 x00 x00)
(T (W x2c x00 x00 x00 x04 x00 x00 x00)
(T (W x04 x00 x00 x00 x0a x00 x00 x00)
(L (W x00 x00 x00 x00 x01 x00 x00 x00)) E)
(L (W xa4 xba x4c xc8 x17 x2d xef x62)))
(T (W x9f xfd xec x78 x0b xcc xee x0f)
(T (W x03 x00 x00 x00 x0c x00 x00 x00)
(L (W x01 x00 x00 x00 x02 x00 x00 x00)) E)
(L (W x70 x6d x30 x32 x30 x31 x5f x30))))
(T (W xbb xa7 xa1 x5a xaa x2e xd7 x83)
(T (W x3c x00 x00 x00 x24 x00 x00 x00)
(T (W x2e x00 x00 x00 x9d x01 x00 x00)
(L (W x0a x00 x00 x00 x0a xd7 x23 x3d)) E)
(L (W xa4 xba x4c xc8 x17 x2d xef x62)))
(T (W x04 x00 x00 x00 x00 x00 x00 x00)
(L (W x1c x00 x20 x00 x00 x00 x24 x00))
(L (W x00 x00 x00 x00 x01 x00 x00 x00))))))
(T (W x2c x00 x00 x00 x04 x00 x00 x00)
(T (W x03 x00 x00 x00 x40 x00 x00 x00)
(T (W x00 x00 x32 x00 x58 x00 x08 x00)
(T (W x04 x00 x00 x00 x0a x00 x00 x00)
(T (W x00 x00 x00 x00 x01 x00 x00 x00)
(L (W x00 x00 x80 x3f x9a x99 xd9 x3f)) E)
(L (W x9a x99 x99 x3f xcd xcc x4c x3f)))
(T (W x5e x97 xff xff x00 x00 x00 x01)
(T (W x93 x01 x00 x00 x00 x00 x80 x3f)
(L (W x00 x00 x80 x3f x66 x66 xe6 x3f)) E)
(L (W x3c x00 x00 x00 x24 x00 x00 x00))))
(T (W xbb xa7 xa1 x5a xaa x2e xd7 x83)
(T (W x52 x66 x45 x71 x09 xcd x24 x44)
(T (W x02 x00 x00 x00 x03 x00 x00 x00)
(L (W x00 x00 x00 x00 x04 x00 x00 x00)) E)
(L (W x00 x00 x30 x00 x2e x00 x00 x00)))
(T (W xbe x01 x00 x00 x00 x00 x80 x3f)
(T (W x05 x01 xed x78 x0b xce xee x0f)
(L (W x00 x00 x2e x00 x4c x00 x08 x00)) E)
(L (W x02 x00 x00 x00 x00 x00 x80 x40)))))
(T (W x0c x00 x00 x00 x70 x6d x30 x36)
(T (W xbb xa7 xa1 x5a xaa x2e xd7 x83)
(T (W x03 x00 x00 x00 x0c x00 x00 x00)
(T (W x02 x00 x00 x00 x03 x00 x00 x00)
(L (W x5e xeb xff xff x00 x00 x00 x01)) E)
(L (W x30 x5f x30 x30 x00 x00 x00 x00)))
(T (W x44 x00 x00 x00 x2c x00 x00 x00)
(T (W x00 x00 x00 x00 x01 x00 x00 x00)
(L (W x9a x99 x99 x3f x66 x66 x66 x3f)) E)
(L (W x02 x00 x00 x00 xcd xcc x4c x3f))))
(T (W x24 x00 x28 x00 x00 x00 x2c x00)
(T (W x0c x00 x00 x00 x70 x6d x30 x30)
(T (W x70 x6d x30 x30 x30 x30 x5f x30)
(L (W xa4 xba x4c xc8 x17 x2d xef x62)) E)
(L (W x02 x00 x00 x00 x00 x00 x80 x3f)))
(T (W x70 x6d x30 x30 x30 x30 x5f x30)
(L (W x52 xff xec x78 x0b xcd xee x0f))
(L (W x70 x6d x30 x30 x30 x30 x5f x30)))))))))))
(T (W xd4 x9a x00 x00 x5c x9a x00 x00)
(T (W x80 x96 x00 x00 xd8 x95 x00 x00)
(T (W x98 x8d x00 x00 x24 x8d x00 x00)
(T (W x8c x7d x00 x00 xf0 x7c x00 x00)
(T (W x14 x5f x00 x00 x74 x5e x00 x00)
(T (W xb0 x21 x00 x00 x34 x21 x00 x00)
(T (W x00 x00 x00 x00 x01 x00 x00 x00)
(T (W x3c x00 x00 x00 x24 x00 x00 x00)
(T (W x00 x00 x80 x3f x33 x33 x73 x3f)
(T (W x3c x00 x00 x00 x24 x00 x00 x00)
(L (W x28 x00 x00 x00 x04 x00 x00 x00)) E)
(L (W x30 x5f x30 x30 x00 x00 x00 x00)))
(T (W x3c x00 x00 x00 x24 x00 x00 x00)
(T (W x04 x00 x00 x00 x0a x00 x00 x00)
(L (W x00 x00 x00 x00 xd6 xfc xff xff)) E)
(L (W xa4 xba x4c xc8 x17 x2d xef x62))))
(T (W x39 x33 x5f x32 x38 x5f x30 x30)
(T (W x00 x00 x28 x00 x2c x00 x07 x00)
(T (W x20 x00 x24 x00 x28 x00 x2c x00)
(L (W x00 x00 x80 x3f xcd xcc x4c x40)) E)
(L (W x0a x00 x00 x00 x8f xc2 xf5 x3c)))
(T (W x04 x00 x00 x00 x00 x00 x00 x00)
(T (W x33 x33 x33 x40 x02 x00 x00 x00)
(L (W x0c x00 x00 x00 x70 x6d x30 x30)) E)
(L (W x0c x00 x00 x00 x70 x6d x30 x32)))))
(T (W x04 x00 x00 x00 x00 x00 x00 x00)
(T (W x00 x00 x40 x00 x32 x00 x00 x00)
(T (W x02 x00 x00 x00 x03 x00 x00 x00)
(T (W x00 x00 x80 x3f x33 x33 x13 x40)
(L (W xa4 xba x4c xc8 x17 x2d xef x62)) E)
(L (W x70 x6d x30 x30 x30 x30 x5f x30)))
(T (W x00 x00 x80 x3f x00 x00 x40 x40)
(T (W xf7 x11 xea x78 x0b x61 xeb x0f)
(L (W xa4 xba x4c xc8 x17 x2d xef x62)) E)
(L (W x01 x00 x00 x00 x02 x00 x00 x00))))
(T (W x39 x33 x5f x32 x30 x5f x30 x30)
(T (W x33 x5f x30 x30 x00 x00 x2e x00)
(T (W x00 x00 x00 x00 x04 x00 x00 x00)
(L (W x00 x00 x00 x01 x5c x00 x00 x00)) E)
(L (W x01 x00 x00 x00 x66 x66 x66 x3f)))
(T (W xaa x13 xea x78 x0b x62 xeb x0f)
(T (W x30 x5f x30 x30 x00 x00 x00 x00)
(L (W x2e x00 x00 x00 x00 x00 x00 x01)) E)
(L (W x0c x00 x00 x00 x70 x6d x30 x30))))))
(T (W x40 x00 x00 x00 x28 x00 x00 x00)
(T (W x03 x00 x00 x00 x0c x00 x00 x00)
(T (W x02 x00 x00 x00 x66 x66 xe6 x3f)
(T (W x01 x00 x00 x00 x02 x00 x00 x00)
(T (W xa4 xba x4c xc8 x17 x2d xef x62)
(L (W x70 x6d x30 x30 x30 x30 x5f x30)) E)
(L (W x02 x00 x00 x00 x02 x00 x00 x00)))
(T (W x00 x00 x00 x00 xe6 x9f xff xff)
(T (W x30 x5f x30 x30 x00 x00 x00 x00)
(L (W x01 x00 x00 x00 x02 x00 x00 x00)) E)
(L (W x02 x00 x00 x00 x00 x00 x80 x3f))))
(T (W x39 x33 x5f x32 x34 x5f x30 x30)
(T (W x00 x00 x00 x00 x16 xff xff xff)
(T (W x30 x30 x5f x30 x30 x5f x30 x30)
(L (W x00 x00 x2e x00 x50 x00 x08 x00)) E)
(L (W x75 x15 xf0 x78 x0b x51 xf2 x0f)))
(T (W x03 x00 x00 x00 x0c x00 x00 x00)
(T (W x04 x00 x00 x00 x40 x00 x00 x00)
(L (W x2c x00 x00 x00 x04 x00 x00 x00)) E)
(L (W x01 x00 x00 x00 x02 x00 x00 x00)))))
(T (W x01 x00 x00 x00 x02 x00 x00 x00)
(T (W xf6 x0c xf0 x78 x0b x4c xf2 x0f)
(T (W x00 x00 x00 x00 x01 x00 x00 x00)
(T (W x00 x00 x00 x00 x01 x00 x00 x00)
(L (W x14 x00 x18 x00 x38 x00 x40 x00)) E)
(L (W xf6 xd8 xff xff x00 x00 x00 x01)))
(T (W x30 x5f x30 x30 x00 x00 x00 x00)
(T (W x3c x00 x00 x00 x24 x00 x00 x00)
(L (W x3c x00 x44 x00 x18 x00 x1c x00)) E)
(L (W x3c x00 x00 x00 x24 x00 x00 x00))))
(T (W x39 x33 x5f x31 x36 x5f x30 x30)
(T (W x01 x00 x00 x00 x02 x00 x00 x00)
(T (W x02 x00 x00 x00 x00 x00 x80 x3f)
(L (W x03 x00 x00 x00 x0c x00 x00 x00)) E)
(L (W x4e xf5 xff xff x00 x00 x00 x01)))
(T (W x00 x00 x80 x3f x33 x33 x13 x40)
(L (W x02 x00 x00 x00 x44 x00 x00 x00))
(L (W x00 x00 x80 x3f x00 x00 x40 x40)))))))
(T (W xf4 x40 x00 x00 x80 x40 x00 x00)
(T (W x7c x00 x00 x00 x04 x00 x00 x00)
(T (W x30 x5f x30 x30 x00 x00 x00 x00)
(T (W xbb xa7 xa1 x5a xaa x2e xd7 x83)
(T (W x0c x00 x00 x00 x70 x6d x30 x34)
(T (W xbd xbf x4c xc8 x17 x30 xef x62)
(L (W xbd xbf x4c xc8 x17 x30 xef x62)) E)
(L (W x00 x00 x20 x00 x24 x00 x06 x00)))
(T (W xbd xbf x4c xc8 x17 x30 xef x62)
(T (W x04 x00 x00 x00 x00 x00 x00 x00)
(L (W x37 x32 x5f x30 x30 x5f x30 x30)) E)
(L (W x70 x6d x30 x32 x30 x31 x5f x30))))
(T (W x39 x33 x5f x32 x36 x5f x30 x30)
(T (W x00 x00 x00 x01 xe1 x01 x00 x00)
(T (W xbd xbf x4c xc8 x17 x30 xef x62)
(L (W x05 x00 x00 x00 x44 x00 x00 x00)) E)
(L (W x00 x00 x00 x00 x04 x00 x00 x00)))
(T (W x05 x68 x45 x71 x09 xce x24 x44)
(T (W x0a xd7 xa3 x3c x9a x99 x99 x3f)
(L (W x02 x00 x00 x00 x00 x00 x20 x40)) E)
(L (W x3c x00 x00 x00 x24 x00 x00 x00)))))
(T (W x20 xf5 xec x78 x0b xc7 xee x0f)
(T (W x00 x00 x00 x00 x04 x00 x00 x00)
(T (W x38 x37 x5f x31 x31 x5f x30 x30)
(T (W x02 x00 x00 x00 x9a x99 x19 x40)
(L (W x70 x6d x30 x30 x30 x30 x5f x30)) E)
(L (W x01 x00 x00 x00 x02 x00 x00 x00)))
(T (W x04 x00 x00 x00 x00 x00 x00 x00)
(T (W x03 x00 x00 x00 x0c x00 x00 x00)
(L (W x00 x00 x38 x00 x2e x00 x00 x00)) E)
(L (W x4e xfc xff xff x00 x00 x00 x01))))
(T (W x39 x33 x5f x31 x38 x5f x30 x30)
(T (W x02 x00 x00 x00 x00 x00 x00 x40)
(T (W x00 x00 x2e x00 x4c x00 x04 x00)
(L (W x38 x32 x5f x30 x30 x5f x30 x30)) E)
(L (W x01 x00 x00 x00 x02 x00 x00 x00)))
(T (W x03 x00 x00 x00 x0c x00 x00 x00)
(T (W x28 x00 x00 x00 x04 x00 x00 x00)
(L (W x70 x6d x30 x30 x30 x30 x5f x30)) E)
(L (W x2c x00 x34 x00 x14 x00 x18 x00))))))
(T (W x01 x00 x00 x00 x33 x33 x83 x40)
(T (W x38 x00 x40 x00 x20 x00 x24 x00)
(T (W x66 x66 xe6 x3f x01 x00 x00 x00)
(T (W x30 x5f x30 x30 x00 x00 x2e x00)
(T (W x0c x00 x00 x00 x70 x6d x30 x34)
(L (W x00 x00 x80 x3f xcd xcc x2c x40)) E)
(L (W xbd xbf x4c xc8 x17 x30 xef x62)))
(T (W x33 x33 xb3 x3f x03 x00 x00 x00)
(T (W x03 x00 x00 x00 x40 x00 x00 x00)
(L (W x0a xbe x4c xc8 x17 x2f xef x62)) E)
(L (W x02 x00 x00 x00 xcd xcc x4c x3f))))
(T (W x39 x33 x5f x32 x32 x5f x30 x30)
(T (W x3c x00 x44 x00 x24 x00 x28 x00)
(T (W x40 x00 x00 x00 x28 x00 x00 x00)
(L (W x02 x00 x00 x00 x03 x00 x00 x00)) E)
(L (W x00 x00 x80 x3f xcd xcc x2c x40)))
(T (W x00 x00 x00 x00 x04 x00 x00 x00)
(T (W x5d x15 xea x78 x0b x63 xeb x0f)
(L (W x00 x00 x80 x3f x33 x33 xf3 x3f)) E)
(L (W xc5 x07 xea x78 x0b x5b xeb x0f)))))
(T (W x00 x00 x00 x00 xd6 x7b xff xff)
(T (W x30 x30 x5f x30 x30 x5f x30 x30)
(T (W x9a x99 x19 x3f x00 x00 x10 x41)
(T (W x30 x5f x30 x30 x00 x00 x00 x00)
(L (W xbd xbf x4c xc8 x17 x30 xef x62)) E)
(L (W x00 x00 x30 x00 x2e x00 x00 x00)))
(T (W x01 x00 x00 x00 xcd xcc x4c x3f)
(T (W x01 x00 x00 x00 x02 x00 x00 x00)
(L (W xa4 xba x4c xc8 x17 x2d xef x62)) E)
(L (W xa4 xba x4c xc8 x17 x2d xef x62))))
(T (W x39 x33 x5f x31 x34 x5f x30 x30)
(T (W xf6 xa1 xff xff x00 x00 x00 x01)
(T (W x00 x00 x30 x00 x2e x00 x00 x00)
(L (W x4b x00 x00 x00 x00 x00 x80 x3f)) E)
(L (W x3c x00 x00 x00 x24 x00 x00 x00)))
(T (W x2e xa3 xff xff x00 x00 x00 x01)
(L (W xbd xbf x4c xc8 x17 x30 xef x62))
(L (W x00 x00 x00 x01 xa9 x00 x00 x00))))))))
(T (W x40 x6e x00 x00 xcc x6d x00 x00)
(T (W x68 x50 x00 x00 xf8 x4f x00 x00)
(T (W xd8 x10 x00 x00 x2c x10 x00 x00)
(T (W x03 x00 x00 x00 x0c x00 x00 x00)
(T (W x02 x00 x00 x00 xcd xcc x4c x40)
(T (W x00 x00 x28 x00 x2c x00 x07 x00)
(T (W x02 x00 x00 x00 xcd xcc x8c x3f)
(L (W x9a x99 x99 x3f x9a x99 x99 x3f)) E)
(L (W x1a x01 x00 x00 x00 x00 x80 x3f)))
(T (W x9a x99 x99 x3f xcd xcc xcc x3f)
(T (W x05 x68 x45 x71 x09 xce x24 x44)
(L (W x34 x00 x3c x00 x1c x00 x20 x00)) E)
(L (W x01 x00 x00 x00 x02 x00 x00 x00))))
(T (W x39 x33 x5f x32 x37 x5f x30 x30)
(T (W x38 x33 x5f x31 x31 x5f x30 x30)
(T (W x70 x6d x30 x30 x30 x30 x5f x30)
(L (W xa4 xba x4c xc8 x17 x2d xef x62)) E)
(L (W xec xfb xec x78 x0b xcb xee x0f)))
(T (W x0a xd7 xa3 x3c x9a x99 x99 x3f)
(T (W x04 x00 x00 x00 x0a x00 x00 x00)
(L (W x00 x00 x00 x00 x04 x00 x00 x00)) E)
(L (W xa4 xba x4c xc8 x17 x2d xef x62)))))
(T (W x03 x00 x00 x00 x0c x00 x00 x00)
(T (W x00 x00 x2e x00 x54 x00 x08 x00)
(T (W x0c x00 x00 x00 x70 x6d x30 x34)
(T (W x01 x00 x00 x00 x40 x00 x00 x00)
(L (W x01 x00 x00 x00 x02 x00 x00 x00)) E)
(L (W x0a xbe x4c xc8 x17 x2f xef x62)))
(T (W x0a xbe x4c xc8 x17 x2f xef x62)
(T (W x00 x00 x00 x00 x04 x00 x00 x00)
(L (W x05 x00 x00 x00 x40 x00 x00 x00)) E)
(L (W x70 x6d x30 x32 x30 x31 x5f x30))))
(T (W x39 x33 x5f x31 x39 x5f x30 x30)
(T (W x04 x00 x00 x00 x00 x00 x00 x00)
(T (W x03 x00 x00 x00 x0c x00 x00 x00)
(L (W x20 x00 x24 x00 x00 x00 x28 x00)) E)
(L (W xbd xbf x4c xc8 x17 x30 xef x62)))
(T (W x04 x00 x00 x00 x00 x00 x00 x00)
(T (W x00 x00 x80 x3f x00 x00 x00 x40)
(L (W x14 x00 x18 x00 x38 x00 x40 x00)) E)
(L (W x0e xe0 xff xff x00 x00 x00 x01))))))
(T (W x8f xc2 xf5 x3c x00 x00 x80 x3f)
(T (W x00 x00 x00 x00 x56 x77 xff xff)
(T (W x00 x00 x80 x3f x00 x00 x00 x40)
(T (W x0c x00 x00 x00 x70 x6d x30 x34)
(T (W x00 x00 x00 x00 x01 x00 x00 x00)
(L (W xae xe6 xff xff x00 x00 x00 x01)) E)
(L (W x0a x00 x00 x00 x0a xd7 xa3 x3c)))
(T (W x00 x00 x01 x01 xd2 x01 x00 x00)
(T (W x00 x00 x00 x01 x96 x01 x00 x00)
(L (W x0a xd7 xa3 x3d x00 x00 x80 x3f)) E)
(L (W x3c x00 x00 x00 x24 x00 x00 x00))))
(T (W x39 x33 x5f x32 x33 x5f x30 x30)
(T (W x00 x00 x00 x01 xdf x01 x00 x00)
(T (W x00 x00 x80 x3f x33 x33 x33 x40)
(L (W x04 x00 x00 x00 x00 x00 x00 x00)) E)
(L (W x28 x00 x00 x00 x04 x00 x00 x00)))
(T (W x30 x5f x30 x30 x00 x00 x2e x00)
(T (W x0a x00 x00 x00 x0a xd7 xa3 x3c)
(L (W x2e x00 x00 x00 x00 x00 x00 x01)) E)
(L (W x04 x00 x00 x00 x0a x00 x00 x00)))))
(T (W x70 x6d x30 x30 x30 x30 x5f x30)
(T (W x00 x00 x00 x00 x01 x00 x00 x00)
(T (W x04 x00 x00 x00 x0a x00 x00 x00)
(T (W x03 x00 x00 x00 x0c x00 x00 x00)
(L (W x70 x6d x30 x31 x31 x34 x5f x30)) E)
(L (W x03 x00 x00 x00 x03 x00 x00 x00)))
(T (W x02 x00 x00 x00 x02 x00 x00 x00)
(T (W x9f x64 x45 x71 x09 xcc x24 x44)
(L (W x0c x00 x00 x00 x70 x6d x30 x30)) E)
(L (W x02 x00 x00 x00 xcd xcc x4c x3f))))
(T (W x39 x33 x5f x31 x35 x5f x30 x30)
(T (W x30 x30 x5f x30 x30 x5f x30 x30)
(T (W x01 x00 x00 x00 x03 x00 x00 x00)
(L (W x30 x5f x30 x30 x00 x00 x00 x00)) E)
(L (W x02 x00 x00 x00 x00 x00 x80 x3f)))
(T (W x28 x00 x00 x00 x00 x00 x2c x00)
(L (W x04 x00 x00 x00 x0a x00 x00 x00))
(L (W x00 x00 x28 x00 x2c x00 x07 x00)))))))
(T (W xa8 x31 x00 x00 x30 x31 x00 x00)
(T (W x00 x00 x00 x01 x89 x03 x00 x00)
(T (W x0c x00 x00 x00 x10 x00 x14 x00)
(T (W x40 x00 x00 x00 x28 x00 x00 x00)
(T (W xbb xa7 xa1 x5a xaa x2e xd7 x83)
(T (W x01 x00 x00 x00 x02 x00 x00 x00)
(L (W x01 x00 x00 x00 x02 x00 x00 x00)) E)
(L (W x00 x00 x00 x00 x4e xf7 xff xff)))
(T (W x03 x00 x00 x00 x0c x00 x00 x00)
(T (W x03 x00 x00 x00 x0c x00 x00 x00)
(L (W x4c x00 x08 x00 x00 x00 x00 x00)) E)
(L (W xce xf8 xff xff x00 x00 x00 x01))))
(T (W x39 x33 x5f x32 x35 x5f x30 x30)
(T (W x18 x00 x1c x00 x00 x00 x20 x00)
(T (W x01 x00 x00 x00 x02 x00 x00 x00)
(L (W x38 x00 x07 x00 x00 x00 x3c x00)) E)
(L (W x02 x00 x00 x00 x03 x00 x00 x00)))
(T (W x04 x00 x00 x00 x00 x00 x00 x00)
(T (W x86 x01 x00 x00 x00 x00 x80 x3f)
(L (W x66 x66 xe6 x3f x02 x00 x00 x00)) E)
(L (W x00 x00 x00 x01 xc9 x00 x00 x00)))))
(T (W xbd xbf x4c xc8 x17 x30 xef x62)
(T (W x0a x00 x00 x00 x0a xd7 x23 x3c)
(T (W xbb xa7 xa1 x5a xaa x2e xd7 x83)
(T (W x00 x00 x00 x00 x04 x00 x00 x00)
(L (W x00 x00 x00 x01 x7a x00 x00 x00)) E)
(L (W x70 x6d x30 x30 x30 x30 x5f x30)))
(T (W x03 x00 x00 x00 x0c x00 x00 x00)
(T (W xd6 xbc xff xff x8f x01 x00 x00)
(L (W x00 x00 x00 x01 x3a x00 x00 x00)) E)
(L (W x02 x00 x00 x00 x00 x00 x80 x3f))))
(T (W x39 x33 x5f x31 x37 x5f x30 x30)
(T (W xbd xbf x4c xc8 x17 x30 xef x62)
(T (W x00 x00 x00 x00 x01 x00 x00 x00)
(L (W x04 x00 x00 x00 x00 x00 x00 x00)) E)
(L (W x70 x6d x30 x32 x30 x31 x5f x30)))
(T (W x30 x5f x30 x30 x00 x00 x00 x00)
(T (W x20 x5c x45 x71 x09 xc7 x24 x44)
(L (W x04 x00 x00 x00 x00 x00 x00 x00)) E)
(L (W x00 x00 x00 x00 x26 xff xff xff))))))
(T (W xbd xbf x4c xc8 x17 x30 xef x62)
(T (W x30 x5f x30 x30 x00 x00 x2e x00)
(T (W x40 x00 x00 x00 x28 x00 x00 x00)
(T (W x04 x00 x00 x00 x00 x00 x00 x00)
(T (W x00 x00 x00 x00 x16 xb3 xff xff)
(L (W x04 x00 x00 x00 x0a x00 x00 x00)) E)
(L (W x00 x00 x00 x00 x01 x00 x00 x00)))
(T (W x28 x00 x00 x00 x04 x00 x00 x00)
(T (W x0a x00 x00 x00 x0a xd7 xa3 x3c)
(L (W x04 x00 x00 x00 x0a x00 x00 x00)) E)
(L (W xa4 xba x4c xc8 x17 x2d xef x62))))
(T (W x39 x33 x5f x32 x31 x5f x30 x30)
(T (W x0c x00 x00 x00 x70 x6d x30 x34)
(T (W xd3 xf6 xec x78 x0b xc8 xee x0f)
(L (W x39 x34 x5f x30 x30 x5f x30 x30)) E)
(L (W x04 x00 x00 x00 x00 x00 x00 x00)))
(T (W x0a xd7 xa3 x3c x9a x99 x99 x3f)
(T (W x01 x00 x00 x00 x02 x00 x00 x00)
(L (W x2c x00 x00 x00 x04 x00 x00 x00)) E)
(L (W x04 x00 x00 x00 x00 x00 x00 x00)))))
(T (W x00 x00 x80 x3f x66 x66 xa6 x3f)
(T (W x39 x33 x5f x32 x38 x5f x30 x30)
(T (W x01 x00 x00 x00 x02 x00 x00 x00)
(T (W x00 x00 x00 x01 xa6 x01 x00 x00)
(L (W x1e x00 x00 x00 x04 x00 x00 x00)) E)
(L (W x01 x00 x00 x00 x01 x00 x00 x00)))
(T (W xa4 xba x4c xc8 x17 x2d xef x62)
(T (W x30 x5f x30 x30 x00 x00 x00 x00)
(L (W x01 x00 x00 x00 x02 x00 x00 x00)) E)
(L (W x01 x00 x00 x00 x02 x00 x00 x00))))
(T (W xbb xa7 xa1 x5a xaa x2e xd7 x83)
(T (W x9a x99 x99 x3f x03 x00 x00 x00)
(T (W x00 x00 x80 x3f x00 x00 xa0 x40)
(L (W x00 x00 x24 x00 x28 x00 x00 x00)) E)
(L (W x02 x00 x00 x00 xcd xcc x4c x3f)))
(T (W x00 x00 x80 x3f xcd xcc x0c x40)
(L (W x03 x00 x00 x00 x0c x00 x00 x00))
(L (W x9a x99 xd9 x3f x02 x00 x00 x00)))))))))
(T (W xbc x84 x00 x00 x4c x84 x00 x00)
(T (W x80 x75 x00 x00 x0c x75 x00 x00)
(T (W xa8 x57 x00 x00 x34 x57 x00 x00)
(T (W xcc x18 x00 x00 x48 x18 x00 x00)
(T (W x05 x00 x00 x00 x40 x00 x00 x00)
(T (W x70 x6d x30 x36 x34 x32 x5f x31)
(T (W x04 x00 x00 x00 x00 x00 x00 x00)
(T (W x70 x6d x30 x34 x33 x37 x5f x30)
(L (W x70 x6d x30 x30 x30 x30 x5f x30)) E)
(L (W xd1 x07 xed x78 x0b xd2 xee x0f)))
(T (W x70 x6d x30 x34 x37 x32 x5f x30)
(T (W x30 x5f x30 x30 x00 x00 x00 x00)
(L (W xbd xbf x4c xc8 x17 x30 xef x62)) E)
(L (W x02 x00 x00 x00 x00 x00 x80 x3f))))
(T (W x0a xd7 xa3 x3d x9a x99 x19 x3f)
(T (W x0a x00 x00 x00 x0a xd7 xa3 x3d)
(T (W x1e x00 x00 x00 x04 x00 x00 x00)
(L (W xce xeb xff xff x00 x00 x00 x01)) E)
(L (W x30 x5f x30 x30 x00 x00 x00 x00)))
(T (W x00 x00 x24 x00 x28 x00 x06 x00)
(T (W x02 x00 x00 x00 x03 x00 x00 x00)
(L (W x2e x00 x00 x00 x2a x00 x00 x00)) E)
(L (W x2e x00 x00 x00 x00 x00 x00 x01)))))
(T (W x01 x00 x00 x00 x40 x00 x00 x00)
(T (W x9a x99 x19 x3e xcd xcc x8c x3f)
(T (W x40 x00 x00 x00 x28 x00 x00 x00)
(T (W x00 x00 x00 x00 x04 x00 x00 x00)
(L (W x9a x99 xd9 x3f x01 x00 x00 x00)) E)
(L (W x00 x00 x00 x01 xf2 x00 x00 x00)))
(T (W xd6 xa7 xff xff x00 x00 x00 x01)
(T (W x92 x01 x00 x00 x00 x00 x80 x3f)
(L (W x18 x00 x1c x00 x3c x00 x44 x00)) E)
(L (W x3c x00 x00 x00 x24 x00 x00 x00))))
(T (W x0a xd7 xa3 x3d x9a x99 x19 x3f)
(T (W x01 x00 x00 x00 x02 x00 x00 x00)
(T (W x02 x00 x00 x00 x03 x00 x00 x00)
(L (W x00 x00 x00 x00 x04 x00 x00 x00)) E)
(L (W x6e xd0 xff xff x00 x00 x00 x01)))
(T (W xbd x01 x00 x00 x00 x00 x80 x3f)
(T (W xa4 xba x4c xc8 x17 x2d xef x62)
(L (W xbd xbf x4c xc8 x17 x30 xef x62)) E)
(L (W x9a x99 x99 x3f x9a x99 x99 x3f))))))
(T (W x0c x00 x00 x00 x70 x6d x30 x30)
(T (W x02 x00 x00 x00 x9a x99 x99 x3f)
(T (W x00 x00 x2e x00 x54 x00 x08 x00)
(T (W x40 x00 x00 x00 x28 x00 x00 x00)
(T (W xcd xcc x0c x40 x01 x00 x00 x00)
(L (W x9a x99 x99 x3f x9a x99 x99 x3f)) E)
(L (W x03 x00 x00 x00 x0c x00 x00 x00)))
(T (W xde x0c xea x78 x0b x5e xeb x0f)
(T (W x52 xff xec x78 x0b xcd xee x0f)
(L (W x00 x00 x2c x00 x30 x00 x07 x00)) E)
(L (W x01 x00 x00 x00 x02 x00 x00 x00))))
(T (W x0a xd7 xa3 x3d x9a x99 x19 x3f)
(T (W x52 x66 x45 x71 x09 xcd x24 x44)
(T (W xa4 xba x4c xc8 x17 x2d xef x62)
(L (W x02 x00 x00 x00 x00 x00 x80 x3f)) E)
(L (W x0c x00 x10 x00 x00 x00 x14 x00)))
(T (W x0a x00 x00 x00 x0a xd7 xa3 x3c)
(T (W x03 x00 x00 x00 x0c x00 x00 x00)
(L (W x0c x00 x00 x00 x70 x6d x30 x30)) E)
(L (W x02 x00 x00 x00 x03 x00 x00 x00)))))
(T (W x28 x00 x00 x00 x04 x00 x00 x00)
(T (W x00 x00 x80 x3f x00 x00 x00 x40)
(T (W x30 x00 x07 x00 x00 x00 x00 x00)
(T (W x02 x00 x00 x00 x40 x00 x00 x00)
(L (W x28 x00 x00 x00 x04 x00 x00 x00)) E)
(L (W xbd xbf x4c xc8 x17 x30 xef x62)))
(T (W xa4 xba x4c xc8 x17 x2d xef x62)
(T (W x70 x6d x30 x30 x30 x30 x5f x30)
(L (W x0a x00 x00 x00 x01 x00 x00 x00)) E)
(L (W x70 x6d x30 x32 x30 x31 x5f x30))))
(T (W x0a xd7 xa3 x3d x9a x99 x19 x3f)
(T (W x04 x00 x00 x00 x0a x00 x00 x00)
(T (W x44 x00 x04 x00 x00 x00 x08 x00)
(L (W x0a x00 x00 x00 x8f xc2 xf5 x3c)) E)
(L (W xa4 xba x4c xc8 x17 x2d xef x62)))
(T (W x00 x00 x00 x00 x01 x00 x00 x00)
(L (W x02 x00 x00 x00 x03 x00 x00 x00))
(L (W x01 x00 x00 x00 x02 x00 x00 x00)))))))
(T (W x68 x39 x00 x00 xf4 x38 x00 x00)
(T (W xbb xa7 xa1 x5a xaa x2e xd7 x83)
(T (W x84 x70 x45 x71 x09 xd3 x24 x44)
(T (W x18 x00 x1c x00 x38 x00 x40 x00)
(T (W x2e x00 x00 x00 xec x01 x00 x00)
(T (W x9a x99 x19 x40 x01 x00 x00 x00)
(L (W x00 x00 x80 x3f xcd xcc xcc x3f)) E)
(L (W x9a x99 x99 x3f x00 x00 x80 x3f)))
(T (W x03 x00 x00 x00 x03 x00 x00 x00)
(T (W x03 x00 x00 x00 x40 x00 x00 x00)
(L (W x9a x99 x19 x3e x33 x33 x33 x40)) E)
(L (W x02 x00 x00 x00 xcd xcc x4c x3f))))
(T (W x0a xd7 xa3 x3d x9a x99 x19 x3f)
(T (W x00 x00 x00 x00 x04 x00 x00 x00)
(T (W x00 x00 x80 x3f x00 x00 x00 x40)
(L (W x02 x00 x00 x00 x03 x00 x00 x00)) E)
(L (W x01 x00 x00 x00 x44 x00 x00 x00)))
(T (W xc3 x01 x00 x00 x00 x00 x80 x3f)
(T (W x30 x30 x5f x30 x30 x5f x30 x30)
(L (W x4c x00 x08 x00 x0c x00 x00 x00)) E)
(L (W x70 x6d x30 x32 x30 x31 x5f x30)))))
(T (W x00 x00 x00 x01 xc1 x02 x00 x00)
(T (W x1c x00 x20 x00 x00 x00 x24 x00)
(T (W xe6 x01 x00 x00 x02 x00 x00 x00)
(T (W x2e xad xff xff xa9 x01 x00 x00)
(L (W x37 x72 x45 x71 x09 xd4 x24 x44)) E)
(L (W x28 x00 x00 x00 x04 x00 x00 x00)))
(T (W x02 x00 x00 x00 x40 x00 x00 x00)
(T (W x01 x00 x00 x00 x66 x66 xe6 x3f)
(L (W xde x0c xea x78 x0b x5e xeb x0f)) E)
(L (W xa4 xba x4c xc8 x17 x2d xef x62))))
(T (W x0a xd7 xa3 x3d x9a x99 x19 x3f)
(T (W xd6 xa0 xff xff x00 x00 x00 x01)
(T (W x00 x00 x80 x3f x00 x00 x60 x40)
(L (W x51 x00 x00 x00 x02 x00 x00 x00)) E)
(L (W x3c x00 x00 x00 x24 x00 x00 x00)))
(T (W x0a x00 x00 x00 x0a xd7 xa3 x3c)
(T (W x70 x6d x30 x30 x30 x30 x5f x30)
(L (W x00 x00 x00 x01 x19 x00 x00 x00)) E)
(L (W x02 x00 x00 x00 x00 x00 x80 x3f))))))
(T (W x00 x00 x00 x00 x16 x74 xff xff)
(T (W x04 x00 x00 x00 x0a x00 x00 x00)
(T (W x00 x00 x00 x00 x01 x00 x00 x00)
(T (W x02 x00 x00 x00 x00 x00 x80 x3f)
(T (W x02 x00 x00 x00 x9a x99 x19 x40)
(L (W x01 x00 x00 x00 x02 x00 x00 x00)) E)
(L (W xcd xcc x2c x40 x01 x00 x00 x00)))
(T (W x01 x00 x00 x00 x02 x00 x00 x00)
(T (W x03 x00 x00 x00 x0c x00 x00 x00)
(L (W x34 x00 x3c x00 x1c x00 x20 x00)) E)
(L (W x8e xfa xff xff x00 x00 x00 x01))))
(T (W x0a xd7 xa3 x3d x9a x99 x19 x3f)
(T (W x40 x00 x00 x00 x28 x00 x00 x00)
(T (W x0c x00 x00 x00 x70 x6d x30 x34)
(L (W x04 x00 x00 x00 x0a x00 x00 x00)) E)
(L (W x96 xd2 xff xff xd4 x00 x00 x00)))
(T (W x18 x00 x1c x00 x00 x00 x20 x00)
(T (W x00 x00 x80 x3f x66 x66 xc6 x3f)
(L (W x01 x00 x00 x00 x02 x00 x00 x00)) E)
(L (W xc4 x00 x00 x00 x00 x00 x80 x3f)))))
(T (W xbb xa7 xa1 x5a xaa x2e xd7 x83)
(T (W x0a xd7 xa3 x3d x9a x99 x19 x3f)
(T (W x00 x00 x32 x00 x4c x00 x08 x00)
(T (W x12 x06 xea x78 x0b x5a xeb x0f)
(L (W x3c x00 x44 x00 x1c x00 x20 x00)) E)
(L (W xbd xbf x4c xc8 x17 x30 xef x62)))
(T (W x00 x00 x00 x00 xd6 xa6 xff xff)
(T (W x04 x00 x00 x00 x0a x00 x00 x00)
(L (W xcd xcc x0c x40 x02 x00 x00 x00)) E)
(L (W x02 x00 x00 x00 x00 x00 x80 x3f))))
(T (W x00 x00 x00 x01 xed x01 x00 x00)
(T (W x0a xbe x4c xc8 x17 x2f xef x62)
(T (W xa4 xba x4c xc8 x17 x2d xef x62)
(L (W x04 x00 x00 x00 x00 x00 x00 x00)) E)
(L (W x70 x6d x30 x32 x30 x31 x5f x30)))
(T (W xa4 xba x4c xc8 x17 x2d xef x62)
(L (W x01 x00 x00 x00 x01 x00 x00 x00))
(L (W x00 x00 x00 x00 x04 x00 x00 x00))))))))
(T (W x88 x66 x00 x00 x14 x66 x00 x00)
(T (W x94 x48 x00 x00 x1c x48 x00 x00)
(T (W x7c x08 x00 x00 x00 x08 x00 x00)
(T (W x0a x00 x00 x00 x8f xc2 xf5 x3c)
(T (W x00 x00 x00 x00 x56 x80 xff xff)
(T (W x04 x00 x00 x00 x0a x00 x00 x00)
(T (W x4e xa4 xff xff x00 x00 x00 x01)
(L (W x4e xe4 xff xff x00 x00 x00 x01)) E)
(L (W x04 x00 x00 x00 x00 x00 x00 x00)))
(T (W x4e x94 xff xff x00 x00 x00 x01)
(T (W x9a x01 x00 x00 x00 x00 x80 x3f)
(L (W x04 x00 x00 x00 x0a x00 x00 x00)) E)
(L (W x3c x00 x00 x00 x24 x00 x00 x00))))
(T (W x0a xd7 xa3 x3d x9a x99 x19 x3f)
(T (W xbb xa7 xa1 x5a xaa x2e xd7 x83)
(T (W x00 x00 x00 x01 xa5 x01 x00 x00)
(L (W x40 x00 x48 x00 x24 x00 x28 x00)) E)
(L (W xd9 x00 x00 x00 x00 x00 x80 x3f)))
(T (W x30 x5f x30 x30 x00 x00 x00 x00)
(T (W x0c x00 x00 x00 x70 x6d x30 x30)
(L (W x18 x00 x1c x00 x00 x00 x20 x00)) E)
(L (W x00 x00 x1c x00 x38 x00 x40 x00)))))
(T (W x00 x00 x38 x00 x2e x00 x00 x00)
(T (W x01 x00 x00 x00 x00 x00 x80 x3f)
(T (W x0a x00 x00 x00 x0a xd7 xa3 x3d)
(T (W x03 x00 x00 x00 x0c x00 x00 x00)
(L (W x28 x00 x00 x00 x04 x00 x00 x00)) E)
(L (W x00 x00 x80 x3f x66 x66 xe6 x3f)))
(T (W x00 x00 x80 x3f x33 x33 xf3 x3f)
(T (W x01 x00 x00 x00 x40 x00 x00 x00)
(L (W x03 x00 x00 x00 x0c x00 x00 x00)) E)
(L (W x02 x00 x00 x00 xcd xcc x4c x3f))))
(T (W x0a xd7 xa3 x3d x9a x99 x19 x3f)
(T (W x00 x00 x24 x00 x28 x00 x07 x00)
(T (W x02 x00 x00 x00 x33 x33 xb3 x3f)
(L (W x04 x00 x00 x00 x0a x00 x00 x00)) E)
(L (W x00 x00 x80 x3f x9a x99 xd9 x3f)))
(T (W x03 x00 x00 x00 x40 x00 x00 x00)
(T (W x01 x00 x00 x00 x02 x00 x00 x00)
(L (W x28 x00 x00 x00 x04 x00 x00 x00)) E)
(L (W xbd xbf x4c xc8 x17 x30 xef x62))))))
(T (W x30 x33 x5f x30 x30 x5f x34 x31)
(T (W xa4 xba x4c xc8 x17 x2d xef x62)
(T (W x00 x00 x00 x00 x04 x00 x00 x00)
(T (W x02 x00 x00 x00 x0a xd7 x23 x3c)
(T (W x2c x00 x00 x00 x04 x00 x00 x00)
(L (W xbd xbf x4c xc8 x17 x30 xef x62)) E)
(L (W x30 x5f x30 x30 x00 x00 x00 x00)))
(T (W x0a xbe x4c xc8 x17 x2f xef x62)
(T (W x04 x00 x00 x00 x00 x00 x00 x00)
(L (W x00 x00 x00 x00 x96 xff xff xff)) E)
(L (W x70 x6d x30 x32 x30 x31 x5f x30))))
(T (W x0a xd7 xa3 x3d x9a x99 x19 x3f)
(T (W xbd xbf x4c xc8 x17 x30 xef x62)
(T (W x01 x00 x00 x00 x02 x00 x00 x00)
(L (W x01 x00 x00 x00 x44 x00 x00 x00)) E)
(L (W x70 x6d x30 x32 x31 x35 x5f x30)))
(T (W x00 x00 x80 x3f x33 x33 xf3 x3f)
(T (W x30 x5f x30 x30 x00 x00 x00 x00)
(L (W xa4 xba x4c xc8 x17 x2d xef x62)) E)
(L (W x30 x5f x30 x30 x00 x00 x00 x00)))))
(T (W x02 x00 x00 x00 xcd xcc x4c x40)
(T (W x04 x00 x00 x00 x0a x00 x00 x00)
(T (W x38 x34 x5f x31 x32 x5f x30 x30)
(T (W x0a x00 x00 x00 x8f xc2 xf5 x3c)
(L (W x00 x00 x00 x01 x71 x00 x00 x00)) E)
(L (W x03 x00 x00 x00 x0c x00 x00 x00)))
(T (W x03 x00 x00 x00 x0c x00 x00 x00)
(T (W x00 x00 x80 x3f x9a x99 x59 x40)
(L (W x2e x00 x00 x00 x36 x00 x00 x00)) E)
(L (W x0e xfe xff xff x00 x00 x00 x01))))
(T (W x0a xd7 xa3 x3d x9a x99 x19 x3f)
(T (W x9a x99 x19 x3e x00 x00 x00 x40)
(T (W x03 x00 x00 x00 x0c x00 x00 x00)
(L (W xa7 x1f xf0 x78 x0b x57 xf2 x0f)) E)
(L (W x01 x00 x00 x00 x02 x00 x00 x00)))
(T (W x9a x99 x99 x3f xcd xcc x4c x3f)
(L (W x30 x5f x30 x30 x00 x00 x00 x00))
(L (W x5d x15 xea x78 x0b x63 xeb x0f)))))))
(T (W x60 x2a x00 x00 xf0 x29 x00 x00)
(T (W x04 x00 x00 x00 x00 x00 x00 x00)
(T (W x02 x00 x00 x00 x04 x00 x00 x00)
(T (W x0c x00 x00 x00 x70 x6d x30 x36)
(T (W x00 x00 x80 x3f x29 x5c xef x3f)
(T (W x24 x00 x00 x00 x00 x00 x00 x00)
(L (W x28 x00 x00 x00 x04 x00 x00 x00)) E)
(L (W xa4 xba x4c xc8 x17 x2d xef x62)))
(T (W x02 x00 x00 x00 x00 x00 x40 x40)
(T (W x0a x00 x00 x00 x0a xd7 xa3 x3c)
(L (W x02 x00 x00 x00 x02 x00 x00 x00)) E)
(L (W xa4 xba x4c xc8 x17 x2d xef x62))))
(T (W x0a xd7 xa3 x3d x9a x99 x19 x3f)
(T (W x02 x00 x00 x00 xcd xcc x4c x3f)
(T (W x04 x00 x00 x00 x0a x00 x00 x00)
(L (W x00 x00 x80 x3f x33 x33 x73 x40)) E)
(L (W x30 x00 x07 x00 x00 x00 x34 x00)))
(T (W x03 x00 x00 x00 x40 x00 x00 x00)
(T (W x04 x00 x00 x00 x00 x00 x00 x00)
(L (W x01 x00 x00 x00 x02 x00 x00 x00)) E)
(L (W x00 x00 x00 x00 x04 x00 x00 x00)))))
(T (W xcd xcc x2c x40 x01 x00 x00 x00)
(T (W x30 x30 x5f x30 x30 x5f x30 x30)
(T (W x9a x99 x59 x3f x01 x00 x00 x00)
(T (W x02 x00 x00 x00 x03 x00 x00 x00)
(L (W xbd xbf x4c xc8 x17 x30 xef x62)) E)
(L (W x00 x00 x80 x3f x9a x99 xd9 x3f)))
(T (W x0a x00 x00 x00 x0a xd7 xa3 x3c)
(T (W x04 x00 x00 x00 x00 x00 x00 x00)
(L (W xa4 xba x4c xc8 x17 x2d xef x62)) E)
(L (W x01 x00 x00 x00 x02 x00 x00 x00))))
(T (W x0a xd7 xa3 x3d x9a x99 x19 x3f)
(T (W x00 x00 x80 x3f x00 x00 xc0 x3f)
(T (W x2c x00 x00 x00 x30 x00 x00 x00)
(L (W x03 x00 x00 x00 x40 x00 x00 x00)) E)
(L (W x02 x00 x00 x00 xcd xcc x4c x3f)))
(T (W x39 x61 x45 x71 x09 xca x24 x44)
(L (W x00 x00 x00 x00 x0c x00 x10 x00))
(L (W xa4 xba x4c xc8 x17 x2d xef x62))))))
(T (W x7b x14 xae x3f x03 x00 x00 x00)
(T (W x01 x00 x00 x00 x00 x00 x80 x3f)
(T (W x0c x00 x00 x00 x70 x6d x30 x30)
(T (W x01 x00 x00 x00 x04 x00 x00 x00)
(T (W xbd xbf x4c xc8 x17 x30 xef x62)
(L (W x30 x5f x30 x30 x00 x00 x00 x00)) E)
(L (W x28 x00 x00 x00 x04 x00 x00 x00)))
(T (W x70 x6d x30 x30 x30 x30 x5f x30)
(T (W x30 x5f x30 x30 x00 x00 x00 x00)
(L (W x30 x5f x30 x30 x00 x00 x00 x00)) E)
(L (W x02 x00 x00 x00 x00 x00 x80 x3f))))
(T (W x0a xd7 xa3 x3d x9a x99 x19 x3f)
(T (W x04 x00 x00 x00 x0a x00 x00 x00)
(T (W x9e x01 x00 x00 x02 x00 x00 x00)
(L (W x91 x0e xea x78 x0b x5f xeb x0f)) E)
(L (W x00 x00 x24 x00 x28 x00 x00 x00)))
(T (W x30 x5f x30 x30 x00 x00 x00 x00)
(T (W x04 x00 x00 x00 x0a x00 x00 x00)
(L (W x0c x00 x00 x00 x70 x6d x30 x30)) E)
(L (W x40 x00 x00 x00 x28 x00 x00 x00)))))
(T (W x00 x00 x00 x00 x01 x00 x00 x00)
(T (W x0a xd7 xa3 x3d x9a x99 x19 x3f)
(T (W x04 x00 x00 x00 x00 x00 x00 x00)
(T (W x00 x00 x00 x00 x04 x00 x00 x00)
(L (W x70 x6d x30 x31 x31 x32 x5f x30)) E)
(L (W x03 x00 x00 x00 x0c x00 x00 x00)))
(T (W x00 x00 x80 x3f x00 x00 x00 x40)
(T (W xbd xbf x4c xc8 x17 x30 xef x62)
(L (W x2c x00 x00 x00 x04 x00 x00 x00)) E)
(L (W x40 x00 x00 x00 x28 x00 x00 x00))))
(T (W x0c x00 x10 x00 x14 x00 x18 x00)
(T (W x00 x00 x00 x00 x01 x00 x00 x00)
(T (W x01 x00 x00 x00 x02 x00 x00 x00)
(L (W x02 x00 x00 x00 x00 x00 xc0 x3f)) E)
(L (W x0e xf7 xff xff x00 x00 x00 x01)))
(T (W x01 x00 x00 x00 x02 x00 x00 x00)
(L (W x0a x00 x00 x00 x0a xd7 xa3 x3c))
(L (W x01 x00 x00 x00 x02 x00 x00 x00))))))))))
(T (W xec x91 x00 x00 x48 x91 x00 x00)
(T (W x90 x89 x00 x00 xe4 x88 x00 x00)
(T (W xa8 x79 x00 x00 x38 x79 x00 x00)
(T (W x30 x5b x00 x00 xbc x5a x00 x00)
(T (W x90 x1d x00 x00 x1c x1d x00 x00)
(T (W x00 x00 x00 x00 xf2 x73 xff xff)
(T (W xbb xa7 xa1 x5a xaa x2e xd7 x83)
(T (W x0a xd7 xa3 x3d x9a x99 x19 x3f)
(T (W xbd xbf x4c xc8 x17 x30 xef x62)
(L (W xbd xbf x4c xc8 x17 x30 xef x62)) E)
(L (W x01 x00 x00 x00 x40 x00 x00 x00)))
(T (W xbd xbf x4c xc8 x17 x30 xef x62)
(T (W x04 x00 x00 x00 x00 x00 x00 x00)
(L (W x3c x00 x00 x00 x24 x00 x00 x00)) E)
(L (W x70 x6d x30 x32 x30 x31 x5f x30))))
(T (W x00 x00 x80 x3f x33 x33 x73 x3f)
(T (W x02 x00 x00 x00 x00 x00 x80 x3f)
(T (W xa5 x01 x00 x00 x01 x00 x00 x00)
(L (W x01 x00 x00 x00 x02 x00 x00 x00)) E)
(L (W x04 x00 x00 x00 x00 x00 x00 x00)))
(T (W x30 x5f x30 x30 x00 x00 x2e x00)
(T (W x5d x15 xea x78 x0b x63 xeb x0f)
(L (W x10 x00 x14 x00 x30 x00 x38 x00)) E)
(L (W x00 x00 x1c x00 x38 x00 x40 x00)))))
(T (W x30 x5f x34 x31 x00 x00 x00 x00)
(T (W x01 x00 x00 x00 x05 x00 x00 x00)
(T (W x00 x00 x00 x01 xe7 x01 x00 x00)
(T (W x8f xc2 xf5 x3c x00 x00 x80 x3f)
(L (W x70 x6d x30 x30 x30 x30 x5f x30)) E)
(L (W x3c x00 x44 x00 x20 x00 x24 x00)))
(T (W x01 x00 x00 x00 x02 x00 x00 x00)
(T (W x03 x00 x00 x00 x0c x00 x00 x00)
(L (W x0c x00 x00 x00 x70 x6d x30 x30)) E)
(L (W x6e xfb xff xff x00 x00 x00 x01))))
(T (W x00 x00 x80 x3f x33 x33 x73 x3f)
(T (W x00 x00 x2c x00 x30 x00 x07 x00)
(T (W x30 x30 x5f x30 x30 x5f x30 x30)
(L (W x04 x00 x00 x00 x0a x00 x00 x00)) E)
(L (W x01 x00 x00 x00 x02 x00 x00 x00)))
(T (W x03 x00 x00 x00 x0c x00 x00 x00)
(T (W x40 x00 x00 x00 x28 x00 x00 x00)
(L (W x2c x00 x00 x00 x04 x00 x00 x00)) E)
(L (W x00 x00 x80 x3f x66 x66 xe6 x3f))))))
(T (W xbd xbf x4c xc8 x17 x30 xef x62)
(T (W x00 x00 x80 x3f x33 x33 x13 x40)
(T (W x00 x00 x00 x00 x01 x00 x00 x00)
(T (W xb6 x95 xff xff x00 x00 x00 x01)
(T (W x70 x6d x30 x30 x30 x30 x5f x30)
(L (W x33 x33 xf3 x3f x01 x00 x00 x00)) E)
(L (W xd3 xf6 xec x78 x0b xc8 xee x0f)))
(T (W x48 x00 x00 x00 x30 x00 x00 x00)
(T (W x04 x00 x00 x00 x44 x00 x00 x00)
(L (W x50 x00 x08 x00 x00 x00 x00 x00)) E)
(L (W x02 x00 x00 x00 xcd xcc x4c x3f))))
(T (W x00 x00 x80 x3f x33 x33 x73 x3f)
(T (W x01 x00 x00 x00 x04 x00 x00 x00)
(T (W x40 x00 x00 x00 x28 x00 x00 x00)
(L (W x30 x00 x00 x00 x00 x00 x34 x00)) E)
(L (W x03 x00 x00 x00 x0c x00 x00 x00)))
(T (W xc1 x01 x00 x00 x00 x00 x80 x3f)
(T (W xf6 x0c xf0 x78 x0b x4c xf2 x0f)
(L (W xbd xbf x4c xc8 x17 x30 xef x62)) E)
(L (W x39 x61 x45 x71 x09 xca x24 x44)))))
(T (W xae x71 xff xff x00 x00 x00 x01)
(T (W x03 x00 x00 x00 x0c x00 x00 x00)
(T (W x00 x00 x32 x00 x50 x00 x08 x00)
(T (W x00 x00 x00 x00 xe6 xac xff xff)
(L (W x2e x00 x00 x00 x00 x00 x01 x01)) E)
(L (W x3c x00 x00 x00 x24 x00 x00 x00)))
(T (W x3c x00 x00 x00 x24 x00 x00 x00)
(T (W xbd xbf x4c xc8 x17 x30 xef x62)
(L (W x37 x00 x00 x00 x00 x00 x80 x3f)) E)
(L (W xa4 xba x4c xc8 x17 x2d xef x62))))
(T (W x00 x00 x80 x3f x33 x33 x73 x3f)
(T (W x0e x96 xff xff xdc x01 x00 x00)
(T (W x01 x00 x00 x00 x02 x00 x00 x00)
(L (W x4d x00 x00 x00 x00 x00 x80 x3f)) E)
(L (W x3c x00 x00 x00 x24 x00 x00 x00)))
(T (W x02 x00 x00 x00 x9a x99 x99 x3f)
(L (W x43 x0b xf0 x78 x0b x4b xf2 x0f))
(L (W x9a x99 x99 x3f xcd xcc x4c x3f)))))))
(T (W x30 x3d x00 x00 xbc x3c x00 x00)
(T (W x01 x00 x00 x00 x04 x00 x00 x00)
(T (W x03 x00 x00 x00 x44 x00 x00 x00)
(T (W x0c x00 x00 x00 x70 x6d x30 x36)
(T (W x00 x00 x18 x00 x38 x00 x40 x00)
(T (W x70 x6d x30 x30 x30 x30 x5f x30)
(L (W x70 x6d x30 x30 x30 x30 x5f x30)) E)
(L (W x00 x00 x80 x3f x00 x00 x00 x40)))
(T (W x70 x6d x30 x30 x30 x30 x5f x30)
(T (W x30 x5f x30 x30 x00 x00 x00 x00)
(L (W x02 x00 x00 x00 x04 x00 x00 x00)) E)
(L (W x02 x00 x00 x00 x00 x00 x80 x3f))))
(T (W x00 x00 x80 x3f x33 x33 x73 x3f)
(T (W x04 x00 x00 x00 x0a x00 x00 x00)
(T (W x0c x00 x00 x00 x70 x6d x30 x30)
(L (W xbb xa7 xa1 x5a xaa x2e xd7 x83)) E)
(L (W x30 x30 x5f x30 x30 x5f x30 x30)))
(T (W x03 x00 x00 x00 x0c x00 x00 x00)
(T (W x00 x00 x00 x00 x04 x00 x00 x00)
(L (W x01 x00 x00 x00 x02 x00 x00 x00)) E)
(L (W xa4 xba x4c xc8 x17 x2d xef x62)))))
(T (W x02 x00 x00 x00 x03 x00 x00 x00)
(T (W x30 x30 x5f x30 x30 x5f x30 x30)
(T (W x20 x00 x24 x00 x00 x00 x28 x00)
(T (W x01 x00 x00 x00 x02 x00 x00 x00)
(L (W x02 x00 x00 x00 x02 x00 x00 x00)) E)
(L (W x2e xdf xff xff x00 x00 x01 x01)))
(T (W x30 x5f x30 x30 x00 x00 x00 x00)
(T (W x00 x00 x80 x3f x00 x00 x00 x40)
(L (W x03 x00 x00 x00 x44 x00 x00 x00)) E)
(L (W x3c x00 x00 x00 x24 x00 x00 x00))))
(T (W x00 x00 x80 x3f x33 x33 x73 x3f)
(T (W x01 x00 x00 x00 x02 x00 x00 x00)
(T (W x2c x00 x00 x00 x30 x00 x00 x00)
(L (W x20 x00 x24 x00 x00 x00 x28 x00)) E)
(L (W x6e xf4 xff xff x00 x00 x00 x01)))
(T (W xbb x01 x00 x00 x00 x00 x80 x3f)
(T (W xa4 xba x4c xc8 x17 x2d xef x62)
(L (W x34 x00 x3c x00 x18 x00 x1c x00)) E)
(L (W xb0 x00 x00 x00 x00 x00 x80 x3f))))))
(T (W x00 x00 x00 x00 x01 x00 x00 x00)
(T (W xc9 x02 x00 x00 x02 x00 x00 x00)
(T (W x9a x99 x99 x3f x33 x33 xb3 x3f)
(T (W x00 x00 x24 x00 x28 x00 x07 x00)
(T (W x00 x00 x80 x3f x33 x33 xb3 x3f)
(L (W x9a x99 x99 x3f x9a x99 x99 x3f)) E)
(L (W x70 x6d x30 x30 x30 x30 x5f x30)))
(T (W x00 x00 x80 x3f x00 x00 xe0 x40)
(T (W xf7 x11 xea x78 x0b x61 xeb x0f)
(L (W x70 x6d x30 x30 x36 x35 x5f x30)) E)
(L (W x01 x00 x00 x00 x02 x00 x00 x00))))
(T (W x00 x00 x80 x3f x33 x33 x73 x3f)
(T (W x00 x00 x00 x01 xdf x01 x00 x00)
(T (W xbd xbf x4c xc8 x17 x30 xef x62)
(L (W x00 x00 x00 x01 x5e x00 x00 x00)) E)
(L (W x01 x00 x00 x00 x02 x00 x00 x00)))
(T (W x34 x38 x5f x30 x30 x5f x30 x30)
(T (W x03 x00 x00 x00 x0c x00 x00 x00)
(L (W x9a x99 x99 x3f x66 x66 x66 x3f)) E)
(L (W x03 x00 x00 x00 x0c x00 x00 x00)))))
(T (W x3c x00 x00 x00 x24 x00 x00 x00)
(T (W x00 x00 x80 x3f x33 x33 x73 x3f)
(T (W x00 x00 x00 x00 x01 x00 x00 x00)
(T (W x01 x00 x00 x00 x44 x00 x00 x00)
(L (W x70 x6d x30 x30 x30 x30 x5f x30)) E)
(L (W x28 x00 x00 x00 x04 x00 x00 x00)))
(T (W x00 x00 x00 x00 x01 x00 x00 x00)
(T (W x76 xbe xff xff x8b x01 x00 x00)
(L (W x70 x6d x30 x30 x30 x30 x5f x30)) E)
(L (W x70 x6d x30 x32 x30 x31 x5f x30))))
(T (W x24 x00 x28 x00 x00 x00 x2c x00)
(T (W x3c x00 x00 x00 x24 x00 x00 x00)
(T (W x40 x00 x00 x00 x28 x00 x00 x00)
(L (W x0a x00 x00 x00 x8f xc2 xf5 x3c)) E)
(L (W xa4 xba x4c xc8 x17 x2d xef x62)))
(T (W x2c x00 x00 x00 x04 x00 x00 x00)
(L (W x70 x6d x30 x30 x30 x30 x5f x30))
(L (W x04 x00 x00 x00 x0a x00 x00 x00))))))))
(T (W xa0 x6a x00 x00 x30 x6a x00 x00)
(T (W xd4 x4c x00 x00 x60 x4c x00 x00)
(T (W x24 x0c x00 x00 xac x0b x00 x00)
(T (W x84 x03 x00 x00 x00 x00 x80 x3f)
(T (W x00 x00 x00 x00 x01 x00 x00 x00)
(T (W xed x01 x00 x00 x02 x00 x00 x00)
(T (W x01 x00 x00 x00 x02 x00 x00 x00)
(L (W x01 x00 x00 x00 x02 x00 x00 x00)) E)
(L (W x0a x00 x00 x00 x8f xc2 xf5 x3c)))
(T (W x01 x00 x00 x00 x02 x00 x00 x00)
(T (W x03 x00 x00 x00 x0c x00 x00 x00)
(L (W x00 x00 x00 x01 x48 x00 x00 x00)) E)
(L (W xee xf7 xff xff x00 x00 x00 x01))))
(T (W x00 x00 x80 x3f x33 x33 x73 x3f)
(T (W x5c x8f x02 x40 x04 x00 x00 x00)
(T (W x3c x00 x44 x00 x1c x00 x20 x00)
(L (W x70 x6d x30 x30 x30 x30 x5f x30)) E)
(L (W x03 x00 x00 x00 x0c x00 x00 x00)))
(T (W x04 x00 x00 x00 x00 x00 x00 x00)
(T (W x0a xbe x4c xc8 x17 x2f xef x62)
(L (W x30 x30 x5f x30 x30 x5f x30 x30)) E)
(L (W x0c x00 x00 x00 x70 x6d x30 x32)))))
(T (W x10 x00 x14 x00 x18 x00 x1c x00)
(T (W x2c x00 x00 x00 x00 x00 x30 x00)
(T (W x02 x00 x00 x00 x00 x00 x80 x3f)
(T (W x5d x15 xea x78 x0b x63 xeb x0f)
(L (W xae xfe xff xff x00 x00 x01 x01)) E)
(L (W x0c x00 x00 x00 x70 x6d x30 x30)))
(T (W x0c x00 x00 x00 x70 x6d x30 x34)
(T (W x30 x30 x5f x30 x30 x5f x30 x30)
(L (W xbb xa7 xa1 x5a xaa x2e xd7 x83)) E)
(L (W x02 x00 x00 x00 x00 x00 x80 x3f))))
(T (W x00 x00 x80 x3f x33 x33 x73 x3f)
(T (W x32 x5f x30 x30 x00 x00 x2e x00)
(T (W x00 x00 x80 x3f x66 x66 x06 x40)
(L (W x52 x00 x00 x00 x02 x00 x00 x00)) E)
(L (W x0c x00 x00 x00 x70 x6d x30 x30)))
(T (W x30 x5f x30 x30 x00 x00 x00 x00)
(T (W x02 x00 x00 x00 xcd xcc x4c x40)
(L (W x2e x00 x00 x00 x00 x00 x00 x01)) E)
(L (W x28 x00 x00 x00 x04 x00 x00 x00))))))
(T (W x00 x00 x00 x00 x04 x00 x00 x00)
(T (W x3c x00 x00 x00 x24 x00 x00 x00)
(T (W x8f xc2 xf5 x3c x00 x00 x80 x3f)
(T (W x02 x00 x00 x00 x00 x00 x80 x3f)
(T (W x00 x00 x00 x00 xbe xe1 xff xff)
(L (W x2c x00 x00 x00 x04 x00 x00 x00)) E)
(L (W x04 x00 x00 x00 x00 x00 x00 x00)))
(T (W x04 x00 x00 x00 x0a x00 x00 x00)
(T (W x0a x00 x00 x00 x0a xd7 x23 x3c)
(L (W x00 x00 x00 x00 x01 x00 x00 x00)) E)
(L (W xa4 xba x4c xc8 x17 x2d xef x62))))
(T (W x00 x00 x80 x3f x33 x33 x73 x3f)
(T (W x3c x00 x00 x00 x24 x00 x00 x00)
(T (W x9a x99 x99 x3f x33 x33 x33 x3f)
(L (W x30 x5f x34 x31 x00 x00 x00 x00)) E)
(L (W xa4 xba x4c xc8 x17 x2d xef x62)))
(T (W x00 x00 x24 x00 x28 x00 x06 x00)
(T (W x04 x00 x00 x00 x00 x00 x00 x00)
(L (W x2c x00 x00 x00 x04 x00 x00 x00)) E)
(L (W x04 x00 x00 x00 x00 x00 x00 x00)))))
(T (W x00 x00 x80 x3f x66 x66 xa6 x3f)
(T (W x00 x00 x00 x00 xb6 x99 xff xff)
(T (W x00 x00 x00 x00 x04 x00 x00 x00)
(T (W xa7 x01 x00 x00 x00 x00 x80 x3f)
(L (W x3c x00 x44 x00 x20 x00 x24 x00)) E)
(L (W x20 x5c x45 x71 x09 xc7 x24 x44)))
(T (W x39 x61 x45 x71 x09 xca x24 x44)
(T (W x03 x00 x00 x00 x0c x00 x00 x00)
(L (W x10 x00 x14 x00 x38 x00 x40 x00)) E)
(L (W x01 x00 x00 x00 x02 x00 x00 x00))))
(T (W x00 x00 x80 x3f x33 x33 x73 x3f)
(T (W x01 x00 x00 x00 x04 x00 x00 x00)
(T (W xa9 x0e xf0 x78 x0b x4d xf2 x0f)
(L (W x03 x00 x00 x00 x40 x00 x00 x00)) E)
(L (W x02 x00 x00 x00 xcd xcc x4c x3f)))
(T (W x00 x00 x80 x3f x66 x66 x06 x40)
(L (W x04 x00 x00 x00 x00 x00 x00 x00))
(L (W x02 x00 x00 x00 x44 x00 x00 x00)))))))
(T (W xf8 x2d x00 x00 x8c x2d x00 x00)
(T (W x04 x00 x00 x00 x0a x00 x00 x00)
(T (W x00 x00 x00 x00 x00 x00 x34 x00)
(T (W xbd xbf x4c xc8 x17 x30 xef x62)
(T (W x70 x6d x30 x30 x30 x30 x5f x30)
(T (W x3c x00 x04 x00 x00 x00 x00 x00)
(L (W x2e xe5 xff xff x00 x00 x00 x01)) E)
(L (W x28 x00 x00 x00 x04 x00 x00 x00)))
(T (W x00 x00 x80 x3f x00 x00 xc0 x3f)
(T (W x98 x01 x00 x00 x00 x00 x80 x3f)
(L (W x00 x00 x2c x00 x30 x00 x07 x00)) E)
(L (W x3c x00 x00 x00 x24 x00 x00 x00))))
(T (W x00 x00 x80 x3f x33 x33 x73 x3f)
(T (W x02 x00 x00 x00 x00 x00 x80 x3f)
(T (W x8e xb1 xff xff xa3 x01 x00 x00)
(L (W x00 x00 x00 x40 x02 x00 x00 x00)) E)
(L (W x0c x00 x00 x00 x10 x00 x14 x00)))
(T (W x30 x5f x30 x30 x00 x00 x00 x00)
(T (W x0a xd7 x23 x3c x9a x99 x99 x3f)
(L (W x00 x00 x80 x3f x66 x66 x26 x40)) E)
(L (W x04 x00 x00 x00 x0a x00 x00 x00)))))
(T (W x70 x6d x30 x30 x30 x30 x5f x30)
(T (W x00 x00 x00 x00 x04 x00 x00 x00)
(T (W x70 x6d x30 x34 x38 x36 x5f x30)
(T (W x30 x30 x5f x30 x30 x5f x30 x30)
(L (W x04 x00 x00 x00 x0a x00 x00 x00)) E)
(L (W x66 x66 xe6 x3f x01 x00 x00 x00)))
(T (W xcb x01 x00 x00 x00 x00 x80 x3f)
(T (W x04 x00 x00 x00 x0a x00 x00 x00)
(L (W x28 x00 x00 x00 x04 x00 x00 x00)) E)
(L (W x02 x00 x00 x00 xcd xcc x4c x3f))))
(T (W x00 x00 x80 x3f x33 x33 x73 x3f)
(T (W x0c x00 x00 x00 x70 x6d x30 x34)
(T (W x00 x00 x2e x00 x48 x00 x04 x00)
(L (W x30 x5f x30 x30 x00 x00 x00 x00)) E)
(L (W x02 x00 x00 x00 x00 x00 x80 x3f)))
(T (W x04 x00 x00 x00 x40 x00 x00 x00)
(T (W x02 x00 x00 x00 x03 x00 x00 x00)
(L (W x30 x5f x30 x30 x00 x00 x00 x00)) E)
(L (W x2c x00 x00 x00 x04 x00 x00 x00))))))
(T (W x70 x6d x31 x30 x30 x36 x5f x31)
(T (W x00 x00 x28 x00 x2c x00 x06 x00)
(T (W xa4 xba x4c xc8 x17 x2d xef x62)
(T (W x30 x5f x30 x30 x00 x00 x00 x00)
(T (W x40 x00 x00 x00 x28 x00 x00 x00)
(L (W x04 x00 x00 x00 x00 x00 x00 x00)) E)
(L (W x00 x00 x00 x00 x96 xc6 xff xff)))
(T (W x0a xbe x4c xc8 x17 x2f xef x62)
(T (W x04 x00 x00 x00 x00 x00 x00 x00)
(L (W x04 x00 x00 x00 x00 x00 x00 x00)) E)
(L (W x70 x6d x30 x32 x30 x31 x5f x30))))
(T (W x00 x00 x80 x3f x33 x33 x73 x3f)
(T (W x02 x00 x00 x00 x02 x00 x00 x00)
(T (W x02 x00 x00 x00 x03 x00 x00 x00)
(L (W x03 x00 x00 x00 x02 x00 x00 x00)) E)
(L (W x30 x5f x30 x30 x00 x00 x2e x00)))
(T (W x04 x00 x00 x00 x00 x00 x00 x00)
(T (W xf6 xc2 xff xff x6c x01 x00 x00)
(L (W x0a xbe x4c xc8 x17 x2f xef x62)) E)
(L (W x30 x5f x30 x30 x00 x00 x00 x00)))))
(T (W x02 x00 x00 x00 x33 x33 x33 x40)
(T (W x00 x00 x80 x3f x33 x33 x73 x3f)
(T (W x04 x00 x00 x00 x0a x00 x00 x00)
(T (W x0a x00 x00 x00 x0a xd7 x23 x3c)
(L (W xbd xbf x4c xc8 x17 x30 xef x62)) E)
(L (W x1e x06 xed x78 x0b xd1 xee x0f)))
(T (W x0c x00 x00 x00 x70 x6d x30 x34)
(T (W x40 x00 x00 x00 x28 x00 x00 x00)
(L (W xce xfb xff xff x00 x00 x00 x01)) E)
(L (W x8e xff xff xff x00 x00 x00 x01))))
(T (W x02 x00 x00 x00 x03 x00 x00 x00)
(T (W x00 x00 x80 x3f x00 x00 x20 x41)
(T (W x02 x00 x00 x00 x9a x99 x19 x3f)
(L (W x00 x00 x80 x3f x00 x00 xc0 x3f)) E)
(L (W x01 x00 x00 x00 x02 x00 x00 x00)))
(T (W x9a x99 x99 x3f x33 x33 x33 x3f)
(L (W x3b x01 x00 x00 x00 x00 x80 x3f))
(L (W x00 x00 x80 x3f xcd xcc x2c x40)))))))))
(T (W x30 x81 x00 x00 xbc x80 x00 x00)
(T (W xe0 x71 x00 x00 x6c x71 x00 x00)
(T (W xf0 x53 x00 x00 x84 x53 x00 x00)
(T (W xac x14 x00 x00 x28 x14 x00 x00)
(T (W xbb xa7 xa1 x5a xaa x2e xd7 x83)
(T (W x00 x00 x80 x3f x66 x66 xa6 x3f)
(T (W x32 x5f x30 x30 x00 x00 x32 x00)
(T (W x00 x00 x80 x3f xcd xcc x0c x40)
(L (W xcd xcc x0c x40 x01 x00 x00 x00)) E)
(L (W x03 x00 x00 x00 x0c x00 x00 x00)))
(T (W x33 x33 xf3 x3f x01 x00 x00 x00)
(T (W x03 x00 x00 x00 x40 x00 x00 x00)
(L (W x70 x6d x30 x30 x37 x33 x5f x30)) E)
(L (W x02 x00 x00 x00 xcd xcc x4c x3f))))
(T (W x00 x00 x00 x00 x04 x00 x00 x00)
(T (W x00 x00 x00 x00 x04 x00 x00 x00)
(T (W xbd xbf x4c xc8 x17 x30 xef x62)
(L (W x28 x00 x00 x00 x04 x00 x00 x00)) E)
(L (W x01 x00 x00 x00 x40 x00 x00 x00)))
(T (W x00 x00 x80 x3f x00 x00 x00 x40)
(T (W x00 x00 x00 x01 x88 x01 x00 x00)
(L (W x04 x00 x00 x00 x0a x00 x00 x00)) E)
(L (W x40 x00 x00 x00 x28 x00 x00 x00)))))
(T (W xec xfb xec x78 x0b xcb xee x0f)
(T (W x00 x00 x00 x00 x01 x00 x00 x00)
(T (W xbb xa7 xa1 x5a xaa x2e xd7 x83)
(T (W x30 x30 x5f x30 x30 x5f x30 x30)
(L (W x00 x00 x80 x3f xcd xcc x0c x40)) E)
(L (W x2c x00 x00 x00 x04 x00 x00 x00)))
(T (W x40 x00 x00 x00 x28 x00 x00 x00)
(T (W x0a x00 x00 x00 x0a xd7 xa3 x3c)
(L (W x00 x00 x38 x00 x32 x00 x00 x00)) E)
(L (W xa4 xba x4c xc8 x17 x2d xef x62))))
(T (W x00 x00 x00 x00 x04 x00 x00 x00)
(T (W x04 x00 x00 x00 x0a x00 x00 x00)
(T (W xd3 xf6 xec x78 x0b xc8 xee x0f)
(L (W x39 x32 x5f x30 x30 x5f x30 x30)) E)
(L (W x2c x00 x00 x00 x04 x00 x00 x00)))
(T (W x0a x00 x00 x00 x0a xd7 x23 x3d)
(T (W x0c x00 x00 x00 x70 x6d x30 x30)
(L (W x0c x00 x00 x00 x70 x6d x30 x30)) E)
(L (W x01 x00 x00 x00 x02 x00 x00 x00))))))
(T (W x00 x00 x80 x3f x00 x00 x00 x40)
(T (W x00 x00 x00 x00 x01 x00 x00 x00)
(T (W x2c x00 x06 x00 x00 x00 x30 x00)
(T (W xbb xa7 xa1 x5a xaa x2e xd7 x83)
(T (W x9a x99 x99 x3f x00 x00 x00 x40)
(L (W x01 x00 x00 x00 x02 x00 x00 x00)) E)
(L (W x0c x01 x00 x00 x00 x00 x80 x3f)))
(T (W x02 x00 x00 x00 x03 x00 x00 x00)
(T (W x02 x00 x00 x00 x03 x00 x00 x00)
(L (W x01 x00 x00 x00 x01 x00 x00 x00)) E)
(L (W xae xf9 xff xff x00 x00 x00 x01))))
(T (W x00 x00 x00 x00 x04 x00 x00 x00)
(T (W x02 x00 x00 x00 x03 x00 x00 x00)
(T (W x0c x00 x00 x00 x70 x6d x30 x30)
(L (W x0a x00 x00 x00 x0a xd7 xa3 x3c)) E)
(L (W x00 x00 x30 x00 x2e x00 x00 x00)))
(T (W x04 x00 x00 x00 x00 x00 x00 x00)
(T (W x84 x01 x00 x00 x00 x00 x80 x3f)
(L (W x00 x00 x18 x00 x38 x00 x40 x00)) E)
(L (W x00 x00 x00 x01 xc6 x00 x00 x00)))))
(T (W xbd xbf x4c xc8 x17 x30 xef x62)
(T (W x01 x00 x00 x00 x9a x99 x99 x3f)
(T (W x01 x00 x00 x00 x02 x00 x00 x00)
(T (W x12 x06 xea x78 x0b x5a xeb x0f)
(L (W xa4 xba x4c xc8 x17 x2d xef x62)) E)
(L (W x70 x6d x30 x32 x33 x33 x5f x30)))
(T (W x70 x6d x30 x30 x30 x30 x5f x30)
(T (W x01 x00 x00 x00 x02 x00 x00 x00)
(L (W xbd xbf x4c xc8 x17 x30 xef x62)) E)
(L (W x02 x00 x00 x00 x00 x00 x80 x3f))))
(T (W x00 x00 x00 x00 x04 x00 x00 x00)
(T (W x00 x00 x00 x00 x04 x00 x00 x00)
(T (W x2c x00 x00 x00 x00 x00 x00 x00)
(L (W x04 x00 x00 x00 x00 x00 x00 x00)) E)
(L (W x70 x6d x30 x32 x30 x31 x5f x30)))
(T (W x00 x00 x2e x00 x48 x00 x08 x00)
(L (W x00 x00 x00 x01 x63 x01 x00 x00))
(L (W x48 x00 x08 x00 x00 x00 x00 x00)))))))
(T (W x68 x35 x00 x00 xf0 x34 x00 x00)
(T (W x02 x00 x00 x00 x03 x00 x00 x00)
(T (W x02 x00 x00 x00 x03 x00 x00 x00)
(T (W x2e x00 x00 x00 x00 x00 x00 x01)
(T (W x28 x00 x00 x00 x04 x00 x00 x00)
(T (W x9a x99 x99 x3f x9a x99 x99 x3f)
(L (W x02 x00 x00 x00 xcd xcc xcc x3f)) E)
(L (W x00 x00 x00 x00 x01 x00 x00 x00)))
(T (W x52 xff xec x78 x0b xcd xee x0f)
(T (W x05 x68 x45 x71 x09 xce x24 x44)
(L (W x01 x00 x00 x00 x02 x00 x00 x00)) E)
(L (W x01 x00 x00 x00 x02 x00 x00 x00))))
(T (W x00 x00 x00 x00 x04 x00 x00 x00)
(T (W x38 x31 x5f x30 x30 x5f x30 x30)
(T (W x9a x99 x99 x3f xcd xcc xcc x3e)
(L (W x0c x00 x10 x00 x14 x00 x18 x00)) E)
(L (W xd3 xf6 xec x78 x0b xc8 xee x0f)))
(T (W x0a x00 x00 x00 x0a xd7 x23 x3c)
(T (W x18 x00 x1c x00 x00 x00 x20 x00)
(L (W x00 x00 x30 x00 x34 x00 x07 x00)) E)
(L (W x34 x00 x3c x00 x1c x00 x20 x00)))))
(T (W x28 x00 x00 x00 x04 x00 x00 x00)
(T (W x24 x02 x00 x00 x01 x00 x00 x00)
(T (W x04 x00 x00 x00 x0a x00 x00 x00)
(T (W x04 x00 x00 x00 x0a x00 x00 x00)
(L (W x02 x00 x00 x00 x03 x00 x00 x00)) E)
(L (W xa4 xba x4c xc8 x17 x2d xef x62)))
(T (W x9f xfd xec x78 x0b xcc xee x0f)
(T (W x01 x00 x00 x00 x02 x00 x00 x00)
(L (W x02 x00 x00 x00 x03 x00 x00 x00)) E)
(L (W x70 x6d x30 x32 x30 x31 x5f x30))))
(T (W x00 x00 x00 x00 x04 x00 x00 x00)
(T (W x40 x00 x00 x00 x28 x00 x00 x00)
(T (W x02 x00 x00 x00 x00 x00 x80 x3f)
(L (W x04 x00 x00 x00 x0a x00 x00 x00)) E)
(L (W xa4 xba x4c xc8 x17 x2d xef x62)))
(T (W x04 x00 x00 x00 x00 x00 x00 x00)
(T (W x01 x00 x00 x00 x03 x00 x00 x00)
(L (W x0a x00 x00 x00 x0a xd7 xa3 x3c)) E)
(L (W x00 x00 x00 x00 x01 x00 x00 x00))))))
(T (W x3c x00 x00 x00 x24 x00 x00 x00)
(T (W x04 x00 x00 x00 x00 x00 x00 x00)
(T (W x00 x00 x00 x00 x8e xc4 xff xff)
(T (W x02 x00 x00 x00 x0a xd7 x23 x3c)
(T (W x00 x00 x00 x00 x01 x00 x00 x00)
(L (W xb6 xea xff xff x82 x00 x00 x00)) E)
(L (W x9a x99 x99 x3f x33 x33 xb3 x3f)))
(T (W xee x96 xff xff x00 x00 x00 x01)
(T (W x94 x01 x00 x00 x00 x00 x80 x3f)
(L (W x00 x00 x00 x01 x40 x00 x00 x00)) E)
(L (W x3c x00 x00 x00 x24 x00 x00 x00))))
(T (W x00 x00 x00 x00 x04 x00 x00 x00)
(T (W xbd xbf x4c xc8 x17 x30 xef x62)
(T (W x00 x00 x40 x40 x01 x00 x00 x00)
(L (W x00 x00 x00 x00 x04 x00 x00 x00)) E)
(L (W x04 x00 x00 x00 x0a x00 x00 x00)))
(T (W xbf x01 x00 x00 x00 x00 x80 x3f)
(T (W x01 x00 x00 x00 x66 x66 x86 x40)
(L (W x8e xff xff xff x00 x00 x00 x01)) E)
(L (W x0a x00 x00 x00 x0a xd7 xa3 x3c)))))
(T (W x70 x6d x30 x36 x34 x35 x5f x31)
(T (W x00 x00 x00 x00 x04 x00 x00 x00)
(T (W x30 x00 x07 x00 x00 x00 x00 x00)
(T (W x02 x00 x00 x00 x03 x00 x00 x00)
(L (W x00 x00 x00 x01 x70 x00 x00 x00)) E)
(L (W x70 x6d x30 x30 x30 x30 x5f x30)))
(T (W x40 x00 x00 x00 x28 x00 x00 x00)
(T (W x04 x00 x00 x00 x00 x00 x00 x00)
(L (W x00 x00 x80 x3f xcd xcc x0c x40)) E)
(L (W x02 x00 x00 x00 xcd xcc x4c x3f))))
(T (W x48 x00 x00 x00 x30 x00 x00 x00)
(T (W x70 x6d x30 x34 x37 x34 x5f x30)
(T (W x0c x00 x00 x00 x70 x6d x30 x30)
(L (W x30 x5f x30 x30 x00 x00 x2e x00)) E)
(L (W x02 x00 x00 x00 x00 x00 x80 x3f)))
(T (W x0c x00 x00 x00 x70 x6d x30 x30)
(L (W x5d x15 xea x78 x0b x63 xeb x0f))
(L (W x36 x39 x5f x30 x30 x5f x30 x30))))))))
(T (W xd4 x62 x00 x00 x58 x62 x00 x00)
(T (W x9c x44 x00 x00 x24 x44 x00 x00)
(T (W x28 x04 x00 x00 xb4 x03 x00 x00)
(T (W x04 x00 x00 x00 x00 x00 x00 x00)
(T (W x40 x00 x00 x00 x28 x00 x00 x00)
(T (W xbb xa7 xa1 x5a xaa x2e xd7 x83)
(T (W x28 x00 x00 x00 x04 x00 x00 x00)
(L (W x28 x00 x00 x00 x04 x00 x00 x00)) E)
(L (W x30 x5f x30 x30 x00 x00 x2e x00)))
(T (W x28 x00 x00 x00 x04 x00 x00 x00)
(T (W x0a x00 x00 x00 x0a xd7 xa3 x3c)
(L (W x00 x00 x00 x00 x04 x00 x00 x00)) E)
(L (W xa4 xba x4c xc8 x17 x2d xef x62))))
(T (W x00 x00 x00 x00 x04 x00 x00 x00)
(T (W x02 x00 x00 x00 x03 x00 x00 x00)
(T (W x1e x00 x00 x00 x04 x00 x00 x00)
(L (W x32 x00 x00 x00 x00 x00 x00 x01)) E)
(L (W x0a x00 x00 x00 x0a xd7 x23 x3d)))
(T (W x03 x00 x00 x00 x40 x00 x00 x00)
(T (W x00 x00 x80 x3f x00 x00 x00 x40)
(L (W x00 x00 x80 x3f x9a x99 xd9 x3f)) E)
(L (W x2e x00 x00 x00 x00 x00 x00 x01)))))
(T (W x04 x00 x00 x00 x44 x00 x00 x00)
(T (W x0a xd7 xa3 x3c x9a x99 x99 x3f)
(T (W x00 x00 x00 x00 x04 x00 x00 x00)
(T (W x00 x00 x80 x3f x9a x99 x19 x40)
(L (W xbd xbf x4c xc8 x17 x30 xef x62)) E)
(L (W x9a x99 x99 x3f x00 x00 x80 x3f)))
(T (W x0a xd7 xa3 x3c x9a x99 x99 x3f)
(T (W x9f x64 x45 x71 x09 xcc x24 x44)
(L (W x10 x00 x14 x00 x18 x00 x1c x00)) E)
(L (W x01 x00 x00 x00 x02 x00 x00 x00))))
(T (W x00 x00 x00 x00 x04 x00 x00 x00)
(T (W x02 x00 x00 x00 x00 x00 x80 x3f)
(T (W x00 x00 x00 x00 x01 x00 x00 x00)
(L (W x00 x00 x00 x00 x04 x00 x00 x00)) E)
(L (W x02 x00 x00 x00 x66 x66 xe6 x3f)))
(T (W xec xfb xec x78 x0b xcb xee x0f)
(T (W x6e xc0 xff xff x00 x00 x00 x01)
(L (W x0a xbe x4c xc8 x17 x2f xef x62)) E)
(L (W x70 x6d x30 x30 x30 x30 x5f x30))))))
(T (W x00 x00 x80 x3f x9a x99 x99 x3f)
(T (W x70 x6d x30 x38 x34 x31 x5f x30)
(T (W x37 x31 x5f x30 x30 x5f x34 x31)
(T (W x04 x00 x00 x00 x00 x00 x00 x00)
(T (W xa4 xba x4c xc8 x17 x2d xef x62)
(L (W x0c x00 x00 x00 x70 x6d x30 x30)) E)
(L (W x3c x00 x00 x00 x24 x00 x00 x00)))
(T (W x70 x6d x30 x30 x30 x30 x5f x30)
(T (W x30 x5f x30 x30 x00 x00 x00 x00)
(L (W x3c x00 x00 x00 x24 x00 x00 x00)) E)
(L (W x02 x00 x00 x00 x00 x00 x80 x3f))))
(T (W x00 x00 x00 x00 x04 x00 x00 x00)
(T (W x70 x6d x30 x34 x37 x39 x5f x31)
(T (W x76 xbe xff xff x00 x00 x00 x01)
(L (W x05 x68 x45 x71 x09 xce x24 x44)) E)
(L (W x66 x66 x06 x40 x02 x00 x00 x00)))
(T (W x0a xd7 xa3 x3c x9a x99 x99 x3f)
(T (W x02 x00 x00 x00 x40 x00 x00 x00)
(L (W x0c x00 x00 x00 x70 x6d x30 x30)) E)
(L (W x04 x00 x00 x00 x40 x00 x00 x00)))))
(T (W x00 x00 x00 x00 x01 x00 x00 x00)
(T (W x00 x00 x00 x00 x04 x00 x00 x00)
(T (W x9a x99 x59 x3f x03 x00 x00 x00)
(T (W x04 x00 x00 x00 x00 x00 x00 x00)
(L (W x28 x00 x00 x00 x04 x00 x00 x00)) E)
(L (W x08 x00 x0c x00 x10 x00 x14 x00)))
(T (W x00 x00 x80 x3f xcd xcc x4c x40)
(T (W x02 x00 x00 x00 x00 x00 x80 x3f)
(L (W x04 x00 x00 x00 x0a x00 x00 x00)) E)
(L (W x3c x00 x00 x00 x24 x00 x00 x00))))
(T (W x00 x00 x00 x00 x04 x00 x00 x00)
(T (W x01 x00 x00 x00 x02 x00 x00 x00)
(T (W x0c x00 x10 x00 x14 x00 x18 x00)
(L (W x03 x00 x00 x00 x0c x00 x00 x00)) E)
(L (W x2e xf6 xff xff x00 x00 x00 x01)))
(T (W x01 x00 x00 x00 x02 x00 x00 x00)
(L (W x3c x00 x00 x00 x24 x00 x00 x00))
(L (W x02 x00 x00 x00 x03 x00 x00 x00)))))))
(T (W x24 x26 x00 x00 xb4 x25 x00 x00)
(T (W x30 x5f x30 x30 x00 x00 x00 x00)
(T (W xf6 x0c xf0 x78 x0b x4c xf2 x0f)
(T (W x00 x00 x80 x3f x9a x99 x19 x40)
(T (W x9a x99 x99 x3f x9a x99 x19 x3f)
(T (W x3c x00 x00 x00 x24 x00 x00 x00)
(L (W xbd xbf x4c xc8 x17 x30 xef x62)) E)
(L (W x70 x6d x30 x32 x38 x30 x5f x30)))
(T (W x00 x00 x00 x00 x01 x00 x00 x00)
(T (W x04 x00 x00 x00 x00 x00 x00 x00)
(L (W x9a x99 x19 x3e x9a x99 x19 x40)) E)
(L (W x70 x6d x30 x32 x30 x31 x5f x30))))
(T (W x00 x00 x00 x00 x04 x00 x00 x00)
(T (W x00 x00 x00 x00 x01 x00 x00 x00)
(T (W x00 x00 x00 x00 x04 x00 x00 x00)
(L (W x00 x00 x00 x00 x01 x00 x00 x00)) E)
(L (W x02 x00 x00 x00 x40 x00 x00 x00)))
(T (W x9f xfd xec x78 x0b xcc xee x0f)
(T (W x30 x5f x30 x30 x00 x00 x00 x00)
(L (W x0e xfe xff xff x00 x00 x00 x01)) E)
(L (W x30 x31 x5f x30 x30 x5f x31 x31)))))
(T (W x9a x99 x99 x3f x00 x00 x80 x3f)
(T (W x02 x00 x00 x00 x04 x00 x00 x00)
(T (W x9a x99 x99 x3f x00 x00 x20 x41)
(T (W x9a x99 x19 x3e x66 x66 x26 x40)
(L (W x0c x00 x00 x00 x70 x6d x30 x30)) E)
(L (W x01 x00 x00 x00 x02 x00 x00 x00)))
(T (W x04 x00 x00 x00 x00 x00 x00 x00)
(T (W x30 x5f x30 x30 x00 x00 x00 x00)
(L (W x70 x6d x30 x30 x35 x38 x5f x30)) E)
(L (W x2e xfd xff xff x00 x00 x00 x01))))
(T (W x00 x00 x00 x00 x04 x00 x00 x00)
(T (W x02 x00 x00 x00 x00 x00 x20 x41)
(T (W x00 x00 x80 x3f x00 x00 x60 x40)
(L (W xde x0c xea x78 x0b x5e xeb x0f)) E)
(L (W x01 x00 x00 x00 x02 x00 x00 x00)))
(T (W x03 x00 x00 x00 x0c x00 x00 x00)
(L (W x30 x00 x07 x00 x00 x00 x34 x00))
(L (W x0c x00 x00 x00 x70 x6d x30 x30))))))
(T (W x00 x00 x80 x3f x66 x66 xe6 x40)
(T (W x0a x00 x00 x00 x0a xd7 x23 x3d)
(T (W x1c x00 x20 x00 x44 x00 x4c x00)
(T (W xbb xa7 xa1 x5a xaa x2e xd7 x83)
(T (W x0c x00 x00 x00 x70 x6d x30 x34)
(L (W x3c x00 x00 x00 x24 x00 x00 x00)) E)
(L (W xa4 xba x4c xc8 x17 x2d xef x62)))
(T (W xcd xcc xcc x3f x02 x00 x00 x00)
(T (W x01 x00 x00 x00 x40 x00 x00 x00)
(L (W x40 x00 x00 x00 x28 x00 x00 x00)) E)
(L (W x02 x00 x00 x00 xcd xcc x4c x3f))))
(T (W x00 x00 x00 x00 x04 x00 x00 x00)
(T (W x04 x00 x00 x00 x00 x00 x00 x00)
(T (W x04 x00 x00 x00 x0a x00 x00 x00)
(L (W x02 x00 x00 x00 x03 x00 x00 x00)) E)
(L (W x00 x00 x80 x3f x00 x00 x00 x40)))
(T (W x02 x00 x00 x00 x40 x00 x00 x00)
(T (W x04 x00 x00 x00 x00 x00 x00 x00)
(L (W x14 x00 x18 x00 x38 x00 x40 x00)) E)
(L (W xa4 xba x4c xc8 x17 x2d xef x62)))))
(T (W x00 x00 x00 x00 xb6 x7c xff xff)
(T (W x00 x00 x00 x00 x04 x00 x00 x00)
(T (W x32 x5f x30 x30 x00 x00 x2e x00)
(T (W x30 x30 x5f x30 x30 x5f x30 x30)
(L (W xcd xcc xcc x3f x02 x00 x00 x00)) E)
(L (W xdd x00 x00 x00 x00 x00 x80 x3f)))
(T (W x8f xc2 xf5 x3c x00 x00 x80 x3f)
(T (W x0c x00 x00 x00 x70 x6d x30 x30)
(L (W xa4 xba x4c xc8 x17 x2d xef x62)) E)
(L (W xa4 xba x4c xc8 x17 x2d xef x62))))
(T (W x38 x00 x00 x00 x00 x00 x3c x00)
(T (W x00 x00 x00 x00 xb6 x9c xff xff)
(T (W x36 xb7 xff xff x9c x01 x00 x00)
(L (W x00 x00 x00 x00 x01 x00 x00 x00)) E)
(L (W x3c x00 x00 x00 x24 x00 x00 x00)))
(T (W xd6 xb2 xff xff x00 x00 x00 x01)
(L (W x04 x00 x00 x00 x00 x00 x00 x00))
(L (W x6e xe3 xff xff x00 x00 x00 x01))))))))))))
(T (W x04 x00 x00 x00 x3e x01 x00 x00)
(T (W xe8 x9b x00 x00 x44 x9b x00 x00)
(T (W x68 x97 x00 x00 xf4 x96 x00 x00)
(T (W x80 x8e x00 x00 x0c x8e x00 x00)
(T (W x74 x7e x00 x00 x00 x7e x00 x00)
(T (W xf8 x5f x00 x00 x88 x5f x00 x00)
(T (W xd4 x22 x00 x00 x58 x22 x00 x00)
(T (W x00 x00 x00 x00 x04 x00 x00 x00)
(T (W x01 x00 x00 x00 x04 x00 x00 x00)
(T (W x01 x00 x00 x00 x02 x00 x00 x00)
(T (W x02 x00 x00 x00 x03 x00 x00 x00)
(L (W x03 x00 x00 x00 x40 x00 x00 x00)) E)
(L (W x70 x6d x30 x30 x30 x30 x5f x30)))
(T (W x02 x00 x00 x00 x04 x00 x00 x00)
(T (W x3c x00 x00 x00 x24 x00 x00 x00)
(L (W x30 x30 x5f x30 x30 x5f x30 x30)) E)
(L (W xbb xa7 xa1 x5a xaa x2e xd7 x83))))
(T (W x0c x00 x00 x00 x70 x6d x30 x34)
(T (W x3c x00 x44 x00 x20 x00 x24 x00)
(T (W x18 x00 x1c x00 x40 x00 x48 x00)
(L (W x0a x00 x00 x00 x8f xc2 xf5 x3c)) E)
(L (W x28 x00 x00 x00 x04 x00 x00 x00)))
(T (W xbd xbf x4c xc8 x17 x30 xef x62)
(T (W x89 x01 x00 x00 x00 x00 x80 x3f)
(L (W x02 x00 x00 x00 x03 x00 x00 x00)) E)
(L (W x02 x00 x00 x00 x03 x00 x00 x00)))))
(T (W xbd xbf x4c xc8 x17 x30 xef x62)
(T (W x38 x00 x07 x00 x3c x00 x00 x00)
(T (W x00 x00 x00 x00 x01 x00 x00 x00)
(T (W x00 x00 x00 x01 xac x01 x00 x00)
(L (W x52 x66 x45 x71 x09 xcd x24 x44)) E)
(L (W x03 x00 x00 x00 x0c x00 x00 x00)))
(T (W x0a x00 x00 x00 x0a xd7 x23 x3d)
(T (W x9a x99 x99 x3f xcd xcc xcc x3f)
(L (W x39 xfa xec x78 x0b xca xee x0f)) E)
(L (W x04 x00 x00 x00 x00 x00 x00 x00))))
(T (W x0c x00 x00 x00 x70 x6d x30 x34)
(T (W x70 x6d x30 x34 x37 x39 x5f x31)
(T (W xbd xbf x4c xc8 x17 x30 xef x62)
(L (W x00 x00 x00 x00 x8e xfb xff xff)) E)
(L (W x04 x00 x00 x00 x0a x00 x00 x00)))
(T (W x9a x99 x99 x3f x00 x00 x80 x3f)
(T (W x70 x6d x30 x30 x30 x30 x5f x30)
(L (W x30 x00 x07 x00 x00 x00 x34 x00)) E)
(L (W x02 x00 x00 x00 x03 x00 x00 x00))))))
(T (W x02 x00 x00 x00 x03 x00 x00 x00)
(T (W x01 x00 x00 x00 x02 x00 x00 x00)
(T (W x04 x00 x00 x00 x0a x00 x00 x00)
(T (W x04 x00 x00 x00 x00 x00 x00 x00)
(T (W x20 x5c x45 x71 x09 xc7 x24 x44)
(L (W x03 x00 x00 x00 x0c x00 x00 x00)) E)
(L (W x00 x00 x80 x3f x33 x33 xf3 x3f)))
(T (W x30 x30 x5f x30 x30 x5f x30 x30)
(T (W x70 x6d x30 x30 x30 x30 x5f x30)
(L (W x04 x00 x00 x00 x00 x00 x00 x00)) E)
(L (W xc9 x00 x00 x00 x10 x00 x00 x00))))
(T (W x0c x00 x00 x00 x70 x6d x30 x34)
(T (W x38 x30 x5f x30 x30 x5f x30 x30)
(T (W x0c x00 x00 x00 x70 x6d x30 x30)
(L (W x30 x31 x5f x30 x30 x5f x34 x31)) E)
(L (W x9a x99 x99 x3f xcd xcc x8c x3f)))
(T (W x01 x00 x00 x00 x02 x00 x00 x00)
(T (W x00 x00 xc0 x3f x03 x00 x00 x00)
(L (W x03 x00 x00 x00 x44 x00 x00 x00)) E)
(L (W x00 x00 x80 x3f x66 x66 xe6 x3f)))))
(T (W x04 x00 x00 x00 x00 x00 x00 x00)
(T (W x01 x00 x00 x00 xcd xcc x2c x40)
(T (W x00 x00 x00 x00 x04 x00 x00 x00)
(T (W x00 x00 x00 x00 x04 x00 x00 x00)
(L (W x00 x00 x00 x00 x0c x00 x10 x00)) E)
(L (W x30 x5f x30 x30 x00 x00 x00 x00)))
(T (W x70 x6d x30 x30 x30 x30 x5f x30)
(T (W x02 x00 x00 x00 x03 x00 x00 x00)
(L (W x08 x00 x0c x00 x10 x00 x14 x00)) E)
(L (W x9a x99 xd9 x3f x02 x00 x00 x00))))
(T (W x0c x00 x00 x00 x70 x6d x30 x34)
(T (W x04 x00 x00 x00 x00 x00 x00 x00)
(T (W x04 x00 x00 x00 x0a x00 x00 x00)
(L (W x01 x00 x00 x00 x02 x00 x00 x00)) E)
(L (W x30 x5f x33 x37 x00 x00 x00 x00)))
(T (W xe6 xa5 xff xff xb9 x01 x00 x00)
(L (W x66 x66 xe6 x3f x02 x00 x00 x00))
(L (W x00 x00 x00 x01 xad x00 x00 x00)))))))
(T (W xe0 x41 x00 x00 x70 x41 x00 x00)
(T (W x5c x01 x00 x00 xec x00 x00 x00)
(T (W x70 x6d x30 x30 x30 x30 x5f x30)
(T (W xbb xa7 xa1 x5a xaa x2e xd7 x83)
(T (W x02 x00 x00 x00 x03 x00 x00 x00)
(T (W x44 x10 xea x78 x0b x60 xeb x0f)
(L (W xaa x13 xea x78 x0b x62 xeb x0f)) E)
(L (W x34 x00 x3c x00 x18 x00 x1c x00)))
(T (W xc5 x07 xea x78 x0b x5b xeb x0f)
(T (W xa4 xba x4c xc8 x17 x2d xef x62)
(L (W x0c x00 x00 x00 x70 x6d x30 x30)) E)
(L (W x03 x00 x00 x00 x0c x00 x00 x00))))
(T (W x0c x00 x00 x00 x70 x6d x30 x34)
(T (W x00 x00 x00 x00 xae xaf xff xff)
(T (W xa9 x0e xf0 x78 x0b x4d xf2 x0f)
(L (W x00 x00 x40 x40 x03 x00 x00 x00)) E)
(L (W xbd xbf x4c xc8 x17 x30 xef x62)))
(T (W x00 x00 x80 x3f x00 x00 xa0 x40)
(T (W x04 x00 x00 x00 x0a x00 x00 x00)
(L (W x04 x00 x00 x00 x0a x00 x00 x00)) E)
(L (W x9a x99 xd9 x3f x02 x00 x00 x00)))))
(T (W x00 x00 x80 x3f xcd xcc x6c x40)
(T (W xbd xbf x4c xc8 x17 x30 xef x62)
(T (W x0c x00 x00 x00 x70 x6d x30 x34)
(T (W x04 x00 x00 x00 x0a x00 x00 x00)
(L (W x03 x00 x00 x00 x0c x00 x00 x00)) E)
(L (W x04 x00 x00 x00 x00 x00 x00 x00)))
(T (W xbd xbf x4c xc8 x17 x30 xef x62)
(T (W x01 x00 x00 x00 x02 x00 x00 x00)
(L (W x00 x00 x30 x00 x34 x00 x07 x00)) E)
(L (W x30 x5f x32 x31 x00 x00 x00 x00))))
(T (W x0c x00 x00 x00 x70 x6d x30 x34)
(T (W x04 x00 x00 x00 x0a x00 x00 x00)
(T (W x30 x30 x5f x30 x30 x5f x30 x30)
(L (W x0c x00 x00 x00 x70 x6d x30 x30)) E)
(L (W x04 x00 x00 x00 x00 x00 x00 x00)))
(T (W x01 x00 x00 x00 x02 x00 x00 x00)
(T (W x01 x00 x00 x00 x40 x00 x00 x00)
(L (W x03 x00 x00 x00 x0c x00 x00 x00)) E)
(L (W x08 x00 x0c x00 x00 x00 x10 x00))))))
(T (W x04 x00 x00 x00 x0a x00 x00 x00)
(T (W x10 x00 x14 x00 x18 x00 x1c x00)
(T (W x01 x00 x00 x00 x00 x00 x80 x3f)
(T (W x70 x6d x30 x34 x39 x30 x5f x30)
(T (W x02 x00 x00 x00 x03 x00 x00 x00)
(L (W x00 x00 x00 x01 x85 x00 x00 x00)) E)
(L (W xd3 xf6 xec x78 x0b xc8 xee x0f)))
(T (W xd1 x01 x00 x00 x00 x00 x80 x3f)
(T (W xcd xcc x0c x40 x02 x00 x00 x00)
(L (W x39 xfa xec x78 x0b xca xee x0f)) E)
(L (W x04 x00 x00 x00 x0a x00 x00 x00))))
(T (W x0c x00 x00 x00 x70 x6d x30 x34)
(T (W x14 x00 x18 x00 x1c x00 x20 x00)
(T (W x02 x00 x00 x00 x03 x00 x00 x00)
(L (W x00 x00 x00 x00 x01 x00 x00 x00)) E)
(L (W x0a x00 x00 x00 x8f xc2 xf5 x3c)))
(T (W xbd xbf x4c xc8 x17 x30 xef x62)
(T (W x9a x99 x99 x3f x00 x00 x80 x3f)
(L (W x00 x00 x00 x01 x25 x00 x00 x00)) E)
(L (W x9a x99 x99 x3f x00 x00 xc0 x3f)))))
(T (W x34 x35 x5f x31 x32 x5f x30 x30)
(T (W x0c x00 x00 x00 x70 x6d x30 x30)
(T (W x0a x00 x00 x00 x0a xd7 xa3 x3d)
(T (W x70 x6d x30 x30 x30 x30 x5f x30)
(L (W x0f x12 xf0 x78 x0b x4f xf2 x0f)) E)
(L (W x00 x00 x28 x00 x2c x00 x00 x00)))
(T (W x04 x00 x00 x00 x0a x00 x00 x00)
(T (W x04 x00 x00 x00 x00 x00 x00 x00)
(L (W xd3 x5d x45 x71 x09 xc8 x24 x44)) E)
(L (W xbb xa7 xa1 x5a xaa x2e xd7 x83))))
(T (W x0c x00 x00 x00 x70 x6d x30 x34)
(T (W x30 x5f x30 x30 x00 x00 x00 x00)
(T (W x2c x00 x00 x00 x00 x00 x00 x00)
(L (W x86 xf2 xff xff x00 x00 x00 x01)) E)
(L (W x9a x99 xd9 x3f x02 x00 x00 x00)))
(T (W x30 x5f x30 x30 x00 x00 x00 x00)
(L (W xaa x13 xea x78 x0b x62 xeb x0f))
(L (W x00 x00 x00 x00 x8e xee xff xff))))))))
(T (W x28 x6f x00 x00 xb4 x6e x00 x00)
(T (W x50 x51 x00 x00 xdc x50 x00 x00)
(T (W xc0 x11 x00 x00 x50 x11 x00 x00)
(T (W x01 x00 x00 x00 x02 x00 x00 x00)
(T (W x04 x00 x00 x00 x0a x00 x00 x00)
(T (W x40 x00 x48 x00 x20 x00 x24 x00)
(T (W x04 x00 x00 x00 x0a x00 x00 x00)
(L (W x0a x00 x00 x00 x0a xd7 xa3 x3c)) E)
(L (W x86 xda xff xff x00 x00 x01 x01)))
(T (W x0a x00 x00 x00 x0a xd7 xa3 x3c)
(T (W x00 x00 x80 x3f xcd xcc x8c x40)
(L (W x0c x00 x10 x00 x14 x00 x18 x00)) E)
(L (W x04 x00 x00 x00 x00 x00 x00 x00))))
(T (W x0c x00 x00 x00 x70 x6d x30 x34)
(T (W x0c x00 x00 x00 x70 x6d x30 x34)
(T (W x03 x00 x00 x00 x0c x00 x00 x00)
(L (W x86 x5f x45 x71 x09 xc9 x24 x44)) E)
(L (W x9a x99 x99 x3f x66 x66 x66 x3f)))
(T (W x04 x00 x00 x00 x0a x00 x00 x00)
(T (W x48 x00 x00 x00 x30 x00 x00 x00)
(L (W xbd xbf x4c xc8 x17 x30 xef x62)) E)
(L (W xbb xa7 xa1 x5a xaa x2e xd7 x83)))))
(T (W x01 x00 x00 x00 x02 x00 x00 x00)
(T (W x30 x30 x5f x30 x30 x5f x30 x30)
(T (W x02 x00 x00 x00 x03 x00 x00 x00)
(T (W x00 x00 x80 x3f x33 x33 x33 x40)
(L (W x04 x00 x00 x00 x00 x00 x00 x00)) E)
(L (W x0f x12 xf0 x78 x0b x4f xf2 x0f)))
(T (W xc2 x13 xf0 x78 x0b x50 xf2 x0f)
(T (W xa4 xba x4c xc8 x17 x2d xef x62)
(L (W x00 x00 x00 x40 x03 x00 x00 x00)) E)
(L (W x03 x00 x00 x00 x0c x00 x00 x00))))
(T (W x0c x00 x00 x00 x70 x6d x30 x34)
(T (W xbd xbf x4c xc8 x17 x30 xef x62)
(T (W x01 x00 x00 x00 x02 x00 x00 x00)
(L (W x18 x00 x1c x00 x38 x00 x40 x00)) E)
(L (W xc2 x13 xf0 x78 x0b x50 xf2 x0f)))
(T (W x0a xbe x4c xc8 x17 x2f xef x62)
(T (W x00 x00 x00 x01 x6a x01 x00 x00)
(L (W x00 x00 x00 x00 x0c x00 x10 x00)) E)
(L (W x30 x5f x30 x30 x00 x00 x00 x00))))))
(T (W x04 x00 x00 x00 x0a x00 x00 x00)
(T (W x34 x32 x5f x30 x30 x5f x30 x30)
(T (W x3b x02 x00 x00 x01 x00 x00 x00)
(T (W x02 x00 x00 x00 x03 x00 x00 x00)
(T (W x00 x00 x00 x00 x04 x00 x00 x00)
(L (W x30 x5f x30 x30 x00 x00 x00 x00)) E)
(L (W x28 x00 x00 x00 x04 x00 x00 x00)))
(T (W x00 x00 x00 x00 x56 xfa xff xff)
(T (W x00 x00 x00 x00 x6e xb5 xff xff)
(L (W x0a xd7 xa3 x3c x9a x99 x99 x3f)) E)
(L (W x9a x99 xd9 x3f x02 x00 x00 x00))))
(T (W x0c x00 x00 x00 x70 x6d x30 x34)
(T (W x00 x00 x00 x00 x76 xfe xff xff)
(T (W x00 x00 x00 x01 xa1 x01 x00 x00)
(L (W xa4 xba x4c xc8 x17 x2d xef x62)) E)
(L (W x02 x00 x00 x00 x40 x00 x00 x00)))
(T (W x70 x6d x30 x30 x30 x30 x5f x30)
(T (W x28 x00 x00 x00 x04 x00 x00 x00)
(L (W x30 x00 x07 x00 x00 x00 x34 x00)) E)
(L (W x3c x00 x00 x00 x24 x00 x00 x00)))))
(T (W x03 x00 x00 x00 x0c x00 x00 x00)
(T (W x00 x00 x00 x00 x04 x00 x00 x00)
(T (W x40 x00 x00 x00 x28 x00 x00 x00)
(T (W x01 x00 x00 x00 x02 x00 x00 x00)
(L (W x03 x00 x00 x00 x0c x00 x00 x00)) E)
(L (W x00 x00 x80 x3f x00 x00 x20 x40)))
(T (W x00 x00 x80 x3f x00 x00 x00 x40)
(T (W x02 x00 x00 x00 x00 x00 x00 x40)
(L (W x02 x00 x00 x00 x03 x00 x00 x00)) E)
(L (W x04 x00 x00 x00 x0a x00 x00 x00))))
(T (W x0c x00 x00 x00 x70 x6d x30 x34)
(T (W x0c x00 x00 x00 x70 x6d x30 x30)
(T (W x00 x00 x80 x3f x00 x00 x60 x40)
(L (W x70 x6d x30 x30 x30 x30 x5f x30)) E)
(L (W xc9 x00 x00 x00 x18 x00 x00 x00)))
(T (W x1c x00 x20 x00 x00 x00 x24 x00)
(L (W x3c x00 x00 x00 x24 x00 x00 x00))
(L (W x00 x00 x20 x00 x24 x00 x00 x00)))))))
(T (W x90 x32 x00 x00 x1c x32 x00 x00)
(T (W x00 x00 x00 x00 x4e x72 xff xff)
(T (W x00 x00 x2e x00 x48 x00 x08 x00)
(T (W x03 x00 x00 x00 x03 x00 x00 x00)
(T (W xbb xa7 xa1 x5a xaa x2e xd7 x83)
(T (W x04 x00 x00 x00 x00 x00 x00 x00)
(L (W x04 x00 x00 x00 x00 x00 x00 x00)) E)
(L (W x38 x31 x5f x30 x30 x5f x30 x30)))
(T (W x01 x00 x00 x00 x02 x00 x00 x00)
(T (W x01 x00 x00 x00 x02 x00 x00 x00)
(L (W x30 x5f x30 x30 x00 x00 x2e x00)) E)
(L (W x30 x5f x32 x39 x00 x00 x00 x00))))
(T (W x0c x00 x00 x00 x70 x6d x30 x34)
(T (W x00 x00 x14 x00 x30 x00 x38 x00)
(T (W x04 x00 x00 x00 x00 x00 x00 x00)
(L (W x30 x00 x00 x00 x00 x00 x34 x00)) E)
(L (W x00 x00 x00 x00 x01 x00 x00 x00)))
(T (W xa4 xba x4c xc8 x17 x2d xef x62)
(T (W x2e x00 x00 x00 x00 x00 x00 x01)
(L (W x01 x00 x00 x00 x00 x00 x80 x3f)) E)
(L (W x00 x00 x30 x00 x2e x00 x00 x00)))))
(T (W x20 xf5 xec x78 x0b xc7 xee x0f)
(T (W x2c x00 x00 x00 x04 x00 x00 x00)
(T (W xbb xa7 xa1 x5a xaa x2e xd7 x83)
(T (W xa4 xba x4c xc8 x17 x2d xef x62)
(L (W x00 x00 x00 x00 x5e xf3 xff xff)) E)
(L (W x03 x00 x00 x00 x0c x00 x00 x00)))
(T (W x01 x00 x00 x00 x02 x00 x00 x00)
(T (W x30 x5f x30 x30 x00 x00 x00 x00)
(L (W x00 x00 x00 x00 x3e xfc xff xff)) E)
(L (W xc9 x00 x00 x00 x08 x00 x00 x00))))
(T (W x0c x00 x00 x00 x70 x6d x30 x34)
(T (W x39 xfa xec x78 x0b xca xee x0f)
(T (W x00 x00 x00 x00 x04 x00 x00 x00)
(L (W xa4 xba x4c xc8 x17 x2d xef x62)) E)
(L (W x03 x00 x00 x00 x0c x00 x00 x00)))
(T (W x70 x6d x30 x34 x34 x33 x5f x30)
(T (W x02 x00 x00 x00 x66 x66 x66 x3f)
(L (W xbd xbf x4c xc8 x17 x30 xef x62)) E)
(L (W x30 x30 x5f x30 x30 x5f x30 x30))))))
(T (W x1e x06 xed x78 x0b xd1 xee x0f)
(T (W x70 x6d x30 x30 x30 x30 x5f x30)
(T (W x01 x00 x00 x00 x02 x00 x00 x00)
(T (W xbb xa7 xa1 x5a xaa x2e xd7 x83)
(T (W x33 x30 x5f x30 x30 x5f x30 x30)
(L (W x3c x00 x00 x00 x24 x00 x00 x00)) E)
(L (W x00 x00 x00 x00 x04 x00 x00 x00)))
(T (W x04 x00 x00 x00 x40 x00 x00 x00)
(T (W x28 x00 x00 x00 x04 x00 x00 x00)
(L (W x3c x00 x00 x00 x24 x00 x00 x00)) E)
(L (W xbb xa7 xa1 x5a xaa x2e xd7 x83))))
(T (W x0c x00 x00 x00 x70 x6d x30 x34)
(T (W x02 x00 x00 x00 x03 x00 x00 x00)
(T (W x02 x00 x00 x00 xcd xcc x8c x3f)
(L (W x0c x00 x00 x00 x70 x6d x30 x30)) E)
(L (W x0a xbe x4c xc8 x17 x2f xef x62)))
(T (W x04 x00 x00 x00 x0a x00 x00 x00)
(T (W x04 x00 x00 x00 x00 x00 x00 x00)
(L (W x03 x00 x00 x00 x44 x00 x00 x00)) E)
(L (W xbd xbf x4c xc8 x17 x30 xef x62)))))
(T (W x82 x02 x00 x00 x01 x00 x00 x00)
(T (W x0c x00 x00 x00 x70 x6d x30 x34)
(T (W x00 x00 x00 x01 xe3 x01 x00 x00)
(T (W x00 x00 x00 x00 x1e xc9 xff xff)
(L (W x44 x00 x00 x00 x2c x00 x00 x00)) E)
(L (W x00 x00 x80 x3f x33 x33 x13 x40)))
(T (W x86 x5f x45 x71 x09 xc9 x24 x44)
(T (W x70 x6d x30 x30 x30 x30 x5f x30)
(L (W x04 x00 x00 x00 x00 x00 x00 x00)) E)
(L (W x04 x00 x00 x00 x00 x00 x00 x00))))
(T (W x00 x00 x80 x40 x00 x00 x40 x40)
(T (W xd9 x01 x00 x00 x00 x00 x80 x3f)
(T (W x9c x01 x00 x00 x01 x00 x00 x00)
(L (W x34 x00 x3c x00 x1c x00 x20 x00)) E)
(L (W x04 x00 x00 x00 x0a x00 x00 x00)))
(T (W x00 x00 x00 x01 xb6 x01 x00 x00)
(L (W x01 x00 x00 x00 x02 x00 x00 x00))
(L (W x01 x00 x00 x00 x00 x00 x80 x3f)))))))))
(T (W x04 x86 x00 x00 x64 x85 x00 x00)
(T (W x68 x76 x00 x00 xf4 x75 x00 x00)
(T (W x90 x58 x00 x00 x1c x58 x00 x00)
(T (W xd4 x19 x00 x00 x50 x19 x00 x00)
(T (W x00 x00 x00 x40 x03 x00 x00 x00)
(T (W x03 x00 x00 x00 x0c x00 x00 x00)
(T (W xbb xa7 xa1 x5a xaa x2e xd7 x83)
(T (W x03 x00 x00 x00 x0c x00 x00 x00)
(L (W x03 x00 x00 x00 x0c x00 x00 x00)) E)
(L (W x9a x99 x99 x3f x66 x66 x06 x40)))
(T (W x03 x00 x00 x00 x0c x00 x00 x00)
(T (W x70 x6d x30 x30 x30 x30 x5f x30)
(L (W x44 x10 xea x78 x0b x60 xeb x0f)) E)
(L (W xc9 x00 x00 x00 x14 x00 x00 x00))))
(T (W x04 x00 x00 x00 x0a x00 x00 x00)
(T (W x2c x00 x00 x00 x04 x00 x00 x00)
(T (W x44 x00 x00 x00 x2c x00 x00 x00)
(L (W x30 x5f x30 x30 x00 x00 x00 x00)) E)
(L (W x70 x6d x30 x30 x30 x30 x5f x30)))
(T (W x3c x00 x44 x00 x1c x00 x20 x00)
(T (W x00 x00 x00 x00 x01 x00 x00 x00)
(L (W x00 x00 x00 x00 x00 x00 x2c x00)) E)
(L (W x00 x00 x00 x00 x00 x00 x34 x00)))))
(T (W x9a x99 xd9 x3f x01 x00 x00 x00)
(T (W x0a xd7 xa3 x3c x9a x99 x99 x3f)
(T (W x03 x00 x00 x00 x05 x00 x00 x00)
(T (W xbd xbf x4c xc8 x17 x30 xef x62)
(L (W x7e x00 x00 x00 x00 x00 x80 x3f)) E)
(L (W x00 x00 x38 x00 x2e x00 x00 x00)))
(T (W x30 x5f x30 x30 x00 x00 x00 x00)
(T (W x66 xb8 xff xff x00 x00 x00 x01)
(L (W x0c x00 x00 x00 x10 x00 x14 x00)) E)
(L (W x9a x99 xd9 x3f x02 x00 x00 x00))))
(T (W x04 x00 x00 x00 x0a x00 x00 x00)
(T (W x00 x00 x00 x01 xdf x01 x00 x00)
(T (W x00 x00 x80 x3f x66 x66 x06 x40)
(L (W xa4 xba x4c xc8 x17 x2d xef x62)) E)
(L (W x30 x5f x30 x30 x00 x00 x00 x00)))
(T (W x46 xb6 xff xff x00 x00 x01 x01)
(T (W x05 x01 xed x78 x0b xce xee x0f)
(L (W x78 x09 xea x78 x0b x5c xeb x0f)) E)
(L (W x0a x00 x00 x00 x0a xd7 xa3 x3c))))))
(T (W x02 x00 x00 x00 x03 x00 x00 x00)
(T (W x04 x00 x00 x00 x0a x00 x00 x00)
(T (W x32 x37 x5f x30 x30 x5f x30 x30)
(T (W x01 x00 x00 x00 x05 x00 x00 x00)
(T (W xb0 x01 x00 x00 x00 x00 x80 x3f)
(L (W x0a x00 x00 x00 x0a xd7 xa3 x3c)) E)
(L (W x01 x00 x00 x00 x02 x00 x00 x00)))
(T (W xec x51 x38 x3e x00 x00 xa0 x40)
(T (W x9a x99 x99 x3f x00 x00 x80 x3f)
(L (W x00 x00 x24 x00 x28 x00 x00 x00)) E)
(L (W x04 x00 x00 x00 x00 x00 x00 x00))))
(T (W x04 x00 x00 x00 x0a x00 x00 x00)
(T (W x02 x00 x00 x00 x00 x00 x00 x40)
(T (W xd3 x5d x45 x71 x09 xc8 x24 x44)
(L (W x64 x00 x00 x00 x01 x00 x00 x00)) E)
(L (W x44 x00 x08 x00 x00 x00 x00 x00)))
(T (W x28 x00 x00 x00 x04 x00 x00 x00)
(T (W x01 x00 x00 x00 x02 x00 x00 x00)
(L (W x02 x00 x00 x00 x03 x00 x00 x00)) E)
(L (W x00 x00 x00 x00 x01 x00 x00 x00)))))
(T (W x04 x00 x00 x00 x40 x00 x00 x00)
(T (W x26 x7e xff xff xf6 x01 x00 x00)
(T (W x24 x00 x28 x00 x00 x00 x2c x00)
(T (W x33 x33 x13 x40 x02 x00 x00 x00)
(L (W x02 x00 x00 x00 x40 x00 x00 x00)) E)
(L (W x20 x5c x45 x71 x09 xc7 x24 x44)))
(T (W x20 x5c x45 x71 x09 xc7 x24 x44)
(T (W x03 x00 x00 x00 x0c x00 x00 x00)
(L (W x34 x00 x00 x00 x04 x00 x00 x00)) E)
(L (W x03 x00 x00 x00 x0c x00 x00 x00))))
(T (W x04 x00 x00 x00 x0a x00 x00 x00)
(T (W x40 x00 x00 x00 x28 x00 x00 x00)
(T (W x30 x5f x30 x30 x00 x00 x2e x00)
(L (W x28 x00 x00 x00 x04 x00 x00 x00)) E)
(L (W xbb xa7 xa1 x5a xaa x2e xd7 x83)))
(T (W x00 x00 x00 x00 x04 x00 x00 x00)
(L (W x00 x00 x00 x00 x01 x00 x00 x00))
(L (W x04 x00 x00 x00 x00 x00 x00 x00)))))))
(T (W x50 x3a x00 x00 xdc x39 x00 x00)
(T (W x02 x00 x00 x00 x00 x00 x60 x40)
(T (W x00 x00 x80 x3f x33 x33 x13 x40)
(T (W x0c x00 x00 x00 x10 x00 x14 x00)
(T (W x30 x00 x00 x00 x00 x00 x34 x00)
(T (W xb2 x01 x00 x00 x00 x00 x80 x3f)
(L (W x89 x00 x00 x00 x02 x00 x00 x00)) E)
(L (W x0a x00 x00 x00 x0a xd7 xa3 x3c)))
(T (W x00 x00 x80 x3f xcd xcc xcc x3f)
(T (W x00 x00 x00 x40 x02 x00 x00 x00)
(L (W x0a xd7 x23 x3d x00 x00 x80 x3f)) E)
(L (W x04 x00 x00 x00 x0a x00 x00 x00))))
(T (W x04 x00 x00 x00 x0a x00 x00 x00)
(T (W xbb xa7 xa1 x5a xaa x2e xd7 x83)
(T (W x00 x00 x00 x01 xa4 x01 x00 x00)
(L (W x00 x00 x00 x00 x01 x00 x00 x00)) E)
(L (W x00 x00 x80 x3f x00 x00 x00 x40)))
(T (W x46 xb3 xff xff x00 x00 x01 x01)
(T (W x0c x00 x00 x00 x70 x6d x30 x30)
(L (W x30 x5f x30 x30 x00 x00 x2e x00)) E)
(L (W x03 x00 x00 x00 x0c x00 x00 x00)))))
(T (W x00 x00 x00 x00 xfe x73 xff xff)
(T (W x00 x00 x18 x00 x38 x00 x40 x00)
(T (W x2e x00 x00 x00 x00 x00 x00 x01)
(T (W x30 x5f x30 x30 x00 x00 x00 x00)
(L (W x02 x00 x00 x00 x00 x00 xe0 x40)) E)
(L (W x02 x00 x00 x00 x40 x00 x00 x00)))
(T (W x00 x00 xc0 x3f x03 x00 x00 x00)
(T (W x04 x00 x00 x00 x0a x00 x00 x00)
(L (W x00 x00 x80 x3f x00 x00 x80 x40)) E)
(L (W xbb xa7 xa1 x5a xaa x2e xd7 x83))))
(T (W x04 x00 x00 x00 x0a x00 x00 x00)
(T (W x31 x5f x30 x30 x00 x00 x00 x00)
(T (W x02 x00 x00 x00 x01 x00 x00 x00)
(L (W x2e x00 x00 x00 x00 x00 x00 x01)) E)
(L (W x9a x99 xd9 x3f x02 x00 x00 x00)))
(T (W x28 x00 x00 x00 x04 x00 x00 x00)
(T (W x03 x00 x00 x00 x0c x00 x00 x00)
(L (W x00 x00 x30 x00 x2e x00 x00 x00)) E)
(L (W x04 x00 x00 x00 x0a x00 x00 x00))))))
(T (W x30 x36 x5f x31 x32 x5f x30 x30)
(T (W x3c x00 x00 x00 x24 x00 x00 x00)
(T (W x00 x00 x00 x00 x04 x00 x00 x00)
(T (W x00 x00 x00 x01 xe9 x01 x00 x00)
(T (W x04 x00 x00 x00 x0a x00 x00 x00)
(L (W x04 x00 x00 x00 x00 x00 x00 x00)) E)
(L (W x0a x01 x00 x00 x00 x00 x80 x3f)))
(T (W x04 x00 x00 x00 x00 x00 x00 x00)
(T (W x01 x00 x00 x00 x02 x00 x00 x00)
(L (W x0c x00 x10 x00 x14 x00 x18 x00)) E)
(L (W x30 x5f x32 x35 x00 x00 x00 x00))))
(T (W x04 x00 x00 x00 x0a x00 x00 x00)
(T (W x01 x00 x00 x00 x04 x00 x00 x00)
(T (W x02 x00 x00 x00 x03 x00 x00 x00)
(L (W x40 x00 x00 x00 x28 x00 x00 x00)) E)
(L (W x30 x5f x30 x30 x00 x00 x00 x00)))
(T (W x00 x00 x14 x00 x38 x00 x40 x00)
(T (W x8e xc2 xff xff x6d x01 x00 x00)
(L (W x04 x00 x00 x00 x00 x00 x00 x00)) E)
(L (W xc6 xde xff xff x00 x00 x00 x01)))))
(T (W xbb xa7 xa1 x5a xaa x2e xd7 x83)
(T (W x04 x00 x00 x00 x0a x00 x00 x00)
(T (W x38 x34 x5f x31 x31 x5f x30 x30)
(T (W x9a x99 x99 x3f x33 x33 x33 x3f)
(L (W x0c x00 x10 x00 x14 x00 x18 x00)) E)
(L (W x1e x06 xed x78 x0b xd1 xee x0f)))
(T (W x30 x30 x5f x30 x30 x5f x30 x30)
(T (W x3c x00 x00 x00 x24 x00 x00 x00)
(L (W x2f x00 x00 x00 x00 x00 x80 x3f)) E)
(L (W xc9 x00 x00 x00 x04 x00 x00 x00))))
(T (W x00 x00 x40 x00 x32 x00 x00 x00)
(T (W x20 x5c x45 x71 x09 xc7 x24 x44)
(T (W x90 x09 xf0 x78 x0b x4a xf2 x0f)
(L (W xbd xbf x4c xc8 x17 x30 xef x62)) E)
(L (W x03 x00 x00 x00 x0c x00 x00 x00)))
(T (W x91 x0e xea x78 x0b x5f xeb x0f)
(L (W x00 x00 x80 x3f x00 x00 x60 x40))
(L (W x0a xbe x4c xc8 x17 x2f xef x62))))))))
(T (W x74 x67 x00 x00 xfc x66 x00 x00)
(T (W x74 x49 x00 x00 x00 x49 x00 x00)
(T (W x68 x09 x00 x00 xf4 x08 x00 x00)
(T (W x28 x00 x00 x00 x04 x00 x00 x00)
(T (W x34 x31 x5f x31 x32 x5f x30 x30)
(T (W x48 x00 x00 x00 x30 x00 x00 x00)
(T (W x30 x5f x30 x30 x00 x00 x00 x00)
(L (W x30 x5f x30 x30 x00 x00 x00 x00)) E)
(L (W x0a xbe x4c xc8 x17 x2f xef x62)))
(T (W x30 x5f x30 x30 x00 x00 x00 x00)
(T (W x46 xb4 xff xff x00 x00 x00 x01)
(L (W x40 x00 x00 x00 x28 x00 x00 x00)) E)
(L (W x9a x99 xd9 x3f x02 x00 x00 x00))))
(T (W x04 x00 x00 x00 x0a x00 x00 x00)
(T (W x02 x00 x00 x00 xcd xcc x4c x3f)
(T (W x00 x00 x38 x00 x2e x00 x00 x00)
(L (W x14 x00 x18 x00 x1c x00 x20 x00)) E)
(L (W xe6 xcc xff xff x00 x00 x00 x01)))
(T (W x70 x6d x30 x34 x35 x33 x5f x30)
(T (W x02 x00 x00 x00 x03 x00 x00 x00)
(L (W x10 x00 x14 x00 x30 x00 x38 x00)) E)
(L (W x0c x00 x10 x00 x14 x00 x18 x00)))))
(T (W x00 x00 x30 x00 x34 x00 x07 x00)
(T (W x25 x02 x00 x00 x01 x00 x00 x00)
(T (W x2c x00 x00 x00 x04 x00 x00 x00)
(T (W x01 x00 x00 x00 x02 x00 x00 x00)
(L (W x02 x00 x00 x00 x40 x00 x00 x00)) E)
(L (W x00 x00 x00 x01 xf0 x00 x00 x00)))
(T (W x00 x00 x01 x01 xcd x01 x00 x00)
(T (W x00 x00 x80 x3f x00 x00 x60 x40)
(L (W x01 x00 x00 x00 x02 x00 x00 x00)) E)
(L (W x04 x00 x00 x00 x0a x00 x00 x00))))
(T (W x04 x00 x00 x00 x0a x00 x00 x00)
(T (W x34 x00 x3c x00 x1c x00 x20 x00)
(T (W x04 x00 x00 x00 x0a x00 x00 x00)
(L (W x40 x00 x00 x00 x28 x00 x00 x00)) E)
(L (W x00 x00 x00 x01 xcf x00 x00 x00)))
(T (W x00 x00 xc0 x3f x01 x00 x00 x00)
(T (W x04 x00 x00 x00 x00 x00 x00 x00)
(L (W x03 x00 x00 x00 x40 x00 x00 x00)) E)
(L (W x05 x68 x45 x71 x09 xce x24 x44))))))
(T (W x0c x00 x00 x00 x70 x6d x31 x30)
(T (W x5d x15 xea x78 x0b x63 xeb x0f)
(T (W xbd xbf x4c xc8 x17 x30 xef x62)
(T (W x04 x00 x00 x00 x0a x00 x00 x00)
(T (W x01 x00 x00 x00 x44 x00 x00 x00)
(L (W xc5 x07 xea x78 x0b x5b xeb x0f)) E)
(L (W x70 x6d x30 x30 x30 x30 x5f x30)))
(T (W xf7 x11 xea x78 x0b x61 xeb x0f)
(T (W xa4 xba x4c xc8 x17 x2d xef x62)
(L (W x30 x30 x5f x30 x30 x5f x30 x30)) E)
(L (W x03 x00 x00 x00 x0c x00 x00 x00))))
(T (W x04 x00 x00 x00 x0a x00 x00 x00)
(T (W x52 x66 x45 x71 x09 xcd x24 x44)
(T (W x04 x00 x00 x00 x00 x00 x00 x00)
(L (W xcd xcc x8c x3f x03 x00 x00 x00)) E)
(L (W x03 x00 x00 x00 x0c x00 x00 x00)))
(T (W x00 x00 x01 x01 xc0 x01 x00 x00)
(T (W x70 x6d x30 x30 x30 x30 x5f x30)
(L (W x2b x0b xea x78 x0b x5d xeb x0f)) E)
(L (W x70 x6d x30 x31 x39 x38 x5f x30)))))
(T (W x04 x00 x00 x00 x0a x00 x00 x00)
(T (W x40 x00 x00 x00 x28 x00 x00 x00)
(T (W x0c x00 x00 x00 x70 x6d x30 x34)
(T (W x28 x00 x00 x00 x04 x00 x00 x00)
(L (W x00 x00 x38 x00 x2e x00 x00 x00)) E)
(L (W x01 x00 x00 x00 x02 x00 x00 x00)))
(T (W x01 x00 x00 x00 x02 x00 x00 x00)
(T (W x0e xbe xff xff x8c x01 x00 x00)
(L (W x30 x00 x00 x00 x00 x00 x34 x00)) E)
(L (W x30 x5f x31 x37 x00 x00 x00 x00))))
(T (W x04 x00 x00 x00 x0a x00 x00 x00)
(T (W x8f xc2 xf5 x3c x00 x00 x80 x3f)
(T (W x01 x00 x00 x00 x02 x00 x00 x00)
(L (W x00 x00 x80 x3f x66 x66 x66 x40)) E)
(L (W x04 x00 x00 x00 x00 x00 x00 x00)))
(T (W x0a x00 x00 x00 x0a xd7 x23 x3c)
(L (W x70 x6d x30 x33 x35 x35 x5f x30))
(L (W x9a x99 x99 x3f xcd xcc x4c x3f)))))))
(T (W x48 x2b x00 x00 xd0 x2a x00 x00)
(T (W xbb xa7 xa1 x5a xaa x2e xd7 x83)
(T (W x00 x00 x80 x3f xcd xcc xcc x3f)
(T (W x02 x00 x00 x00 x03 x00 x00 x00)
(T (W xec x01 x00 x00 x02 x00 x00 x00)
(T (W x00 x00 x1c x00 x20 x00 x00 x00)
(L (W x03 x00 x00 x00 x40 x00 x00 x00)) E)
(L (W xd3 x5d x45 x71 x09 xc8 x24 x44)))
(T (W x04 x00 x00 x00 x0a x00 x00 x00)
(T (W x28 x00 x00 x00 x04 x00 x00 x00)
(L (W x00 x00 x80 x3f x66 x66 xe6 x3f)) E)
(L (W xbb xa7 xa1 x5a xaa x2e xd7 x83))))
(T (W x04 x00 x00 x00 x0a x00 x00 x00)
(T (W x04 x00 x00 x00 x0a x00 x00 x00)
(T (W x40 x00 x00 x00 x28 x00 x00 x00)
(L (W x0a x00 x00 x00 x8f xc2 xf5 x3c)) E)
(L (W x28 x00 x06 x00 x00 x00 x2c x00)))
(T (W x9a x99 x99 x3f x03 x00 x00 x00)
(T (W xa4 xba x4c xc8 x17 x2d xef x62)
(L (W x04 x00 x00 x00 x00 x00 x00 x00)) E)
(L (W xa4 xba x4c xc8 x17 x2d xef x62)))))
(T (W xc0 x02 x00 x00 x00 x00 x80 x3f)
(T (W x0c x00 x00 x00 x70 x6d x30 x30)
(T (W xe5 x01 x00 x00 x00 x00 x80 x3f)
(T (W x00 x00 x80 x3f x00 x00 x00 x40)
(L (W x91 x0e xea x78 x0b x5f xeb x0f)) E)
(L (W x0a x00 x00 x00 x8f xc2 xf5 x3c)))
(T (W x28 x00 x00 x00 x04 x00 x00 x00)
(T (W xa4 xba x4c xc8 x17 x2d xef x62)
(L (W xde x0c xea x78 x0b x5e xeb x0f)) E)
(L (W x04 x00 x00 x00 x00 x00 x00 x00))))
(T (W x04 x00 x00 x00 x0a x00 x00 x00)
(T (W x00 x00 x00 x01 xdd x01 x00 x00)
(T (W x20 x00 x24 x00 x00 x00 x28 x00)
(L (W x00 x00 x00 x40 x03 x00 x00 x00)) E)
(L (W x04 x00 x00 x00 x0a x00 x00 x00)))
(T (W x9a x99 x99 x3f x9a x99 x59 x40)
(L (W x00 x00 x2e x00 x4c x00 x08 x00))
(L (W x78 x09 xea x78 x0b x5c xeb x0f))))))
(T (W x85 x03 x00 x00 x00 x00 x80 x3f)
(T (W x00 x00 x01 x01 xc9 x02 x00 x00)
(T (W x02 x00 x00 x00 x03 x00 x00 x00)
(T (W x00 x00 x80 x3f x00 x00 x80 x3f)
(T (W x39 x61 x45 x71 x09 xca x24 x44)
(L (W x70 x6d x30 x30 x30 x30 x5f x30)) E)
(L (W x01 x00 x00 x00 x40 x00 x00 x00)))
(T (W x03 x00 x00 x00 x0c x00 x00 x00)
(T (W x70 x6d x30 x34 x30 x34 x5f x30)
(L (W x70 x6d x30 x30 x36 x34 x5f x30)) E)
(L (W xc9 x00 x00 x00 x0c x00 x00 x00))))
(T (W x04 x00 x00 x00 x0a x00 x00 x00)
(T (W x3c x00 x00 x00 x24 x00 x00 x00)
(T (W x00 x00 x00 x00 xe6 xfc xff xff)
(L (W x02 x00 x00 x00 x00 x00 x60 x40)) E)
(L (W x34 x00 x3c x00 x1c x00 x20 x00)))
(T (W x70 x6d x30 x34 x34 x37 x5f x30)
(T (W x3c x00 x00 x00 x24 x00 x00 x00)
(L (W x02 x00 x00 x00 x03 x00 x00 x00)) E)
(L (W x01 x00 x00 x00 x01 x00 x00 x00)))))
(T (W x00 x00 x00 x00 x04 x00 x00 x00)
(T (W x04 x00 x00 x00 x0a x00 x00 x00)
(T (W xbb xa7 xa1 x5a xaa x2e xd7 x83)
(T (W xa4 xba x4c xc8 x17 x2d xef x62)
(L (W x03 x00 x00 x00 x0c x00 x00 x00)) E)
(L (W x01 x00 x00 x00 x02 x00 x00 x00)))
(T (W x00 x00 x01 x01 xc6 x01 x00 x00)
(T (W xaa x13 xea x78 x0b x62 xeb x0f)
(L (W x01 x00 x00 x00 x44 x00 x00 x00)) E)
(L (W x9a x99 xd9 x3f x02 x00 x00 x00))))
(T (W x00 x00 x32 x00 x54 x00 x08 x00)
(T (W x00 x00 x00 x00 x04 x00 x00 x00)
(T (W x04 x00 x00 x00 x00 x00 x00 x00)
(L (W x04 x00 x00 x00 x0a x00 x00 x00)) E)
(L (W x30 x5f x33 x33 x00 x00 x00 x00)))
(T (W x04 x00 x00 x00 x00 x00 x00 x00)
(L (W x28 x00 x00 x00 x04 x00 x00 x00))
(L (W x04 x00 x00 x00 x00 x00 x00 x00))))))))))
(T (W x04 x93 x00 x00 x68 x92 x00 x00)
(T (W x84 x8a x00 x00 x0c x8a x00 x00)
(T (W x90 x7a x00 x00 x1c x7a x00 x00)
(T (W x44 x5c x00 x00 xcc x5b x00 x00)
(T (W x7c x1e x00 x00 x04 x1e x00 x00)
(T (W x30 x30 x5f x30 x30 x5f x30 x30)
(T (W xbb xa7 xa1 x5a xaa x2e xd7 x83)
(T (W x04 x00 x00 x00 x0a x00 x00 x00)
(T (W xd1 x07 xed x78 x0b xd2 xee x0f)
(L (W xaa x13 xea x78 x0b x62 xeb x0f)) E)
(L (W x66 x66 xe6 x3f x01 x00 x00 x00)))
(T (W x5c x10 xf0 x78 x0b x4e xf2 x0f)
(T (W xa4 xba x4c xc8 x17 x2d xef x62)
(L (W x03 x00 x00 x00 x03 x00 x00 x00)) E)
(L (W x03 x00 x00 x00 x0c x00 x00 x00))))
(T (W x10 x00 x00 x00 x02 x00 x00 x00)
(T (W x00 x00 x00 x01 xe3 x01 x00 x00)
(T (W x2e x00 x00 x00 x00 x00 x00 x01)
(L (W x04 x00 x00 x00 x00 x00 x00 x00)) E)
(L (W xbd xbf x4c xc8 x17 x30 xef x62)))
(T (W x70 x6d x30 x34 x35 x34 x5f x30)
(T (W x01 x00 x00 x00 x9a x99 x19 x3f)
(L (W x00 x00 x00 x00 x08 x00 x0c x00)) E)
(L (W x0c x00 x10 x00 x14 x00 x18 x00)))))
(T (W x70 x6d x30 x37 x35 x31 x5f x30)
(T (W x66 x66 xe6 x3f x66 x66 xe6 x3f)
(T (W x00 x00 x00 x00 x2e xf9 xff xff)
(T (W x04 x00 x00 x00 x0a x00 x00 x00)
(L (W x03 x00 x00 x00 x0c x00 x00 x00)) E)
(L (W x10 x00 x14 x00 x18 x00 x1c x00)))
(T (W x04 x00 x00 x00 x00 x00 x00 x00)
(T (W x01 x00 x00 x00 x02 x00 x00 x00)
(L (W x02 x00 x00 x00 x03 x00 x00 x00)) E)
(L (W x30 x5f x32 x33 x00 x00 x00 x00))))
(T (W x08 x00 x00 x00 x02 x00 x00 x00)
(T (W x3c x00 x44 x00 x24 x00 x28 x00)
(T (W x0c x00 x00 x00 x70 x6d x30 x30)
(L (W x40 x00 x00 x00 x28 x00 x00 x00)) E)
(L (W x04 x00 x00 x00 x00 x00 x00 x00)))
(T (W x01 x00 x00 x00 x02 x00 x00 x00)
(T (W x01 x00 x00 x00 x01 x00 x00 x00)
(L (W x02 x00 x00 x00 x44 x00 x00 x00)) E)
(L (W x00 x00 x00 x01 xbe x00 x00 x00))))))
(T (W x1e x06 xed x78 x0b xd1 xee x0f)
(T (W x06 x72 xff xff xd3 x02 x00 x00)
(T (W x00 x00 x00 x00 x04 x00 x00 x00)
(T (W x30 x5f x30 x30 x00 x00 x00 x00)
(T (W x03 x00 x00 x00 x0c x00 x00 x00)
(L (W x87 x00 x00 x00 x00 x00 x80 x3f)) E)
(L (W x02 x00 x00 x00 xcd xcc xcc x3f)))
(T (W x03 x00 x00 x00 x04 x00 x00 x00)
(T (W x33 x33 x13 x40 x01 x00 x00 x00)
(L (W x30 x5f x30 x30 x00 x00 x2e x00)) E)
(L (W x04 x00 x00 x00 x0a x00 x00 x00))))
(T (W x0c x00 x00 x00 x02 x00 x00 x00)
(T (W x00 x00 x80 x3f x9a x99 x59 x40)
(T (W x66 x66 xe6 x3f x01 x00 x00 x00)
(L (W x24 x00 x28 x00 x00 x00 x2c x00)) E)
(L (W x01 x00 x00 x00 x02 x00 x00 x00)))
(T (W xa6 x9d xff xff x00 x00 x00 x01)
(T (W x00 x00 x80 x3f x66 x66 xc6 x40)
(L (W xde x0c xea x78 x0b x5e xeb x0f)) E)
(L (W x02 x00 x00 x00 x66 x66 x66 x3f)))))
(T (W x30 x5f x30 x30 x00 x00 x00 x00)
(T (W x01 x00 x00 x00 x02 x00 x00 x00)
(T (W x38 x35 x5f x30 x30 x5f x30 x30)
(T (W x30 x30 x5f x30 x30 x5f x30 x30)
(L (W x30 x00 x07 x00 x00 x00 x34 x00)) E)
(L (W x01 x00 x00 x00 x04 x00 x00 x00)))
(T (W x01 x00 x00 x00 x02 x00 x00 x00)
(T (W x9f x64 x45 x71 x09 xcc x24 x44)
(L (W x34 x00 x38 x00 x2e x00 x00 x00)) E)
(L (W xbb xa7 xa1 x5a xaa x2e xd7 x83))))
(T (W x04 x00 x00 x00 x02 x00 x00 x00)
(T (W x30 x5f x30 x30 x00 x00 x00 x00)
(T (W x04 x00 x00 x00 x00 x00 x00 x00)
(L (W xa6 xf1 xff xff x00 x00 x00 x01)) E)
(L (W x9a x99 xd9 x3f x02 x00 x00 x00)))
(T (W x04 x00 x00 x00 x0a x00 x00 x00)
(L (W x00 x00 x80 x3f xcd xcc x2c x40))
(L (W x0a x00 x00 x00 x0a xd7 x23 x3c)))))))
(T (W x18 x3e x00 x00 xa4 x3d x00 x00)
(T (W x00 x00 x80 x3f x66 x66 xa6 x3f)
(T (W x00 x00 x00 x40 x02 x00 x00 x00)
(T (W x02 x00 x00 x00 x03 x00 x00 x00)
(T (W x08 x00 x0c x00 x10 x00 x14 x00)
(T (W x03 x00 x00 x00 x0c x00 x00 x00)
(L (W x03 x00 x00 x00 x0c x00 x00 x00)) E)
(L (W x00 x00 x01 x01 x19 x01 x00 x00)))
(T (W x03 x00 x00 x00 x0c x00 x00 x00)
(T (W x70 x6d x30 x30 x30 x30 x5f x30)
(L (W x00 x00 x80 x3f x00 x00 x00 x40)) E)
(L (W xc9 x00 x00 x00 x12 x00 x00 x00))))
(T (W x0e x00 x00 x00 x02 x00 x00 x00)
(T (W x40 x00 x00 x00 x28 x00 x00 x00)
(T (W x02 x00 x00 x00 x03 x00 x00 x00)
(L (W x00 x00 x80 x3f x00 x00 x70 x41)) E)
(L (W x0c x00 x00 x00 x70 x6d x30 x30)))
(T (W x01 x00 x00 x00 x02 x00 x00 x00)
(T (W xbd xbf x4c xc8 x17 x30 xef x62)
(L (W x04 x00 x00 x00 x00 x00 x00 x00)) E)
(L (W xbb xa7 xa1 x5a xaa x2e xd7 x83)))))
(T (W x00 x00 x00 x00 x01 x00 x00 x00)
(T (W x0c x00 x00 x00 x70 x6d x30 x30)
(T (W x18 x00 x1c x00 x40 x00 x48 x00)
(T (W x04 x00 x00 x00 x00 x00 x00 x00)
(L (W x00 x00 x80 x3f x33 x33 xb3 x3f)) E)
(L (W x30 x5f x30 x30 x00 x00 x00 x00)))
(T (W x70 x6d x30 x34 x36 x31 x5f x30)
(T (W x6e xbc xff xff x90 x01 x00 x00)
(L (W x33 x33 xb3 x3f x03 x00 x00 x00)) E)
(L (W x9a x99 xd9 x3f x02 x00 x00 x00))))
(T (W x06 x00 x00 x00 x02 x00 x00 x00)
(T (W x04 x00 x00 x00 x00 x00 x00 x00)
(T (W x20 x00 x24 x00 x00 x00 x28 x00)
(L (W x18 x00 x1c x00 x38 x00 x40 x00)) E)
(L (W x30 x5f x30 x30 x00 x00 x00 x00)))
(T (W x26 xb7 xff xff x00 x00 x01 x01)
(T (W xd3 x5d x45 x71 x09 xc8 x24 x44)
(L (W x0c x00 x10 x00 x00 x00 x14 x00)) E)
(L (W x00 x00 x28 x00 x2e x00 x00 x00))))))
(T (W x00 x00 x00 x00 x04 x00 x00 x00)
(T (W x2a x00 x00 x00 x00 x00 x00 x01)
(T (W x0a x00 x00 x00 x0a xd7 x23 x3c)
(T (W x3c x00 x44 x00 x1c x00 x20 x00)
(T (W x00 x00 x00 x01 xae x01 x00 x00)
(L (W x0a x00 x00 x00 x0a xd7 x23 x3c)) E)
(L (W x03 x00 x00 x00 x0c x00 x00 x00)))
(T (W x0a x00 x00 x00 x0a xd7 x23 x3d)
(T (W x00 x00 x80 x3f xcd xcc x4c x40)
(L (W x03 x00 x00 x00 x0c x00 x00 x00)) E)
(L (W x04 x00 x00 x00 x00 x00 x00 x00))))
(T (W x0a x00 x00 x00 x02 x00 x00 x00)
(T (W x00 x00 x38 x00 x2e x00 x00 x00)
(T (W xd3 xf6 xec x78 x0b xc8 xee x0f)
(L (W x00 x00 x00 x00 xae xfa xff xff)) E)
(L (W x04 x00 x00 x00 x00 x00 x00 x00)))
(T (W x0c x00 x00 x00 x70 x6d x30 x34)
(T (W x01 x00 x00 x00 x02 x00 x00 x00)
(L (W x0a x00 x00 x00 x0a xd7 xa3 x3c)) E)
(L (W x01 x00 x00 x00 x02 x00 x00 x00)))))
(T (W x01 x00 x00 x00 x04 x00 x00 x00)
(T (W x12 x00 x00 x00 x02 x00 x00 x00)
(T (W x00 x00 x00 x00 x04 x00 x00 x00)
(T (W x00 x00 x80 x3f x00 x00 x40 x40)
(L (W x03 x00 x00 x00 x0c x00 x00 x00)) E)
(L (W x02 x00 x00 x00 x40 x00 x00 x00)))
(T (W x00 x00 x00 x00 x04 x00 x00 x00)
(T (W x30 x5f x30 x30 x00 x00 x00 x00)
(L (W x03 x00 x00 x00 x0c x00 x00 x00)) E)
(L (W x03 x00 x00 x00 x0c x00 x00 x00))))
(T (W x1c x00 x20 x00 x44 x00 x4c x00)
(T (W x01 x00 x00 x00 x04 x00 x00 x00)
(T (W x01 x00 x00 x00 x01 x00 x00 x00)
(L (W x28 x00 x00 x00 x04 x00 x00 x00)) E)
(L (W xbb xa7 xa1 x5a xaa x2e xd7 x83)))
(T (W x02 x00 x00 x00 x44 x00 x00 x00)
(L (W x03 x00 x00 x00 x0c x00 x00 x00))
(L (W x40 x00 x00 x00 x28 x00 x00 x00))))))))
(T (W x88 x6b x00 x00 x18 x6b x00 x00)
(T (W xb0 x4d x00 x00 x44 x4d x00 x00)
(T (W x3c x0d x00 x00 xc4 x0c x00 x00)
(T (W x26 x6c xff xff x00 x00 x00 x01)
(T (W x00 x00 x00 x00 x04 x00 x00 x00)
(T (W x32 x00 x00 x00 x00 x00 x00 x01)
(T (W x04 x00 x00 x00 x00 x00 x00 x00)
(L (W x04 x00 x00 x00 x00 x00 x00 x00)) E)
(L (W x28 x00 x00 x00 x04 x00 x00 x00)))
(T (W x04 x00 x00 x00 x00 x00 x00 x00)
(T (W x01 x00 x00 x00 x02 x00 x00 x00)
(L (W x00 x00 x30 x00 x2e x00 x00 x00)) E)
(L (W x30 x5f x33 x31 x00 x00 x00 x00))))
(T (W x0f x00 x00 x00 x02 x00 x00 x00)
(T (W x02 x00 x00 x00 x00 x00 x80 x3f)
(T (W x0c x00 x10 x00 x14 x00 x18 x00)
(L (W x03 x00 x00 x00 x0c x00 x00 x00)) E)
(L (W x01 x00 x00 x00 x02 x00 x00 x00)))
(T (W xa4 xba x4c xc8 x17 x2d xef x62)
(T (W xf6 x0c xf0 x78 x0b x4c xf2 x0f)
(L (W x0c x00 x00 x00 x70 x6d x30 x30)) E)
(L (W x02 x00 x00 x00 x03 x00 x00 x00)))))
(T (W x50 x00 x08 x00 x0c x00 x00 x00)
(T (W x20 x00 x24 x00 x00 x00 x28 x00)
(T (W x00 x00 x00 x01 xe7 x01 x00 x00)
(T (W x9a x99 x99 x3f x33 x33 x33 x3f)
(L (W x30 x5f x30 x30 x00 x00 x00 x00)) E)
(L (W x02 x00 x00 x00 x03 x00 x00 x00)))
(T (W x02 x00 x00 x00 x03 x00 x00 x00)
(T (W x0c x00 x00 x00 x70 x6d x30 x30)
(L (W x00 x00 x80 x3f x00 x00 xf0 x40)) E)
(L (W xc9 x00 x00 x00 x0a x00 x00 x00))))
(T (W x07 x00 x00 x00 x02 x00 x00 x00)
(T (W x70 x6d x30 x34 x37 x39 x5f x31)
(T (W x86 xb4 xff xff x9e x01 x00 x00)
(L (W x2e x00 x00 x00 x00 x00 x00 x01)) E)
(L (W x02 x00 x00 x00 x03 x00 x00 x00)))
(T (W x70 x6d x30 x34 x34 x35 x5f x30)
(T (W x04 x00 x00 x00 x0a x00 x00 x00)
(L (W x30 x00 x07 x00 x00 x00 x34 x00)) E)
(L (W x03 x00 x00 x00 x40 x00 x00 x00))))))
(T (W xbd xbf x4c xc8 x17 x30 xef x62)
(T (W x01 x00 x00 x00 x02 x00 x00 x00)
(T (W x04 x00 x00 x00 x0a x00 x00 x00)
(T (W x00 x00 x00 x01 xea x01 x00 x00)
(T (W x33 x32 x5f x30 x30 x5f x30 x30)
(L (W x03 x00 x00 x00 x44 x00 x00 x00)) E)
(L (W xa4 xba x4c xc8 x17 x2d xef x62)))
(T (W x44 x00 x00 x00 x2c x00 x00 x00)
(T (W x28 x00 x00 x00 x04 x00 x00 x00)
(L (W x00 x00 x00 x00 x04 x00 x00 x00)) E)
(L (W xbb xa7 xa1 x5a xaa x2e xd7 x83))))
(T (W x0b x00 x00 x00 x02 x00 x00 x00)
(T (W x01 x00 x00 x00 x04 x00 x00 x00)
(T (W x0a x00 x00 x00 x0a xd7 x23 x3c)
(L (W x70 x6d x30 x31 x30 x30 x5f x30)) E)
(L (W x75 x15 xf0 x78 x0b x51 xf2 x0f)))
(T (W x3c x00 x44 x00 x1c x00 x20 x00)
(T (W xbd xbf x4c xc8 x17 x30 xef x62)
(L (W x01 x00 x00 x00 x44 x00 x00 x00)) E)
(L (W xa4 xba x4c xc8 x17 x2d xef x62)))))
(T (W x85 x02 x00 x00 x01 x00 x00 x00)
(T (W x30 x30 x5f x30 x30 x5f x30 x30)
(T (W xbb xa7 xa1 x5a xaa x2e xd7 x83)
(T (W x26 xaa xff xff x00 x00 x00 x01)
(L (W x10 x00 x14 x00 x18 x00 x1c x00)) E)
(L (W x01 x00 x00 x00 x66 x66 xf6 x40)))
(T (W x01 x00 x00 x00 xcd xcc xcc x3f)
(T (W x01 x00 x00 x00 x02 x00 x00 x00)
(L (W x00 x00 x00 x00 x08 x00 x0c x00)) E)
(L (W x04 x00 x00 x00 x00 x00 x00 x00))))
(T (W x03 x00 x00 x00 x02 x00 x00 x00)
(T (W x00 x00 x80 x3f x33 x33 xb3 x3f)
(T (W x02 x00 x00 x00 x00 x00 x80 x3f)
(L (W x00 x00 x00 x40 x03 x00 x00 x00)) E)
(L (W x04 x00 x00 x00 x0a x00 x00 x00)))
(T (W xb8 x01 x00 x00 x01 x00 x00 x00)
(L (W xa4 xba x4c xc8 x17 x2d xef x62))
(L (W x00 x00 x80 x3f x00 x00 x20 x40)))))))
(T (W xe4 x2e x00 x00 x68 x2e x00 x00)
(T (W x3c x00 x00 x00 x24 x00 x00 x00)
(T (W x2c x00 x07 x00 x30 x00 x00 x00)
(T (W x9f xfd xec x78 x0b xcc xee x0f)
(T (W x03 x00 x00 x00 x0c x00 x00 x00)
(T (W x30 x5f x30 x30 x00 x00 x2e x00)
(L (W x30 x5f x30 x30 x00 x00 x00 x00)) E)
(L (W x01 x00 x00 x00 x40 x00 x00 x00)))
(T (W x86 x99 xff xff xd4 x01 x00 x00)
(T (W x26 xb5 xff xff x00 x00 x00 x01)
(L (W x00 x00 x24 x00 x28 x00 x00 x00)) E)
(L (W x9a x99 xd9 x3f x02 x00 x00 x00))))
(T (W x0d x00 x00 x00 x02 x00 x00 x00)
(T (W x2e x00 x00 x00 xe0 x01 x00 x00)
(T (W x30 x5f x30 x30 x00 x00 x00 x00)
(L (W x02 x00 x00 x00 x00 x00 x80 x3f)) E)
(L (W x00 x00 x2e x00 x48 x00 x08 x00)))
(T (W x70 x6d x30 x34 x35 x31 x5f x30)
(T (W x04 x00 x00 x00 x0a x00 x00 x00)
(L (W x0a x00 x00 x00 x8f xc2 xf5 x3c)) E)
(L (W x40 x00 x00 x00 x28 x00 x00 x00)))))
(T (W x03 x00 x00 x00 x0c x00 x00 x00)
(T (W xa4 xba x4c xc8 x17 x2d xef x62)
(T (W x03 x00 x00 x00 x0c x00 x00 x00)
(T (W x0c x00 x00 x00 x70 x6d x30 x30)
(L (W x48 x00 x00 x00 x30 x00 x00 x00)) E)
(L (W xea x00 x00 x00 x00 x00 x80 x3f)))
(T (W x26 x99 xff xff x00 x00 x00 x01)
(T (W x3c x00 x00 x00 x24 x00 x00 x00)
(L (W x01 x00 x00 x00 x40 x00 x00 x00)) E)
(L (W x04 x00 x00 x00 x0a x00 x00 x00))))
(T (W x05 x00 x00 x00 x02 x00 x00 x00)
(T (W x02 x00 x00 x00 x03 x00 x00 x00)
(T (W x30 x30 x5f x30 x30 x5f x30 x30)
(L (W x70 x6d x30 x30 x38 x31 x5f x30)) E)
(L (W xc9 x00 x00 x00 x1a x00 x00 x00)))
(T (W xcd xcc xcc x3f x02 x00 x00 x00)
(T (W x00 x00 x00 x00 x01 x00 x00 x00)
(L (W x70 x6d x30 x30 x30 x30 x5f x30)) E)
(L (W x02 x00 x00 x00 x44 x00 x00 x00))))))
(T (W x03 x00 x00 x00 x0c x00 x00 x00)
(T (W x3c x00 x44 x00 x20 x00 x24 x00)
(T (W x1e x06 xed x78 x0b xd1 xee x0f)
(T (W x70 x6d x30 x34 x38 x39 x5f x30)
(T (W x01 x00 x00 x00 x03 x00 x00 x00)
(L (W x0a xbe x4c xc8 x17 x2f xef x62)) E)
(L (W x30 x30 x5f x30 x30 x5f x30 x30)))
(T (W x05 x68 x45 x71 x09 xce x24 x44)
(T (W xa4 xba x4c xc8 x17 x2d xef x62)
(L (W xbd xbf x4c xc8 x17 x30 xef x62)) E)
(L (W x03 x00 x00 x00 x0c x00 x00 x00))))
(T (W x09 x00 x00 x00 x02 x00 x00 x00)
(T (W x00 x00 x00 x01 xdf x01 x00 x00)
(T (W x00 x00 x00 x00 x01 x00 x00 x00)
(L (W x00 x00 x80 x3f x00 x00 xc0 x3f)) E)
(L (W x70 x6d x30 x30 x30 x30 x5f x30)))
(T (W xa4 xba x4c xc8 x17 x2d xef x62)
(T (W x30 x5f x30 x30 x00 x00 x00 x00)
(L (W x78 x09 xea x78 x0b x5c xeb x0f)) E)
(L (W x70 x6d x30 x30 x30 x30 x5f x30)))))
(T (W x04 x00 x00 x00 x0a x00 x00 x00)
(T (W x11 x00 x00 x00 x02 x00 x00 x00)
(T (W x3c x00 x00 x00 x24 x00 x00 x00)
(T (W x2c x00 x00 x00 x04 x00 x00 x00)
(L (W x05 x68 x45 x71 x09 xce x24 x44)) E)
(L (W x01 x00 x00 x00 x33 x33 x33 x3f)))
(T (W x02 x00 x00 x00 x03 x00 x00 x00)
(T (W x01 x00 x00 x00 x03 x00 x00 x00)
(L (W x30 x5f x30 x30 x00 x00 x00 x00)) E)
(L (W x30 x5f x31 x35 x00 x00 x00 x00))))
(T (W x00 x00 x00 x00 x01 x00 x00 x00)
(T (W x0a x00 x00 x00 x8f xc2 xf5 x3c)
(T (W x04 x00 x00 x00 x0a x00 x00 x00)
(L (W x00 x00 x00 x01 x4a x00 x00 x00)) E)
(L (W x04 x00 x00 x00 x00 x00 x00 x00)))
(T (W x0a x00 x00 x00 x0a xd7 x23 x3c)
(L (W x26 xc3 xff xff x00 x00 x00 x01))
(L (W x0a x00 x00 x00 x0a xd7 x23 x3d)))))))))
(T (W x1c x82 x00 x00 xa4 x81 x00 x00)
(T (W xc8 x72 x00 x00 x54 x72 x00 x00)
(T (W xc8 x54 x00 x00 x5c x54 x00 x00)
(T (W xb4 x15 x00 x00 x30 x15 x00 x00)
(T (W x00 x00 x80 x3f x00 x00 xf0 x40)
(T (W x81 x02 x00 x00 x01 x00 x00 x00)
(T (W x70 x6d x30 x34 x39 x33 x5f x31)
(T (W xb4 x01 x00 x00 x02 x00 x00 x00)
(L (W x9b x00 x00 x00 x00 x00 x80 x3f)) E)
(L (W x01 x00 x00 x00 x02 x00 x00 x00)))
(T (W xd7 x01 x00 x00 x00 x00 x80 x3f)
(T (W x33 x33 xf3 x3f x03 x00 x00 x00)
(L (W x03 x00 x00 x00 x0c x00 x00 x00)) E)
(L (W x04 x00 x00 x00 x0a x00 x00 x00))))
(T (W xbb xa7 xa1 x5a xaa x2e xd7 x83)
(T (W xbb xa7 xa1 x5a xaa x2e xd7 x83)
(T (W xa9 x0e xf0 x78 x0b x4d xf2 x0f)
(L (W x01 x00 x00 x00 x40 x00 x00 x00)) E)
(L (W x00 x00 x20 x40 x01 x00 x00 x00)))
(T (W x00 x00 x01 x01 xc5 x01 x00 x00)
(T (W x00 x00 x00 x00 x3e xc6 xff xff)
(L (W x40 x00 x00 x00 x28 x00 x00 x00)) E)
(L (W x9a x99 xd9 x3f x02 x00 x00 x00)))))
(T (W x9a x99 x99 x3f x66 x66 xe6 x3f)
(T (W x00 x00 x00 x00 x04 x00 x00 x00)
(T (W xbb xa7 xa1 x5a xaa x2e xd7 x83)
(T (W x0c x00 x00 x00 x70 x6d x30 x30)
(L (W x0a x00 x00 x00 x0a xd7 x23 x3d)) E)
(L (W x04 x00 x00 x00 x44 x00 x00 x00)))
(T (W x03 x00 x00 x00 x03 x00 x00 x00)
(T (W x2c x00 x00 x00 x04 x00 x00 x00)
(L (W x34 x00 x07 x00 x00 x00 x00 x00)) E)
(L (W xbb xa7 xa1 x5a xaa x2e xd7 x83))))
(T (W xbb xa7 xa1 x5a xaa x2e xd7 x83)
(T (W x3c x00 x00 x00 x24 x00 x00 x00)
(T (W x02 x00 x00 x00 x33 x33 xb3 x3f)
(L (W x0c x00 x00 x00 x70 x6d x30 x30)) E)
(L (W x04 x00 x00 x00 x44 x00 x00 x00)))
(T (W x28 x00 x00 x00 x04 x00 x00 x00)
(T (W x02 x00 x00 x00 x03 x00 x00 x00)
(L (W x02 x00 x00 x00 x03 x00 x00 x00)) E)
(L (W x04 x00 x00 x00 x00 x00 x00 x00))))))
(T (W x00 x00 x01 x01 x87 x03 x00 x00)
(T (W x00 x00 x00 x00 x04 x00 x00 x00)
(T (W x20 x00 x24 x00 x00 x00 x28 x00)
(T (W xbb xa7 xa1 x5a xaa x2e xd7 x83)
(T (W x0a x00 x00 x00 x0a xd7 xa3 x3c)
(L (W x04 x00 x00 x00 x00 x00 x00 x00)) E)
(L (W xe6 xc5 xff xff x00 x00 x00 x01)))
(T (W x00 x00 x00 x00 x01 x00 x00 x00)
(T (W x00 x00 x00 x00 x01 x00 x00 x00)
(L (W x00 x00 x80 x3f x00 x00 x00 x40)) E)
(L (W x30 x5f x32 x37 x00 x00 x00 x00))))
(T (W xbb xa7 xa1 x5a xaa x2e xd7 x83)
(T (W x00 x00 x00 x00 x01 x00 x00 x00)
(T (W x02 x00 x00 x00 x03 x00 x00 x00)
(L (W x28 x00 x00 x00 x04 x00 x00 x00)) E)
(L (W x00 x00 x28 x00 x2c x00 x07 x00)))
(T (W xa4 xba x4c xc8 x17 x2d xef x62)
(T (W xe6 xbd xff xff x00 x00 x00 x01)
(L (W x0c x00 x00 x00 x10 x00 x14 x00)) E)
(L (W x00 x00 x00 x00 x2e xe7 xff xff)))))
(T (W xc5 x07 xea x78 x0b x5b xeb x0f)
(T (W x04 x00 x00 x00 x0a x00 x00 x00)
(T (W x00 x00 x00 x01 xe4 x01 x00 x00)
(T (W x00 x00 x80 x3f x9a x99 x19 x40)
(L (W xd3 x5d x45 x71 x09 xc8 x24 x44)) E)
(L (W x03 x00 x00 x00 x0c x00 x00 x00)))
(T (W x03 x00 x00 x00 x0c x00 x00 x00)
(T (W x00 x00 x80 x3f x33 x33 x13 x40)
(L (W xd3 x5d x45 x71 x09 xc8 x24 x44)) E)
(L (W xc9 x00 x00 x00 x06 x00 x00 x00))))
(T (W xbb xa7 xa1 x5a xaa x2e xd7 x83)
(T (W xbd xbf x4c xc8 x17 x30 xef x62)
(T (W x00 x00 x24 x00 x28 x00 x00 x00)
(L (W xa4 xba x4c xc8 x17 x2d xef x62)) E)
(L (W x03 x00 x00 x00 x0c x00 x00 x00)))
(T (W x30 x30 x5f x30 x30 x5f x30 x30)
(L (W x00 x00 x00 x00 x2e xcb xff xff))
(L (W x30 x5f x30 x30 x00 x00 x2e x00)))))))
(T (W x50 x36 x00 x00 xdc x35 x00 x00)
(T (W x00 x00 x00 x00 x01 x00 x00 x00)
(T (W x00 x00 x00 x00 x01 x00 x00 x00)
(T (W x00 x00 x00 x00 x00 x00 x34 x00)
(T (W x05 x00 x00 x00 x40 x00 x00 x00)
(T (W x0a x00 x00 x00 x0a xd7 x23 x3c)
(L (W x04 x00 x00 x00 x0a x00 x00 x00)) E)
(L (W x00 x00 x00 x00 x04 x00 x00 x00)))
(T (W x02 x00 x00 x00 x66 x66 xa6 x40)
(T (W x00 x00 x80 x3f x33 x33 x73 x40)
(L (W x04 x00 x00 x00 x00 x00 x00 x00)) E)
(L (W x04 x00 x00 x00 x00 x00 x00 x00))))
(T (W xbb xa7 xa1 x5a xaa x2e xd7 x83)
(T (W x0c x00 x00 x00 x70 x6d x30 x34)
(T (W x0a x00 x00 x00 x0a xd7 x23 x3c)
(L (W x00 x00 x2e x00 x54 x00 x08 x00)) E)
(L (W x9a x99 x99 x3f x66 x66 x66 x3f)))
(T (W x28 x00 x00 x00 x04 x00 x00 x00)
(T (W x00 x00 x14 x00 x38 x00 x40 x00)
(L (W x00 x00 x28 x00 x2c x00 x00 x00)) E)
(L (W x10 x00 x14 x00 x00 x00 x18 x00)))))
(T (W x03 x00 x00 x00 x40 x00 x00 x00)
(T (W x2e x00 x00 x00 x00 x00 x00 x01)
(T (W x44 x00 x00 x00 x2c x00 x00 x00)
(T (W x40 x00 x00 x00 x28 x00 x00 x00)
(L (W x00 x00 x00 x00 x01 x00 x00 x00)) E)
(L (W xf7 x11 xea x78 x0b x61 xeb x0f)))
(T (W x00 x00 x80 x3f xcd xcc x8c x40)
(T (W x04 x00 x00 x00 x00 x00 x00 x00)
(L (W x00 x00 x00 x00 x01 x00 x00 x00)) E)
(L (W x03 x00 x00 x00 x0c x00 x00 x00))))
(T (W xbb xa7 xa1 x5a xaa x2e xd7 x83)
(T (W x01 x00 x00 x00 x03 x00 x00 x00)
(T (W x04 x00 x00 x00 x0a x00 x00 x00)
(L (W x3c x00 x00 x00 x24 x00 x00 x00)) E)
(L (W xbb xa7 xa1 x5a xaa x2e xd7 x83)))
(T (W xa4 xba x4c xc8 x17 x2d xef x62)
(T (W x00 x00 x80 x3f x00 x00 x40 x40)
(L (W x28 x00 x00 x00 x04 x00 x00 x00)) E)
(L (W x00 x00 x00 x00 x04 x00 x00 x00))))))
(T (W x03 x00 x00 x00 x03 x00 x00 x00)
(T (W xbb xa7 xa1 x5a xaa x2e xd7 x83)
(T (W x37 x30 x5f x30 x30 x5f x34 x31)
(T (W x04 x00 x00 x00 x0a x00 x00 x00)
(T (W x00 x00 x00 x00 x04 x00 x00 x00)
(L (W x30 x5f x30 x30 x00 x00 x00 x00)) E)
(L (W x0a x00 x00 x00 x0a xd7 xa3 x3c)))
(T (W x30 x5f x30 x30 x00 x00 x00 x00)
(T (W x66 xcd xff xff x00 x00 x01 x01)
(L (W x00 x00 x30 x00 x2e x00 x00 x00)) E)
(L (W x9a x99 xd9 x3f x02 x00 x00 x00))))
(T (W xbb xa7 xa1 x5a xaa x2e xd7 x83)
(T (W x52 x66 x45 x71 x09 xcd x24 x44)
(T (W x9f x01 x00 x00 x00 x00 x80 x3f)
(L (W x0a xbe x4c xc8 x17 x2f xef x62)) E)
(L (W x3c x00 x00 x00 x24 x00 x00 x00)))
(T (W x2e x00 x00 x00 x00 x00 x01 x01)
(T (W x04 x00 x00 x00 x0a x00 x00 x00)
(L (W x30 x5f x30 x30 x00 x00 x00 x00)) E)
(L (W x28 x00 x00 x00 x04 x00 x00 x00)))))
(T (W x03 x00 x00 x00 x0c x00 x00 x00)
(T (W xbb xa7 xa1 x5a xaa x2e xd7 x83)
(T (W x24 x00 x28 x00 x00 x00 x2c x00)
(T (W x00 x00 x00 x00 x01 x00 x00 x00)
(L (W x00 x00 x38 x00 x2e x00 x00 x00)) E)
(L (W x03 x00 x00 x00 x0c x00 x00 x00)))
(T (W x02 x00 x00 x00 x02 x00 x00 x00)
(T (W x0a xbe x4c xc8 x17 x2f xef x62)
(L (W x0a x00 x00 x00 x8f xc2 xf5 x3c)) E)
(L (W x04 x00 x00 x00 x0a x00 x00 x00))))
(T (W x02 x00 x00 x00 x05 x00 x00 x00)
(T (W x03 x00 x00 x00 x0c x00 x00 x00)
(T (W x02 x00 x00 x00 x03 x00 x00 x00)
(L (W x70 x6d x30 x30 x30 x30 x5f x30)) E)
(L (W xc9 x00 x00 x00 x16 x00 x00 x00)))
(T (W x02 x00 x00 x00 x03 x00 x00 x00)
(L (W x01 x00 x00 x00 xcd xcc x4c x3f))
(L (W x0c x00 x00 x00 x70 x6d x30 x31))))))))
(T (W xb8 x63 x00 x00 x44 x63 x00 x00)
(T (W xe4 x45 x00 x00 x3c x45 x00 x00)
(T (W x40 x05 x00 x00 xcc x04 x00 x00)
(T (W xbd xbf x4c xc8 x17 x30 xef x62)
(T (W x01 x00 x00 x00 x04 x00 x00 x00)
(T (W xbb xa7 xa1 x5a xaa x2e xd7 x83)
(T (W x02 x00 x00 x00 x40 x00 x00 x00)
(L (W x04 x00 x00 x00 x40 x00 x00 x00)) E)
(L (W x70 x6d x30 x32 x38 x32 x5f x30)))
(T (W x03 x00 x00 x00 x40 x00 x00 x00)
(T (W x28 x00 x00 x00 x04 x00 x00 x00)
(L (W xa4 xba x4c xc8 x17 x2d xef x62)) E)
(L (W xbb xa7 xa1 x5a xaa x2e xd7 x83))))
(T (W xbb xa7 xa1 x5a xaa x2e xd7 x83)
(T (W x00 x00 x00 x00 x01 x00 x00 x00)
(T (W x48 x00 x00 x00 x30 x00 x00 x00)
(L (W x00 x00 x00 x00 x00 x00 x3c x00)) E)
(L (W x2c x00 x00 x00 x04 x00 x00 x00)))
(T (W x00 x00 xc0 x3f x03 x00 x00 x00)
(T (W x00 x00 x00 x01 x87 x01 x00 x00)
(L (W x2e x00 x00 x00 x29 x00 x00 x00)) E)
(L (W x00 x00 x00 x00 x00 x00 x34 x00)))))
(T (W xcd xcc xcc x3f x03 x00 x00 x00)
(T (W x04 x00 x00 x00 x0a x00 x00 x00)
(T (W xbb xa7 xa1 x5a xaa x2e xd7 x83)
(T (W x2e xac xff xff xaa x01 x00 x00)
(L (W xf7 x11 xea x78 x0b x61 xeb x0f)) E)
(L (W x0a x00 x00 x00 x0a xd7 x23 x3c)))
(T (W x04 x00 x00 x00 x0a x00 x00 x00)
(T (W x9a x99 x99 x3f xcd xcc x4c x3f)
(L (W x50 x00 x08 x00 x0c x00 x00 x00)) E)
(L (W x04 x00 x00 x00 x00 x00 x00 x00))))
(T (W xbb xa7 xa1 x5a xaa x2e xd7 x83)
(T (W x00 x00 x00 x01 xdf x01 x00 x00)
(T (W x00 x00 x00 x00 x04 x00 x00 x00)
(L (W xbd xbf x4c xc8 x17 x30 xef x62)) E)
(L (W x04 x00 x00 x00 x0a x00 x00 x00)))
(T (W x00 x00 x80 x3f x33 x33 x33 x40)
(T (W x30 x5f x30 x30 x00 x00 x00 x00)
(L (W xaa x13 xea x78 x0b x62 xeb x0f)) E)
(L (W x03 x00 x00 x00 x0c x00 x00 x00))))))
(T (W x01 x00 x00 x00 x01 x00 x00 x00)
(T (W x03 x00 x00 x00 x0c x00 x00 x00)
(T (W x0c x00 x00 x00 x70 x6d x30 x35)
(T (W xbb xa7 xa1 x5a xaa x2e xd7 x83)
(T (W x86 x5f x45 x71 x09 xc9 x24 x44)
(L (W x02 x00 x00 x00 x03 x00 x00 x00)) E)
(L (W x02 x00 x00 x00 x02 x00 x00 x00)))
(T (W x03 x00 x00 x00 x0c x00 x00 x00)
(T (W x70 x6d x30 x30 x30 x30 x5f x30)
(L (W x02 x00 x00 x00 x04 x00 x00 x00)) E)
(L (W xc9 x00 x00 x00 x0e x00 x00 x00))))
(T (W xbb xa7 xa1 x5a xaa x2e xd7 x83)
(T (W x03 x00 x00 x00 x0c x00 x00 x00)
(T (W x30 x5f x30 x30 x00 x00 x00 x00)
(L (W x66 x66 x66 x3f x00 x00 xe0 x40)) E)
(L (W xd6 x00 x00 x00 x00 x00 x80 x3f)))
(T (W x04 x00 x00 x00 x0a x00 x00 x00)
(T (W x33 x33 x33 x40 x01 x00 x00 x00)
(L (W x02 x00 x00 x00 x03 x00 x00 x00)) E)
(L (W x9a x99 xd9 x3f x01 x00 x00 x00)))))
(T (W x00 x00 x00 x00 x04 x00 x00 x00)
(T (W xa4 xba x4c xc8 x17 x2d xef x62)
(T (W x02 x00 x00 x00 x00 x00 x80 x3f)
(T (W xbd xbf x4c xc8 x17 x30 xef x62)
(L (W x03 x00 x00 x00 x40 x00 x00 x00)) E)
(L (W x44 x00 x04 x00 x00 x00 x00 x00)))
(T (W xc6 x9e xff xff xc8 x01 x00 x00)
(T (W x04 x00 x00 x00 x0a x00 x00 x00)
(L (W x44 x00 x00 x00 x2c x00 x00 x00)) E)
(L (W x9a x99 xd9 x3f x02 x00 x00 x00))))
(T (W xbb xa7 xa1 x5a xaa x2e xd7 x83)
(T (W x04 x00 x00 x00 x00 x00 x00 x00)
(T (W x48 x00 x04 x00 x08 x00 x00 x00)
(L (W x01 x00 x00 x00 x02 x00 x00 x00)) E)
(L (W x30 x5f x33 x35 x00 x00 x00 x00)))
(T (W x04 x00 x00 x00 x00 x00 x00 x00)
(L (W x01 x00 x00 x00 x02 x00 x00 x00))
(L (W x00 x00 x00 x00 x01 x00 x00 x00)))))))
(T (W x44 x27 x00 x00 xa0 x26 x00 x00)
(T (W x70 x6d x30 x30 x30 x30 x5f x30)
(T (W x02 x00 x00 x00 x00 x00 x00 x40)
(T (W x00 x00 x00 x01 x73 x02 x00 x00)
(T (W x0a x00 x00 x00 x0a xd7 x23 x3c)
(T (W x00 x00 x40 x40 x02 x00 x00 x00)
(L (W xc5 x07 xea x78 x0b x5b xeb x0f)) E)
(L (W x03 x00 x00 x00 x0c x00 x00 x00)))
(T (W x00 x00 x00 x00 x04 x00 x00 x00)
(T (W xa4 xba x4c xc8 x17 x2d xef x62)
(L (W x0a xd7 x23 x3d x00 x00 x80 x3f)) E)
(L (W x03 x00 x00 x00 x0c x00 x00 x00))))
(T (W xbb xa7 xa1 x5a xaa x2e xd7 x83)
(T (W x00 x00 x00 x00 x04 x00 x00 x00)
(T (W xbd xbf x4c xc8 x17 x30 xef x62)
(L (W x00 x00 x00 x00 x04 x00 x00 x00)) E)
(L (W x00 x00 x80 x3f x00 x00 x00 x40)))
(T (W x00 x00 x80 x3f x66 x66 xd6 x40)
(T (W x70 x6d x30 x30 x30 x30 x5f x30)
(L (W x30 x5f x30 x30 x00 x00 x00 x00)) E)
(L (W x0c x00 x00 x00 x70 x6d x30 x32)))))
(T (W x0a x00 x00 x00 x0a xd7 x23 x3c)
(T (W x00 x00 x80 x3f x9a x99 xd9 x3f)
(T (W x0a x00 x00 x00 x0a xd7 xa3 x3c)
(T (W x0a xd7 xa3 x3c x9a x99 x99 x3f)
(L (W x02 x00 x00 x00 x03 x00 x00 x00)) E)
(L (W x04 x00 x00 x00 x00 x00 x00 x00)))
(T (W xa4 xba x4c xc8 x17 x2d xef x62)
(T (W x70 x6d x30 x33 x39 x39 x5f x30)
(L (W x03 x00 x00 x00 x0c x00 x00 x00)) E)
(L (W x30 x5f x31 x39 x00 x00 x00 x00))))
(T (W xbb xa7 xa1 x5a xaa x2e xd7 x83)
(T (W x04 x00 x00 x00 x0a x00 x00 x00)
(T (W x01 x00 x00 x00 x01 x00 x00 x00)
(L (W x00 x00 x80 x3f x00 x00 x60 x40)) E)
(L (W x04 x00 x00 x00 x00 x00 x00 x00)))
(T (W x01 x00 x00 x00 x02 x00 x00 x00)
(L (W x28 x00 x06 x00 x00 x00 x2c x00))
(L (W x02 x00 x00 x00 x03 x00 x00 x00))))))
(T (W x0a x00 x00 x00 x8f xc2 xf5 x3c)
(T (W x28 x00 x00 x00 x04 x00 x00 x00)
(T (W x0c x00 x10 x00 x14 x00 x18 x00)
(T (W x02 x00 x00 x00 x00 x00 x40 x40)
(T (W x02 x00 x00 x00 x03 x00 x00 x00)
(L (W x01 x00 x00 x00 x01 x00 x00 x00)) E)
(L (W x9f x64 x45 x71 x09 xcc x24 x44)))
(T (W xcf x01 x00 x00 x00 x00 x80 x3f)
(T (W x9a x99 x19 x40 x01 x00 x00 x00)
(L (W x01 x00 x00 x00 x01 x00 x00 x00)) E)
(L (W x04 x00 x00 x00 x0a x00 x00 x00))))
(T (W xbb xa7 xa1 x5a xaa x2e xd7 x83)
(T (W xbd xbf x4c xc8 x17 x30 xef x62)
(T (W x40 x00 x00 x00 x28 x00 x00 x00)
(L (W x00 x00 x00 x00 x01 x00 x00 x00)) E)
(L (W xd3 x00 x00 x00 x01 x00 x00 x00)))
(T (W x9a x99 x19 x40 x01 x00 x00 x00)
(T (W xbd xbf x4c xc8 x17 x30 xef x62)
(L (W x00 x00 x00 x00 x0c x00 x10 x00)) E)
(L (W x52 xff xec x78 x0b xcd xee x0f)))))
(T (W x34 x32 x5f x31 x32 x5f x30 x30)
(T (W xbb xa7 xa1 x5a xaa x2e xd7 x83)
(T (W x70 x6d x30 x34 x38 x33 x5f x31)
(T (W x0c x00 x00 x00 x70 x6d x30 x30)
(L (W x6f x00 x00 x00 x00 x00 x80 x3f)) E)
(L (W x66 xcb xff xff x00 x00 x00 x01)))
(T (W x04 x00 x00 x00 x0a x00 x00 x00)
(T (W x02 x00 x00 x00 x03 x00 x00 x00)
(L (W x20 xf5 xec x78 x0b xc7 xee x0f)) E)
(L (W xbb xa7 xa1 x5a xaa x2e xd7 x83))))
(T (W x30 x00 x07 x00 x00 x00 x34 x00)
(T (W x30 x30 x5f x30 x30 x5f x30 x30)
(T (W x30 x5f x30 x30 x00 x00 x00 x00)
(L (W x00 x00 x00 x00 x04 x00 x00 x00)) E)
(L (W x9a x99 xd9 x3f x02 x00 x00 x00)))
(T (W x30 x5f x30 x30 x00 x00 x00 x00)
(L (W xbd xbf x4c xc8 x17 x30 xef x62))
(L (W x30 x5f x30 x30 x00 x00 x00 x00)))))))))))
(T (W xb8 x99 x00 x00 x40 x99 x00 x00)
(T (W x34 x95 x00 x00 xb8 x94 x00 x00)
(T (W xb0 x8c x00 x00 x0c x8c x00 x00)
(T (W x7c x7c x00 x00 x10 x7c x00 x00)
(T (W x00 x5e x00 x00 x8c x5d x00 x00)
(T (W x8c x20 x00 x00 x10 x20 x00 x00)
(T (W x02 x00 x00 x00 x03 x00 x00 x00)
(T (W x04 x00 x00 x00 x0a x00 x00 x00)
(T (W x02 x00 x00 x00 x05 x00 x00 x00)
(T (W x04 x00 x00 x00 x0a x00 x00 x00)
(L (W x0a x00 x00 x00 x0a xd7 xa3 x3c)) E)
(L (W x96 xc3 xff xff x00 x00 x00 x01)))
(T (W x04 x00 x00 x00 x0a x00 x00 x00)
(T (W x02 x00 x00 x00 x9a x99 x19 x3f)
(L (W x00 x00 x00 x01 x49 x00 x00 x00)) E)
(L (W x04 x00 x00 x00 x00 x00 x00 x00))))
(T (W x00 x00 x00 x00 x02 xf9 xff xff)
(T (W x00 x00 x30 x00 x34 x00 x00 x00)
(T (W x30 x00 x00 x00 x00 x00 x34 x00)
(L (W x05 x68 x45 x71 x09 xce x24 x44)) E)
(L (W x00 x00 x80 x3f x00 x00 x20 x40)))
(T (W x01 x00 x00 x00 x02 x00 x00 x00)
(T (W x40 x00 x00 x00 x28 x00 x00 x00)
(L (W x30 x30 x5f x30 x30 x5f x30 x30)) E)
(L (W x30 x31 x5f x30 x30 x5f x31 x34)))))
(T (W x01 x00 x00 x00 x02 x00 x00 x00)
(T (W x00 x00 x00 x01 x25 x02 x00 x00)
(T (W x0c x00 x00 x00 x70 x6d x30 x34)
(T (W x01 x00 x00 x00 x03 x00 x00 x00)
(L (W x04 x00 x00 x00 x00 x00 x00 x00)) E)
(L (W x30 x5f x30 x30 x00 x00 x2e x00)))
(T (W x86 x5f x45 x71 x09 xc9 x24 x44)
(T (W xa4 xba x4c xc8 x17 x2d xef x62)
(L (W x00 x00 x00 x00 x04 x00 x00 x00)) E)
(L (W x03 x00 x00 x00 x0c x00 x00 x00))))
(T (W x00 x00 x00 x00 x02 xfd xff xff)
(T (W x4c x00 x08 x00 x0c x00 x10 x00)
(T (W x00 x00 x00 x00 x01 x00 x00 x00)
(L (W x00 x00 x80 x3f xcd xcc xcc x3f)) E)
(L (W x1e x06 xed x78 x0b xd1 xee x0f)))
(T (W xa4 xba x4c xc8 x17 x2d xef x62)
(T (W xf6 xc3 xff xff x6b x01 x00 x00)
(L (W x23 x00 x00 x00 x00 x00 x80 x3f)) E)
(L (W x30 x30 x5f x30 x30 x5f x30 x30))))))
(T (W x04 x00 x00 x00 x0a x00 x00 x00)
(T (W x70 x6d x30 x38 x34 x33 x5f x30)
(T (W x9f xfd xec x78 x0b xcc xee x0f)
(T (W x03 x00 x00 x00 x0c x00 x00 x00)
(T (W x04 x00 x00 x00 x00 x00 x00 x00)
(L (W x30 x5f x30 x30 x00 x00 x00 x00)) E)
(L (W x3c x00 x00 x00 x24 x00 x00 x00)))
(T (W x00 x00 x00 x01 xd3 x01 x00 x00)
(T (W x36 xb6 xff xff x00 x00 x00 x01)
(L (W x03 x00 x00 x00 x0c x00 x00 x00)) E)
(L (W x9a x99 xd9 x3f x02 x00 x00 x00))))
(T (W x00 x00 x00 x00 x02 xfb xff xff)
(T (W x00 x00 x00 x01 xdf x01 x00 x00)
(T (W x00 x00 x00 x00 x1e xcd xff xff)
(L (W x0c x00 x10 x00 x14 x00 x18 x00)) E)
(L (W xa4 xba x4c xc8 x17 x2d xef x62)))
(T (W x70 x6d x30 x30 x30 x30 x5f x30)
(T (W x28 x00 x00 x00 x04 x00 x00 x00)
(L (W x0a x00 x00 x00 x8f xc2 xf5 x3c)) E)
(L (W x40 x00 x00 x00 x28 x00 x00 x00)))))
(T (W x03 x00 x00 x00 x0c x00 x00 x00)
(T (W x0a xbe x4c xc8 x17 x2f xef x62)
(T (W x02 x00 x00 x00 x03 x00 x00 x00)
(T (W x02 x00 x00 x00 x03 x00 x00 x00)
(L (W x1c x00 x20 x00 x00 x00 x24 x00)) E)
(L (W xe9 x00 x00 x00 x02 x00 x00 x00)))
(T (W x5e x9d xff xff xca x01 x00 x00)
(T (W x04 x00 x00 x00 x0a x00 x00 x00)
(L (W x00 x00 x20 x00 x24 x00 x00 x00)) E)
(L (W x04 x00 x00 x00 x0a x00 x00 x00))))
(T (W x00 x00 x00 x00 x02 xff xff xff)
(T (W x03 x00 x00 x00 x0c x00 x00 x00)
(T (W xa9 x0e xf0 x78 x0b x4d xf2 x0f)
(L (W x70 x6d x30 x30 x30 x30 x5f x30)) E)
(L (W xc9 x00 x00 x00 x19 x00 x00 x00)))
(T (W x01 x00 x00 x00 x01 x00 x00 x00)
(L (W x2c x00 x00 x00 x04 x00 x00 x00))
(L (W x02 x00 x00 x00 x40 x00 x00 x00)))))))
(T (W x0c x40 x00 x00 x98 x3f x00 x00)
(T (W xd6 xf3 xff xff x00 x00 x00 x01)
(T (W x36 x6d xff xff x00 x00 x00 x01)
(T (W x00 x00 x00 x00 x04 x00 x00 x00)
(T (W x39 x33 x5f x31 x31 x5f x30 x30)
(T (W x04 x00 x00 x00 x00 x00 x00 x00)
(L (W x04 x00 x00 x00 x00 x00 x00 x00)) E)
(L (W x00 x00 x28 x00 x2c x00 x07 x00)))
(T (W x04 x00 x00 x00 x00 x00 x00 x00)
(T (W x01 x00 x00 x00 x02 x00 x00 x00)
(L (W x00 x00 x00 x00 x8e xff xff xff)) E)
(L (W x30 x5f x33 x30 x00 x00 x00 x00))))
(T (W x00 x00 x00 x00 x02 xfa xff xff)
(T (W x02 x00 x00 x00 x00 x00 x80 x3f)
(T (W x00 x00 x00 x00 x04 x00 x00 x00)
(L (W x2c x00 x00 x00 x04 x00 x00 x00)) E)
(L (W x00 x00 x00 x00 x01 x00 x00 x00)))
(T (W xbd xbf x4c xc8 x17 x30 xef x62)
(T (W x9a x99 x19 x3e xcd xcc x8c x3f)
(L (W x91 x0e xea x78 x0b x5f xeb x0f)) E)
(L (W x04 x00 x00 x00 x0a x00 x00 x00)))))
(T (W x0a xbe x4c xc8 x17 x2f xef x62)
(T (W x00 x00 x00 x00 x01 x00 x00 x00)
(T (W x00 x00 x2e x00 x50 x00 x08 x00)
(T (W x39 x61 x45 x71 x09 xca x24 x44)
(L (W x30 x5f x30 x30 x00 x00 x00 x00)) E)
(L (W x03 x00 x00 x00 x0c x00 x00 x00)))
(T (W x01 x00 x00 x00 x02 x00 x00 x00)
(T (W x70 x6d x30 x30 x30 x30 x5f x30)
(L (W x00 x00 x01 x01 x3b x00 x00 x00)) E)
(L (W xc9 x00 x00 x00 x09 x00 x00 x00))))
(T (W x00 x00 x00 x00 x02 xfe xff xff)
(T (W x52 x66 x45 x71 x09 xcd x24 x44)
(T (W x08 x00 x0c x00 x10 x00 x14 x00)
(L (W x00 x00 x2e x00 x48 x00 x08 x00)) E)
(L (W x03 x00 x00 x00 x0c x00 x00 x00)))
(T (W x70 x6d x30 x34 x34 x34 x5f x30)
(T (W x0a x00 x00 x00 x0a xd7 xa3 x3c)
(L (W x30 x5f x30 x30 x00 x00 x2e x00)) E)
(L (W x00 x00 x1c x00 x20 x00 x00 x00))))))
(T (W x1e x06 xed x78 x0b xd1 xee x0f)
(T (W x00 x00 x28 x00 x2c x00 x00 x00)
(T (W x01 x00 x00 x00 x44 x00 x00 x00)
(T (W x4c x00 x08 x00 x00 x00 x0c x00)
(T (W x33 x31 x5f x30 x30 x5f x30 x30)
(L (W x02 x00 x00 x00 x40 x00 x00 x00)) E)
(L (W x04 x00 x00 x00 x00 x00 x00 x00)))
(T (W x03 x00 x00 x00 x40 x00 x00 x00)
(T (W x28 x00 x00 x00 x04 x00 x00 x00)
(L (W x04 x00 x00 x00 x00 x00 x00 x00)) E)
(L (W xbb xa7 xa1 x5a xaa x2e xd7 x83))))
(T (W x00 x00 x00 x00 x02 xfc xff xff)
(T (W x00 x00 x2c x00 x30 x00 x07 x00)
(T (W x04 x00 x00 x00 x0a x00 x00 x00)
(L (W x0c x00 x00 x00 x70 x6d x30 x30)) E)
(L (W xd3 xf6 xec x78 x0b xc8 xee x0f)))
(T (W x00 x00 x00 x00 x01 x00 x00 x00)
(T (W xa4 xba x4c xc8 x17 x2d xef x62)
(L (W x01 x00 x00 x00 x40 x00 x00 x00)) E)
(L (W xbd xbf x4c xc8 x17 x30 xef x62)))))
(T (W x00 x00 x00 x01 x85 x02 x00 x00)
(T (W x00 x00 x00 x00 x02 xf8 xff xff)
(T (W xbb xa7 xa1 x5a xaa x2e xd7 x83)
(T (W xb6 xac xff xff x00 x00 x00 x01)
(L (W x04 x00 x00 x00 x00 x00 x00 x00)) E)
(L (W xe0 x00 x00 x00 x00 x00 x80 x3f)))
(T (W x39 x61 x45 x71 x09 xca x24 x44)
(T (W x03 x00 x00 x00 x0c x00 x00 x00)
(L (W x04 x00 x00 x00 x00 x00 x00 x00)) E)
(L (W x04 x00 x00 x00 x00 x00 x00 x00))))
(T (W x00 x00 x32 x00 x58 x00 x08 x00)
(T (W xda x01 x00 x00 x02 x00 x00 x00)
(T (W x9c x01 x00 x00 x02 x00 x00 x00)
(L (W x00 x00 x00 x40 x02 x00 x00 x00)) E)
(L (W x04 x00 x00 x00 x0a x00 x00 x00)))
(T (W xb7 x01 x00 x00 x00 x00 x80 x3f)
(L (W x04 x00 x00 x00 x00 x00 x00 x00))
(L (W x00 x00 x80 x3f x33 x33 xb3 x3f))))))))
(T (W x58 x6d x00 x00 xe4 x6c x00 x00)
(T (W x80 x4f x00 x00 x0c x4f x00 x00)
(T (W x7c x0f x00 x00 xd8 x0e x00 x00)
(T (W x70 x6d x30 x30 x30 x30 x5f x30)
(T (W xbb xa7 xa1 x5a xaa x2e xd7 x83)
(T (W x00 x00 x30 x00 x34 x00 x00 x00)
(T (W xd1 x07 xed x78 x0b xd2 xee x0f)
(L (W x5d x15 xea x78 x0b x63 xeb x0f)) E)
(L (W xcd xcc xcc x3f x01 x00 x00 x00)))
(T (W xc5 x07 xea x78 x0b x5b xeb x0f)
(T (W x0a xbe x4c xc8 x17 x2f xef x62)
(L (W x00 x00 x24 x00 x28 x00 x07 x00)) E)
(L (W x03 x00 x00 x00 x0c x00 x00 x00))))
(T (W x00 x00 x00 x00 x82 xf9 xff xff)
(T (W x00 x00 x00 x00 x3e xaf xff xff)
(T (W x30 x5f x30 x30 x00 x00 x2e x00)
(L (W x04 x00 x00 x00 x00 x00 x00 x00)) E)
(L (W xa4 xba x4c xc8 x17 x2d xef x62)))
(T (W x9a x99 x19 x3e x00 x00 x80 x3f)
(T (W x8f xc2 xf5 x3c x00 x00 x80 x3f)
(L (W x00 x00 x00 x00 x01 x00 x00 x00)) E)
(L (W x00 x00 x00 x00 x04 x00 x00 x00)))))
(T (W x70 x6d x30 x37 x34 x39 x5f x30)
(T (W x0c x00 x10 x00 x14 x00 x18 x00)
(T (W x38 x37 x5f x31 x32 x5f x30 x30)
(T (W x28 x00 x00 x00 x04 x00 x00 x00)
(L (W x03 x00 x00 x00 x0c x00 x00 x00)) E)
(L (W x00 x00 x00 x00 x04 x00 x00 x00)))
(T (W x00 x00 x00 x00 x04 x00 x00 x00)
(T (W x00 x00 x00 x00 x01 x00 x00 x00)
(L (W x28 x00 x00 x00 x04 x00 x00 x00)) E)
(L (W x30 x5f x32 x32 x00 x00 x00 x00))))
(T (W x00 x00 x00 x00 x82 xfd xff xff)
(T (W x01 x00 x00 x00 x02 x00 x00 x00)
(T (W x70 x6d x30 x30 x30 x30 x5f x30)
(L (W x2c x00 x07 x00 x30 x00 x00 x00)) E)
(L (W x00 x00 x00 x00 x04 x00 x00 x00)))
(T (W x01 x00 x00 x00 x02 x00 x00 x00)
(T (W x03 x00 x00 x00 x02 x00 x00 x00)
(L (W x1c x00 x20 x00 x00 x00 x24 x00)) E)
(L (W xb9 x00 x00 x00 x00 x00 x80 x3f))))))
(T (W x9a x99 x19 x3e x33 x33 xf3 x3f)
(T (W x00 x00 x00 x01 xd2 x02 x00 x00)
(T (W x02 x00 x00 x00 x03 x00 x00 x00)
(T (W x39 x31 x5f x30 x30 x5f x30 x30)
(T (W x02 x00 x00 x00 x03 x00 x00 x00)
(L (W x86 x00 x00 x00 x00 x00 x80 x3f)) E)
(L (W x9a x99 x99 x3f x33 x33 xb3 x3f)))
(T (W x00 x00 x80 x3f x66 x66 xe6 x3f)
(T (W x00 x00 x80 x3f x9a x99 x99 x40)
(L (W x52 x66 x45 x71 x09 xcd x24 x44)) E)
(L (W x04 x00 x00 x00 x0a x00 x00 x00))))
(T (W x00 x00 x00 x00 x82 xfb xff xff)
(T (W x04 x00 x00 x00 x02 x00 x00 x00)
(T (W x02 x00 x00 x00 x40 x00 x00 x00)
(L (W x01 x00 x00 x00 x02 x00 x00 x00)) E)
(L (W x0a x00 x00 x00 x0a xd7 xa3 x3c)))
(T (W x50 x00 x08 x00 x00 x00 x00 x00)
(T (W x9a x99 x99 x3f x33 x33 x53 x40)
(L (W x25 x00 x00 x00 x01 x00 x00 x00)) E)
(L (W x02 x00 x00 x00 x00 x00 x00 x40)))))
(T (W x30 x5f x30 x30 x00 x00 x00 x00)
(T (W x02 x00 x00 x00 x03 x00 x00 x00)
(T (W x00 x00 x10 x41 x00 x00 xe0 x40)
(T (W x70 x6d x30 x30 x30 x30 x5f x30)
(L (W x30 x5f x30 x30 x00 x00 x2e x00)) E)
(L (W x3c x00 x00 x00 x24 x00 x00 x00)))
(T (W x3c x00 x00 x00 x24 x00 x00 x00)
(T (W xa4 xba x4c xc8 x17 x2d xef x62)
(L (W x30 x30 x5f x30 x30 x5f x30 x30)) E)
(L (W xbb xa7 xa1 x5a xaa x2e xd7 x83))))
(T (W x00 x00 x00 x00 x82 xff xff xff)
(T (W x00 x00 x00 x00 x66 xf6 xff xff)
(T (W x3c x00 x00 x00 x24 x00 x00 x00)
(L (W x16 xf2 xff xff x00 x00 x00 x01)) E)
(L (W x9a x99 xd9 x3f x02 x00 x00 x00)))
(T (W x30 x00 x07 x00 x00 x00 x34 x00)
(L (W x02 x00 x00 x00 x00 x00 xc0 x3f))
(L (W x00 x00 x30 x00 x2e x00 x00 x00)))))))
(T (W xb8 x30 x00 x00 x44 x30 x00 x00)
(T (W x00 x00 x80 x3f x9a x99 x99 x3f)
(T (W x18 x00 x1c x00 x38 x00 x40 x00)
(T (W x04 x00 x00 x00 x0a x00 x00 x00)
(T (W x04 x00 x00 x00 x00 x00 x00 x00)
(T (W x03 x00 x00 x00 x0c x00 x00 x00)
(L (W x03 x00 x00 x00 x0c x00 x00 x00)) E)
(L (W x00 x00 x01 x01 x18 x01 x00 x00)))
(T (W x70 x6d x30 x30 x30 x30 x5f x30)
(T (W x70 x6d x30 x30 x30 x30 x5f x30)
(L (W x0c x00 x10 x00 x14 x00 x18 x00)) E)
(L (W xc9 x00 x00 x00 x11 x00 x00 x00))))
(T (W x00 x00 x00 x00 x82 xfa xff xff)
(T (W x24 x00 x00 x00 x28 x00 x00 x00)
(T (W x03 x00 x00 x00 x0c x00 x00 x00)
(L (W x2e x00 x00 x00 x00 x00 x00 x01)) E)
(L (W x0c x00 x00 x00 x70 x6d x30 x30)))
(T (W x01 x00 x00 x00 x02 x00 x00 x00)
(T (W x00 x00 x20 x40 x02 x00 x00 x00)
(L (W x03 x00 x00 x00 x40 x00 x00 x00)) E)
(L (W x02 x00 x00 x00 x00 x00 x80 x3f)))))
(T (W x04 x00 x00 x00 x00 x00 x00 x00)
(T (W x9a x99 x99 x3f x00 x00 x80 x3f)
(T (W x04 x00 x00 x00 x00 x00 x00 x00)
(T (W x00 x00 x00 x00 x01 x00 x00 x00)
(L (W x00 x00 x80 x3f x9a x99 xd9 x3f)) E)
(L (W x30 x5f x30 x30 x00 x00 x00 x00)))
(T (W x70 x6d x30 x30 x30 x30 x5f x30)
(T (W x00 x00 x80 x3f x00 x00 x40 x40)
(L (W x01 x00 x00 x00 x00 x00 x80 x3f)) E)
(L (W x9a x99 xd9 x3f x02 x00 x00 x00))))
(T (W x00 x00 x00 x00 x82 xfe xff xff)
(T (W x00 x00 x00 x00 x04 x00 x00 x00)
(T (W x02 x00 x00 x00 x03 x00 x00 x00)
(L (W x01 x00 x00 x00 x02 x00 x00 x00)) E)
(L (W x30 x5f x33 x38 x00 x00 x00 x00)))
(T (W x96 xb7 xff xff x00 x00 x01 x01)
(T (W x0a xbe x4c xc8 x17 x2f xef x62)
(L (W x01 x00 x00 x00 x02 x00 x00 x00)) E)
(L (W x00 x00 x00 x01 xaf x00 x00 x00))))))
(T (W x04 x00 x00 x00 x00 x00 x00 x00)
(T (W x4c x00 x08 x00 x0c x00 x00 x00)
(T (W x04 x00 x00 x00 x0a x00 x00 x00)
(T (W x01 x00 x00 x00 x02 x00 x00 x00)
(T (W x00 x00 x00 x01 xad x01 x00 x00)
(L (W x01 x00 x00 x00 x00 x00 x00 x41)) E)
(L (W x02 x00 x00 x00 x03 x00 x00 x00)))
(T (W x0a x00 x00 x00 x0a xd7 x23 x3d)
(T (W x9a x99 x99 x3f x9a x99 x19 x40)
(L (W x02 x00 x00 x00 x33 x33 x13 x40)) E)
(L (W x04 x00 x00 x00 x00 x00 x00 x00))))
(T (W x00 x00 x00 x00 x82 xfc xff xff)
(T (W x37 x39 x5f x31 x34 x5f x30 x30)
(T (W xa4 xba x4c xc8 x17 x2d xef x62)
(L (W x00 x00 x00 x00 x1e xfb xff xff)) E)
(L (W x01 x00 x00 x00 x02 x00 x00 x00)))
(T (W x0a xd7 x23 x3d xcd xcc x4c x3f)
(T (W x03 x00 x00 x00 x0c x00 x00 x00)
(L (W x0a x00 x00 x00 x8f xc2 xf5 x3c)) E)
(L (W x01 x00 x00 x00 x02 x00 x00 x00)))))
(T (W x01 x00 x00 x00 x04 x00 x00 x00)
(T (W x00 x00 x00 x00 x82 xf8 xff xff)
(T (W x33 x33 x33 x3f x33 x33 x33 x3f)
(T (W x00 x00 x80 x3f x00 x00 x40 x40)
(L (W x0a x00 x00 x00 x0a xd7 x23 x3d)) E)
(L (W x3c x00 x00 x00 x24 x00 x00 x00)))
(T (W x00 x00 x00 x00 x04 x00 x00 x00)
(T (W x76 xbf xff xff x8a x01 x00 x00)
(L (W x03 x00 x00 x00 x0c x00 x00 x00)) E)
(L (W x03 x00 x00 x00 x0c x00 x00 x00))))
(T (W xbb xa7 xa1 x5a xaa x2e xd7 x83)
(T (W x03 x00 x00 x00 x44 x00 x00 x00)
(T (W x01 x00 x00 x00 x01 x00 x00 x00)
(L (W x2c x00 x00 x00 x00 x00 x07 x00)) E)
(L (W xbb xa7 xa1 x5a xaa x2e xd7 x83)))
(T (W x02 x00 x00 x00 x40 x00 x00 x00)
(L (W x70 x6d x30 x30 x30 x30 x5f x30))
(L (W x04 x00 x00 x00 x40 x00 x00 x00)))))))))
(T (W xd8 x83 x00 x00 x64 x83 x00 x00)
(T (W x98 x74 x00 x00 x24 x74 x00 x00)
(T (W x8c x56 x00 x00 x10 x56 x00 x00)
(T (W xc4 x17 x00 x00 x40 x17 x00 x00)
(T (W x28 x00 x00 x00 x04 x00 x00 x00)
(T (W x31 x5f x30 x30 x00 x00 x00 x00)
(T (W x01 x00 x00 x00 x02 x00 x00 x00)
(T (W x30 x5f x30 x30 x00 x00 x00 x00)
(L (W x30 x5f x30 x30 x00 x00 x00 x00)) E)
(L (W xa4 xba x4c xc8 x17 x2d xef x62)))
(T (W x30 x5f x30 x30 x00 x00 x00 x00)
(T (W xd6 xb3 xff xff x00 x00 x00 x01)
(L (W x04 x00 x00 x00 x00 x00 x00 x00)) E)
(L (W x9a x99 xd9 x3f x02 x00 x00 x00))))
(T (W x00 x00 x80 x40 x00 x00 x40 x40)
(T (W x9a x99 x19 x3f x00 x00 x00 x41)
(T (W x0a x00 x00 x00 x0a xd7 x23 x3c)
(L (W x6c x00 x00 x00 x00 x00 x80 x3f)) E)
(L (W xd6 xcb xff xff x00 x00 x00 x01)))
(T (W x00 x00 x2c x00 x30 x00 x07 x00)
(T (W x0c x00 x00 x00 x70 x6d x30 x30)
(L (W x00 x00 x80 x3f x00 x00 xc0 x3f)) E)
(L (W xc9 x00 x00 x00 x02 x00 x00 x00)))))
(T (W x28 x00 x00 x00 x04 x00 x00 x00)
(T (W xbb xa7 xa1 x5a xaa x2e xd7 x83)
(T (W x04 x00 x00 x00 x0a x00 x00 x00)
(T (W x00 x00 x00 x00 x01 x00 x00 x00)
(L (W x02 x00 x00 x00 x40 x00 x00 x00)) E)
(L (W x01 x00 x00 x00 x00 x00 x80 x3f)))
(T (W xce x01 x00 x00 x02 x00 x00 x00)
(T (W x00 x00 x20 x40 x01 x00 x00 x00)
(L (W x20 x00 x24 x00 x00 x00 x28 x00)) E)
(L (W x04 x00 x00 x00 x0a x00 x00 x00))))
(T (W x00 x00 x80 x40 x00 x00 x40 x40)
(T (W x00 x00 x80 x3f xcd xcc x6c x40)
(T (W x3c x00 x00 x00 x24 x00 x00 x00)
(L (W x00 x00 x00 x00 x01 x00 x00 x00)) E)
(L (W xd0 x00 x00 x00 x00 x00 x80 x3f)))
(T (W x66 x66 xc6 x3f x02 x00 x00 x00)
(T (W x00 x00 x00 x00 x04 x00 x00 x00)
(L (W x00 x00 x00 x00 x04 x00 x00 x00)) E)
(L (W x12 x06 xea x78 x0b x5a xeb x0f))))))
(T (W x30 x30 x5f x30 x30 x5f x30 x30)
(T (W xaa x13 xea x78 x0b x62 xeb x0f)
(T (W x0c x00 x00 x00 x10 x00 x14 x00)
(T (W x04 x00 x00 x00 x0a x00 x00 x00)
(T (W x02 x00 x00 x00 x44 x00 x00 x00)
(L (W xc5 x07 xea x78 x0b x5b xeb x0f)) E)
(L (W x70 x6d x30 x30 x30 x30 x5f x30)))
(T (W x0a xbe x4c xc8 x17 x2f xef x62)
(T (W x0a xbe x4c xc8 x17 x2f xef x62)
(L (W x34 x00 x38 x00 x2e x00 x00 x00)) E)
(L (W x03 x00 x00 x00 x0c x00 x00 x00))))
(T (W x00 x00 x80 x40 x00 x00 x40 x40)
(T (W xbd xbf x4c xc8 x17 x30 xef x62)
(T (W x00 x00 x00 x00 x04 x00 x00 x00)
(L (W x00 x00 x20 x40 x01 x00 x00 x00)) E)
(L (W x34 x00 x3c x00 x18 x00 x1c x00)))
(T (W x9a x99 x99 x3f x00 x00 x40 x40)
(T (W x70 x6d x30 x30 x30 x30 x5f x30)
(L (W x30 x30 x5f x30 x30 x5f x30 x30)) E)
(L (W x0c x00 x00 x00 x70 x6d x30 x32)))))
(T (W x0a x00 x00 x00 x0a xd7 xa3 x3c)
(T (W x01 x00 x00 x00 x03 x00 x00 x00)
(T (W x00 x00 x00 x00 x00 x00 x34 x00)
(T (W x28 x00 x00 x00 x04 x00 x00 x00)
(L (W x0a x00 x00 x00 x0a xd7 xa3 x3c)) E)
(L (W x04 x00 x00 x00 x00 x00 x00 x00)))
(T (W x04 x00 x00 x00 x00 x00 x00 x00)
(T (W x30 x5f x30 x30 x00 x00 x00 x00)
(L (W x8f xc2 xf5 x3c x00 x00 x80 x3f)) E)
(L (W x30 x5f x31 x38 x00 x00 x00 x00))))
(T (W x00 x00 x80 x40 x00 x00 x40 x40)
(T (W x02 x00 x00 x00 x00 x00 xa0 x40)
(T (W x0c x00 x10 x00 x14 x00 x18 x00)
(L (W x00 x00 x80 x3f x66 x66 xa6 x3f)) E)
(L (W x04 x00 x00 x00 x00 x00 x00 x00)))
(T (W x02 x00 x00 x00 x03 x00 x00 x00)
(L (W x0c x00 x00 x00 x70 x6d x30 x33))
(L (W x03 x00 x00 x00 x0c x00 x00 x00)))))))
(T (W x80 x38 x00 x00 x0c x38 x00 x00)
(T (W xbb xa7 xa1 x5a xaa x2e xd7 x83)
(T (W xbd xbf x4c xc8 x17 x30 xef x62)
(T (W x20 x00 x24 x00 x00 x00 x28 x00)
(T (W x01 x00 x00 x00 x02 x00 x00 x00)
(T (W x01 x00 x00 x00 x40 x00 x00 x00)
(L (W x01 x00 x00 x00 x03 x00 x00 x00)) E)
(L (W xd3 x5d x45 x71 x09 xc8 x24 x44)))
(T (W x3c x00 x00 x00 x24 x00 x00 x00)
(T (W x28 x00 x00 x00 x04 x00 x00 x00)
(L (W x52 x66 x45 x71 x09 xcd x24 x44)) E)
(L (W xbb xa7 xa1 x5a xaa x2e xd7 x83))))
(T (W x00 x00 x80 x40 x00 x00 x40 x40)
(T (W x00 x00 x00 x00 x01 x00 x00 x00)
(T (W x01 x00 x00 x00 x40 x00 x00 x00)
(L (W x0c x00 x00 x00 x70 x6d x30 x30)) E)
(L (W x2c x00 x00 x00 x04 x00 x00 x00)))
(T (W x9a x99 xd9 x3f x01 x00 x00 x00)
(T (W x00 x00 x2e x00 x48 x00 x08 x00)
(L (W x10 x00 x14 x00 x18 x00 x1c x00)) E)
(L (W x30 x5f x31 x32 x00 x00 x2e x00)))))
(T (W x01 x00 x00 x00 x00 x00 x80 x3f)
(T (W x28 x00 x00 x00 x00 x00 x2c x00)
(T (W x00 x00 x80 x3f x66 x66 x66 x3f)
(T (W x00 x00 x80 x3f x33 x33 x33 x40)
(L (W xbd xbf x4c xc8 x17 x30 xef x62)) E)
(L (W x0a x00 x00 x00 x0a xd7 xa3 x3c)))
(T (W x28 x00 x00 x00 x04 x00 x00 x00)
(T (W x5d x15 xea x78 x0b x63 xeb x0f)
(L (W xbd xbf x4c xc8 x17 x30 xef x62)) E)
(L (W x04 x00 x00 x00 x00 x00 x00 x00))))
(T (W x00 x00 x80 x40 x00 x00 x40 x40)
(T (W xde x01 x00 x00 x01 x00 x00 x00)
(T (W x01 x00 x00 x00 x03 x00 x00 x00)
(L (W x00 x00 x80 x3f xf6 x28 x1c x40)) E)
(L (W x04 x00 x00 x00 x0a x00 x00 x00)))
(T (W x9a x99 x99 x3f x00 x00 x80 x3f)
(T (W x30 x5f x30 x30 x00 x00 x00 x00)
(L (W x00 x00 x80 x3f x33 x33 x13 x40)) E)
(L (W x78 x09 xea x78 x0b x5c xeb x0f))))))
(T (W x00 x00 x00 x01 x86 x03 x00 x00)
(T (W x0a xd7 x23 x3d x00 x00 x80 x3f)
(T (W x02 x00 x00 x00 x03 x00 x00 x00)
(T (W x71 x3d xca x3f x04 x00 x00 x00)
(T (W x05 x01 xed x78 x0b xce xee x0f)
(L (W x03 x00 x00 x00 x0c x00 x00 x00)) E)
(L (W x01 x00 x00 x00 x44 x00 x00 x00)))
(T (W x03 x00 x00 x00 x0c x00 x00 x00)
(T (W x70 x6d x30 x34 x30 x35 x5f x30)
(L (W x00 x00 x24 x00 x28 x00 x07 x00)) E)
(L (W xc9 x00 x00 x00 x0d x00 x00 x00))))
(T (W x00 x00 x80 x40 x00 x00 x40 x40)
(T (W x04 x00 x00 x00 x0a x00 x00 x00)
(T (W x31 x36 x5f x30 x30 x5f x30 x30)
(L (W x02 x00 x00 x00 xcd xcc x6c x40)) E)
(L (W x00 x00 x80 x3f x66 x66 xe6 x3f)))
(T (W x24 x00 x06 x00 x00 x00 x28 x00)
(T (W x03 x00 x00 x00 x03 x00 x00 x00)
(L (W x03 x00 x00 x00 x0c x00 x00 x00)) E)
(L (W x66 x66 xe6 x3f x01 x00 x00 x00)))))
(T (W x04 x00 x00 x00 x00 x00 x00 x00)
(T (W x00 x00 x80 x40 x00 x00 x40 x40)
(T (W x0c x00 x10 x00 x14 x00 x18 x00)
(T (W xa4 xba x4c xc8 x17 x2d xef x62)
(L (W x24 x00 x28 x00 x2c x00 x00 x00)) E)
(L (W x04 x00 x00 x00 x00 x00 x00 x00)))
(T (W x00 x00 x00 x01 xc7 x01 x00 x00)
(T (W x01 x00 x00 x00 xcd xcc x4c x40)
(L (W x02 x00 x00 x00 x40 x00 x00 x00)) E)
(L (W x9a x99 xd9 x3f x02 x00 x00 x00))))
(T (W x02 x00 x00 x00 x02 x00 x00 x00)
(T (W x04 x00 x00 x00 x00 x00 x00 x00)
(T (W x00 x00 x00 x00 x04 x00 x00 x00)
(L (W x01 x00 x00 x00 x02 x00 x00 x00)) E)
(L (W x30 x5f x33 x34 x00 x00 x00 x00)))
(T (W x00 x00 x00 x00 x04 x00 x00 x00)
(L (W x3c x00 x00 x00 x24 x00 x00 x00))
(L (W x00 x00 x00 x00 x01 x00 x00 x00))))))))
(T (W xa8 x65 x00 x00 x38 x65 x00 x00)
(T (W xac x47 x00 x00 x40 x47 x00 x00)
(T (W x60 x07 x00 x00 xe8 x06 x00 x00)
(T (W x00 x00 x80 x3f xcd xcc x2c x40)
(T (W x00 x00 x00 x01 x81 x02 x00 x00)
(T (W x0a xd7 xa3 x3d x9a x99 x19 x3f)
(T (W xb3 x01 x00 x00 x00 x00 x80 x3f)
(L (W x8f x00 x00 x00 x00 x00 x80 x3f)) E)
(L (W x01 x00 x00 x00 x02 x00 x00 x00)))
(T (W xd6 x01 x00 x00 x00 x00 x80 x3f)
(T (W x00 x00 x20 x40 x01 x00 x00 x00)
(L (W x02 x00 x00 x00 x33 x33 xb3 x3f)) E)
(L (W x04 x00 x00 x00 x0a x00 x00 x00))))
(T (W x00 x00 x80 x40 x00 x00 x40 x40)
(T (W xbb xa7 xa1 x5a xaa x2e xd7 x83)
(T (W x00 x00 x80 x3f x00 x00 x20 x40)
(L (W x00 x00 x2c x00 x30 x00 x00 x00)) E)
(L (W x9a x99 xd9 x3f x02 x00 x00 x00)))
(T (W xd6 xb2 xff xff x00 x00 x01 x01)
(T (W x30 x30 x5f x30 x30 x5f x30 x30)
(L (W x24 x00 x00 x00 x28 x00 x00 x00)) E)
(L (W x20 x00 x24 x00 x00 x00 x28 x00)))))
(T (W x00 x00 x00 x01 xc2 x02 x00 x00)
(T (W x9a x99 xd9 x3f x03 x00 x00 x00)
(T (W x9a x99 x19 x3f x00 x00 x00 x41)
(T (W x70 x6d x30 x30 x30 x30 x5f x30)
(L (W x0a x00 x00 x00 x0a xd7 x23 x3d)) E)
(L (W x02 x00 x00 x00 x40 x00 x00 x00)))
(T (W x01 x00 x00 x00 x03 x00 x00 x00)
(T (W x28 x00 x00 x00 x04 x00 x00 x00)
(L (W x70 x6d x30 x30 x30 x30 x5f x30)) E)
(L (W xbb xa7 xa1 x5a xaa x2e xd7 x83))))
(T (W x00 x00 x80 x40 x00 x00 x40 x40)
(T (W x2c x00 x00 x00 x00 x00 x00 x00)
(T (W xd3 xf6 xec x78 x0b xc8 xee x0f)
(L (W x02 x00 x00 x00 x00 x00 x00 x40)) E)
(L (W x01 x00 x00 x00 x02 x00 x00 x00)))
(T (W x28 x00 x00 x00 x04 x00 x00 x00)
(T (W x03 x00 x00 x00 x0c x00 x00 x00)
(L (W x0a x00 x00 x00 x8f xc2 xf5 x3c)) E)
(L (W x04 x00 x00 x00 x00 x00 x00 x00))))))
(T (W x00 x00 x00 x00 xde xdb xff xff)
(T (W x04 x00 x00 x00 x00 x00 x00 x00)
(T (W x00 x00 x00 x00 x01 x00 x00 x00)
(T (W x9a x99 x99 x3f x9a x99 x19 x3f)
(T (W x0a x00 x00 x00 x0a xd7 x23 x3c)
(L (W x00 x00 x00 x00 x04 x00 x00 x00)) E)
(L (W x1e xca xff xff x0b x01 x00 x00)))
(T (W x04 x00 x00 x00 x00 x00 x00 x00)
(T (W x01 x00 x00 x00 x02 x00 x00 x00)
(L (W x00 x00 x00 x01 x41 x00 x00 x00)) E)
(L (W x30 x5f x32 x36 x00 x00 x00 x00))))
(T (W x00 x00 x80 x40 x00 x00 x40 x40)
(T (W x04 x00 x00 x00 x00 x00 x00 x00)
(T (W x03 x00 x00 x00 x0c x00 x00 x00)
(L (W x2c x00 x00 x00 x04 x00 x00 x00)) E)
(L (W x30 x5f x30 x30 x00 x00 x00 x00)))
(T (W x01 x00 x00 x00 x04 x00 x00 x00)
(T (W x56 xbe xff xff x00 x00 x00 x01)
(L (W x00 x00 x00 x00 x04 x00 x00 x00)) E)
(L (W xd6 xf4 xff xff x00 x00 x01 x01)))))
(T (W xbb xa7 xa1 x5a xaa x2e xd7 x83)
(T (W x01 x00 x00 x00 x9a x99 x99 x3f)
(T (W x00 x00 x00 x00 xe6 xfe xff xff)
(T (W x00 x00 x80 x3f x9a x99 x19 x40)
(L (W x01 x00 x00 x00 x00 x00 x80 x3f)) E)
(L (W x70 x6d x30 x30 x30 x30 x5f x30)))
(T (W x70 x6d x30 x30 x30 x30 x5f x30)
(T (W x01 x00 x00 x00 x01 x00 x00 x00)
(L (W x00 x00 x80 x3f x9a x99 xd9 x3f)) E)
(L (W xc9 x00 x00 x00 x05 x00 x00 x00))))
(T (W x00 x00 x80 x40 x00 x00 x40 x40)
(T (W xd3 x5d x45 x71 x09 xc8 x24 x44)
(T (W x70 x6d x30 x30 x30 x30 x5f x30)
(L (W x0a xbe x4c xc8 x17 x2f xef x62)) E)
(L (W x03 x00 x00 x00 x0c x00 x00 x00)))
(T (W x0f x12 xf0 x78 x0b x4f xf2 x0f)
(L (W x1e xc6 xff xff x54 x01 x00 x00))
(L (W xa4 xba x4c xc8 x17 x2d xef x62)))))))
(T (W x78 x29 x00 x00 x08 x29 x00 x00)
(T (W x01 x00 x00 x00 x02 x00 x00 x00)
(T (W x3c x00 x00 x00 x24 x00 x00 x00)
(T (W x32 x38 x5f x30 x30 x5f x34 x31)
(T (W x05 x00 x00 x00 x40 x00 x00 x00)
(T (W x00 x00 x28 x00 x2e x00 x00 x00)
(L (W x0a x00 x00 x00 x0a xd7 xa3 x3c)) E)
(L (W x04 x00 x00 x00 x00 x00 x00 x00)))
(T (W x78 x09 xea x78 x0b x5c xeb x0f)
(T (W x9a x99 x99 x3f x33 x33 xb3 x3f)
(L (W x44 x00 x00 x00 x2c x00 x00 x00)) E)
(L (W x04 x00 x00 x00 x00 x00 x00 x00))))
(T (W x00 x00 x80 x40 x00 x00 x40 x40)
(T (W xbb xa7 xa1 x5a xaa x2e xd7 x83)
(T (W x01 x00 x00 x00 x9a x99 x59 x40)
(L (W x86 x5f x45 x71 x09 xc9 x24 x44)) E)
(L (W x2e x00 x00 x00 x00 x00 x01 x01)))
(T (W x28 x00 x00 x00 x04 x00 x00 x00)
(T (W x01 x00 x00 x00 x02 x00 x00 x00)
(L (W x03 x00 x00 x00 x0c x00 x00 x00)) E)
(L (W x00 x00 x00 x00 x01 x00 x00 x00)))))
(T (W x02 x00 x00 x00 x40 x00 x00 x00)
(T (W x00 x00 x00 x00 x26 xaa xff xff)
(T (W x04 x00 x00 x00 x44 x00 x00 x00)
(T (W x48 x00 x00 x00 x30 x00 x00 x00)
(L (W x00 x00 x00 x00 x04 x00 x00 x00)) E)
(L (W x84 x70 x45 x71 x09 xd3 x24 x44)))
(T (W x9a x99 x99 x3f x9a x99 x19 x40)
(T (W x01 x00 x00 x00 x02 x00 x00 x00)
(L (W x04 x00 x00 x00 x00 x00 x00 x00)) E)
(L (W x03 x00 x00 x00 x0c x00 x00 x00))))
(T (W x00 x00 x80 x40 x00 x00 x40 x40)
(T (W x03 x00 x00 x00 x04 x00 x00 x00)
(T (W x00 x00 x00 x00 x00 x00 x34 x00)
(L (W x28 x00 x00 x00 x04 x00 x00 x00)) E)
(L (W xbb xa7 xa1 x5a xaa x2e xd7 x83)))
(T (W x0a xbe x4c xc8 x17 x2f xef x62)
(L (W x14 x00 x18 x00 x38 x00 x40 x00))
(L (W x00 x00 x00 x00 x04 x00 x00 x00))))))
(T (W x04 x00 x00 x00 x44 x00 x00 x00)
(T (W x00 x00 x80 x3f x03 x00 x00 x00)
(T (W x30 x30 x5f x30 x30 x5f x30 x30)
(T (W x40 x00 x00 x00 x28 x00 x00 x00)
(T (W x00 x00 x00 x00 x04 x00 x00 x00)
(L (W x1e xeb xff xff x81 x00 x00 x00)) E)
(L (W x0a x00 x00 x00 x0a xd7 x23 x3c)))
(T (W x30 x5f x30 x30 x00 x00 x00 x00)
(T (W xd6 xcd xff xff x00 x00 x01 x01)
(L (W xb6 xfb xff xff x3f x00 x00 x00)) E)
(L (W x9a x99 xd9 x3f x02 x00 x00 x00))))
(T (W x00 x00 x80 x40 x00 x00 x40 x40)
(T (W x02 x00 x00 x00 x00 x00 x00 x40)
(T (W x00 x00 x80 x3f x66 x66 x06 x40)
(L (W xbd xbf x4c xc8 x17 x30 xef x62)) E)
(L (W x2c x00 x00 x00 x00 x00 x00 x00)))
(T (W x56 x9f xff xff x00 x00 x00 x01)
(T (W x01 x00 x00 x00 x00 x00 x20 x40)
(L (W x30 x30 x5f x30 x30 x5f x30 x30)) E)
(L (W x04 x00 x00 x00 x0a x00 x00 x00)))))
(T (W x02 x00 x00 x00 x03 x00 x00 x00)
(T (W x00 x00 x80 x40 x00 x00 x40 x40)
(T (W x01 x00 x00 x00 x02 x00 x00 x00)
(T (W x00 x00 x00 x00 x01 x00 x00 x00)
(L (W x30 x5f x30 x30 x00 x00 x00 x00)) E)
(L (W x70 x6d x30 x30 x30 x30 x5f x30)))
(T (W x02 x00 x00 x00 x02 x00 x00 x00)
(T (W x00 x00 x00 x00 x04 x00 x00 x00)
(L (W x0a x00 x00 x00 x0a xd7 x23 x3c)) E)
(L (W x04 x00 x00 x00 x0a x00 x00 x00))))
(T (W x1c x00 x20 x00 x44 x00 x4c x00)
(T (W x02 x00 x00 x00 x03 x00 x00 x00)
(T (W x03 x00 x00 x00 x0c x00 x00 x00)
(L (W x52 x66 x45 x71 x09 xcd x24 x44)) E)
(L (W xc9 x00 x00 x00 x15 x00 x00 x00)))
(T (W x03 x00 x00 x00 x0c x00 x00 x00)
(L (W x9a x99 x99 x3f x00 x00 x80 x3f))
(L (W x03 x00 x00 x00 x0c x00 x00 x00))))))))))
(T (W xa4 x90 x00 x00 x30 x90 x00 x00)
(T (W x38 x88 x00 x00 x94 x87 x00 x00)
(T (W xc4 x78 x00 x00 x50 x78 x00 x00)
(T (W x4c x5a x00 x00 xdc x59 x00 x00)
(T (W x70 x1c x00 x00 xc0 x1b x00 x00)
(T (W x00 x00 x00 x01 x84 x03 x00 x00)
(T (W x04 x00 x00 x00 x00 x00 x00 x00)
(T (W x00 x00 x80 x40 x00 x00 x40 x40)
(T (W x04 x00 x00 x00 x00 x00 x00 x00)
(L (W x04 x00 x00 x00 x00 x00 x00 x00)) E)
(L (W x28 x00 x00 x00 x04 x00 x00 x00)))
(T (W x04 x00 x00 x00 x00 x00 x00 x00)
(T (W x01 x00 x00 x00 x02 x00 x00 x00)
(L (W x04 x00 x00 x00 x0a x00 x00 x00)) E)
(L (W x30 x5f x33 x32 x00 x00 x00 x00))))
(T (W x02 x00 x00 x00 x05 x00 x00 x00)
(T (W x00 x00 x40 x3f x03 x00 x00 x00)
(T (W x00 x00 x80 x3f x9a x99 x19 x40)
(L (W x03 x00 x00 x00 x0c x00 x00 x00)) E)
(L (W x01 x00 x00 x00 x02 x00 x00 x00)))
(T (W x4c x00 x08 x00 x00 x00 x00 x00)
(T (W xa4 xba x4c xc8 x17 x2d xef x62)
(L (W x18 x00 x1c x00 x00 x00 x20 x00)) E)
(L (W x20 x00 x24 x00 x00 x00 x28 x00)))))
(T (W x36 x86 xff xff x00 x00 x01 x01)
(T (W x48 x00 x00 x00 x30 x00 x00 x00)
(T (W x01 x00 x00 x00 x02 x00 x00 x00)
(T (W x9a x99 x19 x3e x33 x33 xb3 x3f)
(L (W x30 x5f x30 x30 x00 x00 x00 x00)) E)
(L (W x00 x00 x28 x00 x2c x00 x00 x00)))
(T (W x03 x00 x00 x00 x0c x00 x00 x00)
(T (W x70 x6d x30 x34 x30 x33 x5f x30)
(L (W x30 x30 x5f x30 x30 x5f x30 x30)) E)
(L (W xc9 x00 x00 x00 x0b x00 x00 x00))))
(T (W x02 x00 x00 x00 x05 x00 x00 x00)
(T (W x34 x00 x00 x00 x00 x00 x00 x00)
(T (W x00 x00 x00 x00 x86 xe0 xff xff)
(L (W x02 x00 x00 x00 x33 x33 x13 x40)) E)
(L (W x03 x00 x00 x00 x0c x00 x00 x00)))
(T (W x70 x6d x30 x30 x30 x30 x5f x30)
(T (W x04 x00 x00 x00 x0a x00 x00 x00)
(L (W x0a x00 x00 x00 x0a xd7 x23 x3c)) E)
(L (W x01 x00 x00 x00 x40 x00 x00 x00))))))
(T (W x00 x00 x00 x00 x04 x00 x00 x00)
(T (W x02 x00 x00 x00 x03 x00 x00 x00)
(T (W x02 x00 x00 x00 x03 x00 x00 x00)
(T (W xeb x01 x00 x00 x02 x00 x00 x00)
(T (W x30 x5f x30 x30 x00 x00 x00 x00)
(L (W x03 x00 x00 x00 x40 x00 x00 x00)) E)
(L (W xbd xbf x4c xc8 x17 x30 xef x62)))
(T (W x04 x00 x00 x00 x0a x00 x00 x00)
(T (W x2c x00 x00 x00 x04 x00 x00 x00)
(L (W x0c x00 x10 x00 x14 x00 x18 x00)) E)
(L (W xbb xa7 xa1 x5a xaa x2e xd7 x83))))
(T (W x02 x00 x00 x00 x05 x00 x00 x00)
(T (W x40 x00 x00 x00 x28 x00 x00 x00)
(T (W x04 x00 x00 x00 x0a x00 x00 x00)
(L (W x38 x00 x07 x00 x00 x00 x3c x00)) E)
(L (W x70 x6d x30 x32 x31 x35 x5f x30)))
(T (W x00 x00 x00 x40 x02 x00 x00 x00)
(T (W x0a xbe x4c xc8 x17 x2f xef x62)
(L (W x00 x00 x00 x00 x04 x00 x00 x00)) E)
(L (W xa4 xba x4c xc8 x17 x2d xef x62)))))
(T (W xbc x02 x00 x00 x00 x00 x80 x3f)
(T (W x70 x6d x30 x30 x30 x30 x5f x30)
(T (W x0c x00 x10 x00 x14 x00 x18 x00)
(T (W x00 x00 x00 x01 xa7 x01 x00 x00)
(L (W x72 x00 x00 x00 x00 x00 x80 x3f)) E)
(L (W x04 x00 x00 x00 x0a x00 x00 x00)))
(T (W x04 x00 x00 x00 x0a x00 x00 x00)
(T (W x04 x00 x00 x00 x00 x00 x00 x00)
(L (W xcd xcc xcc x3f x02 x00 x00 x00)) E)
(L (W x04 x00 x00 x00 x00 x00 x00 x00))))
(T (W x02 x00 x00 x00 x05 x00 x00 x00)
(T (W x00 x00 x80 x3f x9a x99 xd9 x3f)
(T (W x03 x00 x00 x00 x0c x00 x00 x00)
(L (W x00 x00 x00 x40 x01 x00 x00 x00)) E)
(L (W x04 x00 x00 x00 x0a x00 x00 x00)))
(T (W x05 x01 xed x78 x0b xce xee x0f)
(L (W xbd xbf x4c xc8 x17 x30 xef x62))
(L (W x78 x09 xea x78 x0b x5c xeb x0f)))))))
(T (W x4c x3c x00 x00 xd4 x3b x00 x00)
(T (W x40 x00 x00 x00 x28 x00 x00 x00)
(T (W x2c x00 x00 x00 x04 x00 x00 x00)
(T (W x34 x31 x5f x31 x31 x5f x30 x30)
(T (W x1c x00 x20 x00 x00 x00 x24 x00)
(T (W x30 x5f x30 x30 x00 x00 x00 x00)
(L (W x30 x5f x30 x30 x00 x00 x00 x00)) E)
(L (W x01 x00 x00 x00 x44 x00 x00 x00)))
(T (W x30 x5f x30 x30 x00 x00 x00 x00)
(T (W xb6 xb4 xff xff x00 x00 x00 x01)
(L (W x44 x00 x00 x00 x2c x00 x00 x00)) E)
(L (W x9a x99 xd9 x3f x02 x00 x00 x00))))
(T (W x02 x00 x00 x00 x05 x00 x00 x00)
(T (W x02 x00 x00 x00 xcd xcc x4c x3f)
(T (W x30 x30 x5f x30 x30 x5f x30 x30)
(L (W xbb xa7 xa1 x5a xaa x2e xd7 x83)) E)
(L (W x00 x00 x00 x00 xce xea xff xff)))
(T (W x70 x6d x30 x34 x35 x32 x5f x30)
(T (W x00 x00 x00 x00 x01 x00 x00 x00)
(L (W x03 x00 x00 x00 x0c x00 x00 x00)) E)
(L (W x04 x00 x00 x00 x00 x00 x00 x00)))))
(T (W x0c x00 x00 x00 x70 x6d x30 x30)
(T (W x00 x00 x2e x00 x4c x00 x08 x00)
(T (W x2c x00 x00 x00 x00 x00 x30 x00)
(T (W x03 x00 x00 x00 x0c x00 x00 x00)
(L (W x40 x00 x00 x00 x28 x00 x00 x00)) E)
(L (W xef x00 x00 x00 x00 x00 x80 x3f)))
(T (W xb6 x98 xff xff x00 x00 x00 x01)
(T (W x02 x00 x00 x00 x02 x00 x00 x00)
(L (W x2c x00 x00 x00 x04 x00 x00 x00)) E)
(L (W x04 x00 x00 x00 x0a x00 x00 x00))))
(T (W x02 x00 x00 x00 x05 x00 x00 x00)
(T (W x03 x00 x00 x00 x0c x00 x00 x00)
(T (W x00 x00 x00 x00 x00 x00 x34 x00)
(L (W x2c x00 x07 x00 x30 x00 x00 x00)) E)
(L (W xc9 x00 x00 x00 x1b x00 x00 x00)))
(T (W x00 x00 x00 x40 x01 x00 x00 x00)
(T (W x04 x00 x00 x00 x00 x00 x00 x00)
(L (W x00 x00 x20 x00 x24 x00 x00 x00)) E)
(L (W xcd xcc x0c x40 x03 x00 x00 x00))))))
(T (W x02 x00 x00 x00 x03 x00 x00 x00)
(T (W x00 x00 x00 x41 x00 x00 x00 x41)
(T (W x39 xfa xec x78 x0b xca xee x0f)
(T (W x2c x00 x30 x00 x34 x00 x00 x00)
(T (W x02 x00 x00 x00 x03 x00 x00 x00)
(L (W xc5 x07 xea x78 x0b x5b xeb x0f)) E)
(L (W x30 x5f x30 x30 x00 x00 x00 x00)))
(T (W xd3 x5d x45 x71 x09 xc8 x24 x44)
(T (W xbd xbf x4c xc8 x17 x30 xef x62)
(L (W x30 x5f x30 x30 x00 x00 x2e x00)) E)
(L (W x03 x00 x00 x00 x0c x00 x00 x00))))
(T (W x02 x00 x00 x00 x05 x00 x00 x00)
(T (W x03 x00 x00 x00 x02 x00 x00 x00)
(T (W x00 x00 x00 x00 x04 x00 x00 x00)
(L (W x00 x00 x80 x3f x00 x00 x00 x40)) E)
(L (W x03 x00 x00 x00 x0c x00 x00 x00)))
(T (W x00 x00 x2e x00 x48 x00 x08 x00)
(T (W x70 x6d x30 x30 x30 x30 x5f x30)
(L (W xde x0c xea x78 x0b x5e xeb x0f)) E)
(L (W x70 x6d x30 x31 x39 x37 x5f x30)))))
(T (W x04 x00 x00 x00 x0a x00 x00 x00)
(T (W x02 x00 x00 x00 x05 x00 x00 x00)
(T (W x02 x00 x00 x00 x03 x00 x00 x00)
(T (W x2c x00 x00 x00 x04 x00 x00 x00)
(L (W x30 x5f x30 x30 x00 x00 x2e x00)) E)
(L (W x0a x00 x00 x00 x0a xd7 xa3 x3c)))
(T (W x02 x00 x00 x00 x03 x00 x00 x00)
(T (W x00 x00 x80 x3f x33 x33 xf3 x3f)
(L (W x30 x5f x30 x30 x00 x00 x00 x00)) E)
(L (W x30 x5f x31 x36 x00 x00 x00 x00))))
(T (W x30 x00 x07 x00 x00 x00 x34 x00)
(T (W x04 x00 x00 x00 x0a x00 x00 x00)
(T (W x04 x00 x00 x00 x0a x00 x00 x00)
(L (W x00 x00 x80 x3f x33 x33 x33 x40)) E)
(L (W x04 x00 x00 x00 x00 x00 x00 x00)))
(T (W x0a x00 x00 x00 x0a xd7 x23 x3c)
(L (W x30 x5f x30 x30 x00 x00 x00 x00))
(L (W x02 x00 x00 x00 x00 x00 x90 x40))))))))
(T (W x98 x69 x00 x00 x24 x69 x00 x00)
(T (W xc4 x4b x00 x00 x24 x4b x00 x00)
(T (W x3c x0b x00 x00 xc4 x0a x00 x00)
(T (W xc3 xf5 xa8 x3f x02 x00 x00 x00)
(T (W x02 x00 x00 x00 x03 x00 x00 x00)
(T (W x00 x00 x80 x3f x33 x33 x73 x3f)
(T (W x03 x00 x00 x00 x0c x00 x00 x00)
(L (W x03 x00 x00 x00 x0c x00 x00 x00)) E)
(L (W x00 x00 x80 x3f x9a x99 xd9 x3f)))
(T (W x03 x00 x00 x00 x0c x00 x00 x00)
(T (W x70 x6d x30 x30 x30 x30 x5f x30)
(L (W x00 x00 x80 x3f x00 x00 x00 x40)) E)
(L (W xc9 x00 x00 x00 x13 x00 x00 x00))))
(T (W x02 x00 x00 x00 x05 x00 x00 x00)
(T (W x40 x00 x00 x00 x28 x00 x00 x00)
(T (W x24 x00 x28 x00 x2c x00 x00 x00)
(L (W x30 x5f x30 x30 x00 x00 x32 x00)) E)
(L (W x70 x6d x30 x30 x30 x30 x5f x30)))
(T (W x01 x00 x00 x00 x02 x00 x00 x00)
(T (W x00 x00 x00 x00 x04 x00 x00 x00)
(L (W x00 x00 x2e x00 x40 x00 x04 x00)) E)
(L (W x30 x31 x5f x30 x30 x5f x31 x33)))))
(T (W x3c x00 x44 x00 x20 x00 x24 x00)
(T (W x34 x00 x07 x00 x38 x00 x3c x00)
(T (W xcd xcc x4c x3f x03 x00 x00 x00)
(T (W xa4 xba x4c xc8 x17 x2d xef x62)
(L (W x7d x00 x00 x00 x00 x00 x80 x3f)) E)
(L (W x30 x30 x5f x30 x30 x5f x30 x30)))
(T (W x36 x32 x5f x30 x30 x5f x30 x30)
(T (W x00 x00 x00 x00 x9e xb7 xff xff)
(L (W xbb xa7 xa1 x5a xaa x2e xd7 x83)) E)
(L (W x9a x99 xd9 x3f x02 x00 x00 x00))))
(T (W x02 x00 x00 x00 x05 x00 x00 x00)
(T (W x44 x00 x08 x00 x00 x00 x0c x00)
(T (W x02 x00 x00 x00 x03 x00 x00 x00)
(L (W x00 x00 x80 x3f x00 x00 x10 x40)) E)
(L (W x30 x30 x5f x30 x30 x5f x30 x30)))
(T (W xb6 xb6 xff xff x00 x00 x01 x01)
(T (W xd1 x07 xed x78 x0b xd2 xee x0f)
(L (W x1a x00 x00 x00 x00 x00 x80 x3f)) E)
(L (W x0a x00 x00 x00 x8f xc2 xf5 x3c))))))
(T (W x00 x00 x00 x00 x01 x00 x00 x00)
(T (W x04 x00 x00 x00 x0a x00 x00 x00)
(T (W xcd xcc x4c x3e x00 x00 x40 x40)
(T (W xc3 xf5 xa8 x3f x05 x00 x00 x00)
(T (W x00 x00 x01 x01 xaf x01 x00 x00)
(L (W x0a x00 x00 x00 x0a xd7 xa3 x3c)) E)
(L (W x01 x00 x00 x00 x02 x00 x00 x00)))
(T (W x0a xd7 x23 x3d x00 x00 x80 x3f)
(T (W x9a x99 x99 x3f x9a x99 x99 x3e)
(L (W x02 x00 x00 x00 x03 x00 x00 x00)) E)
(L (W x04 x00 x00 x00 x00 x00 x00 x00))))
(T (W x02 x00 x00 x00 x05 x00 x00 x00)
(T (W x04 x00 x00 x00 x0a x00 x00 x00)
(T (W x5d x15 xea x78 x0b x63 xeb x0f)
(L (W xd6 xee xff xff x00 x00 x00 x01)) E)
(L (W x04 x00 x00 x00 x00 x00 x00 x00)))
(T (W x00 x00 x2c x00 x30 x00 x07 x00)
(T (W x01 x00 x00 x00 x02 x00 x00 x00)
(L (W x0a x00 x00 x00 x0a xd7 xa3 x3c)) E)
(L (W x01 x00 x00 x00 x02 x00 x00 x00)))))
(T (W x01 x00 x00 x00 x04 x00 x00 x00)
(T (W xf5 x01 x00 x00 x00 x00 x80 x3f)
(T (W x00 x00 x00 x00 x01 x00 x00 x00)
(T (W x33 x33 x13 x40 x02 x00 x00 x00)
(L (W x00 x00 x28 x00 x2c x00 x00 x00)) E)
(L (W xbd xbf x4c xc8 x17 x30 xef x62)))
(T (W xbd xbf x4c xc8 x17 x30 xef x62)
(T (W x70 x6d x30 x30 x30 x30 x5f x30)
(L (W x18 x00 x1c x00 x00 x00 x20 x00)) E)
(L (W x03 x00 x00 x00 x0c x00 x00 x00))))
(T (W x02 x00 x00 x00 x05 x00 x00 x00)
(T (W x44 x00 x00 x00 x2c x00 x00 x00)
(T (W xbd xbf x4c xc8 x17 x30 xef x62)
(L (W x28 x00 x00 x00 x04 x00 x00 x00)) E)
(L (W xbb xa7 xa1 x5a xaa x2e xd7 x83)))
(T (W x02 x00 x00 x00 x40 x00 x00 x00)
(L (W x01 x00 x00 x00 x02 x00 x00 x00))
(L (W x2c x00 x00 x00 x04 x00 x00 x00)))))))
(T (W x18 x2d x00 x00 xa4 x2c x00 x00)
(T (W x02 x00 x00 x00 xcd xcc x0c x40)
(T (W x2e x00 x00 x00 x00 x00 x00 x01)
(T (W x00 x00 x00 x00 x04 x00 x00 x00)
(T (W x30 x5f x30 x30 x00 x00 x00 x00)
(T (W x08 x00 x0c x00 x00 x00 x10 x00)
(L (W x88 x00 x00 x00 x00 x00 x80 x3f)) E)
(L (W x0a x00 x00 x00 x0a xd7 x23 x3c)))
(T (W x02 x00 x00 x00 x03 x00 x00 x00)
(T (W x00 x00 x00 x40 x01 x00 x00 x00)
(L (W x34 x00 x38 x00 x2e x00 x00 x00)) E)
(L (W x04 x00 x00 x00 x0a x00 x00 x00))))
(T (W x02 x00 x00 x00 x05 x00 x00 x00)
(T (W x5c x8f x02 x40 x04 x00 x00 x00)
(T (W x00 x00 x80 x3f x00 x00 x00 x40)
(L (W x02 x00 x00 x00 x44 x00 x00 x00)) E)
(L (W x00 x00 x18 x00 x38 x00 x40 x00)))
(T (W x36 x9d xff xff x00 x00 x00 x01)
(T (W x9a x99 x19 x3e x9a x99 x19 x3f)
(L (W x2b x0b xea x78 x0b x5d xeb x0f)) E)
(L (W x02 x00 x00 x00 xcd xcc x4c x3f)))))
(T (W x30 x5f x30 x30 x00 x00 x00 x00)
(T (W x00 x00 x00 x00 x01 x00 x00 x00)
(T (W x30 x5f x30 x30 x00 x00 x00 x00)
(T (W x00 x00 x00 x00 x8e xb3 xff xff)
(L (W x8f xc2 xf5 x3c x00 x00 x80 x3f)) E)
(L (W x02 x00 x00 x00 x40 x00 x00 x00)))
(T (W x66 x66 xe6 x3f x02 x00 x00 x00)
(T (W x01 x00 x00 x00 xcd xcc x4c x3f)
(L (W x0a x00 x00 x00 x0a xd7 xa3 x3c)) E)
(L (W xbb xa7 xa1 x5a xaa x2e xd7 x83))))
(T (W x02 x00 x00 x00 x05 x00 x00 x00)
(T (W x37 x38 x5f x30 x30 x5f x30 x30)
(T (W x08 x00 x0c x00 x10 x00 x14 x00)
(L (W x36 xf1 xff xff x00 x00 x00 x01)) E)
(L (W x9a x99 xd9 x3f x02 x00 x00 x00)))
(T (W x28 x00 x00 x00 x04 x00 x00 x00)
(L (W x0c x00 x00 x00 x70 x6d x30 x30))
(L (W x0a x00 x00 x00 x0a xd7 x23 x3c))))))
(T (W x31 x5f x30 x30 x00 x00 x00 x00)
(T (W x00 x00 x30 x00 x34 x00 x07 x00)
(T (W x00 x00 x00 x00 x04 x00 x00 x00)
(T (W x3e x97 xff xff x00 x00 x00 x01)
(T (W x04 x00 x00 x00 x0a x00 x00 x00)
(L (W x01 x00 x00 x00 x02 x00 x00 x00)) E)
(L (W x00 x00 x00 x01 x09 x01 x00 x00)))
(T (W x04 x00 x00 x00 x00 x00 x00 x00)
(T (W x01 x00 x00 x00 x02 x00 x00 x00)
(L (W x01 x00 x00 x00 x02 x00 x00 x00)) E)
(L (W x30 x5f x32 x34 x00 x00 x00 x00))))
(T (W x02 x00 x00 x00 x05 x00 x00 x00)
(T (W x00 x00 x80 x3f xcd xcc x6c x40)
(T (W x0c x00 x00 x00 x70 x6d x30 x30)
(L (W x40 x00 x00 x00 x28 x00 x00 x00)) E)
(L (W x44 x00 x04 x00 x08 x00 x00 x00)))
(T (W x01 x00 x00 x00 x02 x00 x00 x00)
(T (W x00 x00 x80 x3f x33 x33 xb3 x3f)
(L (W x00 x00 x00 x00 x04 x00 x00 x00)) E)
(L (W x96 xe3 xff xff xc1 x00 x00 x00)))))
(T (W xbb xa7 xa1 x5a xaa x2e xd7 x83)
(T (W x02 x00 x00 x00 x05 x00 x00 x00)
(T (W x00 x00 x00 x41 x00 x00 xe0 x40)
(T (W x9a x99 x99 x3f x33 x33 x33 x3f)
(L (W x04 x00 x00 x00 x00 x00 x00 x00)) E)
(L (W xa4 xba x4c xc8 x17 x2d xef x62)))
(T (W x35 x35 x5f x30 x30 x5f x30 x30)
(T (W x04 x00 x00 x00 x0a x00 x00 x00)
(L (W x2e x00 x00 x00 x00 x00 x80 x3f)) E)
(L (W xc9 x00 x00 x00 x03 x00 x00 x00))))
(T (W x0c x00 x00 x00 x70 x6d x30 x34)
(T (W xec xfb xec x78 x0b xcb xee x0f)
(T (W x90 x09 xf0 x78 x0b x4a xf2 x0f)
(L (W x01 x00 x00 x00 x01 x00 x00 x00)) E)
(L (W x03 x00 x00 x00 x0c x00 x00 x00)))
(T (W x05 x68 x45 x71 x09 xce x24 x44)
(L (W x00 x00 x90 x40 x01 x00 x00 x00))
(L (W xf6 x0c xf0 x78 x0b x4c xf2 x0f)))))))))
(T (W x48 x80 x00 x00 xd4 x7f x00 x00)
(T (W xf8 x70 x00 x00 x84 x70 x00 x00)
(T (W x18 x53 x00 x00 xac x52 x00 x00)
(T (W xa4 x13 x00 x00 x20 x13 x00 x00)
(T (W xbb xa7 xa1 x5a xaa x2e xd7 x83)
(T (W x01 x00 x00 x00 x04 x00 x00 x00)
(T (W x54 x00 x08 x00 x00 x00 x0c x00)
(T (W x02 x00 x00 x00 x01 x00 x00 x00)
(L (W x02 x00 x00 x00 x40 x00 x00 x00)) E)
(L (W x70 x6d x30 x30 x30 x30 x5f x30)))
(T (W x03 x00 x00 x00 x40 x00 x00 x00)
(T (W x28 x00 x00 x00 x04 x00 x00 x00)
(L (W x30 x5f x30 x30 x00 x00 x2e x00)) E)
(L (W xbb xa7 xa1 x5a xaa x2e xd7 x83))))
(T (W x00 x00 x00 x00 x01 x00 x00 x00)
(T (W x00 x00 x00 x00 x01 x00 x00 x00)
(T (W x04 x00 x00 x00 x00 x00 x00 x00)
(L (W x0a x00 x00 x00 x8f xc2 xf5 x3c)) E)
(L (W x28 x00 x00 x00 x04 x00 x00 x00)))
(T (W x01 x00 x00 x00 x01 x00 x00 x00)
(T (W x00 x00 x80 x3f xcd xcc xcc x3f)
(L (W x02 x00 x00 x00 x00 x00 x08 x41)) E)
(L (W x04 x00 x00 x00 x0a x00 x00 x00)))))
(T (W xa4 xba x4c xc8 x17 x2d xef x62)
(T (W x02 x00 x00 x00 x03 x00 x00 x00)
(T (W x00 x00 x00 x00 x04 x00 x00 x00)
(T (W x00 x00 x00 x00 x5e xa7 xff xff)
(L (W xde x0c xea x78 x0b x5e xeb x0f)) E)
(L (W x0a x00 x00 x00 x0a xd7 x23 x3d)))
(T (W x04 x00 x00 x00 x0a x00 x00 x00)
(T (W x9a x99 x99 x3f x33 x33 xb3 x3f)
(L (W x00 x00 x00 x01 x3b x00 x00 x00)) E)
(L (W x04 x00 x00 x00 x00 x00 x00 x00))))
(T (W x00 x00 x00 x00 x01 x00 x00 x00)
(T (W x02 x00 x00 x00 x00 x00 x00 x40)
(T (W xbd xbf x4c xc8 x17 x30 xef x62)
(L (W x00 x00 x2e x00 x4c x00 x08 x00)) E)
(L (W x0a x00 x00 x00 x8f xc2 x75 x3d)))
(T (W x00 x00 x80 x3f x66 x66 x66 x40)
(T (W x30 x30 x5f x30 x30 x5f x30 x30)
(L (W x30 x30 x5f x30 x30 x5f x30 x30)) E)
(L (W x03 x00 x00 x00 x0c x00 x00 x00))))))
(T (W x01 x00 x00 x00 x03 x00 x00 x00)
(T (W x02 x00 x00 x00 x03 x00 x00 x00)
(T (W x34 x00 x07 x00 x38 x00 x3c x00)
(T (W x00 x00 x00 x00 x04 x00 x00 x00)
(T (W x86 x5f x45 x71 x09 xc9 x24 x44)
(L (W x03 x00 x00 x00 x0c x00 x00 x00)) E)
(L (W x00 x00 x20 x40 x01 x00 x00 x00)))
(T (W x0c x00 x00 x00 x70 x6d x30 x30)
(T (W x0c x00 x00 x00 x70 x6d x30 x30)
(L (W x48 x00 x00 x00 x30 x00 x00 x00)) E)
(L (W xc9 x00 x00 x00 x0f x00 x00 x00))))
(T (W x00 x00 x00 x00 x01 x00 x00 x00)
(T (W x0c x00 x00 x00 x70 x6d x30 x34)
(T (W x30 x30 x5f x30 x30 x5f x30 x30)
(L (W x9a x99 x99 x3f x9a x99 x99 x3f)) E)
(L (W x00 x00 x01 x01 xd7 x00 x00 x00)))
(T (W x01 x00 x00 x00 x02 x00 x00 x00)
(T (W x33 x33 xf3 x3f x02 x00 x00 x00)
(L (W x1c x00 x20 x00 x00 x00 x24 x00)) E)
(L (W x00 x00 x80 x3f x00 x00 x20 x40)))))
(T (W x04 x00 x00 x00 x00 x00 x00 x00)
(T (W xaa x13 xea x78 x0b x62 xeb x0f)
(T (W xcd xcc x4c x3f x33 x33 x33 x3f)
(T (W xbd xbf x4c xc8 x17 x30 xef x62)
(L (W x04 x00 x00 x00 x00 x00 x00 x00)) E)
(L (W x30 x5f x30 x30 x00 x00 x00 x00)))
(T (W x30 x5f x30 x30 x00 x00 x00 x00)
(T (W x3c x00 x00 x00 x24 x00 x00 x00)
(L (W x00 x00 x00 x00 x04 x00 x00 x00)) E)
(L (W x9a x99 xd9 x3f x02 x00 x00 x00))))
(T (W x00 x00 x00 x00 x01 x00 x00 x00)
(T (W x00 x00 x00 x00 x01 x00 x00 x00)
(T (W x00 x00 x30 x00 x2e x00 x00 x00)
(L (W x01 x00 x00 x00 x02 x00 x00 x00)) E)
(L (W x30 x5f x33 x36 x00 x00 x00 x00)))
(T (W x00 x00 x0c x00 x10 x00 x14 x00)
(L (W x00 x00 x80 x3f x33 x33 xf3 x3f))
(L (W x0c x00 x10 x00 x00 x00 x14 x00)))))))
(T (W x4c x34 x00 x00 xd8 x33 x00 x00)
(T (W x0c x00 x00 x00 x70 x6d x30 x30)
(T (W x0c x00 x00 x00 x70 x6d x30 x30)
(T (W x74 x02 x00 x00 x01 x00 x00 x00)
(T (W x0a x00 x00 x00 x8f xc2 x75 x3d)
(T (W x44 x10 xea x78 x0b x60 xeb x0f)
(L (W x20 x5c x45 x71 x09 xc7 x24 x44)) E)
(L (W x02 x00 x00 x00 x03 x00 x00 x00)))
(T (W xbd xbf x4c xc8 x17 x30 xef x62)
(T (W x0a xbe x4c xc8 x17 x2f xef x62)
(L (W x03 x00 x00 x00 x0c x00 x00 x00)) E)
(L (W x03 x00 x00 x00 x0c x00 x00 x00))))
(T (W x00 x00 x00 x00 x01 x00 x00 x00)
(T (W x00 x00 x2e x00 x44 x00 x04 x00)
(T (W x90 x09 xf0 x78 x0b x4a xf2 x0f)
(L (W x1c x00 x20 x00 x40 x00 x48 x00)) E)
(L (W xa4 xba x4c xc8 x17 x2d xef x62)))
(T (W x9a x99 x99 x3f x00 x00 x80 x3f)
(T (W x24 x00 x00 x00 x00 x00 x28 x00)
(L (W x00 x00 x38 x00 x2e x00 x00 x00)) E)
(L (W x00 x00 x24 x00 x28 x00 x07 x00)))))
(T (W x0a x00 x00 x00 x0a xd7 xa3 x3c)
(T (W x00 x00 x80 x3f x00 x00 x20 x40)
(T (W x8f xc2 x75 x3d x66 x66 x66 x3f)
(T (W x02 x00 x00 x00 xcd xcc x4c x3f)
(L (W x0c x00 x00 x00 x70 x6d x30 x30)) E)
(L (W x04 x00 x00 x00 x00 x00 x00 x00)))
(T (W xbd xbf x4c xc8 x17 x30 xef x62)
(T (W x03 x00 x00 x00 x0c x00 x00 x00)
(L (W x0c x00 x00 x00 x70 x6d x30 x30)) E)
(L (W x30 x5f x32 x30 x00 x00 x00 x00))))
(T (W x00 x00 x00 x00 x01 x00 x00 x00)
(T (W x04 x00 x00 x00 x0a x00 x00 x00)
(T (W xa9 x0e xf0 x78 x0b x4d xf2 x0f)
(L (W x02 x00 x00 x00 x00 x00 x80 x3f)) E)
(L (W x04 x00 x00 x00 x00 x00 x00 x00)))
(T (W x01 x00 x00 x00 x02 x00 x00 x00)
(T (W x40 x00 x00 x00 x28 x00 x00 x00)
(L (W x9a x99 x99 x3f x66 x66 x66 x3f)) E)
(L (W x02 x00 x00 x00 x03 x00 x00 x00))))))
(T (W x04 x00 x00 x00 x0a x00 x00 x00)
(T (W x01 x00 x00 x00 x02 x00 x00 x00)
(T (W x26 x02 x00 x00 x02 x00 x00 x00)
(T (W x9a x99 x99 x3f x9a x99 x19 x3f)
(T (W x02 x00 x00 x00 x03 x00 x00 x00)
(L (W x00 x00 x80 x3f x71 x3d x8a x3f)) E)
(L (W x9f x64 x45 x71 x09 xcc x24 x44)))
(T (W xd0 x01 x00 x00 x00 x00 x80 x3f)
(T (W x00 x00 x00 x40 x01 x00 x00 x00)
(L (W x00 x00 x80 x3f x9a x99 xd9 x3f)) E)
(L (W x04 x00 x00 x00 x0a x00 x00 x00))))
(T (W x00 x00 x00 x00 x01 x00 x00 x00)
(T (W x00 x00 x00 x00 x04 x00 x00 x00)
(T (W x40 x00 x00 x00 x28 x00 x00 x00)
(L (W x00 x00 x00 x00 x01 x00 x00 x00)) E)
(L (W x02 x00 x00 x00 x00 x00 x80 x40)))
(T (W x85 xeb xf1 x3f x02 x00 x00 x00)
(T (W x05 x01 xed x78 x0b xce xee x0f)
(L (W x24 x00 x00 x00 x00 x00 x80 x3f)) E)
(L (W x9a x99 x99 x3f x00 x00 xc0 x3f)))))
(T (W x31 x5f x30 x30 x00 x00 x00 x00)
(T (W x00 x00 x00 x00 x01 x00 x00 x00)
(T (W x00 x00 x00 x00 x00 x00 x34 x00)
(T (W x0c x00 x00 x00 x70 x6d x30 x30)
(L (W x00 x00 x80 x3f xcd xcc xcc x3f)) E)
(L (W x30 x5f x30 x30 x00 x00 x00 x00)))
(T (W x04 x00 x00 x00 x0a x00 x00 x00)
(T (W x01 x00 x00 x00 x02 x00 x00 x00)
(L (W x20 xf5 xec x78 x0b xc7 xee x0f)) E)
(L (W xbb xa7 xa1 x5a xaa x2e xd7 x83))))
(T (W x04 x00 x00 x00 x0a x00 x00 x00)
(T (W x30 x5f x30 x30 x00 x00 x00 x00)
(T (W x30 x30 x5f x30 x30 x5f x30 x30)
(L (W x48 x00 x08 x00 x00 x00 x00 x00)) E)
(L (W x9a x99 xd9 x3f x02 x00 x00 x00)))
(T (W x30 x30 x5f x30 x30 x5f x30 x30)
(L (W xa4 xba x4c xc8 x17 x2d xef x62))
(L (W x00 x00 x00 x00 x2e xe6 xff xff))))))))
(T (W xbc x61 x00 x00 x44 x61 x00 x00)
(T (W xb0 x43 x00 x00 x38 x43 x00 x00)
(T (W x3c x03 x00 x00 xc4 x02 x00 x00)
(T (W x01 x00 x00 x00 x02 x00 x00 x00)
(T (W x04 x00 x00 x00 x0a x00 x00 x00)
(T (W x00 x00 x00 x00 x04 x00 x00 x00)
(T (W x0a x00 x00 x00 x0a xd7 xa3 x3c)
(L (W x0a x00 x00 x00 x0a xd7 x23 x3d)) E)
(L (W x48 x00 x08 x00 x00 x00 x00 x00)))
(T (W x0a x00 x00 x00 x0a xd7 xa3 x3c)
(T (W x9a x99 x99 x3f x00 x00 x80 x3f)
(L (W x00 x00 x00 x00 x01 x00 x00 x00)) E)
(L (W x04 x00 x00 x00 x00 x00 x00 x00))))
(T (W x00 x00 x00 x00 x01 x00 x00 x00)
(T (W x0c x00 x00 x00 x70 x6d x30 x34)
(T (W x0a x00 x00 x00 x0a xd7 x23 x3c)
(L (W x65 x00 x00 x00 x02 x00 x00 x00)) E)
(L (W x00 x00 x80 x3f x9a x99 x89 x40)))
(T (W x28 x00 x00 x00 x04 x00 x00 x00)
(T (W x01 x00 x00 x00 x03 x00 x00 x00)
(L (W x01 x00 x00 x00 x01 x00 x00 x00)) E)
(L (W xc9 x00 x00 x00 x01 x00 x00 x00)))))
(T (W x2c x00 x00 x00 x04 x00 x00 x00)
(T (W x9a x99 x19 x3e x33 x33 xb3 x3f)
(T (W x00 x00 x00 x00 x01 x00 x00 x00)
(T (W x02 x00 x00 x00 x02 x00 x00 x00)
(L (W x04 x00 x00 x00 x00 x00 x00 x00)) E)
(L (W xde x0c xea x78 x0b x5e xeb x0f)))
(T (W x9a x99 x19 x3e xcd xcc xcc x3f)
(T (W xa4 xba x4c xc8 x17 x2d xef x62)
(L (W x3c x00 x44 x00 x20 x00 x24 x00)) E)
(L (W x03 x00 x00 x00 x0c x00 x00 x00))))
(T (W x00 x00 x00 x00 x01 x00 x00 x00)
(T (W xcd xcc x6c x40 x04 x00 x00 x00)
(T (W x02 x00 x00 x00 x03 x00 x00 x00)
(L (W x00 x00 x00 x00 x01 x00 x00 x00)) E)
(L (W x5c x10 xf0 x78 x0b x4e xf2 x0f)))
(T (W xbd xbf x4c xc8 x17 x30 xef x62)
(T (W x69 x01 x00 x00 x00 x00 x80 x3f)
(L (W x04 x00 x00 x00 x00 x00 x00 x00)) E)
(L (W x30 x5f x30 x30 x00 x00 x2e x00))))))
(T (W x03 x00 x00 x00 x03 x00 x00 x00)
(T (W x30 x5f x30 x30 x00 x00 x2a x00)
(T (W x00 x00 x00 x00 x16 x7e xff xff)
(T (W x01 x00 x00 x00 x02 x00 x00 x00)
(T (W x00 x00 x00 x00 x04 x00 x00 x00)
(L (W x30 x30 x5f x30 x30 x5f x30 x30)) E)
(L (W x04 x00 x00 x00 x0a x00 x00 x00)))
(T (W x30 x5f x30 x30 x00 x00 x00 x00)
(T (W xf6 xcc xff xff x00 x00 x01 x01)
(L (W x04 x00 x00 x00 x0a x00 x00 x00)) E)
(L (W x9a x99 xd9 x3f x02 x00 x00 x00))))
(T (W x00 x00 x00 x00 x01 x00 x00 x00)
(T (W x35 x5f x30 x30 x00 x00 x2e x00)
(T (W xa0 x01 x00 x00 x01 x00 x00 x00)
(L (W xa4 xba x4c xc8 x17 x2d xef x62)) E)
(L (W x03 x00 x00 x00 x40 x00 x00 x00)))
(T (W x0a xd7 xa3 x3d x66 x66 xe6 x3f)
(T (W x28 x00 x00 x00 x04 x00 x00 x00)
(L (W x30 x30 x5f x30 x30 x5f x30 x30)) E)
(L (W x28 x00 x00 x00 x04 x00 x00 x00)))))
(T (W x02 x00 x00 x00 x03 x00 x00 x00)
(T (W x00 x00 x00 x00 x01 x00 x00 x00)
(T (W x05 x00 x00 x00 x44 x00 x00 x00)
(T (W x01 x00 x00 x00 x02 x00 x00 x00)
(L (W x0a x00 x00 x00 x0a xd7 x23 x3d)) E)
(L (W x34 x00 x3c x00 x18 x00 x1c x00)))
(T (W x01 x00 x00 x00 x01 x00 x00 x00)
(T (W x9f x64 x45 x71 x09 xcc x24 x44)
(L (W x01 x00 x00 x00 x0a xd7 xa3 x3c)) E)
(L (W x04 x00 x00 x00 x0a x00 x00 x00))))
(T (W x00 x00 x00 x00 x01 x00 x00 x00)
(T (W x03 x00 x00 x00 x0c x00 x00 x00)
(T (W x34 x00 x3c x00 x1c x00 x20 x00)
(L (W x70 x6d x30 x30 x30 x30 x5f x30)) E)
(L (W xc9 x00 x00 x00 x17 x00 x00 x00)))
(T (W x03 x00 x00 x00 x0c x00 x00 x00)
(L (W x04 x00 x00 x00 x0a x00 x00 x00))
(L (W x0c x00 x00 x00 x70 x6d x30 x30)))))))
(T (W x14 x25 x00 x00 xa0 x24 x00 x00)
(T (W xd6 x6d xff xff x88 x03 x00 x00)
(T (W x0a xbe x4c xc8 x17 x2f xef x62)
(T (W x01 x00 x00 x00 x01 x00 x00 x00)
(T (W xbb xa7 xa1 x5a xaa x2e xd7 x83)
(T (W x04 x00 x00 x00 x0a x00 x00 x00)
(L (W x04 x00 x00 x00 x00 x00 x00 x00)) E)
(L (W x30 x5f x30 x30 x00 x00 x00 x00)))
(T (W x02 x00 x00 x00 x03 x00 x00 x00)
(T (W x01 x00 x00 x00 x02 x00 x00 x00)
(L (W x52 x66 x45 x71 x09 xcd x24 x44)) E)
(L (W x30 x5f x32 x38 x00 x00 x00 x00))))
(T (W x00 x00 x00 x00 x01 x00 x00 x00)
(T (W x02 x00 x00 x00 x03 x00 x00 x00)
(T (W x00 x00 x00 x00 x01 x00 x00 x00)
(L (W x02 x00 x00 x00 x03 x00 x00 x00)) E)
(L (W x28 x00 x00 x00 x04 x00 x00 x00)))
(T (W xbd xbf x4c xc8 x17 x30 xef x62)
(T (W x76 xbd xff xff x00 x00 x00 x01)
(L (W x26 x00 x00 x00 x00 x00 x80 x3f)) E)
(L (W x00 x00 x00 x00 x7e xe9 xff xff)))))
(T (W x20 xf5 xec x78 x0b xc7 xee x0f)
(T (W x3c x00 x00 x00 x24 x00 x00 x00)
(T (W xbb xa7 xa1 x5a xaa x2e xd7 x83)
(T (W x12 x06 xea x78 x0b x5a xeb x0f)
(L (W x30 x30 x5f x30 x30 x5f x30 x30)) E)
(L (W x03 x00 x00 x00 x0c x00 x00 x00)))
(T (W x01 x00 x00 x00 x02 x00 x00 x00)
(T (W x3e xbd xff xff x8e x01 x00 x00)
(L (W x30 x5f x34 x31 x00 x00 x2e x00)) E)
(L (W xc9 x00 x00 x00 x07 x00 x00 x00))))
(T (W x00 x00 x00 x00 x01 x00 x00 x00)
(T (W x43 x0b xf0 x78 x0b x4b xf2 x0f)
(T (W x01 x00 x00 x00 x03 x00 x00 x00)
(L (W xbd xbf x4c xc8 x17 x30 xef x62)) E)
(L (W x03 x00 x00 x00 x0c x00 x00 x00)))
(T (W x70 x6d x30 x34 x34 x32 x5f x30)
(L (W x2e x00 x00 x00 x00 x00 x01 x01))
(L (W x30 x30 x5f x30 x30 x5f x30 x30))))))
(T (W xaa x13 xea x78 x0b x62 xeb x0f)
(T (W x00 x00 x80 x3f x9a x99 xf9 x40)
(T (W x24 x00 x28 x00 x00 x00 x2c x00)
(T (W xbb xa7 xa1 x5a xaa x2e xd7 x83)
(T (W x32 x39 x5f x30 x30 x5f x30 x30)
(L (W x04 x00 x00 x00 x0a x00 x00 x00)) E)
(L (W x04 x00 x00 x00 x00 x00 x00 x00)))
(T (W x03 x00 x00 x00 x40 x00 x00 x00)
(T (W x28 x00 x00 x00 x04 x00 x00 x00)
(L (W x04 x00 x00 x00 x0a x00 x00 x00)) E)
(L (W xbb xa7 xa1 x5a xaa x2e xd7 x83))))
(T (W x00 x00 x00 x00 x01 x00 x00 x00)
(T (W x01 x00 x00 x00 x02 x00 x00 x00)
(T (W x02 x00 x00 x00 x33 x33 xb3 x3f)
(L (W x0c x00 x00 x00 x70 x6d x30 x30)) E)
(L (W x01 x00 x00 x00 x02 x00 x00 x00)))
(T (W x28 x00 x00 x00 x04 x00 x00 x00)
(T (W x01 x00 x00 x00 x02 x00 x00 x00)
(L (W x1c x00 x20 x00 x00 x00 x24 x00)) E)
(L (W x00 x00 x00 x00 x04 x00 x00 x00)))))
(T (W x00 x00 x00 x01 x82 x02 x00 x00)
(T (W x00 x00 x00 x00 x01 x00 x00 x00)
(T (W x50 x00 x08 x00 x00 x00 x0c x00)
(T (W x00 x00 x2e x00 x50 x00 x08 x00)
(L (W x01 x00 x00 x00 x40 x00 x00 x00)) E)
(L (W x66 x66 xe6 x3f x02 x00 x00 x00)))
(T (W xcd xcc x4c x3e x9a x99 x59 x40)
(T (W x30 x30 x5f x30 x30 x5f x30 x30)
(L (W x00 x00 x00 x00 x04 x00 x00 x00)) E)
(L (W x00 x00 x00 x00 x04 x00 x00 x00))))
(T (W x00 x00 x40 x00 x32 x00 x00 x00)
(T (W x00 x00 x00 x01 xd8 x01 x00 x00)
(T (W x00 x00 x80 x3f x00 x00 xa0 x40)
(L (W x02 x00 x00 x00 x03 x00 x00 x00)) E)
(L (W x04 x00 x00 x00 x0a x00 x00 x00)))
(T (W xb5 x01 x00 x00 x02 x00 x00 x00)
(L (W x01 x00 x00 x00 x02 x00 x00 x00))
(L (W x9c x00 x00 x00 x00 x00 x80 x3f))))))))))))).
