(** Generated by tools/gen_la.py from resources/encount/la/ha_area02_spawner.bin. *)
From Coq Require Import NArith Strings.Byte.
From Verif Require Import Model.Trie.
Definition spawner_2_size : N := 225256%N.
Definition spawner_2_trie : trie :=
(T (W x0c x00 x00 x00 x00 x00 x06 x00)
(T (W x08 x00 x04 x00 x06 x00 x00 x00)
(T (W xb4 x6d x03 x00 x8c x6b x03 x00)
(T (W x1c x5e x03 x00 x50 x5c x03 x00)
(T (W x3c x40 x03 x00 x70 x3e x03 x00)
(T (W x94 x05 x03 x00 xc8 x03 x03 x00)
(T (W xac x8f x02 x00 xe0 x8d x02 x00)
(T (W x7c xa3 x01 x00 xb0 xa1 x01 x00)
(T (W x40 x00 x00 x00 x38 x00 x00 x00)
(T (W x44 x00 x00 x00 x38 x00 x00 x00)
(T (W x52 x18 x52 x44 x00 x00 x00 x00)
(T (W x00 x00 x00 x00 x00 x00 x00 x00)
(T (W x34 x00 x00 x00 x20 x00 x00 x00)
(T (W x04 x00 x00 x00 xc0 x90 xfd xff)
(L (W x45 x26 x22 x84 xe4 x9c xf2 xcb))
(L (W x00 x00 x00 x00 xd8 x90 xff xff)))
(T (W x45 x26 x22 x84 xe4 x9c xf2 xcb)
(L (W x45 x26 x22 x84 xe4 x9c xf2 xcb)) E))
(T (W x04 x00 x00 x00 x00 x00 x00 x00)
(T (W x00 x00 x00 x00 x00 x00 x00 x00)
(L (W x45 x26 x22 x84 xe4 x9c xf2 xcb))
(L (W x00 x00 x00 x00 x00 x00 x00 x00)))
(T (W x40 x00 x00 x00 x38 x00 x00 x00)
(L (W x45 x26 x22 x84 xe4 x9c xf2 xcb)) E)))
(T (W x45 x26 x22 x84 xe4 x9c xf2 xcb)
(T (W x00 x00 x00 x00 x56 x30 xfd xff)
(T (W x34 x00 x00 x00 x20 x00 x00 x00)
(L (W x28 x00 x00 x00 x14 x00 x00 x00))
(L (W x00 x00 x80 xbf x9c x00 x00 x00)))
(T (W x5f x4e x45 x57 x5f x4f x55 x54)
(L (W x00 x00 x80 x3f xd8 x30 xff xff)) E))
(T (W x45 x26 x22 x84 xe4 x9c xf2 xcb)
(T (W x45 x26 x22 x84 xe4 x9c xf2 xcb)
(L (W x45 x26 x22 x84 xe4 x9c xf2 xcb))
(L (W x00 x00 x00 x00 x00 x00 x00 x00)))
(T (W xf6 x28 x2f x44 x29 x5c xaa x42)
(L (W x66 x66 x16 x42 x9a x59 x4a x44)) E))))
(T (W x54 x00 x00 x00 x48 x00 x00 x00)
(T (W x1b x00 x00 x00 x57 x53 x59 x53)
(T (W x45 x26 x22 x84 xe4 x9c xf2 xcb)
(T (W x45 x26 x22 x84 xe4 x9c xf2 xcb)
(L (W x00 x00 x80 xbf x00 x00 x80 xbf))
(L (W x40 x5c xa2 x79 x32 xd6 xe1 xe0)))
(T (W x04 x00 x00 x00 x00 x00 x00 x00)
(L (W x01 x00 x00 x00 x00 x00 x80 x3f)) E))
(T (W x04 x00 x00 x00 xc0 x60 xfd xff)
(T (W x00 x00 x00 x00 xd8 xe0 xfd xff)
(L (W x1c x01 x00 x00 x01 x00 x00 x00))
(L (W x45 x26 x22 x84 xe4 x9c xf2 xcb)))
(T (W x00 x00 x00 x00 x00 x00 x00 x00)
(L (W x50 x5b xb8 xc4 x9e x89 x60 x9b)) E)))
(T (W x48 x00 x00 x00 x34 x00 x00 x00)
(T (W x01 x00 x00 x00 x04 x00 x00 x00)
(T (W xd4 xc0 xfd xff x56 xc0 xfd xff)
(L (W x00 x00 x00 x00 xd8 xc0 xfe xff))
(L (W x66 xa6 xb4 x43 x00 x00 x00 x00)))
(T (W x00 x00 x00 x00 x00 x00 x00 x00)
(L (W x7c x43 xff xff x50 x00 x00 x00)) E))
(T (W x20 x25 xbe x3a xbe x24 x75 x7b)
(T (W x00 x00 x00 x00 x00 x00 x00 x00)
(L (W x45 x26 x22 x84 xe4 x9c xf2 xcb)) E)
(T (W x04 x00 x00 x00 xf8 x82 xfe xff)
(L (W x00 x00 x00 x00 x01 x00 x00 x00)) E)))))
(T (W x00 x00 x00 x00 x01 x00 x00 x00)
(T (W x1c x01 x00 x00 x04 x00 x00 x00)
(T (W x2c x00 x00 x00 x18 x00 x00 x00)
(T (W x45 x26 x22 x84 xe4 x9c xf2 xcb)
(T (W x5f x4e x45 x57 x5f x4f x55 x54)
(L (W x00 x00 x00 x00 xd8 x98 xfe xff))
(L (W x45 x26 x22 x84 xe4 x9c xf2 xcb)))
(T (W x00 x00 x80 x3f xd8 x18 xfe xff)
(L (W x28 x00 x00 x00 x14 x00 x00 x00)) E))
(T (W x45 x26 x22 x84 xe4 x9c xf2 xcb)
(T (W x34 x00 x00 x00 x20 x00 x00 x00)
(L (W x00 x00 x00 x00 x00 x00 x00 x00))
(L (W x3c x01 x00 x00 x30 x01 x00 x00)))
(T (W x00 x00 x00 x00 x01 x00 x00 x00)
(L (W x55 x39 x81 x6a xc4 xc7 x74 x14)) E)))
(T (W x45 x26 x22 x84 xe4 x9c xf2 xcb)
(T (W x00 x00 x80 xbf x9c x00 x00 x00)
(T (W xb2 x4c xbb x28 xbf xd2 x6a x6a)
(L (W x00 x00 x00 x00 x00 x00 x00 x00))
(L (W x7c xbb xff xff x50 x00 x00 x00)))
(T (W x45 x26 x22 x84 xe4 x9c xf2 xcb)
(L (W x00 x00 x80 xbf x9c x00 x00 x00)) E))
(T (W x00 x00 x00 x00 xd8 x78 xfd xff)
(T (W x2c x00 x00 x00 x20 x00 x00 x00)
(L (W x7d xe3 xca xf8 x1d xdf x70 x9e))
(L (W x00 x00 x00 x00 x01 x00 x00 x00)))
(T (W x45 x26 x22 x84 xe4 x9c xf2 xcb)
(L (W x45 x26 x22 x84 xe4 x9c xf2 xcb)) E))))
(T (W x7c xcb xfc xff x50 x00 x00 x00)
(T (W x17 x57 xb7 x4b xbc xb7 xfd xea)
(T (W x00 x00 x00 x00 x00 x00 x00 x00)
(T (W x00 x00 x00 x00 x00 x00 x00 x00)
(L (W x45 x26 x22 x84 xe4 x9c xf2 xcb))
(L (W x00 x00 x00 x00 x00 x00 x00 x00)))
(T (W x00 x00 x00 x00 x00 x00 x00 x00)
(L (W x2c x00 x00 x00 x20 x00 x00 x00)) E))
(T (W x00 x00 x80 xbf x9c x00 x00 x00)
(T (W x60 x00 x00 x00 x54 x00 x00 x00)
(L (W x00 x00 x00 x00 xd8 xe8 xfe xff))
(L (W x00 x00 x00 x00 x00 x00 x00 x00)))
(T (W x00 x00 x00 x00 xd8 x68 xfe xff)
(L (W x45 x26 x22 x84 xe4 x9c xf2 xcb)) E)))
(T (W x02 x00 x00 x00 x31 x32 x00 x00)
(T (W x00 x00 x80 x3f x00 x00 x80 x3f)
(T (W xae xae x2f x19 x15 x0b xe6 x0b)
(L (W x00 x00 x00 x00 x00 x00 x00 x00))
(L (W x04 x00 x00 x00 x00 x00 x00 x00)))
(T (W x53 x5f x47 x41 x4e x45 x52 x41)
(L (W x45 x26 x22 x84 xe4 x9c xf2 xcb)) E))
(T (W x00 x00 x00 x00 xd8 x88 xfd xff)
(T (W x45 x26 x22 x84 xe4 x9c xf2 xcb)
(L (W x00 x00 x00 x00 x1c x00 x00 x00)) E)
(T (W x00 x00 x00 x00 x00 x00 x00 x00)
(L (W x00 x00 x00 x00 x00 x00 x00 x00)) E))))))
(T (W x45 x26 x22 x84 xe4 x9c xf2 xcb)
(T (W x00 x00 x00 x00 x00 x00 x00 x00)
(T (W x5f x4f x55 x54 x42 x52 x45 x41)
(T (W xd4 xd4 xfc xff x00 x00 x00 x00)
(T (W x00 x00 x00 x00 x01 x00 x00 x00)
(T (W x45 x26 x22 x84 xe4 x9c xf2 xcb)
(L (W x45 x26 x22 x84 xe4 x9c xf2 xcb))
(L (W x45 x26 x22 x84 xe4 x9c xf2 xcb)))
(T (W x48 x00 x00 x00 x34 x00 x00 x00)
(L (W x45 x26 x22 x84 xe4 x9c xf2 xcb)) E))
(T (W x00 x00 x00 x00 x01 x00 x00 x00)
(T (W xd4 xd4 xfd xff x56 xd4 xfd xff)
(L (W x44 x00 x00 x00 x38 x00 x00 x00))
(L (W x52 xd4 xff xff x00 x00 x80 x3f)))
(T (W x01 x00 x00 x00 x04 x00 x00 x00)
(L (W x45 x26 x22 x84 xe4 x9c xf2 xcb)) E)))
(T (W x01 x00 x00 x00 x04 x00 x00 x00)
(T (W x00 x00 x00 x00 x9a x3c xfd xff)
(T (W x45 x26 x22 x84 xe4 x9c xf2 xcb)
(L (W x00 x00 x00 x00 x00 x00 x00 x00))
(L (W x45 x26 x22 x84 xe4 x9c xf2 xcb)))
(T (W x1c x01 x00 x00 x01 x00 x00 x00)
(L (W x45 x41 x30 x32 x5f x30 x31 x31)) E))
(T (W xd4 x74 xfd xff x00 x00 x00 x00)
(T (W x00 x00 x00 x00 xd8 xf4 xfd xff)
(L (W x00 x00 x40 x40 x24 x01 x00 x00))
(L (W x00 x00 x80 xbf x00 x00 x80 xbf)))
(T (W x34 x00 x00 x00 x20 x00 x00 x00)
(L (W x34 x00 x00 x00 x20 x00 x00 x00)) E))))
(T (W x45 x26 x22 x84 xe4 x9c xf2 xcb)
(T (W x00 x00 xe0 x40 x24 x01 x00 x00)
(T (W x01 x00 x00 x00 x04 x00 x00 x00)
(T (W x01 x00 x00 x00 x04 x00 x00 x00)
(L (W x54 x00 x00 x00 x48 x00 x00 x00))
(L (W x00 x00 x00 x00 xd8 xa4 xff xff)))
(T (W x45 x26 x22 x84 xe4 x9c xf2 xcb)
(L (W x45 x26 x22 x84 xe4 x9c xf2 xcb)) E))
(T (W xd4 x64 xfd xff x56 x64 xfd xff)
(T (W x00 x00 x00 x00 x00 x00 x00 x00)
(L (W x45 x26 x22 x84 xe4 x9c xf2 xcb))
(L (W x00 x00 x00 x00 xd8 xe4 xff xff)))
(T (W xe3 x63 x55 x6c xe3 x66 x89 xfb)
(L (W x45 x26 x22 x84 xe4 x9c xf2 xcb)) E)))
(T (W x00 x00 x80 x3f xd8 x04 xfd xff)
(T (W x00 x00 x00 x00 x01 x00 x00 x00)
(T (W x00 x00 x00 x00 x00 x00 x00 x00)
(L (W xd4 xc4 xfe xff x00 x00 x00 x00))
(L (W x00 x00 x40 x40 x24 x01 x00 x00)))
(T (W x45 x26 x22 x84 xe4 x9c xf2 xcb)
(L (W x00 x00 x00 x00 x00 x00 x00 x00)) E))
(T (W x45 x26 x22 x84 xe4 x9c xf2 xcb)
(T (W x01 x00 x00 x00 x00 x00 x80 x3f)
(L (W x74 x00 x00 x00 x68 x00 x00 x00)) E)
(T (W x52 x84 xfe xff x0a x37 x8f x43)
(L (W x00 x00 x00 x00 x56 x84 xff xff)) E)))))
(T (W x49 xa1 x68 x4a xeb x5f xdd x3d)
(T (W xd6 x09 x52 xb1 xff x4f xc6 x96)
(T (W x52 xdc xfc xff x29 x9c xcf x43)
(T (W x45 x26 x22 x84 xe4 x9c xf2 xcb)
(T (W x34 x00 x00 x00 x20 x00 x00 x00)
(L (W x52 x9c xfe xff x00 x00 x80 x3f))
(L (W x1c x01 x00 x00 x01 x00 x00 x00)))
(T (W x00 x00 x40 x40 x24 x01 x00 x00)
(L (W x00 x00 x00 x00 x00 x00 x00 x00)) E))
(T (W x00 x00 x00 x00 x00 x00 x00 x00)
(T (W x00 x00 x00 x00 x01 x00 x00 x00)
(L (W x00 x00 x80 x3f x00 x00 x80 x3f))
(L (W xbd x18 x09 x7b xba x24 xf9 xfd)))
(T (W x00 x00 x80 x3f xd8 x5c xfe xff)
(L (W x00 x00 x00 x00 x00 x00 x00 x00)) E)))
(T (W x00 x00 x00 x00 xd8 xfc xfc xff)
(T (W x04 x00 x00 x00 x00 x00 x00 x00)
(T (W x48 x00 x00 x00 x34 x00 x00 x00)
(L (W x00 x00 x00 x00 x01 x00 x00 x00))
(L (W x04 x00 x00 x00 xf8 xbe xff xff)))
(T (W x45 x26 x22 x84 xe4 x9c xf2 xcb)
(L (W x40 x00 x00 x00 x38 x00 x00 x00)) E))
(T (W xcd xcc x50 x44 x00 x00 x00 x00)
(T (W x04 x00 x00 x00 xf8 xfe xfd xff)
(L (W x45 x26 x22 x84 xe4 x9c xf2 xcb))
(L (W x96 xda x1b x72 x9d x0a xa7 xbe)))
(T (W x45 x26 x22 x84 xe4 x9c xf2 xcb)
(L (W x29 x9b xaa x28 xbf xcd x56 x6a)) E))))
(T (W x7c xcf xfc xff x50 x00 x00 x00)
(T (W x04 x00 x00 x00 x12 xf2 xfc xff)
(T (W x00 x00 x00 x00 x00 x00 x00 x00)
(T (W xd4 xac xfd xff x56 xac xfd xff)
(L (W x00 x00 x00 x00 x00 x00 x00 x00))
(L (W xe1 x1a x97 x43 x3d x0a x22 x42)))
(T (W x55 x6c xfc xf1 x99 x9e xc9 x88)
(L (W x60 x00 x00 x00 x54 x00 x00 x00)) E))
(T (W x04 x00 x00 x00 x00 x00 x00 x00)
(T (W x00 x00 x00 x00 x00 x00 x00 x00)
(L (W x00 x00 x00 x00 x00 x00 x00 x00))
(L (W xd4 xec xff xff x00 x00 x00 x00)))
(T (W x00 x00 x00 x00 x00 x00 x00 x00)
(L (W x74 x00 x00 x00 x68 x00 x00 x00)) E)))
(T (W x3c x01 x00 x00 x30 x01 x00 x00)
(T (W x00 x00 x80 xbf x9c x00 x00 x00)
(T (W x45 x26 x22 x84 xe4 x9c xf2 xcb)
(L (W x34 x00 x00 x00 x20 x00 x00 x00))
(L (W x00 x00 x00 x00 xd8 xcc xff xff)))
(T (W x00 x00 xa0 x40 x24 x01 x00 x00)
(L (W x01 x00 x00 x00 x00 x00 x80 x3f)) E))
(T (W x45 x26 x22 x84 xe4 x9c xf2 xcb)
(T (W x45 x26 x22 x84 xe4 x9c xf2 xcb)
(L (W x00 x00 x80 xbf x9c x00 x00 x00)) E)
(T (W x04 x00 x00 x00 x00 x00 x00 x00)
(L (W x00 x00 x00 x00 x01 x00 x00 x00)) E)))))))
(T (W xd4 xb5 x00 x00 x08 xb4 x00 x00)
(T (W x45 x26 x22 x84 xe4 x9c xf2 xcb)
(T (W x45 x26 x22 x84 xe4 x9c xf2 xcb)
(T (W x00 x00 x00 x00 x00 x00 x00 x00)
(T (W x00 x00 x00 x00 x00 x00 x00 x00)
(T (W x45 x26 x22 x84 xe4 x9c xf2 xcb)
(T (W x48 x00 x00 x00 x34 x00 x00 x00)
(L (W x2c x00 x00 x00 x20 x00 x00 x00))
(L (W x2c x00 x00 x00 x20 x00 x00 x00)))
(T (W x00 x00 x00 x00 x00 x00 x00 x00)
(L (W xd4 x12 xff xff x00 x00 x00 x00)) E))
(T (W x00 x00 x00 x00 x01 x00 x00 x00)
(T (W x5c x00 x00 x00 x50 x00 x00 x00)
(L (W x00 x00 x00 x00 xd8 xd2 xfe xff))
(L (W x04 x00 x00 x00 xf8 xd4 xff xff)))
(T (W x45 x26 x22 x84 xe4 x9c xf2 xcb)
(L (W x00 x00 x00 x00 xd8 x52 xff xff)) E)))
(T (W x00 x00 x00 x00 xd8 xf2 xfc xff)
(T (W x00 x00 x00 x00 x00 x00 x00 x00)
(T (W x04 x00 x00 x00 x12 xb8 xfd xff)
(L (W x00 x80 x34 x43 x00 x00 x00 x00))
(L (W x00 x00 x00 x00 x01 x00 x00 x00)))
(T (W x00 x00 x00 x00 x9a x3a xfe xff)
(L (W x00 x00 x00 x00 x00 x00 x00 x00)) E))
(T (W x45 x26 x22 x84 xe4 x9c xf2 xcb)
(T (W x45 x26 x22 x84 xe4 x9c xf2 xcb)
(L (W xa4 x70 x7c x43 x00 x00 x00 x00))
(L (W x5f x30 x32 x35 x00 x00 x00 x00)))
(T (W x3c x01 x00 x00 x30 x01 x00 x00)
(L (W x82 x76 xff xff x40 x01 x00 x00)) E))))
(T (W x45 x26 x22 x84 xe4 x9c xf2 xcb)
(T (W x5f x41 x52 x45 x41 x30 x32 x00)
(T (W x45 x26 x22 x84 xe4 x9c xf2 xcb)
(T (W x00 x00 x00 x00 xd8 xa2 xfd xff)
(L (W x40 xbc xb0 xef x1d xf9 xf3 x8d))
(L (W x40 x00 x00 x00 x38 x00 x00 x00)))
(T (W x54 x00 x00 x00 x48 x00 x00 x00)
(L (W x00 x00 x00 x00 x01 x00 x00 x00)) E))
(T (W x55 x6c xfc xf1 x99 x9e xc9 x88)
(T (W xe9 x88 xd4 x61 xf7 xdd xb2 x83)
(L (W x45 x26 x22 x84 xe4 x9c xf2 xcb))
(L (W x45 x26 x22 x84 xe4 x9c xf2 xcb)))
(T (W x00 x00 xa0 x40 x24 x01 x00 x00)
(L (W x54 x00 x00 x00 x48 x00 x00 x00)) E)))
(T (W x4f x84 x6f x8b xe8 xcb x63 xb7)
(T (W x00 x00 x00 x00 x00 x00 x00 x00)
(T (W x00 x00 x00 x00 x00 x00 x00 x00)
(L (W x45 x26 x22 x84 xe4 x9c xf2 xcb))
(L (W x00 x00 x00 x00 x00 x00 x00 x00)))
(T (W x48 x00 x00 x00 x34 x00 x00 x00)
(L (W x00 x00 x00 x00 x00 x00 x00 x00)) E))
(T (W x40 x00 x00 x00 x38 x00 x00 x00)
(T (W x3c x01 x00 x00 x30 x01 x00 x00)
(L (W x00 x00 x00 x00 x00 x00 x00 x00)) E)
(T (W x00 x00 x00 x00 x56 x82 xfe xff)
(L (W x44 x00 x00 x00 x30 x00 x00 x00)) E)))))
(T (W x5c x00 x00 x00 x50 x00 x00 x00)
(T (W x00 x00 x80 xbf x9c x00 x00 x00)
(T (W x00 x00 x00 x00 x56 xda xfc xff)
(T (W x45 x26 x22 x84 xe4 x9c xf2 xcb)
(T (W x00 x00 x00 x00 x9a xa2 xfd xff)
(L (W x04 x00 x00 x00 xf8 x9c xfe xff))
(L (W x00 x00 x00 x00 x00 x00 x00 x00)))
(T (W x00 x00 x00 x00 x00 x00 x00 x00)
(L (W x00 x00 x80 x3f x00 x00 x80 x3f)) E))
(T (W x01 x00 x00 x00 x04 x00 x00 x00)
(T (W x45 x26 x22 x84 xe4 x9c xf2 xcb)
(L (W x60 x00 x00 x00 x54 x00 x00 x00))
(L (W x1d xc5 x94 x16 x1e x58 xd3 xd2)))
(T (W x5c x00 x00 x00 x50 x00 x00 x00)
(L (W x00 x00 x80 x3f x00 x00 x80 x3f)) E)))
(T (W x00 x00 x00 x00 x00 x00 x00 x00)
(T (W xc4 x7c x47 xae xf7 xde x93 xed)
(T (W x00 x00 x00 x00 x00 x00 x00 x00)
(L (W x00 x00 x80 xbf x00 x00 x80 xbf))
(L (W x00 x00 x00 x00 x00 x00 x00 x00)))
(T (W xd4 x3a xfe xff x00 x00 x00 x00)
(L (W x69 x1d x71 x64 x2b x77 x7d x7a)) E))
(T (W x28 x00 x00 x00 x14 x00 x00 x00)
(T (W x00 x00 x00 x00 x00 x00 x00 x00)
(L (W x54 x00 x00 x00 x48 x00 x00 x00))
(L (W x3c x00 x04 x00 x08 x00 x00 x00)))
(T (W xd4 x7a xfe xff x00 x00 x00 x00)
(L (W x00 x00 x00 x00 xd8 x7a xff xff)) E))))
(T (W x86 x4a x2b x97 x85 x98 x55 x5f)
(T (W x00 x00 x00 x00 x01 x00 x00 x00)
(T (W x00 x00 x00 x00 x00 x00 x00 x00)
(T (W x5c x00 x00 x00 x50 x00 x00 x00)
(L (W x2c x00 x00 x00 x20 x00 x00 x00))
(L (W x44 x00 x00 x00 x30 x00 x00 x00)))
(T (W x5c x00 x00 x00 x50 x00 x00 x00)
(L (W x00 x00 x00 x00 x00 x00 x00 x00)) E))
(T (W x36 xd8 x9f xb5 xe2 x92 x8b x9f)
(T (W x45 x26 x22 x84 xe4 x9c xf2 xcb)
(L (W x01 x00 x00 x00 x04 x00 x00 x00))
(L (W x00 x00 x00 x00 x00 x00 x00 x00)))
(T (W x85 x8d xa7 x28 xbf x4e x53 x6a)
(L (W xd4 x6a xff xff x00 x00 x00 x00)) E)))
(T (W x4e x45 x52 x41 x54 x49 x4f x4e)
(T (W x00 x00 x00 x00 x00 x00 x00 x00)
(T (W x54 x00 x00 x00 x48 x00 x00 x00)
(L (W x41 x30 x32 x00 x9a xd2 xfe xff))
(L (W x40 x00 x00 x00 x38 x00 x00 x00)))
(T (W x54 x49 x4f x4e x5f x41 x52 x45)
(L (W x00 x00 x00 x00 x00 x00 x00 x00)) E))
(T (W x44 x00 x00 x00 x38 x00 x00 x00)
(T (W x00 x00 x00 x00 x01 x00 x00 x00)
(L (W x00 x00 xa0 x40 x24 x01 x00 x00)) E)
(T (W x00 x00 x80 xbf x00 x00 x80 xbf)
(L (W x01 x00 x00 x00 x00 x00 x80 x3f)) E))))))
(T (W x00 x00 x00 x00 xd8 x9e xfc xff)
(T (W x00 x00 x00 x00 x00 x00 x00 x00)
(T (W xca x9a xff xff x00 x00 x00 x01)
(T (W x78 x00 x00 x00 x6c x00 x00 x00)
(T (W x40 x00 x00 x00 x38 x00 x00 x00)
(T (W x00 x00 x00 x00 x00 x00 x00 x00)
(L (W x00 x00 x00 x00 x00 x00 x00 x00))
(L (W xd4 x96 xff xff x00 x00 x00 x00)))
(T (W x55 x6c xfc xf1 x99 x9e xc9 x88)
(L (W x00 x00 x00 x00 xd8 x16 xff xff)) E))
(T (W x40 x00 x00 x00 x38 x00 x00 x00)
(T (W x00 x00 x00 x00 x9a xde xfd xff)
(L (W x45 x26 x22 x84 xe4 x9c xf2 xcb))
(L (W x00 x00 x00 x00 x00 x00 x00 x00)))
(T (W x00 x00 x00 x00 x00 x00 x00 x00)
(L (W xd4 x56 xff xff x00 x00 x00 x00)) E)))
(T (W x2c x00 x00 x00 x20 x00 x00 x00)
(T (W x01 x00 x00 x00 x01 x00 x00 x00)
(T (W x00 x00 x00 x00 xd8 xb6 xfd xff)
(L (W x00 x00 x00 x00 x00 x00 x00 x00))
(L (W x45 x26 x22 x84 xe4 x9c xf2 xcb)))
(T (W x45 x26 x22 x84 xe4 x9c xf2 xcb)
(L (W x00 x00 xa0 x40 x24 x01 x00 x00)) E))
(T (W x45 x26 x22 x84 xe4 x9c xf2 xcb)
(T (W x01 x00 x00 x00 x04 x00 x00 x00)
(L (W x00 x00 x80 xbf x00 x00 x80 xbf))
(L (W x04 x00 x00 x00 x00 x00 x00 x00)))
(T (W x04 x00 x00 x00 x12 x7c xfe xff)
(L (W x96 xda x1b x72 x9d x0a xa7 xbe)) E))))
(T (W xd4 xc6 xfc xff x00 x00 x00 x00)
(T (W x00 x00 x80 xbf x00 x00 x80 xbf)
(T (W x44 x00 x00 x00 x38 x00 x00 x00)
(T (W x2c x00 x00 x00 x20 x00 x00 x00)
(L (W x45 x26 x22 x84 xe4 x9c xf2 xcb))
(L (W x19 xd6 xac x28 xbf xd0 x59 x6a)))
(T (W x2c x00 x00 x00 x20 x00 x00 x00)
(L (W x00 x00 x00 x00 xd8 x26 xff xff)) E))
(T (W x00 x00 x00 x00 x9a x6e xfd xff)
(T (W x00 x00 x00 x00 x01 x00 x00 x00)
(L (W x45 x26 x22 x84 xe4 x9c xf2 xcb))
(L (W xec x5f x6c x12 x83 xf2 x3a xc6)))
(T (W x40 x00 x00 x00 x38 x00 x00 x00)
(L (W x44 x00 x00 x00 x38 x00 x00 x00)) E)))
(T (W x00 x00 x00 x00 x00 x00 x00 x00)
(T (W x55 x39 x81 x6a xc4 xc7 x74 x14)
(T (W x3c x01 x00 x00 x30 x01 x00 x00)
(L (W x45 x26 x22 x84 xe4 x9c xf2 xcb))
(L (W x00 x00 x80 xbf x00 x00 x80 xbf)))
(T (W x00 x00 x00 x00 x00 x00 x00 x00)
(L (W x48 x00 x00 x00 x34 x00 x00 x00)) E))
(T (W x45 x26 x22 x84 xe4 x9c xf2 xcb)
(T (W x34 x00 x00 x00 x20 x00 x00 x00)
(L (W x00 x00 x80 x3f x00 x00 x80 x3f)) E)
(T (W x3d x8a x84 x43 xe1 x7a x18 x42)
(L (W x52 x86 xff xff xae x07 x8a x43)) E)))))
(T (W x00 x00 x80 x3f x00 x00 x80 x3f)
(T (W x04 x00 x00 x00 x00 x00 x00 x00)
(T (W x00 x00 x00 x00 x00 x00 x00 x00)
(T (W x45 x26 x22 x84 xe4 x9c xf2 xcb)
(T (W x04 x00 x00 x00 x12 xa4 xfd xff)
(L (W x00 x00 x00 x00 x00 x00 x00 x00))
(L (W x00 x00 x80 xbf x9c x00 x00 x00)))
(T (W x11 xa9 xdb x82 xd9 xd2 x17 x42)
(L (W x00 x00 x00 x00 x9a x26 xff xff)) E))
(T (W x45 x41 x30 x32 x5f x30 x30 x38)
(T (W x40 x00 x00 x00 x38 x00 x00 x00)
(L (W x33 x31 x00 x00 x1b x00 x00 x00))
(L (W x04 x00 x00 x00 x12 xe4 xff xff)))
(T (W x00 x00 x00 x00 x00 x00 x00 x00)
(L (W x00 x00 x80 x40 x24 x01 x00 x00)) E)))
(T (W x04 x00 x00 x00 xc0 xfe xfc xff)
(T (W x45 x26 x22 x84 xe4 x9c xf2 xcb)
(T (W x55 x6c xfc xf1 x99 x9e xc9 x88)
(L (W x45 x26 x22 x84 xe4 x9c xf2 xcb))
(L (W x52 xbe xff xff x00 x00 x80 x3f)))
(T (W x00 x00 x00 x00 x00 x00 x00 x00)
(L (W x45 x26 x22 x84 xe4 x9c xf2 xcb)) E))
(T (W x00 x00 xa0 x40 x24 x01 x00 x00)
(T (W x52 xfe xfd xff x00 x00 x80 x3f)
(L (W x2c x00 x00 x00 x20 x00 x00 x00))
(L (W x00 x00 x80 xbf xb0 x00 x00 x00)))
(T (W x00 x00 x00 x00 xd8 x7e xfe xff)
(L (W x00 x00 x00 x00 x00 x00 x00 x00)) E))))
(T (W x20 x47 x2b x97 x85 x96 x55 x5f)
(T (W x45 x26 x22 x84 xe4 x9c xf2 xcb)
(T (W x78 x00 x00 x00 x6c x00 x00 x00)
(T (W x00 x00 x00 x00 x9a xb6 xfd xff)
(L (W xd4 xae xfe xff x00 x00 x00 x00))
(L (W x72 xd2 xff xff x00 x00 x00 x01)))
(T (W xae x67 x4e x44 xf6 x28 x28 x42)
(L (W xd6 x81 x9c x94 x9b x27 x57 x25)) E))
(T (W x54 x00 x00 x00 x48 x00 x00 x00)
(T (W x1c x01 x00 x00 x01 x00 x00 x00)
(L (W x00 x00 x00 x00 x01 x00 x00 x00))
(L (W x45 x26 x22 x84 xe4 x9c xf2 xcb)))
(T (W x44 x00 x00 x00 x30 x00 x00 x00)
(L (W x00 x00 x80 x3f x00 x00 x80 x3f)) E)))
(T (W x04 x00 x00 x00 x00 x00 x80 x3f)
(T (W x3a xaa xc4 xb3 x30 xae xcf xf8)
(T (W x2c x00 x00 x00 x20 x00 x00 x00)
(L (W x04 x00 x00 x00 x12 xd4 xfe xff))
(L (W xe5 xdc xac x28 xbf xd4 x59 x6a)))
(T (W xfe x83 x40 x1a xb3 x46 x27 x6a)
(L (W x00 x00 x00 x00 x01 x00 x00 x00)) E))
(T (W x00 x00 x00 x00 x00 x00 x00 x00)
(T (W x00 x00 x00 x00 xd8 x0e xfe xff)
(L (W x00 x00 x00 x00 x01 x00 x00 x00)) E)
(T (W x54 x00 x00 x00 x48 x00 x00 x00)
(L (W x45 x26 x22 x84 xe4 x9c xf2 xcb)) E))))))))
(T (W xc8 x19 x02 x00 xe0 x17 x02 x00)
(T (W x44 x2d x01 x00 x54 x2b x01 x00)
(T (W x52 x99 xfc xff x00 x00 x80 x3f)
(T (W x5f x30 x32 x32 x00 x00 x00 x00)
(T (W x00 x00 x00 x00 xd8 xb1 xfc xff)
(T (W x04 x00 x00 x00 x00 x00 x80 x3f)
(T (W xd4 x11 xfd xff x00 x00 x00 x00)
(T (W x04 x00 x00 x00 x00 x00 x00 x00)
(L (W x00 x00 x00 x00 x00 x00 x00 x00))
(L (W x57 x53 x59 x53 x5f x4d x41 x53)))
(T (W x00 x00 x80 xbf x00 x00 x80 xbf)
(L (W x1f xc5 xd5 x43 x00 x00 x00 x00)) E))
(T (W x04 x00 x00 x00 xf8 x53 xfd xff)
(T (W x00 x00 x00 x00 x01 x00 x00 x00)
(L (W x00 x00 x00 x00 x00 x00 x00 x00))
(L (W x41 x52 x06 x48 x81 xae x72 x63)))
(T (W x00 x00 x00 x00 x56 x51 xfe xff)
(L (W xd4 x51 xff xff x56 x51 xff xff)) E)))
(T (W x7b x14 x3e x42 x8f x52 x07 x44)
(T (W x45 x26 x22 x84 xe4 x9c xf2 xcb)
(T (W xd4 xb1 xfd xff x00 x00 x00 x00)
(L (W x45 x26 x22 x84 xe4 x9c xf2 xcb))
(L (W x00 x00 x00 x00 xd8 xb1 xff xff)))
(T (W x2c x00 x00 x00 x20 x00 x00 x00)
(L (W x45 x26 x22 x84 xe4 x9c xf2 xcb)) E))
(T (W x00 x00 x80 x3f xd8 x71 xfd xff)
(T (W x74 x00 x00 x00 x68 x00 x00 x00)
(L (W x45 x26 x22 x84 xe4 x9c xf2 xcb))
(L (W x44 x00 x00 x00 x38 x00 x00 x00)))
(T (W x01 x00 x00 x00 x04 x00 x00 x00)
(L (W x01 x00 x00 x00 x04 x00 x00 x00)) E))))
(T (W x4f x84 x6f x8b xe8 xcb x63 xb7)
(T (W x44 x00 x00 x00 x38 x00 x00 x00)
(T (W xcd xcc x80 x42 x3d xea xff x43)
(T (W x14 xbe x6a x44 x00 x00 x00 x00)
(L (W x00 x00 x00 x00 x00 x00 x00 x00))
(L (W x04 x00 x00 x00 xf8 xa3 xff xff)))
(T (W x48 x00 x00 x00 x34 x00 x00 x00)
(L (W x00 x00 x00 x00 x00 x00 x00 x00)) E))
(T (W x54 x00 x00 x00 x48 x00 x00 x00)
(T (W x00 x00 x00 x00 x00 x00 x00 x00)
(L (W x00 x00 x00 x00 x00 x00 x00 x00))
(L (W x00 x00 x80 x3f x00 x00 x80 x3f)))
(T (W x7c x64 xfe xff x50 x00 x00 x00)
(L (W x04 x00 x00 x00 xc0 x61 xff xff)) E)))
(T (W x54 x00 x00 x00 x48 x00 x00 x00)
(T (W x3c x01 x00 x00 x30 x01 x00 x00)
(T (W x45 x26 x22 x84 xe4 x9c xf2 xcb)
(L (W x00 x00 x00 x00 x9a xc9 xfe xff))
(L (W xd4 xc1 xff xff x00 x00 x00 x00)))
(T (W x04 x00 x00 x00 x00 x00 x00 x00)
(L (W x00 x00 xa0 x40 x24 x01 x00 x00)) E))
(T (W x04 x00 x00 x00 xf8 x83 xfd xff)
(T (W x6c x88 xa7 x28 xbf x4b x53 x6a)
(L (W x1c x01 x00 x00 x01 x00 x00 x00)) E)
(T (W x40 x00 x00 x00 x38 x00 x00 x00)
(L (W x04 x00 x00 x00 x00 x00 x00 x00)) E)))))
(T (W x00 x00 x00 x00 x01 x00 x00 x00)
(T (W x00 x00 x00 x00 x00 x00 x00 x00)
(T (W x40 x00 x00 x00 x38 x00 x00 x00)
(T (W x52 x19 xfd xff x52 xb8 x9f x43)
(T (W x2c x00 x00 x00 x20 x00 x00 x00)
(L (W x43 x25 x6d x09 x85 xe8 x33 x18))
(L (W x45 x26 x22 x84 xe4 x9c xf2 xcb)))
(T (W xd4 x19 xfe xff x00 x00 x00 x00)
(L (W x45 x26 x22 x84 xe4 x9c xf2 xcb)) E))
(T (W xcd x8c x20 x44 xa4 x70 x18 x42)
(T (W xd4 xd9 xfd xff x00 x00 x00 x00)
(L (W x00 x00 x00 x00 x01 x00 x00 x00))
(L (W x00 x00 x00 x00 x00 x00 x00 x00)))
(T (W x00 x00 x00 x00 x01 x00 x00 x00)
(L (W x45 x26 x22 x84 xe4 x9c xf2 xcb)) E)))
(T (W x1c x01 x00 x00 x04 x00 x00 x00)
(T (W x00 x00 x00 x00 xd8 x39 xfd xff)
(T (W x00 x00 x80 xbf x00 x00 x80 xbf)
(L (W x45 x26 x22 x84 xe4 x9c xf2 xcb))
(L (W x00 x00 xc0 x40 x24 x01 x00 x00)))
(T (W x00 x00 x80 x3f x00 x00 x80 x3f)
(L (W x00 x00 x00 x00 xd8 x39 xff xff)) E))
(T (W x00 x00 x00 x00 x01 x00 x00 x00)
(T (W x01 x00 x00 x00 x01 x00 x00 x00)
(L (W x00 x00 x00 x00 x01 x00 x00 x00))
(L (W x2c x00 x00 x00 x18 x00 x00 x00)))
(T (W x00 x00 x80 x3f x00 x00 x80 x3f)
(L (W x00 x00 x80 x3f x00 x00 x80 x3f)) E))))
(T (W x4b x5f x41 x52 x45 x41 x30 x32)
(T (W x00 x00 x00 x00 x01 x00 x00 x00)
(T (W x34 x01 x00 x00 x02 x00 x00 x00)
(T (W x00 x00 x00 x00 x01 x00 x00 x00)
(L (W x00 x00 x00 x00 x00 x00 x00 x00))
(L (W x04 x00 x00 x00 x00 x00 x00 x00)))
(T (W x00 x00 x00 x00 x01 x00 x00 x00)
(L (W x01 x00 x00 x00 x00 x00 x80 x3f)) E))
(T (W x00 x00 x00 x00 xd8 x69 xfd xff)
(T (W x04 x00 x00 x00 x12 xef xfd xff)
(L (W x00 x00 x00 x00 x00 x00 x00 x00))
(L (W x00 x00 x80 x3f x01 x00 x00 x00)))
(T (W x00 x00 x00 x00 x00 x00 x00 x00)
(L (W x34 x00 x00 x00 x20 x00 x00 x00)) E)))
(T (W x7c x0c xfd xff x50 x00 x00 x00)
(T (W xd4 x49 xfd xff x00 x00 x00 x00)
(T (W x00 x00 x00 x00 x01 x00 x00 x00)
(L (W x44 x00 x00 x00 x38 x00 x00 x00))
(L (W x44 x00 x00 x00 x30 x00 x00 x00)))
(T (W x0f x56 x48 xdc x00 x5c x59 x2f)
(L (W x45 x26 x22 x84 xe4 x9c xf2 xcb)) E))
(T (W x1c x00 x00 x00 x46 x53 x59 x53)
(T (W x74 x00 x00 x00 x68 x00 x00 x00)
(L (W x7c x0c xff xff x50 x00 x00 x00)) E)
(T (W x86 x3c x45 xdc x00 xd6 x55 x2f)
(L (W x2c x00 x00 x00 x20 x00 x00 x00)) E))))))
(T (W x00 x00 x00 x00 x00 x00 x00 x00)
(T (W x00 x00 x80 xbf x00 x00 x80 xbf)
(T (W x2c x00 x00 x00 x20 x00 x00 x00)
(T (W x45 x26 x22 x84 xe4 x9c xf2 xcb)
(T (W x2c x00 x00 x00 x18 x00 x00 x00)
(T (W x45 x26 x22 x84 xe4 x9c xf2 xcb)
(L (W x1c x01 x00 x00 x01 x00 x00 x00))
(L (W x34 x00 x00 x00 x20 x00 x00 x00)))
(T (W x54 x00 x00 x00 x48 x00 x00 x00)
(L (W x00 x00 x80 xbf x9c x00 x00 x00)) E))
(T (W x28 x00 x00 x00 x14 x00 x00 x00)
(T (W x00 x00 x00 x00 xd8 xd5 xfd xff)
(L (W x5f x30 x32 x32 x00 x00 x00 x00))
(L (W x00 x00 x00 x00 xd8 xd5 xff xff)))
(T (W x3c x01 x00 x00 x30 x01 x00 x00)
(L (W x34 x00 x00 x00 x20 x00 x00 x00)) E)))
(T (W x5f x4d x41 x53 x53 x5f x47 x41)
(T (W x45 x26 x22 x84 xe4 x9c xf2 xcb)
(T (W x00 x00 x09 x42 x48 xe1 x63 x44)
(L (W x00 x00 x00 x00 xd8 xb5 xfe xff))
(L (W x52 xb8 x22 x42 x3d x5a x18 x44)))
(T (W x00 x00 x00 x00 x00 x00 x00 x00)
(L (W x45 x26 x22 x84 xe4 x9c xf2 xcb)) E))
(T (W x00 x00 x00 x00 x00 x00 x00 x00)
(T (W x00 x00 x00 x00 x00 x00 x00 x00)
(L (W x00 x00 x00 x00 x00 x00 x00 x00))
(L (W x00 x00 x00 x00 x00 x00 x00 x00)))
(T (W xd4 x75 xfe xff x00 x00 x00 x00)
(L (W xd4 x75 xff xff x00 x00 x00 x00)) E))))
(T (W x00 x00 x00 x00 x00 x00 x00 x00)
(T (W x00 x00 x00 x00 x00 x00 x00 x00)
(T (W x04 x00 x00 x00 xe2 x97 x8f x3d)
(T (W x5f x4e x45 x57 x5f x4f x55 x54)
(L (W x55 x6c xfc xf1 x99 x9e xc9 x88))
(L (W x00 x00 x00 x00 x00 x00 x00 x00)))
(T (W x00 x00 x00 x00 x00 x00 x00 x00)
(L (W xd4 x25 xff xff x56 x25 xff xff)) E))
(T (W x00 x00 x00 x00 xd8 x65 xfd xff)
(T (W x40 xa6 xf6 x13 x15 x4b xdd x02)
(L (W x00 x00 x80 x3f x00 x00 x80 x3f))
(L (W x00 x00 x00 x00 x00 x00 x00 x00)))
(T (W x04 x00 x00 x00 xf8 x67 xfe xff)
(L (W x00 x00 x00 x00 x00 x00 x00 x00)) E)))
(T (W x45 x26 x22 x84 xe4 x9c xf2 xcb)
(T (W x04 x00 x00 x00 x12 x4b xfd xff)
(T (W x85 x80 x02 x4c x84 x1f x7f x61)
(L (W x04 x00 x00 x00 x12 xcb xfe xff))
(L (W x00 x00 x00 x00 x00 x00 x00 x00)))
(T (W x45 x26 x22 x84 xe4 x9c xf2 xcb)
(L (W x04 x00 x00 x00 x00 x00 x00 x00)) E))
(T (W x52 x85 xfd xff x9a x59 xc8 x43)
(T (W x00 x00 x00 x00 x00 x00 x00 x00)
(L (W x45 x26 x22 x84 xe4 x9c xf2 xcb)) E)
(T (W x45 x26 x22 x84 xe4 x9c xf2 xcb)
(L (W x45 x26 x22 x84 xe4 x9c xf2 xcb)) E)))))
(T (W x45 x26 x22 x84 xe4 x9c xf2 xcb)
(T (W x04 x00 x00 x00 xf8 xbf xfc xff)
(T (W x45 x26 x22 x84 xe4 x9c xf2 xcb)
(T (W xcd xec x8a x43 xc3 xf5 x68 x42)
(T (W xd4 x9d xfd xff x00 x00 x00 x00)
(L (W x00 x00 x00 x00 xd8 x9d xfe xff))
(L (W x00 x00 x00 x00 x00 x00 x00 x00)))
(T (W x00 x00 x00 x00 x00 x00 x00 x00)
(L (W x00 x00 x00 x00 xd8 x1d xff xff)) E))
(T (W x44 xe3 xaa x00 x15 x36 x9a xe0)
(T (W x2c x00 x00 x00 x18 x00 x00 x00)
(L (W xd4 xdd xfe xff x00 x00 x00 x00))
(L (W x00 x00 x00 x00 x01 x00 x00 x00)))
(T (W x45 x26 x22 x84 xe4 x9c xf2 xcb)
(L (W x7c x60 xff xff x50 x00 x00 x00)) E)))
(T (W xd9 x44 xcc xb4 x5c x96 x90 x41)
(T (W x44 x00 x00 x00 x30 x00 x00 x00)
(T (W x54 x00 x00 x00 x48 x00 x00 x00)
(L (W x5c x00 x00 x00 x50 x00 x00 x00))
(L (W x40 x00 x00 x00 x38 x00 x00 x00)))
(T (W x00 x00 x40 x40 x24 x01 x00 x00)
(L (W x52 x3d xff xff x00 x00 x80 x3f)) E))
(T (W x7c x80 xfd xff x50 x00 x00 x00)
(T (W x40 x00 x00 x00 x38 x00 x00 x00)
(L (W x00 x00 x00 x00 x00 x00 x00 x00))
(L (W x00 x00 x00 x00 x01 x00 x00 x00)))
(T (W x00 x00 x80 xbf x9c x00 x00 x00)
(L (W x3c x01 x00 x00 x30 x01 x00 x00)) E))))
(T (W x4e x45 x52 x41 x54 x49 x4f x4e)
(T (W xd6 x81 x9c x94 x9b x27 x57 x25)
(T (W x45 x26 x22 x84 xe4 x9c xf2 xcb)
(T (W x00 x00 x00 x00 xd8 xad xfd xff)
(L (W x34 x00 x00 x00 x20 x00 x00 x00))
(L (W x01 x00 x00 x00 x04 x00 x00 x00)))
(T (W x45 x26 x22 x84 xe4 x9c xf2 xcb)
(L (W x04 x00 x00 x00 x12 x33 xff xff)) E))
(T (W x48 x00 x00 x00 x34 x00 x00 x00)
(T (W x44 x00 x00 x00 x38 x00 x00 x00)
(L (W xf1 x8e x83 xf3 x1d x36 x57 x95))
(L (W x04 x00 x00 x00 x12 xf3 xff xff)))
(T (W x04 x00 x00 x00 x00 x00 x00 x00)
(L (W x45 x26 x22 x84 xe4 x9c xf2 xcb)) E)))
(T (W x00 x00 x00 x00 x00 x00 x00 x00)
(T (W x00 x00 x00 x00 xd8 x4d xfd xff)
(T (W x00 x00 x00 x00 x00 x00 x00 x00)
(L (W xd4 xcd xfe xff x00 x00 x00 x00))
(L (W x00 x00 x00 x00 x00 x00 x00 x00)))
(T (W x00 x00 x00 x00 x00 x00 x00 x00)
(L (W x00 x00 x00 x00 x00 x00 x00 x00)) E))
(T (W x00 x00 x40 x40 x24 x01 x00 x00)
(T (W x52 x0d xfe xff xcd x6c x47 x44)
(L (W x00 x00 x00 x00 xd8 x0d xff xff)) E)
(T (W x48 x00 x00 x00 x34 x00 x00 x00)
(L (W x5c x00 x00 x00 x50 x00 x00 x00)) E)))))))
(T (W xc8 x3b x00 x00 xdc x39 x00 x00)
(T (W x00 x80 x02 x44 xe1 x7a xe5 x42)
(T (W x00 x00 xe0 x40 x24 x01 x00 x00)
(T (W x01 x00 x00 x00 x04 x00 x00 x00)
(T (W x34 x00 x00 x00 x20 x00 x00 x00)
(T (W x78 x00 x00 x00 x6c x00 x00 x00)
(T (W x54 x00 x00 x00 x48 x00 x00 x00)
(L (W x00 x00 x00 x00 x9a x9b xfe xff))
(L (W x00 x00 x00 x00 x9a x9b xff xff)))
(T (W x04 x00 x00 x00 x00 x00 x00 x00)
(L (W x00 x00 x00 x00 x00 x00 x00 x00)) E))
(T (W x78 x00 x00 x00 x6c x00 x00 x00)
(T (W x45 x26 x22 x84 xe4 x9c xf2 xcb)
(L (W x1c x00 x00 x00 x46 x53 x59 x53))
(L (W x40 x00 x00 x00 x38 x00 x00 x00)))
(T (W x3d x6a x53 x44 x71 x3d x87 x42)
(L (W x00 x00 x00 x00 x9a x5b xff xff)) E)))
(T (W x00 x00 x00 x00 x00 x00 x00 x00)
(T (W x2c x00 x00 x00 x20 x00 x00 x00)
(T (W x45 x26 x22 x84 xe4 x9c xf2 xcb)
(L (W xd4 xb3 xfe xff x00 x00 x00 x00))
(L (W x28 x00 x00 x00 x14 x00 x00 x00)))
(T (W x45 x26 x22 x84 xe4 x9c xf2 xcb)
(L (W x44 x00 x00 x00 x38 x00 x00 x00)) E))
(T (W x00 x00 x00 x00 x00 x00 x00 x00)
(T (W x00 x00 x80 x3f x00 x00 x80 x3f)
(L (W x7c xf6 xfe xff x50 x00 x00 x00))
(L (W x45 x26 x22 x84 xe4 x9c xf2 xcb)))
(T (W x00 x00 x00 x00 x00 x00 x00 x00)
(L (W x45 x26 x22 x84 xe4 x9c xf2 xcb)) E))))
(T (W xd4 xc3 xfc xff x56 xc3 xfc xff)
(T (W x45 x26 x22 x84 xe4 x9c xf2 xcb)
(T (W x33 x33 x29 x42 x9a x59 x16 x44)
(T (W x00 x00 x00 x00 x00 x00 x00 x00)
(L (W x00 x00 x00 x00 x01 x00 x00 x00))
(L (W x52 xa3 xff xff x00 x00 x80 x3f)))
(T (W x45 x26 x22 x84 xe4 x9c xf2 xcb)
(L (W x5c x00 x00 x00 x50 x00 x00 x00)) E))
(T (W x45 x26 x22 x84 xe4 x9c xf2 xcb)
(T (W x34 x01 x00 x00 x00 x00 xa0 x40)
(L (W x74 x00 x00 x00 x68 x00 x00 x00))
(L (W x66 x66 x1e x42 x33 x53 x67 x44)))
(T (W x00 x00 x00 x00 x00 x00 x00 x00)
(L (W x45 x26 x22 x84 xe4 x9c xf2 xcb)) E)))
(T (W x45 x26 x22 x84 xe4 x9c xf2 xcb)
(T (W xb1 x80 x2f xf0 x2c x48 x0a xdb)
(T (W xd4 xc3 xfd xff x00 x00 x00 x00)
(L (W x34 x00 x00 x00 x20 x00 x00 x00))
(L (W x45 x26 x22 x84 xe4 x9c xf2 xcb)))
(T (W x54 x00 x00 x00 x48 x00 x00 x00)
(L (W x00 x00 x80 xbf x00 x00 x80 xbf)) E))
(T (W x00 x00 x00 x00 x56 x83 xfd xff)
(T (W x00 x00 x00 x00 x00 x00 x00 x00)
(L (W x45 x26 x22 x84 xe4 x9c xf2 xcb)) E)
(T (W x45 x26 x22 x84 xe4 x9c xf2 xcb)
(L (W x40 x00 x00 x00 x38 x00 x00 x00)) E)))))
(T (W x04 x00 x00 x00 x12 xb1 xfc xff)
(T (W x00 x00 x00 x00 xd8 xbb xfc xff)
(T (W x45 x26 x22 x84 xe4 x9c xf2 xcb)
(T (W x00 x00 x00 x00 x00 x00 x00 x00)
(T (W x45 x26 x22 x84 xe4 x9c xf2 xcb)
(L (W x40 x00 x00 x00 x38 x00 x00 x00))
(L (W x44 x00 x00 x00 x38 x00 x00 x00)))
(T (W x45 x26 x22 x84 xe4 x9c xf2 xcb)
(L (W x45 x26 x22 x84 xe4 x9c xf2 xcb)) E))
(T (W x3c x01 x00 x00 x30 x01 x00 x00)
(T (W x78 x00 x00 x00 x6c x00 x00 x00)
(L (W x45 x26 x22 x84 xe4 x9c xf2 xcb))
(L (W x00 x00 x00 x00 x01 x00 x00 x00)))
(T (W x45 x26 x22 x84 xe4 x9c xf2 xcb)
(L (W xd4 x5b xff xff x00 x00 x00 x00)) E)))
(T (W x00 x00 x80 xbf x9c x00 x00 x00)
(T (W x04 x00 x00 x00 xc0 x3b xfd xff)
(T (W x04 x00 x00 x00 x00 x00 x00 x00)
(L (W x00 x00 x00 x00 x00 x00 x00 x00))
(L (W xe6 x20 x66 xca xe8 xa9 xff x1f)))
(T (W x00 x00 x00 x00 x00 x00 x00 x00)
(L (W x04 x00 x00 x00 xf8 x3d xff xff)) E))
(T (W x45 x26 x22 x84 xe4 x9c xf2 xcb)
(T (W x03 x56 xf7 xfe xbf xd9 x1a x58)
(L (W x45 x26 x22 x84 xe4 x9c xf2 xcb))
(L (W x28 x00 x00 x00 x14 x00 x00 x00)))
(T (W x00 x00 x00 x00 x00 x00 x00 x00)
(L (W x00 x00 x00 x00 x00 x00 x00 x00)) E))))
(T (W x0c x00 x10 x00 x14 x00 x18 x00)
(T (W x60 x00 x00 x00 x54 x00 x00 x00)
(T (W x01 x00 x00 x00 x00 x00 x80 x3f)
(T (W x45 x26 x22 x84 xe4 x9c xf2 xcb)
(L (W x01 x00 x00 x00 x00 x00 x80 x3f))
(L (W x45 x26 x22 x84 xe4 x9c xf2 xcb)))
(T (W x45 x26 x22 x84 xe4 x9c xf2 xcb)
(L (W x00 x00 x00 x00 x01 x00 x00 x00)) E))
(T (W x04 x00 x00 x00 xc0 x6b xfd xff)
(T (W x45 x26 x22 x84 xe4 x9c xf2 xcb)
(L (W x3c x01 x00 x00 x30 x01 x00 x00))
(L (W x34 x00 x00 x00 x20 x00 x00 x00)))
(T (W x00 x00 x80 xbf x00 x00 x80 xbf)
(L (W x96 xda x1b x72 x9d x0a xa7 xbe)) E)))
(T (W x2c xc6 x36 x97 x85 x26 x63 x5f)
(T (W x45 x26 x22 x84 xe4 x9c xf2 xcb)
(T (W x45 x26 x22 x84 xe4 x9c xf2 xcb)
(L (W x45 x26 x22 x84 xe4 x9c xf2 xcb))
(L (W x52 xcb xff xff x00 x00 x80 x3f)))
(T (W x45 x26 x22 x84 xe4 x9c xf2 xcb)
(L (W x2c x00 x00 x00 x20 x00 x00 x00)) E))
(T (W x45 x41 x30 x32 x5f x30 x30 x37)
(T (W x2c x00 x00 x00 x18 x00 x00 x00)
(L (W x00 x00 x00 x00 x00 x00 x00 x00)) E)
(T (W x00 x00 x00 x00 x00 x00 x00 x00)
(L (W x00 x00 x00 x00 x00 x00 x00 x00)) E))))))
(T (W x46 x53 x59 x53 x5f x4e x45 x57)
(T (W x03 xd1 x86 x67 x2b xf8 xf0 x8e)
(T (W x45 x26 x22 x84 xe4 x9c xf2 xcb)
(T (W x00 x00 x00 x00 x01 x00 x00 x00)
(T (W x00 x00 x00 x00 x56 x17 xfd xff)
(T (W x01 x00 x00 x00 x04 x00 x00 x00)
(L (W x00 x00 x80 xbf x9c x00 x00 x00))
(L (W x04 x00 x00 x00 x12 x9d xff xff)))
(T (W x45 x26 x22 x84 xe4 x9c xf2 xcb)
(L (W x00 x00 x00 x00 x01 x00 x00 x00)) E))
(T (W x00 x00 x00 x00 x56 x57 xfd xff)
(T (W x45 x26 x22 x84 xe4 x9c xf2 xcb)
(L (W x00 x00 x80 xbf x00 x00 x80 xbf))
(L (W x01 x00 x00 x00 x04 x00 x00 x00)))
(T (W x3c x7a xbd x31 x15 x45 x3c x37)
(L (W x04 x00 x00 x00 x12 x5d xff xff)) E)))
(T (W xca xdb xff xff x00 x00 x00 x01)
(T (W x00 x00 x00 x00 x00 x00 x00 x00)
(T (W x00 x00 x00 x00 x00 x00 x00 x00)
(L (W x00 x00 x00 x00 xd8 xb7 xfe xff))
(L (W x48 x91 x20 x44 x00 x00 x00 x00)))
(T (W x74 x00 x00 x00 x68 x00 x00 x00)
(L (W x00 x00 x00 x00 x00 x00 x00 x00)) E))
(T (W x00 x00 x80 xbf x9c x00 x00 x00)
(T (W x5f x4f x55 x54 x42 x52 x45 x41)
(L (W x00 x00 x00 x00 x00 x00 x00 x00))
(L (W x44 x00 x00 x00 x30 x00 x00 x00)))
(T (W x55 x39 x81 x6a xc4 xc7 x74 x14)
(L (W x74 x00 x00 x00 x68 x00 x00 x00)) E))))
(T (W x00 x00 x00 x00 x1c x00 x00 x00)
(T (W x00 x00 x00 x00 x00 x00 x00 x00)
(T (W x54 x01 x00 x00 x48 x01 x00 x00)
(T (W x01 x00 x00 x00 x00 x00 x80 x3f)
(L (W xd4 xa7 xfe xff x56 xa7 xfe xff))
(L (W x00 x00 x80 xbf x00 x00 x80 xbf)))
(T (W x01 x00 x00 x00 x00 x00 x80 x3f)
(L (W x57 x53 x59 x53 x5f x4d x41 x53)) E))
(T (W x45 x26 x22 x84 xe4 x9c xf2 xcb)
(T (W x00 x00 x00 x00 x01 x00 x00 x00)
(L (W xa4 x70 xc0 x42 x7b x94 x74 x43))
(L (W x34 x01 x00 x00 x00 x00 xc0 x40)))
(T (W x52 x67 xfe xff x00 x00 x80 x3f)
(L (W x41 x30 x32 x00 x9a x6f xff xff)) E)))
(T (W xd4 x07 xfd xff x00 x00 x00 x00)
(T (W x45 x26 x22 x84 xe4 x9c xf2 xcb)
(T (W x00 x00 x00 x00 x00 x00 x00 x00)
(L (W x45 x26 x22 x84 xe4 x9c xf2 xcb))
(L (W x00 x00 x00 x00 x00 x00 x00 x00)))
(T (W x28 x00 x00 x00 x1c x00 x00 x00)
(L (W x54 x00 x00 x00 x48 x00 x00 x00)) E))
(T (W x00 x00 x00 x00 x00 x00 x00 x00)
(T (W xd4 x07 xfe xff x00 x00 x00 x00)
(L (W xd4 x07 xff xff x00 x00 x00 x00)) E)
(T (W x00 x00 x00 x00 xd8 x87 xfe xff)
(L (W x45 x26 x22 x84 xe4 x9c xf2 xcb)) E)))))
(T (W x45 x26 x22 x84 xe4 x9c xf2 xcb)
(T (W x44 x00 x00 x00 x30 x00 x00 x00)
(T (W x00 x00 x00 x00 xd8 xdf xfc xff)
(T (W x00 x00 x00 x00 x00 x00 x00 x00)
(T (W x45 x26 x22 x84 xe4 x9c xf2 xcb)
(L (W x06 x85 xa7 x28 xbf x49 x53 x6a))
(L (W x00 x00 x00 x00 xd8 x9f xff xff)))
(T (W x04 x00 x00 x00 xc0 x1f xfe xff)
(L (W x45 x26 x22 x84 xe4 x9c xf2 xcb)) E))
(T (W x7e x58 x30 x53 xbe x33 x56 x6b)
(T (W x52 xdf xfd xff x00 x00 x80 x3f)
(L (W x44 x00 x00 x00 x38 x00 x00 x00))
(L (W x55 x39 x81 x6a xc4 xc7 x74 x14)))
(T (W xd4 x5f xfe xff x00 x00 x00 x00)
(L (W x00 x00 x00 x00 x00 x00 x00 x00)) E)))
(T (W x04 x00 x00 x00 x00 x00 x00 x00)
(T (W x29 x1c x79 x43 x66 x66 x48 x42)
(T (W x45 x26 x22 x84 xe4 x9c xf2 xcb)
(L (W xd4 xbf xfe xff x56 xbf xfe xff))
(L (W x45 x26 x22 x84 xe4 x9c xf2 xcb)))
(T (W x00 x00 x80 xbf x00 x00 x80 xbf)
(L (W x29 x5c x20 x44 x00 x00 x00 x00)) E))
(T (W x00 x00 x00 x00 x00 x00 x00 x00)
(T (W x00 x00 x00 x00 xd8 xff xfd xff)
(L (W x00 x00 x00 x00 x9a x07 xff xff))
(L (W x00 x00 x00 x00 x00 x00 x00 x00)))
(T (W xed x1e x74 x2c x6b xd9 x92 xd1)
(L (W xd0 x5d x39 x08 x1e xc3 x43 xb9)) E))))
(T (W x3c x01 x00 x00 x30 x01 x00 x00)
(T (W x00 x00 x80 x3f x00 x00 x80 x3f)
(T (W x40 x00 x00 x00 x38 x00 x00 x00)
(T (W x45 x26 x22 x84 xe4 x9c xf2 xcb)
(L (W x00 x00 x00 x00 x01 x00 x00 x00))
(L (W x45 x26 x22 x84 xe4 x9c xf2 xcb)))
(T (W x01 x00 x00 x00 x04 x00 x00 x00)
(L (W x45 x26 x22 x84 xe4 x9c xf2 xcb)) E))
(T (W x55 x6c xfc xf1 x99 x9e xc9 x88)
(T (W x00 x00 x00 x00 x00 x00 x00 x00)
(L (W x04 x00 x00 x00 x12 xf5 xfe xff))
(L (W x45 x26 x22 x84 xe4 x9c xf2 xcb)))
(T (W x45 x26 x22 x84 xe4 x9c xf2 xcb)
(L (W x45 x26 x22 x84 xe4 x9c xf2 xcb)) E)))
(T (W x00 x00 x00 x00 x00 x00 x00 x00)
(T (W x04 x00 x00 x00 xc0 x4f xfd xff)
(T (W x01 x00 x00 x00 x00 x00 x80 x3f)
(L (W x45 x26 x22 x84 xe4 x9c xf2 xcb))
(L (W x00 x00 x20 x41 x24 x01 x00 x00)))
(T (W x04 x00 x00 x00 xf8 x51 xfe xff)
(L (W x5c x00 x00 x00 x50 x00 x00 x00)) E))
(T (W x11 xb9 x81 x40 xd9 x54 x8e xe4)
(T (W x00 x00 x00 x00 x00 x00 x00 x00)
(L (W x28 x00 x00 x00 x14 x00 x00 x00)) E)
(T (W x45 x26 x22 x84 xe4 x9c xf2 xcb)
(L (W xd4 x8f xff xff x56 x8f xff xff)) E)))))))))
(T (W xac xca x02 x00 xc0 xc8 x02 x00)
(T (W xcc x54 x02 x00 xe0 x52 x02 x00)
(T (W x04 x68 x01 x00 x34 x66 x01 x00)
(T (W x45 x26 x22 x84 xe4 x9c xf2 xcb)
(T (W x44 x00 x00 x00 x30 x00 x00 x00)
(T (W x34 x00 x00 x00 x20 x00 x00 x00)
(T (W x00 x00 x80 x3f x00 x00 x80 x3f)
(T (W x00 x00 x00 x00 x58 x11 xfd xff)
(T (W x1c x00 x00 x00 x46 x53 x59 x53)
(L (W x00 x00 x00 x00 x58 x91 xfe xff))
(L (W x04 x00 x00 x00 x78 x93 xff xff)))
(T (W x45 x26 x22 x84 xe4 x9c xf2 xcb)
(L (W x00 x00 x00 x00 x00 x00 x00 x00)) E))
(T (W x40 x00 x00 x00 x34 x00 x00 x00)
(T (W xec xb1 x3f x44 x00 x00 x00 x00)
(L (W x00 x00 x00 x00 x00 x00 x00 x00))
(L (W x54 xd1 xff xff xd6 xd0 xff xff)))
(T (W x45 x26 x22 x84 xe4 x9c xf2 xcb)
(L (W x00 x00 x00 x00 x00 x00 x00 x00)) E)))
(T (W x00 x00 x00 x00 x00 x00 x00 x00)
(T (W x00 x00 x80 xbf x9c x00 x00 x00)
(T (W x00 x00 x00 x00 x58 xb1 xfd xff)
(L (W x02 x00 x00 x00 x00 x00 x80 x3f))
(L (W x45 x26 x22 x84 xe4 x9c xf2 xcb)))
(T (W x00 x00 x00 x00 x01 x00 x00 x00)
(L (W x00 x00 x80 xbf x00 x00 x80 xbf)) E))
(T (W x00 x00 x00 x00 x00 x00 x00 x00)
(T (W x01 x00 x00 x00 x04 x00 x00 x00)
(L (W x00 x00 x80 x3f x02 x00 x00 x00))
(L (W x04 x00 x00 x00 x00 x00 x00 x00)))
(T (W x45 x26 x22 x84 xe4 x9c xf2 xcb)
(L (W x96 xda x1b x72 x9d x0a xa7 xbe)) E))))
(T (W x45 x26 x22 x84 xe4 x9c xf2 xcb)
(T (W x04 x00 x00 x00 x00 x00 x00 x00)
(T (W x00 x00 x00 x00 x00 x00 x00 x00)
(T (W x00 x00 x00 x00 x00 x00 x00 x00)
(L (W x45 x26 x22 x84 xe4 x9c xf2 xcb))
(L (W x00 x00 x00 x00 x58 xa1 xff xff)))
(T (W x44 x00 x00 x00 x38 x00 x00 x00)
(L (W x45 x26 x22 x84 xe4 x9c xf2 xcb)) E))
(T (W x00 x00 x00 x00 x00 x00 x00 x00)
(T (W x54 xe1 xfd xff x00 x00 x00 x00)
(L (W x45 x26 x22 x84 xe4 x9c xf2 xcb))
(L (W x00 x00 x00 x00 x00 x00 x00 x00)))
(T (W x00 x00 x00 x00 x01 x00 x00 x00)
(L (W x00 x00 x00 x00 x58 x61 xff xff)) E)))
(T (W x5f x41 x52 x45 x41 x30 x32 x00)
(T (W x74 x00 x00 x00 x68 x00 x00 x00)
(T (W x00 x00 x80 xbf x00 x00 x80 xbf)
(L (W x04 x00 x00 x00 x78 xc3 xfe xff))
(L (W xbe x93 x8e x16 x1e x4d xcc xd2)))
(T (W x00 x00 x00 x00 x00 x00 x00 x00)
(L (W x5c x00 x00 x00 x50 x00 x00 x00)) E))
(T (W x00 x00 x00 x00 x58 x81 xfd xff)
(T (W x04 x00 x00 x00 x92 x06 xfe xff)
(L (W x00 x00 x00 x00 xd6 x00 xff xff)) E)
(T (W x00 x00 x00 x00 x1a x89 xfe xff)
(L (W x33 x37 x00 x00 x1b x00 x00 x00)) E)))))
(T (W x00 x00 x00 x00 x1c x00 x00 x00)
(T (W x45 x26 x22 x84 xe4 x9c xf2 xcb)
(T (W x4a xbd xff xff x00 x00 x00 x01)
(T (W x00 x00 x00 x00 x00 x00 x00 x00)
(T (W x00 x00 x00 x00 x01 x00 x00 x00)
(L (W x00 x00 x00 x00 x00 x00 x00 x00))
(L (W x00 x00 x80 xbf x00 x00 x80 xbf)))
(T (W xeb x6c xee x13 x15 x5b xd3 x02)
(L (W x3c x01 x00 x00 x30 x01 x00 x00)) E))
(T (W x00 x00 x00 x00 x00 x00 x00 x00)
(T (W x00 x00 x00 x00 x58 xd9 xfd xff)
(L (W x00 x00 x00 x00 x00 x00 x00 x00))
(L (W x45 x26 x22 x84 xe4 x9c xf2 xcb)))
(T (W x00 x00 x00 x00 x00 x00 x00 x00)
(L (W x3c x01 x00 x00 x30 x01 x00 x00)) E)))
(T (W x00 x00 x00 x00 xd6 xf8 xfc xff)
(T (W x45 x26 x22 x84 xe4 x9c xf2 xcb)
(T (W x45 x26 x22 x84 xe4 x9c xf2 xcb)
(L (W x54 x00 x00 x00 x48 x00 x00 x00))
(L (W x5c x00 x00 x00 x50 x00 x00 x00)))
(T (W x00 x00 x00 x00 x00 x00 x00 x00)
(L (W x45 x26 x22 x84 xe4 x9c xf2 xcb)) E))
(T (W x00 x00 x00 x00 x00 x00 x00 x00)
(T (W x2c x00 x00 x00 x18 x00 x00 x00)
(L (W x54 xf9 xfe xff x00 x00 x00 x00))
(L (W x2c x00 x00 x00 x20 x00 x00 x00)))
(T (W x00 x00 x00 x00 x00 x00 x00 x00)
(L (W x00 x00 x00 x00 x00 x00 x00 x00)) E))))
(T (W x5c x00 x00 x00 x50 x00 x00 x00)
(T (W x54 xe9 xfc xff x00 x00 x00 x00)
(T (W xd6 x81 x9c x94 x9b x27 x57 x25)
(T (W x48 x11 x4a x44 x00 x00 x00 x00)
(L (W x00 x00 x00 x00 x58 xa9 xfe xff))
(L (W x00 x00 x00 x00 x00 x00 x00 x00)))
(T (W x14 x6e x01 x44 x00 x00 x00 x00)
(L (W x28 x00 x00 x00 x14 x00 x00 x00)) E))
(T (W x45 x26 x22 x84 xe4 x9c xf2 xcb)
(T (W x42 x52 x45 x41 x4b x5f x41 x52)
(L (W x54 xe9 xfe xff x00 x00 x00 x00))
(L (W x00 x00 x80 x3f x00 x00 x80 x3f)))
(T (W x54 x69 xfe xff x00 x00 x00 x00)
(L (W xd2 x68 xff xff x00 x00 x80 x3f)) E)))
(T (W x00 x00 x00 x00 x01 x00 x00 x00)
(T (W xca x85 x2f xf0 x2c x4b x0a xdb)
(T (W x54 xc9 xfd xff x00 x00 x00 x00)
(L (W x04 x00 x00 x00 x00 x00 x00 x00))
(L (W x44 x00 x00 x00 x38 x00 x00 x00)))
(T (W x04 x00 x00 x00 x92 x4e xfe xff)
(L (W x00 x00 x80 xbf x9c x00 x00 x00)) E))
(T (W x04 x00 x00 x00 x40 x89 xfd xff)
(T (W x01 x00 x00 x00 x04 x00 x00 x00)
(L (W x00 x00 x00 x00 x01 x00 x00 x00)) E)
(T (W x04 x00 x00 x00 x92 x8e xfe xff)
(L (W x00 x00 x00 x00 x01 x00 x00 x00)) E))))))
(T (W x00 x00 x00 x00 x58 x9d xfc xff)
(T (W x54 xa5 xfc xff xd6 xa4 xfc xff)
(T (W x00 x00 x00 x00 x01 x00 x00 x00)
(T (W x00 x00 x00 x00 x00 x00 x00 x00)
(T (W x2c x00 x00 x00 x20 x00 x00 x00)
(T (W x00 x00 x80 xbf x9c x00 x00 x00)
(L (W x00 x00 x00 x00 xd6 x94 xfe xff))
(L (W xd2 x94 xff xff x00 x00 x80 x3f)))
(T (W x5f x41 x52 x45 x41 x30 x32 x00)
(L (W x45 x26 x22 x84 xe4 x9c xf2 xcb)) E))
(T (W x2c x00 x00 x00 x20 x00 x00 x00)
(T (W xcf x09 xac xc3 x64 x72 x25 x99)
(L (W x44 x00 x00 x00 x30 x00 x00 x00))
(L (W x34 x00 x00 x00 x20 x00 x00 x00)))
(T (W x74 x00 x00 x00 x68 x00 x00 x00)
(L (W xd2 x54 xff xff x00 x00 x80 x3f)) E)))
(T (W x78 x00 x00 x00 x6c x00 x00 x00)
(T (W x40 x00 x00 x00 x38 x00 x00 x00)
(T (W x00 x00 x00 x00 x00 x00 x00 x00)
(L (W xdd xbc x03 x92 x18 xfd x6b x50))
(L (W x00 x00 x00 x00 x00 x00 x00 x00)))
(T (W x45 x26 x22 x84 xe4 x9c xf2 xcb)
(L (W x54 x00 x00 x00 x48 x00 x00 x00)) E))
(T (W x00 x00 x00 x00 x01 x00 x00 x00)
(T (W x54 xf5 xfd xff x00 x00 x00 x00)
(L (W x45 x26 x22 x84 xe4 x9c xf2 xcb))
(L (W x45 x26 x22 x84 xe4 x9c xf2 xcb)))
(T (W x00 x00 x00 x00 x58 x75 xfe xff)
(L (W x00 x00 x00 x00 x58 x75 xff xff)) E))))
(T (W x00 x00 x00 x00 x00 x00 x00 x00)
(T (W x45 x26 x22 x84 xe4 x9c xf2 xcb)
(T (W x8c x00 x00 x00 x7c x00 x00 x00)
(T (W x78 x00 x00 x00 x6c x00 x00 x00)
(L (W x45 x26 x22 x84 xe4 x9c xf2 xcb))
(L (W x54 xa5 xff xff x00 x00 x00 x00)))
(T (W x00 x00 x00 x00 x58 x25 xfe xff)
(L (W x00 x00 x00 x00 x00 x00 x00 x00)) E))
(T (W x7c x5f x18 xa6 x57 x6a x5c x90)
(T (W x00 x00 x80 x3f x00 x00 x80 x3f)
(L (W x00 x00 x00 x00 x00 x00 x00 x00))
(L (W x54 xe5 xff xff x00 x00 x00 x00)))
(T (W x00 x00 x00 x00 x58 x65 xfe xff)
(L (W x00 x00 x00 x00 x00 x00 x00 x00)) E)))
(T (W x00 x00 x80 xbf x00 x00 x80 xbf)
(T (W x00 x00 x00 x00 x00 x00 x00 x00)
(T (W x04 x00 x00 x00 x92 xca xfd xff)
(L (W x00 x00 x00 x00 x00 x00 x00 x00))
(L (W x45 x26 x22 x84 xe4 x9c xf2 xcb)))
(T (W x00 x00 x80 xbf x9c x00 x00 x00)
(L (W x00 x00 x00 x00 x00 x00 x00 x00)) E))
(T (W x00 x00 x00 x00 x00 x00 x00 x00)
(T (W x45 x26 x22 x84 xe4 x9c xf2 xcb)
(L (W x3c x01 x00 x00 x30 x01 x00 x00)) E)
(T (W x00 x00 x80 xbf x9c x00 x00 x00)
(L (W x1c x01 x00 x00 x01 x00 x00 x00)) E)))))
(T (W x3c x01 x00 x00 x30 x01 x00 x00)
(T (W x00 x00 x00 x00 x58 xbd xfc xff)
(T (W x00 x00 x80 xbf x9c x00 x00 x00)
(T (W x00 x00 x00 x00 x00 x00 x00 x00)
(T (W x00 x00 x00 x00 x58 x9d xfd xff)
(L (W x34 x00 x00 x00 x20 x00 x00 x00))
(L (W x45 x26 x22 x84 xe4 x9c xf2 xcb)))
(T (W x45 x26 x22 x84 xe4 x9c xf2 xcb)
(L (W x9e x9e x18 x4f xba xcf x45 xb4)) E))
(T (W x00 x00 x80 x3f x00 x00 x80 x3f)
(T (W x2c x00 x00 x00 x20 x00 x00 x00)
(L (W x9b x50 x81 xf3 x1d x31 x54 x95))
(L (W x54 xdd xff xff x00 x00 x00 x00)))
(T (W x00 x00 x80 xbf x00 x00 x80 xbf)
(L (W x00 x00 x00 x00 x01 x00 x00 x00)) E)))
(T (W x00 x00 x00 x00 x00 x00 x00 x00)
(T (W x44 x00 x00 x00 x38 x00 x00 x00)
(T (W x45 x41 x30 x32 x5f x30 x30 x39)
(L (W xfc xbf xfe xff x50 x00 x00 x00))
(L (W x00 x00 x00 x00 x1a xc5 xff xff)))
(T (W x55 x6c xfc xf1 x99 x9e xc9 x88)
(L (W x45 x26 x22 x84 xe4 x9c xf2 xcb)) E))
(T (W x00 x00 x00 x00 x01 x00 x00 x00)
(T (W x00 x00 x00 x00 x1a x05 xfe xff)
(L (W x00 x00 x00 x00 x58 xfd xfe xff))
(L (W x18 x00 x00 x00 x14 x00 x34 x00)))
(T (W x45 x26 x22 x84 xe4 x9c xf2 xcb)
(L (W x55 x39 x81 x6a xc4 xc7 x74 x14)) E))))
(T (W x60 x00 x00 x00 x54 x00 x00 x00)
(T (W xe6 x99 x30 x97 x85 x1e x5c x5f)
(T (W x01 x00 xbf x42 xcd xcc x80 x43)
(T (W x1e x11 xb1 x2c xdf x4c xfd x6c)
(L (W xae xc7 xf6 x42 x48 xe1 xc9 x42))
(L (W x45 x26 x22 x84 xe4 x9c xf2 xcb)))
(T (W x1c x01 x00 x00 x01 x00 x00 x00)
(L (W x42 x52 x45 x41 x4b x5f x41 x52)) E))
(T (W x44 x00 x00 x00 x38 x00 x00 x00)
(T (W x04 x00 x00 x00 x00 x00 x00 x00)
(L (W x00 x00 x80 x3f x00 x00 x80 x3f))
(L (W x00 x00 x00 x00 x00 x00 x00 x00)))
(T (W x00 x00 x00 x00 x00 x00 x00 x00)
(L (W x3c x01 x00 x00 x30 x01 x00 x00)) E)))
(T (W x45 x26 x22 x84 xe4 x9c xf2 xcb)
(T (W x45 x26 x22 x84 xe4 x9c xf2 xcb)
(T (W x00 x00 x00 x00 x58 xcd xfd xff)
(L (W x00 x00 x00 x00 x58 xcd xfe xff))
(L (W x54 xcd xff xff x00 x00 x00 x00)))
(T (W x45 x26 x22 x84 xe4 x9c xf2 xcb)
(L (W x45 x26 x22 x84 xe4 x9c xf2 xcb)) E))
(T (W x55 x6c xfc xf1 x99 x9e xc9 x88)
(T (W x00 x00 x00 x00 x00 x00 x00 x00)
(L (W x45 x26 x22 x84 xe4 x9c xf2 xcb)) E)
(T (W x44 x00 x00 x00 x38 x00 x00 x00)
(L (W xfc x8f xff xff x50 x00 x00 x00)) E)))))))
(T (W x48 x79 x00 x00 x5c x77 x00 x00)
(T (W x00 x00 x00 x00 x00 x00 x00 x00)
(T (W x4f x84 x6f x8b xe8 xcb x63 xb7)
(T (W x45 x26 x22 x84 xe4 x9c xf2 xcb)
(T (W x66 x66 x18 x42 x14 x3e x5d x44)
(T (W x01 x00 x00 x00 x04 x00 x00 x00)
(T (W x45 x41 x30 x32 x5f x30 x30 x37)
(L (W x2c x00 x00 x00 x18 x00 x00 x00))
(L (W x2c x00 x00 x00 x18 x00 x00 x00)))
(T (W x00 x00 x00 x00 x00 x00 x00 x00)
(L (W x00 x00 x00 x00 x01 x00 x00 x00)) E))
(T (W x28 x00 x00 x00 x1c x00 x00 x00)
(T (W x00 x00 xa0 x40 x24 x01 x00 x00)
(L (W x04 x00 x00 x00 x40 xd3 xfe xff))
(L (W x00 x00 x00 x00 x1a xdb xff xff)))
(T (W x00 x00 x00 x00 x00 x00 x00 x00)
(L (W x04 x00 x00 x00 x78 x55 xff xff)) E)))
(T (W x54 xf3 xfc xff x00 x00 x00 x00)
(T (W x00 x00 x00 x00 x01 x00 x00 x00)
(T (W x8e x2d xc8 xc9 x03 x8b xa0 xbc)
(L (W x65 x81 x86 xf3 x1d xa5 x5a x95))
(L (W x2c x00 x00 x00 x20 x00 x00 x00)))
(T (W x40 x00 x00 x00 x38 x00 x00 x00)
(L (W x04 x00 x00 x00 x00 x00 x00 x00)) E))
(T (W x00 x00 x00 x00 x00 x00 x00 x00)
(T (W x00 x00 x00 x00 x00 x00 x00 x00)
(L (W x00 x00 x00 x00 x01 x00 x00 x00))
(L (W x54 x00 x00 x00 x48 x00 x00 x00)))
(T (W x45 x26 x22 x84 xe4 x9c xf2 xcb)
(L (W x40 x00 x00 x00 x38 x00 x00 x00)) E))))
(T (W x00 x00 x00 x00 x00 x00 x00 x00)
(T (W x54 x00 x00 x00 x48 x00 x00 x00)
(T (W x00 x00 x00 x00 x00 x00 x00 x00)
(T (W x54 xa3 xfd xff x00 x00 x00 x00)
(L (W x54 xa3 xfe xff x00 x00 x00 x00))
(L (W x45 x26 x22 x84 xe4 x9c xf2 xcb)))
(T (W x45 x26 x22 x84 xe4 x9c xf2 xcb)
(L (W xfc x25 xff xff x50 x00 x00 x00)) E))
(T (W x00 x00 xa0 x40 x24 x01 x00 x00)
(T (W x72 xeb x22 x37 x6d xc8 x9b xc2)
(L (W x01 x00 x00 x00 x04 x00 x00 x00))
(L (W x00 x00 x00 x00 x00 x00 x00 x00)))
(T (W x45 x26 x22 x84 xe4 x9c xf2 xcb)
(L (W x45 x26 x22 x84 xe4 x9c xf2 xcb)) E)))
(T (W x00 x00 xe0 x40 x24 x01 x00 x00)
(T (W x00 x00 x80 x3f x00 x00 x80 x3f)
(T (W x08 xf9 x76 x1e x15 xae xff x14)
(L (W xd2 xc2 xfe xff x00 x00 x80 x3f))
(L (W x54 x00 x00 x00 x48 x00 x00 x00)))
(T (W x45 x41 x30 x32 x5f x30 x31 x38)
(L (W x00 x00 x80 x3f x58 x43 xff xff)) E))
(T (W x45 x26 x22 x84 xe4 x9c xf2 xcb)
(T (W x45 x26 x22 x84 xe4 x9c xf2 xcb)
(L (W x00 xc0 xf0 x43 xf6 xa8 xa4 x42)) E)
(T (W x1c x01 x00 x00 x01 x00 x00 x00)
(L (W x41 x30 x32 x00 x1a x8b xff xff)) E)))))
(T (W x4b x5f x41 x52 x45 x41 x30 x32)
(T (W x45 x26 x22 x84 xe4 x9c xf2 xcb)
(T (W x1c x01 x00 x00 x04 x00 x00 x00)
(T (W x00 x00 x00 x00 x58 x1b xfd xff)
(T (W x40 x00 x00 x00 x38 x00 x00 x00)
(L (W x00 x00 x00 x00 x1a xa3 xfe xff))
(L (W x04 x00 x00 x00 x00 x00 x00 x00)))
(T (W x54 x00 x00 x00 x48 x00 x00 x00)
(L (W x00 x00 x80 xbf x00 x00 x80 xbf)) E))
(T (W x74 x00 x00 x00 x68 x00 x00 x00)
(T (W x01 x00 x00 x00 x04 x00 x00 x00)
(L (W x34 x01 x00 x00 x00 x00 xa0 x40))
(L (W x54 xdb xff xff x00 x00 x00 x00)))
(T (W x00 x00 xa0 x40 x24 x01 x00 x00)
(L (W x27 x40 x45 xe3 x48 xbc x28 x26)) E)))
(T (W xd2 xfa xfc xff xf6 xc8 x98 x43)
(T (W x00 x00 x00 x00 x58 x3b xfd xff)
(T (W x00 x00 x00 x00 x00 x00 x00 x00)
(L (W x45 x26 x22 x84 xe4 x9c xf2 xcb))
(L (W x54 xbb xff xff xd6 xba xff xff)))
(T (W x00 x00 x00 x00 x01 x00 x00 x00)
(L (W x00 x00 x00 x00 x58 x3b xff xff)) E))
(T (W x01 x00 x00 x00 x00 x00 x80 x3f)
(T (W xd2 xfa xfd xff x8f xb2 x5c x44)
(L (W x45 x26 x22 x84 xe4 x9c xf2 xcb))
(L (W x2c x00 x00 x00 x20 x00 x00 x00)))
(T (W x00 x00 x00 x00 x01 x00 x00 x00)
(L (W x54 x7b xff xff x00 x00 x00 x00)) E))))
(T (W xd6 x81 x9c x94 x9b x27 x57 x25)
(T (W xfc xed xfc xff x50 x00 x00 x00)
(T (W x00 x00 x00 x00 xd6 x2a xfd xff)
(T (W x00 x00 x20 x41 x24 x01 x00 x00)
(L (W x28 x00 x00 x00 x14 x00 x00 x00))
(L (W x1c x01 x00 x00 x01 x00 x00 x00)))
(T (W x00 x00 x40 x40 x3c x01 x00 x00)
(L (W x9a xf9 x0b x44 x00 x00 x00 x00)) E))
(T (W x00 x00 x00 x00 x58 x6b xfd xff)
(T (W x00 x00 x80 xbf x00 x00 x80 xbf)
(L (W x74 x00 x00 x00 x68 x00 x00 x00))
(L (W x66 x66 x17 x42 x9a x09 x36 x44)))
(T (W x45 x26 x22 x84 xe4 x9c xf2 xcb)
(L (W x00 x00 x00 x00 x00 x00 x00 x00)) E)))
(T (W x04 x00 x00 x00 x92 x10 xfd xff)
(T (W x54 x00 x00 x00 x48 x00 x00 x00)
(T (W x45 x26 x22 x84 xe4 x9c xf2 xcb)
(L (W x40 x00 x00 x00 x38 x00 x00 x00))
(L (W x45 x26 x22 x84 xe4 x9c xf2 xcb)))
(T (W x54 x00 x00 x00 x48 x00 x00 x00)
(L (W x00 x00 x00 x00 x01 x00 x00 x00)) E))
(T (W x48 x00 x00 x00 x34 x00 x00 x00)
(T (W x2c x00 x00 x00 x20 x00 x00 x00)
(L (W x45 x26 x22 x84 xe4 x9c xf2 xcb)) E)
(T (W x45 x26 x22 x84 xe4 x9c xf2 xcb)
(L (W x45 x26 x22 x84 xe4 x9c xf2 xcb)) E))))))
(T (W x04 x00 x00 x00 x78 xa1 xfc xff)
(T (W x00 x00 x00 x00 x00 x00 x00 x00)
(T (W x40 x00 x00 x00 x38 x00 x00 x00)
(T (W x5f x4d x41 x53 x53 x5f x47 x41)
(T (W x45 x26 x22 x84 xe4 x9c xf2 xcb)
(T (W x45 x26 x22 x84 xe4 x9c xf2 xcb)
(L (W xd2 x96 xfe xff x8f xc2 xd6 x43))
(L (W x00 x00 x00 x00 x00 x00 x00 x00)))
(T (W x28 x01 x00 x00 x20 x01 x00 x00)
(L (W x00 x00 x00 x00 x00 x00 x00 x00)) E))
(T (W x45 x26 x22 x84 xe4 x9c xf2 xcb)
(T (W x40 x00 x00 x00 x38 x00 x00 x00)
(L (W x45 x26 x22 x84 xe4 x9c xf2 xcb))
(L (W x45 x26 x22 x84 xe4 x9c xf2 xcb)))
(T (W x00 x00 x80 x3f x00 x00 x80 x3f)
(L (W x00 x00 x00 x00 x00 x00 x00 x00)) E)))
(T (W x2c x00 x00 x00 x18 x00 x00 x00)
(T (W x45 x26 x22 x84 xe4 x9c xf2 xcb)
(T (W x54 xb7 xfd xff x00 x00 x00 x00)
(L (W x1f xdc xfa x0f xf0 xbc x2d xc6))
(L (W x00 x00 x00 x00 x00 x00 x00 x00)))
(T (W x01 x00 x00 x00 x04 x00 x00 x00)
(L (W x45 x26 x22 x84 xe4 x9c xf2 xcb)) E))
(T (W x45 x26 x22 x84 xe4 x9c xf2 xcb)
(T (W x74 x00 x00 x00 x68 x00 x00 x00)
(L (W x45 x26 x22 x84 xe4 x9c xf2 xcb))
(L (W x44 x00 x00 x00 x38 x00 x00 x00)))
(T (W x31 x9b x4a xdc x00 x65 x5c x2f)
(L (W x01 x00 x00 x00 x04 x00 x00 x00)) E))))
(T (W x00 x00 x00 x00 x01 x00 x00 x00)
(T (W x45 x26 x22 x84 xe4 x9c xf2 xcb)
(T (W x44 x00 x00 x00 x30 x00 x00 x00)
(T (W x28 x00 x00 x00 x14 x00 x00 x00)
(L (W x00 x00 x00 x00 x00 x00 x00 x00))
(L (W x45 x26 x22 x84 xe4 x9c xf2 xcb)))
(T (W x28 x00 x00 x00 x14 x00 x00 x00)
(L (W x04 x00 x00 x00 x78 x29 xff xff)) E))
(T (W x40 x00 x00 x00 x38 x00 x00 x00)
(T (W x00 x00 x00 x00 x00 x00 x00 x00)
(L (W x00 x00 x00 x00 x00 x00 x00 x00))
(L (W x55 x39 x81 x6a xc4 xc7 x74 x14)))
(T (W x45 x26 x22 x84 xe4 x9c xf2 xcb)
(L (W x44 x00 x00 x00 x30 x00 x00 x00)) E)))
(T (W x42 x10 xb5 x4b xbc xad xfa xea)
(T (W x3c x01 x00 x00 x30 x01 x00 x00)
(T (W x45 x26 x22 x84 xe4 x9c xf2 xcb)
(L (W x00 x00 x80 xbf x00 x00 x80 xbf))
(L (W x45 x26 x22 x84 xe4 x9c xf2 xcb)))
(T (W x00 x00 x00 x00 x01 x00 x00 x00)
(L (W x45 x41 x30 x32 x5f x30 x31 x31)) E))
(T (W x00 x00 x00 x00 x58 x87 xfd xff)
(T (W x00 x00 x00 x00 x58 x07 xfe xff)
(L (W x5b x9e xc8 xf8 x1d xd6 x6d x9e)) E)
(T (W x34 x00 x00 x00 x20 x00 x00 x00)
(L (W x00 x00 x80 xbf x9c x00 x00 x00)) E)))))
(T (W x04 x00 x00 x00 x00 x00 x80 x3f)
(T (W x44 x00 x00 x00 x38 x00 x00 x00)
(T (W xd6 x4f x77 x40 xe1 xfa x9d x9a)
(T (W x00 x00 x00 x00 x00 x00 x00 x00)
(T (W x8e x2d xc8 xc9 x03 x8b xa0 xbc)
(L (W x04 x00 x00 x00 x92 xa4 xfe xff))
(L (W x45 x26 x22 x84 xe4 x9c xf2 xcb)))
(T (W x00 x00 x00 x00 x58 x1f xfe xff)
(L (W x40 x00 x00 x00 x38 x00 x00 x00)) E))
(T (W x00 x00 x00 x00 x00 x00 x00 x00)
(T (W x45 x26 x22 x84 xe4 x9c xf2 xcb)
(L (W x04 x00 x00 x00 x00 x00 x00 x00))
(L (W x9d x72 x6c x12 x83 xfd x3a xc6)))
(T (W x70 x73 xbd x31 x15 x41 x3c x37)
(L (W x45 x26 x22 x84 xe4 x9c xf2 xcb)) E)))
(T (W x1b x00 x00 x00 x57 x53 x59 x53)
(T (W x00 x00 x00 x00 x00 x00 x00 x00)
(T (W x28 x01 x00 x00 x20 x01 x00 x00)
(L (W x00 x00 x00 x00 x00 x00 x00 x00))
(L (W x01 x00 x00 x00 x00 x00 x80 x3f)))
(T (W x00 x00 x80 x3f x58 x3f xfe xff)
(L (W x00 x00 x00 x00 x00 x00 x00 x00)) E))
(T (W x45 x26 x22 x84 xe4 x9c xf2 xcb)
(T (W x34 x00 x00 x00 x20 x00 x00 x00)
(L (W x2c x00 x00 x00 x18 x00 x00 x00))
(L (W x45 x26 x22 x84 xe4 x9c xf2 xcb)))
(T (W x00 x00 x00 x00 x00 x00 x00 x00)
(L (W x00 x00 x80 x3f x00 x00 x80 x3f)) E))))
(T (W xd6 x81 x9c x94 x9b x27 x57 x25)
(T (W x00 x00 x00 x00 x00 x00 x00 x00)
(T (W xf2 x52 xfd xff x00 x00 x00 x01)
(T (W x40 x00 x00 x00 x38 x00 x00 x00)
(L (W x00 x00 x00 x00 x00 x00 x00 x00))
(L (W x40 x00 x00 x00 x38 x00 x00 x00)))
(T (W x45 x26 x22 x84 xe4 x9c xf2 xcb)
(L (W x00 x00 xc0 x40 x24 x01 x00 x00)) E))
(T (W x45 x26 x22 x84 xe4 x9c xf2 xcb)
(T (W x45 x26 x22 x84 xe4 x9c xf2 xcb)
(L (W x00 x00 x00 x00 x00 x00 x00 x00))
(L (W x00 x00 x80 xbf x00 x00 x80 xbf)))
(T (W x1c x01 x00 x00 x01 x00 x00 x00)
(L (W x00 x00 x80 x3f x02 x00 x00 x00)) E)))
(T (W x45 x26 x22 x84 xe4 x9c xf2 xcb)
(T (W x00 x00 x00 x00 x58 x4f xfd xff)
(T (W x28 x00 x00 x00 x14 x00 x00 x00)
(L (W x75 x13 xb9 x28 xbf xd0 x67 x6a))
(L (W xd6 x81 x9c x94 x9b x27 x57 x25)))
(T (W x00 x00 x00 x00 x58 x4f xfe xff)
(L (W xfc x51 xff xff x50 x00 x00 x00)) E))
(T (W x54 x8f xfd xff xd6 x8e xfd xff)
(T (W x04 x00 x00 x00 x40 x0f xfe xff)
(L (W x2c x00 x00 x00 x20 x00 x00 x00)) E)
(T (W x45 x26 x22 x84 xe4 x9c xf2 xcb)
(L (W x00 x00 x00 x00 x00 x00 x00 x00)) E))))))))
(T (W x7c xde x01 x00 xb0 xdc x01 x00)
(T (W xbc xf1 x00 x00 xd0 xef x00 x00)
(T (W x1c x01 x00 x00 x04 x00 x00 x00)
(T (W x54 x00 x00 x00 x48 x00 x00 x00)
(T (W x54 xb2 xfc xff x00 x00 x00 x00)
(T (W x45 x26 x22 x84 xe4 x9c xf2 xcb)
(T (W x00 x00 x00 x00 x00 x00 x00 x00)
(T (W x44 x00 x00 x00 x38 x00 x00 x00)
(L (W x00 x00 x00 x00 x01 x00 x00 x00))
(L (W x00 x00 x00 x00 x01 x00 x00 x00)))
(T (W x45 x26 x22 x84 xe4 x9c xf2 xcb)
(L (W xea xe6 x09 xfe x1d x8a x80 xa7)) E))
(T (W x57 x53 x59 x53 x5f x4d x41 x53)
(T (W xfc xd4 xfd xff x50 x00 x00 x00)
(L (W x27 xfa xe9 xff x0b x14 x0c xd8))
(L (W x00 x00 x00 x00 x58 xd2 xff xff)))
(T (W x1c x01 x00 x00 x01 x00 x00 x00)
(L (W x6d xea x9b x77 xea x4d x21 xdf)) E)))
(T (W x34 x00 x00 x00 x20 x00 x00 x00)
(T (W x00 x00 x00 x00 x58 x32 xfd xff)
(T (W x00 x00 x00 x00 x00 x00 x00 x00)
(L (W x00 x00 x00 x00 x00 x00 x00 x00))
(L (W x00 x00 x00 x00 x00 x00 x00 x00)))
(T (W x2c x00 x00 x00 x18 x00 x00 x00)
(L (W x00 x00 x00 x00 x00 x00 x00 x00)) E))
(T (W x00 x00 x80 xbf x00 x00 x80 xbf)
(T (W x3c x01 x00 x00 x30 x01 x00 x00)
(L (W x00 x00 x00 x00 x00 x00 x00 x00))
(L (W x44 x00 x00 x00 x30 x00 x00 x00)))
(T (W x74 x00 x00 x00 x68 x00 x00 x00)
(L (W x78 x00 x00 x00 x6c x00 x00 x00)) E))))
(T (W x00 x00 xe0 x40 x24 x01 x00 x00)
(T (W x48 x00 x00 x00 x34 x00 x00 x00)
(T (W x00 x00 x80 x3f x00 x00 xa0 x41)
(T (W x34 x00 x00 x00 x20 x00 x00 x00)
(L (W x00 x00 x00 x00 x00 x00 x00 x00))
(L (W x00 x00 x00 x00 x1a xaa xff xff)))
(T (W x45 x41 x30 x32 x5f x30 x31 x38)
(L (W x00 xc0 x02 x44 x00 x00 x00 x00)) E))
(T (W x45 x26 x22 x84 xe4 x9c xf2 xcb)
(T (W x04 x00 x00 x00 x92 xe7 xfd xff)
(L (W xec x51 xc7 x43 xf6 x28 xc3 x42))
(L (W x00 x00 x80 x3f x01 x00 x00 x00)))
(T (W x5c x00 x00 x00 x50 x00 x00 x00)
(L (W x00 x00 x00 x00 x00 x00 x00 x00)) E)))
(T (W x45 x26 x22 x84 xe4 x9c xf2 xcb)
(T (W x45 x26 x22 x84 xe4 x9c xf2 xcb)
(T (W x00 x00 x00 x00 x00 x00 x00 x00)
(L (W x40 x00 x00 x00 x38 x00 x00 x00))
(L (W x00 x00 x00 x00 x01 x00 x00 x00)))
(T (W x44 x00 x00 x00 x38 x00 x00 x00)
(L (W x45 x26 x22 x84 xe4 x9c xf2 xcb)) E))
(T (W x00 x00 x00 x00 x1a x8a xfd xff)
(T (W x55 x39 x81 x6a xc4 xc7 x74 x14)
(L (W x45 x26 x22 x84 xe4 x9c xf2 xcb)) E)
(T (W x45 x26 x22 x84 xe4 x9c xf2 xcb)
(L (W x44 x00 x00 x00 x38 x00 x00 x00)) E)))))
(T (W xfc xac xfc xff x50 x00 x00 x00)
(T (W x66 xc6 x38 x44 x66 x66 x08 x42)
(T (W x45 x26 x22 x84 xe4 x9c xf2 xcb)
(T (W x00 x00 x80 xbf x9c x00 x00 x00)
(T (W x2c x00 x00 x00 x18 x00 x00 x00)
(L (W x00 x00 x00 x00 x58 x9a xfe xff))
(L (W x00 x00 x00 x00 x00 x00 x00 x00)))
(T (W x00 x00 x00 x00 x01 x00 x00 x00)
(L (W x00 x00 x00 x00 x00 x00 x00 x00)) E))
(T (W x45 x26 x22 x84 xe4 x9c xf2 xcb)
(T (W x00 x00 x00 x00 x00 x00 x00 x00)
(L (W xfc xdc xfe xff x50 x00 x00 x00))
(L (W x00 x00 x80 x3f x00 x00 x80 x3f)))
(T (W xfc x5c xfe xff x50 x00 x00 x00)
(L (W x00 x00 x00 x00 x00 x00 x00 x00)) E)))
(T (W x45 x26 x22 x84 xe4 x9c xf2 xcb)
(T (W x00 x00 x00 x00 x00 x00 x00 x00)
(T (W x45 x26 x22 x84 xe4 x9c xf2 xcb)
(L (W x45 x26 x22 x84 xe4 x9c xf2 xcb))
(L (W x45 x26 x22 x84 xe4 x9c xf2 xcb)))
(T (W x90 x78 xfc x36 x15 xed x4b x40)
(L (W x00 x00 x00 x00 x00 x00 x00 x00)) E))
(T (W x2c x00 x00 x00 x20 x00 x00 x00)
(T (W x45 x26 x22 x84 xe4 x9c xf2 xcb)
(L (W x00 x00 x00 x00 x00 x00 x00 x00))
(L (W x00 x00 x00 x00 xe2 xfb xff xff)))
(T (W x16 x29 x76 x2c x15 x9e x22 x2e)
(L (W x34 x00 x00 x00 x20 x00 x00 x00)) E))))
(T (W x04 x00 x00 x00 x92 xcf xfc xff)
(T (W x02 x00 x00 x00 x32 x38 x00 x00)
(T (W x45 x26 x22 x84 xe4 x9c xf2 xcb)
(T (W xfc xac xfd xff x50 x00 x00 x00)
(L (W x00 x00 x00 x00 x01 x00 x00 x00))
(L (W x44 x00 x00 x00 x38 x00 x00 x00)))
(T (W xfc x2c xfe xff x50 x00 x00 x00)
(L (W x45 x26 x22 x84 xe4 x9c xf2 xcb)) E))
(T (W x00 x00 x00 x00 x00 x00 x00 x00)
(T (W xfe x27 x3c xdc x00 x65 x4b x2f)
(L (W x45 x26 x22 x84 xe4 x9c xf2 xcb))
(L (W x45 x26 x22 x84 xe4 x9c xf2 xcb)))
(T (W x04 x00 x00 x00 x92 x6f xfe xff)
(L (W x00 x00 x00 x00 x58 x6a xff xff)) E)))
(T (W x60 x00 x00 x00 x54 x00 x00 x00)
(T (W x00 x00 x00 x00 x01 x00 x00 x00)
(T (W x00 x00 x00 x00 x00 x00 x00 x00)
(L (W x44 x00 x00 x00 x30 x00 x00 x00))
(L (W x41 x30 x32 x00 x1a xd2 xff xff)))
(T (W x5c x00 x00 x00 x50 x00 x00 x00)
(L (W x00 x00 x00 x00 x58 x4a xff xff)) E))
(T (W x04 x00 x00 x00 x00 x00 x00 x00)
(T (W x5f x4f x55 x54 x42 x52 x45 x41)
(L (W x5c x00 x00 x00 x50 x00 x00 x00)) E)
(T (W x45 x26 x22 x84 xe4 x9c xf2 xcb)
(L (W x28 x00 x00 x00 x14 x00 x00 x00)) E))))))
(T (W xb5 x50 x23 xc8 xeb xd1 xb9 x4d)
(T (W x45 x26 x22 x84 xe4 x9c xf2 xcb)
(T (W x28 x00 x00 x00 x14 x00 x00 x00)
(T (W x01 x00 x00 x00 x04 x00 x00 x00)
(T (W x4a xfa xff xff x00 x00 x00 x01)
(T (W x00 x00 x00 x00 x58 x96 xfd xff)
(L (W x45 x26 x22 x84 xe4 x9c xf2 xcb))
(L (W x00 x00 x00 x00 x58 x96 xff xff)))
(T (W x45 x26 x22 x84 xe4 x9c xf2 xcb)
(L (W x45 x26 x22 x84 xe4 x9c xf2 xcb)) E))
(T (W x02 x5a xfd xff x40 x01 x00 x00)
(T (W x04 x00 x00 x00 x78 xd8 xfd xff)
(L (W x54 x00 x00 x00 x48 x00 x00 x00))
(L (W x54 xd6 xff xff x00 x00 x00 x00)))
(T (W x45 x26 x22 x84 xe4 x9c xf2 xcb)
(L (W x00 x00 x00 x00 x58 x56 xff xff)) E)))
(T (W x00 x00 x00 x00 x01 x00 x00 x00)
(T (W xd2 x35 xfd xff x00 x00 x80 x3f)
(T (W x34 x00 x00 x00 x20 x00 x00 x00)
(L (W x00 x00 x00 x00 x58 xb6 xfe xff))
(L (W x02 x00 x00 x00 x00 x00 x80 x3f)))
(T (W x5c xff x3f x44 xe1 x7a x1e x42)
(L (W x55 x6c xfc xf1 x99 x9e xc9 x88)) E))
(T (W x54 x00 x00 x00 x48 x00 x00 x00)
(T (W xaf xdf x1b x72 x9d x0d xa7 xbe)
(L (W x00 x00 x80 x3f x58 xf6 xfe xff))
(L (W x00 x00 x00 x00 x00 x00 x00 x00)))
(T (W x00 x00 x00 x00 x00 x00 x00 x00)
(L (W x00 x00 x00 x00 x00 x00 x00 x00)) E))))
(T (W xac xc1 x83 x67 x2b x78 xed x8e)
(T (W x00 x00 x80 x3f x58 xe6 xfc xff)
(T (W x04 x00 x00 x00 x00 x00 x00 x00)
(T (W x00 x00 x00 x00 x01 x00 x00 x00)
(L (W x00 x00 xa0 x40 x24 x01 x00 x00))
(L (W x04 x00 x00 x00 x92 xab xff xff)))
(T (W x00 x00 x00 x00 x01 x00 x00 x00)
(L (W x66 xd1 x8a x49 x31 xfd x00 xe0)) E))
(T (W x04 x00 x00 x00 x78 x68 xfd xff)
(T (W x54 xe6 xfd xff x00 x00 x00 x00)
(L (W x01 x00 x00 x00 x00 x00 x80 x3f))
(L (W x04 x00 x00 x00 x92 xeb xff xff)))
(T (W x00 x00 x00 x00 x1a x6e xfe xff)
(L (W x04 x00 x00 x00 x00 x00 x00 x00)) E)))
(T (W x00 x00 x00 x00 x00 x00 x00 x00)
(T (W xb7 x8a x02 x4c x84 x25 x7f x61)
(T (W x55 x39 x81 x6a xc4 xc7 x74 x14)
(L (W x10 x96 xaa x28 xbf xca x56 x6a))
(L (W x00 x00 x80 x3f x58 xc6 xff xff)))
(T (W x00 x00 x00 x00 x58 x46 xfe xff)
(L (W x44 x00 x00 x00 x38 x00 x00 x00)) E))
(T (W x00 x00 x80 xbf x9c x00 x00 x00)
(T (W xc3 xf5 x0c x42 x1f x75 x4c x44)
(L (W x00 x00 x00 x00 x00 x00 x00 x00)) E)
(T (W x5f x4e x45 x57 x5f x4f x55 x54)
(L (W x00 x00 x00 x00 x00 x00 x00 x00)) E)))))
(T (W x00 x00 x00 x00 x00 x00 x00 x00)
(T (W x46 x53 x59 x53 x5f x4e x45 x57)
(T (W x00 x00 x00 x00 x58 xde xfc xff)
(T (W x00 x00 x80 xbf xa4 x00 x00 x00)
(T (W x00 x00 x00 x00 x00 x00 x00 x00)
(L (W x54 x9e xfe xff x00 x00 x00 x00))
(L (W xd2 x9d xff xff xe1 xba x98 x43)))
(T (W x54 x1e xfe xff xd6 x1d xfe xff)
(L (W x04 x00 x00 x00 x78 x20 xff xff)) E))
(T (W x54 x5e xfd xff x00 x00 x00 x00)
(T (W x00 x00 x00 x00 x1a xe6 xfd xff)
(L (W x00 x00 x00 x00 x01 x00 x00 x00))
(L (W x00 x00 x00 x00 x00 x00 x00 x00)))
(T (W x00 x00 x00 x00 x00 x00 x00 x00)
(L (W x5c x00 x00 x00 x50 x00 x00 x00)) E)))
(T (W x00 x00 x00 x00 x58 xfe xfc xff)
(T (W x1c x01 x00 x00 x01 x00 x00 x00)
(T (W x45 x26 x22 x84 xe4 x9c xf2 xcb)
(L (W x00 x00 xa0 x40 x24 x01 x00 x00))
(L (W x45 x26 x22 x84 xe4 x9c xf2 xcb)))
(T (W x45 x26 x22 x84 xe4 x9c xf2 xcb)
(L (W x01 x00 x00 x00 x00 x00 x80 x3f)) E))
(T (W x5c x00 x00 x00 x50 x00 x00 x00)
(T (W x45 x26 x22 x84 xe4 x9c xf2 xcb)
(L (W x00 x00 x00 x00 x01 x00 x00 x00))
(L (W x00 x00 x00 x00 x00 x00 x00 x00)))
(T (W x45 x26 x22 x84 xe4 x9c xf2 xcb)
(L (W x45 x26 x22 x84 xe4 x9c xf2 xcb)) E))))
(T (W x04 x00 x00 x00 x92 xd3 xfc xff)
(T (W x3c x01 x00 x00 x30 x01 x00 x00)
(T (W x01 x00 x00 x00 x04 x00 x00 x00)
(T (W x04 x00 x00 x00 x78 xb0 xfd xff)
(L (W x00 x00 x00 x00 x58 xae xfe xff))
(L (W x78 x00 x00 x00 x6c x00 x00 x00)))
(T (W x00 x00 x00 x00 x00 x00 x00 x00)
(L (W x20 x39 x45 xdc x00 xd4 x55 x2f)) E))
(T (W x45 x41 x30 x32 x5f x30 x30 x37)
(T (W x44 x00 x00 x00 x30 x00 x00 x00)
(L (W x54 xee xfe xff x00 x00 x00 x00))
(L (W xc7 x5a x69 x12 x83 x78 x37 xc6)))
(T (W x44 x00 x00 x00 x38 x00 x00 x00)
(L (W x00 x00 x00 x00 x00 x00 x00 x00)) E)))
(T (W x00 x00 x80 x3f x00 x00 x80 x3f)
(T (W x00 x00 x00 x00 x00 x00 x00 x00)
(T (W x00 x00 x00 x00 x01 x00 x00 x00)
(L (W x00 x00 x00 x00 x00 x00 x00 x00))
(L (W x04 x00 x00 x00 x92 xd3 xff xff)))
(T (W x54 x4e xfe xff xd6 x4d xfe xff)
(L (W xcd x4c x17 x44 x00 x00 x00 x00)) E))
(T (W x45 x26 x22 x84 xe4 x9c xf2 xcb)
(T (W x56 xd9 xcd xe1 x03 xeb x4c xbd)
(L (W x00 x00 x00 x00 x00 x00 x00 x00)) E)
(T (W x45 x41 x30 x32 x5f x30 x31 x32)
(L (W x00 x00 x80 x40 x24 x01 x00 x00)) E)))))))
(T (W x4a x7c xff xff x00 x00 x00 x01)
(T (W x00 x00 x80 xbf x9c x00 x00 x00)
(T (W x45 x26 x22 x84 xe4 x9c xf2 xcb)
(T (W x74 x00 x00 x00 x68 x00 x00 x00)
(T (W x00 x00 x00 x00 x58 xd4 xfc xff)
(T (W x5f x4d x41 x53 x53 x5f x47 x41)
(T (W x45 x26 x22 x84 xe4 x9c xf2 xcb)
(L (W x40 x00 x00 x00 x38 x00 x00 x00))
(L (W x40 x00 x00 x00 x38 x00 x00 x00)))
(T (W x44 x00 x00 x00 x38 x00 x00 x00)
(L (W x54 x00 x00 x00 x48 x00 x00 x00)) E))
(T (W x5f x4d x41 x53 x53 x5f x47 x41)
(T (W x00 x00 x00 x00 x00 x00 x00 x00)
(L (W x04 x00 x00 x00 x00 x00 x00 x00))
(L (W x45 x26 x22 x84 xe4 x9c xf2 xcb)))
(T (W x45 x26 x22 x84 xe4 x9c xf2 xcb)
(L (W x40 x00 x00 x00 x38 x00 x00 x00)) E)))
(T (W x45 x26 x22 x84 xe4 x9c xf2 xcb)
(T (W x2c x00 x00 x00 x18 x00 x00 x00)
(T (W x00 x00 x80 x3f x02 x00 x00 x00)
(L (W x45 x41 x30 x32 x5f x30 x32 x34))
(L (W x01 x00 x00 x00 x00 x00 x80 x3f)))
(T (W x00 x00 x00 x00 xd6 x33 xfe xff)
(L (W x48 x00 x00 x00 x34 x00 x00 x00)) E))
(T (W xd7 x91 x64 x23 x15 xdb xaf x1d)
(T (W x34 x00 x00 x00 x20 x00 x00 x00)
(L (W x5c x00 x00 x00 x50 x00 x00 x00))
(L (W x45 x26 x22 x84 xe4 x9c xf2 xcb)))
(T (W x00 x00 x80 x3f x00 x00 x80 x3f)
(L (W xd2 x73 xff xff x00 x00 x80 x3f)) E))))
(T (W x00 x00 x80 xbf x00 x00 x80 xbf)
(T (W x4f x84 x6f x8b xe8 xcb x63 xb7)
(T (W x45 x26 x22 x84 xe4 x9c xf2 xcb)
(T (W x62 xe1 x1b x72 x9d x0e xa7 xbe)
(L (W x00 x00 x00 x00 x00 x00 x00 x00))
(L (W x34 x00 x00 x00 x20 x00 x00 x00)))
(T (W x00 x00 x80 xbf x9c x00 x00 x00)
(L (W x00 x00 xe0 x40 x24 x01 x00 x00)) E))
(T (W x00 x00 x00 x00 x00 x00 x00 x00)
(T (W x45 x26 x22 x84 xe4 x9c xf2 xcb)
(L (W x3c x01 x00 x00 x30 x01 x00 x00))
(L (W x34 x00 x00 x00 x20 x00 x00 x00)))
(T (W x54 x64 xfe xff xd6 x63 xfe xff)
(L (W x00 x00 x80 xbf x00 x00 x80 xbf)) E)))
(T (W x00 x00 x00 x00 x00 x00 x00 x00)
(T (W x54 x44 xfd xff x00 x00 x00 x00)
(T (W x00 x00 x00 x00 x01 x00 x00 x00)
(L (W x00 x00 x00 x00 x58 xc4 xfe xff))
(L (W x55 x6c xfc xf1 x99 x9e xc9 x88)))
(T (W x45 x26 x22 x84 xe4 x9c xf2 xcb)
(L (W x45 x26 x22 x84 xe4 x9c xf2 xcb)) E))
(T (W x1c x01 x00 x00 x01 x00 x00 x00)
(T (W x00 x00 x80 x3f x00 x00 x80 x3f)
(L (W x01 x00 x00 x00 x04 x00 x00 x00)) E)
(T (W x00 x00 x00 x00 x00 x00 x00 x00)
(L (W x45 x26 x22 x84 xe4 x9c xf2 xcb)) E)))))
(T (W x3f x7c x88 xaf x9a x1e x19 x7c)
(T (W x00 x00 x00 x00 x00 x00 x00 x00)
(T (W x00 x00 x00 x00 x00 x00 x00 x00)
(T (W x1c x01 x00 x00 x04 x00 x00 x00)
(T (W xd2 x9b xfd xff x00 x00 x80 x3f)
(L (W x45 x26 x22 x84 xe4 x9c xf2 xcb))
(L (W x44 x00 x00 x00 x30 x00 x00 x00)))
(T (W x55 x6c xfc xf1 x99 x9e xc9 x88)
(L (W x00 x00 x00 x00 x00 x00 x00 x00)) E))
(T (W x45 x26 x22 x84 xe4 x9c xf2 xcb)
(T (W x5f x4e x45 x57 x5f x4f x55 x54)
(L (W x00 x00 x00 x00 x00 x00 x00 x00))
(L (W x00 x00 x00 x00 x00 x00 x00 x00)))
(T (W x00 x00 x00 x00 x00 x00 x00 x00)
(L (W x00 x00 x00 x00 x01 x00 x00 x00)) E)))
(T (W x45 x26 x22 x84 xe4 x9c xf2 xcb)
(T (W x1c x00 x00 x00 x46 x53 x59 x53)
(T (W x44 x00 x00 x00 x38 x00 x00 x00)
(L (W x00 x00 x00 x00 x00 x00 x00 x00))
(L (W x00 x00 x00 x00 x58 xbc xff xff)))
(T (W x54 x00 x00 x00 x48 x00 x00 x00)
(L (W x00 x00 x00 x00 x1a x44 xff xff)) E))
(T (W x00 x00 x00 x00 x00 x00 x00 x00)
(T (W x00 x00 x00 x00 x58 xfc xfd xff)
(L (W x00 x00 x80 xbf x9c x00 x00 x00))
(L (W x5c x00 x40 x00 x48 x00 x04 x00)))
(T (W x54 x00 x00 x00 x48 x00 x00 x00)
(L (W x04 x00 x00 x00 x92 x81 xff xff)) E))))
(T (W x00 x00 x00 x00 x01 x00 x00 x00)
(T (W x4e x45 x52 x41 x54 x49 x4f x4e)
(T (W x45 x26 x22 x84 xe4 x9c xf2 xcb)
(T (W x00 x00 x00 x00 x00 x00 x00 x00)
(L (W x45 x26 x22 x84 xe4 x9c xf2 xcb))
(L (W x00 x00 x00 x00 x00 x00 x00 x00)))
(T (W x00 x00 x00 x00 x00 x00 x00 x00)
(L (W xfc x2e xff xff x50 x00 x00 x00)) E))
(T (W x1c x00 x00 x00 x46 x53 x59 x53)
(T (W x00 x00 x00 x00 x00 x00 x00 x00)
(L (W x45 x26 x22 x84 xe4 x9c xf2 xcb))
(L (W x00 x00 x00 x00 x58 xec xff xff)))
(T (W x45 x26 x22 x84 xe4 x9c xf2 xcb)
(L (W x01 x00 x00 x00 x04 x00 x00 x00)) E)))
(T (W xd6 x81 x9c x94 x9b x27 x57 x25)
(T (W x45 x26 x22 x84 xe4 x9c xf2 xcb)
(T (W x00 x00 x80 xbf x9c x00 x00 x00)
(L (W xd2 xcb xfe xff x00 x00 x80 x3f))
(L (W x34 x00 x00 x00 x20 x00 x00 x00)))
(T (W x55 x6c xfc xf1 x99 x9e xc9 x88)
(L (W x28 x00 x00 x00 x14 x00 x00 x00)) E))
(T (W x54 x00 x00 x00 x48 x00 x00 x00)
(T (W x1c x01 x00 x00 x01 x00 x00 x00)
(L (W x54 x0c xff xff xd6 x0b xff xff)) E)
(T (W x00 x00 x00 x00 x00 x00 x00 x00)
(L (W x0a xf7 x17 x44 x00 x00 x00 x00)) E))))))
(T (W x04 x00 x00 x00 x00 x00 x00 x00)
(T (W x54 xa8 xfc xff x00 x00 x00 x00)
(T (W xd2 xb7 xfc xff x00 x00 x80 x3f)
(T (W x2c x00 x00 x00 x20 x00 x00 x00)
(T (W x1c x01 x00 x00 x04 x00 x00 x00)
(T (W x78 x00 x00 x00 x6c x00 x00 x00)
(L (W x45 x26 x22 x84 xe4 x9c xf2 xcb))
(L (W x19 xd6 xac x28 xbf xd0 x59 x6a)))
(T (W x00 x00 x00 x00 x00 x00 x00 x00)
(L (W x2c x00 x00 x00 x20 x00 x00 x00)) E))
(T (W x1c x01 x00 x00 x01 x00 x00 x00)
(T (W xd2 xd7 xfd xff x00 x00 x80 x3f)
(L (W x45 x26 x22 x84 xe4 x9c xf2 xcb))
(L (W x74 x00 x00 x00 x68 x00 x00 x00)))
(T (W x54 x58 xfe xff x00 x00 x00 x00)
(L (W xc1 xa8 xaa x28 xbf xd5 x56 x6a)) E)))
(T (W x40 x00 x00 x00 x38 x00 x00 x00)
(T (W xd7 xe3 x3f x43 xa4 x70 x47 x42)
(T (W x04 x00 x00 x00 x92 xbd xfd xff)
(L (W x04 x00 x00 x00 x40 xb8 xfe xff))
(L (W x00 x00 x00 x00 x01 x00 x00 x00)))
(T (W x3c x01 x00 x00 x30 x01 x00 x00)
(L (W x54 x38 xff xff xd6 x37 xff xff)) E))
(T (W x45 x26 x22 x84 xe4 x9c xf2 xcb)
(T (W x00 x00 x00 x00 x01 x00 x00 x00)
(L (W x00 x00 x00 x00 x00 x00 x00 x00))
(L (W x00 x00 x00 x00 x00 x00 x00 x00)))
(T (W x3c x01 x00 x00 x30 x01 x00 x00)
(L (W x3c x01 x00 x00 x30 x01 x00 x00)) E))))
(T (W x00 x00 x00 x00 x01 x00 x00 x00)
(T (W x00 x00 x00 x00 x00 x00 x00 x00)
(T (W x45 x26 x22 x84 xe4 x9c xf2 xcb)
(T (W x45 x26 x22 x84 xe4 x9c xf2 xcb)
(L (W x00 x00 x80 xbf x9c x00 x00 x00))
(L (W x45 x26 x22 x84 xe4 x9c xf2 xcb)))
(T (W x45 x26 x22 x84 xe4 x9c xf2 xcb)
(L (W x00 x00 x00 x00 x01 x00 x00 x00)) E))
(T (W x00 x00 x00 x00 xd6 x67 xfd xff)
(T (W xfc xea xfd xff x50 x00 x00 x00)
(L (W x34 x00 x00 x00 x20 x00 x00 x00))
(L (W x45 x26 x22 x84 xe4 x9c xf2 xcb)))
(T (W x34 x00 x00 x00 x20 x00 x00 x00)
(L (W x40 x00 x00 x00 x38 x00 x00 x00)) E)))
(T (W x00 x00 x00 x00 x01 x00 x00 x00)
(T (W x00 x00 x00 x00 x00 x00 x00 x00)
(T (W x00 x00 x80 x3f x00 x00 x80 x3f)
(L (W x00 x00 x00 x00 x00 x00 x00 x00))
(L (W x00 x00 x00 x00 x00 x00 x00 x00)))
(T (W x74 x00 x00 x00 x68 x00 x00 x00)
(L (W x45 x26 x22 x84 xe4 x9c xf2 xcb)) E))
(T (W x8e x21 x5f xa5 x66 x6e xcb x4c)
(T (W x00 x00 x00 x00 x00 x00 x00 x00)
(L (W x00 x00 x00 x00 x01 x00 x00 x00)) E)
(T (W x54 x88 xfe xff x00 x00 x00 x00)
(L (W x00 x00 x00 x00 x58 x88 xff xff)) E)))))
(T (W x00 x00 x00 x00 x00 x00 x00 x00)
(T (W x5f x30 x30 x36 x00 x00 x00 x00)
(T (W x04 x00 x00 x00 x40 xe0 xfc xff)
(T (W x00 x00 x80 xbf x00 x00 x80 xbf)
(T (W x00 x00 x80 x3f x02 x00 x00 x00)
(L (W x45 x26 x22 x84 xe4 x9c xf2 xcb))
(L (W x00 x00 x00 x00 x00 x00 x00 x00)))
(T (W x1c x00 x00 x00 x46 x53 x59 x53)
(L (W xd2 x1f xff xff x00 x00 x80 x3f)) E))
(T (W x00 x00 x00 x00 x58 x60 xfd xff)
(T (W x34 x00 x00 x00 x20 x00 x00 x00)
(L (W x44 x00 x00 x00 x30 x00 x00 x00))
(L (W x3c x01 x00 x00 x30 x01 x00 x00)))
(T (W x00 x00 x00 x00 x01 x00 x00 x00)
(L (W x54 x60 xff xff xd6 x5f xff xff)) E)))
(T (W x44 x00 x00 x00 x38 x00 x00 x00)
(T (W x45 x26 x22 x84 xe4 x9c xf2 xcb)
(T (W x00 x00 x00 x00 x00 x00 x00 x00)
(L (W x77 x19 x17 x81 x4e x23 x5a xc2))
(L (W x00 x00 x00 x00 x00 x00 x00 x00)))
(T (W x45 x26 x22 x84 xe4 x9c xf2 xcb)
(L (W x00 x00 x00 x00 x01 x00 x00 x00)) E))
(T (W x54 x80 xfd xff xd6 x7f xfd xff)
(T (W x54 x00 xfe xff x00 x00 x00 x00)
(L (W x40 x00 x00 x00 x38 x00 x00 x00))
(L (W x45 x26 x22 x84 xe4 x9c xf2 xcb)))
(T (W x00 x00 x00 x00 x58 x80 xfe xff)
(L (W x54 x80 xff xff x00 x00 x00 x00)) E))))
(T (W x45 x26 x22 x84 xe4 x9c xf2 xcb)
(T (W x04 x00 x00 x00 x00 x00 x80 x3f)
(T (W x45 x26 x22 x84 xe4 x9c xf2 xcb)
(T (W xd2 xaf xfd xff x00 x00 x80 x3f)
(L (W x2c x00 x00 x00 x20 x00 x00 x00))
(L (W x00 x00 x00 x00 xd6 xaf xff xff)))
(T (W x78 x00 x00 x00 x6c x00 x00 x00)
(L (W x00 x00 x00 x00 x00 x00 x00 x00)) E))
(T (W x00 x00 x80 x40 x24 x01 x00 x00)
(T (W x66 x06 x61 x44 x9a x99 x11 x42)
(L (W x62 x6a xff x4b x84 x9b x7b x61))
(L (W x00 x00 x00 x00 x00 x00 x00 x00)))
(T (W x00 x00 x00 x00 x00 x00 x00 x00)
(L (W x00 x00 x00 x00 x00 x00 x00 x00)) E)))
(T (W x33 xb3 xef x42 x8f x42 x38 x43)
(T (W x1c x00 x00 x00 x46 x53 x59 x53)
(T (W x45 x26 x22 x84 xe4 x9c xf2 xcb)
(L (W x00 x00 x80 xbf x00 x00 x80 xbf))
(L (W x45 x26 x22 x84 xe4 x9c xf2 xcb)))
(T (W x00 x00 x00 x00 x1a x58 xfe xff)
(L (W x00 x00 x80 x40 x24 x01 x00 x00)) E))
(T (W x00 x00 x00 x00 x58 x90 xfd xff)
(T (W x54 x00 x00 x00 x48 x00 x00 x00)
(L (W x01 x00 x00 x00 x00 x00 x80 x3f)) E)
(T (W x00 x00 x80 xbf x9c x00 x00 x00)
(L (W x85 x2b xc8 x8e x92 xa6 x83 xb3)) E))))))))))
(T (W xa4 x22 x03 x00 xd8 x20 x03 x00)
(T (W x08 xe8 x02 x00 x38 xe6 x02 x00)
(T (W x3c x72 x02 x00 x70 x70 x02 x00)
(T (W xcc x85 x01 x00 xfc x83 x01 x00)
(T (W x14 x99 xfc xff x00 x00 x00 x00)
(T (W x00 x00 x00 x00 x00 x00 x00 x00)
(T (W x5f x30 x31 x34 x00 x00 x00 x00)
(T (W x04 x00 x00 x00 x00 xd1 xfc xff)
(T (W x54 x00 x00 x00 x48 x00 x00 x00)
(T (W x00 x00 x80 x3f x00 x00 x80 x3f)
(L (W x5c x0e xb9 x28 xbf xcd x67 x6a))
(L (W x00 x00 x00 x00 x00 x00 x00 x00)))
(T (W x14 x11 xfe xff x00 x00 x00 x00)
(L (W x44 x00 x00 x00 x38 x00 x00 x00)) E))
(T (W x45 x26 x22 x84 xe4 x9c xf2 xcb)
(T (W x44 x00 x00 x00 x30 x00 x00 x00)
(L (W x2c x00 x00 x00 x20 x00 x00 x00))
(L (W x74 x00 x00 x00 x68 x00 x00 x00)))
(T (W x14 x51 xfe xff x00 x00 x00 x00)
(L (W x01 x00 x00 x00 x04 x00 x00 x00)) E)))
(T (W x44 x00 x00 x00 x38 x00 x00 x00)
(T (W x00 x00 x00 x00 x00 x00 x00 x00)
(T (W x54 x00 x00 x00 x48 x00 x00 x00)
(L (W x00 x00 x00 x00 x00 x00 x00 x00))
(L (W x04 x00 x00 x00 x52 xb6 xff xff)))
(T (W x00 x00 x80 xbf x00 x00 x80 xbf)
(L (W x5f x4e x45 x57 x5f x4f x55 x54)) E))
(T (W x01 x00 x00 x00 x04 x00 x00 x00)
(T (W x45 x26 x22 x84 xe4 x9c xf2 xcb)
(L (W x00 x00 x00 x00 x00 x00 x00 x00))
(L (W x01 x00 x00 x00 x00 x00 x80 x3f)))
(T (W x00 x00 x40 x40 x24 x01 x00 x00)
(L (W x28 x01 x00 x00 x20 x01 x00 x00)) E))))
(T (W x00 x00 x00 x00 x18 xc1 xfc xff)
(T (W x04 x00 x00 x00 x00 x00 x80 x3f)
(T (W x44 x00 x00 x00 x38 x00 x00 x00)
(T (W x44 x00 x00 x00 x38 x00 x00 x00)
(L (W x00 x00 x00 x00 x01 x00 x00 x00))
(L (W x45 x26 x22 x84 xe4 x9c xf2 xcb)))
(T (W x45 x26 x22 x84 xe4 x9c xf2 xcb)
(L (W x04 x00 x00 x00 x00 x00 x00 x00)) E))
(T (W x00 x00 x80 x3f x00 x00 x80 x3f)
(T (W x45 x26 x22 x84 xe4 x9c xf2 xcb)
(L (W x00 x00 x00 x00 x01 x00 x00 x00))
(L (W x00 x00 x00 x00 x18 xe1 xff xff)))
(T (W x1c x01 x00 x00 x01 x00 x00 x00)
(L (W x45 x26 x22 x84 xe4 x9c xf2 xcb)) E)))
(T (W x5c x8f x3e x42 xc3 xe5 x03 x44)
(T (W x00 x00 x00 x00 x00 x00 x00 x00)
(T (W x5f x4f x55 x54 x42 x52 x45 x41)
(L (W x00 x00 x00 x00 x00 x00 x00 x00))
(L (W x41 x30 x32 x00 xda xc8 xff xff)))
(T (W x28 x00 x00 x00 x14 x00 x00 x00)
(L (W x00 x00 x00 x00 x00 x00 x00 x00)) E))
(T (W x45 x26 x22 x84 xe4 x9c xf2 xcb)
(T (W x00 x00 x80 xbf x9c x00 x00 x00)
(L (W x00 x00 x00 x00 x01 x00 x00 x00)) E)
(T (W x00 x00 x80 x3f x00 x00 x80 x3f)
(L (W x92 x80 xff xff x00 x00 x80 x3f)) E)))))
(T (W x92 xa8 xfc xff x00 x00 x80 x3f)
(T (W x00 x00 x00 x00 x01 x00 x00 x00)
(T (W x00 x00 x00 x00 x00 x00 x00 x00)
(T (W xbc x1b xfd xff x50 x00 x00 x00)
(T (W x00 x00 x80 xbf x00 x00 x80 xbf)
(L (W x55 x39 x81 x6a xc4 xc7 x74 x14))
(L (W x00 x00 x00 x00 x00 x00 x00 x00)))
(T (W xc2 x1c xfe xff x40 x01 x00 x00)
(L (W x00 x00 x00 x00 x00 x00 x00 x00)) E))
(T (W xbc x5b xfd xff x50 x00 x00 x00)
(T (W x54 x00 x00 x00 x48 x00 x00 x00)
(L (W x2c x00 x00 x00 x18 x00 x00 x00))
(L (W xd1 x8a xa9 x6b x7d x03 x9b xe8)))
(T (W x00 x00 x00 x00 x96 x58 xfe xff)
(L (W x00 x00 x00 x00 x00 x00 x00 x00)) E)))
(T (W x00 x00 x00 x00 x01 x00 x00 x00)
(T (W x04 x00 x00 x00 x52 x3e xfd xff)
(T (W x00 x00 x00 x00 x18 xb9 xfd xff)
(L (W x34 x00 x00 x00 x20 x00 x00 x00))
(L (W x00 x00 x00 x00 x00 x00 x00 x00)))
(T (W x00 x00 x00 x00 x18 x39 xfe xff)
(L (W x04 x00 x00 x00 x52 x3e xff xff)) E))
(T (W x45 x26 x22 x84 xe4 x9c xf2 xcb)
(T (W x00 x00 x00 x00 x00 x00 x00 x00)
(L (W x40 x00 x00 x00 x38 x00 x00 x00))
(L (W x45 x26 x22 x84 xe4 x9c xf2 xcb)))
(T (W x00 x00 x00 x00 x18 x79 xfe xff)
(L (W x00 x00 x00 x00 x18 x79 xff xff)) E))))
(T (W x00 x00 x00 x00 x00 x00 x00 x00)
(T (W x40 x00 x00 x00 x38 x00 x00 x00)
(T (W x00 x00 x00 x00 x18 x29 xfd xff)
(T (W x44 x00 x00 x00 x30 x00 x00 x00)
(L (W x06 x85 xa7 x28 xbf x49 x53 x6a))
(L (W x28 x00 x00 x00 x14 x00 x00 x00)))
(T (W x44 x00 x00 x00 x30 x00 x00 x00)
(L (W x00 x00 x00 x00 x00 x00 x00 x00)) E))
(T (W x04 x00 x00 x00 x52 x6e xfd xff)
(T (W x92 xe8 xfd xff x5c x4f x60 x44)
(L (W x45 x26 x22 x84 xe4 x9c xf2 xcb))
(L (W x04 x00 x00 x00 x38 xeb xff xff)))
(T (W x45 x26 x22 x84 xe4 x9c xf2 xcb)
(L (W x00 x00 x00 x00 x01 x00 x00 x00)) E)))
(T (W x1c x01 x00 x00 x04 x00 x00 x00)
(T (W x00 x00 x00 x00 xda x50 xfd xff)
(T (W x40 x00 x00 x00 x38 x00 x00 x00)
(L (W x01 x00 x00 x00 x00 x00 x80 x3f))
(L (W x45 x26 x22 x84 xe4 x9c xf2 xcb)))
(T (W x00 x00 x80 xbf x9c x00 x00 x00)
(L (W x00 x00 x00 x00 x00 x00 x00 x00)) E))
(T (W x00 x00 x00 x00 x00 x00 x00 x00)
(T (W x45 x26 x22 x84 xe4 x9c xf2 xcb)
(L (W x01 x00 x00 x00 x01 x00 x00 x00)) E)
(T (W x00 x00 x80 xbf x9c x00 x00 x00)
(L (W x00 x00 x80 xbf x00 x00 x80 xbf)) E))))))
(T (W x3f x7c x88 xaf x9a x1e x19 x7c)
(T (W x74 x00 x00 x00 x68 x00 x00 x00)
(T (W x00 x00 x80 xbf x00 x00 x80 xbf)
(T (W x4f x84 x6f x8b xe8 xcb x63 xb7)
(T (W x45 x26 x22 x84 xe4 x9c xf2 xcb)
(T (W x00 x00 x00 x00 x00 x00 x00 x00)
(L (W x00 x00 x00 x00 x01 x00 x00 x00))
(L (W x00 x00 x00 x00 x01 x00 x00 x00)))
(T (W x5c x8f x08 x42 xd7 xe3 x5c x44)
(L (W x14 x15 xff xff x00 x00 x00 x00)) E))
(T (W x45 x26 x22 x84 xe4 x9c xf2 xcb)
(T (W x3c x01 x00 x00 x30 x01 x00 x00)
(L (W x00 x00 x00 x00 x00 x00 x00 x00))
(L (W x00 x00 x00 x00 x00 x00 x00 x00)))
(T (W x00 x00 x00 x00 x00 x00 x00 x00)
(L (W x00 x00 x00 x00 x01 x00 x00 x00)) E)))
(T (W x00 x00 x00 x00 x00 x00 x00 x00)
(T (W x8d x4c x2d xf0 x2c x49 x07 xdb)
(T (W x44 x00 x00 x00 x38 x00 x00 x00)
(L (W x54 x01 x00 x00 x48 x01 x00 x00))
(L (W x44 x00 x00 x00 x38 x00 x00 x00)))
(T (W x00 x00 x00 x00 x01 x00 x00 x00)
(L (W x34 x00 x00 x00 x20 x00 x00 x00)) E))
(T (W x45 x26 x22 x84 xe4 x9c xf2 xcb)
(T (W x45 x26 x22 x84 xe4 x9c xf2 xcb)
(L (W x45 x26 x22 x84 xe4 x9c xf2 xcb))
(L (W x00 x00 x00 x00 x01 x00 x00 x00)))
(T (W x54 x00 x00 x00 x48 x00 x00 x00)
(L (W x54 x00 x00 x00 x48 x00 x00 x00)) E))))
(T (W x2c x00 x00 x00 x20 x00 x00 x00)
(T (W x45 x26 x22 x84 xe4 x9c xf2 xcb)
(T (W x00 x00 x00 x00 x00 x00 x00 x00)
(T (W x00 x00 x00 x00 x00 x00 x00 x00)
(L (W x00 x00 x00 x00 x18 xa5 xfe xff))
(L (W x45 x26 x22 x84 xe4 x9c xf2 xcb)))
(T (W x8e x18 xb9 x28 xbf xd3 x67 x6a)
(L (W x01 x00 x00 x00 x04 x00 x00 x00)) E))
(T (W x3c x01 x00 x00 x30 x01 x00 x00)
(T (W x04 x00 x00 x00 x38 xe7 xfd xff)
(L (W x00 x00 x00 x00 x18 xe5 xfe xff))
(L (W x45 x26 x22 x84 xe4 x9c xf2 xcb)))
(T (W x45 x26 x22 x84 xe4 x9c xf2 xcb)
(L (W x2c x00 x00 x00 x20 x00 x00 x00)) E)))
(T (W x5f x4d x41 x53 x53 x5f x47 x41)
(T (W x00 x00 x00 x00 x96 x44 xfd xff)
(T (W x00 x00 x80 xbf x9c x00 x00 x00)
(L (W x45 x26 x22 x84 xe4 x9c xf2 xcb))
(L (W x45 x26 x22 x84 xe4 x9c xf2 xcb)))
(T (W x00 x00 x00 x00 x00 x00 x00 x00)
(L (W x28 x00 x00 x00 x14 x00 x00 x00)) E))
(T (W xbc x87 xfd xff x50 x00 x00 x00)
(T (W x04 x00 x00 x00 x00 x00 x00 x00)
(L (W x14 x05 xff xff x96 x04 xff xff)) E)
(T (W x42 x52 x45 x41 x4b x5f x41 x52)
(L (W x00 x00 x00 x00 x00 x00 x00 x00)) E)))))
(T (W x00 x00 x00 x00 x00 x00 x00 x00)
(T (W x45 x26 x22 x84 xe4 x9c xf2 xcb)
(T (W x4e x45 x52 x41 x54 x49 x4f x4e)
(T (W xbc x1f xfd xff x50 x00 x00 x00)
(T (W x54 x00 x00 x00 x48 x00 x00 x00)
(L (W x00 x00 x00 x00 x00 x00 x00 x00))
(L (W x00 x00 x00 x00 x01 x00 x00 x00)))
(T (W x45 x26 x22 x84 xe4 x9c xf2 xcb)
(L (W x3c x01 x00 x00 x30 x01 x00 x00)) E))
(T (W x04 x00 x00 x00 x38 x5f xfd xff)
(T (W x45 x26 x22 x84 xe4 x9c xf2 xcb)
(L (W x00 x00 x00 x00 xda xe4 xfe xff))
(L (W x40 x00 x00 x00 x38 x00 x00 x00)))
(T (W x5f x4e x45 x57 x5f x4f x55 x54)
(L (W x1c x01 x00 x00 x01 x00 x00 x00)) E)))
(T (W xd6 x81 x9c x94 x9b x27 x57 x25)
(T (W x45 x26 x22 x84 xe4 x9c xf2 xcb)
(T (W x66 x66 x12 x42 xcd x4c x6b x44)
(L (W x45 x26 x22 x84 xe4 x9c xf2 xcb))
(L (W x00 x00 x80 x3f x00 x00 x80 x3f)))
(T (W x14 x3d xfe xff x00 x00 x00 x00)
(L (W x14 x3d xff xff x00 x00 x00 x00)) E))
(T (W x1c x01 x00 x00 x01 x00 x00 x00)
(T (W x00 x00 x80 x3f x00 x00 x80 x3f)
(L (W xa0 x81 xa7 x28 xbf x47 x53 x6a))
(L (W x45 x26 x22 x84 xe4 x9c xf2 xcb)))
(T (W x14 x7d xfe xff x00 x00 x00 x00)
(L (W x00 x00 x00 x00 x18 x7d xff xff)) E))))
(T (W x00 x00 x00 x00 x00 x00 x00 x00)
(T (W x45 x26 x22 x84 xe4 x9c xf2 xcb)
(T (W x48 x00 x00 x00 x34 x00 x00 x00)
(T (W x3c x01 x00 x00 x30 x01 x00 x00)
(L (W x48 x00 x00 x00 x34 x00 x00 x00))
(L (W x00 x00 xa0 x40 x24 x01 x00 x00)))
(T (W x00 x00 x00 x00 x02 x00 x00 x00)
(L (W x92 x2c xff xff xcd x0c x07 x44)) E))
(T (W x45 x26 x22 x84 xe4 x9c xf2 xcb)
(T (W x01 x00 x00 x00 x00 x00 x80 x3f)
(L (W x04 x00 x00 x00 x38 xef xfe xff))
(L (W x45 x26 x22 x84 xe4 x9c xf2 xcb)))
(T (W x28 x00 x00 x00 x14 x00 x00 x00)
(L (W x14 x6d xff xff x96 x6c xff xff)) E)))
(T (W x25 x3d x6c x85 x16 xae x43 x87)
(T (W x04 x00 x00 x00 x52 x52 xfd xff)
(T (W xcb x66 xca xc9 x03 x8d xa3 xbc)
(L (W x54 x00 x00 x00 x48 x00 x00 x00))
(L (W x45 x26 x22 x84 xe4 x9c xf2 xcb)))
(T (W x45 x26 x22 x84 xe4 x9c xf2 xcb)
(L (W x04 x00 x00 x00 x00 x00 x00 x00)) E))
(T (W x14 x8d xfd xff x00 x00 x00 x00)
(T (W xbc x0f xfe xff x50 x00 x00 x00)
(L (W x04 x00 x00 x00 x52 x12 xff xff)) E)
(T (W x45 x26 x22 x84 xe4 x9c xf2 xcb)
(L (W x45 x26 x22 x84 xe4 x9c xf2 xcb)) E)))))))
(T (W x40 x98 x00 x00 x6c x96 x00 x00)
(T (W xbc x9d xfc xff x50 x00 x00 x00)
(T (W x14 xa3 xfc xff x00 x00 x00 x00)
(T (W x00 x00 xe0 x40 x24 x01 x00 x00)
(T (W x48 x00 x00 x00 x34 x00 x00 x00)
(T (W x45 x26 x22 x84 xe4 x9c xf2 xcb)
(T (W x66 x66 x12 x42 x33 x73 x56 x44)
(L (W x00 x00 x00 x00 x00 x00 x00 x00))
(L (W x00 x00 x00 x00 x00 x00 x00 x00)))
(T (W x28 x00 x00 x00 x14 x00 x00 x00)
(L (W x45 x26 x22 x84 xe4 x9c xf2 xcb)) E))
(T (W x45 x26 x22 x84 xe4 x9c xf2 xcb)
(T (W x7b x34 x41 x44 xb8 x1e x17 x42)
(L (W x00 x00 x00 x00 x00 x00 x00 x00))
(L (W x00 x00 x80 x3f x00 x00 x80 x3f)))
(T (W xbc x55 xfe xff x50 x00 x00 x00)
(L (W x00 x00 x00 x00 x00 x00 x00 x00)) E)))
(T (W x45 x26 x22 x84 xe4 x9c xf2 xcb)
(T (W x00 x00 x80 xbf x00 x00 x80 xbf)
(T (W x45 x26 x22 x84 xe4 x9c xf2 xcb)
(L (W x41 x30 x32 x00 xda xba xfe xff))
(L (W x45 x26 x22 x84 xe4 x9c xf2 xcb)))
(T (W xf4 x8c xfc x36 x15 xf9 x4b x40)
(L (W x01 x00 x00 x00 x00 x00 x80 x3f)) E))
(T (W x2c x00 x00 x00 x20 x00 x00 x00)
(T (W x00 x00 x00 x00 x18 xf3 xfd xff)
(L (W x1c x01 x00 x00 x01 x00 x00 x00))
(L (W x34 x00 x00 x00 x20 x00 x00 x00)))
(T (W xed xf8 x41 x44 xb4 x84 x50 x16)
(L (W x60 x49 x36 x08 x1e x40 x40 xb9)) E))))
(T (W x01 x00 x00 x00 x04 x00 x00 x00)
(T (W x34 x00 x00 x00 x20 x00 x00 x00)
(T (W x44 x00 x00 x00 x38 x00 x00 x00)
(T (W x45 x26 x22 x84 xe4 x9c xf2 xcb)
(L (W x40 x00 x00 x00 x38 x00 x00 x00))
(L (W x14 xa3 xff xff x00 x00 x00 x00)))
(T (W x00 x00 x00 x00 x18 x23 xfe xff)
(L (W x45 x26 x22 x84 xe4 x9c xf2 xcb)) E))
(T (W x00 x00 x00 x00 x00 x00 x00 x00)
(T (W x00 x00 x00 x00 x18 xe3 xfd xff)
(L (W x45 x26 x22 x84 xe4 x9c xf2 xcb))
(L (W x44 x00 x00 x00 x38 x00 x00 x00)))
(T (W x45 x26 x22 x84 xe4 x9c xf2 xcb)
(L (W x00 x00 x00 x00 x18 x63 xff xff)) E)))
(T (W x00 x00 x00 x00 x00 x00 x00 x00)
(T (W x04 x00 x00 x00 x38 x45 xfd xff)
(T (W x00 x00 x00 x00 xda xca xfd xff)
(L (W x00 x00 x00 x00 x01 x00 x00 x00))
(L (W x34 x00 x00 x00 x20 x00 x00 x00)))
(T (W xec x51 x20 x42 xc3 xf5 x16 x44)
(L (W x78 x00 x00 x00 x6c x00 x00 x00)) E))
(T (W x14 x83 xfd xff x00 x00 x00 x00)
(T (W xc4 xaf xc2 x6a xbd x69 xb6 x7f)
(L (W x5c x00 x00 x00 x50 x00 x00 x00)) E)
(T (W x00 x00 x00 x00 x00 x00 x00 x00)
(L (W x00 xe0 x32 x44 x00 x00 x00 x00)) E)))))
(T (W xe1 x0a x58 x44 x71 x3d x1d x42)
(T (W x04 x00 x00 x00 x52 xc0 xfc xff)
(T (W x02 x00 x00 x00 x33 x36 x00 x00)
(T (W xc4 xd3 x36 x97 x85 x2e x63 x5f)
(T (W x13 x2e x5f x23 x15 x49 xa9 x1d)
(L (W x00 x00 x80 x3f x00 x00 x80 x3f))
(L (W x01 x00 x00 x00 x00 x00 x80 x3f)))
(T (W x34 x00 x00 x00 x20 x00 x00 x00)
(L (W x57 x53 x59 x53 x5f x4d x41 x53)) E))
(T (W x00 x00 x00 x00 x00 x00 x00 x00)
(T (W x45 x26 x22 x84 xe4 x9c xf2 xcb)
(L (W x92 xda xfe xff xa4 x10 xa6 x43))
(L (W x40 x00 x00 x00 x38 x00 x00 x00)))
(T (W x66 x86 x5a x44 xcd xcc xa8 x42)
(L (W x00 x00 x00 x00 xda x62 xff xff)) E)))
(T (W x60 x00 x00 x00 x54 x00 x00 x00)
(T (W x45 x26 x22 x84 xe4 x9c xf2 xcb)
(T (W x28 x00 x00 x00 x14 x00 x00 x00)
(L (W x00 x00 x00 x00 x01 x00 x00 x00))
(L (W x74 x00 x00 x00 x68 x00 x00 x00)))
(T (W x45 x26 x22 x84 xe4 x9c xf2 xcb)
(L (W x45 x26 x22 x84 xe4 x9c xf2 xcb)) E))
(T (W x00 x00 x00 x00 x00 x00 x00 x00)
(T (W x60 x00 x00 x00 x54 x00 x00 x00)
(L (W x00 x00 x00 x00 x18 xfb xfe xff))
(L (W x45 x26 x22 x84 xe4 x9c xf2 xcb)))
(T (W x45 x26 x22 x84 xe4 x9c xf2 xcb)
(L (W x45 x26 x22 x84 xe4 x9c xf2 xcb)) E))))
(T (W x00 x00 x00 x00 x18 xcb xfc xff)
(T (W x45 x26 x22 x84 xe4 x9c xf2 xcb)
(T (W x00 x00 x00 x00 x01 x00 x00 x00)
(T (W xf6 x28 x41 x44 x1f x85 x09 x42)
(L (W x00 x00 x00 x00 x00 x00 x00 x00))
(L (W xd7 x63 x22 x44 x00 x00 x00 x00)))
(T (W x00 x40 x4e x44 x00 x00 x3b x42)
(L (W x44 x00 x00 x00 x30 x00 x00 x00)) E))
(T (W x45 x26 x22 x84 xe4 x9c xf2 xcb)
(T (W x00 x00 x00 x00 x00 x00 x00 x00)
(L (W x00 x00 x00 x00 x00 x00 x00 x00))
(L (W x48 x00 x00 x00 x34 x00 x00 x00)))
(T (W x00 x00 x00 x00 x18 x6b xfe xff)
(L (W x55 x6c xfc xf1 x99 x9e xc9 x88)) E)))
(T (W x00 x00 x80 xbf x9c x00 x00 x00)
(T (W x34 x00 x00 x00 x20 x00 x00 x00)
(T (W x00 x00 x00 x00 x18 xcb xfd xff)
(L (W xd5 x95 x89 xf3 x1d x28 x5e x95))
(L (W x14 xcb xff xff x00 x00 x00 x00)))
(T (W x34 x00 x00 x00 x20 x00 x00 x00)
(L (W x00 x00 x80 xbf x00 x00 x80 xbf)) E))
(T (W x00 x00 x00 x00 x00 x00 x00 x00)
(T (W x45 x26 x22 x84 xe4 x9c xf2 xcb)
(L (W x45 x26 x22 x84 xe4 x9c xf2 xcb)) E)
(T (W x00 x00 x00 x00 x01 x00 x00 x00)
(L (W x04 x00 x00 x00 x00 x00 x00 x00)) E))))))
(T (W x00 x00 x00 x00 x00 x00 x00 x00)
(T (W x28 x00 x00 x00 x14 x00 x00 x00)
(T (W x9b xde x86 x67 x2b x00 xf1 x8e)
(T (W x00 x00 x80 x3f x18 xd7 xfc xff)
(T (W x14 x17 xfd xff x00 x00 x00 x00)
(T (W x00 x00 x40 x40 x24 x01 x00 x00)
(L (W x60 x00 x00 x00 x54 x00 x00 x00))
(L (W x45 x26 x22 x84 xe4 x9c xf2 xcb)))
(T (W x00 x00 x00 x00 x00 x00 x00 x00)
(L (W x45 x26 x22 x84 xe4 x9c xf2 xcb)) E))
(T (W x14 x57 xfd xff x00 x00 x00 x00)
(T (W xd5 xa2 x32 x19 x15 x7b xe9 x0b)
(L (W x14 xd7 xfe xff x00 x00 x00 x00))
(L (W x00 x00 x40 x40 x24 x01 x00 x00)))
(T (W x04 x00 x00 x00 x38 x59 xfe xff)
(L (W x45 x26 x22 x84 xe4 x9c xf2 xcb)) E)))
(T (W x00 x00 x00 x00 x00 x00 x00 x00)
(T (W x00 x00 x00 x00 x01 x00 x00 x00)
(T (W x45 x26 x22 x84 xe4 x9c xf2 xcb)
(L (W x34 x01 x00 x00 x00 x00 x80 x40))
(L (W x44 x00 x00 x00 x38 x00 x00 x00)))
(T (W x45 x26 x22 x84 xe4 x9c xf2 xcb)
(L (W x45 x26 x22 x84 xe4 x9c xf2 xcb)) E))
(T (W x14 x77 xfd xff x00 x00 x00 x00)
(T (W x00 x00 x00 x00 x00 x00 x00 x00)
(L (W x00 x00 x00 x00 x01 x00 x00 x00))
(L (W x45 x26 x22 x84 xe4 x9c xf2 xcb)))
(T (W x45 x26 x22 x84 xe4 x9c xf2 xcb)
(L (W x45 x26 x22 x84 xe4 x9c xf2 xcb)) E))))
(T (W x45 x26 x22 x84 xe4 x9c xf2 xcb)
(T (W x00 x00 x00 x00 x01 x00 x00 x00)
(T (W x00 x00 x00 x00 x00 x00 x00 x00)
(T (W x00 x00 x00 x00 x00 x00 x00 x00)
(L (W x01 x00 x00 x00 x04 x00 x00 x00))
(L (W x00 x00 x00 x00 x18 xa7 xff xff)))
(T (W x00 x00 x00 x00 x00 x00 x00 x00)
(L (W x00 x00 x00 x00 x00 x00 x00 x00)) E))
(T (W xc5 xda xaa x00 x15 x31 x9a xe0)
(T (W x00 x00 x00 x00 x96 xe6 xfd xff)
(L (W x44 x00 x00 x00 x38 x00 x00 x00))
(L (W x00 x00 x00 x00 x18 xe7 xff xff)))
(T (W x14 x67 xfe xff x00 x00 x00 x00)
(L (W x00 x00 x00 x00 x00 x00 x00 x00)) E)))
(T (W x0a xeb xff xff x00 x00 x00 x01)
(T (W x00 x00 x00 x00 x00 x00 x00 x00)
(T (W x82 x03 xe0 x32 x27 xf4 x81 x0d)
(L (W x00 x00 x00 x00 x00 x00 x00 x00))
(L (W x00 x00 x00 x00 x01 x00 x00 x00)))
(T (W x00 x00 x80 xbf x00 x00 x80 xbf)
(L (W x9a x99 x25 x42 x00 x20 x18 x44)) E))
(T (W xd3 x3a x45 xdc x00 xd5 x55 x2f)
(T (W x54 x00 x00 x00 x48 x00 x00 x00)
(L (W x00 x00 x00 x00 xda x0e xff xff)) E)
(T (W x54 x49 x4f x4e x5f x41 x52 x45)
(L (W x42 x52 x45 x41 x4b x5f x41 x52)) E)))))
(T (W x46 x53 x59 x53 x5f x4e x45 x57)
(T (W x45 x26 x22 x84 xe4 x9c xf2 xcb)
(T (W x3c x01 x00 x00 x30 x01 x00 x00)
(T (W x2c x00 x00 x00 x20 x00 x00 x00)
(T (W x45 x26 x22 x84 xe4 x9c xf2 xcb)
(L (W x00 x00 x80 xbf x9c x00 x00 x00))
(L (W x04 x00 x00 x00 x52 xa4 xff xff)))
(T (W x45 x26 x22 x84 xe4 x9c xf2 xcb)
(L (W xc6 xcb x0c xfe x1d xf1 x83 xa7)) E))
(T (W x28 x00 x00 x00 x14 x00 x00 x00)
(T (W x14 xdf xfd xff x00 x00 x00 x00)
(L (W x01 x00 x00 x00 x00 x00 x80 x3f))
(L (W x45 x26 x22 x84 xe4 x9c xf2 xcb)))
(T (W x00 x00 x00 x00 xda x66 xfe xff)
(L (W x45 x26 x22 x84 xe4 x9c xf2 xcb)) E)))
(T (W x00 x00 x80 x3f x00 x00 x80 x3f)
(T (W xbc x41 xfd xff x50 x00 x00 x00)
(T (W x00 x00 x00 x00 x00 x00 x00 x00)
(L (W x01 x00 x00 x00 x04 x00 x00 x00))
(L (W x32 x35 x00 x00 x1b x00 x00 x00)))
(T (W x78 x00 x00 x00 x6c x00 x00 x00)
(L (W x44 x00 x00 x00 x38 x00 x00 x00)) E))
(T (W x45 x26 x22 x84 xe4 x9c xf2 xcb)
(T (W x00 x00 x00 x00 x00 x00 x00 x00)
(L (W x00 x00 x00 x00 x00 x00 x00 x00))
(L (W x00 x00 x1a x00 x44 x00 x14 x00)))
(T (W x55 x39 x81 x6a xc4 xc7 x74 x14)
(L (W x04 x00 x00 x00 x38 x81 xff xff)) E))))
(T (W x00 x00 x00 x00 x18 xcf xfc xff)
(T (W x00 x00 x00 x00 x18 xef xfc xff)
(T (W x00 x00 x80 x3f x18 x2f xfd xff)
(T (W xaa x17 x7a x1e x15 x37 x03 x15)
(L (W x45 x26 x22 x84 xe4 x9c xf2 xcb))
(L (W x9a x35 x0c x0c x1e x03 xa7 xc0)))
(T (W x00 x00 x40 x40 x24 x01 x00 x00)
(L (W x00 x00 x00 x00 x00 x00 x00 x00)) E))
(T (W x00 x00 x00 x00 x18 x6f xfd xff)
(T (W x00 x00 x00 x00 x01 x00 x00 x00)
(L (W x00 x00 x00 x00 x96 xee xfe xff))
(L (W x00 x00 x00 x00 x00 x00 x00 x00)))
(T (W x5c x4f x2c x43 x00 x00 x00 x00)
(L (W x1b x00 x00 x00 x57 x53 x59 x53)) E)))
(T (W x04 x00 x00 x00 x00 x00 x00 x00)
(T (W x45 x26 x22 x84 xe4 x9c xf2 xcb)
(T (W x00 x00 x00 x00 x00 x00 x00 x00)
(L (W x45 x26 x22 x84 xe4 x9c xf2 xcb))
(L (W x00 x00 x00 x00 x18 xcf xff xff)))
(T (W x45 x26 x22 x84 xe4 x9c xf2 xcb)
(L (W x45 x26 x22 x84 xe4 x9c xf2 xcb)) E))
(T (W x74 x00 x00 x00 x68 x00 x00 x00)
(T (W x00 x00 x00 x00 x00 x00 x00 x00)
(L (W x45 x26 x22 x84 xe4 x9c xf2 xcb)) E)
(T (W x00 x00 x00 x00 x18 x8f xfe xff)
(L (W x01 x00 x00 x00 x04 x00 x00 x00)) E))))))))
(T (W x14 xfc x01 x00 x48 xfa x01 x00)
(T (W xdc x0f x01 x00 xec x0d x01 x00)
(T (W x00 x00 x00 x00 x1c x00 x00 x00)
(T (W x34 x00 x00 x00 x20 x00 x00 x00)
(T (W x45 x26 x22 x84 xe4 x9c xf2 xcb)
(T (W x04 x00 x00 x00 x00 x00 x00 x00)
(T (W x4f x84 x6f x8b xe8 xcb x63 xb7)
(T (W x45 x26 x22 x84 xe4 x9c xf2 xcb)
(L (W x00 x00 x80 xbf x00 x00 x80 xbf))
(L (W x00 x00 x80 xbf x00 x00 x80 xbf)))
(T (W x00 x00 x00 x00 x01 x00 x00 x00)
(L (W x41 x30 x32 x00 xda x19 xff xff)) E))
(T (W x00 x00 x80 x3f x00 x00 x80 x3f)
(T (W x45 x26 x22 x84 xe4 x9c xf2 xcb)
(L (W x3c x01 x00 x00 x30 x01 x00 x00))
(L (W x45 x26 x22 x84 xe4 x9c xf2 xcb)))
(T (W x00 x00 x00 x00 x00 x00 x00 x00)
(L (W x3c x01 x00 x00 x30 x01 x00 x00)) E)))
(T (W x5f x41 x52 x45 x41 x30 x32 x00)
(T (W x6a xc0 x1c x76 x80 xbe xf7 x18)
(T (W x45 x26 x22 x84 xe4 x9c xf2 xcb)
(L (W x44 x00 x00 x00 x38 x00 x00 x00))
(L (W x45 x26 x22 x84 xe4 x9c xf2 xcb)))
(T (W x00 x00 x00 x00 x00 x00 x00 x00)
(L (W x2c x00 x00 x00 x20 x00 x00 x00)) E))
(T (W x5f x4e x45 x57 x5f x4f x55 x54)
(T (W x14 xf2 xfd xff x96 xf1 xfd xff)
(L (W x44 x00 x00 x00 x38 x00 x00 x00))
(L (W x00 x00 x00 x00 x00 x00 x00 x00)))
(T (W x00 x00 x00 x00 x00 x00 x00 x00)
(L (W x00 x00 x00 x00 x00 x00 x00 x00)) E))))
(T (W x00 x00 x00 x00 x00 x00 x00 x00)
(T (W x00 x00 x00 x00 x00 x00 x00 x00)
(T (W x18 x00 x1c x00 x00 x00 x00 x00)
(T (W x5f x30 x30 x39 x00 x00 x00 x00)
(L (W x2c x00 x00 x00 x18 x00 x00 x00))
(L (W x00 x00 x80 x3f x00 x00 x80 x3f)))
(T (W x14 xae x25 x42 xe1 x6a x11 x44)
(L (W x44 x00 x00 x00 x30 x00 x00 x00)) E))
(T (W x00 x00 x00 x00 x18 x62 xfd xff)
(T (W x00 x00 x80 xbf x9c x00 x00 x00)
(L (W x5c x00 x00 x00 x50 x00 x00 x00))
(L (W x46 x53 x59 x53 x5f x4e x45 x57)))
(T (W x00 x00 x00 x00 x00 x00 x00 x00)
(L (W x00 x00 x80 x3f x00 x00 x80 x3f)) E)))
(T (W x00 x00 x00 x00 x18 x02 xfd xff)
(T (W x77 x1e x81 xf7 x04 x46 x67 xb1)
(T (W x2c x00 x00 x00 x20 x00 x00 x00)
(L (W x56 x8d x89 xf3 x1d x23 x5e x95))
(L (W x45 x26 x22 x84 xe4 x9c xf2 xcb)))
(T (W x45 x26 x22 x84 xe4 x9c xf2 xcb)
(L (W x45 x26 x22 x84 xe4 x9c xf2 xcb)) E))
(T (W x00 x00 x80 x3f x00 x00 x80 x3f)
(T (W x00 x00 x00 x00 x18 x02 xfe xff)
(L (W x00 x00 x00 x00 x01 x00 x00 x00)) E)
(T (W x14 x82 xfe xff x00 x00 x00 x00)
(L (W x45 x26 x22 x84 xe4 x9c xf2 xcb)) E)))))
(T (W x45 x26 x22 x84 xe4 x9c xf2 xcb)
(T (W x5c x00 x00 x00 x50 x00 x00 x00)
(T (W x14 xda xfc xff x00 x00 x00 x00)
(T (W x4e x45 x52 x41 x54 x49 x4f x4e)
(T (W x00 x00 x00 x00 x00 x00 x00 x00)
(L (W x45 x26 x22 x84 xe4 x9c xf2 xcb))
(L (W x2c x00 x00 x00 x20 x00 x00 x00)))
(T (W x45 x26 x22 x84 xe4 x9c xf2 xcb)
(L (W x00 x00 x00 x00 x18 x1a xff xff)) E))
(T (W x00 x00 xa0 x40 x24 x01 x00 x00)
(T (W x55 x6c xfc xf1 x99 x9e xc9 x88)
(L (W x45 x26 x22 x84 xe4 x9c xf2 xcb))
(L (W x04 x00 x00 x00 x38 xdc xff xff)))
(T (W x45 x26 x22 x84 xe4 x9c xf2 xcb)
(L (W x00 x00 x00 x00 x18 x5a xff xff)) E)))
(T (W x00 x00 x00 x00 x01 x00 x00 x00)
(T (W x55 x39 x81 x6a xc4 xc7 x74 x14)
(T (W x00 x00 x00 x00 x01 x00 x00 x00)
(L (W x14 xba xfe xff x00 x00 x00 x00))
(L (W x45 x26 x22 x84 xe4 x9c xf2 xcb)))
(T (W x00 x00 x00 x00 xda x41 xfe xff)
(L (W x55 x39 x81 x6a xc4 xc7 x74 x14)) E))
(T (W x45 x26 x22 x84 xe4 x9c xf2 xcb)
(T (W x00 x00 x00 x00 x01 x00 x00 x00)
(L (W x92 xf9 xfe xff x00 x00 x80 x3f))
(L (W x00 x00 x00 x00 x00 x00 x00 x00)))
(T (W x00 x00 x00 x00 xda x81 xfe xff)
(L (W x00 x00 x00 x00 x00 x00 x00 x00)) E))))
(T (W x00 x00 x80 xbf x9c x00 x00 x00)
(T (W x00 x00 x00 x00 x96 xe9 xfc xff)
(T (W x00 x00 x00 x00 x01 x00 x00 x00)
(T (W x45 x26 x22 x84 xe4 x9c xf2 xcb)
(L (W x00 x00 x80 xbf x00 x00 x80 xbf))
(L (W x45 x26 x22 x84 xe4 x9c xf2 xcb)))
(T (W x45 x26 x22 x84 xe4 x9c xf2 xcb)
(L (W x04 x00 x00 x00 x00 x00 x00 x00)) E))
(T (W x55 x39 x81 x6a xc4 xc7 x74 x14)
(T (W x45 x26 x22 x84 xe4 x9c xf2 xcb)
(L (W x00 x00 xa0 x40 x24 x01 x00 x00))
(L (W x04 x00 x00 x00 x00 x00 x00 x00)))
(T (W x00 x00 x80 xbf x9c x00 x00 x00)
(L (W x54 x00 x00 x00 x48 x00 x00 x00)) E)))
(T (W x00 x00 x00 x00 x00 x00 x00 x00)
(T (W x45 x26 x22 x84 xe4 x9c xf2 xcb)
(T (W x92 xc9 xfd xff x00 x00 x80 x3f)
(L (W x00 x00 x00 x00 x00 x00 x00 x00))
(L (W xd7 xe3 xd7 x43 x00 x00 x00 x00)))
(T (W x5f x4e x45 x57 x5f x4f x55 x54)
(L (W x66 xd4 xac x28 xbf xcf x59 x6a)) E))
(T (W x01 x00 x00 x00 x00 x00 x80 x3f)
(T (W x14 x0a xfe xff x96 x09 xfe xff)
(L (W x00 x00 x00 x00 x00 x00 x00 x00)) E)
(T (W x00 x00 x00 x00 x18 x8a xfe xff)
(L (W x00 x00 x00 x00 x00 x00 x00 x00)) E))))))
(T (W x3c x01 x00 x00 x30 x01 x00 x00)
(T (W x00 x00 x00 x00 x01 x00 x00 x00)
(T (W x00 x00 x00 x00 x00 x00 x00 x00)
(T (W x45 x26 x22 x84 xe4 x9c xf2 xcb)
(T (W x00 x00 x00 x00 x00 x00 x00 x00)
(T (W x41 x2f xc8 xc9 x03 x8c xa0 xbc)
(L (W x00 x00 x00 x00 x01 x00 x00 x00))
(L (W x54 x00 x00 x00 x48 x00 x00 x00)))
(T (W x00 x00 x00 x00 x18 x16 xfe xff)
(L (W x04 x00 x00 x00 x52 x1b xff xff)) E))
(T (W x00 x00 x00 x00 x00 x00 x00 x00)
(T (W x00 x00 x00 x00 x00 x00 x00 x00)
(L (W x34 x00 x00 x00 x20 x00 x00 x00))
(L (W x45 x26 x22 x84 xe4 x9c xf2 xcb)))
(T (W xce x3e xef x8e x38 x2d xa5 x4f)
(L (W x54 x00 x00 x00 x48 x00 x00 x00)) E)))
(T (W x00 x00 x80 xbf x00 x00 x80 xbf)
(T (W x00 x00 x00 x00 x01 x00 x00 x00)
(T (W x45 x41 x30 x32 x5f x30 x30 x39)
(L (W x00 x00 x00 x00 x00 x00 x00 x00))
(L (W x18 x00 x1c x00 x20 x00 x00 x00)))
(T (W x5c x00 x00 x00 x50 x00 x00 x00)
(L (W x14 x36 xff xff x00 x00 x00 x00)) E))
(T (W x34 x00 x00 x00 x20 x00 x00 x00)
(T (W x28 x01 x00 x00 x20 x01 x00 x00)
(L (W x78 x00 x00 x00 x6c x00 x00 x00))
(L (W x28 x00 x00 x00 x14 x00 x00 x00)))
(T (W x45 x26 x22 x84 xe4 x9c xf2 xcb)
(L (W x55 x6c xfc xf1 x99 x9e xc9 x88)) E))))
(T (W x0a xaa xff xff x00 x00 x00 x01)
(T (W x78 x00 x00 x00 x6c x00 x00 x00)
(T (W x01 x00 x00 x00 x00 x00 x80 x3f)
(T (W x00 x00 x80 xbf x00 x00 x80 xbf)
(L (W x00 x00 x00 x00 x00 x00 x00 x00))
(L (W x00 x00 x80 xbf x9c x00 x00 x00)))
(T (W x00 x00 x80 xbf x00 x00 x80 xbf)
(L (W x3c x01 x00 x00 x30 x01 x00 x00)) E))
(T (W x00 x00 x00 x00 x00 x00 x00 x00)
(T (W x40 x00 x00 x00 x38 x00 x00 x00)
(L (W x1c x00 x00 x00 x46 x53 x59 x53))
(L (W x00 x00 x80 xbf x9c x00 x00 x00)))
(T (W x00 x00 x80 x3f x00 x00 x80 x3f)
(L (W x01 x00 x00 x00 x00 x00 x80 x3f)) E)))
(T (W x2c x00 x00 x00 x20 x00 x00 x00)
(T (W x45 x26 x22 x84 xe4 x9c xf2 xcb)
(T (W x00 x00 x00 x00 x18 xc6 xfd xff)
(L (W x45 x26 x22 x84 xe4 x9c xf2 xcb))
(L (W x78 x00 x00 x00 x6c x00 x00 x00)))
(T (W xe4 x56 xbb x28 xbf xd8 x6a x6a)
(L (W x45 x26 x22 x84 xe4 x9c xf2 xcb)) E))
(T (W x42 x52 x45 x41 x4b x5f x41 x52)
(T (W x48 x00 x00 x00 x34 x00 x00 x00)
(L (W x00 x00 x00 x00 x18 x06 xff xff)) E)
(T (W xc3 x97 xaa x28 xbf xcb x56 x6a)
(L (W xbc x88 xff xff x50 x00 x00 x00)) E)))))
(T (W x00 x00 x00 x00 x18 xae xfc xff)
(T (W x00 x00 x80 x3f x00 x00 x80 x3f)
(T (W x75 x67 x2e x97 x85 x20 x59 x5f)
(T (W x54 x49 x4f x4e x5f x41 x52 x45)
(T (W x45 x26 x22 x84 xe4 x9c xf2 xcb)
(L (W x45 x26 x22 x84 xe4 x9c xf2 xcb))
(L (W x60 x00 x00 x00 x54 x00 x00 x00)))
(T (W x74 x00 x00 x00 x68 x00 x00 x00)
(L (W x00 x00 x00 x00 x00 x00 x00 x00)) E))
(T (W x40 x00 x00 x00 x38 x00 x00 x00)
(T (W x00 x00 x00 x00 x00 x00 x00 x00)
(L (W x45 x26 x22 x84 xe4 x9c xf2 xcb))
(L (W x00 x00 x00 x00 x96 xdd xff xff)))
(T (W x2c x00 x00 x00 x20 x00 x00 x00)
(L (W x00 x00 x00 x00 x00 x00 x00 x00)) E)))
(T (W x45 x26 x22 x84 xe4 x9c xf2 xcb)
(T (W x00 x00 x3a x44 x00 x00 x00 x00)
(T (W x00 x00 x00 x00 x18 xbe xfd xff)
(L (W x85 x6b xb2 x43 x9a x19 xd0 x42))
(L (W x14 xbe xff xff x00 x00 x00 x00)))
(T (W x45 x26 x22 x84 xe4 x9c xf2 xcb)
(L (W x33 x34 x00 x00 x1b x00 x00 x00)) E))
(T (W x00 x00 x00 x00 x00 x00 x00 x00)
(T (W x14 xfe xfd xff x00 x00 x00 x00)
(L (W x00 x00 x80 xbf x00 x00 x80 xbf))
(L (W x28 x00 x00 x00 x14 x00 x00 x00)))
(T (W x04 x00 x00 x00 x52 x83 xfe xff)
(L (W x74 xec xd1 x91 xef xde x43 x07)) E))))
(T (W x00 x00 x80 xbf x9c x00 x00 x00)
(T (W x00 x00 x00 x00 x00 x00 x00 x00)
(T (W x45 x26 x22 x84 xe4 x9c xf2 xcb)
(T (W x00 x00 x00 x00 x00 x00 x00 x00)
(L (W x54 x00 x00 x00 x48 x00 x00 x00))
(L (W x00 x00 x00 x00 x00 x00 x00 x00)))
(T (W xbc x30 xfe xff x50 x00 x00 x00)
(L (W x45 x26 x22 x84 xe4 x9c xf2 xcb)) E))
(T (W xcd xcc x12 x42 x66 xe6 x50 x44)
(T (W x00 x00 x00 x00 x00 x00 x00 x00)
(L (W x40 x00 x00 x00 x38 x00 x00 x00))
(L (W x45 x26 x22 x84 xe4 x9c xf2 xcb)))
(T (W x45 x26 x22 x84 xe4 x9c xf2 xcb)
(L (W x00 x00 x00 x00 x18 x6e xff xff)) E)))
(T (W x04 x00 x00 x00 x00 x0e xfd xff)
(T (W x55 x39 x81 x6a xc4 xc7 x74 x14)
(T (W x00 x00 x80 xbf x00 x00 x80 xbf)
(L (W x45 x26 x22 x84 xe4 x9c xf2 xcb))
(L (W x00 x00 x80 xbf x9c x00 x00 x00)))
(T (W x74 x00 x00 x00 x68 x00 x00 x00)
(L (W x44 x00 x00 x00 x30 x00 x00 x00)) E))
(T (W x45 x26 x22 x84 xe4 x9c xf2 xcb)
(T (W x3c x01 x00 x00 x30 x01 x00 x00)
(L (W x45 x26 x22 x84 xe4 x9c xf2 xcb)) E)
(T (W x9a x99 x5b x42 x66 xa6 xff x43)
(L (W xae x87 x6d x43 xf6 x28 x3f x42)) E)))))))
(T (W xd8 x1c x00 x00 xec x1a x00 x00)
(T (W x4b x5f x41 x52 x45 x41 x30 x32)
(T (W x45 x26 x22 x84 xe4 x9c xf2 xcb)
(T (W x00 x00 x00 x00 x00 x00 x00 x00)
(T (W x54 x00 x00 x00 x48 x00 x00 x00)
(T (W x00 x00 x80 x3f x18 x14 xfd xff)
(T (W x00 x00 x00 x00 x18 x94 xfd xff)
(L (W x5d x9a xa3 x28 x15 x89 xbf x26))
(L (W x58 x66 x0e x0c x1e x00 xaa xc0)))
(T (W x45 x26 x22 x84 xe4 x9c xf2 xcb)
(L (W x34 x00 x00 x00 x20 x00 x00 x00)) E))
(T (W x00 x00 x80 x3f x18 x54 xfd xff)
(T (W x01 x00 x00 x00 x04 x00 x00 x00)
(L (W x01 x00 x00 x00 x00 x00 x80 x3f))
(L (W x14 xd4 xff xff x00 x00 x00 x00)))
(T (W x00 x00 x40 x40 x24 x01 x00 x00)
(L (W xc3 x2b x45 xe3 x48 xb0 x28 x26)) E)))
(T (W x00 x00 xe0 x40 x24 x01 x00 x00)
(T (W x00 x00 x00 x00 x00 x00 x00 x00)
(T (W x00 x00 x00 x00 x00 x00 x00 x00)
(L (W x55 x6c xfc xf1 x99 x9e xc9 x88))
(L (W x00 x00 x00 x00 x00 x00 x00 x00)))
(T (W x00 x00 x00 x00 x01 x00 x00 x00)
(L (W x00 x00 x00 x00 x00 x00 x00 x00)) E))
(T (W x00 x00 x00 x00 xda x7b xfd xff)
(T (W x00 x00 x00 x00 x00 x00 x00 x00)
(L (W x00 x00 x00 x00 x00 x00 x00 x00))
(L (W x14 xf4 xff xff x00 x00 x00 x00)))
(T (W x04 x00 x00 x00 x00 x74 xfe xff)
(L (W x00 x00 x00 x00 x01 x00 x00 x00)) E))))
(T (W x5f x4f x55 x54 x42 x52 x45 x41)
(T (W x14 xe4 xfc xff x00 x00 x00 x00)
(T (W x00 x00 x00 x41 x24 x01 x00 x00)
(T (W x28 x01 x00 x00 x20 x01 x00 x00)
(L (W x92 xa3 xfe xff x00 x00 x80 x3f))
(L (W x00 x00 x00 x00 x00 x00 x00 x00)))
(T (W x00 x00 x00 x00 x00 x00 x00 x00)
(L (W x33 x33 x1e x44 xbe xb0 x40 x42)) E))
(T (W x01 x00 x00 x00 x04 x00 x00 x00)
(T (W x72 xb8 xa6 xc9 xd0 x70 xc6 x35)
(L (W x14 xe4 xfe xff x96 xe3 xfe xff))
(L (W x45 x41 x30 x32 x5f x30 x30 x38)))
(T (W x74 x00 x00 x00 x68 x00 x00 x00)
(L (W x00 x00 x00 x00 x00 x00 x00 x00)) E)))
(T (W x01 x00 x00 x00 x04 x00 x00 x00)
(T (W x40 x00 x00 x00 x38 x00 x00 x00)
(T (W x45 x26 x22 x84 xe4 x9c xf2 xcb)
(L (W x54 x00 x00 x00 x48 x00 x00 x00))
(L (W x14 xc4 xff xff x00 x00 x00 x00)))
(T (W x00 x00 x00 x00 x18 x44 xfe xff)
(L (W x00 x00 x00 x00 x01 x00 x00 x00)) E))
(T (W x00 x00 x00 x00 x00 x00 x00 x00)
(T (W x04 x00 x00 x00 x00 x04 xfe xff)
(L (W x45 x26 x22 x84 xe4 x9c xf2 xcb)) E)
(T (W xbc x86 xfe xff x50 x00 x00 x00)
(L (W x14 x84 xff xff x00 x00 x00 x00)) E)))))
(T (W x45 x26 x22 x84 xe4 x9c xf2 xcb)
(T (W x49 xa1 x68 x4a xeb x5f xdd x3d)
(T (W xbc xde xfc xff x50 x00 x00 x00)
(T (W x0c x00 x10 x00 x14 x00 x18 x00)
(T (W x00 x00 x00 x00 x01 x00 x00 x00)
(L (W x14 x9c xfe xff x00 x00 x00 x00))
(L (W x00 x00 x00 x00 x00 x00 x00 x00)))
(T (W x14 x1c xfe xff x00 x00 x00 x00)
(L (W x2c x00 x00 x00 x20 x00 x00 x00)) E))
(T (W x22 x61 xce xf2 x1d x9c xed x79)
(T (W x00 x00 x80 x3f x18 xdc xfd xff)
(L (W x00 x00 x00 x00 x18 xdc xfe xff))
(L (W x00 x00 x00 x00 x96 xdb xff xff)))
(T (W x01 x00 x00 x00 x04 x00 x00 x00)
(L (W x45 x26 x22 x84 xe4 x9c xf2 xcb)) E)))
(T (W x04 x00 x00 x00 x52 x01 xfd xff)
(T (W x00 x00 x80 x3f x00 x00 x80 x3f)
(T (W x45 x26 x22 x84 xe4 x9c xf2 xcb)
(L (W x2c x00 x00 x00 x18 x00 x00 x00))
(L (W x45 x26 x22 x84 xe4 x9c xf2 xcb)))
(T (W x34 x00 x00 x00 x20 x00 x00 x00)
(L (W x00 x00 x80 x3f x00 x00 x80 x3f)) E))
(T (W x44 x00 x00 x00 x38 x00 x00 x00)
(T (W x45 x26 x22 x84 xe4 x9c xf2 xcb)
(L (W x00 x00 x00 x00 x00 x00 x00 x00))
(L (W x00 x00 x00 x00 x00 x00 x00 x00)))
(T (W x34 x00 x00 x00 x20 x00 x00 x00)
(L (W x00 x00 x80 xbf x9c x00 x00 x00)) E))))
(T (W x1c x01 x00 x00 x04 x00 x00 x00)
(T (W x92 xeb xfc xff xae xc7 x56 x44)
(T (W x04 x00 x00 x00 x00 x00 x00 x00)
(T (W x01 x00 x00 x00 x04 x00 x00 x00)
(L (W x04 x00 x00 x00 x00 x00 x00 x00))
(L (W xbc xae xff xff x50 x00 x00 x00)))
(T (W x01 x00 x00 x00 x04 x00 x00 x00)
(L (W x45 x26 x22 x84 xe4 x9c xf2 xcb)) E))
(T (W x00 x00 x80 x3f x00 x00 x80 x3f)
(T (W x2c x00 x00 x00 x20 x00 x00 x00)
(L (W x3d x1d x08 x7d x20 xb4 x35 x43))
(L (W x54 x00 x00 x00 x48 x00 x00 x00)))
(T (W x00 x00 x00 x00 x01 x00 x00 x00)
(L (W x45 x26 x22 x84 xe4 x9c xf2 xcb)) E)))
(T (W x00 x00 x00 x00 x18 x0c xfd xff)
(T (W x14 x4c xfd xff x00 x00 x00 x00)
(T (W x00 x00 x00 x00 x00 x00 x00 x00)
(L (W x00 x00 x00 x00 x01 x00 x00 x00))
(L (W x00 x00 x00 x00 x00 x00 x00 x00)))
(T (W x14 x4c xfe xff x00 x00 x00 x00)
(L (W x00 x00 x00 x00 x00 x00 x00 x00)) E))
(T (W x34 x00 x00 x00 x20 x00 x00 x00)
(T (W x00 x00 x00 x00 x00 x00 x00 x00)
(L (W x74 x00 x00 x00 x68 x00 x00 x00)) E)
(T (W x28 x00 x00 x00 x14 x00 x00 x00)
(L (W x44 x00 x00 x00 x30 x00 x00 x00)) E))))))
(T (W x04 x00 x00 x00 x00 x00 x80 x3f)
(T (W x40 x00 x00 x00 x38 x00 x00 x00)
(T (W x00 x00 x00 x00 x01 x00 x00 x00)
(T (W x45 x26 x22 x84 xe4 x9c xf2 xcb)
(T (W x01 x00 x00 x00 x34 x00 x00 x00)
(T (W x00 x00 x00 x00 x00 x00 x00 x00)
(L (W x04 x00 x00 x00 x52 x9d xfe xff))
(L (W x45 x26 x22 x84 xe4 x9c xf2 xcb)))
(T (W x01 x00 x00 x00 x04 x00 x00 x00)
(L (W x45 x26 x22 x84 xe4 x9c xf2 xcb)) E))
(T (W x00 x00 x00 x00 x00 x00 x00 x00)
(T (W x00 x00 x00 x00 x01 x00 x00 x00)
(L (W x00 x00 x00 x00 x01 x00 x00 x00))
(L (W x00 x00 x00 x00 x00 x00 x00 x00)))
(T (W x40 x00 x00 x00 x38 x00 x00 x00)
(L (W x45 x26 x22 x84 xe4 x9c xf2 xcb)) E)))
(T (W xda x1d xb5 x4b xbc xb5 xfa xea)
(T (W x5c x00 x00 x00 x50 x00 x00 x00)
(T (W x00 x00 x80 xbf x9c x00 x00 x00)
(L (W x00 x00 x00 x00 x00 x00 x00 x00))
(L (W x1c x01 x00 x00 x01 x00 x00 x00)))
(T (W x14 x38 xfe xff x96 x37 xfe xff)
(L (W x74 x00 x00 x00 x68 x00 x00 x00)) E))
(T (W x04 x00 x00 x00 x52 x7d xfd xff)
(T (W x00 x00 x80 xbf x00 x00 x80 xbf)
(L (W x2c x00 x00 x00 x18 x00 x00 x00))
(L (W x00 x40 x86 x43 x00 x00 x00 x00)))
(T (W x00 x00 x00 x00 x00 x00 x00 x00)
(L (W x14 x78 xff xff x96 x77 xff xff)) E))))
(T (W x1c x01 x00 x00 x04 x00 x00 x00)
(T (W x2c x00 x00 x00 x18 x00 x00 x00)
(T (W xdc xed xe5 x4d x31 x2a x6a x49)
(T (W x04 x00 x00 x00 x00 x00 x00 x00)
(L (W x53 x5f x47 x41 x4e x45 x52 x41))
(L (W x00 x00 x00 x00 x01 x00 x00 x00)))
(T (W x04 x00 x00 x00 x00 x00 x00 x00)
(L (W x00 x00 x80 xbf x00 x00 x80 xbf)) E))
(T (W x00 x00 x00 x00 x01 x00 x00 x00)
(T (W x45 x26 x22 x84 xe4 x9c xf2 xcb)
(L (W x45 x41 x30 x32 x5f x30 x32 x32))
(L (W x2f x2a x8d xd7 x1a x4a x51 x9d)))
(T (W x00 x00 x00 x00 x00 x00 x00 x00)
(L (W x92 x53 x36 x08 x1e x46 x40 xb9)) E)))
(T (W x45 x26 x22 x84 xe4 x9c xf2 xcb)
(T (W x00 x00 x00 x00 x18 x48 xfd xff)
(T (W x04 x00 x00 x00 x38 xca xfd xff)
(L (W x2c x00 x00 x00 x20 x00 x00 x00))
(L (W x28 x00 x00 x00 x14 x00 x00 x00)))
(T (W x1c x00 x00 x00 x46 x53 x59 x53)
(L (W x00 x00 x00 x00 x18 x48 xff xff)) E))
(T (W x3c x01 x00 x00 x30 x01 x00 x00)
(T (W x55 x6c xfc xf1 x99 x9e xc9 x88)
(L (W x45 x26 x22 x84 xe4 x9c xf2 xcb)) E)
(T (W x45 x26 x22 x84 xe4 x9c xf2 xcb)
(L (W x32 xdb xac x28 xbf xd3 x59 x6a)) E)))))
(T (W x44 x00 x00 x00 x38 x00 x00 x00)
(T (W x29 x7c x52 x44 x00 x00 x00 x00)
(T (W x00 x00 x00 x00 x00 x00 x00 x00)
(T (W x54 x00 x24 x00 x28 x00 x00 x00)
(T (W x00 x00 x00 x00 x00 x00 x00 x00)
(L (W x00 x00 x00 x00 x18 xa0 xfe xff))
(L (W x55 x39 x81 x6a xc4 xc7 x74 x14)))
(T (W x00 x00 x80 x3f x00 x00 x80 x3f)
(L (W x00 x00 x00 x00 x01 x00 x00 x00)) E))
(T (W x45 x26 x22 x84 xe4 x9c xf2 xcb)
(T (W x00 x00 x00 x00 x00 x00 x00 x00)
(L (W x00 x00 x00 x00 x00 x00 x00 x00))
(L (W x00 x00 x00 x00 x00 x00 x00 x00)))
(T (W x45 x26 x22 x84 xe4 x9c xf2 xcb)
(L (W x74 x00 x00 x00 x68 x00 x00 x00)) E)))
(T (W x45 x26 x22 x84 xe4 x9c xf2 xcb)
(T (W x00 x00 xa0 x40 x24 x01 x00 x00)
(T (W x01 x00 x00 x00 x04 x00 x00 x00)
(L (W x3c x01 x00 x00 x30 x01 x00 x00))
(L (W x44 x00 x00 x00 x38 x00 x00 x00)))
(T (W x00 x00 x00 x00 x01 x00 x00 x00)
(L (W x1c x01 x00 x00 x01 x00 x00 x00)) E))
(T (W x74 x00 x00 x00 x68 x00 x00 x00)
(T (W x45 x26 x22 x84 xe4 x9c xf2 xcb)
(L (W xc3 x90 xc8 xf8 x1d xce x6d x9e))
(L (W x1c x00 x00 x00 x18 x00 x38 x00)))
(T (W x45 x26 x22 x84 xe4 x9c xf2 xcb)
(L (W x40 x00 x00 x00 x38 x00 x00 x00)) E))))
(T (W xc5 x36 x5c x74 xfb x94 x66 xd6)
(T (W x1b x00 x00 x00 x57 x53 x59 x53)
(T (W x14 x30 xfd xff x00 x00 x00 x00)
(T (W x00 x00 x00 x00 x01 x00 x00 x00)
(L (W x45 x26 x22 x84 xe4 x9c xf2 xcb))
(L (W x00 x00 x00 x00 x01 x00 x00 x00)))
(T (W x00 x00 x00 x00 x00 x00 x00 x00)
(L (W x01 x00 x00 x00 x04 x00 x00 x00)) E))
(T (W x00 x00 x00 x00 x00 x00 x00 x00)
(T (W x5c x00 x00 x00 x50 x00 x00 x00)
(L (W x45 x26 x22 x84 xe4 x9c xf2 xcb))
(L (W x2c x00 x00 x00 x20 x00 x00 x00)))
(T (W xbc x72 xfe xff x50 x00 x00 x00)
(L (W x44 x00 x00 x00 x38 x00 x00 x00)) E)))
(T (W x48 x00 x00 x00 x34 x00 x00 x00)
(T (W x00 x00 x80 x3f x00 x00 x80 x3f)
(T (W x04 x00 x00 x00 x00 x00 x00 x00)
(L (W x00 x00 x00 x00 x00 x00 x00 x00))
(L (W x45 x26 x22 x84 xe4 x9c xf2 xcb)))
(T (W x00 x00 x80 x3f x00 x00 x80 x3f)
(L (W x00 xe0 x09 x44 x00 x00 x2a x42)) E))
(T (W x45 x26 x22 x84 xe4 x9c xf2 xcb)
(T (W x34 x00 x00 x00 x20 x00 x00 x00)
(L (W x00 x00 x00 x00 x00 x00 x00 x00)) E)
(T (W x00 x00 x00 x00 x00 x00 x00 x00)
(L (W x3c x01 x00 x00 x30 x01 x00 x00)) E)))))))))
(T (W x6c xad x02 x00 xa0 xab x02 x00)
(T (W x44 x37 x02 x00 x60 x35 x02 x00)
(T (W x8c x4a x01 x00 xc0 x48 x01 x00)
(T (W x00 x00 x00 x00 x01 x00 x00 x00)
(T (W xe1 x1a x84 x43 x00 x00 x00 x00)
(T (W x54 x00 x00 x00 x48 x00 x00 x00)
(T (W x1b x00 x00 x00 x57 x53 x59 x53)
(T (W x45 x26 x22 x84 xe4 x9c xf2 xcb)
(T (W x01 x00 x00 x00 x00 x00 x80 x3f)
(L (W x45 x26 x22 x84 xe4 x9c xf2 xcb))
(L (W x00 x00 x80 x3f x00 x00 x80 x3f)))
(T (W x00 x00 x00 x00 x00 x00 x00 x00)
(L (W x44 x00 x00 x00 x30 x00 x00 x00)) E))
(T (W x00 x00 x00 x00 x00 x00 x00 x00)
(T (W x1c x01 x00 x00 x01 x00 x00 x00)
(L (W x28 x00 x00 x00 x14 x00 x00 x00))
(L (W x3c x01 x00 x00 x30 x01 x00 x00)))
(T (W x00 x00 x00 x00 x01 x00 x00 x00)
(L (W x74 x00 x00 x00 x68 x00 x00 x00)) E)))
(T (W x48 x00 x00 x00 x34 x00 x00 x00)
(T (W x04 x00 x00 x00 xd2 x36 xfd xff)
(T (W x45 x26 x22 x84 xe4 x9c xf2 xcb)
(L (W x04 x00 x00 x00 x00 x00 x00 x00))
(L (W xc2 x41 x54 x1d xca xa3 x99 xfd)))
(T (W x45 x26 x22 x84 xe4 x9c xf2 xcb)
(L (W x00 x00 x00 x00 x01 x00 x00 x00)) E))
(T (W x78 x00 x00 x00 x6c x00 x00 x00)
(T (W x00 x00 x00 x00 x00 x00 x00 x00)
(L (W x04 x00 x00 x00 x00 x00 x00 x00))
(L (W x45 x26 x22 x84 xe4 x9c xf2 xcb)))
(T (W x45 x26 x22 x84 xe4 x9c xf2 xcb)
(L (W x45 x26 x22 x84 xe4 x9c xf2 xcb)) E))))
(T (W x94 xc1 xfc xff x00 x00 x00 x00)
(T (W x45 x26 x22 x84 xe4 x9c xf2 xcb)
(T (W x48 x00 x00 x00 x34 x00 x00 x00)
(T (W x44 x00 x00 x00 x30 x00 x00 x00)
(L (W x2c x00 x00 x00 x20 x00 x00 x00))
(L (W x00 x00 x00 x00 x00 x00 x00 x00)))
(T (W x00 x00 x00 x00 x00 x00 x00 x00)
(L (W x44 x00 x00 x00 x38 x00 x00 x00)) E))
(T (W x34 x00 x00 x00 x20 x00 x00 x00)
(T (W x45 x26 x22 x84 xe4 x9c xf2 xcb)
(L (W x3c xe4 xfe xff x50 x00 x00 x00))
(L (W x04 x00 x00 x00 xb8 xe3 xff xff)))
(T (W x45 x26 x22 x84 xe4 x9c xf2 xcb)
(L (W x00 x00 x00 x00 x00 x00 x00 x00)) E)))
(T (W x34 x00 x00 x00 x20 x00 x00 x00)
(T (W x94 x41 xfd xff x16 x41 xfd xff)
(T (W x00 x00 x00 x00 x01 x00 x00 x00)
(L (W x00 x00 x80 x3f x00 x00 x80 x3f))
(L (W x40 x00 x00 x00 x38 x00 x00 x00)))
(T (W x01 x00 x00 x00 x00 x00 x80 x3f)
(L (W x48 x21 xed x43 x0a xd7 x25 x42)) E))
(T (W x00 x00 x00 x00 x00 x00 x00 x00)
(T (W x45 x26 x22 x84 xe4 x9c xf2 xcb)
(L (W x00 x00 x00 x00 x00 x00 x00 x00)) E)
(T (W xe2 x2f x76 x2c x15 xa2 x22 x2e)
(L (W x01 x00 x00 x00 x00 x00 x80 x3f)) E)))))
(T (W x1c x01 x00 x00 x04 x00 x00 x00)
(T (W x3c xbc xfc xff x50 x00 x00 x00)
(T (W x08 x63 xba x4b xbc x35 x01 xeb)
(T (W x60 x00 x00 x00 x54 x00 x00 x00)
(T (W x45 x26 x22 x84 xe4 x9c xf2 xcb)
(L (W x3c x01 x00 x00 x30 x01 x00 x00))
(L (W x00 x00 x00 x00 x01 x00 x00 x00)))
(T (W x40 x00 x00 x00 x38 x00 x00 x00)
(L (W x37 xec x5c xca xb2 x58 x9b x42)) E))
(T (W x5c x00 x00 x00 x50 x00 x00 x00)
(T (W x45 x26 x22 x84 xe4 x9c xf2 xcb)
(L (W x01 x00 x00 x00 x01 x00 x00 x00))
(L (W x00 x00 x00 x00 x98 xd9 xff xff)))
(T (W x1c x01 x00 x00 x01 x00 x00 x00)
(L (W x46 xbe x86 x55 xf2 xd3 x27 x15)) E)))
(T (W x02 x00 x00 x00 x32 x30 x00 x00)
(T (W xb7 x8a x02 x4c x84 x25 x7f x61)
(T (W x00 x00 x00 x00 x00 x00 x00 x00)
(L (W x00 x00 x00 x00 x98 xb9 xfe xff))
(L (W x33 xf3 xb9 x43 xc3 xf5 x21 x42)))
(T (W x04 x00 x00 x00 xb8 x3b xfe xff)
(L (W x20 x39 x45 xdc x00 xd4 x55 x2f)) E))
(T (W x00 x00 x80 xbf x00 x00 x80 xbf)
(T (W x00 x00 x00 x00 x00 x00 x00 x00)
(L (W x45 x26 x22 x84 xe4 x9c xf2 xcb))
(L (W x00 x00 x00 x00 x00 x00 x00 x00)))
(T (W x04 x00 x00 x00 xb8 x7b xfe xff)
(L (W x04 x00 x00 x00 x80 x79 xff xff)) E))))
(T (W xf6 x68 x60 x43 xe1 x7a x8c x42)
(T (W x45 x26 x22 x84 xe4 x9c xf2 xcb)
(T (W x00 x00 x00 x00 x00 x00 x00 x00)
(T (W x1c x01 x00 x00 x01 x00 x00 x00)
(L (W x45 x26 x22 x84 xe4 x9c xf2 xcb))
(L (W x01 x00 x00 x00 x00 x00 x80 x3f)))
(T (W x1c x01 x00 x00 x01 x00 x00 x00)
(L (W x00 x00 x00 x00 x00 x00 x00 x00)) E))
(T (W x1f x7d x02 x4c x84 x1d x7f x61)
(T (W x00 x00 x80 xbf x9c x00 x00 x00)
(L (W x55 x6c xfc xf1 x99 x9e xc9 x88))
(L (W x46 x53 x59 x53 x5f x4e x45 x57)))
(T (W x45 x26 x22 x84 xe4 x9c xf2 xcb)
(L (W x00 x00 x00 x00 x00 x00 x00 x00)) E)))
(T (W x45 x26 x22 x84 xe4 x9c xf2 xcb)
(T (W x40 x00 x00 x00 x38 x00 x00 x00)
(T (W x45 x26 x22 x84 xe4 x9c xf2 xcb)
(L (W x45 x26 x22 x84 xe4 x9c xf2 xcb))
(L (W x00 x00 x00 x00 x00 x00 x00 x00)))
(T (W x45 x26 x22 x84 xe4 x9c xf2 xcb)
(L (W x04 x00 x00 x00 xd2 x4e xff xff)) E))
(T (W x00 x00 x80 x3f x00 x00 x80 x3f)
(T (W x00 x00 x00 x00 x00 x00 x00 x00)
(L (W x45 x26 x22 x84 xe4 x9c xf2 xcb)) E)
(T (W x45 x26 x22 x84 xe4 x9c xf2 xcb)
(L (W x45 x26 x22 x84 xe4 x9c xf2 xcb)) E))))))
(T (W x49 xa1 x68 x4a xeb x5f xdd x3d)
(T (W x5f x4f x55 x54 x42 x52 x45 x41)
(T (W x45 x26 x22 x84 xe4 x9c xf2 xcb)
(T (W x00 x00 xe0 x40 x24 x01 x00 x00)
(T (W x00 x00 x00 x00 x00 x00 x00 x00)
(T (W x04 x00 x00 x00 xd2 x9a xfd xff)
(L (W x00 x00 x00 x00 x00 x00 x00 x00))
(L (W x00 x00 x00 x00 x00 x00 x00 x00)))
(T (W x34 x00 x00 x00 x20 x00 x00 x00)
(L (W x00 x00 x00 x00 x00 x00 x00 x00)) E))
(T (W x00 x00 x00 x00 x00 x00 x00 x00)
(T (W x45 x26 x22 x84 xe4 x9c xf2 xcb)
(L (W xec xd1 x8b x43 x00 x00 x00 x00))
(L (W x54 x00 x00 x00 x48 x00 x00 x00)))
(T (W x94 x55 xfe xff x16 x55 xfe xff)
(L (W x00 x00 x00 x00 x00 x00 x00 x00)) E)))
(T (W x00 x00 x80 x3f x98 xf5 xfc xff)
(T (W x94 x35 xfd xff x00 x00 x00 x00)
(T (W x48 x00 x00 x00 x34 x00 x00 x00)
(L (W x45 x26 x22 x84 xe4 x9c xf2 xcb))
(L (W x48 x00 x00 x00 x34 x00 x00 x00)))
(T (W x3c x38 xfe xff x50 x00 x00 x00)
(L (W x00 x00 x00 x00 x98 x35 xff xff)) E))
(T (W x12 x75 xfd xff x00 x00 x80 x3f)
(T (W x55 x6c xfc xf1 x99 x9e xc9 x88)
(L (W x01 x00 x00 x00 x04 x00 x00 x00))
(L (W x2c x00 x00 x00 x20 x00 x00 x00)))
(T (W x45 x26 x22 x84 xe4 x9c xf2 xcb)
(L (W x45 x26 x22 x84 xe4 x9c xf2 xcb)) E))))
(T (W x28 x00 x00 x00 x14 x00 x00 x00)
(T (W x01 x00 x00 x00 x04 x00 x00 x00)
(T (W x94 x25 xfd xff x16 x25 xfd xff)
(T (W x00 x00 x80 x3f x98 xa5 xfd xff)
(L (W x94 xa5 xfe xff x00 x00 x00 x00))
(L (W x45 x26 x22 x84 xe4 x9c xf2 xcb)))
(T (W x45 x26 x22 x84 xe4 x9c xf2 xcb)
(L (W x74 x00 x00 x00 x68 x00 x00 x00)) E))
(T (W x45 x26 x22 x84 xe4 x9c xf2 xcb)
(T (W x00 x00 x00 x00 x5a xed xfd xff)
(L (W x04 x00 x00 x00 x80 xe5 xfe xff))
(L (W x45 x26 x22 x84 xe4 x9c xf2 xcb)))
(T (W x00 x00 x00 x00 x00 x00 x00 x00)
(L (W x28 x00 x00 x00 x14 x00 x00 x00)) E)))
(T (W x00 x00 x00 x00 x01 x00 x00 x00)
(T (W x00 x00 x80 xbf x9c x00 x00 x00)
(T (W x45 x26 x22 x84 xe4 x9c xf2 xcb)
(L (W x00 x00 x80 xbf x9c x00 x00 x00))
(L (W x01 x00 x00 x00 x04 x00 x00 x00)))
(T (W x04 x00 x00 x00 xd2 x4a xfe xff)
(L (W x01 x00 x00 x00 x00 x00 x80 x3f)) E))
(T (W x60 x00 x00 x00 x54 x00 x00 x00)
(T (W x44 x00 x00 x00 x38 x00 x00 x00)
(L (W x77 x0d x0f x0d x33 x32 xc9 x30)) E)
(T (W x04 x00 x00 x00 xd2 x8a xfe xff)
(L (W x00 x00 x00 x00 x01 x00 x00 x00)) E)))))
(T (W xbe x4c x74 xbd x00 xcf xb2 xbd)
(T (W x00 x00 x00 x00 x00 x00 x00 x00)
(T (W x04 x00 x00 x00 xd2 xe2 xfc xff)
(T (W x5c x00 x00 x00 x50 x00 x00 x00)
(T (W x45 x26 x22 x84 xe4 x9c xf2 xcb)
(L (W x54 x00 x00 x00 x48 x00 x00 x00))
(L (W x3c xa0 xff xff x50 x00 x00 x00)))
(T (W x01 x00 x00 x00 x04 x00 x00 x00)
(L (W x45 x26 x22 x84 xe4 x9c xf2 xcb)) E))
(T (W x00 x00 x00 x00 x5a x65 xfd xff)
(T (W x00 x00 x00 x00 x00 x00 x00 x00)
(L (W x40 x00 x00 x00 x38 x00 x00 x00))
(L (W x45 x26 x22 x84 xe4 x9c xf2 xcb)))
(T (W x00 x00 x00 x00 x01 x00 x00 x00)
(L (W x45 x26 x22 x84 xe4 x9c xf2 xcb)) E)))
(T (W x3c x01 x00 x00 x30 x01 x00 x00)
(T (W x00 x00 x00 x00 x00 x00 x00 x00)
(T (W x34 x00 x00 x00 x20 x00 x00 x00)
(L (W x00 x00 x00 x00 x00 x00 x00 x00))
(L (W x71 x95 x8e x16 x1e x4e xcc xd2)))
(T (W x00 x00 x00 x00 x00 x00 x00 x00)
(L (W x00 x00 x00 x00 x01 x00 x00 x00)) E))
(T (W x45 x26 x22 x84 xe4 x9c xf2 xcb)
(T (W x74 x86 xf1 x13 x15 xe1 xd6 x02)
(L (W x45 x26 x22 x84 xe4 x9c xf2 xcb))
(L (W x45 x26 x22 x84 xe4 x9c xf2 xcb)))
(T (W x00 x00 x00 x00 x00 x00 x00 x00)
(L (W x00 x00 x00 x00 x00 x00 x00 x00)) E))))
(T (W x12 xcd xfc xff x29 x2c x27 x44)
(T (W x00 x00 x00 x00 x98 xed xfc xff)
(T (W x00 x00 xa0 x41 x24 x01 x00 x00)
(T (W x45 x26 x22 x84 xe4 x9c xf2 xcb)
(L (W x5f x41 x52 x45 x41 x30 x32 x00))
(L (W x45 x26 x22 x84 xe4 x9c xf2 xcb)))
(T (W x00 x00 x00 x00 x01 x00 x00 x00)
(L (W x00 x00 x80 xbf x9c x00 x00 x00)) E))
(T (W x00 x00 x00 x00 x00 x00 x00 x00)
(T (W x45 x26 x22 x84 xe4 x9c xf2 xcb)
(L (W x00 x00 x00 x00 x5a xf5 xfe xff))
(L (W x00 x00 x80 xbf x9c x00 x00 x00)))
(T (W x01 x00 x00 x00 x00 x00 x80 x3f)
(L (W x60 x80 xeb xb7 x31 xc5 x59 x42)) E)))
(T (W x00 x00 x00 x00 x98 x0d xfd xff)
(T (W x5a x65 x48 xdc x00 x65 x59 x2f)
(T (W x45 x26 x22 x84 xe4 x9c xf2 xcb)
(L (W x45 x26 x22 x84 xe4 x9c xf2 xcb))
(L (W x45 x26 x22 x84 xe4 x9c xf2 xcb)))
(T (W x01 x00 x00 x00 x04 x00 x00 x00)
(L (W x44 x00 x00 x00 x38 x00 x00 x00)) E))
(T (W x00 x00 x00 x00 x00 x00 x00 x00)
(T (W x60 x00 x00 x00 x54 x00 x00 x00)
(L (W xd2 x8b xa7 x28 xbf x4d x53 x6a)) E)
(T (W x00 x00 x00 x00 x00 x00 x00 x00)
(L (W x00 x00 x00 x00 x00 x00 x00 x00)) E)))))))
(T (W x88 x5a x00 x00 x9c x58 x00 x00)
(T (W x5c x00 x00 x00 x50 x00 x00 x00)
(T (W x00 x00 x00 x00 x00 x00 x00 x00)
(T (W x45 x26 x22 x84 xe4 x9c xf2 xcb)
(T (W x5f x41 x52 x45 x41 x30 x32 x00)
(T (W x00 x00 x00 x00 x00 x00 x00 x00)
(T (W x34 x00 x00 x00 x20 x00 x00 x00)
(L (W x00 x00 x00 x00 x00 x00 x00 x00))
(L (W x00 x00 x00 x00 x00 x00 x00 x00)))
(T (W x01 x00 x00 x00 x00 x00 x80 x3f)
(L (W x12 x13 xff xff x00 x00 x80 x3f)) E))
(T (W x1c x00 x00 x00 x46 x53 x59 x53)
(T (W x45 x26 x22 x84 xe4 x9c xf2 xcb)
(L (W x00 x00 x80 x3f x00 x00 x80 x3f))
(L (W xeb xba x94 x16 x1e x52 xd3 xd2)))
(T (W x5c x00 x00 x00 x50 x00 x00 x00)
(L (W x00 x00 x80 x3f x00 x00 x80 x3f)) E)))
(T (W x4f x84 x6f x8b xe8 xcb x63 xb7)
(T (W x45 x26 x22 x84 xe4 x9c xf2 xcb)
(T (W x00 x00 x00 x00 x98 xb3 xfd xff)
(L (W x40 x00 x00 x00 x38 x00 x00 x00))
(L (W x00 x00 x00 x00 x00 x00 x00 x00)))
(T (W x94 x33 xfe xff x00 x00 x00 x00)
(L (W x45 x26 x22 x84 xe4 x9c xf2 xcb)) E))
(T (W x2c x00 x00 x00 x18 x00 x00 x00)
(T (W x04 x00 x00 x00 x80 xf3 xfd xff)
(L (W x45 x26 x22 x84 xe4 x9c xf2 xcb))
(L (W x00 x00 x00 x00 x98 xf3 xff xff)))
(T (W x00 x00 x00 x00 x98 x73 xfe xff)
(L (W x94 x73 xff xff x00 x00 x00 x00)) E))))
(T (W x74 x00 x00 x00 x68 x00 x00 x00)
(T (W x00 x00 x00 x00 x98 xe3 xfc xff)
(T (W x48 x00 x00 x00 x34 x00 x00 x00)
(T (W x55 x6c xfc xf1 x99 x9e xc9 x88)
(L (W x45 x26 x22 x84 xe4 x9c xf2 xcb))
(L (W x00 x00 x00 x00 x01 x00 x00 x00)))
(T (W x94 x23 xfe xff x00 x00 x00 x00)
(L (W x00 x00 x00 x00 x00 x00 x00 x00)) E))
(T (W x45 x26 x22 x84 xe4 x9c xf2 xcb)
(T (W x00 x00 x00 x00 x00 x00 x00 x00)
(L (W x00 x00 x00 x00 x00 x00 x00 x00))
(L (W x48 x00 x00 x00 x34 x00 x00 x00)))
(T (W x01 x00 x00 x00 x04 x00 x00 x00)
(L (W x94 x63 xff xff x00 x00 x00 x00)) E)))
(T (W x45 x26 x22 x84 xe4 x9c xf2 xcb)
(T (W x00 x00 x00 x00 x5a x4b xfd xff)
(T (W x40 x00 x00 x00 x38 x00 x00 x00)
(L (W x00 x00 x00 x00 x00 x00 x00 x00))
(L (W x00 x00 x00 x00 x98 xc3 xff xff)))
(T (W x34 x00 x00 x00 x20 x00 x00 x00)
(L (W x5f x4e x45 x57 x5f x4f x55 x54)) E))
(T (W x00 x00 x00 x00 x01 x00 x00 x00)
(T (W x00 x00 x00 x00 x98 x03 xfe xff)
(L (W x00 x00 x00 x41 x24 x01 x00 x00)) E)
(T (W x00 x00 x00 x00 x01 x00 x00 x00)
(L (W x36 x61 x39 x08 x1e xc5 x43 xb9)) E)))))
(T (W x00 x00 x80 xbf x9c x00 x00 x00)
(T (W x3f x7c x88 xaf x9a x1e x19 x7c)
(T (W x00 x00 x00 x00 x01 x00 x00 x00)
(T (W xd6 x81 x9c x94 x9b x27 x57 x25)
(T (W x94 x9b xfd xff x00 x00 x00 x00)
(L (W x61 xe3 xb3 xef x1d x87 xf7 x8d))
(L (W x45 x26 x22 x84 xe4 x9c xf2 xcb)))
(T (W x00 x00 x00 x00 x98 x1b xfe xff)
(L (W x00 x00 x00 x00 x01 x00 x00 x00)) E))
(T (W x94 x5b xfd xff x16 x5b xfd xff)
(T (W x00 x00 x00 x00 x00 x00 x00 x00)
(L (W x81 x50 xbd xc1 xf9 xc4 x5c xbe))
(L (W x45 x26 x22 x84 xe4 x9c xf2 xcb)))
(T (W x45 x26 x22 x84 xe4 x9c xf2 xcb)
(L (W x40 x00 x00 x00 x38 x00 x00 x00)) E)))
(T (W x4e x45 x52 x41 x54 x49 x4f x4e)
(T (W x00 x00 x00 x00 x00 x00 x00 x00)
(T (W x01 x00 x00 x00 x00 x00 x80 x3f)
(L (W x2c x00 x00 x00 x20 x00 x00 x00))
(L (W x3c x01 x00 x00 x30 x01 x00 x00)))
(T (W x12 x3b xfe xff x00 x00 x80 x3f)
(L (W x00 x00 x00 x00 x00 x00 x00 x00)) E))
(T (W x04 x00 x00 x00 x00 x00 x00 x00)
(T (W x34 x01 x00 x00 x00 x00 x40 x40)
(L (W x94 xfb xfe xff x00 x00 x00 x00))
(L (W x00 x00 x00 x00 x00 x00 x00 x00)))
(T (W x12 x7b xfe xff x00 x00 x80 x3f)
(L (W x45 x26 x22 x84 xe4 x9c xf2 xcb)) E))))
(T (W x00 x00 x00 x00 x00 x00 x00 x00)
(T (W x00 x00 x00 x00 x00 x00 x00 x00)
(T (W x02 x00 x00 x00 x32 x38 x00 x00)
(T (W x45 x26 x22 x84 xe4 x9c xf2 xcb)
(L (W x00 x00 x00 x00 x00 x00 x00 x00))
(L (W x00 x00 x00 x00 x01 x00 x00 x00)))
(T (W x45 x26 x22 x84 xe4 x9c xf2 xcb)
(L (W x1c x01 x00 x00 x01 x00 x00 x00)) E))
(T (W x00 x00 x00 x00 x00 x00 x00 x00)
(T (W x00 x00 x00 x00 x01 x00 x00 x00)
(L (W x94 xeb xfe xff x16 xeb xfe xff))
(L (W x45 x41 x30 x32 x5f x30 x31 x35)))
(T (W x00 x00 x00 x00 x00 x00 x00 x00)
(L (W x28 x01 x00 x00 x20 x01 x00 x00)) E)))
(T (W x45 x26 x22 x84 xe4 x9c xf2 xcb)
(T (W x00 x00 x00 x00 x98 x4b xfd xff)
(T (W x94 xcb xfd xff x00 x00 x00 x00)
(L (W x94 xcb xfe xff x00 x00 x00 x00))
(L (W x00 x00 x00 x00 x01 x00 x00 x00)))
(T (W x00 x00 x00 x00 x98 x4b xfe xff)
(L (W x45 x26 x22 x84 xe4 x9c xf2 xcb)) E))
(T (W x33 x33 x13 x42 x9a xf9 x5d x44)
(T (W x00 x00 x00 x00 x00 x00 x00 x00)
(L (W x01 x00 x00 x00 x04 x00 x00 x00)) E)
(T (W x2c x00 x00 x00 x20 x00 x00 x00)
(L (W x44 x00 x00 x00 x38 x00 x00 x00)) E))))))
(T (W x00 x00 x80 x3f x00 x00 x80 x3f)
(T (W x8a x8b xff xff x00 x00 x00 x01)
(T (W x94 xb7 xfc xff x00 x00 x00 x00)
(T (W x00 x00 x80 xbf x00 x00 x80 xbf)
(T (W x00 x00 x00 x00 x01 x00 x00 x00)
(T (W x45 x26 x22 x84 xe4 x9c xf2 xcb)
(L (W x42 x52 x45 x41 x4b x5f x41 x52))
(L (W x00 x00 x80 xbf x9c x00 x00 x00)))
(T (W xaf xdf x1b x72 x9d x0d xa7 xbe)
(L (W x00 x00 x80 xbf x00 x00 x80 xbf)) E))
(T (W x00 x00 x00 x00 x01 x00 x00 x00)
(T (W x94 xd7 xfd xff x00 x00 x00 x00)
(L (W x00 x00 x00 x00 x00 x00 x00 x00))
(L (W x45 x26 x22 x84 xe4 x9c xf2 xcb)))
(T (W x00 x00 x00 x00 x5a x5f xfe xff)
(L (W x00 x00 x80 xbf x9c x00 x00 x00)) E)))
(T (W x00 x00 x00 x00 x00 x00 x00 x00)
(T (W x3c x3a xfd xff x50 x00 x00 x00)
(T (W x45 x26 x22 x84 xe4 x9c xf2 xcb)
(L (W x45 x26 x22 x84 xe4 x9c xf2 xcb))
(L (W x44 x00 x00 x00 x30 x00 x00 x00)))
(T (W x00 x00 x00 x00 x00 x00 x00 x00)
(L (W x01 x00 x00 x00 x04 x00 x00 x00)) E))
(T (W x00 x00 x00 x00 x00 x00 x00 x00)
(T (W x94 xf7 xfd xff x16 xf7 xfd xff)
(L (W x2c x00 x00 x00 x20 x00 x00 x00))
(L (W x00 x00 x00 x00 x00 x00 x00 x00)))
(T (W x00 x00 x00 x00 x98 x77 xfe xff)
(L (W x00 x00 x00 x00 x00 x00 x00 x00)) E))))
(T (W x12 xc7 xfc xff x00 x00 x80 x3f)
(T (W x2c x00 x00 x00 x20 x00 x00 x00)
(T (W xb8 x9e x07 x43 x00 x00 x00 x00)
(T (W x00 x00 x00 x00 x00 x00 x00 x00)
(L (W x74 x00 x00 x00 x68 x00 x00 x00))
(L (W x00 x00 x00 x00 x00 x00 x00 x00)))
(T (W x00 x00 x00 x00 x00 x00 x00 x00)
(L (W x00 x00 x80 x3f x00 x00 x80 x3f)) E))
(T (W x94 x67 xfd xff x00 x00 x00 x00)
(T (W x1c x01 x00 x00 x01 x00 x00 x00)
(L (W x48 x00 x00 x00 x34 x00 x00 x00))
(L (W x00 x00 x00 x00 x00 x00 x00 x00)))
(T (W x00 x00 x00 x00 x01 x00 x00 x00)
(L (W xb8 xde x32 x44 x00 x00 x00 x00)) E)))
(T (W x40 x00 x00 x00 x38 x00 x00 x00)
(T (W xbb x33 x99 xaa x1d x47 x6f xf9)
(T (W x00 x00 x00 x00 x98 xc7 xfd xff)
(L (W x00 x00 x00 x00 x01 x00 x00 x00))
(L (W x2c x00 x00 x00 x20 x00 x00 x00)))
(T (W x45 x26 x22 x84 xe4 x9c xf2 xcb)
(L (W x34 x00 x00 x00 x20 x00 x00 x00)) E))
(T (W x55 x39 x81 x6a xc4 xc7 x74 x14)
(T (W x45 x26 x22 x84 xe4 x9c xf2 xcb)
(L (W x40 x00 x00 x00 x38 x00 x00 x00)) E)
(T (W x54 x00 x00 x00 x48 x00 x00 x00)
(L (W x04 x00 x00 x00 xd2 x8c xff xff)) E)))))
(T (W x04 x00 x00 x00 x00 x00 x00 x00)
(T (W x00 x00 x00 x00 x00 x00 x00 x00)
(T (W x45 x26 x22 x84 xe4 x9c xf2 xcb)
(T (W x28 x00 x00 x00 x14 x00 x00 x00)
(T (W x00 x00 x00 x00 x98 x9f xfd xff)
(L (W x45 x26 x22 x84 xe4 x9c xf2 xcb))
(L (W x8f x9e xaa x28 xbf xcf x56 x6a)))
(T (W x00 x00 x00 x00 x00 x00 x00 x00)
(L (W x94 x1f xff xff x00 x00 x00 x00)) E))
(T (W x3c x01 x00 x00 x30 x01 x00 x00)
(T (W x00 x00 x00 x00 x01 x00 x00 x00)
(L (W x45 x26 x22 x84 xe4 x9c xf2 xcb))
(L (W x00 x00 x00 x00 x98 xdf xff xff)))
(T (W x40 x00 x00 x00 x38 x00 x00 x00)
(L (W x01 x00 x00 x00 x04 x00 x00 x00)) E)))
(T (W x04 x00 x00 x00 x00 x00 x80 x3f)
(T (W x5c x00 x00 x00 x50 x00 x00 x00)
(T (W x62 xe1 x1b x72 x9d x0e xa7 xbe)
(L (W x74 x00 x00 x00 x68 x00 x00 x00))
(L (W x04 x00 x00 x00 x00 x00 x00 x00)))
(T (W x5f x4e x45 x57 x5f x4f x55 x54)
(L (W x44 x00 x00 x00 x30 x00 x00 x00)) E))
(T (W x01 x00 x00 x00 x04 x00 x00 x00)
(T (W x54 x00 x00 x00 x48 x00 x00 x00)
(L (W x00 x00 x00 x00 x00 x00 x00 x00))
(L (W x18 x00 x20 x00 x28 x00 x04 x00)))
(T (W x3c x01 x00 x00 x30 x01 x00 x00)
(L (W x00 x00 x00 x00 x5a x87 xff xff)) E))))
(T (W x00 x00 x00 x00 x00 x00 x00 x00)
(T (W x04 x00 x00 x00 x80 xef xfc xff)
(T (W x32 xb8 x5c xec x2c x11 xa7 xd3)
(T (W x94 xaf xfd xff x00 x00 x00 x00)
(L (W x00 x00 x80 xbf x00 x00 x80 xbf))
(L (W x94 xaf xff xff x00 x00 x00 x00)))
(T (W x45 x26 x22 x84 xe4 x9c xf2 xcb)
(L (W x45 x26 x22 x84 xe4 x9c xf2 xcb)) E))
(T (W x94 x6f xfd xff x00 x00 x00 x00)
(T (W x3c xf2 xfd xff x50 x00 x00 x00)
(L (W x00 x00 x80 xbf x9c x00 x00 x00))
(L (W x00 x00 x00 x00 x01 x00 x00 x00)))
(T (W x00 x00 x00 x00 x01 x00 x00 x00)
(L (W x04 x00 x00 x00 x00 x00 x00 x00)) E)))
(T (W x44 x00 x00 x00 x38 x00 x00 x00)
(T (W x00 x00 x00 x00 x00 x00 x00 x00)
(T (W x00 x00 x00 x00 x00 x00 x00 x00)
(L (W x00 x00 x00 x00 x98 xcf xfe xff))
(L (W x00 x00 x00 x00 x00 x00 x00 x00)))
(T (W x00 x00 x00 x00 x00 x00 x00 x00)
(L (W x00 x00 x00 x00 x00 x00 x00 x00)) E))
(T (W x3c x01 x00 x00 x30 x01 x00 x00)
(T (W x00 x00 x80 x3f x00 x00 x80 x3f)
(L (W x00 x00 x00 x00 x00 x00 x00 x00)) E)
(T (W x94 x8f xfe xff x00 x00 x00 x00)
(L (W x74 x00 x00 x00 x68 x00 x00 x00)) E))))))))
(T (W x3c xc1 x01 x00 x70 xbf x01 x00)
(T (W xf8 xd3 x00 x00 x0c xd2 x00 x00)
(T (W x00 x00 x00 x00 x01 x00 x00 x00)
(T (W x00 x00 x00 x00 x98 xa2 xfc xff)
(T (W x4f x84 x6f x8b xe8 xcb x63 xb7)
(T (W x44 x00 x00 x00 x38 x00 x00 x00)
(T (W x00 x00 xe0 x40 x24 x01 x00 x00)
(T (W x00 x00 x00 x00 x00 x00 x00 x00)
(L (W x45 x26 x22 x84 xe4 x9c xf2 xcb))
(L (W x45 x26 x22 x84 xe4 x9c xf2 xcb)))
(T (W x2c x00 x00 x00 x20 x00 x00 x00)
(L (W x40 x00 x00 x00 x38 x00 x00 x00)) E))
(T (W x00 x00 x80 xbf x00 x00 x80 xbf)
(T (W x00 x00 x00 x00 x00 x00 x00 x00)
(L (W x45 x26 x22 x84 xe4 x9c xf2 xcb))
(L (W x00 x00 x00 x00 x00 x00 x00 x00)))
(T (W x00 x00 x00 x00 x01 x00 x00 x00)
(L (W x45 x26 x22 x84 xe4 x9c xf2 xcb)) E)))
(T (W x54 x00 x00 x00 x48 x00 x00 x00)
(T (W x45 x26 x22 x84 xe4 x9c xf2 xcb)
(T (W x00 x00 x80 xbf x9c x00 x00 x00)
(L (W x44 x00 x00 x00 x30 x00 x00 x00))
(L (W x00 x00 x80 xbf x00 x00 x80 xbf)))
(T (W x00 x00 x00 x00 x00 x00 x00 x00)
(L (W x28 x00 x00 x00 x14 x00 x00 x00)) E))
(T (W x00 x00 x00 x00 x01 x00 x00 x00)
(T (W x0b x5c x95 xe0 x6a x7a x48 x75)
(L (W x44 x00 x00 x00 x30 x00 x00 x00))
(L (W xae x87 x08 x43 x00 x00 x00 x00)))
(T (W x94 x72 xfe xff x16 x72 xfe xff)
(L (W x00 x00 x80 x3f x98 x72 xff xff)) E))))
(T (W x45 x26 x22 x84 xe4 x9c xf2 xcb)
(T (W xd7 xa3 x18 x42 x5c xff x50 x44)
(T (W x04 x00 x00 x00 x00 x00 x00 x00)
(T (W x54 x00 x00 x00 x48 x00 x00 x00)
(L (W x00 x00 x00 x00 x5a xaa xfe xff))
(L (W x4f x26 x0c x0c x1e xfa xa6 xc0)))
(T (W x34 x00 x00 x00 x20 x00 x00 x00)
(L (W x1c x01 x00 x00 x01 x00 x00 x00)) E))
(T (W x94 x62 xfd xff x00 x00 x00 x00)
(T (W x45 x26 x22 x84 xe4 x9c xf2 xcb)
(L (W x00 x00 xa0 x40 x24 x01 x00 x00))
(L (W x04 x00 x00 x00 x00 x00 x00 x00)))
(T (W xd7 xf3 x39 x44 x29 xdc x83 x42)
(L (W x34 x00 x00 x00 x20 x00 x00 x00)) E)))
(T (W x94 x02 xfd xff x00 x00 x00 x00)
(T (W x00 x00 x00 x00 x98 x42 xfd xff)
(T (W x2c x00 x00 x00 x18 x00 x00 x00)
(L (W x94 xc2 xfe xff x00 x00 x00 x00))
(L (W x12 xc2 xff xff x00 x00 x80 x3f)))
(T (W x00 x00 x00 x00 x00 x00 x00 x00)
(L (W x01 x00 x00 x00 x04 x00 x00 x00)) E))
(T (W x22 x22 x5c x23 x15 xcb xa5 x1d)
(T (W x00 x00 x00 x00 x00 x00 x00 x00)
(L (W x3c x05 xff xff x50 x00 x00 x00)) E)
(T (W x00 x00 x00 x00 x01 x00 x00 x00)
(L (W x00 x00 x00 x00 x00 x00 x00 x00)) E)))))
(T (W x00 x00 x00 x00 x00 x00 x00 x00)
(T (W x4b x5f x41 x52 x45 x41 x30 x32)
(T (W x00 x00 x00 x00 x01 x00 x00 x00)
(T (W x04 x00 x00 x00 xd2 x1f xfd xff)
(T (W x00 x00 x00 x00 x00 x00 x00 x00)
(L (W x00 x00 x00 x00 x00 x00 x00 x00))
(L (W x28 x00 x00 x00 x14 x00 x00 x00)))
(T (W x12 x1a xfe xff x00 x00 x80 x3f)
(L (W x04 x00 x00 x00 xb8 x1c xff xff)) E))
(T (W x45 x26 x22 x84 xe4 x9c xf2 xcb)
(T (W x00 x00 x40 x40 x24 x01 x00 x00)
(L (W x00 x00 x00 x00 x00 x00 x00 x00))
(L (W x00 x00 x00 x00 x5a xe2 xff xff)))
(T (W x00 x00 x00 x00 x00 x00 x00 x00)
(L (W x04 x00 x00 x00 xb8 x5c xff xff)) E)))
(T (W x3c xfd xfc xff x50 x00 x00 x00)
(T (W x34 x01 x00 x00 x00 x00 xa0 x40)
(T (W x2c x00 x00 x00 x20 x00 x00 x00)
(L (W x00 x00 x00 x00 x00 x00 x00 x00))
(L (W x01 x00 x00 x00 x04 x00 x00 x00)))
(T (W x40 x00 x00 x00 x38 x00 x00 x00)
(L (W x3c x01 x00 x00 x30 x01 x00 x00)) E))
(T (W x00 x00 x00 x00 x00 x00 x00 x00)
(T (W x3c xfd xfd xff x50 x00 x00 x00)
(L (W x34 x00 x00 x00 x20 x00 x00 x00))
(L (W xb3 xd1 x30 xb1 xcb xb0 xe4 x30)))
(T (W x40 x00 x00 x00 x38 x00 x00 x00)
(L (W x54 x00 x00 x00 x48 x00 x00 x00)) E))))
(T (W x45 x26 x22 x84 xe4 x9c xf2 xcb)
(T (W x1c x01 x00 x00 x04 x00 x00 x00)
(T (W x04 x2b xfd xff x4c x00 x00 x00)
(T (W x00 x00 x00 x00 x00 x00 x00 x00)
(L (W x45 x26 x22 x84 xe4 x9c xf2 xcb))
(L (W x00 x00 x00 x00 x00 x00 x00 x00)))
(T (W x00 x00 x00 x00 x00 x00 x00 x00)
(L (W x44 x00 x00 x00 x38 x00 x00 x00)) E))
(T (W x34 x01 x00 x00 x00 x00 xa0 x40)
(T (W x00 x00 x00 x00 x98 xea xfd xff)
(L (W x45 x26 x22 x84 xe4 x9c xf2 xcb))
(L (W x44 x00 x00 x00 x38 x00 x00 x00)))
(T (W x45 x26 x22 x84 xe4 x9c xf2 xcb)
(L (W x45 x26 x22 x84 xe4 x9c xf2 xcb)) E)))
(T (W x12 x0a xfd xff x66 x16 x1a x44)
(T (W x12 x4a xfd xff x00 x00 x80 x3f)
(T (W x34 x00 x00 x00 x20 x00 x00 x00)
(L (W xe1 xba x68 x43 x00 x00 x00 x00))
(L (W xf9 xa9 x97 x16 x1e xbf xd6 xd2)))
(T (W x5c xcf x50 x44 x3d x0a x1d x42)
(L (W x45 x26 x22 x84 xe4 x9c xf2 xcb)) E))
(T (W x45 x26 x22 x84 xe4 x9c xf2 xcb)
(T (W x00 x00 x80 xbf x00 x00 x80 xbf)
(L (W x5c x9f x03 x44 xb8 x1e x7b x42)) E)
(T (W x00 x00 x00 x00 x00 x00 x00 x00)
(L (W x00 x00 x00 x00 x00 x00 x00 x00)) E))))))
(T (W x45 x26 x22 x84 xe4 x9c xf2 xcb)
(T (W x2c x00 x00 x00 x20 x00 x00 x00)
(T (W x00 x00 x00 x00 x00 x00 x00 x00)
(T (W x00 x00 x00 x00 x00 x00 x00 x00)
(T (W x85 xfd xb1 x4b xbc x2b xf7 xea)
(T (W xd6 x81 x9c x94 x9b x27 x57 x25)
(L (W x3c x99 xfe xff x50 x00 x00 x00))
(L (W x45 x26 x22 x84 xe4 x9c xf2 xcb)))
(T (W x94 x16 xfe xff x00 x00 x00 x00)
(L (W xa8 xe9 x39 xdc x00 x60 x48 x2f)) E))
(T (W xcf xeb xad x00 x15 xb2 x9d xe0)
(T (W x00 x00 x80 x3f x00 x00 x80 x3f)
(L (W x00 x00 x00 x00 x98 xd6 xfe xff))
(L (W x55 x6c xfc xf1 x99 x9e xc9 x88)))
(T (W x00 x00 x00 x00 x98 x56 xfe xff)
(L (W x45 x26 x22 x84 xe4 x9c xf2 xcb)) E)))
(T (W x45 x26 x22 x84 xe4 x9c xf2 xcb)
(T (W x00 x00 x00 x00 x1c x00 x00 x00)
(T (W x54 x00 x00 x00 x48 x00 x00 x00)
(L (W xd6 x81 x9c x94 x9b x27 x57 x25))
(L (W x04 x00 x00 x00 x00 x00 x00 x00)))
(T (W x00 x00 xa0 x40 x24 x01 x00 x00)
(L (W x00 x00 x00 x00 x00 x00 x00 x00)) E))
(T (W x00 x00 x00 x00 x98 x76 xfd xff)
(T (W x45 x26 x22 x84 xe4 x9c xf2 xcb)
(L (W x5f x4e x45 x57 x5f x4f x55 x54))
(L (W x01 x00 x00 x00 x00 x00 x80 x3f)))
(T (W x00 x00 x80 xbf x9c x00 x00 x00)
(L (W x28 x01 x00 x00 x20 x01 x00 x00)) E))))
(T (W x40 x00 x00 x00 x38 x00 x00 x00)
(T (W x5f x4d x41 x53 x53 x5f x47 x41)
(T (W x45 x26 x22 x84 xe4 x9c xf2 xcb)
(T (W x45 x26 x22 x84 xe4 x9c xf2 xcb)
(L (W x45 x26 x22 x84 xe4 x9c xf2 xcb))
(L (W x45 x26 x22 x84 xe4 x9c xf2 xcb)))
(T (W x45 x26 x22 x84 xe4 x9c xf2 xcb)
(L (W x45 x26 x22 x84 xe4 x9c xf2 xcb)) E))
(T (W x00 x00 x80 x3f x00 x00 x80 x3f)
(T (W x45 x26 x22 x84 xe4 x9c xf2 xcb)
(L (W x04 x00 x00 x00 x00 x00 x00 x00))
(L (W x45 x26 x22 x84 xe4 x9c xf2 xcb)))
(T (W x7b x89 xba x31 x15 xd7 x38 x37)
(L (W x45 x26 x22 x84 xe4 x9c xf2 xcb)) E)))
(T (W x2c x00 x00 x00 x18 x00 x00 x00)
(T (W x00 x00 x00 x00 x98 x46 xfd xff)
(T (W x00 x00 x00 x00 x00 x00 x00 x00)
(L (W x00 x00 x00 x00 x98 xc6 xfe xff))
(L (W x5f x4e x45 x57 x5f x4f x55 x54)))
(T (W x45 x26 x22 x84 xe4 x9c xf2 xcb)
(L (W x00 x00 x00 x00 x00 x00 x00 x00)) E))
(T (W x04 x00 x00 x00 xd2 x8b xfd xff)
(T (W x45 x41 x30 x32 x5f x30 x31 x34)
(L (W x04 x00 x00 x00 xb8 x08 xff xff)) E)
(T (W x5c x00 x00 x00 x50 x00 x00 x00)
(L (W x60 x00 x00 x00 x54 x00 x00 x00)) E)))))
(T (W x04 x00 x00 x00 xb8 xb0 xfc xff)
(T (W x04 x00 x00 x00 x00 x00 x80 x3f)
(T (W xd6 x81 x9c x94 x9b x27 x57 x25)
(T (W x30 x30 x34 x00 x01 x00 x00 x00)
(T (W x00 x00 x80 xbf x9c x00 x00 x00)
(L (W x45 x26 x22 x84 xe4 x9c xf2 xcb))
(L (W x42 x52 x45 x41 x4b x5f x41 x52)))
(T (W x3c x01 x00 x00 x30 x01 x00 x00)
(L (W x00 x00 x80 x3f x00 x00 x80 x3f)) E))
(T (W x55 x6c xfc xf1 x99 x9e xc9 x88)
(T (W x09 x9c x32 x19 x15 x77 xe9 x0b)
(L (W x12 xde xfe xff x00 x00 x80 x3f))
(L (W x00 x00 x80 xbf x9c x00 x00 x00)))
(T (W x2c x00 x00 x00 x18 x00 x00 x00)
(L (W x14 x3e x11 x44 x52 xb8 x26 x42)) E)))
(T (W x00 x00 x00 x00 x00 x00 x00 x00)
(T (W x00 x00 x00 x00 x01 x00 x00 x00)
(T (W x94 xbe xfd xff x00 x00 x00 x00)
(L (W x45 x26 x22 x84 xe4 x9c xf2 xcb))
(L (W x00 x00 x00 x00 x01 x00 x00 x00)))
(T (W x01 x00 x00 x00 x04 x00 x00 x00)
(L (W x04 x00 x00 x00 x00 x00 x00 x00)) E))
(T (W x00 x80 xd7 x43 x00 x00 x14 x42)
(T (W x00 x00 x00 x00 x01 x00 x00 x00)
(L (W x45 x26 x22 x84 xe4 x9c xf2 xcb))
(L (W x4c x00 x20 x00 x00 x00 x00 x00)))
(T (W x31 x9b x4a xdc x00 x65 x5c x2f)
(L (W x00 x00 x00 x00 x98 x7e xff xff)) E))))
(T (W x45 x26 x22 x84 xe4 x9c xf2 xcb)
(T (W x9b x94 xdd xf0 x04 x26 xff xa3)
(T (W x00 x00 x00 x00 x00 x00 x00 x00)
(T (W x00 x00 x80 x3f x00 x00 x80 x3f)
(L (W x45 x26 x22 x84 xe4 x9c xf2 xcb))
(L (W x00 x00 x80 x3f x98 xae xff xff)))
(T (W x5c x00 x00 x00 x50 x00 x00 x00)
(L (W x00 x00 x00 x00 x98 x2e xff xff)) E))
(T (W x34 x00 x00 x00 x20 x00 x00 x00)
(T (W x1f x85 x40 x44 x00 x00 x00 x00)
(L (W x45 x26 x22 x84 xe4 x9c xf2 xcb))
(L (W x00 x00 x00 x00 x98 xee xff xff)))
(T (W x00 x00 x00 x00 x00 x00 x00 x00)
(L (W x04 x00 x00 x00 x80 x6e xff xff)) E)))
(T (W x1b x00 x00 x00 x57 x53 x59 x53)
(T (W x3c x01 x00 x00 x30 x01 x00 x00)
(T (W x45 x26 x22 x84 xe4 x9c xf2 xcb)
(L (W x00 x00 x80 xbf x9c x00 x00 x00))
(L (W x45 x26 x22 x84 xe4 x9c xf2 xcb)))
(T (W x3c x01 x00 x00 x30 x01 x00 x00)
(L (W x1c x01 x00 x00 x01 x00 x00 x00)) E))
(T (W x01 x00 x00 x00 x04 x00 x00 x00)
(T (W x45 x26 x22 x84 xe4 x9c xf2 xcb)
(L (W x00 x00 x80 xbf x00 x00 x80 xbf)) E)
(T (W x34 x00 x00 x00 x20 x00 x00 x00)
(L (W x45 x26 x22 x84 xe4 x9c xf2 xcb)) E)))))))
(T (W x32 x9c x7d x67 x2b x74 xe6 x8e)
(T (W x04 x00 x00 x00 xd2 xa1 xfc xff)
(T (W x01 x00 x00 x00 x04 x00 x00 x00)
(T (W x94 xb4 xfc xff x16 xb4 xfc xff)
(T (W x45 x26 x22 x84 xe4 x9c xf2 xcb)
(T (W x00 x00 x80 xbf x00 x00 x80 xbf)
(T (W x94 x94 xfd xff x00 x00 x00 x00)
(L (W x94 x94 xfe xff x00 x00 x00 x00))
(L (W x94 x94 xff xff x00 x00 x00 x00)))
(T (W x00 x00 x00 x00 x00 x00 x00 x00)
(L (W x00 x00 x00 x00 x98 x14 xff xff)) E))
(T (W x00 x00 x80 xbf x00 x00 x80 xbf)
(T (W x74 x00 x00 x00 x68 x00 x00 x00)
(L (W x45 x26 x22 x84 xe4 x9c xf2 xcb))
(L (W x00 x00 x00 x00 x01 x00 x00 x00)))
(T (W x45 x26 x22 x84 xe4 x9c xf2 xcb)
(L (W x94 x54 xff xff x00 x00 x00 x00)) E)))
(T (W x45 x26 x22 x84 xe4 x9c xf2 xcb)
(T (W x00 x00 x00 x00 x00 x00 x00 x00)
(T (W x04 x00 x00 x00 x00 x00 x00 x00)
(L (W x28 x00 x00 x00 x14 x00 x00 x00))
(L (W x04 x00 x00 x00 x00 x00 x00 x00)))
(T (W x00 x00 x00 x00 x00 x00 x00 x00)
(L (W x66 x66 x26 x42 x33 x53 x07 x44)) E))
(T (W x40 x00 x00 x00 x38 x00 x00 x00)
(T (W x54 x00 x00 x00 x48 x00 x00 x00)
(L (W x1f x85 xfa x43 x33 xb3 xa5 x42))
(L (W x00 x00 x00 x00 x00 x00 x00 x00)))
(T (W x00 x00 x00 x00 x00 x00 x00 x00)
(L (W x00 x00 x00 x00 x00 x00 x00 x00)) E))))
(T (W x00 x00 x00 x00 x01 x00 x00 x00)
(T (W x00 x00 x00 x00 x00 x00 x00 x00)
(T (W x45 x26 x22 x84 xe4 x9c xf2 xcb)
(T (W x45 x26 x22 x84 xe4 x9c xf2 xcb)
(L (W x34 x00 x00 x00 x20 x00 x00 x00))
(L (W x54 x00 x00 x00 x48 x00 x00 x00)))
(T (W x04 x00 x00 x00 xd2 x29 xfe xff)
(L (W x45 x26 x22 x84 xe4 x9c xf2 xcb)) E))
(T (W x74 x00 x00 x00 x68 x00 x00 x00)
(T (W x00 x00 x00 x00 x98 xe4 xfd xff)
(L (W x59 xb0 x7a x93 x5b xd7 xc3 xaf))
(L (W x54 x00 x00 x00 x48 x00 x00 x00)))
(T (W x3c x01 x00 x00 x30 x01 x00 x00)
(L (W x00 x00 x00 x00 x01 x00 x00 x00)) E)))
(T (W x78 x00 x00 x00 x6c x00 x00 x00)
(T (W x45 x26 x22 x84 xe4 x9c xf2 xcb)
(T (W x00 x00 x00 x00 x16 xc4 xfd xff)
(L (W x45 x26 x22 x84 xe4 x9c xf2 xcb))
(L (W x00 x00 x00 x00 x00 x00 x00 x00)))
(T (W x94 x44 xfe xff x00 x00 x00 x00)
(L (W x2c x00 x00 x00 x20 x00 x00 x00)) E))
(T (W x00 x00 x00 x00 x01 x00 x00 x00)
(T (W x1c x00 x00 x00 x46 x53 x59 x53)
(L (W x00 x00 x00 x00 x00 x00 x00 x00)) E)
(T (W x60 x00 x00 x00 x54 x00 x00 x00)
(L (W x00 x00 x00 x00 x01 x00 x00 x00)) E)))))
(T (W x00 x00 x00 x00 x98 xac xfc xff)
(T (W x3c x01 x00 x00 x30 x01 x00 x00)
(T (W x60 x00 x00 x00 x54 x00 x00 x00)
(T (W x00 x00 x00 x00 x01 x00 x00 x00)
(T (W x00 x00 x00 x00 x00 x00 x00 x00)
(L (W x00 x00 x00 x00 x01 x00 x00 x00))
(L (W x9a x79 x2f x44 x00 x00 x00 x00)))
(T (W x00 x00 x00 x00 x00 x00 x00 x00)
(L (W x28 x00 x00 x00 x14 x00 x00 x00)) E))
(T (W x00 x00 x00 x00 x98 x5c xfd xff)
(T (W x00 x00 x80 xbf x00 x00 x80 xbf)
(L (W x04 x00 x00 x00 xb8 xde xfe xff))
(L (W x32 x00 x00 x00 x00 x00 x00 x01)))
(T (W x78 x00 x00 x00 x6c x00 x00 x00)
(L (W x00 x00 x00 x00 x16 x5c xff xff)) E)))
(T (W x07 xc1 x33 x97 x85 xac x5f x5f)
(T (W x01 x00 x00 x00 x00 x00 x80 x3f)
(T (W x00 x00 x00 x00 x00 x00 x00 x00)
(L (W x01 x00 x00 x00 x01 x00 x00 x00))
(L (W x00 x00 x00 x00 x00 x00 x00 x00)))
(T (W x00 x00 x00 x00 x98 x3c xfe xff)
(L (W x79 x68 x89 xe8 x48 xd4 x3e x2f)) E))
(T (W x44 x00 x00 x00 x30 x00 x00 x00)
(T (W x00 x00 x00 x00 x00 x00 x00 x00)
(L (W x04 x00 x00 x00 xd2 x01 xff xff))
(L (W x38 x01 x00 x00 x30 x01 x00 x00)))
(T (W x00 x00 x00 x00 x98 x7c xfe xff)
(L (W x45 x26 x22 x84 xe4 x9c xf2 xcb)) E))))
(T (W x45 x26 x22 x84 xe4 x9c xf2 xcb)
(T (W x00 x00 x80 xbf x9c x00 x00 x00)
(T (W x44 x00 x00 x00 x38 x00 x00 x00)
(T (W x74 x00 x00 x00 x68 x00 x00 x00)
(L (W x44 x00 x00 x00 x38 x00 x00 x00))
(L (W x5c x00 x00 x00 x50 x00 x00 x00)))
(T (W x94 x2c xfe xff x00 x00 x00 x00)
(L (W x00 x00 x00 x00 x00 x00 x00 x00)) E))
(T (W x01 x00 x00 x00 x00 x00 x80 x3f)
(T (W x28 x00 x00 x00 x14 x00 x00 x00)
(L (W x00 x00 x00 x00 x98 xec xfe xff))
(L (W x45 x26 x22 x84 xe4 x9c xf2 xcb)))
(T (W x2c x00 x00 x00 x20 x00 x00 x00)
(L (W x00 x00 x00 x00 x00 x00 x00 x00)) E)))
(T (W x00 x00 x00 x00 x00 x00 x00 x00)
(T (W x00 x00 x00 x00 x00 x00 x00 x00)
(T (W x04 x00 x00 x00 xd2 xd1 xfd xff)
(L (W x00 x00 x00 x00 x00 x00 x00 x00))
(L (W x54 x00 x00 x00 x48 x00 x00 x00)))
(T (W x00 x00 x00 x00 x00 x00 x00 x00)
(L (W x00 x00 x00 x00 x00 x00 x00 x00)) E))
(T (W x00 x00 x00 x00 x98 x8c xfd xff)
(T (W x00 x00 x00 x00 x01 x00 x00 x00)
(L (W x53 x5f x47 x41 x4e x45 x52 x41)) E)
(T (W x01 x00 x00 x00 x00 x00 x80 x3f)
(L (W x1c x01 x00 x00 x01 x00 x00 x00)) E))))))
(T (W x45 x26 x22 x84 xe4 x9c xf2 xcb)
(T (W x45 x26 x22 x84 xe4 x9c xf2 xcb)
(T (W x00 x00 x00 x00 x1c x00 x00 x00)
(T (W x00 x00 x00 x00 x00 x00 x00 x00)
(T (W x00 x00 x00 x00 x01 x00 x00 x00)
(T (W x00 x00 x80 x3f x98 x98 xfd xff)
(L (W x86 x3c x45 xdc x00 xd6 x55 x2f))
(L (W x00 x00 x00 x00 x98 x98 xff xff)))
(T (W x78 x00 x00 x00 x6c x00 x00 x00)
(L (W x00 x00 x00 x00 x00 x00 x00 x00)) E))
(T (W x00 x00 x00 x00 x01 x00 x00 x00)
(T (W x00 x00 x00 x00 x00 x00 x00 x00)
(L (W x2c x00 x00 x00 x20 x00 x00 x00))
(L (W x94 xd8 xff xff x16 xd8 xff xff)))
(T (W x45 x26 x22 x84 xe4 x9c xf2 xcb)
(L (W x00 x00 x00 x00 x98 x58 xff xff)) E)))
(T (W x94 xf8 xfc xff x00 x00 x00 x00)
(T (W x4b x5f x41 x52 x45 x41 x30 x32)
(T (W x45 x26 x22 x84 xe4 x9c xf2 xcb)
(L (W x00 x00 x80 x3f x00 x00 x80 x3f))
(L (W x45 x26 x22 x84 xe4 x9c xf2 xcb)))
(T (W x79 xaf x4a xfe xe6 xe0 x8f xb1)
(L (W x53 x5f x47 x41 x4e x45 x52 x41)) E))
(T (W x41 x2f xc8 xc9 x03 x8c xa0 xbc)
(T (W x45 x26 x22 x84 xe4 x9c xf2 xcb)
(L (W x00 x00 x00 x00 x5a x00 xff xff))
(L (W x00 x00 x80 xbf x00 x00 x80 xbf)))
(T (W x5e xf2 x4a xaf x23 x93 x64 xe3)
(L (W xa4 x09 x71 xb6 xd3 xe0 x63 xf6)) E))))
(T (W x45 x26 x22 x84 xe4 x9c xf2 xcb)
(T (W x8a xcc xff xff x00 x00 x00 x01)
(T (W x00 x00 x00 x00 x98 x28 xfd xff)
(T (W x44 x00 x00 x00 x38 x00 x00 x00)
(L (W x04 x00 x00 x00 xd2 xad xfe xff))
(L (W x2c x00 x00 x00 x20 x00 x00 x00)))
(T (W x44 x00 x00 x00 x38 x00 x00 x00)
(L (W x45 x26 x22 x84 xe4 x9c xf2 xcb)) E))
(T (W x00 x00 x00 x00 x00 x00 x00 x00)
(T (W x00 x00 x00 x00 x00 x00 x00 x00)
(L (W x54 x00 x00 x00 x48 x00 x00 x00))
(L (W x00 x00 x00 x00 x98 xe8 xff xff)))
(T (W x54 x00 x00 x00 x48 x00 x00 x00)
(L (W x94 x68 xff xff x00 x00 x00 x00)) E)))
(T (W x00 x00 x00 x00 x16 x08 xfd xff)
(T (W x04 x00 x00 x00 xb8 x4a xfd xff)
(T (W x00 x00 x00 x00 x5a xd0 xfd xff)
(L (W x28 x00 x00 x00 x14 x00 x00 x00))
(L (W x01 x00 x00 x00 x00 x00 x80 x3f)))
(T (W x94 x48 xfe xff x16 x48 xfe xff)
(L (W x94 x48 xff xff x00 x00 x00 x00)) E))
(T (W x45 x26 x22 x84 xe4 x9c xf2 xcb)
(T (W x00 x00 xa0 x40 x24 x01 x00 x00)
(L (W x12 x08 xff xff x00 x00 x80 x3f)) E)
(T (W x45 x26 x22 x84 xe4 x9c xf2 xcb)
(L (W x45 x26 x22 x84 xe4 x9c xf2 xcb)) E)))))
(T (W x44 x00 x00 x00 x30 x00 x00 x00)
(T (W x34 x00 x00 x00 x20 x00 x00 x00)
(T (W x00 x00 x80 x3f x00 x00 x80 x3f)
(T (W x5f x61 x72 x65 x61 x30 x32 x5f)
(T (W x04 x00 x00 x00 x00 x00 x00 x00)
(L (W x00 x00 x00 x00 x00 x00 x00 x00))
(L (W x3c x01 x00 x00 x30 x01 x00 x00)))
(T (W x01 x00 x00 x00 x00 x00 x80 x3f)
(L (W x31 x31 x00 x00 x1b x00 x00 x00)) E))
(T (W x00 x00 x00 x00 x00 x00 x00 x00)
(T (W x54 x00 x00 x00 x48 x00 x00 x00)
(L (W xd7 xa3 x49 x43 x00 x00 x00 x00))
(L (W x4a x7d xb2 x66 x39 xd7 x43 xeb)))
(T (W x00 x00 x00 x00 x16 x60 xfe xff)
(L (W x3c x01 x00 x00 x30 x01 x00 x00)) E)))
(T (W x00 x00 x00 x00 x00 x00 x00 x00)
(T (W x45 x26 x22 x84 xe4 x9c xf2 xcb)
(T (W x74 x00 x00 x00 x68 x00 x00 x00)
(L (W x45 x26 x22 x84 xe4 x9c xf2 xcb))
(L (W x44 x00 x00 x00 x30 x00 x00 x00)))
(T (W x2c x00 x00 x00 x20 x00 x00 x00)
(L (W x45 x26 x22 x84 xe4 x9c xf2 xcb)) E))
(T (W x3c x01 x00 x00 x30 x01 x00 x00)
(T (W x45 x26 x22 x84 xe4 x9c xf2 xcb)
(L (W x94 x00 xff xff x00 x00 x00 x00))
(L (W xcd xcc x29 x42 x9a xc9 x0f x44)))
(T (W x00 x00 x00 x00 x00 x00 x00 x00)
(L (W x45 x26 x22 x84 xe4 x9c xf2 xcb)) E))))
(T (W x00 x00 x00 x00 x98 xd0 xfc xff)
(T (W x04 x00 x00 x00 x00 x00 x00 x00)
(T (W x00 x00 x00 x00 x01 x00 x00 x00)
(T (W x00 x00 x00 x00 x00 x00 x00 x00)
(L (W x00 x00 x00 x00 x00 x00 x00 x00))
(L (W x00 x00 x00 x00 x00 x00 x00 x00)))
(T (W x00 x00 x80 x3f x98 x30 xfe xff)
(L (W x78 x00 x00 x00 x6c x00 x00 x00)) E))
(T (W x45 x26 x22 x84 xe4 x9c xf2 xcb)
(T (W x00 x00 xa0 x40 x24 x01 x00 x00)
(L (W x00 x00 x00 x00 x98 xf0 xfe xff))
(L (W x28 x00 x00 x00 x14 x00 x00 x00)))
(T (W x5c x00 x00 x00 x50 x00 x00 x00)
(L (W x48 x00 x00 x00 x34 x00 x00 x00)) E)))
(T (W x5f x41 x52 x45 x41 x30 x32 x00)
(T (W x01 x00 x00 x00 x00 x00 x80 x3f)
(T (W x44 x00 x00 x00 x38 x00 x00 x00)
(L (W x00 x00 x00 x00 x01 x00 x00 x00))
(L (W x01 x00 x00 x00 x04 x00 x00 x00)))
(T (W x08 x81 xbd x31 x15 x49 x3c x37)
(L (W x45 x26 x22 x84 xe4 x9c xf2 xcb)) E))
(T (W x00 x00 x00 x00 x00 x00 x00 x00)
(T (W x00 x00 x00 x00 x98 x10 xfe xff)
(L (W x04 x00 x00 x00 x00 x00 x00 x00)) E)
(T (W x04 x00 x00 x00 xd2 x95 xfe xff)
(L (W x45 x26 x22 x84 xe4 x9c xf2 xcb)) E)))))))))))
(T (W x1c x4f x03 x00 x2c x4d x03 x00)
(T (W x6c x31 x03 x00 xa0 x2f x03 x00)
(T (W xfc xf6 x02 x00 x30 xf5 x02 x00)
(T (W xec x80 x02 x00 x20 x7f x02 x00)
(T (W x8c x94 x01 x00 xc0 x92 x01 x00)
(T (W x45 x26 x22 x84 xe4 x9c xf2 xcb)
(T (W x45 x26 x22 x84 xe4 x9c xf2 xcb)
(T (W x00 x00 x00 x00 x1c x00 x00 x00)
(T (W x00 x00 x00 x00 x00 x00 x00 x00)
(T (W x00 x00 x00 x00 x01 x00 x00 x00)
(T (W x2c x00 x00 x00 x18 x00 x00 x00)
(L (W x01 x00 x00 x00 x04 x00 x00 x00))
(L (W x2c x00 x00 x00 x20 x00 x00 x00)))
(T (W x00 x00 x00 x00 x00 x00 x00 x00)
(L (W xf4 x10 xff xff x00 x00 x00 x00)) E))
(T (W x40 x00 x00 x00 x38 x00 x00 x00)
(T (W x00 x00 x00 x00 x01 x00 x00 x00)
(L (W x00 x00 x00 x00 xf8 xd0 xfe xff))
(L (W x00 x00 x00 x00 xf8 xd0 xff xff)))
(T (W x45 x26 x22 x84 xe4 x9c xf2 xcb)
(L (W x45 x26 x22 x84 xe4 x9c xf2 xcb)) E)))
(T (W xf4 xf0 xfc xff x00 x00 x00 x00)
(T (W x66 x66 xc0 x42 x9a xd9 x97 x43)
(T (W x00 x00 x00 x00 x01 x00 x00 x00)
(L (W x00 x00 x80 x3f x00 x00 x80 x3f))
(L (W x45 x26 x22 x84 xe4 x9c xf2 xcb)))
(T (W x3c x01 x00 x00 x30 x01 x00 x00)
(L (W x00 x00 x00 x00 x00 x00 x00 x00)) E))
(T (W x45 x26 x22 x84 xe4 x9c xf2 xcb)
(T (W x04 x00 x00 x00 x32 xf6 xfd xff)
(L (W x00 x00 x80 x3f xf8 xf0 xfe xff))
(L (W x00 x00 x00 x00 xba xf8 xff xff)))
(T (W x00 x00 x00 x00 x00 x00 x00 x00)
(L (W x00 x00 x00 x00 x00 x00 x00 x00)) E))))
(T (W x45 x26 x22 x84 xe4 x9c xf2 xcb)
(T (W xea xc4 xff xff x00 x00 x00 x01)
(T (W xf4 x20 xfd xff x00 x00 x00 x00)
(T (W xf4 xa0 xfd xff x00 x00 x00 x00)
(L (W xdc x16 x5a xc1 xe7 x1b xff xaf))
(L (W x00 x00 x00 x00 x01 x00 x00 x00)))
(T (W x40 x00 x00 x00 x38 x00 x00 x00)
(L (W x79 xcd x0c xfe x1d xf2 x83 xa7)) E))
(T (W x2c x00 x00 x00 x18 x00 x00 x00)
(T (W x9c xe3 xfd xff x50 x00 x00 x00)
(L (W x34 x00 x00 x00 x20 x00 x00 x00))
(L (W x45 x26 x22 x84 xe4 x9c xf2 xcb)))
(T (W x45 x41 x30 x32 x5f x30 x31 x39)
(L (W x00 x00 x00 x00 x01 x00 x00 x00)) E)))
(T (W x00 x00 x00 x00 x76 x00 xfd xff)
(T (W xeb x90 xa7 x28 xbf x50 x53 x6a)
(T (W x00 x00 x00 x00 x00 x00 x00 x00)
(L (W x2c x00 x00 x00 x20 x00 x00 x00))
(L (W x31 x00 x00 x00 x1b x00 x00 x00)))
(T (W x04 x00 x00 x00 x18 x43 xfe xff)
(L (W x45 x26 x22 x84 xe4 x9c xf2 xcb)) E))
(T (W x00 x00 x00 x00 x01 x00 x00 x00)
(T (W x00 x00 xa0 x40 x24 x01 x00 x00)
(L (W x00 x00 x00 x00 x00 x00 x00 x00)) E)
(T (W x28 x00 x00 x00 x14 x00 x00 x00)
(L (W x44 x00 x00 x00 x30 x00 x00 x00)) E)))))
(T (W x44 x00 x00 x00 x30 x00 x00 x00)
(T (W x34 x00 x00 x00 x20 x00 x00 x00)
(T (W x00 x00 x80 x3f x00 x00 x80 x3f)
(T (W x00 x00 x00 x00 xf8 x18 xfd xff)
(T (W x3c x01 x00 x00 x30 x01 x00 x00)
(L (W x78 x00 x00 x00 x6c x00 x00 x00))
(L (W xf4 x98 xff xff x76 x98 xff xff)))
(T (W x00 x00 x00 x00 x00 x00 x00 x00)
(L (W x00 x00 x80 x3f x00 x00 x80 x3f)) E))
(T (W x00 x00 x00 x00 xf8 x58 xfd xff)
(T (W x00 x00 x00 x00 x01 x00 x00 x00)
(L (W x04 x00 x00 x00 xe0 xd8 xfe xff))
(L (W x00 x00 x80 xbf x00 x00 x80 xbf)))
(T (W x48 x00 x00 x00 x34 x00 x00 x00)
(L (W x00 x00 x80 x3f xf8 x58 xff xff)) E)))
(T (W x00 x00 x00 x00 x00 x00 x00 x00)
(T (W xfc xdd x1b x72 x9d x0c xa7 xbe)
(T (W x00 x00 x00 x00 x00 x00 x00 x00)
(L (W x01 x00 x00 x00 x01 x00 x00 x00))
(L (W x45 x26 x22 x84 xe4 x9c xf2 xcb)))
(T (W x45 x26 x22 x84 xe4 x9c xf2 xcb)
(L (W x45 x26 x22 x84 xe4 x9c xf2 xcb)) E))
(T (W x74 x00 x00 x00 x68 x00 x00 x00)
(T (W x00 x00 x00 x00 x00 x00 x00 x00)
(L (W x04 x00 x00 x00 x00 x00 x00 x00))
(L (W x45 x26 x22 x84 xe4 x9c xf2 xcb)))
(T (W x45 x26 x22 x84 xe4 x9c xf2 xcb)
(L (W x45 x26 x22 x84 xe4 x9c xf2 xcb)) E))))
(T (W x45 x26 x22 x84 xe4 x9c xf2 xcb)
(T (W x04 x00 x00 x00 x00 x00 x00 x00)
(T (W x1c x00 x00 x00 x46 x53 x59 x53)
(T (W x00 x00 x00 x00 x01 x00 x00 x00)
(L (W x01 x00 x00 x00 x04 x00 x00 x00))
(L (W x04 x00 x00 x00 x18 xab xff xff)))
(T (W x00 x00 x00 x00 x01 x00 x00 x00)
(L (W x00 x00 x00 x00 x00 x00 x00 x00)) E))
(T (W x15 xe3 x1b x72 x9d x0f xa7 xbe)
(T (W x55 x6c xfc xf1 x99 x9e xc9 x88)
(L (W x9c xeb xfe xff x50 x00 x00 x00))
(L (W x00 x00 x00 x00 x00 x00 x00 x00)))
(T (W x9c x6b xfe xff x50 x00 x00 x00)
(L (W x00 x00 x00 x00 x00 x00 x00 x00)) E)))
(T (W x5f x41 x52 x45 x41 x30 x32 x00)
(T (W x00 x00 x00 x00 x00 x00 x00 x00)
(T (W x04 x00 x00 x00 x00 x00 x00 x00)
(L (W x00 x00 x00 x00 xba xd0 xfe xff))
(L (W x40 x00 x00 x00 x38 x00 x00 x00)))
(T (W x00 x00 x40 x40 x3c x01 x00 x00)
(L (W x48 xc1 xf2 x43 x7b x14 x2b x42)) E))
(T (W x2c x00 x00 x00 x20 x00 x00 x00)
(T (W x04 x00 x00 x00 x32 x0e xfe xff)
(L (W x5f x30 x32 x32 x00 x00 x00 x00)) E)
(T (W x00 x00 x40 x40 x24 x01 x00 x00)
(L (W x3c x01 x00 x00 x30 x01 x00 x00)) E))))))
(T (W x01 x00 x00 x00 x04 x00 x00 x00)
(T (W x00 x00 x00 x00 xf8 xa4 xfc xff)
(T (W x3c x01 x00 x00 x30 x01 x00 x00)
(T (W x60 x00 x00 x00 x54 x00 x00 x00)
(T (W x45 x26 x22 x84 xe4 x9c xf2 xcb)
(T (W x9a x19 xac x43 xcd xcc x10 x42)
(L (W x00 x00 x00 x00 x00 x00 x00 x00))
(L (W x00 x00 x00 x00 x00 x00 x00 x00)))
(T (W x00 x00 x00 x00 x76 x14 xfe xff)
(L (W x00 x00 x00 x00 x00 x00 x00 x00)) E))
(T (W x45 x26 x22 x84 xe4 x9c xf2 xcb)
(T (W x00 x00 x00 x00 x00 x00 x00 x00)
(L (W x45 x26 x22 x84 xe4 x9c xf2 xcb))
(L (W xb8 x5e xd4 x43 x00 x00 x00 x00)))
(T (W x0f x10 xb9 x28 xbf xce x67 x6a)
(L (W x00 x00 x00 x00 x00 x00 x00 x00)) E)))
(T (W xb2 xa0 x30 x97 x85 x22 x5c x5f)
(T (W x02 x00 x00 x00 x00 x00 x80 x3f)
(T (W xf4 xb4 xfd xff x00 x00 x00 x00)
(L (W x57 x53 x59 x53 x5f x4d x41 x53))
(L (W xf4 xb4 xff xff x00 x00 x00 x00)))
(T (W x34 x00 x00 x00 x20 x00 x00 x00)
(L (W x1c x01 x00 x00 x01 x00 x00 x00)) E))
(T (W x44 x00 x00 x00 x38 x00 x00 x00)
(T (W x9c xf7 xfd xff x50 x00 x00 x00)
(L (W x00 x00 x80 xbf x9c x00 x00 x00))
(L (W xae x8a x40 x31 xac xe1 x96 xd3)))
(T (W x00 x00 x00 x00 x01 x00 x00 x00)
(L (W x00 x00 x00 x00 x01 x00 x00 x00)) E))))
(T (W x00 x00 x00 x00 xf8 xc4 xfc xff)
(T (W x00 x00 x80 xbf x9c x00 x00 x00)
(T (W xfc xd9 xd9 x61 xf7 x64 xb9 x83)
(T (W x85 x80 x02 x4c x84 x1f x7f x61)
(L (W x45 x26 x22 x84 xe4 x9c xf2 xcb))
(L (W x9c xa7 xff xff x50 x00 x00 x00)))
(T (W x01 x00 x00 x00 x04 x00 x00 x00)
(L (W x45 x26 x22 x84 xe4 x9c xf2 xcb)) E))
(T (W x00 x00 x00 x00 x00 x00 x00 x00)
(T (W x00 x00 x00 x00 x00 x00 x00 x00)
(L (W x45 x26 x22 x84 xe4 x9c xf2 xcb))
(L (W x9c xe7 xff xff x50 x00 x00 x00)))
(T (W x00 x00 x00 x00 x01 x00 x00 x00)
(L (W x00 x00 x00 x00 xf8 x64 xff xff)) E)))
(T (W x00 x00 x00 x00 x00 x00 x00 x00)
(T (W x48 x00 x00 x00 x34 x00 x00 x00)
(T (W x28 x01 x00 x00 x20 x01 x00 x00)
(L (W x5c x00 x00 x00 x50 x00 x00 x00))
(L (W x00 x00 x80 xbf x9c x00 x00 x00)))
(T (W x48 x71 x32 x44 xa4 x70 x2e x42)
(L (W x04 x00 x00 x00 x18 x47 xff xff)) E))
(T (W x00 x00 x00 x00 xf8 x84 xfd xff)
(T (W xa8 x7f xf1 x13 x15 xdd xd6 x02)
(L (W x45 x26 x22 x84 xe4 x9c xf2 xcb)) E)
(T (W x00 x00 x00 x00 x00 x00 x00 x00)
(L (W x66 x66 x16 x42 x9a x39 x36 x44)) E)))))
(T (W xf4 xac xfc xff x76 xac xfc xff)
(T (W x00 x00 x00 x00 x01 x00 x00 x00)
(T (W x00 x00 x00 x00 x00 x00 x00 x00)
(T (W x00 x00 x00 x00 xf8 x1c xfd xff)
(T (W x00 x00 x00 x00 x01 x00 x00 x00)
(L (W x3d x8a xeb x42 x00 x00 x00 x00))
(L (W x34 x00 x00 x00 x20 x00 x00 x00)))
(T (W x00 x00 x80 xbf x9c x00 x00 x00)
(L (W x57 x53 x59 x53 x5f x4d x41 x53)) E))
(T (W x00 x00 x00 x00 x00 x00 x00 x00)
(T (W x45 x26 x22 x84 xe4 x9c xf2 xcb)
(L (W x00 x00 x00 x00 x00 x00 x00 x00))
(L (W x04 x00 x00 x00 x00 x00 x00 x00)))
(T (W x00 x00 x00 x00 x00 x00 x00 x00)
(L (W x45 x41 x30 x32 x5f x30 x31 x31)) E)))
(T (W x78 x00 x00 x00 x6c x00 x00 x00)
(T (W x40 x00 x00 x00 x38 x00 x00 x00)
(T (W x00 x00 x00 x00 x76 xbc xfd xff)
(L (W x54 x00 x00 x00 x48 x00 x00 x00))
(L (W x28 x00 x00 x00 x14 x00 x00 x00)))
(T (W x00 x00 x00 x00 x00 x00 x00 x00)
(L (W x45 x26 x22 x84 xe4 x9c xf2 xcb)) E))
(T (W x00 x00 x00 x00 x00 x00 x00 x00)
(T (W x28 x00 x00 x00 x14 x00 x00 x00)
(L (W x01 x00 x00 x00 x04 x00 x00 x00))
(L (W x04 x00 x00 x00 xe2 xfd xff xff)))
(T (W x00 x00 x00 x00 x00 x00 x00 x00)
(L (W x00 x00 x00 x00 x00 x00 x00 x00)) E))))
(T (W x45 x26 x22 x84 xe4 x9c xf2 xcb)
(T (W x45 x26 x22 x84 xe4 x9c xf2 xcb)
(T (W x00 x00 x00 x00 x01 x00 x00 x00)
(T (W x00 x00 x00 x00 x00 x00 x00 x00)
(L (W x00 x00 x00 x00 x01 x00 x00 x00))
(L (W x00 x00 x00 x00 x00 x00 x00 x00)))
(T (W x00 x60 x50 x44 xf6 x28 x1d x42)
(L (W x55 x6c xfc xf1 x99 x9e xc9 x88)) E))
(T (W x40 x00 x00 x00 x38 x00 x00 x00)
(T (W x00 x00 x00 x00 xba xf4 xfd xff)
(L (W x00 x00 x00 x00 x00 x00 x00 x00))
(L (W x5c x00 x00 x00 x50 x00 x00 x00)))
(T (W x04 x00 x00 x00 x18 x6f xfe xff)
(L (W x45 x26 x22 x84 xe4 x9c xf2 xcb)) E)))
(T (W x00 x00 x80 xbf x00 x00 x80 xbf)
(T (W x45 x26 x22 x84 xe4 x9c xf2 xcb)
(T (W x01 x00 x00 x00 x04 x00 x00 x00)
(L (W x00 x00 x00 x00 x01 x00 x00 x00))
(L (W x9c xcf xff xff x50 x00 x00 x00)))
(T (W x00 x00 x80 xbf x9c x00 x00 x00)
(L (W x6c x1c x42 xe3 x48 x30 x25 x26)) E))
(T (W x00 x00 x00 x00 x00 x00 x00 x00)
(T (W x00 x00 x00 x00 xf8 x0c xfe xff)
(L (W x45 x26 x22 x84 xe4 x9c xf2 xcb)) E)
(T (W x40 x00 x00 x00 x38 x00 x00 x00)
(L (W x54 x00 x00 x00 x48 x00 x00 x00)) E)))))))
(T (W x4c xa7 x00 x00 x80 xa5 x00 x00)
(T (W x00 x00 x00 x00 xf8 x9a xfc xff)
(T (W x00 x00 x00 x00 x00 x00 x00 x00)
(T (W x4b x5f x41 x52 x45 x41 x30 x32)
(T (W x00 x00 x00 x00 x01 x00 x00 x00)
(T (W x04 x00 x00 x00 x32 x18 xfd xff)
(T (W x00 x00 x00 x00 x76 x92 xfd xff)
(L (W x00 x00 x00 x00 x00 x00 x00 x00))
(L (W x00 x00 x00 x00 x00 x00 x00 x00)))
(T (W x04 x00 x00 x00 x18 x15 xfe xff)
(L (W x44 x00 x00 x00 x38 x00 x00 x00)) E))
(T (W x45 x26 x22 x84 xe4 x9c xf2 xcb)
(T (W x45 x26 x22 x84 xe4 x9c xf2 xcb)
(L (W x2c x00 x00 x00 x20 x00 x00 x00))
(L (W x28 x00 x00 x00 x14 x00 x00 x00)))
(T (W x00 x00 x00 x00 xf8 x52 xfe xff)
(L (W x2c x00 x00 x00 x20 x00 x00 x00)) E)))
(T (W x9c xf5 xfc xff x50 x00 x00 x00)
(T (W x3c x01 x00 x00 x30 x01 x00 x00)
(T (W x45 x26 x22 x84 xe4 x9c xf2 xcb)
(L (W x31 x38 x00 x00 x1b x00 x00 x00))
(L (W x45 x26 x22 x84 xe4 x9c xf2 xcb)))
(T (W x01 x00 x00 x00 x00 x00 x80 x3f)
(L (W x00 x00 x00 x00 xba x3a xff xff)) E))
(T (W x00 x00 x00 x00 xf8 x72 xfd xff)
(T (W x45 x26 x22 x84 xe4 x9c xf2 xcb)
(L (W x00 x00 x00 x00 x00 x00 x00 x00))
(L (W x01 x00 x00 x00 x01 x00 x00 x00)))
(T (W x00 x00 x80 xbf x00 x00 x80 xbf)
(L (W x00 x00 x80 x3f x02 x00 x00 x00)) E))))
(T (W x45 x26 x22 x84 xe4 x9c xf2 xcb)
(T (W x1c x01 x00 x00 x04 x00 x00 x00)
(T (W xf4 x22 xfd xff x00 x00 x00 x00)
(T (W x9c xa5 xfd xff x50 x00 x00 x00)
(L (W x04 x00 x00 x00 x00 x00 x00 x00))
(L (W x45 x26 x22 x84 xe4 x9c xf2 xcb)))
(T (W x45 x26 x22 x84 xe4 x9c xf2 xcb)
(L (W x54 x00 x00 x00 x48 x00 x00 x00)) E))
(T (W x72 x62 xfd xff xc3 xb5 x13 x44)
(T (W x00 x00 x00 x00 x00 x00 x00 x00)
(L (W x04 x00 x00 x00 x32 xe8 xfe xff))
(L (W xf4 xe2 xff xff x00 x00 x00 x00)))
(T (W x00 x00 x80 xbf x9c x00 x00 x00)
(L (W x45 x26 x22 x84 xe4 x9c xf2 xcb)) E)))
(T (W x72 x02 xfd xff xe1 x5a xc4 x43)
(T (W x00 x00 x00 x00 x00 x00 x00 x00)
(T (W x1c x00 x00 x00 x46 x53 x59 x53)
(L (W x00 x00 x00 x00 x00 x00 x00 x00))
(L (W x1c x01 x00 x00 x01 x00 x00 x00)))
(T (W x00 x00 x00 x00 x76 x42 xfe xff)
(L (W x00 x00 x00 x00 xf8 x42 xff xff)) E))
(T (W x45 x26 x22 x84 xe4 x9c xf2 xcb)
(T (W x00 x00 x80 xbf x00 x00 x80 xbf)
(L (W xf4 x02 xff xff x00 x00 x00 x00)) E)
(T (W xcd xcc x19 x42 x3d x5a x59 x44)
(L (W x72 x82 xff xff x00 x00 x80 x3f)) E)))))
(T (W x4f x84 x6f x8b xe8 xcb x63 xb7)
(T (W x45 x26 x22 x84 xe4 x9c xf2 xcb)
(T (W xe1 x7a x26 x42 x00 xc0 xff x43)
(T (W x01 x00 x00 x00 x04 x00 x00 x00)
(T (W x01 x00 x00 x00 x00 x00 x80 x3f)
(L (W x28 x00 x00 x00 x14 x00 x00 x00))
(L (W x00 x00 x00 x00 xba xa2 xff xff)))
(T (W x1c x01 x00 x00 x01 x00 x00 x00)
(L (W x00 x00 x00 x00 x00 x00 x00 x00)) E))
(T (W xf4 x30 xc8 xc9 x03 x8d xa0 xbc)
(T (W x04 x00 x00 x00 x32 xe0 xfd xff)
(L (W x45 x26 x22 x84 xe4 x9c xf2 xcb))
(L (W x04 x00 x00 x00 x00 x00 x00 x00)))
(T (W x45 x26 x22 x84 xe4 x9c xf2 xcb)
(L (W x00 x00 x00 x00 x00 x00 x00 x00)) E)))
(T (W xf4 xfa xfc xff x00 x00 x00 x00)
(T (W x00 x00 x00 x00 x01 x00 x00 x00)
(T (W x04 x00 x00 x00 x18 xbd xfd xff)
(L (W x6c xb5 x84 x73 x87 xff xca x69))
(L (W x00 x00 x00 x00 xf8 xba xff xff)))
(T (W x44 x00 x00 x00 x38 x00 x00 x00)
(L (W x00 x00 x00 x00 x01 x00 x00 x00)) E))
(T (W x00 x00 x80 x3f x00 x00 x80 x3f)
(T (W xf4 xfa xfd xff x00 x00 x00 x00)
(L (W x45 x26 x22 x84 xe4 x9c xf2 xcb))
(L (W x45 x26 x22 x84 xe4 x9c xf2 xcb)))
(T (W x44 x00 x00 x00 x38 x00 x00 x00)
(L (W x9c x7d xff xff x50 x00 x00 x00)) E))))
(T (W x00 x00 x00 x00 x00 x00 x00 x00)
(T (W x54 x00 x00 x00 x48 x00 x00 x00)
(T (W x42 x52 x45 x41 x4b x5f x41 x52)
(T (W x45 x26 x22 x84 xe4 x9c xf2 xcb)
(L (W x00 x00 x00 x00 x00 x00 x00 x00))
(L (W x72 xaa xff xff x00 x00 x80 x3f)))
(T (W x45 x26 x22 x84 xe4 x9c xf2 xcb)
(L (W x00 x00 x00 x00 x01 x00 x00 x00)) E))
(T (W x00 x00 x00 x00 x01 x00 x00 x00)
(T (W xf4 xea xfd xff x76 xea xfd xff)
(L (W x5c x54 x48 xdc x00 x5b x59 x2f))
(L (W x00 x00 x00 x00 x01 x00 x00 x00)))
(T (W x00 x00 x00 x00 x00 x00 x00 x00)
(L (W x5c x00 x00 x00 x50 x00 x00 x00)) E)))
(T (W x00 x00 xe0 x40 x24 x01 x00 x00)
(T (W x1c x01 x00 x00 x01 x00 x00 x00)
(T (W x45 x26 x22 x84 xe4 x9c xf2 xcb)
(L (W x01 x00 x00 x00 x00 x00 x80 x3f))
(L (W x45 x26 x22 x84 xe4 x9c xf2 xcb)))
(T (W x1c x01 x00 x00 x01 x00 x00 x00)
(L (W x3c x01 x00 x00 x30 x01 x00 x00)) E))
(T (W x45 x26 x22 x84 xe4 x9c xf2 xcb)
(T (W x45 x26 x22 x84 xe4 x9c xf2 xcb)
(L (W x00 x00 x80 xbf x9c x00 x00 x00)) E)
(T (W xbc xe8 x19 x54 x92 x8d xe1 x23)
(L (W x00 x52 x11 x0c x1e x6b xad xc0)) E))))))
(T (W x2c x00 x00 x00 x20 x00 x00 x00)
(T (W x04 x00 x00 x00 x18 xa9 xfc xff)
(T (W x04 x00 x00 x00 x00 x00 x80 x3f)
(T (W xd6 x81 x9c x94 x9b x27 x57 x25)
(T (W x45 x26 x22 x84 xe4 x9c xf2 xcb)
(T (W x53 x5f x47 x41 x4e x45 x52 x41)
(L (W xf4 x96 xfe xff x00 x00 x00 x00))
(L (W x5c x00 x00 x00 x50 x00 x00 x00)))
(T (W x48 x41 x57 x44 x3d x0a x16 x42)
(L (W x74 x00 x00 x00 x68 x00 x00 x00)) E))
(T (W x45 x26 x22 x84 xe4 x9c xf2 xcb)
(T (W x01 x00 x00 x00 x00 x00 x80 x3f)
(L (W x00 x00 x00 x00 x00 x00 x00 x00))
(L (W x42 x52 x45 x41 x4b x5f x41 x52)))
(T (W x00 x00 x00 x00 x00 x00 x00 x00)
(L (W x5c x00 x00 x00 x50 x00 x00 x00)) E)))
(T (W x00 x00 x00 x00 x00 x00 x00 x00)
(T (W x34 x00 x00 x00 x20 x00 x00 x00)
(T (W x9c xb9 xfd xff x50 x00 x00 x00)
(L (W x5f x4d x41 x53 x53 x5f x47 x41))
(L (W xf4 xb6 xff xff x00 x00 x00 x00)))
(T (W x04 x00 x00 x00 x32 x3c xfe xff)
(L (W x00 x00 x80 xbf x9c x00 x00 x00)) E))
(T (W x00 x00 x00 x00 x00 x00 x00 x00)
(T (W xaf x68 xff x4b x84 x9a x7b x61)
(L (W x98 xa5 x0c x81 x3b xb9 x13 xba))
(L (W x40 x00 x00 x00 x38 x00 x00 x00)))
(T (W x45 x26 x22 x84 xe4 x9c xf2 xcb)
(L (W x04 x00 x00 x00 x32 x7c xff xff)) E))))
(T (W x44 x00 x00 x00 x38 x00 x00 x00)
(T (W x17 x4f x42 xd3 xd4 x08 x81 xb7)
(T (W x45 x26 x22 x84 xe4 x9c xf2 xcb)
(T (W x00 x00 x00 x00 x00 x00 x00 x00)
(L (W x45 x26 x22 x84 xe4 x9c xf2 xcb))
(L (W x00 x00 x00 x00 x00 x00 x00 x00)))
(T (W x00 x00 x00 x00 x00 x00 x00 x00)
(L (W x2c x00 x00 x00 x20 x00 x00 x00)) E))
(T (W x01 x00 x00 x00 x00 x00 x80 x3f)
(T (W x48 x00 x00 x00 x34 x00 x00 x00)
(L (W xf4 xe6 xfe xff x00 x00 x00 x00))
(L (W x00 x00 x00 x00 x00 x00 x00 x00)))
(T (W x45 x26 x22 x84 xe4 x9c xf2 xcb)
(L (W x45 x26 x22 x84 xe4 x9c xf2 xcb)) E)))
(T (W x1b x00 x00 x00 x57 x53 x59 x53)
(T (W x00 x00 x80 x3f xf8 x46 xfd xff)
(T (W x00 x00 x80 xbf x00 x00 x80 xbf)
(L (W xf4 xc6 xfe xff x76 xc6 xfe xff))
(L (W xae x44 x5f x01 x1f x0a x3b xfc)))
(T (W x54 x01 x00 x00 x48 x01 x00 x00)
(L (W x00 x00 x00 x00 x76 x46 xff xff)) E))
(T (W x01 x00 x00 x00 x04 x00 x00 x00)
(T (W x00 x00 x00 x00 x01 x00 x00 x00)
(L (W x00 x00 x00 x00 x00 x00 x00 x00)) E)
(T (W x00 x00 x00 x00 x02 x00 x00 x00)
(L (W x00 x00 x00 x00 x00 x00 x00 x00)) E)))))
(T (W x00 x00 x00 x00 x00 x00 x00 x00)
(T (W x40 x00 x00 x00 x38 x00 x00 x00)
(T (W x5f x4d x41 x53 x53 x5f x47 x41)
(T (W x00 x00 x00 x00 xf8 x1e xfd xff)
(T (W x45 x26 x22 x84 xe4 x9c xf2 xcb)
(L (W x00 x00 x80 x40 x24 x01 x00 x00))
(L (W x45 x26 x22 x84 xe4 x9c xf2 xcb)))
(T (W x00 x00 x00 x00 x01 x00 x00 x00)
(L (W x01 x00 x00 x00 x00 x00 x80 x3f)) E))
(T (W x04 x00 x00 x00 x18 x61 xfd xff)
(T (W x45 x26 x22 x84 xe4 x9c xf2 xcb)
(L (W x41 x30 x32 x00 xba xe6 xfe xff))
(L (W x45 x26 x22 x84 xe4 x9c xf2 xcb)))
(T (W x1c x00 x00 x00 x46 x53 x59 x53)
(L (W x00 x00 x80 xbf x9c x00 x00 x00)) E)))
(T (W x2c x00 x00 x00 x18 x00 x00 x00)
(T (W x00 x00 x00 x00 xf8 x3e xfd xff)
(T (W x29 xac x3d x44 x33 x33 x08 x42)
(L (W x45 x26 x22 x84 xe4 x9c xf2 xcb))
(L (W xcd xdc x05 x44 x00 x00 x00 x00)))
(T (W x00 x00 x00 x00 xf8 x3e xfe xff)
(L (W xf4 x3e xff xff x00 x00 x00 x00)) E))
(T (W x00 x00 x80 xbf x9c x00 x00 x00)
(T (W xa4 x00 x42 x44 x00 x00 x00 x00)
(L (W x00 x00 x00 x00 x00 x00 x00 x00))
(L (W x45 x26 x22 x84 xe4 x9c xf2 xcb)))
(T (W x74 x00 x00 x00 x68 x00 x00 x00)
(L (W x00 x00 x00 x00 x00 x00 x00 x00)) E))))
(T (W x00 x00 x00 x00 x00 x00 x00 x00)
(T (W x45 x26 x22 x84 xe4 x9c xf2 xcb)
(T (W x45 x26 x22 x84 xe4 x9c xf2 xcb)
(T (W x01 x00 x00 x00 x00 x00 x80 x3f)
(L (W x60 x00 x00 x00 x54 x00 x00 x00))
(L (W x01 x00 x00 x00 x00 x00 x80 x3f)))
(T (W x00 x00 x00 x00 x00 x00 x00 x00)
(L (W xf4 x2e xff xff x76 x2e xff xff)) E))
(T (W x45 x26 x22 x84 xe4 x9c xf2 xcb)
(T (W x34 x00 x00 x00 x20 x00 x00 x00)
(L (W x48 x00 x00 x00 x34 x00 x00 x00))
(L (W xf4 xee xff xff x76 xee xff xff)))
(T (W x72 x6e xfe xff x00 x00 x80 x3f)
(L (W x00 x00 x00 x00 x00 x00 x00 x00)) E)))
(T (W xb9 xf6 xb1 x4b xbc x27 xf7 xea)
(T (W x00 x00 x00 x00 x01 x00 x00 x00)
(T (W x00 x00 x00 x00 x00 x00 x00 x00)
(L (W x45 x26 x22 x84 xe4 x9c xf2 xcb))
(L (W x00 x00 x00 x00 x00 x00 x00 x00)))
(T (W x00 x00 x00 x00 x01 x00 x00 x00)
(L (W x54 x00 x00 x00 x48 x00 x00 x00)) E))
(T (W x00 x00 x00 x00 xf8 x8e xfd xff)
(T (W x2c x00 x00 x00 x20 x00 x00 x00)
(L (W x45 x26 x22 x84 xe4 x9c xf2 xcb)) E)
(T (W x45 x26 x22 x84 xe4 x9c xf2 xcb)
(L (W x45 x26 x22 x84 xe4 x9c xf2 xcb)) E))))))))
(T (W xf4 x0a x02 x00 x28 x09 x02 x00)
(T (W x40 x1e x01 x00 x70 x1c x01 x00)
(T (W x9a x59 xad x43 x00 x00 x00 x00)
(T (W x1c x01 x00 x00 x04 x00 x00 x00)
(T (W x9c xb4 xfc xff x50 x00 x00 x00)
(T (W x3c x5c xba x4b xbc x31 x01 xeb)
(T (W x60 x00 x00 x00 x54 x00 x00 x00)
(T (W x40 x00 x00 x00 x38 x00 x00 x00)
(L (W x3c x01 x00 x00 x30 x01 x00 x00))
(L (W x3c x01 x00 x00 x30 x01 x00 x00)))
(T (W xea xfc x30 x80 x85 xa3 x83 x27)
(L (W x32 x39 x00 x00 x1b x00 x00 x00)) E))
(T (W x28 x00 x00 x00 x14 x00 x00 x00)
(T (W x54 x00 x00 x00 x48 x00 x00 x00)
(L (W x57 x53 x59 x53 x5f x4d x41 x53))
(L (W x00 x00 x00 x00 x01 x00 x00 x00)))
(T (W xcd xcc xa7 x42 x3d xaa xc3 x43)
(L (W x00 x00 x00 x00 x00 x00 x00 x00)) E)))
(T (W x02 x00 x00 x00 x32 x34 x00 x00)
(T (W x01 x00 x00 x00 x04 x00 x00 x00)
(T (W x5c x00 x00 x00 x50 x00 x00 x00)
(L (W xf4 xb1 xfe xff x00 x00 x00 x00))
(L (W x74 x00 x00 x00 x68 x00 x00 x00)))
(T (W x00 x00 x00 x00 x00 x00 x00 x00)
(L (W x00 x00 x00 x00 xf8 x31 xff xff)) E))
(T (W x00 x00 x00 x00 x00 x00 x00 x00)
(T (W x45 x26 x22 x84 xe4 x9c xf2 xcb)
(L (W xf4 xf1 xfe xff x00 x00 x00 x00))
(L (W x45 x26 x22 x84 xe4 x9c xf2 xcb)))
(T (W x6c x88 xa7 x28 xbf x4b x53 x6a)
(L (W x49 x65 xff x4b x84 x98 x7b x61)) E))))
(T (W x66 xa6 xe5 x43 x9a x99 x17 x42)
(T (W x45 x26 x22 x84 xe4 x9c xf2 xcb)
(T (W x00 x00 x00 x00 x00 x00 x00 x00)
(T (W x00 x00 x00 x00 x1c x00 x00 x00)
(L (W x04 x00 x00 x00 xe0 xa1 xfe xff))
(L (W x28 x00 x00 x00 x14 x00 x00 x00)))
(T (W x00 x00 x00 x00 x76 x21 xfe xff)
(L (W x00 x00 x00 x00 x01 x00 x00 x00)) E))
(T (W x45 x26 x22 x84 xe4 x9c xf2 xcb)
(T (W x00 x00 xa0 x40 x24 x01 x00 x00)
(L (W xf4 xe1 xfe xff x00 x00 x00 x00))
(L (W x00 x00 x00 x00 x00 x00 x00 x00)))
(T (W x45 x26 x22 x84 xe4 x9c xf2 xcb)
(L (W x2c x00 x00 x00 x18 x00 x00 x00)) E)))
(T (W x45 x26 x22 x84 xe4 x9c xf2 xcb)
(T (W x00 x00 x80 xbf x00 x00 x80 xbf)
(T (W x00 x00 x00 x00 xf8 xc1 xfd xff)
(L (W x01 x00 x00 x00 x00 x00 x80 x3f))
(L (W x44 x00 x00 x00 x38 x00 x00 x00)))
(T (W x40 x00 x00 x00 x38 x00 x00 x00)
(L (W x00 x00 x80 xbf x9c x00 x00 x00)) E))
(T (W x28 x00 x00 x00 x14 x00 x00 x00)
(T (W x00 x00 x00 x00 x00 x00 x00 x00)
(L (W x34 x00 x00 x00 x20 x00 x00 x00)) E)
(T (W x45 x26 x22 x84 xe4 x9c xf2 xcb)
(L (W x40 x00 x00 x00 x38 x00 x00 x00)) E)))))
(T (W x54 x00 x00 x00 x48 x00 x00 x00)
(T (W xf4 xb9 xfc xff x00 x00 x00 x00)
(T (W x45 x26 x22 x84 xe4 x9c xf2 xcb)
(T (W x00 x00 x00 x00 x00 x00 x00 x00)
(T (W x00 x00 x00 x00 x00 x00 x00 x00)
(L (W x00 x00 x00 x00 x01 x00 x00 x00))
(L (W x00 x00 x00 x00 xf8 x99 xff xff)))
(T (W x44 x00 x00 x00 x38 x00 x00 x00)
(L (W x45 x26 x22 x84 xe4 x9c xf2 xcb)) E))
(T (W x00 x00 x00 x00 x00 x00 x00 x00)
(T (W x60 x00 x00 x00 x54 x00 x00 x00)
(L (W x54 x00 x00 x00 x48 x00 x00 x00))
(L (W x00 x00 x00 x00 x00 x00 x00 x00)))
(T (W x54 x00 x00 x00 x48 x00 x00 x00)
(L (W x45 x26 x22 x84 xe4 x9c xf2 xcb)) E)))
(T (W x34 x00 x00 x00 x20 x00 x00 x00)
(T (W x74 x00 x00 x00 x68 x00 x00 x00)
(T (W xb6 xd9 x93 x59 x60 x07 xbf x1d)
(L (W x00 x00 x00 x00 x00 x00 x00 x00))
(L (W x00 x00 x80 xbf x9c x00 x00 x00)))
(T (W x00 x00 x00 x00 x00 x00 x00 x00)
(L (W x78 x00 x00 x00 x6c x00 x00 x00)) E))
(T (W x45 x26 x22 x84 xe4 x9c xf2 xcb)
(T (W x34 x00 x00 x00 x20 x00 x00 x00)
(L (W x44 x00 x00 x00 x30 x00 x00 x00))
(L (W x00 x00 x80 x3f x00 x00 x80 x3f)))
(T (W x00 x00 x00 x00 x00 x00 x00 x00)
(L (W x00 x00 x00 x00 x00 x00 x00 x00)) E))))
(T (W x00 x00 x00 x41 x24 x01 x00 x00)
(T (W x48 x00 x00 x00 x34 x00 x00 x00)
(T (W x34 x00 x00 x00 x20 x00 x00 x00)
(T (W x54 x00 x00 x00 x48 x00 x00 x00)
(L (W x3c x01 x00 x00 x30 x01 x00 x00))
(L (W x40 x00 x00 x00 x38 x00 x00 x00)))
(T (W x54 x00 x00 x00 x48 x00 x00 x00)
(L (W x9c x7e x8c xe8 x48 x58 x42 x2f)) E))
(T (W x74 x00 x00 x00 x68 x00 x00 x00)
(T (W x45 x26 x22 x84 xe4 x9c xf2 xcb)
(L (W x42 x52 x45 x41 x4b x5f x41 x52))
(L (W x85 xa0 x23 xea xc2 x37 xb0 xc9)))
(T (W x00 x00 x40 x40 x24 x01 x00 x00)
(L (W x00 x00 x00 x00 x01 x00 x00 x00)) E)))
(T (W x45 x26 x22 x84 xe4 x9c xf2 xcb)
(T (W x44 x00 x00 x00 x38 x00 x00 x00)
(T (W x44 x00 x00 x00 x30 x00 x00 x00)
(L (W x45 x26 x22 x84 xe4 x9c xf2 xcb))
(L (W x72 xc9 xff xff x00 x00 x80 x3f)))
(T (W x00 x00 x00 x00 x00 x00 x00 x00)
(L (W x01 x00 x00 x00 x04 x00 x00 x00)) E))
(T (W x00 x00 x00 x00 xba x91 xfd xff)
(T (W x55 x39 x81 x6a xc4 xc7 x74 x14)
(L (W x45 x26 x22 x84 xe4 x9c xf2 xcb)) E)
(T (W x00 x00 x00 x00 x00 x00 x00 x00)
(L (W x00 x00 x00 x00 x00 x00 x00 x00)) E))))))
(T (W x5f x4f x55 x54 x42 x52 x45 x41)
(T (W x69 x5a xdf x8a x0d xef xf4 xd2)
(T (W x00 x00 x00 x00 x00 x00 x00 x00)
(T (W x04 x00 x00 x00 x32 xdb xfc xff)
(T (W x00 x00 x80 x3f x00 x00 x80 x3f)
(T (W x01 x00 x00 x00 x04 x00 x00 x00)
(L (W x34 x00 x00 x00 x20 x00 x00 x00))
(L (W x00 x00 x00 x00 x01 x00 x00 x00)))
(T (W x45 x26 x22 x84 xe4 x9c xf2 xcb)
(L (W x45 x26 x22 x84 xe4 x9c xf2 xcb)) E))
(T (W x00 x00 x80 x3f x00 x00 x80 x3f)
(T (W x2c x00 x00 x00 x20 x00 x00 x00)
(L (W x01 x00 x00 x00 x01 x00 x00 x00))
(L (W x9c xd8 xff xff x50 x00 x00 x00)))
(T (W x00 x00 x80 xbf x00 x00 x80 xbf)
(L (W x00 x00 x00 x00 x01 x00 x00 x00)) E)))
(T (W x3c x01 x00 x00 x30 x01 x00 x00)
(T (W x00 x00 x00 x00 x00 x00 x00 x00)
(T (W x00 x00 x00 x00 x00 x00 x00 x00)
(L (W x28 x00 x00 x00 x1c x00 x00 x00))
(L (W x00 x00 x00 x00 x00 x00 x00 x00)))
(T (W xf4 x35 xfe xff x00 x00 x00 x00)
(L (W x00 x00 x00 x00 x00 x00 x00 x00)) E))
(T (W x1c x01 x00 x00 x01 x00 x00 x00)
(T (W x4b x5f x41 x52 x45 x41 x30 x32)
(L (W x00 x00 x00 x00 xf8 xf5 xfe xff))
(L (W x04 x00 x00 x00 x18 xf8 xff xff)))
(T (W x5c x00 x00 x00 x50 x00 x00 x00)
(L (W x5c x00 x00 x00 x50 x00 x00 x00)) E))))
(T (W x46 x53 x59 x53 x5f x4e x45 x57)
(T (W x00 x00 x00 x00 xf8 xe5 xfc xff)
(T (W x41 x57 x4e x00 xba x2d xfd xff)
(T (W x3c x01 x00 x00 x30 x01 x00 x00)
(L (W x72 xa5 xfe xff x33 x83 x06 x44))
(L (W x00 x00 x80 x40 x24 x01 x00 x00)))
(T (W x3c x01 x00 x00 x30 x01 x00 x00)
(L (W x00 x00 x00 x00 x00 x00 x00 x00)) E))
(T (W x2c x00 x00 x00 x20 x00 x00 x00)
(T (W x04 x00 x00 x00 x00 x00 x00 x00)
(L (W x00 x00 x00 x00 x00 x00 x00 x00))
(L (W x00 x00 xa0 x40 x24 x01 x00 x00)))
(T (W x28 x00 x00 x00 x14 x00 x00 x00)
(L (W x00 x00 x00 x00 xba x6d xff xff)) E)))
(T (W x00 x00 x00 x00 xf8 x05 xfd xff)
(T (W x45 x26 x22 x84 xe4 x9c xf2 xcb)
(T (W x00 x00 x00 x00 x00 x00 x00 x00)
(L (W x45 x26 x22 x84 xe4 x9c xf2 xcb))
(L (W x00 x00 x00 x00 xf8 xc5 xff xff)))
(T (W x01 x00 x00 x00 x04 x00 x00 x00)
(L (W x40 x00 x00 x00 x38 x00 x00 x00)) E))
(T (W x00 x00 x00 x00 x00 x00 x00 x00)
(T (W x00 x00 x00 x00 x01 x00 x00 x00)
(L (W x45 x26 x22 x84 xe4 x9c xf2 xcb)) E)
(T (W x01 x00 x00 x00 x04 x00 x00 x00)
(L (W x00 x00 x00 x00 xf8 x85 xff xff)) E)))))
(T (W x45 x26 x22 x84 xe4 x9c xf2 xcb)
(T (W x28 x00 x00 x00 x14 x00 x00 x00)
(T (W x01 x00 x00 x00 x04 x00 x00 x00)
(T (W x00 x00 x00 x00 x01 x00 x00 x00)
(T (W x5c x00 x00 x00 x50 x00 x00 x00)
(L (W x9c xa0 xfe xff x50 x00 x00 x00))
(L (W xf4 x9d xff xff x00 x00 x00 x00)))
(T (W x00 x00 x00 x00 xf8 x1d xfe xff)
(L (W x2c x00 x00 x00 x20 x00 x00 x00)) E))
(T (W x04 x00 x00 x00 x00 x00 x00 x00)
(T (W x00 x00 x80 x3f x00 x00 x80 x3f)
(L (W x44 x00 x00 x00 x38 x00 x00 x00))
(L (W x48 x00 x00 x00 x34 x00 x00 x00)))
(T (W x00 x00 x00 x00 xf8 x5d xfe xff)
(L (W x45 x26 x22 x84 xe4 x9c xf2 xcb)) E)))
(T (W x00 x00 x00 x00 x01 x00 x00 x00)
(T (W x72 x3d xfd xff x00 x00 x80 x3f)
(T (W x45 x26 x22 x84 xe4 x9c xf2 xcb)
(L (W x45 x26 x22 x84 xe4 x9c xf2 xcb))
(L (W x45 x26 x22 x84 xe4 x9c xf2 xcb)))
(T (W x00 x00 x80 xbf x9c x00 x00 x00)
(L (W x33 x73 x02 x44 x00 x00 x00 x00)) E))
(T (W x45 x26 x22 x84 xe4 x9c xf2 xcb)
(T (W x45 x26 x22 x84 xe4 x9c xf2 xcb)
(L (W x3c x01 x00 x00 x30 x01 x00 x00))
(L (W x1c x00 x20 x00 x18 x00 x00 x00)))
(T (W x45 x26 x22 x84 xe4 x9c xf2 xcb)
(L (W x00 x00 x80 xbf x00 x00 x80 xbf)) E))))
(T (W x00 x00 xe0 x40 x24 x01 x00 x00)
(T (W x00 x00 x80 x3f xf8 xed xfc xff)
(T (W x04 x00 x00 x00 x32 x33 xfd xff)
(T (W x2c x00 x00 x00 x20 x00 x00 x00)
(L (W x00 x00 x00 x00 x01 x00 x00 x00))
(L (W x19 xd6 xac x28 xbf xd0 x59 x6a)))
(T (W x00 x00 x00 x00 xf8 x2d xfe xff)
(L (W x45 x26 x22 x84 xe4 x9c xf2 xcb)) E))
(T (W x00 x00 x00 x00 x76 x6d xfd xff)
(T (W x45 x26 x22 x84 xe4 x9c xf2 xcb)
(L (W x04 x00 x00 x00 x00 x00 x00 x00))
(L (W x45 x26 x22 x84 xe4 x9c xf2 xcb)))
(T (W x40 x00 x00 x00 x38 x00 x00 x00)
(L (W x45 x26 x22 x84 xe4 x9c xf2 xcb)) E)))
(T (W x00 x00 x00 x00 x00 x00 x00 x00)
(T (W x78 x00 x00 x00 x6c x00 x00 x00)
(T (W x3c x01 x00 x00 x30 x01 x00 x00)
(L (W x5c x00 x00 x00 x50 x00 x00 x00))
(L (W x00 x00 xa0 x40 x24 x01 x00 x00)))
(T (W x00 x00 x00 x00 xf8 x4d xfe xff)
(L (W x00 x00 x00 x00 x01 x00 x00 x00)) E))
(T (W x00 x00 x80 xbf x9c x00 x00 x00)
(T (W x00 x00 x00 x00 x00 x00 x00 x00)
(L (W x74 x00 x00 x00 x68 x00 x00 x00)) E)
(T (W x00 x00 x00 x00 x76 x8d xfe xff)
(L (W x45 x26 x22 x84 xe4 x9c xf2 xcb)) E)))))))
(T (W x38 x2c x00 x00 x4c x2a x00 x00)
(T (W x00 x00 x00 x00 x00 x00 x00 x00)
(T (W x00 x00 x80 xbf x9c x00 x00 x00)
(T (W x3f x7c x88 xaf x9a x1e x19 x7c)
(T (W x00 x00 x00 x00 x01 x00 x00 x00)
(T (W xd6 x81 x9c x94 x9b x27 x57 x25)
(T (W x45 x26 x22 x84 xe4 x9c xf2 xcb)
(L (W x01 x00 x00 x00 x00 x00 x80 x3f))
(L (W x01 x00 x00 x00 x00 x00 x80 x3f)))
(T (W x40 x00 x00 x00 x38 x00 x00 x00)
(L (W x1c x01 x00 x00 x01 x00 x00 x00)) E))
(T (W xd6 x81 x9c x94 x9b x27 x57 x25)
(T (W x45 x26 x22 x84 xe4 x9c xf2 xcb)
(L (W x00 x00 x00 x00 xba xdb xfe xff))
(L (W x45 x26 x22 x84 xe4 x9c xf2 xcb)))
(T (W x00 x00 x00 x00 x00 x00 x00 x00)
(L (W x01 x00 x00 x00 x00 x00 x80 x3f)) E)))
(T (W x4e x45 x52 x41 x54 x49 x4f x4e)
(T (W x00 x00 x00 x00 x00 x00 x00 x00)
(T (W x00 x00 x80 x3f xf8 xb3 xfd xff)
(L (W x40 x00 x00 x00 x34 x00 x00 x00))
(L (W x00 x00 x80 x3f x00 x00 x80 x3f)))
(T (W x00 x00 x00 x00 x00 x00 x00 x00)
(L (W x45 x26 x22 x84 xe4 x9c xf2 xcb)) E))
(T (W x1c x00 x00 x00 x46 x53 x59 x53)
(T (W x00 x00 x00 x00 x00 x00 x00 x00)
(L (W x45 x26 x22 x84 xe4 x9c xf2 xcb))
(L (W x00 x00 x00 x00 x00 x00 x00 x00)))
(T (W x00 x00 x00 x00 x00 x00 x00 x00)
(L (W x00 x00 x00 x00 x00 x00 x00 x00)) E))))
(T (W x00 x00 x00 x00 x00 x00 x00 x00)
(T (W x00 x00 x00 x00 x00 x00 x00 x00)
(T (W x02 x00 x00 x00 x32 x30 x00 x00)
(T (W x4b x5f x41 x52 x45 x41 x30 x32)
(L (W x44 x00 x00 x00 x30 x00 x00 x00))
(L (W x71 xfd x1e x44 x00 x00 x00 x00)))
(T (W xd7 xb3 x37 x44 x00 x00 x68 x42)
(L (W x45 x26 x22 x84 xe4 x9c xf2 xcb)) E))
(T (W x45 x26 x22 x84 xe4 x9c xf2 xcb)
(T (W x00 x00 x80 xbf x00 x00 x80 xbf)
(L (W x45 x26 x22 x84 xe4 x9c xf2 xcb))
(L (W x00 x00 x00 x00 x00 x00 x00 x00)))
(T (W x00 x00 x00 x00 xf8 x63 xfe xff)
(L (W x72 x63 xff xff x1f xc5 xf3 x43)) E)))
(T (W x45 x26 x22 x84 xe4 x9c xf2 xcb)
(T (W x04 x00 x00 x00 x00 x00 x00 x00)
(T (W x44 x00 x00 x00 x38 x00 x00 x00)
(L (W x00 x00 x00 x00 x01 x00 x00 x00))
(L (W x00 x00 x00 x00 x00 x00 x00 x00)))
(T (W x45 x26 x22 x84 xe4 x9c xf2 xcb)
(L (W x9e xbd x82 x50 x69 xb2 x46 x62)) E))
(T (W xcd xcc x12 x42 xcd xec x53 x44)
(T (W x00 x00 x00 x00 x00 x00 x00 x00)
(L (W x04 x00 x00 x00 x32 x09 xff xff)) E)
(T (W x00 x00 x00 x00 xf8 x83 xfe xff)
(L (W x45 x26 x22 x84 xe4 x9c xf2 xcb)) E)))))
(T (W x45 x26 x22 x84 xe4 x9c xf2 xcb)
(T (W x74 x00 x00 x00 x68 x00 x00 x00)
(T (W x00 x00 x00 x00 xf8 xdb xfc xff)
(T (W x53 x5f x47 x41 x4e x45 x52 x41)
(T (W x00 x00 x00 x00 x00 x00 x00 x00)
(L (W x45 x26 x22 x84 xe4 x9c xf2 xcb))
(L (W x45 x26 x22 x84 xe4 x9c xf2 xcb)))
(T (W x00 x00 x00 x00 x00 x00 x00 x00)
(L (W x00 x00 x00 x00 xf8 x1b xff xff)) E))
(T (W x00 x00 x80 xbf x00 x00 x80 xbf)
(T (W x55 x39 x81 x6a xc4 xc7 x74 x14)
(L (W x45 x26 x22 x84 xe4 x9c xf2 xcb))
(L (W x48 x00 x00 x00 x34 x00 x00 x00)))
(T (W x45 x26 x22 x84 xe4 x9c xf2 xcb)
(L (W x44 x00 x00 x00 x38 x00 x00 x00)) E)))
(T (W x45 x26 x22 x84 xe4 x9c xf2 xcb)
(T (W x2c x00 x00 x00 x18 x00 x00 x00)
(T (W x40 x00 x00 x00 x38 x00 x00 x00)
(L (W x04 x00 x00 x00 xe0 xbb xfe xff))
(L (W x00 x00 x00 x00 x01 x00 x00 x00)))
(T (W x1c x01 x00 x00 x01 x00 x00 x00)
(L (W x28 x00 x00 x00 x14 x00 x00 x00)) E))
(T (W xf4 x7b xfd xff x00 x00 x00 x00)
(T (W x00 x00 x00 x00 x01 x00 x00 x00)
(L (W x7b x74 x13 x44 x3d x0a xab x42))
(L (W x00 x00 x80 x3f x00 x00 x80 x3f)))
(T (W x1c x01 x00 x00 x01 x00 x00 x00)
(L (W x00 x00 x80 x40 x24 x01 x00 x00)) E))))
(T (W x30 x00 x34 x00 x38 x00 x3c x00)
(T (W x4f x84 x6f x8b xe8 xcb x63 xb7)
(T (W x00 xae x5c xec x2c x0b xa7 xd3)
(T (W x45 x26 x22 x84 xe4 x9c xf2 xcb)
(L (W x31 x88 x86 xf3 x1d xa9 x5a x95))
(L (W x00 x00 x00 x00 xf8 xab xff xff)))
(T (W x45 x26 x22 x84 xe4 x9c xf2 xcb)
(L (W x54 x00 x00 x00 x48 x00 x00 x00)) E))
(T (W x2c x00 x00 x00 x18 x00 x00 x00)
(T (W x00 x00 x00 x00 xf8 xeb xfd xff)
(L (W x00 x00 x80 xbf x00 x00 x80 xbf))
(L (W x00 x00 x00 x00 x01 x00 x00 x00)))
(T (W xb8 x83 xa0 x4d x84 x9b x05 x03)
(L (W x04 x00 x00 x00 x32 x71 xff xff)) E)))
(T (W x00 x00 x00 x00 x00 x00 x00 x00)
(T (W x00 x00 x00 x00 x00 x00 x00 x00)
(T (W x7b x54 x34 x44 x9a x99 x10 x42)
(L (W x00 x00 x00 x00 x00 x00 x00 x00))
(L (W x8f x22 xef x43 x00 x00 x00 x00)))
(T (W x00 x00 x00 x00 x00 x00 x00 x00)
(L (W x00 x00 x00 x00 x00 x00 x00 x00)) E))
(T (W x1c x01 x00 x00 x01 x00 x00 x00)
(T (W x00 x00 x80 x3f x00 x00 x80 x3f)
(L (W x00 x00 x00 x00 xf8 x0b xff xff)) E)
(T (W x04 x00 x00 x00 x18 x8e xfe xff)
(L (W x00 x00 x00 x00 x01 x00 x00 x00)) E))))))
(T (W xea x83 xff xff x00 x00 x00 x01)
(T (W x04 x00 x00 x00 x00 x00 x00 x00)
(T (W x00 x00 x00 x00 x00 x00 x00 x00)
(T (W x45 x26 x22 x84 xe4 x9c xf2 xcb)
(T (W x33 x33 x49 x42 x14 xae xf9 x43)
(T (W xd3 x3a x45 xdc x00 xd5 x55 x2f)
(L (W x45 x26 x22 x84 xe4 x9c xf2 xcb))
(L (W x45 x26 x22 x84 xe4 x9c xf2 xcb)))
(T (W x45 x26 x22 x84 xe4 x9c xf2 xcb)
(L (W x45 x26 x22 x84 xe4 x9c xf2 xcb)) E))
(T (W x52 xb8 x19 x42 x9a xe9 x61 x44)
(T (W x00 x00 x00 x00 x00 x00 x00 x00)
(L (W x7d x5c xe9 x54 xec x9d x1d xc6))
(L (W xe5 xdc xac x28 xbf xd4 x59 x6a)))
(T (W x04 x00 x00 x00 x00 x00 x00 x00)
(L (W x45 x26 x22 x84 xe4 x9c xf2 xcb)) E)))
(T (W x04 x00 x00 x00 x00 x00 x80 x3f)
(T (W xf4 x37 xfd xff x00 x00 x00 x00)
(T (W x00 x00 xa0 x40 x24 x01 x00 x00)
(L (W x2c x00 x00 x00 x20 x00 x00 x00))
(L (W x00 x00 x00 x00 x00 x00 x00 x00)))
(T (W x45 x26 x22 x84 xe4 x9c xf2 xcb)
(L (W x00 x00 x00 x00 xf8 x37 xff xff)) E))
(T (W x45 x26 x22 x84 xe4 x9c xf2 xcb)
(T (W x34 x01 x00 x00 x00 x00 xa0 x40)
(L (W x04 x00 x00 x00 xe0 xf7 xfe xff))
(L (W x72 xf7 xff xff x00 x00 x80 x3f)))
(T (W x00 x00 x80 x3f xf8 x77 xfe xff)
(L (W x45 x26 x22 x84 xe4 x9c xf2 xcb)) E))))
(T (W x5f x30 x30 x32 x00 x00 x00 x00)
(T (W x04 x00 x00 x00 xe0 xe7 xfc xff)
(T (W x00 x00 x80 xbf x00 x00 x80 xbf)
(T (W xde x10 x7a x1e x15 x33 x03 x15)
(L (W x00 x00 x00 x00 x01 x00 x00 x00))
(L (W xde xf3 x8a xf8 xa4 x78 x5e x8d)))
(T (W xab xeb x04 x37 x15 xff x55 x40)
(L (W x3c x01 x00 x00 x30 x01 x00 x00)) E))
(T (W x00 x00 x00 x00 x00 x00 x00 x00)
(T (W x54 x00 x00 x00 x48 x00 x00 x00)
(L (W x00 x00 x00 x00 x00 x00 x00 x00))
(L (W x00 x00 x80 xbf x00 x00 x80 xbf)))
(T (W x71 x1d x8a x43 x00 x00 x00 x00)
(L (W x01 x00 x00 x00 x00 x00 x80 x3f)) E)))
(T (W x44 x00 x00 x00 x38 x00 x00 x00)
(T (W x45 x26 x22 x84 xe4 x9c xf2 xcb)
(T (W x00 x00 x00 x00 x00 x00 x00 x00)
(L (W x00 x00 x00 x00 xf8 xc7 xfe xff))
(L (W x04 x00 x00 x00 x18 xca xff xff)))
(T (W x00 x00 x00 x00 x00 x00 x00 x00)
(L (W x45 x26 x22 x84 xe4 x9c xf2 xcb)) E))
(T (W x5f x4e x45 x57 x5f x4f x55 x54)
(T (W x60 x00 x00 x00 x54 x00 x00 x00)
(L (W x44 x00 x00 x00 x38 x00 x00 x00)) E)
(T (W x9c x8a xfe xff x50 x00 x00 x00)
(L (W x01 x00 x00 x00 x04 x00 x00 x00)) E)))))
(T (W xf4 xaf xfc xff x00 x00 x00 x00)
(T (W x72 xbf xfc xff x00 x00 x80 x3f)
(T (W x2c x00 x00 x00 x20 x00 x00 x00)
(T (W x00 x00 x32 x00 x5c x00 x44 x00)
(T (W x00 x00 x80 x3f xf8 x9f xfd xff)
(L (W x00 x00 x00 x00 x00 x00 x00 x00))
(L (W x78 x00 x00 x00 x6c x00 x00 x00)))
(T (W x2c x00 x00 x00 x18 x00 x00 x00)
(L (W x00 x00 x00 x00 x00 x00 x00 x00)) E))
(T (W x00 x00 x00 x00 x01 x00 x00 x00)
(T (W xc3 x35 x41 x44 x00 x00 x00 x00)
(L (W x45 x26 x22 x84 xe4 x9c xf2 xcb))
(L (W x00 x00 x80 x3f xf8 xdf xff xff)))
(T (W x44 x00 x00 x00 x38 x00 x00 x00)
(L (W x00 x00 x00 x00 xf8 x5f xff xff)) E)))
(T (W x40 x00 x00 x00 x38 x00 x00 x00)
(T (W x00 x00 x00 x00 x00 x00 x00 x00)
(T (W x45 x26 x22 x84 xe4 x9c xf2 xcb)
(L (W x00 x00 x00 x00 x00 x00 x00 x00))
(L (W xf4 xbf xff xff x00 x00 x00 x00)))
(T (W xb1 xa8 x79 xa6 x7a x0d xe3 x77)
(L (W x00 x00 x00 x00 x00 x00 x00 x00)) E))
(T (W x00 x00 x00 x00 xf8 x7f xfd xff)
(T (W x9c x02 xfe xff x50 x00 x00 x00)
(L (W x01 x00 x00 x00 x00 x00 x80 x3f))
(L (W x00 x00 x00 x00 x00 x00 x00 x00)))
(T (W x00 x00 x00 x00 x01 x00 x00 x00)
(L (W x04 x00 x00 x00 x00 x00 x00 x00)) E))))
(T (W x00 x00 x80 xbf x00 x00 x80 xbf)
(T (W x00 x00 x00 x00 x00 x00 x00 x00)
(T (W x45 x26 x22 x84 xe4 x9c xf2 xcb)
(T (W x00 x00 x00 x00 x00 x00 x00 x00)
(L (W x45 x26 x22 x84 xe4 x9c xf2 xcb))
(L (W x00 x00 x00 x00 x00 x00 x00 x00)))
(T (W xed xfe xaf x28 xbf x5f x5d x6a)
(L (W x45 x26 x22 x84 xe4 x9c xf2 xcb)) E))
(T (W x72 x6f xfd xff xae x87 xc1 x43)
(T (W xf4 xef xfd xff x00 x00 x00 x00)
(L (W x45 x26 x22 x84 xe4 x9c xf2 xcb))
(L (W x00 x00 x00 x00 xf8 xef xff xff)))
(T (W x00 x00 x00 x00 xf8 x6f xfe xff)
(L (W xf4 x6f xff xff x00 x00 x00 x00)) E)))
(T (W x00 x00 x00 x00 x01 x00 x00 x00)
(T (W x2c x00 x00 x00 x18 x00 x00 x00)
(T (W x7a xb5 x2f x19 x15 x0f xe6 x0b)
(L (W xf4 xcf xfe xff x76 xcf xfe xff))
(L (W x00 x00 x80 xbf x9c x00 x00 x00)))
(T (W x28 x00 x00 x00 x14 x00 x00 x00)
(L (W x45 x26 x22 x84 xe4 x9c xf2 xcb)) E))
(T (W x00 x00 x00 x00 x01 x00 x00 x00)
(T (W x1c x01 x00 x00 x01 x00 x00 x00)
(L (W x00 x00 x80 x3f x00 x00 x80 x3f)) E)
(T (W x00 x40 xe2 x43 x00 x00 x3c x42)
(L (W x00 x00 x00 x00 x00 x00 x00 x00)) E)))))))))
(T (W x0c xbc x02 x00 x40 xba x02 x00)
(T (W x08 x46 x02 x00 x34 x44 x02 x00)
(T (W x4c x59 x01 x00 x80 x57 x01 x00)
(T (W x00 x00 x00 x00 x00 x00 x00 x00)
(T (W xf2 xa0 xfc xff x00 x00 x80 x3f)
(T (W x00 x00 x00 x00 x01 x00 x00 x00)
(T (W x00 x00 x00 x00 x00 x00 x00 x00)
(T (W x1c x14 xfd xff x50 x00 x00 x00)
(T (W x00 x00 x00 x00 x3a x99 xfd xff)
(L (W x74 x00 x00 x00 x68 x00 x00 x00))
(L (W x28 x00 x00 x00 x14 x00 x00 x00)))
(T (W xf2 x10 xfe xff x00 x20 x3b x44)
(L (W x00 x00 x00 x00 x01 x00 x00 x00)) E))
(T (W x55 x6c xfc xf1 x99 x9e xc9 x88)
(T (W x00 x00 x00 x00 x00 x00 x00 x00)
(L (W x04 x00 x00 x00 x98 xd3 xfe xff))
(L (W x00 x00 x00 x00 x00 x00 x00 x00)))
(T (W x00 x00 x00 x00 x00 x00 x00 x00)
(L (W x00 x00 x00 x00 x78 x51 xff xff)) E)))
(T (W x00 x00 x00 x00 x01 x00 x00 x00)
(T (W x45 x26 x22 x84 xe4 x9c xf2 xcb)
(T (W x1c xb4 xfd xff x50 x00 x00 x00)
(L (W x4c x7c x86 xf3 x1d xa2 x5a x95))
(L (W x01 x00 x00 x00 x04 x00 x00 x00)))
(T (W x45 x26 x22 x84 xe4 x9c xf2 xcb)
(L (W x6d xd6 x6b x7a x99 x20 xa6 x80)) E))
(T (W x00 x00 x00 x00 x78 x71 xfd xff)
(T (W xfe x27 x3c xdc x00 x65 x4b x2f)
(L (W x57 x92 x83 xf3 x1d x38 x57 x95))
(L (W x40 x00 x00 x00 x38 x00 x00 x00)))
(T (W x04 x00 x00 x00 xb2 x76 xfe xff)
(L (W x04 x00 x00 x00 xb2 x76 xff xff)) E))))
(T (W x00 x00 x00 x00 x00 x00 x00 x00)
(T (W x40 x00 x00 x00 x38 x00 x00 x00)
(T (W x00 x00 x00 x00 x01 x00 x00 x00)
(T (W x00 x00 x00 x00 x01 x00 x00 x00)
(L (W x00 x00 x00 x00 x78 xa1 xfe xff))
(L (W x2c x00 x00 x00 x20 x00 x00 x00)))
(T (W x45 x26 x22 x84 xe4 x9c xf2 xcb)
(L (W x74 x21 xff xff x00 x00 x00 x00)) E))
(T (W x01 x00 x00 x00 x01 x00 x00 x00)
(T (W x5c x00 x00 x00 x50 x00 x00 x00)
(L (W x00 x00 x00 x00 x78 xe1 xfe xff))
(L (W x00 x00 x00 x00 x00 x00 x00 x00)))
(T (W x54 x00 x00 x00 x48 x00 x00 x00)
(L (W x2c x00 x00 x00 x20 x00 x00 x00)) E)))
(T (W x1c x01 x00 x00 x04 x00 x00 x00)
(T (W x45 x26 x22 x84 xe4 x9c xf2 xcb)
(T (W xb9 xf4 x9f x7c x30 x4b xa4 x68)
(L (W x28 x00 x00 x00 x14 x00 x00 x00))
(L (W x04 x00 x00 x00 x00 x00 x00 x00)))
(T (W x00 x00 x00 x00 x3a x49 xfe xff)
(L (W x45 x26 x22 x84 xe4 x9c xf2 xcb)) E))
(T (W x2c x00 x00 x00 x20 x00 x00 x00)
(T (W x45 x26 x22 x84 xe4 x9c xf2 xcb)
(L (W x1f x05 xaa x42 xe1 x9a x85 x43)) E)
(T (W x01 x00 x00 x00 x00 x00 x80 x3f)
(L (W x41 x30 x32 x00 x3a x89 xff xff)) E)))))
(T (W x5f x30 x31 x38 x00 x00 x00 x00)
(T (W x00 x00 x00 x00 x78 xb9 xfc xff)
(T (W x04 x00 x00 x00 x00 x00 x80 x3f)
(T (W x74 x19 xfd xff x00 x00 x00 x00)
(T (W x45 x26 x22 x84 xe4 x9c xf2 xcb)
(L (W x5f x4e x45 x57 x5f x4f x55 x54))
(L (W x6b xd2 x71 x85 xb9 x06 x72 xf9)))
(T (W x04 x00 x00 x00 x00 x00 x00 x00)
(L (W x00 x00 x80 xbf x00 x00 x80 xbf)) E))
(T (W x74 x59 xfd xff x00 x00 x00 x00)
(T (W x1c xdc xfd xff x50 x00 x00 x00)
(L (W x00 x00 x00 x00 x00 x00 x00 x00))
(L (W x45 x26 x22 x84 xe4 x9c xf2 xcb)))
(T (W x45 x41 x30 x32 x5f x30 x31 x39)
(L (W x00 x00 x80 xbf x00 x00 x80 xbf)) E)))
(T (W xd7 xa3 x19 x42 x33 x43 x35 x44)
(T (W x01 x00 x00 x00 x04 x00 x00 x00)
(T (W x74 xb9 xfd xff xf6 xb8 xfd xff)
(L (W x45 x26 x22 x84 xe4 x9c xf2 xcb))
(L (W x45 x26 x22 x84 xe4 x9c xf2 xcb)))
(T (W x00 x00 x00 x00 x00 x00 x00 x00)
(L (W x01 x00 x00 x00 x04 x00 x00 x00)) E))
(T (W x3c x01 x00 x00 x30 x01 x00 x00)
(T (W x00 x00 x80 x3f x00 x00 x80 x3f)
(L (W x44 x00 x00 x00 x38 x00 x00 x00))
(L (W x00 x00 x00 x00 x00 x00 x00 x00)))
(T (W x00 x00 x00 x00 x00 x00 x00 x00)
(L (W x00 x00 x00 x00 x00 x00 x00 x00)) E))))
(T (W x4f x84 x6f x8b xe8 xcb x63 xb7)
(T (W x44 x00 x00 x00 x38 x00 x00 x00)
(T (W x74 x29 xfd xff xf6 x28 xfd xff)
(T (W x00 x00 x00 x00 x00 x00 x00 x00)
(L (W x74 x00 x00 x00 x68 x00 x00 x00))
(L (W x00 x00 x00 x00 x3a xb1 xff xff)))
(T (W x00 x00 x00 x00 x00 x00 x00 x00)
(L (W x00 x00 x80 x3f x00 x00 x80 x3f)) E))
(T (W x01 x00 x00 x00 x04 x00 x00 x00)
(T (W x00 x00 x80 x40 x24 x01 x00 x00)
(L (W x60 x00 x00 x00 x54 x00 x00 x00))
(L (W x00 x00 x00 x00 x00 x00 x00 x00)))
(T (W x5c x00 x00 x00 x50 x00 x00 x00)
(L (W x9a xd9 x30 x44 x00 x00 x00 x00)) E)))
(T (W x54 x00 x00 x00 x48 x00 x00 x00)
(T (W x04 x00 x00 x00 x00 x00 x00 x00)
(T (W x44 x00 x00 x00 x38 x00 x00 x00)
(L (W x40 x00 x00 x00 x38 x00 x00 x00))
(L (W x45 x26 x22 x84 xe4 x9c xf2 xcb)))
(T (W x45 x26 x22 x84 xe4 x9c xf2 xcb)
(L (W x45 x26 x22 x84 xe4 x9c xf2 xcb)) E))
(T (W x2c x00 x00 x00 x18 x00 x00 x00)
(T (W xb1 x29 x3c xdc x00 x66 x4b x2f)
(L (W x54 x00 x00 x00 x48 x00 x00 x00)) E)
(T (W x45 x26 x22 x84 xe4 x9c xf2 xcb)
(L (W x45 x26 x22 x84 xe4 x9c xf2 xcb)) E))))))
(T (W x74 x00 x00 x00 x68 x00 x00 x00)
(T (W x00 x00 x00 x00 x00 x00 x00 x00)
(T (W x45 x26 x22 x84 xe4 x9c xf2 xcb)
(T (W x4e x45 x52 x41 x54 x49 x4f x4e)
(T (W x00 x00 x00 x00 x00 x00 x00 x00)
(T (W x45 x26 x22 x84 xe4 x9c xf2 xcb)
(L (W xec x51 x3a x42 xe1 x2a x33 x44))
(L (W xa4 xb0 x36 x44 x00 x00 x00 x00)))
(T (W x01 x00 x00 x00 x01 x00 x00 x00)
(L (W xae x27 xfc x43 x8f xc2 x7e x42)) E))
(T (W x00 x00 x00 x00 x00 x00 x00 x00)
(T (W x00 x00 x00 x00 x01 x00 x00 x00)
(L (W xf2 xd4 xfe xff x00 x00 x80 x3f))
(L (W x00 x00 x00 x00 x01 x00 x00 x00)))
(T (W x45 x26 x22 x84 xe4 x9c xf2 xcb)
(L (W x5c x2f x22 x44 x00 x00 x00 x00)) E)))
(T (W xd6 x81 x9c x94 x9b x27 x57 x25)
(T (W x45 x26 x22 x84 xe4 x9c xf2 xcb)
(T (W x00 x00 x00 x00 x01 x00 x00 x00)
(L (W x00 x00 x00 x00 x01 x00 x00 x00))
(L (W x00 x00 x00 x00 x01 x00 x00 x00)))
(T (W x00 x00 x00 x00 x78 x35 xfe xff)
(L (W x45 x26 x22 x84 xe4 x9c xf2 xcb)) E))
(T (W x44 x00 x00 x00 x30 x00 x00 x00)
(T (W x5c x00 x00 x00 x50 x00 x00 x00)
(L (W x45 x26 x22 x84 xe4 x9c xf2 xcb))
(L (W x00 x00 x00 x00 x78 xf5 xff xff)))
(T (W x1c x78 xfe xff x50 x00 x00 x00)
(L (W x1c x78 xff xff x50 x00 x00 x00)) E))))
(T (W x04 x00 x00 x00 x98 xc7 xfc xff)
(T (W x45 x26 x22 x84 xe4 x9c xf2 xcb)
(T (W x55 x39 x81 x6a xc4 xc7 x74 x14)
(T (W x55 x39 x81 x6a xc4 xc7 x74 x14)
(L (W x00 x00 x00 x00 x00 x00 x00 x00))
(L (W x5c x00 x00 x00 x50 x00 x00 x00)))
(T (W x74 x00 x00 x00 x68 x00 x00 x00)
(L (W x00 x00 x00 x00 x78 x25 xff xff)) E))
(T (W x00 x00 x00 x00 x01 x00 x00 x00)
(T (W x00 x00 x00 x00 x00 x00 x00 x00)
(L (W x00 x00 x00 x00 x00 x00 x00 x00))
(L (W x5c x00 x00 x00 x50 x00 x00 x00)))
(T (W x2c x00 x00 x00 x20 x00 x00 x00)
(L (W x04 x00 x00 x00 x98 x67 xff xff)) E)))
(T (W xd2 xf9 x5e x44 x86 x68 xe6 x22)
(T (W x28 x01 x00 x00 x20 x01 x00 x00)
(T (W x45 x26 x22 x84 xe4 x9c xf2 xcb)
(L (W x00 x00 x40 x40 x24 x01 x00 x00))
(L (W x45 x26 x22 x84 xe4 x9c xf2 xcb)))
(T (W x45 x26 x22 x84 xe4 x9c xf2 xcb)
(L (W x00 x00 x00 x00 x3a x4d xff xff)) E))
(T (W x74 x85 xfd xff x00 x00 x00 x00)
(T (W x74 x05 xfe xff x00 x00 x00 x00)
(L (W x00 x00 x80 xbf x00 x00 x80 xbf)) E)
(T (W x45 x26 x22 x84 xe4 x9c xf2 xcb)
(L (W x34 x00 x00 x00 x20 x00 x00 x00)) E)))))
(T (W x00 x00 x80 xbf x00 x00 x80 xbf)
(T (W x2c x00 x00 x00 x20 x00 x00 x00)
(T (W x45 x26 x22 x84 xe4 x9c xf2 xcb)
(T (W x74 x1d xfd xff x00 x00 x00 x00)
(T (W x1c xa0 xfd xff x50 x00 x00 x00)
(L (W x00 x00 x00 x00 x01 x00 x00 x00))
(L (W x00 x00 x00 x00 x78 x9d xff xff)))
(T (W x45 x26 x22 x84 xe4 x9c xf2 xcb)
(L (W x00 x00 x00 x00 x01 x00 x00 x00)) E))
(T (W x00 x00 x00 x00 x00 x00 x00 x00)
(T (W x00 x00 x00 x00 x00 x00 x00 x00)
(L (W x04 x00 x00 x00 x00 x00 x00 x00))
(L (W x44 x00 x00 x00 x38 x00 x00 x00)))
(T (W xcc x18 xbe x62 x97 x2e x7f x4d)
(L (W x54 x00 x00 x00 x48 x00 x00 x00)) E)))
(T (W x5f x4d x41 x53 x53 x5f x47 x41)
(T (W x45 x26 x22 x84 xe4 x9c xf2 xcb)
(T (W x1c x01 x00 x00 x01 x00 x00 x00)
(L (W x45 x26 x22 x84 xe4 x9c xf2 xcb))
(L (W x01 x00 x00 x00 x00 x00 x80 x3f)))
(T (W xf2 x3c xfe xff xb8 x6e x3e x44)
(L (W x00 x00 x00 x00 x00 x00 x00 x00)) E))
(T (W x54 x00 x00 x00 x48 x00 x00 x00)
(T (W x01 x00 x00 x00 x00 x00 x80 x3f)
(L (W x74 x00 x00 x00 x68 x00 x00 x00))
(L (W x44 x00 x00 x00 x38 x00 x00 x00)))
(T (W x5c x8f x39 x43 xc3 xf5 x17 x42)
(L (W x00 x00 x80 x3f x78 x7d xff xff)) E))))
(T (W x4f x84 x6f x8b xe8 xcb x63 xb7)
(T (W x00 x00 x00 x00 x00 x00 x00 x00)
(T (W x00 x00 x00 x00 x00 x00 x00 x00)
(T (W x00 x00 x00 x00 x01 x00 x00 x00)
(L (W x02 x00 x00 x00 x33 x31 x00 x00))
(L (W x04 x00 x00 x00 xb2 xb2 xff xff)))
(T (W x34 x00 x00 x00 x20 x00 x00 x00)
(L (W x00 x00 x80 x40 x24 x01 x00 x00)) E))
(T (W x45 x26 x22 x84 xe4 x9c xf2 xcb)
(T (W x40 x00 x00 x00 x38 x00 x00 x00)
(L (W x00 x00 x00 x00 x00 x00 x00 x00))
(L (W x00 x00 x20 x41 x24 x01 x00 x00)))
(T (W x00 x00 x00 x00 x3a x75 xfe xff)
(L (W x00 x00 x80 xbf x00 x00 x80 xbf)) E)))
(T (W x45 x26 x22 x84 xe4 x9c xf2 xcb)
(T (W x01 x00 x00 x00 x04 x00 x00 x00)
(T (W x74 x00 x00 x00 x68 x00 x00 x00)
(L (W x1c xd0 xfe xff x50 x00 x00 x00))
(L (W x5c x00 x00 x00 x50 x00 x00 x00)))
(T (W x45 x26 x22 x84 xe4 x9c xf2 xcb)
(L (W x74 x4d xff xff x00 x00 x00 x00)) E))
(T (W xf2 x8c xfd xff x66 x26 xb3 x43)
(T (W x74 x0d xfe xff x00 x00 x00 x00)
(L (W x01 x00 x00 x00 x04 x00 x00 x00)) E)
(T (W x45 x26 x22 x84 xe4 x9c xf2 xcb)
(L (W x45 x26 x22 x84 xe4 x9c xf2 xcb)) E)))))))
(T (W xe8 x69 x00 x00 xfc x67 x00 x00)
(T (W x74 x9b xfc xff x00 x00 x00 x00)
(T (W x5c xdf x1c x44 xb8 x9e xaa x42)
(T (W x04 x00 x00 x00 xb2 xb8 xfc xff)
(T (W x02 x00 x00 x00 x34 x30 x00 x00)
(T (W xf8 xcc x36 x97 x85 x2a x63 x5f)
(T (W x1c x01 x00 x00 x01 x00 x00 x00)
(L (W x00 x00 x80 x3f x00 x00 x80 x3f))
(L (W x00 x00 x80 x3f x00 x00 x80 x3f)))
(T (W x00 x00 x00 x00 x3a x1b xfe xff)
(L (W x44 x00 x00 x00 x30 x00 x00 x00)) E))
(T (W x00 x00 x00 x00 x00 x00 x00 x00)
(T (W x00 x00 x80 xbf x9c x00 x00 x00)
(L (W x2c x00 x00 x00 x18 x00 x00 x00))
(L (W x01 x00 x00 x00 x00 x00 x80 x3f)))
(T (W x74 x53 xfe xff x00 x00 x00 x00)
(L (W x28 x00 x00 x00 x14 x00 x00 x00)) E)))
(T (W x60 x00 x00 x00 x54 x00 x00 x00)
(T (W x45 x26 x22 x84 xe4 x9c xf2 xcb)
(T (W x00 x00 x00 x00 x00 x00 x00 x00)
(L (W x04 x00 x00 x00 x00 x00 x00 x00))
(L (W x00 x00 x00 x00 x00 x00 x00 x00)))
(T (W x45 x26 x22 x84 xe4 x9c xf2 xcb)
(L (W x40 x00 x00 x00 x38 x00 x00 x00)) E))
(T (W x04 x00 x00 x00 x60 x73 xfd xff)
(T (W x00 x00 x00 x00 x00 x00 x00 x00)
(L (W x54 x00 x00 x00 x48 x00 x00 x00))
(L (W x45 x26 x22 x84 xe4 x9c xf2 xcb)))
(T (W x45 x26 x22 x84 xe4 x9c xf2 xcb)
(L (W x45 x26 x22 x84 xe4 x9c xf2 xcb)) E))))
(T (W x00 x00 x00 x00 x78 xc3 xfc xff)
(T (W x45 x26 x22 x84 xe4 x9c xf2 xcb)
(T (W x00 x00 x00 x00 x01 x00 x00 x00)
(T (W x5c x00 x00 x00 x50 x00 x00 x00)
(L (W x44 x00 x00 x00 x38 x00 x00 x00))
(L (W x00 x00 x00 x00 x00 x00 x00 x00)))
(T (W x00 x00 x00 x00 x00 x00 x00 x00)
(L (W x45 x26 x22 x84 xe4 x9c xf2 xcb)) E))
(T (W x00 x00 x80 xbf x9c x00 x00 x00)
(T (W x00 x00 x80 x3f x78 xe3 xfd xff)
(L (W x75 x13 xb9 x28 xbf xd0 x67 x6a))
(L (W x00 x00 x00 x00 x01 x00 x00 x00)))
(T (W x45 x26 x22 x84 xe4 x9c xf2 xcb)
(L (W x00 x00 x00 x00 x00 x00 x00 x00)) E)))
(T (W x00 x00 x80 xbf x9c x00 x00 x00)
(T (W x00 x00 x00 x00 x00 x00 x00 x00)
(T (W x04 x00 x00 x00 x00 x00 x00 x00)
(L (W x52 x78 x4c x43 x00 x00 x00 x00))
(L (W x45 x26 x22 x84 xe4 x9c xf2 xcb)))
(T (W x1c x01 x00 x00 x01 x00 x00 x00)
(L (W x00 x00 x00 x00 x00 x00 x00 x00)) E))
(T (W x00 x00 x00 x00 x00 x00 x00 x00)
(T (W x45 x26 x22 x84 xe4 x9c xf2 xcb)
(L (W x00 x00 x00 x00 x00 x00 x00 x00)) E)
(T (W x34 x00 x00 x00 x20 x00 x00 x00)
(L (W x01 x00 x00 x00 x00 x00 x80 x3f)) E)))))
(T (W x00 x00 xe0 x40 x24 x01 x00 x00)
(T (W x01 x00 x00 x00 x04 x00 x00 x00)
(T (W x34 x00 x00 x00 x20 x00 x00 x00)
(T (W x74 x00 x00 x00 x68 x00 x00 x00)
(T (W x45 x26 x22 x84 xe4 x9c xf2 xcb)
(L (W x01 x00 x00 x00 x00 x00 x80 x3f))
(L (W x40 x00 x00 x00 x38 x00 x00 x00)))
(T (W x45 x26 x22 x84 xe4 x9c xf2 xcb)
(L (W x5f x72 xe4 x67 x9c xff xf3 x0f)) E))
(T (W x45 x26 x22 x84 xe4 x9c xf2 xcb)
(T (W x3a xfd xaf x28 xbf x5e x5d x6a)
(L (W x00 x00 x80 xbf x00 x00 x80 xbf))
(L (W x44 x00 x00 x00 x38 x00 x00 x00)))
(T (W x00 x00 x80 xbf x9c x00 x00 x00)
(L (W x04 x00 x00 x00 x00 x00 x00 x00)) E)))
(T (W x00 x00 x00 x00 x00 x00 x00 x00)
(T (W x2c x00 x00 x00 x20 x00 x00 x00)
(T (W x00 x00 x00 x00 x3a xc3 xfd xff)
(L (W x00 x00 x00 x00 x78 xbb xfe xff))
(L (W x00 x00 x00 x00 x00 x00 x00 x00)))
(T (W x44 x00 x00 x00 x30 x00 x00 x00)
(L (W x2c x00 x00 x00 x20 x00 x00 x00)) E))
(T (W x0b x8b x64 x23 x15 xd7 xaf x1d)
(T (W x00 x00 x00 x00 x00 x00 x00 x00)
(L (W x00 x00 x00 x00 x00 x00 x00 x00))
(L (W x00 x00 x00 x00 x00 x00 x00 x00)))
(T (W x44 x00 x00 x00 x30 x00 x00 x00)
(L (W x5c x00 x00 x00 x50 x00 x00 x00)) E))))
(T (W x74 xcb xfc xff xf6 xca xfc xff)
(T (W x45 x26 x22 x84 xe4 x9c xf2 xcb)
(T (W x48 xe1 x6c x42 x85 xcb xa8 x43)
(T (W x00 x00 x80 xbf x9c x00 x00 x00)
(L (W x00 x00 x80 x3f x00 x00 x80 x3f))
(L (W x34 x00 x00 x00 x20 x00 x00 x00)))
(T (W x00 x00 x80 xbf x9c x00 x00 x00)
(L (W x00 x00 x00 x00 x00 x00 x00 x00)) E))
(T (W x2c x00 x00 x00 x20 x00 x00 x00)
(T (W x82 x73 x86 x09 x9f xad xf6 x98)
(L (W x45 x26 x22 x84 xe4 x9c xf2 xcb))
(L (W x00 x00 x00 x00 x00 x00 x00 x00)))
(T (W x74 x6b xfe xff xf6 x6a xfe xff)
(L (W x4b x5f x41 x52 x45 x41 x30 x32)) E)))
(T (W x45 x26 x22 x84 xe4 x9c xf2 xcb)
(T (W x45 x26 x22 x84 xe4 x9c xf2 xcb)
(T (W x00 x00 x00 x00 x00 x00 x00 x00)
(L (W x45 x26 x22 x84 xe4 x9c xf2 xcb))
(L (W x00 x00 x00 x00 x00 x00 x00 x00)))
(T (W x45 x26 x22 x84 xe4 x9c xf2 xcb)
(L (W x45 x26 x22 x84 xe4 x9c xf2 xcb)) E))
(T (W x00 x00 x00 x00 xf6 x8a xfd xff)
(T (W x00 x00 x00 x00 x00 x00 x00 x00)
(L (W x45 x26 x22 x84 xe4 x9c xf2 xcb)) E)
(T (W x00 x00 x00 x00 x78 x8b xfe xff)
(L (W x74 x8b xff xff x00 x00 x00 x00)) E))))))
(T (W x28 x00 x00 x00 x14 x00 x00 x00)
(T (W x46 x53 x59 x53 x5f x4e x45 x57)
(T (W x45 x26 x22 x84 xe4 x9c xf2 xcb)
(T (W x3c x01 x00 x00 x30 x01 x00 x00)
(T (W x00 x00 x00 x00 x00 x00 x00 x00)
(T (W x04 x00 x00 x00 xb2 x9c xfd xff)
(L (W x00 x00 x00 x00 x00 x00 x00 x00))
(L (W x00 x00 x40 x40 x24 x01 x00 x00)))
(T (W x00 x00 x80 xbf x9c x00 x00 x00)
(L (W x3c x01 x00 x00 x30 x01 x00 x00)) E))
(T (W x00 x00 x00 x00 x00 x00 x00 x00)
(T (W x45 x26 x22 x84 xe4 x9c xf2 xcb)
(L (W xf2 xd6 xfe xff xa4 x10 xa6 x43))
(L (W x04 x00 x00 x00 xb2 xdc xff xff)))
(T (W x00 x00 x00 x00 x00 x00 x00 x00)
(L (W x00 x00 x20 x41 x24 x01 x00 x00)) E)))
(T (W x00 x00 x80 x3f x00 x00 x80 x3f)
(T (W x00 x00 x00 x00 x78 x37 xfd xff)
(T (W x5c x00 x00 x00 x50 x00 x00 x00)
(L (W x00 x00 x00 x00 x01 x00 x00 x00))
(L (W x00 x00 x00 x00 x01 x00 x00 x00)))
(T (W x28 x2a xc8 xc9 x03 x89 xa0 xbc)
(L (W x45 x26 x22 x84 xe4 x9c xf2 xcb)) E))
(T (W xc3 xd5 x98 x43 xa4 x70 x28 x42)
(T (W x55 x39 x81 x6a xc4 xc7 x74 x14)
(L (W x00 x00 x00 x00 x78 xf7 xfe xff))
(L (W x45 x26 x22 x84 xe4 x9c xf2 xcb)))
(T (W x00 x00 x00 x00 x00 x00 x00 x00)
(L (W x49 x65 xff x4b x84 x98 x7b x61)) E))))
(T (W x44 x00 x00 x00 x30 x00 x00 x00)
(T (W x00 x00 x00 x00 x78 xe7 xfc xff)
(T (W xf2 x26 xfd xff x00 x00 x80 x3f)
(T (W x00 x00 x80 x3f x00 x00 x80 x3f)
(L (W x00 x00 x00 x00 x78 xa7 xfe xff))
(L (W x74 xa7 xff xff xf6 xa6 xff xff)))
(T (W x00 x00 x80 x3f x00 x00 x80 x3f)
(L (W x28 x00 x00 x00 x14 x00 x00 x00)) E))
(T (W x45 x26 x22 x84 xe4 x9c xf2 xcb)
(T (W x45 x41 x30 x32 x5f x30 x31 x34)
(L (W x00 x00 x00 x00 x01 x00 x00 x00))
(L (W x74 xe7 xff xff xf6 xe6 xff xff)))
(T (W x00 x00 x00 x00 x00 x00 x00 x00)
(L (W xf2 x66 xff xff x00 x00 x80 x3f)) E)))
(T (W x04 x00 x00 x00 x00 x00 x00 x00)
(T (W x00 x00 x80 xbf x00 x00 x80 xbf)
(T (W x45 x26 x22 x84 xe4 x9c xf2 xcb)
(L (W x70 xe1 x9e x1b x42 x44 x15 x4e))
(L (W x00 x00 x00 x00 x78 xc7 xff xff)))
(T (W x45 x26 x22 x84 xe4 x9c xf2 xcb)
(L (W x1c x01 x00 x00 x01 x00 x00 x00)) E))
(T (W x78 x00 x00 x00 x6c x00 x00 x00)
(T (W x1c x0a xfe xff x50 x00 x00 x00)
(L (W x04 x00 x00 x00 x00 x00 x00 x00)) E)
(T (W x00 x00 x00 x00 x01 x00 x00 x00)
(L (W x45 x26 x22 x84 xe4 x9c xf2 xcb)) E)))))
(T (W x67 xe5 x86 x67 x2b x04 xf1 x8e)
(T (W x45 x26 x22 x84 xe4 x9c xf2 xcb)
(T (W x00 x00 x00 x00 x01 x00 x00 x00)
(T (W x04 x00 x00 x00 x98 x21 xfd xff)
(T (W x00 x00 x00 x00 x00 x00 x00 x00)
(L (W x45 x26 x22 x84 xe4 x9c xf2 xcb))
(L (W x01 x00 x00 x00 x04 x00 x00 x00)))
(T (W x2c x00 x00 x00 x20 x00 x00 x00)
(L (W x45 x26 x22 x84 xe4 x9c xf2 xcb)) E))
(T (W x57 x53 x59 x53 x5f x4d x41 x53)
(T (W x00 x00 x00 x00 x00 x00 x00 x00)
(L (W x40 x00 x00 x00 x38 x00 x00 x00))
(L (W x00 x00 x00 x00 x00 x00 x00 x00)))
(T (W x04 x00 x00 x00 x00 x00 x00 x00)
(L (W x45 x26 x22 x84 xe4 x9c xf2 xcb)) E)))
(T (W x6a xe3 xff xff x00 x00 x00 x01)
(T (W x74 x3f xfd xff x00 x00 x00 x00)
(T (W x00 x00 x80 xbf x9c x00 x00 x00)
(L (W x00 x00 x00 x00 x78 xbf xfe xff))
(L (W x58 x90 x8e x16 x1e x4b xcc xd2)))
(T (W x00 x00 x00 x00 x00 x00 x00 x00)
(L (W x00 x00 x00 x00 x01 x00 x00 x00)) E))
(T (W x45 x26 x22 x84 xe4 x9c xf2 xcb)
(T (W x00 x00 x00 x00 x01 x00 x00 x00)
(L (W x00 x00 x80 x3f x00 x00 x80 x3f))
(L (W x74 xff xff xff x78 xff xff xff)))
(T (W x5f x4f x55 x54 x42 x52 x45 x41)
(L (W x00 x00 x00 x00 x00 x00 x00 x00)) E))))
(T (W x00 x00 x80 x3f x78 xcf xfc xff)
(T (W x00 x00 x00 x00 x00 x00 x00 x00)
(T (W x01 x00 x00 x00 x00 x00 x80 x3f)
(T (W x45 x26 x22 x84 xe4 x9c xf2 xcb)
(L (W x34 x01 x00 x00 x00 x00 x40 x40))
(L (W x45 x26 x22 x84 xe4 x9c xf2 xcb)))
(T (W x04 x00 x00 x00 xb2 x34 xfe xff)
(L (W x00 x00 x80 xbf x9c x00 x00 x00)) E))
(T (W x00 x00 x00 x00 x00 x00 x00 x00)
(T (W x00 x00 x00 x00 x78 xef xfd xff)
(L (W x28 x01 x00 x00 x20 x01 x00 x00))
(L (W x29 xd4 x72 x6e xd2 xe5 x81 xea)))
(T (W x34 x00 x00 x00 x20 x00 x00 x00)
(L (W xc6 x4c x36 x08 x1e x42 x40 xb9)) E)))
(T (W x74 x0f xfd xff x00 x00 x00 x00)
(T (W x2c x00 x00 x00 x20 x00 x00 x00)
(T (W x00 x00 x80 x3f x00 x00 x80 x3f)
(L (W x00 x00 x00 x00 x00 x00 x00 x00))
(L (W x74 xcf xff xff xf6 xce xff xff)))
(T (W x2c x00 x00 x00 x20 x00 x00 x00)
(L (W x45 x26 x22 x84 xe4 x9c xf2 xcb)) E))
(T (W x00 x00 x00 x00 x00 x00 x00 x00)
(T (W x2c x00 x00 x00 x18 x00 x00 x00)
(L (W x00 x00 x00 x00 x00 x00 x00 x00)) E)
(T (W x00 x00 x00 x00 x00 x00 x00 x00)
(L (W x00 x00 x00 x00 x78 x8f xff xff)) E))))))))
(T (W x1c xd0 x01 x00 x50 xce x01 x00)
(T (W xfc xe2 x00 x00 x30 xe1 x00 x00)
(T (W x34 x00 x00 x00 x20 x00 x00 x00)
(T (W x45 x26 x22 x84 xe4 x9c xf2 xcb)
(T (W x5c x00 x00 x00 x50 x00 x00 x00)
(T (W x74 xd2 xfc xff x00 x00 x00 x00)
(T (W x4e x45 x52 x41 x54 x49 x4f x4e)
(T (W x45 x26 x22 x84 xe4 x9c xf2 xcb)
(L (W x45 x26 x22 x84 xe4 x9c xf2 xcb))
(L (W x45 x26 x22 x84 xe4 x9c xf2 xcb)))
(T (W x00 x00 x00 x00 x78 x12 xfe xff)
(L (W x04 x00 x00 x00 x00 x00 x00 x00)) E))
(T (W x54 x01 x00 x00 x48 x01 x00 x00)
(T (W x45 x26 x22 x84 xe4 x9c xf2 xcb)
(L (W x00 x00 x00 x00 x01 x00 x00 x00))
(L (W x2c x00 x00 x00 x20 x00 x00 x00)))
(T (W x34 x00 x00 x00 x20 x00 x00 x00)
(L (W x00 x00 x00 x00 x01 x00 x00 x00)) E)))
(T (W x00 x00 x00 x00 x01 x00 x00 x00)
(T (W x74 x00 x00 x00 x68 x00 x00 x00)
(T (W x00 x00 xa0 x40 x24 x01 x00 x00)
(L (W x00 x00 x00 x00 x01 x00 x00 x00))
(L (W x3c x01 x00 x00 x30 x01 x00 x00)))
(T (W x00 x00 x80 x3f x00 x00 x80 x3f)
(L (W x04 x00 x00 x00 x98 x34 xff xff)) E))
(T (W xde x48 x63 x60 x16 x66 xbb x98)
(T (W x00 x00 x80 xbf x00 x00 x80 xbf)
(L (W x00 x00 x00 x00 x01 x00 x00 x00))
(L (W xf2 xf1 xff xff x00 x00 x80 x3f)))
(T (W x45 x26 x22 x84 xe4 x9c xf2 xcb)
(L (W x45 x26 x22 x84 xe4 x9c xf2 xcb)) E))))
(T (W x00 x00 x80 xbf x9c x00 x00 x00)
(T (W x00 x00 x00 x00 xf6 xe1 xfc xff)
(T (W x0f x22 xe4 x77 x02 xf1 x66 xd0)
(T (W x00 x00 x00 x00 x01 x00 x00 x00)
(L (W x1c x00 x00 x00 x46 x53 x59 x53))
(L (W x02 x00 x00 x00 x00 x00 x80 x3f)))
(T (W x1c x01 x00 x00 x01 x00 x00 x00)
(L (W x00 x00 x00 x00 x00 x00 x00 x00)) E))
(T (W x00 x00 x00 x00 x00 x00 x00 x00)
(T (W x45 x26 x22 x84 xe4 x9c xf2 xcb)
(L (W x00 x00 x00 x00 x00 x00 x00 x00))
(L (W x71 x2e xc3 xfd xc2 xe3 x55 xec)))
(T (W x45 x26 x22 x84 xe4 x9c xf2 xcb)
(L (W x01 x00 x00 x00 x01 x00 x00 x00)) E)))
(T (W x00 x00 x00 x00 x00 x00 x00 x00)
(T (W x45 x26 x22 x84 xe4 x9c xf2 xcb)
(T (W x04 x00 x00 x00 x60 xc2 xfd xff)
(L (W x45 x26 x22 x84 xe4 x9c xf2 xcb))
(L (W x44 x00 x00 x00 x30 x00 x00 x00)))
(T (W x45 x26 x22 x84 xe4 x9c xf2 xcb)
(L (W x45 x26 x22 x84 xe4 x9c xf2 xcb)) E))
(T (W x01 x00 x00 x00 x00 x00 x80 x3f)
(T (W x00 x00 x80 x3f x78 x02 xfe xff)
(L (W x00 x00 x00 x00 x78 x02 xff xff)) E)
(T (W x00 x00 x00 x00 x00 x00 x00 x00)
(L (W x45 x26 x22 x84 xe4 x9c xf2 xcb)) E)))))
(T (W x45 x26 x22 x84 xe4 x9c xf2 xcb)
(T (W x00 x00 x00 x00 x00 x00 x00 x00)
(T (W x00 x00 x00 x00 x00 x00 x00 x00)
(T (W x45 x26 x22 x84 xe4 x9c xf2 xcb)
(T (W x00 x00 x80 x3f x00 x00 x80 x3f)
(L (W x2c x00 x00 x00 x20 x00 x00 x00))
(L (W x04 x00 x00 x00 x98 x9c xff xff)))
(T (W x44 x00 x00 x00 x30 x00 x00 x00)
(L (W x00 x00 x00 x00 x00 x00 x00 x00)) E))
(T (W x04 x00 x00 x00 xb2 x5f xfd xff)
(T (W x42 x52 x45 x41 x4b x5f x41 x52)
(L (W x45 x26 x22 x84 xe4 x9c xf2 xcb))
(L (W x00 x00 x00 x00 x00 x00 x00 x00)))
(T (W x45 x26 x22 x84 xe4 x9c xf2 xcb)
(L (W x00 x00 x00 x00 x00 x00 x00 x00)) E)))
(T (W x00 x00 x00 x00 x78 xfa xfc xff)
(T (W x5f x4f x55 x54 x42 x52 x45 x41)
(T (W x00 x00 x00 x00 x78 xba xfd xff)
(L (W xf2 xb9 xfe xff x9a x59 xb9 x43))
(L (W x45 x26 x22 x84 xe4 x9c xf2 xcb)))
(T (W x04 x00 x00 x00 x00 x00 x00 x00)
(L (W x5f x4e x45 x57 x5f x4f x55 x54)) E))
(T (W x00 x00 x00 x00 x00 x00 x00 x00)
(T (W x00 x00 x00 x00 x78 xfa xfd xff)
(L (W x1c x01 x00 x00 x01 x00 x00 x00))
(L (W x01 x00 x00 x00 x00 x00 x80 x3f)))
(T (W x04 x00 x00 x00 x00 x00 x00 x00)
(L (W x00 x00 x00 x00 x01 x00 x00 x00)) E))))
(T (W x45 x26 x22 x84 xe4 x9c xf2 xcb)
(T (W x5f x41 x52 x45 x41 x30 x32 x00)
(T (W x00 x00 x00 x00 x78 x2a xfd xff)
(T (W x45 x26 x22 x84 xe4 x9c xf2 xcb)
(L (W x45 x26 x22 x84 xe4 x9c xf2 xcb))
(L (W x45 x26 x22 x84 xe4 x9c xf2 xcb)))
(T (W x45 x26 x22 x84 xe4 x9c xf2 xcb)
(L (W x74 x2a xff xff x00 x00 x00 x00)) E))
(T (W x5f x4f x55 x54 x42 x52 x45 x41)
(T (W x00 x00 x00 x00 x00 x00 x00 x00)
(L (W x04 x00 x00 x00 xb2 xef xfe xff))
(L (W x74 xea xff xff x00 x00 x00 x00)))
(T (W x45 x26 x22 x84 xe4 x9c xf2 xcb)
(L (W x1c x6d xff xff x50 x00 x00 x00)) E)))
(T (W x4f x84 x6f x8b xe8 xcb x63 xb7)
(T (W x44 x00 x00 x00 x30 x00 x00 x00)
(T (W x1c x01 x00 x00 x01 x00 x00 x00)
(L (W xf2 xc9 xfe xff x00 x00 x80 x3f))
(L (W x01 x00 x00 x00 x00 x00 x80 x3f)))
(T (W x55 x6c xfc xf1 x99 x9e xc9 x88)
(L (W x74 x00 x00 x00 x68 x00 x00 x00)) E))
(T (W x40 x00 x00 x00 x38 x00 x00 x00)
(T (W x3c x01 x00 x00 x30 x01 x00 x00)
(L (W x45 x26 x22 x84 xe4 x9c xf2 xcb)) E)
(T (W x74 x8a xfe xff xf6 x89 xfe xff)
(L (W x00 x00 x80 x3f x00 x00 x80 x3f)) E))))))
(T (W x00 x00 x00 x00 x01 x00 x00 x00)
(T (W x00 x00 x00 x00 x78 xa6 xfc xff)
(T (W x00 x00 x80 x3f x00 x00 x80 x3f)
(T (W xa9 x60 x2e x97 x85 x1c x59 x5f)
(T (W x04 x00 x00 x00 x00 x00 x80 x3f)
(T (W x74 x00 x00 x00 x68 x00 x00 x00)
(L (W x00 x00 x00 x00 x78 x96 xfe xff))
(L (W x1c x99 xff xff x50 x00 x00 x00)))
(T (W x00 x00 x00 x00 x00 x00 x00 x00)
(L (W x01 x00 x00 x00 x04 x00 x00 x00)) E))
(T (W x00 x00 x80 x3f x02 x00 x00 x00)
(T (W x28 x00 x00 x00 x14 x00 x00 x00)
(L (W x45 x26 x22 x84 xe4 x9c xf2 xcb))
(L (W x60 x00 x00 x00 x54 x00 x00 x00)))
(T (W x45 x26 x22 x84 xe4 x9c xf2 xcb)
(L (W x1c x59 xff xff x50 x00 x00 x00)) E)))
(T (W x45 x26 x22 x84 xe4 x9c xf2 xcb)
(T (W x9a xd9 x2d x44 x00 x00 x00 x00)
(T (W x00 x00 x00 x00 x01 x00 x00 x00)
(L (W x78 x00 x00 x00 x6c x00 x00 x00))
(L (W x05 x63 x50 x11 x1e x1e xbd xc9)))
(T (W x00 x00 x00 x00 x00 x00 x00 x00)
(L (W xf2 x35 xff xff xcd xcc xfe x43)) E))
(T (W x45 x26 x22 x84 xe4 x9c xf2 xcb)
(T (W x04 x00 x00 x00 xb2 xfb xfd xff)
(L (W x00 x00 x00 x00 x00 x00 x00 x00))
(L (W x00 x00 x00 x00 x3a xfe xff xff)))
(T (W x00 x00 x80 x40 x24 x01 x00 x00)
(L (W x4b x5f x41 x52 x45 x41 x30 x32)) E))))
(T (W x04 x00 x00 x00 x00 x00 x00 x00)
(T (W x00 x00 x00 x00 x00 x00 x00 x00)
(T (W x40 x00 x00 x00 x38 x00 x00 x00)
(T (W x45 x26 x22 x84 xe4 x9c xf2 xcb)
(L (W x00 x00 x80 xbf x9c x00 x00 x00))
(L (W x45 x26 x22 x84 xe4 x9c xf2 xcb)))
(T (W x45 x26 x22 x84 xe4 x9c xf2 xcb)
(L (W x00 x00 x00 x00 x01 x00 x00 x00)) E))
(T (W x28 x00 x00 x00 x14 x00 x00 x00)
(T (W x44 x00 x00 x00 x38 x00 x00 x00)
(L (W x72 x86 x83 xf3 x1d x31 x57 x95))
(L (W x45 x26 x22 x84 xe4 x9c xf2 xcb)))
(T (W x01 x00 x00 x00 x00 x00 x80 x3f)
(L (W x40 x00 x00 x00 x38 x00 x00 x00)) E)))
(T (W x04 x00 x00 x00 x60 x06 xfd xff)
(T (W x00 x00 x00 x00 x00 x00 x00 x00)
(T (W x00 x00 x80 x3f x78 xc6 xfd xff)
(L (W x00 x00 x00 x00 x00 x00 x00 x00))
(L (W x00 x00 x00 x00 x00 x00 x00 x00)))
(T (W x74 x00 x00 x00 x68 x00 x00 x00)
(L (W x45 x26 x22 x84 xe4 x9c xf2 xcb)) E))
(T (W x45 x26 x22 x84 xe4 x9c xf2 xcb)
(T (W x00 x00 x00 x00 x00 x00 x00 x00)
(L (W x00 x00 x00 x00 x00 x00 x00 x00)) E)
(T (W x74 x86 xfe xff x00 x00 x00 x00)
(L (W x74 x86 xff xff x00 x00 x00 x00)) E)))))
(T (W x00 x00 x00 x00 x00 x00 x00 x00)
(T (W x6a xa2 xff xff x00 x00 x00 x01)
(T (W x78 x00 x00 x00 x6c x00 x00 x00)
(T (W x45 x26 x22 x84 xe4 x9c xf2 xcb)
(T (W x00 x00 xa0 x40 x24 x01 x00 x00)
(L (W x5c x00 x00 x00 x50 x00 x00 x00))
(L (W x00 x00 x00 x00 x00 x00 x00 x00)))
(T (W x00 x00 x00 x00 x00 x00 x00 x00)
(L (W x28 x00 x00 x00 x14 x00 x00 x00)) E))
(T (W x40 x00 x00 x00 x34 x00 x00 x00)
(T (W x01 x00 x00 x00 x00 x00 x80 x3f)
(L (W x44 x00 x00 x00 x30 x00 x00 x00))
(L (W x28 x01 x00 x00 x20 x01 x00 x00)))
(T (W x04 x00 x00 x00 x60 x5e xfe xff)
(L (W x45 x26 x22 x84 xe4 x9c xf2 xcb)) E)))
(T (W x2c x00 x00 x00 x20 x00 x00 x00)
(T (W x34 x00 x00 x00 x20 x00 x00 x00)
(T (W x00 x00 x00 x00 x00 x00 x00 x00)
(L (W x00 x00 x80 xbf x9c x00 x00 x00))
(L (W x00 x00 x00 x00 x00 x00 x00 x00)))
(T (W x45 x26 x22 x84 xe4 x9c xf2 xcb)
(L (W x49 x06 x3f xe3 x48 xac x21 x26)) E))
(T (W x45 x26 x22 x84 xe4 x9c xf2 xcb)
(T (W x00 x00 x00 x00 x00 x00 x00 x00)
(L (W x45 x26 x22 x84 xe4 x9c xf2 xcb))
(L (W x00 x00 x32 x00 x54 x00 x3c x00)))
(T (W x01 x00 x00 x00 x04 x00 x00 x00)
(L (W x45 x26 x22 x84 xe4 x9c xf2 xcb)) E))))
(T (W x45 x26 x22 x84 xe4 x9c xf2 xcb)
(T (W x00 x00 x80 xbf x00 x00 x80 xbf)
(T (W x6a xc0 x1c x76 x80 xbe xf7 x18)
(T (W x28 x00 x00 x00 x14 x00 x00 x00)
(L (W x1c xb1 xfe xff x50 x00 x00 x00))
(L (W x45 x26 x22 x84 xe4 x9c xf2 xcb)))
(T (W x74 x2e xfe xff x00 x00 x00 x00)
(L (W x00 x00 x00 x00 x00 x00 x00 x00)) E))
(T (W x1c x01 x00 x00 x01 x00 x00 x00)
(T (W xf2 xed xfd xff x00 x00 x80 x3f)
(L (W x44 x00 x00 x00 x38 x00 x00 x00))
(L (W x00 x00 x00 x00 x00 x00 x00 x00)))
(T (W x45 x26 x22 x84 xe4 x9c xf2 xcb)
(L (W x00 x00 x00 x00 x00 x00 x00 x00)) E)))
(T (W x00 x00 x00 x00 x00 x00 x00 x00)
(T (W x5f x4e x45 x57 x5f x4f x55 x54)
(T (W x45 x26 x22 x84 xe4 x9c xf2 xcb)
(L (W x00 x00 x40 x40 x24 x01 x00 x00))
(L (W x45 x26 x22 x84 xe4 x9c xf2 xcb)))
(T (W x00 x00 x00 x00 x00 x00 x00 x00)
(L (W x00 x00 x00 x00 x00 x00 x00 x00)) E))
(T (W x45 x26 x22 x84 xe4 x9c xf2 xcb)
(T (W x00 x00 x00 x00 x01 x00 x00 x00)
(L (W x3c x01 x00 x00 x30 x01 x00 x00)) E)
(T (W x1c x01 x00 x00 x01 x00 x00 x00)
(L (W x00 x00 x80 xbf x9c x00 x00 x00)) E)))))))
(T (W x04 x00 x00 x00 x00 x00 x80 x3f)
(T (W x45 x26 x22 x84 xe4 x9c xf2 xcb)
(T (W x45 x26 x22 x84 xe4 x9c xf2 xcb)
(T (W x49 xa1 x68 x4a xeb x5f xdd x3d)
(T (W x1c xd7 xfc xff x50 x00 x00 x00)
(T (W x3c x01 x00 x00 x30 x01 x00 x00)
(T (W x00 x00 x00 x00 x00 x00 x00 x00)
(L (W x45 x26 x22 x84 xe4 x9c xf2 xcb))
(L (W x45 x26 x22 x84 xe4 x9c xf2 xcb)))
(T (W x45 x26 x22 x84 xe4 x9c xf2 xcb)
(L (W x45 x26 x22 x84 xe4 x9c xf2 xcb)) E))
(T (W x34 x01 x00 x00 x00 x00 x40 x40)
(T (W x00 x00 x00 x00 x78 xd4 xfd xff)
(L (W x40 x00 x00 x00 x38 x00 x00 x00))
(L (W x00 x00 x00 x00 x00 x00 x00 x00)))
(T (W x04 x00 x00 x00 xb2 x59 xfe xff)
(L (W x45 x26 x22 x84 xe4 x9c xf2 xcb)) E)))
(T (W x04 x00 x00 x00 xb2 xf9 xfc xff)
(T (W x00 x00 x80 x3f x00 x00 x80 x3f)
(T (W xf7 x15 x7a x1e x15 x36 x03 x15)
(L (W x04 x00 x00 x00 x98 xb6 xfe xff))
(L (W xd3 x58 x50 x11 x1e x18 xbd xc9)))
(T (W x3d x0a x1d x42 xf6 x08 x17 x44)
(L (W x00 x00 x00 x00 xf6 x33 xff xff)) E))
(T (W x04 x00 x00 x00 x00 x00 x00 x00)
(T (W x00 x00 x00 x00 x01 x00 x00 x00)
(L (W x45 x26 x22 x84 xe4 x9c xf2 xcb))
(L (W xf2 xf3 xff xff x33 x33 xa4 x43)))
(T (W x00 x00 x00 x00 x00 x00 x00 x00)
(L (W x9a xd9 x3c x44 x00 x00 x00 x00)) E))))
(T (W x90 xbf x43 xf6 x09 x78 xaf x70)
(T (W xf2 xe3 xfc xff x0a x97 xb3 x43)
(T (W x04 x00 x00 x00 xb2 x29 xfd xff)
(T (W x04 x00 x00 x00 xb2 xa9 xfd xff)
(L (W x1c x01 x00 x00 x01 x00 x00 x00))
(L (W x00 x00 x00 x00 x01 x00 x00 x00)))
(T (W x45 x26 x22 x84 xe4 x9c xf2 xcb)
(L (W x00 x00 x80 xbf x9c x00 x00 x00)) E))
(T (W x00 x00 x00 x00 x78 x64 xfd xff)
(T (W x45 x26 x22 x84 xe4 x9c xf2 xcb)
(L (W x00 x00 x80 xbf x00 x00 x80 xbf))
(L (W x00 x00 x00 x00 x01 x00 x00 x00)))
(T (W x00 x00 x00 x00 x00 x00 x00 x00)
(L (W xd8 xc4 x0d xcf x2c xd9 x13 xe7)) E)))
(T (W x00 x00 x00 x00 x78 x04 xfd xff)
(T (W x44 x00 x00 x00 x38 x00 x00 x00)
(T (W x48 x00 x00 x00 x34 x00 x00 x00)
(L (W x1c xc7 xfe xff x50 x00 x00 x00))
(L (W xf2 xc3 xff xff x1f x25 xad x43)))
(T (W x00 x00 x00 x00 x00 x00 x00 x00)
(L (W x00 x00 x00 x00 x78 x44 xff xff)) E))
(T (W x34 x00 x00 x00 x20 x00 x00 x00)
(T (W x00 x00 x00 x00 x00 x00 x00 x00)
(L (W x90 x07 xb9 x28 xbf xc9 x67 x6a)) E)
(T (W x74 x84 xfe xff x00 x00 x00 x00)
(L (W x00 x00 x00 x00 x00 x00 x00 x00)) E)))))
(T (W x00 x00 x00 x00 x00 x00 x00 x00)
(T (W x5f x4f x55 x54 x42 x52 x45 x41)
(T (W x74 xdc xfc xff x00 x00 x00 x00)
(T (W x34 x00 x00 x00 x20 x00 x00 x00)
(T (W x9a x09 x46 x44 x00 x00 x00 x00)
(L (W x00 x00 x00 x00 x00 x00 x00 x00))
(L (W xf2 x9b xff xff x00 x00 x80 x3f)))
(T (W xf2 x1b xfe xff xd7 xb3 x5c x44)
(L (W x04 x00 x00 x00 x98 x1e xff xff)) E))
(T (W x45 x26 x22 x84 xe4 x9c xf2 xcb)
(T (W x3c x01 x00 x00 x30 x01 x00 x00)
(L (W x00 x00 x00 x00 x00 x00 x00 x00))
(L (W x1c x00 x20 x00 x00 x00 x00 x00)))
(T (W x00 x00 x00 x00 x78 x5c xfe xff)
(L (W x48 x00 x00 x00 x34 x00 x00 x00)) E)))
(T (W x01 x00 x00 x00 x04 x00 x00 x00)
(T (W x00 x00 x00 x00 x3a x44 xfd xff)
(T (W x45 x26 x22 x84 xe4 x9c xf2 xcb)
(L (W x00 x00 x00 x00 x00 x00 x00 x00))
(L (W x2c x00 x00 x00 x20 x00 x00 x00)))
(T (W x45 x26 x22 x84 xe4 x9c xf2 xcb)
(L (W x01 x00 x00 x00 x00 x00 x80 x3f)) E))
(T (W x00 x00 x00 x00 x01 x00 x00 x00)
(T (W x2c x00 x00 x00 x20 x00 x00 x00)
(L (W x45 x26 x22 x84 xe4 x9c xf2 xcb))
(L (W x00 x00 x24 x00 x28 x00 x2c x00)))
(T (W x45 x26 x22 x84 xe4 x9c xf2 xcb)
(L (W x45 x26 x22 x84 xe4 x9c xf2 xcb)) E))))
(T (W x54 x00 x00 x00 x48 x00 x00 x00)
(T (W x00 x00 xe0 x40 x24 x01 x00 x00)
(T (W x74 x2c xfd xff x00 x00 x00 x00)
(T (W x00 x00 x00 x00 x78 xac xfd xff)
(L (W x74 xac xfe xff x00 x00 x00 x00))
(L (W x74 xac xff xff x00 x00 x00 x00)))
(T (W x5f x4e x45 x57 x5f x4f x55 x54)
(L (W x45 x26 x22 x84 xe4 x9c xf2 xcb)) E))
(T (W x00 x00 x00 x00 x3a x74 xfd xff)
(T (W x04 x00 x00 x00 x98 xee xfd xff)
(L (W x45 x26 x22 x84 xe4 x9c xf2 xcb))
(L (W x1c xef xff xff x50 x00 x00 x00)))
(T (W x00 x00 x00 x00 x78 x6c xfe xff)
(L (W x49 x65 xff x4b x84 x98 x7b x61)) E)))
(T (W x00 x00 x80 x3f x78 x0c xfd xff)
(T (W x52 x38 x6d x43 xc3 x75 x8a x42)
(T (W x45 x26 x22 x84 xe4 x9c xf2 xcb)
(L (W xae x47 x86 x43 x00 x00 x00 x00))
(L (W x00 x00 x00 x00 x01 x00 x00 x00)))
(T (W xf2 x4b xfe xff xcd x4c x58 x44)
(L (W x00 x00 x80 x3f x00 x00 x80 x3f)) E))
(T (W x45 x26 x22 x84 xe4 x9c xf2 xcb)
(T (W x34 x00 x00 x00 x20 x00 x00 x00)
(L (W x00 x00 x00 x00 x00 x00 x00 x00)) E)
(T (W x00 x00 x00 x00 x3a x94 xfe xff)
(L (W x00 x00 x00 x00 x00 x00 x00 x00)) E))))))
(T (W x40 x00 x00 x00 x38 x00 x00 x00)
(T (W x44 x00 x00 x00 x38 x00 x00 x00)
(T (W xa4 x70 x2c x44 x00 x00 x00 x00)
(T (W x00 x00 x00 x00 x00 x00 x00 x00)
(T (W x34 x00 x00 x00 x20 x00 x00 x00)
(T (W x55 x39 x81 x6a xc4 xc7 x74 x14)
(L (W x01 x00 x00 x00 x04 x00 x00 x00))
(L (W x00 x00 x00 x00 x00 x00 x00 x00)))
(T (W x00 x00 x00 x00 x78 x18 xfe xff)
(L (W x00 x00 x00 x00 x00 x00 x00 x00)) E))
(T (W x34 x00 x00 x00 x20 x00 x00 x00)
(T (W x52 x18 x20 x44 x00 x00 x00 x00)
(L (W x00 x00 x00 x00 x78 xd8 xfe xff))
(L (W x45 x26 x22 x84 xe4 x9c xf2 xcb)))
(T (W x44 x00 x00 x00 x38 x00 x00 x00)
(L (W x00 x00 x00 x00 x00 x00 x00 x00)) E)))
(T (W x45 x26 x22 x84 xe4 x9c xf2 xcb)
(T (W x00 x00 x00 x00 x00 x00 x00 x00)
(T (W x45 x26 x22 x84 xe4 x9c xf2 xcb)
(L (W x2c x00 x00 x00 x18 x00 x00 x00))
(L (W x54 x00 x00 x00 x48 x00 x00 x00)))
(T (W x00 x00 x80 xbf x00 x00 x80 xbf)
(L (W x00 x00 x00 x00 x00 x00 x00 x00)) E))
(T (W x01 x00 x00 x00 x04 x00 x00 x00)
(T (W x45 x26 x22 x84 xe4 x9c xf2 xcb)
(L (W x1c x00 x00 x00 x46 x53 x59 x53))
(L (W x3c x01 x00 x00 x30 x01 x00 x00)))
(T (W x00 x00 x80 xbf x00 x00 x80 xbf)
(L (W x00 x00 x80 xbf x00 x00 x80 xbf)) E))))
(T (W x54 x00 x00 x00 x48 x00 x00 x00)
(T (W x1b x00 x00 x00 x57 x53 x59 x53)
(T (W x45 x26 x22 x84 xe4 x9c xf2 xcb)
(T (W x74 xa8 xfd xff x00 x00 x00 x00)
(L (W x45 x26 x22 x84 xe4 x9c xf2 xcb))
(L (W x00 x00 x00 x00 x78 xa8 xff xff)))
(T (W x74 x28 xfe xff x00 x00 x00 x00)
(L (W x45 x26 x22 x84 xe4 x9c xf2 xcb)) E))
(T (W x29 x5c x17 x42 xc3 xb5 x65 x44)
(T (W x45 x26 x22 x84 xe4 x9c xf2 xcb)
(L (W x00 x00 x00 x00 x01 x00 x00 x00))
(L (W x45 x26 x22 x84 xe4 x9c xf2 xcb)))
(T (W x00 x00 x00 x00 x01 x00 x00 x00)
(L (W x45 x26 x22 x84 xe4 x9c xf2 xcb)) E)))
(T (W x48 x00 x00 x00 x34 x00 x00 x00)
(T (W x00 x00 x00 x00 x00 x00 x00 x00)
(T (W x00 x00 x00 x00 x00 x00 x00 x00)
(L (W x04 x00 x00 x00 x98 xca xfe xff))
(L (W x00 x00 x00 x00 x3a xd0 xff xff)))
(T (W xd6 x81 x9c x94 x9b x27 x57 x25)
(L (W x00 x00 x00 x00 x00 x00 x00 x00)) E))
(T (W x00 x00 x00 x00 x01 x00 x00 x00)
(T (W x42 x52 x45 x41 x4b x5f x41 x52)
(L (W x44 x00 x00 x00 x30 x00 x00 x00)) E)
(T (W x5c x00 x00 x00 x50 x00 x00 x00)
(L (W x74 x00 x00 x00 x68 x00 x00 x00)) E)))))
(T (W x00 x00 x00 x00 x01 x00 x00 x00)
(T (W x1c x01 x00 x00 x04 x00 x00 x00)
(T (W x2c x00 x00 x00 x18 x00 x00 x00)
(T (W x58 xaa xa1 x20 x50 x79 x2a xff)
(T (W x8f xa4 x71 x1e x15 x25 xf9 x14)
(L (W x74 xa0 xfe xff xf6 x9f xfe xff))
(L (W x5f x4e x45 x57 x5f x4f x55 x54)))
(T (W x00 x00 x00 x00 x3a x28 xfe xff)
(L (W xcd x6c x00 x44 x00 x00 x00 x00)) E))
(T (W x2c x00 x00 x00 x20 x00 x00 x00)
(T (W x00 x00 x00 x00 x01 x00 x00 x00)
(L (W xf2 xdf xfe xff x00 x00 x80 x3f))
(L (W x00 x00 x80 xbf x00 x00 x80 xbf)))
(T (W x48 x00 x00 x00 x34 x00 x00 x00)
(L (W x00 x00 x00 x00 x00 x00 x00 x00)) E)))
(T (W x45 x26 x22 x84 xe4 x9c xf2 xcb)
(T (W x04 x00 x00 x00 xb2 x45 xfd xff)
(T (W x00 x00 x00 x00 x78 xc0 xfd xff)
(L (W x00 x00 x00 x00 x01 x00 x00 x00))
(L (W x00 x00 x00 x00 x01 x00 x00 x00)))
(T (W x00 x00 x00 x00 x78 x40 xfe xff)
(L (W x54 x00 x00 x00 x48 x00 x00 x00)) E))
(T (W x00 x00 x00 x00 x00 x00 x00 x00)
(T (W x5c x00 x00 x00 x50 x00 x00 x00)
(L (W x45 x26 x22 x84 xe4 x9c xf2 xcb))
(L (W x00 x00 x80 x3f x04 x00 x06 x00)))
(T (W x2c x00 x00 x00 x20 x00 x00 x00)
(L (W x44 x00 x00 x00 x38 x00 x00 x00)) E))))
(T (W x45 x26 x22 x84 xe4 x9c xf2 xcb)
(T (W x4b x50 xb7 x4b xbc xb3 xfd xea)
(T (W x00 x00 x00 x00 x00 x00 x00 x00)
(T (W xa4 x40 x51 x44 x00 x00 x00 x00)
(L (W x00 x00 x00 x00 x00 x00 x00 x00))
(L (W xcd xcc x12 x42 x33 x13 x20 x44)))
(T (W x55 x39 x81 x6a xc4 xc7 x74 x14)
(L (W x00 x00 x00 x00 x78 x30 xff xff)) E))
(T (W x00 x00 x80 xbf x9c x00 x00 x00)
(T (W x00 x00 x00 x00 x00 x00 x00 x00)
(L (W x00 x00 x00 x00 x00 x00 x00 x00))
(L (W x04 x00 x00 x00 x98 xf2 xff xff)))
(T (W x74 x70 xfe xff x00 x00 x00 x00)
(L (W x00 x00 x00 x00 x01 x00 x00 x00)) E)))
(T (W x01 x00 x00 x00 x38 x00 x00 x00)
(T (W x00 x00 x00 x00 x3a x58 xfd xff)
(T (W x74 xd0 xfd xff x00 x00 x00 x00)
(L (W x39 x62 x81 x57 x3e xeb xa0 x5e))
(L (W x45 x26 x22 x84 xe4 x9c xf2 xcb)))
(T (W x01 x00 x00 x00 x00 x00 x80 x3f)
(L (W x00 x00 x80 xbf x9c x00 x00 x00)) E))
(T (W x2c x00 x00 x00 x20 x00 x00 x00)
(T (W x45 x26 x22 x84 xe4 x9c xf2 xcb)
(L (W x9d xe8 x09 xfe x1d x8b x80 xa7)) E)
(T (W x45 x26 x22 x84 xe4 x9c xf2 xcb)
(L (W x00 x00 x00 x00 x01 x00 x00 x00)) E))))))))))
(T (W x34 x14 x03 x00 x68 x12 x03 x00)
(T (W x50 xd9 x02 x00 x68 xd7 x02 x00)
(T (W x7c x63 x02 x00 x90 x61 x02 x00)
(T (W x08 x77 x01 x00 x34 x75 x01 x00)
(T (W x44 x00 x00 x00 x38 x00 x00 x00)
(T (W x00 x00 x00 x00 x01 x00 x00 x00)
(T (W x1c x01 x00 x00 x04 x00 x00 x00)
(T (W x2c x00 x00 x00 x18 x00 x00 x00)
(T (W x45 x26 x22 x84 xe4 x9c xf2 xcb)
(T (W x00 x00 x00 x00 x00 x00 x00 x00)
(L (W x00 x00 x00 x00 x00 x00 x00 x00))
(L (W x00 x00 x00 x00 x00 x00 x00 x00)))
(T (W x60 x00 x00 x00 x54 x00 x00 x00)
(L (W x45 x26 x22 x84 xe4 x9c xf2 xcb)) E))
(T (W x34 x51 xfd xff x00 x00 x00 x00)
(T (W xb2 xd0 xfd xff x00 x00 x80 x3f)
(L (W x00 x00 x00 x00 x00 x00 x00 x00))
(L (W x45 x26 x22 x84 xe4 x9c xf2 xcb)))
(T (W x44 x00 x00 x00 x38 x00 x00 x00)
(L (W x0e xa7 xaa x28 xbf xd4 x56 x6a)) E)))
(T (W x45 x26 x22 x84 xe4 x9c xf2 xcb)
(T (W x00 x00 xa0 x41 x24 x01 x00 x00)
(T (W x45 x26 x22 x84 xe4 x9c xf2 xcb)
(L (W x00 x00 x00 x00 xfa xb8 xfe xff))
(L (W x45 x26 x22 x84 xe4 x9c xf2 xcb)))
(T (W x6f x9a x3f xcc x26 x39 x98 x96)
(L (W x3c x01 x00 x00 x30 x01 x00 x00)) E))
(T (W xd3 x3a x45 xdc x00 xd5 x55 x2f)
(T (W x45 x26 x22 x84 xe4 x9c xf2 xcb)
(L (W xe2 xf4 xfe xff x40 x01 x00 x00))
(L (W xb7 xf8 xc9 xec xcb x34 xb0 x99)))
(T (W x00 x00 x80 xbf x9c x00 x00 x00)
(L (W x00 x00 x80 xbf x9c x00 x00 x00)) E))))
(T (W xdc xc3 xfc xff x50 x00 x00 x00)
(T (W xd4 x69 xba x4b xbc x39 x01 xeb)
(T (W x45 x26 x22 x84 xe4 x9c xf2 xcb)
(T (W x45 x26 x22 x84 xe4 x9c xf2 xcb)
(L (W x45 x26 x22 x84 xe4 x9c xf2 xcb))
(L (W x45 x26 x22 x84 xe4 x9c xf2 xcb)))
(T (W x34 x21 xfe xff x00 x00 x00 x00)
(L (W x40 x00 x00 x00 x38 x00 x00 x00)) E))
(T (W x00 x00 x00 x00 x00 x00 x00 x00)
(T (W x00 x00 x00 x00 x00 x00 x00 x00)
(L (W x54 x00 x00 x00 x48 x00 x00 x00))
(L (W x2c x00 x00 x00 x20 x00 x00 x00)))
(T (W x34 x00 x00 x00 x20 x00 x00 x00)
(L (W x45 x26 x22 x84 xe4 x9c xf2 xcb)) E)))
(T (W x02 x00 x00 x00 x31 x36 x00 x00)
(T (W x00 x00 x00 x00 x38 x41 xfd xff)
(T (W x34 x01 x00 x00 x00 x00 x80 x40)
(L (W x00 x00 x00 x00 x00 x00 x00 x00))
(L (W x01 x00 x00 x00 x00 x00 x80 x3f)))
(T (W x00 x00 x80 x3f x00 x00 x80 x3f)
(L (W x34 x41 xff xff x00 x00 x00 x00)) E))
(T (W x45 x26 x22 x84 xe4 x9c xf2 xcb)
(T (W x45 x26 x22 x84 xe4 x9c xf2 xcb)
(L (W x48 x00 x00 x00 x34 x00 x00 x00)) E)
(T (W x00 x00 x00 x00 x00 x00 x00 x00)
(L (W x00 x60 x2e x44 x00 x00 x00 x00)) E)))))
(T (W x66 x36 x0e x44 x00 x00 x00 x00)
(T (W x54 x00 x00 x00 x48 x00 x00 x00)
(T (W x1b x00 x00 x00 x57 x53 x59 x53)
(T (W x45 x26 x22 x84 xe4 x9c xf2 xcb)
(T (W x2e xc5 x40 x1b xbc xb7 x06 xf7)
(L (W x00 x00 x80 x3f x38 x99 xfe xff))
(L (W x3c x01 x00 x00 x30 x01 x00 x00)))
(T (W x00 x00 x80 x3f x02 x00 x00 x00)
(L (W x57 x53 x59 x53 x5f x4d x41 x53)) E))
(T (W x45 x26 x22 x84 xe4 x9c xf2 xcb)
(T (W x45 x26 x22 x84 xe4 x9c xf2 xcb)
(L (W x00 x00 x80 x3f x00 x00 x80 x3f))
(L (W x00 x00 x00 x00 x01 x00 x00 x00)))
(T (W xc3 x75 xad x42 xae xc7 xc3 x43)
(L (W x5f x4e x45 x57 x5f x4f x55 x54)) E)))
(T (W x48 x00 x00 x00 x34 x00 x00 x00)
(T (W x45 x26 x22 x84 xe4 x9c xf2 xcb)
(T (W x74 x00 x00 x00 x68 x00 x00 x00)
(L (W x00 x00 x00 x00 x01 x00 x00 x00))
(L (W x34 xb9 xff xff x00 x00 x00 x00)))
(T (W x2c x00 x00 x00 x20 x00 x00 x00)
(L (W x45 x26 x22 x84 xe4 x9c xf2 xcb)) E))
(T (W x34 x79 xfd xff xb6 x78 xfd xff)
(T (W x04 x00 x00 x00 x20 xf9 xfd xff)
(L (W x45 x26 x22 x84 xe4 x9c xf2 xcb))
(L (W x00 x00 x00 x00 x38 xf9 xff xff)))
(T (W x2c x00 x00 x00 x20 x00 x00 x00)
(L (W x2c x00 x00 x00 x20 x00 x00 x00)) E))))
(T (W x34 xc9 xfc xff x00 x00 x00 x00)
(T (W x45 x26 x22 x84 xe4 x9c xf2 xcb)
(T (W x74 x00 x00 x00 x68 x00 x00 x00)
(T (W xb2 xa8 xfd xff x00 x00 x80 x3f)
(L (W x00 x00 x00 x00 x00 x00 x00 x00))
(L (W x00 x00 x80 x3f x00 x00 x80 x3f)))
(T (W xb2 x28 xfe xff x00 x00 x80 x3f)
(L (W x04 x00 x00 x00 x58 x2b xff xff)) E))
(T (W x45 x26 x22 x84 xe4 x9c xf2 xcb)
(T (W x00 x00 x00 x00 x00 x00 x00 x00)
(L (W x00 x00 x00 x00 x00 x00 x00 x00))
(L (W x28 x00 x00 x00 x14 x00 x00 x00)))
(T (W x00 x00 x00 x00 x00 x00 x00 x00)
(L (W x44 x00 x00 x00 x30 x00 x00 x00)) E)))
(T (W x34 x00 x00 x00 x20 x00 x00 x00)
(T (W x02 x00 x00 x00 x00 x00 x80 x3f)
(T (W x45 x26 x22 x84 xe4 x9c xf2 xcb)
(L (W x22 x94 x89 xf3 x1d x27 x5e x95))
(L (W x34 xc9 xff xff x00 x00 x00 x00)))
(T (W x45 x26 x22 x84 xe4 x9c xf2 xcb)
(L (W x00 x00 x40 x40 x24 x01 x00 x00)) E))
(T (W x00 x00 x00 x00 x00 x00 x00 x00)
(T (W x45 x26 x22 x84 xe4 x9c xf2 xcb)
(L (W x34 x00 x00 x00 x20 x00 x00 x00)) E)
(T (W x45 x26 x22 x84 xe4 x9c xf2 xcb)
(L (W x51 x7e xa1 x36 xd4 x39 x96 x36)) E))))))
(T (W x00 x00 x00 x00 x00 x00 x00 x00)
(T (W x49 xa1 x68 x4a xeb x5f xdd x3d)
(T (W xa3 x12 x19 xf6 x38 x6e x62 x0d)
(T (W xb2 xd4 xfc xff x7b xf4 xb4 x43)
(T (W x00 x00 x00 x00 x38 x15 xfd xff)
(T (W x00 x00 xc0 x40 x24 x01 x00 x00)
(L (W x48 x00 x00 x00 x34 x00 x00 x00))
(L (W x44 x00 x00 x00 x30 x00 x00 x00)))
(T (W x02 x00 x00 x00 x32 x37 x00 x00)
(L (W x5c x00 x00 x00 x50 x00 x00 x00)) E))
(T (W x00 x00 x00 x00 x38 x55 xfd xff)
(T (W x00 x00 x80 xbf x00 x00 x80 xbf)
(L (W x00 x00 x00 x00 x01 x00 x00 x00))
(L (W x1c x01 x00 x00 x01 x00 x00 x00)))
(T (W x00 x00 x00 x00 x38 x55 xfe xff)
(L (W x44 x00 x00 x00 x30 x00 x00 x00)) E)))
(T (W x00 x00 x00 x00 x38 xf5 xfc xff)
(T (W x04 x00 x00 x00 x00 x00 x00 x00)
(T (W x45 x26 x22 x84 xe4 x9c xf2 xcb)
(L (W x00 x00 x80 xbf x00 x00 x80 xbf))
(L (W x45 x26 x22 x84 xe4 x9c xf2 xcb)))
(T (W x54 x00 x00 x00 x48 x00 x00 x00)
(L (W x00 x00 x00 x00 x01 x00 x00 x00)) E))
(T (W x00 x00 x00 x00 x00 x00 x00 x00)
(T (W x00 x00 x00 x00 x00 x00 x00 x00)
(L (W x04 x00 x00 x00 x72 xfa xfe xff))
(L (W x45 x26 x22 x84 xe4 x9c xf2 xcb)))
(T (W x45 x26 x22 x84 xe4 x9c xf2 xcb)
(L (W x45 x26 x22 x84 xe4 x9c xf2 xcb)) E))))
(T (W x00 x00 x00 x00 x00 x00 x00 x00)
(T (W x04 x00 x00 x00 x72 xea xfc xff)
(T (W x00 x00 x00 x00 x38 x25 xfd xff)
(T (W x00 x00 x00 x00 x38 xa5 xfd xff)
(L (W xdc xa7 xfe xff x50 x00 x00 x00))
(L (W x00 x00 x00 x00 x00 x00 x00 x00)))
(T (W x00 x00 x00 x00 x00 x00 x00 x00)
(L (W x39 x3e x45 xdc x00 xd7 x55 x2f)) E))
(T (W x00 x00 x80 xbf x00 x00 x80 xbf)
(T (W x28 x00 x00 x00 x14 x00 x00 x00)
(L (W x2c x00 x00 x00 x20 x00 x00 x00))
(L (W x00 x00 x00 x00 x00 x00 x00 x00)))
(T (W x45 x26 x22 x84 xe4 x9c xf2 xcb)
(L (W x00 x00 x00 x00 x00 x00 x00 x00)) E)))
(T (W x3c x01 x00 x00 x30 x01 x00 x00)
(T (W xd7 xa3 x4b x42 x29 xac x33 x44)
(T (W x62 xe1 x1b x72 x9d x0e xa7 xbe)
(L (W x5c x8f xd4 x43 x00 x80 xc9 x42))
(L (W x04 x00 x00 x00 x72 xca xff xff)))
(T (W x00 x00 x80 x40 x24 x01 x00 x00)
(L (W x00 x00 x80 x3f x00 x00 x80 x3f)) E))
(T (W x45 x26 x22 x84 xe4 x9c xf2 xcb)
(T (W x40 x00 x00 x00 x38 x00 x00 x00)
(L (W x00 x00 x00 x00 x00 x00 x00 x00)) E)
(T (W x00 x00 xa0 x40 x3c x01 x00 x00)
(L (W x45 x41 x30 x32 x5f x30 x30 x35)) E)))))
(T (W x5f x4f x55 x54 x42 x52 x45 x41)
(T (W x45 x26 x22 x84 xe4 x9c xf2 xcb)
(T (W x00 x00 xe0 x40 x24 x01 x00 x00)
(T (W x45 x26 x22 x84 xe4 x9c xf2 xcb)
(T (W x45 x26 x22 x84 xe4 x9c xf2 xcb)
(L (W x1c x01 x00 x00 x01 x00 x00 x00))
(L (W x54 x00 x00 x00 x48 x00 x00 x00)))
(T (W x04 x00 x00 x00 x72 x22 xfe xff)
(L (W x00 x00 x80 xbf x00 x00 x80 xbf)) E))
(T (W x28 x00 x00 x00 x14 x00 x00 x00)
(T (W x00 x00 x00 x00 x38 xdd xfd xff)
(L (W x01 x00 x00 x00 x00 x00 x80 x3f))
(L (W x45 x26 x22 x84 xe4 x9c xf2 xcb)))
(T (W x3c x01 x00 x00 x30 x01 x00 x00)
(L (W x34 x00 x00 x00 x20 x00 x00 x00)) E)))
(T (W x00 x00 x80 x3f x38 xfd xfc xff)
(T (W x34 x3d xfd xff x00 x00 x00 x00)
(T (W x00 x00 x00 x00 x00 x00 x00 x00)
(L (W x00 x00 x00 x00 x38 xbd xfe xff))
(L (W x00 x00 x00 x00 x00 x00 x00 x00)))
(T (W x60 x00 x00 x00 x54 x00 x00 x00)
(L (W x44 x00 x00 x00 x38 x00 x00 x00)) E))
(T (W x34 x00 x00 x00 x20 x00 x00 x00)
(T (W x00 x00 x00 x00 x00 x00 x00 x00)
(L (W x00 x00 x00 x00 x00 x00 x00 x00))
(L (W x45 x26 x22 x84 xe4 x9c xf2 xcb)))
(T (W x5c x00 x00 x00 x50 x00 x00 x00)
(L (W x78 x00 x00 x00 x6c x00 x00 x00)) E))))
(T (W x34 xcd xfc xff x00 x00 x00 x00)
(T (W x01 x00 x00 x00 x04 x00 x00 x00)
(T (W x00 x00 x00 x00 xb6 x2c xfd xff)
(T (W x00 x00 x80 xbf x00 x00 x80 xbf)
(L (W x00 x00 x00 x00 xb6 xac xfe xff))
(L (W x00 x00 x80 xbf x9c x00 x00 x00)))
(T (W x54 x49 x4f x4e x5f x41 x52 x45)
(L (W x00 x00 x00 x00 x00 x00 x00 x00)) E))
(T (W x34 x6d xfd xff x00 x00 x00 x00)
(T (W x98 xba xf3 x13 x15 xe0 xd9 x02)
(L (W x28 x00 x00 x00 x14 x00 x00 x00))
(L (W x66 xe6 x4d x44 x00 x00 x6c x42)))
(T (W x00 x00 x80 x3f x00 x00 x80 x3f)
(L (W x00 x00 x00 x00 x00 x00 x00 x00)) E)))
(T (W x00 x00 x00 x00 x01 x00 x00 x00)
(T (W x45 x26 x22 x84 xe4 x9c xf2 xcb)
(T (W x00 x00 x00 x00 x00 x00 x00 x00)
(L (W x45 x26 x22 x84 xe4 x9c xf2 xcb))
(L (W x00 x00 x00 x00 x00 x00 x00 x00)))
(T (W x04 x00 x00 x00 x72 x52 xfe xff)
(L (W x40 x00 x00 x00 x38 x00 x00 x00)) E))
(T (W x60 x00 x00 x00 x54 x00 x00 x00)
(T (W x45 x26 x22 x84 xe4 x9c xf2 xcb)
(L (W x45 x26 x22 x84 xe4 x9c xf2 xcb)) E)
(T (W x34 x8d xfe xff x00 x00 x00 x00)
(L (W x00 x00 x00 x00 x38 x8d xff xff)) E)))))))
(T (W xf4 x88 x00 x00 xe8 x86 x00 x00)
(T (W x45 x26 x22 x84 xe4 x9c xf2 xcb)
(T (W x5c x00 x00 x00 x50 x00 x00 x00)
(T (W x00 x00 x80 xbf x9c x00 x00 x00)
(T (W x00 x00 x00 x00 xb6 xd2 xfc xff)
(T (W x45 x26 x22 x84 xe4 x9c xf2 xcb)
(T (W x00 x00 x00 x00 x00 x00 x00 x00)
(L (W x04 x00 x00 x00 x20 x93 xfe xff))
(L (W x04 x00 x00 x00 x20 x93 xff xff)))
(T (W x00 x00 x80 x3f x00 x00 x80 x3f)
(L (W x00 x00 x00 x00 x00 x00 x00 x00)) E))
(T (W x00 x00 x00 x00 x38 x53 xfd xff)
(T (W x00 x00 x00 x00 x00 x00 x00 x00)
(L (W x00 x00 x00 x00 x00 x00 x00 x00))
(L (W x00 x00 x00 x00 x00 x00 x00 x00)))
(T (W x45 x26 x22 x84 xe4 x9c xf2 xcb)
(L (W x00 x00 x00 x00 x00 x00 x00 x00)) E)))
(T (W x00 x00 x00 x00 x00 x00 x00 x00)
(T (W x0f x87 x52 xf0 x12 xfa xab xe1)
(T (W x01 x00 x00 x00 x04 x00 x00 x00)
(L (W x01 x00 x00 x00 x00 x00 x80 x3f))
(L (W x00 x00 x00 x00 x38 xb3 xff xff)))
(T (W x04 x00 x00 x00 x00 x00 x00 x00)
(L (W x2c x6a x89 xe8 x48 xd5 x3e x2f)) E))
(T (W x00 x00 x00 x00 x00 x00 x00 x00)
(T (W x2c x00 x00 x00 x20 x00 x00 x00)
(L (W x34 x00 x00 x00 x20 x00 x00 x00))
(L (W x00 x00 x00 x00 x01 x00 x00 x00)))
(T (W x00 x00 x00 x00 x01 x00 x00 x00)
(L (W x04 x00 x00 x00 x00 x00 x00 x00)) E))))
(T (W x3f x7c x88 xaf x9a x1e x19 x7c)
(T (W x00 x00 x00 x00 x01 x00 x00 x00)
(T (W x55 x6c xfc xf1 x99 x9e xc9 x88)
(T (W x00 x00 x00 x00 x00 x00 x00 x00)
(L (W x45 x26 x22 x84 xe4 x9c xf2 xcb))
(L (W x44 x00 x00 x00 x38 x00 x00 x00)))
(T (W xdc x25 xfe xff x50 x00 x00 x00)
(L (W x00 x00 x00 x00 x38 x23 xff xff)) E))
(T (W x42 x52 x45 x41 x4b x5f x41 x52)
(T (W x78 x00 x00 x00 x6c x00 x00 x00)
(L (W x45 x26 x22 x84 xe4 x9c xf2 xcb))
(L (W x45 x26 x22 x84 xe4 x9c xf2 xcb)))
(T (W x04 x00 x00 x00 x72 x68 xfe xff)
(L (W xdc x65 xff xff x50 x00 x00 x00)) E)))
(T (W x4e x45 x52 x41 x54 x49 x4f x4e)
(T (W x28 x00 x00 x00 x14 x00 x00 x00)
(T (W x01 x00 x00 x00 x00 x00 x80 x3f)
(L (W x44 x00 x00 x00 x30 x00 x00 x00))
(L (W x00 x00 x00 x00 x01 x00 x00 x00)))
(T (W x00 x00 x00 x00 x00 x00 x00 x00)
(L (W x55 x39 x81 x6a xc4 xc7 x74 x14)) E))
(T (W x44 x00 x00 x00 x38 x00 x00 x00)
(T (W x00 x00 x00 x00 x01 x00 x00 x00)
(L (W x45 x26 x22 x84 xe4 x9c xf2 xcb)) E)
(T (W x45 x41 x30 x32 x5f x30 x30 x36)
(L (W x33 x37 x00 x00 x1b x00 x00 x00)) E)))))
(T (W x00 x00 x00 x00 x00 x00 x00 x00)
(T (W x45 x26 x22 x84 xe4 x9c xf2 xcb)
(T (W x5f x41 x52 x45 x41 x30 x32 x00)
(T (W x00 x00 x00 x00 x00 x00 x00 x00)
(T (W x04 x00 x00 x00 x00 x00 x00 x00)
(L (W x00 x00 x00 x00 x00 x00 x00 x00))
(L (W x24 x6d x0e x0c x1e x04 xaa xc0)))
(T (W x00 x00 x00 x00 x01 x00 x00 x00)
(L (W x3c x01 x00 x00 x30 x01 x00 x00)) E))
(T (W x00 x00 x00 x00 x38 x5b xfd xff)
(T (W x45 x26 x22 x84 xe4 x9c xf2 xcb)
(L (W x00 x00 x00 x00 x00 x00 x00 x00))
(L (W x45 x26 x22 x84 xe4 x9c xf2 xcb)))
(T (W x00 x00 x00 x00 x00 x00 x00 x00)
(L (W x01 x00 x00 x00 x00 x00 x80 x3f)) E)))
(T (W x4f x84 x6f x8b xe8 xcb x63 xb7)
(T (W x45 x26 x22 x84 xe4 x9c xf2 xcb)
(T (W x00 x00 x80 x3f x00 x00 x80 x3f)
(L (W x45 x26 x22 x84 xe4 x9c xf2 xcb))
(L (W x45 x26 x22 x84 xe4 x9c xf2 xcb)))
(T (W x00 x00 x00 x00 x00 x00 x00 x00)
(L (W x45 x26 x22 x84 xe4 x9c xf2 xcb)) E))
(T (W x00 x00 x00 x00 xfa x82 xfd xff)
(T (W x45 x26 x22 x84 xe4 x9c xf2 xcb)
(L (W xdc xfd xfe xff x50 x00 x00 x00))
(L (W x00 x00 x00 x00 x38 xfb xff xff)))
(T (W x00 x00 x00 x00 x00 x00 x00 x00)
(L (W x00 x00 x00 x00 x00 x00 x00 x00)) E))))
(T (W x74 x00 x00 x00 x68 x00 x00 x00)
(T (W x00 x00 x00 x00 x38 xeb xfc xff)
(T (W x48 x00 x00 x00 x34 x00 x00 x00)
(T (W x00 x00 x00 x00 x00 x00 x00 x00)
(L (W x04 x00 x00 x00 x58 xad xfe xff))
(L (W x00 x00 x00 x00 x00 x00 x00 x00)))
(T (W x00 x00 x00 x00 x00 x00 x00 x00)
(L (W xb2 x2a xff xff x00 x00 x80 x3f)) E))
(T (W x45 x26 x22 x84 xe4 x9c xf2 xcb)
(T (W x3c x01 x00 x00 x30 x01 x00 x00)
(L (W x00 x00 x00 x00 x38 xeb xfe xff))
(L (W x00 x00 x00 x00 xb6 xea xff xff)))
(T (W x74 x00 x00 x00 x68 x00 x00 x00)
(L (W x71 xdd xef x43 xae x47 x17 x42)) E)))
(T (W x45 x26 x22 x84 xe4 x9c xf2 xcb)
(T (W x00 x00 x00 x00 x01 x00 x00 x00)
(T (W xdc xcd xfd xff x50 x00 x00 x00)
(L (W x04 x00 x00 x00 x00 x00 x00 x00))
(L (W x44 x00 x00 x00 x38 x00 x00 x00)))
(T (W x00 x00 x00 x00 x01 x00 x00 x00)
(L (W x11 x0b x1d x61 xc7 x74 xea xac)) E))
(T (W x00 x00 x00 x00 x01 x00 x00 x00)
(T (W x00 x00 x00 x00 x38 x0b xfe xff)
(L (W x04 x00 x00 x00 x72 x10 xff xff)) E)
(T (W x45 x26 x22 x84 xe4 x9c xf2 xcb)
(L (W x40 x00 x00 x00 x38 x00 x00 x00)) E))))))
(T (W x00 x00 x00 x00 x00 x00 x00 x00)
(T (W x00 x00 x80 x3f x00 x00 x80 x3f)
(T (W x04 x00 x00 x00 x00 x00 x00 x00)
(T (W x00 x00 x00 x00 x00 x00 x00 x00)
(T (W x44 x00 x00 x00 x38 x00 x00 x00)
(T (W x00 x00 x80 xbf x9c x00 x00 x00)
(L (W x55 x6c xfc xf1 x99 x9e xc9 x88))
(L (W x1f x45 xa6 x43 x85 xeb x23 x42)))
(T (W x4b x5f x41 x52 x45 x41 x30 x32)
(L (W x34 x17 xff xff xb6 x16 xff xff)) E))
(T (W x44 x00 x00 x00 x38 x00 x00 x00)
(T (W x04 x00 x00 x00 x00 x00 x00 x00)
(L (W x60 x00 x00 x00 x54 x00 x00 x00))
(L (W x00 x00 x80 xbf x9c x00 x00 x00)))
(T (W x28 x00 x00 x00 x14 x00 x00 x00)
(L (W x66 xa6 x12 x44 x00 x00 x26 x42)) E)))
(T (W x04 x00 x00 x00 x20 xf7 xfc xff)
(T (W x54 x00 x00 x00 x48 x00 x00 x00)
(T (W x00 x00 x00 x00 x00 x00 x00 x00)
(L (W x00 x00 x80 xbf x00 x00 x80 xbf))
(L (W x45 x26 x22 x84 xe4 x9c xf2 xcb)))
(T (W x45 x26 x22 x84 xe4 x9c xf2 xcb)
(L (W x04 x00 x00 x00 x72 x3c xff xff)) E))
(T (W x5c x00 x00 x00 x50 x00 x00 x00)
(T (W x00 x00 x00 x00 x38 xf7 xfd xff)
(L (W x45 x26 x22 x84 xe4 x9c xf2 xcb))
(L (W x34 xf7 xff xff x00 x00 x00 x00)))
(T (W x01 x00 x00 x00 x04 x00 x00 x00)
(L (W x45 x26 x22 x84 xe4 x9c xf2 xcb)) E))))
(T (W x00 x00 x00 x00 x00 x00 x00 x00)
(T (W x45 x26 x22 x84 xe4 x9c xf2 xcb)
(T (W x00 x00 x00 x00 x01 x00 x00 x00)
(T (W x04 x00 x00 x00 x58 xa9 xfd xff)
(L (W x37 x4f x45 xdc x00 xe1 x55 x2f))
(L (W x74 x00 x00 x00 x68 x00 x00 x00)))
(T (W x04 x00 x00 x00 x58 x29 xfe xff)
(L (W x00 x00 x00 x00 x00 x00 x00 x00)) E))
(T (W x04 x00 x00 x00 x00 x00 x00 x00)
(T (W xb8 x1e x10 x42 xc3 xc5 x4a x44)
(L (W x45 x26 x22 x84 xe4 x9c xf2 xcb))
(L (W x74 x00 x00 x00 x68 x00 x00 x00)))
(T (W x44 x00 x00 x00 x38 x00 x00 x00)
(L (W x00 x00 x00 x00 x01 x00 x00 x00)) E)))
(T (W x04 x00 x00 x00 x00 x00 x80 x3f)
(T (W x5f x4e x45 x57 x5f x4f x55 x54)
(T (W x00 x00 x00 x00 x01 x00 x00 x00)
(L (W x3c x01 x00 x00 x30 x01 x00 x00))
(L (W x45 x26 x22 x84 xe4 x9c xf2 xcb)))
(T (W xe0 x52 xfc x89 x7c x65 x55 x85)
(L (W x00 x00 x00 x00 x00 x00 x00 x00)) E))
(T (W x00 x00 x00 x00 x00 x00 x00 x00)
(T (W x45 x26 x22 x84 xe4 x9c xf2 xcb)
(L (W x01 x00 x00 x00 x00 x00 x80 x3f)) E)
(T (W x1c x01 x00 x00 x01 x00 x00 x00)
(L (W x00 x00 xa0 x40 x24 x01 x00 x00)) E)))))
(T (W x2a x93 xff xff x00 x00 x00 x01)
(T (W x34 xbf xfc xff x00 x00 x00 x00)
(T (W x00 x00 x80 xbf x00 x00 x80 xbf)
(T (W x00 x00 x00 x00 x00 x00 x00 x00)
(T (W x01 x00 x00 x00 x04 x00 x00 x00)
(L (W x45 x26 x22 x84 xe4 x9c xf2 xcb))
(L (W x45 x26 x22 x84 xe4 x9c xf2 xcb)))
(T (W x45 x26 x22 x84 xe4 x9c xf2 xcb)
(L (W x04 x00 x00 x00 x00 x00 x00 x00)) E))
(T (W x00 x00 x80 x3f x00 x00 x80 x3f)
(T (W x44 x00 x00 x00 x38 x00 x00 x00)
(L (W x1a x59 x81 xf3 x1d x36 x54 x95))
(L (W x01 x00 x00 x00 x04 x00 x00 x00)))
(T (W x01 x00 x00 x00 x00 x00 x80 x3f)
(L (W x04 x00 x00 x00 x72 x64 xff xff)) E)))
(T (W x00 x00 x00 x00 x00 x00 x00 x00)
(T (W x45 x26 x22 x84 xe4 x9c xf2 xcb)
(T (W x4b x5f x41 x52 x45 x41 x30 x32)
(L (W x97 x6d xca xc9 x03 x91 xa3 xbc))
(L (W x41 x30 x32 x00 xfa xc6 xff xff)))
(T (W x55 x39 x81 x6a xc4 xc7 x74 x14)
(L (W x45 x26 x22 x84 xe4 x9c xf2 xcb)) E))
(T (W x04 x00 x00 x00 x72 x84 xfd xff)
(T (W x1c x01 x00 x00 x01 x00 x00 x00)
(L (W x04 x00 x00 x00 x20 xff xfe xff))
(L (W x50 x00 x00 x00 x44 x00 x00 x00)))
(T (W x34 x7f xfe xff xb6 x7e xfe xff)
(L (W x28 x00 x00 x00 x14 x00 x00 x00)) E))))
(T (W x78 x00 x00 x00 x6c x00 x00 x00)
(T (W x2c x00 x00 x00 x20 x00 x00 x00)
(T (W x00 x00 x00 x00 x00 x00 x00 x00)
(T (W x04 x00 x00 x00 x00 x00 x00 x00)
(L (W xb2 xae xfe xff x66 xa6 xad x43))
(L (W x04 x00 x00 x00 x00 x00 x00 x00)))
(T (W x00 x00 x80 xbf x9c x00 x00 x00)
(L (W x53 x5f x47 x41 x4e x45 x52 x41)) E))
(T (W xdc x71 xfd xff x50 x00 x00 x00)
(T (W x54 x00 x00 x00 x48 x00 x00 x00)
(L (W x8f xc2 xb6 x42 x3d x6a xa2 x43))
(L (W x3c x01 x00 x00 x30 x01 x00 x00)))
(T (W x00 x00 x00 x00 x00 x00 x00 x00)
(L (W xe2 x72 xff xff x40 x01 x00 x00)) E)))
(T (W x40 x00 x00 x00 x38 x00 x00 x00)
(T (W x45 x26 x22 x84 xe4 x9c xf2 xcb)
(T (W x04 x00 x00 x00 x58 xd1 xfd xff)
(L (W x01 x00 x00 x00 x04 x00 x00 x00))
(L (W x74 x00 x00 x00 x68 x00 x00 x00)))
(T (W x45 x26 x22 x84 xe4 x9c xf2 xcb)
(L (W x00 x00 x00 x00 x38 x4f xff xff)) E))
(T (W x45 x26 x22 x84 xe4 x9c xf2 xcb)
(T (W x00 x00 x00 x00 x00 x00 x00 x00)
(L (W x00 x00 x00 x00 x38 x0f xff xff)) E)
(T (W xdc x91 xfe xff x50 x00 x00 x00)
(L (W xdc x9c xaa x28 xbf xce x56 x6a)) E))))))))
(T (W x24 xed x01 x00 x54 xeb x01 x00)
(T (W xd4 x00 x01 x00 xf0 xfe x00 x00)
(T (W x5f x30 x32 x36 x00 x00 x00 x00)
(T (W x00 x00 x00 x00 x01 x00 x00 x00)
(T (W x00 x00 x00 x00 x00 x00 x00 x00)
(T (W x40 x00 x00 x00 x38 x00 x00 x00)
(T (W xb2 x11 xfd xff x14 x9e x16 x44)
(T (W x34 x92 xfd xff x00 x00 x00 x00)
(L (W x9a x81 xe1 xc9 x53 x20 x17 x05))
(L (W xbe xfe x6d xc7 xad x71 xe7 x3e)))
(T (W x45 x26 x22 x84 xe4 x9c xf2 xcb)
(L (W x01 x00 x00 x00 x00 x00 x80 x3f)) E))
(T (W x00 x00 x00 x00 x00 x00 x00 x00)
(T (W x00 x00 x00 x00 x38 xd2 xfd xff)
(L (W x00 x00 x80 xbf x00 x00 x80 xbf))
(L (W x45 x26 x22 x84 xe4 x9c xf2 xcb)))
(T (W x45 x41 x30 x32 x5f x30 x31 x39)
(L (W x00 x00 x80 xbf x00 x00 x80 xbf)) E)))
(T (W x1c x01 x00 x00 x04 x00 x00 x00)
(T (W x00 x00 x00 x00 x00 x00 x00 x00)
(T (W x85 xdb x2a x44 x29 x5c x18 x42)
(L (W x45 x26 x22 x84 xe4 x9c xf2 xcb))
(L (W x34 xb2 xff xff xb6 xb1 xff xff)))
(T (W x04 x00 x00 x00 x20 x32 xfe xff)
(L (W x00 x00 x00 x00 x00 x00 x00 x00)) E))
(T (W x3c x01 x00 x00 x30 x01 x00 x00)
(T (W x00 x00 x00 x00 x00 x00 x00 x00)
(L (W x45 x26 x22 x84 xe4 x9c xf2 xcb))
(L (W x00 x00 x00 x00 x01 x00 x00 x00)))
(T (W x00 x00 x00 x00 x38 x72 xfe xff)
(L (W x00 x00 x00 x00 x38 x72 xff xff)) E))))
(T (W x4b x5f x41 x52 x45 x41 x30 x32)
(T (W x00 x00 x00 x00 x01 x00 x00 x00)
(T (W x32 x00 x00 x00 x40 x01 x00 x00)
(T (W x01 x00 x00 x00 x01 x00 x00 x00)
(L (W x00 x00 x80 x3f x00 x00 x80 x3f))
(L (W x00 x00 x00 x00 x00 x00 x00 x00)))
(T (W x00 x00 x00 x00 x00 x00 x00 x00)
(L (W xb2 x21 xff xff x00 x00 x80 x3f)) E))
(T (W xdc x64 xfd xff x50 x00 x00 x00)
(T (W x45 x26 x22 x84 xe4 x9c xf2 xcb)
(L (W x45 x26 x22 x84 xe4 x9c xf2 xcb))
(L (W xe2 xe5 xff xff x40 x01 x00 x00)))
(T (W x34 x62 xfe xff x00 x00 x00 x00)
(L (W x00 x00 x00 x00 x00 x00 x00 x00)) E)))
(T (W xdc x04 xfd xff x50 x00 x00 x00)
(T (W x00 x00 x00 x00 x01 x00 x00 x00)
(T (W x00 x00 x00 x00 x00 x00 x00 x00)
(L (W x04 x00 x00 x00 x00 x00 x00 x00))
(L (W x00 x00 x00 x00 x00 x00 x00 x00)))
(T (W x34 x42 xfe xff x00 x00 x00 x00)
(L (W x04 x00 x00 x00 x72 x47 xff xff)) E))
(T (W x00 x00 x00 x00 x00 x00 x00 x00)
(T (W x78 x00 x00 x00 x6c x00 x00 x00)
(L (W x54 x00 x00 x00 x48 x00 x00 x00)) E)
(T (W x44 x00 x00 x00 x38 x00 x00 x00)
(L (W x34 x82 xff xff x00 x00 x00 x00)) E)))))
(T (W x00 x00 x00 x00 x38 xaa xfc xff)
(T (W x4f x84 x6f x8b xe8 xcb x63 xb7)
(T (W x44 x00 x00 x00 x38 x00 x00 x00)
(T (W x00 x00 xe0 x40 x24 x01 x00 x00)
(T (W x04 x00 x00 x00 x20 x9a xfd xff)
(L (W x45 x26 x22 x84 xe4 x9c xf2 xcb))
(L (W x00 x00 x00 x00 x00 x00 x00 x00)))
(T (W x00 x00 x00 x00 x00 x00 x00 x00)
(L (W x2c x00 x00 x00 x20 x00 x00 x00)) E))
(T (W x00 x00 x80 xbf x9c x00 x00 x00)
(T (W xb2 xd9 xfd xff x66 xd6 x30 x44)
(L (W x00 x00 x00 x00 x38 xda xfe xff))
(L (W x28 x00 x00 x00 x14 x00 x00 x00)))
(T (W x00 x00 x00 x00 x38 x5a xfe xff)
(L (W x2c x00 x00 x00 x20 x00 x00 x00)) E)))
(T (W x54 x00 x00 x00 x48 x00 x00 x00)
(T (W x34 x3a xfd xff xb6 x39 xfd xff)
(T (W x45 x26 x22 x84 xe4 x9c xf2 xcb)
(L (W x60 x00 x00 x00 x54 x00 x00 x00))
(L (W x04 x00 x00 x00 x72 xbf xff xff)))
(T (W x01 x00 x00 x00 x00 x00 x80 x3f)
(L (W x00 x00 x80 x3f x38 x3a xff xff)) E))
(T (W x00 x00 x00 x00 x38 x7a xfd xff)
(T (W x54 x00 x00 x00 x48 x00 x00 x00)
(L (W x7b x14 x7e x43 x00 x00 x00 x00))
(L (W x1c x00 x00 x00 x46 x53 x59 x53)))
(T (W x01 x00 x00 x00 x00 x00 x80 x3f)
(L (W x01 x00 x00 x00 x01 x00 x00 x00)) E))))
(T (W x45 x26 x22 x84 xe4 x9c xf2 xcb)
(T (W x5c x8f x08 x42 x48 x71 x5d x44)
(T (W x54 x00 x00 x00 x48 x00 x00 x00)
(T (W x00 x00 x00 x00 x38 xaa xfd xff)
(L (W x5a xfd x36 x31 x9c xd2 x46 x97))
(L (W x34 xaa xff xff x00 x00 x00 x00)))
(T (W x00 x00 x00 x00 x38 x2a xfe xff)
(L (W x40 x00 x00 x00 x38 x00 x00 x00)) E))
(T (W x34 x6a xfd xff xb6 x69 xfd xff)
(T (W x01 x00 x00 x00 x04 x00 x00 x00)
(L (W x00 x00 x80 xbf x9c x00 x00 x00))
(L (W x40 x00 x00 x00 x38 x00 x00 x00)))
(T (W x45 x26 x22 x84 xe4 x9c xf2 xcb)
(L (W x45 x26 x22 x84 xe4 x9c xf2 xcb)) E)))
(T (W x34 x0a xfd xff x00 x00 x00 x00)
(T (W x00 x00 x00 x00 x00 x00 x00 x00)
(T (W x66 x76 x39 x44 x00 x00 x00 x00)
(L (W x00 x00 x00 x00 x01 x00 x00 x00))
(L (W x33 x39 x00 x00 x1b x00 x00 x00)))
(T (W x34 x4a xfe xff x00 x00 x00 x00)
(L (W x00 x00 x00 x00 x00 x00 x00 x00)) E))
(T (W x56 x1b x5c x23 x15 xc7 xa5 x1d)
(T (W x00 x00 x00 x00 x00 x00 x00 x00)
(L (W x34 x0a xff xff x00 x00 x00 x00)) E)
(T (W x74 x00 x00 x00 x68 x00 x00 x00)
(L (W x04 x00 x00 x00 x58 x8c xff xff)) E))))))
(T (W x00 x00 x80 xbf x00 x00 x80 xbf)
(T (W x45 x26 x22 x84 xe4 x9c xf2 xcb)
(T (W x04 x00 x00 x00 x58 xb8 xfc xff)
(T (W x45 x26 x22 x84 xe4 x9c xf2 xcb)
(T (W x1b x00 x00 x00 x57 x53 x59 x53)
(T (W x00 x00 x00 x00 x00 x00 x00 x00)
(L (W x54 x00 x00 x00 x48 x00 x00 x00))
(L (W x45 x26 x22 x84 xe4 x9c xf2 xcb)))
(T (W xdc x18 xfe xff x50 x00 x00 x00)
(L (W x45 x26 x22 x84 xe4 x9c xf2 xcb)) E))
(T (W x46 x53 x59 x53 x5f x4e x45 x57)
(T (W x00 x00 x00 x00 x00 x00 x00 x00)
(L (W x00 x00 x00 x00 x01 x00 x00 x00))
(L (W x00 x00 x00 x00 x00 x00 x00 x00)))
(T (W x00 x00 x00 x00 x01 x00 x00 x00)
(L (W x45 x26 x22 x84 xe4 x9c xf2 xcb)) E)))
(T (W x05 xaa x84 x94 x60 x30 x7d x67)
(T (W x44 x00 x00 x00 x30 x00 x00 x00)
(T (W x1c x01 x00 x00 x01 x00 x00 x00)
(L (W x1c x00 x00 x00 x46 x53 x59 x53))
(L (W x32 x00 x00 x00 x40 x01 x00 x00)))
(T (W x45 x26 x22 x84 xe4 x9c xf2 xcb)
(L (W x60 x00 x00 x00 x54 x00 x00 x00)) E))
(T (W x00 x00 x00 x00 x01 x00 x00 x00)
(T (W x00 x00 x80 xbf x9c x00 x00 x00)
(L (W x55 x39 x81 x6a xc4 xc7 x74 x14))
(L (W x00 x00 x80 x3f x00 x00 x80 x3f)))
(T (W x71 xdd x8c x43 x66 x66 x13 x42)
(L (W x0a x97 xe1 x43 xa4 x70 x16 x42)) E))))
(T (W x04 x00 x00 x00 x00 x00 x80 x3f)
(T (W xd6 x81 x9c x94 x9b x27 x57 x25)
(T (W xcc xb5 xb9 xb8 x57 x57 x5d xb2)
(T (W xdd xd4 x70 x82 xce x71 x7f xb0)
(L (W x42 x52 x45 x41 x4b x5f x41 x52))
(L (W x45 x26 x22 x84 xe4 x9c xf2 xcb)))
(T (W xd4 xa8 x95 x5e xf5 x80 x98 xee)
(L (W x00 x00 x80 xbf x00 x00 x80 xbf)) E))
(T (W x00 x00 x00 x00 x00 x00 x00 x00)
(T (W x45 x26 x22 x84 xe4 x9c xf2 xcb)
(L (W x00 x00 x00 x00 xfa xed xfe xff))
(L (W x45 x26 x22 x84 xe4 x9c xf2 xcb)))
(T (W x00 x00 x00 x00 x00 x00 x00 x00)
(L (W x45 x55 x36 x08 x1e x47 x40 xb9)) E)))
(T (W x00 x00 x00 x00 x00 x00 x00 x00)
(T (W x01 x00 x00 x00 x04 x00 x00 x00)
(T (W x78 x00 x00 x00 x6c x00 x00 x00)
(L (W x01 x00 x00 x00 x04 x00 x00 x00))
(L (W x55 x39 x81 x6a xc4 xc7 x74 x14)))
(T (W x00 x00 x00 x00 x00 x00 x00 x00)
(L (W x34 x46 xff xff x00 x00 x00 x00)) E))
(T (W x00 x00 x40 x40 x24 x01 x00 x00)
(T (W x00 x00 x00 x00 xb6 x05 xfe xff)
(L (W x2c x00 x00 x00 x20 x00 x00 x00)) E)
(T (W x00 x00 x00 x00 x00 x00 x00 x00)
(L (W x45 x26 x22 x84 xe4 x9c xf2 xcb)) E)))))
(T (W x2c x00 x00 x00 x20 x00 x00 x00)
(T (W x00 x00 x00 x00 x00 x00 x00 x00)
(T (W x00 x00 x00 x00 x00 x00 x00 x00)
(T (W x30 x01 x00 x00 x28 x01 x00 x00)
(T (W x00 x20 x99 x43 x71 x3d x28 x42)
(L (W x00 x00 x00 x00 x00 x00 x00 x00))
(L (W x55 x6c xfc xf1 x99 x9e xc9 x88)))
(T (W x45 x26 x22 x84 xe4 x9c xf2 xcb)
(L (W x00 x00 x00 x00 x00 x00 x00 x00)) E))
(T (W x45 x26 x22 x84 xe4 x9c xf2 xcb)
(T (W x1c x00 x00 x00 x46 x53 x59 x53)
(L (W x00 x00 x00 x00 x00 x00 x00 x00))
(L (W x01 x00 xbf x42 x66 x66 xb1 x43)))
(T (W x00 x00 x00 x00 x00 x00 x00 x00)
(L (W x34 x5e xff xff x00 x00 x00 x00)) E)))
(T (W x45 x26 x22 x84 xe4 x9c xf2 xcb)
(T (W x00 x00 x00 x00 x00 x00 x00 x00)
(T (W xdc xc0 xfd xff x50 x00 x00 x00)
(L (W x00 x00 x00 x00 x00 x00 x00 x00))
(L (W x44 x00 x00 x00 x38 x00 x00 x00)))
(T (W x04 x00 x00 x00 x72 x43 xfe xff)
(L (W x41 x30 x32 x00 xfa x45 xff xff)) E))
(T (W x34 x7e xfd xff x00 x00 x00 x00)
(T (W x44 x00 x00 x00 x38 x00 x00 x00)
(L (W xaa x07 x97 x60 xd5 x87 x1e xa4))
(L (W x00 x00 x80 x3f x00 x00 x80 x3f)))
(T (W x45 x26 x22 x84 xe4 x9c xf2 xcb)
(L (W x00 x00 x00 x00 x01 x00 x00 x00)) E))))
(T (W x45 x26 x22 x84 xe4 x9c xf2 xcb)
(T (W x5f x4d x41 x53 x53 x5f x47 x41)
(T (W x45 x26 x22 x84 xe4 x9c xf2 xcb)
(T (W x00 x00 x00 x00 x00 x00 x00 x00)
(L (W x45 x26 x22 x84 xe4 x9c xf2 xcb))
(L (W x00 x00 x00 x00 x38 xae xff xff)))
(T (W x45 x26 x22 x84 xe4 x9c xf2 xcb)
(L (W x01 x00 x00 x00 x04 x00 x00 x00)) E))
(T (W x00 x00 x00 x00 x00 x00 x00 x00)
(T (W x00 x00 x00 x00 x01 x00 x00 x00)
(L (W x45 x26 x22 x84 xe4 x9c xf2 xcb))
(L (W x01 x00 x00 x00 x04 x00 x00 x00)))
(T (W x34 x6e xfe xff x00 x00 x00 x00)
(L (W x2c x00 x00 x00 x20 x00 x00 x00)) E)))
(T (W x2c x00 x00 x00 x18 x00 x00 x00)
(T (W x00 x00 x80 x3f x38 x4e xfd xff)
(T (W xf9 x51 x8e xa1 x11 x4a xc0 xcb)
(L (W x3d x6a xba x43 xd7 xa3 xc3 x42))
(L (W x45 x26 x22 x84 xe4 x9c xf2 xcb)))
(T (W x45 x26 x22 x84 xe4 x9c xf2 xcb)
(L (W xb2 x4d xff xff x00 x00 x80 x3f)) E))
(T (W x04 x00 x00 x00 x72 x93 xfd xff)
(T (W x00 x00 x80 xbf x00 x00 x80 xbf)
(L (W x34 x0e xff xff xb6 x0d xff xff)) E)
(T (W x00 x00 x00 x00 x00 x00 x00 x00)
(L (W x00 x00 x00 x00 x00 x00 x00 x00)) E)))))))
(T (W x78 x0d x00 x00 x8c x0b x00 x00)
(T (W x00 x00 xe0 x40 x24 x01 x00 x00)
(T (W x04 x00 x00 x00 x72 xa9 xfc xff)
(T (W x00 x00 x00 x00 x38 xb4 xfc xff)
(T (W x45 x26 x22 x84 xe4 x9c xf2 xcb)
(T (W x00 x00 x00 x00 x00 x00 x00 x00)
(T (W xdc x96 xfd xff x50 x00 x00 x00)
(L (W x04 x00 x00 x00 x00 x00 x00 x00))
(L (W x04 x00 x00 x00 x00 x00 x00 x00)))
(T (W x34 x14 xfe xff x00 x00 x00 x00)
(L (W x00 x00 x00 x00 x01 x00 x00 x00)) E))
(T (W x00 x00 x00 x00 x00 x00 x00 x00)
(T (W x4b x26 x3c xdc x00 x64 x4b x2f)
(L (W x0a x94 x83 xf3 x1d x39 x57 x95))
(L (W x44 x00 x00 x00 x38 x00 x00 x00)))
(T (W x00 x00 x80 xbf x9c x00 x00 x00)
(L (W x04 x00 x00 x00 x00 x00 x00 x00)) E)))
(T (W x00 x00 x80 xbf x9c x00 x00 x00)
(T (W x04 x00 x00 x00 x20 x34 xfd xff)
(T (W xe2 xb7 xfd xff x40 x01 x00 x00)
(L (W x00 x00 x00 x00 x00 x00 x00 x00))
(L (W x00 x00 x00 x00 xfa xbb xff xff)))
(T (W x48 x00 x00 x00 x34 x00 x00 x00)
(L (W x00 x00 x00 x00 x01 x00 x00 x00)) E))
(T (W x01 x00 x00 x00 x00 x00 x80 x3f)
(T (W x01 x00 x00 x00 x01 x00 x00 x00)
(L (W x34 xf4 xfe xff x00 x00 x00 x00))
(L (W x60 x00 x00 x00 x54 x00 x00 x00)))
(T (W x2c x00 x00 x00 x18 x00 x00 x00)
(L (W x44 x00 x00 x00 x30 x00 x00 x00)) E))))
(T (W x3c x01 x00 x00 x30 x01 x00 x00)
(T (W x60 x00 x00 x00 x54 x00 x00 x00)
(T (W x00 x00 x80 xbf x9c x00 x00 x00)
(T (W x00 x00 x80 xbf x9c x00 x00 x00)
(L (W xa4 xb0 x01 x43 x00 x00 x00 x00))
(L (W x1c x01 x00 x00 x01 x00 x00 x00)))
(T (W x00 x00 x40 x40 x24 x01 x00 x00)
(L (W x00 x00 x00 x00 x00 x00 x00 x00)) E))
(T (W xf4 x30 xc8 xc9 x03 x8d xa0 xbc)
(T (W x00 x00 x00 x00 x01 x00 x00 x00)
(L (W x00 x00 x00 x00 x00 x00 x00 x00))
(L (W x1c x01 x00 x00 x01 x00 x00 x00)))
(T (W x45 x26 x22 x84 xe4 x9c xf2 xcb)
(L (W x34 x01 x00 x00 x00 x00 x80 x40)) E)))
(T (W x3b xba x33 x97 x85 xa8 x5f x5f)
(T (W x45 x26 x22 x84 xe4 x9c xf2 xcb)
(T (W x00 x00 x00 x00 x00 x00 x00 x00)
(L (W x45 x26 x22 x84 xe4 x9c xf2 xcb))
(L (W x60 x00 x00 x00 x54 x00 x00 x00)))
(T (W xdc x46 xfe xff x50 x00 x00 x00)
(L (W x45 x26 x22 x84 xe4 x9c xf2 xcb)) E))
(T (W x45 x41 x30 x32 x5f x30 x30 x37)
(T (W x2c x00 x00 x00 x18 x00 x00 x00)
(L (W x45 x26 x22 x84 xe4 x9c xf2 xcb)) E)
(T (W x45 x26 x22 x84 xe4 x9c xf2 xcb)
(L (W x44 x00 x00 x00 x38 x00 x00 x00)) E)))))
(T (W x01 x00 x00 x00 x04 x00 x00 x00)
(T (W x34 xbc xfc xff xb6 xbb xfc xff)
(T (W x45 x26 x22 x84 xe4 x9c xf2 xcb)
(T (W x30 x00 x34 x00 x38 x00 x3c x00)
(T (W x44 x00 x00 x00 x30 x00 x00 x00)
(L (W x44 x00 x00 x00 x38 x00 x00 x00))
(L (W x00 x00 x00 x00 x01 x00 x00 x00)))
(T (W x60 x00 x00 x00 x54 x00 x00 x00)
(L (W x00 x00 x00 x00 x00 x00 x00 x00)) E))
(T (W x00 x00 x00 x00 x01 x00 x00 x00)
(T (W x00 x00 x00 x00 x00 x00 x00 x00)
(L (W x2c x00 x00 x00 x20 x00 x00 x00))
(L (W x85 xeb x4d x42 xc3 x95 xe3 x43)))
(T (W xe6 x5a xca xc9 x03 x86 xa3 xbc)
(L (W x00 x00 x00 x00 x00 x00 x00 x00)) E)))
(T (W x45 x26 x22 x84 xe4 x9c xf2 xcb)
(T (W x00 x00 x00 x00 x00 x00 x00 x00)
(T (W x34 xbc xfd xff x00 x00 x00 x00)
(L (W x00 x00 x80 x3f x00 x00 x80 x3f))
(L (W x45 x26 x22 x84 xe4 x9c xf2 xcb)))
(T (W x00 x00 x00 x00 x01 x00 x00 x00)
(L (W x00 x00 x00 x00 x00 x00 x00 x00)) E))
(T (W x45 x26 x22 x84 xe4 x9c xf2 xcb)
(T (W x45 x26 x22 x84 xe4 x9c xf2 xcb)
(L (W x00 x00 x40 x40 x24 x01 x00 x00))
(L (W x46 x53 x59 x53 x5f x4e x45 x57)))
(T (W x00 x00 x00 x00 x01 x00 x00 x00)
(L (W x45 x26 x22 x84 xe4 x9c xf2 xcb)) E))))
(T (W x34 x00 x00 x00 x20 x00 x00 x00)
(T (W x00 x00 x00 x00 x00 x00 x00 x00)
(T (W x40 x00 x00 x00 x38 x00 x00 x00)
(T (W xb2 x4c xbb x28 xbf xd2 x6a x6a)
(L (W x40 x00 x00 x00 x38 x00 x00 x00))
(L (W x45 x26 x22 x84 xe4 x9c xf2 xcb)))
(T (W x0f x56 x48 xdc x00 x5c x59 x2f)
(L (W x00 x00 x00 x00 x38 x2c xff xff)) E))
(T (W x00 x00 x00 x00 x00 x00 x00 x00)
(T (W x00 x00 x00 x00 x00 x00 x00 x00)
(L (W x00 x00 x00 x00 x01 x00 x00 x00))
(L (W x45 x26 x22 x84 xe4 x9c xf2 xcb)))
(T (W x45 x26 x22 x84 xe4 x9c xf2 xcb)
(L (W x45 x26 x22 x84 xe4 x9c xf2 xcb)) E)))
(T (W x78 x00 x00 x00 x6c x00 x00 x00)
(T (W x5c x00 x00 x00 x50 x00 x00 x00)
(T (W x00 x00 x40 x40 x24 x01 x00 x00)
(L (W x44 x00 x00 x00 x30 x00 x00 x00))
(L (W x1c x01 x00 x00 x01 x00 x00 x00)))
(T (W x60 x00 x00 x00 x54 x00 x00 x00)
(L (W x04 x00 x00 x00 x58 x4e xff xff)) E))
(T (W x00 x00 x00 x00 x01 x00 x00 x00)
(T (W x00 x00 x00 x00 x00 x00 x00 x00)
(L (W xd6 x81 x9c x94 x9b x27 x57 x25)) E)
(T (W x00 x00 x80 x3f x00 x00 x80 x3f)
(L (W xb2 x8b xff xff x00 x00 x80 x3f)) E))))))
(T (W x66 x95 x7d x67 x2b x70 xe6 x8e)
(T (W x45 x26 x22 x84 xe4 x9c xf2 xcb)
(T (W x44 x00 x00 x00 x30 x00 x00 x00)
(T (W x00 x00 x00 x00 x38 xd8 xfc xff)
(T (W x5f x41 x52 x45 x41 x30 x32 x00)
(T (W x00 x00 x00 x00 x38 x98 xfd xff)
(L (W x45 x26 x22 x84 xe4 x9c xf2 xcb))
(L (W x01 x00 x00 x00 x04 x00 x00 x00)))
(T (W xaf x68 xff x4b x84 x9a x7b x61)
(L (W x00 x00 x00 x00 x38 x18 xff xff)) E))
(T (W x45 x41 x30 x32 x5f x30 x30 x38)
(T (W x44 x00 x00 x00 x30 x00 x00 x00)
(L (W x45 x26 x22 x84 xe4 x9c xf2 xcb))
(L (W x00 x00 x00 x00 x38 xd8 xff xff)))
(T (W x45 x26 x22 x84 xe4 x9c xf2 xcb)
(L (W x01 x00 x00 x00 x04 x00 x00 x00)) E)))
(T (W x04 x00 x00 x00 x00 x00 x00 x00)
(T (W x55 x6c xfc xf1 x99 x9e xc9 x88)
(T (W x45 x26 x22 x84 xe4 x9c xf2 xcb)
(L (W x00 x00 x00 x00 x00 x00 x00 x00))
(L (W x34 x00 x00 x00 x20 x00 x00 x00)))
(T (W x00 x00 x00 x00 x00 x00 x00 x00)
(L (W xd6 x81 x9c x94 x9b x27 x57 x25)) E))
(T (W x45 x26 x22 x84 xe4 x9c xf2 xcb)
(T (W x33 xf0 xe2 x6f x77 x7e x33 x00)
(L (W x00 x00 x80 x3f x00 x00 x80 x3f))
(L (W x00 x00 x00 x00 x00 x00 x00 x00)))
(T (W x5f x4e x45 x57 x5f x4f x55 x54)
(L (W x00 x00 x00 x00 x00 x00 x00 x00)) E))))
(T (W x34 x00 x00 x00 x20 x00 x00 x00)
(T (W x00 x00 x80 x3f x00 x00 x80 x3f)
(T (W x00 x00 x00 x00 x01 x00 x00 x00)
(T (W x40 x00 x00 x00 x38 x00 x00 x00)
(L (W x00 x00 xa0 x40 x24 x01 x00 x00))
(L (W x45 x26 x22 x84 xe4 x9c xf2 xcb)))
(T (W x40 x00 x00 x00 x38 x00 x00 x00)
(L (W x2a xa8 xc3 x4d x38 xde x02 x34)) E))
(T (W x48 x00 x00 x00 x34 x00 x00 x00)
(T (W x00 x00 x00 x00 x38 xe8 xfd xff)
(L (W x1c x01 x00 x00 x01 x00 x00 x00))
(L (W x00 x00 x00 x00 x01 x00 x00 x00)))
(T (W x1c x01 x00 x00 x01 x00 x00 x00)
(L (W x04 x00 x00 x00 x00 x00 x00 x00)) E)))
(T (W x00 x00 x00 x00 x00 x00 x00 x00)
(T (W x2c x00 x00 x00 x20 x00 x00 x00)
(T (W x28 x00 x00 x00 x14 x00 x00 x00)
(L (W x00 x00 x00 x00 x00 x00 x00 x00))
(L (W x00 x00 x80 x3f x00 x00 x80 x3f)))
(T (W x00 x00 x00 x00 x38 x48 xfe xff)
(L (W xdc x4a xff xff x50 x00 x00 x00)) E))
(T (W x00 x00 x80 xbf x00 x00 x80 xbf)
(T (W xb2 x07 xfe xff x0a xf7 x56 x44)
(L (W x00 x00 x00 x00 x00 x00 x00 x00)) E)
(T (W x00 x00 x00 x00 x00 x00 x00 x00)
(L (W x00 x00 x00 x00 x00 x00 x00 x00)) E)))))
(T (W x45 x26 x22 x84 xe4 x9c xf2 xcb)
(T (W x00 x00 x00 x00 x1c x00 x00 x00)
(T (W x00 x00 x00 x00 x00 x00 x00 x00)
(T (W x3c x01 x00 x00 x00 x00 xa0 x41)
(T (W xe2 xa3 xfd xff x40 x01 x00 x00)
(L (W x74 x00 x00 x00 x68 x00 x00 x00))
(L (W x00 x00 x80 x3f x38 xa0 xff xff)))
(T (W x00 x00 x00 x00 x00 x00 x00 x00)
(L (W x44 x00 x00 x00 x30 x00 x00 x00)) E))
(T (W x45 x26 x22 x84 xe4 x9c xf2 xcb)
(T (W x1c x01 x00 x00 x01 x00 x00 x00)
(L (W x00 x00 x00 x00 x01 x00 x00 x00))
(L (W x5f x4e x45 x57 x5f x4f x55 x54)))
(T (W x00 x00 x00 x00 x00 x00 x00 x00)
(L (W x45 x26 x22 x84 xe4 x9c xf2 xcb)) E)))
(T (W x34 x00 xfd xff x00 x00 x00 x00)
(T (W x00 x00 x80 xbf x9c x00 x00 x00)
(T (W x85 x80 x02 x4c x84 x1f x7f x61)
(L (W x00 x00 x80 xbf x00 x00 x80 xbf))
(L (W x45 x26 x22 x84 xe4 x9c xf2 xcb)))
(T (W x45 x26 x22 x84 xe4 x9c xf2 xcb)
(L (W x34 x00 x00 x00 x20 x00 x00 x00)) E))
(T (W x45 x26 x22 x84 xe4 x9c xf2 xcb)
(T (W x00 x00 x00 x00 x00 x00 x00 x00)
(L (W x04 x00 x00 x00 x00 x00 x00 x00))
(L (W x88 x00 x00 x00 x7c x00 x00 x00)))
(T (W x45 x26 x22 x84 xe4 x9c xf2 xcb)
(L (W x45 x26 x22 x84 xe4 x9c xf2 xcb)) E))))
(T (W x00 x00 x00 x00 x01 x00 x00 x00)
(T (W x2a xd4 xff xff x00 x00 x00 x01)
(T (W x44 x00 x00 x00 x38 x00 x00 x00)
(T (W x44 x00 x00 x00 x30 x00 x00 x00)
(L (W x00 x00 x00 x00 x38 xb0 xfe xff))
(L (W x48 x00 x00 x00 x34 x00 x00 x00)))
(T (W x00 x00 x00 x00 x38 x30 xfe xff)
(L (W x05 x45 x45 xdc x00 xdb x55 x2f)) E))
(T (W x42 x52 x45 x41 x4b x5f x41 x52)
(T (W x45 x26 x22 x84 xe4 x9c xf2 xcb)
(L (W x01 x00 x00 x00 x04 x00 x00 x00))
(L (W x00 x00 x00 x00 x00 x00 x00 x00)))
(T (W x45 x26 x22 x84 xe4 x9c xf2 xcb)
(L (W x45 x26 x22 x84 xe4 x9c xf2 xcb)) E)))
(T (W x00 x00 x00 x00 xb6 x0f xfd xff)
(T (W x00 x00 x00 x00 x00 x00 x00 x00)
(T (W x40 x00 x00 x00 x38 x00 x00 x00)
(L (W x3c x01 x00 x00 x30 x01 x00 x00))
(L (W x04 x00 x00 x00 x72 xd5 xff xff)))
(T (W x00 x00 x00 x00 x00 x00 x00 x00)
(L (W x00 x00 x00 x00 x00 x00 x00 x00)) E))
(T (W x45 x26 x22 x84 xe4 x9c xf2 xcb)
(T (W x00 x00 x00 x00 x01 x00 x00 x00)
(L (W x00 x00 x00 x00 xfa x17 xff xff)) E)
(T (W x00 x00 x80 x40 x24 x01 x00 x00)
(L (W x00 x00 x80 xbf x00 x00 x80 xbf)) E)))))))))
(T (W x7c x9e x02 x00 x90 x9c x02 x00)
(T (W xc8 x28 x02 x00 xf4 x26 x02 x00)
(T (W xcc x3b x01 x00 x00 x3a x01 x00)
(T (W x44 x00 x00 x00 x30 x00 x00 x00)
(T (W x00 x00 x00 x00 x1c x00 x00 x00)
(T (W x45 x26 x22 x84 xe4 x9c xf2 xcb)
(T (W xaa xb5 xff xff x00 x00 x00 x01)
(T (W x00 x00 x00 x00 x00 x00 x00 x00)
(T (W x2c x33 x5f x23 x15 x4c xa9 x1d)
(L (W xb4 x91 xfe xff x36 x91 xfe xff))
(L (W x00 x00 x00 x00 x00 x00 x00 x00)))
(T (W x3c x01 x00 x00 x30 x01 x00 x00)
(L (W x32 x11 xff xff x00 x00 x80 x3f)) E))
(T (W x45 x41 x30 x32 x5f x30 x30 x38)
(T (W x34 x00 x00 x00 x20 x00 x00 x00)
(L (W x00 x00 x80 x3f x00 x00 x80 x3f))
(L (W x00 x00 x80 xbf x00 x00 x80 xbf)))
(T (W x48 x00 x00 x00 x34 x00 x00 x00)
(L (W x45 x26 x22 x84 xe4 x9c xf2 xcb)) E)))
(T (W x00 x00 x00 x00 x36 xf1 xfc xff)
(T (W x45 x26 x22 x84 xe4 x9c xf2 xcb)
(T (W x00 x00 x00 x00 x00 x00 x00 x00)
(L (W x40 x00 x00 x00 x38 x00 x00 x00))
(L (W x00 x00 x00 x00 x00 x00 x00 x00)))
(T (W x00 x00 x00 x00 xb8 x31 xfe xff)
(L (W x45 x26 x22 x84 xe4 x9c xf2 xcb)) E))
(T (W x55 x39 x81 x6a xc4 xc7 x74 x14)
(T (W x00 x00 x00 x00 xb8 xf1 xfd xff)
(L (W x40 x00 x00 x00 x38 x00 x00 x00))
(L (W xb4 xf1 xff xff x00 x00 x00 x00)))
(T (W x45 x26 x22 x84 xe4 x9c xf2 xcb)
(L (W x45 x26 x22 x84 xe4 x9c xf2 xcb)) E))))
(T (W x5c x00 x00 x00 x50 x00 x00 x00)
(T (W xb4 xe1 xfc xff x00 x00 x00 x00)
(T (W x00 x00 x00 x00 x36 x21 xfd xff)
(T (W x32 xa1 xfd xff x00 x00 x80 x3f)
(L (W x00 x00 x00 x00 x00 x00 x00 x00))
(L (W x00 x00 x00 x00 x00 x00 x00 x00)))
(T (W x00 x00 x00 x00 x01 x00 x00 x00)
(L (W x45 x26 x22 x84 xe4 x9c xf2 xcb)) E))
(T (W x00 x00 x00 x00 x01 x00 x00 x00)
(T (W x66 x06 x3b x44 xcd xcc x14 x42)
(L (W x45 x26 x22 x84 xe4 x9c xf2 xcb))
(L (W x28 x00 x00 x00 x14 x00 x00 x00)))
(T (W x00 x00 x00 x00 xb8 x61 xfe xff)
(L (W x00 x00 x00 x00 x00 x00 x00 x00)) E)))
(T (W x00 x00 x00 x00 x01 x00 x00 x00)
(T (W x00 x00 x00 x00 x00 x00 x00 x00)
(T (W x45 x26 x22 x84 xe4 x9c xf2 xcb)
(L (W x00 x00 x00 x00 x00 x00 x00 x00))
(L (W x45 x26 x22 x84 xe4 x9c xf2 xcb)))
(T (W x5c x7f xfc x36 x15 xf1 x4b x40)
(L (W x00 x00 x00 x00 x00 x00 x00 x00)) E))
(T (W x00 x00 x00 x00 x00 x00 x00 x00)
(T (W x01 x00 x00 x00 x04 x00 x00 x00)
(L (W x45 x41 x30 x32 x5f x30 x32 x31)) E)
(T (W x04 x00 x00 x00 x00 x00 x00 x00)
(L (W x83 x5f x39 x08 x1e xc4 x43 xb9)) E)))))
(T (W x34 x00 x00 x00 x20 x00 x00 x00)
(T (W x45 x26 x22 x84 xe4 x9c xf2 xcb)
(T (W x04 x00 x00 x00 x00 x00 x00 x00)
(T (W x4f x84 x6f x8b xe8 xcb x63 xb7)
(T (W x00 x00 x00 x00 xb8 x99 xfd xff)
(L (W x00 x00 x80 xbf x00 x00 x80 xbf))
(L (W x45 x26 x22 x84 xe4 x9c xf2 xcb)))
(T (W x45 x26 x22 x84 xe4 x9c xf2 xcb)
(L (W x00 x00 x00 x00 x01 x00 x00 x00)) E))
(T (W x45 x26 x22 x84 xe4 x9c xf2 xcb)
(T (W x00 x00 x00 x00 x00 x00 x00 x00)
(L (W x34 x00 x00 x00 x20 x00 x00 x00))
(L (W x2c x00 x00 x00 x20 x00 x00 x00)))
(T (W x34 x00 x00 x00 x20 x00 x00 x00)
(L (W x00 x00 x00 x00 x01 x00 x00 x00)) E)))
(T (W x5f x41 x52 x45 x41 x30 x32 x00)
(T (W x00 x00 x00 x00 x00 x00 x00 x00)
(T (W x3c x01 x00 x00 x30 x01 x00 x00)
(L (W x5c xbc xfe xff x50 x00 x00 x00))
(L (W x00 x00 x00 x00 x00 x00 x00 x00)))
(T (W x28 x00 x00 x00 x14 x00 x00 x00)
(L (W x00 x00 x00 x00 x00 x00 x00 x00)) E))
(T (W x76 xb6 x49 xab x88 x2a x0b x07)
(T (W x00 x00 x00 x00 x00 x00 x00 x00)
(L (W x00 x00 x00 x00 x00 x00 x00 x00))
(L (W x04 x00 x00 x00 xa0 xf9 xff xff)))
(T (W x28 x00 x00 x00 x14 x00 x00 x00)
(L (W x2c x00 x00 x00 x18 x00 x00 x00)) E))))
(T (W x00 x00 x00 x00 x00 x00 x00 x00)
(T (W x00 x00 x00 x00 x00 x00 x00 x00)
(T (W x4e x5f x47 x45 x54 x5f x4e x55)
(T (W x34 x00 x00 x00 x20 x00 x00 x00)
(L (W xb4 xa9 xfe xff x36 xa9 xfe xff))
(L (W x1b x2d x0c x0c x1e xfe xa6 xc0)))
(T (W x34 x00 x00 x00 x20 x00 x00 x00)
(L (W x00 x00 x00 x00 x7a x31 xff xff)) E))
(T (W x00 x00 x00 x00 x00 x00 x00 x00)
(T (W x45 x26 x22 x84 xe4 x9c xf2 xcb)
(L (W x32 xe9 xfe xff x85 xab xe1 x43))
(L (W x62 xed xff xff x40 x01 x00 x00)))
(T (W x48 x41 x4b x44 x3d x8a xac x42)
(L (W x1c x01 x00 x00 x01 x00 x00 x00)) E)))
(T (W x00 x00 x00 x00 xb8 x09 xfd xff)
(T (W x45 x26 x22 x84 xe4 x9c xf2 xcb)
(T (W x00 x00 x00 x00 x00 x00 x00 x00)
(L (W xb4 xc9 xfe xff x00 x00 x00 x00))
(L (W x00 x00 x00 x00 x01 x00 x00 x00)))
(T (W x01 x00 x00 x00 x04 x00 x00 x00)
(L (W x45 x26 x22 x84 xe4 x9c xf2 xcb)) E))
(T (W x00 x00 x00 x00 x00 x00 x00 x00)
(T (W x00 x00 x00 x00 xb8 x09 xfe xff)
(L (W x00 x00 x00 x00 xb8 x09 xff xff)) E)
(T (W x01 x00 x00 x00 x04 x00 x00 x00)
(L (W x00 x00 x00 x00 xb8 x89 xff xff)) E))))))
(T (W xb4 x9d xfc xff x36 x9d xfc xff)
(T (W x3c x01 x00 x00 x30 x01 x00 x00)
(T (W x00 x00 x00 x00 xb8 xb5 xfc xff)
(T (W x00 x00 x80 xbf x9c x00 x00 x00)
(T (W x04 x00 x00 x00 xa0 x15 xfd xff)
(T (W x45 x26 x22 x84 xe4 x9c xf2 xcb)
(L (W x45 x41 x30 x32 x5f x30 x31 x36))
(L (W x1c x01 x00 x00 x01 x00 x00 x00)))
(T (W x00 x00 x00 x00 x01 x00 x00 x00)
(L (W x00 x00 x80 x40 x24 x01 x00 x00)) E))
(T (W x04 x00 x00 x00 xd8 x57 xfd xff)
(T (W x45 x26 x22 x84 xe4 x9c xf2 xcb)
(L (W x00 x00 x00 x00 x1c x00 x00 x00))
(L (W x45 x26 x22 x84 xe4 x9c xf2 xcb)))
(T (W x00 x00 x00 x00 x00 x00 x00 x00)
(L (W x1c x01 x00 x00 x01 x00 x00 x00)) E)))
(T (W x00 x00 x00 x00 x00 x00 x00 x00)
(T (W x44 x00 x00 x00 x38 x00 x00 x00)
(T (W x00 x00 x00 x00 x36 xb5 xfd xff)
(L (W x45 x26 x22 x84 xe4 x9c xf2 xcb))
(L (W x00 x00 x00 x00 x36 xb5 xff xff)))
(T (W x45 x26 x22 x84 xe4 x9c xf2 xcb)
(L (W x5c x38 xff xff x50 x00 x00 x00)) E))
(T (W xec x21 x43 x44 x00 x00 x00 x00)
(T (W x52 x28 x57 x44 x52 xb8 x18 x42)
(L (W x4a x6f xca xc9 x03 x92 xa3 xbc))
(L (W x00 x00 x00 x00 x00 x00 x00 x00)))
(T (W x00 x00 x00 x00 x00 x00 x00 x00)
(L (W x00 x00 x00 x00 x00 x00 x00 x00)) E))))
(T (W x00 x00 x80 x3f x00 x00 x80 x3f)
(T (W x4a xae x30 x97 x85 x2a x5c x5f)
(T (W x00 x00 x00 x00 x15 x00 x00 x00)
(T (W x00 x00 x00 x00 x00 x00 x00 x00)
(L (W x60 x00 x00 x00 x54 x00 x00 x00))
(L (W xae x87 x8c x43 x5c x8f x24 x42)))
(T (W xb4 x25 xfe xff x36 x25 xfe xff)
(L (W x45 x26 x22 x84 xe4 x9c xf2 xcb)) E))
(T (W x45 x26 x22 x84 xe4 x9c xf2 xcb)
(T (W x01 x00 x00 x00 x00 x00 x80 x3f)
(L (W x2c x00 x00 x00 x18 x00 x00 x00))
(L (W xcd x0c xd7 x43 xcd xcc x12 x42)))
(T (W x00 x00 x00 x00 x00 x00 x00 x00)
(L (W x00 x00 x80 x3f x00 x00 x80 x3f)) E)))
(T (W x45 x26 x22 x84 xe4 x9c xf2 xcb)
(T (W xfc xdd x1b x72 x9d x0c xa7 xbe)
(T (W x01 x00 x00 x00 x04 x00 x00 x00)
(L (W x45 x26 x22 x84 xe4 x9c xf2 xcb))
(L (W xd4 xf9 xaf x28 xbf x5c x5d x6a)))
(T (W x45 x26 x22 x84 xe4 x9c xf2 xcb)
(L (W xa0 x15 x42 xe3 x48 x2c x25 x26)) E))
(T (W x55 x6c xfc xf1 x99 x9e xc9 x88)
(T (W x45 x26 x22 x84 xe4 x9c xf2 xcb)
(L (W x00 x00 x00 x00 x01 x00 x00 x00)) E)
(T (W x45 x26 x22 x84 xe4 x9c xf2 xcb)
(L (W x54 x00 x00 x00 x48 x00 x00 x00)) E)))))
(T (W x00 x00 x00 x00 x01 x00 x00 x00)
(T (W x00 x00 x00 x00 x00 x00 x00 x00)
(T (W x45 x26 x22 x84 xe4 x9c xf2 xcb)
(T (W x4f x84 x6f x8b xe8 xcb x63 xb7)
(T (W x00 x00 x00 x00 x00 x00 x00 x00)
(L (W x45 x26 x22 x84 xe4 x9c xf2 xcb))
(L (W x45 x26 x22 x84 xe4 x9c xf2 xcb)))
(T (W x8e x18 xb9 x28 xbf xd3 x67 x6a)
(L (W x45 x26 x22 x84 xe4 x9c xf2 xcb)) E))
(T (W x03 x00 x00 x00 x00 x00 x80 x3f)
(T (W x04 x00 x00 x00 xa0 xdd xfd xff)
(L (W x45 x26 x22 x84 xe4 x9c xf2 xcb))
(L (W x00 x00 x00 x00 x00 x00 x00 x00)))
(T (W x45 x26 x22 x84 xe4 x9c xf2 xcb)
(L (W x00 x00 x00 x00 xb8 x5d xff xff)) E)))
(T (W x00 x00 x80 xbf x00 x00 x80 xbf)
(T (W x00 x00 x00 x00 x01 x00 x00 x00)
(T (W x00 x00 x00 x00 x01 x00 x00 x00)
(L (W xb4 xbd xfe xff x00 x00 x00 x00))
(L (W x04 x00 x00 x00 x00 x00 x00 x00)))
(T (W x42 x52 x45 x41 x4b x5f x41 x52)
(L (W x44 x00 x00 x00 x30 x00 x00 x00)) E))
(T (W x00 x00 x00 x00 xb8 x7d xfd xff)
(T (W x04 x00 x00 x00 x00 x00 x00 x00)
(L (W xb4 xfd xfe xff x36 xfd xfe xff))
(L (W x00 x00 x00 x00 x00 x00 x00 x00)))
(T (W x00 x00 x80 x40 x24 x01 x00 x00)
(L (W x5f x4e x45 x57 x5f x4f x55 x54)) E))))
(T (W x00 x00 x00 x00 x00 x00 x00 x00)
(T (W x78 x00 x00 x00 x6c x00 x00 x00)
(T (W x00 x00 x80 xbf x9c x00 x00 x00)
(T (W x45 x26 x22 x84 xe4 x9c xf2 xcb)
(L (W x01 x00 x00 x00 x01 x00 x00 x00))
(L (W x45 x26 x22 x84 xe4 x9c xf2 xcb)))
(T (W x54 x00 x00 x00 x48 x00 x00 x00)
(L (W x45 x26 x22 x84 xe4 x9c xf2 xcb)) E))
(T (W x00 x00 x00 x00 x01 x00 x00 x00)
(T (W xb4 xed xfd xff x00 x00 x00 x00)
(L (W x01 x00 x00 x00 x00 x00 x80 x3f))
(L (W x45 x26 x22 x84 xe4 x9c xf2 xcb)))
(T (W x47 x90 xba x31 x15 xdb x38 x37)
(L (W x00 x00 x00 x00 x01 x00 x00 x00)) E)))
(T (W x2c x00 x00 x00 x20 x00 x00 x00)
(T (W x00 x00 x00 x00 x00 x00 x00 x00)
(T (W xb4 xcd xfd xff x36 xcd xfd xff)
(L (W x00 x00 x00 x00 x00 x00 x00 x00))
(L (W xcd x6c x8e x43 x29 x5c x4a x42)))
(T (W x85 x8d xa7 x28 xbf x4e x53 x6a)
(L (W x45 x26 x22 x84 xe4 x9c xf2 xcb)) E))
(T (W x42 x52 x45 x41 x4b x5f x41 x52)
(T (W x45 x26 x22 x84 xe4 x9c xf2 xcb)
(L (W x00 x00 x00 x00 x00 x00 x00 x00)) E)
(T (W x00 x00 x00 x00 x01 x00 x00 x00)
(L (W xb4 x8d xff xff x00 x00 x00 x00)) E)))))))
(T (W x28 x4b x00 x00 x3c x49 x00 x00)
(T (W x4f x84 x6f x8b xe8 xcb x63 xb7)
(T (W x4b x5f x41 x52 x45 x41 x30 x32)
(T (W x45 x26 x22 x84 xe4 x9c xf2 xcb)
(T (W x1c x01 x00 x00 x04 x00 x00 x00)
(T (W x00 x00 x00 x00 xb8 x13 xfd xff)
(T (W x00 x00 x00 x00 x01 x00 x00 x00)
(L (W x1c x00 x00 x00 x46 x53 x59 x53))
(L (W x1c x00 x00 x00 x46 x53 x59 x53)))
(T (W x04 x72 xee x13 x15 x5e xd3 x02)
(L (W xcd x0c xc7 x43 x00 x00 x00 x00)) E))
(T (W x00 x00 x00 x00 xb8 x53 xfd xff)
(T (W x04 x00 x00 x00 xf2 xd8 xfd xff)
(L (W x00 x00 x00 x00 x00 x00 x00 x00))
(L (W x04 x00 x00 x00 x00 x00 x00 x00)))
(T (W x45 x26 x22 x84 xe4 x9c xf2 xcb)
(L (W x00 x00 x00 x00 x00 x00 x00 x00)) E)))
(T (W x32 xf3 xfc xff xa4 x70 x47 x43)
(T (W x00 x00 x00 x00 xb8 x33 xfd xff)
(T (W x78 x00 x00 x00 x6c x00 x00 x00)
(L (W x45 x26 x22 x84 xe4 x9c xf2 xcb))
(L (W x04 x00 x00 x00 xd8 xb5 xff xff)))
(T (W x44 x00 x00 x00 x38 x00 x00 x00)
(L (W xb4 x33 xff xff x00 x00 x00 x00)) E))
(T (W x00 x00 x80 x3f x00 x00 x80 x3f)
(T (W x2c x00 x00 x00 x18 x00 x00 x00)
(L (W x00 x00 x00 x00 xb8 xf3 xfe xff))
(L (W x5c xf6 xff xff x50 x00 x00 x00)))
(T (W x2c x00 x00 x00 x20 x00 x00 x00)
(L (W x44 x00 x00 x00 x38 x00 x00 x00)) E))))
(T (W x49 xa1 x68 x4a xeb x5f xdd x3d)
(T (W x5c xe6 xfc xff x50 x00 x00 x00)
(T (W x00 x00 x00 x00 x36 x23 xfd xff)
(T (W x3d xaa x33 x44 xd7 xa3 x0e x42)
(L (W x00 x00 x00 x00 x00 x00 x00 x00))
(L (W x44 x00 x00 x00 x30 x00 x00 x00)))
(T (W x5c x00 x00 x00 x50 x00 x00 x00)
(L (W xb4 x23 xff xff x00 x00 x00 x00)) E))
(T (W x04 x00 x00 x00 xf2 x68 xfd xff)
(T (W x5f x4d x41 x53 x53 x5f x47 x41)
(L (W x00 x00 x00 x00 xb8 xe3 xfe xff))
(L (W x00 x00 x00 x00 x36 xe3 xff xff)))
(T (W xe6 x5a xca xc9 x03 x86 xa3 xbc)
(L (W x60 x00 x00 x00 x54 x00 x00 x00)) E)))
(T (W x04 x00 x00 x00 xf2 x08 xfd xff)
(T (W x01 x00 x00 x00 x00 x00 x80 x3f)
(T (W x45 x26 x22 x84 xe4 x9c xf2 xcb)
(L (W x1c x01 x00 x00 x01 x00 x00 x00))
(L (W x5c xc6 xff xff x50 x00 x00 x00)))
(T (W x00 x00 x00 x00 x01 x00 x00 x00)
(L (W x3c x01 x00 x00 x30 x01 x00 x00)) E))
(T (W x48 x00 x00 x00 x34 x00 x00 x00)
(T (W x2c x00 x00 x00 x20 x00 x00 x00)
(L (W x00 x00 x80 xbf x9c x00 x00 x00)) E)
(T (W x54 x00 x00 x00 x48 x00 x00 x00)
(L (W x04 x00 x00 x00 x00 x00 x00 x00)) E)))))
(T (W x45 x26 x22 x84 xe4 x9c xf2 xcb)
(T (W x00 x00 x00 x00 x00 x00 x00 x00)
(T (W x54 x00 x00 x00 x48 x00 x00 x00)
(T (W xb4 x1b xfd xff x36 x1b xfd xff)
(T (W x44 x00 x00 x00 x38 x00 x00 x00)
(L (W x04 x00 x00 x00 x00 x00 x00 x00))
(L (W xb4 x9b xff xff x00 x00 x00 x00)))
(T (W x5c x1e xfe xff x50 x00 x00 x00)
(L (W x45 x26 x22 x84 xe4 x9c xf2 xcb)) E))
(T (W x00 x00 x00 x00 x00 x00 x00 x00)
(T (W x00 x00 x00 x00 xb8 xdb xfd xff)
(L (W x00 x00 x00 x00 x01 x00 x00 x00))
(L (W x00 x00 x00 x00 x00 x00 x00 x00)))
(T (W x04 x00 x00 x00 xf2 x60 xfe xff)
(L (W x45 x26 x22 x84 xe4 x9c xf2 xcb)) E)))
(T (W x00 x00 xe0 x40 x24 x01 x00 x00)
(T (W x00 x00 x00 x00 x00 x00 x00 x00)
(T (W xd4 xff x76 x1e x15 xb2 xff x14)
(L (W x00 x00 x00 x00 x00 x00 x00 x00))
(L (W x00 x00 x80 xbf x00 x00 x80 xbf)))
(T (W xcd x0c x12 x44 x00 x00 x00 x00)
(L (W x00 x00 x00 x00 x00 x00 x00 x00)) E))
(T (W x40 x00 x00 x00 x38 x00 x00 x00)
(T (W x00 x00 x80 xbf x00 x00 x80 xbf)
(L (W x5c x00 x00 x00 x50 x00 x00 x00))
(L (W x04 x00 x00 x00 xd8 xfd xff xff)))
(T (W x9a xe9 x3c x44 x00 x00 x00 x00)
(L (W x8f xe2 x04 x44 xa4 x70 x16 x42)) E))))
(T (W x53 x5f x47 x41 x4e x45 x52 x41)
(T (W xb4 xeb xfc xff x00 x00 x00 x00)
(T (W x52 x4f xfd xff x00 x00 x00 x01)
(T (W x04 x00 x00 x00 xf2 xb0 xfd xff)
(L (W x00 x00 x00 x00 x7a xb3 xfe xff))
(L (W x54 x00 x00 x00 x48 x00 x00 x00)))
(T (W x04 x00 x00 x00 xf2 x30 xfe xff)
(L (W x34 x00 x00 x00 x20 x00 x00 x00)) E))
(T (W x00 x00 x00 x00 x00 x00 x00 x00)
(T (W x45 x26 x22 x84 xe4 x9c xf2 xcb)
(L (W x00 x00 x00 x00 x00 x00 x00 x00))
(L (W x1c x01 x00 x00 x01 x00 x00 x00)))
(T (W x3c x01 x00 x00 x30 x01 x00 x00)
(L (W x00 x00 x80 xbf x9c x00 x00 x00)) E)))
(T (W x01 x00 x00 x00 x04 x00 x00 x00)
(T (W x5c x4e xfd xff x50 x00 x00 x00)
(T (W x5c x00 x00 x00 x50 x00 x00 x00)
(L (W x44 x00 x00 x00 x38 x00 x00 x00))
(L (W x44 x00 x00 x00 x30 x00 x00 x00)))
(T (W x5c x4e xfe xff x50 x00 x00 x00)
(L (W x00 x00 x00 x00 xb8 x4b xff xff)) E))
(T (W x00 x00 x00 x00 x00 x00 x00 x00)
(T (W x04 x00 x00 x00 xa0 x0b xfe xff)
(L (W x75 x59 x48 xdc x00 x5e x59 x2f)) E)
(T (W x00 x00 x00 x00 x00 x00 x00 x00)
(L (W x45 x26 x22 x84 xe4 x9c xf2 xcb)) E))))))
(T (W x00 x00 x00 x00 x00 x00 x00 x00)
(T (W x04 x00 x00 x00 x00 x00 x80 x3f)
(T (W x44 x00 x00 x00 x38 x00 x00 x00)
(T (W xe8 x0c x51 xbf x7c xe9 x26 x3f)
(T (W x48 x00 x00 x00 x34 x00 x00 x00)
(T (W x45 x26 x22 x84 xe4 x9c xf2 xcb)
(L (W x00 x00 xa0 x40 x24 x01 x00 x00))
(L (W x45 x26 x22 x84 xe4 x9c xf2 xcb)))
(T (W x04 x00 x00 x00 xf2 x1c xfe xff)
(L (W xd2 xf2 x77 x0f xdc xd5 x62 x96)) E))
(T (W x48 x00 x00 x00 x34 x00 x00 x00)
(T (W x44 x00 x00 x00 x38 x00 x00 x00)
(L (W x34 x01 x00 x00 x00 x00 xa0 x40))
(L (W x45 x26 x22 x84 xe4 x9c xf2 xcb)))
(T (W x01 x00 x00 x00 x00 x00 x80 x3f)
(L (W x45 x26 x22 x84 xe4 x9c xf2 xcb)) E)))
(T (W x1b x00 x00 x00 x57 x53 x59 x53)
(T (W x45 x26 x22 x84 xe4 x9c xf2 xcb)
(T (W xe1 x0a x32 x44 x7b x14 x17 x42)
(L (W x45 x26 x22 x84 xe4 x9c xf2 xcb))
(L (W x32 xb7 xff xff x00 x00 x80 x3f)))
(T (W x00 x00 x00 x00 xb8 x37 xfe xff)
(L (W x05 x45 x45 xdc x00 xdb x55 x2f)) E))
(T (W x00 x00 xa0 x40 x24 x01 x00 x00)
(T (W x00 x00 x00 x00 x00 x00 x00 x00)
(L (W x00 x00 x00 x00 x00 x00 x00 x00))
(L (W x00 x00 x00 x00 x01 x00 x00 x00)))
(T (W x78 x00 x00 x00 x6c x00 x00 x00)
(L (W x00 x00 x00 x00 xb8 x77 xff xff)) E))))
(T (W x1f x85 xb9 x43 x00 x00 x00 x00)
(T (W x00 x00 x00 x00 x00 x00 x00 x00)
(T (W x00 x00 x00 x00 x13 x00 x00 x00)
(T (W x00 x00 x00 x00 x7a xaf xfd xff)
(L (W x72 xeb x22 x37 x6d xc8 x9b xc2))
(L (W x3c x01 x00 x00 x30 x01 x00 x00)))
(T (W x00 x00 x00 x00 x7a x2f xfe xff)
(L (W x00 x00 x00 x00 x00 x00 x00 x00)) E))
(T (W x44 x00 x00 x00 x38 x00 x00 x00)
(T (W x34 x00 x00 x00 x20 x00 x00 x00)
(L (W x00 x00 x00 x00 x36 xe7 xfe xff))
(L (W x5f x4f x55 x54 x42 x52 x45 x41)))
(T (W x44 x00 x00 x00 x30 x00 x00 x00)
(L (W x32 x30 x00 x00 x1b x00 x00 x00)) E)))
(T (W x45 x26 x22 x84 xe4 x9c xf2 xcb)
(T (W x00 x00 x00 x00 x01 x00 x00 x00)
(T (W x2c x00 x00 x00 x20 x00 x00 x00)
(L (W x45 x26 x22 x84 xe4 x9c xf2 xcb))
(L (W x00 x00 x00 x00 x00 x00 x00 x00)))
(T (W x00 x00 x00 x00 xb8 x47 xfe xff)
(L (W x00 x00 x00 x00 x01 x00 x00 x00)) E))
(T (W x00 x00 x80 x3f xb8 x87 xfd xff)
(T (W x00 x00 x00 x00 x00 x00 x00 x00)
(L (W x45 x26 x22 x84 xe4 x9c xf2 xcb)) E)
(T (W x45 x26 x22 x84 xe4 x9c xf2 xcb)
(L (W x45 x26 x22 x84 xe4 x9c xf2 xcb)) E)))))
(T (W x40 x00 x00 x00 x38 x00 x00 x00)
(T (W x00 x00 x00 x00 x01 x00 x00 x00)
(T (W x45 x26 x22 x84 xe4 x9c xf2 xcb)
(T (W x00 x00 x80 x3f x00 x00 x80 x3f)
(T (W x78 x00 x00 x00 x6c x00 x00 x00)
(L (W x01 x00 x00 x00 x04 x00 x00 x00))
(L (W x00 x00 x00 x00 x00 x00 x00 x00)))
(T (W x00 x00 x00 x00 x00 x00 x00 x00)
(L (W x44 x00 x00 x00 x38 x00 x00 x00)) E))
(T (W x00 x00 x80 xbf x00 x00 x80 xbf)
(T (W x44 x00 x00 x00 x30 x00 x00 x00)
(L (W xb4 xdf xfe xff x00 x00 x00 x00))
(L (W x78 x00 x00 x00 x6c x00 x00 x00)))
(T (W x45 x26 x22 x84 xe4 x9c xf2 xcb)
(L (W xc1 xa8 xaa x28 xbf xd5 x56 x6a)) E)))
(T (W x76 x09 xb5 x4b xbc xa9 xfa xea)
(T (W x45 x26 x22 x84 xe4 x9c xf2 xcb)
(T (W x04 x00 x00 x00 xf2 xc4 xfd xff)
(L (W x45 x26 x22 x84 xe4 x9c xf2 xcb))
(L (W x40 x00 x00 x00 x38 x00 x00 x00)))
(T (W x3c x01 x00 x00 x30 x01 x00 x00)
(L (W x32 x3f xff xff x00 x00 x80 x3f)) E))
(T (W x9f x41 x45 xdc x00 xd9 x55 x2f)
(T (W x45 x26 x22 x84 xe4 x9c xf2 xcb)
(L (W x1c x00 x00 x00 x46 x53 x59 x53))
(L (W x28 x00 x00 x00 x1c x00 x00 x00)))
(T (W x00 x00 x80 xbf x00 x00 x80 xbf)
(L (W x01 x00 x00 x00 x00 x00 x80 x3f)) E))))
(T (W x5f x4d x41 x53 x53 x5f x47 x41)
(T (W x2c x00 x00 x00 x18 x00 x00 x00)
(T (W x04 x00 x00 x00 x00 x00 x00 x00)
(T (W x44 x00 x00 x00 x38 x00 x00 x00)
(L (W x3b x2c x51 x90 xd2 x60 x93 x6e))
(L (W x44 x00 x00 x00 x38 x00 x00 x00)))
(T (W x45 x26 x22 x84 xe4 x9c xf2 xcb)
(L (W x04 x00 x00 x00 xf2 x34 xff xff)) E))
(T (W x60 x00 x00 x00 x54 x00 x00 x00)
(T (W x45 x26 x22 x84 xe4 x9c xf2 xcb)
(L (W xe3 xd8 x1b x72 x9d x09 xa7 xbe))
(L (W x45 x26 x22 x84 xe4 x9c xf2 xcb)))
(T (W x54 x00 x00 x00 x48 x00 x00 x00)
(L (W x40 x00 x00 x00 x38 x00 x00 x00)) E)))
(T (W x45 x26 x22 x84 xe4 x9c xf2 xcb)
(T (W x00 x00 x00 x00 x00 x00 x00 x00)
(T (W x00 x00 x00 x00 x7a xd7 xfd xff)
(L (W x74 x00 x00 x00 x68 x00 x00 x00))
(L (W x53 x5f x47 x41 x4e x45 x52 x41)))
(T (W x00 x00 x00 x00 x00 x00 x00 x00)
(L (W xb4 x4f xff xff x00 x00 x00 x00)) E))
(T (W x00 x00 x80 xbf x00 x00 x80 xbf)
(T (W x00 x00 x00 x00 x00 x00 x00 x00)
(L (W x04 x00 x00 x00 xd8 x11 xff xff)) E)
(T (W x5c x00 x00 x00 x50 x00 x00 x00)
(L (W x45 x26 x22 x84 xe4 x9c xf2 xcb)) E))))))))
(T (W x3c xb2 x01 x00 x70 xb0 x01 x00)
(T (W x1c xc5 x00 x00 x50 xc3 x00 x00)
(T (W x54 x00 x00 x00 x48 x00 x00 x00)
(T (W x5c xa5 xfc xff x50 x00 x00 x00)
(T (W xd7 x53 x0b x44 x00 x00 xa7 x42)
(T (W x45 x26 x22 x84 xe4 x9c xf2 xcb)
(T (W x00 x00 x80 xbf x9c x00 x00 x00)
(T (W x00 x00 x00 x00 x01 x00 x00 x00)
(L (W x00 x00 x00 x00 xb8 x92 xfe xff))
(L (W x00 x00 x00 x00 xb8 x92 xff xff)))
(T (W x00 x00 x00 x00 x00 x00 x00 x00)
(L (W x45 x26 x22 x84 xe4 x9c xf2 xcb)) E))
(T (W xbf xc6 x76 x73 x9f xc3 x44 x29)
(T (W xb4 xd2 xfd xff x00 x00 x00 x00)
(L (W x45 x26 x22 x84 xe4 x9c xf2 xcb))
(L (W x00 x00 x00 x00 x00 x00 x00 x00)))
(T (W x54 x00 x00 x00 x48 x00 x00 x00)
(L (W x45 x26 x22 x84 xe4 x9c xf2 xcb)) E)))
(T (W x45 x26 x22 x84 xe4 x9c xf2 xcb)
(T (W xb4 x32 xfd xff x36 x32 xfd xff)
(T (W x45 x26 x22 x84 xe4 x9c xf2 xcb)
(L (W x32 xb2 xfe xff x00 x00 x80 x3f))
(L (W x2a x4d x25 xb1 x58 xcd xf8 xb0)))
(T (W x1c x00 x00 x00 x46 x53 x59 x53)
(L (W x00 x00 x80 x3f x00 x00 x80 x3f)) E))
(T (W x45 x26 x22 x84 xe4 x9c xf2 xcb)
(T (W x00 x00 x00 x00 x01 x00 x00 x00)
(L (W x32 xf2 xfe xff x00 x00 x80 x3f))
(L (W x00 x00 x00 x00 x1c x00 x00 x00)))
(T (W x00 x00 x00 x00 x00 x00 x00 x00)
(L (W x00 x00 x00 x00 x00 x00 x00 x00)) E))))
(T (W x04 x00 x00 x00 xf2 xc7 xfc xff)
(T (W x02 x00 x00 x00 x33 x32 x00 x00)
(T (W x40 x00 x00 x00 x38 x00 x00 x00)
(T (W x45 x26 x22 x84 xe4 x9c xf2 xcb)
(L (W x01 x00 x00 x00 x00 x00 x80 x3f))
(L (W x04 x00 x00 x00 x00 x00 x00 x00)))
(T (W x00 x00 x00 x00 x01 x00 x00 x00)
(L (W x34 x00 x00 x00 x20 x00 x00 x00)) E))
(T (W x60 x00 x00 x00 x54 x00 x00 x00)
(T (W x01 x00 x00 x00 x04 x00 x00 x00)
(L (W x00 x00 x80 xbf x9c x00 x00 x00))
(L (W x40 x00 x00 x00 x38 x00 x00 x00)))
(T (W x00 x00 x00 x00 x00 x00 x00 x00)
(L (W x00 x00 x00 x00 x01 x00 x00 x00)) E)))
(T (W x60 x00 x00 x00 x54 x00 x00 x00)
(T (W x2c x00 x00 x00 x20 x00 x00 x00)
(T (W x00 x00 x80 x3f x00 x00 x80 x3f)
(L (W x44 x00 x00 x00 x38 x00 x00 x00))
(L (W x00 xc0 xf8 x43 x00 x00 x00 x00)))
(T (W x00 x00 x00 x00 x01 x00 x00 x00)
(L (W xc1 xa8 xaa x28 xbf xd5 x56 x6a)) E))
(T (W x04 x00 x00 x00 x00 x00 x00 x00)
(T (W x5f x4e x45 x57 x5f x4f x55 x54)
(L (W x45 x26 x22 x84 xe4 x9c xf2 xcb)) E)
(T (W x48 x00 x00 x00 x34 x00 x00 x00)
(L (W x00 x00 x00 x00 x01 x00 x00 x00)) E)))))
(T (W xb4 xaa xfc xff x00 x00 x00 x00)
(T (W x00 x00 xe0 x40 x24 x01 x00 x00)
(T (W x48 x00 x00 x00 x34 x00 x00 x00)
(T (W x45 x26 x22 x84 xe4 x9c xf2 xcb)
(T (W x1c x00 x00 x00 x46 x53 x59 x53)
(L (W x00 x00 x00 x00 x00 x00 x00 x00))
(L (W x00 x00 x80 x3f x00 x00 x80 x3f)))
(T (W x33 x93 x30 x44 x00 x00 x00 x00)
(L (W x28 x00 x00 x00 x14 x00 x00 x00)) E))
(T (W x45 x26 x22 x84 xe4 x9c xf2 xcb)
(T (W x00 x00 x80 xbf x9c x00 x00 x00)
(L (W xb4 xda xfe xff x00 x00 x00 x00))
(L (W x01 x00 x00 x00 x00 x00 x80 x3f)))
(T (W xb4 x5a xfe xff x00 x00 x00 x00)
(L (W x28 x00 x00 x00 x14 x00 x00 x00)) E)))
(T (W x45 x26 x22 x84 xe4 x9c xf2 xcb)
(T (W x00 x00 x80 xbf x00 x00 x80 xbf)
(T (W x00 x00 x00 x00 x00 x00 x00 x00)
(L (W x34 x01 x00 x00 x00 x00 xa0 x40))
(L (W x31 x6a xca xc9 x03 x8f xa3 xbc)))
(T (W x45 x26 x22 x84 xe4 x9c xf2 xcb)
(L (W x00 x00 x80 xbf x00 x00 x80 xbf)) E))
(T (W x04 x00 x00 x00 xd8 x7c xfd xff)
(T (W x45 x26 x22 x84 xe4 x9c xf2 xcb)
(L (W x00 x00 x00 x00 x01 x00 x00 x00))
(L (W x00 x00 x00 x00 x00 x00 x00 x00)))
(T (W x45 x26 x22 x84 xe4 x9c xf2 xcb)
(L (W x45 x26 x22 x84 xe4 x9c xf2 xcb)) E))))
(T (W x01 x00 x00 x00 x04 x00 x00 x00)
(T (W x34 x00 x00 x00 x20 x00 x00 x00)
(T (W x55 x39 x81 x6a xc4 xc7 x74 x14)
(T (W xb4 xaa xfd xff x00 x00 x00 x00)
(L (W x00 x00 x00 x00 xb8 xaa xfe xff))
(L (W x00 x00 x00 x00 x01 x00 x00 x00)))
(T (W xb4 x2a xfe xff x00 x00 x00 x00)
(L (W x45 x26 x22 x84 xe4 x9c xf2 xcb)) E))
(T (W x00 x00 x80 xbf x00 x00 x80 xbf)
(T (W x74 x00 x00 x00 x68 x00 x00 x00)
(L (W x45 x26 x22 x84 xe4 x9c xf2 xcb))
(L (W x45 x26 x22 x84 xe4 x9c xf2 xcb)))
(T (W x01 x00 x00 x00 x04 x00 x00 x00)
(L (W x00 x00 x00 x00 x00 x00 x00 x00)) E)))
(T (W x00 x00 x00 x00 x00 x00 x00 x00)
(T (W xd7 x23 x1b x44 x00 x00 x00 x00)
(T (W x00 x00 x00 x00 x01 x00 x00 x00)
(L (W x32 x32 x00 x00 x1b x00 x00 x00))
(L (W x04 x00 x00 x00 x00 x00 x00 x00)))
(T (W x00 x00 x00 x00 x02 x00 x00 x00)
(L (W xb4 x4a xff xff x36 x4a xff xff)) E))
(T (W xb4 x8a xfd xff x00 x00 x00 x00)
(T (W x76 x7c xad x6d x64 x81 xe3 x56)
(L (W x00 x00 x00 x00 x00 x00 x00 x00)) E)
(T (W x3c x01 x00 x00 x30 x01 x00 x00)
(L (W x00 x00 x00 x00 x7a x92 xff xff)) E))))))
(T (W x45 x26 x22 x84 xe4 x9c xf2 xcb)
(T (W x00 x00 x00 x00 x00 x00 x00 x00)
(T (W x46 x53 x59 x53 x5f x4e x45 x57)
(T (W x00 x00 x00 x00 xb8 xd6 xfc xff)
(T (W x04 x00 x00 x00 x00 x00 x00 x00)
(T (W xb4 x96 xfd xff x36 x96 xfd xff)
(L (W x45 x26 x22 x84 xe4 x9c xf2 xcb))
(L (W x00 x00 x00 x00 x00 x00 x00 x00)))
(T (W x5c x00 x00 x00 x50 x00 x00 x00)
(L (W x00 x00 x00 x00 x00 x00 x00 x00)) E))
(T (W x04 x00 x00 x00 x00 x00 x00 x00)
(T (W x00 x00 x00 x00 x00 x00 x00 x00)
(L (W x5c xd9 xfe xff x50 x00 x00 x00))
(L (W x32 xd6 xff xff xb8 xbe xac x43)))
(T (W x2c x00 x00 x00 x20 x00 x00 x00)
(L (W x00 x00 x00 x00 x00 x00 x00 x00)) E)))
(T (W x00 x00 x00 x00 xb8 xf6 xfc xff)
(T (W x5f x30 x30 x33 x00 x00 x00 x00)
(T (W x45 x26 x22 x84 xe4 x9c xf2 xcb)
(L (W x00 x00 x80 x3f xb8 xb6 xfe xff))
(L (W x40 x00 x00 x00 x38 x00 x00 x00)))
(T (W x00 x00 x80 xbf x9c x00 x00 x00)
(L (W x42 x52 x45 x41 x4b x5f x41 x52)) E))
(T (W x5c x79 xfd xff x50 x00 x00 x00)
(T (W x45 x26 x22 x84 xe4 x9c xf2 xcb)
(L (W x3c x01 x00 x00 x30 x01 x00 x00))
(L (W xfe xda xca xf8 x1d xda x70 x9e)))
(T (W x45 x26 x22 x84 xe4 x9c xf2 xcb)
(L (W x00 x00 x80 xbf x9c x00 x00 x00)) E))))
(T (W x45 x26 x22 x84 xe4 x9c xf2 xcb)
(T (W x3c x01 x00 x00 x30 x01 x00 x00)
(T (W xb4 x26 xfd xff x00 x00 x00 x00)
(T (W x00 x00 x00 x00 xb8 xa6 xfd xff)
(L (W x04 x00 x00 x00 xf2 xab xfe xff))
(L (W x01 x00 x00 x00 x04 x00 x00 x00)))
(T (W x00 x00 x00 x00 xb8 x26 xfe xff)
(L (W x45 x26 x22 x84 xe4 x9c xf2 xcb)) E))
(T (W x00 x00 x00 x00 x00 x00 x00 x00)
(T (W x00 x00 x00 x00 x00 x00 x00 x00)
(L (W x40 x00 x00 x00 x38 x00 x00 x00))
(L (W x01 x00 x00 x00 x04 x00 x00 x00)))
(T (W x04 x00 x00 x00 x00 x00 x00 x00)
(L (W xb4 x66 xff xff x00 x00 x00 x00)) E)))
(T (W x00 x00 x80 x3f x00 x00 x80 x3f)
(T (W x78 x00 x00 x00 x6c x00 x00 x00)
(T (W x5f x4e x45 x57 x5f x4f x55 x54)
(L (W x74 x00 x00 x00 x68 x00 x00 x00))
(L (W x3c x01 x00 x00 x30 x01 x00 x00)))
(T (W xb4 x46 xfe xff x36 x46 xfe xff)
(L (W x00 x00 x00 x00 x01 x00 x00 x00)) E))
(T (W x45 x26 x22 x84 xe4 x9c xf2 xcb)
(T (W x1c x01 x00 x00 x01 x00 x00 x00)
(L (W x28 x00 x00 x00 x14 x00 x00 x00)) E)
(T (W x55 x6c xfc xf1 x99 x9e xc9 x88)
(L (W x55 x6c xfc xf1 x99 x9e xc9 x88)) E)))))
(T (W x28 x00 x00 x00 x14 x00 x00 x00)
(T (W xe0 xba x83 x67 x2b x74 xed x8e)
(T (W x00 x00 x80 x3f xb8 xde xfc xff)
(T (W x45 x26 x22 x84 xe4 x9c xf2 xcb)
(T (W x45 x26 x22 x84 xe4 x9c xf2 xcb)
(L (W x33 xf3 x10 x44 x71 x3d xf3 x42))
(L (W x00 x00 x40 x40 x24 x01 x00 x00)))
(T (W x00 x00 x80 xbf x00 x00 x80 xbf)
(L (W x00 x00 x00 x00 x00 x00 x00 x00)) E))
(T (W x00 x00 x00 x00 x00 x00 x00 x00)
(T (W x04 x00 x00 x00 x00 x00 x00 x00)
(L (W xa4 x70 xc3 x42 x00 x00 x00 x00))
(L (W xfc xdd x1b x72 x9d x0c xa7 xbe)))
(T (W x00 x00 x80 x3f x00 x00 x80 x3f)
(L (W x00 x00 x00 x00 x00 x00 x00 x00)) E)))
(T (W x00 x00 x00 x00 x00 x00 x00 x00)
(T (W x54 x00 x00 x00 x48 x00 x00 x00)
(T (W x5c x00 x00 x00 x50 x00 x00 x00)
(L (W x04 x00 x00 x00 xf2 xc3 xfe xff))
(L (W x44 x00 x00 x00 x30 x00 x00 x00)))
(T (W x7e x99 x4a xdc x00 x64 x5c x2f)
(L (W x40 x00 x00 x00 x38 x00 x00 x00)) E))
(T (W x00 x00 x00 x00 x00 x00 x00 x00)
(T (W x44 x00 x00 x00 x30 x00 x00 x00)
(L (W x00 x00 x00 x00 xb8 xfe xfe xff))
(L (W x00 x00 x20 x41 x4c x01 x00 x00)))
(T (W x00 x00 x00 x00 x00 x00 x00 x00)
(L (W x2c x00 x00 x00 x20 x00 x00 x00)) E))))
(T (W x01 x00 x00 x00 x04 x00 x00 x00)
(T (W x00 x00 x00 x00 x01 x00 x00 x00)
(T (W x00 x00 x00 x00 xb8 x2e xfd xff)
(T (W x00 x00 x00 x00 x00 x00 x00 x00)
(L (W x00 x00 x00 x00 x00 x00 x00 x00))
(L (W x00 x00 x00 x00 x00 x00 x00 x00)))
(T (W x45 x26 x22 x84 xe4 x9c xf2 xcb)
(L (W x74 x00 x00 x00 x68 x00 x00 x00)) E))
(T (W x00 x00 x00 x00 x01 x00 x00 x00)
(T (W x00 x00 x00 x00 x00 x00 x00 x00)
(L (W x00 x00 x00 x00 x00 x00 x00 x00))
(L (W x74 x00 x00 x00 x68 x00 x00 x00)))
(T (W x00 x00 x00 x00 x01 x00 x00 x00)
(L (W x2c x00 x00 x00 x18 x00 x00 x00)) E)))
(T (W xaa xf2 xff xff x00 x00 x00 x01)
(T (W x00 x00 x80 xbf x00 x00 x80 xbf)
(T (W x00 x00 x00 x00 xb8 xce xfd xff)
(L (W x45 x26 x22 x84 xe4 x9c xf2 xcb))
(L (W x01 x00 x00 x00 x04 x00 x00 x00)))
(T (W x00 x00 x80 xbf x00 x00 x80 xbf)
(L (W x34 x00 x00 x00 x20 x00 x00 x00)) E))
(T (W x41 x2f xc8 xc9 x03 x8c xa0 xbc)
(T (W x45 x26 x22 x84 xe4 x9c xf2 xcb)
(L (W xa9 x6d xb1 xfe xf4 x16 xa2 x17)) E)
(T (W x00 x00 x00 x00 x01 x00 x00 x00)
(L (W x04 x00 x00 x00 xf2 x93 xff xff)) E)))))))
(T (W x04 x00 x00 x00 x00 x00 x00 x00)
(T (W x45 x26 x22 x84 xe4 x9c xf2 xcb)
(T (W x3f x7c x88 xaf x9a x1e x19 x7c)
(T (W x00 x00 x00 x00 x00 x00 x00 x00)
(T (W x00 x00 x00 x00 x00 x00 x00 x00)
(T (W x20 x78 xf3 xce xa1 x27 x36 x54)
(T (W x5c x00 x00 x00 x50 x00 x00 x00)
(L (W x44 x00 x00 x00 x38 x00 x00 x00))
(L (W x44 x00 x00 x00 x38 x00 x00 x00)))
(T (W x00 x00 x00 x00 x01 x00 x00 x00)
(L (W x5c x17 xff xff x50 x00 x00 x00)) E))
(T (W x36 x70 xf9 x25 x0a x12 xc5 xf2)
(T (W x45 x26 x22 x84 xe4 x9c xf2 xcb)
(L (W xb4 xd4 xfe xff x00 x00 x00 x00))
(L (W x44 x00 x00 x00 x30 x00 x00 x00)))
(T (W x45 x26 x22 x84 xe4 x9c xf2 xcb)
(L (W x44 x00 x00 x00 x38 x00 x00 x00)) E)))
(T (W x45 x26 x22 x84 xe4 x9c xf2 xcb)
(T (W x1c x00 x00 x00 x46 x53 x59 x53)
(T (W x40 x00 x00 x00 x38 x00 x00 x00)
(L (W x00 x00 x80 x3f x00 x00 x80 x3f))
(L (W x40 x00 x00 x00 x38 x00 x00 x00)))
(T (W x45 x41 x30 x32 x5f x30 x31 x37)
(L (W x00 x00 x00 x00 x00 x00 x00 x00)) E))
(T (W x45 x26 x22 x84 xe4 x9c xf2 xcb)
(T (W x45 x26 x22 x84 xe4 x9c xf2 xcb)
(L (W x00 x00 x00 x00 x00 x00 x00 x00))
(L (W x34 x01 x00 x00 x00 x00 xe0 x40)))
(T (W x1c x01 x00 x00 x01 x00 x00 x00)
(L (W x1c x01 x00 x00 x01 x00 x00 x00)) E))))
(T (W x45 x26 x22 x84 xe4 x9c xf2 xcb)
(T (W x4e x45 x52 x41 x54 x49 x4f x4e)
(T (W x45 x26 x22 x84 xe4 x9c xf2 xcb)
(T (W x45 x26 x22 x84 xe4 x9c xf2 xcb)
(L (W x00 x00 x00 x00 x01 x00 x00 x00))
(L (W x45 x26 x22 x84 xe4 x9c xf2 xcb)))
(T (W x45 x26 x22 x84 xe4 x9c xf2 xcb)
(L (W x04 x00 x00 x00 xf2 x29 xff xff)) E))
(T (W x45 x26 x22 x84 xe4 x9c xf2 xcb)
(T (W x2c x00 x00 x00 x20 x00 x00 x00)
(L (W x00 x00 x00 x00 x01 x00 x00 x00))
(L (W x45 x26 x22 x84 xe4 x9c xf2 xcb)))
(T (W x00 x00 x80 xbf x00 x00 x80 xbf)
(L (W x45 x26 x22 x84 xe4 x9c xf2 xcb)) E)))
(T (W xd6 x81 x9c x94 x9b x27 x57 x25)
(T (W x00 x00 x00 x00 x00 x00 x00 x00)
(T (W x33 x33 x0d x42 xcd xec x50 x44)
(L (W x00 x00 x00 x00 x00 x00 x00 x00))
(L (W x42 x52 x45 x41 x4b x5f x41 x52)))
(T (W x5c x00 x00 x00 x50 x00 x00 x00)
(L (W x00 x00 x00 x00 x00 x00 x00 x00)) E))
(T (W x54 x00 x00 x00 x48 x00 x00 x00)
(T (W x00 x00 x00 x00 x7a x0c xfe xff)
(L (W x00 x00 x00 x00 xb8 x04 xff xff)) E)
(T (W x55 x6c xfc xf1 x99 x9e xc9 x88)
(L (W x48 x00 x00 x00 x34 x00 x00 x00)) E)))))
(T (W x74 x00 x00 x00 x68 x00 x00 x00)
(T (W x00 x00 x80 xbf x00 x00 x80 xbf)
(T (W x4f x84 x6f x8b xe8 xcb x63 xb7)
(T (W x54 x00 x00 x00 x48 x00 x00 x00)
(T (W x1c x01 x00 x00 x01 x00 x00 x00)
(L (W x44 x00 x00 x00 x30 x00 x00 x00))
(L (W x00 x00 x00 x00 x00 x00 x00 x00)))
(T (W x42 x52 x45 x41 x4b x5f x41 x52)
(L (W x00 x00 x80 x3f x00 x00 x80 x3f)) E))
(T (W x2c x00 x00 x00 x20 x00 x00 x00)
(T (W x35 xb0 x8f x39 xad xeb xcf xf5)
(L (W x28 x00 x00 x00 x14 x00 x00 x00))
(L (W x01 x00 x00 x00 x00 x00 x80 x3f)))
(T (W x55 x39 x81 x6a xc4 xc7 x74 x14)
(L (W x48 xe1 x29 x42 x52 xa8 x1c x44)) E)))
(T (W x00 x00 x00 x00 x00 x00 x00 x00)
(T (W x0e x44 x2d xf0 x2c x44 x07 xdb)
(T (W x00 x00 x00 x00 x01 x00 x00 x00)
(L (W x34 x00 x00 x00 x20 x00 x00 x00))
(L (W x00 x00 x00 x00 x00 x00 x00 x00)))
(T (W x5c x3f xfe xff x50 x00 x00 x00)
(L (W x04 x00 x00 x00 x00 x00 x00 x00)) E))
(T (W x32 x7c xfd xff x00 x00 x80 x3f)
(T (W x00 x00 x00 x00 x00 x00 x00 x00)
(L (W x45 x26 x22 x84 xe4 x9c xf2 xcb))
(L (W x00 x00 x80 xbf x98 x00 x00 x00)))
(T (W x5c x7f xfe xff x50 x00 x00 x00)
(L (W x01 x00 x00 x00 x04 x00 x00 x00)) E))))
(T (W x00 x00 x00 x00 xb8 xcc xfc xff)
(T (W x45 x26 x22 x84 xe4 x9c xf2 xcb)
(T (W x45 x26 x22 x84 xe4 x9c xf2 xcb)
(T (W x45 x26 x22 x84 xe4 x9c xf2 xcb)
(L (W x45 x26 x22 x84 xe4 x9c xf2 xcb))
(L (W x45 x26 x22 x84 xe4 x9c xf2 xcb)))
(T (W x5c x00 x00 x00 x50 x00 x00 x00)
(L (W xb4 x2c xff xff x00 x00 x00 x00)) E))
(T (W x73 x7d x64 x23 x15 xcf xaf x1d)
(T (W x00 x00 x80 x3f x00 x00 x80 x3f)
(L (W x2c x00 x00 x00 x20 x00 x00 x00))
(L (W x00 x00 x00 x00 x00 x00 x00 x00)))
(T (W x00 x00 x00 x00 x00 x00 x00 x00)
(L (W x00 x00 x00 x00 xb8 x6c xff xff)) E)))
(T (W x5f x4d x41 x53 x53 x5f x47 x41)
(T (W x00 x00 x40 x40 x24 x01 x00 x00)
(T (W x45 x26 x22 x84 xe4 x9c xf2 xcb)
(L (W x1c x01 x00 x00 x01 x00 x00 x00))
(L (W x45 x26 x22 x84 xe4 x9c xf2 xcb)))
(T (W x42 x52 x45 x41 x4b x5f x41 x52)
(L (W x00 x00 x00 x00 x7a x54 xff xff)) E))
(T (W x5c x8f xfd xff x50 x00 x00 x00)
(T (W x54 x00 x00 x00 x48 x00 x00 x00)
(L (W x00 x00 x00 x41 x24 x01 x00 x00)) E)
(T (W x91 x93 xa3 x28 x15 x85 xbf x26)
(L (W x34 x00 x00 x00 x20 x00 x00 x00)) E))))))
(T (W xb4 xa0 xfc xff x00 x00 x00 x00)
(T (W x00 x00 x00 x00 x00 x00 x00 x00)
(T (W x5f x30 x31 x30 x00 x00 x00 x00)
(T (W x04 x00 x00 x00 xa0 xd8 xfc xff)
(T (W x54 x00 x00 x00 x48 x00 x00 x00)
(T (W x00 x00 x00 x00 x00 x00 x00 x00)
(L (W x00 x00 x00 x00 x00 x00 x00 x00))
(L (W x74 x00 x00 x00 x68 x00 x00 x00)))
(T (W x45 x26 x22 x84 xe4 x9c xf2 xcb)
(L (W x04 x00 x00 x00 xd8 x1a xff xff)) E))
(T (W x54 x00 x00 x00 x48 x00 x00 x00)
(T (W x1c x01 x00 x00 x01 x00 x00 x00)
(L (W x00 x00 x00 x00 x00 x00 x00 x00))
(L (W x00 x00 x00 x00 x00 x00 x00 x00)))
(T (W x00 x00 x00 x00 x00 x00 x00 x00)
(L (W x78 x00 x00 x00 x6c x00 x00 x00)) E)))
(T (W x44 x00 x00 x00 x38 x00 x00 x00)
(T (W x28 x01 x00 x00 x20 x01 x00 x00)
(T (W x01 x00 x00 x00 x04 x00 x00 x00)
(L (W x00 x00 x00 x00 x00 x00 x00 x00))
(L (W x00 x00 x00 x00 xb8 xb8 xff xff)))
(T (W x00 x00 x00 x00 x01 x00 x00 x00)
(L (W x00 x00 x80 x40 x24 x01 x00 x00)) E))
(T (W x00 x00 x00 x00 x00 x00 x00 x00)
(T (W x00 x00 x00 x00 xb8 xf8 xfd xff)
(L (W x01 x00 x00 x00 x00 x00 x80 x3f))
(L (W x70 x56 x3a x7e x5c x8b x85 xc1)))
(T (W x00 x00 x00 x00 x01 x00 x00 x00)
(L (W x00 x00 x00 x00 x01 x00 x00 x00)) E))))
(T (W x00 x00 x00 x00 xb8 xc8 xfc xff)
(T (W x04 x00 x00 x00 x00 x00 x80 x3f)
(T (W x28 x00 x00 x00 x1c x00 x00 x00)
(T (W x45 x26 x22 x84 xe4 x9c xf2 xcb)
(L (W x45 x26 x22 x84 xe4 x9c xf2 xcb))
(L (W x00 x00 x00 x00 x00 x00 x00 x00)))
(T (W x45 x26 x22 x84 xe4 x9c xf2 xcb)
(L (W x00 x00 x00 x00 xb8 x28 xff xff)) E))
(T (W x28 x01 x00 x00 x20 x01 x00 x00)
(T (W xb4 xe8 xfd xff x00 x00 x00 x00)
(L (W x45 x26 x22 x84 xe4 x9c xf2 xcb))
(L (W x2c x00 x00 x00 x20 x00 x00 x00)))
(T (W x45 x26 x22 x84 xe4 x9c xf2 xcb)
(L (W x44 x00 x00 x00 x38 x00 x00 x00)) E)))
(T (W x3d x0a x62 x42 xc3 x05 x05 x44)
(T (W x28 x00 x00 x00 x14 x00 x00 x00)
(T (W x01 x00 x00 x00 x00 x00 x80 x3f)
(L (W x00 x00 x80 x3f x00 x00 x80 x3f))
(L (W x46 xa8 x97 x16 x1e xbe xd6 xd2)))
(T (W x00 x00 x00 x00 x00 x00 x00 x00)
(L (W x5c x00 x00 x00 x50 x00 x00 x00)) E))
(T (W x45 x26 x22 x84 xe4 x9c xf2 xcb)
(T (W x00 x00 x80 xbf x9c x00 x00 x00)
(L (W x33 x33 x82 x43 x00 x00 x00 x00)) E)
(T (W x8f xc2 xff x43 x85 xeb x40 x42)
(L (W xb4 x88 xff xff x36 x88 xff xff)) E)))))
(T (W x32 xb0 xfc xff x00 x00 x80 x3f)
(T (W x00 x00 x00 x00 x01 x00 x00 x00)
(T (W x00 x00 x00 x00 x00 x00 x00 x00)
(T (W x40 x00 x00 x00 x38 x00 x00 x00)
(T (W x40 x00 x00 x00 x38 x00 x00 x00)
(L (W x3c x01 x00 x00 x30 x01 x00 x00))
(L (W x00 x00 x80 xbf x00 x00 x80 xbf)))
(T (W xdf xe4 x04 x37 x15 xfb x55 x40)
(L (W x41 x30 x32 x00 x7a x28 xff xff)) E))
(T (W x00 x00 x00 x00 x00 x00 x00 x00)
(T (W x45 x26 x22 x84 xe4 x9c xf2 xcb)
(L (W x00 x00 x00 x00 x00 x00 x00 x00))
(L (W x00 x00 x00 x00 x01 x00 x00 x00)))
(T (W x52 x38 x8e x42 x7b x74 xdb x43)
(L (W x00 x00 x80 xbf x00 x00 x80 xbf)) E)))
(T (W x00 x00 x00 x00 x01 x00 x00 x00)
(T (W x45 x26 x22 x84 xe4 x9c xf2 xcb)
(T (W x55 x39 x81 x6a xc4 xc7 x74 x14)
(L (W x45 x26 x22 x84 xe4 x9c xf2 xcb))
(L (W x32 xc0 xff xff x00 x00 x80 x3f)))
(T (W x00 x00 x00 x00 x00 x00 x00 x00)
(L (W x00 x00 x00 x00 xb8 x40 xff xff)) E))
(T (W x00 x00 x80 xbf x00 x00 x80 xbf)
(T (W xcd xbc x41 x44 x71 x3d x17 x42)
(L (W x44 x00 x00 x00 x38 x00 x00 x00))
(L (W x00 x00 x00 x00 x00 x00 x00 x00)))
(T (W x00 x00 x00 x00 x00 x00 x00 x00)
(L (W x00 x00 x00 x00 x00 x00 x00 x00)) E))))
(T (W x2c x00 x00 x00 x20 x00 x00 x00)
(T (W x40 x00 x00 x00 x38 x00 x00 x00)
(T (W x48 x00 x00 x00 x34 x00 x00 x00)
(T (W x1c x01 x00 x00 x01 x00 x00 x00)
(L (W x04 x00 x00 x00 xd8 xb2 xfe xff))
(L (W x00 x00 xa0 x40 x24 x01 x00 x00)))
(T (W x00 x00 x00 x00 x00 x00 x00 x00)
(L (W x55 x39 x81 x6a xc4 xc7 x74 x14)) E))
(T (W x04 x00 x00 x00 xf2 x75 xfd xff)
(T (W x00 x00 x80 xbf x9c x00 x00 x00)
(L (W x78 x00 x00 x00 x6c x00 x00 x00))
(L (W x00 x00 x80 x3f x00 x00 x80 x3f)))
(T (W x45 x26 x22 x84 xe4 x9c xf2 xcb)
(L (W x00 x00 x00 x00 x36 x70 xff xff)) E)))
(T (W x1c x01 x00 x00 x04 x00 x00 x00)
(T (W xb6 xe6 xad x00 x15 xaf x9d xe0)
(T (W x45 x26 x22 x84 xe4 x9c xf2 xcb)
(L (W x45 x26 x22 x84 xe4 x9c xf2 xcb))
(L (W x31 x6a xca xc9 x03 x8f xa3 xbc)))
(T (W x04 x00 x00 x00 x00 x00 x00 x00)
(L (W x04 x00 x00 x00 xf2 x55 xff xff)) E))
(T (W x00 x00 x00 x00 x00 x00 x00 x00)
(T (W x5c x13 xfe xff x50 x00 x00 x00)
(L (W x40 x00 x00 x00 x38 x00 x00 x00)) E)
(T (W x45 x26 x22 x84 xe4 x9c xf2 xcb)
(L (W x45 x26 x22 x84 xe4 x9c xf2 xcb)) E))))))))))))
(T (W x74 x65 x03 x00 xa4 x63 x03 x00)
(T (W xa8 x56 x03 x00 xc0 x54 x03 x00)
(T (W xf4 x38 x03 x00 x10 x37 x03 x00)
(T (W x2c xfe x02 x00 x60 xfc x02 x00)
(T (W x4c x88 x02 x00 x68 x86 x02 x00)
(T (W x0c x9c x01 x00 x20 x9a x01 x00)
(T (W x45 x26 x22 x84 xe4 x9c xf2 xcb)
(T (W x3f x7c x88 xaf x9a x1e x19 x7c)
(T (W x00 x00 x00 x00 x00 x00 x00 x00)
(T (W x00 x00 x00 x00 x00 x00 x00 x00)
(T (W x92 x84 xa8 x5c x43 x2d xef x1c)
(T (W x60 x00 x00 x00 x54 x00 x00 x00)
(L (W xe4 x90 xfe xff x00 x00 x00 x00))
(L (W x8c x93 xff xff x50 x00 x00 x00)))
(T (W x00 x00 x00 x00 x00 x00 x00 x00)
(L (W x45 x26 x22 x84 xe4 x9c xf2 xcb)) E))
(T (W x04 x00 x00 x00 x22 x56 xfd xff)
(T (W x00 x00 x00 x00 xe8 xd0 xfd xff)
(L (W x00 x00 x00 x00 xe8 xd0 xfe xff))
(L (W x00 x00 x00 x00 x00 x00 x00 x00)))
(T (W x45 x26 x22 x84 xe4 x9c xf2 xcb)
(L (W x45 x26 x22 x84 xe4 x9c xf2 xcb)) E)))
(T (W x45 x26 x22 x84 xe4 x9c xf2 xcb)
(T (W x00 x00 x80 x3f xe8 x30 xfd xff)
(T (W x26 x4d x47 x4a x12 x92 xa5 x0f)
(L (W x45 x26 x22 x84 xe4 x9c xf2 xcb))
(L (W xe7 x33 x0c x0c x1e x02 xa7 xc0)))
(T (W x45 x41 x30 x32 x5f x30 x31 x37)
(L (W x00 x00 x26 x42 xcd xcc x10 x44)) E))
(T (W x45 x26 x22 x84 xe4 x9c xf2 xcb)
(T (W x04 x00 x00 x00 x00 x00 x00 x00)
(L (W x00 x00 x00 x00 x66 xf0 xfe xff))
(L (W x00 x00 x00 x00 x00 x00 x00 x00)))
(T (W x00 x00 x00 x00 x00 x00 x00 x00)
(L (W x00 x00 x00 x00 x00 x00 x00 x00)) E))))
(T (W x45 x26 x22 x84 xe4 x9c xf2 xcb)
(T (W x4e x45 x52 x41 x54 x49 x4f x4e)
(T (W x45 x26 x22 x84 xe4 x9c xf2 xcb)
(T (W x45 x26 x22 x84 xe4 x9c xf2 xcb)
(L (W x34 x00 x00 x00 x20 x00 x00 x00))
(L (W x00 x00 x00 x00 x01 x00 x00 x00)))
(T (W x04 x00 x00 x00 x22 x26 xfe xff)
(L (W x00 x00 x80 xbf x9c x00 x00 x00)) E))
(T (W x60 x00 x00 x00 x54 x00 x00 x00)
(T (W x00 x00 x00 x00 xe8 xe0 xfd xff)
(L (W x00 x00 x80 xbf x00 x00 x80 xbf))
(L (W x45 x26 x22 x84 xe4 x9c xf2 xcb)))
(T (W x5f x4e x45 x57 x5f x4f x55 x54)
(L (W x00 x00 x00 x00 x01 x00 x00 x00)) E)))
(T (W xd6 x81 x9c x94 x9b x27 x57 x25)
(T (W x44 x00 x00 x00 x38 x00 x00 x00)
(T (W xcd xfc x69 x44 x00 x00 x00 x00)
(L (W x8c xc3 xfe xff x50 x00 x00 x00))
(L (W x00 x00 x00 x00 x01 x00 x00 x00)))
(T (W xe4 x40 xfe xff x00 x00 x00 x00)
(L (W x2c x00 x00 x00 x20 x00 x00 x00)) E))
(T (W x00 x00 x00 x00 x01 x00 x00 x00)
(T (W x00 x00 x00 x00 xaa x08 xfe xff)
(L (W x00 x00 x00 x00 x00 x00 x00 x00)) E)
(T (W x5c x00 x00 x00 x50 x00 x00 x00)
(L (W x74 x00 x00 x00 x68 x00 x00 x00)) E)))))
(T (W x74 x00 x00 x00 x68 x00 x00 x00)
(T (W x00 x00 x80 xbf x00 x00 x80 xbf)
(T (W x4f x84 x6f x8b xe8 xcb x63 xb7)
(T (W x45 x26 x22 x84 xe4 x9c xf2 xcb)
(T (W x45 x41 x30 x32 x5f x30 x30 x37)
(L (W x00 x00 x00 x00 x01 x00 x00 x00))
(L (W x62 x98 xff xff x00 x00 x80 x3f)))
(T (W xa4 x70 x17 x42 xe1 x5a x2b x44)
(L (W x55 x6c xfc xf1 x99 x9e xc9 x88)) E))
(T (W x45 x26 x22 x84 xe4 x9c xf2 xcb)
(T (W xb0 xf8 x7f x71 x81 x51 xb4 x1e)
(L (W xe4 xd8 xfe xff x00 x00 x00 x00))
(L (W x1c x01 x00 x00 x01 x00 x00 x00)))
(T (W x78 x00 x00 x00 x6c x00 x00 x00)
(L (W x00 x00 x00 x00 x66 x58 xff xff)) E)))
(T (W x00 x00 x00 x00 x00 x00 x00 x00)
(T (W x5b x42 x2d xf0 x2c x43 x07 xdb)
(T (W x45 x26 x22 x84 xe4 x9c xf2 xcb)
(L (W x34 x01 x00 x00 x00 x00 x80 x40))
(L (W x2c x00 x00 x00 x20 x00 x00 x00)))
(T (W x45 x26 x22 x84 xe4 x9c xf2 xcb)
(L (W x13 x65 x89 xe8 x48 xd2 x3e x2f)) E))
(T (W x00 x00 x00 x00 x01 x00 x00 x00)
(T (W x45 x26 x22 x84 xe4 x9c xf2 xcb)
(L (W x45 x26 x22 x84 xe4 x9c xf2 xcb))
(L (W x54 x00 x00 x00 x48 x00 x00 x00)))
(T (W x45 x26 x22 x84 xe4 x9c xf2 xcb)
(L (W x45 x26 x22 x84 xe4 x9c xf2 xcb)) E))))
(T (W x2c x00 x00 x00 x20 x00 x00 x00)
(T (W x45 x26 x22 x84 xe4 x9c xf2 xcb)
(T (W x00 x00 x00 x00 x00 x00 x00 x00)
(T (W x00 x00 x00 x00 xe8 xa8 xfd xff)
(L (W xe4 xa8 xfe xff x00 x00 x00 x00))
(L (W xe4 xa8 xff xff x00 x00 x00 x00)))
(T (W x00 x00 x00 x00 xe8 x28 xfe xff)
(L (W x45 x26 x22 x84 xe4 x9c xf2 xcb)) E))
(T (W x12 xd9 xaa x00 x15 x30 x9a xe0)
(T (W x2c x00 x00 x00 x18 x00 x00 x00)
(L (W x00 x00 x00 x00 xe8 xe8 xfe xff))
(L (W x00 x00 x00 x00 x00 x00 x00 x00)))
(T (W x00 x00 x00 x00 xe8 x68 xfe xff)
(L (W x00 x00 x00 x00 x00 x00 x00 x00)) E)))
(T (W x5f x4d x41 x53 x53 x5f x47 x41)
(T (W x0a x97 x38 x43 x14 xae x47 x42)
(T (W x45 x26 x22 x84 xe4 x9c xf2 xcb)
(L (W x00 x00 x00 x00 x00 x00 x00 x00))
(L (W x04 x00 x00 x00 x22 xce xff xff)))
(T (W x41 x30 x32 x00 xaa x50 xfe xff)
(L (W x00 x00 x80 x3f x00 x00 x80 x3f)) E))
(T (W x8c x8b xfd xff x50 x00 x00 x00)
(T (W x04 x00 x00 x00 x00 x00 x00 x00)
(L (W x5f x4f x55 x54 x42 x52 x45 x41)) E)
(T (W x00 x00 x00 x00 xaa x90 xfe xff)
(L (W x00 x00 x00 x00 x00 x00 x00 x00)) E))))))
(T (W xe4 x9c xfc xff x00 x00 x00 x00)
(T (W x00 x00 x00 x00 x00 x00 x00 x00)
(T (W x5f x30 x31 x32 x00 x00 x00 x00)
(T (W x04 x00 x00 x00 xd0 xd4 xfc xff)
(T (W x54 x00 x00 x00 x48 x00 x00 x00)
(T (W x00 x00 x80 x3f x00 x00 x80 x3f)
(L (W x00 x00 x00 x00 x00 x00 x00 x00))
(L (W x00 x00 x00 x00 x00 x00 x00 x00)))
(T (W x72 xeb x22 x37 x6d xc8 x9b xc2)
(L (W x00 x00 x00 x00 x00 x00 x00 x00)) E))
(T (W x54 x00 x00 x00 x48 x00 x00 x00)
(T (W x9a xf9 x44 x44 x00 x00 x00 x00)
(L (W x97 x6d xca xc9 x03 x91 xa3 xbc))
(L (W xe4 xd4 xff xff x66 xd4 xff xff)))
(T (W x44 x00 x00 x00 x38 x00 x00 x00)
(L (W x00 x00 x00 x00 x00 x00 x00 x00)) E)))
(T (W x44 x00 x00 x00 x38 x00 x00 x00)
(T (W x00 x00 x20 x41 x24 x01 x00 x00)
(T (W x45 x26 x22 x84 xe4 x9c xf2 xcb)
(L (W x00 x00 x00 x00 x02 x00 x00 x00))
(L (W x45 x26 x22 x84 xe4 x9c xf2 xcb)))
(T (W x00 x00 x80 xbf x00 x00 x80 xbf)
(L (W x3c x01 x00 x00 x30 x01 x00 x00)) E))
(T (W x01 x00 x00 x00 x04 x00 x00 x00)
(T (W x00 x00 x00 x00 xe8 xf4 xfd xff)
(L (W x01 x00 x00 x00 x00 x00 x80 x3f))
(L (W x34 x00 x00 x00 x20 x00 x00 x00)))
(T (W x8e x82 x86 x26 xe1 x73 x53 xa2)
(L (W xa8 x29 xfc x2c x35 x8b xb2 xe7)) E))))
(T (W x00 x00 x00 x00 xe8 xc4 xfc xff)
(T (W x04 x00 x00 x00 x00 x00 x80 x3f)
(T (W x44 x00 x00 x00 x38 x00 x00 x00)
(T (W x44 x00 x00 x00 x38 x00 x00 x00)
(L (W x45 x26 x22 x84 xe4 x9c xf2 xcb))
(L (W x00 x00 x00 x00 xe8 xa4 xff xff)))
(T (W xe4 x24 xfe xff x00 x00 x00 x00)
(L (W x45 x26 x22 x84 xe4 x9c xf2 xcb)) E))
(T (W x29 x1c x57 x44 x00 x00 x00 x00)
(T (W x00 x00 x00 x00 x00 x00 x00 x00)
(L (W x45 x26 x22 x84 xe4 x9c xf2 xcb))
(L (W x00 x00 x00 x00 xe8 xe4 xff xff)))
(T (W x00 x00 x00 x00 x01 x00 x00 x00)
(L (W x00 x00 x00 x00 xe8 x64 xff xff)) E)))
(T (W x71 x3d x1d x42 x7b x64 x15 x44)
(T (W x78 x00 x00 x00 x6c x00 x00 x00)
(T (W x92 xc8 xfd xff x40 x01 x00 x00)
(L (W x04 x00 x00 x00 x08 xc7 xfe xff))
(L (W x01 x00 x00 x00 x00 x00 x80 x3f)))
(T (W x00 x00 x80 x3f x00 x00 x80 x3f)
(L (W xe4 x44 xff xff x00 x00 x00 x00)) E))
(T (W x45 x26 x22 x84 xe4 x9c xf2 xcb)
(T (W x00 x00 x80 xbf x9c x00 x00 x00)
(L (W x44 x00 x00 x00 x30 x00 x00 x00)) E)
(T (W x00 x00 x00 x00 x00 x00 x00 x00)
(L (W x00 x00 x80 x3f xe8 x84 xff xff)) E)))))
(T (W x62 xac xfc xff x00 x00 x80 x3f)
(T (W x00 x00 x00 x00 x01 x00 x00 x00)
(T (W x00 x00 x00 x00 x00 x00 x00 x00)
(T (W x45 x26 x22 x84 xe4 x9c xf2 xcb)
(T (W x08 x01 x8e x15 xe9 x25 xd2 xcc)
(L (W xe4 x9c xfe xff x66 x9c xfe xff))
(L (W x00 x00 x80 xbf x00 x00 x80 xbf)))
(T (W x01 x00 x00 x00 x00 x00 x80 x3f)
(L (W x31 x32 x00 x00 x02 x00 x00 x00)) E))
(T (W x00 x00 x00 x00 x00 x00 x00 x00)
(T (W x54 x00 x00 x00 x48 x00 x00 x00)
(L (W x71 x5d xb3 x43 x71 xbd xc7 x42))
(L (W x45 x26 x22 x84 xe4 x9c xf2 xcb)))
(T (W x9a x99 xab x42 x33 x33 x30 x43)
(L (W x5f x4e x45 x57 x5f x4f x55 x54)) E)))
(T (W x00 x00 x00 x00 x01 x00 x00 x00)
(T (W x04 x00 x00 x00 x22 x42 xfd xff)
(T (W x55 x39 x81 x6a xc4 xc7 x74 x14)
(L (W x00 x00 x00 x00 x01 x00 x00 x00))
(L (W x5c x00 x00 x00 x50 x00 x00 x00)))
(T (W x00 x00 x00 x00 x00 x00 x00 x00)
(L (W x45 x26 x22 x84 xe4 x9c xf2 xcb)) E))
(T (W x00 x00 x00 x00 x00 x00 x00 x00)
(T (W x5c x00 x00 x00 x50 x00 x00 x00)
(L (W xe4 xfc xfe xff x00 x00 x00 x00))
(L (W x04 x00 x00 x00 x00 x00 x00 x00)))
(T (W x00 x00 x00 x00 x00 x00 x00 x00)
(L (W x45 x26 x22 x84 xe4 x9c xf2 xcb)) E))))
(T (W x2c x00 x00 x00 x20 x00 x00 x00)
(T (W x40 x00 x00 x00 x38 x00 x00 x00)
(T (W x00 x00 x00 x00 xe8 x2c xfd xff)
(T (W x52 x78 x57 x44 x00 x00 x00 x00)
(L (W x00 x00 x00 x00 xe8 xac xfe xff))
(L (W x00 x00 x00 x00 x00 x00 x00 x00)))
(T (W x00 x00 x80 x3f x00 x00 x80 x3f)
(L (W x2c x00 x00 x00 x18 x00 x00 x00)) E))
(T (W x04 x00 x00 x00 x22 x72 xfd xff)
(T (W x00 x00 x00 x00 x00 x00 x00 x00)
(L (W x00 x00 x00 x00 x00 x00 x00 x00))
(L (W x04 x00 x00 x00 x08 xef xff xff)))
(T (W xe4 x6c xfe xff x00 x00 x00 x00)
(L (W x44 x00 x00 x00 x30 x00 x00 x00)) E)))
(T (W x1c x01 x00 x00 x04 x00 x00 x00)
(T (W x2a x3b xef x05 x15 x6a xb0 xe9)
(T (W xe4 xcc xfd xff x00 x00 x00 x00)
(L (W x7e x3f x76 x7a x21 x87 x95 xd4))
(L (W x00 x00 x00 x00 xe8 xcc xff xff)))
(T (W x01 x00 x00 x00 x00 x00 x80 x3f)
(L (W x00 x00 x80 xbf x9c x00 x00 x00)) E))
(T (W x00 x00 x00 x00 x00 x00 x00 x00)
(T (W x45 x26 x22 x84 xe4 x9c xf2 xcb)
(L (W x84 xe3 x09 xfe x1d x88 x80 xa7)) E)
(T (W x04 x00 x00 x00 x22 x92 xfe xff)
(L (W x00 x00 x00 x00 x01 x00 x00 x00)) E)))))))
(T (W x80 xae x00 x00 xb0 xac x00 x00)
(T (W x45 x26 x22 x84 xe4 x9c xf2 xcb)
(T (W x00 x00 x00 x00 x00 x00 x00 x00)
(T (W x46 x53 x59 x53 x5f x4e x45 x57)
(T (W x00 x00 x00 x00 xe8 xd2 xfc xff)
(T (W x04 x00 x00 x00 x00 x00 x00 x00)
(T (W x55 x39 x81 x6a xc4 xc7 x74 x14)
(L (W x45 x26 x22 x84 xe4 x9c xf2 xcb))
(L (W x45 x26 x22 x84 xe4 x9c xf2 xcb)))
(T (W xe4 x12 xfe xff x00 x00 x00 x00)
(L (W x01 x00 x00 x00 x04 x00 x00 x00)) E))
(T (W x54 x00 x00 x00 x48 x00 x00 x00)
(T (W x28 x00 x00 x00 x14 x00 x00 x00)
(L (W x8c xd5 xfe xff x50 x00 x00 x00))
(L (W x5c x00 x00 x00 x50 x00 x00 x00)))
(T (W x45 x26 x22 x84 xe4 x9c xf2 xcb)
(L (W x8c x55 xff xff x50 x00 x00 x00)) E)))
(T (W x00 x00 x00 x00 xe8 xf2 xfc xff)
(T (W x00 x00 x00 x00 x00 x00 x00 x00)
(T (W x40 x00 x00 x00 x38 x00 x00 x00)
(L (W x00 x00 x00 x00 x02 x00 x00 x00))
(L (W x54 x00 x00 x00 x48 x00 x00 x00)))
(T (W x00 x00 x40 x40 x24 x01 x00 x00)
(L (W x00 x00 x00 x00 x00 x00 x00 x00)) E))
(T (W x00 x00 x00 x00 xe8 x72 xfd xff)
(T (W x45 x26 x22 x84 xe4 x9c xf2 xcb)
(L (W x00 x00 x00 x00 x00 x00 x00 x00))
(L (W x34 x01 x00 x00 x00 x00 xe0 x40)))
(T (W x1c x01 x00 x00 x01 x00 x00 x00)
(L (W x28 x01 x00 x00 x20 x01 x00 x00)) E))))
(T (W x45 x26 x22 x84 xe4 x9c xf2 xcb)
(T (W x3c x01 x00 x00 x30 x01 x00 x00)
(T (W x45 x26 x22 x84 xe4 x9c xf2 xcb)
(T (W x00 x00 x00 x00 xe8 xa2 xfd xff)
(L (W x45 x26 x22 x84 xe4 x9c xf2 xcb))
(L (W x45 x26 x22 x84 xe4 x9c xf2 xcb)))
(T (W x45 x26 x22 x84 xe4 x9c xf2 xcb)
(L (W x00 x00 x00 x00 x01 x00 x00 x00)) E))
(T (W x00 x00 x80 x3f x00 x00 x80 x3f)
(T (W x45 x26 x22 x84 xe4 x9c xf2 xcb)
(L (W x04 x00 x00 x00 x00 x00 x00 x00))
(L (W x45 x26 x22 x84 xe4 x9c xf2 xcb)))
(T (W x01 x00 x00 x00 x00 x00 x80 x3f)
(L (W x45 x26 x22 x84 xe4 x9c xf2 xcb)) E)))
(T (W x00 x00 x80 x3f x00 x00 x80 x3f)
(T (W x00 x00 x00 x00 x00 x00 x00 x00)
(T (W x00 x00 x00 x00 x00 x00 x00 x00)
(L (W x00 x00 x00 x00 x00 x00 x00 x00))
(L (W x3c x01 x00 x00 x30 x01 x00 x00)))
(T (W x55 x39 x81 x6a xc4 xc7 x74 x14)
(L (W x00 x00 x00 x00 x00 x00 x00 x00)) E))
(T (W x45 x26 x22 x84 xe4 x9c xf2 xcb)
(T (W x1c x01 x00 x00 x01 x00 x00 x00)
(L (W x00 x00 x00 x00 x00 x00 x00 x00)) E)
(T (W x00 x00 x80 x3f xe8 x82 xfe xff)
(L (W xd6 x81 x9c x94 x9b x27 x57 x25)) E)))))
(T (W x28 x00 x00 x00 x14 x00 x00 x00)
(T (W xaa xd2 x83 x67 x2b x82 xed x8e)
(T (W x00 x00 x80 x3f xe8 xda xfc xff)
(T (W xe4 x1a xfd xff x00 x00 x00 x00)
(T (W x00 x00 x40 x40 x24 x01 x00 x00)
(L (W x5c x00 x00 x00 x50 x00 x00 x00))
(L (W x00 x00 x00 x00 x00 x00 x00 x00)))
(T (W x3c x01 x00 x00 x30 x01 x00 x00)
(L (W xcd x4c x24 x44 x33 x33 x81 x42)) E))
(T (W x44 x00 x00 x00 x38 x00 x00 x00)
(T (W x04 x00 x00 x00 x00 x00 x00 x00)
(L (W x2c x00 x00 x00 x18 x00 x00 x00))
(L (W x45 x26 x22 x84 xe4 x9c xf2 xcb)))
(T (W x28 x00 x00 x00 x14 x00 x00 x00)
(L (W x9a xf9 x1f x44 x54 x55 x2a x42)) E)))
(T (W x00 x00 x00 x00 x00 x00 x00 x00)
(T (W x00 x00 x00 x00 x01 x00 x00 x00)
(T (W xe4 xba xfd xff x00 x00 x00 x00)
(L (W x34 x00 x00 x00 x20 x00 x00 x00))
(L (W x00 x00 x00 x00 x00 x00 x00 x00)))
(T (W x01 x00 x00 x00 x04 x00 x00 x00)
(L (W x00 x00 x00 x00 x01 x00 x00 x00)) E))
(T (W x45 x26 x22 x84 xe4 x9c xf2 xcb)
(T (W x00 x00 x00 x00 x00 x00 x00 x00)
(L (W x45 x26 x22 x84 xe4 x9c xf2 xcb))
(L (W x54 x00 x00 x00 x48 x00 x00 x00)))
(T (W x01 x00 x00 x00 x04 x00 x00 x00)
(L (W x00 x00 x00 x00 xe8 x7a xff xff)) E))))
(T (W x45 x26 x22 x84 xe4 x9c xf2 xcb)
(T (W x00 x00 x00 x00 x01 x00 x00 x00)
(T (W x1c x00 x00 x00 x46 x53 x59 x53)
(T (W x28 x00 x00 x00 x14 x00 x00 x00)
(L (W x45 x26 x22 x84 xe4 x9c xf2 xcb))
(L (W x45 x26 x22 x84 xe4 x9c xf2 xcb)))
(T (W x28 x00 x00 x00 x14 x00 x00 x00)
(L (W x00 x00 x00 x00 xe8 x2a xff xff)) E))
(T (W x00 x00 x00 x00 x01 x00 x00 x00)
(T (W x62 xea xfd xff x00 x00 x80 x3f)
(L (W x44 x00 x00 x00 x38 x00 x00 x00))
(L (W x00 x00 x00 x00 xe8 xea xff xff)))
(T (W x45 x26 x22 x84 xe4 x9c xf2 xcb)
(L (W x04 x00 x00 x00 x08 x6d xff xff)) E)))
(T (W xda xee xff xff x00 x00 x00 x01)
(T (W x3c x01 x00 x00 x30 x01 x00 x00)
(T (W x45 x26 x22 x84 xe4 x9c xf2 xcb)
(L (W x00 x00 x40 x40 x24 x01 x00 x00))
(L (W x45 x26 x22 x84 xe4 x9c xf2 xcb)))
(T (W x3c x01 x00 x00 x30 x01 x00 x00)
(L (W x00 x00 x00 x00 x00 x00 x00 x00)) E))
(T (W x9f x41 x45 xdc x00 xd9 x55 x2f)
(T (W x54 x00 x00 x00 x48 x00 x00 x00)
(L (W x01 x00 x00 x00 x00 x00 x80 x3f)) E)
(T (W x34 x00 x00 x00 x20 x00 x00 x00)
(L (W x00 x00 x80 xbf x9c x00 x00 x00)) E))))))
(T (W x8c xa1 xfc xff x50 x00 x00 x00)
(T (W xe4 xa6 xfc xff x00 x00 x00 x00)
(T (W x00 x00 xe0 x40 x24 x01 x00 x00)
(T (W x48 x00 x00 x00 x34 x00 x00 x00)
(T (W x45 x26 x22 x84 xe4 x9c xf2 xcb)
(T (W x33 x38 x00 x00 x1b x00 x00 x00)
(L (W x00 x00 x00 x00 x00 x00 x00 x00))
(L (W x04 x00 x00 x00 x08 x99 xff xff)))
(T (W x00 x00 x80 x3f x00 x00 x80 x3f)
(L (W x00 x00 x00 x00 x01 x00 x00 x00)) E))
(T (W x45 x26 x22 x84 xe4 x9c xf2 xcb)
(T (W x00 x00 xc0 x40 x24 x01 x00 x00)
(L (W x00 x00 x00 x00 x00 x00 x00 x00))
(L (W x1c x00 x00 x00 x46 x53 x59 x53)))
(T (W x00 x00 x00 x00 x00 x00 x00 x00)
(L (W x04 x00 x00 x00 x08 x59 xff xff)) E)))
(T (W x45 x26 x22 x84 xe4 x9c xf2 xcb)
(T (W x00 x00 x80 xbf x00 x00 x80 xbf)
(T (W x00 x00 x00 x00 xe8 xb6 xfd xff)
(L (W x02 x00 x00 x00 x33 x30 x00 x00))
(L (W x45 x26 x22 x84 xe4 x9c xf2 xcb)))
(T (W x04 x00 x00 x00 x00 x00 x00 x00)
(L (W x01 x00 x00 x00 x00 x00 x80 x3f)) E))
(T (W x00 x00 x00 x00 x00 x00 x00 x00)
(T (W x44 x00 x00 x00 x38 x00 x00 x00)
(L (W x34 x00 x00 x00 x20 x00 x00 x00))
(L (W x04 x00 x00 x00 x22 xfc xff xff)))
(T (W x40 x00 x00 x00 x38 x00 x00 x00)
(L (W x04 x00 x00 x00 x00 x00 x00 x00)) E))))
(T (W x01 x00 x00 x00 x04 x00 x00 x00)
(T (W x34 x00 x00 x00 x20 x00 x00 x00)
(T (W x26 x71 x24 x4b xf1 xf1 xc9 x32)
(T (W x45 x26 x22 x84 xe4 x9c xf2 xcb)
(L (W x45 x26 x22 x84 xe4 x9c xf2 xcb))
(L (W x45 x26 x22 x84 xe4 x9c xf2 xcb)))
(T (W x45 x26 x22 x84 xe4 x9c xf2 xcb)
(L (W x8c x29 xff xff x50 x00 x00 x00)) E))
(T (W x00 x00 x40 x40 x24 x01 x00 x00)
(T (W x78 x00 x00 x00 x6c x00 x00 x00)
(L (W x45 x26 x22 x84 xe4 x9c xf2 xcb))
(L (W x45 x26 x22 x84 xe4 x9c xf2 xcb)))
(T (W x45 x26 x22 x84 xe4 x9c xf2 xcb)
(L (W xed x2a xd5 x4f x49 x4d x07 x36)) E)))
(T (W x00 x00 x00 x00 x00 x00 x00 x00)
(T (W x00 x00 x00 x00 x66 x46 xfd xff)
(T (W x1c x01 x00 x00 x01 x00 x00 x00)
(L (W x62 xc6 xfe xff x00 x00 x80 x3f))
(L (W x34 x00 x00 x00 x20 x00 x00 x00)))
(T (W x00 x00 x00 x00 x00 x00 x00 x00)
(L (W x55 x39 x81 x6a xc4 xc7 x74 x14)) E))
(T (W xe4 x86 xfd xff x00 x00 x00 x00)
(T (W x6a xcd xcf xc2 x1c x2b x76 x10)
(L (W x3d xea x00 x44 xb8 x9e xa4 x42)) E)
(T (W x00 x00 x00 x00 x00 x00 x00 x00)
(L (W x00 x00 x00 x00 x00 x00 x00 x00)) E)))))
(T (W x5c x6f x54 x44 xb8 x1e x16 x42)
(T (W x04 x00 x00 x00 x22 xc4 xfc xff)
(T (W x02 x00 x00 x00 x33 x34 x00 x00)
(T (W x00 x00 x00 x00 xe8 x1e xfd xff)
(T (W x40 x00 x00 x00 x38 x00 x00 x00)
(L (W x00 x00 x00 x00 xaa xa6 xfe xff))
(L (W x8a x70 x0e x0c x1e x06 xaa xc0)))
(T (W x00 x00 x00 x00 x01 x00 x00 x00)
(L (W x00 x00 x80 x40 x24 x01 x00 x00)) E))
(T (W xe4 x5e xfd xff x00 x00 x00 x00)
(T (W x45 x26 x22 x84 xe4 x9c xf2 xcb)
(L (W x53 x5f x47 x41 x4e x45 x52 x41))
(L (W x40 x00 x00 x00 x38 x00 x00 x00)))
(T (W x00 x00 x00 x00 x00 x00 x00 x00)
(L (W x01 x00 x00 x00 x00 x00 x80 x3f)) E)))
(T (W x60 x00 x00 x00 x54 x00 x00 x00)
(T (W x45 x26 x22 x84 xe4 x9c xf2 xcb)
(T (W x00 x00 x80 x3f x00 x00 x80 x3f)
(L (W x45 x26 x22 x84 xe4 x9c xf2 xcb))
(L (W xe4 xbe xff xff x66 xbe xff xff)))
(T (W x00 x00 x00 x00 x00 x00 x00 x00)
(L (W x45 x26 x22 x84 xe4 x9c xf2 xcb)) E))
(T (W x01 x00 x00 x00 x00 x00 x80 x3f)
(T (W xe4 xfe xfd xff x66 xfe xfd xff)
(L (W x45 x26 x22 x84 xe4 x9c xf2 xcb))
(L (W x5a x32 x42 xd4 xcb xeb x60 x6e)))
(T (W x00 x00 x00 x00 x01 x00 x00 x00)
(L (W x00 x00 x00 x00 x00 x00 x00 x00)) E))))
(T (W x45 x26 x22 x84 xe4 x9c xf2 xcb)
(T (W x45 x26 x22 x84 xe4 x9c xf2 xcb)
(T (W x48 x00 x00 x00 x34 x00 x00 x00)
(T (W x00 x00 xa0 x40 x24 x01 x00 x00)
(L (W x04 x00 x00 x00 xd0 xae xfe xff))
(L (W x00 x00 xa0 x40 x24 x01 x00 x00)))
(T (W x00 x00 x00 x00 x00 x00 x00 x00)
(L (W x62 x2e xff xff x00 x00 x80 x3f)) E))
(T (W x45 x26 x22 x84 xe4 x9c xf2 xcb)
(T (W x00 x00 x80 xbf x00 x00 x80 xbf)
(L (W x78 x00 x00 x00 x6c x00 x00 x00))
(L (W x62 xee xff xff x00 x00 x80 x3f)))
(T (W x45 x26 x22 x84 xe4 x9c xf2 xcb)
(L (W x62 x6e xff xff xe1 x9a xc4 x43)) E)))
(T (W x00 x00 x80 xbf x9c x00 x00 x00)
(T (W x00 x00 x00 x00 x01 x00 x00 x00)
(T (W x45 x26 x22 x84 xe4 x9c xf2 xcb)
(L (W x40 x00 x00 x00 x38 x00 x00 x00))
(L (W x45 x26 x22 x84 xe4 x9c xf2 xcb)))
(T (W x00 x00 x00 x00 x01 x00 x00 x00)
(L (W x00 x00 x00 x00 x01 x00 x00 x00)) E))
(T (W x00 x00 x00 x00 x00 x00 x00 x00)
(T (W x8c x11 xfe xff x50 x00 x00 x00)
(L (W x54 x00 x00 x00 x48 x00 x00 x00)) E)
(T (W x45 x26 x22 x84 xe4 x9c xf2 xcb)
(L (W x45 x26 x22 x84 xe4 x9c xf2 xcb)) E))))))))
(T (W x64 x12 x02 x00 x78 x10 x02 x00)
(T (W x94 x25 x01 x00 xc8 x23 x01 x00)
(T (W xe4 x99 xfc xff x66 x99 xfc xff)
(T (W x3c x01 x00 x00 x30 x01 x00 x00)
(T (W x00 x00 x00 x00 xe8 xb1 xfc xff)
(T (W x00 x00 x80 xbf x9c x00 x00 x00)
(T (W x04 x00 x00 x00 xd0 x11 xfd xff)
(T (W x04 x00 x00 x00 x22 x97 xfd xff)
(L (W x00 x00 x00 x00 x00 x00 x00 x00))
(L (W x54 x49 x4f x4e x5f x41 x52 x45)))
(T (W x34 x00 x00 x00 x20 x00 x00 x00)
(L (W x00 x00 x00 x00 x00 x00 x00 x00)) E))
(T (W x5c x00 x00 x00 x50 x00 x00 x00)
(T (W x00 x00 x00 x00 x01 x00 x00 x00)
(L (W x00 x00 x00 x00 x02 x00 x00 x00))
(L (W x00 x00 x00 x00 x01 x00 x00 x00)))
(T (W x00 x00 x80 x3f xe8 x51 xfe xff)
(L (W x9a x19 x17 x44 x00 x00 x00 x00)) E)))
(T (W x00 x00 x00 x00 x00 x00 x00 x00)
(T (W xe4 x31 xfd xff x00 x00 x00 x00)
(T (W x04 x00 x00 x00 x08 xb4 xfd xff)
(L (W x45 x26 x22 x84 xe4 x9c xf2 xcb))
(L (W x00 x00 x00 x00 x01 x00 x00 x00)))
(T (W x45 x26 x22 x84 xe4 x9c xf2 xcb)
(L (W x00 x00 x00 x00 xe8 x31 xff xff)) E))
(T (W x9a x99 x11 x42 x66 xa6 x49 x44)
(T (W x44 x00 x00 x00 x30 x00 x00 x00)
(L (W x45 x26 x22 x84 xe4 x9c xf2 xcb))
(L (W x63 x46 x69 x12 x83 x6c x37 xc6)))
(T (W x44 x00 x00 x00 x38 x00 x00 x00)
(L (W x44 x00 x00 x00 x38 x00 x00 x00)) E))))
(T (W x00 x00 x80 x3f x00 x00 x80 x3f)
(T (W x0f x64 x2e x97 x85 x1e x59 x5f)
(T (W x00 x00 x00 x00 x00 x00 x00 x00)
(T (W x00 x00 x00 x00 x00 x00 x00 x00)
(L (W xe4 xa1 xfe xff x00 x00 x00 x00))
(L (W x5c x00 x00 x00 x50 x00 x00 x00)))
(T (W x55 x39 x81 x6a xc4 xc7 x74 x14)
(L (W x00 x00 x00 x00 xe8 x21 xff xff)) E))
(T (W x45 x26 x22 x84 xe4 x9c xf2 xcb)
(T (W x00 x00 x00 x00 xaa xe9 xfd xff)
(L (W x00 x00 x00 x00 x00 x00 x00 x00))
(L (W x9a x99 x5e x43 x66 x66 x8c x42)))
(T (W x2c x00 x00 x00 x20 x00 x00 x00)
(L (W x60 x00 x00 x00 x54 x00 x00 x00)) E)))
(T (W x45 x26 x22 x84 xe4 x9c xf2 xcb)
(T (W x1c x01 x00 x00 x01 x00 x00 x00)
(T (W x00 x00 x00 x00 xe8 xc1 xfd xff)
(L (W x00 x00 xa0 x40 x24 x01 x00 x00))
(L (W x01 x00 x00 x00 x04 x00 x00 x00)))
(T (W x04 x00 x00 x00 x22 x47 xfe xff)
(L (W x01 x00 x00 x00 x00 x00 x80 x3f)) E))
(T (W x5c x00 x00 x00 x50 x00 x00 x00)
(T (W x45 x26 x22 x84 xe4 x9c xf2 xcb)
(L (W x00 x00 x80 xbf x00 x00 x80 xbf)) E)
(T (W x45 x26 x22 x84 xe4 x9c xf2 xcb)
(L (W x04 x00 x00 x00 x22 x87 xff xff)) E)))))
(T (W x00 x00 x00 x00 x01 x00 x00 x00)
(T (W x00 x00 x00 x00 x00 x00 x00 x00)
(T (W x45 x26 x22 x84 xe4 x9c xf2 xcb)
(T (W x00 x00 x00 x00 x00 x00 x00 x00)
(T (W x45 x26 x22 x84 xe4 x9c xf2 xcb)
(L (W x00 x00 x00 x00 x01 x00 x00 x00))
(L (W x00 x00 x00 x00 xe8 x99 xff xff)))
(T (W x01 x00 x00 x00 x04 x00 x00 x00)
(L (W x45 x26 x22 x84 xe4 x9c xf2 xcb)) E))
(T (W x00 x00 x00 x00 x00 x00 x00 x00)
(T (W x04 x00 x00 x00 xd0 xd9 xfd xff)
(L (W x00 x00 x00 x00 x01 x00 x00 x00))
(L (W x00 x00 x00 x00 x00 x00 x00 x00)))
(T (W x00 x00 x00 x00 x01 x00 x00 x00)
(L (W x45 x26 x22 x84 xe4 x9c xf2 xcb)) E)))
(T (W x00 x00 x80 xbf x00 x00 x80 xbf)
(T (W x00 x00 x00 x00 x01 x00 x00 x00)
(T (W x34 x00 x00 x00 x20 x00 x00 x00)
(L (W x00 x00 x00 x00 x00 x00 x00 x00))
(L (W x01 x00 x00 x00 x00 x00 x80 x3f)))
(T (W x0a xb7 x46 x44 x5c x8f x21 x42)
(L (W x00 x00 x00 x00 x01 x00 x00 x00)) E))
(T (W x54 x00 x00 x00 x48 x00 x00 x00)
(T (W x00 x00 x80 xbf x00 x00 x80 xbf)
(L (W x74 x00 x00 x00 x68 x00 x00 x00))
(L (W x55 x6c xfc xf1 x99 x9e xc9 x88)))
(T (W x5c x8f x53 x43 xe1 x7a x17 x42)
(L (W x62 x79 xff xff xf6 xf8 x04 x44)) E))))
(T (W x1a xfe xff xff x00 x00 x01 x01)
(T (W x78 x00 x00 x00 x6c x00 x00 x00)
(T (W x00 x00 x80 xbf x00 x00 x80 xbf)
(T (W x00 x00 x00 x00 x01 x00 x00 x00)
(L (W x00 x00 x00 x00 x00 x00 x00 x00))
(L (W x04 x00 x00 x00 x22 xaf xff xff)))
(T (W x00 x00 x00 x00 x01 x00 x00 x00)
(L (W x00 x00 x80 xbf x9c x00 x00 x00)) E))
(T (W x00 x00 x00 x00 x01 x00 x00 x00)
(T (W x40 x00 x00 x00 x38 x00 x00 x00)
(L (W x1c x00 x00 x00 x46 x53 x59 x53))
(L (W x00 x00 x80 xbf x9c x00 x00 x00)))
(T (W x00 x00 x00 x00 xaa x71 xfe xff)
(L (W x53 xf2 x22 xd0 xa6 xe9 x1c xe8)) E)))
(T (W x2c x00 x00 x00 x20 x00 x00 x00)
(T (W x01 x00 x00 x00 x04 x00 x00 x00)
(T (W x74 x00 x00 x00 x68 x00 x00 x00)
(L (W x75 x13 xb9 x28 xbf xd0 x67 x6a))
(L (W xd6 x81 x9c x94 x9b x27 x57 x25)))
(T (W x55 x6c xfc xf1 x99 x9e xc9 x88)
(L (W xe4 x49 xff xff x00 x00 x00 x00)) E))
(T (W x42 x52 x45 x41 x4b x5f x41 x52)
(T (W x44 x00 x00 x00 x30 x00 x00 x00)
(L (W x2c x00 x00 x00 x20 x00 x00 x00)) E)
(T (W x45 x26 x22 x84 xe4 x9c xf2 xcb)
(L (W x45 x26 x22 x84 xe4 x9c xf2 xcb)) E))))))
(T (W x00 x00 x00 x00 x1c x00 x00 x00)
(T (W x34 x00 x00 x00 x20 x00 x00 x00)
(T (W x45 x26 x22 x84 xe4 x9c xf2 xcb)
(T (W x04 x00 x00 x00 x00 x00 x00 x00)
(T (W x4f x84 x6f x8b xe8 xcb x63 xb7)
(T (W xe4 x95 xfd xff x00 x00 x00 x00)
(L (W x00 x00 x80 xbf x00 x00 x80 xbf))
(L (W x36 x06 x53 x32 xc0 xa3 x21 x03)))
(T (W x45 x26 x22 x84 xe4 x9c xf2 xcb)
(L (W xab xd7 x0c xfe x1d xf8 x83 xa7)) E))
(T (W x55 x6c xfc xf1 x99 x9e xc9 x88)
(T (W x8c xd8 xfd xff x50 x00 x00 x00)
(L (W x34 x01 x00 x00 x00 x00 xa0 x40))
(L (W x00 x00 x00 x00 xe8 xd5 xff xff)))
(T (W x1c x01 x00 x00 x01 x00 x00 x00)
(L (W x18 x86 x79 x2d xfc x90 x3e x39)) E)))
(T (W x5f x41 x52 x45 x41 x30 x32 x00)
(T (W x00 x00 x00 x00 x00 x00 x00 x00)
(T (W x00 x00 x00 x00 x00 x00 x00 x00)
(L (W x54 xb6 xfe xff x4c x00 x00 x00))
(L (W x00 x00 x00 x00 x00 x00 x00 x00)))
(T (W x00 x00 x00 x00 x00 x00 x00 x00)
(L (W x00 x00 x00 x00 x00 x00 x00 x00)) E))
(T (W x3c x01 x00 x00 x30 x01 x00 x00)
(T (W x46 x53 x59 x53 x5f x4e x45 x57)
(L (W x00 x00 x00 x00 x00 x00 x00 x00))
(L (W xe4 xf5 xff xff x00 x00 x00 x00)))
(T (W x04 x00 x00 x00 x08 x78 xfe xff)
(L (W x04 x00 x00 x00 x08 x78 xff xff)) E))))
(T (W x00 x00 x00 x00 x00 x00 x00 x00)
(T (W x00 x00 x00 x00 x00 x00 x00 x00)
(T (W x46 x53 x59 x53 x5f x4d x4b x52)
(T (W x45 x41 x30 x32 x5f x30 x30 x39)
(L (W x00 x00 x80 x3f x00 x00 x80 x3f))
(L (W x00 x00 x00 x00 xaa xad xff xff)))
(T (W x00 x00 x00 x00 x00 x00 x00 x00)
(L (W x33 x53 x02 x44 x00 x00 x00 x00)) E))
(T (W x8c x68 xfd xff x50 x00 x00 x00)
(T (W x45 x26 x22 x84 xe4 x9c xf2 xcb)
(L (W x62 xe5 xfe xff xf6 xc8 xdc x43))
(L (W x00 x00 x00 x00 xaa xed xff xff)))
(T (W x5c x00 x00 x00 x50 x00 x00 x00)
(L (W x00 x00 x00 x00 x00 x00 x00 x00)) E)))
(T (W x00 x00 x00 x00 xe8 x05 xfd xff)
(T (W x40 x00 x00 x00 x38 x00 x00 x00)
(T (W x45 x26 x22 x84 xe4 x9c xf2 xcb)
(L (W x40 x00 x00 x00 x38 x00 x00 x00))
(L (W x00 x00 x00 x00 x00 x00 x00 x00)))
(T (W xe4 x45 xfe xff x00 x00 x00 x00)
(L (W x04 x00 x00 x00 x22 x4b xff xff)) E))
(T (W x00 x00 x00 x00 x00 x00 x00 x00)
(T (W x00 x00 x00 x00 xe8 x05 xfe xff)
(L (W x45 x26 x22 x84 xe4 x9c xf2 xcb)) E)
(T (W xe4 x85 xfe xff x00 x00 x00 x00)
(L (W x45 x26 x22 x84 xe4 x9c xf2 xcb)) E)))))
(T (W x45 x26 x22 x84 xe4 x9c xf2 xcb)
(T (W x5c x00 x00 x00 x50 x00 x00 x00)
(T (W xe4 xdd xfc xff x00 x00 x00 x00)
(T (W x00 x00 x00 x00 x00 x00 x00 x00)
(T (W x04 x00 x00 x00 x08 xa0 xfd xff)
(L (W x00 x00 x00 x00 xe8 x9d xfe xff))
(L (W x00 x00 x00 x00 x00 x00 x00 x00)))
(T (W x00 x00 x00 x00 x00 x00 x00 x00)
(L (W x8c x20 xff xff x50 x00 x00 x00)) E))
(T (W x45 x26 x22 x84 xe4 x9c xf2 xcb)
(T (W x55 x6c xfc xf1 x99 x9e xc9 x88)
(L (W x01 x00 x00 x00 x04 x00 x00 x00))
(L (W x78 x00 x00 x00 x6c x00 x00 x00)))
(T (W x00 x00 x00 x00 xe8 x5d xfe xff)
(L (W x2c x00 x00 x00 x20 x00 x00 x00)) E)))
(T (W x00 x00 x00 x00 x01 x00 x00 x00)
(T (W x45 x26 x22 x84 xe4 x9c xf2 xcb)
(T (W x45 x26 x22 x84 xe4 x9c xf2 xcb)
(L (W x28 x00 x00 x00 x14 x00 x00 x00))
(L (W x45 x26 x22 x84 xe4 x9c xf2 xcb)))
(T (W x01 x00 x00 x00 x00 x00 x80 x3f)
(L (W xe4 x3d xff xff x66 x3d xff xff)) E))
(T (W x2c x00 x00 x00 x20 x00 x00 x00)
(T (W x45 x26 x22 x84 xe4 x9c xf2 xcb)
(L (W x00 x00 x00 x00 x00 x00 x00 x00))
(L (W x24 x00 x2c x00 x04 x00 x08 x00)))
(T (W xb0 x25 x76 x2c x15 x9c x22 x2e)
(L (W x1c x01 x00 x00 x01 x00 x00 x00)) E))))
(T (W xda xb1 xff xff x00 x00 x00 x01)
(T (W x00 x00 x00 x00 x66 xed xfc xff)
(T (W x04 x00 x00 x00 x00 x00 x00 x00)
(T (W x8c xb0 xfd xff x50 x00 x00 x00)
(L (W x68 x8a x34 xe0 x94 xd2 x19 x91))
(L (W x44 x00 x00 x00 x38 x00 x00 x00)))
(T (W x45 x26 x22 x84 xe4 x9c xf2 xcb)
(L (W x40 x00 x00 x00 x38 x00 x00 x00)) E))
(T (W x55 x39 x81 x6a xc4 xc7 x74 x14)
(T (W xb1 x29 x3c xdc x00 x66 x4b x2f)
(L (W x45 x26 x22 x84 xe4 x9c xf2 xcb))
(L (W x40 x00 x00 x00 x38 x00 x00 x00)))
(T (W x04 x00 x00 x00 x22 x73 xfe xff)
(L (W x45 x26 x22 x84 xe4 x9c xf2 xcb)) E)))
(T (W x00 x00 x00 x00 x00 x00 x00 x00)
(T (W x00 x00 x00 x00 x01 x00 x00 x00)
(T (W x00 x00 x00 x00 x00 x00 x00 x00)
(L (W x04 x00 x00 x00 x08 xd0 xfe xff))
(L (W x00 x00 x00 x00 xaa xd5 xff xff)))
(T (W x00 x00 x00 x00 x00 x00 x00 x00)
(L (W x00 x00 x00 x00 xe8 x4d xff xff)) E))
(T (W x01 x00 x00 x00 x00 x00 x80 x3f)
(T (W x00 x00 x00 x00 x00 x00 x00 x00)
(L (W x00 x00 x00 x00 x01 x00 x00 x00)) E)
(T (W x55 x39 x81 x6a xc4 xc7 x74 x14)
(L (W x28 x00 x00 x00 x14 x00 x00 x00)) E)))))))
(T (W x18 x34 x00 x00 xfc x31 x00 x00)
(T (W x00 x00 x00 x00 x00 x00 x00 x00)
(T (W x04 x00 x00 x00 x00 x00 x80 x3f)
(T (W x44 x00 x00 x00 x38 x00 x00 x00)
(T (W x9c x45 x3a x33 x88 xff x1a xc3)
(T (W x48 x00 x00 x00 x34 x00 x00 x00)
(T (W x45 x26 x22 x84 xe4 x9c xf2 xcb)
(L (W x00 x00 xa0 x40 x24 x01 x00 x00))
(L (W x00 x00 x80 x40 x24 x01 x00 x00)))
(T (W x04 x00 x00 x00 x22 x19 xfe xff)
(L (W x3c x01 x00 x00 x30 x01 x00 x00)) E))
(T (W x48 x00 x00 x00 x34 x00 x00 x00)
(T (W x45 x26 x22 x84 xe4 x9c xf2 xcb)
(L (W x42 x52 x45 x41 x4b x5f x41 x52))
(L (W x45 x26 x22 x84 xe4 x9c xf2 xcb)))
(T (W x00 x00 x00 x00 x00 x00 x00 x00)
(L (W x00 x00 xa0 x40 x24 x01 x00 x00)) E)))
(T (W x1b x00 x00 x00 x57 x53 x59 x53)
(T (W x45 x26 x22 x84 xe4 x9c xf2 xcb)
(T (W x00 x00 x00 x00 x66 xb3 xfd xff)
(L (W x01 x00 x00 x00 x04 x00 x00 x00))
(L (W x45 x26 x22 x84 xe4 x9c xf2 xcb)))
(T (W x00 x00 x00 x00 x00 x00 x00 x00)
(L (W x05 x45 x45 xdc x00 xdb x55 x2f)) E))
(T (W x00 x00 x00 x00 x00 x00 x00 x00)
(T (W x62 xf3 xfd xff x0a x37 x40 x44)
(L (W x2c x00 x00 x00 x20 x00 x00 x00))
(L (W x00 x00 x00 x00 x00 x00 x00 x00)))
(T (W x00 x00 x00 x00 x00 x00 x00 x00)
(L (W x00 x00 x00 x00 x00 x00 x00 x00)) E))))
(T (W x8f xf2 x0c x44 x00 x00 x00 x00)
(T (W x00 x00 x00 x00 x00 x00 x00 x00)
(T (W x00 x00 x00 x00 x00 x00 x00 x00)
(T (W x46 x53 x59 x53 x5f x4e x45 x57)
(L (W x74 x00 x00 x00 x68 x00 x00 x00))
(L (W xe4 xa3 xff xff x66 xa3 xff xff)))
(T (W x00 x00 x80 x3f x00 x00 x80 x3f)
(L (W x28 x00 x00 x00 x14 x00 x00 x00)) E))
(T (W x45 x26 x22 x84 xe4 x9c xf2 xcb)
(T (W x01 x00 x00 x00 x01 x00 x00 x00)
(L (W x44 x00 x00 x00 x30 x00 x00 x00))
(L (W x00 x00 x00 x00 x00 x00 x00 x00)))
(T (W x00 x00 x00 x00 x00 x00 x00 x00)
(L (W x00 x00 x80 x3f x00 x00 x80 x3f)) E)))
(T (W x45 x26 x22 x84 xe4 x9c xf2 xcb)
(T (W x45 x26 x22 x84 xe4 x9c xf2 xcb)
(T (W x01 x00 x00 x00 x04 x00 x00 x00)
(L (W xd5 x0d x4d xc1 xcf x7a xd2 xe3))
(L (W x00 x00 x00 x00 x00 x00 x00 x00)))
(T (W x45 x26 x22 x84 xe4 x9c xf2 xcb)
(L (W x34 x00 x00 x00 x20 x00 x00 x00)) E))
(T (W x00 x00 x80 x3f xe8 x83 xfd xff)
(T (W x00 x00 x00 x00 x00 x00 x00 x00)
(L (W x04 x00 x00 x00 x00 x00 x00 x00)) E)
(T (W x45 x26 x22 x84 xe4 x9c xf2 xcb)
(L (W x45 x26 x22 x84 xe4 x9c xf2 xcb)) E)))))
(T (W x40 x00 x00 x00 x38 x00 x00 x00)
(T (W x00 x00 x00 x00 x01 x00 x00 x00)
(T (W x45 x26 x22 x84 xe4 x9c xf2 xcb)
(T (W x32 x00 x00 x00 x1b x00 x00 x00)
(T (W x00 x00 x00 x00 x00 x00 x00 x00)
(L (W x45 x26 x22 x84 xe4 x9c xf2 xcb))
(L (W x32 xdb xac x28 xbf xd3 x59 x6a)))
(T (W x00 x00 x00 x00 x00 x00 x00 x00)
(L (W x00 x00 x00 x00 xe8 x1b xff xff)) E))
(T (W x1c x01 x00 x00 x01 x00 x00 x00)
(T (W x48 x00 x00 x00 x34 x00 x00 x00)
(L (W x45 x26 x22 x84 xe4 x9c xf2 xcb))
(L (W x78 x00 x00 x00 x6c x00 x00 x00)))
(T (W x45 x26 x22 x84 xe4 x9c xf2 xcb)
(L (W x01 x00 x00 x00 x04 x00 x00 x00)) E)))
(T (W x10 x06 xb5 x4b xbc xa7 xfa xea)
(T (W x60 x00 x00 x00 x54 x00 x00 x00)
(T (W x04 x00 x00 x00 x22 xc1 xfd xff)
(L (W xe4 xbb xfe xff x00 x00 x00 x00))
(L (W x00 x00 x00 x00 x01 x00 x00 x00)))
(T (W x3c x01 x00 x00 x30 x01 x00 x00)
(L (W x5c x00 x00 x00 x50 x00 x00 x00)) E))
(T (W x45 x26 x22 x84 xe4 x9c xf2 xcb)
(T (W x00 x00 x00 x00 x01 x00 x00 x00)
(L (W x00 x00 x80 x3f x00 x00 x80 x3f))
(L (W x55 x6c xfc xf1 x99 x9e xc9 x88)))
(T (W x3c x01 x00 x00 x30 x01 x00 x00)
(L (W x00 x00 x00 x00 xaa x83 xff xff)) E))))
(T (W x07 x00 x00 x00 x50 x00 x24 x00)
(T (W x2c x00 x00 x00 x18 x00 x00 x00)
(T (W x00 x00 x80 xbf x9c x00 x00 x00)
(T (W x45 x26 x22 x84 xe4 x9c xf2 xcb)
(L (W x00 x00 x80 xbf x9c x00 x00 x00))
(L (W x45 x26 x22 x84 xe4 x9c xf2 xcb)))
(T (W x45 x26 x22 x84 xe4 x9c xf2 xcb)
(L (W x00 x00 x00 x00 x01 x00 x00 x00)) E))
(T (W x60 x00 x00 x00 x54 x00 x00 x00)
(T (W x00 x00 x00 x00 xe8 xeb xfd xff)
(L (W x1c x01 x00 x00 x01 x00 x00 x00))
(L (W xde xf2 xaa xa7 xd0 x54 xf4 xce)))
(T (W x34 x00 x00 x00 x20 x00 x00 x00)
(L (W x04 x00 x00 x00 x00 x00 x00 x00)) E)))
(T (W x45 x26 x22 x84 xe4 x9c xf2 xcb)
(T (W x00 x00 x00 x00 x00 x00 x00 x00)
(T (W x00 x00 x80 x3f x00 x00 x80 x3f)
(L (W x00 x00 x00 x00 x00 x00 x00 x00))
(L (W xe4 xcb xff xff x66 xcb xff xff)))
(T (W x00 x00 x00 x00 x00 x00 x00 x00)
(L (W x45 x26 x22 x84 xe4 x9c xf2 xcb)) E))
(T (W x3c x01 x00 x00 x30 x01 x00 x00)
(T (W x45 x26 x22 x84 xe4 x9c xf2 xcb)
(L (W x00 x00 x00 x00 x00 x00 x00 x00)) E)
(T (W xe4 x8b xfe xff x00 x00 x00 x00)
(L (W x00 x00 x00 x00 xe8 x8b xff xff)) E))))))
(T (W x4b x5f x41 x52 x45 x41 x30 x32)
(T (W x45 x26 x22 x84 xe4 x9c xf2 xcb)
(T (W x00 x00 x00 x00 x00 x00 x00 x00)
(T (W x54 x00 x00 x00 x48 x00 x00 x00)
(T (W x00 x00 x80 x3f xe8 x17 xfd xff)
(T (W x44 x00 x00 x00 x38 x00 x00 x00)
(L (W xf7 x96 xa3 x28 x15 x87 xbf x26))
(L (W x40 x00 x00 x00 x38 x00 x00 x00)))
(T (W x45 x26 x22 x84 xe4 x9c xf2 xcb)
(L (W x54 x00 x00 x00 x48 x00 x00 x00)) E))
(T (W x00 x00 x80 x3f xe8 x57 xfd xff)
(T (W x00 x00 x00 x00 x00 x00 x00 x00)
(L (W x34 x00 x00 x00 x20 x00 x00 x00))
(L (W x44 x00 x00 x00 x38 x00 x00 x00)))
(T (W x45 x26 x22 x84 xe4 x9c xf2 xcb)
(L (W x40 x00 x00 x00 x38 x00 x00 x00)) E)))
(T (W x00 x00 xe0 x40 x24 x01 x00 x00)
(T (W x00 x00 x00 x00 x00 x00 x00 x00)
(T (W x00 x00 x00 x00 xaa xbf xfd xff)
(L (W x8c xba xfe xff x50 x00 x00 x00))
(L (W x00 x00 x00 x00 x00 x00 x00 x00)))
(T (W x44 x00 x00 x00 x30 x00 x00 x00)
(L (W x00 x00 x00 x00 x00 x00 x00 x00)) E))
(T (W x71 x8e x64 x23 x15 xd9 xaf x1d)
(T (W x5f x30 x31 x35 x00 x00 x00 x00)
(L (W xe4 xf7 xfe xff x00 x00 x00 x00))
(L (W x45 x26 x22 x84 xe4 x9c xf2 xcb)))
(T (W x00 x00 x00 x00 x66 x77 xfe xff)
(L (W x44 x00 x00 x00 x30 x00 x00 x00)) E))))
(T (W x5f x4f x55 x54 x42 x52 x45 x41)
(T (W xe4 xe7 xfc xff x00 x00 x00 x00)
(T (W x34 x01 x00 x00 x02 x00 x00 x00)
(T (W x00 x00 x80 xbf x9c x00 x00 x00)
(L (W xe1 x3a x36 x43 x00 x00 x00 x00))
(L (W x34 x00 x00 x00 x20 x00 x00 x00)))
(T (W x00 x00 x80 xbf x9c x00 x00 x00)
(L (W x54 x49 x4f x4e x5f x41 x52 x45)) E))
(T (W x00 x00 x00 x00 x00 x00 x00 x00)
(T (W x00 x00 x00 x00 x01 x00 x00 x00)
(L (W x00 x00 x00 x00 x00 x00 x00 x00))
(L (W x01 x00 x00 x00 x01 x00 x00 x00)))
(T (W xe4 x67 xfe xff x66 x67 xfe xff)
(L (W x00 x00 x80 x40 x24 x01 x00 x00)) E)))
(T (W x01 x00 x00 x00 x04 x00 x00 x00)
(T (W x45 x26 x22 x84 xe4 x9c xf2 xcb)
(T (W x00 x00 x00 x00 x00 x00 x00 x00)
(L (W x00 x00 x00 x00 xe8 xc7 xfe xff))
(L (W xe4 xc7 xff xff x00 x00 x00 x00)))
(T (W x55 x39 x81 x6a xc4 xc7 x74 x14)
(L (W x45 x26 x22 x84 xe4 x9c xf2 xcb)) E))
(T (W x00 x00 x00 x00 x00 x00 x00 x00)
(T (W x04 x00 x00 x00 xd0 x07 xfe xff)
(L (W x01 x00 x00 x00 x04 x00 x00 x00)) E)
(T (W x00 x00 x00 x00 xe8 x87 xfe xff)
(L (W xe4 x87 xff xff x00 x00 x00 x00)) E)))))
(T (W x45 x26 x22 x84 xe4 x9c xf2 xcb)
(T (W x49 xa1 x68 x4a xeb x5f xdd x3d)
(T (W x8c xe2 xfc xff x50 x00 x00 x00)
(T (W x00 x00 x00 x00 x00 x00 x00 x00)
(T (W x00 x00 x00 x00 x66 x9f xfd xff)
(L (W x45 x26 x22 x84 xe4 x9c xf2 xcb))
(L (W x00 x00 x00 x00 x01 x00 x00 x00)))
(T (W x60 x00 x00 x00 x54 x00 x00 x00)
(L (W x00 x00 x00 x00 x00 x00 x00 x00)) E))
(T (W x00 x00 x00 x00 x01 x00 x00 x00)
(T (W xe4 xdf xfd xff x66 xdf xfd xff)
(L (W x74 xf0 x39 xdc x00 x64 x48 x2f))
(L (W x00 x00 x00 x00 x66 xdf xff xff)))
(T (W x01 x00 x00 x00 x04 x00 x00 x00)
(L (W x00 x00 x00 x00 x00 x00 x00 x00)) E)))
(T (W x04 x00 x00 x00 x22 x05 xfd xff)
(T (W x00 x00 x00 x00 x00 x00 x00 x00)
(T (W x45 x26 x22 x84 xe4 x9c xf2 xcb)
(L (W x33 x33 x3a x43 x00 x00 x00 x00))
(L (W x45 x26 x22 x84 xe4 x9c xf2 xcb)))
(T (W x34 x00 x00 x00 x20 x00 x00 x00)
(L (W x00 x00 x00 x00 x00 x00 x00 x00)) E))
(T (W x00 x00 x00 x00 x00 x00 x00 x00)
(T (W x00 x00 x00 x00 xe8 xff xfd xff)
(L (W x00 x00 x80 x40 x24 x01 x00 x00))
(L (W x00 x00 x00 x00 x00 x00 x00 x00)))
(T (W x00 x00 x00 x00 x01 x00 x00 x00)
(L (W x45 x26 x22 x84 xe4 x9c xf2 xcb)) E))))
(T (W x1c x01 x00 x00 x04 x00 x00 x00)
(T (W x62 xef xfc xff x00 xc0 xa5 x43)
(T (W x45 x26 x22 x84 xe4 x9c xf2 xcb)
(T (W x00 x00 x00 x00 x00 x00 x00 x00)
(L (W x54 x00 x00 x00 x48 x00 x00 x00))
(L (W x00 x00 x00 x00 x00 x00 x00 x00)))
(T (W x44 x00 x00 x00 x38 x00 x00 x00)
(L (W x45 x26 x22 x84 xe4 x9c xf2 xcb)) E))
(T (W x00 x00 x80 x3f x00 x00 x80 x3f)
(T (W x00 x00 x00 x00 x00 x00 x00 x00)
(L (W x40 x00 x00 x00 x38 x00 x00 x00))
(L (W x00 x00 x00 x00 xe8 xef xff xff)))
(T (W x45 x26 x22 x84 xe4 x9c xf2 xcb)
(L (W x45 x26 x22 x84 xe4 x9c xf2 xcb)) E)))
(T (W x00 x00 x00 x00 xe8 x0f xfd xff)
(T (W x60 x00 x00 x00 x54 x00 x00 x00)
(T (W x00 x00 x80 xbf x9c x00 x00 x00)
(L (W x62 xcf xfe xff x00 x00 x80 x3f))
(L (W x01 x00 x00 x00 x00 x00 x80 x3f)))
(T (W x5c x00 x00 x00 x50 x00 x00 x00)
(L (W x28 x00 x00 x00 x14 x00 x00 x00)) E))
(T (W x00 x00 x00 x00 x01 x00 x00 x00)
(T (W x3c x01 x00 x00 x30 x01 x00 x00)
(L (W x45 x26 x22 x84 xe4 x9c xf2 xcb)) E)
(T (W x00 x00 x80 x3f x00 x00 x80 x3f)
(L (W x52 xb8 x09 x44 x00 x00 x00 x00)) E)))))))))
(T (W x3c xc3 x02 x00 x70 xc1 x02 x00)
(T (W x5c x4d x02 x00 x90 x4b x02 x00)
(T (W xa0 x60 x01 x00 xb4 x5e x01 x00)
(T (W x00 x00 x00 x00 x00 x00 x00 x00)
(T (W x49 xa1 x68 x4a xeb x5f xdd x3d)
(T (W x0f xa0 x99 x6e xd4 x77 x24 xa1)
(T (W xe2 xd0 xfc xff xcd x1c x2e x44)
(T (W x00 x00 x00 x00 x68 x11 xfd xff)
(T (W x42 x52 x45 x41 x4b x5f x41 x52)
(L (W x00 x00 x00 x00 x01 x00 x00 x00))
(L (W x5c x00 x00 x00 x50 x00 x00 x00)))
(T (W x00 x00 x80 x3f x00 x00 x80 x3f)
(L (W x00 x00 x00 x00 x68 x11 xff xff)) E))
(T (W x33 x44 xbb x28 xbf xcd x6a x6a)
(T (W x00 x00 x00 x00 x00 x00 x00 x00)
(L (W x64 xd1 xfe xff x00 x00 x00 x00))
(L (W xd7 xc3 xca x43 x00 x00 x00 x00)))
(T (W x00 x00 x00 x00 x00 x00 x00 x00)
(L (W x00 x00 x00 x00 x00 x00 x00 x00)) E)))
(T (W x00 x00 x00 x00 x68 xf1 xfc xff)
(T (W x7f xb6 x5c xec x2c x10 xa7 xd3)
(T (W x00 x00 x00 x00 x68 xb1 xfd xff)
(L (W x00 x00 x80 xbf x9c x00 x00 x00))
(L (W x64 xb1 xff xff x00 x00 x00 x00)))
(T (W x54 x00 x00 x00 x48 x00 x00 x00)
(L (W x34 x00 x00 x00 x20 x00 x00 x00)) E))
(T (W x00 x00 x00 x00 x00 x00 x00 x00)
(T (W x44 x00 x00 x00 x38 x00 x00 x00)
(L (W x00 x00 x80 xbf x9c x00 x00 x00))
(L (W x04 x00 x00 x00 xa2 xf6 xff xff)))
(T (W x04 x00 x00 x00 x00 x00 x00 x00)
(L (W x04 x00 x00 x00 x00 x00 x00 x00)) E))))
(T (W x00 x00 x00 x00 x00 x00 x00 x00)
(T (W x04 x00 x00 x00 xa2 xe6 xfc xff)
(T (W x00 x00 x00 x00 x68 x21 xfd xff)
(T (W x00 x00 x00 x00 x68 xa1 xfd xff)
(L (W x00 x00 x00 x00 x68 xa1 xfe xff))
(L (W x0c xa4 xff xff x50 x00 x00 x00)))
(T (W x7e x99 x4a xdc x00 x64 x5c x2f)
(L (W x45 x26 x22 x84 xe4 x9c xf2 xcb)) E))
(T (W x34 x01 x00 x00 x00 x00 x40 x40)
(T (W x04 x00 x00 x00 x88 xe3 xfd xff)
(L (W x45 x26 x22 x84 xe4 x9c xf2 xcb))
(L (W x00 x00 x00 x00 x00 x00 x00 x00)))
(T (W x00 x00 x00 x00 x01 x00 x00 x00)
(L (W x0c x64 xff xff x50 x00 x00 x00)) E)))
(T (W x3c x01 x00 x00 x30 x01 x00 x00)
(T (W x44 x00 x00 x00 x30 x00 x00 x00)
(T (W x34 x00 x00 x00 x20 x00 x00 x00)
(L (W x5c x00 x00 x00 x50 x00 x00 x00))
(L (W x45 x26 x22 x84 xe4 x9c xf2 xcb)))
(T (W x00 x00 x00 x00 x00 x00 x00 x00)
(L (W x28 x00 x00 x00 x14 x00 x00 x00)) E))
(T (W x0c x84 xfd xff x50 x00 x00 x00)
(T (W x40 x00 x00 x00 x38 x00 x00 x00)
(L (W x00 x00 x80 x3f x68 x01 xff xff)) E)
(T (W x00 x00 x80 x40 x24 x01 x00 x00)
(L (W x53 x5f x47 x41 x4e x45 x52 x41)) E)))))
(T (W x5f x4f x55 x54 x42 x52 x45 x41)
(T (W x45 x26 x22 x84 xe4 x9c xf2 xcb)
(T (W x00 x00 xe0 x40 x24 x01 x00 x00)
(T (W x00 x00 x00 x00 x00 x00 x00 x00)
(T (W x54 x00 x00 x00 x48 x00 x00 x00)
(L (W x00 x00 x00 x00 x00 x00 x00 x00))
(L (W x34 x00 x00 x00 x20 x00 x00 x00)))
(T (W xaf xdf x1b x72 x9d x0d xa7 xbe)
(L (W x1c x01 x00 x00 x02 x00 x00 x00)) E))
(T (W x00 x00 x00 x00 x00 x00 x00 x00)
(T (W x00 x00 x00 x00 x68 xd9 xfd xff)
(L (W x00 x00 x00 x00 x00 x00 x00 x00))
(L (W x45 x26 x22 x84 xe4 x9c xf2 xcb)))
(T (W x5f x4e x45 x57 x5f x4f x55 x54)
(L (W x1c x01 x00 x00 x01 x00 x00 x00)) E)))
(T (W x00 x00 x80 x3f x68 xf9 xfc xff)
(T (W x64 x39 xfd xff x00 x00 x00 x00)
(T (W xe2 xb8 xfd xff x00 x00 x80 x3f)
(L (W x45 x26 x22 x84 xe4 x9c xf2 xcb))
(L (W x28 x00 x00 x00 x14 x00 x00 x00)))
(T (W x00 x00 x00 x00 x00 x00 x00 x00)
(L (W x64 x39 xff xff x00 x00 x00 x00)) E))
(T (W x00 x00 x00 x00 x00 x00 x00 x00)
(T (W x45 x26 x22 x84 xe4 x9c xf2 xcb)
(L (W x01 x00 x00 x00 x04 x00 x00 x00))
(L (W x45 x26 x22 x84 xe4 x9c xf2 xcb)))
(T (W x00 x00 x00 x00 x00 x00 x00 x00)
(L (W x00 x00 x00 x00 x00 x00 x00 x00)) E))))
(T (W x28 x00 x00 x00 x14 x00 x00 x00)
(T (W x01 x00 x00 x00 x04 x00 x00 x00)
(T (W xe2 x28 xfd xff x00 x00 x80 x3f)
(T (W x00 x00 x00 x00 x00 x00 x00 x00)
(L (W x00 x00 x00 x00 x01 x00 x00 x00))
(L (W x00 x00 x00 x00 x00 x00 x00 x00)))
(T (W x00 x00 x00 x00 x00 x00 x00 x00)
(L (W x45 x26 x22 x84 xe4 x9c xf2 xcb)) E))
(T (W x64 x69 xfd xff x00 x00 x00 x00)
(T (W x00 x00 x00 x00 x2a xf1 xfd xff)
(L (W x04 x00 x00 x00 x50 xe9 xfe xff))
(L (W x00 xc0 x38 x44 xcd xcc x08 x42)))
(T (W x04 x00 x00 x00 x88 x6b xfe xff)
(L (W x64 x69 xff xff xe6 x68 xff xff)) E)))
(T (W x00 x00 x00 x00 x01 x00 x00 x00)
(T (W x45 x26 x22 x84 xe4 x9c xf2 xcb)
(T (W x01 x00 x00 x00 x04 x00 x00 x00)
(L (W x04 x00 x00 x00 xa2 xce xfe xff))
(L (W x31 x6a xca xc9 x03 x8f xa3 xbc)))
(T (W x40 x00 x00 x00 x38 x00 x00 x00)
(L (W x06 x19 x42 xe3 x48 x2e x25 x26)) E))
(T (W x60 x00 x00 x00 x54 x00 x00 x00)
(T (W x44 x00 x00 x00 x38 x00 x00 x00)
(L (W x00 x00 x00 x00 x01 x00 x00 x00)) E)
(T (W x40 x00 x00 x00 x38 x00 x00 x00)
(L (W x54 x00 x00 x00 x48 x00 x00 x00)) E))))))
(T (W x00 x00 x00 x00 x01 x00 x00 x00)
(T (W x29 xdc x31 x43 x00 x00 x00 x00)
(T (W x54 x00 x00 x00 x48 x00 x00 x00)
(T (W x1b x00 x00 x00 x57 x53 x59 x53)
(T (W x45 x26 x22 x84 xe4 x9c xf2 xcb)
(T (W x92 x36 x5f x23 x15 x4e xa9 x1d)
(L (W x00 x00 x80 x3f x68 x95 xfe xff))
(L (W x64 x95 xff xff xe6 x94 xff xff)))
(T (W x34 x01 x00 x00 x00 x00 x40 x40)
(L (W x00 x00 x80 x3f x00 x00 x80 x3f)) E))
(T (W x45 x26 x22 x84 xe4 x9c xf2 xcb)
(T (W x00 x00 x00 x00 x01 x00 x00 x00)
(L (W x55 x39 x81 x6a xc4 xc7 x74 x14))
(L (W x8c xa5 xb5 xc0 x5c x22 x7d xbd)))
(T (W x44 x00 x00 x00 x30 x00 x00 x00)
(L (W x64 x55 xff xff xe6 x54 xff xff)) E)))
(T (W x48 x00 x00 x00 x34 x00 x00 x00)
(T (W x45 x26 x22 x84 xe4 x9c xf2 xcb)
(T (W x00 x00 x00 x00 x68 xb5 xfd xff)
(L (W x00 x00 x00 x00 x01 x00 x00 x00))
(L (W x00 x00 x00 x00 x68 xb5 xff xff)))
(T (W x45 x26 x22 x84 xe4 x9c xf2 xcb)
(L (W x45 x26 x22 x84 xe4 x9c xf2 xcb)) E))
(T (W x74 x00 x00 x00 x68 x00 x00 x00)
(T (W x04 x00 x00 x00 x88 xf7 xfd xff)
(L (W x45 x26 x22 x84 xe4 x9c xf2 xcb))
(L (W x00 x00 x00 x00 x68 xf5 xff xff)))
(T (W x00 x00 x00 x00 x68 x75 xfe xff)
(L (W x00 x00 x00 x00 x68 x75 xff xff)) E))))
(T (W x64 xc5 xfc xff x00 x00 x00 x00)
(T (W x45 x26 x22 x84 xe4 x9c xf2 xcb)
(T (W x44 x00 x00 x00 x30 x00 x00 x00)
(T (W x48 x00 x00 x00 x34 x00 x00 x00)
(L (W x00 x00 x00 x00 x00 x00 x00 x00))
(L (W x04 x00 x00 x00 x88 xa7 xff xff)))
(T (W x00 x00 x00 x00 x01 x00 x00 x00)
(L (W x00 x00 x00 x00 x00 x00 x00 x00)) E))
(T (W x00 x00 x00 x00 x01 x00 x00 x00)
(T (W xcd x2c x54 x44 x9a x99 x17 x42)
(L (W x00 x00 x00 x00 x00 x00 x00 x00))
(L (W x04 x00 x00 x00 x88 xe7 xff xff)))
(T (W x0c x68 xfe xff x50 x00 x00 x00)
(L (W x64 x65 xff xff x00 x00 x00 x00)) E)))
(T (W x34 x00 x00 x00 x20 x00 x00 x00)
(T (W x12 x49 xfd xff x40 x01 x00 x00)
(T (W x40 x00 x00 x00 x38 x00 x00 x00)
(L (W x00 x00 x00 x00 x2a xcd xfe xff))
(L (W x45 x26 x22 x84 xe4 x9c xf2 xcb)))
(T (W x99 xb8 xfe x36 x15 xf3 x4e x40)
(L (W x00 x00 x00 x00 x00 x00 x00 x00)) E))
(T (W x00 x00 x00 x00 x00 x00 x00 x00)
(T (W x45 x26 x22 x84 xe4 x9c xf2 xcb)
(L (W x1c x01 x00 x00 x01 x00 x00 x00)) E)
(T (W x7c x2c x76 x2c x15 xa0 x22 x2e)
(L (W x00 x00 x80 xbf x00 x00 x80 xbf)) E)))))
(T (W x1c x01 x00 x00 x04 x00 x00 x00)
(T (W x0c xc0 xfc xff x50 x00 x00 x00)
(T (W x3a x6d xba x4b xbc x3b x01 xeb)
(T (W x00 x00 x00 x00 x00 x00 x00 x00)
(T (W x00 x00 x00 x00 x68 x9d xfd xff)
(L (W xdc xc3 x13 x57 x8d x44 x65 xb4))
(L (W x45 x26 x22 x84 xe4 x9c xf2 xcb)))
(T (W x45 x26 x22 x84 xe4 x9c xf2 xcb)
(L (W x00 x00 x00 x00 x01 x00 x00 x00)) E))
(T (W x1f xd5 x1e x44 x33 x33 x18 x42)
(T (W x45 x26 x22 x84 xe4 x9c xf2 xcb)
(L (W x45 x26 x22 x84 xe4 x9c xf2 xcb))
(L (W x01 x00 x00 x00 x04 x00 x00 x00)))
(T (W x34 x00 x00 x00 x20 x00 x00 x00)
(L (W x00 x00 x00 x00 x01 x00 x00 x00)) E)))
(T (W x02 x00 x00 x00 x31 x38 x00 x00)
(T (W xeb x90 xa7 x28 xbf x50 x53 x6a)
(T (W x3c x01 x00 x00 x30 x01 x00 x00)
(L (W x2c x00 x00 x00 x20 x00 x00 x00))
(L (W x00 x00 xc0 x40 x24 x01 x00 x00)))
(T (W x00 x00 x80 x3f x00 x00 x80 x3f)
(L (W x00 x00 x00 x00 x00 x00 x00 x00)) E))
(T (W x00 x00 x00 x00 x01 x00 x00 x00)
(T (W x00 x00 x40 x40 x24 x01 x00 x00)
(L (W x00 x00 x00 x00 x01 x00 x00 x00))
(L (W x08 x00 x0c x00 x10 x00 x14 x00)))
(T (W x00 x00 x80 x3f x00 x00 x80 x3f)
(L (W x00 x00 x00 x00 xe6 x7c xff xff)) E))))
(T (W x2c x00 x00 x00 x18 x00 x00 x00)
(T (W x45 x26 x22 x84 xe4 x9c xf2 xcb)
(T (W x00 x00 x00 x00 x00 x00 x00 x00)
(T (W x00 x00 x00 x00 x01 x00 x00 x00)
(L (W x00 x00 x00 x00 x00 x00 x00 x00))
(L (W x04 x00 x00 x00 x00 x00 x00 x00)))
(T (W x00 x00 x80 xbf x00 x00 x80 xbf)
(L (W x00 x00 x00 x00 x2a x35 xff xff)) E))
(T (W xd3 x3a x45 xdc x00 xd5 x55 x2f)
(T (W x04 x00 x00 x00 xa2 xf2 xfd xff)
(L (W x33 x13 xc5 x43 x00 x00 xc1 x42))
(L (W x00 x00 x00 x00 x2a xf5 xff xff)))
(T (W x00 x00 x00 x00 x00 x00 x00 x00)
(L (W x1c x01 x00 x00 x01 x00 x00 x00)) E)))
(T (W x45 x26 x22 x84 xe4 x9c xf2 xcb)
(T (W x64 x4d xfd xff x00 x00 x00 x00)
(T (W x00 x00 x00 x00 x01 x00 x00 x00)
(L (W x00 x00 x00 x00 x68 xcd xfe xff))
(L (W x04 x00 x00 x00 x88 xcf xff xff)))
(T (W x45 x26 x22 x84 xe4 x9c xf2 xcb)
(L (W x45 x26 x22 x84 xe4 x9c xf2 xcb)) E))
(T (W x00 x00 x80 x3f x00 x00 x80 x3f)
(T (W x00 x00 x00 x00 x00 x00 x00 x00)
(L (W x64 x0d xff xff x00 x00 x00 x00)) E)
(T (W x86 x3c x45 xdc x00 xd6 x55 x2f)
(L (W x2c x00 x00 x00 x20 x00 x00 x00)) E)))))))
(T (W x98 x71 x00 x00 xac x6f x00 x00)
(T (W x00 x00 x00 x00 x00 x00 x00 x00)
(T (W x00 x00 x80 x3f x00 x00 x80 x3f)
(T (W x04 x00 x00 x00 x00 x00 x00 x00)
(T (W x00 x00 x00 x00 x00 x00 x00 x00)
(T (W x44 x00 x00 x00 x38 x00 x00 x00)
(T (W x3c x01 x00 x00 x30 x01 x00 x00)
(L (W x55 x6c xfc xf1 x99 x9e xc9 x88))
(L (W x55 x6c xfc xf1 x99 x9e xc9 x88)))
(T (W x00 x00 x00 x00 x00 x00 x00 x00)
(L (W x74 x00 x00 x00 x68 x00 x00 x00)) E))
(T (W x55 x39 x81 x6a xc4 xc7 x74 x14)
(T (W x01 x00 x00 x00 x00 x00 x80 x3f)
(L (W x60 x00 x00 x00 x54 x00 x00 x00))
(L (W x00 x00 xc0 x40 x24 x01 x00 x00)))
(T (W x00 x00 x00 x00 x00 x00 x00 x00)
(L (W x5c x00 x00 x00 x50 x00 x00 x00)) E)))
(T (W x04 x00 x00 x00 x50 xf3 xfc xff)
(T (W x54 x00 x00 x00 x48 x00 x00 x00)
(T (W x45 x26 x22 x84 xe4 x9c xf2 xcb)
(L (W x45 x26 x22 x84 xe4 x9c xf2 xcb))
(L (W x45 x26 x22 x84 xe4 x9c xf2 xcb)))
(T (W x45 x26 x22 x84 xe4 x9c xf2 xcb)
(L (W x04 x00 x00 x00 xa2 x38 xff xff)) E))
(T (W x64 x73 xfd xff x00 x00 x00 x00)
(T (W x00 x00 x00 x00 x00 x00 x00 x00)
(L (W x00 x00 x00 x00 x01 x00 x00 x00))
(L (W x45 x26 x22 x84 xe4 x9c xf2 xcb)))
(T (W x45 x26 x22 x84 xe4 x9c xf2 xcb)
(L (W x45 x26 x22 x84 xe4 x9c xf2 xcb)) E))))
(T (W x00 x00 x00 x00 x00 x00 x00 x00)
(T (W x45 x26 x22 x84 xe4 x9c xf2 xcb)
(T (W x39 x30 x35 x00 x68 x23 xfd xff)
(T (W x04 x00 x00 x00 x88 xa5 xfd xff)
(L (W x01 x00 x00 x00 x04 x00 x00 x00))
(L (W x00 x00 x00 x00 x00 x00 x00 x00)))
(T (W x00 x00 x00 x00 x00 x00 x00 x00)
(L (W x2c x00 x00 x00 x20 x00 x00 x00)) E))
(T (W x01 x00 x00 x00 x00 x00 x80 x3f)
(T (W x00 x00 x00 x00 xe6 xe2 xfd xff)
(L (W x44 x00 x00 x00 x38 x00 x00 x00))
(L (W x00 x00 x00 x00 x68 xe3 xff xff)))
(T (W x45 x26 x22 x84 xe4 x9c xf2 xcb)
(L (W x00 x00 x00 x00 x00 x00 x00 x00)) E)))
(T (W x04 x00 x00 x00 x00 x00 x80 x3f)
(T (W x5c xcf x51 x43 x29 x5c x4e x42)
(T (W x45 x26 x22 x84 xe4 x9c xf2 xcb)
(L (W x64 xc3 xfe xff xe6 xc2 xfe xff))
(L (W x45 x26 x22 x84 xe4 x9c xf2 xcb)))
(T (W x3c x01 x00 x00 x30 x01 x00 x00)
(L (W x00 x00 x26 x42 x00 x60 x13 x44)) E))
(T (W x00 x00 x00 x00 x00 x00 x00 x00)
(T (W x45 x26 x22 x84 xe4 x9c xf2 xcb)
(L (W x00 x00 x00 x00 x00 x00 x00 x00)) E)
(T (W x00 x00 x80 xbf x00 x00 x80 xbf)
(L (W x00 x00 x80 x40 x24 x01 x00 x00)) E)))))
(T (W x5a x8f xff xff x00 x00 x00 x01)
(T (W x64 xbb xfc xff x00 x00 x00 x00)
(T (W x00 x00 x80 xbf x00 x00 x80 xbf)
(T (W x00 x00 x00 x00 x01 x00 x00 x00)
(T (W x45 x26 x22 x84 xe4 x9c xf2 xcb)
(L (W x00 x00 x40 x40 x24 x01 x00 x00))
(L (W x04 x00 x00 x00 xa2 xa0 xff xff)))
(T (W x45 x26 x22 x84 xe4 x9c xf2 xcb)
(L (W x34 x00 x00 x00 x20 x00 x00 x00)) E))
(T (W x44 x00 x00 x00 x30 x00 x00 x00)
(T (W x44 x00 x00 x00 x38 x00 x00 x00)
(L (W x01 x00 x00 x00 x01 x00 x00 x00))
(L (W x01 x00 x00 x00 x04 x00 x00 x00)))
(T (W x01 x00 x00 x00 x00 x00 x80 x3f)
(L (W x45 x26 x22 x84 xe4 x9c xf2 xcb)) E)))
(T (W x00 x00 x00 x00 x00 x00 x00 x00)
(T (W x0c x3e xfd xff x50 x00 x00 x00)
(T (W x00 x00 x00 x00 x00 x00 x00 x00)
(L (W x00 x00 x00 x00 x68 xbb xfe xff))
(L (W x9a x59 xde x43 x00 x00 x00 x00)))
(T (W x74 x00 x00 x00 x68 x00 x00 x00)
(L (W x0c x3e xff xff x50 x00 x00 x00)) E))
(T (W x00 x00 x80 xbf x9c x00 x00 x00)
(T (W x00 x00 x00 x00 x00 x00 x00 x00)
(L (W x00 x00 x00 x00 x00 x00 x00 x00))
(L (W x45 x26 x22 x84 xe4 x9c xf2 xcb)))
(T (W x74 x00 x00 x00 x68 x00 x00 x00)
(L (W x04 x00 x00 x00 x88 x7d xff xff)) E))))
(T (W xe2 xca xfc xff x00 x00 x80 x3f)
(T (W x2c x00 x00 x00 x20 x00 x00 x00)
(T (W x00 x00 x80 x3f x68 x2b xfd xff)
(T (W x02 x00 x00 x00 x00 x00 x80 x3f)
(L (W x45 x26 x22 x84 xe4 x9c xf2 xcb))
(L (W x00 x00 x80 xbf x00 x00 x80 xbf)))
(T (W x01 x00 x00 x00 x00 x00 x80 x3f)
(L (W x00 x00 x00 x00 x00 x00 x00 x00)) E))
(T (W x0c x6e xfd xff x50 x00 x00 x00)
(T (W x34 x00 x00 x00 x20 x00 x00 x00)
(L (W x44 x00 x00 x00 x30 x00 x00 x00))
(L (W x00 x00 x00 x00 x00 x00 x00 x00)))
(T (W xe2 x6a xfe xff x00 x00 x80 x3f)
(L (W x46 x53 x59 x53 x5f x4e x45 x57)) E)))
(T (W x40 x00 x00 x00 x38 x00 x00 x00)
(T (W x45 x26 x22 x84 xe4 x9c xf2 xcb)
(T (W x00 x00 x00 x00 x00 x00 x00 x00)
(L (W x45 x26 x22 x84 xe4 x9c xf2 xcb))
(L (W x00 x00 x00 x00 x00 x00 x00 x00)))
(T (W x45 x26 x22 x84 xe4 x9c xf2 xcb)
(L (W x54 x00 x00 x00 x48 x00 x00 x00)) E))
(T (W x55 x39 x81 x6a xc4 xc7 x74 x14)
(T (W x45 x26 x22 x84 xe4 x9c xf2 xcb)
(L (W x45 x26 x22 x84 xe4 x9c xf2 xcb)) E)
(T (W x00 x00 x00 x00 x68 x8b xfe xff)
(L (W x45 x26 x22 x84 xe4 x9c xf2 xcb)) E))))))
(T (W x5c x00 x00 x00 x50 x00 x00 x00)
(T (W x00 x00 x00 x00 x00 x00 x00 x00)
(T (W x45 x26 x22 x84 xe4 x9c xf2 xcb)
(T (W x5f x41 x52 x45 x41 x30 x32 x00)
(T (W x00 x00 x00 x00 x00 x00 x00 x00)
(T (W x04 x00 x00 x00 x00 x00 x00 x00)
(L (W x00 x00 x00 x00 x00 x00 x00 x00))
(L (W x00 x00 x00 x00 x2a x9f xff xff)))
(T (W x00 x00 x80 x3f x02 x00 x00 x00)
(L (W x00 x00 x00 x00 x00 x00 x00 x00)) E))
(T (W x00 x00 x00 x00 x00 x00 x00 x00)
(T (W x45 x26 x22 x84 xe4 x9c xf2 xcb)
(L (W x00 x00 x80 x3f x00 x00 x80 x3f))
(L (W x04 x00 x00 x00 x00 x00 x00 x00)))
(T (W xe1 xba x2c x44 x1f x85 xaa x42)
(L (W x00 x00 x00 x00 x2a x5f xff xff)) E)))
(T (W x4f x84 x6f x8b xe8 xcb x63 xb7)
(T (W x45 x26 x22 x84 xe4 x9c xf2 xcb)
(T (W x04 x00 x00 x00 x88 xb9 xfd xff)
(L (W x00 x00 x00 x00 x01 x00 x00 x00))
(L (W x00 x00 x00 x00 x68 xb7 xff xff)))
(T (W x44 x00 x00 x00 x38 x00 x00 x00)
(L (W x45 x26 x22 x84 xe4 x9c xf2 xcb)) E))
(T (W x00 x00 x80 x3f x00 x00 x80 x3f)
(T (W x44 x00 x00 x00 x30 x00 x00 x00)
(L (W x00 x00 x00 x00 x68 xf7 xfe xff))
(L (W x52 x63 x6c x12 x83 xf4 x3a xc6)))
(T (W x45 x26 x22 x84 xe4 x9c xf2 xcb)
(L (W x44 x00 x00 x00 x38 x00 x00 x00)) E))))
(T (W x74 x00 x00 x00 x68 x00 x00 x00)
(T (W x00 x00 x00 x00 x68 xe7 xfc xff)
(T (W x49 xa1 x68 x4a xeb x5f xdd x3d)
(T (W x45 x26 x22 x84 xe4 x9c xf2 xcb)
(L (W x00 x00 x00 x00 x00 x00 x00 x00))
(L (W xe2 xa6 xff xff x00 x00 x80 x3f)))
(T (W x45 x26 x22 x84 xe4 x9c xf2 xcb)
(L (W x5c x00 x00 x00 x50 x00 x00 x00)) E))
(T (W x45 x26 x22 x84 xe4 x9c xf2 xcb)
(T (W x5f x4e x45 x57 x5f x4f x55 x54)
(L (W x00 x00 x00 x00 x68 xe7 xfe xff))
(L (W xe2 xe6 xff xff x00 x00 x80 x3f)))
(T (W x00 x00 x00 x00 x00 x00 x00 x00)
(L (W x72 xeb x22 x37 x6d xc8 x9b xc2)) E)))
(T (W x45 x26 x22 x84 xe4 x9c xf2 xcb)
(T (W x1c x01 x00 x00 x01 x00 x00 x00)
(T (W x45 x26 x22 x84 xe4 x9c xf2 xcb)
(L (W x34 x00 x00 x00 x20 x00 x00 x00))
(L (W x00 x00 x00 x00 x68 xc7 xff xff)))
(T (W x54 x00 x00 x00 x48 x00 x00 x00)
(L (W x3c x01 x00 x00 x30 x01 x00 x00)) E))
(T (W x00 x00 x00 x00 x01 x00 x00 x00)
(T (W x00 x00 x00 x00 x68 x07 xfe xff)
(L (W x45 x26 x22 x84 xe4 x9c xf2 xcb)) E)
(T (W x82 x9d x6f x23 x9d x04 xe3 xdb)
(L (W x32 x5c x11 x0c x1e x71 xad xc0)) E)))))
(T (W x00 x00 x80 xbf x9c x00 x00 x00)
(T (W x3f x7c x88 xaf x9a x1e x19 x7c)
(T (W x00 x00 x00 x00 x01 x00 x00 x00)
(T (W x64 x1f xfd xff x00 x00 x00 x00)
(T (W x45 x26 x22 x84 xe4 x9c xf2 xcb)
(L (W x40 x00 x00 x00 x38 x00 x00 x00))
(L (W x64 x9f xff xff x00 x00 x00 x00)))
(T (W x0c x22 xfe xff x50 x00 x00 x00)
(L (W x45 x26 x22 x84 xe4 x9c xf2 xcb)) E))
(T (W x00 x00 x00 x00 x02 x00 x00 x00)
(T (W x00 x00 x00 x00 x00 x00 x00 x00)
(L (W x04 x00 x00 x00 xa2 xe4 xfe xff))
(L (W x45 x26 x22 x84 xe4 x9c xf2 xcb)))
(T (W x45 x26 x22 x84 xe4 x9c xf2 xcb)
(L (W x45 x26 x22 x84 xe4 x9c xf2 xcb)) E)))
(T (W x4e x45 x52 x41 x54 x49 x4f x4e)
(T (W x00 x00 x00 x00 x00 x00 x00 x00)
(T (W x00 x00 x80 x3f x02 x00 x00 x00)
(L (W x00 x00 x00 x00 x00 x00 x00 x00))
(L (W x00 x00 x80 xbf x9c x00 x00 x00)))
(T (W xc3 xf5 x17 x42 x8f xe2 x19 x44)
(L (W x00 x00 x00 x00 x68 x3f xff xff)) E))
(T (W x45 x26 x22 x84 xe4 x9c xf2 xcb)
(T (W xdb xcf x45 x87 x8b x9b x8c x13)
(L (W x55 x6c xfc xf1 x99 x9e xc9 x88))
(L (W x45 x26 x22 x84 xe4 x9c xf2 xcb)))
(T (W x00 x00 x00 x00 x1c x00 x00 x00)
(L (W x14 xae x00 x44 x5c x8f x17 x42)) E))))
(T (W x00 x00 x00 x00 xe6 xce xfc xff)
(T (W x00 x00 x00 x00 x00 x00 x00 x00)
(T (W x00 x00 xa0 x41 x24 x01 x00 x00)
(T (W x45 x26 x22 x84 xe4 x9c xf2 xcb)
(L (W x00 x00 x00 x00 x00 x00 x00 x00))
(L (W x45 x26 x22 x84 xe4 x9c xf2 xcb)))
(T (W x04 x00 x00 x00 x00 x00 x00 x00)
(L (W x01 x00 x00 x00 x00 x00 x80 x3f)) E))
(T (W x00 x00 x00 x00 x00 x00 x00 x00)
(T (W x45 x26 x22 x84 xe4 x9c xf2 xcb)
(L (W x12 xf3 xfe xff x40 x01 x00 x00))
(L (W x34 x00 x00 x00 x20 x00 x00 x00)))
(T (W x00 x00 x80 xbf x00 x00 x80 xbf)
(L (W x00 x00 x80 xbf x9c x00 x00 x00)) E)))
(T (W x45 x26 x22 x84 xe4 x9c xf2 xcb)
(T (W x0c x52 xfd xff x50 x00 x00 x00)
(T (W x45 x26 x22 x84 xe4 x9c xf2 xcb)
(L (W x45 x26 x22 x84 xe4 x9c xf2 xcb))
(L (W xe2 xce xff xff x00 x00 x80 x3f)))
(T (W x0c x52 xfe xff x50 x00 x00 x00)
(L (W x2c x00 x00 x00 x20 x00 x00 x00)) E))
(T (W x52 x18 x40 x44 x00 x00 x00 x00)
(T (W x60 x00 x00 x00 x54 x00 x00 x00)
(L (W x45 x26 x22 x84 xe4 x9c xf2 xcb)) E)
(T (W x00 x00 x00 x00 x00 x00 x00 x00)
(L (W x00 x00 x00 x00 x00 x00 x00 x00)) E))))))))
(T (W x4c xd7 x01 x00 x80 xd5 x01 x00)
(T (W x2c xea x00 x00 x60 xe8 x00 x00)
(T (W x00 x00 x80 xbf x00 x00 x80 xbf)
(T (W x45 x26 x22 x84 xe4 x9c xf2 xcb)
(T (W x04 x00 x00 x00 x88 xb4 xfc xff)
(T (W x45 x26 x22 x84 xe4 x9c xf2 xcb)
(T (W x1b x00 x00 x00 x57 x53 x59 x53)
(T (W xd3 x3a x45 xdc x00 xd5 x55 x2f)
(L (W x54 x00 x00 x00 x48 x00 x00 x00))
(L (W x54 x00 x00 x00 x48 x00 x00 x00)))
(T (W x00 x00 x00 x00 x68 x12 xfe xff)
(L (W x45 x26 x22 x84 xe4 x9c xf2 xcb)) E))
(T (W x54 x49 x4f x4e x5f x41 x52 x45)
(T (W x2c x00 x00 x00 x20 x00 x00 x00)
(L (W x00 x00 x00 x00 x01 x00 x00 x00))
(L (W x0c xd5 xff xff x50 x00 x00 x00)))
(T (W x00 x00 x80 xbf x00 x00 x80 xbf)
(L (W x00 x00 x00 x00 x01 x00 x00 x00)) E)))
(T (W xf7 x05 x11 x81 x86 x82 x0d x0e)
(T (W x00 x00 x00 x00 x01 x00 x00 x00)
(T (W x00 x00 x00 x00 x2a xba xfd xff)
(L (W x00 x00 x00 x00 x68 xb2 xfe xff))
(L (W x00 x00 x00 x00 x00 x00 x00 x00)))
(T (W x55 x6c xfc xf1 x99 x9e xc9 x88)
(L (W x64 x32 xff xff x00 x00 x00 x00)) E))
(T (W x34 x00 x00 x00 x20 x00 x00 x00)
(T (W x1c x01 x00 x00 x01 x00 x00 x00)
(L (W x00 x00 x00 x00 x68 xf2 xfe xff))
(L (W x55 x39 x81 x6a xc4 xc7 x74 x14)))
(T (W x44 x00 x00 x00 x30 x00 x00 x00)
(L (W x48 x00 x00 x00 x34 x00 x00 x00)) E))))
(T (W x04 x00 x00 x00 x00 x00 x80 x3f)
(T (W xd6 x81 x9c x94 x9b x27 x57 x25)
(T (W x00 x00 x80 xbf x9c x00 x00 x00)
(T (W xdc x40 x76 x29 x0e xed x56 xdc)
(L (W x00 x00 x00 x00 x00 x00 x00 x00))
(L (W x00 x00 xa0 x40 x24 x01 x00 x00)))
(T (W x3c x01 x00 x00 x30 x01 x00 x00)
(L (W x00 x00 x00 x00 x00 x00 x00 x00)) E))
(T (W x00 x00 x00 x00 x00 x00 x00 x00)
(T (W x40 x00 x00 x00 x38 x00 x00 x00)
(L (W x00 x00 x00 x00 x00 x00 x00 x00))
(L (W x00 x00 x80 xbf x9c x00 x00 x00)))
(T (W x28 x00 x00 x00 x14 x00 x00 x00)
(L (W x34 x01 x00 x00 x00 x00 xc0 x40)) E)))
(T (W x00 x00 x00 x00 x00 x00 x00 x00)
(T (W x45 x26 x22 x84 xe4 x9c xf2 xcb)
(T (W x64 xc2 xfd xff x00 x00 x00 x00)
(L (W x45 x26 x22 x84 xe4 x9c xf2 xcb))
(L (W x74 x00 x00 x00 x68 x00 x00 x00)))
(T (W x8e x18 xb9 x28 xbf xd3 x67 x6a)
(L (W x45 x26 x22 x84 xe4 x9c xf2 xcb)) E))
(T (W x00 x00 xa0 x40 x24 x01 x00 x00)
(T (W x00 x00 x00 x00 xe6 x01 xfe xff)
(L (W x45 x26 x22 x84 xe4 x9c xf2 xcb)) E)
(T (W x00 x00 x00 x00 x00 x00 x00 x00)
(L (W x29 x9b xaa x28 xbf xcd x56 x6a)) E)))))
(T (W x2c x00 x00 x00 x20 x00 x00 x00)
(T (W x00 x00 x00 x00 x00 x00 x00 x00)
(T (W x00 x00 x00 x00 x00 x00 x00 x00)
(T (W x1f xfa xb1 x4b xbc x29 xf7 xea)
(T (W x55 x6c xfc xf1 x99 x9e xc9 x88)
(L (W x0c x9d xfe xff x50 x00 x00 x00))
(L (W x64 x9a xff xff x00 x00 x00 x00)))
(T (W x74 x00 x00 x00 x68 x00 x00 x00)
(L (W x00 x00 x00 x00 x00 x00 x00 x00)) E))
(T (W x04 x00 x00 x00 x00 x00 x00 x00)
(T (W x1c x00 x00 x00 x46 x53 x59 x53)
(L (W x2c x00 x00 x00 x20 x00 x00 x00))
(L (W x5c x0f x8e x43 xe1 x7a x4d x42)))
(T (W x2c x00 x00 x00 x20 x00 x00 x00)
(L (W x00 x00 x00 x00 x00 x00 x00 x00)) E)))
(T (W x45 x26 x22 x84 xe4 x9c xf2 xcb)
(T (W x00 x00 x00 x00 x1c x00 x00 x00)
(T (W x00 x00 x00 x00 x68 xba xfd xff)
(L (W x00 x00 x80 x3f x00 x00 x80 x3f))
(L (W x45 x26 x22 x84 xe4 x9c xf2 xcb)))
(T (W x45 x26 x22 x84 xe4 x9c xf2 xcb)
(L (W x00 x00 x00 x00 x00 x00 x00 x00)) E))
(T (W x45 x26 x22 x84 xe4 x9c xf2 xcb)
(T (W x45 x26 x22 x84 xe4 x9c xf2 xcb)
(L (W x3c x01 x00 x00 x30 x01 x00 x00))
(L (W x00 x00 x80 x40 x3c x01 x00 x00)))
(T (W x45 x26 x22 x84 xe4 x9c xf2 xcb)
(L (W x52 xa3 x35 x7c x35 xaf xb7 xaf)) E))))
(T (W x40 x00 x00 x00 x38 x00 x00 x00)
(T (W x5f x4d x41 x53 x53 x5f x47 x41)
(T (W x45 x26 x22 x84 xe4 x9c xf2 xcb)
(T (W x2c x00 x00 x00 x20 x00 x00 x00)
(L (W x54 x00 x00 x00 x48 x00 x00 x00))
(L (W x19 xd6 xac x28 xbf xd0 x59 x6a)))
(T (W x2c x00 x00 x00 x20 x00 x00 x00)
(L (W x45 x26 x22 x84 xe4 x9c xf2 xcb)) E))
(T (W x00 x00 x00 x00 x1c x00 x00 x00)
(T (W x45 x26 x22 x84 xe4 x9c xf2 xcb)
(L (W x04 x00 x00 x00 x00 x00 x00 x00))
(L (W x45 x26 x22 x84 xe4 x9c xf2 xcb)))
(T (W x40 x00 x00 x00 x38 x00 x00 x00)
(L (W x00 x00 x00 x00 x68 x6a xff xff)) E)))
(T (W x2c x00 x00 x00 x18 x00 x00 x00)
(T (W x74 x00 x00 x00 x68 x00 x00 x00)
(T (W x3c x01 x00 x00 x30 x01 x00 x00)
(L (W xd6 x81 x9c x94 x9b x27 x57 x25))
(L (W x00 x00 x80 x40 x24 x01 x00 x00)))
(T (W x28 x00 x00 x00 x14 x00 x00 x00)
(L (W x00 x00 x00 x00 x01 x00 x00 x00)) E))
(T (W x04 x00 x00 x00 xa2 x8f xfd xff)
(T (W x5f x30 x31 x34 x00 x00 x00 x00)
(L (W x28 x00 x00 x00 x14 x00 x00 x00)) E)
(T (W xe2 x89 xfe xff x00 x00 x80 x3f)
(L (W x45 x26 x22 x84 xe4 x9c xf2 xcb)) E))))))
(T (W x00 x00 x00 x00 x01 x00 x00 x00)
(T (W x00 x00 x00 x00 x68 xa6 xfc xff)
(T (W x4f x84 x6f x8b xe8 xcb x63 xb7)
(T (W x44 x00 x00 x00 x38 x00 x00 x00)
(T (W x00 x00 xe0 x40 x24 x01 x00 x00)
(T (W x00 x00 x00 x00 x01 x00 x00 x00)
(L (W x45 x26 x22 x84 xe4 x9c xf2 xcb))
(L (W x00 x00 x00 x00 x68 x96 xff xff)))
(T (W x00 x00 x00 x00 x00 x00 x00 x00)
(L (W x64 x16 xff xff x00 x00 x00 x00)) E))
(T (W x28 x01 x00 x00 x20 x01 x00 x00)
(T (W x5c x00 x00 x00 x50 x00 x00 x00)
(L (W x45 x26 x22 x84 xe4 x9c xf2 xcb))
(L (W x04 x00 x00 x00 x50 xd6 xff xff)))
(T (W x45 x26 x22 x84 xe4 x9c xf2 xcb)
(L (W x00 x00 x00 x00 x68 x56 xff xff)) E)))
(T (W x54 x00 x00 x00 x48 x00 x00 x00)
(T (W x64 x36 xfd xff xe6 x35 xfd xff)
(T (W x7f xa4 xa5 xa0 xbb x3e x1e xe8)
(L (W x00 x00 x00 x00 x01 x00 x00 x00))
(L (W x00 x00 x80 xbf x9c x00 x00 x00)))
(T (W x00 x00 x00 x00 x00 x00 x00 x00)
(L (W x00 x00 x80 x3f x00 x00 x80 x3f)) E))
(T (W x45 x26 x22 x84 xe4 x9c xf2 xcb)
(T (W x04 x00 x00 x00 x00 x00 x00 x00)
(L (W xe1 xfa xaa x42 xd7 xa3 x5e x43))
(L (W x00 x00 x00 x00 x00 x00 x00 x00)))
(T (W x00 x00 x00 x00 x2a x7e xfe xff)
(L (W x46 x53 x59 x53 x5f x4e x45 x57)) E))))
(T (W x45 x26 x22 x84 xe4 x9c xf2 xcb)
(T (W x3d x8a xdf x42 x0a x57 xfa x42)
(T (W x04 x00 x00 x00 xa2 x2b xfd xff)
(T (W x54 x00 x00 x00 x48 x00 x00 x00)
(L (W x01 x00 x00 x00 x00 x00 x80 x3f))
(L (W x40 x00 x00 x00 x38 x00 x00 x00)))
(T (W x54 x00 x00 x00 x48 x00 x00 x00)
(L (W x00 x00 x00 x00 x01 x00 x00 x00)) E))
(T (W x5c x00 x00 x00 x50 x00 x00 x00)
(T (W x01 x00 x00 x00 x04 x00 x00 x00)
(L (W x00 x00 x80 xbf x9c x00 x00 x00))
(L (W x40 x00 x00 x00 x38 x00 x00 x00)))
(T (W x00 x00 xa0 x40 x24 x01 x00 x00)
(L (W x04 x00 x00 x00 xa2 x6b xff xff)) E)))
(T (W x64 x06 xfd xff x00 x00 x00 x00)
(T (W x45 x26 x22 x84 xe4 x9c xf2 xcb)
(T (W x00 x00 x00 x00 xe6 xc5 xfd xff)
(L (W x45 x26 x22 x84 xe4 x9c xf2 xcb))
(L (W xf6 x28 x54 x42 x7b x34 xc1 x43)))
(T (W x00 x00 x00 x00 x01 x00 x00 x00)
(L (W xc1 xa8 xaa x28 xbf xd5 x56 x6a)) E))
(T (W xbc x1e x5c x23 x15 xc9 xa5 x1d)
(T (W x00 x00 x00 x00 x00 x00 x00 x00)
(L (W x00 x00 x00 x00 x00 x00 x00 x00)) E)
(T (W x45 x41 x30 x32 x5f x30 x30 x36)
(L (W x00 x00 x00 x00 x00 x00 x00 x00)) E)))))
(T (W x00 x00 x00 x00 x00 x00 x00 x00)
(T (W x4b x5f x41 x52 x45 x41 x30 x32)
(T (W x00 x00 x00 x00 x01 x00 x00 x00)
(T (W x52 xd9 xf7 xb9 x53 x49 x90 x7b)
(T (W x00 x00 x00 x00 x2a xa6 xfd xff)
(L (W x04 x00 x00 x00 x88 xa0 xfe xff))
(L (W x00 x00 x00 x00 x00 x00 x00 x00)))
(T (W x3d xda x0d x44 x00 x00 x00 x00)
(L (W x5c x00 x00 x00 x50 x00 x00 x00)) E))
(T (W x01 x00 x00 x00 x04 x00 x00 x00)
(T (W x00 x00 x40 x40 x24 x01 x00 x00)
(L (W x74 x00 x00 x00 x68 x00 x00 x00))
(L (W x12 xe2 xff xff x40 x01 x00 x00)))
(T (W x64 x5e xfe xff x00 x00 x00 x00)
(L (W x28 x00 x00 x00 x14 x00 x00 x00)) E)))
(T (W x0c x01 xfd xff x50 x00 x00 x00)
(T (W x00 x00 x80 xbf x00 x00 x80 xbf)
(T (W x00 x00 x00 x00 x00 x00 x00 x00)
(L (W x01 x00 x00 x00 x00 x00 x80 x3f))
(L (W x00 x00 x00 x00 x00 x00 x00 x00)))
(T (W x45 x26 x22 x84 xe4 x9c xf2 xcb)
(L (W x00 x00 x80 xbf x9c x00 x00 x00)) E))
(T (W x28 x00 x00 x00 x14 x00 x00 x00)
(T (W x00 x00 x00 x00 x00 x00 x00 x00)
(L (W x54 x00 x00 x00 x48 x00 x00 x00))
(L (W x00 x00 x00 x00 x00 x00 x00 x00)))
(T (W x64 x7e xfe xff x00 x00 x00 x00)
(L (W x45 x26 x22 x84 xe4 x9c xf2 xcb)) E))))
(T (W x40 x00 x00 x00 x38 x00 x00 x00)
(T (W x1c x01 x00 x00 x04 x00 x00 x00)
(T (W x44 x00 x00 x00 x38 x00 x00 x00)
(T (W x5c x00 x00 x00 x50 x00 x00 x00)
(L (W x00 x00 x00 x00 x68 xae xfe xff))
(L (W x48 x00 x00 x00 x34 x00 x00 x00)))
(T (W x00 x00 x00 x00 x00 x00 x00 x00)
(L (W x45 x26 x22 x84 xe4 x9c xf2 xcb)) E))
(T (W x3c x01 x00 x00 x30 x01 x00 x00)
(T (W x45 x26 x22 x84 xe4 x9c xf2 xcb)
(L (W x01 x00 x00 x00 x04 x00 x00 x00))
(L (W x45 x26 x22 x84 xe4 x9c xf2 xcb)))
(T (W x6c x88 xa7 x28 xbf x4b x53 x6a)
(L (W x00 x00 x00 x00 x00 x00 x00 x00)) E)))
(T (W xe2 x0d xfd xff x8f x42 x08 x44)
(T (W x00 x00 x00 x00 x00 x00 x00 x00)
(T (W x54 x00 x00 x00 x48 x00 x00 x00)
(L (W x00 x00 x00 x00 x2a xd6 xfe xff))
(L (W x40 x00 x00 x00 x38 x00 x00 x00)))
(T (W x00 x20 xe5 x43 x00 x00 x00 x00)
(L (W x00 x00 x00 x00 x00 x00 x00 x00)) E))
(T (W x45 x26 x22 x84 xe4 x9c xf2 xcb)
(T (W x00 x00 x00 x00 x01 x00 x00 x00)
(L (W x00 x00 x00 x00 x00 x00 x00 x00)) E)
(T (W x3c x01 x00 x00 x30 x01 x00 x00)
(L (W x01 x00 x00 x00 x00 x00 x80 x3f)) E)))))))
(T (W x00 x00 x00 x41 x24 x01 x00 x00)
(T (W xcc x98 x7d x67 x2b x72 xe6 x8e)
(T (W x45 x26 x22 x84 xe4 x9c xf2 xcb)
(T (W x44 x00 x00 x00 x30 x00 x00 x00)
(T (W x00 x00 x00 x00 x68 xd4 xfc xff)
(T (W x5f x41 x52 x45 x41 x30 x32 x00)
(T (W x00 x00 x00 x00 x00 x00 x00 x00)
(L (W x45 x26 x22 x84 xe4 x9c xf2 xcb))
(L (W x45 x26 x22 x84 xe4 x9c xf2 xcb)))
(T (W x83 x85 xd4 x61 xf7 xdb xb2 x83)
(L (W x45 x26 x22 x84 xe4 x9c xf2 xcb)) E))
(T (W x5f x41 x52 x45 x41 x30 x32 x00)
(T (W x00 x00 x00 x00 x00 x00 x00 x00)
(L (W x04 x00 x00 x00 xa2 xd9 xfe xff))
(L (W x00 x00 x00 x00 x00 x00 x00 x00)))
(T (W x04 x00 x00 x00 x00 x00 x00 x00)
(L (W x45 x26 x22 x84 xe4 x9c xf2 xcb)) E)))
(T (W x04 x00 x00 x00 x00 x00 x00 x00)
(T (W x55 x6c xfc xf1 x99 x9e xc9 x88)
(T (W x00 x00 x80 xbf x9c x00 x00 x00)
(L (W x64 xb4 xfe xff x00 x00 x00 x00))
(L (W x00 x00 x80 xbf x9c x00 x00 x00)))
(T (W x00 x00 x80 x3f x68 x34 xfe xff)
(L (W x55 x39 x81 x6a xc4 xc7 x74 x14)) E))
(T (W x45 x26 x22 x84 xe4 x9c xf2 xcb)
(T (W x49 x31 x62 x4f xba xa5 x09 x90)
(L (W x28 x00 x00 x00 x14 x00 x00 x00))
(L (W x00 x00 x80 x3f x00 x00 x80 x3f)))
(T (W xe2 x73 xfe xff xf6 x68 x5f x43)
(L (W x64 x74 xff xff xe6 x73 xff xff)) E))))
(T (W x34 x00 x00 x00 x20 x00 x00 x00)
(T (W x00 x00 x80 x3f x00 x00 x80 x3f)
(T (W x04 x00 x00 x00 x00 x00 x00 x00)
(T (W x04 x00 x00 x00 x00 x00 x00 x00)
(L (W x3c x01 x00 x00 x30 x01 x00 x00))
(L (W x83 x02 xf5 x4e x4a xd3 x59 x01)))
(T (W x11 xef x04 x37 x15 x01 x56 x40)
(L (W x01 x00 x00 x00 x00 x00 x80 x3f)) E))
(T (W x00 x00 x00 x00 x00 x00 x00 x00)
(T (W x45 x26 x22 x84 xe4 x9c xf2 xcb)
(L (W x1c x01 x00 x00 x01 x00 x00 x00))
(L (W x9a x44 xde xec xe5 xa0 x55 x84)))
(T (W xf6 xe8 xe8 x43 x00 x00 x00 x00)
(L (W x34 x00 x00 x00 x20 x00 x00 x00)) E)))
(T (W x00 x00 x00 x00 x00 x00 x00 x00)
(T (W x01 x00 x00 x00 x04 x00 x00 x00)
(T (W x78 x00 x00 x00 x6c x00 x00 x00)
(L (W x00 x00 x00 x00 x68 xc4 xfe xff))
(L (W x00 x00 x80 x3f x00 x00 x80 x3f)))
(T (W x00 x00 x00 x00 x00 x00 x00 x00)
(L (W x00 x00 x00 x00 x68 x44 xff xff)) E))
(T (W x00 x00 x80 xbf x00 x00 x80 xbf)
(T (W xe2 x03 xfe xff x48 x41 x54 x44)
(L (W x44 x00 x00 x00 x38 x00 x00 x00)) E)
(T (W x00 x00 x00 x00 x00 x00 x00 x00)
(L (W x00 x00 x00 x00 x00 x00 x00 x00)) E)))))
(T (W x45 x26 x22 x84 xe4 x9c xf2 xcb)
(T (W x00 x00 x00 x00 x1c x00 x00 x00)
(T (W x00 x00 x00 x00 x00 x00 x00 x00)
(T (W x00 x00 x80 xbf x00 x00 x80 xbf)
(T (W x64 x9c xfd xff xe6 x9b xfd xff)
(L (W x00 x00 x00 x00 x00 x00 x00 x00))
(L (W x45 x26 x22 x84 xe4 x9c xf2 xcb)))
(T (W x00 x00 x80 x3f x00 x00 x80 x3f)
(L (W x64 x1c xff xff x00 x00 x00 x00)) E))
(T (W x45 x26 x22 x84 xe4 x9c xf2 xcb)
(T (W x45 x41 x30 x32 x5f x30 x31 x30)
(L (W x00 x00 x00 x00 x00 x00 x00 x00))
(L (W x5c x00 x40 x00 x48 x00 x08 x00)))
(T (W x00 x00 x00 x00 x00 x00 x00 x00)
(L (W x78 x00 x00 x00 x6c x00 x00 x00)) E)))
(T (W x64 xfc xfc xff x00 x00 x00 x00)
(T (W x42 x52 x45 x41 x4b x5f x41 x52)
(T (W xb2 x4c xbb x28 xbf xd2 x6a x6a)
(L (W x00 x00 x00 x00 x00 x00 x00 x00))
(L (W x0c xbf xff xff x50 x00 x00 x00)))
(T (W x45 x26 x22 x84 xe4 x9c xf2 xcb)
(L (W x00 x00 x80 x40 x24 x01 x00 x00)) E))
(T (W x00 x00 x00 x00 x68 x7c xfd xff)
(T (W x0c xff xfd xff x50 x00 x00 x00)
(L (W xb1 xdc xca xf8 x1d xdb x70 x9e))
(L (W x18 x00 x1c x00 x00 x00 x00 x00)))
(T (W x45 x26 x22 x84 xe4 x9c xf2 xcb)
(L (W x40 x00 x00 x00 x38 x00 x00 x00)) E))))
(T (W x00 x00 x00 x00 x01 x00 x00 x00)
(T (W x5a xd0 xff xff x00 x00 x00 x01)
(T (W x45 x26 x22 x84 xe4 x9c xf2 xcb)
(T (W x00 x00 x00 x00 x00 x00 x00 x00)
(L (W x45 x26 x22 x84 xe4 x9c xf2 xcb))
(L (W x00 x00 x00 x00 x00 x00 x00 x00)))
(T (W x00 x00 x00 x00 x00 x00 x00 x00)
(L (W x2c x00 x00 x00 x20 x00 x00 x00)) E))
(T (W x42 x52 x45 x41 x4b x5f x41 x52)
(T (W x64 xec xfd xff x00 x00 x00 x00)
(L (W x45 x26 x22 x84 xe4 x9c xf2 xcb))
(L (W x00 x00 x00 x00 x68 xec xff xff)))
(T (W x00 x00 x00 x00 x68 x6c xfe xff)
(L (W x44 x00 x00 x00 x38 x00 x00 x00)) E)))
(T (W x00 x00 x00 x00 xe6 x0b xfd xff)
(T (W x00 x00 x80 x3f x00 x00 x80 x3f)
(T (W x14 xb2 x2f x19 x15 x0d xe6 x0b)
(L (W x64 xcc xfe xff xe6 xcb xfe xff))
(L (W xce x4c x4d xc4 xd1 xa7 xf8 x25)))
(T (W x00 x00 x80 x3f x00 x00 x80 x3f)
(L (W x45 x26 x22 x84 xe4 x9c xf2 xcb)) E))
(T (W x45 x26 x22 x84 xe4 x9c xf2 xcb)
(T (W x00 x00 x80 xbf x00 x00 x80 xbf)
(L (W xa4 xd0 xee x43 x00 x00 x00 x00)) E)
(T (W x00 x00 x00 x00 x00 x00 x00 x00)
(L (W x00 x00 x00 x00 x00 x00 x00 x00)) E))))))
(T (W x04 x00 x00 x00 xa2 xa5 xfc xff)
(T (W x01 x00 x00 x00 x04 x00 x00 x00)
(T (W x64 xb8 xfc xff xe6 xb7 xfc xff)
(T (W x45 x26 x22 x84 xe4 x9c xf2 xcb)
(T (W x00 x00 x80 xbf x00 x00 x80 xbf)
(T (W x48 x00 x00 x00 x34 x00 x00 x00)
(L (W x64 x98 xfe xff x00 x00 x00 x00))
(L (W x45 x26 x22 x84 xe4 x9c xf2 xcb)))
(T (W x00 x00 x00 x00 x00 x00 x00 x00)
(L (W x45 x26 x22 x84 xe4 x9c xf2 xcb)) E))
(T (W x00 x00 x80 xbf x00 x00 x80 xbf)
(T (W x64 xd8 xfd xff xe6 xd7 xfd xff)
(L (W x00 x00 x00 x00 x68 xd8 xfe xff))
(L (W x44 x00 x00 x00 x30 x00 x00 x00)))
(T (W x01 x00 x00 x00 x04 x00 x00 x00)
(L (W x45 x26 x22 x84 xe4 x9c xf2 xcb)) E)))
(T (W x45 x26 x22 x84 xe4 x9c xf2 xcb)
(T (W x00 x00 x00 x00 x00 x00 x00 x00)
(T (W x40 x00 x00 x00 x38 x00 x00 x00)
(L (W x60 x00 x00 x00 x54 x00 x00 x00))
(L (W x00 x00 x00 x00 x01 x00 x00 x00)))
(T (W x1c x01 x00 x00 x01 x00 x00 x00)
(L (W x9a x59 x00 x44 x00 x00 x00 x00)) E))
(T (W x64 x78 xfd xff x00 x00 x00 x00)
(T (W x54 x00 x00 x00 x48 x00 x00 x00)
(L (W x00 x00 x00 x00 x00 x00 x00 x00))
(L (W x24 x00 x28 x00 x2c x00 x30 x00)))
(T (W x1c x01 x00 x00 x01 x00 x00 x00)
(L (W x1c x01 x00 x00 x01 x00 x00 x00)) E))))
(T (W x00 x00 x00 x00 x01 x00 x00 x00)
(T (W x00 x00 x00 x00 x00 x00 x00 x00)
(T (W x45 x26 x22 x84 xe4 x9c xf2 xcb)
(T (W x45 x26 x22 x84 xe4 x9c xf2 xcb)
(L (W x0c xc3 xb0 xef x1d xfd xf3 x8d))
(L (W x00 x00 x00 x00 x68 xa8 xff xff)))
(T (W x45 x26 x22 x84 xe4 x9c xf2 xcb)
(L (W x54 x00 x00 x00 x48 x00 x00 x00)) E))
(T (W x00 x00 x80 x3f x68 x68 xfd xff)
(T (W x2c x00 x00 x00 x20 x00 x00 x00)
(L (W xe4 x37 xe8 x4c x72 xf1 xb9 x60))
(L (W x45 x26 x22 x84 xe4 x9c xf2 xcb)))
(T (W x91 x7c x7a x4b xf4 x23 xdf x75)
(L (W x45 x26 x22 x84 xe4 x9c xf2 xcb)) E)))
(T (W x78 x00 x00 x00 x6c x00 x00 x00)
(T (W x00 x00 x00 x00 x00 x00 x00 x00)
(T (W xae x17 x2a x44 x66 x66 x45 x42)
(L (W x64 xc8 xfe xff x00 x00 x00 x00))
(L (W x00 x00 x00 x00 x00 x00 x00 x00)))
(T (W x44 x00 x00 x00 x30 x00 x00 x00)
(L (W x00 x00 x00 x00 x00 x00 x00 x00)) E))
(T (W x00 x00 x00 x00 x01 x00 x00 x00)
(T (W x1c x00 x00 x00 x46 x53 x59 x53)
(L (W x74 x00 x00 x00 x68 x00 x00 x00)) E)
(T (W x04 x00 x00 x00 x88 x8a xfe xff)
(L (W x00 x00 x00 x00 x01 x00 x00 x00)) E)))))
(T (W x00 x00 x00 x00 x68 xb0 xfc xff)
(T (W x3c x01 x00 x00 x30 x01 x00 x00)
(T (W x60 x00 x00 x00 x54 x00 x00 x00)
(T (W x3c x00 x00 x00 x1c x00 x00 x00)
(T (W x00 x00 x80 xbf x9c x00 x00 x00)
(L (W xe2 x9f xfe xff x00 x00 x80 x3f))
(L (W x00 x00 x00 x00 x00 x00 x00 x00)))
(T (W x42 x52 x45 x41 x4b x5f x41 x52)
(L (W x64 x20 xff xff xe6 x1f xff xff)) E))
(T (W x0c x63 xfd xff x50 x00 x00 x00)
(T (W x3e x34 xe4 x79 xb3 xdd x93 x18)
(L (W x45 x26 x22 x84 xe4 x9c xf2 xcb))
(L (W x1c x01 x00 x00 x01 x00 x00 x00)))
(T (W x78 x00 x00 x00 x6c x00 x00 x00)
(L (W xcd xec x18 x44 x00 x00 x00 x00)) E)))
(T (W x6d xc4 x33 x97 x85 xae x5f x5f)
(T (W x04 x00 x00 x00 x00 x00 x00 x00)
(T (W x00 x00 x00 x00 x00 x00 x00 x00)
(L (W x00 x00 x00 x00 x01 x00 x00 x00))
(L (W x00 x00 x00 x00 x68 xc0 xff xff)))
(T (W x00 x00 x00 x00 x68 x40 xfe xff)
(L (W x00 x00 x00 x00 x01 x00 x00 x00)) E))
(T (W xcd x8c x63 x44 x00 x00 x00 x00)
(T (W x04 x00 x00 x00 x88 x02 xfe xff)
(L (W x45 x26 x22 x84 xe4 x9c xf2 xcb))
(L (W x00 x00 x00 x00 xe6 xff xff xff)))
(T (W x0c x83 xfe xff x50 x00 x00 x00)
(L (W x01 x00 x00 x00 x04 x00 x00 x00)) E))))
(T (W x45 x26 x22 x84 xe4 x9c xf2 xcb)
(T (W x00 x00 x80 xbf x9c x00 x00 x00)
(T (W x00 x00 x00 x00 x00 x00 x00 x00)
(T (W x64 xb0 xfd xff xe6 xaf xfd xff)
(L (W x45 x26 x22 x84 xe4 x9c xf2 xcb))
(L (W x00 x00 x80 x3f x68 xb0 xff xff)))
(T (W x48 x00 x00 x00 x34 x00 x00 x00)
(L (W x00 x00 x00 x00 x00 x00 x00 x00)) E))
(T (W x01 x00 x00 x00 x00 x00 x80 x3f)
(T (W x00 x00 x00 x00 x00 x00 x00 x00)
(L (W x45 x26 x22 x84 xe4 x9c xf2 xcb))
(L (W x64 xf0 xff xff x00 x00 x00 x00)))
(T (W x00 x00 x00 x00 x00 x00 x00 x00)
(L (W x00 x00 x00 x00 x68 x70 xff xff)) E)))
(T (W x00 x00 x00 x00 x00 x00 x00 x00)
(T (W x42 x52 x45 x41 x4b x5f x41 x52)
(T (W x45 x26 x22 x84 xe4 x9c xf2 xcb)
(L (W x34 x00 x00 x00 x20 x00 x00 x00))
(L (W x45 x26 x22 x84 xe4 x9c xf2 xcb)))
(T (W x00 x00 x40 x40 x24 x01 x00 x00)
(L (W x02 x00 x00 x00 x00 x00 x80 x3f)) E))
(T (W x0c x93 xfd xff x50 x00 x00 x00)
(T (W x45 x26 x22 x84 xe4 x9c xf2 xcb)
(L (W x00 x00 x80 xbf x9c x00 x00 x00)) E)
(T (W x2b x90 xa3 x28 x15 x83 xbf x26)
(L (W x00 x00 x00 x00 x01 x00 x00 x00)) E))))))))))
(T (W x64 x1b x03 x00 x98 x19 x03 x00)
(T (W xb0 xe0 x02 x00 xdc xde x02 x00)
(T (W xcc x6a x02 x00 x00 x69 x02 x00)
(T (W x54 x7e x01 x00 x84 x7c x01 x00)
(T (W x01 x00 x00 x00 x04 x00 x00 x00)
(T (W x00 x00 x00 x00 x28 xa1 xfc xff)
(T (W x3c x01 x00 x00 x30 x01 x00 x00)
(T (W x60 x00 x00 x00 x54 x00 x00 x00)
(T (W x45 x26 x22 x84 xe4 x9c xf2 xcb)
(T (W xa2 x90 xfd xff x66 x66 xbf x43)
(L (W x45 x26 x22 x84 xe4 x9c xf2 xcb))
(L (W x00 x00 x00 x00 x00 x00 x00 x00)))
(T (W x04 x00 x00 x00 x10 x11 xfe xff)
(L (W xa8 xe9 x39 xdc x00 x60 x48 x2f)) E))
(T (W x45 x26 x22 x84 xe4 x9c xf2 xcb)
(T (W x45 x26 x22 x84 xe4 x9c xf2 xcb)
(L (W x45 x26 x22 x84 xe4 x9c xf2 xcb))
(L (W x44 x00 x00 x00 x30 x00 x00 x00)))
(T (W x01 x00 x00 x00 x04 x00 x00 x00)
(L (W x44 x00 x00 x00 x38 x00 x00 x00)) E)))
(T (W x4c x9d x30 x97 x85 x20 x5c x5f)
(T (W xc2 x54 xfd xff x00 x00 x00 x01)
(T (W x45 x26 x22 x84 xe4 x9c xf2 xcb)
(L (W x00 x00 x00 x00 x00 x00 x00 x00))
(L (W x40 x00 x00 x00 x38 x00 x00 x00)))
(T (W x34 x00 x00 x00 x20 x00 x00 x00)
(L (W x45 x41 x30 x32 x5f x30 x31 x31)) E))
(T (W x44 x00 x00 x00 x38 x00 x00 x00)
(T (W x45 x26 x22 x84 xe4 x9c xf2 xcb)
(L (W x00 x00 x00 x00 x00 x00 x00 x00))
(L (W x00 x00 x80 xbf x9c x00 x00 x00)))
(T (W x01 x00 x00 x00 x00 x00 x80 x3f)
(L (W x00 x00 x80 x3f x02 x00 x00 x00)) E))))
(T (W x00 x00 x00 x00 x28 xc1 xfc xff)
(T (W x00 x00 x80 xbf x9c x00 x00 x00)
(T (W x5e xca x7b x47 xb6 x1b x58 xe8)
(T (W x85 x80 x02 x4c x84 x1f x7f x61)
(L (W x54 x00 x00 x00 x48 x00 x00 x00))
(L (W x45 x26 x22 x84 xe4 x9c xf2 xcb)))
(T (W x45 x26 x22 x84 xe4 x9c xf2 xcb)
(L (W x04 x00 x00 x00 x62 x26 xff xff)) E))
(T (W xa2 x60 xfd xff x00 x40 x00 x44)
(T (W x00 x00 x00 x00 x00 x00 x00 x00)
(L (W x00 x00 x00 x00 x01 x00 x00 x00))
(L (W xcc xe3 xff xff x50 x00 x00 x00)))
(T (W x00 x00 x80 xbf x00 x00 x80 xbf)
(L (W x45 x26 x22 x84 xe4 x9c xf2 xcb)) E)))
(T (W x00 x00 x00 x00 x00 x00 x00 x00)
(T (W x00 x00 x00 x00 x00 x00 x00 x00)
(T (W x5f x30 x30 x39 x00 x00 x00 x00)
(L (W x00 x00 x00 x00 x00 x00 x00 x00))
(L (W x00 x00 xc0 x40 x24 x01 x00 x00)))
(T (W x45 x26 x22 x84 xe4 x9c xf2 xcb)
(L (W x00 x00 x00 x00 x00 x00 x00 x00)) E))
(T (W x45 x26 x22 x84 xe4 x9c xf2 xcb)
(T (W x8d x8b xf1 x13 x15 xe4 xd6 x02)
(L (W x78 x00 x00 x00 x6c x00 x00 x00)) E)
(T (W x00 x40 x90 x43 x33 x33 x13 x42)
(L (W x24 x81 xff xff xa6 x80 xff xff)) E)))))
(T (W x24 xa9 xfc xff xa6 xa8 xfc xff)
(T (W x00 x00 x00 x00 x01 x00 x00 x00)
(T (W x00 x00 x00 x00 x00 x00 x00 x00)
(T (W x2c x00 x00 x00 x20 x00 x00 x00)
(T (W x34 x00 x00 x00 x20 x00 x00 x00)
(L (W x00 x00 x00 x00 xa6 x98 xfe xff))
(L (W x00 x00 x00 x00 x00 x00 x00 x00)))
(T (W x28 x01 x00 x00 x20 x01 x00 x00)
(L (W x00 x00 x00 x00 x02 x00 x00 x00)) E))
(T (W x2c x00 x00 x00 x20 x00 x00 x00)
(T (W x45 x26 x22 x84 xe4 x9c xf2 xcb)
(L (W x45 x26 x22 x84 xe4 x9c xf2 xcb))
(L (W x00 x00 x00 x00 x01 x00 x00 x00)))
(T (W x00 x00 x80 x3f x28 x59 xfe xff)
(L (W x00 x00 x00 x00 x00 x00 x00 x00)) E)))
(T (W x78 x00 x00 x00 x6c x00 x00 x00)
(T (W x40 x00 x00 x00 x38 x00 x00 x00)
(T (W x00 x00 x00 x00 x01 x00 x00 x00)
(L (W xe5 x97 x98 xf1 x48 x02 xd6 xe5))
(L (W x00 x00 x00 x00 x00 x00 x00 x00)))
(T (W xcc x3b xfe xff x50 x00 x00 x00)
(L (W x40 x00 x00 x00 x38 x00 x00 x00)) E))
(T (W xa2 x78 xfd xff x00 x00 x80 x3f)
(T (W x24 xf9 xfd xff x00 x00 x00 x00)
(L (W x45 x26 x22 x84 xe4 x9c xf2 xcb))
(L (W x00 x00 x00 x00 x28 xf9 xff xff)))
(T (W xcc x7b xfe xff x50 x00 x00 x00)
(L (W xcc x7b xff xff x50 x00 x00 x00)) E))))
(T (W x00 x00 x00 x00 x00 x00 x00 x00)
(T (W x45 x26 x22 x84 xe4 x9c xf2 xcb)
(T (W x00 x00 x00 x00 x01 x00 x00 x00)
(T (W x45 x26 x22 x84 xe4 x9c xf2 xcb)
(L (W x45 x26 x22 x84 xe4 x9c xf2 xcb))
(L (W x45 x26 x22 x84 xe4 x9c xf2 xcb)))
(T (W x45 x26 x22 x84 xe4 x9c xf2 xcb)
(L (W x24 x29 xff xff x00 x00 x00 x00)) E))
(T (W x40 x00 x00 x00 x38 x00 x00 x00)
(T (W x00 x00 x00 x00 x00 x00 x00 x00)
(L (W x00 x00 x00 x00 x00 x00 x00 x00))
(L (W x5c x00 x00 x00 x50 x00 x00 x00)))
(T (W x00 x00 x00 x00 x00 x00 x00 x00)
(L (W x74 x00 x00 x00 x68 x00 x00 x00)) E)))
(T (W x00 x00 x80 xbf x00 x00 x80 xbf)
(T (W x00 x00 x00 x41 x24 x01 x00 x00)
(T (W x45 x26 x22 x84 xe4 x9c xf2 xcb)
(L (W x00 x00 x80 xbf x9c x00 x00 x00))
(L (W x45 x26 x22 x84 xe4 x9c xf2 xcb)))
(T (W xff xbb xfe x36 x15 xf5 x4e x40)
(L (W x00 x00 x00 x00 xea x50 xff xff)) E))
(T (W x00 x00 x00 x00 x00 x00 x00 x00)
(T (W x45 x26 x22 x84 xe4 x9c xf2 xcb)
(L (W x00 x00 x80 xbf x00 x00 x80 xbf)) E)
(T (W x5f x89 xa3 x28 x15 x7f xbf x26)
(L (W x34 x00 x00 x00 x20 x00 x00 x00)) E))))))
(T (W x45 x26 x22 x84 xe4 x9c xf2 xcb)
(T (W x44 x00 x00 x00 x30 x00 x00 x00)
(T (W x34 x00 x00 x00 x20 x00 x00 x00)
(T (W x00 x00 x80 x3f x00 x00 x80 x3f)
(T (W x00 x00 x00 x00 x28 x15 xfd xff)
(T (W x00 x00 x00 x00 xea x9c xfd xff)
(L (W x78 x00 x00 x00 x6c x00 x00 x00))
(L (W x74 x00 x00 x00 x68 x00 x00 x00)))
(T (W x00 x00 x00 x00 x00 x00 x00 x00)
(L (W x04 x00 x00 x00 x48 x17 xff xff)) E))
(T (W x00 x00 x00 x00 x28 x55 xfd xff)
(T (W x1c x01 x00 x00 x01 x00 x00 x00)
(L (W x00 x00 x00 x00 x28 xd5 xfe xff))
(L (W x3c x01 x00 x00 x30 x01 x00 x00)))
(T (W x00 x00 x00 x00 x00 x00 x00 x00)
(L (W x74 x00 x00 x00 x68 x00 x00 x00)) E)))
(T (W x00 x00 x00 x00 x00 x00 x00 x00)
(T (W x45 x26 x22 x84 xe4 x9c xf2 xcb)
(T (W x85 x80 x02 x4c x84 x1f x7f x61)
(L (W x34 x01 x00 x00 x01 x00 x00 x00))
(L (W x18 x65 xca xc9 x03 x8c xa3 xbc)))
(T (W x00 x00 x00 x00 x01 x00 x00 x00)
(L (W xb9 x9a xf6 xe1 xaf x82 x48 x1e)) E))
(T (W x00 x00 x00 x00 x00 x00 x00 x00)
(T (W x00 x00 x00 x00 x00 x00 x00 x00)
(L (W x04 x00 x00 x00 x00 x00 x00 x00))
(L (W x54 x00 x00 x00 x48 x00 x00 x00)))
(T (W x45 x26 x22 x84 xe4 x9c xf2 xcb)
(L (W x45 x26 x22 x84 xe4 x9c xf2 xcb)) E))))
(T (W x45 x26 x22 x84 xe4 x9c xf2 xcb)
(T (W x04 x00 x00 x00 x00 x00 x00 x00)
(T (W x00 x00 x00 x00 x00 x00 x00 x00)
(T (W x00 x00 x00 x00 x00 x00 x00 x00)
(L (W x00 x00 x00 x00 x28 xa5 xfe xff))
(L (W x00 x00 x00 x00 x00 x00 x00 x00)))
(T (W x45 x26 x22 x84 xe4 x9c xf2 xcb)
(L (W x44 x00 x00 x00 x38 x00 x00 x00)) E))
(T (W x1c x01 x00 x00 x01 x00 x00 x00)
(T (W x5c x00 x00 x00 x50 x00 x00 x00)
(L (W xcc xe7 xfe xff x50 x00 x00 x00))
(L (W x00 x00 x00 x00 x00 x00 x00 x00)))
(T (W x45 x26 x22 x84 xe4 x9c xf2 xcb)
(L (W x45 x26 x22 x84 xe4 x9c xf2 xcb)) E)))
(T (W x5f x41 x52 x45 x41 x30 x32 x00)
(T (W x00 x00 x80 x3f x28 x45 xfd xff)
(T (W x21 xfe x76 x1e x15 xb1 xff x14)
(L (W x00 x00 x80 x3f x00 x00 x80 x3f))
(L (W x04 x00 x00 x00 x00 x00 x00 x00)))
(T (W x00 x00 x00 x00 xea x4c xfe xff)
(L (W x45 x26 x22 x84 xe4 x9c xf2 xcb)) E))
(T (W x2c x00 x00 x00 x20 x00 x00 x00)
(T (W x04 x00 x00 x00 x62 x0a xfe xff)
(L (W x00 x80 x93 x43 x00 x00 x00 x00)) E)
(T (W x00 x00 x00 x00 xea x8c xfe xff)
(L (W x5f x4e x45 x57 x5f x4f x55 x54)) E)))))
(T (W x00 x00 x00 x00 x1c x00 x00 x00)
(T (W x45 x26 x22 x84 xe4 x9c xf2 xcb)
(T (W x1a xc1 xff xff x00 x00 x00 x01)
(T (W x2c x00 x00 x00 x20 x00 x00 x00)
(T (W x45 x26 x22 x84 xe4 x9c xf2 xcb)
(L (W x3c x01 x00 x00 x30 x01 x00 x00))
(L (W x00 x00 x00 x00 x01 x00 x00 x00)))
(T (W x04 x00 x00 x00 x00 x00 x00 x00)
(L (W x1c x01 x00 x00 x01 x00 x00 x00)) E))
(T (W x5c x00 x00 x00 x50 x00 x00 x00)
(T (W x00 x00 x00 x00 x28 xdd xfd xff)
(L (W x00 x00 xa0 x40 x24 x01 x00 x00))
(L (W x45 x26 x22 x84 xe4 x9c xf2 xcb)))
(T (W x45 x41 x30 x32 x5f x30 x32 x30)
(L (W x00 x00 x80 xbf x00 x00 x80 xbf)) E)))
(T (W x00 x00 x00 x00 xa6 xfc xfc xff)
(T (W x45 x26 x22 x84 xe4 x9c xf2 xcb)
(T (W x00 x00 x00 x00 x00 x00 x00 x00)
(L (W x45 x26 x22 x84 xe4 x9c xf2 xcb))
(L (W x14 x2e xad x43 xc3 xf5 x4a x42)))
(T (W x04 x00 x00 x00 x10 x3d xfe xff)
(L (W x01 x00 x00 x00 x04 x00 x00 x00)) E))
(T (W x00 x00 x80 xbf x00 x00 x80 xbf)
(T (W x9a xf9 x51 x44 x33 x33 x17 x42)
(L (W x45 x26 x22 x84 xe4 x9c xf2 xcb))
(L (W x45 x26 x22 x84 xe4 x9c xf2 xcb)))
(T (W x04 x00 x00 x00 x48 x7f xfe xff)
(L (W x00 x00 x00 x00 x01 x00 x00 x00)) E))))
(T (W x00 x00 x00 x00 x00 x00 x00 x00)
(T (W x24 xed xfc xff x00 x00 x00 x00)
(T (W x45 x26 x22 x84 xe4 x9c xf2 xcb)
(T (W x1c x01 x00 x00 x01 x00 x00 x00)
(L (W xd6 x81 x9c x94 x9b x27 x57 x25))
(L (W x01 x00 x00 x00 x00 x00 x80 x3f)))
(T (W x57 x53 x59 x53 x5f x4d x41 x53)
(L (W x00 x00 x00 x00 x00 x00 x00 x00)) E))
(T (W x45 x26 x22 x84 xe4 x9c xf2 xcb)
(T (W x00 x00 x80 xbf x9c x00 x00 x00)
(L (W x5c x00 x00 x00 x50 x00 x00 x00))
(L (W x00 x00 x80 x3f x00 x00 x80 x3f)))
(T (W x45 x26 x22 x84 xe4 x9c xf2 xcb)
(L (W xcd xac x4a x44 x00 x00 x00 x00)) E)))
(T (W x00 x00 x00 x00 x01 x00 x00 x00)
(T (W x40 x00 x00 x00 x38 x00 x00 x00)
(T (W x45 x26 x22 x84 xe4 x9c xf2 xcb)
(L (W x45 x26 x22 x84 xe4 x9c xf2 xcb))
(L (W x00 x00 x00 x00 x00 x00 x00 x00)))
(T (W x04 x00 x00 x00 x00 x00 x00 x00)
(L (W x04 x00 x00 x00 x62 x52 xff xff)) E))
(T (W x04 x00 x00 x00 x10 x8d xfd xff)
(T (W x2c x00 x00 x00 x20 x00 x00 x00)
(L (W x40 x00 x00 x00 x38 x00 x00 x00)) E)
(T (W x45 x26 x22 x84 xe4 x9c xf2 xcb)
(L (W x45 x26 x22 x84 xe4 x9c xf2 xcb)) E)))))))
(T (W xac x90 x00 x00 xd0 x8e x00 x00)
(T (W x2c x00 x00 x00 x20 x00 x00 x00)
(T (W x04 x00 x00 x00 x48 xa5 xfc xff)
(T (W x04 x00 x00 x00 x00 x00 x80 x3f)
(T (W xd6 x81 x9c x94 x9b x27 x57 x25)
(T (W x45 x26 x22 x84 xe4 x9c xf2 xcb)
(T (W x00 x00 x00 x00 x00 x00 x00 x00)
(L (W x24 x93 xfe xff x00 x00 x00 x00))
(L (W x24 x93 xff xff x00 x00 x00 x00)))
(T (W x45 x26 x22 x84 xe4 x9c xf2 xcb)
(L (W x00 x00 x00 x00 x00 x00 x00 x00)) E))
(T (W x00 x00 x00 x00 x28 x53 xfd xff)
(T (W x00 x00 x00 x00 x00 x00 x00 x00)
(L (W x00 x00 x00 x00 x00 x00 x00 x00))
(L (W x00 x00 xd1 x43 x52 xb8 x55 x42)))
(T (W x2c x00 x00 x00 x20 x00 x00 x00)
(L (W x00 x00 x00 x00 x00 x00 x00 x00)) E)))
(T (W x00 x00 x00 x00 x00 x00 x00 x00)
(T (W x34 x00 x00 x00 x20 x00 x00 x00)
(T (W x24 xb3 xfd xff x00 x00 x00 x00)
(L (W x00 x00 x40 x40 x3c x01 x00 x00))
(L (W x00 x00 x00 x00 x28 xb3 xff xff)))
(T (W x45 x26 x22 x84 xe4 x9c xf2 xcb)
(L (W x00 x00 x80 xbf x9c x00 x00 x00)) E))
(T (W x45 x26 x22 x84 xe4 x9c xf2 xcb)
(T (W xcc xf5 xfd xff x50 x00 x00 x00)
(L (W x00 x00 x80 xbf x00 x00 x80 xbf))
(L (W x7f xf4 x4e xf6 x91 x61 xca x08)))
(T (W x00 x00 x00 x00 x01 x00 x00 x00)
(L (W x96 xda x1b x72 x9d x0a xa7 xbe)) E))))
(T (W x44 x00 x00 x00 x38 x00 x00 x00)
(T (W x20 x16 x0a x9d x2f x6e xe9 xaa)
(T (W x36 x36 x22 x4b xf1 xee xc6 x32)
(T (W x00 x00 x00 x00 x00 x00 x00 x00)
(L (W x45 x26 x22 x84 xe4 x9c xf2 xcb))
(L (W x01 x00 x00 x00 x04 x00 x00 x00)))
(T (W x00 x00 x00 x00 x28 x23 xfe xff)
(L (W x45 x26 x22 x84 xe4 x9c xf2 xcb)) E))
(T (W x1c x00 x00 x00 x46 x53 x59 x53)
(T (W x00 x00 x00 x00 x01 x00 x00 x00)
(L (W x45 x26 x22 x84 xe4 x9c xf2 xcb))
(L (W x05 x65 x6c x12 x83 xf5 x3a xc6)))
(T (W x04 x00 x00 x00 x00 x00 x00 x00)
(L (W x00 x00 x00 x00 x28 x63 xff xff)) E)))
(T (W x1b x00 x00 x00 x57 x53 x59 x53)
(T (W x5c x00 x00 x00 x50 x00 x00 x00)
(T (W x00 x00 xa0 x40 x24 x01 x00 x00)
(L (W x74 x00 x00 x00 x68 x00 x00 x00))
(L (W x4a xe3 x2d x83 x33 xbe x07 x1b)))
(T (W x00 x00 x00 x00 x00 x00 x00 x00)
(L (W x48 x00 x00 x00 x34 x00 x00 x00)) E))
(T (W x01 x00 x00 x00 x04 x00 x00 x00)
(T (W x00 x00 x00 x00 x01 x00 x00 x00)
(L (W x28 x00 x00 x00 x14 x00 x00 x00)) E)
(T (W x5f x4e x45 x57 x5f x4f x55 x54)
(L (W x00 x00 x00 x00 x00 x00 x00 x00)) E)))))
(T (W x00 x00 x00 x00 x00 x00 x00 x00)
(T (W x40 x00 x00 x00 x38 x00 x00 x00)
(T (W x5f x4d x41 x53 x53 x5f x47 x41)
(T (W x45 x26 x22 x84 xe4 x9c xf2 xcb)
(T (W x45 x26 x22 x84 xe4 x9c xf2 xcb)
(L (W x14 xee xf3 x43 x8f x42 xea x42))
(L (W x00 x00 x80 xbf x9c x00 x00 x00)))
(T (W x51 x45 x87 x03 x9d xee x7c x63)
(L (W x54 x49 x4f x4e x5f x41 x52 x45)) E))
(T (W x00 x00 x00 x00 x00 x00 x00 x00)
(T (W x45 x26 x22 x84 xe4 x9c xf2 xcb)
(L (W x00 x00 x00 x00 x00 x00 x00 x00))
(L (W x45 x26 x22 x84 xe4 x9c xf2 xcb)))
(T (W x00 x00 x00 x00 x00 x00 x00 x00)
(L (W x00 x00 x80 x40 x24 x01 x00 x00)) E)))
(T (W x2c x00 x00 x00 x18 x00 x00 x00)
(T (W x45 x26 x22 x84 xe4 x9c xf2 xcb)
(T (W x45 x26 x22 x84 xe4 x9c xf2 xcb)
(L (W x54 x00 x00 x00 x48 x00 x00 x00))
(L (W x44 x00 x00 x00 x30 x00 x00 x00)))
(T (W x00 x00 x00 x00 x00 x00 x00 x00)
(L (W x45 x26 x22 x84 xe4 x9c xf2 xcb)) E))
(T (W x00 x00 x00 x00 x00 x00 x00 x00)
(T (W x2c x00 x00 x00 x18 x00 x00 x00)
(L (W x00 x00 x00 x00 x28 xfb xfe xff))
(L (W x00 x00 x00 x00 x28 xfb xff xff)))
(T (W x00 x00 x00 x00 x00 x00 x00 x00)
(L (W x00 x00 x00 x00 x00 x00 x00 x00)) E))))
(T (W x00 x00 x00 x00 x01 x00 x00 x00)
(T (W x45 x26 x22 x84 xe4 x9c xf2 xcb)
(T (W x78 x00 x00 x00 x6c x00 x00 x00)
(T (W x00 x00 x00 x00 x00 x00 x00 x00)
(L (W x24 xab xfe xff x00 x00 x00 x00))
(L (W x00 x00 x00 x00 x00 x00 x00 x00)))
(T (W x00 x00 x00 x00 x00 x00 x00 x00)
(L (W x45 x26 x22 x84 xe4 x9c xf2 xcb)) E))
(T (W x45 x26 x22 x84 xe4 x9c xf2 xcb)
(T (W x00 x00 x00 x00 x00 x00 x00 x00)
(L (W x00 x00 x00 x00 x00 x00 x00 x00))
(L (W x55 x39 x81 x6a xc4 xc7 x74 x14)))
(T (W x00 x00 x00 x00 x01 x00 x00 x00)
(L (W x00 x00 x80 x3f x00 x00 x80 x3f)) E)))
(T (W xb7 x07 xb2 x4b xbc x31 xf7 xea)
(T (W x08 x16 x8b xcf xfb x15 xa3 x6b)
(T (W x00 x00 x00 x00 x28 xcb xfd xff)
(L (W x45 x26 x22 x84 xe4 x9c xf2 xcb))
(L (W x01 x00 x00 x00 x04 x00 x00 x00)))
(T (W x5c x63 x0c xbc xa6 xa1 x3a x1b)
(L (W x34 x00 x00 x00 x20 x00 x00 x00)) E))
(T (W x00 x00 x00 x00 x28 x8b xfd xff)
(T (W x00 x00 x00 x00 x28 x0b xfe xff)
(L (W x04 x00 x00 x00 x00 x00 x00 x00)) E)
(T (W x54 x00 x00 x00 x48 x00 x00 x00)
(L (W x04 x00 x00 x00 x62 x90 xff xff)) E))))))
(T (W x00 x00 x00 x00 x00 x00 x00 x00)
(T (W x4f x84 x6f x8b xe8 xcb x63 xb7)
(T (W x45 x26 x22 x84 xe4 x9c xf2 xcb)
(T (W x85 xeb x19 x42 x29 x1c x44 x44)
(T (W x01 x00 x00 x00 x04 x00 x00 x00)
(T (W x01 x00 x00 x00 x00 x00 x80 x3f)
(L (W x2c x00 x00 x00 x18 x00 x00 x00))
(L (W x00 x00 x80 x3f x00 x00 x80 x3f)))
(T (W x46 x53 x59 x53 x5f x4e x45 x57)
(L (W xa2 x16 xff xff x00 x00 x80 x3f)) E))
(T (W x01 x00 x00 x00 x04 x00 x00 x00)
(T (W x45 x26 x22 x84 xe4 x9c xf2 xcb)
(L (W x04 x00 x00 x00 x10 xd7 xfe xff))
(L (W x01 x00 x00 x00 x00 x00 x80 x3f)))
(T (W x5c x00 x00 x00 x50 x00 x00 x00)
(L (W x00 x00 x80 x3f x00 x00 x80 x3f)) E)))
(T (W x24 xf7 xfc xff x00 x00 x00 x00)
(T (W x00 x00 x00 x00 x01 x00 x00 x00)
(T (W x00 x00 x00 x00 x00 x00 x00 x00)
(L (W x01 x00 x00 x00 x01 x00 x00 x00))
(L (W x00 xd1 xac x28 xbf xcd x59 x6a)))
(T (W x45 x26 x22 x84 xe4 x9c xf2 xcb)
(L (W x04 x00 x00 x00 x00 x00 x00 x00)) E))
(T (W x04 x00 x00 x00 x48 x79 xfd xff)
(T (W x00 x00 x00 x00 x00 x00 x00 x00)
(L (W x54 x00 x00 x00 x48 x00 x00 x00))
(L (W x45 x26 x22 x84 xe4 x9c xf2 xcb)))
(T (W x24 x77 xfe xff x00 x00 x00 x00)
(L (W x45 x26 x22 x84 xe4 x9c xf2 xcb)) E))))
(T (W x00 x00 x00 x00 x00 x00 x00 x00)
(T (W x54 x00 x00 x00 x48 x00 x00 x00)
(T (W x00 x00 x00 x00 x28 x27 xfd xff)
(T (W x24 xa7 xfd xff x00 x00 x00 x00)
(L (W x44 x00 x00 x00 x38 x00 x00 x00))
(L (W x00 x00 x00 x00 x01 x00 x00 x00)))
(T (W x24 x27 xfe xff x00 x00 x00 x00)
(L (W x00 x00 x00 x00 x00 x00 x00 x00)) E))
(T (W x45 x26 x22 x84 xe4 x9c xf2 xcb)
(T (W x00 x00 x80 x3f x28 xe7 xfd xff)
(L (W x75 x13 xb9 x28 xbf xd0 x67 x6a))
(L (W x00 x00 x00 x00 x01 x00 x00 x00)))
(T (W x01 x00 x00 x00 x04 x00 x00 x00)
(L (W x00 x00 x00 x00 x28 x67 xff xff)) E)))
(T (W x00 x00 xe0 x40 x24 x01 x00 x00)
(T (W x00 x00 x00 x00 x00 x00 x00 x00)
(T (W x00 x00 x00 x00 x01 x00 x00 x00)
(L (W x00 x00 x00 x00 x00 x00 x00 x00))
(L (W x54 x00 x00 x00 x48 x00 x00 x00)))
(T (W x34 x00 x00 x00 x20 x00 x00 x00)
(L (W x00 x00 x00 x00 x00 x00 x00 x00)) E))
(T (W x45 x26 x22 x84 xe4 x9c xf2 xcb)
(T (W x45 x26 x22 x84 xe4 x9c xf2 xcb)
(L (W x00 x00 x20 x41 x24 x01 x00 x00)) E)
(T (W x3c x01 x00 x00 x30 x01 x00 x00)
(L (W x00 x00 x00 x00 xea x8e xff xff)) E)))))
(T (W x4b x5f x41 x52 x45 x41 x30 x32)
(T (W x45 x26 x22 x84 xe4 x9c xf2 xcb)
(T (W x1c x01 x00 x00 x04 x00 x00 x00)
(T (W x45 x26 x22 x84 xe4 x9c xf2 xcb)
(T (W x24 x9f xfd xff x00 x00 x00 x00)
(L (W xfb xdf xb3 xef x1d x85 xf7 x8d))
(L (W x40 x00 x00 x00 x38 x00 x00 x00)))
(T (W x45 x26 x22 x84 xe4 x9c xf2 xcb)
(L (W x45 x26 x22 x84 xe4 x9c xf2 xcb)) E))
(T (W x55 x6c xfc xf1 x99 x9e xc9 x88)
(T (W x01 x00 x00 x00 x04 x00 x00 x00)
(L (W x00 x00 x80 xbf x9c x00 x00 x00))
(L (W x24 xdf xff xff x00 x00 x00 x00)))
(T (W x00 x00 xa0 x40 x24 x01 x00 x00)
(L (W x04 x00 x00 x00 x00 x00 x00 x00)) E)))
(T (W xa2 xfe xfc xff x00 x20 x50 x44)
(T (W x2c x00 x00 x00 x20 x00 x00 x00)
(T (W x46 x53 x59 x53 x5f x4e x45 x57)
(L (W x44 x00 x00 x00 x38 x00 x00 x00))
(L (W x53 x5f x47 x41 x4e x45 x52 x41)))
(T (W x48 x00 x00 x00 x34 x00 x00 x00)
(L (W x0e xa7 xaa x28 xbf xd4 x56 x6a)) E))
(T (W x04 x00 x00 x00 x00 x00 x00 x00)
(T (W x3c x01 x00 x00 x30 x01 x00 x00)
(L (W x24 xff xfe xff x00 x00 x00 x00))
(L (W x3c x00 x04 x00 x08 x00 x00 x00)))
(T (W xa2 x7e xfe xff x00 x00 x80 x3f)
(L (W x5c x00 x00 x00 x50 x00 x00 x00)) E))))
(T (W x00 x00 x00 x00 x01 x00 x00 x00)
(T (W xcc xf1 xfc xff x50 x00 x00 x00)
(T (W x9a x99 xc0 x42 x9a x99 x76 x43)
(T (W x45 x26 x22 x84 xe4 x9c xf2 xcb)
(L (W x00 x00 x80 x3f x00 x00 x80 x3f))
(L (W x45 x26 x22 x84 xe4 x9c xf2 xcb)))
(T (W x01 x00 x00 x00 x00 x00 x80 x3f)
(L (W x33 x34 x00 x00 x1b x00 x00 x00)) E))
(T (W x00 x00 x00 x00 x28 x6f xfd xff)
(T (W x00 x00 x00 x00 x01 x00 x00 x00)
(L (W x00 x00 x80 x3f x28 xef xfe xff))
(L (W x00 x00 x00 x00 x00 x00 x00 x00)))
(T (W x00 x00 x00 x00 x00 x00 x00 x00)
(L (W x4e x45 x52 x41 x54 x49 x4f x4e)) E)))
(T (W x04 x00 x00 x00 x62 x14 xfd xff)
(T (W x45 x26 x22 x84 xe4 x9c xf2 xcb)
(T (W x24 xcf xfd xff x00 x00 x00 x00)
(L (W x24 xcf xfe xff x00 x00 x00 x00))
(L (W x00 x00 x00 x00 x01 x00 x00 x00)))
(T (W x45 x26 x22 x84 xe4 x9c xf2 xcb)
(L (W x45 x26 x22 x84 xe4 x9c xf2 xcb)) E))
(T (W x44 x00 x00 x00 x30 x00 x00 x00)
(T (W x00 x00 x00 x00 x00 x00 x00 x00)
(L (W x00 x00 x00 x00 x28 x0f xff xff)) E)
(T (W x00 x00 x00 x00 x28 x8f xfe xff)
(L (W x44 x00 x00 x00 x38 x00 x00 x00)) E))))))))
(T (W xc4 xf4 x01 x00 xf8 xf2 x01 x00)
(T (W x44 x08 x01 x00 x78 x06 x01 x00)
(T (W x5f x4f x55 x54 x42 x52 x45 x41)
(T (W xf3 x04 x6d x26 xf1 xd4 x2c x48)
(T (W x00 x00 x00 x00 x00 x00 x00 x00)
(T (W x04 x00 x00 x00 x62 xd7 xfc xff)
(T (W x00 x00 x80 x3f x00 x00 x80 x3f)
(T (W x45 x26 x22 x84 xe4 x9c xf2 xcb)
(L (W x34 x00 x00 x00 x20 x00 x00 x00))
(L (W x34 x00 x00 x00 x20 x00 x00 x00)))
(T (W x54 x00 x00 x00 x48 x00 x00 x00)
(L (W x00 x00 x20 x41 x24 x01 x00 x00)) E))
(T (W xa4 xb0 x14 x44 xf6 x28 x19 x42)
(T (W x45 x26 x22 x84 xe4 x9c xf2 xcb)
(L (W x1c x01 x00 x00 x01 x00 x00 x00))
(L (W x45 x26 x22 x84 xe4 x9c xf2 xcb)))
(T (W x5f x4e x45 x57 x5f x4f x55 x54)
(L (W x1c x01 x00 x00 x01 x00 x00 x00)) E)))
(T (W x3c x01 x00 x00 x30 x01 x00 x00)
(T (W x45 x26 x22 x84 xe4 x9c xf2 xcb)
(T (W x00 x00 x80 x3f x00 x00 x80 x3f)
(L (W x75 x13 xb9 x28 xbf xd0 x67 x6a))
(L (W xa2 xb1 xff xff x00 x00 x80 x3f)))
(T (W x24 x32 xfe xff x00 x00 x00 x00)
(L (W x45 x26 x22 x84 xe4 x9c xf2 xcb)) E))
(T (W x45 x41 x30 x32 x5f x30 x30 x37)
(T (W xec xa1 x38 x44 x00 x00 x00 x00)
(L (W x62 x6a xff x4b x84 x9b x7b x61))
(L (W x00 x00 x00 x00 x28 xf2 xff xff)))
(T (W x00 x00 x00 x00 x00 x00 x00 x00)
(L (W x00 x00 x00 x00 x00 x00 x00 x00)) E))))
(T (W x46 x53 x59 x53 x5f x4e x45 x57)
(T (W x00 x00 x00 x00 x28 xe2 xfc xff)
(T (W x24 x00 x00 x00 x28 x00 x2c x00)
(T (W x34 x01 x00 x00 x00 x00 xa0 x40)
(L (W x55 x6c xfc xf1 x99 x9e xc9 x88))
(L (W x9a xd9 x9d x43 xe1 x34 x26 x42)))
(T (W x00 x00 x00 x00 x00 x00 x00 x00)
(L (W x45 x26 x22 x84 xe4 x9c xf2 xcb)) E))
(T (W x00 x00 x00 x00 x28 x62 xfd xff)
(T (W xa6 xa9 xf6 x13 x15 x4d xdd x02)
(L (W x28 x00 x00 x00 x14 x00 x00 x00))
(L (W x4b x5f x41 x52 x45 x41 x30 x32)))
(T (W x00 x00 x00 x00 x00 x00 x00 x00)
(L (W xa2 x61 xff xff x33 x13 x1b x44)) E)))
(T (W x00 x00 x00 x00 x28 x02 xfd xff)
(T (W x00 x00 x00 x00 x01 x00 x00 x00)
(T (W x45 x26 x22 x84 xe4 x9c xf2 xcb)
(L (W x45 x26 x22 x84 xe4 x9c xf2 xcb))
(L (W x00 x00 x00 x00 x00 x00 x00 x00)))
(T (W x45 x26 x22 x84 xe4 x9c xf2 xcb)
(L (W x04 x00 x00 x00 x00 x00 x00 x00)) E))
(T (W x00 x80 xd1 x43 x9a x99 x07 x42)
(T (W x00 x00 x00 x00 x01 x00 x00 x00)
(L (W x00 x00 x00 x00 x01 x00 x00 x00)) E)
(T (W x01 x00 x00 x00 x04 x00 x00 x00)
(L (W x45 x26 x22 x84 xe4 x9c xf2 xcb)) E)))))
(T (W x45 x26 x22 x84 xe4 x9c xf2 xcb)
(T (W x28 x00 x00 x00 x14 x00 x00 x00)
(T (W x01 x00 x00 x00 x04 x00 x00 x00)
(T (W x1a xfe xff xff x00 x00 x00 x01)
(T (W x24 x9a xfd xff x00 x00 x00 x00)
(L (W x45 x26 x22 x84 xe4 x9c xf2 xcb))
(L (W x45 x26 x22 x84 xe4 x9c xf2 xcb)))
(T (W x00 x00 x00 x00 x00 x00 x00 x00)
(L (W xcc x1c xff xff x50 x00 x00 x00)) E))
(T (W x01 x00 x00 x00 x00 x00 x80 x3f)
(T (W x00 x00 x80 x3f x00 x00 x80 x3f)
(L (W x45 x26 x22 x84 xe4 x9c xf2 xcb))
(L (W x5c x00 x00 x00 x50 x00 x00 x00)))
(T (W x45 x26 x22 x84 xe4 x9c xf2 xcb)
(L (W xcc x5c xff xff x50 x00 x00 x00)) E)))
(T (W x00 x00 x00 x00 x01 x00 x00 x00)
(T (W xa2 x39 xfd xff x00 x00 x80 x3f)
(T (W x54 x00 x00 x00 x48 x00 x00 x00)
(L (W x04 x00 x00 x00 x10 xba xfe xff))
(L (W x04 x00 x00 x00 x00 x00 x00 x00)))
(T (W x00 x00 x80 x40 x24 x01 x00 x00)
(L (W x00 x00 x00 x00 xa6 x39 xff xff)) E))
(T (W x00 x00 x00 x00 x28 x7a xfd xff)
(T (W x00 x00 x00 x00 x01 x00 x00 x00)
(L (W x24 xfa xfe xff xa6 xf9 xfe xff))
(L (W x00 x00 x00 x00 x00 x00 x00 x00)))
(T (W x00 x00 x80 x40 x24 x01 x00 x00)
(L (W x34 x01 x00 x00 x00 x00 x80 x40)) E))))
(T (W x41 xa7 xa6 x4b xbc xb3 xe9 xea)
(T (W x00 x00 x80 x3f x28 xea xfc xff)
(T (W x00 x00 x00 x00 x01 x00 x00 x00)
(T (W x45 x26 x22 x84 xe4 x9c xf2 xcb)
(L (W x34 x00 x00 x00 x20 x00 x00 x00))
(L (W x45 x26 x22 x84 xe4 x9c xf2 xcb)))
(T (W x45 x26 x22 x84 xe4 x9c xf2 xcb)
(L (W x04 x00 x00 x00 x62 x2f xff xff)) E))
(T (W xa2 x69 xfd xff x00 x00 x80 x3f)
(T (W x24 xea xfd xff x00 x00 x00 x00)
(L (W x01 x00 x00 x00 x00 x00 x80 x3f))
(L (W x04 x00 x00 x00 x62 xef xff xff)))
(T (W xe1 x8c xba x31 x15 xd9 x38 x37)
(L (W x45 x26 x22 x84 xe4 x9c xf2 xcb)) E)))
(T (W x00 x00 x00 x00 x00 x00 x00 x00)
(T (W x00 x00 x00 x00 x00 x00 x00 x00)
(T (W x24 xca xfd xff xa6 xc9 xfd xff)
(L (W x00 x00 x00 x00 x28 xca xfe xff))
(L (W x00 x00 x00 x00 x00 x00 x00 x00)))
(T (W x45 x41 x30 x32 x5f x30 x31 x37)
(L (W x45 x26 x22 x84 xe4 x9c xf2 xcb)) E))
(T (W x00 x00 x80 xbf x9c x00 x00 x00)
(T (W x0a x77 x4c x44 x00 x00 x00 x00)
(L (W x00 x00 x00 x00 x00 x00 x00 x00)) E)
(T (W x00 x00 x00 x00 x01 x00 x00 x00)
(L (W x24 x8a xff xff x00 x00 x00 x00)) E))))))
(T (W x1c x01 x00 x00 x04 x00 x00 x00)
(T (W x54 x00 x00 x00 x48 x00 x00 x00)
(T (W x24 xb6 xfc xff x00 x00 x00 x00)
(T (W x45 x26 x22 x84 xe4 x9c xf2 xcb)
(T (W x00 x00 x00 x00 x00 x00 x00 x00)
(T (W x45 x26 x22 x84 xe4 x9c xf2 xcb)
(L (W x00 x00 x00 x00 x01 x00 x00 x00))
(L (W x45 x26 x22 x84 xe4 x9c xf2 xcb)))
(T (W x00 x00 x00 x00 x28 x16 xfe xff)
(L (W x40 x00 x00 x00 x38 x00 x00 x00)) E))
(T (W x00 x00 x00 x00 x00 x00 x00 x00)
(T (W x00 x00 x00 x00 x00 x00 x00 x00)
(L (W x65 xb6 xb5 xe3 xdc x73 x12 x52))
(L (W x00 x00 x00 x00 x00 x00 x00 x00)))
(T (W x00 x00 x00 x00 x01 x00 x00 x00)
(L (W x45 x26 x22 x84 xe4 x9c xf2 xcb)) E)))
(T (W x34 x00 x00 x00 x20 x00 x00 x00)
(T (W x74 x00 x00 x00 x68 x00 x00 x00)
(T (W x3c x01 x00 x00 x30 x01 x00 x00)
(L (W x00 x00 x00 x00 x00 x00 x00 x00))
(L (W x00 x00 x00 x00 x28 x00 x2c x00)))
(T (W x28 x00 x00 x00 x14 x00 x00 x00)
(L (W x04 x00 x00 x00 x10 x36 xff xff)) E))
(T (W x10 xaa x0d x88 x4e x66 xaf xbb)
(T (W x00 x00 x80 x3f x02 x00 x00 x00)
(L (W x48 x00 x00 x00 x34 x00 x00 x00))
(L (W x45 x26 x22 x84 xe4 x9c xf2 xcb)))
(T (W x00 x00 x80 x3f x00 x00 x80 x3f)
(L (W x00 x00 x80 x3f x00 x00 x80 x3f)) E))))
(T (W x00 x00 xe0 x40 x24 x01 x00 x00)
(T (W x48 x00 x00 x00 x34 x00 x00 x00)
(T (W x00 x00 x80 xbf x9c x00 x00 x00)
(T (W x34 x00 x00 x00 x20 x00 x00 x00)
(L (W x1c x00 x00 x00 x46 x53 x59 x53))
(L (W x81 x30 x0c x0c x1e x00 xa7 xc0)))
(T (W x34 x00 x00 x00 x20 x00 x00 x00)
(L (W x1c x01 x00 x00 x01 x00 x00 x00)) E))
(T (W x00 x00 x00 x00 x00 x00 x00 x00)
(T (W x45 x26 x22 x84 xe4 x9c xf2 xcb)
(L (W x42 x52 x45 x41 x4b x5f x41 x52))
(L (W x14 x68 x3b xe5 xc2 x9a x06 xc1)))
(T (W x66 xe6 x3f x44 xae xc7 x8f x42)
(L (W x00 x00 x80 xbf x9c x00 x00 x00)) E)))
(T (W x45 x26 x22 x84 xe4 x9c xf2 xcb)
(T (W x24 x46 xfd xff x00 x00 x00 x00)
(T (W x00 x00 x00 x00 x01 x00 x00 x00)
(L (W x24 xc6 xfe xff x00 x00 x00 x00))
(L (W x48 x00 x00 x00 x34 x00 x00 x00)))
(T (W x45 x26 x22 x84 xe4 x9c xf2 xcb)
(L (W x45 x26 x22 x84 xe4 x9c xf2 xcb)) E))
(T (W x00 x00 x00 x00 xea x8d xfd xff)
(T (W x55 x39 x81 x6a xc4 xc7 x74 x14)
(L (W xcc x08 xff xff x50 x00 x00 x00)) E)
(T (W x55 x6c xfc xf1 x99 x9e xc9 x88)
(L (W x2c x00 x00 x00 x20 x00 x00 x00)) E)))))
(T (W xcc xb0 xfc xff x50 x00 x00 x00)
(T (W x8f x82 xc1 x43 x0a xd7 x14 x42)
(T (W x45 x26 x22 x84 xe4 x9c xf2 xcb)
(T (W x00 x00 x00 x01 x48 x01 x00 x00)
(T (W x00 x00 x80 x3f x00 x00 x80 x3f)
(L (W x00 x00 x00 x00 x00 x00 x00 x00))
(L (W x2c x00 x00 x00 x18 x00 x00 x00)))
(T (W x44 x00 x00 x00 x30 x00 x00 x00)
(L (W x00 x00 x00 x00 x00 x00 x00 x00)) E))
(T (W x45 x26 x22 x84 xe4 x9c xf2 xcb)
(T (W x00 x00 x00 x00 x00 x00 x00 x00)
(L (W x00 x00 x00 x00 x00 x00 x00 x00))
(L (W x00 x00 x80 x3f x28 xde xff xff)))
(T (W x45 x26 x22 x84 xe4 x9c xf2 xcb)
(L (W x00 x00 x00 x00 x00 x00 x00 x00)) E)))
(T (W x45 x26 x22 x84 xe4 x9c xf2 xcb)
(T (W x00 x00 x00 x00 x00 x00 x00 x00)
(T (W x00 x00 x00 x00 x28 xbe xfd xff)
(L (W x00 x00 x00 x00 x00 x00 x00 x00))
(L (W x01 x00 x00 x00 x04 x00 x00 x00)))
(T (W x04 x00 x00 x00 x00 x00 x00 x00)
(L (W x53 x5f x47 x41 x4e x45 x52 x41)) E))
(T (W x00 x00 x00 x00 x00 x00 x00 x00)
(T (W x01 x00 x00 x00 x04 x00 x00 x00)
(L (W x34 x00 x00 x00 x20 x00 x00 x00))
(L (W x45 x26 x22 x84 xe4 x9c xf2 xcb)))
(T (W x40 x00 x00 x00 x38 x00 x00 x00)
(L (W x00 x00 x00 x00 x01 x00 x00 x00)) E))))
(T (W xdb xa3 xa6 x4b xbc xb1 xe9 xea)
(T (W x02 x00 x00 x00 x32 x36 x00 x00)
(T (W x45 x26 x22 x84 xe4 x9c xf2 xcb)
(T (W x00 x00 x00 x00 x00 x00 x00 x00)
(L (W x45 x26 x22 x84 xe4 x9c xf2 xcb))
(L (W x00 x00 x00 x00 x00 x00 x00 x00)))
(T (W x2c x00 x00 x00 x20 x00 x00 x00)
(L (W x24 x2e xff xff x00 x00 x00 x00)) E))
(T (W x00 x00 x00 x00 x00 x00 x00 x00)
(T (W x00 x00 x00 x00 x28 xee xfd xff)
(L (W x45 x26 x22 x84 xe4 x9c xf2 xcb))
(L (W x24 xee xff xff x00 x00 x00 x00)))
(T (W x45 x26 x22 x84 xe4 x9c xf2 xcb)
(L (W xcc x70 xff xff x50 x00 x00 x00)) E)))
(T (W x60 x00 x00 x00 x54 x00 x00 x00)
(T (W x00 x00 x00 x00 xa6 x4d xfd xff)
(T (W x34 x00 x00 x00 x20 x00 x00 x00)
(L (W x00 x00 x80 x3f x00 x00 x80 x3f))
(L (W x93 xa6 x97 x16 x1e xbd xd6 xd2)))
(T (W x44 x00 x00 x00 x30 x00 x00 x00)
(L (W x45 x26 x22 x84 xe4 x9c xf2 xcb)) E))
(T (W x04 x00 x00 x00 x00 x00 x00 x00)
(T (W x1c x01 x00 x00 x01 x00 x00 x00)
(L (W xa2 x0d xff xff x00 x00 x80 x3f)) E)
(T (W x00 x00 x00 x00 x00 x00 x00 x00)
(L (W x00 x00 x00 x00 x00 x00 x00 x00)) E)))))))
(T (W x28 x15 x00 x00 x3c x13 x00 x00)
(T (W x1a x80 xff xff x00 x00 x00 x01)
(T (W x04 x00 x00 x00 x00 x00 x00 x00)
(T (W x00 x00 x00 x00 x00 x00 x00 x00)
(T (W x45 x26 x22 x84 xe4 x9c xf2 xcb)
(T (W x71 x3d x81 x42 x85 xcb xed x43)
(T (W x00 x00 x00 x00 x28 x94 xfd xff)
(L (W x45 x26 x22 x84 xe4 x9c xf2 xcb))
(L (W x45 x26 x22 x84 xe4 x9c xf2 xcb)))
(T (W x45 x26 x22 x84 xe4 x9c xf2 xcb)
(L (W x27 x34 x6f xb1 xce xa7 x3d xbc)) E))
(T (W xae x47 x18 x42 x00 xf0 x5f x44)
(T (W x44 x00 x00 x00 x38 x00 x00 x00)
(L (W x00 x00 x80 xbf x9c x00 x00 x00))
(L (W x01 x00 x00 x00 x04 x00 x00 x00)))
(T (W x01 x00 x00 x00 x00 x00 x80 x3f)
(L (W x45 x26 x22 x84 xe4 x9c xf2 xcb)) E)))
(T (W x04 x00 x00 x00 x00 x00 x80 x3f)
(T (W x24 x34 xfd xff x00 x00 x00 x00)
(T (W x00 x00 x00 x00 x00 x00 x00 x00)
(L (W x00 x00 x00 x00 x00 x00 x00 x00))
(L (W x00 x00 x00 x00 x00 x00 x00 x00)))
(T (W x78 x00 x00 x00 x6c x00 x00 x00)
(L (W x00 x00 x00 x00 x28 x34 xff xff)) E))
(T (W x00 x00 x40 x40 x24 x01 x00 x00)
(T (W x34 x01 x00 x00 x00 x00 x40 x40)
(L (W x00 x00 x00 x00 x00 x00 x00 x00))
(L (W x04 x00 x00 x00 x10 xf4 xff xff)))
(T (W x60 x00 x00 x00 x54 x00 x00 x00)
(L (W x74 x00 x00 x00 x68 x00 x00 x00)) E))))
(T (W x5f x30 x30 x34 x00 x00 x00 x00)
(T (W x04 x00 x00 x00 x10 xe4 xfc xff)
(T (W x03 x00 x00 x00 x00 x00 x80 x3f)
(T (W x00 x00 x80 x3f x02 x00 x00 x00)
(L (W x24 xa4 xfe xff xa6 xa3 xfe xff))
(L (W x3c x01 x00 x00 x30 x01 x00 x00)))
(T (W x00 x00 x00 x00 xea x2b xfe xff)
(L (W x00 x00 x00 x00 x00 x00 x00 x00)) E))
(T (W x44 x00 x00 x00 x38 x00 x00 x00)
(T (W x00 x00 x00 x00 x01 x00 x00 x00)
(L (W x3d xca x60 x43 x00 x00 x00 x00))
(L (W x3c x01 x00 x00 x30 x01 x00 x00)))
(T (W x44 x00 x00 x00 x30 x00 x00 x00)
(L (W x00 x00 x00 x00 x00 x00 x00 x00)) E)))
(T (W x44 x00 x00 x00 x38 x00 x00 x00)
(T (W x45 x26 x22 x84 xe4 x9c xf2 xcb)
(T (W x00 x00 x00 x00 x00 x00 x00 x00)
(L (W x45 x26 x22 x84 xe4 x9c xf2 xcb))
(L (W x04 x00 x00 x00 x10 xc4 xff xff)))
(T (W x00 x00 x00 x00 x28 x44 xfe xff)
(L (W x54 x00 x00 x00 x48 x00 x00 x00)) E))
(T (W x5f x4e x45 x57 x5f x4f x55 x54)
(T (W x60 x00 x00 x00 x54 x00 x00 x00)
(L (W x45 x26 x22 x84 xe4 x9c xf2 xcb)) E)
(T (W x2c x00 x00 x00 x20 x00 x00 x00)
(L (W x01 x00 x00 x00 x04 x00 x00 x00)) E)))))
(T (W x24 xac xfc xff x00 x00 x00 x00)
(T (W xa2 xbb xfc xff x00 x00 x80 x3f)
(T (W x2c x00 x00 x00 x20 x00 x00 x00)
(T (W x00 x00 x00 x00 x50 x00 x24 x00)
(T (W x74 x00 x00 x00 x68 x00 x00 x00)
(L (W x01 x00 x00 x00 x04 x00 x00 x00))
(L (W x00 x00 x00 x00 x28 x9c xff xff)))
(T (W x04 x00 x00 x00 x10 x1c xfe xff)
(L (W x45 x26 x22 x84 xe4 x9c xf2 xcb)) E))
(T (W x00 x00 x00 x00 x01 x00 x00 x00)
(T (W x00 x00 x12 x42 xb8 xbe x2d x44)
(L (W xcc xde xfe xff x50 x00 x00 x00))
(L (W x00 x00 x80 x3f x28 xdc xff xff)))
(T (W x44 x00 x00 x00 x38 x00 x00 x00)
(L (W x00 x00 x00 x00 x00 x00 x00 x00)) E)))
(T (W x40 x00 x00 x00 x38 x00 x00 x00)
(T (W xa2 x3b xfd xff x0a xd7 x30 x43)
(T (W x45 x26 x22 x84 xe4 x9c xf2 xcb)
(L (W x45 x26 x22 x84 xe4 x9c xf2 xcb))
(L (W x45 x26 x22 x84 xe4 x9c xf2 xcb)))
(T (W x52 xcd x29 x20 x06 x24 x85 x84)
(L (W x9a x79 x04 x44 x00 x00 x2a x42)) E))
(T (W x9f x41 x45 xdc x00 xd9 x55 x2f)
(T (W x45 x26 x22 x84 xe4 x9c xf2 xcb)
(L (W x00 x00 x00 x00 xea x03 xff xff))
(L (W x00 x00 x00 x00 x00 x00 x00 x00)))
(T (W x80 xea x35 x66 xbd xc9 xf5 xc9)
(L (W x02 x68 x39 x08 x1e xc9 x43 xb9)) E))))
(T (W x00 x00 x80 xbf x00 x00 x80 xbf)
(T (W x00 x00 x00 x00 x00 x00 x00 x00)
(T (W x04 x00 x00 x00 x62 x31 xfd xff)
(T (W x44 x00 x00 x00 x38 x00 x00 x00)
(L (W x04 x00 x00 x00 x62 xb1 xfe xff))
(L (W x2c x00 x00 x00 x20 x00 x00 x00)))
(T (W x40 x00 x00 x00 x34 x00 x00 x00)
(L (W x45 x26 x22 x84 xe4 x9c xf2 xcb)) E))
(T (W xa2 x6b xfd xff x00 xa0 x0b x44)
(T (W x45 x26 x22 x84 xe4 x9c xf2 xcb)
(L (W x00 x00 x00 x00 x01 x00 x00 x00))
(L (W x45 x26 x22 x84 xe4 x9c xf2 xcb)))
(T (W x54 x00 x00 x00 x48 x00 x00 x00)
(L (W x45 x26 x22 x84 xe4 x9c xf2 xcb)) E)))
(T (W x00 x00 x00 x00 x01 x00 x00 x00)
(T (W x04 x00 x00 x00 x48 x4e xfd xff)
(T (W x00 x00 x00 x00 xea xd3 xfd xff)
(L (W x74 x00 x00 x00 x68 x00 x00 x00))
(L (W x3c x01 x00 x00 x30 x01 x00 x00)))
(T (W x04 x00 x00 x00 x10 x4c xfe xff)
(L (W x24 x4c xff xff x00 x00 x00 x00)) E))
(T (W x22 x2a xde xb9 x7a xde xa1 x35)
(T (W x00 x00 x00 x00 x00 x00 x00 x00)
(L (W x44 x00 x00 x00 x30 x00 x00 x00)) E)
(T (W x45 x26 x22 x84 xe4 x9c xf2 xcb)
(L (W x45 x26 x22 x84 xe4 x9c xf2 xcb)) E))))))
(T (W x00 x00 x80 xbf x9c x00 x00 x00)
(T (W x45 x26 x22 x84 xe4 x9c xf2 xcb)
(T (W x74 x00 x00 x00 x68 x00 x00 x00)
(T (W x00 x00 x00 x00 x28 xd8 xfc xff)
(T (W x5f x4d x41 x53 x53 x5f x47 x41)
(T (W x00 x00 x00 x00 x00 x00 x00 x00)
(L (W x40 x00 x00 x00 x38 x00 x00 x00))
(L (W x24 x98 xff xff x00 x00 x00 x00)))
(T (W x44 x00 x00 x00 x38 x00 x00 x00)
(L (W x00 x00 x00 x00 x28 x18 xff xff)) E))
(T (W x5f x4e x45 x57 x5f x4f x55 x54)
(T (W x74 x00 x00 x00 x68 x00 x00 x00)
(L (W x54 x00 x00 x00 x48 x00 x00 x00))
(L (W x00 x00 x00 x00 x00 x00 x00 x00)))
(T (W x45 x26 x22 x84 xe4 x9c xf2 xcb)
(L (W x24 x58 xff xff x00 x00 x00 x00)) E)))
(T (W x45 x26 x22 x84 xe4 x9c xf2 xcb)
(T (W x28 x00 x00 x00 x14 x00 x00 x00)
(T (W xd6 xee x76 x1e x15 xa8 xff x14)
(L (W x00 x00 x00 x00 x00 x00 x00 x00))
(L (W x00 x00 x80 xbf x00 x00 x80 xbf)))
(T (W xb8 xee x1d x44 x00 x00 x00 x00)
(L (W x44 x00 x00 x00 x30 x00 x00 x00)) E))
(T (W x40 x00 x00 x00 x38 x00 x00 x00)
(T (W x34 x00 x00 x00 x20 x00 x00 x00)
(L (W x55 x6c xfc xf1 x99 x9e xc9 x88))
(L (W x00 x00 x00 x00 x00 x00 x00 x00)))
(T (W x00 x00 x00 x00 x00 x00 x00 x00)
(L (W x71 x6d x42 x44 x00 x00 x00 x00)) E))))
(T (W x00 x00 x80 xbf x00 x00 x80 xbf)
(T (W x4f x84 x6f x8b xe8 xcb x63 xb7)
(T (W x00 x00 x00 x00 x01 x00 x00 x00)
(T (W x04 x00 x00 x00 x62 xad xfd xff)
(L (W x41 x30 x32 x00 xea xaf xfe xff))
(L (W x54 x00 x00 x00 x48 x00 x00 x00)))
(T (W x04 x00 x00 x00 x62 x2d xfe xff)
(L (W x34 x00 x00 x00 x20 x00 x00 x00)) E))
(T (W x78 x00 x00 x00 x6c x00 x00 x00)
(T (W x45 x26 x22 x84 xe4 x9c xf2 xcb)
(L (W x3c x01 x00 x00 x30 x01 x00 x00))
(L (W x00 x00 x00 x00 x01 x00 x00 x00)))
(T (W x3c x01 x00 x00 x30 x01 x00 x00)
(L (W x45 x26 x22 x84 xe4 x9c xf2 xcb)) E)))
(T (W x00 x00 x00 x00 x00 x00 x00 x00)
(T (W xcc x4a xfd xff x50 x00 x00 x00)
(T (W x5c x00 x00 x00 x50 x00 x00 x00)
(L (W x45 x26 x22 x84 xe4 x9c xf2 xcb))
(L (W x45 x26 x22 x84 xe4 x9c xf2 xcb)))
(T (W x42 x52 x45 x41 x4b x5f x41 x52)
(L (W x00 x00 x00 x00 x28 x48 xff xff)) E))
(T (W x1c x01 x00 x00 x01 x00 x00 x00)
(T (W x00 x00 x80 x3f x00 x00 x80 x3f)
(L (W x00 x00 x00 x00 x00 x00 x00 x00)) E)
(T (W x00 x00 x00 x00 x00 x00 x00 x00)
(L (W x45 x26 x22 x84 xe4 x9c xf2 xcb)) E)))))
(T (W x3f x7c x88 xaf x9a x1e x19 x7c)
(T (W x00 x00 x00 x00 x00 x00 x00 x00)
(T (W x00 x00 x00 x00 x00 x00 x00 x00)
(T (W x3c x00 x40 x00 x32 x00 x00 x00)
(T (W x00 x00 x00 x00 x00 x00 x00 x00)
(L (W x00 x00 x00 x00 x01 x00 x00 x00))
(L (W x00 x00 x00 x00 xa6 x9f xff xff)))
(T (W xa2 x1f xfe xff xc3 x45 x3a x44)
(L (W x74 x00 x00 x00 x68 x00 x00 x00)) E))
(T (W x45 x26 x22 x84 xe4 x9c xf2 xcb)
(T (W x3c x01 x00 x00 x30 x01 x00 x00)
(L (W x00 x00 x00 x00 x28 xe0 xfe xff))
(L (W x00 x00 x00 x00 x00 x00 x00 x00)))
(T (W x00 x00 x00 x00 x00 x00 x00 x00)
(L (W x44 x00 x00 x00 x30 x00 x00 x00)) E)))
(T (W x45 x26 x22 x84 xe4 x9c xf2 xcb)
(T (W x01 x00 x00 x00 x00 x00 x80 x3f)
(T (W x44 x00 x00 x00 x38 x00 x00 x00)
(L (W x1c x01 x00 x00 x01 x00 x00 x00))
(L (W xf5 xa1 xaa x28 xbf xd1 x56 x6a)))
(T (W x54 x00 x00 x00 x48 x00 x00 x00)
(L (W x00 x00 x80 xbf x00 x00 x80 xbf)) E))
(T (W x44 x00 x00 x00 x30 x00 x00 x00)
(T (W x00 x00 x00 x00 x00 x00 x00 x00)
(L (W x45 x26 x22 x84 xe4 x9c xf2 xcb))
(L (W x0c x00 x10 x00 x14 x00 x18 x00)))
(T (W x45 x26 x22 x84 xe4 x9c xf2 xcb)
(L (W x45 x26 x22 x84 xe4 x9c xf2 xcb)) E))))
(T (W x00 x00 x00 x00 x01 x00 x00 x00)
(T (W x4e x45 x52 x41 x54 x49 x4f x4e)
(T (W x01 x00 x00 x00 x04 x00 x00 x00)
(T (W x74 x00 x00 x00 x68 x00 x00 x00)
(L (W x00 x00 x00 x00 x28 xb0 xfe xff))
(L (W x78 x00 x00 x00 x6c x00 x00 x00)))
(T (W x00 x00 x00 x00 x00 x00 x00 x00)
(L (W x44 x00 x00 x00 x38 x00 x00 x00)) E))
(T (W x1c x00 x00 x00 x46 x53 x59 x53)
(T (W x28 x00 x00 x00 x14 x00 x00 x00)
(L (W x24 xf0 xfe xff x00 x00 x00 x00))
(L (W x45 x26 x22 x84 xe4 x9c xf2 xcb)))
(T (W x2c x00 x00 x00 x20 x00 x00 x00)
(L (W x49 x65 xff x4b x84 x98 x7b x61)) E)))
(T (W xd6 x81 x9c x94 x9b x27 x57 x25)
(T (W xa2 x4f xfd xff x9a x59 x60 x43)
(T (W x04 x00 x00 x00 x62 xd5 xfd xff)
(L (W x00 x00 x00 x00 x00 x00 x00 x00))
(L (W x04 x00 x00 x00 x00 x00 x00 x00)))
(T (W x66 x26 x3c x44 xec xd1 x8f x42)
(L (W x00 x00 x00 x00 x00 x00 x00 x00)) E))
(T (W x45 x26 x22 x84 xe4 x9c xf2 xcb)
(T (W x44 x2f x70 x9e xbf x84 xc8 x4c)
(L (W x00 x00 x00 x00 x00 x00 x00 x00)) E)
(T (W x00 x00 x00 x00 xea x97 xfe xff)
(L (W x1c x01 x00 x00 x01 x00 x00 x00)) E)))))))))
(T (W x04 xa6 x02 x00 x20 xa4 x02 x00)
(T (W xfc x2f x02 x00 x30 x2e x02 x00)
(T (W xfc x42 x01 x00 x30 x41 x01 x00)
(T (W x74 x00 x00 x00 x68 x00 x00 x00)
(T (W x00 x00 x00 x00 x00 x00 x00 x00)
(T (W x45 x26 x22 x84 xe4 x9c xf2 xcb)
(T (W x4e x45 x52 x41 x54 x49 x4f x4e)
(T (W x00 x00 x00 x00 x00 x00 x00 x00)
(T (W x00 x00 x80 xbf x9c x00 x00 x00)
(L (W x22 x91 xfe xff x00 x00 x80 x3f))
(L (W x5c x0f x52 x43 x52 xb8 x3e x42)))
(T (W x00 x00 x00 x00 x00 x00 x00 x00)
(L (W xd6 x81 x9c x94 x9b x27 x57 x25)) E))
(T (W x5f x4e x45 x57 x5f x4f x55 x54)
(T (W x00 x00 x80 xbf x00 x00 x80 xbf)
(L (W x55 x6c xfc xf1 x99 x9e xc9 x88))
(L (W x1c x01 x00 x00 x01 x00 x00 x00)))
(T (W x78 x00 x00 x00 x6c x00 x00 x00)
(L (W x44 x00 x00 x00 x30 x00 x00 x00)) E)))
(T (W xd6 x81 x9c x94 x9b x27 x57 x25)
(T (W x40 x00 x00 x00 x38 x00 x00 x00)
(T (W x00 x00 x00 x00 x00 x00 x00 x00)
(L (W x04 x00 x00 x00 xe2 xb6 xfe xff))
(L (W x45 x26 x22 x84 xe4 x9c xf2 xcb)))
(T (W x00 x00 x00 x00 xa8 x31 xfe xff)
(L (W x54 x00 x00 x00 x48 x00 x00 x00)) E))
(T (W x48 x00 x00 x00 x34 x00 x00 x00)
(T (W x00 x00 x00 x00 x00 x00 x00 x00)
(L (W x04 x00 x00 x00 xe2 xf6 xfe xff))
(L (W x45 x26 x22 x84 xe4 x9c xf2 xcb)))
(T (W x45 x26 x22 x84 xe4 x9c xf2 xcb)
(L (W x45 x26 x22 x84 xe4 x9c xf2 xcb)) E))))
(T (W x04 x00 x00 x00 xc8 xc3 xfc xff)
(T (W x45 x26 x22 x84 xe4 x9c xf2 xcb)
(T (W x45 x26 x22 x84 xe4 x9c xf2 xcb)
(T (W x55 x39 x81 x6a xc4 xc7 x74 x14)
(L (W x45 x26 x22 x84 xe4 x9c xf2 xcb))
(L (W x00 x00 x00 x00 x00 x00 x00 x00)))
(T (W x00 x00 x00 x00 xa8 x21 xfe xff)
(L (W xd2 x8b xa7 x28 xbf x4d x53 x6a)) E))
(T (W xf3 x60 x44 x64 xd0 x79 x26 x39)
(T (W x00 x00 x80 x3f x00 x00 x80 x3f)
(L (W x2c x00 x00 x00 x20 x00 x00 x00))
(L (W x5c x00 x00 x00 x50 x00 x00 x00)))
(T (W x45 x26 x22 x84 xe4 x9c xf2 xcb)
(L (W x00 x00 x00 x00 x00 x00 x00 x00)) E)))
(T (W x83 x73 xe3 x7b x0c xc8 x8a x60)
(T (W xc3 x75 x16 x44 x00 x00 x00 x00)
(T (W x54 x00 x00 x00 x48 x00 x00 x00)
(L (W xec x91 xe3 x43 xae x47 xce x42))
(L (W x45 x26 x22 x84 xe4 x9c xf2 xcb)))
(T (W x00 x00 x80 xbf x9c x00 x00 x00)
(L (W x00 x00 x00 x00 x00 x00 x00 x00)) E))
(T (W x00 x00 x00 x00 x00 x00 x00 x00)
(T (W xa4 x01 xfe xff x00 x00 x00 x00)
(L (W x5f x4e x45 x57 x5f x4f x55 x54)) E)
(T (W x45 x26 x22 x84 xe4 x9c xf2 xcb)
(L (W x00 x00 x80 xbf x9c x00 x00 x00)) E)))))
(T (W x00 x00 x80 xbf x00 x00 x80 xbf)
(T (W x2c x00 x00 x00 x20 x00 x00 x00)
(T (W x45 x26 x22 x84 xe4 x9c xf2 xcb)
(T (W x2c x00 x00 x00 x18 x00 x00 x00)
(T (W x00 x00 x00 x00 xa8 x99 xfd xff)
(L (W x1c x01 x00 x00 x01 x00 x00 x00))
(L (W x54 x00 x00 x00 x48 x00 x00 x00)))
(T (W x45 x26 x22 x84 xe4 x9c xf2 xcb)
(L (W x00 x00 x00 x00 x01 x00 x00 x00)) E))
(T (W x28 x00 x00 x00 x14 x00 x00 x00)
(T (W x00 x00 x00 x00 x00 x00 x00 x00)
(L (W x00 x00 x80 xbf x00 x00 x80 xbf))
(L (W x4c xdc xff xff x50 x00 x00 x00)))
(T (W x00 x00 x80 xbf x00 x00 x80 xbf)
(L (W x00 x00 x00 x00 x01 x00 x00 x00)) E)))
(T (W x5f x4d x41 x53 x53 x5f x47 x41)
(T (W x45 x26 x22 x84 xe4 x9c xf2 xcb)
(T (W x00 x00 x00 x00 x00 x00 x00 x00)
(L (W x00 x00 x00 x00 xa8 xb9 xfe xff))
(L (W x00 x00 x00 x00 x00 x00 x00 x00)))
(T (W x5c x00 x00 x00 x50 x00 x00 x00)
(L (W x45 x26 x22 x84 xe4 x9c xf2 xcb)) E))
(T (W x34 x00 x00 x00 x20 x00 x00 x00)
(T (W x00 x00 x00 x00 x00 x00 x00 x00)
(L (W x00 x00 x00 x00 x00 x00 x00 x00))
(L (W xa4 xf9 xff xff x00 x00 x00 x00)))
(T (W x5c x00 x00 x00 x50 x00 x00 x00)
(L (W x60 x00 x00 x00 x54 x00 x00 x00)) E))))
(T (W x00 x00 x00 x00 x00 x00 x00 x00)
(T (W x00 x00 x00 x00 x00 x00 x00 x00)
(T (W x32 x38 x00 x00 x11 x00 x00 x00)
(T (W x00 x00 x80 xbf x00 x00 x80 xbf)
(L (W x22 xa9 xfe xff x00 x00 x80 x3f))
(L (W x00 x00 x80 xbf x9c x00 x00 x00)))
(T (W x00 x00 x80 xbf x00 x00 x80 xbf)
(L (W x00 x00 x00 x00 x00 x00 x00 x00)) E))
(T (W x45 x26 x22 x84 xe4 x9c xf2 xcb)
(T (W x32 xb7 xf3 x13 x15 xde xd9 x02)
(L (W x00 x00 x80 x3f x00 x00 x80 x3f))
(L (W x4b x5f x41 x52 x45 x41 x30 x32)))
(T (W x00 x00 x80 x3f x00 x00 x80 x3f)
(L (W x3c x01 x00 x00 x30 x01 x00 x00)) E)))
(T (W x45 x26 x22 x84 xe4 x9c xf2 xcb)
(T (W x45 x26 x22 x84 xe4 x9c xf2 xcb)
(T (W x00 x00 x00 x00 x00 x00 x00 x00)
(L (W x45 x26 x22 x84 xe4 x9c xf2 xcb))
(L (W x00 x00 x00 x00 xa8 xc9 xff xff)))
(T (W xa4 x49 xfe xff x00 x00 x00 x00)
(L (W x40 x00 x00 x00 x38 x00 x00 x00)) E))
(T (W x22 x89 xfd xff x9a x59 xd2 x43)
(T (W x00 x00 x00 x00 x00 x00 x00 x00)
(L (W x45 x26 x22 x84 xe4 x9c xf2 xcb)) E)
(T (W xa4 x89 xfe xff x00 x00 x00 x00)
(L (W x00 x00 x00 x00 xa8 x89 xff xff)) E))))))
(T (W x22 x9d xfc xff x00 x00 x80 x3f)
(T (W x5f x30 x32 x30 x00 x00 x00 x00)
(T (W x00 x00 x00 x00 xa8 xb5 xfc xff)
(T (W x04 x00 x00 x00 x00 x00 x80 x3f)
(T (W xa4 x15 xfd xff x00 x00 x00 x00)
(T (W x40 x00 x00 x00 x38 x00 x00 x00)
(L (W x5f x4e x45 x57 x5f x4f x55 x54))
(L (W x3c x01 x00 x00 x30 x01 x00 x00)))
(T (W x3e x0b xb2 x17 xb6 x48 x67 xa8)
(L (W x00 x00 x00 x00 x6a x1d xff xff)) E))
(T (W xa4 x55 xfd xff x00 x00 x00 x00)
(T (W x45 x26 x22 x84 xe4 x9c xf2 xcb)
(L (W x00 x00 x00 x00 x00 x00 x00 x00))
(L (W x45 x26 x22 x84 xe4 x9c xf2 xcb)))
(T (W x14 x6e x67 x43 x00 x00 x00 x00)
(L (W x3c x01 x00 x00 x30 x01 x00 x00)) E)))
(T (W x0a xd7 xc1 x42 x71 x7d x65 x43)
(T (W x01 x00 x00 x00 x04 x00 x00 x00)
(T (W x55 x39 x81 x6a xc4 xc7 x74 x14)
(L (W x45 x26 x22 x84 xe4 x9c xf2 xcb))
(L (W x45 x26 x22 x84 xe4 x9c xf2 xcb)))
(T (W x2c x00 x00 x00 x20 x00 x00 x00)
(L (W x00 x00 x00 x00 xa8 x35 xff xff)) E))
(T (W xa4 x75 xfd xff x26 x75 xfd xff)
(T (W x00 x00 x80 x3f x00 x00 x80 x3f)
(L (W x44 x00 x00 x00 x38 x00 x00 x00))
(L (W x45 x26 x22 x84 xe4 x9c xf2 xcb)))
(T (W x00 x00 x00 x00 x00 x00 x00 x00)
(L (W x00 x00 x00 x00 x00 x00 x00 x00)) E))))
(T (W x4f x84 x6f x8b xe8 xcb x63 xb7)
(T (W x44 x00 x00 x00 x38 x00 x00 x00)
(T (W xb8 x9e x07 x43 x00 x00 x00 x00)
(T (W xcd xcc x08 x42 x7b x54 x61 x44)
(L (W x04 x00 x00 x00 x90 xa5 xfe xff))
(L (W x00 x00 x80 x3f x00 x00 x80 x3f)))
(T (W x22 x25 xfe xff x00 x00 x80 x3f)
(L (W x44 x00 x00 x00 x30 x00 x00 x00)) E))
(T (W x45 x26 x22 x84 xe4 x9c xf2 xcb)
(T (W x00 x00 xa0 x40 x24 x01 x00 x00)
(L (W x60 x00 x00 x00 x54 x00 x00 x00))
(L (W x00 x00 x80 x3f x00 x00 x80 x3f)))
(T (W x00 x00 x00 x00 x00 x00 x00 x00)
(L (W x45 x26 x22 x84 xe4 x9c xf2 xcb)) E)))
(T (W x54 x00 x00 x00 x48 x00 x00 x00)
(T (W x98 x7b x2f xf0 x2c x45 x0a xdb)
(T (W xa4 xc5 xfd xff x00 x00 x00 x00)
(L (W xf0 x89 x89 xf3 x1d x21 x5e x95))
(L (W x44 x00 x00 x00 x38 x00 x00 x00)))
(T (W x40 x00 x00 x00 x38 x00 x00 x00)
(L (W x00 x00 x80 xbf x9c x00 x00 x00)) E))
(T (W x2c x00 x00 x00 x18 x00 x00 x00)
(T (W x8c xc5 xd6 x61 xf7 xe1 xb5 x83)
(L (W x00 x00 x00 x00 x01 x00 x00 x00)) E)
(T (W x40 x00 x00 x00 x38 x00 x00 x00)
(L (W x00 x00 x00 x00 x01 x00 x00 x00)) E)))))
(T (W x00 x00 x00 x00 x01 x00 x00 x00)
(T (W x00 x00 x00 x00 x00 x00 x00 x00)
(T (W x40 x00 x00 x00 x38 x00 x00 x00)
(T (W x28 x00 x00 x00 x14 x00 x00 x00)
(T (W x00 x00 x00 x00 x00 x00 x00 x00)
(L (W x45 x26 x22 x84 xe4 x9c xf2 xcb))
(L (W x2c x00 x00 x00 x20 x00 x00 x00)))
(T (W x44 x00 x00 x00 x38 x00 x00 x00)
(L (W x45 x26 x22 x84 xe4 x9c xf2 xcb)) E))
(T (W x00 x00 x00 x41 x3c x01 x00 x00)
(T (W xa4 xdd xfd xff x00 x00 x00 x00)
(L (W x45 x26 x22 x84 xe4 x9c xf2 xcb))
(L (W x00 x00 x00 x00 x00 x00 x00 x00)))
(T (W x54 x00 x00 x00 x48 x00 x00 x00)
(L (W x45 x26 x22 x84 xe4 x9c xf2 xcb)) E)))
(T (W x1c x01 x00 x00 x04 x00 x00 x00)
(T (W x00 x00 x00 x00 xa8 x3d xfd xff)
(T (W xcc xae x7d x3d x95 x36 xcd x26)
(L (W x00 x00 x00 x00 x00 x00 x00 x00))
(L (W x45 x26 x22 x84 xe4 x9c xf2 xcb)))
(T (W x1c x00 x00 x00 x46 x53 x59 x53)
(L (W x74 x00 x00 x00 x68 x00 x00 x00)) E))
(T (W x45 x26 x22 x84 xe4 x9c xf2 xcb)
(T (W x45 x26 x22 x84 xe4 x9c xf2 xcb)
(L (W x22 xfd xfe xff x00 x00 x80 x3f))
(L (W x00 x00 x00 x00 x00 x00 x00 x00)))
(T (W x00 x00 x00 x00 x6a x85 xfe xff)
(L (W x00 x00 x00 x00 x00 x00 x00 x00)) E))))
(T (W x00 x00 x00 x00 x00 x00 x00 x00)
(T (W x00 x00 x00 x00 x01 x00 x00 x00)
(T (W x01 x00 x00 x00 x00 x00 x80 x3f)
(T (W x45 x26 x22 x84 xe4 x9c xf2 xcb)
(L (W x34 x01 x00 x00 x00 x00 x40 x40))
(L (W x45 x26 x22 x84 xe4 x9c xf2 xcb)))
(T (W x00 x00 x00 x00 x01 x00 x00 x00)
(L (W x11 x76 x89 xe8 x48 xdc x3e x2f)) E))
(T (W x00 x00 x00 x00 xa8 x6d xfd xff)
(T (W x45 x26 x22 x84 xe4 x9c xf2 xcb)
(L (W x00 x00 xa0 x40 x24 x01 x00 x00))
(L (W xc3 x79 x57 xcc xc2 xb5 x4a x95)))
(T (W x00 x00 x80 xbf x9c x00 x00 x00)
(L (W x00 x00 x00 x00 x01 x00 x00 x00)) E)))
(T (W x4c x10 xfd xff x50 x00 x00 x00)
(T (W x45 x26 x22 x84 xe4 x9c xf2 xcb)
(T (W x22 xcd xfd xff x00 x00 x80 x3f)
(L (W x00 x00 x00 x00 x00 x00 x00 x00))
(L (W x00 x00 x80 x3f x00 x00 x80 x3f)))
(T (W x44 x00 x00 x00 x38 x00 x00 x00)
(L (W xc1 xa8 xaa x28 xbf xd5 x56 x6a)) E))
(T (W x1c x00 x00 x00 x46 x53 x59 x53)
(T (W x2c x00 x00 x00 x18 x00 x00 x00)
(L (W x45 x26 x22 x84 xe4 x9c xf2 xcb)) E)
(T (W x00 x00 x00 x00 xa8 x8d xfe xff)
(L (W x00 x00 x00 x00 x00 x00 x00 x00)) E)))))))
(T (W xd8 x52 x00 x00 xec x50 x00 x00)
(T (W x28 x00 x00 x00 x14 x00 x00 x00)
(T (W x46 x53 x59 x53 x5f x4e x45 x57)
(T (W x45 x26 x22 x84 xe4 x9c xf2 xcb)
(T (W x3c x01 x00 x00 x30 x01 x00 x00)
(T (W x00 x00 x00 x00 x00 x00 x00 x00)
(T (W x9c x1d xfe xd9 xce xad x95 x00)
(L (W x00 x00 x00 x00 x00 x00 x00 x00))
(L (W x00 x00 x00 x00 x00 x00 x00 x00)))
(T (W x00 x00 x80 xbf x9c x00 x00 x00)
(L (W xa4 x13 xff xff x26 x13 xff xff)) E))
(T (W x42 x52 x45 x41 x4b x5f x41 x52)
(T (W x04 x00 x00 x00 x00 x00 x00 x00)
(L (W x22 xd3 xfe xff xd7 xe3 xcf x43))
(L (W x45 x26 x22 x84 xe4 x9c xf2 xcb)))
(T (W x28 x00 x00 x00 x14 x00 x00 x00)
(L (W x00 x40 x18 x44 x8f xc2 x28 x42)) E)))
(T (W x00 x00 x80 x3f x00 x00 x80 x3f)
(T (W x00 x00 x00 x00 xa8 x33 xfd xff)
(T (W x00 x00 x00 x00 x01 x00 x00 x00)
(L (W x45 x26 x22 x84 xe4 x9c xf2 xcb))
(L (W xa4 xb3 xff xff x00 x00 x00 x00)))
(T (W x01 x00 x00 x00 x04 x00 x00 x00)
(L (W x45 x26 x22 x84 xe4 x9c xf2 xcb)) E))
(T (W x55 x6c xfc xf1 x99 x9e xc9 x88)
(T (W x60 x00 x00 x00 x54 x00 x00 x00)
(L (W x45 x26 x22 x84 xe4 x9c xf2 xcb))
(L (W x00 x00 x00 x00 xa8 xf3 xff xff)))
(T (W x4c x76 xfe xff x50 x00 x00 x00)
(L (W x01 x00 x00 x00 x04 x00 x00 x00)) E))))
(T (W x44 x00 x00 x00 x30 x00 x00 x00)
(T (W x00 x00 x00 x00 xa8 xe3 xfc xff)
(T (W xa7 xe0 x6f x20 x74 xc6 x41 x20)
(T (W x00 x00 x80 x3f x00 x00 x80 x3f)
(L (W x00 x00 x00 x00 x00 x00 x00 x00))
(L (W x74 x00 x00 x00 x68 x00 x00 x00)))
(T (W x04 x00 x00 x00 xc8 x25 xfe xff)
(L (W x00 x00 x00 x00 x00 x00 x00 x00)) E))
(T (W x04 x00 x00 x00 x00 x00 x00 x00)
(T (W x02 x00 x00 x00 x32 x37 x00 x00)
(L (W x00 x00 x00 x00 x00 x00 x00 x00))
(L (W x55 x39 x81 x6a xc4 xc7 x74 x14)))
(T (W x44 x00 x00 x00 x38 x00 x00 x00)
(L (W x04 x00 x00 x00 x90 x63 xff xff)) E)))
(T (W x04 x00 x00 x00 x00 x00 x00 x00)
(T (W x00 x00 xa0 x40 x24 x01 x00 x00)
(T (W x45 x26 x22 x84 xe4 x9c xf2 xcb)
(L (W x3c x01 x00 x00 x30 x01 x00 x00))
(L (W x00 x00 x00 x00 xa8 xc3 xff xff)))
(T (W xca x14 xe7 xc6 xb5 x0f xd1 x2b)
(L (W x45 x41 x30 x32 x5f x30 x31 x31)) E))
(T (W x78 x00 x00 x00 x6c x00 x00 x00)
(T (W x4c x06 xfe xff x50 x00 x00 x00)
(L (W x01 x00 x00 x00 x00 x00 x80 x3f)) E)
(T (W x00 x00 x00 x00 x01 x00 x00 x00)
(L (W x45 x26 x22 x84 xe4 x9c xf2 xcb)) E)))))
(T (W xcd xe8 x86 x67 x2b x06 xf1 x8e)
(T (W x45 x26 x22 x84 xe4 x9c xf2 xcb)
(T (W x00 x00 x00 x00 x01 x00 x00 x00)
(T (W x22 x1b xfd xff x00 x00 x80 x3f)
(T (W x01 x00 x00 x00 x04 x00 x00 x00)
(L (W x45 x26 x22 x84 xe4 x9c xf2 xcb))
(L (W x45 x26 x22 x84 xe4 x9c xf2 xcb)))
(T (W x00 x00 x00 x00 xa8 x1b xfe xff)
(L (W x54 x00 x00 x00 x48 x00 x00 x00)) E))
(T (W x85 xbb x61 x44 x00 x00 x00 x00)
(T (W x00 x00 x00 x00 x00 x00 x00 x00)
(L (W x00 x00 x00 x00 x01 x00 x00 x00))
(L (W x00 x00 x00 x00 x00 x00 x00 x00)))
(T (W x04 x00 x00 x00 x00 x00 x00 x00)
(L (W x45 x26 x22 x84 xe4 x9c xf2 xcb)) E)))
(T (W x9a xdf xff xff x00 x00 x00 x01)
(T (W x00 x00 x00 x00 x00 x00 x00 x00)
(T (W x00 x00 x80 xbf x9c x00 x00 x00)
(L (W x45 x26 x22 x84 xe4 x9c xf2 xcb))
(L (W x1c x01 x00 x00 x01 x00 x00 x00)))
(T (W xa4 x3b xfe xff x26 x3b xfe xff)
(L (W x00 x00 x00 x00 x00 x00 x00 x00)) E))
(T (W x04 x00 x00 x00 xe2 x80 xfd xff)
(T (W x01 x00 x00 x00 x01 x00 x00 x00)
(L (W x04 x00 x00 x00 xc8 xfd xfe xff))
(L (W xa4 xfb xff xff x00 x00 x00 x00)))
(T (W xa4 x7b xfe xff x26 x7b xfe xff)
(L (W x00 x00 x80 x3f x00 x00 x80 x3f)) E))))
(T (W x34 x34 x00 x00 x1b x00 x00 x00)
(T (W x00 x00 x00 x00 x00 x00 x00 x00)
(T (W x5f x55 x4e x4e x4e x5f x47 x45)
(T (W x04 x00 x00 x00 x00 x00 x00 x00)
(L (W x00 x00 x00 x00 x00 x00 x00 x00))
(L (W x00 x00 x00 x00 x01 x00 x00 x00)))
(T (W x04 x00 x00 x00 x00 x00 x00 x00)
(L (W x00 x00 x80 xbf x00 x00 x80 xbf)) E))
(T (W x00 x00 x00 x00 x00 x00 x00 x00)
(T (W x54 x00 x00 x00 x48 x00 x00 x00)
(L (W x9a x99 x94 x43 x00 x00 x00 x00))
(L (W x3c x01 x00 x00 x30 x01 x00 x00)))
(T (W x00 x00 x00 x00 x00 x00 x00 x00)
(L (W x00 x00 x80 x3f x02 x00 x00 x00)) E)))
(T (W xa4 x0b xfd xff x00 x00 x00 x00)
(T (W x00 x00 x00 x00 xa8 x4b xfd xff)
(T (W x04 x00 x00 x00 xc8 xcd xfd xff)
(L (W x01 x00 x00 x00 x04 x00 x00 x00))
(L (W x74 x00 x00 x00 x68 x00 x00 x00)))
(T (W x00 x00 x00 x00 xa8 x4b xfe xff)
(L (W x00 x00 x00 x00 xa8 x4b xff xff)) E))
(T (W x00 x00 x00 x00 x00 x00 x00 x00)
(T (W xa4 x0b xfe xff x00 x00 x00 x00)
(L (W x44 x00 x00 x00 x38 x00 x00 x00)) E)
(T (W x45 x26 x22 x84 xe4 x9c xf2 xcb)
(L (W x19 xd6 xac x28 xbf xd0 x59 x6a)) E))))))
(T (W xa4 x50 x8c x43 x1f x85 xbd x42)
(T (W x00 x00 xe0 x40 x24 x01 x00 x00)
(T (W x01 x00 x00 x00 x04 x00 x00 x00)
(T (W x34 x00 x00 x00 x20 x00 x00 x00)
(T (W x78 x00 x00 x00 x6c x00 x00 x00)
(T (W x45 x26 x22 x84 xe4 x9c xf2 xcb)
(L (W x00 x00 x00 x00 x6a x9f xfe xff))
(L (W xbe x69 x0e x0c x1e x02 xaa xc0)))
(T (W x04 x00 x00 x00 x00 x00 x00 x00)
(L (W x34 x00 x00 x00 x20 x00 x00 x00)) E))
(T (W x78 x00 x00 x00 x6c x00 x00 x00)
(T (W x01 x00 x00 x00 x04 x00 x00 x00)
(L (W x00 x00 x00 x00 x00 x00 x00 x00))
(L (W x45 x26 x22 x84 xe4 x9c xf2 xcb)))
(T (W x00 x00 x40 x40 x24 x01 x00 x00)
(L (W x8d x43 x45 xe3 x48 xbe x28 x26)) E)))
(T (W x00 x00 x00 x00 x00 x00 x00 x00)
(T (W x2c x00 x00 x00 x20 x00 x00 x00)
(T (W x00 x00 x80 x3f x00 x00 x80 x3f)
(L (W x45 x26 x22 x84 xe4 x9c xf2 xcb))
(L (W x45 x26 x22 x84 xe4 x9c xf2 xcb)))
(T (W x00 x00 x00 x00 x00 x00 x00 x00)
(L (W x44 x00 x00 x00 x38 x00 x00 x00)) E))
(T (W x00 x00 x00 x00 x6a x7f xfd xff)
(T (W x9a x89 x35 x44 x00 x00 x00 x00)
(L (W x45 x26 x22 x84 xe4 x9c xf2 xcb))
(L (W x00 x00 x00 x00 xa8 xf7 xff xff)))
(T (W x00 x00 x00 x00 x01 x00 x00 x00)
(L (W x00 x00 x00 x00 x00 x00 x00 x00)) E))))
(T (W xa4 xc7 xfc xff x26 xc7 xfc xff)
(T (W x45 x26 x22 x84 xe4 x9c xf2 xcb)
(T (W x00 x00 x00 x00 x00 x00 x00 x00)
(T (W x00 x00 x00 x00 x00 x00 x00 x00)
(L (W x44 x00 x00 x00 x30 x00 x00 x00))
(L (W x00 x00 x00 x00 x00 x00 x00 x00)))
(T (W x00 x00 x00 x00 x00 x00 x00 x00)
(L (W x66 x46 x0f x44 x33 x33 x29 x42)) E))
(T (W x01 x00 x00 x00 x04 x00 x00 x00)
(T (W x00 x00 x80 xbf x00 x00 x80 xbf)
(L (W x55 x39 x81 x6a xc4 xc7 x74 x14))
(L (W x00 x00 x00 x00 x1c x00 x00 x00)))
(T (W x74 x00 x00 x00 x68 x00 x00 x00)
(L (W x00 x00 x00 x00 x02 x00 x00 x00)) E)))
(T (W x45 x26 x22 x84 xe4 x9c xf2 xcb)
(T (W x00 x00 x00 x00 x01 x00 x00 x00)
(T (W x4c xca xfd xff x50 x00 x00 x00)
(L (W x54 x00 x00 x00 x48 x00 x00 x00))
(L (W x45 x26 x22 x84 xe4 x9c xf2 xcb)))
(T (W x00 x00 x00 x00 xa8 x47 xfe xff)
(L (W x68 x14 x64 xcd xd4 x4e xf6 x03)) E))
(T (W x00 x00 x00 x00 x26 x87 xfd xff)
(T (W x00 x00 x00 x00 x00 x00 x00 x00)
(L (W x45 x26 x22 x84 xe4 x9c xf2 xcb)) E)
(T (W x45 x26 x22 x84 xe4 x9c xf2 xcb)
(L (W x40 x00 x00 x00 x38 x00 x00 x00)) E)))))
(T (W x04 x00 x00 x00 xe2 xb4 xfc xff)
(T (W x00 x00 x00 x00 xa8 xbf xfc xff)
(T (W x45 x26 x22 x84 xe4 x9c xf2 xcb)
(T (W x45 x26 x22 x84 xe4 x9c xf2 xcb)
(T (W x00 x00 x00 x00 x01 x00 x00 x00)
(L (W xa4 x9f xfe xff x00 x00 x00 x00))
(L (W x45 x26 x22 x84 xe4 x9c xf2 xcb)))
(T (W x00 x00 x00 x00 x00 x00 x00 x00)
(L (W x01 x00 x00 x00 x04 x00 x00 x00)) E))
(T (W x1c x01 x00 x00 x01 x00 x00 x00)
(T (W x74 x00 x00 x00 x68 x00 x00 x00)
(L (W x45 x26 x22 x84 xe4 x9c xf2 xcb))
(L (W x00 x00 x00 x00 x01 x00 x00 x00)))
(T (W x45 x26 x22 x84 xe4 x9c xf2 xcb)
(L (W x44 x00 x00 x00 x38 x00 x00 x00)) E)))
(T (W x00 x00 x80 xbf x9c x00 x00 x00)
(T (W x28 x00 x00 x00 x14 x00 x00 x00)
(T (W x04 x00 x00 x00 x00 x00 x00 x00)
(L (W x44 x00 x00 x00 x30 x00 x00 x00))
(L (W x04 x00 x00 x00 xe2 xc4 xff xff)))
(T (W x45 x41 x30 x32 x5f x30 x31 x37)
(L (W x45 x26 x22 x84 xe4 x9c xf2 xcb)) E))
(T (W x44 x00 x00 x00 x38 x00 x00 x00)
(T (W x45 x26 x22 x84 xe4 x9c xf2 xcb)
(L (W x00 x00 x00 x00 x00 x00 x00 x00))
(L (W x14 x00 x00 x00 x4c x00 x00 x00)))
(T (W x1c x01 x00 x00 x01 x00 x00 x00)
(L (W x00 x00 xa0 x40 x24 x01 x00 x00)) E))))
(T (W x02 x00 x00 x00 x34 x32 x00 x00)
(T (W x60 x00 x00 x00 x54 x00 x00 x00)
(T (W x45 x26 x22 x84 xe4 x9c xf2 xcb)
(T (W x01 x00 x00 x00 x04 x00 x00 x00)
(L (W x34 x00 x00 x00 x20 x00 x00 x00))
(L (W x01 x00 x00 x00 x04 x00 x00 x00)))
(T (W x45 x26 x22 x84 xe4 x9c xf2 xcb)
(L (W x04 x00 x00 x00 x00 x00 x00 x00)) E))
(T (W x04 x00 x00 x00 x90 x6f xfd xff)
(T (W x2c x00 x00 x00 x20 x00 x00 x00)
(L (W xa4 x90 x83 xf3 x1d x37 x57 x95))
(L (W x54 x00 x00 x00 x48 x00 x00 x00)))
(T (W x00 x00 x00 x00 x01 x00 x00 x00)
(L (W x04 x00 x00 x00 xe2 x74 xff xff)) E)))
(T (W x5e xd0 x36 x97 x85 x2c x63 x5f)
(T (W x00 x00 x00 x00 x00 x00 x00 x00)
(T (W x00 x00 x00 x00 x00 x00 x00 x00)
(L (W x00 x00 x00 x00 x01 x00 x00 x00))
(L (W x33 x00 x00 x00 x1b x00 x00 x00)))
(T (W x00 x00 x00 x00 x00 x00 x00 x00)
(L (W x00 x00 x00 x00 x00 x00 x00 x00)) E))
(T (W x1c x01 x00 x00 x01 x00 x00 x00)
(T (W x22 x0f xfe xff x00 xe0 x4a x44)
(L (W xa4 x0f xff xff x00 x00 x00 x00)) E)
(T (W x04 x00 x00 x00 xc8 x91 xfe xff)
(L (W x44 x00 x00 x00 x30 x00 x00 x00)) E))))))))
(T (W xec xb9 x01 x00 x20 xb8 x01 x00)
(T (W xa4 xcc x00 x00 xb4 xca x00 x00)
(T (W x00 x00 x00 x00 x01 x00 x00 x00)
(T (W x00 x00 x00 x00 xa8 xa2 xfc xff)
(T (W x00 x00 x80 x3f x00 x00 x80 x3f)
(T (W xa7 x71 x2e x97 x85 x26 x59 x5f)
(T (W x04 x00 x00 x00 x00 x00 x80 x3f)
(T (W x00 x00 x00 x00 xa8 x92 xfd xff)
(L (W x00 x00 x00 x00 xa8 x92 xfe xff))
(L (W x00 x00 x00 x00 xa8 x92 xff xff)))
(T (W x45 x26 x22 x84 xe4 x9c xf2 xcb)
(L (W x45 x26 x22 x84 xe4 x9c xf2 xcb)) E))
(T (W x34 x00 x00 x00 x20 x00 x00 x00)
(T (W x00 x00 x00 x00 x00 x00 x00 x00)
(L (W x45 x26 x22 x84 xe4 x9c xf2 xcb))
(L (W x00 x00 x00 x00 x00 x00 x00 x00)))
(T (W x00 x00 x00 x00 x01 x00 x00 x00)
(L (W x45 x26 x22 x84 xe4 x9c xf2 xcb)) E)))
(T (W x45 x26 x22 x84 xe4 x9c xf2 xcb)
(T (W x22 x32 xfd xff x00 x00 x80 x3f)
(T (W x44 x14 x7a x1e x15 x35 x03 x15)
(L (W x72 xeb x22 x37 x6d xc8 x9b xc2))
(L (W x34 x00 x00 x00 x20 x00 x00 x00)))
(T (W x00 x00 x00 x00 x00 x00 x00 x00)
(L (W x45 x26 x22 x84 xe4 x9c xf2 xcb)) E))
(T (W x54 x00 x00 x00 x48 x00 x00 x00)
(T (W x00 x00 x00 x00 x01 x00 x00 x00)
(L (W x45 x26 x22 x84 xe4 x9c xf2 xcb))
(L (W x00 x00 x00 x00 x00 x00 x00 x00)))
(T (W xe1 xfa x26 x43 x00 x00 x00 x00)
(L (W x66 x66 x16 x42 x33 x53 x44 x44)) E))))
(T (W x04 x00 x00 x00 x00 x00 x00 x00)
(T (W x00 x00 x00 x00 x00 x00 x00 x00)
(T (W x04 x00 x00 x00 xe2 x27 xfd xff)
(T (W x45 x26 x22 x84 xe4 x9c xf2 xcb)
(L (W x00 x00 x80 x40 x24 x01 x00 x00))
(L (W x45 x26 x22 x84 xe4 x9c xf2 xcb)))
(T (W x4c x5b x4d x16 xaa xcd xcd x0f)
(L (W x00 x00 x80 xbf x00 x00 x80 xbf)) E))
(T (W x04 x00 x00 x00 x90 x62 xfd xff)
(T (W xa4 xe2 xfd xff x00 x00 x00 x00)
(L (W x01 x00 x00 x00 x00 x00 x80 x3f))
(L (W x04 x00 x00 x00 xe2 xe7 xff xff)))
(T (W x00 x00 x00 x00 x00 x00 x00 x00)
(L (W x47 x96 xc0 x16 xc7 x11 xcf x79)) E)))
(T (W x04 x00 x00 x00 x90 x02 xfd xff)
(T (W x4c x45 xfd xff x50 x00 x00 x00)
(T (W x55 x6c xfc xf1 x99 x9e xc9 x88)
(L (W x01 x00 x00 x00 x04 x00 x00 x00))
(L (W xa4 xc2 xff xff x26 xc2 xff xff)))
(T (W x00 x00 x00 x00 xa8 x42 xfe xff)
(L (W x44 x00 x00 x00 x38 x00 x00 x00)) E))
(T (W x45 x26 x22 x84 xe4 x9c xf2 xcb)
(T (W x00 x00 x00 x00 x00 x00 x00 x00)
(L (W x2c x00 x00 x00 x20 x00 x00 x00)) E)
(T (W x78 x00 x00 x00 x6c x00 x00 x00)
(L (W x00 x00 x00 x00 xa8 x82 xff xff)) E)))))
(T (W x00 x00 x00 x00 x00 x00 x00 x00)
(T (W x9a x9e xff xff x00 x00 x00 x01)
(T (W x78 x00 x00 x00 x6c x00 x00 x00)
(T (W x40 x00 x00 x00 x38 x00 x00 x00)
(T (W x00 x00 x00 x00 x00 x00 x00 x00)
(L (W x00 x00 x00 x00 x00 x00 x00 x00))
(L (W x45 x26 x22 x84 xe4 x9c xf2 xcb)))
(T (W xa4 x1a xfe xff x26 x1a xfe xff)
(L (W x5c x00 x00 x00 x50 x00 x00 x00)) E))
(T (W x45 x26 x22 x84 xe4 x9c xf2 xcb)
(T (W x01 x00 x00 x00 x00 x00 x80 x3f)
(L (W x00 x00 x00 x00 x00 x00 x00 x00))
(L (W x00 x00 xc0 x40 x24 x01 x00 x00)))
(T (W x00 x00 x00 x00 x00 x00 x00 x00)
(L (W x5c x00 x00 x00 x50 x00 x00 x00)) E)))
(T (W x2c x00 x00 x00 x20 x00 x00 x00)
(T (W x01 x00 x00 x00 x01 x00 x00 x00)
(T (W x45 x26 x22 x84 xe4 x9c xf2 xcb)
(L (W x00 x00 x00 x00 x00 x00 x00 x00))
(L (W x44 x00 x00 x00 x38 x00 x00 x00)))
(T (W x45 x26 x22 x84 xe4 x9c xf2 xcb)
(L (W x1c x01 x00 x00 x01 x00 x00 x00)) E))
(T (W xa4 x7a xfd xff x00 x00 x00 x00)
(T (W x2c x00 x00 x00 x20 x00 x00 x00)
(L (W xdd x90 x76 x01 xdf xb3 xef x18))
(L (W x45 x26 x22 x84 xe4 x9c xf2 xcb)))
(T (W x45 x26 x22 x84 xe4 x9c xf2 xcb)
(L (W x45 x26 x22 x84 xe4 x9c xf2 xcb)) E))))
(T (W xa4 xca xfc xff x00 x00 x00 x00)
(T (W x00 x00 x80 xbf x00 x00 x80 xbf)
(T (W x28 x00 x00 x00 x1c x00 x00 x00)
(T (W x00 x00 x00 x00 x00 x00 x00 x00)
(L (W x00 x00 x00 x00 xa8 xaa xfe xff))
(L (W x00 x00 x00 x00 xa8 xaa xff xff)))
(T (W x00 x00 x00 x00 x00 x00 x00 x00)
(L (W x20 x39 x45 xdc x00 xd4 x55 x2f)) E))
(T (W x01 x00 x00 x00 x01 x00 x00 x00)
(T (W x00 x00 x00 x00 x01 x00 x00 x00)
(L (W x45 x26 x22 x84 xe4 x9c xf2 xcb))
(L (W xc9 x49 x69 x12 x83 x6e x37 xc6)))
(T (W xa4 x6a xfe xff x00 x00 x00 x00)
(L (W x00 x00 x00 x00 x00 x00 x00 x00)) E)))
(T (W x00 x00 x00 x00 x00 x00 x00 x00)
(T (W xa4 x4a xfd xff x26 x4a xfd xff)
(T (W xfa x10 xb6 xd1 xe0 x4a x44 x49)
(L (W x00 x00 x00 x00 x00 x00 x00 x00))
(L (W x45 x26 x22 x84 xe4 x9c xf2 xcb)))
(T (W x00 x00 x00 x00 x00 x00 x00 x00)
(L (W x22 x4a xff xff x00 x00 x80 x3f)) E))
(T (W x45 x26 x22 x84 xe4 x9c xf2 xcb)
(T (W x34 x00 x00 x00 x20 x00 x00 x00)
(L (W x00 x00 x00 x00 x00 x00 x00 x00)) E)
(T (W x00 x00 x00 x00 x00 x00 x00 x00)
(L (W x00 x00 x00 x00 x00 x00 x00 x00)) E))))))
(T (W x45 x26 x22 x84 xe4 x9c xf2 xcb)
(T (W x45 x26 x22 x84 xe4 x9c xf2 xcb)
(T (W x00 x00 x00 x00 x00 x00 x00 x00)
(T (W x00 x00 x00 x00 x00 x00 x00 x00)
(T (W x45 x26 x22 x84 xe4 x9c xf2 xcb)
(T (W x22 x96 xfd xff x00 x00 x80 x3f)
(L (W x2c x00 x00 x00 x20 x00 x00 x00))
(L (W x00 x00 x00 x00 x00 x00 x00 x00)))
(T (W x04 x00 x00 x00 xc8 x18 xfe xff)
(L (W x45 x26 x22 x84 xe4 x9c xf2 xcb)) E))
(T (W x15 xe3 x1b x72 x9d x0f xa7 xbe)
(T (W x00 x60 x3a x44 x66 x66 x14 x42)
(L (W x00 x00 x00 x00 xa8 xd6 xfe xff))
(L (W x00 x00 x80 x3f x00 x00 x80 x3f)))
(T (W x4c x59 xfe xff x50 x00 x00 x00)
(L (W x00 x00 x00 x00 x00 x00 x00 x00)) E)))
(T (W x00 x00 x00 x00 xa8 xf6 xfc xff)
(T (W x5f x4f x55 x54 x42 x52 x45 x41)
(T (W x45 x26 x22 x84 xe4 x9c xf2 xcb)
(L (W x00 x00 x00 x00 x26 xb6 xfe xff))
(L (W x04 x00 x00 x00 xe2 xbb xff xff)))
(T (W x01 x00 x00 x00 x00 x00 x80 x3f)
(L (W x1c x00 x00 x00 x46 x53 x59 x53)) E))
(T (W x00 x00 x00 x00 xa8 x76 xfd xff)
(T (W x45 x26 x22 x84 xe4 x9c xf2 xcb)
(L (W x45 x41 x30 x32 x5f x30 x32 x31))
(L (W x00 x00 x80 xbf x9c x00 x00 x00)))
(T (W x14 x3a x76 x2c x15 xa8 x22 x2e)
(L (W x00 x00 x80 x3f x02 x00 x00 x00)) E))))
(T (W x45 x26 x22 x84 xe4 x9c xf2 xcb)
(T (W x5f x41 x52 x45 x41 x30 x32 x00)
(T (W x45 x26 x22 x84 xe4 x9c xf2 xcb)
(T (W x00 x00 x00 x00 xa8 xa6 xfd xff)
(L (W x04 x00 x00 x00 x00 x00 x00 x00))
(L (W xa4 xa6 xff xff x00 x00 x00 x00)))
(T (W x00 x00 x00 x00 xa8 x26 xfe xff)
(L (W x45 x26 x22 x84 xe4 x9c xf2 xcb)) E))
(T (W x66 x66 xf5 x43 x00 x00 x18 x42)
(T (W x00 x00 x00 x00 x00 x00 x00 x00)
(L (W x04 x00 x00 x00 xe2 xeb xfe xff))
(L (W xa4 xe6 xff xff x00 x00 x00 x00)))
(T (W x45 x26 x22 x84 xe4 x9c xf2 xcb)
(L (W x45 x26 x22 x84 xe4 x9c xf2 xcb)) E)))
(T (W x4f x84 x6f x8b xe8 xcb x63 xb7)
(T (W x00 x00 x00 x00 x01 x00 x00 x00)
(T (W x00 x00 x00 x00 x00 x00 x00 x00)
(L (W x00 x00 x00 x00 x01 x00 x00 x00))
(L (W x45 x41 x30 x32 x5f x30 x30 x32)))
(T (W x22 x46 xfe xff x00 x00 x80 x3f)
(L (W x00 x00 x00 x00 xa8 x46 xff xff)) E))
(T (W x40 x00 x00 x00 x38 x00 x00 x00)
(T (W x3c x01 x00 x00 x30 x01 x00 x00)
(L (W x5c x00 x00 x00 x50 x00 x00 x00)) E)
(T (W x28 x00 x00 x00 x14 x00 x00 x00)
(L (W x2c x00 x00 x00 x18 x00 x00 x00)) E)))))
(T (W x5c x00 x00 x00 x50 x00 x00 x00)
(T (W x00 x00 x80 xbf x9c x00 x00 x00)
(T (W x00 x00 x00 x00 x26 xde xfc xff)
(T (W x54 x00 x00 x00 x48 x00 x00 x00)
(T (W x42 xa6 x71 x1e x15 x26 xf9 x14)
(L (W x00 x00 x80 x3f x00 x00 x80 x3f))
(L (W x00 x00 x00 x00 x6a xa6 xff xff)))
(T (W x1c x01 x00 x00 x01 x00 x00 x00)
(L (W x9a xf9 x19 x44 x70 x42 x84 x42)) E))
(T (W x00 x00 x00 x00 x00 x00 x00 x00)
(T (W x45 x26 x22 x84 xe4 x9c xf2 xcb)
(L (W xa4 xde xfe xff x26 xde xfe xff))
(L (W x42 x1c x4e x80 xba xbd x0f x07)))
(T (W x55 x6c xfc xf1 x99 x9e xc9 x88)
(L (W x00 x00 x00 x00 x00 x00 x00 x00)) E)))
(T (W x00 x00 x00 x00 x00 x00 x00 x00)
(T (W x00 x00 x00 x00 x01 x00 x00 x00)
(T (W x04 x00 x00 x00 xc8 xc0 xfd xff)
(L (W x04 x00 x00 x00 x00 x00 x00 x00))
(L (W x74 x00 x00 x00 x68 x00 x00 x00)))
(T (W x44 x00 x00 x00 x38 x00 x00 x00)
(L (W x04 x00 x00 x00 xe2 x43 xff xff)) E))
(T (W x00 x00 x00 x00 x00 x00 x00 x00)
(T (W x74 x00 x00 x00 x68 x00 x00 x00)
(L (W x00 x00 x00 x00 xa8 xfe xfe xff))
(L (W x34 x00 x38 x00 x32 x00 x00 x00)))
(T (W x45 x26 x22 x84 xe4 x9c xf2 xcb)
(L (W x4c x81 xff xff x50 x00 x00 x00)) E))))
(T (W xa4 xce xfc xff x00 x00 x00 x00)
(T (W x00 x00 x00 x00 x01 x00 x00 x00)
(T (W x00 x00 x00 x00 x00 x00 x00 x00)
(T (W xae xd7 x37 x44 x71 x3d x0d x42)
(L (W x00 x00 x00 x00 x00 x00 x00 x00))
(L (W x9a x99 x21 x42 xcd x4c x1a x44)))
(T (W x28 x00 x00 x00 x14 x00 x00 x00)
(L (W x00 x00 x00 x00 x01 x00 x00 x00)) E))
(T (W x10 x26 x07 xef xc4 x7f xae x33)
(T (W x00 x00 x00 x00 x00 x00 x00 x00)
(L (W x00 x00 x00 x00 x00 x00 x00 x00))
(L (W x00 x00 x00 x00 x01 x00 x00 x00)))
(T (W x00 x00 x00 x00 xa8 x6e xfe xff)
(L (W x60 x00 x00 x00 x54 x00 x00 x00)) E)))
(T (W x4e x45 x52 x41 x54 x49 x4f x4e)
(T (W x1c x01 x00 x00 x01 x00 x00 x00)
(T (W x00 x00 x00 x00 xa8 xce xfd xff)
(L (W x6f x92 x89 xf3 x1d x26 x5e x95))
(L (W xa4 xce xff xff x00 x00 x00 x00)))
(T (W x1c x01 x00 x00 x01 x00 x00 x00)
(L (W x00 x00 x80 xbf x00 x00 x80 xbf)) E))
(T (W x44 x00 x00 x00 x38 x00 x00 x00)
(T (W x45 x26 x22 x84 xe4 x9c xf2 xcb)
(L (W x34 x00 x00 x00 x20 x00 x00 x00)) E)
(T (W xdb x30 x93 x33 x9a x33 x5c xfc)
(L (W x04 x00 x00 x00 x00 x00 x00 x00)) E)))))))
(T (W x45 x26 x22 x84 xe4 x9c xf2 xcb)
(T (W x40 x00 x00 x00 x38 x00 x00 x00)
(T (W x44 x00 x00 x00 x38 x00 x00 x00)
(T (W x9a x19 xfd x43 x00 x00 x00 x00)
(T (W x00 x00 x00 x00 x00 x00 x00 x00)
(T (W x34 x00 x00 x00 x20 x00 x00 x00)
(T (W x04 x00 x00 x00 xc8 x96 xfd xff)
(L (W x01 x00 x00 x00 x04 x00 x00 x00))
(L (W x01 x00 x00 x00 x04 x00 x00 x00)))
(T (W x00 x00 x00 x00 xa8 x14 xfe xff)
(L (W x00 x00 x00 x00 xa8 x14 xff xff)) E))
(T (W x34 x00 x00 x00 x20 x00 x00 x00)
(T (W x44 x00 x00 x00 x30 x00 x00 x00)
(L (W x45 x26 x22 x84 xe4 x9c xf2 xcb))
(L (W x74 x00 x00 x00 x68 x00 x00 x00)))
(T (W x45 x26 x22 x84 xe4 x9c xf2 xcb)
(L (W x01 x00 x00 x00 x04 x00 x00 x00)) E)))
(T (W x45 x26 x22 x84 xe4 x9c xf2 xcb)
(T (W x00 x00 x00 x00 x00 x00 x00 x00)
(T (W x04 x00 x00 x00 xe2 xb9 xfd xff)
(L (W x55 x6c xfc xf1 x99 x9e xc9 x88))
(L (W x04 x00 x00 x00 xe2 xb9 xff xff)))
(T (W x5f x4e x45 x57 x5f x4f x55 x54)
(L (W x00 x00 x00 x00 x00 x00 x00 x00)) E))
(T (W x45 x26 x22 x84 xe4 x9c xf2 xcb)
(T (W x45 x26 x22 x84 xe4 x9c xf2 xcb)
(L (W x00 x00 x00 x00 x00 x00 x00 x00))
(L (W x00 x00 x00 x00 x00 x00 x00 x00)))
(T (W x3c x01 x00 x00 x30 x01 x00 x00)
(L (W x3c x01 x00 x00 x30 x01 x00 x00)) E))))
(T (W x54 x00 x00 x00 x48 x00 x00 x00)
(T (W x1b x00 x00 x00 x57 x53 x59 x53)
(T (W x45 x26 x22 x84 xe4 x9c xf2 xcb)
(T (W x45 x26 x22 x84 xe4 x9c xf2 xcb)
(L (W xd2 x12 xe8 xcf x22 x04 xd1 xf2))
(L (W x45 x26 x22 x84 xe4 x9c xf2 xcb)))
(T (W x40 x00 x00 x00 x38 x00 x00 x00)
(L (W x04 x00 x00 x00 x00 x00 x00 x00)) E))
(T (W x44 x00 x00 x00 x30 x00 x00 x00)
(T (W x4c xe7 xfd xff x50 x00 x00 x00)
(L (W x00 x00 x00 x00 x01 x00 x00 x00))
(L (W x45 x26 x22 x84 xe4 x9c xf2 xcb)))
(T (W x1c x01 x00 x00 x01 x00 x00 x00)
(L (W x54 x00 x00 x00 x48 x00 x00 x00)) E)))
(T (W x48 x00 x00 x00 x34 x00 x00 x00)
(T (W x00 x00 x00 x00 x00 x00 x00 x00)
(T (W x00 x00 x80 x3f xa8 xc4 xfd xff)
(L (W x00 x00 x00 x00 x00 x00 x00 x00))
(L (W x1c x00 x00 x00 x46 x53 x59 x53)))
(T (W x04 x00 x00 x00 xc8 x46 xfe xff)
(L (W x45 x26 x22 x84 xe4 x9c xf2 xcb)) E))
(T (W x00 x00 x00 x00 x01 x00 x00 x00)
(T (W x42 x52 x45 x41 x4b x5f x41 x52)
(L (W x00 x00 x00 x00 x00 x00 x00 x00)) E)
(T (W x2c x00 x00 x00 x18 x00 x00 x00)
(L (W x78 x00 x00 x00 x6c x00 x00 x00)) E)))))
(T (W x00 x00 x00 x00 x01 x00 x00 x00)
(T (W x1c x01 x00 x00 x04 x00 x00 x00)
(T (W x2c x00 x00 x00 x18 x00 x00 x00)
(T (W x00 x00 x00 x00 x01 x00 x00 x00)
(T (W x3c x01 x00 x00 x30 x01 x00 x00)
(L (W x74 x00 x00 x00 x68 x00 x00 x00))
(L (W x00 x00 x00 x00 x00 x00 x00 x00)))
(T (W x1c x00 x00 x00 x46 x53 x59 x53)
(L (W x55 x6c xfc xf1 x99 x9e xc9 x88)) E))
(T (W x4c x5f xfd xff x50 x00 x00 x00)
(T (W x34 x00 x00 x00 x20 x00 x00 x00)
(L (W x5c x00 x00 x00 x50 x00 x00 x00))
(L (W x00 x00 xc8 x41 x24 x01 x00 x00)))
(T (W x48 x00 x00 x00 x34 x00 x00 x00)
(L (W x00 x00 x80 x3f xa8 x5c xff xff)) E)))
(T (W x45 x26 x22 x84 xe4 x9c xf2 xcb)
(T (W x00 x00 x80 xbf x9c x00 x00 x00)
(T (W x00 x00 x00 x00 xa8 xbc xfd xff)
(L (W x00 x00 x80 xbf x00 x00 x80 xbf))
(L (W x00 x00 x00 x00 x00 x00 x00 x00)))
(T (W x00 x00 x00 x00 xa8 x3c xfe xff)
(L (W x45 x26 x22 x84 xe4 x9c xf2 xcb)) E))
(T (W x45 x26 x22 x84 xe4 x9c xf2 xcb)
(T (W x00 x00 x00 x00 x00 x00 x00 x00)
(L (W x40 x00 x00 x00 x38 x00 x00 x00))
(L (W x00 x00 x80 x3f x01 x00 x00 x00)))
(T (W x00 x00 x00 x00 xa8 x7c xfe xff)
(L (W xa4 x7c xff xff x00 x00 x00 x00)) E))))
(T (W x45 x26 x22 x84 xe4 x9c xf2 xcb)
(T (W x7d x5a xb7 x4b xbc xb9 xfd xea)
(T (W x6a xc0 x1c x76 x80 xbe xf7 x18)
(T (W x44 x00 x00 x00 x30 x00 x00 x00)
(L (W xb9 x86 xa7 x28 xbf x4a x53 x6a))
(L (W x28 x00 x00 x00 x14 x00 x00 x00)))
(T (W x04 x00 x00 x00 xc8 x2e xfe xff)
(L (W x00 x00 x00 x00 x00 x00 x00 x00)) E))
(T (W x00 x00 x80 xbf x9c x00 x00 x00)
(T (W x45 x26 x22 x84 xe4 x9c xf2 xcb)
(L (W x4c xef xfe xff x50 x00 x00 x00))
(L (W x00 x00 x00 x00 x00 x00 x00 x00)))
(T (W x45 x26 x22 x84 xe4 x9c xf2 xcb)
(L (W x00 x00 x00 x00 x00 x00 x00 x00)) E)))
(T (W x02 x00 x00 x00 x31 x30 x00 x00)
(T (W x00 x00 x00 x00 x6a x54 xfd xff)
(T (W x40 x00 x00 x00 x38 x00 x00 x00)
(L (W x3c x01 x00 x00 x30 x01 x00 x00))
(L (W x45 x26 x22 x84 xe4 x9c xf2 xcb)))
(T (W x1c x00 x00 x00 x46 x53 x59 x53)
(L (W x00 x00 x00 x00 x00 x00 x00 x00)) E))
(T (W x00 x00 x00 x00 xa8 x8c xfd xff)
(T (W x00 x00 x00 x00 x01 x00 x00 x00)
(L (W x41 x30 x32 x00 x6a x14 xff xff)) E)
(T (W x00 x00 x80 xbf x9c x00 x00 x00)
(L (W x00 x00 x80 xbf x00 x00 x80 xbf)) E))))))
(T (W x45 x26 x22 x84 xe4 x9c xf2 xcb)
(T (W x00 x00 x00 x00 x00 x00 x00 x00)
(T (W x5f x4f x55 x54 x42 x52 x45 x41)
(T (W xa4 xd8 xfc xff x00 x00 x00 x00)
(T (W x00 x00 x00 x00 x01 x00 x00 x00)
(T (W xe1 x7a x12 x42 xec xd1 x51 x44)
(L (W x45 x26 x22 x84 xe4 x9c xf2 xcb))
(L (W x00 x00 x00 x00 x01 x00 x00 x00)))
(T (W x48 x00 x00 x00 x34 x00 x00 x00)
(L (W xa4 x18 xff xff x00 x00 x00 x00)) E))
(T (W x00 x00 x00 x00 x01 x00 x00 x00)
(T (W x3c x01 x00 x00 x30 x01 x00 x00)
(L (W x45 x26 x22 x84 xe4 x9c xf2 xcb))
(L (W x52 xd8 xe5 x43 x00 x00 x00 x00)))
(T (W x00 x00 x00 x00 x00 x00 x00 x00)
(L (W x00 x00 x00 x00 x01 x00 x00 x00)) E)))
(T (W x01 x00 x00 x00 x04 x00 x00 x00)
(T (W x52 x3c xfd xff x40 x01 x00 x00)
(T (W xa4 xb8 xfd xff x00 x00 x00 x00)
(L (W x22 xb8 xfe xff x9a x59 xb9 x43))
(L (W x45 x26 x22 x84 xe4 x9c xf2 xcb)))
(T (W x00 x00 x00 x00 x01 x00 x00 x00)
(L (W x41 x30 x32 x00 x6a x40 xff xff)) E))
(T (W x45 x26 x22 x84 xe4 x9c xf2 xcb)
(T (W x00 x00 x00 x00 xa8 xf8 xfd xff)
(L (W x00 x00 x40 x40 x24 x01 x00 x00))
(L (W x34 x00 x00 x00 x20 x00 x00 x00)))
(T (W x00 x00 x00 x00 x01 x00 x00 x00)
(L (W x00 x00 x00 x00 x01 x00 x00 x00)) E))))
(T (W x45 x26 x22 x84 xe4 x9c xf2 xcb)
(T (W x00 x00 xc0 x40 x24 x01 x00 x00)
(T (W x14 x29 xfd xff x4c x00 x00 x00)
(T (W x8e x2d xc8 xc9 x03 x8b xa0 xbc)
(L (W x40 x00 x00 x00 x38 x00 x00 x00))
(L (W x45 x26 x22 x84 xe4 x9c xf2 xcb)))
(T (W xe4 x56 xbb x28 xbf xd8 x6a x6a)
(L (W x00 x00 x00 x00 xa8 x28 xff xff)) E))
(T (W x52 x6c xfd xff x40 x01 x00 x00)
(T (W x00 x00 x00 x00 x00 x00 x00 x00)
(L (W x45 x26 x22 x84 xe4 x9c xf2 xcb))
(L (W x4c xeb xff xff x50 x00 x00 x00)))
(T (W x45 x26 x22 x84 xe4 x9c xf2 xcb)
(L (W x01 x00 x00 x00 x04 x00 x00 x00)) E)))
(T (W x00 x00 x80 x3f xa8 x08 xfd xff)
(T (W x5c x00 x00 x00 x50 x00 x00 x00)
(T (W x00 x00 xa0 x40 x24 x01 x00 x00)
(L (W x45 x26 x22 x84 xe4 x9c xf2 xcb))
(L (W x00 x00 x80 xbf x9c x00 x00 x00)))
(T (W x33 x93 x16 x44 x00 x00 x00 x00)
(L (W x04 x00 x00 x00 xc8 x4a xff xff)) E))
(T (W x45 x26 x22 x84 xe4 x9c xf2 xcb)
(T (W x01 x00 x00 x00 x00 x00 x80 x3f)
(L (W xa4 x08 xff xff x26 x08 xff xff)) E)
(T (W x00 x00 x80 x3f x00 x00 x80 x3f)
(L (W x22 x88 xff xff x00 x00 x80 x3f)) E)))))
(T (W x49 xa1 x68 x4a xeb x5f xdd x3d)
(T (W xf9 x49 x7c x1a x27 x82 x25 x81)
(T (W x22 xe0 xfc xff x8f x72 x0f x44)
(T (W x04 x00 x00 x00 xe2 x25 xfd xff)
(T (W x04 x00 x00 x00 xe2 xa5 xfd xff)
(L (W x00 x00 x00 x00 x00 x00 x00 x00))
(L (W x1c x01 x00 x00 x01 x00 x00 x00)))
(T (W x00 x00 x80 xbf x9c x00 x00 x00)
(L (W x53 x5f x47 x41 x4e x45 x52 x41)) E))
(T (W x00 x00 x00 x00 x00 x00 x00 x00)
(T (W x45 x26 x22 x84 xe4 x9c xf2 xcb)
(L (W x00 x00 x00 x00 x00 x00 x00 x00))
(L (W x00 x00 x00 x00 x01 x00 x00 x00)))
(T (W x00 x00 x80 x3f xa8 x60 xfe xff)
(L (W x1c x01 x00 x00 x01 x00 x00 x00)) E)))
(T (W x00 x00 x00 x00 xa8 x00 xfd xff)
(T (W x45 x26 x22 x84 xe4 x9c xf2 xcb)
(T (W x44 x00 x00 x00 x30 x00 x00 x00)
(L (W x45 x26 x22 x84 xe4 x9c xf2 xcb))
(L (W x72 xeb x22 x37 x6d xc8 x9b xc2)))
(T (W x45 x26 x22 x84 xe4 x9c xf2 xcb)
(L (W x45 x26 x22 x84 xe4 x9c xf2 xcb)) E))
(T (W x1c x01 x00 x00 x01 x00 x00 x00)
(T (W x00 x00 x80 x3f x00 x00 x80 x3f)
(L (W x01 x00 x00 x00 x04 x00 x00 x00))
(L (W x00 x00 x00 x00 x00 x00 x00 x00)))
(T (W x00 x00 x00 x00 x00 x00 x00 x00)
(L (W x00 x00 x00 x00 x00 x00 x00 x00)) E))))
(T (W x4c xd3 xfc xff x50 x00 x00 x00)
(T (W x04 x00 x00 x00 xe2 xf5 xfc xff)
(T (W x78 x00 x00 x00 x6c x00 x00 x00)
(T (W x3c x01 x00 x00 x30 x01 x00 x00)
(L (W xa4 xb0 xfe xff x00 x00 x00 x00))
(L (W x42 xd4 xff xff x00 x00 x00 x01)))
(T (W x3d x0a x1d x42 x5c xcf x14 x44)
(L (W x48 x00 x00 x00 x34 x00 x00 x00)) E))
(T (W x04 x00 x00 x00 x00 x00 x00 x00)
(T (W x01 x00 x00 x00 x00 x00 x80 x3f)
(L (W x00 x00 x00 x00 x01 x00 x00 x00))
(L (W x45 x26 x22 x84 xe4 x9c xf2 xcb)))
(T (W x28 x00 x00 x00 x14 x00 x00 x00)
(L (W x45 x26 x22 x84 xe4 x9c xf2 xcb)) E)))
(T (W x3c x01 x00 x00 x30 x01 x00 x00)
(T (W x00 x00 x80 xbf x9c x00 x00 x00)
(T (W xcb x66 xca xc9 x03 x8d xa3 xbc)
(L (W x54 x00 x00 x00 x48 x00 x00 x00))
(L (W x44 x00 x00 x00 x38 x00 x00 x00)))
(T (W x45 x26 x22 x84 xe4 x9c xf2 xcb)
(L (W x04 x00 x00 x00 x00 x00 x00 x00)) E))
(T (W x00 x00 x00 x00 x00 x00 x00 x00)
(T (W x00 x00 x00 x00 xa8 x10 xfe xff)
(L (W x04 x00 x00 x00 xe2 x15 xff xff)) E)
(T (W x40 x00 x00 x00 x38 x00 x00 x00)
(L (W x45 x26 x22 x84 xe4 x9c xf2 xcb)) E)))))))))))
(T (W x8c x47 x03 x00 xc0 x45 x03 x00)
(T (W x0c x2a x03 x00 x40 x28 x03 x00)
(T (W x74 xef x02 x00 x90 xed x02 x00)
(T (W xa4 x79 x02 x00 xc0 x77 x02 x00)
(T (W x5c x8d x01 x00 x70 x8b x01 x00)
(T (W x45 x26 x22 x84 xe4 x9c xf2 xcb)
(T (W x00 x00 x00 x00 x00 x00 x00 x00)
(T (W x5f x4f x55 x54 x42 x52 x45 x41)
(T (W x04 xd1 xfc xff x00 x00 x00 x00)
(T (W x00 x00 x00 x00 x01 x00 x00 x00)
(T (W x55 x6c xfc xf1 x99 x9e xc9 x88)
(L (W x44 x00 x00 x00 x38 x00 x00 x00))
(L (W x45 x26 x22 x84 xe4 x9c xf2 xcb)))
(T (W x00 x00 x00 x00 x00 x00 x00 x00)
(L (W x01 x00 x00 x00 x04 x00 x00 x00)) E))
(T (W x45 x26 x22 x84 xe4 x9c xf2 xcb)
(T (W x74 x00 x00 x00 x68 x00 x00 x00)
(L (W xac xd3 xfe xff x50 x00 x00 x00))
(L (W x00 x00 x00 x00 x01 x00 x00 x00)))
(T (W x45 x26 x22 x84 xe4 x9c xf2 xcb)
(L (W x04 x51 xff xff x00 x00 x00 x00)) E)))
(T (W x01 x00 x00 x00 x04 x00 x00 x00)
(T (W x00 x00 x00 x00 x00 x00 x00 x00)
(T (W x00 x00 x00 x00 x01 x00 x00 x00)
(L (W x66 xa6 xad x43 x33 x33 xda x42))
(L (W x04 x00 x00 x00 x00 x00 x00 x00)))
(T (W x1c x01 x00 x00 x01 x00 x00 x00)
(L (W x00 x00 x00 x00 x00 x00 x00 x00)) E))
(T (W x04 x71 xfd xff x00 x00 x00 x00)
(T (W x40 x00 x00 x00 x38 x00 x00 x00)
(L (W x33 xb3 xc9 x42 x5c x0f x6a x43))
(L (W x00 x00 xe0 x40 x24 x01 x00 x00)))
(T (W x00 x00 x00 x00 xca x78 xfe xff)
(L (W xb2 x74 xff xff x40 x01 x00 x00)) E))))
(T (W x45 x26 x22 x84 xe4 x9c xf2 xcb)
(T (W x00 x00 xe0 x40 x24 x01 x00 x00)
(T (W x01 x00 x00 x00 x04 x00 x00 x00)
(T (W x01 x00 x00 x00 x04 x00 x00 x00)
(L (W x00 x00 x00 x00 x01 x00 x00 x00))
(L (W x54 x00 x00 x00 x48 x00 x00 x00)))
(T (W x45 x26 x22 x84 xe4 x9c xf2 xcb)
(L (W x45 x26 x22 x84 xe4 x9c xf2 xcb)) E))
(T (W x45 x26 x22 x84 xe4 x9c xf2 xcb)
(T (W x2c x00 x00 x00 x20 x00 x00 x00)
(L (W x52 x57 xc8 xcb xce xc5 xfd x07))
(L (W x00 x00 x00 x00 x08 xe1 xff xff)))
(T (W x3c x01 x00 x00 x30 x01 x00 x00)
(L (W x54 x00 x00 x00 x48 x00 x00 x00)) E)))
(T (W x00 x00 x80 x3f x08 x01 xfd xff)
(T (W x45 x26 x22 x84 xe4 x9c xf2 xcb)
(T (W x00 x00 x00 x00 x1c x00 x00 x00)
(L (W x45 x26 x22 x84 xe4 x9c xf2 xcb))
(L (W x53 x5f x47 x41 x4e x45 x52 x41)))
(T (W x5c x00 x00 x00 x50 x00 x00 x00)
(L (W x00 x00 x00 x00 x00 x00 x00 x00)) E))
(T (W x54 x00 x00 x00 x48 x00 x00 x00)
(T (W x01 x00 x00 x00 x00 x00 x80 x3f)
(L (W x00 x00 x00 x00 x08 x01 xff xff)) E)
(T (W x45 x26 x22 x84 xe4 x9c xf2 xcb)
(L (W xd6 x81 x9c x94 x9b x27 x57 x25)) E)))))
(T (W x49 xa1 x68 x4a xeb x5f xdd x3d)
(T (W x19 xc7 x73 x06 x7b x41 xd3 x9e)
(T (W x82 xd8 xfc xff x8f x02 xd5 x43)
(T (W x00 x00 x00 x00 x08 x19 xfd xff)
(T (W x1c x01 x00 x00 x01 x00 x00 x00)
(L (W x48 x00 x00 x00 x34 x00 x00 x00))
(L (W x66 xc6 x2a x44 x00 x00 x00 x00)))
(T (W x00 x00 x00 x00 x00 x00 x00 x00)
(L (W x33 xd3 x13 x44 x33 x33 x94 x42)) E))
(T (W x00 x00 x00 x00 x08 x59 xfd xff)
(T (W x00 x00 x00 x00 x01 x00 x00 x00)
(L (W x60 x00 x00 x00 x54 x00 x00 x00))
(L (W x34 x00 x00 x00 x20 x00 x00 x00)))
(T (W x55 x39 x81 x6a xc4 xc7 x74 x14)
(L (W x9a x99 x25 x42 x33 x33 x21 x44)) E)))
(T (W x00 x00 x00 x00 x08 xf9 xfc xff)
(T (W x04 x00 x00 x00 x00 x00 x00 x00)
(T (W x00 x00 x00 x00 x00 x00 x00 x00)
(L (W x00 x00 x80 xbf x00 x00 x80 xbf))
(L (W x00 x00 x00 x00 x00 x00 x00 x00)))
(T (W x00 x00 x00 x00 x08 x39 xfe xff)
(L (W x04 x00 x00 x00 x00 x00 x00 x00)) E))
(T (W x44 x00 x00 x00 x30 x00 x00 x00)
(T (W x00 x00 x00 x00 x00 x00 x00 x00)
(L (W x04 x00 x00 x00 x42 xfe xfe xff))
(L (W x45 x26 x22 x84 xe4 x9c xf2 xcb)))
(T (W x00 x00 x00 x00 x08 x79 xfe xff)
(L (W x00 x00 x00 x00 x08 x79 xff xff)) E))))
(T (W x00 x00 x00 x00 x00 x00 x00 x00)
(T (W x04 x00 x00 x00 x42 xee xfc xff)
(T (W x42 x52 x45 x41 x4b x5f x41 x52)
(T (W x74 x00 x00 x00 x68 x00 x00 x00)
(L (W x44 x00 x00 x00 x38 x00 x00 x00))
(L (W x5c x00 x00 x00 x50 x00 x00 x00)))
(T (W x74 x00 x00 x00 x68 x00 x00 x00)
(L (W x00 x00 x00 x00 x00 x00 x00 x00)) E))
(T (W x04 x00 x00 x00 x00 x00 x00 x00)
(T (W x00 x00 x80 x3f x00 x00 x80 x3f)
(L (W x2c x00 x00 x00 x20 x00 x00 x00))
(L (W x04 xe9 xff xff x00 x00 x00 x00)))
(T (W x2c x00 x00 x00 x20 x00 x00 x00)
(L (W x00 x00 x00 x00 x08 x69 xff xff)) E)))
(T (W x3c x01 x00 x00 x30 x01 x00 x00)
(T (W x00 x00 x00 x00 x00 x00 x00 x00)
(T (W x04 x00 x00 x00 x42 xce xfd xff)
(L (W x00 x00 xa0 x40 x24 x01 x00 x00))
(L (W x45 x26 x22 x84 xe4 x9c xf2 xcb)))
(T (W x01 x00 x00 x00 x00 x00 x80 x3f)
(L (W x00 x00 x00 x00 x00 x00 x00 x00)) E))
(T (W x45 x26 x22 x84 xe4 x9c xf2 xcb)
(T (W x40 x00 x00 x00 x38 x00 x00 x00)
(L (W x34 x01 x00 x00 x00 x00 xa0 x40)) E)
(T (W x01 x00 x00 x00 x00 x00 x80 x3f)
(L (W x1c x01 x00 x00 x01 x00 x00 x00)) E))))))
(T (W x44 x00 x00 x00 x38 x00 x00 x00)
(T (W x00 x00 x00 x00 x01 x00 x00 x00)
(T (W x1c x01 x00 x00 x04 x00 x00 x00)
(T (W x2c x00 x00 x00 x18 x00 x00 x00)
(T (W x45 x26 x22 x84 xe4 x9c xf2 xcb)
(T (W x00 x00 x00 x00 x00 x00 x00 x00)
(L (W x00 x00 x00 x00 x08 x95 xfe xff))
(L (W x00 x00 x00 x00 x08 x95 xff xff)))
(T (W x00 x00 x80 x3f x08 x15 xfe xff)
(L (W x00 x00 x00 x00 x00 x00 x00 x00)) E))
(T (W x45 x26 x22 x84 xe4 x9c xf2 xcb)
(T (W x00 x00 x00 x00 x00 x00 x00 x00)
(L (W x00 x00 x00 x00 x00 x00 x00 x00))
(L (W x00 x00 x00 x00 x00 x00 x00 x00)))
(T (W x45 x26 x22 x84 xe4 x9c xf2 xcb)
(L (W x00 x00 x00 x00 x08 x55 xff xff)) E)))
(T (W x45 x26 x22 x84 xe4 x9c xf2 xcb)
(T (W x00 x00 x80 xbf x9c x00 x00 x00)
(T (W x01 x00 x00 x00 x04 x00 x00 x00)
(L (W x54 x49 x4f x4e x5f x41 x52 x45))
(L (W x01 x00 x00 x00 x04 x00 x00 x00)))
(T (W xd2 x80 x35 x3f xf7 x2a x18 x1b)
(L (W x00 x00 x80 xbf x00 x00 x80 xbf)) E))
(T (W x9f x41 x45 xdc x00 xd9 x55 x2f)
(T (W x2c x00 x00 x00 x20 x00 x00 x00)
(L (W x17 xe0 xca xf8 x1d xdd x70 x9e))
(L (W x00 x00 x00 x00 x01 x00 x00 x00)))
(T (W x00 x00 x00 x00 x01 x00 x00 x00)
(L (W x00 x00 x00 x00 x01 x00 x00 x00)) E))))
(T (W xac xc7 xfc xff x50 x00 x00 x00)
(T (W x19 x46 xb7 x4b xbc xad xfd xea)
(T (W x45 x26 x22 x84 xe4 x9c xf2 xcb)
(T (W x45 x26 x22 x84 xe4 x9c xf2 xcb)
(L (W x45 x26 x22 x84 xe4 x9c xf2 xcb))
(L (W x2c x00 x00 x00 x20 x00 x00 x00)))
(T (W x44 x00 x00 x00 x38 x00 x00 x00)
(L (W x04 x25 xff xff x00 x00 x00 x00)) E))
(T (W x00 x00 x00 x00 x00 x00 x00 x00)
(T (W x04 xe5 xfd xff x00 x00 x00 x00)
(L (W x00 x00 x00 x00 x08 xe5 xfe xff))
(L (W x2c x00 x00 x00 x20 x00 x00 x00)))
(T (W x54 x00 x00 x00 x48 x00 x00 x00)
(L (W xac x67 xff xff x50 x00 x00 x00)) E)))
(T (W x02 x00 x00 x00 x31 x34 x00 x00)
(T (W x45 x26 x22 x84 xe4 x9c xf2 xcb)
(T (W x00 x00 x80 x3f x02 x00 x00 x00)
(L (W x28 x00 x00 x00 x14 x00 x00 x00))
(L (W x5f xad x97 x16 x1e xc1 xd6 xd2)))
(T (W x00 x00 x00 x00 x00 x00 x00 x00)
(L (W x5c x00 x00 x00 x50 x00 x00 x00)) E))
(T (W x00 x00 x00 x00 x08 x85 xfd xff)
(T (W x45 x26 x22 x84 xe4 x9c xf2 xcb)
(L (W x82 x04 xff xff x00 x00 x80 x3f)) E)
(T (W x1c x00 x00 x00 x46 x53 x59 x53)
(L (W x00 x00 x00 x00 x00 x00 x00 x00)) E)))))
(T (W xb8 x4e x30 x44 x00 x00 x00 x00)
(T (W x54 x00 x00 x00 x48 x00 x00 x00)
(T (W x1b x00 x00 x00 x57 x53 x59 x53)
(T (W x00 x00 x00 x00 x08 x1d xfd xff)
(T (W x00 x00 x00 x00 x01 x00 x00 x00)
(L (W x00 x00 x00 x00 x00 x00 x00 x00))
(L (W x00 xe7 xae x10 xc1 x3f xf0 x0c)))
(T (W xee xd8 x01 x37 x15 x7d x52 x40)
(L (W x54 x49 x4f x4e x5f x41 x52 x45)) E))
(T (W x04 x5d xfd xff x00 x00 x00 x00)
(T (W x45 x26 x22 x84 xe4 x9c xf2 xcb)
(L (W x00 x00 x00 x00 x00 x00 x00 x00))
(L (W x04 x00 x00 x00 x42 xe2 xff xff)))
(T (W x00 x00 x00 x00 x00 x00 x00 x00)
(L (W x3c x01 x00 x00 x30 x01 x00 x00)) E)))
(T (W x48 x00 x00 x00 x34 x00 x00 x00)
(T (W x45 x26 x22 x84 xe4 x9c xf2 xcb)
(T (W x00 x00 x80 x3f x08 xbd xfd xff)
(L (W x45 x26 x22 x84 xe4 x9c xf2 xcb))
(L (W x45 x26 x22 x84 xe4 x9c xf2 xcb)))
(T (W x00 x00 x00 x00 x00 x00 x00 x00)
(L (W x45 x26 x22 x84 xe4 x9c xf2 xcb)) E))
(T (W x3c x01 x00 x00 x30 x01 x00 x00)
(T (W x45 x26 x22 x84 xe4 x9c xf2 xcb)
(L (W x44 x00 x00 x00 x38 x00 x00 x00))
(L (W x3c x00 x00 x00 x34 x00 x00 x00)))
(T (W x00 x00 x00 x00 x00 x00 x00 x00)
(L (W x00 x00 x00 x00 x00 x00 x00 x00)) E))))
(T (W x00 x00 x00 x00 x00 x00 x00 x00)
(T (W x45 x26 x22 x84 xe4 x9c xf2 xcb)
(T (W x78 x00 x00 x00 x6c x00 x00 x00)
(T (W x00 x00 x00 x00 x00 x00 x00 x00)
(L (W x78 x00 x00 x00 x6c x00 x00 x00))
(L (W x00 x00 x00 x00 xca xb4 xff xff)))
(T (W x00 x00 x00 x00 x00 x00 x00 x00)
(L (W x00 x00 x80 x3f x00 x00 x80 x3f)) E))
(T (W x45 x26 x22 x84 xe4 x9c xf2 xcb)
(T (W x00 x00 x80 x40 x24 x01 x00 x00)
(L (W x04 xed xfe xff x00 x00 x00 x00))
(L (W x28 x00 x00 x00 x14 x00 x00 x00)))
(T (W x5c x00 x00 x00 x50 x00 x00 x00)
(L (W x82 x6c xff xff x00 x00 x80 x3f)) E)))
(T (W x34 x00 x00 x00 x20 x00 x00 x00)
(T (W x04 x00 x00 x00 x00 x00 x00 x00)
(T (W x44 x00 x00 x00 x38 x00 x00 x00)
(L (W x00 x00 x00 x00 x01 x00 x00 x00))
(L (W x2c x00 x00 x00 x20 x00 x00 x00)))
(T (W x1b x3a xb5 x31 x15 x51 x32 x37)
(L (W x45 x26 x22 x84 xe4 x9c xf2 xcb)) E))
(T (W x00 x00 x00 x00 x00 x00 x00 x00)
(T (W x00 x00 x00 x00 x08 x0d xfe xff)
(L (W x04 x00 x00 x00 x00 x00 x00 x00)) E)
(T (W x45 x26 x22 x84 xe4 x9c xf2 xcb)
(L (W x45 x26 x22 x84 xe4 x9c xf2 xcb)) E)))))))
(T (W xb8 x9f x00 x00 xd0 x9d x00 x00)
(T (W x00 x00 x00 x00 x08 x9b xfc xff)
(T (W x00 x00 x00 x00 x00 x00 x00 x00)
(T (W xfa x96 xff xff x00 x00 x00 x01)
(T (W x78 x00 x00 x00 x6c x00 x00 x00)
(T (W x40 x00 x00 x00 x38 x00 x00 x00)
(T (W x00 x00 x80 x3f x08 x93 xfd xff)
(L (W x00 x00 x00 x00 x00 x00 x00 x00))
(L (W x00 x00 x00 x00 x00 x00 x00 x00)))
(T (W x5c x00 x00 x00 x50 x00 x00 x00)
(L (W x31 x6a xca xc9 x03 x8f xa3 xbc)) E))
(T (W x45 x26 x22 x84 xe4 x9c xf2 xcb)
(T (W x00 x00 x80 x3f x00 x00 x80 x3f)
(L (W x45 x26 x22 x84 xe4 x9c xf2 xcb))
(L (W x45 x26 x22 x84 xe4 x9c xf2 xcb)))
(T (W x00 x00 x00 x00 x08 x53 xfe xff)
(L (W x45 x26 x22 x84 xe4 x9c xf2 xcb)) E)))
(T (W x2c x00 x00 x00 x20 x00 x00 x00)
(T (W x1c x01 x00 x00 x02 x00 x00 x00)
(T (W x45 x26 x22 x84 xe4 x9c xf2 xcb)
(L (W x53 x5f x47 x41 x4e x45 x52 x41))
(L (W x45 x26 x22 x84 xe4 x9c xf2 xcb)))
(T (W x00 x00 x80 xbf x9c x00 x00 x00)
(L (W x00 x00 xa0 x40 x24 x01 x00 x00)) E))
(T (W xac x75 xfd xff x50 x00 x00 x00)
(T (W x00 x00 x00 x00 x08 xf3 xfd xff)
(L (W x3c x01 x00 x00 x30 x01 x00 x00))
(L (W x00 x00 x80 xbf x00 x00 x80 xbf)))
(T (W x34 x00 x00 x00 x20 x00 x00 x00)
(L (W x00 x00 x80 xbf x9c x00 x00 x00)) E))))
(T (W x04 xc3 xfc xff x00 x00 x00 x00)
(T (W x00 x00 x80 xbf x00 x00 x80 xbf)
(T (W x01 x00 x00 x00 x04 x00 x00 x00)
(T (W x2c x00 x00 x00 x20 x00 x00 x00)
(L (W x04 x00 x00 x00 x42 xa8 xfe xff))
(L (W x45 x26 x22 x84 xe4 x9c xf2 xcb)))
(T (W x45 x26 x22 x84 xe4 x9c xf2 xcb)
(L (W x45 x26 x22 x84 xe4 x9c xf2 xcb)) E))
(T (W x00 x00 x00 x00 x00 x00 x00 x00)
(T (W x00 x00 x00 x00 x00 x00 x00 x00)
(L (W x40 x00 x00 x00 x38 x00 x00 x00))
(L (W x01 x00 x00 x00 x04 x00 x00 x00)))
(T (W x15 x86 xba x31 x15 xd5 x38 x37)
(L (W x45 x26 x22 x84 xe4 x9c xf2 xcb)) E)))
(T (W x00 x00 x00 x00 x00 x00 x00 x00)
(T (W x04 x43 xfd xff x00 x00 x00 x00)
(T (W x42 x52 x45 x41 x4b x5f x41 x52)
(L (W x00 x00 x00 x00 x08 xc3 xfe xff))
(L (W x00 x00 x80 xbf x00 x00 x80 xbf)))
(T (W x00 x00 x80 x3f x08 x43 xfe xff)
(L (W x00 x00 x00 x00 x01 x00 x00 x00)) E))
(T (W x45 x26 x22 x84 xe4 x9c xf2 xcb)
(T (W x34 x00 x00 x00 x20 x00 x00 x00)
(L (W x04 x00 x00 x00 x28 x05 xff xff)) E)
(T (W x00 x00 x00 x00 x00 x00 x00 x00)
(L (W x04 x83 xff xff x86 x82 xff xff)) E)))))
(T (W x00 x00 x80 x3f x00 x00 x80 x3f)
(T (W x04 x00 x00 x00 x00 x00 x00 x00)
(T (W x00 x00 x00 x00 x00 x00 x00 x00)
(T (W x44 x00 x00 x00 x38 x00 x00 x00)
(T (W x00 x00 x80 xbf x9c x00 x00 x00)
(L (W x45 x26 x22 x84 xe4 x9c xf2 xcb))
(L (W x00 x00 x80 x40 x24 x01 x00 x00)))
(T (W x00 x00 x80 xbf x00 x00 x80 xbf)
(L (W x36 x00 x00 x00 x01 x00 x00 x00)) E))
(T (W x45 x26 x22 x84 xe4 x9c xf2 xcb)
(T (W x40 x00 x00 x00 x38 x00 x00 x00)
(L (W x00 x00 x80 x3f x00 x00 x80 x3f))
(L (W x04 x00 x00 x00 x42 xe0 xff xff)))
(T (W x00 x00 x80 x3f x00 x00 x80 x3f)
(L (W x00 x00 x00 x00 x00 x00 x00 x00)) E)))
(T (W x04 x00 x00 x00 xf0 xfa xfc xff)
(T (W x54 x00 x00 x00 x48 x00 x00 x00)
(T (W x5c x00 x00 x00 x50 x00 x00 x00)
(L (W x00 x00 x00 x00 x01 x00 x00 x00))
(L (W x00 x00 x00 x00 x01 x00 x00 x00)))
(T (W x8e x18 xb9 x28 xbf xd3 x67 x6a)
(L (W x54 x00 x00 x00 x48 x00 x00 x00)) E))
(T (W x33 xb3 xcf x43 x00 x00 x14 x42)
(T (W x04 x00 x00 x00 xf0 xfa xfd xff)
(L (W x45 x26 x22 x84 xe4 x9c xf2 xcb))
(L (W x45 x26 x22 x84 xe4 x9c xf2 xcb)))
(T (W x21 xf8 xaf x28 xbf x5b x5d x6a)
(L (W x2c x00 x00 x00 x20 x00 x00 x00)) E))))
(T (W x00 x00 x00 x00 x00 x00 x00 x00)
(T (W x45 x26 x22 x84 xe4 x9c xf2 xcb)
(T (W x00 x00 x00 x00 x08 x2b xfd xff)
(T (W x00 x00 x80 x3f x00 x00 x80 x3f)
(L (W x00 x00 x00 x00 x00 x00 x00 x00))
(L (W x04 xab xff xff x86 xaa xff xff)))
(T (W x00 x00 x80 x3f x00 x00 x80 x3f)
(L (W x74 x00 x00 x00 x68 x00 x00 x00)) E))
(T (W x54 x00 x00 x00 x48 x00 x00 x00)
(T (W x7b x84 x3f x44 x00 x00 x00 x00)
(L (W x45 x26 x22 x84 xe4 x9c xf2 xcb))
(L (W x78 x00 x00 x00 x6c x00 x00 x00)))
(T (W x00 x00 x00 x00 x00 x00 x00 x00)
(L (W x28 x00 x00 x00 x14 x00 x00 x00)) E)))
(T (W x04 x00 x00 x00 x00 x00 x80 x3f)
(T (W x00 x00 x80 xbf x00 x00 x80 xbf)
(T (W x45 x26 x22 x84 xe4 x9c xf2 xcb)
(L (W x00 x00 x80 xbf x9c x00 x00 x00))
(L (W x45 x26 x22 x84 xe4 x9c xf2 xcb)))
(T (W x00 x00 x80 xbf x00 x00 x80 xbf)
(L (W x1c x01 x00 x00 x01 x00 x00 x00)) E))
(T (W x00 x00 x00 x00 x00 x00 x00 x00)
(T (W x45 x26 x22 x84 xe4 x9c xf2 xcb)
(L (W x1e xe0 x09 xfe x1d x86 x80 xa7)) E)
(T (W x00 x00 x00 x00 x01 x00 x00 x00)
(L (W x45 x26 x22 x84 xe4 x9c xf2 xcb)) E))))))
(T (W x45 x26 x22 x84 xe4 x9c xf2 xcb)
(T (W x5c x00 x00 x00 x50 x00 x00 x00)
(T (W x00 x00 x80 xbf x9c x00 x00 x00)
(T (W x00 x00 x00 x00 x86 xd6 xfc xff)
(T (W x45 x26 x22 x84 xe4 x9c xf2 xcb)
(T (W x41 x30 x32 x00 xca x9e xfd xff)
(L (W x04 x00 x00 x00 xf0 x96 xfe xff))
(L (W x28 x00 x00 x00 x14 x00 x00 x00)))
(T (W x00 x00 x00 x00 x00 x00 x00 x00)
(L (W x44 x00 x00 x00 x30 x00 x00 x00)) E))
(T (W x45 x26 x22 x84 xe4 x9c xf2 xcb)
(T (W x00 x00 x80 xbf x9c x00 x00 x00)
(L (W x00 x00 x00 x00 x00 x00 x00 x00))
(L (W x00 x00 x00 x00 xca xde xff xff)))
(T (W x04 x57 xfe xff x00 x00 x00 x00)
(L (W x28 x00 x00 x00 x14 x00 x00 x00)) E)))
(T (W x00 x00 x00 x00 x00 x00 x00 x00)
(T (W x83 xd4 xd7 x75 xea xc9 x2c x32)
(T (W x2c x00 x00 x00 x20 x00 x00 x00)
(L (W x5f x41 x52 x45 x41 x30 x32 x00))
(L (W x01 x00 x00 x00 x04 x00 x00 x00)))
(T (W x40 x00 x00 x00 x38 x00 x00 x00)
(L (W x92 x6d x89 xe8 x48 xd7 x3e x2f)) E))
(T (W x00 x00 x00 x00 x00 x00 x00 x00)
(T (W x45 x26 x22 x84 xe4 x9c xf2 xcb)
(L (W x00 x00 x00 x00 x01 x00 x00 x00))
(L (W x45 x26 x22 x84 xe4 x9c xf2 xcb)))
(T (W x45 x26 x22 x84 xe4 x9c xf2 xcb)
(L (W x40 x00 x00 x00 x38 x00 x00 x00)) E))))
(T (W x3f x7c x88 xaf x9a x1e x19 x7c)
(T (W x00 x00 x00 x00 x01 x00 x00 x00)
(T (W x00 x00 x00 x00 x00 x00 x00 x00)
(T (W x00 x00 x00 x00 x00 x00 x00 x00)
(L (W x04 xa7 xfe xff x00 x00 x00 x00))
(L (W x00 x00 x00 x00 x00 x00 x00 x00)))
(T (W x00 x00 x00 x00 x00 x00 x00 x00)
(L (W x45 x26 x22 x84 xe4 x9c xf2 xcb)) E))
(T (W x00 x00 x80 xbf x9c x00 x00 x00)
(T (W x55 x39 x81 x6a xc4 xc7 x74 x14)
(L (W x01 x00 x00 x00 x04 x00 x00 x00))
(L (W x00 x00 x00 x00 x00 x00 x00 x00)))
(T (W x45 x26 x22 x84 xe4 x9c xf2 xcb)
(L (W x00 x00 x00 x00 x00 x00 x00 x00)) E)))
(T (W x4e x45 x52 x41 x54 x49 x4f x4e)
(T (W x3d x0a x48 x42 xf6 xf8 x28 x44)
(T (W x34 x00 x00 x00 x20 x00 x00 x00)
(L (W x66 xe6 x3b x43 x00 x00 x00 x00))
(L (W x00 x00 x00 x00 x01 x00 x00 x00)))
(T (W x34 x01 x00 x00 x01 x00 x00 x00)
(L (W x00 x00 x80 x3f x08 x47 xff xff)) E))
(T (W x44 x00 x00 x00 x38 x00 x00 x00)
(T (W x00 x00 x00 x00 x01 x00 x00 x00)
(L (W x00 x00 x00 x00 x00 x00 x00 x00)) E)
(T (W x57 x53 x59 x53 x5f x4d x41 x53)
(L (W x1c x00 x00 x00 x46 x53 x59 x53)) E)))))
(T (W x00 x00 x00 x00 x00 x00 x00 x00)
(T (W x45 x26 x22 x84 xe4 x9c xf2 xcb)
(T (W x5f x41 x52 x45 x41 x30 x32 x00)
(T (W xac x21 xfd xff x50 x00 x00 x00)
(T (W x45 x26 x22 x84 xe4 x9c xf2 xcb)
(L (W x01 x00 x00 x00 x00 x00 x80 x3f))
(L (W x04 x00 x00 x00 x00 x00 x00 x00)))
(T (W x54 x00 x00 x00 x48 x00 x00 x00)
(L (W x00 x00 x80 xbf x9c x00 x00 x00)) E))
(T (W x5c x00 x00 x00 x50 x00 x00 x00)
(T (W x45 x26 x22 x84 xe4 x9c xf2 xcb)
(L (W x00 x00 x40 x40 x24 x01 x00 x00))
(L (W x45 x26 x22 x84 xe4 x9c xf2 xcb)))
(T (W x42 x52 x45 x41 x4b x5f x41 x52)
(L (W xc1 x3c x45 xe3 x48 xba x28 x26)) E)))
(T (W x4f x84 x6f x8b xe8 xcb x63 xb7)
(T (W x00 x00 x00 x00 x08 x3f xfd xff)
(T (W x00 x00 x00 x00 x00 x00 x00 x00)
(L (W x04 xbf xfe xff x00 x00 x00 x00))
(L (W x00 x00 x00 x00 x00 x00 x00 x00)))
(T (W x00 x00 x00 x00 x01 x00 x00 x00)
(L (W x01 x00 x00 x00 x04 x00 x00 x00)) E))
(T (W x88 x25 x5c x23 x15 xcd xa5 x1d)
(T (W x00 x00 x00 x00 x00 x00 x00 x00)
(L (W x00 x00 x00 x00 x00 x00 x00 x00))
(L (W x00 x00 x00 x00 x00 x00 x00 x00)))
(T (W x44 x00 x00 x00 x30 x00 x00 x00)
(L (W x04 x7f xff xff x00 x00 x00 x00)) E))))
(T (W x00 x00 x00 x00 x00 x00 x00 x00)
(T (W x00 x00 x00 x00 x08 xef xfc xff)
(T (W x00 x00 x00 x00 x86 x2e xfd xff)
(T (W x00 x00 x80 xbf x9c x00 x00 x00)
(L (W x2c x00 x00 x00 x18 x00 x00 x00))
(L (W x00 x00 x80 xbf x9c x00 x00 x00)))
(T (W x00 x00 x00 x00 xca x36 xfe xff)
(L (W x66 x26 xfe x43 x00 x00 x00 x00)) E))
(T (W x45 x26 x22 x84 xe4 x9c xf2 xcb)
(T (W xe0 x86 x68 xbb xa1 x3a xd3 x87)
(L (W x45 x26 x22 x84 xe4 x9c xf2 xcb))
(L (W xec x71 xe6 x43 x00 x00 x00 x00)))
(T (W x04 x6f xfe xff x86 x6e xfe xff)
(L (W x02 x00 x00 x00 x32 x31 x00 x00)) E)))
(T (W x45 x26 x22 x84 xe4 x9c xf2 xcb)
(T (W x54 x00 x00 x00 x48 x00 x00 x00)
(T (W x00 x00 x00 x00 x00 x00 x00 x00)
(L (W x45 x26 x22 x84 xe4 x9c xf2 xcb))
(L (W x00 x00 x00 x00 x00 x00 x00 x00)))
(T (W x54 x00 x00 x00 x48 x00 x00 x00)
(L (W x45 x26 x22 x84 xe4 x9c xf2 xcb)) E))
(T (W x00 x00 x00 x00 x01 x00 x00 x00)
(T (W x45 x26 x22 x84 xe4 x9c xf2 xcb)
(L (W x45 x26 x22 x84 xe4 x9c xf2 xcb)) E)
(T (W x45 x26 x22 x84 xe4 x9c xf2 xcb)
(L (W x04 x8f xff xff x00 x00 x00 x00)) E))))))))
(T (W xa4 x03 x02 x00 xb8 x01 x02 x00)
(T (W x0c x17 x01 x00 x40 x15 x01 x00)
(T (W x00 x00 x00 x00 x00 x00 x00 x00)
(T (W x00 x00 x80 xbf x00 x00 x80 xbf)
(T (W x2c x00 x00 x00 x20 x00 x00 x00)
(T (W x45 x26 x22 x84 xe4 x9c xf2 xcb)
(T (W x2c x00 x00 x00 x18 x00 x00 x00)
(T (W x45 x26 x22 x84 xe4 x9c xf2 xcb)
(L (W x1c x01 x00 x00 x01 x00 x00 x00))
(L (W x1c x01 x00 x00 x01 x00 x00 x00)))
(T (W x00 x00 x00 x00 x01 x00 x00 x00)
(L (W x53 x5f x47 x41 x4e x45 x52 x41)) E))
(T (W x55 x6c xfc xf1 x99 x9e xc9 x88)
(T (W x45 x26 x22 x84 xe4 x9c xf2 xcb)
(L (W x54 x49 x4f x4e x5f x41 x52 x45))
(L (W x54 x00 x00 x00 x48 x00 x00 x00)))
(T (W x00 x00 x00 x00 x00 x00 x00 x00)
(L (W x00 x00 x00 x00 x00 x00 x00 x00)) E)))
(T (W x5f x4d x41 x53 x53 x5f x47 x41)
(T (W x44 x00 x00 x00 x38 x00 x00 x00)
(T (W x28 x00 x00 x00 x14 x00 x00 x00)
(L (W x01 x00 x00 x00 x04 x00 x00 x00))
(L (W x44 x00 x00 x00 x30 x00 x00 x00)))
(T (W x00 x00 x00 x00 x00 x00 x00 x00)
(L (W xac x34 xff xff x50 x00 x00 x00)) E))
(T (W x00 x00 x00 x00 x00 x00 x00 x00)
(T (W x82 xf1 xfd xff x00 x00 x80 x3f)
(L (W x01 x00 x00 x00 x04 x00 x00 x00))
(L (W x00 x00 x00 x00 x00 x00 x00 x00)))
(T (W x45 x26 x22 x84 xe4 x9c xf2 xcb)
(L (W x45 x26 x22 x84 xe4 x9c xf2 xcb)) E))))
(T (W x00 x00 x00 x00 x00 x00 x00 x00)
(T (W x00 x00 x00 x00 x00 x00 x00 x00)
(T (W x5c x00 x40 x00 x48 x00 x04 x00)
(T (W x5f x4f x55 x54 x42 x52 x45 x41)
(L (W x60 x00 x00 x00 x54 x00 x00 x00))
(L (W x45 x26 x22 x84 xe4 x9c xf2 xcb)))
(T (W x00 x00 x80 x3f x08 x22 xfe xff)
(L (W x74 x00 x00 x00 x68 x00 x00 x00)) E))
(T (W x45 x26 x22 x84 xe4 x9c xf2 xcb)
(T (W x01 x00 x00 x00 x00 x00 x80 x3f)
(L (W x04 x00 x00 x00 x28 xe4 xfe xff))
(L (W x00 x00 x00 x00 x00 x00 x00 x00)))
(T (W x00 x00 x00 x00 x00 x00 x00 x00)
(L (W x45 x26 x22 x84 xe4 x9c xf2 xcb)) E)))
(T (W x45 x26 x22 x84 xe4 x9c xf2 xcb)
(T (W x34 x00 x00 x00 x20 x00 x00 x00)
(T (W xac xc4 xfd xff x50 x00 x00 x00)
(L (W x00 x00 x80 xbf x9c x00 x00 x00))
(L (W xd4 xf9 xaf x28 xbf x5c x5d x6a)))
(T (W x45 x26 x22 x84 xe4 x9c xf2 xcb)
(L (W x6a x2d x42 xe3 x48 x3a x25 x26)) E))
(T (W x45 x26 x22 x84 xe4 x9c xf2 xcb)
(T (W x00 x00 x00 x00 x00 x00 x00 x00)
(L (W xee x3d xa6 x39 x40 x42 x51 x17)) E)
(T (W x45 x26 x22 x84 xe4 x9c xf2 xcb)
(L (W x45 x26 x22 x84 xe4 x9c xf2 xcb)) E)))))
(T (W x45 x26 x22 x84 xe4 x9c xf2 xcb)
(T (W x04 x00 x00 x00 x28 xbc xfc xff)
(T (W x45 x26 x22 x84 xe4 x9c xf2 xcb)
(T (W x1b x00 x00 x00 x57 x53 x59 x53)
(T (W x00 x00 x00 x00 x00 x00 x00 x00)
(L (W x54 x00 x00 x00 x48 x00 x00 x00))
(L (W xac x9c xff xff x50 x00 x00 x00)))
(T (W xaf x68 xff x4b x84 x9a x7b x61)
(L (W x00 x00 x00 x00 x08 x1a xff xff)) E))
(T (W x00 x00 x00 x00 xca x61 xfd xff)
(T (W x2c x00 x00 x00 x18 x00 x00 x00)
(L (W x45 x26 x22 x84 xe4 x9c xf2 xcb))
(L (W x04 xda xff xff x00 x00 x00 x00)))
(T (W x45 x26 x22 x84 xe4 x9c xf2 xcb)
(L (W x00 x00 x00 x00 x08 x5a xff xff)) E)))
(T (W x8f x8a x34 x15 x07 xcb x8b x9e)
(T (W x44 x00 x00 x00 x30 x00 x00 x00)
(T (W x00 x00 x00 x00 x01 x00 x00 x00)
(L (W x00 x00 x00 x00 x00 x00 x00 x00))
(L (W xd7 x98 x8e x16 x1e x50 xcc xd2)))
(T (W x00 x00 x00 x00 x00 x00 x00 x00)
(L (W x48 x00 x00 x00 x34 x00 x00 x00)) E))
(T (W x45 x26 x22 x84 xe4 x9c xf2 xcb)
(T (W x3d x5e x97 xdf xe1 xfa xe4 x04)
(L (W x45 x26 x22 x84 xe4 x9c xf2 xcb))
(L (W x82 xf9 xff xff xcd x2c x0b x44)))
(T (W x00 x00 x00 x00 x00 x00 x00 x00)
(L (W x00 x00 x00 x00 x00 x00 x00 x00)) E))))
(T (W x04 x00 x00 x00 x00 x00 x80 x3f)
(T (W xd6 x81 x9c x94 x9b x27 x57 x25)
(T (W x2e x61 x4d xff x84 x75 x7f xe2)
(T (W x45 x26 x22 x84 xe4 x9c xf2 xcb)
(L (W x1c x01 x00 x00 x01 x00 x00 x00))
(L (W x45 x26 x22 x84 xe4 x9c xf2 xcb)))
(T (W x45 x26 x22 x84 xe4 x9c xf2 xcb)
(L (W x45 x26 x22 x84 xe4 x9c xf2 xcb)) E))
(T (W x44 x00 x00 x00 x30 x00 x00 x00)
(T (W x45 x26 x22 x84 xe4 x9c xf2 xcb)
(L (W x00 x00 x00 x00 xca xf1 xfe xff))
(L (W xaf xdf x1b x72 x9d x0d xa7 xbe)))
(T (W x01 x00 x00 x00 x00 x00 x80 x3f)
(L (W x00 x00 x00 x00 x01 x00 x00 x00)) E)))
(T (W x00 x00 x00 x00 x00 x00 x00 x00)
(T (W xeb x90 xa7 x28 xbf x50 x53 x6a)
(T (W x45 x26 x22 x84 xe4 x9c xf2 xcb)
(L (W x00 x00 x00 x00 x00 x00 x00 x00))
(L (W x04 xca xff xff x86 xc9 xff xff)))
(T (W x00 x00 x00 x00 x00 x00 x00 x00)
(L (W x44 x00 x00 x00 x38 x00 x00 x00)) E))
(T (W x00 x00 x80 x40 x24 x01 x00 x00)
(T (W x82 x09 xfe xff x00 x00 x80 x3f)
(L (W x00 x00 x00 x00 x00 x00 x00 x00)) E)
(T (W x00 x00 x00 x00 x00 x00 x00 x00)
(L (W x00 x00 x00 x00 x00 x00 x00 x00)) E))))))
(T (W x5f x30 x32 x34 x00 x00 x00 x00)
(T (W x00 x00 x00 x00 x01 x00 x00 x00)
(T (W x00 x00 x00 x00 x00 x00 x00 x00)
(T (W x40 x00 x00 x00 x38 x00 x00 x00)
(T (W x82 x15 xfd xff x66 x66 x23 x44)
(T (W x44 x00 x00 x00 x38 x00 x00 x00)
(L (W xe7 xa7 x1c x49 xc6 x09 x34 x90))
(L (W x00 x00 x00 x00 x01 x00 x00 x00)))
(T (W x45 x26 x22 x84 xe4 x9c xf2 xcb)
(L (W x04 x00 x00 x00 x00 x00 x00 x00)) E))
(T (W x0a x97 x10 x44 xc3 xf5 x19 x42)
(T (W x45 x26 x22 x84 xe4 x9c xf2 xcb)
(L (W x00 x00 x80 xbf x00 x00 x80 xbf))
(L (W x2c x00 x00 x00 x20 x00 x00 x00)))
(T (W x34 x00 x00 x00 x20 x00 x00 x00)
(L (W x00 x00 x00 x00 x01 x00 x00 x00)) E)))
(T (W x1c x01 x00 x00 x04 x00 x00 x00)
(T (W x00 x00 x00 x00 x08 x36 xfd xff)
(T (W x5f x4e x45 x57 x5f x4f x55 x54)
(L (W x55 x39 x81 x6a xc4 xc7 x74 x14))
(L (W x5c x00 x40 x00 x48 x00 x04 x00)))
(T (W x04 x00 x00 x00 x28 x38 xfe xff)
(L (W x00 x00 x00 x00 x00 x00 x00 x00)) E))
(T (W x00 x00 x80 xbf x00 x00 x80 xbf)
(T (W xb2 xf9 xfd xff x40 x01 x00 x00)
(L (W x00 x00 x00 x00 x01 x00 x00 x00))
(L (W x5c x00 x00 x00 x50 x00 x00 x00)))
(T (W x28 x00 x00 x00 x14 x00 x00 x00)
(L (W x28 x00 x00 x00 x14 x00 x00 x00)) E))))
(T (W x4b x5f x41 x52 x45 x41 x30 x32)
(T (W x00 x00 x00 x00 x01 x00 x00 x00)
(T (W x00 x00 x00 x41 x24 x01 x00 x00)
(T (W x1c x01 x00 x00 x01 x00 x00 x00)
(L (W x00 x00 x00 x00 x00 x00 x00 x00))
(L (W x01 x00 x00 x00 x00 x00 x80 x3f)))
(T (W x1c x01 x00 x00 x01 x00 x00 x00)
(L (W x00 x00 x00 x00 x00 x00 x00 x00)) E))
(T (W x45 x26 x22 x84 xe4 x9c xf2 xcb)
(T (W x04 x00 x00 x00 x42 xeb xfd xff)
(L (W x00 x00 x00 x00 x00 x00 x00 x00))
(L (W x01 x00 x00 x00 x00 x00 x80 x3f)))
(T (W x45 x26 x22 x84 xe4 x9c xf2 xcb)
(L (W x00 x00 x80 x40 x24 x01 x00 x00)) E)))
(T (W xac x08 xfd xff x50 x00 x00 x00)
(T (W x45 x26 x22 x84 xe4 x9c xf2 xcb)
(T (W x00 x00 x00 x00 x00 x00 x00 x00)
(L (W x45 x26 x22 x84 xe4 x9c xf2 xcb))
(L (W x00 x00 x00 x00 x01 x00 x00 x00)))
(T (W x44 x00 x00 x00 x38 x00 x00 x00)
(L (W x45 x26 x22 x84 xe4 x9c xf2 xcb)) E))
(T (W x1c x00 x00 x00 x46 x53 x59 x53)
(T (W x78 x00 x00 x00 x6c x00 x00 x00)
(L (W x00 x00 x00 x00 x08 x06 xff xff)) E)
(T (W x40 x00 x00 x00 x34 x00 x00 x00)
(L (W x00 x00 x00 x00 x08 x86 xff xff)) E)))))
(T (W x00 x00 x00 x00 x08 xae xfc xff)
(T (W x4f x84 x6f x8b xe8 xcb x63 xb7)
(T (W x44 x00 x00 x00 x38 x00 x00 x00)
(T (W x57 x53 x59 x53 x5f x4d x41 x53)
(T (W x28 x00 x00 x00 x14 x00 x00 x00)
(L (W x2c x00 x00 x00 x20 x00 x00 x00))
(L (W x04 x00 x00 x00 xf0 x9d xff xff)))
(T (W x00 x00 x00 x00 x01 x00 x00 x00)
(L (W x45 x26 x22 x84 xe4 x9c xf2 xcb)) E))
(T (W x04 x00 x00 x00 x42 x63 xfd xff)
(T (W x82 xdd xfd xff x66 x96 x2d x44)
(L (W xb9 x86 xa7 x28 xbf x4a x53 x6a))
(L (W x45 x26 x22 x84 xe4 x9c xf2 xcb)))
(T (W xac x60 xfe xff x50 x00 x00 x00)
(L (W x00 x00 x00 x00 x00 x00 x00 x00)) E)))
(T (W x54 x00 x00 x00 x48 x00 x00 x00)
(T (W x04 x3e xfd xff x86 x3d xfd xff)
(T (W x45 x26 x22 x84 xe4 x9c xf2 xcb)
(L (W x00 x00 x80 x3f x00 x00 x80 x3f))
(L (W x45 x26 x22 x84 xe4 x9c xf2 xcb)))
(T (W xc2 x82 xfc x36 x15 xf3 x4b x40)
(L (W x00 x00 x00 x00 x00 x00 x00 x00)) E))
(T (W x00 x00 x00 x00 x00 x00 x00 x00)
(T (W x45 x26 x22 x84 xe4 x9c xf2 xcb)
(L (W x1c x01 x00 x00 x01 x00 x00 x00))
(L (W x5c x00 x00 x00 x50 x00 x00 x00)))
(T (W x04 x00 x00 x00 x00 x00 x00 x00)
(L (W x34 x00 x00 x00 x20 x00 x00 x00)) E))))
(T (W x04 x00 x00 x00 x00 x00 x80 x3f)
(T (W x8f xc2 xbb x42 x3d x0a x9e x43)
(T (W x40 x00 x00 x00 x38 x00 x00 x00)
(T (W x45 x26 x22 x84 xe4 x9c xf2 xcb)
(L (W x00 x00 x00 x00 x01 x00 x00 x00))
(L (W x45 x26 x22 x84 xe4 x9c xf2 xcb)))
(T (W x00 x00 x00 x00 x08 x2e xfe xff)
(L (W x45 x26 x22 x84 xe4 x9c xf2 xcb)) E))
(T (W x00 x00 x80 x3f x08 x6e xfd xff)
(T (W x00 x00 x00 x00 x00 x00 x00 x00)
(L (W x04 x00 x00 x00 x42 xf3 xfe xff))
(L (W x45 x26 x22 x84 xe4 x9c xf2 xcb)))
(T (W x45 x26 x22 x84 xe4 x9c xf2 xcb)
(L (W x00 x00 x00 x00 x08 x6e xff xff)) E)))
(T (W x04 x0e xfd xff x00 x00 x00 x00)
(T (W x48 x00 x00 x00 x34 x00 x00 x00)
(T (W x1c x01 x00 x00 x01 x00 x00 x00)
(L (W x28 x00 x00 x00 x14 x00 x00 x00))
(L (W x01 x00 x00 x00 x00 x00 x80 x3f)))
(T (W x00 x00 x00 x00 x01 x00 x00 x00)
(L (W x74 x00 x00 x00 x68 x00 x00 x00)) E))
(T (W x5e x3d x5f x23 x15 x52 xa9 x1d)
(T (W x00 x00 x00 x00 x00 x00 x00 x00)
(L (W x44 x00 x00 x00 x30 x00 x00 x00)) E)
(T (W x00 x00 x80 x3f x08 x8e xfe xff)
(L (W x00 x00 x80 x3f x00 x00 x80 x3f)) E)))))))
(T (W x88 x24 x00 x00 x9c x22 x00 x00)
(T (W x46 x53 x59 x53 x5f x4e x45 x57)
(T (W x00 x92 x7d x67 x2b x6e xe6 x8e)
(T (W x45 x26 x22 x84 xe4 x9c xf2 xcb)
(T (W x00 x00 x00 x00 x01 x00 x00 x00)
(T (W x00 x00 x00 x00 x86 x13 xfd xff)
(T (W x45 x26 x22 x84 xe4 x9c xf2 xcb)
(L (W x00 x00 x80 xbf x9c x00 x00 x00))
(L (W x00 x00 x80 xbf x9c x00 x00 x00)))
(T (W x45 x26 x22 x84 xe4 x9c xf2 xcb)
(L (W x00 x00 x80 xbf x00 x00 x80 xbf)) E))
(T (W x00 x00 x00 x00 x86 x53 xfd xff)
(T (W x04 xd4 xfd xff x00 x00 x00 x00)
(L (W x00 x00 xe0 x40 x24 x01 x00 x00))
(L (W x45 x26 x22 x84 xe4 x9c xf2 xcb)))
(T (W x00 x00 x00 x00 xca x5b xfe xff)
(L (W x00 x00 x80 xbf x9c x00 x00 x00)) E)))
(T (W xfa xd7 xff xff x00 x00 x00 x01)
(T (W x00 x00 x00 x00 x00 x00 x00 x00)
(T (W xd7 xa3 x18 x42 x9a x99 x57 x44)
(L (W x74 xf0 x39 xdc x00 x64 x48 x2f))
(L (W x14 x0e xc4 x43 x8f xc2 x1f x42)))
(T (W x00 x00 x00 x00 x08 x34 xfe xff)
(L (W x00 x00 x00 x00 x00 x00 x00 x00)) E))
(T (W x42 x52 x45 x41 x4b x5f x41 x52)
(T (W x00 x00 x00 x00 x00 x00 x00 x00)
(L (W x00 x00 x00 x00 x00 x00 x00 x00))
(L (W x00 x00 x00 x00 x00 x00 x00 x00)))
(T (W x04 x74 xfe xff x00 x00 x00 x00)
(L (W x00 x00 x00 x00 x08 x74 xff xff)) E))))
(T (W x00 x00 x00 x00 x1c x00 x00 x00)
(T (W x00 x00 x00 x00 x00 x00 x00 x00)
(T (W x31 x31 x34 x00 xca x2b xfd xff)
(T (W xb2 xa7 xfd xff x40 x01 x00 x00)
(L (W x45 x26 x22 x84 xe4 x9c xf2 xcb))
(L (W x00 x00 x00 x00 x00 x00 x00 x00)))
(T (W x00 x00 x00 x00 x00 x00 x00 x00)
(L (W x00 x00 x80 x3f x00 x00 x80 x3f)) E))
(T (W x04 x64 xfd xff x00 x00 x00 x00)
(T (W x34 x00 x00 x00 x20 x00 x00 x00)
(L (W x82 xe3 xfe xff x00 x00 x80 x3f))
(L (W x5f x4e x45 x57 x5f x4f x55 x54)))
(T (W x00 x00 x00 x00 x01 x00 x00 x00)
(L (W x00 x00 x00 x00 x00 x00 x00 x00)) E)))
(T (W x04 x04 xfd xff x00 x00 x00 x00)
(T (W x04 x00 x00 x00 x42 x49 xfd xff)
(T (W xb2 x4c xbb x28 xbf xd2 x6a x6a)
(L (W x00 x00 x00 x00 x01 x00 x00 x00))
(L (W x00 x00 x00 x00 x00 x00 x00 x00)))
(T (W x45 x26 x22 x84 xe4 x9c xf2 xcb)
(L (W x00 x00 x00 x00 x01 x00 x00 x00)) E))
(T (W x00 x00 x00 x00 x00 x00 x00 x00)
(T (W x04 x04 xfe xff x00 x00 x00 x00)
(L (W x40 x00 x00 x00 x38 x00 x00 x00)) E)
(T (W x00 x00 x00 x00 x08 x84 xfe xff)
(L (W x45 x26 x22 x84 xe4 x9c xf2 xcb)) E)))))
(T (W x45 x26 x22 x84 xe4 x9c xf2 xcb)
(T (W x44 x00 x00 x00 x30 x00 x00 x00)
(T (W x00 x00 x00 x00 x08 xdc xfc xff)
(T (W x41 x30 x32 x00 x00 x00 x32 x00)
(T (W x00 x00 x00 x00 x08 x9c xfd xff)
(L (W x45 x26 x22 x84 xe4 x9c xf2 xcb))
(L (W x00 x00 x00 x00 x00 x00 x00 x00)))
(T (W x00 x00 x00 x00 x00 x00 x00 x00)
(L (W xac x1e xff xff x50 x00 x00 x00)) E))
(T (W x34 x00 x00 x00 x20 x00 x00 x00)
(T (W x00 x00 x00 x00 x86 xdb xfd xff)
(L (W x00 x00 x00 x00 x08 xdc xfe xff))
(L (W x45 x26 x22 x84 xe4 x9c xf2 xcb)))
(T (W x04 x5c xfe xff x00 x00 x00 x00)
(L (W x66 xd4 xac x28 xbf xcf x59 x6a)) E)))
(T (W x04 x00 x00 x00 x00 x00 x00 x00)
(T (W x55 x6c xfc xf1 x99 x9e xc9 x88)
(T (W x45 x26 x22 x84 xe4 x9c xf2 xcb)
(L (W x60 x00 x00 x00 x54 x00 x00 x00))
(L (W x54 x00 x00 x00 x48 x00 x00 x00)))
(T (W x00 x00 x80 xbf x00 x00 x80 xbf)
(L (W x45 x26 x22 x84 xe4 x9c xf2 xcb)) E))
(T (W x01 x00 x00 x00 x04 x00 x00 x00)
(T (W x54 x00 x00 x00 x48 x00 x00 x00)
(L (W x00 x00 x00 x00 x00 x00 x00 x00))
(L (W x71 x2d x06 x44 x14 xae x29 x42)))
(T (W x00 x00 x80 xbf x00 x00 x80 xbf)
(L (W x01 x00 x00 x00 x00 x00 x80 x3f)) E))))
(T (W x3c x01 x00 x00 x30 x01 x00 x00)
(T (W x00 x00 x80 x3f x00 x00 x80 x3f)
(T (W x45 x26 x22 x84 xe4 x9c xf2 xcb)
(T (W x04 xac xfd xff x00 x00 x00 x00)
(L (W x45 x26 x22 x84 xe4 x9c xf2 xcb))
(L (W x00 x00 x00 x00 x08 xac xff xff)))
(T (W x04 x2c xfe xff x00 x00 x00 x00)
(L (W x45 x26 x22 x84 xe4 x9c xf2 xcb)) E))
(T (W x55 x6c xfc xf1 x99 x9e xc9 x88)
(T (W xac xee xfd xff x50 x00 x00 x00)
(L (W x34 x00 x00 x00 x20 x00 x00 x00))
(L (W x00 x00 x00 x00 x01 x00 x00 x00)))
(T (W x00 x00 x00 x00 x01 x00 x00 x00)
(L (W x40 x00 x00 x00 x38 x00 x00 x00)) E)))
(T (W x00 x00 x00 x00 x00 x00 x00 x00)
(T (W x00 x00 x00 x00 x00 x00 x00 x00)
(T (W x00 x00 x00 x00 x00 x00 x00 x00)
(L (W x00 x00 x00 x00 x08 xcc xfe xff))
(L (W x00 x00 x00 x00 x00 x00 x00 x00)))
(T (W x00 x00 x00 x00 x00 x00 x00 x00)
(L (W x00 x00 x00 x00 x00 x00 x00 x00)) E))
(T (W x00 x00 x80 xbf x00 x00 x80 xbf)
(T (W x82 x0b xfe xff x66 xa6 x45 x44)
(L (W x00 x00 x00 x00 x01 x00 x00 x00)) E)
(T (W x5c x00 x00 x00 x50 x00 x00 x00)
(L (W x74 x00 x00 x00 x68 x00 x00 x00)) E))))))
(T (W x00 x00 xe0 x40 x24 x01 x00 x00)
(T (W x04 x00 x00 x00 x42 xad xfc xff)
(T (W x00 x00 x00 x00 x08 xb8 xfc xff)
(T (W x45 x26 x22 x84 xe4 x9c xf2 xcb)
(T (W x00 x00 x00 x00 x00 x00 x00 x00)
(T (W x45 x26 x22 x84 xe4 x9c xf2 xcb)
(L (W x04 x00 x00 x00 x00 x00 x00 x00))
(L (W x45 x26 x22 x84 xe4 x9c xf2 xcb)))
(T (W x04 x18 xfe xff x00 x00 x00 x00)
(L (W x45 x26 x22 x84 xe4 x9c xf2 xcb)) E))
(T (W x00 x00 x00 x00 x00 x00 x00 x00)
(T (W x00 x00 x00 x00 x08 xd8 xfd xff)
(L (W x00 x00 x00 x00 x01 x00 x00 x00))
(L (W x45 x26 x22 x84 xe4 x9c xf2 xcb)))
(T (W x04 x00 x00 x00 x42 x5d xfe xff)
(L (W x45 x26 x22 x84 xe4 x9c xf2 xcb)) E)))
(T (W x00 x00 x80 xbf x9c x00 x00 x00)
(T (W x04 x00 x00 x00 x28 x3a xfd xff)
(T (W x01 x00 x00 x00 x00 x00 x80 x3f)
(L (W x45 x26 x22 x84 xe4 x9c xf2 xcb))
(L (W x3c x01 x00 x00 x30 x01 x00 x00)))
(T (W x82 x37 xfe xff x00 x00 x80 x3f)
(L (W x00 x00 x00 x00 x01 x00 x00 x00)) E))
(T (W x04 x00 x00 x00 x00 x00 x00 x00)
(T (W x01 x00 x00 x00 x01 x00 x00 x00)
(L (W x60 x00 x00 x00 x54 x00 x00 x00))
(L (W x04 xf8 xff xff x86 xf7 xff xff)))
(T (W xa4 x70 x19 x42 x52 xb8 x58 x44)
(L (W x82 x77 xff xff x00 x00 x80 x3f)) E))))
(T (W x3c x01 x00 x00 x30 x01 x00 x00)
(T (W x60 x00 x00 x00 x54 x00 x00 x00)
(T (W x34 x00 x00 x00 x20 x00 x00 x00)
(T (W x45 x26 x22 x84 xe4 x9c xf2 xcb)
(L (W x37 x00 x00 x00 x1b x00 x00 x00))
(L (W x00 x00 x00 x00 x01 x00 x00 x00)))
(T (W x45 x26 x22 x84 xe4 x9c xf2 xcb)
(L (W x1c x01 x00 x00 x02 x00 x00 x00)) E))
(T (W x00 x00 x00 x00 x08 x68 xfd xff)
(T (W x45 x26 x22 x84 xe4 x9c xf2 xcb)
(L (W x5f x4e x45 x57 x5f x4f x55 x54))
(L (W x34 x00 x00 x00 x20 x00 x00 x00)))
(T (W x00 x00 x00 x00 x00 x00 x00 x00)
(L (W x00 x00 x80 xbf x9c x00 x00 x00)) E)))
(T (W xa1 xbd x33 x97 x85 xaa x5f x5f)
(T (W x00 x00 x00 x00 x08 x48 xfd xff)
(T (W x04 xc8 xfd xff x00 x00 x00 x00)
(L (W xac xca xfe xff x50 x00 x00 x00))
(L (W x5c x00 x00 x00 x50 x00 x00 x00)))
(T (W x00 x00 x00 x00 x00 x00 x00 x00)
(L (W x45 x26 x22 x84 xe4 x9c xf2 xcb)) E))
(T (W x45 x41 x30 x32 x5f x30 x30 x37)
(T (W x2c x00 x00 x00 x18 x00 x00 x00)
(L (W x90 x07 xb9 x28 xbf xc9 x67 x6a)) E)
(T (W x2c x00 x00 x00 x20 x00 x00 x00)
(L (W x44 x00 x00 x00 x38 x00 x00 x00)) E)))))
(T (W x01 x00 x00 x00 x04 x00 x00 x00)
(T (W x04 xc0 xfc xff x86 xbf xfc xff)
(T (W x45 x26 x22 x84 xe4 x9c xf2 xcb)
(T (W x14 x00 x18 x00 x1c x00 x20 x00)
(T (W xc3 xf5 x17 x42 x52 x58 x53 x44)
(L (W x00 x00 x00 x00 x00 x00 x00 x00))
(L (W x48 x00 x00 x00 x34 x00 x00 x00)))
(T (W x55 x6c xfc xf1 x99 x9e xc9 x88)
(L (W x00 x00 x00 x00 x08 x20 xff xff)) E))
(T (W x54 x00 x00 x00 x48 x00 x00 x00)
(T (W x00 x00 x00 x00 x00 x00 x00 x00)
(L (W x00 x00 x00 x00 x00 x00 x00 x00))
(L (W x52 xb8 x45 x42 x14 x7e x2b x44)))
(T (W xe6 x5a xca xc9 x03 x86 xa3 xbc)
(L (W x00 x00 x00 x00 x01 x00 x00 x00)) E)))
(T (W x45 x26 x22 x84 xe4 x9c xf2 xcb)
(T (W x00 x00 x00 x00 xca x47 xfd xff)
(T (W x04 xc0 xfd xff x00 x00 x00 x00)
(L (W x00 x00 x00 x00 x00 x00 x00 x00))
(L (W x01 x00 x00 x00 x04 x00 x00 x00)))
(T (W x00 x00 x00 x00 x01 x00 x00 x00)
(L (W x3c x01 x00 x00 x30 x01 x00 x00)) E))
(T (W x00 x00 x00 x00 x01 x00 x00 x00)
(T (W x2c x00 x00 x00 x20 x00 x00 x00)
(L (W x00 x00 x80 xbf x9c x00 x00 x00))
(L (W x04 x00 x00 x00 x00 x00 x00 x00)))
(T (W x54 x00 x00 x00 x48 x00 x00 x00)
(L (W x04 x00 x00 x00 x42 x85 xff xff)) E))))
(T (W x34 x00 x00 x00 x20 x00 x00 x00)
(T (W x00 x00 x00 x00 x00 x00 x00 x00)
(T (W x45 x26 x22 x84 xe4 x9c xf2 xcb)
(T (W x00 x00 x00 x00 x08 xb0 xfd xff)
(L (W x45 x26 x22 x84 xe4 x9c xf2 xcb))
(L (W x00 x00 x00 x00 x08 xb0 xff xff)))
(T (W x45 x26 x22 x84 xe4 x9c xf2 xcb)
(L (W x04 x30 xff xff x00 x00 x00 x00)) E))
(T (W x00 x00 x00 x00 x00 x00 x00 x00)
(T (W x04 x00 x00 x00 x28 xf2 xfd xff)
(L (W x45 x26 x22 x84 xe4 x9c xf2 xcb))
(L (W xac xf2 xff xff x50 x00 x00 x00)))
(T (W x00 x00 x00 x00 x08 x70 xfe xff)
(L (W x01 x00 x00 x00 x04 x00 x00 x00)) E)))
(T (W x78 x00 x00 x00 x6c x00 x00 x00)
(T (W x55 x6c xfc xf1 x99 x9e xc9 x88)
(T (W x45 x26 x22 x84 xe4 x9c xf2 xcb)
(L (W x14 x0e x94 x43 x00 x00 x00 x00))
(L (W x85 xb7 x94 x16 x1e x50 xd3 xd2)))
(T (W x45 x26 x22 x84 xe4 x9c xf2 xcb)
(L (W x00 x00 x80 x3f x00 x00 x80 x3f)) E))
(T (W x54 x00 x00 x00 x48 x00 x00 x00)
(T (W x00 x00 x80 xbf x00 x00 x80 xbf)
(L (W x9a xa9 x0e x44 x33 xb3 x9a x42)) E)
(T (W x00 x00 x00 x00 x00 x00 x00 x00)
(L (W x00 x00 x00 x00 x00 x00 x00 x00)) E)))))))))
(T (W xdc xb4 x02 x00 xf0 xb2 x02 x00)
(T (W x8c x3e x02 x00 xa8 x3c x02 x00)
(T (W xfc x51 x01 x00 x10 x50 x01 x00)
(T (W x00 x00 x00 x00 x88 x99 xfc xff)
(T (W x84 xa1 xfc xff x06 xa1 xfc xff)
(T (W x00 x00 x00 x00 x01 x00 x00 x00)
(T (W x00 x00 x00 x00 x00 x00 x00 x00)
(T (W x2c x00 x00 x00 x20 x00 x00 x00)
(T (W x00 x00 xa0 x40 x24 x01 x00 x00)
(L (W x44 x00 x00 x00 x30 x00 x00 x00))
(L (W x55 x6c xfc xf1 x99 x9e xc9 x88)))
(T (W x00 x00 x00 x00 x00 x00 x00 x00)
(L (W x74 x00 x00 x00 x68 x00 x00 x00)) E))
(T (W x00 x00 x00 x00 x00 x00 x00 x00)
(T (W x3c x01 x00 x00 x30 x01 x00 x00)
(L (W x5c x00 x00 x00 x50 x00 x00 x00))
(L (W x00 x00 x00 x00 x00 x00 x00 x00)))
(T (W x00 x00 x00 x00 x88 x51 xfe xff)
(L (W x00 x00 x00 x00 x01 x00 x00 x00)) E)))
(T (W x78 x00 x00 x00 x6c x00 x00 x00)
(T (W x04 x00 x00 x00 x00 x00 x00 x00)
(T (W x2c x00 x00 x00 x20 x00 x00 x00)
(L (W x45 x26 x22 x84 xe4 x9c xf2 xcb))
(L (W x44 x00 x00 x00 x38 x00 x00 x00)))
(T (W x45 x26 x22 x84 xe4 x9c xf2 xcb)
(L (W x00 x00 x00 x00 x01 x00 x00 x00)) E))
(T (W x00 x00 x00 x00 x01 x00 x00 x00)
(T (W x45 x26 x22 x84 xe4 x9c xf2 xcb)
(L (W xe3 xd8 x1b x72 x9d x09 xa7 xbe))
(L (W x45 x26 x22 x84 xe4 x9c xf2 xcb)))
(T (W x40 x00 x00 x00 x38 x00 x00 x00)
(L (W x40 x00 x00 x00 x38 x00 x00 x00)) E))))
(T (W x00 x00 x00 x00 x00 x00 x00 x00)
(T (W x45 x26 x22 x84 xe4 x9c xf2 xcb)
(T (W x78 x00 x00 x00 x6c x00 x00 x00)
(T (W x74 x00 x00 x00 x68 x00 x00 x00)
(L (W x2c xa4 xfe xff x50 x00 x00 x00))
(L (W x45 x26 x22 x84 xe4 x9c xf2 xcb)))
(T (W x00 x00 x00 x00 x00 x00 x00 x00)
(L (W x01 x00 x00 x00 x04 x00 x00 x00)) E))
(T (W x00 x00 x80 xbf x00 x00 x80 xbf)
(T (W x28 x00 x00 x00 x14 x00 x00 x00)
(L (W x00 x00 x00 x00 x88 xe1 xfe xff))
(L (W x84 xe1 xff xff x00 x00 x00 x00)))
(T (W x45 x26 x22 x84 xe4 x9c xf2 xcb)
(L (W x45 x26 x22 x84 xe4 x9c xf2 xcb)) E)))
(T (W x00 x00 x80 xbf x00 x00 x80 xbf)
(T (W x02 x41 xfd xff x00 x00 x80 x3f)
(T (W x00 x00 x00 x00 x01 x00 x00 x00)
(L (W x45 x26 x22 x84 xe4 x9c xf2 xcb))
(L (W x04 x00 x00 x00 xc2 xc6 xff xff)))
(T (W x00 x00 x80 x40 x24 x01 x00 x00)
(L (W x00 x00 x80 x3f x00 x00 x80 x3f)) E))
(T (W x45 x26 x22 x84 xe4 x9c xf2 xcb)
(T (W x45 x26 x22 x84 xe4 x9c xf2 xcb)
(L (W x00 x00 x00 x00 x00 x00 x00 x00)) E)
(T (W x00 x00 x80 xbf x9c x00 x00 x00)
(L (W x00 x00 xa0 x40 x24 x01 x00 x00)) E)))))
(T (W x3c x01 x00 x00 x30 x01 x00 x00)
(T (W x00 x00 x00 x00 x88 xb9 xfc xff)
(T (W x00 x00 x80 xbf x9c x00 x00 x00)
(T (W x04 x00 x00 x00 x70 x19 xfd xff)
(T (W x45 x26 x22 x84 xe4 x9c xf2 xcb)
(L (W x45 x41 x30 x32 x5f x30 x31 x32))
(L (W x00 x00 x00 x00 x01 x00 x00 x00)))
(T (W x04 x00 x00 x00 xc2 x1e xfe xff)
(L (W x34 x00 x00 x00 x20 x00 x00 x00)) E))
(T (W x04 x00 x00 x00 xa8 x5b xfd xff)
(T (W x2c x00 x00 x00 x20 x00 x00 x00)
(L (W x34 x01 x00 x00 x00 x00 xa0 x40))
(L (W x00 x00 x00 x00 x88 xd9 xff xff)))
(T (W x3c x01 x00 x00 x30 x01 x00 x00)
(L (W x34 x00 x00 x00 x20 x00 x00 x00)) E)))
(T (W x00 x00 x00 x00 x00 x00 x00 x00)
(T (W x44 x00 x00 x00 x38 x00 x00 x00)
(T (W x0a x97 x5b x44 x00 x00 x00 x00)
(L (W x45 x26 x22 x84 xe4 x9c xf2 xcb))
(L (W x00 x00 x80 x3f x00 x00 x80 x3f)))
(T (W x84 x39 xfe xff x00 x00 x00 x00)
(L (W x44 x00 x00 x00 x38 x00 x00 x00)) E))
(T (W x1c x01 x00 x00 x01 x00 x00 x00)
(T (W x02 xf9 xfd xff x66 x86 x47 x44)
(L (W xa0 x81 xa7 x28 xbf x47 x53 x6a))
(L (W x00 x00 x00 x00 x00 x00 x00 x00)))
(T (W x84 x79 xfe xff x00 x00 x00 x00)
(L (W x84 x79 xff xff x00 x00 x00 x00)) E))))
(T (W x00 x00 x80 x3f x00 x00 x80 x3f)
(T (W x80 x96 x30 x97 x85 x1c x5c x5f)
(T (W x7b x74 xb3 x43 x00 x00 x00 x00)
(T (W x3c x01 x00 x00 x30 x01 x00 x00)
(L (W x44 x00 x00 x00 x30 x00 x00 x00))
(L (W x00 x00 xa0 x40 x24 x01 x00 x00)))
(T (W x3c x01 x00 x00 x30 x01 x00 x00)
(L (W x33 x33 xe0 x43 x33 x33 x25 x42)) E))
(T (W x44 x00 x00 x00 x38 x00 x00 x00)
(T (W x01 x00 x00 x00 x00 x00 x80 x3f)
(L (W x2c x00 x00 x00 x18 x00 x00 x00))
(L (W x00 x00 x00 x00 x00 x00 x00 x00)))
(T (W x28 x00 x00 x00 x14 x00 x00 x00)
(L (W x00 x00 x00 x00 x00 x00 x00 x00)) E)))
(T (W x45 x26 x22 x84 xe4 x9c xf2 xcb)
(T (W x04 x00 x00 x00 xc2 x4e xfd xff)
(T (W x44 x0e xb3 x28 xbf xdf x60 x6a)
(L (W x45 x26 x22 x84 xe4 x9c xf2 xcb))
(L (W x00 x00 x00 x00 x00 x00 x00 x00)))
(T (W x45 x26 x22 x84 xe4 x9c xf2 xcb)
(L (W x04 x00 x00 x00 x00 x00 x00 x00)) E))
(T (W x55 x6c xfc xf1 x99 x9e xc9 x88)
(T (W x45 x26 x22 x84 xe4 x9c xf2 xcb)
(L (W x45 x26 x22 x84 xe4 x9c xf2 xcb)) E)
(T (W x45 x26 x22 x84 xe4 x9c xf2 xcb)
(L (W x45 x26 x22 x84 xe4 x9c xf2 xcb)) E))))))
(T (W x44 x00 x00 x00 x30 x00 x00 x00)
(T (W x00 x00 x00 x00 x1c x00 x00 x00)
(T (W x45 x26 x22 x84 xe4 x9c xf2 xcb)
(T (W x7a xb9 xff xff x00 x00 x00 x01)
(T (W x00 x00 x00 x00 x00 x00 x00 x00)
(T (W x04 x00 x00 x00 x00 x00 x00 x00)
(L (W x00 x00 x00 x00 x00 x00 x00 x00))
(L (W x00 x00 x00 x00 x00 x00 x00 x00)))
(T (W x00 x00 x80 xbf x00 x00 x80 xbf)
(L (W x00 x00 x00 x00 x00 x00 x00 x00)) E))
(T (W x00 x00 x00 x00 x00 x00 x00 x00)
(T (W x54 x00 x00 x00 x48 x00 x00 x00)
(L (W x84 xd5 xfe xff x06 xd5 xfe xff))
(L (W x00 x00 x00 x00 x01 x00 x00 x00)))
(T (W x02 x55 xfe xff x00 x00 x80 x3f)
(L (W x00 x00 x00 x00 x00 x00 x00 x00)) E)))
(T (W x00 x00 x00 x00 x06 xf5 xfc xff)
(T (W x45 x26 x22 x84 xe4 x9c xf2 xcb)
(T (W x78 x00 x00 x00 x6c x00 x00 x00)
(L (W x54 x00 x00 x00 x48 x00 x00 x00))
(L (W x78 x00 x00 x00 x6c x00 x00 x00)))
(T (W x00 x00 x00 x00 x88 x35 xfe xff)
(L (W x45 x26 x22 x84 xe4 x9c xf2 xcb)) E))
(T (W x45 x26 x22 x84 xe4 x9c xf2 xcb)
(T (W x28 x00 x00 x00 x14 x00 x00 x00)
(L (W x84 xf5 xfe xff x00 x00 x00 x00))
(L (W x2c xf8 xff xff x50 x00 x00 x00)))
(T (W x2c x00 x00 x00 x20 x00 x00 x00)
(L (W x2c x00 x00 x00 x20 x00 x00 x00)) E))))
(T (W x5c x00 x00 x00 x50 x00 x00 x00)
(T (W x84 xe5 xfc xff x00 x00 x00 x00)
(T (W x02 x25 xfd xff x00 x00 x80 x3f)
(T (W x00 x00 x00 x00 x06 xa5 xfd xff)
(L (W x00 x00 x00 x00 x00 x00 x00 x00))
(L (W x28 x00 x00 x00 x14 x00 x00 x00)))
(T (W x44 x00 x00 x00 x30 x00 x00 x00)
(L (W x00 x00 x00 x00 x01 x00 x00 x00)) E))
(T (W x54 x00 x00 x00 x48 x00 x00 x00)
(T (W x00 x00 x00 x00 x00 x00 x00 x00)
(L (W x84 xe5 xfe xff x00 x00 x00 x00))
(L (W x28 x00 x00 x00 x14 x00 x00 x00)))
(T (W x45 x26 x22 x84 xe4 x9c xf2 xcb)
(L (W x5c x00 x00 x00 x50 x00 x00 x00)) E)))
(T (W x00 x00 x00 x00 x01 x00 x00 x00)
(T (W x00 x00 x80 x3f x02 x00 x00 x00)
(T (W x45 x26 x22 x84 xe4 x9c xf2 xcb)
(L (W x01 x00 x00 x00 x00 x00 x80 x3f))
(L (W x84 xc5 xff xff x00 x00 x00 x00)))
(T (W x04 x00 x00 x00 x00 x00 x00 x00)
(L (W x00 x00 xa0 x40 x24 x01 x00 x00)) E))
(T (W x04 x00 x00 x00 x70 x85 xfd xff)
(T (W x01 x00 x00 x00 x04 x00 x00 x00)
(L (W x34 x00 x00 x00 x20 x00 x00 x00)) E)
(T (W x04 x00 x00 x00 x00 x00 x00 x00)
(L (W xfe x76 x86 xcd x5f xef x6f xc0)) E)))))
(T (W x34 x00 x00 x00 x20 x00 x00 x00)
(T (W x45 x26 x22 x84 xe4 x9c xf2 xcb)
(T (W x04 x00 x00 x00 x00 x00 x00 x00)
(T (W x04 x00 x00 x00 xa8 x1f xfd xff)
(T (W x2c x00 x00 x00 x20 x00 x00 x00)
(L (W x00 x00 x00 x00 x01 x00 x00 x00))
(L (W x00 x00 x00 x00 x88 x9d xff xff)))
(T (W x84 x1d xfe xff x00 x00 x00 x00)
(L (W x54 x00 x00 x00 x48 x00 x00 x00)) E))
(T (W x00 x00 x00 x00 x00 x00 x00 x00)
(T (W x00 x00 x00 x00 x00 x00 x00 x00)
(L (W x04 x00 x00 x00 xc2 xe2 xfe xff))
(L (W x14 x59 x69 x12 x83 x77 x37 xc6)))
(T (W x00 x00 x00 x00 x01 x00 x00 x00)
(L (W x45 x26 x22 x84 xe4 x9c xf2 xcb)) E)))
(T (W x5f x41 x52 x45 x41 x30 x32 x00)
(T (W x00 x00 x00 x00 x00 x00 x00 x00)
(T (W x00 x00 x80 xbf x00 x00 x80 xbf)
(L (W x00 x00 x00 x00 x00 x00 x00 x00))
(L (W x00 x00 x80 xbf x9c x00 x00 x00)))
(T (W x00 x00 x00 x00 x00 x00 x00 x00)
(L (W x00 x00 x00 x00 x88 x3d xff xff)) E))
(T (W x45 x26 x22 x84 xe4 x9c xf2 xcb)
(T (W x00 x00 x80 xbf x9c x00 x00 x00)
(L (W x44 x00 x00 x00 x30 x00 x00 x00))
(L (W x2f x4d x69 x12 x83 x70 x37 xc6)))
(T (W x00 x00 x00 x00 x00 x00 x00 x00)
(L (W xa4 x70 x16 x42 xc3 x65 x3b x44)) E))))
(T (W x00 x00 x80 x3f x00 x00 x80 x3f)
(T (W x00 x00 x00 x00 x00 x00 x00 x00)
(T (W x22 x51 xfd xff x00 x00 x00 x01)
(T (W x54 x00 x00 x00 x48 x00 x00 x00)
(L (W x5f x4d x41 x53 x53 x5f x47 x41))
(L (W x40 x00 x00 x00 x38 x00 x00 x00)))
(T (W xee x28 xed xee x7f xad x15 xe0)
(L (W x01 x00 x00 x00 x00 x00 x80 x3f)) E))
(T (W x00 x00 x00 x00 x00 x00 x00 x00)
(T (W x45 x26 x22 x84 xe4 x9c xf2 xcb)
(L (W x00 x00 x00 x00 x00 x00 x00 x00))
(L (W x01 x00 x00 x00 x00 x00 x80 x3f)))
(T (W x00 x00 x40 x40 x24 x01 x00 x00)
(L (W x34 x00 x00 x00 x20 x00 x00 x00)) E)))
(T (W x00 x00 x00 x00 x88 x0d xfd xff)
(T (W x44 x00 x00 x00 x38 x00 x00 x00)
(T (W x44 x00 x00 x00 x30 x00 x00 x00)
(L (W x2c x00 x00 x00 x20 x00 x00 x00))
(L (W x28 x00 x00 x00 x14 x00 x00 x00)))
(T (W x84 x4d xfe xff x00 x00 x00 x00)
(L (W x01 x00 x00 x00 x04 x00 x00 x00)) E))
(T (W x00 x00 x00 x00 x00 x00 x00 x00)
(T (W x04 x00 x00 x00 x70 x0d xfe xff)
(L (W x44 x00 x00 x00 x38 x00 x00 x00)) E)
(T (W x00 x00 x00 x00 x00 x00 x00 x00)
(L (W x00 x00 x00 x00 x00 x00 x00 x00)) E)))))))
(T (W x38 x62 x00 x00 x4c x60 x00 x00)
(T (W x04 x00 x00 x00 xa8 x9d xfc xff)
(T (W x00 x00 x00 x00 x00 x00 x00 x00)
(T (W x40 x00 x00 x00 x38 x00 x00 x00)
(T (W x5f x4d x41 x53 x53 x5f x47 x41)
(T (W x45 x26 x22 x84 xe4 x9c xf2 xcb)
(T (W x00 x00 x80 xbf x00 x00 x80 xbf)
(L (W x02 x93 xfe xff x66 x86 x0a x44))
(L (W x02 x93 xff xff xf6 x28 x7d x43)))
(T (W x00 x00 x80 x40 x24 x01 x00 x00)
(L (W x45 x26 x22 x84 xe4 x9c xf2 xcb)) E))
(T (W x00 x00 x00 x00 x00 x00 x00 x00)
(T (W x3b xa6 x32 x19 x15 x7d xe9 x0b)
(L (W x55 x6c xfc xf1 x99 x9e xc9 x88))
(L (W x00 x00 x80 xbf x9c x00 x00 x00)))
(T (W x04 x00 x00 x00 xa8 x55 xfe xff)
(L (W x45 x26 x22 x84 xe4 x9c xf2 xcb)) E)))
(T (W x2c x00 x00 x00 x18 x00 x00 x00)
(T (W x45 x26 x22 x84 xe4 x9c xf2 xcb)
(T (W x00 x00 x00 x00 x00 x00 x00 x00)
(L (W x04 x00 x00 x00 xc2 xb8 xfe xff))
(L (W x00 x00 x00 x00 x00 x00 x00 x00)))
(T (W x45 x26 x22 x84 xe4 x9c xf2 xcb)
(L (W x45 x26 x22 x84 xe4 x9c xf2 xcb)) E))
(T (W x60 x00 x00 x00 x54 x00 x00 x00)
(T (W x84 xf3 xfd xff x00 x00 x00 x00)
(L (W x45 x26 x22 x84 xe4 x9c xf2 xcb))
(L (W x45 x26 x22 x84 xe4 x9c xf2 xcb)))
(T (W x00 x00 x00 x00 x88 x73 xfe xff)
(L (W x45 x26 x22 x84 xe4 x9c xf2 xcb)) E))))
(T (W x00 x00 x00 x00 x01 x00 x00 x00)
(T (W x45 x26 x22 x84 xe4 x9c xf2 xcb)
(T (W x78 x00 x00 x00 x6c x00 x00 x00)
(T (W x28 x00 x00 x00 x14 x00 x00 x00)
(L (W xe4 x6b xca xc9 x03 x90 xa3 xbc))
(L (W x00 x00 x00 x00 x88 xa3 xff xff)))
(T (W x00 x00 x00 x00 x00 x00 x00 x00)
(L (W x00 x00 x00 x00 x00 x00 x00 x00)) E))
(T (W x93 xd0 xaa x00 x15 x2b x9a xe0)
(T (W x5c x8f x08 x42 x1f x65 x5d x44)
(L (W x45 x26 x22 x84 xe4 x9c xf2 xcb))
(L (W x78 x00 x00 x00 x6c x00 x00 x00)))
(T (W x84 x63 xfe xff x00 x00 x00 x00)
(L (W x00 x00 x00 x00 x00 x00 x00 x00)) E)))
(T (W xdc x0c xb5 x4b xbc xab xfa xea)
(T (W x00 x00 x00 x00 x00 x00 x00 x00)
(T (W x04 x00 x00 x00 xc2 xc8 xfd xff)
(L (W x00 x00 x00 x00 x00 x00 x00 x00))
(L (W x45 x26 x22 x84 xe4 x9c xf2 xcb)))
(T (W x00 x00 x80 xbf x00 x00 x80 xbf)
(L (W x00 x00 x00 x00 x00 x00 x00 x00)) E))
(T (W x00 x00 x00 x00 x88 x83 xfd xff)
(T (W x00 x00 x00 x00 x88 x03 xfe xff)
(L (W x00 x00 x00 x00 x4a x0b xff xff)) E)
(T (W x99 x8c x5f xc4 x9d xd7 x9a xc5)
(L (W x00 x00 x80 xbf x9c x00 x00 x00)) E)))))
(T (W x04 x00 x00 x00 x00 x00 x80 x3f)
(T (W x44 x00 x00 x00 x38 x00 x00 x00)
(T (W xd3 xf1 xb6 x36 xc4 x3c x51 x4d)
(T (W x44 x00 x00 x00 x30 x00 x00 x00)
(T (W x45 x26 x22 x84 xe4 x9c xf2 xcb)
(L (W x00 x00 x80 xbf x9c x00 x00 x00))
(L (W x45 x26 x22 x84 xe4 x9c xf2 xcb)))
(T (W x45 x26 x22 x84 xe4 x9c xf2 xcb)
(L (W x00 x00 x00 x00 x01 x00 x00 x00)) E))
(T (W x02 x5b xfd xff x00 x00 x80 x3f)
(T (W x45 x26 x22 x84 xe4 x9c xf2 xcb)
(L (W x34 x00 x00 x00 x20 x00 x00 x00))
(L (W xe5 xdc xac x28 xbf xd4 x59 x6a)))
(T (W xd6 x76 xbd x31 x15 x43 x3c x37)
(L (W x04 x00 x00 x00 xc2 x60 xff xff)) E)))
(T (W x1b x00 x00 x00 x57 x53 x59 x53)
(T (W x45 x26 x22 x84 xe4 x9c xf2 xcb)
(T (W x00 x00 xa0 x40 x24 x01 x00 x00)
(L (W x2c xbe xfe xff x50 x00 x00 x00))
(L (W x00 x00 x00 x00 x00 x00 x00 x00)))
(T (W x45 x26 x22 x84 xe4 x9c xf2 xcb)
(L (W x45 x26 x22 x84 xe4 x9c xf2 xcb)) E))
(T (W x45 x26 x22 x84 xe4 x9c xf2 xcb)
(T (W x00 x00 x00 x00 x00 x00 x00 x00)
(L (W x00 x00 x00 x00 x00 x00 x00 x00))
(L (W x00 x00 x00 x00 x00 x00 x00 x00)))
(T (W x45 x26 x22 x84 xe4 x9c xf2 xcb)
(L (W x28 x00 x00 x00 x14 x00 x00 x00)) E))))
(T (W xae x97 x14 x44 x00 x00 x00 x00)
(T (W x00 x00 x00 x00 x00 x00 x00 x00)
(T (W x00 x00 x00 x00 x00 x00 x00 x00)
(T (W x78 x0d x7a x1e x15 x31 x03 x15)
(L (W xec x71 x10 x44 x1f x85 xee x42))
(L (W x10 xf7 x17 xc3 xed xca xfd x23)))
(T (W xdd xf5 x04 x37 x15 x05 x56 x40)
(L (W x3c x01 x00 x00 x30 x01 x00 x00)) E))
(T (W x45 x26 x22 x84 xe4 x9c xf2 xcb)
(T (W x00 x00 x00 x00 x01 x00 x00 x00)
(L (W x02 xeb xfe xff x00 x00 x80 x3f))
(L (W x5f x4e x45 x57 x5f x4f x55 x54)))
(T (W x33 x53 xed x43 x00 x00 x00 x00)
(L (W x32 x6f xff xff x40 x01 x00 x00)) E)))
(T (W x45 x26 x22 x84 xe4 x9c xf2 xcb)
(T (W x45 x26 x22 x84 xe4 x9c xf2 xcb)
(T (W x00 x00 x00 x00 x00 x00 x00 x00)
(L (W x45 x26 x22 x84 xe4 x9c xf2 xcb))
(L (W x00 x00 x00 x00 x88 xcb xff xff)))
(T (W x45 x26 x22 x84 xe4 x9c xf2 xcb)
(L (W x45 x26 x22 x84 xe4 x9c xf2 xcb)) E))
(T (W x00 x00 x80 x3f x88 x8b xfd xff)
(T (W x00 x00 x00 x00 x00 x00 x00 x00)
(L (W x84 x0b xff xff x00 x00 x00 x00)) E)
(T (W x2c x8e xfe xff x50 x00 x00 x00)
(L (W x01 x00 x00 x00 x04 x00 x00 x00)) E))))))
(T (W x4f x84 x6f x8b xe8 xcb x63 xb7)
(T (W x4b x5f x41 x52 x45 x41 x30 x32)
(T (W x45 x26 x22 x84 xe4 x9c xf2 xcb)
(T (W x1c x01 x00 x00 x04 x00 x00 x00)
(T (W x00 x00 x00 x00 x88 x17 xfd xff)
(T (W x40 x00 x00 x00 x38 x00 x00 x00)
(L (W x1c x00 x00 x00 x46 x53 x59 x53))
(L (W x01 x00 x00 x00 x00 x00 x80 x3f)))
(T (W x9e x6e xee x13 x15 x5c xd3 x02)
(L (W x1c x01 x00 x00 x01 x00 x00 x00)) E))
(T (W x00 x00 x00 x00 x88 x57 xfd xff)
(T (W x45 x26 x22 x84 xe4 x9c xf2 xcb)
(L (W x00 x00 x00 x00 x00 x00 x00 x00))
(L (W x40 x00 x00 x00 x38 x00 x00 x00)))
(T (W x00 x00 x00 x00 x00 x00 x00 x00)
(L (W x02 x00 x00 x00 x00 x00 x80 x3f)) E)))
(T (W x02 xf7 xfc xff xae x07 xc4 x43)
(T (W x00 x00 x00 x00 x88 x37 xfd xff)
(T (W x28 x00 x00 x00 x14 x00 x00 x00)
(L (W x54 x00 x00 x00 x48 x00 x00 x00))
(L (W x74 x00 x00 x00 x68 x00 x00 x00)))
(T (W x45 x26 x22 x84 xe4 x9c xf2 xcb)
(L (W x84 x37 xff xff x00 x00 x00 x00)) E))
(T (W x00 x00 x00 x00 x00 x00 x00 x00)
(T (W x02 xf7 xfd xff x00 x00 x80 x3f)
(L (W x2c xfa xfe xff x50 x00 x00 x00))
(L (W x00 x00 x00 x00 x00 x00 x00 x00)))
(T (W x00 x00 x00 x00 x00 x00 x00 x00)
(L (W x45 x26 x22 x84 xe4 x9c xf2 xcb)) E))))
(T (W x49 xa1 x68 x4a xeb x5f xdd x3d)
(T (W x2c xea xfc xff x50 x00 x00 x00)
(T (W x84 x27 xfd xff x06 x27 xfd xff)
(T (W x71 x3d x41 x44 x3d x0a x05 x42)
(L (W x00 x00 x00 x00 x01 x00 x00 x00))
(L (W x00 x00 x27 x44 x00 x00 x00 x00)))
(T (W xc3 x95 x45 x44 x85 xeb x74 x42)
(L (W x55 x6c xfc xf1 x99 x9e xc9 x88)) E))
(T (W x45 x26 x22 x84 xe4 x9c xf2 xcb)
(T (W x3c x01 x00 x00 x30 x01 x00 x00)
(L (W x78 x00 x00 x00 x6c x00 x00 x00))
(L (W x66 x06 x4f x44 x00 x00 x00 x00)))
(T (W x00 x00 x00 x00 x88 x67 xfe xff)
(L (W x84 x67 xff xff x06 x67 xff xff)) E)))
(T (W x04 x00 x00 x00 xc2 x0c xfd xff)
(T (W x34 x00 x00 x00 x20 x00 x00 x00)
(T (W x00 x00 x00 x00 x88 xc7 xfd xff)
(L (W x00 x00 x00 x00 x01 x00 x00 x00))
(L (W x2c xca xff xff x50 x00 x00 x00)))
(T (W x45 x26 x22 x84 xe4 x9c xf2 xcb)
(L (W x00 x00 x80 xbf x00 x00 x80 xbf)) E))
(T (W x48 x00 x00 x00 x34 x00 x00 x00)
(T (W x2c x00 x00 x00 x20 x00 x00 x00)
(L (W x04 x00 x00 x00 xc2 x0c xff xff)) E)
(T (W x00 x00 x00 x00 x01 x00 x00 x00)
(L (W x04 x00 x00 x00 x00 x00 x00 x00)) E)))))
(T (W x45 x26 x22 x84 xe4 x9c xf2 xcb)
(T (W x00 x00 x00 x00 x00 x00 x00 x00)
(T (W x54 x00 x00 x00 x48 x00 x00 x00)
(T (W x5c x00 x00 x00 x50 x00 x00 x00)
(T (W x00 x00 x00 x00 x00 x00 x00 x00)
(L (W x45 x26 x22 x84 xe4 x9c xf2 xcb))
(L (W x44 x00 x00 x00 x38 x00 x00 x00)))
(T (W x45 x26 x22 x84 xe4 x9c xf2 xcb)
(L (W x45 x26 x22 x84 xe4 x9c xf2 xcb)) E))
(T (W x54 x49 x4f x4e x5f x41 x52 x45)
(T (W x00 x00 x00 x00 x88 xdf xfd xff)
(L (W x45 x26 x22 x84 xe4 x9c xf2 xcb))
(L (W x00 x00 x00 x00 x00 x00 x00 x00)))
(T (W x04 x00 x00 x00 xc2 x64 xfe xff)
(L (W x84 x5f xff xff x00 x00 x00 x00)) E)))
(T (W x00 x00 xe0 x40 x24 x01 x00 x00)
(T (W x04 x00 x00 x00 xa8 x41 xfd xff)
(T (W x3a x03 x77 x1e x15 xb4 xff x14)
(L (W x00 x00 x00 x00 x01 x00 x00 x00))
(L (W x45 x26 x22 x84 xe4 x9c xf2 xcb)))
(T (W x00 x00 x00 x00 x00 x00 x00 x00)
(L (W x74 x00 x00 x00 x68 x00 x00 x00)) E))
(T (W x84 x7f xfd xff x00 x00 x00 x00)
(T (W x00 x00 x00 x00 x01 x00 x00 x00)
(L (W x02 xff xfe xff xec xd1 x1f x44))
(L (W x84 xff xff xff x01 x00 x00 x00)))
(T (W x5f x30 x30 x36 x00 x00 x00 x00)
(L (W x00 x00 x00 x00 x00 x00 x00 x00)) E))))
(T (W xa4 x70 x17 x42 xe1 x9a x61 x44)
(T (W x84 xef xfc xff x00 x00 x00 x00)
(T (W x00 x00 x80 xbf x9c x00 x00 x00)
(T (W x45 x26 x22 x84 xe4 x9c xf2 xcb)
(L (W x01 x00 x00 x00 x01 x00 x00 x00))
(L (W x45 x26 x22 x84 xe4 x9c xf2 xcb)))
(T (W x40 x00 x00 x00 x38 x00 x00 x00)
(L (W x5e x74 x89 xe8 x48 xdb x3e x2f)) E))
(T (W x00 x00 x00 x00 x00 x00 x00 x00)
(T (W x00 x00 x00 x00 x88 xef xfd xff)
(L (W x00 x00 x80 x3f x02 x00 x00 x00))
(L (W x00 x00 x00 x00 x01 x00 x00 x00)))
(T (W x06 xfe x3b x51 xa5 x9a x1e x02)
(L (W x96 xda x1b x72 x9d x0a xa7 xbe)) E)))
(T (W x01 x00 x00 x00 x04 x00 x00 x00)
(T (W x45 x26 x22 x84 xe4 x9c xf2 xcb)
(T (W xb8 x4e x33 x44 x00 x00 x12 x42)
(L (W x00 x00 x00 x00 x00 x00 x00 x00))
(L (W x1f x65 xf0 x43 x00 x00 x00 x00)))
(T (W x45 x26 x22 x84 xe4 x9c xf2 xcb)
(L (W x00 x00 x00 x00 x00 x00 x00 x00)) E))
(T (W x00 x00 x00 x00 x00 x00 x00 x00)
(T (W x45 x26 x22 x84 xe4 x9c xf2 xcb)
(L (W x00 x00 x00 x00 x00 x00 x00 x00)) E)
(T (W x00 x00 x00 x00 x00 x00 x00 x00)
(L (W x00 x00 x00 x00 x01 x00 x00 x00)) E))))))))
(T (W xac xc8 x01 x00 xc0 xc6 x01 x00)
(T (W xac xdb x00 x00 xc0 xd9 x00 x00)
(T (W xbc x22 xf5 x83 x79 xca x45 x42)
(T (W x45 x26 x22 x84 xe4 x9c xf2 xcb)
(T (W x28 x00 x00 x00 x14 x00 x00 x00)
(T (W x01 x00 x00 x00 x04 x00 x00 x00)
(T (W x7a xf6 xff xff x00 x00 x00 x01)
(T (W x00 x00 x00 x00 x00 x00 x00 x00)
(L (W x45 x26 x22 x84 xe4 x9c xf2 xcb))
(L (W x45 x26 x22 x84 xe4 x9c xf2 xcb)))
(T (W x2c x15 xfe xff x50 x00 x00 x00)
(L (W x04 x00 x00 x00 xc2 x17 xff xff)) E))
(T (W x34 x01 x00 x00 x01 x00 x00 x00)
(T (W x00 x00 x00 x00 x00 x00 x00 x00)
(L (W x54 x00 x00 x00 x48 x00 x00 x00))
(L (W x45 x26 x22 x84 xe4 x9c xf2 xcb)))
(T (W x86 xc9 x0d xad xc3 xf7 x0c x30)
(L (W x54 x00 x00 x00 x48 x00 x00 x00)) E)))
(T (W x00 x00 x00 x00 x01 x00 x00 x00)
(T (W x44 x00 x00 x00 x30 x00 x00 x00)
(T (W x01 x00 x00 x00 x00 x00 x80 x3f)
(L (W x74 x00 x00 x00 x68 x00 x00 x00))
(L (W x1c x01 x00 x00 x01 x00 x00 x00)))
(T (W x02 x32 xfe xff x48 x21 x58 x44)
(L (W x5c x00 x00 x00 x50 x00 x00 x00)) E))
(T (W x00 x00 x00 x00 x01 x00 x00 x00)
(T (W x34 x00 x00 x00 x20 x00 x00 x00)
(L (W x74 x00 x00 x00 x68 x00 x00 x00))
(L (W x84 xf2 xff xff x06 xf2 xff xff)))
(T (W x02 x72 xfe xff x00 x00 x80 x3f)
(L (W x00 x00 x00 x00 x06 x72 xff xff)) E))))
(T (W x46 xbe x83 x67 x2b x76 xed x8e)
(T (W x00 x00 x80 x3f x88 xe2 xfc xff)
(T (W x45 x26 x22 x84 xe4 x9c xf2 xcb)
(T (W x00 x00 x00 x00 x01 x00 x00 x00)
(L (W x42 x52 x45 x41 x4b x5f x41 x52))
(L (W x00 x00 x80 xbf x9c x00 x00 x00)))
(T (W x00 x00 x80 xbf x00 x00 x80 xbf)
(L (W x3c x01 x00 x00 x30 x01 x00 x00)) E))
(T (W x00 x00 x00 x00 x00 x00 x00 x00)
(T (W x45 x26 x22 x84 xe4 x9c xf2 xcb)
(L (W x00 x00 x00 x00 x4a xea xfe xff))
(L (W x15 xe3 x1b x72 x9d x0f xa7 xbe)))
(T (W x00 x00 x80 x3f x00 x00 x80 x3f)
(L (W x00 x00 x80 xbf x00 x00 x80 xbf)) E)))
(T (W x00 x00 x00 x00 x00 x00 x00 x00)
(T (W x00 x00 x00 x00 x88 x42 xfd xff)
(T (W x60 x00 x00 x00 x54 x00 x00 x00)
(L (W x45 x26 x22 x84 xe4 x9c xf2 xcb))
(L (W x45 x26 x22 x84 xe4 x9c xf2 xcb)))
(T (W x00 x00 x00 x00 x00 x00 x00 x00)
(L (W x84 x42 xff xff x00 x00 x00 x00)) E))
(T (W x00 x00 x80 xbf x9c x00 x00 x00)
(T (W x14 xae x0d x42 x66 x76 x4d x44)
(L (W x00 x00 x00 x00 x88 x02 xff xff)) E)
(T (W x00 x00 x00 x00 x88 x82 xfe xff)
(L (W x00 x00 x00 x00 x00 x00 x00 x00)) E)))))
(T (W x00 x00 x00 x00 x00 x00 x00 x00)
(T (W x46 x53 x59 x53 x5f x4e x45 x57)
(T (W x00 x00 x00 x00 x88 xda xfc xff)
(T (W x04 x00 x00 x00 x00 x00 x00 x00)
(T (W x02 x9a xfd xff x00 x80 xbe x43)
(L (W x45 x26 x22 x84 xe4 x9c xf2 xcb))
(L (W x5c x00 x00 x00 x50 x00 x00 x00)))
(T (W x45 x26 x22 x84 xe4 x9c xf2 xcb)
(L (W x84 x1a xff xff x00 x00 x00 x00)) E))
(T (W x40 x00 x00 x00 x38 x00 x00 x00)
(T (W x00 x00 x00 x00 x4a xe2 xfd xff)
(L (W x00 x00 x00 x00 x00 x00 x00 x00))
(L (W x00 x00 x00 x00 x00 x00 x00 x00)))
(T (W x00 x00 x00 x00 x00 x00 x00 x00)
(L (W x84 x5a xff xff x00 x00 x00 x00)) E)))
(T (W x00 x00 x00 x00 x88 xfa xfc xff)
(T (W x5f x30 x30 x33 x00 x00 x00 x00)
(T (W x2c xbd xfd xff x50 x00 x00 x00)
(L (W x00 x00 x00 x00 x00 x00 x00 x00))
(L (W x84 xba xff xff x00 x00 x00 x00)))
(T (W x04 x00 x00 x00 xc2 x3f xfe xff)
(L (W x45 x41 x30 x32 x5f x30 x31 x31)) E))
(T (W x00 x00 x00 x00 x00 x00 x00 x00)
(T (W x00 x00 x00 x00 x88 xfa xfd xff)
(L (W x00 x00 x80 xbf x00 x00 x80 xbf))
(L (W x00 x00 x80 xbf xb4 x00 x00 x00)))
(T (W x04 x00 x00 x00 xc2 x7f xfe xff)
(L (W x00 x00 x00 x00 x01 x00 x00 x00)) E))))
(T (W x45 x26 x22 x84 xe4 x9c xf2 xcb)
(T (W x3c x01 x00 x00 x30 x01 x00 x00)
(T (W x00 x00 x00 x00 x88 x2a xfd xff)
(T (W x00 x00 x00 x00 x00 x00 x00 x00)
(L (W x45 x26 x22 x84 xe4 x9c xf2 xcb))
(L (W x00 x00 x00 x00 x00 x00 x00 x00)))
(T (W x00 x00 x00 x00 x00 x00 x00 x00)
(L (W x01 x00 x00 x00 x04 x00 x00 x00)) E))
(T (W x5f x30 x30 x38 x00 x00 x00 x00)
(T (W x00 x00 x00 x00 x00 x00 x00 x00)
(L (W x40 x00 x00 x00 x38 x00 x00 x00))
(L (W x01 x00 x00 x00 x04 x00 x00 x00)))
(T (W x45 x26 x22 x84 xe4 x9c xf2 xcb)
(L (W x2c x00 x00 x00 x20 x00 x00 x00)) E)))
(T (W x00 x00 x80 x3f x00 x00 x80 x3f)
(T (W x45 x26 x22 x84 xe4 x9c xf2 xcb)
(T (W x00 x00 x80 xbf x00 x00 x80 xbf)
(L (W x84 xca xfe xff x06 xca xfe xff))
(L (W x00 x00 x80 xbf x9c x00 x00 x00)))
(T (W x00 x00 x80 x3f x00 x00 x80 x3f)
(L (W x44 x00 x00 x00 x30 x00 x00 x00)) E))
(T (W x45 x26 x22 x84 xe4 x9c xf2 xcb)
(T (W x1c x01 x00 x00 x01 x00 x00 x00)
(L (W x00 x00 x80 x3f x00 x00 x80 x3f)) E)
(T (W xf6 xe8 x2b x44 x00 x00 x00 x00)
(L (W x3d x8a x87 x43 x5c x8f x25 x42)) E))))))
(T (W x54 x00 x00 x00 x48 x00 x00 x00)
(T (W x2c xa9 xfc xff x50 x00 x00 x00)
(T (W x33 xe3 x05 x44 x1f x85 x29 x42)
(T (W x45 x26 x22 x84 xe4 x9c xf2 xcb)
(T (W x00 x00 x80 xbf x9c x00 x00 x00)
(T (W x44 x00 x00 x00 x30 x00 x00 x00)
(L (W x00 x00 x00 x00 x88 x96 xfe xff))
(L (W x2c x00 x00 x00 x20 x00 x00 x00)))
(T (W x00 x00 x00 x00 x00 x00 x00 x00)
(L (W x44 x00 x00 x00 x38 x00 x00 x00)) E))
(T (W x00 x00 x80 xbf x9c x00 x00 x00)
(T (W x45 x26 x22 x84 xe4 x9c xf2 xcb)
(L (W x45 x26 x22 x84 xe4 x9c xf2 xcb))
(L (W x2c x00 x00 x00 x18 x00 x00 x00)))
(T (W x00 x00 x00 x00 x88 x56 xfe xff)
(L (W x2c x00 x00 x00 x20 x00 x00 x00)) E)))
(T (W x45 x26 x22 x84 xe4 x9c xf2 xcb)
(T (W x00 x00 x00 x00 x00 x00 x00 x00)
(T (W x00 x00 x00 x00 x01 x00 x00 x00)
(L (W x48 x00 x00 x00 x34 x00 x00 x00))
(L (W x45 x26 x22 x84 xe4 x9c xf2 xcb)))
(T (W x00 x00 x00 x00 x4a x3e xfe xff)
(L (W x00 x00 x00 x00 x00 x00 x00 x00)) E))
(T (W x45 x26 x22 x84 xe4 x9c xf2 xcb)
(T (W x40 x00 x00 x00 x38 x00 x00 x00)
(L (W x00 x00 x00 x00 x00 x00 x00 x00))
(L (W x00 x00 x20 x41 x24 x01 x00 x00)))
(T (W x01 x00 x00 x00 x00 x00 x80 x3f)
(L (W x32 x7a xff xff x40 x01 x00 x00)) E))))
(T (W x04 x00 x00 x00 xc2 xcb xfc xff)
(T (W x02 x00 x00 x00 x33 x30 x00 x00)
(T (W x45 x26 x22 x84 xe4 x9c xf2 xcb)
(T (W x45 x26 x22 x84 xe4 x9c xf2 xcb)
(L (W xbf xc4 xb0 xef x1d xfe xf3 x8d))
(L (W x45 x26 x22 x84 xe4 x9c xf2 xcb)))
(T (W x45 x26 x22 x84 xe4 x9c xf2 xcb)
(L (W x54 x00 x00 x00 x48 x00 x00 x00)) E))
(T (W x45 x26 x22 x84 xe4 x9c xf2 xcb)
(T (W x6c x88 xa7 x28 xbf x4b x53 x6a)
(L (W x45 x26 x22 x84 xe4 x9c xf2 xcb))
(L (W x45 x26 x22 x84 xe4 x9c xf2 xcb)))
(T (W x00 x00 x80 xbf x9c x00 x00 x00)
(L (W x45 x26 x22 x84 xe4 x9c xf2 xcb)) E)))
(T (W x60 x00 x00 x00 x54 x00 x00 x00)
(T (W x00 x00 x00 x00 x00 x00 x00 x00)
(T (W xcd xcc x08 x42 x7b x04 x63 x44)
(L (W x00 x00 x00 x00 x00 x00 x00 x00))
(L (W x00 x00 x00 x00 x00 x00 x00 x00)))
(T (W x44 x00 x00 x00 x30 x00 x00 x00)
(L (W x00 x00 x00 x00 x00 x00 x00 x00)) E))
(T (W x04 x00 x00 x00 x00 x00 x00 x00)
(T (W x5f x4e x45 x57 x5f x4f x55 x54)
(L (W x84 x06 xff xff x00 x00 x00 x00)) E)
(T (W x04 x00 x00 x00 xa8 x88 xfe xff)
(L (W x04 x00 x00 x00 x70 x86 xff xff)) E)))))
(T (W x84 xae xfc xff x00 x00 x00 x00)
(T (W x00 x00 xe0 x40 x24 x01 x00 x00)
(T (W x48 x00 x00 x00 x34 x00 x00 x00)
(T (W x0f x00 x00 x00 x70 x61 x74 x68)
(T (W x01 x00 x00 x00 x00 x00 x80 x3f)
(L (W x28 x00 x00 x00 x14 x00 x00 x00))
(L (W x1c x00 x00 x00 x46 x53 x59 x53)))
(T (W x00 x00 x00 x00 x00 x00 x00 x00)
(L (W x45 x26 x22 x84 xe4 x9c xf2 xcb)) E))
(T (W x33 x44 xbb x28 xbf xcd x6a x6a)
(T (W x00 x00 x80 xbf x9c x00 x00 x00)
(L (W xd6 x81 x9c x94 x9b x27 x57 x25))
(L (W x00 x00 x80 x3f x01 x00 x00 x00)))
(T (W x60 x00 x00 x00 x54 x00 x00 x00)
(L (W x00 x00 x80 x3f x00 x00 x80 x3f)) E)))
(T (W x45 x26 x22 x84 xe4 x9c xf2 xcb)
(T (W x5a xf6 x79 x23 x4a x3d xf7 x85)
(T (W x00 x00 x00 x00 x00 x00 x00 x00)
(L (W x54 x9e x89 xf3 x1d x2d x5e x95))
(L (W x00 x00 x00 x00 x88 xbe xff xff)))
(T (W x84 x3e xfe xff x00 x00 x00 x00)
(L (W x45 x26 x22 x84 xe4 x9c xf2 xcb)) E))
(T (W x00 x00 x80 x3f x00 x00 x80 x3f)
(T (W x00 x00 x00 x00 x88 xfe xfd xff)
(L (W x45 x26 x22 x84 xe4 x9c xf2 xcb))
(L (W x10 x00 x14 x00 x18 x00 x1c x00)))
(T (W x44 x00 x00 x00 x38 x00 x00 x00)
(L (W x00 x00 x00 x00 x88 x7e xff xff)) E))))
(T (W x45 x26 x22 x84 xe4 x9c xf2 xcb)
(T (W x34 x00 x00 x00 x20 x00 x00 x00)
(T (W x45 x26 x22 x84 xe4 x9c xf2 xcb)
(T (W x45 x26 x22 x84 xe4 x9c xf2 xcb)
(L (W x2c x00 x00 x00 x20 x00 x00 x00))
(L (W x00 x00 x00 x00 x06 xae xff xff)))
(T (W x04 x00 x00 x00 xa8 x30 xfe xff)
(L (W x00 x00 x00 x00 x00 x00 x00 x00)) E))
(T (W x00 x00 x80 xbf x00 x00 x80 xbf)
(T (W x84 xee xfd xff x06 xee xfd xff)
(L (W xb9 x86 xa7 x28 xbf x4a x53 x6a))
(L (W x00 x00 x00 x00 x00 x00 x00 x00)))
(T (W x00 x00 x00 x00 x00 x00 x00 x00)
(L (W x84 x6e xff xff x00 x00 x00 x00)) E)))
(T (W x00 x00 x00 x00 x00 x00 x00 x00)
(T (W x45 x41 x30 x32 x5f x30 x30 x31)
(T (W x45 x26 x22 x84 xe4 x9c xf2 xcb)
(L (W x01 x00 x00 x00 x00 x00 x80 x3f))
(L (W x45 x26 x22 x84 xe4 x9c xf2 xcb)))
(T (W x00 x00 x00 x00 x00 x00 x00 x00)
(L (W x3c x01 x00 x00 x30 x01 x00 x00)) E))
(T (W x84 x8e xfd xff x00 x00 x00 x00)
(T (W x54 x00 x00 x00 x48 x00 x00 x00)
(L (W x1c x01 x00 x00 x01 x00 x00 x00)) E)
(T (W x00 x00 x80 xbf x00 x00 x80 xbf)
(L (W x66 x55 x11 x0c x1e x6d xad xc0)) E)))))))
(T (W x00 x00 x80 xbf x9c x00 x00 x00)
(T (W x04 x00 x00 x00 x00 x00 x00 x00)
(T (W x84 xa4 xfc xff x00 x00 x00 x00)
(T (W x02 xb4 xfc xff x00 x00 x80 x3f)
(T (W x2c x00 x00 x00 x20 x00 x00 x00)
(T (W x1c x01 x00 x00 x04 x00 x00 x00)
(T (W x00 x00 x00 x00 x00 x00 x00 x00)
(L (W x45 x26 x22 x84 xe4 x9c xf2 xcb))
(L (W x45 x26 x22 x84 xe4 x9c xf2 xcb)))
(T (W x00 x00 x00 x00 x00 x00 x00 x00)
(L (W x45 x26 x22 x84 xe4 x9c xf2 xcb)) E))
(T (W x01 x00 x00 x00 x02 x00 x00 x00)
(T (W x00 x00 x00 x00 x01 x00 x00 x00)
(L (W x45 x26 x22 x84 xe4 x9c xf2 xcb))
(L (W x00 x00 x00 x00 x88 xd4 xff xff)))
(T (W x40 x00 x00 x00 x38 x00 x00 x00)
(L (W x45 x26 x22 x84 xe4 x9c xf2 xcb)) E)))
(T (W x40 x00 x00 x00 x38 x00 x00 x00)
(T (W x02 x34 xfd xff x66 x66 x5b x43)
(T (W x62 xe1 x1b x72 x9d x0e xa7 xbe)
(L (W x5c x00 x00 x00 x50 x00 x00 x00))
(L (W x45 x26 x22 x84 xe4 x9c xf2 xcb)))
(T (W x00 x00 x00 x00 x00 x00 x00 x00)
(L (W x00 x00 x80 x3f x88 x34 xff xff)) E))
(T (W x04 x00 x00 x00 xc2 x79 xfd xff)
(T (W x00 x00 x00 x00 x01 x00 x00 x00)
(L (W x00 x00 x80 x3f x00 x00 x80 x3f))
(L (W x00 x00 x00 x00 x00 x00 x00 x00)))
(T (W x00 x00 x00 x00 x00 x00 x00 x00)
(L (W x00 x00 x00 x00 x00 x00 x00 x00)) E))))
(T (W x00 x00 x00 x00 x01 x00 x00 x00)
(T (W x00 x00 x00 x00 x00 x00 x00 x00)
(T (W x40 x00 x00 x00 x38 x00 x00 x00)
(T (W x40 x00 x00 x00 x38 x00 x00 x00)
(L (W x00 x00 x80 xbf x00 x00 x80 xbf))
(L (W x00 x00 x00 x00 x01 x00 x00 x00)))
(T (W x04 x00 x00 x00 x00 x00 x00 x00)
(L (W x83 x79 x8c xe8 x48 x55 x42 x2f)) E))
(T (W x00 x00 x00 x00 x01 x00 x00 x00)
(T (W x00 x00 x00 x00 x88 xe4 xfd xff)
(L (W x34 x00 x00 x00 x20 x00 x00 x00))
(L (W x00 x00 x00 x00 x01 x00 x00 x00)))
(T (W x00 x00 x00 x00 x00 x00 x00 x00)
(L (W x00 x00 x00 x00 x01 x00 x00 x00)) E)))
(T (W x00 x00 x00 x00 x01 x00 x00 x00)
(T (W xeb x90 xa7 x28 xbf x50 x53 x6a)
(T (W x45 x26 x22 x84 xe4 x9c xf2 xcb)
(L (W x2c x00 x00 x00 x20 x00 x00 x00))
(L (W x00 x00 x00 x00 x00 x00 x00 x00)))
(T (W x00 x00 x00 x00 x00 x00 x00 x00)
(L (W x2c x47 xff xff x50 x00 x00 x00)) E))
(T (W x4e x64 xf6 x51 xdc x82 x2c xb2)
(T (W x00 x00 x00 x00 x00 x00 x00 x00)
(L (W x45 x26 x22 x84 xe4 x9c xf2 xcb)) E)
(T (W x04 x00 x00 x00 x70 x84 xfe xff)
(L (W x00 x00 x00 x00 x88 x84 xff xff)) E)))))
(T (W x00 x00 x00 x00 x00 x00 x00 x00)
(T (W x5f x30 x30 x38 x00 x00 x00 x00)
(T (W x04 x00 x00 x00 x70 xdc xfc xff)
(T (W x4c x25 x77 x82 x15 x11 x16 xb0)
(T (W x00 x00 x00 x00 x00 x00 x00 x00)
(L (W x00 x00 x00 x00 x88 x9c xfe xff))
(L (W x84 x9c xff xff x06 x9c xff xff)))
(T (W x00 x00 x00 x00 x00 x00 x00 x00)
(L (W x5c x00 x00 x00 x50 x00 x00 x00)) E))
(T (W x00 x00 x00 x00 x88 x5c xfd xff)
(T (W x1c x01 x00 x00 x01 x00 x00 x00)
(L (W x84 xdc xfe xff x00 x00 x00 x00))
(L (W x00 x00 x00 x00 x28 x00 x2c x00)))
(T (W x00 x00 x00 x00 x01 x00 x00 x00)
(L (W x55 x39 x81 x6a xc4 xc7 x74 x14)) E)))
(T (W x44 x00 x00 x00 x38 x00 x00 x00)
(T (W x00 x00 xa0 x40 x24 x01 x00 x00)
(T (W x00 x00 x00 x00 x00 x00 x00 x00)
(L (W x34 x01 x00 x00 x00 x00 xa0 x40))
(L (W x45 x26 x22 x84 xe4 x9c xf2 xcb)))
(T (W x45 x26 x22 x84 xe4 x9c xf2 xcb)
(L (W x00 x00 x80 xbf x9c x00 x00 x00)) E))
(T (W x74 x00 x00 x00 x68 x00 x00 x00)
(T (W x45 x26 x22 x84 xe4 x9c xf2 xcb)
(L (W x04 x00 x00 x00 x00 x00 x00 x00))
(L (W x32 x00 x00 x00 x50 x01 x00 x00)))
(T (W x45 x26 x22 x84 xe4 x9c xf2 xcb)
(L (W x45 x26 x22 x84 xe4 x9c xf2 xcb)) E))))
(T (W x45 x26 x22 x84 xe4 x9c xf2 xcb)
(T (W x04 x00 x00 x00 x00 x00 x80 x3f)
(T (W x01 x00 x00 x00 x04 x00 x00 x00)
(T (W x00 x00 x00 x00 x01 x00 x00 x00)
(L (W x01 x00 x00 x00 x04 x00 x00 x00))
(L (W x04 x00 x00 x00 xa8 xae xff xff)))
(T (W x45 x41 x30 x32 x5f x30 x31 x37)
(L (W x00 x00 x00 x00 x00 x00 x00 x00)) E))
(T (W x00 x00 x80 x40 x24 x01 x00 x00)
(T (W x5c x00 x00 x00 x50 x00 x00 x00)
(L (W x00 x00 x00 x00 x88 xec xfe xff))
(L (W x2c x00 x00 x00 x20 x00 x00 x00)))
(T (W x2c x6f xfe xff x50 x00 x00 x00)
(L (W x45 x26 x22 x84 xe4 x9c xf2 xcb)) E)))
(T (W xc3 xf5 xe5 x42 x9a x59 x39 x43)
(T (W x00 x00 x00 x00 x00 x00 x00 x00)
(T (W x04 x00 x00 x00 x00 x00 x00 x00)
(L (W x00 x00 x00 x00 x00 x00 x00 x00))
(L (W x00 x00 x00 x00 x01 x00 x00 x00)))
(T (W x00 x00 x00 x00 x00 x00 x00 x00)
(L (W xd7 xb3 x06 x44 x3d x0a x26 x42)) E))
(T (W x45 x26 x22 x84 xe4 x9c xf2 xcb)
(T (W x2f x12 x09 xd7 x46 x81 x29 x93)
(L (W x39 x00 x00 x00 x1b x00 x00 x00)) E)
(T (W x00 x00 xa0 x40 x24 x01 x00 x00)
(L (W x3c x01 x00 x00 x30 x01 x00 x00)) E))))))
(T (W x45 x26 x22 x84 xe4 x9c xf2 xcb)
(T (W x3f x7c x88 xaf x9a x1e x19 x7c)
(T (W x00 x00 x00 x00 x00 x00 x00 x00)
(T (W x00 x00 x00 x00 x00 x00 x00 x00)
(T (W x0d xff x80 xf0 x04 x90 xb5 xdd)
(T (W x00 x00 x00 x00 x06 x98 xfd xff)
(L (W x44 x00 x00 x00 x38 x00 x00 x00))
(L (W x00 x00 x00 x00 x00 x00 x00 x00)))
(T (W x00 x00 x00 x00 x01 x00 x00 x00)
(L (W x00 x00 x00 x00 x00 x00 x00 x00)) E))
(T (W xc5 x10 xc4 x35 xc8 xde x12 xc1)
(T (W x00 x00 x00 x00 x00 x00 x00 x00)
(L (W x2c xdb xfe xff x50 x00 x00 x00))
(L (W x02 xd8 xff xff x00 x00 x80 x3f)))
(T (W x85 x8d xa7 x28 xbf x4e x53 x6a)
(L (W x00 x00 x00 x00 x00 x00 x00 x00)) E)))
(T (W x45 x26 x22 x84 xe4 x9c xf2 xcb)
(T (W x46 x53 x59 x53 x5f x4e x45 x57)
(T (W x45 x26 x22 x84 xe4 x9c xf2 xcb)
(L (W x45 x26 x22 x84 xe4 x9c xf2 xcb))
(L (W x45 x26 x22 x84 xe4 x9c xf2 xcb)))
(T (W x34 x00 x00 x00 x20 x00 x00 x00)
(L (W x33 x36 x00 x00 x1b x00 x00 x00)) E))
(T (W x44 x00 x00 x00 x38 x00 x00 x00)
(T (W x45 x26 x22 x84 xe4 x9c xf2 xcb)
(L (W x42 x52 x45 x41 x4b x5f x41 x52))
(L (W x1c x01 x00 x00 x01 x00 x00 x00)))
(T (W x34 x00 x00 x00 x20 x00 x00 x00)
(L (W x34 x00 x00 x00 x20 x00 x00 x00)) E))))
(T (W x45 x26 x22 x84 xe4 x9c xf2 xcb)
(T (W x4e x45 x52 x41 x54 x49 x4f x4e)
(T (W x00 x00 x00 x00 x88 x28 xfd xff)
(T (W x01 x00 x00 x00 x04 x00 x00 x00)
(L (W x04 x00 x00 x00 x00 x00 x00 x00))
(L (W x2c xab xff xff x50 x00 x00 x00)))
(T (W x01 x00 x00 x00 x04 x00 x00 x00)
(L (W x45 x26 x22 x84 xe4 x9c xf2 xcb)) E))
(T (W x00 x00 x00 x00 x00 x00 x00 x00)
(T (W x00 x00 x00 x00 x00 x00 x00 x00)
(L (W x00 x00 x00 x00 x01 x00 x00 x00))
(L (W x00 x00 x00 x00 x88 xe8 xff xff)))
(T (W x00 x00 x00 x00 x01 x00 x00 x00)
(L (W x45 x26 x22 x84 xe4 x9c xf2 xcb)) E)))
(T (W xd6 x81 x9c x94 x9b x27 x57 x25)
(T (W x84 x48 xfd xff x00 x00 x00 x00)
(T (W x00 x00 x00 x00 x00 x00 x00 x00)
(L (W x5c x00 x00 x00 x50 x00 x00 x00))
(L (W x00 x00 xa0 x40 x24 x01 x00 x00)))
(T (W x02 x48 xfe xff x00 x00 x80 x3f)
(L (W x00 x00 x00 x00 x00 x00 x00 x00)) E))
(T (W x54 x00 x00 x00 x48 x00 x00 x00)
(T (W x00 x00 x00 x00 x4a x10 xfe xff)
(L (W x55 x39 x81 x6a xc4 xc7 x74 x14)) E)
(T (W x28 x00 x00 x00 x14 x00 x00 x00)
(L (W x44 x00 x00 x00 x30 x00 x00 x00)) E)))))
(T (W x74 x00 x00 x00 x68 x00 x00 x00)
(T (W x00 x00 x80 xbf x00 x00 x80 xbf)
(T (W x4f x84 x6f x8b xe8 xcb x63 xb7)
(T (W x01 x00 x00 x00 x04 x00 x00 x00)
(T (W x62 xe1 x1b x72 x9d x0e xa7 xbe)
(L (W x9a xd9 x15 x43 x00 x00 x00 x00))
(L (W x45 x41 x30 x32 x5f x30 x30 x34)))
(T (W x00 x00 xa0 x40 x24 x01 x00 x00)
(L (W x00 x00 x00 x00 x02 x00 x00 x00)) E))
(T (W x45 x26 x22 x84 xe4 x9c xf2 xcb)
(T (W x00 x00 x00 x00 x01 x00 x00 x00)
(L (W x84 xe0 xfe xff x06 xe0 xfe xff))
(L (W x34 x00 x00 x00 x20 x00 x00 x00)))
(T (W x55 x39 x81 x6a xc4 xc7 x74 x14)
(L (W x00 x00 x00 x00 x00 x00 x00 x00)) E)))
(T (W x00 x00 x00 x00 x00 x00 x00 x00)
(T (W x40 x00 x00 x00 x38 x00 x00 x00)
(T (W x00 x00 x00 x00 x01 x00 x00 x00)
(L (W x54 x00 x00 x00 x48 x00 x00 x00))
(L (W x74 x00 x00 x00 x68 x00 x00 x00)))
(T (W x2c x43 xfe xff x50 x00 x00 x00)
(L (W x45 x26 x22 x84 xe4 x9c xf2 xcb)) E))
(T (W x00 x00 x00 x00 x00 x00 x00 x00)
(T (W x28 x00 x00 x00 x14 x00 x00 x00)
(L (W x45 x26 x22 x84 xe4 x9c xf2 xcb))
(L (W x10 x00 x04 x00 x08 x00 x0c x00)))
(T (W x45 x26 x22 x84 xe4 x9c xf2 xcb)
(L (W x29 x9b xaa x28 xbf xcd x56 x6a)) E))))
(T (W x00 x00 x00 x00 x88 xd0 xfc xff)
(T (W x45 x26 x22 x84 xe4 x9c xf2 xcb)
(T (W x00 x00 x00 x00 x88 x30 xfd xff)
(T (W x00 x00 x00 x00 x00 x00 x00 x00)
(L (W x00 x00 x00 x00 x00 x00 x00 x00))
(L (W x00 x00 x00 x00 x00 x00 x00 x00)))
(T (W x00 x00 x00 x00 x06 x30 xfe xff)
(L (W x00 x00 x00 x00 x01 x00 x00 x00)) E))
(T (W x3d x95 x64 x23 x15 xdd xaf x1d)
(T (W x00 x00 x00 x00 x4a xf8 xfd xff)
(L (W x00 x00 x00 x00 x00 x00 x00 x00))
(L (W x5c x00 x00 x00 x50 x00 x00 x00)))
(T (W x04 x00 x00 x00 xa8 x72 xfe xff)
(L (W x78 x00 x00 x00 x6c x00 x00 x00)) E)))
(T (W x5f x4d x41 x53 x53 x5f x47 x41)
(T (W x00 x00 x80 x40 x3c x01 x00 x00)
(T (W x01 x00 x00 x00 x04 x00 x00 x00)
(L (W x00 x00 x00 x00 x01 x00 x00 x00))
(L (W x84 xd0 xff xff x00 x00 x00 x00)))
(T (W x00 x00 x80 xbf x9c x00 x00 x00)
(L (W xd2 x1f x42 xe3 x48 x32 x25 x26)) E))
(T (W x45 x26 x22 x84 xe4 x9c xf2 xcb)
(T (W x45 x26 x22 x84 xe4 x9c xf2 xcb)
(L (W x45 x26 x22 x84 xe4 x9c xf2 xcb)) E)
(T (W x04 x00 x00 x00 x00 x00 x00 x00)
(L (W x54 x00 x00 x00 x48 x00 x00 x00)) E))))))))))
(T (W xe4 x0c x03 x00 xf8 x0a x03 x00)
(T (W xe8 xd1 x02 x00 x14 xd0 x02 x00)
(T (W x20 x5c x02 x00 x50 x5a x02 x00)
(T (W x74 x6f x01 x00 x88 x6d x01 x00)
(T (W xf2 x7d x88 xaf x9a x1f x19 x7c)
(T (W x74 x00 x00 x00 x68 x00 x00 x00)
(T (W x00 x00 x80 xbf x00 x00 x80 xbf)
(T (W x4f x84 x6f x8b xe8 xcb x63 xb7)
(T (W x45 x26 x22 x84 xe4 x9c xf2 xcb)
(T (W x00 x00 x00 x00 x00 x00 x00 x00)
(L (W x00 x00 x00 x00 x00 x00 x00 x00))
(L (W x44 x91 xff xff x00 x00 x00 x00)))
(T (W x2c x00 x00 x00 x18 x00 x00 x00)
(L (W x00 x00 x00 x00 x00 x00 x00 x00)) E))
(T (W x01 x00 x00 x00 x04 x00 x00 x00)
(T (W x44 xd1 xfd xff xc6 xd0 xfd xff)
(L (W x00 x00 x00 x00 x00 x00 x00 x00))
(L (W xc2 xd0 xff xff x00 x00 x80 x3f)))
(T (W x85 x8d xa7 x28 xbf x4e x53 x6a)
(L (W x45 x26 x22 x84 xe4 x9c xf2 xcb)) E)))
(T (W x00 x00 x00 x00 x00 x00 x00 x00)
(T (W x01 x00 x00 x00 x00 x00 x80 x3f)
(T (W x45 x26 x22 x84 xe4 x9c xf2 xcb)
(L (W x00 x00 x00 x41 x24 x01 x00 x00))
(L (W x45 x26 x22 x84 xe4 x9c xf2 xcb)))
(T (W x00 x00 x00 x00 x01 x00 x00 x00)
(L (W x1c x01 x00 x00 x01 x00 x00 x00)) E))
(T (W x45 x26 x22 x84 xe4 x9c xf2 xcb)
(T (W x44 xf1 xfd xff x00 x00 x00 x00)
(L (W x28 x01 x00 x00 x20 x01 x00 x00))
(L (W x45 x26 x22 x84 xe4 x9c xf2 xcb)))
(T (W xad x93 xba x31 x15 xdd x38 x37)
(L (W x13 x4b x36 x08 x1e x41 x40 xb9)) E))))
(T (W x2c x00 x00 x00 x20 x00 x00 x00)
(T (W x45 x26 x22 x84 xe4 x9c xf2 xcb)
(T (W x00 x00 x00 x00 x00 x00 x00 x00)
(T (W x00 x00 x00 x00 x00 x00 x00 x00)
(L (W x45 x26 x22 x84 xe4 x9c xf2 xcb))
(L (W x00 x00 x00 x00 x48 xa1 xff xff)))
(T (W x01 x00 x00 x00 x04 x00 x00 x00)
(L (W x45 x26 x22 x84 xe4 x9c xf2 xcb)) E))
(T (W x00 x00 x00 x00 x00 x00 x00 x00)
(T (W x00 x00 x00 x00 x00 x00 x00 x00)
(L (W x45 x26 x22 x84 xe4 x9c xf2 xcb))
(L (W x45 x26 x22 x84 xe4 x9c xf2 xcb)))
(T (W x40 xe6 x49 x83 x9b xa5 x4c xfc)
(L (W x00 x00 x00 x00 x48 x61 xff xff)) E)))
(T (W x5f x4d x41 x53 x53 x5f x47 x41)
(T (W x00 x00 x00 x00 x01 x00 x00 x00)
(T (W x01 x00 x00 x00 x01 x00 x00 x00)
(L (W x44 xc1 xfe xff x00 x00 x00 x00))
(L (W x00 x00 x80 xbf x9c x00 x00 x00)))
(T (W x14 x1e x4c x44 xf6 x28 x74 x42)
(L (W x04 x00 x00 x00 x68 x43 xff xff)) E))
(T (W x00 x00 x00 x00 x48 x81 xfd xff)
(T (W x04 x00 x00 x00 x00 x00 x00 x00)
(L (W x55 x39 x81 x6a xc4 xc7 x74 x14)) E)
(T (W x00 x00 x00 x00 x00 x00 x00 x00)
(L (W x00 x00 x00 x00 x00 x00 x00 x00)) E)))))
(T (W x00 x00 x00 x00 x00 x00 x00 x00)
(T (W x45 x26 x22 x84 xe4 x9c xf2 xcb)
(T (W x4e x45 x52 x41 x54 x49 x4f x4e)
(T (W x00 x00 x00 x00 x00 x00 x00 x00)
(T (W x00 x00 x00 x00 x01 x00 x00 x00)
(L (W x9a x99 x5f x42 x00 xc0 xf9 x43))
(L (W x1c x01 x00 x00 x01 x00 x00 x00)))
(T (W x00 x00 x80 xbf x9c x00 x00 x00)
(L (W x54 x49 x4f x4e x5f x41 x52 x45)) E))
(T (W x00 x00 x00 x00 x00 x00 x00 x00)
(T (W x45 x26 x22 x84 xe4 x9c xf2 xcb)
(L (W xc2 xd8 xfe xff x9a x99 xaf x43))
(L (W x54 x00 x00 x00 x48 x00 x00 x00)))
(T (W x00 x00 x00 x00 x00 x00 x00 x00)
(L (W x45 x41 x30 x32 x5f x30 x31 x31)) E)))
(T (W xd6 x81 x9c x94 x9b x27 x57 x25)
(T (W x45 x26 x22 x84 xe4 x9c xf2 xcb)
(T (W x44 x00 x00 x00 x30 x00 x00 x00)
(L (W x00 x00 x00 x00 x01 x00 x00 x00))
(L (W x04 x00 x00 x00 x68 xbb xff xff)))
(T (W x45 x26 x22 x84 xe4 x9c xf2 xcb)
(L (W x45 x26 x22 x84 xe4 x9c xf2 xcb)) E))
(T (W xcd x6c x57 x44 x00 x00 x00 x00)
(T (W x60 x00 x00 x00 x54 x00 x00 x00)
(L (W x45 x26 x22 x84 xe4 x9c xf2 xcb))
(L (W xec xfb xff xff x50 x00 x00 x00)))
(T (W x45 x26 x22 x84 xe4 x9c xf2 xcb)
(L (W x45 x26 x22 x84 xe4 x9c xf2 xcb)) E))))
(T (W x04 x00 x00 x00 x68 xcb xfc xff)
(T (W x45 x26 x22 x84 xe4 x9c xf2 xcb)
(T (W x44 x00 x00 x00 x30 x00 x00 x00)
(T (W x44 xa9 xfd xff xc6 xa8 xfd xff)
(L (W x00 x00 x00 x00 x00 x00 x00 x00))
(L (W x00 xc0 x9f x43 x9a x99 x21 x42)))
(T (W x44 x29 xfe xff xc6 x28 xfe xff)
(L (W x5c x00 x00 x00 x50 x00 x00 x00)) E))
(T (W x45 x26 x22 x84 xe4 x9c xf2 xcb)
(T (W x1c x00 x00 x00 x46 x53 x59 x53)
(L (W x00 x00 x00 x00 x00 x00 x00 x00))
(L (W x55 x6c xfc xf1 x99 x9e xc9 x88)))
(T (W x00 x00 x00 x00 x00 x00 x00 x00)
(L (W x45 x26 x22 x84 xe4 x9c xf2 xcb)) E)))
(T (W xca x08 x1a xe1 x57 xe1 xfc x34)
(T (W x00 x00 x80 xbf x9c x00 x00 x00)
(T (W x45 x26 x22 x84 xe4 x9c xf2 xcb)
(L (W x45 x26 x22 x84 xe4 x9c xf2 xcb))
(L (W x01 x00 x00 x00 x04 x00 x00 x00)))
(T (W x04 x00 x00 x00 x00 x00 x00 x00)
(L (W x01 x00 x00 x00 x00 x00 x80 x3f)) E))
(T (W x44 x89 xfd xff x00 x00 x00 x00)
(T (W x44 x09 xfe xff x00 x00 x00 x00)
(L (W x32 x94 x85 x3c x50 x46 x06 x9f)) E)
(T (W x04 x00 x00 x00 x00 x00 x00 x00)
(L (W x00 x00 x00 x00 x01 x00 x00 x00)) E))))))
(T (W x00 x00 x00 x00 x00 x00 x00 x00)
(T (W xc2 xa4 xfc xff x00 x00 x80 x3f)
(T (W x00 x00 x00 x00 x01 x00 x00 x00)
(T (W x00 x00 x00 x00 x00 x00 x00 x00)
(T (W xec x17 xfd xff x50 x00 x00 x00)
(T (W x01 x00 x00 x00 x00 x00 x80 x3f)
(L (W x55 x39 x81 x6a xc4 xc7 x74 x14))
(L (W x45 x26 x22 x84 xe4 x9c xf2 xcb)))
(T (W x5f x4d x41 x53 x53 x5f x47 x41)
(L (W x28 x00 x00 x00 x14 x00 x00 x00)) E))
(T (W xec x57 xfd xff x50 x00 x00 x00)
(T (W x34 x00 x00 x00 x20 x00 x00 x00)
(L (W x74 x00 x00 x00 x68 x00 x00 x00))
(L (W x00 x00 x80 xbf x00 x00 x80 xbf)))
(T (W x00 x00 x00 x00 x01 x00 x00 x00)
(L (W x45 x26 x22 x84 xe4 x9c xf2 xcb)) E)))
(T (W x00 x00 x00 x00 x01 x00 x00 x00)
(T (W x04 x00 x00 x00 x82 x3a xfd xff)
(T (W x00 x00 x00 x00 x00 x00 x00 x00)
(L (W x34 x00 x00 x00 x20 x00 x00 x00))
(L (W x00 x00 x00 x00 x00 x00 x00 x00)))
(T (W x45 x26 x22 x84 xe4 x9c xf2 xcb)
(L (W x00 x00 x00 x00 x01 x00 x00 x00)) E))
(T (W x00 x00 x00 x00 x48 x75 xfd xff)
(T (W x00 x00 x00 x00 x00 x00 x00 x00)
(L (W x40 x00 x00 x00 x38 x00 x00 x00))
(L (W x45 x26 x22 x84 xe4 x9c xf2 xcb)))
(T (W x45 x26 x22 x84 xe4 x9c xf2 xcb)
(L (W x45 x26 x22 x84 xe4 x9c xf2 xcb)) E))))
(T (W x00 x00 x00 x00 x00 x00 x00 x00)
(T (W x40 x00 x00 x00 x38 x00 x00 x00)
(T (W x00 x00 x00 x00 x01 x00 x00 x00)
(T (W x00 x00 x00 x00 x01 x00 x00 x00)
(L (W x2c x00 x00 x00 x20 x00 x00 x00))
(L (W x00 x00 x00 x00 x00 x00 x00 x00)))
(T (W x00 x00 x00 x00 x00 x00 x00 x00)
(L (W x45 x26 x22 x84 xe4 x9c xf2 xcb)) E))
(T (W x34 x00 x00 x00 x20 x00 x00 x00)
(T (W x45 x26 x22 x84 xe4 x9c xf2 xcb)
(L (W x45 x26 x22 x84 xe4 x9c xf2 xcb))
(L (W x00 x00 x00 x00 x00 x00 x00 x00)))
(T (W x00 x00 x00 x00 x48 x65 xfe xff)
(L (W x00 x00 x00 x00 x00 x00 x00 x00)) E)))
(T (W x1c x01 x00 x00 x04 x00 x00 x00)
(T (W x00 x00 x00 x00 x00 x00 x00 x00)
(T (W x04 x00 x00 x00 x00 x00 x00 x00)
(L (W x00 x00 x00 x00 x00 x00 x00 x00))
(L (W x40 x00 x00 x00 x38 x00 x00 x00)))
(T (W x01 x00 x00 x00 x00 x00 x80 x3f)
(L (W x00 x60 x12 x44 x33 x33 x29 x42)) E))
(T (W x00 x00 x00 x00 x00 x00 x00 x00)
(T (W x45 x26 x22 x84 xe4 x9c xf2 xcb)
(L (W x00 x00 x00 x00 x00 x00 x00 x00)) E)
(T (W x01 x00 x00 x00 x00 x00 x80 x3f)
(L (W x3c x01 x00 x00 x30 x01 x00 x00)) E)))))
(T (W x5f x30 x31 x36 x00 x00 x00 x00)
(T (W x00 x00 x00 x00 x48 xbd xfc xff)
(T (W x04 x00 x00 x00 x00 x00 x80 x3f)
(T (W x00 x00 x00 x00 x00 x00 x00 x00)
(T (W x45 x26 x22 x84 xe4 x9c xf2 xcb)
(L (W x00 x00 x80 xbf x00 x00 x80 xbf))
(L (W x45 x26 x22 x84 xe4 x9c xf2 xcb)))
(T (W x40 x00 x00 x00 x38 x00 x00 x00)
(L (W x34 x00 x00 x00 x20 x00 x00 x00)) E))
(T (W x45 x26 x22 x84 xe4 x9c xf2 xcb)
(T (W xec xdf xfd xff x50 x00 x00 x00)
(L (W x00 x00 x80 xbf x9c x00 x00 x00))
(L (W x45 x26 x22 x84 xe4 x9c xf2 xcb)))
(T (W x1c x01 x00 x00 x01 x00 x00 x00)
(L (W xc0 xf6 xaf x39 xb3 xc2 x03 x69)) E)))
(T (W x85 x6b xd9 x42 x3d x4a x31 x43)
(T (W x01 x00 x00 x00 x04 x00 x00 x00)
(T (W x5f x4e x45 x57 x5f x4f x55 x54)
(L (W x00 x00 x00 x00 x48 xbd xfe xff))
(L (W x00 x00 x00 x00 x00 x00 x00 x00)))
(T (W x2c x00 x00 x00 x18 x00 x00 x00)
(L (W x20 x39 x45 xdc x00 xd4 x55 x2f)) E))
(T (W x45 x58 xec x47 xd8 x56 x2a x83)
(T (W x00 x00 x00 x00 x00 x00 x00 x00)
(L (W x00 x00 x00 x00 x00 x00 x00 x00))
(L (W x00 x00 x00 x00 x00 x00 x00 x00)))
(T (W x28 x00 x00 x00 x14 x00 x00 x00)
(L (W x48 x00 x00 x00 x34 x00 x00 x00)) E))))
(T (W x04 x00 x00 x00 x30 xcd xfc xff)
(T (W x44 x00 x00 x00 x38 x00 x00 x00)
(T (W x00 x00 x80 x3f x48 x2d xfd xff)
(T (W x34 x00 x00 x00 x20 x00 x00 x00)
(L (W x00 x00 x80 x3f x48 xad xfe xff))
(L (W x4d x37 x0c x0c x1e x04 xa7 xc0)))
(T (W x3c x01 x00 x00 x30 x01 x00 x00)
(L (W x1c x00 x00 x00 x46 x53 x59 x53)) E))
(T (W x01 x00 x00 x00 x04 x00 x00 x00)
(T (W x45 x26 x22 x84 xe4 x9c xf2 xcb)
(L (W x45 x26 x22 x84 xe4 x9c xf2 xcb))
(L (W x00 x00 x00 x00 x00 x00 x00 x00)))
(T (W xa4 xd0 x54 x44 xc3 xf5 xac x42)
(L (W x00 x00 x00 x00 x00 x00 x00 x00)) E)))
(T (W x54 x00 x00 x00 x48 x00 x00 x00)
(T (W x45 x26 x22 x84 xe4 x9c xf2 xcb)
(T (W x00 x00 x00 x00 x00 x00 x00 x00)
(L (W x45 x26 x22 x84 xe4 x9c xf2 xcb))
(L (W x00 x00 x00 x00 x00 x00 x00 x00)))
(T (W x40 x00 x00 x00 x38 x00 x00 x00)
(L (W x45 x26 x22 x84 xe4 x9c xf2 xcb)) E))
(T (W x2c x00 x00 x00 x18 x00 x00 x00)
(T (W x00 x00 x00 x00 x00 x00 x00 x00)
(L (W x45 x26 x22 x84 xe4 x9c xf2 xcb)) E)
(T (W x01 x00 x00 x00 x04 x00 x00 x00)
(L (W x00 x00 x00 x00 x48 x8d xff xff)) E)))))))
(T (W xf8 x80 x00 x00 x0c x7f x00 x00)
(T (W x00 x00 x00 x00 x00 x00 x00 x00)
(T (W x28 x00 x00 x00 x14 x00 x00 x00)
(T (W x01 xe2 x86 x67 x2b x02 xf1 x8e)
(T (W x00 x00 x80 x3f x48 xd3 xfc xff)
(T (W x44 x13 xfd xff x00 x00 x00 x00)
(T (W x5f x4e x45 x57 x5f x4f x55 x54)
(L (W x60 x00 x00 x00 x54 x00 x00 x00))
(L (W x60 x00 x00 x00 x54 x00 x00 x00)))
(T (W x00 xc0 x47 x44 x9a x99 x17 x42)
(L (W x00 x00 x00 x00 x48 x13 xff xff)) E))
(T (W xb4 x53 xfd xff x4c x00 x00 x00)
(T (W x00 x00 x00 x00 x0a xdb xfd xff)
(L (W x44 xd3 xfe xff x00 x00 x00 x00))
(L (W x00 x00 x00 x00 x00 x00 x00 x00)))
(T (W x00 x00 x00 x00 x00 x00 x00 x00)
(L (W x44 x53 xff xff x00 x00 x00 x00)) E)))
(T (W x00 x00 x00 x00 x00 x00 x00 x00)
(T (W x00 x00 x00 x00 x01 x00 x00 x00)
(T (W x44 x00 x00 x00 x38 x00 x00 x00)
(L (W x00 x00 x80 xbf x9c x00 x00 x00))
(L (W xec xb5 xff xff x50 x00 x00 x00)))
(T (W x04 x00 x00 x00 x82 x38 xfe xff)
(L (W x45 x26 x22 x84 xe4 x9c xf2 xcb)) E))
(T (W x00 x00 x00 x00 x00 x00 x00 x00)
(T (W x45 x26 x22 x84 xe4 x9c xf2 xcb)
(L (W x4b x5e x98 x0e x02 xee x78 xa8))
(L (W x00 x00 x00 x00 x01 x00 x00 x00)))
(T (W x54 x00 x00 x00 x48 x00 x00 x00)
(L (W x04 x00 x00 x00 x82 x78 xff xff)) E))))
(T (W x45 x26 x22 x84 xe4 x9c xf2 xcb)
(T (W x00 x00 x00 x00 x01 x00 x00 x00)
(T (W x00 x00 x00 x00 x00 x00 x00 x00)
(T (W x00 x00 x00 x00 x00 x00 x00 x00)
(L (W x45 x26 x22 x84 xe4 x9c xf2 xcb))
(L (W x53 x83 xa7 x28 xbf x48 x53 x6a)))
(T (W x2c x00 x00 x00 x20 x00 x00 x00)
(L (W x00 x00 x00 x00 x48 x23 xff xff)) E))
(T (W x00 x00 x00 x00 x0a x6b xfd xff)
(T (W x48 x00 x00 x00 x34 x00 x00 x00)
(L (W x44 xe3 xfe xff x00 x00 x00 x00))
(L (W x00 x00 x00 x00 x00 x00 x00 x00)))
(T (W x40 x00 x00 x00 x38 x00 x00 x00)
(L (W x2c x00 x00 x00 x20 x00 x00 x00)) E)))
(T (W x3a xe7 xff xff x00 x00 x00 x01)
(T (W x45 x26 x22 x84 xe4 x9c xf2 xcb)
(T (W x00 x00 x80 xbf x9c x00 x00 x00)
(L (W x45 x26 x22 x84 xe4 x9c xf2 xcb))
(L (W x00 x00 x00 x00 x01 x00 x00 x00)))
(T (W x5f x4e x45 x57 x5f x4f x55 x54)
(L (W x00 x00 x00 x00 xc6 x42 xff xff)) E))
(T (W xd3 x3a x45 xdc x00 xd5 x55 x2f)
(T (W x54 x00 x00 x00 x48 x00 x00 x00)
(L (W x00 x00 x80 x3f x00 x00 x80 x3f)) E)
(T (W x3c x01 x00 x00 x30 x01 x00 x00)
(L (W x53 x5f x47 x41 x4e x45 x52 x41)) E)))))
(T (W x46 x53 x59 x53 x5f x4e x45 x57)
(T (W x45 x26 x22 x84 xe4 x9c xf2 xcb)
(T (W x3c x01 x00 x00 x30 x01 x00 x00)
(T (W x00 x00 x00 x00 x00 x00 x00 x00)
(T (W x04 x00 x00 x00 x82 xa0 xfd xff)
(L (W x00 x00 x00 x00 x00 x00 x00 x00))
(L (W x45 x26 x22 x84 xe4 x9c xf2 xcb)))
(T (W x00 x00 x00 x00 x01 x00 x00 x00)
(L (W x1c x01 x00 x00 x01 x00 x00 x00)) E))
(T (W x00 x00 x00 x00 x01 x00 x00 x00)
(T (W x44 xdb xfd xff x00 x00 x00 x00)
(L (W x00 x00 x00 x00 x00 x00 x00 x00))
(L (W x45 x26 x22 x84 xe4 x9c xf2 xcb)))
(T (W x00 x00 x00 x00 x0a x63 xfe xff)
(L (W x00 x00 x80 xbf x9c x00 x00 x00)) E)))
(T (W x00 x00 x80 x3f x00 x00 x80 x3f)
(T (W x00 x00 x00 x00 x48 x3b xfd xff)
(T (W xf6 xf8 x38 x44 x00 x00 x10 x42)
(L (W x45 x26 x22 x84 xe4 x9c xf2 xcb))
(L (W xc2 xba xff xff x00 x00 x80 x3f)))
(T (W x00 x00 x00 x00 x48 x3b xfe xff)
(L (W x00 x00 x00 x00 x48 x3b xff xff)) E))
(T (W x00 x00 xa0 x40 x24 x01 x00 x00)
(T (W x00 x00 x80 x3f x00 x00 x80 x3f)
(L (W x2c x00 x00 x00 x20 x00 x00 x00))
(L (W xec xfd xff xff x50 x00 x00 x00)))
(T (W x00 x00 x00 x00 x48 x7b xfe xff)
(L (W x00 x00 x00 x00 x00 x00 x00 x00)) E))))
(T (W x44 x00 x00 x00 x30 x00 x00 x00)
(T (W x00 x00 x00 x00 x48 xeb xfc xff)
(T (W xd6 x81 x9c x94 x9b x27 x57 x25)
(T (W x00 x00 x00 x00 x0a xb3 xfd xff)
(L (W x5c x00 x00 x00 x50 x00 x00 x00))
(L (W x3c x01 x00 x00 x30 x01 x00 x00)))
(T (W x00 x00 x00 x00 x0a x33 xfe xff)
(L (W x44 x2b xff xff xc6 x2a xff xff)) E))
(T (W x00 x00 x00 x00 x48 x6b xfd xff)
(T (W x1c x01 x00 x00 x01 x00 x00 x00)
(L (W x00 x00 x00 x00 x01 x00 x00 x00))
(L (W x00 x00 x80 x3f x48 xeb xff xff)))
(T (W x44 x00 x00 x00 x30 x00 x00 x00)
(L (W x00 x00 x00 x00 x00 x00 x00 x00)) E)))
(T (W x04 x00 x00 x00 x00 x00 x00 x00)
(T (W x00 x00 x00 x00 x01 x00 x00 x00)
(T (W x2c x00 x00 x00 x20 x00 x00 x00)
(L (W x04 x00 x00 x00 x82 xd0 xfe xff))
(L (W xca xe8 xac x28 xbf xdb x59 x6a)))
(T (W x00 x00 x00 x00 x01 x00 x00 x00)
(L (W x00 x00 x00 x00 x01 x00 x00 x00)) E))
(T (W x78 x00 x00 x00 x6c x00 x00 x00)
(T (W xec x0d xfe xff x50 x00 x00 x00)
(L (W x40 x00 x00 x00 x38 x00 x00 x00)) E)
(T (W x45 x26 x22 x84 xe4 x9c xf2 xcb)
(L (W x45 x26 x22 x84 xe4 x9c xf2 xcb)) E))))))
(T (W x44 x9f xfc xff x00 x00 x00 x00)
(T (W xcd xdc x52 x44 x29 xdc x99 x42)
(T (W x04 x00 x00 x00 x82 xbc xfc xff)
(T (W x02 x00 x00 x00 x33 x38 x00 x00)
(T (W x2a xd7 x36 x97 x85 x30 x63 x5f)
(T (W x45 x38 x5f x23 x15 x4f xa9 x1d)
(L (W x00 x00 x80 x3f x00 x00 x80 x3f))
(L (W x00 x00 x00 x00 x00 x00 x00 x00)))
(T (W xf2 x1a xfe xff x40 x01 x00 x00)
(L (W x3d x8a xe0 x43 x00 x00 x00 x00)) E))
(T (W x1f x7d x02 x4c x84 x1d x7f x61)
(T (W x04 x00 x00 x00 x82 xdc xfd xff)
(L (W x2c x00 x00 x00 x18 x00 x00 x00))
(L (W xb7 xc1 x94 x16 x1e x56 xd3 xd2)))
(T (W x45 x26 x22 x84 xe4 x9c xf2 xcb)
(L (W x00 x00 x00 x00 x00 x00 x00 x00)) E)))
(T (W x60 x00 x00 x00 x54 x00 x00 x00)
(T (W x45 x26 x22 x84 xe4 x9c xf2 xcb)
(T (W x00 x00 x00 x00 x00 x00 x00 x00)
(L (W x34 x00 x00 x00 x20 x00 x00 x00))
(L (W x00 x00 x00 x00 x00 x00 x00 x00)))
(T (W x44 x37 xfe xff x00 x00 x00 x00)
(L (W x40 x00 x00 x00 x38 x00 x00 x00)) E))
(T (W x28 x00 x00 x00 x14 x00 x00 x00)
(T (W x00 x00 x00 x00 x01 x00 x00 x00)
(L (W x45 x26 x22 x84 xe4 x9c xf2 xcb))
(L (W x01 x00 x00 x00 x04 x00 x00 x00)))
(T (W x44 x00 x00 x00 x38 x00 x00 x00)
(L (W x44 x77 xff xff x00 x00 x00 x00)) E))))
(T (W x00 x00 x00 x00 x48 xc7 xfc xff)
(T (W x45 x26 x22 x84 xe4 x9c xf2 xcb)
(T (W x74 x00 x00 x00 x68 x00 x00 x00)
(T (W x5c x00 x00 x00 x50 x00 x00 x00)
(L (W x45 x26 x22 x84 xe4 x9c xf2 xcb))
(L (W x44 x00 x00 x00 x30 x00 x00 x00)))
(T (W x5c x00 x00 x00 x50 x00 x00 x00)
(L (W x44 x27 xff xff x00 x00 x00 x00)) E))
(T (W x04 x00 x00 x00 x82 x6c xfd xff)
(T (W x00 x00 x00 x00 x00 x00 x00 x00)
(L (W x00 x00 x00 x00 x00 x00 x00 x00))
(L (W x44 x00 x00 x00 x30 x00 x00 x00)))
(T (W x1f x8a xa7 x28 xbf x4c x53 x6a)
(L (W x74 x00 x00 x00 x68 x00 x00 x00)) E)))
(T (W x00 x00 x80 xbf x9c x00 x00 x00)
(T (W x45 x41 x30 x32 x5f x30 x30 x33)
(T (W x54 x00 x00 x00 x48 x00 x00 x00)
(L (W x1c x01 x00 x00 x01 x00 x00 x00))
(L (W x45 x26 x22 x84 xe4 x9c xf2 xcb)))
(T (W x00 x00 x00 x00 x01 x00 x00 x00)
(L (W x5f x4e x45 x57 x5f x4f x55 x54)) E))
(T (W x00 x00 x00 x00 x00 x00 x00 x00)
(T (W x45 x26 x22 x84 xe4 x9c xf2 xcb)
(L (W x00 x00 x80 xbf x9c x00 x00 x00)) E)
(T (W x00 x00 x80 xbf x00 x00 x80 xbf)
(L (W x01 x00 x00 x00 x00 x00 x80 x3f)) E)))))
(T (W x00 x00 xe0 x40 x24 x01 x00 x00)
(T (W x01 x00 x00 x00 x04 x00 x00 x00)
(T (W x34 x00 x00 x00 x20 x00 x00 x00)
(T (W x00 x00 x00 x00 x00 x00 x00 x00)
(T (W x44 x00 x00 x00 x38 x00 x00 x00)
(L (W x04 x00 x00 x00 x00 x00 x00 x00))
(L (W x45 x26 x22 x84 xe4 x9c xf2 xcb)))
(T (W x00 x00 x00 x00 x48 x1f xfe xff)
(L (W x04 x00 x00 x00 x82 x24 xff xff)) E))
(T (W x0a x57 x0a x44 x29 x5c x18 x42)
(T (W xcb x66 xca xc9 x03 x8d xa3 xbc)
(L (W x45 x26 x22 x84 xe4 x9c xf2 xcb))
(L (W x44 x00 x00 x00 x38 x00 x00 x00)))
(T (W x00 x00 x80 xbf x9c x00 x00 x00)
(L (W x40 x00 x00 x00 x38 x00 x00 x00)) E)))
(T (W x00 x00 x00 x00 x00 x00 x00 x00)
(T (W x00 x00 x00 x00 x00 x00 x00 x00)
(T (W xf2 xc2 xfd xff x40 x01 x00 x00)
(L (W x45 x26 x22 x84 xe4 x9c xf2 xcb))
(L (W x00 x00 xa0 x40 x24 x01 x00 x00)))
(T (W x00 x00 x00 x00 xc6 x3e xfe xff)
(L (W x00 x00 x00 x00 x00 x00 x00 x00)) E))
(T (W x40 x00 x00 x00 x38 x00 x00 x00)
(T (W x00 x00 x80 xbf x00 x00 x80 xbf)
(L (W x60 x00 x00 x00 x54 x00 x00 x00))
(L (W x45 x26 x22 x84 xe4 x9c xf2 xcb)))
(T (W x33 xb3 x5d x44 x00 x00 x00 x00)
(L (W x45 x26 x22 x84 xe4 x9c xf2 xcb)) E))))
(T (W x48 x00 x00 x00 x34 x00 x00 x00)
(T (W x45 x26 x22 x84 xe4 x9c xf2 xcb)
(T (W x00 x00 x00 x00 x00 x00 x00 x00)
(T (W x04 x00 x00 x00 x82 xb4 xfd xff)
(L (W x00 x00 x00 x00 x00 x00 x00 x00))
(L (W x04 x00 x00 x00 x82 xb4 xff xff)))
(T (W x77 xf2 x04 x37 x15 x03 x56 x40)
(L (W x41 x30 x32 x00 x0a x37 xff xff)) E))
(T (W x2c x00 x00 x00 x20 x00 x00 x00)
(T (W x45 x26 x22 x84 xe4 x9c xf2 xcb)
(L (W x00 x00 x00 x00 x00 x00 x00 x00))
(L (W x1c x01 x00 x00 x01 x00 x00 x00)))
(T (W x3c x01 x00 x00 x30 x01 x00 x00)
(L (W x28 x01 x00 x00 x20 x01 x00 x00)) E)))
(T (W x45 x26 x22 x84 xe4 x9c xf2 xcb)
(T (W x00 x00 x00 x00 x48 x4f xfd xff)
(T (W x5c x00 x00 x00 x50 x00 x00 x00)
(L (W x44 x00 x00 x00 x38 x00 x00 x00))
(L (W x44 x00 x00 x00 x30 x00 x00 x00)))
(T (W x00 x00 x00 x00 x48 x4f xfe xff)
(L (W x00 x00 x00 x00 x48 x4f xff xff)) E))
(T (W xc2 x8e xfd xff x00 x00 x80 x3f)
(T (W x44 x0f xfe xff x00 x00 x00 x00)
(L (W xec x11 xff xff x50 x00 x00 x00)) E)
(T (W x2c x00 x00 x00 x20 x00 x00 x00)
(L (W x45 x26 x22 x84 xe4 x9c xf2 xcb)) E))))))))
(T (W xd4 xe5 x01 x00 x08 xe4 x01 x00)
(T (W x4c xf9 x00 x00 x80 xf7 x00 x00)
(T (W x3c x01 x00 x00 x30 x01 x00 x00)
(T (W x00 x00 x00 x00 x01 x00 x00 x00)
(T (W x00 x00 x00 x00 x00 x00 x00 x00)
(T (W x45 x26 x22 x84 xe4 x9c xf2 xcb)
(T (W x00 x00 x00 x00 x00 x00 x00 x00)
(T (W x01 x00 x00 x00 x04 x00 x00 x00)
(L (W x00 x00 x00 x00 x01 x00 x00 x00))
(L (W x00 x00 x00 x00 x01 x00 x00 x00)))
(T (W x45 x26 x22 x84 xe4 x9c xf2 xcb)
(L (W x00 x00 x80 xbf x9c x00 x00 x00)) E))
(T (W x00 x00 x00 x00 x02 x00 x00 x00)
(T (W x00 x00 x00 x00 x48 xd2 xfd xff)
(L (W x34 x00 x00 x00 x20 x00 x00 x00))
(L (W x00 x00 x00 x00 x48 xd2 xff xff)))
(T (W x3c x01 x00 x00 x30 x01 x00 x00)
(L (W x34 x00 x00 x00 x20 x00 x00 x00)) E)))
(T (W x00 x00 x80 xbf x00 x00 x80 xbf)
(T (W x00 x00 x00 x00 x00 x00 x00 x00)
(T (W x00 x00 x00 x00 x00 x00 x00 x00)
(L (W x00 x00 x00 x00 x00 x00 x00 x00))
(L (W x33 xb3 x17 x44 x00 x00 x00 x00)))
(T (W x60 x00 x00 x00 x54 x00 x00 x00)
(L (W x00 x00 x00 x00 x00 x00 x00 x00)) E))
(T (W x1c x01 x00 x00 x01 x00 x00 x00)
(T (W x00 x00 x00 x00 x00 x00 x00 x00)
(L (W x00 x00 x00 x00 x00 x00 x00 x00))
(L (W x74 x00 x00 x00 x68 x00 x00 x00)))
(T (W x00 x00 x00 x00 x01 x00 x00 x00)
(L (W x00 x00 x00 x00 x01 x00 x00 x00)) E))))
(T (W x3a xa6 xff xff x00 x00 x00 x01)
(T (W x78 x00 x00 x00 x6c x00 x00 x00)
(T (W x28 x01 x00 x00 x20 x01 x00 x00)
(T (W x00 x00 x80 xbf x00 x00 x80 xbf)
(L (W xc2 xa1 xfe xff xe1 x9a x07 x44))
(L (W x00 x00 x00 x00 x00 x00 x00 x00)))
(T (W x5f x4e x45 x57 x5f x4f x55 x54)
(L (W x44 x22 xff xff xc6 x21 xff xff)) E))
(T (W x2c x00 x00 x00 x20 x00 x00 x00)
(T (W x04 x00 x00 x00 x00 x00 x00 x00)
(L (W x00 x00 x80 x3f x00 x00 x80 x3f))
(L (W x28 x01 x00 x00 x20 x01 x00 x00)))
(T (W x04 x00 x00 x00 x68 x64 xfe xff)
(L (W x00 x00 x00 x00 x00 x00 x00 x00)) E)))
(T (W x2c x00 x00 x00 x20 x00 x00 x00)
(T (W x54 x00 x00 x00 x48 x00 x00 x00)
(T (W x00 x00 x00 x00 x00 x00 x00 x00)
(L (W x04 x00 x00 x00 x82 xc7 xfe xff))
(L (W x00 x00 x00 x00 x48 xc2 xff xff)))
(T (W x01 x00 x00 x00 x04 x00 x00 x00)
(L (W x40 x00 x00 x00 x38 x00 x00 x00)) E))
(T (W x00 x00 x00 x00 x00 x00 x00 x00)
(T (W x48 x00 x00 x00 x34 x00 x00 x00)
(L (W x45 x26 x22 x84 xe4 x9c xf2 xcb)) E)
(T (W x31 x9b x4a xdc x00 x65 x5c x2f)
(L (W x01 x00 x00 x00 x04 x00 x00 x00)) E)))))
(T (W x00 x00 x00 x00 x48 xaa xfc xff)
(T (W x00 x00 x80 x3f x00 x00 x80 x3f)
(T (W x43 x5d x2e x97 x85 x1a x59 x5f)
(T (W x04 x00 x00 x00 x00 x00 x80 x3f)
(T (W x60 x00 x00 x00 x54 x00 x00 x00)
(L (W x00 x00 x00 x00 x48 x9a xfe xff))
(L (W x00 x00 x00 x00 x00 x00 x00 x00)))
(T (W x00 x00 x00 x00 x48 x1a xfe xff)
(L (W x45 x26 x22 x84 xe4 x9c xf2 xcb)) E))
(T (W x35 xef xad x00 x15 xb4 x9d xe0)
(T (W x00 x00 x00 x00 x00 x00 x00 x00)
(L (W x00 x00 x00 x00 x48 xda xfe xff))
(L (W x45 x26 x22 x84 xe4 x9c xf2 xcb)))
(T (W x00 x00 x00 x00 x48 x5a xfe xff)
(L (W x45 x26 x22 x84 xe4 x9c xf2 xcb)) E)))
(T (W x45 x26 x22 x84 xe4 x9c xf2 xcb)
(T (W x14 x5e x2b x44 x00 x00 x00 x00)
(T (W x45 x26 x22 x84 xe4 x9c xf2 xcb)
(L (W x2c x00 x00 x00 x18 x00 x00 x00))
(L (W x40 x00 x00 x00 x38 x00 x00 x00)))
(T (W x00 x00 x80 xbf x9c x00 x00 x00)
(L (W x33 x33 x29 x42 xcd x8c x09 x44)) E))
(T (W xec x7c xfd xff x50 x00 x00 x00)
(T (W x45 x26 x22 x84 xe4 x9c xf2 xcb)
(L (W x00 x00 x00 x00 x00 x00 x00 x00))
(L (W x42 x52 x45 x41 x4b x5f x41 x52)))
(T (W x00 x00 x80 xbf x9c x00 x00 x00)
(L (W x00 x00 x80 xbf x00 x00 x80 xbf)) E))))
(T (W x04 x00 x00 x00 x00 x00 x00 x00)
(T (W x00 x00 x00 x00 x00 x00 x00 x00)
(T (W x45 x26 x22 x84 xe4 x9c xf2 xcb)
(T (W x00 x00 x00 x00 x48 xaa xfd xff)
(L (W x00 x00 x00 x00 x01 x00 x00 x00))
(L (W x01 x00 x00 x00 x04 x00 x00 x00)))
(T (W x00 x00 x00 x00 x48 x2a xfe xff)
(L (W x45 x26 x22 x84 xe4 x9c xf2 xcb)) E))
(T (W xcd x0c x6a x44 x00 x00 x00 x00)
(T (W x44 x00 x00 x00 x38 x00 x00 x00)
(L (W x8b x8b x83 xf3 x1d x34 x57 x95))
(L (W x45 x26 x22 x84 xe4 x9c xf2 xcb)))
(T (W x04 x00 x00 x00 x00 x00 x00 x00)
(L (W x45 x26 x22 x84 xe4 x9c xf2 xcb)) E)))
(T (W x04 x00 x00 x00 x30 x0a xfd xff)
(T (W x00 x00 x00 x00 x48 x4a xfd xff)
(T (W x00 x00 x00 x00 x00 x00 x00 x00)
(L (W x74 x00 x00 x00 x68 x00 x00 x00))
(L (W x53 x5f x47 x41 x4e x45 x52 x41)))
(T (W x04 x00 x00 x00 x68 x4c xfe xff)
(L (W x00 x00 x00 x00 x00 x00 x00 x00)) E))
(T (W x45 x26 x22 x84 xe4 x9c xf2 xcb)
(T (W x00 x00 x00 x00 x1c x00 x00 x00)
(L (W x04 x00 x00 x00 x68 x0c xff xff)) E)
(T (W x44 x00 x00 x00 x30 x00 x00 x00)
(L (W x5c x00 x00 x00 x50 x00 x00 x00)) E))))))
(T (W x34 x00 x00 x00 x20 x00 x00 x00)
(T (W x45 x26 x22 x84 xe4 x9c xf2 xcb)
(T (W x5c x00 x00 x00 x50 x00 x00 x00)
(T (W x44 xd6 xfc xff x00 x00 x00 x00)
(T (W x4e x45 x52 x41 x54 x49 x4f x4e)
(T (W x00 x00 x00 x00 x00 x00 x00 x00)
(L (W x45 x26 x22 x84 xe4 x9c xf2 xcb))
(L (W x45 x26 x22 x84 xe4 x9c xf2 xcb)))
(T (W x2c x00 x00 x00 x20 x00 x00 x00)
(L (W x45 x26 x22 x84 xe4 x9c xf2 xcb)) E))
(T (W x4b x5f x41 x52 x45 x41 x30 x32)
(T (W x44 xd6 xfd xff x00 x00 x00 x00)
(L (W x00 x00 x00 x00 x01 x00 x00 x00))
(L (W x00 x00 x00 x00 x00 x00 x00 x00)))
(T (W x54 x00 x00 x00 x48 x00 x00 x00)
(L (W x45 x26 x22 x84 xe4 x9c xf2 xcb)) E)))
(T (W x00 x00 x00 x00 x01 x00 x00 x00)
(T (W x55 x39 x81 x6a xc4 xc7 x74 x14)
(T (W x00 x00 x80 xbf x00 x00 x80 xbf)
(L (W x42 x52 x45 x41 x4b x5f x41 x52))
(L (W x28 x01 x00 x00 x20 x01 x00 x00)))
(T (W x00 x00 x80 x3f x00 x00 x80 x3f)
(L (W x2c x00 x00 x00 x18 x00 x00 x00)) E))
(T (W x00 x00 x00 x00 x01 x00 x00 x00)
(T (W x7d xc6 xf3 x13 x15 xe7 xd9 x02)
(L (W x00 x00 x00 x00 xc6 xf5 xfe xff))
(L (W x33 x33 xa4 x43 xae x47 xd0 x42)))
(T (W x00 x00 x00 x00 x00 x00 x00 x00)
(L (W x00 x00 x00 x00 x00 x00 x00 x00)) E))))
(T (W x00 x00 x80 xbf x9c x00 x00 x00)
(T (W x00 x00 x00 x00 xc6 xe5 xfc xff)
(T (W x45 x26 x22 x84 xe4 x9c xf2 xcb)
(T (W x00 x00 x00 x00 x01 x00 x00 x00)
(L (W x00 x00 x00 x00 x0a xae xfe xff))
(L (W x04 x00 x00 x00 x00 x00 x00 x00)))
(T (W x00 x00 x00 x00 x01 x00 x00 x00)
(L (W x34 x00 x00 x00 x20 x00 x00 x00)) E))
(T (W x44 x66 xfd xff x00 x00 x00 x00)
(T (W x45 x26 x22 x84 xe4 x9c xf2 xcb)
(L (W x00 x00 xc0 x40 x24 x01 x00 x00))
(L (W x04 x00 x00 x00 x00 x00 x00 x00)))
(T (W x00 x00 x00 x00 x00 x00 x00 x00)
(L (W x45 x26 x22 x84 xe4 x9c xf2 xcb)) E)))
(T (W x00 x00 x00 x00 x00 x00 x00 x00)
(T (W x44 x00 x00 x00 x38 x00 x00 x00)
(T (W x48 x00 x00 x00 x34 x00 x00 x00)
(L (W x44 x00 x00 x00 x38 x00 x00 x00))
(L (W x00 x00 x00 x00 xc6 xc5 xff xff)))
(T (W x00 x00 x00 x00 x00 x00 x00 x00)
(L (W x01 x00 x00 x00 x04 x00 x00 x00)) E))
(T (W x01 x00 x00 x00 x00 x00 x80 x3f)
(T (W x00 x00 x80 x3f x48 x06 xfe xff)
(L (W x45 x26 x22 x84 xe4 x9c xf2 xcb)) E)
(T (W x00 x00 x00 x00 x00 x00 x00 x00)
(L (W x00 x00 x00 x00 x00 x00 x00 x00)) E)))))
(T (W x45 x26 x22 x84 xe4 x9c xf2 xcb)
(T (W x00 x00 x00 x00 x00 x00 x00 x00)
(T (W x00 x00 x00 x00 x00 x00 x00 x00)
(T (W x00 x00 x80 x3f x00 x00 xa0 x42)
(T (W x00 x00 x00 x00 x00 x00 x00 x00)
(L (W x00 x00 x00 x00 x00 x00 x00 x00))
(L (W x00 x00 x80 x3f x00 x00 x80 x3f)))
(T (W xc2 x1d xfe xff x00 x00 x80 x3f)
(L (W x44 x1e xff xff x00 x00 x00 x00)) E))
(T (W x45 x26 x22 x84 xe4 x9c xf2 xcb)
(T (W x42 x52 x45 x41 x4b x5f x41 x52)
(L (W x00 x00 x00 x00 x48 xde xfe xff))
(L (W x00 x00 x00 x00 x00 x00 x00 x00)))
(T (W x00 x00 x00 x00 x00 x00 x00 x00)
(L (W x04 x00 x00 x00 x68 x60 xff xff)) E)))
(T (W x00 x00 x00 x00 x48 xfe xfc xff)
(T (W x3c x01 x00 x00 x30 x01 x00 x00)
(T (W x2c x00 x00 x00 x20 x00 x00 x00)
(L (W x00 x00 x00 x00 x0a xc6 xfe xff))
(L (W xf5 xa1 xaa x28 xbf xd1 x56 x6a)))
(T (W x40 x00 x00 x00 x38 x00 x00 x00)
(L (W x00 x00 xa0 x40 x24 x01 x00 x00)) E))
(T (W x04 x00 x00 x00 x68 x80 xfd xff)
(T (W xb1 x29 x3c xdc x00 x66 x4b x2f)
(L (W x00 x00 x00 x00 x01 x00 x00 x00))
(L (W xd7 xe3 x01 x44 xa4 x70 x16 x42)))
(T (W x45 x26 x22 x84 xe4 x9c xf2 xcb)
(L (W x54 x00 x00 x00 x48 x00 x00 x00)) E))))
(T (W x04 x00 x00 x00 x00 x00 x00 x00)
(T (W x5f x41 x52 x45 x41 x30 x32 x00)
(T (W x44 x2e xfd xff x00 x00 x00 x00)
(T (W x44 xae xfd xff x00 x00 x00 x00)
(L (W x45 x26 x22 x84 xe4 x9c xf2 xcb))
(L (W x00 x00 x00 x00 x01 x00 x00 x00)))
(T (W x00 x00 x00 x00 x00 x00 x00 x00)
(L (W x44 x00 x00 x00 x38 x00 x00 x00)) E))
(T (W x5f x4e x45 x57 x5f x4f x55 x54)
(T (W x74 x00 x00 x00 x68 x00 x00 x00)
(L (W x45 x26 x22 x84 xe4 x9c xf2 xcb))
(L (W x44 x00 x00 x00 x38 x00 x00 x00)))
(T (W x01 x00 x00 x00 x04 x00 x00 x00)
(L (W x45 x26 x22 x84 xe4 x9c xf2 xcb)) E)))
(T (W x4f x84 x6f x8b xe8 xcb x63 xb7)
(T (W xcd xcc x8c x42 xcd x4c xa3 x43)
(T (W x00 x00 x00 x00 x01 x00 x00 x00)
(L (W x00 x00 x00 x00 x00 x00 x00 x00))
(L (W x04 x00 x00 x00 x00 x00 x00 x00)))
(T (W xc2 x4d xfe xff x00 x00 x80 x3f)
(L (W x44 x4e xff xff xc6 x4d xff xff)) E))
(T (W x40 x00 x00 x00 x38 x00 x00 x00)
(T (W x34 x00 x00 x00 x20 x00 x00 x00)
(L (W x00 x80 xf9 x43 x00 x00 x00 x00)) E)
(T (W x5f x4e x45 x57 x5f x4f x55 x54)
(L (W x00 x00 x00 x00 x0a x96 xff xff)) E)))))))
(T (W xc8 x05 x00 x00 xdc x03 x00 x00)
(T (W x04 x00 x00 x00 x00 x00 x80 x3f)
(T (W x40 x00 x00 x00 x38 x00 x00 x00)
(T (W x00 x00 x00 x00 x01 x00 x00 x00)
(T (W x45 x26 x22 x84 xe4 x9c xf2 xcb)
(T (W x01 x00 x00 x00 x36 x00 x00 x00)
(T (W x2c x00 x00 x00 x20 x00 x00 x00)
(L (W x04 x00 x00 x00 x82 x99 xfe xff))
(L (W x04 x00 x00 x00 x82 x99 xff xff)))
(T (W x01 x00 x00 x00 x04 x00 x00 x00)
(L (W x00 x00 x00 x00 x01 x00 x00 x00)) E))
(T (W x02 x00 x00 x00 x34 x30 x00 x00)
(T (W x45 x26 x22 x84 xe4 x9c xf2 xcb)
(L (W x45 x26 x22 x84 xe4 x9c xf2 xcb))
(L (W xe5 xdc xac x28 xbf xd4 x59 x6a)))
(T (W xa2 x7d xbd x31 x15 x47 x3c x37)
(L (W x04 x00 x00 x00 x82 x59 xff xff)) E)))
(T (W xb1 x53 xb7 x4b xbc xb5 xfd xea)
(T (W x60 x00 x00 x00 x54 x00 x00 x00)
(T (W x28 x01 x00 x00 x20 x01 x00 x00)
(L (W x5f x4e x45 x57 x5f x4f x55 x54))
(L (W x00 x00 x40 x40 x24 x01 x00 x00)))
(T (W x55 x39 x81 x6a xc4 xc7 x74 x14)
(L (W x78 x00 x00 x00 x6c x00 x00 x00)) E))
(T (W x00 x00 x80 xbf x9c x00 x00 x00)
(T (W x00 x00 x80 xbf x00 x00 x80 xbf)
(L (W x04 x00 x00 x00 x68 xf6 xfe xff))
(L (W x2c x00 x00 x00 x18 x00 x00 x00)))
(T (W x45 x26 x22 x84 xe4 x9c xf2 xcb)
(L (W x45 x26 x22 x84 xe4 x9c xf2 xcb)) E))))
(T (W x1c x01 x00 x00 x04 x00 x00 x00)
(T (W x2c x00 x00 x00 x18 x00 x00 x00)
(T (W xe5 xba xb9 xb8 x57 x5a x5d xb2)
(T (W xac x06 x7a x1e x15 x2d x03 x15)
(L (W x00 x00 x00 x00 x00 x00 x00 x00))
(L (W x00 x00 x80 xbf x00 x00 x80 xbf)))
(T (W x01 x00 x00 x00 x00 x00 x80 x3f)
(L (W x00 x00 x00 x00 x0a x2c xff xff)) E))
(T (W x45 x26 x22 x84 xe4 x9c xf2 xcb)
(T (W x54 x00 x00 x00 x48 x00 x00 x00)
(L (W x00 x00 x00 x00 x00 x00 x00 x00))
(L (W x00 x00 x80 xbf x00 x00 x80 xbf)))
(T (W xc2 x63 xfe xff x00 x00 x80 x3f)
(L (W x01 x00 x00 x00 x01 x00 x00 x00)) E)))
(T (W x45 x26 x22 x84 xe4 x9c xf2 xcb)
(T (W x45 x26 x22 x84 xe4 x9c xf2 xcb)
(T (W x00 x00 x00 x00 x48 xc4 xfd xff)
(L (W x45 x26 x22 x84 xe4 x9c xf2 xcb))
(L (W x2c x00 x00 x00 x18 x00 x00 x00)))
(T (W x2c x00 x00 x00 x20 x00 x00 x00)
(L (W x45 x26 x22 x84 xe4 x9c xf2 xcb)) E))
(T (W x3c x01 x00 x00 x30 x01 x00 x00)
(T (W x55 x6c xfc xf1 x99 x9e xc9 x88)
(L (W x44 x04 xff xff x00 x00 x00 x00)) E)
(T (W x00 x00 x00 x00 x00 x00 x00 x00)
(L (W x29 x9b xaa x28 xbf xcd x56 x6a)) E)))))
(T (W x44 x00 x00 x00 x38 x00 x00 x00)
(T (W xcd x8c x61 x44 x00 x00 x00 x00)
(T (W x00 x00 x00 x00 x00 x00 x00 x00)
(T (W x3c x01 x00 x00 x30 x01 x00 x00)
(T (W x45 x26 x22 x84 xe4 x9c xf2 xcb)
(L (W x06 x85 xa7 x28 xbf x49 x53 x6a))
(L (W x74 x00 x00 x00 x68 x00 x00 x00)))
(T (W x2c x00 x00 x00 x18 x00 x00 x00)
(L (W x00 x00 x00 x00 x00 x00 x00 x00)) E))
(T (W x54 x00 x00 x00 x48 x00 x00 x00)
(T (W x00 x00 x00 x00 x00 x00 x00 x00)
(L (W x45 x26 x22 x84 xe4 x9c xf2 xcb))
(L (W x00 x00 x00 x00 x00 x00 x00 x00)))
(T (W x45 x26 x22 x84 xe4 x9c xf2 xcb)
(L (W x00 x00 x00 x00 x48 x5c xff xff)) E)))
(T (W x45 x26 x22 x84 xe4 x9c xf2 xcb)
(T (W x00 x00 x00 x00 x00 x00 x00 x00)
(T (W x01 x00 x00 x00 x04 x00 x00 x00)
(L (W xc2 xbb xfe xff x85 x6b xb2 x43))
(L (W x00 x00 x00 x00 x48 xbc xff xff)))
(T (W x00 x00 x00 x00 x01 x00 x00 x00)
(L (W x00 x00 x00 x00 x00 x00 x00 x00)) E))
(T (W x00 x00 x00 x00 x00 x00 x00 x00)
(T (W x00 x00 x00 x00 x48 xfc xfd xff)
(L (W x01 x00 x00 x00 x00 x00 x80 x3f))
(L (W x4b x5f x41 x52 x45 x41 x30 x32)))
(T (W x00 x00 x00 x00 x01 x00 x00 x00)
(L (W x04 x00 x00 x00 x00 x00 x00 x00)) E))))
(T (W xf1 x7d x56 xd3 x45 xb6 xe7 x60)
(T (W x1b x00 x00 x00 x57 x53 x59 x53)
(T (W x45 x26 x22 x84 xe4 x9c xf2 xcb)
(T (W x45 x26 x22 x84 xe4 x9c xf2 xcb)
(L (W x45 x26 x22 x84 xe4 x9c xf2 xcb))
(L (W x00 x00 x00 x00 x00 x00 x00 x00)))
(T (W x55 x6c xfc xf1 x99 x9e xc9 x88)
(L (W x00 x00 x00 x00 x48 x2c xff xff)) E))
(T (W x00 x00 x00 x00 x00 x00 x00 x00)
(T (W x00 x00 x00 x00 x00 x00 x00 x00)
(L (W x54 x00 x00 x00 x48 x00 x00 x00))
(L (W x45 x26 x22 x84 xe4 x9c xf2 xcb)))
(T (W x45 x26 x22 x84 xe4 x9c xf2 xcb)
(L (W x44 x6c xff xff x00 x00 x00 x00)) E)))
(T (W x48 x00 x00 x00 x34 x00 x00 x00)
(T (W x28 x00 x00 x00 x14 x00 x00 x00)
(T (W x01 x00 x00 x00 x00 x00 x80 x3f)
(L (W x45 x26 x22 x84 xe4 x9c xf2 xcb))
(L (W x00 x00 x80 xbf x00 x00 x80 xbf)))
(T (W x2c x00 x00 x00 x18 x00 x00 x00)
(L (W x5c x00 x00 x00 x50 x00 x00 x00)) E))
(T (W x00 x00 x00 x00 x01 x00 x00 x00)
(T (W x3c x01 x00 x00 x30 x01 x00 x00)
(L (W xc2 x0b xff xff x00 x00 x80 x3f)) E)
(T (W xcd x4c xd0 x43 x33 x33 x45 x42)
(L (W x44 x8c xff xff xc6 x8b xff xff)) E))))))
(T (W x45 x26 x22 x84 xe4 x9c xf2 xcb)
(T (W x45 x26 x22 x84 xe4 x9c xf2 xcb)
(T (W x49 xa1 x68 x4a xeb x5f xdd x3d)
(T (W xec xda xfc xff x50 x00 x00 x00)
(T (W x3c x01 x00 x00 x30 x01 x00 x00)
(T (W x00 x00 x00 x00 x01 x00 x00 x00)
(L (W x45 x26 x22 x84 xe4 x9c xf2 xcb))
(L (W x44 x00 x00 x00 x38 x00 x00 x00)))
(T (W x45 x26 x22 x84 xe4 x9c xf2 xcb)
(L (W xec x1a xff xff x50 x00 x00 x00)) E))
(T (W x3c x01 x00 x00 x30 x01 x00 x00)
(T (W x45 x26 x22 x84 xe4 x9c xf2 xcb)
(L (W x45 x26 x22 x84 xe4 x9c xf2 xcb))
(L (W x00 x00 x00 x00 x01 x00 x00 x00)))
(T (W x45 x26 x22 x84 xe4 x9c xf2 xcb)
(L (W x44 x00 x00 x00 x38 x00 x00 x00)) E)))
(T (W x04 x00 x00 x00 x82 xfd xfc xff)
(T (W x00 x00 x80 x3f x00 x00 x80 x3f)
(T (W x04 x00 x00 x00 x00 x00 x00 x00)
(L (W x44 xb8 xfe xff x00 x00 x00 x00))
(L (W xe2 x7f x1a xa1 x16 xd4 x98 xb5)))
(T (W x00 x00 x00 x00 x00 x00 x00 x00)
(L (W xc2 x37 xff xff x00 x00 x80 x3f)) E))
(T (W x45 x26 x22 x84 xe4 x9c xf2 xcb)
(T (W x00 x00 x00 x00 x01 x00 x00 x00)
(L (W xc2 xf7 xfe xff x3d xea x19 x44))
(L (W x44 x00 x04 x00 x08 x00 x0c x00)))
(T (W x45 x41 x30 x32 x5f x30 x30 x36)
(L (W x00 x00 x00 x00 x00 x00 x00 x00)) E))))
(T (W xfc xaf x62 x82 x88 x41 x39 x8c)
(T (W xc2 xe7 xfc xff xae x57 x17 x44)
(T (W x54 x00 x00 x00 x48 x00 x00 x00)
(T (W x45 x26 x22 x84 xe4 x9c xf2 xcb)
(L (W x01 x00 x00 x00 x00 x00 x80 x3f))
(L (W x45 x26 x22 x84 xe4 x9c xf2 xcb)))
(T (W x45 x26 x22 x84 xe4 x9c xf2 xcb)
(L (W x00 x00 x00 x00 x01 x00 x00 x00)) E))
(T (W x45 x26 x22 x84 xe4 x9c xf2 xcb)
(T (W x00 x00 x00 x00 x48 xe8 xfd xff)
(L (W x00 x00 x80 xbf x00 x00 x80 xbf))
(L (W x54 x00 x00 x00 x48 x00 x00 x00)))
(T (W x00 x00 x80 xbf x00 x00 x80 xbf)
(L (W x04 x00 x00 x00 x82 x6d xff xff)) E)))
(T (W x00 x00 x00 x00 x48 x08 xfd xff)
(T (W x45 x26 x22 x84 xe4 x9c xf2 xcb)
(T (W x45 x26 x22 x84 xe4 x9c xf2 xcb)
(L (W x00 x00 x00 x00 x00 x00 x00 x00))
(L (W x52 xd8 x84 x43 x5c x8f x6c x42)))
(T (W x00 x00 x00 x00 x01 x00 x00 x00)
(L (W x2c x00 x00 x00 x20 x00 x00 x00)) E))
(T (W x34 x00 x00 x00 x20 x00 x00 x00)
(T (W x00 x00 x00 x00 x00 x00 x00 x00)
(L (W x00 x00 x00 x00 x48 x08 xff xff)) E)
(T (W x00 x00 x00 x00 x00 x00 x00 x00)
(L (W x00 x00 x00 x00 x00 x00 x00 x00)) E)))))
(T (W x00 x00 x00 x00 x00 x00 x00 x00)
(T (W x5f x4f x55 x54 x42 x52 x45 x41)
(T (W x44 xe0 xfc xff x00 x00 x00 x00)
(T (W x01 x00 x00 x00 x01 x00 x00 x00)
(T (W x28 x01 x00 x00 x20 x01 x00 x00)
(L (W x44 x00 x00 x00 x30 x00 x00 x00))
(L (W x66 x66 x2e x42 x52 xa8 x0a x44)))
(T (W x00 x00 x00 x00 x00 x00 x00 x00)
(L (W x72 xeb x22 x37 x6d xc8 x9b xc2)) E))
(T (W x00 x00 x00 x00 x48 x60 xfd xff)
(T (W x00 x00 x80 xbf x00 x00 x80 xbf)
(L (W x74 x00 x00 x00 x68 x00 x00 x00))
(L (W x45 x41 x30 x32 x5f x30 x30 x33)))
(T (W x00 x00 x00 x00 x48 x60 xfe xff)
(L (W xc2 x5f xff xff x00 x00 x80 x3f)) E)))
(T (W x01 x00 x00 x00 x04 x00 x00 x00)
(T (W x7f x76 x2f xf0 x2c x42 x0a xdb)
(T (W x45 x26 x22 x84 xe4 x9c xf2 xcb)
(L (W x34 x00 x00 x00 x20 x00 x00 x00))
(L (W x00 x00 x00 x00 x00 x00 x00 x00)))
(T (W x45 x26 x22 x84 xe4 x9c xf2 xcb)
(L (W x2e xd4 xfa xfc x73 xac xdf x55)) E))
(T (W xc2 x7f xfd xff x00 x00 x80 x3f)
(T (W x00 x00 x00 x00 x00 x00 x00 x00)
(L (W x04 x00 x00 x00 x82 x05 xff xff))
(L (W x58 x00 x00 x00 x44 x00 x00 x00)))
(T (W x00 x00 x00 x00 x48 x80 xfe xff)
(L (W x45 x26 x22 x84 xe4 x9c xf2 xcb)) E))))
(T (W x54 x00 x00 x00 x48 x00 x00 x00)
(T (W x00 x00 xe0 x40 x24 x01 x00 x00)
(T (W x6a xc0 x1c x76 x80 xbe xf7 x18)
(T (W x45 x26 x22 x84 xe4 x9c xf2 xcb)
(L (W xec xb2 xfe xff x50 x00 x00 x00))
(L (W x45 x26 x22 x84 xe4 x9c xf2 xcb)))
(T (W x00 x00 x00 x00 x01 x00 x00 x00)
(L (W x45 x26 x22 x84 xe4 x9c xf2 xcb)) E))
(T (W x00 x00 x00 x00 x0a x78 xfd xff)
(T (W x00 x00 x80 x3f x00 x00 x80 x3f)
(L (W x44 x00 x00 x00 x38 x00 x00 x00))
(L (W x00 x00 x00 x00 x00 x00 x00 x00)))
(T (W x00 x00 x00 x00 x00 x00 x00 x00)
(L (W x00 x00 x00 x00 x00 x00 x00 x00)) E)))
(T (W x00 x00 x80 x3f x48 x10 xfd xff)
(T (W x00 x00 x00 x00 x00 x00 x00 x00)
(T (W x45 x26 x22 x84 xe4 x9c xf2 xcb)
(L (W x1c x01 x00 x00 x01 x00 x00 x00))
(L (W x40 x00 x00 x00 x38 x00 x00 x00)))
(T (W x00 x00 x00 x00 x00 x00 x00 x00)
(L (W x00 x00 x00 x00 x0a x58 xff xff)) E))
(T (W x00 x00 x00 x00 x48 x90 xfd xff)
(T (W x00 x00 x00 x00 x01 x00 x00 x00)
(L (W x00 x00 x40 x40 x24 x01 x00 x00)) E)
(T (W x01 x00 x00 x00 x00 x00 x80 x3f)
(L (W x34 x00 x00 x00 x20 x00 x00 x00)) E)))))))))
(T (W xf4 x96 x02 x00 x28 x95 x02 x00)
(T (W x4c x21 x02 x00 x50 x1f x02 x00)
(T (W x9c x34 x01 x00 xd0 x32 x01 x00)
(T (W x49 xa1 x68 x4a xeb x5f xdd x3d)
(T (W x5f x4f x55 x54 x42 x52 x45 x41)
(T (W x45 x26 x22 x84 xe4 x9c xf2 xcb)
(T (W x00 x00 xe0 x40 x24 x01 x00 x00)
(T (W x00 x00 x00 x00 x00 x00 x00 x00)
(T (W x45 x26 x22 x84 xe4 x9c xf2 xcb)
(L (W x33 x53 x33 x44 x00 x00 x00 x00))
(L (W x32 x34 x00 x00 x02 x00 x00 x00)))
(T (W x1c x01 x00 x00 x01 x00 x00 x00)
(L (W xc4 x11 xff xff x46 x11 xff xff)) E))
(T (W xc4 x51 xfd xff x00 x00 x00 x00)
(T (W x20 x74 x4f x52 x80 x8a x03 xa8)
(L (W x48 xc1 xd4 x43 x1f x85 xbb x42))
(L (W x34 x00 x00 x00 x20 x00 x00 x00)))
(T (W x55 x39 x81 x6a xc4 xc7 x74 x14)
(L (W x42 x51 xff xff x00 x00 x80 x3f)) E)))
(T (W x00 x00 x80 x3f xc8 xf1 xfc xff)
(T (W x45 x26 x22 x84 xe4 x9c xf2 xcb)
(T (W x00 x00 x00 x00 x00 x00 x00 x00)
(L (W x45 x26 x22 x84 xe4 x9c xf2 xcb))
(L (W x00 x00 x00 x00 x00 x00 x00 x00)))
(T (W x6c x34 xfe xff x50 x00 x00 x00)
(L (W x45 x26 x22 x84 xe4 x9c xf2 xcb)) E))
(T (W x00 x00 x00 x00 x46 x71 xfd xff)
(T (W x00 x00 x00 x00 x01 x00 x00 x00)
(L (W x45 x26 x22 x84 xe4 x9c xf2 xcb))
(L (W x01 x00 x00 x00 x04 x00 x00 x00)))
(T (W xc4 x71 xfe xff x00 x00 x00 x00)
(L (W xc4 x71 xff xff x00 x00 x00 x00)) E))))
(T (W x28 x00 x00 x00 x14 x00 x00 x00)
(T (W x01 x00 x00 x00 x04 x00 x00 x00)
(T (W x00 x00 x80 x3f xc8 x21 xfd xff)
(T (W xc4 xa1 xfd xff x46 xa1 xfd xff)
(L (W x00 x00 x00 x00 x00 x00 x00 x00))
(L (W xc4 xa1 xff xff x00 x00 x00 x00)))
(T (W x78 x00 x00 x00 x6c x00 x00 x00)
(L (W x00 x00 x00 x00 x00 x00 x00 x00)) E))
(T (W x00 x00 x00 x00 x01 x00 x00 x00)
(T (W x00 x00 x00 x00 x00 x00 x00 x00)
(L (W x00 x00 x00 x00 x00 x00 x00 x00))
(L (W x55 x6c xfc xf1 x99 x9e xc9 x88)))
(T (W x00 x00 x00 x00 xc8 x61 xfe xff)
(L (W xc4 x61 xff xff x00 x00 x00 x00)) E)))
(T (W x00 x00 x00 x00 x01 x00 x00 x00)
(T (W x00 x00 x00 x00 x00 x00 x00 x00)
(T (W x45 x26 x22 x84 xe4 x9c xf2 xcb)
(L (W x00 x00 x00 x00 x00 x00 x00 x00))
(L (W x45 x26 x22 x84 xe4 x9c xf2 xcb)))
(T (W x45 x26 x22 x84 xe4 x9c xf2 xcb)
(L (W x00 x00 x00 x00 x8a x49 xff xff)) E))
(T (W xc4 x81 xfd xff x00 x00 x00 x00)
(T (W x44 x00 x00 x00 x38 x00 x00 x00)
(L (W x3c x01 x00 x00 x30 x01 x00 x00)) E)
(T (W x04 x00 x00 x00 x02 x87 xfe xff)
(L (W x45 x26 x22 x84 xe4 x9c xf2 xcb)) E)))))
(T (W x64 x72 xb0 xfb x5b x92 x94 xc2)
(T (W x00 x00 x00 x00 x00 x00 x00 x00)
(T (W x04 x00 x00 x00 x02 xdf xfc xff)
(T (W x00 x00 x80 x3f x00 x00 x80 x3f)
(T (W x6c x9c xfd xff x50 x00 x00 x00)
(L (W x34 x00 x00 x00 x20 x00 x00 x00))
(L (W x45 x26 x22 x84 xe4 x9c xf2 xcb)))
(T (W x45 x26 x22 x84 xe4 x9c xf2 xcb)
(L (W x54 x00 x00 x00 x48 x00 x00 x00)) E))
(T (W x00 x00 x80 x3f x00 x00 x80 x3f)
(T (W x00 x00 x00 x00 x00 x00 x00 x00)
(L (W x30 x47 xce x6e x56 x25 xcb xd0))
(L (W x45 x26 x22 x84 xe4 x9c xf2 xcb)))
(T (W xc1 x6c x9b x72 xda x64 xee xdb)
(L (W x54 x00 x00 x00 x48 x00 x00 x00)) E)))
(T (W x3c x01 x00 x00 x30 x01 x00 x00)
(T (W x00 x00 x00 x00 x00 x00 x00 x00)
(T (W x1c x01 x00 x00 x01 x00 x00 x00)
(L (W x2c x00 x00 x00 x20 x00 x00 x00))
(L (W x00 x00 x00 x00 x8a xc1 xff xff)))
(T (W x45 x26 x22 x84 xe4 x9c xf2 xcb)
(L (W x00 x00 x00 x00 x00 x00 x00 x00)) E))
(T (W x00 x00 x00 x00 x01 x00 x00 x00)
(T (W x34 x01 x00 x00 x00 x00 xa0 x40)
(L (W x00 x00 x00 x00 xc8 xf9 xfe xff))
(L (W x60 x00 x00 x00 x54 x00 x00 x00)))
(T (W x45 x26 x22 x84 xe4 x9c xf2 xcb)
(L (W x45 x26 x22 x84 xe4 x9c xf2 xcb)) E))))
(T (W x46 x53 x59 x53 x5f x4e x45 x57)
(T (W x00 x00 x00 x00 xc8 xe9 xfc xff)
(T (W x54 x01 x00 x00 x48 x01 x00 x00)
(T (W x68 xc7 xd5 xb9 x71 xcd xf4 xeb)
(L (W x66 x26 x18 x43 x00 x00 x00 x00))
(L (W x45 x26 x22 x84 xe4 x9c xf2 xcb)))
(T (W x71 x92 xdb xe2 x9e xce xa7 x43)
(L (W x00 x00 x40 x40 x24 x01 x00 x00)) E))
(T (W x00 x00 x00 x00 x00 x00 x00 x00)
(T (W x04 x00 x00 x00 x00 x00 x00 x00)
(L (W x00 x00 x00 x00 x00 x00 x00 x00))
(L (W x28 x01 x00 x00 x20 x01 x00 x00)))
(T (W x00 x00 x00 x00 x00 x00 x00 x00)
(L (W x00 x00 x80 xbf x00 x00 x80 xbf)) E)))
(T (W x00 x00 x00 x00 xc8 x09 xfd xff)
(T (W x45 x26 x22 x84 xe4 x9c xf2 xcb)
(T (W x00 x00 x00 x00 xc8 xc9 xfd xff)
(L (W x01 x00 x00 x00 x04 x00 x00 x00))
(L (W x74 x00 x00 x00 x68 x00 x00 x00)))
(T (W x40 x00 x00 x00 x34 x00 x00 x00)
(L (W x45 x26 x22 x84 xe4 x9c xf2 xcb)) E))
(T (W x00 x00 x00 x00 x00 x00 x00 x00)
(T (W x00 x00 x00 x00 x01 x00 x00 x00)
(L (W x00 x00 x00 x00 xc8 x09 xff xff)) E)
(T (W x44 x00 x00 x00 x38 x00 x00 x00)
(L (W x6c x8c xff xff x50 x00 x00 x00)) E))))))
(T (W x00 x00 xf6 x42 x00 x00 x00 x00)
(T (W x1c x01 x00 x00 x04 x00 x00 x00)
(T (W x6c xb8 xfc xff x50 x00 x00 x00)
(T (W x6e x66 xba x4b xbc x37 x01 xeb)
(T (W x60 x00 x00 x00 x54 x00 x00 x00)
(T (W x45 x26 x22 x84 xe4 x9c xf2 xcb)
(L (W x3c x01 x00 x00 x30 x01 x00 x00))
(L (W x00 x00 x80 xbf x00 x00 x80 xbf)))
(T (W x00 x00 x00 x00 x01 x00 x00 x00)
(L (W x01 x00 x00 x00 x00 x00 x80 x3f)) E))
(T (W x5c x00 x00 x00 x50 x00 x00 x00)
(T (W x00 x00 x00 x00 xc8 xd5 xfd xff)
(L (W x5f x4f x55 x54 x42 x52 x45 x41))
(L (W x45 x26 x22 x84 xe4 x9c xf2 xcb)))
(T (W x00 x00 x00 x00 x00 x00 x00 x00)
(L (W x00 x00 x80 xbf x00 x00 x80 xbf)) E)))
(T (W x02 x00 x00 x00 x32 x32 x00 x00)
(T (W xe6 x45 xbb x28 xbf xce x6a x6a)
(T (W x00 x00 x80 x3f xc8 xb5 xfd xff)
(L (W x00 x00 x00 x00 xc8 xb5 xfe xff))
(L (W x00 x00 x80 x3f xc8 xb5 xff xff)))
(T (W x00 x00 x00 x00 x00 x00 x00 x00)
(L (W x2c x00 x00 x00 x20 x00 x00 x00)) E))
(T (W x00 x00 x00 x00 x00 x00 x00 x00)
(T (W x00 x00 x00 x00 x00 x00 x00 x00)
(L (W x45 x26 x22 x84 xe4 x9c xf2 xcb))
(L (W x00 x00 x00 x00 x00 x00 x00 x00)))
(T (W x00 x00 x00 x00 x00 x00 x00 x00)
(L (W x00 x00 x00 x00 x00 x00 x00 x00)) E))))
(T (W x1f x45 x3c x43 xcd xcc x45 x42)
(T (W x45 x26 x22 x84 xe4 x9c xf2 xcb)
(T (W x47 x5f x56 x41 x4c x49 x44 x5f)
(T (W x00 x00 x00 x00 x00 x00 x00 x00)
(L (W x2c x00 x00 x00 x18 x00 x00 x00))
(L (W x00 x00 x00 x00 x00 x00 x00 x00)))
(T (W x1f x05 xfe x43 x00 x00 x00 x00)
(L (W x42 x25 xff xff x00 x00 x80 x3f)) E))
(T (W x00 x00 x00 x00 xc8 x65 xfd xff)
(T (W x00 x00 x80 xbf x9c x00 x00 x00)
(L (W x55 x6c xfc xf1 x99 x9e xc9 x88))
(L (W x00 x00 x00 x00 x00 x00 x00 x00)))
(T (W xc4 x65 xfe xff x00 x00 x00 x00)
(L (W x1f xe5 xfd x43 xa4 x70 x16 x42)) E)))
(T (W x45 x26 x22 x84 xe4 x9c xf2 xcb)
(T (W x04 x00 x00 x00 x00 x00 x00 x00)
(T (W x44 x00 x00 x00 x38 x00 x00 x00)
(L (W x04 x00 x00 x00 x00 x00 x00 x00))
(L (W x45 x26 x22 x84 xe4 x9c xf2 xcb)))
(T (W x45 x26 x22 x84 xe4 x9c xf2 xcb)
(L (W x45 x26 x22 x84 xe4 x9c xf2 xcb)) E))
(T (W x00 x00 x80 x3f x00 x00 x80 x3f)
(T (W x00 x00 x00 x00 x00 x00 x00 x00)
(L (W x54 x00 x00 x00 x48 x00 x00 x00)) E)
(T (W x45 x26 x22 x84 xe4 x9c xf2 xcb)
(L (W x45 x26 x22 x84 xe4 x9c xf2 xcb)) E)))))
(T (W x54 x00 x00 x00 x48 x00 x00 x00)
(T (W xc4 xbd xfc xff x00 x00 x00 x00)
(T (W x45 x26 x22 x84 xe4 x9c xf2 xcb)
(T (W x00 x00 x80 x3f x00 x00 x80 x3f)
(T (W x00 x00 x00 x00 x00 x00 x00 x00)
(L (W x45 x26 x22 x84 xe4 x9c xf2 xcb))
(L (W x00 x00 x00 x00 x00 x00 x00 x00)))
(T (W x45 x26 x22 x84 xe4 x9c xf2 xcb)
(L (W x00 x00 x00 x00 xc8 x1d xff xff)) E))
(T (W x00 x00 x80 xbf x9c x00 x00 x00)
(T (W x60 x00 x00 x00 x54 x00 x00 x00)
(L (W x45 x26 x22 x84 xe4 x9c xf2 xcb))
(L (W x00 x00 x00 x00 xc8 xdd xff xff)))
(T (W x45 x26 x22 x84 xe4 x9c xf2 xcb)
(L (W x00 x00 x00 x00 xc8 x5d xff xff)) E)))
(T (W x34 x00 x00 x00 x20 x00 x00 x00)
(T (W x74 x00 x00 x00 x68 x00 x00 x00)
(T (W x00 x00 x00 x00 x01 x00 x00 x00)
(L (W x04 x00 x00 x00 xe8 xbf xfe xff))
(L (W x04 x00 x00 x00 x02 xc3 xff xff)))
(T (W x00 x00 x00 x00 x8a x45 xfe xff)
(L (W xd6 x81 x9c x94 x9b x27 x57 x25)) E))
(T (W x00 x00 x00 x00 xc8 x7d xfd xff)
(T (W x04 x00 x00 x00 x02 x03 xfe xff)
(L (W xf6 xa8 x83 x43 x00 x00 x00 x00))
(L (W x00 x00 x00 x00 xc8 xfd xff xff)))
(T (W x01 x00 x00 x00 x00 x00 x80 x3f)
(L (W x45 x41 x30 x32 x5f x30 x30 x35)) E))))
(T (W x1b x00 x00 x00 x57 x53 x59 x53)
(T (W x48 x00 x00 x00 x34 x00 x00 x00)
(T (W xe5 xb9 x5c xec x2c x12 xa7 xd3)
(T (W x00 x00 x00 x00 xc8 xad xfd xff)
(L (W x00 x00 x80 xbf x00 x00 x80 xbf))
(L (W xc4 xad xff xff x00 x00 x00 x00)))
(T (W x45 x26 x22 x84 xe4 x9c xf2 xcb)
(L (W x04 x00 x00 x00 x00 x00 x00 x00)) E))
(T (W x78 x00 x00 x00 x6c x00 x00 x00)
(T (W x01 x00 x00 x00 x04 x00 x00 x00)
(L (W x00 x00 x80 xbf x9c x00 x00 x00))
(L (W x04 x00 x00 x00 x00 x00 x00 x00)))
(T (W x45 x26 x22 x84 xe4 x9c xf2 xcb)
(L (W x54 x00 x00 x00 x48 x00 x00 x00)) E)))
(T (W x45 x26 x22 x84 xe4 x9c xf2 xcb)
(T (W x00 x00 x00 x00 x00 x00 x00 x00)
(T (W x0a xd7 x46 x44 x00 x00 x00 x00)
(L (W x00 x00 x00 x00 x00 x00 x00 x00))
(L (W x00 x00 x00 x00 x00 x00 x00 x00)))
(T (W x45 x26 x22 x84 xe4 x9c xf2 xcb)
(L (W x00 x00 x00 x00 x00 x00 x00 x00)) E))
(T (W x00 x00 x00 x00 x8a x95 xfd xff)
(T (W x00 x00 x80 x3f x00 x00 x80 x3f)
(L (W x00 x00 x00 x00 x00 x00 x00 x00)) E)
(T (W x78 x00 x00 x00 x6c x00 x00 x00)
(L (W x04 x00 x00 x00 xe8 x8f xff xff)) E)))))))
(T (W x78 x43 x00 x00 x8c x41 x00 x00)
(T (W x00 x00 x80 x3f x00 x00 x80 x3f)
(T (W xba x87 xff xff x00 x00 x00 x01)
(T (W xc4 xb3 xfc xff x00 x00 x00 x00)
(T (W x00 x00 x80 xbf x00 x00 x80 xbf)
(T (W x00 x00 x00 x00 x01 x00 x00 x00)
(T (W x00 x00 x00 x00 x01 x00 x00 x00)
(L (W x42 x52 x45 x41 x4b x5f x41 x52))
(L (W x42 x52 x45 x41 x4b x5f x41 x52)))
(T (W x45 x26 x22 x84 xe4 x9c xf2 xcb)
(L (W x00 x00 x00 x00 x00 x00 x00 x00)) E))
(T (W x00 x00 x00 x00 x01 x00 x00 x00)
(T (W x40 x00 x00 x00 x38 x00 x00 x00)
(L (W x00 x00 x00 x00 x00 x00 x00 x00))
(L (W x04 x00 x00 x00 x02 xd9 xff xff)))
(T (W x00 x00 x80 x3f x00 x00 x80 x3f)
(L (W x00 x00 x00 x00 x00 x00 x00 x00)) E)))
(T (W x00 x00 x00 x00 x00 x00 x00 x00)
(T (W x6c x36 xfd xff x50 x00 x00 x00)
(T (W x48 x00 x00 x00 x34 x00 x00 x00)
(L (W x45 x26 x22 x84 xe4 x9c xf2 xcb))
(L (W x5c x00 x00 x00 x50 x00 x00 x00)))
(T (W xed xfe xaf x28 xbf x5f x5d x6a)
(L (W x01 x00 x00 x00 x04 x00 x00 x00)) E))
(T (W x42 x73 xfd xff xcd x0c xba x43)
(T (W x45 x26 x22 x84 xe4 x9c xf2 xcb)
(L (W x00 x00 x00 x00 xc8 xf3 xfe xff))
(L (W x2c x00 x00 x00 x20 x00 x00 x00)))
(T (W x45 x26 x22 x84 xe4 x9c xf2 xcb)
(L (W x49 x65 xff x4b x84 x98 x7b x61)) E))))
(T (W x42 xc3 xfc xff x00 x00 x80 x3f)
(T (W x2c x00 x00 x00 x20 x00 x00 x00)
(T (W x00 x00 x80 x3f xc8 x23 xfd xff)
(T (W x00 x00 x00 x00 x00 x00 x00 x00)
(L (W x00 x00 x00 x00 xc8 xa3 xfe xff))
(L (W x45 x26 x22 x84 xe4 x9c xf2 xcb)))
(T (W x28 x00 x00 x00 x14 x00 x00 x00)
(L (W x04 x00 x00 x00 xe8 x25 xff xff)) E))
(T (W x40 x00 x00 x00 x38 x00 x00 x00)
(T (W x5f x41 x52 x45 x41 x30 x32 x00)
(L (W x00 x00 x00 x00 x01 x00 x00 x00))
(L (W x00 x00 x80 x3f xc8 xe3 xff xff)))
(T (W x45 x26 x22 x84 xe4 x9c xf2 xcb)
(L (W x2c x00 x00 x00 x18 x00 x00 x00)) E)))
(T (W x40 x00 x00 x00 x38 x00 x00 x00)
(T (W x00 x00 x80 xbf x9c x00 x00 x00)
(T (W x45 x26 x22 x84 xe4 x9c xf2 xcb)
(L (W x00 x00 x80 xbf x00 x00 x80 xbf))
(L (W x2c x00 x00 x00 x20 x00 x00 x00)))
(T (W x00 x00 x00 x00 x01 x00 x00 x00)
(L (W x1c x01 x00 x00 x01 x00 x00 x00)) E))
(T (W x55 x39 x81 x6a xc4 xc7 x74 x14)
(T (W x45 x26 x22 x84 xe4 x9c xf2 xcb)
(L (W xc1 xa1 xc8 xf8 x1d xd8 x6d x9e)) E)
(T (W x45 x26 x22 x84 xe4 x9c xf2 xcb)
(L (W x04 x00 x00 x00 x02 x89 xff xff)) E)))))
(T (W x04 x00 x00 x00 x00 x00 x00 x00)
(T (W x00 x00 x00 x00 x00 x00 x00 x00)
(T (W x45 x26 x22 x84 xe4 x9c xf2 xcb)
(T (W x52 x18 xb3 x43 x00 x00 x00 x00)
(T (W x9f x41 x45 xdc x00 xd9 x55 x2f)
(L (W x04 x00 x00 x00 x02 xa1 xfe xff))
(L (W x01 x00 x00 x00 x04 x00 x00 x00)))
(T (W x2c x00 x00 x00 x20 x00 x00 x00)
(L (W x45 x26 x22 x84 xe4 x9c xf2 xcb)) E))
(T (W x00 x00 x00 x00 x00 x00 x00 x00)
(T (W x00 x00 x00 x00 x01 x00 x00 x00)
(L (W x54 x00 x00 x00 x48 x00 x00 x00))
(L (W x00 x00 x00 x00 xc8 xdb xff xff)))
(T (W x40 x00 x00 x00 x38 x00 x00 x00)
(L (W x45 x26 x22 x84 xe4 x9c xf2 xcb)) E)))
(T (W x04 x00 x00 x00 x00 x00 x80 x3f)
(T (W xc4 x3b xfd xff x00 x00 x00 x00)
(T (W x45 x26 x22 x84 xe4 x9c xf2 xcb)
(L (W x00 x00 x00 x00 x00 x00 x00 x00))
(L (W x34 x00 x00 x00 x20 x00 x00 x00)))
(T (W x00 x00 x00 x00 x00 x00 x00 x00)
(L (W xc4 x3b xff xff x00 x00 x00 x00)) E))
(T (W x45 x26 x22 x84 xe4 x9c xf2 xcb)
(T (W x34 x00 x00 x00 x20 x00 x00 x00)
(L (W x28 x00 x00 x00 x14 x00 x00 x00))
(L (W x5c x00 x00 x00 x50 x00 x00 x00)))
(T (W x00 x00 x00 x00 x00 x00 x00 x00)
(L (W x00 x00 x00 x00 x00 x00 x00 x00)) E))))
(T (W x41 x30 x32 x00 x00 x00 x32 x00)
(T (W x04 x00 x00 x00 xb0 xeb xfc xff)
(T (W x00 x00 xa0 x41 x24 x01 x00 x00)
(T (W x40 x00 x00 x00 x38 x00 x00 x00)
(L (W x00 x00 xa0 x40 x24 x01 x00 x00))
(L (W x45 x26 x22 x84 xe4 x9c xf2 xcb)))
(T (W x40 x00 x00 x00 x38 x00 x00 x00)
(L (W xf5 xfe xad xfe x74 xfd x54 x21)) E))
(T (W xc4 x6b xfd xff x00 x00 x00 x00)
(T (W x45 x26 x22 x84 xe4 x9c xf2 xcb)
(L (W x00 x00 x00 x00 x00 x00 x00 x00))
(L (W x00 x00 x80 xbf x00 x00 x80 xbf)))
(T (W x1c x01 x00 x00 x01 x00 x00 x00)
(L (W x2c x50 x36 x08 x1e x44 x40 xb9)) E)))
(T (W x44 x00 x00 x00 x38 x00 x00 x00)
(T (W x2c x00 x00 x00 x20 x00 x00 x00)
(T (W x28 x00 x00 x00 x14 x00 x00 x00)
(L (W xb9 x86 xa7 x28 xbf x4a x53 x6a))
(L (W x45 x26 x22 x84 xe4 x9c xf2 xcb)))
(T (W x2c x00 x00 x00 x20 x00 x00 x00)
(L (W x6c x4e xff xff x50 x00 x00 x00)) E))
(T (W x5f x4e x45 x57 x5f x4f x55 x54)
(T (W x60 x00 x00 x00 x54 x00 x00 x00)
(L (W x45 x26 x22 x84 xe4 x9c xf2 xcb)) E)
(T (W x00 x00 x00 x00 x00 x00 x00 x00)
(L (W x00 x00 x00 x00 x00 x00 x00 x00)) E))))))
(T (W x00 x00 x00 x00 x00 x00 x00 x00)
(T (W x00 x00 x80 xbf x9c x00 x00 x00)
(T (W x3f x7c x88 xaf x9a x1e x19 x7c)
(T (W x00 x00 x00 x00 x01 x00 x00 x00)
(T (W xd6 x81 x9c x94 x9b x27 x57 x25)
(T (W xc4 x97 xfd xff x00 x00 x00 x00)
(L (W x01 x00 x00 x00 x00 x00 x80 x3f))
(L (W x04 x00 x00 x00 x00 x00 x00 x00)))
(T (W x40 x00 x00 x00 x38 x00 x00 x00)
(L (W x00 x00 x00 x00 x01 x00 x00 x00)) E))
(T (W x55 x39 x81 x6a xc4 xc7 x74 x14)
(T (W xcb x66 xca xc9 x03 x8d xa3 xbc)
(L (W x01 x00 x00 x00 x01 x00 x00 x00))
(L (W xc4 xd7 xff xff x00 x00 x00 x00)))
(T (W x00 x00 x80 xbf x9c x00 x00 x00)
(L (W x04 x00 x00 x00 x00 x00 x00 x00)) E)))
(T (W x4e x45 x52 x41 x54 x49 x4f x4e)
(T (W x00 x00 x00 x00 x00 x00 x00 x00)
(T (W x00 x00 x00 x00 x00 x00 x00 x00)
(L (W x00 x00 x00 x00 xc8 xb7 xfe xff))
(L (W xc4 xb7 xff xff x46 xb7 xff xff)))
(T (W x00 x00 x00 x00 x01 x00 x00 x00)
(L (W x45 x26 x22 x84 xe4 x9c xf2 xcb)) E))
(T (W x01 x00 x00 x00 x00 x00 x80 x3f)
(T (W x00 x00 x00 x00 x1c x00 x00 x00)
(L (W x00 x00 x00 x00 x00 x00 x00 x00))
(L (W x74 x00 x00 x00 x68 x00 x00 x00)))
(T (W x48 x00 x00 x00 x34 x00 x00 x00)
(L (W x00 x00 x00 x00 x01 x00 x00 x00)) E))))
(T (W x00 x00 x00 x00 x00 x00 x00 x00)
(T (W x00 x00 x00 x00 x00 x00 x00 x00)
(T (W x47 x5f x31 x30 x30 x5f x53 x50)
(T (W x00 x00 xe0 x40 x24 x01 x00 x00)
(L (W x42 xa7 xfe xff x00 x00 x80 x3f))
(L (W x1c x01 x00 x00 x01 x00 x00 x00)))
(T (W x00 x00 x80 x40 x24 x01 x00 x00)
(L (W x00 x00 x00 x00 x02 x00 x00 x00)) E))
(T (W x9f x41 x45 xdc x00 xd9 x55 x2f)
(T (W x07 x61 x8f x20 xfe x80 x7e x7e)
(L (W x00 x00 x80 x3f xc8 xe7 xfe xff))
(L (W x5f x30 x30 x37 x00 x00 x00 x00)))
(T (W x45 x26 x22 x84 xe4 x9c xf2 xcb)
(L (W x53 x5f x47 x41 x4e x45 x52 x41)) E)))
(T (W x45 x26 x22 x84 xe4 x9c xf2 xcb)
(T (W x54 x00 x00 x00 x48 x00 x00 x00)
(T (W x45 x26 x22 x84 xe4 x9c xf2 xcb)
(L (W x45 x26 x22 x84 xe4 x9c xf2 xcb))
(L (W x00 x00 x00 x00 x00 x00 x00 x00)))
(T (W x34 x48 xfe xff x4c x00 x00 x00)
(L (W x00 x00 x00 x00 x01 x00 x00 x00)) E))
(T (W x00 x00 x10 x42 x33 x93 x55 x44)
(T (W x00 x00 x00 x00 x00 x00 x00 x00)
(L (W x45 x26 x22 x84 xe4 x9c xf2 xcb)) E)
(T (W x45 x26 x22 x84 xe4 x9c xf2 xcb)
(L (W x45 x26 x22 x84 xe4 x9c xf2 xcb)) E)))))
(T (W x45 x26 x22 x84 xe4 x9c xf2 xcb)
(T (W x74 x00 x00 x00 x68 x00 x00 x00)
(T (W x00 x00 x00 x00 xc8 xdf xfc xff)
(T (W x5c xcf x5c x44 xec x51 x5d x42)
(T (W x48 x00 x00 x00 x34 x00 x00 x00)
(L (W x44 x00 x00 x00 x38 x00 x00 x00))
(L (W x00 x00 x00 x00 x00 x00 x00 x00)))
(T (W xc4 x1f xfe xff x00 x00 x00 x00)
(L (W x7d xea xac x28 xbf xdc x59 x6a)) E))
(T (W x34 x00 x00 x00 x20 x00 x00 x00)
(T (W x45 x26 x22 x84 xe4 x9c xf2 xcb)
(L (W x01 x00 x00 x00 x04 x00 x00 x00))
(L (W x48 x00 x00 x00 x34 x00 x00 x00)))
(T (W x45 x26 x22 x84 xe4 x9c xf2 xcb)
(L (W x45 x26 x22 x84 xe4 x9c xf2 xcb)) E)))
(T (W x45 x26 x22 x84 xe4 x9c xf2 xcb)
(T (W x00 x00 x80 x3f x00 x00 x80 x3f)
(T (W x40 x00 x00 x00 x38 x00 x00 x00)
(L (W x42 xbf xfe xff x00 x00 x80 x3f))
(L (W x45 x26 x22 x84 xe4 x9c xf2 xcb)))
(T (W x1c x01 x00 x00 x01 x00 x00 x00)
(L (W xc4 x3f xff xff x46 x3f xff xff)) E))
(T (W x45 x26 x22 x84 xe4 x9c xf2 xcb)
(T (W x45 x26 x22 x84 xe4 x9c xf2 xcb)
(L (W x42 x52 x45 x41 x4b x5f x41 x52))
(L (W x45 x26 x22 x84 xe4 x9c xf2 xcb)))
(T (W x34 x00 x00 x00 x20 x00 x00 x00)
(L (W x00 x00 x80 xbf x9c x00 x00 x00)) E))))
(T (W x5f x41 x52 x45 x41 x30 x32 x00)
(T (W x4f x84 x6f x8b xe8 xcb x63 xb7)
(T (W x04 x00 x00 x00 x02 x35 xfd xff)
(T (W xb2 x4c xbb x28 xbf xd2 x6a x6a)
(L (W x00 x00 x00 x00 x01 x00 x00 x00))
(L (W x38 xb6 x1c x76 x80 xb8 xf7 x18)))
(T (W xc4 x2f xfe xff x00 x00 x00 x00)
(L (W x40 x00 x00 x00 x38 x00 x00 x00)) E))
(T (W x2c x00 x00 x00 x18 x00 x00 x00)
(T (W x00 x00 x00 x00 x00 x00 x00 x00)
(L (W x04 x00 x00 x00 x00 x00 x00 x00))
(L (W x45 x26 x22 x84 xe4 x9c xf2 xcb)))
(T (W x45 x26 x22 x84 xe4 x9c xf2 xcb)
(L (W x45 x26 x22 x84 xe4 x9c xf2 xcb)) E)))
(T (W x00 x00 x00 x00 x00 x00 x00 x00)
(T (W xc4 x4f xfd xff x00 x00 x00 x00)
(T (W x00 x00 x40 x40 x24 x01 x00 x00)
(L (W x44 x00 x00 x00 x30 x00 x00 x00))
(L (W x41 x30 x32 x00 x8a xd7 xff xff)))
(T (W xc4 x4f xfe xff x00 x00 x00 x00)
(L (W x04 x00 x00 x00 xe8 x51 xff xff)) E))
(T (W x34 x00 x00 x00 x20 x00 x00 x00)
(T (W x00 x00 x00 x00 x00 x00 x00 x00)
(L (W x5c x00 x00 x00 x50 x00 x00 x00)) E)
(T (W x28 x00 x00 x00 x14 x00 x00 x00)
(L (W x42 x8f xff xff x00 x00 x80 x3f)) E))))))))
(T (W xec xaa x01 x00 x00 xa9 x01 x00)
(T (W xa8 xbd x00 x00 xa8 xbb x00 x00)
(T (W x45 x26 x22 x84 xe4 x9c xf2 xcb)
(T (W x2c x00 x00 x00 x20 x00 x00 x00)
(T (W x00 x00 x00 x00 x00 x00 x00 x00)
(T (W x00 x00 x00 x00 x00 x00 x00 x00)
(T (W x53 xf3 xb1 x4b xbc x25 xf7 xea)
(T (W x78 x00 x00 x00 x6c x00 x00 x00)
(L (W x6c x95 xfe xff x50 x00 x00 x00))
(L (W x6c x95 xff xff x50 x00 x00 x00)))
(T (W x00 x00 x00 x00 x00 x00 x00 x00)
(L (W x45 x26 x22 x84 xe4 x9c xf2 xcb)) E))
(T (W x00 x00 x00 x00 x01 x00 x00 x00)
(T (W x04 x00 x00 x00 xe8 xd4 xfd xff)
(L (W x00 x00 x00 x00 xc8 xd2 xfe xff))
(L (W xc4 xd2 xff xff x00 x00 x00 x00)))
(T (W x45 x26 x22 x84 xe4 x9c xf2 xcb)
(L (W x00 x00 x00 x00 xc8 x52 xff xff)) E)))
(T (W x45 x26 x22 x84 xe4 x9c xf2 xcb)
(T (W x66 xa6 x9e x43 x00 x00 x00 x00)
(T (W x04 x00 x00 x00 x00 x00 x00 x00)
(L (W xc4 xb2 xfe xff x46 xb2 xfe xff))
(L (W x00 x00 x00 x00 x01 x00 x00 x00)))
(T (W x42 x52 x45 x41 x4b x5f x41 x52)
(L (W xc3 x55 xe0 x43 x8f xc2 x28 x42)) E))
(T (W x45 x26 x22 x84 xe4 x9c xf2 xcb)
(T (W x54 x00 x00 x00 x48 x00 x00 x00)
(L (W xc4 xf2 xfe xff x46 xf2 xfe xff))
(L (W x5f x4f x55 x54 x42 x52 x45 x41)))
(T (W x00 x00 x00 x00 x00 x00 x00 x00)
(L (W x00 x00 x00 x00 x00 x00 x00 x00)) E))))
(T (W x40 x00 x00 x00 x38 x00 x00 x00)
(T (W x5f x4d x41 x53 x53 x5f x47 x41)
(T (W x45 x26 x22 x84 xe4 x9c xf2 xcb)
(T (W x45 x26 x22 x84 xe4 x9c xf2 xcb)
(L (W x00 x00 x80 xbf x9c x00 x00 x00))
(L (W x04 x00 x00 x00 x02 xa8 xff xff)))
(T (W x00 x00 x00 x00 x01 x00 x00 x00)
(L (W xfa xfe x14 xb3 x6f x93 xc3 x01)) E))
(T (W x2c x00 x00 x00 x18 x00 x00 x00)
(T (W x44 x00 x00 x00 x38 x00 x00 x00)
(L (W xb4 x55 x81 xf3 x1d x34 x54 x95))
(L (W x45 x26 x22 x84 xe4 x9c xf2 xcb)))
(T (W x00 x00 x00 x00 x8a x6a xfe xff)
(L (W x00 x00 x00 x00 x01 x00 x00 x00)) E)))
(T (W x2c x00 x00 x00 x18 x00 x00 x00)
(T (W x45 x26 x22 x84 xe4 x9c xf2 xcb)
(T (W x42 xc2 xfd xff x00 xe0 x35 x44)
(L (W x75 x13 xb9 x28 xbf xd0 x67 x6a))
(L (W x00 x00 x00 x00 x00 x00 x00 x00)))
(T (W x78 x00 x00 x00 x6c x00 x00 x00)
(L (W x45 x26 x22 x84 xe4 x9c xf2 xcb)) E))
(T (W x04 x00 x00 x00 x02 x88 xfd xff)
(T (W x45 x41 x30 x32 x5f x30 x31 x34)
(L (W x00 x00 x00 x00 x00 x00 x00 x00)) E)
(T (W x55 x39 x81 x6a xc4 xc7 x74 x14)
(L (W x74 x00 x00 x00 x68 x00 x00 x00)) E)))))
(T (W x04 x00 x00 x00 xe8 xac xfc xff)
(T (W x04 x00 x00 x00 x00 x00 x80 x3f)
(T (W xd6 x81 x9c x94 x9b x27 x57 x25)
(T (W x45 x26 x22 x84 xe4 x9c xf2 xcb)
(T (W x42 x52 x45 x41 x4b x5f x41 x52)
(L (W xc4 x9a xfe xff x00 x00 x00 x00))
(L (W x3d x4a x79 x43 x0a xd7 x24 x42)))
(T (W x00 x00 x00 x00 x00 x00 x00 x00)
(L (W x55 x6c xfc xf1 x99 x9e xc9 x88)) E))
(T (W xc4 x5a xfd xff x00 x00 x00 x00)
(T (W x6f x9f x32 x19 x15 x79 xe9 x0b)
(L (W x04 x00 x00 x00 xb0 xda xfe xff))
(L (W x00 x00 x80 xbf x9c x00 x00 x00)))
(T (W x04 x00 x00 x00 xe8 x5c xfe xff)
(L (W x45 x26 x22 x84 xe4 x9c xf2 xcb)) E)))
(T (W x00 x00 x00 x00 x00 x00 x00 x00)
(T (W x34 x00 x00 x00 x20 x00 x00 x00)
(T (W x00 x00 x00 x00 x00 x00 x00 x00)
(L (W x01 x00 x00 x00 x01 x00 x00 x00))
(L (W x45 x26 x22 x84 xe4 x9c xf2 xcb)))
(T (W x45 x26 x22 x84 xe4 x9c xf2 xcb)
(L (W x34 x00 x00 x00 x20 x00 x00 x00)) E))
(T (W x5c x00 x00 x00 x50 x00 x00 x00)
(T (W x00 x00 x00 x00 x00 x00 x00 x00)
(L (W x00 x00 x00 x00 x01 x00 x00 x00))
(L (W x00 x00 x1a x00 x48 x00 x14 x00)))
(T (W x45 x26 x22 x84 xe4 x9c xf2 xcb)
(L (W x45 x26 x22 x84 xe4 x9c xf2 xcb)) E))))
(T (W x44 x00 x00 x00 x38 x00 x00 x00)
(T (W x63 x30 x47 x10 xa2 x89 xfb xc3)
(T (W x00 x00 x00 x00 x00 x00 x00 x00)
(T (W x04 x00 x00 x00 xe8 xac xfd xff)
(L (W x6c xad xfe xff x50 x00 x00 x00))
(L (W x74 x00 x00 x00 x68 x00 x00 x00)))
(T (W x04 x00 x00 x00 xe8 x2c xfe xff)
(L (W x00 x00 x00 x00 x00 x00 x00 x00)) E))
(T (W x34 x00 x00 x00 x20 x00 x00 x00)
(T (W x44 x00 x00 x00 x30 x00 x00 x00)
(L (W xc4 xea xfe xff x00 x00 x00 x00))
(L (W x00 x00 x00 x00 x00 x00 x00 x00)))
(T (W x44 x00 x00 x00 x38 x00 x00 x00)
(L (W x00 x00 x00 x00 x00 x00 x00 x00)) E)))
(T (W x1b x00 x00 x00 x57 x53 x59 x53)
(T (W x00 x00 x00 x00 x00 x00 x00 x00)
(T (W x00 x00 x00 x00 x01 x00 x00 x00)
(L (W x53 x5f x47 x41 x4e x45 x52 x41))
(L (W x04 x00 x00 x00 x02 xd0 xff xff)))
(T (W x57 x53 x59 x53 x5f x4d x41 x53)
(L (W x29 x4c x1d x44 x00 x00 x00 x00)) E))
(T (W x01 x00 x00 x00 x04 x00 x00 x00)
(T (W x00 x00 x00 x00 x01 x00 x00 x00)
(L (W x00 x00 x00 x00 x8a x12 xff xff)) E)
(T (W x1c x01 x00 x00 x01 x00 x00 x00)
(L (W x00 x00 x40 x40 x24 x01 x00 x00)) E))))))
(T (W x00 x00 x00 x00 xc8 x9e xfc xff)
(T (W x00 x00 x00 x00 x00 x00 x00 x00)
(T (W x4b x5f x41 x52 x45 x41 x30 x32)
(T (W x00 x00 x00 x00 x01 x00 x00 x00)
(T (W x04 x00 x00 x00 x02 x1c xfd xff)
(T (W x48 x21 x44 x44 x00 x00 x00 x00)
(L (W x00 x00 x00 x00 x00 x00 x00 x00))
(L (W x00 x00 x00 x00 x00 x00 x00 x00)))
(T (W x28 x00 x00 x00 x14 x00 x00 x00)
(L (W x00 x00 x00 x00 x00 x00 x00 x00)) E))
(T (W x04 x00 x00 x00 x02 x5c xfd xff)
(T (W x00 x00 x00 x00 x00 x00 x00 x00)
(L (W x2c x00 x00 x00 x20 x00 x00 x00))
(L (W x00 x00 x00 x00 x00 x00 x00 x00)))
(T (W x45 x26 x22 x84 xe4 x9c xf2 xcb)
(L (W x00 x00 x00 x00 x00 x00 x00 x00)) E)))
(T (W x6c xf9 xfc xff x50 x00 x00 x00)
(T (W x34 x01 x00 x00 x00 x00 xa0 x40)
(T (W x45 x26 x22 x84 xe4 x9c xf2 xcb)
(L (W x29 xdc xdf x42 x52 x38 xee x42))
(L (W x45 x26 x22 x84 xe4 x9c xf2 xcb)))
(T (W xf6 x7b xfc x36 x15 xef x4b x40)
(L (W x00 x00 x00 x00 x8a x3e xff xff)) E))
(T (W x2c x00 x00 x00 x20 x00 x00 x00)
(T (W xc4 xf6 xfd xff x00 x00 x00 x00)
(L (W x1c x01 x00 x00 x01 x00 x00 x00))
(L (W x45 x26 x22 x84 xe4 x9c xf2 xcb)))
(T (W x04 x00 x00 x00 x00 x00 x00 x00)
(L (W x81 x70 x39 x08 x1e xce x43 xb9)) E))))
(T (W x45 x26 x22 x84 xe4 x9c xf2 xcb)
(T (W x1c x01 x00 x00 x04 x00 x00 x00)
(T (W x01 x00 x00 x00 x04 x00 x00 x00)
(T (W x6c xa9 xfd xff x50 x00 x00 x00)
(L (W x40 x00 x00 x00 x38 x00 x00 x00))
(L (W x44 x00 x00 x00 x38 x00 x00 x00)))
(T (W x6c x29 xfe xff x50 x00 x00 x00)
(L (W x00 x00 x00 x00 xc8 x26 xff xff)) E))
(T (W x00 x00 x00 x00 x00 x00 x00 x00)
(T (W x00 x00 x00 x00 xc8 xe6 xfd xff)
(L (W x45 x26 x22 x84 xe4 x9c xf2 xcb))
(L (W x44 x00 x00 x00 x38 x00 x00 x00)))
(T (W x04 x00 x00 x00 x02 x6c xfe xff)
(L (W x01 x00 x00 x00 x04 x00 x00 x00)) E)))
(T (W x42 x06 xfd xff x1f x75 x5a x44)
(T (W x48 x00 x00 x00 x34 x00 x00 x00)
(T (W x45 x41 x30 x32 x5f x30 x30 x39)
(L (W x44 x00 x00 x00 x30 x00 x00 x00))
(L (W x1c x01 x00 x00 x01 x00 x00 x00)))
(T (W x52 xa8 x05 x44 x00 x00 x00 x00)
(L (W x78 x00 x00 x00 x6c x00 x00 x00)) E))
(T (W x45 x26 x22 x84 xe4 x9c xf2 xcb)
(T (W x00 x00 x80 xbf x00 x00 x80 xbf)
(L (W x45 x26 x22 x84 xe4 x9c xf2 xcb)) E)
(T (W x00 x00 x80 x3f x00 x00 x80 x3f)
(L (W x00 x00 x80 x3f x00 x00 x80 x3f)) E)))))
(T (W x4f x84 x6f x8b xe8 xcb x63 xb7)
(T (W x45 x26 x22 x84 xe4 x9c xf2 xcb)
(T (W xf6 x28 x45 x42 x52 xb8 xf9 x43)
(T (W x45 x26 x22 x84 xe4 x9c xf2 xcb)
(T (W x04 x00 x00 x00 x00 x00 x00 x00)
(L (W x00 x00 x00 x00 x00 x00 x00 x00))
(L (W x01 x00 x00 x00 x00 x00 x80 x3f)))
(T (W x34 x00 x00 x00 x20 x00 x00 x00)
(L (W x00 x00 x00 x00 x00 x00 x00 x00)) E))
(T (W x5f x4e x45 x57 x5f x4f x55 x54)
(T (W x04 x00 x00 x00 x02 xe4 xfd xff)
(L (W x00 x00 x00 x00 x00 x00 x00 x00))
(L (W x04 x00 x00 x00 x00 x00 x00 x00)))
(T (W x42 x5e xfe xff x0a xb7 x50 x44)
(L (W x00 x00 x00 x00 x8a x66 xff xff)) E)))
(T (W xc4 xfe xfc xff x00 x00 x00 x00)
(T (W x45 x26 x22 x84 xe4 x9c xf2 xcb)
(T (W x28 x00 x00 x00 x14 x00 x00 x00)
(L (W x40 x00 x00 x00 x38 x00 x00 x00))
(L (W xd6 x81 x9c x94 x9b x27 x57 x25)))
(T (W x45 x26 x22 x84 xe4 x9c xf2 xcb)
(L (W x45 x26 x22 x84 xe4 x9c xf2 xcb)) E))
(T (W x00 x00 x00 x00 x8a x86 xfd xff)
(T (W x45 x26 x22 x84 xe4 x9c xf2 xcb)
(L (W x6c x01 xff xff x50 x00 x00 x00))
(L (W x01 x00 x00 x00 x00 x00 x80 x3f)))
(T (W x00 x00 x00 x00 x00 x00 x00 x00)
(L (W x45 x26 x22 x84 xe4 x9c xf2 xcb)) E))))
(T (W x44 x00 x00 x00 x38 x00 x00 x00)
(T (W x54 x00 x00 x00 x48 x00 x00 x00)
(T (W x00 x00 x00 x00 x01 x00 x00 x00)
(T (W x00 x00 x00 x00 x00 x00 x00 x00)
(L (W x00 x00 x00 x00 x00 x00 x00 x00))
(L (W x00 x00 x00 x00 x00 x00 x00 x00)))
(T (W x00 x00 x80 x3f x00 x00 x80 x3f)
(L (W x44 x00 x00 x00 x30 x00 x00 x00)) E))
(T (W x00 x00 x00 x00 x01 x00 x00 x00)
(T (W x3c x01 x00 x00 x30 x01 x00 x00)
(L (W x00 x00 x00 x00 xc8 xee xfe xff))
(L (W x44 x00 x00 x00 x30 x00 x00 x00)))
(T (W x74 x00 x00 x00 x68 x00 x00 x00)
(L (W x55 x6c xfc xf1 x99 x9e xc9 x88)) E)))
(T (W x00 x00 xe0 x40 x24 x01 x00 x00)
(T (W x34 x00 x00 x00 x20 x00 x00 x00)
(T (W x6c xd1 xfd xff x50 x00 x00 x00)
(L (W x04 x00 x00 x00 x00 x00 x00 x00))
(L (W x44 x00 x00 x00 x38 x00 x00 x00)))
(T (W x34 x00 x00 x00 x20 x00 x00 x00)
(L (W xa5 xdd x9d xca x3e xb7 x22 xc3)) E))
(T (W x45 x26 x22 x84 xe4 x9c xf2 xcb)
(T (W x00 x00 x00 x00 xc8 x0e xfe xff)
(L (W x00 x00 x00 x00 x01 x00 x00 x00)) E)
(T (W x00 x00 x00 x00 x01 x00 x00 x00)
(L (W x40 x00 x00 x00 x38 x00 x00 x00)) E)))))))
(T (W x04 x00 x00 x00 x02 x9e xfc xff)
(T (W x45 x26 x22 x84 xe4 x9c xf2 xcb)
(T (W x45 x26 x22 x84 xe4 x9c xf2 xcb)
(T (W x00 x00 x00 x00 x1c x00 x00 x00)
(T (W x00 x00 x00 x00 x00 x00 x00 x00)
(T (W x00 x00 x00 x00 x01 x00 x00 x00)
(T (W x28 x00 x00 x00 x14 x00 x00 x00)
(L (W x5c x0e xb9 x28 xbf xcd x67 x6a))
(L (W x53 x83 xa7 x28 xbf x48 x53 x6a)))
(T (W x78 x00 x00 x00 x6c x00 x00 x00)
(L (W x2c x00 x00 x00 x20 x00 x00 x00)) E))
(T (W x00 x00 x00 x00 x01 x00 x00 x00)
(T (W x42 xd4 xfd xff x00 x00 x80 x3f)
(L (W x01 x00 x00 x00 x04 x00 x00 x00))
(L (W x45 x26 x22 x84 xe4 x9c xf2 xcb)))
(T (W xc4 x54 xfe xff x00 x00 x00 x00)
(L (W x0e xa7 xaa x28 xbf xd4 x56 x6a)) E)))
(T (W xc4 xf4 xfc xff x00 x00 x00 x00)
(T (W x42 x52 x45 x41 x4b x5f x41 x52)
(T (W x45 x26 x22 x84 xe4 x9c xf2 xcb)
(L (W x9a xd9 xa4 x43 xcd xcc xdf x42))
(L (W x45 x26 x22 x84 xe4 x9c xf2 xcb)))
(T (W x3c x01 x00 x00 x30 x01 x00 x00)
(L (W x5f x4e x45 x57 x5f x4f x55 x54)) E))
(T (W x45 x26 x22 x84 xe4 x9c xf2 xcb)
(T (W x45 x26 x22 x84 xe4 x9c xf2 xcb)
(L (W x00 x00 x00 x00 x8a xfc xfe xff))
(L (W x01 x00 x00 x00 x01 x00 x00 x00)))
(T (W x00 x00 x80 xbf x00 x00 x80 xbf)
(L (W x00 x00 x80 xbf x00 x00 x80 xbf)) E))))
(T (W x45 x26 x22 x84 xe4 x9c xf2 xcb)
(T (W xba xc8 xff xff x00 x00 x00 x01)
(T (W xc4 x24 xfd xff x00 x00 x00 x00)
(T (W xc4 xa4 xfd xff x00 x00 x00 x00)
(L (W x00 x00 x00 x00 x01 x00 x00 x00))
(L (W x45 x26 x22 x84 xe4 x9c xf2 xcb)))
(T (W x45 x26 x22 x84 xe4 x9c xf2 xcb)
(L (W x40 x00 x00 x00 x38 x00 x00 x00)) E))
(T (W x42 x64 xfd xff x00 x00 x80 x3f)
(T (W x45 x26 x22 x84 xe4 x9c xf2 xcb)
(L (W x54 x00 x00 x00 x48 x00 x00 x00))
(L (W x45 x26 x22 x84 xe4 x9c xf2 xcb)))
(T (W x34 x00 x00 x00 x20 x00 x00 x00)
(L (W x45 x26 x22 x84 xe4 x9c xf2 xcb)) E)))
(T (W x00 x00 x00 x00 x46 x04 xfd xff)
(T (W x00 x00 x00 x00 xc8 x44 xfd xff)
(T (W x00 x00 x00 x00 x00 x00 x00 x00)
(L (W x00 x00 x00 x00 x00 x00 x00 x00))
(L (W x00 x00 x00 x00 x8a xcc xff xff)))
(T (W x28 x00 x00 x00 x14 x00 x00 x00)
(L (W x00 x00 x00 x00 x00 x00 x00 x00)) E))
(T (W x45 x26 x22 x84 xe4 x9c xf2 xcb)
(T (W x00 x00 xa0 x40 x24 x01 x00 x00)
(L (W x00 x00 x00 x00 x01 x00 x00 x00)) E)
(T (W x00 x00 x80 x3f x00 x00 x80 x3f)
(L (W x55 x39 x81 x6a xc4 xc7 x74 x14)) E)))))
(T (W x44 x00 x00 x00 x30 x00 x00 x00)
(T (W x34 x00 x00 x00 x20 x00 x00 x00)
(T (W x00 x00 x80 x3f x00 x00 x80 x3f)
(T (W x45 x26 x22 x84 xe4 x9c xf2 xcb)
(T (W x00 x00 x80 xbf x00 x00 x80 xbf)
(L (W x45 x26 x22 x84 xe4 x9c xf2 xcb))
(L (W x3c x01 x00 x00 x30 x01 x00 x00)))
(T (W x00 x00 x00 x00 x8a x24 xfe xff)
(L (W x66 xe6 x18 x44 x33 x33 x65 x42)) E))
(T (W x45 x26 x22 x84 xe4 x9c xf2 xcb)
(T (W x00 x00 x00 x00 x01 x00 x00 x00)
(L (W x45 x26 x22 x84 xe4 x9c xf2 xcb))
(L (W x00 x00 x80 xbf x9c x00 x00 x00)))
(T (W x00 x00 x00 x00 x46 x5c xfe xff)
(L (W x00 x00 x00 x00 x00 x00 x00 x00)) E)))
(T (W x00 x00 x00 x00 x00 x00 x00 x00)
(T (W x45 x26 x22 x84 xe4 x9c xf2 xcb)
(T (W x78 x00 x00 x00 x6c x00 x00 x00)
(L (W x8c x4f x2a x8b x6a xdc x9b x7e))
(L (W xc4 xbc xff xff x00 x00 x00 x00)))
(T (W x2c x00 x00 x00 x20 x00 x00 x00)
(L (W x04 x00 x00 x00 x02 x42 xff xff)) E))
(T (W xc4 x7c xfd xff x46 x7c xfd xff)
(T (W xc4 xfc xfd xff x00 x00 x00 x00)
(L (W x45 x26 x22 x84 xe4 x9c xf2 xcb))
(L (W x18 x32 x75 xb6 xcb xe9 xfa x39)))
(T (W x2c x00 x00 x00 x20 x00 x00 x00)
(L (W x44 x00 x00 x00 x38 x00 x00 x00)) E))))
(T (W x00 x00 x00 x00 xc8 xcc xfc xff)
(T (W x04 x00 x00 x00 x00 x00 x00 x00)
(T (W x00 x00 x00 x00 x00 x00 x00 x00)
(T (W x42 xac xfd xff x00 x00 x80 x3f)
(L (W x00 x00 x00 x00 x00 x00 x00 x00))
(L (W x00 x00 x80 x3f x00 x00 x80 x3f)))
(T (W x28 x00 x00 x00 x14 x00 x00 x00)
(L (W x04 x00 x00 x00 xb0 x2c xff xff)) E))
(T (W x45 x26 x22 x84 xe4 x9c xf2 xcb)
(T (W xec x81 x4e x44 x14 xae x18 x42)
(L (W x45 x26 x22 x84 xe4 x9c xf2 xcb))
(L (W x00 x00 x00 x00 x00 x00 x00 x00)))
(T (W x00 x00 x00 x00 x00 x00 x00 x00)
(L (W x00 x00 x00 x00 x01 x00 x00 x00)) E)))
(T (W x5f x41 x52 x45 x41 x30 x32 x00)
(T (W x01 x00 x00 x00 x00 x00 x80 x3f)
(T (W x45 x26 x22 x84 xe4 x9c xf2 xcb)
(L (W x00 x00 x80 xbf x00 x00 x80 xbf))
(L (W x45 x26 x22 x84 xe4 x9c xf2 xcb)))
(T (W x00 x00 x00 x00 x8a x54 xfe xff)
(L (W x00 x00 xc0 x40 x24 x01 x00 x00)) E))
(T (W x2c x00 x00 x00 x20 x00 x00 x00)
(T (W x45 x26 x22 x84 xe4 x9c xf2 xcb)
(L (W x01 x00 x00 x00 x00 x00 x80 x3f)) E)
(T (W x45 x26 x22 x84 xe4 x9c xf2 xcb)
(L (W x34 x29 xee xa7 xf9 xad xc2 x19)) E))))))
(T (W x01 x00 x00 x00 x04 x00 x00 x00)
(T (W x00 x00 x00 x00 xc8 xa8 xfc xff)
(T (W x3c x01 x00 x00 x30 x01 x00 x00)
(T (W x60 x00 x00 x00 x54 x00 x00 x00)
(T (W x45 x26 x22 x84 xe4 x9c xf2 xcb)
(T (W x00 x00 x00 x00 x00 x00 x00 x00)
(L (W x00 x00 x00 x00 x00 x00 x00 x00))
(L (W x44 x00 x00 x00 x30 x00 x00 x00)))
(T (W x00 x00 x00 x00 x46 x18 xfe xff)
(L (W x5c x00 x00 x00 x50 x00 x00 x00)) E))
(T (W x45 x26 x22 x84 xe4 x9c xf2 xcb)
(T (W x00 x00 x80 xbf x00 x00 x80 xbf)
(L (W x00 x00 x00 x00 x00 x00 x00 x00))
(L (W x00 x00 x00 x00 x00 x00 x00 x00)))
(T (W x00 x00 x00 x00 xc8 x58 xfe xff)
(L (W x48 x00 x00 x00 x34 x00 x00 x00)) E)))
(T (W x09 xb0 x33 x97 x85 xa2 x5f x5f)
(T (W x00 x00 x80 x3f x02 x00 x00 x00)
(T (W x44 x00 x00 x00 x38 x00 x00 x00)
(L (W x00 x00 x00 x00 x00 x00 x00 x00))
(L (W x00 x00 x00 x00 xc8 xb8 xff xff)))
(T (W x54 x00 x00 x00 x48 x00 x00 x00)
(L (W x01 x00 x00 x00 x00 x00 x80 x3f)) E))
(T (W x00 x00 x00 x00 x00 x00 x00 x00)
(T (W x6c xfb xfd xff x50 x00 x00 x00)
(L (W x00 x00 x80 xbf x9c x00 x00 x00))
(L (W x00 x00 x00 x00 x01 x00 x00 x00)))
(T (W x54 x00 x00 x00 x48 x00 x00 x00)
(L (W x54 x00 x00 x00 x48 x00 x00 x00)) E))))
(T (W x00 x00 x00 x00 xc8 xc8 xfc xff)
(T (W x00 x00 x80 xbf x9c x00 x00 x00)
(T (W x55 x39 x81 x6a xc4 xc7 x74 x14)
(T (W x00 x00 x00 x00 x00 x00 x00 x00)
(L (W x45 x26 x22 x84 xe4 x9c xf2 xcb))
(L (W x00 x00 x00 x00 x00 x00 x00 x00)))
(T (W x00 x00 x00 x00 x00 x00 x00 x00)
(L (W x6c x2b xff xff x50 x00 x00 x00)) E))
(T (W x00 x00 x80 x3f x02 x00 x00 x00)
(T (W x04 x00 x00 x00 xb0 xe8 xfd xff)
(L (W x45 x26 x22 x84 xe4 x9c xf2 xcb))
(L (W x45 x26 x22 x84 xe4 x9c xf2 xcb)))
(T (W x45 x26 x22 x84 xe4 x9c xf2 xcb)
(L (W x87 xfb xaf x28 xbf x5d x5d x6a)) E)))
(T (W x00 x00 x00 x00 x00 x00 x00 x00)
(T (W x45 x26 x22 x84 xe4 x9c xf2 xcb)
(T (W x00 x00 x80 xbf x9c x00 x00 x00)
(L (W xcd x4c xb8 x43 x33 x33 xc1 x42))
(L (W x45 x26 x22 x84 xe4 x9c xf2 xcb)))
(T (W x31 x37 x00 x00 x1b x00 x00 x00)
(L (W x28 x00 x00 x00 x14 x00 x00 x00)) E))
(T (W x00 x00 x00 x00 xc8 x88 xfd xff)
(T (W xc1 x84 xf1 x13 x15 xe0 xd6 x02)
(L (W x00 x00 x00 x00 x00 x00 x00 x00)) E)
(T (W x00 x00 x00 x00 x00 x00 x00 x00)
(L (W x66 x86 x32 x44 x00 x00 x00 x00)) E)))))
(T (W xc4 xb0 xfc xff x46 xb0 xfc xff)
(T (W x00 x00 x00 x00 x01 x00 x00 x00)
(T (W x00 x00 x00 x00 x00 x00 x00 x00)
(T (W x45 x26 x22 x84 xe4 x9c xf2 xcb)
(T (W x45 x26 x22 x84 xe4 x9c xf2 xcb)
(L (W x1c x01 x00 x00 x01 x00 x00 x00))
(L (W x34 x00 x00 x00 x20 x00 x00 x00)))
(T (W x45 x26 x22 x84 xe4 x9c xf2 xcb)
(L (W x00 x00 x00 x41 x24 x01 x00 x00)) E))
(T (W xc4 x60 xfd xff x00 x00 x00 x00)
(T (W x45 x26 x22 x84 xe4 x9c xf2 xcb)
(L (W x3c x01 x00 x00 x30 x01 x00 x00))
(L (W x54 x00 x00 x00 x48 x00 x00 x00)))
(T (W x00 x00 x00 x00 x00 x00 x00 x00)
(L (W x34 x00 x00 x00 x20 x00 x00 x00)) E)))
(T (W x78 x00 x00 x00 x6c x00 x00 x00)
(T (W xc4 x40 xfd xff x00 x00 x00 x00)
(T (W x42 xc0 xfd xff x00 x00 x80 x3f)
(L (W x00 x00 x00 x00 xc8 xc0 xfe xff))
(L (W xc4 xc0 xff xff x46 xc0 xff xff)))
(T (W x00 x00 x00 x00 x00 x00 x00 x00)
(L (W x00 x00 x00 x00 xc8 x40 xff xff)) E))
(T (W x34 x00 x00 x00 x20 x00 x00 x00)
(T (W x00 x00 x00 x00 x00 x00 x00 x00)
(L (W x4a x6f xca xc9 x03 x92 xa3 xbc)) E)
(T (W xc4 x80 xfe xff x00 x00 x00 x00)
(L (W x00 x00 x00 x00 xc8 x80 xff xff)) E))))
(T (W x45 x26 x22 x84 xe4 x9c xf2 xcb)
(T (W x45 x26 x22 x84 xe4 x9c xf2 xcb)
(T (W x45 x26 x22 x84 xe4 x9c xf2 xcb)
(T (W x00 x00 x80 xbf x00 x00 x80 xbf)
(L (W x5c x00 x00 x00 x50 x00 x00 x00))
(L (W x01 x00 x00 x00 x00 x00 x80 x3f)))
(T (W x00 x00 x00 x00 x00 x00 x00 x00)
(L (W x00 x00 x00 x00 x46 x30 xff xff)) E))
(T (W x40 x00 x00 x00 x38 x00 x00 x00)
(T (W xfe xbd xf3 x13 x15 xe2 xd9 x02)
(L (W x48 x00 x00 x00 x34 x00 x00 x00))
(L (W x5c x4f x52 x43 x29 x5c x17 x42)))
(T (W x00 x00 x80 x3f x00 x00 x80 x3f)
(L (W x00 x00 x80 x3f xc8 x70 xff xff)) E)))
(T (W x00 x00 x80 xbf x00 x00 x80 xbf)
(T (W x45 x26 x22 x84 xe4 x9c xf2 xcb)
(T (W x00 x00 x00 x00 x00 x00 x00 x00)
(L (W x45 x26 x22 x84 xe4 x9c xf2 xcb))
(L (W x45 x26 x22 x84 xe4 x9c xf2 xcb)))
(T (W x04 x00 x00 x00 x02 x56 xfe xff)
(L (W x40 x00 x00 x00 x38 x00 x00 x00)) E))
(T (W xc4 x90 xfd xff x00 x00 x00 x00)
(T (W x2c x00 x00 x00 x20 x00 x00 x00)
(L (W x45 x26 x22 x84 xe4 x9c xf2 xcb)) E)
(T (W x45 x26 x22 x84 xe4 x9c xf2 xcb)
(L (W x00 x00 x00 x00 xc8 x90 xff xff)) E)))))))))))))
(T (W x04 x00 x00 x00 xd8 x01 x00 x00)
(T (W x5c x69 x03 x00 x70 x67 x03 x00)
(T (W x84 x5a x03 x00 x94 x58 x03 x00)
(T (W x8c x3c x03 x00 xc0 x3a x03 x00)
(T (W xfc x01 x03 x00 x10 x00 x03 x00)
(T (W xfc x8b x02 x00 x30 x8a x02 x00)
(T (W xe4 x9f x01 x00 xf8 x9d x01 x00)
(T (W x45 x26 x22 x84 xe4 x9c xf2 xcb)
(T (W x2c x00 x00 x00 x20 x00 x00 x00)
(T (W x00 x00 x00 x00 x00 x00 x00 x00)
(T (W x00 x00 x00 x00 x00 x00 x00 x00)
(T (W x06 xf5 xb1 x4b xbc x26 xf7 xea)
(T (W x78 x00 x00 x00 x6c x00 x00 x00)
(L (W x00 x00 x00 x00 xe0 x90 xfe xff))
(L (W x01 x00 x00 x00 x04 x00 x00 x00)))
(T (W x45 x26 x22 x84 xe4 x9c xf2 xcb)
(L (W x45 x26 x22 x84 xe4 x9c xf2 xcb)) E))
(T (W x00 x00 x00 x00 x01 x00 x00 x00)
(T (W x00 x00 x00 x00 x00 x00 x00 x00)
(L (W x45 x26 x22 x84 xe4 x9c xf2 xcb))
(L (W x00 x00 x00 x00 x00 x00 x00 x00)))
(T (W x45 x26 x22 x84 xe4 x9c xf2 xcb)
(L (W x45 x26 x22 x84 xe4 x9c xf2 xcb)) E)))
(T (W x45 x26 x22 x84 xe4 x9c xf2 xcb)
(T (W x00 x00 x80 x3f x00 x00 x80 x3f)
(T (W x5d x19 x7a x1e x15 x38 x03 x15)
(L (W x45 x26 x22 x84 xe4 x9c xf2 xcb))
(L (W x34 x00 x00 x00 x20 x00 x00 x00)))
(T (W x42 x52 x45 x41 x4b x5f x41 x52)
(L (W x5a x30 xff xff x33 x33 xf0 x43)) E))
(T (W x45 x26 x22 x84 xe4 x9c xf2 xcb)
(T (W x00 x00 x00 x00 x01 x00 x00 x00)
(L (W x45 x26 x22 x84 xe4 x9c xf2 xcb))
(L (W x00 x00 x00 x00 x00 x00 x00 x00)))
(T (W x0a x57 x35 x43 x00 x00 x00 x00)
(L (W x00 x00 x00 x00 x00 x00 x00 x00)) E))))
(T (W x40 x00 x00 x00 x38 x00 x00 x00)
(T (W x5f x4d x41 x53 x53 x5f x47 x41)
(T (W x45 x26 x22 x84 xe4 x9c xf2 xcb)
(T (W x45 x26 x22 x84 xe4 x9c xf2 xcb)
(L (W x00 x00 x80 xbf x9c x00 x00 x00))
(L (W x45 x26 x22 x84 xe4 x9c xf2 xcb)))
(T (W x00 x00 x00 x00 x01 x00 x00 x00)
(L (W x00 x00 x80 xbf x00 x00 x80 xbf)) E))
(T (W x78 x00 x00 x00 x6c x00 x00 x00)
(T (W xdc xe0 xfd xff x00 x00 x00 x00)
(L (W x01 x00 x00 x00 x00 x00 x80 x3f))
(L (W x45 x26 x22 x84 xe4 x9c xf2 xcb)))
(T (W x1c x00 x00 x00 x46 x53 x59 x53)
(L (W x45 x26 x22 x84 xe4 x9c xf2 xcb)) E)))
(T (W x2c x00 x00 x00 x18 x00 x00 x00)
(T (W x84 x43 xfd xff x50 x00 x00 x00)
(T (W xb8 x4e x3c x44 x0a xd7 x07 x42)
(L (W x01 x00 x00 x00 x04 x00 x00 x00))
(L (W x00 x00 x00 x00 x00 x00 x00 x00)))
(T (W x00 x00 x00 x00 xe0 x40 xfe xff)
(L (W x44 x00 x00 x00 x38 x00 x00 x00)) E))
(T (W x45 x26 x22 x84 xe4 x9c xf2 xcb)
(T (W x00 x00 x00 x00 x00 x00 x00 x00)
(L (W x00 x00 x00 x00 x00 x00 x00 x00)) E)
(T (W x74 x00 x00 x00 x68 x00 x00 x00)
(L (W x04 x00 x00 x00 x00 x83 xff xff)) E)))))
(T (W x04 x00 x00 x00 x00 xab xfc xff)
(T (W x04 x00 x00 x00 x00 x00 x80 x3f)
(T (W xd6 x81 x9c x94 x9b x27 x57 x25)
(T (W x45 x26 x22 x84 xe4 x9c xf2 xcb)
(T (W x42 x52 x45 x41 x4b x5f x41 x52)
(L (W xdc x98 xfe xff x00 x00 x00 x00))
(L (W x45 x26 x22 x84 xe4 x9c xf2 xcb)))
(T (W x5a x18 xfe xff xec x31 x4b x44)
(L (W xd6 x81 x9c x94 x9b x27 x57 x25)) E))
(T (W x45 x26 x22 x84 xe4 x9c xf2 xcb)
(T (W xbc x9d x32 x19 x15 x78 xe9 x0b)
(L (W x00 x00 x00 x00 xe0 xd8 xfe xff))
(L (W x00 x00 x40 x40 x24 x01 x00 x00)))
(T (W x04 x00 x00 x00 xc8 x58 xfe xff)
(L (W x55 x6c xfc xf1 x99 x9e xc9 x88)) E)))
(T (W x00 x00 x00 x00 x00 x00 x00 x00)
(T (W x34 x00 x00 x00 x20 x00 x00 x00)
(T (W x45 x26 x22 x84 xe4 x9c xf2 xcb)
(L (W x8a xbc xfe xff x40 x01 x00 x00))
(L (W x44 x00 x00 x00 x38 x00 x00 x00)))
(T (W x45 x26 x22 x84 xe4 x9c xf2 xcb)
(L (W x34 x00 x00 x00 x20 x00 x00 x00)) E))
(T (W xdc x78 xfd xff x00 x00 x00 x00)
(T (W xaf x68 xff x4b x84 x9a x7b x61)
(L (W x01 xe1 x3c x2e xb0 x77 x6f x7b))
(L (W x04 x00 x00 x00 x1a xfe xff xff)))
(T (W x45 x26 x22 x84 xe4 x9c xf2 xcb)
(L (W x45 x26 x22 x84 xe4 x9c xf2 xcb)) E))))
(T (W x44 x00 x00 x00 x38 x00 x00 x00)
(T (W xe0 xdb x1b x19 x54 x9a x6e x0c)
(T (W x00 x00 x00 x00 x00 x00 x00 x00)
(T (W x00 x00 x00 x00 x00 x00 x00 x00)
(L (W x00 x00 x00 x00 xe0 xa8 xfe xff))
(L (W x00 x00 x00 x00 xe0 xa8 xff xff)))
(T (W x00 x00 x00 x00 x00 x00 x00 x00)
(L (W x05 x45 x45 xdc x00 xdb x55 x2f)) E))
(T (W x34 x00 x00 x00 x20 x00 x00 x00)
(T (W x48 x00 x00 x00 x34 x00 x00 x00)
(L (W xdc xe8 xfe xff x00 x00 x00 x00))
(L (W x00 x00 x00 x00 x00 x00 x00 x00)))
(T (W xdc x68 xfe xff x00 x00 x00 x00)
(L (W x00 x00 x00 x00 x00 x00 x00 x00)) E)))
(T (W x1b x00 x00 x00 x57 x53 x59 x53)
(T (W xdc x48 xfd xff x5e x48 xfd xff)
(T (W xf3 x57 xaa x37 xd6 x94 xe3 x54)
(L (W x00 x00 x00 x00 x00 x00 x00 x00))
(L (W x00 x00 x00 x00 x01 x00 x00 x00)))
(T (W x54 x49 x4f x4e x5f x41 x52 x45)
(L (W x5a x48 xff xff x00 x00 x80 x3f)) E))
(T (W x01 x00 x00 x00 x04 x00 x00 x00)
(T (W x00 x00 x00 x00 x01 x00 x00 x00)
(L (W x46 x53 x59 x53 x5f x4e x45 x57)) E)
(T (W x00 x00 x00 x00 x00 x00 x00 x00)
(L (W x00 x00 x00 x00 x00 x00 x00 x00)) E))))))
(T (W x00 x00 x00 x00 xe0 x9c xfc xff)
(T (W x00 x00 x00 x00 x00 x00 x00 x00)
(T (W x4b x5f x41 x52 x45 x41 x30 x32)
(T (W x00 x00 x00 x00 x01 x00 x00 x00)
(T (W x04 x00 x00 x00 x1a x1a xfd xff)
(T (W x5a x94 xfd xff x00 x00 x80 x3f)
(L (W x00 x00 x00 x00 x00 x00 x00 x00))
(L (W x00 x00 x00 x00 x00 x00 x00 x00)))
(T (W x2c x00 x00 x00 x18 x00 x00 x00)
(L (W x45 x26 x22 x84 xe4 x9c xf2 xcb)) E))
(T (W x04 x00 x00 x00 x1a x5a xfd xff)
(T (W x33 x53 x3f x44 x66 x66 x16 x42)
(L (W x2c x00 x00 x00 x20 x00 x00 x00))
(L (W x00 x00 x80 x3f x00 x00 x80 x3f)))
(T (W x84 x57 xfe xff x50 x00 x00 x00)
(L (W x00 x00 x00 x00 x00 x00 x00 x00)) E)))
(T (W x84 xf7 xfc xff x50 x00 x00 x00)
(T (W x3c x01 x00 x00 x30 x01 x00 x00)
(T (W x45 x26 x22 x84 xe4 x9c xf2 xcb)
(L (W x00 x00 x00 x00 x00 x00 x00 x00))
(L (W x45 x26 x22 x84 xe4 x9c xf2 xcb)))
(T (W x01 x00 x00 x00 x00 x00 x80 x3f)
(L (W x00 x00 x00 x00 xa2 x3c xff xff)) E))
(T (W x00 x00 x00 x00 xe0 x74 xfd xff)
(T (W xdc xf4 xfd xff x00 x00 x00 x00)
(L (W x1c x01 x00 x00 x01 x00 x00 x00))
(L (W x00 x00 x80 xbf x9c x00 x00 x00)))
(T (W xa6 x14 x73 x2c x15 x1b x1f x2e)
(L (W xce x6e x39 x08 x1e xcd x43 xb9)) E))))
(T (W x45 x26 x22 x84 xe4 x9c xf2 xcb)
(T (W x1c x01 x00 x00 x04 x00 x00 x00)
(T (W x84 x27 xfd xff x50 x00 x00 x00)
(T (W x84 xa7 xfd xff x50 x00 x00 x00)
(L (W x40 x00 x00 x00 x38 x00 x00 x00))
(L (W xdc xa4 xff xff x00 x00 x00 x00)))
(T (W x00 x00 x00 x00 xe0 x24 xfe xff)
(L (W x45 x26 x22 x84 xe4 x9c xf2 xcb)) E))
(T (W x14 xae xf6 x43 x33 x33 x17 x42)
(T (W x00 x00 x00 x00 x00 x00 x00 x00)
(L (W x45 x26 x22 x84 xe4 x9c xf2 xcb))
(L (W xdc xe4 xff xff x00 x00 x00 x00)))
(T (W x45 x26 x22 x84 xe4 x9c xf2 xcb)
(L (W x45 x26 x22 x84 xe4 x9c xf2 xcb)) E)))
(T (W x5a x04 xfd xff x14 x6e x5a x44)
(T (W x04 x00 x00 x00 xc8 x44 xfd xff)
(T (W x00 x00 x00 x00 x00 x00 x00 x00)
(L (W x00 x00 x00 x00 x01 x00 x00 x00))
(L (W x1c x01 x00 x00 x01 x00 x00 x00)))
(T (W x5a x44 xfe xff x00 x00 x80 x3f)
(L (W x00 x00 x00 x00 xe0 x44 xff xff)) E))
(T (W x45 x26 x22 x84 xe4 x9c xf2 xcb)
(T (W x00 x00 x80 xbf x00 x00 x80 xbf)
(L (W x5c x00 x00 x00 x50 x00 x00 x00)) E)
(T (W x8f xc2 x17 x42 x3d x5a x54 x44)
(L (W x00 x00 x80 x3f x00 x00 x80 x3f)) E)))))
(T (W x4f x84 x6f x8b xe8 xcb x63 xb7)
(T (W x45 x26 x22 x84 xe4 x9c xf2 xcb)
(T (W xa4 x70 x16 x42 x66 x06 x36 x44)
(T (W x45 x26 x22 x84 xe4 x9c xf2 xcb)
(T (W xc6 x2f x5f x23 x15 x4a xa9 x1d)
(L (W x00 x00 x80 x3f x00 x00 x80 x3f))
(L (W x01 x00 x00 x00 x00 x00 x80 x3f)))
(T (W x1c x01 x00 x00 x01 x00 x00 x00)
(L (W x00 x00 x00 x00 x02 x00 x00 x00)) E))
(T (W x00 x00 x00 x00 x00 x00 x00 x00)
(T (W x04 x00 x00 x00 x1a xe2 xfd xff)
(L (W xdc xdc xfe xff x5e xdc xfe xff))
(L (W x63 x55 x0f x4a xdb x2f xe2 x46)))
(T (W x5a x5c xfe xff x9a x19 x3f x44)
(L (W x1c x00 x00 x00 x46 x53 x59 x53)) E)))
(T (W xdc xfc xfc xff x00 x00 x00 x00)
(T (W x00 x00 x00 x00 x01 x00 x00 x00)
(T (W x2c x00 x00 x00 x18 x00 x00 x00)
(L (W x04 x00 x00 x00 x00 x00 x00 x00))
(L (W x74 x00 x00 x00 x68 x00 x00 x00)))
(T (W x45 x26 x22 x84 xe4 x9c xf2 xcb)
(L (W x45 x26 x22 x84 xe4 x9c xf2 xcb)) E))
(T (W x00 x00 x00 x00 x00 x00 x00 x00)
(T (W x74 x00 x00 x00 x68 x00 x00 x00)
(L (W x00 x00 x00 x00 xe0 xfc xfe xff))
(L (W x00 x00 x00 x00 x01 x00 x00 x00)))
(T (W x45 x26 x22 x84 xe4 x9c xf2 xcb)
(L (W x45 x26 x22 x84 xe4 x9c xf2 xcb)) E))))
(T (W x44 x00 x00 x00 x38 x00 x00 x00)
(T (W x54 x00 x00 x00 x48 x00 x00 x00)
(T (W x00 x00 x00 x00 x00 x00 x00 x00)
(T (W x9a xe9 x3c x44 xf6 x28 x0a x42)
(L (W x00 x00 x00 x00 x00 x00 x00 x00))
(L (W x8f xd2 x20 x44 x00 x00 x00 x00)))
(T (W x5a x2c xfe xff x00 x00 x80 x3f)
(L (W x48 x00 x00 x00 x34 x00 x00 x00)) E))
(T (W x00 x00 x00 x00 x01 x00 x00 x00)
(T (W x00 x00 x00 x00 x00 x00 x00 x00)
(L (W x00 x00 x00 x00 x00 x00 x00 x00))
(L (W x00 x00 x00 x00 x01 x00 x00 x00)))
(T (W x00 x00 x00 x00 xe0 x6c xfe xff)
(L (W x5c x00 x00 x00 x50 x00 x00 x00)) E)))
(T (W x00 x00 xe0 x40 x24 x01 x00 x00)
(T (W x34 x00 x00 x00 x20 x00 x00 x00)
(T (W x00 x00 x00 x00 xe0 xcc xfd xff)
(L (W xbc x90 x89 xf3 x1d x25 x5e x95))
(L (W xdc xcc xff xff x00 x00 x00 x00)))
(T (W x1c x01 x00 x00 x01 x00 x00 x00)
(L (W x00 x00 x80 xbf x00 x00 x80 xbf)) E))
(T (W x45 x26 x22 x84 xe4 x9c xf2 xcb)
(T (W x45 x26 x22 x84 xe4 x9c xf2 xcb)
(L (W x34 x00 x00 x00 x20 x00 x00 x00)) E)
(T (W x00 x00 x00 x00 x01 x00 x00 x00)
(L (W x04 x00 x00 x00 x00 x00 x00 x00)) E)))))))
(T (W x3c xb2 x00 x00 x70 xb0 x00 x00)
(T (W x45 x26 x22 x84 xe4 x9c xf2 xcb)
(T (W x45 x26 x22 x84 xe4 x9c xf2 xcb)
(T (W x00 x00 x00 x00 x1c x00 x00 x00)
(T (W x00 x00 x00 x00 x00 x00 x00 x00)
(T (W x00 x00 x00 x00 x01 x00 x00 x00)
(T (W x2c x00 x00 x00 x18 x00 x00 x00)
(L (W x5c x0e xb9 x28 xbf xcd x67 x6a))
(L (W x32 xdb xac x28 xbf xd3 x59 x6a)))
(T (W x00 x00 x00 x00 xe0 x12 xfe xff)
(L (W x00 x00 x00 x00 xe0 x12 xff xff)) E))
(T (W x04 x00 x00 x00 x1a x58 xfd xff)
(T (W x44 x00 x00 x00 x30 x00 x00 x00)
(L (W x01 x00 x00 x00 x04 x00 x00 x00))
(L (W x74 x00 x00 x00 x68 x00 x00 x00)))
(T (W x45 x26 x22 x84 xe4 x9c xf2 xcb)
(L (W x01 x00 x00 x00 x04 x00 x00 x00)) E)))
(T (W xdc xf2 xfc xff x00 x00 x00 x00)
(T (W x00 x00 x00 x00 x00 x00 x00 x00)
(T (W x54 x00 x00 x00 x48 x00 x00 x00)
(L (W x00 x00 x00 x00 x00 x00 x00 x00))
(L (W x04 x00 x00 x00 x1a xb8 xff xff)))
(T (W x3c x01 x00 x00 x30 x01 x00 x00)
(L (W x00 x00 x00 x00 x00 x00 x00 x00)) E))
(T (W x45 x26 x22 x84 xe4 x9c xf2 xcb)
(T (W x45 x26 x22 x84 xe4 x9c xf2 xcb)
(L (W x00 x00 x00 x00 x00 x00 x00 x00))
(L (W x8a xf6 xff xff x40 x01 x00 x00)))
(T (W x00 x00 xa0 x40 x24 x01 x00 x00)
(L (W x34 x01 x00 x00 x00 x00 x80 x40)) E))))
(T (W x45 x26 x22 x84 xe4 x9c xf2 xcb)
(T (W xd2 xc6 xff xff x00 x00 x00 x01)
(T (W x45 x26 x22 x84 xe4 x9c xf2 xcb)
(T (W xdc xa2 xfd xff x00 x00 x00 x00)
(L (W xd9 xf4 xc1 x10 xee x1c x61 xa7))
(L (W x45 x26 x22 x84 xe4 x9c xf2 xcb)))
(T (W x40 x00 x00 x00 x38 x00 x00 x00)
(L (W x04 x00 x00 x00 x00 x00 x00 x00)) E))
(T (W x00 x00 x00 x00 x5e x62 xfd xff)
(T (W x45 x26 x22 x84 xe4 x9c xf2 xcb)
(L (W x00 x00 x00 x00 x01 x00 x00 x00))
(L (W x45 x26 x22 x84 xe4 x9c xf2 xcb)))
(T (W x1c x01 x00 x00 x01 x00 x00 x00)
(L (W x40 x00 x00 x00 x38 x00 x00 x00)) E)))
(T (W x00 x00 x00 x00 x5e x02 xfd xff)
(T (W x00 x00 x00 x00 x00 x00 x00 x00)
(T (W x00 x00 x00 x00 x00 x00 x00 x00)
(L (W x00 x00 x00 x00 x00 x00 x00 x00))
(L (W x00 x00 x00 x00 xa2 xca xff xff)))
(T (W x2c x00 x00 x00 x18 x00 x00 x00)
(L (W x00 x00 x00 x00 x00 x00 x00 x00)) E))
(T (W x45 x26 x22 x84 xe4 x9c xf2 xcb)
(T (W x00 x00 xa0 x40 x24 x01 x00 x00)
(L (W x00 x00 x00 x00 x00 x00 x00 x00)) E)
(T (W x00 x00 x80 x3f x00 x00 x80 x3f)
(L (W x28 x00 x00 x00 x14 x00 x00 x00)) E)))))
(T (W x44 x00 x00 x00 x30 x00 x00 x00)
(T (W x34 x00 x00 x00 x20 x00 x00 x00)
(T (W x00 x00 x80 x3f x00 x00 x80 x3f)
(T (W x00 x00 x00 x00 xe0 x1a xfd xff)
(T (W x3c x01 x00 x00 x30 x01 x00 x00)
(L (W x74 x00 x00 x00 x68 x00 x00 x00))
(L (W x00 x00 x00 x00 x00 x00 x00 x00)))
(T (W x00 x00 x00 x00 xa2 x22 xfe xff)
(L (W xdc x1a xff xff x5e x1a xff xff)) E))
(T (W x84 x5d xfd xff x50 x00 x00 x00)
(T (W x00 x00 x00 x00 x01 x00 x00 x00)
(L (W x48 x00 x00 x00 x34 x00 x00 x00))
(L (W x9b x53 xaa x98 x6c x15 xa8 xb0)))
(T (W x44 x00 x00 x00 x30 x00 x00 x00)
(L (W xdc x5a xff xff x5e x5a xff xff)) E)))
(T (W x00 x00 x00 x00 x00 x00 x00 x00)
(T (W xfc xdd x1b x72 x9d x0c xa7 xbe)
(T (W x00 x00 x00 x00 xe0 xba xfd xff)
(L (W x00 x00 x80 xbf x9c x00 x00 x00))
(L (W x00 x00 x00 x00 x00 x00 x00 x00)))
(T (W x00 x00 x00 x00 xe0 x3a xfe xff)
(L (W x45 x26 x22 x84 xe4 x9c xf2 xcb)) E))
(T (W x45 x26 x22 x84 xe4 x9c xf2 xcb)
(T (W x00 x00 x00 x00 x00 x00 x00 x00)
(L (W x40 x00 x00 x00 x38 x00 x00 x00))
(L (W x0c x00 x10 x00 x1a x00 x00 x00)))
(T (W x00 x00 x00 x00 xe0 x7a xfe xff)
(L (W xdc x7a xff xff x00 x00 x00 x00)) E))))
(T (W x45 x26 x22 x84 xe4 x9c xf2 xcb)
(T (W x04 x00 x00 x00 x00 x00 x00 x00)
(T (W x00 x00 x00 x00 x00 x00 x00 x00)
(T (W x44 x00 x00 x00 x30 x00 x00 x00)
(L (W x37 x4f x45 xdc x00 xe1 x55 x2f))
(L (W x28 x00 x00 x00 x14 x00 x00 x00)))
(T (W x44 x00 x00 x00 x30 x00 x00 x00)
(L (W x00 x00 x00 x00 x00 x00 x00 x00)) E))
(T (W x15 xe3 x1b x72 x9d x0f xa7 xbe)
(T (W x45 x26 x22 x84 xe4 x9c xf2 xcb)
(L (W x84 xed xfe xff x50 x00 x00 x00))
(L (W x00 x00 x00 x00 x00 x00 x00 x00)))
(T (W x45 x26 x22 x84 xe4 x9c xf2 xcb)
(L (W x00 x00 x00 x00 x01 x00 x00 x00)) E)))
(T (W x5f x41 x52 x45 x41 x30 x32 x00)
(T (W x00 x00 x00 x00 xa2 x52 xfd xff)
(T (W x40 x00 x00 x00 x38 x00 x00 x00)
(L (W x3c x01 x00 x00 x30 x01 x00 x00))
(L (W x45 x26 x22 x84 xe4 x9c xf2 xcb)))
(T (W x41 x30 x32 x00 xa2 x52 xfe xff)
(L (W x00 x00 x00 x00 x00 x00 x00 x00)) E))
(T (W x2c x00 x00 x00 x20 x00 x00 x00)
(T (W x04 x00 x00 x00 x1a x10 xfe xff)
(L (W x1c x01 x00 x00 x01 x00 x00 x00)) E)
(T (W x00 x00 x80 xbf x9c x00 x00 x00)
(L (W x00 x00 x80 xbf x00 x00 x80 xbf)) E))))))
(T (W x01 x00 x00 x00 x04 x00 x00 x00)
(T (W x00 x00 x00 x00 xe0 xa6 xfc xff)
(T (W x3c x01 x00 x00 x30 x01 x00 x00)
(T (W x60 x00 x00 x00 x54 x00 x00 x00)
(T (W x45 x26 x22 x84 xe4 x9c xf2 xcb)
(T (W x00 x00 x00 x00 x02 x00 x00 x00)
(L (W x00 x00 x00 x00 x00 x00 x00 x00))
(L (W x00 x00 x00 x00 x01 x00 x00 x00)))
(T (W x5a x16 xfe xff x00 x00 x80 x3f)
(L (W xdc x16 xff xff x00 x00 x00 x00)) E))
(T (W x45 x26 x22 x84 xe4 x9c xf2 xcb)
(T (W x3c x01 x00 x00 x30 x01 x00 x00)
(L (W x45 x26 x22 x84 xe4 x9c xf2 xcb))
(L (W x00 x00 x00 x00 x00 x00 x00 x00)))
(T (W x00 x00 x00 x00 x00 x00 x00 x00)
(L (W x00 x00 x00 x00 x01 x00 x00 x00)) E)))
(T (W x65 xa2 x30 x97 x85 x23 x5c x5f)
(T (W x00 x00 x80 x3f x02 x00 x00 x00)
(T (W xdc xb6 xfd xff x00 x00 x00 x00)
(L (W x00 x00 x00 x00 x00 x00 x00 x00))
(L (W x45 x26 x22 x84 xe4 x9c xf2 xcb)))
(T (W x00 x00 x00 x00 x01 x00 x00 x00)
(L (W x1c x01 x00 x00 x01 x00 x00 x00)) E))
(T (W x45 x26 x22 x84 xe4 x9c xf2 xcb)
(T (W x84 xf9 xfd xff x50 x00 x00 x00)
(L (W x00 x00 x80 xbf x9c x00 x00 x00))
(L (W x00 x00 x00 x00 x01 x00 x00 x00)))
(T (W x54 x00 x00 x00 x48 x00 x00 x00)
(L (W x00 x00 x00 x00 x01 x00 x00 x00)) E))))
(T (W x00 x00 x00 x00 xe0 xc6 xfc xff)
(T (W x00 x00 x80 xbf x9c x00 x00 x00)
(T (W x2c x00 x00 x00 x20 x00 x00 x00)
(T (W x8e x2d xc8 xc9 x03 x8b xa0 xbc)
(L (W x45 x26 x22 x84 xe4 x9c xf2 xcb))
(L (W x45 x26 x22 x84 xe4 x9c xf2 xcb)))
(T (W x7e x99 x4a xdc x00 x64 x5c x2f)
(L (W x01 x00 x00 x00 x04 x00 x00 x00)) E))
(T (W x3c x01 x00 x00 x30 x01 x00 x00)
(T (W x04 x00 x00 x00 xc8 xe6 xfd xff)
(L (W x45 x26 x22 x84 xe4 x9c xf2 xcb))
(L (W x45 x26 x22 x84 xe4 x9c xf2 xcb)))
(T (W x45 x26 x22 x84 xe4 x9c xf2 xcb)
(L (W x2c x00 x00 x00 x20 x00 x00 x00)) E)))
(T (W x00 x00 x00 x00 x00 x00 x00 x00)
(T (W x55 x6c xfc xf1 x99 x9e xc9 x88)
(T (W x00 x00 xc0 x40 x24 x01 x00 x00)
(L (W x45 x26 x22 x84 xe4 x9c xf2 xcb))
(L (W x00 x00 x80 xbf x9c x00 x00 x00)))
(T (W x00 x00 x00 x00 x00 x00 x00 x00)
(L (W x2c x00 x00 x00 x18 x00 x00 x00)) E))
(T (W x00 x00 x00 x00 xe0 x86 xfd xff)
(T (W x0e x83 xf1 x13 x15 xdf xd6 x02)
(L (W xdc x06 xff xff x5e x06 xff xff)) E)
(T (W x29 x9c x50 x44 x00 x00 x00 x00)
(L (W x52 xb8 x2f x42 xc3 x35 x09 x44)) E)))))
(T (W xdc xae xfc xff x5e xae xfc xff)
(T (W x00 x00 x00 x00 x01 x00 x00 x00)
(T (W x00 x00 x00 x00 x00 x00 x00 x00)
(T (W x45 x26 x22 x84 xe4 x9c xf2 xcb)
(T (W x54 x00 x00 x00 x48 x00 x00 x00)
(L (W x00 x00 x00 x00 x00 x00 x00 x00))
(L (W x34 x00 x00 x00 x20 x00 x00 x00)))
(T (W x45 x26 x22 x84 xe4 x9c xf2 xcb)
(L (W x3c x01 x00 x00 x30 x01 x00 x00)) E))
(T (W x00 x00 x00 x00 xe0 x5e xfd xff)
(T (W x45 x26 x22 x84 xe4 x9c xf2 xcb)
(L (W x57 x53 x59 x53 x5f x4d x41 x53))
(L (W x54 x00 x00 x00 x48 x00 x00 x00)))
(T (W x00 x00 x00 x00 x00 x00 x00 x00)
(L (W x1c x01 x00 x00 x01 x00 x00 x00)) E)))
(T (W x78 x00 x00 x00 x6c x00 x00 x00)
(T (W x45 x26 x22 x84 xe4 x9c xf2 xcb)
(T (W x5a xbe xfd xff x00 x00 x80 x3f)
(L (W x45 x26 x22 x84 xe4 x9c xf2 xcb))
(L (W x00 x00 x80 x3f x00 x00 x80 x3f)))
(T (W x00 x00 x00 x00 x00 x00 x00 x00)
(L (W x45 x26 x22 x84 xe4 x9c xf2 xcb)) E))
(T (W x1c x01 x00 x00 x01 x00 x00 x00)
(T (W x00 x00 x80 x3f x00 x00 x80 x3f)
(L (W x4a x6f xca xc9 x03 x92 xa3 xbc))
(L (W x30 x00 x00 x00 x1c x00 x00 x00)))
(T (W xdc x7e xfe xff x00 x00 x00 x00)
(L (W x00 x00 x00 x00 x00 x00 x00 x00)) E))))
(T (W x45 x26 x22 x84 xe4 x9c xf2 xcb)
(T (W x45 x26 x22 x84 xe4 x9c xf2 xcb)
(T (W x60 x00 x00 x00 x54 x00 x00 x00)
(T (W x3c x01 x00 x00 x30 x01 x00 x00)
(L (W x00 x00 x00 x00 x01 x00 x00 x00))
(L (W x3c x01 x00 x00 x30 x01 x00 x00)))
(T (W x8f x22 x0f x44 x00 x00 x00 x00)
(L (W x55 x6c xfc xf1 x99 x9e xc9 x88)) E))
(T (W x40 x00 x00 x00 x38 x00 x00 x00)
(T (W x01 x00 x00 x00 x00 x00 x80 x3f)
(L (W x04 x00 x00 x00 xc8 xee xfe xff))
(L (W x45 x26 x22 x84 xe4 x9c xf2 xcb)))
(T (W x28 x00 x00 x00 x14 x00 x00 x00)
(L (W x00 x00 x80 x3f xe0 x6e xff xff)) E)))
(T (W x00 x00 x80 xbf x00 x00 x80 xbf)
(T (W x45 x26 x22 x84 xe4 x9c xf2 xcb)
(T (W xcb x66 xca xc9 x03 x8d xa3 xbc)
(L (W x54 x00 x00 x00 x48 x00 x00 x00))
(L (W x45 x26 x22 x84 xe4 x9c xf2 xcb)))
(T (W x45 x26 x22 x84 xe4 x9c xf2 xcb)
(L (W x04 x00 x00 x00 x00 x00 x00 x00)) E))
(T (W x00 x00 x00 x00 x00 x00 x00 x00)
(T (W x01 x00 x00 x00 x04 x00 x00 x00)
(L (W x04 x00 x00 x00 x1a x14 xff xff)) E)
(T (W x40 x00 x00 x00 x38 x00 x00 x00)
(L (W x45 x26 x22 x84 xe4 x9c xf2 xcb)) E))))))))
(T (W x14 x16 x02 x00 x48 x14 x02 x00)
(T (W x68 x29 x01 x00 x80 x27 x01 x00)
(T (W x00 x00 x80 x3f x00 x00 x80 x3f)
(T (W xd2 x85 xff xff x00 x00 x00 x01)
(T (W xdc xb1 xfc xff x00 x00 x00 x00)
(T (W x00 x00 x80 xbf x00 x00 x80 xbf)
(T (W x00 x00 x00 x00 x01 x00 x00 x00)
(T (W x00 x00 x00 x00 x01 x00 x00 x00)
(L (W x00 x00 x00 x00 x00 x00 x00 x00))
(L (W x53 x5f x47 x41 x4e x45 x52 x41)))
(T (W x00 x00 x80 xbf x9c x00 x00 x00)
(L (W x00 x00 x00 x00 x00 x00 x00 x00)) E))
(T (W x74 x00 x00 x00 x68 x00 x00 x00)
(T (W x04 x00 x00 x00 x00 x00 x00 x00)
(L (W x00 x00 x00 x00 x00 x00 x00 x00))
(L (W x45 x26 x22 x84 xe4 x9c xf2 xcb)))
(T (W x00 x00 x80 x3f x00 x00 x80 x3f)
(L (W x9a x19 xe8 x43 x66 x66 x2a x42)) E)))
(T (W x00 x00 x00 x00 x00 x00 x00 x00)
(T (W x00 x00 x00 x00 xe0 x31 xfd xff)
(T (W x00 x00 x00 x00 x01 x00 x00 x00)
(L (W x45 x26 x22 x84 xe4 x9c xf2 xcb))
(L (W xdc xb1 xff xff x00 x00 x00 x00)))
(T (W xed xfe xaf x28 xbf x5f x5d x6a)
(L (W x45 x26 x22 x84 xe4 x9c xf2 xcb)) E))
(T (W x5a x71 xfd xff xcd xcc xc9 x43)
(T (W x5c x00 x00 x00 x50 x00 x00 x00)
(L (W x45 x26 x22 x84 xe4 x9c xf2 xcb))
(L (W x2c x00 x00 x00 x20 x00 x00 x00)))
(T (W x84 x74 xfe xff x50 x00 x00 x00)
(L (W x84 x74 xff xff x50 x00 x00 x00)) E))))
(T (W x5a xc1 xfc xff x00 x00 x80 x3f)
(T (W x2c x00 x00 x00 x20 x00 x00 x00)
(T (W x00 x00 x00 x00 x00 x00 x00 x00)
(T (W x00 x00 x00 x00 x00 x00 x00 x00)
(L (W x00 x00 x00 x00 xe0 xa1 xfe xff))
(L (W x74 x00 x00 x00 x68 x00 x00 x00)))
(T (W x2c x00 x00 x00 x18 x00 x00 x00)
(L (W x00 x00 x00 x00 x00 x00 x00 x00)) E))
(T (W x40 x00 x00 x00 x38 x00 x00 x00)
(T (W x00 x00 x00 x00 x00 x00 x00 x00)
(L (W x00 x00 x00 x00 x00 x00 x00 x00))
(L (W xdc xe1 xff xff x5e xe1 xff xff)))
(T (W x44 x00 x00 x00 x38 x00 x00 x00)
(L (W x78 x00 x00 x00 x6c x00 x00 x00)) E)))
(T (W x40 x00 x00 x00 x38 x00 x00 x00)
(T (W x00 x00 xa0 x40 x24 x01 x00 x00)
(T (W x45 x26 x22 x84 xe4 x9c xf2 xcb)
(L (W x3c x01 x00 x00 x30 x01 x00 x00))
(L (W x00 x00 x00 x00 xe0 xc1 xff xff)))
(T (W x00 x00 x00 x00 x01 x00 x00 x00)
(L (W x1c x01 x00 x00 x01 x00 x00 x00)) E))
(T (W x74 x00 x00 x00 x68 x00 x00 x00)
(T (W x45 x26 x22 x84 xe4 x9c xf2 xcb)
(L (W x01 x00 x00 x00 x00 x00 x80 x3f)) E)
(T (W x45 x26 x22 x84 xe4 x9c xf2 xcb)
(L (W x00 x00 x00 x00 x01 x00 x00 x00)) E)))))
(T (W x04 x00 x00 x00 x00 x00 x00 x00)
(T (W x00 x00 x00 x00 x00 x00 x00 x00)
(T (W x45 x26 x22 x84 xe4 x9c xf2 xcb)
(T (W x33 x33 x49 x42 x29 xbc xf9 x43)
(T (W xd3 x3a x45 xdc x00 xd5 x55 x2f)
(L (W x45 x26 x22 x84 xe4 x9c xf2 xcb))
(L (W x45 x26 x22 x84 xe4 x9c xf2 xcb)))
(T (W x00 x00 x00 x00 xe0 x19 xfe xff)
(L (W x45 x26 x22 x84 xe4 x9c xf2 xcb)) E))
(T (W x3d xfa x64 x44 x00 x00 x00 x00)
(T (W x00 x00 x00 x00 x01 x00 x00 x00)
(L (W x04 x00 x00 x00 x00 x00 x00 x00))
(L (W x00 x00 x00 x00 x00 x00 x00 x00)))
(T (W x04 x00 x00 x00 x00 x00 x00 x00)
(L (W x45 x26 x22 x84 xe4 x9c xf2 xcb)) E)))
(T (W x04 x00 x00 x00 x00 x00 x80 x3f)
(T (W xdc x39 xfd xff x00 x00 x00 x00)
(T (W x00 x00 x80 xbf x9c x00 x00 x00)
(L (W x45 x26 x22 x84 xe4 x9c xf2 xcb))
(L (W x1c x01 x00 x00 x01 x00 x00 x00)))
(T (W xdc x39 xfe xff x5e x39 xfe xff)
(L (W xdc x39 xff xff x00 x00 x00 x00)) E))
(T (W x04 x00 x00 x00 x1a x7f xfd xff)
(T (W x00 x00 x80 x3f x02 x00 x00 x00)
(L (W x04 x00 x00 x00 x00 xfc xfe xff))
(L (W x55 x39 x81 x6a xc4 xc7 x74 x14)))
(T (W xdc x79 xfe xff x5e x79 xfe xff)
(L (W x00 x00 x80 x3f xe0 x79 xff xff)) E))))
(T (W x5f x30 x30 x31 x00 x00 x00 x00)
(T (W x04 x00 x00 x00 xc8 xe9 xfc xff)
(T (W x03 x00 x00 x00 x00 x00 x80 x3f)
(T (W x04 x00 x00 x00 x00 x00 x00 x00)
(L (W x00 x00 x00 x00 x00 x00 x00 x00))
(L (W x00 x00 x00 x00 x01 x00 x00 x00)))
(T (W x04 x00 x00 x00 x00 x00 x00 x00)
(L (W x00 x00 x80 xbf x00 x00 x80 xbf)) E))
(T (W xdc x69 xfd xff x00 x00 x00 x00)
(T (W x54 x00 x00 x00 x48 x00 x00 x00)
(L (W x00 x00 x00 x00 x00 x00 x00 x00))
(L (W x00 x00 x80 xbf x00 x00 x80 xbf)))
(T (W x00 x00 x00 x00 x00 x00 x00 x00)
(L (W xdf x51 x36 x08 x1e x45 x40 xb9)) E)))
(T (W x44 x00 x00 x00 x38 x00 x00 x00)
(T (W x00 x00 x00 x00 xe0 x49 xfd xff)
(T (W x04 x00 x00 x00 x00 xcc xfd xff)
(L (W x2c x00 x00 x00 x20 x00 x00 x00))
(L (W x28 x00 x00 x00 x14 x00 x00 x00)))
(T (W x55 x39 x81 x6a xc4 xc7 x74 x14)
(L (W x00 x00 x00 x00 xe0 x49 xff xff)) E))
(T (W x5f x4e x45 x57 x5f x4f x55 x54)
(T (W x5c x00 x00 x00 x50 x00 x00 x00)
(L (W x44 x00 x00 x00 x38 x00 x00 x00)) E)
(T (W x45 x26 x22 x84 xe4 x9c xf2 xcb)
(L (W x84 x4d x45 xdc x00 xe0 x55 x2f)) E))))))
(T (W x00 x00 x00 x00 x00 x00 x00 x00)
(T (W x00 x00 x80 xbf x9c x00 x00 x00)
(T (W x3f x7c x88 xaf x9a x1e x19 x7c)
(T (W x00 x00 x00 x00 x01 x00 x00 x00)
(T (W xd6 x81 x9c x94 x9b x27 x57 x25)
(T (W x00 x00 x00 x00 xe0 x95 xfd xff)
(L (W x01 x00 x00 x00 x00 x00 x80 x3f))
(L (W x0b x68 x0e x0c x1e x01 xaa xc0)))
(T (W x40 x00 x00 x00 x38 x00 x00 x00)
(L (W x34 x00 x00 x00 x20 x00 x00 x00)) E))
(T (W x55 x39 x81 x6a xc4 xc7 x74 x14)
(T (W x01 x00 x00 x00 x04 x00 x00 x00)
(L (W x8a xd9 xfe xff x40 x01 x00 x00))
(L (W xdc xd5 xff xff x00 x00 x00 x00)))
(T (W x00 x00 x40 x40 x24 x01 x00 x00)
(L (W xda x41 x45 xe3 x48 xbd x28 x26)) E)))
(T (W x4e x45 x52 x41 x54 x49 x4f x4e)
(T (W x00 x00 x00 x00 x00 x00 x00 x00)
(T (W x00 x00 x00 x00 x00 x00 x00 x00)
(L (W x01 x00 x00 x00 x04 x00 x00 x00))
(L (W x00 x00 x00 x00 x00 x00 x00 x00)))
(T (W x00 x00 x00 x00 x00 x00 x00 x00)
(L (W x45 x26 x22 x84 xe4 x9c xf2 xcb)) E))
(T (W x00 x00 x00 x00 xa2 x7d xfd xff)
(T (W x00 x00 x00 x00 x1c x00 x00 x00)
(L (W x00 x00 x00 x00 x00 x00 x00 x00))
(L (W x00 x00 x00 x00 xe0 xf5 xff xff)))
(T (W x00 x00 x00 x00 x01 x00 x00 x00)
(L (W x00 x00 x00 x00 x01 x00 x00 x00)) E))))
(T (W x00 x00 x00 x00 x00 x00 x00 x00)
(T (W x00 x00 x00 x00 x00 x00 x00 x00)
(T (W x00 x00 x00 x00 x13 x00 x00 x00)
(T (W x42 x52 x45 x41 x4b x5f x41 x52)
(L (W x00 x00 x00 x00 x5e xa5 xfe xff))
(L (W x00 x00 x00 x00 x00 x00 x00 x00)))
(T (W x00 x00 x00 x00 x00 x00 x00 x00)
(L (W x33 xf3 xf7 x43 x00 x00 x2e x42)) E))
(T (W x01 x00 x00 x00 x04 x00 x00 x00)
(T (W xd0 x95 x20 x0f xa9 x24 xbf x41)
(L (W x00 x00 x80 x3f xe0 xe5 xfe xff))
(L (W x00 x00 x00 x00 x00 x00 x00 x00)))
(T (W x74 x00 x00 x00 x68 x00 x00 x00)
(L (W x00 x00 x00 x00 x00 x00 x00 x00)) E)))
(T (W x45 x26 x22 x84 xe4 x9c xf2 xcb)
(T (W x54 x00 x00 x00 x48 x00 x00 x00)
(T (W x45 x26 x22 x84 xe4 x9c xf2 xcb)
(L (W x54 x00 x00 x00 x48 x00 x00 x00))
(L (W x00 x00 x00 x00 x00 x00 x00 x00)))
(T (W x00 x00 x00 x00 xe0 x45 xfe xff)
(L (W x00 x00 x00 x00 x01 x00 x00 x00)) E))
(T (W x66 x66 x10 x42 xcd x0c x59 x44)
(T (W x00 x00 x00 x00 x00 x00 x00 x00)
(L (W x45 x26 x22 x84 xe4 x9c xf2 xcb)) E)
(T (W x00 x00 x00 x00 xe0 x85 xfe xff)
(L (W x45 x26 x22 x84 xe4 x9c xf2 xcb)) E)))))
(T (W x45 x26 x22 x84 xe4 x9c xf2 xcb)
(T (W x74 x00 x00 x00 x68 x00 x00 x00)
(T (W x00 x00 x00 x00 xe0 xdd xfc xff)
(T (W xe1 x1a xb3 x43 x00 x00 x00 x00)
(T (W x00 x00 x00 x00 x01 x00 x00 x00)
(L (W xdc x9d xfe xff x00 x00 x00 x00))
(L (W x00 x00 x00 x00 x00 x00 x00 x00)))
(T (W x00 x00 x00 x00 x00 x00 x00 x00)
(L (W x01 x00 x00 x00 x04 x00 x00 x00)) E))
(T (W xbc xd0 x60 x70 x06 x05 xb2 x90)
(T (W x55 x39 x81 x6a xc4 xc7 x74 x14)
(L (W x00 x00 x00 x00 xe0 xdd xfe xff))
(L (W x04 x00 x00 x00 xc8 xdd xff xff)))
(T (W x45 x26 x22 x84 xe4 x9c xf2 xcb)
(L (W x44 x00 x00 x00 x38 x00 x00 x00)) E)))
(T (W x45 x26 x22 x84 xe4 x9c xf2 xcb)
(T (W x28 x00 x00 x00 x14 x00 x00 x00)
(T (W x40 x00 x00 x00 x38 x00 x00 x00)
(L (W x44 x00 x00 x00 x30 x00 x00 x00))
(L (W x45 x26 x22 x84 xe4 x9c xf2 xcb)))
(T (W x1c x01 x00 x00 x01 x00 x00 x00)
(L (W x00 x00 x80 x3f x00 x00 x80 x3f)) E))
(T (W x44 x00 x00 x00 x38 x00 x00 x00)
(T (W x45 x26 x22 x84 xe4 x9c xf2 xcb)
(L (W x00 x00 x00 x00 x00 x00 x00 x00))
(L (W x1c x00 x00 x00 x18 x00 x34 x00)))
(T (W x34 x00 x00 x00 x20 x00 x00 x00)
(L (W x00 x00 x80 x40 x24 x01 x00 x00)) E))))
(T (W x5f x41 x52 x45 x41 x30 x32 x00)
(T (W x4f x84 x6f x8b xe8 xcb x63 xb7)
(T (W x00 x00 x00 x00 x01 x00 x00 x00)
(T (W x01 x00 x00 x00 x04 x00 x00 x00)
(L (W x7e x86 x86 xf3 x1d xa8 x5a x95))
(L (W x84 xb0 xff xff x50 x00 x00 x00)))
(T (W x45 x26 x22 x84 xe4 x9c xf2 xcb)
(L (W x54 x00 x00 x00 x48 x00 x00 x00)) E))
(T (W x2c x00 x00 x00 x18 x00 x00 x00)
(T (W x2c x00 x00 x00 x20 x00 x00 x00)
(L (W x74 xa6 x01 x43 x08 x1e xe5 xbb))
(L (W x54 x00 x00 x00 x48 x00 x00 x00)))
(T (W x00 x00 x00 x00 x01 x00 x00 x00)
(L (W x45 x26 x22 x84 xe4 x9c xf2 xcb)) E)))
(T (W x00 x00 x00 x00 x00 x00 x00 x00)
(T (W xdc x4d xfd xff x00 x00 x00 x00)
(T (W x00 x00 x00 x00 x00 x00 x00 x00)
(L (W x00 x00 x00 x00 x01 x00 x00 x00))
(L (W x00 x00 x00 x00 x00 x00 x00 x00)))
(T (W x00 x00 x00 x00 x00 x00 x00 x00)
(L (W x00 x00 x00 x00 x00 x00 x00 x00)) E))
(T (W x1c x01 x00 x00 x01 x00 x00 x00)
(T (W x3d x0a x08 x42 x9a x59 x59 x44)
(L (W xdc x0d xff xff x00 x00 x00 x00)) E)
(T (W x2c x00 x00 x00 x18 x00 x00 x00)
(L (W x44 x00 x00 x00 x30 x00 x00 x00)) E)))))))
(T (W xf0 x37 x00 x00 x04 x36 x00 x00)
(T (W x7b x94 x08 x43 x00 x00 x00 x00)
(T (W x1c x01 x00 x00 x04 x00 x00 x00)
(T (W x84 xb6 xfc xff x50 x00 x00 x00)
(T (W xef x5d xba x4b xbc x32 x01 xeb)
(T (W x60 x00 x00 x00 x54 x00 x00 x00)
(T (W x40 x00 x00 x00 x38 x00 x00 x00)
(L (W x3c x01 x00 x00 x30 x01 x00 x00))
(L (W x3c x01 x00 x00 x30 x01 x00 x00)))
(T (W x00 x00 x00 x00 x01 x00 x00 x00)
(L (W x00 x00 x00 x00 xa2 x1b xff xff)) E))
(T (W x60 x00 x00 x00 x54 x00 x00 x00)
(T (W x45 x26 x22 x84 xe4 x9c xf2 xcb)
(L (W x5f x4e x45 x57 x5f x4f x55 x54))
(L (W x45 x26 x22 x84 xe4 x9c xf2 xcb)))
(T (W xe1 x3a xe7 x43 x00 x00 x00 x00)
(L (W x3c x01 x00 x00 x30 x01 x00 x00)) E)))
(T (W x02 x00 x00 x00 x32 x33 x00 x00)
(T (W xe6 x45 xbb x28 xbf xce x6a x6a)
(T (W x45 x26 x22 x84 xe4 x9c xf2 xcb)
(L (W x00 x00 x00 x00 xe0 xb3 xfe xff))
(L (W x45 x26 x22 x84 xe4 x9c xf2 xcb)))
(T (W x00 x00 x00 x00 x00 x00 x00 x00)
(L (W x2c x00 x00 x00 x20 x00 x00 x00)) E))
(T (W x00 x00 x00 x00 x00 x00 x00 x00)
(T (W x00 x00 x80 x3f xe0 xf3 xfd xff)
(L (W x44 x00 x00 x00 x38 x00 x00 x00))
(L (W x45 x26 x22 x84 xe4 x9c xf2 xcb)))
(T (W x00 x00 x00 x00 x00 x00 x00 x00)
(L (W x00 x00 x00 x00 x00 x00 x00 x00)) E))))
(T (W x1f xc5 x8f x43 x66 x66 x28 x42)
(T (W x45 x26 x22 x84 xe4 x9c xf2 xcb)
(T (W x00 x00 x00 x00 x00 x00 x00 x00)
(T (W x00 x00 x00 x00 x1c x00 x00 x00)
(L (W x04 x00 x00 x00 x00 xa6 xfe xff))
(L (W x00 x00 x80 x3f x00 x00 x80 x3f)))
(T (W x5a x23 xfe xff x00 x00 x80 x3f)
(L (W x44 x00 x00 x00 x30 x00 x00 x00)) E))
(T (W x45 x26 x22 x84 xe4 x9c xf2 xcb)
(T (W x28 x01 x00 x00 x20 x01 x00 x00)
(L (W x5c x00 x00 x00 x50 x00 x00 x00))
(L (W x00 x00 x00 x00 x00 x00 x00 x00)))
(T (W x00 x00 x00 x00 x00 x00 x00 x00)
(L (W x00 x00 x00 x00 x5e x63 xff xff)) E)))
(T (W x45 x26 x22 x84 xe4 x9c xf2 xcb)
(T (W x89 xcb xff xfc xa9 x6a xa8 x75)
(T (W x00 x00 x00 x00 xe0 xc3 xfd xff)
(L (W x09 x8f x89 xf3 x1d x24 x5e x95))
(L (W x45 x26 x22 x84 xe4 x9c xf2 xcb)))
(T (W x40 x00 x00 x00 x38 x00 x00 x00)
(L (W x00 x00 x80 xbf x9c x00 x00 x00)) E))
(T (W x00 x00 x80 x3f x00 x00 x80 x3f)
(T (W x00 x00 x00 x00 x00 x00 x00 x00)
(L (W x00 x00 x00 x00 x01 x00 x00 x00)) E)
(T (W x45 x26 x22 x84 xe4 x9c xf2 xcb)
(L (W x45 x26 x22 x84 xe4 x9c xf2 xcb)) E)))))
(T (W x54 x00 x00 x00 x48 x00 x00 x00)
(T (W xdc xbb xfc xff x00 x00 x00 x00)
(T (W x45 x26 x22 x84 xe4 x9c xf2 xcb)
(T (W x00 x00 x00 x00 x01 x00 x00 x00)
(T (W x00 x00 x00 x00 x00 x00 x00 x00)
(L (W x45 x26 x22 x84 xe4 x9c xf2 xcb))
(L (W x2c x00 x00 x00 x20 x00 x00 x00)))
(T (W x45 x26 x22 x84 xe4 x9c xf2 xcb)
(L (W x45 x26 x22 x84 xe4 x9c xf2 xcb)) E))
(T (W x00 x00 xa0 x40 x24 x01 x00 x00)
(T (W x60 x00 x00 x00 x54 x00 x00 x00)
(L (W x45 x26 x22 x84 xe4 x9c xf2 xcb))
(L (W x04 x00 x00 x00 xc8 xdb xff xff)))
(T (W x45 x26 x22 x84 xe4 x9c xf2 xcb)
(L (W x00 x00 x00 x00 xe0 x5b xff xff)) E)))
(T (W x34 x00 x00 x00 x20 x00 x00 x00)
(T (W x78 x00 x00 x00 x6c x00 x00 x00)
(T (W x00 x00 x00 x00 x01 x00 x00 x00)
(L (W x00 x00 x00 x00 xe0 xbb xfe xff))
(L (W x45 x26 x22 x84 xe4 x9c xf2 xcb)))
(T (W x00 x00 x00 x00 xa2 x43 xfe xff)
(L (W x74 x00 x00 x00 x68 x00 x00 x00)) E))
(T (W x45 x26 x22 x84 xe4 x9c xf2 xcb)
(T (W xaf xdf x1b x72 x9d x0d xa7 xbe)
(L (W x5a xfb xfe xff x00 x00 x80 x3f))
(L (W x55 x39 x81 x6a xc4 xc7 x74 x14)))
(T (W x00 x00 x00 x00 xa2 x83 xfe xff)
(L (W x00 x00 x00 x00 x00 x00 x00 x00)) E))))
(T (W x1c x00 x20 x00 x00 x00 x06 x00)
(T (W x48 x00 x00 x00 x34 x00 x00 x00)
(T (W x00 x00 x80 xbf x00 x00 x80 xbf)
(T (W x45 x26 x22 x84 xe4 x9c xf2 xcb)
(L (W x00 x00 x80 xbf x00 x00 x80 xbf))
(L (W x45 x26 x22 x84 xe4 x9c xf2 xcb)))
(T (W x45 x26 x22 x84 xe4 x9c xf2 xcb)
(L (W x04 x00 x00 x00 x00 x00 x00 x00)) E))
(T (W x78 x00 x00 x00 x6c x00 x00 x00)
(T (W x45 x26 x22 x84 xe4 x9c xf2 xcb)
(L (W x00 x00 xa0 x40 x24 x01 x00 x00))
(L (W x28 xda x9b xd1 xc2 xee x60 x9e)))
(T (W x00 x00 x80 xbf x9c x00 x00 x00)
(L (W x00 x00 x00 x00 x01 x00 x00 x00)) E)))
(T (W x45 x26 x22 x84 xe4 x9c xf2 xcb)
(T (W x45 x26 x22 x84 xe4 x9c xf2 xcb)
(T (W x5a xcb xfd xff x00 x00 x80 x3f)
(L (W x00 x00 x00 x00 x00 x00 x00 x00))
(L (W x00 x00 x80 x3f x00 x00 x80 x3f)))
(T (W x45 x26 x22 x84 xe4 x9c xf2 xcb)
(L (W xc1 xa8 xaa x28 xbf xd5 x56 x6a)) E))
(T (W x00 x00 x00 x00 xa2 x93 xfd xff)
(T (W x45 x26 x22 x84 xe4 x9c xf2 xcb)
(L (W x00 x00 x00 x00 x00 x00 x00 x00)) E)
(T (W x00 x00 x00 x00 xe0 x8b xfe xff)
(L (W x00 x00 x00 x00 x00 x00 x00 x00)) E))))))
(T (W x5f x4f x55 x54 x42 x52 x45 x41)
(T (W xf2 x9e x68 xff x95 xf9 x4d x2b)
(T (W x00 x00 x00 x00 x00 x00 x00 x00)
(T (W x04 x00 x00 x00 x1a xdd xfc xff)
(T (W x00 x00 x80 x3f x00 x00 x80 x3f)
(T (W x84 x9a xfd xff x50 x00 x00 x00)
(L (W x34 x00 x00 x00 x20 x00 x00 x00))
(L (W x54 x00 x00 x00 x48 x00 x00 x00)))
(T (W x45 x26 x22 x84 xe4 x9c xf2 xcb)
(L (W x04 x00 x00 x00 x1a x1d xff xff)) E))
(T (W x00 x00 x80 x3f x00 x00 x80 x3f)
(T (W x00 x00 x00 x00 x00 x00 x00 x00)
(L (W x00 x00 x80 xbf x9c x00 x00 x00))
(L (W x84 xda xff xff x50 x00 x00 x00)))
(T (W xfb x18 x9c xcb xe4 xa9 xcc x1b)
(L (W x54 x00 x00 x00 x48 x00 x00 x00)) E)))
(T (W x3c x01 x00 x00 x30 x01 x00 x00)
(T (W x00 x00 x00 x00 x00 x00 x00 x00)
(T (W x00 x00 x00 x00 x00 x00 x00 x00)
(L (W x01 x00 x00 x00 x04 x00 x00 x00))
(L (W x00 x00 x00 x00 x00 x00 x00 x00)))
(T (W x5c x00 x00 x00 x50 x00 x00 x00)
(L (W x00 x00 x00 x00 x00 x00 x00 x00)) E))
(T (W x34 x00 x00 x00 x20 x00 x00 x00)
(T (W x4b x5f x41 x52 x45 x41 x30 x32)
(L (W x00 x00 x00 x00 xe0 xf7 xfe xff))
(L (W x28 x00 x00 x00 x14 x00 x00 x00)))
(T (W x55 x6c xfc xf1 x99 x9e xc9 x88)
(L (W x5c x00 x00 x00 x50 x00 x00 x00)) E))))
(T (W x46 x53 x59 x53 x5f x4e x45 x57)
(T (W x00 x00 x00 x00 xe0 xe7 xfc xff)
(T (W x00 x00 x00 x41 x3c x01 x00 x00)
(T (W x00 x00 x80 xbf x00 x00 x80 xbf)
(L (W x5c x9f x16 x44 xd7 xa3 xef x42))
(L (W x00 x00 x80 xbf x9c x00 x00 x00)))
(T (W x00 x00 x80 xbf x00 x00 x80 xbf)
(L (W x53 x5f x47 x41 x4e x45 x52 x41)) E))
(T (W x00 x00 x00 x00 x00 x00 x00 x00)
(T (W x04 x00 x00 x00 x00 x00 x00 x00)
(L (W x00 x00 x00 x00 x00 x00 x00 x00))
(L (W x28 x01 x00 x00 x20 x01 x00 x00)))
(T (W x00 x00 x80 x3f x00 x00 x80 x3f)
(L (W x3c x01 x00 x00 x30 x01 x00 x00)) E)))
(T (W x00 x00 x00 x00 xe0 x07 xfd xff)
(T (W x45 x26 x22 x84 xe4 x9c xf2 xcb)
(T (W x00 x00 x00 x00 x00 x00 x00 x00)
(L (W x45 x26 x22 x84 xe4 x9c xf2 xcb))
(L (W x00 x00 x00 x00 xe0 xc7 xff xff)))
(T (W x0f x56 x48 xdc x00 x5c x59 x2f)
(L (W x40 x00 x00 x00 x38 x00 x00 x00)) E))
(T (W x00 x00 x00 x00 x00 x00 x00 x00)
(T (W x00 x00 x00 x00 x01 x00 x00 x00)
(L (W x00 x00 x00 x00 xe0 x07 xff xff)) E)
(T (W xdc x87 xfe xff x00 x00 x00 x00)
(L (W x00 x00 x00 x00 xe0 x87 xff xff)) E)))))
(T (W x45 x26 x22 x84 xe4 x9c xf2 xcb)
(T (W x28 x00 x00 x00 x14 x00 x00 x00)
(T (W x01 x00 x00 x00 x04 x00 x00 x00)
(T (W x00 x00 x00 x00 x00 x00 x00 x00)
(T (W x45 x26 x22 x84 xe4 x9c xf2 xcb)
(L (W x45 x26 x22 x84 xe4 x9c xf2 xcb))
(L (W xdc x9f xff xff x00 x00 x00 x00)))
(T (W x78 x00 x00 x00 x6c x00 x00 x00)
(L (W x00 x00 x00 x00 x00 x00 x00 x00)) E))
(T (W x45 x26 x22 x84 xe4 x9c xf2 xcb)
(T (W x00 x00 x80 x3f x00 x00 x80 x3f)
(L (W x2c x00 x00 x00 x20 x00 x00 x00))
(L (W x55 x6c xfc xf1 x99 x9e xc9 x88)))
(T (W x00 x00 x00 x00 xe0 x5f xfe xff)
(L (W x00 x00 x00 x00 x00 x00 x00 x00)) E)))
(T (W x00 x00 x00 x00 x01 x00 x00 x00)
(T (W xe1 xfa x36 x44 x00 x00 x00 x00)
(T (W x45 x26 x22 x84 xe4 x9c xf2 xcb)
(L (W x33 xf3 xd1 x43 x9a x99 xc9 x42))
(L (W x45 x26 x22 x84 xe4 x9c xf2 xcb)))
(T (W x00 x00 x80 xbf x9c x00 x00 x00)
(L (W x00 x00 x00 x00 x00 x00 x00 x00)) E))
(T (W x00 x00 x00 x00 x00 x00 x00 x00)
(T (W xdc xff xfd xff x00 x00 x00 x00)
(L (W x3c x01 x00 x00 x30 x01 x00 x00))
(L (W x00 x00 x00 x00 x00 x00 x00 x00)))
(T (W x45 x26 x22 x84 xe4 x9c xf2 xcb)
(L (W xfc x5c x41 x00 xff xae x0e x31)) E))))
(T (W x00 x00 xe0 x40 x24 x01 x00 x00)
(T (W x00 x00 x80 x3f xe0 xef xfc xff)
(T (W x45 x26 x22 x84 xe4 x9c xf2 xcb)
(T (W x00 x00 x00 x00 x00 x00 x00 x00)
(L (W x04 x00 x00 x00 x1a xb5 xfe xff))
(L (W x00 x00 x00 x00 x00 x00 x00 x00)))
(T (W x84 x32 xfe xff x50 x00 x00 x00)
(L (W x45 x26 x22 x84 xe4 x9c xf2 xcb)) E))
(T (W x00 x00 x00 x00 x5e x6f xfd xff)
(T (W x00 x00 x00 x00 x00 x00 x00 x00)
(L (W x54 x00 x00 x00 x48 x00 x00 x00))
(L (W x45 x26 x22 x84 xe4 x9c xf2 xcb)))
(T (W x45 x26 x22 x84 xe4 x9c xf2 xcb)
(L (W x45 x26 x22 x84 xe4 x9c xf2 xcb)) E)))
(T (W x00 x00 x00 x00 x00 x00 x00 x00)
(T (W x78 x00 x00 x00 x6c x00 x00 x00)
(T (W x00 x00 x80 xbf x00 x00 x80 xbf)
(L (W x45 x26 x22 x84 xe4 x9c xf2 xcb))
(L (W x1c x01 x00 x00 x01 x00 x00 x00)))
(T (W x74 x00 x00 x00 x68 x00 x00 x00)
(L (W x44 x00 x00 x00 x30 x00 x00 x00)) E))
(T (W x45 x26 x22 x84 xe4 x9c xf2 xcb)
(T (W x7a x33 xfe xff x00 x00 x00 x01)
(L (W x45 x26 x22 x84 xe4 x9c xf2 xcb)) E)
(T (W x5a x8f xfe xff x00 x00 x80 x3f)
(L (W xe1 xfa x64 x43 x00 x00 x3f x42)) E)))))))))
(T (W xf4 xc6 x02 x00 x08 xc5 x02 x00)
(T (W xf4 x50 x02 x00 x28 x4f x02 x00)
(T (W x60 x64 x01 x00 x8c x62 x01 x00)
(T (W x00 x00 x00 x00 x00 x00 x00 x00)
(T (W x28 x00 x00 x00 x14 x00 x00 x00)
(T (W x4e xe0 x86 x67 x2b x01 xf1 x8e)
(T (W x00 x00 x80 x3f x60 xd1 xfc xff)
(T (W x5c x11 xfd xff x00 x00 x00 x00)
(T (W x5f x4e x45 x57 x5f x4f x55 x54)
(L (W x5c x91 xfe xff x00 x00 x00 x00))
(L (W x74 x00 x00 x00 x68 x00 x00 x00)))
(T (W x00 x00 x00 x00 xde x10 xfe xff)
(L (W x00 x00 x00 x00 x00 x00 x00 x00)) E))
(T (W x28 x00 x00 x00 x1c x00 x00 x00)
(T (W x00 x00 x00 x00 x00 x00 x00 x00)
(L (W x00 x00 x00 x00 x60 xd1 xfe xff))
(L (W x14 xae x8f x43 x66 x66 x5a x42)))
(T (W x00 x00 x00 x00 x00 x00 x00 x00)
(L (W x00 x00 x00 x00 x00 x00 x00 x00)) E)))
(T (W x00 x00 x00 x00 x00 x00 x00 x00)
(T (W x34 x00 x00 x00 x20 x00 x00 x00)
(T (W x5c xb1 xfd xff x00 x00 x00 x00)
(L (W x00 x00 x80 xbf x00 x00 x80 xbf))
(L (W x00 x00 x00 x00 x60 xb1 xff xff)))
(T (W x04 x00 x00 x00 x9a x36 xfe xff)
(L (W x00 x00 x80 xbf x9c x00 x00 x00)) E))
(T (W x00 x00 x00 x00 x00 x00 x00 x00)
(T (W x04 xf4 xfd xff x50 x00 x00 x00)
(L (W x00 x00 x80 xbf x00 x00 x80 xbf))
(L (W x00 x00 x00 x00 x01 x00 x00 x00)))
(T (W x00 x00 x00 x00 x01 x00 x00 x00)
(L (W x00 x00 x00 x00 x01 x00 x00 x00)) E))))
(T (W x45 x26 x22 x84 xe4 x9c xf2 xcb)
(T (W x00 x00 x00 x00 x01 x00 x00 x00)
(T (W x00 x00 x00 x00 x00 x00 x00 x00)
(T (W x00 x00 x00 x00 x00 x00 x00 x00)
(L (W x45 x26 x22 x84 xe4 x9c xf2 xcb))
(L (W x01 x00 x00 x00 x04 x00 x00 x00)))
(T (W x2c x00 x00 x00 x20 x00 x00 x00)
(L (W x45 x26 x22 x84 xe4 x9c xf2 xcb)) E))
(T (W x0a x65 xfd xff x40 x01 x00 x00)
(T (W x00 x00 x00 x00 x01 x00 x00 x00)
(L (W x45 x26 x22 x84 xe4 x9c xf2 xcb))
(L (W x00 x00 x00 x00 x00 x00 x00 x00)))
(T (W x04 x00 x00 x00 x00 x00 x00 x00)
(L (W x01 x00 x00 x00 x04 x00 x00 x00)) E)))
(T (W x52 xe5 xff xff x00 x00 x00 x01)
(T (W x5c x00 x00 x00 x50 x00 x00 x00)
(T (W x00 x00 x80 xbf x9c x00 x00 x00)
(L (W x74 x00 x00 x00 x68 x00 x00 x00))
(L (W x3a x69 x19 xe3 xf6 xec xcf xe2)))
(T (W x00 x00 x00 x00 x00 x00 x00 x00)
(L (W x44 x00 x00 x00 x30 x00 x00 x00)) E))
(T (W x01 x00 x00 x00 x04 x00 x00 x00)
(T (W x54 x00 x00 x00 x48 x00 x00 x00)
(L (W x00 x00 x80 x3f x00 x00 x80 x3f)) E)
(T (W x3c x01 x00 x00 x30 x01 x00 x00)
(L (W x57 x53 x59 x53 x5f x4d x41 x53)) E)))))
(T (W x46 x53 x59 x53 x5f x4e x45 x57)
(T (W x45 x26 x22 x84 xe4 x9c xf2 xcb)
(T (W x3c x01 x00 x00 x30 x01 x00 x00)
(T (W x00 x00 x00 x00 x00 x00 x00 x00)
(T (W x04 x00 x00 x00 x9a x9e xfd xff)
(L (W x00 x00 x00 x00 x00 x00 x00 x00))
(L (W x00 x00 x80 xbf x9c x00 x00 x00)))
(T (W x20 x2c xb7 x22 xa1 x19 x45 xb4)
(L (W x00 x00 x30 x41 x24 x01 x00 x00)) E))
(T (W x00 x00 x00 x00 x00 x00 x00 x00)
(T (W x5c xd9 xfd xff x00 x00 x00 x00)
(L (W x00 x00 x00 x00 x00 x00 x00 x00))
(L (W x45 x26 x22 x84 xe4 x9c xf2 xcb)))
(T (W x1c x00 x00 x00 x46 x53 x59 x53)
(L (W x00 x00 x80 x40 x24 x01 x00 x00)) E)))
(T (W x00 x00 x80 x3f x00 x00 x80 x3f)
(T (W x00 x00 x00 x00 x60 x39 xfd xff)
(T (W x45 x26 x22 x84 xe4 x9c xf2 xcb)
(L (W x40 x00 x00 x00 x38 x00 x00 x00))
(L (W x44 x00 x00 x00 x30 x00 x00 x00)))
(T (W x00 x00 x00 x00 x00 x00 x00 x00)
(L (W x00 x00 x00 x00 x60 x39 xff xff)) E))
(T (W x00 x00 x00 x00 x00 x00 x00 x00)
(T (W x45 x26 x22 x84 xe4 x9c xf2 xcb)
(L (W x00 x00 x00 x00 x60 xf9 xfe xff))
(L (W x95 x50 x69 x12 x83 x72 x37 xc6)))
(T (W x00 x00 x00 x00 x00 x00 x00 x00)
(L (W x00 x00 x00 x00 x00 x00 x00 x00)) E))))
(T (W x44 x00 x00 x00 x30 x00 x00 x00)
(T (W x00 x00 x00 x00 x60 xe9 xfc xff)
(T (W x96 x18 x57 x7c xc9 x05 xf6 x34)
(T (W x00 x00 x00 x00 x00 x00 x00 x00)
(L (W x5c xa9 xfe xff x00 x00 x00 x00))
(L (W x00 x00 x00 x00 x00 x00 x00 x00)))
(T (W x00 x00 x00 x00 x00 x00 x00 x00)
(L (W x45 x26 x22 x84 xe4 x9c xf2 xcb)) E))
(T (W x00 x00 x00 x00 x60 x69 xfd xff)
(T (W x45 x41 x30 x32 x5f x30 x31 x34)
(L (W x00 x00 x00 x00 x01 x00 x00 x00))
(L (W x5c xe9 xff xff xde xe8 xff xff)))
(T (W x00 x00 x00 x00 x01 x00 x00 x00)
(L (W x00 x00 x80 x3f x00 x00 x80 x3f)) E)))
(T (W x04 x00 x00 x00 x00 x00 x00 x00)
(T (W x2a x55 xc7 xbc x43 x40 x81 x44)
(T (W x00 x00 x00 x00 x60 xc9 xfd xff)
(L (W x00 x00 x00 x00 x01 x00 x00 x00))
(L (W x2c x00 x00 x00 x20 x00 x00 x00)))
(T (W x54 x00 x00 x00 x48 x00 x00 x00)
(L (W x34 x00 x00 x00 x20 x00 x00 x00)) E))
(T (W x78 x00 x00 x00 x6c x00 x00 x00)
(T (W x04 x0c xfe xff x50 x00 x00 x00)
(L (W x04 x00 x00 x00 x00 x00 x00 x00)) E)
(T (W x54 x00 x00 x00 x48 x00 x00 x00)
(L (W x04 x00 x00 x00 x9a x8e xff xff)) E))))))
(T (W x5c x9d xfc xff x00 x00 x00 x00)
(T (W x8f x52 x3f x44 x33 xb3 xab x42)
(T (W x04 x00 x00 x00 x9a xba xfc xff)
(T (W x02 x00 x00 x00 x33 x39 x00 x00)
(T (W xab xce x36 x97 x85 x2b x63 x5f)
(T (W x34 x00 x00 x00 x20 x00 x00 x00)
(L (W x00 x00 x80 x3f x00 x00 x80 x3f))
(L (W x00 x00 x80 x3f x00 x00 x80 x3f)))
(T (W x0a x19 xfe xff x40 x01 x00 x00)
(L (W xda x14 xff xff x00 x00 x80 x3f)) E))
(T (W x1f x7d x02 x4c x84 x1d x7f x61)
(T (W x45 x26 x22 x84 xe4 x9c xf2 xcb)
(L (W x28 x00 x00 x00 x14 x00 x00 x00))
(L (W x51 xbe x94 x16 x1e x54 xd3 xd2)))
(T (W x5c x00 x00 x00 x50 x00 x00 x00)
(L (W x00 x00 x80 x3f x00 x00 x80 x3f)) E)))
(T (W x60 x00 x00 x00 x54 x00 x00 x00)
(T (W x45 x26 x22 x84 xe4 x9c xf2 xcb)
(T (W x00 x00 x00 x00 x00 x00 x00 x00)
(L (W x45 x26 x22 x84 xe4 x9c xf2 xcb))
(L (W x00 x00 x00 x00 x00 x00 x00 x00)))
(T (W x45 x26 x22 x84 xe4 x9c xf2 xcb)
(L (W x40 x00 x00 x00 x38 x00 x00 x00)) E))
(T (W x04 x00 x00 x00 x80 x77 xfd xff)
(T (W x00 x00 x00 x00 x01 x00 x00 x00)
(L (W x45 x26 x22 x84 xe4 x9c xf2 xcb))
(L (W x45 x26 x22 x84 xe4 x9c xf2 xcb)))
(T (W x5c x75 xfe xff x00 x00 x00 x00)
(L (W x5c x75 xff xff x00 x00 x00 x00)) E))))
(T (W x00 x00 x00 x00 x60 xc5 xfc xff)
(T (W x45 x26 x22 x84 xe4 x9c xf2 xcb)
(T (W x5c x00 x00 x00 x50 x00 x00 x00)
(T (W x60 x00 x00 x00 x54 x00 x00 x00)
(L (W x45 x26 x22 x84 xe4 x9c xf2 xcb))
(L (W x00 x00 x00 x00 x01 x00 x00 x00)))
(T (W x5c x25 xfe xff x00 x00 x00 x00)
(L (W x00 x00 x00 x00 x00 x00 x00 x00)) E))
(T (W x45 x26 x22 x84 xe4 x9c xf2 xcb)
(T (W x5c xe5 xfd xff xde xe4 xfd xff)
(L (W x00 x00 x00 x00 x00 x00 x00 x00))
(L (W x00 x00 x00 x00 x01 x00 x00 x00)))
(T (W x01 x00 x00 x00 x04 x00 x00 x00)
(L (W x00 x00 x00 x00 x60 x65 xff xff)) E)))
(T (W x00 x00 x80 xbf x9c x00 x00 x00)
(T (W x00 x00 x00 x00 x00 x00 x00 x00)
(T (W x54 x00 x00 x00 x48 x00 x00 x00)
(L (W x00 x00 x00 x00 x00 x00 x00 x00))
(L (W x45 x26 x22 x84 xe4 x9c xf2 xcb)))
(T (W x34 x00 x00 x00 x20 x00 x00 x00)
(L (W x00 x00 x00 x00 x00 x00 x00 x00)) E))
(T (W x00 x00 x00 x00 x00 x00 x00 x00)
(T (W x45 x26 x22 x84 xe4 x9c xf2 xcb)
(L (W x00 x00 xa0 x40 x24 x01 x00 x00)) E)
(T (W x34 x00 x00 x00 x20 x00 x00 x00)
(L (W x01 x00 x00 x00 x00 x00 x80 x3f)) E)))))
(T (W x00 x00 xe0 x40 x24 x01 x00 x00)
(T (W x01 x00 x00 x00 x04 x00 x00 x00)
(T (W x34 x00 x00 x00 x20 x00 x00 x00)
(T (W x00 x00 x00 x00 x00 x00 x00 x00)
(T (W x5c x9d xfd xff x00 x00 x00 x00)
(L (W x48 xde xb3 xef x1d x84 xf7 x8d))
(L (W x45 x26 x22 x84 xe4 x9c xf2 xcb)))
(T (W x45 x26 x22 x84 xe4 x9c xf2 xcb)
(L (W x45 x26 x22 x84 xe4 x9c xf2 xcb)) E))
(T (W x5c x5d xfd xff xde x5c xfd xff)
(T (W x3a xfd xaf x28 xbf x5e x5d x6a)
(L (W x87 x3e xff x37 x85 x48 x03 xd0))
(L (W x00 x00 x00 x00 x60 xdd xff xff)))
(T (W x00 x00 x80 xbf x9c x00 x00 x00)
(L (W x04 x00 x00 x00 x00 x00 x00 x00)) E)))
(T (W x00 x00 x00 x00 x00 x00 x00 x00)
(T (W x2c x00 x00 x00 x20 x00 x00 x00)
(T (W x00 x00 x00 x00 x22 xc5 xfd xff)
(L (W x44 x00 x00 x00 x38 x00 x00 x00))
(L (W x3c x01 x00 x00 x30 x01 x00 x00)))
(T (W x00 x00 x00 x00 xde x3c xfe xff)
(L (W x00 x00 x00 x00 x00 x00 x00 x00)) E))
(T (W x04 x00 x00 x00 x00 x00 x00 x00)
(T (W x3c x01 x00 x00 x30 x01 x00 x00)
(L (W x5c xfd xfe xff x00 x00 x00 x00))
(L (W x18 x00 x20 x00 x28 x00 x04 x00)))
(T (W xda x7c xfe xff x00 x00 x80 x3f)
(L (W x55 x6c xfc xf1 x99 x9e xc9 x88)) E))))
(T (W x48 x00 x00 x00 x34 x00 x00 x00)
(T (W x45 x26 x22 x84 xe4 x9c xf2 xcb)
(T (W x00 x00 x00 x00 x00 x00 x00 x00)
(T (W x45 x26 x22 x84 xe4 x9c xf2 xcb)
(L (W x00 x00 x00 x00 x00 x00 x00 x00))
(L (W x00 x00 x00 x00 x01 x00 x00 x00)))
(T (W x01 x00 x00 x00 x00 x00 x80 x3f)
(L (W x45 x41 x30 x32 x5f x30 x31 x31)) E))
(T (W x2c x00 x00 x00 x20 x00 x00 x00)
(T (W x00 x00 x00 x00 x01 x00 x00 x00)
(L (W x5c xed xfe xff xde xec xfe xff))
(L (W x00 x00 x00 x00 x00 x00 x00 x00)))
(T (W x00 x00 x00 x00 x00 x00 x00 x00)
(L (W x00 x00 x80 x40 x24 x01 x00 x00)) E)))
(T (W x45 x26 x22 x84 xe4 x9c xf2 xcb)
(T (W x00 x00 x00 x00 x60 x4d xfd xff)
(T (W x5c xcd xfd xff x00 x00 x00 x00)
(L (W x5c xcd xfe xff x00 x00 x00 x00))
(L (W x00 x00 x00 x00 x01 x00 x00 x00)))
(T (W x45 x26 x22 x84 xe4 x9c xf2 xcb)
(L (W x45 x26 x22 x84 xe4 x9c xf2 xcb)) E))
(T (W x00 x00 x00 x00 xde x8c xfd xff)
(T (W x00 x00 x00 x00 x00 x00 x00 x00)
(L (W x00 x00 x00 x00 x60 x0d xff xff)) E)
(T (W x2c x00 x00 x00 x20 x00 x00 x00)
(L (W x44 x00 x00 x00 x38 x00 x00 x00)) E)))))))
(T (W x70 x75 x00 x00 x84 x73 x00 x00)
(T (W x00 x00 x00 x00 x00 x00 x00 x00)
(T (W xda xa2 xfc xff x00 x00 x80 x3f)
(T (W x00 x00 x00 x00 x01 x00 x00 x00)
(T (W x00 x00 x00 x00 x00 x00 x00 x00)
(T (W x04 x16 xfd xff x50 x00 x00 x00)
(T (W x00 x00 x00 x00 x22 x9b xfd xff)
(L (W x55 x39 x81 x6a xc4 xc7 x74 x14))
(L (W x55 x39 x81 x6a xc4 xc7 x74 x14)))
(T (W x00 x00 x00 x00 x00 x00 x00 x00)
(L (W x04 x00 x00 x00 x80 x15 xff xff)) E))
(T (W x33 x44 xbb x28 xbf xcd x6a x6a)
(T (W x1c x01 x00 x00 x01 x00 x00 x00)
(L (W x78 x00 x00 x00 x6c x00 x00 x00))
(L (W x3c x01 x00 x00 x30 x01 x00 x00)))
(T (W x00 x00 x00 x00 x00 x00 x00 x00)
(L (W x74 x00 x00 x00 x68 x00 x00 x00)) E)))
(T (W x00 x00 x00 x00 x01 x00 x00 x00)
(T (W x04 x00 x00 x00 x9a x38 xfd xff)
(T (W x45 x26 x22 x84 xe4 x9c xf2 xcb)
(L (W x27 xd0 xad xcf x38 xfd xfa x55))
(L (W x18 x65 xca xc9 x03 x8c xa3 xbc)))
(T (W x45 x26 x22 x84 xe4 x9c xf2 xcb)
(L (W x00 x00 x00 x00 x01 x00 x00 x00)) E))
(T (W x00 x00 x00 x00 x60 x73 xfd xff)
(T (W x00 x00 x00 x00 x00 x00 x00 x00)
(L (W x04 x00 x00 x00 x00 x00 x00 x00))
(L (W x40 x00 x00 x00 x38 x00 x00 x00)))
(T (W x45 x26 x22 x84 xe4 x9c xf2 xcb)
(L (W x45 x26 x22 x84 xe4 x9c xf2 xcb)) E))))
(T (W x00 x00 x00 x00 x00 x00 x00 x00)
(T (W x40 x00 x00 x00 x38 x00 x00 x00)
(T (W x00 x00 x00 x00 x03 x00 x00 x00)
(T (W x00 x00 x00 x00 x01 x00 x00 x00)
(L (W x00 x00 x00 x00 x60 xa3 xfe xff))
(L (W x00 x00 x00 x00 x00 x00 x00 x00)))
(T (W x45 x26 x22 x84 xe4 x9c xf2 xcb)
(L (W x44 x00 x00 x00 x38 x00 x00 x00)) E))
(T (W x1c x01 x00 x00 x01 x00 x00 x00)
(T (W x55 x6c xfc xf1 x99 x9e xc9 x88)
(L (W x04 xe6 xfe xff x50 x00 x00 x00))
(L (W x00 x00 x00 x00 x00 x00 x00 x00)))
(T (W x45 x26 x22 x84 xe4 x9c xf2 xcb)
(L (W x45 x26 x22 x84 xe4 x9c xf2 xcb)) E)))
(T (W x1c x01 x00 x00 x04 x00 x00 x00)
(T (W x5c x43 xfd xff xde x42 xfd xff)
(T (W x43 xa7 x5a x0b xf4 xdc xf9 xf4)
(L (W x00 x00 x80 x3f x00 x00 x80 x3f))
(L (W x40 x00 x00 x00 x38 x00 x00 x00)))
(T (W x00 x00 x00 x00 x22 x4b xfe xff)
(L (W xda x42 xff xff xcd x8c x00 x44)) E))
(T (W x00 x00 x00 x00 x00 x00 x00 x00)
(T (W x45 x26 x22 x84 xe4 x9c xf2 xcb)
(L (W x29 xfc x9c x43 x00 x00 x00 x00)) E)
(T (W x01 x00 x00 x00 x00 x00 x80 x3f)
(L (W x3c x01 x00 x00 x30 x01 x00 x00)) E)))))
(T (W x5f x30 x31 x37 x00 x00 x00 x00)
(T (W x00 x00 x00 x00 x60 xbb xfc xff)
(T (W x04 x00 x00 x00 x00 x00 x80 x3f)
(T (W x5c x1b xfd xff x00 x00 x00 x00)
(T (W x45 x26 x22 x84 xe4 x9c xf2 xcb)
(L (W x3c x01 x00 x00 x30 x01 x00 x00))
(L (W x00 x00 x00 x00 x01 x00 x00 x00)))
(T (W x40 x00 x00 x00 x38 x00 x00 x00)
(L (W x00 x00 x80 xbf x9c x00 x00 x00)) E))
(T (W x5c x00 x00 x00 x50 x00 x00 x00)
(T (W x04 xde xfd xff x50 x00 x00 x00)
(L (W x28 x01 x00 x00 x20 x01 x00 x00))
(L (W x00 x00 x00 x00 x60 xdb xff xff)))
(T (W x1c x01 x00 x00 x01 x00 x00 x00)
(L (W xc9 xb1 xd7 xc8 x77 x0d x87 x31)) E)))
(T (W xa4 x70 xd9 x42 x3d x4a x31 x43)
(T (W x01 x00 x00 x00 x04 x00 x00 x00)
(T (W x00 x00 x00 x00 x00 x00 x00 x00)
(L (W x45 x26 x22 x84 xe4 x9c xf2 xcb))
(L (W xb8 x3e xd3 x43 x85 xeb x54 x42)))
(T (W x04 x00 x00 x00 x80 x3d xfe xff)
(L (W x01 x00 x00 x00 x04 x00 x00 x00)) E))
(T (W x00 x00 x80 xbf x00 x00 x80 xbf)
(T (W xc3 xf5 x19 x42 x85 x6b x28 x44)
(L (W x45 x26 x22 x84 xe4 x9c xf2 xcb))
(L (W xe2 x4e x69 x12 x83 x71 x37 xc6)))
(T (W x04 x00 x00 x00 x80 x7d xfe xff)
(L (W x00 x00 x00 x00 x01 x00 x00 x00)) E))))
(T (W x4f x84 x6f x8b xe8 xcb x63 xb7)
(T (W x44 x00 x00 x00 x38 x00 x00 x00)
(T (W x00 x00 x80 x3f x00 x00 x80 x3f)
(T (W x1c x01 x00 x00 x02 x00 x00 x00)
(L (W x45 x26 x22 x84 xe4 x9c xf2 xcb))
(L (W x01 x00 x00 x00 x00 x00 x80 x3f)))
(T (W x34 x01 x00 x00 x01 x00 x00 x00)
(L (W x00 x00 x00 x00 x00 x00 x00 x00)) E))
(T (W x01 x00 x00 x00 x04 x00 x00 x00)
(T (W x00 x00 x80 xbf x9c x00 x00 x00)
(L (W x5c x00 x00 x00 x50 x00 x00 x00))
(L (W x00 x00 x00 x00 x00 x00 x00 x00)))
(T (W x45 x26 x22 x84 xe4 x9c xf2 xcb)
(L (W x00 x00 x00 x00 x1c x00 x00 x00)) E)))
(T (W x54 x00 x00 x00 x48 x00 x00 x00)
(T (W x40 x00 x00 x00 x38 x00 x00 x00)
(T (W x45 x26 x22 x84 xe4 x9c xf2 xcb)
(L (W x45 x26 x22 x84 xe4 x9c xf2 xcb))
(L (W x00 x00 x00 x00 x00 x00 x00 x00)))
(T (W x40 x00 x00 x00 x38 x00 x00 x00)
(L (W x04 x00 x00 x00 x9a x50 xff xff)) E))
(T (W x2c x00 x00 x00 x18 x00 x00 x00)
(T (W x04 xbd x1c x76 x80 xbc xf7 x18)
(L (W x45 x26 x22 x84 xe4 x9c xf2 xcb)) E)
(T (W x45 x26 x22 x84 xe4 x9c xf2 xcb)
(L (W x45 x26 x22 x84 xe4 x9c xf2 xcb)) E))))))
(T (W x74 x00 x00 x00 x68 x00 x00 x00)
(T (W x00 x00 x00 x00 x00 x00 x00 x00)
(T (W x45 x26 x22 x84 xe4 x9c xf2 xcb)
(T (W x4e x45 x52 x41 x54 x49 x4f x4e)
(T (W x00 x00 x00 x00 x00 x00 x00 x00)
(T (W x00 x00 x00 x00 x01 x00 x00 x00)
(L (W x5c x8f x66 x42 x85 xcb xf1 x43))
(L (W x00 x00 x00 x00 x00 x00 x00 x00)))
(T (W x01 x00 x00 x00 x01 x00 x00 x00)
(L (W x00 x00 x00 x00 x00 x00 x00 x00)) E))
(T (W x00 x00 x00 x00 x00 x00 x00 x00)
(T (W x45 x26 x22 x84 xe4 x9c xf2 xcb)
(L (W x00 x00 x00 x00 xde xd6 xfe xff))
(L (W x00 x00 x00 x00 x01 x00 x00 x00)))
(T (W x5c x57 xfe xff xde x56 xfe xff)
(L (W x00 x00 x00 x00 x00 x00 x00 x00)) E)))
(T (W xd6 x81 x9c x94 x9b x27 x57 x25)
(T (W x45 x26 x22 x84 xe4 x9c xf2 xcb)
(T (W x00 x00 x00 x00 x01 x00 x00 x00)
(L (W x30 xd7 x1b x72 x9d x08 xa7 xbe))
(L (W x00 x00 x00 x00 x00 x00 x00 x00)))
(T (W x04 x3a xfe xff x50 x00 x00 x00)
(L (W x45 x26 x22 x84 xe4 x9c xf2 xcb)) E))
(T (W xda x76 xfd xff x00 x00 x80 x3f)
(T (W x5c x00 x00 x00 x50 x00 x00 x00)
(L (W x45 x26 x22 x84 xe4 x9c xf2 xcb))
(L (W x2c x00 x00 x00 x20 x00 x00 x00)))
(T (W x45 x26 x22 x84 xe4 x9c xf2 xcb)
(L (W x04 x7a xff xff x50 x00 x00 x00)) E))))
(T (W x04 x00 x00 x00 x80 xc9 xfc xff)
(T (W x45 x26 x22 x84 xe4 x9c xf2 xcb)
(T (W x28 x00 x00 x00 x14 x00 x00 x00)
(T (W x45 x26 x22 x84 xe4 x9c xf2 xcb)
(L (W x00 x00 x00 x00 x00 x00 x00 x00))
(L (W x45 x26 x22 x84 xe4 x9c xf2 xcb)))
(T (W x45 x26 x22 x84 xe4 x9c xf2 xcb)
(L (W x74 x00 x00 x00 x68 x00 x00 x00)) E))
(T (W x45 x26 x22 x84 xe4 x9c xf2 xcb)
(T (W x1c x00 x00 x00 x46 x53 x59 x53)
(L (W x00 x00 x00 x00 x00 x00 x00 x00))
(L (W x55 x6c xfc xf1 x99 x9e xc9 x88)))
(T (W x00 x00 x00 x00 x00 x00 x00 x00)
(L (W x28 x00 x00 x00 x14 x00 x00 x00)) E)))
(T (W xce x83 x8b xd1 x86 x46 x7b x19)
(T (W x00 x00 xa0 x40 x24 x01 x00 x00)
(T (W x45 x26 x22 x84 xe4 x9c xf2 xcb)
(L (W x00 x00 x80 xbf x9c x00 x00 x00))
(L (W x45 x26 x22 x84 xe4 x9c xf2 xcb)))
(T (W x04 x00 x00 x00 x9a x4c xfe xff)
(L (W x00 x00 x00 x00 x22 x4f xff xff)) E))
(T (W x5c x87 xfd xff x00 x00 x00 x00)
(T (W x5c x07 xfe xff x00 x00 x00 x00)
(L (W x42 xa1 xbb xc1 xde xc6 x78 x1e)) E)
(T (W xcd xae xa6 x28 x15 x0c xc3 x26)
(L (W x34 x00 x00 x00 x20 x00 x00 x00)) E)))))
(T (W x00 x00 x80 xbf x00 x00 x80 xbf)
(T (W x2c x00 x00 x00 x20 x00 x00 x00)
(T (W x45 x26 x22 x84 xe4 x9c xf2 xcb)
(T (W x00 x00 x00 x00 x60 x1f xfd xff)
(T (W x45 x26 x22 x84 xe4 x9c xf2 xcb)
(L (W x54 x00 x00 x00 x48 x00 x00 x00))
(L (W x00 x00 x00 x00 x60 x9f xff xff)))
(T (W x01 x00 x00 x00 x04 x00 x00 x00)
(L (W x45 x26 x22 x84 xe4 x9c xf2 xcb)) E))
(T (W x00 x00 x00 x00 x00 x00 x00 x00)
(T (W x00 x00 x00 x00 x00 x00 x00 x00)
(L (W x00 x00 x00 x00 x01 x00 x00 x00))
(L (W x45 x26 x22 x84 xe4 x9c xf2 xcb)))
(T (W xed x46 x6d x50 x0f xb8 xe1 x24)
(L (W x45 x26 x22 x84 xe4 x9c xf2 xcb)) E)))
(T (W x5f x4d x41 x53 x53 x5f x47 x41)
(T (W x00 x00 x00 x00 x00 x00 x00 x00)
(T (W x01 x00 x00 x00 x01 x00 x00 x00)
(L (W x00 x00 x00 x00 x00 x00 x00 x00))
(L (W x00 x00 x80 xbf x00 x00 x80 xbf)))
(T (W xda x3e xfe xff xec x41 x5e x44)
(L (W x00 x00 x00 x00 x00 x00 x00 x00)) E))
(T (W x45 x26 x22 x84 xe4 x9c xf2 xcb)
(T (W x27 x88 xf1 x13 x15 xe2 xd6 x02)
(L (W x55 x39 x81 x6a xc4 xc7 x74 x14))
(L (W x45 x26 x22 x84 xe4 x9c xf2 xcb)))
(T (W x00 x00 x00 x00 x00 x00 x00 x00)
(L (W x5c x7f xff xff xde x7e xff xff)) E))))
(T (W x4f x84 x6f x8b xe8 xcb x63 xb7)
(T (W x00 x00 x00 x00 x00 x00 x00 x00)
(T (W x3c x01 x00 x00 x30 x01 x00 x00)
(T (W x45 x26 x22 x84 xe4 x9c xf2 xcb)
(L (W x00 x00 x00 x00 x00 x00 x00 x00))
(L (W x45 x26 x22 x84 xe4 x9c xf2 xcb)))
(T (W x00 x00 x00 x00 x01 x00 x00 x00)
(L (W x1c x01 x00 x00 x01 x00 x00 x00)) E))
(T (W x45 x26 x22 x84 xe4 x9c xf2 xcb)
(T (W x45 x26 x22 x84 xe4 x9c xf2 xcb)
(L (W x00 x00 x00 x00 x00 x00 x00 x00))
(L (W x00 x00 x80 xbf x9c x00 x00 x00)))
(T (W x01 x00 x00 x00 x00 x00 x80 x3f)
(L (W x00 x00 x80 xbf x00 x00 x80 xbf)) E)))
(T (W x45 x26 x22 x84 xe4 x9c xf2 xcb)
(T (W x01 x00 x00 x00 x04 x00 x00 x00)
(T (W x45 x26 x22 x84 xe4 x9c xf2 xcb)
(L (W x45 x26 x22 x84 xe4 x9c xf2 xcb))
(L (W x55 x6c xfc xf1 x99 x9e xc9 x88)))
(T (W x01 x00 x00 x00 x04 x00 x00 x00)
(L (W x44 x00 x00 x00 x38 x00 x00 x00)) E))
(T (W xae xc7 xbc x43 x52 xb8 x21 x42)
(T (W x78 x00 x00 x00 x6c x00 x00 x00)
(L (W xa8 xe9 x39 xdc x00 x60 x48 x2f)) E)
(T (W x45 x26 x22 x84 xe4 x9c xf2 xcb)
(L (W x00 x00 x00 x00 x00 x00 x00 x00)) E))))))))
(T (W xe4 xda x01 x00 x18 xd9 x01 x00)
(T (W xe4 xed x00 x00 xf8 xeb x00 x00)
(T (W x04 x00 x00 x00 x00 x00 x80 x3f)
(T (W x40 x00 x00 x00 x38 x00 x00 x00)
(T (W x00 x00 x00 x00 x01 x00 x00 x00)
(T (W x45 x26 x22 x84 xe4 x9c xf2 xcb)
(T (W x01 x00 x00 x00 x37 x00 x00 x00)
(T (W x2c x00 x00 x00 x20 x00 x00 x00)
(L (W x04 x00 x00 x00 x9a x97 xfe xff))
(L (W x04 x00 x00 x00 x9a x97 xff xff)))
(T (W x45 x26 x22 x84 xe4 x9c xf2 xcb)
(L (W x5a x04 x4f xcd x04 x36 x35 xe2)) E))
(T (W x53 x5f x47 x41 x4e x45 x52 x41)
(T (W x44 x00 x00 x00 x38 x00 x00 x00)
(L (W x45 x26 x22 x84 xe4 x9c xf2 xcb))
(L (W x01 x00 x00 x00 x04 x00 x00 x00)))
(T (W x01 x00 x00 x00 x00 x00 x80 x3f)
(L (W x45 x26 x22 x84 xe4 x9c xf2 xcb)) E)))
(T (W x98 x4e xb7 x4b xbc xb2 xfd xea)
(T (W x5c x32 xfd xff x00 x00 x00 x00)
(T (W x00 x00 x00 x00 x00 x00 x00 x00)
(L (W x00 x00 x00 x00 x00 x00 x00 x00))
(L (W x00 x00 x00 x00 x00 x00 x00 x00)))
(T (W x55 x39 x81 x6a xc4 xc7 x74 x14)
(L (W x00 x00 x00 x00 x60 x32 xff xff)) E))
(T (W x00 x00 x80 xbf x9c x00 x00 x00)
(T (W x00 x00 xa0 x40 x24 x01 x00 x00)
(L (W x00 x00 x00 x00 x00 x00 x00 x00))
(L (W x28 x00 x00 x00 x14 x00 x00 x00)))
(T (W x5c x00 x00 x00 x50 x00 x00 x00)
(L (W x60 x00 x00 x00 x54 x00 x00 x00)) E))))
(T (W x1c x01 x00 x00 x04 x00 x00 x00)
(T (W x2c x00 x00 x00 x18 x00 x00 x00)
(T (W x00 x00 x80 xbf x00 x00 x80 xbf)
(T (W xdc xa2 x71 x1e x15 x24 xf9 x14)
(L (W x00 x00 x00 x00 x00 x00 x00 x00))
(L (W x3c x01 x00 x00 x30 x01 x00 x00)))
(T (W x00 x00 x00 x00 x22 x2a xfe xff)
(L (W x00 x00 x00 x00 x00 x00 x00 x00)) E))
(T (W x45 x26 x22 x84 xe4 x9c xf2 xcb)
(T (W x54 x00 x00 x00 x48 x00 x00 x00)
(L (W xe1 x1a x8f x43 x00 x00 x00 x00))
(L (W x00 x00 x80 xbf x00 x00 x80 xbf)))
(T (W x44 x00 x00 x00 x30 x00 x00 x00)
(L (W x0a x66 xff xff x40 x01 x00 x00)) E)))
(T (W x45 x26 x22 x84 xe4 x9c xf2 xcb)
(T (W x45 x26 x22 x84 xe4 x9c xf2 xcb)
(T (W x00 x00 x00 x00 x60 xc2 xfd xff)
(L (W x45 x26 x22 x84 xe4 x9c xf2 xcb))
(L (W x04 x00 x00 x00 x80 xc4 xff xff)))
(T (W x2c x00 x00 x00 x20 x00 x00 x00)
(L (W x45 x26 x22 x84 xe4 x9c xf2 xcb)) E))
(T (W x3c x01 x00 x00 x30 x01 x00 x00)
(T (W x55 x6c xfc xf1 x99 x9e xc9 x88)
(L (W x45 x26 x22 x84 xe4 x9c xf2 xcb)) E)
(T (W x00 x00 x00 x00 x00 x00 x00 x00)
(L (W x2c x00 x00 x00 x20 x00 x00 x00)) E)))))
(T (W x44 x00 x00 x00 x38 x00 x00 x00)
(T (W x33 xf3 x66 x44 x00 x00 x00 x00)
(T (W x00 x00 x00 x00 x00 x00 x00 x00)
(T (W x34 x00 x00 x00 x20 x00 x00 x00)
(T (W x55 x39 x81 x6a xc4 xc7 x74 x14)
(L (W x01 x00 x00 x00 x04 x00 x00 x00))
(L (W x00 x00 x00 x00 x60 x9a xff xff)))
(T (W x04 x00 x00 x00 x80 x1c xfe xff)
(L (W x00 x00 x00 x00 x00 x00 x00 x00)) E))
(T (W x00 x00 x00 x00 x01 x00 x00 x00)
(T (W x00 x00 x00 x00 x00 x00 x00 x00)
(L (W x44 x00 x00 x00 x38 x00 x00 x00))
(L (W x5c xda xff xff xde xd9 xff xff)))
(T (W x44 x00 x00 x00 x38 x00 x00 x00)
(L (W x00 x00 x00 x00 x00 x00 x00 x00)) E)))
(T (W x45 x26 x22 x84 xe4 x9c xf2 xcb)
(T (W x00 x00 x00 x00 x00 x00 x00 x00)
(T (W x45 x26 x22 x84 xe4 x9c xf2 xcb)
(L (W x00 x00 x00 x00 xde xb9 xfe xff))
(L (W x45 x26 x22 x84 xe4 x9c xf2 xcb)))
(T (W x0a xbc x9b x68 x0d x75 x89 xa2)
(L (W x00 x00 x00 x00 x00 x00 x00 x00)) E))
(T (W x41 x2f xc8 xc9 x03 x8c xa0 xbc)
(T (W x45 x26 x22 x84 xe4 x9c xf2 xcb)
(L (W x00 x00 x00 x00 x22 x02 xff xff))
(L (W x54 x01 x00 x00 x48 x01 x00 x00)))
(T (W xc5 x9b xda x8c x35 x91 x45 x8d)
(L (W x4f x66 x39 x08 x1e xc8 x43 xb9)) E))))
(T (W x54 x00 x00 x00 x48 x00 x00 x00)
(T (W x1b x00 x00 x00 x57 x53 x59 x53)
(T (W x45 x26 x22 x84 xe4 x9c xf2 xcb)
(T (W x44 x00 x00 x00 x38 x00 x00 x00)
(L (W x04 x00 x00 x00 x9a xaf xfe xff))
(L (W x2c x00 x00 x00 x20 x00 x00 x00)))
(T (W x44 x00 x00 x00 x38 x00 x00 x00)
(L (W x45 x26 x22 x84 xe4 x9c xf2 xcb)) E))
(T (W x00 x00 x00 x00 x00 x00 x00 x00)
(T (W x45 x26 x22 x84 xe4 x9c xf2 xcb)
(L (W x00 x00 x00 x00 x01 x00 x00 x00))
(L (W x45 x26 x22 x84 xe4 x9c xf2 xcb)))
(T (W x54 x00 x00 x00 x48 x00 x00 x00)
(L (W x5c x6a xff xff x00 x00 x00 x00)) E)))
(T (W x48 x00 x00 x00 x34 x00 x00 x00)
(T (W x04 x00 x00 x00 x80 x4c xfd xff)
(T (W x00 x00 x00 x00 x22 xd2 xfd xff)
(L (W x28 x00 x00 x00 x14 x00 x00 x00))
(L (W x3c x01 x00 x00 x30 x01 x00 x00)))
(T (W x44 x00 x00 x00 x30 x00 x00 x00)
(L (W x5c x4a xff xff x00 x00 x00 x00)) E))
(T (W x00 x00 x00 x00 x01 x00 x00 x00)
(T (W x4b x5f x41 x52 x45 x41 x30 x32)
(L (W x44 x00 x00 x00 x30 x00 x00 x00)) E)
(T (W x45 x26 x22 x84 xe4 x9c xf2 xcb)
(L (W x45 x26 x22 x84 xe4 x9c xf2 xcb)) E))))))
(T (W x45 x26 x22 x84 xe4 x9c xf2 xcb)
(T (W x45 x26 x22 x84 xe4 x9c xf2 xcb)
(T (W x49 xa1 x68 x4a xeb x5f xdd x3d)
(T (W x04 xd9 xfc xff x50 x00 x00 x00)
(T (W x3c x01 x00 x00 x30 x01 x00 x00)
(T (W x5c x96 xfd xff x00 x00 x00 x00)
(L (W x45 x26 x22 x84 xe4 x9c xf2 xcb))
(L (W x5c x96 xff xff x00 x00 x00 x00)))
(T (W x45 x26 x22 x84 xe4 x9c xf2 xcb)
(L (W x00 x00 x00 x00 x60 x16 xff xff)) E))
(T (W x34 x01 x00 x00 x00 x00 xa0 x40)
(T (W x74 x00 x00 x00 x68 x00 x00 x00)
(L (W x40 x00 x00 x00 x38 x00 x00 x00))
(L (W x00 x00 x00 x00 x01 x00 x00 x00)))
(T (W x45 x26 x22 x84 xe4 x9c xf2 xcb)
(L (W x5c x56 xff xff x00 x00 x00 x00)) E)))
(T (W x04 x00 x00 x00 x9a xfb xfc xff)
(T (W x00 x00 x80 x3f x00 x00 x80 x3f)
(T (W x89 xf0 x76 x1e x15 xa9 xff x14)
(L (W x5c xb6 xfe xff x00 x00 x00 x00))
(L (W x00 x00 x80 xbf x00 x00 x80 xbf)))
(T (W x66 x46 x26 x44 x00 x00 x00 x00)
(L (W x00 x00 x00 x00 xde x35 xff xff)) E))
(T (W x40 x00 x00 x00 x38 x00 x00 x00)
(T (W x00 x00 x00 x00 x01 x00 x00 x00)
(L (W xda xf5 xfe xff x48 x41 x21 x44))
(L (W x00 x00 x00 x00 x00 x00 x00 x00)))
(T (W x00 x00 x00 x00 x00 x00 x00 x00)
(L (W x00 x00 x00 x00 x1c x00 x00 x00)) E))))
(T (W x00 xfb x9a x0e xe4 xc2 x9e x49)
(T (W xda xe5 xfc xff xec x11 xa4 x43)
(T (W x00 x00 x00 x00 x01 x00 x00 x00)
(T (W x04 x00 x00 x00 x9a xab xfd xff)
(L (W x1c x01 x00 x00 x01 x00 x00 x00))
(L (W x54 x00 x00 x00 x48 x00 x00 x00)))
(T (W x04 x00 x00 x00 x9a x2b xfe xff)
(L (W x45 x26 x22 x84 xe4 x9c xf2 xcb)) E))
(T (W x74 x00 x00 x00 x68 x00 x00 x00)
(T (W x00 x00 x00 x00 x60 xe6 xfd xff)
(L (W x00 x00 x80 xbf x00 x00 x80 xbf))
(L (W x54 x00 x00 x00 x48 x00 x00 x00)))
(T (W x3c x01 x00 x00 x30 x01 x00 x00)
(L (W x00 x00 x00 x00 x01 x00 x00 x00)) E)))
(T (W x00 x00 x00 x00 x60 x06 xfd xff)
(T (W x45 x26 x22 x84 xe4 x9c xf2 xcb)
(T (W x55 x6c xfc xf1 x99 x9e xc9 x88)
(L (W x45 x26 x22 x84 xe4 x9c xf2 xcb))
(L (W xda xc5 xff xff x00 x60 xb3 x43)))
(T (W x5c x46 xfe xff x00 x00 x00 x00)
(L (W x2c x00 x00 x00 x20 x00 x00 x00)) E))
(T (W x34 x00 x00 x00 x20 x00 x00 x00)
(T (W x00 x00 x00 x00 x00 x00 x00 x00)
(L (W x00 x00 x00 x00 x00 x00 x00 x00)) E)
(T (W x42 x52 x45 x41 x4b x5f x41 x52)
(L (W x00 x00 x00 x00 x00 x00 x00 x00)) E)))))
(T (W x00 x00 x00 x00 x00 x00 x00 x00)
(T (W x5f x4f x55 x54 x42 x52 x45 x41)
(T (W x5c xde xfc xff x00 x00 x00 x00)
(T (W x3c x00 x00 x00 x1c x00 x00 x00)
(T (W x00 x00 x00 x00 x00 x00 x00 x00)
(L (W x00 x00 x00 x00 x01 x00 x00 x00))
(L (W xae x47 x28 x42 x29 xfc x11 x44)))
(T (W xcd x6c x2e x44 x8f xc2 x3a x42)
(L (W x74 x00 x00 x00 x68 x00 x00 x00)) E))
(T (W x00 x00 x00 x00 x60 x5e xfd xff)
(T (W x3c x01 x00 x00 x30 x01 x00 x00)
(L (W x04 x00 x00 x00 x80 xe0 xfe xff))
(L (W x00 x00 x00 x00 x00 x00 x00 x00)))
(T (W x00 x00 x00 x00 x60 x5e xfe xff)
(L (W x44 x00 x00 x00 x30 x00 x00 x00)) E)))
(T (W x01 x00 x00 x00 x04 x00 x00 x00)
(T (W x01 x00 x00 x00 x00 x00 x80 x3f)
(T (W x45 x26 x22 x84 xe4 x9c xf2 xcb)
(L (W x1c x01 x00 x00 x01 x00 x00 x00))
(L (W x00 x00 x00 x00 x00 x00 x00 x00)))
(T (W x45 x26 x22 x84 xe4 x9c xf2 xcb)
(L (W x00 x00 x80 xbf x00 x00 x80 xbf)) E))
(T (W x44 x00 x00 x00 x30 x00 x00 x00)
(T (W x00 x00 x00 x00 x00 x00 x00 x00)
(L (W x04 x00 x00 x00 x9a x03 xff xff))
(L (W x00 x00 x00 x00 x00 x00 x00 x00)))
(T (W x00 x00 x00 x00 x60 x7e xfe xff)
(L (W x45 x26 x22 x84 xe4 x9c xf2 xcb)) E))))
(T (W x54 x00 x00 x00 x48 x00 x00 x00)
(T (W x00 x00 xe0 x40 x24 x01 x00 x00)
(T (W x04 x31 xfd xff x50 x00 x00 x00)
(T (W x74 x00 x00 x00 x68 x00 x00 x00)
(L (W x5c xae xfe xff x00 x00 x00 x00))
(L (W x60 x00 x00 x00 x54 x00 x00 x00)))
(T (W x00 x00 x00 x00 x00 x00 x00 x00)
(L (W x45 x26 x22 x84 xe4 x9c xf2 xcb)) E))
(T (W x00 x00 x00 x00 x22 x76 xfd xff)
(T (W x28 x00 x00 x00 x14 x00 x00 x00)
(L (W x00 x00 x00 x00 x60 xee xfe xff))
(L (W x45 x26 x22 x84 xe4 x9c xf2 xcb)))
(T (W x2c x00 x00 x00 x20 x00 x00 x00)
(L (W x00 x00 x00 x00 x00 x00 x00 x00)) E)))
(T (W x00 x00 x80 x3f x60 x0e xfd xff)
(T (W x00 x00 x00 x00 x00 x00 x00 x00)
(T (W x04 x00 x00 x00 x9a xd3 xfd xff)
(L (W x00 x00 x00 x00 x00 x00 x00 x00))
(L (W x54 x00 x00 x00 x48 x00 x00 x00)))
(T (W xe1 x3a x3d x44 x85 xeb x86 x42)
(L (W x00 x00 x00 x00 x00 x00 x00 x00)) E))
(T (W x45 x26 x22 x84 xe4 x9c xf2 xcb)
(T (W x45 x26 x22 x84 xe4 x9c xf2 xcb)
(L (W x00 x00 x00 x00 x00 x00 x00 x00)) E)
(T (W x00 x00 x00 x00 x22 x96 xfe xff)
(L (W x1c x01 x00 x00 x01 x00 x00 x00)) E)))))))
(T (W x3c x01 x00 x00 x30 x01 x00 x00)
(T (W x34 x00 x00 x00 x20 x00 x00 x00)
(T (W x45 x26 x22 x84 xe4 x9c xf2 xcb)
(T (W x5c x00 x00 x00 x50 x00 x00 x00)
(T (W x5c xd4 xfc xff x00 x00 x00 x00)
(T (W x4e x45 x52 x41 x54 x49 x4f x4e)
(T (W x45 x26 x22 x84 xe4 x9c xf2 xcb)
(L (W x45 x26 x22 x84 xe4 x9c xf2 xcb))
(L (W x45 x26 x22 x84 xe4 x9c xf2 xcb)))
(T (W x2c x00 x00 x00 x20 x00 x00 x00)
(L (W x40 x00 x00 x00 x38 x00 x00 x00)) E))
(T (W x4e x45 x52 x41 x54 x49 x4f x4e)
(T (W x00 x00 x00 x00 x00 x00 x00 x00)
(L (W x00 x00 x00 x00 x01 x00 x00 x00))
(L (W x00 x00 x00 x00 x00 x00 x00 x00)))
(T (W x00 x00 x00 x00 x01 x00 x00 x00)
(L (W x45 x26 x22 x84 xe4 x9c xf2 xcb)) E)))
(T (W x00 x00 x00 x00 x01 x00 x00 x00)
(T (W x55 x39 x81 x6a xc4 xc7 x74 x14)
(T (W x00 x00 x80 xbf x00 x00 x80 xbf)
(L (W x00 x00 x00 x00 x60 xb4 xfe xff))
(L (W x00 x00 x80 xbf x00 x00 x80 xbf)))
(T (W x00 x00 x80 x3f x00 x00 x80 x3f)
(L (W x2c x00 x00 x00 x18 x00 x00 x00)) E))
(T (W xc6 xd9 xee xed x9d xe4 x78 x0e)
(T (W x64 xc1 xf3 x13 x15 xe4 xd9 x02)
(L (W x44 x00 x00 x00 x30 x00 x00 x00))
(L (W x00 x00 x00 x00 xde xf3 xff xff)))
(T (W x00 x00 x80 x3f x60 x74 xfe xff)
(L (W x00 x00 x80 x3f x00 x00 x80 x3f)) E))))
(T (W x00 x00 x80 xbf x9c x00 x00 x00)
(T (W x00 x00 x00 x00 xde xe3 xfc xff)
(T (W x00 x00 x00 x00 x01 x00 x00 x00)
(T (W x00 x00 x00 x00 x01 x00 x00 x00)
(L (W x00 x00 x00 x00 x22 xac xfe xff))
(L (W x9c x24 x0c x0c x1e xf9 xa6 xc0)))
(T (W x34 x00 x00 x00 x20 x00 x00 x00)
(L (W x1c x01 x00 x00 x01 x00 x00 x00)) E))
(T (W x00 x00 x00 x00 x00 x00 x00 x00)
(T (W x45 x26 x22 x84 xe4 x9c xf2 xcb)
(L (W x00 x00 x40 x40 x24 x01 x00 x00))
(L (W x2d x6d x3b xe5 xc2 x9d x06 xc1)))
(T (W xa4 xa0 x4c x44 x48 xe1 x86 x42)
(L (W x00 x00 x80 xbf x9c x00 x00 x00)) E)))
(T (W x00 x00 x00 x00 x00 x00 x00 x00)
(T (W x00 x00 x00 x00 x60 x44 xfd xff)
(T (W x04 x00 x00 x00 x48 xc4 xfd xff)
(L (W x5c xc4 xfe xff x00 x00 x00 x00))
(L (W x00 x00 x00 x00 xde xc3 xff xff)))
(T (W x45 x26 x22 x84 xe4 x9c xf2 xcb)
(L (W x45 x26 x22 x84 xe4 x9c xf2 xcb)) E))
(T (W x01 x00 x00 x00 x00 x00 x80 x3f)
(T (W x00 x00 x80 x3f x60 x04 xfe xff)
(L (W x04 x07 xff xff x50 x00 x00 x00)) E)
(T (W x00 x00 x00 x00 x00 x00 x00 x00)
(L (W x00 x00 x00 x00 x00 x00 x00 x00)) E)))))
(T (W x45 x26 x22 x84 xe4 x9c xf2 xcb)
(T (W x00 x00 x00 x00 x00 x00 x00 x00)
(T (W x00 x00 x00 x00 x00 x00 x00 x00)
(T (W x04 x00 x00 x00 x00 x00 x80 x3f)
(T (W x00 x00 x80 x3f x00 x00 x80 x3f)
(L (W x00 x00 x00 x00 x00 x00 x00 x00))
(L (W x28 x00 x00 x00 x14 x00 x00 x00)))
(T (W x00 x00 x00 x00 xde x1b xfe xff)
(L (W x00 x00 x00 x00 x60 x1c xff xff)) E))
(T (W x45 x26 x22 x84 xe4 x9c xf2 xcb)
(T (W x42 x52 x45 x41 x4b x5f x41 x52)
(L (W x00 x00 x00 x00 x00 x00 x00 x00))
(L (W x00 x00 x00 x00 x00 x00 x32 x00)))
(T (W x00 x00 x00 x00 x00 x00 x00 x00)
(L (W x04 x00 x00 x00 x48 x5c xff xff)) E)))
(T (W x00 x00 x00 x00 x60 xfc xfc xff)
(T (W x5f x4e x45 x57 x5f x4f x55 x54)
(T (W x2c x00 x00 x00 x20 x00 x00 x00)
(L (W x00 x00 x00 x00 x00 x00 x00 x00))
(L (W x01 x00 x00 x00 x04 x00 x00 x00)))
(T (W x40 x00 x00 x00 x38 x00 x00 x00)
(L (W x3c x01 x00 x00 x30 x01 x00 x00)) E))
(T (W x00 x00 x00 x00 x00 x00 x00 x00)
(T (W x01 x00 x00 x00 x04 x00 x00 x00)
(L (W x34 x00 x00 x00 x20 x00 x00 x00))
(L (W x08 x00 x0c x00 x10 x00 x14 x00)))
(T (W x40 x00 x00 x00 x38 x00 x00 x00)
(L (W x54 x00 x00 x00 x48 x00 x00 x00)) E))))
(T (W x04 x00 x00 x00 x00 x00 x00 x00)
(T (W x5f x41 x52 x45 x41 x30 x32 x00)
(T (W x45 x26 x22 x84 xe4 x9c xf2 xcb)
(T (W x00 x00 x00 x00 x00 x00 x00 x00)
(L (W x45 x26 x22 x84 xe4 x9c xf2 xcb))
(L (W x00 x00 x00 x00 x00 x00 x00 x00)))
(T (W x00 x00 x00 x00 x00 x00 x00 x00)
(L (W x44 x00 x00 x00 x38 x00 x00 x00)) E))
(T (W x5f x4e x45 x57 x5f x4f x55 x54)
(T (W x00 x00 x00 x00 x60 xec xfd xff)
(L (W x45 x26 x22 x84 xe4 x9c xf2 xcb))
(L (W x5c xec xff xff x00 x00 x00 x00)))
(T (W x45 x26 x22 x84 xe4 x9c xf2 xcb)
(L (W x04 x6f xff xff x50 x00 x00 x00)) E)))
(T (W x4f x84 x6f x8b xe8 xcb x63 xb7)
(T (W xda x4b xfd xff x00 x00 x80 x3f)
(T (W x34 x00 x00 x00 x20 x00 x00 x00)
(L (W x00 x00 x80 x3f x00 x00 x80 x3f))
(L (W xe0 xa4 x97 x16 x1e xbc xd6 xd2)))
(T (W x00 x00 x00 x00 xde x4b xfe xff)
(L (W x45 x26 x22 x84 xe4 x9c xf2 xcb)) E))
(T (W x40 x00 x00 x00 x38 x00 x00 x00)
(T (W x01 x00 x00 x00 x00 x00 x80 x3f)
(L (W x33 xd3 x06 x44 x3d x0a x70 x42)) E)
(T (W x00 x00 x00 x00 x00 x00 x00 x00)
(L (W x00 x00 x00 x00 x00 x00 x00 x00)) E))))))
(T (W x00 x00 x00 x00 x01 x00 x00 x00)
(T (W x00 x00 x00 x00 x60 xa8 xfc xff)
(T (W x00 x00 x80 x3f x00 x00 x80 x3f)
(T (W xf6 x5e x2e x97 x85 x1b x59 x5f)
(T (W x04 x00 x00 x00 x00 x00 x80 x3f)
(T (W x60 x00 x00 x00 x54 x00 x00 x00)
(L (W x00 x00 x00 x00 x60 x98 xfe xff))
(L (W x45 x26 x22 x84 xe4 x9c xf2 xcb)))
(T (W x00 x00 x00 x00 x00 x00 x00 x00)
(L (W xa8 xe9 x39 xdc x00 x60 x48 x2f)) E))
(T (W x01 x00 x00 x00 x00 x00 x80 x3f)
(T (W x00 x00 x80 x3f x00 x00 x80 x3f)
(L (W x45 x26 x22 x84 xe4 x9c xf2 xcb))
(L (W x5c x00 x00 x00 x50 x00 x00 x00)))
(T (W x00 x00 x00 x00 x60 x58 xfe xff)
(L (W x45 x26 x22 x84 xe4 x9c xf2 xcb)) E)))
(T (W x45 x26 x22 x84 xe4 x9c xf2 xcb)
(T (W xec xe1 x2d x44 x00 x00 x00 x00)
(T (W x54 x00 x00 x00 x48 x00 x00 x00)
(L (W x78 x00 x00 x00 x6c x00 x00 x00))
(L (W x04 x00 x00 x00 x00 x00 x00 x00)))
(T (W x00 x00 x80 x40 x24 x01 x00 x00)
(L (W x9a x59 x0e x44 xcd xcc x26 x42)) E))
(T (W x00 x00 x00 x00 x60 x78 xfd xff)
(T (W x04 x00 x00 x00 x9a xfd xfd xff)
(L (W x00 x00 x00 x00 x00 x00 x00 x00))
(L (W x4c x00 x20 x00 x00 x00 x00 x00)))
(T (W x00 x00 xa0 x40 x24 x01 x00 x00)
(L (W x00 x00 x80 x40 x24 x01 x00 x00)) E))))
(T (W x04 x00 x00 x00 x00 x00 x00 x00)
(T (W x00 x00 x00 x00 x00 x00 x00 x00)
(T (W x45 x26 x22 x84 xe4 x9c xf2 xcb)
(T (W x45 x26 x22 x84 xe4 x9c xf2 xcb)
(L (W x34 x00 x00 x00 x20 x00 x00 x00))
(L (W x45 x26 x22 x84 xe4 x9c xf2 xcb)))
(T (W x45 x26 x22 x84 xe4 x9c xf2 xcb)
(L (W x04 x00 x00 x00 x9a x2d xff xff)) E))
(T (W x00 x00 x80 x3f x00 x00 x80 x3f)
(T (W x44 x00 x00 x00 x38 x00 x00 x00)
(L (W xd8 x89 x83 xf3 x1d x33 x57 x95))
(L (W x45 x26 x22 x84 xe4 x9c xf2 xcb)))
(T (W xc8 x87 xba x31 x15 xd6 x38 x37)
(L (W x45 x26 x22 x84 xe4 x9c xf2 xcb)) E)))
(T (W x04 x00 x00 x00 x48 x08 xfd xff)
(T (W x00 x00 x00 x00 x00 x00 x00 x00)
(T (W x5c xc8 xfd xff xde xc7 xfd xff)
(L (W x00 x00 x00 x00 x60 xc8 xfe xff))
(L (W x00 x00 x00 x00 x00 x00 x00 x00)))
(T (W x5c x00 x00 x00 x50 x00 x00 x00)
(L (W x45 x26 x22 x84 xe4 x9c xf2 xcb)) E))
(T (W x45 x26 x22 x84 xe4 x9c xf2 xcb)
(T (W x00 x00 x00 x00 x00 x00 x00 x00)
(L (W x04 x00 x00 x00 x80 x0a xff xff)) E)
(T (W x00 x00 x00 x00 x01 x00 x00 x00)
(L (W x5c x88 xff xff x00 x00 x00 x00)) E)))))
(T (W x00 x00 x00 x00 x00 x00 x00 x00)
(T (W x52 xa4 xff xff x00 x00 x00 x01)
(T (W x78 x00 x00 x00 x6c x00 x00 x00)
(T (W x00 x00 x80 xbf xa4 x00 x00 x00)
(T (W x00 x00 x80 xbf x00 x00 x80 xbf)
(L (W x45 x26 x22 x84 xe4 x9c xf2 xcb))
(L (W x00 x00 x00 x00 x00 x00 x00 x00)))
(T (W x5f x4e x45 x57 x5f x4f x55 x54)
(L (W x00 x00 x80 x3f x00 x00 x80 x3f)) E))
(T (W x01 x00 x00 x00 x04 x00 x00 x00)
(T (W xf0 x96 x32 x19 x15 x74 xe9 x0b)
(L (W x28 x00 x00 x00 x14 x00 x00 x00))
(L (W x00 x00 xa0 x40 x24 x01 x00 x00)))
(T (W x04 x00 x00 x00 x48 x60 xfe xff)
(L (W xcd xac x16 x44 x33 x33 x25 x42)) E)))
(T (W x2c x00 x00 x00 x20 x00 x00 x00)
(T (W x00 x00 x00 x00 x01 x00 x00 x00)
(T (W x00 x00 x00 x00 x00 x00 x00 x00)
(L (W x45 x26 x22 x84 xe4 x9c xf2 xcb))
(L (W x00 x00 x00 x00 x00 x00 x00 x00)))
(T (W x45 x26 x22 x84 xe4 x9c xf2 xcb)
(L (W x04 x00 x00 x00 x00 x00 x00 x00)) E))
(T (W x66 xe6 xc6 x43 x33 x33 x07 x42)
(T (W x00 x00 x00 x00 x01 x00 x00 x00)
(L (W x45 x26 x22 x84 xe4 x9c xf2 xcb))
(L (W x45 x26 x22 x84 xe4 x9c xf2 xcb)))
(T (W x01 x00 x00 x00 x04 x00 x00 x00)
(L (W x00 x00 x00 x00 x60 x80 xff xff)) E))))
(T (W x45 x26 x22 x84 xe4 x9c xf2 xcb)
(T (W x00 x00 x80 xbf x00 x00 x80 xbf)
(T (W x00 x00 x00 x00 x00 x00 x00 x00)
(T (W x00 x00 x80 x3f x00 x00 x80 x3f)
(L (W x62 x6a xff x4b x84 x9b x7b x61))
(L (W x00 x00 x80 x3f x00 x00 x80 x3f)))
(T (W x60 x00 x00 x00 x54 x00 x00 x00)
(L (W x00 x00 x00 x00 x00 x00 x00 x00)) E))
(T (W x1c x01 x00 x00 x01 x00 x00 x00)
(T (W x33 x93 x38 x44 x00 x00 x00 x00)
(L (W x45 x26 x22 x84 xe4 x9c xf2 xcb))
(L (W x00 x00 x00 x00 x60 xf0 xff xff)))
(T (W x00 x00 x00 x00 x00 x00 x00 x00)
(L (W x00 x00 x00 x00 x00 x00 x00 x00)) E)))
(T (W x00 x00 x00 x00 x00 x00 x00 x00)
(T (W x5f x4e x45 x57 x5f x4f x55 x54)
(T (W x45 x26 x22 x84 xe4 x9c xf2 xcb)
(L (W x00 x00 x80 xbf x9c x00 x00 x00))
(L (W x45 x26 x22 x84 xe4 x9c xf2 xcb)))
(T (W x3c x01 x00 x00 x30 x01 x00 x00)
(L (W x1c x01 x00 x00 x01 x00 x00 x00)) E))
(T (W x01 x00 x00 x00 x04 x00 x00 x00)
(T (W x40 x00 x00 x00 x38 x00 x00 x00)
(L (W x00 x00 x80 xbf x00 x00 x80 xbf)) E)
(T (W x34 x00 x00 x00 x20 x00 x00 x00)
(L (W x45 x26 x22 x84 xe4 x9c xf2 xcb)) E))))))))))
(T (W x08 x1f x03 x00 x34 x1d x03 x00)
(T (W x68 xe4 x02 x00 x80 xe2 x02 x00)
(T (W xa4 x6e x02 x00 xb8 x6c x02 x00)
(T (W x28 x82 x01 x00 x3c x80 x01 x00)
(T (W x00 x00 x00 x00 x20 x99 xfc xff)
(T (W x00 x00 x00 x00 x00 x00 x00 x00)
(T (W x12 x95 xff xff x00 x00 x00 x01)
(T (W x78 x00 x00 x00 x6c x00 x00 x00)
(T (W x40 x00 x00 x00 x38 x00 x00 x00)
(T (W x00 x00 x80 x3f x20 x91 xfd xff)
(L (W x45 x26 x22 x84 xe4 x9c xf2 xcb))
(L (W x00 x00 x00 x00 x00 x00 x00 x00)))
(T (W x00 x00 x00 x00 x01 x00 x00 x00)
(L (W x2c x00 x00 x00 x20 x00 x00 x00)) E))
(T (W x45 x26 x22 x84 xe4 x9c xf2 xcb)
(T (W x28 x00 x00 x00 x14 x00 x00 x00)
(L (W xb9 x86 xa7 x28 xbf x4a x53 x6a))
(L (W x5c x00 x00 x00 x50 x00 x00 x00)))
(T (W x00 x00 x00 x00 x20 x51 xfe xff)
(L (W xc4 x53 xff xff x50 x00 x00 x00)) E)))
(T (W x2c x00 x00 x00 x20 x00 x00 x00)
(T (W x00 x00 x00 x00 x00 x00 x00 x00)
(T (W x40 x00 x00 x00 x38 x00 x00 x00)
(L (W x00 x00 x00 x00 x00 x00 x00 x00))
(L (W x54 x00 x00 x00 x48 x00 x00 x00)))
(T (W x00 x00 x80 xbf x9c x00 x00 x00)
(L (W x42 x52 x45 x41 x4b x5f x41 x52)) E))
(T (W xc4 x73 xfd xff x50 x00 x00 x00)
(T (W x45 x26 x22 x84 xe4 x9c xf2 xcb)
(L (W x00 x00 x00 x00 x00 x00 x00 x00))
(L (W x00 x00 x80 xbf x00 x00 x80 xbf)))
(T (W x1c x01 x00 x00 x01 x00 x00 x00)
(L (W x01 x00 x00 x00 x01 x00 x00 x00)) E))))
(T (W x1c xc1 xfc xff x00 x00 x00 x00)
(T (W x00 x00 x80 xbf x00 x00 x80 xbf)
(T (W x2c x00 x00 x00 x20 x00 x00 x00)
(T (W x2c x00 x00 x00 x20 x00 x00 x00)
(L (W x04 x00 x00 x00 x5a xa6 xfe xff))
(L (W x45 x26 x22 x84 xe4 x9c xf2 xcb)))
(T (W x45 x26 x22 x84 xe4 x9c xf2 xcb)
(L (W x00 x00 x00 x00 x01 x00 x00 x00)) E))
(T (W x00 x00 x80 x3f x20 x61 xfd xff)
(T (W x45 x26 x22 x84 xe4 x9c xf2 xcb)
(L (W x04 x00 x00 x00 x00 x00 x00 x00))
(L (W x01 x00 x00 x00 x04 x00 x00 x00)))
(T (W x01 x00 x00 x00 x00 x00 x80 x3f)
(L (W x45 x26 x22 x84 xe4 x9c xf2 xcb)) E)))
(T (W x00 x00 x00 x00 x00 x00 x00 x00)
(T (W x00 x00 x00 x00 x00 x00 x00 x00)
(T (W x4b x5f x41 x52 x45 x41 x30 x32)
(L (W x00 x00 x00 x00 x00 x00 x00 x00))
(L (W x3c x01 x00 x00 x30 x01 x00 x00)))
(T (W x45 x26 x22 x84 xe4 x9c xf2 xcb)
(L (W x00 x00 x00 x00 x00 x00 x00 x00)) E))
(T (W x45 x26 x22 x84 xe4 x9c xf2 xcb)
(T (W x34 x00 x00 x00 x20 x00 x00 x00)
(L (W x04 x00 x00 x00 x08 x01 xff xff)) E)
(T (W x1c x81 xfe xff x9e x80 xfe xff)
(L (W x00 x00 x80 x3f x00 x00 x80 x3f)) E)))))
(T (W x00 x00 x80 x3f x00 x00 x80 x3f)
(T (W x04 x00 x00 x00 x00 x00 x00 x00)
(T (W x00 x00 x00 x00 x00 x00 x00 x00)
(T (W x44 x00 x00 x00 x38 x00 x00 x00)
(T (W x00 x00 x80 xbf x9c x00 x00 x00)
(L (W x55 x6c xfc xf1 x99 x9e xc9 x88))
(L (W x00 x00 x00 x00 x00 x00 x00 x00)))
(T (W x34 x01 x00 x00 x00 x00 x80 x40)
(L (W x00 x00 x00 x00 x00 x00 x00 x00)) E))
(T (W x44 x00 x00 x00 x38 x00 x00 x00)
(T (W x40 x00 x00 x00 x38 x00 x00 x00)
(L (W x45 x26 x22 x84 xe4 x9c xf2 xcb))
(L (W x45 x26 x22 x84 xe4 x9c xf2 xcb)))
(T (W x00 x00 x80 x3f x00 x00 x80 x3f)
(L (W x00 x00 x00 x00 x00 x00 x00 x00)) E)))
(T (W x04 x00 x00 x00 x08 xf9 xfc xff)
(T (W x54 x00 x00 x00 x48 x00 x00 x00)
(T (W x1c xb9 xfd xff x00 x00 x00 x00)
(L (W x80 x75 x86 xf3 x1d x9e x5a x95))
(L (W x00 x00 x00 x00 x00 x00 x00 x00)))
(T (W x01 x00 x00 x00 x04 x00 x00 x00)
(L (W x54 x00 x00 x00 x48 x00 x00 x00)) E))
(T (W x45 x26 x22 x84 xe4 x9c xf2 xcb)
(T (W x00 x00 x00 x00 x20 xf9 xfd xff)
(L (W x45 x26 x22 x84 xe4 x9c xf2 xcb))
(L (W x45 x26 x22 x84 xe4 x9c xf2 xcb)))
(T (W x01 x00 x00 x00 x04 x00 x00 x00)
(L (W x01 x00 x00 x00 x04 x00 x00 x00)) E))))
(T (W x00 x00 x00 x00 x00 x00 x00 x00)
(T (W x45 x26 x22 x84 xe4 x9c xf2 xcb)
(T (W x1c x29 xfd xff x00 x00 x00 x00)
(T (W x28 x00 x00 x00 x14 x00 x00 x00)
(L (W x45 x26 x22 x84 xe4 x9c xf2 xcb))
(L (W x45 x26 x22 x84 xe4 x9c xf2 xcb)))
(T (W x28 x00 x00 x00 x14 x00 x00 x00)
(L (W x00 x00 x00 x00 x20 x29 xff xff)) E))
(T (W x54 x00 x00 x00 x48 x00 x00 x00)
(T (W x00 x00 x0e x42 xe1 xea x4c x44)
(L (W x45 x26 x22 x84 xe4 x9c xf2 xcb))
(L (W x74 x00 x00 x00 x68 x00 x00 x00)))
(T (W x45 x26 x22 x84 xe4 x9c xf2 xcb)
(L (W x04 x00 x00 x00 x40 x6b xff xff)) E)))
(T (W x04 x00 x00 x00 x00 x00 x80 x3f)
(T (W x3c x01 x00 x00 x30 x01 x00 x00)
(T (W x45 x26 x22 x84 xe4 x9c xf2 xcb)
(L (W x00 x00 x80 xbf x00 x00 x80 xbf))
(L (W x45 x26 x22 x84 xe4 x9c xf2 xcb)))
(T (W x34 x00 x00 x00 x20 x00 x00 x00)
(L (W x00 x00 x00 x00 x00 x00 x00 x00)) E))
(T (W x00 x00 x00 x00 x00 x00 x00 x00)
(T (W x45 x26 x22 x84 xe4 x9c xf2 xcb)
(L (W x08 x00 x00 x00 x00 x00 x80 x3f)) E)
(T (W x34 x00 x00 x00 x20 x00 x00 x00)
(L (W x00 x00 x80 xbf x9c x00 x00 x00)) E))))))
(T (W x45 x26 x22 x84 xe4 x9c xf2 xcb)
(T (W x5c x00 x00 x00 x50 x00 x00 x00)
(T (W x00 x00 x80 xbf x9c x00 x00 x00)
(T (W x00 x00 x00 x00 x9e xd4 xfc xff)
(T (W x45 x26 x22 x84 xe4 x9c xf2 xcb)
(T (W x00 x00 x00 x00 x00 x00 x00 x00)
(L (W x04 x00 x00 x00 x08 x95 xfe xff))
(L (W x04 x00 x00 x00 x40 x97 xff xff)))
(T (W x00 x00 x00 x00 x00 x00 x00 x00)
(L (W x00 x00 x00 x00 x01 x00 x00 x00)) E))
(T (W x45 x26 x22 x84 xe4 x9c xf2 xcb)
(T (W x00 x00 xa0 x40 x24 x01 x00 x00)
(L (W x00 x00 x00 x00 x00 x00 x00 x00))
(L (W x00 x00 x00 x00 xe2 xdc xff xff)))
(T (W x00 x00 x00 x00 x00 x00 x00 x00)
(L (W x04 x00 x00 x00 x40 x57 xff xff)) E)))
(T (W x00 x00 x00 x00 x00 x00 x00 x00)
(T (W x35 x2f xc5 x95 xf0 xaa x8e x0d)
(T (W x2c x00 x00 x00 x20 x00 x00 x00)
(L (W x00 x00 x40 x40 x3c x01 x00 x00))
(L (W x2c x00 x00 x00 x20 x00 x00 x00)))
(T (W x04 x00 x00 x00 x00 x00 x00 x00)
(L (W x45 x6f x89 xe8 x48 xd8 x3e x2f)) E))
(T (W x00 x00 x00 x00 x00 x00 x00 x00)
(T (W x45 x26 x22 x84 xe4 x9c xf2 xcb)
(L (W x00 x00 x00 x00 x01 x00 x00 x00))
(L (W x04 x00 x00 x00 x5a xfa xff xff)))
(T (W x40 x00 x00 x00 x38 x00 x00 x00)
(L (W x40 x00 x00 x00 x38 x00 x00 x00)) E))))
(T (W x3f x7c x88 xaf x9a x1e x19 x7c)
(T (W x00 x00 x00 x00 x01 x00 x00 x00)
(T (W x00 x00 x00 x00 x00 x00 x00 x00)
(T (W x00 x00 x00 x00 x00 x00 x00 x00)
(L (W x1c xa5 xfe xff x00 x00 x00 x00))
(L (W x45 x26 x22 x84 xe4 x9c xf2 xcb)))
(T (W x45 x26 x22 x84 xe4 x9c xf2 xcb)
(L (W xc4 x27 xff xff x50 x00 x00 x00)) E))
(T (W x00 x00 x40 x40 x24 x01 x00 x00)
(T (W x74 x00 x00 x00 x68 x00 x00 x00)
(L (W x01 x00 x00 x00 x04 x00 x00 x00))
(L (W x45 x26 x22 x84 xe4 x9c xf2 xcb)))
(T (W x45 x26 x22 x84 xe4 x9c xf2 xcb)
(L (W x49 x65 xff x4b x84 x98 x7b x61)) E)))
(T (W x4e x45 x52 x41 x54 x49 x4f x4e)
(T (W x00 x00 x80 x3f x00 x00 x80 x3f)
(T (W x34 x00 x00 x00 x20 x00 x00 x00)
(L (W x9a xc4 xfe xff x00 x00 x80 x3f))
(L (W x00 x00 x00 x00 x01 x00 x00 x00)))
(T (W x00 x00 x00 x00 x00 x00 x00 x00)
(L (W x45 x26 x22 x84 xe4 x9c xf2 xcb)) E))
(T (W x44 x00 x00 x00 x38 x00 x00 x00)
(T (W x00 x00 x00 x00 x01 x00 x00 x00)
(L (W x00 x80 x02 x44 x9a x99 xad x42)) E)
(T (W x45 x41 x30 x32 x5f x30 x30 x36)
(L (W x1c x00 x00 x00 x46 x53 x59 x53)) E)))))
(T (W x00 x00 x00 x00 x00 x00 x00 x00)
(T (W x45 x26 x22 x84 xe4 x9c xf2 xcb)
(T (W x5f x41 x52 x45 x41 x30 x32 x00)
(T (W x44 x00 x00 x00 x38 x00 x00 x00)
(T (W x40 x00 x00 x00 x38 x00 x00 x00)
(L (W x00 x00 x00 x00 xe2 xa4 xfe xff))
(L (W x04 x00 x00 x00 x00 x00 x00 x00)))
(T (W x00 x00 x00 x00 x01 x00 x00 x00)
(L (W x00 x00 x00 x41 x24 x01 x00 x00)) E))
(T (W x74 x00 x00 x00 x68 x00 x00 x00)
(T (W x45 x26 x22 x84 xe4 x9c xf2 xcb)
(L (W x3c x01 x00 x00 x30 x01 x00 x00))
(L (W x45 x26 x22 x84 xe4 x9c xf2 xcb)))
(T (W x42 x52 x45 x41 x4b x5f x41 x52)
(L (W x01 x00 x00 x00 x00 x00 x80 x3f)) E)))
(T (W x4f x84 x6f x8b xe8 xcb x63 xb7)
(T (W x45 x26 x22 x84 xe4 x9c xf2 xcb)
(T (W x00 x00 x00 x00 x00 x00 x00 x00)
(L (W x45 x26 x22 x84 xe4 x9c xf2 xcb))
(L (W x1c xbd xff xff x9e xbc xff xff)))
(T (W x00 x00 x00 x00 x01 x00 x00 x00)
(L (W x00 x00 x00 x00 x20 x3d xff xff)) E))
(T (W x01 x00 x00 x00 x00 x00 x80 x3f)
(T (W x1c xfd xfd xff x9e xfc xfd xff)
(L (W x45 x26 x22 x84 xe4 x9c xf2 xcb))
(L (W x45 x26 x22 x84 xe4 x9c xf2 xcb)))
(T (W x00 x00 x00 x00 x01 x00 x00 x00)
(L (W x1c x7d xff xff x00 x00 x00 x00)) E))))
(T (W x00 x00 x00 x00 x00 x00 x00 x00)
(T (W x00 x00 x00 x00 x20 xed xfc xff)
(T (W x2c x00 x00 x00 x18 x00 x00 x00)
(T (W x00 x00 xe0 x40 x24 x01 x00 x00)
(L (W x2c x00 x00 x00 x18 x00 x00 x00))
(L (W x1c x01 x00 x00 x01 x00 x00 x00)))
(T (W x31 x37 x00 x00 x1b x00 x00 x00)
(L (W x00 x00 x26 x42 x33 xb3 x0d x44)) E))
(T (W x45 x26 x22 x84 xe4 x9c xf2 xcb)
(T (W x00 x00 x80 xbf x00 x00 x80 xbf)
(L (W x74 x00 x00 x00 x68 x00 x00 x00))
(L (W x9a xec xff xff x00 x00 x80 x3f)))
(T (W x45 x26 x22 x84 xe4 x9c xf2 xcb)
(L (W x33 x73 xff x43 x66 x66 x16 x42)) E)))
(T (W x45 x26 x22 x84 xe4 x9c xf2 xcb)
(T (W x54 x00 x00 x00 x48 x00 x00 x00)
(T (W x45 x26 x22 x84 xe4 x9c xf2 xcb)
(L (W x40 x00 x00 x00 x38 x00 x00 x00))
(L (W x45 x26 x22 x84 xe4 x9c xf2 xcb)))
(T (W x00 x00 x00 x00 x01 x00 x00 x00)
(L (W x00 x00 x00 x00 x01 x00 x00 x00)) E))
(T (W x00 x00 x00 x00 x01 x00 x00 x00)
(T (W x44 x00 x00 x00 x38 x00 x00 x00)
(L (W x54 x00 x00 x00 x48 x00 x00 x00)) E)
(T (W x45 x26 x22 x84 xe4 x9c xf2 xcb)
(L (W x45 x26 x22 x84 xe4 x9c xf2 xcb)) E)))))))
(T (W x98 x94 x00 x00 xa0 x92 x00 x00)
(T (W x44 x00 x00 x00 x38 x00 x00 x00)
(T (W x00 x00 x00 x00 x01 x00 x00 x00)
(T (W x1c x01 x00 x00 x04 x00 x00 x00)
(T (W x2c x00 x00 x00 x18 x00 x00 x00)
(T (W x45 x26 x22 x84 xe4 x9c xf2 xcb)
(T (W x00 x00 x00 x00 x00 x00 x00 x00)
(L (W x00 x00 x00 x00 x20 x93 xfe xff))
(L (W x00 x00 x00 x00 x20 x93 xff xff)))
(T (W x45 x26 x22 x84 xe4 x9c xf2 xcb)
(L (W x00 x00 x00 x00 x00 x00 x00 x00)) E))
(T (W x45 x26 x22 x84 xe4 x9c xf2 xcb)
(T (W x5c xef x41 x44 x00 x00 x00 x00)
(L (W x00 x00 x00 x00 x00 x00 x00 x00))
(L (W x1c xd3 xff xff x9e xd2 xff xff)))
(T (W x44 x00 x00 x00 x38 x00 x00 x00)
(L (W x00 x00 x00 x00 x00 x00 x00 x00)) E)))
(T (W x45 x26 x22 x84 xe4 x9c xf2 xcb)
(T (W x00 x00 x80 xbf x9c x00 x00 x00)
(T (W x00 x00 x00 x00 x20 xb3 xfd xff)
(L (W x54 x01 x00 x00 x48 x01 x00 x00))
(L (W x45 x26 x22 x84 xe4 x9c xf2 xcb)))
(T (W x9d x40 x63 x08 xee x3c x41 x95)
(L (W x00 x00 x80 xbf x00 x00 x80 xbf)) E))
(T (W xd3 x3a x45 xdc x00 xd5 x55 x2f)
(T (W x01 x00 x00 x00 x04 x00 x00 x00)
(L (W x01 x00 x00 x00 x00 x00 x80 x3f))
(L (W x55 x93 x9c xf0 xcb x50 x13 xa1)))
(T (W x45 x26 x22 x84 xe4 x9c xf2 xcb)
(L (W xce x25 xa8 x2a xcf x79 x25 x18)) E))))
(T (W xc4 xc5 xfc xff x50 x00 x00 x00)
(T (W x87 x6b xba x4b xbc x3a x01 xeb)
(T (W x2c x00 x00 x00 x20 x00 x00 x00)
(T (W x45 x26 x22 x84 xe4 x9c xf2 xcb)
(L (W x45 x26 x22 x84 xe4 x9c xf2 xcb))
(L (W x00 x00 x00 x00 x20 xa3 xff xff)))
(T (W x1c x23 xfe xff x00 x00 x00 x00)
(L (W x45 x26 x22 x84 xe4 x9c xf2 xcb)) E))
(T (W x00 x00 x00 x00 x00 x00 x00 x00)
(T (W x1c xe3 xfd xff x00 x00 x00 x00)
(L (W x45 x26 x22 x84 xe4 x9c xf2 xcb))
(L (W x2c x00 x00 x00 x20 x00 x00 x00)))
(T (W x00 x00 x00 x00 x01 x00 x00 x00)
(L (W x1c x63 xff xff x00 x00 x00 x00)) E)))
(T (W x02 x00 x00 x00 x31 x35 x00 x00)
(T (W x74 x00 x00 x00 x68 x00 x00 x00)
(T (W x3c x01 x00 x00 x30 x01 x00 x00)
(L (W x04 x00 x00 x00 x40 xc5 xfe xff))
(L (W xac xab x97 x16 x1e xc0 xd6 xd2)))
(T (W x00 x00 x00 x00 x00 x00 x00 x00)
(L (W x60 x00 x00 x00 x54 x00 x00 x00)) E))
(T (W x00 x00 x00 x00 x20 x83 xfd xff)
(T (W x45 x26 x22 x84 xe4 x9c xf2 xcb)
(L (W x44 x00 x00 x00 x30 x00 x00 x00)) E)
(T (W x1c x00 x00 x00 x46 x53 x59 x53)
(L (W x00 x00 x00 x00 x00 x00 x00 x00)) E)))))
(T (W xc3 xf5 x15 x44 x00 x00 x00 x00)
(T (W x54 x00 x00 x00 x48 x00 x00 x00)
(T (W x1b x00 x00 x00 x57 x53 x59 x53)
(T (W x45 x26 x22 x84 xe4 x9c xf2 xcb)
(T (W xb7 x68 x72 xed xeb xc7 x7a x76)
(L (W x1c x9b xfe xff x9e x9a xfe xff))
(L (W x00 x00 x80 xbf x00 x00 x80 xbf)))
(T (W xa1 xda x01 x37 x15 x7e x52 x40)
(L (W x53 x5f x47 x41 x4e x45 x52 x41)) E))
(T (W x00 x00 x00 x00 x00 x00 x00 x00)
(T (W x45 x26 x22 x84 xe4 x9c xf2 xcb)
(L (W x9a x99 xd5 x42 x85 x6b x41 x43))
(L (W x45 x26 x22 x84 xe4 x9c xf2 xcb)))
(T (W x66 x66 xa5 x43 x00 x00 x00 x00)
(L (W x3c x01 x00 x00 x30 x01 x00 x00)) E)))
(T (W x48 x00 x00 x00 x34 x00 x00 x00)
(T (W x45 x26 x22 x84 xe4 x9c xf2 xcb)
(T (W x45 x26 x22 x84 xe4 x9c xf2 xcb)
(L (W x04 x00 x00 x00 x5a xc0 xfe xff))
(L (W x5c x00 x00 x00 x50 x00 x00 x00)))
(T (W x00 x00 x00 x00 x00 x00 x00 x00)
(L (W x45 x26 x22 x84 xe4 x9c xf2 xcb)) E))
(T (W x00 x00 x00 x00 x00 x00 x00 x00)
(T (W x48 x00 x00 x00 x34 x00 x00 x00)
(L (W x1c xfb xfe xff x00 x00 x00 x00))
(L (W x45 x26 x22 x84 xe4 x9c xf2 xcb)))
(T (W x00 x00 x00 x00 x00 x00 x00 x00)
(L (W x45 x26 x22 x84 xe4 x9c xf2 xcb)) E))))
(T (W x1c xcb xfc xff x00 x00 x00 x00)
(T (W x45 x26 x22 x84 xe4 x9c xf2 xcb)
(T (W x04 x00 x00 x00 x08 x2b xfd xff)
(T (W xf6 xc8 x56 x44 x00 x00 x00 x00)
(L (W x00 x00 x00 x00 x20 xab xfe xff))
(L (W x00 x00 x00 x00 x00 x00 x00 x00)))
(T (W x66 xa6 x11 x44 x00 x00 x00 x00)
(L (W x28 x00 x00 x00 x14 x00 x00 x00)) E))
(T (W x45 x26 x22 x84 xe4 x9c xf2 xcb)
(T (W x00 x00 x00 x00 x00 x00 x00 x00)
(L (W x00 x00 x00 x00 x00 x00 x00 x00))
(L (W x2c x00 x00 x00 x18 x00 x00 x00)))
(T (W x1c x6b xfe xff x00 x00 x00 x00)
(L (W x9a x6a xff xff x00 x00 x80 x3f)) E)))
(T (W x34 x00 x00 x00 x20 x00 x00 x00)
(T (W xf8 x30 xef x05 x15 x64 xb0 xe9)
(T (W x1c xcb xfd xff x00 x00 x00 x00)
(L (W x60 xcf xe8 x4d xad x19 x1e x0f))
(L (W x00 x00 x00 x00 x20 xcb xff xff)))
(T (W xb2 xbd xfe x36 x15 xf6 x4e x40)
(L (W x00 x00 x80 xbf x9c x00 x00 x00)) E))
(T (W x00 x00 x00 x00 x00 x00 x00 x00)
(T (W x45 x26 x22 x84 xe4 x9c xf2 xcb)
(L (W x00 x00 x00 x00 x01 x00 x00 x00)) E)
(T (W x04 x00 x00 x00 x5a x90 xfe xff)
(L (W x00 x00 x00 x00 x01 x00 x00 x00)) E))))))
(T (W x00 x00 x00 x00 x00 x00 x00 x00)
(T (W x49 xa1 x68 x4a xeb x5f xdd x3d)
(T (W xb5 x80 x52 x2d xc3 x20 x80 x37)
(T (W x9a xd6 xfc xff x52 xf8 xa3 x43)
(T (W x00 x00 x00 x00 x20 x17 xfd xff)
(T (W x1c x01 x00 x00 x01 x00 x00 x00)
(L (W x48 x00 x00 x00 x34 x00 x00 x00))
(L (W x9a x96 xff xff x00 x00 x80 x3f)))
(T (W x00 x00 x00 x00 x1c x00 x00 x00)
(L (W x45 x26 x22 x84 xe4 x9c xf2 xcb)) E))
(T (W x00 x00 x00 x00 x20 x57 xfd xff)
(T (W xf9 xc3 x7d x2f xd1 x42 xf3 x06)
(L (W x00 x00 x00 x00 x01 x00 x00 x00))
(L (W x1c x01 x00 x00 x01 x00 x00 x00)))
(T (W x74 x00 x00 x00 x68 x00 x00 x00)
(L (W x9a x56 xff xff x00 x00 x80 x3f)) E)))
(T (W x00 x00 x00 x00 x20 xf7 xfc xff)
(T (W x04 x00 x00 x00 x00 x00 x00 x00)
(T (W x45 x26 x22 x84 xe4 x9c xf2 xcb)
(L (W x28 x01 x00 x00 x20 x01 x00 x00))
(L (W x2c x00 x00 x00 x20 x00 x00 x00)))
(T (W x45 x26 x22 x84 xe4 x9c xf2 xcb)
(L (W x00 x00 x00 x00 x01 x00 x00 x00)) E))
(T (W x00 x00 x00 x00 x01 x00 x00 x00)
(T (W x00 x00 x00 x00 x00 x00 x00 x00)
(L (W x04 x00 x00 x00 x5a xfc xfe xff))
(L (W x45 x26 x22 x84 xe4 x9c xf2 xcb)))
(T (W x00 x00 x00 x00 x20 x77 xfe xff)
(L (W x45 x26 x22 x84 xe4 x9c xf2 xcb)) E))))
(T (W x00 x00 x00 x00 x00 x00 x00 x00)
(T (W x04 x00 x00 x00 x5a xec xfc xff)
(T (W x00 x00 x00 x00 x00 x00 x00 x00)
(T (W x00 x00 x00 x00 x20 xa7 xfd xff)
(L (W xc4 xa9 xfe xff x50 x00 x00 x00))
(L (W x1c xa7 xff xff x00 x00 x00 x00)))
(T (W x00 x00 x00 x00 x20 x27 xfe xff)
(L (W x00 x00 x00 x00 x00 x00 x00 x00)) E))
(T (W x6e xdd x8c xd7 xb4 xfb x9a x00)
(T (W x00 x00 x80 x3f x00 x00 x80 x3f)
(L (W x2c x00 x00 x00 x20 x00 x00 x00))
(L (W x1c xe7 xff xff x00 x00 x00 x00)))
(T (W x00 x00 x00 x00 x20 x67 xfe xff)
(L (W x00 x00 x00 x00 x00 x00 x00 x00)) E)))
(T (W x3c x01 x00 x00 x30 x01 x00 x00)
(T (W x00 x00 x00 x00 x00 x00 x00 x00)
(T (W x45 x26 x22 x84 xe4 x9c xf2 xcb)
(L (W x00 x00 x00 x00 x00 x00 x00 x00))
(L (W x04 x00 x00 x00 x5a xcc xff xff)))
(T (W x00 x00 x80 xbf x9c x00 x00 x00)
(L (W x00 x00 x00 x00 x00 x00 x00 x00)) E))
(T (W x45 x26 x22 x84 xe4 x9c xf2 xcb)
(T (W x40 x00 x00 x00 x38 x00 x00 x00)
(L (W x3c x01 x00 x00 x30 x01 x00 x00)) E)
(T (W x41 x30 x32 x00 xe2 x8e xfe xff)
(L (W x45 x41 x30 x32 x5f x30 x30 x34)) E)))))
(T (W x5f x4f x55 x54 x42 x52 x45 x41)
(T (W x45 x26 x22 x84 xe4 x9c xf2 xcb)
(T (W x00 x00 xe0 x40 x24 x01 x00 x00)
(T (W xab xc8 x7b x47 xb6 x1a x58 xe8)
(T (W x00 x00 x00 x00 x20 x9f xfd xff)
(L (W x34 x00 x00 x00 x20 x00 x00 x00))
(L (W x54 x00 x00 x00 x48 x00 x00 x00)))
(T (W x45 x26 x22 x84 xe4 x9c xf2 xcb)
(L (W x82 x9e xde x9a x2e x05 xaa x44)) E))
(T (W xd6 x81 x9c x94 x9b x27 x57 x25)
(T (W x00 x00 x00 x00 x20 xdf xfd xff)
(L (W x00 x00 x80 xbf x00 x00 x80 xbf))
(L (W x00 x00 x00 x00 x20 xdf xff xff)))
(T (W x3c x01 x00 x00 x30 x01 x00 x00)
(L (W x00 x00 x00 x00 x01 x00 x00 x00)) E)))
(T (W x00 x00 x80 x3f x20 xff xfc xff)
(T (W x44 x00 x00 x00 x38 x00 x00 x00)
(T (W x00 x00 x00 x00 x1c x00 x00 x00)
(L (W xc4 xc1 xfe xff x50 x00 x00 x00))
(L (W x57 x53 x59 x53 x5f x4d x41 x53)))
(T (W x60 x00 x00 x00 x54 x00 x00 x00)
(L (W x2c x00 x00 x00 x20 x00 x00 x00)) E))
(T (W x00 x00 x00 x00 x01 x00 x00 x00)
(T (W x00 x00 x00 x00 xe2 x06 xfe xff)
(L (W x00 x00 x00 x00 x20 xff xfe xff))
(L (W x1c x00 x24 x00 x2c x00 x34 x00)))
(T (W x55 x6c xfc xf1 x99 x9e xc9 x88)
(L (W x74 x00 x00 x00 x68 x00 x00 x00)) E))))
(T (W x1c xcf xfc xff x00 x00 x00 x00)
(T (W x01 x00 x00 x00 x04 x00 x00 x00)
(T (W x9a x2e xfd xff x00 x60 x36 x44)
(T (W x69 x52 x38 xbd xe1 x5f xe9 xfb)
(L (W x00 x00 x00 x00 x9e xae xfe xff))
(L (W x1d x6d xfe xf3 x65 x32 xbb xbf)))
(T (W x1c x01 x00 x00 x01 x00 x00 x00)
(L (W x00 x00 x00 x00 x02 x00 x00 x00)) E))
(T (W x1c x6f xfd xff x00 x00 x00 x00)
(T (W x04 x00 x00 x00 x00 x00 x00 x00)
(L (W x00 x00 x80 x3f x00 x00 x80 x3f))
(L (W x00 x00 x00 x00 x00 x00 x00 x00)))
(T (W x00 x00 x00 x00 x00 x00 x00 x00)
(L (W x5f x4d x41 x53 x53 x5f x47 x41)) E)))
(T (W x00 x00 x00 x00 x01 x00 x00 x00)
(T (W x45 x26 x22 x84 xe4 x9c xf2 xcb)
(T (W x00 x00 x00 x00 x20 xcf xfd xff)
(L (W x00 x00 x00 x00 x20 xcf xfe xff))
(L (W x1c xcf xff xff x00 x00 x00 x00)))
(T (W x45 x26 x22 x84 xe4 x9c xf2 xcb)
(L (W x45 x26 x22 x84 xe4 x9c xf2 xcb)) E))
(T (W x5c x00 x00 x00 x50 x00 x00 x00)
(T (W x00 x00 x00 x00 x00 x00 x00 x00)
(L (W x45 x26 x22 x84 xe4 x9c xf2 xcb)) E)
(T (W x1c x8f xfe xff x00 x00 x00 x00)
(L (W xc4 x91 xff xff x50 x00 x00 x00)) E))))))))
(T (W x5c xf8 x01 x00 x90 xf6 x01 x00)
(T (W x00 x0c x01 x00 x14 x0a x01 x00)
(T (W x46 x53 x59 x53 x5f x4e x45 x57)
(T (W xb3 x93 x7d x67 x2b x6f xe6 x8e)
(T (W x45 x26 x22 x84 xe4 x9c xf2 xcb)
(T (W x00 x00 x00 x00 x01 x00 x00 x00)
(T (W x00 x00 x00 x00 x9e x11 xfd xff)
(T (W x45 x26 x22 x84 xe4 x9c xf2 xcb)
(L (W x00 x00 x80 xbf x9c x00 x00 x00))
(L (W x00 x00 x80 xbf x9c x00 x00 x00)))
(T (W x04 x00 x00 x00 x5a x17 xfe xff)
(L (W x3c x01 x00 x00 x30 x01 x00 x00)) E))
(T (W x1c x52 xfd xff x9e x51 xfd xff)
(T (W x45 x26 x22 x84 xe4 x9c xf2 xcb)
(L (W x00 x00 xe0 x40 x24 x01 x00 x00))
(L (W x45 x26 x22 x84 xe4 x9c xf2 xcb)))
(T (W x1c x00 x00 x00 x46 x53 x59 x53)
(L (W x00 x00 x80 x40 x24 x01 x00 x00)) E)))
(T (W x12 xd6 xff xff x00 x00 x00 x01)
(T (W x45 x26 x22 x84 xe4 x9c xf2 xcb)
(T (W x9a xb1 xfd xff x00 x00 x80 x3f)
(L (W x2c x00 x00 x00 x20 x00 x00 x00))
(L (W x45 x26 x22 x84 xe4 x9c xf2 xcb)))
(T (W x00 x00 x00 x00 x20 x32 xfe xff)
(L (W x20 x39 x45 xdc x00 xd4 x55 x2f)) E))
(T (W x42 x52 x45 x41 x4b x5f x41 x52)
(T (W xcd x4c x5d x44 x8f xc2 x13 x42)
(L (W x2c x00 x00 x00 x20 x00 x00 x00))
(L (W x00 x00 x00 x00 x00 x00 x00 x00)))
(T (W x00 x00 x00 x00 x00 x00 x00 x00)
(L (W x00 x00 x00 x00 x00 x00 x00 x00)) E))))
(T (W x00 x00 x00 x00 x1c x00 x00 x00)
(T (W x00 x00 x00 x00 x00 x00 x00 x00)
(T (W x00 x00 x00 x00 x50 x00 x20 x00)
(T (W xca xa5 xfd xff x40 x01 x00 x00)
(L (W x55 x39 x81 x6a xc4 xc7 x74 x14))
(L (W x1c xa2 xff xff x9e xa1 xff xff)))
(T (W x00 x00 x00 x00 x00 x00 x00 x00)
(L (W x28 x00 x00 x00 x14 x00 x00 x00)) E))
(T (W x1c x62 xfd xff x00 x00 x00 x00)
(T (W x34 x00 x00 x00 x20 x00 x00 x00)
(L (W x44 x00 x00 x00 x30 x00 x00 x00))
(L (W x5f x4f x55 x54 x42 x52 x45 x41)))
(T (W x00 x00 x00 x00 x00 x00 x00 x00)
(L (W x00 x00 x80 x3f x20 x62 xff xff)) E)))
(T (W x1c x02 xfd xff x00 x00 x00 x00)
(T (W x45 x26 x22 x84 xe4 x9c xf2 xcb)
(T (W x85 x80 x02 x4c x84 x1f x7f x61)
(L (W x49 xee x2a x46 xac x2a x00 x3d))
(L (W x00 x00 x00 x00 x00 x00 x00 x00)))
(T (W x45 x26 x22 x84 xe4 x9c xf2 xcb)
(L (W x00 x00 x00 x00 x01 x00 x00 x00)) E))
(T (W x1c x82 xfd xff x9e x81 xfd xff)
(T (W x1c x02 xfe xff x00 x00 x00 x00)
(L (W x04 x00 x00 x00 x00 x00 x00 x00)) E)
(T (W x00 x00 x00 x00 x20 x82 xfe xff)
(L (W x45 x26 x22 x84 xe4 x9c xf2 xcb)) E)))))
(T (W x45 x26 x22 x84 xe4 x9c xf2 xcb)
(T (W x44 x00 x00 x00 x30 x00 x00 x00)
(T (W x00 x00 x00 x00 x20 xda xfc xff)
(T (W x5f x41 x52 x45 x41 x30 x32 x00)
(T (W x00 x00 x00 x00 x20 x9a xfd xff)
(L (W x45 x26 x22 x84 xe4 x9c xf2 xcb))
(L (W x32 xdb xac x28 xbf xd3 x59 x6a)))
(T (W x00 x00 x00 x00 x00 x00 x00 x00)
(L (W x01 x00 x00 x00 x04 x00 x00 x00)) E))
(T (W x1c x01 x00 x00 x01 x00 x00 x00)
(T (W x00 x00 x00 x00 x9e xd9 xfd xff)
(L (W x45 x26 x22 x84 xe4 x9c xf2 xcb))
(L (W x74 x00 x00 x00 x68 x00 x00 x00)))
(T (W x45 x26 x22 x84 xe4 x9c xf2 xcb)
(L (W x01 x00 x00 x00 x04 x00 x00 x00)) E)))
(T (W x04 x00 x00 x00 x00 x00 x00 x00)
(T (W x55 x6c xfc xf1 x99 x9e xc9 x88)
(T (W x04 x00 x00 x00 x5a xbf xfd xff)
(L (W x00 x00 x00 x00 x01 x00 x00 x00))
(L (W x00 x00 x00 x00 x01 x00 x00 x00)))
(T (W x3c x01 x00 x00 x30 x01 x00 x00)
(L (W x55 x6c xfc xf1 x99 x9e xc9 x88)) E))
(T (W x45 x26 x22 x84 xe4 x9c xf2 xcb)
(T (W x04 x00 x00 x00 x00 x00 x00 x00)
(L (W x00 x00 x80 x3f x00 x00 x80 x3f))
(L (W x00 x00 x00 x00 x00 x00 x00 x00)))
(T (W x3c x01 x00 x00 x30 x01 x00 x00)
(L (W xca x7d xff xff x40 x01 x00 x00)) E))))
(T (W x34 x00 x00 x00 x20 x00 x00 x00)
(T (W x00 x00 x80 x3f x00 x00 x80 x3f)
(T (W x04 x00 x00 x00 x00 x00 x00 x00)
(T (W x45 x26 x22 x84 xe4 x9c xf2 xcb)
(L (W x00 x00 x80 xbf x9c x00 x00 x00))
(L (W x45 x26 x22 x84 xe4 x9c xf2 xcb)))
(T (W x45 x26 x22 x84 xe4 x9c xf2 xcb)
(L (W x00 x00 x00 x00 x01 x00 x00 x00)) E))
(T (W x55 x6c xfc xf1 x99 x9e xc9 x88)
(T (W x00 x00 x00 x00 x20 xea xfd xff)
(L (W x1c x01 x00 x00 x01 x00 x00 x00))
(L (W x00 x00 x00 x00 x01 x00 x00 x00)))
(T (W x34 x00 x00 x00 x20 x00 x00 x00)
(L (W x40 x00 x00 x00 x38 x00 x00 x00)) E)))
(T (W x00 x00 x00 x00 x00 x00 x00 x00)
(T (W x00 x00 x00 x00 x00 x00 x00 x00)
(T (W x00 x00 x80 x3f x00 x00 x80 x3f)
(L (W x00 x00 x00 x00 x00 x00 x00 x00))
(L (W x00 x00 x00 x00 x00 x00 x00 x00)))
(T (W x42 x52 x45 x41 x4b x5f x41 x52)
(L (W x45 x26 x22 x84 xe4 x9c xf2 xcb)) E))
(T (W x00 x00 x80 xbf x00 x00 x80 xbf)
(T (W x29 xec x57 x44 x33 x33 x0b x42)
(L (W x00 x00 x00 x00 x00 x00 x00 x00)) E)
(T (W x1c x8a xfe xff x00 x00 x00 x00)
(L (W x00 x00 x00 x00 x20 x8a xff xff)) E))))))
(T (W x00 x00 xe0 x40 x24 x01 x00 x00)
(T (W x04 x00 x00 x00 x5a xab xfc xff)
(T (W x00 x00 x00 x00 x20 xb6 xfc xff)
(T (W x45 x26 x22 x84 xe4 x9c xf2 xcb)
(T (W x00 x00 x00 x00 x00 x00 x00 x00)
(T (W x45 x26 x22 x84 xe4 x9c xf2 xcb)
(L (W x04 x00 x00 x00 x00 x00 x00 x00))
(L (W x40 x00 x00 x00 x38 x00 x00 x00)))
(T (W x1c x16 xfe xff x00 x00 x00 x00)
(L (W x54 x00 x00 x00 x48 x00 x00 x00)) E))
(T (W x00 x00 x00 x00 x00 x00 x00 x00)
(T (W x00 x00 x00 x00 x00 x00 x00 x00)
(L (W xcf x49 x81 xf3 x1d x2d x54 x95))
(L (W x45 x26 x22 x84 xe4 x9c xf2 xcb)))
(T (W x45 x26 x22 x84 xe4 x9c xf2 xcb)
(L (W x40 x00 x00 x00 x38 x00 x00 x00)) E)))
(T (W x00 x00 x80 xbf x9c x00 x00 x00)
(T (W x04 x00 x00 x00 x40 x38 xfd xff)
(T (W x00 x00 x00 x00 xe2 xbd xfd xff)
(L (W x00 x00 x00 x00 x00 x00 x00 x00))
(L (W x00 x00 x00 x00 x50 x00 x24 x00)))
(T (W x44 x00 x00 x00 x30 x00 x00 x00)
(L (W x00 x00 x00 x00 x01 x00 x00 x00)) E))
(T (W xbe x8c x64 x23 x15 xd8 xaf x1d)
(T (W x01 x00 x00 x00 x01 x00 x00 x00)
(L (W x60 x00 x00 x00 x54 x00 x00 x00))
(L (W x45 x26 x22 x84 xe4 x9c xf2 xcb)))
(T (W x9a x75 xfe xff x00 x00 x80 x3f)
(L (W x9a x75 xff xff x00 x00 x80 x3f)) E))))
(T (W x3c x01 x00 x00 x30 x01 x00 x00)
(T (W x60 x00 x00 x00 x54 x00 x00 x00)
(T (W x00 x00 x80 xbf x00 x00 x80 xbf)
(T (W x00 x00 x80 xbf x9c x00 x00 x00)
(L (W x00 x00 x00 x00 x00 x00 x00 x00))
(L (W x34 x00 x00 x00 x20 x00 x00 x00)))
(T (W x00 x00 x80 xbf x9c x00 x00 x00)
(L (W x00 x00 x80 x40 x24 x01 x00 x00)) E))
(T (W x00 x00 x00 x00 x00 x00 x00 x00)
(T (W x45 x26 x22 x84 xe4 x9c xf2 xcb)
(L (W x5f x4e x45 x57 x5f x4f x55 x54))
(L (W x34 x00 x00 x00 x20 x00 x00 x00)))
(T (W x1c x66 xfe xff x9e x65 xfe xff)
(L (W x00 x00 x80 xbf x00 x00 x80 xbf)) E)))
(T (W x88 xb8 x33 x97 x85 xa7 x5f x5f)
(T (W x00 x00 x00 x00 x20 x46 xfd xff)
(T (W x1c xc6 xfd xff x00 x00 x00 x00)
(L (W x00 x00 x00 x00 x20 xc6 xfe xff))
(L (W x60 x00 x00 x00 x54 x00 x00 x00)))
(T (W x45 x26 x22 x84 xe4 x9c xf2 xcb)
(L (W x45 x26 x22 x84 xe4 x9c xf2 xcb)) E))
(T (W x45 x41 x30 x32 x5f x30 x30 x37)
(T (W x2c x00 x00 x00 x18 x00 x00 x00)
(L (W x01 x00 x00 x00 x04 x00 x00 x00)) E)
(T (W x55 x39 x81 x6a xc4 xc7 x74 x14)
(L (W x44 x00 x00 x00 x38 x00 x00 x00)) E)))))
(T (W x01 x00 x00 x00 x04 x00 x00 x00)
(T (W x1c xbe xfc xff x9e xbd xfc xff)
(T (W x45 x26 x22 x84 xe4 x9c xf2 xcb)
(T (W x41 x30 x32 x00 x2a xfe xff xff)
(T (W x9a x9d xfd xff x00 x00 x80 x3f)
(L (W x45 x26 x22 x84 xe4 x9c xf2 xcb))
(L (W x48 x00 x00 x00 x34 x00 x00 x00)))
(T (W x5c x00 x00 x00 x50 x00 x00 x00)
(L (W x00 x00 x00 x00 x00 x00 x00 x00)) E))
(T (W x45 x26 x22 x84 xe4 x9c xf2 xcb)
(T (W x00 x00 x00 x00 x00 x00 x00 x00)
(L (W x00 x00 x00 x00 x00 x00 x00 x00))
(L (W x00 x00 x80 x3f x00 x00 x80 x3f)))
(T (W x85 x8d xa7 x28 xbf x4e x53 x6a)
(L (W x00 x00 x00 x00 x00 x00 x00 x00)) E)))
(T (W x45 x26 x22 x84 xe4 x9c xf2 xcb)
(T (W x00 x00 x00 x00 x00 x00 x00 x00)
(T (W x1c xbe xfd xff x00 x00 x00 x00)
(L (W xec x91 x51 x43 x00 x00 x00 x00))
(L (W x00 x00 x00 x00 x20 xbe xff xff)))
(T (W x00 x00 x00 x00 x01 x00 x00 x00)
(L (W x57 x53 x59 x53 x5f x4d x41 x53)) E))
(T (W x00 x00 x00 x00 x00 x00 x00 x00)
(T (W x00 x00 x00 x00 x20 xfe xfd xff)
(L (W x00 x00 x80 xbf x9c x00 x00 x00))
(L (W x45 x26 x22 x84 xe4 x9c xf2 xcb)))
(T (W x54 x00 x00 x00 x48 x00 x00 x00)
(L (W x45 x26 x22 x84 xe4 x9c xf2 xcb)) E))))
(T (W x34 x00 x00 x00 x20 x00 x00 x00)
(T (W x00 x00 x00 x00 x00 x00 x00 x00)
(T (W x45 x26 x22 x84 xe4 x9c xf2 xcb)
(T (W x00 x00 x00 x00 x00 x00 x00 x00)
(L (W x40 x00 x00 x00 x38 x00 x00 x00))
(L (W x00 x00 x00 x00 x00 x00 x00 x00)))
(T (W x44 x00 x00 x00 x38 x00 x00 x00)
(L (W x00 x00 x00 x00 x20 x2e xff xff)) E))
(T (W x00 x00 x00 x00 x00 x00 x00 x00)
(T (W x00 x00 x00 x00 x00 x00 x00 x00)
(L (W x45 x26 x22 x84 xe4 x9c xf2 xcb))
(L (W x00 x00 x00 x00 x20 xee xff xff)))
(T (W x45 x26 x22 x84 xe4 x9c xf2 xcb)
(L (W x01 x00 x00 x00 x04 x00 x00 x00)) E)))
(T (W x78 x00 x00 x00 x6c x00 x00 x00)
(T (W x55 x6c xfc xf1 x99 x9e xc9 x88)
(T (W x00 x00 x80 xbf x9c x00 x00 x00)
(L (W x9a xcd xfe xff x00 x00 x80 x3f))
(L (W x34 x00 x00 x00 x20 x00 x00 x00)))
(T (W x5c x00 x00 x00 x50 x00 x00 x00)
(L (W x28 x00 x00 x00 x14 x00 x00 x00)) E))
(T (W x00 x00 x00 x00 x01 x00 x00 x00)
(T (W x00 x00 xa0 x40 x24 x01 x00 x00)
(L (W x45 x26 x22 x84 xe4 x9c xf2 xcb)) E)
(T (W x00 x00 x00 x00 x00 x00 x00 x00)
(L (W x33 x33 x03 x44 x00 x00 x00 x00)) E)))))))
(T (W x00 x19 x00 x00 x14 x17 x00 x00)
(T (W x5f x30 x32 x35 x00 x00 x00 x00)
(T (W x00 x00 x00 x00 x01 x00 x00 x00)
(T (W x00 x00 x00 x00 x00 x00 x00 x00)
(T (W x40 x00 x00 x00 x38 x00 x00 x00)
(T (W x9a x13 xfd xff x33 x63 x23 x44)
(T (W x1c x94 xfd xff x00 x00 x00 x00)
(L (W x25 x5b xba x6a xd0 x1b x02 x36))
(L (W xf0 x42 x84 x94 x39 x9e x30 x39)))
(T (W x45 x26 x22 x84 xe4 x9c xf2 xcb)
(L (W xf8 xd5 x0c xfe x1d xf7 x83 xa7)) E))
(T (W x9a x53 xfd xff x85 xab x11 x44)
(T (W xc4 xd6 xfd xff x50 x00 x00 x00)
(L (W x00 x00 x80 xbf x00 x00 x80 xbf))
(L (W x00 x00 x00 x00 x20 xd4 xff xff)))
(T (W x1c x01 x00 x00 x01 x00 x00 x00)
(L (W xf4 x4d x8f xdb xcd x9a xcd xaf)) E)))
(T (W x1c x01 x00 x00 x04 x00 x00 x00)
(T (W x00 x00 x00 x00 x20 x34 xfd xff)
(T (W x00 x00 x00 x00 x00 x00 x00 x00)
(L (W x00 x00 x00 x00 x00 x00 x00 x00))
(L (W x00 x00 x00 x00 x00 x00 x00 x00)))
(T (W x04 x00 x00 x00 x08 x34 xfe xff)
(L (W x00 x00 x00 x00 x00 x00 x00 x00)) E))
(T (W x3c x01 x00 x00 x30 x01 x00 x00)
(T (W xca xf7 xfd xff x40 x01 x00 x00)
(L (W x00 x00 x00 x00 x00 x00 x00 x00))
(L (W x00 x00 x00 x00 x01 x00 x00 x00)))
(T (W x78 x00 x00 x00 x6c x00 x00 x00)
(L (W x04 x00 x00 x00 x40 x76 xff xff)) E))))
(T (W x4b x5f x41 x52 x45 x41 x30 x32)
(T (W x00 x00 x00 x00 x01 x00 x00 x00)
(T (W x1c x01 x00 x00 x02 x00 x00 x00)
(T (W x01 x00 x00 x00 x01 x00 x00 x00)
(L (W x00 x00 x80 x3f x00 x00 x80 x3f))
(L (W x00 x00 x00 x00 xe2 xab xff xff)))
(T (W x00 x00 x00 x00 x00 x00 x00 x00)
(L (W x9a x39 x0a x44 x00 x00 x00 x00)) E))
(T (W xc4 x66 xfd xff x50 x00 x00 x00)
(T (W xaf xdf x1b x72 x9d x0d xa7 xbe)
(L (W xe1 xda xd6 x43 x29 x5c xc8 x42))
(L (W x00 x00 x00 x00 xe2 xeb xff xff)))
(T (W x5c x00 x00 x00 x50 x00 x00 x00)
(L (W x00 x00 x00 x00 x00 x00 x00 x00)) E)))
(T (W xc4 x06 xfd xff x50 x00 x00 x00)
(T (W x45 x26 x22 x84 xe4 x9c xf2 xcb)
(T (W x00 x00 x00 x00 x00 x00 x00 x00)
(L (W x40 x00 x00 x00 x38 x00 x00 x00))
(L (W x00 x00 x00 x00 x01 x00 x00 x00)))
(T (W x1c x44 xfe xff x00 x00 x00 x00)
(L (W x04 x00 x00 x00 x5a x49 xff xff)) E))
(T (W x1c x00 x00 x00 x46 x53 x59 x53)
(T (W x78 x00 x00 x00 x6c x00 x00 x00)
(L (W x45 x26 x22 x84 xe4 x9c xf2 xcb)) E)
(T (W x44 x00 x00 x00 x38 x00 x00 x00)
(L (W x00 x00 x00 x00 x20 x84 xff xff)) E)))))
(T (W x00 x00 x00 x00 x20 xac xfc xff)
(T (W x4f x84 x6f x8b xe8 xcb x63 xb7)
(T (W x44 x00 x00 x00 x38 x00 x00 x00)
(T (W x1c x00 x20 x00 x00 x00 x07 x00)
(T (W x04 x00 x00 x00 x40 x9e xfd xff)
(L (W x00 x00 x00 x00 x20 x9c xfe xff))
(L (W x00 x00 x00 x00 x00 x00 x00 x00)))
(T (W x00 x00 x00 x00 x01 x00 x00 x00)
(L (W x7d xea xac x28 xbf xdc x59 x6a)) E))
(T (W x45 x26 x22 x84 xe4 x9c xf2 xcb)
(T (W x9a xdb xfd xff x85 x0b x31 x44)
(L (W x01 x00 x00 x00 x04 x00 x00 x00))
(L (W x00 x00 x80 x3f x00 x00 x80 x3f)))
(T (W xc4 x5e xfe xff x50 x00 x00 x00)
(L (W x00 x00 x00 x00 x00 x00 x00 x00)) E)))
(T (W x54 x00 x00 x00 x48 x00 x00 x00)
(T (W x00 x00 x80 x3f x20 x3c xfd xff)
(T (W x45 x26 x22 x84 xe4 x9c xf2 xcb)
(L (W x45 x26 x22 x84 xe4 x9c xf2 xcb))
(L (W x45 x26 x22 x84 xe4 x9c xf2 xcb)))
(T (W x75 x84 xfc x36 x15 xf4 x4b x40)
(L (W x1c x3c xff xff x9e x3b xff xff)) E))
(T (W x2c x00 x00 x00 x20 x00 x00 x00)
(T (W x45 x26 x22 x84 xe4 x9c xf2 xcb)
(L (W x00 x00 x00 x00 x00 x00 x00 x00))
(L (W x00 x00 x00 x00 x00 x00 x00 x00)))
(T (W xc9 x2a x76 x2c x15 x9f x22 x2e)
(L (W x34 x00 x00 x00 x20 x00 x00 x00)) E))))
(T (W x04 x00 x00 x00 x00 x00 x80 x3f)
(T (W x5c x8f x08 x42 x48 x71 x5d x44)
(T (W x00 x00 x00 x00 x01 x00 x00 x00)
(T (W xc4 xae xfd xff x50 x00 x00 x00)
(L (W x00 x00 x00 x00 x01 x00 x00 x00))
(L (W x44 x00 x00 x00 x38 x00 x00 x00)))
(T (W x8c x2c xfe xff x4c x00 x00 x00)
(L (W x45 x26 x22 x84 xe4 x9c xf2 xcb)) E))
(T (W x00 x00 x80 x3f x20 x6c xfd xff)
(T (W xfe x27 x3c xdc x00 x65 x4b x2f)
(L (W x45 x26 x22 x84 xe4 x9c xf2 xcb))
(L (W x40 x00 x00 x00 x38 x00 x00 x00)))
(T (W x04 x00 x00 x00 x5a x71 xfe xff)
(L (W x45 x26 x22 x84 xe4 x9c xf2 xcb)) E)))
(T (W x1c x0c xfd xff x00 x00 x00 x00)
(T (W x00 x00 x00 x00 x01 x00 x00 x00)
(T (W x00 x00 x00 x00 x00 x00 x00 x00)
(L (W x04 x00 x00 x00 x40 xce xfe xff))
(L (W x00 x00 x00 x00 xe2 xd3 xff xff)))
(T (W x00 x00 x00 x00 x01 x00 x00 x00)
(L (W x00 x00 x00 x00 x20 x4c xff xff)) E))
(T (W xf0 x17 x5c x23 x15 xc5 xa5 x1d)
(T (W x00 x00 x00 x00 x00 x00 x00 x00)
(L (W x5c x00 x00 x00 x50 x00 x00 x00)) E)
(T (W x45 x26 x22 x84 xe4 x9c xf2 xcb)
(L (W x28 x00 x00 x00 x14 x00 x00 x00)) E))))))
(T (W x00 x00 x80 xbf x00 x00 x80 xbf)
(T (W x45 x26 x22 x84 xe4 x9c xf2 xcb)
(T (W x04 x00 x00 x00 x40 xba xfc xff)
(T (W x45 x26 x22 x84 xe4 x9c xf2 xcb)
(T (W x1b x00 x00 x00 x57 x53 x59 x53)
(T (W x00 x00 x00 x00 x00 x00 x00 x00)
(L (W x54 x00 x00 x00 x48 x00 x00 x00))
(L (W x00 x00 x00 x00 x20 x98 xff xff)))
(T (W xc4 x1a xfe xff x50 x00 x00 x00)
(L (W x45 x26 x22 x84 xe4 x9c xf2 xcb)) E))
(T (W x1c x00 x00 x00 x46 x53 x59 x53)
(T (W x04 x00 x00 x00 x40 xda xfd xff)
(L (W x04 x00 x00 x00 x5a xdd xfe xff))
(L (W x00 x00 x00 x00 x00 x00 x00 x00)))
(T (W x45 x26 x22 x84 xe4 x9c xf2 xcb)
(L (W x00 x00 x00 x00 x20 x58 xff xff)) E)))
(T (W x2a x14 x47 x37 x0b xdb x13 xe9)
(T (W x44 x00 x00 x00 x30 x00 x00 x00)
(T (W x34 x00 x00 x00 x20 x00 x00 x00)
(L (W x00 x00 x00 x00 x00 x00 x00 x00))
(L (W x01 x00 x00 x00 x00 x00 x80 x3f)))
(T (W x8f x42 x41 x44 x0a xd7 x18 x42)
(L (W x5c x00 x00 x00 x50 x00 x00 x00)) E))
(T (W x54 x00 x00 x00 x48 x00 x00 x00)
(T (W x00 x00 x80 xbf x9c x00 x00 x00)
(L (W x55 x39 x81 x6a xc4 xc7 x74 x14))
(L (W x00 x00 x00 x00 x00 x00 x00 x00)))
(T (W x00 x00 x00 x00 x00 x00 x00 x00)
(L (W x7b xd4 xf8 x43 xa4 x70 x16 x42)) E))))
(T (W x04 x00 x00 x00 x00 x00 x80 x3f)
(T (W xd6 x81 x9c x94 x9b x27 x57 x25)
(T (W x45 x26 x22 x84 xe4 x9c xf2 xcb)
(T (W x00 x00 x00 x00 x01 x00 x00 x00)
(L (W x54 x49 x4f x4e x5f x41 x52 x45))
(L (W x04 x00 x00 x00 x5a xad xff xff)))
(T (W x00 x00 x00 x00 x01 x00 x00 x00)
(L (W x00 x00 x80 xbf x9c x00 x00 x00)) E))
(T (W x04 x00 x00 x00 x08 x68 xfd xff)
(T (W x45 x26 x22 x84 xe4 x9c xf2 xcb)
(L (W x00 x00 x00 x00 xe2 xef xfe xff))
(L (W x62 xe1 x1b x72 x9d x0e xa7 xbe)))
(T (W x00 x00 x00 x00 xe2 x6f xfe xff)
(L (W xe5 x6f xce xa4 xd8 xd9 xe9 x2a)) E)))
(T (W x00 x00 x00 x00 x00 x00 x00 x00)
(T (W x01 x00 x00 x00 x04 x00 x00 x00)
(T (W x74 x00 x00 x00 x68 x00 x00 x00)
(L (W xb9 x86 xa7 x28 xbf x4a x53 x6a))
(L (W x45 x26 x22 x84 xe4 x9c xf2 xcb)))
(T (W x5f x4e x45 x57 x5f x4f x55 x54)
(L (W x1c x48 xff xff x00 x00 x00 x00)) E))
(T (W x00 x00 x40 x40 x24 x01 x00 x00)
(T (W x00 x00 x00 x00 x9e x07 xfe xff)
(L (W x00 x00 x00 x00 x00 x00 x00 x00)) E)
(T (W x45 x26 x22 x84 xe4 x9c xf2 xcb)
(L (W x45 x26 x22 x84 xe4 x9c xf2 xcb)) E)))))
(T (W x2c x00 x00 x00 x20 x00 x00 x00)
(T (W x00 x00 x00 x00 x00 x00 x00 x00)
(T (W x00 x00 x00 x00 x00 x00 x00 x00)
(T (W x2c x00 x30 x00 x34 x00 x38 x00)
(T (W x00 x00 x00 x00 x00 x00 x00 x00)
(L (W x1c xa0 xfe xff x00 x00 x00 x00))
(L (W x55 x6c xfc xf1 x99 x9e xc9 x88)))
(T (W x00 x00 x80 x3f x20 x20 xfe xff)
(L (W x04 x00 x00 x00 x40 x22 xff xff)) E))
(T (W x45 x26 x22 x84 xe4 x9c xf2 xcb)
(T (W x00 x00 x00 x00 xe2 xe7 xfd xff)
(L (W x00 x00 x00 x00 x00 x00 x00 x00))
(L (W x00 x00 x00 x00 x00 x00 x00 x00)))
(T (W x00 x00 x00 x00 x00 x00 x00 x00)
(L (W x5c x00 x00 x00 x50 x00 x00 x00)) E)))
(T (W x45 x26 x22 x84 xe4 x9c xf2 xcb)
(T (W x1c x01 x00 x00 x01 x00 x00 x00)
(T (W xc4 xc2 xfd xff x50 x00 x00 x00)
(L (W x00 x00 xa0 x40 x24 x01 x00 x00))
(L (W x2c x00 x00 x00 x20 x00 x00 x00)))
(T (W x04 x00 x00 x00 x5a x45 xfe xff)
(L (W x01 x00 x00 x00 x00 x00 x80 x3f)) E))
(T (W x5c x00 x00 x00 x50 x00 x00 x00)
(T (W x45 x26 x22 x84 xe4 x9c xf2 xcb)
(L (W x71 x2c x5b x5b xc0 x2f x9d x76))
(L (W x24 x00 x2c x00 x04 x00 x08 x00)))
(T (W x45 x26 x22 x84 xe4 x9c xf2 xcb)
(L (W x45 x26 x22 x84 xe4 x9c xf2 xcb)) E))))
(T (W x45 x26 x22 x84 xe4 x9c xf2 xcb)
(T (W x5f x4d x41 x53 x53 x5f x47 x41)
(T (W x00 x00 x00 x00 x20 x30 xfd xff)
(T (W x04 x00 x00 x00 x40 xb2 xfd xff)
(L (W x45 x26 x22 x84 xe4 x9c xf2 xcb))
(L (W x04 x00 x00 x00 x08 xb0 xff xff)))
(T (W x00 x00 x00 x00 x00 x00 x00 x00)
(L (W xc4 x32 xff xff x50 x00 x00 x00)) E))
(T (W x00 x00 x00 x00 x00 x00 x00 x00)
(T (W x44 x00 x00 x00 x30 x00 x00 x00)
(L (W x00 x00 x00 x00 x20 xf0 xfe xff))
(L (W x39 x5e x6c x12 x83 xf1 x3a xc6)))
(T (W x44 x00 x00 x00 x38 x00 x00 x00)
(L (W x2c x00 x00 x00 x20 x00 x00 x00)) E)))
(T (W x2c x00 x00 x00 x18 x00 x00 x00)
(T (W x00 x00 x80 x3f x20 x50 xfd xff)
(T (W x00 x00 x00 x00 x01 x00 x00 x00)
(L (W x00 x00 x00 x00 x00 x00 x00 x00))
(L (W x00 x00 x00 x00 x01 x00 x00 x00)))
(T (W x1c x50 xfe xff x9e x4f xfe xff)
(L (W x9a x79 x28 x44 x00 x00 x00 x00)) E))
(T (W x45 x26 x22 x84 xe4 x9c xf2 xcb)
(T (W x6a x75 xee x13 x15 x60 xd3 x02)
(L (W x00 x00 x00 x00 x00 x00 x00 x00)) E)
(T (W x00 x00 x00 x00 x00 x00 x00 x00)
(L (W x00 x00 x80 x40 x24 x01 x00 x00)) E)))))))))
(T (W xbc xa9 x02 x00 xf0 xa7 x02 x00)
(T (W x94 x33 x02 x00 xc8 x31 x02 x00)
(T (W xd4 x46 x01 x00 xe8 x44 x01 x00)
(T (W x04 x00 x00 x00 xc0 x9b xfc xff)
(T (W x00 x00 x00 x00 x00 x00 x00 x00)
(T (W x40 x00 x00 x00 x38 x00 x00 x00)
(T (W x5f x4d x41 x53 x53 x5f x47 x41)
(T (W x45 x26 x22 x84 xe4 x9c xf2 xcb)
(T (W x00 x00 x80 xbf x00 x00 x80 xbf)
(L (W x45 x26 x22 x84 xe4 x9c xf2 xcb))
(L (W x9c x91 xff xff x1e x91 xff xff)))
(T (W x00 x00 x00 x00 x00 x00 x00 x00)
(L (W x28 x00 x00 x00 x14 x00 x00 x00)) E))
(T (W x1c x00 x00 x00 x46 x53 x59 x53)
(T (W x01 x00 x00 x00 x00 x00 x80 x3f)
(L (W xd6 x81 x9c x94 x9b x27 x57 x25))
(L (W x00 x00 xc0 x40 x24 x01 x00 x00)))
(T (W x04 x00 x00 x00 x88 x51 xfe xff)
(L (W x5c x00 x00 x00 x50 x00 x00 x00)) E)))
(T (W x2c x00 x00 x00 x18 x00 x00 x00)
(T (W x54 x00 x00 x00 x48 x00 x00 x00)
(T (W x45 x26 x22 x84 xe4 x9c xf2 xcb)
(L (W x00 x00 x00 x00 x01 x00 x00 x00))
(L (W x45 x26 x22 x84 xe4 x9c xf2 xcb)))
(T (W x45 x26 x22 x84 xe4 x9c xf2 xcb)
(L (W x04 x00 x00 x00 xda x36 xff xff)) E))
(T (W x60 x00 x00 x00 x54 x00 x00 x00)
(T (W x00 x00 x00 x00 x00 x00 x00 x00)
(L (W x00 x00 x00 x00 x01 x00 x00 x00))
(L (W x45 x26 x22 x84 xe4 x9c xf2 xcb)))
(T (W x45 x26 x22 x84 xe4 x9c xf2 xcb)
(L (W x45 x26 x22 x84 xe4 x9c xf2 xcb)) E))))
(T (W x00 x00 x00 x00 x01 x00 x00 x00)
(T (W x45 x26 x22 x84 xe4 x9c xf2 xcb)
(T (W x2c x00 x00 x00 x18 x00 x00 x00)
(T (W x28 x00 x00 x00 x14 x00 x00 x00)
(L (W xbb xf4 xaf x28 xbf x59 x5d x6a))
(L (W x00 x00 x00 x00 x00 x00 x00 x00)))
(T (W x00 x00 x00 x00 x00 x00 x00 x00)
(L (W x2c x00 x00 x00 x20 x00 x00 x00)) E))
(T (W x46 xd2 xaa x00 x15 x2c x9a xe0)
(T (W x1a xe1 xfd xff x00 x00 x80 x3f)
(L (W x44 x00 x00 x00 x38 x00 x00 x00))
(L (W x74 x00 x00 x00 x68 x00 x00 x00)))
(T (W x45 x26 x22 x84 xe4 x9c xf2 xcb)
(L (W x00 x00 x00 x00 x00 x00 x00 x00)) E)))
(T (W x29 x0b xb5 x4b xbc xaa xfa xea)
(T (W xe1 xfa x45 x43 x7b x14 x49 x42)
(T (W x04 x00 x00 x00 xda xc6 xfd xff)
(L (W x9c xc1 xfe xff x1e xc1 xfe xff))
(L (W x45 x26 x22 x84 xe4 x9c xf2 xcb)))
(T (W x00 x00 x80 xbf x00 x00 x80 xbf)
(L (W x00 x10 x1d x44 x00 x00 x00 x00)) E))
(T (W x00 x00 x00 x00 x00 x00 x00 x00)
(T (W x00 x00 x00 x00 xa0 x01 xfe xff)
(L (W x1c x00 x00 x00 x46 x53 x59 x53)) E)
(T (W xe0 x79 x70 xa7 xf7 x47 xd0 xb8)
(L (W x00 x00 x80 xbf x00 x00 x80 xbf)) E)))))
(T (W x04 x00 x00 x00 x00 x00 x80 x3f)
(T (W x44 x00 x00 x00 x38 x00 x00 x00)
(T (W xb6 x2c xe9 x02 x99 x14 x59 x46)
(T (W x48 x00 x00 x00 x34 x00 x00 x00)
(T (W x45 x26 x22 x84 xe4 x9c xf2 xcb)
(L (W x00 x00 x80 x40 x24 x01 x00 x00))
(L (W x04 x00 x00 x00 xda x9e xff xff)))
(T (W x45 x26 x22 x84 xe4 x9c xf2 xcb)
(L (W x45 x26 x22 x84 xe4 x9c xf2 xcb)) E))
(T (W x44 x00 x00 x00 x30 x00 x00 x00)
(T (W x45 x26 x22 x84 xe4 x9c xf2 xcb)
(L (W x00 x00 x80 x3f x02 x00 x00 x00))
(L (W x01 x00 x00 x00 x04 x00 x00 x00)))
(T (W x01 x00 x00 x00 x00 x00 x80 x3f)
(L (W x45 x26 x22 x84 xe4 x9c xf2 xcb)) E)))
(T (W x1b x00 x00 x00 x57 x53 x59 x53)
(T (W x45 x26 x22 x84 xe4 x9c xf2 xcb)
(T (W x00 x00 x00 x00 x00 x00 x00 x00)
(L (W x9c xb9 xfe xff x00 x00 x00 x00))
(L (W xcd x5c x1b x44 x00 x00 x00 x00)))
(T (W x74 x00 x00 x00 x68 x00 x00 x00)
(L (W x45 x26 x22 x84 xe4 x9c xf2 xcb)) E))
(T (W x00 x00 x80 xbf x9c x00 x00 x00)
(T (W x00 x00 x00 x00 x00 x00 x00 x00)
(L (W x00 x00 x00 x00 x00 x00 x00 x00))
(L (W x00 x00 x00 x00 xa0 xf9 xff xff)))
(T (W x74 x00 x00 x00 x68 x00 x00 x00)
(L (W x78 x00 x00 x00 x6c x00 x00 x00)) E))))
(T (W x71 x9d xa6 x43 x00 x00 x00 x00)
(T (W x00 x00 x00 x00 x00 x00 x00 x00)
(T (W x00 x00 x00 x00 x02 x00 x00 x00)
(T (W x01 x00 x00 x00 x00 x00 x80 x3f)
(L (W x45 x26 x22 x84 xe4 x9c xf2 xcb))
(L (W x00 x00 x80 xbf x00 x00 x80 xbf)))
(T (W x01 x00 x00 x00 x00 x00 x80 x3f)
(L (W x00 x00 x00 x00 x00 x00 x00 x00)) E))
(T (W x45 x26 x22 x84 xe4 x9c xf2 xcb)
(T (W x34 x00 x00 x00 x20 x00 x00 x00)
(L (W x00 x00 x00 x00 x1e xe9 xfe xff))
(L (W x5f x4f x55 x54 x42 x52 x45 x41)))
(T (W x1a x69 xfe xff x00 x00 x80 x3f)
(L (W x00 x00 x00 x00 x62 x71 xff xff)) E)))
(T (W x45 x26 x22 x84 xe4 x9c xf2 xcb)
(T (W x45 x26 x22 x84 xe4 x9c xf2 xcb)
(T (W x00 x00 x00 x00 x00 x00 x00 x00)
(L (W x45 x26 x22 x84 xe4 x9c xf2 xcb))
(L (W x00 x00 x00 x00 x00 x00 x00 x00)))
(T (W x00 x00 x00 x00 xa0 x49 xfe xff)
(L (W x54 x00 x00 x00 x48 x00 x00 x00)) E))
(T (W x00 x00 x80 x3f xa0 x89 xfd xff)
(T (W x00 x00 x00 x00 x00 x00 x00 x00)
(L (W x45 x26 x22 x84 xe4 x9c xf2 xcb)) E)
(T (W x00 x00 x00 x00 xa0 x89 xfe xff)
(L (W x45 x26 x22 x84 xe4 x9c xf2 xcb)) E))))))
(T (W x4f x84 x6f x8b xe8 xcb x63 xb7)
(T (W x4b x5f x41 x52 x45 x41 x30 x32)
(T (W x45 x26 x22 x84 xe4 x9c xf2 xcb)
(T (W x1c x01 x00 x00 x04 x00 x00 x00)
(T (W x00 x00 x00 x00 xa0 x15 xfd xff)
(T (W x54 x00 x00 x00 x48 x00 x00 x00)
(L (W x1c x00 x00 x00 x46 x53 x59 x53))
(L (W x00 x00 x00 x00 x62 x9d xff xff)))
(T (W x51 x70 xee x13 x15 x5d xd3 x02)
(L (W x00 x00 x00 x00 x00 x00 x00 x00)) E))
(T (W x00 x00 x00 x00 xa0 x55 xfd xff)
(T (W x45 x26 x22 x84 xe4 x9c xf2 xcb)
(L (W x00 x00 x00 x00 x00 x00 x00 x00))
(L (W x40 x00 x00 x00 x38 x00 x00 x00)))
(T (W x29 xfc x56 x44 xae xc7 xab x42)
(L (W x00 x00 x00 x00 x62 x5d xff xff)) E)))
(T (W x1a xf5 xfc xff xd7 x43 xf3 x43)
(T (W x00 x00 x00 x00 xa0 x35 xfd xff)
(T (W x2c x00 x00 x00 x18 x00 x00 x00)
(L (W x45 x26 x22 x84 xe4 x9c xf2 xcb))
(L (W x2c x00 x00 x00 x18 x00 x00 x00)))
(T (W x44 x00 x00 x00 x38 x00 x00 x00)
(L (W x9c x35 xff xff x00 x00 x00 x00)) E))
(T (W x00 x00 x80 x3f x00 x00 x80 x3f)
(T (W x1a xf5 xfd xff x00 x00 x80 x3f)
(L (W x44 xf8 xfe xff x50 x00 x00 x00))
(L (W x16 x48 x69 x12 x83 x6d x37 xc6)))
(T (W x45 x26 x22 x84 xe4 x9c xf2 xcb)
(L (W x45 x26 x22 x84 xe4 x9c xf2 xcb)) E))))
(T (W x49 xa1 x68 x4a xeb x5f xdd x3d)
(T (W x44 xe8 xfc xff x50 x00 x00 x00)
(T (W x71 x7d x1d x44 x66 x66 xf3 x42)
(T (W x1a xa5 xfd xff x33 x53 x3e x44)
(L (W x00 x00 x00 x00 x01 x00 x00 x00))
(L (W x1a xa5 xff xff x00 x00 x80 x3f)))
(T (W x45 x26 x22 x84 xe4 x9c xf2 xcb)
(L (W x5c x00 x00 x00 x50 x00 x00 x00)) E))
(T (W x45 x26 x22 x84 xe4 x9c xf2 xcb)
(T (W x3c x01 x00 x00 x30 x01 x00 x00)
(L (W x78 x00 x00 x00 x6c x00 x00 x00))
(L (W x1a xe5 xff xff x00 x00 x80 x3f)))
(T (W x00 x00 x00 x00 x00 x00 x00 x00)
(L (W x45 x26 x22 x84 xe4 x9c xf2 xcb)) E)))
(T (W x04 x00 x00 x00 xda x0a xfd xff)
(T (W x34 x00 x00 x00 x20 x00 x00 x00)
(T (W x00 x00 x00 x00 xa0 xc5 xfd xff)
(L (W x34 x00 x00 x00 x20 x00 x00 x00))
(L (W x44 xc8 xff xff x50 x00 x00 x00)))
(T (W x54 x00 x00 x00 x48 x00 x00 x00)
(L (W x00 x00 x80 xbf x00 x00 x80 xbf)) E))
(T (W x48 x00 x00 x00 x34 x00 x00 x00)
(T (W x2c x00 x00 x00 x20 x00 x00 x00)
(L (W x45 x26 x22 x84 xe4 x9c xf2 xcb)) E)
(T (W x54 x00 x00 x00 x48 x00 x00 x00)
(L (W x04 x00 x00 x00 x00 x00 x00 x00)) E)))))
(T (W x45 x26 x22 x84 xe4 x9c xf2 xcb)
(T (W x00 x00 x00 x00 x00 x00 x00 x00)
(T (W x54 x00 x00 x00 x48 x00 x00 x00)
(T (W x44 x00 x00 x00 x30 x00 x00 x00)
(T (W x45 x26 x22 x84 xe4 x9c xf2 xcb)
(L (W x40 x00 x00 x00 x38 x00 x00 x00))
(L (W x44 x00 x00 x00 x38 x00 x00 x00)))
(T (W x44 x20 xfe xff x50 x00 x00 x00)
(L (W x45 x26 x22 x84 xe4 x9c xf2 xcb)) E))
(T (W x54 x01 x00 x00 x48 x01 x00 x00)
(T (W x00 x00 x00 x00 xa0 xdd xfd xff)
(L (W x45 x26 x22 x84 xe4 x9c xf2 xcb))
(L (W x00 x00 x00 x00 x00 x00 x00 x00)))
(T (W x04 x00 x00 x00 xda x62 xfe xff)
(L (W x45 x26 x22 x84 xe4 x9c xf2 xcb)) E)))
(T (W x00 x00 xe0 x40 x24 x01 x00 x00)
(T (W x00 x00 x00 x00 x00 x00 x00 x00)
(T (W xed x04 x77 x1e x15 xb5 xff x14)
(L (W x00 x00 x00 x00 x00 x00 x00 x00))
(L (W x76 xa5 xbb xa3 x81 x3f x99 x31)))
(T (W x00 x00 x00 x00 x00 x00 x00 x00)
(L (W x04 x00 x00 x00 xc0 x3f xff xff)) E))
(T (W x45 x26 x22 x84 xe4 x9c xf2 xcb)
(T (W x9d x0c x21 x99 x5f x46 x93 xc8)
(L (W x45 x26 x22 x84 xe4 x9c xf2 xcb))
(L (W x00 x00 x00 x00 x00 x00 x00 x00)))
(T (W x00 x00 x00 x00 x00 x00 x00 x00)
(L (W x00 x00 x00 x00 x00 x00 x00 x00)) E))))
(T (W x29 x5c x2b x42 xe1 x9a x14 x44)
(T (W x9c xed xfc xff x00 x00 x00 x00)
(T (W x1c x01 x00 x00 x01 x00 x00 x00)
(T (W x45 x26 x22 x84 xe4 x9c xf2 xcb)
(L (W x4a xb1 xfe xff x40 x01 x00 x00))
(L (W x45 x26 x22 x84 xe4 x9c xf2 xcb)))
(T (W x04 x00 x00 x00 x00 x00 x00 x00)
(L (W x34 x00 x00 x00 x20 x00 x00 x00)) E))
(T (W x00 x00 x00 x00 x00 x00 x00 x00)
(T (W x45 x26 x22 x84 xe4 x9c xf2 xcb)
(L (W x3c x01 x00 x00 x30 x01 x00 x00))
(L (W x34 x00 x00 x00 x20 x00 x00 x00)))
(T (W x00 x00 x80 xbf x00 x00 x80 xbf)
(L (W x45 x26 x22 x84 xe4 x9c xf2 xcb)) E)))
(T (W x01 x00 x00 x00 x04 x00 x00 x00)
(T (W x45 x26 x22 x84 xe4 x9c xf2 xcb)
(T (W x45 x26 x22 x84 xe4 x9c xf2 xcb)
(L (W x45 x26 x22 x84 xe4 x9c xf2 xcb))
(L (W x1a xcd xff xff x00 x00 x80 x3f)))
(T (W x44 x50 xfe xff x50 x00 x00 x00)
(L (W x2c x00 x00 x00 x20 x00 x00 x00)) E))
(T (W x00 x00 x00 x00 x00 x00 x00 x00)
(T (W x48 x00 x00 x00 x34 x00 x00 x00)
(L (W x45 x26 x22 x84 xe4 x9c xf2 xcb)) E)
(T (W x00 x00 x00 x00 x00 x00 x00 x00)
(L (W x00 x00 x00 x00 x00 x00 x00 x00)) E)))))))
(T (W xb0 x56 x00 x00 xc4 x54 x00 x00)
(T (W x44 x00 x00 x00 x30 x00 x00 x00)
(T (W x00 x00 x00 x00 x1c x00 x00 x00)
(T (W x45 x26 x22 x84 xe4 x9c xf2 xcb)
(T (W x92 xb7 xff xff x00 x00 x00 x01)
(T (W x00 x00 x00 x00 x00 x00 x00 x00)
(T (W xdf x34 x5f x23 x15 x4d xa9 x1d)
(L (W x00 x00 x00 x00 x00 x00 x00 x00))
(L (W x00 x00 x00 x00 x00 x00 x00 x00)))
(T (W x00 x00 x80 xbf x00 x00 x80 xbf)
(L (W x00 x00 x80 x3f x00 x00 x80 x3f)) E))
(T (W x5f x4e x45 x57 x5f x4f x55 x54)
(T (W x00 x00 x00 x00 x01 x00 x00 x00)
(L (W x00 x00 x80 x3f xa0 xd3 xfe xff))
(L (W xf5 xef xa2 xb3 x82 x9f x1b xf5)))
(T (W x44 x00 x00 x00 x30 x00 x00 x00)
(L (W x9c x53 xff xff x1e x53 xff xff)) E)))
(T (W x00 x00 x00 x00 x1e xf3 xfc xff)
(T (W x45 x26 x22 x84 xe4 x9c xf2 xcb)
(T (W x9c xb3 xfd xff x00 x00 x00 x00)
(L (W x45 x26 x22 x84 xe4 x9c xf2 xcb))
(L (W x00 x00 x00 x00 xa0 xb3 xff xff)))
(T (W x00 x00 x00 x00 xa0 x33 xfe xff)
(L (W x45 x26 x22 x84 xe4 x9c xf2 xcb)) E))
(T (W x55 x39 x81 x6a xc4 xc7 x74 x14)
(T (W x78 x00 x00 x00 x6c x00 x00 x00)
(L (W x45 x26 x22 x84 xe4 x9c xf2 xcb))
(L (W x9c xf3 xff xff x00 x00 x00 x00)))
(T (W x01 x00 x00 x00 x04 x00 x00 x00)
(L (W x00 x00 x00 x00 xa0 x73 xff xff)) E))))
(T (W x5c x00 x00 x00 x50 x00 x00 x00)
(T (W x9c xe3 xfc xff x00 x00 x00 x00)
(T (W x2c x00 x00 x00 x18 x00 x00 x00)
(T (W x1a xa3 xfd xff x00 x00 x80 x3f)
(L (W x00 x00 x00 x00 x00 x00 x00 x00))
(L (W x04 x00 x00 x00 xc0 xa5 xff xff)))
(T (W x00 x00 x00 x00 x01 x00 x00 x00)
(L (W x00 x00 x00 x00 x00 x00 x00 x00)) E))
(T (W x00 x00 x00 x00 x01 x00 x00 x00)
(T (W x02 x00 x00 x00 x32 x38 x00 x00)
(L (W x00 x00 x00 x00 x00 x00 x00 x00))
(L (W x2c x00 x00 x00 x18 x00 x00 x00)))
(T (W x44 x66 xfe xff x50 x00 x00 x00)
(L (W x00 x00 x00 x00 x01 x00 x00 x00)) E)))
(T (W x00 x00 x00 x00 x01 x00 x00 x00)
(T (W x3c x01 x00 x00 x30 x01 x00 x00)
(T (W x45 x26 x22 x84 xe4 x9c xf2 xcb)
(L (W x00 x00 x00 x00 x62 xcb xfe xff))
(L (W x9c xc3 xff xff x00 x00 x00 x00)))
(T (W x4a xcb xfe x36 x15 xfe x4e x40)
(L (W x42 x52 x45 x41 x4b x5f x41 x52)) E))
(T (W x04 x00 x00 x00 x88 x83 xfd xff)
(T (W x01 x00 x00 x00 x04 x00 x00 x00)
(L (W x1c x01 x00 x00 x01 x00 x00 x00)) E)
(T (W x04 x00 x00 x00 x00 x00 x00 x00)
(L (W x9c x71 xe4 x94 x46 x09 x0e x9a)) E)))))
(T (W x34 x00 x00 x00 x20 x00 x00 x00)
(T (W x45 x26 x22 x84 xe4 x9c xf2 xcb)
(T (W x04 x00 x00 x00 x00 x00 x00 x00)
(T (W x4f x84 x6f x8b xe8 xcb x63 xb7)
(T (W x00 x00 x00 x00 xa0 x9b xfd xff)
(L (W xbf x8e x81 xfd x8a xbd xe4 xee))
(L (W x45 x26 x22 x84 xe4 x9c xf2 xcb)))
(T (W x9c x1b xfe xff x00 x00 x00 x00)
(L (W x04 x00 x00 x00 xda x20 xff xff)) E))
(T (W xf6 xc8 xe6 x43 x71 x3d x16 x42)
(T (W x00 x00 x00 x00 x00 x00 x00 x00)
(L (W x30 xd7 x1b x72 x9d x08 xa7 xbe))
(L (W x00 x00 x00 x00 x00 x00 x00 x00)))
(T (W x00 x00 x00 x00 x01 x00 x00 x00)
(L (W x45 x26 x22 x84 xe4 x9c xf2 xcb)) E)))
(T (W x5f x41 x52 x45 x41 x30 x32 x00)
(T (W x00 x00 x00 x00 x00 x00 x00 x00)
(T (W x00 x00 x80 xbf x00 x00 x80 xbf)
(L (W xfc x66 xff x4b x84 x99 x7b x61))
(L (W x00 x00 xa0 x40 x24 x01 x00 x00)))
(T (W x00 x00 x80 x3f x00 x00 x80 x3f)
(L (W x00 x00 x00 x00 x00 x00 x00 x00)) E))
(T (W x00 x00 x00 x00 x01 x00 x00 x00)
(T (W x28 x01 x00 x00 x20 x01 x00 x00)
(L (W x00 x00 x00 x00 x01 x00 x00 x00))
(L (W x00 x00 x00 x00 xa0 xfb xff xff)))
(T (W x00 x00 x80 x3f x00 x00 x80 x3f)
(L (W x1a x7b xff xff x00 x00 x80 x3f)) E))))
(T (W x00 x00 x00 x00 x02 x00 x00 x00)
(T (W x00 x00 x00 x00 x00 x00 x00 x00)
(T (W x11 x00 x00 x00 x57 x53 x59 x53)
(T (W x00 x00 x00 x00 x01 x00 x00 x00)
(L (W x00 x00 x00 x00 x00 x00 x00 x00))
(L (W x04 x00 x00 x00 x00 x00 x00 x00)))
(T (W x00 x00 x00 x00 x01 x00 x00 x00)
(L (W x01 x00 x00 x00 x00 x00 x80 x3f)) E))
(T (W x00 x00 x00 x00 x00 x00 x00 x00)
(T (W x04 x00 x00 x00 xda xf0 xfd xff)
(L (W x66 x26 xd0 x43 x33 x33 xbf x42))
(L (W x00 x00 x00 x00 x62 xf3 xff xff)))
(T (W x00 x00 x00 x00 x00 x00 x00 x00)
(L (W x01 x00 x00 x00 x01 x00 x00 x00)) E)))
(T (W x00 x00 x00 x00 xa0 x0b xfd xff)
(T (W x9c x4b xfd xff x00 x00 x00 x00)
(T (W x00 x00 x00 x00 x01 x00 x00 x00)
(L (W x00 x00 x00 x00 xa0 xcb xfe xff))
(L (W x04 x00 x00 x00 xc0 xcd xff xff)))
(T (W x9c x4b xfe xff x00 x00 x00 x00)
(L (W x45 x26 x22 x84 xe4 x9c xf2 xcb)) E))
(T (W x00 x00 x00 x00 x00 x00 x00 x00)
(T (W x00 x00 x00 x00 xa0 x0b xfe xff)
(L (W x44 x0e xff xff x50 x00 x00 x00)) E)
(T (W x99 x5c xca xc9 x03 x87 xa3 xbc)
(L (W x2c x00 x00 x00 x20 x00 x00 x00)) E))))))
(T (W x9c x9f xfc xff x1e x9f xfc xff)
(T (W x3c x01 x00 x00 x30 x01 x00 x00)
(T (W x00 x00 x00 x00 xa0 xb7 xfc xff)
(T (W x00 x00 x80 xbf x9c x00 x00 x00)
(T (W x04 x00 x00 x00 x88 x17 xfd xff)
(T (W x45 x26 x22 x84 xe4 x9c xf2 xcb)
(L (W x45 x41 x30 x32 x5f x30 x31 x32))
(L (W x34 x00 x00 x00 x20 x00 x00 x00)))
(T (W x00 x00 x00 x00 x01 x00 x00 x00)
(L (W x00 x00 x80 xbf x9c x00 x00 x00)) E))
(T (W x04 x00 x00 x00 x88 x57 xfd xff)
(T (W x00 x00 x00 x00 xa0 xd7 xfd xff)
(L (W x00 x00 x00 x00 x00 x00 x00 x00))
(L (W x45 x26 x22 x84 xe4 x9c xf2 xcb)))
(T (W x3c x01 x00 x00 x30 x01 x00 x00)
(L (W x34 x00 x00 x00 x20 x00 x00 x00)) E)))
(T (W x00 x00 x00 x00 x00 x00 x00 x00)
(T (W x44 x00 x00 x00 x38 x00 x00 x00)
(T (W x1a xb7 xfd xff x00 x00 x80 x3f)
(L (W x45 x26 x22 x84 xe4 x9c xf2 xcb))
(L (W x28 x00 x00 x00 x14 x00 x00 x00)))
(T (W x00 x00 x00 x00 x00 x00 x00 x00)
(L (W x44 x3a xff xff x50 x00 x00 x00)) E))
(T (W x00 x00 x00 x00 x00 x00 x00 x00)
(T (W x66 x86 x50 x44 xb8 x1e x16 x42)
(L (W xa0 x81 xa7 x28 xbf x47 x53 x6a))
(L (W x00 x00 x00 x00 x00 x00 x00 x00)))
(T (W x9c x77 xfe xff x00 x00 x00 x00)
(L (W x00 x00 x00 x00 x00 x00 x00 x00)) E))))
(T (W x00 x00 x80 x3f x00 x00 x80 x3f)
(T (W xfd xaf x30 x97 x85 x2b x5c x5f)
(T (W x00 x00 x00 x00 x00 x00 x00 x00)
(T (W x00 x00 x00 x00 x00 x00 x00 x00)
(L (W x5c x00 x00 x00 x50 x00 x00 x00))
(L (W x00 x00 x00 x00 x00 x00 x00 x00)))
(T (W x00 x00 x00 x00 x00 x00 x00 x00)
(L (W x9c x27 xff xff x1e x27 xff xff)) E))
(T (W x00 x00 x00 x00 xa0 x67 xfd xff)
(T (W x01 x00 x00 x00 x00 x00 x80 x3f)
(L (W x2c x00 x00 x00 x18 x00 x00 x00))
(L (W x00 x00 x00 x00 x00 x00 x00 x00)))
(T (W x04 x00 x00 x00 xc0 x69 xfe xff)
(L (W x00 x00 x00 x00 x00 x00 x00 x00)) E)))
(T (W x45 x26 x22 x84 xe4 x9c xf2 xcb)
(T (W x45 x26 x22 x84 xe4 x9c xf2 xcb)
(T (W x01 x00 x00 x00 x04 x00 x00 x00)
(L (W x04 x00 x00 x00 xda xcc xfe xff))
(L (W x70 xe5 xaf x28 xbf x50 x5d x6a)))
(T (W x45 x26 x22 x84 xe4 x9c xf2 xcb)
(L (W xb9 x1a x42 xe3 x48 x2f x25 x26)) E))
(T (W x55 x6c xfc xf1 x99 x9e xc9 x88)
(T (W x45 x26 x22 x84 xe4 x9c xf2 xcb)
(L (W x45 x26 x22 x84 xe4 x9c xf2 xcb)) E)
(T (W x40 x00 x00 x00 x38 x00 x00 x00)
(L (W x54 x00 x00 x00 x48 x00 x00 x00)) E)))))
(T (W x00 x00 x00 x00 x01 x00 x00 x00)
(T (W x00 x00 x00 x00 x00 x00 x00 x00)
(T (W x45 x26 x22 x84 xe4 x9c xf2 xcb)
(T (W x45 x26 x22 x84 xe4 x9c xf2 xcb)
(T (W x9c x9f xfd xff x00 x00 x00 x00)
(L (W x00 x00 x00 x00 xa0 x9f xfe xff))
(L (W x45 x26 x22 x84 xe4 x9c xf2 xcb)))
(T (W x00 x00 x00 x00 x00 x00 x00 x00)
(L (W x00 x00 x00 x00 xa0 x1f xff xff)) E))
(T (W x00 x00 x40 x40 x24 x01 x00 x00)
(T (W x04 x00 x00 x00 xc0 xe1 xfd xff)
(L (W x45 x26 x22 x84 xe4 x9c xf2 xcb))
(L (W x9c xdf xff xff x00 x00 x00 x00)))
(T (W x45 x26 x22 x84 xe4 x9c xf2 xcb)
(L (W x44 x62 xff xff x50 x00 x00 x00)) E)))
(T (W x00 x00 x80 xbf x00 x00 x80 xbf)
(T (W x44 x00 x00 x00 x30 x00 x00 x00)
(T (W x00 x00 x00 x00 x01 x00 x00 x00)
(L (W x5c x00 x00 x00 x50 x00 x00 x00))
(L (W x00 x00 x00 x00 x01 x00 x00 x00)))
(T (W x42 x52 x45 x41 x4b x5f x41 x52)
(L (W x28 x00 x00 x00 x14 x00 x00 x00)) E))
(T (W x44 x82 xfd xff x50 x00 x00 x00)
(T (W x40 x00 x00 x00 x38 x00 x00 x00)
(L (W x00 x00 x00 x00 x00 x00 x00 x00))
(L (W x08 x00 x0c x00 x10 x00 x14 x00)))
(T (W x00 x00 xa0 x40 x24 x01 x00 x00)
(L (W x3c x01 x00 x00 x30 x01 x00 x00)) E))))
(T (W x00 x00 x00 x00 x00 x00 x00 x00)
(T (W x78 x00 x00 x00 x6c x00 x00 x00)
(T (W x90 x64 xf2 x76 xad x74 x8d xf4)
(T (W x00 x00 x00 x00 xa0 xaf xfd xff)
(L (W x00 x00 x80 xbf x9c x00 x00 x00))
(L (W x00 x00 x00 x00 xa0 xaf xff xff)))
(T (W x45 x26 x22 x84 xe4 x9c xf2 xcb)
(L (W x00 x00 x00 x00 x01 x00 x00 x00)) E))
(T (W x00 x00 x00 x00 x01 x00 x00 x00)
(T (W x44 x00 x00 x00 x38 x00 x00 x00)
(L (W x34 x00 x00 x00 x20 x00 x00 x00))
(L (W x04 x00 x00 x00 xda xf4 xff xff)))
(T (W x04 x00 x00 x00 x00 x00 x00 x00)
(L (W x00 x00 x00 x00 x01 x00 x00 x00)) E)))
(T (W x2c x00 x00 x00 x20 x00 x00 x00)
(T (W x00 x00 x00 x00 x00 x00 x00 x00)
(T (W x00 x00 x00 x00 x00 x00 x00 x00)
(L (W x9c xcf xfe xff x00 x00 x00 x00))
(L (W x00 x00 x00 x00 x01 x00 x00 x00)))
(T (W x00 x00 x00 x00 x00 x00 x00 x00)
(L (W x00 x00 x00 x00 x00 x00 x00 x00)) E))
(T (W x00 x00 x40 x40 x24 x01 x00 x00)
(T (W x00 x00 x80 x3f xa0 x0f xfe xff)
(L (W x00 x00 x00 x00 xa0 x0f xff xff)) E)
(T (W x00 x00 x00 x00 x01 x00 x00 x00)
(L (W x5c x00 x00 x00 x50 x00 x00 x00)) E))))))))
(T (W xa4 xbd x01 x00 xb8 xbb x01 x00)
(T (W x3c xd0 x00 x00 x70 xce x00 x00)
(T (W x04 x00 x00 x00 x00 x00 x00 x00)
(T (W x9c xa2 xfc xff x00 x00 x00 x00)
(T (W x1a xb2 xfc xff x00 x00 x80 x3f)
(T (W x2c x00 x00 x00 x20 x00 x00 x00)
(T (W x1c x01 x00 x00 x04 x00 x00 x00)
(T (W x00 x00 x00 x00 x00 x00 x00 x00)
(L (W x45 x26 x22 x84 xe4 x9c xf2 xcb))
(L (W x45 x26 x22 x84 xe4 x9c xf2 xcb)))
(T (W x04 xbd x1c x76 x80 xbc xf7 x18)
(L (W x45 x26 x22 x84 xe4 x9c xf2 xcb)) E))
(T (W x00 x00 x80 xbf x9c x00 x00 x00)
(T (W x00 x00 x00 x00 x00 x00 x00 x00)
(L (W x45 x26 x22 x84 xe4 x9c xf2 xcb))
(L (W x00 x00 x00 x00 x00 x00 x00 x00)))
(T (W x04 x00 x00 x00 x00 x00 x00 x00)
(L (W x45 x26 x22 x84 xe4 x9c xf2 xcb)) E)))
(T (W x40 x00 x00 x00 x38 x00 x00 x00)
(T (W x45 x26 x22 x84 xe4 x9c xf2 xcb)
(T (W x34 x00 x00 x00 x20 x00 x00 x00)
(L (W x28 x00 x00 x00 x14 x00 x00 x00))
(L (W x00 x00 x80 xbf x9c x00 x00 x00)))
(T (W x00 x00 x00 x00 x00 x00 x00 x00)
(L (W x45 x26 x22 x84 xe4 x9c xf2 xcb)) E))
(T (W x04 x00 x00 x00 xda x77 xfd xff)
(T (W x45 x26 x22 x84 xe4 x9c xf2 xcb)
(L (W x28 x00 x00 x00 x14 x00 x00 x00))
(L (W x00 x00 x00 x00 x00 x00 x00 x00)))
(T (W x14 xae x31 x44 x71 xbd xac x42)
(L (W x1a x72 xff xff x66 x46 x09 x44)) E))))
(T (W x00 x00 x00 x00 x01 x00 x00 x00)
(T (W x00 x00 x00 x00 x00 x00 x00 x00)
(T (W x00 x00 x00 x00 x01 x00 x00 x00)
(T (W x40 x00 x00 x00 x38 x00 x00 x00)
(L (W x3c x01 x00 x00 x30 x01 x00 x00))
(L (W xc9 xf5 xfe x3f x3b x7e xde xdf)))
(T (W x5e xed x04 x37 x15 x00 x56 x40)
(L (W x01 x00 x00 x00 x00 x00 x80 x3f)) E))
(T (W x00 x00 x00 x00 x01 x00 x00 x00)
(T (W x00 x00 x00 x00 xa0 xe2 xfd xff)
(L (W x1c x01 x00 x00 x01 x00 x00 x00))
(L (W x00 x00 x00 x00 x01 x00 x00 x00)))
(T (W x85 xeb xed x43 x00 x00 x00 x00)
(L (W xab x58 x36 x08 x1e x49 x40 xb9)) E)))
(T (W x00 x00 x00 x00 x01 x00 x00 x00)
(T (W x01 x00 x00 x00 x04 x00 x00 x00)
(T (W x55 x39 x81 x6a xc4 xc7 x74 x14)
(L (W x00 x00 x00 x00 xa0 xc2 xfe xff))
(L (W x00 x00 x80 x3f x00 x00 x80 x3f)))
(T (W x00 x00 x00 x00 x00 x00 x00 x00)
(L (W x44 x45 xff xff x50 x00 x00 x00)) E))
(T (W x71 x5a xfd x13 x09 xc3 xe4 x3c)
(T (W x00 x00 x00 x00 x00 x00 x00 x00)
(L (W x44 x00 x00 x00 x38 x00 x00 x00)) E)
(T (W x04 x00 x00 x00 x88 x82 xfe xff)
(L (W x00 x00 x00 x00 x00 x00 x00 x00)) E)))))
(T (W x00 x00 x00 x00 x00 x00 x00 x00)
(T (W x5f x30 x30 x39 x00 x00 x00 x00)
(T (W x04 x00 x00 x00 x88 xda xfc xff)
(T (W x54 x00 x00 x00 x48 x00 x00 x00)
(T (W x00 x00 x00 x00 x00 x00 x00 x00)
(L (W x00 x00 x00 x00 x00 x00 x00 x00))
(L (W x45 x26 x22 x84 xe4 x9c xf2 xcb)))
(T (W x00 x00 x80 x3f x00 x00 x80 x3f)
(L (W x74 x00 x00 x00 x68 x00 x00 x00)) E))
(T (W x45 x26 x22 x84 xe4 x9c xf2 xcb)
(T (W x1c x01 x00 x00 x01 x00 x00 x00)
(L (W x00 x00 x00 x00 x00 x00 x00 x00))
(L (W x3c x01 x00 x00 x30 x01 x00 x00)))
(T (W x00 x00 x00 x00 x00 x00 x00 x00)
(L (W x74 x00 x00 x00 x68 x00 x00 x00)) E)))
(T (W x44 x00 x00 x00 x38 x00 x00 x00)
(T (W x28 x01 x00 x00 x20 x01 x00 x00)
(T (W xb2 x4c xbb x28 xbf xd2 x6a x6a)
(L (W x00 x00 x00 x00 x00 x00 x00 x00))
(L (W x44 xbd xff xff x50 x00 x00 x00)))
(T (W x45 x26 x22 x84 xe4 x9c xf2 xcb)
(L (W x00 x00 xa0 x40 x24 x01 x00 x00)) E))
(T (W x00 x00 x00 x00 xa0 x7a xfd xff)
(T (W x44 x00 x00 x00 x38 x00 x00 x00)
(L (W x98 xd7 xca xf8 x1d xd8 x70 x9e))
(L (W x8c x6c x71 x48 x06 x55 x07 x54)))
(T (W x45 x26 x22 x84 xe4 x9c xf2 xcb)
(L (W x40 x00 x00 x00 x38 x00 x00 x00)) E))))
(T (W x00 x00 x00 x00 xa0 xca xfc xff)
(T (W x04 x00 x00 x00 x00 x00 x80 x3f)
(T (W x40 x00 x00 x00 x34 x00 x00 x00)
(T (W x00 x00 x00 x00 x00 x00 x00 x00)
(L (W x45 x26 x22 x84 xe4 x9c xf2 xcb))
(L (W x00 x00 x00 x00 x00 x00 x00 x00)))
(T (W x00 x00 x00 x00 x00 x00 x00 x00)
(L (W x2c x00 x00 x00 x20 x00 x00 x00)) E))
(T (W x28 x01 x00 x00 x20 x01 x00 x00)
(T (W x9c xea xfd xff x00 x00 x00 x00)
(L (W x45 x26 x22 x84 xe4 x9c xf2 xcb))
(L (W x2c x00 x00 x00 x20 x00 x00 x00)))
(T (W x00 x00 x00 x00 xa0 x6a xfe xff)
(L (W x45 x26 x22 x84 xe4 x9c xf2 xcb)) E)))
(T (W x3d x0a x62 x42 xf6 x08 x05 x44)
(T (W x00 x00 x80 x3f x00 x00 x80 x3f)
(T (W xc7 xb3 x2f x19 x15 x0e xe6 x0b)
(L (W x00 x00 x00 x00 x00 x00 x00 x00))
(L (W x4b x01 xaf x5e x73 x44 x39 x4f)))
(T (W x66 xd6 x14 x44 x00 x00 x00 x00)
(L (W x45 x26 x22 x84 xe4 x9c xf2 xcb)) E))
(T (W x45 x26 x22 x84 xe4 x9c xf2 xcb)
(T (W x00 x00 x80 xbf x9c x00 x00 x00)
(L (W x85 xab xe7 x43 x00 x00 x00 x00)) E)
(T (W x00 x00 x00 x00 x00 x00 x00 x00)
(L (W x00 x00 x00 x00 x00 x00 x00 x00)) E))))))
(T (W x45 x26 x22 x84 xe4 x9c xf2 xcb)
(T (W x3f x7c x88 xaf x9a x1e x19 x7c)
(T (W x00 x00 x00 x00 x00 x00 x00 x00)
(T (W x00 x00 x00 x00 x00 x00 x00 x00)
(T (W xdf x7c xa5 x04 xf3 xe3 xc3 x03)
(T (W x55 x6c xfc xf1 x99 x9e xc9 x88)
(L (W x44 x00 x00 x00 x38 x00 x00 x00))
(L (W x45 x26 x22 x84 xe4 x9c xf2 xcb)))
(T (W x00 x00 x00 x00 x01 x00 x00 x00)
(L (W x45 x26 x22 x84 xe4 x9c xf2 xcb)) E))
(T (W xe0 x5e x9a x5e xbc x18 x42 x08)
(T (W x9c xd6 xfd xff x1e xd6 xfd xff)
(L (W x9c xd6 xfe xff x00 x00 x00 x00))
(L (W x00 x00 x00 x00 x1e xd6 xff xff)))
(T (W x01 x00 x00 x00 x04 x00 x00 x00)
(L (W x45 x26 x22 x84 xe4 x9c xf2 xcb)) E)))
(T (W x45 x26 x22 x84 xe4 x9c xf2 xcb)
(T (W x46 x53 x59 x53 x5f x4e x45 x57)
(T (W x40 x00 x00 x00 x38 x00 x00 x00)
(L (W x55 x6c xfc xf1 x99 x9e xc9 x88))
(L (W x00 x00 x00 x00 x01 x00 x00 x00)))
(T (W x1c x01 x00 x00 x01 x00 x00 x00)
(L (W x00 x00 x00 x00 x00 x00 x00 x00)) E))
(T (W x9c x76 xfd xff x00 x00 x00 x00)
(T (W x45 x26 x22 x84 xe4 x9c xf2 xcb)
(L (W x42 x52 x45 x41 x4b x5f x41 x52))
(L (W x00 x00 x80 xbf x00 x00 x80 xbf)))
(T (W x34 x00 x00 x00 x20 x00 x00 x00)
(L (W x01 x00 x00 x00 x01 x00 x00 x00)) E))))
(T (W x45 x26 x22 x84 xe4 x9c xf2 xcb)
(T (W x4e x45 x52 x41 x54 x49 x4f x4e)
(T (W x45 x26 x22 x84 xe4 x9c xf2 xcb)
(T (W x45 x26 x22 x84 xe4 x9c xf2 xcb)
(L (W x00 x00 x00 x00 x01 x00 x00 x00))
(L (W x00 x00 x00 x00 xa0 xa6 xff xff)))
(T (W x45 x26 x22 x84 xe4 x9c xf2 xcb)
(L (W x45 x26 x22 x84 xe4 x9c xf2 xcb)) E))
(T (W x9c x66 xfd xff x1e x66 xfd xff)
(T (W x00 x00 x00 x00 x00 x00 x00 x00)
(L (W x00 x00 x00 x00 x01 x00 x00 x00))
(L (W x00 x00 x00 x00 xa0 xe6 xff xff)))
(T (W x5c x54 x11 xd7 x3a x5b xe9 x72)
(L (W x45 x26 x22 x84 xe4 x9c xf2 xcb)) E)))
(T (W xd6 x81 x9c x94 x9b x27 x57 x25)
(T (W x9c x46 xfd xff x00 x00 x00 x00)
(T (W x00 x00 x00 x00 x00 x00 x00 x00)
(L (W x9c xc6 xfe xff x00 x00 x00 x00))
(L (W x42 x52 x45 x41 x4b x5f x41 x52)))
(T (W x45 x26 x22 x84 xe4 x9c xf2 xcb)
(L (W x00 x00 x00 x00 x00 x00 x00 x00)) E))
(T (W x54 x00 x00 x00 x48 x00 x00 x00)
(T (W x00 x00 x00 x00 x62 x0e xfe xff)
(L (W x74 x00 x00 x00 x68 x00 x00 x00)) E)
(T (W x44 x00 x00 x00 x30 x00 x00 x00)
(L (W x48 x00 x00 x00 x34 x00 x00 x00)) E)))))
(T (W x74 x00 x00 x00 x68 x00 x00 x00)
(T (W x00 x00 x80 xbf x00 x00 x80 xbf)
(T (W x4f x84 x6f x8b xe8 xcb x63 xb7)
(T (W x04 x00 x00 x00 xda x23 xfd xff)
(T (W x34 x00 x00 x00 x20 x00 x00 x00)
(L (W x1a x9e xfe xff x00 x00 x80 x3f))
(L (W x45 x41 x30 x32 x5f x30 x30 x34)))
(T (W x00 x00 xa0 x40 x24 x01 x00 x00)
(L (W x9c x1e xff xff x1e x1e xff xff)) E))
(T (W x00 x00 x00 x00 x00 x00 x00 x00)
(T (W xfb x4f xe1 x75 x8f x6b xa9 x61)
(L (W x00 x00 x80 x3f x00 x00 x80 x3f))
(L (W x34 x00 x00 x00 x20 x00 x00 x00)))
(T (W x55 x39 x81 x6a xc4 xc7 x74 x14)
(L (W xc3 xd5 x1e x44 x00 x00 x00 x00)) E)))
(T (W x00 x00 x00 x00 x00 x00 x00 x00)
(T (W x04 x00 x00 x00 x00 x00 x00 x00)
(T (W x00 x00 x00 x00 x01 x00 x00 x00)
(L (W x00 x00 x00 x00 x01 x00 x00 x00))
(L (W x04 x00 x00 x00 xc0 xc0 xff xff)))
(T (W x44 x41 xfe xff x50 x00 x00 x00)
(L (W x00 x00 x00 x00 x01 x00 x00 x00)) E))
(T (W x9a xf9 x4c x44 x00 x00 x00 x00)
(T (W x04 x00 x00 x00 xc0 x00 xfe xff)
(L (W x45 x26 x22 x84 xe4 x9c xf2 xcb))
(L (W x24 x00 x28 x00 x2c x00 x30 x00)))
(T (W x45 x26 x22 x84 xe4 x9c xf2 xcb)
(L (W x01 x00 x00 x00 x04 x00 x00 x00)) E))))
(T (W x00 x00 x00 x00 xa0 xce xfc xff)
(T (W x45 x26 x22 x84 xe4 x9c xf2 xcb)
(T (W x00 x00 x00 x00 x00 x00 x00 x00)
(T (W x9c xae xfd xff x1e xae xfd xff)
(L (W x45 x26 x22 x84 xe4 x9c xf2 xcb))
(L (W x1a xae xff xff x9a x99 x87 x43)))
(T (W x44 x00 x00 x00 x30 x00 x00 x00)
(L (W x9c x2e xff xff x00 x00 x00 x00)) E))
(T (W x8a x93 x64 x23 x15 xdc xaf x1d)
(T (W x00 x00 x00 x00 x00 x00 x00 x00)
(L (W x00 x00 x00 x00 x00 x00 x00 x00))
(L (W x9c xee xff xff x00 x00 x00 x00)))
(T (W x00 x00 x00 x00 x00 x00 x00 x00)
(L (W x78 x00 x00 x00 x6c x00 x00 x00)) E)))
(T (W x5f x4d x41 x53 x53 x5f x47 x41)
(T (W x00 x00 x40 x40 x24 x01 x00 x00)
(T (W x45 x26 x22 x84 xe4 x9c xf2 xcb)
(L (W x34 x00 x00 x00 x20 x00 x00 x00))
(L (W x00 x00 x00 x00 xa0 xce xff xff)))
(T (W x00 x00 xa0 x40 x24 x01 x00 x00)
(L (W x01 x00 x00 x00 x00 x00 x80 x3f)) E))
(T (W x44 x91 xfd xff x50 x00 x00 x00)
(T (W x45 x26 x22 x84 xe4 x9c xf2 xcb)
(L (W x00 x00 x80 xbf x9c x00 x00 x00)) E)
(T (W xde x91 xa3 x28 x15 x84 xbf x26)
(L (W x00 x00 x00 x00 x01 x00 x00 x00)) E)))))))
(T (W xd3 xcc xe5 x4a x91 xad xc9 x02)
(T (W x54 x00 x00 x00 x48 x00 x00 x00)
(T (W x44 xa7 xfc xff x50 x00 x00 x00)
(T (W x00 x00 xd8 x43 x33 x33 x5d x42)
(T (W x45 x26 x22 x84 xe4 x9c xf2 xcb)
(T (W x00 x00 x80 xbf x9c x00 x00 x00)
(T (W x00 x00 x00 x00 x01 x00 x00 x00)
(L (W x00 x00 x00 x00 xa0 x94 xfe xff))
(L (W x00 x00 x00 x00 xa0 x94 xff xff)))
(T (W x00 x00 x00 x00 x00 x00 x00 x00)
(L (W x9c x14 xff xff x00 x00 x00 x00)) E))
(T (W x00 x00 x80 xbf x9c x00 x00 x00)
(T (W x5c x00 x00 x00 x50 x00 x00 x00)
(L (W x45 x26 x22 x84 xe4 x9c xf2 xcb))
(L (W x04 x00 x00 x00 xc0 xd6 xff xff)))
(T (W x45 x26 x22 x84 xe4 x9c xf2 xcb)
(L (W x00 x00 x00 x00 xa0 x54 xff xff)) E)))
(T (W x45 x26 x22 x84 xe4 x9c xf2 xcb)
(T (W x00 x00 x00 x00 x00 x00 x00 x00)
(T (W x00 x00 x00 x00 x01 x00 x00 x00)
(L (W xd6 x81 x9c x94 x9b x27 x57 x25))
(L (W x00 x00 x00 x00 x01 x00 x00 x00)))
(T (W x1c x00 x00 x00 x46 x53 x59 x53)
(L (W x00 x00 x00 x00 x00 x00 x00 x00)) E))
(T (W x45 x26 x22 x84 xe4 x9c xf2 xcb)
(T (W x40 x00 x00 x00 x38 x00 x00 x00)
(L (W xcd x6c xa2 x43 x00 x00 x00 x00))
(L (W x00 x00 x00 x00 x00 x00 x00 x00)))
(T (W x3a x98 xfe xff x00 x00 x00 x01)
(L (W x00 x00 x00 x00 x62 x7c xff xff)) E))))
(T (W x04 x00 x00 x00 xda xc9 xfc xff)
(T (W x02 x00 x00 x00 x33 x31 x00 x00)
(T (W x45 x26 x22 x84 xe4 x9c xf2 xcb)
(T (W x45 x26 x22 x84 xe4 x9c xf2 xcb)
(L (W xa6 xbf xb0 xef x1d xfb xf3 x8d))
(L (W x40 x00 x00 x00 x38 x00 x00 x00)))
(T (W x54 x00 x00 x00 x48 x00 x00 x00)
(L (W x00 x00 x00 x00 x01 x00 x00 x00)) E))
(T (W x5c x00 x00 x00 x50 x00 x00 x00)
(T (W x01 x00 x00 x00 x04 x00 x00 x00)
(L (W x45 x26 x22 x84 xe4 x9c xf2 xcb))
(L (W x40 x00 x00 x00 x38 x00 x00 x00)))
(T (W x00 x00 xa0 x40 x24 x01 x00 x00)
(L (W x04 x00 x00 x00 xda x69 xff xff)) E)))
(T (W x60 x00 x00 x00 x54 x00 x00 x00)
(T (W x00 x00 x00 x00 x00 x00 x00 x00)
(T (W x00 x00 x80 x3f x00 x00 x80 x3f)
(L (W x45 x26 x22 x84 xe4 x9c xf2 xcb))
(L (W x00 x00 x00 x00 x00 x00 x00 x00)))
(T (W x00 x00 x00 x00 x01 x00 x00 x00)
(L (W x66 xd4 xac x28 xbf xcf x59 x6a)) E))
(T (W x04 x00 x00 x00 x00 x00 x00 x00)
(T (W x5f x4e x45 x57 x5f x4f x55 x54)
(L (W x00 x00 x00 x00 x00 x00 x00 x00)) E)
(T (W x48 x00 x00 x00 x34 x00 x00 x00)
(L (W x04 x00 x00 x00 x88 x84 xff xff)) E)))))
(T (W x9c xac xfc xff x00 x00 x00 x00)
(T (W x00 x00 xe0 x40 x24 x01 x00 x00)
(T (W x48 x00 x00 x00 x34 x00 x00 x00)
(T (W x04 x00 x00 x00 x00 x00 x00 x00)
(T (W x00 x00 x00 x00 x62 xa4 xfd xff)
(L (W x04 x00 x00 x00 xc0 x9e xfe xff))
(L (W x00 x00 x00 x00 x00 x00 x00 x00)))
(T (W x00 x00 x00 x00 x00 x00 x00 x00)
(L (W x72 xeb x22 x37 x6d xc8 x9b xc2)) E))
(T (W x01 x00 x00 x00 x04 x00 x00 x00)
(T (W x00 x00 x80 xbf x9c x00 x00 x00)
(L (W x74 x00 x00 x00 x68 x00 x00 x00))
(L (W x3c x01 x00 x00 x30 x01 x00 x00)))
(T (W x60 x00 x00 x00 x54 x00 x00 x00)
(L (W x00 x00 x80 x3f x00 x00 x80 x3f)) E)))
(T (W x45 x26 x22 x84 xe4 x9c xf2 xcb)
(T (W x00 x00 x80 xbf x00 x00 x80 xbf)
(T (W x00 x00 x00 x00 x00 x00 x00 x00)
(L (W x00 x00 x80 x3f x02 x00 x00 x00))
(L (W x00 x00 x00 x00 x00 x00 x00 x00)))
(T (W x9c x3c xfe xff x00 x00 x00 x00)
(L (W x94 xd6 x62 x81 x22 xdf xbc xbf)) E))
(T (W x28 x00 x00 x00 x14 x00 x00 x00)
(T (W x00 x00 x00 x00 x00 x00 x00 x00)
(L (W x54 x00 x00 x00 x48 x00 x00 x00))
(L (W x01 x00 x00 x00 x01 x00 x00 x00)))
(T (W x9c x7c xfe xff x00 x00 x00 x00)
(L (W x00 x00 x00 x00 xa0 x7c xff xff)) E))))
(T (W x45 x26 x22 x84 xe4 x9c xf2 xcb)
(T (W x34 x00 x00 x00 x20 x00 x00 x00)
(T (W x2c x00 x00 x00 x20 x00 x00 x00)
(T (W x5c x00 x00 x00 x50 x00 x00 x00)
(L (W x2c x00 x00 x00 x20 x00 x00 x00))
(L (W x44 x00 x00 x00 x30 x00 x00 x00)))
(T (W x00 x00 x00 x00 x01 x00 x00 x00)
(L (W x00 x00 x00 x00 x00 x00 x00 x00)) E))
(T (W x00 x00 x80 xbf x00 x00 x80 xbf)
(T (W x45 x26 x22 x84 xe4 x9c xf2 xcb)
(L (W x01 x00 x00 x00 x04 x00 x00 x00))
(L (W x45 x26 x22 x84 xe4 x9c xf2 xcb)))
(T (W x0f x10 xb9 x28 xbf xce x67 x6a)
(L (W x00 x00 x00 x00 x00 x00 x00 x00)) E)))
(T (W x00 x00 x00 x00 x00 x00 x00 x00)
(T (W x00 x00 x00 x00 x00 x00 x00 x00)
(T (W x54 x00 x00 x00 x48 x00 x00 x00)
(L (W x00 x00 x00 x00 x62 xd4 xfe xff))
(L (W x40 x00 x00 x00 x38 x00 x00 x00)))
(T (W x00 x00 x00 x00 x00 x00 x00 x00)
(L (W x00 x00 x00 x00 x00 x00 x00 x00)) E))
(T (W x9c x8c xfd xff x00 x00 x00 x00)
(T (W x04 x00 x00 x00 x00 x00 x00 x00)
(L (W x54 x49 x4f x4e x5f x41 x52 x45)) E)
(T (W x00 x00 x80 xbf x00 x00 x80 xbf)
(L (W x01 x00 x00 x00 x00 x00 x80 x3f)) E))))))
(T (W x45 x26 x22 x84 xe4 x9c xf2 xcb)
(T (W x00 x00 x00 x00 x00 x00 x00 x00)
(T (W x46 x53 x59 x53 x5f x4e x45 x57)
(T (W x00 x00 x00 x00 xa0 xd8 xfc xff)
(T (W x04 x00 x00 x00 x00 x00 x00 x00)
(T (W x1a x98 xfd xff xa4 x10 xc5 x43)
(L (W x45 x26 x22 x84 xe4 x9c xf2 xcb))
(L (W x9c x98 xff xff x00 x00 x00 x00)))
(T (W x60 x00 x00 x00 x54 x00 x00 x00)
(L (W x00 x00 x00 x00 xa0 x18 xff xff)) E))
(T (W x04 x00 x00 x00 x00 x00 x00 x00)
(T (W x00 x00 x00 x00 x62 xe0 xfd xff)
(L (W xfc x66 xff x4b x84 x99 x7b x61))
(L (W x29 xdc xba x43 x9a x99 x52 x42)))
(T (W x00 x00 x00 x00 x00 x00 x00 x00)
(L (W x9c x58 xff xff x00 x00 x00 x00)) E)))
(T (W x00 x00 x00 x00 xa0 xf8 xfc xff)
(T (W x5f x30 x30 x33 x00 x00 x00 x00)
(T (W x00 x00 x00 x00 xa0 xb8 xfd xff)
(L (W x00 x00 x80 x3f xa0 xb8 xfe xff))
(L (W x45 x26 x22 x84 xe4 x9c xf2 xcb)))
(T (W x45 x26 x22 x84 xe4 x9c xf2 xcb)
(L (W x54 x49 x4f x4e x5f x41 x52 x45)) E))
(T (W x45 x26 x22 x84 xe4 x9c xf2 xcb)
(T (W x45 x26 x22 x84 xe4 x9c xf2 xcb)
(L (W x3c x01 x00 x00 x30 x01 x00 x00))
(L (W x00 x00 x80 xbf x9c x00 x00 x00)))
(T (W x45 x26 x22 x84 xe4 x9c xf2 xcb)
(L (W x45 x26 x22 x84 xe4 x9c xf2 xcb)) E))))
(T (W x45 x26 x22 x84 xe4 x9c xf2 xcb)
(T (W x3c x01 x00 x00 x30 x01 x00 x00)
(T (W x01 x00 x00 x00 x04 x00 x00 x00)
(T (W x2c x00 x00 x00 x20 x00 x00 x00)
(L (W x54 x00 x00 x00 x48 x00 x00 x00))
(L (W x19 xd6 xac x28 xbf xd0 x59 x6a)))
(T (W x2c x00 x00 x00 x20 x00 x00 x00)
(L (W x45 x26 x22 x84 xe4 x9c xf2 xcb)) E))
(T (W x00 x00 x00 x00 x00 x00 x00 x00)
(T (W x00 x00 x00 x00 x00 x00 x00 x00)
(L (W x40 x00 x00 x00 x38 x00 x00 x00))
(L (W x01 x00 x00 x00 x04 x00 x00 x00)))
(T (W x40 x00 x00 x00 x38 x00 x00 x00)
(L (W x00 x00 x00 x00 xa0 x68 xff xff)) E)))
(T (W x00 x00 x80 x3f x00 x00 x80 x3f)
(T (W x74 x00 x00 x00 x68 x00 x00 x00)
(T (W x3c x01 x00 x00 x30 x01 x00 x00)
(L (W x45 x26 x22 x84 xe4 x9c xf2 xcb))
(L (W x00 x00 x80 xbf x00 x00 x80 xbf)))
(T (W x7b xb4 x4e x44 x0a xd7 x1c x42)
(L (W x00 x00 x00 x00 x01 x00 x00 x00)) E))
(T (W x45 x26 x22 x84 xe4 x9c xf2 xcb)
(T (W x1c x01 x00 x00 x01 x00 x00 x00)
(L (W x00 x00 x80 x3f x00 x00 x80 x3f)) E)
(T (W x1a x88 xfe xff x00 x00 x80 x3f)
(L (W x45 x26 x22 x84 xe4 x9c xf2 xcb)) E)))))
(T (W x28 x00 x00 x00 x14 x00 x00 x00)
(T (W xf9 xbf x83 x67 x2b x77 xed x8e)
(T (W x00 x00 x80 x3f xa0 xe0 xfc xff)
(T (W x30 x30 x33 x00 x01 x00 x00 x00)
(T (W x00 x00 x00 x00 x01 x00 x00 x00)
(L (W x00 x00 x00 x00 x00 x00 x00 x00))
(L (W x00 x00 xc0 x40 x24 x01 x00 x00)))
(T (W x00 x00 x80 xbf x00 x00 x80 xbf)
(L (W x57 x53 x59 x53 x5f x4d x41 x53)) E))
(T (W x00 x00 x00 x00 x00 x00 x00 x00)
(T (W x40 x00 x00 x00 x38 x00 x00 x00)
(L (W x00 x00 x00 x00 x00 x00 x00 x00))
(L (W x45 x26 x22 x84 xe4 x9c xf2 xcb)))
(T (W x00 x00 x80 x3f x00 x00 x80 x3f)
(L (W x00 x00 x80 x40 x24 x01 x00 x00)) E)))
(T (W x00 x00 x00 x00 x00 x00 x00 x00)
(T (W x45 x26 x22 x84 xe4 x9c xf2 xcb)
(T (W x5c x00 x00 x00 x50 x00 x00 x00)
(L (W x45 x26 x22 x84 xe4 x9c xf2 xcb))
(L (W x28 x00 x00 x00 x14 x00 x00 x00)))
(T (W xe4 x56 xbb x28 xbf xd8 x6a x6a)
(L (W x45 x26 x22 x84 xe4 x9c xf2 xcb)) E))
(T (W x00 x00 xa0 x40 x24 x01 x00 x00)
(T (W x1a x00 xfe xff x00 x00 x80 x3f)
(L (W x00 x00 x00 x00 xa0 x00 xff xff))
(L (W x00 x00 x00 x00 x00 x00 x00 x00)))
(T (W x00 x00 x00 x00 x00 x00 x00 x00)
(L (W x00 x00 x00 x00 x00 x00 x00 x00)) E))))
(T (W x01 x00 x00 x00 x04 x00 x00 x00)
(T (W x00 x00 x00 x00 x01 x00 x00 x00)
(T (W x04 x00 x00 x00 x88 x30 xfd xff)
(T (W x00 x00 x00 x00 x62 xb8 xfd xff)
(L (W x00 x00 x00 x00 xa0 xb0 xfe xff))
(L (W x00 x00 x00 x00 x00 x00 x00 x00)))
(T (W x1a x30 xfe xff xd7 xe3 x54 x44)
(L (W x60 x00 x00 x00 x54 x00 x00 x00)) E))
(T (W x00 x00 x00 x00 x01 x00 x00 x00)
(T (W x1c x01 x00 x00 x01 x00 x00 x00)
(L (W x9c xf0 xfe xff x00 x00 x00 x00))
(L (W x45 x26 x22 x84 xe4 x9c xf2 xcb)))
(T (W x44 x00 x00 x00 x30 x00 x00 x00)
(L (W x2c x00 x00 x00 x18 x00 x00 x00)) E)))
(T (W x92 xf4 xff xff x00 x00 x00 x01)
(T (W x00 x00 x80 xbf x00 x00 x80 xbf)
(T (W x2c x00 x00 x00 x20 x00 x00 x00)
(L (W x04 x00 x00 x00 xda xd5 xfe xff))
(L (W x44 xd3 xff xff x50 x00 x00 x00)))
(T (W x2c x73 xfd x3a xaf xc2 x65 x16)
(L (W x00 x00 x00 x00 x01 x00 x00 x00)) E))
(T (W x00 x00 x00 x00 x00 x00 x00 x00)
(T (W x9c x10 xfe xff x00 x00 x00 x00)
(L (W x00 x00 x00 x00 x01 x00 x00 x00)) E)
(T (W x54 x00 x00 x00 x48 x00 x00 x00)
(L (W x45 x26 x22 x84 xe4 x9c xf2 xcb)) E)))))))))))
(T (W x58 x4b x03 x00 x58 x49 x03 x00)
(T (W xbc x2d x03 x00 xd8 x2b x03 x00)
(T (W x44 xf3 x02 x00 x58 xf1 x02 x00)
(T (W x3c x7d x02 x00 x70 x7b x02 x00)
(T (W xf4 x90 x01 x00 x28 x8f x01 x00)
(T (W x45 x26 x22 x84 xe4 x9c xf2 xcb)
(T (W x00 x00 x00 x00 x00 x00 x00 x00)
(T (W x46 x53 x59 x53 x5f x4e x45 x57)
(T (W x00 x00 x00 x00 x00 xd1 xfc xff)
(T (W x04 x00 x00 x00 x00 x00 x00 x00)
(T (W x55 x39 x81 x6a xc4 xc7 x74 x14)
(L (W xa4 x93 xfe xff x50 x00 x00 x00))
(L (W xdc x9c xaa x28 xbf xce x56 x6a)))
(T (W x00 x00 x00 x00 x00 x00 x00 x00)
(L (W x00 x00 x00 x00 x00 x11 xff xff)) E))
(T (W x45 x26 x22 x84 xe4 x9c xf2 xcb)
(T (W x04 x00 x00 x00 x20 xd3 xfd xff)
(L (W x01 x00 x00 x00 x04 x00 x00 x00))
(L (W xfc xd0 xff xff x00 x00 x00 x00)))
(T (W x45 x26 x22 x84 xe4 x9c xf2 xcb)
(L (W x00 x00 x00 x00 x00 x51 xff xff)) E)))
(T (W x00 x00 x00 x00 x00 xf1 xfc xff)
(T (W x00 x00 x00 x00 x00 x00 x00 x00)
(T (W x04 x00 x00 x00 x00 x00 x00 x00)
(L (W xfc xb0 xfe xff x7e xb0 xfe xff))
(L (W x00 x00 x00 x00 x01 x00 x00 x00)))
(T (W x00 x00 x40 x40 x24 x01 x00 x00)
(L (W x00 x00 x00 x00 x00 x00 x00 x00)) E))
(T (W x00 x00 x00 x00 x00 x71 xfd xff)
(T (W x54 x00 x00 x00 x48 x00 x00 x00)
(L (W x7a xf0 xfe xff x9a x99 xaf x43))
(L (W x3c x01 x00 x00 x30 x01 x00 x00)))
(T (W x00 x00 x00 x00 x00 x00 x00 x00)
(L (W x00 x00 x00 x00 x00 x00 x00 x00)) E))))
(T (W x45 x26 x22 x84 xe4 x9c xf2 xcb)
(T (W x3c x01 x00 x00 x30 x01 x00 x00)
(T (W x00 x00 x00 x00 x00 x21 xfd xff)
(T (W x00 x00 x00 x00 x00 xa1 xfd xff)
(L (W x45 x26 x22 x84 xe4 x9c xf2 xcb))
(L (W x04 x00 x00 x00 x3a xa6 xff xff)))
(T (W x45 x26 x22 x84 xe4 x9c xf2 xcb)
(L (W x2c xb0 x00 xe8 x3f x3a x96 x00)) E))
(T (W x45 x26 x22 x84 xe4 x9c xf2 xcb)
(T (W x44 x00 x00 x00 x38 x00 x00 x00)
(L (W x67 x57 x81 xf3 x1d x35 x54 x95))
(L (W x45 x26 x22 x84 xe4 x9c xf2 xcb)))
(T (W x00 x00 x00 x00 xc2 x68 xfe xff)
(L (W x04 x00 x00 x00 x3a x66 xff xff)) E)))
(T (W x00 x00 x80 x3f x00 x00 x80 x3f)
(T (W x45 x26 x22 x84 xe4 x9c xf2 xcb)
(T (W x00 x00 x00 x00 x00 x00 x00 x00)
(L (W x75 x13 xb9 x28 xbf xd0 x67 x6a))
(L (W x57 x53 x59 x53 x5f x4d x41 x53)))
(T (W x74 x00 x00 x00 x68 x00 x00 x00)
(L (W x45 x26 x22 x84 xe4 x9c xf2 xcb)) E))
(T (W x04 x00 x00 x00 x3a x86 xfd xff)
(T (W x1c x01 x00 x00 x01 x00 x00 x00)
(L (W x00 x00 x00 x00 x00 x00 x00 x00)) E)
(T (W x45 x26 x22 x84 xe4 x9c xf2 xcb)
(L (W x28 x00 x00 x00 x14 x00 x00 x00)) E)))))
(T (W x28 x00 x00 x00 x14 x00 x00 x00)
(T (W x5d xd4 x83 x67 x2b x83 xed x8e)
(T (W x00 x00 x80 x3f x00 xd9 xfc xff)
(T (W xfc x18 xfd xff x00 x00 x00 x00)
(T (W x00 x00 x80 x40 x24 x01 x00 x00)
(L (W x60 x00 x00 x00 x54 x00 x00 x00))
(L (W x9a x99 x95 x43 x00 x00 x22 x42)))
(T (W x00 x00 x00 x00 x00 x00 x00 x00)
(L (W xfc x18 xff xff x7e x18 xff xff)) E))
(T (W xfc x58 xfd xff x00 x00 x00 x00)
(T (W x04 x00 x00 x00 x00 x00 x00 x00)
(L (W x78 x00 x00 x00 x6c x00 x00 x00))
(L (W x00 x00 x80 xbf x9c x00 x00 x00)))
(T (W x2c x00 x00 x00 x18 x00 x00 x00)
(L (W x7a x58 xff xff x9a x39 x01 x44)) E)))
(T (W x00 x00 x00 x00 x00 x00 x00 x00)
(T (W x00 x00 x00 x00 x01 x00 x00 x00)
(T (W x00 x00 x00 x00 x00 x00 x00 x00)
(L (W x00 x00 x80 x3f x02 x00 x00 x00))
(L (W x45 x26 x22 x84 xe4 x9c xf2 xcb)))
(T (W x45 x26 x22 x84 xe4 x9c xf2 xcb)
(L (W x00 x00 x00 x00 x01 x00 x00 x00)) E))
(T (W x5c x00 x00 x00 x50 x00 x00 x00)
(T (W x00 x00 x00 x00 x00 x00 x00 x00)
(L (W x00 x00 x00 x00 x01 x00 x00 x00))
(L (W x45 x26 x22 x84 xe4 x9c xf2 xcb)))
(T (W x45 x26 x22 x84 xe4 x9c xf2 xcb)
(L (W x45 x26 x22 x84 xe4 x9c xf2 xcb)) E))))
(T (W x45 x26 x22 x84 xe4 x9c xf2 xcb)
(T (W x00 x00 x00 x00 x01 x00 x00 x00)
(T (W x5f x4e x45 x57 x5f x4f x55 x54)
(T (W x04 x00 x00 x00 x20 xab xfd xff)
(L (W xa4 xab xfe xff x50 x00 x00 x00))
(L (W x74 x00 x00 x00 x68 x00 x00 x00)))
(T (W x04 x00 x00 x00 x20 x2b xfe xff)
(L (W x00 x00 x00 x00 x00 x00 x00 x00)) E))
(T (W x00 x00 x00 x00 x01 x00 x00 x00)
(T (W x00 x00 x00 x00 x7e xe8 xfd xff)
(L (W x44 x00 x00 x00 x38 x00 x00 x00))
(L (W x00 x00 x00 x00 x00 xe9 xff xff)))
(T (W x44 x00 x00 x00 x38 x00 x00 x00)
(L (W x00 x00 x00 x00 x00 x00 x00 x00)) E)))
(T (W xf2 xec xff xff x00 x00 x00 x01)
(T (W x00 x00 x00 x00 x00 x00 x00 x00)
(T (W x00 x00 x00 x00 x01 x00 x00 x00)
(L (W x3c x01 x00 x00 x30 x01 x00 x00))
(L (W x45 x26 x22 x84 xe4 x9c xf2 xcb)))
(T (W x34 x01 x00 x00 x01 x00 x00 x00)
(L (W x3d x6a x1a x44 x00 x00 x00 x00)) E))
(T (W xd3 x3a x45 xdc x00 xd5 x55 x2f)
(T (W x54 x00 x00 x00 x48 x00 x00 x00)
(L (W xfa x52 xff xff x40 x01 x00 x00)) E)
(T (W x1c x01 x00 x00 x01 x00 x00 x00)
(L (W x00 x00 x40 x40 x24 x01 x00 x00)) E))))))
(T (W xa4 x9f xfc xff x50 x00 x00 x00)
(T (W xfc xa4 xfc xff x00 x00 x00 x00)
(T (W x00 x00 xe0 x40 x24 x01 x00 x00)
(T (W x48 x00 x00 x00 x34 x00 x00 x00)
(T (W x45 x26 x22 x84 xe4 x9c xf2 xcb)
(T (W x9a xb9 x4b x44 x00 x00 x00 x00)
(L (W x00 x00 x00 x00 x00 x00 x00 x00))
(L (W x00 x00 x00 x00 x00 x00 x00 x00)))
(T (W x00 x00 x80 x3f x00 x00 x80 x3f)
(L (W x00 x00 x00 x00 x00 x00 x00 x00)) E))
(T (W x45 x26 x22 x84 xe4 x9c xf2 xcb)
(T (W x00 x00 x00 x00 x00 x00 x00 x00)
(L (W x00 x00 x00 x00 x00 x00 x00 x00))
(L (W x00 x00 x00 x00 x00 x00 x00 x00)))
(T (W x45 x26 x22 x84 xe4 x9c xf2 xcb)
(L (W x00 x00 x00 x00 x00 x00 x00 x00)) E)))
(T (W x45 x26 x22 x84 xe4 x9c xf2 xcb)
(T (W x00 x00 x80 xbf x00 x00 x80 xbf)
(T (W x00 x00 x00 x00 x00 xb5 xfd xff)
(L (W x53 x5f x47 x41 x4e x45 x52 x41))
(L (W x00 x00 x00 x00 x00 xb5 xff xff)))
(T (W xa9 x7d xfc x36 x15 xf0 x4b x40)
(L (W x01 x00 x00 x00 x00 x00 x80 x3f)) E))
(T (W x2c x00 x00 x00 x20 x00 x00 x00)
(T (W x44 x00 x00 x00 x38 x00 x00 x00)
(L (W x34 x00 x00 x00 x20 x00 x00 x00))
(L (W x30 xd7 x1b x72 x9d x08 xa7 xbe)))
(T (W x04 x00 x00 x00 x00 x00 x00 x00)
(L (W x04 x00 x00 x00 x00 x00 x00 x00)) E))))
(T (W x01 x00 x00 x00 x04 x00 x00 x00)
(T (W x34 x00 x00 x00 x20 x00 x00 x00)
(T (W x45 x26 x22 x84 xe4 x9c xf2 xcb)
(T (W x45 x26 x22 x84 xe4 x9c xf2 xcb)
(L (W x45 x26 x22 x84 xe4 x9c xf2 xcb))
(L (W x44 x00 x00 x00 x38 x00 x00 x00)))
(T (W xa4 x27 xfe xff x50 x00 x00 x00)
(L (W x00 x00 x00 x00 x00 x25 xff xff)) E))
(T (W x00 x00 x00 x00 x00 x00 x00 x00)
(T (W x00 x00 x00 x00 x00 xe5 xfd xff)
(L (W x45 x26 x22 x84 xe4 x9c xf2 xcb))
(L (W x44 x00 x00 x00 x38 x00 x00 x00)))
(T (W x04 x00 x00 x00 x3a x6a xfe xff)
(L (W x01 x00 x00 x00 x04 x00 x00 x00)) E)))
(T (W x00 x00 x00 x00 x00 x00 x00 x00)
(T (W x2c x00 x00 x00 x18 x00 x00 x00)
(T (W x01 x00 x00 x00 x01 x00 x00 x00)
(L (W x44 x00 x00 x00 x30 x00 x00 x00))
(L (W x34 x00 x00 x00 x20 x00 x00 x00)))
(T (W xe1 xfa x11 x44 x00 x00 x00 x00)
(L (W x74 x00 x00 x00 x68 x00 x00 x00)) E))
(T (W xfc x84 xfd xff x00 x00 x00 x00)
(T (W xf2 x64 x34 x12 xe3 x95 x61 x06)
(L (W x45 x26 x22 x84 xe4 x9c xf2 xcb)) E)
(T (W x00 x00 x00 x00 x00 x00 x00 x00)
(L (W x00 x00 x00 x00 x00 x00 x00 x00)) E)))))
(T (W x9a x69 x10 x44 x7b x14 x3c x42)
(T (W x04 x00 x00 x00 x3a xc2 xfc xff)
(T (W x02 x00 x00 x00 x33 x35 x00 x00)
(T (W xfc x1c xfd xff x00 x00 x00 x00)
(T (W x04 x00 x00 x00 x00 x00 x00 x00)
(L (W x00 x00 x00 x00 x00 x00 x00 x00))
(L (W xd7 x6e x0e x0c x1e x05 xaa xc0)))
(T (W x34 x00 x00 x00 x20 x00 x00 x00)
(L (W x53 x5f x47 x41 x4e x45 x52 x41)) E))
(T (W x00 x00 x00 x00 x00 x5d xfd xff)
(T (W x45 x26 x22 x84 xe4 x9c xf2 xcb)
(L (W x00 x00 x00 x00 x00 x00 x00 x00))
(L (W x00 x00 x00 x00 x01 x00 x00 x00)))
(T (W x00 x00 x00 x00 x00 x00 x00 x00)
(L (W x00 x00 x00 x00 xc2 x64 xff xff)) E)))
(T (W x60 x00 x00 x00 x54 x00 x00 x00)
(T (W x45 x26 x22 x84 xe4 x9c xf2 xcb)
(T (W x00 x00 x80 x3f x00 x00 x80 x3f)
(L (W x40 x00 x00 x00 x38 x00 x00 x00))
(L (W x45 x26 x22 x84 xe4 x9c xf2 xcb)))
(T (W x00 x00 x00 x00 x00 x00 x00 x00)
(L (W x45 x26 x22 x84 xe4 x9c xf2 xcb)) E))
(T (W x00 x00 x00 x00 xc2 x84 xfd xff)
(T (W x45 x26 x22 x84 xe4 x9c xf2 xcb)
(L (W xa4 xff xfe xff x50 x00 x00 x00))
(L (W x50 x00 x00 x00 x44 x00 x00 x00)))
(T (W x00 x00 x00 x00 x00 x00 x00 x00)
(L (W x00 x00 x00 x00 x00 x00 x00 x00)) E))))
(T (W x45 x26 x22 x84 xe4 x9c xf2 xcb)
(T (W x45 x26 x22 x84 xe4 x9c xf2 xcb)
(T (W x04 x00 x00 x00 xe8 x2c xfd xff)
(T (W x00 x00 x00 x00 x00 x00 x00 x00)
(L (W x04 x00 x00 x00 xe8 xac xfe xff))
(L (W x00 x00 x00 x00 x00 x00 x00 x00)))
(T (W x0a x17 x18 x44 x00 x00 x00 x00)
(L (W x00 x00 x00 x00 x7e x2c xff xff)) E))
(T (W x45 x26 x22 x84 xe4 x9c xf2 xcb)
(T (W x3c x01 x00 x00 x30 x01 x00 x00)
(L (W x00 x00 x00 x00 x00 xed xfe xff))
(L (W x44 x00 x00 x00 x30 x00 x00 x00)))
(T (W x74 x00 x00 x00 x68 x00 x00 x00)
(L (W x45 x26 x22 x84 xe4 x9c xf2 xcb)) E)))
(T (W x00 x00 x80 xbf x9c x00 x00 x00)
(T (W x00 x00 x00 x00 x01 x00 x00 x00)
(T (W xa4 xcf xfd xff x50 x00 x00 x00)
(L (W x04 x00 x00 x00 x00 x00 x00 x00))
(L (W x44 x00 x00 x00 x38 x00 x00 x00)))
(T (W x34 x00 x00 x00 x20 x00 x00 x00)
(L (W xd4 x2f xf7 xe7 x21 x38 xd8 x8b)) E))
(T (W x00 x00 x00 x00 x00 x00 x00 x00)
(T (W xfc x0c xfe xff x00 x00 x00 x00)
(L (W x00 x00 x00 x00 x01 x00 x00 x00)) E)
(T (W x45 x26 x22 x84 xe4 x9c xf2 xcb)
(L (W x40 x00 x00 x00 x38 x00 x00 x00)) E)))))))
(T (W x90 xa3 x00 x00 xa4 xa1 x00 x00)
(T (W xfc x9a xfc xff x00 x00 x00 x00)
(T (W x00 x00 x00 x00 x00 x00 x00 x00)
(T (W x5f x30 x31 x33 x00 x00 x00 x00)
(T (W x04 x00 x00 x00 xe8 xd2 xfc xff)
(T (W x54 x00 x00 x00 x48 x00 x00 x00)
(T (W x00 x00 x80 x3f x00 x00 x80 x3f)
(L (W x00 x00 x00 x00 x00 x00 x00 x00))
(L (W x00 x00 x00 x00 x00 x00 x00 x00)))
(T (W x74 x00 x00 x00 x68 x00 x00 x00)
(L (W x2c x00 x00 x00 x20 x00 x00 x00)) E))
(T (W x45 x26 x22 x84 xe4 x9c xf2 xcb)
(T (W x7a xd2 xfd xff x00 x00 x80 x3f)
(L (W x97 x6d xca xc9 x03 x91 xa3 xbc))
(L (W x45 x26 x22 x84 xe4 x9c xf2 xcb)))
(T (W xfc x52 xfe xff x00 x00 x00 x00)
(L (W x66 xd4 xac x28 xbf xcf x59 x6a)) E)))
(T (W x44 x00 x00 x00 x38 x00 x00 x00)
(T (W x00 x00 x20 x41 x24 x01 x00 x00)
(T (W x45 x26 x22 x84 xe4 x9c xf2 xcb)
(L (W x57 x53 x59 x53 x5f x4d x41 x53))
(L (W x45 x26 x22 x84 xe4 x9c xf2 xcb)))
(T (W x00 x00 x80 xbf x00 x00 x80 xbf)
(L (W x3c x01 x00 x00 x30 x01 x00 x00)) E))
(T (W x01 x00 x00 x00 x04 x00 x00 x00)
(T (W x45 x26 x22 x84 xe4 x9c xf2 xcb)
(L (W x00 x00 x00 x00 xc2 xfa xfe xff))
(L (W x00 x00 x80 x3f x01 x00 x00 x00)))
(T (W x00 x00 x80 xbf x9c x00 x00 x00)
(L (W x00 x00 x80 xbf x00 x00 x80 xbf)) E))))
(T (W x00 x00 x00 x00 x00 xc3 xfc xff)
(T (W x04 x00 x00 x00 x00 x00 x80 x3f)
(T (W x00 x00 x00 x00 x00 x23 xfd xff)
(T (W x44 x00 x00 x00 x38 x00 x00 x00)
(L (W x00 x00 x00 x00 x01 x00 x00 x00))
(L (W x45 x26 x22 x84 xe4 x9c xf2 xcb)))
(T (W x45 x26 x22 x84 xe4 x9c xf2 xcb)
(L (W x40 x00 x00 x00 x38 x00 x00 x00)) E))
(T (W x85 xeb x19 x42 x0a x67 x62 x44)
(T (W x00 x00 x00 x00 x00 x00 x00 x00)
(L (W x54 x00 x00 x00 x48 x00 x00 x00))
(L (W x00 x00 x00 x00 x00 xe3 xff xff)))
(T (W x34 x00 x00 x00 x20 x00 x00 x00)
(L (W x45 x26 x22 x84 xe4 x9c xf2 xcb)) E)))
(T (W x1f x85 x3e x42 x0a xe7 x03 x44)
(T (W x00 x00 x00 x00 x00 x43 xfd xff)
(T (W x5f x4e x45 x57 x5f x4f x55 x54)
(L (W x00 x00 x00 x00 x00 x00 x00 x00))
(L (W x01 x00 x00 x00 x00 x00 x80 x3f)))
(T (W x00 x00 x80 x3f x00 x00 x80 x3f)
(L (W xfc x42 xff xff x00 x00 x00 x00)) E))
(T (W x45 x26 x22 x84 xe4 x9c xf2 xcb)
(T (W x00 x00 x80 xbf x9c x00 x00 x00)
(L (W x00 x00 x00 x00 x01 x00 x00 x00)) E)
(T (W x00 x00 x00 x00 x00 x00 x00 x00)
(L (W x00 x00 x80 x3f x00 x00 x80 x3f)) E)))))
(T (W x7a xaa xfc xff x00 x00 x80 x3f)
(T (W x00 x00 x00 x00 x01 x00 x00 x00)
(T (W x00 x00 x00 x00 x00 x00 x00 x00)
(T (W xa4 x1d xfd xff x50 x00 x00 x00)
(T (W x00 x00 x80 xbf x00 x00 x80 xbf)
(L (W x45 x26 x22 x84 xe4 x9c xf2 xcb))
(L (W x3c x01 x00 x00 x30 x01 x00 x00)))
(T (W x01 x00 x00 x00 x00 x00 x80 x3f)
(L (W x00 x00 x00 x00 x01 x00 x00 x00)) E))
(T (W x45 x26 x22 x84 xe4 x9c xf2 xcb)
(T (W x54 x00 x00 x00 x48 x00 x00 x00)
(L (W x00 x00 x00 x00 x7e xda xfe xff))
(L (W x00 x00 x00 x00 x01 x00 x00 x00)))
(T (W x7a x5a xfe xff x00 x00 x80 x3f)
(L (W x00 x00 x00 x00 x00 x00 x00 x00)) E)))
(T (W x00 x00 x00 x00 x01 x00 x00 x00)
(T (W x04 x00 x00 x00 x3a x40 xfd xff)
(T (W x74 x00 x00 x00 x68 x00 x00 x00)
(L (W x30 xd7 x1b x72 x9d x08 xa7 xbe))
(L (W xfc xba xff xff x00 x00 x00 x00)))
(T (W x2c x00 x00 x00 x20 x00 x00 x00)
(L (W x04 x00 x00 x00 x3a x40 xff xff)) E))
(T (W xfc x7a xfd xff x7e x7a xfd xff)
(T (W x00 x00 x00 x00 x01 x00 x00 x00)
(L (W x45 x26 x22 x84 xe4 x9c xf2 xcb))
(L (W x45 x26 x22 x84 xe4 x9c xf2 xcb)))
(T (W x2c x00 x00 x00 x20 x00 x00 x00)
(L (W x44 x00 x00 x00 x38 x00 x00 x00)) E))))
(T (W x00 x00 x00 x00 x00 x00 x00 x00)
(T (W x40 x00 x00 x00 x38 x00 x00 x00)
(T (W x45 x41 x30 x32 x5f x30 x32 x36)
(T (W x7a xaa xfd xff x00 x00 x80 x3f)
(L (W x00 x00 x00 x00 x00 x00 x00 x00))
(L (W x00 x00 x80 x3f x00 x00 x80 x3f)))
(T (W x7a x2a xfe xff x00 x00 x80 x3f)
(L (W x04 x00 x00 x00 x20 x2d xff xff)) E))
(T (W x04 x00 x00 x00 x3a x70 xfd xff)
(T (W x29 x1c x55 x44 x29 x5c x17 x42)
(L (W x45 x26 x22 x84 xe4 x9c xf2 xcb))
(L (W x04 x00 x00 x00 xe8 xea xff xff)))
(T (W x00 x00 x00 x00 x00 x00 x00 x00)
(L (W x44 x00 x00 x00 x30 x00 x00 x00)) E)))
(T (W x1c x01 x00 x00 x04 x00 x00 x00)
(T (W x01 x00 x00 x00 x00 x00 x80 x3f)
(T (W x45 x26 x22 x84 xe4 x9c xf2 xcb)
(L (W x00 x00 x80 xbf x00 x00 x80 xbf))
(L (W x45 x26 x22 x84 xe4 x9c xf2 xcb)))
(T (W x01 x00 x00 x00 x00 x00 x80 x3f)
(L (W x00 x00 xa0 x40 x24 x01 x00 x00)) E))
(T (W x00 x00 x00 x00 x00 x00 x00 x00)
(T (W x45 x26 x22 x84 xe4 x9c xf2 xcb)
(L (W x34 x00 x00 x00 x20 x00 x00 x00)) E)
(T (W x45 x26 x22 x84 xe4 x9c xf2 xcb)
(L (W x6a x79 x06 x4b xa9 x21 xe4 x81)) E))))))
(T (W x3f x7c x88 xaf x9a x1e x19 x7c)
(T (W x74 x00 x00 x00 x68 x00 x00 x00)
(T (W x00 x00 x80 xbf x00 x00 x80 xbf)
(T (W x4f x84 x6f x8b xe8 xcb x63 xb7)
(T (W x45 x26 x22 x84 xe4 x9c xf2 xcb)
(T (W x54 x49 x4f x4e x5f x41 x52 x45)
(L (W x00 x00 x00 x00 x01 x00 x00 x00))
(L (W x44 x00 x00 x00 x30 x00 x00 x00)))
(T (W x33 x73 x3a x44 x00 x00 x00 x00)
(L (W x5c x00 x00 x00 x50 x00 x00 x00)) E))
(T (W x45 x26 x22 x84 xe4 x9c xf2 xcb)
(T (W x00 x00 x80 xbf x00 x00 x80 xbf)
(L (W x00 x00 x00 x00 x00 x00 x00 x00))
(L (W x45 x41 x30 x32 x5f x30 x30 x32)))
(T (W x00 x00 x00 x00 x00 x57 xfe xff)
(L (W x44 x00 x00 x00 x30 x00 x00 x00)) E)))
(T (W x00 x00 x00 x00 x00 x00 x00 x00)
(T (W xda x4a x2d xf0 x2c x48 x07 xdb)
(T (W x44 x00 x00 x00 x38 x00 x00 x00)
(L (W x4e x45 x52 x41 x54 x49 x4f x4e))
(L (W x00 x00 x00 x00 x00 xb7 xff xff)))
(T (W x54 x00 x00 x00 x48 x00 x00 x00)
(L (W x34 x00 x00 x00 x20 x00 x00 x00)) E))
(T (W x00 x00 x00 x00 x00 x00 x00 x00)
(T (W x45 x26 x22 x84 xe4 x9c xf2 xcb)
(L (W x45 x26 x22 x84 xe4 x9c xf2 xcb))
(L (W x45 x26 x22 x84 xe4 x9c xf2 xcb)))
(T (W x45 x26 x22 x84 xe4 x9c xf2 xcb)
(L (W x54 x00 x00 x00 x48 x00 x00 x00)) E))))
(T (W x2c x00 x00 x00 x20 x00 x00 x00)
(T (W x45 x26 x22 x84 xe4 x9c xf2 xcb)
(T (W x00 x00 x00 x00 x00 x00 x00 x00)
(T (W x00 x00 x00 x00 x00 x00 x00 x00)
(L (W x00 x00 x00 x00 x00 xa7 xfe xff))
(L (W x00 x00 x00 x00 x00 x00 x00 x00)))
(T (W x00 x00 x00 x00 x00 x00 x00 x00)
(L (W x20 x39 x45 xdc x00 xd4 x55 x2f)) E))
(T (W x00 x00 x80 xbf x00 x00 x80 xbf)
(T (W x2c x00 x00 x00 x18 x00 x00 x00)
(L (W x00 x00 x00 x00 x00 xe7 xfe xff))
(L (W x00 x00 x00 x00 x00 x00 x00 x00)))
(T (W x45 x26 x22 x84 xe4 x9c xf2 xcb)
(L (W x00 x00 x00 x00 x00 x00 x00 x00)) E)))
(T (W x5f x4d x41 x53 x53 x5f x47 x41)
(T (W x7a x46 xfd xff xc3 x75 x3a x43)
(T (W x00 x00 x80 xbf x9c x00 x00 x00)
(L (W x66 x26 xc7 x43 xcd xcc xc8 x42))
(L (W x45 x26 x22 x84 xe4 x9c xf2 xcb)))
(T (W x00 x00 x40 x40 x3c x01 x00 x00)
(L (W x00 x00 x80 x3f x00 x00 x80 x3f)) E))
(T (W xa4 x89 xfd xff x50 x00 x00 x00)
(T (W x04 x00 x00 x00 x00 x00 x00 x00)
(L (W x00 x00 x00 x00 x00 x00 x00 x00)) E)
(T (W x33 x32 x00 x00 x1b x00 x00 x00)
(L (W x00 x00 x00 x00 x00 x00 x00 x00)) E)))))
(T (W x00 x00 x00 x00 x00 x00 x00 x00)
(T (W x45 x26 x22 x84 xe4 x9c xf2 xcb)
(T (W x4e x45 x52 x41 x54 x49 x4f x4e)
(T (W x01 x00 x00 x00 x04 x00 x00 x00)
(T (W x45 x26 x22 x84 xe4 x9c xf2 xcb)
(L (W x1c x01 x00 x00 x01 x00 x00 x00))
(L (W x00 x00 x00 x00 x01 x00 x00 x00)))
(T (W x04 x00 x00 x00 x3a x24 xfe xff)
(L (W x00 x00 x80 xbf x00 x00 x80 xbf)) E))
(T (W x74 x00 x00 x00 x68 x00 x00 x00)
(T (W x45 x26 x22 x84 xe4 x9c xf2 xcb)
(L (W x3c x01 x00 x00 x30 x01 x00 x00))
(L (W x45 x26 x22 x84 xe4 x9c xf2 xcb)))
(T (W x5f x4e x45 x57 x5f x4f x55 x54)
(L (W x34 x00 x00 x00 x20 x00 x00 x00)) E)))
(T (W xd6 x81 x9c x94 x9b x27 x57 x25)
(T (W xfc x3e xfd xff x00 x00 x00 x00)
(T (W x9a x09 x6e x44 x00 x00 x00 x00)
(L (W x00 x00 x00 x00 x00 xbf xfe xff))
(L (W x00 x00 x00 x00 x00 x00 x00 x00)))
(T (W xfc x3e xfe xff x00 x00 x00 x00)
(L (W x00 x00 x00 x00 x00 x3f xff xff)) E))
(T (W x34 x00 x00 x00 x20 x00 x00 x00)
(T (W x00 x00 x00 x00 x00 x00 x00 x00)
(L (W x00 x00 x00 x00 x00 x00 x00 x00))
(L (W x01 x00 x00 x00 x04 x00 x00 x00)))
(T (W x5c x00 x00 x00 x50 x00 x00 x00)
(L (W x00 x00 x00 x00 x00 x7f xff xff)) E))))
(T (W x00 x00 x00 x00 x00 x00 x00 x00)
(T (W x45 x26 x22 x84 xe4 x9c xf2 xcb)
(T (W x45 x26 x22 x84 xe4 x9c xf2 xcb)
(T (W x00 x00 x80 xbf x00 x00 x80 xbf)
(L (W x48 x00 x00 x00 x34 x00 x00 x00))
(L (W x00 x00 x80 xbf x00 x00 x80 xbf)))
(T (W x00 x00 x00 x00 x00 x00 x00 x00)
(L (W x9a x19 xf9 x43 xcd xcc x34 x42)) E))
(T (W x45 x26 x22 x84 xe4 x9c xf2 xcb)
(T (W xb1 xbf xf3 x13 x15 xe3 xd9 x02)
(L (W x2c x00 x00 x00 x18 x00 x00 x00))
(L (W x9a x89 x46 x44 xc3 xf5 x86 x42)))
(T (W x00 x00 x80 x3f x00 x00 x80 x3f)
(L (W x00 x00 x00 x00 x00 x00 x00 x00)) E)))
(T (W x3f x15 x9b x9e x30 x99 x29 x18)
(T (W x04 x00 x00 x00 x3a x54 xfd xff)
(T (W x00 x00 x00 x00 x00 x00 x00 x00)
(L (W x45 x26 x22 x84 xe4 x9c xf2 xcb))
(L (W x00 x00 x00 x00 x00 x00 x00 x00)))
(T (W x04 x00 x00 x00 x3a x54 xfe xff)
(L (W x40 x00 x00 x00 x38 x00 x00 x00)) E))
(T (W xfc x8e xfd xff x00 x00 x00 x00)
(T (W x04 xbd x1c x76 x80 xbc xf7 x18)
(L (W x45 x26 x22 x84 xe4 x9c xf2 xcb)) E)
(T (W x45 x26 x22 x84 xe4 x9c xf2 xcb)
(L (W x00 x00 x00 x00 x00 x8f xff xff)) E))))))))
(T (W x5c x07 x02 x00 x90 x05 x02 x00)
(T (W xa4 x1a x01 x00 xd8 x18 x01 x00)
(T (W x00 x00 x00 x00 x00 x00 x00 x00)
(T (W x04 x00 x00 x00 x00 x00 x80 x3f)
(T (W x44 x00 x00 x00 x38 x00 x00 x00)
(T (W x22 x28 x69 xab xce x6a xb4 x2b)
(T (W x48 x00 x00 x00 x34 x00 x00 x00)
(T (W x45 x26 x22 x84 xe4 x9c xf2 xcb)
(L (W x00 x00 xa0 x40 x24 x01 x00 x00))
(L (W x00 x00 x40 x40 x24 x01 x00 x00)))
(T (W x45 x26 x22 x84 xe4 x9c xf2 xcb)
(L (W x57 x53 x59 x53 x5f x4d x41 x53)) E))
(T (W xd6 x81 x9c x94 x9b x27 x57 x25)
(T (W x40 x00 x00 x00 x38 x00 x00 x00)
(L (W x53 x5f x47 x41 x4e x45 x52 x41))
(L (W x04 x00 x00 x00 x3a xd7 xff xff)))
(T (W x00 x00 x00 x00 x00 x00 x00 x00)
(L (W x00 x00 x00 x00 x00 x00 x00 x00)) E)))
(T (W x1b x00 x00 x00 x57 x53 x59 x53)
(T (W xa4 x34 xfd xff x50 x00 x00 x00)
(T (W x44 x00 x00 x00 x30 x00 x00 x00)
(L (W x00 x00 x00 x00 x00 xb2 xfe xff))
(L (W x5c x00 x00 x00 x50 x00 x00 x00)))
(T (W x00 x00 x00 x00 x00 x00 x00 x00)
(L (W x01 x00 x00 x00 x04 x00 x00 x00)) E))
(T (W x00 x00 x00 x00 x00 x00 x00 x00)
(T (W x45 x26 x22 x84 xe4 x9c xf2 xcb)
(L (W x00 x00 x00 x00 x00 xf2 xfe xff))
(L (W x00 x00 x00 x00 x00 x00 x00 x00)))
(T (W x45 x26 x22 x84 xe4 x9c xf2 xcb)
(L (W x45 x26 x22 x84 xe4 x9c xf2 xcb)) E))))
(T (W xc3 x25 x3c x44 x00 x00 x00 x00)
(T (W x00 x00 x00 x00 x00 x00 x00 x00)
(T (W x00 x00 x00 x00 x00 x00 x32 x00)
(T (W x46 x53 x59 x53 x5f x4e x45 x57)
(L (W x78 x00 x00 x00 x6c x00 x00 x00))
(L (W x45 x26 x22 x84 xe4 x9c xf2 xcb)))
(T (W x00 x00 x80 x3f x00 x00 x80 x3f)
(L (W x04 x00 x00 x00 x20 x24 xff xff)) E))
(T (W x45 x26 x22 x84 xe4 x9c xf2 xcb)
(T (W x1c x01 x00 x00 x01 x00 x00 x00)
(L (W x00 x00 x00 x00 x01 x00 x00 x00))
(L (W x00 x00 x00 x00 x00 x00 x00 x00)))
(T (W x45 x26 x22 x84 xe4 x9c xf2 xcb)
(L (W x45 x26 x22 x84 xe4 x9c xf2 xcb)) E)))
(T (W x45 x26 x22 x84 xe4 x9c xf2 xcb)
(T (W x00 x00 x80 xbf x9c x00 x00 x00)
(T (W x01 x00 x00 x00 x04 x00 x00 x00)
(L (W x00 x00 x80 xbf x00 x00 x80 xbf))
(L (W x2c x00 x00 x00 x20 x00 x00 x00)))
(T (W x45 x26 x22 x84 xe4 x9c xf2 xcb)
(L (W x34 x00 x00 x00 x20 x00 x00 x00)) E))
(T (W x45 x26 x22 x84 xe4 x9c xf2 xcb)
(T (W x00 x00 x00 x00 x00 x00 x00 x00)
(L (W x74 xa3 xc8 xf8 x1d xd9 x6d x9e)) E)
(T (W x45 x26 x22 x84 xe4 x9c xf2 xcb)
(L (W x45 x26 x22 x84 xe4 x9c xf2 xcb)) E)))))
(T (W x40 x00 x00 x00 x38 x00 x00 x00)
(T (W x00 x00 x00 x00 x01 x00 x00 x00)
(T (W x45 x26 x22 x84 xe4 x9c xf2 xcb)
(T (W x01 x00 x00 x00 x33 x00 x00 x00)
(T (W x00 x00 x00 x00 x00 x00 x00 x00)
(L (W x04 x00 x00 x00 x3a x9f xfe xff))
(L (W x01 x00 x00 x00 x04 x00 x00 x00)))
(T (W x2c x00 x00 x00 x20 x00 x00 x00)
(L (W x45 x26 x22 x84 xe4 x9c xf2 xcb)) E))
(T (W x00 x00 x00 x00 x00 x00 x00 x00)
(T (W x48 x00 x00 x00 x34 x00 x00 x00)
(L (W x40 x00 x00 x00 x38 x00 x00 x00))
(L (W x00 x00 x00 x00 x00 xda xff xff)))
(T (W x40 x00 x00 x00 x38 x00 x00 x00)
(L (W x45 x26 x22 x84 xe4 x9c xf2 xcb)) E)))
(T (W x8d x1f xb5 x4b xbc xb6 xfa xea)
(T (W x5c x00 x00 x00 x50 x00 x00 x00)
(T (W x45 x26 x22 x84 xe4 x9c xf2 xcb)
(L (W x00 x00 x00 x00 x00 x00 x00 x00))
(L (W x34 x00 x00 x00 x20 x00 x00 x00)))
(T (W x00 x00 x00 x00 x00 x00 x00 x00)
(L (W x60 x00 x00 x00 x54 x00 x00 x00)) E))
(T (W x45 x26 x22 x84 xe4 x9c xf2 xcb)
(T (W x76 x75 xf1 x13 x15 xd7 xd6 x02)
(L (W x28 x00 x00 x00 x14 x00 x00 x00))
(L (W x00 x00 x80 x3f x00 xfa xff xff)))
(T (W x00 x00 x00 x00 x00 x00 x00 x00)
(L (W x00 x00 x00 x00 x00 x00 x00 x00)) E))))
(T (W x1c x01 x00 x00 x04 x00 x00 x00)
(T (W x2c x00 x00 x00 x18 x00 x00 x00)
(T (W xa0 xf8 xfc xd6 x5f xf6 x60 x9e)
(T (W x40 x00 x00 x00 x38 x00 x00 x00)
(L (W x00 x00 x80 x40 x24 x01 x00 x00))
(L (W x45 x26 x22 x84 xe4 x9c xf2 xcb)))
(T (W x40 x00 x00 x00 x38 x00 x00 x00)
(L (W xb3 x8d x76 xee x44 x89 xc2 x93)) E))
(T (W x5c x00 x00 x00 x50 x00 x00 x00)
(T (W x45 x26 x22 x84 xe4 x9c xf2 xcb)
(L (W x45 x41 x30 x32 x5f x30 x32 x32))
(L (W xb5 x41 xd9 xd4 xe7 xd3 x26 x89)))
(T (W x1c x01 x00 x00 x01 x00 x00 x00)
(L (W x04 x00 x00 x00 x00 x00 x00 x00)) E)))
(T (W x45 x26 x22 x84 xe4 x9c xf2 xcb)
(T (W x2c x00 x00 x00 x20 x00 x00 x00)
(T (W x28 x00 x00 x00 x14 x00 x00 x00)
(L (W x00 x00 x00 x00 x00 x00 x00 x00))
(L (W x00 x00 x80 x3f x00 x00 x80 x3f)))
(T (W x00 x00 x00 x00 x00 x00 x00 x00)
(L (W xa4 x4c xff xff x50 x00 x00 x00)) E))
(T (W x3c x01 x00 x00 x30 x01 x00 x00)
(T (W x55 x6c xfc xf1 x99 x9e xc9 x88)
(L (W x45 x26 x22 x84 xe4 x9c xf2 xcb)) E)
(T (W x00 x00 x00 x00 x00 x00 x00 x00)
(L (W x00 x00 x00 x00 x00 x00 x00 x00)) E))))))
(T (W x4b x5f x41 x52 x45 x41 x30 x32)
(T (W x45 x26 x22 x84 xe4 x9c xf2 xcb)
(T (W x00 x00 x00 x00 x00 x00 x00 x00)
(T (W x54 x00 x00 x00 x48 x00 x00 x00)
(T (W x00 x00 x80 x3f x00 x16 xfd xff)
(T (W xa4 x98 xfd xff x50 x00 x00 x00)
(L (W xaa x98 xa3 x28 x15 x88 xbf x26))
(L (W x04 x00 x00 x00 x00 x00 x00 x00)))
(T (W x45 x26 x22 x84 xe4 x9c xf2 xcb)
(L (W x00 x00 x00 x00 x01 x00 x00 x00)) E))
(T (W xfc x55 xfd xff x7e x55 xfd xff)
(T (W x4b x26 x3c xdc x00 x64 x4b x2f)
(L (W x00 x00 x80 x3f x02 x00 x00 x00))
(L (W x44 x00 x00 x00 x38 x00 x00 x00)))
(T (W x00 x00 x80 xbf x9c x00 x00 x00)
(L (W x04 x00 x00 x00 x00 x00 x00 x00)) E)))
(T (W x00 x00 xe0 x40 x24 x01 x00 x00)
(T (W x00 x00 x00 x00 x00 x00 x00 x00)
(T (W x1c x00 x00 x00 x46 x53 x59 x53)
(L (W x74 xf0 x39 xdc x00 x64 x48 x2f))
(L (W x00 x00 x00 x00 x00 x00 x32 x00)))
(T (W x00 x00 x00 x00 x01 x00 x00 x00)
(L (W x00 x00 x00 x00 x00 x00 x00 x00)) E))
(T (W x01 x00 x00 x00 x00 x00 x80 x3f)
(T (W x5f x30 x31 x35 x00 x00 x00 x00)
(L (W xfc xf5 xfe xff x00 x00 x00 x00))
(L (W x74 x00 x00 x00 x68 x00 x00 x00)))
(T (W x44 x00 x00 x00 x30 x00 x00 x00)
(L (W x44 x00 x00 x00 x30 x00 x00 x00)) E))))
(T (W x5f x4f x55 x54 x42 x52 x45 x41)
(T (W xfc xe5 xfc xff x00 x00 x00 x00)
(T (W x3c x01 x00 x00 x30 x01 x00 x00)
(T (W x00 x00 x00 x41 x24 x01 x00 x00)
(L (W xa4 xf0 xe6 x42 xec x51 xe5 x42))
(L (W x1c x01 x00 x00 x01 x00 x00 x00)))
(T (W x00 x00 x80 x40 x24 x01 x00 x00)
(L (W x00 x00 x00 x00 x00 x00 x00 x00)) E))
(T (W x33 x44 xbb x28 xbf xcd x6a x6a)
(T (W x00 x00 x00 x00 x01 x00 x00 x00)
(L (W x00 x00 x00 x00 x00 x00 x00 x00))
(L (W x1c x01 x00 x00 x01 x00 x00 x00)))
(T (W x45 x26 x22 x84 xe4 x9c xf2 xcb)
(L (W x3c x01 x00 x00 x30 x01 x00 x00)) E)))
(T (W x01 x00 x00 x00 x04 x00 x00 x00)
(T (W x45 x26 x22 x84 xe4 x9c xf2 xcb)
(T (W x00 x00 x00 x00 x00 x00 x00 x00)
(L (W x45 x26 x22 x84 xe4 x9c xf2 xcb))
(L (W xfc xc5 xff xff x00 x00 x00 x00)))
(T (W xa4 x48 xfe xff x50 x00 x00 x00)
(L (W x45 x26 x22 x84 xe4 x9c xf2 xcb)) E))
(T (W x00 x00 x00 x00 x00 x00 x00 x00)
(T (W x04 x00 x00 x00 xe8 x05 xfe xff)
(L (W x45 x26 x22 x84 xe4 x9c xf2 xcb)) E)
(T (W x6c x86 xfe xff x4c x00 x00 x00)
(L (W xfc x85 xff xff x00 x00 x00 x00)) E)))))
(T (W x45 x26 x22 x84 xe4 x9c xf2 xcb)
(T (W x49 xa1 x68 x4a xeb x5f xdd x3d)
(T (W xa4 xe0 xfc xff x50 x00 x00 x00)
(T (W x31 x00 x00 x00 x1b x00 x00 x00)
(T (W x44 x00 x00 x00 x30 x00 x00 x00)
(L (W x44 x00 x00 x00 x38 x00 x00 x00))
(L (W x00 x00 x00 x00 x01 x00 x00 x00)))
(T (W xfc x1d xfe xff x00 x00 x00 x00)
(L (W xd2 x8b xa7 x28 xbf x4d x53 x6a)) E))
(T (W x00 x00 x00 x00 x01 x00 x00 x00)
(T (W x00 x00 x80 x3f x00 xde xfd xff)
(L (W x2c x00 x00 x00 x20 x00 x00 x00))
(L (W x2c x00 x00 x00 x18 x00 x00 x00)))
(T (W x01 x00 x00 x00 x04 x00 x00 x00)
(L (W x45 x26 x22 x84 xe4 x9c xf2 xcb)) E)))
(T (W x04 x00 x00 x00 x3a x03 xfd xff)
(T (W x00 x00 x80 x3f x00 x00 x80 x3f)
(T (W x45 x26 x22 x84 xe4 x9c xf2 xcb)
(L (W x7a xbd xfe xff x00 x00 x80 x3f))
(L (W x45 x26 x22 x84 xe4 x9c xf2 xcb)))
(T (W x34 x00 x00 x00 x20 x00 x00 x00)
(L (W x00 x00 x00 x00 x00 x00 x00 x00)) E))
(T (W x45 x26 x22 x84 xe4 x9c xf2 xcb)
(T (W x45 x26 x22 x84 xe4 x9c xf2 xcb)
(L (W x00 x00 x40 x40 x24 x01 x00 x00))
(L (W x74 x00 x00 x00 x68 x00 x00 x00)))
(T (W x00 x00 x00 x00 x01 x00 x00 x00)
(L (W x00 x00 x80 xbf x9c x00 x00 x00)) E))))
(T (W x1c x01 x00 x00 x04 x00 x00 x00)
(T (W x7a xed xfc xff x14 x8e xd3 x43)
(T (W x54 x00 x00 x00 x48 x00 x00 x00)
(T (W xb2 x4c xbb x28 xbf xd2 x6a x6a)
(L (W x04 x00 x00 x00 x00 x00 x00 x00))
(L (W x45 x26 x22 x84 xe4 x9c xf2 xcb)))
(T (W xfc x2d xfe xff x00 x00 x00 x00)
(L (W x45 x26 x22 x84 xe4 x9c xf2 xcb)) E))
(T (W x00 x00 x80 x3f x00 x00 x80 x3f)
(T (W x00 x00 x00 x00 x00 x00 x00 x00)
(L (W x00 x00 x00 x00 x01 x00 x00 x00))
(L (W x45 x26 x22 x84 xe4 x9c xf2 xcb)))
(T (W x45 x26 x22 x84 xe4 x9c xf2 xcb)
(L (W x45 x26 x22 x84 xe4 x9c xf2 xcb)) E)))
(T (W x00 x00 x00 x00 x00 x0e xfd xff)
(T (W x60 x00 x00 x00 x54 x00 x00 x00)
(T (W x00 x00 x40 x40 x24 x01 x00 x00)
(L (W x44 x00 x00 x00 x30 x00 x00 x00))
(L (W x1c x01 x00 x00 x01 x00 x00 x00)))
(T (W xfc x4d xfe xff x00 x00 x00 x00)
(L (W x04 x00 x00 x00 x20 x50 xff xff)) E))
(T (W x34 x00 x00 x00 x20 x00 x00 x00)
(T (W x00 x00 x00 x00 x00 x00 x00 x00)
(L (W x5c x00 x00 x00 x50 x00 x00 x00)) E)
(T (W x00 x00 x80 x3f x00 x00 x80 x3f)
(L (W x7a x8d xff xff x00 x00 x80 x3f)) E)))))))
(T (W x60 x28 x00 x00 x74 x26 x00 x00)
(T (W x00 x00 x00 x00 x1c x00 x00 x00)
(T (W x34 x00 x00 x00 x20 x00 x00 x00)
(T (W x45 x26 x22 x84 xe4 x9c xf2 xcb)
(T (W x04 x00 x00 x00 x00 x00 x00 x00)
(T (W x4f x84 x6f x8b xe8 xcb x63 xb7)
(T (W x45 x26 x22 x84 xe4 x9c xf2 xcb)
(L (W x00 x00 x80 xbf x00 x00 x80 xbf))
(L (W x00 x00 x80 xbf x00 x00 x80 xbf)))
(T (W x45 x26 x22 x84 xe4 x9c xf2 xcb)
(L (W x01 x00 x00 x00 x00 x00 x80 x3f)) E))
(T (W x55 x6c xfc xf1 x99 x9e xc9 x88)
(T (W x00 x00 x00 x00 x00 xd4 xfd xff)
(L (W x3c x01 x00 x00 x30 x01 x00 x00))
(L (W x45 x26 x22 x84 xe4 x9c xf2 xcb)))
(T (W x00 x00 x00 x00 x00 x00 x00 x00)
(L (W x00 x00 x80 xbf x00 x00 x80 xbf)) E)))
(T (W x5f x41 x52 x45 x41 x30 x32 x00)
(T (W x00 x00 x00 x00 x00 x00 x00 x00)
(T (W x7a xb3 xfd xff xc3 x45 x2d x44)
(L (W x28 x00 x00 x00 x1c x00 x00 x00))
(L (W xfc xb3 xff xff x7e xb3 xff xff)))
(T (W x00 x00 x00 x00 x00 x00 x00 x00)
(L (W x00 x00 x00 x00 x00 x00 x00 x00)) E))
(T (W x5f x4e x45 x57 x5f x4f x55 x54)
(T (W x00 x00 x00 x00 x00 x00 x00 x00)
(L (W x45 x26 x22 x84 xe4 x9c xf2 xcb))
(L (W x00 x00 x00 x00 x00 x00 x00 x00)))
(T (W x00 x00 x00 x00 x00 x74 xfe xff)
(L (W x00 x00 x00 x00 x00 x00 x00 x00)) E))))
(T (W x00 x00 x00 x00 x00 x00 x00 x00)
(T (W x00 x00 x00 x00 x00 x00 x00 x00)
(T (W x07 x00 x00 x00 x73 x75 x62 x5f)
(T (W x5f x30 x30 x39 x00 x00 x00 x00)
(L (W x28 x00 x00 x00 x14 x00 x00 x00))
(L (W x00 x00 x00 x00 x00 x00 x00 x00)))
(T (W xcd x2c xfa x43 x00 x00 x00 x00)
(L (W x7a x23 xff xff x00 x00 x80 x3f)) E))
(T (W x00 x00 x00 x00 x00 x64 xfd xff)
(T (W x00 x00 x80 xbf x9c x00 x00 x00)
(L (W x45 x26 x22 x84 xe4 x9c xf2 xcb))
(L (W x1c x00 x00 x00 x46 x53 x59 x53)))
(T (W xfc x63 xfe xff x00 x00 x00 x00)
(L (W xa4 x70 x16 x42 xec xb1 x49 x44)) E)))
(T (W x00 x00 x00 x00 x00 x04 xfd xff)
(T (W x00 x00 x00 x00 x01 x00 x00 x00)
(T (W x2c x00 x00 x00 x20 x00 x00 x00)
(L (W x04 x00 x00 x00 x00 x00 x00 x00))
(L (W x00 x00 x00 x00 x00 x00 x00 x00)))
(T (W x45 x26 x22 x84 xe4 x9c xf2 xcb)
(L (W x45 x26 x22 x84 xe4 x9c xf2 xcb)) E))
(T (W x00 x00 x00 x00 x00 x00 x00 x00)
(T (W x00 x00 x00 x00 x00 x04 xfe xff)
(L (W x54 x00 x00 x00 x48 x00 x00 x00)) E)
(T (W xfc x83 xfe xff x00 x00 x00 x00)
(L (W x45 x26 x22 x84 xe4 x9c xf2 xcb)) E)))))
(T (W x45 x26 x22 x84 xe4 x9c xf2 xcb)
(T (W x5c x00 x00 x00 x50 x00 x00 x00)
(T (W xfc xdb xfc xff x00 x00 x00 x00)
(T (W x54 x49 x4f x4e x5f x41 x52 x45)
(T (W x00 x00 x00 x00 x00 x00 x00 x00)
(L (W x45 x26 x22 x84 xe4 x9c xf2 xcb))
(L (W x00 x00 x00 x00 x00 x00 x00 x00)))
(T (W x00 x00 x00 x00 x00 x00 x00 x00)
(L (W x01 x00 x00 x00 x04 x00 x00 x00)) E))
(T (W x00 x00 x80 xbf x9c x00 x00 x00)
(T (W x55 x6c xfc xf1 x99 x9e xc9 x88)
(L (W x45 x26 x22 x84 xe4 x9c xf2 xcb))
(L (W x2c x00 x00 x00 x18 x00 x00 x00)))
(T (W x00 x00 x00 x00 x00 x5c xfe xff)
(L (W x2c x00 x00 x00 x20 x00 x00 x00)) E)))
(T (W x00 x00 x00 x00 x01 x00 x00 x00)
(T (W x55 x39 x81 x6a xc4 xc7 x74 x14)
(T (W x45 x26 x22 x84 xe4 x9c xf2 xcb)
(L (W x78 x00 x00 x00 x6c x00 x00 x00))
(L (W x04 x00 x00 x00 x3a xc1 xff xff)))
(T (W x01 x00 x00 x00 x00 x00 x80 x3f)
(L (W x45 x26 x22 x84 xe4 x9c xf2 xcb)) E))
(T (W x00 x00 x00 x00 x00 x7c xfd xff)
(T (W x04 x00 x00 x00 x3a x01 xfe xff)
(L (W xf6 x28 x8f x43 x00 x00 x00 x00))
(L (W xfc xfb xff xff x7e xfb xff xff)))
(T (W x01 x00 x00 x00 x00 x00 x80 x3f)
(L (W x1c x01 x00 x00 x01 x00 x00 x00)) E))))
(T (W x32 x00 x00 x00 x00 x00 x01 x01)
(T (W x00 x00 x00 x00 x7e xeb xfc xff)
(T (W xde x65 xae xc9 x4a xa6 x48 x46)
(T (W x00 x00 x00 x00 x00 xac xfd xff)
(L (W x71 x2e xfc x8c x93 xd5 xc8 xa6))
(L (W xfc xab xff xff x00 x00 x00 x00)))
(T (W x00 x00 x00 x00 x00 x2c xfe xff)
(L (W x40 x00 x00 x00 x38 x00 x00 x00)) E))
(T (W x55 x39 x81 x6a xc4 xc7 x74 x14)
(T (W x01 x00 x00 x00 x04 x00 x00 x00)
(L (W x00 x00 x80 xbf x9c x00 x00 x00))
(L (W x04 x00 x00 x00 x00 x00 x00 x00)))
(T (W x45 x26 x22 x84 xe4 x9c xf2 xcb)
(L (W x54 x00 x00 x00 x48 x00 x00 x00)) E)))
(T (W x00 x00 x00 x00 x00 x00 x00 x00)
(T (W x00 x00 x00 x00 x00 x00 x00 x00)
(T (W x00 x10 x3e x44 x00 x00 x00 x00)
(L (W x00 x00 x00 x00 x00 x00 x00 x00))
(L (W x00 x00 x00 x00 x00 x00 x00 x00)))
(T (W x00 x00 x00 x00 x00 x00 x00 x00)
(L (W x00 x00 x00 x00 x00 x00 x00 x00)) E))
(T (W x01 x00 x00 x00 x00 x00 x80 x3f)
(T (W x00 x00 x80 x3f x00 x0c xfe xff)
(L (W xfc x0b xff xff x00 x00 x00 x00)) E)
(T (W x74 x00 x00 x00 x68 x00 x00 x00)
(L (W x04 x00 x00 x00 x20 x8e xff xff)) E))))))
(T (W x3c x01 x00 x00 x30 x01 x00 x00)
(T (W x00 x00 x00 x00 x01 x00 x00 x00)
(T (W x00 x00 x00 x00 x00 x00 x00 x00)
(T (W x45 x26 x22 x84 xe4 x9c xf2 xcb)
(T (W x00 x00 x00 x00 x00 x00 x00 x00)
(T (W x45 x26 x22 x84 xe4 x9c xf2 xcb)
(L (W x00 x00 x00 x00 x01 x00 x00 x00))
(L (W x45 x26 x22 x84 xe4 x9c xf2 xcb)))
(T (W x00 x00 x00 x00 x00 x18 xfe xff)
(L (W x45 x26 x22 x84 xe4 x9c xf2 xcb)) E))
(T (W x00 x00 x00 x00 x00 x00 x00 x00)
(T (W x00 x00 x00 x00 x00 x00 x00 x00)
(L (W x30 xd7 x1b x72 x9d x08 xa7 xbe))
(L (W x45 x26 x22 x84 xe4 x9c xf2 xcb)))
(T (W x00 x00 x00 x00 x01 x00 x00 x00)
(L (W x45 x26 x22 x84 xe4 x9c xf2 xcb)) E)))
(T (W x00 x00 x80 xbf x00 x00 x80 xbf)
(T (W x00 x00 x00 x00 x01 x00 x00 x00)
(T (W x1c x01 x00 x00 x01 x00 x00 x00)
(L (W xfc x66 xff x4b x84 x99 x7b x61))
(L (W x00 x00 x00 x00 xc2 xbf xff xff)))
(T (W x45 x26 x22 x84 xe4 x9c xf2 xcb)
(L (W xfc x37 xff xff x00 x00 x00 x00)) E))
(T (W x00 x00 x00 x00 x01 x00 x00 x00)
(T (W x28 x01 x00 x00 x20 x01 x00 x00)
(L (W x78 x00 x00 x00 x6c x00 x00 x00))
(L (W x00 x00 x80 x3f x00 x00 x80 x3f)))
(T (W x7a x77 xfe xff xec x11 x80 x43)
(L (W x45 x26 x22 x84 xe4 x9c xf2 xcb)) E))))
(T (W xf2 xab xff xff x00 x00 x00 x01)
(T (W x78 x00 x00 x00 x6c x00 x00 x00)
(T (W x00 x00 x80 xbf x9c x00 x00 x00)
(T (W x2d x94 x26 xc8 xea xa2 x7f x10)
(L (W x38 x00 x00 x00 x01 x00 x00 x00))
(L (W x45 x26 x22 x84 xe4 x9c xf2 xcb)))
(T (W x52 xde xbf xff xfd x58 xb6 xa5)
(L (W x00 x00 xa0 x40 x24 x01 x00 x00)) E))
(T (W x00 x00 x00 x00 x00 x00 x00 x00)
(T (W x40 x00 x00 x00 x38 x00 x00 x00)
(L (W x1c x00 x00 x00 x46 x53 x59 x53))
(L (W x00 x00 x80 xbf x9c x00 x00 x00)))
(T (W x00 x00 x00 x00 x00 x00 x00 x00)
(L (W x00 x00 x80 xbf x00 x00 x80 xbf)) E)))
(T (W x2c x00 x00 x00 x20 x00 x00 x00)
(T (W x45 x26 x22 x84 xe4 x9c xf2 xcb)
(T (W x00 x00 x00 x00 x00 xc8 xfd xff)
(L (W x01 x00 x00 x00 x04 x00 x00 x00))
(L (W x74 x00 x00 x00 x68 x00 x00 x00)))
(T (W x00 x00 x00 x00 x00 x00 x00 x00)
(L (W x45 x26 x22 x84 xe4 x9c xf2 xcb)) E))
(T (W x42 x52 x45 x41 x4b x5f x41 x52)
(T (W x48 x00 x00 x00 x34 x00 x00 x00)
(L (W x2c x00 x00 x00 x20 x00 x00 x00)) E)
(T (W x44 x00 x00 x00 x38 x00 x00 x00)
(L (W xa4 x8a xff xff x50 x00 x00 x00)) E)))))
(T (W x00 x00 x00 x00 x00 xb0 xfc xff)
(T (W x00 x00 x80 x3f x00 x00 x80 x3f)
(T (W xc2 x65 x2e x97 x85 x1f x59 x5f)
(T (W x4c x00 x08 x00 x0c x00 x10 x00)
(T (W x7a x9f xfd xff x66 x86 x2c x44)
(L (W x00 x00 x00 x00 x00 x00 x00 x00))
(L (W x60 x00 x00 x00 x54 x00 x00 x00)))
(T (W x55 x39 x81 x6a xc4 xc7 x74 x14)
(L (W x00 x00 x00 x00 x00 x00 x00 x00)) E))
(T (W x04 x00 x00 x00 x3a x65 xfd xff)
(T (W x00 x00 x00 x00 x00 x00 x00 x00)
(L (W x00 x00 x00 x00 x00 x00 x00 x00))
(L (W x7a xdf xff xff x00 x80 x3c x43)))
(T (W x2c x00 x00 x00 x20 x00 x00 x00)
(L (W xfc x5f xff xff x00 x00 x00 x00)) E)))
(T (W x45 x26 x22 x84 xe4 x9c xf2 xcb)
(T (W x00 x00 x00 x00 x00 x00 x00 x00)
(T (W x00 x00 x00 x00 x00 xc0 xfd xff)
(L (W x00 x00 x00 x00 x00 x00 x00 x00))
(L (W x00 x00 x00 x00 x00 xc0 xff xff)))
(T (W x45 x26 x22 x84 xe4 x9c xf2 xcb)
(L (W x00 x00 x00 x00 xc2 x47 xff xff)) E))
(T (W xfc x7f xfd xff x00 x00 x00 x00)
(T (W x44 x00 x00 x00 x38 x00 x00 x00)
(L (W x00 x00 x80 xbf x00 x00 x80 xbf))
(L (W xfc xff xff xff x04 x00 x04 x00)))
(T (W x04 x00 x00 x00 x3a x85 xfe xff)
(L (W x00 x00 x00 x00 x01 x00 x00 x00)) E))))
(T (W x00 x00 x80 xbf x9c x00 x00 x00)
(T (W x00 x00 x00 x00 x00 x00 x00 x00)
(T (W x45 x26 x22 x84 xe4 x9c xf2 xcb)
(T (W x00 x00 x00 x00 x00 x00 x00 x00)
(L (W x45 x26 x22 x84 xe4 x9c xf2 xcb))
(L (W x00 x00 x00 x00 x00 x00 x00 x00)))
(T (W x45 x26 x22 x84 xe4 x9c xf2 xcb)
(L (W x00 x00 x00 x00 x00 x30 xff xff)) E))
(T (W x7b x14 x12 x42 xae xd7 x4e x44)
(T (W x00 x00 x00 x00 x01 x00 x00 x00)
(L (W x45 x26 x22 x84 xe4 x9c xf2 xcb))
(L (W x01 x00 x00 x00 x04 x00 x00 x00)))
(T (W xfc x6f xfe xff x00 x00 x00 x00)
(L (W x00 x00 x00 x00 x00 x70 xff xff)) E)))
(T (W x04 x00 x00 x00 xe8 x0f xfd xff)
(T (W x55 x39 x81 x6a xc4 xc7 x74 x14)
(T (W x2a x85 x2f x58 x21 xf3 x1e xd1)
(L (W x48 x41 xc0 x43 x85 xeb xc1 x42))
(L (W x34 x00 x00 x00 x20 x00 x00 x00)))
(T (W x45 x26 x22 x84 xe4 x9c xf2 xcb)
(L (W x7a x4f xff xff x00 x00 x80 x3f)) E))
(T (W x04 x00 x00 x00 x3a x95 xfd xff)
(T (W x01 x00 x00 x00 x00 x00 x80 x3f)
(L (W xfc x0f xff xff x7e x0f xff xff)) E)
(T (W xcd xac x20 x44 x00 x00 x00 x00)
(L (W x00 x00 x00 x00 x00 x00 x00 x00)) E)))))))))
(T (W x74 xb8 x02 x00 xa8 xb6 x02 x00)
(T (W x60 x42 x02 x00 x78 x40 x02 x00)
(T (W xb4 x55 x01 x00 xe8 x53 x01 x00)
(T (W x00 x00 x00 x00 x00 x00 x00 x00)
(T (W x00 x00 x80 x3f x00 x00 x80 x3f)
(T (W x04 x00 x00 x00 x00 x00 x00 x00)
(T (W x00 x00 x00 x00 x00 x00 x00 x00)
(T (W x44 x00 x00 x00 x38 x00 x00 x00)
(T (W x3c x01 x00 x00 x30 x01 x00 x00)
(L (W x5c x00 x00 x00 x50 x00 x00 x00))
(L (W x72 xeb x22 x37 x6d xc8 x9b xc2)))
(T (W x29 x5c x19 x42 xcd xac x32 x44)
(L (W x04 x00 x00 x00 xa0 x13 xff xff)) E))
(T (W x00 x00 x00 x00 x00 x00 x00 x00)
(T (W x00 x00 x00 x00 x42 xd9 xfd xff)
(L (W x74 x00 x00 x00 x68 x00 x00 x00))
(L (W x00 x00 x00 x00 x00 x00 x00 x00)))
(T (W x00 x00 x00 x00 x00 x00 x00 x00)
(L (W x7c x51 xff xff x00 x00 x00 x00)) E)))
(T (W x04 x00 x00 x00 x68 xf1 xfc xff)
(T (W x00 x00 x00 x00 x01 x00 x00 x00)
(T (W x44 x00 x00 x00 x38 x00 x00 x00)
(L (W xe6 x5f x16 x01 x3a x7a xc2 xa3))
(L (W x24 xb4 xff xff x50 x00 x00 x00)))
(T (W x45 x26 x22 x84 xe4 x9c xf2 xcb)
(L (W x45 x26 x22 x84 xe4 x9c xf2 xcb)) E))
(T (W x7c x71 xfd xff x00 x00 x00 x00)
(T (W x45 x26 x22 x84 xe4 x9c xf2 xcb)
(L (W x3b x7d x30 x30 x37 x16 x76 xc6))
(L (W x45 x26 x22 x84 xe4 x9c xf2 xcb)))
(T (W x54 x00 x00 x00 x48 x00 x00 x00)
(L (W x54 x00 x00 x00 x48 x00 x00 x00)) E))))
(T (W x00 x00 x00 x00 x00 x00 x00 x00)
(T (W x45 x26 x22 x84 xe4 x9c xf2 xcb)
(T (W x04 x00 x00 x00 x68 x21 xfd xff)
(T (W x04 x00 x00 x00 xa0 xa3 xfd xff)
(L (W x01 x00 x00 x00 x04 x00 x00 x00))
(L (W x31 x6a xca xc9 x03 x8f xa3 xbc)))
(T (W x00 x00 x00 x00 x00 x00 x00 x00)
(L (W x00 x00 x00 x00 x80 x21 xff xff)) E))
(T (W x00 x00 x80 x3f x02 x00 x00 x00)
(T (W x44 x00 x00 x00 x30 x00 x00 x00)
(L (W x7c xe1 xfe xff x00 x00 x00 x00))
(L (W x00 x00 x00 x00 x80 xe1 xff xff)))
(T (W x40 x00 x00 x00 x38 x00 x00 x00)
(L (W x66 xd4 xac x28 xbf xcf x59 x6a)) E)))
(T (W x04 x00 x00 x00 x00 x00 x80 x3f)
(T (W x45 x26 x22 x84 xe4 x9c xf2 xcb)
(T (W x62 xe1 x1b x72 x9d x0e xa7 xbe)
(L (W x45 x26 x22 x84 xe4 x9c xf2 xcb))
(L (W x00 x00 x00 x00 x01 x00 x00 x00)))
(T (W x3c x01 x00 x00 x30 x01 x00 x00)
(L (W xfa x40 xff xff x00 x00 x80 x3f)) E))
(T (W x9f x41 x45 xdc x00 xd9 x55 x2f)
(T (W x45 x26 x22 x84 xe4 x9c xf2 xcb)
(L (W x00 x00 x00 x00 x00 x00 x00 x00)) E)
(T (W x00 x00 x80 xbf x00 x00 x80 xbf)
(L (W x3c x01 x00 x00 x30 x01 x00 x00)) E)))))
(T (W x72 x8d xff xff x00 x00 x00 x01)
(T (W x7c xb9 xfc xff x00 x00 x00 x00)
(T (W x00 x00 x80 xbf x00 x00 x80 xbf)
(T (W x00 x00 x00 x00 x01 x00 x00 x00)
(T (W x45 x26 x22 x84 xe4 x9c xf2 xcb)
(L (W x42 x52 x45 x41 x4b x5f x41 x52))
(L (W x45 x26 x22 x84 xe4 x9c xf2 xcb)))
(T (W x00 x00 x00 x00 x01 x00 x00 x00)
(L (W x00 x00 x80 xbf x9c x00 x00 x00)) E))
(T (W x00 x00 x00 x00 x01 x00 x00 x00)
(T (W x44 x00 x00 x00 x38 x00 x00 x00)
(L (W x2a xdd xfe xff x40 x01 x00 x00))
(L (W x45 x26 x22 x84 xe4 x9c xf2 xcb)))
(T (W x00 x00 x00 x00 x42 x61 xfe xff)
(L (W x00 x00 x80 xbf x9c x00 x00 x00)) E)))
(T (W x00 x00 x00 x00 x00 x00 x00 x00)
(T (W x24 x3c xfd xff x50 x00 x00 x00)
(T (W x3d x4a x40 x44 xcd xcc x08 x42)
(L (W x45 x26 x22 x84 xe4 x9c xf2 xcb))
(L (W xfa xb8 xff xff x00 x00 x80 x3f)))
(T (W x00 x00 x00 x00 x80 x39 xfe xff)
(L (W x24 x3c xff xff x50 x00 x00 x00)) E))
(T (W x00 x00 xa0 x40 x24 x01 x00 x00)
(T (W x00 x00 x80 x3f x80 xf9 xfd xff)
(L (W x2c x00 x00 x00 x20 x00 x00 x00))
(L (W x00 x00 x00 x00 x00 x00 x00 x00)))
(T (W x00 x00 x00 x00 x80 x79 xfe xff)
(L (W x00 x00 x00 x00 x80 x79 xff xff)) E))))
(T (W xfa xc8 xfc xff x00 x00 x80 x3f)
(T (W x2c x00 x00 x00 x20 x00 x00 x00)
(T (W xd7 x43 xe4 x43 x48 xe1 x6c x42)
(T (W x00 x00 x00 x00 x42 xb1 xfd xff)
(L (W x5c x00 x00 x00 x50 x00 x00 x00))
(L (W x3c x01 x00 x00 x30 x01 x00 x00)))
(T (W x00 x00 x00 x00 x42 x31 xfe xff)
(L (W x7c x29 xff xff xfe x28 xff xff)) E))
(T (W x24 x6c xfd xff x50 x00 x00 x00)
(T (W x1c x01 x00 x00 x01 x00 x00 x00)
(L (W x48 x00 x00 x00 x34 x00 x00 x00))
(L (W x00 x00 x00 x00 x00 x00 x00 x00)))
(T (W x44 x00 x00 x00 x30 x00 x00 x00)
(L (W x00 x00 x00 x00 x00 x00 x00 x00)) E)))
(T (W x40 x00 x00 x00 x38 x00 x00 x00)
(T (W x00 x00 x00 x00 x01 x00 x00 x00)
(T (W x2c x00 x00 x00 x20 x00 x00 x00)
(L (W x45 x26 x22 x84 xe4 x9c xf2 xcb))
(L (W x00 x00 x00 x00 x00 x00 x00 x00)))
(T (W x45 x26 x22 x84 xe4 x9c xf2 xcb)
(L (W x00 x00 x00 x00 x01 x00 x00 x00)) E))
(T (W x55 x39 x81 x6a xc4 xc7 x74 x14)
(T (W x45 x26 x22 x84 xe4 x9c xf2 xcb)
(L (W x40 x00 x00 x00 x38 x00 x00 x00)) E)
(T (W x45 x26 x22 x84 xe4 x9c xf2 xcb)
(L (W x45 x26 x22 x84 xe4 x9c xf2 xcb)) E))))))
(T (W x5c x00 x00 x00 x50 x00 x00 x00)
(T (W x00 x00 x00 x00 x00 x00 x00 x00)
(T (W x45 x26 x22 x84 xe4 x9c xf2 xcb)
(T (W x5f x41 x52 x45 x41 x30 x32 x00)
(T (W x00 x00 x00 x00 x00 x00 x00 x00)
(T (W x00 x00 x00 x00 x01 x00 x00 x00)
(L (W x00 x00 x00 x00 x00 x00 x00 x00))
(L (W x00 x00 x00 x00 x00 x00 x00 x00)))
(T (W x00 x00 x80 x3f x02 x00 x00 x00)
(L (W x8f x42 xe9 x43 x00 x00 x00 x00)) E))
(T (W x00 x00 x00 x00 x00 x00 x00 x00)
(T (W x04 x00 x00 x00 xba xda xfd xff)
(L (W x00 x00 x80 x3f x00 x00 x80 x3f))
(L (W x04 x00 x00 x00 x00 x00 x00 x00)))
(T (W x45 x26 x22 x84 xe4 x9c xf2 xcb)
(L (W x00 x00 x00 x00 x00 x00 x00 x00)) E)))
(T (W x4f x84 x6f x8b xe8 xcb x63 xb7)
(T (W x45 x26 x22 x84 xe4 x9c xf2 xcb)
(T (W x04 x00 x00 x00 x68 xb5 xfd xff)
(L (W x04 x00 x00 x00 xba xba xfe xff))
(L (W x04 x00 x00 x00 x68 xb5 xff xff)))
(T (W x7c x35 xfe xff x00 x00 x00 x00)
(L (W x45 x26 x22 x84 xe4 x9c xf2 xcb)) E))
(T (W x28 x00 x00 x00 x14 x00 x00 x00)
(T (W x44 x00 x00 x00 x30 x00 x00 x00)
(L (W x00 x00 x00 x00 x80 xf5 xfe xff))
(L (W x01 x00 x00 x00 x04 x00 x00 x00)))
(T (W x44 x00 x00 x00 x38 x00 x00 x00)
(L (W x44 x00 x00 x00 x38 x00 x00 x00)) E))))
(T (W x74 x00 x00 x00 x68 x00 x00 x00)
(T (W x00 x00 x00 x00 x80 xe5 xfc xff)
(T (W x55 x6c xfc xf1 x99 x9e xc9 x88)
(T (W x55 x6c xfc xf1 x99 x9e xc9 x88)
(L (W x00 x00 x00 x00 x00 x00 x00 x00))
(L (W x44 x00 x00 x00 x30 x00 x00 x00)))
(T (W x5c x00 x00 x00 x50 x00 x00 x00)
(L (W x7c x25 xff xff x00 x00 x00 x00)) E))
(T (W x04 x00 x00 x00 xba x6a xfd xff)
(T (W x00 x00 x00 x00 x00 x00 x00 x00)
(L (W x00 x00 x00 x00 x80 xe5 xfe xff))
(L (W x44 x00 x00 x00 x30 x00 x00 x00)))
(T (W x6c x88 xa7 x28 xbf x4b x53 x6a)
(L (W x74 x00 x00 x00 x68 x00 x00 x00)) E)))
(T (W x45 x26 x22 x84 xe4 x9c xf2 xcb)
(T (W x01 x00 x00 x00 x01 x00 x00 x00)
(T (W x45 x26 x22 x84 xe4 x9c xf2 xcb)
(L (W x1c x01 x00 x00 x01 x00 x00 x00))
(L (W x00 x00 x00 x00 x80 xc5 xff xff)))
(T (W x00 x00 x00 x00 x01 x00 x00 x00)
(L (W x3c x01 x00 x00 x30 x01 x00 x00)) E))
(T (W x00 x00 x00 x00 x01 x00 x00 x00)
(T (W x00 x00 x00 x00 x80 x05 xfe xff)
(L (W x00 x00 x80 xbf x9c x00 x00 x00)) E)
(T (W x00 x00 x00 x00 x01 x00 x00 x00)
(L (W xe5 x5d x11 x0c x1e x72 xad xc0)) E)))))
(T (W x00 x00 x80 xbf x9c x00 x00 x00)
(T (W x3f x7c x88 xaf x9a x1e x19 x7c)
(T (W x00 x00 x00 x00 x01 x00 x00 x00)
(T (W x00 x00 x00 x00 x01 x00 x00 x00)
(T (W x44 x00 x00 x00 x38 x00 x00 x00)
(L (W x04 x00 x00 x00 x00 x00 x00 x00))
(L (W x7c x9d xff xff x00 x00 x00 x00)))
(T (W x00 x00 x00 x00 x80 x1d xfe xff)
(L (W x04 x00 x00 x00 xba x22 xff xff)) E))
(T (W x00 x00 x00 x00 x00 x00 x00 x00)
(T (W x00 x00 x00 x00 x00 x00 x00 x00)
(L (W x00 x00 x00 x00 x01 x00 x00 x00))
(L (W x2c x00 x00 x00 x20 x00 x00 x00)))
(T (W x45 x26 x22 x84 xe4 x9c xf2 xcb)
(L (W x40 x00 x00 x00 x38 x00 x00 x00)) E)))
(T (W x4e x45 x52 x41 x54 x49 x4f x4e)
(T (W x00 x00 x00 x00 x00 x00 x00 x00)
(T (W x01 x00 x00 x00 x00 x00 x80 x3f)
(L (W x45 x26 x22 x84 xe4 x9c xf2 xcb))
(L (W x00 x00 x80 xbf x00 x00 x80 xbf)))
(T (W x14 xae x1c x42 x0a x27 x17 x44)
(L (W x00 x00 x00 x00 x00 x00 x00 x00)) E))
(T (W x40 x00 x00 x00 x38 x00 x00 x00)
(T (W x00 x00 x80 xbf x00 x00 x80 xbf)
(L (W x5c x00 x00 x00 x50 x00 x00 x00))
(L (W x2c x00 x00 x00 x20 x00 x00 x00)))
(T (W xf6 xf8 x42 x44 x00 x00 x00 x00)
(L (W xfa x7c xff xff x7b x14 xf6 x43)) E))))
(T (W x00 x00 x00 x00 xfe xcc xfc xff)
(T (W x00 x00 x00 x00 x00 x00 x00 x00)
(T (W x00 x00 x00 x00 x00 x00 x00 x00)
(T (W x04 x00 x00 x00 xba xb2 xfd xff)
(L (W x1b x00 x00 x00 x57 x53 x59 x53))
(L (W x54 x00 x00 x00 x48 x00 x00 x00)))
(T (W xc4 xf0 x04 x37 x15 x02 x56 x40)
(L (W x1c x01 x00 x00 x01 x00 x00 x00)) E))
(T (W x00 x00 x00 x00 x00 x00 x00 x00)
(T (W x45 x26 x22 x84 xe4 x9c xf2 xcb)
(L (W x00 x00 x00 x00 x00 x00 x00 x00))
(L (W x1c x01 x00 x00 x01 x00 x00 x00)))
(T (W x3c x01 x00 x00 x30 x01 x00 x00)
(L (W x00 x00 x80 xbf x9c x00 x00 x00)) E)))
(T (W x45 x26 x22 x84 xe4 x9c xf2 xcb)
(T (W x24 x50 xfd xff x50 x00 x00 x00)
(T (W x5c x00 x00 x00 x50 x00 x00 x00)
(L (W x44 x00 x00 x00 x38 x00 x00 x00))
(L (W x44 x00 x00 x00 x30 x00 x00 x00)))
(T (W x00 x00 x00 x00 x80 x4d xfe xff)
(L (W x00 x00 x00 x00 x80 x4d xff xff)) E))
(T (W xcd xcc x14 x42 x66 x46 x5a x44)
(T (W x00 x00 x00 x00 x01 x00 x00 x00)
(L (W x24 x10 xff xff x50 x00 x00 x00)) E)
(T (W x00 x00 x00 x00 x00 x00 x00 x00)
(L (W x45 x26 x22 x84 xe4 x9c xf2 xcb)) E)))))))
(T (W x10 x66 x00 x00 x24 x64 x00 x00)
(T (W x00 x00 x00 x00 x01 x00 x00 x00)
(T (W x48 xe1 x77 x43 x00 x00 x00 x00)
(T (W x54 x00 x00 x00 x48 x00 x00 x00)
(T (W x1b x00 x00 x00 x57 x53 x59 x53)
(T (W x45 x26 x22 x84 xe4 x9c xf2 xcb)
(T (W x01 x00 x00 x00 x00 x00 x80 x3f)
(L (W x00 x00 x80 x3f x80 x93 xfe xff))
(L (W x00 x00 x80 x3f x80 x93 xff xff)))
(T (W x3c x01 x00 x00 x30 x01 x00 x00)
(L (W x28 x00 x00 x00 x14 x00 x00 x00)) E))
(T (W x00 x00 x00 x00 x00 x00 x00 x00)
(T (W x34 x00 x00 x00 x20 x00 x00 x00)
(L (W x55 x39 x81 x6a xc4 xc7 x74 x14))
(L (W x00 x00 x80 xbf x00 x00 x80 xbf)))
(T (W x00 x00 x00 x00 x01 x00 x00 x00)
(L (W x45 x26 x22 x84 xe4 x9c xf2 xcb)) E)))
(T (W x48 x00 x00 x00 x34 x00 x00 x00)
(T (W x45 x26 x22 x84 xe4 x9c xf2 xcb)
(T (W x00 x00 x00 x00 x00 x00 x00 x00)
(L (W x00 x00 x00 x00 x01 x00 x00 x00))
(L (W x00 x00 x00 x00 x00 x00 x00 x00)))
(T (W x45 x26 x22 x84 xe4 x9c xf2 xcb)
(L (W x45 x26 x22 x84 xe4 x9c xf2 xcb)) E))
(T (W x78 x00 x00 x00 x6c x00 x00 x00)
(T (W x00 x00 x00 x00 x80 xf3 xfd xff)
(L (W x40 x00 x00 x00 x38 x00 x00 x00))
(L (W x45 x26 x22 x84 xe4 x9c xf2 xcb)))
(T (W x45 x26 x22 x84 xe4 x9c xf2 xcb)
(L (W x45 x26 x22 x84 xe4 x9c xf2 xcb)) E))))
(T (W x7c xc3 xfc xff x00 x00 x00 x00)
(T (W x45 x26 x22 x84 xe4 x9c xf2 xcb)
(T (W x04 x00 x00 x00 x68 x23 xfd xff)
(T (W x44 x00 x00 x00 x30 x00 x00 x00)
(L (W x2c x00 x00 x00 x20 x00 x00 x00))
(L (W x00 x00 x00 x00 x00 x00 x00 x00)))
(T (W x00 x00 x00 x00 x00 x00 x00 x00)
(L (W x45 x26 x22 x84 xe4 x9c xf2 xcb)) E))
(T (W x34 x00 x00 x00 x20 x00 x00 x00)
(T (W xfa xe2 xfd xff x29 x8c x56 x44)
(L (W x45 x26 x22 x84 xe4 x9c xf2 xcb))
(L (W x04 x00 x00 x00 x68 xe3 xff xff)))
(T (W x00 x00 x00 x00 x80 x63 xfe xff)
(L (W x00 x00 x00 x00 x00 x00 x00 x00)) E)))
(T (W x34 x00 x00 x00 x20 x00 x00 x00)
(T (W x00 x00 x00 x00 x00 x00 x00 x00)
(T (W x00 x00 x00 x00 x01 x00 x00 x00)
(L (W x00 x00 x00 x00 x00 x00 x00 x00))
(L (W x45 x26 x22 x84 xe4 x9c xf2 xcb)))
(T (W x01 x00 x00 x00 x00 x00 x80 x3f)
(L (W x00 x00 x00 x00 x00 x00 x00 x00)) E))
(T (W x00 x00 x00 x00 x00 x00 x00 x00)
(T (W x45 x26 x22 x84 xe4 x9c xf2 xcb)
(L (W x00 x00 x00 x00 x00 x00 x00 x00)) E)
(T (W x95 x31 x76 x2c x15 xa3 x22 x2e)
(L (W x00 x00 x80 xbf x00 x00 x80 xbf)) E)))))
(T (W x1c x01 x00 x00 x04 x00 x00 x00)
(T (W x24 xbe xfc xff x50 x00 x00 x00)
(T (W xbb x64 xba x4b xbc x36 x01 xeb)
(T (W x5c x00 x00 x00 x50 x00 x00 x00)
(T (W x45 x26 x22 x84 xe4 x9c xf2 xcb)
(L (W x00 x00 x80 xbf x00 x00 x80 xbf))
(L (W x45 x26 x22 x84 xe4 x9c xf2 xcb)))
(T (W x45 x26 x22 x84 xe4 x9c xf2 xcb)
(L (W x45 x26 x22 x84 xe4 x9c xf2 xcb)) E))
(T (W x45 x26 x22 x84 xe4 x9c xf2 xcb)
(T (W x45 x26 x22 x84 xe4 x9c xf2 xcb)
(L (W x00 x00 x80 xbf x9c x00 x00 x00))
(L (W x2c x00 x00 x00 x20 x00 x00 x00)))
(T (W x34 x00 x00 x00 x20 x00 x00 x00)
(L (W x00 x00 x00 x00 x01 x00 x00 x00)) E)))
(T (W x02 x00 x00 x00 x31 x39 x00 x00)
(T (W xb7 x8a x02 x4c x84 x25 x7f x61)
(T (W x3c x01 x00 x00 x30 x01 x00 x00)
(L (W x01 x00 x00 x00 x04 x00 x00 x00))
(L (W x00 x00 x00 x00 x00 x00 x00 x00)))
(T (W x28 x00 x00 x00 x14 x00 x00 x00)
(L (W x20 x39 x45 xdc x00 xd4 x55 x2f)) E))
(T (W xac xf4 x04 xb6 xcf x62 x0d xb2)
(T (W x00 x00 x00 x00 x00 x00 x00 x00)
(L (W x00 x00 x00 x00 x00 x00 x00 x00))
(L (W x00 x00 x00 x00 x00 x00 x00 x00)))
(T (W x28 x00 x00 x00 x14 x00 x00 x00)
(L (W x44 x00 x00 x00 x30 x00 x00 x00)) E))))
(T (W x1f x25 x27 x44 x9a x99 x2a x42)
(T (W x45 x26 x22 x84 xe4 x9c xf2 xcb)
(T (W x00 x00 x00 x00 x00 x00 x00 x00)
(T (W x34 x00 x00 x00 x20 x00 x00 x00)
(L (W x7c xab xfe xff xfe xaa xfe xff))
(L (W x68 x2b x0c x0c x1e xfd xa6 xc0)))
(T (W x34 x00 x00 x00 x20 x00 x00 x00)
(L (W x00 x00 x00 x00 x42 x33 xff xff)) E))
(T (W x1f x7d x02 x4c x84 x1d x7f x61)
(T (W x45 x26 x22 x84 xe4 x9c xf2 xcb)
(L (W x45 x26 x22 x84 xe4 x9c xf2 xcb))
(L (W x1c x00 x00 x00 x46 x53 x59 x53)))
(T (W x71 x3d x51 x44 xd7 x23 x87 x42)
(L (W x5f x30 x30 x35 x00 x00 x00 x00)) E)))
(T (W x45 x26 x22 x84 xe4 x9c xf2 xcb)
(T (W x45 x26 x22 x84 xe4 x9c xf2 xcb)
(T (W x00 x00 x00 x00 x00 x00 x00 x00)
(L (W x45 x26 x22 x84 xe4 x9c xf2 xcb))
(L (W x00 x00 x00 x00 x00 x00 x00 x00)))
(T (W x45 x26 x22 x84 xe4 x9c xf2 xcb)
(L (W x45 x26 x22 x84 xe4 x9c xf2 xcb)) E))
(T (W x00 x00 x80 x3f x00 x00 x80 x3f)
(T (W x00 x00 x00 x00 x00 x00 x00 x00)
(L (W x00 x00 x00 x00 x80 x0b xff xff)) E)
(T (W x01 x00 x00 x00 x04 x00 x00 x00)
(L (W x00 x00 x00 x00 x80 x8b xff xff)) E))))))
(T (W x49 xa1 x68 x4a xeb x5f xdd x3d)
(T (W x5f x4f x55 x54 x42 x52 x45 x41)
(T (W x45 x26 x22 x84 xe4 x9c xf2 xcb)
(T (W x00 x00 xe0 x40 x24 x01 x00 x00)
(T (W x00 x00 x00 x00 x00 x00 x00 x00)
(T (W x54 x00 x00 x00 x48 x00 x00 x00)
(L (W x00 x00 x00 x00 x00 x00 x00 x00))
(L (W x1c x01 x00 x00 x01 x00 x00 x00)))
(T (W x34 x00 x00 x00 x20 x00 x00 x00)
(L (W x00 x00 xa0 x40 x24 x01 x00 x00)) E))
(T (W x00 x00 x00 x00 x00 x00 x00 x00)
(T (W x45 x26 x22 x84 xe4 x9c xf2 xcb)
(L (W x9a x99 xd5 x42 x85 x6b x41 x43))
(L (W x54 x00 x00 x00 x48 x00 x00 x00)))
(T (W x00 x00 x00 x00 x00 x00 x00 x00)
(L (W x1c x01 x00 x00 x02 x00 x00 x00)) E)))
(T (W x00 x00 x80 x3f x80 xf7 xfc xff)
(T (W x7c x37 xfd xff x00 x00 x00 x00)
(T (W x44 x00 x00 x00 x30 x00 x00 x00)
(L (W x04 x00 x00 x00 xba xbc xfe xff))
(L (W x04 x00 x00 x00 xa0 xb9 xff xff)))
(T (W x45 x26 x22 x84 xe4 x9c xf2 xcb)
(L (W x00 x00 x00 x00 x80 x37 xff xff)) E))
(T (W x0a x17 x4c x44 x00 x00 x00 x00)
(T (W x55 x6c xfc xf1 x99 x9e xc9 x88)
(L (W x01 x00 x00 x00 x04 x00 x00 x00))
(L (W x00 x00 x00 x00 x00 x00 x00 x00)))
(T (W x00 x00 x00 x00 x00 x00 x00 x00)
(L (W x45 x26 x22 x84 xe4 x9c xf2 xcb)) E))))
(T (W x28 x00 x00 x00 x14 x00 x00 x00)
(T (W x01 x00 x00 x00 x04 x00 x00 x00)
(T (W x00 x00 x80 x3f x00 x00 x80 x3f)
(T (W x7c xa7 xfd xff xfe xa6 xfd xff)
(L (W x7c xa7 xfe xff x00 x00 x00 x00))
(L (W x33 x33 x8f x43 x33 x33 x21 x42)))
(T (W x7c x27 xfe xff xfe x26 xfe xff)
(L (W xd6 x81 x9c x94 x9b x27 x57 x25)) E))
(T (W x45 x26 x22 x84 xe4 x9c xf2 xcb)
(T (W x00 x00 x00 x00 x42 xef xfd xff)
(L (W x04 x00 x00 x00 x68 xe7 xfe xff))
(L (W x9a x19 xb5 x43 x66 x66 x10 x42)))
(T (W x00 x00 x00 x00 x00 x00 x00 x00)
(L (W x00 x00 x80 x3f x00 x00 x80 x3f)) E)))
(T (W x00 x00 x00 x00 x01 x00 x00 x00)
(T (W x00 x00 x80 xbf x9c x00 x00 x00)
(T (W x45 x26 x22 x84 xe4 x9c xf2 xcb)
(L (W x45 x26 x22 x84 xe4 x9c xf2 xcb))
(L (W x01 x00 x00 x00 x04 x00 x00 x00)))
(T (W x45 x26 x22 x84 xe4 x9c xf2 xcb)
(L (W x01 x00 x00 x00 x00 x00 x80 x3f)) E))
(T (W x60 x00 x00 x00 x54 x00 x00 x00)
(T (W x44 x00 x00 x00 x38 x00 x00 x00)
(L (W x00 x00 x00 x00 x01 x00 x00 x00)) E)
(T (W x04 x00 x00 x00 x00 x00 x00 x00)
(L (W x00 x00 x00 x00 x01 x00 x00 x00)) E)))))
(T (W x52 xce xbc x5a x8d xf3 x5d xa7)
(T (W x00 x00 x00 x00 x00 x00 x00 x00)
(T (W x04 x00 x00 x00 xba xe4 xfc xff)
(T (W x74 x00 x00 x00 x68 x00 x00 x00)
(T (W x00 x00 x00 x00 x00 x00 x00 x00)
(L (W x45 x26 x22 x84 xe4 x9c xf2 xcb))
(L (W x24 xa2 xff xff x50 x00 x00 x00)))
(T (W x7e x99 x4a xdc x00 x64 x5c x2f)
(L (W x45 x26 x22 x84 xe4 x9c xf2 xcb)) E))
(T (W x53 x5f x47 x41 x4e x45 x52 x41)
(T (W x00 x00 x00 x00 x00 x00 x00 x00)
(L (W x45 x26 x22 x84 xe4 x9c xf2 xcb))
(L (W x00 x00 x00 x00 x00 x00 x00 x00)))
(T (W x00 x00 x00 x00 x01 x00 x00 x00)
(L (W x00 x00 x00 x00 x80 x5f xff xff)) E)))
(T (W x3c x01 x00 x00 x30 x01 x00 x00)
(T (W x00 x00 x00 x00 x01 x00 x00 x00)
(T (W x34 x00 x00 x00 x20 x00 x00 x00)
(L (W x7c xbf xfe xff x00 x00 x00 x00))
(L (W xa3 xd5 x78 x86 x22 x8d x92 x6b)))
(T (W x00 x00 x00 x00 x00 x00 x00 x00)
(L (W x04 x00 x00 x00 xa0 x41 xff xff)) E))
(T (W x00 x00 x00 x00 x80 x7f xfd xff)
(T (W x04 x00 x00 x00 x00 x00 x00 x00)
(L (W x00 x00 x80 x3f x80 xff xfe xff))
(L (W x00 x00 x00 x00 x00 x00 x00 x00)))
(T (W x4b x5f x41 x52 x45 x41 x30 x32)
(L (W x00 x00 x00 x00 x00 x00 x00 x00)) E))))
(T (W xfa xce xfc xff x29 x1c x2e x44)
(T (W x00 x00 x00 x00 x80 xef xfc xff)
(T (W x00 x00 x80 xbf x00 x00 x80 xbf)
(T (W x45 x26 x22 x84 xe4 x9c xf2 xcb)
(L (W x28 x01 x00 x00 x20 x01 x00 x00))
(L (W x45 x26 x22 x84 xe4 x9c xf2 xcb)))
(T (W x54 x00 x00 x00 x48 x00 x00 x00)
(L (W x34 x00 x00 x00 x20 x00 x00 x00)) E))
(T (W x00 x00 x00 x00 x00 x00 x00 x00)
(T (W x7c xef xfd xff x00 x00 x00 x00)
(L (W x01 x00 x00 x00 x02 x00 x00 x00))
(L (W x45 x26 x22 x84 xe4 x9c xf2 xcb)))
(T (W x94 x8e xba x31 x15 xda x38 x37)
(L (W x06 xb1 x2f xc8 xe3 xff x61 x9d)) E)))
(T (W x00 x00 x00 x00 x80 x0f xfd xff)
(T (W xca x2e x3c xdc x00 x69 x4b x2f)
(T (W x7c xcf xfd xff xfe xce xfd xff)
(L (W x00 x00 x00 x00 x00 x00 x00 x00))
(L (W xd7 x43 xaa x43 x3d x0a x4c x42)))
(T (W x6c x88 xa7 x28 xbf x4b x53 x6a)
(L (W x45 x26 x22 x84 xe4 x9c xf2 xcb)) E))
(T (W x00 x00 x00 x00 x00 x00 x00 x00)
(T (W x45 x26 x22 x84 xe4 x9c xf2 xcb)
(L (W x00 x00 x00 x00 x00 x00 x00 x00)) E)
(T (W x00 x00 x00 x00 x00 x00 x00 x00)
(L (W x7c x8f xff xff x00 x00 x00 x00)) E))))))))
(T (W x84 xcc x01 x00 x98 xca x01 x00)
(T (W x64 xdf x00 x00 x98 xdd x00 x00)
(T (W x7f x9a x7d x67 x2b x73 xe6 x8e)
(T (W x45 x26 x22 x84 xe4 x9c xf2 xcb)
(T (W x44 x00 x00 x00 x30 x00 x00 x00)
(T (W x00 x00 x00 x00 x80 xd2 xfc xff)
(T (W x5f x41 x52 x45 x41 x30 x32 x00)
(T (W x00 x00 x00 x00 x00 x00 x00 x00)
(L (W x45 x26 x22 x84 xe4 x9c xf2 xcb))
(L (W x45 x26 x22 x84 xe4 x9c xf2 xcb)))
(T (W x01 x00 x00 x00 x04 x00 x00 x00)
(L (W x00 x00 x00 x00 x01 x00 x00 x00)) E))
(T (W x00 x00 x80 x40 x3c x01 x00 x00)
(T (W x45 x26 x22 x84 xe4 x9c xf2 xcb)
(L (W x04 x00 x00 x00 xba xd7 xfe xff))
(L (W x31 x6a xca xc9 x03 x8f xa3 xbc)))
(T (W xbb x82 xbd x31 x15 x4a x3c x37)
(L (W x04 x00 x00 x00 xba x57 xff xff)) E)))
(T (W x04 x00 x00 x00 x00 x00 x00 x00)
(T (W x5c x00 x00 x00 x50 x00 x00 x00)
(T (W x1c x01 x00 x00 x01 x00 x00 x00)
(L (W x04 x00 x00 x00 xa0 xb4 xfe xff))
(L (W x00 x00 xc0 x40 x24 x01 x00 x00)))
(T (W x00 x00 x80 x3f x80 x32 xfe xff)
(L (W x74 x00 x00 x00 x68 x00 x00 x00)) E))
(T (W x45 x26 x22 x84 xe4 x9c xf2 xcb)
(T (W x00 x00 x80 xbf x9c x00 x00 x00)
(L (W x04 x00 x00 x00 xa0 xf4 xfe xff))
(L (W x00 x00 x80 x3f x00 x00 x80 x3f)))
(T (W x45 x26 x22 x84 xe4 x9c xf2 xcb)
(L (W x45 x26 x22 x84 xe4 x9c xf2 xcb)) E))))
(T (W x34 x00 x00 x00 x20 x00 x00 x00)
(T (W x00 x00 x80 x3f x00 x00 x80 x3f)
(T (W x65 xce x4c x96 xf5 xad x68 xa4)
(T (W x04 x00 x00 x00 x00 x00 x00 x00)
(L (W x5f x4e x45 x57 x5f x4f x55 x54))
(L (W x00 x00 x80 xbf x00 x00 x80 xbf)))
(T (W x01 x00 x00 x00 x00 x00 x80 x3f)
(L (W x00 x00 x00 x00 x42 x2a xff xff)) E))
(T (W x00 x00 x00 x00 x00 x00 x00 x00)
(T (W x45 x26 x22 x84 xe4 x9c xf2 xcb)
(L (W x00 x00 x00 x00 x00 x00 x00 x00))
(L (W x4d x4f x5c x90 x11 xb7 x1a x47)))
(T (W xfa x61 xfe xff x00 x00 x80 x3f)
(L (W x00 x00 x80 x3f x02 x00 x00 x00)) E)))
(T (W x00 x00 x00 x00 x00 x00 x00 x00)
(T (W x45 x26 x22 x84 xe4 x9c xf2 xcb)
(T (W x78 x00 x00 x00 x6c x00 x00 x00)
(L (W x45 x26 x22 x84 xe4 x9c xf2 xcb))
(L (W x28 x00 x00 x00 x14 x00 x00 x00)))
(T (W x00 x00 x00 x00 x00 x00 x00 x00)
(L (W x00 x00 x00 x00 x80 x42 xff xff)) E))
(T (W x00 x00 x80 xbf x00 x00 x80 xbf)
(T (W xfa x01 xfe xff x71 x6d x53 x44)
(L (W x7c x02 xff xff x00 x00 x00 x00)) E)
(T (W x00 x00 x00 x00 x00 x00 x00 x00)
(L (W x00 x00 x00 x00 x00 x00 x00 x00)) E)))))
(T (W x45 x26 x22 x84 xe4 x9c xf2 xcb)
(T (W x00 x00 x00 x00 x1c x00 x00 x00)
(T (W x00 x00 x00 x00 x00 x00 x00 x00)
(T (W x00 x00 x00 x00 x01 x00 x00 x00)
(T (W x00 x00 x80 x3f x80 x9a xfd xff)
(L (W xe4 x6b xca xc9 x03 x90 xa3 xbc))
(L (W x74 x00 x00 x00 x68 x00 x00 x00)))
(T (W x28 x00 x00 x00 x14 x00 x00 x00)
(L (W x00 x00 x00 x00 x80 x1a xff xff)) E))
(T (W x54 x00 x00 x00 x48 x00 x00 x00)
(T (W x45 x41 x30 x32 x5f x30 x31 x30)
(L (W x45 x26 x22 x84 xe4 x9c xf2 xcb))
(L (W x00 x00 x00 x00 x00 x00 x00 x00)))
(T (W x45 x26 x22 x84 xe4 x9c xf2 xcb)
(L (W x00 x00 x00 x00 x80 x5a xff xff)) E)))
(T (W x7c xfa xfc xff x00 x00 x00 x00)
(T (W x4b x5f x41 x52 x45 x41 x30 x32)
(T (W x01 x00 x00 x00 x04 x00 x00 x00)
(L (W x14 xae xc9 x42 xf6 x28 x64 x43))
(L (W x00 x00 x00 x00 x80 xba xff xff)))
(T (W x00 x00 x00 x00 x01 x00 x00 x00)
(L (W x42 x52 x45 x41 x4b x5f x41 x52)) E))
(T (W x00 x00 x00 x00 x00 x00 x00 x00)
(T (W x7c xfa xfd xff x00 x00 x00 x00)
(L (W x01 x00 x00 x00 x00 x00 x80 x3f))
(L (W x00 x00 x80 xbf x00 x00 x80 xbf)))
(T (W x00 x00 x00 x00 x01 x00 x00 x00)
(L (W x04 x00 x00 x00 x00 x00 x00 x00)) E))))
(T (W x45 x26 x22 x84 xe4 x9c xf2 xcb)
(T (W x72 xce xff xff x00 x00 x00 x01)
(T (W x7c x2a xfd xff x00 x00 x00 x00)
(T (W x45 x26 x22 x84 xe4 x9c xf2 xcb)
(L (W x45 x26 x22 x84 xe4 x9c xf2 xcb))
(L (W x00 x00 x00 x00 x00 x00 x00 x00)))
(T (W x45 x26 x22 x84 xe4 x9c xf2 xcb)
(L (W x00 x00 x00 x00 x80 x2a xff xff)) E))
(T (W x4b x5f x41 x52 x45 x41 x30 x32)
(T (W x00 x00 x00 x00 x00 x00 x00 x00)
(L (W x54 x00 x00 x00 x48 x00 x00 x00))
(L (W x00 x00 x00 x00 x80 xea xff xff)))
(T (W x45 x26 x22 x84 xe4 x9c xf2 xcb)
(L (W x44 x00 x00 x00 x38 x00 x00 x00)) E)))
(T (W x00 x00 x00 x00 xfe x09 xfd xff)
(T (W x28 x00 x00 x00 x14 x00 x00 x00)
(T (W x01 x00 x00 x00 x00 x00 x80 x3f)
(L (W x00 x00 x80 x3f x00 x00 x80 x3f))
(L (W x00 x00 x80 xbf x00 x00 x80 xbf)))
(T (W xfa x49 xfe xff x00 x00 x80 x3f)
(L (W x5c x00 x00 x00 x50 x00 x00 x00)) E))
(T (W x45 x26 x22 x84 xe4 x9c xf2 xcb)
(T (W x00 x00 xa0 x40 x24 x01 x00 x00)
(L (W xfa x09 xff xff x00 x00 x80 x3f)) E)
(T (W x9a xb9 xf0 x43 xe1 x7a x3f x42)
(L (W x7c x8a xff xff xfe x89 xff xff)) E))))))
(T (W x04 x00 x00 x00 xba xa3 xfc xff)
(T (W x01 x00 x00 x00 x04 x00 x00 x00)
(T (W x7c xb6 xfc xff xfe xb5 xfc xff)
(T (W x45 x26 x22 x84 xe4 x9c xf2 xcb)
(T (W x00 x00 x80 xbf x00 x00 x80 xbf)
(T (W x5c x00 x00 x00 x50 x00 x00 x00)
(L (W x7c x96 xfe xff x00 x00 x00 x00))
(L (W x44 x00 x00 x00 x38 x00 x00 x00)))
(T (W x00 x00 x00 x00 x00 x00 x00 x00)
(L (W x24 x19 xff xff x50 x00 x00 x00)) E))
(T (W x00 x00 x80 xbf x00 x00 x80 xbf)
(T (W x45 x26 x22 x84 xe4 x9c xf2 xcb)
(L (W x45 x26 x22 x84 xe4 x9c xf2 xcb))
(L (W x48 x00 x00 x00 x34 x00 x00 x00)))
(T (W x45 x26 x22 x84 xe4 x9c xf2 xcb)
(L (W x44 x00 x00 x00 x38 x00 x00 x00)) E)))
(T (W x45 x26 x22 x84 xe4 x9c xf2 xcb)
(T (W x00 x00 x00 x00 x00 x00 x00 x00)
(T (W x04 x00 x00 x00 x00 x00 x00 x00)
(L (W x60 x00 x00 x00 x54 x00 x00 x00))
(L (W x1f xee x86 x72 xf8 x01 x44 xd0)))
(T (W x00 x00 x00 x00 x00 x00 x00 x00)
(L (W x9a x99 x25 x42 x9a x99 x0e x44)) E))
(T (W x45 x26 x22 x84 xe4 x9c xf2 xcb)
(T (W x54 x00 x00 x00 x48 x00 x00 x00)
(L (W x00 x00 x00 x00 x00 x00 x00 x00))
(L (W x3c x01 x00 x00 x30 x01 x00 x00)))
(T (W x1c x01 x00 x00 x01 x00 x00 x00)
(L (W x5f x30 x30 x35 x00 x00 x00 x00)) E))))
(T (W x00 x00 x00 x00 x01 x00 x00 x00)
(T (W x00 x00 x00 x00 x00 x00 x00 x00)
(T (W x45 x26 x22 x84 xe4 x9c xf2 xcb)
(T (W x45 x26 x22 x84 xe4 x9c xf2 xcb)
(L (W x34 x00 x00 x00 x20 x00 x00 x00))
(L (W x45 x26 x22 x84 xe4 x9c xf2 xcb)))
(T (W x45 x26 x22 x84 xe4 x9c xf2 xcb)
(L (W x04 x00 x00 x00 xba x2b xff xff)) E))
(T (W x45 x26 x22 x84 xe4 x9c xf2 xcb)
(T (W x2c x00 x00 x00 x20 x00 x00 x00)
(L (W x46 xda x31 x87 x3d x96 x44 x1b))
(L (W x45 x26 x22 x84 xe4 x9c xf2 xcb)))
(T (W x00 x00 x80 xbf x00 x00 x80 xbf)
(L (W x45 x26 x22 x84 xe4 x9c xf2 xcb)) E)))
(T (W x78 x00 x00 x00 x6c x00 x00 x00)
(T (W x00 x00 x00 x00 x00 x00 x00 x00)
(T (W xfa xc5 xfd xff x9a x49 x3b x44)
(L (W x00 x00 x00 x00 x00 x00 x00 x00))
(L (W x00 x00 x00 x00 x00 x00 x00 x00)))
(T (W x5c x00 x00 x00 x50 x00 x00 x00)
(L (W x00 x00 x00 x00 x00 x00 x00 x00)) E))
(T (W x00 x00 x00 x00 x01 x00 x00 x00)
(T (W x1c x00 x00 x00 x46 x53 x59 x53)
(L (W x00 x00 x00 x00 x80 x06 xff xff)) E)
(T (W x00 x00 x00 x00 x01 x00 x00 x00)
(L (W x00 x00 x00 x00 x01 x00 x00 x00)) E)))))
(T (W x00 x00 x00 x00 x80 xae xfc xff)
(T (W x3c x01 x00 x00 x30 x01 x00 x00)
(T (W x60 x00 x00 x00 x54 x00 x00 x00)
(T (W x01 x00 x00 x00 x04 x00 x00 x00)
(T (W x1c x01 x00 x00 x01 x00 x00 x00)
(L (W x44 x00 x00 x00 x30 x00 x00 x00))
(L (W x00 x00 x00 x00 x00 x00 x00 x00)))
(T (W x00 x00 x00 x00 x00 x00 x00 x00)
(L (W x45 x26 x22 x84 xe4 x9c xf2 xcb)) E))
(T (W x28 x00 x00 x00 x1c x00 x00 x00)
(T (W x00 x00 x80 xbf x00 x00 x80 xbf)
(L (W x28 x00 x00 x00 x14 x00 x00 x00))
(L (W x01 x00 x00 x00 x01 x00 x00 x00)))
(T (W x78 x00 x00 x00 x6c x00 x00 x00)
(L (W xfa x5d xff xff x00 x00 x80 x3f)) E)))
(T (W x54 xbf x33 x97 x85 xab x5f x5f)
(T (W xcc x74 x2f xf0 x2c x41 x0a xdb)
(T (W x00 x00 x00 x00 x00 x00 x00 x00)
(L (W x34 x00 x00 x00 x20 x00 x00 x00))
(L (W x00 x00 x00 x00 x00 x00 x00 x00)))
(T (W x00 x00 x00 x00 x80 x3e xfe xff)
(L (W x3f x30 xdc xd6 xd5 x47 x88 x33)) E))
(T (W xfa x7d xfd xff x00 x00 x80 x3f)
(T (W x00 x00 x00 x00 x00 x00 x00 x00)
(L (W x45 x26 x22 x84 xe4 x9c xf2 xcb))
(L (W x44 x00 x04 x00 x08 x00 x0c x00)))
(T (W x24 x81 xfe xff x50 x00 x00 x00)
(L (W x45 x26 x22 x84 xe4 x9c xf2 xcb)) E))))
(T (W x45 x26 x22 x84 xe4 x9c xf2 xcb)
(T (W x00 x00 x80 xbf x9c x00 x00 x00)
(T (W x45 x26 x22 x84 xe4 x9c xf2 xcb)
(T (W x45 x26 x22 x84 xe4 x9c xf2 xcb)
(L (W x44 x00 x00 x00 x38 x00 x00 x00))
(L (W x45 x26 x22 x84 xe4 x9c xf2 xcb)))
(T (W x00 x00 x00 x00 x01 x00 x00 x00)
(L (W x00 x00 x00 x00 x00 x00 x00 x00)) E))
(T (W x01 x00 x00 x00 x00 x00 x80 x3f)
(T (W x00 x00 x80 x3f x00 x00 x80 x3f)
(L (W x2c x00 x00 x00 x20 x00 x00 x00))
(L (W x00 x00 x00 x00 x00 x00 x00 x00)))
(T (W x00 x00 x00 x00 x00 x00 x00 x00)
(L (W x00 x00 x00 x00 x80 x6e xff xff)) E)))
(T (W x00 x00 x00 x00 x00 x00 x00 x00)
(T (W x42 x52 x45 x41 x4b x5f x41 x52)
(T (W x45 x26 x22 x84 xe4 x9c xf2 xcb)
(L (W x1c x01 x00 x00 x01 x00 x00 x00))
(L (W x45 x26 x22 x84 xe4 x9c xf2 xcb)))
(T (W x00 x00 x00 x00 x00 x00 x00 x00)
(L (W x00 x00 x00 x00 x42 x56 xff xff)) E))
(T (W x00 x00 x00 x00 x80 x8e xfd xff)
(T (W x04 x00 x00 x00 xba x13 xfe xff)
(L (W x00 x00 x40 x40 x24 x01 x00 x00)) E)
(T (W x01 x00 x00 x00 x00 x00 x80 x3f)
(L (W x34 x00 x00 x00 x20 x00 x00 x00)) E)))))))
(T (W x00 x00 x80 xbf x00 x00 x80 xbf)
(T (W x00 x00 x00 x00 x01 x00 x00 x00)
(T (W x00 x00 x00 x00 x80 xa4 xfc xff)
(T (W x4f x84 x6f x8b xe8 xcb x63 xb7)
(T (W x44 x00 x00 x00 x38 x00 x00 x00)
(T (W x00 x00 xe0 x40 x24 x01 x00 x00)
(T (W x00 x00 x00 x00 x00 x00 x00 x00)
(L (W x45 x26 x22 x84 xe4 x9c xf2 xcb))
(L (W x45 x26 x22 x84 xe4 x9c xf2 xcb)))
(T (W x00 x00 x00 x00 x00 x00 x00 x00)
(L (W x45 x26 x22 x84 xe4 x9c xf2 xcb)) E))
(T (W x28 x01 x00 x00 x20 x01 x00 x00)
(T (W x7c xd4 xfd xff x00 x00 x00 x00)
(L (W x45 x26 x22 x84 xe4 x9c xf2 xcb))
(L (W x00 x00 x00 x00 x00 x00 x00 x00)))
(T (W x54 x00 x00 x00 x48 x00 x00 x00)
(L (W x45 x26 x22 x84 xe4 x9c xf2 xcb)) E)))
(T (W x54 x00 x00 x00 x48 x00 x00 x00)
(T (W x00 x00 x80 x3f x80 x34 xfd xff)
(T (W x60 x48 xa0 x8c xfb x7e xdc x10)
(L (W x74 x00 x00 x00 x68 x00 x00 x00))
(L (W xe6 xc7 x47 xa2 x08 x75 x62 xfb)))
(T (W x00 x00 x00 x00 x00 x00 x00 x00)
(L (W x00 x00 x80 x3f x00 x00 x80 x3f)) E))
(T (W x00 x00 x00 x00 x01 x00 x00 x00)
(T (W x04 x00 x00 x00 x00 x00 x00 x00)
(L (W xfa xf3 xfe xff x00 x00 x80 x3f))
(L (W xae x47 xd0 x42 x71 x7d x53 x43)))
(T (W x00 x00 x00 x00 x00 x00 x00 x00)
(L (W x00 x00 x00 x00 x00 x00 x00 x00)) E))))
(T (W x45 x26 x22 x84 xe4 x9c xf2 xcb)
(T (W xe1 xfa xf6 x42 xcd xcc xbe x42)
(T (W x54 x00 x00 x00 x48 x00 x00 x00)
(T (W x54 x00 x00 x00 x48 x00 x00 x00)
(L (W x01 x00 x00 x00 x00 x00 x80 x3f))
(L (W x04 x00 x00 x00 x00 x00 x00 x00)))
(T (W x00 x00 x00 x00 x01 x00 x00 x00)
(L (W x34 x00 x00 x00 x20 x00 x00 x00)) E))
(T (W x7c x64 xfd xff x00 x00 x00 x00)
(T (W x45 x26 x22 x84 xe4 x9c xf2 xcb)
(L (W x00 x00 x80 xbf x9c x00 x00 x00))
(L (W x04 x00 x00 x00 x00 x00 x00 x00)))
(T (W x00 x00 x00 x00 x00 x00 x00 x00)
(L (W x96 xda x1b x72 x9d x0a xa7 xbe)) E)))
(T (W x7c x04 xfd xff x00 x00 x00 x00)
(T (W x2c x00 x00 x00 x20 x00 x00 x00)
(T (W x2c x00 x00 x00 x18 x00 x00 x00)
(L (W x44 x00 x00 x00 x38 x00 x00 x00))
(L (W xc3 xf5 x5c x42 x5c x0f xb9 x43)))
(T (W x00 x00 x00 x00 x00 x00 x00 x00)
(L (W x01 x00 x00 x00 x04 x00 x00 x00)) E))
(T (W x6f x20 x5c x23 x15 xca xa5 x1d)
(T (W x00 x00 x00 x00 x00 x00 x00 x00)
(L (W x45 x26 x22 x84 xe4 x9c xf2 xcb)) E)
(T (W x00 x00 x00 x00 x01 x00 x00 x00)
(L (W x00 x00 x00 x00 x00 x00 x00 x00)) E)))))
(T (W x00 x00 x00 x00 x00 x00 x00 x00)
(T (W x4b x5f x41 x52 x45 x41 x30 x32)
(T (W x00 x00 x00 x00 x01 x00 x00 x00)
(T (W x6c xf8 xb1 x4b xbc x28 xf7 xea)
(T (W x00 x00 x00 x00 x00 x00 x00 x00)
(L (W x00 x00 x00 x00 x00 x00 x00 x00))
(L (W x00 x00 x80 x3f x00 x00 x80 x3f)))
(T (W x7b x14 x19 x42 x1f xf5 x1b x44)
(L (W x74 x00 x00 x00 x68 x00 x00 x00)) E))
(T (W x45 x26 x22 x84 xe4 x9c xf2 xcb)
(T (W x00 x00 x40 x40 x24 x01 x00 x00)
(L (W x00 x00 x00 x00 x80 xdc xfe xff))
(L (W x07 x00 x00 x00 x50 x00 x24 x00)))
(T (W x7c x5c xfe xff x00 x00 x00 x00)
(L (W x2c x00 x00 x00 x18 x00 x00 x00)) E)))
(T (W x24 xff xfc xff x50 x00 x00 x00)
(T (W x3c x01 x00 x00 x30 x01 x00 x00)
(T (W x00 x00 x00 x00 x00 x00 x00 x00)
(L (W x2a xc0 xfe xff x40 x01 x00 x00))
(L (W xf5 xa1 xaa x28 xbf xd1 x56 x6a)))
(T (W x45 x26 x22 x84 xe4 x9c xf2 xcb)
(L (W x00 x00 x80 xbf x00 x00 x80 xbf)) E))
(T (W x04 x00 x00 x00 xa0 x7e xfd xff)
(T (W xaf x68 xff x4b x84 x9a x7b x61)
(L (W x00 x00 x00 x00 x01 x00 x00 x00))
(L (W x30 x00 x34 x00 x38 x00 x3c x00)))
(T (W x45 x26 x22 x84 xe4 x9c xf2 xcb)
(L (W x45 x26 x22 x84 xe4 x9c xf2 xcb)) E))))
(T (W x40 x00 x00 x00 x38 x00 x00 x00)
(T (W x1c x01 x00 x00 x04 x00 x00 x00)
(T (W x00 x00 x00 x00 x80 x2c xfd xff)
(T (W x7c xac xfd xff x00 x00 x00 x00)
(L (W x00 x00 x00 x00 x80 xac xfe xff))
(L (W x00 x00 x00 x00 x01 x00 x00 x00)))
(T (W x42 x52 x45 x41 x4b x5f x41 x52)
(L (W x45 x26 x22 x84 xe4 x9c xf2 xcb)) E))
(T (W x3c x01 x00 x00 x30 x01 x00 x00)
(T (W x74 x00 x00 x00 x68 x00 x00 x00)
(L (W x45 x26 x22 x84 xe4 x9c xf2 xcb))
(L (W x44 x00 x00 x00 x38 x00 x00 x00)))
(T (W x01 x00 x00 x00 x04 x00 x00 x00)
(L (W x45 x26 x22 x84 xe4 x9c xf2 xcb)) E)))
(T (W xfa x0b xfd xff x14 x2e xf9 x43)
(T (W xe1 x5a xc0 x43 x00 x00 x00 x00)
(T (W x00 x00 x00 x00 x01 x00 x00 x00)
(L (W x00 x00 x00 x00 x00 x00 x00 x00))
(L (W x04 x00 x00 x00 x00 x00 x00 x00)))
(T (W x3d x0a x1d x42 x5c x8f x18 x44)
(L (W x7c x4c xff xff xfe x4b xff xff)) E))
(T (W x45 x26 x22 x84 xe4 x9c xf2 xcb)
(T (W xa0 x5d xee x13 x15 x52 xd3 x02)
(L (W x00 x00 x00 x00 x01 x00 x00 x00)) E)
(T (W x3c x01 x00 x00 x30 x01 x00 x00)
(L (W x00 x00 x00 x00 x42 x94 xff xff)) E))))))
(T (W x45 x26 x22 x84 xe4 x9c xf2 xcb)
(T (W x2c x00 x00 x00 x20 x00 x00 x00)
(T (W x00 x00 x00 x00 x00 x00 x00 x00)
(T (W x00 x00 x00 x00 x00 x00 x00 x00)
(T (W xd2 xfb xb1 x4b xbc x2a xf7 xea)
(T (W x55 x6c xfc xf1 x99 x9e xc9 x88)
(L (W x24 x9b xfe xff x50 x00 x00 x00))
(L (W x00 x00 x00 x00 x00 x00 x00 x00)))
(T (W x7c x18 xfe xff x00 x00 x00 x00)
(L (W x00 x00 x00 x00 x00 x00 x00 x00)) E))
(T (W x82 xed xad x00 x15 xb3 x9d xe0)
(T (W x00 x00 x00 x00 x00 x00 x00 x00)
(L (W x01 x00 x00 x00 x04 x00 x00 x00))
(L (W x45 x26 x22 x84 xe4 x9c xf2 xcb)))
(T (W x2c x00 x00 x00 x20 x00 x00 x00)
(L (W x00 x00 x00 x00 x00 x00 x00 x00)) E)))
(T (W x45 x26 x22 x84 xe4 x9c xf2 xcb)
(T (W x00 x00 x00 x00 x1c x00 x00 x00)
(T (W x45 x26 x22 x84 xe4 x9c xf2 xcb)
(L (W x45 x26 x22 x84 xe4 x9c xf2 xcb))
(L (W x40 x00 x00 x00 x38 x00 x00 x00)))
(T (W x00 x00 x80 xbf x9c x00 x00 x00)
(L (W x00 x00 x00 x00 x02 x00 x00 x00)) E))
(T (W x24 x7b xfd xff x50 x00 x00 x00)
(T (W x45 x26 x22 x84 xe4 x9c xf2 xcb)
(L (W x5f x4e x45 x57 x5f x4f x55 x54))
(L (W x00 x00 x40 x41 x24 x01 x00 x00)))
(T (W x00 x00 x80 xbf x9c x00 x00 x00)
(L (W x00 x00 x80 xbf x9c x00 x00 x00)) E))))
(T (W x40 x00 x00 x00 x38 x00 x00 x00)
(T (W x5f x4d x41 x53 x53 x5f x47 x41)
(T (W x45 x26 x22 x84 xe4 x9c xf2 xcb)
(T (W x00 x00 x00 x00 x80 xa8 xfd xff)
(L (W x00 x00 x00 x00 x01 x00 x00 x00))
(L (W x01 x00 x00 x00 x04 x00 x00 x00)))
(T (W x00 x00 x00 x00 x80 x28 xfe xff)
(L (W x45 x26 x22 x84 xe4 x9c xf2 xcb)) E))
(T (W x00 x00 x00 x00 x00 x00 x00 x00)
(T (W x45 x26 x22 x84 xe4 x9c xf2 xcb)
(L (W x04 x00 x00 x00 x00 x00 x00 x00))
(L (W x45 x26 x22 x84 xe4 x9c xf2 xcb)))
(T (W x04 x00 x00 x00 x00 x00 x00 x00)
(L (W x45 x26 x22 x84 xe4 x9c xf2 xcb)) E)))
(T (W x2c x00 x00 x00 x18 x00 x00 x00)
(T (W x00 x00 x00 x00 x80 x48 xfd xff)
(T (W x00 x00 x00 x00 x00 x00 x00 x00)
(L (W x74 x00 x00 x00 x68 x00 x00 x00))
(L (W x3c x01 x00 x00 x30 x01 x00 x00)))
(T (W x55 x6c xfc xf1 x99 x9e xc9 x88)
(L (W x00 x00 x00 x00 x00 x00 x00 x00)) E))
(T (W x04 x00 x00 x00 xba x8d xfd xff)
(T (W x45 x41 x30 x32 x5f x30 x31 x34)
(L (W x28 x00 x00 x00 x14 x00 x00 x00)) E)
(T (W x44 x00 x00 x00 x30 x00 x00 x00)
(L (W x5c x00 x00 x00 x50 x00 x00 x00)) E)))))
(T (W x04 x00 x00 x00 xa0 xb2 xfc xff)
(T (W x04 x00 x00 x00 x00 x00 x80 x3f)
(T (W xd6 x81 x9c x94 x9b x27 x57 x25)
(T (W x45 x26 x22 x84 xe4 x9c xf2 xcb)
(T (W x2d xcf x23 x92 x7d xc7 x38 x56)
(L (W x00 x90 x17 x44 x7b x14 xf3 x42))
(L (W x42 x52 x45 x41 x4b x5f x41 x52)))
(T (W x3c x01 x00 x00 x30 x01 x00 x00)
(L (W x00 x00 x00 x00 x00 x00 x00 x00)) E))
(T (W x33 x44 xbb x28 xbf xcd x6a x6a)
(T (W x04 x00 x00 x00 x00 x00 x00 x00)
(L (W x00 x00 x80 x3f x00 x00 x80 x3f))
(L (W x00 x00 x80 xbf x9c x00 x00 x00)))
(T (W x2c x00 x00 x00 x18 x00 x00 x00)
(L (W x00 x00 x00 x00 x00 x00 x00 x00)) E)))
(T (W x00 x00 x00 x00 x00 x00 x00 x00)
(T (W x54 x00 x00 x00 x48 x00 x00 x00)
(T (W x7c xc0 xfd xff x00 x00 x00 x00)
(L (W x04 x00 x00 x00 xba xc5 xfe xff))
(L (W x04 x00 x00 x00 xa0 xc2 xff xff)))
(T (W x01 x00 x00 x00 x04 x00 x00 x00)
(L (W x40 x00 x00 x00 x38 x00 x00 x00)) E))
(T (W x00 x00 x00 x00 x00 x00 x00 x00)
(T (W x44 x00 x00 x00 x30 x00 x00 x00)
(L (W x45 x26 x22 x84 xe4 x9c xf2 xcb))
(L (W x04 x00 x00 x00 x00 x00 x0a x00)))
(T (W x5c x3e x54 x1d xca xa1 x99 xfd)
(L (W x2c x00 x00 x00 x20 x00 x00 x00)) E))))
(T (W x45 x26 x22 x84 xe4 x9c xf2 xcb)
(T (W x20 x6f xd5 xcd x3a x98 xbb x28)
(T (W x00 x00 x00 x00 x00 x00 x00 x00)
(T (W x00 x00 x00 x00 x00 x00 x00 x00)
(L (W x00 x00 x00 x00 x00 x00 x00 x00))
(L (W x00 x00 x00 x00 x00 x00 x00 x00)))
(T (W x55 x6c xfc xf1 x99 x9e xc9 x88)
(L (W x7c x30 xff xff x00 x00 x00 x00)) E))
(T (W x34 x00 x00 x00 x20 x00 x00 x00)
(T (W x00 x00 x00 x00 x00 x00 x00 x00)
(L (W x00 x00 x00 x00 x00 x00 x00 x00))
(L (W x74 x00 x00 x00 x68 x00 x00 x00)))
(T (W x00 x00 x00 x00 x01 x00 x00 x00)
(L (W x04 x00 x00 x00 x68 x70 xff xff)) E)))
(T (W x1b x00 x00 x00 x57 x53 x59 x53)
(T (W x54 x01 x00 x00 x48 x01 x00 x00)
(T (W x00 x00 x00 x00 x80 xd0 xfd xff)
(L (W x45 x26 x22 x84 xe4 x9c xf2 xcb))
(L (W x00 x00 x00 x00 x80 xd0 xff xff)))
(T (W x00 x00 x80 xbf x00 x00 x80 xbf)
(L (W x34 x00 x00 x00 x20 x00 x00 x00)) E))
(T (W x41 x2f xc8 xc9 x03 x8c xa0 xbc)
(T (W x45 x26 x22 x84 xe4 x9c xf2 xcb)
(L (W x49 x4f xc1 x5c x83 x02 xa4 x71)) E)
(T (W x00 x00 x00 x00 x01 x00 x00 x00)
(L (W x04 x00 x00 x00 xba x95 xff xff)) E))))))))))
(T (W x9c x10 x03 x00 xd0 x0e x03 x00)
(T (W x9c xd5 x02 x00 xb8 xd3 x02 x00)
(T (W xc4 x5f x02 x00 xf4 x5d x02 x00)
(T (W x4c x73 x01 x00 x60 x71 x01 x00)
(T (W x2c x00 x00 x00 x20 x00 x00 x00)
(T (W x04 x00 x00 x00 x60 xa3 xfc xff)
(T (W x04 x00 x00 x00 x00 x00 x80 x3f)
(T (W xd6 x81 x9c x94 x9b x27 x57 x25)
(T (W x45 x26 x22 x84 xe4 x9c xf2 xcb)
(T (W x00 x00 x00 x00 x00 x00 x00 x00)
(L (W x00 x00 x00 x00 x00 x00 x00 x00))
(L (W x00 x00 x00 x00 x40 x91 xff xff)))
(T (W x48 x00 x00 x00 x34 x00 x00 x00)
(L (W x00 x00 x00 x00 x00 x00 x00 x00)) E))
(T (W x00 x00 x00 x00 x40 x51 xfd xff)
(T (W x00 x00 x80 x3f x00 x00 x80 x3f)
(L (W x00 x00 x00 x00 x00 x00 x00 x00))
(L (W x45 x26 x22 x84 xe4 x9c xf2 xcb)))
(T (W x2c x00 x00 x00 x20 x00 x00 x00)
(L (W x45 x26 x22 x84 xe4 x9c xf2 xcb)) E)))
(T (W x00 x00 x00 x00 x00 x00 x00 x00)
(T (W x1c x01 x00 x00 x01 x00 x00 x00)
(T (W x45 x26 x22 x84 xe4 x9c xf2 xcb)
(L (W x3c x01 x00 x00 x30 x01 x00 x00))
(L (W x45 x26 x22 x84 xe4 x9c xf2 xcb)))
(T (W x45 x26 x22 x84 xe4 x9c xf2 xcb)
(L (W x00 x00 x80 x40 x24 x01 x00 x00)) E))
(T (W x45 x26 x22 x84 xe4 x9c xf2 xcb)
(T (W x00 x00 x00 x00 x40 xf1 xfd xff)
(L (W x34 x01 x00 x00 x00 x00 xa0 x40))
(L (W xb7 x5c xbe xdd x08 x33 x34 xc0)))
(T (W x34 x00 x00 x00 x20 x00 x00 x00)
(L (W x34 x00 x00 x00 x20 x00 x00 x00)) E))))
(T (W x44 x00 x00 x00 x38 x00 x00 x00)
(T (W x07 x89 x12 xc9 x4e x4d xad x54)
(T (W x00 x00 x00 x00 x00 x00 x00 x00)
(T (W x00 x00 x00 x00 x00 x00 x00 x00)
(L (W x45 x26 x22 x84 xe4 x9c xf2 xcb))
(L (W x45 x26 x22 x84 xe4 x9c xf2 xcb)))
(T (W x00 x00 x00 x00 x40 x21 xfe xff)
(L (W x45 x26 x22 x84 xe4 x9c xf2 xcb)) E))
(T (W x00 x00 x00 x00 x00 x00 x00 x00)
(T (W x00 x00 x00 x00 x00 x00 x00 x00)
(L (W x40 x00 x00 x00 x38 x00 x00 x00))
(L (W x86 x5c x6c x12 x83 xf0 x3a xc6)))
(T (W x23 x75 xbd x31 x15 x42 x3c x37)
(L (W x45 x26 x22 x84 xe4 x9c xf2 xcb)) E)))
(T (W x1b x00 x00 x00 x57 x53 x59 x53)
(T (W x3c x41 xfd xff x00 x00 x00 x00)
(T (W x28 x01 x00 x00 x20 x01 x00 x00)
(L (W x00 x00 x00 x00 x40 xc1 xfe xff))
(L (W x00 x00 x80 xbf x00 x00 x80 xbf)))
(T (W x3c x41 xfe xff xbe x40 xfe xff)
(L (W x00 x00 x00 x00 x01 x00 x00 x00)) E))
(T (W x45 x26 x22 x84 xe4 x9c xf2 xcb)
(T (W x00 x00 x00 x00 x01 x00 x00 x00)
(L (W x2c x00 x00 x00 x18 x00 x00 x00)) E)
(T (W x00 x00 x00 x00 x00 x00 x00 x00)
(L (W x00 x00 x00 x00 x00 x00 x00 x00)) E)))))
(T (W x00 x00 x00 x00 x00 x00 x00 x00)
(T (W x40 x00 x00 x00 x38 x00 x00 x00)
(T (W x5f x4d x41 x53 x53 x5f x47 x41)
(T (W x45 x26 x22 x84 xe4 x9c xf2 xcb)
(T (W x45 x26 x22 x84 xe4 x9c xf2 xcb)
(L (W xba x98 xfe xff x33 xb3 xdb x43))
(L (W x00 x00 xa0 x40 x24 x01 x00 x00)))
(T (W x00 x00 x80 xbf x00 x00 x80 xbf)
(L (W x53 x5f x47 x41 x4e x45 x52 x41)) E))
(T (W x45 x26 x22 x84 xe4 x9c xf2 xcb)
(T (W x45 x26 x22 x84 xe4 x9c xf2 xcb)
(L (W x00 x00 x80 x3f x40 xd9 xfe xff))
(L (W x04 x00 x00 x00 x7a xde xff xff)))
(T (W x00 x00 x00 x00 x00 x00 x00 x00)
(L (W x42 x52 x45 x41 x4b x5f x41 x52)) E)))
(T (W x2c x00 x00 x00 x18 x00 x00 x00)
(T (W x45 x26 x22 x84 xe4 x9c xf2 xcb)
(T (W x5c x00 x00 x00 x50 x00 x00 x00)
(L (W x04 x00 x00 x00 x00 x00 x00 x00))
(L (W x00 x00 x00 x00 x01 x00 x00 x00)))
(T (W x28 x2a xc8 xc9 x03 x89 xa0 xbc)
(L (W x45 x26 x22 x84 xe4 x9c xf2 xcb)) E))
(T (W x9a x59 xde x43 x66 x66 x16 x42)
(T (W x78 x00 x00 x00 x6c x00 x00 x00)
(L (W x45 x26 x22 x84 xe4 x9c xf2 xcb))
(L (W x01 x00 x00 x00 x04 x00 x00 x00)))
(T (W xec x3f x45 xdc x00 xd8 x55 x2f)
(L (W x87 xfb xaf x28 xbf x5d x5d x6a)) E))))
(T (W x00 x00 x00 x00 x01 x00 x00 x00)
(T (W x45 x26 x22 x84 xe4 x9c xf2 xcb)
(T (W x5c x00 x00 x00 x50 x00 x00 x00)
(T (W x00 x00 x80 x3f x00 x00 x80 x3f)
(L (W x00 x00 x00 x00 x00 x00 x00 x00))
(L (W x3c xa9 xff xff xbe xa8 xff xff)))
(T (W x00 x00 x80 x3f x00 x00 x80 x3f)
(L (W x74 x00 x00 x00 x68 x00 x00 x00)) E))
(T (W x45 x26 x22 x84 xe4 x9c xf2 xcb)
(T (W x00 x00 x00 x00 x00 x00 x00 x00)
(L (W x00 x00 x00 x00 x00 x00 x00 x00))
(L (W x55 x39 x81 x6a xc4 xc7 x74 x14)))
(T (W x00 x00 x00 x00 x00 x00 x00 x00)
(L (W x28 x00 x00 x00 x14 x00 x00 x00)) E)))
(T (W xf5 x11 xb5 x4b xbc xae xfa xea)
(T (W x00 x00 x80 xbf x00 x00 x80 xbf)
(T (W x45 x26 x22 x84 xe4 x9c xf2 xcb)
(L (W x88 x14 x58 xdf x03 xe3 x05 x04))
(L (W x00 x00 x00 x00 x40 xc9 xff xff)))
(T (W x00 x00 x00 x00 x01 x00 x00 x00)
(L (W x1c x01 x00 x00 x01 x00 x00 x00)) E))
(T (W x00 x00 x00 x00 x40 x89 xfd xff)
(T (W x00 x00 x00 x00 x40 x09 xfe xff)
(L (W xd1 xe1 x09 xfe x1d x87 x80 xa7)) E)
(T (W x00 x00 x00 x00 x01 x00 x00 x00)
(L (W x45 x26 x22 x84 xe4 x9c xf2 xcb)) E))))))
(T (W x00 x00 x00 x00 x00 x00 x00 x00)
(T (W x4f x84 x6f x8b xe8 xcb x63 xb7)
(T (W x45 x26 x22 x84 xe4 x9c xf2 xcb)
(T (W x3d x0a x52 x42 x00 x20 xd6 x43)
(T (W x01 x00 x00 x00 x04 x00 x00 x00)
(T (W x1c x01 x00 x00 x01 x00 x00 x00)
(L (W x2c x00 x00 x00 x18 x00 x00 x00))
(L (W x28 x00 x00 x00 x14 x00 x00 x00)))
(T (W x1b x00 x00 x00 x57 x53 x59 x53)
(L (W x44 x00 x00 x00 x30 x00 x00 x00)) E))
(T (W x01 x00 x00 x00 x04 x00 x00 x00)
(T (W x00 x00 x80 xbf x9c x00 x00 x00)
(L (W x04 x00 x00 x00 x60 xd7 xfe xff))
(L (W x01 x00 x00 x00 x00 x00 x80 x3f)))
(T (W x3c x55 xfe xff x00 x00 x00 x00)
(L (W x28 x00 x00 x00 x14 x00 x00 x00)) E)))
(T (W x3c xf5 xfc xff x00 x00 x00 x00)
(T (W x00 x00 x00 x00 x01 x00 x00 x00)
(T (W x00 x00 x00 x00 x00 x00 x00 x00)
(L (W x00 x00 x80 xbf x9c x00 x00 x00))
(L (W x00 x00 x00 x00 x00 x00 x00 x00)))
(T (W x40 x00 x00 x00 x38 x00 x00 x00)
(L (W x04 x00 x00 x00 x00 x00 x00 x00)) E))
(T (W x00 x00 x00 x00 x00 x00 x00 x00)
(T (W x00 x00 x00 x00 x00 x00 x00 x00)
(L (W x54 x00 x00 x00 x48 x00 x00 x00))
(L (W x45 x26 x22 x84 xe4 x9c xf2 xcb)))
(T (W x45 x26 x22 x84 xe4 x9c xf2 xcb)
(L (W x45 x26 x22 x84 xe4 x9c xf2 xcb)) E))))
(T (W x00 x00 x00 x00 x00 x00 x00 x00)
(T (W x54 x00 x00 x00 x48 x00 x00 x00)
(T (W x3c x25 xfd xff x00 x00 x00 x00)
(T (W x3c xa5 xfd xff x00 x00 x00 x00)
(L (W x44 x00 x00 x00 x38 x00 x00 x00))
(L (W x00 x00 x00 x00 x00 x00 x00 x00)))
(T (W x00 x00 x00 x00 x00 x00 x00 x00)
(L (W x45 x26 x22 x84 xe4 x9c xf2 xcb)) E))
(T (W x00 x00 x80 xbf x9c x00 x00 x00)
(T (W x45 x26 x22 x84 xe4 x9c xf2 xcb)
(L (W x74 xf0 x39 xdc x00 x64 x48 x2f))
(L (W x00 x00 x00 x00 x00 x00 x00 x00)))
(T (W x45 x26 x22 x84 xe4 x9c xf2 xcb)
(L (W x00 x00 x00 x00 x00 x00 x00 x00)) E)))
(T (W x00 x00 xe0 x40 x24 x01 x00 x00)
(T (W x00 x00 x00 x00 x00 x00 x00 x00)
(T (W x00 x00 x00 x00 x01 x00 x00 x00)
(L (W xae x07 x50 x43 x00 x00 x00 x00))
(L (W x54 x00 x00 x00 x48 x00 x00 x00)))
(T (W x1c x01 x00 x00 x01 x00 x00 x00)
(L (W x3c x45 xff xff xbe x44 xff xff)) E))
(T (W x45 x26 x22 x84 xe4 x9c xf2 xcb)
(T (W x45 x26 x22 x84 xe4 x9c xf2 xcb)
(L (W x00 x00 x00 x00 x00 x00 x00 x00)) E)
(T (W x34 x01 x00 x00 x01 x00 x00 x00)
(L (W x00 x00 x00 x00 x02 x8d xff xff)) E)))))
(T (W x4b x5f x41 x52 x45 x41 x30 x32)
(T (W x45 x26 x22 x84 xe4 x9c xf2 xcb)
(T (W x1c x01 x00 x00 x04 x00 x00 x00)
(T (W x45 x26 x22 x84 xe4 x9c xf2 xcb)
(T (W x45 x26 x22 x84 xe4 x9c xf2 xcb)
(L (W x01 x00 x00 x00 x00 x00 x80 x3f))
(L (W x40 x00 x00 x00 x38 x00 x00 x00)))
(T (W x54 x00 x00 x00 x48 x00 x00 x00)
(L (W x00 x00 x80 xbf x9c x00 x00 x00)) E))
(T (W x45 x26 x22 x84 xe4 x9c xf2 xcb)
(T (W x01 x00 x00 x00 x04 x00 x00 x00)
(L (W x00 x00 x80 xbf x00 x00 x80 xbf))
(L (W x45 x26 x22 x84 xe4 x9c xf2 xcb)))
(T (W x00 x00 xa0 x40 x24 x01 x00 x00)
(L (W x0e x3b x45 xe3 x48 xb9 x28 x26)) E)))
(T (W xba xfc xfc xff x71 xdd x98 x43)
(T (W x00 x00 x00 x00 x40 x3d xfd xff)
(T (W x1c x00 x00 x00 x46 x53 x59 x53)
(L (W x3c xbd xfe xff x00 x00 x00 x00))
(L (W x00 x00 x00 x00 x00 x00 x00 x00)))
(T (W x48 x00 x00 x00 x34 x00 x00 x00)
(L (W x2c x00 x00 x00 x20 x00 x00 x00)) E))
(T (W x3b x27 x5c x23 x15 xce xa5 x1d)
(T (W x00 x00 x00 x00 x00 x00 x00 x00)
(L (W x00 x00 x00 x00 x00 x00 x00 x00))
(L (W x3c xfd xff xff x40 xfd xff xff)))
(T (W x44 x00 x00 x00 x30 x00 x00 x00)
(L (W x60 x00 x00 x00 x54 x00 x00 x00)) E))))
(T (W x00 x00 x00 x00 x01 x00 x00 x00)
(T (W xe4 xef xfc xff x50 x00 x00 x00)
(T (W x00 x00 x80 x3f x00 x00 x80 x3f)
(T (W x00 x00 x80 xbf x9c x00 x00 x00)
(L (W x00 x00 x80 x3f x00 x00 x80 x3f))
(L (W x34 x00 x00 x00 x20 x00 x00 x00)))
(T (W x41 x30 x32 x00 x02 x35 xfe xff)
(L (W x00 x00 x00 x00 x00 x00 x00 x00)) E))
(T (W x00 x00 x00 x00 x40 x6d xfd xff)
(T (W xd5 x7f x3f x50 x42 x1c x07 xa9)
(L (W x45 x26 x22 x84 xe4 x9c xf2 xcb))
(L (W x9a x39 x01 x44 x00 x00 x00 x00)))
(T (W x3c x6d xfe xff xbe x6c xfe xff)
(L (W x00 x00 x00 x00 x00 x00 x00 x00)) E)))
(T (W x04 x00 x00 x00 x7a x12 xfd xff)
(T (W x45 x26 x22 x84 xe4 x9c xf2 xcb)
(T (W x00 x00 x00 x00 x00 x00 x00 x00)
(L (W x45 x26 x22 x84 xe4 x9c xf2 xcb))
(L (W x00 x00 x00 x00 x00 x00 x00 x00)))
(T (W x54 x00 x00 x00 x48 x00 x00 x00)
(L (W x45 x26 x22 x84 xe4 x9c xf2 xcb)) E))
(T (W x48 x00 x00 x00 x34 x00 x00 x00)
(T (W x45 x26 x22 x84 xe4 x9c xf2 xcb)
(L (W x45 x26 x22 x84 xe4 x9c xf2 xcb)) E)
(T (W x00 x00 x00 x00 x40 x8d xfe xff)
(L (W x3c x8d xff xff x00 x00 x00 x00)) E)))))))
(T (W x00 x85 x00 x00 xe4 x82 x00 x00)
(T (W x45 x26 x22 x84 xe4 x9c xf2 xcb)
(T (W x44 x00 x00 x00 x30 x00 x00 x00)
(T (W x34 x00 x00 x00 x20 x00 x00 x00)
(T (W x00 x00 x80 x3f x00 x00 x80 x3f)
(T (W x00 x00 x00 x00 x40 x13 xfd xff)
(T (W x1c x00 x00 x00 x46 x53 x59 x53)
(L (W x78 x00 x00 x00 x6c x00 x00 x00))
(L (W x78 x00 x00 x00 x6c x00 x00 x00)))
(T (W x3c x13 xfe xff xbe x12 xfe xff)
(L (W x00 x00 x00 x00 x00 x00 x00 x00)) E))
(T (W x01 x00 x00 x00 x04 x00 x00 x00)
(T (W x00 x00 x00 x00 x00 x00 x00 x00)
(L (W x00 x00 x00 x00 x40 xd3 xfe xff))
(L (W x00 x00 x00 x00 x00 x00 x00 x00)))
(T (W x45 x26 x22 x84 xe4 x9c xf2 xcb)
(L (W x00 x00 x00 x00 x40 x53 xff xff)) E)))
(T (W x00 x00 x00 x00 x00 x00 x00 x00)
(T (W x45 x26 x22 x84 xe4 x9c xf2 xcb)
(T (W xe4 xb5 xfd xff x50 x00 x00 x00)
(L (W x00 x00 x80 xbf x00 x00 x80 xbf))
(L (W x01 x00 x00 x00 x04 x00 x00 x00)))
(T (W x00 x00 x00 x00 x01 x00 x00 x00)
(L (W x8a xe3 xf4 x82 xb0 x56 xc2 xa8)) E))
(T (W x00 x00 x00 x00 x00 x00 x00 x00)
(T (W xfe x27 x3c xdc x00 x65 x4b x2f)
(L (W x27 xa5 xc8 xf8 x1d xda x6d x9e))
(L (W x04 x00 x00 x00 x00 x00 x00 x00)))
(T (W x04 x00 x00 x00 x7a x78 xfe xff)
(L (W x00 x00 x00 x00 x01 x00 x00 x00)) E))))
(T (W x45 x26 x22 x84 xe4 x9c xf2 xcb)
(T (W x04 x00 x00 x00 x00 x00 x00 x00)
(T (W x00 x00 x00 x00 x00 x00 x00 x00)
(T (W x00 x00 x00 x00 x00 x00 x00 x00)
(L (W x45 x26 x22 x84 xe4 x9c xf2 xcb))
(L (W x2c x00 x00 x00 x20 x00 x00 x00)))
(T (W x44 x00 x00 x00 x38 x00 x00 x00)
(L (W x3c x23 xff xff x00 x00 x00 x00)) E))
(T (W x45 x41 x30 x32 x5f x30 x30 x38)
(T (W x60 x00 x00 x00 x54 x00 x00 x00)
(L (W x00 x00 x00 x00 x40 xe3 xfe xff))
(L (W x00 x00 x00 x00 x00 x00 x00 x00)))
(T (W x54 x00 x00 x00 x48 x00 x00 x00)
(L (W x44 x00 x00 x00 x38 x00 x00 x00)) E)))
(T (W x5f x41 x52 x45 x41 x30 x32 x00)
(T (W x45 x26 x22 x84 xe4 x9c xf2 xcb)
(T (W x00 x00 x80 xbf x00 x00 x80 xbf)
(L (W x28 x00 x00 x00 x14 x00 x00 x00))
(L (W x04 x00 x00 x00 x00 x00 x00 x00)))
(T (W x1c x00 x00 x00 x46 x53 x59 x53)
(L (W x55 x6c xfc xf1 x99 x9e xc9 x88)) E))
(T (W x2c x00 x00 x00 x20 x00 x00 x00)
(T (W x04 x00 x00 x00 x7a x08 xfe xff)
(L (W xba x02 xff xff x00 x00 x80 x3f)) E)
(T (W x00 x00 x00 x00 x02 x8b xfe xff)
(L (W x57 x53 x59 x53 x5f x4d x41 x53)) E)))))
(T (W x00 x00 x00 x00 x1c x00 x00 x00)
(T (W x45 x26 x22 x84 xe4 x9c xf2 xcb)
(T (W x32 xbf xff xff x00 x00 x00 x01)
(T (W x00 x00 x00 x00 x00 x00 x00 x00)
(T (W x00 x00 x00 x00 x01 x00 x00 x00)
(L (W x00 x00 x00 x00 x00 x00 x00 x00))
(L (W x1e x56 x47 xd0 x09 x47 x88 x51)))
(T (W x04 x00 x00 x00 x00 x00 x00 x00)
(L (W x00 x00 x80 x40 x24 x01 x00 x00)) E))
(T (W x3c x5b xfd xff x00 x00 x00 x00)
(T (W x00 x00 x00 x00 x40 xdb xfd xff)
(L (W x00 x00 x00 x00 x00 x00 x00 x00))
(L (W x45 x26 x22 x84 xe4 x9c xf2 xcb)))
(T (W x00 x00 x00 x00 x00 x00 x00 x00)
(L (W x00 x00 x80 xbf x00 x00 x80 xbf)) E)))
(T (W x00 x00 x00 x00 xbe xfa xfc xff)
(T (W x45 x26 x22 x84 xe4 x9c xf2 xcb)
(T (W x3c xbb xfd xff xbe xba xfd xff)
(L (W x45 x26 x22 x84 xe4 x9c xf2 xcb))
(L (W x45 x26 x22 x84 xe4 x9c xf2 xcb)))
(T (W x00 x00 x00 x00 x00 x00 x00 x00)
(L (W x45 x26 x22 x84 xe4 x9c xf2 xcb)) E))
(T (W x3c x01 x00 x00 x30 x01 x00 x00)
(T (W x00 x00 x00 x00 xbe xfa xfd xff)
(L (W x44 x00 x00 x00 x38 x00 x00 x00))
(L (W x01 x00 x00 x00 x04 x00 x00 x00)))
(T (W x00 x00 x00 x00 x00 x00 x00 x00)
(L (W x00 x00 x00 x00 x00 x00 x00 x00)) E))))
(T (W x5c x00 x00 x00 x50 x00 x00 x00)
(T (W x3c xeb xfc xff x00 x00 x00 x00)
(T (W x2c x00 x00 x00 x18 x00 x00 x00)
(T (W x00 x00 x00 x00 x00 x00 x00 x00)
(L (W x74 x00 x00 x00 x68 x00 x00 x00))
(L (W x00 x00 x00 x00 x02 xb3 xff xff)))
(T (W x00 x00 x00 x00 x00 x00 x00 x00)
(L (W x00 x00 x80 x3f x00 x00 x80 x3f)) E))
(T (W x45 x26 x22 x84 xe4 x9c xf2 xcb)
(T (W x00 x00 x80 x40 x24 x01 x00 x00)
(L (W x3c xeb xfe xff x00 x00 x00 x00))
(L (W x00 x00 x80 x3f x00 x00 x80 x3f)))
(T (W x5c x00 x00 x00 x50 x00 x00 x00)
(L (W xae xa7 x3b x44 x00 x00 x00 x00)) E)))
(T (W x00 x00 x00 x00 x01 x00 x00 x00)
(T (W x04 x00 x00 x00 x00 x00 x00 x00)
(T (W x44 x00 x00 x00 x38 x00 x00 x00)
(L (W x00 x00 x00 x00 x01 x00 x00 x00))
(L (W x2c x00 x00 x00 x20 x00 x00 x00)))
(T (W x04 x00 x00 x00 x00 x00 x00 x00)
(L (W x45 x26 x22 x84 xe4 x9c xf2 xcb)) E))
(T (W x04 x00 x00 x00 x28 x8b xfd xff)
(T (W x01 x00 x00 x00 x04 x00 x00 x00)
(L (W x54 x00 x00 x00 x48 x00 x00 x00)) E)
(T (W x45 x26 x22 x84 xe4 x9c xf2 xcb)
(L (W x45 x26 x22 x84 xe4 x9c xf2 xcb)) E))))))
(T (W x00 x00 x00 x00 x40 x9f xfc xff)
(T (W x3c xa7 xfc xff xbe xa6 xfc xff)
(T (W x00 x00 x00 x00 x01 x00 x00 x00)
(T (W x00 x00 x00 x00 x00 x00 x00 x00)
(T (W x2c x00 x00 x00 x20 x00 x00 x00)
(T (W x34 x00 x00 x00 x20 x00 x00 x00)
(L (W x00 x00 x00 x00 xbe x96 xfe xff))
(L (W x00 xa0 x27 x44 x00 x00 x00 x00)))
(T (W x5f x30 x31 x35 x00 x00 x00 x00)
(L (W xcd xac xf8 x43 x85 x6b x82 x42)) E))
(T (W x2c x00 x00 x00 x20 x00 x00 x00)
(T (W x00 x00 x00 x00 x01 x00 x00 x00)
(L (W x48 x00 x00 x00 x34 x00 x00 x00))
(L (W x34 x00 x00 x00 x20 x00 x00 x00)))
(T (W x45 x26 x22 x84 xe4 x9c xf2 xcb)
(L (W x9a xb9 x11 x44 x00 x00 x00 x00)) E)))
(T (W x78 x00 x00 x00 x6c x00 x00 x00)
(T (W x40 x00 x00 x00 x38 x00 x00 x00)
(T (W x00 x00 x00 x00 x00 x00 x00 x00)
(L (W x00 x00 x80 xbf x9c x00 x00 x00))
(L (W x00 x00 x00 x00 x00 x00 x00 x00)))
(T (W x00 x00 x00 x00 x40 x37 xfe xff)
(L (W x54 x00 x00 x00 x48 x00 x00 x00)) E))
(T (W x44 x00 x00 x00 x30 x00 x00 x00)
(T (W x3c xf7 xfd xff x00 x00 x00 x00)
(L (W x45 x26 x22 x84 xe4 x9c xf2 xcb))
(L (W x00 x00 x00 x00 x40 xf7 xff xff)))
(T (W xe4 x79 xfe xff x50 x00 x00 x00)
(L (W x00 x00 x00 x00 x40 x77 xff xff)) E))))
(T (W x00 x00 x00 x00 x00 x00 x00 x00)
(T (W x45 x26 x22 x84 xe4 x9c xf2 xcb)
(T (W x04 x00 x00 x00 x60 x29 xfd xff)
(T (W x74 x00 x00 x00 x68 x00 x00 x00)
(L (W x45 x26 x22 x84 xe4 x9c xf2 xcb))
(L (W x5c x00 x00 x00 x50 x00 x00 x00)))
(T (W x74 x00 x00 x00 x68 x00 x00 x00)
(L (W x00 x00 x00 x00 x40 x27 xff xff)) E))
(T (W x00 x00 x00 x00 x01 x00 x00 x00)
(T (W x00 x00 x00 x00 x00 x00 x00 x00)
(L (W x00 x00 x00 x00 x00 x00 x00 x00))
(L (W x5c x00 x00 x00 x50 x00 x00 x00)))
(T (W x2c x00 x00 x00 x20 x00 x00 x00)
(L (W x04 x00 x00 x00 x60 x69 xff xff)) E)))
(T (W x00 x00 x80 xbf x00 x00 x80 xbf)
(T (W x42 x52 x45 x41 x4b x5f x41 x52)
(T (W x04 x00 x00 x00 x7a xcc xfd xff)
(L (W x00 x00 x40 x40 x24 x01 x00 x00))
(L (W x45 x26 x22 x84 xe4 x9c xf2 xcb)))
(T (W x45 x26 x22 x84 xe4 x9c xf2 xcb)
(L (W x1c x00 x00 x00 x46 x53 x59 x53)) E))
(T (W x00 x00 x00 x00 x00 x00 x00 x00)
(T (W x45 x26 x22 x84 xe4 x9c xf2 xcb)
(L (W x00 x00 x80 xbf x00 x00 x80 xbf)) E)
(T (W x01 x00 x00 x00 x00 x00 x80 x3f)
(L (W x1c x01 x00 x00 x01 x00 x00 x00)) E)))))
(T (W x3c x01 x00 x00 x30 x01 x00 x00)
(T (W x00 x00 x00 x00 x40 xbf xfc xff)
(T (W x00 x00 x80 xbf x9c x00 x00 x00)
(T (W x00 x00 x00 x00 x00 x00 x00 x00)
(T (W xe4 xa1 xfd xff x50 x00 x00 x00)
(L (W x00 x00 x00 x00 x01 x00 x00 x00))
(L (W x45 x26 x22 x84 xe4 x9c xf2 xcb)))
(T (W x45 x26 x22 x84 xe4 x9c xf2 xcb)
(L (W x00 x00 x00 x00 x01 x00 x00 x00)) E))
(T (W x3c x5f xfd xff xbe x5e xfd xff)
(T (W x2c x00 x00 x00 x20 x00 x00 x00)
(L (W xc8 x74 x76 x06 x91 x3a x7b x08))
(L (W xe4 xe1 xff xff x50 x00 x00 x00)))
(T (W x00 x00 x80 xbf x00 x00 x80 xbf)
(L (W x54 x00 x00 x00 x48 x00 x00 x00)) E)))
(T (W x00 x00 x00 x00 x00 x00 x00 x00)
(T (W x45 x26 x22 x84 xe4 x9c xf2 xcb)
(T (W x5f x30 x30 x39 x00 x00 x00 x00)
(L (W x45 x26 x22 x84 xe4 x9c xf2 xcb))
(L (W x3c x01 x00 x00 x30 x01 x00 x00)))
(T (W x55 x6c xfc xf1 x99 x9e xc9 x88)
(L (W x00 x00 x00 x00 x00 x00 x00 x00)) E))
(T (W x54 x00 x00 x00 x48 x00 x00 x00)
(T (W x01 x00 x00 x00 x00 x00 x80 x3f)
(L (W x78 x00 x00 x00 x6c x00 x00 x00))
(L (W x3c x00 x00 x00 x34 x00 x00 x00)))
(T (W x00 x80 x7a x43 x00 x00 x1a x42)
(L (W x45 x26 x22 x84 xe4 x9c xf2 xcb)) E))))
(T (W x60 x00 x00 x00 x54 x00 x00 x00)
(T (W x99 x9b x30 x97 x85 x1f x5c x5f)
(T (W x00 x00 x00 x00 x00 x00 x00 x00)
(T (W x00 x00 x00 x00 x01 x00 x00 x00)
(L (W x33 x33 xda x42 xcd x4c x36 x43))
(L (W x00 x00 x00 x00 x01 x00 x00 x00)))
(T (W x34 x00 x00 x00 x20 x00 x00 x00)
(L (W x54 x49 x4f x4e x5f x41 x52 x45)) E))
(T (W x44 x00 x00 x00 x38 x00 x00 x00)
(T (W x40 x00 x00 x00 x38 x00 x00 x00)
(L (W x00 x00 x00 x00 x00 x00 x00 x00))
(L (W x00 x00 xa0 x40 x24 x01 x00 x00)))
(T (W x00 x00 x00 x00 x02 x77 xfe xff)
(L (W x34 x01 x00 x00 x00 x00 x80 x40)) E)))
(T (W x45 x26 x22 x84 xe4 x9c xf2 xcb)
(T (W x45 x26 x22 x84 xe4 x9c xf2 xcb)
(T (W x74 x00 x00 x00 x68 x00 x00 x00)
(L (W xe4 xd1 xfe xff x50 x00 x00 x00))
(L (W x5c x00 x00 x00 x50 x00 x00 x00)))
(T (W x45 x26 x22 x84 xe4 x9c xf2 xcb)
(L (W x3c x4f xff xff x00 x00 x00 x00)) E))
(T (W x45 x26 x22 x84 xe4 x9c xf2 xcb)
(T (W x00 x00 x00 x00 x40 x0f xfe xff)
(L (W x01 x00 x00 x00 x04 x00 x00 x00)) E)
(T (W x44 x00 x00 x00 x38 x00 x00 x00)
(L (W x45 x26 x22 x84 xe4 x9c xf2 xcb)) E))))))))
(T (W x6c xe9 x01 x00 xa0 xe7 x01 x00)
(T (W x24 xfd x00 x00 x38 xfb x00 x00)
(T (W x32 x7e xff xff x00 x00 x00 x01)
(T (W x04 x00 x00 x00 x00 x00 x00 x00)
(T (W x00 x00 x00 x00 x00 x00 x00 x00)
(T (W x45 x26 x22 x84 xe4 x9c xf2 xcb)
(T (W x33 xb3 xef x42 x5c x4f x38 x43)
(T (W x00 x00 x00 x00 x40 x92 xfd xff)
(L (W x45 x26 x22 x84 xe4 x9c xf2 xcb))
(L (W x45 x26 x22 x84 xe4 x9c xf2 xcb)))
(T (W x45 x26 x22 x84 xe4 x9c xf2 xcb)
(L (W x00 x00 x80 xbf x00 x00 x80 xbf)) E))
(T (W x00 x00 x00 x00 x00 x00 x00 x00)
(T (W x3c xd2 xfd xff x00 x00 x00 x00)
(L (W x00 x00 x80 xbf x9c x00 x00 x00))
(L (W x45 x26 x22 x84 xe4 x9c xf2 xcb)))
(T (W x00 x00 x00 x00 x02 x5a xfe xff)
(L (W x00 x00 x80 xbf x9c x00 x00 x00)) E)))
(T (W x04 x00 x00 x00 x00 x00 x80 x3f)
(T (W x00 x00 x00 x00 x00 x00 x00 x00)
(T (W x7b x54 x5b x44 x00 x00 x00 x00)
(L (W x00 x00 x00 x00 x00 x00 x00 x00))
(L (W x33 xb3 xa3 x43 xcd xcc x1a x42)))
(T (W x78 x00 x00 x00 x6c x00 x00 x00)
(L (W x00 x00 x00 x00 x00 x00 x00 x00)) E))
(T (W x00 x00 xa0 x40 x24 x01 x00 x00)
(T (W x00 x00 x00 x00 x00 x00 x00 x00)
(L (W x00 x00 x00 x00 x00 x00 x00 x00))
(L (W x04 x00 x00 x00 x60 xf4 xff xff)))
(T (W x3c x72 xfe xff x00 x00 x00 x00)
(L (W x3c x72 xff xff x00 x00 x00 x00)) E))))
(T (W x5f x30 x30 x35 x00 x00 x00 x00)
(T (W x04 x00 x00 x00 x28 xe2 xfc xff)
(T (W x34 x01 x00 x00 x00 x00 x70 x42)
(T (W x00 x00 x80 x3f x02 x00 x00 x00)
(L (W x00 x00 x80 x3f x40 xa2 xfe xff))
(L (W x00 x00 x00 x00 x00 x00 x00 x00)))
(T (W x1c x00 x00 x00 x46 x53 x59 x53)
(L (W x00 x00 x80 x3f x00 x00 x80 x3f)) E))
(T (W x44 x00 x00 x00 x38 x00 x00 x00)
(T (W x00 x00 x00 x00 x01 x00 x00 x00)
(L (W xba xe1 xfe xff x00 x00 x80 x3f))
(L (W x34 x01 x00 x00 x00 x00 x40 x40)))
(T (W x00 x00 x00 x00 x01 x00 x00 x00)
(L (W x00 x00 x00 x00 x00 x00 x00 x00)) E)))
(T (W x44 x00 x00 x00 x38 x00 x00 x00)
(T (W x04 x00 x00 x00 x7a x47 xfd xff)
(T (W x00 x00 x00 x00 x00 x00 x00 x00)
(L (W x00 x00 x00 x00 x01 x00 x00 x00))
(L (W x00 x00 x00 x00 x00 x00 x00 x00)))
(T (W x00 x00 x00 x00 x40 x42 xfe xff)
(L (W x54 x00 x00 x00 x48 x00 x00 x00)) E))
(T (W x00 x00 x00 x00 x00 x00 x00 x00)
(T (W x60 x00 x00 x00 x54 x00 x00 x00)
(L (W x40 x00 x00 x00 x38 x00 x00 x00)) E)
(T (W x2c x00 x00 x00 x20 x00 x00 x00)
(L (W x00 x00 x00 x00 x40 x82 xff xff)) E)))))
(T (W x3c xaa xfc xff x00 x00 x00 x00)
(T (W xba xb9 xfc xff x00 x00 x80 x3f)
(T (W x2c x00 x00 x00 x20 x00 x00 x00)
(T (W x1c x01 x00 x00 x04 x00 x00 x00)
(T (W x78 x00 x00 x00 x6c x00 x00 x00)
(L (W x45 x26 x22 x84 xe4 x9c xf2 xcb))
(L (W x00 x00 x00 x00 x00 x00 x00 x00)))
(T (W x00 x00 x00 x00 x00 x00 x00 x00)
(L (W xa9 x52 x48 xdc x00 x5a x59 x2f)) E))
(T (W x34 x00 x00 x00 x20 x00 x00 x00)
(T (W xa4 x70 x17 x42 x00 x70 x29 x44)
(L (W x3c xda xfe xff x00 x00 x00 x00))
(L (W x45 x26 x22 x84 xe4 x9c xf2 xcb)))
(T (W x3c x5a xfe xff x00 x00 x00 x00)
(L (W x66 xd4 xac x28 xbf xcf x59 x6a)) E)))
(T (W x40 x00 x00 x00 x38 x00 x00 x00)
(T (W xb8 x1e x49 x43 x66 x66 x46 x42)
(T (W x45 x26 x22 x84 xe4 x9c xf2 xcb)
(L (W x48 x00 x00 x00 x34 x00 x00 x00))
(L (W x54 x00 x00 x00 x48 x00 x00 x00)))
(T (W x00 x00 x80 xbf x00 x00 x80 xbf)
(L (W xba x39 xff xff x33 x73 x06 x44)) E))
(T (W x01 x00 x00 x00 x04 x00 x00 x00)
(T (W x40 x00 x00 x00 x38 x00 x00 x00)
(L (W x00 x00 x00 x00 x00 x00 x00 x00))
(L (W x5f x4e x45 x57 x5f x4f x55 x54)))
(T (W x00 x00 x80 xbf x00 x00 x80 xbf)
(L (W x00 x00 x80 x3f x02 x00 x00 x00)) E))))
(T (W x00 x00 x00 x00 x01 x00 x00 x00)
(T (W x00 x00 x00 x00 x00 x00 x00 x00)
(T (W x40 x00 x00 x00 x38 x00 x00 x00)
(T (W x3c xaa xfd xff x00 x00 x00 x00)
(L (W x45 x26 x22 x84 xe4 x9c xf2 xcb))
(L (W x00 x00 x00 x00 x40 xaa xff xff)))
(T (W x3c x2a xfe xff x00 x00 x00 x00)
(L (W x45 x26 x22 x84 xe4 x9c xf2 xcb)) E))
(T (W xcd x6c x18 x44 x9a x99 x19 x42)
(T (W xe4 xec xfd xff x50 x00 x00 x00)
(L (W x34 x00 x00 x00 x20 x00 x00 x00))
(L (W x45 x26 x22 x84 xe4 x9c xf2 xcb)))
(T (W x00 x00 x00 x00 x01 x00 x00 x00)
(L (W x45 x26 x22 x84 xe4 x9c xf2 xcb)) E)))
(T (W x00 x00 x00 x00 x01 x00 x00 x00)
(T (W x00 x00 x00 x00 x00 x00 x00 x00)
(T (W x00 x00 x00 x00 x00 x00 x00 x00)
(L (W x04 x00 x00 x00 x60 xcc xfe xff))
(L (W x57 x53 x59 x53 x5f x4d x41 x53)))
(T (W x00 x00 x00 x00 x01 x00 x00 x00)
(L (W x00 x00 x00 x00 x00 x00 x00 x00)) E))
(T (W x0a x96 xfd x09 x2d x97 x5a x33)
(T (W x00 x00 x00 x00 x00 x00 x00 x00)
(L (W x00 x00 x00 x00 x01 x00 x00 x00)) E)
(T (W x5c x00 x00 x00 x50 x00 x00 x00)
(L (W x74 x00 x00 x00 x68 x00 x00 x00)) E))))))
(T (W x00 x00 x80 xbf x9c x00 x00 x00)
(T (W x45 x26 x22 x84 xe4 x9c xf2 xcb)
(T (W x74 x00 x00 x00 x68 x00 x00 x00)
(T (W x00 x00 x00 x00 x40 xd6 xfc xff)
(T (W x5f x4d x41 x53 x53 x5f x47 x41)
(T (W x00 x00 x00 x00 x00 x00 x00 x00)
(L (W x40 x00 x00 x00 x38 x00 x00 x00))
(L (W x45 x26 x22 x84 xe4 x9c xf2 xcb)))
(T (W x44 x00 x00 x00 x38 x00 x00 x00)
(L (W x45 x26 x22 x84 xe4 x9c xf2 xcb)) E))
(T (W x5f x4f x55 x54 x42 x52 x45 x41)
(T (W x00 x00 x00 x00 x40 xd6 xfd xff)
(L (W x04 x00 x00 x00 x00 x00 x00 x00))
(L (W x00 x00 x00 x00 x00 x00 x00 x00)))
(T (W x04 x00 x00 x00 x7a x5b xfe xff)
(L (W x45 x26 x22 x84 xe4 x9c xf2 xcb)) E)))
(T (W x45 x26 x22 x84 xe4 x9c xf2 xcb)
(T (W x28 x00 x00 x00 x14 x00 x00 x00)
(T (W x01 x00 x00 x00 x00 x00 x80 x3f)
(L (W x5f x4e x45 x57 x5f x4f x55 x54))
(L (W x34 x01 x00 x00 x00 x00 xa0 x40)))
(T (W xba x35 xfe xff x00 x00 x80 x3f)
(L (W x48 x00 x00 x00 x34 x00 x00 x00)) E))
(T (W x04 x00 x00 x00 x00 x00 x00 x00)
(T (W x34 x00 x00 x00 x20 x00 x00 x00)
(L (W x55 x6c xfc xf1 x99 x9e xc9 x88))
(L (W x3c xf6 xff xff xbe xf5 xff xff)))
(T (W x14 x9e x61 x44 x00 x00 x00 x00)
(L (W xe1 x9a x37 x44 x00 x00 x00 x00)) E))))
(T (W x00 x00 x80 xbf x00 x00 x80 xbf)
(T (W x4f x84 x6f x8b xe8 xcb x63 xb7)
(T (W x03 xaa xd6 xca xc2 x9f x6f x43)
(T (W x45 x26 x22 x84 xe4 x9c xf2 xcb)
(L (W x45 x41 x30 x32 x5f x30 x32 x35))
(L (W x00 x00 x00 x00 x01 x00 x00 x00)))
(T (W x45 x26 x22 x84 xe4 x9c xf2 xcb)
(L (W x00 x00 x80 xbf x9c x00 x00 x00)) E))
(T (W x00 x00 x00 x00 x40 x66 xfd xff)
(T (W x45 x26 x22 x84 xe4 x9c xf2 xcb)
(L (W x3c x01 x00 x00 x30 x01 x00 x00))
(L (W x00 x00 x00 x00 x01 x00 x00 x00)))
(T (W x00 x00 x00 x00 x00 x00 x00 x00)
(L (W x3c x49 xb3 x4d x0f x94 xa4 xdd)) E)))
(T (W x00 x00 x00 x00 x00 x00 x00 x00)
(T (W xe4 x48 xfd xff x50 x00 x00 x00)
(T (W x60 x00 x00 x00 x54 x00 x00 x00)
(L (W xe4 xc8 xfe xff x50 x00 x00 x00))
(L (W x55 x6c xfc xf1 x99 x9e xc9 x88)))
(T (W x00 x00 x00 x00 x00 x00 x00 x00)
(L (W x00 x00 x00 x00 x40 x46 xff xff)) E))
(T (W x1c x01 x00 x00 x01 x00 x00 x00)
(T (W x00 x00 x80 x3f x00 x00 x80 x3f)
(L (W x90 x07 xb9 x28 xbf xc9 x67 x6a)) E)
(T (W x00 x00 x00 x00 x00 x00 x00 x00)
(L (W x45 x26 x22 x84 xe4 x9c xf2 xcb)) E)))))
(T (W x3f x7c x88 xaf x9a x1e x19 x7c)
(T (W x00 x00 x00 x00 x00 x00 x00 x00)
(T (W x00 x00 x00 x00 x00 x00 x00 x00)
(T (W x01 x00 x00 x00 x01 x00 x00 x00)
(T (W xc3 x45 x40 x44 x00 x00 x00 x00)
(L (W x00 x00 x00 x00 x00 x00 x00 x00))
(L (W x00 x00 x00 x00 xbe x9d xff xff)))
(T (W x45 x26 x22 x84 xe4 x9c xf2 xcb)
(L (W x00 x00 x00 x00 x40 x1e xff xff)) E))
(T (W x45 x26 x22 x84 xe4 x9c xf2 xcb)
(T (W x5f x4e x45 x57 x5f x4f x55 x54)
(L (W x00 x00 x00 x00 x00 x00 x00 x00))
(L (W x00 x00 x00 x00 x00 x00 x00 x00)))
(T (W x00 x00 x00 x00 x00 x00 x00 x00)
(L (W x00 x00 x00 x00 x01 x00 x00 x00)) E)))
(T (W x45 x26 x22 x84 xe4 x9c xf2 xcb)
(T (W x00 x00 x00 x00 x02 x46 xfd xff)
(T (W x44 x00 x00 x00 x38 x00 x00 x00)
(L (W x00 x00 x00 x00 x00 x00 x00 x00))
(L (W x2c x00 x00 x00 x20 x00 x00 x00)))
(T (W x54 x00 x00 x00 x48 x00 x00 x00)
(L (W x3c x01 x00 x00 x30 x01 x00 x00)) E))
(T (W x00 x00 x00 x00 x01 x00 x00 x00)
(T (W x2c x00 x00 x00 x20 x00 x00 x00)
(L (W x45 x26 x22 x84 xe4 x9c xf2 xcb))
(L (W x3c xfe xff xff xbe xfd xff xff)))
(T (W x45 x26 x22 x84 xe4 x9c xf2 xcb)
(L (W x04 x00 x00 x00 x7a x83 xff xff)) E))))
(T (W x00 x00 x00 x00 x01 x00 x00 x00)
(T (W x4e x45 x52 x41 x54 x49 x4f x4e)
(T (W x00 x00 x00 x00 x40 x2e xfd xff)
(T (W x00 x00 x00 x00 x40 xae xfd xff)
(L (W x45 x26 x22 x84 xe4 x9c xf2 xcb))
(L (W x3c xae xff xff x00 x00 x00 x00)))
(T (W x45 x26 x22 x84 xe4 x9c xf2 xcb)
(L (W xe4 x30 xff xff x50 x00 x00 x00)) E))
(T (W x1c x00 x00 x00 x46 x53 x59 x53)
(T (W x04 x00 x00 x00 x60 xf0 xfd xff)
(L (W x45 x26 x22 x84 xe4 x9c xf2 xcb))
(L (W xe4 xf0 xff xff x50 x00 x00 x00)))
(T (W x00 x00 x00 x00 x40 x6e xfe xff)
(L (W xed x2a xd5 x4f x49 x4d x07 x36)) E)))
(T (W xd6 x81 x9c x94 x9b x27 x57 x25)
(T (W xba x4d xfd xff x9a x99 x67 x43)
(T (W x45 x26 x22 x84 xe4 x9c xf2 xcb)
(L (W x33 x53 x89 x43 x00 x00 x00 x00))
(L (W x00 x00 x00 x00 x01 x00 x00 x00)))
(T (W x45 x26 x22 x84 xe4 x9c xf2 xcb)
(L (W x00 x00 x80 x3f x00 x00 x80 x3f)) E))
(T (W x54 x00 x00 x00 x48 x00 x00 x00)
(T (W x00 x00 x80 xbf x9c x00 x00 x00)
(L (W x9a xd9 x1b x44 xcd xcc x6a x42)) E)
(T (W x1c x00 x00 x00 x46 x53 x59 x53)
(L (W x00 x00 x00 x00 x00 x00 x00 x00)) E)))))))
(T (W xa0 x09 x00 x00 xb4 x07 x00 x00)
(T (W x1c x01 x00 x00 x04 x00 x00 x00)
(T (W x54 x00 x00 x00 x48 x00 x00 x00)
(T (W x3c xb4 xfc xff x00 x00 x00 x00)
(T (W x45 x26 x22 x84 xe4 x9c xf2 xcb)
(T (W x00 x00 x00 x00 x00 x00 x00 x00)
(T (W x44 x00 x00 x00 x38 x00 x00 x00)
(L (W x00 x00 x00 x00 x01 x00 x00 x00))
(L (W x00 x00 x00 x00 x01 x00 x00 x00)))
(T (W x00 x00 x00 x00 x40 x14 xfe xff)
(L (W x04 x00 x00 x00 x00 x00 x00 x00)) E))
(T (W x00 x00 x00 x00 x00 x00 x00 x00)
(T (W x45 x26 x22 x84 xe4 x9c xf2 xcb)
(L (W x57 x23 xec xde x68 x2d x15 x6a))
(L (W x2c x00 x00 x00 x20 x00 x00 x00)))
(T (W x34 x00 x00 x00 x20 x00 x00 x00)
(L (W x00 x00 x00 x00 x01 x00 x00 x00)) E)))
(T (W x34 x00 x00 x00 x20 x00 x00 x00)
(T (W x78 x00 x00 x00 x6c x00 x00 x00)
(T (W x34 x01 x00 x00 x00 x00 x80 x40)
(L (W x1c x00 x00 x00 x46 x53 x59 x53))
(L (W x3c x01 x00 x00 x30 x01 x00 x00)))
(T (W x2c x00 x00 x00 x18 x00 x00 x00)
(L (W x04 x00 x00 x00 x28 x34 xff xff)) E))
(T (W x00 x00 x80 xbf x00 x00 x80 xbf)
(T (W x00 x00 x80 x3f x02 x00 x00 x00)
(L (W x00 x00 x00 x00 x01 x00 x00 x00))
(L (W x48 x00 x00 x00 x34 x00 x00 x00)))
(T (W x45 x26 x22 x84 xe4 x9c xf2 xcb)
(L (W x28 x00 x00 x00 x14 x00 x00 x00)) E))))
(T (W x00 x00 xe0 x40 x24 x01 x00 x00)
(T (W x48 x00 x00 x00 x34 x00 x00 x00)
(T (W x34 x00 x00 x00 x20 x00 x00 x00)
(T (W x34 x00 x00 x00 x20 x00 x00 x00)
(L (W x00 x00 x00 x00 x00 x00 x00 x00))
(L (W x01 x00 x00 x00 x00 x00 x80 x3f)))
(T (W x1c x01 x00 x00 x01 x00 x00 x00)
(L (W x00 x00 x00 x00 x00 x00 x00 x00)) E))
(T (W x45 x26 x22 x84 xe4 x9c xf2 xcb)
(T (W x04 x00 x00 x00 x7a xe9 xfd xff)
(L (W x00 x00 x00 x00 x00 x00 x00 x00))
(L (W x01 x00 x00 x00 x00 x00 x80 x3f)))
(T (W x45 x26 x22 x84 xe4 x9c xf2 xcb)
(L (W x28 x01 x00 x00 x20 x01 x00 x00)) E)))
(T (W x45 x26 x22 x84 xe4 x9c xf2 xcb)
(T (W x45 x26 x22 x84 xe4 x9c xf2 xcb)
(T (W x00 x00 x00 x00 x00 x00 x00 x00)
(L (W x45 x26 x22 x84 xe4 x9c xf2 xcb))
(L (W x48 x00 x00 x00 x34 x00 x00 x00)))
(T (W x44 x00 x00 x00 x38 x00 x00 x00)
(L (W x45 x26 x22 x84 xe4 x9c xf2 xcb)) E))
(T (W x00 x00 x00 x00 x02 x8c xfd xff)
(T (W x55 x39 x81 x6a xc4 xc7 x74 x14)
(L (W x00 x00 x00 x00 x40 x04 xff xff)) E)
(T (W x45 x26 x22 x84 xe4 x9c xf2 xcb)
(L (W x2c x00 x00 x00 x20 x00 x00 x00)) E)))))
(T (W xe4 xae xfc xff x50 x00 x00 x00)
(T (W xa4 x00 x11 x44 x7b x14 x19 x42)
(T (W x45 x26 x22 x84 xe4 x9c xf2 xcb)
(T (W x32 x00 x00 x00 x00 x00 x00 x01)
(T (W x28 x00 x00 x00 x14 x00 x00 x00)
(L (W x2c x00 x00 x00 x20 x00 x00 x00))
(L (W x04 x00 x00 x00 x60 x9e xff xff)))
(T (W x48 x00 x00 x00 x34 x00 x00 x00)
(L (W x00 x00 x00 x00 x00 x00 x00 x00)) E))
(T (W x04 x00 x00 x00 x7a x61 xfd xff)
(T (W x00 x00 x00 x00 x00 x00 x00 x00)
(L (W xfc x66 xff x4b x84 x99 x7b x61))
(L (W x00 x00 x00 x00 x00 x00 x00 x00)))
(T (W x45 x26 x22 x84 xe4 x9c xf2 xcb)
(L (W x00 x00 x00 x00 x00 x00 x00 x00)) E)))
(T (W x45 x26 x22 x84 xe4 x9c xf2 xcb)
(T (W x00 x00 x00 x00 x00 x00 x00 x00)
(T (W x00 x00 x00 x00 x40 xbc xfd xff)
(L (W x00 x00 x80 x3f x40 xbc xfe xff))
(L (W x45 x26 x22 x84 xe4 x9c xf2 xcb)))
(T (W x04 x00 x00 x00 x00 x00 x00 x00)
(L (W x00 x00 x00 x00 x00 x00 x00 x00)) E))
(T (W x00 x00 x00 x00 x00 x00 x00 x00)
(T (W x45 x26 x22 x84 xe4 x9c xf2 xcb)
(L (W x1c x01 x00 x00 x01 x00 x00 x00))
(L (W x5f x4f x55 x54 x42 x52 x45 x41)))
(T (W x04 x00 x00 x00 x00 x00 x00 x00)
(L (W x00 x00 x00 x00 x01 x00 x00 x00)) E))))
(T (W x8e xa5 xa6 x4b xbc xb2 xe9 xea)
(T (W x02 x00 x00 x00 x32 x37 x00 x00)
(T (W x45 x26 x22 x84 xe4 x9c xf2 xcb)
(T (W x45 x26 x22 x84 xe4 x9c xf2 xcb)
(L (W x45 x26 x22 x84 xe4 x9c xf2 xcb))
(L (W x45 x26 x22 x84 xe4 x9c xf2 xcb)))
(T (W x55 x39 x81 x6a xc4 xc7 x74 x14)
(L (W x3c x2c xff xff x00 x00 x00 x00)) E))
(T (W x00 x00 x00 x00 x00 x00 x00 x00)
(T (W x00 x00 x00 x00 x00 x00 x00 x00)
(L (W x04 x00 x00 x00 x7a xf1 xfe xff))
(L (W x45 x26 x22 x84 xe4 x9c xf2 xcb)))
(T (W x45 x26 x22 x84 xe4 x9c xf2 xcb)
(L (W x00 x00 x00 x00 x40 x6c xff xff)) E)))
(T (W x60 x00 x00 x00 x54 x00 x00 x00)
(T (W x44 x00 x00 x00 x30 x00 x00 x00)
(T (W x1c x01 x00 x00 x01 x00 x00 x00)
(L (W x28 x00 x00 x00 x14 x00 x00 x00))
(L (W x01 x00 x00 x00 x00 x00 x80 x3f)))
(T (W x48 x00 x00 x00 x34 x00 x00 x00)
(L (W x74 x00 x00 x00 x68 x00 x00 x00)) E))
(T (W x04 x00 x00 x00 x00 x00 x00 x00)
(T (W xda x2f xfe xff x00 x00 x00 x01)
(L (W x55 x6c xfc xf1 x99 x9e xc9 x88)) E)
(T (W x3c x8c xfe xff xbe x8b xfe xff)
(L (W x00 x00 x80 x3f x00 x00 x80 x3f)) E))))))
(T (W xc6 xa8 x25 x1a xa7 x16 x3d x2d)
(T (W x45 x26 x22 x84 xe4 x9c xf2 xcb)
(T (W x28 x00 x00 x00 x14 x00 x00 x00)
(T (W x01 x00 x00 x00 x04 x00 x00 x00)
(T (W x32 xfc xff xff x00 x00 x00 x01)
(T (W x3c x98 xfd xff x00 x00 x00 x00)
(L (W x45 x26 x22 x84 xe4 x9c xf2 xcb))
(L (W xe4 x9a xff xff x50 x00 x00 x00)))
(T (W x45 x26 x22 x84 xe4 x9c xf2 xcb)
(L (W x01 x00 x00 x00 x04 x00 x00 x00)) E))
(T (W x00 x00 x00 x00 x02 x60 xfd xff)
(T (W x28 x00 x00 x00 x14 x00 x00 x00)
(L (W x45 x26 x22 x84 xe4 x9c xf2 xcb))
(L (W x3c xd8 xff xff x00 x00 x00 x00)))
(T (W x45 x26 x22 x84 xe4 x9c xf2 xcb)
(L (W xe4 x5a xff xff x50 x00 x00 x00)) E)))
(T (W x00 x00 x00 x00 x01 x00 x00 x00)
(T (W xba x37 xfd xff x00 x00 x80 x3f)
(T (W x00 x00 x00 x00 x01 x00 x00 x00)
(L (W x00 x00 x00 x00 x40 xb8 xfe xff))
(L (W xec x5d x50 x11 x1e x1b xbd xc9)))
(T (W x00 x00 x00 x00 x00 x00 x00 x00)
(L (W x55 x6c xfc xf1 x99 x9e xc9 x88)) E))
(T (W x45 x26 x22 x84 xe4 x9c xf2 xcb)
(T (W xaf xdf x1b x72 x9d x0d xa7 xbe)
(L (W x00 x00 x80 x3f x40 xf8 xfe xff))
(L (W x00 x00 x32 x00 x58 x00 x3c x00)))
(T (W x42 x52 x45 x41 x4b x5f x41 x52)
(L (W x00 x00 x00 x00 x00 x00 x00 x00)) E))))
(T (W xc5 xc6 x83 x67 x2b x7b xed x8e)
(T (W x00 x00 x80 x3f x40 xe8 xfc xff)
(T (W x04 x00 x00 x00 x7a x2d xfd xff)
(T (W x45 x26 x22 x84 xe4 x9c xf2 xcb)
(L (W x1c x01 x00 x00 x01 x00 x00 x00))
(L (W x45 x26 x22 x84 xe4 x9c xf2 xcb)))
(T (W x45 x26 x22 x84 xe4 x9c xf2 xcb)
(L (W x45 x26 x22 x84 xe4 x9c xf2 xcb)) E))
(T (W x2c x00 x00 x00 x18 x00 x00 x00)
(T (W x3c xe8 xfd xff x00 x00 x00 x00)
(L (W x01 x00 x00 x00 x00 x00 x80 x3f))
(L (W x04 x00 x00 x00 x7a xed xff xff)))
(T (W x01 x00 x00 x00 x00 x00 x80 x3f)
(L (W x00 x00 x00 x00 x01 x00 x00 x00)) E)))
(T (W x00 x00 x00 x00 x00 x00 x00 x00)
(T (W xeb x90 xa7 x28 xbf x50 x53 x6a)
(T (W x45 x26 x22 x84 xe4 x9c xf2 xcb)
(L (W x00 x00 x00 x00 x00 x00 x00 x00))
(L (W x3c xc8 xff xff xbe xc7 xff xff)))
(T (W x3c x48 xfe xff x00 x00 x00 x00)
(L (W x44 x00 x00 x00 x38 x00 x00 x00)) E))
(T (W x00 x00 x80 xbf x9c x00 x00 x00)
(T (W xb8 x1e x0e x42 xcd x8c x48 x44)
(L (W x00 x00 x00 x00 x00 x00 x00 x00)) E)
(T (W x00 x00 x00 x00 x00 x00 x00 x00)
(L (W x00 x00 x00 x00 x00 x00 x00 x00)) E)))))
(T (W x00 x00 x00 x00 x00 x00 x00 x00)
(T (W x46 x53 x59 x53 x5f x4e x45 x57)
(T (W x00 x00 x00 x00 x40 xe0 xfc xff)
(T (W x30 x01 x00 x00 x28 x01 x00 x00)
(T (W x34 x01 x00 x00 x00 x00 x80 x40)
(L (W x5c x00 x00 x00 x50 x00 x00 x00))
(L (W xba x9f xff xff x8f x82 x92 x43)))
(T (W x00 x00 x00 x00 x00 x00 x00 x00)
(L (W x28 x00 x00 x00 x14 x00 x00 x00)) E))
(T (W x45 x26 x22 x84 xe4 x9c xf2 xcb)
(T (W x01 x00 x00 x00 x00 x00 x80 x3f)
(L (W x04 x00 x00 x00 x60 xe2 xfe xff))
(L (W x42 x52 x45 x41 x4b x5f x41 x52)))
(T (W x00 x00 x00 x00 x00 x00 x00 x00)
(L (W x45 x26 x22 x84 xe4 x9c xf2 xcb)) E)))
(T (W x00 x00 x00 x00 x40 x00 xfd xff)
(T (W x34 x00 x00 x00 x20 x00 x00 x00)
(T (W x45 x26 x22 x84 xe4 x9c xf2 xcb)
(L (W x00 x00 x80 xbf x9c x00 x00 x00))
(L (W x00 x00 x00 x00 x00 x00 x00 x00)))
(T (W x45 x26 x22 x84 xe4 x9c xf2 xcb)
(L (W x1d x2f x42 xe3 x48 x3b x25 x26)) E))
(T (W x45 x26 x22 x84 xe4 x9c xf2 xcb)
(T (W x00 x00 x00 x00 x00 x00 x00 x00)
(L (W x00 x00 x00 x00 x01 x00 x00 x00))
(L (W x70 x00 x00 x00 x64 x00 x00 x00)))
(T (W x45 x26 x22 x84 xe4 x9c xf2 xcb)
(L (W x45 x26 x22 x84 xe4 x9c xf2 xcb)) E))))
(T (W x04 x00 x00 x00 x7a xd5 xfc xff)
(T (W x3c x01 x00 x00 x30 x01 x00 x00)
(T (W x2c x00 x00 x00 x20 x00 x00 x00)
(T (W x28 x00 x00 x00 x14 x00 x00 x00)
(L (W x01 x00 x00 x00 x04 x00 x00 x00))
(L (W x2c x00 x00 x00 x18 x00 x00 x00)))
(T (W x3c x30 xfe xff x00 x00 x00 x00)
(L (W x45 x26 x22 x84 xe4 x9c xf2 xcb)) E))
(T (W x45 x41 x30 x32 x5f x30 x30 x37)
(T (W xba xef xfd xff x00 x00 x80 x3f)
(L (W xe4 xf2 xfe xff x50 x00 x00 x00))
(L (W x00 x00 x00 x00 x00 x00 x00 x00)))
(T (W x45 x26 x22 x84 xe4 x9c xf2 xcb)
(L (W x00 x00 x00 x00 x00 x00 x00 x00)) E)))
(T (W x00 x00 x80 x3f x00 x00 x80 x3f)
(T (W x00 x00 x00 x00 x00 x00 x00 x00)
(T (W x45 x26 x22 x84 xe4 x9c xf2 xcb)
(L (W x00 x00 xa0 x40 x24 x01 x00 x00))
(L (W x54 x00 x00 x00 x48 x00 x00 x00)))
(T (W x00 x00 x00 x00 x00 x00 x00 x00)
(L (W x00 x00 x00 x00 x00 x00 x00 x00)) E))
(T (W x45 x26 x22 x84 xe4 x9c xf2 xcb)
(T (W x04 x00 x00 x00 x00 x00 x00 x00)
(L (W x3c x01 x00 x00 x30 x01 x00 x00)) E)
(T (W x1c x01 x00 x00 x01 x00 x00 x00)
(L (W x00 x00 x80 xbf x9c x00 x00 x00)) E)))))))))
(T (W xac x9a x02 x00 xc0 x98 x02 x00)
(T (W x20 x25 x02 x00 x4c x23 x02 x00)
(T (W x34 x38 x01 x00 x68 x36 x01 x00)
(T (W x28 x00 x00 x00 x14 x00 x00 x00)
(T (W x46 x53 x59 x53 x5f x4e x45 x57)
(T (W x45 x26 x22 x84 xe4 x9c xf2 xcb)
(T (W x3c x01 x00 x00 x30 x01 x00 x00)
(T (W x00 x00 x00 x00 x00 x00 x00 x00)
(T (W x24 x6f x04 x70 xd8 xd6 x0c xdb)
(L (W x00 xe0 x02 x44 x66 x66 x3e x42))
(L (W x00 x00 x00 x00 x02 x00 x00 x00)))
(T (W x00 x00 xa0 x40 x24 x01 x00 x00)
(L (W x00 x00 x80 x3f x00 x00 x80 x3f)) E))
(T (W x00 x00 x00 x00 xc0 x51 xfd xff)
(T (W x88 xa4 x32 x19 x15 x7c xe9 x0b)
(L (W xbc xd1 xfe xff x3e xd1 xfe xff))
(L (W x00 x00 x80 xbf x9c x00 x00 x00)))
(T (W x2c x00 x00 x00 x18 x00 x00 x00)
(L (W x45 x26 x22 x84 xe4 x9c xf2 xcb)) E)))
(T (W x00 x00 x80 x3f x00 x00 x80 x3f)
(T (W x45 x26 x22 x84 xe4 x9c xf2 xcb)
(T (W x00 x00 x00 x00 x00 x00 x00 x00)
(L (W x45 x26 x22 x84 xe4 x9c xf2 xcb))
(L (W x00 x00 x00 x00 x00 x00 x00 x00)))
(T (W x01 x00 x00 x00 x04 x00 x00 x00)
(L (W x45 x26 x22 x84 xe4 x9c xf2 xcb)) E))
(T (W x55 x6c xfc xf1 x99 x9e xc9 x88)
(T (W xbc xf1 xfd xff x00 x00 x00 x00)
(L (W x45 x26 x22 x84 xe4 x9c xf2 xcb))
(L (W x00 x00 x00 x00 xc0 xf1 xff xff)))
(T (W x00 x00 x00 x00 xc0 x71 xfe xff)
(L (W x00 x00 x00 x00 xc0 x71 xff xff)) E))))
(T (W x44 x00 x00 x00 x30 x00 x00 x00)
(T (W x00 x00 x00 x00 xc0 xe1 xfc xff)
(T (W x00 x00 x80 x3f x00 x00 x80 x3f)
(T (W x00 x00 x80 x3f x00 x00 x80 x3f)
(L (W x00 x00 x00 x00 x00 x00 x00 x00))
(L (W x00 x00 x00 x00 xc0 xa1 xff xff)))
(T (W x04 x00 x00 x00 xa8 x21 xfe xff)
(L (W x00 x00 x00 x00 x00 x00 x00 x00)) E))
(T (W x04 x00 x00 x00 x00 x00 x00 x00)
(T (W xcd x2c x43 x44 x00 x00 x00 x00)
(L (W x45 x26 x22 x84 xe4 x9c xf2 xcb))
(L (W x55 x39 x81 x6a xc4 xc7 x74 x14)))
(T (W xbc x61 xfe xff x00 x00 x00 x00)
(L (W x00 x00 x00 x00 xc0 x61 xff xff)) E)))
(T (W x04 x00 x00 x00 x00 x00 x00 x00)
(T (W x00 x00 x00 x00 x00 x00 x00 x00)
(T (W x45 x26 x22 x84 xe4 x9c xf2 xcb)
(L (W x00 x00 x00 x00 x00 x00 x00 x00))
(L (W x45 x26 x22 x84 xe4 x9c xf2 xcb)))
(T (W xb7 xf3 x29 xbb xfc x75 xce xf9)
(L (W x00 x00 x00 x00 x00 x00 x00 x00)) E))
(T (W x00 x00 x00 x00 xc0 x81 xfd xff)
(T (W x64 x04 xfe xff x50 x00 x00 x00)
(L (W x00 x00 x00 x00 x82 x09 xff xff)) E)
(T (W x00 x00 x00 x00 x01 x00 x00 x00)
(L (W x01 xe2 x9f xb4 x0d xc5 x5a xfb)) E)))))
(T (W x1a xe7 x86 x67 x2b x05 xf1 x8e)
(T (W x45 x26 x22 x84 xe4 x9c xf2 xcb)
(T (W x00 x00 x00 x00 x01 x00 x00 x00)
(T (W x00 x00 x00 x00 x3e x19 xfd xff)
(T (W x01 x00 x00 x00 x04 x00 x00 x00)
(L (W x00 x00 x80 xbf x9c x00 x00 x00))
(L (W x45 x26 x22 x84 xe4 x9c xf2 xcb)))
(T (W x45 x26 x22 x84 xe4 x9c xf2 xcb)
(L (W x04 x00 x00 x00 xfa x1e xff xff)) E))
(T (W x3a x59 xfd xff x00 x00 x80 x3f)
(T (W x00 x00 x00 x00 x00 x00 x00 x00)
(L (W x4e x52 x81 xf3 x1d x32 x54 x95))
(L (W xca xe8 xac x28 xbf xdb x59 x6a)))
(T (W xef x7b xbd x31 x15 x46 x3c x37)
(L (W x04 x00 x00 x00 xfa x5e xff xff)) E)))
(T (W xb2 xdd xff xff x00 x00 x00 x01)
(T (W x00 x00 x00 x00 x00 x00 x00 x00)
(T (W x00 x00 xa0 x40 x24 x01 x00 x00)
(L (W x44 x00 x00 x00 x38 x00 x00 x00))
(L (W x00 x00 x00 x00 x00 x00 x00 x00)))
(T (W x45 x26 x22 x84 xe4 x9c xf2 xcb)
(L (W x00 x00 x00 x00 x00 x00 x00 x00)) E))
(T (W x45 x26 x22 x84 xe4 x9c xf2 xcb)
(T (W x6a xfd xfd xff x40 x01 x00 x00)
(L (W x00 x00 x00 x00 x00 x00 x00 x00))
(L (W x78 x00 x00 x00 x6c x00 x00 x00)))
(T (W x45 x26 x22 x84 xe4 x9c xf2 xcb)
(L (W x45 x26 x22 x84 xe4 x9c xf2 xcb)) E))))
(T (W x00 x00 x00 x00 x1c x00 x00 x00)
(T (W x00 x00 x00 x00 x00 x00 x00 x00)
(T (W x4d x00 x00 x00 x82 x31 xfd xff)
(T (W x91 x12 x7a x1e x15 x34 x03 x15)
(L (W x85 x8b x10 x44 x7b x14 xf3 x42))
(L (W xa4 x39 x0e xb9 x84 xa8 x49 xd7)))
(T (W x2a xf4 x04 x37 x15 x04 x56 x40)
(L (W x3c x01 x00 x00 x30 x01 x00 x00)) E))
(T (W x00 x00 x00 x00 x00 x00 x00 x00)
(T (W x00 x00 x00 x00 x01 x00 x00 x00)
(L (W xd7 x23 xc1 x42 x85 x2b x7b x43))
(L (W x34 x01 x00 x00 x00 x00 xa0 x40)))
(T (W x9a x99 x39 x43 x00 x00 x00 x00)
(L (W x01 x00 x00 x00 x00 x00 x80 x3f)) E)))
(T (W xbc x09 xfd xff x00 x00 x00 x00)
(T (W x45 x26 x22 x84 xe4 x9c xf2 xcb)
(T (W x00 x00 x00 x00 x00 x00 x00 x00)
(L (W x00 x00 x00 x00 xc0 xc9 xfe xff))
(L (W x04 x00 x00 x00 xe0 xcb xff xff)))
(T (W x2c x4a xfe xff x4c x00 x00 x00)
(L (W x45 x26 x22 x84 xe4 x9c xf2 xcb)) E))
(T (W x00 x00 x00 x00 x00 x00 x00 x00)
(T (W xbc x09 xfe xff x00 x00 x00 x00)
(L (W xbc x09 xff xff x00 x00 x00 x00)) E)
(T (W x64 x8c xfe xff x50 x00 x00 x00)
(L (W x01 x00 x00 x00 x04 x00 x00 x00)) E))))))
(T (W x7b xb4 xa4 x43 xec xd1 xdf x42)
(T (W x00 x00 xe0 x40 x24 x01 x00 x00)
(T (W x01 x00 x00 x00 x04 x00 x00 x00)
(T (W x34 x00 x00 x00 x20 x00 x00 x00)
(T (W x78 x00 x00 x00 x6c x00 x00 x00)
(T (W x45 x26 x22 x84 xe4 x9c xf2 xcb)
(L (W x00 x00 x00 x00 x82 x9d xfe xff))
(L (W x01 x00 x00 x00 x00 x00 x80 x3f)))
(T (W x04 x00 x00 x00 x00 x00 x00 x00)
(L (W x1c x01 x00 x00 x01 x00 x00 x00)) E))
(T (W x74 x00 x00 x00 x68 x00 x00 x00)
(T (W x45 x26 x22 x84 xe4 x9c xf2 xcb)
(L (W x46 x53 x59 x53 x5f x4e x45 x57))
(L (W x45 x26 x22 x84 xe4 x9c xf2 xcb)))
(T (W x00 x00 x00 x00 x00 x00 x00 x00)
(L (W x01 x00 x00 x00 x00 x00 x80 x3f)) E)))
(T (W x00 x00 x00 x00 x00 x00 x00 x00)
(T (W x2c x00 x00 x00 x20 x00 x00 x00)
(T (W x00 x00 x80 x3f x00 x00 x80 x3f)
(L (W x45 x26 x22 x84 xe4 x9c xf2 xcb))
(L (W x00 x00 x80 x3f x00 x00 x80 x3f)))
(T (W x45 x26 x22 x84 xe4 x9c xf2 xcb)
(L (W x44 x00 x00 x00 x38 x00 x00 x00)) E))
(T (W x00 x00 x00 x00 x00 x00 x00 x00)
(T (W x14 xae x34 x44 x00 x00 x00 x00)
(L (W x45 x26 x22 x84 xe4 x9c xf2 xcb))
(L (W x00 x00 x00 x00 x00 x00 x00 x00)))
(T (W x00 x00 x00 x00 x00 x00 x00 x00)
(L (W x00 x00 x00 x00 x00 x00 x00 x00)) E))))
(T (W xbc xc5 xfc xff x3e xc5 xfc xff)
(T (W x45 x26 x22 x84 xe4 x9c xf2 xcb)
(T (W x46 x53 x59 x53 x5f x4d x4b x52)
(T (W x00 x00 x00 x00 x00 x00 x00 x00)
(L (W x48 x00 x00 x00 x34 x00 x00 x00))
(L (W x52 xb8 x2d x44 x00 x00 x00 x00)))
(T (W x1f xf5 x3a x44 x71 x3d x64 x42)
(L (W x45 x26 x22 x84 xe4 x9c xf2 xcb)) E))
(T (W x45 x26 x22 x84 xe4 x9c xf2 xcb)
(T (W x00 x00 x80 xbf x00 x00 x80 xbf)
(L (W x55 x39 x81 x6a xc4 xc7 x74 x14))
(L (W x9a x39 x5b x44 x00 x00 x00 x00)))
(T (W x00 x00 x00 x00 xc0 x65 xfe xff)
(L (W xbc x65 xff xff x3e x65 xff xff)) E)))
(T (W x45 x26 x22 x84 xe4 x9c xf2 xcb)
(T (W x00 x00 x00 x00 x01 x00 x00 x00)
(T (W x64 xc8 xfd xff x50 x00 x00 x00)
(L (W x00 x00 x00 x00 x01 x00 x00 x00))
(L (W x45 x26 x22 x84 xe4 x9c xf2 xcb)))
(T (W x45 x26 x22 x84 xe4 x9c xf2 xcb)
(L (W x19 xf7 x63 x6a xcb xb1 x72 x99)) E))
(T (W x00 x00 x00 x00 x3e x85 xfd xff)
(T (W x00 x00 x00 x00 x00 x00 x00 x00)
(L (W x04 x00 x00 x00 xfa x0a xff xff)) E)
(T (W x45 x26 x22 x84 xe4 x9c xf2 xcb)
(L (W x40 x00 x00 x00 x38 x00 x00 x00)) E)))))
(T (W x04 x00 x00 x00 xfa xb2 xfc xff)
(T (W x00 x00 x00 x00 xc0 xbd xfc xff)
(T (W x45 x26 x22 x84 xe4 x9c xf2 xcb)
(T (W x3a x1d xfd xff x00 x00 x80 x3f)
(T (W x00 x00 x00 x00 x00 x00 x00 x00)
(L (W x45 x26 x22 x84 xe4 x9c xf2 xcb))
(L (W x45 x26 x22 x84 xe4 x9c xf2 xcb)))
(T (W x45 x26 x22 x84 xe4 x9c xf2 xcb)
(L (W x45 x26 x22 x84 xe4 x9c xf2 xcb)) E))
(T (W x00 x00 x80 xbf x00 x00 x80 xbf)
(T (W x78 x00 x00 x00 x6c x00 x00 x00)
(L (W x45 x26 x22 x84 xe4 x9c xf2 xcb))
(L (W x00 x00 x00 x00 x00 x00 x00 x00)))
(T (W x45 x26 x22 x84 xe4 x9c xf2 xcb)
(L (W xbc x5d xff xff x00 x00 x00 x00)) E)))
(T (W x00 x00 x80 xbf x9c x00 x00 x00)
(T (W x04 x00 x00 x00 xe0 x3f xfd xff)
(T (W x04 x00 x00 x00 x00 x00 x00 x00)
(L (W x00 x00 x00 x00 x01 x00 x00 x00))
(L (W x00 x00 x00 x00 x01 x00 x00 x00)))
(T (W x45 x41 x30 x32 x5f x30 x31 x38)
(L (W x28 x00 x00 x00 x14 x00 x00 x00)) E))
(T (W xbc x7d xfd xff x00 x00 x00 x00)
(T (W x00 x00 x00 x00 x01 x00 x00 x00)
(L (W x9a xc9 x10 x44 x1f x85 xaa x42))
(L (W x00 x00 x00 x00 x00 x00 x00 x00)))
(T (W x1c x01 x00 x00 x01 x00 x00 x00)
(L (W x42 x52 x45 x41 x4b x5f x41 x52)) E))))
(T (W x02 x00 x00 x00 x34 x33 x00 x00)
(T (W x60 x00 x00 x00 x54 x00 x00 x00)
(T (W x34 x00 x00 x00 x20 x00 x00 x00)
(T (W x45 x26 x22 x84 xe4 x9c xf2 xcb)
(L (W x00 x00 x80 x3f x02 x00 x00 x00))
(L (W x00 x00 x00 x00 xc0 xad xff xff)))
(T (W x40 x00 x00 x00 x38 x00 x00 x00)
(L (W x00 x00 x00 x00 x01 x00 x00 x00)) E))
(T (W x04 x00 x00 x00 xa8 x6d xfd xff)
(T (W x00 x00 x00 x00 xc0 xed xfd xff)
(L (W x00 x00 x80 xbf x00 x00 x80 xbf))
(L (W x00 x00 x00 x00 x01 x00 x00 x00)))
(T (W x7a xdc xca xe4 x5f x2f xe8 x79)
(L (W x04 x00 x00 x00 xfa x72 xff xff)) E)))
(T (W xdf xc7 x36 x97 x85 x27 x63 x5f)
(T (W x00 x00 x00 x00 x00 x00 x00 x00)
(T (W xae x57 x2d x44 xec x51 x14 x42)
(L (W x00 x00 x00 x00 x00 x00 x00 x00))
(L (W x29 xfc xf8 x43 x00 x00 x00 x00)))
(T (W x45 x26 x22 x84 xe4 x9c xf2 xcb)
(L (W x00 x00 x00 x00 x00 x00 x00 x00)) E))
(T (W x45 x41 x30 x32 x5f x30 x30 x37)
(T (W x00 x00 x00 x00 x3e x0d xfe xff)
(L (W x00 x00 x00 x00 x00 x00 x00 x00)) E)
(T (W x04 x00 x00 x00 xa8 x8d xfe xff)
(L (W x00 x00 x00 x00 x01 x00 x00 x00)) E)))))))
(T (W x50 x47 x00 x00 x64 x45 x00 x00)
(T (W x3a x9b xfc xff x00 x00 x80 x3f)
(T (W x5f x30 x32 x31 x00 x00 x00 x00)
(T (W x00 x00 x00 x00 xc0 xb3 xfc xff)
(T (W x04 x00 x00 x00 x00 x00 x80 x3f)
(T (W xbc x13 xfd xff x00 x00 x00 x00)
(T (W x04 x00 x00 x00 x00 x00 x00 x00)
(L (W x5f x4e x45 x57 x5f x4f x55 x54))
(L (W x5f x4e x45 x57 x5f x4f x55 x54)))
(T (W xbd x55 xf0 x2c xe1 xf4 x84 xb1)
(L (W x00 x00 x00 x00 x00 x00 x00 x00)) E))
(T (W xbc x53 xfd xff x00 x00 x00 x00)
(T (W x54 x00 x00 x00 x48 x00 x00 x00)
(L (W x00 x00 x00 x00 x00 x00 x00 x00))
(L (W x00 x00 x00 x00 x01 x00 x00 x00)))
(T (W x3a x53 xfe xff x00 x00 x80 x3f)
(L (W x00 x00 x00 x00 x00 x00 x00 x00)) E)))
(T (W x7b x14 x3e x42 x29 x4c x07 x44)
(T (W x01 x00 x00 x00 x04 x00 x00 x00)
(T (W x60 x00 x00 x00 x54 x00 x00 x00)
(L (W x45 x26 x22 x84 xe4 x9c xf2 xcb))
(L (W x74 x00 x00 x00 x68 x00 x00 x00)))
(T (W x2c x00 x00 x00 x20 x00 x00 x00)
(L (W x00 x00 x00 x00 xc0 x33 xff xff)) E))
(T (W x00 x00 x80 x3f xc0 x73 xfd xff)
(T (W x45 x26 x22 x84 xe4 x9c xf2 xcb)
(L (W xbc xf3 xfe xff x00 x00 x00 x00))
(L (W x44 x00 x00 x00 x38 x00 x00 x00)))
(T (W xec x3f x45 xdc x00 xd8 x55 x2f)
(L (W x2c x00 x00 x00 x20 x00 x00 x00)) E))))
(T (W x4f x84 x6f x8b xe8 xcb x63 xb7)
(T (W x44 x00 x00 x00 x38 x00 x00 x00)
(T (W x00 x00 x80 x3f x00 x00 x80 x3f)
(T (W x48 xf1 x63 x44 x00 x00 x00 x00)
(L (W x00 x00 x00 x00 x00 x00 x00 x00))
(L (W x28 x00 x00 x00 x14 x00 x00 x00)))
(T (W x44 x00 x00 x00 x30 x00 x00 x00)
(L (W x00 x00 x00 x00 x01 x00 x00 x00)) E))
(T (W x54 x00 x00 x00 x48 x00 x00 x00)
(T (W x4e x45 x52 x41 x54 x49 x4f x4e)
(L (W xbc xe3 xfe xff x00 x00 x00 x00))
(L (W x00 x00 x80 x3f x00 x00 x80 x3f)))
(T (W x45 x26 x22 x84 xe4 x9c xf2 xcb)
(L (W x48 x00 x00 x00 x34 x00 x00 x00)) E)))
(T (W x54 x00 x00 x00 x48 x00 x00 x00)
(T (W x00 x00 x80 xbf x00 x00 x80 xbf)
(T (W x45 x26 x22 x84 xe4 x9c xf2 xcb)
(L (W x01 x00 x00 x00 x00 x00 x80 x3f))
(L (W x44 x00 x00 x00 x38 x00 x00 x00)))
(T (W x04 x00 x00 x00 x00 x00 x00 x00)
(L (W x00 x00 x80 x40 x24 x01 x00 x00)) E))
(T (W x2c x00 x00 x00 x18 x00 x00 x00)
(T (W x6c x88 xa7 x28 xbf x4b x53 x6a)
(L (W x34 x00 x00 x00 x20 x00 x00 x00)) E)
(T (W x40 x00 x00 x00 x38 x00 x00 x00)
(L (W x00 x00 x00 x00 x01 x00 x00 x00)) E)))))
(T (W x00 x00 x00 x00 x01 x00 x00 x00)
(T (W x00 x00 x00 x00 x00 x00 x00 x00)
(T (W x40 x00 x00 x00 x38 x00 x00 x00)
(T (W xae xe7 x8a x43 x00 x00 x69 x42)
(T (W x2c x00 x00 x00 x20 x00 x00 x00)
(L (W x00 x00 x00 x00 x01 x00 x00 x00))
(L (W x00 x00 x00 x00 xc0 x9b xff xff)))
(T (W x44 x00 x00 x00 x38 x00 x00 x00)
(L (W x45 x26 x22 x84 xe4 x9c xf2 xcb)) E))
(T (W x00 x00 x00 x00 x00 x00 x00 x00)
(T (W xbc xdb xfd xff x00 x00 x00 x00)
(L (W x04 x00 x00 x00 xfa xe0 xfe xff))
(L (W x00 x00 x00 x00 x00 x00 x00 x00)))
(T (W x54 x00 x00 x00 x48 x00 x00 x00)
(L (W x45 x26 x22 x84 xe4 x9c xf2 xcb)) E)))
(T (W x1c x01 x00 x00 x04 x00 x00 x00)
(T (W x00 x00 x00 x00 xc0 x3b xfd xff)
(T (W x1a xd7 x39 xc5 x8f x31 xe4 xcb)
(L (W x00 x00 x00 x00 x00 x00 x00 x00))
(L (W x00 x00 x80 xbf x9c x00 x00 x00)))
(T (W x00 x00 x00 x00 x00 x00 x00 x00)
(L (W x00 x00 x00 x00 xc0 x3b xff xff)) E))
(T (W x45 x26 x22 x84 xe4 x9c xf2 xcb)
(T (W x00 x00 x80 xbf x9c x00 x00 x00)
(L (W x44 x00 x00 x00 x30 x00 x00 x00))
(L (W x74 x00 x00 x00 x68 x00 x00 x00)))
(T (W x00 x00 x00 x00 x00 x00 x00 x00)
(L (W x1f x25 x4e x44 x00 x00 x00 x00)) E))))
(T (W x54 x49 x4f x4e x5f x41 x52 x45)
(T (W x00 x00 x00 x00 x01 x00 x00 x00)
(T (W x3c x01 x00 x00 x30 x01 x00 x00)
(T (W x54 x00 x00 x00 x48 x00 x00 x00)
(L (W x3c x01 x00 x00 x30 x01 x00 x00))
(L (W x40 x00 x00 x00 x38 x00 x00 x00)))
(T (W x54 x00 x00 x00 x48 x00 x00 x00)
(L (W x4f x80 x8c xe8 x48 x59 x42 x2f)) E))
(T (W x00 x00 x00 x00 xc0 x6b xfd xff)
(T (W x45 x26 x22 x84 xe4 x9c xf2 xcb)
(L (W x00 x00 x00 x00 x00 x00 x00 x00))
(L (W x01 x00 x00 x00 x00 x00 x80 x3f)))
(T (W x00 x00 x40 x40 x24 x01 x00 x00)
(L (W x34 x00 x00 x00 x20 x00 x00 x00)) E)))
(T (W x64 x0e xfd xff x50 x00 x00 x00)
(T (W x44 x00 x00 x00 x38 x00 x00 x00)
(T (W x44 x00 x00 x00 x30 x00 x00 x00)
(L (W x2c x00 x00 x00 x20 x00 x00 x00))
(L (W x28 x00 x00 x00 x14 x00 x00 x00)))
(T (W x44 x00 x00 x00 x38 x00 x00 x00)
(L (W x01 x00 x00 x00 x04 x00 x00 x00)) E))
(T (W x1c x00 x00 x00 x46 x53 x59 x53)
(T (W x78 x00 x00 x00 x6c x00 x00 x00)
(L (W x45 x26 x22 x84 xe4 x9c xf2 xcb)) E)
(T (W x00 x00 x00 x00 x00 x00 x00 x00)
(L (W x00 x00 x00 x00 x00 x00 x00 x00)) E))))))
(T (W x00 x00 x00 x00 x00 x00 x00 x00)
(T (W x00 x00 x80 xbf x00 x00 x80 xbf)
(T (W x2c x00 x00 x00 x20 x00 x00 x00)
(T (W x45 x26 x22 x84 xe4 x9c xf2 xcb)
(T (W x2c x00 x00 x00 x18 x00 x00 x00)
(T (W x00 x00 x00 x00 xc0 x97 xfd xff)
(L (W x1c x01 x00 x00 x01 x00 x00 x00))
(L (W x00 x00 x00 x00 x01 x00 x00 x00)))
(T (W x54 x00 x00 x00 x48 x00 x00 x00)
(L (W x45 x26 x22 x84 xe4 x9c xf2 xcb)) E))
(T (W x2c x00 x00 x00 x18 x00 x00 x00)
(T (W x2c x00 x00 x00 x20 x00 x00 x00)
(L (W x28 x01 x00 x00 x20 x01 x00 x00))
(L (W x00 x00 x00 x00 xc0 xd7 xff xff)))
(T (W x00 x00 x80 xbf x00 x00 x80 xbf)
(L (W x00 x00 x00 x00 x01 x00 x00 x00)) E)))
(T (W x5f x4d x41 x53 x53 x5f x47 x41)
(T (W x45 x26 x22 x84 xe4 x9c xf2 xcb)
(T (W xc3 xb5 x5a x44 x00 x00 x00 x00)
(L (W x45 x26 x22 x84 xe4 x9c xf2 xcb))
(L (W x00 x00 x80 x3f x00 x00 x80 x3f)))
(T (W xbc x37 xfe xff x00 x00 x00 x00)
(L (W x45 x26 x22 x84 xe4 x9c xf2 xcb)) E))
(T (W x1c x01 x00 x00 x01 x00 x00 x00)
(T (W x00 x00 x00 x00 x00 x00 x00 x00)
(L (W x00 x00 x00 x00 x00 x00 x00 x00))
(L (W x04 x00 x00 x00 xe0 xf9 xff xff)))
(T (W x60 x00 x00 x00 x54 x00 x00 x00)
(L (W xbc x77 xff xff x00 x00 x00 x00)) E))))
(T (W x00 x00 x00 x00 x00 x00 x00 x00)
(T (W x00 x00 x00 x00 x00 x00 x00 x00)
(T (W x46 x53 x59 x53 x5f x4d x4b x52)
(T (W x3c x01 x00 x00 x30 x01 x00 x00)
(L (W x55 x6c xfc xf1 x99 x9e xc9 x88))
(L (W x00 x00 x80 x40 x24 x01 x00 x00)))
(T (W x3c x01 x00 x00 x30 x01 x00 x00)
(L (W x00 x00 x00 x00 x00 x00 x00 x00)) E))
(T (W x2c x00 x00 x00 x20 x00 x00 x00)
(T (W xf3 xa7 xf6 x13 x15 x4c xdd x02)
(L (W x00 x00 x80 x3f x00 x00 x80 x3f))
(L (W x4b x5f x41 x52 x45 x41 x30 x32)))
(T (W x28 x00 x00 x00 x14 x00 x00 x00)
(L (W x57 x53 x59 x53 x5f x4d x41 x53)) E)))
(T (W x45 x26 x22 x84 xe4 x9c xf2 xcb)
(T (W x04 x00 x00 x00 xfa x4c xfd xff)
(T (W xcb x66 xca xc9 x03 x8d xa3 xbc)
(L (W x45 x26 x22 x84 xe4 x9c xf2 xcb))
(L (W x00 x00 x00 x00 x00 x00 x00 x00)))
(T (W x01 x00 x00 x00 x04 x00 x00 x00)
(L (W x04 x00 x00 x00 x00 x00 x00 x00)) E))
(T (W x3a x87 xfd xff x66 x66 xcb x43)
(T (W x00 x00 x00 x00 x00 x00 x00 x00)
(L (W x45 x26 x22 x84 xe4 x9c xf2 xcb)) E)
(T (W x45 x26 x22 x84 xe4 x9c xf2 xcb)
(L (W x45 x26 x22 x84 xe4 x9c xf2 xcb)) E)))))
(T (W x45 x26 x22 x84 xe4 x9c xf2 xcb)
(T (W x04 x00 x00 x00 xe0 xc1 xfc xff)
(T (W x45 x26 x22 x84 xe4 x9c xf2 xcb)
(T (W xbc x1f xfd xff x3e x1f xfd xff)
(T (W x60 x00 x00 x00 x54 x00 x00 x00)
(L (W x64 xa2 xfe xff x50 x00 x00 x00))
(L (W x00 x00 x00 x00 x00 x00 x00 x00)))
(T (W x00 x00 x00 x00 xc0 x1f xfe xff)
(L (W x2c x00 x00 x00 x20 x00 x00 x00)) E))
(T (W x00 x00 x80 xbf x9c x00 x00 x00)
(T (W x28 x00 x00 x00 x14 x00 x00 x00)
(L (W x00 x00 x00 x00 xc0 xdf xfe xff))
(L (W x60 x00 x00 x00 x54 x00 x00 x00)))
(T (W x45 x26 x22 x84 xe4 x9c xf2 xcb)
(L (W x45 x26 x22 x84 xe4 x9c xf2 xcb)) E)))
(T (W x78 xdf x7b x65 xa3 x62 xef x9b)
(T (W x3a x3f xfd xff x00 x00 x80 x3f)
(T (W x54 x00 x00 x00 x48 x00 x00 x00)
(L (W x45 x26 x22 x84 xe4 x9c xf2 xcb))
(L (W x45 x26 x22 x84 xe4 x9c xf2 xcb)))
(T (W x00 x00 x40 x40 x24 x01 x00 x00)
(L (W x00 x00 x80 x3f x00 x00 x80 x3f)) E))
(T (W x45 x26 x22 x84 xe4 x9c xf2 xcb)
(T (W x45 x26 x22 x84 xe4 x9c xf2 xcb)
(L (W x5f x4e x45 x57 x5f x4f x55 x54))
(L (W x7c x4b x69 x12 x83 x6f x37 xc6)))
(T (W x00 x00 x80 xbf x9c x00 x00 x00)
(L (W x00 x00 x80 xbf x00 x00 x80 xbf)) E))))
(T (W x4e x45 x52 x41 x54 x49 x4f x4e)
(T (W xd6 x81 x9c x94 x9b x27 x57 x25)
(T (W x00 x00 x00 x00 x01 x00 x00 x00)
(T (W x2c x00 x00 x00 x20 x00 x00 x00)
(L (W xe3 xd8 x1b x72 x9d x09 xa7 xbe))
(L (W x2c x00 x00 x00 x20 x00 x00 x00)))
(T (W x00 x00 x00 x00 xc0 x2f xfe xff)
(L (W x54 x00 x00 x00 x48 x00 x00 x00)) E))
(T (W x48 x00 x00 x00 x34 x00 x00 x00)
(T (W x45 x26 x22 x84 xe4 x9c xf2 xcb)
(L (W x00 x00 x00 x00 x01 x00 x00 x00))
(L (W x45 x26 x22 x84 xe4 x9c xf2 xcb)))
(T (W x40 x00 x00 x00 x38 x00 x00 x00)
(L (W x45 x26 x22 x84 xe4 x9c xf2 xcb)) E)))
(T (W x00 x00 x00 x00 x00 x00 x00 x00)
(T (W x00 x00 x00 x00 xc0 x4f xfd xff)
(T (W x3c x01 x00 x00 x30 x01 x00 x00)
(L (W x5c x00 x00 x00 x50 x00 x00 x00))
(L (W x54 x49 x4f x4e x5f x41 x52 x45)))
(T (W x00 x00 x00 x00 xc0 x4f xfe xff)
(L (W x00 x00 x00 x00 x01 x00 x00 x00)) E))
(T (W x00 x00 x80 xbf x9c x00 x00 x00)
(T (W x00 x00 x00 x00 x00 x00 x00 x00)
(L (W x74 x00 x00 x00 x68 x00 x00 x00)) E)
(T (W x44 x00 x00 x00 x30 x00 x00 x00)
(L (W x45 x26 x22 x84 xe4 x9c xf2 xcb)) E))))))))
(T (W xa4 xae x01 x00 xb8 xac x01 x00)
(T (W x84 xc1 x00 x00 x94 xbf x00 x00)
(T (W x40 x00 x00 x00 x38 x00 x00 x00)
(T (W x44 x00 x00 x00 x38 x00 x00 x00)
(T (W x9a xf9 xd2 x43 x00 x00 x00 x00)
(T (W x00 x00 x00 x00 x00 x00 x00 x00)
(T (W x34 x00 x00 x00 x20 x00 x00 x00)
(T (W x04 x00 x00 x00 xa8 x92 xfd xff)
(L (W x01 x00 x00 x00 x04 x00 x00 x00))
(L (W x01 x00 x00 x00 x04 x00 x00 x00)))
(T (W x00 x00 x00 x00 x00 x00 x00 x00)
(L (W x45 x26 x22 x84 xe4 x9c xf2 xcb)) E))
(T (W x45 x26 x22 x84 xe4 x9c xf2 xcb)
(T (W x00 x00 x00 x00 x01 x00 x00 x00)
(L (W x45 x26 x22 x84 xe4 x9c xf2 xcb))
(L (W x00 x00 x00 x00 xc0 xd2 xff xff)))
(T (W x40 x00 x00 x00 x38 x00 x00 x00)
(L (W x45 x26 x22 x84 xe4 x9c xf2 xcb)) E)))
(T (W x45 x26 x22 x84 xe4 x9c xf2 xcb)
(T (W xcd xcc x46 x44 x9a x99 xc1 x42)
(T (W x00 x00 x00 x00 x01 x00 x00 x00)
(L (W x00 x00 x80 x3f x00 x00 x80 x3f))
(L (W x45 x26 x22 x84 xe4 x9c xf2 xcb)))
(T (W x5f x4e x45 x57 x5f x4f x55 x54)
(L (W xbc x32 xff xff x3e x32 xff xff)) E))
(T (W x45 x26 x22 x84 xe4 x9c xf2 xcb)
(T (W x04 x00 x00 x00 xfa xf7 xfd xff)
(L (W x00 x00 x80 x3f x00 x00 x80 x3f))
(L (W x46 x53 x59 x53 x5f x4e x45 x57)))
(T (W x00 x00 x00 x00 x00 x00 x00 x00)
(L (W x00 x00 x00 x00 x00 x00 x00 x00)) E))))
(T (W x54 x00 x00 x00 x48 x00 x00 x00)
(T (W x1b x00 x00 x00 x57 x53 x59 x53)
(T (W x45 x26 x22 x84 xe4 x9c xf2 xcb)
(T (W x45 x26 x22 x84 xe4 x9c xf2 xcb)
(L (W x00 x00 x80 xbf x00 x00 x80 xbf))
(L (W x00 x00 x00 x00 x01 x00 x00 x00)))
(T (W x04 x00 x00 x00 x00 x00 x00 x00)
(L (W x60 xc8 x0c xfe x1d xef x83 xa7)) E))
(T (W x48 x00 x00 x00 x34 x00 x00 x00)
(T (W x64 xe5 xfd xff x50 x00 x00 x00)
(L (W x34 x00 x00 x00 x20 x00 x00 x00))
(L (W x45 x26 x22 x84 xe4 x9c xf2 xcb)))
(T (W x00 x00 x00 x00 x00 x00 x00 x00)
(L (W x04 x00 x00 x00 x00 x00 x00 x00)) E)))
(T (W x48 x00 x00 x00 x34 x00 x00 x00)
(T (W x7d x16 xd2 x4f x49 xca x03 x36)
(T (W x00 x00 x80 x3f xc0 xc2 xfd xff)
(L (W x2c x00 x00 x00 x20 x00 x00 x00))
(L (W x00 x00 x00 x00 x00 x00 x00 x00)))
(T (W x04 x00 x00 x00 xa8 x42 xfe xff)
(L (W x45 x26 x22 x84 xe4 x9c xf2 xcb)) E))
(T (W x00 x00 x00 x00 x01 x00 x00 x00)
(T (W x42 x52 x45 x41 x4b x5f x41 x52)
(L (W x45 x26 x22 x84 xe4 x9c xf2 xcb)) E)
(T (W x2c x00 x00 x00 x18 x00 x00 x00)
(L (W x04 x00 x00 x00 xe0 x84 xff xff)) E)))))
(T (W x00 x00 x00 x00 x01 x00 x00 x00)
(T (W x1c x01 x00 x00 x04 x00 x00 x00)
(T (W x2c x00 x00 x00 x18 x00 x00 x00)
(T (W x45 x26 x22 x84 xe4 x9c xf2 xcb)
(T (W x5f x4e x45 x57 x5f x4f x55 x54)
(L (W x00 x00 x00 x00 xc0 x9a xfe xff))
(L (W xbc x9a xff xff x3e x9a xff xff)))
(T (W x00 x00 x00 x00 x00 x00 x00 x00)
(L (W x72 xeb x22 x37 x6d xc8 x9b xc2)) E))
(T (W x00 x00 x00 x00 xc0 x5a xfd xff)
(T (W x34 x00 x00 x00 x20 x00 x00 x00)
(L (W x00 x00 x00 x00 x01 x00 x00 x00))
(L (W x00 x00 x80 xbf x00 x00 x80 xbf)))
(T (W x00 x00 x00 x00 x01 x00 x00 x00)
(L (W x45 x26 x22 x84 xe4 x9c xf2 xcb)) E)))
(T (W x45 x26 x22 x84 xe4 x9c xf2 xcb)
(T (W x00 x00 x80 xbf x9c x00 x00 x00)
(T (W x00 x00 x00 x00 x00 x00 x00 x00)
(L (W x28 x01 x00 x00 x20 x01 x00 x00))
(L (W x45 x26 x22 x84 xe4 x9c xf2 xcb)))
(T (W x45 x26 x22 x84 xe4 x9c xf2 xcb)
(L (W x00 x00 x80 xbf x9c x00 x00 x00)) E))
(T (W x74 x00 x00 x00 x68 x00 x00 x00)
(T (W x45 x26 x22 x84 xe4 x9c xf2 xcb)
(L (W x04 x00 x00 x00 x00 x00 x00 x00))
(L (W x01 x00 x00 x00 x20 x00 x00 x00)))
(T (W x45 x26 x22 x84 xe4 x9c xf2 xcb)
(L (W x45 x26 x22 x84 xe4 x9c xf2 xcb)) E))))
(T (W x64 xcd xfc xff x50 x00 x00 x00)
(T (W x64 x55 xb7 x4b xbc xb6 xfd xea)
(T (W x55 x6c xfc xf1 x99 x9e xc9 x88)
(T (W x00 x00 x00 x00 x01 x00 x00 x00)
(L (W x01 x00 x00 x00 x04 x00 x00 x00))
(L (W x04 x00 x00 x00 xe0 xac xff xff)))
(T (W x00 x00 x00 x00 x01 x00 x00 x00)
(L (W x00 x00 x00 x00 x00 x00 x00 x00)) E))
(T (W x00 x00 x80 xbf x9c x00 x00 x00)
(T (W x5c x00 x00 x00 x50 x00 x00 x00)
(L (W x00 x00 x00 x00 xc0 xea xfe xff))
(L (W x00 x00 x00 x00 x00 x00 x00 x00)))
(T (W x64 x6d xfe xff x50 x00 x00 x00)
(L (W x00 x00 x00 x00 x00 x00 x00 x00)) E)))
(T (W x02 x00 x00 x00 x31 x31 x00 x00)
(T (W x00 x00 x00 x00 x00 x00 x00 x00)
(T (W x04 x00 x00 x00 x00 x00 x00 x00)
(L (W x57 x53 x59 x53 x5f x4d x41 x53))
(L (W x00 x00 x00 x00 x01 x00 x00 x00)))
(T (W x31 x37 x00 x00 x1b x00 x00 x00)
(L (W xae x17 x14 x44 x00 x00 x2a x42)) E))
(T (W x00 x00 x00 x00 xc0 x8a xfd xff)
(T (W x45 x26 x22 x84 xe4 x9c xf2 xcb)
(L (W x00 x00 x00 x00 x00 x00 x00 x00)) E)
(T (W x00 x00 xa0 x40 x24 x01 x00 x00)
(L (W x3c x01 x00 x00 x30 x01 x00 x00)) E))))))
(T (W x45 x26 x22 x84 xe4 x9c xf2 xcb)
(T (W x00 x00 x00 x00 x00 x00 x00 x00)
(T (W x5f x4f x55 x54 x42 x52 x45 x41)
(T (W xbc xd6 xfc xff x00 x00 x00 x00)
(T (W x00 x00 x00 x00 x01 x00 x00 x00)
(T (W x48 x21 xa4 x43 xcd xcc x19 x42)
(L (W x45 x26 x22 x84 xe4 x9c xf2 xcb))
(L (W x00 x00 x00 x00 x00 x00 x00 x00)))
(T (W x44 x00 x00 x00 x30 x00 x00 x00)
(L (W x00 x00 x00 x00 x00 x00 x00 x00)) E))
(T (W x00 x00 x00 x00 x01 x00 x00 x00)
(T (W x00 x00 x00 x00 x00 x00 x00 x00)
(L (W x44 x00 x00 x00 x38 x00 x00 x00))
(L (W x7b x14 x4e x42 x8f xe2 xc8 x43)))
(T (W x6c x88 xa7 x28 xbf x4b x53 x6a)
(L (W x00 x00 x00 x00 x00 x00 x00 x00)) E)))
(T (W x01 x00 x00 x00 x04 x00 x00 x00)
(T (W x6a x3a xfd xff x40 x01 x00 x00)
(T (W x45 x26 x22 x84 xe4 x9c xf2 xcb)
(L (W x3a xb6 xfe xff xcd x8c xa6 x43))
(L (W x45 x26 x22 x84 xe4 x9c xf2 xcb)))
(T (W x34 x00 x00 x00 x20 x00 x00 x00)
(L (W x45 x41 x30 x32 x5f x30 x31 x31)) E))
(T (W x44 x00 x00 x00 x38 x00 x00 x00)
(T (W x00 x00 x00 x00 xc0 xf6 xfd xff)
(L (W x00 x00 x40 x40 x24 x01 x00 x00))
(L (W xd6 xad x61 xe8 xab xc6 x56 x81)))
(T (W x00 x00 x00 x00 x01 x00 x00 x00)
(L (W x34 x00 x00 x00 x20 x00 x00 x00)) E))))
(T (W x45 x26 x22 x84 xe4 x9c xf2 xcb)
(T (W x00 x00 xe0 x40 x24 x01 x00 x00)
(T (W x00 x00 x00 x00 xc0 x26 xfd xff)
(T (W x01 x00 x00 x00 x04 x00 x00 x00)
(L (W x54 x00 x00 x00 x48 x00 x00 x00))
(L (W x64 xa9 xff xff x50 x00 x00 x00)))
(T (W x01 x00 x00 x00 x04 x00 x00 x00)
(L (W x45 x26 x22 x84 xe4 x9c xf2 xcb)) E))
(T (W x00 x00 x00 x00 x00 x00 x00 x00)
(T (W x00 x00 x00 x00 x00 x00 x00 x00)
(L (W x45 x26 x22 x84 xe4 x9c xf2 xcb))
(L (W x64 xe9 xff xff x50 x00 x00 x00)))
(T (W x00 x00 x00 x00 x01 x00 x00 x00)
(L (W x00 x00 x00 x00 xc0 x66 xff xff)) E)))
(T (W x00 x00 x80 x3f xc0 x06 xfd xff)
(T (W x60 x00 x00 x00 x54 x00 x00 x00)
(T (W x42 x52 x45 x41 x4b x5f x41 x52)
(L (W x5c x00 x00 x00 x50 x00 x00 x00))
(L (W x00 x00 xa0 x40 x24 x01 x00 x00)))
(T (W x8f xf2 x4b x44 x3d x0a x6a x42)
(L (W x04 x00 x00 x00 xa8 x46 xff xff)) E))
(T (W x45 x26 x22 x84 xe4 x9c xf2 xcb)
(T (W x01 x00 x00 x00 x00 x00 x80 x3f)
(L (W x45 x26 x22 x84 xe4 x9c xf2 xcb)) E)
(T (W x3a x86 xfe xff x00 x00 x80 x3f)
(L (W x00 x00 x00 x00 x3e x86 xff xff)) E)))))
(T (W x49 xa1 x68 x4a xeb x5f xdd x3d)
(T (W x10 x8e x29 x2c x40 x0c x23 x6f)
(T (W x3a xde xfc xff x71 x1d xf2 x43)
(T (W x45 x26 x22 x84 xe4 x9c xf2 xcb)
(T (W x00 x00 x00 x00 x01 x00 x00 x00)
(L (W x0a xd7 xeb x42 x00 x00 x00 x00))
(L (W x1c x01 x00 x00 x01 x00 x00 x00)))
(T (W x00 x00 x80 xbf x9c x00 x00 x00)
(L (W x00 x00 x00 x00 x00 x00 x00 x00)) E))
(T (W x1c x00 x00 x00 x46 x53 x59 x53)
(T (W x00 x00 x00 x00 x01 x00 x00 x00)
(L (W x00 x00 x00 x00 x00 x00 x00 x00))
(L (W x00 x00 x00 x00 x01 x00 x00 x00)))
(T (W x00 x00 x80 x3f xc0 x5e xfe xff)
(L (W x00 x00 x00 x00 x00 x00 x00 x00)) E)))
(T (W x00 x00 x00 x00 xc0 xfe xfc xff)
(T (W x40 x00 x00 x00 x38 x00 x00 x00)
(T (W x44 x00 x00 x00 x30 x00 x00 x00)
(L (W x54 x00 x00 x00 x48 x00 x00 x00))
(L (W x28 x00 x00 x00 x14 x00 x00 x00)))
(T (W x45 x26 x22 x84 xe4 x9c xf2 xcb)
(L (W x45 x26 x22 x84 xe4 x9c xf2 xcb)) E))
(T (W x00 x00 x00 x00 x00 x00 x00 x00)
(T (W x28 x00 x00 x00 x14 x00 x00 x00)
(L (W x01 x00 x00 x00 x04 x00 x00 x00))
(L (W x40 x01 x00 x00 x01 x00 x00 x00)))
(T (W x00 x00 x00 x00 x00 x00 x00 x00)
(L (W x87 xfb xaf x28 xbf x5d x5d x6a)) E))))
(T (W x64 xd1 xfc xff x50 x00 x00 x00)
(T (W x04 x00 x00 x00 xfa xf3 xfc xff)
(T (W xbc x2e xfd xff x00 x00 x00 x00)
(T (W x00 x00 x00 x00 x00 x00 x00 x00)
(L (W x00 x00 x00 x00 x00 x00 x00 x00))
(L (W x00 x00 x00 x00 x00 x00 x00 x00)))
(T (W x3a x2e xfe xff x00 x00 x80 x3f)
(L (W x5c x00 x00 x00 x50 x00 x00 x00)) E))
(T (W x04 x00 x00 x00 x00 x00 x00 x00)
(T (W x00 x00 x00 x00 x82 xf6 xfd xff)
(L (W x00 x00 x00 x00 x00 x00 x00 x00))
(L (W x5c x00 x00 x00 x50 x00 x00 x00)))
(T (W x04 x00 x00 x00 xe0 x70 xfe xff)
(L (W x72 xeb x22 x37 x6d xc8 x9b xc2)) E)))
(T (W x3c x01 x00 x00 x30 x01 x00 x00)
(T (W x00 x00 x80 xbf x9c x00 x00 x00)
(T (W x01 x00 x00 x00 x04 x00 x00 x00)
(L (W x00 x00 x00 x00 x01 x00 x00 x00))
(L (W x64 xd1 xff xff x50 x00 x00 x00)))
(T (W x00 x00 x80 xbf x9c x00 x00 x00)
(L (W x85 x21 x42 xe3 x48 x33 x25 x26)) E))
(T (W x45 x26 x22 x84 xe4 x9c xf2 xcb)
(T (W x45 x26 x22 x84 xe4 x9c xf2 xcb)
(L (W x45 x26 x22 x84 xe4 x9c xf2 xcb)) E)
(T (W x04 x00 x00 x00 x00 x00 x00 x00)
(L (W x54 x00 x00 x00 x48 x00 x00 x00)) E)))))))
(T (W x00 x00 x00 x00 x01 x00 x00 x00)
(T (W x45 x26 x22 x84 xe4 x9c xf2 xcb)
(T (W x45 x26 x22 x84 xe4 x9c xf2 xcb)
(T (W x00 x00 x00 x00 x00 x00 x00 x00)
(T (W x00 x00 x00 x00 x00 x00 x00 x00)
(T (W x45 x26 x22 x84 xe4 x9c xf2 xcb)
(T (W x44 x00 x00 x00 x30 x00 x00 x00)
(L (W x2c x00 x00 x00 x20 x00 x00 x00))
(L (W x2c x00 x00 x00 x20 x00 x00 x00)))
(T (W x04 x00 x00 x00 xa8 x14 xfe xff)
(L (W x44 x00 x00 x00 x38 x00 x00 x00)) E))
(T (W x15 xe3 x1b x72 x9d x0f xa7 xbe)
(T (W x45 x26 x22 x84 xe4 x9c xf2 xcb)
(L (W x00 x00 x00 x00 xc0 xd4 xfe xff))
(L (W x28 x00 x00 x00 x14 x00 x00 x00)))
(T (W x00 x00 x00 x00 xc0 x54 xfe xff)
(L (W x2c x00 x00 x00 x20 x00 x00 x00)) E)))
(T (W x00 x00 x00 x00 xc0 xf4 xfc xff)
(T (W x5f x4e x45 x57 x5f x4f x55 x54)
(T (W x45 x26 x22 x84 xe4 x9c xf2 xcb)
(L (W xbc xb4 xfe xff x3e xb4 xfe xff))
(L (W x45 x26 x22 x84 xe4 x9c xf2 xcb)))
(T (W x00 x00 x00 x00 x82 x3c xfe xff)
(L (W x1c x00 x00 x00 x46 x53 x59 x53)) E))
(T (W x45 x26 x22 x84 xe4 x9c xf2 xcb)
(T (W x45 x26 x22 x84 xe4 x9c xf2 xcb)
(L (W x00 x00 x00 x00 x00 x00 x00 x00))
(L (W x28 x01 x00 x00 x20 x01 x00 x00)))
(T (W x01 x00 x00 x00 x00 x00 x80 x3f)
(L (W x01 x00 x00 x00 x00 x00 x80 x3f)) E))))
(T (W x45 x26 x22 x84 xe4 x9c xf2 xcb)
(T (W x5f x41 x52 x45 x41 x30 x32 x00)
(T (W x00 x00 x00 x00 xc0 x24 xfd xff)
(T (W x00 x00 x00 x00 xc0 xa4 xfd xff)
(L (W x04 x00 x00 x00 x00 x00 x00 x00))
(L (W x45 x26 x22 x84 xe4 x9c xf2 xcb)))
(T (W x45 x26 x22 x84 xe4 x9c xf2 xcb)
(L (W x54 x00 x00 x00 x48 x00 x00 x00)) E))
(T (W x45 x26 x22 x84 xe4 x9c xf2 xcb)
(T (W xaf x68 xff x4b x84 x9a x7b x61)
(L (W x04 x00 x00 x00 xfa xe9 xfe xff))
(L (W x45 x26 x22 x84 xe4 x9c xf2 xcb)))
(T (W x00 x00 x80 xbf x9c x00 x00 x00)
(L (W x45 x26 x22 x84 xe4 x9c xf2 xcb)) E)))
(T (W x4f x84 x6f x8b xe8 xcb x63 xb7)
(T (W x00 x00 x00 x00 x00 x00 x00 x00)
(T (W x00 x00 x00 x00 x00 x00 x00 x00)
(L (W x00 x00 x00 x00 x00 x00 x00 x00))
(L (W x45 x41 x30 x32 x5f x30 x30 x32)))
(T (W x44 x00 x00 x00 x30 x00 x00 x00)
(L (W x00 x00 x00 x00 x00 x00 x00 x00)) E))
(T (W x40 x00 x00 x00 x38 x00 x00 x00)
(T (W x3c x01 x00 x00 x30 x01 x00 x00)
(L (W xbc x04 xff xff x00 x00 x00 x00)) E)
(T (W x00 x00 x00 x00 x3e x84 xfe xff)
(L (W x2c x00 x00 x00 x18 x00 x00 x00)) E)))))
(T (W x5c x00 x00 x00 x50 x00 x00 x00)
(T (W x00 x00 x80 xbf x9c x00 x00 x00)
(T (W x00 x00 x00 x00 x3e xdc xfc xff)
(T (W x40 x00 x00 x00 x38 x00 x00 x00)
(T (W x01 x00 x00 x00 x00 x00 x80 x3f)
(L (W x28 x00 x00 x00 x14 x00 x00 x00))
(L (W x00 x00 x00 x00 x82 xa4 xff xff)))
(T (W x45 x41 x30 x32 x5f x30 x31 x37)
(L (W xbc x1c xff xff x3e x1c xff xff)) E))
(T (W xf4 x30 xc8 xc9 x03 x8d xa0 xbc)
(T (W x45 x26 x22 x84 xe4 x9c xf2 xcb)
(L (W x45 x26 x22 x84 xe4 x9c xf2 xcb))
(L (W x00 x00 x80 xbf x00 x00 x80 xbf)))
(T (W x55 x6c xfc xf1 x99 x9e xc9 x88)
(L (W x00 x00 x00 x00 x00 x00 x00 x00)) E)))
(T (W x00 x00 x00 x00 x00 x00 x00 x00)
(T (W x03 x9b xfc x29 x86 x12 x11 x60)
(T (W x04 x00 x00 x00 xa8 xbc xfd xff)
(L (W xe6 x78 x86 xf3 x1d xa0 x5a x95))
(L (W x00 x00 x00 x00 xc0 xbc xff xff)))
(T (W x44 x00 x00 x00 x38 x00 x00 x00)
(L (W x00 x00 x00 x00 x01 x00 x00 x00)) E))
(T (W x00 x00 x80 x3f x00 x00 x80 x3f)
(T (W x00 x00 x00 x00 xc0 xfc xfd xff)
(L (W x45 x26 x22 x84 xe4 x9c xf2 xcb))
(L (W x34 x00 x00 x00 x20 x00 x00 x00)))
(T (W x44 x00 x00 x00 x38 x00 x00 x00)
(L (W x64 x7f xff xff x50 x00 x00 x00)) E))))
(T (W xbc xcc xfc xff x00 x00 x00 x00)
(T (W x00 x00 x00 x00 x01 x00 x00 x00)
(T (W x00 x00 x00 x00 x00 x00 x00 x00)
(T (W x45 x26 x22 x84 xe4 x9c xf2 xcb)
(L (W x00 x00 x00 x00 x00 x00 x00 x00))
(L (W x3a xac xff xff x00 x00 x80 x3f)))
(T (W x44 x00 x00 x00 x30 x00 x00 x00)
(L (W x00 x00 x00 x00 x01 x00 x00 x00)) E))
(T (W xda x90 x65 xd5 x18 xe4 x5f xf1)
(T (W xbc xec xfd xff x3e xec xfd xff)
(L (W x5c x54 x48 xdc x00 x5b x59 x2f))
(L (W x00 x00 x00 x00 x00 x00 x00 x00)))
(T (W x00 x00 x00 x00 x00 x00 x00 x00)
(L (W xbc x6c xff xff x00 x00 x00 x00)) E)))
(T (W x4e x45 x52 x41 x54 x49 x4f x4e)
(T (W x1c x01 x00 x00 x01 x00 x00 x00)
(T (W x45 x26 x22 x84 xe4 x9c xf2 xcb)
(L (W x01 x00 x00 x00 x00 x00 x80 x3f))
(L (W x45 x26 x22 x84 xe4 x9c xf2 xcb)))
(T (W x45 x41 x30 x32 x5f x30 x31 x37)
(L (W x3c x01 x00 x00 x30 x01 x00 x00)) E))
(T (W x44 x00 x00 x00 x38 x00 x00 x00)
(T (W x40 x00 x00 x00 x38 x00 x00 x00)
(L (W x1c x01 x00 x00 x01 x00 x00 x00)) E)
(T (W x73 x19 xc7 x48 x54 x48 xc4 x2a)
(L (W x19 x57 x11 x0c x1e x6e xad xc0)) E))))))
(T (W x00 x00 x00 x00 xc0 xa0 xfc xff)
(T (W x00 x00 x00 x00 x00 x00 x00 x00)
(T (W xb2 x9c xff xff x00 x00 x00 x01)
(T (W x78 x00 x00 x00 x6c x00 x00 x00)
(T (W x40 x00 x00 x00 x38 x00 x00 x00)
(T (W x00 x00 x00 x00 x00 x00 x00 x00)
(L (W x00 x00 x00 x00 x00 x00 x00 x00))
(L (W x5c x00 x00 x00 x50 x00 x00 x00)))
(T (W x45 x26 x22 x84 xe4 x9c xf2 xcb)
(L (W x74 x00 x00 x00 x68 x00 x00 x00)) E))
(T (W x40 x00 x00 x00 x38 x00 x00 x00)
(T (W x01 x00 x00 x00 x00 x00 x80 x3f)
(L (W x00 x00 x00 x00 x00 x00 x00 x00))
(L (W x00 x00 x00 x00 x00 x00 x00 x00)))
(T (W x00 x00 x00 x00 x00 x00 x00 x00)
(L (W x60 x00 x00 x00 x54 x00 x00 x00)) E)))
(T (W x2c x00 x00 x00 x20 x00 x00 x00)
(T (W x01 x00 x00 x00 x01 x00 x00 x00)
(T (W x64 xbb xfd xff x50 x00 x00 x00)
(L (W x00 x00 x00 x00 x00 x00 x00 x00))
(L (W xbc xb8 xff xff x00 x00 x00 x00)))
(T (W x04 x00 x00 x00 xfa x3d xfe xff)
(L (W x1c x01 x00 x00 x01 x00 x00 x00)) E))
(T (W x00 x00 x00 x00 x00 x00 x00 x00)
(T (W x01 x00 x00 x00 x04 x00 x00 x00)
(L (W x00 x00 x80 xbf x00 x00 x80 xbf))
(L (W x45 x26 x22 x84 xe4 x9c xf2 xcb)))
(T (W x04 x00 x00 x00 xfa x7d xfe xff)
(L (W x04 x00 x00 x00 xfa x7d xff xff)) E))))
(T (W xbc xc8 xfc xff x00 x00 x00 x00)
(T (W x00 x00 x80 xbf x00 x00 x80 xbf)
(T (W x36 x87 xd4 x61 xf7 xdc xb2 x83)
(T (W x00 x00 x00 x00 x00 x00 x00 x00)
(L (W x45 x26 x22 x84 xe4 x9c xf2 xcb))
(L (W x00 x00 x00 x00 x00 x00 x00 x00)))
(T (W x00 x00 x00 x00 x00 x00 x00 x00)
(L (W x01 x00 x00 x00 x04 x00 x00 x00)) E))
(T (W x01 x00 x00 x00 x01 x00 x00 x00)
(T (W x00 x00 x00 x00 x01 x00 x00 x00)
(L (W x45 x26 x22 x84 xe4 x9c xf2 xcb))
(L (W x9f x61 x6c x12 x83 xf3 x3a xc6)))
(T (W x45 x26 x22 x84 xe4 x9c xf2 xcb)
(L (W x2c x00 x00 x00 x20 x00 x00 x00)) E)))
(T (W x00 x00 x00 x00 x00 x00 x00 x00)
(T (W x45 x26 x22 x84 xe4 x9c xf2 xcb)
(T (W x00 x00 x80 xbf x00 x00 x80 xbf)
(L (W xbc xc8 xfe xff x3e xc8 xfe xff))
(L (W xc2 xbf x75 xd0 xab x43 xa5 xae)))
(T (W x00 x00 x00 x00 x02 x00 x00 x00)
(L (W x44 x00 x00 x00 x30 x00 x00 x00)) E))
(T (W x45 x26 x22 x84 xe4 x9c xf2 xcb)
(T (W x34 x00 x00 x00 x20 x00 x00 x00)
(L (W x00 x00 x00 x00 x00 x00 x00 x00)) E)
(T (W xc3 xc5 x2d x44 x00 x00 x00 x00)
(L (W x7b x54 x94 x43 x9a x99 x25 x42)) E)))))
(T (W x00 x00 x80 x3f x00 x00 x80 x3f)
(T (W x04 x00 x00 x00 x00 x00 x00 x00)
(T (W x00 x00 x00 x00 x00 x00 x00 x00)
(T (W x45 x26 x22 x84 xe4 x9c xf2 xcb)
(T (W x45 x26 x22 x84 xe4 x9c xf2 xcb)
(L (W x00 x00 xa0 x40 x24 x01 x00 x00))
(L (W x00 x00 x80 xbf x9c x00 x00 x00)))
(T (W x49 x6e x60 x9d x25 xb1 x5d xc6)
(L (W x3c x01 x00 x00 x30 x01 x00 x00)) E))
(T (W x00 x00 x00 x00 xc0 x60 xfd xff)
(T (W x45 x26 x22 x84 xe4 x9c xf2 xcb)
(L (W x00 x00 x00 x00 x82 xe8 xfe xff))
(L (W x04 x00 x00 x00 xfa xe5 xff xff)))
(T (W x00 x00 x00 x00 x00 x00 x00 x00)
(L (W x00 x00 x80 xbf x9c x00 x00 x00)) E)))
(T (W x04 x00 x00 x00 xa8 x00 xfd xff)
(T (W x00 x00 x00 x00 xc0 x40 xfd xff)
(T (W x55 x6c xfc xf1 x99 x9e xc9 x88)
(L (W x45 x26 x22 x84 xe4 x9c xf2 xcb))
(L (W x00 x00 x80 x3f x00 x00 x80 x3f)))
(T (W x00 x00 x00 x00 x00 x00 x00 x00)
(L (W xbc x40 xff xff x00 x00 x00 x00)) E))
(T (W x00 x00 x80 xbf x9c x00 x00 x00)
(T (W x3d x2a x2e x44 x00 x00 x00 x00)
(L (W x2c x00 x00 x00 x20 x00 x00 x00))
(L (W x00 x00 x00 x00 x00 x00 x00 x00)))
(T (W x00 x00 x00 x00 xc0 x80 xfe xff)
(L (W x00 x00 x00 x00 x00 x00 x00 x00)) E))))
(T (W xd3 x48 x2b x97 x85 x97 x55 x5f)
(T (W x45 x26 x22 x84 xe4 x9c xf2 xcb)
(T (W x2c x00 x00 x00 x18 x00 x00 x00)
(T (W x01 x00 x00 x00 x00 x00 x80 x3f)
(L (W x74 x00 x00 x00 x68 x00 x00 x00))
(L (W x1c x01 x00 x00 x01 x00 x00 x00)))
(T (W x00 x00 x00 x00 x00 x00 x00 x00)
(L (W x55 x6c xfc xf1 x99 x9e xc9 x88)) E))
(T (W x54 x00 x00 x00 x48 x00 x00 x00)
(T (W x34 x00 x00 x00 x20 x00 x00 x00)
(L (W x60 x00 x00 x00 x54 x00 x00 x00))
(L (W xbc xf0 xff xff x3e xf0 xff xff)))
(T (W x3a x70 xfe xff x00 x00 x80 x3f)
(L (W x00 x00 x80 x3f x00 x00 x80 x3f)) E)))
(T (W x04 x00 x00 x00 x00 x00 x80 x3f)
(T (W x2e xb4 x32 xf4 x1f xeb x8f xd5)
(T (W x00 x00 x00 x00 x00 x00 x00 x00)
(L (W x45 x26 x22 x84 xe4 x9c xf2 xcb))
(L (W x45 x26 x22 x84 xe4 x9c xf2 xcb)))
(T (W x00 x00 x00 x00 x01 x00 x00 x00)
(L (W x54 x00 x00 x00 x48 x00 x00 x00)) E))
(T (W x00 x00 x00 x00 xc0 x90 xfd xff)
(T (W x44 x00 x00 x00 x38 x00 x00 x00)
(L (W x45 x26 x22 x84 xe4 x9c xf2 xcb)) E)
(T (W x45 x26 x22 x84 xe4 x9c xf2 xcb)
(L (W x45 x26 x22 x84 xe4 x9c xf2 xcb)) E))))))))))))
(T (W xd0 x61 x03 x00 xe8 x5f x03 x00)
(T (W xf4 x52 x03 x00 x04 x51 x03 x00)
(T (W x44 x35 x03 x00 x58 x33 x03 x00)
(T (W x94 xfa x02 x00 xc8 xf8 x02 x00)
(T (W x84 x84 x02 x00 xb8 x82 x02 x00)
(T (W x54 x98 x01 x00 x58 x96 x01 x00)
(T (W x45 x26 x22 x84 xe4 x9c xf2 xcb)
(T (W x45 x26 x22 x84 xe4 x9c xf2 xcb)
(T (W x00 x00 x00 x00 x00 x00 x00 x00)
(T (W x00 x00 x00 x00 x00 x00 x00 x00)
(T (W x45 x26 x22 x84 xe4 x9c xf2 xcb)
(T (W x48 x00 x00 x00 x34 x00 x00 x00)
(L (W x00 x00 x00 x00 xf0 x90 xfe xff))
(L (W x44 x00 x00 x00 x38 x00 x00 x00)))
(T (W x00 x00 x00 x00 x00 x00 x00 x00)
(L (W x00 x00 x00 x00 xf0 x10 xff xff)) E))
(T (W x54 x00 x00 x00 x48 x00 x00 x00)
(T (W xec xd0 xfd xff x00 x00 x00 x00)
(L (W xec xd0 xfe xff x00 x00 x00 x00))
(L (W x00 x00 x00 x00 x00 x00 x00 x00)))
(T (W x45 x26 x22 x84 xe4 x9c xf2 xcb)
(L (W x45 x26 x22 x84 xe4 x9c xf2 xcb)) E)))
(T (W x00 x00 x00 x00 xf0 xf0 xfc xff)
(T (W x6a x30 xfd xff x33 x13 x2f x44)
(T (W x45 x26 x22 x84 xe4 x9c xf2 xcb)
(L (W x6a xb0 xfe xff x00 x00 x80 x3f))
(L (W xdb xfa xa0 xc3 x30 x3c x96 x67)))
(T (W x00 x00 x00 x00 xb2 x38 xfe xff)
(L (W x00 x00 x00 x00 x00 x00 x00 x00)) E))
(T (W x45 x26 x22 x84 xe4 x9c xf2 xcb)
(T (W x00 x00 x00 x00 x01 x00 x00 x00)
(L (W x00 x00 x80 x3f x00 x00 x80 x3f))
(L (W x00 x00 x00 x00 x00 x00 x00 x00)))
(T (W x00 x00 x00 x00 x00 x00 x00 x00)
(L (W x00 x00 x00 x00 x00 x00 x00 x00)) E))))
(T (W x45 x26 x22 x84 xe4 x9c xf2 xcb)
(T (W x5f x41 x52 x45 x41 x30 x32 x00)
(T (W x00 x00 x00 x00 xf0 x20 xfd xff)
(T (W x00 x00 x00 x00 xf0 xa0 xfd xff)
(L (W x0a xd4 xb0 xef x1d x07 xf4 x8d))
(L (W x04 x00 x00 x00 x00 x00 x00 x00)))
(T (W x54 x00 x00 x00 x48 x00 x00 x00)
(L (W x34 x00 x00 x00 x20 x00 x00 x00)) E))
(T (W x48 x00 x00 x00 x34 x00 x00 x00)
(T (W x01 x00 x00 x00 x04 x00 x00 x00)
(L (W x00 x00 x80 xbf x9c x00 x00 x00))
(L (W x45 x26 x22 x84 xe4 x9c xf2 xcb)))
(T (W x42 x52 x45 x41 x4b x5f x41 x52)
(L (W x04 x00 x00 x00 x00 x00 x00 x00)) E)))
(T (W x4f x84 x6f x8b xe8 xcb x63 xb7)
(T (W x2c x00 x00 x00 x20 x00 x00 x00)
(T (W x00 x00 x00 x00 x00 x00 x00 x00)
(L (W x44 x00 x00 x00 x38 x00 x00 x00))
(L (W x32 x00 x00 x00 x01 x00 x00 x00)))
(T (W x00 x00 x00 x00 x01 x00 x00 x00)
(L (W xc1 xa8 xaa x28 xbf xd5 x56 x6a)) E))
(T (W x04 x00 x00 x00 x00 x00 x00 x00)
(T (W x3c x01 x00 x00 x30 x01 x00 x00)
(L (W x00 x00 x00 x00 x00 x00 x00 x00)) E)
(T (W x44 x00 x00 x00 x30 x00 x00 x00)
(L (W x5c x00 x00 x00 x50 x00 x00 x00)) E)))))
(T (W x5c x00 x00 x00 x50 x00 x00 x00)
(T (W x00 x00 x80 xbf x9c x00 x00 x00)
(T (W x00 x00 x00 x00 x6e xd8 xfc xff)
(T (W x45 x26 x22 x84 xe4 x9c xf2 xcb)
(T (W x00 x00 x00 x00 xb2 xa0 xfd xff)
(L (W x04 x00 x00 x00 xd8 x98 xfe xff))
(L (W x00 x00 x80 x3f x00 x00 x80 x3f)))
(T (W x00 x00 x00 x00 x00 x00 x00 x00)
(L (W x6a x18 xff xff x00 x00 x80 x3f)) E))
(T (W x45 x26 x22 x84 xe4 x9c xf2 xcb)
(T (W x45 x26 x22 x84 xe4 x9c xf2 xcb)
(L (W x00 x00 x00 x00 x01 x00 x00 x00))
(L (W x01 x00 x00 x00 x00 x00 x80 x3f)))
(T (W x60 x00 x00 x00 x54 x00 x00 x00)
(L (W x00 x00 x80 x3f x00 x00 x80 x3f)) E)))
(T (W x00 x00 x00 x00 x00 x00 x00 x00)
(T (W xa2 x1f xdc xfb xc6 x71 xb2 xc1)
(T (W x00 x00 x00 x00 x00 x00 x00 x00)
(L (W x28 x01 x00 x00 x20 x01 x00 x00))
(L (W x00 xd1 xac x28 xbf xcd x59 x6a)))
(T (W x45 x26 x22 x84 xe4 x9c xf2 xcb)
(L (W xb0 xa2 xe6 x6a x28 x01 xa5 xa1)) E))
(T (W x04 x00 x00 x00 x10 x7b xfd xff)
(T (W x45 x26 x22 x84 xe4 x9c xf2 xcb)
(L (W x00 x00 x00 x00 x01 x00 x00 x00))
(L (W x40 x00 x00 x00 x38 x00 x00 x00)))
(T (W x45 x26 x22 x84 xe4 x9c xf2 xcb)
(L (W x45 x26 x22 x84 xe4 x9c xf2 xcb)) E))))
(T (W x3f x7c x88 xaf x9a x1e x19 x7c)
(T (W x00 x00 x00 x00 x01 x00 x00 x00)
(T (W x00 x00 x00 x00 x00 x00 x00 x00)
(T (W xec xa8 xfd xff x00 x00 x00 x00)
(L (W x00 x00 x00 x00 xf0 xa8 xfe xff))
(L (W x00 x00 x00 x00 x01 x00 x00 x00)))
(T (W xec x28 xfe xff x00 x00 x00 x00)
(L (W x45 x26 x22 x84 xe4 x9c xf2 xcb)) E))
(T (W xac xbb x7b xee xbf x7f x22 x44)
(T (W x55 x39 x81 x6a xc4 xc7 x74 x14)
(L (W x01 x00 x00 x00 x04 x00 x00 x00))
(L (W x00 x00 x00 x00 x00 x00 x00 x00)))
(T (W x01 x00 x00 x00 x04 x00 x00 x00)
(L (W x00 x00 x00 x00 x00 x00 x00 x00)) E)))
(T (W x4e x45 x52 x41 x54 x49 x4f x4e)
(T (W xc3 xf5 x16 x44 x00 x00 x00 x00)
(T (W x00 x00 x00 x00 x01 x00 x00 x00)
(L (W x00 x00 x00 x00 x00 x00 x00 x00))
(L (W x54 x00 x00 x00 x48 x00 x00 x00)))
(T (W x54 x01 x00 x00 x48 x01 x00 x00)
(L (W xec x48 xff xff x6e x48 xff xff)) E))
(T (W x44 x00 x00 x00 x38 x00 x00 x00)
(T (W x00 x00 x00 x00 x01 x00 x00 x00)
(L (W x4b x5f x41 x52 x45 x41 x30 x32)) E)
(T (W x3c x01 x00 x00 x30 x01 x00 x00)
(L (W x00 x00 x00 x00 xb2 x90 xff xff)) E))))))
(T (W x00 x00 x00 x00 xf0 x9c xfc xff)
(T (W x00 x00 x00 x00 x00 x00 x00 x00)
(T (W xe2 x98 xff xff x00 x00 x00 x01)
(T (W x78 x00 x00 x00 x6c x00 x00 x00)
(T (W x40 x00 x00 x00 x38 x00 x00 x00)
(T (W xec x94 xfd xff x6e x94 xfd xff)
(L (W x00 x00 x00 x00 x00 x00 x00 x00))
(L (W x00 x00 x00 x00 x00 x00 x00 x00)))
(T (W x55 x6c xfc xf1 x99 x9e xc9 x88)
(L (W x00 x00 x00 x00 x00 x00 x00 x00)) E))
(T (W x40 x00 x00 x00 x38 x00 x00 x00)
(T (W x00 x00 x00 x00 x00 x00 x00 x00)
(L (W x45 x26 x22 x84 xe4 x9c xf2 xcb))
(L (W xc3 x15 x9c x43 x7b x14 x51 x42)))
(T (W x2c x00 x00 x00 x20 x00 x00 x00)
(L (W x00 x00 x00 x00 x00 x00 x00 x00)) E)))
(T (W x2c x00 x00 x00 x20 x00 x00 x00)
(T (W x1c x01 x00 x00 x02 x00 x00 x00)
(T (W x00 x00 x00 x00 xf0 xb4 xfd xff)
(L (W x33 x30 x00 x00 x1b x00 x00 x00))
(L (W x00 x00 x00 x00 xf0 xb4 xff xff)))
(T (W x00 x00 x80 xbf x9c x00 x00 x00)
(L (W x00 x00 xc0 x40 x24 x01 x00 x00)) E))
(T (W x94 x77 xfd xff x50 x00 x00 x00)
(T (W x01 x00 x00 x00 x04 x00 x00 x00)
(L (W x00 x00 x80 xbf x00 x00 x80 xbf))
(L (W x3c x8e x9c xf0 xcb x4d x13 xa1)))
(T (W x45 x26 x22 x84 xe4 x9c xf2 xcb)
(L (W x45 x26 x22 x84 xe4 x9c xf2 xcb)) E))))
(T (W xec xc4 xfc xff x00 x00 x00 x00)
(T (W x00 x00 x80 xbf x00 x00 x80 xbf)
(T (W x2c x00 x00 x00 x20 x00 x00 x00)
(T (W x2c x00 x00 x00 x20 x00 x00 x00)
(L (W x45 x26 x22 x84 xe4 x9c xf2 xcb))
(L (W x01 x00 x00 x00 x04 x00 x00 x00)))
(T (W x00 x00 x00 x00 xf0 x24 xfe xff)
(L (W x45 x26 x22 x84 xe4 x9c xf2 xcb)) E))
(T (W x00 x00 x00 x00 x00 x00 x00 x00)
(T (W x00 x00 x00 x00 x00 x00 x00 x00)
(L (W x45 x26 x22 x84 xe4 x9c xf2 xcb))
(L (W x01 x00 x00 x00 x04 x00 x00 x00)))
(T (W x04 x00 x00 x00 x00 x00 x00 x00)
(L (W xec x64 xff xff x00 x00 x00 x00)) E)))
(T (W x00 x00 x00 x00 x00 x00 x00 x00)
(T (W x60 x00 x00 x00 x54 x00 x00 x00)
(T (W x34 x01 x00 x00 x00 x00 xa0 x40)
(L (W x74 x00 x00 x00 x68 x00 x00 x00))
(L (W x00 x00 x80 xbf x00 x00 x80 xbf)))
(T (W xec x44 xfe xff x6e x44 xfe xff)
(L (W x00 x00 x00 x00 x01 x00 x00 x00)) E))
(T (W x45 x26 x22 x84 xe4 x9c xf2 xcb)
(T (W x34 x00 x00 x00 x20 x00 x00 x00)
(L (W x28 x00 x00 x00 x14 x00 x00 x00)) E)
(T (W x00 x00 x00 x00 x00 x00 x00 x00)
(L (W x6a x84 xff xff x66 x26 xeb x43)) E)))))
(T (W x00 x00 x80 x3f x00 x00 x80 x3f)
(T (W x04 x00 x00 x00 x00 x00 x00 x00)
(T (W x00 x00 x00 x00 x00 x00 x00 x00)
(T (W x45 x26 x22 x84 xe4 x9c xf2 xcb)
(T (W x45 x26 x22 x84 xe4 x9c xf2 xcb)
(L (W xa4 xf0 x15 x44 x8f x42 xf3 x42))
(L (W x00 x00 x80 xbf x9c x00 x00 x00)))
(T (W x00 x00 x80 xbf x00 x00 x80 xbf)
(L (W x31 x31 x00 x00 x1b x00 x00 x00)) E))
(T (W x00 x00 x00 x00 x00 x00 x00 x00)
(T (W x40 x00 x00 x00 x38 x00 x00 x00)
(L (W xa4 x70 x7c x43 x00 x00 x00 x00))
(L (W x00 x00 x00 x00 x01 x00 x00 x00)))
(T (W x00 x00 x00 x00 x00 x00 x00 x00)
(L (W x42 x52 x45 x41 x4b x5f x41 x52)) E)))
(T (W x04 x00 x00 x00 xd8 xfc xfc xff)
(T (W x54 x00 x00 x00 x48 x00 x00 x00)
(T (W x55 x6c xfc xf1 x99 x9e xc9 x88)
(L (W x04 x00 x00 x00 x2a xc2 xfe xff))
(L (W x44 x00 x00 x00 x30 x00 x00 x00)))
(T (W x00 x00 x00 x00 x00 x00 x00 x00)
(L (W x45 x26 x22 x84 xe4 x9c xf2 xcb)) E))
(T (W x00 x00 x00 x00 x00 x00 x00 x00)
(T (W x44 x00 x00 x00 x30 x00 x00 x00)
(L (W x00 x00 x00 x00 xf0 xfc xfe xff))
(L (W x00 x00 x00 x00 x01 x00 x00 x00)))
(T (W x00 x00 x00 x00 x00 x00 x00 x00)
(L (W x00 x00 x00 x00 x00 x00 x00 x00)) E))))
(T (W x39 x4c x2b x97 x85 x99 x55 x5f)
(T (W x45 x26 x22 x84 xe4 x9c xf2 xcb)
(T (W xec x2c xfd xff x00 x00 x00 x00)
(T (W x00 x00 x00 x00 x00 x00 x00 x00)
(L (W xec xac xfe xff x00 x00 x00 x00))
(L (W x00 x00 x00 x00 x00 x00 x00 x00)))
(T (W xec x2c xfe xff x6e x2c xfe xff)
(L (W x55 x39 x81 x6a xc4 xc7 x74 x14)) E))
(T (W x54 x00 x00 x00 x48 x00 x00 x00)
(T (W x00 x00 x00 x00 x00 x00 x00 x00)
(L (W x00 x00 x00 x00 x00 x00 x00 x00))
(L (W x74 x00 x00 x00 x68 x00 x00 x00)))
(T (W x00 x00 x00 x00 x01 x00 x00 x00)
(L (W x28 x00 x00 x00 x14 x00 x00 x00)) E)))
(T (W x04 x00 x00 x00 x00 x00 x80 x3f)
(T (W xb3 x21 x46 x5d x56 x67 x40 x61)
(T (W x00 x00 x00 x00 xf0 xcc xfd xff)
(L (W x45 x26 x22 x84 xe4 x9c xf2 xcb))
(L (W x01 x00 x00 x00 x04 x00 x00 x00)))
(T (W x00 x00 x80 xbf x00 x00 x80 xbf)
(L (W x34 x00 x00 x00 x20 x00 x00 x00)) E))
(T (W x00 x00 x00 x00 x00 x00 x00 x00)
(T (W x45 x26 x22 x84 xe4 x9c xf2 xcb)
(L (W x16 xe1 x3f x77 x72 x9a xd3 x8d)) E)
(T (W x54 x00 x00 x00 x48 x00 x00 x00)
(L (W x04 x00 x00 x00 x2a x92 xff xff)) E)))))))
(T (W xe4 xaa x00 x00 x18 xa9 x00 x00)
(T (W x45 x26 x22 x84 xe4 x9c xf2 xcb)
(T (W x00 x00 x00 x00 x00 x00 x00 x00)
(T (W x5f x4f x55 x54 x42 x52 x45 x41)
(T (W xec xd2 xfc xff x00 x00 x00 x00)
(T (W x00 x00 x00 x00 x01 x00 x00 x00)
(T (W x55 x6c xfc xf1 x99 x9e xc9 x88)
(L (W x45 x26 x22 x84 xe4 x9c xf2 xcb))
(L (W x45 x26 x22 x84 xe4 x9c xf2 xcb)))
(T (W x00 x00 x00 x00 x01 x00 x00 x00)
(L (W x94 x15 xff xff x50 x00 x00 x00)) E))
(T (W x40 x00 x00 x00 x38 x00 x00 x00)
(T (W x45 x26 x22 x84 xe4 x9c xf2 xcb)
(L (W x44 x00 x00 x00 x38 x00 x00 x00))
(L (W x44 x00 x00 x00 x30 x00 x00 x00)))
(T (W x45 x26 x22 x84 xe4 x9c xf2 xcb)
(L (W x44 x00 x00 x00 x38 x00 x00 x00)) E)))
(T (W x01 x00 x00 x00 x04 x00 x00 x00)
(T (W x00 x00 x00 x00 xb2 x3a xfd xff)
(T (W x45 x26 x22 x84 xe4 x9c xf2 xcb)
(L (W x31 x39 x00 x00 x02 x00 x00 x00))
(L (W x40 x00 x00 x00 x38 x00 x00 x00)))
(T (W x1c x01 x00 x00 x01 x00 x00 x00)
(L (W x00 x00 x00 x00 x00 x00 x00 x00)) E))
(T (W xec x72 xfd xff x00 x00 x00 x00)
(T (W x45 x26 x22 x84 xe4 x9c xf2 xcb)
(L (W x00 x00 x00 x00 x00 x00 x00 x00))
(L (W x28 x01 x00 x00 x20 x01 x00 x00)))
(T (W x01 x00 x00 x00 x00 x00 x80 x3f)
(L (W x01 x00 x00 x00 x01 x00 x00 x00)) E))))
(T (W x45 x26 x22 x84 xe4 x9c xf2 xcb)
(T (W x00 x00 xe0 x40 x24 x01 x00 x00)
(T (W x00 x00 x00 x00 xf0 x22 xfd xff)
(T (W x01 x00 x00 x00 x04 x00 x00 x00)
(L (W x00 x00 x00 x00 x01 x00 x00 x00))
(L (W x45 x26 x22 x84 xe4 x9c xf2 xcb)))
(T (W x45 x26 x22 x84 xe4 x9c xf2 xcb)
(L (W x04 x00 x00 x00 x2a x28 xff xff)) E))
(T (W x00 x00 x80 x3f xf0 x62 xfd xff)
(T (W x00 x00 x00 x00 x00 x00 x00 x00)
(L (W x00 x00 x00 x00 x01 x00 x00 x00))
(L (W x00 x00 x00 x00 xf0 xe2 xff xff)))
(T (W x00 x00 x80 xbf x00 x00 x80 xbf)
(L (W x45 x26 x22 x84 xe4 x9c xf2 xcb)) E)))
(T (W x00 x00 x80 x3f xf0 x02 xfd xff)
(T (W x00 x00 x00 x00 x00 x00 x00 x00)
(T (W x00 x00 x00 x00 x00 x00 x00 x00)
(L (W x00 x00 x00 x00 x00 x00 x00 x00))
(L (W x00 x00 xa0 x40 x24 x01 x00 x00)))
(T (W x55 x6c xfc xf1 x99 x9e xc9 x88)
(L (W x00 x00 x00 x00 x00 x00 x00 x00)) E))
(T (W x45 x26 x22 x84 xe4 x9c xf2 xcb)
(T (W x01 x00 x00 x00 x00 x00 x80 x3f)
(L (W x00 x00 x00 x00 xf0 x02 xff xff)) E)
(T (W x6a x82 xfe xff x71 x9d x89 x43)
(L (W x55 x6c xfc xf1 x99 x9e xc9 x88)) E)))))
(T (W x49 xa1 x68 x4a xeb x5f xdd x3d)
(T (W xac x12 xf2 xb0 xe1 x62 x76 x26)
(T (W x6a xda xfc xff x1f xb5 x0e x44)
(T (W x00 x00 x00 x00 xf0 x1a xfd xff)
(T (W x1c x01 x00 x00 x01 x00 x00 x00)
(L (W x44 x00 x00 x00 x30 x00 x00 x00))
(L (W x00 x00 x00 x00 x00 x00 x00 x00)))
(T (W x00 x00 x40 x40 x24 x01 x00 x00)
(L (W xcd x8c xed x43 x00 x00 x00 x00)) E))
(T (W x2c x00 x00 x00 x20 x00 x00 x00)
(T (W x00 x00 x00 x00 x01 x00 x00 x00)
(L (W x45 x26 x22 x84 xe4 x9c xf2 xcb))
(L (W x00 x00 x00 x00 x01 x00 x00 x00)))
(T (W x45 x26 x22 x84 xe4 x9c xf2 xcb)
(L (W x00 x20 x1c x44 x00 x00 x00 x00)) E)))
(T (W x00 x00 x00 x00 xf0 xfa xfc xff)
(T (W x04 x00 x00 x00 x00 x00 x00 x00)
(T (W x00 x00 x00 x00 x01 x00 x00 x00)
(L (W x99 x7a x86 xf3 x1d xa1 x5a x95))
(L (W x00 x00 x00 x00 x00 x00 x00 x00)))
(T (W x94 x3d xfe xff x50 x00 x00 x00)
(L (W x04 x00 x00 x00 x00 x00 x00 x00)) E))
(T (W x6a x7a xfd xff x00 x00 x80 x3f)
(T (W x00 x00 x00 x00 xf0 xfa xfd xff)
(L (W x45 x26 x22 x84 xe4 x9c xf2 xcb))
(L (W x40 x00 x00 x00 x38 x00 x00 x00)))
(T (W x94 x7d xfe xff x50 x00 x00 x00)
(L (W x01 x00 x00 x00 x04 x00 x00 x00)) E))))
(T (W x00 x00 x00 x00 x00 x00 x00 x00)
(T (W x04 x00 x00 x00 x2a xf0 xfc xff)
(T (W x5f x4e x45 x57 x5f x4f x55 x54)
(T (W x45 x26 x22 x84 xe4 x9c xf2 xcb)
(L (W x45 x26 x22 x84 xe4 x9c xf2 xcb))
(L (W x45 x26 x22 x84 xe4 x9c xf2 xcb)))
(T (W x45 x26 x22 x84 xe4 x9c xf2 xcb)
(L (W xec x2a xff xff x00 x00 x00 x00)) E))
(T (W x04 x00 x00 x00 x00 x00 x00 x00)
(T (W x00 x00 x80 x3f x00 x00 x80 x3f)
(L (W x2c x00 x00 x00 x20 x00 x00 x00))
(L (W xec xea xff xff x00 x00 x00 x00)))
(T (W x00 x00 x00 x00 x00 x00 x00 x00)
(L (W x74 x00 x00 x00 x68 x00 x00 x00)) E)))
(T (W x3c x01 x00 x00 x30 x01 x00 x00)
(T (W x00 x00 x40 x40 x24 x01 x00 x00)
(T (W x45 x26 x22 x84 xe4 x9c xf2 xcb)
(L (W x1c x01 x00 x00 x01 x00 x00 x00))
(L (W x45 x26 x22 x84 xe4 x9c xf2 xcb)))
(T (W x00 x00 x40 x40 x24 x01 x00 x00)
(L (W x00 x00 x00 x00 xb2 x52 xff xff)) E))
(T (W x45 x26 x22 x84 xe4 x9c xf2 xcb)
(T (W x40 x00 x00 x00 x38 x00 x00 x00)
(L (W x00 x00 x80 xbf x00 x00 x80 xbf)) E)
(T (W xac x87 xa3 x28 x15 x7e xbf x26)
(L (W x34 x00 x00 x00 x20 x00 x00 x00)) E))))))
(T (W x44 x00 x00 x00 x38 x00 x00 x00)
(T (W x00 x00 x00 x00 x01 x00 x00 x00)
(T (W x1c x01 x00 x00 x04 x00 x00 x00)
(T (W x2c x00 x00 x00 x18 x00 x00 x00)
(T (W x45 x26 x22 x84 xe4 x9c xf2 xcb)
(T (W x57 x53 x59 x53 x5f x4d x41 x53)
(L (W x00 x00 x00 x00 xf0 x96 xfe xff))
(L (W x74 x00 x00 x00 x68 x00 x00 x00)))
(T (W xec x16 xfe xff x6e x16 xfe xff)
(L (W x04 x00 x00 x00 x10 x19 xff xff)) E))
(T (W x45 x26 x22 x84 xe4 x9c xf2 xcb)
(T (W x1c x01 x00 x00 x01 x00 x00 x00)
(L (W x00 x00 x00 x00 x00 x00 x00 x00))
(L (W x5f x4e x45 x57 x5f x4f x55 x54)))
(T (W x00 x00 x00 x00 x00 x00 x00 x00)
(L (W x74 x00 x00 x00 x68 x00 x00 x00)) E)))
(T (W x45 x26 x22 x84 xe4 x9c xf2 xcb)
(T (W x00 x00 x80 xbf x9c x00 x00 x00)
(T (W x01 x00 x00 x00 x04 x00 x00 x00)
(L (W x1b x00 x00 x00 x57 x53 x59 x53))
(L (W x00 x00 x00 x00 xf0 xb6 xff xff)))
(T (W x00 x00 x00 x00 x01 x00 x00 x00)
(L (W x00 x00 x80 xbf x00 x00 x80 xbf)) E))
(T (W x00 x00 x00 x00 x00 x00 x00 x00)
(T (W x2c x00 x00 x00 x20 x00 x00 x00)
(L (W xca xe1 xca xf8 x1d xde x70 x9e))
(L (W x54 x00 x00 x00 x48 x00 x00 x00)))
(T (W x45 x26 x22 x84 xe4 x9c xf2 xcb)
(L (W x00 x00 x00 x00 x01 x00 x00 x00)) E))))
(T (W x94 xc9 xfc xff x50 x00 x00 x00)
(T (W x66 x44 xb7 x4b xbc xac xfd xea)
(T (W x45 x26 x22 x84 xe4 x9c xf2 xcb)
(T (W x45 x26 x22 x84 xe4 x9c xf2 xcb)
(L (W x45 x26 x22 x84 xe4 x9c xf2 xcb))
(L (W x00 x00 x00 x00 x00 x00 x00 x00)))
(T (W x45 x26 x22 x84 xe4 x9c xf2 xcb)
(L (W x44 x00 x00 x00 x38 x00 x00 x00)) E))
(T (W x1c x01 x00 x00 x01 x00 x00 x00)
(T (W x60 x00 x00 x00 x54 x00 x00 x00)
(L (W x00 x00 x00 x00 xf0 xe6 xfe xff))
(L (W x00 x00 x00 x00 x00 x00 x00 x00)))
(T (W x45 x26 x22 x84 xe4 x9c xf2 xcb)
(L (W x45 x26 x22 x84 xe4 x9c xf2 xcb)) E)))
(T (W x02 x00 x00 x00 x31 x33 x00 x00)
(T (W x00 x00 x80 x3f x00 x00 x80 x3f)
(T (W x01 x00 x00 x00 x00 x00 x80 x3f)
(L (W x00 x00 x80 x3f x00 x00 x80 x3f))
(L (W x12 xaf x97 x16 x1e xc2 xd6 xd2)))
(T (W x00 x00 x00 x00 xb2 x4e xfe xff)
(L (W x55 x6c xfc xf1 x99 x9e xc9 x88)) E))
(T (W x00 x00 x00 x00 xf0 x86 xfd xff)
(T (W x45 x26 x22 x84 xe4 x9c xf2 xcb)
(L (W x85 xab xa4 x43 x00 x00 x00 x00)) E)
(T (W x00 x00 x00 x00 x00 x00 x00 x00)
(L (W x00 x00 x00 x00 x00 x00 x00 x00)) E)))))
(T (W x14 xee x35 x44 x00 x00 x00 x00)
(T (W x54 x00 x00 x00 x48 x00 x00 x00)
(T (W x1b x00 x00 x00 x57 x53 x59 x53)
(T (W xec x1e xfd xff x00 x00 x00 x00)
(T (W x45 x26 x22 x84 xe4 x9c xf2 xcb)
(L (W x3c x01 x00 x00 x30 x01 x00 x00))
(L (W x8d x11 x69 x32 x6b x3d xad x22)))
(T (W x04 x00 x00 x00 x00 x00 x00 x00)
(L (W x1c x01 x00 x00 x01 x00 x00 x00)) E))
(T (W x00 x00 x00 x00 x01 x00 x00 x00)
(T (W x45 x26 x22 x84 xe4 x9c xf2 xcb)
(L (W x54 x49 x4f x4e x5f x41 x52 x45))
(L (W x45 x26 x22 x84 xe4 x9c xf2 xcb)))
(T (W x00 x00 x00 x00 x00 x00 x00 x00)
(L (W x00 x00 x80 xbf x00 x00 x80 xbf)) E)))
(T (W x48 x00 x00 x00 x34 x00 x00 x00)
(T (W x45 x26 x22 x84 xe4 x9c xf2 xcb)
(T (W xec xbe xfd xff x6e xbe xfd xff)
(L (W x45 x26 x22 x84 xe4 x9c xf2 xcb))
(L (W x52 xb8 xa5 x43 x14 xae x40 x42)))
(T (W x00 x00 x00 x00 x00 x00 x00 x00)
(L (W x00 x00 x00 x00 xf0 x3e xff xff)) E))
(T (W x00 x00 x80 xbf x00 x00 x80 xbf)
(T (W x8f x32 x4f x44 x29 x5c x17 x42)
(L (W x45 x26 x22 x84 xe4 x9c xf2 xcb))
(L (W xb8 xa3 xa8 x69 x28 x5f x41 x54)))
(T (W x04 x00 x00 x00 x10 x81 xfe xff)
(L (W x00 x00 x00 x00 x00 x00 x00 x00)) E))))
(T (W x00 x00 x00 x00 x00 x00 x00 x00)
(T (W x45 x26 x22 x84 xe4 x9c xf2 xcb)
(T (W x2c x00 x00 x00 x18 x00 x00 x00)
(T (W x1c x01 x00 x00 x01 x00 x00 x00)
(L (W x78 x00 x00 x00 x6c x00 x00 x00))
(L (W x1c x01 x00 x00 x01 x00 x00 x00)))
(T (W x00 x00 x00 x00 x00 x00 x00 x00)
(L (W x00 x00 x80 x3f x00 x00 x80 x3f)) E))
(T (W x45 x26 x22 x84 xe4 x9c xf2 xcb)
(T (W x00 x00 x80 xbf x9c x00 x00 x00)
(L (W x60 x00 x00 x00 x54 x00 x00 x00))
(L (W x00 x00 x80 x3f x00 x00 x80 x3f)))
(T (W x45 x26 x22 x84 xe4 x9c xf2 xcb)
(L (W xb8 x1e x18 x42 x29 x4c x2f x44)) E)))
(T (W x34 x00 x00 x00 x20 x00 x00 x00)
(T (W x04 x00 x00 x00 x00 x00 x00 x00)
(T (W x45 x26 x22 x84 xe4 x9c xf2 xcb)
(L (W x45 x26 x22 x84 xe4 x9c xf2 xcb))
(L (W x00 x00 x00 x00 x00 x00 x00 x00)))
(T (W x04 x00 x00 x00 x00 x00 x00 x00)
(L (W x04 x00 x00 x00 x2a x54 xff xff)) E))
(T (W x00 x00 x00 x00 x00 x00 x00 x00)
(T (W x44 x00 x00 x00 x38 x00 x00 x00)
(L (W x40 x00 x00 x00 x38 x00 x00 x00)) E)
(T (W x45 x26 x22 x84 xe4 x9c xf2 xcb)
(L (W x45 x26 x22 x84 xe4 x9c xf2 xcb)) E))))))))
(T (W xac x0e x02 x00 xc0 x0c x02 x00)
(T (W xfc x21 x01 x00 x30 x20 x01 x00)
(T (W x8f x62 xe3 x43 x48 xe1 x6c x42)
(T (W x00 x00 xe0 x40 x24 x01 x00 x00)
(T (W x01 x00 x00 x00 x04 x00 x00 x00)
(T (W x34 x00 x00 x00 x20 x00 x00 x00)
(T (W x78 x00 x00 x00 x6c x00 x00 x00)
(T (W x54 x00 x00 x00 x48 x00 x00 x00)
(L (W x00 x00 x00 x00 xb2 x99 xfe xff))
(L (W x41 x30 x32 x00 xb2 x99 xff xff)))
(T (W xb7 x73 xee x13 x15 x5f xd3 x02)
(L (W x00 x00 x00 x00 x02 x00 x00 x00)) E))
(T (W x44 x00 x00 x00 x30 x00 x00 x00)
(T (W x04 x00 x00 x00 x2a xd7 xfd xff)
(L (W x32 x36 x00 x00 x1b x00 x00 x00))
(L (W x04 x00 x00 x00 x00 x00 x00 x00)))
(T (W x6a x51 xfe xff x8f x22 x4f x44)
(L (W x00 x00 x00 x00 x00 x00 x00 x00)) E)))
(T (W x00 x00 x00 x00 x00 x00 x00 x00)
(T (W x00 x00 x00 x00 xf0 x31 xfd xff)
(T (W x74 x00 x00 x00 x68 x00 x00 x00)
(L (W x00 x00 x00 x00 xf0 xb1 xfe xff))
(L (W x04 x00 x00 x00 x10 xb4 xff xff)))
(T (W x45 x26 x22 x84 xe4 x9c xf2 xcb)
(L (W xec x31 xff xff x00 x00 x00 x00)) E))
(T (W x00 x00 x00 x00 x00 x00 x00 x00)
(T (W x28 x00 x00 x00 x14 x00 x00 x00)
(L (W x00 x00 x00 x00 xf0 xf1 xfe xff))
(L (W x45 x26 x22 x84 xe4 x9c xf2 xcb)))
(T (W x2c x00 x00 x00 x20 x00 x00 x00)
(L (W x2c x00 x00 x00 x20 x00 x00 x00)) E))))
(T (W xec xc1 xfc xff x6e xc1 xfc xff)
(T (W x45 x26 x22 x84 xe4 x9c xf2 xcb)
(T (W x00 x00 x00 x00 x00 x00 x00 x00)
(T (W x00 x00 x00 x00 x00 x00 x00 x00)
(L (W x00 x00 x00 x00 x01 x00 x00 x00))
(L (W x44 x00 x00 x00 x30 x00 x00 x00)))
(T (W x55 x6c xfc xf1 x99 x9e xc9 x88)
(L (W xec x21 xff xff x00 x00 x00 x00)) E))
(T (W x45 x26 x22 x84 xe4 x9c xf2 xcb)
(T (W x3c x01 x00 x00 x30 x01 x00 x00)
(L (W x00 x00 x00 x00 xf0 xe1 xfe xff))
(L (W x33 x33 xad x43 x00 x00 x00 x00)))
(T (W x85 x8d xa7 x28 xbf x4e x53 x6a)
(L (W x48 x00 x00 x00 x34 x00 x00 x00)) E)))
(T (W x45 x26 x22 x84 xe4 x9c xf2 xcb)
(T (W x01 x00 x00 x00 x00 x00 x80 x3f)
(T (W xec xc1 xfd xff x00 x00 x00 x00)
(L (W x1c x01 x00 x00 x01 x00 x00 x00))
(L (W x94 xc4 xff xff x50 x00 x00 x00)))
(T (W x54 x00 x00 x00 x48 x00 x00 x00)
(L (W x00 x00 x80 xbf x00 x00 x80 xbf)) E))
(T (W x44 x00 x00 x00 x30 x00 x00 x00)
(T (W x00 x00 x00 x00 x00 x00 x00 x00)
(L (W x00 x00 x80 xbf x9c x00 x00 x00)) E)
(T (W x45 x26 x22 x84 xe4 x9c xf2 xcb)
(L (W x54 x00 x00 x00 x48 x00 x00 x00)) E)))))
(T (W x04 x00 x00 x00 x2a xaf xfc xff)
(T (W x00 x00 x00 x00 xf0 xb9 xfc xff)
(T (W x45 x26 x22 x84 xe4 x9c xf2 xcb)
(T (W x00 x00 x00 x00 x00 x00 x00 x00)
(T (W x45 x26 x22 x84 xe4 x9c xf2 xcb)
(L (W x04 x00 x00 x00 x00 x00 x00 x00))
(L (W xec x99 xff xff x00 x00 x00 x00)))
(T (W x94 x1c xfe xff x50 x00 x00 x00)
(L (W x45 x26 x22 x84 xe4 x9c xf2 xcb)) E))
(T (W x00 x00 x00 x00 x00 x00 x00 x00)
(T (W x78 x00 x00 x00 x6c x00 x00 x00)
(L (W x04 x00 x00 x00 x2a xdf xfe xff))
(L (W x00 x00 x00 x00 x00 x00 x00 x00)))
(T (W x04 x00 x00 x00 x2a x5f xfe xff)
(L (W x45 x26 x22 x84 xe4 x9c xf2 xcb)) E)))
(T (W x00 x00 x80 xbf x9c x00 x00 x00)
(T (W x04 x00 x00 x00 x10 x3c xfd xff)
(T (W x87 x01 x77 x1e x15 xb3 xff x14)
(L (W x00 x00 x00 x00 x00 x00 x00 x00))
(L (W x00 x00 x80 xbf x00 x00 x80 xbf)))
(T (W x1f x45 x27 x44 x00 x00 x00 x00)
(L (W x04 x00 x00 x00 xd8 x39 xff xff)) E))
(T (W x40 x00 x00 x00 x38 x00 x00 x00)
(T (W x00 x00 x80 xbf x9c x00 x00 x00)
(L (W x5c x00 x00 x00 x50 x00 x00 x00))
(L (W x00 x00 x00 x00 x6e xf9 xff xff)))
(T (W x0a x07 x49 x44 x00 x00 x00 x00)
(L (W x1f x85 x18 x42 xb8 x9e x41 x44)) E))))
(T (W x3c x01 x00 x00 x30 x01 x00 x00)
(T (W x60 x00 x00 x00 x54 x00 x00 x00)
(T (W x00 x00 x80 xbf x9c x00 x00 x00)
(T (W x04 x00 x00 x00 x2a xaf xfd xff)
(L (W x00 x00 x00 x00 xb2 xb1 xfe xff))
(L (W x54 x00 x00 x00 x48 x00 x00 x00)))
(T (W x04 x00 x00 x00 x2a x2f xfe xff)
(L (W x34 x00 x00 x00 x20 x00 x00 x00)) E))
(T (W x04 x00 x00 x00 x10 x6c xfd xff)
(T (W x45 x26 x22 x84 xe4 x9c xf2 xcb)
(L (W x5f x4e x45 x57 x5f x4f x55 x54))
(L (W x34 x00 x00 x00 x20 x00 x00 x00)))
(T (W x3c x01 x00 x00 x30 x01 x00 x00)
(L (W x45 x26 x22 x84 xe4 x9c xf2 xcb)) E)))
(T (W xee xbb x33 x97 x85 xa9 x5f x5f)
(T (W x94 x4c xfd xff x50 x00 x00 x00)
(T (W x5c x00 x00 x00 x50 x00 x00 x00)
(L (W x45 x26 x22 x84 xe4 x9c xf2 xcb))
(L (W x55 x6c xfc xf1 x99 x9e xc9 x88)))
(T (W x00 x00 x00 x00 x00 x00 x00 x00)
(L (W x00 x00 x00 x00 xf0 x49 xff xff)) E))
(T (W x45 x41 x30 x32 x5f x30 x30 x37)
(T (W x28 x00 x00 x00 x14 x00 x00 x00)
(L (W x75 x59 x48 xdc x00 x5e x59 x2f)) E)
(T (W x00 x00 x00 x00 x00 x00 x00 x00)
(L (W x45 x26 x22 x84 xe4 x9c xf2 xcb)) E))))))
(T (W x46 x53 x59 x53 x5f x4e x45 x57)
(T (W x50 xcf x86 x67 x2b xf7 xf0 x8e)
(T (W x45 x26 x22 x84 xe4 x9c xf2 xcb)
(T (W x00 x00 x00 x00 x01 x00 x00 x00)
(T (W x00 x00 x00 x00 x6e x15 xfd xff)
(T (W x00 x00 x00 x00 xf0 x95 xfd xff)
(L (W x00 x00 x80 xbf x9c x00 x00 x00))
(L (W x45 x26 x22 x84 xe4 x9c xf2 xcb)))
(T (W x45 x26 x22 x84 xe4 x9c xf2 xcb)
(L (W x52 xdc xfa xa3 x86 xb6 xed x1c)) E))
(T (W x6a x55 xfd xff x00 x00 x80 x3f)
(T (W x44 x00 x00 x00 x38 x00 x00 x00)
(L (W x28 x01 x00 x00 x20 x01 x00 x00))
(L (W x01 x00 x00 x00 x04 x00 x00 x00)))
(T (W x01 x00 x00 x00 x00 x00 x80 x3f)
(L (W x45 x26 x22 x84 xe4 x9c xf2 xcb)) E)))
(T (W xe2 xd9 xff xff x00 x00 x00 x01)
(T (W x00 x00 x00 x00 x00 x00 x00 x00)
(T (W x00 x00 x00 x00 x00 x00 x00 x00)
(L (W x40 x00 x00 x00 x34 x00 x00 x00))
(L (W x00 x00 x00 x00 x00 x00 x00 x00)))
(T (W x00 x00 x00 x00 xf0 x35 xfe xff)
(L (W x00 x00 x00 x00 x00 x00 x00 x00)) E))
(T (W x00 x00 x40 x40 x24 x01 x00 x00)
(T (W x5f x4f x55 x54 x42 x52 x45 x41)
(L (W x00 x00 x00 x00 x00 x00 x00 x00))
(L (W x00 x00 x00 x00 x01 x00 x00 x00)))
(T (W x74 x00 x00 x00 x68 x00 x00 x00)
(L (W x74 x00 x00 x00 x68 x00 x00 x00)) E))))
(T (W x00 x00 x00 x00 x1c x00 x00 x00)
(T (W x00 x00 x00 x00 x00 x00 x00 x00)
(T (W x47 x5f x31 x30 x30 x5f x53 x50)
(T (W x00 x00 x00 x00 xb2 xad xfd xff)
(L (W x00 x00 x80 x3f xf0 xa5 xfe xff))
(L (W x3c x01 x00 x00 x30 x01 x00 x00)))
(T (W x00 x00 x00 x00 xb2 x2d xfe xff)
(L (W x00 x00 x00 x00 x00 x00 x00 x00)) E))
(T (W x44 x00 x00 x00 x38 x00 x00 x00)
(T (W x00 x00 x00 x00 x01 x00 x00 x00)
(L (W x33 xb3 xc3 x42 x33 x73 x77 x43))
(L (W x3c x01 x00 x00 x30 x01 x00 x00)))
(T (W x44 x00 x00 x00 x30 x00 x00 x00)
(L (W x00 x00 x00 x00 x00 x00 x00 x00)) E)))
(T (W xec x05 xfd xff x00 x00 x00 x00)
(T (W x45 x26 x22 x84 xe4 x9c xf2 xcb)
(T (W x00 x00 x00 x00 x00 x00 x00 x00)
(L (W x45 x26 x22 x84 xe4 x9c xf2 xcb))
(L (W x00 x00 x00 x00 x00 x00 x00 x00)))
(T (W x00 x00 x00 x00 xf0 x45 xfe xff)
(L (W x54 x00 x00 x00 x48 x00 x00 x00)) E))
(T (W x00 x00 x00 x00 x00 x00 x00 x00)
(T (W xec x05 xfe xff x00 x00 x00 x00)
(L (W x45 x26 x22 x84 xe4 x9c xf2 xcb)) E)
(T (W x00 x00 x00 x00 xf0 x85 xfe xff)
(L (W x45 x26 x22 x84 xe4 x9c xf2 xcb)) E)))))
(T (W x45 x26 x22 x84 xe4 x9c xf2 xcb)
(T (W x44 x00 x00 x00 x30 x00 x00 x00)
(T (W x00 x00 x00 x00 xf0 xdd xfc xff)
(T (W x00 x00 x00 x00 x00 x00 x00 x00)
(T (W x74 x00 x00 x00 x68 x00 x00 x00)
(L (W x01 x00 x00 x00 x04 x00 x00 x00))
(L (W x00 x00 x00 x00 xf0 x9d xff xff)))
(T (W x00 x00 x00 x00 x00 x00 x00 x00)
(L (W x44 x00 x00 x00 x38 x00 x00 x00)) E))
(T (W x00 x00 x00 x00 x01 x00 x00 x00)
(T (W x00 x00 x00 x00 x6e xdd xfd xff)
(L (W x94 xe0 xfe xff x50 x00 x00 x00))
(L (W x60 x00 x00 x00 x54 x00 x00 x00)))
(T (W xec x5d xfe xff x00 x00 x00 x00)
(L (W xc1 xa8 xaa x28 xbf xd5 x56 x6a)) E)))
(T (W x04 x00 x00 x00 x00 x00 x00 x00)
(T (W x45 x26 x22 x84 xe4 x9c xf2 xcb)
(T (W x45 x26 x22 x84 xe4 x9c xf2 xcb)
(L (W x45 x26 x22 x84 xe4 x9c xf2 xcb))
(L (W x45 x26 x22 x84 xe4 x9c xf2 xcb)))
(T (W x00 x00 x80 xbf x00 x00 x80 xbf)
(L (W x66 xa6 xf0 x43 x66 x66 x34 x42)) E))
(T (W x9f x41 x45 xdc x00 xd9 x55 x2f)
(T (W x45 x26 x22 x84 xe4 x9c xf2 xcb)
(L (W x00 x00 x00 x00 xb2 x05 xff xff))
(L (W x0c x00 x10 x00 x14 x00 x18 x00)))
(T (W x58 x55 x6d xe8 x15 x4d x40 x77)
(L (W x01 x00 x00 x00 x00 x00 x80 x3f)) E))))
(T (W x3c x01 x00 x00 x30 x01 x00 x00)
(T (W x00 x00 x80 x3f x00 x00 x80 x3f)
(T (W x00 x00 x00 x00 x01 x00 x00 x00)
(T (W x44 x00 x00 x00 x38 x00 x00 x00)
(L (W x30 xd7 x1b x72 x9d x08 xa7 xbe))
(L (W x2c x00 x00 x00 x20 x00 x00 x00)))
(T (W x45 x26 x22 x84 xe4 x9c xf2 xcb)
(L (W x45 x26 x22 x84 xe4 x9c xf2 xcb)) E))
(T (W x55 x6c xfc xf1 x99 x9e xc9 x88)
(T (W x45 x26 x22 x84 xe4 x9c xf2 xcb)
(L (W x00 x00 x00 x00 x01 x00 x00 x00))
(L (W x45 x26 x22 x84 xe4 x9c xf2 xcb)))
(T (W x54 x00 x00 x00 x48 x00 x00 x00)
(L (W x45 x26 x22 x84 xe4 x9c xf2 xcb)) E)))
(T (W x00 x00 x00 x00 x00 x00 x00 x00)
(T (W x04 x00 x00 x00 xd8 x4d xfd xff)
(T (W x00 x00 x00 x00 xb2 xd5 xfd xff)
(L (W x74 x00 x00 x00 x68 x00 x00 x00))
(L (W x3c x01 x00 x00 x30 x01 x00 x00)))
(T (W x00 x00 x00 x00 x00 x00 x00 x00)
(L (W xec x4d xff xff x00 x00 x00 x00)) E))
(T (W x00 x00 x80 xbf x00 x00 x80 xbf)
(T (W x00 x00 x00 x00 x00 x00 x00 x00)
(L (W x04 x00 x00 x00 x10 x10 xff xff)) E)
(T (W x55 x6c xfc xf1 x99 x9e xc9 x88)
(L (W x45 x26 x22 x84 xe4 x9c xf2 xcb)) E)))))))
(T (W x10 x30 x00 x00 x24 x2e x00 x00)
(T (W x00 x00 x00 x00 x00 x00 x00 x00)
(T (W x00 x00 x80 xbf x00 x00 x80 xbf)
(T (W x2c x00 x00 x00 x20 x00 x00 x00)
(T (W x45 x26 x22 x84 xe4 x9c xf2 xcb)
(T (W x2c x00 x00 x00 x18 x00 x00 x00)
(T (W x45 x26 x22 x84 xe4 x9c xf2 xcb)
(L (W x1c x01 x00 x00 x01 x00 x00 x00))
(L (W x1c x01 x00 x00 x01 x00 x00 x00)))
(T (W x54 x00 x00 x00 x48 x00 x00 x00)
(L (W x00 x00 xa0 x40 x24 x01 x00 x00)) E))
(T (W x2c x00 x00 x00 x18 x00 x00 x00)
(T (W x45 x26 x22 x84 xe4 x9c xf2 xcb)
(L (W x45 x41 x30 x32 x5f x30 x32 x32))
(L (W x45 x26 x22 x84 xe4 x9c xf2 xcb)))
(T (W x00 x00 x00 x00 x00 x00 x00 x00)
(L (W x1c x01 x00 x00 x01 x00 x00 x00)) E)))
(T (W x5f x4d x41 x53 x53 x5f x47 x41)
(T (W x45 x26 x22 x84 xe4 x9c xf2 xcb)
(T (W x00 x00 x80 x3f x00 x00 x80 x3f)
(L (W x5c xb4 xfe xff x4c x00 x00 x00))
(L (W x6a xb3 xff xff x00 x00 x80 x3f)))
(T (W x00 x00 x00 x00 x00 x00 x00 x00)
(L (W x45 x26 x22 x84 xe4 x9c xf2 xcb)) E))
(T (W x00 x00 x00 x00 x00 x00 x00 x00)
(T (W x9a x99 x1a x42 x3d x8a x32 x44)
(L (W x90 x07 xb9 x28 xbf xc9 x67 x6a))
(L (W x00 x00 x00 x00 x00 x00 x00 x00)))
(T (W x00 x00 x00 x00 x00 x00 x00 x00)
(L (W x00 x00 x00 x00 x00 x00 x00 x00)) E))))
(T (W x00 x00 x00 x00 x00 x00 x00 x00)
(T (W x00 x00 x00 x00 x00 x00 x00 x00)
(T (W x00 x00 x00 x00 x00 x00 x00 x00)
(T (W x5f x4f x55 x54 x42 x52 x45 x41)
(L (W x5c x00 x00 x00 x50 x00 x00 x00))
(L (W xd7 xe3 x78 x43 x33 x33 x25 x42)))
(T (W xec x23 xfe xff x6e x23 xfe xff)
(L (W x45 x26 x22 x84 xe4 x9c xf2 xcb)) E))
(T (W x45 x26 x22 x84 xe4 x9c xf2 xcb)
(T (W x00 x00 x80 x3f x02 x00 x00 x00)
(L (W x28 x00 x00 x00 x14 x00 x00 x00))
(L (W x00 x00 x00 x00 x00 x00 x00 x00)))
(T (W x00 x00 x00 x00 x00 x00 x00 x00)
(L (W x00 x00 x80 x3f xf0 x63 xff xff)) E)))
(T (W x45 x26 x22 x84 xe4 x9c xf2 xcb)
(T (W x00 x00 x00 x00 x01 x00 x00 x00)
(T (W x94 xc6 xfd xff x50 x00 x00 x00)
(L (W x45 x26 x22 x84 xe4 x9c xf2 xcb))
(L (W x00 x00 x00 x00 x00 x00 x00 x00)))
(T (W x45 x26 x22 x84 xe4 x9c xf2 xcb)
(L (W x53 x17 x42 xe3 x48 x2d x25 x26)) E))
(T (W x6a x83 xfd xff x00 x80 xb1 x43)
(T (W x00 x00 x00 x00 x00 x00 x00 x00)
(L (W x00 x00 x00 x00 x01 x00 x00 x00)) E)
(T (W x45 x26 x22 x84 xe4 x9c xf2 xcb)
(L (W x45 x26 x22 x84 xe4 x9c xf2 xcb)) E)))))
(T (W x45 x26 x22 x84 xe4 x9c xf2 xcb)
(T (W x04 x00 x00 x00 x10 xbe xfc xff)
(T (W x45 x26 x22 x84 xe4 x9c xf2 xcb)
(T (W x57 x53 x59 x53 x5f x4d x41 x53)
(T (W x00 x00 x00 x00 x00 x00 x00 x00)
(L (W x45 x26 x22 x84 xe4 x9c xf2 xcb))
(L (W x45 x26 x22 x84 xe4 x9c xf2 xcb)))
(T (W x00 x00 x00 x00 x00 x00 x00 x00)
(L (W xec x1b xff xff x00 x00 x00 x00)) E))
(T (W x01 x00 x00 x00 x00 x00 x80 x3f)
(T (W x2c x00 x00 x00 x18 x00 x00 x00)
(L (W x45 x26 x22 x84 xe4 x9c xf2 xcb))
(L (W x60 x00 x00 x00 x54 x00 x00 x00)))
(T (W x45 x26 x22 x84 xe4 x9c xf2 xcb)
(L (W x94 x5e xff xff x50 x00 x00 x00)) E)))
(T (W x18 x26 x01 x68 xae xeb x0c x74)
(T (W x48 x00 x00 x00 x34 x00 x00 x00)
(T (W x54 x00 x00 x00 x48 x00 x00 x00)
(L (W x00 x00 x00 x00 x01 x00 x00 x00))
(L (W x04 x00 x00 x00 x00 x00 x00 x00)))
(T (W x00 x00 x80 x40 x24 x01 x00 x00)
(L (W x44 x00 x00 x00 x30 x00 x00 x00)) E))
(T (W x00 x00 x00 x00 xf0 x7b xfd xff)
(T (W x04 x00 x00 x00 x00 x00 x00 x00)
(L (W xec xfb xfe xff x6e xfb xfe xff))
(L (W x6a xfb xff xff x00 x00 x80 x3f)))
(T (W x00 x00 x80 x40 x24 x01 x00 x00)
(L (W x3c x01 x00 x00 x30 x01 x00 x00)) E))))
(T (W x00 x00 x00 x00 x28 x00 x2c x00)
(T (W xd6 x81 x9c x94 x9b x27 x57 x25)
(T (W x34 x00 x00 x00 x20 x00 x00 x00)
(T (W x45 x26 x22 x84 xe4 x9c xf2 xcb)
(L (W x34 x00 x00 x00 x20 x00 x00 x00))
(L (W x45 x26 x22 x84 xe4 x9c xf2 xcb)))
(T (W x45 x26 x22 x84 xe4 x9c xf2 xcb)
(L (W x04 x00 x00 x00 x2a x31 xff xff)) E))
(T (W x48 x00 x00 x00 x34 x00 x00 x00)
(T (W xec xeb xfd xff x00 x00 x00 x00)
(L (W x01 x00 x00 x00 x00 x00 x80 x3f))
(L (W x45 x26 x22 x84 xe4 x9c xf2 xcb)))
(T (W x2e x8b xba x31 x15 xd8 x38 x37)
(L (W x00 x00 x00 x00 x01 x00 x00 x00)) E)))
(T (W x00 x00 x00 x00 x00 x00 x00 x00)
(T (W x00 x00 x00 x00 x00 x00 x00 x00)
(T (W xec xcb xfd xff x6e xcb xfd xff)
(L (W x00 x00 x00 x00 x00 x00 x00 x00))
(L (W x33 xb3 x97 x43 x5c x8f x4d x42)))
(T (W x00 x00 x00 x00 x00 x00 x00 x00)
(L (W x45 x26 x22 x84 xe4 x9c xf2 xcb)) E))
(T (W x00 x00 x80 x40 x24 x01 x00 x00)
(T (W x00 x00 x00 x00 x6e x0b xfe xff)
(L (W x00 x00 x00 x00 x00 x00 x00 x00)) E)
(T (W x00 x00 x00 x00 x01 x00 x00 x00)
(L (W xec x8b xff xff x00 x00 x00 x00)) E))))))
(T (W x5f x30 x32 x33 x00 x00 x00 x00)
(T (W x00 x00 x00 x00 x01 x00 x00 x00)
(T (W x00 x00 x00 x00 x00 x00 x00 x00)
(T (W x40 x00 x00 x00 x38 x00 x00 x00)
(T (W x6a x17 xfd xff x3d xca x9f x43)
(T (W x2c x00 x00 x00 x20 x00 x00 x00)
(L (W x51 xfb x32 x64 xf8 x05 x94 x4a))
(L (W x45 x26 x22 x84 xe4 x9c xf2 xcb)))
(T (W x45 x26 x22 x84 xe4 x9c xf2 xcb)
(L (W x40 x00 x00 x00 x38 x00 x00 x00)) E))
(T (W x6a x57 xfd xff x33 x03 x0f x44)
(T (W x00 x00 x00 x00 x00 x00 x00 x00)
(L (W x1c x48 x81 xf3 x1d x2c x54 x95))
(L (W x2c x00 x00 x00 x20 x00 x00 x00)))
(T (W x00 x00 x00 x00 x01 x00 x00 x00)
(L (W x45 x26 x22 x84 xe4 x9c xf2 xcb)) E)))
(T (W x1c x01 x00 x00 x04 x00 x00 x00)
(T (W x00 x00 x00 x00 xf0 x37 xfd xff)
(T (W x3c x01 x00 x00 x30 x01 x00 x00)
(L (W x44 x00 x00 x00 x38 x00 x00 x00))
(L (W x00 x00 x00 x00 x00 x00 x00 x00)))
(T (W x28 x00 x00 x00 x14 x00 x00 x00)
(L (W x00 x00 x00 x00 x00 x00 x00 x00)) E))
(T (W xb0 x7f x76 x74 xf8 xb6 x99 x63)
(T (W x9a xfb xfd xff x40 x01 x00 x00)
(L (W x00 x00 x00 x00 x01 x00 x00 x00))
(L (W x45 x26 x22 x84 xe4 x9c xf2 xcb)))
(T (W x00 x00 x80 x3f x00 x00 x80 x3f)
(L (W x28 x00 x00 x00 x14 x00 x00 x00)) E))))
(T (W x4b x5f x41 x52 x45 x41 x30 x32)
(T (W x00 x00 x00 x00 x01 x00 x00 x00)
(T (W x03 x00 x00 x00 x00 x00 x80 x3f)
(T (W x34 x00 x00 x00 x20 x00 x00 x00)
(L (W x00 x00 x00 x00 x00 x00 x00 x00))
(L (W xce x2e x0c x0c x1e xff xa6 xc0)))
(T (W x34 x00 x00 x00 x20 x00 x00 x00)
(L (W x41 x30 x32 x00 xb2 x2f xff xff)) E))
(T (W x00 x00 x00 x00 x00 x00 x00 x00)
(T (W x04 x00 x00 x00 x2a xed xfd xff)
(L (W x00 x00 x00 x00 x00 x00 x00 x00))
(L (W x00 x00 x80 x3f x01 x00 x00 x00)))
(T (W x52 xd8 x58 x44 x33 xb3 xab x42)
(L (W x1c x01 x00 x00 x01 x00 x00 x00)) E)))
(T (W x94 x0a xfd xff x50 x00 x00 x00)
(T (W x45 x26 x22 x84 xe4 x9c xf2 xcb)
(T (W x00 x00 x00 x00 x00 x00 x00 x00)
(L (W xec xc7 xfe xff x00 x00 x00 x00))
(L (W x00 x00 x00 x00 x01 x00 x00 x00)))
(T (W x55 x6c xfc xf1 x99 x9e xc9 x88)
(L (W x45 x26 x22 x84 xe4 x9c xf2 xcb)) E))
(T (W x1c x00 x00 x00 x46 x53 x59 x53)
(T (W x78 x00 x00 x00 x6c x00 x00 x00)
(L (W x94 x0a xff xff x50 x00 x00 x00)) E)
(T (W x01 x00 x00 x00 x04 x00 x00 x00)
(L (W x00 x00 x00 x00 xf0 x87 xff xff)) E)))))
(T (W x00 x00 x00 x00 xf0 xaf xfc xff)
(T (W x4f x84 x6f x8b xe8 xcb x63 xb7)
(T (W x44 x00 x00 x00 x38 x00 x00 x00)
(T (W x00 x00 x00 x00 x00 x00 x00 x00)
(T (W x00 x00 x80 x3f x00 x00 x80 x3f)
(L (W x00 x00 x00 x00 x00 x00 x00 x00))
(L (W x04 x00 x00 x00 xd8 x9f xff xff)))
(T (W x48 x00 x00 x00 x34 x00 x00 x00)
(L (W x00 x00 x00 x00 x00 x00 x00 x00)) E))
(T (W x04 x00 x00 x00 x00 x00 x00 x00)
(T (W xec xf1 x2c x44 x9a x99 x14 x42)
(L (W x45 x26 x22 x84 xe4 x9c xf2 xcb))
(L (W x00 x00 x80 x3f x00 x00 x80 x3f)))
(T (W x94 x62 xfe xff x50 x00 x00 x00)
(L (W x00 x00 x00 x00 x00 x00 x00 x00)) E)))
(T (W x54 x00 x00 x00 x48 x00 x00 x00)
(T (W x00 x00 x00 x00 x00 x00 x00 x00)
(T (W x45 x26 x22 x84 xe4 x9c xf2 xcb)
(L (W x00 x00 x00 x00 x00 x00 x00 x00))
(L (W x00 x00 x00 x00 xf0 xbf xff xff)))
(T (W x0f x81 xfc x36 x15 xf2 x4b x40)
(L (W x00 x00 x00 x00 x00 x00 x00 x00)) E))
(T (W x00 x00 x00 x00 x00 x00 x00 x00)
(T (W x01 x00 x00 x00 x04 x00 x00 x00)
(L (W x1c x01 x00 x00 x01 x00 x00 x00))
(L (W x00 x00 x00 x00 x00 x00 x00 x00)))
(T (W x04 x00 x00 x00 x00 x00 x00 x00)
(L (W x00 x00 x00 x00 x01 x00 x00 x00)) E))))
(T (W x04 x00 x00 x00 x00 x00 x80 x3f)
(T (W x52 xb8 x40 x42 xae xd7 x05 x44)
(T (W x45 x26 x22 x84 xe4 x9c xf2 xcb)
(T (W x00 x00 x00 x00 x00 x00 x00 x00)
(L (W x40 x00 x00 x00 x38 x00 x00 x00))
(L (W x00 x00 x00 x00 x00 x00 x00 x00)))
(T (W x2c x00 x00 x00 x20 x00 x00 x00)
(L (W x45 x26 x22 x84 xe4 x9c xf2 xcb)) E))
(T (W x00 x00 x80 x3f xf0 x6f xfd xff)
(T (W x00 x00 x00 x00 xf0 xef xfd xff)
(L (W x45 x26 x22 x84 xe4 x9c xf2 xcb))
(L (W xec xef xff xff x00 x00 x00 x00)))
(T (W x45 x26 x22 x84 xe4 x9c xf2 xcb)
(L (W x00 x00 x00 x00 xf0 x6f xff xff)) E)))
(T (W xec x0f xfd xff x00 x00 x00 x00)
(T (W x48 x00 x00 x00 x34 x00 x00 x00)
(T (W x34 x00 x00 x00 x20 x00 x00 x00)
(L (W x00 x00 x80 x3f x00 x00 x80 x3f))
(L (W x00 x00 x80 xbf x00 x00 x80 xbf)))
(T (W x44 x00 x00 x00 x30 x00 x00 x00)
(L (W x45 x26 x22 x84 xe4 x9c xf2 xcb)) E))
(T (W x04 x00 x00 x00 x00 x00 x00 x00)
(T (W x00 x00 xa0 x40 x24 x01 x00 x00)
(L (W x6a x0f xff xff x00 x00 x80 x3f)) E)
(T (W xec x8f xfe xff x6e x8f xfe xff)
(L (W x00 x00 x00 x00 x00 x00 x00 x00)) E)))))))))
(T (W xa4 xbf x02 x00 xd8 xbd x02 x00)
(T (W xac x49 x02 x00 xdc x47 x02 x00)
(T (W xe4 x5c x01 x00 x18 x5b x01 x00)
(T (W x00 x00 x00 x00 x00 x00 x00 x00)
(T (W x4f x84 x6f x8b xe8 xcb x63 xb7)
(T (W x45 x26 x22 x84 xe4 x9c xf2 xcb)
(T (W xa4 x70 x17 x42 x1f x95 x61 x44)
(T (W x01 x00 x00 x00 x04 x00 x00 x00)
(T (W x45 x41 x30 x32 x5f x30 x30 x37)
(L (W x04 x00 x00 x00 x90 x93 xfe xff))
(L (W x44 x00 x00 x00 x30 x00 x00 x00)))
(T (W x00 x00 x80 x3f x70 x11 xfe xff)
(L (W x6c x11 xff xff x00 x00 x00 x00)) E))
(T (W x55 x39 x81 x6a xc4 xc7 x74 x14)
(T (W x00 x00 x00 x00 x00 x00 x00 x00)
(L (W x00 x00 x00 x00 x01 x00 x00 x00))
(L (W x00 x00 x00 x00 x00 x00 x00 x00)))
(T (W x00 x00 x00 x00 x00 x00 x00 x00)
(L (W x00 x00 x00 x00 x00 x00 x00 x00)) E)))
(T (W x6c xf1 xfc xff x00 x00 x00 x00)
(T (W x17 x28 xf8 x51 x9a xb7 xf5 x08)
(T (W x01 x00 x00 x00 x04 x00 x00 x00)
(L (W x34 x00 x00 x00 x20 x00 x00 x00))
(L (W x00 x00 x00 x00 x70 xb1 xff xff)))
(T (W x40 x00 x00 x00 x38 x00 x00 x00)
(L (W xdf x6b x89 xe8 x48 xd6 x3e x2f)) E))
(T (W x00 x00 x00 x00 x00 x00 x00 x00)
(T (W x2c x00 x00 x00 x20 x00 x00 x00)
(L (W x34 x00 x00 x00 x20 x00 x00 x00))
(L (W x54 x00 x00 x00 x48 x00 x00 x00)))
(T (W x00 x00 x00 x00 x01 x00 x00 x00)
(L (W x00 x00 x00 x00 x01 x00 x00 x00)) E))))
(T (W x00 x00 x00 x00 x00 x00 x00 x00)
(T (W x54 x00 x00 x00 x48 x00 x00 x00)
(T (W x6c x21 xfd xff x00 x00 x00 x00)
(T (W x6c xa1 xfd xff x00 x00 x00 x00)
(L (W x6c xa1 xfe xff x00 x00 x00 x00))
(L (W x44 x00 x00 x00 x38 x00 x00 x00)))
(T (W x45 x26 x22 x84 xe4 x9c xf2 xcb)
(L (W x00 x00 x00 x00 x70 x21 xff xff)) E))
(T (W x28 x01 x00 x00 x20 x01 x00 x00)
(T (W x74 x00 x00 x00 x68 x00 x00 x00)
(L (W x45 x26 x22 x84 xe4 x9c xf2 xcb))
(L (W x00 x00 x00 x00 x00 x00 x00 x00)))
(T (W x04 x00 x00 x00 xaa x66 xfe xff)
(L (W x44 x00 x00 x00 x38 x00 x00 x00)) E)))
(T (W x00 x00 xe0 x40 x24 x01 x00 x00)
(T (W x28 x00 x00 x00 x14 x00 x00 x00)
(T (W xbb xfa x76 x1e x15 xaf xff x14)
(L (W x44 x00 x00 x00 x30 x00 x00 x00))
(L (W x00 x00 x00 x00 x01 x00 x00 x00)))
(T (W x00 x00 x00 x00 x00 x00 x00 x00)
(L (W x45 x26 x22 x84 xe4 x9c xf2 xcb)) E))
(T (W x44 x00 x00 x00 x38 x00 x00 x00)
(T (W x45 x26 x22 x84 xe4 x9c xf2 xcb)
(L (W xea x00 xff xff xec xf1 x17 x44)) E)
(T (W x1c x01 x00 x00 x01 x00 x00 x00)
(L (W x54 x49 x4f x4e x5f x41 x52 x45)) E)))))
(T (W x4b x5f x41 x52 x45 x41 x30 x32)
(T (W x45 x26 x22 x84 xe4 x9c xf2 xcb)
(T (W x1c x01 x00 x00 x04 x00 x00 x00)
(T (W x00 x00 x00 x00 x70 x19 xfd xff)
(T (W x40 x00 x00 x00 x38 x00 x00 x00)
(L (W x1c x00 x00 x00 x46 x53 x59 x53))
(L (W x71 x6b x0e x0c x1e x03 xaa xc0)))
(T (W x00 x00 x00 x00 x01 x00 x00 x00)
(L (W x02 x00 x00 x00 x00 x00 x80 x3f)) E))
(T (W x00 x00 x00 x00 x70 x59 xfd xff)
(T (W x01 x00 x00 x00 x04 x00 x00 x00)
(L (W x00 x00 x00 x00 x00 x00 x00 x00))
(L (W x45 x26 x22 x84 xe4 x9c xf2 xcb)))
(T (W x42 x52 x45 x41 x4b x5f x41 x52)
(L (W x01 x00 x00 x00 x00 x00 x80 x3f)) E)))
(T (W xea xf8 xfc xff x3d x2a xc4 x43)
(T (W x00 x00 x00 x00 x70 x39 xfd xff)
(T (W x00 x00 x80 x3f x00 x00 x80 x3f)
(L (W x45 x26 x22 x84 xe4 x9c xf2 xcb))
(L (W x45 x26 x22 x84 xe4 x9c xf2 xcb)))
(T (W x00 x00 x00 x00 x00 x00 x00 x00)
(L (W x00 x00 x00 x00 x70 x39 xff xff)) E))
(T (W x00 x00 x00 x00 x32 x81 xfd xff)
(T (W x00 x00 x00 x00 xee xf8 xfd xff)
(L (W x14 xfc xfe xff x50 x00 x00 x00))
(L (W x45 x26 x22 x84 xe4 x9c xf2 xcb)))
(T (W x00 x00 x00 x00 x00 x00 x00 x00)
(L (W x00 x00 x00 x00 x00 x00 x00 x00)) E))))
(T (W x49 xa1 x68 x4a xeb x5f xdd x3d)
(T (W x14 xec xfc xff x50 x00 x00 x00)
(T (W x00 x00 x80 x3f x00 x00 x80 x3f)
(T (W x00 x00 x00 x00 x00 x00 x00 x00)
(L (W x04 x00 x00 x00 x90 xab xfe xff))
(L (W x00 x00 x00 x00 x00 x00 x00 x00)))
(T (W x00 x00 x00 x00 x00 x00 x00 x00)
(L (W xea x28 xff xff x00 x00 x80 x3f)) E))
(T (W x00 x00 x00 x00 x70 x69 xfd xff)
(T (W x3c x01 x00 x00 x30 x01 x00 x00)
(L (W x78 x00 x00 x00 x6c x00 x00 x00))
(L (W x00 xc0 x66 x44 x00 x00 x00 x00)))
(T (W x74 x00 x00 x00 x68 x00 x00 x00)
(L (W x66 xa6 xe7 x43 xcd xcc x18 x42)) E)))
(T (W x04 x00 x00 x00 xaa x0e xfd xff)
(T (W x00 x00 x00 x00 x01 x00 x00 x00)
(T (W x14 xcc xfd xff x50 x00 x00 x00)
(L (W x54 x00 x00 x00 x48 x00 x00 x00))
(L (W x45 x26 x22 x84 xe4 x9c xf2 xcb)))
(T (W x45 x26 x22 x84 xe4 x9c xf2 xcb)
(L (W x08 x2e xbf x99 xd5 x7a x12 x99)) E))
(T (W x48 x00 x00 x00 x34 x00 x00 x00)
(T (W x2c x00 x00 x00 x20 x00 x00 x00)
(L (W x04 x00 x00 x00 xaa x0e xff xff)) E)
(T (W x45 x26 x22 x84 xe4 x9c xf2 xcb)
(L (W x40 x00 x00 x00 x38 x00 x00 x00)) E))))))
(T (W x04 x00 x00 x00 x90 x9f xfc xff)
(T (W x00 x00 x00 x00 x00 x00 x00 x00)
(T (W x40 x00 x00 x00 x38 x00 x00 x00)
(T (W x5f x4d x41 x53 x53 x5f x47 x41)
(T (W x45 x26 x22 x84 xe4 x9c xf2 xcb)
(T (W xb0 x73 xdf x8d xb3 x4f x07 x6f)
(L (W xea x94 xfe xff x00 x20 x08 x44))
(L (W x9a xf9 x95 x43 x1f x85 x1d x42)))
(T (W x28 x01 x00 x00 x20 x01 x00 x00)
(L (W x6c x15 xff xff xee x14 xff xff)) E))
(T (W x45 x26 x22 x84 xe4 x9c xf2 xcb)
(T (W x04 x00 x00 x00 x00 x00 x00 x00)
(L (W x55 x6c xfc xf1 x99 x9e xc9 x88))
(L (W x45 x26 x22 x84 xe4 x9c xf2 xcb)))
(T (W x28 x00 x00 x00 x14 x00 x00 x00)
(L (W x5c x0f xf1 x43 x85 xeb x29 x42)) E)))
(T (W x2c x00 x00 x00 x18 x00 x00 x00)
(T (W x45 x26 x22 x84 xe4 x9c xf2 xcb)
(T (W x6c xb5 xfd xff x00 x00 x00 x00)
(L (W x04 x00 x00 x00 x00 x00 x00 x00))
(L (W x6c xb5 xff xff x00 x00 x00 x00)))
(T (W x45 x26 x22 x84 xe4 x9c xf2 xcb)
(L (W x45 x26 x22 x84 xe4 x9c xf2 xcb)) E))
(T (W x5c x00 x00 x00 x50 x00 x00 x00)
(T (W x74 x00 x00 x00 x68 x00 x00 x00)
(L (W x45 x26 x22 x84 xe4 x9c xf2 xcb))
(L (W x6c xf5 xff xff x00 x00 x00 x00)))
(T (W x01 x00 x00 x00 x04 x00 x00 x00)
(L (W x01 x00 x00 x00 x04 x00 x00 x00)) E))))
(T (W x00 x00 x00 x00 x01 x00 x00 x00)
(T (W x45 x26 x22 x84 xe4 x9c xf2 xcb)
(T (W x28 x00 x00 x00 x14 x00 x00 x00)
(T (W x2c x00 x00 x00 x18 x00 x00 x00)
(L (W x00 x00 x00 x00 x00 x00 x00 x00))
(L (W x74 x00 x00 x00 x68 x00 x00 x00)))
(T (W x04 x00 x00 x00 x90 x27 xfe xff)
(L (W x00 x00 x00 x00 x00 x00 x00 x00)) E))
(T (W x04 x00 x00 x00 x00 x00 x00 x00)
(T (W x00 xa0 x24 x44 x00 x00 x00 x00)
(L (W x00 x00 x00 x00 x00 x00 x00 x00))
(L (W x74 x00 x00 x00 x68 x00 x00 x00)))
(T (W x44 x00 x00 x00 x38 x00 x00 x00)
(L (W x00 x00 x00 x00 x01 x00 x00 x00)) E)))
(T (W x8f x0e xb5 x4b xbc xac xfa xea)
(T (W x34 x01 x00 x00 x00 x00 xa0 x40)
(T (W x45 x26 x22 x84 xe4 x9c xf2 xcb)
(L (W x3c x01 x00 x00 x30 x01 x00 x00))
(L (W x45 x26 x22 x84 xe4 x9c xf2 xcb)))
(T (W x81 x9e xd6 x60 x25 x74 x17 xb3)
(L (W x00 x00 x00 x00 x00 x00 x00 x00)) E))
(T (W x00 x00 x00 x00 x70 x85 xfd xff)
(T (W x00 x00 x00 x00 x70 x05 xfe xff)
(L (W x01 x00 x00 x00 x00 x00 x80 x3f)) E)
(T (W x01 xc7 x07 xd9 xd4 xc6 x4a xcf)
(L (W x00 x00 x80 xbf x9c x00 x00 x00)) E)))))
(T (W x04 x00 x00 x00 x00 x00 x80 x3f)
(T (W x44 x00 x00 x00 x38 x00 x00 x00)
(T (W xa0 x53 xb7 x93 xe0 xd4 xe8 x2f)
(T (W x00 x00 x00 x00 x70 x1d xfd xff)
(T (W x01 x00 x00 x00 x04 x00 x00 x00)
(L (W x45 x26 x22 x84 xe4 x9c xf2 xcb))
(L (W x45 x26 x22 x84 xe4 x9c xf2 xcb)))
(T (W x45 x26 x22 x84 xe4 x9c xf2 xcb)
(L (W x04 x00 x00 x00 x00 x00 x00 x00)) E))
(T (W x5c xbf x69 x44 x00 x00 x00 x00)
(T (W x45 x26 x22 x84 xe4 x9c xf2 xcb)
(L (W x00 x00 x00 x00 x01 x00 x00 x00))
(L (W x14 xe0 xff xff x50 x00 x00 x00)))
(T (W x89 x78 xbd x31 x15 x44 x3c x37)
(L (W x04 x00 x00 x00 xaa x62 xff xff)) E)))
(T (W x1b x00 x00 x00 x57 x53 x59 x53)
(T (W x45 x26 x22 x84 xe4 x9c xf2 xcb)
(T (W x00 x00 xa0 x40 x24 x01 x00 x00)
(L (W x62 x6a xff x4b x84 x9b x7b x61))
(L (W x1c x01 x00 x00 x01 x00 x00 x00)))
(T (W x00 x00 x80 x3f x70 x3d xfe xff)
(L (W x00 x00 x00 x00 x00 x00 x00 x00)) E))
(T (W x04 x00 x00 x00 xaa x82 xfd xff)
(T (W x1c x01 x00 x00 x01 x00 x00 x00)
(L (W x04 x00 x00 x00 x90 xff xfe xff))
(L (W x14 x00 x00 x00 x50 x00 x00 x00)))
(T (W x6c x7d xfe xff xee x7c xfe xff)
(L (W x00 x00 x80 x3f x00 x00 x80 x3f)) E))))
(T (W xd6 x81 x9c x94 x9b x27 x57 x25)
(T (W x00 x00 x00 x00 x00 x00 x00 x00)
(T (W x00 x00 x00 x00 x00 x00 x00 x00)
(T (W x04 x00 x00 x00 x00 x00 x00 x00)
(L (W x00 x00 x00 x00 x00 x00 x00 x00))
(L (W x00 x00 x00 x00 x01 x00 x00 x00)))
(T (W x00 x00 x80 xbf x9c x00 x00 x00)
(L (W x3c x01 x00 x00 x30 x01 x00 x00)) E))
(T (W x45 x26 x22 x84 xe4 x9c xf2 xcb)
(T (W x54 x00 x00 x00 x48 x00 x00 x00)
(L (W xf6 xe8 x97 x43 x00 x00 x00 x00))
(L (W x3c x01 x00 x00 x30 x01 x00 x00)))
(T (W x00 x00 x00 x00 x00 x00 x00 x00)
(L (W x01 x00 x00 x00 x00 x00 x80 x3f)) E)))
(T (W x45 x26 x22 x84 xe4 x9c xf2 xcb)
(T (W x00 x00 x00 x00 x70 x4d xfd xff)
(T (W x04 x00 x00 x00 x90 xcf xfd xff)
(L (W x01 x00 x00 x00 x04 x00 x00 x00))
(L (W x74 x00 x00 x00 x68 x00 x00 x00)))
(T (W x45 x26 x22 x84 xe4 x9c xf2 xcb)
(L (W x00 x00 x00 x00 x70 x4d xff xff)) E))
(T (W x00 x00 x80 x3f x70 x8d xfd xff)
(T (W x00 x00 x00 x00 x70 x0d xfe xff)
(L (W x00 x00 x00 x00 x70 x0d xff xff)) E)
(T (W x45 x26 x22 x84 xe4 x9c xf2 xcb)
(L (W xdc x9c xaa x28 xbf xce x56 x6a)) E)))))))
(T (W xc0 x6d x00 x00 xd4 x6b x00 x00)
(T (W x00 x00 x00 x00 x70 x9b xfc xff)
(T (W x6c xa3 xfc xff xee xa2 xfc xff)
(T (W x00 x00 x00 x00 x01 x00 x00 x00)
(T (W x00 x00 x00 x00 x00 x00 x00 x00)
(T (W x2c x00 x00 x00 x20 x00 x00 x00)
(T (W x00 x00 xa0 x40 x24 x01 x00 x00)
(L (W x00 x00 x00 x00 xee x92 xfe xff))
(L (W x00 x00 x00 x00 xee x92 xff xff)))
(T (W x00 x00 x00 x00 x00 x00 x00 x00)
(L (W x5c x00 x00 x00 x50 x00 x00 x00)) E))
(T (W x55 x6c xfc xf1 x99 x9e xc9 x88)
(T (W x00 x00 x80 xbf x00 x00 x80 xbf)
(L (W x48 x00 x00 x00 x34 x00 x00 x00))
(L (W x1c x01 x00 x00 x01 x00 x00 x00)))
(T (W x00 x00 x00 x00 x70 x53 xfe xff)
(L (W x44 x00 x00 x00 x30 x00 x00 x00)) E)))
(T (W x78 x00 x00 x00 x6c x00 x00 x00)
(T (W x40 x00 x00 x00 x38 x00 x00 x00)
(T (W x00 x00 x00 x00 x00 x00 x00 x00)
(L (W x00 x00 x00 x00 x01 x00 x00 x00))
(L (W x45 x26 x22 x84 xe4 x9c xf2 xcb)))
(T (W x45 x26 x22 x84 xe4 x9c xf2 xcb)
(L (W x54 x00 x00 x00 x48 x00 x00 x00)) E))
(T (W x00 x00 x00 x00 x01 x00 x00 x00)
(T (W x00 x00 x00 x00 x00 x00 x00 x00)
(L (W x04 x00 x00 x00 xaa xf8 xfe xff))
(L (W x45 x26 x22 x84 xe4 x9c xf2 xcb)))
(T (W x45 x26 x22 x84 xe4 x9c xf2 xcb)
(L (W x45 x26 x22 x84 xe4 x9c xf2 xcb)) E))))
(T (W x00 x00 x00 x00 x00 x00 x00 x00)
(T (W x45 x26 x22 x84 xe4 x9c xf2 xcb)
(T (W x6c x23 xfd xff x00 x00 x00 x00)
(T (W x74 x00 x00 x00 x68 x00 x00 x00)
(L (W x14 xa6 xfe xff x50 x00 x00 x00))
(L (W x00 x00 x00 x00 x00 x00 x00 x00)))
(T (W x00 x00 x00 x00 x00 x00 x00 x00)
(L (W xd2 x8b xa7 x28 xbf x4d x53 x6a)) E))
(T (W x00 x00 x80 xbf x00 x00 x80 xbf)
(T (W x00 x00 x80 x3f x00 x00 x80 x3f)
(L (W x2c x00 x00 x00 x20 x00 x00 x00))
(L (W x6c xe3 xff xff x00 x00 x00 x00)))
(T (W x45 x26 x22 x84 xe4 x9c xf2 xcb)
(L (W x00 x00 x00 x00 x00 x00 x00 x00)) E)))
(T (W x00 x00 x80 xbf x00 x00 x80 xbf)
(T (W x52 x18 x1d x44 x00 x00 x00 x00)
(T (W x00 x00 x00 x00 x01 x00 x00 x00)
(L (W x0a xb7 xe1 x43 x0a x57 xcc x42))
(L (W x45 x26 x22 x84 xe4 x9c xf2 xcb)))
(T (W x00 x00 x40 x40 x24 x01 x00 x00)
(L (W x00 x00 x00 x00 x00 x00 x00 x00)) E))
(T (W x00 x00 x00 x00 x00 x00 x00 x00)
(T (W x45 x26 x22 x84 xe4 x9c xf2 xcb)
(L (W x00 x00 x00 x00 x00 x00 x00 x00)) E)
(T (W x00 x00 x80 xbf x9c x00 x00 x00)
(L (W x1c x01 x00 x00 x01 x00 x00 x00)) E)))))
(T (W x3c x01 x00 x00 x30 x01 x00 x00)
(T (W x00 x00 x00 x00 x70 xbb xfc xff)
(T (W x00 x00 x80 xbf x9c x00 x00 x00)
(T (W x04 x00 x00 x00 x90 x1d xfd xff)
(T (W x45 x26 x22 x84 xe4 x9c xf2 xcb)
(L (W x1c x01 x00 x00 x01 x00 x00 x00))
(L (W x54 x00 x00 x00 x48 x00 x00 x00)))
(T (W x45 x26 x22 x84 xe4 x9c xf2 xcb)
(L (W x2c xcf x0c xfe x1d xf3 x83 xa7)) E))
(T (W x28 x00 x00 x00 x14 x00 x00 x00)
(T (W x2c x00 x00 x00 x20 x00 x00 x00)
(L (W x00 x00 x80 x3f x02 x00 x00 x00))
(L (W x14 xde xff xff x50 x00 x00 x00)))
(T (W x00 x00 x80 xbf x00 x00 x80 xbf)
(L (W x00 x00 x00 x00 x01 x00 x00 x00)) E)))
(T (W x00 x00 x00 x00 x00 x00 x00 x00)
(T (W x44 x00 x00 x00 x38 x00 x00 x00)
(T (W x00 x00 x00 x00 x00 x00 x00 x00)
(L (W x6c xbb xfe xff x00 x00 x00 x00))
(L (W x00 x00 x00 x00 x00 x00 x00 x00)))
(T (W x5c x00 x00 x00 x50 x00 x00 x00)
(L (W x44 x00 x00 x00 x38 x00 x00 x00)) E))
(T (W x34 x00 x00 x00 x20 x00 x00 x00)
(T (W x00 x00 x00 x00 x00 x00 x00 x00)
(L (W x00 x00 x00 x00 x00 x00 x00 x00))
(L (W x45 x26 x22 x84 xe4 x9c xf2 xcb)))
(T (W x5c x00 x00 x00 x50 x00 x00 x00)
(L (W x74 x00 x00 x00 x68 x00 x00 x00)) E))))
(T (W x00 x00 x80 x3f x00 x00 x80 x3f)
(T (W x33 x98 x30 x97 x85 x1d x5c x5f)
(T (W xea x2a xfd xff x00 xc0 xe3 x43)
(T (W x00 x00 x80 xbf x00 x00 x80 xbf)
(L (W xea xaa xfe xff x00 x00 x80 x3f))
(L (W x00 x00 x80 xbf x9c x00 x00 x00)))
(T (W x00 x00 x80 xbf x00 x00 x80 xbf)
(L (W x00 x00 x00 x00 x00 x00 x00 x00)) E))
(T (W x44 x00 x00 x00 x38 x00 x00 x00)
(T (W x4b xbc xf3 x13 x15 xe1 xd9 x02)
(L (W x28 x00 x00 x00 x14 x00 x00 x00))
(L (W x00 x00 x00 x00 x00 x00 x00 x00)))
(T (W x00 x00 x80 x3f x00 x00 x80 x3f)
(L (W x5f x4f x55 x54 x42 x52 x45 x41)) E)))
(T (W x45 x26 x22 x84 xe4 x9c xf2 xcb)
(T (W x45 x26 x22 x84 xe4 x9c xf2 xcb)
(T (W x00 x00 x00 x00 x00 x00 x00 x00)
(L (W x45 x26 x22 x84 xe4 x9c xf2 xcb))
(L (W x00 x00 x00 x00 x00 x00 x00 x00)))
(T (W x45 x26 x22 x84 xe4 x9c xf2 xcb)
(L (W x40 x00 x00 x00 x38 x00 x00 x00)) E))
(T (W x55 x6c xfc xf1 x99 x9e xc9 x88)
(T (W x45 x26 x22 x84 xe4 x9c xf2 xcb)
(L (W x45 x26 x22 x84 xe4 x9c xf2 xcb)) E)
(T (W x6c x8b xfe xff x00 x00 x00 x00)
(L (W x00 x00 x00 x00 x70 x8b xff xff)) E))))))
(T (W x44 x00 x00 x00 x30 x00 x00 x00)
(T (W x00 x00 x00 x00 x1c x00 x00 x00)
(T (W x45 x26 x22 x84 xe4 x9c xf2 xcb)
(T (W x62 xbb xff xff x00 x00 x00 x01)
(T (W x00 x00 x00 x00 x00 x00 x00 x00)
(T (W x00 x00 x00 x00 x01 x00 x00 x00)
(L (W x00 x00 x00 x00 x00 x00 x00 x00))
(L (W x3c x01 x00 x00 x30 x01 x00 x00)))
(T (W x00 x00 x80 xbf x00 x00 x80 xbf)
(L (W x00 x00 x00 x00 x32 x1f xff xff)) E))
(T (W x00 x00 x00 x00 x00 x00 x00 x00)
(T (W x45 x26 x22 x84 xe4 x9c xf2 xcb)
(L (W x00 x00 x80 x3f x70 xd7 xfe xff))
(L (W x00 x00 x00 x00 x01 x00 x00 x00)))
(T (W x48 x21 x2f x43 x00 x00 x00 x00)
(L (W x3c x01 x00 x00 x30 x01 x00 x00)) E)))
(T (W x00 x00 x00 x00 xee xf6 xfc xff)
(T (W x45 x26 x22 x84 xe4 x9c xf2 xcb)
(T (W x74 x00 x00 x00 x68 x00 x00 x00)
(L (W x04 x00 x00 x00 x00 x00 x00 x00))
(L (W x6c xb7 xff xff x00 x00 x00 x00)))
(T (W x2c x00 x00 x00 x20 x00 x00 x00)
(L (W x45 x26 x22 x84 xe4 x9c xf2 xcb)) E))
(T (W x6c x77 xfd xff xee x76 xfd xff)
(T (W x28 x00 x00 x00 x14 x00 x00 x00)
(L (W x6c xf7 xfe xff x00 x00 x00 x00))
(L (W x45 x26 x22 x84 xe4 x9c xf2 xcb)))
(T (W x00 x00 x00 x00 x00 x00 x00 x00)
(L (W x2c x00 x00 x00 x20 x00 x00 x00)) E))))
(T (W x5c x00 x00 x00 x50 x00 x00 x00)
(T (W x6c xe7 xfc xff x00 x00 x00 x00)
(T (W x4f x84 x6f x8b xe8 xcb x63 xb7)
(T (W xea xa6 xfd xff x00 x00 x80 x3f)
(L (W x00 x00 x00 x00 x00 x00 x00 x00))
(L (W x00 x00 x80 x3f x00 x00 x80 x3f)))
(T (W xea x26 xfe xff x00 x00 x80 x3f)
(L (W x44 x00 x00 x00 x30 x00 x00 x00)) E))
(T (W x45 x26 x22 x84 xe4 x9c xf2 xcb)
(T (W x42 x52 x45 x41 x4b x5f x41 x52)
(L (W x6c xe7 xfe xff x00 x00 x00 x00))
(L (W x00 x00 x80 x3f x00 x00 x80 x3f)))
(T (W x00 x00 x00 x00 x00 x00 x00 x00)
(L (W x55 x6c xfc xf1 x99 x9e xc9 x88)) E)))
(T (W x00 x00 x00 x00 x01 x00 x00 x00)
(T (W x01 x00 x00 x00 x00 x00 x80 x3f)
(T (W x45 x26 x22 x84 xe4 x9c xf2 xcb)
(L (W xa3 x8b x89 xf3 x1d x22 x5e x95))
(L (W x6c xc7 xff xff x00 x00 x00 x00)))
(T (W x40 x00 x00 x00 x38 x00 x00 x00)
(L (W x00 x00 x40 x40 x24 x01 x00 x00)) E))
(T (W x04 x00 x00 x00 x58 x87 xfd xff)
(T (W x01 x00 x00 x00 x04 x00 x00 x00)
(L (W x00 x00 x00 x00 x01 x00 x00 x00)) E)
(T (W x45 x26 x22 x84 xe4 x9c xf2 xcb)
(L (W xaa xa4 xe8 x6f x26 x8d x44 x7f)) E)))))
(T (W x34 x00 x00 x00 x20 x00 x00 x00)
(T (W x45 x26 x22 x84 xe4 x9c xf2 xcb)
(T (W x04 x00 x00 x00 x00 x00 x00 x00)
(T (W x00 x00 x00 x00 x01 x00 x00 x00)
(T (W x00 x00 x00 x00 x00 x00 x00 x00)
(L (W x45 x26 x22 x84 xe4 x9c xf2 xcb))
(L (W x00 x00 x00 x00 x70 x9f xff xff)))
(T (W x44 x00 x00 x00 x38 x00 x00 x00)
(L (W x45 x26 x22 x84 xe4 x9c xf2 xcb)) E))
(T (W x34 x30 x00 x00 x1b x00 x00 x00)
(T (W x00 x00 x00 x00 x00 x00 x00 x00)
(L (W x54 x00 x00 x00 x48 x00 x00 x00))
(L (W x00 x00 x00 x00 x00 x00 x00 x00)))
(T (W x00 x00 x00 x00 x01 x00 x00 x00)
(L (W x45 x26 x22 x84 xe4 x9c xf2 xcb)) E)))
(T (W x5f x41 x52 x45 x41 x30 x32 x00)
(T (W x00 x00 x00 x00 x70 x3f xfd xff)
(T (W x00 x00 x80 xbf x00 x00 x80 xbf)
(L (W x00 x00 x00 x00 x00 x00 x00 x00))
(L (W x34 x00 x00 x00 x20 x00 x00 x00)))
(T (W x00 x00 x00 x00 x00 x00 x00 x00)
(L (W x6c x3f xff xff x00 x00 x00 x00)) E))
(T (W x45 x26 x22 x84 xe4 x9c xf2 xcb)
(T (W x45 x26 x22 x84 xe4 x9c xf2 xcb)
(L (W x00 x00 x00 x00 xee xfe xfe xff))
(L (W x45 x26 x22 x84 xe4 x9c xf2 xcb)))
(T (W x46 x53 x59 x53 x5f x4e x45 x57)
(L (W x85 x9b x3c x44 x00 x00 x00 x00)) E))))
(T (W x00 x00 x80 x3f x00 x00 x80 x3f)
(T (W x00 x00 x00 x00 x00 x00 x00 x00)
(T (W x1c x01 x00 x00 x01 x00 x00 x00)
(T (W x45 x26 x22 x84 xe4 x9c xf2 xcb)
(L (W x1a xb3 xfe xff x40 x01 x00 x00))
(L (W x45 x26 x22 x84 xe4 x9c xf2 xcb)))
(T (W x00 x00 x00 x00 x01 x00 x00 x00)
(L (W x00 x00 x80 xbf x00 x00 x80 xbf)) E))
(T (W x00 x00 x00 x00 x00 x00 x00 x00)
(T (W x45 x26 x22 x84 xe4 x9c xf2 xcb)
(L (W x34 x01 x00 x00 x00 x00 xa0 x40))
(L (W x5e x6b x24 xdc xc2 x44 x8d xb0)))
(T (W x00 x00 x80 xbf x9c x00 x00 x00)
(L (W x34 x00 x00 x00 x20 x00 x00 x00)) E)))
(T (W x00 x00 x00 x00 x70 x0f xfd xff)
(T (W x44 x00 x00 x00 x38 x00 x00 x00)
(T (W xea xce xfd xff x00 x00 x80 x3f)
(L (W x00 x00 x00 x00 x00 x00 x00 x00))
(L (W x00 x00 x80 x3f x00 x00 x80 x3f)))
(T (W x44 x00 x00 x00 x38 x00 x00 x00)
(L (W x0e xa7 xaa x28 xbf xd4 x56 x6a)) E))
(T (W x00 x00 x00 x00 x00 x00 x00 x00)
(T (W x48 x00 x00 x00 x34 x00 x00 x00)
(L (W x45 x26 x22 x84 xe4 x9c xf2 xcb)) E)
(T (W x00 x00 x00 x00 x00 x00 x00 x00)
(L (W x00 x00 x00 x00 x00 x00 x00 x00)) E))))))))
(T (W xb4 xd3 x01 x00 xe8 xd1 x01 x00)
(T (W x94 xe6 x00 x00 xc8 xe4 x00 x00)
(T (W x00 x00 x80 xbf x9c x00 x00 x00)
(T (W x45 x26 x22 x84 xe4 x9c xf2 xcb)
(T (W x74 x00 x00 x00 x68 x00 x00 x00)
(T (W x00 x00 x00 x00 x70 xd2 xfc xff)
(T (W x5f x4d x41 x53 x53 x5f x47 x41)
(T (W x45 x26 x22 x84 xe4 x9c xf2 xcb)
(L (W x40 x00 x00 x00 x38 x00 x00 x00))
(L (W x40 x00 x00 x00 x38 x00 x00 x00)))
(T (W x6c x12 xfe xff x00 x00 x00 x00)
(L (W x00 x00 x00 x00 x01 x00 x00 x00)) E))
(T (W x41 x30 x32 x00 x32 x5a xfd xff)
(T (W x4b x26 x3c xdc x00 x64 x4b x2f)
(L (W x04 x00 x00 x00 x00 x00 x00 x00))
(L (W x44 x00 x00 x00 x38 x00 x00 x00)))
(T (W x00 x00 x80 xbf x9c x00 x00 x00)
(L (W x04 x00 x00 x00 x00 x00 x00 x00)) E)))
(T (W x45 x26 x22 x84 xe4 x9c xf2 xcb)
(T (W x04 x00 x00 x00 x90 x34 xfd xff)
(T (W x3c x01 x00 x00 x30 x01 x00 x00)
(L (W x6c xb2 xfe xff x00 x00 x00 x00))
(L (W x00 x00 x00 x00 x32 xba xff xff)))
(T (W x00 x00 x00 x00 xee x31 xfe xff)
(L (W x00 x00 x00 x00 x01 x00 x00 x00)) E))
(T (W x24 x90 x64 x23 x15 xda xaf x1d)
(T (W x01 x00 x00 x00 x00 x00 x80 x3f)
(L (W x6c xf2 xfe xff x00 x00 x00 x00))
(L (W x55 x6c xfc xf1 x99 x9e xc9 x88)))
(T (W x28 x00 x00 x00 x14 x00 x00 x00)
(L (W x2c x00 x00 x00 x18 x00 x00 x00)) E))))
(T (W x00 x00 x80 xbf x00 x00 x80 xbf)
(T (W x4f x84 x6f x8b xe8 xcb x63 xb7)
(T (W x34 x00 x00 x00 x20 x00 x00 x00)
(T (W x62 xe1 x1b x72 x9d x0e xa7 xbe)
(L (W x00 x00 x00 x00 x00 x00 x00 x00))
(L (W x1c x01 x00 x00 x02 x00 x00 x00)))
(T (W x00 x00 x40 x40 x24 x01 x00 x00)
(L (W x00 x00 x00 x00 x00 x00 x00 x00)) E))
(T (W x00 x00 x00 x00 x00 x00 x00 x00)
(T (W x45 x26 x22 x84 xe4 x9c xf2 xcb)
(L (W x00 x00 x00 x00 x00 x00 x00 x00))
(L (W x34 x00 x00 x00 x20 x00 x00 x00)))
(T (W x45 x26 x22 x84 xe4 x9c xf2 xcb)
(L (W x28 x01 x00 x00 x20 x01 x00 x00)) E)))
(T (W x00 x00 x00 x00 x00 x00 x00 x00)
(T (W x45 x26 x22 x84 xe4 x9c xf2 xcb)
(T (W x00 x00 x00 x00 x01 x00 x00 x00)
(L (W x45 x26 x22 x84 xe4 x9c xf2 xcb))
(L (W x5c x00 x00 x00 x50 x00 x00 x00)))
(T (W x45 x26 x22 x84 xe4 x9c xf2 xcb)
(L (W x45 x26 x22 x84 xe4 x9c xf2 xcb)) E))
(T (W x1c x01 x00 x00 x01 x00 x00 x00)
(T (W x00 x00 x80 x3f x00 x00 x80 x3f)
(L (W x45 x26 x22 x84 xe4 x9c xf2 xcb)) E)
(T (W x00 x00 x00 x00 x00 x00 x00 x00)
(L (W x45 x26 x22 x84 xe4 x9c xf2 xcb)) E)))))
(T (W x3f x7c x88 xaf x9a x1e x19 x7c)
(T (W x00 x00 x00 x00 x00 x00 x00 x00)
(T (W x00 x00 x00 x00 x00 x00 x00 x00)
(T (W xbe x7a xcb xa7 x28 x0a xec xa7)
(T (W x00 x00 x00 x00 xee x99 xfd xff)
(L (W x44 x00 x00 x00 x38 x00 x00 x00))
(L (W x00 x00 x00 x00 x01 x00 x00 x00)))
(T (W x5c x00 x00 x00 x50 x00 x00 x00)
(L (W x00 x00 x00 x00 x00 x00 x00 x00)) E))
(T (W x00 x00 x00 x00 x01 x00 x00 x00)
(T (W x5f x4e x45 x57 x5f x4f x55 x54)
(L (W x62 x6a xff x4b x84 x9b x7b x61))
(L (W x29 x1c xe9 x43 x00 x00 x00 x00)))
(T (W x0f x10 xb9 x28 xbf xce x67 x6a)
(L (W x00 x00 x00 x00 x00 x00 x00 x00)) E)))
(T (W x45 x26 x22 x84 xe4 x9c xf2 xcb)
(T (W x46 x53 x59 x53 x5f x4e x45 x57)
(T (W x6c xba xfd xff x00 x00 x00 x00)
(L (W x00 x00 x80 x3f x70 xba xfe xff))
(L (W x45 x26 x22 x84 xe4 x9c xf2 xcb)))
(T (W x00 x00 x00 x00 x01 x00 x00 x00)
(L (W x1c x00 x00 x00 x46 x53 x59 x53)) E))
(T (W x45 x26 x22 x84 xe4 x9c xf2 xcb)
(T (W x45 x26 x22 x84 xe4 x9c xf2 xcb)
(L (W x00 x00 xa0 x40 x24 x01 x00 x00))
(L (W x34 x01 x00 x00 x01 x00 x00 x00)))
(T (W x00 x00 x00 x00 x01 x00 x00 x00)
(L (W x96 xda x1b x72 x9d x0a xa7 xbe)) E))))
(T (W x45 x26 x22 x84 xe4 x9c xf2 xcb)
(T (W x4e x45 x52 x41 x54 x49 x4f x4e)
(T (W x45 x26 x22 x84 xe4 x9c xf2 xcb)
(T (W xb2 x4c xbb x28 xbf xd2 x6a x6a)
(L (W x40 x00 x00 x00 x38 x00 x00 x00))
(L (W x45 x26 x22 x84 xe4 x9c xf2 xcb)))
(T (W xed xfe xaf x28 xbf x5f x5d x6a)
(L (W x00 x00 x00 x00 x70 x2a xff xff)) E))
(T (W x46 x53 x59 x53 x5f x4e x45 x57)
(T (W x00 x00 x00 x00 x00 x00 x00 x00)
(L (W x00 x00 x00 x00 x01 x00 x00 x00))
(L (W x00 x00 x00 x00 x70 xea xff xff)))
(T (W x45 x26 x22 x84 xe4 x9c xf2 xcb)
(L (W x01 x00 x00 x00 x04 x00 x00 x00)) E)))
(T (W xd6 x81 x9c x94 x9b x27 x57 x25)
(T (W x5c x00 x00 x00 x50 x00 x00 x00)
(T (W x00 x00 xa0 x40 x24 x01 x00 x00)
(L (W x55 x6c xfc xf1 x99 x9e xc9 x88))
(L (W x1c x01 x00 x00 x01 x00 x00 x00)))
(T (W xd6 x81 x9c x94 x9b x27 x57 x25)
(L (W x04 x00 x00 x00 x90 x4c xff xff)) E))
(T (W x54 x00 x00 x00 x48 x00 x00 x00)
(T (W x0a x2e xfe xff x00 x00 x00 x01)
(L (W x45 x26 x22 x84 xe4 x9c xf2 xcb)) E)
(T (W x00 x00 x80 x3f x00 x00 x80 x3f)
(L (W xea x89 xff xff x00 x00 x80 x3f)) E))))))
(T (W x04 x00 x00 x00 x00 x00 x00 x00)
(T (W x6c xa6 xfc xff x00 x00 x00 x00)
(T (W xea xb5 xfc xff x00 x00 x80 x3f)
(T (W x2c x00 x00 x00 x20 x00 x00 x00)
(T (W x1c x01 x00 x00 x04 x00 x00 x00)
(T (W x04 x00 x00 x00 x90 x98 xfd xff)
(L (W x45 x26 x22 x84 xe4 x9c xf2 xcb))
(L (W x01 x00 x00 x00 x04 x00 x00 x00)))
(T (W x00 x00 x00 x00 x00 x00 x00 x00)
(L (W x00 x00 x00 x00 x70 x16 xff xff)) E))
(T (W x01 x00 x00 x00 x01 x00 x00 x00)
(T (W x44 x00 x00 x00 x30 x00 x00 x00)
(L (W x45 x26 x22 x84 xe4 x9c xf2 xcb))
(L (W x78 x00 x00 x00 x6c x00 x00 x00)))
(T (W x45 x26 x22 x84 xe4 x9c xf2 xcb)
(L (W x01 x00 x00 x00 x04 x00 x00 x00)) E)))
(T (W x40 x00 x00 x00 x38 x00 x00 x00)
(T (W x00 x80 x20 x43 x9a x99 x49 x42)
(T (W x45 x26 x22 x84 xe4 x9c xf2 xcb)
(L (W x04 x00 x00 x00 x58 xb6 xfe xff))
(L (W x34 x00 x00 x00 x20 x00 x00 x00)))
(T (W x00 x00 x00 x00 x00 x00 x00 x00)
(L (W x00 x00 x80 x3f x70 x36 xff xff)) E))
(T (W x45 x26 x22 x84 xe4 x9c xf2 xcb)
(T (W x00 x00 x00 x00 x01 x00 x00 x00)
(L (W x00 x00 x00 x00 x00 x00 x00 x00))
(L (W x00 x00 x00 x00 x00 x00 x00 x00)))
(T (W x3c x01 x00 x00 x30 x01 x00 x00)
(L (W x5f x4f x55 x54 x42 x52 x45 x41)) E))))
(T (W x00 x00 x00 x00 x01 x00 x00 x00)
(T (W x00 x00 x00 x00 x00 x00 x00 x00)
(T (W x54 x00 x00 x00 x48 x00 x00 x00)
(T (W x40 x00 x00 x00 x38 x00 x00 x00)
(L (W x00 x00 x80 xbf x00 x00 x80 xbf))
(L (W x45 x26 x22 x84 xe4 x9c xf2 xcb)))
(T (W x40 x00 x00 x00 x38 x00 x00 x00)
(L (W x04 x00 x00 x00 x00 x00 x00 x00)) E))
(T (W x44 x00 x00 x00 x30 x00 x00 x00)
(T (W x14 xe9 xfd xff x50 x00 x00 x00)
(L (W x34 x00 x00 x00 x20 x00 x00 x00))
(L (W x45 x26 x22 x84 xe4 x9c xf2 xcb)))
(T (W x1c x01 x00 x00 x01 x00 x00 x00)
(L (W x54 x00 x00 x00 x48 x00 x00 x00)) E)))
(T (W x00 x00 x00 x00 x01 x00 x00 x00)
(T (W x00 x00 x00 x00 x00 x00 x00 x00)
(T (W x00 x00 x80 x3f x00 x00 x80 x3f)
(L (W x00 x00 x00 x00 x00 x00 x00 x00))
(L (W x00 x00 x00 x00 x00 x00 x00 x00)))
(T (W x04 x00 x00 x00 x90 x48 xfe xff)
(L (W x45 x26 x22 x84 xe4 x9c xf2 xcb)) E))
(T (W x9b x2c x0d xa8 x81 x52 x20 x3b)
(T (W x00 x00 x00 x00 x00 x00 x00 x00)
(L (W x00 x00 x00 x00 x00 x00 x00 x00)) E)
(T (W x00 x00 x00 x00 x70 x86 xfe xff)
(L (W x00 x00 x00 x00 x70 x86 xff xff)) E)))))
(T (W x00 x00 x00 x00 x00 x00 x00 x00)
(T (W x5f x30 x30 x37 x00 x00 x00 x00)
(T (W x04 x00 x00 x00 x58 xde xfc xff)
(T (W x3a xb7 x11 x56 x29 xec xda x8c)
(T (W x3c x01 x00 x00 x30 x01 x00 x00)
(L (W x74 x00 x00 x00 x68 x00 x00 x00))
(L (W x00 x00 x00 x00 x00 x00 x00 x00)))
(T (W x00 x00 x00 x00 x00 x00 x00 x00)
(L (W x44 x00 x00 x00 x30 x00 x00 x00)) E))
(T (W xdc x5e xfd xff x4c x00 x00 x00)
(T (W x1c x01 x00 x00 x01 x00 x00 x00)
(L (W x5c x00 x00 x00 x50 x00 x00 x00))
(L (W x34 x01 x00 x00 x00 x00 xc0 x40)))
(T (W x00 x00 x00 x00 x01 x00 x00 x00)
(L (W x45 x26 x22 x84 xe4 x9c xf2 xcb)) E)))
(T (W x44 x00 x00 x00 x38 x00 x00 x00)
(T (W x00 x00 x80 xbf x9c x00 x00 x00)
(T (W x00 x00 x00 x00 x00 x00 x00 x00)
(L (W x00 x00 x80 xbf x00 x00 x80 xbf))
(L (W x00 x00 x00 x00 x00 x00 x00 x00)))
(T (W x45 x26 x22 x84 xe4 x9c xf2 xcb)
(L (W x34 x00 x00 x00 x20 x00 x00 x00)) E))
(T (W x45 x26 x22 x84 xe4 x9c xf2 xcb)
(T (W x00 x00 x00 x00 x00 x00 x00 x00)
(L (W x40 x00 x00 x00 x38 x00 x00 x00))
(L (W x00 x00 x00 x00 x00 x00 x00 x00)))
(T (W x00 x00 x00 x00 x70 x7e xfe xff)
(L (W x45 x26 x22 x84 xe4 x9c xf2 xcb)) E))))
(T (W x45 x26 x22 x84 xe4 x9c xf2 xcb)
(T (W x04 x00 x00 x00 x00 x00 x80 x3f)
(T (W x2c x00 x00 x00 x20 x00 x00 x00)
(T (W x44 x00 x00 x00 x30 x00 x00 x00)
(L (W x01 x00 x00 x00 x04 x00 x00 x00))
(L (W x2c x00 x00 x00 x18 x00 x00 x00)))
(T (W x00 x00 x00 x00 x70 x2e xfe xff)
(L (W x00 x00 x00 x00 x00 x00 x00 x00)) E))
(T (W x00 x00 x40 x40 x24 x01 x00 x00)
(T (W x45 x26 x22 x84 xe4 x9c xf2 xcb)
(L (W x14 xf1 xfe xff x50 x00 x00 x00))
(L (W x00 x00 x00 x00 x00 x00 x00 x00)))
(T (W x45 x26 x22 x84 xe4 x9c xf2 xcb)
(L (W x00 x00 x00 x00 x00 x00 x00 x00)) E)))
(T (W x00 x00 x6e x42 x48 x21 xf4 x43)
(T (W x1c x00 x00 x00 x46 x53 x59 x53)
(T (W x40 x00 x00 x00 x38 x00 x00 x00)
(L (W x3c x01 x00 x00 x30 x01 x00 x00))
(L (W x45 x26 x22 x84 xe4 x9c xf2 xcb)))
(T (W x00 x00 x00 x00 x00 x00 x00 x00)
(L (W x00 x00 x00 x00 x00 x00 x00 x00)) E))
(T (W x45 x26 x22 x84 xe4 x9c xf2 xcb)
(T (W x04 x00 x00 x00 x00 x00 x00 x00)
(L (W x00 x00 x00 x00 x32 x16 xff xff)) E)
(T (W x00 x00 xa0 x40 x24 x01 x00 x00)
(L (W x00 x00 x80 xbf x00 x00 x80 xbf)) E)))))))
(T (W x1c x01 x00 x00 x04 x00 x00 x00)
(T (W xa4 x58 x4e x09 xf3 xe6 x1f x9f)
(T (W x45 x26 x22 x84 xe4 x9c xf2 xcb)
(T (W x28 x00 x00 x00 x14 x00 x00 x00)
(T (W x01 x00 x00 x00 x04 x00 x00 x00)
(T (W x62 xf8 xff xff x00 x00 x00 x01)
(T (W x00 x00 x00 x00 x00 x00 x00 x00)
(L (W x45 x26 x22 x84 xe4 x9c xf2 xcb))
(L (W x45 x26 x22 x84 xe4 x9c xf2 xcb)))
(T (W x45 x26 x22 x84 xe4 x9c xf2 xcb)
(L (W x45 x26 x22 x84 xe4 x9c xf2 xcb)) E))
(T (W x1a x58 xfd xff x40 x01 x00 x00)
(T (W x00 x00 x00 x00 x00 x00 x00 x00)
(L (W x54 x00 x00 x00 x48 x00 x00 x00))
(L (W x00 x00 x00 x00 x00 x00 x00 x00)))
(T (W x00 x00 x00 x00 x01 x00 x00 x00)
(L (W x45 x26 x22 x84 xe4 x9c xf2 xcb)) E)))
(T (W x00 x00 x00 x00 x01 x00 x00 x00)
(T (W x00 x00 x00 x00 xee x33 xfd xff)
(T (W x34 x00 x00 x00 x20 x00 x00 x00)
(L (W x00 x00 x00 x00 x01 x00 x00 x00))
(L (W x34 x00 x00 x00 x20 x00 x00 x00)))
(T (W xea x33 xfe xff x00 xf0 x55 x44)
(L (W x55 x6c xfc xf1 x99 x9e xc9 x88)) E))
(T (W x00 x00 x00 x00 x01 x00 x00 x00)
(T (W xaf xdf x1b x72 x9d x0d xa7 xbe)
(L (W x45 x26 x22 x84 xe4 x9c xf2 xcb))
(L (W x00 x00 x80 x3f x70 xf4 xff xff)))
(T (W xc3 xf5 x17 x42 xcd x0c x46 x44)
(L (W x33 xb3 x04 x44 x66 x66 x16 x42)) E))))
(T (W x5f xc3 x83 x67 x2b x79 xed x8e)
(T (W x00 x00 x80 x3f x70 xe4 xfc xff)
(T (W x00 x00 x00 x00 x01 x00 x00 x00)
(T (W x00 x00 x00 x00 x01 x00 x00 x00)
(L (W x00 x00 xa0 x40 x24 x01 x00 x00))
(L (W x45 x26 x22 x84 xe4 x9c xf2 xcb)))
(T (W x69 x23 xb5 x24 xc9 x71 x89 x8b)
(L (W x00 x00 x80 xbf x00 x00 x80 xbf)) E))
(T (W x00 x00 x00 x00 x00 x00 x00 x00)
(T (W x45 x26 x22 x84 xe4 x9c xf2 xcb)
(L (W x01 x00 x00 x00 x00 x00 x80 x3f))
(L (W x45 x26 x22 x84 xe4 x9c xf2 xcb)))
(T (W x00 x00 x00 x00 x00 x00 x00 x00)
(L (W xf8 x56 x36 x08 x1e x48 x40 xb9)) E)))
(T (W x00 x00 x00 x00 x00 x00 x00 x00)
(T (W x14 x47 xfd xff x50 x00 x00 x00)
(T (W x60 x00 x00 x00 x54 x00 x00 x00)
(L (W x01 x00 x00 x00 x04 x00 x00 x00))
(L (W x00 x00 x80 x3f x70 xc4 xff xff)))
(T (W x00 x00 x00 x00 x00 x00 x00 x00)
(L (W x6c x44 xff xff x00 x00 x00 x00)) E))
(T (W x00 x00 x80 xbf x9c x00 x00 x00)
(T (W x8f xc2 x09 x42 x85 xeb x50 x44)
(L (W x2c x00 x00 x00 x20 x00 x00 x00)) E)
(T (W x00 x00 x00 x00 x70 x84 xfe xff)
(L (W x00 x00 x00 x00 x00 x00 x00 x00)) E)))))
(T (W x00 x00 x00 x00 x00 x00 x00 x00)
(T (W x46 x53 x59 x53 x5f x4e x45 x57)
(T (W x00 x00 x00 x00 x70 xdc xfc xff)
(T (W x00 x00 x80 xbf x9c x00 x00 x00)
(T (W xcd x0c x82 x43 xc3 xf5 x25 x42)
(L (W x00 x00 x00 x00 x00 x00 x00 x00))
(L (W x45 x26 x22 x84 xe4 x9c xf2 xcb)))
(T (W x00 x00 x80 x3f x70 x1c xfe xff)
(L (W x00 x00 x00 x00 x01 x00 x00 x00)) E))
(T (W x45 x26 x22 x84 xe4 x9c xf2 xcb)
(T (W x00 x00 x00 x00 x32 xe4 xfd xff)
(L (W x00 x00 x00 x00 x00 x00 x00 x00))
(L (W x0c x00 x10 x00 x14 x00 x18 x00)))
(T (W x00 x00 x00 x00 x00 x00 x00 x00)
(L (W x60 x00 x00 x00 x54 x00 x00 x00)) E)))
(T (W x00 x00 x00 x00 x70 xfc xfc xff)
(T (W x45 x41 x30 x32 x5f x30 x30 x33)
(T (W x45 x26 x22 x84 xe4 x9c xf2 xcb)
(L (W x00 x00 x00 x00 x00 x00 x00 x00))
(L (W x44 x00 x00 x00 x38 x00 x00 x00)))
(T (W x45 x26 x22 x84 xe4 x9c xf2 xcb)
(L (W x1c x01 x00 x00 x01 x00 x00 x00)) E))
(T (W x6c x7c xfd xff x00 x00 x00 x00)
(T (W x44 x00 x00 x00 x38 x00 x00 x00)
(L (W x8a x80 x9d x96 xfb x43 xfe x06))
(L (W x00 x00 x00 x00 x50 x00 x20 x00)))
(T (W x45 x26 x22 x84 xe4 x9c xf2 xcb)
(L (W x45 x26 x22 x84 xe4 x9c xf2 xcb)) E))))
(T (W x04 x00 x00 x00 xaa xd1 xfc xff)
(T (W x3c x01 x00 x00 x30 x01 x00 x00)
(T (W x00 x00 x00 x00 x70 x2c xfd xff)
(T (W x00 x00 x00 x00 x00 x00 x00 x00)
(L (W x00 x00 x00 x00 x70 xac xfe xff))
(L (W x00 x00 x00 x00 x70 xac xff xff)))
(T (W x1c x00 x00 x00 x46 x53 x59 x53)
(L (W x05 x45 x45 xdc x00 xdb x55 x2f)) E))
(T (W x45 x41 x30 x32 x5f x30 x30 x38)
(T (W x00 x00 x00 x00 x01 x00 x00 x00)
(L (W x45 x26 x22 x84 xe4 x9c xf2 xcb))
(L (W x01 x00 x00 x00 x04 x00 x00 x00)))
(T (W x6c x6c xfe xff x00 x00 x00 x00)
(L (W x2c x00 x00 x00 x20 x00 x00 x00)) E)))
(T (W x00 x00 x80 x3f x00 x00 x80 x3f)
(T (W x6c x4c xfd xff xee x4b xfd xff)
(T (W x9c xbf x7f xff xe6 x2c xf1 xd7)
(L (W xf6 x08 xb5 x43 x7b x14 xc4 x42))
(L (W x45 x26 x22 x84 xe4 x9c xf2 xcb)))
(T (W x00 x00 x80 x3f x70 x4c xfe xff)
(L (W xea x4b xff xff x00 x00 x80 x3f)) E))
(T (W x45 x26 x22 x84 xe4 x9c xf2 xcb)
(T (W x00 x00 x80 xbf x9c x00 x00 x00)
(L (W x00 x00 x00 x00 x00 x00 x00 x00)) E)
(T (W x00 x00 x00 x00 x00 x00 x00 x00)
(L (W x00 x00 x00 x00 x00 x00 x00 x00)) E))))))
(T (W x54 x00 x00 x00 x48 x00 x00 x00)
(T (W x14 xab xfc xff x50 x00 x00 x00)
(T (W x85 x6b x2e x44 x33 x33 x14 x42)
(T (W x45 x26 x22 x84 xe4 x9c xf2 xcb)
(T (W x00 x00 x80 xbf x9c x00 x00 x00)
(T (W x2c x00 x00 x00 x18 x00 x00 x00)
(L (W x00 x00 x00 x00 x70 x98 xfe xff))
(L (W x00 x00 x00 x00 x00 x00 x00 x00)))
(T (W x00 x00 x00 x00 x00 x00 x00 x00)
(L (W x45 x26 x22 x84 xe4 x9c xf2 xcb)) E))
(T (W x00 x00 x80 xbf x9c x00 x00 x00)
(T (W xae x77 x26 x44 x52 xb8 x45 x42)
(L (W x6c xd8 xfe xff x00 x00 x00 x00))
(L (W x28 x00 x00 x00 x14 x00 x00 x00)))
(T (W x14 x5b xfe xff x50 x00 x00 x00)
(L (W x00 x00 x00 x00 x00 x00 x00 x00)) E)))
(T (W x45 x26 x22 x84 xe4 x9c xf2 xcb)
(T (W x00 x00 x00 x00 x00 x00 x00 x00)
(T (W x45 x26 x22 x84 xe4 x9c xf2 xcb)
(L (W x48 x00 x00 x00 x34 x00 x00 x00))
(L (W x04 x00 x00 x00 xaa xbd xff xff)))
(T (W x01 x00 x00 x00 x00 x00 x80 x3f)
(L (W x00 x00 x00 x00 x00 x00 x00 x00)) E))
(T (W x00 x00 x00 x00 x70 x78 xfd xff)
(T (W x40 x00 x00 x00 x38 x00 x00 x00)
(L (W x00 x00 x00 x00 x00 x00 x00 x00))
(L (W x34 x00 x38 x00 x32 x00 x00 x00)))
(T (W x01 x00 x00 x00 x00 x00 x80 x3f)
(L (W x01 x00 x00 x00 x00 x00 x80 x3f)) E))))
(T (W x04 x00 x00 x00 xaa xcd xfc xff)
(T (W x02 x00 x00 x00 x32 x39 x00 x00)
(T (W x45 x26 x22 x84 xe4 x9c xf2 xcb)
(T (W x00 x00 x00 x00 x70 xa8 xfd xff)
(L (W x1a x4c x34 xf2 x95 x27 xed x2f))
(L (W x6c xa8 xff xff x00 x00 x00 x00)))
(T (W x00 x00 x00 x00 x70 x28 xfe xff)
(L (W x40 x00 x00 x00 x38 x00 x00 x00)) E))
(T (W xea x67 xfd xff x66 xa6 xf8 x43)
(T (W x8c xc5 xd6 x61 xf7 xe1 xb5 x83)
(L (W x45 x26 x22 x84 xe4 x9c xf2 xcb))
(L (W x45 x26 x22 x84 xe4 x9c xf2 xcb)))
(T (W x45 x26 x22 x84 xe4 x9c xf2 xcb)
(L (W x45 x26 x22 x84 xe4 x9c xf2 xcb)) E)))
(T (W x60 x00 x00 x00 x54 x00 x00 x00)
(T (W x00 x00 x00 x00 x00 x00 x00 x00)
(T (W xf6 x68 x22 x44 x00 x00 x00 x00)
(L (W x00 x00 x00 x00 x01 x00 x00 x00))
(L (W x00 x00 x00 x00 x00 x00 x00 x00)))
(T (W x28 x00 x00 x00 x14 x00 x00 x00)
(L (W x00 x00 x00 x00 x00 x00 x00 x00)) E))
(T (W x04 x00 x00 x00 x00 x00 x00 x00)
(T (W x5f x4e x45 x57 x5f x4f x55 x54)
(L (W x5c x00 x00 x00 x50 x00 x00 x00)) E)
(T (W x74 x00 x00 x00 x68 x00 x00 x00)
(L (W x04 x00 x00 x00 x90 x8a xff xff)) E)))))
(T (W x6c xb0 xfc xff x00 x00 x00 x00)
(T (W x00 x00 xe0 x40 x24 x01 x00 x00)
(T (W x48 x00 x00 x00 x34 x00 x00 x00)
(T (W xd3 xd0 xf7 xb9 x53 x44 x90 x7b)
(T (W x34 x00 x00 x00 x20 x00 x00 x00)
(L (W x00 x00 x80 x3f x00 x00 x80 x3f))
(L (W x1c x00 x00 x00 x46 x53 x59 x53)))
(T (W x45 x41 x30 x32 x5f x30 x31 x38)
(L (W xcd x6c x1a x44 x9a x99 x63 x42)) E))
(T (W x44 x00 x00 x00 x38 x00 x00 x00)
(T (W x45 x26 x22 x84 xe4 x9c xf2 xcb)
(L (W x45 x26 x22 x84 xe4 x9c xf2 xcb))
(L (W x01 x00 x00 x00 x00 x00 x80 x3f)))
(T (W x60 x00 x00 x00 x54 x00 x00 x00)
(L (W x00 x00 x00 x00 x00 x00 x00 x00)) E)))
(T (W x45 x26 x22 x84 xe4 x9c xf2 xcb)
(T (W x00 x00 x00 x00 x01 x00 x00 x00)
(T (W x00 x00 x00 x00 x00 x00 x00 x00)
(L (W x04 x00 x00 x00 x00 x00 x00 x00))
(L (W x6c xc0 xff xff x00 x00 x00 x00)))
(T (W x6c x40 xfe xff x00 x00 x00 x00)
(L (W x04 x00 x00 x00 xaa x45 xff xff)) E))
(T (W x00 x00 x00 x00 x00 x00 x00 x00)
(T (W x74 x00 x00 x00 x68 x00 x00 x00)
(L (W x45 x26 x22 x84 xe4 x9c xf2 xcb))
(L (W x00 x00 x80 x3f x00 x00 x80 x3f)))
(T (W x44 x00 x00 x00 x38 x00 x00 x00)
(L (W x14 x83 xff xff x50 x00 x00 x00)) E))))
(T (W x45 x26 x22 x84 xe4 x9c xf2 xcb)
(T (W x34 x00 x00 x00 x20 x00 x00 x00)
(T (W x00 x00 x00 x00 x00 x00 x00 x00)
(T (W x7b x94 x3c x44 x71 x3d x0d x42)
(L (W x45 x26 x22 x84 xe4 x9c xf2 xcb))
(L (W xea xaf xff xff xcd x0c xaa x43)))
(T (W x2c x00 x00 x00 x18 x00 x00 x00)
(L (W x00 x00 x00 x00 x00 x00 x00 x00)) E))
(T (W x00 x00 x80 xbf x00 x00 x80 xbf)
(T (W x00 x00 x00 x00 x00 x00 x00 x00)
(L (W x00 x00 x00 x00 x00 x00 x00 x00))
(L (W x00 x00 x00 x00 x01 x00 x00 x00)))
(T (W x00 x00 x00 x00 x70 x70 xfe xff)
(L (W x6c x70 xff xff x00 x00 x00 x00)) E)))
(T (W x00 x00 x00 x00 x00 x00 x00 x00)
(T (W x45 x41 x30 x32 x5f x30 x30 x31)
(T (W x00 x00 x00 x00 x70 xd0 xfd xff)
(L (W xe8 x4e x81 xf3 x1d x30 x54 x95))
(L (W x45 x26 x22 x84 xe4 x9c xf2 xcb)))
(T (W x1c x01 x00 x00 x01 x00 x00 x00)
(L (W x00 x00 x80 xbf x00 x00 x80 xbf)) E))
(T (W x44 x00 x00 x00 x38 x00 x00 x00)
(T (W x45 x26 x22 x84 xe4 x9c xf2 xcb)
(L (W x34 x00 x00 x00 x20 x00 x00 x00)) E)
(T (W x75 x55 xd3 xba x8c xb3 xbf x3a)
(L (W x04 x00 x00 x00 x00 x00 x00 x00)) E))))))))))
(T (W xcc x17 x03 x00 x00 x16 x03 x00)
(T (W x08 xdd x02 x00 x20 xdb x02 x00)
(T (W x34 x67 x02 x00 x68 x65 x02 x00)
(T (W xb0 x7a x01 x00 xdc x78 x01 x00)
(T (W xd4 x9b xfc xff x50 x00 x00 x00)
(T (W x2c xa1 xfc xff x00 x00 x00 x00)
(T (W x00 x00 xe0 x40 x24 x01 x00 x00)
(T (W x48 x00 x00 x00 x34 x00 x00 x00)
(T (W x45 x26 x22 x84 xe4 x9c xf2 xcb)
(T (W x66 x66 x14 x42 x66 x26 x4d x44)
(L (W x00 x00 x00 x00 x00 x00 x00 x00))
(L (W x00 x00 x00 x00 x00 x00 x00 x00)))
(T (W x78 x00 x00 x00 x6c x00 x00 x00)
(L (W x45 x26 x22 x84 xe4 x9c xf2 xcb)) E))
(T (W x00 x00 x00 x00 x30 x51 xfd xff)
(T (W x45 x26 x22 x84 xe4 x9c xf2 xcb)
(L (W x45 x26 x22 x84 xe4 x9c xf2 xcb))
(L (W x28 x00 x00 x00 x14 x00 x00 x00)))
(T (W xd4 x53 xfe xff x50 x00 x00 x00)
(L (W x2c x00 x00 x00 x20 x00 x00 x00)) E)))
(T (W x45 x26 x22 x84 xe4 x9c xf2 xcb)
(T (W x3c x01 x00 x00 x30 x01 x00 x00)
(T (W x45 x26 x22 x84 xe4 x9c xf2 xcb)
(L (W x00 x00 x00 x00 x00 x00 x00 x00))
(L (W x45 x26 x22 x84 xe4 x9c xf2 xcb)))
(T (W xa7 x8e xfc x36 x15 xfa x4b x40)
(L (W x00 x00 x00 x00 xf2 x38 xff xff)) E))
(T (W x2c x00 x00 x00 x20 x00 x00 x00)
(T (W x45 x26 x22 x84 xe4 x9c xf2 xcb)
(L (W x00 x00 x00 x00 x00 x00 x00 x00))
(L (W x34 x00 x00 x00 x20 x00 x00 x00)))
(T (W x00 x00 x80 xbf x00 x00 x80 xbf)
(L (W x00 x00 x80 xbf x00 x00 x80 xbf)) E))))
(T (W x01 x00 x00 x00 x04 x00 x00 x00)
(T (W x34 x00 x00 x00 x20 x00 x00 x00)
(T (W x45 x26 x22 x84 xe4 x9c xf2 xcb)
(T (W x45 x26 x22 x84 xe4 x9c xf2 xcb)
(L (W x40 x00 x00 x00 x38 x00 x00 x00))
(L (W x45 x26 x22 x84 xe4 x9c xf2 xcb)))
(T (W x00 x00 x00 x00 x30 x21 xfe xff)
(L (W x54 x00 x00 x00 x48 x00 x00 x00)) E))
(T (W xc3 xf5 x17 x42 x00 xc0 x61 x44)
(T (W x00 x00 x00 x00 x00 x00 x00 x00)
(L (W x04 x00 x00 x00 x6a xe6 xfe xff))
(L (W x44 x00 x00 x00 x38 x00 x00 x00)))
(T (W x00 x00 x80 xbf x9c x00 x00 x00)
(L (W x45 x26 x22 x84 xe4 x9c xf2 xcb)) E)))
(T (W x00 x00 x00 x00 x00 x00 x00 x00)
(T (W x00 x00 x00 x00 x00 x00 x00 x00)
(T (W xda xc4 xfd xff x40 x01 x00 x00)
(L (W x00 x00 x00 x00 x00 x00 x00 x00))
(L (W x1c x01 x00 x00 x01 x00 x00 x00)))
(T (W xaa x40 xfe xff x00 x00 x80 x3f)
(L (W x00 x00 x00 x00 x30 x41 xff xff)) E))
(T (W x45 x26 x22 x84 xe4 x9c xf2 xcb)
(T (W x8c x8f xf4 x19 x0c xa6 x0e x0b)
(L (W x60 x00 x00 x00 x54 x00 x00 x00)) E)
(T (W x66 x86 x5c x44 x00 x00 x00 x00)
(L (W x33 x33 xe0 x43 x14 xa5 x15 x42)) E)))))
(T (W xd7 xa3 x3c x44 xc3 xf5 x2f x42)
(T (W x04 x00 x00 x00 x6a xbe xfc xff)
(T (W x02 x00 x00 x00 x33 x37 x00 x00)
(T (W xdd xd8 x36 x97 x85 x31 x63 x5f)
(T (W x60 x2c x5f x23 x15 x48 xa9 x1d)
(L (W x00 x00 x80 x3f x00 x00 x80 x3f))
(L (W x00 x00 x00 x00 xf2 xa0 xff xff)))
(T (W x01 x00 x00 x00 x01 x00 x00 x00)
(L (W x32 x39 x00 x00 x1b x00 x00 x00)) E))
(T (W xf4 x30 xc8 xc9 x03 x8d xa0 xbc)
(T (W x45 x26 x22 x84 xe4 x9c xf2 xcb)
(L (W x00 x00 x00 x00 xae xd8 xfe xff))
(L (W x04 x00 x00 x00 x00 x00 x00 x00)))
(T (W xaa x58 xfe xff x85 x9b x4a x44)
(L (W x1c x00 x00 x00 x46 x53 x59 x53)) E)))
(T (W x60 x00 x00 x00 x54 x00 x00 x00)
(T (W x45 x26 x22 x84 xe4 x9c xf2 xcb)
(T (W x04 x00 x00 x00 x50 xbb xfd xff)
(L (W xe3 xd8 x1b x72 x9d x09 xa7 xbe))
(L (W x00 x00 x00 x00 x30 xb9 xff xff)))
(T (W x44 x00 x00 x00 x38 x00 x00 x00)
(L (W x45 x26 x22 x84 xe4 x9c xf2 xcb)) E))
(T (W x00 x00 x80 x3f x00 x00 x80 x3f)
(T (W x00 x00 x00 x00 x01 x00 x00 x00)
(L (W x45 x26 x22 x84 xe4 x9c xf2 xcb))
(L (W x2c xf9 xff xff x00 x00 x00 x00)))
(T (W x44 x00 x00 x00 x38 x00 x00 x00)
(L (W x44 x00 x00 x00 x38 x00 x00 x00)) E))))
(T (W x00 x00 x00 x00 x30 xc9 xfc xff)
(T (W x45 x26 x22 x84 xe4 x9c xf2 xcb)
(T (W x04 x00 x00 x00 x50 x2b xfd xff)
(T (W x45 x26 x22 x84 xe4 x9c xf2 xcb)
(L (W x00 x00 x00 x00 x00 x00 x00 x00))
(L (W xaa xa8 xff xff x00 x00 x80 x3f)))
(T (W x45 x26 x22 x84 xe4 x9c xf2 xcb)
(L (W x00 x00 x00 x00 x01 x00 x00 x00)) E))
(T (W x45 x26 x22 x84 xe4 x9c xf2 xcb)
(T (W x00 x00 x00 x00 x00 x00 x00 x00)
(L (W x00 x00 x00 x00 x00 x00 x00 x00))
(L (W x44 x00 x00 x00 x30 x00 x00 x00)))
(T (W x00 x00 x00 x00 x00 x00 x00 x00)
(L (W x5c x00 x00 x00 x50 x00 x00 x00)) E)))
(T (W x00 x00 x80 xbf x9c x00 x00 x00)
(T (W x1c x01 x00 x00 x02 x00 x00 x00)
(T (W x45 x26 x22 x84 xe4 x9c xf2 xcb)
(L (W x34 x00 x00 x00 x20 x00 x00 x00))
(L (W x00 x00 x00 x00 x30 xc9 xff xff)))
(T (W x07 x24 x71 x52 x12 x72 x44 x20)
(L (W x3c x01 x00 x00 x30 x01 x00 x00)) E))
(T (W x00 x00 x00 x00 x00 x00 x00 x00)
(T (W x45 x26 x22 x84 xe4 x9c xf2 xcb)
(L (W x00 x00 x80 xbf x9c x00 x00 x00)) E)
(T (W x32 x27 xe4 x7b xa6 x0a xac x81)
(L (W xb3 x53 x11 x0c x1e x6c xad xc0)) E))))))
(T (W x00 x00 x00 x00 x00 x00 x00 x00)
(T (W x28 x00 x00 x00 x14 x00 x00 x00)
(T (W xe8 xdc x86 x67 x2b xff xf0 x8e)
(T (W x00 x00 x80 x3f x30 xd5 xfc xff)
(T (W x2c x15 xfd xff x00 x00 x00 x00)
(T (W x3c x01 x00 x00 x30 x01 x00 x00)
(L (W x60 x00 x00 x00 x54 x00 x00 x00))
(L (W x5c x00 x00 x00 x50 x00 x00 x00)))
(T (W x02 x00 x00 x00 x32 x38 x00 x00)
(L (W x74 x00 x00 x00 x68 x00 x00 x00)) E))
(T (W x2c x55 xfd xff x00 x00 x00 x00)
(T (W x01 x00 x00 x00 x00 x00 x80 x3f)
(L (W x2c xd5 xfe xff x00 x00 x00 x00))
(L (W x00 x00 x80 x40 x24 x01 x00 x00)))
(T (W x00 x00 x00 x00 x00 x00 x00 x00)
(L (W x5c x00 x00 x00 x50 x00 x00 x00)) E)))
(T (W x00 x00 x00 x00 x00 x00 x00 x00)
(T (W x00 x00 x00 x00 x01 x00 x00 x00)
(T (W x45 x26 x22 x84 xe4 x9c xf2 xcb)
(L (W x01 x00 x00 x00 x00 x00 x80 x3f))
(L (W x45 x26 x22 x84 xe4 x9c xf2 xcb)))
(T (W x04 x00 x00 x00 x6a x3a xfe xff)
(L (W x45 x26 x22 x84 xe4 x9c xf2 xcb)) E))
(T (W x00 x00 x00 x00 x00 x00 x00 x00)
(T (W x00 x00 x00 x00 x00 x00 x00 x00)
(L (W x00 x00 x00 x00 x01 x00 x00 x00))
(L (W x40 x00 x00 x00 x38 x00 x00 x00)))
(T (W x45 x26 x22 x84 xe4 x9c xf2 xcb)
(L (W x45 x26 x22 x84 xe4 x9c xf2 xcb)) E))))
(T (W x45 x26 x22 x84 xe4 x9c xf2 xcb)
(T (W x00 x00 x00 x00 x01 x00 x00 x00)
(T (W x00 x00 x00 x00 x00 x00 x00 x00)
(T (W x00 x00 x00 x00 x00 x00 x00 x00)
(L (W x01 x00 x00 x00 x04 x00 x00 x00))
(L (W x00 x00 x00 x00 x00 x00 x00 x00)))
(T (W x00 x00 x00 x00 x00 x00 x00 x00)
(L (W x2c x00 x00 x00 x20 x00 x00 x00)) E))
(T (W x01 x00 x00 x00 x00 x00 x80 x3f)
(T (W x44 x00 x00 x00 x30 x00 x00 x00)
(L (W x44 x00 x00 x00 x38 x00 x00 x00))
(L (W x00 x00 x00 x00 x00 x00 x00 x00)))
(T (W x45 x26 x22 x84 xe4 x9c xf2 xcb)
(L (W x45 x26 x22 x84 xe4 x9c xf2 xcb)) E)))
(T (W x22 xe9 xff xff x00 x00 x00 x01)
(T (W xaa x44 xfd xff x85 x4b x82 x43)
(T (W xd8 xa3 xc5 x91 xba x9e xc8 x8a)
(L (W x2c xc5 xfe xff xae xc4 xfe xff))
(L (W x00 x00 x00 x00 x01 x00 x00 x00)))
(T (W x3c x01 x00 x00 x30 x01 x00 x00)
(L (W xaa x44 xff xff x00 x00 x80 x3f)) E))
(T (W xd3 x3a x45 xdc x00 xd5 x55 x2f)
(T (W x54 x00 x00 x00 x48 x00 x00 x00)
(L (W x00 x00 x00 x00 x00 x00 x00 x00)) E)
(T (W x54 x01 x00 x00 x48 x01 x00 x00)
(L (W x42 x52 x45 x41 x4b x5f x41 x52)) E)))))
(T (W x46 x53 x59 x53 x5f x4e x45 x57)
(T (W x45 x26 x22 x84 xe4 x9c xf2 xcb)
(T (W x3c x01 x00 x00 x30 x01 x00 x00)
(T (W x77 xd5 x36 x97 x85 x2f x63 x5f)
(T (W x45 x26 x22 x84 xe4 x9c xf2 xcb)
(L (W x00 x00 x80 x40 x24 x01 x00 x00))
(L (W x04 x00 x00 x00 x6a xa2 xff xff)))
(T (W x00 x00 x00 x00 x01 x00 x00 x00)
(L (W x01 x00 x00 x00 x00 x00 x80 x3f)) E))
(T (W x44 x00 x00 x00 x30 x00 x00 x00)
(T (W x2c xdd xfd xff x00 x00 x00 x00)
(L (W x1c x01 x00 x00 x01 x00 x00 x00))
(L (W x45 x26 x22 x84 xe4 x9c xf2 xcb)))
(T (W x00 x00 x00 x00 xf2 x64 xfe xff)
(L (W x00 x00 x80 xbf x9c x00 x00 x00)) E)))
(T (W x00 x00 x80 x3f x00 x00 x80 x3f)
(T (W x00 x00 x00 x00 x30 x3d xfd xff)
(T (W x00 x00 x00 x00 x00 x00 x00 x00)
(L (W x45 x26 x22 x84 xe4 x9c xf2 xcb))
(L (W x14 xce xff x43 x00 x00 x00 x00)))
(T (W x78 x00 x00 x00 x6c x00 x00 x00)
(L (W xd4 x3f xff xff x50 x00 x00 x00)) E))
(T (W x00 x00 x80 xbf x9c x00 x00 x00)
(T (W x33 xf3 x2a x44 x00 x00 x00 x00)
(L (W x00 x00 x00 x00 x00 x00 x00 x00))
(L (W x45 x26 x22 x84 xe4 x9c xf2 xcb)))
(T (W x74 x00 x00 x00 x68 x00 x00 x00)
(L (W x04 x00 x00 x00 x18 x7d xff xff)) E))))
(T (W x00 x00 x00 x00 x30 xcd xfc xff)
(T (W x00 x00 x00 x00 x30 xed xfc xff)
(T (W x45 x26 x22 x84 xe4 x9c xf2 xcb)
(T (W x01 x00 x00 x00 x00 x00 x80 x3f)
(L (W x55 x6c xfc xf1 x99 x9e xc9 x88))
(L (W x00 x00 x80 xbf x00 x00 x80 xbf)))
(T (W x53 x5f x47 x41 x4e x45 x52 x41)
(L (W x00 x00 x00 x00 x00 x00 x00 x00)) E))
(T (W x00 x00 x00 x00 x30 x6d xfd xff)
(T (W x34 x00 x00 x00 x20 x00 x00 x00)
(L (W x44 x00 x00 x00 x30 x00 x00 x00))
(L (W x2c xed xff xff xae xec xff xff)))
(T (W xaa x6c xfe xff x00 x00 x80 x3f)
(L (W x00 x00 x00 x00 x00 x00 x00 x00)) E)))
(T (W x04 x00 x00 x00 x00 x00 x00 x00)
(T (W x45 x26 x22 x84 xe4 x9c xf2 xcb)
(T (W x00 x00 x00 x00 x00 x00 x00 x00)
(L (W x45 x26 x22 x84 xe4 x9c xf2 xcb))
(L (W x00 x00 x00 x00 x00 x00 x00 x00)))
(T (W x00 x00 x00 x00 x01 x00 x00 x00)
(L (W x54 x00 x00 x00 x48 x00 x00 x00)) E))
(T (W x78 x00 x00 x00 x6c x00 x00 x00)
(T (W x04 xbd x1c x76 x80 xbc xf7 x18)
(L (W x45 x26 x22 x84 xe4 x9c xf2 xcb)) E)
(T (W x00 x00 x00 x00 x30 x8d xfe xff)
(L (W x45 x26 x22 x84 xe4 x9c xf2 xcb)) E)))))))
(T (W xdc x8c x00 x00 x04 x8b x00 x00)
(T (W x3f x7c x88 xaf x9a x1e x19 x7c)
(T (W x74 x00 x00 x00 x68 x00 x00 x00)
(T (W x00 x00 x80 xbf x00 x00 x80 xbf)
(T (W x4f x84 x6f x8b xe8 xcb x63 xb7)
(T (W x45 x26 x22 x84 xe4 x9c xf2 xcb)
(T (W x00 x00 x00 x00 x00 x00 x00 x00)
(L (W x00 x00 x00 x00 x01 x00 x00 x00))
(L (W x00 x00 x00 x00 x01 x00 x00 x00)))
(T (W xaa x12 xfe xff x00 x00 x80 x3f)
(L (W x00 x00 x00 x00 x00 x00 x00 x00)) E))
(T (W x2c x53 xfd xff x00 x00 x00 x00)
(T (W x00 x00 x00 x00 x00 x00 x00 x00)
(L (W x00 x00 x00 x00 x00 x00 x00 x00))
(L (W x71 x7d xd9 x43 x00 x00 x00 x00)))
(T (W x85 x8d xa7 x28 xbf x4e x53 x6a)
(L (W x00 x00 x00 x00 x00 x00 x00 x00)) E)))
(T (W x00 x00 x00 x00 x00 x00 x00 x00)
(T (W x74 x47 x2d xf0 x2c x46 x07 xdb)
(T (W x00 x00 x00 x00 x30 xb3 xfd xff)
(L (W x34 x01 x00 x00 x01 x00 x00 x00))
(L (W x2c xb3 xff xff x00 x00 x00 x00)))
(T (W x00 x00 x00 x00 x01 x00 x00 x00)
(L (W x34 x00 x00 x00 x20 x00 x00 x00)) E))
(T (W x45 x26 x22 x84 xe4 x9c xf2 xcb)
(T (W x44 x00 x00 x00 x38 x00 x00 x00)
(L (W x00 x00 x80 xbf x9c x00 x00 x00))
(L (W xe3 xd8 x1b x72 x9d x09 xa7 xbe)))
(T (W x04 x00 x00 x00 x00 x00 x00 x00)
(L (W x00 x00 x00 x00 x01 x00 x00 x00)) E))))
(T (W x2c x00 x00 x00 x20 x00 x00 x00)
(T (W x45 x26 x22 x84 xe4 x9c xf2 xcb)
(T (W x0e x4c xac xeb x6f x4d xab x7a)
(T (W x00 x00 x00 x00 x00 x00 x00 x00)
(L (W x45 x26 x22 x84 xe4 x9c xf2 xcb))
(L (W xd4 xa5 xff xff x50 x00 x00 x00)))
(T (W x01 x00 x00 x00 x04 x00 x00 x00)
(L (W x45 x26 x22 x84 xe4 x9c xf2 xcb)) E))
(T (W x5f x4e x45 x57 x5f x4f x55 x54)
(T (W x04 x00 x00 x00 x18 xe3 xfd xff)
(L (W x45 x26 x22 x84 xe4 x9c xf2 xcb))
(L (W x45 x26 x22 x84 xe4 x9c xf2 xcb)))
(T (W x00 x00 x00 x00 x01 x00 x00 x00)
(L (W x01 x00 x00 x00 x04 x00 x00 x00)) E)))
(T (W x5f x4d x41 x53 x53 x5f x47 x41)
(T (W x44 x00 x00 x00 x30 x00 x00 x00)
(T (W x1c x01 x00 x00 x01 x00 x00 x00)
(L (W x5c x00 x00 x00 x50 x00 x00 x00))
(L (W x45 x26 x22 x84 xe4 x9c xf2 xcb)))
(T (W x00 x00 x00 x00 x00 x00 x00 x00)
(L (W x2c x00 x00 x00 x18 x00 x00 x00)) E))
(T (W xd4 x85 xfd xff x50 x00 x00 x00)
(T (W x04 x00 x00 x00 x00 x00 x00 x00)
(L (W x45 x26 x22 x84 xe4 x9c xf2 xcb)) E)
(T (W x42 x52 x45 x41 x4b x5f x41 x52)
(L (W x00 x00 x00 x00 x02 x00 x00 x00)) E)))))
(T (W x00 x00 x00 x00 x00 x00 x00 x00)
(T (W x45 x26 x22 x84 xe4 x9c xf2 xcb)
(T (W x4e x45 x52 x41 x54 x49 x4f x4e)
(T (W x00 x00 x00 x00 x00 x00 x00 x00)
(T (W x00 x00 x00 x00 x01 x00 x00 x00)
(L (W x33 xb3 xd3 x42 x00 x00 x00 x00))
(L (W x34 x00 x00 x00 x20 x00 x00 x00)))
(T (W x45 x26 x22 x84 xe4 x9c xf2 xcb)
(L (W x41 x30 x32 x00 xf2 x22 xff xff)) E))
(T (W x00 x00 x00 x00 x00 x00 x00 x00)
(T (W x45 x26 x22 x84 xe4 x9c xf2 xcb)
(L (W x00 x00 x00 x00 x00 x00 x00 x00))
(L (W x45 x26 x22 x84 xe4 x9c xf2 xcb)))
(T (W x00 x00 x00 x00 x00 x00 x00 x00)
(L (W x1c x01 x00 x00 x01 x00 x00 x00)) E)))
(T (W xd6 x81 x9c x94 x9b x27 x57 x25)
(T (W x45 x26 x22 x84 xe4 x9c xf2 xcb)
(T (W xaa xba xfd xff x00 x00 x80 x3f)
(L (W x40 x00 x00 x00 x38 x00 x00 x00))
(L (W x28 x00 x00 x00 x14 x00 x00 x00)))
(T (W x00 x00 x00 x00 x00 x00 x00 x00)
(L (W x45 x26 x22 x84 xe4 x9c xf2 xcb)) E))
(T (W x00 x00 x00 x00 x00 x00 x00 x00)
(T (W x45 x26 x22 x84 xe4 x9c xf2 xcb)
(L (W x01 x00 x00 x00 x04 x00 x00 x00))
(L (W x2c xfb xff xff x00 x00 x00 x00)))
(T (W x00 x00 x00 x00 x00 x00 x00 x00)
(L (W x00 x00 x00 x00 x00 x00 x00 x00)) E))))
(T (W x04 x00 x00 x00 x50 xcd xfc xff)
(T (W x45 x26 x22 x84 xe4 x9c xf2 xcb)
(T (W x60 x00 x00 x00 x54 x00 x00 x00)
(T (W x00 x00 x00 x00 x00 x00 x00 x00)
(L (W x00 x00 x00 x00 x01 x00 x00 x00))
(L (W x00 x00 x00 x00 x00 x00 x00 x00)))
(T (W x00 x00 x00 x00 x00 x00 x00 x00)
(L (W x45 x26 x22 x84 xe4 x9c xf2 xcb)) E))
(T (W x45 x26 x22 x84 xe4 x9c xf2 xcb)
(T (W x00 x00 x00 x00 xf2 xf2 xfd xff)
(L (W x00 x00 x00 x00 x00 x00 x00 x00))
(L (W x55 x6c xfc xf1 x99 x9e xc9 x88)))
(T (W x04 x00 x00 x00 x50 x6d xfe xff)
(L (W x2c x6b xff xff xae x6a xff xff)) E)))
(T (W x09 x81 x8f xfa x43 xd8 xc3 xbf)
(T (W x45 x26 x22 x84 xe4 x9c xf2 xcb)
(T (W x01 x00 x00 x00 x04 x00 x00 x00)
(L (W x00 x00 x00 x00 x01 x00 x00 x00))
(L (W xd4 xcd xff xff x50 x00 x00 x00)))
(T (W x45 x26 x22 x84 xe4 x9c xf2 xcb)
(L (W x1f x1e x42 xe3 x48 x31 x25 x26)) E))
(T (W x2c x8b xfd xff x00 x00 x00 x00)
(T (W x2c x0b xfe xff x00 x00 x00 x00)
(L (W x00 x00 x00 x00 x01 x00 x00 x00)) E)
(T (W x40 x00 x00 x00 x38 x00 x00 x00)
(L (W x54 x00 x00 x00 x48 x00 x00 x00)) E))))))
(T (W x00 x00 x00 x00 x00 x00 x00 x00)
(T (W xaa xa6 xfc xff x00 x00 x80 x3f)
(T (W x00 x00 x00 x00 x01 x00 x00 x00)
(T (W x00 x00 x00 x00 x00 x00 x00 x00)
(T (W xd4 x19 xfd xff x50 x00 x00 x00)
(T (W x00 x00 x80 xbf x00 x00 x80 xbf)
(L (W x55 x39 x81 x6a xc4 xc7 x74 x14))
(L (W x2c x97 xff xff xae x96 xff xff)))
(T (W x5f x4f x55 x54 x42 x52 x45 x41)
(L (W x00 x00 x80 x3f x00 x00 x80 x3f)) E))
(T (W xd4 x59 xfd xff x50 x00 x00 x00)
(T (W x00 x00 x00 x00 x01 x00 x00 x00)
(L (W x78 x00 x00 x00 x6c x00 x00 x00))
(L (W x00 x00 x80 xbf x00 x00 x80 xbf)))
(T (W x44 x00 x00 x00 x30 x00 x00 x00)
(L (W x2c x57 xff xff xae x56 xff xff)) E)))
(T (W x00 x00 x00 x00 x01 x00 x00 x00)
(T (W x04 x00 x00 x00 x6a x3c xfd xff)
(T (W x00 x00 x00 x00 x00 x00 x00 x00)
(L (W x00 x00 x80 x3f x02 x00 x00 x00))
(L (W x45 x26 x22 x84 xe4 x9c xf2 xcb)))
(T (W x45 x26 x22 x84 xe4 x9c xf2 xcb)
(L (W x00 x00 x00 x00 x01 x00 x00 x00)) E))
(T (W x74 x00 x00 x00 x68 x00 x00 x00)
(T (W x00 x00 x00 x00 x00 x00 x00 x00)
(L (W x40 x00 x00 x00 x38 x00 x00 x00))
(L (W x00 x00 x00 x00 x30 xf7 xff xff)))
(T (W x00 x00 x00 x00 x30 x77 xfe xff)
(L (W x45 x26 x22 x84 xe4 x9c xf2 xcb)) E))))
(T (W x00 x00 x00 x00 x00 x00 x00 x00)
(T (W x40 x00 x00 x00 x38 x00 x00 x00)
(T (W x2c x27 xfd xff x00 x00 x00 x00)
(T (W x00 x00 x00 x00 x01 x00 x00 x00)
(L (W x2c x00 x00 x00 x20 x00 x00 x00))
(L (W x04 x00 x00 x00 x50 xa9 xff xff)))
(T (W x00 x00 x00 x00 x01 x00 x00 x00)
(L (W x00 x00 x00 x00 x00 x00 x00 x00)) E))
(T (W x00 x00 x00 x00 x01 x00 x00 x00)
(T (W xaa xe6 xfd xff xe1 xda x52 x44)
(L (W x45 x26 x22 x84 xe4 x9c xf2 xcb))
(L (W x04 x00 x00 x00 x50 xe9 xff xff)))
(T (W xd4 x69 xfe xff x50 x00 x00 x00)
(L (W x2c x67 xff xff x00 x00 x00 x00)) E)))
(T (W x1c x01 x00 x00 x04 x00 x00 x00)
(T (W x1c x00 x00 x00 x46 x53 x59 x53)
(T (W x04 x00 x00 x00 x00 x00 x00 x00)
(L (W x00 x00 x00 x00 xf2 xce xfe xff))
(L (W x40 x00 x00 x00 x38 x00 x00 x00)))
(T (W x4c xba xfe x36 x15 xf4 x4e x40)
(L (W x00 x00 x00 x00 x00 x00 x00 x00)) E))
(T (W x00 x00 x00 x00 x00 x00 x00 x00)
(T (W x45 x26 x22 x84 xe4 x9c xf2 xcb)
(L (W x1c x01 x00 x00 x01 x00 x00 x00)) E)
(T (W x00 x00 x40 x40 x24 x01 x00 x00)
(L (W x3c x01 x00 x00 x30 x01 x00 x00)) E)))))
(T (W x5f x30 x31 x35 x00 x00 x00 x00)
(T (W x00 x00 x00 x00 x30 xbf xfc xff)
(T (W x04 x00 x00 x00 x00 x00 x80 x3f)
(T (W x45 x26 x22 x84 xe4 x9c xf2 xcb)
(T (W x00 x00 x00 x00 x30 x9f xfd xff)
(L (W xd4 xb2 x0d x27 x2e xf2 x42 xa0))
(L (W x45 x26 x22 x84 xe4 x9c xf2 xcb)))
(T (W x45 x26 x22 x84 xe4 x9c xf2 xcb)
(L (W x00 x00 x00 x00 x01 x00 x00 x00)) E))
(T (W xaa x5e xfd xff x00 x00 x80 x3f)
(T (W xd4 xe1 xfd xff x50 x00 x00 x00)
(L (W x34 x00 x00 x00 x20 x00 x00 x00))
(L (W x00 x00 x00 x00 x30 xdf xff xff)))
(T (W x1c x01 x00 x00 x01 x00 x00 x00)
(L (W x00 x00 x00 x00 x01 x00 x00 x00)) E)))
(T (W x14 xae x1c x42 x1f x05 x16 x44)
(T (W xeb x90 xa7 x28 xbf x50 x53 x6a)
(T (W x5f x4f x55 x54 x42 x52 x45 x41)
(L (W x2c x00 x00 x00 x20 x00 x00 x00))
(L (W x54 x49 x4f x4e x5f x41 x52 x45)))
(T (W x2c x00 x00 x00 x18 x00 x00 x00)
(L (W x45 x26 x22 x84 xe4 x9c xf2 xcb)) E))
(T (W x00 x00 x00 x00 x01 x00 x00 x00)
(T (W x00 x00 xa0 x40 x24 x01 x00 x00)
(L (W x00 x00 x00 x00 x01 x00 x00 x00))
(L (W x0c x00 x10 x00 x1a x00 x00 x00)))
(T (W x00 x00 x80 x3f x00 x00 x80 x3f)
(L (W x44 x00 x00 x00 x30 x00 x00 x00)) E))))
(T (W x04 x00 x00 x00 x18 xcf xfc xff)
(T (W x44 x00 x00 x00 x38 x00 x00 x00)
(T (W x00 x00 x00 x00 x00 x00 x00 x00)
(T (W x00 x00 x00 x00 x01 x00 x00 x00)
(L (W x00 x00 x80 x3f x30 xaf xfe xff))
(L (W x00 x00 x00 x00 x01 x00 x00 x00)))
(T (W x00 x00 x80 xbf x00 x00 x80 xbf)
(L (W x57 x53 x59 x53 x5f x4d x41 x53)) E))
(T (W x01 x00 x00 x00 x04 x00 x00 x00)
(T (W x04 x00 x00 x00 x6a xf4 xfd xff)
(L (W xaa xee xfe xff x48 x01 xe0 x43))
(L (W x00 x00 x00 x00 xf2 xf6 xff xff)))
(T (W x00 x00 x00 x00 x00 x00 x00 x00)
(L (W x5f x41 x52 x45 x41 x30 x32 x00)) E)))
(T (W x54 x00 x00 x00 x48 x00 x00 x00)
(T (W x45 x26 x22 x84 xe4 x9c xf2 xcb)
(T (W x00 x00 x00 x00 x01 x00 x00 x00)
(L (W x00 x00 x00 x00 x30 xcf xfe xff))
(L (W x04 x00 x00 x00 x50 xd1 xff xff)))
(T (W x45 x26 x22 x84 xe4 x9c xf2 xcb)
(L (W x45 x26 x22 x84 xe4 x9c xf2 xcb)) E))
(T (W x28 x00 x00 x00 x14 x00 x00 x00)
(T (W x00 x00 x00 x00 x00 x00 x00 x00)
(L (W x2c x0f xff xff x00 x00 x00 x00)) E)
(T (W x01 x00 x00 x00 x04 x00 x00 x00)
(L (W x2c x00 x00 x00 x20 x00 x00 x00)) E))))))))
(T (W xfc xf0 x01 x00 x10 xef x01 x00)
(T (W xac x04 x01 x00 xc0 x02 x01 x00)
(T (W x4b x5f x41 x52 x45 x41 x30 x32)
(T (W x45 x26 x22 x84 xe4 x9c xf2 xcb)
(T (W x00 x00 x00 x00 x00 x00 x00 x00)
(T (W x54 x00 x00 x00 x48 x00 x00 x00)
(T (W x00 x00 x80 x3f x30 x12 xfd xff)
(T (W x00 x00 x00 x00 x30 x92 xfd xff)
(L (W x78 x8e xa3 x28 x15 x82 xbf x26))
(L (W xa5 x64 x0e x0c x1e xff xa9 xc0)))
(T (W x40 x00 x00 x00 x38 x00 x00 x00)
(L (W x1c x01 x00 x00 x01 x00 x00 x00)) E))
(T (W xf6 x48 x5c x44 x00 x00 x00 x00)
(T (W x45 x26 x22 x84 xe4 x9c xf2 xcb)
(L (W x01 x00 x00 x00 x00 x00 x80 x3f))
(L (W x45 x26 x22 x84 xe4 x9c xf2 xcb)))
(T (W x42 x52 x45 x41 x4b x5f x41 x52)
(L (W x01 x00 x00 x00 x00 x00 x80 x3f)) E)))
(T (W x00 x00 xe0 x40 x24 x01 x00 x00)
(T (W x00 x00 x00 x00 x00 x00 x00 x00)
(T (W x2c xb2 xfd xff xae xb1 xfd xff)
(L (W x45 x26 x22 x84 xe4 x9c xf2 xcb))
(L (W x00 x00 x80 x3f x00 x00 x80 x3f)))
(T (W x00 x00 x00 x00 x01 x00 x00 x00)
(L (W x45 x26 x22 x84 xe4 x9c xf2 xcb)) E))
(T (W x00 x00 x00 x00 xf2 x79 xfd xff)
(T (W x00 x00 x00 x00 x00 x00 x00 x00)
(L (W x45 x26 x22 x84 xe4 x9c xf2 xcb))
(L (W x2c xf2 xff xff x00 x00 x00 x00)))
(T (W x00 x00 x00 x00 x00 x00 x00 x00)
(L (W x00 x00 x00 x00 x00 x00 x00 x00)) E))))
(T (W x5f x4f x55 x54 x42 x52 x45 x41)
(T (W x2c xe2 xfc xff x00 x00 x00 x00)
(T (W x30 x00 x34 x00 x38 x00 x3c x00)
(T (W x28 x01 x00 x00 x20 x01 x00 x00)
(L (W x00 x00 x00 x00 xae xa1 xfe xff))
(L (W x9a xf9 x1b x44 x00 x00 x00 x00)))
(T (W x00 x00 x00 x00 x00 x00 x00 x00)
(L (W x45 x26 x22 x84 xe4 x9c xf2 xcb)) E))
(T (W x01 x00 x00 x00 x04 x00 x00 x00)
(T (W x0a x9c xd1 xc6 xf6 x68 x46 x79)
(L (W x45 x26 x22 x84 xe4 x9c xf2 xcb))
(L (W x5f x30 x30 x31 x00 x00 x00 x00)))
(T (W x00 x00 x00 x00 x30 x62 xfe xff)
(L (W x00 x00 x2a x42 x9a xd9 x1e x44)) E)))
(T (W x01 x00 x00 x00 x04 x00 x00 x00)
(T (W x04 x00 x00 x00 x00 x00 x00 x00)
(T (W x45 x26 x22 x84 xe4 x9c xf2 xcb)
(L (W x00 x00 x00 x00 x01 x00 x00 x00))
(L (W x00 x00 x00 x00 x00 x00 x00 x00)))
(T (W x00 x00 x00 x00 x30 x42 xfe xff)
(L (W x00 x00 x00 x00 x01 x00 x00 x00)) E))
(T (W xcd x2c x64 x44 x00 x00 x00 x00)
(T (W x04 x00 x00 x00 x18 x02 xfe xff)
(L (W x04 x00 x00 x00 x6a x07 xff xff)) E)
(T (W xd4 x84 xfe xff x50 x00 x00 x00)
(L (W x00 x00 x00 x00 x30 x82 xff xff)) E)))))
(T (W x45 x26 x22 x84 xe4 x9c xf2 xcb)
(T (W x49 xa1 x68 x4a xeb x5f xdd x3d)
(T (W xd4 xdc xfc xff x50 x00 x00 x00)
(T (W x3c x01 x00 x00 x30 x01 x00 x00)
(T (W x00 x00 x00 x00 x01 x00 x00 x00)
(L (W x45 x26 x22 x84 xe4 x9c xf2 xcb))
(L (W x45 x26 x22 x84 xe4 x9c xf2 xcb)))
(T (W x00 x00 x00 x00 x00 x00 x00 x00)
(L (W x44 x00 x00 x00 x38 x00 x00 x00)) E))
(T (W x00 x00 x80 xbf x00 x00 x80 xbf)
(T (W x00 x00 x80 x3f x30 xda xfd xff)
(L (W x45 x26 x22 x84 xe4 x9c xf2 xcb))
(L (W x44 x00 x00 x00 x30 x00 x00 x00)))
(T (W x45 x26 x22 x84 xe4 x9c xf2 xcb)
(L (W x44 x00 x00 x00 x38 x00 x00 x00)) E)))
(T (W x04 x00 x00 x00 x6a xff xfc xff)
(T (W x00 x00 x80 x3f x00 x00 x80 x3f)
(T (W x40 x00 x00 x00 x38 x00 x00 x00)
(L (W x78 x00 x00 x00 x6c x00 x00 x00))
(L (W x00 x00 x00 x00 x01 x00 x00 x00)))
(T (W x1c x01 x00 x00 x01 x00 x00 x00)
(L (W x00 x00 x80 x3f x00 x00 x80 x3f)) E))
(T (W x2c x7a xfd xff x00 x00 x00 x00)
(T (W x04 x00 x00 x00 x6a xff xfd xff)
(L (W x1f xd5 x0f x44 xec xd1 xaa x42))
(L (W x00 x00 x00 x00 x00 x00 x00 x00)))
(T (W x1c x01 x00 x00 x01 x00 x00 x00)
(L (W x28 x01 x00 x00 x20 x01 x00 x00)) E))))
(T (W x11 x02 xff x1a xad xa3 x53 xcf)
(T (W xaa xe9 xfc xff xae xc7 x56 x44)
(T (W x04 x00 x00 x00 x6a x2f xfd xff)
(T (W x45 x26 x22 x84 xe4 x9c xf2 xcb)
(L (W x25 xc8 xb0 xef x1d x00 xf4 x8d))
(L (W x00 x00 x00 x00 x30 xaa xff xff)))
(T (W x45 x26 x22 x84 xe4 x9c xf2 xcb)
(L (W x54 x00 x00 x00 x48 x00 x00 x00)) E))
(T (W x00 x00 x80 x3f x00 x00 x80 x3f)
(T (W x00 x00 x00 x00 x30 xea xfd xff)
(L (W x00 x00 x80 xbf x00 x00 x80 xbf))
(L (W x54 x00 x00 x00 x48 x00 x00 x00)))
(T (W xef xd2 x83 xdb x81 x3e xeb x93)
(L (W x45 x26 x22 x84 xe4 x9c xf2 xcb)) E)))
(T (W x00 x00 x00 x00 x30 x0a xfd xff)
(T (W x00 x00 x00 x00 x00 x00 x00 x00)
(T (W x48 x51 x32 x44 x00 x00 x12 x42)
(L (W x2c xca xfe xff x00 x00 x00 x00))
(L (W x00 x00 x00 x00 x02 x00 x00 x00)))
(T (W x00 x00 x00 x00 x30 x4a xfe xff)
(L (W x00 x00 x00 x00 x00 x00 x00 x00)) E))
(T (W x34 x00 x00 x00 x20 x00 x00 x00)
(T (W x00 x00 x00 x00 x00 x00 x00 x00)
(L (W x00 x00 x00 x00 x30 x0a xff xff)) E)
(T (W x04 x00 x00 x00 x50 x8c xfe xff)
(L (W x00 x00 x00 x00 x01 x00 x00 x00)) E))))))
(T (W x04 x00 x00 x00 x00 x00 x80 x3f)
(T (W x40 x00 x00 x00 x38 x00 x00 x00)
(T (W x00 x00 x00 x00 x01 x00 x00 x00)
(T (W x45 x26 x22 x84 xe4 x9c xf2 xcb)
(T (W x01 x00 x00 x00 x35 x00 x00 x00)
(T (W x00 x00 x00 x00 x00 x00 x00 x00)
(L (W x04 x00 x00 x00 x6a x9b xfe xff))
(L (W x45 x26 x22 x84 xe4 x9c xf2 xcb)))
(T (W x01 x00 x00 x00 x04 x00 x00 x00)
(L (W x45 x26 x22 x84 xe4 x9c xf2 xcb)) E))
(T (W x00 x00 x00 x00 x1c x00 x00 x00)
(T (W x00 x00 x00 x00 x00 x00 x00 x00)
(L (W x30 xd7 x1b x72 x9d x08 xa7 xbe))
(L (W x00 x00 x00 x00 x00 x00 x00 x00)))
(T (W x04 x00 x00 x00 x00 x00 x00 x00)
(L (W x45 x26 x22 x84 xe4 x9c xf2 xcb)) E)))
(T (W xfe x51 xb7 x4b xbc xb4 xfd xea)
(T (W x5c x00 x00 x00 x50 x00 x00 x00)
(T (W x00 x00 xa0 x40 x24 x01 x00 x00)
(L (W x00 x00 x00 x00 x00 x00 x00 x00))
(L (W x30 x00 x34 x00 x38 x00 x3c x00)))
(T (W x45 x26 x22 x84 xe4 x9c xf2 xcb)
(L (W x78 x00 x00 x00 x6c x00 x00 x00)) E))
(T (W x45 x26 x22 x84 xe4 x9c xf2 xcb)
(T (W x00 x00 x80 xbf x00 x00 x80 xbf)
(L (W x2c x00 x00 x00 x18 x00 x00 x00))
(L (W xaa xf5 xff xff x00 x00 x80 x3f)))
(T (W x2c x76 xfe xff xae x75 xfe xff)
(L (W x2c x76 xff xff xae x75 xff xff)) E))))
(T (W x1c x01 x00 x00 x04 x00 x00 x00)
(T (W x2c x00 x00 x00 x18 x00 x00 x00)
(T (W x34 x00 x00 x00 x20 x00 x00 x00)
(T (W x5f x08 x7a x1e x15 x2e x03 x15)
(L (W x5f x4e x45 x57 x5f x4f x55 x54))
(L (W xb4 x61 xa4 xa0 x9a x6c xcc x6e)))
(T (W xf8 xe9 x04 x37 x15 xfe x55 x40)
(L (W x01 x00 x00 x00 x00 x00 x80 x3f)) E))
(T (W x00 x00 x00 x00 x00 x00 x00 x00)
(T (W x45 x26 x22 x84 xe4 x9c xf2 xcb)
(L (W x45 x41 x30 x32 x5f x30 x32 x32))
(L (W xe0 xda x0f x1b x45 x01 xed xec)))
(T (W x85 xcb xd9 x43 x00 x00 x00 x00)
(L (W x34 x00 x00 x00 x20 x00 x00 x00)) E)))
(T (W x45 x26 x22 x84 xe4 x9c xf2 xcb)
(T (W x00 x00 x00 x00 x30 x46 xfd xff)
(T (W x04 x00 x00 x00 x18 xc6 xfd xff)
(L (W x00 x00 x00 x00 x30 xc6 xfe xff))
(L (W x2c x00 x00 x00 x18 x00 x00 x00)))
(T (W x00 x00 x00 x00 x00 x00 x00 x00)
(L (W x00 x00 x00 x00 x30 x46 xff xff)) E))
(T (W x3c x01 x00 x00 x30 x01 x00 x00)
(T (W x55 x6c xfc xf1 x99 x9e xc9 x88)
(L (W x44 x00 x00 x00 x38 x00 x00 x00)) E)
(T (W x00 x00 x00 x00 x00 x00 x00 x00)
(L (W xf6 x50 x48 xdc x00 x59 x59 x2f)) E)))))
(T (W x44 x00 x00 x00 x38 x00 x00 x00)
(T (W xe1 xfa x53 x44 x00 x00 x00 x00)
(T (W x00 x00 x00 x00 x00 x00 x00 x00)
(T (W x3c x01 x00 x00 x00 x00 xa0 x41)
(T (W x2c x9e xfd xff xae x9d xfd xff)
(L (W x00 x00 x00 x00 x00 x00 x00 x00))
(L (W x55 x39 x81 x6a xc4 xc7 x74 x14)))
(T (W x28 x00 x00 x00 x14 x00 x00 x00)
(L (W x00 x00 x00 x00 x00 x00 x00 x00)) E))
(T (W x45 x26 x22 x84 xe4 x9c xf2 xcb)
(T (W x00 x00 x00 x00 x00 x00 x00 x00)
(L (W x00 x00 x00 x00 x00 x00 x00 x00))
(L (W xaa xdd xff xff x00 x00 x3b x44)))
(T (W x45 x26 x22 x84 xe4 x9c xf2 xcb)
(L (W x00 x00 x00 x00 x30 x5e xff xff)) E)))
(T (W x45 x26 x22 x84 xe4 x9c xf2 xcb)
(T (W x00 x00 x00 x00 x00 x00 x00 x00)
(T (W x01 x00 x00 x00 x04 x00 x00 x00)
(L (W x00 x00 x00 x00 x00 x00 x00 x00))
(L (W xd4 xc0 xff xff x50 x00 x00 x00)))
(T (W x00 x00 x00 x00 x01 x00 x00 x00)
(L (W x54 x49 x4f x4e x5f x41 x52 x45)) E))
(T (W x00 x00 x00 x00 x30 x7e xfd xff)
(T (W xd4 x00 xfe xff x50 x00 x00 x00)
(L (W x4b xd9 xca xf8 x1d xd9 x70 x9e))
(L (W xaa xfd xff xff x00 x00 x80 x3f)))
(T (W x45 x26 x22 x84 xe4 x9c xf2 xcb)
(L (W x04 x00 x00 x00 x00 x00 x00 x00)) E))))
(T (W xae xe4 xf1 x5a xc3 x7b xb1 x2a)
(T (W x1b x00 x00 x00 x57 x53 x59 x53)
(T (W x45 x26 x22 x84 xe4 x9c xf2 xcb)
(T (W x00 x00 x00 x00 x00 x00 x00 x00)
(L (W x45 x26 x22 x84 xe4 x9c xf2 xcb))
(L (W x00 x00 x00 x00 x00 x00 x00 x00)))
(T (W xed xfe xaf x28 xbf x5f x5d x6a)
(L (W x00 x00 x00 x00 x30 x2e xff xff)) E))
(T (W x00 x00 x00 x00 x00 x00 x00 x00)
(T (W x2c xee xfd xff x00 x00 x00 x00)
(L (W x45 x26 x22 x84 xe4 x9c xf2 xcb))
(L (W x00 x00 x00 x00 x30 xee xff xff)))
(T (W x00 x00 x00 x00 x30 x6e xfe xff)
(L (W x44 x00 x00 x00 x38 x00 x00 x00)) E)))
(T (W x48 x00 x00 x00 x34 x00 x00 x00)
(T (W x00 x00 x80 x3f x00 x00 x80 x3f)
(T (W x2d xb7 x2f x19 x15 x10 xe6 x0b)
(L (W x2c xce xfe xff xae xcd xfe xff))
(L (W x0d xde x12 x7a xe9 xe7 x84 x38)))
(T (W x28 x00 x00 x00 x14 x00 x00 x00)
(L (W x45 x26 x22 x84 xe4 x9c xf2 xcb)) E))
(T (W x00 x00 x00 x00 x01 x00 x00 x00)
(T (W x01 x00 x00 x00 x00 x00 x80 x3f)
(L (W x00 x00 x80 x3f x00 x00 x80 x3f)) E)
(T (W x00 x00 x00 x00 x00 x00 x00 x00)
(L (W x00 x00 x00 x00 x00 x00 x00 x00)) E)))))))
(T (W x50 x11 x00 x00 x64 x0f x00 x00)
(T (W x3c x01 x00 x00 x30 x01 x00 x00)
(T (W x00 x00 x00 x00 x01 x00 x00 x00)
(T (W x00 x00 x00 x00 x00 x00 x00 x00)
(T (W x45 x26 x22 x84 xe4 x9c xf2 xcb)
(T (W x00 x00 x00 x00 x00 x00 x00 x00)
(T (W x01 x00 x00 x00 x04 x00 x00 x00)
(L (W x00 x00 x00 x00 x01 x00 x00 x00))
(L (W x00 x00 x00 x00 x01 x00 x00 x00)))
(T (W x00 x00 x00 x00 x30 x14 xfe xff)
(L (W x45 x26 x22 x84 xe4 x9c xf2 xcb)) E))
(T (W x00 x00 x00 x00 x00 x00 x00 x00)
(T (W x2c x00 x00 x00 x20 x00 x00 x00)
(L (W x34 x00 x00 x00 x20 x00 x00 x00))
(L (W xd4 xd6 xff xff x50 x00 x00 x00)))
(T (W x00 x00 x80 xbf x00 x00 x80 xbf)
(L (W x00 x00 x00 x00 x01 x00 x00 x00)) E)))
(T (W x00 x00 x80 xbf x00 x00 x80 xbf)
(T (W x00 x00 x00 x00 x01 x00 x00 x00)
(T (W x00 x00 x00 x00 x00 x00 x00 x00)
(L (W x00 x00 x00 x00 x00 x00 x00 x00))
(L (W x00 x00 x00 x00 x00 x00 x00 x00)))
(T (W x60 x00 x00 x00 x54 x00 x00 x00)
(L (W x2c x34 xff xff x00 x00 x00 x00)) E))
(T (W x1c x01 x00 x00 x01 x00 x00 x00)
(T (W x28 x01 x00 x00 x20 x01 x00 x00)
(L (W x00 x00 x00 x00 x30 xf4 xfe xff))
(L (W x78 x00 x00 x00 x6c x00 x00 x00)))
(T (W x48 x00 x00 x00 x34 x00 x00 x00)
(L (W x5c x00 x00 x00 x50 x00 x00 x00)) E))))
(T (W x22 xa8 xff xff x00 x00 x00 x01)
(T (W x78 x00 x00 x00 x6c x00 x00 x00)
(T (W x00 x00 x80 xbf x00 x00 x80 xbf)
(T (W x00 x00 x80 xbf x00 x00 x80 xbf)
(L (W x48 x01 xf1 x43 x71 x3d xea x42))
(L (W x00 x00 x40 x40 x24 x01 x00 x00)))
(T (W x3c x01 x00 x00 x30 x01 x00 x00)
(L (W x00 x00 x00 x00 x00 x00 x00 x00)) E))
(T (W x2c x00 x00 x00 x20 x00 x00 x00)
(T (W x04 x00 x00 x00 x00 x00 x00 x00)
(L (W x00 x00 x00 x00 x00 x00 x00 x00))
(L (W x00 x00 xe0 x40 x24 x01 x00 x00)))
(T (W x28 x00 x00 x00 x14 x00 x00 x00)
(L (W xda x67 xff xff x40 x01 x00 x00)) E)))
(T (W x2c x00 x00 x00 x20 x00 x00 x00)
(T (W x45 x26 x22 x84 xe4 x9c xf2 xcb)
(T (W x00 x00 x00 x00 x00 x00 x00 x00)
(L (W x45 x26 x22 x84 xe4 x9c xf2 xcb))
(L (W x78 x00 x00 x00 x6c x00 x00 x00)))
(T (W x01 x00 x00 x00 x04 x00 x00 x00)
(L (W x40 x00 x00 x00 x38 x00 x00 x00)) E))
(T (W x42 x52 x45 x41 x4b x5f x41 x52)
(T (W x48 x00 x00 x00 x34 x00 x00 x00)
(L (W x45 x26 x22 x84 xe4 x9c xf2 xcb)) E)
(T (W x31 x9b x4a xdc x00 x65 x5c x2f)
(L (W xd4 x86 xff xff x50 x00 x00 x00)) E)))))
(T (W x00 x00 x00 x00 x30 xac xfc xff)
(T (W x00 x00 x80 x3f x00 x00 x80 x3f)
(T (W x90 x5b x2e x97 x85 x19 x59 x5f)
(T (W x00 x00 x00 x00 x28 x00 x2c x00)
(T (W x5c x00 x00 x00 x50 x00 x00 x00)
(L (W xd4 x9e xfe xff x50 x00 x00 x00))
(L (W x2c x9c xff xff x00 x00 x00 x00)))
(T (W x78 x00 x00 x00 x6c x00 x00 x00)
(L (W x45 x26 x22 x84 xe4 x9c xf2 xcb)) E))
(T (W x04 x00 x00 x00 x00 x00 x00 x00)
(T (W x00 x00 x00 x00 x00 x00 x00 x00)
(L (W x44 x00 x00 x00 x38 x00 x00 x00))
(L (W xaa xdb xff xff xae x67 x9c x43)))
(T (W x2c x00 x00 x00 x20 x00 x00 x00)
(L (W x00 x00 x00 x00 x00 x00 x00 x00)) E)))
(T (W x45 x26 x22 x84 xe4 x9c xf2 xcb)
(T (W x85 xeb x47 x42 x48 x41 x2c x44)
(T (W x00 x00 x00 x00 x30 xbc xfd xff)
(L (W x00 x00 x00 x00 xae xbb xfe xff))
(L (W x45 x26 x22 x84 xe4 x9c xf2 xcb)))
(T (W x45 x26 x22 x84 xe4 x9c xf2 xcb)
(L (W x33 x33 x04 x44 x00 x00 x00 x00)) E))
(T (W x45 x26 x22 x84 xe4 x9c xf2 xcb)
(T (W x45 x26 x22 x84 xe4 x9c xf2 xcb)
(L (W x3c x01 x00 x00 x30 x01 x00 x00))
(L (W x00 x00 x00 x00 x1c x00 x00 x00)))
(T (W x45 x26 x22 x84 xe4 x9c xf2 xcb)
(L (W x79 x3c x17 xab x2e xc8 xe1 x8f)) E))))
(T (W x00 x00 x80 xbf x9c x00 x00 x00)
(T (W x00 x00 x00 x00 x00 x00 x00 x00)
(T (W x54 x00 x00 x00 x48 x00 x00 x00)
(T (W x2c x00 x00 x00 x20 x00 x00 x00)
(L (W x54 x00 x00 x00 x48 x00 x00 x00))
(L (W x19 xd6 xac x28 xbf xd0 x59 x6a)))
(T (W x28 x00 x00 x00 x1c x00 x00 x00)
(L (W x45 x26 x22 x84 xe4 x9c xf2 xcb)) E))
(T (W x66 x66 x1a x42 xcd x0c x69 x44)
(T (W x45 x26 x22 x84 xe4 x9c xf2 xcb)
(L (W x04 x00 x00 x00 x00 x00 x00 x00))
(L (W x45 x26 x22 x84 xe4 x9c xf2 xcb)))
(T (W x40 x00 x00 x00 x38 x00 x00 x00)
(L (W x45 x26 x22 x84 xe4 x9c xf2 xcb)) E)))
(T (W x04 x00 x00 x00 x18 x0c xfd xff)
(T (W x74 x00 x00 x00 x68 x00 x00 x00)
(T (W x3c x01 x00 x00 x30 x01 x00 x00)
(L (W x5c x00 x00 x00 x50 x00 x00 x00))
(L (W x00 x00 x40 x40 x24 x01 x00 x00)))
(T (W x78 x00 x00 x00 x6c x00 x00 x00)
(L (W x00 x00 x00 x00 x01 x00 x00 x00)) E))
(T (W x45 x26 x22 x84 xe4 x9c xf2 xcb)
(T (W x00 x00 x00 x00 x00 x00 x00 x00)
(L (W x28 x00 x00 x00 x14 x00 x00 x00)) E)
(T (W xaa x8b xfe xff x00 x00 x80 x3f)
(L (W x45 x26 x22 x84 xe4 x9c xf2 xcb)) E))))))
(T (W x34 x00 x00 x00 x20 x00 x00 x00)
(T (W x45 x26 x22 x84 xe4 x9c xf2 xcb)
(T (W x5c x00 x00 x00 x50 x00 x00 x00)
(T (W x2c xd8 xfc xff x00 x00 x00 x00)
(T (W x4e x45 x52 x41 x54 x49 x4f x4e)
(T (W x00 x00 x00 x00 x00 x00 x00 x00)
(L (W x45 x26 x22 x84 xe4 x9c xf2 xcb))
(L (W x00 x00 x00 x00 x30 x98 xff xff)))
(T (W x2c x00 x00 x00 x20 x00 x00 x00)
(L (W x2c x18 xff xff x00 x00 x00 x00)) E))
(T (W x42 x52 x45 x41 x4b x5f x41 x52)
(T (W x5c x00 x00 x00 x50 x00 x00 x00)
(L (W x40 x00 x00 x00 x38 x00 x00 x00))
(L (W x00 x00 x00 x00 x00 x00 x00 x00)))
(T (W x45 x26 x22 x84 xe4 x9c xf2 xcb)
(L (W x00 x00 x00 x00 x30 x58 xff xff)) E)))
(T (W x00 x00 x00 x00 x01 x00 x00 x00)
(T (W x55 x39 x81 x6a xc4 xc7 x74 x14)
(T (W xc9 xa2 x71 x12 xda x41 x5c x29)
(L (W x00 x00 x00 x00 x00 x00 x00 x00))
(L (W x00 x00 x80 xbf x9c x00 x00 x00)))
(T (W x00 x00 x00 x00 x00 x00 x00 x00)
(L (W x28 x00 x00 x00 x14 x00 x00 x00)) E))
(T (W x45 x26 x22 x84 xe4 x9c xf2 xcb)
(T (W xca xc4 xf3 x13 x15 xe6 xd9 x02)
(L (W x00 x00 x00 x00 xae xf7 xfe xff))
(L (W x00 x00 x00 x00 x00 x00 x00 x00)))
(T (W x1c x00 x00 x00 x46 x53 x59 x53)
(L (W x00 x00 x00 x00 x00 x00 x00 x00)) E))))
(T (W x00 x00 x80 xbf x9c x00 x00 x00)
(T (W x00 x00 x00 x00 xae xe7 xfc xff)
(T (W x04 x00 x00 x00 x00 x00 x00 x00)
(T (W x54 x00 x00 x00 x48 x00 x00 x00)
(L (W x3c x01 x00 x00 x30 x01 x00 x00))
(L (W x40 x00 x00 x00 x38 x00 x00 x00)))
(T (W x54 x00 x00 x00 x48 x00 x00 x00)
(L (W xb5 x83 x8c xe8 x48 x5b x42 x2f)) E))
(T (W x60 x00 x00 x00 x54 x00 x00 x00)
(T (W x45 x26 x22 x84 xe4 x9c xf2 xcb)
(L (W x00 x00 x40 x40 x24 x01 x00 x00))
(L (W x04 x00 x00 x00 x00 x00 x00 x00)))
(T (W x00 x00 x40 x40 x24 x01 x00 x00)
(L (W x00 x00 x00 x00 x01 x00 x00 x00)) E)))
(T (W x00 x00 x00 x00 x00 x00 x00 x00)
(T (W x44 x00 x00 x00 x38 x00 x00 x00)
(T (W x44 x00 x00 x00 x30 x00 x00 x00)
(L (W x45 x26 x22 x84 xe4 x9c xf2 xcb))
(L (W xaa xc7 xff xff x00 x00 x80 x3f)))
(T (W x45 x41 x30 x32 x5f x30 x31 x37)
(L (W x01 x00 x00 x00 x04 x00 x00 x00)) E))
(T (W x01 x00 x00 x00 x00 x00 x80 x3f)
(T (W x00 x00 x80 x3f x30 x08 xfe xff)
(L (W x00 x00 x00 x00 x00 x00 x00 x00)) E)
(T (W x00 x00 x00 x00 x00 x00 x00 x00)
(L (W x00 x00 x00 x00 x00 x00 x00 x00)) E)))))
(T (W x45 x26 x22 x84 xe4 x9c xf2 xcb)
(T (W x00 x00 x00 x00 x00 x00 x00 x00)
(T (W x00 x00 x00 x00 x00 x00 x00 x00)
(T (W x00 x00 x00 x01 x48 x01 x00 x00)
(T (W x00 x00 x00 x00 x00 x00 x00 x00)
(L (W x04 x00 x00 x00 x50 xa2 xfe xff))
(L (W x00 x00 x80 x3f x00 x00 x80 x3f)))
(T (W x3d x0a x35 x42 xc3 x25 x0d x44)
(L (W x5c x00 x00 x00 x50 x00 x00 x00)) E))
(T (W x45 x26 x22 x84 xe4 x9c xf2 xcb)
(T (W x00 x00 xa0 x40 x24 x01 x00 x00)
(L (W x2c xe0 xfe xff x00 x00 x00 x00))
(L (W x1c x00 x00 x00 x46 x53 x59 x53)))
(T (W x00 x00 x00 x00 x00 x00 x00 x00)
(L (W x28 x00 x00 x00 x14 x00 x00 x00)) E)))
(T (W x00 x00 x00 x00 x30 x00 xfd xff)
(T (W x00 x00 x80 xbf x00 x00 x80 xbf)
(T (W x2c x00 x00 x00 x20 x00 x00 x00)
(L (W x01 x00 x00 x00 x00 x00 x80 x3f))
(L (W x45 x26 x22 x84 xe4 x9c xf2 xcb)))
(T (W x40 x00 x00 x00 x38 x00 x00 x00)
(L (W x00 x00 x80 xbf x9c x00 x00 x00)) E))
(T (W x28 x00 x00 x00 x14 x00 x00 x00)
(T (W x00 x00 x00 x00 x00 x00 x00 x00)
(L (W x00 x00 x00 x00 x01 x00 x00 x00))
(L (W x1c x00 x20 x00 x18 x00 x00 x00)))
(T (W x45 x26 x22 x84 xe4 x9c xf2 xcb)
(L (W x45 x26 x22 x84 xe4 x9c xf2 xcb)) E))))
(T (W x04 x00 x00 x00 x00 x00 x00 x00)
(T (W x5f x41 x52 x45 x41 x30 x32 x00)
(T (W xd4 x32 xfd xff x50 x00 x00 x00)
(T (W x5c x00 x00 x00 x50 x00 x00 x00)
(L (W x2c xb0 xfe xff x00 x00 x00 x00))
(L (W x60 x00 x00 x00 x54 x00 x00 x00)))
(T (W x00 x00 x00 x00 x00 x00 x00 x00)
(L (W x2c x00 x00 x00 x20 x00 x00 x00)) E))
(T (W x5f x4e x45 x57 x5f x4f x55 x54)
(T (W x45 x26 x22 x84 xe4 x9c xf2 xcb)
(L (W x00 x00 x00 x00 x30 xf0 xfe xff))
(L (W x45 x26 x22 x84 xe4 x9c xf2 xcb)))
(T (W x6c x88 xa7 x28 xbf x4b x53 x6a)
(L (W x45 x26 x22 x84 xe4 x9c xf2 xcb)) E)))
(T (W x4f x84 x6f x8b xe8 xcb x63 xb7)
(T (W x66 xe6 x8a x42 x9a x59 xb5 x43)
(T (W x54 x00 x00 x00 x48 x00 x00 x00)
(L (W x00 x00 x00 x00 xf2 xd7 xfe xff))
(L (W x00 x00 x00 x00 x01 x00 x00 x00)))
(T (W x8f x02 xd9 x43 x00 x00 x00 x00)
(L (W x00 x00 x00 x00 x00 x00 x00 x00)) E))
(T (W x45 x26 x22 x84 xe4 x9c xf2 xcb)
(T (W x45 x26 x22 x84 xe4 x9c xf2 xcb)
(L (W x00 x00 x00 x00 x00 x00 x00 x00)) E)
(T (W x3c x01 x00 x00 x30 x01 x00 x00)
(L (W x01 x00 x00 x00 x00 x00 x80 x3f)) E)))))))))
(T (W x34 xa2 x02 x00 x48 xa0 x02 x00)
(T (W x64 x2c x02 x00 x98 x2a x02 x00)
(T (W x64 x3f x01 x00 x98 x3d x01 x00)
(T (W x5c x00 x00 x00 x50 x00 x00 x00)
(T (W x00 x00 x00 x00 x00 x00 x00 x00)
(T (W x45 x26 x22 x84 xe4 x9c xf2 xcb)
(T (W x5f x41 x52 x45 x41 x30 x32 x00)
(T (W x00 x00 x00 x00 x00 x00 x00 x00)
(T (W x34 x00 x00 x00 x20 x00 x00 x00)
(L (W x00 x00 x80 x3f x00 x00 x80 x3f))
(L (W xae x67 x07 x44 x00 x00 x00 x00)))
(T (W x4a x35 xfe xff x00 x00 x00 x01)
(L (W x55 x6c xfc xf1 x99 x9e xc9 x88)) E))
(T (W x42 x52 x45 x41 x4b x5f x41 x52)
(T (W x00 x00 x80 xbf x9c x00 x00 x00)
(L (W x2a xd1 xfe xff x00 x00 x80 x3f))
(L (W x01 x00 x00 x00 x00 x00 x80 x3f)))
(T (W x60 x00 x00 x00 x54 x00 x00 x00)
(L (W x28 x00 x00 x00 x14 x00 x00 x00)) E)))
(T (W x4f x84 x6f x8b xe8 xcb x63 xb7)
(T (W x45 x26 x22 x84 xe4 x9c xf2 xcb)
(T (W x00 x00 x00 x00 x00 x00 x00 x00)
(L (W x54 x00 x00 x00 x48 x00 x00 x00))
(L (W x00 x00 x00 x00 x00 x00 x00 x00)))
(T (W xac x31 xfe xff x00 x00 x00 x00)
(L (W x40 x00 x00 x00 x38 x00 x00 x00)) E))
(T (W x2c x00 x00 x00 x18 x00 x00 x00)
(T (W x00 x00 x00 x00 x00 x00 x00 x00)
(L (W x54 x00 x00 x00 x48 x00 x00 x00))
(L (W x00 x00 x00 x00 xb0 xf1 xff xff)))
(T (W x45 x26 x22 x84 xe4 x9c xf2 xcb)
(L (W x45 x26 x22 x84 xe4 x9c xf2 xcb)) E))))
(T (W x74 x00 x00 x00 x68 x00 x00 x00)
(T (W x00 x00 x00 x00 xb0 xe1 xfc xff)
(T (W x45 x26 x22 x84 xe4 x9c xf2 xcb)
(T (W x55 x6c xfc xf1 x99 x9e xc9 x88)
(L (W x45 x26 x22 x84 xe4 x9c xf2 xcb))
(L (W x00 x00 x00 x00 x00 x00 x00 x00)))
(T (W xac x21 xfe xff x00 x00 x00 x00)
(L (W x45 x26 x22 x84 xe4 x9c xf2 xcb)) E))
(T (W x15 xe3 x1b x72 x9d x0f xa7 xbe)
(T (W xac xe1 xfd xff x2e xe1 xfd xff)
(L (W x75 x13 xb9 x28 xbf xd0 x67 x6a))
(L (W x44 x00 x00 x00 x30 x00 x00 x00)))
(T (W x45 x26 x22 x84 xe4 x9c xf2 xcb)
(L (W x00 x00 x00 x00 x00 x00 x00 x00)) E)))
(T (W x45 x26 x22 x84 xe4 x9c xf2 xcb)
(T (W x00 x00 x00 x00 x00 x00 x00 x00)
(T (W x40 x00 x00 x00 x38 x00 x00 x00)
(L (W x71 x7d x5c x43 x00 x00 x00 x00))
(L (W x45 x26 x22 x84 xe4 x9c xf2 xcb)))
(T (W x34 x00 x00 x00 x20 x00 x00 x00)
(L (W x00 x00 x00 x00 x00 x00 x00 x00)) E))
(T (W x00 x00 x00 x00 x00 x00 x00 x00)
(T (W x00 x00 x00 x00 xb0 x01 xfe xff)
(L (W x42 x52 x45 x41 x4b x5f x41 x52)) E)
(T (W x00 x00 x00 x00 x01 x00 x00 x00)
(L (W x34 x00 x00 x00 x20 x00 x00 x00)) E)))))
(T (W x00 x00 x80 xbf x9c x00 x00 x00)
(T (W x3f x7c x88 xaf x9a x1e x19 x7c)
(T (W x00 x00 x00 x00 x01 x00 x00 x00)
(T (W xd6 x81 x9c x94 x9b x27 x57 x25)
(T (W xac x99 xfd xff x00 x00 x00 x00)
(L (W x01 x00 x00 x00 x00 x00 x80 x3f))
(L (W x40 x00 x00 x00 x38 x00 x00 x00)))
(T (W x45 x26 x22 x84 xe4 x9c xf2 xcb)
(L (W x04 x00 x00 x00 x00 x00 x00 x00)) E))
(T (W x45 x26 x22 x84 xe4 x9c xf2 xcb)
(T (W x00 x00 x00 x00 x00 x00 x00 x00)
(L (W x00 x00 x80 xbf x9c x00 x00 x00))
(L (W x44 x00 x00 x00 x38 x00 x00 x00)))
(T (W x00 x00 x80 xbf x9c x00 x00 x00)
(L (W x04 x00 x00 x00 x00 x00 x00 x00)) E)))
(T (W x4e x45 x52 x41 x54 x49 x4f x4e)
(T (W x00 x00 x00 x00 x00 x00 x00 x00)
(T (W x00 x00 x00 x00 x72 xc1 xfd xff)
(L (W x01 x00 x00 x00 x04 x00 x00 x00))
(L (W x00 x00 x00 x00 x00 x00 x00 x00)))
(T (W x44 x00 x00 x00 x30 x00 x00 x00)
(L (W x00 x00 x00 x00 x00 x00 x00 x00)) E))
(T (W x58 x89 x64 x23 x15 xd6 xaf x1d)
(T (W x00 x00 x00 x00 x00 x00 x00 x00)
(L (W x00 x00 x00 x00 x00 x00 x00 x00))
(L (W x00 x00 x00 x00 x01 x00 x00 x00)))
(T (W x44 x00 x00 x00 x30 x00 x00 x00)
(L (W x48 x00 x00 x00 x34 x00 x00 x00)) E))))
(T (W x00 x00 x00 x00 x00 x00 x00 x00)
(T (W x00 x00 x00 x00 x00 x00 x00 x00)
(T (W x57 x53 x59 x53 x5f x55 x4e x4e)
(T (W x00 x00 x80 xbf x9c x00 x00 x00)
(L (W x00 x00 x80 x3f x00 x00 x80 x3f))
(L (W x34 x00 x00 x00 x20 x00 x00 x00)))
(T (W x00 x00 x80 xbf x9c x00 x00 x00)
(L (W x00 x00 x00 x00 x00 x00 x00 x00)) E))
(T (W x00 x00 x00 x00 x00 x00 x00 x00)
(T (W x26 x09 x37 x1b xbe xf4 x1d x4f)
(L (W x00 x00 x80 x3f xb0 xe9 xfe xff))
(L (W x5f x30 x30 x39 x00 x00 x00 x00)))
(T (W xac x69 xfe xff x2e x69 xfe xff)
(L (W x00 x00 x80 x40 x24 x01 x00 x00)) E)))
(T (W x45 x26 x22 x84 xe4 x9c xf2 xcb)
(T (W x45 x26 x22 x84 xe4 x9c xf2 xcb)
(T (W x00 x00 x00 x00 x00 x00 x00 x00)
(L (W x00 x00 x00 x00 xb0 xc9 xfe xff))
(L (W xac xc9 xff xff x00 x00 x00 x00)))
(T (W x00 x00 x00 x00 xb0 x49 xfe xff)
(L (W x45 x26 x22 x84 xe4 x9c xf2 xcb)) E))
(T (W x00 x00 x12 x42 x33 x13 x55 x44)
(T (W x00 x00 x00 x00 x00 x00 x00 x00)
(L (W x45 x26 x22 x84 xe4 x9c xf2 xcb)) E)
(T (W x00 x00 x00 x00 xb0 x89 xfe xff)
(L (W xac x89 xff xff x00 x00 x00 x00)) E))))))
(T (W x00 x00 x80 x3f x00 x00 x80 x3f)
(T (W xa2 x89 xff xff x00 x00 x00 x01)
(T (W xac xb5 xfc xff x00 x00 x00 x00)
(T (W x00 x00 x80 xbf x00 x00 x80 xbf)
(T (W x00 x00 x00 x00 x01 x00 x00 x00)
(T (W x45 x26 x22 x84 xe4 x9c xf2 xcb)
(L (W x42 x52 x45 x41 x4b x5f x41 x52))
(L (W x00 x00 x40 x40 x24 x01 x00 x00)))
(T (W xaf xdf x1b x72 x9d x0d xa7 xbe)
(L (W x3c x01 x00 x00 x30 x01 x00 x00)) E))
(T (W x00 x00 x00 x00 x01 x00 x00 x00)
(T (W x45 x26 x22 x84 xe4 x9c xf2 xcb)
(L (W x00 x00 x00 x00 x00 x00 x00 x00))
(L (W x45 x26 x22 x84 xe4 x9c xf2 xcb)))
(T (W x00 x00 x00 x00 x00 x00 x00 x00)
(L (W x00 x00 x80 x40 x24 x01 x00 x00)) E)))
(T (W x00 x00 x00 x00 x00 x00 x00 x00)
(T (W x54 x38 xfd xff x50 x00 x00 x00)
(T (W x55 x6c xfc xf1 x99 x9e xc9 x88)
(L (W x45 x26 x22 x84 xe4 x9c xf2 xcb))
(L (W x45 x26 x22 x84 xe4 x9c xf2 xcb)))
(T (W x28 x2a xc8 xc9 x03 x89 xa0 xbc)
(L (W x01 x00 x00 x00 x04 x00 x00 x00)) E))
(T (W x52 xf8 xd6 x43 x66 x66 x26 x42)
(T (W xac xf5 xfd xff x2e xf5 xfd xff)
(L (W x2c x00 x00 x00 x20 x00 x00 x00))
(L (W x45 x26 x22 x84 xe4 x9c xf2 xcb)))
(T (W x00 x00 x00 x00 x00 x00 x00 x00)
(L (W x00 x00 x00 x00 x00 x00 x00 x00)) E))))
(T (W x2a xc5 xfc xff x00 x00 x80 x3f)
(T (W x2c x00 x00 x00 x20 x00 x00 x00)
(T (W x00 x00 x00 x00 x00 x00 x00 x00)
(T (W x00 x00 x00 x00 x00 x00 x00 x00)
(L (W x78 x00 x00 x00 x6c x00 x00 x00))
(L (W xac xa5 xff xff x2e xa5 xff xff)))
(T (W x00 x00 x80 x3f x00 x00 x80 x3f)
(L (W x28 x00 x00 x00 x14 x00 x00 x00)) E))
(T (W x45 x26 x22 x84 xe4 x9c xf2 xcb)
(T (W x1c x01 x00 x00 x01 x00 x00 x00)
(L (W x48 x00 x00 x00 x34 x00 x00 x00))
(L (W xac xe5 xff xff x2e xe5 xff xff)))
(T (W x00 x00 x00 x00 x00 x00 x00 x00)
(L (W x2a x65 xff xff x00 x00 x80 x3f)) E)))
(T (W x40 x00 x00 x00 x38 x00 x00 x00)
(T (W x4f xf7 x93 x94 x26 xb8 x98 xbd)
(T (W x00 x00 x00 x00 xb0 xc5 xfd xff)
(L (W x0d x2a x43 xcf x5e x65 xd0 x49))
(L (W x2c x00 x00 x00 x20 x00 x00 x00)))
(T (W x45 x26 x22 x84 xe4 x9c xf2 xcb)
(L (W x34 x00 x00 x00 x20 x00 x00 x00)) E))
(T (W x55 x39 x81 x6a xc4 xc7 x74 x14)
(T (W x45 x26 x22 x84 xe4 x9c xf2 xcb)
(L (W x04 x00 x00 x00 x00 x00 x00 x00)) E)
(T (W x45 x26 x22 x84 xe4 x9c xf2 xcb)
(L (W x04 x00 x00 x00 xea x8a xff xff)) E)))))
(T (W x04 x00 x00 x00 x00 x00 x00 x00)
(T (W x00 x00 x00 x00 x00 x00 x00 x00)
(T (W x45 x26 x22 x84 xe4 x9c xf2 xcb)
(T (W xd6 x81 x9c x94 x9b x27 x57 x25)
(T (W x00 x00 x00 x00 x00 x00 x00 x00)
(L (W x45 x26 x22 x84 xe4 x9c xf2 xcb))
(L (W x42 xa0 xaa x28 xbf xd0 x56 x6a)))
(T (W x2c x00 x00 x00 x20 x00 x00 x00)
(L (W x45 x26 x22 x84 xe4 x9c xf2 xcb)) E))
(T (W x34 x01 x00 x00 x03 x00 x00 x00)
(T (W x00 x00 x00 x00 x01 x00 x00 x00)
(L (W x45 x26 x22 x84 xe4 x9c xf2 xcb))
(L (W x00 x00 x00 x00 x00 x00 x00 x00)))
(T (W x40 x00 x00 x00 x38 x00 x00 x00)
(L (W x45 x26 x22 x84 xe4 x9c xf2 xcb)) E)))
(T (W x04 x00 x00 x00 x00 x00 x80 x3f)
(T (W xac x3d xfd xff x00 x00 x00 x00)
(T (W x45 x26 x22 x84 xe4 x9c xf2 xcb)
(L (W x00 x00 x00 x00 xb0 xbd xfe xff))
(L (W x00 x00 x00 x00 x01 x00 x00 x00)))
(T (W x5f x4e x45 x57 x5f x4f x55 x54)
(L (W x5c x00 x00 x00 x50 x00 x00 x00)) E))
(T (W x45 x26 x22 x84 xe4 x9c xf2 xcb)
(T (W x00 x00 x00 x00 x01 x00 x00 x00)
(L (W x00 x00 x80 x3f x00 x00 x80 x3f))
(L (W x00 x00 x00 x00 x00 x00 x00 x00)))
(T (W x3c x01 x00 x00 x30 x01 x00 x00)
(L (W x1c x00 x00 x00 x46 x53 x59 x53)) E))))
(T (W x00 x00 x00 x00 x00 x00 x00 x00)
(T (W x04 x00 x00 x00 x98 xed xfc xff)
(T (W x00 x00 x80 xbf x00 x00 x80 xbf)
(T (W x45 x26 x22 x84 xe4 x9c xf2 xcb)
(L (W x28 x01 x00 x00 x20 x01 x00 x00))
(L (W x45 x26 x22 x84 xe4 x9c xf2 xcb)))
(T (W x04 x00 x00 x00 xea x32 xfe xff)
(L (W x75 x1b x9b x55 x3c x3c x03 xab)) E))
(T (W xac x6d xfd xff x00 x00 x00 x00)
(T (W x00 x00 x00 x00 xb0 xed xfd xff)
(L (W x1c x01 x00 x00 x01 x00 x00 x00))
(L (W xe5 xbc x6d xdb x63 x7e x86 x1d)))
(T (W x34 x00 x00 x00 x20 x00 x00 x00)
(L (W x04 x00 x00 x00 x00 x00 x00 x00)) E)))
(T (W x44 x00 x00 x00 x38 x00 x00 x00)
(T (W x00 x00 x00 x00 x00 x00 x00 x00)
(T (W x00 x00 x80 x3f x00 x00 x80 x3f)
(L (W x00 x00 x00 x00 x00 x00 x00 x00))
(L (W xac xcd xff xff x2e xcd xff xff)))
(T (W x2c x00 x00 x00 x20 x00 x00 x00)
(L (W x45 x26 x22 x84 xe4 x9c xf2 xcb)) E))
(T (W x5f x4e x45 x57 x5f x4f x55 x54)
(T (W x45 x26 x22 x84 xe4 x9c xf2 xcb)
(L (W x00 x00 x00 x00 x00 x00 x00 x00)) E)
(T (W xac x8d xfe xff x00 x00 x00 x00)
(L (W x00 x00 x00 x00 xb0 x8d xff xff)) E)))))))
(T (W x00 x4f x00 x00 x14 x4d x00 x00)
(T (W x49 xa1 x68 x4a xeb x5f xdd x3d)
(T (W x5f x4f x55 x54 x42 x52 x45 x41)
(T (W x45 x26 x22 x84 xe4 x9c xf2 xcb)
(T (W x00 x00 xe0 x40 x24 x01 x00 x00)
(T (W x00 x00 x00 x00 x00 x00 x00 x00)
(T (W x45 x26 x22 x84 xe4 x9c xf2 xcb)
(L (W x00 x00 x00 x00 x00 x00 x00 x00))
(L (W x00 x00 x00 x00 x00 x00 x00 x00)))
(T (W x34 x00 x00 x00 x20 x00 x00 x00)
(L (W x66 xa6 x03 x44 x66 x66 x96 x42)) E))
(T (W x45 x41 x30 x32 x5f x30 x30 x38)
(T (W x00 x00 x00 x00 x01 x00 x00 x00)
(L (W xb8 x9e xc1 x42 x7b x54 x86 x43))
(L (W x00 x00 x00 x00 x01 x00 x00 x00)))
(T (W x45 x26 x22 x84 xe4 x9c xf2 xcb)
(L (W x00 x80 x14 x44 x00 x00 x00 x00)) E)))
(T (W x00 x00 x80 x3f xb0 xf3 xfc xff)
(T (W xac x33 xfd xff x00 x00 x00 x00)
(T (W x04 x00 x00 x00 x98 xb3 xfd xff)
(L (W x45 x26 x22 x84 xe4 x9c xf2 xcb))
(L (W x00 x00 x00 x00 x01 x00 x00 x00)))
(T (W x54 x36 xfe xff x50 x00 x00 x00)
(L (W x00 x00 x00 x00 xb0 x33 xff xff)) E))
(T (W x00 x00 x00 x00 x2e x73 xfd xff)
(T (W x48 x00 x00 x00 x34 x00 x00 x00)
(L (W x45 x26 x22 x84 xe4 x9c xf2 xcb))
(L (W x01 x00 x00 x00 x04 x00 x00 x00)))
(T (W x44 x00 x00 x00 x38 x00 x00 x00)
(L (W x54 x76 xff xff x50 x00 x00 x00)) E))))
(T (W x28 x00 x00 x00 x14 x00 x00 x00)
(T (W x01 x00 x00 x00 x04 x00 x00 x00)
(T (W x96 x18 x57 x7c xc9 x05 xf6 x34)
(T (W xac xa3 xfd xff x2e xa3 xfd xff)
(L (W x00 x00 x00 x00 x00 x00 x00 x00))
(L (W x5c x00 x00 x00 x50 x00 x00 x00)))
(T (W x74 x00 x00 x00 x68 x00 x00 x00)
(L (W x00 x00 x00 x00 xb0 x23 xff xff)) E))
(T (W x00 x00 x00 x00 x01 x00 x00 x00)
(T (W x1b x00 x00 x00 x57 x53 x59 x53)
(L (W x00 x00 x00 x00 x00 x00 x00 x00))
(L (W x55 x6c xfc xf1 x99 x9e xc9 x88)))
(T (W x2c x00 x00 x00 x20 x00 x00 x00)
(L (W x78 x00 x00 x00 x6c x00 x00 x00)) E)))
(T (W x00 x00 x00 x00 x01 x00 x00 x00)
(T (W x1c x01 x00 x00 x01 x00 x00 x00)
(T (W x45 x26 x22 x84 xe4 x9c xf2 xcb)
(L (W x00 x00 xa0 x40 x24 x01 x00 x00))
(L (W x01 x00 x00 x00 x04 x00 x00 x00)))
(T (W x45 x26 x22 x84 xe4 x9c xf2 xcb)
(L (W x00 x00 x00 x00 x72 x4b xff xff)) E))
(T (W x60 x00 x00 x00 x54 x00 x00 x00)
(T (W x44 x00 x00 x00 x38 x00 x00 x00)
(L (W x00 x00 x80 xbf x00 x00 x80 xbf)) E)
(T (W x04 x00 x00 x00 xea x88 xfe xff)
(L (W x00 x00 x00 x00 x01 x00 x00 x00)) E)))))
(T (W x49 x03 x73 x9e x08 xc2 x96 x84)
(T (W x00 x00 x00 x00 x00 x00 x00 x00)
(T (W x04 x00 x00 x00 xea xe0 xfc xff)
(T (W x00 x00 x80 x3f x00 x00 x80 x3f)
(T (W x54 x9e xfd xff x50 x00 x00 x00)
(L (W x00 x00 x00 x00 x01 x00 x00 x00))
(L (W x00 x00 x00 x00 xb0 x9b xff xff)))
(T (W x01 x00 x00 x00 x04 x00 x00 x00)
(L (W x40 x00 x00 x00 x38 x00 x00 x00)) E))
(T (W x00 x00 x00 x00 x00 x00 x00 x00)
(T (W x00 x00 x00 x00 x00 x00 x00 x00)
(L (W x04 x00 x00 x00 x00 x00 x00 x00))
(L (W x00 x00 x00 x00 x00 x00 x00 x00)))
(T (W x00 x00 x00 x00 x01 x00 x00 x00)
(L (W x45 x26 x22 x84 xe4 x9c xf2 xcb)) E)))
(T (W x3c x01 x00 x00 x30 x01 x00 x00)
(T (W x00 x00 x00 x00 x00 x00 x00 x00)
(T (W x34 x00 x00 x00 x20 x00 x00 x00)
(L (W x45 x26 x22 x84 xe4 x9c xf2 xcb))
(L (W x01 x00 x00 x00 x00 x00 x80 x3f)))
(T (W xcd x0c x2f x44 x33 x33 x31 x42)
(L (W x00 x00 x00 x00 x00 x00 x00 x00)) E))
(T (W x54 x00 x00 x00 x48 x00 x00 x00)
(T (W x00 x00 x80 x3f x02 x00 x00 x00)
(L (W x74 x00 x00 x00 x68 x00 x00 x00))
(L (W x00 x00 x00 x00 x01 x00 x00 x00)))
(T (W x7b x14 x3e x43 xc3 xf5 x17 x42)
(L (W xac x7b xff xff x2e x7b xff xff)) E))))
(T (W x57 x53 x59 x53 x5f x4d x41 x53)
(T (W x00 x00 x00 x00 xb0 xeb xfc xff)
(T (W x54 x5f x4e x55 x4d x00 x00 x00)
(T (W x00 x00 x00 x00 x01 x00 x00 x00)
(L (W x00 x00 x00 x00 x00 x00 x00 x00))
(L (W x04 x00 x00 x00 xea xb0 xff xff)))
(T (W x00 x00 x00 x00 x01 x00 x00 x00)
(L (W x00 x00 x80 xbf x9c x00 x00 x00)) E))
(T (W x00 x00 x00 x00 x00 x00 x00 x00)
(T (W x40 x00 x00 x00 x38 x00 x00 x00)
(L (W x00 x00 x00 x00 x00 x00 x00 x00))
(L (W x00 x00 x20 x41 x24 x01 x00 x00)))
(T (W x00 x00 x00 x00 x72 x73 xfe xff)
(L (W x00 x00 x80 xbf x00 x00 x80 xbf)) E)))
(T (W x00 x00 x00 x00 xb0 x0b xfd xff)
(T (W x01 x00 x00 x00 x04 x00 x00 x00)
(T (W x74 x00 x00 x00 x68 x00 x00 x00)
(L (W x54 xce xfe xff x50 x00 x00 x00))
(L (W x5c x00 x00 x00 x50 x00 x00 x00)))
(T (W x01 x00 x00 x00 x04 x00 x00 x00)
(L (W xac x4b xff xff x00 x00 x00 x00)) E))
(T (W x00 x00 x00 x00 x00 x00 x00 x00)
(T (W x00 x00 x00 x00 x01 x00 x00 x00)
(L (W x2c x00 x00 x00 x20 x00 x00 x00)) E)
(T (W x45 x26 x22 x84 xe4 x9c xf2 xcb)
(L (W x45 x26 x22 x84 xe4 x9c xf2 xcb)) E))))))
(T (W x8f xc2 x52 x43 x00 x00 x00 x00)
(T (W x1c x01 x00 x00 x04 x00 x00 x00)
(T (W x54 xba xfc xff x50 x00 x00 x00)
(T (W x21 x68 xba x4b xbc x38 x01 xeb)
(T (W x60 x00 x00 x00 x54 x00 x00 x00)
(T (W x45 x26 x22 x84 xe4 x9c xf2 xcb)
(L (W x3c x01 x00 x00 x30 x01 x00 x00))
(L (W xd6 x2d x42 xf8 x55 x01 xcb x31)))
(T (W x00 x00 x00 x00 x01 x00 x00 x00)
(L (W x92 xd2 x0c xfe x1d xf5 x83 xa7)) E))
(T (W x60 x00 x00 x00 x54 x00 x00 x00)
(T (W x54 xda xfd xff x50 x00 x00 x00)
(L (W x5a xdb xfe xff x40 x01 x00 x00))
(L (W x45 x26 x22 x84 xe4 x9c xf2 xcb)))
(T (W x1c x01 x00 x00 x01 x00 x00 x00)
(L (W x25 xf6 x75 x58 xfa x71 x27 xaf)) E)))
(T (W x02 x00 x00 x00 x32 x31 x00 x00)
(T (W xb7 x8a x02 x4c x84 x25 x7f x61)
(T (W xac xb7 xfd xff x2e xb7 xfd xff)
(L (W x45 x26 x22 x84 xe4 x9c xf2 xcb))
(L (W x45 x26 x22 x84 xe4 x9c xf2 xcb)))
(T (W x00 x00 x00 x00 x00 x00 x00 x00)
(L (W x2c x00 x00 x00 x20 x00 x00 x00)) E))
(T (W x3c x01 x00 x00 x30 x01 x00 x00)
(T (W x00 x00 x00 x00 x00 x00 x00 x00)
(L (W x45 x26 x22 x84 xe4 x9c xf2 xcb))
(L (W xac xf7 xff xff x00 x00 x00 x00)))
(T (W x04 x00 x00 x00 x98 x77 xfe xff)
(L (W x00 x00 x00 x00 x00 x00 x00 x00)) E))))
(T (W x00 xa0 xaa x43 xd7 xa3 x5e x42)
(T (W x45 x26 x22 x84 xe4 x9c xf2 xcb)
(T (W x00 x00 x00 x00 x00 x00 x00 x00)
(T (W x00 x00 x00 x00 x00 x00 x00 x00)
(L (W x28 x00 x00 x00 x14 x00 x00 x00))
(L (W x00 x00 x00 x00 x72 xaf xff xff)))
(T (W x00 x00 x00 x00 x00 x00 x00 x00)
(L (W x33 xb3 x03 x44 x00 x00 x00 x00)) E))
(T (W x54 x6a xfd xff x50 x00 x00 x00)
(T (W x00 x00 x80 xbf x9c x00 x00 x00)
(L (W x55 x6c xfc xf1 x99 x9e xc9 x88))
(L (W x46 x53 x59 x53 x5f x4e x45 x57)))
(T (W x5c x00 x00 x00 x50 x00 x00 x00)
(L (W x32 x31 x00 x00 x02 x00 x00 x00)) E)))
(T (W x45 x26 x22 x84 xe4 x9c xf2 xcb)
(T (W x04 x00 x00 x00 x00 x00 x00 x00)
(T (W x44 x00 x00 x00 x38 x00 x00 x00)
(L (W x40 x00 x00 x00 x38 x00 x00 x00))
(L (W x45 x26 x22 x84 xe4 x9c xf2 xcb)))
(T (W xac x47 xfe xff x00 x00 x00 x00)
(L (W x45 x26 x22 x84 xe4 x9c xf2 xcb)) E))
(T (W x00 x00 x80 x3f x00 x00 x80 x3f)
(T (W x00 x00 x00 x00 x00 x00 x00 x00)
(L (W x45 x26 x22 x84 xe4 x9c xf2 xcb)) E)
(T (W x45 x26 x22 x84 xe4 x9c xf2 xcb)
(L (W x45 x26 x22 x84 xe4 x9c xf2 xcb)) E)))))
(T (W x54 x00 x00 x00 x48 x00 x00 x00)
(T (W xac xbf xfc xff x00 x00 x00 x00)
(T (W x45 x26 x22 x84 xe4 x9c xf2 xcb)
(T (W x2a x1f xfd xff x00 x00 x80 x3f)
(T (W x04 x00 x00 x00 x98 x9f xfd xff)
(L (W x00 x00 x00 x00 xb0 x9f xfe xff))
(L (W x00 x00 x00 x00 x00 x00 x00 x00)))
(T (W x00 x00 x00 x00 x00 x00 x00 x00)
(L (W x54 x22 xff xff x50 x00 x00 x00)) E))
(T (W x01 x00 x00 x00 x00 x00 x80 x3f)
(T (W x5c x00 x00 x00 x50 x00 x00 x00)
(L (W x00 x00 x00 x00 xb0 xdf xfe xff))
(L (W x04 x00 x00 x00 x98 xdf xff xff)))
(T (W x45 x26 x22 x84 xe4 x9c xf2 xcb)
(L (W x2c x00 x00 x00 x20 x00 x00 x00)) E)))
(T (W x34 x00 x00 x00 x20 x00 x00 x00)
(T (W x45 x26 x22 x84 xe4 x9c xf2 xcb)
(T (W x00 x00 x00 x00 x01 x00 x00 x00)
(L (W x28 x00 x00 x00 x14 x00 x00 x00))
(L (W x54 x00 x00 x00 x48 x00 x00 x00)))
(T (W x00 x00 x00 x00 x72 x47 xfe xff)
(L (W x45 x26 x22 x84 xe4 x9c xf2 xcb)) E))
(T (W x2c x00 x00 x00 x20 x00 x00 x00)
(T (W x45 x26 x22 x84 xe4 x9c xf2 xcb)
(L (W x00 x00 x00 x00 x00 x00 x00 x00))
(L (W x40 x00 x00 x00 x34 x00 x00 x00)))
(T (W x01 x00 x00 x00 x00 x00 x80 x3f)
(L (W x1c x01 x00 x00 x01 x00 x00 x00)) E))))
(T (W x1b x00 x00 x00 x57 x53 x59 x53)
(T (W x48 x00 x00 x00 x34 x00 x00 x00)
(T (W x00 x00 x00 x00 x01 x00 x00 x00)
(T (W x54 xb2 xfd xff x50 x00 x00 x00)
(L (W xff x7d x86 xf3 x1d xa3 x5a x95))
(L (W x54 xb2 xff xff x50 x00 x00 x00)))
(T (W x45 x26 x22 x84 xe4 x9c xf2 xcb)
(L (W x00 x00 x00 x00 x01 x00 x00 x00)) E))
(T (W x78 x00 x00 x00 x6c x00 x00 x00)
(T (W xfe x27 x3c xdc x00 x65 x4b x2f)
(L (W x04 x13 xbb xd8 x59 xea xc0 x19))
(L (W x40 x00 x00 x00 x38 x00 x00 x00)))
(T (W x04 x00 x00 x00 xea x74 xfe xff)
(L (W x54 x00 x00 x00 x48 x00 x00 x00)) E)))
(T (W x45 x26 x22 x84 xe4 x9c xf2 xcb)
(T (W x00 x00 x00 x00 x00 x00 x00 x00)
(T (W x00 x00 x00 x00 x00 x00 x00 x00)
(L (W x04 x00 x00 x00 xd0 xd1 xfe xff))
(L (W x57 x53 x59 x53 x5f x4d x41 x53)))
(T (W x00 x00 x00 x00 x00 x00 x00 x00)
(L (W x00 x00 x00 x00 xb0 x4f xff xff)) E))
(T (W x01 x00 x00 x00 x00 x00 x80 x3f)
(T (W x33 x33 x17 x42 x33 x93 x4d x44)
(L (W x00 x00 x00 x00 x01 x00 x00 x00)) E)
(T (W x74 x00 x00 x00 x68 x00 x00 x00)
(L (W x28 x00 x00 x00 x14 x00 x00 x00)) E))))))))
(T (W x34 xb6 x01 x00 x38 xb4 x01 x00)
(T (W xe4 xc8 x00 x00 xe8 xc6 x00 x00)
(T (W x04 x00 x00 x00 xea x9f xfc xff)
(T (W x01 x00 x00 x00 x04 x00 x00 x00)
(T (W xac xb2 xfc xff x2e xb2 xfc xff)
(T (W x45 x26 x22 x84 xe4 x9c xf2 xcb)
(T (W x00 x00 x80 xbf x00 x00 x80 xbf)
(T (W xac x92 xfd xff x00 x00 x00 x00)
(L (W xac x92 xfe xff x00 x00 x00 x00))
(L (W xac x92 xff xff x00 x00 x00 x00)))
(T (W x45 x26 x22 x84 xe4 x9c xf2 xcb)
(L (W x45 x26 x22 x84 xe4 x9c xf2 xcb)) E))
(T (W x69 xe8 xad x00 x15 xb0 x9d xe0)
(T (W x00 x00 x00 x00 xb0 xd2 xfd xff)
(L (W x45 x26 x22 x84 xe4 x9c xf2 xcb))
(L (W x00 x00 x00 x00 x00 x00 x00 x00)))
(T (W x04 x00 x00 x00 xea x57 xfe xff)
(L (W x45 x26 x22 x84 xe4 x9c xf2 xcb)) E)))
(T (W x45 x26 x22 x84 xe4 x9c xf2 xcb)
(T (W x00 x00 x80 x3f x00 x00 x80 x3f)
(T (W x57 xe2 xee x7a x1d xf7 x65 x1f)
(L (W x55 x6c xfc xf1 x99 x9e xc9 x88))
(L (W x39 x5c x50 x11 x1e x1a xbd xc9)))
(T (W x00 x00 x00 x00 x00 x00 x00 x00)
(L (W x2a x32 xff xff x00 x00 x80 x3f)) E))
(T (W x40 x00 x00 x00 x38 x00 x00 x00)
(T (W x04 x00 x00 x00 x00 x00 x00 x00)
(L (W x45 x26 x22 x84 xe4 x9c xf2 xcb))
(L (W x00 x00 x00 x00 x00 x00 x00 x00)))
(T (W x00 x00 x00 x00 x00 x00 x00 x00)
(L (W x00 x00 x00 x00 x00 x00 x00 x00)) E))))
(T (W x00 x00 x00 x00 x01 x00 x00 x00)
(T (W x00 x00 x00 x00 x00 x00 x00 x00)
(T (W x54 x00 x00 x00 x48 x00 x00 x00)
(T (W x45 x26 x22 x84 xe4 x9c xf2 xcb)
(L (W x1c x01 x00 x00 x01 x00 x00 x00))
(L (W x00 x00 x00 x00 x01 x00 x00 x00)))
(T (W x45 x26 x22 x84 xe4 x9c xf2 xcb)
(L (W x00 x00 x80 xbf x9c x00 x00 x00)) E))
(T (W x78 x00 x00 x00 x6c x00 x00 x00)
(T (W x00 x00 x00 x00 xb0 xe2 xfd xff)
(L (W x00 x00 x80 xbf x00 x00 x80 xbf))
(L (W x54 x00 x00 x00 x48 x00 x00 x00)))
(T (W x00 x00 x00 x00 x00 x00 x00 x00)
(L (W x96 xda x1b x72 x9d x0a xa7 xbe)) E)))
(T (W x78 x00 x00 x00 x6c x00 x00 x00)
(T (W x44 x00 x00 x00 x38 x00 x00 x00)
(T (W x00 x00 x00 x00 x2e xc2 xfd xff)
(L (W x54 xc5 xfe xff x50 x00 x00 x00))
(L (W x33 x33 xc9 x43 xcd xcc x48 x42)))
(T (W xac x42 xfe xff x00 x00 x00 x00)
(L (W x2c x00 x00 x00 x20 x00 x00 x00)) E))
(T (W x00 x00 x00 x00 x01 x00 x00 x00)
(T (W x1c x00 x00 x00 x46 x53 x59 x53)
(L (W x90 x07 xb9 x28 xbf xc9 x67 x6a)) E)
(T (W x60 x00 x00 x00 x54 x00 x00 x00)
(L (W xac x82 xff xff x00 x00 x00 x00)) E)))))
(T (W x00 x00 x00 x00 xb0 xaa xfc xff)
(T (W x3c x01 x00 x00 x30 x01 x00 x00)
(T (W x60 x00 x00 x00 x54 x00 x00 x00)
(T (W x45 x26 x22 x84 xe4 x9c xf2 xcb)
(T (W x00 x00 x00 x00 x00 x00 x00 x00)
(L (W x00 x00 x00 x00 x00 x00 x00 x00))
(L (W x2a x9a xff xff x00 x00 x80 x3f)))
(T (W x9a xf9 x46 x44 x33 x33 x17 x42)
(L (W x44 x00 x00 x00 x30 x00 x00 x00)) E))
(T (W x45 x26 x22 x84 xe4 x9c xf2 xcb)
(T (W x00 x00 x80 xbf x00 x00 x80 xbf)
(L (W x00 x00 x00 x00 xb0 xda xfe xff))
(L (W x1c x01 x00 x00 x01 x00 x00 x00)))
(T (W x00 x00 x00 x00 xb0 x5a xfe xff)
(L (W x44 x00 x00 x00 x30 x00 x00 x00)) E)))
(T (W x56 xae x33 x97 x85 xa1 x5f x5f)
(T (W x00 x00 x80 x3f x02 x00 x00 x00)
(T (W x45 x26 x22 x84 xe4 x9c xf2 xcb)
(L (W x5a xbe xfe xff x40 x01 x00 x00))
(L (W x2c x00 x00 x00 x20 x00 x00 x00)))
(T (W x45 x26 x22 x84 xe4 x9c xf2 xcb)
(L (W x01 x00 x00 x00 x00 x00 x80 x3f)) E))
(T (W x00 x00 x00 x00 x01 x00 x00 x00)
(T (W xaf x68 xff x4b x84 x9a x7b x61)
(L (W x45 x26 x22 x84 xe4 x9c xf2 xcb))
(L (W x01 x00 x00 x00 x04 x00 x00 x00)))
(T (W x45 x26 x22 x84 xe4 x9c xf2 xcb)
(L (W x45 x26 x22 x84 xe4 x9c xf2 xcb)) E))))
(T (W x00 x00 x00 x00 xb0 xca xfc xff)
(T (W x00 x00 x80 xbf x9c x00 x00 x00)
(T (W x36 x87 xd4 x61 xf7 xdc xb2 x83)
(T (W x00 x00 x00 x00 xb0 xaa xfd xff)
(L (W xac xaa xfe xff x00 x00 x00 x00))
(L (W xac xaa xff xff x00 x00 x00 x00)))
(T (W x00 x00 x00 x00 xb0 x2a xfe xff)
(L (W x45 x26 x22 x84 xe4 x9c xf2 xcb)) E))
(T (W x00 x00 x80 x3f x02 x00 x00 x00)
(T (W x04 x00 x00 x00 xd0 xec xfd xff)
(L (W x45 x26 x22 x84 xe4 x9c xf2 xcb))
(L (W x45 x26 x22 x84 xe4 x9c xf2 xcb)))
(T (W x00 x00 x00 x00 xb0 x6a xfe xff)
(L (W x00 x00 x00 x00 x00 x00 x00 x00)) E)))
(T (W x00 x00 x00 x00 x00 x00 x00 x00)
(T (W x5c x0f x24 x43 x29 x5c x4c x42)
(T (W x45 x26 x22 x84 xe4 x9c xf2 xcb)
(L (W x00 x00 x00 x00 x02 x00 x00 x00))
(L (W x00 x00 x00 x00 x01 x00 x00 x00)))
(T (W x00 x00 x00 x00 x00 x00 x00 x00)
(L (W x00 x00 x80 x3f x00 x00 x80 x3f)) E))
(T (W x00 x00 x00 x00 xb0 x8a xfd xff)
(T (W x53 x5f xee x13 x15 x53 xd3 x02)
(L (W x00 x00 x00 x00 x00 x00 x00 x00)) E)
(T (W x00 x00 x00 x00 x72 x92 xfe xff)
(L (W x00 x00 x00 x00 x00 x00 x00 x00)) E))))))
(T (W x45 x26 x22 x84 xe4 x9c xf2 xcb)
(T (W x45 x26 x22 x84 xe4 x9c xf2 xcb)
(T (W x00 x00 x00 x00 x1c x00 x00 x00)
(T (W x00 x00 x00 x00 x00 x00 x00 x00)
(T (W x00 x00 x00 x00 x01 x00 x00 x00)
(T (W x00 x00 x80 x3f x00 x00 x80 x3f)
(L (W x86 x3c x45 xdc x00 xd6 x55 x2f))
(L (W x00 x00 x00 x00 x00 x00 x00 x00)))
(T (W x74 x00 x00 x00 x68 x00 x00 x00)
(L (W x00 x00 x00 x00 x00 x00 x00 x00)) E))
(T (W x00 x00 x00 x00 x01 x00 x00 x00)
(T (W x00 x20 x47 x44 x00 x00 x00 x00)
(L (W x01 x00 x00 x00 x04 x00 x00 x00))
(L (W x00 x00 x80 x3f xb0 xd6 xff xff)))
(T (W x44 x00 x00 x00 x38 x00 x00 x00)
(L (W x00 x00 x00 x00 x00 x00 x00 x00)) E)))
(T (W xac xf6 xfc xff x00 x00 x00 x00)
(T (W x4b x5f x41 x52 x45 x41 x30 x32)
(T (W x45 x26 x22 x84 xe4 x9c xf2 xcb)
(L (W x00 x00 x80 x3f x00 x00 x80 x3f))
(L (W x54 x00 x00 x00 x48 x00 x00 x00)))
(T (W x00 x00 x80 xbf x00 x00 x80 xbf)
(L (W x5f x4e x45 x57 x5f x4f x55 x54)) E))
(T (W x01 x00 x00 x00 x04 x00 x00 x00)
(T (W x45 x26 x22 x84 xe4 x9c xf2 xcb)
(L (W x00 x00 x00 x00 x72 xfe xfe xff))
(L (W x34 x00 x00 x00 x20 x00 x00 x00)))
(T (W x5c xd3 xd4 xe4 x09 x0a xbd x33)
(L (W x00 x00 x80 xbf x00 x00 x80 xbf)) E))))
(T (W x45 x26 x22 x84 xe4 x9c xf2 xcb)
(T (W xa2 xca xff xff x00 x00 x00 x01)
(T (W x00 x00 x00 x00 xb0 x26 xfd xff)
(T (W xac xa6 xfd xff x00 x00 x00 x00)
(L (W x00 x00 x00 x00 x01 x00 x00 x00))
(L (W x00 x00 x00 x00 xb0 xa6 xff xff)))
(T (W xac x26 xfe xff x00 x00 x00 x00)
(L (W x45 x26 x22 x84 xe4 x9c xf2 xcb)) E))
(T (W x00 xe0 x60 x44 x00 x00 x00 x00)
(T (W x00 x00 x00 x00 x00 x00 x00 x00)
(L (W x54 x00 x00 x00 x48 x00 x00 x00))
(L (W x00 x00 x00 x00 xb0 xe6 xff xff)))
(T (W x00 x00 x00 x00 x01 x00 x00 x00)
(L (W x00 x00 x00 x00 xb0 x66 xff xff)) E)))
(T (W x00 x00 x00 x00 x2e x06 xfd xff)
(T (W x04 x00 x00 x00 x98 x46 xfd xff)
(T (W x1c x00 x00 x00 x46 x53 x59 x53)
(L (W x04 x00 x00 x00 xd0 xc8 xfe xff))
(L (W x00 x00 x00 x00 x72 xce xff xff)))
(T (W x00 x00 x80 x3f x00 x00 x80 x3f)
(L (W xac x46 xff xff x00 x00 x00 x00)) E))
(T (W x45 x26 x22 x84 xe4 x9c xf2 xcb)
(T (W x00 x00 xa0 x40 x24 x01 x00 x00)
(L (W x44 x00 x00 x00 x30 x00 x00 x00)) E)
(T (W xd6 x81 x9c x94 x9b x27 x57 x25)
(L (W x55 x39 x81 x6a xc4 xc7 x74 x14)) E)))))
(T (W x44 x00 x00 x00 x30 x00 x00 x00)
(T (W x34 x00 x00 x00 x20 x00 x00 x00)
(T (W x00 x00 x80 x3f x00 x00 x80 x3f)
(T (W x40 x00 x00 x00 x38 x00 x00 x00)
(T (W x71 x42 x02 x0c x39 x19 x87 x50)
(L (W xac x9e xfe xff x2e x9e xfe xff))
(L (W x3c x01 x00 x00 x30 x01 x00 x00)))
(T (W x01 x00 x00 x00 x00 x00 x80 x3f)
(L (W x33 x73 xea x43 x00 x00 x00 x00)) E))
(T (W x00 x00 x00 x00 x00 x00 x00 x00)
(T (W x00 x00 x00 x00 x01 x00 x00 x00)
(L (W x00 x60 xba x43 x85 xeb xf6 x42))
(L (W x05 xe9 xe6 xe0 x05 x7f xbe x1e)))
(T (W x00 x00 x00 x00 x2e x5e xfe xff)
(L (W x00 x00 x00 x00 x00 x00 x00 x00)) E)))
(T (W x00 x00 x00 x00 x00 x00 x00 x00)
(T (W x04 x00 x00 x00 xea x43 xfd xff)
(T (W x74 x00 x00 x00 x68 x00 x00 x00)
(L (W x00 x00 x00 x00 x01 x00 x00 x00))
(L (W x5c x00 x00 x00 x50 x00 x00 x00)))
(T (W x2c x00 x00 x00 x20 x00 x00 x00)
(L (W x54 x00 x00 x00 x48 x00 x00 x00)) E))
(T (W x00 x00 x00 x00 x00 x00 x00 x00)
(T (W x5c x00 x00 x00 x50 x00 x00 x00)
(L (W xac xfe xfe xff x00 x00 x00 x00))
(L (W x64 x01 x00 x00 x58 x01 x00 x00)))
(T (W x00 x00 x00 x00 x00 x00 x00 x00)
(L (W x44 x00 x00 x00 x38 x00 x00 x00)) E))))
(T (W x00 x00 x00 x00 xb0 xce xfc xff)
(T (W x04 x00 x00 x00 x00 x00 x00 x00)
(T (W x00 x00 x00 x00 x00 x00 x00 x00)
(T (W x71 xdd x53 x44 x00 x00 x00 x00)
(L (W x00 x00 x00 x00 x00 x00 x00 x00))
(L (W x00 x00 x00 x00 x00 x00 x00 x00)))
(T (W x45 x26 x22 x84 xe4 x9c xf2 xcb)
(L (W x04 x00 x00 x00 xd0 x30 xff xff)) E))
(T (W x45 x26 x22 x84 xe4 x9c xf2 xcb)
(T (W x00 x00 x00 x00 x00 x00 x00 x00)
(L (W x00 x00 x00 x00 x00 x00 x00 x00))
(L (W x04 x00 x00 x00 xd0 xf0 xff xff)))
(T (W xac x6e xfe xff x00 x00 x00 x00)
(L (W x48 x00 x00 x00 x34 x00 x00 x00)) E)))
(T (W x5f x41 x52 x45 x41 x30 x32 x00)
(T (W x01 x00 x00 x00 x00 x00 x80 x3f)
(T (W xac xce xfd xff x00 x00 x00 x00)
(L (W x8d x36 x36 x0f x28 x70 x77 x09))
(L (W x00 x00 x00 x00 xb0 xce xff xff)))
(T (W x01 x00 x00 x00 x00 x00 x80 x3f)
(L (W x00 x00 x80 xbf x9c x00 x00 x00)) E))
(T (W x2c x00 x00 x00 x20 x00 x00 x00)
(T (W x45 x26 x22 x84 xe4 x9c xf2 xcb)
(L (W x37 xe5 x09 xfe x1d x89 x80 xa7)) E)
(T (W x45 x26 x22 x84 xe4 x9c xf2 xcb)
(L (W x00 x00 x00 x00 x01 x00 x00 x00)) E)))))))
(T (W x00 x00 x00 x00 x01 x00 x00 x00)
(T (W x45 x26 x22 x84 xe4 x9c xf2 xcb)
(T (W x2c x00 x00 x00 x20 x00 x00 x00)
(T (W x00 x00 x00 x00 x00 x00 x00 x00)
(T (W x00 x00 x00 x00 x00 x00 x00 x00)
(T (W xa0 xf1 xb1 x4b xbc x24 xf7 xea)
(T (W x74 x00 x00 x00 x68 x00 x00 x00)
(L (W x54 x97 xfe xff x50 x00 x00 x00))
(L (W x54 x97 xff xff x50 x00 x00 x00)))
(T (W xac x14 xfe xff x00 x00 x00 x00)
(L (W x01 x00 x00 x00 x04 x00 x00 x00)) E))
(T (W x1c xea xad x00 x15 xb1 x9d xe0)
(T (W x28 x00 x00 x00 x14 x00 x00 x00)
(L (W x00 x00 x00 x00 xb0 xd4 xfe xff))
(L (W x5c x00 x00 x00 x50 x00 x00 x00)))
(T (W x45 x26 x22 x84 xe4 x9c xf2 xcb)
(L (W x54 x57 xff xff x50 x00 x00 x00)) E)))
(T (W x45 x26 x22 x84 xe4 x9c xf2 xcb)
(T (W x00 x00 x00 x00 x00 x00 x00 x00)
(T (W x54 x00 x00 x00 x48 x00 x00 x00)
(L (W x2a xb4 xfe xff x00 x00 x80 x3f))
(L (W x54 x00 x00 x00 x48 x00 x00 x00)))
(T (W x42 x52 x45 x41 x4b x5f x41 x52)
(L (W x00 x00 x00 x00 x00 x00 x00 x00)) E))
(T (W x45 x26 x22 x84 xe4 x9c xf2 xcb)
(T (W x45 x26 x22 x84 xe4 x9c xf2 xcb)
(L (W x00 x00 x00 x00 x00 x00 x00 x00))
(L (W x5a xf8 xff xff x40 x01 x00 x00)))
(T (W x00 x00 xa0 x40 x24 x01 x00 x00)
(L (W x00 x00 x80 x40 x24 x01 x00 x00)) E))))
(T (W x40 x00 x00 x00 x38 x00 x00 x00)
(T (W x5f x4d x41 x53 x53 x5f x47 x41)
(T (W x45 x26 x22 x84 xe4 x9c xf2 xcb)
(T (W x45 x26 x22 x84 xe4 x9c xf2 xcb)
(L (W x45 x26 x22 x84 xe4 x9c xf2 xcb))
(L (W x45 x26 x22 x84 xe4 x9c xf2 xcb)))
(T (W x45 x26 x22 x84 xe4 x9c xf2 xcb)
(L (W x00 x00 x00 x00 x01 x00 x00 x00)) E))
(T (W x28 x00 x00 x00 x14 x00 x00 x00)
(T (W x44 x00 x00 x00 x38 x00 x00 x00)
(L (W x04 x00 x00 x00 x00 x00 x00 x00))
(L (W x45 x26 x22 x84 xe4 x9c xf2 xcb)))
(T (W x01 x00 x00 x00 x00 x00 x80 x3f)
(L (W x40 x00 x00 x00 x38 x00 x00 x00)) E)))
(T (W x2c x00 x00 x00 x18 x00 x00 x00)
(T (W x00 x00 x00 x00 x00 x00 x00 x00)
(T (W x2a xc4 xfd xff x9a xd9 x33 x44)
(L (W x00 x00 x00 x00 x00 x00 x00 x00))
(L (W x5f x4e x45 x57 x5f x4f x55 x54)))
(T (W x74 x00 x00 x00 x68 x00 x00 x00)
(L (W x45 x26 x22 x84 xe4 x9c xf2 xcb)) E))
(T (W x04 x00 x00 x00 xea x89 xfd xff)
(T (W x45 x41 x30 x32 x5f x30 x31 x34)
(L (W x00 x00 x00 x00 x00 x00 x00 x00)) E)
(T (W x55 x39 x81 x6a xc4 xc7 x74 x14)
(L (W x60 x00 x00 x00 x54 x00 x00 x00)) E)))))
(T (W x04 x00 x00 x00 xd0 xae xfc xff)
(T (W x04 x00 x00 x00 x00 x00 x80 x3f)
(T (W xd6 x81 x9c x94 x9b x27 x57 x25)
(T (W x04 x00 x00 x00 xea x21 xfd xff)
(T (W x00 x00 xa0 x40 x24 x01 x00 x00)
(L (W x5c x00 x00 x00 x50 x00 x00 x00))
(L (W x00 x00 x00 x00 x00 x00 x00 x00)))
(T (W x5f x4e x45 x57 x5f x4f x55 x54)
(L (W x2a x1c xff xff x00 x00 x80 x3f)) E))
(T (W x44 x00 x00 x00 x38 x00 x00 x00)
(T (W x56 x9a x32 x19 x15 x76 xe9 x0b)
(L (W x44 x00 x00 x00 x30 x00 x00 x00))
(L (W x1c x01 x00 x00 x01 x00 x00 x00)))
(T (W x2c x00 x00 x00 x18 x00 x00 x00)
(L (W x2a x5c xff xff x66 x66 x0d x44)) E)))
(T (W x00 x00 x00 x00 x00 x00 x00 x00)
(T (W x34 x00 x00 x00 x20 x00 x00 x00)
(T (W xac xbc xfd xff x00 x00 x00 x00)
(L (W x00 x00 x80 xbf x9c x00 x00 x00))
(L (W x00 x00 x00 x00 x00 x00 x00 x00)))
(T (W x01 x00 x00 x00 x04 x00 x00 x00)
(L (W x00 x00 x00 x00 x01 x00 x00 x00)) E))
(T (W x45 x26 x22 x84 xe4 x9c xf2 xcb)
(T (W x00 x00 x00 x00 x00 x00 x00 x00)
(L (W x45 x26 x22 x84 xe4 x9c xf2 xcb))
(L (W x00 x00 x80 xbf x00 x00 x80 xbf)))
(T (W x01 x00 x00 x00 x04 x00 x00 x00)
(L (W x00 x00 x00 x00 xb0 x7c xff xff)) E))))
(T (W x45 x26 x22 x84 xe4 x9c xf2 xcb)
(T (W x42 x78 x1b x82 x7b xd6 xdd xfa)
(T (W x45 x26 x22 x84 xe4 x9c xf2 xcb)
(T (W x28 x00 x00 x00 x14 x00 x00 x00)
(L (W x45 x26 x22 x84 xe4 x9c xf2 xcb))
(L (W x45 x26 x22 x84 xe4 x9c xf2 xcb)))
(T (W x74 x00 x00 x00 x68 x00 x00 x00)
(L (W x00 x00 x00 x00 xb0 x2c xff xff)) E))
(T (W x34 x00 x00 x00 x20 x00 x00 x00)
(T (W x2a xec xfd xff x00 x00 x80 x3f)
(L (W x44 x00 x00 x00 x38 x00 x00 x00))
(L (W x00 x00 x00 x00 x00 x00 x00 x00)))
(T (W x45 x26 x22 x84 xe4 x9c xf2 xcb)
(L (W x00 x00 x00 x00 x00 x00 x00 x00)) E)))
(T (W x1b x00 x00 x00 x57 x53 x59 x53)
(T (W x3c x01 x00 x00 x30 x01 x00 x00)
(T (W x45 x26 x22 x84 xe4 x9c xf2 xcb)
(L (W x00 x00 x40 x40 x24 x01 x00 x00))
(L (W x45 x26 x22 x84 xe4 x9c xf2 xcb)))
(T (W x5f x4e x45 x57 x5f x4f x55 x54)
(L (W x00 x00 x00 x00 x00 x00 x00 x00)) E))
(T (W x01 x00 x00 x00 x04 x00 x00 x00)
(T (W x04 x00 x00 x00 xea x11 xfe xff)
(L (W x3c x01 x00 x00 x30 x01 x00 x00)) E)
(T (W x34 x00 x00 x00 x20 x00 x00 x00)
(L (W x00 x00 x80 xbf x9c x00 x00 x00)) E))))))
(T (W x00 x00 x00 x00 xb0 xa0 xfc xff)
(T (W x00 x00 x00 x00 x00 x00 x00 x00)
(T (W x4b x5f x41 x52 x45 x41 x30 x32)
(T (W x00 x00 x00 x00 x01 x00 x00 x00)
(T (W x04 x00 x00 x00 xea x1d xfd xff)
(T (W x00 x00 x00 x00 x00 x00 x00 x00)
(L (W x00 x00 x00 x00 x00 x00 x00 x00))
(L (W x04 x00 x00 x00 xd0 x9a xff xff)))
(T (W x2c x00 x00 x00 x18 x00 x00 x00)
(L (W x00 x00 x00 x00 x01 x00 x00 x00)) E))
(T (W x04 x00 x00 x00 xea x5d xfd xff)
(T (W x00 x00 x40 x40 x24 x01 x00 x00)
(L (W x45 x26 x22 x84 xe4 x9c xf2 xcb))
(L (W x00 x00 x00 x00 x00 x00 x00 x00)))
(T (W x00 x00 x00 x00 x00 x00 x00 x00)
(L (W x04 x00 x00 x00 x98 x58 xff xff)) E)))
(T (W x54 xfb xfc xff x50 x00 x00 x00)
(T (W x34 x01 x00 x00 x00 x00 xa0 x40)
(T (W x00 x00 x00 x00 xb0 xb8 xfd xff)
(L (W x14 xae xc9 x42 xf6 x28 x64 x43))
(L (W x45 x26 x22 x84 xe4 x9c xf2 xcb)))
(T (W x04 x00 x00 x00 x00 x00 x00 x00)
(L (W x3c x01 x00 x00 x30 x01 x00 x00)) E))
(T (W x00 x00 x00 x00 x00 x00 x00 x00)
(T (W xac xf8 xfd xff x00 x00 x00 x00)
(L (W x1c x01 x00 x00 x01 x00 x00 x00))
(L (W x4e x08 x8d xbf xcb xbf x74 x4a)))
(T (W x04 x00 x00 x00 x00 x00 x00 x00)
(L (W x04 x00 x00 x00 x00 x00 x00 x00)) E))))
(T (W x45 x26 x22 x84 xe4 x9c xf2 xcb)
(T (W x1c x01 x00 x00 x04 x00 x00 x00)
(T (W x40 x00 x00 x00 x34 x00 x00 x00)
(T (W x45 x26 x22 x84 xe4 x9c xf2 xcb)
(L (W x45 x26 x22 x84 xe4 x9c xf2 xcb))
(L (W x45 x26 x22 x84 xe4 x9c xf2 xcb)))
(T (W x45 x26 x22 x84 xe4 x9c xf2 xcb)
(L (W xac x28 xff xff x00 x00 x00 x00)) E))
(T (W x34 x01 x00 x00 x00 x00 xa0 x40)
(T (W x00 x00 x00 x00 xb0 xe8 xfd xff)
(L (W x45 x26 x22 x84 xe4 x9c xf2 xcb))
(L (W x44 x00 x00 x00 x38 x00 x00 x00)))
(T (W x45 x26 x22 x84 xe4 x9c xf2 xcb)
(L (W x54 x6b xff xff x50 x00 x00 x00)) E)))
(T (W x2a x08 xfd xff x71 x1d x1a x44)
(T (W x44 x00 x00 x00 x30 x00 x00 x00)
(T (W x1c x01 x00 x00 x01 x00 x00 x00)
(L (W x2a xc8 xfe xff x00 x00 x80 x3f))
(L (W x34 x00 x00 x00 x20 x00 x00 x00)))
(T (W x00 x00 x00 x00 x00 x00 x00 x00)
(L (W x74 x00 x00 x00 x68 x00 x00 x00)) E))
(T (W x45 x26 x22 x84 xe4 x9c xf2 xcb)
(T (W x00 x00 x80 xbf x00 x00 x80 xbf)
(L (W x66 xa6 xfd x43 x00 x00 xb7 x42)) E)
(T (W xac x88 xfe xff x2e x88 xfe xff)
(L (W x00 x00 x80 x3f x00 x00 x80 x3f)) E)))))
(T (W x4f x84 x6f x8b xe8 xcb x63 xb7)
(T (W x45 x26 x22 x84 xe4 x9c xf2 xcb)
(T (W xcd xcc x29 x42 x14 x8e x28 x44)
(T (W x54 x00 x00 x00 x48 x00 x00 x00)
(T (W x54 x00 x00 x00 x48 x00 x00 x00)
(L (W x00 x00 x00 x00 x72 xa8 xfe xff))
(L (W x01 x00 x00 x00 x00 x00 x80 x3f)))
(T (W x34 x00 x00 x00 x20 x00 x00 x00)
(L (W x54 x49 x4f x4e x5f x41 x52 x45)) E))
(T (W x00 x00 x00 x00 x00 x00 x00 x00)
(T (W x45 x26 x22 x84 xe4 x9c xf2 xcb)
(L (W x00 x00 x00 x00 x00 x00 x00 x00))
(L (W x04 x00 x00 x00 x00 x00 x00 x00)))
(T (W x2a x60 xfe xff x5c x0f x4b x44)
(L (W x01 x00 x00 x00 x00 x00 x80 x3f)) E)))
(T (W xac x00 xfd xff x00 x00 x00 x00)
(T (W x45 x26 x22 x84 xe4 x9c xf2 xcb)
(T (W x28 x00 x00 x00 x14 x00 x00 x00)
(L (W x45 x26 x22 x84 xe4 x9c xf2 xcb))
(L (W x55 x6c xfc xf1 x99 x9e xc9 x88)))
(T (W x45 x26 x22 x84 xe4 x9c xf2 xcb)
(L (W x45 x26 x22 x84 xe4 x9c xf2 xcb)) E))
(T (W x01 x00 x00 x00 x00 x00 x80 x3f)
(T (W xac x00 xfe xff x2e x00 xfe xff)
(L (W x54 x03 xff xff x50 x00 x00 x00))
(L (W x00 x00 x00 x00 x00 x00 x00 x00)))
(T (W x00 x00 x00 x00 x00 x00 x00 x00)
(L (W x00 x00 x00 x00 x00 x00 x00 x00)) E))))
(T (W x44 x00 x00 x00 x38 x00 x00 x00)
(T (W x54 x00 x00 x00 x48 x00 x00 x00)
(T (W x60 x00 x00 x00 x54 x00 x00 x00)
(T (W x00 x00 xa0 x40 x24 x01 x00 x00)
(L (W x00 x00 x00 x00 x01 x00 x00 x00))
(L (W x3c x01 x00 x00 x30 x01 x00 x00)))
(T (W x00 x00 x00 x00 x00 x00 x00 x00)
(L (W x2c x00 x00 x00 x18 x00 x00 x00)) E))
(T (W x00 x00 x00 x00 x01 x00 x00 x00)
(T (W x00 x00 x80 xbf x00 x00 x80 xbf)
(L (W x04 x00 x00 x00 x98 xf0 xfe xff))
(L (W x2a xf0 xff xff x00 x00 x80 x3f)))
(T (W x45 x26 x22 x84 xe4 x9c xf2 xcb)
(L (W x45 x26 x22 x84 xe4 x9c xf2 xcb)) E)))
(T (W x00 x00 xe0 x40 x24 x01 x00 x00)
(T (W x34 x00 x00 x00 x20 x00 x00 x00)
(T (W x45 x26 x22 x84 xe4 x9c xf2 xcb)
(L (W x40 x00 x00 x00 x38 x00 x00 x00))
(L (W x2c x00 x00 x00 x20 x00 x00 x00)))
(T (W x00 x00 x00 x00 x01 x00 x00 x00)
(L (W x00 x00 x00 x00 x01 x00 x00 x00)) E))
(T (W x00 x00 x00 x00 x00 x00 x00 x00)
(T (W x01 x00 x00 x00 x04 x00 x00 x00)
(L (W x54 x00 x00 x00 x48 x00 x00 x00)) E)
(T (W x45 x26 x22 x84 xe4 x9c xf2 xcb)
(L (W x45 x26 x22 x84 xe4 x9c xf2 xcb)) E)))))))))))
(T (W xd4 x43 x03 x00 x08 x42 x03 x00)
(T (W x74 x26 x03 x00 xa4 x24 x03 x00)
(T (W xc4 xeb x02 x00 xd8 xe9 x02 x00)
(T (W xf0 x75 x02 x00 x08 x74 x02 x00)
(T (W x84 x89 x01 x00 xb8 x87 x01 x00)
(T (W x00 x00 x00 x00 x10 x99 xfc xff)
(T (W x00 x00 x00 x00 x00 x00 x00 x00)
(T (W x4b x5f x41 x52 x45 x41 x30 x32)
(T (W x00 x00 x00 x00 x01 x00 x00 x00)
(T (W x04 x00 x00 x00 x4a x16 xfd xff)
(T (W x00 x00 x00 x00 x8e x90 xfd xff)
(L (W x2c x00 x00 x00 x20 x00 x00 x00))
(L (W x45 x26 x22 x84 xe4 x9c xf2 xcb)))
(T (W x00 x00 x00 x00 x10 x11 xfe xff)
(L (W xb4 x13 xff xff x50 x00 x00 x00)) E))
(T (W x45 x26 x22 x84 xe4 x9c xf2 xcb)
(T (W x5c x00 x00 x00 x50 x00 x00 x00)
(L (W x44 x00 x00 x00 x38 x00 x00 x00))
(L (W x04 x00 x00 x00 x30 xd3 xff xff)))
(T (W x00 x00 x00 x00 x10 x51 xfe xff)
(L (W x00 x00 x00 x00 x10 x51 xff xff)) E)))
(T (W xb4 xf3 xfc xff x50 x00 x00 x00)
(T (W x00 x00 x00 x00 x00 x00 x00 x00)
(T (W x04 x00 x00 x00 x4a xb6 xfd xff)
(L (W xcd x4c x36 x43 x00 x00 x00 x00))
(L (W x00 x00 x00 x00 x01 x00 x00 x00)))
(T (W x01 x00 x00 x00 x00 x00 x80 x3f)
(L (W x1c x00 x00 x00 x46 x53 x59 x53)) E))
(T (W x00 x00 x00 x00 x10 x71 xfd xff)
(T (W x45 x26 x22 x84 xe4 x9c xf2 xcb)
(L (W x00 x00 x00 x00 x00 x00 x00 x00))
(L (W x1c x01 x00 x00 x01 x00 x00 x00)))
(T (W x3c x01 x00 x00 x30 x01 x00 x00)
(L (W x34 x01 x00 x00 x00 x00 x80 x40)) E))))
(T (W x45 x26 x22 x84 xe4 x9c xf2 xcb)
(T (W x1c x01 x00 x00 x04 x00 x00 x00)
(T (W xb4 x23 xfd xff x50 x00 x00 x00)
(T (W xb4 xa3 xfd xff x50 x00 x00 x00)
(L (W x04 x00 x00 x00 x00 x00 x00 x00))
(L (W x40 x00 x00 x00 x38 x00 x00 x00)))
(T (W x45 x26 x22 x84 xe4 x9c xf2 xcb)
(L (W x00 x00 x00 x00 x01 x00 x00 x00)) E))
(T (W x00 x00 x00 x00 x8e x60 xfd xff)
(T (W x4b x26 x3c xdc x00 x64 x4b x2f)
(L (W x45 x26 x22 x84 xe4 x9c xf2 xcb))
(L (W x0c xe1 xff xff x00 x00 x00 x00)))
(T (W x00 x00 xa0 x40 x24 x01 x00 x00)
(L (W x40 x00 x00 x00 x38 x00 x00 x00)) E)))
(T (W x8a x00 xfd xff xec x51 xc4 x43)
(T (W x00 x00 x00 x00 x00 x00 x00 x00)
(T (W x46 x53 x59 x53 x5f x4e x45 x57)
(L (W x45 x26 x22 x84 xe4 x9c xf2 xcb))
(L (W x54 x49 x4f x4e x5f x41 x52 x45)))
(T (W x44 x00 x00 x00 x30 x00 x00 x00)
(L (W x00 x00 x00 x00 x00 x00 x00 x00)) E))
(T (W x40 x00 x00 x00 x38 x00 x00 x00)
(T (W x00 x00 x80 xbf x00 x00 x80 xbf)
(L (W x0c x01 xff xff x00 x00 x00 x00)) E)
(T (W x8a x80 xfe xff x00 x00 x80 x3f)
(L (W x55 x6c xfc xf1 x99 x9e xc9 x88)) E)))))
(T (W x4f x84 x6f x8b xe8 xcb x63 xb7)
(T (W x45 x26 x22 x84 xe4 x9c xf2 xcb)
(T (W xa4 x70 x16 x42 xc3 x45 x30 x44)
(T (W x01 x00 x00 x00 x04 x00 x00 x00)
(T (W x01 x00 x00 x00 x00 x00 x80 x3f)
(L (W x2c x00 x00 x00 x18 x00 x00 x00))
(L (W x00 x00 x00 x00 x00 x00 x00 x00)))
(T (W x00 x00 x00 x00 x00 x00 x00 x00)
(L (W x9a x19 xc6 x43 x00 x00 x00 x00)) E))
(T (W x01 x00 x00 x00 x04 x00 x00 x00)
(T (W x04 x00 x00 x00 x4a xde xfd xff)
(L (W x48 x00 x00 x00 x34 x00 x00 x00))
(L (W x04 xc0 x94 x16 x1e x55 xd3 xd2)))
(T (W x55 x6c xfc xf1 x99 x9e xc9 x88)
(L (W x00 x00 x00 x00 x00 x00 x00 x00)) E)))
(T (W x0c xf9 xfc xff x00 x00 x00 x00)
(T (W x00 x00 x00 x00 x01 x00 x00 x00)
(T (W x00 x00 x00 x00 x00 x00 x00 x00)
(L (W x00 x00 x80 xbf x9c x00 x00 x00))
(L (W x00 x00 x00 x00 x00 x00 x00 x00)))
(T (W x0c x39 xfe xff x00 x00 x00 x00)
(L (W x00 x00 x00 x00 x01 x00 x00 x00)) E))
(T (W x28 x00 x00 x00 x14 x00 x00 x00)
(T (W x00 x00 x00 x00 x00 x00 x00 x00)
(L (W x54 x00 x00 x00 x48 x00 x00 x00))
(L (W x45 x26 x22 x84 xe4 x9c xf2 xcb)))
(T (W x0c x79 xfe xff x00 x00 x00 x00)
(L (W x0c x79 xff xff x00 x00 x00 x00)) E))))
(T (W x00 x00 x00 x00 x00 x00 x00 x00)
(T (W x54 x00 x00 x00 x48 x00 x00 x00)
(T (W x45 x41 x30 x32 x5f x30 x32 x36)
(T (W x5c x00 x00 x00 x50 x00 x00 x00)
(L (W x2c x00 x00 x00 x20 x00 x00 x00))
(L (W x44 x00 x00 x00 x30 x00 x00 x00)))
(T (W x5c x00 x00 x00 x50 x00 x00 x00)
(L (W x00 x00 x00 x00 x00 x00 x00 x00)) E))
(T (W x00 x00 x00 x00 x01 x00 x00 x00)
(T (W x00 x00 x80 x3f x10 xe9 xfd xff)
(L (W x74 xf0 x39 xdc x00 x64 x48 x2f))
(L (W x00 x00 x00 x00 x01 x00 x00 x00)))
(T (W x6c x88 xa7 x28 xbf x4b x53 x6a)
(L (W x0c x69 xff xff x00 x00 x00 x00)) E)))
(T (W x00 x00 xe0 x40 x24 x01 x00 x00)
(T (W x00 x00 x00 x00 x00 x00 x00 x00)
(T (W x54 x00 x00 x00 x48 x00 x00 x00)
(L (W x1c x01 x00 x00 x01 x00 x00 x00))
(L (W x45 x26 x22 x84 xe4 x9c xf2 xcb)))
(T (W x00 x00 x80 xbf x00 x00 x80 xbf)
(L (W x00 x00 x00 x00 x00 x00 x00 x00)) E))
(T (W x45 x26 x22 x84 xe4 x9c xf2 xcb)
(T (W x45 x26 x22 x84 xe4 x9c xf2 xcb)
(L (W x28 x01 x00 x00 x20 x01 x00 x00)) E)
(T (W x00 x00 x80 xbf x00 x00 x80 xbf)
(L (W x01 x00 x00 x00 x00 x00 x80 x3f)) E))))))
(T (W x2c x00 x00 x00 x20 x00 x00 x00)
(T (W x04 x00 x00 x00 x30 xa7 xfc xff)
(T (W x04 x00 x00 x00 x00 x00 x80 x3f)
(T (W xd6 x81 x9c x94 x9b x27 x57 x25)
(T (W x45 x26 x22 x84 xe4 x9c xf2 xcb)
(T (W x00 x00 x00 x00 x00 x00 x00 x00)
(L (W x0c x95 xfe xff x00 x00 x00 x00))
(L (W x0c x95 xff xff x00 x00 x00 x00)))
(T (W x8a x14 xfe xff x8f x42 x58 x44)
(L (W x00 x00 x00 x00 x10 x15 xff xff)) E))
(T (W x45 x26 x22 x84 xe4 x9c xf2 xcb)
(T (W x00 x00 x00 x00 xd2 xdc xfd xff)
(L (W x00 x00 x00 x00 x00 x00 x00 x00))
(L (W x00 x00 x00 x00 x00 x00 x00 x00)))
(T (W x00 x00 x00 x00 x00 x00 x00 x00)
(L (W x0c x55 xff xff x00 x00 x00 x00)) E)))
(T (W x00 x00 x00 x00 x00 x00 x00 x00)
(T (W x34 x00 x00 x00 x20 x00 x00 x00)
(T (W xb4 xb7 xfd xff x50 x00 x00 x00)
(L (W x41 x30 x32 x00 xd2 xbc xfe xff))
(L (W xb4 xb7 xff xff x50 x00 x00 x00)))
(T (W x45 x26 x22 x84 xe4 x9c xf2 xcb)
(L (W x00 x00 x80 xbf x9c x00 x00 x00)) E))
(T (W x45 x26 x22 x84 xe4 x9c xf2 xcb)
(T (W xaf x68 xff x4b x84 x9a x7b x61)
(L (W x9a x75 x45 xfc x4a x88 x26 xf8))
(L (W x04 x00 x00 x00 x00 x00 x00 x00)))
(T (W x04 x00 x00 x00 x4a x7a xfe xff)
(L (W x04 x00 x00 x00 x4a x7a xff xff)) E))))
(T (W x44 x00 x00 x00 x38 x00 x00 x00)
(T (W x91 x4c xcd x90 x08 x10 x7d xe7)
(T (W x00 x00 x00 x00 x00 x00 x00 x00)
(T (W x00 x00 x00 x00 x00 x00 x00 x00)
(L (W x45 x26 x22 x84 xe4 x9c xf2 xcb))
(L (W x97 x58 xbb x28 xbf xd9 x6a x6a)))
(T (W x2c x00 x00 x00 x20 x00 x00 x00)
(L (W x00 x00 x00 x00 x10 x25 xff xff)) E))
(T (W x00 x00 x00 x00 xd2 x6c xfd xff)
(T (W x00 x00 x00 x00 x01 x00 x00 x00)
(L (W x0c xe5 xfe xff x00 x00 x00 x00))
(L (W x20 x59 x6c x12 x83 xee x3a xc6)))
(T (W x40 x00 x00 x00 x38 x00 x00 x00)
(L (W x44 x00 x00 x00 x38 x00 x00 x00)) E)))
(T (W x1b x00 x00 x00 x57 x53 x59 x53)
(T (W x45 x26 x22 x84 xe4 x9c xf2 xcb)
(T (W x00 x00 x80 xbf x00 x00 x80 xbf)
(L (W x45 x26 x22 x84 xe4 x9c xf2 xcb))
(L (W x07 x4d xe2 xab xf4 x9b x8e x87)))
(T (W x00 x00 x00 x00 x00 x00 x00 x00)
(L (W x44 x00 x00 x00 x30 x00 x00 x00)) E))
(T (W x01 x00 x00 x00 x04 x00 x00 x00)
(T (W x00 x00 x00 x00 x01 x00 x00 x00)
(L (W x00 x00 x80 x3f x00 x00 x80 x3f)) E)
(T (W x5f x4e x45 x57 x5f x4f x55 x54)
(L (W x00 x00 x00 x00 x00 x00 x00 x00)) E)))))
(T (W x00 x00 x00 x00 x00 x00 x00 x00)
(T (W x40 x00 x00 x00 x38 x00 x00 x00)
(T (W x5f x4d x41 x53 x53 x5f x47 x41)
(T (W x01 x00 x00 x00 x04 x00 x00 x00)
(T (W x04 x00 x00 x00 x4a xa2 xfd xff)
(L (W x00 x00 x00 x00 x00 x00 x00 x00))
(L (W x45 x26 x22 x84 xe4 x9c xf2 xcb)))
(T (W x78 x2a x94 xe8 x56 xe3 x66 xfc)
(L (W x41 x30 x32 x00 xd2 x24 xff xff)) E))
(T (W x00 x00 x00 x00 x01 x00 x00 x00)
(T (W x45 x26 x22 x84 xe4 x9c xf2 xcb)
(L (W x00 x00 x00 x00 x00 x00 x00 x00))
(L (W x54 x00 x00 x00 x48 x00 x00 x00)))
(T (W x1c x00 x00 x00 x46 x53 x59 x53)
(L (W x00 x00 xa0 x40 x24 x01 x00 x00)) E)))
(T (W x2c x00 x00 x00 x18 x00 x00 x00)
(T (W x45 x26 x22 x84 xe4 x9c xf2 xcb)
(T (W x8a xbc xfd xff x33 x73 x32 x44)
(L (W x45 x26 x22 x84 xe4 x9c xf2 xcb))
(L (W x8a xbc xff xff x00 x00 x80 x3f)))
(T (W x00 x00 x00 x00 x10 x3d xfe xff)
(L (W x00 x00 x00 x00 x10 x3d xff xff)) E))
(T (W x00 x00 xa0 x40 x24 x01 x00 x00)
(T (W x8a xfc xfd xff x00 x00 x80 x3f)
(L (W x2c x00 x00 x00 x20 x00 x00 x00))
(L (W x45 x26 x22 x84 xe4 x9c xf2 xcb)))
(T (W x00 x00 x00 x00 x10 x7d xfe xff)
(L (W x00 x00 x00 x00 x00 x00 x00 x00)) E))))
(T (W x00 x00 x00 x00 x00 x00 x00 x00)
(T (W x45 x26 x22 x84 xe4 x9c xf2 xcb)
(T (W x60 x00 x00 x00 x54 x00 x00 x00)
(T (W x00 x00 x00 x00 xd2 xb4 xfd xff)
(L (W x60 x00 x00 x00 x54 x00 x00 x00))
(L (W x3c x01 x00 x00 x30 x01 x00 x00)))
(T (W x00 x00 x00 x00 x00 x00 x00 x00)
(L (W x00 x00 x80 x3f x10 x2d xff xff)) E))
(T (W x45 x26 x22 x84 xe4 x9c xf2 xcb)
(T (W x1c x01 x00 x00 x01 x00 x00 x00)
(L (W x00 x00 x00 x00 x01 x00 x00 x00))
(L (W x45 x26 x22 x84 xe4 x9c xf2 xcb)))
(T (W x44 x00 x00 x00 x30 x00 x00 x00)
(L (W x00 x00 x80 x3f x00 x00 x80 x3f)) E)))
(T (W x04 x06 xb2 x4b xbc x30 xf7 xea)
(T (W x00 x00 x00 x00 x01 x00 x00 x00)
(T (W x2c x00 x00 x00 x20 x00 x00 x00)
(L (W x04 x00 x00 x00 x4a xd2 xfe xff))
(L (W xca xe8 xac x28 xbf xdb x59 x6a)))
(T (W xba x20 x89 xf4 x32 xc5 xcd xae)
(L (W x00 x00 x00 x00 x01 x00 x00 x00)) E))
(T (W x00 x00 x00 x00 x10 x8d xfd xff)
(T (W x01 x00 x00 x00 x04 x00 x00 x00)
(L (W x00 x00 x00 x00 x01 x00 x00 x00)) E)
(T (W x45 x26 x22 x84 xe4 x9c xf2 xcb)
(L (W x45 x26 x22 x84 xe4 x9c xf2 xcb)) E)))))))
(T (W xe4 x9b x00 x00 x14 x9a x00 x00)
(T (W x01 x00 x00 x00 x04 x00 x00 x00)
(T (W x00 x00 x00 x00 x10 xa3 xfc xff)
(T (W x3c x01 x00 x00 x30 x01 x00 x00)
(T (W x60 x00 x00 x00 x54 x00 x00 x00)
(T (W x45 x26 x22 x84 xe4 x9c xf2 xcb)
(T (W x8a x92 xfd xff x33 xf3 xb6 x43)
(L (W x00 x00 x00 x00 x00 x00 x00 x00))
(L (W x00 x00 x00 x00 x00 x00 x00 x00)))
(T (W x44 x00 x00 x00 x30 x00 x00 x00)
(L (W x45 x26 x22 x84 xe4 x9c xf2 xcb)) E))
(T (W x45 x26 x22 x84 xe4 x9c xf2 xcb)
(T (W x0c xd3 xfd xff x8e xd2 xfd xff)
(L (W x45 x26 x22 x84 xe4 x9c xf2 xcb))
(L (W x8a xd2 xff xff x00 x00 x80 x3f)))
(T (W x01 x00 x00 x00 x04 x00 x00 x00)
(L (W x45 x26 x22 x84 xe4 x9c xf2 xcb)) E)))
(T (W xff x9e x30 x97 x85 x21 x5c x5f)
(T (W x02 x00 x00 x00 x00 x00 x80 x3f)
(T (W x45 x26 x22 x84 xe4 x9c xf2 xcb)
(L (W x54 x49 x4f x4e x5f x41 x52 x45))
(L (W x45 x26 x22 x84 xe4 x9c xf2 xcb)))
(T (W x34 x00 x00 x00 x20 x00 x00 x00)
(L (W x1c x01 x00 x00 x01 x00 x00 x00)) E))
(T (W x44 x00 x00 x00 x38 x00 x00 x00)
(T (W x0c xf3 xfd xff x00 x00 x00 x00)
(L (W x00 x00 xa0 x40 x24 x01 x00 x00))
(L (W x00 x00 x80 xbf x9c x00 x00 x00)))
(T (W x59 x16 x73 x2c x15 x1c x1f x2e)
(L (W x34 x00 x00 x00 x20 x00 x00 x00)) E))))
(T (W x00 x00 x00 x00 x10 xc3 xfc xff)
(T (W x00 x00 x80 xbf x9c x00 x00 x00)
(T (W xb4 x25 xfd xff x50 x00 x00 x00)
(T (W x85 x80 x02 x4c x84 x1f x7f x61)
(L (W x54 x00 x00 x00 x48 x00 x00 x00))
(L (W x00 x00 x00 x00 x10 xa3 xff xff)))
(T (W x45 x26 x22 x84 xe4 x9c xf2 xcb)
(L (W x45 x26 x22 x84 xe4 x9c xf2 xcb)) E))
(T (W x00 x00 x00 x00 x00 x00 x00 x00)
(T (W x00 x00 x00 x00 x00 x00 x00 x00)
(L (W x45 x26 x22 x84 xe4 x9c xf2 xcb))
(L (W xb4 xe5 xff xff x50 x00 x00 x00)))
(T (W x16 x98 x92 xc5 x0f xae xd3 xa4)
(L (W x45 x26 x22 x84 xe4 x9c xf2 xcb)) E)))
(T (W x00 x00 x00 x00 x00 x00 x00 x00)
(T (W x00 x00 x00 x00 x01 x00 x00 x00)
(T (W x45 x41 x30 x32 x5f x30 x30 x39)
(L (W x0c xc3 xfe xff x00 x00 x00 x00))
(L (W x00 x00 x80 xbf x9c x00 x00 x00)))
(T (W x8a x42 xfe xff x14 x2e x36 x44)
(L (W x04 x00 x00 x00 xf8 x42 xff xff)) E))
(T (W x00 x00 x00 x00 x10 x83 xfd xff)
(T (W xda x89 xf1 x13 x15 xe3 xd6 x02)
(L (W x74 x00 x00 x00 x68 x00 x00 x00)) E)
(T (W x00 x00 x00 x00 x00 x00 x00 x00)
(L (W x66 x66 xd7 x43 x9a x99 x21 x42)) E)))))
(T (W x0c xab xfc xff x8e xaa xfc xff)
(T (W x00 x00 x00 x00 x01 x00 x00 x00)
(T (W x00 x00 x00 x00 x00 x00 x00 x00)
(T (W x2c x00 x00 x00 x20 x00 x00 x00)
(T (W x34 x00 x00 x00 x20 x00 x00 x00)
(L (W x8a x9a xfe xff x00 x00 x80 x3f))
(L (W x1c x01 x00 x00 x01 x00 x00 x00)))
(T (W x00 x00 x80 xbf x9c x00 x00 x00)
(L (W x35 x00 x00 x00 x1b x00 x00 x00)) E))
(T (W x00 x00 x00 x00 x00 x00 x00 x00)
(T (W x45 x26 x22 x84 xe4 x9c xf2 xcb)
(L (W x00 x00 x80 x3f x10 xdb xfe xff))
(L (W x54 x00 x00 x00 x48 x00 x00 x00)))
(T (W x0c x5b xfe xff x8e x5a xfe xff)
(L (W x00 x00 x00 x00 x00 x00 x00 x00)) E)))
(T (W x78 x00 x00 x00 x6c x00 x00 x00)
(T (W x40 x00 x00 x00 x38 x00 x00 x00)
(T (W x44 x00 x00 x00 x30 x00 x00 x00)
(L (W x04 x00 x00 x00 x00 x00 x00 x00))
(L (W x04 x00 x00 x00 x30 xbd xff xff)))
(T (W x45 x26 x22 x84 xe4 x9c xf2 xcb)
(L (W x40 x00 x00 x00 x38 x00 x00 x00)) E))
(T (W x66 x46 x5c x44 x00 x00 x00 x00)
(T (W x78 x00 x00 x00 x6c x00 x00 x00)
(L (W x45 x26 x22 x84 xe4 x9c xf2 xcb))
(L (W x45 x26 x22 x84 xe4 x9c xf2 xcb)))
(T (W x45 x26 x22 x84 xe4 x9c xf2 xcb)
(L (W x49 x65 xff x4b x84 x98 x7b x61)) E))))
(T (W x00 x00 x00 x00 x00 x00 x00 x00)
(T (W x45 x26 x22 x84 xe4 x9c xf2 xcb)
(T (W x0c x2b xfd xff x00 x00 x00 x00)
(T (W x0c xab xfd xff x8e xaa xfd xff)
(L (W x00 x00 x00 x00 x00 x00 x00 x00))
(L (W x5c xef x89 x43 xf6 x28 x21 x42)))
(T (W x0c x2b xfe xff x8e x2a xfe xff)
(L (W x5c x00 x00 x00 x50 x00 x00 x00)) E))
(T (W x40 x00 x00 x00 x38 x00 x00 x00)
(T (W x00 x00 x00 x00 x00 x00 x00 x00)
(L (W x00 x00 x00 x00 x00 x00 x00 x00))
(L (W x60 x00 x00 x00 x54 x00 x00 x00)))
(T (W x00 x00 x00 x00 x00 x00 x00 x00)
(L (W x55 x39 x81 x6a xc4 xc7 x74 x14)) E)))
(T (W x00 x00 x80 xbf x00 x00 x80 xbf)
(T (W x00 x00 x80 xbf x9c x00 x00 x00)
(T (W x45 x26 x22 x84 xe4 x9c xf2 xcb)
(L (W x34 x00 x00 x00 x20 x00 x00 x00))
(L (W x00 x00 x00 x00 x10 xcb xff xff)))
(T (W x00 x00 x80 xbf x9c x00 x00 x00)
(L (W x01 x00 x00 x00 x00 x00 x80 x3f)) E))
(T (W x00 x00 x00 x00 x00 x00 x00 x00)
(T (W x45 x26 x22 x84 xe4 x9c xf2 xcb)
(L (W xcb xdb xc8 x47 xfa x56 x26 x82)) E)
(T (W x04 x00 x00 x00 x00 x00 x00 x00)
(L (W x00 x00 x00 x00 x01 x00 x00 x00)) E))))))
(T (W x45 x26 x22 x84 xe4 x9c xf2 xcb)
(T (W x44 x00 x00 x00 x30 x00 x00 x00)
(T (W x34 x00 x00 x00 x20 x00 x00 x00)
(T (W x00 x00 x80 x3f x00 x00 x80 x3f)
(T (W x00 x00 x00 x00 x10 x17 xfd xff)
(T (W x3c x01 x00 x00 x30 x01 x00 x00)
(L (W x78 x00 x00 x00 x6c x00 x00 x00))
(L (W x45 x26 x22 x84 xe4 x9c xf2 xcb)))
(T (W x00 x00 x00 x00 x00 x00 x00 x00)
(L (W x28 x00 x00 x00 x14 x00 x00 x00)) E))
(T (W x00 x00 x00 x00 x10 x57 xfd xff)
(T (W x34 x00 x00 x00 x20 x00 x00 x00)
(L (W x00 x00 x00 x00 x10 xd7 xfe xff))
(L (W x3c x01 x00 x00 x30 x01 x00 x00)))
(T (W x00 x00 x00 x00 x01 x00 x00 x00)
(L (W x45 x26 x22 x84 xe4 x9c xf2 xcb)) E)))
(T (W x00 x00 x00 x00 x00 x00 x00 x00)
(T (W xfc xdd x1b x72 x9d x0c xa7 xbe)
(T (W x8e x2d xc8 xc9 x03 x8b xa0 xbc)
(L (W xba xba xfe xff x40 x01 x00 x00))
(L (W xb4 xb9 xff xff x50 x00 x00 x00)))
(T (W x45 x26 x22 x84 xe4 x9c xf2 xcb)
(L (W xc2 x84 xd7 xff x69 x20 x3b x86)) E))
(T (W x00 x00 x00 x00 x10 x77 xfd xff)
(T (W x00 x00 x00 x00 x00 x00 x00 x00)
(L (W x04 x00 x00 x00 x00 x00 x00 x00))
(L (W x45 x26 x22 x84 xe4 x9c xf2 xcb)))
(T (W x45 x26 x22 x84 xe4 x9c xf2 xcb)
(L (W x45 x26 x22 x84 xe4 x9c xf2 xcb)) E))))
(T (W x45 x26 x22 x84 xe4 x9c xf2 xcb)
(T (W x04 x00 x00 x00 x00 x00 x00 x00)
(T (W x00 x00 x00 x00 x00 x00 x00 x00)
(T (W x00 x00 x00 x00 x00 x00 x00 x00)
(L (W x00 x00 x00 x00 x10 xa7 xfe xff))
(L (W x00 x00 x00 x00 x00 x00 x00 x00)))
(T (W x00 x00 x00 x00 x00 x00 x00 x00)
(L (W x45 x26 x22 x84 xe4 x9c xf2 xcb)) E))
(T (W x34 x00 x00 x00 x20 x00 x00 x00)
(T (W x55 x6c xfc xf1 x99 x9e xc9 x88)
(L (W xb4 xe9 xfe xff x50 x00 x00 x00))
(L (W x00 x00 x00 x00 x00 x00 x00 x00)))
(T (W x00 x00 x00 x00 x10 x67 xfe xff)
(L (W x00 x00 x00 x00 x00 x00 x00 x00)) E)))
(T (W x5f x41 x52 x45 x41 x30 x32 x00)
(T (W x00 x00 x00 x00 x00 x00 x00 x00)
(T (W x61 xb0 x2f x19 x15 x0c xe6 x0b)
(L (W x00 x00 x00 x00 x00 x00 x00 x00))
(L (W x04 x00 x00 x00 x00 x00 x00 x00)))
(T (W x01 x00 x00 x00 x00 x00 x80 x3f)
(L (W x8a x46 xff xff xcd x2c x0b x44)) E))
(T (W x2c x00 x00 x00 x20 x00 x00 x00)
(T (W x04 x00 x00 x00 x4a x0c xfe xff)
(L (W x00 x00 x00 x00 x00 x00 x00 x00)) E)
(T (W x53 x5f x47 x41 x4e x45 x52 x41)
(L (W x5f x4e x45 x57 x5f x4f x55 x54)) E)))))
(T (W x00 x00 x00 x00 x1c x00 x00 x00)
(T (W x45 x26 x22 x84 xe4 x9c xf2 xcb)
(T (W x02 xc3 xff xff x00 x00 x00 x01)
(T (W x44 x00 x00 x00 x38 x00 x00 x00)
(T (W x45 x26 x22 x84 xe4 x9c xf2 xcb)
(L (W x00 x00 x80 xbf x00 x00 x80 xbf))
(L (W x00 x00 x00 x00 x01 x00 x00 x00)))
(T (W x40 x00 x00 x00 x38 x00 x00 x00)
(L (W x34 x00 x00 x00 x20 x00 x00 x00)) E))
(T (W x44 x00 x00 x00 x30 x00 x00 x00)
(T (W x00 x00 x00 x00 x10 xdf xfd xff)
(L (W x1c x01 x00 x00 x01 x00 x00 x00))
(L (W x45 x26 x22 x84 xe4 x9c xf2 xcb)))
(T (W x45 x41 x30 x32 x5f x30 x31 x39)
(L (W x00 x54 x22 x56 xfe x3d x42 xa4)) E)))
(T (W x00 x00 x00 x00 x8e xfe xfc xff)
(T (W x01 x00 x00 x00 x04 x00 x00 x00)
(T (W x00 x00 x00 x00 x00 x00 x00 x00)
(L (W x00 x00 x00 x00 x10 xbf xfe xff))
(L (W x00 x00 x00 x00 x02 x00 x00 x00)))
(T (W x04 x00 x00 x00 xf8 x3e xfe xff)
(L (W xb4 x41 xff xff x50 x00 x00 x00)) E))
(T (W x98 x88 x27 xce xee xbe x36 x09)
(T (W x00 x00 x00 x00 x00 x00 x00 x00)
(L (W x00 x00 x00 x00 x00 x00 x00 x00))
(L (W x01 x00 x00 x00 x20 x00 x00 x00)))
(T (W x28 x00 x00 x00 x14 x00 x00 x00)
(L (W x00 x00 x00 x00 x01 x00 x00 x00)) E))))
(T (W x00 x00 x00 x00 x00 x00 x00 x00)
(T (W x0c xef xfc xff x00 x00 x00 x00)
(T (W x00 x00 x80 x3f x00 x00 x80 x3f)
(T (W x34 x00 x00 x00 x20 x00 x00 x00)
(L (W x45 x26 x22 x84 xe4 x9c xf2 xcb))
(L (W x34 x00 x00 x00 x20 x00 x00 x00)))
(T (W x3c x01 x00 x00 x30 x01 x00 x00)
(L (W x00 x00 x00 x00 x00 x00 x00 x00)) E))
(T (W x45 x26 x22 x84 xe4 x9c xf2 xcb)
(T (W x45 x26 x22 x84 xe4 x9c xf2 xcb)
(L (W x45 x26 x22 x84 xe4 x9c xf2 xcb))
(L (W x00 x00 x00 x00 x00 x00 x00 x00)))
(T (W x00 x70 x48 x44 x7b x14 xaf x42)
(L (W x02 x00 x00 x00 x32 x30 x00 x00)) E)))
(T (W x00 x00 x00 x00 x01 x00 x00 x00)
(T (W x40 x00 x00 x00 x38 x00 x00 x00)
(T (W x00 x00 x00 x00 x00 x00 x00 x00)
(L (W x45 x26 x22 x84 xe4 x9c xf2 xcb))
(L (W x00 x00 x00 x00 x00 x00 x00 x00)))
(T (W x40 x00 x00 x00 x38 x00 x00 x00)
(L (W x45 x26 x22 x84 xe4 x9c xf2 xcb)) E))
(T (W x04 x00 x00 x00 x30 x91 xfd xff)
(T (W x45 x26 x22 x84 xe4 x9c xf2 xcb)
(L (W x45 x26 x22 x84 xe4 x9c xf2 xcb)) E)
(T (W x45 x26 x22 x84 xe4 x9c xf2 xcb)
(L (W x00 x00 x00 x00 x10 x8f xff xff)) E))))))))
(T (W xcc xff x01 x00 xe0 xfd x01 x00)
(T (W x74 x13 x01 x00 xa8 x11 x01 x00)
(T (W x00 x00 x00 x00 x00 x00 x00 x00)
(T (W x00 x00 x80 xbf x9c x00 x00 x00)
(T (W x3f x7c x88 xaf x9a x1e x19 x7c)
(T (W x00 x00 x00 x00 x01 x00 x00 x00)
(T (W xd6 x81 x9c x94 x9b x27 x57 x25)
(T (W x45 x26 x22 x84 xe4 x9c xf2 xcb)
(L (W x01 x00 x00 x00 x00 x00 x80 x3f))
(L (W x01 x00 x00 x00 x00 x00 x80 x3f)))
(T (W x04 x00 x00 x00 x00 x00 x00 x00)
(L (W x54 x49 x4f x4e x5f x41 x52 x45)) E))
(T (W x8a x51 xfd xff x00 x00 x80 x3f)
(T (W x45 x26 x22 x84 xe4 x9c xf2 xcb)
(L (W x41 x30 x32 x00 xd2 xd9 xfe xff))
(L (W x40 x00 x00 x00 x38 x00 x00 x00)))
(T (W x00 x00 x00 x00 x00 x00 x00 x00)
(L (W x00 x00 x00 x00 xd2 x59 xff xff)) E)))
(T (W x4e x45 x52 x41 x54 x49 x4f x4e)
(T (W x2c x00 x00 x00 x20 x00 x00 x00)
(T (W x45 x26 x22 x84 xe4 x9c xf2 xcb)
(L (W xb4 xb4 xfe xff x50 x00 x00 x00))
(L (W x28 x00 x00 x00 x14 x00 x00 x00)))
(T (W x00 x00 x00 x00 x00 x00 x00 x00)
(L (W x44 x00 x00 x00 x38 x00 x00 x00)) E))
(T (W x1c x00 x00 x00 x46 x53 x59 x53)
(T (W x00 x00 x80 x3f x00 x00 x80 x3f)
(L (W xb4 xf4 xfe xff x50 x00 x00 x00))
(L (W x00 x00 x00 x00 x00 x00 x00 x00)))
(T (W x00 x00 x00 x00 x00 x00 x00 x00)
(L (W x00 x00 x00 x00 x00 x00 x00 x00)) E))))
(T (W x00 x00 x00 x00 x00 x00 x00 x00)
(T (W x00 x00 x00 x00 x00 x00 x00 x00)
(T (W x08 x00 x0c x00 x10 x00 x14 x00)
(T (W x4b x5f x41 x52 x45 x41 x30 x32)
(L (W x48 x00 x00 x00 x34 x00 x00 x00))
(L (W x8a xa1 xff xff x00 x00 x80 x3f)))
(T (W x8a x21 xfe xff x33 xb3 x3f x44)
(L (W x5c x00 x00 x00 x50 x00 x00 x00)) E))
(T (W x45 x26 x22 x84 xe4 x9c xf2 xcb)
(T (W x00 x00 x80 xbf x00 x00 x80 xbf)
(L (W x74 x00 x00 x00 x68 x00 x00 x00))
(L (W x00 x00 x00 x00 x1c x00 x00 x00)))
(T (W x00 x00 x00 x00 x00 x00 x00 x00)
(L (W x00 x00 x00 x00 x8e x61 xff xff)) E)))
(T (W x45 x26 x22 x84 xe4 x9c xf2 xcb)
(T (W xfe x7e x2f xf0 x2c x47 x0a xdb)
(T (W x44 x00 x00 x00 x38 x00 x00 x00)
(L (W x34 x00 x00 x00 x20 x00 x00 x00))
(L (W x45 x26 x22 x84 xe4 x9c xf2 xcb)))
(T (W x45 x26 x22 x84 xe4 x9c xf2 xcb)
(L (W xfc x96 xf0 x45 xe8 x79 x50 x5f)) E))
(T (W x8a x81 xfd xff x00 x00 x80 x3f)
(T (W x00 x00 x00 x00 x00 x00 x00 x00)
(L (W x45 x26 x22 x84 xe4 x9c xf2 xcb)) E)
(T (W x00 x00 x00 x00 x10 x82 xfe xff)
(L (W x45 x26 x22 x84 xe4 x9c xf2 xcb)) E)))))
(T (W x45 x26 x22 x84 xe4 x9c xf2 xcb)
(T (W x74 x00 x00 x00 x68 x00 x00 x00)
(T (W x00 x00 x00 x00 x10 xda xfc xff)
(T (W x5f x4d x41 x53 x53 x5f x47 x41)
(T (W x00 x00 x00 x00 x00 x00 x00 x00)
(L (W x40 x00 x00 x00 x38 x00 x00 x00))
(L (W x44 x00 x00 x00 x38 x00 x00 x00)))
(T (W x45 x26 x22 x84 xe4 x9c xf2 xcb)
(L (W x0c x1a xff xff x00 x00 x00 x00)) E))
(T (W x3c x01 x00 x00 x30 x01 x00 x00)
(T (W x55 x39 x81 x6a xc4 xc7 x74 x14)
(L (W x45 x26 x22 x84 xe4 x9c xf2 xcb))
(L (W x00 x00 x00 x00 x01 x00 x00 x00)))
(T (W x45 x26 x22 x84 xe4 x9c xf2 xcb)
(L (W x0c x5a xff xff x00 x00 x00 x00)) E)))
(T (W x45 x26 x22 x84 xe4 x9c xf2 xcb)
(T (W x28 x00 x00 x00 x14 x00 x00 x00)
(T (W x04 x00 x00 x00 x00 x00 x00 x00)
(L (W x00 x00 x00 x00 x10 xba xfe xff))
(L (W xf2 x55 x58 x72 x10 xe2 x92 x0f)))
(T (W x00 x00 x00 x00 x00 x00 x00 x00)
(L (W x2c x00 x00 x00 x18 x00 x00 x00)) E))
(T (W x45 x26 x22 x84 xe4 x9c xf2 xcb)
(T (W xaf xdf x1b x72 x9d x0d xa7 xbe)
(L (W x45 x26 x22 x84 xe4 x9c xf2 xcb))
(L (W x33 x33 xa7 x42 x00 x80 xd4 x43)))
(T (W x00 x00 x00 x00 x00 x00 x00 x00)
(L (W x00 x00 x00 x00 x00 x00 x00 x00)) E))))
(T (W x00 x00 x80 xbf x00 x00 x80 xbf)
(T (W x4f x84 x6f x8b xe8 xcb x63 xb7)
(T (W x45 x26 x22 x84 xe4 x9c xf2 xcb)
(T (W x45 x26 x22 x84 xe4 x9c xf2 xcb)
(L (W x01 x00 x00 x00 x00 x00 x80 x3f))
(L (W x45 x26 x22 x84 xe4 x9c xf2 xcb)))
(T (W x45 x26 x22 x84 xe4 x9c xf2 xcb)
(L (W x00 x00 x00 x00 x01 x00 x00 x00)) E))
(T (W x28 x00 x00 x00 x14 x00 x00 x00)
(T (W x45 x26 x22 x84 xe4 x9c xf2 xcb)
(L (W x3c x01 x00 x00 x30 x01 x00 x00))
(L (W x00 x00 x00 x00 x01 x00 x00 x00)))
(T (W x00 x00 x80 xbf x00 x00 x80 xbf)
(L (W x04 x00 x00 x00 x4a x6f xff xff)) E)))
(T (W x00 x00 x00 x00 x00 x00 x00 x00)
(T (W x45 x26 x22 x84 xe4 x9c xf2 xcb)
(T (W x45 x26 x22 x84 xe4 x9c xf2 xcb)
(L (W x00 x00 x00 x00 x00 x00 x00 x00))
(L (W xe1 x9a xb0 x43 x00 x00 x53 x42)))
(T (W x1c x00 x00 x00 x46 x53 x59 x53)
(L (W x2c x00 x00 x00 x20 x00 x00 x00)) E))
(T (W x1c x01 x00 x00 x01 x00 x00 x00)
(T (W x00 x00 x80 x3f x00 x00 x80 x3f)
(L (W x00 x00 x00 x00 x00 x00 x00 x00)) E)
(T (W x00 x00 x00 x00 x00 x00 x00 x00)
(L (W x00 x00 x00 x00 x00 x00 x00 x00)) E))))))
(T (W x02 x82 xff xff x00 x00 x00 x01)
(T (W x04 x00 x00 x00 x00 x00 x00 x00)
(T (W x00 x00 x00 x00 x00 x00 x00 x00)
(T (W x45 x26 x22 x84 xe4 x9c xf2 xcb)
(T (W x71 x3d x81 x42 x9a xd9 xed x43)
(T (W x2c x00 x00 x00 x20 x00 x00 x00)
(L (W x45 x26 x22 x84 xe4 x9c xf2 xcb))
(L (W x04 x00 x00 x00 x4a x9b xff xff)))
(T (W x45 x26 x22 x84 xe4 x9c xf2 xcb)
(L (W x00 x00 x00 x00 x01 x00 x00 x00)) E))
(T (W xf6 x78 x6b x44 x00 x00 x00 x00)
(T (W x45 x26 x22 x84 xe4 x9c xf2 xcb)
(L (W x00 x00 x80 xbf x9c x00 x00 x00))
(L (W xe5 xdc xac x28 xbf xd4 x59 x6a)))
(T (W x55 x7f xbd x31 x15 x48 x3c x37)
(L (W x04 x00 x00 x00 x4a x5b xff xff)) E)))
(T (W x04 x00 x00 x00 x00 x00 x80 x3f)
(T (W x0c x36 xfd xff x00 x00 x00 x00)
(T (W x42 x52 x45 x41 x4b x5f x41 x52)
(L (W x55 x6c xfc xf1 x99 x9e xc9 x88))
(L (W x08 x00 x0c x00 x10 x00 x14 x00)))
(T (W x74 x00 x00 x00 x68 x00 x00 x00)
(L (W x00 x00 x00 x00 x10 x36 xff xff)) E))
(T (W x00 x00 x80 xbf x9c x00 x00 x00)
(T (W x34 x01 x00 x00 x00 x00 x40 x40)
(L (W x04 x00 x00 x00 xf8 xf5 xfe xff))
(L (W x44 x00 x00 x00 x30 x00 x00 x00)))
(T (W x45 x26 x22 x84 xe4 x9c xf2 xcb)
(L (W x55 x39 x81 x6a xc4 xc7 x74 x14)) E))))
(T (W x5f x30 x30 x33 x00 x00 x00 x00)
(T (W x04 x00 x00 x00 xf8 xe5 xfc xff)
(T (W x1c x01 x00 x00 x01 x00 x00 x00)
(T (W x01 x00 x00 x00 x00 x00 x80 x3f)
(L (W x00 x00 x00 x00 x00 x00 x00 x00))
(L (W x00 x00 x80 xbf x00 x00 x80 xbf)))
(T (W x01 x00 x00 x00 x00 x00 x80 x3f)
(L (W x00 x00 x00 x00 xd2 x2d xff xff)) E))
(T (W x45 x26 x22 x84 xe4 x9c xf2 xcb)
(T (W x54 x00 x00 x00 x48 x00 x00 x00)
(L (W x00 x00 x00 x00 x00 x00 x00 x00))
(L (W x00 x00 x80 xbf x00 x00 x80 xbf)))
(T (W x8a x65 xfe xff x00 x00 x80 x3f)
(L (W x1c x01 x00 x00 x01 x00 x00 x00)) E)))
(T (W x44 x00 x00 x00 x38 x00 x00 x00)
(T (W x45 x26 x22 x84 xe4 x9c xf2 xcb)
(T (W x00 x00 x00 x00 x00 x00 x00 x00)
(L (W x45 x26 x22 x84 xe4 x9c xf2 xcb))
(L (W x04 x00 x00 x00 xf8 xc5 xff xff)))
(T (W x2c x00 x00 x00 x20 x00 x00 x00)
(L (W x45 x26 x22 x84 xe4 x9c xf2 xcb)) E))
(T (W x5f x4e x45 x57 x5f x4f x55 x54)
(T (W x60 x00 x00 x00 x54 x00 x00 x00)
(L (W x0c x06 xff xff x00 x00 x00 x00)) E)
(T (W x28 x00 x00 x00 x1c x00 x00 x00)
(L (W x01 x00 x00 x00 x04 x00 x00 x00)) E)))))
(T (W x0c xae xfc xff x00 x00 x00 x00)
(T (W x8a xbd xfc xff x00 x00 x80 x3f)
(T (W x2c x00 x00 x00 x20 x00 x00 x00)
(T (W x53 x5f x47 x41 x4e x45 x52 x41)
(T (W x45 x26 x22 x84 xe4 x9c xf2 xcb)
(L (W x06 x85 xa7 x28 xbf x49 x53 x6a))
(L (W x78 x00 x00 x00 x6c x00 x00 x00)))
(T (W x04 x00 x00 x00 x30 x20 xfe xff)
(L (W x45 x26 x22 x84 xe4 x9c xf2 xcb)) E))
(T (W x54 x00 x00 x00 x48 x00 x00 x00)
(T (W x9a x99 x15 x42 x9a x09 x2c x44)
(L (W x45 x26 x22 x84 xe4 x9c xf2 xcb))
(L (W x45 x26 x22 x84 xe4 x9c xf2 xcb)))
(T (W x44 x00 x00 x00 x38 x00 x00 x00)
(L (W x00 x00 x00 x00 x00 x00 x00 x00)) E)))
(T (W x40 x00 x00 x00 x38 x00 x00 x00)
(T (W x33 x33 x6f x43 xcd xcc x4a x42)
(T (W x45 x26 x22 x84 xe4 x9c xf2 xcb)
(L (W x0c xbe xfe xff x8e xbd xfe xff))
(L (W x00 x00 x00 x00 x10 xbe xff xff)))
(T (W xa5 x73 x28 xb1 xef x65 xb4 x63)
(L (W x00 x00 x00 x00 x02 x00 x00 x00)) E))
(T (W x00 x00 x00 x00 x00 x00 x00 x00)
(T (W x00 x00 x00 x00 x10 xfe xfd xff)
(L (W x01 x00 x00 x00 x00 x00 x80 x3f))
(L (W x44 x00 x00 x00 x30 x00 x00 x00)))
(T (W x00 x00 x00 x00 x01 x00 x00 x00)
(L (W xb5 x69 x39 x08 x1e xca x43 xb9)) E))))
(T (W x00 x00 x80 xbf x00 x00 x80 xbf)
(T (W x00 x00 x00 x00 x00 x00 x00 x00)
(T (W x45 x26 x22 x84 xe4 x9c xf2 xcb)
(T (W x45 x26 x22 x84 xe4 x9c xf2 xcb)
(L (W x04 x00 x00 x00 x4a xb3 xfe xff))
(L (W x00 x00 x00 x00 x00 x00 x00 x00)))
(T (W x01 x00 x00 x00 x04 x00 x00 x00)
(L (W x45 x26 x22 x84 xe4 x9c xf2 xcb)) E))
(T (W x8a x6d xfd xff x33 x73 xcc x43)
(T (W x00 x00 x00 x00 x00 x00 x00 x00)
(L (W x54 x00 x00 x00 x48 x00 x00 x00))
(L (W x45 x26 x22 x84 xe4 x9c xf2 xcb)))
(T (W x45 x26 x22 x84 xe4 x9c xf2 xcb)
(L (W x0c x6e xff xff x00 x00 x00 x00)) E)))
(T (W x00 x00 x00 x00 x01 x00 x00 x00)
(T (W x2c x00 x00 x00 x18 x00 x00 x00)
(T (W x01 x00 x00 x00 x00 x00 x80 x3f)
(L (W x45 x26 x22 x84 xe4 x9c xf2 xcb))
(L (W x00 x00 x80 xbf x00 x00 x80 xbf)))
(T (W x04 x00 x00 x00 x30 x50 xfe xff)
(L (W x5c x00 x00 x00 x50 x00 x00 x00)) E))
(T (W x27 x67 x19 x96 x41 xee x8e x93)
(T (W xaa x31 xfe xff x00 x00 x00 x01)
(L (W x28 x00 x00 x00 x14 x00 x00 x00)) E)
(T (W x8a x8d xfe xff x9a xd9 xd2 x43)
(L (W x0c x8e xff xff x8e x8d xff xff)) E)))))))
(T (W xb0 x20 x00 x00 xc4 x1e x00 x00)
(T (W x5f x4f x55 x54 x42 x52 x45 x41)
(T (W x9d x92 x71 xb8 xdc x8f x03 x0e)
(T (W x00 x00 x00 x00 x00 x00 x00 x00)
(T (W x04 x00 x00 x00 x4a xd9 xfc xff)
(T (W x00 x00 x80 x3f x00 x00 x80 x3f)
(T (W x45 x26 x22 x84 xe4 x9c xf2 xcb)
(L (W x34 x00 x00 x00 x20 x00 x00 x00))
(L (W x34 x00 x00 x00 x20 x00 x00 x00)))
(T (W x45 x26 x22 x84 xe4 x9c xf2 xcb)
(L (W x00 x00 x80 xbf x9c x00 x00 x00)) E))
(T (W x00 x00 x80 x3f x00 x00 x80 x3f)
(T (W x00 x00 x00 x00 x10 xd4 xfd xff)
(L (W x1c x01 x00 x00 x01 x00 x00 x00))
(L (W x00 x00 x00 x00 x10 xd4 xff xff)))
(T (W x3c x01 x00 x00 x30 x01 x00 x00)
(L (W x34 x00 x00 x00 x20 x00 x00 x00)) E)))
(T (W x3c x01 x00 x00 x30 x01 x00 x00)
(T (W x00 x00 x00 x00 x00 x00 x00 x00)
(T (W x00 x00 x00 x00 x00 x00 x00 x00)
(L (W x55 x39 x81 x6a xc4 xc7 x74 x14))
(L (W xcd x7c x1c x44 x00 x00 x00 x00)))
(T (W x0c x34 xfe xff x00 x00 x00 x00)
(L (W x00 x00 x00 x00 x00 x00 x00 x00)) E))
(T (W x45 x41 x30 x32 x5f x30 x30 x37)
(T (W x00 x00 x00 x00 x00 x00 x00 x00)
(L (W x00 x00 x00 x00 x00 x00 x00 x00))
(L (W x00 x00 x00 x00 x10 xf4 xff xff)))
(T (W x00 x00 x00 x00 x01 x00 x00 x00)
(L (W x0c x74 xff xff x00 x00 x00 x00)) E))))
(T (W x46 x53 x59 x53 x5f x4e x45 x57)
(T (W x00 x00 x00 x00 x10 xe4 xfc xff)
(T (W x3c x01 x00 x00 x30 x01 x00 x00)
(T (W x34 x01 x00 x00 x00 x00 xa0 x40)
(L (W x45 x26 x22 x84 xe4 x9c xf2 xcb))
(L (W x00 x00 x00 x00 x00 x00 x00 x00)))
(T (W x00 x00 x00 x00 x00 x00 x00 x00)
(L (W x0c x24 xff xff x8e x23 xff xff)) E))
(T (W x00 x00 x00 x00 x10 x64 xfd xff)
(T (W x59 xab xf6 x13 x15 x4e xdd x02)
(L (W x00 x00 x80 x3f x00 x00 x80 x3f))
(L (W x42 x52 x45 x41 x4b x5f x41 x52)))
(T (W x04 x00 x00 x00 x30 x66 xfe xff)
(L (W x00 x00 x00 x00 x00 x00 x00 x00)) E)))
(T (W x00 x00 x00 x00 x10 x04 xfd xff)
(T (W x54 x00 x00 x00 x48 x00 x00 x00)
(T (W x45 x26 x22 x84 xe4 x9c xf2 xcb)
(L (W x04 x00 x00 x00 x4a xc9 xfe xff))
(L (W x00 x00 x00 x00 x10 xc4 xff xff)))
(T (W x45 x26 x22 x84 xe4 x9c xf2 xcb)
(L (W x04 x00 x00 x00 x00 x00 x00 x00)) E))
(T (W x00 x00 x00 x00 x00 x00 x00 x00)
(T (W x00 x00 x00 x00 x01 x00 x00 x00)
(L (W x45 x26 x22 x84 xe4 x9c xf2 xcb)) E)
(T (W x01 x00 x00 x00 x04 x00 x00 x00)
(L (W x00 x00 x00 x00 x10 x84 xff xff)) E)))))
(T (W x45 x26 x22 x84 xe4 x9c xf2 xcb)
(T (W x28 x00 x00 x00 x14 x00 x00 x00)
(T (W x01 x00 x00 x00 x04 x00 x00 x00)
(T (W x5c x00 x40 x00 x48 x00 x08 x00)
(T (W x0c x9c xfd xff x00 x00 x00 x00)
(L (W x00 x00 x00 x00 x10 x9c xfe xff))
(L (W x00 x00 x00 x00 x00 x00 x00 x00)))
(T (W x00 x00 x00 x00 x10 x1c xfe xff)
(L (W x44 x00 x00 x00 x38 x00 x00 x00)) E))
(T (W xf7 xe4 xaa x00 x15 x37 x9a xe0)
(T (W x00 x00 x80 x3f x00 x00 x80 x3f)
(L (W x0c xdc xfe xff x00 x00 x00 x00))
(L (W x45 x26 x22 x84 xe4 x9c xf2 xcb)))
(T (W x00 x00 x00 x00 x10 x5c xfe xff)
(L (W x45 x26 x22 x84 xe4 x9c xf2 xcb)) E)))
(T (W x00 x00 x00 x00 x01 x00 x00 x00)
(T (W x00 x00 x00 x00 x8e x3b xfd xff)
(T (W x45 x26 x22 x84 xe4 x9c xf2 xcb)
(L (W x48 x00 x00 x00 x34 x00 x00 x00))
(L (W x40 x00 x00 x00 x38 x00 x00 x00)))
(T (W x00 x00 x80 xbf x9c x00 x00 x00)
(L (W x8a x3b xff xff x00 x00 x80 x3f)) E))
(T (W xb4 x7e xfd xff x50 x00 x00 x00)
(T (W x40 x00 x00 x00 x38 x00 x00 x00)
(L (W x00 x00 x00 x00 x00 x00 x00 x00))
(L (W x14 x9e x16 x44 x00 x00 x00 x00)))
(T (W x00 x00 x80 xbf x9c x00 x00 x00)
(L (W x00 x00 x80 xbf x00 x00 x80 xbf)) E))))
(T (W x00 x00 x00 x41 x24 x01 x00 x00)
(T (W x00 x00 x80 x3f x10 xec xfc xff)
(T (W x00 x00 x00 x00 x01 x00 x00 x00)
(T (W x00 x00 x00 x00 x10 xac xfd xff)
(L (W x00 x00 x00 x00 x01 x00 x00 x00))
(L (W x01 x00 x00 x00 x04 x00 x00 x00)))
(T (W x00 x00 x00 x00 x10 x2c xfe xff)
(L (W x45 x26 x22 x84 xe4 x9c xf2 xcb)) E))
(T (W x00 x00 x00 x00 x8e x6b xfd xff)
(T (W x44 x00 x00 x00 x38 x00 x00 x00)
(L (W x3e x8d x83 xf3 x1d x35 x57 x95))
(L (W x04 x00 x00 x00 x4a xf1 xff xff)))
(T (W x04 x00 x00 x00 x00 x00 x00 x00)
(L (W x45 x26 x22 x84 xe4 x9c xf2 xcb)) E)))
(T (W x00 x00 x00 x00 x00 x00 x00 x00)
(T (W x00 x00 x00 x00 x10 x4c xfd xff)
(T (W x00 x00 x00 x00 x00 x00 x00 x00)
(L (W x0c xcc xfe xff x00 x00 x00 x00))
(L (W x00 x00 x00 x00 x00 x00 x00 x00)))
(T (W x00 x00 x00 x00 x10 x4c xfe xff)
(L (W x00 x00 x00 x00 x00 x00 x00 x00)) E))
(T (W x00 x00 x80 xbf x9c x00 x00 x00)
(T (W xf6 x28 x02 x42 x33 x13 x66 x44)
(L (W x04 x00 x00 x00 x30 x0e xff xff)) E)
(T (W x44 x00 x00 x00 x30 x00 x00 x00)
(L (W x5c x00 x00 x00 x50 x00 x00 x00)) E))))))
(T (W x1c x01 x00 x00 x04 x00 x00 x00)
(T (W x54 x00 x00 x00 x48 x00 x00 x00)
(T (W x0c xb8 xfc xff x00 x00 x00 x00)
(T (W x45 x26 x22 x84 xe4 x9c xf2 xcb)
(T (W x00 x00 x00 x00 x00 x00 x00 x00)
(T (W x00 x00 x00 x00 x00 x00 x00 x00)
(L (W x00 x00 x00 x00 x01 x00 x00 x00))
(L (W x45 x26 x22 x84 xe4 x9c xf2 xcb)))
(T (W x00 x00 x00 x00 x10 x18 xfe xff)
(L (W x45 x26 x22 x84 xe4 x9c xf2 xcb)) E))
(T (W x00 x00 x00 x00 x00 x00 x00 x00)
(T (W x0c xd8 xfd xff x00 x00 x00 x00)
(L (W x04 x00 x00 x00 x00 x00 x00 x00))
(L (W x00 x00 x00 x00 x00 x00 x00 x00)))
(T (W x54 x00 x00 x00 x48 x00 x00 x00)
(L (W x45 x26 x22 x84 xe4 x9c xf2 xcb)) E)))
(T (W x34 x00 x00 x00 x20 x00 x00 x00)
(T (W x74 x00 x00 x00 x68 x00 x00 x00)
(T (W x00 x00 x80 xbf x00 x00 x80 xbf)
(L (W x45 x26 x22 x84 xe4 x9c xf2 xcb))
(L (W x00 x00 xa0 x40 x24 x01 x00 x00)))
(T (W x00 x00 x80 x3f x00 x00 x80 x3f)
(L (W x04 x00 x00 x00 x30 x3a xff xff)) E))
(T (W x00 x00 x00 x00 x01 x00 x00 x00)
(T (W x00 x00 x80 x3f x02 x00 x00 x00)
(L (W x48 x00 x00 x00 x34 x00 x00 x00))
(L (W x9a x99 x07 x44 x66 x66 xac x42)))
(T (W x00 x00 x00 x00 x00 x00 x00 x00)
(L (W x00 x00 x80 x3f x00 x00 x80 x3f)) E))))
(T (W x00 x00 xe0 x40 x24 x01 x00 x00)
(T (W x48 x00 x00 x00 x34 x00 x00 x00)
(T (W xb9 xfd xfc xd6 x5f xf9 x60 x9e)
(T (W x00 x00 x00 x00 x01 x00 x00 x00)
(L (W x57 x53 x59 x53 x5f x4d x41 x53))
(L (W x04 x00 x00 x00 x00 x00 x00 x00)))
(T (W x00 x00 x00 x00 x01 x00 x00 x00)
(L (W x02 x00 x00 x00 x00 x00 x80 x3f)) E))
(T (W x0c x68 xfd xff x00 x00 x00 x00)
(T (W x45 x26 x22 x84 xe4 x9c xf2 xcb)
(L (W x42 x52 x45 x41 x4b x5f x41 x52))
(L (W xaf x07 xf7 xdf xc2 x61 xf0 xb7)))
(T (W x00 x00 x00 x00 x00 x00 x00 x00)
(L (W x34 x00 x00 x00 x20 x00 x00 x00)) E)))
(T (W x45 x26 x22 x84 xe4 x9c xf2 xcb)
(T (W x0c x48 xfd xff x00 x00 x00 x00)
(T (W x00 x00 x00 x00 x01 x00 x00 x00)
(L (W x44 x00 x00 x00 x38 x00 x00 x00))
(L (W x44 x00 x00 x00 x30 x00 x00 x00)))
(T (W x00 x00 x00 x00 x00 x00 x00 x00)
(L (W x45 x26 x22 x84 xe4 x9c xf2 xcb)) E))
(T (W x00 x00 x00 x00 xd2 x8f xfd xff)
(T (W x55 x39 x81 x6a xc4 xc7 x74 x14)
(L (W x45 x26 x22 x84 xe4 x9c xf2 xcb)) E)
(T (W x86 x3c x45 xdc x00 xd6 x55 x2f)
(L (W x2c x00 x00 x00 x20 x00 x00 x00)) E)))))
(T (W xb4 xb2 xfc xff x50 x00 x00 x00)
(T (W x8f xc2 x86 x43 xa4 x70 x19 x42)
(T (W x45 x26 x22 x84 xe4 x9c xf2 xcb)
(T (W x00 x00 x00 x00 x00 x00 x07 x00)
(T (W x00 x00 x00 x00 x00 x00 x00 x00)
(L (W x00 x00 x00 x00 x00 x00 x00 x00))
(L (W x2c x00 x00 x00 x18 x00 x00 x00)))
(T (W x00 x00 x00 x00 x8e x1f xfe xff)
(L (W x0c x20 xff xff x00 x00 x00 x00)) E))
(T (W x40 x00 x00 x00 x38 x00 x00 x00)
(T (W x00 x00 x00 x00 x00 x00 x00 x00)
(L (W x00 x00 x00 x00 x00 x00 x00 x00))
(L (W x00 x00 x00 x00 x00 x00 x00 x00)))
(T (W x45 x26 x22 x84 xe4 x9c xf2 xcb)
(L (W x04 x00 x00 x00 x30 x62 xff xff)) E)))
(T (W x45 x26 x22 x84 xe4 x9c xf2 xcb)
(T (W x3c x01 x00 x00 x30 x01 x00 x00)
(T (W x00 x00 x00 x00 x10 xc0 xfd xff)
(L (W x00 x00 x00 x00 xd2 xc7 xfe xff))
(L (W xb4 xc2 xff xff x50 x00 x00 x00)))
(T (W x04 x00 x00 x00 x00 x00 x00 x00)
(L (W x00 x00 xa0 x40 x24 x01 x00 x00)) E))
(T (W x04 x00 x00 x00 x30 x82 xfd xff)
(T (W xfe x27 x3c xdc x00 x65 x4b x2f)
(L (W x34 x00 x00 x00 x20 x00 x00 x00))
(L (W x00 x00 x00 x00 x01 x00 x00 x00)))
(T (W x40 x00 x00 x00 x38 x00 x00 x00)
(L (W x54 x00 x00 x00 x48 x00 x00 x00)) E))))
(T (W x28 xa2 xa6 x4b xbc xb0 xe9 xea)
(T (W x02 x00 x00 x00 x32 x35 x00 x00)
(T (W x00 x00 x00 x00 x10 x30 xfd xff)
(T (W x0c xb0 xfd xff x00 x00 x00 x00)
(L (W x45 x26 x22 x84 xe4 x9c xf2 xcb))
(L (W x0c xb0 xff xff x00 x00 x00 x00)))
(T (W x00 x00 x00 x00 x00 x00 x00 x00)
(L (W x00 x00 x00 x00 x10 x30 xff xff)) E))
(T (W x00 x00 x00 x00 x00 x00 x00 x00)
(T (W x74 x00 x00 x00 x68 x00 x00 x00)
(L (W x45 x26 x22 x84 xe4 x9c xf2 xcb))
(L (W x44 x00 x00 x00 x38 x00 x00 x00)))
(T (W x01 x00 x00 x00 x04 x00 x00 x00)
(L (W xb4 x72 xff xff x50 x00 x00 x00)) E)))
(T (W x60 x00 x00 x00 x54 x00 x00 x00)
(T (W x00 x00 x00 x00 x8e x4f xfd xff)
(T (W x00 x00 x00 x00 x01 x00 x00 x00)
(L (W x00 x00 x00 x00 x00 x00 x00 x00))
(L (W xc1 x09 xab xcb x68 x3a xb4 x2b)))
(T (W x8a x4f xfe xff x00 x00 x80 x3f)
(L (W x0c x50 xff xff x8e x4f xff xff)) E))
(T (W x40 x00 x00 x00 x38 x00 x00 x00)
(T (W x00 x00 x80 xbf x9c x00 x00 x00)
(L (W xb8 xde xbc x43 x00 x00 x00 x00)) E)
(T (W x00 x00 x00 x00 x00 x00 x00 x00)
(L (W x00 x00 x00 x00 xd2 x97 xff xff)) E)))))))))
(T (W x24 xb1 x02 x00 x38 xaf x02 x00)
(T (W xdc x3a x02 x00 x10 x39 x02 x00)
(T (W x40 x4e x01 x00 x58 x4c x01 x00)
(T (W x8c x99 xfc xff x00 x00 x00 x00)
(T (W x85 x6b xe7 x43 x85 x6b xbb x42)
(T (W x04 x00 x00 x00 xca xb6 xfc xff)
(T (W x02 x00 x00 x00 x34 x31 x00 x00)
(T (W x11 xd2 x36 x97 x85 x2d x63 x5f)
(T (W x1c x01 x00 x00 x01 x00 x00 x00)
(L (W x28 x00 x00 x00 x14 x00 x00 x00))
(L (W x0a x91 xff xff x00 x00 x80 x3f)))
(T (W x00 x00 x00 x00 x00 x00 x00 x00)
(L (W x5c x00 x00 x00 x50 x00 x00 x00)) E))
(T (W x00 x00 x00 x00 x00 x00 x00 x00)
(T (W x00 x00 xa0 x40 x24 x01 x00 x00)
(L (W x44 x00 x00 x00 x30 x00 x00 x00))
(L (W x00 x00 x00 x00 x52 xd9 xff xff)))
(T (W x8c x51 xfe xff x00 x00 x00 x00)
(L (W x04 x00 x00 x00 xb0 x53 xff xff)) E)))
(T (W x60 x00 x00 x00 x54 x00 x00 x00)
(T (W x00 x00 x00 x00 x01 x00 x00 x00)
(T (W x8e x2d xc8 xc9 x03 x8b xa0 xbc)
(L (W x00 x00 x00 x00 x01 x00 x00 x00))
(L (W x2c x00 x00 x00 x20 x00 x00 x00)))
(T (W x45 x26 x22 x84 xe4 x9c xf2 xcb)
(L (W x04 x00 x00 x00 x00 x00 x00 x00)) E))
(T (W x04 x00 x00 x00 x78 x71 xfd xff)
(T (W x00 x00 x00 x00 x00 x00 x00 x00)
(L (W x00 x00 x00 x00 x01 x00 x00 x00))
(L (W x45 x26 x22 x84 xe4 x9c xf2 xcb)))
(T (W x45 x26 x22 x84 xe4 x9c xf2 xcb)
(L (W x45 x26 x22 x84 xe4 x9c xf2 xcb)) E))))
(T (W x00 x00 x00 x00 x90 xc1 xfc xff)
(T (W x45 x26 x22 x84 xe4 x9c xf2 xcb)
(T (W x60 x00 x00 x00 x54 x00 x00 x00)
(T (W x5c x00 x00 x00 x50 x00 x00 x00)
(L (W x44 x00 x00 x00 x38 x00 x00 x00))
(L (W x45 x26 x22 x84 xe4 x9c xf2 xcb)))
(T (W x00 x00 x00 x00 x00 x00 x00 x00)
(L (W x34 x24 xff xff x50 x00 x00 x00)) E))
(T (W x00 x00 x80 xbf x9c x00 x00 x00)
(T (W x45 x26 x22 x84 xe4 x9c xf2 xcb)
(L (W x01 x00 x00 x00 x04 x00 x00 x00))
(L (W x00 x00 x00 x00 x01 x00 x00 x00)))
(T (W x45 x26 x22 x84 xe4 x9c xf2 xcb)
(L (W x45 x26 x22 x84 xe4 x9c xf2 xcb)) E)))
(T (W x00 x00 x80 xbf x9c x00 x00 x00)
(T (W x00 x00 x80 x3f x00 x00 x80 x3f)
(T (W x04 x00 x00 x00 x00 x00 x00 x00)
(L (W x0a xc1 xfe xff x00 x00 x80 x3f))
(L (W x54 x00 x00 x00 x48 x00 x00 x00)))
(T (W x1c x01 x00 x00 x01 x00 x00 x00)
(L (W x8c x41 xff xff x0e x41 xff xff)) E))
(T (W x45 x26 x22 x84 xe4 x9c xf2 xcb)
(T (W x45 x26 x22 x84 xe4 x9c xf2 xcb)
(L (W x00 x00 x00 x00 x00 x00 x00 x00)) E)
(T (W x34 x00 x00 x00 x20 x00 x00 x00)
(L (W x1c x01 x00 x00 x01 x00 x00 x00)) E)))))
(T (W x00 x00 xe0 x40 x24 x01 x00 x00)
(T (W x01 x00 x00 x00 x04 x00 x00 x00)
(T (W x34 x00 x00 x00 x20 x00 x00 x00)
(T (W x78 x00 x00 x00 x6c x00 x00 x00)
(T (W x45 x26 x22 x84 xe4 x9c xf2 xcb)
(L (W x00 x00 x00 x00 x52 xa1 xfe xff))
(L (W x04 x00 x00 x00 x00 x00 x00 x00)))
(T (W x54 x00 x00 x00 x48 x00 x00 x00)
(L (W x45 xd4 x0c xfe x1d xf6 x83 xa7)) E))
(T (W x74 x00 x00 x00 x68 x00 x00 x00)
(T (W x3a xfd xaf x28 xbf x5e x5d x6a)
(L (W x28 x01 x00 x00 x20 x01 x00 x00))
(L (W x8c xd9 xff xff x00 x00 x00 x00)))
(T (W x00 x00 x40 x40 x24 x01 x00 x00)
(L (W x74 x3e x45 xe3 x48 xbb x28 x26)) E)))
(T (W x00 x00 x00 x00 x00 x00 x00 x00)
(T (W x2c x00 x00 x00 x20 x00 x00 x00)
(T (W x00 x00 x00 x00 x00 x00 x00 x00)
(L (W x45 x26 x22 x84 xe4 x9c xf2 xcb))
(L (W x8c xb9 xff xff x0e xb9 xff xff)))
(T (W x00 x00 x00 x00 x01 x00 x00 x00)
(L (W x2c x00 x00 x00 x20 x00 x00 x00)) E))
(T (W x01 x00 x00 x00 x00 x00 x80 x3f)
(T (W x5c x8f x18 x42 x48 x31 x38 x44)
(L (W x45 x26 x22 x84 xe4 x9c xf2 xcb))
(L (W x00 x00 x00 x00 x00 x00 x00 x00)))
(T (W x00 x00 x00 x00 x01 x00 x00 x00)
(L (W x00 x00 x00 x00 x01 x00 x00 x00)) E))))
(T (W x8c xc9 xfc xff x0e xc9 xfc xff)
(T (W x45 x26 x22 x84 xe4 x9c xf2 xcb)
(T (W x00 x00 x00 x00 x00 x00 x00 x00)
(T (W x00 x00 xa0 x40 x24 x01 x00 x00)
(L (W x28 x00 x00 x00 x14 x00 x00 x00))
(L (W x1c x01 x00 x00 x01 x00 x00 x00)))
(T (W x00 x00 x40 x40 x24 x01 x00 x00)
(L (W xcd xec x0d x44 x00 x00 x00 x00)) E))
(T (W x2c x00 x00 x00 x20 x00 x00 x00)
(T (W x00 x00 x80 xbf x00 x00 x80 xbf)
(L (W x55 x39 x81 x6a xc4 xc7 x74 x14))
(L (W x00 x00 x00 x00 x1c x00 x00 x00)))
(T (W x45 x26 x22 x84 xe4 x9c xf2 xcb)
(L (W x00 x00 x00 x00 x00 x00 x00 x00)) E)))
(T (W x45 x26 x22 x84 xe4 x9c xf2 xcb)
(T (W x54 x00 x00 x00 x48 x00 x00 x00)
(T (W x45 x26 x22 x84 xe4 x9c xf2 xcb)
(L (W x45 x26 x22 x84 xe4 x9c xf2 xcb))
(L (W x00 x00 x00 x00 x00 x00 x00 x00)))
(T (W x45 x26 x22 x84 xe4 x9c xf2 xcb)
(L (W x00 x00 x00 x00 x01 x00 x00 x00)) E))
(T (W x00 x00 x00 x00 x0e x89 xfd xff)
(T (W x00 x00 x00 x00 x00 x00 x00 x00)
(L (W x45 x26 x22 x84 xe4 x9c xf2 xcb)) E)
(T (W x45 x26 x22 x84 xe4 x9c xf2 xcb)
(L (W x45 x26 x22 x84 xe4 x9c xf2 xcb)) E))))))
(T (W x28 x00 x00 x00 x14 x00 x00 x00)
(T (W x46 x53 x59 x53 x5f x4e x45 x57)
(T (W x45 x26 x22 x84 xe4 x9c xf2 xcb)
(T (W x3c x01 x00 x00 x30 x01 x00 x00)
(T (W x00 x00 x00 x00 x00 x00 x00 x00)
(T (W x00 x00 x00 x00 x01 x00 x00 x00)
(L (W x00 x00 x00 x00 x00 x00 x00 x00))
(L (W x00 x00 x00 x00 x00 x00 x00 x00)))
(T (W x00 x00 x80 xbf x9c x00 x00 x00)
(L (W x00 x00 x00 x00 x00 x00 x00 x00)) E))
(T (W x00 x00 x00 x00 x00 x00 x00 x00)
(T (W x40 x00 x00 x00 x38 x00 x00 x00)
(L (W x71 x9d xe1 x43 xe1 xfa xbb x42))
(L (W x04 x00 x00 x00 xca xda xff xff)))
(T (W x00 x00 x80 x3f x00 x00 x80 x3f)
(L (W x00 x00 x00 x00 x00 x00 x00 x00)) E)))
(T (W x00 x00 x80 x3f x00 x00 x80 x3f)
(T (W x00 x00 x00 x00 x90 x35 xfd xff)
(T (W x60 x00 x00 x00 x54 x00 x00 x00)
(L (W x40 x00 x00 x00 x38 x00 x00 x00))
(L (W x60 x00 x00 x00 x54 x00 x00 x00)))
(T (W x01 x00 x00 x00 x04 x00 x00 x00)
(L (W x45 x26 x22 x84 xe4 x9c xf2 xcb)) E))
(T (W x45 x26 x22 x84 xe4 x9c xf2 xcb)
(T (W x55 x39 x81 x6a xc4 xc7 x74 x14)
(L (W x00 x00 x00 x00 x90 xf5 xfe xff))
(L (W x44 x00 x00 x00 x38 x00 x00 x00)))
(T (W x5c x3e x54 x1d xca xa1 x99 xfd)
(L (W x29 x9b xaa x28 xbf xcd x56 x6a)) E))))
(T (W x44 x00 x00 x00 x30 x00 x00 x00)
(T (W x00 x00 x00 x00 x90 xe5 xfc xff)
(T (W x00 x00 x80 x3f x00 x00 x80 x3f)
(T (W x00 x00 x80 x3f x00 x00 x80 x3f)
(L (W x00 x00 x00 x00 x90 xa5 xfe xff))
(L (W x45 x26 x22 x84 xe4 x9c xf2 xcb)))
(T (W x28 x00 x00 x00 x14 x00 x00 x00)
(L (W x04 x00 x00 x00 xb0 x27 xff xff)) E))
(T (W x40 x00 x00 x00 x38 x00 x00 x00)
(T (W x00 x00 x00 x00 x00 x00 x00 x00)
(L (W x00 x00 x00 x00 x01 x00 x00 x00))
(L (W x45 x26 x22 x84 xe4 x9c xf2 xcb)))
(T (W x45 x26 x22 x84 xe4 x9c xf2 xcb)
(L (W x44 x00 x00 x00 x30 x00 x00 x00)) E)))
(T (W x04 x00 x00 x00 x00 x00 x00 x00)
(T (W x00 x00 x80 xbf x00 x00 x80 xbf)
(T (W x45 x26 x22 x84 xe4 x9c xf2 xcb)
(L (W x00 x00 x80 xbf x00 x00 x80 xbf))
(L (W x00 x00 x00 x00 x90 xc5 xff xff)))
(T (W x00 x00 x00 x00 x01 x00 x00 x00)
(L (W x1c x01 x00 x00 x01 x00 x00 x00)) E))
(T (W x78 x00 x00 x00 x6c x00 x00 x00)
(T (W x34 x08 xfe xff x50 x00 x00 x00)
(L (W x0e xa0 xc8 xf8 x1d xd7 x6d x9e)) E)
(T (W x00 x00 x00 x00 x01 x00 x00 x00)
(L (W x45 x26 x22 x84 xe4 x9c xf2 xcb)) E)))))
(T (W xb4 xe3 x86 x67 x2b x03 xf1 x8e)
(T (W x45 x26 x22 x84 xe4 x9c xf2 xcb)
(T (W x00 x00 x00 x00 x01 x00 x00 x00)
(T (W x74 x00 x00 x00 x68 x00 x00 x00)
(T (W x9f x41 x45 xdc x00 xd9 x55 x2f)
(L (W x04 x00 x00 x00 xca xa2 xfe xff))
(L (W x01 x00 x00 x00 x04 x00 x00 x00)))
(T (W x00 x00 x00 x00 x90 x1d xfe xff)
(L (W x40 x00 x00 x00 x38 x00 x00 x00)) E))
(T (W x00 x00 x00 x00 x00 x00 x00 x00)
(T (W x00 x00 x00 x00 x00 x00 x00 x00)
(L (W x54 x00 x00 x00 x48 x00 x00 x00))
(L (W x45 x26 x22 x84 xe4 x9c xf2 xcb)))
(T (W x04 x00 x00 x00 x00 x00 x00 x00)
(L (W x45 x26 x22 x84 xe4 x9c xf2 xcb)) E)))
(T (W x82 xe1 xff xff x00 x00 x00 x01)
(T (W x00 x00 x00 x00 x00 x00 x00 x00)
(T (W x00 x00 x80 xbf x9c x00 x00 x00)
(L (W x00 x00 x00 x00 x00 x00 x00 x00))
(L (W x34 x00 x00 x00 x20 x00 x00 x00)))
(T (W x00 x00 x00 x00 x00 x00 x00 x00)
(L (W x8c x3d xff xff x00 x00 x00 x00)) E))
(T (W x45 x26 x22 x84 xe4 x9c xf2 xcb)
(T (W x34 x00 x00 x00 x20 x00 x00 x00)
(L (W x28 x00 x00 x00 x14 x00 x00 x00))
(L (W x45 x26 x22 x84 xe4 x9c xf2 xcb)))
(T (W x00 x00 x00 x00 x00 x00 x00 x00)
(L (W x00 x00 x00 x00 x00 x00 x00 x00)) E))))
(T (W x00 x00 x80 x3f x90 xcd xfc xff)
(T (W x00 x00 x00 x00 x00 x00 x00 x00)
(T (W x3c x01 x00 x00 x30 x01 x00 x00)
(T (W x40 x00 x00 x00 x38 x00 x00 x00)
(L (W x4e x45 x52 x41 x54 x49 x4f x4e))
(L (W x45 x26 x22 x84 xe4 x9c xf2 xcb)))
(T (W x45 x26 x22 x84 xe4 x9c xf2 xcb)
(L (W x00 x00 x80 xbf x00 x00 x80 xbf)) E))
(T (W x00 x00 x00 x00 x00 x00 x00 x00)
(T (W x45 x26 x22 x84 xe4 x9c xf2 xcb)
(L (W x00 x00 x00 x00 x00 x00 x00 x00))
(L (W x00 x00 x80 xbf x00 x00 x80 xbf)))
(T (W x1c x01 x00 x00 x01 x00 x00 x00)
(L (W x79 x4e x36 x08 x1e x43 x40 xb9)) E)))
(T (W x8c x0d xfd xff x00 x00 x00 x00)
(T (W x2c x00 x00 x00 x20 x00 x00 x00)
(T (W x28 x00 x00 x00 x14 x00 x00 x00)
(L (W xb9 x86 xa7 x28 xbf x4a x53 x6a))
(L (W x45 x26 x22 x84 xe4 x9c xf2 xcb)))
(T (W x00 x00 x00 x00 x90 x4d xfe xff)
(L (W x34 x50 xff xff x50 x00 x00 x00)) E))
(T (W x00 x00 x00 x00 x00 x00 x00 x00)
(T (W x78 x00 x00 x00 x6c x00 x00 x00)
(L (W x2c x00 x00 x00 x20 x00 x00 x00)) E)
(T (W x00 x00 x00 x00 x00 x00 x00 x00)
(L (W x00 x00 x00 x00 x00 x00 x00 x00)) E)))))))
(T (W x60 x5e x00 x00 x74 x5c x00 x00)
(T (W x74 x00 x00 x00 x68 x00 x00 x00)
(T (W x00 x00 x00 x00 x00 x00 x00 x00)
(T (W x45 x26 x22 x84 xe4 x9c xf2 xcb)
(T (W x4e x45 x52 x41 x54 x49 x4f x4e)
(T (W x00 x00 x00 x00 x00 x00 x00 x00)
(T (W x00 x00 x80 xbf x9c x00 x00 x00)
(L (W x85 xeb x3a x42 x66 xb6 x2e x44))
(L (W xa4 x70 x24 x42 xb8 x6e x0f x44)))
(T (W x1c x01 x00 x00 x01 x00 x00 x00)
(L (W x45 x26 x22 x84 xe4 x9c xf2 xcb)) E))
(T (W x00 x00 x00 x00 x00 x00 x00 x00)
(T (W x60 x88 x7e x8d xbd x19 x51 xcc)
(L (W x00 x00 x00 x00 x0e xd3 xfe xff))
(L (W x34 x00 x00 x00 x20 x00 x00 x00)))
(T (W x74 x00 x00 x00 x68 x00 x00 x00)
(L (W x0a x53 xff xff x00 x00 x80 x3f)) E)))
(T (W xd6 x81 x9c x94 x9b x27 x57 x25)
(T (W x45 x26 x22 x84 xe4 x9c xf2 xcb)
(T (W x00 x00 x00 x00 x00 x00 x00 x00)
(L (W x54 x00 x00 x00 x48 x00 x00 x00))
(L (W x00 x00 x00 x00 x00 x00 x00 x00)))
(T (W x00 x00 x00 x00 x90 x33 xfe xff)
(L (W x45 x26 x22 x84 xe4 x9c xf2 xcb)) E))
(T (W x48 x00 x00 x00 x34 x00 x00 x00)
(T (W x00 x00 x00 x00 x01 x00 x00 x00)
(L (W x45 x26 x22 x84 xe4 x9c xf2 xcb))
(L (W x45 x26 x22 x84 xe4 x9c xf2 xcb)))
(T (W x8c x73 xfe xff x00 x00 x00 x00)
(L (W x00 x00 x00 x00 x90 x73 xff xff)) E))))
(T (W x04 x00 x00 x00 xb0 xc5 xfc xff)
(T (W x45 x26 x22 x84 xe4 x9c xf2 xcb)
(T (W x60 x00 x00 x00 x54 x00 x00 x00)
(T (W x55 x39 x81 x6a xc4 xc7 x74 x14)
(L (W x45 x26 x22 x84 xe4 x9c xf2 xcb))
(L (W x8c xa3 xff xff x00 x00 x00 x00)))
(T (W x00 x00 x00 x00 x90 x23 xfe xff)
(L (W x00 x00 x00 x00 x00 x00 x00 x00)) E))
(T (W x9d xba x1a x2a x2d x53 x0c xea)
(T (W x00 x00 x00 x00 x00 x00 x00 x00)
(L (W x00 x00 x00 x00 x00 x00 x00 x00))
(L (W x60 x00 x00 x00 x54 x00 x00 x00)))
(T (W x00 x00 x00 x00 x90 x63 xfe xff)
(L (W x00 x00 x00 x00 x90 x63 xff xff)) E)))
(T (W xf6 xe1 x0f xf0 x55 xcb xab xa2)
(T (W x00 x00 x00 x00 x00 x00 x00 x00)
(T (W x54 x00 x00 x00 x48 x00 x00 x00)
(L (W x00 x00 x00 x00 x00 x00 x00 x00))
(L (W x45 x26 x22 x84 xe4 x9c xf2 xcb)))
(T (W x00 x00 x80 xbf x9c x00 x00 x00)
(L (W x1c x00 x00 x00 x46 x53 x59 x53)) E))
(T (W x8c x83 xfd xff x00 x00 x00 x00)
(T (W x8c x03 xfe xff x00 x00 x00 x00)
(L (W x3c x01 x00 x00 x30 x01 x00 x00)) E)
(T (W x45 x26 x22 x84 xe4 x9c xf2 xcb)
(L (W x34 x00 x00 x00 x20 x00 x00 x00)) E)))))
(T (W x00 x00 x80 xbf x00 x00 x80 xbf)
(T (W x2c x00 x00 x00 x20 x00 x00 x00)
(T (W x45 x26 x22 x84 xe4 x9c xf2 xcb)
(T (W x28 x00 x00 x00 x14 x00 x00 x00)
(T (W x00 x00 x00 x00 x90 x9b xfd xff)
(L (W x34 x00 x00 x00 x20 x00 x00 x00))
(L (W x45 x26 x22 x84 xe4 x9c xf2 xcb)))
(T (W x45 x26 x22 x84 xe4 x9c xf2 xcb)
(L (W x04 x00 x00 x00 x00 x00 x00 x00)) E))
(T (W x00 x00 x80 x3f x00 x00 x80 x3f)
(T (W x00 x00 x00 x00 x00 x00 x00 x00)
(L (W x01 x54 x81 xf3 x1d x33 x54 x95))
(L (W x45 x26 x22 x84 xe4 x9c xf2 xcb)))
(T (W x81 x47 x87 xe4 xc0 x7e x05 xce)
(L (W x54 x00 x00 x00 x48 x00 x00 x00)) E)))
(T (W x5f x4d x41 x53 x53 x5f x47 x41)
(T (W x45 x26 x22 x84 xe4 x9c xf2 xcb)
(T (W x1c x01 x00 x00 x01 x00 x00 x00)
(L (W x44 x00 x00 x00 x38 x00 x00 x00))
(L (W x00 x00 x00 x00 x52 xc3 xff xff)))
(T (W x45 x26 x22 x84 xe4 x9c xf2 xcb)
(L (W x45 x26 x22 x84 xe4 x9c xf2 xcb)) E))
(T (W x00 x00 x00 x00 x01 x00 x00 x00)
(T (W x3a xff xfd xff x40 x01 x00 x00)
(L (W x00 x00 x00 x00 x90 xfb xfe xff))
(L (W x00 x00 x00 x00 x00 x00 x00 x00)))
(T (W x45 x26 x22 x84 xe4 x9c xf2 xcb)
(L (W x45 x26 x22 x84 xe4 x9c xf2 xcb)) E))))
(T (W x00 x00 x00 x00 x00 x00 x00 x00)
(T (W x00 x00 x00 x00 x00 x00 x00 x00)
(T (W x00 x00 x00 x00 x00 x00 x00 x00)
(T (W xa8 x03 xc9 x2b x0d xce x74 x3d)
(L (W xe1 x7a x33 x43 x00 x00 x00 x00))
(L (W x45 x26 x22 x84 xe4 x9c xf2 xcb)))
(T (W x06 xdd xf9 x4f x3f xa1 xd1 x65)
(L (W x00 x00 x80 x40 x24 x01 x00 x00)) E))
(T (W x45 x26 x22 x84 xe4 x9c xf2 xcb)
(T (W x04 x00 x00 x00 x00 x00 x00 x00)
(L (W x00 x00 x80 x3f x00 x00 x80 x3f))
(L (W x42 x52 x45 x41 x4b x5f x41 x52)))
(T (W x00 x00 x00 x00 x00 x00 x00 x00)
(L (W x34 x01 x00 x00 x00 x00 x80 x40)) E)))
(T (W x45 x26 x22 x84 xe4 x9c xf2 xcb)
(T (W x45 x26 x22 x84 xe4 x9c xf2 xcb)
(T (W x00 x00 x00 x00 x90 xcb xfd xff)
(L (W x00 x00 x00 x00 x90 xcb xfe xff))
(L (W x8c xcb xff xff x00 x00 x00 x00)))
(T (W x45 x26 x22 x84 xe4 x9c xf2 xcb)
(L (W x45 x26 x22 x84 xe4 x9c xf2 xcb)) E))
(T (W x0a x8b xfd xff x00 x80 xb8 x43)
(T (W x00 x00 x00 x00 x00 x00 x00 x00)
(L (W x00 x00 x00 x00 x90 x0b xff xff)) E)
(T (W x44 x00 x00 x00 x38 x00 x00 x00)
(L (W x34 x8e xff xff x50 x00 x00 x00)) E))))))
(T (W x0a x9f xfc xff x00 x00 x80 x3f)
(T (W x5f x30 x31 x39 x00 x00 x00 x00)
(T (W x00 x00 x00 x00 x90 xb7 xfc xff)
(T (W x04 x00 x00 x00 x00 x00 x80 x3f)
(T (W x8c x17 xfd xff x00 x00 x00 x00)
(T (W x45 x26 x22 x84 xe4 x9c xf2 xcb)
(L (W x5f x4e x45 x57 x5f x4f x55 x54))
(L (W x00 x00 x80 xbf x00 x00 x80 xbf)))
(T (W xcb x57 xb5 x0f x82 xdd x00 x90)
(L (W x01 x00 x00 x00 x00 x00 x80 x3f)) E))
(T (W x8c x57 xfd xff x00 x00 x00 x00)
(T (W x00 x00 x00 x00 x90 xd7 xfd xff)
(L (W x00 x00 x00 x00 x00 x00 x00 x00))
(L (W x45 x26 x22 x84 xe4 x9c xf2 xcb)))
(T (W x00 x00 x00 x00 x00 x00 x00 x00)
(L (W x00 x00 x80 xbf x00 x00 x80 xbf)) E)))
(T (W x14 xae x19 x42 xf6 x48 x35 x44)
(T (W x01 x00 x00 x00 x04 x00 x00 x00)
(T (W x45 x26 x22 x84 xe4 x9c xf2 xcb)
(L (W x40 x00 x00 x00 x38 x00 x00 x00))
(L (W x5c x00 x00 x00 x50 x00 x00 x00)))
(T (W x00 x00 x00 x00 x00 x00 x00 x00)
(L (W x00 x00 x00 x00 x90 x37 xff xff)) E))
(T (W x00 x00 x00 x00 x00 x00 x00 x00)
(T (W x00 x00 x80 x3f x00 x00 x80 x3f)
(L (W x44 x00 x00 x00 x38 x00 x00 x00))
(L (W x00 x00 x00 x00 x00 x00 x00 x00)))
(T (W x00 x00 x00 x00 x00 x00 x00 x00)
(L (W x00 x00 x00 x00 x00 x00 x00 x00)) E))))
(T (W x4f x84 x6f x8b xe8 xcb x63 xb7)
(T (W x44 x00 x00 x00 x38 x00 x00 x00)
(T (W x71 x7d x1d x44 x66 x66 xf3 x42)
(T (W x5c xcf x4e x44 x00 x00 x00 x00)
(L (W x04 x00 x00 x00 xb0 xa9 xfe xff))
(L (W x00 x00 x00 x00 x00 x00 x00 x00)))
(T (W x71 x1d xf7 x43 x00 x00 x00 x00)
(L (W x0a x27 xff xff x00 x00 x80 x3f)) E))
(T (W x00 x00 x00 x00 x90 x67 xfd xff)
(T (W x00 x00 xa0 x40 x24 x01 x00 x00)
(L (W x60 x00 x00 x00 x54 x00 x00 x00))
(L (W x00 x00 x00 x00 x00 x00 x00 x00)))
(T (W x8c x67 xfe xff x00 x00 x00 x00)
(L (W xcd x4c xc6 x43 x3d x0a x19 x42)) E)))
(T (W x54 x00 x00 x00 x48 x00 x00 x00)
(T (W x7d x87 x2f xf0 x2c x4c x0a xdb)
(T (W x8c xc7 xfd xff x00 x00 x00 x00)
(L (W x04 x00 x00 x00 x00 x00 x00 x00))
(L (W x44 x00 x00 x00 x38 x00 x00 x00)))
(T (W x45 x26 x22 x84 xe4 x9c xf2 xcb)
(L (W x00 x00 x80 xbf x9c x00 x00 x00)) E))
(T (W x2c x00 x00 x00 x18 x00 x00 x00)
(T (W xb1 x29 x3c xdc x00 x66 x4b x2f)
(L (W x54 x00 x00 x00 x48 x00 x00 x00)) E)
(T (W x04 x00 x00 x00 xca x8c xfe xff)
(L (W x00 x00 x00 x00 x01 x00 x00 x00)) E)))))
(T (W x00 x00 x00 x00 x01 x00 x00 x00)
(T (W x00 x00 x00 x00 x00 x00 x00 x00)
(T (W x40 x00 x00 x00 x38 x00 x00 x00)
(T (W x44 x00 x00 x00 x30 x00 x00 x00)
(T (W x00 x00 x00 x00 x00 x00 x00 x00)
(L (W x45 x26 x22 x84 xe4 x9c xf2 xcb))
(L (W x2c x00 x00 x00 x20 x00 x00 x00)))
(T (W x45 x26 x22 x84 xe4 x9c xf2 xcb)
(L (W x00 x00 x00 x00 x90 x1f xff xff)) E))
(T (W x41 x30 x32 x00 x52 x67 xfd xff)
(T (W x8c xdf xfd xff x00 x00 x00 x00)
(L (W x45 x26 x22 x84 xe4 x9c xf2 xcb))
(L (W x00 x00 x00 x00 x00 x00 x00 x00)))
(T (W x54 x00 x00 x00 x48 x00 x00 x00)
(L (W x00 x00 x00 x00 x90 x5f xff xff)) E)))
(T (W x1c x01 x00 x00 x04 x00 x00 x00)
(T (W x74 x00 x00 x00 x68 x00 x00 x00)
(T (W xe2 x57 x3e x00 xd6 x6b x44 x16)
(L (W x04 x00 x00 x00 xb0 xc1 xfe xff))
(L (W x00 x00 x00 x00 x01 x00 x00 x00)))
(T (W x1c x00 x00 x00 x46 x53 x59 x53)
(L (W x5c x00 x00 x00 x50 x00 x00 x00)) E))
(T (W x00 x00 x00 x00 x90 x7f xfd xff)
(T (W x04 x00 x00 x00 xca x04 xfe xff)
(L (W x52 x38 xac x42 x9a x99 x76 x43))
(L (W x18 x00 x00 x00 x14 x00 x30 x00)))
(T (W x2a xa3 xfe xff x00 x00 x00 x01)
(L (W x00 x00 x00 x00 x00 x00 x00 x00)) E))))
(T (W x00 x00 x00 x00 x00 x00 x00 x00)
(T (W x00 x00 x00 x00 x01 x00 x00 x00)
(T (W x34 x00 x00 x00 x20 x00 x00 x00)
(T (W x00 x00 x00 x00 x90 xaf xfd xff)
(L (W x00 x00 x80 x3f x02 x00 x00 x00))
(L (W x00 x00 x00 x00 x90 xaf xff xff)))
(T (W x45 x26 x22 x84 xe4 x9c xf2 xcb)
(L (W x46 x75 x2b xd0 x4d xe4 x66 xba)) E))
(T (W x00 x00 x00 x00 x90 x6f xfd xff)
(T (W x01 x00 x00 x00 x04 x00 x00 x00)
(L (W x00 x00 x80 xbf x00 x00 x80 xbf))
(L (W x04 x00 x00 x00 x00 x00 x00 x00)))
(T (W x45 x26 x22 x84 xe4 x9c xf2 xcb)
(L (W x00 x00 x00 x00 x01 x00 x00 x00)) E)))
(T (W x34 x12 xfd xff x50 x00 x00 x00)
(T (W x45 x26 x22 x84 xe4 x9c xf2 xcb)
(T (W xec x81 x44 x44 x00 x00 x00 x00)
(L (W x00 x00 x00 x00 x00 x00 x00 x00))
(L (W x00 x00 x00 x00 x00 x00 x00 x00)))
(T (W x45 x26 x22 x84 xe4 x9c xf2 xcb)
(L (W x00 x00 x00 x00 x00 x00 x00 x00)) E))
(T (W x00 x00 x00 x00 x52 x97 xfd xff)
(T (W x00 x00 x00 x00 x0e x0f xfe xff)
(L (W x00 x00 x00 x00 x00 x00 x00 x00)) E)
(T (W x00 x00 x00 x00 x90 x8f xfe xff)
(L (W x04 x00 x00 x00 xb0 x91 xff xff)) E))))))))
(T (W xf4 xc4 x01 x00 x08 xc3 x01 x00)
(T (W xd4 xd7 x00 x00 xe8 xd5 x00 x00)
(T (W x45 x26 x22 x84 xe4 x9c xf2 xcb)
(T (W x45 x26 x22 x84 xe4 x9c xf2 xcb)
(T (W x49 xa1 x68 x4a xeb x5f xdd x3d)
(T (W x34 xd5 xfc xff x50 x00 x00 x00)
(T (W x3c x01 x00 x00 x30 x01 x00 x00)
(T (W x00 x00 x00 x00 x00 x00 x00 x00)
(L (W x45 x26 x22 x84 xe4 x9c xf2 xcb))
(L (W x45 x26 x22 x84 xe4 x9c xf2 xcb)))
(T (W x44 x00 x00 x00 x38 x00 x00 x00)
(L (W x54 x00 x00 x00 x48 x00 x00 x00)) E))
(T (W x01 x00 x00 x00 x00 x00 x80 x3f)
(T (W x00 x00 x00 x00 x00 x00 x00 x00)
(L (W x40 x00 x00 x00 x38 x00 x00 x00))
(L (W x45 x26 x22 x84 xe4 x9c xf2 xcb)))
(T (W x45 x26 x22 x84 xe4 x9c xf2 xcb)
(L (W x40 x00 x00 x00 x38 x00 x00 x00)) E)))
(T (W x04 x00 x00 x00 xca xf7 xfc xff)
(T (W x28 x00 x00 x00 x14 x00 x00 x00)
(T (W x00 x00 x80 xbf x00 x00 x80 xbf)
(L (W x5c x00 x00 x00 x50 x00 x00 x00))
(L (W x01 x00 x00 x00 x00 x00 x80 x3f)))
(T (W x3d x0a x1d x42 x48 x31 x14 x44)
(L (W x44 x00 x00 x00 x30 x00 x00 x00)) E))
(T (W x04 x00 x00 x00 x00 x00 x00 x00)
(T (W x17 xc3 xf3 x13 x15 xe5 xd9 x02)
(L (W x5c x00 x00 x00 x50 x00 x00 x00))
(L (W x00 x80 x02 x44 xe1 x7a xe5 x42)))
(T (W x00 x00 x80 x3f x00 x00 x80 x3f)
(L (W x00 x00 x80 x3f x00 x00 x80 x3f)) E))))
(T (W x50 x2d x93 xd0 xfd x68 x4f xc0)
(T (W x0a xe2 xfc xff xae x27 x84 x43)
(T (W x00 x00 x00 x00 x01 x00 x00 x00)
(T (W x04 x00 x00 x00 xca xa7 xfd xff)
(L (W x45 x41 x30 x32 x5f x30 x32 x35))
(L (W x34 x00 x00 x00 x20 x00 x00 x00)))
(T (W x00 x00 x80 xbf x9c x00 x00 x00)
(L (W x00 x00 x00 x41 x24 x01 x00 x00)) E))
(T (W x00 x00 x00 x00 x90 x62 xfd xff)
(T (W x45 x26 x22 x84 xe4 x9c xf2 xcb)
(L (W x3c x01 x00 x00 x30 x01 x00 x00))
(L (W x00 x00 x00 x00 x01 x00 x00 x00)))
(T (W x8c x62 xfe xff x0e x62 xfe xff)
(L (W x00 x00 x80 xbf x9c x00 x00 x00)) E)))
(T (W x00 x00 x00 x00 x90 x02 xfd xff)
(T (W x8c x42 xfd xff x00 x00 x00 x00)
(T (W x48 x00 x00 x00 x34 x00 x00 x00)
(L (W x00 x00 x00 x00 x90 xc2 xfe xff))
(L (W x45 x26 x22 x84 xe4 x9c xf2 xcb)))
(T (W x00 x00 x00 x00 x00 x00 x00 x00)
(L (W x00 x00 x00 x00 x90 x42 xff xff)) E))
(T (W x34 x00 x00 x00 x20 x00 x00 x00)
(T (W x00 x00 x00 x00 x00 x00 x00 x00)
(L (W x01 x00 x00 x00 x04 x00 x00 x00)) E)
(T (W x8c x82 xfe xff x00 x00 x00 x00)
(L (W x00 x00 x00 x00 x00 x00 x00 x00)) E)))))
(T (W x00 x00 x00 x00 x00 x00 x00 x00)
(T (W x5f x4f x55 x54 x42 x52 x45 x41)
(T (W x8c xda xfc xff x00 x00 x00 x00)
(T (W x00 x00 x00 x00 x01 x00 x00 x00)
(T (W x66 x66 x10 x42 x33 x33 x49 x44)
(L (W x45 x26 x22 x84 xe4 x9c xf2 xcb))
(L (W x44 x00 x00 x00 x30 x00 x00 x00)))
(T (W x45 x26 x22 x84 xe4 x9c xf2 xcb)
(L (W x00 x00 x00 x00 x01 x00 x00 x00)) E))
(T (W x45 x26 x22 x84 xe4 x9c xf2 xcb)
(T (W x3c x01 x00 x00 x30 x01 x00 x00)
(L (W x00 x00 x00 x00 x00 x00 x00 x00))
(L (W x00 x00 x00 x00 x00 x00 x00 x00)))
(T (W x00 x00 x00 x00 x00 x00 x00 x00)
(L (W x00 x00 x00 x00 x01 x00 x00 x00)) E)))
(T (W x01 x00 x00 x00 x04 x00 x00 x00)
(T (W x3a x3e xfd xff x40 x01 x00 x00)
(T (W x44 x00 x00 x00 x38 x00 x00 x00)
(L (W x00 x00 x00 x00 x00 x00 x00 x00))
(L (W x00 x00 x00 x00 x90 xba xff xff)))
(T (W x54 x00 x00 x00 x48 x00 x00 x00)
(L (W x00 x00 x00 x00 x52 x42 xff xff)) E))
(T (W x00 x00 x00 x00 x00 x00 x00 x00)
(T (W x01 x00 x00 x00 x04 x00 x00 x00)
(L (W x00 x00 x80 xbf x9c x00 x00 x00))
(L (W x30 x00 x00 x00 x1c x00 x00 x00)))
(T (W x54 x00 x00 x00 x48 x00 x00 x00)
(L (W x04 x00 x00 x00 xca x7f xff xff)) E))))
(T (W x45 x26 x22 x84 xe4 x9c xf2 xcb)
(T (W x00 x00 xc0 x40 x24 x01 x00 x00)
(T (W x01 x00 x00 x00 x04 x00 x00 x00)
(T (W x00 x00 x00 x00 x00 x00 x00 x00)
(L (W x45 x26 x22 x84 xe4 x9c xf2 xcb))
(L (W x00 x00 x00 x00 x00 x00 x00 x00)))
(T (W x00 x00 x00 x00 x00 x00 x00 x00)
(L (W x34 x2d xff xff x50 x00 x00 x00)) E))
(T (W x3a x6e xfd xff x40 x01 x00 x00)
(T (W x00 x00 x00 x00 x00 x00 x00 x00)
(L (W x45 x26 x22 x84 xe4 x9c xf2 xcb))
(L (W x34 xed xff xff x50 x00 x00 x00)))
(T (W x45 x26 x22 x84 xe4 x9c xf2 xcb)
(L (W x87 xfb xaf x28 xbf x5d x5d x6a)) E)))
(T (W x00 x00 x80 x3f x90 x0a xfd xff)
(T (W x45 x26 x22 x84 xe4 x9c xf2 xcb)
(T (W x00 x00 x80 xbf x9c x00 x00 x00)
(L (W x52 x38 xf3 x43 x1f x05 xc1 x42))
(L (W x34 x00 x00 x00 x20 x00 x00 x00)))
(T (W x8c x4a xfe xff x0e x4a xfe xff)
(L (W x28 x00 x00 x00 x14 x00 x00 x00)) E))
(T (W x45 x26 x22 x84 xe4 x9c xf2 xcb)
(T (W x01 x00 x00 x00 x00 x00 x80 x3f)
(L (W x8c x0a xff xff x0e x0a xff xff)) E)
(T (W x00 x00 x00 x00 x00 x00 x00 x00)
(L (W xa4 x00 x2b x44 x00 x00 x00 x00)) E))))))
(T (W x40 x00 x00 x00 x38 x00 x00 x00)
(T (W x44 x00 x00 x00 x38 x00 x00 x00)
(T (W x00 x30 x17 x44 x00 x00 x00 x00)
(T (W x00 x00 x00 x00 x00 x00 x00 x00)
(T (W x34 x00 x00 x00 x20 x00 x00 x00)
(T (W x28 x00 x00 x00 x14 x00 x00 x00)
(L (W x01 x00 x00 x00 x04 x00 x00 x00))
(L (W x42 xa0 xaa x28 xbf xd0 x56 x6a)))
(T (W x00 x00 x00 x00 x90 x16 xfe xff)
(L (W x2c x00 x00 x00 x20 x00 x00 x00)) E))
(T (W x34 x00 x00 x00 x20 x00 x00 x00)
(T (W x0a xd6 xfd xff x00 x00 x80 x3f)
(L (W x45 x26 x22 x84 xe4 x9c xf2 xcb))
(L (W x55 x39 x81 x6a xc4 xc7 x74 x14)))
(T (W x8c x56 xfe xff x00 x00 x00 x00)
(L (W xc1 xa8 xaa x28 xbf xd5 x56 x6a)) E)))
(T (W x45 x26 x22 x84 xe4 x9c xf2 xcb)
(T (W x00 x00 x00 x00 x00 x00 x00 x00)
(T (W x04 x00 x00 x00 xca xbb xfd xff)
(L (W x2c x00 x00 x00 x18 x00 x00 x00))
(L (W x00 x00 x00 x00 x01 x00 x00 x00)))
(T (W x3c x01 x00 x00 x30 x01 x00 x00)
(L (W x00 x00 x00 x00 x00 x00 x00 x00)) E))
(T (W x45 x26 x22 x84 xe4 x9c xf2 xcb)
(T (W x45 x26 x22 x84 xe4 x9c xf2 xcb)
(L (W x1c x00 x00 x00 x46 x53 x59 x53))
(L (W x1c x01 x00 x00 x01 x00 x00 x00)))
(T (W x00 x00 x80 xbf x00 x00 x80 xbf)
(L (W x34 x01 x00 x00 x00 x00 x80 x40)) E))))
(T (W x54 x00 x00 x00 x48 x00 x00 x00)
(T (W x1b x00 x00 x00 x57 x53 x59 x53)
(T (W x45 x26 x22 x84 xe4 x9c xf2 xcb)
(T (W x45 x26 x22 x84 xe4 x9c xf2 xcb)
(L (W x17 x12 xc3 xa5 xf0 x26 x28 x38))
(L (W x45 x26 x22 x84 xe4 x9c xf2 xcb)))
(T (W x45 x26 x22 x84 xe4 x9c xf2 xcb)
(L (W x40 x00 x00 x00 x38 x00 x00 x00)) E))
(T (W x0a x66 xfd xff x00 x00 x80 x3f)
(T (W x45 x26 x22 x84 xe4 x9c xf2 xcb)
(L (W x00 x00 x00 x00 x01 x00 x00 x00))
(L (W x45 x26 x22 x84 xe4 x9c xf2 xcb)))
(T (W x34 x00 x00 x00 x20 x00 x00 x00)
(L (W x45 x26 x22 x84 xe4 x9c xf2 xcb)) E)))
(T (W x48 x00 x00 x00 x34 x00 x00 x00)
(T (W x00 x00 x00 x00 x00 x00 x00 x00)
(T (W x00 x00 x00 x00 x00 x00 x00 x00)
(L (W x00 x00 x00 x00 x00 x00 x00 x00))
(L (W x1c x00 x00 x00 x46 x53 x59 x53)))
(T (W x28 x00 x00 x00 x14 x00 x00 x00)
(L (W x00 x00 x00 x00 x00 x00 x00 x00)) E))
(T (W x00 x00 x00 x00 x01 x00 x00 x00)
(T (W x42 x52 x45 x41 x4b x5f x41 x52)
(L (W x00 x00 x00 x00 x01 x00 x00 x00)) E)
(T (W x74 x00 x00 x00 x68 x00 x00 x00)
(L (W x78 x00 x00 x00 x6c x00 x00 x00)) E)))))
(T (W x00 x00 x00 x00 x01 x00 x00 x00)
(T (W x1c x01 x00 x00 x04 x00 x00 x00)
(T (W x2c x00 x00 x00 x18 x00 x00 x00)
(T (W x5f x61 x72 x65 x61 x30 x32 x5f)
(T (W x00 x00 x80 xbf x00 x00 x80 xbf)
(L (W x45 x26 x22 x84 xe4 x9c xf2 xcb))
(L (W x5f x4e x45 x57 x5f x4f x55 x54)))
(T (W x00 x00 x00 x00 x52 x26 xfe xff)
(L (W x0a x1e xff xff x00 x00 x80 x3f)) E))
(T (W x55 x39 x81 x6a xc4 xc7 x74 x14)
(T (W x34 x00 x00 x00 x20 x00 x00 x00)
(L (W x55 x6c xfc xf1 x99 x9e xc9 x88))
(L (W x00 x00 x80 xbf x00 x00 x80 xbf)))
(T (W x48 x00 x00 x00 x34 x00 x00 x00)
(L (W x8c x5e xff xff x0e x5e xff xff)) E)))
(T (W x45 x26 x22 x84 xe4 x9c xf2 xcb)
(T (W x45 x26 x22 x84 xe4 x9c xf2 xcb)
(T (W x00 x00 x00 x00 x90 xbe xfd xff)
(L (W x68 xba x60 x56 xe1 x93 x9b xe9))
(L (W x8c xbe xff xff x00 x00 x00 x00)))
(T (W x00 x00 x00 x00 x90 x3e xfe xff)
(L (W x00 x00 x00 x00 x01 x00 x00 x00)) E))
(T (W x8c x7e xfd xff x0e x7e xfd xff)
(T (W x8c xfe xfd xff x00 x00 x00 x00)
(L (W x45 x26 x22 x84 xe4 x9c xf2 xcb))
(L (W x00 x00 x00 x00 x00 x00 x00 x00)))
(T (W x2c x00 x00 x00 x20 x00 x00 x00)
(L (W x8c x7e xff xff x00 x00 x00 x00)) E))))
(T (W x45 x26 x22 x84 xe4 x9c xf2 xcb)
(T (W xca x58 xb7 x4b xbc xb8 xfd xea)
(T (W x00 x00 x00 x00 x00 x00 x00 x00)
(T (W x0a xae xfd xff x00 x00 x80 x3f)
(L (W xfc x66 xff x4b x84 x99 x7b x61))
(L (W x00 x00 x80 x3f x00 x00 x80 x3f)))
(T (W x74 x00 x00 x00 x68 x00 x00 x00)
(L (W x00 x00 x00 x00 x00 x00 x00 x00)) E))
(T (W x00 x00 x80 xbf x9c x00 x00 x00)
(T (W xd7 x23 x59 x44 x0a xd7 x15 x42)
(L (W x45 x26 x22 x84 xe4 x9c xf2 xcb))
(L (W x00 x00 x00 x00 x00 x00 x00 x00)))
(T (W x00 x00 x00 x00 x00 x00 x00 x00)
(L (W x00 x00 x00 x00 x01 x00 x00 x00)) E)))
(T (W x01 x00 x00 x00 x39 x00 x00 x00)
(T (W x00 x00 x00 x00 x52 x56 xfd xff)
(T (W x45 x26 x22 x84 xe4 x9c xf2 xcb)
(L (W x00 x00 x80 xbf x00 x00 x80 xbf))
(L (W x45 x26 x22 x84 xe4 x9c xf2 xcb)))
(T (W x00 x00 x00 x00 x52 x56 xfe xff)
(L (W x00 x00 x80 x40 x24 x01 x00 x00)) E))
(T (W x00 x00 x00 x00 x90 x8e xfd xff)
(T (W x40 x00 x00 x00 x38 x00 x00 x00)
(L (W x01 x00 x00 x00 x00 x00 x80 x3f)) E)
(T (W x00 x00 x80 xbf x9c x00 x00 x00)
(L (W x27 x53 x93 x76 x7b xd1 x5b x2a)) E)))))))
(T (W x34 x00 x00 x00 x20 x00 x00 x00)
(T (W x00 x00 x00 x00 x01 x00 x00 x00)
(T (W x00 x00 x00 x00 x90 xa4 xfc xff)
(T (W x00 x00 x80 x3f x00 x00 x80 x3f)
(T (W xf4 x6f x2e x97 x85 x25 x59 x5f)
(T (W x04 x00 x00 x00 x00 x00 x80 x3f)
(T (W x00 x00 x00 x00 x90 x94 xfd xff)
(L (W x00 x00 x00 x00 x90 x94 xfe xff))
(L (W x00 x00 x00 x00 x90 x94 xff xff)))
(T (W x00 x00 x00 x00 x00 x00 x00 x00)
(L (W x45 x26 x22 x84 xe4 x9c xf2 xcb)) E))
(T (W x00 x00 x80 x3f x02 x00 x00 x00)
(T (W x04 x00 x00 x00 xb0 xd6 xfd xff)
(L (W x45 x26 x22 x84 xe4 x9c xf2 xcb))
(L (W x8c xd4 xff xff x00 x00 x00 x00)))
(T (W x45 x26 x22 x84 xe4 x9c xf2 xcb)
(L (W x00 x00 x00 x00 x90 x54 xff xff)) E)))
(T (W x45 x26 x22 x84 xe4 x9c xf2 xcb)
(T (W x33 x33 x45 x42 x00 x20 x29 x44)
(T (W x00 x00 x00 x00 x01 x00 x00 x00)
(L (W x44 x00 x00 x00 x30 x00 x00 x00))
(L (W x00 x00 x00 x00 x01 x00 x00 x00)))
(T (W x00 x00 x00 x00 x00 x00 x00 x00)
(L (W x0a x34 xff xff x33 xb3 x0d x44)) E))
(T (W x54 x00 x00 x00 x48 x00 x00 x00)
(T (W x04 x00 x00 x00 xca xf9 xfd xff)
(L (W x8c xf4 xfe xff x0e xf4 xfe xff))
(L (W x00 x00 x00 x00 x00 x00 x00 x00)))
(T (W x00 x00 x00 x00 x00 x00 x00 x00)
(L (W x00 x00 x00 x00 x00 x00 x00 x00)) E))))
(T (W x04 x00 x00 x00 x00 x00 x00 x00)
(T (W x00 x00 x00 x00 x00 x00 x00 x00)
(T (W x45 x26 x22 x84 xe4 x9c xf2 xcb)
(T (W x45 x26 x22 x84 xe4 x9c xf2 xcb)
(L (W x00 x00 x80 xbf x9c x00 x00 x00))
(L (W x04 x00 x00 x00 xca xa9 xff xff)))
(T (W x00 x00 x00 x00 x01 x00 x00 x00)
(L (W xf6 x8c x35 xc0 x8d x13 x85 xc6)) E))
(T (W x04 x00 x00 x00 xb0 x66 xfd xff)
(T (W x8c xe4 xfd xff x00 x00 x00 x00)
(L (W x25 x88 x83 xf3 x1d x32 x57 x95))
(L (W x04 x00 x00 x00 xca xe9 xff xff)))
(T (W x00 x00 x00 x00 x52 x6c xfe xff)
(L (W x04 x00 x00 x00 x00 x00 x00 x00)) E)))
(T (W x04 x00 x00 x00 x78 x04 xfd xff)
(T (W x45 x26 x22 x84 xe4 x9c xf2 xcb)
(T (W x45 x26 x22 x84 xe4 x9c xf2 xcb)
(L (W x75 x13 xb9 x28 xbf xd0 x67 x6a))
(L (W x00 x00 x00 x00 x00 x00 x00 x00)))
(T (W x00 x00 x00 x00 x90 x44 xfe xff)
(L (W x44 x00 x00 x00 x38 x00 x00 x00)) E))
(T (W x45 x26 x22 x84 xe4 x9c xf2 xcb)
(T (W x00 x00 x00 x00 x00 x00 x00 x00)
(L (W x00 x00 x00 x00 x00 x00 x00 x00)) E)
(T (W x78 x00 x00 x00 x6c x00 x00 x00)
(L (W x8c x84 xff xff x00 x00 x00 x00)) E)))))
(T (W x00 x00 x00 x00 x00 x00 x00 x00)
(T (W x82 xa0 xff xff x00 x00 x00 x01)
(T (W x78 x00 x00 x00 x6c x00 x00 x00)
(T (W x45 x26 x22 x84 xe4 x9c xf2 xcb)
(T (W x00 x00 x00 x00 x00 x00 x00 x00)
(L (W x8c x9c xfe xff x00 x00 x00 x00))
(L (W xcd xcc x9d x43 xcd xcc x26 x42)))
(T (W x00 x00 x00 x00 x00 x00 x00 x00)
(L (W x44 x00 x00 x00 x30 x00 x00 x00)) E))
(T (W x8c x5c xfd xff x00 x00 x00 x00)
(T (W x02 x00 x00 x00 x00 x00 x80 x3f)
(L (W x00 x00 x00 x00 x01 x00 x00 x00))
(L (W x30 x00 x34 x00 x38 x00 x3c x00)))
(T (W x04 x00 x00 x00 x78 x5c xfe xff)
(L (W x55 x6c xfc xf1 x99 x9e xc9 x88)) E)))
(T (W x2c x00 x00 x00 x20 x00 x00 x00)
(T (W x1c x01 x00 x00 x01 x00 x00 x00)
(T (W x00 x00 x00 x00 x00 x00 x00 x00)
(L (W x28 x01 x00 x00 x20 x01 x00 x00))
(L (W x45 x26 x22 x84 xe4 x9c xf2 xcb)))
(T (W x45 x26 x22 x84 xe4 x9c xf2 xcb)
(L (W x34 x00 x00 x00 x20 x00 x00 x00)) E))
(T (W x5c x00 x00 x00 x50 x00 x00 x00)
(T (W x45 x26 x22 x84 xe4 x9c xf2 xcb)
(L (W x00 x00 x00 x00 x01 x00 x00 x00))
(L (W x44 x01 x00 x00 x00 x00 xa0 x40)))
(T (W x45 x26 x22 x84 xe4 x9c xf2 xcb)
(L (W x45 x26 x22 x84 xe4 x9c xf2 xcb)) E))))
(T (W x45 x26 x22 x84 xe4 x9c xf2 xcb)
(T (W x00 x00 x80 xbf x00 x00 x80 xbf)
(T (W x34 x2f xfd xff x50 x00 x00 x00)
(T (W x04 x00 x00 x00 xb0 xae xfd xff)
(L (W x34 xaf xfe xff x50 x00 x00 x00))
(L (W x74 x00 x00 x00 x68 x00 x00 x00)))
(T (W x00 x00 x00 x00 x90 x2c xfe xff)
(L (W x00 x00 x00 x00 x00 x00 x00 x00)) E))
(T (W x1c x01 x00 x00 x01 x00 x00 x00)
(T (W x44 x00 x00 x00 x30 x00 x00 x00)
(L (W x8c xec xfe xff x00 x00 x00 x00))
(L (W xd3 x5a x6c x12 x83 xef x3a xc6)))
(T (W x44 x00 x00 x00 x38 x00 x00 x00)
(L (W x00 x00 x00 x00 x00 x00 x00 x00)) E)))
(T (W x00 x00 x00 x00 x00 x00 x00 x00)
(T (W x00 x00 x00 x00 x00 x00 x00 x00)
(T (W x00 x00 x00 x00 x01 x00 x00 x00)
(L (W x00 x00 x00 x00 x00 x00 x00 x00))
(L (W x04 x00 x00 x00 xca xd1 xff xff)))
(T (W x00 x00 x00 x00 x00 x00 x00 x00)
(L (W xe1 xba x24 x44 x00 x00 x00 x00)) E))
(T (W x45 x26 x22 x84 xe4 x9c xf2 xcb)
(T (W x45 x26 x22 x84 xe4 x9c xf2 xcb)
(L (W x57 x53 x59 x53 x5f x4d x41 x53)) E)
(T (W x1c x01 x00 x00 x01 x00 x00 x00)
(L (W x00 x00 x40 x40 x24 x01 x00 x00)) E))))))
(T (W x45 x26 x22 x84 xe4 x9c xf2 xcb)
(T (W x45 x26 x22 x84 xe4 x9c xf2 xcb)
(T (W x00 x00 x00 x00 x00 x00 x00 x00)
(T (W x00 x00 x00 x00 x00 x00 x00 x00)
(T (W x45 x26 x22 x84 xe4 x9c xf2 xcb)
(T (W x00 x00 x80 x3f x00 x00 x80 x3f)
(L (W x2c x00 x00 x00 x20 x00 x00 x00))
(L (W x00 x00 x00 x00 x00 x00 x00 x00)))
(T (W x04 x00 x00 x00 x78 x18 xfe xff)
(L (W x00 x00 x00 x00 x00 x00 x00 x00)) E))
(T (W x45 x26 x22 x84 xe4 x9c xf2 xcb)
(T (W x00 x00 x00 x00 x00 x00 x00 x00)
(L (W x44 x00 x00 x00 x38 x00 x00 x00))
(L (W x00 x00 x80 x3f x00 x00 x80 x3f)))
(T (W x45 x26 x22 x84 xe4 x9c xf2 xcb)
(L (W x00 x00 x00 x00 x00 x00 x00 x00)) E)))
(T (W x00 x00 x00 x00 x90 xf8 xfc xff)
(T (W x5f x4f x55 x54 x42 x52 x45 x41)
(T (W x45 x26 x22 x84 xe4 x9c xf2 xcb)
(L (W x00 x00 x00 x00 x0e xb8 xfe xff))
(L (W x45 x26 x22 x84 xe4 x9c xf2 xcb)))
(T (W x43 x7a xfc x36 x15 xee x4b x40)
(L (W x57 x53 x59 x53 x5f x4d x41 x53)) E))
(T (W x2c x00 x00 x00 x20 x00 x00 x00)
(T (W x45 x26 x22 x84 xe4 x9c xf2 xcb)
(L (W x45 x41 x30 x32 x5f x30 x32 x31))
(L (W x01 x00 x00 x00 x00 x00 x80 x3f)))
(T (W xc7 x3b x76 x2c x15 xa9 x22 x2e)
(L (W x9c x64 x39 x08 x1e xc7 x43 xb9)) E))))
(T (W x45 x26 x22 x84 xe4 x9c xf2 xcb)
(T (W x5f x41 x52 x45 x41 x30 x32 x00)
(T (W x8c x28 xfd xff x00 x00 x00 x00)
(T (W x34 xab xfd xff x50 x00 x00 x00)
(L (W x00 x00 x00 x00 x01 x00 x00 x00))
(L (W x44 x00 x00 x00 x38 x00 x00 x00)))
(T (W x34 x2b xfe xff x50 x00 x00 x00)
(L (W x45 x26 x22 x84 xe4 x9c xf2 xcb)) E))
(T (W x00 x00 x00 x00 x00 x00 x00 x00)
(T (W x00 x00 x00 x00 x00 x00 x00 x00)
(L (W x04 x00 x00 x00 xca xed xfe xff))
(L (W x8c xe8 xff xff x00 x00 x00 x00)))
(T (W x04 x00 x00 x00 xca x6d xfe xff)
(L (W x00 x00 x00 x00 x90 x68 xff xff)) E)))
(T (W x4f x84 x6f x8b xe8 xcb x63 xb7)
(T (W x00 x00 x00 x00 x01 x00 x00 x00)
(T (W x00 x00 x00 x00 x00 x00 x00 x00)
(L (W x44 x00 x00 x00 x30 x00 x00 x00))
(L (W x1c x01 x00 x00 x01 x00 x00 x00)))
(T (W x00 x00 x80 x3f x00 x00 x80 x3f)
(L (W x00 x00 x00 x00 x90 x48 xff xff)) E))
(T (W x40 x00 x00 x00 x38 x00 x00 x00)
(T (W x3c x01 x00 x00 x30 x01 x00 x00)
(L (W x55 x6c xfc xf1 x99 x9e xc9 x88)) E)
(T (W x45 x26 x22 x84 xe4 x9c xf2 xcb)
(L (W x28 x00 x00 x00 x14 x00 x00 x00)) E)))))
(T (W x5c x00 x00 x00 x50 x00 x00 x00)
(T (W x00 x00 x80 xbf x9c x00 x00 x00)
(T (W x00 x00 x00 x00 x0e xe0 xfc xff)
(T (W x0f x00 x00 x00 x70 x61 x74 x68)
(T (W x00 x00 x00 x00 x01 x00 x00 x00)
(L (W x00 x00 x00 x00 x00 x00 x00 x00))
(L (W x00 x00 x00 x00 x52 xa8 xff xff)))
(T (W x1c x01 x00 x00 x01 x00 x00 x00)
(L (W x31 x32 x00 x00 x02 x00 x00 x00)) E))
(T (W x45 x26 x22 x84 xe4 x9c xf2 xcb)
(T (W x04 x00 x00 x00 xca xe5 xfd xff)
(L (W xec x91 xc7 x43 x52 x38 xc7 x42))
(L (W x16 x60 xab x02 xc3 x7c xff xf4)))
(T (W x55 x6c xfc xf1 x99 x9e xc9 x88)
(L (W x00 x00 x00 x00 x52 x68 xff xff)) E)))
(T (W x00 x00 x00 x00 x00 x00 x00 x00)
(T (W x45 x26 x22 x84 xe4 x9c xf2 xcb)
(T (W x04 x00 x00 x00 xb0 xc2 xfd xff)
(L (W x40 x00 x00 x00 x38 x00 x00 x00))
(L (W x5c x00 x00 x00 x50 x00 x00 x00)))
(T (W x44 x00 x00 x00 x38 x00 x00 x00)
(L (W x45 x26 x22 x84 xe4 x9c xf2 xcb)) E))
(T (W x00 x00 x00 x00 x52 x88 xfd xff)
(T (W x45 x26 x22 x84 xe4 x9c xf2 xcb)
(L (W x00 x00 x00 x00 x90 x00 xff xff))
(L (W x0a x00 x00 x00 x52 xd8 xbf x43)))
(T (W x45 x26 x22 x84 xe4 x9c xf2 xcb)
(L (W x45 x26 x22 x84 xe4 x9c xf2 xcb)) E))))
(T (W x8c xd0 xfc xff x00 x00 x00 x00)
(T (W x00 x00 x00 x00 x01 x00 x00 x00)
(T (W x8c x30 xfd xff x00 x00 x00 x00)
(T (W x00 x00 x00 x00 x00 x00 x00 x00)
(L (W x00 x00 x00 x00 x00 x00 x00 x00))
(L (W x00 x00 x00 x00 x00 x00 x00 x00)))
(T (W x00 x00 x80 x3f x00 x00 x80 x3f)
(L (W x04 x00 x00 x00 x78 x30 xff xff)) E))
(T (W x2e xce x77 x69 xc5 x66 x50 x58)
(T (W x3c x01 x00 x00 x30 x01 x00 x00)
(L (W x00 x00 x00 x00 x00 x00 x00 x00))
(L (W x44 x00 x00 x00 x30 x00 x00 x00)))
(T (W x74 x00 x00 x00 x68 x00 x00 x00)
(L (W x60 x00 x00 x00 x54 x00 x00 x00)) E)))
(T (W x4e x45 x52 x41 x54 x49 x4f x4e)
(T (W x34 x01 x00 x00 x01 x00 x00 x00)
(T (W x34 xd3 xfd xff x50 x00 x00 x00)
(L (W x04 x00 x00 x00 x00 x00 x00 x00))
(L (W x00 x00 x00 x00 x90 xd0 xff xff)))
(T (W x34 x00 x00 x00 x20 x00 x00 x00)
(L (W xe8 xc6 xd9 x40 x00 xee x21 x32)) E))
(T (W x45 x26 x22 x84 xe4 x9c xf2 xcb)
(T (W x45 x26 x22 x84 xe4 x9c xf2 xcb)
(L (W x00 x00 x00 x00 x01 x00 x00 x00)) E)
(T (W x00 x00 x00 x00 x01 x00 x00 x00)
(L (W x40 x00 x00 x00 x38 x00 x00 x00)) E))))))))))
(T (W x2c x09 x03 x00 x60 x07 x03 x00)
(T (W x44 xce x02 x00 x78 xcc x02 x00)
(T (W x84 x58 x02 x00 xb8 x56 x02 x00)
(T (W x9c x6b x01 x00 xd0 x69 x01 x00)
(T (W x45 x26 x22 x84 xe4 x9c xf2 xcb)
(T (W x5c x00 x00 x00 x50 x00 x00 x00)
(T (W x00 x00 x80 xbf x9c x00 x00 x00)
(T (W x00 x00 x00 x00 xce xd0 xfc xff)
(T (W x45 x26 x22 x84 xe4 x9c xf2 xcb)
(T (W x00 x00 x00 x00 x00 x00 x00 x00)
(L (W x00 x00 x00 x00 x00 x00 x00 x00))
(L (W x00 x00 x00 x00 x01 x00 x00 x00)))
(T (W x45 x26 x22 x84 xe4 x9c xf2 xcb)
(L (W x00 x00 x00 x00 x00 x00 x00 x00)) E))
(T (W xbc x51 xfd xff x4c x00 x00 x00)
(T (W xae x57 x2f x44 x3d x0a x12 x42)
(L (W x00 x00 x00 x00 x00 x00 x00 x00))
(L (W x00 x00 x80 x3f x00 x00 x80 x3f)))
(T (W x45 x26 x22 x84 xe4 x9c xf2 xcb)
(L (W x00 x00 x00 x00 x00 x00 x00 x00)) E)))
(T (W x00 x00 x00 x00 x00 x00 x00 x00)
(T (W x00 x00 x80 xbf x00 x00 x80 xbf)
(T (W x45 x26 x22 x84 xe4 x9c xf2 xcb)
(L (W x1c x01 x00 x00 x02 x00 x00 x00))
(L (W x45 x26 x22 x84 xe4 x9c xf2 xcb)))
(T (W x04 x00 x00 x00 x00 x00 x00 x00)
(L (W x01 x00 x00 x00 x00 x00 x80 x3f)) E))
(T (W x00 x00 x00 x00 x00 x00 x00 x00)
(T (W x00 x00 x00 x00 x50 xf1 xfd xff)
(L (W x01 x00 x00 x00 x01 x00 x00 x00))
(L (W x00 x00 x00 x00 x01 x00 x00 x00)))
(T (W xe9 x51 x41 x3d x88 xe2 xe4 x85)
(L (W xa0 xbf xc9 x04 x39 x32 x22 xa5)) E))))
(T (W x3f x7c x88 xaf x9a x1e x19 x7c)
(T (W x00 x00 x00 x00 x01 x00 x00 x00)
(T (W x00 x00 x00 x00 x00 x00 x00 x00)
(T (W x00 x00 x00 x00 x00 x00 x00 x00)
(L (W x45 x26 x22 x84 xe4 x9c xf2 xcb))
(L (W x4c xa1 xff xff x00 x00 x00 x00)))
(T (W xf4 x23 xfe xff x50 x00 x00 x00)
(L (W x45 x26 x22 x84 xe4 x9c xf2 xcb)) E))
(T (W x00 x00 x00 x00 x00 x00 x00 x00)
(T (W x00 x00 x00 x00 x50 xe1 xfd xff)
(L (W x45 x26 x22 x84 xe4 x9c xf2 xcb))
(L (W x45 x26 x22 x84 xe4 x9c xf2 xcb)))
(T (W x45 x26 x22 x84 xe4 x9c xf2 xcb)
(L (W x4c x61 xff xff x00 x00 x00 x00)) E)))
(T (W x4e x45 x52 x41 x54 x49 x4f x4e)
(T (W x04 x00 x00 x00 x70 x43 xfd xff)
(T (W x00 x00 x80 x3f x02 x00 x00 x00)
(L (W x00 x00 x00 x00 x01 x00 x00 x00))
(L (W x34 x00 x00 x00 x20 x00 x00 x00)))
(T (W x5c x6f xf7 x43 x00 x00 x00 x00)
(L (W x74 x00 x00 x00 x68 x00 x00 x00)) E))
(T (W x4c x81 xfd xff x00 x00 x00 x00)
(T (W x00 x00 x00 x00 x01 x00 x00 x00)
(L (W x55 x6c xfc xf1 x99 x9e xc9 x88)) E)
(T (W x00 x00 x00 x00 x00 x00 x00 x00)
(L (W x00 x00 x00 x00 x02 x00 x00 x00)) E)))))
(T (W x00 x00 x00 x00 x00 x00 x00 x00)
(T (W x45 x26 x22 x84 xe4 x9c xf2 xcb)
(T (W x5f x41 x52 x45 x41 x30 x32 x00)
(T (W x00 x00 x00 x00 x00 x00 x00 x00)
(T (W x04 x00 x00 x00 x00 x00 x00 x00)
(L (W x00 x00 x00 x00 x00 x00 x00 x00))
(L (W x01 x00 x00 x00 x00 x00 x80 x3f)))
(T (W x34 x00 x00 x00 x20 x00 x00 x00)
(L (W x41 x30 x32 x00 x12 x21 xff xff)) E))
(T (W x00 x00 x00 x00 x00 x00 x00 x00)
(T (W x45 x26 x22 x84 xe4 x9c xf2 xcb)
(L (W x33 xb3 xc9 x42 x5c x0f x6a x43))
(L (W x40 x00 x00 x00 x38 x00 x00 x00)))
(T (W x00 x00 x00 x00 x00 x00 x00 x00)
(L (W x00 x00 x00 x00 x12 x61 xff xff)) E)))
(T (W x4f x84 x6f x8b xe8 xcb x63 xb7)
(T (W x45 x26 x22 x84 xe4 x9c xf2 xcb)
(T (W x28 x00 x00 x00 x14 x00 x00 x00)
(L (W x04 x00 x00 x00 x8a xbe xfe xff))
(L (W x74 x00 x00 x00 x68 x00 x00 x00)))
(T (W x45 x26 x22 x84 xe4 x9c xf2 xcb)
(L (W x45 x26 x22 x84 xe4 x9c xf2 xcb)) E))
(T (W x00 x00 x00 x00 x00 x00 x00 x00)
(T (W x48 x00 x00 x00 x34 x00 x00 x00)
(L (W x00 x00 x00 x00 x50 xf9 xfe xff))
(L (W x44 x00 x00 x00 x38 x00 x00 x00)))
(T (W x45 x26 x22 x84 xe4 x9c xf2 xcb)
(L (W x45 x26 x22 x84 xe4 x9c xf2 xcb)) E))))
(T (W x74 x00 x00 x00 x68 x00 x00 x00)
(T (W x00 x00 x00 x00 x50 xe9 xfc xff)
(T (W x28 x00 x00 x00 x14 x00 x00 x00)
(T (W x1f xa5 x42 x44 x52 xb8 x09 x42)
(L (W x00 x00 x00 x00 x00 x00 x00 x00))
(L (W x00 x20 x23 x44 x00 x00 x00 x00)))
(T (W xb8 xee x53 x44 x00 x00 x6f x42)
(L (W x44 x00 x00 x00 x30 x00 x00 x00)) E))
(T (W x45 x26 x22 x84 xe4 x9c xf2 xcb)
(T (W x5f x4e x45 x57 x5f x4f x55 x54)
(L (W x00 x00 x00 x00 x50 xe9 xfe xff))
(L (W xca xe8 xff xff x00 x00 x80 x3f)))
(T (W x00 x00 x00 x00 x50 x69 xfe xff)
(L (W x45 x26 x22 x84 xe4 x9c xf2 xcb)) E)))
(T (W x45 x26 x22 x84 xe4 x9c xf2 xcb)
(T (W x34 x00 x00 x00 x20 x00 x00 x00)
(T (W x00 x00 x00 x00 x50 xc9 xfd xff)
(L (W x00 x00 x00 x00 x01 x00 x00 x00))
(L (W xf4 xcb xff xff x50 x00 x00 x00)))
(T (W x00 x00 x00 x00 x01 x00 x00 x00)
(L (W x00 x00 x80 xbf x00 x00 x80 xbf)) E))
(T (W x00 x00 x00 x00 x01 x00 x00 x00)
(T (W x00 x00 x00 x00 x50 x09 xfe xff)
(L (W x45 x26 x22 x84 xe4 x9c xf2 xcb)) E)
(T (W x00 x00 x00 x00 x01 x00 x00 x00)
(L (W x04 x00 x00 x00 x00 x00 x00 x00)) E))))))
(T (W x00 x00 x00 x00 x00 x00 x00 x00)
(T (W x00 x00 x80 x3f x00 x00 x80 x3f)
(T (W x04 x00 x00 x00 x00 x00 x00 x00)
(T (W x00 x00 x00 x00 x00 x00 x00 x00)
(T (W x44 x00 x00 x00 x38 x00 x00 x00)
(T (W x00 x00 x80 xbf x00 x00 x80 xbf)
(L (W x55 x6c xfc xf1 x99 x9e xc9 x88))
(L (W x45 x26 x22 x84 xe4 x9c xf2 xcb)))
(T (W x4e x45 x52 x41 x54 x49 x4f x4e)
(L (W x45 x26 x22 x84 xe4 x9c xf2 xcb)) E))
(T (W x44 x00 x00 x00 x38 x00 x00 x00)
(T (W x22 xa1 x32 x19 x15 x7a xe9 x0b)
(L (W x5c x00 x00 x00 x50 x00 x00 x00))
(L (W x00 x00 x80 xbf x9c x00 x00 x00)))
(T (W x04 x00 x00 x00 x70 x57 xfe xff)
(L (W x45 x26 x22 x84 xe4 x9c xf2 xcb)) E)))
(T (W x04 x00 x00 x00 x38 xf5 xfc xff)
(T (W x54 x00 x00 x00 x48 x00 x00 x00)
(T (W x00 x00 x00 x00 x00 x00 x00 x00)
(L (W xb2 x7f x86 xf3 x1d xa4 x5a x95))
(L (W x00 x00 x00 x00 x00 x00 x00 x00)))
(T (W x45 x26 x22 x84 xe4 x9c xf2 xcb)
(L (W x04 x00 x00 x00 x8a x3a xff xff)) E))
(T (W x4c x75 xfd xff x00 x00 x00 x00)
(T (W x00 x00 x00 x00 x50 xf5 xfd xff)
(L (W x45 x26 x22 x84 xe4 x9c xf2 xcb))
(L (W x45 x26 x22 x84 xe4 x9c xf2 xcb)))
(T (W x45 x26 x22 x84 xe4 x9c xf2 xcb)
(L (W x45 x26 x22 x84 xe4 x9c xf2 xcb)) E))))
(T (W x00 x00 x00 x00 x00 x00 x00 x00)
(T (W x45 x26 x22 x84 xe4 x9c xf2 xcb)
(T (W x04 x00 x00 x00 x70 x27 xfd xff)
(T (W x04 x00 x00 x00 x38 xa5 xfd xff)
(L (W xbb xf4 xaf x28 xbf x59 x5d x6a))
(L (W x00 x00 x00 x00 x50 xa5 xff xff)))
(T (W x00 x00 x00 x00 x00 x00 x00 x00)
(L (W x00 x00 x00 x00 x00 x00 x00 x00)) E))
(T (W xe0 xce xaa x00 x15 x2a x9a xe0)
(T (W xca xe4 xfd xff x00 x00 x80 x3f)
(L (W x45 x26 x22 x84 xe4 x9c xf2 xcb))
(L (W x00 x00 x00 x00 x50 xe5 xff xff)))
(T (W x4c x65 xfe xff x00 x00 x00 x00)
(L (W x00 x00 x00 x00 x00 x00 x00 x00)) E)))
(T (W x04 x00 x00 x00 x00 x00 x80 x3f)
(T (W x00 x00 x00 x00 x00 x00 x00 x00)
(T (W x00 x00 x00 x00 x01 x00 x00 x00)
(L (W x00 x00 x00 x00 x00 x00 x00 x00))
(L (W x45 x26 x22 x84 xe4 x9c xf2 xcb)))
(T (W x00 x00 x80 xbf x00 x00 x80 xbf)
(L (W x00 xe0 x14 x44 x00 x00 x00 x00)) E))
(T (W x00 x00 x00 x00 x00 x00 x00 x00)
(T (W x45 x26 x22 x84 xe4 x9c xf2 xcb)
(L (W x00 x00 x00 x00 x12 x0d xff xff)) E)
(T (W x00 x00 x80 xbf x00 x00 x80 xbf)
(L (W x00 x00 x40 x40 x24 x01 x00 x00)) E)))))
(T (W x42 x91 xff xff x00 x00 x00 x01)
(T (W x4c xbd xfc xff x00 x00 x00 x00)
(T (W x00 x00 x80 xbf x00 x00 x80 xbf)
(T (W x00 x00 x00 x00 x00 x00 x00 x00)
(T (W x45 x26 x22 x84 xe4 x9c xf2 xcb)
(L (W x00 x00 x80 xbf x9c x00 x00 x00))
(L (W x45 x26 x22 x84 xe4 x9c xf2 xcb)))
(T (W x45 x26 x22 x84 xe4 x9c xf2 xcb)
(L (W xdf xd0 x0c xfe x1d xf4 x83 xa7)) E))
(T (W xca x5c xfd xff x00 x00 x80 x3f)
(T (W x44 x00 x00 x00 x38 x00 x00 x00)
(L (W x34 x00 x00 x00 x20 x00 x00 x00))
(L (W x00 x00 x00 x00 x50 xdd xff xff)))
(T (W x01 x00 x00 x00 x00 x00 x80 x3f)
(L (W x45 x26 x22 x84 xe4 x9c xf2 xcb)) E)))
(T (W x00 x00 x00 x00 x00 x00 x00 x00)
(T (W xf4 x3f xfd xff x50 x00 x00 x00)
(T (W x42 x52 x45 x41 x4b x5f x41 x52)
(L (W x01 x00 x00 x00 x04 x00 x00 x00))
(L (W x00 x00 x00 x00 x00 x00 x00 x00)))
(T (W x55 x39 x81 x6a xc4 xc7 x74 x14)
(L (W x45 x26 x22 x84 xe4 x9c xf2 xcb)) E))
(T (W x45 x26 x22 x84 xe4 x9c xf2 xcb)
(T (W x00 x00 x00 x00 x00 x00 x00 x00)
(L (W x00 x00 x00 x00 x00 x00 x00 x00))
(L (W x4c xfd xff xff x01 x00 x00 x00)))
(T (W x45 x26 x22 x84 xe4 x9c xf2 xcb)
(L (W x2c x00 x00 x00 x18 x00 x00 x00)) E))))
(T (W x78 x00 x00 x00 x6c x00 x00 x00)
(T (W x2c x00 x00 x00 x20 x00 x00 x00)
(T (W xca x2c xfd xff x9a xb9 x43 x44)
(T (W x2b x0f x7a x1e x15 x32 x03 x15)
(L (W xca xac xfe xff xb8 xfe xb4 x43))
(L (W x2a xc2 x2e x4e x2a xae xa5 x50)))
(T (W x00 x00 x40 x40 x24 x01 x00 x00)
(L (W x5f x4e x45 x57 x5f x4f x55 x54)) E))
(T (W xf4 x6f xfd xff x50 x00 x00 x00)
(T (W x00 x00 x00 x00 x01 x00 x00 x00)
(L (W xca xec xfe xff x00 x00 x80 x3f))
(L (W x00 x00 x00 x00 x00 x00 x00 x00)))
(T (W x48 x61 x58 x43 x00 x00 x00 x00)
(L (W x00 x00 x00 x00 x12 x75 xff xff)) E)))
(T (W x40 x00 x00 x00 x38 x00 x00 x00)
(T (W x45 x26 x22 x84 xe4 x9c xf2 xcb)
(T (W x00 x00 x00 x00 x00 x00 x00 x00)
(L (W x45 x26 x22 x84 xe4 x9c xf2 xcb))
(L (W x00 x00 x00 x00 x50 xcd xff xff)))
(T (W x45 x26 x22 x84 xe4 x9c xf2 xcb)
(L (W x45 x26 x22 x84 xe4 x9c xf2 xcb)) E))
(T (W x55 x39 x81 x6a xc4 xc7 x74 x14)
(T (W x00 x00 x00 x00 x00 x00 x00 x00)
(L (W x45 x26 x22 x84 xe4 x9c xf2 xcb)) E)
(T (W xf4 x8f xfe xff x50 x00 x00 x00)
(L (W x01 x00 x00 x00 x04 x00 x00 x00)) E)))))))
(T (W x20 x7d x00 x00 x34 x7b x00 x00)
(T (W x00 x00 x00 x00 x00 x00 x00 x00)
(T (W x49 xa1 x68 x4a xeb x5f xdd x3d)
(T (W x5b xad x88 x40 x2d xa3 x3a x67)
(T (W xca xd2 xfc xff xe1 x7a x0a x44)
(T (W x00 x00 x00 x00 x50 x13 xfd xff)
(T (W x42 x52 x45 x41 x4b x5f x41 x52)
(L (W x48 x00 x00 x00 x34 x00 x00 x00))
(L (W x48 x00 x00 x00 x34 x00 x00 x00)))
(T (W x9a x79 x3e x44 x00 x00 x00 x00)
(L (W x4c x13 xff xff x00 x00 x00 x00)) E))
(T (W x40 x00 x00 x00 x34 x00 x00 x00)
(T (W x3c x01 x00 x00 x30 x01 x00 x00)
(L (W x00 x00 x00 x00 x01 x00 x00 x00))
(L (W x00 x00 x00 x00 x00 x00 x00 x00)))
(T (W x00 x00 x00 x00 x00 x00 x00 x00)
(L (W x00 x00 x00 x00 x01 x00 x00 x00)) E)))
(T (W x00 x00 x00 x00 x50 xf3 xfc xff)
(T (W x04 x00 x00 x00 x00 x00 x00 x00)
(T (W x2c x00 x00 x00 x20 x00 x00 x00)
(L (W x34 x00 x00 x00 x20 x00 x00 x00))
(L (W x44 x00 x00 x00 x38 x00 x00 x00)))
(T (W x54 x00 x00 x00 x48 x00 x00 x00)
(L (W x00 x00 x00 x00 x01 x00 x00 x00)) E))
(T (W x00 x00 x00 x00 x00 x00 x00 x00)
(T (W x45 x26 x22 x84 xe4 x9c xf2 xcb)
(L (W x45 x26 x22 x84 xe4 x9c xf2 xcb))
(L (W x04 x00 x00 x00 x8a xf8 xff xff)))
(T (W x40 x00 x00 x00 x38 x00 x00 x00)
(L (W x54 x00 x00 x00 x48 x00 x00 x00)) E))))
(T (W x00 x00 x00 x00 x00 x00 x00 x00)
(T (W x04 x00 x00 x00 x8a xe8 xfc xff)
(T (W x00 x00 x00 x00 x00 x00 x00 x00)
(T (W x00 x00 x00 x00 x50 xa3 xfd xff)
(L (W x00 x00 x00 x00 x50 xa3 xfe xff))
(L (W x45 x26 x22 x84 xe4 x9c xf2 xcb)))
(T (W x8e x18 xb9 x28 xbf xd3 x67 x6a)
(L (W x01 x00 x00 x00 x04 x00 x00 x00)) E))
(T (W x3c x01 x00 x00 x30 x01 x00 x00)
(T (W x2c x00 x00 x00 x18 x00 x00 x00)
(L (W x00 x00 x00 x00 x50 xe3 xfe xff))
(L (W x00 x00 x00 x00 x00 x00 x00 x00)))
(T (W x45 x26 x22 x84 xe4 x9c xf2 xcb)
(L (W x49 x65 xff x4b x84 x98 x7b x61)) E)))
(T (W x3c x01 x00 x00 x30 x01 x00 x00)
(T (W xca x42 xfd xff x00 x00 x80 x3f)
(T (W x34 x00 x00 x00 x20 x00 x00 x00)
(L (W x45 x26 x22 x84 xe4 x9c xf2 xcb))
(L (W x04 x00 x00 x00 x8a xc8 xff xff)))
(T (W x42 x52 x45 x41 x4b x5f x41 x52)
(L (W x00 x00 x80 x3f x00 x00 x80 x3f)) E))
(T (W x45 x26 x22 x84 xe4 x9c xf2 xcb)
(T (W x40 x00 x00 x00 x38 x00 x00 x00)
(L (W x4c x03 xff xff xce x02 xff xff)) E)
(T (W x00 x00 xa0 x40 x24 x01 x00 x00)
(L (W x54 x49 x4f x4e x5f x41 x52 x45)) E)))))
(T (W x5f x4f x55 x54 x42 x52 x45 x41)
(T (W x45 x26 x22 x84 xe4 x9c xf2 xcb)
(T (W x00 x00 xe0 x40 x24 x01 x00 x00)
(T (W x00 x00 x00 x00 x00 x00 x00 x00)
(T (W x54 x00 x00 x00 x48 x00 x00 x00)
(L (W x00 x00 x00 x00 x00 x00 x00 x00))
(L (W x00 x00 x00 x00 x01 x00 x00 x00)))
(T (W x04 x00 x00 x00 x8a x20 xfe xff)
(L (W x01 x00 x00 x00 x00 x00 x80 x3f)) E))
(T (W x04 x00 x00 x00 x70 x5d xfd xff)
(T (W x00 x00 x00 x00 x50 xdb xfd xff)
(L (W xfa xde xfe xff x40 x01 x00 x00))
(L (W x00 x00 x00 x00 x50 xdb xff xff)))
(T (W x3c x01 x00 x00 x30 x01 x00 x00)
(L (W x34 x00 x00 x00 x20 x00 x00 x00)) E)))
(T (W x00 x00 x80 x3f x50 xfb xfc xff)
(T (W x4c x3b xfd xff x00 x00 x00 x00)
(T (W xe1 x3a x4d x44 x00 x00 x00 x00)
(L (W x45 x26 x22 x84 xe4 x9c xf2 xcb))
(L (W x00 x00 x80 x3f x00 x00 x80 x3f)))
(T (W x4c x3b xfe xff x00 x00 x00 x00)
(L (W x4c x3b xff xff x00 x00 x00 x00)) E))
(T (W x1c x01 x00 x00 x01 x00 x00 x00)
(T (W x00 x00 x80 x3f x50 xfb xfd xff)
(L (W xa0 x81 xa7 x28 xbf x47 x53 x6a))
(L (W x44 x00 x00 x00 x38 x00 x00 x00)))
(T (W x4c x7b xfe xff x00 x00 x00 x00)
(L (W x00 x00 x00 x00 x50 x7b xff xff)) E))))
(T (W x28 x00 x00 x00 x14 x00 x00 x00)
(T (W x01 x00 x00 x00 x04 x00 x00 x00)
(T (W x96 x18 x57 x7c xc9 x05 xf6 x34)
(T (W x3c x01 x00 x00 x30 x01 x00 x00)
(L (W x44 x00 x00 x00 x30 x00 x00 x00))
(L (W x00 x00 x80 x40 x24 x01 x00 x00)))
(T (W x54 x01 x00 x00 x48 x01 x00 x00)
(L (W x00 x00 xe9 x43 x9a x99 x29 x42)) E))
(T (W x4c x6b xfd xff x00 x00 x00 x00)
(T (W x01 x00 x00 x00 x00 x00 x80 x3f)
(L (W x04 x00 x00 x00 x70 xed xfe xff))
(L (W xca xea xff xff x85 x0b x54 x44)))
(T (W x28 x00 x00 x00 x14 x00 x00 x00)
(L (W x00 x00 x00 x00 x00 x00 x00 x00)) E)))
(T (W x00 x00 x00 x00 x01 x00 x00 x00)
(T (W x04 x00 x00 x00 x8a x50 xfd xff)
(T (W x44 x0e xb3 x28 xbf xdf x60 x6a)
(L (W x54 x00 x00 x00 x48 x00 x00 x00))
(L (W x45 x26 x22 x84 xe4 x9c xf2 xcb)))
(T (W x04 x00 x00 x00 x8a x50 xfe xff)
(L (W x04 x00 x00 x00 x00 x00 x00 x00)) E))
(T (W x60 x00 x00 x00 x54 x00 x00 x00)
(T (W x44 x00 x00 x00 x38 x00 x00 x00)
(L (W x45 x26 x22 x84 xe4 x9c xf2 xcb)) E)
(T (W x45 x26 x22 x84 xe4 x9c xf2 xcb)
(L (W x45 x26 x22 x84 xe4 x9c xf2 xcb)) E))))))
(T (W x00 x00 x00 x00 x01 x00 x00 x00)
(T (W xec xd1 xcd x43 x00 x00 x00 x00)
(T (W x54 x00 x00 x00 x48 x00 x00 x00)
(T (W x1b x00 x00 x00 x57 x53 x59 x53)
(T (W x45 x26 x22 x84 xe4 x9c xf2 xcb)
(T (W x20 x4c x2e xf4 x03 xab x8d x0c)
(L (W x00 x00 x80 x3f x50 x97 xfe xff))
(L (W x00 x00 x00 x00 x00 x00 x00 x00)))
(T (W x34 x01 x00 x00 x00 x00 x40 x40)
(L (W x00 x00 x00 x00 x00 x00 x00 x00)) E))
(T (W x45 x26 x22 x84 xe4 x9c xf2 xcb)
(T (W x54 x00 x00 x00 x48 x00 x00 x00)
(L (W x45 x26 x22 x84 xe4 x9c xf2 xcb))
(L (W xdb xfa x03 x58 xef xeb x0c xdc)))
(T (W xca x56 xfe xff x00 x00 x80 x3f)
(L (W x00 x00 x00 x00 x00 x00 x00 x00)) E)))
(T (W x48 x00 x00 x00 x34 x00 x00 x00)
(T (W x45 x26 x22 x84 xe4 x9c xf2 xcb)
(T (W x00 x00 x00 x00 x50 xb7 xfd xff)
(L (W x33 x77 x86 xf3 x1d x9f x5a x95))
(L (W x00 x00 x00 x00 x00 x00 x00 x00)))
(T (W x00 x00 x00 x00 x50 x37 xfe xff)
(L (W x45 x26 x22 x84 xe4 x9c xf2 xcb)) E))
(T (W x45 x26 x22 x84 xe4 x9c xf2 xcb)
(T (W x04 x00 x00 x00 x70 xf9 xfd xff)
(L (W x45 x26 x22 x84 xe4 x9c xf2 xcb))
(L (W xf4 xf9 xff xff x50 x00 x00 x00)))
(T (W x2c x00 x00 x00 x20 x00 x00 x00)
(L (W x00 x00 x00 x00 x50 x77 xff xff)) E))))
(T (W x4c xc7 xfc xff x00 x00 x00 x00)
(T (W x45 x26 x22 x84 xe4 x9c xf2 xcb)
(T (W x5c x00 x00 x00 x50 x00 x00 x00)
(T (W x44 x00 x00 x00 x30 x00 x00 x00)
(L (W x00 x00 x00 x00 x00 x00 x00 x00))
(L (W x28 x00 x00 x00 x14 x00 x00 x00)))
(T (W x44 x00 x00 x00 x30 x00 x00 x00)
(L (W x00 x00 x00 x00 x01 x00 x00 x00)) E))
(T (W x54 x00 x00 x00 x48 x00 x00 x00)
(T (W x00 x00 x00 x00 x00 x00 x00 x00)
(L (W x00 x00 x00 x00 x00 x00 x00 x00))
(L (W x28 x00 x00 x00 x14 x00 x00 x00)))
(T (W x45 x26 x22 x84 xe4 x9c xf2 xcb)
(L (W x5c x00 x00 x00 x50 x00 x00 x00)) E)))
(T (W x34 x00 x00 x00 x20 x00 x00 x00)
(T (W x00 x00 x00 x00 x12 x4f xfd xff)
(T (W x40 x00 x00 x00 x38 x00 x00 x00)
(L (W x01 x00 x00 x00 x00 x00 x80 x3f))
(L (W x45 x26 x22 x84 xe4 x9c xf2 xcb)))
(T (W x04 x00 x00 x00 x00 x00 x00 x00)
(L (W x42 x52 x45 x41 x4b x5f x41 x52)) E))
(T (W x00 x00 x00 x00 x00 x00 x00 x00)
(T (W x45 x26 x22 x84 xe4 x9c xf2 xcb)
(L (W x34 x00 x00 x00 x20 x00 x00 x00)) E)
(T (W x00 x00 x80 xbf x9c x00 x00 x00)
(L (W x00 x00 x80 xbf x00 x00 x80 xbf)) E)))))
(T (W x1c x01 x00 x00 x04 x00 x00 x00)
(T (W xf4 xc1 xfc xff x50 x00 x00 x00)
(T (W xed x6e xba x4b xbc x3c x01 xeb)
(T (W x00 x00 x00 x00 x00 x00 x00 x00)
(T (W x2c x00 x00 x00 x20 x00 x00 x00)
(L (W x00 x00 x00 x00 x01 x00 x00 x00))
(L (W x45 x26 x22 x84 xe4 x9c xf2 xcb)))
(T (W x4c x1f xfe xff x00 x00 x00 x00)
(L (W x54 x00 x00 x00 x48 x00 x00 x00)) E))
(T (W x71 x5d x5d x44 x00 x00 x00 x00)
(T (W x45 x26 x22 x84 xe4 x9c xf2 xcb)
(L (W x00 x00 x00 x00 x01 x00 x00 x00))
(L (W x2c x00 x00 x00 x20 x00 x00 x00)))
(T (W x34 x00 x00 x00 x20 x00 x00 x00)
(L (W x45 x26 x22 x84 xe4 x9c xf2 xcb)) E)))
(T (W x02 x00 x00 x00 x31 x37 x00 x00)
(T (W x00 x00 x00 x00 x00 x00 x00 x00)
(T (W x34 x01 x00 x00 x00 x00 x80 x40)
(L (W x00 x00 x00 x00 x00 x00 x00 x00))
(L (W x1c x01 x00 x00 x01 x00 x00 x00)))
(T (W x00 x00 x80 x3f x00 x00 x80 x3f)
(L (W x00 x00 x00 x00 x00 x00 x00 x00)) E))
(T (W x45 x26 x22 x84 xe4 x9c xf2 xcb)
(T (W x00 x00 x80 xbf x9c x00 x00 x00)
(L (W x48 x00 x00 x00 x34 x00 x00 x00))
(L (W x45 x26 x22 x84 xe4 x9c xf2 xcb)))
(T (W x00 x00 x00 x00 x00 x00 x00 x00)
(L (W xca x7e xff xff x00 x00 x80 x3f)) E))))
(T (W x2c x00 x00 x00 x18 x00 x00 x00)
(T (W x45 x26 x22 x84 xe4 x9c xf2 xcb)
(T (W x00 x00 x00 x00 x00 x00 x00 x00)
(T (W x54 x00 x00 x00 x48 x00 x00 x00)
(L (W x00 x00 x00 x00 x00 x00 x00 x00))
(L (W x54 x00 x00 x00 x48 x00 x00 x00)))
(T (W xd4 x90 xb2 xc1 xae x51 xd2 x26)
(L (W x3c x01 x00 x00 x30 x01 x00 x00)) E))
(T (W xd3 x3a x45 xdc x00 xd5 x55 x2f)
(T (W x45 x26 x22 x84 xe4 x9c xf2 xcb)
(L (W x00 x00 x00 x00 x00 x00 x00 x00))
(L (W x01 x00 x00 x00 x00 x00 x80 x3f)))
(T (W x00 x00 x40 x40 x24 x01 x00 x00)
(L (W x01 x00 x00 x00 x01 x00 x00 x00)) E)))
(T (W x45 x26 x22 x84 xe4 x9c xf2 xcb)
(T (W x4c x4f xfd xff x00 x00 x00 x00)
(T (W x44 x00 x00 x00 x30 x00 x00 x00)
(L (W x2c x00 x00 x00 x20 x00 x00 x00))
(L (W x28 x00 x00 x00 x14 x00 x00 x00)))
(T (W x4c x4f xfe xff x00 x00 x00 x00)
(L (W x01 x00 x00 x00 x04 x00 x00 x00)) E))
(T (W x00 x00 x80 x3f x00 x00 x80 x3f)
(T (W x00 x00 x00 x00 x01 x00 x00 x00)
(L (W x44 x00 x00 x00 x38 x00 x00 x00)) E)
(T (W x99 x5c xca xc9 x03 x87 xa3 xbc)
(L (W x00 x00 x00 x00 x00 x00 x00 x00)) E))))))))
(T (W x1c xe2 x01 x00 x4c xe0 x01 x00)
(T (W x94 xf5 x00 x00 xa8 xf3 x00 x00)
(T (W x00 x00 xe0 x40 x24 x01 x00 x00)
(T (W x04 x00 x00 x00 x8a xa7 xfc xff)
(T (W x00 x00 x00 x00 x50 xb2 xfc xff)
(T (W x45 x26 x22 x84 xe4 x9c xf2 xcb)
(T (W x00 x00 x00 x00 x00 x00 x00 x00)
(T (W xf4 x94 xfd xff x50 x00 x00 x00)
(L (W x04 x00 x00 x00 x00 x00 x00 x00))
(L (W x04 x00 x00 x00 x00 x00 x00 x00)))
(T (W x45 x26 x22 x84 xe4 x9c xf2 xcb)
(L (W x34 x00 x00 x00 x20 x00 x00 x00)) E))
(T (W x34 x30 x00 x00 x1b x00 x00 x00)
(T (W x01 x00 x00 x00 x04 x00 x00 x00)
(L (W xcd x5a x81 xf3 x1d x37 x54 x95))
(L (W x4c xd2 xff xff x00 x00 x00 x00)))
(T (W x00 x00 x40 x40 x24 x01 x00 x00)
(L (W x10 x2a x45 xe3 x48 xaf x28 x26)) E)))
(T (W x00 x00 x80 xbf x9c x00 x00 x00)
(T (W x00 x00 x00 x00 x00 x00 x00 x00)
(T (W x00 x00 x00 x00 x00 x00 x00 x00)
(L (W x00 x00 x00 x00 x00 x00 x00 x00))
(L (W x00 x00 x00 x00 x00 x00 x00 x00)))
(T (W x48 x00 x00 x00 x34 x00 x00 x00)
(L (W x00 x00 x00 x00 x00 x00 x00 x00)) E))
(T (W x01 x00 x00 x00 x00 x00 x80 x3f)
(T (W x00 x00 x00 x00 x12 xfa xfd xff)
(L (W x00 x00 x00 x00 x00 x00 x00 x00))
(L (W x5c x00 x00 x00 x50 x00 x00 x00)))
(T (W x04 x00 x00 x00 x70 x74 xfe xff)
(L (W x04 x00 x00 x00 x38 x72 xff xff)) E))))
(T (W x3c x01 x00 x00 x30 x01 x00 x00)
(T (W x60 x00 x00 x00 x54 x00 x00 x00)
(T (W x01 x00 x00 x00 x01 x00 x00 x00)
(T (W x00 x00 x80 xbf x9c x00 x00 x00)
(L (W x14 xae xe8 x42 xa4 x30 x27 x43))
(L (W x00 x00 x00 x00 x00 x00 x00 x00)))
(T (W x42 x52 x45 x41 x4b x5f x41 x52)
(L (W xcd x4c x21 x44 x66 x66 x52 x42)) E))
(T (W x1f x7d x02 x4c x84 x1d x7f x61)
(T (W x00 x00 x00 x00 x01 x00 x00 x00)
(L (W x4c xe2 xfe xff xce xe1 xfe xff))
(L (W x01 x00 x00 x00 x01 x00 x00 x00)))
(T (W x74 x00 x00 x00 x68 x00 x00 x00)
(L (W x00 x00 x00 x00 x00 x00 x00 x00)) E)))
(T (W xba xc2 x33 x97 x85 xad x5f x5f)
(T (W x40 x00 x00 x00 x38 x00 x00 x00)
(T (W x00 x00 x00 x00 x00 x00 x00 x00)
(L (W x54 x00 x00 x00 x48 x00 x00 x00))
(L (W x4c xc2 xff xff x00 x00 x00 x00)))
(T (W xf4 x44 xfe xff x50 x00 x00 x00)
(L (W x45 x26 x22 x84 xe4 x9c xf2 xcb)) E))
(T (W x00 x00 x00 x00 x00 x00 x00 x00)
(T (W x2c x00 x00 x00 x18 x00 x00 x00)
(L (W x45 x26 x22 x84 xe4 x9c xf2 xcb)) E)
(T (W x45 x26 x22 x84 xe4 x9c xf2 xcb)
(L (W xf4 x84 xff xff x50 x00 x00 x00)) E)))))
(T (W x01 x00 x00 x00 x04 x00 x00 x00)
(T (W x4c xba xfc xff xce xb9 xfc xff)
(T (W x45 x26 x22 x84 xe4 x9c xf2 xcb)
(T (W x00 x00 x80 xbf x00 x00 x80 xbf)
(T (W x48 x00 x00 x00 x34 x00 x00 x00)
(L (W x4c x9a xfe xff x00 x00 x00 x00))
(L (W x00 x00 x00 x00 x00 x00 x00 x00)))
(T (W x4c x1a xfe xff x00 x00 x00 x00)
(L (W x45 x26 x22 x84 xe4 x9c xf2 xcb)) E))
(T (W xe6 xea x48 x3e x2f x4f xf2 xd7)
(T (W x00 x00 x00 x00 x00 x00 x00 x00)
(L (W x01 x00 x00 x00 x04 x00 x00 x00))
(L (W xca xd9 xff xff x00 x00 x80 x3f)))
(T (W x01 x00 x00 x00 x04 x00 x00 x00)
(L (W x45 x26 x22 x84 xe4 x9c xf2 xcb)) E)))
(T (W x45 x26 x22 x84 xe4 x9c xf2 xcb)
(T (W x00 x00 x00 x00 x00 x00 x00 x00)
(T (W x45 x26 x22 x84 xe4 x9c xf2 xcb)
(L (W x45 x26 x22 x84 xe4 x9c xf2 xcb))
(L (W x45 x26 x22 x84 xe4 x9c xf2 xcb)))
(T (W x34 x00 x00 x00 x20 x00 x00 x00)
(L (W x00 x00 x00 x00 x00 x00 x00 x00)) E))
(T (W x44 x00 x00 x00 x38 x00 x00 x00)
(T (W x45 x26 x22 x84 xe4 x9c xf2 xcb)
(L (W x00 x00 x00 x00 x00 x00 x00 x00))
(L (W x45 x41 x30 x32 x5f x30 x31 x33)))
(T (W x34 x00 x00 x00 x20 x00 x00 x00)
(L (W x00 x00 x80 xbf x9c x00 x00 x00)) E))))
(T (W x00 x00 x00 x00 x01 x00 x00 x00)
(T (W x00 x00 x00 x00 x00 x00 x00 x00)
(T (W x45 x26 x22 x84 xe4 x9c xf2 xcb)
(T (W x01 x00 x00 x00 x04 x00 x00 x00)
(L (W x04 x00 x00 x00 x00 x00 x00 x00))
(L (W xf4 xac xff xff x50 x00 x00 x00)))
(T (W x01 x00 x00 x00 x04 x00 x00 x00)
(L (W x45 x26 x22 x84 xe4 x9c xf2 xcb)) E))
(T (W x00 x00 x00 x00 x00 x00 x00 x00)
(T (W x2c x00 x00 x00 x20 x00 x00 x00)
(L (W xb1 x7d x75 xdf x3b x75 xfe x3e))
(L (W x45 x26 x22 x84 xe4 x9c xf2 xcb)))
(T (W x00 x00 x00 x00 x01 x00 x00 x00)
(L (W x45 x26 x22 x84 xe4 x9c xf2 xcb)) E)))
(T (W x78 x00 x00 x00 x6c x00 x00 x00)
(T (W x4c x4a xfd xff x00 x00 x00 x00)
(T (W x00 x00 x00 x00 x00 x00 x00 x00)
(L (W x5c x00 x00 x00 x50 x00 x00 x00))
(L (W x54 x49 x4f x4e x5f x41 x52 x45)))
(T (W x74 x00 x00 x00 x68 x00 x00 x00)
(L (W x00 x00 x00 x00 x00 x00 x00 x00)) E))
(T (W x00 x00 x00 x00 x01 x00 x00 x00)
(T (W x46 x53 x59 x53 x5f x4e x45 x57)
(L (W x74 x00 x00 x00 x68 x00 x00 x00)) E)
(T (W x28 x00 x00 x00 x14 x00 x00 x00)
(L (W x44 x00 x00 x00 x30 x00 x00 x00)) E))))))
(T (W x19 x97 x7d x67 x2b x71 xe6 x8e)
(T (W x45 x26 x22 x84 xe4 x9c xf2 xcb)
(T (W x44 x00 x00 x00 x30 x00 x00 x00)
(T (W x00 x00 x00 x00 x50 xd6 xfc xff)
(T (W x5f x41 x52 x45 x41 x30 x32 x00)
(T (W x00 x00 x00 x00 x00 x00 x00 x00)
(L (W x45 x26 x22 x84 xe4 x9c xf2 xcb))
(L (W x45 x26 x22 x84 xe4 x9c xf2 xcb)))
(T (W xaf x68 xff x4b x84 x9a x7b x61)
(L (W x45 x26 x22 x84 xe4 x9c xf2 xcb)) E))
(T (W x5f x30 x30 x38 x00 x00 x00 x00)
(T (W x00 x00 x00 x00 x01 x00 x00 x00)
(L (W x04 x00 x00 x00 x8a xdb xfe xff))
(L (W x00 x00 x00 x00 x50 xd6 xff xff)))
(T (W x40 x00 x00 x00 x38 x00 x00 x00)
(L (W x45 x26 x22 x84 xe4 x9c xf2 xcb)) E)))
(T (W x04 x00 x00 x00 x00 x00 x00 x00)
(T (W x55 x6c xfc xf1 x99 x9e xc9 x88)
(T (W x00 x00 x80 xbf x9c x00 x00 x00)
(L (W x45 x41 x30 x32 x5f x30 x32 x34))
(L (W x01 x00 x00 x00 x01 x00 x00 x00)))
(T (W x4c x36 xfe xff xce x35 xfe xff)
(L (W x55 x39 x81 x6a xc4 xc7 x74 x14)) E))
(T (W x04 x00 x00 x00 x8a x7b xfd xff)
(T (W xb6 xad xd4 x98 xf8 x93 x1b x37)
(L (W x00 x00 x80 x3f x00 x00 x80 x3f))
(L (W x71 x7d x53 x43 x00 x00 x00 x00)))
(T (W x00 x00 x00 x00 x00 x00 x00 x00)
(L (W x00 x00 x00 x00 x00 x00 x00 x00)) E))))
(T (W x34 x00 x00 x00 x20 x00 x00 x00)
(T (W x00 x00 x80 x3f x00 x00 x80 x3f)
(T (W x00 x00 x00 x00 x01 x00 x00 x00)
(T (W x04 x00 x00 x00 x00 x00 x00 x00)
(L (W x3c x01 x00 x00 x30 x01 x00 x00))
(L (W x00 x00 x00 x00 x01 x00 x00 x00)))
(T (W x04 x00 x00 x00 x00 x00 x00 x00)
(L (W x02 x82 x8c xe8 x48 x5a x42 x2f)) E))
(T (W x00 x00 x00 x00 x01 x00 x00 x00)
(T (W x00 x00 x00 x00 x50 xe6 xfd xff)
(L (W x1c x01 x00 x00 x01 x00 x00 x00))
(L (W x00 x00 x00 x00 x01 x00 x00 x00)))
(T (W x00 x00 x00 x00 x00 x00 x00 x00)
(L (W x00 x00 x00 x00 x01 x00 x00 x00)) E)))
(T (W x00 x00 x00 x00 x00 x00 x00 x00)
(T (W x2c x00 x00 x00 x20 x00 x00 x00)
(T (W x2c x00 x00 x00 x18 x00 x00 x00)
(L (W x2c x00 x00 x00 x20 x00 x00 x00))
(L (W x00 x00 x80 x3f x00 x00 x80 x3f)))
(T (W x00 x00 x00 x00 x00 x00 x00 x00)
(L (W xf4 x48 xff xff x50 x00 x00 x00)) E))
(T (W x00 x00 x80 xbf x00 x00 x80 xbf)
(T (W xca x05 xfe xff x1f x75 x5d x44)
(L (W x45 x26 x22 x84 xe4 x9c xf2 xcb)) E)
(T (W x1c x00 x00 x00 x46 x53 x59 x53)
(L (W x00 x00 x00 x00 x00 x00 x00 x00)) E)))))
(T (W x45 x26 x22 x84 xe4 x9c xf2 xcb)
(T (W x00 x00 x00 x00 x1c x00 x00 x00)
(T (W x00 x00 x00 x00 x00 x00 x00 x00)
(T (W x00 x00 x80 xbf x00 x00 x80 xbf)
(T (W x00 x00 x00 x00 x00 x00 x00 x00)
(L (W x00 x00 x00 x00 x50 x9e xfe xff))
(L (W x00 x00 x80 x3f x50 x9e xff xff)))
(T (W x00 x00 x80 x3f x00 x00 x80 x3f)
(L (W x00 x00 x00 x00 x01 x00 x00 x00)) E))
(T (W x00 x00 x00 x00 x50 x5e xfd xff)
(T (W x45 x41 x30 x32 x5f x30 x31 x30)
(L (W x4c xde xfe xff x00 x00 x00 x00))
(L (W x00 x00 x00 x00 x00 x00 x00 x00)))
(T (W x00 x00 x00 x00 x00 x00 x00 x00)
(L (W x74 x00 x00 x00 x68 x00 x00 x00)) E)))
(T (W x4c xfe xfc xff x00 x00 x00 x00)
(T (W x00 x00 xa0 x40 x24 x01 x00 x00)
(T (W xb2 x4c xbb x28 xbf xd2 x6a x6a)
(L (W x3c x01 x00 x00 x30 x01 x00 x00))
(L (W x45 x26 x22 x84 xe4 x9c xf2 xcb)))
(T (W x45 x26 x22 x84 xe4 x9c xf2 xcb)
(L (W x1c x01 x00 x00 x01 x00 x00 x00)) E))
(T (W x74 x00 x00 x00 x68 x00 x00 x00)
(T (W x45 x26 x22 x84 xe4 x9c xf2 xcb)
(L (W x04 x00 x00 x00 x00 x00 x00 x00))
(L (W x52 x68 x44 x44 x00 x00 x00 x00)))
(T (W x45 x26 x22 x84 xe4 x9c xf2 xcb)
(L (W x40 x00 x00 x00 x38 x00 x00 x00)) E))))
(T (W x00 x00 x00 x00 x01 x00 x00 x00)
(T (W x42 xd2 xff xff x00 x00 x00 x01)
(T (W x00 x00 x00 x00 x50 x2e xfd xff)
(T (W x00 x00 x00 x00 x01 x00 x00 x00)
(L (W x45 x26 x22 x84 xe4 x9c xf2 xcb))
(L (W x04 x00 x00 x00 x38 xae xff xff)))
(T (W x00 x00 x00 x00 x00 x00 x00 x00)
(L (W x2c x00 x00 x00 x20 x00 x00 x00)) E))
(T (W x42 x52 x45 x41 x4b x5f x41 x52)
(T (W x5c x00 x00 x00 x50 x00 x00 x00)
(L (W x00 x00 x00 x00 x50 xee xfe xff))
(L (W x2c x00 x00 x00 x20 x00 x00 x00)))
(T (W xf4 x70 xfe xff x50 x00 x00 x00)
(L (W x45 x26 x22 x84 xe4 x9c xf2 xcb)) E)))
(T (W x00 x00 x00 x00 xce x0d xfd xff)
(T (W x00 x00 x00 x00 x00 x00 x00 x00)
(T (W x04 x00 x00 x00 x00 x00 x00 x00)
(L (W x00 x00 x00 x00 x00 x00 x00 x00))
(L (W x00 x00 x00 x00 x01 x00 x00 x00)))
(T (W x00 x00 x80 x3f x00 x00 x80 x3f)
(L (W x00 xc0 x1d x44 x9a x99 x27 x42)) E))
(T (W x45 x26 x22 x84 xe4 x9c xf2 xcb)
(T (W x1d x77 xee x13 x15 x61 xd3 x02)
(L (W x00 x00 x00 x00 x00 x00 x00 x00)) E)
(T (W x42 x52 x45 x41 x4b x5f x41 x52)
(L (W x3c x01 x00 x00 x30 x01 x00 x00)) E)))))))
(T (W xf0 x01 x00 x00 x04 x00 x00 x00)
(T (W x00 x00 x80 xbf x00 x00 x80 xbf)
(T (W x45 x26 x22 x84 xe4 x9c xf2 xcb)
(T (W x04 x00 x00 x00 x70 xb6 xfc xff)
(T (W x45 x26 x22 x84 xe4 x9c xf2 xcb)
(T (W x1b x00 x00 x00 x57 x53 x59 x53)
(T (W xd3 x3a x45 xdc x00 xd5 x55 x2f)
(L (W x54 x00 x00 x00 x48 x00 x00 x00))
(L (W x54 x00 x00 x00 x48 x00 x00 x00)))
(T (W xf4 x16 xfe xff x50 x00 x00 x00)
(L (W x04 x00 x00 x00 x8a x19 xff xff)) E))
(T (W x1b x00 x00 x00 x57 x53 x59 x53)
(T (W x00 x00 x00 x00 x00 x00 x00 x00)
(L (W x00 x00 x00 x00 x01 x00 x00 x00))
(L (W x45 x26 x22 x84 xe4 x9c xf2 xcb)))
(T (W xb6 x68 x00 x30 x93 x7b x83 x4f)
(L (W x54 x00 x00 x00 x48 x00 x00 x00)) E)))
(T (W x10 x28 xc1 x25 xd7 x41 xf3 x31)
(T (W x48 x00 x00 x00 x34 x00 x00 x00)
(T (W x01 x00 x00 x00 x01 x00 x00 x00)
(L (W x42 x52 x45 x41 x4b x5f x41 x52))
(L (W x1c x01 x00 x00 x01 x00 x00 x00)))
(T (W x55 x6c xfc xf1 x99 x9e xc9 x88)
(L (W x60 x00 x00 x00 x54 x00 x00 x00)) E))
(T (W x34 x00 x00 x00 x20 x00 x00 x00)
(T (W x00 x00 x80 xbf x9c x00 x00 x00)
(L (W x74 x00 x00 x00 x68 x00 x00 x00))
(L (W x45 x26 x22 x84 xe4 x9c xf2 xcb)))
(T (W x00 x00 x00 x00 xce x73 xfe xff)
(L (W x45 x26 x22 x84 xe4 x9c xf2 xcb)) E))))
(T (W x04 x00 x00 x00 x00 x00 x80 x3f)
(T (W xd6 x81 x9c x94 x9b x27 x57 x25)
(T (W xdc x0f x79 xdc x45 x26 x59 xa4)
(T (W x3f x88 x2e x41 x90 xe3 x8a x97)
(L (W x00 x00 x00 x00 x00 x00 x00 x00))
(L (W x00 x00 x80 xbf x9c x00 x00 x00)))
(T (W x00 x00 x80 xbf x00 x00 x80 xbf)
(L (W x3c x01 x00 x00 x30 x01 x00 x00)) E))
(T (W x00 x00 x00 x00 x00 x00 x00 x00)
(T (W x40 x00 x00 x00 x38 x00 x00 x00)
(L (W x00 x00 x00 x00 x12 xec xfe xff))
(L (W x00 x00 x80 xbf x9c x00 x00 x00)))
(T (W x00 x00 x80 x3f x00 x00 x80 x3f)
(L (W x00 x00 x80 x3f x02 x00 x00 x00)) E)))
(T (W x00 x00 x00 x00 x00 x00 x00 x00)
(T (W x00 x00 x00 x00 x50 x44 xfd xff)
(T (W x4c xc4 xfd xff x00 x00 x00 x00)
(L (W x45 x26 x22 x84 xe4 x9c xf2 xcb))
(L (W x55 x39 x81 x6a xc4 xc7 x74 x14)))
(T (W x8e x18 xb9 x28 xbf xd3 x67 x6a)
(L (W x45 x26 x22 x84 xe4 x9c xf2 xcb)) E))
(T (W x00 x00 x40 x40 x24 x01 x00 x00)
(T (W x00 x00 x00 x00 xce x03 xfe xff)
(L (W x00 x00 x00 x00 x50 x04 xff xff)) E)
(T (W x00 x00 x00 x00 x00 x00 x00 x00)
(L (W x45 x26 x22 x84 xe4 x9c xf2 xcb)) E)))))
(T (W x2c x00 x00 x00 x20 x00 x00 x00)
(T (W x00 x00 x00 x00 x00 x00 x00 x00)
(T (W x00 x00 x00 x00 x00 x00 x00 x00)
(T (W x00 x00 xe0 x40 x24 x01 x00 x00)
(T (W x45 x26 x22 x84 xe4 x9c xf2 xcb)
(L (W x45 x26 x22 x84 xe4 x9c xf2 xcb))
(L (W x5c x00 x00 x00 x50 x00 x00 x00)))
(T (W x55 x39 x81 x6a xc4 xc7 x74 x14)
(L (W x00 x00 x00 x00 x00 x00 x00 x00)) E))
(T (W x40 x00 x00 x00 x38 x00 x00 x00)
(T (W x1c x00 x00 x00 x46 x53 x59 x53)
(L (W x45 x26 x22 x84 xe4 x9c xf2 xcb))
(L (W x00 x00 x00 x00 x00 x00 x00 x00)))
(T (W x00 x00 x00 x00 x00 x00 x00 x00)
(L (W x4c x5c xff xff x00 x00 x00 x00)) E)))
(T (W x45 x26 x22 x84 xe4 x9c xf2 xcb)
(T (W x00 x00 x00 x00 x00 x00 x00 x00)
(T (W xf4 xbe xfd xff x50 x00 x00 x00)
(L (W x9a x19 xd0 x42 xec x91 x51 x43))
(L (W x4c xbc xff xff x00 x00 x00 x00)))
(T (W x04 x00 x00 x00 x8a x41 xfe xff)
(L (W x00 x00 x00 x00 x00 x00 x00 x00)) E))
(T (W x00 x00 x00 x00 x00 x00 x00 x00)
(T (W x4c xfc xfd xff x00 x00 x00 x00)
(L (W x00 x00 x80 xbf x00 x00 x80 xbf))
(L (W x5f x30 x31 x31 x00 x00 x32 x00)))
(T (W x04 x00 x00 x00 x8a x81 xfe xff)
(L (W x00 x00 x00 x00 x01 x00 x00 x00)) E))))
(T (W x45 x26 x22 x84 xe4 x9c xf2 xcb)
(T (W x5f x4d x41 x53 x53 x5f x47 x41)
(T (W x45 x26 x22 x84 xe4 x9c xf2 xcb)
(T (W x00 x00 x00 x00 x00 x00 x00 x00)
(L (W x45 x26 x22 x84 xe4 x9c xf2 xcb))
(L (W x00 x00 x00 x00 x00 x00 x00 x00)))
(T (W x00 x00 x00 x00 x00 x00 x00 x00)
(L (W x01 x00 x00 x00 x04 x00 x00 x00)) E))
(T (W x00 x00 x00 x00 x00 x00 x00 x00)
(T (W x00 x00 x00 x00 x00 x00 x00 x00)
(L (W x40 x00 x00 x00 x38 x00 x00 x00))
(L (W x45 x26 x22 x84 xe4 x9c xf2 xcb)))
(T (W x45 x26 x22 x84 xe4 x9c xf2 xcb)
(L (W x00 x00 x00 x00 x50 x6c xff xff)) E)))
(T (W x2c x00 x00 x00 x18 x00 x00 x00)
(T (W x45 x26 x22 x84 xe4 x9c xf2 xcb)
(T (W x00 x00 x80 xbf x00 x00 x80 xbf)
(L (W x45 x26 x22 x84 xe4 x9c xf2 xcb))
(L (W x00 x00 x80 xbf x9c x00 x00 x00)))
(T (W x55 x39 x81 x6a xc4 xc7 x74 x14)
(L (W x44 x00 x00 x00 x30 x00 x00 x00)) E))
(T (W x04 x00 x00 x00 x8a x91 xfd xff)
(T (W x00 x00 xa0 x40 x24 x01 x00 x00)
(L (W x00 x00 x80 x3f x00 x00 x80 x3f)) E)
(T (W x9a x79 x0b x44 x00 x00 x00 x00)
(L (W xec x51 x91 x43 x1f x85 x21 x42)) E))))))
(T (W x00 x00 x00 x00 x01 x00 x00 x00)
(T (W x00 x00 x00 x00 x50 xa8 xfc xff)
(T (W x4f x84 x6f x8b xe8 xcb x63 xb7)
(T (W x44 x00 x00 x00 x38 x00 x00 x00)
(T (W x00 x00 xe0 x40 x24 x01 x00 x00)
(T (W x04 x00 x00 x00 x38 x98 xfd xff)
(L (W x45 x26 x22 x84 xe4 x9c xf2 xcb))
(L (W x2c x00 x00 x00 x20 x00 x00 x00)))
(T (W x00 x00 x00 x00 x00 x00 x00 x00)
(L (W x44 x00 x00 x00 x38 x00 x00 x00)) E))
(T (W x00 x00 xa0 x40 x24 x01 x00 x00)
(T (W x45 x26 x22 x84 xe4 x9c xf2 xcb)
(L (W x45 x26 x22 x84 xe4 x9c xf2 xcb))
(L (W x04 x00 x00 x00 x70 xda xff xff)))
(T (W x00 x00 x00 x00 x50 x58 xfe xff)
(L (W x2c x00 x00 x00 x20 x00 x00 x00)) E)))
(T (W x54 x00 x00 x00 x48 x00 x00 x00)
(T (W x4c x38 xfd xff xce x37 xfd xff)
(T (W x00 x00 x00 x00 x01 x00 x00 x00)
(L (W x00 x00 x00 x00 x01 x00 x00 x00))
(L (W x45 x26 x22 x84 xe4 x9c xf2 xcb)))
(T (W x00 x00 x00 x00 x12 x40 xfe xff)
(L (W x00 x00 x80 x3f x00 x00 x80 x3f)) E))
(T (W x45 x26 x22 x84 xe4 x9c xf2 xcb)
(T (W x04 x00 x00 x00 x00 x00 x00 x00)
(L (W x66 xe6 xaa x42 x71 xbd x7a x43))
(L (W x10 x00 x14 x00 x18 x00 x1c x00)))
(T (W x00 x00 x00 x00 x12 x80 xfe xff)
(L (W x00 x00 x00 x00 x12 x80 xff xff)) E))))
(T (W x45 x26 x22 x84 xe4 x9c xf2 xcb)
(T (W x0a xd7 x91 x42 x29 x9c xd2 x43)
(T (W x40 x00 x00 x00 x38 x00 x00 x00)
(T (W x45 x26 x22 x84 xe4 x9c xf2 xcb)
(L (W x00 x00 x80 xbf x00 x00 x80 xbf))
(L (W x45 x26 x22 x84 xe4 x9c xf2 xcb)))
(T (W x45 x26 x22 x84 xe4 x9c xf2 xcb)
(L (W x04 x00 x00 x00 x00 x00 x00 x00)) E))
(T (W x45 x26 x22 x84 xe4 x9c xf2 xcb)
(T (W x01 x00 x00 x00 x04 x00 x00 x00)
(L (W x00 x00 x80 xbf x9c x00 x00 x00))
(L (W x40 x00 x00 x00 x38 x00 x00 x00)))
(T (W x00 x00 x80 xbf x9c x00 x00 x00)
(L (W x54 x00 x00 x00 x48 x00 x00 x00)) E)))
(T (W x4c x08 xfd xff x00 x00 x00 x00)
(T (W x45 x26 x22 x84 xe4 x9c xf2 xcb)
(T (W xca xc7 xfd xff x00 x00 x80 x3f)
(L (W x00 x00 x00 x00 x00 x00 x00 x00))
(L (W x29 xbc xa8 x43 x00 x00 x00 x00)))
(T (W x04 x00 x00 x00 x70 x4a xfe xff)
(L (W x66 xd4 xac x28 xbf xcf x59 x6a)) E))
(T (W x09 x1d x5c x23 x15 xc8 xa5 x1d)
(T (W x00 x00 x00 x00 x00 x00 x00 x00)
(L (W x4c x08 xff xff x00 x00 x00 x00)) E)
(T (W x00 x00 x00 x00 x50 x88 xfe xff)
(L (W x00 x00 x00 x00 x00 x00 x00 x00)) E)))))
(T (W x00 x00 x00 x00 x00 x00 x00 x00)
(T (W x4b x5f x41 x52 x45 x41 x30 x32)
(T (W x00 x00 x00 x00 x01 x00 x00 x00)
(T (W x00 x00 x80 x3f x00 x00 xa0 x42)
(T (W x01 x00 x00 x00 x01 x00 x00 x00)
(L (W x28 x00 x00 x00 x14 x00 x00 x00))
(L (W x00 x00 x00 x00 x00 x00 x00 x00)))
(T (W x00 x00 x00 x00 x00 x00 x00 x00)
(L (W x55 x6c xfc xf1 x99 x9e xc9 x88)) E))
(T (W x4c x60 xfd xff x00 x00 x00 x00)
(T (W x00 x00 x80 xbf x9c x00 x00 x00)
(L (W x5c x00 x00 x00 x50 x00 x00 x00))
(L (W x00 x00 x00 x00 x12 xe8 xff xff)))
(T (W x4c x60 xfe xff x00 x00 x00 x00)
(L (W x00 x00 x80 x3f x00 x00 x80 x3f)) E)))
(T (W xf4 x02 xfd xff x50 x00 x00 x00)
(T (W x7a xa3 x42 xc1 xac x67 x12 x46)
(T (W x00 x00 x00 x00 x00 x00 x00 x00)
(L (W x07 xa0 x89 xf3 x1d x2e x5e x95))
(L (W x00 x00 x00 x00 x00 x00 x00 x00)))
(T (W x45 x26 x22 x84 xe4 x9c xf2 xcb)
(L (W x45 x26 x22 x84 xe4 x9c xf2 xcb)) E))
(T (W x00 x00 x80 x3f x00 x00 x80 x3f)
(T (W x00 x00 x00 x00 x50 x00 xfe xff)
(L (W x54 x00 x00 x00 x48 x00 x00 x00))
(L (W x30 x00 x00 x00 x18 x00 x00 x00)))
(T (W x4c x80 xfe xff x00 x00 x00 x00)
(L (W x00 x00 x00 x00 x50 x80 xff xff)) E))))
(T (W x40 x00 x00 x00 x38 x00 x00 x00)
(T (W x1c x01 x00 x00 x04 x00 x00 x00)
(T (W x45 x26 x22 x84 xe4 x9c xf2 xcb)
(T (W x45 x26 x22 x84 xe4 x9c xf2 xcb)
(L (W x44 x00 x00 x00 x38 x00 x00 x00))
(L (W x45 x26 x22 x84 xe4 x9c xf2 xcb)))
(T (W x04 x00 x00 x00 x38 x30 xfe xff)
(L (W x00 x00 x00 x00 x00 x00 x00 x00)) E))
(T (W x3c x01 x00 x00 x30 x01 x00 x00)
(T (W x4c xf0 xfd xff xce xef xfd xff)
(L (W x2c x00 x00 x00 x20 x00 x00 x00))
(L (W x00 x00 x00 x00 x00 x00 x00 x00)))
(T (W x00 x00 x00 x00 x00 x00 x00 x00)
(L (W x00 x00 x00 x00 x00 x00 x00 x00)) E)))
(T (W xca x0f xfd xff xe1 x9a x16 x44)
(T (W x00 x00 x00 x00 x00 x00 x00 x00)
(T (W x45 x26 x22 x84 xe4 x9c xf2 xcb)
(L (W x01 x00 x00 x00 x00 x00 x80 x3f))
(L (W x45 x26 x22 x84 xe4 x9c xf2 xcb)))
(T (W x00 x00 x00 x00 x00 x00 x00 x00)
(L (W x3c x01 x00 x00 x30 x01 x00 x00)) E))
(T (W x4c x90 xfd xff x00 x00 x00 x00)
(T (W x04 x00 x00 x00 x8a x15 xfe xff)
(L (W x1c x01 x00 x00 x01 x00 x00 x00)) E)
(T (W x00 x00 x80 xbf x00 x00 x80 xbf)
(L (W xf2 x62 x0e x0c x1e xfe xa9 xc0)) E)))))))))
(T (W x44 x93 x02 x00 x78 x91 x02 x00)
(T (W x6c x1d x02 x00 x9c x1b x02 x00)
(T (W x04 x31 x01 x00 x14 x2f x01 x00)
(T (W x4f x84 x6f x8b xe8 xcb x63 xb7)
(T (W x4b x5f x41 x52 x45 x41 x30 x32)
(T (W x45 x26 x22 x84 xe4 x9c xf2 xcb)
(T (W x1c x01 x00 x00 x04 x00 x00 x00)
(T (W x00 x00 x00 x00 xd0 x11 xfd xff)
(T (W x00 x00 x00 x00 x01 x00 x00 x00)
(L (W x00 x00 x00 x00 x00 x00 x00 x00))
(L (W x32 x33 x00 x00 x1b x00 x00 x00)))
(T (W x01 x00 x00 x00 x00 x00 x80 x3f)
(L (W x29 x1c x14 x44 x52 xb8 x93 x42)) E))
(T (W x00 x00 x00 x00 x01 x00 x00 x00)
(T (W x45 x26 x22 x84 xe4 x9c xf2 xcb)
(L (W xe1 x3a x9e x43 x00 x00 x00 x00))
(L (W xd2 xb5 x94 x16 x1e x4f xd3 xd2)))
(T (W x55 x6c xfc xf1 x99 x9e xc9 x88)
(L (W x00 x00 x80 x3f x00 x00 x80 x3f)) E)))
(T (W x4a xf1 xfc xff xa4 x70 x47 x43)
(T (W x45 x26 x22 x84 xe4 x9c xf2 xcb)
(T (W x00 x00 x00 x00 xd0 xb1 xfd xff)
(L (W x45 x26 x22 x84 xe4 x9c xf2 xcb))
(L (W x00 x00 x00 x00 x00 x00 x00 x00)))
(T (W x44 x00 x00 x00 x38 x00 x00 x00)
(L (W x45 x26 x22 x84 xe4 x9c xf2 xcb)) E))
(T (W x00 x00 x80 x3f x00 x00 x80 x3f)
(T (W x04 x00 x00 x00 xf0 xf3 xfd xff)
(L (W x45 x26 x22 x84 xe4 x9c xf2 xcb))
(L (W x74 xf4 xff xff x50 x00 x00 x00)))
(T (W x00 x00 x00 x00 xd0 x71 xfe xff)
(L (W x00 x00 x00 x00 xd0 x71 xff xff)) E))))
(T (W x49 xa1 x68 x4a xeb x5f xdd x3d)
(T (W x74 xe4 xfc xff x50 x00 x00 x00)
(T (W x4a x21 xfd xff xcd xec x2f x44)
(T (W xc3 x05 x39 x44 x71 x3d x08 x42)
(L (W x00 x00 x00 x00 x00 x00 x00 x00))
(L (W x00 x00 x00 x00 x01 x00 x00 x00)))
(T (W x60 x00 x00 x00 x54 x00 x00 x00)
(L (W x00 x00 x00 x00 x00 x00 x00 x00)) E))
(T (W x04 x00 x00 x00 x0a x67 xfd xff)
(T (W x00 x00 x00 x00 x00 x00 x00 x00)
(L (W x00 x00 x00 x00 x00 x00 x00 x00))
(L (W x4a xe1 xff xff x00 x00 x80 x3f)))
(T (W x01 x00 x00 x00 x04 x00 x00 x00)
(L (W x00 x00 x00 x00 x01 x00 x00 x00)) E)))
(T (W x04 x00 x00 x00 x0a x07 xfd xff)
(T (W x00 x00 x00 x00 x92 x49 xfd xff)
(T (W x45 x26 x22 x84 xe4 x9c xf2 xcb)
(L (W x00 x00 x00 x00 x00 x00 x00 x00))
(L (W x00 x00 x00 x00 xd0 xc1 xff xff)))
(T (W x00 x00 x00 x00 x01 x00 x00 x00)
(L (W x3c x01 x00 x00 x30 x01 x00 x00)) E))
(T (W x00 x00 x00 x00 x01 x00 x00 x00)
(T (W x2c x00 x00 x00 x20 x00 x00 x00)
(L (W x00 x00 xc0 x40 x24 x01 x00 x00)) E)
(T (W x54 x00 x00 x00 x48 x00 x00 x00)
(L (W x00 x00 x00 x00 x01 x00 x00 x00)) E)))))
(T (W x45 x26 x22 x84 xe4 x9c xf2 xcb)
(T (W x00 x00 x00 x00 x00 x00 x00 x00)
(T (W x54 x00 x00 x00 x48 x00 x00 x00)
(T (W x00 x00 x80 x3f xd0 x19 xfd xff)
(T (W x44 x00 x00 x00 x38 x00 x00 x00)
(L (W xae xe1 xb3 xef x1d x86 xf7 x8d))
(L (W x45 x26 x22 x84 xe4 x9c xf2 xcb)))
(T (W x00 x00 x00 x00 xd0 x19 xfe xff)
(L (W x40 x00 x00 x00 x38 x00 x00 x00)) E))
(T (W xcc x59 xfd xff x4e x59 xfd xff)
(T (W x00 x00 x00 x00 xd0 xd9 xfd xff)
(L (W xe3 xd8 x1b x72 x9d x09 xa7 xbe))
(L (W x45 x26 x22 x84 xe4 x9c xf2 xcb)))
(T (W x45 x26 x22 x84 xe4 x9c xf2 xcb)
(L (W x40 x00 x00 x00 x38 x00 x00 x00)) E)))
(T (W x00 x00 xe0 x40 x24 x01 x00 x00)
(T (W x00 x00 x00 x00 x00 x00 x00 x00)
(T (W x01 x00 x00 x00 x00 x00 x80 x3f)
(L (W x62 x6a xff x4b x84 x9b x7b x61))
(L (W x3c x01 x00 x00 x30 x01 x00 x00)))
(T (W x4a x39 xfe xff x00 x00 x80 x3f)
(L (W x00 x00 x00 x00 x00 x00 x00 x00)) E))
(T (W x04 x00 x00 x00 x00 x00 x00 x00)
(T (W x28 x01 x00 x00 x20 x01 x00 x00)
(L (W xcc xf9 xfe xff x00 x00 x00 x00))
(L (W x48 x00 x00 x00 x34 x00 x00 x00)))
(T (W x4a x79 xfe xff x00 x00 x80 x3f)
(L (W x00 x00 x00 x00 x4e x79 xff xff)) E))))
(T (W x5f x4f x55 x54 x42 x52 x45 x41)
(T (W xcc xe9 xfc xff x00 x00 x00 x00)
(T (W x00 x00 x00 x41 x3c x01 x00 x00)
(T (W x45 x26 x22 x84 xe4 x9c xf2 xcb)
(L (W x00 x00 x00 x00 x00 x00 x00 x00))
(L (W x00 x00 x00 x00 x01 x00 x00 x00)))
(T (W x45 x26 x22 x84 xe4 x9c xf2 xcb)
(L (W x1c x01 x00 x00 x01 x00 x00 x00)) E))
(T (W x00 x00 x00 x00 x00 x00 x00 x00)
(T (W x00 x00 x00 x00 x01 x00 x00 x00)
(L (W x00 x00 x00 x00 x00 x00 x00 x00))
(L (W x01 x00 x00 x00 x01 x00 x00 x00)))
(T (W x00 x00 x00 x00 x00 x00 x00 x00)
(L (W x00 x00 x80 xbf x9c x00 x00 x00)) E)))
(T (W x01 x00 x00 x00 x04 x00 x00 x00)
(T (W x00 x00 x00 x00 xd0 x49 xfd xff)
(T (W xcc xc9 xfd xff x00 x00 x00 x00)
(L (W x74 xcc xfe xff x50 x00 x00 x00))
(L (W x5c x00 x00 x00 x50 x00 x00 x00)))
(T (W x28 x00 x00 x00 x1c x00 x00 x00)
(L (W x45 x26 x22 x84 xe4 x9c xf2 xcb)) E))
(T (W x00 x00 x00 x00 x00 x00 x00 x00)
(T (W x04 x00 x00 x00 xf0 x0b xfe xff)
(L (W x01 x00 x00 x00 x04 x00 x00 x00)) E)
(T (W x2c x00 x00 x00 x20 x00 x00 x00)
(L (W x44 x00 x00 x00 x38 x00 x00 x00)) E))))))
(T (W x00 x00 x00 x00 x00 x00 x00 x00)
(T (W x04 x00 x00 x00 x00 x00 x80 x3f)
(T (W x44 x00 x00 x00 x38 x00 x00 x00)
(T (W xc2 xfa xbb xa3 xa2 xf4 x7d xf6)
(T (W x48 x00 x00 x00 x34 x00 x00 x00)
(T (W x45 x26 x22 x84 xe4 x9c xf2 xcb)
(L (W x00 x00 xa0 x40 x24 x01 x00 x00))
(L (W x00 x00 x80 xbf x9c x00 x00 x00)))
(T (W x04 x00 x00 x00 x0a x1b xfe xff)
(L (W x00 x00 x80 xbf x00 x00 x80 xbf)) E))
(T (W x44 x00 x00 x00 x30 x00 x00 x00)
(T (W xcc xd5 xfd xff x00 x00 x00 x00)
(L (W x4b x5f x41 x52 x45 x41 x30 x32))
(L (W x45 x26 x22 x84 xe4 x9c xf2 xcb)))
(T (W x00 x00 x00 x00 x92 x5d xfe xff)
(L (W x00 x00 x80 xbf x9c x00 x00 x00)) E)))
(T (W x1b x00 x00 x00 x57 x53 x59 x53)
(T (W x45 x26 x22 x84 xe4 x9c xf2 xcb)
(T (W x4a xb5 xfd xff x9a xe9 x37 x44)
(L (W xcc xb5 xfe xff x00 x00 x00 x00))
(L (W x4a xb5 xff xff x48 x81 xae x43)))
(T (W x00 x00 x00 x00 x00 x00 x00 x00)
(L (W x05 x45 x45 xdc x00 xdb x55 x2f)) E))
(T (W x00 x00 x00 x00 x00 x00 x00 x00)
(T (W x00 x00 x00 x00 x00 x00 x00 x00)
(L (W x00 x00 x00 x00 x00 x00 x00 x00))
(L (W x00 x00 x00 x00 x00 x00 x00 x00)))
(T (W x00 x00 x00 x00 xd0 x75 xfe xff)
(L (W x00 x00 x00 x00 xd0 x75 xff xff)) E))))
(T (W x29 x6c x2b x44 x00 x00 x00 x00)
(T (W x00 x00 x00 x00 x00 x00 x00 x00)
(T (W x53 x50 x41 x57 x4e x00 x00 x00)
(T (W x1c x00 x00 x00 x46 x53 x59 x53)
(L (W x55 x39 x81 x6a xc4 xc7 x74 x14))
(L (W x00 x00 x00 x00 x00 x00 x00 x00)))
(T (W x00 x00 x00 x00 x00 x00 x00 x00)
(L (W x00 x00 x80 x3f x00 x00 x80 x3f)) E))
(T (W xcc x65 xfd xff x00 x00 x00 x00)
(T (W x34 x00 x00 x00 x20 x00 x00 x00)
(L (W x00 x00 x00 x00 x4e xe5 xfe xff))
(L (W x00 x00 x00 x00 x00 x00 x00 x00)))
(T (W x00 x00 x00 x00 x01 x00 x00 x00)
(L (W x33 x53 x4d x44 x00 x00 x00 x00)) E)))
(T (W x45 x26 x22 x84 xe4 x9c xf2 xcb)
(T (W x00 x00 x00 x00 x01 x00 x00 x00)
(T (W x2c x00 x00 x00 x20 x00 x00 x00)
(L (W x00 x00 x00 x00 x01 x00 x00 x00))
(L (W x00 x00 x00 x00 x00 x00 x00 x00)))
(T (W x45 x26 x22 x84 xe4 x9c xf2 xcb)
(L (W x00 x00 x00 x00 x01 x00 x00 x00)) E))
(T (W x00 x00 x80 x3f xd0 x85 xfd xff)
(T (W x00 x00 x00 x00 x00 x00 x00 x00)
(L (W x40 x00 x00 x00 x38 x00 x00 x00)) E)
(T (W x45 x26 x22 x84 xe4 x9c xf2 xcb)
(L (W x45 x26 x22 x84 xe4 x9c xf2 xcb)) E)))))
(T (W x40 x00 x00 x00 x38 x00 x00 x00)
(T (W x00 x00 x00 x00 x01 x00 x00 x00)
(T (W x45 x26 x22 x84 xe4 x9c xf2 xcb)
(T (W xcc x1d xfd xff x4e x1d xfd xff)
(T (W x00 x00 x00 x00 xd0 x9d xfd xff)
(L (W x45 x26 x22 x84 xe4 x9c xf2 xcb))
(L (W x00 x00 x00 x00 x00 x00 x00 x00)))
(T (W x00 x00 x00 x00 x00 x00 x00 x00)
(L (W xcc x1d xff xff x00 x00 x00 x00)) E))
(T (W x34 x00 x00 x00 x20 x00 x00 x00)
(T (W x48 x00 x00 x00 x34 x00 x00 x00)
(L (W x00 x00 x00 x00 xd0 xdd xfe xff))
(L (W xcc xdd xff xff x00 x00 x00 x00)))
(T (W x45 x26 x22 x84 xe4 x9c xf2 xcb)
(L (W x01 x00 x00 x00 x04 x00 x00 x00)) E)))
(T (W xc3 x07 xb5 x4b xbc xa8 xfa xea)
(T (W x5c x00 x00 x00 x50 x00 x00 x00)
(T (W x04 x00 x00 x00 x0a xc3 xfd xff)
(L (W x74 x00 x00 x00 x68 x00 x00 x00))
(L (W x54 x00 x00 x00 x48 x00 x00 x00)))
(T (W x3c x01 x00 x00 x30 x01 x00 x00)
(L (W x55 x6c xfc xf1 x99 x9e xc9 x88)) E))
(T (W x01 x00 x00 x00 x04 x00 x00 x00)
(T (W x54 x00 x00 x00 x48 x00 x00 x00)
(L (W x00 x00 x00 x00 x00 x00 x00 x00))
(L (W xcc xfd xff xff x00 x00 x00 x00)))
(T (W x00 x00 x80 xbf x00 x00 x80 xbf)
(L (W x00 x00 x00 x00 x92 x85 xff xff)) E))))
(T (W x5f x4d x41 x53 x53 x5f x47 x41)
(T (W x2c x00 x00 x00 x18 x00 x00 x00)
(T (W x62 x34 xd4 xc1 xc6 x2a xd9 xe6)
(T (W xcc xad xfd xff x00 x00 x00 x00)
(L (W x00 x00 x80 xbf x9c x00 x00 x00))
(L (W x00 x00 x00 x00 xd0 xad xff xff)))
(T (W x45 x26 x22 x84 xe4 x9c xf2 xcb)
(L (W x00 x00 x00 x00 x01 x00 x00 x00)) E))
(T (W x60 x00 x00 x00 x54 x00 x00 x00)
(T (W x74 xf0 xfd xff x50 x00 x00 x00)
(L (W x34 x00 x00 x00 x20 x00 x00 x00))
(L (W x00 x00 x00 x00 x01 x00 x00 x00)))
(T (W x00 x00 x00 x00 x01 x00 x00 x00)
(L (W x40 x00 x00 x00 x38 x00 x00 x00)) E)))
(T (W x45 x26 x22 x84 xe4 x9c xf2 xcb)
(T (W x00 x00 x00 x00 x00 x00 x00 x00)
(T (W x00 x00 x00 x00 x00 x00 x00 x00)
(L (W x00 x00 x00 x00 xd0 xcd xfe xff))
(L (W x00 x00 x00 x00 x00 x00 x00 x00)))
(T (W x00 x00 x00 x00 x00 x00 x00 x00)
(L (W x00 x00 x00 x00 x00 x00 x00 x00)) E))
(T (W x3c x01 x00 x00 x30 x01 x00 x00)
(T (W x00 x00 x80 x3f xd0 x0d xfe xff)
(L (W x00 x00 x00 x00 x00 x00 x00 x00)) E)
(T (W x60 x00 x00 x00 x54 x00 x00 x00)
(L (W x74 x00 x00 x00 x68 x00 x00 x00)) E)))))))
(T (W xa0 x3f x00 x00 xb4 x3d x00 x00)
(T (W xcc x9b xfc xff x4e x9b xfc xff)
(T (W x3c x01 x00 x00 x30 x01 x00 x00)
(T (W x00 x00 x00 x00 xd0 xb3 xfc xff)
(T (W x00 x00 x80 xbf x9c x00 x00 x00)
(T (W x04 x00 x00 x00 xb8 x13 xfd xff)
(T (W x04 x00 x00 x00 x0a x99 xfd xff)
(L (W x45 x41 x30 x32 x5f x30 x31 x36))
(L (W x45 x41 x30 x32 x5f x30 x30 x34)))
(T (W x00 x00 x00 x00 x01 x00 x00 x00)
(L (W x00 x00 x00 x00 x00 x00 x00 x00)) E))
(T (W x04 x00 x00 x00 xb8 x53 xfd xff)
(T (W x45 x26 x22 x84 xe4 x9c xf2 xcb)
(L (W x00 x00 x00 x00 x00 x00 x00 x00))
(L (W x54 x00 x00 x00 x48 x00 x00 x00)))
(T (W xcc x53 xfe xff x4e x53 xfe xff)
(L (W x00 x00 x00 x00 x00 x00 x00 x00)) E)))
(T (W x00 x00 x00 x00 x00 x00 x00 x00)
(T (W x44 x00 x00 x00 x38 x00 x00 x00)
(T (W x2c x00 x00 x00 x18 x00 x00 x00)
(L (W x00 x00 x00 x00 xd0 xb3 xfe xff))
(L (W x44 x00 x00 x00 x30 x00 x00 x00)))
(T (W x45 x26 x22 x84 xe4 x9c xf2 xcb)
(L (W x74 x36 xff xff x50 x00 x00 x00)) E))
(T (W x00 x00 x10 x42 x9a x79 x4d x44)
(T (W x00 x00 x00 x00 x4e xf3 xfd xff)
(L (W x01 x00 x00 x00 x04 x00 x00 x00))
(L (W xb0 x44 x69 x12 x83 x6b x37 xc6)))
(T (W x45 x26 x22 x84 xe4 x9c xf2 xcb)
(L (W x45 x26 x22 x84 xe4 x9c xf2 xcb)) E))))
(T (W x00 x00 x80 x3f x00 x00 x80 x3f)
(T (W x5c x62 x2e x97 x85 x1d x59 x5f)
(T (W x4a x23 xfd xff x00 xc0 x05 x44)
(T (W x00 x00 x00 x00 x00 x00 x00 x00)
(L (W xcc xa3 xfe xff x00 x00 x00 x00))
(L (W x45 x26 x22 x84 xe4 x9c xf2 xcb)))
(T (W x45 x26 x22 x84 xe4 x9c xf2 xcb)
(L (W x74 x00 x00 x00 x68 x00 x00 x00)) E))
(T (W x45 x26 x22 x84 xe4 x9c xf2 xcb)
(T (W x7a xe7 xfd xff x40 x01 x00 x00)
(L (W x04 x00 x00 x00 xf0 xe5 xfe xff))
(L (W x4a xe3 xff xff xcd xac x12 x44)))
(T (W x00 x00 x00 x00 x00 x00 x00 x00)
(L (W x45 x26 x22 x84 xe4 x9c xf2 xcb)) E)))
(T (W x45 x26 x22 x84 xe4 x9c xf2 xcb)
(T (W x34 x00 x00 x00 x20 x00 x00 x00)
(T (W x00 x00 x00 x00 xd0 xc3 xfd xff)
(L (W x00 x00 x80 xbf x9c x00 x00 x00))
(L (W xd4 xf9 xaf x28 xbf x5c x5d x6a)))
(T (W x04 x00 x00 x00 x0a x49 xfe xff)
(L (W x01 x00 x00 x00 x00 x00 x80 x3f)) E))
(T (W x55 x6c xfc xf1 x99 x9e xc9 x88)
(T (W x45 x26 x22 x84 xe4 x9c xf2 xcb)
(L (W xfe xc6 x4a x9d x9a x98 x3f x5f)) E)
(T (W x45 x26 x22 x84 xe4 x9c xf2 xcb)
(L (W x54 x00 x00 x00 x48 x00 x00 x00)) E)))))
(T (W x00 x00 x00 x00 x01 x00 x00 x00)
(T (W x00 x00 x00 x00 x00 x00 x00 x00)
(T (W x45 x26 x22 x84 xe4 x9c xf2 xcb)
(T (W x00 x00 x00 x00 x00 x00 x00 x00)
(T (W x45 x26 x22 x84 xe4 x9c xf2 xcb)
(L (W x54 x00 x00 x00 x48 x00 x00 x00))
(L (W x74 x9e xff xff x50 x00 x00 x00)))
(T (W x7e x99 x4a xdc x00 x64 x5c x2f)
(L (W x45 x26 x22 x84 xe4 x9c xf2 xcb)) E))
(T (W x00 x00 x00 x00 x92 x63 xfd xff)
(T (W x04 x00 x00 x00 xb8 xdb xfd xff)
(L (W x40 x00 x00 x00 x38 x00 x00 x00))
(L (W xcc xdb xff xff x00 x00 x00 x00)))
(T (W x45 x26 x22 x84 xe4 x9c xf2 xcb)
(L (W x00 x00 x00 x00 xd0 x5b xff xff)) E)))
(T (W x00 x00 x80 xbf x00 x00 x80 xbf)
(T (W x00 x00 x00 x00 x01 x00 x00 x00)
(T (W x00 x00 x00 x00 x01 x00 x00 x00)
(L (W x00 x00 x00 x00 x00 x00 x00 x00))
(L (W x24 x97 x8e x16 x1e x4f xcc xd2)))
(T (W x00 x00 x00 x00 x00 x00 x00 x00)
(L (W x00 x00 x00 x00 x01 x00 x00 x00)) E))
(T (W x45 x26 x22 x84 xe4 x9c xf2 xcb)
(T (W x29 x77 xf1 x13 x15 xd8 xd6 x02)
(L (W x45 x26 x22 x84 xe4 x9c xf2 xcb))
(L (W x44 x00 x00 x00 x30 x00 x00 x00)))
(T (W x00 x00 x00 x00 x00 x00 x00 x00)
(L (W x00 x00 x00 x00 x00 x00 x00 x00)) E))))
(T (W x5c x00 x40 x00 x48 x00 x08 x00)
(T (W x78 x00 x00 x00 x6c x00 x00 x00)
(T (W x1c x01 x00 x00 x01 x00 x00 x00)
(T (W x45 x26 x22 x84 xe4 x9c xf2 xcb)
(L (W x1c x01 x00 x00 x01 x00 x00 x00))
(L (W x45 x26 x22 x84 xe4 x9c xf2 xcb)))
(T (W x45 x26 x22 x84 xe4 x9c xf2 xcb)
(L (W x45 x26 x22 x84 xe4 x9c xf2 xcb)) E))
(T (W x00 x00 x00 x00 x01 x00 x00 x00)
(T (W x45 x26 x22 x84 xe4 x9c xf2 xcb)
(L (W x00 x00 x00 x00 x92 xf3 xfe xff))
(L (W x00 x00 x80 xbf x9c x00 x00 x00)))
(T (W x01 x00 x00 x00 x00 x00 x80 x3f)
(L (W xc1 x39 x1b x4b x7d x51 x65 x34)) E)))
(T (W x2c x00 x00 x00 x20 x00 x00 x00)
(T (W xca x2e x3c xdc x00 x69 x4b x2f)
(T (W x45 x26 x22 x84 xe4 x9c xf2 xcb)
(L (W x45 x26 x22 x84 xe4 x9c xf2 xcb))
(L (W x45 x26 x22 x84 xe4 x9c xf2 xcb)))
(T (W xed xfe xaf x28 xbf x5f x5d x6a)
(L (W x44 x00 x00 x00 x38 x00 x00 x00)) E))
(T (W x42 x52 x45 x41 x4b x5f x41 x52)
(T (W x48 x00 x00 x00 x34 x00 x00 x00)
(L (W x00 x00 x00 x00 x00 x00 x00 x00)) E)
(T (W x00 x00 x00 x00 x00 x00 x00 x00)
(L (W x00 x00 x00 x00 x00 x00 x00 x00)) E))))))
(T (W x00 x00 x00 x00 x1c x00 x00 x00)
(T (W x34 x00 x00 x00 x20 x00 x00 x00)
(T (W x45 x26 x22 x84 xe4 x9c xf2 xcb)
(T (W x04 x00 x00 x00 x00 x00 x00 x00)
(T (W x4f x84 x6f x8b xe8 xcb x63 xb7)
(T (W x00 x00 x00 x00 xd0 x97 xfd xff)
(L (W x00 x00 x80 xbf x00 x00 x80 xbf))
(L (W x00 x00 x00 x00 x01 x00 x00 x00)))
(T (W x45 x26 x22 x84 xe4 x9c xf2 xcb)
(L (W x04 x00 x00 x00 x00 x00 x00 x00)) E))
(T (W x55 x6c xfc xf1 x99 x9e xc9 x88)
(T (W x45 x26 x22 x84 xe4 x9c xf2 xcb)
(L (W x00 x00 x80 x3f x02 x00 x00 x00))
(L (W x00 x00 x00 x00 xd0 xd7 xff xff)))
(T (W x34 x00 x00 x00 x20 x00 x00 x00)
(L (W x00 x00 x00 x00 x01 x00 x00 x00)) E)))
(T (W x5f x41 x52 x45 x41 x30 x32 x00)
(T (W x00 x00 x00 x00 x00 x00 x00 x00)
(T (W x00 x00 x00 x00 x00 x00 x00 x00)
(L (W xcc xb7 xfe xff x00 x00 x00 x00))
(L (W xa4 xf0 xc2 x43 x00 x00 x1b x42)))
(T (W x04 x00 x00 x00 xf0 x39 xfe xff)
(L (W x00 x00 x00 x00 x00 x00 x00 x00)) E))
(T (W x00 x00 x80 xbf x00 x00 x80 xbf)
(T (W x46 x53 x59 x53 x5f x4e x45 x57)
(L (W x00 x00 x00 x00 x00 x00 x00 x00))
(L (W x5c x00 x00 x00 x50 x00 x00 x00)))
(T (W x2c x00 x00 x00 x18 x00 x00 x00)
(L (W x04 x00 x00 x00 xf0 x79 xff xff)) E))))
(T (W x00 x00 x00 x00 x00 x00 x00 x00)
(T (W x00 x00 x00 x00 x00 x00 x00 x00)
(T (W x41 x57 x4e x00 x92 x2f xfd xff)
(T (W x1c x01 x00 x00 x01 x00 x00 x00)
(L (W x00 x00 x80 x3f x00 x00 x80 x3f))
(L (W x01 x00 x00 x00 x00 x00 x80 x3f)))
(T (W x1c x01 x00 x00 x01 x00 x00 x00)
(L (W x33 x36 x00 x00 x1b x00 x00 x00)) E))
(T (W x45 x26 x22 x84 xe4 x9c xf2 xcb)
(T (W x45 x26 x22 x84 xe4 x9c xf2 xcb)
(L (W x4a xe7 xfe xff xec xf1 xeb x43))
(L (W x7a xeb xff xff x40 x01 x00 x00)))
(T (W x45 x26 x22 x84 xe4 x9c xf2 xcb)
(L (W x54 x49 x4f x4e x5f x41 x52 x45)) E)))
(T (W x00 x00 x00 x00 xd0 x07 xfd xff)
(T (W x40 x00 x00 x00 x38 x00 x00 x00)
(T (W x45 x26 x22 x84 xe4 x9c xf2 xcb)
(L (W x45 x26 x22 x84 xe4 x9c xf2 xcb))
(L (W x00 x00 x00 x00 x00 x00 x00 x00)))
(T (W x40 x00 x00 x00 x34 x00 x00 x00)
(L (W x04 x00 x00 x00 x0a x4d xff xff)) E))
(T (W x00 x00 x00 x00 x00 x00 x00 x00)
(T (W x00 x00 x00 x00 xd0 x07 xfe xff)
(L (W x00 x00 x00 x00 xd0 x07 xff xff)) E)
(T (W x45 x26 x22 x84 xe4 x9c xf2 xcb)
(L (W x45 x26 x22 x84 xe4 x9c xf2 xcb)) E)))))
(T (W x45 x26 x22 x84 xe4 x9c xf2 xcb)
(T (W x5c x00 x00 x00 x50 x00 x00 x00)
(T (W xcc xdf xfc xff x00 x00 x00 x00)
(T (W x9a xd9 x1b x44 x00 x00 x00 x00)
(T (W x2c x00 x00 x00 x18 x00 x00 x00)
(L (W x2c x00 x00 x00 x20 x00 x00 x00))
(L (W x00 x00 x00 x00 x00 x00 x00 x00)))
(T (W x00 x00 x00 x00 x01 x00 x00 x00)
(L (W x45 x26 x22 x84 xe4 x9c xf2 xcb)) E))
(T (W xf9 xd3 xaa x00 x15 x2d x9a xe0)
(T (W x45 x26 x22 x84 xe4 x9c xf2 xcb)
(L (W x74 xe2 xfe xff x50 x00 x00 x00))
(L (W x2c x00 x00 x00 x18 x00 x00 x00)))
(T (W x00 x00 x00 x00 xd0 x5f xfe xff)
(L (W x00 x00 x00 x00 x00 x00 x00 x00)) E)))
(T (W x00 x00 x00 x00 x01 x00 x00 x00)
(T (W xcc x3f xfd xff x4e x3f xfd xff)
(T (W x45 x26 x22 x84 xe4 x9c xf2 xcb)
(L (W x00 x00 x80 x3f x00 x00 x80 x3f))
(L (W x45 x26 x22 x84 xe4 x9c xf2 xcb)))
(T (W x01 x00 x00 x00 x00 x00 x80 x3f)
(L (W xc3 x75 xf3 x43 xec x51 x2a x42)) E))
(T (W x00 x00 x00 x00 x00 x00 x00 x00)
(T (W x45 x26 x22 x84 xe4 x9c xf2 xcb)
(L (W x45 x41 x30 x32 x5f x30 x32 x31))
(L (W x45 x26 x22 x84 xe4 x9c xf2 xcb)))
(T (W x63 x27 x76 x2c x15 x9d x22 x2e)
(L (W x34 x00 x00 x00 x20 x00 x00 x00)) E))))
(T (W xc2 xb3 xff xff x00 x00 x00 x01)
(T (W x00 x00 x00 x00 x4e xef xfc xff)
(T (W x54 x00 x00 x00 x48 x00 x00 x00)
(T (W x45 x26 x22 x84 xe4 x9c xf2 xcb)
(L (W x04 x00 x00 x00 x00 x00 x00 x00))
(L (W x45 x26 x22 x84 xe4 x9c xf2 xcb)))
(T (W x00 x00 x00 x00 xd0 x2f xfe xff)
(L (W x45 x26 x22 x84 xe4 x9c xf2 xcb)) E))
(T (W x55 x39 x81 x6a xc4 xc7 x74 x14)
(T (W x00 x00 x00 x00 x00 x00 x00 x00)
(L (W x00 x00 x00 x00 x01 x00 x00 x00))
(L (W x45 x26 x22 x84 xe4 x9c xf2 xcb)))
(T (W x45 x26 x22 x84 xe4 x9c xf2 xcb)
(L (W x45 x26 x22 x84 xe4 x9c xf2 xcb)) E)))
(T (W x00 x00 x00 x00 x00 x00 x00 x00)
(T (W x00 x00 x00 x00 x01 x00 x00 x00)
(T (W x1c x01 x00 x00 x01 x00 x00 x00)
(L (W x28 x00 x00 x00 x14 x00 x00 x00))
(L (W x3c x01 x00 x00 x30 x01 x00 x00)))
(T (W x00 x00 x00 x00 x01 x00 x00 x00)
(L (W x74 x00 x00 x00 x68 x00 x00 x00)) E))
(T (W x11 x3f x5f x23 x15 x53 xa9 x1d)
(T (W x00 x00 x00 x00 x00 x00 x00 x00)
(L (W x44 x00 x00 x00 x30 x00 x00 x00)) E)
(T (W x45 x26 x22 x84 xe4 x9c xf2 xcb)
(L (W x00 x00 x80 x3f x00 x00 x80 x3f)) E))))))))
(T (W x14 xa7 x01 x00 x48 xa5 x01 x00)
(T (W xac xb9 x00 x00 xc0 xb7 x00 x00)
(T (W x45 x26 x22 x84 xe4 x9c xf2 xcb)
(T (W x3f x7c x88 xaf x9a x1e x19 x7c)
(T (W x00 x00 x00 x00 x00 x00 x00 x00)
(T (W x00 x00 x00 x00 x00 x00 x00 x00)
(T (W xa5 x21 xaa x1c xa2 xd0 x0c xca)
(T (W x60 x00 x00 x00 x54 x00 x00 x00)
(L (W x44 x00 x00 x00 x38 x00 x00 x00))
(L (W x44 x00 x00 x00 x38 x00 x00 x00)))
(T (W x00 x00 x00 x00 x00 x00 x00 x00)
(L (W x00 x00 x00 x00 xd0 x12 xff xff)) E))
(T (W x04 x00 x00 x00 x00 x00 x00 x00)
(T (W x74 x00 x00 x00 x68 x00 x00 x00)
(L (W xcc xd2 xfe xff x00 x00 x00 x00))
(L (W x00 x00 x00 x00 x01 x00 x00 x00)))
(T (W x45 x26 x22 x84 xe4 x9c xf2 xcb)
(L (W xcc x52 xff xff x00 x00 x00 x00)) E)))
(T (W x45 x26 x22 x84 xe4 x9c xf2 xcb)
(T (W x00 x00 x00 x00 x00 x00 x00 x00)
(T (W x00 x00 x00 x00 x01 x00 x00 x00)
(L (W xcd x0c x96 x43 x33 x33 xd9 x42))
(L (W x04 x00 x00 x00 x00 x00 x00 x00)))
(T (W x45 x41 x30 x32 x5f x30 x31 x37)
(L (W x7b x14 x11 x44 x00 x00 x00 x00)) E))
(T (W x45 x26 x22 x84 xe4 x9c xf2 xcb)
(T (W x40 x00 x00 x00 x38 x00 x00 x00)
(L (W x71 x5d xb3 x43 x71 xbd xc7 x42))
(L (W x4b x5f x41 x52 x45 x41 x30 x32)))
(T (W x00 x00 x00 x00 x92 x7a xfe xff)
(L (W x00 x00 x00 x00 x00 x00 x00 x00)) E))))
(T (W x45 x26 x22 x84 xe4 x9c xf2 xcb)
(T (W x4e x45 x52 x41 x54 x49 x4f x4e)
(T (W x45 x26 x22 x84 xe4 x9c xf2 xcb)
(T (W x45 x26 x22 x84 xe4 x9c xf2 xcb)
(L (W x34 x00 x00 x00 x20 x00 x00 x00))
(L (W x54 x00 x00 x00 x48 x00 x00 x00)))
(T (W x04 x00 x00 x00 x0a x28 xfe xff)
(L (W x45 x26 x22 x84 xe4 x9c xf2 xcb)) E))
(T (W x55 x39 x81 x6a xc4 xc7 x74 x14)
(T (W x2c x00 x00 x00 x20 x00 x00 x00)
(L (W x89 xe0 x99 x11 x00 x64 x65 xf8))
(L (W x45 x26 x22 x84 xe4 x9c xf2 xcb)))
(T (W x3c x01 x00 x00 x30 x01 x00 x00)
(L (W x04 x00 x00 x00 x0a x68 xff xff)) E)))
(T (W xd6 x81 x9c x94 x9b x27 x57 x25)
(T (W x45 x26 x22 x84 xe4 x9c xf2 xcb)
(T (W x71 x3d x0b x42 x3d x5a x6a x44)
(L (W x45 x26 x22 x84 xe4 x9c xf2 xcb))
(L (W x00 x00 x00 x00 x00 x00 x00 x00)))
(T (W x60 x00 x00 x00 x54 x00 x00 x00)
(L (W x00 x00 x00 x00 x00 x00 x00 x00)) E))
(T (W x54 x00 x00 x00 x48 x00 x00 x00)
(T (W x00 x00 x00 x00 x92 x0a xfe xff)
(L (W x00 x00 x00 x00 x00 x00 x00 x00)) E)
(T (W x55 x6c xfc xf1 x99 x9e xc9 x88)
(L (W x5c x00 x00 x00 x50 x00 x00 x00)) E)))))
(T (W x74 x00 x00 x00 x68 x00 x00 x00)
(T (W x00 x00 x80 xbf x00 x00 x80 xbf)
(T (W x4f x84 x6f x8b xe8 xcb x63 xb7)
(T (W x45 x26 x22 x84 xe4 x9c xf2 xcb)
(T (W x45 x41 x30 x32 x5f x30 x30 x37)
(L (W x00 x00 x00 x00 x01 x00 x00 x00))
(L (W x8f x62 x13 x44 x00 x00 x00 x00)))
(T (W x00 x00 x00 x00 x00 x00 x00 x00)
(L (W x4a x1a xff xff x00 x00 x80 x3f)) E))
(T (W x00 x00 x00 x00 xd0 x5a xfd xff)
(T (W x19 x89 xb0 x67 x26 x5b x8b x7a)
(L (W x78 x00 x00 x00 x6c x00 x00 x00))
(L (W x34 x00 x00 x00 x20 x00 x00 x00)))
(T (W x74 x00 x00 x00 x68 x00 x00 x00)
(L (W x4a x5a xff xff x00 x00 x80 x3f)) E)))
(T (W x00 x00 x00 x00 x00 x00 x00 x00)
(T (W xa8 x40 x2d xf0 x2c x42 x07 xdb)
(T (W x00 x00 x00 x00 x00 x00 x00 x00)
(L (W x00 x00 x80 x3f x02 x00 x00 x00))
(L (W x00 x00 x00 x00 x00 x00 x00 x00)))
(T (W x00 x00 x00 x00 xd0 x3a xfe xff)
(L (W x60 x63 x89 xe8 x48 xd1 x3e x2f)) E))
(T (W x44 x00 x00 x00 x30 x00 x00 x00)
(T (W x00 x00 x00 x00 x00 x00 x00 x00)
(L (W x04 x00 x00 x00 x0a x00 xff xff))
(L (W x1c x00 x24 x00 x2c x00 x34 x00)))
(T (W x00 x00 x00 x00 xd0 x7a xfe xff)
(L (W x45 x26 x22 x84 xe4 x9c xf2 xcb)) E))))
(T (W x2c x00 x00 x00 x20 x00 x00 x00)
(T (W x45 x26 x22 x84 xe4 x9c xf2 xcb)
(T (W x00 x00 x00 x00 x00 x00 x00 x00)
(T (W x74 x00 x00 x00 x68 x00 x00 x00)
(L (W x44 x00 x00 x00 x38 x00 x00 x00))
(L (W x5c x00 x00 x00 x50 x00 x00 x00)))
(T (W x74 x00 x00 x00 x68 x00 x00 x00)
(L (W x00 x00 x00 x00 x00 x00 x00 x00)) E))
(T (W x5f xd7 xaa x00 x15 x2f x9a xe0)
(T (W x28 x00 x00 x00 x14 x00 x00 x00)
(L (W x00 x00 x00 x00 xd0 xea xfe xff))
(L (W x00 x00 x00 x00 x00 x00 x00 x00)))
(T (W x2c x00 x00 x00 x20 x00 x00 x00)
(L (W x00 x00 x00 x00 xd0 x6a xff xff)) E)))
(T (W x5f x4d x41 x53 x53 x5f x47 x41)
(T (W x00 x00 x00 x00 x00 x00 x00 x00)
(T (W x04 x00 x00 x00 x0a xd0 xfd xff)
(L (W x54 x49 x4f x4e x5f x41 x52 x45))
(L (W x54 x00 x00 x00 x48 x00 x00 x00)))
(T (W x53 x5f x47 x41 x4e x45 x52 x41)
(L (W x00 x00 x00 x00 x00 x00 x00 x00)) E))
(T (W x74 x8d xfd xff x50 x00 x00 x00)
(T (W x04 x00 x00 x00 x00 x00 x00 x00)
(L (W x3c x01 x00 x00 x30 x01 x00 x00)) E)
(T (W x01 x00 x00 x00 x00 x00 x80 x3f)
(L (W x1c x01 x00 x00 x01 x00 x00 x00)) E))))))
(T (W xcc x9e xfc xff x00 x00 x00 x00)
(T (W x00 x00 x00 x00 x00 x00 x00 x00)
(T (W x5f x30 x31 x31 x00 x00 x00 x00)
(T (W x04 x00 x00 x00 xb8 xd6 xfc xff)
(T (W x54 x00 x00 x00 x48 x00 x00 x00)
(T (W x00 x00 x00 x00 x00 x00 x00 x00)
(L (W x00 x00 x00 x00 x00 x00 x00 x00))
(L (W x00 x00 x00 x00 xd0 x96 xff xff)))
(T (W x55 x39 x81 x6a xc4 xc7 x74 x14)
(L (W x00 x00 x00 x00 x00 x00 x00 x00)) E))
(T (W x54 x00 x00 x00 x48 x00 x00 x00)
(T (W x00 x00 x00 x00 x00 x00 x00 x00)
(L (W xfc x66 xff x4b x84 x99 x7b x61))
(L (W x00 x00 x00 x00 x00 x00 x00 x00)))
(T (W x45 x26 x22 x84 xe4 x9c xf2 xcb)
(L (W x00 x00 x00 x00 xd0 x56 xff xff)) E)))
(T (W x44 x00 x00 x00 x38 x00 x00 x00)
(T (W x28 x01 x00 x00 x20 x01 x00 x00)
(T (W x45 x26 x22 x84 xe4 x9c xf2 xcb)
(L (W x00 x00 x00 x00 x00 x00 x00 x00))
(L (W x45 x26 x22 x84 xe4 x9c xf2 xcb)))
(T (W x53 x86 x12 xd7 xfe x11 x86 xc5)
(L (W x3c x01 x00 x00 x30 x01 x00 x00)) E))
(T (W x9f x41 x45 xdc x00 xd9 x55 x2f)
(T (W x00 x00 x00 x00 xd0 xf6 xfd xff)
(L (W x01 x00 x00 x00 x00 x00 x80 x3f))
(L (W x00 x00 x00 x00 x01 x00 x00 x00)))
(T (W x00 x00 x00 x00 x01 x00 x00 x00)
(L (W x79 xbe x7c x88 x9b xb1 x0d xc1)) E))))
(T (W x00 x00 x00 x00 xd0 xc6 xfc xff)
(T (W x04 x00 x00 x00 x00 x00 x80 x3f)
(T (W x74 x29 xfd xff x50 x00 x00 x00)
(T (W x44 x00 x00 x00 x38 x00 x00 x00)
(L (W x45 x26 x22 x84 xe4 x9c xf2 xcb))
(L (W x2c x00 x00 x00 x20 x00 x00 x00)))
(T (W x44 x00 x00 x00 x38 x00 x00 x00)
(L (W xcc x26 xff xff x00 x00 x00 x00)) E))
(T (W x00 x00 x00 x00 x00 x00 x00 x00)
(T (W xcc xe6 xfd xff x00 x00 x00 x00)
(L (W x45 x26 x22 x84 xe4 x9c xf2 xcb))
(L (W x2c x00 x00 x00 x20 x00 x00 x00)))
(T (W x54 x00 x00 x00 x48 x00 x00 x00)
(L (W x74 x69 xff xff x50 x00 x00 x00)) E)))
(T (W x71 x3d x1d x42 x1f x65 x15 x44)
(T (W x2c x00 x00 x00 x18 x00 x00 x00)
(T (W x00 x00 x00 x00 x92 xce xfd xff)
(L (W x28 x00 x00 x00 x14 x00 x00 x00))
(L (W x01 x00 x00 x00 x00 x00 x80 x3f)))
(T (W x00 x00 x00 x00 x00 x00 x00 x00)
(L (W x60 x00 x00 x00 x54 x00 x00 x00)) E))
(T (W x45 x26 x22 x84 xe4 x9c xf2 xcb)
(T (W x00 x00 x80 xbf x9c x00 x00 x00)
(L (W x4a x06 xff xff x00 x00 x80 x3f)) E)
(T (W xcc x86 xfe xff x4e x86 xfe xff)
(L (W x00 x00 x80 x3f xd0 x86 xff xff)) E)))))
(T (W x4a xae xfc xff x00 x00 x80 x3f)
(T (W x00 x00 x00 x00 x01 x00 x00 x00)
(T (W x00 x00 x00 x00 x00 x00 x00 x00)
(T (W x45 x26 x22 x84 xe4 x9c xf2 xcb)
(T (W x00 x00 x00 x00 x01 x00 x00 x00)
(L (W x00 x00 x00 x00 x00 x00 x00 x00))
(L (W x00 x00 x80 xbf x00 x00 x80 xbf)))
(T (W x2c xe3 x04 x37 x15 xfa x55 x40)
(L (W x00 x00 x00 x00 x00 x00 x00 x00)) E))
(T (W x42 x52 x45 x41 x4b x5f x41 x52)
(T (W x54 x00 x00 x00 x48 x00 x00 x00)
(L (W x00 x00 x00 x00 x02 x00 x00 x00))
(L (W x00 x00 x00 x00 x01 x00 x00 x00)))
(T (W x33 xb3 x8d x42 x00 xc0 xda x43)
(L (W x3c x01 x00 x00 x30 x01 x00 x00)) E)))
(T (W x00 x00 x00 x00 x01 x00 x00 x00)
(T (W x45 x26 x22 x84 xe4 x9c xf2 xcb)
(T (W x55 x39 x81 x6a xc4 xc7 x74 x14)
(L (W x45 x26 x22 x84 xe4 x9c xf2 xcb))
(L (W x55 x6c xfc xf1 x99 x9e xc9 x88)))
(T (W x00 x00 x00 x00 x00 x00 x00 x00)
(L (W x45 x26 x22 x84 xe4 x9c xf2 xcb)) E))
(T (W x3c x01 x00 x00 x30 x01 x00 x00)
(T (W x45 x26 x22 x84 xe4 x9c xf2 xcb)
(L (W x44 x00 x00 x00 x38 x00 x00 x00))
(L (W x00 x00 x80 xbf x00 x00 x80 xbf)))
(T (W x00 x00 x00 x00 x00 x00 x00 x00)
(L (W x45 x26 x22 x84 xe4 x9c xf2 xcb)) E))))
(T (W x2c x00 x00 x00 x20 x00 x00 x00)
(T (W x40 x00 x00 x00 x38 x00 x00 x00)
(T (W x04 x00 x00 x00 xb8 x2e xfd xff)
(T (W x00 x00 x00 x00 x00 x00 x00 x00)
(L (W x00 x00 x00 x00 xd0 xae xfe xff))
(L (W x00 x00 x00 x00 x00 x00 x00 x00)))
(T (W xcc x2e xfe xff x4e x2e xfe xff)
(L (W x28 x00 x00 x00 x14 x00 x00 x00)) E))
(T (W x04 x00 x00 x00 x0a x74 xfd xff)
(T (W x00 x00 xa0 x40 x24 x01 x00 x00)
(L (W xcc xee xfe xff x00 x00 x00 x00))
(L (W x28 x00 x00 x00 x14 x00 x00 x00)))
(T (W x5c x00 x00 x00 x50 x00 x00 x00)
(L (W x00 x00 x00 x00 x4e x6e xff xff)) E)))
(T (W x1c x01 x00 x00 x04 x00 x00 x00)
(T (W xc4 x37 xef x05 x15 x68 xb0 xe9)
(T (W x44 x00 x00 x00 x38 x00 x00 x00)
(L (W x00 x00 x00 x00 x01 x00 x00 x00))
(L (W x2c x00 x00 x00 x20 x00 x00 x00)))
(T (W x68 x38 xb5 x31 x15 x50 x32 x37)
(L (W x45 x26 x22 x84 xe4 x9c xf2 xcb)) E))
(T (W x00 x00 x00 x00 x00 x00 x00 x00)
(T (W xcc x0e xfe xff x00 x00 x00 x00)
(L (W x04 x00 x00 x00 x00 x00 x00 x00)) E)
(T (W x04 x00 x00 x00 x0a x94 xfe xff)
(L (W x45 x26 x22 x84 xe4 x9c xf2 xcb)) E)))))))
(T (W x54 x00 x00 x00 x48 x00 x00 x00)
(T (W x45 x26 x22 x84 xe4 x9c xf2 xcb)
(T (W x00 x00 x00 x00 x00 x00 x00 x00)
(T (W x46 x53 x59 x53 x5f x4e x45 x57)
(T (W x00 x00 x00 x00 xd0 xd4 xfc xff)
(T (W x04 x00 x00 x00 x00 x00 x00 x00)
(T (W x45 x26 x22 x84 xe4 x9c xf2 xcb)
(L (W x45 x26 x22 x84 xe4 x9c xf2 xcb))
(L (W x45 x26 x22 x84 xe4 x9c xf2 xcb)))
(T (W x60 x00 x00 x00 x54 x00 x00 x00)
(L (W xa8 xe9 x39 xdc x00 x60 x48 x2f)) E))
(T (W x04 x00 x00 x00 x00 x00 x00 x00)
(T (W x00 x00 x80 x3f x00 x00 x80 x3f)
(L (W x74 xd7 xfe xff x50 x00 x00 x00))
(L (W x45 x26 x22 x84 xe4 x9c xf2 xcb)))
(T (W x00 x00 x00 x00 xd0 x54 xfe xff)
(L (W x45 x26 x22 x84 xe4 x9c xf2 xcb)) E)))
(T (W x00 x00 x00 x00 xd0 xf4 xfc xff)
(T (W x45 x41 x30 x32 x5f x30 x30 x33)
(T (W x45 x26 x22 x84 xe4 x9c xf2 xcb)
(L (W x00 x00 x01 x43 x00 x00 x00 x00))
(L (W x45 x26 x22 x84 xe4 x9c xf2 xcb)))
(T (W x00 x00 xa0 x40 x24 x01 x00 x00)
(L (W x42 x52 x45 x41 x4b x5f x41 x52)) E))
(T (W x00 x00 x00 x00 xd0 x74 xfd xff)
(T (W x45 x26 x22 x84 xe4 x9c xf2 xcb)
(L (W x3c x01 x00 x00 x30 x01 x00 x00))
(L (W x00 x00 x80 x3f x01 x00 x00 x00)))
(T (W x00 x00 x80 xbf x9c x00 x00 x00)
(L (W x00 x00 x80 xbf x9c x00 x00 x00)) E))))
(T (W x45 x26 x22 x84 xe4 x9c xf2 xcb)
(T (W x3c x01 x00 x00 x30 x01 x00 x00)
(T (W x00 x00 x00 x00 xd0 x24 xfd xff)
(T (W x00 x00 x00 x00 xd0 xa4 xfd xff)
(L (W x04 x00 x00 x00 x0a xaa xfe xff))
(L (W x45 x26 x22 x84 xe4 x9c xf2 xcb)))
(T (W x45 x26 x22 x84 xe4 x9c xf2 xcb)
(L (W x45 x26 x22 x84 xe4 x9c xf2 xcb)) E))
(T (W x00 x00 x80 x3f x00 x00 x80 x3f)
(T (W x45 x26 x22 x84 xe4 x9c xf2 xcb)
(L (W x40 x00 x00 x00 x38 x00 x00 x00))
(L (W x45 x26 x22 x84 xe4 x9c xf2 xcb)))
(T (W x62 x84 xba x31 x15 xd4 x38 x37)
(L (W x45 x26 x22 x84 xe4 x9c xf2 xcb)) E)))
(T (W x00 x00 x80 x3f x00 x00 x80 x3f)
(T (W xcc x44 xfd xff x00 x00 x00 x00)
(T (W x00 x00 x00 x00 x00 x00 x00 x00)
(L (W x00 x00 x00 x00 xd0 xc4 xfe xff))
(L (W x3c x01 x00 x00 x30 x01 x00 x00)))
(T (W x45 x26 x22 x84 xe4 x9c xf2 xcb)
(L (W x00 x00 x00 x00 x00 x00 x00 x00)) E))
(T (W x45 x26 x22 x84 xe4 x9c xf2 xcb)
(T (W x1c x01 x00 x00 x01 x00 x00 x00)
(L (W x04 x00 x00 x00 xf0 x06 xff xff)) E)
(T (W x00 x00 x80 x3f xd0 x84 xfe xff)
(L (W x55 x6c xfc xf1 x99 x9e xc9 x88)) E)))))
(T (W x28 x00 x00 x00 x14 x00 x00 x00)
(T (W x93 xbc x83 x67 x2b x75 xed x8e)
(T (W x00 x00 x80 x3f xd0 xdc xfc xff)
(T (W x45 x26 x22 x84 xe4 x9c xf2 xcb)
(T (W x00 x00 x80 xbf x9c x00 x00 x00)
(L (W x45 x26 x22 x84 xe4 x9c xf2 xcb))
(L (W x00 x00 x40 x40 x24 x01 x00 x00)))
(T (W x3c x01 x00 x00 x30 x01 x00 x00)
(L (W x66 x46 x04 x44 x00 x00 x00 x00)) E))
(T (W x45 x26 x22 x84 xe4 x9c xf2 xcb)
(T (W x04 x00 x00 x00 x00 x00 x00 x00)
(L (W x4a xdc xfe xff x00 x00 x80 x3f))
(L (W x34 x00 x00 x00 x20 x00 x00 x00)))
(T (W x00 x00 x80 x3f x00 x00 x80 x3f)
(L (W x00 x00 x00 x00 x00 x00 x00 x00)) E)))
(T (W x00 x00 x00 x00 x00 x00 x00 x00)
(T (W x00 x00 x00 x00 x01 x00 x00 x00)
(T (W x60 x00 x00 x00 x54 x00 x00 x00)
(L (W xe3 xd8 x1b x72 x9d x09 xa7 xbe))
(L (W x00 x00 x00 x00 x01 x00 x00 x00)))
(T (W x8e x18 xb9 x28 xbf xd3 x67 x6a)
(L (W x54 x00 x00 x00 x48 x00 x00 x00)) E))
(T (W xcd x4c xdc x43 x9a x99 x11 x42)
(T (W x00 x00 x00 x00 x01 x00 x00 x00)
(L (W x45 x26 x22 x84 xe4 x9c xf2 xcb))
(L (W xae x06 x47 x1f xdc x87 x99 xc2)))
(T (W x21 xf8 xaf x28 xbf x5b x5d x6a)
(L (W x2c x00 x00 x00 x20 x00 x00 x00)) E))))
(T (W x01 x00 x00 x00 x04 x00 x00 x00)
(T (W x00 x00 x00 x00 x01 x00 x00 x00)
(T (W x00 x00 x00 x00 x00 x00 x00 x00)
(T (W x00 x00 x80 x3f x00 x00 x80 x3f)
(L (W x00 x00 x00 x00 x00 x00 x00 x00))
(L (W xcc xac xff xff x4e xac xff xff)))
(T (W xd6 x81 x9c x94 x9b x27 x57 x25)
(L (W x78 x00 x00 x00 x6c x00 x00 x00)) E))
(T (W x00 x00 x00 x00 x01 x00 x00 x00)
(T (W x3d x2a x3e x44 x00 x00 x00 x00)
(L (W x45 x26 x22 x84 xe4 x9c xf2 xcb))
(L (W x00 x00 x00 x00 xd0 xec xff xff)))
(T (W x00 x00 x00 x00 x00 x00 x00 x00)
(L (W x04 x00 x00 x00 xf0 x6e xff xff)) E)))
(T (W xc2 xf0 xff xff x00 x00 x00 x01)
(T (W x00 x00 x80 xbf x00 x00 x80 xbf)
(T (W x45 x26 x22 x84 xe4 x9c xf2 xcb)
(L (W x00 x00 x80 xbf x9c x00 x00 x00))
(L (W x45 x26 x22 x84 xe4 x9c xf2 xcb)))
(T (W x3c x01 x00 x00 x30 x01 x00 x00)
(L (W x1c x01 x00 x00 x01 x00 x00 x00)) E))
(T (W x9f x41 x45 xdc x00 xd9 x55 x2f)
(T (W x45 x26 x22 x84 xe4 x9c xf2 xcb)
(L (W x00 x00 x80 xbf x00 x00 x80 xbf)) E)
(T (W x00 x00 x00 x00 x01 x00 x00 x00)
(L (W x45 x26 x22 x84 xe4 x9c xf2 xcb)) E))))))
(T (W x74 xa3 xfc xff x50 x00 x00 x00)
(T (W xcc xa8 xfc xff x00 x00 x00 x00)
(T (W x00 x00 xe0 x40 x24 x01 x00 x00)
(T (W x48 x00 x00 x00 x34 x00 x00 x00)
(T (W x45 x26 x22 x84 xe4 x9c xf2 xcb)
(T (W x1c x00 x00 x00 x46 x53 x59 x53)
(L (W x00 x00 x00 x00 x00 x00 x00 x00))
(L (W x28 x00 x00 x00 x14 x00 x00 x00)))
(T (W x00 x00 x80 x3f x00 x00 x80 x3f)
(L (W x44 x00 x00 x00 x30 x00 x00 x00)) E))
(T (W x45 x26 x22 x84 xe4 x9c xf2 xcb)
(T (W x00 x00 x80 xbf x9c x00 x00 x00)
(L (W x00 x00 x00 x00 x00 x00 x00 x00))
(L (W x00 x00 x00 x00 x92 xe0 xff xff)))
(T (W xcc x58 xfe xff x00 x00 x00 x00)
(L (W x2c x00 x00 x00 x18 x00 x00 x00)) E)))
(T (W x45 x26 x22 x84 xe4 x9c xf2 xcb)
(T (W x00 x00 x80 xbf x00 x00 x80 xbf)
(T (W x2c x00 x00 x00 x20 x00 x00 x00)
(L (W x00 x00 x00 x00 x00 x00 x00 x00))
(L (W x01 x00 x00 x00 x04 x00 x00 x00)))
(T (W x40 x00 x00 x00 x38 x00 x00 x00)
(L (W x00 x00 x80 xbf x00 x00 x80 xbf)) E))
(T (W x00 x00 x00 x00 x00 x00 x00 x00)
(T (W x44 x00 x00 x00 x38 x00 x00 x00)
(L (W x34 x00 x00 x00 x20 x00 x00 x00))
(L (W x04 x00 x00 x00 x00 x00 x00 x00)))
(T (W x40 x00 x00 x00 x38 x00 x00 x00)
(L (W x40 x00 x00 x00 x38 x00 x00 x00)) E))))
(T (W x01 x00 x00 x00 x04 x00 x00 x00)
(T (W x34 x00 x00 x00 x20 x00 x00 x00)
(T (W x55 x6c xfc xf1 x99 x9e xc9 x88)
(T (W x00 x00 x00 x00 x00 x00 x00 x00)
(L (W x45 x26 x22 x84 xe4 x9c xf2 xcb))
(L (W x00 x00 x00 x00 x00 x00 x00 x00)))
(T (W x00 x00 x00 x00 x00 x00 x00 x00)
(L (W x44 x00 x00 x00 x38 x00 x00 x00)) E))
(T (W x00 x00 x80 xbf x00 x00 x80 xbf)
(T (W x78 x00 x00 x00 x6c x00 x00 x00)
(L (W x45 x26 x22 x84 xe4 x9c xf2 xcb))
(L (W x45 x26 x22 x84 xe4 x9c xf2 xcb)))
(T (W x45 x26 x22 x84 xe4 x9c xf2 xcb)
(L (W x45 x26 x22 x84 xe4 x9c xf2 xcb)) E)))
(T (W x00 x00 x00 x00 x00 x00 x00 x00)
(T (W x4a x48 xfd xff x00 x00 x80 x3f)
(T (W x34 x00 x00 x00 x20 x00 x00 x00)
(L (W x66 x26 x90 x43 x00 x00 x00 x00))
(L (W x00 x00 x00 x00 x01 x00 x00 x00)))
(T (W x57 x53 x59 x53 x5f x4d x41 x53)
(L (W x45 x26 x22 x84 xe4 x9c xf2 xcb)) E))
(T (W xcc x88 xfd xff x00 x00 x00 x00)
(T (W xec xa6 xf9 x06 x39 x0b x61 xad)
(L (W x00 x00 x00 x00 x00 x00 x00 x00)) E)
(T (W x00 x00 x00 x00 x00 x00 x00 x00)
(L (W x00 x00 x00 x00 x00 x00 x00 x00)) E)))))
(T (W xe1 xfa x56 x44 xe1 x7a x06 x42)
(T (W x04 x00 x00 x00 x0a xc6 xfc xff)
(T (W x02 x00 x00 x00 x33 x33 x00 x00)
(T (W x45 x26 x22 x84 xe4 x9c xf2 xcb)
(T (W x45 x26 x22 x84 xe4 x9c xf2 xcb)
(L (W x01 x00 x00 x00 x00 x00 x80 x3f))
(L (W x3d x72 x0e x0c x1e x07 xaa xc0)))
(T (W x00 x00 x00 x00 x01 x00 x00 x00)
(L (W x1c x01 x00 x00 x01 x00 x00 x00)) E))
(T (W x00 x00 x00 x00 x01 x00 x00 x00)
(T (W x45 x26 x22 x84 xe4 x9c xf2 xcb)
(L (W x00 x00 x40 x40 x24 x01 x00 x00))
(L (W x40 x00 x00 x00 x38 x00 x00 x00)))
(T (W x00 x00 x00 x00 x00 x00 x00 x00)
(L (W xa8 x37 x45 xe3 x48 xb7 x28 x26)) E)))
(T (W x60 x00 x00 x00 x54 x00 x00 x00)
(T (W x00 x00 x00 x00 xd0 x40 xfd xff)
(T (W x00 x00 x80 x3f x00 x00 x80 x3f)
(L (W xcc xc0 xfe xff x00 x00 x00 x00))
(L (W x00 xc0 x89 x43 x9a x99 x67 x42)))
(T (W x00 x00 x00 x00 x00 x00 x00 x00)
(L (W x01 x00 x00 x00 x04 x00 x00 x00)) E))
(T (W xd5 x23 x5c x23 x15 xcc xa5 x1d)
(T (W x00 x00 x00 x00 x00 x00 x00 x00)
(L (W x45 x26 x22 x84 xe4 x9c xf2 xcb)) E)
(T (W x00 x00 x00 x00 x01 x00 x00 x00)
(L (W xcc x80 xff xff x00 x00 x00 x00)) E))))
(T (W x45 x26 x22 x84 xe4 x9c xf2 xcb)
(T (W x45 x26 x22 x84 xe4 x9c xf2 xcb)
(T (W x45 x26 x22 x84 xe4 x9c xf2 xcb)
(T (W x00 x00 x80 xbf x9c x00 x00 x00)
(L (W x44 x00 x00 x00 x30 x00 x00 x00))
(L (W x00 x00 x80 xbf x00 x00 x80 xbf)))
(T (W x1c x00 x00 x00 x46 x53 x59 x53)
(L (W x00 x00 x80 x3f x00 x00 x80 x3f)) E))
(T (W x45 x26 x22 x84 xe4 x9c xf2 xcb)
(T (W x8e xec x20 x98 xc9 xb7 x55 x70)
(L (W x2c x00 x00 x00 x18 x00 x00 x00))
(L (W xae x57 x41 x44 x00 x00 x00 x00)))
(T (W xcc x70 xfe xff x4e x70 xfe xff)
(L (W x4a x70 xff xff x66 x26 x05 x44)) E)))
(T (W x00 x00 x80 xbf x9c x00 x00 x00)
(T (W x00 x00 x00 x00 x01 x00 x00 x00)
(T (W x00 x00 x00 x00 x00 x00 x00 x00)
(L (W x45 x26 x22 x84 xe4 x9c xf2 xcb))
(L (W x00 x00 x00 x00 x00 x00 x00 x00)))
(T (W x54 x00 x00 x00 x48 x00 x00 x00)
(L (W x45 x26 x22 x84 xe4 x9c xf2 xcb)) E))
(T (W x00 x00 x00 x00 x01 x00 x00 x00)
(T (W x04 xbd x1c x76 x80 xbc xf7 x18)
(L (W x45 x26 x22 x84 xe4 x9c xf2 xcb)) E)
(T (W x45 x26 x22 x84 xe4 x9c xf2 xcb)
(L (W xcc x90 xff xff x00 x00 x00 x00)) E)))))))))))))).
