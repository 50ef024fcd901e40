(** Generated by tools/gen_la.py from resources/encount/la/poke_encount.bin. *)
From Coq Require Import NArith Strings.Byte.
From Verif Require Import Model.Trie.
Definition poke_encount_size : N := 19684%N.
Definition poke_encount_trie : trie :=
(T (W x0c x00 x00 x00 x00 x00 x06 x00)
(T (W x08 x00 x04 x00 x06 x00 x00 x00)
(T (W x94 x4c x00 x00 x38 x4c x00 x00)
(T (W x70 x4a x00 x00 x40 x4a x00 x00)
(T (W xb4 x46 x00 x00 x78 x46 x00 x00)
(T (W x58 x3f x00 x00 x2c x3f x00 x00)
(T (W xdc x2f x00 x00 xac x2f x00 x00)
(T (W xf0 x11 x00 x00 xb4 x11 x00 x00)
(T (W x00 x00 x80 xbf x00 x00 x80 xbf)
(T (W x00 x00 x80 xbf x00 x00 x80 xbf)
(T (W x00 x00 x80 xbf x00 x00 x80 xbf)
(L (W x00 x00 x80 xbf x00 x00 x80 xbf)) E)
(L (W x63 x01 x00 x00 x00 x00 x80 xbf)))
(T (W x00 x00 x80 xbf x00 x00 x80 xbf)
(T (W x00 x00 x80 xbf x00 x00 x80 xbf)
(L (W x00 x00 x80 xbf x00 x00 x80 xbf)) E)
(L (W x00 x00 x80 xbf x00 x00 x80 xbf))))
(T (W x00 x00 x80 xbf xb4 xc0 xff xff)
(T (W x00 x00 x80 xbf x00 x00 x80 xbf)
(T (W xa8 x01 x00 x00 x00 x00 x80 xbf)
(L (W x00 x00 x80 xbf x00 x00 x80 xbf)) E)
(L (W x00 x00 x80 xbf x00 x00 x80 xbf)))
(T (W x9a x99 x99 x3f x00 x00 x00 x3f)
(T (W x00 x00 x80 xbf x00 x00 x80 xbf)
(L (W x00 x00 x80 xbf x00 x00 x80 xbf)) E)
(L (W x00 x00 x80 xbf x00 x00 x80 xbf)))))
(T (W x00 x00 x80 xbf x00 x00 x80 xbf)
(T (W x00 x00 x80 xbf x00 x00 x80 xbf)
(T (W x00 x00 x80 xbf x00 x00 x80 xbf)
(T (W x00 x00 x80 xbf x00 x00 x80 xbf)
(L (W x00 x00 x80 xbf x00 x00 x00 x3f)) E)
(L (W x00 x00 x80 xbf x00 x00 x80 xbf)))
(T (W x00 x00 x00 x3f x00 x00 x00 x3f)
(T (W x9a x99 x99 x3f x00 x00 x80 xbf)
(L (W x00 x00 x80 xbf x00 x00 x00 x3f)) E)
(L (W x00 x00 x80 xbf xb4 xee xff xff))))
(T (W x00 x00 x80 xbf x00 x00 x80 xbf)
(T (W x00 x00 x80 xbf x00 x00 x80 xbf)
(T (W x9a x99 x99 x3f x00 x00 x80 xbf)
(L (W x20 x00 x24 x00 x28 x00 x2c x00)) E)
(L (W x00 x00 x80 xbf x00 x00 x80 xbf)))
(T (W x00 x00 x80 xbf x00 x00 x80 xbf)
(L (W x00 x00 x80 xbf x00 x00 x80 xbf))
(L (W x00 x00 x80 xbf x00 x00 x80 xbf))))))
(T (W xd0 x20 x00 x00 xa0 x20 x00 x00)
(T (W x2c x02 x00 x00 xf0 x01 x00 x00)
(T (W x00 x00 x00 x3f x00 x00 x80 xbf)
(T (W x00 x00 x80 xbf x00 x00 x80 xbf)
(T (W x00 x00 x80 xbf x00 x00 x80 xbf)
(L (W x00 x00 x80 xbf x00 x00 x80 xbf)) E)
(L (W x00 x00 x80 xbf x00 x00 x80 xbf)))
(T (W x6c xcc xff xff xd7 x01 x00 x00)
(T (W x00 x00 x80 xbf x00 x00 x80 xbf)
(L (W x00 x00 x80 xbf x00 x00 x80 xbf)) E)
(L (W x00 x00 x80 xbf x00 x00 x80 xbf))))
(T (W x00 x00 x80 xbf x00 x00 x80 xbf)
(T (W x00 x00 x80 xbf x00 x00 x80 xbf)
(T (W x00 x00 x80 xbf x00 x00 x80 xbf)
(L (W x00 x00 x80 xbf x00 x00 x80 xbf)) E)
(L (W x00 x00 x80 xbf x00 x00 x80 xbf)))
(T (W x00 x00 x80 xbf x00 x00 x80 xbf)
(L (W x00 x00 x80 xbf x00 x00 x80 xbf))
(L (W x00 x00 x80 xbf x00 x00 x80 xbf)))))
(T (W x00 x00 x80 xbf x00 x00 x80 xbf)
(T (W x00 x00 x80 xbf x00 x00 x80 xbf)
(T (W x00 x00 x80 xbf x00 x00 x80 xbf)
(T (W x01 x00 x00 x00 x00 x00 x80 xbf)
(L (W x00 x00 x80 xbf x00 x00 x80 xbf)) E)
(L (W x6c xe6 xff xff xf0 x00 x00 x00)))
(T (W x00 x00 x80 xbf x00 x00 x80 xbf)
(T (W x6c xde xff xff x92 x01 x00 x00)
(L (W x00 x00 x80 xbf x9a x99 x99 x3f)) E)
(L (W x00 x00 x80 xbf x00 x00 x80 xbf))))
(T (W x00 x00 x80 xbf xb4 xc3 xff xff)
(T (W x00 x00 x80 xbf x00 x00 x80 xbf)
(T (W x02 x00 x00 x00 x00 x00 x80 xbf)
(L (W x4b x00 x00 x00 x00 x00 x80 xbf)) E)
(L (W x1b x00 x00 x00 x00 x00 x80 xbf)))
(T (W x00 x00 x80 xbf x00 x00 x80 xbf)
(L (W x00 x00 x80 xbf x00 x00 x80 xbf))
(L (W x00 x00 x80 xbf x00 x00 x80 xbf)))))))
(T (W x94 x37 x00 x00 x54 x37 x00 x00)
(T (W x80 x28 x00 x00 x44 x28 x00 x00)
(T (W x0c x0a x00 x00 xcc x09 x00 x00)
(T (W x00 x00 x80 xbf x00 x00 x80 xbf)
(T (W x00 x00 x80 xbf x00 x00 x80 xbf)
(T (W x00 x00 x80 xbf x00 x00 x80 xbf)
(L (W x9b x00 x00 x00 x00 x00 x80 xbf)) E)
(L (W x00 x00 x80 xbf x00 x00 x80 xbf)))
(T (W x00 x00 x80 xbf x00 x00 x80 xbf)
(T (W x00 x00 x80 xbf x00 x00 x80 xbf)
(L (W x00 x00 x80 xbf xf0 xfb xff xff)) E)
(L (W x00 x00 x80 xbf x00 x00 x80 xbf))))
(T (W x25 x02 x00 x00 x01 x00 x00 x00)
(T (W x00 x00 x80 xbf x00 x00 x80 xbf)
(T (W x00 x00 x80 xbf x00 x00 x80 xbf)
(L (W x30 xf9 xff xff x65 x00 x00 x00)) E)
(L (W x00 x00 x80 xbf x00 x00 x80 xbf)))
(T (W x00 x00 x80 xbf xf0 xcf xff xff)
(T (W x00 x00 x80 xbf x00 x00 x80 xbf)
(L (W x00 x00 x80 xbf x00 x00 x80 xbf)) E)
(L (W x00 x00 x80 xbf x00 x00 x80 xbf)))))
(T (W xec xb9 xff xff x85 x03 x00 x00)
(T (W x00 x00 x80 xbf x00 x00 x80 xbf)
(T (W x00 x00 x80 xbf x00 x00 x80 xbf)
(T (W x00 x00 x80 xbf x00 x00 x80 xbf)
(L (W x00 x00 x00 x3f xf0 xf5 xff xff)) E)
(L (W x00 x00 x80 xbf x00 x00 x80 xbf)))
(T (W x00 x00 x80 xbf x00 x00 x80 xbf)
(T (W x00 x00 x80 xbf x00 x00 x80 xbf)
(L (W x00 x00 x80 xbf x74 xfe xff xff)) E)
(L (W xc9 x00 x00 x00 x0c x00 x00 x00))))
(T (W x00 x00 x80 xbf x00 x00 x80 xbf)
(T (W x00 x00 x80 xbf x00 x00 x80 xbf)
(T (W x00 x00 xc0 x3f x00 x00 x80 xbf)
(L (W x00 x00 xc0 x3f x00 x00 x1a x00)) E)
(L (W x00 x00 x80 xbf x00 x00 x80 xbf)))
(T (W xec xd1 xff xff xc0 x01 x00 x00)
(L (W xec xe1 xff xff x6d x01 x00 x00))
(L (W x00 x00 x80 xbf xf0 xf1 xff xff))))))
(T (W x74 x19 x00 x00 x38 x19 x00 x00)
(T (W x00 x00 x80 xbf x00 x00 x80 xbf)
(T (W x00 x00 x80 xbf xf0 xbc xff xff)
(T (W x00 x00 x80 xbf x00 x00 x80 xbf)
(T (W x00 x00 x80 xbf x00 x00 x80 xbf)
(L (W x00 x00 x80 xbf x00 x00 x80 xbf)) E)
(L (W x00 x00 x80 xbf x00 x00 x80 xbf)))
(T (W x00 x00 x80 xbf x00 x00 x80 xbf)
(T (W x00 x00 x80 xbf x00 x00 x80 xbf)
(L (W x00 x00 x80 xbf x9a x99 x99 x3f)) E)
(L (W x00 x00 x80 xbf x00 x00 x80 xbf))))
(T (W x00 x00 x80 xbf x00 x00 x80 xbf)
(T (W xec xc8 xff xff xe1 x01 x00 x00)
(T (W x00 x00 x80 xbf x00 x00 x80 xbf)
(L (W x00 x00 x80 xbf x00 x00 x80 xbf)) E)
(L (W x00 x00 x80 xbf x00 x00 x40 x3f)))
(T (W x00 x00 x80 xbf x00 x00 x80 xbf)
(L (W x9a x99 x99 x3f x00 x00 x80 xbf))
(L (W x00 x00 x80 xbf x74 xf1 xff xff)))))
(T (W x28 x00 x2c x00 x20 x00 x00 x00)
(T (W x00 x00 x80 xbf x00 x00 x80 xbf)
(T (W xe7 x01 x00 x00 x01 x00 x00 x00)
(T (W x00 x00 x80 xbf x00 x00 x80 xbf)
(L (W x00 x00 x80 xbf x00 x00 x80 xbf)) E)
(L (W x00 x00 x80 xbf x00 x00 x80 xbf)))
(T (W x00 x00 x80 xbf xcd xcc x4c x3f)
(T (W x00 x00 x80 xbf x00 x00 x80 xbf)
(L (W x00 x00 x80 xbf x00 x00 x80 xbf)) E)
(L (W x00 x00 x80 xbf x00 x00 x80 xbf))))
(T (W xed x01 x00 x00 x0a x00 x00 x00)
(T (W x70 xcb xff xff xdd x01 x00 x00)
(T (W x00 x00 x80 xbf x00 x00 x80 xbf)
(L (W x00 x00 x80 xbf x00 x00 x80 xbf)) E)
(L (W x00 x00 x80 xbf x00 x00 x80 xbf)))
(T (W x00 x00 x80 xbf x00 x00 x80 xbf)
(L (W x00 x00 x80 xbf x9a x99 x99 x3f))
(L (W x00 x00 x80 xbf x00 x00 x80 xbf))))))))
(T (W xdc x42 x00 x00 xa0 x42 x00 x00)
(T (W x94 x3b x00 x00 x54 x3b x00 x00)
(T (W x40 x2c x00 x00 x04 x2c x00 x00)
(T (W x24 x0e x00 x00 xe8 x0d x00 x00)
(T (W x00 x00 x80 xbf x00 x00 x80 xbf)
(T (W x00 x00 x80 xbf x00 x00 x80 xbf)
(T (W x00 x00 x80 xbf x00 x00 x80 xbf)
(L (W x00 x00 x80 xbf x00 x00 x80 xbf)) E)
(L (W x00 x00 x80 xbf x00 x00 x80 xbf)))
(T (W x00 x00 x80 xbf x00 x00 x80 xbf)
(T (W x00 x00 x80 xbf x00 x00 x80 xbf)
(L (W x00 x00 x80 xbf x00 x00 x80 xbf)) E)
(L (W x00 x00 x80 xbf x00 x00 x80 xbf))))
(T (W xf0 xc0 xff xff x25 x02 x00 x00)
(T (W x00 x00 x80 xbf x00 x00 x80 xbf)
(T (W x00 x00 x80 xbf x00 x00 x80 xbf)
(L (W x00 x00 x80 xbf xf4 xf8 xff xff)) E)
(L (W x00 x00 x80 xbf x00 x00 x80 xbf)))
(T (W x00 x00 x80 xbf x00 x00 x80 xbf)
(T (W x00 x00 x80 xbf x00 x00 x80 xbf)
(L (W x00 x00 x80 xbf x00 x00 x80 xbf)) E)
(L (W x00 x00 x80 xbf x00 x00 x80 xbf)))))
(T (W x00 x00 x80 xbf x00 x00 x80 xbf)
(T (W x00 x00 x80 xbf x00 x00 x80 xbf)
(T (W x00 x00 x80 xbf x00 x00 x80 xbf)
(T (W x00 x00 x80 xbf x00 x00 x80 xbf)
(L (W x00 x00 x80 xbf x00 x00 xc0 x3f)) E)
(L (W x04 x00 x00 x00 x08 x00 x0c x00)))
(T (W x00 x00 x80 xbf x00 x00 x80 xbf)
(T (W x00 x00 x80 xbf xcd xcc x4c x3f)
(L (W x00 x00 x80 xbf x00 x00 x80 xbf)) E)
(L (W xf0 xee xff xff xc9 x00 x00 x00))))
(T (W x00 x00 x80 xbf x00 x00 x80 xbf)
(T (W x00 x00 x80 xbf x00 x00 x80 xbf)
(T (W x00 x00 x80 xbf x00 x00 x80 xbf)
(L (W x00 x00 x80 xbf x00 x00 x1a x00)) E)
(L (W x00 x00 x80 xbf x00 x00 x80 xbf)))
(T (W x00 x00 x80 xbf xf4 xd2 xff xff)
(L (W x00 x00 x80 xbf x00 x00 x80 xbf))
(L (W x00 x00 x80 xbf x00 x00 x80 xbf))))))
(T (W x30 x1d x00 x00 xf4 x1c x00 x00)
(T (W x00 x00 x80 xbf x00 x00 x80 xbf)
(T (W x00 x00 x80 xbf x00 x00 xc0 x3f)
(T (W x00 x00 x80 xbf x00 x00 x80 xbf)
(T (W x00 x00 x80 xbf x00 x00 x80 xbf)
(L (W x00 x00 x80 xbf x00 x00 x80 xbf)) E)
(L (W xac xe4 xff xff x19 x01 x00 x00)))
(T (W x00 x00 x80 xbf x00 x00 x80 xbf)
(T (W xac xdc xff xff x9a x01 x00 x00)
(L (W x00 x00 x80 xbf x00 x00 x80 xbf)) E)
(L (W x00 x00 x80 xbf x00 x00 x80 xbf))))
(T (W x00 x00 x80 xbf x00 x00 x80 xbf)
(T (W x00 x00 x80 xbf x00 x00 x80 xbf)
(T (W x01 x00 x00 x00 x00 x00 x80 xbf)
(L (W x00 x00 x80 xbf x00 x00 x80 xbf)) E)
(L (W x00 x00 x80 xbf x00 x00 x80 xbf)))
(T (W x00 x00 x80 xbf x00 x00 x80 xbf)
(L (W x00 x00 x80 xbf x00 x00 x80 xbf))
(L (W x00 x00 x80 xbf x00 x00 x80 xbf)))))
(T (W x00 x00 x80 xbf x00 x00 x80 xbf)
(T (W x00 x00 x80 xbf x00 x00 x80 xbf)
(T (W x00 x00 x80 xbf xb0 xc6 xff xff)
(T (W x00 x00 x80 xbf x00 x00 x80 xbf)
(L (W x00 x00 x80 xbf x9a x99 x99 x3f)) E)
(L (W x00 x00 x80 xbf x00 x00 x80 xbf)))
(T (W x00 x00 x80 xbf x00 x00 x80 xbf)
(T (W x00 x00 x80 xbf x00 x00 x80 xbf)
(L (W x00 x00 xc0 x3f x00 x00 x00 x3f)) E)
(L (W x00 x00 x80 xbf x00 x00 x80 xbf))))
(T (W xf0 xc3 xff xff xed x01 x00 x00)
(T (W x00 x00 x80 xbf x00 x00 x80 xbf)
(T (W x00 x00 x80 xbf x00 x00 x80 xbf)
(L (W x00 x00 x80 xbf x00 x00 x80 xbf)) E)
(L (W x00 x00 x80 xbf x00 x00 x80 xbf)))
(T (W x00 x00 x80 xbf x00 x00 x80 xbf)
(L (W xcd xcc x4c x3f x00 x00 x80 xbf))
(L (W x00 x00 x80 xbf x00 x00 x80 xbf)))))))
(T (W xa8 x33 x00 x00 x6c x33 x00 x00)
(T (W xb0 x24 x00 x00 x70 x24 x00 x00)
(T (W x20 x06 x00 x00 xe0 x05 x00 x00)
(T (W x9a x99 x99 x3f x00 x00 x00 x3f)
(T (W x00 x00 x80 xbf x00 x00 x80 xbf)
(T (W x00 x00 x80 xbf x00 x00 x80 xbf)
(L (W x00 x00 x80 xbf x00 x00 x80 xbf)) E)
(L (W x00 x00 x80 xbf x00 x00 x80 xbf)))
(T (W x00 x00 x80 xbf x00 x00 xc0 x3f)
(T (W x00 x00 x80 xbf x00 x00 x80 xbf)
(L (W x40 x00 x00 x00 x00 x00 x80 xbf)) E)
(L (W x00 x00 x80 xbf x00 x00 x80 xbf))))
(T (W x00 x00 x80 xbf x00 x00 x80 xbf)
(T (W x00 x00 x80 xbf x00 x00 x80 xbf)
(T (W x00 x00 x80 xbf x00 x00 x80 xbf)
(L (W x64 x00 x00 x00 x01 x00 x00 x00)) E)
(L (W x2c xe8 xff xff xdc x00 x00 x00)))
(T (W xc7 x01 x00 x00 x00 x00 x80 xbf)
(T (W x2c xe0 xff xff x8a x01 x00 x00)
(L (W x00 x00 x80 xbf x00 x00 x80 xbf)) E)
(L (W x00 x00 x80 xbf x00 x00 x80 xbf)))))
(T (W x01 x00 x00 x00 x00 x00 x80 xbf)
(T (W x00 x00 x80 xbf x00 x00 x80 xbf)
(T (W x00 x00 x80 xbf x00 x00 x80 xbf)
(T (W x00 x00 x80 xbf x00 x00 x80 xbf)
(L (W x7b x00 x00 x00 x00 x00 x80 xbf)) E)
(L (W x00 x00 x80 xbf x00 x00 x80 xbf)))
(T (W x2c xce xff xff xcf x01 x00 x00)
(T (W x00 x00 xc0 x3f x00 x00 x80 xbf)
(L (W x00 x00 x80 xbf x00 x00 x80 xbf)) E)
(L (W x0b x00 x00 x00 x00 x00 x80 xbf))))
(T (W x00 x00 x80 xbf x00 x00 x80 xbf)
(T (W x00 x00 x80 xbf x00 x00 x80 xbf)
(T (W x2c xda xff xff x9f x01 x00 x00)
(L (W x00 x00 xc0 x3f x30 xfa xff xff)) E)
(L (W x2c xea xff xff xcf x00 x00 x00)))
(T (W x00 x00 x80 xbf x00 x00 x80 xbf)
(L (W x00 x00 x80 xbf x00 x00 x80 xbf))
(L (W xb9 x00 x00 x00 x00 x00 x80 xbf))))))
(T (W xb0 x15 x00 x00 x74 x15 x00 x00)
(T (W x00 x00 x80 xbf x00 x00 x80 xbf)
(T (W x85 x02 x00 x00 x01 x00 x00 x00)
(T (W x00 x00 x80 xbf x00 x00 x80 xbf)
(T (W x2c xd5 xff xff xb2 x01 x00 x00)
(L (W x00 x00 x80 xbf x00 x00 x80 xbf)) E)
(L (W x00 x00 x80 xbf x00 x00 x80 xbf)))
(T (W x00 x00 x80 xbf x00 x00 x80 xbf)
(T (W x00 x00 x80 xbf x00 x00 x80 xbf)
(L (W x00 x00 x80 xbf x9a x99 x99 x3f)) E)
(L (W x00 x00 x80 xbf x00 x00 x80 xbf))))
(T (W x00 x00 x80 xbf x00 x00 x80 xbf)
(T (W x00 x00 x80 xbf x00 x00 x80 xbf)
(T (W x9a x99 x99 x3f x00 x00 x80 xbf)
(L (W x00 x00 x80 xbf x00 x00 x80 xbf)) E)
(L (W x9a x99 x99 x3f x00 x00 x80 xbf)))
(T (W x00 x00 x80 xbf x00 x00 x80 xbf)
(L (W x00 x00 x00 x3f x00 x00 x00 x3f))
(L (W x00 x00 x80 xbf x00 x00 x80 xbf)))))
(T (W x00 x00 x80 xbf x00 x00 x80 xbf)
(T (W x00 x00 x80 xbf x00 x00 x80 xbf)
(T (W x00 x00 x80 xbf x00 x00 x80 xbf)
(T (W x00 x00 x80 xbf x00 x00 x80 xbf)
(L (W x00 x00 x80 xbf x00 x00 x80 xbf)) E)
(L (W x00 x00 x80 xbf x00 x00 x80 xbf)))
(T (W x00 x00 x80 xbf x00 x00 x80 xbf)
(T (W x00 x00 x80 xbf x00 x00 x80 xbf)
(L (W x00 x00 x80 xbf x9a x99 x99 x3f)) E)
(L (W x00 x00 x80 xbf x00 x00 x80 xbf))))
(T (W x09 x00 x00 x00 x00 x00 x80 xbf)
(T (W x00 x00 x80 xbf x00 x00 x80 xbf)
(T (W x00 x00 x80 xbf x00 x00 x80 xbf)
(L (W x00 x00 x80 xbf x9a x99 x99 x3f)) E)
(L (W x00 x00 x80 xbf x00 x00 x80 xbf)))
(T (W x00 x00 x80 xbf x00 x00 x80 xbf)
(L (W x00 x00 x80 xbf x00 x00 x80 xbf))
(L (W x00 x00 x80 xbf x00 x00 x80 xbf)))))))))
(T (W x94 x48 x00 x00 x58 x48 x00 x00)
(T (W xbc x44 x00 x00 x8c x44 x00 x00)
(T (W x64 x3d x00 x00 x28 x3d x00 x00)
(T (W x08 x2e x00 x00 xd8 x2d x00 x00)
(T (W x08 x10 x00 x00 xcc x0f x00 x00)
(T (W x00 x00 x80 xbf xd4 xbc xff xff)
(T (W x00 x00 x80 xbf x00 x00 x80 xbf)
(T (W x00 x00 x80 xbf x00 x00 x80 xbf)
(L (W x10 x00 x14 x00 x18 x00 x1c x00)) E)
(L (W x00 x00 x80 xbf x00 x00 x80 xbf)))
(T (W x8c xcb xff xff xdb x01 x00 x00)
(T (W x8c xdb xff xff x9d x01 x00 x00)
(L (W x00 x00 x80 xbf x00 x00 x80 xbf)) E)
(L (W x00 x00 x80 xbf xd4 xec xff xff))))
(T (W x00 x00 x80 xbf x00 x00 x80 xbf)
(T (W x00 x00 x80 xbf x00 x00 x80 xbf)
(T (W x00 x00 x80 xbf x00 x00 x80 xbf)
(L (W x00 x00 x80 xbf x00 x00 x80 xbf)) E)
(L (W x00 x00 x80 xbf x00 x00 x80 xbf)))
(T (W x00 x00 x80 xbf x00 x00 x80 xbf)
(T (W x00 x00 x80 xbf x00 x00 x80 xbf)
(L (W x0c x00 x10 x00 x14 x00 x18 x00)) E)
(L (W xd0 xf0 xff xff xc9 x00 x00 x00)))))
(T (W x00 x00 x80 xbf x00 x00 x80 xbf)
(T (W x00 x00 x80 xbf x00 x00 x80 xbf)
(T (W x20 x00 x24 x00 x28 x00 x2c x00)
(T (W x00 x00 x80 xbf x00 x00 x80 xbf)
(L (W x00 x00 x80 xbf x00 x00 x80 xbf)) E)
(L (W x00 x00 x80 xbf x00 x00 x80 xbf)))
(T (W x00 x00 x80 xbf x00 x00 x80 xbf)
(T (W x8c xdd xff xff x96 x01 x00 x00)
(L (W x00 x00 x80 xbf x00 x00 x80 xbf)) E)
(L (W x00 x00 x80 xbf x00 x00 x80 xbf))))
(T (W x00 x00 x80 xbf x00 x00 x80 xbf)
(T (W x00 x00 x80 xbf x00 x00 x80 xbf)
(T (W x00 x00 x80 xbf x00 x00 x80 xbf)
(L (W x00 x00 x80 xbf x00 x00 x80 xbf)) E)
(L (W x00 x00 x80 xbf x00 x00 x80 xbf)))
(T (W x00 x00 x80 xbf x00 x00 x80 xbf)
(L (W x00 x00 x80 xbf x00 x00 x80 xbf))
(L (W x00 x00 x80 xbf x00 x00 x40 x3f))))))
(T (W x10 x1f x00 x00 xd4 x1e x00 x00)
(T (W x44 x00 x00 x00 x04 x00 x00 x00)
(T (W x00 x00 x80 xbf x00 x00 x80 xbf)
(T (W xd0 xc5 xff xff xed x01 x00 x00)
(T (W x00 x00 x80 xbf x00 x00 x80 xbf)
(L (W x00 x00 x80 xbf x00 x00 x80 xbf)) E)
(L (W x00 x00 x80 xbf x00 x00 x80 xbf)))
(T (W x00 x00 x80 xbf x9a x99 x99 x3f)
(T (W x00 x00 x80 xbf x00 x00 x80 xbf)
(L (W x00 x00 x80 xbf x00 x00 x80 xbf)) E)
(L (W x00 x00 x80 xbf x00 x00 x80 xbf))))
(T (W x00 x00 x80 xbf x00 x00 x80 xbf)
(T (W x00 x00 x80 xbf x00 x00 x80 xbf)
(T (W x20 x00 x04 x00 x08 x00 x0c x00)
(L (W x00 x00 x80 xbf x00 x00 x80 xbf)) E)
(L (W x00 x00 x80 xbf x00 x00 x80 xbf)))
(T (W x00 x00 x80 xbf x00 x00 x80 xbf)
(L (W x00 x00 x00 x3f x00 x00 x80 xbf))
(L (W x00 x00 x80 xbf x00 x00 x80 xbf)))))
(T (W x00 x00 x80 xbf x00 x00 x80 xbf)
(T (W x01 x00 x00 x00 x00 x00 x80 xbf)
(T (W x00 x00 x80 xbf x00 x00 x80 xbf)
(T (W x00 x00 x80 xbf x00 x00 x80 xbf)
(L (W x00 x00 xc0 x3f x00 x00 x80 xbf)) E)
(L (W x00 x00 x00 x3f x00 x00 x00 x3f)))
(T (W x00 x00 x80 xbf x00 x00 x80 xbf)
(T (W x00 x00 x80 xbf x00 x00 x80 xbf)
(L (W x00 x00 x80 xbf x00 x00 x80 xbf)) E)
(L (W x00 x00 x80 xbf x00 x00 x80 xbf))))
(T (W x00 x00 x80 xbf x00 x00 x80 xbf)
(T (W xdf x01 x00 x00 x00 x00 x80 xbf)
(T (W x00 x00 x80 xbf x00 x00 x80 xbf)
(L (W x00 x00 x80 xbf x00 x00 x80 xbf)) E)
(L (W x00 x00 x80 xbf x00 x00 x80 xbf)))
(T (W x00 x00 x80 xbf x00 x00 x80 xbf)
(L (W x00 x00 x80 xbf x00 x00 xc0 x3f))
(L (W x00 x00 x80 xbf x00 x00 x80 xbf)))))))
(T (W x94 x35 x00 x00 x54 x35 x00 x00)
(T (W xa0 x26 x00 x00 x64 x26 x00 x00)
(T (W x18 x08 x00 x00 xd8 x07 x00 x00)
(T (W xc8 x02 x00 x00 x00 x00 x80 xbf)
(T (W x00 x00 x80 xbf x00 x00 x80 xbf)
(T (W x00 x00 x80 xbf x00 x00 x80 xbf)
(L (W x0c xf4 xff xff x8f x00 x00 x00)) E)
(L (W x00 x00 x80 xbf x00 x00 x80 xbf)))
(T (W x00 x00 x80 xbf x00 x00 x80 xbf)
(T (W x00 x00 x80 xbf x00 x00 x80 xbf)
(L (W x00 x00 x80 xbf x00 x00 x80 xbf)) E)
(L (W xc9 x00 x00 x00 x14 x00 x00 x00))))
(T (W x00 x00 x80 xbf x00 x00 x80 xbf)
(T (W xe4 x01 x00 x00 x00 x00 x80 xbf)
(T (W x00 x00 x80 xbf x00 x00 x80 xbf)
(L (W x00 x00 x80 xbf x00 x00 x80 xbf)) E)
(L (W x00 x00 x80 xbf x00 x00 x80 xbf)))
(T (W x00 x00 x80 xbf x00 x00 x80 xbf)
(T (W x00 x00 x80 xbf x00 x00 x80 xbf)
(L (W x10 x00 x14 x00 x18 x00 x1c x00)) E)
(L (W x03 x00 x00 x00 x00 x00 x80 xbf)))))
(T (W x00 x00 x80 xbf x00 x00 x80 xbf)
(T (W x00 x00 x80 xbf x54 xbf xff xff)
(T (W xeb x01 x00 x00 x00 x00 x80 xbf)
(T (W x90 xd6 xff xff xae x01 x00 x00)
(L (W x00 x00 x80 xbf x00 x00 x80 xbf)) E)
(L (W x00 x00 x80 xbf x00 x00 x80 xbf)))
(T (W x00 x00 x80 xbf x00 x00 x80 xbf)
(T (W x00 x00 x80 xbf x00 x00 x80 xbf)
(L (W x00 x00 x80 xbf x00 x00 x80 xbf)) E)
(L (W x00 x00 x80 xbf x00 x00 x80 xbf))))
(T (W x00 x00 x80 xbf x00 x00 x80 xbf)
(T (W x00 x00 x80 xbf x54 xcb xff xff)
(T (W x00 x00 x80 xbf x00 x00 x80 xbf)
(L (W x1a x00 x00 x00 x4d x00 x00 x00)) E)
(L (W x00 x00 x80 xbf x00 x00 x80 xbf)))
(T (W x00 x00 x80 xbf x00 x00 x80 xbf)
(L (W x00 x00 x80 xbf x9a x99 x99 x3f))
(L (W x00 x00 x80 xbf x00 x00 x80 xbf))))))
(T (W x90 x17 x00 x00 x54 x17 x00 x00)
(T (W x88 x03 x00 x00 x00 x00 x80 xbf)
(T (W x00 x00 x80 xbf x00 x00 x80 xbf)
(T (W x01 x00 x00 x00 x00 x00 x80 xbf)
(T (W x00 x00 x80 xbf x00 x00 x80 xbf)
(L (W x00 x00 x80 xbf x10 xf5 xff xff)) E)
(L (W x00 x00 x80 xbf x00 x00 xc0 x3f)))
(T (W x00 x00 x80 xbf x00 x00 x80 xbf)
(T (W x00 x00 x80 xbf x00 x00 x80 xbf)
(L (W x00 x00 x00 x3f x10 xfd xff xff)) E)
(L (W x00 x00 x80 xbf x00 x00 x80 xbf))))
(T (W xed x01 x00 x00 x12 x00 x00 x00)
(T (W x00 x00 x80 xbf x00 x00 x80 xbf)
(T (W x00 x00 x80 xbf x00 x00 x80 xbf)
(L (W x00 x00 x80 xbf x00 x00 x80 xbf)) E)
(L (W x00 x00 xc0 x3f x10 xe9 xff xff)))
(T (W xc3 x01 x00 x00 x00 x00 x80 xbf)
(L (W x0c xe1 xff xff x86 x01 x00 x00))
(L (W x00 x00 x80 xbf x00 x00 x80 xbf)))))
(T (W x00 x00 x80 xbf x00 x00 x80 xbf)
(T (W x00 x00 x80 xbf x00 x00 x80 xbf)
(T (W x00 x00 x80 xbf x00 x00 x80 xbf)
(T (W x00 x00 x80 xbf x94 xd7 xff xff)
(L (W x70 x00 x00 x00 x00 x00 x80 xbf)) E)
(L (W x00 x00 x80 xbf x00 x00 x80 xbf)))
(T (W x00 x00 xc0 x3f x10 xcf xff xff)
(T (W x00 x00 x80 xbf x00 x00 x80 xbf)
(L (W x00 x00 xc0 x3f x00 x00 x80 xbf)) E)
(L (W x00 x00 x80 xbf x00 x00 x80 xbf))))
(T (W x00 x00 x80 xbf x00 x00 x80 xbf)
(T (W x00 x00 x80 xbf x00 x00 x80 xbf)
(T (W x00 x00 x80 xbf x00 x00 x80 xbf)
(L (W x00 x00 x80 xbf x10 xfb xff xff)) E)
(L (W x00 x00 x80 xbf x00 x00 x80 xbf)))
(T (W xbc x01 x00 x00 x00 x00 x80 xbf)
(L (W x00 x00 x80 xbf x00 x00 x80 xbf))
(L (W x00 x00 x80 xbf x00 x00 x80 xbf))))))))
(T (W xfc x40 x00 x00 xc0 x40 x00 x00)
(T (W x94 x39 x00 x00 x54 x39 x00 x00)
(T (W x60 x2a x00 x00 x24 x2a x00 x00)
(T (W x0c x0c x00 x00 xcc x0b x00 x00)
(T (W x10 xbd xff xff xc9 x02 x00 x00)
(T (W x00 x00 x80 xbf x00 x00 x80 xbf)
(T (W x00 x00 x80 xbf x00 x00 x80 xbf)
(L (W x00 x00 x80 xbf x00 x00 x80 xbf)) E)
(L (W xcc xe3 xff xff x53 x01 x00 x00)))
(T (W x00 x00 x80 xbf x00 x00 x80 xbf)
(T (W x02 x00 x00 x00 x00 x00 x80 xbf)
(L (W x00 x00 x80 xbf x00 x00 x80 xbf)) E)
(L (W x10 xed xff xff xc9 x00 x00 x00))))
(T (W x00 x00 x80 xbf x00 x00 x80 xbf)
(T (W x10 xc9 xff xff xe4 x01 x00 x00)
(T (W x00 x00 x80 xbf x00 x00 x80 xbf)
(L (W x00 x00 x80 xbf x00 x00 x80 xbf)) E)
(L (W x00 x00 x80 xbf x00 x00 x80 xbf)))
(T (W x00 x00 x80 xbf x00 x00 x80 xbf)
(T (W x00 x00 x80 xbf x00 x00 x80 xbf)
(L (W x1a x00 x00 x00 x00 x00 x80 xbf)) E)
(L (W xc9 x00 x00 x00 x04 x00 x00 x00)))))
(T (W x00 x00 x80 xbf x00 x00 x80 xbf)
(T (W x00 x00 x80 xbf x00 x00 x80 xbf)
(T (W x00 x00 x80 xbf xd0 xc5 xff xff)
(T (W x00 x00 x80 xbf x00 x00 x80 xbf)
(L (W x00 x00 x80 xbf x9a x99 x99 x3f)) E)
(L (W x0a x01 x00 x00 x00 x00 x80 xbf)))
(T (W x00 x00 x80 xbf x00 x00 x80 xbf)
(T (W x00 x00 x80 xbf x00 x00 x80 xbf)
(L (W x00 x00 x80 xbf x9a x99 x99 x3f)) E)
(L (W x00 x00 x80 xbf x00 x00 x80 xbf))))
(T (W x00 x00 x80 xbf x00 x00 x80 xbf)
(T (W x00 x00 x80 xbf x00 x00 x80 xbf)
(T (W x00 x00 x80 xbf x00 x00 x80 xbf)
(L (W x1a x00 x00 x00 x4e x00 x00 x00)) E)
(L (W x00 x00 x80 xbf x00 x00 x80 xbf)))
(T (W x00 x00 x80 xbf x00 x00 x80 xbf)
(L (W x9a x99 x99 x3f x00 x00 x80 xbf))
(L (W x00 x00 x80 xbf x00 x00 x80 xbf))))))
(T (W x58 x1b x00 x00 x1c x1b x00 x00)
(T (W x00 x00 x80 xbf xd0 xb8 xff xff)
(T (W x00 x00 x80 xbf x00 x00 x80 xbf)
(T (W xed x01 x00 x00 x02 x00 x00 x00)
(T (W x00 x00 x80 xbf x00 x00 x80 xbf)
(L (W x00 x00 x80 xbf x00 x00 xc0 x3f)) E)
(L (W x00 x00 x80 xbf x00 x00 x80 xbf)))
(T (W x00 x00 x80 xbf x00 x00 x80 xbf)
(T (W x00 x00 x80 xbf x00 x00 x80 xbf)
(L (W x00 x00 x00 x3f x00 x00 x00 x3f)) E)
(L (W x00 x00 x80 xbf x00 x00 x80 xbf))))
(T (W x00 x00 x80 xbf xd0 xc0 xff xff)
(T (W x00 x00 x80 xbf x00 x00 x80 xbf)
(T (W x08 x00 x0c x00 x10 x00 x14 x00)
(L (W x5d x00 x00 x00 x00 x00 x80 xbf)) E)
(L (W x00 x00 x80 xbf x00 x00 x80 xbf)))
(T (W x00 x00 x80 xbf xd0 xd0 xff xff)
(L (W x00 x00 x00 x3f x00 x00 x00 x3f))
(L (W x00 x00 x80 xbf x00 x00 x80 xbf)))))
(T (W x00 x00 x80 xbf x20 x00 x30 x00)
(T (W x00 x00 x80 xbf x00 x00 x80 xbf)
(T (W x00 x00 x80 xbf x00 x00 x80 xbf)
(T (W x00 x00 x80 xbf x00 x00 x80 xbf)
(L (W x00 x00 x00 x3f xd0 xf6 xff xff)) E)
(L (W x00 x00 x80 xbf x00 x00 x80 xbf)))
(T (W x00 x00 x80 xbf x00 x00 xc0 x3f)
(T (W x00 x00 x80 xbf x00 x00 x80 xbf)
(L (W x1c x00 x20 x00 x24 x00 x28 x00)) E)
(L (W x00 x00 x80 xbf x00 x00 x80 xbf))))
(T (W x00 x00 x80 xbf x00 x00 x80 xbf)
(T (W xcd xcc x4c x3f x00 x00 x80 xbf)
(T (W x00 x00 x80 xbf x00 x00 x80 xbf)
(L (W x00 x00 x80 xbf x00 x00 x80 xbf)) E)
(L (W x00 x00 x80 xbf x00 x00 x80 xbf)))
(T (W x00 x00 x80 xbf xd0 xd2 xff xff)
(L (W xcc xe2 xff xff x69 x01 x00 x00))
(L (W x00 x00 x80 xbf x54 xf3 xff xff)))))))
(T (W xc8 x31 x00 x00 x8c x31 x00 x00)
(T (W xc8 x22 x00 x00 x94 x22 x00 x00)
(T (W x30 x04 x00 x00 xf0 x03 x00 x00)
(T (W x00 x00 x80 xbf x00 x00 x80 xbf)
(T (W x00 x00 x80 xbf x94 xc5 xff xff)
(T (W x4c xd4 xff xff xb6 x01 x00 x00)
(L (W x00 x00 x80 xbf x00 x00 x80 xbf)) E)
(L (W x00 x00 x80 xbf x00 x00 x80 xbf)))
(T (W x00 x00 x80 xbf x00 x00 x80 xbf)
(T (W x00 x00 x80 xbf x00 x00 x80 xbf)
(L (W x00 x00 x80 xbf x00 x00 x80 xbf)) E)
(L (W x13 x00 x00 x00 x00 x00 x80 xbf))))
(T (W x00 x00 x80 xbf x00 x00 x80 xbf)
(T (W x00 x00 x80 xbf x00 x00 x80 xbf)
(T (W x00 x00 x80 xbf xf8 xde xff xff)
(L (W x00 x00 x80 xbf x00 x00 x80 xbf)) E)
(L (W x00 x00 x80 xbf x9a x99 x99 x3f)))
(T (W x00 x00 x80 xbf x00 x00 x80 xbf)
(T (W x00 x00 x80 xbf x00 x00 x80 xbf)
(L (W x00 x00 x80 xbf x00 x00 x80 xbf)) E)
(L (W x00 x00 x80 xbf x00 x00 x80 xbf)))))
(T (W x00 x00 x80 xbf x00 x00 x80 xbf)
(T (W x4c xbe xff xff x81 x02 x00 x00)
(T (W x00 x00 x80 xbf x00 x00 x80 xbf)
(T (W x00 x00 x80 xbf x00 x00 x80 xbf)
(L (W x00 x00 x80 xbf x00 x00 x80 xbf)) E)
(L (W x00 x00 x80 xbf x00 x00 x80 xbf)))
(T (W x00 x00 x80 xbf x00 x00 x80 xbf)
(T (W x00 x00 x80 xbf x00 x00 x80 xbf)
(L (W x26 x00 x00 x00 x01 x00 x00 x00)) E)
(L (W x00 x00 x80 xbf x00 x00 x80 xbf))))
(T (W x00 x00 x80 xbf x00 x00 x80 xbf)
(T (W x90 xcb xff xff xdf x01 x00 x00)
(T (W x00 x00 x80 xbf x00 x00 x80 xbf)
(L (W x00 x00 x80 xbf x00 x00 x80 xbf)) E)
(L (W x00 x00 x80 xbf x00 x00 x80 xbf)))
(T (W x00 x00 x80 xbf x00 x00 x80 xbf)
(L (W x00 x00 x00 x3f x00 x00 x80 xbf))
(L (W x00 x00 x80 xbf x00 x00 x80 xbf))))))
(T (W xcc x13 x00 x00 x9c x13 x00 x00)
(T (W x00 x00 x80 xbf x00 x00 x80 xbf)
(T (W x00 x00 x80 xbf x00 x00 x80 xbf)
(T (W x00 x00 x80 xbf x00 x00 x80 xbf)
(T (W x00 x00 x80 xbf x00 x00 x80 xbf)
(L (W x82 x00 x00 x00 x00 x00 x80 xbf)) E)
(L (W x0c x01 x00 x00 x00 x00 x80 xbf)))
(T (W x4c xcd xff xff xd3 x01 x00 x00)
(T (W x00 x00 x80 xbf x00 x00 x80 xbf)
(L (W x36 x00 x00 x00 x00 x00 x80 xbf)) E)
(L (W x00 x00 x80 xbf x00 x00 x80 xbf))))
(T (W x11 x00 x00 x00 x00 x00 x80 xbf)
(T (W x00 x00 x80 xbf x00 x00 x80 xbf)
(T (W x4c xd9 xff xff xa3 x01 x00 x00)
(L (W x00 x00 x80 xbf x00 x00 x80 xbf)) E)
(L (W xd6 x00 x00 x00 x00 x00 x80 xbf)))
(T (W x00 x00 x80 xbf x00 x00 x80 xbf)
(L (W x00 x00 x80 xbf x00 x00 x80 xbf))
(L (W xc5 x00 x00 x00 x00 x00 x00 x3f)))))
(T (W x00 x00 x80 xbf x00 x00 x80 xbf)
(T (W x00 x00 x80 xbf x00 x00 x80 xbf)
(T (W x00 x00 x80 xbf x00 x00 x80 xbf)
(T (W x00 x00 x80 xbf x00 x00 x80 xbf)
(L (W x00 x00 x80 xbf x00 x00 x80 xbf)) E)
(L (W x4c xe7 xff xff xe2 x00 x00 x00)))
(T (W xcb x01 x00 x00 x00 x00 x80 xbf)
(T (W x4c xdf xff xff x8e x01 x00 x00)
(L (W x00 x00 x00 x3f xd4 xff xff xff)) E)
(L (W x00 x00 x80 xbf x94 xf0 xff xff))))
(T (W x00 x00 x80 xbf x00 x00 x80 xbf)
(T (W x00 x00 x80 xbf x94 xcc xff xff)
(T (W x00 x00 x80 xbf x94 xdc xff xff)
(L (W x44 x00 x00 x00 x00 x00 x80 xbf)) E)
(L (W x00 x00 x80 xbf x00 x00 x80 xbf)))
(T (W x00 x00 x80 xbf x00 x00 x80 xbf)
(L (W x00 x00 x80 xbf x00 x00 x80 xbf))
(L (W x1c x00 x20 x00 x24 x00 x28 x00))))))))))
(T (W x7c x4b x00 x00 x3c x4b x00 x00)
(T (W x8c x49 x00 x00 x50 x49 x00 x00)
(T (W xd0 x45 x00 x00 x78 x45 x00 x00)
(T (W x54 x3e x00 x00 x18 x3e x00 x00)
(T (W xf8 x2e x00 x00 xbc x2e x00 x00)
(T (W x00 x11 x00 x00 xc0 x10 x00 x00)
(T (W x00 x00 x80 xbf x00 x00 x80 xbf)
(T (W x00 x00 x80 xbf x00 x00 x80 xbf)
(T (W xba x01 x00 x00 x00 x00 x80 xbf)
(L (W x00 x00 x80 xbf x00 x00 x1a x00)) E)
(L (W x00 x00 x80 xbf x00 x00 x80 xbf)))
(T (W x00 x00 x80 xbf x00 x00 x80 xbf)
(T (W x00 x00 x80 xbf x00 x00 x80 xbf)
(L (W x00 x00 x80 xbf x80 xfb xff xff)) E)
(L (W x00 x00 x80 xbf x00 x00 x80 xbf))))
(T (W x00 x00 x80 xbf x00 x00 x80 xbf)
(T (W x00 x00 x80 xbf x00 x00 x80 xbf)
(T (W x00 x00 x80 xbf x00 x00 x80 xbf)
(L (W x6c x00 x00 x00 x00 x00 x80 xbf)) E)
(L (W x00 x00 x80 xbf x00 x00 x80 xbf)))
(T (W x00 x00 xc0 x3f x80 xcf xff xff)
(T (W x00 x00 x80 xbf x00 x00 x80 xbf)
(L (W x20 x00 x2c x00 x04 x00 x00 x00)) E)
(L (W x00 x00 x80 xbf x00 x00 x80 xbf)))))
(T (W x86 x03 x00 x00 x01 x00 x00 x00)
(T (W x00 x00 x80 xbf x00 x00 x80 xbf)
(T (W x04 x00 x08 x00 x0c x00 x10 x00)
(T (W x00 x00 x80 xbf x00 x00 x80 xbf)
(L (W x00 x00 x80 xbf x80 xf5 xff xff)) E)
(L (W x00 x00 x80 xbf x00 x00 x80 xbf)))
(T (W x00 x00 x00 x3f x00 x00 x00 x3f)
(T (W x00 x00 x80 xbf x00 x00 x80 xbf)
(L (W x00 x00 x80 xbf x80 xfd xff xff)) E)
(L (W x00 x00 x80 xbf x00 x00 x80 xbf))))
(T (W x00 x00 x80 xbf xc4 xc2 xff xff)
(T (W x00 x00 x80 xbf x00 x00 x80 xbf)
(T (W x00 x00 xc0 x3f x00 x00 x80 xbf)
(L (W x51 x00 x00 x00 x00 x00 x80 xbf)) E)
(L (W x00 x00 x80 xbf x80 xe9 xff xff)))
(T (W xc1 x01 x00 x00 x00 x00 x80 xbf)
(L (W x7c xe1 xff xff x84 x01 x00 x00))
(L (W x00 x00 x80 xbf x80 xf1 xff xff))))))
(T (W xe8 x1f x00 x00 xb8 x1f x00 x00)
(T (W x38 x01 x00 x00 xf8 x00 x00 x00)
(T (W xc0 xbd xff xff xc1 x02 x00 x00)
(T (W x00 x00 x80 xbf x00 x00 x80 xbf)
(T (W x00 x00 x80 xbf x00 x00 x80 xbf)
(L (W x8a xfa xff xff x88 x00 x00 x00)) E)
(L (W x00 x00 x80 xbf x00 x00 x80 xbf)))
(T (W x00 x00 x80 xbf x00 x00 x80 xbf)
(T (W x00 x00 x80 xbf x00 x00 x80 xbf)
(L (W x00 x00 x80 xbf x00 x00 x80 xbf)) E)
(L (W x00 x00 x80 xbf xc4 xed xff xff))))
(T (W x00 x00 x80 xbf x00 x00 x80 xbf)
(T (W x7c xc8 xff xff xe3 x01 x00 x00)
(T (W x00 x00 x80 xbf x00 x00 x80 xbf)
(L (W x00 x00 x80 xbf x00 x00 x80 xbf)) E)
(L (W x00 x00 x80 xbf x00 x00 x80 xbf)))
(T (W x00 x00 x80 xbf x00 x00 x80 xbf)
(L (W x00 x00 x80 xbf x00 x00 x80 xbf))
(L (W xc0 xf1 xff xff xc9 x00 x00 x00)))))
(T (W x00 x00 x80 xbf x00 x00 x80 xbf)
(T (W x00 x00 x80 xbf x00 x00 x80 xbf)
(T (W xe9 x01 x00 x00 x00 x00 x80 xbf)
(T (W x00 x00 x80 xbf x00 x00 x80 xbf)
(L (W x00 x00 x80 xbf x00 x00 x80 xbf)) E)
(L (W x00 x00 x80 xbf x00 x00 x80 xbf)))
(T (W x00 x00 x80 xbf x00 x00 x80 xbf)
(T (W x00 x00 x80 xbf x9a x99 x99 x3f)
(L (W x00 x00 x80 xbf x00 x00 xc0 x3f)) E)
(L (W x00 x00 x80 xbf x00 x00 x80 xbf))))
(T (W x00 x00 x80 xbf x00 x00 x80 xbf)
(T (W x00 x00 x80 xbf x00 x00 x80 xbf)
(T (W x00 x00 x80 xbf x00 x00 x80 xbf)
(L (W x00 x00 x80 xbf x00 x00 x80 xbf)) E)
(L (W x00 x00 x80 xbf x00 x00 x80 xbf)))
(T (W x00 x00 x80 xbf x00 x00 x80 xbf)
(L (W x00 x00 x80 xbf x9a x99 x99 x3f))
(L (W x00 x00 x80 xbf x00 x00 x80 xbf)))))))
(T (W x94 x36 x00 x00 x54 x36 x00 x00)
(T (W x90 x27 x00 x00 x54 x27 x00 x00)
(T (W x0c x09 x00 x00 xd0 x08 x00 x00)
(T (W x00 x00 x80 xbf x00 x00 x80 xbf)
(T (W x00 x00 x80 xbf x00 x00 x80 xbf)
(T (W x00 x00 x80 xbf x00 x00 x80 xbf)
(L (W x00 x00 x80 xbf x9a x99 x99 x3f)) E)
(L (W x00 x00 x80 xbf x00 x00 x80 xbf)))
(T (W xfc xcb xff xff xd9 x01 x00 x00)
(T (W x00 x00 x80 xbf x44 xdd xff xff)
(L (W x00 x00 x80 xbf x00 x00 x80 xbf)) E)
(L (W x00 x00 x80 xbf x00 x00 x80 xbf))))
(T (W x00 x00 x80 xbf x00 x00 x80 xbf)
(T (W x00 x00 x80 xbf x00 x00 x80 xbf)
(T (W x00 x00 x80 xbf x00 x00 x80 xbf)
(L (W x00 x00 x80 xbf x00 x00 x80 xbf)) E)
(L (W x00 x00 x80 xbf x00 x00 x80 xbf)))
(T (W x00 x00 x80 xbf x00 x00 x80 xbf)
(T (W x00 x00 x80 xbf x00 x00 x80 xbf)
(L (W x00 x00 x80 xbf x20 x00 x38 x00)) E)
(L (W x00 x00 x80 xbf x00 x00 x80 xbf)))))
(T (W x00 x00 x80 xbf x00 x00 x80 xbf)
(T (W x00 x00 x80 xbf x00 x00 x80 xbf)
(T (W x00 x00 x80 xbf x00 x00 x80 xbf)
(T (W x00 x00 x80 xbf x00 x00 x80 xbf)
(L (W x00 x00 x80 xbf x00 x00 x80 xbf)) E)
(L (W xfc xe5 xff xff x09 x01 x00 x00)))
(T (W x00 x00 x80 xbf x00 x00 x80 xbf)
(T (W xfc xdd xff xff x94 x01 x00 x00)
(L (W x00 x00 x80 xbf x00 x00 x80 xbf)) E)
(L (W x00 x00 x80 xbf x00 x00 x80 xbf))))
(T (W xed x01 x00 x00 x0e x00 x00 x00)
(T (W x00 x00 x80 xbf x00 x00 x80 xbf)
(T (W x00 x00 x80 xbf x00 x00 x80 xbf)
(L (W x0c x00 x10 x00 x14 x00 x18 x00)) E)
(L (W x00 x00 x80 xbf x00 x00 x80 xbf)))
(T (W x00 x00 x80 xbf x00 x00 x80 xbf)
(L (W x00 x00 x80 xbf x00 x00 x80 xbf))
(L (W x00 x00 x80 xbf x00 x00 x80 xbf))))))
(T (W x84 x18 x00 x00 x48 x18 x00 x00)
(T (W x00 x00 x80 xbf x00 x00 x80 xbf)
(T (W x00 x00 x80 xbf x00 x00 x80 xbf)
(T (W x00 x00 x80 xbf x00 x00 x80 xbf)
(T (W x00 x00 x80 xbf x00 x00 x80 xbf)
(L (W x00 x00 x80 xbf x00 x00 x00 x3f)) E)
(L (W x00 x00 x80 xbf x00 x00 x80 xbf)))
(T (W x00 x00 x80 xbf x00 x00 x80 xbf)
(T (W x00 x00 x80 xbf x00 x00 x80 xbf)
(L (W x00 x00 x00 x3f x00 x00 xc0 x3f)) E)
(L (W xc9 x00 x00 x00 x10 x00 x00 x00))))
(T (W x00 x00 x80 xbf x00 x00 x80 xbf)
(T (W x00 x00 x80 xbf x00 x00 x80 xbf)
(T (W x00 x00 x80 xbf x00 x00 x80 xbf)
(L (W x00 x00 x80 xbf x00 x00 x80 xbf)) E)
(L (W x9a x99 x99 x3f x00 x00 x00 x3f)))
(T (W x00 x00 x80 xbf x00 x00 x80 xbf)
(L (W x00 x00 xc0 x3f x00 x00 x00 x3f))
(L (W x00 x00 x80 xbf x00 x00 x80 xbf)))))
(T (W x00 x00 x80 xbf x00 x00 x80 xbf)
(T (W x3b x02 x00 x00 x01 x00 x00 x00)
(T (W x00 x00 x80 xbf x00 x00 x80 xbf)
(T (W x00 x00 x80 xbf x00 x00 x80 xbf)
(L (W x00 x00 x80 xbf x00 x00 x80 xbf)) E)
(L (W x00 x00 x80 xbf x00 x00 x80 xbf)))
(T (W x9a x99 x99 x3f x00 x00 x00 x3f)
(T (W x9a x99 x99 x3f x00 x00 x80 xbf)
(L (W x00 x00 x80 xbf x00 x00 x80 xbf)) E)
(L (W x00 x00 x80 xbf x00 x00 x80 xbf))))
(T (W x00 x00 x80 xbf x00 x00 x80 xbf)
(T (W x00 x00 x80 xbf x00 x00 x80 xbf)
(T (W x00 x00 x80 xbf x00 x00 x80 xbf)
(L (W x00 x00 x80 xbf x00 x00 x80 xbf)) E)
(L (W x00 x00 x80 xbf x00 x00 x80 xbf)))
(T (W x00 x00 x80 xbf x00 x00 x80 xbf)
(L (W x00 x00 x80 xbf x00 x00 xc0 x3f))
(L (W xfc xf2 xff xff xac x00 x00 x00))))))))
(T (W xec x41 x00 x00 xb0 x41 x00 x00)
(T (W x94 x3a x00 x00 x54 x3a x00 x00)
(T (W x50 x2b x00 x00 x14 x2b x00 x00)
(T (W x0c x0d x00 x00 xcc x0c x00 x00)
(T (W x00 x00 x80 xbf x00 x00 x80 xbf)
(T (W x00 x00 x80 xbf x00 x00 x80 xbf)
(T (W x00 x00 x80 xbf x00 x00 x80 xbf)
(L (W x00 x00 x00 x3f x00 x00 xc0 x3f)) E)
(L (W x00 x00 x80 xbf x00 x00 x80 xbf)))
(T (W x00 x00 x80 xbf x00 x00 x80 xbf)
(T (W x00 x00 x80 xbf x00 x00 x80 xbf)
(L (W x42 x00 x00 x00 x00 x00 x80 xbf)) E)
(L (W x00 x00 x80 xbf x00 x00 x80 xbf))))
(T (W x00 x00 x80 xbf x00 x00 x80 xbf)
(T (W x00 x00 x80 xbf x00 x00 x80 xbf)
(T (W x00 x00 x80 xbf x00 x00 x80 xbf)
(L (W x00 x00 x80 xbf x00 x00 x80 xbf)) E)
(L (W xbc xe7 xff xff xdf x00 x00 x00)))
(T (W xc9 x01 x00 x00 x00 x00 x80 xbf)
(T (W xbc xdf xff xff x8c x01 x00 x00)
(L (W x00 x00 x80 xbf x00 x00 x80 xbf)) E)
(L (W x00 x00 x80 xbf x00 x00 x80 xbf)))))
(T (W x00 x00 x80 xbf x00 x00 x80 xbf)
(T (W x00 x00 x80 xbf x00 x00 x80 xbf)
(T (W x00 x00 x80 xbf x00 x00 x80 xbf)
(T (W x00 x00 x80 xbf x00 x00 x80 xbf)
(L (W x7e x00 x00 x00 x00 x00 x80 xbf)) E)
(L (W x1c x00 x20 x00 x24 x00 x28 x00)))
(T (W xbc xcd xff xff xd1 x01 x00 x00)
(T (W x00 x00 x80 xbf x00 x00 x00 x3f)
(L (W x2e x00 x00 x00 x00 x00 x80 xbf)) E)
(L (W x00 x00 x80 xbf x00 x00 x80 xbf))))
(T (W x00 xc3 xff xff xed x01 x00 x00)
(T (W x00 x00 x80 xbf x00 x00 x80 xbf)
(T (W xbc xd9 xff xff xa1 x01 x00 x00)
(L (W x0c x00 x10 x00 x14 x00 x18 x00)) E)
(L (W xd3 x00 x00 x00 x01 x00 x00 x00)))
(T (W x00 x00 x80 xbf x00 x00 x80 xbf)
(L (W x00 x00 x80 xbf x00 x00 x80 xbf))
(L (W xc1 x00 x00 x00 x00 x00 x80 xbf))))))
(T (W x4c x1c x00 x00 x10 x1c x00 x00)
(T (W x00 x00 x80 xbf x00 x00 x80 xbf)
(T (W xc0 x02 x00 x00 x00 x00 x80 xbf)
(T (W x00 x00 x80 xbf x00 x00 x80 xbf)
(T (W xbc xd4 xff xff xb4 x01 x00 x00)
(L (W x00 x00 x80 xbf x00 x00 x80 xbf)) E)
(L (W x00 x00 x80 xbf x00 x00 x80 xbf)))
(T (W x9a x99 x99 x3f x00 x00 x80 xbf)
(T (W x00 x00 x80 xbf x00 x00 x80 xbf)
(L (W x00 x00 x00 x3f x00 x00 x00 x3f)) E)
(L (W x00 xee xff xff xc9 x00 x00 x00))))
(T (W x00 x00 x80 xbf x00 x00 x80 xbf)
(T (W x00 x00 x80 xbf x00 x00 x80 xbf)
(T (W x00 x00 x80 xbf x00 x00 x80 xbf)
(L (W x00 x00 x80 xbf x00 x00 x80 xbf)) E)
(L (W x00 x00 x80 xbf x00 x00 x80 xbf)))
(T (W x00 x00 x80 xbf x00 x00 x80 xbf)
(L (W x00 x00 x00 x3f x00 x00 x00 x3f))
(L (W xc9 x00 x00 x00 x00 x00 x80 xbf)))))
(T (W x00 x00 x80 xbf x00 x00 x80 xbf)
(T (W x00 x00 x80 xbf xc0 xbe xff xff)
(T (W x00 x00 x80 xbf x00 x00 x80 xbf)
(T (W x00 x00 x80 xbf x00 x00 x80 xbf)
(L (W xcd xcc x4c x3f x00 x00 x80 xbf)) E)
(L (W x00 x00 x80 xbf x00 x00 x80 xbf)))
(T (W x00 x00 x80 xbf x9a x99 x99 x3f)
(T (W x00 x00 x80 xbf x00 x00 x80 xbf)
(L (W x20 x00 x3c x00 x04 x00 x08 x00)) E)
(L (W x00 x00 x80 xbf x00 x00 x80 xbf))))
(T (W x00 x00 x80 xbf x00 x00 x80 xbf)
(T (W x00 x00 x80 xbf x44 xcb xff xff)
(T (W x00 x00 x80 xbf x00 x00 x80 xbf)
(L (W x00 x00 x80 xbf x00 x00 x80 xbf)) E)
(L (W x00 x00 x80 xbf x00 x00 x80 xbf)))
(T (W x00 x00 x80 xbf x00 x00 x80 xbf)
(L (W x00 x00 x00 x3f x00 x00 x80 xbf))
(L (W x00 x00 x80 xbf x00 x00 x80 xbf)))))))
(T (W xb8 x32 x00 x00 x7c x32 x00 x00)
(T (W xb8 x23 x00 x00 x7c x23 x00 x00)
(T (W x28 x05 x00 x00 xe8 x04 x00 x00)
(T (W x00 x00 xc0 x3f x84 xbd xff xff)
(T (W x00 x00 x80 xbf x00 x00 x80 xbf)
(T (W x00 x00 x80 xbf x00 x00 x80 xbf)
(L (W x00 x00 x80 xbf x00 x00 x80 xbf)) E)
(L (W x3c xe4 xff xff x2b x01 x00 x00)))
(T (W x00 x00 x80 xbf x00 x00 x80 xbf)
(T (W x3c xdc xff xff x9c x01 x00 x00)
(L (W x00 x00 x80 xbf x00 x00 x80 xbf)) E)
(L (W x00 x00 x80 xbf x00 x00 x80 xbf))))
(T (W x9a x99 x99 x3f x00 x00 x80 xbf)
(T (W x00 x00 x80 xbf x84 xc9 xff xff)
(T (W x00 x00 x80 xbf x00 x00 x80 xbf)
(L (W x00 x00 x80 xbf x00 x00 x80 xbf)) E)
(L (W x00 x00 x80 xbf x00 x00 x80 xbf)))
(T (W x00 x00 x80 xbf x9a x99 x99 x3f)
(T (W x00 x00 x80 xbf x00 x00 x80 xbf)
(L (W x00 x00 x80 xbf x00 x00 x80 xbf)) E)
(L (W x00 x00 x80 xbf x84 xf1 xff xff)))))
(T (W x00 x00 x80 xbf x00 x00 x80 xbf)
(T (W x00 x00 x80 xbf x00 x00 x80 xbf)
(T (W x00 x00 x80 xbf x40 xc6 xff xff)
(T (W xad x01 x00 x00 x00 x00 x80 xbf)
(L (W x00 x00 x80 xbf x00 x00 x80 xbf)) E)
(L (W x00 x00 x80 xbf x00 x00 x80 xbf)))
(T (W x00 x00 x80 xbf x00 x00 x80 xbf)
(T (W x00 x00 x80 xbf x00 x00 x80 xbf)
(L (W x00 x00 x80 xbf x00 x00 x80 xbf)) E)
(L (W x00 x00 x80 xbf x00 x00 x80 xbf))))
(T (W x0d x00 x00 x00 x00 x00 x80 xbf)
(T (W x00 x00 x80 xbf x00 x00 x80 xbf)
(T (W x00 x00 x80 xbf x00 x00 x00 x3f)
(L (W x00 x00 x80 xbf x00 x00 x80 xbf)) E)
(L (W x00 x00 x80 xbf x00 x00 x80 xbf)))
(T (W x00 x00 x80 xbf x00 x00 x80 xbf)
(L (W xcd xcc x4c x3f x00 x00 x80 xbf))
(L (W x00 x00 x80 xbf x00 x00 x80 xbf))))))
(T (W xc0 x14 x00 x00 x84 x14 x00 x00)
(T (W x00 x00 x80 xbf x40 xb9 xff xff)
(T (W x00 x00 x80 xbf x00 x00 x80 xbf)
(T (W x00 x00 x80 xbf x40 xc5 xff xff)
(T (W x00 x00 x80 xbf x00 x00 x80 xbf)
(L (W x00 x00 x80 xbf x00 x00 x80 xbf)) E)
(L (W x00 x00 x80 xbf x00 x00 x80 xbf)))
(T (W x00 x00 x80 xbf x00 x00 x80 xbf)
(T (W x00 x00 x80 xbf x00 x00 x80 xbf)
(L (W x00 x00 x80 xbf x00 x00 xc0 x3f)) E)
(L (W x0f x00 x00 x00 x00 x00 x80 xbf))))
(T (W x00 x00 x80 xbf x00 x00 x80 xbf)
(T (W x00 x00 x80 xbf x00 x00 x80 xbf)
(T (W x00 x00 x80 xbf x00 x00 x80 xbf)
(L (W x00 x00 x80 xbf x00 x00 x80 xbf)) E)
(L (W x00 x00 x80 xbf x00 x00 x80 xbf)))
(T (W x00 x00 x80 xbf x40 xd1 xff xff)
(L (W x00 x00 x00 x3f x00 x00 x00 x3f))
(L (W x00 x00 x80 xbf x00 x00 x80 xbf)))))
(T (W x00 x00 x80 xbf x00 x00 x80 xbf)
(T (W x01 x00 x00 x00 x00 x00 x80 xbf)
(T (W x00 x00 x80 xbf x00 x00 x80 xbf)
(T (W xc0 xd7 xff xff xa9 x01 x00 x00)
(L (W x00 x00 x80 xbf x40 xf7 xff xff)) E)
(L (W x00 x00 x80 xbf x00 x00 x80 xbf)))
(T (W x00 x00 x80 xbf x00 x00 x80 xbf)
(T (W x00 x00 x80 xbf x00 x00 x80 xbf)
(L (W x00 x00 x00 x3f x00 x00 xc0 x3f)) E)
(L (W x00 x00 x80 xbf x00 x00 x80 xbf))))
(T (W x00 x00 x80 xbf x00 x00 x80 xbf)
(T (W x00 x00 x80 xbf x00 x00 x80 xbf)
(T (W x00 x00 x80 xbf x00 x00 x80 xbf)
(L (W x00 x00 x80 xbf x00 x00 xc0 x3f)) E)
(L (W x00 x00 x80 xbf x00 x00 x80 xbf)))
(T (W x00 x00 x80 xbf x40 xd3 xff xff)
(L (W xc0 xe3 xff xff x64 x01 x00 x00))
(L (W x00 x00 x00 x00 x00 x00 x08 x00)))))))))
(T (W xa4 x47 x00 x00 x68 x47 x00 x00)
(T (W xd0 x43 x00 x00 x90 x43 x00 x00)
(T (W x80 x3c x00 x00 x50 x3c x00 x00)
(T (W x30 x2d x00 x00 xf4 x2c x00 x00)
(T (W x14 x0f x00 x00 xd8 x0e x00 x00)
(T (W x00 x00 x80 xbf x00 x00 x80 xbf)
(T (W xe0 xc4 xff xff xed x01 x00 x00)
(T (W x00 x00 x80 xbf x00 x00 x80 xbf)
(L (W x1a x00 x00 x00 x9d x00 x00 x00)) E)
(L (W x00 x00 x80 xbf x00 x00 x80 xbf)))
(T (W x00 x00 x80 xbf x00 x00 x80 xbf)
(T (W x00 x00 x80 xbf x00 x00 x80 xbf)
(L (W x00 x00 x80 xbf x00 x00 x80 xbf)) E)
(L (W x00 x00 x80 xbf x00 x00 x80 xbf))))
(T (W x00 x00 x80 xbf x00 x00 x80 xbf)
(T (W x00 x00 x80 xbf x00 x00 x80 xbf)
(T (W x00 x00 x80 xbf xe4 xd8 xff xff)
(L (W x00 x00 x80 xbf x00 x00 x80 xbf)) E)
(L (W x00 x00 x80 xbf x00 x00 x80 xbf)))
(T (W x00 x00 x80 xbf x00 x00 x80 xbf)
(T (W x00 x00 x80 xbf x00 x00 x80 xbf)
(L (W x20 x00 x00 x00 x23 x00 x00 x00)) E)
(L (W x00 x00 x80 xbf x00 x00 x80 xbf)))))
(T (W x00 x00 x80 xbf x00 x00 x80 xbf)
(T (W xe0 xbe xff xff x82 x02 x00 x00)
(T (W xec x01 x00 x00 x01 x00 x00 x00)
(T (W x9c xd5 xff xff xb0 x01 x00 x00)
(L (W x00 x00 x80 xbf x9a x99 x99 x3f)) E)
(L (W x00 x00 x80 xbf x00 x00 x80 xbf)))
(T (W x00 x00 x80 xbf x00 x00 x80 xbf)
(T (W x00 x00 x80 xbf x00 x00 x80 xbf)
(L (W x00 x00 x80 xbf x00 x00 x80 xbf)) E)
(L (W x00 x00 x80 xbf x00 x00 x80 xbf))))
(T (W x00 x00 x80 xbf x00 x00 x80 xbf)
(T (W xdf x01 x00 x00 x04 x00 x00 x00)
(T (W x00 x00 x80 xbf x00 x00 x80 xbf)
(L (W x00 x00 x80 xbf x00 x00 x80 xbf)) E)
(L (W x00 x00 x80 xbf x00 x00 x80 xbf)))
(T (W x00 x00 x80 xbf x00 x00 x80 xbf)
(L (W x00 x00 x80 xbf x00 x00 x80 xbf))
(L (W x00 x00 x80 xbf x00 x00 x80 xbf))))))
(T (W x20 x1e x00 x00 xe4 x1d x00 x00)
(T (W x01 x00 x00 x00 x00 x00 x80 xbf)
(T (W x00 x00 x80 xbf x9a x99 x99 x3f)
(T (W x00 x00 x80 xbf x00 x00 x80 xbf)
(T (W x00 x00 x80 xbf x00 x00 x80 xbf)
(L (W x00 x00 xc0 x3f xa0 xf4 xff xff)) E)
(L (W x00 x00 x80 xbf x00 x00 xc0 x3f)))
(T (W x00 x00 x80 xbf x00 x00 xc0 x3f)
(T (W x00 x00 x80 xbf x00 x00 x80 xbf)
(L (W x3b x00 x00 x00 x01 x00 x00 x00)) E)
(L (W x00 x00 x80 xbf x00 x00 x80 xbf))))
(T (W xf6 x01 x00 x00 x00 x00 x80 xbf)
(T (W x00 x00 x80 xbf x00 x00 x80 xbf)
(T (W x00 x00 x00 x00 x00 x00 x1c x00)
(L (W x20 xf9 xff xff x5e x00 x00 x00)) E)
(L (W x9c xe8 xff xff xd8 x00 x00 x00)))
(T (W xc5 x01 x00 x00 x00 x00 x80 xbf)
(L (W x9c xe0 xff xff x88 x01 x00 x00))
(L (W x00 x00 x80 xbf x00 x00 x80 xbf)))))
(T (W x83 x03 x00 x00 x00 x00 x80 xbf)
(T (W x00 x00 x80 xbf x00 x00 x80 xbf)
(T (W x00 x00 x80 xbf x00 x00 x80 xbf)
(T (W x00 x00 x80 xbf xa0 xd6 xff xff)
(L (W x72 x00 x00 x00 x00 x00 x80 xbf)) E)
(L (W x00 x00 x00 x3f x00 x00 x00 x3f)))
(T (W x9c xce xff xff xcd x01 x00 x00)
(T (W x00 x00 x80 xbf x00 x00 x80 xbf)
(L (W x9a x99 x99 x3f x00 x00 x00 x3f)) E)
(L (W xe0 xef xff xff xc9 x00 x00 x00))))
(T (W x00 x00 x80 xbf x00 x00 x80 xbf)
(T (W x00 x00 x80 xbf x00 x00 x80 xbf)
(T (W x00 x00 x80 xbf xe4 xdb xff xff)
(L (W x00 x00 x80 xbf xa0 xfa xff xff)) E)
(L (W x00 x00 x80 xbf xe4 xeb xff xff)))
(T (W x01 x00 x00 x00 x00 x00 x80 xbf)
(L (W x00 x00 x80 xbf x00 x00 x80 xbf))
(L (W xaf x00 x00 x00 x00 x00 x80 xbf)))))))
(T (W x9c x34 x00 x00 x60 x34 x00 x00)
(T (W xa8 x25 x00 x00 x6c x25 x00 x00)
(T (W x18 x07 x00 x00 xd8 x06 x00 x00)
(T (W x00 x00 x80 xbf xcd xcc x4c x3f)
(T (W x05 x00 x00 x00 x00 x00 x80 xbf)
(T (W x00 x00 x80 xbf x00 x00 x80 xbf)
(L (W x00 x00 x80 xbf x00 x00 x80 xbf)) E)
(L (W x9a x99 x99 x3f x00 x00 x80 xbf)))
(T (W x00 x00 x80 xbf x9a x99 x99 x3f)
(T (W x00 x00 x80 xbf x00 x00 x80 xbf)
(L (W x00 x00 x80 xbf x00 x00 x80 xbf)) E)
(L (W x00 x00 x80 xbf x00 x00 x80 xbf))))
(T (W x00 x00 x80 xbf x00 x00 x80 xbf)
(T (W x00 x00 x80 xbf x00 x00 x80 xbf)
(T (W x01 x00 x00 x00 x00 x00 x80 xbf)
(L (W x00 x00 x80 xbf x00 x00 xc0 x3f)) E)
(L (W x00 x00 x00 x3f x00 x00 x80 xbf)))
(T (W x00 x00 x80 xbf x00 x00 x80 xbf)
(T (W x00 x00 x00 x3f x00 x00 x80 xbf)
(L (W x30 x00 x34 x00 x20 x00 x00 x00)) E)
(L (W x00 x00 x80 xbf x00 x00 x80 xbf)))))
(T (W x00 x00 x80 xbf x00 x00 x80 xbf)
(T (W x00 x00 x80 xbf x00 x00 x80 xbf)
(T (W x00 x00 x80 xbf x00 x00 x80 xbf)
(T (W x00 x00 x80 xbf x00 x00 x80 xbf)
(L (W x00 x00 x80 xbf x9a x99 x99 x3f)) E)
(L (W x00 x00 x80 xbf x00 x00 x80 xbf)))
(T (W x00 x00 x80 xbf x00 x00 x80 xbf)
(T (W x9a x99 x99 x3f x00 x00 x80 xbf)
(L (W xa0 xfe xff xff x29 x00 x00 x00)) E)
(L (W x00 x00 x80 xbf x00 x00 x80 xbf))))
(T (W x00 x00 x80 xbf x00 x00 x80 xbf)
(T (W x00 x00 x80 xbf x00 x00 x80 xbf)
(T (W x00 x00 x80 xbf x00 x00 x80 xbf)
(L (W x00 x00 x80 xbf x00 x00 x80 xbf)) E)
(L (W x00 x00 x80 xbf x00 x00 x80 xbf)))
(T (W x00 x00 x80 xbf x00 x00 x80 xbf)
(L (W x00 x00 x80 xbf x00 x00 xc0 x3f))
(L (W x00 x00 x80 xbf x00 x00 x80 xbf))))))
(T (W xa0 x16 x00 x00 x64 x16 x00 x00)
(T (W x00 x00 x80 xbf x00 x00 x80 xbf)
(T (W x00 x00 xc0 x3f x00 x00 x80 xbf)
(T (W x00 x00 x80 xbf x00 x00 x80 xbf)
(T (W x00 x00 x80 xbf x00 x00 x80 xbf)
(L (W x00 x00 x80 xbf x00 x00 x80 xbf)) E)
(L (W xa0 xe5 xff xff x0d x01 x00 x00)))
(T (W x00 x00 x80 xbf x00 x00 x80 xbf)
(T (W x1c xdd xff xff x98 x01 x00 x00)
(L (W x00 x00 x80 xbf x00 x00 x80 xbf)) E)
(L (W x00 x00 x80 xbf x00 x00 x80 xbf))))
(T (W x00 x00 x80 xbf x00 x00 x80 xbf)
(T (W x00 x00 x80 xbf x00 x00 x80 xbf)
(T (W x00 x00 x80 xbf x00 x00 x80 xbf)
(L (W x00 x00 x80 xbf x20 xf9 xff xff)) E)
(L (W x00 x00 x80 xbf x00 x00 x80 xbf)))
(T (W x00 x00 x80 xbf x00 x00 x80 xbf)
(L (W x00 x00 x80 xbf x00 x00 x80 xbf))
(L (W xa0 xf1 xff xff xc6 x00 x00 x00)))))
(T (W x00 x00 x80 xbf x20 xbb xff xff)
(T (W x00 x00 x80 xbf x00 x00 x80 xbf)
(T (W x00 x00 x80 xbf x00 x00 x80 xbf)
(T (W x00 x00 x80 xbf x00 x00 x80 xbf)
(L (W x00 x00 x80 xbf x00 x00 x80 xbf)) E)
(L (W x00 x00 x80 xbf x00 x00 x80 xbf)))
(T (W x00 x00 x80 xbf x00 x00 x80 xbf)
(T (W x00 x00 x80 xbf x00 x00 x80 xbf)
(L (W x25 x00 x00 x00 x00 x00 x80 xbf)) E)
(L (W x07 x00 x00 x00 x00 x00 x80 xbf))))
(T (W x00 x00 x80 xbf x00 x00 x80 xbf)
(T (W xdc x01 x00 x00 x00 x00 x80 xbf)
(T (W x02 x00 x00 x00 x00 x00 x80 xbf)
(L (W x00 x00 x80 xbf x00 x00 x80 xbf)) E)
(L (W xc9 x00 x00 x00 x18 x00 x00 x00)))
(T (W x00 x00 x80 xbf x00 x00 x80 xbf)
(L (W x00 x00 x80 xbf x00 x00 x80 xbf))
(L (W x00 x00 x80 xbf x00 x00 x80 xbf))))))))
(T (W x20 x40 x00 x00 xe4 x3f x00 x00)
(T (W x94 x38 x00 x00 x54 x38 x00 x00)
(T (W x70 x29 x00 x00 x34 x29 x00 x00)
(T (W x0c x0b x00 x00 xcc x0a x00 x00)
(T (W x00 x00 x80 xbf x00 x00 x80 xbf)
(T (W xed x01 x00 x00 x06 x00 x00 x00)
(T (W xdc xd3 xff xff xb8 x01 x00 x00)
(L (W x9a x99 x99 x3f x00 x00 x00 x3f)) E)
(L (W x00 x00 x80 xbf x00 x00 x80 xbf)))
(T (W x00 x00 x80 xbf x00 x00 x80 xbf)
(T (W x00 x00 x80 xbf x00 x00 x80 xbf)
(L (W x00 x00 x80 xbf x00 x00 x80 xbf)) E)
(L (W x00 x00 x80 xbf x00 x00 x80 xbf))))
(T (W x00 x00 x80 xbf x00 x00 x80 xbf)
(T (W x00 x00 x80 xbf x00 x00 x80 xbf)
(T (W xdc xd7 xff xff xa7 x01 x00 x00)
(L (W x00 x00 x80 xbf x00 x00 x80 xbf)) E)
(L (W x00 x00 x80 xbf x00 x00 x80 xbf)))
(T (W x00 x00 x80 xbf x00 x00 x80 xbf)
(T (W x00 x00 x80 xbf x00 x00 x80 xbf)
(L (W x00 x00 x80 xbf x00 x00 x80 xbf)) E)
(L (W x00 x00 x80 xbf x00 x00 x80 xbf)))))
(T (W x00 x00 x80 xbf x00 x00 x80 xbf)
(T (W x82 x02 x00 x00 x00 x00 x80 xbf)
(T (W x00 x00 x80 xbf x00 x00 x80 xbf)
(T (W x00 x00 x80 xbf x00 x00 x80 xbf)
(L (W x00 x00 x00 x3f x00 x00 xc0 x3f)) E)
(L (W x00 x00 x80 xbf x00 x00 x80 xbf)))
(T (W x00 x00 x80 xbf x00 x00 x80 xbf)
(T (W x00 x00 x80 xbf x00 x00 x80 xbf)
(L (W x00 x00 x80 xbf x00 x00 x80 xbf)) E)
(L (W x00 x00 x80 xbf x00 x00 x80 xbf))))
(T (W x00 x00 x80 xbf x00 x00 x80 xbf)
(T (W x03 x00 x00 x00 x00 x00 x80 xbf)
(T (W x9a x99 x99 x3f x00 x00 x80 xbf)
(L (W x00 x00 x80 xbf x00 x00 x80 xbf)) E)
(L (W x00 x00 x80 xbf x00 x00 x80 xbf)))
(T (W x00 x00 x80 xbf x00 x00 x80 xbf)
(L (W x00 x00 x80 xbf x00 x00 x80 xbf))
(L (W x00 x00 x80 xbf x00 x00 x80 xbf))))))
(T (W x64 x1a x00 x00 x28 x1a x00 x00)
(T (W x00 x00 x80 xbf x00 x00 x80 xbf)
(T (W x00 x00 x80 xbf x00 x00 x00 x3f)
(T (W x00 x00 x80 xbf x00 x00 x80 xbf)
(T (W x00 x00 x80 xbf x00 x00 x80 xbf)
(L (W x86 x00 x00 x00 x00 x00 x80 xbf)) E)
(L (W x00 x00 x80 xbf x00 x00 x80 xbf)))
(T (W xdc xcc xff xff xd5 x01 x00 x00)
(T (W x00 x00 x80 xbf x00 x00 x80 xbf)
(L (W x01 x00 x00 x00 x00 x00 x80 xbf)) E)
(L (W x00 x00 x80 xbf x00 x00 x80 xbf))))
(T (W x00 x00 x80 xbf x00 x00 x80 xbf)
(T (W x00 x00 x80 xbf x00 x00 x80 xbf)
(T (W x00 x00 x24 x00 x28 x00 x2c x00)
(L (W x00 x00 x80 xbf x00 x00 x80 xbf)) E)
(L (W x01 x00 x00 x00 x00 x00 x80 xbf)))
(T (W x00 x00 x80 xbf x00 x00 x80 xbf)
(L (W x00 x00 x80 xbf x00 x00 x80 xbf))
(L (W x00 x00 x80 xbf x00 x00 x80 xbf)))))
(T (W x00 x00 x0c x00 x10 x00 x14 x00)
(T (W x00 x00 x80 xbf x00 x00 x80 xbf)
(T (W x00 x00 x80 xbf x00 x00 x80 xbf)
(T (W xab x01 x00 x00 x00 x00 x80 xbf)
(L (W x00 x00 x80 xbf x00 x00 x80 xbf)) E)
(L (W xdc xe6 xff xff xea x00 x00 x00)))
(T (W x01 x00 x00 x00 x00 x00 x80 xbf)
(T (W xdc xde xff xff x90 x01 x00 x00)
(L (W x20 x00 x00 x00 x25 x00 x00 x00)) E)
(L (W xc9 x00 x00 x00 x08 x00 x00 x00))))
(T (W x00 x00 x80 xbf x00 x00 x80 xbf)
(T (W x00 x00 x00 x3f x00 x00 x80 xbf)
(T (W xdc xda xff xff x9e x01 x00 x00)
(L (W x49 x00 x00 x00 x00 x00 x80 xbf)) E)
(L (W x20 xec xff xff xc9 x00 x00 x00)))
(T (W x00 x00 x80 xbf x00 x00 x80 xbf)
(L (W x00 x00 x80 xbf x00 x00 x80 xbf))
(L (W x00 x00 x80 xbf x00 x00 x80 xbf)))))))
(T (W xd8 x30 x00 x00 x9c x30 x00 x00)
(T (W xb8 x21 x00 x00 x7c x21 x00 x00)
(T (W x34 x03 x00 x00 xf8 x02 x00 x00)
(T (W x00 x00 x80 xbf x00 x00 x80 xbf)
(T (W x00 x00 x80 xbf x00 x00 x80 xbf)
(T (W x00 x00 x80 xbf x00 x00 x80 xbf)
(L (W x00 x00 x80 xbf x00 x00 x80 xbf)) E)
(L (W x00 x00 x80 xbf x00 x00 x80 xbf)))
(T (W x00 x00 x80 xbf x00 x00 x80 xbf)
(T (W x00 x00 x80 xbf x00 x00 x80 xbf)
(L (W x00 x00 x80 xbf x60 xfc xff xff)) E)
(L (W x00 x00 x80 xbf x00 x00 x80 xbf))))
(T (W xa0 xc1 xff xff xf7 x01 x00 x00)
(T (W x00 x00 x80 xbf x00 x00 x80 xbf)
(T (W x00 x00 x80 xbf x00 x00 x80 xbf)
(L (W x00 x00 xc0 x3f x00 x00 x80 xbf)) E)
(L (W x00 x00 x80 xbf x00 x00 xc0 x3f)))
(T (W x00 x00 x80 xbf x60 xd0 xff xff)
(L (W x00 x00 x80 xbf x00 x00 x80 xbf))
(L (W x00 x00 x80 xbf x00 x00 x80 xbf)))))
(T (W x00 x00 x80 xbf x60 xba xff xff)
(T (W x00 x00 x80 xbf x00 x00 x80 xbf)
(T (W x00 x00 x80 xbf x00 x00 x80 xbf)
(T (W x00 x00 x80 xbf x00 x00 x80 xbf)
(L (W x00 x00 x80 xbf x60 xf6 xff xff)) E)
(L (W x00 x00 x80 xbf x00 x00 x80 xbf)))
(T (W x00 x00 x80 xbf x00 x00 x80 xbf)
(T (W x00 x00 x80 xbf x00 x00 x80 xbf)
(L (W x00 x00 x80 xbf x00 x00 x80 xbf)) E)
(L (W x00 x00 x80 xbf xa4 xef xff xff))))
(T (W x00 x00 x80 xbf x00 x00 x80 xbf)
(T (W x00 x00 x80 xbf x00 x00 x80 xbf)
(T (W x00 x00 x80 xbf x00 x00 x80 xbf)
(L (W x00 x00 x80 xbf x00 x00 x80 xbf)) E)
(L (W x00 x00 x80 xbf x00 x00 x80 xbf)))
(T (W x5c xd2 xff xff xbe x01 x00 x00)
(L (W x5c xe2 xff xff x6b x01 x00 x00))
(L (W x00 x00 x80 xbf x60 xf2 xff xff))))))
(T (W xf0 x12 x00 x00 xb0 x12 x00 x00)
(T (W x00 x00 x80 xbf x00 x00 x80 xbf)
(T (W x00 x00 x80 xbf x00 x00 x80 xbf)
(T (W x00 x00 x80 xbf x00 x00 x80 xbf)
(T (W x00 x00 x80 xbf x00 x00 x80 xbf)
(L (W x00 x00 x80 xbf x00 x00 x80 xbf)) E)
(L (W x00 x00 x80 xbf x00 x00 x80 xbf)))
(T (W x00 x00 x80 xbf x00 x00 x80 xbf)
(T (W x00 x00 x80 xbf x00 x00 x80 xbf)
(L (W x00 x00 x80 xbf x00 x00 x80 xbf)) E)
(L (W x00 x00 x80 xbf x00 x00 x80 xbf))))
(T (W x00 x00 x80 xbf x00 x00 x80 xbf)
(T (W xa0 xca xff xff xdf x01 x00 x00)
(T (W x00 x00 x80 xbf x00 x00 x80 xbf)
(L (W x04 x00 x00 x00 x08 x00 x0c x00)) E)
(L (W x00 x00 x80 xbf x00 x00 x80 xbf)))
(T (W x00 x00 x80 xbf x00 x00 x80 xbf)
(L (W x9a x99 x99 x3f x00 x00 x80 xbf))
(L (W x00 x00 x80 xbf x00 x00 x80 xbf)))))
(T (W xd2 x02 x00 x00 x00 x00 x80 xbf)
(T (W x00 x00 x80 xbf x00 x00 x80 xbf)
(T (W x5c xc7 xff xff xe6 x01 x00 x00)
(T (W x00 x00 x80 xbf x00 x00 x80 xbf)
(L (W x00 x00 x80 xbf x00 x00 x80 xbf)) E)
(L (W x00 x00 x80 xbf x00 x00 x80 xbf)))
(T (W x00 x00 x80 xbf xcd xcc x4c x3f)
(T (W x00 x00 x80 xbf x00 x00 x80 xbf)
(L (W x00 x00 x80 xbf x00 x00 x80 xbf)) E)
(L (W x00 x00 x80 xbf x00 x00 x80 xbf))))
(T (W x00 x00 x80 xbf xa4 xc4 xff xff)
(T (W x00 x00 x80 xbf x00 x00 x80 xbf)
(T (W x00 x00 x80 xbf x00 x00 x80 xbf)
(L (W x00 x00 x80 xbf x00 x00 x80 xbf)) E)
(L (W x17 x00 x00 x00 x00 x00 x80 xbf)))
(T (W x00 x00 x80 xbf x00 x00 x80 xbf)
(L (W x00 x00 x80 xbf x00 x00 x80 xbf))
(L (W x00 x00 x80 xbf x00 x00 x80 xbf)))))))))))
(T (W x04 x00 x00 x00 x42 x01 x00 x00)
(T (W x08 x4c x00 x00 xb8 x4b x00 x00)
(T (W x04 x4a x00 x00 xc8 x49 x00 x00)
(T (W x3c x46 x00 x00 x14 x46 x00 x00)
(T (W xe0 x3e x00 x00 x84 x3e x00 x00)
(T (W x70 x2f x00 x00 x34 x2f x00 x00)
(T (W x78 x11 x00 x00 x3c x11 x00 x00)
(T (W x00 x00 x80 xbf x00 x00 x80 xbf)
(T (W x00 x00 x80 xbf x00 x00 x80 xbf)
(T (W x00 x00 x80 xbf xfc xd3 xff xff)
(L (W x00 x00 x80 xbf x00 x00 x80 xbf)) E)
(L (W x00 x00 x80 xbf x00 x00 x80 xbf)))
(T (W x00 x00 x80 xbf x00 x00 x80 xbf)
(T (W x00 x00 x80 xbf x00 x00 x80 xbf)
(L (W x00 x00 x80 xbf x00 x00 x80 xbf)) E)
(L (W x00 x00 x80 xbf x00 x00 x80 xbf))))
(T (W x26 x02 x00 x00 x02 x00 x00 x00)
(T (W x00 x00 x80 xbf x00 x00 x80 xbf)
(T (W x00 x00 x80 xbf x00 x00 x80 xbf)
(L (W x00 x00 x80 xbf x78 xf7 xff xff)) E)
(L (W x00 x00 x80 xbf x00 x00 x80 xbf)))
(T (W x00 x00 x80 xbf x00 x00 x80 xbf)
(T (W x00 x00 x80 xbf x00 x00 x80 xbf)
(L (W x00 x00 x80 xbf x00 x00 x80 xbf)) E)
(L (W x00 x00 x80 xbf x00 x00 x80 xbf)))))
(T (W x00 x00 x80 xbf xbc xba xff xff)
(T (W x00 x00 x80 xbf x00 x00 x80 xbf)
(T (W x00 x00 x80 xbf x20 x00 x38 x00)
(T (W x00 x00 x80 xbf x00 x00 x80 xbf)
(L (W x00 x00 x80 xbf x00 x00 xc0 x3f)) E)
(L (W xcc xff xff xff x0b x01 x00 x00)))
(T (W x00 x00 xc0 x3f x00 x00 x00 x3f)
(T (W x00 x00 x80 xbf xcd xcc x4c x3f)
(L (W x00 x00 x80 xbf x00 x00 xc0 x3f)) E)
(L (W xc9 x00 x00 x00 x0e x00 x00 x00))))
(T (W x00 x00 x80 xbf x00 x00 x80 xbf)
(T (W x00 x00 x80 xbf x00 x00 x80 xbf)
(T (W x00 x00 x80 xbf x00 x00 x80 xbf)
(L (W x30 x00 x34 x00 x20 x00 x00 x00)) E)
(L (W x00 x00 x80 xbf x00 x00 x80 xbf)))
(T (W x00 x00 x80 xbf x78 xd1 xff xff)
(L (W x00 x00 x80 xbf x00 x00 x80 xbf))
(L (W x00 x00 x80 xbf x00 x00 x80 xbf))))))
(T (W x64 x20 x00 x00 x28 x20 x00 x00)
(T (W xb0 x01 x00 x00 x74 x01 x00 x00)
(T (W x00 x00 xc0 x3f x00 x00 x80 xbf)
(T (W x00 x00 x80 xbf x00 x00 x80 xbf)
(T (W x00 x00 x80 xbf x00 x00 xc0 x3f)
(L (W x00 x00 x80 xbf x00 x00 x80 xbf)) E)
(L (W x74 xe4 xff xff x1a x01 x00 x00)))
(T (W x00 x00 x80 xbf x00 x00 x80 xbf)
(T (W x74 xdc xff xff x9b x01 x00 x00)
(L (W x00 x00 x80 xbf x00 x00 x80 xbf)) E)
(L (W x00 x00 x80 xbf x00 x00 x80 xbf))))
(T (W x00 x00 x80 xbf x00 x00 x80 xbf)
(T (W x00 x00 x80 xbf x00 x00 x80 xbf)
(T (W x00 x00 x80 xbf x00 x00 x80 xbf)
(L (W x00 x00 x80 xbf x00 x00 x80 xbf)) E)
(L (W x00 x00 x80 xbf x00 x00 x80 xbf)))
(T (W x00 x00 x80 xbf x00 x00 x80 xbf)
(L (W x00 x00 x80 xbf x00 x00 x80 xbf))
(L (W x00 x00 x80 xbf x00 x00 x80 xbf)))))
(T (W x00 x00 x80 xbf x00 x00 x80 xbf)
(T (W x00 x00 x80 xbf x00 x00 x80 xbf)
(T (W x00 x00 x80 xbf x78 xc6 xff xff)
(T (W x00 x00 x80 xbf x00 x00 x80 xbf)
(L (W x00 x00 x80 xbf x00 x00 x80 xbf)) E)
(L (W x00 x00 x80 xbf x00 x00 x80 xbf)))
(T (W x00 x00 x80 xbf x00 x00 x80 xbf)
(T (W x00 x00 x80 xbf x00 x00 x80 xbf)
(L (W x00 x00 x00 x3f x00 x00 xc0 x3f)) E)
(L (W x00 x00 x80 xbf x00 x00 x80 xbf))))
(T (W xed x01 x00 x00 x0c x00 x00 x00)
(T (W x00 x00 x80 xbf x00 x00 x80 xbf)
(T (W x00 x00 x80 xbf x00 x00 x80 xbf)
(L (W x00 x00 x80 xbf x00 x00 x80 xbf)) E)
(L (W x00 x00 x80 xbf x00 x00 x80 xbf)))
(T (W x00 x00 x80 xbf x00 x00 x80 xbf)
(L (W xcd xcc x4c x3f x00 x00 x80 xbf))
(L (W x00 x00 x80 xbf x00 x00 x80 xbf)))))))
(T (W x14 x37 x00 x00 xd4 x36 x00 x00)
(T (W x08 x28 x00 x00 xcc x27 x00 x00)
(T (W x8c x09 x00 x00 x4c x09 x00 x00)
(T (W x9a x99 x99 x3f x00 x00 x00 x3f)
(T (W x00 x00 x80 xbf x00 x00 x80 xbf)
(T (W x00 x00 x80 xbf x00 x00 x80 xbf)
(L (W x00 x00 x80 xbf x00 x00 x80 xbf)) E)
(L (W x00 x00 x80 xbf x00 x00 x80 xbf)))
(T (W x00 x00 x80 xbf x00 x00 x80 xbf)
(T (W x00 x00 x80 xbf x00 x00 x80 xbf)
(L (W x41 x00 x00 x00 x00 x00 x80 xbf)) E)
(L (W x00 x00 x80 xbf x00 x00 x80 xbf))))
(T (W x00 x00 x80 xbf x00 x00 x80 xbf)
(T (W x00 x00 x80 xbf x00 x00 x80 xbf)
(T (W x00 x00 x80 xbf x00 x00 x80 xbf)
(L (W x01 x00 x00 x00 x00 x00 x80 xbf)) E)
(L (W xf4 xe7 xff xff xdd x00 x00 x00)))
(T (W xc8 x01 x00 x00 x00 x00 x80 xbf)
(T (W xf4 xdf xff xff x8b x01 x00 x00)
(L (W x00 x00 x80 xbf x00 x00 x80 xbf)) E)
(L (W x00 x00 x80 xbf x00 x00 x80 xbf)))))
(T (W x00 x00 x80 xbf x00 x00 x80 xbf)
(T (W x00 x00 x80 xbf x00 x00 x80 xbf)
(T (W x00 x00 x80 xbf x00 x00 x80 xbf)
(T (W x00 x00 x80 xbf x00 x00 x80 xbf)
(L (W x7d x00 x00 x00 x00 x00 x80 xbf)) E)
(L (W x00 x00 x80 xbf x00 x00 x80 xbf)))
(T (W xf4 xcd xff xff xd0 x01 x00 x00)
(T (W x00 x00 xc0 x3f x00 x00 x80 xbf)
(L (W x2a x00 x00 x00 x00 x00 x80 xbf)) E)
(L (W x00 x00 x80 xbf x00 x00 x80 xbf))))
(T (W x00 x00 x80 xbf x3c xc3 xff xff)
(T (W x00 x00 x80 xbf x00 x00 x80 xbf)
(T (W xf4 xd9 xff xff xa0 x01 x00 x00)
(L (W x24 x00 x04 x00 x00 x00 x08 x00)) E)
(L (W xf4 xe9 xff xff xd0 x00 x00 x00)))
(T (W x00 x00 x80 xbf x00 x00 x80 xbf)
(L (W x00 x00 x80 xbf x00 x00 x80 xbf))
(L (W xbe x00 x00 x00 x00 x00 x80 xbf))))))
(T (W xfc x18 x00 x00 xc0 x18 x00 x00)
(T (W x00 x00 x80 xbf x00 x00 x80 xbf)
(T (W xbc x02 x00 x00 x00 x00 x80 xbf)
(T (W x00 x00 x80 xbf x00 x00 x80 xbf)
(T (W xf4 xd4 xff xff xb3 x01 x00 x00)
(L (W x00 x00 x80 xbf x9a x99 x99 x3f)) E)
(L (W x00 x00 x80 xbf x00 x00 x80 xbf)))
(T (W x00 x00 x80 xbf x00 x00 x80 xbf)
(T (W x00 x00 x80 xbf x00 x00 x80 xbf)
(L (W x00 x00 x80 xbf x00 x00 x00 x3f)) E)
(L (W x00 x00 x80 xbf x3c xee xff xff))))
(T (W x00 x00 x80 xbf x00 x00 x80 xbf)
(T (W x00 x00 x80 xbf x00 x00 x80 xbf)
(T (W x00 x00 x80 xbf x00 x00 x80 xbf)
(L (W x78 xf9 xff xff x5c x00 x00 x00)) E)
(L (W x9a x99 x99 x3f x00 x00 x80 xbf)))
(T (W x00 x00 x80 xbf x00 x00 x80 xbf)
(L (W x00 x00 x00 x3f x00 x00 x00 x3f))
(L (W xc8 x00 x00 x00 x00 x00 x80 xbf)))))
(T (W xd4 x02 x00 x00 x01 x00 x00 x00)
(T (W x00 x00 x80 xbf x3c xc0 xff xff)
(T (W x00 x00 x80 xbf x00 x00 x80 xbf)
(T (W x00 x00 x80 xbf x00 x00 x80 xbf)
(L (W x00 x00 x80 xbf x00 x00 x80 xbf)) E)
(L (W x00 x00 x80 xbf x00 x00 x80 xbf)))
(T (W x00 x00 x80 xbf x00 x00 x80 xbf)
(T (W x00 x00 x80 xbf x00 x00 x80 xbf)
(L (W x00 x00 x80 xbf x00 x00 x80 xbf)) E)
(L (W x00 x00 x80 xbf x00 x00 x80 xbf))))
(T (W x00 x00 x80 xbf x00 x00 x80 xbf)
(T (W x00 x00 x80 xbf x00 x00 x80 xbf)
(T (W x00 x00 x80 xbf x00 x00 x80 xbf)
(L (W x00 x00 x80 xbf x9a x99 x99 x3f)) E)
(L (W x00 x00 x80 xbf x00 x00 x80 xbf)))
(T (W x00 x00 x80 xbf x00 x00 x80 xbf)
(L (W x00 x00 x00 x3f x00 x00 x80 xbf))
(L (W x00 x00 x80 xbf x00 x00 x80 xbf))))))))
(T (W x64 x42 x00 x00 x28 x42 x00 x00)
(T (W x14 x3b x00 x00 xd4 x3a x00 x00)
(T (W xc8 x2b x00 x00 x8c x2b x00 x00)
(T (W x8c x0d x00 x00 x4c x0d x00 x00)
(T (W x00 x00 x80 xbf x00 x00 x80 xbf)
(T (W x00 x00 x80 xbf x00 x00 x80 xbf)
(T (W x00 x00 x80 xbf x00 x00 x80 xbf)
(L (W x00 x00 x80 xbf x9a x99 x99 x3f)) E)
(L (W x00 x00 x80 xbf x00 x00 x80 xbf)))
(T (W x00 x00 x80 xbf x00 x00 x80 xbf)
(T (W x00 x00 x80 xbf x00 x00 x80 xbf)
(L (W x00 x00 x80 xbf xb8 xfb xff xff)) E)
(L (W x00 x00 x80 xbf x00 x00 x80 xbf))))
(T (W x02 x00 x00 x00 x00 x00 x80 xbf)
(T (W x00 x00 x80 xbf x00 x00 x80 xbf)
(T (W x00 x00 x80 xbf x00 x00 x80 xbf)
(L (W x65 x00 x00 x00 x02 x00 x00 x00)) E)
(L (W x00 x00 x80 xbf x00 x00 x80 xbf)))
(T (W x00 x00 x80 xbf xb8 xcf xff xff)
(T (W x00 x00 x80 xbf x00 x00 x80 xbf)
(L (W x00 x00 x80 xbf x00 x00 x80 xbf)) E)
(L (W x00 x00 x80 xbf x00 x00 x80 xbf)))))
(T (W xb4 xb9 xff xff x86 x03 x00 x00)
(T (W x00 x00 x80 xbf x00 x00 x80 xbf)
(T (W x00 x00 x80 xbf x00 x00 x80 xbf)
(T (W x00 x00 x80 xbf x00 x00 x80 xbf)
(L (W x00 x00 x80 xbf xb8 xf5 xff xff)) E)
(L (W x10 x00 x00 x00 x14 x00 x18 x00)))
(T (W x9a x99 x99 x3f x00 x00 x80 xbf)
(T (W x00 x00 x80 xbf x00 x00 x80 xbf)
(L (W x00 x00 x80 xbf xb8 xfd xff xff)) E)
(L (W x0d x00 x00 x00 x00 x00 x80 xbf))))
(T (W x00 x00 x80 xbf x00 x00 x80 xbf)
(T (W x00 x00 x80 xbf x00 x00 x80 xbf)
(T (W x00 x00 xc0 x3f x00 x00 x80 xbf)
(L (W x26 x00 x04 x00 x00 x00 x08 x00)) E)
(L (W x00 x00 x80 xbf xfc xea xff xff)))
(T (W xc0 x01 x00 x00 x01 x00 x00 x00)
(L (W xb4 xe1 xff xff x83 x01 x00 x00))
(L (W x00 x00 x80 xbf xb8 xf1 xff xff))))))
(T (W xc4 x1c x00 x00 x88 x1c x00 x00)
(T (W x00 x00 x80 xbf x00 x00 x80 xbf)
(T (W x00 x00 x80 xbf xb8 xbc xff xff)
(T (W x00 x00 x80 xbf x00 x00 x80 xbf)
(T (W x00 x00 x80 xbf x00 x00 x80 xbf)
(L (W x00 x00 x80 xbf x00 x00 x80 xbf)) E)
(L (W x00 x00 x80 xbf x00 x00 x80 xbf)))
(T (W x00 x00 x80 xbf x00 x00 x80 xbf)
(T (W x00 x00 x80 xbf x00 x00 x80 xbf)
(L (W x9a x99 x99 x3f x00 x00 x80 xbf)) E)
(L (W x00 x00 x80 xbf x00 x00 x80 xbf))))
(T (W x00 x00 x80 xbf x00 x00 x80 xbf)
(T (W xb4 xc8 xff xff xe2 x01 x00 x00)
(T (W x00 x00 x80 xbf x00 x00 x80 xbf)
(L (W x00 x00 x80 xbf x00 x00 x80 xbf)) E)
(L (W x00 x00 x80 xbf x00 x00 x80 xbf)))
(T (W x00 x00 x80 xbf x00 x00 x80 xbf)
(L (W x9a x99 x99 x3f x00 x00 x80 xbf))
(L (W x00 x00 x80 xbf xb8 xf0 xff xff)))))
(T (W x00 x00 x80 xbf x00 x00 x80 xbf)
(T (W x00 x00 x80 xbf x00 x00 x80 xbf)
(T (W xe8 x01 x00 x00 x00 x00 x80 xbf)
(T (W x00 x00 x80 xbf x00 x00 x80 xbf)
(L (W x00 x00 x80 xbf x00 x00 x80 xbf)) E)
(L (W x00 x00 x80 xbf x00 x00 x80 xbf)))
(T (W xcd xcc x4c x3f x00 x00 x80 xbf)
(T (W x00 x00 x80 xbf x9a x99 x99 x3f)
(L (W x00 x00 x00 x3f x00 x00 x00 x3f)) E)
(L (W x00 x00 x80 xbf x00 x00 x80 xbf))))
(T (W x0b x00 x00 x00 x00 x00 x80 xbf)
(T (W x00 x00 x80 xbf x00 x00 x80 xbf)
(T (W x00 x00 x80 xbf x00 x00 x80 xbf)
(L (W x00 x00 x80 xbf x00 x00 x80 xbf)) E)
(L (W x00 x00 x80 xbf x00 x00 x80 xbf)))
(T (W x00 x00 x80 xbf x00 x00 x80 xbf)
(L (W x00 x00 x80 xbf x9a x99 x99 x3f))
(L (W x00 x00 x80 xbf x00 x00 x80 xbf)))))))
(T (W x30 x33 x00 x00 xf4 x32 x00 x00)
(T (W x30 x24 x00 x00 xf4 x23 x00 x00)
(T (W xa4 x05 x00 x00 x64 x05 x00 x00)
(T (W x00 x00 x80 xbf x00 x00 x80 xbf)
(T (W x00 x00 x80 xbf x00 x00 x80 xbf)
(T (W x00 x00 x80 xbf x00 x00 x80 xbf)
(L (W x00 x00 x80 xbf x00 x00 x80 xbf)) E)
(L (W x00 x00 x80 xbf x00 x00 x00 x3f)))
(T (W x34 xcc xff xff xd8 x01 x00 x00)
(T (W x00 x00 x80 xbf x00 x00 x80 xbf)
(L (W x00 x00 x80 xbf x00 x00 x80 xbf)) E)
(L (W x00 x00 x80 xbf x00 x00 x80 xbf))))
(T (W x00 x00 x80 xbf x00 x00 x80 xbf)
(T (W x00 x00 x80 xbf x00 x00 x80 xbf)
(T (W x00 x00 x80 xbf x00 x00 x80 xbf)
(L (W x00 x00 x80 xbf x00 x00 x80 xbf)) E)
(L (W x00 x00 x80 xbf x00 x00 x80 xbf)))
(T (W x00 x00 x80 xbf x00 x00 x80 xbf)
(T (W x00 x00 x80 xbf x00 x00 x80 xbf)
(L (W x00 x00 x80 xbf x00 x00 x80 xbf)) E)
(L (W x00 x00 x80 xbf x00 x00 x80 xbf)))))
(T (W x00 x00 x80 xbf x00 x00 x80 xbf)
(T (W x00 x00 x80 xbf x00 x00 x80 xbf)
(T (W x00 x00 x80 xbf x00 x00 x80 xbf)
(T (W x00 x00 x80 xbf xbc xd6 xff xff)
(L (W x00 x00 x80 xbf x00 x00 x80 xbf)) E)
(L (W x34 xe6 xff xff xf2 x00 x00 x00)))
(T (W x00 x00 x80 xbf x00 x00 x80 xbf)
(T (W x34 xde xff xff x93 x01 x00 x00)
(L (W x00 x00 x80 xbf x00 x00 x80 xbf)) E)
(L (W x00 x00 x80 xbf x00 x00 x80 xbf))))
(T (W x78 xc3 xff xff xed x01 x00 x00)
(T (W x00 x00 x80 xbf x00 x00 x80 xbf)
(T (W x00 x00 x80 xbf x00 x00 x80 xbf)
(L (W x4c x00 x00 x00 x00 x00 x80 xbf)) E)
(L (W x00 x00 x80 xbf x00 x00 x80 xbf)))
(T (W x00 x00 x80 xbf x00 x00 x80 xbf)
(L (W x00 x00 x80 xbf x00 x00 x80 xbf))
(L (W x00 x00 x80 xbf x00 x00 x80 xbf))))))
(T (W x38 x15 x00 x00 xfc x14 x00 x00)
(T (W x00 x00 x80 xbf x00 x00 x80 xbf)
(T (W x00 x00 x80 xbf x00 x00 x80 xbf)
(T (W x00 x00 x80 xbf x00 x00 x80 xbf)
(T (W x00 x00 x80 xbf x00 x00 x80 xbf)
(L (W x00 x00 x80 xbf x00 x00 x80 xbf)) E)
(L (W x00 x00 x80 xbf x00 x00 x80 xbf)))
(T (W x00 x00 x80 xbf x00 x00 x80 xbf)
(T (W x00 x00 x80 xbf x00 x00 x80 xbf)
(L (W x00 x00 x80 xbf x00 x00 x00 x3f)) E)
(L (W x78 xee xff xff xc9 x00 x00 x00))))
(T (W x00 x00 x80 xbf x00 x00 x80 xbf)
(T (W x00 x00 x80 xbf x00 x00 x80 xbf)
(T (W x00 x00 x80 xbf x00 x00 x80 xbf)
(L (W x00 x00 x80 xbf x00 x00 x80 xbf)) E)
(L (W x9a x99 x99 x3f x00 x00 x00 x3f)))
(T (W x00 x00 x80 xbf x00 x00 x80 xbf)
(L (W x00 x00 xc0 x3f x00 x00 x00 x3f))
(L (W x00 x00 x80 xbf x00 x00 x80 xbf)))))
(T (W x00 x00 x80 xbf x00 x00 x80 xbf)
(T (W x78 xc0 xff xff x3a x02 x00 x00)
(T (W x00 x00 x80 xbf x00 x00 x80 xbf)
(T (W x00 x00 x80 xbf x00 x00 x80 xbf)
(L (W x00 x00 x80 xbf x00 x00 x80 xbf)) E)
(L (W x00 x00 x80 xbf x00 x00 x80 xbf)))
(T (W x9a x99 x99 x3f x00 x00 x00 x3f)
(T (W x9a x99 x99 x3f x00 x00 x80 xbf)
(L (W x00 x00 x00 x3f x00 x00 x00 x3f)) E)
(L (W x00 x00 x80 xbf x00 x00 x80 xbf))))
(T (W x00 x00 x80 xbf x00 x00 x80 xbf)
(T (W x00 x00 x80 xbf x00 x00 x80 xbf)
(T (W x00 x00 x80 xbf x00 x00 x80 xbf)
(L (W x00 x00 x80 xbf x00 x00 x80 xbf)) E)
(L (W x00 x00 x80 xbf x00 x00 x80 xbf)))
(T (W x00 x00 x80 xbf x00 x00 x80 xbf)
(L (W x00 x00 x80 xbf x00 x00 x80 xbf))
(L (W x20 x00 x2e x00 x04 x00 x00 x00)))))))))
(T (W x1c x48 x00 x00 xe0 x47 x00 x00)
(T (W x50 x44 x00 x00 x10 x44 x00 x00)
(T (W xec x3c x00 x00 xb0 x3c x00 x00)
(T (W xa8 x2d x00 x00 x6c x2d x00 x00)
(T (W x90 x0f x00 x00 x50 x0f x00 x00)
(T (W xc9 x02 x00 x00 x02 x00 x00 x00)
(T (W x00 x00 x80 xbf x00 x00 x80 xbf)
(T (W x00 x00 x80 xbf x00 x00 x80 xbf)
(L (W x20 x00 x00 x00 x00 x00 x24 x00)) E)
(L (W x94 xe3 xff xff x54 x01 x00 x00)))
(T (W x00 x00 x80 xbf x00 x00 x80 xbf)
(T (W x00 x00 x80 xbf x00 x00 x80 xbf)
(L (W x00 x00 x80 xbf x00 x00 x80 xbf)) E)
(L (W xc9 x00 x00 x00 x16 x00 x00 x00))))
(T (W x00 x00 x80 xbf x00 x00 x80 xbf)
(T (W x94 xc7 xff xff xe5 x01 x00 x00)
(T (W x00 x00 x80 xbf x00 x00 x80 xbf)
(L (W x00 x00 x80 xbf x00 x00 x80 xbf)) E)
(L (W x00 x00 x80 xbf x00 x00 x80 xbf)))
(T (W x00 x00 x80 xbf x00 x00 x80 xbf)
(T (W x00 x00 x80 xbf x00 x00 x80 xbf)
(L (W x1c x00 x20 x00 x24 x00 x28 x00)) E)
(L (W x05 x00 x00 x00 x00 x00 x80 xbf)))))
(T (W x00 x00 x80 xbf x00 x00 x80 xbf)
(T (W x00 x00 x80 xbf x00 x00 x80 xbf)
(T (W x30 x00 x34 x00 x20 x00 x00 x00)
(T (W x00 x00 x80 xbf x00 x00 x80 xbf)
(L (W x00 x00 x80 xbf x00 x00 x80 xbf)) E)
(L (W x00 x00 x80 xbf x00 x00 x80 xbf)))
(T (W x00 x00 x80 xbf x00 x00 x80 xbf)
(T (W x00 x00 x80 xbf x00 x00 x80 xbf)
(L (W x00 x00 x80 xbf x9a x99 x99 x3f)) E)
(L (W x00 x00 x80 xbf x00 x00 x80 xbf))))
(T (W x00 x00 x80 xbf x00 x00 x80 xbf)
(T (W x00 x00 x80 xbf xdc xca xff xff)
(T (W x00 x00 x80 xbf x00 x00 x80 xbf)
(L (W x00 x00 x80 xbf x00 x00 x80 xbf)) E)
(L (W x00 x00 x80 xbf x00 x00 x80 xbf)))
(T (W x00 x00 x80 xbf x00 x00 x80 xbf)
(L (W x9a x99 x99 x3f x00 x00 x80 xbf))
(L (W x00 x00 x00 x3f x00 x00 x80 xbf))))))
(T (W x98 x1e x00 x00 x5c x1e x00 x00)
(T (W xd8 xb9 xff xff x89 x03 x00 x00)
(T (W x00 x00 x80 xbf x00 x00 x80 xbf)
(T (W x03 x00 x00 x00 x00 x00 x80 xbf)
(T (W x00 x00 x80 xbf x00 x00 x80 xbf)
(L (W x9a x99 x99 x3f x00 x00 x00 x3f)) E)
(L (W x00 x00 x80 xbf x00 x00 x80 xbf)))
(T (W x00 x00 x00 x3f x00 x00 x80 xbf)
(T (W x00 x00 x80 xbf x00 x00 x80 xbf)
(L (W x00 x00 x80 xbf xdc xfd xff xff)) E)
(L (W x00 x00 x80 xbf x00 x00 x80 xbf))))
(T (W x00 x00 x80 xbf x98 xc0 xff xff)
(T (W x00 x00 x80 xbf x00 x00 x80 xbf)
(T (W x10 x00 x14 x00 x00 x00 x18 x00)
(L (W x00 x00 x80 xbf x00 x00 x80 xbf)) E)
(L (W x00 x00 x80 xbf x00 x00 x80 xbf)))
(T (W x00 x00 x80 xbf x98 xd0 xff xff)
(L (W x00 x00 x80 xbf x00 x00 x80 xbf))
(L (W x00 x00 x80 xbf x00 x00 x80 xbf)))))
(T (W x00 x00 x80 xbf x98 xba xff xff)
(T (W x00 x00 x80 xbf x00 x00 x80 xbf)
(T (W x00 x00 x80 xbf x00 x00 x80 xbf)
(T (W x00 x00 x80 xbf x00 x00 x80 xbf)
(L (W x00 x00 x80 xbf x98 xf6 xff xff)) E)
(L (W x00 x00 xc0 x3f x00 x00 x00 x3f)))
(T (W x00 x00 x80 xbf x00 x00 x80 xbf)
(T (W x00 x00 x80 xbf x00 x00 x80 xbf)
(L (W x00 x00 x80 xbf x00 x00 x80 xbf)) E)
(L (W x00 x00 x80 xbf x00 x00 x80 xbf))))
(T (W x00 x00 x80 xbf x00 x00 x80 xbf)
(T (W x00 x00 x80 xbf x00 x00 x80 xbf)
(T (W x00 x00 x80 xbf x00 x00 x80 xbf)
(L (W x00 x00 x80 xbf x00 x00 x80 xbf)) E)
(L (W x00 x00 x80 xbf x00 x00 x80 xbf)))
(T (W xd8 xd3 xff xff xbd x01 x00 x00)
(L (W x94 xe2 xff xff x6a x01 x00 x00))
(L (W x00 x00 x80 xbf x98 xf2 xff xff)))))))
(T (W x18 x35 x00 x00 xdc x34 x00 x00)
(T (W x28 x26 x00 x00 xe8 x25 x00 x00)
(T (W x98 x07 x00 x00 x58 x07 x00 x00)
(T (W x00 x00 x80 xbf x00 x00 x80 xbf)
(T (W x58 xc5 xff xff xed x01 x00 x00)
(T (W x14 xd4 xff xff xb7 x01 x00 x00)
(L (W x00 x00 x80 xbf x00 x00 x80 xbf)) E)
(L (W x00 x00 x80 xbf x00 x00 x80 xbf)))
(T (W xcd xcc x4c x3f x00 x00 x80 xbf)
(T (W x00 x00 x80 xbf x00 x00 x80 xbf)
(L (W x00 x00 x80 xbf x00 x00 x80 xbf)) E)
(L (W x00 x00 x80 xbf x00 x00 x80 xbf))))
(T (W x00 x00 x80 xbf x00 x00 x80 xbf)
(T (W x00 x00 x80 xbf x00 x00 x80 xbf)
(T (W x58 xd9 xff xff xa6 x01 x00 x00)
(L (W x00 x00 x80 xbf x9a x99 x99 x3f)) E)
(L (W x00 x00 x80 xbf x9a x99 x99 x3f)))
(T (W x00 x00 x80 xbf x00 x00 x80 xbf)
(T (W x00 x00 x80 xbf x00 x00 x80 xbf)
(L (W x20 x00 x24 x00 x28 x00 x2c x00)) E)
(L (W x00 x00 x80 xbf x00 x00 x80 xbf)))))
(T (W x00 x00 x80 xbf x00 x00 x80 xbf)
(T (W x81 x02 x00 x00 x01 x00 x00 x00)
(T (W x00 x00 x80 xbf x00 x00 x80 xbf)
(T (W x00 x00 x80 xbf x00 x00 x80 xbf)
(L (W x00 x00 x80 xbf x00 x00 x80 xbf)) E)
(L (W x00 x00 x80 xbf x00 x00 x80 xbf)))
(T (W x00 x00 x80 xbf x00 x00 x80 xbf)
(T (W x00 x00 x80 xbf x00 x00 x80 xbf)
(L (W x00 x00 x80 xbf x00 x00 x80 xbf)) E)
(L (W x00 x00 x80 xbf x00 x00 x80 xbf))))
(T (W x00 x00 x80 xbf x00 x00 x80 xbf)
(T (W xdf x01 x00 x00 x02 x00 x00 x00)
(T (W x00 x00 x80 xbf x00 x00 x80 xbf)
(L (W x00 x00 x80 xbf x00 x00 x80 xbf)) E)
(L (W x00 x00 x80 xbf x00 x00 x80 xbf)))
(T (W x00 x00 x80 xbf x00 x00 x80 xbf)
(L (W x00 x00 x00 x3f x00 x00 x80 xbf))
(L (W x00 x00 x80 xbf x00 x00 x80 xbf))))))
(T (W x18 x17 x00 x00 xdc x16 x00 x00)
(T (W x00 x00 x80 xbf x00 x00 x80 xbf)
(T (W x00 x00 x80 xbf x00 x00 x80 xbf)
(T (W x00 x00 x80 xbf x00 x00 x80 xbf)
(T (W x00 x00 x80 xbf x00 x00 x80 xbf)
(L (W x85 x00 x00 x00 x00 x00 x80 xbf)) E)
(L (W x00 x00 x80 xbf x00 x00 x80 xbf)))
(T (W x14 xcd xff xff xd4 x01 x00 x00)
(T (W x00 x00 x80 xbf x00 x00 x80 xbf)
(L (W x37 x00 x00 x00 x00 x00 x80 xbf)) E)
(L (W x00 x00 x80 xbf x00 x00 x80 xbf))))
(T (W x00 x00 x80 xbf x00 x00 x80 xbf)
(T (W x00 x00 x80 xbf x00 x00 x80 xbf)
(T (W x14 xd9 xff xff xa4 x01 x00 x00)
(L (W x00 x00 x80 xbf x00 x00 x80 xbf)) E)
(L (W xd7 x00 x00 x00 x00 x00 x80 xbf)))
(T (W x00 x00 x80 xbf x00 x00 x80 xbf)
(L (W x00 x00 x80 xbf x00 x00 x80 xbf))
(L (W x00 x00 x80 xbf x00 x00 x80 xbf)))))
(T (W x00 x00 x80 xbf x00 x00 x80 xbf)
(T (W x00 x00 x80 xbf x00 x00 x80 xbf)
(T (W x00 x00 x80 xbf x00 x00 x80 xbf)
(T (W xaa x01 x00 x00 x00 x00 x80 xbf)
(L (W x00 x00 x80 xbf x00 x00 x80 xbf)) E)
(L (W x14 xe7 xff xff xe9 x00 x00 x00)))
(T (W xcc x01 x00 x00 x00 x00 x80 xbf)
(T (W x14 xdf xff xff x8f x01 x00 x00)
(L (W x00 x00 xc0 x3f x18 xff xff xff)) E)
(L (W x58 xf0 xff xff xc9 x00 x00 x00))))
(T (W x00 x00 x80 xbf x00 x00 x80 xbf)
(T (W x00 x00 x80 xbf x18 xcb xff xff)
(T (W x58 xdc xff xff x9d x01 x00 x00)
(L (W x48 x00 x00 x00 x00 x00 x80 xbf)) E)
(L (W x00 x00 x80 xbf x5c xec xff xff)))
(T (W x00 x00 x80 xbf x00 x00 x80 xbf)
(L (W x00 x00 x80 xbf x00 x00 x80 xbf))
(L (W x00 x00 x80 xbf x00 x00 x80 xbf))))))))
(T (W x84 x40 x00 x00 x48 x40 x00 x00)
(T (W x14 x39 x00 x00 xd4 x38 x00 x00)
(T (W xe8 x29 x00 x00 xac x29 x00 x00)
(T (W x8c x0b x00 x00 x4c x0b x00 x00)
(T (W x01 x00 x00 x00 x00 x00 x80 xbf)
(T (W x00 x00 x80 xbf x1c xc5 xff xff)
(T (W x00 x00 x80 xbf x00 x00 x80 xbf)
(L (W x00 x00 x80 xbf x00 x00 x80 xbf)) E)
(L (W x00 x00 x80 xbf x00 x00 x80 xbf)))
(T (W x00 x00 x80 xbf x00 x00 x80 xbf)
(T (W x00 x00 x80 xbf x00 x00 x80 xbf)
(L (W x00 x00 x80 xbf x00 x00 x80 xbf)) E)
(L (W x15 x00 x00 x00 x00 x00 x80 xbf))))
(T (W x00 x00 x80 xbf x00 x00 x80 xbf)
(T (W x01 x00 x00 x00 x00 x00 x80 xbf)
(T (W x00 x00 x80 xbf x00 x00 x80 xbf)
(L (W x00 x00 x80 xbf x00 x00 x80 xbf)) E)
(L (W x00 x00 x80 xbf x00 x00 x80 xbf)))
(T (W x00 x00 x80 xbf x00 x00 x80 xbf)
(T (W x00 x00 x80 xbf x00 x00 x80 xbf)
(L (W x00 x00 x80 xbf x00 x00 x80 xbf)) E)
(L (W x00 x00 x80 xbf x00 x00 x80 xbf)))))
(T (W x00 x00 x80 xbf x00 x00 x80 xbf)
(T (W x00 x00 x80 xbf xd8 xbd xff xff)
(T (W xec x01 x00 x00 x00 x00 x80 xbf)
(T (W xd4 xd5 xff xff xaf x01 x00 x00)
(L (W x00 x00 x00 x3f x00 x00 x00 x3f)) E)
(L (W x00 x00 x80 xbf x00 x00 x80 xbf)))
(T (W x9a x99 x99 x3f x00 x00 x80 xbf)
(T (W x00 x00 x80 xbf x00 x00 x80 xbf)
(L (W x00 x00 x80 xbf x00 x00 x80 xbf)) E)
(L (W x00 x00 x80 xbf x00 x00 x80 xbf))))
(T (W x00 x00 x80 xbf x00 x00 x80 xbf)
(T (W x18 xcb xff xff xdf x01 x00 x00)
(T (W x00 x00 x80 xbf x00 x00 x80 xbf)
(L (W x00 x00 x80 xbf x00 x00 x80 xbf)) E)
(L (W x00 x00 x80 xbf x00 x00 x80 xbf)))
(T (W x00 x00 x80 xbf x00 x00 x80 xbf)
(L (W x00 x00 x80 xbf x00 x00 x80 xbf))
(L (W x00 x00 x80 xbf x00 x00 x80 xbf))))))
(T (W xdc x1a x00 x00 xa0 x1a x00 x00)
(T (W x89 x03 x00 x00 x00 x00 x80 xbf)
(T (W x00 x00 x80 xbf x9a x99 x99 x3f)
(T (W x00 x00 x80 xbf x00 x00 x80 xbf)
(T (W x00 x00 x80 xbf x00 x00 x80 xbf)
(L (W x00 x00 x80 xbf xd8 xf4 xff xff)) E)
(L (W x00 x00 x80 xbf x00 x00 xc0 x3f)))
(T (W x00 x00 x80 xbf x00 x00 x80 xbf)
(T (W x00 x00 x80 xbf x00 x00 x80 xbf)
(L (W x18 xfe xff xff x3a x00 x00 x00)) E)
(L (W x00 x00 x80 xbf x00 x00 x80 xbf))))
(T (W xf5 x01 x00 x00 x00 x00 x80 xbf)
(T (W x00 x00 x80 xbf x00 x00 x80 xbf)
(T (W x00 x00 x18 x00 x1c x00 x20 x00)
(L (W x00 x00 x80 xbf x00 x00 x80 xbf)) E)
(L (W x18 xea xff xff xd7 x00 x00 x00)))
(T (W xc4 x01 x00 x00 x00 x00 x80 xbf)
(L (W xd4 xe0 xff xff x87 x01 x00 x00))
(L (W x00 x00 x80 xbf x00 x00 x80 xbf)))))
(T (W x04 x00 x08 x00 x00 x00 x00 x00)
(T (W x00 x00 x80 xbf x00 x00 x80 xbf)
(T (W x00 x00 x80 xbf x00 x00 x80 xbf)
(T (W x00 x00 x80 xbf xd8 xd6 xff xff)
(L (W x71 x00 x00 x00 x00 x00 x80 xbf)) E)
(L (W x00 x00 x80 xbf x00 x00 x80 xbf)))
(T (W x18 xd0 xff xff xcc x01 x00 x00)
(T (W x00 x00 x80 xbf x00 x00 x80 xbf)
(L (W x2c x00 x30 x00 x34 x00 x38 x00)) E)
(L (W x00 x00 x80 xbf x1c xf0 xff xff))))
(T (W x00 x00 x80 xbf x00 x00 x80 xbf)
(T (W x00 x00 x80 xbf x9a x99 x99 x3f)
(T (W x00 x00 x80 xbf x00 x00 x80 xbf)
(L (W x00 x00 x80 xbf xd8 xfa xff xff)) E)
(L (W x00 x00 x80 xbf x00 x00 x80 xbf)))
(T (W xbd x01 x00 x00 x00 x00 x80 xbf)
(L (W x00 x00 x80 xbf x00 x00 x80 xbf))
(L (W xad x00 x00 x00 x00 x00 x80 xbf)))))))
(T (W x50 x31 x00 x00 x14 x31 x00 x00)
(T (W x50 x22 x00 x00 xf8 x21 x00 x00)
(T (W xb4 x03 x00 x00 x74 x03 x00 x00)
(T (W x00 x00 x80 xbf x00 x00 x80 xbf)
(T (W xed x01 x00 x00 x04 x00 x00 x00)
(T (W x00 x00 x80 xbf x00 x00 x80 xbf)
(L (W x00 x00 x80 xbf x00 x00 x80 xbf)) E)
(L (W x00 x00 x80 xbf x00 x00 x80 xbf)))
(T (W x00 x00 x80 xbf x00 x00 x80 xbf)
(T (W x00 x00 x80 xbf x00 x00 x80 xbf)
(L (W x00 x00 x80 xbf x00 x00 x80 xbf)) E)
(L (W x00 x00 x80 xbf x00 x00 x80 xbf))))
(T (W x00 x00 x80 xbf x00 x00 x80 xbf)
(T (W x00 x00 x80 xbf x00 x00 x80 xbf)
(T (W xa6 x01 x00 x00 x00 x00 x80 xbf)
(L (W x9a x99 x99 x3f x00 x00 x80 xbf)) E)
(L (W x00 x00 x00 x3f x00 x00 x80 xbf)))
(T (W x00 x00 x80 xbf x00 x00 x80 xbf)
(T (W x00 x00 x00 x3f x00 x00 x80 xbf)
(L (W x00 x00 x80 xbf x00 x00 x00 x00)) E)
(L (W x00 x00 x80 xbf x00 x00 x80 xbf)))))
(T (W x00 x00 x80 xbf x00 x00 x80 xbf)
(T (W x00 x00 x80 xbf x00 x00 x80 xbf)
(T (W x00 x00 x80 xbf x00 x00 x80 xbf)
(T (W x00 x00 x80 xbf x00 x00 x80 xbf)
(L (W x00 x00 x80 xbf x00 x00 x80 xbf)) E)
(L (W x00 x00 x80 xbf x00 x00 x80 xbf)))
(T (W x00 x00 x80 xbf x00 x00 x80 xbf)
(T (W x9a x99 x99 x3f x00 x00 x80 xbf)
(L (W x00 x00 x80 xbf x00 x00 x80 xbf)) E)
(L (W x00 x00 x80 xbf x00 x00 x80 xbf))))
(T (W x00 x00 x80 xbf x00 x00 x80 xbf)
(T (W x01 x00 x00 x00 x00 x00 x80 xbf)
(T (W x00 x00 x80 xbf x00 x00 x80 xbf)
(L (W x00 x00 x80 xbf x00 x00 x80 xbf)) E)
(L (W x00 x00 x80 xbf x00 x00 x80 xbf)))
(T (W x00 x00 x80 xbf x00 x00 x80 xbf)
(L (W x00 x00 x80 xbf x00 x00 xc0 x3f))
(L (W x00 x00 x80 xbf x00 x00 x80 xbf))))))
(T (W x6c x13 x00 x00 x30 x13 x00 x00)
(T (W x00 x00 x80 xbf x00 x00 x80 xbf)
(T (W x00 x00 x80 xbf x00 x00 x80 xbf)
(T (W x00 x00 x80 xbf x00 x00 x80 xbf)
(T (W x00 x00 x80 xbf x00 x00 x80 xbf)
(L (W x00 x00 x80 xbf x00 x00 x80 xbf)) E)
(L (W x00 x00 x80 xbf x00 x00 x80 xbf)))
(T (W x00 x00 x80 xbf x00 x00 x80 xbf)
(T (W x54 xdd xff xff x97 x01 x00 x00)
(L (W x00 x00 x80 xbf x00 x00 x80 xbf)) E)
(L (W x00 x00 x80 xbf x00 x00 x80 xbf))))
(T (W x00 x00 x80 xbf x00 x00 x80 xbf)
(T (W x00 x00 x80 xbf x00 x00 x80 xbf)
(T (W x00 x00 x80 xbf x00 x00 x80 xbf)
(L (W x00 x00 x80 xbf x20 x00 x3a x00)) E)
(L (W x00 x00 x80 xbf x00 x00 x80 xbf)))
(T (W x00 x00 x80 xbf x00 x00 x80 xbf)
(L (W x00 x00 x80 xbf x00 x00 x80 xbf))
(L (W x00 x00 x00 x3f x00 x00 x40 x3f)))))
(T (W x00 x00 x80 xbf x58 xbb xff xff)
(T (W x00 x00 x80 xbf x00 x00 x80 xbf)
(T (W x00 x00 x80 xbf x00 x00 x80 xbf)
(T (W x00 x00 x80 xbf x00 x00 x80 xbf)
(L (W x00 x00 x80 xbf x00 x00 x80 xbf)) E)
(L (W x00 x00 x80 xbf x00 x00 x80 xbf)))
(T (W x00 x00 x80 xbf x00 x00 x80 xbf)
(T (W x00 x00 x80 xbf x00 x00 x80 xbf)
(L (W x24 x00 x00 x00 x00 x00 x80 x3f)) E)
(L (W xc9 x00 x00 x00 x06 x00 x00 x00))))
(T (W x00 x00 x80 xbf x00 x00 x80 xbf)
(T (W xdb x01 x00 x00 x01 x00 x00 x00)
(T (W x9d x01 x00 x00 x01 x00 x00 x00)
(L (W x00 x00 x80 xbf x00 x00 x80 xbf)) E)
(L (W x98 xec xff xff xc9 x00 x00 x00)))
(T (W x00 x00 x80 xbf x00 x00 x80 xbf)
(L (W x00 x00 x80 xbf x00 x00 x80 xbf))
(L (W x20 x00 x00 x00 xa9 x00 x00 x00))))))))))
(T (W xe0 x4a x00 x00 xa0 x4a x00 x00)
(T (W x10 x49 x00 x00 xd0 x48 x00 x00)
(T (W x1c x45 x00 x00 xec x44 x00 x00)
(T (W xdc x3d x00 x00 xa0 x3d x00 x00)
(T (W x80 x2e x00 x00 x44 x2e x00 x00)
(T (W x84 x10 x00 x00 x44 x10 x00 x00)
(T (W x00 x00 x80 xbf x00 x00 x80 xbf)
(T (W x00 x00 x80 xbf x00 x00 x80 xbf)
(T (W x00 x00 x80 xbf x00 x00 x80 xbf)
(L (W x28 x00 x04 x00 x08 x00 x0c x00)) E)
(L (W x00 x00 x80 xbf x00 x00 x80 xbf)))
(T (W x00 x00 x80 xbf x00 x00 x80 xbf)
(T (W x00 x00 x80 xbf x00 x00 x80 xbf)
(L (W x43 x00 x00 x00 x00 x00 x80 xbf)) E)
(L (W x00 x00 x80 xbf x00 x00 x80 xbf))))
(T (W x00 x00 x80 xbf x00 x00 x80 xbf)
(T (W x00 x00 x80 xbf x00 x00 x80 xbf)
(T (W x00 x00 x80 xbf x00 x00 x80 xbf)
(L (W x00 x00 x80 xbf x00 x00 x80 xbf)) E)
(L (W x84 xe7 xff xff xe0 x00 x00 x00)))
(T (W xca x01 x00 x00 x00 x00 x80 xbf)
(T (W x84 xdf xff xff x8d x01 x00 x00)
(L (W x00 x00 x00 x00 x00 x00 x08 x00)) E)
(L (W x00 x00 x80 xbf x00 x00 x80 xbf)))))
(T (W x00 x00 x80 xbf x00 x00 x80 xbf)
(T (W x00 x00 x80 xbf x00 x00 x80 xbf)
(T (W x14 x00 x00 x00 x18 x00 x1c x00)
(T (W x00 x00 x80 xbf x00 x00 x80 xbf)
(L (W x81 x00 x00 x00 x00 x00 x80 xbf)) E)
(L (W x00 x00 x80 xbf x00 x00 x80 xbf)))
(T (W x84 xcd xff xff xd2 x01 x00 x00)
(T (W x00 x00 x80 xbf x00 x00 x00 x3f)
(L (W x2f x00 x00 x00 x00 x00 x80 xbf)) E)
(L (W x00 x00 x80 xbf x00 x00 x80 xbf))))
(T (W xed x01 x00 x00 x10 x00 x00 x00)
(T (W x00 x00 x80 xbf x00 x00 x80 xbf)
(T (W x84 xd9 xff xff xa2 x01 x00 x00)
(L (W x00 x00 x80 xbf x00 x00 x80 xbf)) E)
(L (W xd4 x00 x00 x00 x00 x00 x80 xbf)))
(T (W x00 x00 x80 xbf x00 x00 x80 xbf)
(L (W x00 x00 x80 xbf x00 x00 x80 xbf))
(L (W xc4 x00 x00 x00 x00 x00 x80 xbf))))))
(T (W x88 x1f x00 x00 x4c x1f x00 x00)
(T (W xbc x00 x00 x00 x80 x00 x00 x00)
(T (W x01 x00 x00 x00 x00 x00 x80 xbf)
(T (W x00 x00 x80 xbf x00 x00 x80 xbf)
(T (W x84 xd4 xff xff xb5 x01 x00 x00)
(L (W x00 x00 x80 xbf x00 x00 x80 xbf)) E)
(L (W x00 x00 x80 xbf x00 x00 x80 xbf)))
(T (W xcd xcc x4c x3f x00 x00 x80 xbf)
(T (W x00 x00 x80 xbf x00 x00 x80 xbf)
(L (W x00 x00 x80 xbf x00 x00 x80 xbf)) E)
(L (W xc9 x00 x00 x00 x12 x00 x00 x00))))
(T (W x00 x00 x80 xbf x00 x00 x80 xbf)
(T (W x00 x00 x80 xbf x00 x00 x80 xbf)
(T (W x00 x00 x80 xbf x00 x00 x1a x00)
(L (W x00 x00 x80 xbf x00 x00 x80 xbf)) E)
(L (W x00 x00 x80 xbf x00 x00 x80 xbf)))
(T (W x00 x00 x80 xbf x00 x00 x80 xbf)
(L (W x00 x00 x80 xbf x00 x00 x80 xbf))
(L (W x01 x00 x00 x00 x00 x00 x80 xbf)))))
(T (W x00 x00 x80 xbf x00 x00 x80 xbf)
(T (W xc8 xbf xff xff x74 x02 x00 x00)
(T (W x00 x00 x80 xbf x00 x00 x80 xbf)
(T (W x00 x00 x80 xbf x00 x00 x80 xbf)
(L (W x00 x00 x80 xbf x00 x00 x80 xbf)) E)
(L (W x9a x99 x99 x3f x00 x00 x00 x3f)))
(T (W x00 x00 x80 xbf x00 x00 x80 xbf)
(T (W x00 x00 x80 xbf x00 x00 x80 xbf)
(L (W x84 xfe xff xff x26 x00 x00 x00)) E)
(L (W x00 x00 x80 xbf x00 x00 x80 xbf))))
(T (W x00 x00 x80 xbf x00 x00 x80 xbf)
(T (W x00 x00 x80 xbf x88 xca xff xff)
(T (W x00 x00 x80 xbf x00 x00 x80 xbf)
(L (W x00 x00 x80 xbf x00 x00 x80 xbf)) E)
(L (W x00 x00 x80 xbf x00 x00 x80 xbf)))
(T (W x00 x00 x80 xbf x00 x00 x80 xbf)
(L (W x00 x00 x00 x3f x00 x00 x80 xbf))
(L (W x00 x00 x80 xbf x00 x00 x80 xbf)))))))
(T (W x14 x36 x00 x00 xd4 x35 x00 x00)
(T (W x18 x27 x00 x00 xdc x26 x00 x00)
(T (W x94 x08 x00 x00 x54 x08 x00 x00)
(T (W x00 x00 xc0 x3f x08 xbc xff xff)
(T (W x00 x00 x80 xbf x00 x00 x80 xbf)
(T (W x00 x00 x80 xbf x00 x00 x80 xbf)
(L (W x00 x00 x00 x3f x00 x00 xc0 x3f)) E)
(L (W x04 xe4 xff xff x3b x01 x00 x00)))
(T (W x00 x00 x80 xbf x00 x00 x80 xbf)
(T (W x9c x01 x00 x00 x01 x00 x00 x00)
(L (W x00 x00 x80 xbf x00 x00 x80 xbf)) E)
(L (W x00 x00 x80 xbf x4c xed xff xff))))
(T (W x9a x99 x99 x3f x00 x00 x80 xbf)
(T (W x00 x00 x80 xbf x08 xc8 xff xff)
(T (W x00 x00 x80 xbf x00 x00 x80 xbf)
(L (W x00 x00 x80 xbf x9a x99 x99 x3f)) E)
(L (W x00 x00 x80 xbf x00 x00 x80 xbf)))
(T (W x00 x00 x80 xbf x00 x00 x80 xbf)
(T (W x00 x00 x80 xbf x00 x00 x80 xbf)
(L (W x04 x00 x00 x00 x08 x00 x0c x00)) E)
(L (W x48 xf1 xff xff xc9 x00 x00 x00)))))
(T (W x00 x00 x80 xbf x00 x00 x80 xbf)
(T (W x00 x00 x80 xbf x00 x00 x80 xbf)
(T (W x00 x00 x80 xbf x08 xc6 xff xff)
(T (W x00 x00 x80 xbf x00 x00 x80 xbf)
(L (W x00 x00 x80 xbf x00 x00 x80 xbf)) E)
(L (W x00 x00 x80 xbf x00 x00 x80 xbf)))
(T (W x00 x00 x80 xbf x00 x00 x80 xbf)
(T (W x00 x00 x80 xbf x00 x00 x80 xbf)
(L (W x00 x00 x80 xbf x00 x00 x80 xbf)) E)
(L (W x00 x00 x80 xbf x00 x00 x80 xbf))))
(T (W x00 x00 x80 xbf x00 x00 x80 xbf)
(T (W x00 x00 x80 xbf x00 x00 x80 xbf)
(T (W x00 x00 x80 xbf x00 x00 x80 xbf)
(L (W x1c x00 x00 x00 x00 x00 x20 x00)) E)
(L (W x00 x00 x80 xbf x00 x00 x80 xbf)))
(T (W x00 x00 x80 xbf x00 x00 x80 xbf)
(L (W xcd xcc x4c x3f x00 x00 x80 xbf))
(L (W x00 x00 x80 xbf x00 x00 x80 xbf))))))
(T (W x0c x18 x00 x00 xcc x17 x00 x00)
(T (W x00 x00 x80 xbf x08 xb9 xff xff)
(T (W x00 x00 x80 xbf x00 x00 x80 xbf)
(T (W x48 xc6 xff xff xed x01 x00 x00)
(T (W x00 x00 x80 xbf x00 x00 x80 xbf)
(L (W x00 x00 x80 xbf x00 x00 xc0 x3f)) E)
(L (W x00 x00 x80 xbf x00 x00 x80 xbf)))
(T (W x00 x00 x80 xbf x00 x00 x80 xbf)
(T (W x00 x00 x80 xbf x00 x00 x80 xbf)
(L (W x00 x00 x00 x3f x00 x00 x00 x3f)) E)
(L (W x00 x00 x80 xbf x00 x00 x80 xbf))))
(T (W x00 x00 x80 xbf x4c xc2 xff xff)
(T (W x00 x00 x80 xbf x00 x00 x80 xbf)
(T (W x00 x00 x80 xbf x00 x00 x80 xbf)
(L (W x00 x00 x80 xbf x00 x00 x80 xbf)) E)
(L (W x00 x00 x80 xbf x00 x00 x80 xbf)))
(T (W x00 x00 x80 xbf x08 xd1 xff xff)
(L (W x00 x00 x00 x3f x00 x00 x00 x3f))
(L (W x00 x00 x80 xbf x00 x00 x80 xbf)))))
(T (W x00 x00 x80 xbf x00 x00 x80 xbf)
(T (W x00 x00 x80 xbf x00 x00 x80 xbf)
(T (W x00 x00 x80 xbf x00 x00 x80 xbf)
(T (W x00 x00 x80 xbf x00 x00 x80 xbf)
(L (W x00 x00 x80 xbf x08 xf7 xff xff)) E)
(L (W x00 x00 x80 xbf x00 x00 x80 xbf)))
(T (W x00 x00 x80 xbf x00 x00 x80 xbf)
(T (W x00 x00 x80 xbf x00 x00 x80 xbf)
(L (W x9a x99 x99 x3f x00 x00 x00 x3f)) E)
(L (W x00 x00 x80 xbf x00 x00 x80 xbf))))
(T (W x00 x00 x80 xbf x00 x00 x80 xbf)
(T (W x00 x00 x80 xbf x00 x00 x80 xbf)
(T (W x00 x00 x80 xbf x00 x00 x80 xbf)
(L (W x00 x00 x80 xbf x00 x00 xc0 x3f)) E)
(L (W x00 x00 x80 xbf x00 x00 x80 xbf)))
(T (W x00 x00 x80 xbf x08 xd3 xff xff)
(L (W x04 xe3 xff xff x66 x01 x00 x00))
(L (W x00 x00 x80 xbf x00 x00 x80 xbf))))))))
(T (W x74 x41 x00 x00 x38 x41 x00 x00)
(T (W x14 x3a x00 x00 xd4 x39 x00 x00)
(T (W xd8 x2a x00 x00 x9c x2a x00 x00)
(T (W x8c x0c x00 x00 x4c x0c x00 x00)
(T (W x00 x00 x80 xbf x00 x00 x80 xbf)
(T (W x00 x00 x80 xbf x00 x00 x80 xbf)
(T (W x00 x00 x80 xbf x00 x00 x80 xbf)
(L (W xd2 xf9 xff xff x9c x00 x00 x00)) E)
(L (W x00 x00 x80 xbf x00 x00 x80 xbf)))
(T (W xc4 xcb xff xff xda x01 x00 x00)
(T (W x08 xdd xff xff x9c x01 x00 x00)
(L (W x00 x00 x80 xbf x00 x00 x80 xbf)) E)
(L (W x00 x00 x80 xbf x00 x00 x80 xbf))))
(T (W x00 x00 x80 xbf x00 x00 x80 xbf)
(T (W x00 x00 x80 xbf x00 x00 x80 xbf)
(T (W x00 x00 x80 xbf x00 x00 x80 xbf)
(L (W x00 x00 x80 xbf x00 x00 x80 xbf)) E)
(L (W x00 x00 x80 xbf x00 x00 x80 xbf)))
(T (W x00 x00 x80 xbf x00 x00 x80 xbf)
(T (W x00 x00 x80 xbf x00 x00 x80 xbf)
(L (W x00 x00 x80 xbf xc8 xff xff xff)) E)
(L (W x00 x00 x80 xbf x0c xf1 xff xff)))))
(T (W x00 x00 x80 xbf x00 x00 x80 xbf)
(T (W x00 x00 x80 xbf x00 x00 x80 xbf)
(T (W x00 x00 x80 xbf x00 x00 x80 xbf)
(T (W x00 x00 x80 xbf x00 x00 x80 xbf)
(L (W x00 x00 x80 xbf x00 x00 x80 xbf)) E)
(L (W x2c x00 x30 x00 x20 x00 x00 x00)))
(T (W x00 x00 x80 xbf x00 x00 x80 xbf)
(T (W xc4 xdd xff xff x95 x01 x00 x00)
(L (W x00 x00 x80 xbf x00 x00 x80 xbf)) E)
(L (W x00 x00 x80 xbf x00 x00 x80 xbf))))
(T (W x0f x00 x00 x00 x00 x00 x80 xbf)
(T (W x00 x00 x80 xbf x00 x00 x80 xbf)
(T (W x00 x00 x80 xbf x00 x00 x80 xbf)
(L (W x1c x00 x00 x00 x00 x00 x20 x00)) E)
(L (W x00 x00 x80 xbf x00 x00 x80 xbf)))
(T (W x00 x00 x80 xbf x00 x00 x80 xbf)
(L (W x00 x00 x80 xbf x00 x00 x80 xbf))
(L (W x00 x00 x80 xbf x00 x00 x80 xbf))))))
(T (W xd0 x1b x00 x00 x94 x1b x00 x00)
(T (W x00 x00 x80 xbf x00 x00 x80 xbf)
(T (W x00 x00 x80 xbf x00 x00 x80 xbf)
(T (W x00 x00 x80 xbf x0c xc6 xff xff)
(T (W x00 x00 x80 xbf x00 x00 x80 xbf)
(L (W x00 x00 x80 xbf x00 x00 x80 xbf)) E)
(L (W x00 x00 x80 xbf x00 x00 x80 xbf)))
(T (W x00 x00 x80 xbf x00 x00 x80 xbf)
(T (W x00 x00 x80 xbf x00 x00 x80 xbf)
(L (W x00 x00 xc0 x3f x00 x00 x00 x3f)) E)
(L (W x11 x00 x00 x00 x00 x00 x80 xbf))))
(T (W x00 x00 x80 xbf x00 x00 x80 xbf)
(T (W x00 x00 x80 xbf x00 x00 x80 xbf)
(T (W x20 x00 x30 x00 x04 x00 x00 x00)
(L (W x00 x00 x80 xbf x4c xf9 xff xff)) E)
(L (W x00 x00 x80 xbf x00 x00 x80 xbf)))
(T (W x00 x00 x80 xbf x00 x00 x80 xbf)
(L (W x00 x00 xc0 x3f x00 x00 x00 x3f))
(L (W x00 x00 x80 xbf x00 x00 x80 xbf)))))
(T (W x00 x00 x80 xbf x00 x00 x80 xbf)
(T (W x73 x02 x00 x00 x00 x00 x80 xbf)
(T (W x00 x00 x80 xbf x00 x00 x80 xbf)
(T (W x00 x00 x80 xbf x00 x00 x80 xbf)
(L (W x00 x00 x80 xbf x00 x00 x80 xbf)) E)
(L (W x00 x00 x80 xbf x00 x00 x80 xbf)))
(T (W x00 x00 x00 x3f x00 x00 x80 xbf)
(T (W x00 x00 x80 xbf x00 x00 x80 xbf)
(L (W x0c x00 x10 x00 x14 x00 x18 x00)) E)
(L (W x00 x00 x80 xbf x00 x00 x80 xbf))))
(T (W x00 x00 x80 xbf x00 x00 x80 xbf)
(T (W xde x01 x00 x00 x00 x00 x80 xbf)
(T (W x00 x00 x80 xbf x00 x00 x80 xbf)
(L (W x00 x00 x80 xbf x00 x00 x80 xbf)) E)
(L (W x00 x00 x80 xbf x00 x00 x80 xbf)))
(T (W x00 x00 x80 xbf x00 x00 x80 xbf)
(L (W x00 x00 x80 xbf x00 x00 xc0 x3f))
(L (W x00 x00 x80 xbf x00 x00 x80 xbf)))))))
(T (W x40 x32 x00 x00 x04 x32 x00 x00)
(T (W x40 x23 x00 x00 x04 x23 x00 x00)
(T (W xac x04 x00 x00 x70 x04 x00 x00)
(T (W xc2 x02 x00 x00 x01 x00 x00 x00)
(T (W x00 x00 x80 xbf x00 x00 x80 xbf)
(T (W x00 x00 x80 xbf x00 x00 x80 xbf)
(L (W x44 xf4 xff xff x89 x00 x00 x00)) E)
(L (W x00 x00 x80 xbf x00 x00 x80 xbf)))
(T (W x00 x00 x80 xbf x00 x00 x80 xbf)
(T (W x00 x00 x80 xbf x00 x00 x80 xbf)
(L (W x00 x00 x80 xbf x00 x00 x80 xbf)) E)
(L (W x88 xed xff xff xc9 x00 x00 x00))))
(T (W x00 x00 x80 xbf x00 x00 x80 xbf)
(T (W xe3 x01 x00 x00 x01 x00 x00 x00)
(T (W x00 x00 x80 xbf x00 x00 x80 xbf)
(L (W x9a x99 x99 x3f x00 x00 x80 xbf)) E)
(L (W x00 x00 x80 xbf x00 x00 x80 xbf)))
(T (W x00 x00 x80 xbf x00 x00 x80 xbf)
(T (W x00 x00 x80 xbf x00 x00 x80 xbf)
(L (W x00 x00 x80 xbf x00 x00 x80 xbf)) E)
(L (W xc9 x00 x00 x00 x02 x00 x00 x00)))))
(T (W x00 x00 x80 xbf x00 x00 x80 xbf)
(T (W x00 x00 x80 xbf x00 x00 x80 xbf)
(T (W xea x01 x00 x00 x00 x00 x80 xbf)
(T (W x00 x00 x80 xbf x00 x00 x80 xbf)
(L (W x00 x00 x80 xbf x00 x00 x80 xbf)) E)
(L (W x00 x00 x80 xbf x00 x00 x80 xbf)))
(T (W x00 x00 x80 xbf x00 x00 x80 xbf)
(T (W x00 x00 x80 xbf x00 x00 x80 xbf)
(L (W x00 x00 x80 xbf x8c xff xff xff)) E)
(L (W x00 x00 x80 xbf x00 x00 x80 xbf))))
(T (W x00 x00 x80 xbf x00 x00 x80 xbf)
(T (W x00 x00 x80 xbf x00 x00 x80 xbf)
(T (W x00 x00 x80 xbf x00 x00 x80 xbf)
(L (W x00 x00 x80 xbf x00 x00 x80 xbf)) E)
(L (W x00 x00 x80 xbf x00 x00 x80 xbf)))
(T (W x00 x00 x80 xbf x00 x00 x80 xbf)
(L (W x00 x00 x80 xbf x9a x99 x99 x3f))
(L (W x00 x00 x80 xbf x00 x00 x80 xbf))))))
(T (W x48 x14 x00 x00 x08 x14 x00 x00)
(T (W x87 x03 x00 x00 x00 x00 x80 xbf)
(T (W x00 x00 x80 xbf x00 x00 x80 xbf)
(T (W xed x01 x00 x00 x00 x00 x80 xbf)
(T (W x00 x00 x80 xbf x00 x00 x80 xbf)
(L (W x00 x00 x80 xbf x48 xf5 xff xff)) E)
(L (W x00 x00 x80 xbf xcc xe5 xff xff)))
(T (W x00 x00 x80 xbf x00 x00 x80 xbf)
(T (W x00 x00 x80 xbf x00 x00 x80 xbf)
(L (W x00 x00 x80 xbf x48 xfd xff xff)) E)
(L (W x00 x00 x80 xbf x00 x00 x80 xbf))))
(T (W x88 xc2 xff xff xed x01 x00 x00)
(T (W x00 x00 x80 xbf x00 x00 x80 xbf)
(T (W x00 x00 x80 xbf x00 x00 x80 xbf)
(L (W x00 x00 x80 xbf x00 x00 x80 xbf)) E)
(L (W x00 x00 xc0 x3f x48 xe9 xff xff)))
(T (W xc2 x01 x00 x00 x00 x00 x80 xbf)
(L (W x44 xe1 xff xff x85 x01 x00 x00))
(L (W x00 x00 x80 xbf x48 xf1 xff xff)))))
(T (W x00 x00 x80 xbf x00 x00 x80 xbf)
(T (W x00 x00 x80 xbf x00 x00 x80 xbf)
(T (W x00 x00 x80 xbf x00 x00 x80 xbf)
(T (W x00 x00 x80 xbf x00 x00 x80 xbf)
(L (W x6f x00 x00 x00 x00 x00 x80 xbf)) E)
(L (W x00 x00 x80 xbf x00 x00 x80 xbf)))
(T (W x00 x00 xc0 x3f x48 xcf xff xff)
(T (W x00 x00 x80 xbf x00 x00 x80 xbf)
(L (W x00 x00 x00 x3f x00 x00 x00 x3f)) E)
(L (W x00 x00 x80 xbf x00 x00 x80 xbf))))
(T (W x00 x00 x80 xbf x00 x00 x80 xbf)
(T (W x00 x00 x80 xbf x00 x00 x80 xbf)
(T (W x00 x00 x80 xbf x00 x00 x80 xbf)
(L (W x00 x00 x80 xbf x48 xfb xff xff)) E)
(L (W x00 x00 x80 xbf x00 x00 x80 xbf)))
(T (W xbb x01 x00 x00 x00 x00 x80 xbf)
(L (W x00 x00 x80 xbf x00 x00 x80 xbf))
(L (W x0c x00 x10 x00 x14 x00 x18 x00)))))))))
(T (W x2c x47 x00 x00 xf0 x46 x00 x00)
(T (W x54 x43 x00 x00 x18 x43 x00 x00)
(T (W x14 x3c x00 x00 xd4 x3b x00 x00)
(T (W xb8 x2c x00 x00 x7c x2c x00 x00)
(T (W x9c x0e x00 x00 x60 x0e x00 x00)
(T (W x00 x00 x80 xbf x00 x00 x80 xbf)
(T (W x07 x00 x00 x00 x00 x00 x80 xbf)
(T (W xa4 xd3 xff xff xb9 x01 x00 x00)
(L (W x01 x00 x00 x00 x00 x00 x80 xbf)) E)
(L (W x00 x00 x80 xbf x00 x00 x80 xbf)))
(T (W x00 x00 x80 xbf x00 x00 x80 xbf)
(T (W x00 x00 x80 xbf x00 x00 x80 xbf)
(L (W x00 x00 x80 xbf x00 x00 x80 xbf)) E)
(L (W x00 x00 x80 xbf x00 x00 x80 xbf))))
(T (W x00 x00 x80 xbf x00 x00 x80 xbf)
(T (W x00 x00 x80 xbf x00 x00 x80 xbf)
(T (W xa7 x01 x00 x00 x01 x00 x00 x00)
(L (W x00 x00 x80 xbf x00 x00 x80 xbf)) E)
(L (W x00 x00 x80 xbf x00 x00 x80 xbf)))
(T (W x00 x00 x80 xbf x00 x00 x80 xbf)
(T (W x00 x00 x80 xbf x00 x00 x80 xbf)
(L (W x00 x00 x80 x3f x00 x00 x80 xbf)) E)
(L (W x00 x00 x80 xbf x00 x00 x80 xbf)))))
(T (W x00 x00 x80 xbf x00 x00 x80 xbf)
(T (W x01 x00 x00 x00 x00 x00 x80 xbf)
(T (W x00 x00 x80 xbf x00 x00 x80 xbf)
(T (W x00 x00 x80 xbf x00 x00 x80 xbf)
(L (W x00 x00 x80 xbf x00 x00 x80 xbf)) E)
(L (W x00 x00 x80 xbf x20 x00 x34 x00)))
(T (W x00 x00 x80 xbf x00 x00 x80 xbf)
(T (W x9a x99 x99 x3f x00 x00 x80 xbf)
(L (W x00 x00 x80 xbf x00 x00 x80 xbf)) E)
(L (W x00 x00 x80 xbf x00 x00 x80 xbf))))
(T (W x00 x00 x80 xbf x00 x00 x80 xbf)
(T (W x00 x00 x80 xbf x00 x00 x80 xbf)
(T (W x9a x99 x99 x3f x00 x00 x80 xbf)
(L (W x00 x00 x80 xbf x00 x00 x80 xbf)) E)
(L (W x00 x00 x80 xbf x00 x00 x80 xbf)))
(T (W x00 x00 x80 xbf x00 x00 x80 xbf)
(L (W x00 x00 x80 xbf x00 x00 x80 xbf))
(L (W x00 x00 x80 xbf x00 x00 x80 xbf))))))
(T (W xa8 x1d x00 x00 x6c x1d x00 x00)
(T (W x00 x00 x80 xbf x00 x00 x80 xbf)
(T (W x00 x00 x80 xbf x00 x00 x00 x3f)
(T (W x00 x00 x80 xbf x00 x00 x80 xbf)
(T (W x00 x00 x80 xbf x00 x00 x80 xbf)
(L (W x87 x00 x00 x00 x00 x00 x80 xbf)) E)
(L (W x00 x00 x80 xbf x00 x00 x80 xbf)))
(T (W xa4 xcc xff xff xd6 x01 x00 x00)
(T (W x00 x00 x80 xbf x00 x00 x80 xbf)
(L (W x00 x00 x80 xbf x00 x00 x80 xbf)) E)
(L (W x00 x00 x80 xbf x00 x00 x80 xbf))))
(T (W x00 x00 x80 xbf x00 x00 x80 xbf)
(T (W x00 x00 x80 xbf x00 x00 x80 xbf)
(T (W x1a x00 x00 x00 xa5 x01 x00 x00)
(L (W x00 x00 x80 xbf x00 x00 x80 xbf)) E)
(L (W x00 x00 x80 xbf x00 x00 x80 xbf)))
(T (W x00 x00 x80 xbf x00 x00 x80 xbf)
(L (W x00 x00 x80 xbf x00 x00 x80 xbf))
(L (W x00 x00 x80 xbf x00 x00 x80 xbf)))))
(T (W x00 x00 x80 xbf x00 x00 x80 xbf)
(T (W x00 x00 x80 xbf x00 x00 x80 xbf)
(T (W x00 x00 x80 xbf x00 x00 x80 xbf)
(T (W xac x01 x00 x00 x00 x00 x80 xbf)
(L (W x00 x00 x80 xbf x00 x00 x80 xbf)) E)
(L (W xa4 xe6 xff xff xef x00 x00 x00)))
(T (W x00 x00 x80 xbf x00 x00 x80 xbf)
(T (W xa4 xde xff xff x91 x01 x00 x00)
(L (W x00 x00 x00 x3f x00 x00 x00 x3f)) E)
(L (W x09 x00 x00 x00 x00 x00 x80 xbf))))
(T (W x00 x00 x80 xbf x00 x00 x80 xbf)
(T (W x00 x00 x80 xbf x00 x00 x80 xbf)
(T (W x9e x01 x00 x00 x01 x00 x00 x00)
(L (W x4a x00 x00 x00 x00 x00 x80 xbf)) E)
(L (W xc9 x00 x00 x00 x1a x00 x00 x00)))
(T (W x00 x00 x80 xbf x00 x00 x80 xbf)
(L (W x00 x00 x80 xbf x00 x00 x80 xbf))
(L (W x00 x00 x80 xbf x00 x00 x80 xbf)))))))
(T (W x24 x34 x00 x00 xe8 x33 x00 x00)
(T (W x2c x25 x00 x00 xec x24 x00 x00)
(T (W x9c x06 x00 x00 x5c x06 x00 x00)
(T (W x00 x00 x80 xbf x00 x00 x80 xbf)
(T (W x00 x00 x80 xbf x00 x00 x80 xbf)
(T (W x00 x00 x80 xbf x00 x00 x80 xbf)
(L (W x00 x00 x80 xbf x00 x00 x80 xbf)) E)
(L (W x00 x00 x80 xbf xcd xcc x4c x3f)))
(T (W x00 x00 x00 x3f x00 x00 x80 xbf)
(T (W x00 x00 x80 xbf x00 x00 x80 xbf)
(L (W x00 x00 x80 xbf x28 xfc xff xff)) E)
(L (W x00 x00 x80 xbf x00 x00 x80 xbf))))
(T (W x24 xc0 xff xff x24 x02 x00 x00)
(T (W x00 x00 x80 xbf x00 x00 x80 xbf)
(T (W x00 x00 x80 xbf x00 x00 x80 xbf)
(L (W x00 x00 x80 xbf x6c xf9 xff xff)) E)
(L (W x00 x00 x80 xbf x00 x00 xc0 x3f)))
(T (W x00 x00 x80 xbf x28 xd0 xff xff)
(T (W x00 x00 x80 xbf x00 x00 x80 xbf)
(L (W x19 x00 x00 x00 x00 x00 x80 xbf)) E)
(L (W x00 x00 x80 xbf x00 x00 x80 xbf)))))
(T (W x68 xbb xff xff x84 x03 x00 x00)
(T (W x00 x00 x80 xbf x00 x00 x80 xbf)
(T (W x00 x00 x80 xbf x00 x00 x80 xbf)
(T (W x00 x00 x80 xbf x00 x00 x80 xbf)
(L (W x00 x00 x80 xbf x28 xf6 xff xff)) E)
(L (W x00 x00 x80 xbf x00 x00 x80 xbf)))
(T (W x00 x00 x80 xbf x00 x00 x80 xbf)
(T (W x00 x00 x80 xbf x00 x00 x80 xbf)
(L (W x00 x00 x80 xbf x00 x00 x80 xbf)) E)
(L (W x68 xef xff xff xc9 x00 x00 x00))))
(T (W x00 x00 x80 xbf x00 x00 x80 xbf)
(T (W x00 x00 x80 xbf x00 x00 x80 xbf)
(T (W x00 x00 x80 xbf x00 x00 x80 xbf)
(L (W x9a x99 x99 x3f x00 x00 x00 x3f)) E)
(L (W x00 x00 x80 xbf x00 x00 x80 xbf)))
(T (W x24 xd2 xff xff xbf x01 x00 x00)
(L (W x24 xe2 xff xff x6c x01 x00 x00))
(L (W x00 x00 x80 xbf x28 xf2 xff xff))))))
(T (W x28 x16 x00 x00 xec x15 x00 x00)
(T (W x00 x00 x80 xbf x00 x00 x80 xbf)
(T (W x00 x00 x80 xbf x6c xbe xff xff)
(T (W x00 x00 x80 xbf x00 x00 x80 xbf)
(T (W x00 x00 x80 xbf x00 x00 x80 xbf)
(L (W x00 x00 x80 xbf x00 x00 x80 xbf)) E)
(L (W x00 x00 x80 xbf x00 x00 x80 xbf)))
(T (W x00 x00 x80 xbf x00 x00 x80 xbf)
(T (W x00 x00 x80 xbf x00 x00 x80 xbf)
(L (W x00 x00 x80 xbf x00 x00 x80 xbf)) E)
(L (W x00 x00 x80 xbf x00 x00 x80 xbf))))
(T (W x00 x00 x80 xbf x00 x00 x80 xbf)
(T (W x24 xc9 xff xff xe0 x01 x00 x00)
(T (W x00 x00 x80 xbf x00 x00 x80 xbf)
(L (W x52 x00 x00 x00 x00 x00 x80 xbf)) E)
(L (W x00 x00 x80 xbf x00 x00 x40 x3f)))
(T (W x00 x00 x80 xbf x00 x00 x80 xbf)
(L (W x9a x99 x99 x3f x00 x00 x80 xbf))
(L (W x00 x00 x80 xbf x00 x00 x80 xbf)))))
(T (W xd3 x02 x00 x00 x00 x00 x80 xbf)
(T (W x00 x00 x80 xbf x00 x00 x80 xbf)
(T (W x24 xc7 xff xff xe7 x01 x00 x00)
(T (W x00 x00 x80 xbf x00 x00 x80 xbf)
(L (W x00 x00 x80 xbf x00 x00 x80 xbf)) E)
(L (W x00 x00 x80 xbf x00 x00 x80 xbf)))
(T (W x00 x00 x80 xbf xcd xcc x4c x3f)
(T (W x00 x00 x80 xbf x00 x00 x80 xbf)
(L (W x00 x00 x80 xbf x00 x00 x80 xbf)) E)
(L (W x00 x00 x80 xbf x00 x00 x80 xbf))))
(T (W x68 xc4 xff xff xed x01 x00 x00)
(T (W x00 x00 x80 xbf x00 x00 x80 xbf)
(T (W x00 x00 x80 xbf x00 x00 x80 xbf)
(L (W x00 x00 x80 xbf x00 x00 x80 xbf)) E)
(L (W x00 x00 x80 xbf x00 x00 x80 xbf)))
(T (W x00 x00 x80 xbf x00 x00 x80 xbf)
(L (W x00 x00 x80 xbf x00 x00 x80 xbf))
(L (W x00 x00 x80 xbf x00 x00 x80 xbf))))))))
(T (W xa8 x3f x00 x00 x80 x3f x00 x00)
(T (W x14 x38 x00 x00 xd4 x37 x00 x00)
(T (W xf8 x28 x00 x00 xbc x28 x00 x00)
(T (W x8c x0a x00 x00 x4c x0a x00 x00)
(T (W x00 x00 x80 xbf xcd xcc x4c x3f)
(T (W x00 x00 x80 xbf x00 x00 x80 xbf)
(T (W x00 x00 x80 xbf x00 x00 x80 xbf)
(L (W x00 x00 xc0 x3f xf6 xf9 xff xff)) E)
(L (W x00 x00 x80 xbf x00 x00 x80 xbf)))
(T (W x00 x00 x80 xbf x00 x00 x80 xbf)
(T (W x00 x00 x80 xbf x00 x00 x80 xbf)
(L (W x00 x00 x80 xbf x00 x00 x80 xbf)) E)
(L (W x00 x00 x80 xbf x00 x00 x80 xbf))))
(T (W x00 x00 x80 xbf x2c xc1 xff xff)
(T (W x00 x00 x80 xbf x00 x00 x80 xbf)
(T (W x00 x00 x80 xbf x00 x00 x80 xbf)
(L (W x00 x00 x80 xbf x00 x00 x80 xbf)) E)
(L (W x00 x00 x80 xbf x00 x00 x80 xbf)))
(T (W x00 x00 x80 xbf x00 x00 x80 xbf)
(T (W x00 x00 x80 xbf x00 x00 x80 xbf)
(L (W x00 x00 x80 xbf x00 x00 x80 xbf)) E)
(L (W x00 x00 x80 xbf x00 x00 x80 xbf)))))
(T (W x00 x00 x80 xbf x00 x00 x80 xbf)
(T (W x00 x00 x80 xbf x00 x00 x80 xbf)
(T (W x00 x00 x80 xbf x00 x00 x80 xbf)
(T (W x00 x00 x80 xbf x00 x00 x80 xbf)
(L (W x00 x00 x00 x3f x00 x00 x00 x3f)) E)
(L (W x00 x00 x80 xbf x00 x00 x80 xbf)))
(T (W x00 x00 x80 xbf x00 x00 x80 xbf)
(T (W x9a x99 x99 x3f x00 x00 x80 xbf)
(L (W x00 x00 x80 xbf x00 x00 x80 xbf)) E)
(L (W x00 x00 x80 xbf x2c xef xff xff))))
(T (W x00 x00 x80 xbf x00 x00 x80 xbf)
(T (W x00 x00 x80 xbf x00 x00 x80 xbf)
(T (W x00 x00 x80 xbf x00 x00 x80 xbf)
(L (W x9a x99 x99 x3f x00 x00 x00 x3f)) E)
(L (W x00 x00 x80 xbf x00 x00 x80 xbf)))
(T (W x00 x00 x80 xbf x00 x00 x80 xbf)
(L (W x00 x00 x80 xbf x00 x00 x80 xbf))
(L (W x00 x00 x80 xbf x00 x00 x80 xbf))))))
(T (W xec x19 x00 x00 xb0 x19 x00 x00)
(T (W x00 x00 x80 xbf x00 x00 x80 xbf)
(T (W x00 x00 x80 xbf x00 x00 xc0 x3f)
(T (W x00 x00 x80 xbf x00 x00 x80 xbf)
(T (W x00 x00 x80 xbf x00 x00 x80 xbf)
(L (W x00 x00 x80 xbf x00 x00 x80 xbf)) E)
(L (W xe4 xe4 xff xff x18 x01 x00 x00)))
(T (W x00 x00 x80 xbf x00 x00 x80 xbf)
(T (W xe4 xdc xff xff x99 x01 x00 x00)
(L (W x00 x00 x80 xbf x00 x00 x80 xbf)) E)
(L (W x00 x00 x80 xbf x00 x00 x80 xbf))))
(T (W x00 x00 x80 xbf x00 x00 x80 xbf)
(T (W x00 x00 x80 xbf x00 x00 x80 xbf)
(T (W x20 x00 x00 x00 xa5 x01 x00 x00)
(L (W x00 x00 x80 xbf x00 x00 x80 xbf)) E)
(L (W x00 x00 x80 xbf x00 x00 x80 xbf)))
(T (W x00 x00 x80 xbf x00 x00 x80 xbf)
(L (W x00 x00 x80 xbf x00 x00 x80 xbf))
(L (W x00 x00 x80 xbf x00 x00 x80 xbf)))))
(T (W x18 x00 x1c x00 x20 x00 x24 x00)
(T (W x00 x00 x80 xbf x00 x00 x80 xbf)
(T (W x00 x00 x80 xbf x2c xc8 xff xff)
(T (W x00 x00 x80 xbf x00 x00 x80 xbf)
(L (W x00 x00 x80 xbf x00 x00 x80 xbf)) E)
(L (W x00 x00 x80 xbf x00 x00 x80 xbf)))
(T (W x00 x00 x80 xbf x00 x00 x80 xbf)
(T (W x00 x00 x80 xbf x00 x00 x80 xbf)
(L (W x01 x00 x00 x00 x00 x00 x80 xbf)) E)
(L (W x00 x00 x80 xbf x00 x00 x80 xbf))))
(T (W x00 x00 x80 xbf x2c xc4 xff xff)
(T (W x00 x00 x80 xbf x00 x00 xc0 x3f)
(T (W x00 x00 x80 xbf x00 x00 x80 xbf)
(L (W x00 x00 x80 xbf x00 x00 x80 xbf)) E)
(L (W x19 x00 x00 x00 x00 x00 x80 xbf)))
(T (W x00 x00 x80 xbf x00 x00 x80 xbf)
(L (W xcd xcc x4c x3f x00 x00 x80 xbf))
(L (W x00 x00 x80 xbf x00 x00 x80 xbf)))))))
(T (W x64 x30 x00 x00 x0c x30 x00 x00)
(T (W x3c x21 x00 x00 x00 x21 x00 x00)
(T (W xbc x02 x00 x00 x88 x02 x00 x00)
(T (W x9a x99 x99 x3f x00 x00 x80 xbf)
(T (W x00 x00 x80 xbf x00 x00 x80 xbf)
(T (W x00 x00 x80 xbf x00 x00 x80 xbf)
(L (W x00 x00 x80 xbf x00 x00 x80 xbf)) E)
(L (W x00 x00 x80 xbf x00 x00 x80 xbf)))
(T (W x00 x00 x80 xbf x00 x00 x80 xbf)
(T (W x00 x00 x80 xbf x00 x00 x80 xbf)
(L (W x3f x00 x00 x00 x00 x00 x80 xbf)) E)
(L (W x00 x00 x80 xbf x00 x00 x80 xbf))))
(T (W x01 x00 x00 x00 x00 x00 x80 xbf)
(T (W x00 x00 x80 xbf x00 x00 x80 xbf)
(T (W x00 x00 x80 xbf x00 x00 x80 xbf)
(L (W x64 xf8 xff xff x5f x00 x00 x00)) E)
(L (W x64 xe8 xff xff xd9 x00 x00 x00)))
(T (W xc6 x01 x00 x00 x00 x00 x80 xbf)
(L (W x64 xe0 xff xff x89 x01 x00 x00))
(L (W x00 x00 x80 xbf x00 x00 x80 xbf)))))
(T (W x84 x03 x00 x00 x00 x00 x80 xbf)
(T (W x00 x00 x80 xbf x00 x00 x80 xbf)
(T (W x00 x00 x80 xbf x00 x00 x80 xbf)
(T (W xa8 xd7 xff xff xac x01 x00 x00)
(L (W x7a x00 x00 x00 x00 x00 x80 xbf)) E)
(L (W x00 x00 x80 xbf x00 x00 x80 xbf)))
(T (W x64 xce xff xff xce x01 x00 x00)
(T (W x00 x00 xc0 x3f x00 x00 x80 xbf)
(L (W x00 x00 x80 xbf x00 x00 x80 xbf)) E)
(L (W xc9 x00 x00 x00 x0a x00 x00 x00))))
(T (W x00 x00 x80 xbf x00 x00 x80 xbf)
(T (W x00 x00 x80 xbf x00 x00 x80 xbf)
(T (W xa8 xdb xff xff x9e x01 x00 x00)
(L (W x00 x00 x80 xbf x68 xfa xff xff)) E)
(L (W xa8 xeb xff xff xc9 x00 x00 x00)))
(T (W x00 x00 x80 xbf x00 x00 x80 xbf)
(L (W x00 x00 x80 xbf x00 x00 x80 xbf))
(L (W xb0 x00 x00 x00 x00 x00 x80 xbf))))))
(T (W x70 x12 x00 x00 x30 x12 x00 x00)
(T (W x00 x00 x80 xbf x00 x00 x80 xbf)
(T (W x64 xbd xff xff x85 x02 x00 x00)
(T (W x00 x00 x80 xbf x00 x00 x80 xbf)
(T (W x64 xd5 xff xff xb1 x01 x00 x00)
(L (W x00 x00 x80 xbf x9a x99 x99 x3f)) E)
(L (W x00 x00 x80 xbf x00 x00 x80 xbf)))
(T (W x9a x99 x99 x3f x00 x00 x00 x3f)
(T (W x00 x00 x80 xbf x00 x00 x80 xbf)
(L (W x00 x00 x80 xbf x9a x99 x99 x3f)) E)
(L (W x00 x00 x80 xbf x00 x00 x80 xbf))))
(T (W x00 x00 x80 xbf x00 x00 x80 xbf)
(T (W x05 x00 x00 x00 x00 x00 x80 xbf)
(T (W x00 x00 x80 xbf x00 x00 x80 xbf)
(L (W x10 x00 x14 x00 x18 x00 x1c x00)) E)
(L (W x00 x00 x80 xbf x00 x00 x80 xbf)))
(T (W x00 x00 x80 xbf x00 x00 x80 xbf)
(L (W x00 x00 x80 xbf x00 x00 x80 xbf))
(L (W x00 x00 x80 xbf x00 x00 x80 xbf)))))
(T (W x00 x00 x80 xbf x00 x00 x80 xbf)
(T (W x00 x00 x80 xbf x00 x00 x80 xbf)
(T (W x00 x00 x80 xbf x00 x00 x80 xbf)
(T (W x00 x00 x80 xbf x68 xd7 xff xff)
(L (W x00 x00 x80 xbf x00 x00 x80 xbf)) E)
(L (W x00 x00 x80 xbf x00 x00 x80 xbf)))
(T (W x00 x00 x80 xbf x00 x00 x80 xbf)
(T (W x00 x00 x80 xbf x00 x00 x80 xbf)
(L (W x00 x00 x80 xbf x00 x00 x80 xbf)) E)
(L (W x00 x00 x80 xbf x00 x00 x80 xbf))))
(T (W xed x01 x00 x00 x08 x00 x00 x00)
(T (W x00 x00 x80 xbf x00 x00 x80 xbf)
(T (W x00 x00 x80 xbf x00 x00 x80 xbf)
(L (W x00 x00 x80 xbf x00 x00 x80 xbf)) E)
(L (W x00 x00 x80 xbf x00 x00 x80 xbf)))
(T (W x00 x00 x80 xbf x00 x00 x80 xbf)
(L (W x00 x00 x80 xbf xec xe3 xff xff))
(L (W x00 x00 x80 xbf x00 x00 x80 xbf)))))))))))).
