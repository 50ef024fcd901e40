(** Generated by tools/gen_personal_files.py from resources/bin/personal/personal_swsh. *)
From Coq Require Import NArith Strings.Byte.
From Verif Require Import Model.Trie.
Definition swsh_size : N := 209792%N.
Definition swsh_trie : trie :=
(T (W x00 x00 x00 x00 x00 x00 x00 x00)
(T (W x00 x00 x00 x00 x00 x00 x00 x00)
(T (W x00 x00 x00 x00 x00 x00 x00 x00)
(T (W x00 x00 x00 x00 x00 x00 x00 x00)
(T (W x00 x00 x00 x00 x00 x00 x00 x00)
(T (W x00 x00 x00 x00 x01 x00 x00 x00)
(T (W x00 x00 xca x00 x00 x00 x49 x00)
(T (W x05 x05 x03 x03 x04 x02 x02 x03)
(T (W x1e x00 x00 x00 x00 x00 x1e x00)
(T (W x00 x00 x00 x00 x00 x00 x00 x00)
(T (W x00 x00 x00 x00 x00 x00 x00 x00)
(T (W x5a x02 x00 x02 x00 x00 x00 x00)
(T (W x0b x00 x06 x00 x02 x00 x00 x00)
(T (W x40 x00 x00 x00 x0e xa0 x10 x0d)
(L (W x01 x00 x01 x00 x01 x01 x04 x04))
(L (W x78 x01 x10 x00 x00 x00 x00 x00)))
(T (W x00 x00 x00 x00 x57 x00 x00 x00)
(L (W x00 x00 x00 x00 x00 x00 x00 x00)) E))
(T (W x40 x03 xa0 xcb x9a x41 x80 x0b)
(T (W x00 x00 x00 x00 xd1 x01 x00 x00)
(L (W x05 x05 x03 x03 x03 x02 x02 x03)) E)
(T (W x01 x00 x00 x00 x00 x00 x00 x00)
(L (W x08 x80 x00 x00 x00 x00 x00 x00)) E)))
(T (W x1e x00 x00 x00 x00 x00 x3c x00)
(T (W x00 x00 x00 x00 x00 x00 x00 x00)
(T (W x00 x00 x00 x00 x00 x00 x00 x00)
(L (W x00 x6b x6e x07 x84 x03 x01 x00))
(L (W x01 x00 x00 x00 x00 x00 x00 x00)))
(T (W xff x01 x00 x01 x00 x00 x00 x00)
(L (W x00 x00 x00 x00 x00 x00 x00 x00)) E))
(T (W x01 x01 x01 x01 x01 x01 x01 x01)
(T (W x00 x00 x00 x00 x00 x00 x00 x00)
(L (W xc0 x00 x00 x00 x03 x03 x10 x0d)) E)
(T (W xae x00 xae x00 x75 x00 x00 x00)
(L (W x00 x00 x00 x00 x00 x00 x00 x00)) E))))
(T (W x01 x01 x01 x01 x01 x01 x01 x01)
(T (W x00 x00 x00 x00 x78 x30 x11 x0d)
(T (W x00 x00 x00 x00 x00 x00 x00 x00)
(T (W x01 x00 x00 x00 x00 x00 x00 x00)
(L (W x00 x08 x00 x00 x7c x00 x00 x00))
(L (W xc1 x00 x00 x00 x35 x01 x38 x0d)))
(T (W x01 x01 x01 x01 x01 x01 x01 x01)
(L (W x00 x00 x00 x00 x00 x00 x00 x00)) E))
(T (W x00 x00 x00 x00 x26 x01 x00 x00)
(T (W x03 x00 x00 x00 x00 x00 x00 x00)
(L (W x2d x03 x0c x00 x00 x00 x00 x00)) E)
(T (W x00 x00 xea x01 x00 x00 x07 x01)
(L (W x00 x00 x00 x00 x00 x00 x00 x00)) E)))
(T (W x00 x00 x00 x00 x00 x00 x00 x00)
(T (W x00 x00 x00 x00 x00 x00 x00 x00)
(T (W x2e x00 x2e x00 x97 x00 x00 x00)
(L (W x00 x00 x00 x00 x05 x00 x00 x00))
(L (W x00 x00 x00 x00 x00 x00 x00 x00)))
(T (W x00 x00 x00 x00 x00 x10 x10 x0c)
(L (W x00 x00 x00 x00 x00 x00 x00 x00)) E))
(T (W xff x01 x40 x00 x00 x00 x00 x00)
(T (W x00 x00 x21 x8b x8a x40 x30 x00)
(L (W x1e x00 x00 x00 x00 x00 x3c x00)) E)
(T (W x0c x00 x00 x00 x05 x03 x00 x00)
(L (W x01 x01 x01 x01 x01 x01 x01 x01)) E)))))
(T (W x00 x00 x74 x00 x00 x00 x8e x01)
(T (W x16 x00 x12 x00 x9a x00 x00 x00)
(T (W x02 x00 x02 x00 x02 x02 x05 x05)
(T (W x05 x05 x05 x05 x05 x02 x02 x05)
(T (W x00 x01 x00 x00 x00 x00 x00 x00)
(L (W x00 x00 x00 x00 x00 x00 x52 x0c))
(L (W x00 x00 x00 x00 x00 x00 x00 x00)))
(T (W x95 x00 x95 x00 x95 x00 x00 x00)
(L (W x00 x00 x00 x00 x00 x00 x00 x00)) E))
(T (W x00 x00 xe8 x00 x00 x00 xe8 x00)
(T (W x2d x03 x10 x08 x00 x00 xf7 x00)
(L (W x00 x00 x00 x00 x9a x03 x00 x00)) E)
(T (W x40 x2b xa0 xc3 xc4 x01 x00 x01)
(L (W x01 x00 x00 x00 x00 x00 x00 x00)) E)))
(T (W xff xff xff xff xff xff xff xff)
(T (W x00 x00 x00 x00 x06 x90 x30 x8c)
(T (W x00 x00 x00 x00 x00 x00 x00 x00)
(L (W x00 x00 xc8 x02 x00 x00 xc8 x02))
(L (W x00 x0f x2a xb3 x80 x92 x00 x88)))
(T (W x02 x00 x02 x00 x03 x02 x05 x04)
(L (W x2d x02 x40 x01 x00 x00 x00 x00)) E))
(T (W x00 x00 x00 x00 x51 x01 x00 x00)
(T (W x01 x00 x00 x00 x00 x00 x00 x00)
(L (W x00 x40 x00 x00 x00 x00 xc9 x00)) E)
(T (W x05 x05 x04 x04 x04 x02 x02 x04)
(L (W x00 x00 x00 x00 x00 x00 x00 x00)) E))))
(T (W x00 x00 x00 x00 x51 x00 x00 x00)
(T (W x00 x00 x00 x00 x78 x00 x00 x00)
(T (W x4b x02 x05 x00 x00 x00 x00 x00)
(T (W x80 x0f x20 x93 x86 x41 x04 x00)
(L (W x01 x00 x00 x00 x00 x00 x00 x00))
(L (W x01 x00 x00 x00 x00 x00 x00 x00)))
(T (W x00 x00 x00 x00 x51 x02 x00 x00)
(L (W x01 x01 x01 x01 x01 x01 x01 x01)) E))
(T (W x00 x00 x00 x00 x00 x00 x00 x00)
(T (W x00 x00 x00 x00 x00 x00 x00 x00)
(L (W x01 x00 x03 x00 x02 x03 x05 x05)) E)
(T (W x00 x00 x00 x00 x22 x01 x00 x00)
(L (W x00 x00 x00 x00 x00 x00 x00 x00)) E)))
(T (W x00 x00 x00 x00 x00 x00 x00 x00)
(T (W x01 x00 x00 x00 x00 x00 x00 x00)
(T (W x05 x05 x02 x03 x03 x02 x02 x02)
(L (W x44 x00 x77 x00 x8c x00 x00 x00)) E)
(T (W x40 x00 x00 x00 x00 x00 xce x00)
(L (W x00 x00 x00 x00 x66 xac x30 x4c)) E))
(T (W x02 x00 x02 x00 x02 x02 x05 x05)
(T (W x00 x00 x48 x02 x00 x00 x1b x01)
(L (W x04 x83 xa1 xab xa6 x81 x00 x07)) E)
(T (W x00 x00 x00 x00 x00 x00 x00 x00)
(L (W x00 x00 x00 x00 x00 x00 x00 x00)) E))))))
(T (W x00 x00 x00 x00 x00 x00 x00 x00)
(T (W xeb x01 x01 x00 x00 x00 x00 x00)
(T (W x00 x00 x00 x00 x02 x03 x12 x8c)
(T (W x00 x00 xaf x00 x00 x00 x16 x02)
(T (W x00 x00 x00 x00 x00 x00 x00 x00)
(T (W x1d x00 x1d x00 x73 x00 x00 x00)
(L (W x00 x00 x00 x00 x55 x00 x00 x00))
(L (W x00 x00 x49 x02 x00 x00 x00 x00)))
(T (W x00 x00 x00 x00 x7a x04 x11 x8c)
(L (W x00 x00 x00 x00 x00 x00 x00 x00)) E))
(T (W x00 x00 x00 x00 x00 x00 x00 x00)
(T (W x04 x83 x20 xab x8e xc3 x08 x00)
(L (W x1e x00 x00 x00 x00 x00 x32 x00)) E)
(T (W x00 x00 x00 x00 x00 x00 x00 x00)
(L (W x05 x05 x05 x05 x05 x02 x02 x02)) E)))
(T (W x00 x00 x00 x00 x91 x00 x00 x00)
(T (W x00 x00 x00 x00 x00 x00 x00 x00)
(T (W x00 x00 x00 x00 x00 x00 x00 x00)
(L (W x2d x03 x14 x01 x00 x00 x00 x00))
(L (W x04 x00 x00 x00 x95 x03 x00 x00)))
(T (W x00 x00 x51 x01 x00 x00 x12 x02)
(L (W x00 x00 x20 x8b x9a x20 xa0 x00)) E))
(T (W x01 x00 x00 x00 x00 x00 x00 x00)
(T (W x05 x05 x03 x03 x03 x02 x02 x03)
(L (W x2e x00 x2e x00 x2e x00 xa3 x04)) E)
(T (W x01 x10 x02 x00 x00 x00 x80 x00)
(L (W x00 x00 x00 x00 x00 x00 x00 x00)) E))))
(T (W x01 x00 x00 x00 x00 x00 x00 x00)
(T (W x2b x00 x6f x00 x65 x00 xa6 x03)
(T (W x13 x80 xa5 x8b xbe x89 x00 x0a)
(T (W x00 x00 x00 x00 x00 x00 x00 x00)
(L (W x05 x05 x04 x05 x05 x02 x02 x04))
(L (W xe1 x00 xe1 x00 xe1 x00 x6f x04)))
(T (W x1e x00 x00 x00 x00 x00 x28 x00)
(L (W x00 x00 x00 x00 x00 x00 x00 x00)) E))
(T (W x00 x00 x00 x00 x00 x00 x00 x00)
(T (W x00 x00 x00 x00 x00 x00 x00 x00)
(L (W x00 x00 xf3 x00 x00 x00 xf3 x00)) E)
(T (W x01 x00 x03 x00 x01 x03 x04 x04)
(L (W x00 x00 x00 x00 x00 x00 x00 x00)) E)))
(T (W x00 x00 x00 x00 x00 x00 x00 x00)
(T (W x01 x01 x01 x01 x01 x01 x01 x01)
(T (W x40 x00 x00 x00 x00 x00 x86 x00)
(L (W x00 x00 x00 x00 x03 x04 x12 x8c)) E)
(T (W x37 x00 x37 x00 x37 x00 x00 x00)
(L (W x00 x00 x00 x00 x00 x00 x00 x00)) E))
(T (W x00 x00 x00 x00 x00 x00 x00 x00)
(T (W x00 x00 x00 x00 x00 x00 x00 x00)
(L (W x00 x00 x00 x00 x25 x00 x00 x00)) E)
(T (W x2f x23 x20 x87 xc4 x0c x00 x8d)
(L (W x01 x00 x00 x00 x00 x00 x00 x00)) E)))))
(T (W x02 x00 x01 x00 x02 x01 x06 x06)
(T (W x00 x00 x00 x00 x1f x00 x00 x00)
(T (W x00 x00 x00 x00 xfb x00 x00 x00)
(T (W x01 x00 x00 x00 x00 x00 x00 x00)
(T (W x01 x01 x01 x01 x01 x01 x01 x01)
(L (W x66 x00 x0c x00 xaf x00 x00 x00))
(L (W x00 x00 x00 x00 x9b x00 x00 x00)))
(T (W x00 x04 x00 x00 x00 x00 x34 x00)
(L (W x00 x00 x00 x00 x00 x00 x00 x00)) E))
(T (W x00 x00 x00 x00 x00 x00 x00 x00)
(T (W x00 x00 x81 x00 x00 x00 x00 x00)
(L (W x00 x03 x36 x13 xc0 x10 x00 x02)) E)
(T (W x00 x00 x00 x00 x00 x00 x00 x00)
(L (W x00 x00 x00 x00 x00 x00 x00 x00)) E)))
(T (W x00 x00 x00 x00 x00 x00 x00 x00)
(T (W x2e x00 x2e x00 x90 x00 x00 x00)
(T (W x80 x00 x00 x00 x00 x0c x10 x0e)
(L (W x01 x00 x03 x00 x03 x03 x03 x03))
(L (W x64 x02 x00 x08 x00 x00 x00 x00)))
(T (W x00 x00 x00 x00 x58 x00 x00 x00)
(L (W x00 x00 x00 x00 x00 x00 x00 x00)) E))
(T (W x00 x88 x7e x03 x87 x10 x03 x30)
(T (W x00 x00 x00 x00 x11 x02 x00 x00)
(L (W x05 x05 x02 x03 x04 x02 x02 x02)) E)
(T (W x1e x00 x00 x00 x00 x00 x32 x00)
(L (W x00 x00 x00 x00 x00 x00 x00 x00)) E))))
(T (W x00 x00 x00 x00 x00 x00 x00 x00)
(T (W x05 x05 x03 x04 x05 x02 x02 x03)
(T (W x00 x00 x38 x00 x00 x00 x88 x01)
(T (W x00 x00 x00 x00 x00 x00 x00 x00)
(L (W x00 x00 x00 x00 x3e x03 x00 x00))
(L (W x01 x01 x01 x01 x01 x01 x01 x01)))
(T (W x00 x41 x21 x03 x81 x00 x00 x04)
(L (W x01 x00 x00 x00 x00 x00 x00 x00)) E))
(T (W x04 x40 x00 x00 x70 x00 x00 x00)
(T (W x48 x00 x35 x00 x32 x00 x00 x00)
(L (W x00 x00 x00 x00 x2e x01 x00 x00)) E)
(T (W x00 x00 x00 x00 x31 x00 x51 x8c)
(L (W x00 x00 x00 x00 x00 x00 x00 x00)) E)))
(T (W x00 x00 x00 x00 x00 x00 x00 x00)
(T (W x00 x00 x00 x00 x11 x01 x00 x00)
(T (W x1e x00 x00 x00 x00 x00 x32 x00)
(L (W x10 x00 x00 x00 x00 x00 x03 x00)) E)
(T (W x05 x05 x05 x05 x05 x02 x02 x05)
(L (W x00 x00 x00 x00 x00 x00 x00 x00)) E))
(T (W x00 x00 x00 x00 x00 x00 x00 x00)
(T (W x03 x00 x01 x00 x01 x03 x04 x04)
(L (W xbe x01 x01 x00 x00 x00 x00 x00)) E)
(T (W x00 x00 x55 x00 x00 x00 x55 x00)
(L (W x00 x00 x00 x00 x00 x00 x00 x00)) E)))))))
(T (W x01 x00 x03 x00 x03 x03 x03 x03)
(T (W x00 x00 x00 x00 x00 x00 x00 x00)
(T (W x09 x00 x09 x00 x1f x00 x8e x03)
(T (W x00 x00 x00 x00 x00 x00 x00 x00)
(T (W x00 x11 x00 x00 x00 x00 x00 x00)
(T (W x00 x00 x00 x00 x00 x00 x00 x00)
(T (W x30 x01 x76 x0f x87 x09 x01 x00)
(L (W x1e x00 x00 x00 x00 x00 x32 x00))
(L (W x10 x28 x00 x00 x00 x00 x00 x00)))
(T (W x00 x00 x00 x00 x31 x02 x00 x00)
(L (W x05 x05 x04 x04 x05 x02 x02 x04)) E))
(T (W x1c x00 x24 x00 x8c x00 x00 x00)
(T (W x00 x00 x00 x00 x06 xc8 x1a x6e)
(L (W x03 x00 x03 x00 x02 x03 x04 x04)) E)
(T (W x00 x00 x00 x00 x00 x00 x00 x00)
(L (W x00 x00 x25 x02 x00 x00 x2f x02)) E)))
(T (W x00 x00 x00 x00 x00 x00 x00 x00)
(T (W x01 x00 x00 x00 x00 x00 x00 x00)
(T (W x05 x05 x03 x04 x04 x02 x02 x03)
(L (W xe0 x00 xe0 x00 xe0 x00 x00 x00))
(L (W x00 x00 x00 x00 x00 x00 x00 x00)))
(T (W x02 x28 x00 x00 x00 x00 x30 x00)
(L (W x00 x00 x00 x00 x00 x00 x00 x00)) E))
(T (W x02 x00 x02 x00 x03 x02 x04 x04)
(T (W x00 x00 x00 x00 x00 x00 x00 x00)
(L (W x40 x4b xa6 xc3 xe0 x23 x80 x05)) E)
(T (W x64 x02 x08 x00 x00 x00 xdd x00)
(L (W x00 x00 x00 x00 x00 x00 x00 x00)) E))))
(T (W x02 x00 x01 x00 x02 x01 x05 x05)
(T (W x00 x03 x20 x8b x9a x21 x30 x00)
(T (W x80 x00 x00 x00 x01 x30 x30 x2c)
(T (W x00 x00 x00 x00 x00 x00 x00 x00)
(L (W x00 x00 x0b x02 x00 x00 xca x00))
(L (W x00 x43 x70 x4f x8f x11 x00 x03)))
(T (W x03 x00 x02 x00 x03 x02 x03 x03)
(L (W x00 x00 x00 x00 x00 x00 x00 x00)) E))
(T (W x08 x00 x00 x00 x31 x01 x00 x00)
(T (W x01 x00 x00 x00 x00 x00 x00 x00)
(L (W x00 x80 x00 x00 x00 x00 x00 x00)) E)
(T (W x05 x05 x03 x03 x03 x02 x02 x03)
(L (W x00 x00 x00 x00 x00 x00 x00 x00)) E)))
(T (W x01 x01 x01 x01 x01 x01 x01 x01)
(T (W x00 x00 x30 x00 x00 x00 x37 x00)
(T (W x2d x03 x0c x00 x00 x00 x00 x00)
(L (W x04 x00 x00 x00 xb8 x03 x00 x00))
(L (W x05 x05 x05 x05 x05 x02 x02 x02)))
(T (W x28 xaa xa0 x93 xc6 x00 x01 x88)
(L (W x01 x00 x00 x00 x00 x00 x00 x00)) E))
(T (W x00 x00 x00 x00 x00 x00 x00 x00)
(T (W x3e x00 x27 x00 x68 x00 x00 x00)
(L (W x00 x00 x00 x00 xc3 x00 x00 x00)) E)
(T (W x09 x00 x00 x00 x01 x00 x10 x2c)
(L (W x00 x00 x00 x00 x00 x00 x00 x00)) E)))))
(T (W x05 x05 x03 x03 x03 x02 x02 x03)
(T (W x78 x02 x80 x00 x00 x00 xdd x00)
(T (W x1e x00 x00 x00 x00 x00 x32 x00)
(T (W x00 x00 x00 x00 x00 x00 x00 x00)
(T (W x00 x00 x00 x00 x00 x00 x00 x00)
(L (W x33 x00 x60 xa3 x80 x08 x01 x0a))
(L (W x1e x00 x00 x00 x00 x00 x37 x00)))
(T (W x3c x02 x80 x00 x00 x00 x00 x00)
(L (W x00 x00 x00 x00 x00 x00 x00 x00)) E))
(T (W x05 x05 x05 x05 x06 x02 x02 x05)
(T (W x08 x20 x00 x00 x00 x00 x00 x00)
(L (W x00 x00 x00 x00 x02 x00 x31 x0c)) E)
(T (W x00 x00 x00 x00 x00 x00 x00 x00)
(L (W x00 x00 x00 x00 x00 x00 x00 x00)) E)))
(T (W x00 x00 x00 x00 x00 x00 x00 x00)
(T (W x00 x81 x61 x87 x87 x08 x03 x06)
(T (W x00 x00 x00 x00 x00 x00 x00 x00)
(L (W x05 x05 x05 x05 x05 x02 x02 x05))
(L (W xaf x00 xaf x00 xa5 x00 x96 x04)))
(T (W x1e x00 x00 x00 x00 x00 x37 x00)
(L (W x00 x00 x00 x00 x00 x00 x00 x00)) E))
(T (W x00 x00 x00 x00 x78 x04 x13 x0c)
(T (W x00 x00 x00 x00 xaa x00 x00 x00)
(L (W x00 x00 x00 x00 x00 x00 x00 x00)) E)
(T (W x02 x00 x02 x00 x03 x02 x05 x04)
(L (W x00 x00 x00 x00 x00 x00 x00 x00)) E))))
(T (W x00 x00 x00 x00 x00 x00 x00 x00)
(T (W x00 x00 x5d x01 x00 x00 x38 x00)
(T (W x00 x00 x00 x00 x2c x00 x00 x00)
(T (W x00 x00 x00 x00 x00 x00 x00 x00)
(L (W x00 x00 x00 x00 x88 x01 x00 x00))
(L (W x00 x00 x00 x00 x00 x00 x00 x00)))
(T (W x00 x00 x00 x00 x00 x13 x14 x0c)
(L (W x02 x00 x02 x00 x02 x02 x03 x03)) E))
(T (W x00 x00 x00 x00 x00 x00 x00 x00)
(T (W x00 x00 x00 x00 x00 x00 x00 x00)
(L (W x1e x00 x00 x00 x00 x00 x32 x00)) E)
(T (W x04 x00 x00 x00 xec x02 x00 x00)
(L (W x01 x01 x01 x01 x01 x01 x01 x01)) E)))
(T (W x00 x00 x00 x00 xb1 x00 x00 x00)
(T (W x00 x00 x00 x00 x24 x00 x00 x00)
(T (W x00 x00 x00 x00 x00 x00 x00 x00)
(L (W xbe x01 x00 x04 x00 x00 x00 x00)) E)
(T (W x00 x00 xb3 x01 x00 x00 x00 x00)
(L (W x00 x00 x00 x00 x00 x00 x00 x00)) E))
(T (W x1e x00 x00 x00 x00 x00 x3c x00)
(T (W x05 x05 x03 x03 x04 x02 x02 x03)
(L (W x00 x00 x00 x00 x00 x00 x00 x00)) E)
(T (W x00 x00 x00 x00 x00 x00 x00 x00)
(L (W x00 x00 x00 x00 x00 x00 x00 x00)) E))))))
(T (W x00 x00 x00 x00 x00 x00 x00 x00)
(T (W x00 x01 x00 x00 x00 x00 x43 x00)
(T (W x17 x83 x23 x8b x9a x29 x80 x08)
(T (W x01 x01 x01 x01 x01 x01 x01 x01)
(T (W x00 x00 x55 x01 x00 x00 x55 x01)
(T (W x03 x03 x00 x03 x00 x00 x00 x00)
(L (W x00 x00 x00 x00 x64 x03 x00 x00))
(L (W x05 x05 x05 x05 x05 x02 x02 x05)))
(T (W x40 x83 x60 xc7 x81 x01 x51 x05)
(L (W x01 x00 x00 x00 x00 x00 x00 x00)) E))
(T (W x00 x00 x00 x00 x00 x00 x00 x00)
(T (W x5b x00 x58 x00 x94 x00 x00 x00)
(L (W x00 x00 x00 x00 xb4 x00 x00 x00)) E)
(T (W x00 x00 x00 x00 x93 x14 xd0 x8c)
(L (W x00 x00 x00 x00 x00 x00 x00 x00)) E)))
(T (W x40 x00 x00 x00 x7e x93 x11 x8d)
(T (W x08 x00 x00 x00 xf1 x00 x00 x00)
(T (W x1e x00 x00 x00 x00 x00 x28 x00)
(L (W x80 x80 x01 x00 x00 x00 x00 x00))
(L (W x00 x00 x00 x00 x00 x48 x10 x2e)))
(T (W x05 x05 x03 x03 x03 x02 x02 x03)
(L (W x1a x00 x1a x00 x1a x00 xd9 x03)) E))
(T (W x00 x00 x00 x00 x00 x00 x00 x00)
(T (W x03 x00 x03 x00 x02 x03 x04 x04)
(L (W x03 x03 x0c x00 x00 x00 x00 x00)) E)
(T (W x00 x00 x91 x01 x00 x00 xb6 x01)
(L (W x00 x00 x00 x00 x00 x00 x00 x00)) E))))
(T (W x01 x00 x01 x00 x4e x01 x00 x00)
(T (W x2d x02 x80 x00 x00 x00 x42 x01)
(T (W x00 x00 x00 x00 x00 x00 x00 x00)
(T (W x00 x00 x00 x00 x00 x03 x10 x8c)
(L (W x02 x00 x03 x00 x02 x03 x03 x03))
(L (W x03 x03 x03 x00 x00 x00 x00 x00)))
(T (W x00 x00 x00 x00 x00 x00 x00 x00)
(L (W x00 x00 x00 x00 x00 x00 x00 x00)) E))
(T (W x00 x00 x00 x00 x00 x00 x00 x00)
(T (W x00 x00 x00 x00 x00 x00 x00 x00)
(L (W x05 x05 x04 x04 x05 x02 x02 x04)) E)
(T (W x1e x00 x00 x00 x00 x00 x37 x00)
(L (W x00 x00 x00 x00 x00 x00 x00 x00)) E)))
(T (W x1e x00 x00 x00 x00 x00 x28 x00)
(T (W x02 x00 x02 x00 x02 x02 x03 x03)
(T (W x00 x00 x3d x01 x00 x00 x59 x00)
(L (W x40 x03 xa7 xc7 x80 x85 x00 x07)) E)
(T (W x0f x03 x00 x03 xde x00 xde x00)
(L (W x06 x00 x00 x00 x26 x02 x00 x00)) E))
(T (W x01 x01 x01 x01 x01 x01 x01 x01)
(T (W x00 x08 x01 x00 x4a x00 x00 x00)
(L (W x80 x00 x00 x00 x02 x14 x78 x0c)) E)
(T (W x43 x00 x43 x00 xcc x00 x00 x00)
(L (W x00 x00 x00 x00 x00 x00 x00 x00)) E)))))
(T (W x1e x00 x00 x00 x00 x00 x32 x00)
(T (W x00 x00 x07 x00 x00 x00 x08 x01)
(T (W x00 x00 x00 x00 x71 x00 x00 x00)
(T (W x00 x00 x00 x00 x00 x00 x00 x00)
(T (W x00 x00 x00 x00 x00 x00 x00 x00)
(L (W x2d x02 x00 x08 x00 x00 x00 x00))
(L (W x02 x00 x00 x00 x5e x03 x00 x00)))
(T (W x00 x00 xd8 x01 x00 x00 x3c x00)
(L (W x00 x00 x00 x00 x00 x00 x00 x00)) E))
(T (W x01 x00 x00 x00 x00 x00 x00 x00)
(T (W x05 x05 x05 x05 x05 x02 x02 x05)
(L (W x83 x00 x6b x00 x9c x00 x00 x00)) E)
(T (W x00 x00 x00 x00 x00 x00 x00 x00)
(L (W x00 x00 x00 x00 x00 x00 x00 x00)) E)))
(T (W x00 x00 x00 x00 x00 x00 x00 x00)
(T (W x2d x02 x80 x00 x00 x00 x00 x00)
(T (W x00 x48 xae xab x86 x0a x00 x88)
(L (W x1e x00 x00 x00 x00 x00 x46 x00))
(L (W x01 x04 x00 x00 x00 x00 xab x00)))
(T (W x00 x00 x00 x00 x71 x02 x00 x00)
(L (W x01 x01 x01 x01 x01 x01 x01 x01)) E))
(T (W x15 x00 x15 x00 x72 x00 x00 x00)
(T (W x00 x00 x00 x00 x80 x20 x30 x0c)
(L (W x02 x00 x02 x00 x03 x02 x03 x03)) E)
(T (W x00 x00 x00 x00 x00 x00 x00 x00)
(L (W x00 x00 x00 x00 x00 x00 x00 x00)) E))))
(T (W x4b x00 x5c x00 x8e x00 x00 x00)
(T (W x02 x00 x02 x00 x02 x02 x04 x04)
(T (W x01 x01 x01 x01 x01 x01 x01 x01)
(T (W x00 x02 x00 x00 xcb x00 x00 x00)
(L (W x00 x00 x00 x00 x78 x00 x11 x0c))
(L (W x00 x00 x00 x00 x00 x00 x00 x00)))
(T (W x00 x00 x00 x00 x00 x00 x00 x00)
(L (W x00 x00 x00 x00 x00 x00 x00 x00)) E))
(T (W x00 x00 x00 x00 x00 x00 x00 x00)
(T (W xff x01 x40 x00 x00 x00 x00 x00)
(L (W x00 x00 x00 x00 xc1 x03 x00 x00)) E)
(T (W x2b xcb x62 x83 x87 x41 x01 x01)
(L (W x01 x00 x00 x00 x00 x00 x00 x00)) E)))
(T (W x13 x80 x22 xab x9a xab x30 x08)
(T (W x00 x00 x00 x00 x00 x00 x00 x00)
(T (W x00 x00 x00 x00 x00 x00 x00 x00)
(L (W x00 x00 x3d x01 x00 x00 x3d x01)) E)
(T (W x00 x00 x00 x00 x00 x00 x00 x00)
(L (W x4b x02 x02 x00 x00 x00 x00 x00)) E))
(T (W x0c x00 x00 x00 x71 x01 x00 x00)
(T (W x1e x00 x00 x00 x00 x00 x32 x00)
(L (W x00 x04 x00 x00 x02 x00 x00 x00)) E)
(T (W x01 x01 x01 x01 x01 x01 x01 x01)
(L (W x33 x00 x97 x00 xac x00 x5a x04)) E))))))))
(T (W x02 x00 x00 x00 x07 x80 x10 x8d)
(T (W x13 x80 x20 x8b x9a x6a x81 x08)
(T (W x00 x00 x00 x00 x00 x00 x00 x00)
(T (W x00 x00 x00 x00 x00 x00 x00 x00)
(T (W x00 x00 x00 x00 x00 x00 x00 x00)
(T (W x00 x00 x00 x00 x8f x00 x00 x00)
(T (W x01 x00 x00 x00 x00 x00 x00 x00)
(T (W x05 x05 x03 x03 x04 x02 x02 x03)
(L (W xd0 x00 xd0 x00 xd0 x00 x6e x04))
(L (W x03 x00 x00 x00 xbf x00 x00 x00)))
(T (W x40 x80 x00 x00 xa1 x00 x00 x00)
(L (W x00 x00 x00 x00 xe7 xa7 x10 x8d)) E))
(T (W x02 x00 x02 x00 x02 x02 x03 x03)
(T (W x00 x00 x09 x00 x00 x00 xb3 x01)
(L (W x0b xab x74 x83 xc1 x00 x43 x00)) E)
(T (W x00 x00 x00 x00 x00 x00 x00 x00)
(L (W x08 x00 x00 x00 x86 x02 x00 x00)) E)))
(T (W x2d x02 x08 x00 x00 x00 x00 x00)
(T (W x00 x00 x00 x00 x00 x00 x00 x00)
(T (W x00 x00 x00 x00 x01 x00 x10 x0c)
(L (W x02 x00 x03 x00 x03 x03 x02 x02))
(L (W x2d x02 x00 x08 x00 x00 x00 x00)))
(T (W x00 x00 x00 x00 x16 x01 x00 x00)
(L (W x00 x00 x00 x00 x00 x00 x00 x00)) E))
(T (W x00 x00 x00 x00 x00 x00 x00 x00)
(T (W x00 x00 x00 x00 x00 x00 x00 x00)
(L (W x05 x05 x03 x03 x04 x02 x02 x03)) E)
(T (W x1e x00 x00 x00 x00 x00 x3c x00)
(L (W x00 x00 x00 x00 x00 x00 x00 x00)) E))))
(T (W x00 x00 x00 x00 x00 x00 x00 x00)
(T (W x05 x05 x03 x03 x04 x02 x02 x03)
(T (W x00 x00 x00 x00 x00 x00 x00 x00)
(T (W x00 x00 x00 x00 x00 x00 x00 x00)
(L (W x00 x00 x00 x00 x36 x03 x00 x00))
(L (W x05 x05 x04 x05 x05 x02 x02 x04)))
(T (W x00 x00 x32 x8b x8a x10 x08 x00)
(L (W x01 x00 x00 x00 x00 x00 x00 x00)) E))
(T (W x00 x00 x00 x00 x00 x00 xaf x00)
(T (W x00 x00 x00 x00 x00 x00 x00 x00)
(L (W x01 x00 x01 x00 x21 x00 x01 x00)) E)
(T (W x00 x00 x00 x00 x00 x00 x00 x00)
(L (W x00 x00 x00 x00 x00 x00 x00 x00)) E)))
(T (W x00 x00 x00 x00 x00 x18 x12 x0c)
(T (W x00 x00 x00 x00 x01 x01 x00 x00)
(T (W x1e x00 x00 x00 x00 x00 x37 x00)
(L (W x40 x01 x00 x00 x00 x00 x00 x00))
(L (W x00 x00 x00 x00 x82 x20 x31 x0c)))
(T (W x05 x05 x04 x05 x05 x02 x02 x04)
(L (W x00 x00 x00 x00 x00 x00 x00 x00)) E))
(T (W x00 x00 x00 x00 x99 x00 x00 x00)
(T (W x02 x00 x03 x00 x02 x03 x04 x04)
(L (W xbe x02 x80 x00 x00 x00 xec x00)) E)
(T (W x00 x00 x36 x01 x00 x00 x4b x00)
(L (W x00 x00 x00 x00 x00 x00 x00 x00)) E)))))
(T (W x00 x00 x00 x00 x66 xcb x1a xee)
(T (W x1e x00 x00 x00 x00 x00 x32 x00)
(T (W x07 x00 x78 x00 x54 x00 x00 x00)
(T (W x17 xc3 x2a x8b x9e x79 xa0 x88)
(T (W x00 x00 x00 x00 x81 x01 x00 x00)
(L (W x05 x05 x03 x03 x03 x02 x02 x03))
(L (W x00 x00 x00 x00 x00 x00 x00 x00)))
(T (W x1e x00 x00 x00 x00 x00 x32 x00)
(L (W x00 x00 x00 x00 x00 x00 x00 x00)) E))
(T (W x00 x00 x00 x00 x00 x10 x14 x0c)
(T (W x00 x00 x00 x00 x51 x00 x00 x00)
(L (W x00 x00 x23 x00 x00 x00 xe9 x01)) E)
(T (W x00 x00 x00 x00 x00 x00 x00 x00)
(L (W x00 x00 x00 x00 x00 x00 x00 x00)) E)))
(T (W x00 x00 x00 x00 x00 x00 x00 x00)
(T (W x05 x05 x05 x05 x05 x02 x02 x05)
(T (W x00 x00 x00 x00 x00 x00 x00 x00)
(L (W x40 x00 x00 x00 x04 x81 xd4 x8d))
(L (W x02 x00 x03 x00 x02 x03 x04 x04)))
(T (W x09 x00 x07 x00 x08 x00 xfd x03)
(L (W x01 x00 x00 x00 x00 x00 x00 x00)) E))
(T (W x00 x00 x8d x01 x00 x00 x5e x00)
(T (W x78 x02 x14 x00 xe5 x00 xee x00)
(L (W x00 x00 x00 x00 xd9 x03 x00 x00)) E)
(T (W x00 x0b xea x97 xc4 x10 x04 x00)
(L (W x01 x00 x00 x00 x00 x00 x00 x00)) E))))
(T (W x00 x00 xae x01 x00 x00 xb3 x01)
(T (W x00 x00 x00 x00 x81 x00 x00 x00)
(T (W x01 x00 x01 x00 xec x00 x00 x00)
(T (W x00 x00 x00 x00 x00 x00 x00 x00)
(L (W x19 x02 x08 x00 x00 x00 x00 x00))
(L (W x00 x00 x00 x00 x00 x00 x00 x00)))
(T (W x00 x00 x00 x00 x00 x00 x00 x00)
(L (W x80 xc0 xa1 x8f x96 x83 x20 x0e)) E))
(T (W x1e x00 x00 x00 x00 x00 x28 x00)
(T (W x01 x01 x01 x01 x01 x01 x01 x01)
(L (W xf9 x00 xf9 x00 xf9 x00 x00 x00)) E)
(T (W x00 x84 x00 x00 x6d x00 x00 x00)
(L (W x00 x00 x00 x00 x00 x00 x00 x00)) E)))
(T (W x00 x00 x00 x00 x00 x00 x00 x00)
(T (W x00 x00 x00 x00 x00 x00 x00 x00)
(T (W x00 x00 x00 x00 x00 x00 x00 x00)
(L (W x1e x00 x00 x00 x00 x00 x32 x00)) E)
(T (W x00 x00 x00 x00 x81 x02 x00 x00)
(L (W x05 x05 x03 x03 x03 x02 x02 x03)) E))
(T (W x27 x00 x73 x00 x8d x00 x00 x00)
(T (W x00 x00 x00 x00 x00 x00 x10 x4c)
(L (W x00 x00 x00 x00 x00 x00 x00 x00)) E)
(T (W x00 x00 x00 x00 x00 x00 x00 x00)
(L (W x00 x00 x00 x00 x00 x00 x00 x00)) E))))))
(T (W x00 x00 x00 x00 x00 x00 x00 x00)
(T (W x00 x00 x00 x00 x00 x00 x00 x00)
(T (W x05 x05 x02 x02 x03 x02 x02 x02)
(T (W x00 x00 x00 x00 x00 x00 x00 x00)
(T (W x00 x00 x00 x00 x00 x00 x00 x00)
(T (W x0a x00 x00 x00 x00 x00 x00 x00)
(L (W x00 x08 x00 x00 x00 x00 x5b x00))
(L (W x40 x00 x00 x00 x02 x04 x30 x8d)))
(T (W x05 x05 x04 x04 x05 x02 x02 x04)
(L (W x05 x01 x14 x00 x90 x00 xaa x03)) E))
(T (W x00 x00 x00 x00 x00 x00 x00 x00)
(T (W x00 x00 x00 x00 x00 x00 x00 x00)
(L (W x2d x02 x00 x08 x00 x00 x00 x00)) E)
(T (W x00 x00 x00 x00 x00 x00 x00 x00)
(L (W x40 x4b x37 x13 x80 x01 x00 x05)) E)))
(T (W x00 x00 x01 x01 x00 x00 x00 x00)
(T (W x00 x00 x00 x00 x00 x00 x0f x00)
(T (W x6a x00 x54 x00 x8a x00 x00 x00)
(L (W x00 x00 x00 x00 x00 x00 x00 x00))
(L (W x00 x00 x39 x00 x00 x00 x39 x00)))
(T (W x40 x00 x00 x00 x91 x24 x30 x8d)
(L (W x02 x00 x03 x00 x02 x03 x03 x03)) E))
(T (W xff x01 x00 x04 x00 x00 x00 x00)
(T (W x40 x00 x20 xc3 x86 x01 x00 x01)
(L (W x0a x00 x00 x00 x00 x00 x00 x00)) E)
(T (W x00 x00 x00 x00 xfc x02 x00 x00)
(L (W x01 x01 x01 x01 x01 x01 x01 x01)) E))))
(T (W xbe x01 x40 x00 x00 x00 x00 x00)
(T (W x1e x00 x00 x00 x00 x00 x37 x00)
(T (W x00 x00 x00 x00 x00 x00 x00 x00)
(T (W x00 x00 x00 x00 x00 x00 x00 x00)
(L (W x00 x00 x00 x00 x00 x00 x00 x00))
(L (W x1e x00 x00 x00 x00 x00 x28 x00)))
(T (W x4b x02 x08 x00 x00 x00 x00 x00)
(L (W x00 x00 x00 x00 x00 x00 x00 x00)) E))
(T (W x05 x05 x03 x03 x03 x02 x02 x03)
(T (W x00 x00 x00 x00 x00 x00 x00 x00)
(L (W x00 x00 x00 x00 x00 x00 x10 x0c)) E)
(T (W x83 x00 x83 x00 xa5 x00 x00 x00)
(L (W x00 x00 x00 x00 x00 x00 x00 x00)) E)))
(T (W x0a x00 x23 x00 x0b x00 x00 x00)
(T (W x80 xc0 xa0 xab x96 x03 x20 x08)
(T (W x00 x00 x00 x00 xc1 x01 x00 x00)
(L (W x05 x05 x03 x03 x04 x02 x02 x03)) E)
(T (W x1e x00 x00 x00 x00 x00 x3c x00)
(L (W x00 x00 x00 x00 x00 x00 x00 x00)) E))
(T (W x00 x00 x00 x00 x62 x4c x10 x0c)
(T (W x00 x00 x00 x00 x00 x00 x00 x00)
(L (W x00 x00 xc4 x00 x00 x00 x5d x02)) E)
(T (W x02 x00 x03 x00 x02 x03 x04 x04)
(L (W x00 x00 x00 x00 x00 x00 x00 x00)) E)))))
(T (W x27 x00 x27 x00 x97 x00 x00 x00)
(T (W x00 x00 x00 x00 x41 x00 x00 x00)
(T (W x00 x01 x00 x00 xb7 x00 x00 x00)
(T (W x00 x00 x00 x00 x00 x00 x00 x00)
(T (W x00 x00 x00 x00 x00 x00 x00 x00)
(L (W x1e x00 x00 x00 x00 x00 x28 x00))
(L (W x01 x00 x00 x00 x00 x00 x00 x00)))
(T (W x00 x00 x00 x00 x41 x02 x00 x00)
(L (W x01 x01 x01 x01 x01 x01 x01 x01)) E))
(T (W x2f x00 x25 x00 x9d x00 x00 x00)
(T (W x40 x00 x00 x00 x7e x87 x10 x0d)
(L (W x02 x00 x02 x00 x02 x02 x05 x04)) E)
(T (W x00 x00 x00 x00 x00 x00 x00 x00)
(L (W x00 x00 x00 x00 x00 x00 x00 x00)) E)))
(T (W x00 x00 x00 x00 x00 x00 x00 x00)
(T (W x1e x00 x00 x00 x00 x00 x4b x00)
(T (W x05 x05 x04 x04 x05 x02 x02 x04)
(L (W x41 x00 x41 x00 xe5 x00 x00 x00))
(L (W x00 x00 x00 x00 x72 x01 x00 x00)))
(T (W x00 x21 x00 x00 x00 x00 x9a x00)
(L (W x00 x00 x00 x00 x00 x00 x00 x00)) E))
(T (W x02 x00 x02 x00 x02 x02 x03 x03)
(T (W x00 x00 x0e x00 x00 x00 x20 x00)
(L (W x27 xc0 xa6 xa3 x82 x0b x00 x08)) E)
(T (W x2d x03 x03 x00 x00 x00 x00 x00)
(L (W x00 x00 x00 x00 x00 x00 x00 x00)) E))))
(T (W x00 x00 x00 x00 x00 x00 x00 x00)
(T (W x84 xc3 x22 xa3 x86 xc3 x00 x00)
(T (W x00 x00 x00 x00 x00 x00 x00 x00)
(T (W x00 x00 x00 x00 x00 x00 x00 x00)
(L (W x00 x00 xd9 x01 x00 x00 x00 x00))
(L (W x00 x00 x00 x00 x00 x00 x00 x00)))
(T (W x02 x00 x03 x00 x02 x03 x10 x10)
(L (W x00 x00 x00 x00 x00 x00 x00 x00)) E))
(T (W x0c x00 x00 x00 x41 x01 x00 x00)
(T (W x1e x00 x00 x00 x00 x00 x37 x00)
(L (W x00 x00 x01 x00 x00 x00 x6d x00)) E)
(T (W x05 x05 x03 x03 x04 x02 x02 x03)
(L (W x00 x00 x00 x00 x00 x00 x00 x00)) E)))
(T (W x01 x01 x01 x01 x01 x01 x01 x01)
(T (W x00 x00 x4b x00 x00 x00 x46 x01)
(T (W x2d x02 x44 x00 x00 x00 xd9 x00)
(L (W x04 x00 x00 x00 x87 x03 x00 x00)) E)
(T (W x00 x03 x2c x0b x8e x0f x10 x00)
(L (W x01 x00 x00 x00 x00 x00 x00 x00)) E))
(T (W x00 x00 x00 x00 x00 x00 x00 x00)
(T (W x37 x00 x37 x00 x27 x00 xf2 x03)
(L (W x00 x00 x00 x00 x00 x00 x00 x00)) E)
(T (W x00 x00 x00 x00 x00 x00 x00 x00)
(L (W x00 x00 x00 x00 x00 x00 x00 x00)) E)))))))
(T (W x13 x00 x13 x00 x32 x00 x00 x00)
(T (W x00 x00 x00 x00 x00 x00 x00 x00)
(T (W x1e x00 x00 x00 x00 x00 x3c x00)
(T (W x00 x00 x0b x02 x00 x00 x59 x00)
(T (W x00 x00 x00 x00 x00 x00 x00 x00)
(T (W x00 x00 x00 x00 x00 x00 x00 x00)
(T (W x03 x00 x03 x00 x03 x03 x00 x00)
(L (W xbe x01 x04 x00 x00 x00 x0d x01))
(L (W x00 x00 x00 x00 xe0 x02 x00 x00)))
(T (W x00 x00 x36 x01 x00 x00 x8f x01)
(L (W x40 x03 x26 x47 x80 x11 x00 x31)) E))
(T (W x01 x00 x00 x00 x00 x00 x00 x00)
(T (W x01 x01 x01 x01 x01 x01 x01 x01)
(L (W xf7 x00 x52 x00 x2f x00 x00 x00)) E)
(T (W x00 x00 x00 x00 x00 x00 x00 x00)
(L (W x00 x00 x00 x00 x00 x00 x00 x00)) E)))
(T (W x01 x00 x01 x00 x00 x00 xad x00)
(T (W x2d x02 x00 x08 x00 x00 x00 x00)
(T (W x00 x83 x60 x8b x9b x60 xa3 x00)
(L (W x0a x00 x00 x00 x00 x00 x28 x00))
(L (W x00 x14 x00 x00 x00 x00 x00 x00)))
(T (W x00 x00 x00 x00 x61 x02 x00 x00)
(L (W x01 x01 x01 x01 x01 x01 x01 x01)) E))
(T (W x1a x00 x1a x00 x1a x00 x00 x00)
(T (W x00 x00 x00 x00 x00 x00 x00 x00)
(L (W x00 x00 x00 x00 x00 x00 x00 x00)) E)
(T (W x00 x00 x00 x00 x00 x00 x00 x00)
(L (W x00 x00 x00 x00 x00 x00 x00 x00)) E))))
(T (W x00 x00 x00 x00 x00 x00 x00 x00)
(T (W x01 x00 x01 x00 x01 x01 x03 x03)
(T (W x05 x05 x06 x06 x07 x02 x02 x06)
(T (W x00 x00 x00 x00 x00 x00 x00 x00)
(L (W x00 x00 x00 x00 x01 x00 x18 x0c))
(L (W x02 x00 x02 x00 x03 x02 x03 x03)))
(T (W x00 x00 x00 x00 x00 x00 x00 x00)
(L (W x00 x00 x00 x00 x00 x00 x00 x00)) E))
(T (W x00 x00 x9d x00 x00 x00 xe7 x00)
(T (W x00 x00 x00 x00 x00 x00 x00 x00)
(L (W x00 x00 x00 x00 xd5 x03 x00 x00)) E)
(T (W x00 x10 x65 x83 x82 x08 x00 x00)
(L (W x01 x00 x00 x00 x00 x00 x00 x00)) E)))
(T (W x00 x00 x00 x00 x00 x00 x00 x00)
(T (W x24 x00 x00 x00 xfa x04 x13 x8d)
(T (W x00 x00 x00 x00 x04 x01 x00 x00)
(L (W x00 x00 xe9 x02 x00 x00 x38 x00))
(L (W x04 x1f x2e x17 xc4 x13 x24 x76)))
(T (W x02 x00 x02 x00 x03 x02 x04 x04)
(L (W x00 x00 x00 x00 x00 x00 x00 x00)) E))
(T (W x00 x00 x00 x00 x00 x00 x00 x00)
(T (W x1e x00 x00 x00 x00 x00 x2d x00)
(L (W x20 x00 x01 x00 xa8 x00 x00 x00)) E)
(T (W x05 x05 x03 x03 x04 x02 x02 x03)
(L (W x00 x00 x00 x00 x00 x00 x00 x00)) E)))))
(T (W x3b xc8 x3f xab x86 x8a x10 x88)
(T (W x00 x00 x00 x00 x00 x00 x00 x00)
(T (W xbe x01 x10 x00 x00 x00 xe4 x00)
(T (W x17 x00 x17 x00 x8c x00 x00 x00)
(T (W x00 x00 x00 x00 x00 x00 x00 x00)
(L (W x02 x00 x03 x00 x03 x03 x04 x04))
(L (W x5a x02 x08 x00 x00 x00 x00 x00)))
(T (W x00 x00 x00 x00 x0b x01 x00 x00)
(L (W x00 x00 x00 x00 x00 x00 x00 x00)) E))
(T (W x3b x0b x61 x8b x96 x88 x01 x08)
(T (W x00 x00 x00 x00 xe1 x01 x00 x00)
(L (W x05 x05 x03 x04 x04 x02 x02 x03)) E)
(T (W x01 x00 x00 x00 x00 x00 x00 x00)
(L (W x00 x00 x00 x00 x00 x00 x00 x00)) E)))
(T (W x01 x00 x00 x00 x00 x00 x00 x00)
(T (W x02 x00 x03 x00 x03 x03 x04 x04)
(T (W x00 x00 x8b x00 x00 x00 x6c x00)
(L (W x2f x43 x20 x07 x80 x0f x10 x8c))
(L (W x1e x00 x00 x00 x00 x00 x32 x00)))
(T (W x2d x02 x08 x00 x00 x00 xfa x00)
(L (W x00 x00 x00 x00 x00 x00 x00 x00)) E))
(T (W x05 x05 x03 x03 x03 x02 x02 x03)
(T (W x00 x06 x00 x00 x97 x00 x00 x00)
(L (W x00 x00 x00 x00 x00 x00 x00 x00)) E)
(T (W x77 x00 x97 x00 x8c x00 x00 x00)
(L (W x00 x00 x00 x00 x00 x00 x00 x00)) E))))
(T (W x01 x01 x01 x01 x01 x01 x01 x01)
(T (W x00 x00 x00 x00 x00 x00 x00 x00)
(T (W x00 x00 x00 x00 xe1 x00 x00 x00)
(T (W x01 x00 x00 x00 x00 x00 x00 x00)
(L (W x40 x40 x00 x00 xa6 x00 x00 x00))
(L (W x00 x00 x00 x00 x00 x00 x00 x00)))
(T (W x05 x05 x03 x03 x03 x02 x02 x03)
(L (W x00 x00 x00 x00 x00 x00 x00 x00)) E))
(T (W x00 x00 x00 x00 x00 x00 x00 x00)
(T (W x00 x00 x00 x00 x00 x00 x00 x00)
(L (W xb4 x02 x80 x00 x00 x00 x00 x00)) E)
(T (W x00 x00 x56 x01 x00 x00 x96 x01)
(L (W x00 x00 x00 x00 x00 x00 x00 x00)) E)))
(T (W x00 x00 x6d x00 x00 x00 x93 x01)
(T (W x10 x00 x00 x00 x00 x00 x00 x00)
(T (W x21 x00 x0b x00 x29 x00 x00 x00)
(L (W x00 x00 x00 x00 x7f x00 x00 x00)) E)
(T (W x40 x00 x00 x00 x00 x0b x10 x0d)
(L (W x00 x00 x00 x00 x00 x00 x00 x00)) E))
(T (W x2d x03 x03 x00 x00 x00 x00 x00)
(T (W x00 x80 xe0 x87 xa1 x00 x03 x06)
(L (W x1e x00 x00 x00 x00 x00 x28 x00)) E)
(T (W x00 x00 x00 x00 x45 x03 x00 x00)
(L (W x01 x01 x01 x01 x01 x01 x01 x01)) E))))))
(T (W x01 x01 x01 x01 x01 x01 x01 x01)
(T (W x00 x00 x00 x00 x21 x00 x00 x00)
(T (W x00 x00 x00 x00 x00 x00 x00 x00)
(T (W x00 x0f xb6 x93 x84 x00 x04 x10)
(T (W x00 x00 x00 x00 x02 x28 x10 xae)
(T (W x00 x00 x00 x00 x00 x00 x00 x00)
(L (W x00 x00 x3c x02 x00 x00 x5c x01))
(L (W x00 x00 x00 x00 x00 x00 x00 x00)))
(T (W x02 x00 x03 x00 x03 x03 x05 x05)
(L (W x00 x00 x00 x00 x00 x00 x00 x00)) E))
(T (W x00 x00 x00 x00 x00 x00 x00 x00)
(T (W x1e x00 x00 x00 x00 x00 x32 x00)
(L (W x04 x40 x00 x00 x61 x00 x00 x00)) E)
(T (W x05 x05 x02 x03 x03 x02 x02 x02)
(L (W x00 x00 x00 x00 x00 x00 x00 x00)) E)))
(T (W x05 x05 x03 x03 x04 x02 x02 x03)
(T (W x00 x00 xba x00 x00 x00 x7f x01)
(T (W x00 x00 x00 x00 x00 x00 x00 x00)
(L (W x00 x00 x00 x00 x72 x03 x00 x00))
(L (W x05 x05 x05 x06 x06 x02 x02 x05)))
(T (W x00 x09 x36 x0b x8a x00 x08 x00)
(L (W x1e x00 x00 x00 x00 x00 x23 x00)) E))
(T (W x00 x00 x00 x00 x00 x00 x00 x00)
(T (W x00 x00 x00 x00 x00 x00 x00 x00)
(L (W x00 x00 x00 x00 x00 x00 x00 x00)) E)
(T (W x00 x00 x00 x00 x00 x08 x10 x0c)
(L (W x00 x00 x00 x00 x00 x00 x00 x00)) E))))
(T (W x00 x04 x00 x00 x01 x00 x00 x00)
(T (W x00 x00 x00 x00 x00 x00 x00 x00)
(T (W x01 x00 x00 x00 x00 x00 x00 x00)
(T (W x05 x05 x03 x03 x04 x02 x02 x03)
(L (W xd1 x00 xd1 x00 xd1 x00 x8d x04))
(L (W x00 x00 x00 x00 x7e x01 x00 x00)))
(T (W x00 x00 x00 x00 x4e x00 x00 x00)
(L (W x00 x00 x00 x00 x00 x00 x00 x00)) E))
(T (W x00 x00 x00 x00 x00 x00 x00 x00)
(T (W x00 x00 x00 x00 x00 x00 x00 x00)
(L (W x80 x40 x30 x83 x82 x00 x80 x06)) E)
(T (W x8c x02 x20 x00 x00 x00 x00 x00)
(L (W x00 x00 x00 x00 x00 x00 x00 x00)) E)))
(T (W x96 x01 x00 x04 x00 x00 x51 x00)
(T (W x00 x00 x00 x00 x00 x00 x00 x00)
(T (W x00 x00 x00 x00 x01 x14 x54 x8c)
(L (W x02 x00 x03 x00 x02 x03 x05 x05)) E)
(T (W x00 x00 x00 x00 x00 x00 x00 x00)
(L (W x00 x00 xfd x00 x00 x00 x08 x00)) E))
(T (W x00 x43 xe0 x8b xcf x01 x11 x06)
(T (W x00 x00 x00 x00 x21 x02 x00 x00)
(L (W x05 x05 x02 x02 x03 x02 x02 x02)) E)
(T (W x01 x00 x00 x00 x00 x00 x00 x00)
(L (W x00 x00 x00 x00 x00 x00 x00 x00)) E)))))
(T (W x2d x03 x00 x03 x00 x00 x21 x02)
(T (W x00 x00 x00 x00 x86 xe4 x30 x4c)
(T (W x00 x00 xf6 x00 x00 x00 xb6 x01)
(T (W x00 x00 x00 x00 x00 x00 x00 x00)
(T (W x00 x00 x00 x00 x00 x00 x00 x00)
(L (W x00 x00 x00 x00 x57 x01 x00 x00))
(L (W x00 x00 xce x02 x00 x00 xce x02)))
(T (W x00 x00 x00 x00 x00 x00 x00 x00)
(L (W x00 x00 x00 x00 x00 x00 x00 x00)) E))
(T (W x00 x00 x00 x00 x00 x00 x00 x00)
(T (W x40 x43 x28 x4f xc6 x01 x00 x02)
(L (W x1e x00 x00 x00 x00 x00 x32 x00)) E)
(T (W x00 x00 x00 x00 x00 x00 x00 x00)
(L (W x01 x01 x01 x01 x01 x01 x01 x01)) E)))
(T (W x00 x00 x00 x00 x00 x00 x00 x00)
(T (W x00 x00 x00 x00 x00 x00 x00 x00)
(T (W x02 x00 x02 x00 x02 x02 x07 x07)
(L (W x2d x01 x40 x00 x00 x00 x00 x00))
(L (W x02 x00 x00 x00 xaa x03 x00 x00)))
(T (W x00 x00 x0e x00 x00 x00 xa3 x02)
(L (W x00 x00 x00 x00 x00 x00 x00 x00)) E))
(T (W x1e x00 x00 x00 x00 x00 x37 x00)
(T (W x05 x05 x02 x02 x03 x02 x02 x02)
(L (W x09 x00 x09 x00 x1f x00 x85 x03)) E)
(T (W x01 x10 x02 x00 x00 x00 x00 x00)
(L (W x00 x00 x00 x00 x00 x00 x00 x00)) E))))
(T (W x1e x00 x00 x00 x00 x00 x28 x00)
(T (W x21 x00 x4b x00 x85 x00 x00 x00)
(T (W x00 x00 x00 x00 x00 x00 x00 x00)
(T (W x00 x00 x00 x00 x00 x00 x00 x00)
(L (W x05 x05 x01 x01 x01 x02 x02 x01))
(L (W x00 x00 x00 x00 x00 x00 x00 x00)))
(T (W x01 x00 x00 x00 x00 x00 x00 x00)
(L (W x00 x00 x00 x00 x00 x00 x00 x00)) E))
(T (W x00 x00 x00 x00 x06 x84 x52 x8c)
(T (W x00 x00 x00 x00 x2d x00 x00 x00)
(L (W x00 x00 xf3 x02 x00 x00 xf3 x02)) E)
(T (W x01 x00 x01 x00 x01 x01 x04 x04)
(L (W x00 x00 x00 x00 x00 x00 x00 x00)) E)))
(T (W x03 x00 x02 x00 x02 x03 x06 x06)
(T (W x01 x01 x01 x01 x01 x01 x01 x01)
(T (W x01 x00 x01 x00 x37 x00 x00 x00)
(L (W x00 x00 x00 x00 x00 x33 x10 x0c)) E)
(T (W x00 x00 x00 x00 x00 x00 x00 x00)
(L (W x01 x00 x00 x00 x00 x00 x00 x00)) E))
(T (W x00 x00 x00 x00 x00 x00 x00 x00)
(T (W xbe x01 x10 x00 x00 x00 xee x00)
(L (W x00 x00 x00 x00 x00 x00 x00 x00)) E)
(T (W x00 x0f xae xa3 x84 x93 x00 x41)
(L (W x1e x00 x00 x00 x00 x00 x32 x00)) E)))))))))
(T (W x41 x00 x41 x00 x22 x00 x00 x00)
(T (W x1e x00 x00 x00 x00 x00 x3c x00)
(T (W x00 x00 x00 x00 x7c x01 x00 x00)
(T (W x00 x00 x00 x00 x00 x08 x10 x2c)
(T (W x00 x00 x00 x00 x00 x00 x00 x00)
(T (W x00 x00 x00 x00 x00 x00 x00 x00)
(T (W x05 x05 x02 x02 x03 x02 x02 x02)
(T (W x00 x00 x55 x01 x00 x00 x38 x00)
(T (W x2d x03 x0c x00 x00 x00 xfa x00)
(L (W x02 x00 x00 x00 x3d x03 x00 x00))
(L (W x05 x05 x04 x04 x04 x02 x02 x04)))
(T (W x3b x80 xe0 x87 xa6 x8c x01 x8e)
(L (W x1e x00 x00 x00 x00 x00 x32 x00)) E))
(T (W x00 x02 x00 x00 x31 x00 x00 x00)
(T (W x4e x00 x4e x00 x48 x00 x00 x00)
(L (W x00 x00 x00 x00 xa2 x00 x00 x00)) E)
(T (W x00 x00 x00 x00 x00 x00 x00 x00)
(L (W x01 x00 x00 x00 x00 x00 x00 x00)) E)))
(T (W x00 x00 x00 x00 x7a x00 x15 x0c)
(T (W x00 x00 x00 x00 xe9 x00 x00 x00)
(T (W x01 x00 x00 x00 x00 x00 x00 x00)
(L (W x00 x14 x01 x00 x00 x00 x00 x00))
(L (W x00 x00 x00 x00 x00 x00 x00 x00)))
(T (W x05 x05 x02 x02 x03 x02 x02 x02)
(L (W x00 x00 x00 x00 x00 x00 x00 x00)) E))
(T (W x00 x00 x00 x00 x00 x00 x00 x00)
(T (W x00 x00 x00 x00 x00 x00 x00 x00)
(L (W x2d x01 x40 x00 x00 x00 x00 x00)) E)
(T (W x00 x00 x56 x00 x00 x00 x3b x00)
(L (W x00 x00 x00 x00 x00 x00 x00 x00)) E))))
(T (W x00 x00 x00 x00 x00 x00 x00 x00)
(T (W x4b x02 x10 x01 x00 x00 xeb x00)
(T (W x00 x00 x00 x00 x00 x00 x00 x00)
(T (W x00 x00 x00 x00 x00 x00 x00 x00)
(L (W x02 x00 x03 x00 x03 x03 x04 x04))
(L (W x03 x03 x03 x00 x00 x00 x00 x00)))
(T (W x00 x00 x00 x00 x48 x00 x00 x00)
(L (W x00 x00 x00 x00 x00 x00 x00 x00)) E))
(T (W x33 x0b x60 x8b x87 x8a x01 x2e)
(T (W x00 x00 x00 x00 x00 x00 x00 x00)
(L (W x05 x05 x03 x04 x04 x02 x02 x03)) E)
(T (W x1e x00 x00 x00 x00 x00 x32 x00)
(L (W x00 x00 x00 x00 x00 x00 x00 x00)) E)))
(T (W x1e x00 x00 x00 x00 x00 x32 x00)
(T (W x01 x00 x03 x00 x01 x03 x04 x04)
(T (W x00 x00 x73 x01 x00 x00 xf7 x00)
(L (W x0a x23 x20 x83 x84 x07 x30 x05))
(L (W x00 x00 x00 x00 x00 x00 x00 x00)))
(T (W xbe x01 x10 x00 x00 x00 x00 x00)
(L (W x00 x00 x00 x00 x00 x00 x00 x00)) E))
(T (W x05 x05 x05 x05 x05 x02 x02 x05)
(T (W x00 x00 x00 x00 x00 x00 x00 x00)
(L (W x00 x00 x00 x00 x00 x00 x00 x00)) E)
(T (W x41 x00 x41 x00 xcb x00 x00 x00)
(L (W x00 x00 x00 x00 x00 x00 x00 x00)) E)))))
(T (W x1e x00 x00 x00 x00 x00 x37 x00)
(T (W x00 x00 x50 x01 x00 x00 xa8 x01)
(T (W x00 x00 x00 x00 x69 x00 x00 x00)
(T (W x00 x00 x00 x00 x00 x00 x00 x00)
(T (W x03 x00 x00 x00 x00 x00 x00 x00)
(L (W x78 x01 x40 x00 x00 x00 xe4 x00))
(L (W x00 x00 x00 x00 x00 x00 x00 x00)))
(T (W x00 x00 x03 x01 x00 x00 x1b x02)
(L (W x00 x00 x00 x00 x00 x00 x00 x00)) E))
(T (W x1e x00 x00 x00 x00 x00 x32 x00)
(T (W x05 x05 x05 x06 x06 x02 x02 x05)
(L (W x12 x00 x49 x00 x31 x00 x00 x00)) E)
(T (W x00 x02 x00 x00 x18 x00 x00 x00)
(L (W x00 x00 x00 x00 x00 x00 x00 x00)) E)))
(T (W xff xff x03 x00 x00 x00 x00 x00)
(T (W x03 x03 x10 x08 x00 x00 x00 x00)
(T (W x00 x00 x00 x00 x00 x00 x00 x00)
(L (W x0a x00 x00 x00 x00 x00 x00 x00))
(L (W x00 x00 x02 x00 x00 x00 x00 x00)))
(T (W x00 x00 x00 x00 x69 x02 x00 x00)
(L (W x05 x05 x03 x03 x04 x02 x02 x03)) E))
(T (W x1a x00 x1a x00 x1a x00 x00 x00)
(T (W x00 x00 x00 x00 x00 x04 x10 x0c)
(L (W x00 x00 x00 x00 x00 x00 x00 x00)) E)
(T (W x00 x00 x00 x00 xbf x00 x00 x00)
(L (W x00 x00 x00 x00 x00 x00 x00 x00)) E))))
(T (W x2a x00 x05 x00 x94 x00 x00 x00)
(T (W x03 x00 x02 x00 x03 x02 x03 x03)
(T (W x05 x05 x04 x04 x05 x02 x02 x04)
(T (W x10 x00 x00 x00 x00 x00 x00 x00)
(L (W x40 x00 x00 x00 x7c x87 x12 x0d))
(L (W x00 x00 x00 x00 x00 x00 x00 x00)))
(T (W x00 x00 x00 x00 x00 x00 x00 x00)
(L (W x01 x00 x01 x00 xec x00 x01 x00)) E))
(T (W x00 x00 x00 x00 x00 x00 x00 x00)
(T (W x00 x00 x00 x00 x00 x00 x00 x00)
(L (W x00 x00 x00 x00 xb2 x03 x00 x00)) E)
(T (W x00 x03 xe6 x87 x86 x80 x00 x2a)
(L (W x01 x00 x00 x00 x00 x00 x00 x00)) E)))
(T (W x03 x48 x2e xa3 x86 x03 x00 x08)
(T (W x00 x00 x00 x00 x00 x00 x00 x00)
(T (W x00 x00 x00 x00 xdf x00 x00 x00)
(L (W x00 x00 x3c x00 x00 x00 x5e x00)) E)
(T (W x02 x00 x03 x00 x03 x03 x02 x02)
(L (W x3c x02 x00 x02 x00 x00 x00 x00)) E))
(T (W x00 x00 x00 x00 x69 x01 x00 x00)
(T (W x1e x00 x00 x00 x00 x00 x32 x00)
(L (W x02 x88 x00 x00 x00 x00 x00 x00)) E)
(T (W x01 x01 x01 x01 x01 x01 x01 x01)
(L (W x00 x00 x00 x00 x00 x00 x00 x00)) E))))))
(T (W x00 x00 x00 x00 x00 x00 x00 x00)
(T (W x05 x05 x05 x05 x06 x02 x02 x05)
(T (W x5a x02 x80 x00 x00 x00 xd9 x00)
(T (W x1e x00 x00 x00 x00 x00 x28 x00)
(T (W x00 x00 x00 x00 x00 x00 x00 x00)
(T (W x00 x00 x00 x00 x00 x00 x00 x00)
(L (W x00 x00 x20 x9b x82 x00 x00 x00))
(L (W x0a x00 x00 x00 x00 x00 x28 x00)))
(T (W x2d x02 x20 x00 x00 x00 x00 x00)
(L (W x00 x00 x00 x00 x92 x00 x00 x00)) E))
(T (W x01 x01 x01 x01 x01 x01 x01 x01)
(T (W x20 x00 x00 x00 x00 x00 x50 x00)
(L (W x00 x00 x00 x00 x00 x04 x10 x0d)) E)
(T (W x00 x00 x00 x00 x00 x00 x00 x00)
(L (W x00 x00 x00 x00 x00 x00 x00 x00)) E)))
(T (W x2e x00 x2e x00 x31 x00 xa9 x03)
(T (W x3b x40 xa3 x83 x82 x0b x00 x08)
(T (W x00 x00 x00 x00 xa9 x01 x00 x00)
(L (W x05 x05 x05 x05 x05 x02 x02 x05))
(L (W xf1 x00 xf1 x00 xf1 x00 x91 x04)))
(T (W x1e x00 x00 x00 x00 x00 x32 x00)
(L (W x00 x08 x00 x00 x00 x00 x00 x00)) E))
(T (W x00 x00 x00 x00 x00 x00 x00 x00)
(T (W x00 x00 x00 x00 x5b x00 x00 x00)
(L (W x00 x00 x00 x00 x00 x00 x00 x00)) E)
(T (W x02 x00 x03 x00 x03 x03 x04 x04)
(L (W x00 x00 x00 x00 x00 x00 x00 x00)) E))))
(T (W x00 x00 x00 x00 x00 x00 x00 x00)
(T (W x00 x00 x71 x00 x00 x00 x5d x02)
(T (W x20 x80 x00 x00 x00 x00 x1c x00)
(T (W x00 x00 x00 x00 x00 x00 x00 x00)
(L (W x00 x00 x00 x00 x00 x00 x00 x00))
(L (W x00 x00 xce x02 x00 x00 xce x02)))
(T (W x00 x00 x00 x00 x01 x00 x10 x5c)
(L (W x00 x00 x00 x00 x00 x00 x00 x00)) E))
(T (W x78 x01 x40 x00 x00 x00 x00 x00)
(T (W x00 x00 x00 x00 x00 x00 x00 x00)
(L (W x1e x00 x00 x00 x00 x00 x32 x00)) E)
(T (W x00 x00 x00 x00 xea x02 x00 x00)
(L (W x01 x01 x01 x01 x01 x01 x01 x01)) E)))
(T (W x00 x00 x00 x00 xa9 x00 x00 x00)
(T (W x00 x00 x00 x00 x00 x00 x00 x00)
(T (W x01 x00 x02 x00 x02 x02 x03 x03)
(L (W xff x01 x40 x00 x00 x00 x00 x00)) E)
(T (W x00 x00 xa6 x01 x00 x00 xa6 x01)
(L (W x00 x00 x00 x00 x00 x00 x00 x00)) E))
(T (W x1e x00 x00 x00 x00 x00 x3c x00)
(T (W x01 x01 x01 x01 x01 x01 x01 x01)
(L (W x51 x00 x51 x00 x75 x00 x92 x03)) E)
(T (W x02 x81 x00 x00 x00 x00 x00 x00)
(L (W x00 x00 x00 x00 x00 x00 x00 x00)) E)))))
(T (W x00 x00 x00 x00 x29 x00 x00 x00)
(T (W x01 x00 x02 x00 x01 x02 x04 x04)
(T (W x00 x80 xe0 x8f x87 x00 x61 x02)
(T (W x00 x00 x00 x00 x00 x00 x00 x00)
(T (W x00 x00 x00 x00 x00 x00 x00 x00)
(L (W x00 x00 x59 x01 x00 x00 x59 x01))
(L (W x00 x43 x70 x4f x8f x11 x00 x03)))
(T (W x01 x00 x02 x00 x01 x02 x03 x03)
(L (W x00 x00 x00 x00 x00 x00 x00 x00)) E))
(T (W x00 x00 x00 x00 x00 x00 x00 x00)
(T (W x0a x00 x00 x00 x00 x00 x28 x00)
(L (W x00 x20 x00 x00 x00 x00 x85 x00)) E)
(T (W x01 x01 x01 x01 x01 x01 x01 x01)
(L (W x00 x00 x00 x00 x00 x00 x00 x00)) E)))
(T (W x01 x01 x01 x01 x01 x01 x01 x01)
(T (W x00 x00 xdd x00 x00 x00 x00 x00)
(T (W x5a x02 x10 x04 x00 x00 xe9 x00)
(L (W x08 x00 x00 x00 x7c x03 x00 x00))
(L (W x05 x05 x04 x04 x05 x02 x02 x04)))
(T (W x7b x8b xf8 x0b x82 x1a x01 x88)
(L (W x01 x00 x00 x00 x00 x00 x00 x00)) E))
(T (W x00 x05 x00 x00 x00 x00 x97 x00)
(T (W x92 x00 x9f x00 x68 x00 x00 x00)
(L (W x00 x00 x00 x00 xc2 x00 x00 x00)) E)
(T (W x00 x00 x00 x00 x02 x0b x10 x1f)
(L (W x00 x00 x00 x00 x00 x00 x00 x00)) E))))
(T (W x00 x00 x00 x00 x00 x00 x00 x00)
(T (W x00 x00 x00 x00 xc5 x00 x00 x00)
(T (W x1e x00 x00 x00 x00 x00 x3c x00)
(T (W x01 x01 x01 x01 x01 x01 x01 x01)
(L (W xe3 x00 xe3 x00 x8c x00 x00 x00))
(L (W x00 x00 x00 x00 x00 x00 x00 x00)))
(T (W x08 x00 x01 x00 x00 x00 x00 x00)
(L (W x00 x00 x00 x00 x00 x00 x00 x00)) E))
(T (W x03 x00 x03 x00 x02 x03 x06 x06)
(T (W x00 x00 x2c x00 x00 x00 x2b x00)
(L (W x02 x83 x61 x87 x80 x0c x61 x0a)) E)
(T (W x37 x01 x00 x02 x00 x00 x00 x00)
(L (W x00 x00 x00 x00 x00 x00 x00 x00)) E)))
(T (W x00 x00 x00 x00 x00 x00 x00 x00)
(T (W x22 x00 x30 x00 x7c x00 x00 x00)
(T (W x00 x00 x00 x00 x61 x04 x10 x8d)
(L (W x01 x00 x03 x00 x02 x03 x04 x04)) E)
(T (W x00 x00 x00 x00 x00 x00 x00 x00)
(L (W x00 x00 x00 x00 x00 x00 x00 x00)) E))
(T (W x00 x00 x00 x00 x00 x00 x00 x00)
(T (W x00 x00 x00 x00 x29 x02 x00 x00)
(L (W x05 x05 x05 x05 x06 x02 x02 x05)) E)
(T (W x01 x00 x00 x00 x00 x00 x00 x00)
(L (W x00 x00 x00 x00 x00 x00 x00 x00)) E)))))))
(T (W x0c x00 x00 x00 x09 x00 x00 x00)
(T (W x00 x00 x00 x00 x00 x00 x00 x00)
(T (W x00 x00 xa1 x01 x00 x00 x55 x00)
(T (W x08 x00 x47 x00 x9f x00 x93 x03)
(T (W x00 x00 x00 x00 x00 x00 x00 x00)
(T (W x01 x01 x01 x01 x01 x01 x01 x01)
(T (W x00 x14 x01 x00 x00 x00 x82 x00)
(L (W x00 x00 x00 x00 x78 x00 x50 x0c))
(L (W x02 x00 x03 x00 x02 x03 x03 x03)))
(T (W x98 x00 x98 x00 x98 x00 xf6 x03)
(L (W x01 x00 x01 x00 x6d x01 x01 x00)) E))
(T (W x00 x00 x5d x02 x00 x00 x5e x00)
(T (W x00 x00 x00 x00 x00 x00 x00 x00)
(L (W x00 x00 x00 x00 xc7 x03 x00 x00)) E)
(T (W x00 x00 x00 x00 x00 x00 x00 x00)
(L (W x1e x00 x00 x00 x00 x00 x32 x00)) E)))
(T (W x3f x0b x71 xab x97 x08 x01 x08)
(T (W x00 x00 x00 x00 x82 x24 x10 x0c)
(T (W x00 x00 x00 x00 xe6 x00 x00 x00)
(L (W x00 x00 xa7 x02 x00 x00 x00 x00))
(L (W x00 x4b xe6 x07 x80 x18 x41 x08)))
(T (W x01 x00 x02 x00 x02 x02 x04 x04)
(L (W x00 x00 x00 x00 x00 x00 x00 x00)) E))
(T (W x00 x00 x00 x00 x49 x01 x00 x00)
(T (W x01 x00 x00 x00 x00 x00 x00 x00)
(L (W x00 x00 x00 x00 x00 x00 x70 x00)) E)
(T (W x05 x05 x03 x03 x03 x02 x02 x03)
(L (W x00 x00 x00 x00 x00 x00 x00 x00)) E))))
(T (W x00 x00 x00 x00 x49 x00 x00 x00)
(T (W x04 x40 x00 x00 x5f x00 x00 x00)
(T (W xbe x02 x10 x04 x2b x00 x2b x00)
(T (W x00 x00 x00 x00 x00 x00 x00 x00)
(L (W x1e x00 x00 x00 x00 x00 x32 x00))
(L (W x01 x00 x00 x00 x00 x00 x00 x00)))
(T (W x00 x00 x00 x00 x00 x00 x00 x00)
(L (W x01 x01 x01 x01 x01 x01 x01 x01)) E))
(T (W x05 x00 x45 x00 x86 x00 x00 x00)
(T (W x00 x00 x00 x00 x00 x00 x00 x00)
(L (W x02 x00 x03 x00 x02 x03 x03 x03)) E)
(T (W x00 x00 x00 x00 xd1 x00 x00 x00)
(L (W x00 x00 x00 x00 x00 x00 x00 x00)) E)))
(T (W x00 x00 x00 x00 x00 x00 x00 x00)
(T (W x1e x00 x00 x00 x00 x00 x37 x00)
(T (W x05 x05 x03 x03 x04 x02 x02 x03)
(L (W x43 x00 x43 x00 x61 x00 x00 x00))
(L (W x00 x00 x00 x00 x00 x00 x00 x00)))
(T (W x02 x01 x00 x00 x00 x00 x66 x00)
(L (W x00 x00 x00 x00 x00 x00 x00 x00)) E))
(T (W x00 x00 x00 x00 x00 x00 x00 x00)
(T (W x00 x00 xe0 x01 x00 x00 xe0 x01)
(L (W x10 x80 xe8 x8b x8c x09 x09 x08)) E)
(T (W x2d x01 x40 x00 x00 x00 x00 x00)
(L (W x00 x00 x00 x00 x00 x00 x00 x00)) E)))))
(T (W x00 x00 x01 x00 x45 x00 x00 x00)
(T (W x05 x05 x02 x03 x03 x02 x02 x02)
(T (W x00 x00 x00 x00 x7f x87 x12 x8c)
(T (W x00 x00 x00 x00 x00 x00 x00 x00)
(T (W x01 x00 x00 x00 x00 x00 x00 x00)
(L (W x40 x00 x00 x00 x00 x00 x00 x00))
(L (W x00 x00 x00 x00 x01 x00 x30 x8d)))
(T (W x05 x05 x03 x04 x04 x02 x02 x03)
(L (W x00 x00 x00 x00 x00 x00 x00 x00)) E))
(T (W x00 x00 x00 x00 x00 x00 x00 x00)
(T (W x02 x00 x00 x00 x00 x00 x00 x00)
(L (W x2d x02 x08 x00 x00 x00 x00 x00)) E)
(T (W x00 x00 x00 x00 x00 x00 x00 x00)
(L (W x00 x00 x00 x00 x00 x00 x00 x00)) E)))
(T (W x00 x00 x00 x00 x00 x00 x00 x00)
(T (W x00 x00 x00 x00 x00 x00 x8c x00)
(T (W x01 x00 x6a x00 x33 x00 x00 x00)
(L (W x00 x00 x00 x00 x00 x00 x00 x00))
(L (W x00 x00 x97 x00 x00 x00 x5d x02)))
(T (W x00 x00 x00 x00 x81 x30 x30 x2c)
(L (W x00 x00 x00 x00 x00 x00 x00 x00)) E))
(T (W xcd x01 x04 x00 x00 x00 x00 x00)
(T (W x40 x40 xae xf3 x82 x93 x00 x45)
(L (W x01 x00 x00 x00 x00 x00 x00 x00)) E)
(T (W x08 x00 x00 x00 xef x02 x00 x00)
(L (W x01 x01 x01 x01 x01 x01 x01 x01)) E))))
(T (W x00 x00 x00 x00 x00 x00 x00 x00)
(T (W x1e x00 x00 x00 x00 x00 x1e x00)
(T (W x02 x00 x02 x00 x02 x02 x03 x02)
(T (W x00 x00 x00 x00 x00 x00 x00 x00)
(L (W x03 x00 x69 x87 x81 x08 x01 x8a))
(L (W x01 x00 x00 x00 x00 x00 x00 x00)))
(T (W xff x01 x10 x00 x00 x00 x20 x01)
(L (W x00 x00 x00 x00 x00 x00 x00 x00)) E))
(T (W x01 x01 x01 x01 x01 x01 x01 x01)
(T (W x00 x00 x00 x00 x00 x00 x00 x00)
(L (W x00 x00 x00 x00 x00 x48 x18 x4e)) E)
(T (W x26 x00 x8f x00 x5b x00 x00 x00)
(L (W x00 x00 x00 x00 x00 x00 x00 x00)) E)))
(T (W x1c x00 x30 x00 x9c x00 x00 x00)
(T (W x3b x08 xa0 x9b x9e x28 x24 x88)
(T (W x00 x00 x00 x00 x00 x00 x00 x00)
(L (W x05 x05 x03 x03 x04 x02 x02 x03)) E)
(T (W x1e x00 x00 x00 x00 x00 x28 x00)
(L (W x00 x00 x00 x00 x00 x00 x00 x00)) E))
(T (W x00 x00 x00 x00 x72 x04 x11 xcc)
(T (W x00 x00 x00 x00 x9a x00 x00 x00)
(L (W x00 x00 x00 x00 x00 x00 x00 x00)) E)
(T (W x02 x00 x03 x00 x03 x03 x05 x04)
(L (W x00 x00 x00 x00 x00 x00 x00 x00)) E))))))
(T (W x00 x00 x00 x00 x00 x00 x00 x00)
(T (W x02 x00 x03 x00 x02 x03 x05 x05)
(T (W x04 x00 x00 x00 x93 x00 x00 x00)
(T (W x00 x00 x00 x00 x00 x00 x00 x00)
(T (W x1e x00 x00 x00 x00 x00 x28 x00)
(T (W x05 x05 x05 x05 x05 x02 x02 x05)
(L (W x66 x00 x66 x00 x7e x00 x00 x00))
(L (W x00 x00 x00 x00 x00 x00 x00 x00)))
(T (W x00 x92 x00 x00 x00 x00 x96 x00)
(L (W x00 x00 x00 x00 x00 x00 x00 x00)) E))
(T (W x00 x00 x00 x00 x00 x00 x00 x00)
(T (W x00 x00 xb0 x00 x00 x00 xb3 x01)
(L (W x00 x03 x20 x87 x92 x29 x10 x04)) E)
(T (W xff x01 x40 x00 x00 x00 x00 x00)
(L (W x00 x00 x00 x00 x00 x00 x00 x00)) E)))
(T (W x2d x03 x0c x00 x00 x00 xeb x00)
(T (W x1e x00 x20 x00 x83 x00 x00 x00)
(T (W x00 x00 x00 x00 xe0 x13 x30 xec)
(L (W x02 x00 x03 x00 x03 x03 x02 x02))
(L (W x3c x02 x00 x02 x00 x00 x00 x00)))
(T (W x00 x00 x00 x00 x18 x01 x00 x00)
(L (W x00 x00 x38 x00 x00 x00 x38 x00)) E))
(T (W x00 x00 x00 x00 x00 x00 x00 x00)
(T (W x00 x00 x00 x00 x09 x02 x00 x00)
(L (W x05 x05 x05 x05 x05 x02 x02 x02)) E)
(T (W x1e x00 x00 x00 x00 x00 x3c x00)
(L (W x00 x00 x00 x00 x00 x00 x00 x00)) E))))
(T (W x04 xc0 x2a x8b x9e x71 xa0 x00)
(T (W x05 x05 x02 x03 x03 x02 x02 x02)
(T (W x00 x00 x00 x00 x00 x00 x00 x00)
(T (W x2d x03 x0c x00 x00 x00 x00 x00)
(L (W x00 x00 x00 x00 x5a x03 x00 x00))
(L (W x05 x05 x04 x05 x05 x02 x02 x04)))
(T (W x00 x0b x20 x93 x86 x00 x00 x02)
(L (W x01 x00 x00 x00 x00 x00 x00 x00)) E))
(T (W x00 x00 x00 x00 x00 x00 x00 x00)
(T (W x00 x00 x00 x00 x00 x00 x00 x00)
(L (W x00 x00 x00 x00 x59 x01 x00 x00)) E)
(T (W x00 x00 x00 x00 x14 x09 x12 x0c)
(L (W x00 x00 x00 x00 x00 x00 x00 x00)) E)))
(T (W x00 x00 x00 x00 x12 x03 x30 xcc)
(T (W x00 x00 x00 x00 x00 x00 x00 x00)
(T (W x1e x00 x00 x00 x00 x00 x2d x00)
(L (W x00 x02 x00 x00 x00 x00 xa5 x00)) E)
(T (W x05 x05 x03 x03 x04 x02 x02 x03)
(L (W x37 x00 x37 x00 x27 x00 xf2 x03)) E))
(T (W x00 x00 x00 x00 x00 x00 x00 x00)
(T (W x02 x00 x03 x00 x03 x02 x05 x05)
(L (W xff x01 x40 x00 x00 x00 xd9 x00)) E)
(T (W x00 x00 x98 x02 x00 x00 x98 x02)
(L (W x00 x00 x00 x00 x00 x00 x00 x00)) E)))))
(T (W x00 x00 x00 x00 x01 x00 x50 x0c)
(T (W x1e x00 x00 x00 x00 x00 x28 x00)
(T (W x22 x00 x66 x00 x90 x00 x00 x00)
(T (W x00 x00 x00 x00 x00 x00 x00 x00)
(T (W x00 x00 x00 x00 x00 x00 x00 x00)
(L (W x05 x05 x03 x03 x03 x02 x02 x03))
(L (W xe1 x00 xe1 x00 xe1 x00 x6f x04)))
(T (W x1e x00 x00 x00 x00 x00 x3c x00)
(L (W x00 x00 x00 x00 x00 x00 x00 x00)) E))
(T (W x00 x00 x00 x00 x00 x00 x00 x00)
(T (W x00 x00 x00 x00 x00 x00 x00 x00)
(L (W x00 x00 x5d x02 x00 x00 x5d x02)) E)
(T (W x00 x00 x00 x00 x00 x00 x00 x00)
(L (W x00 x00 x00 x00 x00 x00 x00 x00)) E)))
(T (W x00 x00 x00 x00 x00 x00 x00 x00)
(T (W x05 x05 x02 x03 x03 x02 x02 x02)
(T (W x00 x00 x00 x00 x00 x00 x0a x00)
(L (W x09 x00 x00 x00 x83 x24 x10 x0c))
(L (W x02 x00 x02 x00 x02 x02 x04 x03)))
(T (W x78 x00 x9d x00 x2b x00 x00 x00)
(L (W x00 x00 x00 x00 x00 x00 x00 x00)) E))
(T (W x00 x00 x85 x00 x00 x00 xca x00)
(T (W x5a x02 x08 x00 x00 x00 x00 x00)
(L (W x00 x00 x00 x00 x19 x00 x00 x00)) E)
(T (W x00 x03 x6e x23 x8d x82 x03 x20)
(L (W x01 x00 x00 x00 x00 x00 x00 x00)) E))))
(T (W x00 x00 xf8 x01 x00 x00 x16 x02)
(T (W x00 x00 x00 x00 x89 x00 x00 x00)
(T (W x00 x00 x00 x00 x00 x00 x00 x00)
(T (W x02 x00 x02 x00 x02 x02 x03 x03)
(L (W x2d x01 x01 x00 x00 x00 x00 x00))
(L (W x00 x00 x00 x00 x00 x00 x00 x00)))
(T (W x00 x00 x00 x00 x00 x00 x00 x00)
(L (W x00 x00 x00 x00 x00 x00 x00 x00)) E))
(T (W x01 x00 x00 x00 x00 x00 x00 x00)
(T (W x05 x05 x03 x03 x03 x02 x02 x03)
(L (W x0b x00 xad x00 x92 x00 x00 x00)) E)
(T (W x08 x40 x00 x00 x00 x00 x00 x00)
(L (W x00 x00 x00 x00 x00 x00 x00 x00)) E)))
(T (W x00 x00 x03 x00 x8c x00 x00 x00)
(T (W x00 x00 x00 x00 x00 x00 x00 x00)
(T (W x3b x8b xf1 x8b x97 x0a x01 x08)
(L (W x1e x00 x00 x00 x00 x00 x32 x00)) E)
(T (W x00 x00 x00 x00 x89 x02 x00 x00)
(L (W x05 x05 x03 x03 x04 x02 x02 x03)) E))
(T (W x00 x00 x00 x00 x00 x00 x00 x00)
(T (W x00 x00 x00 x00 x00 x00 x90 x0c)
(L (W x02 x00 x03 x00 x03 x03 x04 x03)) E)
(T (W x00 x00 x00 x00 xbb x00 x00 x00)
(L (W x00 x00 xd9 x01 x00 x00 xf7 x00)) E))))))))
(T (W x2d x02 x40 x01 x00 x00 x00 x00)
(T (W x04 x00 x00 x00 x47 x00 x00 x00)
(T (W x01 x01 x01 x01 x01 x01 x01 x01)
(T (W x00 x00 x00 x00 x19 x00 x00 x00)
(T (W x00 x00 x00 x00 x00 x00 x00 x00)
(T (W x00 x80 x71 x87 x85 x00 x43 x02)
(T (W x00 x00 x00 x00 x00 x00 x00 x00)
(T (W x00 x00 x00 x00 x00 x00 x00 x00)
(L (W x00 x00 xcb x02 x00 x00 x39 x00))
(L (W x00 x0b xea x97 xc4 x10 x04 x00)))
(T (W x01 x00 x02 x00 x02 x02 x03 x03)
(L (W x3c x02 x20 x00 x00 x00 x73 x03)) E))
(T (W x00 x00 x00 x00 x19 x01 x00 x00)
(T (W x1e x00 x00 x00 x00 x00 x37 x00)
(L (W x00 x11 x00 x00 x00 x00 xb2 x00)) E)
(T (W x01 x01 x01 x01 x01 x01 x01 x01)
(L (W xa4 x00 xa4 x00 xa4 x00 x01 x04)) E)))
(T (W x05 x05 x03 x03 x04 x02 x02 x03)
(T (W x00 x00 x00 x00 x00 x00 x00 x00)
(T (W x4b x02 x00 x02 x00 x00 xef x00)
(L (W x00 x00 x00 x00 x6b x03 x00 x00))
(L (W x05 x05 x02 x03 x03 x02 x02 x02)))
(T (W x00 x28 xa8 x83 xc4 x10 x00 x02)
(L (W x01 x00 x00 x00 x00 x00 x00 x00)) E))
(T (W x00 x00 x00 x00 x00 x00 x00 x00)
(T (W x00 x00 x00 x00 x00 x00 x00 x00)
(L (W x00 x00 x00 x00 x8c x01 x00 x00)) E)
(T (W x00 x00 x00 x00 x02 x20 x10 xae)
(L (W x00 x00 x00 x00 x00 x00 x00 x00)) E))))
(T (W x00 x00 x00 x00 x00 x00 x00 x00)
(T (W x00 x00 x00 x00 x92 x00 x00 x00)
(T (W x1e x00 x00 x00 x00 x00 x32 x00)
(T (W x01 x01 x01 x01 x01 x01 x01 x01)
(L (W xc3 x00 xc3 x00 x08 x00 x00 x00))
(L (W x00 x00 x00 x00 x7e x01 x00 x00)))
(T (W x00 x00 x00 x00 x00 x00 x17 x00)
(L (W x00 x00 x00 x00 x00 x00 x00 x00)) E))
(T (W x01 x00 x03 x00 x01 x03 x06 x06)
(T (W x00 x00 x00 x00 x00 x00 x00 x00)
(L (W x04 x83 xa1 x83 x86 x00 x00 x0f)) E)
(T (W xbe x01 x40 x00 x00 x00 x00 x00)
(L (W x00 x00 x00 x00 x00 x00 x00 x00)) E)))
(T (W x00 x00 x00 x00 x00 x00 x00 x00)
(T (W x43 x00 x43 x00 x06 x00 x00 x00)
(T (W x40 x00 x00 x00 x06 x84 x10 x8d)
(L (W x02 x00 x03 x00 x03 x03 x04 x04))
(L (W x03 x03 x0c x00 x00 x00 x00 x00)))
(T (W x00 x00 x00 x00 x1c x01 x00 x00)
(L (W x00 x00 x00 x00 x00 x00 x00 x00)) E))
(T (W x00 x00 x00 x00 x00 x00 x00 x00)
(T (W x04 x00 x00 x00 x19 x02 x00 x00)
(L (W x05 x05 x02 x03 x04 x02 x02 x02)) E)
(T (W x1e x00 x00 x00 x00 x00 x32 x00)
(L (W x00 x00 x00 x00 x00 x00 x00 x00)) E)))))
(T (W xbe x01 x40 x00 x00 x00 xf9 x00)
(T (W x00 x00 x00 x00 x7a x08 x11 x4c)
(T (W x00 x00 xb3 x00 x00 x00 xb3 x00)
(T (W x00 x04 x00 x00 x03 x00 x00 x00)
(T (W x00 x00 x00 x00 x00 x00 x00 x00)
(L (W x00 x00 x00 x00 xf5 x00 x00 x00))
(L (W x00 x00 x00 x00 x00 x00 x00 x00)))
(T (W x00 x00 x00 x00 x00 x01 x10 xcc)
(L (W x00 x00 x00 x00 x00 x00 x00 x00)) E))
(T (W xbe x01 x01 x00 x00 x00 x00 x00)
(T (W x00 x40 xa6 x03 xc6 x03 x00 x00)
(L (W x1e x00 x00 x00 x00 x00 x2d x00)) E)
(T (W x00 x00 x00 x00 x00 x00 x00 x00)
(L (W x01 x01 x01 x01 x01 x01 x01 x01)) E)))
(T (W x00 x00 x00 x00 x00 x00 x00 x00)
(T (W x00 x00 x00 x00 x7f x01 x00 x00)
(T (W x00 x00 x00 x00 x00 x00 x00 x00)
(L (W x1e x03 x30 x00 x00 x00 x00 x00))
(L (W x00 x00 x00 x00 x9d x03 x00 x00)))
(T (W x00 x00 x5a x00 x00 x00 x5a x00)
(L (W x00 x00 x00 x00 x00 x00 x00 x00)) E))
(T (W x1e x00 x00 x00 x00 x00 x28 x00)
(T (W x05 x05 x03 x04 x04 x02 x02 x03)
(L (W x7f x00 x7f x00 x7f x00 xa6 x04)) E)
(T (W x10 x28 x00 x00 x00 x00 x00 x00)
(L (W x00 x00 x00 x00 x00 x00 x00 x00)) E))))
(T (W x1e x00 x00 x00 x00 x00 x32 x00)
(T (W x16 x00 x16 x00 x99 x00 x00 x00)
(T (W x00 x41 xa1 x8b x96 x23 xf4 x04)
(T (W x00 x00 x00 x00 x00 x00 x00 x00)
(L (W x05 x05 x04 x05 x05 x02 x02 x04))
(L (W x00 x00 x00 x00 x00 x00 x00 x00)))
(T (W x1e x00 x00 x00 x00 x00 x28 x00)
(L (W x00 x80 x00 x00 x00 x00 x47 x00)) E))
(T (W x00 x00 x00 x00 x00 x00 x00 x00)
(T (W x00 x00 x00 x00 x00 x00 x00 x00)
(L (W x00 x00 xbc x01 x00 x00 xbc x01)) E)
(T (W x03 x00 x02 x00 x02 x02 x05 x04)
(L (W x00 x00 x00 x00 x00 x00 x00 x00)) E)))
(T (W x02 x00 x02 x00 x02 x02 x03 x03)
(T (W x01 x01 x01 x01 x01 x01 x01 x01)
(T (W x00 x00 x00 x00 x00 x00 x00 x00)
(L (W x00 x00 x00 x00 x00 x18 x10 x2c)) E)
(T (W x9e x00 x9e x00 x80 x00 xff x03)
(L (W x01 x00 x01 x00 x47 x01 x01 x00)) E))
(T (W x00 x00 x3d x02 x00 x00 x3d x02)
(T (W x4b x02 x00 x02 x00 x00 x21 x02)
(L (W x00 x00 x00 x00 x00 x00 x00 x00)) E)
(T (W x00 x00 x00 x00 x00 x00 x00 x00)
(L (W x01 x00 x00 x00 x00 x00 x00 x00)) E))))))
(T (W x01 x00 x00 x00 x00 x00 x00 x00)
(T (W x3f x83 xe0 xab xb7 x0a x63 x08)
(T (W x00 x00 x00 x00 x00 x00 x00 x00)
(T (W x00 x00 x00 x00 x00 x00 x00 x00)
(T (W x06 x00 x0b x00 x6d x00 x00 x00)
(T (W x40 x00 x00 x00 x32 x1f x19 x2f)
(L (W x02 x00 x03 x00 x03 x03 x04 x04))
(L (W x03 x03 x03 x00 x00 x00 x00 x00)))
(T (W x00 x00 x00 x00 x00 x00 x00 x00)
(L (W x00 x00 x19 x01 x00 x00 x3a x03)) E))
(T (W x00 x00 x00 x00 x00 x00 x00 x00)
(T (W x08 x00 x00 x00 xd9 x01 x00 x00)
(L (W x05 x05 x04 x04 x04 x02 x02 x04)) E)
(T (W x1e x00 x00 x00 x00 x00 x28 x00)
(L (W x00 x00 x00 x00 x00 x00 x00 x00)) E)))
(T (W x1e x00 x00 x00 x00 x00 x37 x00)
(T (W x02 x00 x03 x00 x02 x03 x04 x04)
(T (W x00 x00 x6b x00 x00 x00 xc4 x00)
(L (W x03 x03 xe0 x03 x80 x08 x01 x8a))
(L (W x1e x00 x00 x00 x00 x00 x32 x00)))
(T (W x78 x01 x04 x00 x00 x00 x00 x00)
(L (W x00 x00 x00 x00 xdf x01 x00 x00)) E))
(T (W x05 x05 x04 x04 x05 x02 x02 x04)
(T (W x00 x02 x00 x00 x00 x00 x00 x00)
(L (W x00 x00 x00 x00 x82 x20 x30 x0c)) E)
(T (W x9d x00 x5d x00 xb7 x00 x00 x00)
(L (W x00 x00 x00 x00 x00 x00 x00 x00)) E))))
(T (W x05 x05 x02 x03 x03 x02 x02 x02)
(T (W x00 x00 x00 x00 x62 x48 x10 x4e)
(T (W x00 x00 x00 x00 x00 x00 x00 x00)
(T (W x1e x00 x00 x00 x00 x00 x37 x00)
(L (W x00 x00 x00 x00 x00 x00 x00 x00))
(L (W xc1 x00 x00 x00 x35 x01 x38 x0d)))
(T (W x05 x05 x04 x04 x06 x02 x02 x04)
(L (W x00 x00 x00 x00 x00 x00 x00 x00)) E))
(T (W x00 x00 x00 x00 x43 x00 x00 x00)
(T (W x00 x00 x00 x00 x00 x00 x00 x00)
(L (W x64 x02 x00 x08 x00 x00 x00 x00)) E)
(T (W x00 x00 xe6 x00 x00 x00 xba x00)
(L (W x00 x00 x00 x00 x00 x00 x00 x00)) E)))
(T (W x00 x00 xb3 x01 x00 x00 xb3 x01)
(T (W x00 x00 x00 x00 x00 x00 x47 x00)
(T (W x2d x00 x2d x00 x9f x00 x00 x00)
(L (W x00 x00 x00 x00 x16 x00 x00 x00)) E)
(T (W x00 x00 x00 x00 x04 x88 x16 x0c)
(L (W x00 x00 x00 x00 x00 x00 x00 x00)) E))
(T (W x00 x00 x00 x00 x00 x00 x00 x00)
(T (W x80 x08 x21 x83 x84 x00 x00 x02)
(L (W x1e x00 x00 x00 x00 x00 x28 x00)) E)
(T (W x00 x00 x00 x00 x50 x03 x00 x00)
(L (W x01 x01 x01 x01 x01 x01 x01 x01)) E)))))
(T (W x00 x00 x3a x01 x00 x00 x93 x01)
(T (W x3e x00 x63 x00 x50 x00 x00 x00)
(T (W x03 x00 x02 x00 x03 x02 x04 x04)
(T (W x01 x01 x01 x01 x01 x01 x01 x01)
(T (W x00 x00 x00 x00 x00 x00 x00 x00)
(L (W x00 x00 x00 x00 x00 x00 x12 x4c))
(L (W x02 x00 x02 x00 x03 x02 x03 x03)))
(T (W x8e x00 x62 x00 x90 x00 x00 x00)
(L (W x00 x00 x00 x00 x00 x00 x00 x00)) E))
(T (W x00 x00 x15 x00 x00 x00 xcc x00)
(T (W x03 x03 x00 x03 x00 x00 x00 x00)
(L (W x00 x00 x00 x00 xca x03 x00 x00)) E)
(T (W x00 x00 x00 x00 x00 x00 x00 x00)
(L (W x01 x00 x00 x00 x00 x00 x00 x00)) E)))
(T (W x00 x00 x00 x00 x00 x00 x00 x00)
(T (W x01 x00 x00 x00 x83 x10 x10 x8c)
(T (W x00 x00 x00 x00 xfc x00 x00 x00)
(L (W x00 x00 x11 x03 x00 x00 x1b x01))
(L (W x04 x04 x2e x83 x80 x13 x00 xa0)))
(T (W x01 x00 x03 x00 x03 x03 x04 x04)
(L (W x00 x00 x00 x00 x00 x00 x00 x00)) E))
(T (W x00 x00 x00 x00 x59 x01 x00 x00)
(T (W x1e x00 x00 x00 x00 x00 x3c x00)
(L (W x08 x00 x00 x00 x55 x00 x00 x00)) E)
(T (W x05 x05 x05 x05 x05 x02 x02 x05)
(L (W x00 x00 x00 x00 x00 x00 x00 x00)) E))))
(T (W x00 x00 x00 x00 x00 x00 x00 x00)
(T (W x08 x00 x00 x00 x00 x00 x4c x00)
(T (W x00 x00 x00 x00 x00 x00 x00 x00)
(T (W x00 x00 x00 x01 x00 x00 x00 x00)
(L (W x0a x00 x00 x00 x00 x00 x28 x00))
(L (W x00 x00 x00 x00 x00 x00 x00 x00)))
(T (W x00 x00 x00 x00 x59 x02 x00 x00)
(L (W x01 x01 x01 x01 x01 x01 x01 x01)) E))
(T (W x00 x00 x00 x00 x00 x00 x00 x00)
(T (W x00 x00 x00 x00 x10 x03 x30 x0c)
(L (W x03 x00 x03 x00 x03 x03 x03 x03)) E)
(T (W x00 x00 x00 x00 x3e x01 x00 x00)
(L (W x00 x00 x00 x00 x00 x00 x00 x00)) E)))
(T (W x00 x00 x00 x00 x3a x00 x00 x00)
(T (W x1e x00 x00 x00 x00 x00 x32 x00)
(T (W x05 x05 x03 x03 x03 x02 x02 x03)
(L (W xad x00 x4b x00 x21 x00 x00 x00)) E)
(T (W x44 x00 x00 x00 x00 x00 x00 x00)
(L (W x00 x00 x00 x00 x00 x00 x00 x00)) E))
(T (W x00 x00 x00 x00 x00 x00 x00 x00)
(T (W x00 x00 xfd x00 x00 x00 xa8 x01)
(L (W x17 xc3 x2a x8b x9e x79 xa0 x88)) E)
(T (W x00 x00 x00 x00 x00 x00 x00 x00)
(L (W x00 x00 x00 x00 x00 x00 x00 x00)) E)))))))
(T (W x00 x00 x51 x00 x00 x00 x21 x00)
(T (W x00 x00 x00 x00 x00 x00 x00 x00)
(T (W x00 x00 x00 x00 x03 x14 x96 x8c)
(T (W x1e x00 x00 x00 x00 x00 x32 x00)
(T (W x34 x00 x4b x00 x7d x00 x00 x00)
(T (W x00 x00 x00 x00 x00 x00 x00 x00)
(T (W x08 x00 x00 x00 x79 x01 x00 x00)
(L (W x05 x05 x03 x03 x03 x02 x02 x03))
(L (W xbb x00 xbb x00 xbb x00 x62 x04)))
(T (W x1e x00 x00 x00 x00 x00 x32 x00)
(L (W x00 x06 x00 x00 x00 x00 xca x00)) E))
(T (W x00 x00 x00 x00 x00 x00 x00 x00)
(T (W x00 x00 x00 x00 xca x00 x00 x00)
(L (W x00 x00 x13 x03 x00 x00 x13 x03)) E)
(T (W x00 x00 x00 x00 x00 x00 x00 x00)
(L (W x03 x03 x44 x01 x00 x00 x00 x00)) E)))
(T (W x01 x00 x00 x00 x00 x00 x00 x00)
(T (W x05 x05 x02 x03 x04 x02 x02 x02)
(T (W x00 x08 x00 x00 x00 x00 x00 x00)
(L (W x00 x00 x00 x00 x00 x03 x10 x0c))
(L (W x00 x00 x00 x00 x00 x00 x00 x00)))
(T (W x4f x00 x68 x00 x7f x00 x00 x00)
(L (W x00 x00 x00 x00 x81 x00 x00 x00)) E))
(T (W x00 x00 x59 x00 x00 x00 x4a x02)
(T (W xbe x01 x01 x00 x00 x00 x00 x00)
(L (W x02 x00 x00 x00 xab x03 x00 x00)) E)
(T (W x00 x00 x6e x23 x8d x00 x03 x20)
(L (W x01 x00 x00 x00 x00 x00 x00 x00)) E))))
(T (W x00 x00 x00 x00 x00 x00 x00 x00)
(T (W x00 x00 x00 x00 x79 x00 x00 x00)
(T (W x00 x00 x00 x00 x00 x00 x00 x00)
(T (W x00 x00 x00 x00 x00 x00 x00 x00)
(L (W x03 x03 x03 x00 x00 x00 x00 x00))
(L (W x02 x00 x00 x00 x5e x03 x00 x00)))
(T (W x00 x00 x00 x00 x00 x00 x00 x00)
(L (W x00 x00 x00 x00 x00 x00 x00 x00)) E))
(T (W x01 x00 x00 x00 x00 x00 x00 x00)
(T (W x01 x01 x01 x01 x01 x01 x01 x01)
(L (W x4d x00 xfb x00 x73 x00 x00 x00)) E)
(T (W x00 x00 x00 x00 x00 x00 x00 x00)
(L (W x00 x00 x00 x00 x00 x00 x00 x00)) E)))
(T (W x00 x00 x00 x00 x00 x00 x00 x00)
(T (W x00 x00 x00 x00 x00 x00 x00 x00)
(T (W x33 x80 x61 x83 x86 x0f x01 x8a)
(L (W x1e x00 x00 x00 x00 x00 x32 x00))
(L (W x00 x84 x00 x00 x00 x00 xd2 x00)))
(T (W x00 x00 x00 x00 x79 x02 x00 x00)
(L (W x01 x01 x01 x01 x01 x01 x01 x01)) E))
(T (W x00 x00 x00 x00 x00 x00 x00 x00)
(T (W x00 x00 x00 x00 x00 x00 x00 x00)
(L (W x01 x00 x01 x00 x01 x01 x05 x05)) E)
(T (W x00 x00 x00 x00 x00 x00 x00 x00)
(L (W x00 x00 x00 x00 x00 x00 x00 x00)) E)))))
(T (W x00 x00 x03 x00 x0c x00 x00 x00)
(T (W x3b x40 xae x83 x86 x01 x00 xf8)
(T (W x05 x05 x04 x04 x05 x02 x02 x04)
(T (W x00 x00 xdb x00 x00 x00 xf3 x00)
(T (W x00 x00 x00 x00 x00 x00 x00 x00)
(L (W x00 x00 x00 x00 x2c x03 x00 x00))
(L (W x05 x05 x03 x03 x04 x02 x02 x03)))
(T (W x00 x40 xee xa3 x82 x82 x01 x2a)
(L (W x01 x00 x00 x00 x00 x00 x00 x00)) E))
(T (W x01 x00 x00 x00 x96 x00 x00 x00)
(T (W x1a x00 x1a x00 x1a x00 x00 x00)
(L (W x00 x00 x00 x00 x4f x01 x00 x00)) E)
(T (W x00 x00 x00 x00 x00 x00 x00 x00)
(L (W x00 x00 x00 x00 x00 x00 x00 x00)) E)))
(T (W x00 x00 x00 x00 x00 x00 x00 x00)
(T (W x00 x00 x00 x00 xf9 x00 x00 x00)
(T (W x1e x00 x00 x00 x00 x00 x2d x00)
(L (W x48 x00 x00 x00 x00 x00 x00 x00))
(L (W x00 x00 x00 x00 x00 x48 x18 x4e)))
(T (W x05 x05 x03 x03 x04 x02 x02 x03)
(L (W x00 x00 x00 x00 x00 x00 x00 x00)) E))
(T (W x00 x00 x00 x00 x67 x00 x00 x00)
(T (W x02 x00 x03 x00 x03 x03 x03 x03)
(L (W xbe x02 x80 x00 x00 x00 xec x00)) E)
(T (W x00 x00 x6e x01 x00 x00 x93 x01)
(L (W x00 x00 x00 x00 x00 x00 x00 x00)) E))))
(T (W x00 x00 x00 x00 x00 x00 x00 x00)
(T (W x2d x01 x00 x04 x00 x00 x00 x00)
(T (W x21 x00 x0b x00 x29 x00 x00 x00)
(T (W x00 x00 x00 x00 x00 x00 x00 x00)
(L (W x02 x00 x03 x00 x03 x03 x03 x03))
(L (W x00 x00 x00 x00 x00 x00 x00 x00)))
(T (W x00 x00 x00 x00 xbe x00 x00 x00)
(L (W x00 x00 x00 x00 x00 x00 x00 x00)) E))
(T (W x00 x03 xa1 x8f x9a x21 x91 x06)
(T (W x00 x00 x00 x00 x00 x00 x00 x00)
(L (W x05 x05 x03 x03 x04 x02 x02 x03)) E)
(T (W x1e x00 x00 x00 x00 x00 x37 x00)
(L (W x00 x00 x00 x00 x00 x00 x00 x00)) E)))
(T (W x01 x00 x00 x00 x00 x00 x00 x00)
(T (W x02 x00 x03 x00 x02 x03 x04 x03)
(T (W x00 x00 x61 x00 x00 x00 x61 x00)
(L (W x00 x40 x20 x83 x80 x00 x00 x22)) E)
(T (W x03 x03 x00 x03 x00 x00 x00 x00)
(L (W x00 x00 x00 x00 x00 x00 x00 x00)) E))
(T (W x05 x05 x05 x05 x06 x02 x02 x05)
(T (W x00 x89 x00 x00 xb0 x00 x00 x00)
(L (W x00 x00 x00 x00 x83 x18 x10 xbc)) E)
(T (W x1a x00 x1a x00 x1a x00 x00 x00)
(L (W x00 x00 x00 x00 x00 x00 x00 x00)) E))))))
(T (W x00 x00 x00 x00 x00 x00 x00 x00)
(T (W x26 x00 x4f x00 x7d x00 x00 x00)
(T (W x00 x00 x00 x00 x00 x00 x00 x00)
(T (W x11 x04 x00 x00 xce x00 x00 x00)
(T (W x2d x02 x00 x08 x00 x00 x00 x00)
(T (W x2b xcb x68 x07 x85 x08 x21 x08)
(L (W x1e x00 x00 x00 x00 x00 x32 x00))
(L (W x00 x00 x00 x00 x00 x00 x00 x00)))
(T (W x08 x00 x00 x00 x39 x02 x00 x00)
(L (W x01 x01 x01 x01 x01 x01 x01 x01)) E))
(T (W x0e x00 x0e x00 x32 x00 x00 x00)
(T (W x00 x00 x00 x00 x00 x00 x00 x00)
(L (W x03 x00 x03 x00 x03 x03 x05 x05)) E)
(T (W x00 x00 x00 x00 x00 x00 x00 x00)
(L (W x00 x00 x00 x00 x00 x00 x00 x00)) E)))
(T (W x00 x00 x00 x00 x00 x00 x00 x00)
(T (W x0a x00 x00 x00 x00 x00 x28 x00)
(T (W x01 x01 x01 x01 x01 x01 x01 x01)
(L (W x65 x00 x65 x00 x65 x00 x00 x00))
(L (W x00 x00 x00 x00 xba x00 x00 x00)))
(T (W x20 x00 x00 x00 x00 x00 x1e x00)
(L (W x00 x00 x00 x00 x00 x03 x10 x0c)) E))
(T (W x00 x00 x00 x00 x00 x00 x00 x00)
(T (W x00 x00 x00 x00 x00 x00 x00 x00)
(L (W x00 x03 x36 x03 x80 x00 x00 x00)) E)
(T (W x3c x02 x08 x00 x00 x00 x00 x00)
(L (W x00 x00 x00 x00 x00 x00 x00 x00)) E))))
(T (W x02 x00 x01 x00 x02 x01 x05 x05)
(T (W x00 x83 xe0 x83 x86 x0e x01 x08)
(T (W x00 x00 x00 x00 x62 x04 x12 x0c)
(T (W x00 x00 x00 x00 x3b x00 x00 x00)
(L (W x00 x00 xa5 x01 x00 x00 x47 x02))
(L (W x00 x43 x70 x4f x8f x11 x00 x03)))
(T (W x01 x00 x03 x00 x01 x03 x05 x05)
(L (W x00 x00 x00 x00 x00 x00 x00 x00)) E))
(T (W x00 x00 x00 x00 x00 x00 x00 x00)
(T (W x01 x00 x00 x00 x00 x00 x00 x00)
(L (W x08 x00 x00 x00 x7e x00 x9e x00)) E)
(T (W x05 x05 x04 x05 x05 x02 x02 x04)
(L (W x00 x00 x00 x00 x00 x00 x00 x00)) E)))
(T (W x05 x05 x03 x03 x03 x02 x02 x03)
(T (W x00 x00 x00 x00 x00 x00 x00 x00)
(T (W x8c x01 x04 x00 x00 x00 x19 x01)
(L (W x08 x00 x00 x00 xa3 x03 x00 x00)) E)
(T (W x00 x03 x6c x07 x81 x0f x41 x00)
(L (W x1e x00 x00 x00 x00 x00 x32 x00)) E))
(T (W x00 x00 x00 x00 x00 x00 x6b x00)
(T (W x9e x00 x97 x00 x22 x00 x00 x00)
(L (W x02 x00 x01 x00 xb6 x00 x02 x00)) E)
(T (W x00 x00 x00 x00 x00 x00 x00 x00)
(L (W x00 x00 x00 x00 x00 x00 x00 x00)) E)))))
(T (W x05 x05 x03 x04 x04 x02 x02 x03)
(T (W x00 x00 x00 x00 x00 x00 x00 x00)
(T (W x1e x00 x00 x00 x00 x00 x3c x00)
(T (W x02 x00 x02 x00 x02 x02 x03 x03)
(T (W x00 x00 x00 x00 x00 x00 x00 x00)
(L (W x00 x00 x21 x83 x8a x01 x20 x04))
(L (W x1e x00 x00 x00 x00 x00 x28 x00)))
(T (W x00 x00 x00 x00 x00 x00 x00 x00)
(L (W x00 x00 x00 x00 x00 x00 x00 x00)) E))
(T (W x01 x01 x01 x01 x01 x01 x01 x01)
(T (W x00 x22 x00 x00 x00 x00 x00 x00)
(L (W x00 x00 x00 x00 x80 x40 x14 x0c)) E)
(T (W x59 x00 x68 x00 x71 x00 x00 x00)
(L (W x00 x00 x00 x00 x00 x00 x00 x00)) E)))
(T (W x00 x00 x00 x00 x00 x00 x00 x00)
(T (W x03 xa0 x60 x83 xc4 x02 x11 x04)
(T (W x00 x00 x00 x00 x00 x00 x00 x00)
(L (W x05 x05 x02 x03 x03 x02 x02 x02))
(L (W xeb x00 xeb x00 xeb x00 xa2 x04)))
(T (W x1e x00 x00 x00 x00 x00 x32 x00)
(L (W x00 x00 x00 x00 x00 x00 x00 x00)) E))
(T (W x00 x00 x00 x00 x83 x04 x10 x8c)
(T (W x00 x00 x00 x00 xad x00 x00 x00)
(L (W x00 x00 x56 x00 x00 x00 x58 x01)) E)
(T (W x00 x00 x00 x00 x00 x00 x00 x00)
(L (W x00 x00 x00 x00 x00 x00 x00 x00)) E))))
(T (W x00 x00 x00 x00 x00 x09 x50 x0c)
(T (W x00 x00 x6a x01 x00 x00 x39 x00)
(T (W x00 x00 x00 x00 x00 x00 x00 x00)
(T (W x00 x00 x00 x00 x00 x00 x00 x00)
(L (W x00 x00 x00 x00 x00 x00 x00 x00))
(L (W x00 x00 x00 x00 x00 x00 x00 x00)))
(T (W x00 x00 x00 x00 x00 x00 x00 x00)
(L (W x00 x00 x00 x00 x00 x00 x00 x00)) E))
(T (W x00 x00 x00 x00 x00 x00 x00 x00)
(T (W x00 x00 x00 x00 x00 x00 x00 x00)
(L (W x1e x00 x00 x00 x00 x00 x2d x00)) E)
(T (W x02 x00 x00 x00 xe2 x02 x00 x00)
(L (W x01 x01 x01 x01 x01 x01 x01 x01)) E)))
(T (W x08 x00 x00 x00 xb9 x00 x00 x00)
(T (W x00 x00 x00 x00 x3e x00 x00 x00)
(T (W x02 x00 x03 x00 x03 x03 x04 x04)
(L (W xff x01 x10 x00 x00 x00 x00 x00)) E)
(T (W x00 x00 x00 x00 x00 x00 x00 x00)
(L (W x60 x43 xa0 x87 x82 x4c x00 x0f)) E))
(T (W x1e x00 x00 x00 x00 x00 x37 x00)
(T (W x05 x05 x03 x04 x04 x02 x02 x03)
(L (W x00 x00 x00 x00 x00 x00 x00 x00)) E)
(T (W x00 x02 x00 x00 x00 x00 x00 x00)
(L (W x00 x00 x00 x00 x04 x88 x50 x0c)) E))))))))))
(T (W x2d x01 x00 x01 x00 x00 x00 x00)
(T (W x05 x05 x04 x04 x05 x02 x02 x04)
(T (W x00 x0f x2a xb3 x84 x42 x04 x00)
(T (W x42 x00 x42 x00 x5e x00 x00 x00)
(T (W x00 x00 x00 x00 x00 x00 x00 x00)
(T (W x01 x00 x00 x00 x00 x00 x00 x00)
(T (W x00 x00 x00 x00 x00 x00 x00 x00)
(T (W x00 x00 x00 x00 x5d x00 x00 x00)
(T (W x00 x00 x00 x00 x00 x00 x00 x00)
(T (W x01 x00 x03 x00 x01 x03 x05 x05)
(L (W x5a x02 x08 x00 x00 x00 x00 x00))
(L (W x00 x00 x00 x00 xdf x02 x00 x00)))
(T (W x00 x00 xf8 x01 x00 x00 xf8 x01)
(L (W x00 x0f xb6 x93 x84 x08 x04 x10)) E))
(T (W x1e x00 x00 x00 x00 x00 x3c x00)
(T (W x05 x05 x04 x04 x05 x02 x02 x04)
(L (W xf3 x00 x31 x00 x12 x00 x00 x00)) E)
(T (W x00 x00 x00 x00 x00 x00 x00 x00)
(L (W x00 x00 x00 x00 x03 x0c x50 x8d)) E)))
(T (W x00 x10 x00 x00 x00 x00 x7c x00)
(T (W x2d x02 x00 x02 x00 x00 x00 x00)
(T (W x00 x00 x00 x00 x00 x00 x00 x00)
(L (W x1e x00 x00 x00 x00 x00 x28 x00))
(L (W x00 x00 x00 x00 x00 x00 x00 x00)))
(T (W x00 x00 x00 x00 x5d x02 x00 x00)
(L (W x01 x01 x01 x01 x01 x01 x01 x01)) E))
(T (W x00 x00 x00 x00 x00 x00 x00 x00)
(T (W x00 x00 x00 x00 x00 x00 x00 x00)
(L (W x02 x00 x03 x00 x02 x03 x03 x03)) E)
(T (W x00 x00 x00 x00 x00 x00 x00 x00)
(L (W x00 x00 x00 x00 x00 x00 x00 x00)) E))))
(T (W x00 x00 x00 x00 x00 x00 x00 x00)
(T (W x02 x00 x03 x00 x02 x03 x05 x05)
(T (W x01 x01 x01 x01 x01 x01 x01 x01)
(T (W x00 x00 x00 x00 x00 x00 x00 x00)
(L (W x00 x00 x00 x00 x71 x00 xd5 x0c))
(L (W x02 x00 x02 x00 x03 x02 x03 x03)))
(T (W x73 x00 x51 x00 x85 x00 x00 x00)
(L (W x00 x00 x00 x00 x00 x00 x00 x00)) E))
(T (W x00 x00 xa5 x01 x00 x00 xa5 x01)
(T (W x00 x00 x00 x00 x00 x00 x00 x00)
(L (W x08 x00 x00 x00 xbf x03 x00 x00)) E)
(T (W x3b x83 xe0 x87 xa6 x0e x01 x8a)
(L (W x01 x00 x00 x00 x00 x00 x00 x00)) E)))
(T (W x40 x00 xa5 xc3 x86 x11 x00 x00)
(T (W x02 x00 x00 x00 x87 xb0 x30 x2c)
(T (W x00 x00 x00 x00 x00 x00 x00 x00)
(L (W x00 x00 xe8 x01 x00 x00 xe6 x01))
(L (W x40 x0b x27 x07 x80 x00 x00 x06)))
(T (W x01 x00 x03 x00 x03 x03 x03 x03)
(L (W x00 x00 x00 x00 x00 x00 x00 x00)) E))
(T (W x00 x00 x00 x00 x5d x01 x00 x00)
(T (W x1e x00 x00 x00 x00 x00 x32 x00)
(L (W x08 x00 x00 x00 x55 x00 x00 x00)) E)
(T (W x05 x05 x05 x05 x05 x02 x02 x02)
(L (W x00 x00 x00 x00 x00 x00 x00 x00)) E)))))
(T (W x3b xcc x2e xab x86 x9a x10 x88)
(T (W x00 x00 x00 x00 x46 x00 x00 x00)
(T (W x4b x02 x20 x00 x00 x00 x02 x01)
(T (W x00 x00 x00 x00 x00 x00 x00 x00)
(T (W x40 x00 x00 x00 x7f x87 x11 x8d)
(L (W x02 x00 x03 x00 x03 x03 x04 x04))
(L (W x00 x00 x00 x00 x00 x00 x00 x00)))
(T (W x00 x00 x00 x00 x00 x00 x00 x00)
(L (W x00 x00 x00 x00 x00 x00 x00 x00)) E))
(T (W x00 x8b xa1 x13 x85 x01 x00 x01)
(T (W x00 x00 x00 x00 xdd x01 x00 x00)
(L (W x05 x05 x02 x03 x03 x02 x02 x02)) E)
(T (W x1e x00 x00 x00 x00 x00 x28 x00)
(L (W x00 x00 x00 x00 x00 x00 x00 x00)) E)))
(T (W x1e x00 x00 x00 x00 x00 x4b x00)
(T (W x03 x00 x00 x00 x00 x00 x00 x00)
(T (W x00 x00 x00 x00 x00 x00 x00 x00)
(L (W x80 x00 x20 x23 x80 x02 x00 x00))
(L (W x1e x00 x00 x00 x00 x00 x32 x00)))
(T (W x4b x02 x80 x00 x00 x00 x00 x00)
(L (W x00 x00 x00 x00 xdf x01 x00 x00)) E))
(T (W x05 x05 x03 x03 x03 x02 x02 x03)
(T (W x00 x00 x00 x00 x00 x00 x00 x00)
(L (W x00 x00 x00 x00 x63 x00 x10 x1d)) E)
(T (W x35 x00 x77 x00 x0f x00 x5c x04)
(L (W x00 x00 x00 x00 x00 x00 x00 x00)) E))))
(T (W x05 x05 x03 x03 x04 x02 x02 x03)
(T (W x00 x00 x00 x00 x76 x87 x30 x9d)
(T (W x00 x00 x00 x00 xdd x00 x00 x00)
(T (W x1e x00 x00 x00 x00 x00 x28 x00)
(L (W x00 x00 x00 x00 x00 x00 x00 x00))
(L (W x00 x00 x00 x00 x00 x00 x00 x00)))
(T (W x05 x05 x04 x04 x05 x02 x02 x04)
(L (W x85 x00 x85 x00 x82 x00 xc6 x03)) E))
(T (W x00 x00 x00 x00 x00 x00 x00 x00)
(T (W x00 x00 x00 x00 x00 x00 x00 x00)
(L (W x4b x02 x00 x02 x00 x00 x00 x00)) E)
(T (W x00 x00 xec x01 x00 x00 x5f x00)
(L (W x00 x00 x00 x00 x00 x00 x00 x00)) E)))
(T (W x00 x00 xba x00 x00 x00 x3e x02)
(T (W x00 x00 x00 x00 x00 x00 x00 x00)
(T (W x6b x00 x57 x00 x8f x00 x00 x00)
(L (W x00 x00 x00 x00 x0c x00 x00 x00)) E)
(T (W x00 x00 x00 x00 x01 x00 x30 x1c)
(L (W x02 x00 x02 x00 x03 x02 x04 x04)) E))
(T (W xbe x01 x01 x00 x00 x00 x89 x02)
(T (W x00 x0b xaa xb3 xa4 x83 x00 x09)
(L (W x1e x00 x00 x00 x00 x00 x28 x00)) E)
(T (W x00 x00 x00 x00 x00 x00 x00 x00)
(L (W x01 x01 x01 x01 x01 x01 x01 x01)) E))))))
(T (W x01 x01 x01 x01 x01 x01 x01 x01)
(T (W x00 x00 x00 x00 x1d x00 x00 x00)
(T (W x01 x00 x02 x00 x02 x02 x06 x06)
(T (W x00 x83 xe0 x8b x9a x28 xa1 x08)
(T (W x00 x00 x00 x00 x00 x00 x00 x00)
(T (W x00 x00 x00 x00 x00 x00 x00 x00)
(L (W x00 x00 x59 x00 x00 x00 x59 x00))
(L (W x00 x83 x68 x03 x85 x09 x00 x02)))
(T (W x01 x00 x01 x00 x01 x01 x05 x05)
(L (W x03 x03 x00 x0c x00 x00 x00 x00)) E))
(T (W x00 x00 x00 x00 x00 x00 x00 x00)
(T (W x1e x00 x00 x00 x00 x00 x32 x00)
(L (W x00 x49 x00 x00 xae x00 x00 x00)) E)
(T (W x01 x01 x01 x01 x01 x01 x01 x01)
(L (W x58 x00 x58 x00 x58 x00 x05 x04)) E)))
(T (W x05 x05 x05 x05 x05 x02 x02 x05)
(T (W x00 x00 x5d x00 x00 x00 xb5 x00)
(T (W x7d x01 x01 x00 x00 x00 x00 x00)
(L (W x00 x00 x00 x00 x71 x03 x00 x00))
(L (W x05 x05 x04 x04 x04 x02 x02 x04)))
(T (W x00 x82 x20 x87 x86 x01 x01 x0e)
(L (W x1e x00 x00 x00 x00 x00 x28 x00)) E))
(T (W x00 x00 x00 x00 x00 x00 x00 x00)
(T (W x6c x00 x1c x00 x8c x00 x00 x00)
(L (W x00 x00 x04 x00 x90 x01 x00 x00)) E)
(T (W x40 x00 x00 x00 x02 x01 x50 x8d)
(L (W x00 x00 x00 x00 x00 x00 x00 x00)) E))))
(T (W x00 x00 x00 x00 x00 x00 x00 x00)
(T (W x01 x00 x01 x00 x6d x01 x00 x00)
(T (W x1e x00 x00 x00 x00 x00 x32 x00)
(T (W x01 x01 x01 x01 x01 x01 x01 x01)
(L (W x00 x00 x00 x00 x00 x00 x00 x00))
(L (W x00 x00 x00 x00 x7e x01 x00 x00)))
(T (W x08 x02 x00 x00 x66 x00 x00 x00)
(L (W x00 x00 x00 x00 x00 x00 x00 x00)) E))
(T (W x00 x00 x00 x00 x00 x00 x00 x00)
(T (W x00 x00 x00 x00 x00 x00 x00 x00)
(L (W x00 x03 xe8 x87 xc3 x94 x43 x32)) E)
(T (W x2d x03 x20 x04 x00 x00 x00 x00)
(L (W x00 x00 x00 x00 x00 x00 x00 x00)) E)))
(T (W x5a x03 xc0 x00 x00 x00 x00 x00)
(T (W x00 x00 x00 x00 x00 x00 x00 x00)
(T (W x80 x00 x00 x00 x81 x3c x30 x8c)
(L (W x02 x00 x03 x00 x03 x03 x04 x03)) E)
(T (W x00 x00 x00 x00 x83 x01 x00 x00)
(L (W x00 x00 x00 x00 x00 x00 x00 x00)) E))
(T (W x00 x00 xa0 x8b xc6 x16 x00 x0a)
(T (W x00 x00 x00 x00 x00 x00 x00 x00)
(L (W x05 x05 x03 x03 x03 x02 x02 x03)) E)
(T (W x1e x00 x00 x00 x00 x00 x3c x00)
(L (W x00 x00 x00 x00 x00 x00 x00 x00)) E)))))
(T (W xff x01 x40 x00 x00 x00 x00 x00)
(T (W x00 x00 x00 x00 x02 x48 x18 xce)
(T (W x00 x00 x6c x00 x00 x00 x01 x01)
(T (W x00 x00 x00 x00 x00 x00 x00 x00)
(T (W x00 x00 x00 x00 x00 x00 x00 x00)
(L (W x00 x00 x00 x00 x35 x00 x00 x00))
(L (W x00 x00 xcb x02 x00 x00 x39 x00)))
(T (W x00 x00 x00 x00 x00 x09 x10 x0e)
(L (W x00 x00 x00 x00 x00 x00 x00 x00)) E))
(T (W x00 x00 x00 x00 x00 x00 x00 x00)
(T (W x00 x43 x68 x07 x87 x09 x01 x00)
(L (W x1e x00 x00 x00 x00 x00 x32 x00)) E)
(T (W x00 x00 x00 x00 x00 x00 x00 x00)
(L (W x01 x01 x01 x01 x01 x01 x01 x01)) E)))
(T (W x00 x00 x00 x00 x00 x00 x00 x00)
(T (W x00 x00 x00 x00 x00 x00 x00 x00)
(T (W x01 x00 x03 x00 x02 x03 x04 x04)
(L (W x03 x03 x0c x00 x00 x00 x00 x00))
(L (W x00 x00 x00 x00 x9d x03 x00 x00)))
(T (W x00 x00 x05 x00 x00 x00 x59 x00)
(L (W x00 x00 x00 x00 x00 x00 x00 x00)) E))
(T (W x1e x00 x00 x00 x00 x00 x1e x00)
(T (W x05 x05 x03 x03 x03 x02 x02 x03)
(L (W x09 x00 x09 x00 x1f x00 x85 x03)) E)
(T (W x00 x02 x00 x00 x00 x00 xb6 x00)
(L (W x00 x00 x00 x00 x00 x00 x00 x00)) E))))
(T (W x01 x00 x00 x00 x00 x00 x00 x00)
(T (W x0b x00 x0b x00 x5d x00 x00 x00)
(T (W x40 x00 xe0 xcb x85 x01 x03 x26)
(T (W x00 x00 x00 x00 x00 x00 x00 x00)
(L (W x05 x05 x05 x05 x05 x02 x02 x05))
(L (W x00 x00 x00 x00 x00 x00 x00 x00)))
(T (W x1e x00 x00 x00 x00 x00 x28 x00)
(L (W x00 x00 x00 x00 x00 x00 x00 x00)) E))
(T (W x00 x00 x00 x00 x7a x04 x13 x0c)
(T (W x00 x00 x00 x00 x00 x00 x00 x00)
(L (W x00 x00 x17 x00 x00 x00 x9b x02)) E)
(T (W x03 x00 x01 x00 x01 x03 x04 x04)
(L (W x00 x00 x00 x00 x00 x00 x00 x00)) E)))
(T (W x00 x00 x00 x00 x00 x00 x00 x00)
(T (W x05 x05 x03 x03 x04 x02 x02 x03)
(T (W x10 x00 x00 x00 x00 x00 x1f x00)
(L (W x00 x00 x00 x00 x03 x10 x30 x2c)) E)
(T (W x2e x00 x2e x00 x2e x00 x01 x04)
(L (W x00 x00 x00 x00 x00 x00 x00 x00)) E))
(T (W x00 x00 x00 x00 x00 x00 x00 x00)
(T (W x2d x03 x0c x00 xf0 x00 x00 x00)
(L (W x04 x00 x00 x00 x4f x00 x00 x00)) E)
(T (W x00 x00 x00 x00 x00 x00 x00 x00)
(L (W x01 x00 x00 x00 x00 x00 x00 x00)) E)))))))
(T (W x2d x03 x00 x0c x00 x00 x00 x00)
(T (W x00 x00 x00 x00 x00 x00 x00 x00)
(T (W x00 x00 x00 x00 xc3 x00 x00 x00)
(T (W x01 x01 x01 x01 x01 x01 x01 x01)
(T (W x00 x00 x00 x00 x00 x00 x00 x00)
(T (W x00 x00 x00 x00 x00 x00 x00 x00)
(T (W x1e x00 x00 x00 x00 x00 x3c x00)
(L (W x00 x00 x00 x00 x7f x00 x00 x00))
(L (W x00 x00 x00 x00 x04 x88 x50 x0c)))
(T (W x05 x05 x04 x04 x04 x02 x02 x04)
(L (W x48 x00 xfb x00 x73 x00 xa6 x03)) E))
(T (W x00 x00 x00 x00 x7a x00 x00 x00)
(T (W x02 x00 x02 x00 x02 x02 x02 x02)
(L (W x2d x02 x08 x00 x00 x00 x00 x00)) E)
(T (W x00 x00 x00 x00 x00 x00 x00 x00)
(L (W x00 x03 x2c x0b x8e x0f x10 x00)) E)))
(T (W x00 x00 x30 x00 x00 x00 x9d x00)
(T (W x00 x00 x00 x00 x00 x00 x00 x00)
(T (W x3c x00 x72 x00 x9f x00 xd7 x03)
(L (W x00 x00 x00 x00 x00 x00 x00 x00))
(L (W x00 x00 xc9 x02 x00 x00 xc9 x02)))
(T (W x00 x00 x00 x00 x04 x88 x10 x0c)
(L (W x00 x00 x00 x00 x00 x00 x00 x00)) E))
(T (W x78 x02 x44 x00 x00 x00 x00 x00)
(T (W x00 x00 x00 x00 x00 x00 x00 x00)
(L (W x1e x00 x00 x00 x00 x00 x3c x00)) E)
(T (W x08 x00 x00 x00 xf9 x02 x00 x00)
(L (W x01 x01 x01 x01 x01 x01 x01 x01)) E))))
(T (W x3c x02 x00 x08 x00 x00 xf5 x00)
(T (W x1e x00 x00 x00 x00 x00 x28 x00)
(T (W x03 x00 x01 x00 x01 x03 x04 x04)
(T (W x00 x00 x00 x00 x00 x00 x00 x00)
(L (W x00 x00 x2f x82 x0a x02 x00 x00))
(L (W x1e x00 x00 x00 x00 x00 x28 x00)))
(T (W x00 x00 x00 x00 x00 x00 x00 x00)
(L (W x00 x00 x00 x00 x00 x00 x00 x00)) E))
(T (W x05 x05 x04 x04 x05 x02 x02 x04)
(T (W x00 x00 x00 x00 x00 x00 x00 x00)
(L (W x00 x00 x00 x00 x7a x0c x16 x0c)) E)
(T (W x33 x00 x97 x00 x9e x00 x5a x04)
(L (W x00 x00 x00 x00 x00 x00 x00 x00)) E)))
(T (W x00 x00 x00 x00 x00 x00 x00 x00)
(T (W x13 x80 x61 x8b x9a x28 x23 x08)
(T (W x00 x00 x00 x00 xbd x01 x00 x00)
(L (W x05 x05 x02 x03 x03 x02 x02 x02))
(L (W x0a x01 x0a x01 x0a x01 xa6 x04)))
(T (W x1e x00 x00 x00 x00 x00 x32 x00)
(L (W x00 x00 x00 x00 x00 x00 x00 x00)) E))
(T (W x00 x00 x00 x00 x00 x00 x00 x00)
(T (W x00 x00 x00 x00 xf8 x00 x00 x00)
(L (W x00 x00 xa1 x01 x00 x00 x5e x00)) E)
(T (W x03 x00 x03 x00 x03 x03 x03 x03)
(L (W x00 x00 x00 x00 x00 x00 x00 x00)) E)))))
(T (W x12 x00 x12 x00 x46 x00 x92 x03)
(T (W x00 x00 x00 x00 x3d x00 x00 x00)
(T (W x40 x00 x00 x00 x00 x00 x00 x00)
(T (W x00 x00 x00 x00 x00 x00 x00 x00)
(T (W x00 x00 x00 x00 x00 x00 x00 x00)
(L (W x1e x00 x00 x00 x00 x00 x32 x00))
(L (W x00 x00 x00 x00 x9d x00 x00 x00)))
(T (W x00 x00 x00 x00 x3d x02 x00 x00)
(L (W x01 x01 x01 x01 x01 x01 x01 x01)) E))
(T (W x2b x00 x2b x00 x71 x00 x00 x00)
(T (W x00 x00 x00 x00 x00 x4b x1a xee)
(L (W x01 x00 x03 x00 x03 x03 x04 x04)) E)
(T (W x00 x00 x00 x00 x00 x00 x00 x00)
(L (W x00 x00 x00 x00 x00 x00 x00 x00)) E)))
(T (W x00 x00 x00 x00 x00 x00 x00 x00)
(T (W x1e x00 x00 x00 x00 x00 x3c x00)
(T (W x01 x01 x01 x01 x01 x01 x01 x01)
(L (W xe0 x00 xe0 x00 xe0 x00 x00 x00))
(L (W x00 x00 x00 x00 xba x00 x00 x00)))
(T (W x40 x00 x00 x00 xa3 x00 x00 x00)
(L (W x00 x00 x00 x00 x00 x00 x00 x00)) E))
(T (W x01 x00 x02 x00 x03 x02 x03 x03)
(T (W x00 x00 x9d x00 x00 x00 xbc x01)
(L (W x00 x00 x00 x00 x00 x00 x00 x00)) E)
(T (W x37 x02 x20 x00 x00 x00 x00 x00)
(L (W x00 x00 x00 x00 x00 x00 x00 x00)) E))))
(T (W x00 x00 x00 x00 x00 x00 x00 x00)
(T (W x00 x03 x28 xab x9a x62 x80 x00)
(T (W x00 x00 x00 x00 x7c xa8 x51 x0c)
(T (W x00 x00 x00 x00 x00 x00 x00 x00)
(L (W x00 x00 x38 x02 x00 x00 x51 x01))
(L (W x00 x00 x00 x00 x00 x00 x00 x00)))
(T (W x02 x00 x03 x00 x03 x03 x04 x04)
(L (W x00 x00 x00 x00 x00 x00 x00 x00)) E))
(T (W x00 x00 x00 x00 x00 x00 x00 x00)
(T (W x01 x00 x00 x00 x00 x00 x00 x00)
(L (W x00 x00 x00 x00 x00 x00 x5a x00)) E)
(T (W x05 x05 x03 x04 x04 x02 x02 x03)
(L (W x00 x00 x00 x00 x00 x00 x00 x00)) E)))
(T (W x05 x05 x03 x03 x04 x02 x02 x03)
(T (W x00 x00 x47 x00 x00 x00 x48 x00)
(T (W x00 x00 x00 x00 x00 x00 x00 x00)
(L (W x01 x00 x00 x00 x89 x03 x00 x00)) E)
(T (W x40 x0b x6e x43 xc6 x53 x01 x0a)
(L (W x01 x00 x00 x00 x00 x00 x00 x00)) E))
(T (W x00 x00 x01 x00 x00 x00 x9f x00)
(T (W x78 x00 x5b x00 x68 x00 xf1 x03)
(L (W x00 x00 x00 x00 x00 x00 x00 x00)) E)
(T (W x00 x00 x00 x00 x00 x01 x10 x0c)
(L (W x00 x00 x00 x00 x00 x00 x00 x00)) E))))))
(T (W x00 x00 x00 x00 x00 x00 x00 x00)
(T (W x00 x00 x00 x00 x62 x23 x52 x8c)
(T (W x1e x00 x00 x00 x00 x00 x32 x00)
(T (W x22 x00 x22 x00 x8b x00 x00 x00)
(T (W x13 x83 xe8 x8b x9b x28 x21 x28)
(T (W x00 x00 x00 x00 x7d x01 x00 x00)
(L (W x05 x05 x03 x03 x04 x02 x02 x03))
(L (W xd3 x00 xd3 x00 xd3 x00 x63 x04)))
(T (W x1e x00 x00 x00 x00 x00 x37 x00)
(L (W x00 x00 x00 x00 x00 x00 x00 x00)) E))
(T (W x00 x00 x00 x00 x00 x00 x00 x00)
(T (W x00 x00 x00 x00 x00 x00 x00 x00)
(L (W x00 x00 x40 x00 x00 x00 xc6 x02)) E)
(T (W x02 x00 x03 x00 x02 x03 x04 x04)
(L (W x00 x00 x00 x00 x00 x00 x00 x00)) E)))
(T (W x02 x00 x03 x00 x02 x03 x04 x04)
(T (W x05 x05 x04 x04 x05 x02 x02 x04)
(T (W x20 x00 x00 x00 x04 x00 x00 x00)
(L (W x00 x00 x00 x00 x01 x0c x10 x0f))
(L (W x03 x00 x03 x00 x02 x03 x04 x04)))
(T (W x51 x00 xca x00 x21 x00 x00 x00)
(L (W x00 x00 x00 x00 x74 x01 x00 x00)) E))
(T (W x00 x00 x1a x02 x00 x00 x49 x02)
(T (W x2d x03 x0c x00 x00 x00 x00 x00)
(L (W x00 x00 x00 x00 xdc x03 x00 x00)) E)
(T (W x00 x43 xae x83 x86 x10 x00 x00)
(L (W x01 x00 x00 x00 x00 x00 x00 x00)) E))))
(T (W x00 x00 xac x02 x00 x00 xac x02)
(T (W x00 x00 x00 x00 x7d x00 x00 x00)
(T (W x00 x00 x00 x00 x00 x00 x00 x00)
(T (W x03 x00 x01 x00 x03 x01 x04 x04)
(L (W xb4 x02 x08 x00 x00 x00 x71 x03))
(L (W x02 x00 x00 x00 x5e x03 x00 x00)))
(T (W x00 x00 xca x00 x00 x00 x13 x01)
(L (W x00 x00 x00 x00 x00 x00 x00 x00)) E))
(T (W x01 x00 x00 x00 x00 x00 x00 x00)
(T (W x01 x01 x01 x01 x01 x01 x01 x01)
(L (W x04 x00 x04 x00 x80 x00 x00 x00)) E)
(T (W x00 x00 x02 x00 x00 x00 x00 x00)
(L (W x00 x00 x00 x00 x00 x00 x00 x00)) E)))
(T (W x08 x00 x00 x00 xbd x00 x00 x00)
(T (W x00 x00 x00 x00 x00 x00 x00 x00)
(T (W x80 x80 xa1 x87 x86 x08 x01 x0e)
(L (W x1e x00 x00 x00 x00 x00 x32 x00)) E)
(T (W x00 x00 x00 x00 x7d x02 x00 x00)
(L (W x05 x05 x03 x04 x05 x02 x02 x03)) E))
(T (W x00 x00 x00 x00 x00 x00 x00 x00)
(T (W x00 x00 x00 x00 x00 x10 xd0 x0c)
(L (W x02 x00 x03 x00 x03 x03 x03 x03)) E)
(T (W x00 x00 x00 x00 x00 x00 x00 x00)
(L (W x00 x00 x00 x00 x00 x00 x00 x00)) E)))))
(T (W x10 x00 x00 x00 x00 x00 x00 x00)
(T (W x3b x80 xe2 x87 x86 x0e x01 x0a)
(T (W x05 x05 x05 x05 x06 x02 x02 x05)
(T (W x00 x00 xf6 x00 x00 x00 xe9 x01)
(T (W x00 x00 x00 x00 x00 x00 x00 x00)
(L (W x00 x00 x00 x00 x2a x03 x00 x00))
(L (W x05 x05 x04 x05 x05 x02 x02 x04)))
(T (W x39 x43 x6e xa3 x82 x12 x01 xb8)
(L (W x01 x00 x00 x00 x00 x00 x00 x00)) E))
(T (W x00 x00 x00 x00 x00 x00 x00 x00)
(T (W x70 x00 x70 x00 x70 x00 x00 x00)
(L (W x00 x00 x00 x00 xf3 x00 x00 x00)) E)
(T (W x00 x00 x00 x00 x00 x00 x00 x00)
(L (W x00 x00 x00 x00 x00 x00 x00 x00)) E)))
(T (W x00 x00 x00 x00 x00 x00 x00 x00)
(T (W x00 x00 x00 x00 xfd x00 x00 x00)
(T (W x1e x00 x00 x00 x00 x00 x32 x00)
(L (W x10 x00 x00 x00 x00 x00 x00 x00))
(L (W x00 x00 x00 x00 x00 x13 x10 x0d)))
(T (W x05 x05 x03 x04 x04 x02 x02 x03)
(L (W x00 x00 x00 x00 x00 x00 x00 x00)) E))
(T (W x00 x00 x00 x00 x00 x00 x00 x00)
(T (W x01 x00 x02 x00 x02 x02 x05 x04)
(L (W xbe x02 x80 x00 x00 x00 xec x00)) E)
(T (W x00 x00 x68 x02 x00 x00 x00 x00)
(L (W x00 x00 x00 x00 x00 x00 x00 x00)) E))))
(T (W x00 x00 x00 x00 x96 x00 x00 x00)
(T (W x2d x01 x00 x01 x00 x00 x00 x00)
(T (W x21 x00 x61 x00 x06 x00 x00 x00)
(T (W x00 x00 x00 x00 x00 x00 x70 x0c)
(L (W x01 x00 x00 x00 x00 x00 x00 x00))
(L (W x00 x00 x00 x00 x00 x00 x00 x00)))
(T (W x00 x00 x00 x00 x00 x00 x00 x00)
(L (W x00 x00 x00 x00 x00 x00 x00 x00)) E))
(T (W x00 x00 x00 x00 x00 x00 x00 x00)
(T (W x00 x00 x00 x00 xfd x01 x00 x00)
(L (W x05 x05 x03 x03 x03 x02 x02 x03)) E)
(T (W x1e x00 x00 x00 x00 x00 x28 x00)
(L (W x00 x00 x00 x00 x00 x00 x00 x00)) E)))
(T (W x1e x00 x00 x00 x00 x00 x3c x00)
(T (W x00 x00 x00 x00 x00 x00 x00 x00)
(T (W x00 x00 xae x01 x00 x00 xb3 x01)
(L (W x00 xc0 x20 xa3 x80 x03 x00 x00)) E)
(T (W x03 x03 x44 x01 x00 x00 x00 x00)
(L (W x00 x00 x00 x00 x6a x02 x00 x00)) E))
(T (W x05 x05 x04 x04 x05 x02 x02 x04)
(T (W x02 x84 x00 x00 x00 x00 x68 x00)
(L (W x00 x00 x00 x00 x03 x20 x10 x0c)) E)
(T (W x76 x00 x13 x00 xaf x00 x00 x00)
(L (W x00 x00 x00 x00 xd1 x00 x00 x00)) E))))))))
(T (W x01 x00 x02 x00 x01 x02 x03 x03)
(T (W x1e x00 x00 x00 x00 x00 x1e x00)
(T (W x00 x00 x00 x00 x00 x00 x00 x00)
(T (W xbe x02 x80 x00 x00 x00 xec x00)
(T (W x00 x00 x00 x00 x00 x00 x00 x00)
(T (W x00 x00 xc3 x00 x00 x00 xc3 x00)
(T (W x00 x00 x00 x00 x00 x00 x00 x00)
(T (W x1d x00 x1d x00 x87 x00 x00 x00)
(L (W x00 x00 x00 x00 x9b x00 x00 x00))
(L (W x00 x00 x37 x02 x00 x00 x36 x01)))
(T (W x00 x00 x00 x00 x80 x00 x52 x8d)
(L (W x02 x00 x03 x00 x02 x03 x05 x05)) E))
(T (W x78 x02 x00 x02 x00 x00 x00 x00)
(T (W x2b x2b xe1 x87 xc4 x4a x01 x18)
(L (W x1e x00 x00 x00 x00 x00 x3c x00)) E)
(T (W x00 x00 x00 x00 x00 x00 x00 x00)
(L (W x05 x05 x05 x05 x06 x02 x02 x05)) E)))
(T (W x04 x00 x00 x00 x8d x00 x00 x00)
(T (W x00 x00 x00 x00 x00 x00 x00 x00)
(T (W x02 x00 x02 x00 x02 x02 x05 x04)
(L (W x2d x03 x00 x0c x00 x00 x00 x00))
(L (W x00 x00 x00 x00 x33 x03 x00 x00)))
(T (W x00 x00 x5b x01 x00 x00 x5e x00)
(L (W x00 x00 x00 x00 x00 x00 x00 x00)) E))
(T (W x01 x00 x00 x00 x00 x00 x00 x00)
(T (W x01 x01 x01 x01 x01 x01 x01 x01)
(L (W x1d x00 x97 x00 x82 x00 x00 x00)) E)
(T (W x00 x10 x00 x00 x00 x00 x56 x00)
(L (W x00 x00 x00 x00 x00 x00 x00 x00)) E))))
(T (W x01 x00 x00 x00 x00 x00 x00 x00)
(T (W x21 x00 x29 x00 x1f x00 x00 x00)
(T (W x80 x40 x30 x8f x9a x25 x90 x06)
(T (W x00 x00 x00 x00 x00 x00 x00 x00)
(L (W x05 x05 x04 x04 x05 x02 x02 x04))
(L (W xe1 x00 xe1 x00 xe1 x00 x6f x04)))
(T (W x1e x00 x00 x00 x00 x00 x28 x00)
(L (W x00 x00 x00 x00 x00 x00 x00 x00)) E))
(T (W x80 x00 x00 x00 x02 x04 x30 x8c)
(T (W x00 x00 x00 x00 x00 x00 x00 x00)
(L (W x00 x00 x44 x00 x00 x00 x44 x00)) E)
(T (W x00 x00 x00 x00 x00 x00 x00 x00)
(L (W x00 x00 x00 x00 x00 x00 x00 x00)) E)))
(T (W x01 x00 x02 x00 x01 x02 x03 x03)
(T (W x05 x05 x03 x03 x04 x02 x02 x03)
(T (W x00 x41 x00 x00 x00 x00 x74 x00)
(L (W x04 x00 x00 x00 x10 x00 x10 x2c))
(L (W x00 x00 x00 x00 x00 x00 x00 x00)))
(T (W x91 x00 x8e x00 x85 x00 x00 x00)
(L (W x00 x00 x00 x00 x00 x00 x00 x00)) E))
(T (W x00 x00 xe9 x01 x00 x00 x39 x00)
(T (W x2d x03 x03 x00 x00 x00 x00 x00)
(L (W x00 x00 x00 x00 x19 x00 x00 x00)) E)
(T (W x00 x08 x2a xd3 x84 x01 x00 x00)
(L (W x01 x00 x00 x00 x00 x00 x00 x00)) E)))))
(T (W x02 x00 x02 x00 x02 x02 x04 x04)
(T (W x00 x01 x00 x00 x00 x00 x00 x00)
(T (W x00 x00 x00 x00 x6c x00 x00 x00)
(T (W x1e x00 x00 x00 x00 x00 x37 x00)
(T (W x05 x05 x05 x06 x07 x02 x02 x05)
(L (W xd4 x00 xd4 x00 x0c x00 x00 x00))
(L (W x00 x00 x00 x00 x00 x00 x00 x00)))
(T (W x02 x88 x00 x00 x58 x00 x00 x00)
(L (W x00 x00 x00 x00 x00 x00 x00 x00)) E))
(T (W x03 x00 x03 x00 x03 x00 x04 x04)
(T (W x00 x00 x0c x02 x00 x00 x0c x02)
(L (W x00 x2b x20 x83 xc4 x00 x00 x00)) E)
(T (W x00 x00 x00 x00 x00 x00 x00 x00)
(L (W x00 x00 x00 x00 x00 x00 x00 x00)) E)))
(T (W x00 x00 x00 x00 x00 x00 x00 x00)
(T (W x3e x00 x3e x00 x08 x00 x00 x00)
(T (W x00 x00 x00 x00 x00 x00 x00 x00)
(L (W x03 x00 x00 x00 x00 x00 x00 x00))
(L (W x64 x02 x00 x08 x00 x00 x00 x00)))
(T (W x01 x00 x01 x00 xe2 x00 x00 x00)
(L (W x00 x00 xa5 x01 x00 x00 x00 x00)) E))
(T (W x00 x00 x20 x8b x9b x20 x31 x00)
(T (W x08 x00 x00 x00 x0d x02 x00 x00)
(L (W x05 x05 x05 x05 x05 x02 x02 x02)) E)
(T (W x1e x00 x00 x00 x00 x00 x32 x00)
(L (W x00 x00 x00 x00 x00 x00 x00 x00)) E))))
(T (W x40 x10 xa0 xc3 x84 x07 x00 x01)
(T (W x05 x05 x01 x01 x06 x02 x02 x01)
(T (W x00 x00 x88 x01 x00 x00 x98 x01)
(T (W x00 x00 x00 x00 x00 x00 x00 x00)
(L (W x0c x00 x00 x00 x59 x03 x00 x00))
(L (W x01 x01 x01 x01 x01 x01 x01 x01)))
(T (W x80 x40 xa3 x93 x82 x01 x10 x40)
(L (W x1e x00 x00 x00 x00 x00 x2d x00)) E))
(T (W x10 x00 x00 x00 x00 x00 x00 x00)
(T (W x00 x00 x00 x00 x00 x00 x00 x00)
(L (W x00 x00 x00 x00 x71 x01 x00 x00)) E)
(T (W x00 x00 x00 x00 x71 x04 x50 x0c)
(L (W x00 x00 x00 x00 x00 x00 x00 x00)) E)))
(T (W x00 x00 x00 x00 x06 xc8 x18 x6e)
(T (W x00 x00 x00 x00 x00 x00 x00 x00)
(T (W x01 x00 x00 x00 x00 x00 x00 x00)
(L (W x00 x80 x00 x00 x00 x00 x00 x00)) E)
(T (W x05 x05 x05 x05 x05 x02 x02 x05)
(L (W xfe x00 xfe x00 xfe x00 xf6 x03)) E))
(T (W x00 x00 x00 x00 x50 x00 x00 x00)
(T (W x01 x00 x02 x00 x01 x02 x04 x04)
(L (W x00 x00 x00 x00 x00 x00 x00 x00)) E)
(T (W x00 x00 x00 x00 x00 x00 x00 x00)
(L (W x00 x00 x00 x00 x00 x00 x00 x00)) E))))))
(T (W x00 x00 x00 x00 x00 x00 x00 x00)
(T (W x00 x00 x2d x00 x00 x00 xf2 x00)
(T (W x06 x00 x0d x00 x21 x00 x00 x00)
(T (W x00 x00 x00 x00 x00 x00 x00 x00)
(T (W x01 x01 x01 x01 x01 x01 x01 x01)
(T (W x00 x10 x01 x00 x00 x00 xc7 x00)
(L (W x00 x00 x00 x00 x78 x00 x15 x0c))
(L (W x03 x00 x00 x00 x00 x00 x00 x00)))
(T (W x81 x00 x81 x00 x81 x00 x00 x00)
(L (W x01 x00 x01 x00 x00 x00 x01 x00)) E))
(T (W x00 x00 x00 x00 x00 x00 x00 x00)
(T (W x32 x03 x0c x00 x00 x00 x00 x00)
(L (W x04 x00 x00 x00 x95 x03 x00 x00)) E)
(T (W x00 x80 xe0 x83 x81 x08 x31 x0b)
(L (W x0a x00 x00 x00 x00 x00 x00 x00)) E)))
(T (W x00 x63 x2a x8b x9e x01 x00 x00)
(T (W x00 x00 x00 x00 x86 xa8 x10 x8c)
(T (W x00 x00 x00 x00 x7d x00 x00 x00)
(L (W x00 x00 x5c x01 x00 x00 x00 x00))
(L (W x2b x43 x21 x87 x80 x01 x00 x8a)))
(T (W x01 x00 x02 x00 x03 x02 x03 x03)
(L (W x2d x02 x40 x01 x00 x00 x00 x00)) E))
(T (W x00 x00 x00 x00 x4d x01 x00 x00)
(T (W x1e x00 x00 x00 x00 x00 x32 x00)
(L (W x40 x00 x00 x00 x64 x00 x00 x00)) E)
(T (W x05 x05 x03 x03 x03 x02 x02 x03)
(L (W x00 x00 x00 x00 x00 x00 x00 x00)) E))))
(T (W x00 x00 x00 x00 x4d x00 x00 x00)
(T (W x00 x02 x00 x00 x76 x00 x00 x00)
(T (W x00 x00 x00 x00 x00 x00 x00 x00)
(T (W x00 x40 xa2 x87 x82 x83 x00 x00)
(L (W x01 x00 x00 x00 x00 x00 x00 x00))
(L (W x01 x00 x00 x00 x00 x00 x00 x00)))
(T (W x00 x00 x00 x00 x4d x02 x00 x00)
(L (W x01 x01 x01 x01 x01 x01 x01 x01)) E))
(T (W x09 x00 x1f x00 x3a x00 x00 x00)
(T (W x00 x00 x00 x00 x00 x00 x00 x00)
(L (W x03 x00 x01 x00 x02 x01 x05 x05)) E)
(T (W x00 x00 x00 x00 xd4 x00 x00 x00)
(L (W x00 x00 x00 x00 x00 x00 x00 x00)) E)))
(T (W x00 x00 x00 x00 xdc x00 x00 x00)
(T (W x1e x00 x00 x00 x00 x00 x28 x00)
(T (W x05 x05 x03 x03 x04 x02 x02 x03)
(L (W x33 x00 x7f x00 x91 x00 x00 x00)) E)
(T (W x00 x42 x00 x00 x00 x00 x8a x00)
(L (W x00 x00 x00 x00 x00 x00 x00 x00)) E))
(T (W x02 x00 x03 x00 x02 x03 x04 x04)
(T (W x00 x00 x00 x00 x00 x00 x00 x00)
(L (W x00 x80 xe1 x83 xa5 x00 x01 x04)) E)
(T (W x2d x02 x00 x02 x00 x00 x00 x00)
(L (W x00 x00 x00 x00 x00 x00 x00 x00)) E)))))
(T (W x00 x00 x00 x00 x00 x00 x00 x00)
(T (W x05 x05 x03 x03 x04 x02 x02 x03)
(T (W x00 x00 x00 x00 x7f x87 x30 x9d)
(T (W x00 x00 x00 x00 x00 x00 x00 x00)
(T (W x01 x00 x00 x00 x00 x00 x00 x00)
(L (W x30 x00 x00 x00 x00 x00 x00 x00))
(L (W xc1 x00 x00 x00 x35 x01 x38 x0d)))
(T (W x05 x05 x04 x05 x05 x02 x02 x04)
(L (W x00 x00 x00 x00 x00 x00 x00 x00)) E))
(T (W x00 x00 x00 x00 x00 x00 x00 x00)
(T (W x03 x00 x00 x00 x00 x00 x00 x00)
(L (W x78 x02 x00 x02 x00 x00 x00 x00)) E)
(T (W x00 x00 x00 x00 x00 x00 x00 x00)
(L (W x00 x00 x00 x00 x00 x00 x00 x00)) E)))
(T (W x00 x00 x00 x00 x00 x00 x00 x00)
(T (W x10 x06 x00 x00 x00 x00 x00 x00)
(T (W x05 x00 x45 x00 x9b x00 x00 x00)
(L (W x00 x00 x00 x00 x01 x00 x00 x00))
(L (W x00 x00 xc4 x00 x00 x00 x3d x02)))
(T (W x80 x00 x00 x00 x81 x00 x10 x0c)
(L (W x00 x00 x00 x00 x00 x00 x00 x00)) E))
(T (W x2d x01 x00 x04 x00 x00 x28 x01)
(T (W x3b xcb x2e x8b x86 x02 x00 x88)
(L (W x1e x00 x00 x00 x00 x00 x3c x00)) E)
(T (W x00 x00 x00 x00 x01 x03 x00 x00)
(L (W x01 x01 x01 x01 x01 x01 x01 x01)) E))))
(T (W x00 x00 x00 x00 x00 x00 x00 x00)
(T (W x1e x00 x00 x00 x00 x00 x28 x00)
(T (W x00 x00 x00 x00 x00 x00 x00 x00)
(T (W x00 x00 x00 x00 x00 x00 x00 x00)
(L (W x01 x0b x6e x17 x84 x0c x05 x3a))
(L (W x01 x00 x00 x00 x00 x00 x00 x00)))
(T (W x1e x03 x30 x00 x00 x00 x00 x00)
(L (W x00 x00 x00 x00 x00 x00 x00 x00)) E))
(T (W x05 x05 x03 x03 x04 x02 x02 x03)
(T (W x00 x00 x00 x00 x72 x00 x00 x00)
(L (W x40 x00 x00 x00 x86 x87 x10 x8d)) E)
(T (W x57 x00 x08 x00 x5e x00 x00 x00)
(L (W x00 x00 x00 x00 x00 x00 x00 x00)) E)))
(T (W x22 x00 x22 x00 x83 x00 x00 x00)
(T (W x02 x9b xf1 x9b xa4 x0d x15 x1e)
(T (W x00 x00 x00 x00 xcd x01 x00 x00)
(L (W x05 x05 x03 x03 x03 x02 x02 x03)) E)
(T (W x1e x00 x00 x00 x00 x00 x32 x00)
(L (W x00 x00 x00 x00 x00 x00 x00 x00)) E))
(T (W x00 x00 x00 x00 x00 x00 x00 x00)
(T (W x01 x00 x01 x00 x6f x01 x00 x00)
(L (W x00 x00 x00 x00 x00 x00 x00 x00)) E)
(T (W x00 x00 x00 x00 x00 x00 x00 x00)
(L (W x00 x00 x00 x00 x00 x00 x00 x00)) E)))))))
(T (W x00 x00 x00 x00 x0d x00 x00 x00)
(T (W x00 x00 x00 x00 x00 x00 x00 x00)
(T (W x00 x01 x01 x00 xa8 x00 x00 x00)
(T (W x00 x83 xe1 x83 xa5 x00 x03 x04)
(T (W x01 x01 x01 x01 x01 x01 x01 x01)
(T (W x00 x00 x00 x00 x00 x00 x00 x00)
(T (W x03 x03 x30 x00 x00 x00 x00 x00)
(L (W x00 x00 x00 x00 x47 x03 x00 x00))
(L (W x05 x05 x05 x05 x05 x02 x02 x05)))
(T (W x00 x03 xa8 x87 xc2 x94 x00 x32)
(L (W x0a x00 x00 x00 x00 x00 x00 x00)) E))
(T (W x00 x00 x00 x00 x00 x00 x00 x00)
(T (W x66 x00 x66 x00 x22 x00 x00 x00)
(L (W x00 x00 x00 x00 xcf x00 x00 x00)) E)
(T (W x00 x00 x00 x00 x00 x00 x00 x00)
(L (W x00 x00 x00 x00 x00 x00 x00 x00)) E)))
(T (W x00 x00 x00 x00 x60 x10 x10 x0c)
(T (W x00 x00 x00 x00 xed x00 x00 x00)
(T (W x1e x00 x00 x00 x00 x00 x32 x00)
(L (W x60 x08 x00 x00 x00 x00 x00 x00))
(L (W x80 x00 x00 x00 x20 x11 x18 x64)))
(T (W x05 x05 x03 x03 x04 x02 x02 x03)
(L (W x7a x00 x7a x00 x7a x00 xd6 x03)) E))
(T (W x00 x00 x00 x00 x43 x01 x00 x00)
(T (W x00 x00 x00 x00 x00 x00 x00 x00)
(L (W x0a x03 xc0 x00 x00 x00 x00 x00)) E)
(T (W x00 x00 x3a x02 x00 x00 xb3 x01)
(L (W x00 x00 x00 x00 x00 x00 x00 x00)) E))))
(T (W x00 x00 x00 x00 x00 x00 x00 x00)
(T (W x3c x02 x80 x00 x5a x00 x5b x00)
(T (W x44 x00 x3e x00 x99 x00 x00 x00)
(T (W x00 x00 x00 x00 x00 x00 x00 x00)
(L (W x02 x00 x03 x00 x03 x03 x04 x04))
(L (W x03 x03 x03 x00 x00 x00 x00 x00)))
(T (W x00 x00 x00 x00 x00 x00 x00 x00)
(L (W x00 x00 x00 x00 x00 x00 x00 x00)) E))
(T (W x00 x00 x00 x00 x00 x00 x00 x00)
(T (W x00 x00 x00 x00 x00 x00 x00 x00)
(L (W x05 x05 x04 x04 x05 x02 x02 x04)) E)
(T (W x1e x00 x00 x00 x00 x00 x28 x00)
(L (W x00 x00 x00 x00 x00 x00 x00 x00)) E)))
(T (W x01 x00 x00 x00 x00 x00 x00 x00)
(T (W x02 x00 x01 x00 x02 x01 x04 x04)
(T (W x00 x00 x2c x00 x00 x00 x22 x00)
(L (W x00 x80 xa0 x83 x80 x00 x24 x0e))
(L (W x0a x00 x00 x00 x00 x00 x00 x00)))
(T (W x2d x01 x04 x00 x00 x00 x00 x00)
(L (W x00 x00 x00 x00 x00 x00 x00 x00)) E))
(T (W x01 x01 x01 x01 x01 x01 x01 x01)
(T (W x40 x00 x00 x00 x00 x00 x00 x00)
(L (W x80 x00 x00 x00 x43 x14 x96 x8c)) E)
(T (W x42 x00 x42 x00 x16 x00 x00 x00)
(L (W x00 x00 x00 x00 x00 x00 x00 x00)) E)))))
(T (W x1e x00 x00 x00 x00 x00 x3c x00)
(T (W x00 x00 x55 x01 x00 x00 xdf x00)
(T (W x00 x00 x00 x00 x6d x00 x00 x00)
(T (W x00 x00 x00 x00 xd9 x00 x00 x00)
(T (W x00 x00 x00 x00 x00 x00 x00 x00)
(L (W xeb x01 x01 x00 x00 x00 x74 x03))
(L (W x02 x00 x00 x00 x3d x03 x00 x00)))
(T (W x00 x00 xcc x00 x00 x00 xcc x00)
(L (W x00 x00 x00 x00 x00 x00 x00 x00)) E))
(T (W x1e x00 x00 x00 x00 x00 x3c x00)
(T (W x05 x05 x05 x05 x05 x02 x02 x05)
(L (W x85 x00 x85 x00 x82 x00 x94 x04)) E)
(T (W x00 x00 x00 x00 x00 x00 x00 x00)
(L (W x00 x00 x00 x00 x00 x00 x00 x00)) E)))
(T (W x00 x00 x00 x00 x00 x00 x00 x00)
(T (W x03 x03 x00 x0c x00 x00 x00 x00)
(T (W x00 xa3 xa1 x87 x86 x01 x00 x06)
(L (W x1e x00 x00 x00 x00 x00 x32 x00))
(L (W x00 x00 x02 x00 x00 x00 x00 x00)))
(T (W x00 x00 x00 x00 x6d x02 x00 x00)
(L (W x01 x01 x01 x01 x01 x01 x01 x01)) E))
(T (W x34 x00 x4b x00 x5b x00 x00 x00)
(T (W x00 x00 x00 x00 x00 x08 x12 x2e)
(L (W x00 x00 x00 x00 x00 x00 x00 x00)) E)
(T (W x00 x00 x00 x00 xb0 x00 x00 x00)
(L (W x00 x00 x00 x00 x00 x00 x00 x00)) E))))
(T (W x00 x00 x00 x00 x00 x00 x00 x00)
(T (W x00 x00 x00 x00 x00 x00 x04 x04)
(T (W x05 x05 x05 x06 x06 x02 x02 x05)
(T (W x00 x00 x00 x00 x00 x00 x00 x00)
(L (W x40 x00 x00 x00 x85 x04 x30 x8d))
(L (W x00 x00 x00 x00 x00 x00 x00 x00)))
(T (W xa0 x00 xa0 x00 x6b x00 x00 x00)
(L (W x00 x00 x00 x00 x00 x00 x00 x00)) E))
(T (W x00 x00 x74 x00 x00 x00 xf2 x00)
(T (W x00 x00 x00 x00 x00 x00 x00 x00)
(L (W x02 x00 x00 x00 xad x03 x00 x00)) E)
(T (W x00 x03 x20 x8b x8a x20 x10 x00)
(L (W x01 x00 x00 x00 x00 x00 x00 x00)) E)))
(T (W x00 x00 x00 x00 x00 x00 x00 x00)
(T (W x00 x00 x00 x00 x7b x40 x13 x4c)
(T (W x00 x00 x00 x00 x62 x01 x00 x00)
(L (W x00 x00 xb2 x00 x00 x00 x18 x02)) E)
(T (W x02 x00 x02 x00 x03 x02 x02 x02)
(L (W x00 x00 x00 x00 x00 x00 x00 x00)) E))
(T (W x0c x00 x00 x00 x6d x01 x00 x00)
(T (W x1e x00 x00 x00 x00 x00 x37 x00)
(L (W x00 x04 x00 x00 x00 x00 x69 x00)) E)
(T (W x05 x05 x04 x06 x06 x02 x02 x04)
(L (W x00 x00 x00 x00 x00 x00 x00 x00)) E))))))
(T (W x00 x00 x00 x00 x00 x00 x00 x00)
(T (W x05 x05 x03 x03 x04 x02 x02 x03)
(T (W x00 x00 x00 x00 x00 x00 x00 x00)
(T (W x1e x00 x00 x00 x00 x00 x32 x00)
(T (W x02 x00 x03 x00 x02 x03 x03 x03)
(T (W x00 x00 x6a x02 x00 x00 x00 x00)
(L (W x00 x48 x2a x93 x84 x00 x00 x00))
(L (W x01 x00 x00 x00 x00 x00 x00 x00)))
(T (W x3c x02 x08 x00 xfb x00 x19 x01)
(L (W x00 x00 x00 x00 x00 x00 x00 x00)) E))
(T (W x01 x01 x01 x01 x01 x01 x01 x01)
(T (W x60 x04 x00 x00 x25 x00 x00 x00)
(L (W x00 x00 x00 x00 x00 x00 x10 x4c)) E)
(T (W x31 x00 x31 x00 xb1 x00 x00 x00)
(L (W x00 x00 x00 x00 x00 x00 x00 x00)) E)))
(T (W x2e x00 x2e x00 x7f x00 x00 x00)
(T (W x00 xc3 x26 x03 x87 x43 x00 x00)
(T (W x00 x00 x00 x00 x00 x00 x00 x00)
(L (W x05 x05 x05 x05 x05 x02 x02 x02))
(L (W xaf x00 xaf x00 xa5 x00 x96 x04)))
(T (W x1e x00 x00 x00 x00 x00 x37 x00)
(L (W x08 x20 x00 x00 x00 x00 x00 x00)) E))
(T (W x00 x00 x00 x00 x00 x00 x00 x00)
(T (W x00 x00 x00 x00 x00 x00 x00 x00)
(L (W x00 x00 x00 x00 x00 x00 x00 x00)) E)
(T (W x02 x00 x02 x00 x03 x02 x05 x04)
(L (W x00 x00 x00 x00 x00 x00 x00 x00)) E))))
(T (W x00 x00 x00 x00 x7e x8c x1a x8e)
(T (W x00 x00 x07 x00 x00 x00 xb4 x01)
(T (W x00 x00 x00 x00 x00 x00 x00 x00)
(T (W x1e x00 x26 x00 x66 x00 x00 x00)
(L (W x00 x00 x00 x00 x2d x01 x00 x00))
(L (W x00 x00 xce x02 x00 x00 xce x02)))
(T (W x00 x00 x00 x00 x78 x08 x51 x0c)
(L (W x00 x00 x00 x00 x00 x00 x00 x00)) E))
(T (W x00 x00 x00 x00 x00 x00 x00 x00)
(T (W x00 x00 x00 x00 x00 x00 x00 x00)
(L (W x1e x00 x00 x00 x00 x00 x32 x00)) E)
(T (W x00 x00 x00 x00 xe7 x02 x00 x00)
(L (W x01 x01 x01 x01 x01 x01 x01 x01)) E)))
(T (W x00 x00 x00 x00 xad x00 x00 x00)
(T (W x00 x00 x00 x00 x00 x00 x00 x00)
(T (W x02 x00 x03 x00 x03 x03 x03 x03)
(L (W x78 x02 x00 x08 x00 x00 x72 x03)) E)
(T (W x00 x00 x15 x02 x00 x00 x70 x01)
(L (W x0b xab xe0 x83 xc4 x08 x01 x3b)) E))
(T (W x1e x00 x00 x00 x00 x00 x37 x00)
(T (W x05 x05 x02 x03 x03 x02 x02 x02)
(L (W x35 x00 xb5 x00 x7f x00 x95 x03)) E)
(T (W x00 x00 x00 x00 x00 x00 x00 x00)
(L (W x00 x00 x00 x00 x00 x00 x00 x00)) E)))))
(T (W x01 x00 x00 x00 x2d x00 x00 x00)
(T (W x01 x00 x02 x00 x02 x02 x05 x05)
(T (W x3b x8b xe8 x8b xbf x0a x01 x8c)
(T (W x80 x00 x00 x00 x02 x04 x10 x8c)
(T (W x00 x00 x00 x00 x00 x00 x00 x00)
(L (W x00 x00 x53 x01 x00 x00 x74 x00))
(L (W x00 x43 x70 x4f x8f x11 x00 x03)))
(T (W x00 x00 x00 x00 x00 x00 x00 x00)
(L (W x00 x00 x00 x00 x00 x00 x00 x00)) E))
(T (W x00 x00 x00 x00 x00 x00 x00 x00)
(T (W x0a x00 x00 x00 x00 x00 x28 x00)
(L (W x02 x80 x00 x00 x00 x00 x25 x00)) E)
(T (W x01 x01 x01 x01 x01 x01 x01 x01)
(L (W x00 x00 x00 x00 x00 x00 x00 x00)) E)))
(T (W x01 x01 x01 x01 x01 x01 x01 x01)
(T (W x00 x00 x68 x00 x00 x00 xca x00)
(T (W x00 x00 x00 x00 x00 x00 x00 x00)
(L (W x00 x00 x00 x00 xba x03 x00 x00))
(L (W x05 x05 x05 x05 x05 x02 x02 x02)))
(T (W x40 x00 x60 xc7 x86 x01 x01 x05)
(L (W x01 x00 x00 x00 x00 x00 x00 x00)) E))
(T (W x00 x10 x00 x00 x00 x00 xb9 x00)
(T (W x3e x00 x7d x00 x59 x00 x00 x00)
(L (W x00 x00 x00 x00 xc2 x00 x00 x00)) E)
(T (W x00 x00 x00 x00 x00 x00 x00 x00)
(L (W x00 x00 x00 x00 x00 x00 x00 x00)) E))))
(T (W x00 x00 x01 x00 x84 x00 x00 x00)
(T (W x00 x00 x00 x00 x00 x00 x00 x00)
(T (W x01 x00 x00 x00 x00 x00 x00 x00)
(T (W x01 x01 x01 x01 x01 x01 x01 x01)
(L (W x05 x00 x05 x00 x05 x00 x00 x00))
(L (W x00 x00 x00 x00 x00 x00 x00 x00)))
(T (W x00 x00 x00 x00 x00 x00 x00 x00)
(L (W x00 x00 x00 x00 x00 x00 x00 x00)) E))
(T (W x02 x00 x02 x00 x01 x02 x04 x04)
(T (W x00 x00 x90 x01 x00 x00 x90 x01)
(L (W x00 x03 x60 x0b x9a x20 xc9 x00)) E)
(T (W x2d x02 x08 x00 x00 x00 x00 x00)
(L (W x00 x00 x00 x00 x00 x00 x00 x00)) E)))
(T (W x41 x02 x20 x00 x00 x00 x00 x00)
(T (W x33 x00 x5d x00 x2c x00 x00 x00)
(T (W x00 x00 x00 x00 x7f x87 x30 x9d)
(L (W x03 x00 x03 x00 x03 x03 x04 x04)) E)
(T (W x00 x00 x00 x00 x00 x00 x00 x00)
(L (W x00 x00 x3a x01 x00 x00 x00 x00)) E))
(T (W x00 x00 x60 x87 x86 x08 x01 x00)
(T (W x00 x00 x00 x00 x2d x02 x00 x00)
(L (W x01 x01 x01 x01 x01 x01 x01 x01)) E)
(T (W x1e x00 x00 x00 x00 x00 x32 x00)
(L (W x00 x00 x00 x00 x00 x00 x00 x00)) E)))))))))
(T (W x00 x00 x00 x00 x00 x00 x00 x00)
(T (W x11 x00 x00 x00 x46 x00 x00 x00)
(T (W x00 x00 x05 x01 x00 x00 x05 x02)
(T (W x02 x00 x02 x00 x02 x02 x03 x03)
(T (W x00 x00 x00 x00 x00 x00 x00 x00)
(T (W x01 x00 x00 x00 x00 x00 x00 x00)
(T (W x82 x00 x82 x00 x82 x00 x00 x00)
(T (W x00 x00 x00 x00 x00 x00 x00 x00)
(T (W x00 x00 x00 x00 x75 x01 x00 x00)
(L (W x05 x05 x03 x03 x04 x02 x02 x03))
(L (W x35 x00 x77 x00 x0f x00 x5c x04)))
(T (W x1e x00 x00 x00 x00 x00 x28 x00)
(L (W x11 x00 x00 x00 xce x00 x00 x00)) E))
(T (W x00 x00 x00 x00 x02 x09 x10 x4e)
(T (W x00 x00 x00 x00 x00 x00 x00 x00)
(L (W x00 x00 xe8 x01 x00 x00 x5e x01)) E)
(T (W x00 x00 x00 x00 x00 x00 x00 x00)
(L (W x03 x03 x00 x03 x00 x00 x00 x00)) E)))
(T (W x03 x00 x02 x00 x02 x03 x05 x05)
(T (W x05 x05 x03 x03 x04 x02 x02 x03)
(T (W x00 x00 x00 x00 x00 x00 x00 x00)
(L (W x00 x00 x00 x00 x60 x1b x10 x0e))
(L (W x00 x00 x00 x00 x00 x00 x00 x00)))
(T (W x8c x00 x1c x00 x94 x00 x00 x00)
(L (W x00 x00 x00 x00 x00 x00 x00 x00)) E))
(T (W x00 x00 x00 x00 x00 x00 x00 x00)
(T (W x00 x00 x00 x00 x00 x00 x00 x00)
(L (W x00 x00 x00 x00 xd0 x03 x00 x00)) E)
(T (W x00 x43 x6e x8b x8b x40 x69 x00)
(L (W x01 x00 x00 x00 x00 x00 x00 x00)) E))))
(T (W x00 x00 x00 x00 x00 x00 x00 x00)
(T (W x04 x00 x00 x00 x75 x00 x00 x00)
(T (W x00 x00 x00 x00 x00 x00 x00 x00)
(T (W x00 x00 x00 x00 x00 x00 x00 x00)
(L (W x8c x01 x10 x10 x00 x00 xf7 x00))
(L (W x02 x00 x00 x00 x5e x03 x00 x00)))
(T (W x00 x00 xc4 x00 x00 x00 xa3 x01)
(L (W x00 x00 x00 x00 x00 x00 x00 x00)) E))
(T (W x1e x00 x00 x00 x00 x00 x2d x00)
(T (W x01 x01 x01 x01 x01 x01 x01 x01)
(L (W x78 x00 x3e x00 x80 x00 x00 x00)) E)
(T (W x40 x80 x00 x00 x00 x00 x00 x00)
(L (W x00 x00 x00 x00 x00 x00 x00 x00)) E)))
(T (W x00 x02 x00 x00 x00 x00 x00 x00)
(T (W x2d x03 x0c x00 x00 x00 x00 x00)
(T (W x00 x80 x60 x87 x87 x01 x23 x00)
(L (W x1e x00 x00 x00 x00 x00 x32 x00))
(L (W x00 x10 x00 x00 x00 x00 x00 x00)))
(T (W x00 x00 x00 x00 x75 x02 x00 x00)
(L (W x01 x01 x01 x01 x01 x01 x01 x01)) E))
(T (W x3f x00 xac x00 x38 x00 x00 x00)
(T (W x00 x00 x00 x00 x18 x00 x50 x0c)
(L (W x00 x00 x00 x00 x00 x00 x00 x00)) E)
(T (W x00 x00 x00 x00 x00 x00 x00 x00)
(L (W x00 x00 x00 x00 x00 x00 x00 x00)) E)))))
(T (W x00 x12 x02 x00 x00 x00 x2c x00)
(T (W x00 xab xa8 x87 xc4 x03 x00 x00)
(T (W x05 x05 x04 x04 x05 x02 x02 x04)
(T (W x00 x00 x00 x00 x00 x00 x00 x00)
(T (W x03 x03 x03 x00 x5b x00 x5b x00)
(L (W x00 x00 x00 x00 x25 x03 x00 x00))
(L (W x01 x01 x01 x01 x01 x01 x01 x01)))
(T (W x03 x83 xa0 x87 x86 x95 x10 x0f)
(L (W x01 x00 x00 x00 x00 x00 x00 x00)) E))
(T (W x00 x0a x00 x00 x00 x00 x00 x00)
(T (W x51 x00 x51 x00 x82 x00 x00 x00)
(L (W x00 x00 x00 x00 x9f x00 x00 x00)) E)
(T (W x00 x00 x00 x00 x00 x00 x00 x00)
(L (W x00 x00 x00 x00 x00 x00 x00 x00)) E)))
(T (W x00 x00 x00 x00 x00 x00 x00 x00)
(T (W x04 x00 x00 x00 xf5 x00 x00 x00)
(T (W x01 x00 x00 x00 x00 x00 x00 x00)
(L (W x00 x00 x00 x00 x00 x00 x00 x00))
(L (W x00 x00 x00 x00 x00 x48 x18 x4e)))
(T (W x05 x05 x02 x02 x03 x02 x02 x02)
(L (W x1a x00 x1a x00 x1a x00 xde x03)) E))
(T (W x00 x00 x00 x00 x6b x01 x00 x00)
(T (W x01 x00 x02 x00 x01 x02 x05 x05)
(L (W x03 x03 x00 x03 x00 x00 x00 x00)) E)
(T (W x00 x00 x37 x02 x00 x00 x36 x01)
(L (W x00 x00 x00 x00 x00 x00 x00 x00)) E))))
(T (W x00 x00 x00 x00 x00 x00 x00 x00)
(T (W xff x01 x40 x00 x00 x00 x00 x00)
(T (W x37 x00 x1e x00 x90 x00 xc6 x03)
(T (W x00 x00 x00 x00 x00 x00 x00 x00)
(L (W x02 x00 x03 x00 x03 x03 x03 x03))
(L (W x00 x00 x00 x00 x00 x00 x00 x00)))
(T (W x00 x00 x00 x00 x00 x00 x00 x00)
(L (W x00 x00 xb4 x00 x00 x00 xfa x01)) E))
(T (W x80 x0c x20 x93 x86 x41 x04 x00)
(T (W x00 x00 x00 x00 x00 x00 x00 x00)
(L (W x05 x05 x04 x05 x05 x02 x02 x04)) E)
(T (W x1e x00 x00 x00 x00 x00 x32 x00)
(L (W x00 x00 x00 x00 x00 x00 x00 x00)) E)))
(T (W x1e x00 x00 x00 x00 x00 x32 x00)
(T (W x00 x00 x00 x00 x00 x00 x00 x00)
(T (W x00 x00 x9d x00 x00 x00 xda x01)
(L (W x00 x80 xa1 x83 xa0 x81 x20 x04)) E)
(T (W x03 x03 x0c x00 x00 x00 x00 x00)
(L (W x08 x00 x00 x00 x2b x02 x00 x00)) E))
(T (W x05 x05 x03 x03 x03 x02 x02 x03)
(T (W x10 x00 x00 x00 x00 x00 xa9 x00)
(L (W x00 x00 x00 x00 x00 x00 x00 x00)) E)
(T (W x00 x00 x00 x00 x00 x00 x00 x00)
(L (W x00 x00 x00 x00 x00 x00 x00 x00)) E))))))
(T (W x00 x00 x00 x00 x00 x00 x00 x00)
(T (W x26 x00 x4f x00 x37 x00 x00 x00)
(T (W x00 x00 x00 x00 x35 x00 x00 x00)
(T (W x00 x00 x00 x00 x27 x00 x00 x00)
(T (W x00 x00 x00 x00 x00 x00 x00 x00)
(T (W x33 x43 x78 x03 x87 x08 x03 x08)
(L (W x1e x00 x00 x00 x00 x00 x28 x00))
(L (W x00 x49 x00 x00 x00 x00 x00 x00)))
(T (W x04 x00 x00 x00 x35 x02 x00 x00)
(L (W x05 x05 x05 x05 x05 x02 x02 x02)) E))
(T (W x00 x00 x00 x00 x00 x00 x00 x00)
(T (W x00 x00 x00 x00 x00 x00 x00 x00)
(L (W x02 x00 x02 x00 x03 x02 x04 x03)) E)
(T (W x00 x00 x00 x00 x00 x00 x00 x00)
(L (W x00 x00 x00 x00 x00 x00 x00 x00)) E)))
(T (W x00 x00 x00 x00 x00 x00 x00 x00)
(T (W x1e x00 x00 x00 x00 x00 x28 x00)
(T (W x05 x05 x03 x03 x04 x02 x02 x03)
(L (W xe0 x00 xe0 x00 xe0 x00 x00 x00))
(L (W x00 x00 x00 x00 x35 x01 x00 x00)))
(T (W x00 x40 x00 x00 x00 x00 x00 x00)
(L (W x00 x00 x00 x00 x7a x04 x53 x0c)) E))
(T (W x00 x00 x00 x00 x00 x00 x00 x00)
(T (W x00 x00 x19 x01 x00 x00 x5e x00)
(L (W x3b x80 x20 x87 x80 x0e x00 x01)) E)
(T (W x2d x02 x00 x08 x00 x00 x27 x01)
(L (W x00 x00 x00 x00 x00 x00 x00 x00)) E))))
(T (W x00 x00 x00 x00 x00 x00 x00 x00)
(T (W x00 x03 xaa xc3 x86 x09 x00 x05)
(T (W x00 x00 x00 x00 x00 x00 x00 x00)
(T (W x00 x00 x00 x00 x00 x00 x00 x00)
(L (W x00 x00 x00 x00 x00 x00 x00 x00))
(L (W x00 x43 x70 x4f x8f x11 x00 x03)))
(T (W x02 x00 x02 x00 x03 x02 x05 x04)
(L (W x00 x00 x00 x00 x00 x00 x00 x00)) E))
(T (W x02 x00 x00 x00 x35 x01 x00 x00)
(T (W x01 x00 x00 x00 x00 x00 x00 x00)
(L (W x00 x20 x00 x00 x00 x00 x00 x00)) E)
(T (W x05 x05 x03 x03 x03 x02 x02 x03)
(L (W x00 x00 x00 x00 x00 x00 x00 x00)) E)))
(T (W x05 x05 x02 x03 x03 x02 x02 x02)
(T (W x00 x00 x00 x00 x00 x00 x00 x00)
(T (W x8c x01 x10 x00 x00 x00 x00 x00)
(L (W x00 x00 x00 x00 x96 x03 x00 x00)) E)
(T (W x40 x63 xe5 xc7 xa6 x02 x01 x07)
(L (W x01 x00 x00 x00 x00 x00 x00 x00)) E))
(T (W x00 x28 x00 x00 x00 x00 x00 x00)
(T (W x00 x00 x00 x00 x00 x00 x00 x00)
(L (W x00 x00 x01 x00 x45 x00 x01 x00)) E)
(T (W x04 x00 x00 x00 x78 x00 x13 xcc)
(L (W x00 x00 x00 x00 x00 x00 x00 x00)) E)))))
(T (W x05 x05 x02 x03 x03 x02 x02 x02)
(T (W x32 x03 x00 x03 x00 x00 xf8 x00)
(T (W x1e x00 x00 x00 x00 x00 x32 x00)
(T (W x00 x00 x00 x00 x00 x00 x00 x00)
(T (W x00 x00 x00 x00 x00 x00 x00 x00)
(L (W x02 x1f x2e xb3 x84 x02 x10 x0b))
(L (W x1e x00 x00 x00 x00 x00 x28 x00)))
(T (W xc8 x01 x00 x01 x00 x00 x00 x00)
(L (W x00 x00 x00 x00 x00 x00 x00 x00)) E))
(T (W x01 x01 x01 x01 x01 x01 x01 x01)
(T (W x00 x40 x00 x00 x00 x00 x00 x00)
(L (W x00 x00 x00 x00 x00 x08 x10 x2e)) E)
(T (W x00 x00 x00 x00 x00 x00 x00 x00)
(L (W x00 x00 x00 x00 x00 x00 x00 x00)) E)))
(T (W x00 x00 x00 x00 x00 x00 x00 x00)
(T (W x00 x5f x2e x13 x87 x53 x00 x09)
(T (W x08 x00 x00 x00 xb5 x01 x00 x00)
(L (W x05 x05 x05 x06 x06 x02 x02 x05))
(L (W xf8 x00 xf8 x00 xf8 x00 x9e x04)))
(T (W x1e x00 x00 x00 x00 x00 x32 x00)
(L (W x00 x00 x00 x00 x00 x00 x00 x00)) E))
(T (W x00 x00 x00 x00 x20 x0c x10 x0e)
(T (W x00 x00 x00 x00 xa7 x00 x00 x00)
(L (W x00 x00 x56 x00 x00 x00 x58 x01)) E)
(T (W x03 x00 x00 x00 x00 x00 x00 x00)
(L (W x00 x00 x00 x00 x00 x00 x00 x00)) E))))
(T (W x00 x00 x00 x00 x00 x00 x00 x00)
(T (W x00 x00 x88 x01 x00 x00 x4a x01)
(T (W x00 x02 x00 x00 x99 x00 x00 x00)
(T (W x00 x00 x00 x00 x00 x00 x00 x00)
(L (W x00 x00 x00 x00 x00 x00 x00 x00))
(L (W x00 x00 x00 x00 x00 x00 x00 x00)))
(T (W x80 x00 x00 x00 x00 x01 x10 x0c)
(L (W x00 x00 x00 x00 x00 x00 x00 x00)) E))
(T (W x3c x02 x02 x00 x00 x00 x00 x00)
(T (W x00 xc2 x20 xa3 x86 x02 x01 x02)
(L (W x1e x00 x00 x00 x00 x00 x32 x00)) E)
(T (W x04 x00 x00 x00 xf5 x02 x00 x00)
(L (W x01 x01 x01 x01 x01 x01 x01 x01)) E)))
(T (W x00 x00 x00 x00 x00 x00 x00 x00)
(T (W x00 x00 x00 x00 x28 x00 x00 x00)
(T (W x02 x00 x02 x00 x02 x02 x04 x04)
(L (W xff x01 x04 x00 x00 x00 x00 x00)) E)
(T (W x00 x00 x25 x02 x00 x00 x49 x01)
(L (W x00 x00 x00 x00 x00 x00 x00 x00)) E))
(T (W x01 x00 x00 x00 x00 x00 x00 x00)
(T (W x05 x05 x03 x03 x04 x02 x02 x03)
(L (W x00 x00 x00 x00 x00 x00 x00 x00)) E)
(T (W x00 x00 x00 x00 x00 x00 x00 x00)
(L (W x00 x00 x00 x00 x00 x00 x00 x00)) E)))))))
(T (W x05 x05 x05 x05 x05 x02 x02 x05)
(T (W x01 x00 x00 x00 x00 x00 x00 x00)
(T (W x00 x80 xe8 x83 x85 x09 x23 x08)
(T (W x00 x00 x01 x00 xa4 x00 x00 x00)
(T (W x00 x00 x00 x00 x00 x00 x00 x00)
(T (W x00 x00 x00 x00 x00 x00 x00 x00)
(T (W x80 x00 x00 x00 x02 x1c x50 x0e)
(L (W x02 x00 x03 x00 x03 x03 x04 x04))
(L (W x3c x02 x20 x00 xef x00 xef x00)))
(T (W x01 x00 x01 x00 x47 x01 x00 x00)
(L (W x00 x00 x5d x00 x00 x00 x3d x02)) E))
(T (W x00 x00 x00 x00 x00 x00 x00 x00)
(T (W x00 x00 x00 x00 x00 x00 x00 x00)
(L (W x05 x05 x03 x03 x04 x02 x02 x03)) E)
(T (W x01 x00 x00 x00 x00 x00 x00 x00)
(L (W x44 x00 x00 x00 x00 x00 x00 x00)) E)))
(T (W x1e x00 x00 x00 x00 x00 x32 x00)
(T (W x01 x00 x02 x00 x02 x02 x03 x03)
(T (W x00 x00 x22 x00 x00 x00 x4a x01)
(L (W x00 x03 x20 x0b x80 x09 x10 x4d))
(L (W x1e x00 x00 x00 x00 x00 x28 x00)))
(T (W x2d x03 x00 x03 x00 x00 x00 x00)
(L (W x00 x00 x00 x00 x00 x00 x00 x00)) E))
(T (W x05 x05 x03 x03 x03 x02 x02 x03)
(T (W x00 x00 x00 x00 x00 x00 x00 x00)
(L (W x80 x00 x00 x00 x01 x30 x30 x8c)) E)
(T (W xa7 x00 x35 x00 x39 x00 x00 x00)
(L (W x00 x00 x00 x00 x00 x00 x00 x00)) E))))
(T (W x05 x05 x04 x04 x05 x02 x02 x04)
(T (W x00 x00 x00 x00 x78 x0b x19 x0c)
(T (W x00 x00 x00 x00 xd5 x00 x00 x00)
(T (W x01 x00 x00 x00 x00 x00 x00 x00)
(L (W x00 x00 x00 x00 x00 x00 x00 x00))
(L (W xc1 x00 x00 x00 x35 x01 x38 x0d)))
(T (W x01 x01 x01 x01 x01 x01 x01 x01)
(L (W x00 x00 x00 x00 x00 x00 x00 x00)) E))
(T (W x00 x00 x00 x00 x00 x00 x00 x00)
(T (W x00 x00 x00 x00 x00 x00 x00 x00)
(L (W x2d x02 x08 x00 x00 x00 x03 x01)) E)
(T (W x00 x00 xd9 x01 x00 x00 xd9 x01)
(L (W x00 x00 x00 x00 x00 x00 x00 x00)) E)))
(T (W x00 x00 x00 x00 x00 x00 x00 x00)
(T (W x00 x00 x00 x00 x00 x00 x00 x00)
(T (W x35 x00 x2f x00 x52 x00 x00 x00)
(L (W x00 x00 x00 x00 x09 x00 x00 x00))
(L (W x00 x00 x00 x00 x00 x00 x00 x00)))
(T (W x80 x00 x00 x00 x00 x10 x10 x2c)
(L (W x00 x00 x00 x00 x00 x00 x00 x00)) E))
(T (W x00 x00 x00 x00 x00 x00 x00 x00)
(T (W x3b x82 x60 x87 x86 x0e x01 x0a)
(L (W x1e x00 x00 x00 x00 x00 x3c x00)) E)
(T (W x00 x00 x00 x00 x4c x03 x00 x00)
(L (W x01 x01 x01 x01 x01 x01 x01 x01)) E)))))
(T (W x00 x00 x35 x00 x00 x00 x7e x00)
(T (W x0b x00 x06 x00 x21 x00 x00 x00)
(T (W x02 x00 x03 x00 x02 x03 x06 x06)
(T (W x01 x01 x01 x01 x01 x01 x01 x01)
(T (W x00 x00 x00 x00 x00 x00 x00 x00)
(L (W x00 x00 x00 x00 x83 x04 x30 x0c))
(L (W x01 x00 x02 x00 x01 x02 x04 x04)))
(T (W x77 x00 xac x00 x17 x00 x00 x00)
(L (W x00 x00 x00 x00 x00 x00 x00 x00)) E))
(T (W x00 x00 x30 x01 x00 x00 x4a x02)
(T (W x03 x03 x04 x05 x00 x00 x00 x00)
(L (W x04 x00 x00 x00 xc5 x03 x00 x00)) E)
(T (W x00 x00 x00 x00 x00 x00 x00 x00)
(L (W x01 x00 x00 x00 x00 x00 x00 x00)) E)))
(T (W x00 x00 x00 x00 x00 x00 x00 x00)
(T (W x00 x00 x00 x00 xfe xa7 x10 x8d)
(T (W x00 x00 x00 x00 x82 x00 x00 x00)
(L (W x00 x00 x53 x02 x00 x00 x00 x00))
(L (W x00 x0f x2a xb3 x80 x92 x00 x88)))
(T (W x03 x00 x03 x00 x03 x03 x04 x04)
(L (W x00 x00 x00 x00 x00 x00 x00 x00)) E))
(T (W x00 x00 x00 x00 x55 x01 x00 x00)
(T (W x1e x00 x00 x00 x00 x00 x2d x00)
(L (W x00 x00 x00 x00 x00 x00 x00 x00)) E)
(T (W x05 x05 x04 x05 x05 x02 x02 x04)
(L (W x00 x00 x00 x00 x00 x00 x00 x00)) E))))
(T (W x00 x00 x00 x00 x00 x00 x00 x00)
(T (W x00 x00 x00 x00 x00 x00 xbe x00)
(T (W x2d x02 x40 x00 x00 x00 x00 x00)
(T (W x00 x00 x00 x00 x00 x00 x00 x00)
(L (W x1e x00 x00 x00 x00 x00 x32 x00))
(L (W x00 x00 x00 x00 x00 x00 x00 x00)))
(T (W x00 x00 x00 x00 x55 x02 x00 x00)
(L (W x01 x01 x01 x01 x01 x01 x01 x01)) E))
(T (W x18 x00 x18 x00 x03 x00 x00 x00)
(T (W x00 x00 x00 x00 x00 x00 x00 x00)
(L (W x02 x00 x03 x00 x02 x03 x04 x04)) E)
(T (W x00 x00 x00 x00 x00 x00 x00 x00)
(L (W x00 x00 x00 x00 x00 x00 x00 x00)) E)))
(T (W x00 x00 x00 x00 x5d x00 x00 x00)
(T (W x1e x00 x00 x00 x00 x00 x32 x00)
(T (W x01 x01 x01 x01 x01 x01 x01 x01)
(L (W xee x00 x90 x00 x1b x00 x00 x00)) E)
(T (W x00 x43 x00 x00 x00 x00 x00 x00)
(L (W x00 x00 x00 x00 x00 x00 x00 x00)) E))
(T (W x01 x00 x02 x00 x01 x02 x06 x06)
(T (W x00 x00 x61 x00 x00 x00 xc6 x02)
(L (W x00 x00 x20 xa3 x80 x11 x10 x00)) E)
(T (W x78 x02 x20 x00 x00 x00 x22 x02)
(L (W x00 x00 x00 x00 x00 x00 x00 x00)) E))))))
(T (W x00 x00 x00 x00 x00 x00 x00 x00)
(T (W x78 x02 x08 x00 x00 x00 x00 x00)
(T (W x00 x00 x00 x00 x00 x00 x00 x00)
(T (W x00 x00 x5f x00 x00 x00 xca x00)
(T (W x00 x00 x00 x00 x3b x00 x00 x00)
(T (W x02 x00 x02 x00 x02 x00 x00 x00)
(L (W x00 x00 x00 x00 x00 x00 x00 x00))
(L (W x00 x00 x68 x02 x00 x00 x00 x00)))
(T (W x00 x00 x00 x00 x00 x00 xd2 x0c)
(L (W x00 x00 x00 x00 x00 x00 x00 x00)) E))
(T (W x00 x00 x00 x00 x00 x00 x00 x00)
(T (W x3b x57 xee xab xc6 x1f x01 x88)
(L (W x1e x00 x00 x00 x00 x00 x32 x00)) E)
(T (W x00 x00 x00 x00 xf1 x02 x00 x00)
(L (W x01 x01 x01 x01 x01 x01 x01 x01)) E)))
(T (W x08 x00 x00 x00 x95 x00 x00 x00)
(T (W x00 x00 x00 x00 x00 x00 x00 x00)
(T (W x03 x00 x02 x00 x02 x03 x03 x03)
(L (W x03 x03 x00 x03 x00 x00 x00 x00))
(L (W x00 x00 x00 x00 xcd x03 x00 x00)))
(T (W x00 x00 x2c x02 x00 x00 xa3 x01)
(L (W x00 x40 xa6 x03 xc6 x03 x00 x00)) E))
(T (W x01 x00 x00 x00 x00 x00 x00 x00)
(T (W x05 x05 x04 x04 x05 x02 x02 x04)
(L (W x06 x01 x06 x01 x06 x01 x00 x00)) E)
(T (W x00 x00 x00 x00 x1c x00 x00 x00)
(L (W x00 x00 x00 x00 x00 x00 x00 x00)) E))))
(T (W x1e x00 x00 x00 x00 x00 x3c x00)
(T (W x31 x00 x31 x00 x48 x00 x00 x00)
(T (W x00 x00 x00 x00 x00 x00 x00 x00)
(T (W x02 x00 x00 x00 x95 x01 x00 x00)
(L (W x05 x05 x04 x04 x04 x02 x02 x04))
(L (W xe1 x00 xe1 x00 xe1 x00 x6f x04)))
(T (W x1e x00 x00 x00 x00 x00 x3c x00)
(L (W x00 x00 x00 x00 x00 x00 x00 x00)) E))
(T (W x00 x00 x00 x00 x00 x00 x00 x00)
(T (W x00 x00 x00 x00 x00 x00 x00 x00)
(L (W x00 x00 xec x02 x00 x00 xec x02)) E)
(T (W x03 x00 x03 x00 x03 x03 x05 x04)
(L (W x00 x00 x00 x00 x00 x00 x00 x00)) E)))
(T (W x02 x00 x03 x00 x02 x03 x04 x04)
(T (W x01 x01 x01 x01 x01 x01 x01 x01)
(T (W x00 x08 x00 x00 x32 x00 x00 x00)
(L (W x00 x00 x00 x00 x00 x00 x00 x00)) E)
(T (W x9a x00 x9a x00 x9a x00 x00 x00)
(L (W x01 x00 x01 x00 x6f x01 x01 x00)) E))
(T (W x00 x00 x00 x00 x00 x00 x00 x00)
(T (W x2d x03 xc0 x00 x00 x00 xf5 x00)
(L (W x00 x00 x00 x00 x34 x00 x00 x00)) E)
(T (W x00 x00 x00 x00 x00 x00 x00 x00)
(L (W x01 x00 x00 x00 x00 x00 x00 x00)) E)))))
(T (W x03 x00 x03 x00 x03 x03 x04 x04)
(T (W x40 x00 x00 x00 x00 x00 x00 x00)
(T (W x00 x00 x00 x00 x00 x00 x00 x00)
(T (W x01 x00 x00 x00 x00 x00 x00 x00)
(T (W x01 x01 x01 x01 x01 x01 x01 x01)
(L (W xde x00 xde x00 x80 x00 x00 x00))
(L (W x00 x00 x00 x00 x7e x01 x00 x00)))
(T (W x00 x04 x01 x00 x00 x00 x38 x00)
(L (W x00 x00 x00 x00 x00 x00 x00 x00)) E))
(T (W x00 x00 x00 x00 x00 x00 x00 x00)
(T (W x00 x00 x00 x00 x00 x00 x00 x00)
(L (W x03 x40 xa0 x83 x80 x84 x00 x84)) E)
(T (W x00 x00 x00 x00 x00 x00 x00 x00)
(L (W x00 x00 x00 x00 x00 x00 x00 x00)) E)))
(T (W x00 x00 x00 x00 x00 x00 x00 x00)
(T (W x41 x00 x41 x00 x54 x00 x00 x00)
(T (W x00 x00 x00 x00 x04 xc8 x10 x0c)
(L (W x02 x00 x03 x00 x02 x03 x03 x03))
(L (W x0a x03 xc0 x00 x00 x00 x00 x00)))
(T (W x00 x00 x00 x00 x00 x00 x00 x00)
(L (W x00 x00 x00 x00 x00 x00 x00 x00)) E))
(T (W x00 x80 x61 x83 x85 x08 xe1 x00)
(T (W x00 x00 x00 x00 x15 x02 x00 x00)
(L (W x05 x05 x02 x03 x04 x02 x02 x02)) E)
(T (W x0a x00 x00 x00 x00 x00 x00 x00)
(L (W x00 x00 x00 x00 x00 x00 x00 x00)) E))))
(T (W x80 x03 x33 x8b x9a x61 xe8 x02)
(T (W x05 x05 x03 x03 x04 x02 x02 x03)
(T (W x00 x00 x61 x00 x00 x00 x96 x01)
(T (W x00 x00 x00 x00 x00 x00 x00 x00)
(L (W x00 x00 x00 x00 x67 x03 x00 x00))
(L (W x01 x01 x01 x01 x01 x01 x01 x01)))
(T (W x00 x00 x00 x00 x00 x00 x00 x00)
(L (W x01 x00 x00 x00 x00 x00 x00 x00)) E))
(T (W x00 x00 x00 x00 x00 x00 x00 x00)
(T (W x07 x00 x54 x00 x9e x00 x00 x00)
(L (W x00 x00 x00 x00 x78 x01 x00 x00)) E)
(T (W x40 x00 x00 x00 x02 x04 x10 x8d)
(L (W x00 x00 x00 x00 x00 x00 x00 x00)) E)))
(T (W x00 x00 x00 x00 x7a x00 x13 xcc)
(T (W x00 x00 x00 x00 x00 x00 x00 x00)
(T (W x1e x00 x00 x00 x00 x00 x3c x00)
(L (W x08 x00 x00 x00 x00 x00 x9b x00)) E)
(T (W x05 x05 x05 x05 x05 x02 x02 x02)
(L (W x90 x00 x90 x00 x90 x00 xfe x03)) E))
(T (W x00 x00 x00 x00 x00 x00 x00 x00)
(T (W x03 x00 x03 x00 x03 x03 x03 x03)
(L (W x00 x00 x00 x00 x00 x00 x00 x00)) E)
(T (W x00 x00 xe3 x01 x00 x00 xe3 x01)
(L (W x00 x13 x65 x83 x86 x08 x00 x00)) E))))))))
(T (W x00 x00 x00 x00 x05 x00 x00 x00)
(T (W x04 x00 x00 x00 x7a x00 x11 x8c)
(T (W x00 x00 x00 x00 x00 x00 x00 x00)
(T (W x05 x05 x02 x03 x04 x02 x02 x02)
(T (W x00 x00 x00 x00 x00 x00 x00 x00)
(T (W x1e x00 x00 x00 x00 x00 x32 x00)
(T (W x00 x00 x00 x00 x00 x00 x00 x00)
(T (W x00 x00 x21 x00 x00 x00 x21 x00)
(L (W x80 x00 x28 x8b x8a x00 xa0 x02))
(L (W x1e x00 x00 x00 x00 x00 x32 x00)))
(T (W x2d x02 x00 x02 x00 x00 x00 x00)
(L (W x00 x00 x00 x00 x6e x00 x00 x00)) E))
(T (W x05 x05 x02 x03 x04 x02 x02 x02)
(T (W x02 x01 x00 x00 x00 x00 x14 x00)
(L (W x40 x00 x00 x00 x00 x00 x00 x00)) E)
(T (W x00 x00 x00 x00 x00 x00 x00 x00)
(L (W x00 x00 x00 x00 x00 x00 x00 x00)) E)))
(T (W x45 x00 x2e x00 x7f x00 x00 x00)
(T (W x00 x00 x00 x00 x00 x00 x00 x00)
(T (W x01 x00 x00 x00 xa5 x01 x00 x00)
(L (W x05 x05 x05 x05 x05 x02 x02 x05))
(L (W xe8 x00 xe8 x00 xe8 x00 x8e x04)))
(T (W x1e x00 x00 x00 x00 x00 x28 x00)
(L (W x00 x00 x00 x00 x00 x00 x00 x00)) E))
(T (W x00 x00 x00 x00 x02 x24 x10 x0c)
(T (W x00 x00 x00 x00 x00 x00 x00 x00)
(L (W x00 x00 x96 x01 x00 x00 xfa x01)) E)
(T (W x02 x00 x03 x00 x03 x03 x03 x03)
(L (W x00 x00 x00 x00 x00 x00 x00 x00)) E))))
(T (W x00 x00 x00 x00 x79 x00 x51 x0c)
(T (W x00 x00 x30 x00 x00 x00 x88 x01)
(T (W x00 x40 x01 x00 x00 x00 x00 x00)
(T (W x00 x00 x00 x00 x00 x00 x00 x00)
(L (W x00 x00 x00 x00 x00 x00 x00 x00))
(L (W x00 x00 xce x02 x00 x00 xce x02)))
(T (W x00 x00 x00 x00 x60 x00 x10 x0c)
(L (W x00 x00 x00 x00 x00 x00 x00 x00)) E))
(T (W x5a x02 x20 x00 x00 x00 xee x00)
(T (W x00 x00 x00 x00 x00 x00 x00 x00)
(L (W x1e x00 x00 x00 x00 x00 x32 x00)) E)
(T (W x00 x00 x00 x00 xdd x02 x00 x00)
(L (W x01 x01 x01 x01 x01 x01 x01 x01)) E)))
(T (W x00 x00 x00 x00 x00 x00 x00 x00)
(T (W x00 x00 x00 x00 x00 x00 x00 x00)
(T (W x01 x00 x03 x00 x01 x03 x04 x04)
(L (W x2d x02 x00 x02 x00 x00 x00 x00))
(L (W x00 x00 x00 x00 xdc x03 x00 x00)))
(T (W x00 x00 x6e x01 x00 x00 x6e x01)
(L (W x00 x00 x00 x00 x00 x00 x00 x00)) E))
(T (W x01 x00 x00 x00 x00 x00 x00 x00)
(T (W x05 x05 x03 x03 x04 x02 x02 x03)
(L (W xcf x00 xcf x00 xcf x00 x8e x03)) E)
(T (W x10 x02 x00 x00 x00 x00 x00 x00)
(L (W x00 x00 x00 x00 x00 x00 x00 x00)) E)))))
(T (W x00 x00 x00 x00 x25 x00 x00 x00)
(T (W x02 x00 x03 x00 x02 x03 x04 x04)
(T (W x3b x00 xe0 x83 x86 x0f x01 x88)
(T (W x00 x00 x00 x00 x00 x00 x00 x00)
(T (W x00 x00 x00 x00 x00 x00 x00 x00)
(L (W x00 x00 x35 x00 x00 x00 x35 x00))
(L (W x00 x00 x60 x87 x80 x00 x01 x00)))
(T (W x01 x00 x02 x00 x02 x02 x04 x04)
(L (W x00 x00 x00 x00 x00 x00 x00 x00)) E))
(T (W x00 x00 x00 x00 x25 x01 x00 x00)
(T (W x1e x00 x00 x00 x00 x00 x1e x00)
(L (W x00 x09 x00 x00 x00 x00 x64 x00)) E)
(T (W x01 x01 x01 x01 x01 x01 x01 x01)
(L (W x00 x00 x00 x00 x00 x00 x00 x00)) E)))
(T (W x01 x01 x01 x01 x01 x01 x01 x01)
(T (W x00 x00 xf2 x00 x00 x00 xc3 x02)
(T (W x00 x00 x00 x00 x00 x00 x00 x00)
(L (W x08 x00 x00 x00 x74 x03 x00 x00))
(L (W x05 x05 x04 x04 x05 x02 x02 x04)))
(T (W x03 x80 x64 x83 x86 x0f x11 x8b)
(L (W x01 x00 x00 x00 x00 x00 x00 x00)) E))
(T (W x00 x00 x00 x00 x89 x00 x3c x00)
(T (W x05 x00 x2d x00 x9f x00 x00 x00)
(L (W x00 x00 x00 x00 x00 x00 x00 x00)) E)
(T (W x00 x00 x00 x00 x70 x00 x10 x0c)
(L (W x00 x00 x00 x00 x00 x00 x00 x00)) E))))
(T (W x00 x02 x00 x00 x00 x00 x00 x00)
(T (W x00 x00 x00 x00 x91 x00 x00 x00)
(T (W x1e x00 x00 x00 x00 x00 x32 x00)
(T (W x01 x01 x01 x01 x01 x01 x01 x01)
(L (W xab x00 x2b x00 x8e x00 x00 x00))
(L (W x00 x00 x00 x00 x00 x00 x00 x00)))
(T (W x08 x08 x00 x00 x00 x00 x5d x00)
(L (W x00 x00 x00 x00 x72 x03 x10 x8c)) E))
(T (W x00 x00 x00 x00 x00 x00 x00 x00)
(T (W x00 x00 x00 x00 x00 x00 x00 x00)
(L (W x10 x00 x24 x8b x98 x60 x88 x00)) E)
(T (W x2d x02 x08 x00 x00 x00 x00 x00)
(L (W x00 x00 x00 x00 x00 x00 x00 x00)) E)))
(T (W xbe x01 x00 x01 x00 x00 x00 x00)
(T (W x21 x00 x2c x00 x14 x00 x00 x00)
(T (W x00 x00 x00 x00 x00 x00 x00 x00)
(L (W x02 x00 x03 x00 x03 x03 x04 x03)) E)
(T (W x00 x00 x00 x00 x00 x00 x00 x00)
(L (W x00 x00 xb5 x02 x00 x00 xb5 x02)) E))
(T (W x00 x00 x60 x8b x9a x20 x81 x00)
(T (W x01 x00 x00 x00 x25 x02 x00 x00)
(L (W x01 x01 x01 x01 x01 x01 x01 x01)) E)
(T (W x01 x00 x00 x00 x00 x00 x00 x00)
(L (W x00 x00 x00 x00 x00 x00 x00 x00)) E))))))
(T (W x00 x00 x00 x00 x00 x00 x00 x00)
(T (W x1e x00 x00 x00 x00 x00 x37 x00)
(T (W x00 x00 x32 x00 x00 x00 x38 x00)
(T (W x00 x00 x00 x00 x00 x00 x00 x00)
(T (W x00 x00 x00 x00 x64 x00 x00 x00)
(T (W x03 x00 x00 x00 x00 x00 x00 x00)
(L (W xbe x01 x04 x00 x00 x00 xef x00))
(L (W x00 x00 x00 x00 x02 x03 x00 x00)))
(T (W x00 x00 x61 x00 x00 x00 x9d x00)
(L (W x00 x00 x00 x00 x00 x00 x00 x00)) E))
(T (W x01 x00 x00 x00 x00 x00 x00 x00)
(T (W x05 x05 x04 x04 x05 x02 x02 x04)
(L (W x21 x00 x21 x00 xef x00 x00 x00)) E)
(T (W x00 x00 x00 x00 x00 x00 x00 x00)
(L (W x80 x00 x00 x00 x64 x0b x1c x0c)) E)))
(T (W x00 x40 x00 x00 x00 x00 xc2 x00)
(T (W x2d x02 x20 x00 x21 x00 x21 x00)
(T (W x3b xc8 x20 xa3 x86 x83 x10 x8e)
(L (W x0a x00 x00 x00 x00 x00 x28 x00))
(L (W x08 x00 x00 x00 x00 x00 x00 x00)))
(T (W x00 x00 x00 x00 x65 x02 x00 x00)
(L (W x05 x05 x03 x03 x04 x02 x02 x03)) E))
(T (W x1e x00 x1e x00 x0d x00 x00 x00)
(T (W x00 x00 x00 x00 x00 x30 x10 x0c)
(L (W x00 x00 x00 x00 x00 x00 x00 x00)) E)
(T (W x00 x00 x00 x00 x87 x01 x00 x00)
(L (W x00 x00 x00 x00 x00 x00 x00 x00)) E))))
(T (W x32 x00 x12 x00 x31 x00 x9c x03)
(T (W x02 x00 x01 x00 x02 x01 x04 x04)
(T (W x01 x01 x01 x01 x01 x01 x01 x01)
(T (W x08 x00 x00 x00 x19 x00 x00 x00)
(L (W x40 x00 x00 x00 x06 x84 x10 x8d))
(L (W x02 x00 x02 x00 x03 x02 x03 x03)))
(T (W x1b x00 x1b x00 x90 x00 x00 x00)
(L (W x00 x00 x00 x00 x00 x00 x00 x00)) E))
(T (W x00 x00 xb3 x01 x00 x00 x57 x00)
(T (W x00 x00 x00 x00 x00 x00 x00 x00)
(L (W x00 x00 x00 x00 x9d x03 x00 x00)) E)
(T (W x00 x03 x26 xa3 x86 x82 x00 x80)
(L (W x01 x00 x00 x00 x00 x00 x00 x00)) E)))
(T (W x00 x43 x21 x8b x9a x20 x90 x00)
(T (W x00 x00 x00 x00 x72 x03 x10 x8c)
(T (W x00 x00 x00 x00 x3b x01 x00 x00)
(L (W x00 x00 xd4 x01 x00 x00 xa9 x02)) E)
(T (W x03 x00 x03 x00 x03 x03 x04 x04)
(L (W x19 x02 x80 x00 x00 x00 x00 x00)) E))
(T (W x00 x00 x00 x00 x00 x00 x00 x00)
(T (W x1e x00 x00 x00 x00 x00 x3c x00)
(L (W x00 x01 x00 x00 x00 x00 x00 x00)) E)
(T (W x05 x05 x03 x03 x04 x02 x02 x03)
(L (W x00 x00 x00 x00 x00 x00 x00 x00)) E)))))
(T (W x00 x08 x20 xb3 x84 x00 x04 x00)
(T (W x00 x00 x00 x00 x8a x00 x00 x00)
(T (W x1e x02 x02 x00 x00 x00 x00 x00)
(T (W x20 x00 x32 x00 x9b x00 x00 x00)
(T (W x00 x00 x00 x00 x00 x00 x00 x00)
(L (W x03 x00 x01 x00 x01 x03 x05 x05))
(L (W x03 x03 x03 x00 x00 x00 x00 x00)))
(T (W x00 x00 x00 x00 x0f x01 x00 x00)
(L (W x00 x00 x00 x00 x00 x00 x00 x00)) E))
(T (W x00 x00 x00 x00 x00 x00 x00 x00)
(T (W x08 x00 x00 x00 xe5 x01 x00 x00)
(L (W x05 x05 x02 x03 x03 x02 x02 x02)) E)
(T (W x01 x00 x00 x00 x00 x00 x00 x00)
(L (W x00 x00 x00 x00 x00 x00 x00 x00)) E)))
(T (W x01 x00 x00 x00 x00 x00 x00 x00)
(T (W x03 x00 x03 x00 x03 x03 x04 x04)
(T (W x00 x00 x39 x01 x00 x00 xaf x00)
(L (W x03 x1c x21 x93 x84 x01 x00 x8d))
(L (W x1e x00 x00 x00 x00 x00 x32 x00)))
(T (W x2d x02 x08 x00 x00 x00 x00 x00)
(L (W x00 x00 x00 x00 x00 x00 x00 x00)) E))
(T (W x05 x05 x04 x04 x05 x02 x02 x04)
(T (W x00 x00 x00 x00 x00 x00 x15 x00)
(L (W x00 x00 x00 x00 x12 x13 x30 xcc)) E)
(T (W xbc x00 xbc x00 xbc x00 x63 x04)
(L (W x00 x00 x00 x00 x00 x00 x00 x00)) E))))
(T (W x01 x01 x01 x01 x01 x01 x01 x01)
(T (W x00 x00 x00 x00 x06 xa0 x10 xac)
(T (W x00 x00 x00 x00 x00 x00 x00 x00)
(T (W x1e x00 x00 x00 x00 x00 x28 x00)
(L (W x00 x00 x00 x00 x00 x00 x00 x00))
(L (W x00 x00 x00 x00 x00 x00 x00 x00)))
(T (W x05 x05 x03 x04 x04 x02 x02 x03)
(L (W x00 x00 x00 x00 x00 x00 x00 x00)) E))
(T (W x00 x00 x00 x00 x00 x00 x00 x00)
(T (W x03 x00 x03 x00 x03 x03 x04 x04)
(L (W x2d x02 x08 x00 x00 x00 x00 x00)) E)
(T (W x00 x00 x56 x00 x00 x00 x3a x02)
(L (W x00 x00 x00 x00 x00 x00 x00 x00)) E)))
(T (W x00 x00 x49 x02 x00 x00 xca x00)
(T (W x10 x80 x00 x00 x00 x00 x00 x00)
(T (W x2a x00 x05 x00 x94 x00 x00 x00)
(L (W x00 x00 x00 x00 x2b x00 x00 x00)) E)
(T (W x00 x00 x00 x00 x00 x00 x00 x00)
(L (W x00 x00 x00 x00 x00 x00 x00 x00)) E))
(T (W x19 x02 x11 x00 x00 x00 x00 x00)
(T (W x0b xab xe0 x83 xc4 x08 x01 x3b)
(L (W x1e x00 x00 x00 x00 x00 x37 x00)) E)
(T (W x00 x00 x00 x00 x00 x00 x00 x00)
(L (W x01 x01 x01 x01 x01 x01 x01 x01)) E)))))))
(T (W x00 x00 x00 x00 x00 x00 x00 x00)
(T (W x00 x00 x00 x00 x00 x00 x00 x00)
(T (W x01 x00 x01 x00 x01 x01 x05 x05)
(T (W x00 x01 x00 x00 x00 x00 x00 x00)
(T (W x00 x00 x00 x00 x62 x00 x00 x00)
(T (W x01 x00 x00 x00 x00 x00 x00 x00)
(T (W x05 x05 x05 x05 x05 x02 x02 x02)
(L (W x14 x00 xc0 x00 x27 x00 x00 x00))
(L (W x00 x00 x00 x00 x00 x00 x00 x00)))
(T (W x00 x20 x00 x00 x00 x00 x00 x00)
(L (W x00 x00 x00 x00 x80 x30 x30 x0c)) E))
(T (W x00 x00 x00 x00 x00 x00 x00 x00)
(T (W x00 x00 x5c x01 x00 x00 xca x00)
(L (W x00 x80 x21 x83 x81 x00 x22 x00)) E)
(T (W x00 x00 x00 x00 x00 x00 x00 x00)
(L (W x00 x00 x00 x00 x89 x02 x00 x00)) E)))
(T (W x03 x03 x00 x03 x00 x00 x00 x00)
(T (W x0c x00 x6c x00 x5d x00 x00 x00)
(T (W x00 x00 x00 x00 x00 x00 x00 x00)
(L (W x03 x00 x00 x00 x00 x00 x00 x00))
(L (W x2d x02 x00 x08 x00 x00 x00 x00)))
(T (W x00 x00 x00 x00 x44 x01 x00 x00)
(L (W x00 x00 x50 x00 x00 x00 x50 x00)) E))
(T (W x00 x00 x00 x00 x00 x00 x00 x00)
(T (W x00 x00 x00 x00 x05 x02 x00 x00)
(L (W x05 x05 x05 x05 x05 x02 x02 x02)) E)
(T (W x1e x00 x00 x00 x00 x00 x37 x00)
(L (W x00 x00 x00 x00 x00 x00 x00 x00)) E))))
(T (W x00 x00 x00 x00 x00 x00 x00 x00)
(T (W x05 x05 x02 x03 x03 x02 x02 x02)
(T (W x00 x00 xe0 x00 x00 x00 x0e x00)
(T (W x00 x00 x00 x00 x00 x00 x00 x00)
(L (W x02 x00 x00 x00 x5e x03 x00 x00))
(L (W x05 x05 x04 x05 x05 x02 x02 x04)))
(T (W x00 x48 x22 xa3 x82 x03 x00 x49)
(L (W x01 x00 x00 x00 x00 x00 x00 x00)) E))
(T (W x00 x00 x00 x00 x00 x00 x00 x00)
(T (W xa2 x00 xa2 x00 xa2 x00 x00 x00)
(L (W x01 x00 x01 x00 x6e x01 x01 x00)) E)
(T (W x80 x00 x00 x00 x01 x00 x30 x0c)
(L (W x00 x00 x00 x00 x00 x00 x00 x00)) E)))
(T (W x00 x00 x00 x00 x00 x00 x00 x00)
(T (W x00 x00 x00 x00 x00 x00 x00 x00)
(T (W x1e x00 x00 x00 x00 x00 x1e x00)
(L (W x00 x00 x00 x00 x09 x00 x05 x00)) E)
(T (W x05 x05 x03 x04 x04 x02 x02 x03)
(L (W x00 x00 x00 x00 x00 x00 x00 x00)) E))
(T (W x00 x00 x00 x00 x00 x00 x00 x00)
(T (W x00 x00 x00 x00 x00 x00 x00 x00)
(L (W xbe x01 x40 x00 x00 x00 x89 x02)) E)
(T (W x00 x00 xa8 x01 x00 x00 x35 x00)
(L (W x00 x00 x00 x00 x00 x00 x00 x00)) E)))))
(T (W x00 x00 x00 x00 x66 x8b x18 x2c)
(T (W x1e x00 x00 x00 x00 x00 x32 x00)
(T (W x1a x00 x00 x01 x01 x00 xa5 x03)
(T (W x00 x00 x00 x00 x00 x00 x00 x00)
(T (W x00 x00 x00 x00 x00 x00 x00 x00)
(L (W x05 x05 x02 x03 x03 x02 x02 x02))
(L (W xd0 x00 xd0 x00 xd0 x00 x6e x04)))
(T (W x1e x00 x00 x00 x00 x00 x32 x00)
(L (W x00 x00 x00 x00 x00 x00 x00 x00)) E))
(T (W x00 x00 x00 x00 x00 x00 x00 x00)
(T (W x00 x00 x00 x00 x00 x00 x00 x00)
(L (W x00 x00 xa1 x01 x00 x00 xf7 x00)) E)
(T (W x00 x00 x00 x00 x00 x00 x00 x00)
(L (W x00 x00 x00 x00 x00 x00 x00 x00)) E)))
(T (W x00 x00 x00 x00 x00 x00 x00 x00)
(T (W x05 x05 x05 x05 x05 x02 x02 x05)
(T (W x82 x80 x00 x00 x00 x00 x00 x00)
(L (W x80 x00 x00 x00 x00 x01 x10 x0c))
(L (W x02 x00 x03 x00 x02 x03 x04 x04)))
(T (W x59 x00 x67 x00 x63 x00 x00 x00)
(L (W x00 x00 x00 x00 x00 x00 x00 x00)) E))
(T (W x00 x00 x90 x01 x00 x00 x90 x01)
(T (W x78 x01 x04 x00 x00 x00 x00 x00)
(L (W x00 x00 x00 x00 x19 x00 x00 x00)) E)
(T (W x40 x0b xa1 xc3 x84 x09 x00 x01)
(L (W x01 x00 x00 x00 x00 x00 x00 x00)) E))))
(T (W x00 x00 x00 x00 x00 x00 x00 x00)
(T (W x00 x00 x00 x00 x85 x00 x00 x00)
(T (W x00 x00 x00 x00 x63 x01 x00 x00)
(T (W x00 x00 x00 x00 x00 x00 x00 x00)
(L (W x03 x03 xc0 x00 x00 x00 x00 x00))
(L (W x00 x00 x00 x00 x00 x00 x00 x00)))
(T (W x00 x00 xae x00 x00 x00 xb6 x01)
(L (W x00 x00 x00 x00 x00 x00 x00 x00)) E))
(T (W x1e x00 x00 x00 x00 x00 x37 x00)
(T (W x01 x01 x01 x01 x01 x01 x01 x01)
(L (W x7d x00 x7d x00 x86 x00 x00 x00)) E)
(T (W x04 x40 x00 x00 xc3 x00 x00 x00)
(L (W x00 x00 x00 x00 x00 x00 x00 x00)) E)))
(T (W x00 x00 x00 x00 x00 x00 x00 x00)
(T (W xff x01 x10 x00 x00 x00 x0f x01)
(T (W x11 x0c x2a x9b x8a x40 x04 x00)
(L (W x1e x00 x00 x00 x00 x00 x28 x00)) E)
(T (W x00 x00 x00 x00 x85 x02 x00 x00)
(L (W x01 x01 x01 x01 x01 x01 x01 x01)) E))
(T (W x00 x00 x00 x00 x00 x00 x00 x00)
(T (W x00 x00 x00 x00 x80 x24 x50 x8c)
(L (W x03 x00 x03 x00 x03 x03 x03 x03)) E)
(T (W x00 x00 x00 x00 x12 x00 x00 x00)
(L (W x00 x00 x00 x00 x00 x00 x00 x00)) E))))))
(T (W x00 x00 x00 x00 x00 x00 x00 x00)
(T (W x00 x00 x00 x00 x00 x00 x00 x00)
(T (W x01 x01 x01 x01 x01 x01 x01 x01)
(T (W x00 x00 x00 x00 xe7 xa4 x10 x8c)
(T (W x00 x00 x00 x00 xc5 x00 x00 x00)
(T (W x0a x00 x00 x00 x00 x00 x28 x00)
(L (W x00 x00 x00 x00 x00 x00 x00 x00))
(L (W x00 x00 x00 x00 x00 x00 x00 x00)))
(T (W x05 x05 x04 x05 x06 x02 x02 x04)
(L (W x00 x00 x00 x00 x00 x00 x00 x00)) E))
(T (W x00 x00 x00 x00 x68 x00 x00 x00)
(T (W x00 x00 x00 x00 x00 x00 x00 x00)
(L (W x2d x02 x00 x02 x00 x00 x00 x00)) E)
(T (W x00 x00 xe8 x01 x00 x00 x00 x02)
(L (W x00 x00 x00 x00 x00 x00 x00 x00)) E)))
(T (W x00 x00 x1c x02 x00 x00 x1c x02)
(T (W x08 x00 x00 x00 x00 x00 x00 x00)
(T (W x00 x00 x00 x00 x00 x00 x00 x00)
(L (W x00 x00 x00 x00 x00 x00 x00 x00))
(L (W x00 x00 x97 x00 x00 x00 x5d x02)))
(T (W x00 x00 x00 x00 x02 x00 xd4 x6c)
(L (W x03 x00 x03 x00 x03 x03 x03 x03)) E))
(T (W x2d x02 x00 x02 x5a x00 x51 x00)
(T (W x00 x00 x00 x00 x00 x00 x00 x00)
(L (W x0a x00 x00 x00 x00 x00 x00 x00)) E)
(T (W x00 x00 x00 x00 xbf x02 x00 x00)
(L (W x01 x01 x01 x01 x01 x01 x01 x01)) E))))
(T (W xbe x01 x00 x01 x00 x00 xe9 x00)
(T (W x1e x00 x00 x00 x00 x00 x37 x00)
(T (W x02 x00 x02 x00 x01 x02 x05 x04)
(T (W x00 x00 x84 x01 x00 x00 x4e x00)
(L (W x00 x00 x00 x00 x00 x00 x00 x00))
(L (W x1e x00 x00 x00 x00 x00 x28 x00)))
(T (W x3c x02 x00 x08 x00 x00 x00 x00)
(L (W x00 x00 x00 x00 x00 x00 x00 x00)) E))
(T (W x01 x01 x01 x01 x01 x01 x01 x01)
(T (W x00 x00 x00 x00 x00 x00 x00 x00)
(L (W x00 x00 x00 x00 x00 x00 x10 x0c)) E)
(T (W x7e x00 x15 x00 x97 x00 x00 x00)
(L (W x00 x00 x00 x00 x00 x00 x00 x00)) E)))
(T (W x38 x00 xac x00 x84 x00 x00 x00)
(T (W x00 x00 x00 x00 x00 x00 x00 x00)
(T (W x00 x00 x00 x00 xc5 x01 x00 x00)
(L (W x05 x05 x05 x05 x05 x02 x02 x05)) E)
(T (W x1e x00 x00 x00 x00 x00 x41 x00)
(L (W x02 x84 x00 x00 x00 x00 x68 x00)) E))
(T (W x00 x00 x00 x00 x00 x00 x02 x40)
(T (W x00 x00 x00 x00 x06 x01 x00 x00)
(L (W x00 x00 x06 x00 x00 x00 x06 x00)) E)
(T (W x00 x00 x00 x00 x00 x00 x00 x00)
(L (W x00 x00 x00 x00 x00 x00 x00 x00)) E)))))
(T (W x00 x00 x00 x00 x00 x00 x00 x00)
(T (W x00 x00 x00 x00 x00 x00 x00 x00)
(T (W x01 x00 x00 x00 xac x00 x00 x00)
(T (W x00 x00 x00 x00 x00 x00 x00 x00)
(T (W x00 x00 x00 x00 x00 x00 x00 x00)
(L (W x1e x00 x00 x00 x00 x00 x46 x00))
(L (W x01 x00 x00 x00 x00 x00 x00 x00)))
(T (W x00 x00 x00 x00 x00 x00 x00 x00)
(L (W x01 x01 x01 x01 x01 x01 x01 x01)) E))
(T (W x33 x00 x64 x00 x9e x00 x00 x00)
(T (W x00 x00 x00 x00 x22 x08 x10 x0e)
(L (W x02 x00 x02 x00 x02 x02 x04 x04)) E)
(T (W x00 x00 x00 x00 x6f x00 x00 x00)
(L (W x00 x00 x00 x00 x00 x00 x00 x00)) E)))
(T (W x00 x00 x00 x00 x00 x00 x00 x00)
(T (W x1e x00 x00 x00 x00 x00 x32 x00)
(T (W x01 x01 x01 x01 x01 x01 x01 x01)
(L (W x42 x00 x42 x00 xec x00 x00 x00))
(L (W x00 x00 x04 x00 x8f x01 x00 x00)))
(T (W x00 x02 x00 x00 xb3 x00 x00 x00)
(L (W x00 x00 x00 x00 x00 x00 x00 x00)) E))
(T (W x03 x00 x03 x00 x03 x03 x04 x04)
(T (W x00 x00 x53 x01 x00 x00 x67 x01)
(L (W x27 xc0 xa6 xa3 x82 x0b x00 x08)) E)
(T (W x03 x03 x00 x03 x00 x00 x00 x00)
(L (W x00 x00 x00 x00 x00 x00 x00 x00)) E))))
(T (W x02 x00 x02 x00 x03 x02 x03 x03)
(T (W x80 x03 xe0 x8b x9b x20 xe1 x00)
(T (W x00 x00 x00 x00 x00 x00 x00 x00)
(T (W x00 x00 x00 x00 x00 x00 x00 x00)
(L (W x00 x00 x64 x00 x00 x00 x64 x00))
(L (W x00 x00 x00 x00 x00 x00 x00 x00)))
(T (W x00 x00 x00 x00 x00 x00 x00 x00)
(L (W x00 x00 x00 x00 x00 x00 x00 x00)) E))
(T (W x00 x00 x00 x00 x00 x00 x00 x00)
(T (W x01 x00 x00 x00 x00 x00 x00 x00)
(L (W x00 x10 x00 x00 x00 x00 x00 x00)) E)
(T (W x05 x05 x03 x03 x04 x02 x02 x03)
(L (W x00 x00 x00 x00 x00 x00 x00 x00)) E)))
(T (W x05 x05 x04 x05 x05 x02 x02 x04)
(T (W x00 x00 x60 x01 x00 x00 x60 x01)
(T (W x1e x02 x20 x00 x00 x00 x00 x00)
(L (W x00 x00 x00 x00 xa5 x03 x00 x00)) E)
(T (W x00 x00 x00 x00 x00 x00 x00 x00)
(L (W x0a x00 x00 x00 x00 x00 x28 x00)) E))
(T (W x00 x00 x00 x00 x00 x00 x71 x00)
(T (W x05 x00 x4b x00 x85 x00 x00 x00)
(L (W x00 x00 x00 x00 x00 x00 x00 x00)) E)
(T (W x00 x00 x00 x00 x01 x00 x10 x8c)
(L (W x01 x00 x03 x00 x02 x03 x04 x04)) E)))))))))))
(T (W x00 x00 x00 x00 x00 x00 x00 x00)
(T (W x00 x00 x00 x00 x00 x00 x00 x00)
(T (W x1e x00 x00 x00 x00 x00 x2d x00)
(T (W x2d x03 x00 x06 x00 x00 x00 x00)
(T (W x00 x00 x00 x00 x00 x00 x00 x00)
(T (W x05 x05 x05 x06 x06 x02 x02 x05)
(T (W x00 x00 x00 x00 x00 x00 x00 x00)
(T (W x00 x00 x00 x00 x00 x00 x00 x00)
(T (W x38 x00 xb0 x9f xc6 x00 x00 x0a)
(T (W x00 x00 x00 x00 x7a x4c x11 x4c)
(T (W x00 x00 x00 x00 x00 x00 x00 x00)
(L (W x00 x00 x9d x00 x00 x00 xbc x01))
(L (W x00 x08 xea x97 xc4 x10 x04 x00)))
(T (W x01 x00 x02 x00 x01 x02 x03 x03)
(L (W x2d x02 x00 x02 x00 x00 x00 x00)) E))
(T (W x04 x00 x00 x00 x17 x01 x00 x00)
(T (W x1e x00 x00 x00 x00 x00 x3c x00)
(L (W x00 x10 x00 x00 x00 x00 xb0 x00)) E)
(T (W x01 x01 x01 x01 x01 x01 x01 x01)
(L (W x16 x00 x16 x00 x16 x00 x00 x04)) E)))
(T (W x05 x05 x04 x04 x05 x02 x02 x04)
(T (W x00 x00 x00 x00 x00 x00 x00 x00)
(T (W x00 x00 x00 x00 x00 x00 x00 x00)
(L (W x02 x00 x00 x00 x69 x03 x00 x00))
(L (W x01 x01 x01 x01 x01 x01 x01 x01)))
(T (W x00 x40 xef xc3 x82 x10 x01 x30)
(L (W x01 x00 x00 x00 x00 x00 x00 x00)) E))
(T (W x00 x00 x00 x00 x00 x00 x00 x00)
(T (W x00 x00 x00 x00 x00 x00 x00 x00)
(L (W x00 x00 x00 x00 x73 x01 x00 x00)) E)
(T (W x00 x00 x00 x00 x62 x01 x10 xcd)
(L (W x00 x00 x00 x00 x00 x00 x00 x00)) E))))
(T (W x00 x00 x00 x00 x00 x00 x00 x00)
(T (W x00 x00 x00 x00 x00 x00 x00 x00)
(T (W x01 x00 x00 x00 x00 x00 x00 x00)
(T (W x01 x01 x01 x01 x01 x01 x01 x01)
(L (W xc2 x00 xc2 x00 xc2 x00 x00 x00))
(L (W x00 x00 x00 x00 x7e x01 x00 x00)))
(T (W x00 x00 x00 x00 x00 x00 x00 x00)
(L (W x00 x00 x00 x00 x00 x00 x00 x00)) E))
(T (W x03 x00 x03 x00 x02 x03 x04 x04)
(T (W x00 x00 x5e x00 x00 x00 x00 x00)
(L (W x3b x43 xa6 x87 x80 x8c x00 x94)) E)
(T (W x41 x02 x08 x00 x00 x00 xdb x00)
(L (W x00 x00 x00 x00 x00 x00 x00 x00)) E)))
(T (W xff x01 x01 x00 x00 x00 x00 x00)
(T (W x42 x00 x42 x00 x03 x00 x00 x00)
(T (W x00 x00 x00 x00 x00 x08 x10 x0c)
(L (W x02 x00 x03 x00 x03 x03 x03 x03))
(L (W xff x03 x03 x00 x00 x00 x00 x00)))
(T (W x00 x00 x00 x00 x1a x01 x00 x00)
(L (W x00 x00 x00 x00 x00 x00 x00 x00)) E))
(T (W x00 x00 x22 x8b x9a x21 xa0 x00)
(T (W x00 x00 x00 x00 x17 x02 x00 x00)
(L (W x05 x05 x02 x03 x04 x02 x02 x02)) E)
(T (W x0a x00 x00 x00 x00 x00 x00 x00)
(L (W x00 x00 x00 x00 x00 x00 x00 x00)) E)))))
(T (W x96 x02 x02 x00 x00 x00 x51 x00)
(T (W x00 x00 x00 x00 x06 x90 x30 x8d)
(T (W x00 x00 x2d x00 x00 x00 x9b x00)
(T (W x00 x80 x00 x00 x00 x00 x4e x00)
(T (W x4c x00 x4c x00 x4c x00 xcc x03)
(L (W x00 x00 x00 x00 x55 x01 x00 x00))
(L (W x00 x00 x00 x00 x00 x00 x00 x00)))
(T (W x00 x00 x00 x00 x01 x10 x50 x0c)
(L (W x00 x00 x00 x00 x00 x00 x00 x00)) E))
(T (W x78 x02 x80 x00 x00 x00 x00 x00)
(T (W x3b x03 xe0 x8b xc6 x1e x01 x0a)
(L (W x1e x00 x00 x00 x00 x00 x32 x00)) E)
(T (W x00 x00 x00 x00 xf3 x02 x00 x00)
(L (W x01 x01 x01 x01 x01 x01 x01 x01)) E)))
(T (W x0f x00 x00 x00 x97 x00 x00 x00)
(T (W x00 x00 x00 x00 x00 x00 x00 x00)
(T (W x00 x00 x00 x00 x00 x00 x00 x00)
(L (W x2d x03 x40 x00 x00 x00 x00 x00))
(L (W x00 x00 x00 x00 x9d x03 x00 x00)))
(T (W x00 x00 x0a x02 x00 x00 x0a x02)
(L (W x00 x40 xa6 x03 xc6 x03 x00 x00)) E))
(T (W x1e x00 x00 x00 x00 x00 x32 x00)
(T (W x01 x01 x01 x01 x01 x01 x01 x01)
(L (W x08 x01 x08 x01 x08 x01 x00 x00)) E)
(T (W x10 x28 x00 x00 x00 x00 x22 x00)
(L (W x00 x00 x00 x00 x00 x00 x00 x00)) E))))
(T (W x1e x00 x00 x00 x00 x00 x32 x00)
(T (W x16 x00 x53 x00 x7d x00 x00 x00)
(T (W x00 x83 x66 x8f x8b x00 x2b x00)
(T (W x00 x00 x00 x00 x97 x01 x00 x00)
(L (W x01 x01 x01 x01 x01 x01 x01 x01))
(L (W x00 x00 x00 x00 x00 x00 x00 x00)))
(T (W x1e x00 x00 x00 x00 x00 x32 x00)
(L (W x00 x00 x00 x00 x00 x00 x00 x00)) E))
(T (W x00 x00 x00 x00 x00 x00 x00 x00)
(T (W x00 x00 x00 x00 x00 x00 x00 x00)
(L (W x00 x00 xb5 x00 x00 x00 x0a x02)) E)
(T (W x02 x00 x03 x00 x03 x03 x04 x04)
(L (W x00 x00 x00 x00 x00 x00 x00 x00)) E)))
(T (W x02 x00 x02 x00 x02 x02 x07 x07)
(T (W x01 x01 x01 x01 x01 x01 x01 x01)
(T (W x40 x80 x00 x00 x52 x00 x00 x00)
(L (W x00 x00 x00 x00 x00 x18 x14 x2e)) E)
(T (W x9a x00 x9a x00 x9a x00 x00 x00)
(L (W x01 x00 x01 x00 x70 x01 x01 x00)) E))
(T (W x00 x00 xe3 x00 x00 x00 x44 x00)
(T (W x4b x02 x80 x00 x00 x00 x21 x02)
(L (W x00 x00 x00 x00 x35 x00 x00 x00)) E)
(T (W x00 x00 x00 x00 x00 x00 x00 x00)
(L (W x01 x00 x00 x00 x00 x00 x00 x00)) E))))))
(T (W x01 x00 x00 x00 x00 x00 x00 x00)
(T (W x00 x80 xa0 xa3 xa6 x02 x00 x00)
(T (W x02 x00 x01 x00 xb6 x00 x00 x00)
(T (W x3c x02 x08 x00 x00 x00 x00 x00)
(T (W x00 x00 x00 x00 x00 x00 x00 x00)
(T (W x00 x00 x00 x00 x62 x07 x12 x0c)
(L (W x02 x00 x03 x00 x02 x03 x04 x04))
(L (W x03 x03 x03 x00 x00 x00 x00 x00)))
(T (W x00 x00 x00 x00 x00 x00 x00 x00)
(L (W x00 x00 x00 x00 x00 x00 x00 x00)) E))
(T (W x00 x00 x00 x00 x00 x00 x00 x00)
(T (W x00 x00 x00 x00 xd7 x01 x00 x00)
(L (W x05 x05 x03 x03 x03 x02 x02 x03)) E)
(T (W x01 x00 x00 x00 x00 x00 x00 x00)
(L (W x00 x00 x00 x00 x00 x00 x00 x00)) E)))
(T (W x0a x00 x00 x00 x00 x00 x28 x00)
(T (W x02 x00 x02 x00 x02 x02 x04 x04)
(T (W x00 x00 x00 x00 x00 x00 x00 x00)
(L (W x40 x0b x70 x13 x80 x00 x00 x00))
(L (W x1e x00 x00 x00 x00 x00 x32 x00)))
(T (W x3c x02 x08 x00 x00 x00 x00 x00)
(L (W x00 x00 x00 x00 xa6 x01 x00 x00)) E))
(T (W x01 x01 x01 x01 x01 x01 x01 x01)
(T (W x00 x04 x00 x00 x00 x00 x00 x00)
(L (W x40 x00 x00 x00 x04 x10 x50 x0c)) E)
(T (W x9d x00 x5d x00 xb7 x00 x00 x00)
(L (W x00 x00 x00 x00 x00 x00 x00 x00)) E))))
(T (W x01 x01 x01 x01 x01 x01 x01 x01)
(T (W x00 x00 x00 x00 x02 x4b x10 x6e)
(T (W x00 x00 x00 x00 xd7 x00 x00 x00)
(T (W x01 x00 x00 x00 x00 x00 x00 x00)
(L (W x01 x00 x00 x00 x00 x00 x00 x00))
(L (W xc1 x00 x00 x00 x35 x01 x38 x0d)))
(T (W x05 x05 x02 x02 x03 x02 x02 x02)
(L (W x00 x00 x00 x00 x00 x00 x00 x00)) E))
(T (W x00 x00 x00 x00 x00 x00 x00 x00)
(T (W x00 x00 x00 x00 x00 x00 x00 x00)
(L (W x5a x02 x20 x00 x00 x00 x00 x00)) E)
(T (W x00 x00 x0e x00 x00 x00 x4c x01)
(L (W x00 x00 x00 x00 x00 x00 x00 x00)) E)))
(T (W x00 x00 x00 x00 x00 x00 x00 x00)
(T (W x00 x00 x00 x00 x00 x00 x00 x00)
(T (W x50 x00 x27 x00 x9a x00 x00 x00)
(L (W x00 x00 x00 x00 x19 x00 x00 x00)) E)
(T (W x40 x00 x00 x00 x02 x20 x10 x0d)
(L (W x00 x00 x00 x00 x00 x00 x00 x00)) E))
(T (W xbe x01 x00 x04 x00 x00 xf7 x00)
(T (W x00 x00 x00 x00 x00 x00 x00 x00)
(L (W x1e x00 x00 x00 x00 x00 x28 x00)) E)
(T (W x00 x00 x00 x00 x4e x03 x00 x00)
(L (W x01 x01 x01 x01 x01 x01 x01 x01)) E)))))
(T (W x00 x00 x32 x00 x00 x00 x30 x01)
(T (W x1c x00 x27 x00 x62 x00 x00 x00)
(T (W x02 x00 x03 x00 x02 x03 x05 x05)
(T (W x01 x01 x01 x01 x01 x01 x01 x01)
(T (W x00 x00 x00 x00 x00 x00 x00 x00)
(L (W x00 x00 x00 x00 x00 x00 x10 x0c))
(L (W x02 x00 x02 x00 x01 x02 x05 x05)))
(T (W x77 x00 xac x00 x17 x00 x00 x00)
(L (W x00 x00 x00 x00 x00 x00 x00 x00)) E))
(T (W x00 x00 x00 x00 x00 x00 x00 x00)
(T (W x03 x03 x00 x03 x00 x00 x00 x00)
(L (W x00 x00 x00 x00 xcd x03 x00 x00)) E)
(T (W x00 x00 x00 x00 x00 x00 x00 x00)
(L (W x01 x00 x00 x00 x00 x00 x00 x00)) E)))
(T (W x00 x00 x00 x00 x00 x00 x00 x00)
(T (W x00 x00 x00 x00 x04 x8f x10 x0c)
(T (W x00 x00 x00 x00 x76 x00 x00 x00)
(L (W x00 x00 x97 x00 x00 x00 xae x01))
(L (W x00 x0f x2a xb3 x80 x92 x00 x88)))
(T (W x02 x00 x03 x00 x02 x03 x04 x04)
(L (W x00 x00 x00 x00 x00 x00 x00 x00)) E))
(T (W x00 x00 x00 x00 x57 x01 x00 x00)
(T (W x1e x00 x00 x00 x00 x00 x28 x00)
(L (W x08 x00 x00 x00 x55 x00 x00 x00)) E)
(T (W x05 x05 x02 x03 x03 x02 x02 x02)
(L (W x00 x00 x00 x00 x00 x00 x00 x00)) E))))
(T (W x00 x00 x00 x00 x00 x00 x00 x00)
(T (W x00 x00 x00 x00 x00 x00 x4a x00)
(T (W x19 x02 x20 x00 x00 x00 xe9 x00)
(T (W x00 x00 x00 x00 x00 x00 x00 x00)
(L (W x0a x00 x00 x00 x00 x00 x28 x00))
(L (W x00 x00 x00 x00 x00 x00 x00 x00)))
(T (W x00 x00 x00 x00 x57 x02 x00 x00)
(L (W x01 x01 x01 x01 x01 x01 x01 x01)) E))
(T (W x29 x00 x0c x00 x2e x00 x00 x00)
(T (W x00 x00 x00 x00 x00 x01 x30 x0c)
(L (W x03 x00 x03 x00 x03 x03 x04 x04)) E)
(T (W x00 x00 x00 x00 x00 x00 x00 x00)
(L (W x00 x00 x00 x00 x00 x00 x00 x00)) E)))
(T (W x00 x00 x00 x00 x00 x00 x00 x00)
(T (W x1e x00 x00 x00 x00 x00 x28 x00)
(T (W x05 x05 x03 x03 x04 x02 x02 x03)
(L (W xda x00 x50 x00 xab x00 x00 x00)) E)
(T (W x00 x00 x00 x00 x00 x00 x00 x00)
(L (W x00 x00 x00 x00 x00 x00 x00 x00)) E))
(T (W x00 x00 x00 x00 x00 x00 x00 x00)
(T (W x00 x00 xa9 x02 x00 x00 x59 x00)
(L (W x04 xc0 x2a x8b x9e x71 xa0 x00)) E)
(T (W x00 x00 x00 x00 x00 x00 x00 x00)
(L (W x00 x00 x00 x00 x00 x00 x00 x00)) E)))))))
(T (W x00 x00 xf8 x01 x00 x00 x91 x01)
(T (W x00 x00 x00 x00 x00 x00 x00 x00)
(T (W x00 x00 x00 x00 x12 x13 x30 xcc)
(T (W x01 x00 x00 x00 x00 x00 x00 x00)
(T (W x00 x00 x00 x00 x00 x00 x00 x00)
(T (W x00 x00 x00 x00 x00 x00 x00 x00)
(T (W x00 x00 x00 x00 x77 x01 x00 x00)
(L (W x05 x05 x03 x03 x03 x02 x02 x03))
(L (W x35 x00 x77 x00 x0f x00 x5f x04)))
(T (W x1e x00 x00 x00 x00 x00 x37 x00)
(L (W x80 x00 x02 x00 x00 x00 x00 x00)) E))
(T (W x00 x00 x00 x00 x02 x09 x10 x4e)
(T (W x00 x00 x00 x00 x03 x01 x00 x00)
(L (W x00 x00 x36 x01 x00 x00 x36 x01)) E)
(T (W x00 x00 x00 x00 x00 x00 x00 x00)
(L (W x03 x03 x00 x03 x00 x00 x00 x00)) E)))
(T (W x03 x00 x01 x00 x03 x01 x03 x03)
(T (W x01 x01 x01 x01 x01 x01 x01 x01)
(T (W x10 x00 x00 x00 x00 x00 x00 x00)
(L (W x00 x00 x00 x00 x02 x24 x34 x0d))
(L (W x02 x00 x03 x00 x03 x03 x02 x02)))
(T (W x12 x00 x31 x00 x97 x00 x00 x00)
(L (W x00 x00 x00 x00 x00 x00 x00 x00)) E))
(T (W x00 x00 x0b x02 x00 x00 xa1 x02)
(T (W x00 x00 x00 x00 x00 x00 x00 x00)
(L (W x02 x00 x00 x00 xd2 x03 x00 x00)) E)
(T (W x6b x82 x60 xc3 x86 x0f x11 x8f)
(L (W x01 x00 x00 x00 x00 x00 x00 x00)) E))))
(T (W x00 x00 x60 x01 x00 x00 xe2 x01)
(T (W x00 x00 x00 x00 x77 x00 x00 x00)
(T (W x00 x00 x00 x00 x00 x00 x00 x00)
(T (W x00 x00 x00 x00 x00 x00 x00 x00)
(L (W x3c x02 x00 x08 x00 x00 x00 x00))
(L (W x02 x00 x00 x00 x5e x03 x00 x00)))
(T (W x00 x00 x3b x00 x00 x00 xc4 x00)
(L (W x00 x00 x00 x00 x00 x00 x00 x00)) E))
(T (W x1e x00 x00 x00 x00 x00 x3c x00)
(T (W x01 x01 x01 x01 x01 x01 x01 x01)
(L (W x85 x00 x85 x00 xfd x00 x00 x00)) E)
(T (W x00 x04 x00 x00 x00 x00 x00 x00)
(L (W x00 x00 x00 x00 x00 x00 x00 x00)) E)))
(T (W x00 x00 x00 x00 x00 x00 x00 x00)
(T (W x2d x02 x08 x00 x00 x00 x00 x00)
(T (W x00 x83 x60 x87 x97 x09 x23 x08)
(L (W x1e x00 x00 x00 x00 x00 x32 x00))
(L (W x10 x80 x00 x00 xd3 x00 x00 x00)))
(T (W x00 x00 x00 x00 x77 x02 x00 x00)
(L (W x01 x01 x01 x01 x01 x01 x01 x01)) E))
(T (W x00 x00 x00 x00 x00 x00 x00 x00)
(T (W x00 x00 x00 x00 x82 x24 x30 x0c)
(L (W x01 x00 x03 x00 x03 x03 x03 x03)) E)
(T (W x00 x00 x00 x00 x00 x00 x00 x00)
(L (W x00 x00 x00 x00 x00 x00 x00 x00)) E)))))
(T (W x02 x00 x00 x00 x00 x00 x00 x00)
(T (W x13 x80 xa0 x8b x9a x2a x20 x08)
(T (W x05 x05 x04 x04 x05 x02 x02 x04)
(T (W x00 x00 x00 x00 x00 x00 x00 x00)
(T (W x00 x00 x00 x00 x00 x00 x00 x00)
(L (W x00 x00 x00 x00 x54 x03 x00 x00))
(L (W x05 x05 x03 x03 x04 x02 x02 x03)))
(T (W x00 xc3 xaa xa3 x86 x83 x44 x09)
(L (W x01 x00 x00 x00 x00 x00 x00 x00)) E))
(T (W x00 x00 x00 x00 x94 x00 x00 x00)
(T (W x1a x00 x1a x00 x1a x00 x00 x00)
(L (W x00 x00 x00 x00 x5f x01 x00 x00)) E)
(T (W x00 x00 x00 x00 x00 x00 x00 x00)
(L (W x00 x00 x00 x00 x00 x00 x00 x00)) E)))
(T (W x00 x00 x00 x00 x00 x00 x00 x00)
(T (W x00 x00 x00 x00 xf7 x00 x00 x00)
(T (W x01 x00 x00 x00 x00 x00 x00 x00)
(L (W x00 x10 x01 x00 x00 x00 x00 x00))
(L (W x00 x00 x00 x00 x00 x48 x18 x4e)))
(T (W x05 x05 x03 x03 x04 x02 x02 x03)
(L (W x00 x00 x00 x00 x00 x00 x00 x00)) E))
(T (W x00 x00 x00 x00 xe5 x00 x00 x00)
(T (W x02 x00 x03 x00 x03 x03 x03 x03)
(L (W x00 x00 x00 x00 x00 x00 x00 x00)) E)
(T (W x00 x00 xa7 x01 x00 x00 xc4 x00)
(L (W x00 x00 x00 x00 x00 x00 x00 x00)) E))))
(T (W x00 x00 x00 x00 x00 x00 x00 x00)
(T (W x2d x02 x02 x00 xf3 x00 xf3 x00)
(T (W x15 x00 x61 x00 x8d x00 x00 x00)
(T (W x00 x00 x00 x00 x00 x00 x00 x00)
(L (W x01 x00 x03 x00 x03 x03 x04 x04))
(L (W x00 x00 x00 x00 x00 x00 x00 x00)))
(T (W x00 x00 x00 x00 x41 x00 x00 x00)
(L (W x00 x00 x90 x01 x00 x00 x90 x01)) E))
(T (W x00 x00 x00 x00 x00 x00 x00 x00)
(T (W x00 x00 x00 x00 x00 x00 x00 x00)
(L (W x05 x05 x04 x04 x05 x02 x02 x04)) E)
(T (W x1e x00 x00 x00 x00 x00 x2d x00)
(L (W x00 x00 x00 x00 x00 x00 x00 x00)) E)))
(T (W x1e x00 x00 x00 x00 x00 x28 x00)
(T (W x02 x00 x03 x00 x02 x03 x05 x04)
(T (W x00 x00 x00 x00 x00 x00 x00 x00)
(L (W x00 x0c x22 xb3 x84 x02 x04 x00)) E)
(T (W x03 x03 x00 x03 x00 x00 x00 x00)
(L (W x00 x00 x00 x00 x00 x00 x00 x00)) E))
(T (W x05 x05 x05 x05 x06 x02 x02 x05)
(T (W x10 x00 x00 x00 xca x00 x00 x00)
(L (W x00 x00 x00 x00 x00 x00 x00 x00)) E)
(T (W x44 x00 x44 x00 x44 x00 x00 x00)
(L (W x00 x00 x00 x00 x00 x00 x00 x00)) E))))))
(T (W x00 x00 x00 x00 x00 x00 x00 x00)
(T (W x26 x00 x4f x00 x37 x00 x00 x00)
(T (W x04 x00 x00 x00 x37 x00 x00 x00)
(T (W x00 x00 x00 x00 x00 x00 x00 x00)
(T (W x5a x02 x02 x00 x00 x00 x00 x00)
(T (W x40 x4b x2e xcb x97 x23 x00 x00)
(L (W x1e x00 x00 x00 x00 x00 x37 x00))
(L (W x00 x49 x00 x00 x00 x00 x00 x00)))
(T (W x00 x00 x00 x00 x37 x02 x00 x00)
(L (W x01 x01 x01 x01 x01 x01 x01 x01)) E))
(T (W x00 x00 x00 x00 x00 x00 x00 x00)
(T (W x00 x00 x00 x00 x60 x1b x18 x8e)
(L (W x02 x00 x03 x00 x03 x03 x04 x04)) E)
(T (W x00 x00 x00 x00 x31 x00 x00 x00)
(L (W x00 x00 x00 x00 x00 x00 x00 x00)) E)))
(T (W x00 x00 x00 x00 x00 x00 x00 x00)
(T (W x1e x00 x00 x00 x00 x00 x3c x00)
(T (W x05 x05 x02 x03 x03 x02 x02 x02)
(L (W xe8 x00 xe8 x00 xe8 x00 x8e x04))
(L (W x00 x00 x00 x00 x4f x01 x00 x00)))
(T (W x00 x00 x00 x00 x00 x00 x79 x00)
(L (W x00 x00 x00 x00 x00 x03 x10 x0c)) E))
(T (W x01 x00 x02 x00 x01 x02 x05 x05)
(T (W x00 x00 xcf x00 x00 x00 x93 x01)
(L (W x03 x9f xe0 x17 x84 x0d x25 x8f)) E)
(T (W x4b x02 x10 x00 x00 x00 x00 x00)
(L (W x00 x00 x00 x00 x00 x00 x00 x00)) E))))
(T (W x02 x00 x02 x00 x03 x02 x03 x03)
(T (W x3b x43 xa3 x83 x82 x0b x00 x08)
(T (W x00 x00 x00 x00 x00 x00 x00 x00)
(T (W x00 x00 x00 x00 x00 x00 x00 x00)
(L (W x00 x00 x35 x00 x00 x00 x08 x03))
(L (W x00 x43 x70 x4f x8f x11 x00 x03)))
(T (W x02 x00 x01 x00 x01 x02 x06 x06)
(L (W x00 x00 x00 x00 x00 x00 x00 x00)) E))
(T (W x00 x00 x00 x00 x00 x00 x00 x00)
(T (W x01 x00 x00 x00 x00 x00 x00 x00)
(L (W x00 x00 x02 x00 x00 x00 x00 x00)) E)
(T (W x05 x05 x02 x03 x04 x02 x02 x02)
(L (W x00 x00 x00 x00 x00 x00 x00 x00)) E)))
(T (W x05 x05 x03 x04 x04 x02 x02 x03)
(T (W x00 x00 xa3 x00 x00 x00 xa3 x00)
(T (W x78 x01 x10 x00 x00 x00 xf5 x00)
(L (W x08 x00 x00 x00 x98 x03 x00 x00)) E)
(T (W x40 x2b x2b x93 xc4 x00 x00 x01)
(L (W x1e x00 x00 x00 x00 x00 x28 x00)) E))
(T (W x00 x00 x00 x00 x00 x00 x00 x00)
(T (W x26 x00 x44 x00 x03 x00 x00 x00)
(L (W x00 x00 x01 x00 xa5 x00 x01 x00)) E)
(T (W x24 x00 x00 x00 x78 x08 x13 xcc)
(L (W x00 x00 x00 x00 x00 x00 x00 x00)) E)))))
(T (W x05 x05 x03 x03 x04 x02 x02 x03)
(T (W x5a x02 x08 x00 x00 x00 xe6 x00)
(T (W x1e x00 x00 x00 x00 x00 x3c x00)
(T (W x02 x00 x02 x00 x02 x02 x06 x06)
(T (W x00 x00 x00 x00 x00 x00 x00 x00)
(L (W x03 x03 x6e x83 x86 x18 x00 x0a))
(L (W x1e x00 x00 x00 x00 x00 x28 x00)))
(T (W x32 x03 x00 x03 x00 x00 x00 x00)
(L (W x00 x00 x00 x00 x00 x00 x00 x00)) E))
(T (W x01 x01 x01 x01 x01 x01 x01 x01)
(T (W x02 x01 x01 x00 x00 x00 x00 x00)
(L (W x00 x00 x00 x00 x01 x08 x10 x2e)) E)
(T (W x00 x00 x00 x00 x00 x00 x00 x00)
(L (W x00 x00 x00 x00 x00 x00 x00 x00)) E)))
(T (W x00 x00 x00 x00 x00 x00 x00 x00)
(T (W x23 x9c x69 x93 x84 x09 x05 x8c)
(T (W x00 x00 x00 x00 xb7 x01 x00 x00)
(L (W x05 x05 x03 x04 x04 x02 x02 x03))
(L (W x02 x01 x02 x01 x02 x01 xa0 x04)))
(T (W x1e x00 x00 x00 x00 x00 x32 x00)
(L (W x00 x00 x00 x00 x00 x00 x00 x00)) E))
(T (W x00 x00 x00 x00 x03 x04 x52 x0c)
(T (W x00 x00 x00 x00 xab x00 x00 x00)
(L (W x00 x00 x56 x00 x00 x00 x58 x01)) E)
(T (W x03 x00 x00 x00 x00 x00 x00 x00)
(L (W x00 x00 x00 x00 x00 x00 x00 x00)) E))))
(T (W x00 x00 x00 x00 x78 x00 x18 x0c)
(T (W x00 x00 xb4 x01 x00 x00 x8a x01)
(T (W x00 x00 x00 x00 x00 x00 x00 x00)
(T (W x2e x00 x2e x00 x7f x00 x00 x00)
(L (W x00 x00 x00 x00 x00 x00 x00 x00))
(L (W x00 x00 x00 x00 x00 x00 x00 x00)))
(T (W x00 x00 x00 x00 x00 x00 x00 x00)
(L (W x00 x00 x00 x00 x00 x00 x00 x00)) E))
(T (W x00 x00 x00 x00 x00 x00 x00 x00)
(T (W x04 x40 xa1 xa3 x86 x81 x00 x07)
(L (W x1e x00 x00 x00 x00 x00 x2d x00)) E)
(T (W x00 x00 x00 x00 xdc x02 x00 x00)
(L (W x01 x01 x01 x01 x01 x01 x01 x01)) E)))
(T (W x00 x00 x00 x00 xb7 x00 x00 x00)
(T (W x00 x00 x00 x00 x00 x00 x00 x00)
(T (W x02 x00 x01 x00 x02 x01 x04 x04)
(L (W xff x01 x01 x00 x00 x00 x00 x00)) E)
(T (W x00 x00 x00 x00 x00 x00 x00 x00)
(L (W x00 xc0 x61 x83 x83 x04 x31 x02)) E))
(T (W x1e x00 x00 x00 x00 x00 x3c x00)
(T (W x05 x05 x03 x03 x03 x02 x02 x03)
(L (W x50 x00 x50 x00 x71 x00 xa0 x03)) E)
(T (W x00 x00 x00 x00 x00 x00 x00 x00)
(L (W x00 x00 x00 x00 x00 x09 x10 x8e)) E))))))))
(T (W x00 x00 x00 x00 x7a x01 x00 x00)
(T (W x00 x00 x00 x00 x07 x00 x00 x00)
(T (W x00 x00 x00 x00 x00 x00 x00 x00)
(T (W x00 x00 x00 x00 x00 x00 x00 x00)
(T (W x00 x00 x00 x00 x00 x00 x00 x00)
(T (W x01 x00 x01 x00 x02 x01 x02 x02)
(T (W x01 x01 x01 x01 x01 x01 x01 x01)
(T (W x00 x02 x00 x00 x00 x00 x73 x00)
(L (W x00 x00 x00 x00 x38 x04 x11 x8c))
(L (W x01 x00 x03 x00 x02 x03 x02 x02)))
(T (W x3d x00 x99 x00 x16 x00 x00 x00)
(L (W x00 x00 x00 x00 x00 x00 x00 x00)) E))
(T (W x00 x00 x5d x00 x00 x00 x5e x00)
(T (W x1e x03 x00 x03 x00 x00 x43 x01)
(L (W x08 x00 x00 x00 xa7 x03 x00 x00)) E)
(T (W x00 x00 x00 x00 x00 x00 x00 x00)
(L (W x1e x00 x00 x00 x00 x00 x28 x00)) E)))
(T (W x02 x83 xe1 x9b x9b x28 xe1 x00)
(T (W x00 x00 x00 x00 x00 x00 x00 x00)
(T (W x00 x00 x00 x00 x80 x00 x00 x00)
(L (W x00 x00 xca x02 x00 x00 xca x02))
(L (W x00 x43 xab xb3 xe0 x00 x00 x8a)))
(T (W x03 x00 x03 x00 x03 x03 x04 x03)
(L (W x00 x00 x00 x00 x00 x00 x00 x00)) E))
(T (W x00 x00 x00 x00 x00 x00 x00 x00)
(T (W x01 x00 x00 x00 x00 x00 x00 x00)
(L (W x00 x00 x00 x00 x00 x00 x6e x00)) E)
(T (W x05 x05 x05 x05 x06 x02 x02 x05)
(L (W x00 x00 x00 x00 x00 x00 x00 x00)) E))))
(T (W x00 x00 x00 x00 x00 x00 x00 x00)
(T (W x04 x40 x00 x00 xc7 x00 x00 x00)
(T (W x2d x01 x04 x00 x00 x00 xf5 x00)
(T (W x00 x00 x00 x00 x00 x00 x00 x00)
(L (W x1e x00 x00 x00 x00 x00 x3c x00))
(L (W x01 x00 x00 x00 x00 x00 x00 x00)))
(T (W x00 x00 x00 x00 x47 x02 x00 x00)
(L (W x01 x01 x01 x01 x01 x01 x01 x01)) E))
(T (W x05 x00 x45 x00 x86 x00 x00 x00)
(T (W x00 x00 x00 x00 x00 x00 x00 x00)
(L (W x02 x00 x02 x00 x03 x02 x04 x04)) E)
(T (W x00 x00 x00 x00 x00 x00 x00 x00)
(L (W x00 x00 x00 x00 x00 x00 x00 x00)) E)))
(T (W x00 x00 x00 x00 x14 x00 x00 x00)
(T (W x1e x00 x00 x00 x00 x00 x37 x00)
(T (W x05 x05 x03 x03 x04 x02 x02 x03)
(L (W x43 x00 x43 x00 x61 x00 x00 x00))
(L (W x00 x00 x00 x00 x00 x00 x00 x00)))
(T (W x00 x82 x00 x00 xb5 x00 x00 x00)
(L (W x00 x00 x00 x00 x00 x00 x00 x00)) E))
(T (W x02 x00 x02 x00 x01 x02 x03 x03)
(T (W x00 x00 x3d x00 x00 x00 x4a x01)
(L (W x27 xc0 xa6 xa3 x82 x0b x00 x08)) E)
(T (W x2d x02 x02 x00 x00 x00 x00 x00)
(L (W x00 x00 x00 x00 x00 x00 x00 x00)) E)))))
(T (W x00 x00 x00 x00 x00 x01 x00 x00)
(T (W x05 x05 x04 x05 x05 x02 x02 x04)
(T (W x00 x00 x00 x00 x82 x64 x30 x0c)
(T (W x04 x00 x00 x00 xc7 x00 x00 x00)
(T (W x1e x00 x00 x00 x00 x00 x4b x00)
(L (W x00 x48 x00 x00 x9f x00 x00 x00))
(L (W x00 x00 x00 x00 x00 x00 x00 x00)))
(T (W x05 x05 x03 x03 x04 x02 x02 x03)
(L (W x00 x00 x00 x00 x00 x00 x00 x00)) E))
(T (W x00 x00 x00 x00 x6a x00 x00 x00)
(T (W x03 x00 x03 x00 x03 x03 x03 x03)
(L (W x4b x02 x08 x00 x00 x00 x00 x00)) E)
(T (W x00 x00 x00 x00 x00 x00 x00 x00)
(L (W x00 x00 x00 x00 x00 x00 x00 x00)) E)))
(T (W x00 x00 x00 x00 x00 x00 x00 x00)
(T (W x00 x00 x00 x00 x00 x00 x00 x00)
(T (W x00 x00 x00 x00 x00 x00 x00 x00)
(L (W x00 x00 x00 x00 x00 x00 x00 x00))
(L (W x00 x00 x97 x00 x00 x00 x5d x02)))
(T (W x00 x00 x00 x00 x10 x07 x50 x0c)
(L (W x03 x00 x00 x00 x00 x00 x00 x00)) E))
(T (W xbe x01 x01 x00 x00 x00 x00 x00)
(T (W x00 x00 x60 x83 x81 x00 x43 x00)
(L (W x0a x00 x00 x00 x00 x00 x00 x00)) E)
(T (W x00 x00 x00 x00 xe0 x02 x00 x00)
(L (W x01 x01 x01 x01 x01 x01 x01 x01)) E))))
(T (W x2d x02 x04 x00 x00 x00 x03 x01)
(T (W x1e x00 x00 x00 x00 x00 x64 x00)
(T (W x01 x00 x02 x00 x01 x02 x04 x03)
(T (W x00 x00 x00 x00 x00 x00 x00 x00)
(L (W x00 x1b xe0 x13 x96 x0a x80 x06))
(L (W x01 x00 x00 x00 x00 x00 x00 x00)))
(T (W xbe x01 x40 x00 x00 x00 x00 x00)
(L (W x00 x00 x00 x00 x07 x01 x00 x00)) E))
(T (W x05 x05 x03 x03 x03 x02 x02 x03)
(T (W x00 x00 x00 x00 x00 x00 x00 x00)
(L (W x00 x00 x00 x00 x02 x04 x10 x0c)) E)
(T (W xb5 x00 x61 x00 x7c x00 x00 x00)
(L (W x00 x00 x00 x00 x00 x00 x00 x00)) E)))
(T (W x37 x00 x20 x00 x69 x00 x00 x00)
(T (W x00 x00 x00 x00 x00 x00 x00 x00)
(T (W x00 x00 x00 x00 x00 x00 x00 x00)
(L (W x05 x05 x02 x03 x04 x02 x02 x02)) E)
(T (W x0a x00 x00 x00 x00 x00 x28 x00)
(L (W x02 x80 x00 x00 x00 x00 x68 x00)) E))
(T (W x00 x00 x00 x00 x62 x04 x90 x0c)
(T (W x00 x00 x00 x00 x00 x00 x00 x00)
(L (W x00 x00 x00 x00 x00 x00 x00 x00)) E)
(T (W x00 x00 x00 x00 x00 x00 x00 x00)
(L (W x00 x00 x00 x00 x00 x00 x00 x00)) E))))))
(T (W x00 x00 x00 x00 x00 x00 x00 x00)
(T (W x02 x00 x03 x00 x02 x03 x06 x06)
(T (W x00 x88 x00 x00 x00 x00 x00 x00)
(T (W x00 x00 x00 x00 x00 x00 x00 x00)
(T (W x01 x00 x00 x00 x00 x00 x00 x00)
(T (W x05 x05 x05 x05 x05 x02 x02 x02)
(L (W xc7 x00 xc7 x00 x0b x00 x00 x00))
(L (W x00 x00 x00 x00 x00 x00 x00 x00)))
(T (W x00 x10 x00 x00 x00 x00 x94 x00)
(L (W x00 x00 x00 x00 x7e x8c x5a x8e)) E))
(T (W x00 x00 x00 x00 x00 x00 x00 x00)
(T (W x00 x00 x00 x00 x00 x00 x00 x00)
(L (W x40 x03 xa0 xcb x92 x60 x00 x04)) E)
(T (W xff x01 x40 x00 x00 x00 x00 x00)
(L (W x00 x00 x00 x00 x89 x02 x00 x00)) E)))
(T (W x2d x01 x04 x00 x00 x00 xeb x00)
(T (W x31 x00 x31 x00 x48 x00 x00 x00)
(T (W x00 x00 x00 x00 x02 x2b x12 x2c)
(L (W x03 x00 x00 x00 x00 x00 x00 x00))
(L (W x2d x02 x00 x02 x00 x00 x00 x00)))
(T (W x00 x00 x00 x00 x46 x01 x00 x00)
(L (W x00 x00 x4a x01 x00 x00 x4a x01)) E))
(T (W x40 x08 xa8 xc3 x86 x01 x00 x10)
(T (W x00 x00 x00 x00 x07 x02 x00 x00)
(L (W x05 x05 x05 x05 x05 x02 x02 x02)) E)
(T (W x1e x00 x00 x00 x00 x00 x32 x00)
(L (W x00 x00 x00 x00 x00 x00 x00 x00)) E))))
(T (W x00 x38 x20 xa3 xc4 x01 x10 x00)
(T (W x05 x05 x03 x03 x04 x02 x02 x03)
(T (W x00 x00 x00 x00 x00 x00 x00 x00)
(T (W xeb x01 x04 x00 x00 x00 x00 x00)
(L (W x00 x00 x00 x00 x00 x00 x00 x00))
(L (W x05 x05 x04 x05 x05 x02 x02 x04)))
(T (W x00 x03 x21 x97 x82 x04 x00 x00)
(L (W x01 x00 x00 x00 x00 x00 x00 x00)) E))
(T (W x08 x00 x00 x00 x00 x00 x00 x00)
(T (W x00 x00 x00 x00 x00 x00 x00 x00)
(L (W x00 x00 x00 x00 xb9 x00 x00 x00)) E)
(T (W x00 x00 x00 x00 x00 x09 x10 x4c)
(L (W x00 x00 x00 x00 x00 x00 x00 x00)) E)))
(T (W x00 x00 x00 x00 x78 x13 x13 x0c)
(T (W x00 x00 x00 x00 x07 x01 x00 x00)
(T (W x1e x00 x00 x00 x00 x00 x28 x00)
(L (W x00 x02 x00 x00 x00 x00 xa3 x00)) E)
(T (W x05 x05 x04 x05 x05 x02 x02 x04)
(L (W x00 x00 x00 x00 x00 x00 x00 x00)) E))
(T (W x00 x00 x00 x00 x88 x00 x00 x00)
(T (W x00 x00 x00 x00 x00 x00 x00 x00)
(L (W xff x01 x40 x10 x00 x00 xed x00)) E)
(T (W x00 x00 x37 x00 x00 x00 x37 x00)
(L (W x00 x00 x00 x00 x00 x00 x00 x00)) E)))))
(T (W x00 x00 x00 x00 x00 x10 x54 x0c)
(T (W x1e x00 x00 x00 x00 x00 x32 x00)
(T (W x1f x00 x45 x00 x78 x00 x00 x00)
(T (W x00 x00 x00 x00 x00 x00 x00 x00)
(T (W x00 x00 x00 x00 x00 x00 x00 x00)
(L (W x05 x05 x04 x04 x05 x02 x02 x04))
(L (W xe1 x00 xe1 x00 xe1 x00 x6f x04)))
(T (W x1e x00 x00 x00 x00 x00 x32 x00)
(L (W x00 x00 x00 x00 x00 x00 x00 x00)) E))
(T (W x00 x00 x00 x00 x72 x00 x11 xcc)
(T (W x00 x00 x00 x00 x00 x00 x00 x00)
(L (W x00 x00 x17 x03 x00 x00 x17 x03)) E)
(T (W x00 x00 x00 x00 x00 x00 x00 x00)
(L (W x00 x00 x00 x00 x00 x00 x00 x00)) E)))
(T (W x00 x00 x00 x00 x00 x00 x00 x00)
(T (W x05 x05 x05 x06 x07 x02 x02 x05)
(T (W x00 x14 x01 x00 x00 x00 x58 x00)
(L (W x01 x00 x00 x00 x81 x20 x10 x0c))
(L (W x02 x00 x03 x00 x03 x03 x03 x03)))
(T (W x80 x00 x27 x00 x2e x00 x00 x00)
(L (W x00 x00 x00 x00 x00 x00 x00 x00)) E))
(T (W x00 x00 x3c x00 x00 x00 x5e x00)
(T (W xff x02 x02 x00 x9b x00 x9e x00)
(L (W x00 x00 x00 x00 x19 x00 x00 x00)) E)
(T (W x40 x03 xe0 x43 x86 x01 x00 x03)
(L (W x01 x00 x00 x00 x00 x00 x00 x00)) E))))
(T (W x00 x00 x00 x00 x00 x00 x00 x00)
(T (W x00 x00 x00 x00 x87 x00 x00 x00)
(T (W x00 x00 x00 x00 x00 x00 x00 x00)
(T (W x00 x00 x00 x00 x00 x00 x00 x00)
(L (W x03 x03 x0c x00 x00 x00 x00 x00))
(L (W x00 x00 x00 x00 x00 x00 x00 x00)))
(T (W x00 x00 xfc x01 x00 x00 x20 x02)
(L (W x00 x00 x00 x00 x00 x00 x00 x00)) E))
(T (W x1e x00 x00 x00 x00 x00 x32 x00)
(T (W x05 x05 x03 x03 x04 x02 x02 x03)
(L (W x0a x00 x37 x00 x92 x00 x00 x00)) E)
(T (W x05 x00 x00 x00 xc5 x00 x00 x00)
(L (W x00 x00 x00 x00 x00 x00 x00 x00)) E)))
(T (W x00 x00 x00 x00 x00 x00 x00 x00)
(T (W x2d x03 x0c x00 x00 x00 x0f x01)
(T (W x13 x83 xa5 x8b xbe x8d x08 x0e)
(L (W x1e x00 x00 x00 x00 x00 x2d x00)) E)
(T (W x04 x00 x00 x00 x87 x02 x00 x00)
(L (W x01 x01 x01 x01 x01 x01 x01 x01)) E))
(T (W x00 x00 x00 x00 x00 x00 x00 x00)
(T (W x00 x00 x00 x00 x04 xa0 x10 x4c)
(L (W x00 x00 x00 x00 x00 x00 x00 x00)) E)
(T (W x00 x00 x00 x00 x00 x00 x00 x00)
(L (W x00 x00 x00 x00 x00 x00 x00 x00)) E)))))))
(T (W x00 x00 x00 x00 x00 x00 x00 x00)
(T (W x00 x00 x00 x00 x00 x00 x00 x00)
(T (W x05 x05 x04 x04 x05 x02 x02 x04)
(T (W x32 x02 x80 x10 x00 x00 xed x00)
(T (W x01 x00 x00 x00 x00 x00 x00 x00)
(T (W x00 x00 x00 x00 x00 x00 x00 x00)
(T (W x00 x00 xac x01 x00 x00 x35 x01)
(L (W x02 x00 x60 x83 x81 x00 x03 x02))
(L (W x1e x00 x00 x00 x00 x00 x32 x00)))
(T (W x5a x02 x20 x00 x00 x00 xf7 x00)
(L (W x00 x00 x00 x00 x90 x00 x00 x00)) E))
(T (W x01 x01 x01 x01 x01 x01 x01 x01)
(T (W x00 x00 x00 x00 x00 x00 x00 x00)
(L (W x40 x00 x00 x00 x02 x04 x12 x0d)) E)
(T (W x00 x00 x00 x00 x00 x00 x00 x00)
(L (W x00 x00 x00 x00 x00 x00 x00 x00)) E)))
(T (W x2e x00 x2e x00 x51 x00 xa7 x03)
(T (W x03 x80 xe0 x83 x87 x0f x00 x00)
(T (W x00 x00 x00 x00 xa7 x01 x00 x00)
(L (W x05 x05 x05 x05 x05 x02 x02 x05))
(L (W xdc x00 xdc x00 xdc x00 x90 x04)))
(T (W x1e x00 x00 x00 x00 x00 x32 x00)
(L (W x00 x00 x00 x00 x00 x00 x00 x00)) E))
(T (W x40 x00 x00 x00 x06 xa4 x10 x8d)
(T (W x00 x00 x00 x00 x00 x00 x00 x00)
(L (W x00 x00 x00 x00 x00 x00 x00 x00)) E)
(T (W x03 x00 x01 x00 x03 x01 x03 x03)
(L (W x00 x00 x00 x00 x00 x00 x00 x00)) E))))
(T (W x00 x00 x00 x00 x00 x00 x00 x00)
(T (W x00 x00 x81 x00 x00 x00 x39 x00)
(T (W x00 x18 x01 x00 x00 x00 xaa x00)
(T (W x00 x00 x00 x00 x00 x00 x00 x00)
(L (W x00 x00 x00 x00 x7d x01 x00 x00))
(L (W x00 x00 xce x02 x00 x00 xce x02)))
(T (W x00 x00 x00 x00 x00 x00 x00 x00)
(L (W x00 x00 x00 x00 x00 x00 x00 x00)) E))
(T (W x00 x00 x00 x00 x00 x00 x00 x00)
(T (W x00 x00 x00 x00 x00 x00 x00 x00)
(L (W x1e x00 x00 x00 x00 x00 x32 x00)) E)
(T (W x00 x00 x00 x00 xe8 x02 x00 x00)
(L (W x01 x01 x01 x01 x01 x01 x01 x01)) E)))
(T (W x00 x00 x00 x00 x00 x00 x00 x00)
(T (W x00 x00 x00 x00 x00 x00 x00 x00)
(T (W x03 x00 x02 x00 x02 x02 x05 x05)
(L (W xff x01 x01 x00 x00 x00 x9b x00))
(L (W x01 x00 x00 x00 xda x03 x00 x00)))
(T (W x00 x00 x61 x00 x00 x00 x0c x00)
(L (W x00 x00 x00 x00 x00 x00 x00 x00)) E))
(T (W x01 x00 x00 x00 x00 x00 x00 x00)
(T (W x05 x05 x04 x04 x04 x02 x02 x04)
(L (W x51 x00 x51 x00 xca x00 x90 x03)) E)
(T (W x00 x00 x00 x00 x00 x00 x00 x00)
(L (W x00 x00 x00 x00 x00 x00 x00 x00)) E)))))
(T (W x00 x00 x00 x00 x27 x00 x00 x00)
(T (W x03 x00 x03 x00 x01 x03 x05 x05)
(T (W x00 x00 xb1 x83 xc6 x00 x00 x06)
(T (W x00 x00 x00 x00 x00 x00 x02 x40)
(T (W x00 x00 x00 x00 x00 x00 x00 x00)
(L (W x00 x00 x14 x00 x00 x00 x67 x01))
(L (W x00 x02 x60 x87 x81 x08 x41 x00)))
(T (W x01 x00 x02 x00 x01 x02 x05 x04)
(L (W x00 x00 x00 x00 x00 x00 x00 x00)) E))
(T (W x00 x00 x00 x00 x27 x01 x00 x00)
(T (W x0a x00 x00 x00 x00 x00 x28 x00)
(L (W x40 x08 x00 x00 x82 x00 x00 x00)) E)
(T (W x01 x01 x01 x01 x01 x01 x01 x01)
(L (W x00 x00 x00 x00 x00 x00 x00 x00)) E)))
(T (W x01 x01 x01 x01 x01 x01 x01 x01)
(T (W x00 x00 x59 x00 x00 x00 x59 x00)
(T (W x3c x02 x02 x00 x00 x00 x00 x00)
(L (W x00 x00 x00 x00 x78 x03 x00 x00))
(L (W x05 x05 x04 x04 x05 x02 x02 x04)))
(T (W x29 x83 x60 x87 x86 x04 x01 x0a)
(L (W x01 x00 x00 x00 x00 x00 x00 x00)) E))
(T (W x00 x00 x00 x00 x5b x00 x00 x00)
(T (W x6d x00 x67 x00 x56 x00 x00 x00)
(L (W x00 x00 x00 x00 x00 x00 x00 x00)) E)
(T (W x40 x00 x00 x00 x00 x18 x14 x8d)
(L (W x00 x00 x00 x00 x00 x00 x00 x00)) E))))
(T (W x00 x00 x00 x00 x00 x00 x00 x00)
(T (W x00 x00 x00 x00 x75 x01 x00 x00)
(T (W x1e x00 x00 x00 x00 x00 x32 x00)
(T (W x01 x01 x01 x01 x01 x01 x01 x01)
(L (W xab x00 x2b x00 x8e x00 x00 x00))
(L (W x00 x00 x00 x00 x00 x00 x00 x00)))
(T (W x00 x00 x01 x00 x00 x00 xb3 x00)
(L (W x00 x00 x00 x00 x00 x00 x00 x00)) E))
(T (W x01 x00 x03 x00 x01 x03 x04 x04)
(T (W x00 x00 x00 x00 x00 x00 x00 x00)
(L (W x20 x40 xa0 x87 x80 x8d x04 x0e)) E)
(T (W x37 x02 x00 x08 x00 x00 x00 x00)
(L (W x00 x00 x00 x00 x00 x00 x00 x00)) E)))
(T (W x00 x00 x00 x00 x00 x00 x00 x00)
(T (W x21 x00 x2c x00 x14 x00 x00 x00)
(T (W x00 x00 x00 x00 x78 x14 x13 x0c)
(L (W x02 x00 x03 x00 x02 x03 x04 x04)) E)
(T (W x00 x00 x00 x00 x00 x00 x00 x00)
(L (W x00 x00 x00 x00 x00 x00 x00 x00)) E))
(T (W x00 x03 x60 x8b x9a x20 x89 x00)
(T (W x00 x00 x00 x00 x27 x02 x00 x00)
(L (W x05 x05 x03 x03 x04 x02 x02 x03)) E)
(T (W x1e x00 x00 x00 x00 x00 x32 x00)
(L (W x00 x00 x00 x00 x00 x00 x00 x00)) E))))))
(T (W x00 x00 x00 x00 x00 x00 x00 x00)
(T (W x1e x00 x00 x00 x00 x00 x37 x00)
(T (W x00 x00 x00 x00 x00 x00 x00 x00)
(T (W x00 x00 x00 x00 x67 x00 x00 x00)
(T (W x00 x00 x00 x00 xc8 x00 x00 x00)
(T (W x02 x00 x00 x00 x00 x00 x00 x00)
(L (W xbe x01 x00 x04 x56 x00 x57 x00))
(L (W x00 x00 x00 x00 x00 x00 x00 x00)))
(T (W x00 x00 x7c x00 x00 x00 xb9 x01)
(L (W x00 x00 x00 x00 x00 x00 x00 x00)) E))
(T (W x01 x00 x00 x00 x00 x00 x00 x00)
(T (W x05 x05 x03 x04 x04 x02 x02 x03)
(L (W x9b x00 x09 x00 x67 x00 x00 x00)) E)
(T (W x00 x02 x00 x00 x16 x00 x00 x00)
(L (W x00 x00 x00 x00 x00 x00 x00 x00)) E)))
(T (W x00 x42 x00 x00 x00 x00 xc4 x00)
(T (W x03 x03 x80 x01 x00 x00 x00 x00)
(T (W x00 x00 x00 x00 x00 x00 x00 x00)
(L (W x0a x00 x00 x00 x00 x00 x00 x00))
(L (W x00 x20 x00 x00 x00 x00 x85 x00)))
(T (W x00 x00 x00 x00 x67 x02 x00 x00)
(L (W x05 x05 x03 x03 x04 x02 x02 x03)) E))
(T (W x00 x00 x00 x00 x00 x00 x00 x00)
(T (W x00 x00 x00 x00 x00 x00 x00 x00)
(L (W x00 x00 x00 x00 x00 x00 x00 x00)) E)
(T (W x00 x00 x00 x00 x52 x01 x00 x00)
(L (W x00 x00 x00 x00 x00 x00 x00 x00)) E))))
(T (W x0c x00 x14 x00 x90 x00 x9e x03)
(T (W x02 x00 x01 x00 x02 x01 x04 x04)
(T (W x01 x01 x01 x01 x01 x01 x01 x01)
(T (W x08 x00 x00 x00 x1b x00 x00 x00)
(L (W x00 x00 x00 x00 x01 x0b x14 x0c))
(L (W x02 x00 x02 x00 x03 x02 x03 x03)))
(T (W x0b x00 x82 x00 x06 x00 x00 x00)
(L (W x00 x00 x00 x00 x00 x00 x00 x00)) E))
(T (W x00 x00 x00 x00 x00 x00 x00 x00)
(T (W x00 x00 x00 x00 x00 x00 x00 x00)
(L (W x04 x00 x00 x00 xb0 x03 x00 x00)) E)
(T (W x00 x03 xaa xa3 x86 x82 x00 x80)
(L (W x01 x00 x00 x00 x00 x00 x00 x00)) E)))
(T (W x03 xcc x2e xab x86 x82 x00 x08)
(T (W x00 x00 x00 x00 x00 x00 x00 x00)
(T (W x00 x00 x00 x00 x1e x01 x00 x00)
(L (W x00 x00 x0a x02 x00 x00 x0a x02)) E)
(T (W x02 x00 x02 x00 x02 x02 x02 x02)
(L (W x3c x02 x00 x02 x00 x00 x00 x00)) E))
(T (W x00 x00 x00 x00 x67 x01 x00 x00)
(T (W x1e x00 x00 x00 x00 x00 x28 x00)
(L (W x00 x80 x00 x00 x00 x00 x00 x00)) E)
(T (W x01 x01 x01 x01 x01 x01 x01 x01)
(L (W x00 x00 x00 x00 x00 x00 x00 x00)) E)))))
(T (W x00 x0b x28 xb3 x84 x00 x04 x88)
(T (W x00 x00 x00 x00 x8c x00 x00 x00)
(T (W x2d x02 x02 x00 x00 x00 x00 x00)
(T (W x45 x00 x05 x00 x7d x00 x00 x00)
(T (W x00 x00 x00 x00 x00 x00 x00 x00)
(L (W x01 x00 x02 x00 x02 x02 x04 x04))
(L (W x03 x03 x03 x00 x00 x00 x00 x00)))
(T (W x00 x00 x00 x00 x00 x00 x00 x00)
(L (W x00 x00 x00 x00 x00 x00 x00 x00)) E))
(T (W x00 x00 x00 x00 x00 x00 x00 x00)
(T (W x00 x00 x00 x00 xe7 x01 x00 x00)
(L (W x05 x05 x03 x03 x03 x02 x02 x03)) E)
(T (W x01 x00 x00 x00 x00 x00 x00 x00)
(L (W x00 x00 x00 x00 x00 x00 x00 x00)) E)))
(T (W x01 x00 x00 x00 x00 x00 x00 x00)
(T (W x03 x00 x03 x00 x03 x03 x03 x03)
(T (W x00 x00 xba x00 x00 x00 x01 x00)
(L (W x02 x00 x20 x83 x84 x01 x30 x05))
(L (W x00 x00 x00 x00 x00 x00 x00 x00)))
(T (W xbe x01 x04 x00 x00 x00 x00 x00)
(L (W x00 x00 x00 x00 x00 x00 x00 x00)) E))
(T (W x05 x05 x03 x03 x04 x02 x02 x03)
(T (W x40 x00 x00 x00 x00 x00 x3a x00)
(L (W x00 x00 x00 x00 x12 x13 x30 xcc)) E)
(T (W x00 x00 x00 x00 x00 x00 x00 x00)
(L (W x00 x00 x00 x00 x00 x00 x00 x00)) E))))
(T (W x05 x05 x03 x04 x05 x02 x02 x03)
(T (W x00 x00 x00 x00 x7a x00 x91 x0c)
(T (W x00 x00 x00 x00 x00 x00 x00 x00)
(T (W x01 x00 x00 x00 x00 x00 x00 x00)
(L (W x00 x00 x00 x00 x00 x00 x00 x00))
(L (W x00 x00 x00 x00 x00 x00 x00 x00)))
(T (W x01 x01 x01 x01 x01 x01 x01 x01)
(L (W x00 x00 x00 x00 x00 x00 x00 x00)) E))
(T (W x00 x00 x00 x00 x2c x01 x00 x00)
(T (W x02 x00 x03 x00 x02 x03 x04 x03)
(L (W x2d x02 x20 x00 x00 x00 x00 x00)) E)
(T (W x00 x00 x27 x00 x00 x00 x9d x00)
(L (W x00 x00 x00 x00 x00 x00 x00 x00)) E)))
(T (W x00 x00 x91 x01 x00 x00 x27 x00)
(T (W x00 x00 x00 x00 x00 x00 x00 x00)
(T (W x1f x00 x74 x00 x78 x00 x00 x00)
(L (W x00 x00 x00 x00 x2f x00 x00 x00)) E)
(T (W x00 x00 x00 x00 x00 x00 x00 x00)
(L (W x02 x00 x00 x00 x00 x00 x00 x00)) E))
(T (W x2d x01 x04 x00 x00 x00 xfa x00)
(T (W x00 x88 x60 x83 x81 x00 x43 x00)
(L (W x01 x00 x00 x00 x00 x00 x00 x00)) E)
(T (W x01 x00 x00 x00 x43 x03 x00 x00)
(L (W x05 x05 x03 x03 x03 x02 x02 x03)) E)))))))))
(T (W x01 x00 x00 x00 x03 x00 x52 x0c)
(T (W x05 x05 x04 x05 x05 x02 x02 x04)
(T (W x03 x00 x03 x00 x03 x03 x03 x03)
(T (W x00 x00 x00 x00 x0f x00 x00 x00)
(T (W x00 x00 x00 x00 x00 x00 x00 x00)
(T (W x00 x00 x00 x00 x00 x00 x00 x00)
(T (W x80 x28 x00 x00 x00 x00 x00 x00)
(T (W x00 x00 x00 x00 x00 x00 x00 x00)
(T (W x40 x03 x60 xc7 x86 x09 x01 x00)
(L (W x19 x00 x00 x00 x00 x00 x37 x00))
(L (W x10 x28 x00 x00 x00 x00 x00 x00)))
(T (W x00 x00 x00 x00 x2f x02 x00 x00)
(L (W x05 x05 x03 x03 x04 x02 x02 x03)) E))
(T (W x1c x00 x24 x00 x8c x00 x00 x00)
(T (W x00 x00 x00 x00 x86 x0f x10 x8c)
(L (W x02 x00 x03 x00 x03 x03 x04 x04)) E)
(T (W x00 x00 x00 x00 x00 x00 x00 x00)
(L (W x00 x00 x59 x00 x00 x00 x00 x00)) E)))
(T (W x00 x00 x00 x00 x00 x00 x00 x00)
(T (W x1e x00 x00 x00 x00 x00 x32 x00)
(T (W x01 x01 x01 x01 x01 x01 x01 x01)
(L (W xe7 x00 xe7 x00 xe7 x00 x00 x00))
(L (W x00 x00 x00 x00 x00 x00 x00 x00)))
(T (W x00 x14 x00 x00 x00 x00 x00 x00)
(L (W x00 x00 x00 x00 x00 x00 x00 x00)) E))
(T (W x00 x00 x00 x00 x00 x00 x00 x00)
(T (W x00 x00 x00 x00 x00 x00 x00 x00)
(L (W x00 x40 x20 x83 x80 x03 x00 x00)) E)
(T (W x2d x01 x02 x00 x00 x00 x00 x00)
(L (W x00 x00 x00 x00 x00 x00 x00 x00)) E))))
(T (W x00 x00 x00 x00 x00 x00 x00 x00)
(T (W x00 x03 x20 x8b x9a x21 x90 x00)
(T (W x00 x00 x00 x00 x00 x00 x00 x00)
(T (W x00 x00 x00 x00 x00 x00 x00 x00)
(L (W x00 x00 xc6 x02 x00 x00 xc6 x02))
(L (W x00 x43 x70 x4f x8f x11 x00 x03)))
(T (W x01 x00 x02 x00 x02 x02 x05 x04)
(L (W x00 x00 x00 x00 x00 x00 x00 x00)) E))
(T (W x02 x00 x00 x00 x2f x01 x00 x00)
(T (W x01 x00 x00 x00 x00 x00 x00 x00)
(L (W x02 x80 x00 x00 x00 x00 x27 x00)) E)
(T (W x05 x05 x03 x04 x04 x02 x02 x03)
(L (W x00 x00 x00 x00 x00 x00 x00 x00)) E)))
(T (W x05 x05 x02 x03 x03 x02 x02 x02)
(T (W x00 x00 x74 x00 x00 x00 x2b x01)
(T (W x2d x01 x04 x00 x00 x00 x00 x00)
(L (W x00 x00 x00 x00 xbc x03 x00 x00))
(L (W x05 x05 x05 x05 x05 x02 x02 x02)))
(T (W x40 x00 xa0 xc7 x86 x81 x01 x07)
(L (W x01 x00 x00 x00 x00 x00 x00 x00)) E))
(T (W x00 x40 x00 x00 x00 x00 xbc x00)
(T (W x21 x00 x5d x00 x0b x00 x00 x00)
(L (W x00 x00 x00 x00 x00 x00 x00 x00)) E)
(T (W x01 x00 x00 x00 x01 x00 x10 x2c)
(L (W x00 x00 x00 x00 x00 x00 x00 x00)) E)))))
(T (W x05 x05 x03 x03 x04 x02 x02 x03)
(T (W x4b x02 x08 x00 x00 x00 x00 x00)
(T (W x1e x00 x00 x00 x00 x00 x3c x00)
(T (W x00 x00 x00 x00 x00 x00 x00 x00)
(T (W x00 x00 x96 x01 x00 x00 x00 x00)
(L (W x00 x40 xa0 x83 xe0 x03 x00 x0a))
(L (W x01 x00 x00 x00 x00 x00 x00 x00)))
(T (W x2d x02 x00 x02 x00 x00 x00 x00)
(L (W x00 x00 x00 x00 x00 x00 x00 x00)) E))
(T (W x05 x05 x03 x03 x03 x02 x02 x03)
(T (W x00 x28 x00 x00 x00 x00 x00 x00)
(L (W x00 x00 x00 x00 x00 x00 x14 x0c)) E)
(T (W x00 x00 x00 x00 x00 x00 x00 x00)
(L (W x00 x00 x00 x00 x00 x00 x00 x00)) E)))
(T (W x00 x00 x00 x00 x00 x00 x00 x00)
(T (W x00 x83 x24 x0b x9f x63 x80 x00)
(T (W x00 x00 x00 x00 x00 x00 x00 x00)
(L (W x05 x05 x05 x05 x05 x02 x02 x02))
(L (W xaf x00 xaf x00 xa5 x00 x96 x04)))
(T (W x1e x00 x00 x00 x00 x00 x28 x00)
(L (W x08 x20 x00 x00 x00 x00 x00 x00)) E))
(T (W x00 x00 x00 x00 x07 x8c x10 x2e)
(T (W x00 x00 x00 x00 xa8 x00 x00 x00)
(L (W x00 x00 x00 x00 x00 x00 x00 x00)) E)
(T (W x01 x00 x03 x00 x02 x03 x04 x04)
(L (W x00 x00 x00 x00 x00 x00 x00 x00)) E))))
(T (W x80 x00 x00 x00 x00 x03 x18 x0c)
(T (W x00 x00 x27 x00 x00 x00 x74 x01)
(T (W x00 x00 x00 x00 x00 x00 x08 x00)
(T (W x00 x00 x00 x00 x00 x00 x00 x00)
(L (W x00 x00 x00 x00 x5a x01 x00 x00))
(L (W x00 x00 x00 x00 x00 x00 x00 x00)))
(T (W x00 x00 x00 x00 x00 x00 x00 x00)
(L (W x02 x00 x03 x00 x02 x03 x04 x03)) E))
(T (W x96 x02 x00 x02 x00 x00 xf5 x00)
(T (W x00 x00 x00 x00 x00 x00 x00 x00)
(L (W x1e x00 x00 x00 x00 x00 x28 x00)) E)
(T (W x04 x00 x00 x00 xd7 x02 x00 x00)
(L (W x01 x01 x01 x01 x01 x01 x01 x01)) E)))
(T (W x00 x00 x00 x00 xaf x00 x00 x00)
(T (W x00 x00 x00 x00 x00 x00 x00 x00)
(T (W x03 x00 x02 x00 x02 x02 x03 x03)
(L (W xff x01 x00 x04 x00 x00 x00 x00)) E)
(T (W x00 x00 x15 x02 x00 x00 xca x00)
(L (W x1b xab xe0 x83 xc4 x08 x01 x0b)) E))
(T (W x1e x00 x00 x00 x00 x00 x1e x00)
(T (W x05 x05 x03 x04 x04 x02 x02 x03)
(L (W x00 x00 x00 x00 x00 x00 x00 x00)) E)
(T (W x00 x00 x00 x00 x00 x00 x00 x00)
(L (W x00 x00 x00 x00 x00 x00 x00 x00)) E))))))
(T (W x00 x00 x00 x00 x00 x00 x00 x00)
(T (W x00 x00 x00 x00 x00 x00 x41 x00)
(T (W x04 x83 xa1 xab x86 x01 x00 x07)
(T (W x05 x05 x03 x03 x04 x02 x02 x03)
(T (W x00 x00 x00 x00 x00 x00 x00 x00)
(T (W x03 x03 x20 x04 x00 x00 x00 x00)
(L (W x04 x00 x00 x00 x52 x03 x00 x00))
(L (W x05 x05 x05 x05 x05 x02 x02 x05)))
(T (W x00 x83 x60 x8b x93 x20 xe1 x20)
(L (W x0a x00 x00 x00 x00 x00 x00 x00)) E))
(T (W x00 x00 x00 x00 x00 x00 x00 x00)
(T (W x00 x00 x00 x00 x00 x00 x00 x00)
(L (W x00 x00 x00 x00 x39 x01 x00 x00)) E)
(T (W x00 x00 x00 x00 x00 x00 x00 x00)
(L (W x00 x00 x00 x00 x00 x00 x00 x00)) E)))
(T (W x00 x00 x00 x00 x04 x90 x10 x0c)
(T (W x00 x00 x00 x00 xef x00 x00 x00)
(T (W x1e x00 x00 x00 x00 x00 x28 x00)
(L (W x00 x10 x01 x00 x00 x00 x00 x00))
(L (W x00 x00 x00 x00 x78 x10 x32 x0c)))
(T (W x05 x05 x03 x03 x04 x02 x02 x03)
(L (W x3c x00 x72 x00 x9f x00 xd8 x03)) E))
(T (W x00 x00 x00 x00 x00 x00 x00 x00)
(T (W x02 x00 x02 x00 x01 x02 x04 x03)
(L (W x03 x01 x04 x00 x00 x00 x00 x00)) E)
(T (W x00 x00 x60 x01 x00 x00 x4a x01)
(L (W x00 x00 x00 x00 x00 x00 x00 x00)) E))))
(T (W x00 x00 x00 x00 x00 x00 x00 x00)
(T (W x2d x01 x04 x00 x00 x00 x00 x00)
(T (W x00 x00 x00 x00 x00 x00 x00 x00)
(T (W x00 x00 x00 x00 x00 x00 x00 x00)
(L (W x00 x00 x00 x00 x00 x00 x00 x00))
(L (W x03 x03 x03 x00 x00 x00 x00 x00)))
(T (W x00 x00 x00 x00 x11 x01 x00 x00)
(L (W x00 x00 x00 x00 x00 x00 x00 x00)) E))
(T (W x00 x40 xa2 x83 x82 x01 x00 x00)
(T (W x00 x00 x00 x00 x00 x00 x00 x00)
(L (W x05 x05 x04 x04 x05 x02 x02 x04)) E)
(T (W x1e x00 x00 x00 x00 x00 x32 x00)
(L (W x00 x00 x00 x00 x00 x00 x00 x00)) E)))
(T (W x1e x00 x00 x00 x00 x00 x28 x00)
(T (W x00 x00 x00 x00 x00 x00 x00 x00)
(T (W x00 x00 xa1 x02 x00 x00 xb3 x00)
(L (W x40 x00 xa0 x87 x80 x85 x00 x07)) E)
(T (W x2d x03 x00 x03 x00 x00 x00 x00)
(L (W x00 x00 x00 x00 x00 x00 x00 x00)) E))
(T (W x05 x05 x04 x04 x05 x02 x02 x04)
(T (W x00 x00 x00 x00 x00 x00 x00 x00)
(L (W x00 x00 x00 x00 x62 x10 x10 xce)) E)
(T (W x43 x00 x43 x00 xcc x00 x00 x00)
(L (W x00 x00 x00 x00 x00 x00 x00 x00)) E)))))
(T (W x1e x00 x00 x00 x00 x00 x28 x00)
(T (W x00 x00 x73 x00 x00 x00 xd9 x01)
(T (W x00 x00 x00 x00 x6f x00 x00 x00)
(T (W x00 x00 x00 x00 x00 x00 x00 x00)
(T (W x00 x00 x00 x00 x00 x00 x00 x00)
(L (W x2d x03 x0c x00 x74 x03 x00 x00))
(L (W x02 x00 x00 x00 x5e x03 x00 x00)))
(T (W x00 x00 xde x01 x00 x00 x5e x00)
(L (W x00 x00 x00 x00 x00 x00 x00 x00)) E))
(T (W x01 x00 x00 x00 x00 x00 x00 x00)
(T (W x05 x05 x05 x05 x05 x02 x02 x05)
(L (W x83 x00 x6b x00 x9c x00 x00 x00)) E)
(T (W x00 x00 x00 x00 x00 x00 x00 x00)
(L (W x00 x00 x00 x00 x00 x00 x00 x00)) E)))
(T (W x00 x00 x00 x00 x00 x00 x00 x00)
(T (W x2d x03 x03 x00 x9d x00 x9d x00)
(T (W x00 x0b x6e x03 x87 x50 x01 x72)
(L (W x1e x00 x00 x00 x00 x00 x3c x00))
(L (W x00 x00 x02 x00 x00 x00 x00 x00)))
(T (W x08 x00 x00 x00 x6f x02 x00 x00)
(L (W x01 x01 x01 x01 x01 x01 x01 x01)) E))
(T (W x1a x00 x1a x00 x1a x00 x00 x00)
(T (W x80 x00 x00 x00 x01 x04 x50 x0c)
(L (W x02 x00 x02 x00 x03 x02 x03 x03)) E)
(T (W x00 x00 x00 x00 x00 x00 x00 x00)
(L (W x00 x00 x00 x00 x00 x00 x00 x00)) E))))
(T (W x00 x00 x00 x00 x00 x00 x00 x00)
(T (W x01 x00 x02 x00 x01 x02 x04 x04)
(T (W x05 x05 x04 x04 x05 x02 x02 x04)
(T (W x00 x00 x00 x00 x00 x00 x00 x00)
(L (W x00 x00 x00 x00 x00 x0b x10 x0e))
(L (W x00 x00 x00 x00 x00 x00 x00 x00)))
(T (W x39 x00 x3a x00 x1d x00 x00 x00)
(L (W x00 x00 x00 x00 x00 x00 x00 x00)) E))
(T (W x00 x00 xfa x00 x00 x00 xfa x00)
(T (W x78 x02 x08 x00 x00 x00 x00 x00)
(L (W x08 x00 x00 x00 x9f x03 x00 x00)) E)
(T (W x00 x03 x60 x8b x82 x22 x10 x01)
(L (W x01 x00 x00 x00 x00 x00 x00 x00)) E)))
(T (W x00 x00 x00 x00 x00 x00 x00 x00)
(T (W x00 x00 x00 x00 x83 x00 x12 x0c)
(T (W x00 x00 x00 x00 x61 x00 x00 x00)
(L (W x00 x00 x1a x02 x00 x00 xb3 x00)) E)
(T (W x02 x00 x02 x00 x03 x02 x02 x02)
(L (W x00 x00 x00 x00 x00 x00 x00 x00)) E))
(T (W x00 x00 x00 x00 x00 x00 x00 x00)
(T (W x1e x00 x00 x00 x00 x00 x37 x00)
(L (W x00 x04 x00 x00 x01 x00 x00 x00)) E)
(T (W x01 x01 x01 x01 x01 x01 x01 x01)
(L (W x00 x00 x00 x00 x00 x00 x00 x00)) E)))))))
(T (W x1e x00 x00 x00 x00 x00 x28 x00)
(T (W x00 x00 x00 x00 x00 x00 x00 x00)
(T (W xff x01 x10 x00 x00 x00 x1e x01)
(T (W x00 x00 x00 x00 x02 x14 x70 x0c)
(T (W x00 x00 x00 x00 x00 x00 x00 x00)
(T (W x00 x00 x00 x00 x00 x00 x00 x00)
(T (W x1d x00 x1d x00 x87 x00 x00 x00)
(L (W x00 x00 x00 x00 x34 x01 x00 x00))
(L (W x00 x00 x37 x02 x00 x00 x36 x01)))
(T (W x00 x00 x00 x00 x00 x08 x10 x0c)
(L (W x02 x00 x02 x00 x01 x02 x05 x05)) E))
(T (W x00 x00 x00 x00 x00 x00 x00 x00)
(T (W x00 x00 x00 x00 x00 x00 x00 x00)
(L (W x1e x00 x00 x00 x00 x00 x32 x00)) E)
(T (W x00 x00 x00 x00 x00 x00 x00 x00)
(L (W x05 x05 x05 x05 x05 x02 x02 x05)) E)))
(T (W x08 x00 x00 x00 x8f x00 x00 x00)
(T (W x00 x00 x00 x00 x6b x00 x00 x00)
(T (W x02 x00 x02 x00 x02 x02 x04 x04)
(L (W x2d x03 xc0 x00 x00 x00 x00 x00))
(L (W x02 x00 x00 x00 x61 x03 x00 x00)))
(T (W x00 x00 x53 x00 x00 x00 x6d x00)
(L (W x00 x00 x00 x00 x00 x00 x00 x00)) E))
(T (W x1e x00 x00 x00 x00 x00 x28 x00)
(T (W x01 x01 x01 x01 x01 x01 x01 x01)
(L (W xea x00 xea x00 xea x00 xa1 x04)) E)
(T (W x40 x02 x00 x00 x00 x00 x00 x00)
(L (W x00 x00 x00 x00 x00 x00 x00 x00)) E))))
(T (W x1e x00 x00 x00 x00 x00 x37 x00)
(T (W x23 x00 x1e x00 x94 x00 x00 x00)
(T (W x00 x80 x68 x83 x85 x02 x63 x00)
(T (W x00 x00 x00 x00 x00 x00 x00 x00)
(L (W x05 x05 x05 x05 x06 x02 x02 x05))
(L (W xe1 x00 xe1 x00 xe1 x00 x6f x04)))
(T (W x01 x00 x00 x00 x00 x00 x00 x00)
(L (W x00 x00 x00 x00 x00 x00 x00 x00)) E))
(T (W x80 x00 x00 x00 xfe x87 x30 x8d)
(T (W x00 x00 x00 x00 x00 x00 x00 x00)
(L (W x00 x00 xb4 x00 x00 x00 x9c x02)) E)
(T (W x02 x00 x03 x00 x01 x03 x03 x03)
(L (W x00 x00 x00 x00 x00 x00 x00 x00)) E)))
(T (W x00 x00 x00 x00 x00 x00 x00 x00)
(T (W x05 x05 x03 x03 x04 x02 x02 x03)
(T (W x00 x41 x00 x00 x00 x00 x76 x00)
(L (W x24 x00 x00 x00 x79 x70 x11 x2c))
(L (W x00 x00 x00 x00 x00 x00 x00 x00)))
(T (W x44 x00 x37 x00 x36 x00 x00 x00)
(L (W x00 x00 x00 x00 x00 x00 x00 x00)) E))
(T (W x00 x00 x00 x00 x00 x00 x00 x00)
(T (W x2d x02 x08 x00 x00 x00 xf1 x00)
(L (W x00 x00 x00 x00 x1b x00 x00 x00)) E)
(T (W x04 x20 x20 x87 xc4 x04 x00 x01)
(L (W x01 x00 x00 x00 x00 x00 x00 x00)) E)))))
(T (W x02 x00 x02 x00 x02 x02 x03 x03)
(T (W x00 x00 x00 x00 x8f x00 x00 x00)
(T (W x00 x00 x00 x00 x00 x00 x00 x00)
(T (W x01 x00 x00 x00 x00 x00 x00 x00)
(T (W x01 x01 x01 x01 x01 x01 x01 x01)
(L (W xda x00 x67 x00 x7f x00 x00 x00))
(L (W x00 x00 x00 x00 x00 x00 x00 x00)))
(T (W x20 x00 x00 x00 x00 x00 x00 x00)
(L (W x00 x00 x00 x00 x00 x00 x00 x00)) E))
(T (W x01 x00 x02 x00 x01 x02 x06 x06)
(T (W x00 x00 x81 x00 x00 x00 x00 x00)
(L (W x11 x83 x20 x87 x90 x2c xa0 x82)) E)
(T (W x00 x00 x00 x00 x00 x00 x00 x00)
(L (W x00 x00 x00 x00 x00 x00 x00 x00)) E)))
(T (W x00 x00 x00 x00 x00 x00 x00 x00)
(T (W x2d x00 x2d x00 x7f x00 x00 x00)
(T (W x00 x00 x00 x00 x04 xa0 x50 x8c)
(L (W x03 x00 x00 x00 x00 x00 x00 x00))
(L (W x64 x02 x00 x08 x00 x00 x00 x00)))
(T (W x00 x00 x00 x00 x00 x00 x00 x00)
(L (W x00 x00 x00 x00 x00 x00 x00 x00)) E))
(T (W x00 x80 x60 x8b x9a x08 x21 x0a)
(T (W x00 x00 x00 x00 x0f x02 x00 x00)
(L (W x01 x01 x01 x01 x01 x01 x01 x01)) E)
(T (W x1e x00 x00 x00 x00 x00 x32 x00)
(L (W x00 x00 x00 x00 x00 x00 x00 x00)) E))))
(T (W x00 x00 x00 x00 x00 x00 x00 x00)
(T (W x05 x05 x04 x05 x05 x02 x02 x04)
(T (W x00 x00 xbe x00 x00 x00 xf7 x01)
(T (W x00 x00 x00 x00 x00 x00 x00 x00)
(L (W x00 x00 x00 x00 x31 x03 x00 x00))
(L (W x01 x01 x01 x01 x01 x01 x01 x01)))
(T (W x80 x48 x30 x93 x84 x04 x04 x06)
(L (W x01 x00 x00 x00 x00 x00 x00 x00)) E))
(T (W x00 x00 x00 x00 x00 x00 x00 x00)
(T (W x00 x00 x00 x00 x00 x00 x00 x00)
(L (W x00 x00 x00 x00 x51 x01 x00 x00)) E)
(T (W x00 x00 x00 x00 x18 x01 x51 x8d)
(L (W x00 x00 x00 x00 x00 x00 x00 x00)) E)))
(T (W x00 x00 x00 x00 x00 x08 x10 x2e)
(T (W x00 x00 x00 x00 x0f x01 x00 x00)
(T (W x01 x00 x00 x00 x00 x00 x00 x00)
(L (W x10 x00 x00 x00 x00 x00 xa6 x00)) E)
(T (W x05 x05 x05 x05 x06 x02 x02 x05)
(L (W x00 x00 x00 x00 x00 x00 x00 x00)) E))
(T (W x00 x00 x00 x00 x00 x00 x00 x00)
(T (W x02 x00 x03 x00 x02 x03 x04 x04)
(L (W xbe x01 x40 x00 x00 x00 x00 x00)) E)
(T (W x00 x00 x0b x00 x00 x00 xd1 x00)
(L (W x00 x00 x00 x00 x00 x00 x00 x00)) E))))))
(T (W x00 x00 x00 x00 x00 x00 x00 x00)
(T (W x00 x00 x2b x00 x00 x00 x40 x00)
(T (W x00 x00 x00 x00 x00 x00 x00 x00)
(T (W x02 x00 x02 x00 x02 x02 x05 x05)
(T (W x05 x05 x04 x05 x05 x02 x02 x04)
(T (W x00 x42 x00 x00 x00 x00 x00 x00)
(L (W x00 x00 x00 x00 x01 x00 x14 x0c))
(L (W x03 x00 x00 x00 x00 x00 x00 x00)))
(T (W x01 x00 x3c x00 x6a x00 x00 x00)
(L (W x00 x00 x00 x00 x00 x00 x00 x00)) E))
(T (W x00 x00 x00 x00 x00 x00 x00 x00)
(T (W x2d x03 x0c x00 x00 x00 x00 x00)
(L (W x06 x00 x00 x00 x92 x03 x00 x00)) E)
(T (W x40 x00 xa0 xc3 xc4 x01 x00 x01)
(L (W x01 x00 x00 x00 x00 x00 x00 x00)) E)))
(T (W x7b x63 x6a xcb x9f x29 x01 x08)
(T (W x00 x00 x00 x00 x66 xcf x18 x8c)
(T (W x00 x00 x00 x00 x00 x00 x00 x00)
(L (W x00 x00 xd2 x02 x00 x00 xd2 x02))
(L (W x00 x03 x36 x13 xc0 x10 x00 x02)))
(T (W x02 x00 x02 x00 x03 x02 x04 x03)
(L (W x2d x02 x40 x01 x00 x00 x00 x00)) E))
(T (W x00 x00 x00 x00 x00 x00 x00 x00)
(T (W x1e x00 x00 x00 x00 x00 x32 x00)
(L (W x10 x80 x00 x00 xd3 x00 x00 x00)) E)
(T (W x05 x05 x04 x04 x05 x02 x02 x04)
(L (W x00 x00 x00 x00 x00 x00 x00 x00)) E))))
(T (W x04 x00 x00 x00 x4f x00 x00 x00)
(T (W x08 x00 x00 x00 x00 x00 x10 x00)
(T (W x00 x00 x00 x00 x00 x00 x00 x00)
(T (W x00 x43 xa2 x87 x82 x83 x00 x00)
(L (W x1e x00 x00 x00 x00 x00 x32 x00))
(L (W x01 x00 x00 x00 x00 x00 x00 x00)))
(T (W x01 x00 x00 x00 x4f x02 x00 x00)
(L (W x01 x01 x01 x01 x01 x01 x01 x01)) E))
(T (W x00 x00 x00 x00 x00 x00 x00 x00)
(T (W x00 x00 x00 x00 x00 x00 x00 x00)
(L (W x01 x00 x01 x00 x02 x01 x04 x04)) E)
(T (W x00 x00 x00 x00 xd2 x00 x00 x00)
(L (W x00 x00 x00 x00 x00 x00 x00 x00)) E)))
(T (W x00 x00 x00 x00 xc1 x00 x00 x00)
(T (W x01 x00 x00 x00 x00 x00 x00 x00)
(T (W x05 x05 x03 x03 x03 x02 x02 x03)
(L (W x44 x00 x0e x00 x8c x00 x00 x00)) E)
(T (W x00 x0a x00 x00 xbb x00 x00 x00)
(L (W x00 x00 x00 x00 x64 xa0 x10 x4c)) E))
(T (W x00 x00 x00 x00 x00 x00 x00 x00)
(T (W x00 x00 xda x01 x00 x00 x5c x00)
(L (W x04 x80 xa1 xab x86 x01 x00 x07)) E)
(T (W x00 x00 x00 x00 x00 x00 x00 x00)
(L (W x00 x00 x00 x00 x00 x00 x00 x00)) E)))))
(T (W x00 x00 x00 x00 x38 x00 x00 x00)
(T (W x05 x05 x02 x03 x05 x02 x02 x02)
(T (W x00 x00 x00 x00 x03 x00 x52 x0c)
(T (W x00 x00 x00 x00 x00 x00 x00 x00)
(T (W x01 x00 x00 x00 x00 x00 x00 x00)
(L (W x01 x04 x00 x00 x59 x00 x00 x00))
(L (W xc1 x00 x00 x00 x35 x01 x38 x0d)))
(T (W x05 x05 x04 x05 x05 x02 x02 x04)
(L (W x00 x00 x00 x00 x00 x00 x00 x00)) E))
(T (W x00 x00 x00 x00 x00 x00 x00 x00)
(T (W x00 x00 x00 x00 x00 x00 x00 x00)
(L (W xff x01 x00 x01 x00 x00 x00 x00)) E)
(T (W x00 x00 x00 x00 x00 x00 x00 x00)
(L (W x00 x00 x00 x00 x00 x00 x00 x00)) E)))
(T (W x00 x00 x00 x00 x00 x00 x00 x00)
(T (W x10 x00 x00 x00 x00 x00 x00 x00)
(T (W x1e x00 x20 x00 x84 x00 x00 x00)
(L (W x00 x00 x00 x00 x03 x00 x00 x00))
(L (W x00 x00 x0f x03 x00 x00 x0f x03)))
(T (W x00 x00 x00 x00 x13 x24 x32 x1d)
(L (W x00 x00 x00 x00 x00 x00 x00 x00)) E))
(T (W x2d x01 x04 x00 x00 x00 x00 x00)
(T (W x3b x80 x60 x87 x86 x0e x01 x8a)
(L (W x1e x00 x00 x00 x00 x00 x3c x00)) E)
(T (W x08 x00 x00 x00 x04 x03 x00 x00)
(L (W x01 x01 x01 x01 x01 x01 x01 x01)) E))))
(T (W x3c x02 x20 x00 x58 x00 x59 x00)
(T (W x1e x00 x00 x00 x00 x00 x32 x00)
(T (W x01 x00 x03 x00 x01 x03 x04 x04)
(T (W x00 x00 xc6 x01 x00 x00 xc6 x01)
(L (W x00 x00 x00 x00 x00 x00 x00 x00))
(L (W x01 x00 x00 x00 x00 x00 x00 x00)))
(T (W x00 x00 x00 x00 x00 x00 x00 x00)
(L (W x00 x00 x00 x00 x00 x00 x00 x00)) E))
(T (W x01 x01 x01 x01 x01 x01 x01 x01)
(T (W x00 x80 x00 x00 x00 x00 x00 x00)
(L (W x40 x00 x00 x00 x9a x04 x15 x0d)) E)
(T (W xad x00 xad x00 x05 x00 x00 x00)
(L (W x00 x00 x00 x00 x00 x00 x00 x00)) E)))
(T (W x2f x00 x25 x00 x9d x00 x00 x00)
(T (W x00 x00 x00 x00 x00 x00 x00 x00)
(T (W x08 x00 x00 x00 xcf x01 x00 x00)
(L (W x05 x05 x03 x03 x03 x02 x02 x03)) E)
(T (W x0a x00 x00 x00 x00 x00 x00 x00)
(L (W x01 x80 x00 x00 x00 x00 x00 x00)) E))
(T (W x00 x00 x00 x00 x00 x00 x00 x00)
(T (W x00 x00 x00 x00 x28 x01 x00 x00)
(L (W x00 x00 x15 x00 x00 x00 x5c x01)) E)
(T (W x01 x00 x03 x00 x03 x03 x05 x04)
(L (W x2d x03 x08 x01 x00 x00 x00 x00)) E))))))))
(T (W x2b xa0 x60 x87 xe4 x4b x01 x08)
(T (W x43 x00 x43 x00 x2c x00 x00 x00)
(T (W x00 x00 x00 x00 x00 x00 x00 x00)
(T (W x1e x00 x00 x00 x00 x00 x3c x00)
(T (W x00 x00 x00 x00 x00 x00 x00 x00)
(T (W x08 x00 x00 x00 x5f x00 x00 x00)
(T (W x00 x00 x00 x00 x00 x00 x00 x00)
(T (W x03 x00 x03 x00 x03 x03 x06 x06)
(L (W xbe x01 x10 x00 x00 x00 xf5 x00))
(L (W x00 x00 x00 x00 xe0 x02 x00 x00)))
(T (W x00 x00 xb8 x00 x00 x00 x18 x01)
(L (W x00 x03 xb1 x83 xc6 x00 x00 x06)) E))
(T (W x1e x00 x00 x00 x00 x00 x28 x00)
(T (W x05 x05 x03 x03 x04 x02 x02 x03)
(L (W xf7 x00 x52 x00 xab x00 x00 x00)) E)
(T (W x00 x00 x00 x00 x00 x00 x00 x00)
(L (W x40 x00 x00 x00 x60 x08 x10 x0d)) E)))
(T (W x04 x10 x00 x00 x00 x00 x7e x00)
(T (W x00 x00 x00 x00 x00 x00 x00 x00)
(T (W x00 x1f x28 x93 x84 x42 x04 x00)
(L (W x0a x00 x00 x00 x00 x00 x28 x00))
(L (W x02 x00 x00 x00 x00 x00 x2e x00)))
(T (W x00 x00 x00 x00 x5f x02 x00 x00)
(L (W x01 x01 x01 x01 x01 x01 x01 x01)) E))
(T (W x34 x00 x47 x00 x7d x00 x00 x00)
(T (W x00 x00 x00 x00 x00 x00 x00 x00)
(L (W x02 x00 x03 x00 x03 x03 x03 x03)) E)
(T (W x00 x00 x00 x00 xcc x00 x00 x00)
(L (W x00 x00 x00 x00 x00 x00 x00 x00)) E))))
(T (W x1d x00 x40 x00 x2c x00 x00 x00)
(T (W x02 x00 x01 x00 x02 x01 x03 x03)
(T (W x05 x05 x02 x03 x03 x02 x02 x02)
(T (W x00 x00 x00 x00 x00 x00 x00 x00)
(L (W x00 x00 x00 x00 x00 x0c x52 x0c))
(L (W x02 x00 x02 x00 x03 x02 x03 x03)))
(T (W x73 x00 x75 x00 x85 x00 x00 x00)
(L (W x00 x00 x00 x00 x00 x00 x00 x00)) E))
(T (W x00 x00 x3d x01 x00 x00 xe8 x00)
(T (W x00 x00 x00 x00 x00 x00 x00 x00)
(L (W x00 x00 x00 x00 xaf x03 x00 x00)) E)
(T (W x04 x40 x2e x83 x86 x83 x00 x02)
(L (W x01 x00 x00 x00 x00 x00 x00 x00)) E)))
(T (W x00 x00 x00 x00 x00 x00 x00 x00)
(T (W x04 x00 x00 x00 xfa x00 x13 x8c)
(T (W x00 x00 x00 x00 x00 x00 x00 x00)
(L (W x00 x00 xcb x02 x00 x00 x60 x01))
(L (W x03 x9f xe0 x17 x84 x0d x25 x8f)))
(T (W x01 x00 x01 x00 x02 x01 x03 x03)
(L (W x00 x00 x00 x00 x00 x00 x00 x00)) E))
(T (W x00 x00 x00 x00 x00 x00 x00 x00)
(T (W x1e x00 x00 x00 x00 x00 x2d x00)
(L (W x08 x00 x00 x00 x55 x00 x00 x00)) E)
(T (W x05 x05 x03 x04 x04 x02 x02 x03)
(L (W x00 x00 x00 x00 x00 x00 x00 x00)) E)))))
(T (W x00 xa0 x28 x83 xc4 x51 x00 x12)
(T (W x00 x00 x00 x00 x00 x00 x00 x00)
(T (W x2d x02 x00 x08 x00 x00 x00 x00)
(T (W x00 x00 x00 x00 x00 x00 x00 x00)
(T (W x00 x00 x00 x00 x00 x00 x00 x00)
(L (W x02 x00 x03 x00 x03 x03 x03 x03))
(L (W xbe x01 x04 x00 x00 x00 x00 x00)))
(T (W x00 x00 x00 x00 x32 x00 x00 x00)
(L (W x00 x00 x00 x00 x00 x00 x00 x00)) E))
(T (W x3b x08 x21 x8b x86 x80 x00 x08)
(T (W x00 x00 x00 x00 xdf x01 x00 x00)
(L (W x05 x05 x03 x03 x04 x02 x02 x03)) E)
(T (W x01 x00 x00 x00 x00 x00 x00 x00)
(L (W x00 x00 x00 x00 x00 x00 x00 x00)) E)))
(T (W x01 x00 x00 x00 x00 x00 x00 x00)
(T (W x02 x00 x02 x00 x02 x02 x05 x04)
(T (W x00 x00 x00 x00 x00 x00 x00 x00)
(L (W x02 x02 x6e x03 x81 x00 x41 x00))
(L (W x1e x00 x00 x00 x00 x00 x32 x00)))
(T (W xb4 x01 x04 x00 x00 x00 x00 x00)
(L (W x00 x00 x00 x00 x00 x00 x00 x00)) E))
(T (W x05 x05 x03 x04 x04 x02 x02 x03)
(T (W x00 x10 x00 x00 x9b x00 x00 x00)
(L (W x00 x00 x00 x00 x00 x58 x18 x6e)) E)
(T (W x14 x00 x73 x00 x05 x00 x00 x00)
(L (W x00 x00 x00 x00 x00 x00 x00 x00)) E))))
(T (W x05 x05 x04 x04 x05 x02 x02 x04)
(T (W x00 x00 x00 x00 x7e x87 x11 x8d)
(T (W x00 x00 x00 x00 xdf x00 x00 x00)
(T (W x01 x00 x00 x00 x00 x00 x00 x00)
(L (W x10 x20 x01 x00 x00 x00 xa2 x00))
(L (W x00 x00 x00 x00 x00 x00 x00 x00)))
(T (W x05 x05 x02 x03 x03 x02 x02 x02)
(L (W x35 x00 x52 x00 x5f x00 xc8 x03)) E))
(T (W x00 x00 x00 x00 x00 x00 x00 x00)
(T (W x00 x00 x00 x00 x00 x00 x00 x00)
(L (W x3c x02 x20 x00 x00 x00 x00 x00)) E)
(T (W x00 x00 xbd x00 x00 x00 x16 x02)
(L (W x00 x00 x00 x00 x00 x00 x00 x00)) E)))
(T (W x00 x00 xba x00 x00 x00 x48 x02)
(T (W x00 x00 x00 x00 x00 x00 x00 x00)
(T (W x00 x00 x00 x00 x00 x00 x00 x00)
(L (W x00 x00 x00 x00 x1e x00 x00 x00)) E)
(T (W x00 x00 x00 x00 x02 x1b x50 x8c)
(L (W x01 x00 x03 x00 x02 x03 x05 x04)) E))
(T (W xff x01 x01 x00 x00 x00 x00 x00)
(T (W x00 x1f x2a xb3 x84 x02 x00 x00)
(L (W x01 x00 x00 x00 x00 x00 x00 x00)) E)
(T (W x00 x00 x00 x00 x00 x00 x00 x00)
(L (W x01 x01 x01 x01 x01 x01 x01 x01)) E))))))
(T (W x01 x01 x01 x01 x01 x01 x01 x01)
(T (W x08 x00 x00 x00 x1f x00 x00 x00)
(T (W x02 x00 x03 x00 x02 x03 x04 x04)
(T (W x00 x00 x00 x00 x00 x00 x00 x00)
(T (W x00 x00 x00 x00 x7a x04 x53 xcc)
(T (W x00 x00 x00 x00 x00 x00 x00 x00)
(L (W x00 x00 xc6 x02 x00 x00 xc6 x02))
(L (W x00 x83 x68 x03 x85 x09 x00 x02)))
(T (W x01 x00 x01 x00 x01 x01 x04 x04)
(L (W x00 x00 x00 x00 x00 x00 x00 x00)) E))
(T (W x00 x00 x00 x00 x00 x00 x00 x00)
(T (W x1e x00 x00 x00 x00 x00 x3c x00)
(L (W x00 x02 x00 x00 x5d x00 x00 x00)) E)
(T (W x05 x05 x03 x03 x03 x02 x02 x03)
(L (W x58 x00 x58 x00 x58 x00 x05 x04)) E)))
(T (W x05 x05 x03 x03 x04 x02 x02 x03)
(T (W x00 x00 x34 x00 x00 x00 xf3 x01)
(T (W xbe x01 x40 x00 x00 x00 x00 x00)
(L (W x08 x00 x00 x00 x6c x03 x00 x00))
(L (W x05 x05 x05 x05 x06 x02 x02 x05)))
(T (W x13 x80 x20 xab x8a x00 x81 x0c)
(L (W x1e x00 x00 x00 x00 x00 x28 x00)) E))
(T (W x00 x02 x00 x00 x00 x00 x23 x00)
(T (W x91 x00 x69 x00 x4f x00 x00 x00)
(L (W x00 x00 x00 x00 x00 x00 x00 x00)) E)
(T (W x40 x00 x00 x00 x7e x87 x50 x8d)
(L (W x00 x00 x00 x00 x00 x00 x00 x00)) E))))
(T (W x00 x00 x00 x00 x00 x00 x69 x00)
(T (W x00 x00 x00 x00 x00 x00 x00 x00)
(T (W x01 x00 x00 x00 x00 x00 x00 x00)
(T (W x05 x05 x03 x03 x04 x02 x02 x03)
(L (W x4b x00 x4b x00 x4b x00 x00 x00))
(L (W x00 x00 x00 x00 x7e x01 x00 x00)))
(T (W x00 x00 x00 x00 x43 x00 x60 x00)
(L (W x00 x00 x00 x00 x00 x00 x00 x00)) E))
(T (W x03 x00 x02 x00 x02 x02 x03 x03)
(T (W x00 x00 x00 x00 x00 x00 x00 x00)
(L (W x00 x0f x2a xb3 x80 x92 x00 x88)) E)
(T (W x8c x02 x02 x00 x00 x00 x00 x00)
(L (W x00 x00 x00 x00 x00 x00 x00 x00)) E)))
(T (W x4b x02 x02 x00 x00 x00 x00 x00)
(T (W x35 x00 x52 x00 x5f x00 xc8 x03)
(T (W x00 x00 x00 x00 x02 x04 x12 x8c)
(L (W x02 x00 x02 x00 x03 x02 x04 x03)) E)
(T (W x00 x00 x00 x00 x00 x00 x00 x00)
(L (W x00 x00 x00 x00 x00 x00 x00 x00)) E))
(T (W x00 x00 x00 x00 x00 x00 x00 x00)
(T (W x00 x00 x00 x00 x1f x02 x00 x00)
(L (W x05 x05 x02 x03 x03 x02 x02 x02)) E)
(T (W x1e x00 x00 x00 x00 x00 x32 x00)
(L (W x00 x00 x00 x00 x00 x00 x00 x00)) E)))))
(T (W xff x01 x00 x01 x00 x00 x21 x02)
(T (W x00 x00 x00 x00 x86 xe4 x30 x4c)
(T (W x00 x00 xbc x01 x00 x00 x59 x00)
(T (W x00 x00 x00 x00 x00 x00 x00 x00)
(T (W x00 x00 x00 x00 x00 x00 x00 x00)
(L (W x00 x00 x00 x00 x00 x00 x00 x00))
(L (W x00 x00 xce x02 x00 x00 xce x02)))
(T (W x00 x00 x00 x00 x00 x0a x10 x4e)
(L (W x00 x00 x00 x00 x00 x00 x00 x00)) E))
(T (W x00 x00 x00 x00 x00 x00 x00 x00)
(T (W x00 xab x70 x87 xc4 x00 x01 x02)
(L (W x1e x00 x00 x00 x00 x00 x37 x00)) E)
(T (W x00 x00 x00 x00 x00 x00 x00 x00)
(L (W x01 x01 x01 x01 x01 x01 x01 x01)) E)))
(T (W x00 x00 x00 x00 x00 x00 x00 x00)
(T (W x00 x00 x00 x00 x00 x00 x00 x00)
(T (W x02 x00 x02 x00 x02 x02 x05 x04)
(L (W x2d x02 x08 x00 x00 x00 x00 x00))
(L (W x00 x00 x00 x00 xae x03 x00 x00)))
(T (W x00 x00 x0e x00 x00 x00 xa3 x00)
(L (W x00 x00 x00 x00 x00 x00 x00 x00)) E))
(T (W x1e x00 x00 x00 x00 x00 x37 x00)
(T (W x05 x05 x05 x05 x06 x02 x02 x05)
(L (W x09 x00 x09 x00 x1f x00 x85 x03)) E)
(T (W x00 x82 x00 x00 x00 x00 x00 x00)
(L (W x00 x00 x00 x00 x00 x00 x00 x00)) E))))
(T (W x01 x00 x00 x00 x00 x00 x00 x00)
(T (W x12 x00 x12 x00 x3e x00 x00 x00)
(T (W x00 x00 x00 x00 x00 x00 x00 x00)
(T (W x00 x00 x00 x00 x9f x01 x00 x00)
(L (W x05 x05 x05 x05 x05 x02 x02 x05))
(L (W x00 x00 x00 x00 x00 x00 x00 x00)))
(T (W x1e x00 x00 x00 x00 x00 x32 x00)
(L (W x00 x00 x00 x00 x00 x00 x00 x00)) E))
(T (W x00 x00 x00 x00 x00 x00 x00 x00)
(T (W x00 x00 x00 x00 x00 x00 x00 x00)
(L (W x00 x00 xf2 x02 x00 x00 xf2 x02)) E)
(T (W x02 x00 x03 x00 x02 x03 x05 x04)
(L (W x00 x00 x00 x00 x00 x00 x00 x00)) E)))
(T (W x02 x00 x02 x00 x02 x02 x04 x04)
(T (W x05 x05 x03 x04 x04 x02 x02 x03)
(T (W x20 x80 x00 x00 x00 x00 x1d x00)
(L (W x00 x00 x00 x00 x7b x04 x11 x9c)) E)
(T (W x00 x00 x00 x00 x00 x00 x00 x00)
(L (W x00 x00 x00 x00 x00 x00 x00 x00)) E))
(T (W x00 x00 x00 x00 x00 x00 x00 x00)
(T (W x3c x02 x08 x00 x00 x00 x00 x00)
(L (W x04 x00 x00 x00 x50 x00 x00 x00)) E)
(T (W x00 x00 x00 x00 x00 x00 x00 x00)
(L (W x01 x00 x00 x00 x00 x00 x00 x00)) E)))))))
(T (W x78 x02 x20 x00 x00 x00 x00 x00)
(T (W x00 x00 x00 x00 x00 x00 x00 x00)
(T (W x00 x00 x01 x00 x00 x00 x00 x00)
(T (W x05 x05 x02 x02 x02 x02 x02 x02)
(T (W x00 x00 x00 x00 x73 x10 x12 x0c)
(T (W x00 x00 x00 x00 x00 x00 x00 x00)
(T (W x0a x00 x00 x00 x00 x00 x00 x00)
(L (W x00 x00 x00 x00 x00 x00 x00 x00))
(L (W x00 x00 x00 x00 x02 x0b x10 x1f)))
(T (W x05 x05 x04 x05 x05 x02 x02 x04)
(L (W x80 x00 x80 x00 x80 x00 xa8 x03)) E))
(T (W x00 x00 x00 x00 x00 x00 x00 x00)
(T (W x02 x00 x02 x00 x03 x02 x03 x03)
(L (W xff x01 x10 x00 x00 x00 x00 x00)) E)
(T (W x00 x00 x00 x00 x00 x00 x00 x00)
(L (W x40 x4b x37 x13 x80 x01 x00 x05)) E)))
(T (W x00 x00 x3b x00 x00 x00 x00 x00)
(T (W x60 x00 x00 x00 x00 x00 x00 x00)
(T (W x00 x00 x00 x00 x00 x00 x00 x00)
(L (W x00 x00 x00 x00 x00 x00 x00 x00))
(L (W x00 x00 x00 x00 x00 x00 x00 x00)))
(T (W x40 x00 x00 x00 x01 x20 x30 x8d)
(L (W x02 x00 x02 x00 x03 x02 x04 x04)) E))
(T (W x00 x00 x00 x00 x00 x00 x00 x00)
(T (W x00 x40 x6e x83 x82 x13 x01 x30)
(L (W x00 x00 x00 x00 x00 x00 x00 x00)) E)
(T (W x08 x00 x00 x00 xfe x02 x00 x00)
(L (W x01 x01 x01 x01 x01 x01 x01 x01)) E))))
(T (W x00 x00 x00 x00 x00 x00 x00 x00)
(T (W x1e x00 x00 x00 x00 x00 x28 x00)
(T (W x03 x00 x01 x00 x01 x03 x04 x04)
(T (W x00 x00 x00 x00 x00 x00 x00 x00)
(L (W x00 x43 x70 x4f x8f x11 x00 x03))
(L (W x1e x00 x00 x00 x00 x00 x28 x00)))
(T (W xc8 x02 x80 x00 x00 x00 x00 x00)
(L (W x00 x00 x00 x00 x00 x00 x00 x00)) E))
(T (W x01 x01 x01 x01 x01 x01 x01 x01)
(T (W x00 x00 x00 x00 x00 x00 x00 x00)
(L (W x00 x00 x00 x00 x62 x4b x10 x6e)) E)
(T (W x63 x00 x63 x00 x63 x00 x00 x00)
(L (W x00 x00 x00 x00 x00 x00 x00 x00)) E)))
(T (W x00 x00 x00 x00 x00 x00 x00 x00)
(T (W x00 x00 x00 x00 x00 x00 x00 x00)
(T (W x00 x00 x00 x00 xbf x01 x00 x00)
(L (W x05 x05 x02 x03 x03 x02 x02 x02)) E)
(T (W x1e x00 x00 x00 x00 x00 x28 x00)
(L (W x00 x00 x00 x00 x00 x00 x00 x00)) E))
(T (W x00 x00 x00 x00 x00 x00 x00 x00)
(T (W x00 x00 x00 x00 x00 x00 x00 x00)
(L (W x00 x00 x0e x00 x00 x00 x3b x00)) E)
(T (W x03 x00 x03 x00 x02 x03 x04 x03)
(L (W x00 x00 x00 x00 x00 x00 x00 x00)) E)))))
(T (W x38 x00 xac x00 x77 x00 x00 x00)
(T (W x00 x00 x00 x00 x3f x00 x00 x00)
(T (W x80 x00 x00 x00 x00 x00 x00 x00)
(T (W x00 x00 x00 x00 x00 x00 x00 x00)
(T (W x00 x00 x00 x00 x00 x00 x00 x00)
(L (W x1e x00 x00 x00 x00 x00 x28 x00))
(L (W x00 x00 x00 x00 x9e x00 x00 x00)))
(T (W x00 x00 x00 x00 x3f x02 x00 x00)
(L (W x01 x01 x01 x01 x01 x01 x01 x01)) E))
(T (W x00 x00 x00 x00 x00 x00 x00 x00)
(T (W x00 x00 x00 x00 x04 xcb x18 xee)
(L (W x01 x00 x03 x00 x03 x03 x05 x05)) E)
(T (W x00 x00 x00 x00 x00 x00 x00 x00)
(L (W x00 x00 x00 x00 x00 x00 x00 x00)) E)))
(T (W x00 x00 x00 x00 x00 x00 x00 x00)
(T (W x0a x00 x00 x00 x00 x00 x28 x00)
(T (W x05 x05 x04 x04 x05 x02 x02 x04)
(L (W x2a x00 x2a x00 x2a x00 x00 x00))
(L (W x00 x00 x00 x00 xba x00 x00 x00)))
(T (W x00 xc2 x00 x00 x3f x00 x77 x00)
(L (W x00 x00 x00 x00 x00 x00 x00 x00)) E))
(T (W x02 x00 x02 x00 x02 x02 x03 x03)
(T (W x00 x00 x74 x01 x00 x00 x74 x01)
(L (W x27 xc0 xa6 xa3 x82 x0b x00 x08)) E)
(T (W x2d x02 x80 x00 x00 x00 x00 x00)
(L (W x00 x00 x00 x00 x00 x00 x00 x00)) E))))
(T (W x00 x00 x00 x00 x00 x00 x00 x00)
(T (W x04 x80 x20 xa3 x86 xc3 x00 x00)
(T (W x00 x00 x00 x00 x7a x14 x13 x0c)
(T (W x00 x00 x00 x00 x00 x00 x00 x00)
(L (W x00 x00 xb3 x02 x00 x00 xb3 x02))
(L (W x00 x00 x00 x00 x00 x00 x00 x00)))
(T (W x02 x00 x03 x00 x03 x03 x03 x03)
(L (W x00 x00 x00 x00 x00 x00 x00 x00)) E))
(T (W x06 x00 x00 x00 x3f x01 x00 x00)
(T (W x01 x00 x00 x00 x00 x00 x00 x00)
(L (W x08 x80 x00 x00 x68 x00 x9d x00)) E)
(T (W x05 x05 x04 x04 x05 x02 x02 x04)
(L (W x00 x00 x00 x00 x00 x00 x00 x00)) E)))
(T (W x01 x01 x01 x01 x01 x01 x01 x01)
(T (W x00 x00 x37 x01 x00 x00 x38 x00)
(T (W x78 x01 x04 x00 x00 x00 xf6 x00)
(L (W x00 x00 x00 x00 x8f x03 x00 x00)) E)
(T (W x40 x83 x70 x87 x81 x58 x23 x0b)
(L (W x01 x00 x00 x00 x00 x00 x00 x00)) E))
(T (W x00 x00 x01 x00 x00 x00 xa1 x00)
(T (W x16 x00 x99 x00 x53 x00 x00 x00)
(L (W x01 x00 x01 x00 x4e x01 x01 x00)) E)
(T (W x00 x00 x00 x00 x00 x13 x10 x0c)
(L (W x00 x00 x00 x00 x00 x00 x00 x00)) E))))))
(T (W x00 x00 x00 x00 x00 x00 x00 x00)
(T (W x00 x00 x00 x00 x76 xa7 x52 x9d)
(T (W x01 x00 x00 x00 x00 x00 x00 x00)
(T (W x45 x00 x1f x00 x04 x00 x00 x00)
(T (W x04 x83 xa1 xa3 x86 xc3 x00 x26)
(T (W x00 x00 x00 x00 x7f x01 x00 x00)
(L (W x05 x05 x03 x03 x03 x02 x02 x03))
(L (W x00 x00 x00 x00 x00 x00 x00 x00)))
(T (W x1e x00 x00 x00 x00 x00 x2d x00)
(L (W x00 x00 x00 x00 x00 x00 x00 x00)) E))
(T (W x00 x00 x00 x00 x00 x00 x14 x0c)
(T (W x00 x00 x00 x00 x00 x00 x00 x00)
(L (W x00 x00 x33 x00 x00 x00 x33 x00)) E)
(T (W x02 x00 x03 x00 x02 x03 x03 x03)
(L (W x00 x00 x00 x00 x00 x00 x00 x00)) E)))
(T (W x02 x00 x03 x00 x02 x03 x02 x02)
(T (W x05 x05 x05 x05 x05 x02 x02 x05)
(T (W x00 x00 x00 x00 x00 x00 x00 x00)
(L (W x00 x00 x00 x00 x80 x10 x30 x0d))
(L (W x02 x00 x03 x00 x02 x03 x04 x04)))
(T (W x5d x00 x4b x00 x8e x00 x00 x00)
(L (W x00 x00 x00 x00 x74 x01 x00 x00)) E))
(T (W x00 x00 x00 x00 x00 x00 x00 x00)
(T (W x00 x00 x00 x00 x00 x00 x00 x00)
(L (W x00 x00 x00 x00 xde x03 x00 x00)) E)
(T (W x00 x8f xec x93 xc4 x10 x00 x80)
(L (W x01 x00 x00 x00 x00 x00 x00 x00)) E))))
(T (W x00 x00 x19 x01 x00 x00 x39 x00)
(T (W x00 x00 x00 x00 x7f x00 x00 x00)
(T (W x00 x00 x00 x00 x4b x00 x00 x00)
(T (W x02 x00 x02 x00 x02 x02 x05 x05)
(L (W x00 x00 x00 x00 x00 x00 x00 x00))
(L (W x02 x00 x00 x00 x5e x03 x00 x00)))
(T (W x00 x00 xb1 x01 x00 x00 xf7 x00)
(L (W x00 x00 x00 x00 x00 x00 x00 x00)) E))
(T (W x01 x00 x00 x00 x00 x00 x00 x00)
(T (W x01 x01 x01 x01 x01 x01 x01 x01)
(L (W x13 x00 x13 x00 xf6 x00 x00 x00)) E)
(T (W x00 x00 x02 x00 x00 x00 x00 x00)
(L (W x00 x00 x00 x00 x00 x00 x00 x00)) E)))
(T (W x00 x00 x00 x00 x00 x00 x2b x00)
(T (W x00 x00 x00 x00 x00 x00 x00 x00)
(T (W x33 x80 xe1 x8b x86 x0e x11 x8e)
(L (W x1e x00 x00 x00 x00 x00 x32 x00)) E)
(T (W x00 x00 x00 x00 x7f x02 x00 x00)
(L (W x05 x05 x03 x03 x03 x02 x02 x03)) E))
(T (W x17 x00 x17 x00 x8c x00 x00 x00)
(T (W x00 x00 x00 x00 x00 x00 x10 x4c)
(L (W x01 x00 x03 x00 x03 x03 x05 x05)) E)
(T (W x00 x00 x00 x00 x00 x00 x00 x00)
(L (W x00 x00 x00 x00 x00 x00 x00 x00)) E)))))
(T (W x90 x00 x00 x00 x00 x00 x00 x00)
(T (W x00 x00 x00 x00 x00 x00 x00 x00)
(T (W x05 x05 x05 x05 x06 x02 x02 x05)
(T (W x00 x00 xae x00 x00 x00 x9d x00)
(T (W x00 x00 x00 x00 x00 x00 x00 x00)
(L (W x00 x00 x00 x00 x62 x03 x00 x00))
(L (W x05 x05 x04 x05 x05 x02 x02 x04)))
(T (W x00 x00 x00 x00 x00 x00 x00 x00)
(L (W x01 x00 x00 x00 x00 x00 x00 x00)) E))
(T (W x00 x00 x00 x00 x00 x00 x00 x00)
(T (W x1a x00 x1a x00 x1a x00 x00 x00)
(L (W x00 x00 x00 x00 xef x00 x00 x00)) E)
(T (W x00 x00 x00 x00 x93 x00 x50 x0c)
(L (W x00 x00 x00 x00 x00 x00 x00 x00)) E)))
(T (W x00 x00 x00 x00 x00 x00 x00 x00)
(T (W x00 x00 x00 x00 xff x00 x00 x00)
(T (W x01 x00 x00 x00 x00 x00 x00 x00)
(L (W x00 x00 x00 x00 x00 x00 x00 x00))
(L (W x80 x00 x00 x00 x00 x30 x30 x8c)))
(T (W x05 x05 x02 x03 x04 x02 x02 x02)
(L (W x00 x00 x00 x00 x00 x00 x00 x00)) E))
(T (W x00 x00 x00 x00 x00 x00 x00 x00)
(T (W x02 x00 x02 x00 x02 x02 x03 x03)
(L (W xbe x02 x80 x00 x00 x00 xec x00)) E)
(T (W x00 x00 x00 x00 x00 x00 x00 x00)
(L (W x00 x00 x00 x00 x00 x00 x00 x00)) E))))
(T (W x00 x00 x00 x00 x8d x00 x00 x00)
(T (W x2d x02 x20 x00 x00 x00 x00 x00)
(T (W x00 x00 x00 x00 x00 x00 x00 x00)
(T (W x00 x00 x00 x00 x00 x00 x00 x00)
(L (W x01 x00 x01 x00 x01 x01 x0a x0a))
(L (W x00 x00 x00 x00 x00 x00 x00 x00)))
(T (W x00 x00 x00 x00 x00 x00 x00 x00)
(L (W x00 x00 x00 x00 x00 x00 x00 x00)) E))
(T (W x00 x00 x00 x00 x00 x00 x00 x00)
(T (W x00 x00 x00 x00 x00 x00 x00 x00)
(L (W x05 x05 x03 x03 x03 x02 x02 x03)) E)
(T (W x1e x00 x00 x00 x00 x00 x37 x00)
(L (W x00 x00 x00 x00 x00 x00 x00 x00)) E)))
(T (W x1e x00 x00 x00 x00 x00 x32 x00)
(T (W x02 x00 x02 x00 x02 x02 x05 x05)
(T (W x00 x00 x11 x02 x00 x00 x59 x00)
(L (W x00 x80 x74 x83 xc1 x00 x43 x00)) E)
(T (W x00 x00 x00 x00 x00 x00 x00 x00)
(L (W x00 x00 x00 x00 x82 x02 x00 x00)) E))
(T (W x05 x05 x03 x03 x04 x02 x02 x03)
(T (W x00 x08 x00 x00 x7a x00 x00 x00)
(L (W x00 x00 x00 x00 x00 x00 x00 x00)) E)
(T (W x33 x00 x48 x00 x50 x00 x6b x04)
(L (W x01 x00 x00 x00 xbf x00 x00 x00)) E))))))))))
(T (W x00 x0c x2a xb3 x84 x42 x04 x00)
(T (W x10 x00 x00 x00 x44 x00 x00 x00)
(T (W x00 x00 x00 x00 x03 x00 x00 x00)
(T (W x12 x00 x00 x00 x07 x84 x10 x8d)
(T (W x0e x00 x0e x00 x6e x00 x00 x00)
(T (W x01 x01 x01 x01 x01 x01 x01 x01)
(T (W x00 x00 x00 x00 x00 x00 x00 x00)
(T (W x1e x00 x00 x00 x00 x00 x3c x00)
(T (W x03 x00 x03 x00 x01 x03 x05 x05)
(T (W x00 x00 x74 x00 x00 x00 x51 x01)
(L (W x00 x02 x60 x87 x81 x09 x41 x04))
(L (W x1e x00 x00 x00 x00 x00 x32 x00)))
(T (W xb4 x01 x04 x00 x00 x00 x27 x01)
(L (W x00 x00 x00 x00 x67 x00 x00 x00)) E))
(T (W x05 x05 x04 x04 x05 x02 x02 x04)
(T (W x10 x00 x00 x00 x51 x00 x00 x00)
(L (W x00 x00 x00 x00 x04 x80 x90 x0c)) E)
(T (W x00 x00 x00 x00 x00 x00 x00 x00)
(L (W x01 x00 x00 x00 x00 x00 x00 x00)) E)))
(T (W x21 x00 x04 x00 x85 x00 x00 x00)
(T (W x00 x4b xa0 x0b x86 x01 x00 x70)
(T (W x00 x00 x00 x00 x00 x00 x00 x00)
(L (W x05 x05 x05 x05 x06 x02 x02 x05))
(L (W x00 x00 x00 x00 x00 x00 x00 x00)))
(T (W x1e x00 x00 x00 x00 x00 x32 x00)
(L (W x00 x00 x00 x00 x00 x00 x00 x00)) E))
(T (W x00 x00 x00 x00 x00 x00 x00 x00)
(T (W x00 x00 x00 x00 x00 x00 x00 x00)
(L (W x00 x00 x10 x03 x00 x00 x10 x03)) E)
(T (W x02 x00 x01 x00 x02 x01 x06 x06)
(L (W x00 x00 x00 x00 x00 x00 x00 x00)) E))))
(T (W x00 x00 x00 x00 x00 x00 x00 x00)
(T (W x00 x00 x6c x00 x00 x00 xef x00)
(T (W x00 x00 x00 x00 x00 x00 x00 x00)
(T (W x00 x00 x00 x00 x00 x00 x00 x00)
(L (W x00 x00 x00 x00 xe9 x00 x00 x00))
(L (W x00 x00 xce x02 x00 x00 xce x02)))
(T (W x00 x00 x00 x00 x60 x00 x10 x0c)
(L (W x00 x00 x00 x00 x00 x00 x00 x00)) E))
(T (W x2d x02 x14 x00 x00 x00 x16 x01)
(T (W x00 x00 x00 x00 x00 x00 x00 x00)
(L (W x1e x00 x00 x00 x00 x00 x28 x00)) E)
(T (W x00 x00 x00 x00 xda x02 x00 x00)
(L (W x01 x01 x01 x01 x01 x01 x01 x01)) E)))
(T (W x00 x00 x00 x00 xa3 x00 x00 x00)
(T (W x00 x00 x00 x00 x00 x00 x00 x00)
(T (W x02 x00 x03 x00 x02 x03 x05 x05)
(L (W x2d x03 xc0 x00 x00 x00 x00 x00))
(L (W x00 x00 x00 x00 xac x03 x00 x00)))
(T (W x00 x00 xd4 x01 x00 x00 x93 x01)
(L (W x00 x00 x00 x00 x00 x00 x00 x00)) E))
(T (W x1e x00 x00 x00 x00 x00 x32 x00)
(T (W x05 x05 x03 x03 x03 x02 x02 x03)
(L (W x00 x00 x00 x00 x00 x00 x00 x00)) E)
(T (W x00 x01 x00 x00 x00 x00 x00 x00)
(L (W x00 x00 x00 x00 x00 x00 x00 x00)) E)))))
(T (W x00 x00 x00 x00 x23 x00 x00 x00)
(T (W x02 x00 x03 x00 x02 x03 x05 x05)
(T (W x2b x83 xe1 x8b x85 x09 x01 x08)
(T (W x00 x00 x00 x00 x00 x00 x00 x00)
(T (W x00 x00 x00 x00 x00 x00 x00 x00)
(L (W x00 x00 x93 x00 x00 x00 x9c x02))
(L (W x00 x00 x00 x00 x00 x00 x00 x00)))
(T (W x02 x00 x03 x00 x02 x03 x04 x04)
(L (W x00 x00 x00 x00 x00 x00 x00 x00)) E))
(T (W x00 x00 x00 x00 x23 x01 x00 x00)
(T (W x1e x00 x00 x00 x00 x00 x32 x00)
(L (W x08 x00 x00 x00 x00 x00 x00 x00)) E)
(T (W x05 x05 x02 x03 x03 x02 x02 x02)
(L (W x00 x00 x00 x00 x00 x00 x00 x00)) E)))
(T (W x05 x05 x05 x06 x07 x02 x02 x05)
(T (W x00 x00 xac x00 x00 x00 x00 x00)
(T (W x00 x00 x00 x00 x00 x00 x00 x00)
(L (W x00 x00 x00 x00 x76 x03 x00 x00))
(L (W x05 x05 x04 x04 x05 x02 x02 x04)))
(T (W x00 x03 x20 x93 x83 x01 x20 xb1)
(L (W x1e x00 x00 x00 x00 x00 x28 x00)) E))
(T (W x00 x10 x00 x00 x00 x00 x00 x00)
(T (W x05 x00 x85 x00 x9f x00 x00 x00)
(L (W x00 x00 x00 x00 x00 x00 x00 x00)) E)
(T (W x00 x00 x00 x00 x04 x88 x50 x0c)
(L (W x00 x00 x00 x00 x00 x00 x00 x00)) E))))
(T (W x08 x00 x00 x00 x69 x00 x00 x00)
(T (W x00 x00 x00 x00 x00 x00 x00 x00)
(T (W x1e x00 x00 x00 x00 x00 x3c x00)
(T (W x05 x05 x03 x03 x04 x02 x02 x03)
(L (W xc9 x00 x9d x00 x0d x00 x00 x00))
(L (W x00 x00 x00 x00 x00 x00 x00 x00)))
(T (W x00 x20 x00 x00 xc1 x00 x00 x00)
(L (W x00 x00 x00 x00 x7a x0c x12 x0c)) E))
(T (W x00 x00 x00 x00 x00 x00 x00 x00)
(T (W x00 x00 x00 x00 x00 x00 x00 x00)
(L (W x00 x03 x2e x9b x88 x52 x08 x01)) E)
(T (W x50 x02 x08 x00 x00 x00 x00 x00)
(L (W x00 x00 x00 x00 x00 x00 x00 x00)) E)))
(T (W xbe x01 x00 x04 x00 x00 x00 x00)
(T (W x00 x00 x00 x00 x00 x00 x00 x00)
(T (W x00 x00 x00 x00 x81 x04 x50 x6c)
(L (W x02 x00 x03 x00 x02 x03 x03 x03)) E)
(T (W x00 x00 x00 x00 x00 x00 x00 x00)
(L (W x00 x00 xa7 x01 x00 x00 xa3 x01)) E))
(T (W x00 x00 x2a x8b x8a xc0 x00 x00)
(T (W x00 x00 x00 x00 x23 x02 x00 x00)
(L (W x05 x05 x02 x02 x03 x02 x02 x02)) E)
(T (W x01 x00 x00 x00 x00 x00 x00 x00)
(L (W x00 x00 x00 x00 x00 x00 x00 x00)) E))))))
(T (W x00 x00 x00 x00 x00 x00 x00 x00)
(T (W x1e x00 x00 x00 x00 x00 x3c x00)
(T (W x00 x00 x06 x00 x00 x00 x06 x00)
(T (W x04 x00 x00 x00 x63 x00 x00 x00)
(T (W x00 x00 x00 x00 x00 x00 x00 x00)
(T (W x00 x00 x00 x00 x00 x00 x00 x00)
(L (W xc8 x01 x00 x04 x00 x00 xf3 x00))
(L (W x00 x00 x00 x00 x02 x03 x00 x00)))
(T (W x00 x00 xae x00 x00 x00 x9d x00)
(L (W x40 x03 x28 x47 x80 x11 x00 x07)) E))
(T (W x01 x00 x00 x00 x00 x00 x00 x00)
(T (W x05 x05 x04 x05 x05 x02 x02 x04)
(L (W xf5 x00 x3d x00 x08 x00 x00 x00)) E)
(T (W x00 x00 x00 x00 x00 x00 x00 x00)
(L (W x80 x00 x00 x00 x64 x0b x1c x0c)) E)))
(T (W x08 x02 x00 x00 x00 x00 xcb x00)
(T (W x2d x01 x40 x00 x00 x00 x42 x01)
(T (W x00 x40 xb0 x8b xc6 x41 x00 x02)
(L (W x0a x00 x00 x00 x00 x00 x28 x00))
(L (W x00 x02 x00 x00 x5d x00 x00 x00)))
(T (W x00 x00 x00 x00 x63 x02 x00 x00)
(L (W x05 x05 x03 x03 x03 x02 x02 x03)) E))
(T (W x00 x00 x00 x00 x00 x00 x00 x00)
(T (W x00 x00 x00 x00 x00 x08 x12 x0e)
(L (W x00 x00 x00 x00 x00 x00 x00 x00)) E)
(T (W x00 x00 x00 x00 x85 x01 x00 x00)
(L (W x00 x00 x00 x00 x00 x00 x00 x00)) E))))
(T (W x00 x00 x00 x00 x00 x00 x00 x00)
(T (W x01 x00 x03 x00 x01 x03 x05 x05)
(T (W x05 x05 x02 x03 x03 x02 x02 x02)
(T (W x00 x00 x00 x00 x00 x00 x00 x00)
(L (W x00 x00 x00 x00 x00 x00 x00 x00))
(L (W x02 x00 x02 x00 x03 x02 x03 x03)))
(T (W x44 x00 x3d x00 x63 x00 x00 x00)
(L (W x00 x00 x00 x00 x00 x00 x00 x00)) E))
(T (W x00 x00 x00 x00 x00 x00 x00 x00)
(T (W x00 x00 x00 x00 x00 x00 x00 x00)
(L (W x08 x00 x00 x00 xd3 x03 x00 x00)) E)
(T (W x00 x13 x65 x83 x86 x08 x00 x00)
(L (W x01 x00 x00 x00 x00 x00 x00 x00)) E)))
(T (W x40 x03 xa1 xd3 x86 x01 x00 x07)
(T (W x00 x00 x00 x00 x00 x00 x00 x00)
(T (W x00 x00 x00 x00 x2b x01 x00 x00)
(L (W x00 x00 x22 x00 x00 x00 x22 x00)) E)
(T (W x03 x00 x03 x00 x03 x03 x03 x03)
(L (W x00 x00 x00 x00 x00 x00 x00 x00)) E))
(T (W x00 x00 x00 x00 x63 x01 x00 x00)
(T (W x01 x00 x00 x00 x00 x00 x00 x00)
(L (W x00 x00 x00 x00 x00 x00 x00 x00)) E)
(T (W x05 x05 x04 x05 x05 x02 x02 x04)
(L (W x00 x00 x00 x00 x00 x00 x00 x00)) E)))))
(T (W x40 x00 xa0 xd3 x86 x01 x00 x07)
(T (W x00 x00 x00 x00 x00 x00 x00 x00)
(T (W x78 x01 x10 x00 x00 x00 x00 x00)
(T (W x00 x00 x00 x00 x00 x00 x00 x00)
(T (W x00 x00 x00 x00 x00 x00 x00 x00)
(L (W x03 x00 x03 x00 x02 x03 x04 x04))
(L (W x03 x03 x03 x00 x00 x00 x00 x00)))
(T (W x00 x00 x00 x00 x0d x01 x00 x00)
(L (W x00 x00 x00 x00 x00 x00 x00 x00)) E))
(T (W x00 x00 x00 x00 x00 x00 x00 x00)
(T (W x08 x00 x00 x00 xe3 x01 x00 x00)
(L (W x05 x05 x03 x03 x04 x02 x02 x03)) E)
(T (W x01 x00 x00 x00 x00 x00 x00 x00)
(L (W x00 x00 x00 x00 x00 x00 x00 x00)) E)))
(T (W x01 x00 x00 x00 x00 x00 x00 x00)
(T (W x02 x00 x00 x00 x00 x00 x00 x00)
(T (W x00 x00 x4e x01 x00 x00 x68 x01)
(L (W x33 x4b x70 x03 x80 x08 x01 x00))
(L (W x1e x00 x00 x00 x00 x00 x32 x00)))
(T (W x5a x02 x08 x00 x00 x00 x0d x01)
(L (W x00 x00 x00 x00 x00 x00 x00 x00)) E))
(T (W x05 x05 x02 x03 x03 x02 x02 x02)
(T (W x00 x01 x00 x00 x00 x00 x00 x00)
(L (W x00 x00 x00 x00 x12 x13 x30 xcc)) E)
(T (W xbb x00 xbb x00 xbb x00 x62 x04)
(L (W x00 x00 x00 x00 x00 x00 x00 x00)) E))))
(T (W x01 x01 x01 x01 x01 x01 x01 x01)
(T (W x00 x00 x00 x00 x7a x20 x11 xac)
(T (W x08 x00 x00 x00 xe3 x00 x00 x00)
(T (W x01 x00 x00 x00 x00 x00 x00 x00)
(L (W x00 x00 x00 x00 x00 x00 x00 x00))
(L (W x00 x00 x00 x00 x00 x00 x00 x00)))
(T (W x05 x05 x02 x02 x03 x02 x02 x02)
(L (W x00 x00 x00 x00 x00 x00 x00 x00)) E))
(T (W x00 x00 x00 x00 x64 x01 x00 x00)
(T (W x03 x00 x01 x00 x01 x03 x05 x05)
(L (W x5a x02 x08 x00 x00 x00 x17 x01)) E)
(T (W x00 x00 x60 x01 x00 x00 x4a x01)
(L (W x00 x00 x00 x00 x00 x00 x00 x00)) E)))
(T (W x00 x00 x00 x00 x00 x00 x00 x00)
(T (W x10 x00 x00 x00 x00 x00 x00 x00)
(T (W x75 x00 x75 x00 x2b x00 x00 x00)
(L (W x00 x00 x00 x00 x23 x00 x00 x00)) E)
(T (W x40 x00 x00 x00 x60 x08 x10 x0d)
(L (W x00 x00 x00 x00 x00 x00 x00 x00)) E))
(T (W x00 x00 x00 x00 x00 x00 x00 x00)
(T (W x03 x83 xe0 x87 xa1 x0c x03 x0e)
(L (W x1e x00 x00 x00 x00 x00 x3c x00)) E)
(T (W x00 x00 x00 x00 x00 x00 x00 x00)
(L (W x01 x01 x01 x01 x01 x01 x01 x01)) E)))))))
(T (W x13 x83 x60 x8b x9a x6a x81 x08)
(T (W x00 x00 x00 x00 x00 x00 x00 x00)
(T (W x01 x00 x03 x00 x03 x03 x03 x03)
(T (W x00 x00 x00 x00 x00 x00 x00 x00)
(T (W x00 x00 x00 x00 x00 x00 x00 x00)
(T (W x01 x00 x00 x00 x00 x00 x00 x00)
(T (W x05 x05 x04 x04 x05 x02 x02 x04)
(L (W xc4 x00 x07 x00 x90 x00 x00 x00))
(L (W x02 x00 x00 x00 xc0 x00 x00 x00)))
(T (W x00 x06 x00 x00 x00 x00 x00 x00)
(L (W x00 x00 x00 x00 x62 x4b x10 x6e)) E))
(T (W x02 x00 x02 x00 x02 x02 x02 x02)
(T (W x00 x00 xba x00 x00 x00 x17 x03)
(L (W x40 x0b x20 x97 x84 x00 x04 x01)) E)
(T (W x00 x00 x00 x00 x00 x00 x00 x00)
(L (W x04 x00 x00 x00 x87 x02 x00 x00)) E)))
(T (W x19 x02 x02 x00 xea x00 xea x00)
(T (W x3e x00 x50 x00 x48 x00 x00 x00)
(T (W x00 x00 x00 x00 x7a x00 x12 x0c)
(L (W x03 x00 x00 x00 x00 x00 x00 x00))
(L (W xff x03 x00 x03 x00 x00 x00 x00)))
(T (W x00 x00 x00 x00 x20 x01 x00 x00)
(L (W x00 x00 x00 x00 x00 x00 x00 x00)) E))
(T (W x40 x89 x61 xd3 x85 x01 x23 x01)
(T (W x00 x00 x00 x00 x00 x00 x00 x00)
(L (W x05 x05 x04 x04 x04 x02 x02 x04)) E)
(T (W x1e x00 x00 x00 x00 x00 x2d x00)
(L (W x00 x00 x00 x00 x00 x00 x00 x00)) E))))
(T (W x00 x03 xa9 x9b x9a x20 x80 x02)
(T (W x05 x05 x02 x03 x03 x02 x02 x02)
(T (W x00 x00 xba x01 x00 x00 x0e x00)
(T (W x00 x00 x00 x00 x00 x00 x00 x00)
(L (W x00 x00 x00 x00 x35 x03 x00 x00))
(L (W x05 x05 x04 x05 x05 x02 x02 x04)))
(T (W x00 x00 x00 x00 x00 x00 x00 x00)
(L (W x01 x00 x00 x00 x00 x00 x00 x00)) E))
(T (W x00 x00 x01 x00 x00 x00 xc0 x00)
(T (W x00 x00 x00 x00 x00 x00 x00 x00)
(L (W x01 x00 x01 x00 xed x00 x01 x00)) E)
(T (W x00 x00 x00 x00 x00 x09 x10 x8e)
(L (W x00 x00 x00 x00 x00 x00 x00 x00)) E)))
(T (W x00 x00 x00 x00 x00 x00 x00 x00)
(T (W x00 x00 x00 x00 x03 x01 x00 x00)
(T (W x1e x00 x00 x00 x00 x00 x37 x00)
(L (W x00 x00 x00 x00 x00 x00 x00 x00))
(L (W x00 x00 x00 x00 x63 x58 x18 x7f)))
(T (W x05 x05 x04 x04 x04 x02 x02 x04)
(L (W x00 x00 x00 x00 x00 x00 x00 x00)) E))
(T (W x00 x00 x00 x00 x00 x00 x00 x00)
(T (W x03 x00 x03 x00 x02 x03 x03 x03)
(L (W xff x01 x10 x00 x00 x00 x1e x01)) E)
(T (W x00 x00 x96 x02 x00 x00 x5c x01)
(L (W x00 x00 x00 x00 x00 x00 x00 x00)) E)))))
(T (W x00 x00 x00 x00 x06 x90 x10 xce)
(T (W x1e x00 x00 x00 x00 x00 x28 x00)
(T (W x14 x00 x0c x00 x0d x00 x00 x00)
(T (W x00 x00 x00 x00 x00 x00 x00 x00)
(T (W x00 x00 x00 x00 x00 x00 x00 x00)
(L (W x05 x05 x03 x03 x03 x02 x02 x03))
(L (W x33 x00 x48 x00 x63 x00 x6c x04)))
(T (W x1e x00 x00 x00 x00 x00 x28 x00)
(L (W x00 x00 x00 x00 x00 x00 x00 x00)) E))
(T (W x00 x00 x00 x00 xe6 x84 x10 x0c)
(T (W x00 x00 x00 x00 x00 x00 x00 x00)
(L (W x00 x00 x14 x00 x00 x00 x14 x00)) E)
(T (W x00 x00 x00 x00 x00 x00 x00 x00)
(L (W x00 x00 x00 x00 x00 x00 x00 x00)) E)))
(T (W x00 x00 x00 x00 x00 x00 x00 x00)
(T (W x05 x05 x05 x06 x06 x02 x02 x05)
(T (W x00 x00 x00 x00 x00 x00 x00 x00)
(L (W x00 x00 x00 x00 x04 x88 x10 x4e))
(L (W x02 x00 x03 x00 x02 x03 x04 x04)))
(T (W x27 x00 x90 x00 x78 x00 x00 x00)
(L (W x00 x00 x00 x00 x00 x00 x00 x00)) E))
(T (W x00 x00 x85 x00 x00 x00 x59 x00)
(T (W xbe x01 x40 x00 x00 x00 x00 x00)
(L (W x00 x00 x00 x00 x00 x00 x00 x00)) E)
(T (W x00 x03 x68 x8b x8a x00 x09 x00)
(L (W x01 x00 x00 x00 x00 x00 x00 x00)) E))))
(T (W x00 x00 x00 x00 x00 x00 x00 x00)
(T (W x0c x00 x00 x00 x83 x00 x00 x00)
(T (W x00 x00 x00 x00 x95 x00 x00 x00)
(T (W x00 x00 x00 x00 x00 x00 x00 x00)
(L (W x2d x02 x20 x00 x00 x00 x46 x01))
(L (W x00 x00 x00 x00 x00 x00 x00 x00)))
(T (W x00 x00 xb3 x01 x00 x00 xb3 x01)
(L (W x00 x00 x00 x00 x00 x00 x00 x00)) E))
(T (W x01 x00 x00 x00 x00 x00 x00 x00)
(T (W x01 x01 x01 x01 x01 x01 x01 x01)
(L (W x27 x00 x1c x00 xe3 x00 x9f x04)) E)
(T (W x00 x10 x00 x00 x00 x00 x00 x00)
(L (W x00 x00 x00 x00 x00 x00 x00 x00)) E)))
(T (W x00 x06 x00 x00 x00 x00 x00 x00)
(T (W x78 x02 x00 x08 x00 x00 xdb x00)
(T (W x00 x00 x00 x00 x00 x00 x00 x00)
(L (W x1e x00 x00 x00 x00 x00 x28 x00)) E)
(T (W x08 x00 x00 x00 x83 x02 x00 x00)
(L (W x01 x01 x01 x01 x01 x01 x01 x01)) E))
(T (W x2f x00 x73 x00 x0c x00 x00 x00)
(T (W x00 x00 x00 x00 x38 x10 x31 x0c)
(L (W x00 x00 x00 x00 x00 x00 x00 x00)) E)
(T (W x00 x00 x00 x00 x10 x00 x00 x00)
(L (W x00 x00 x00 x00 x00 x00 x00 x00)) E))))))
(T (W x00 x00 x00 x00 x00 x00 x00 x00)
(T (W x00 x00 x00 x00 x00 x00 x00 x00)
(T (W x05 x05 x03 x03 x04 x02 x02 x03)
(T (W x00 x00 x00 x00 x01 x08 x50 x0c)
(T (W x04 x00 x00 x00 xc3 x00 x00 x00)
(T (W x0a x00 x00 x00 x00 x00 x28 x00)
(L (W x10 x00 x00 x00 x11 x00 x00 x00))
(L (W x40 x00 x00 x00 x02 x04 x30 x8d)))
(T (W x05 x05 x03 x03 x04 x02 x02 x03)
(L (W x00 x00 x00 x00 x00 x00 x00 x00)) E))
(T (W x00 x00 x00 x00 x00 x00 x00 x00)
(T (W x01 x00 x01 x00 x01 x01 x04 x04)
(L (W x3c x02 x80 x00 x00 x00 x00 x00)) E)
(T (W x00 x00 xa2 x00 x00 x00 x59 x00)
(L (W x00 x00 x00 x00 x00 x00 x00 x00)) E)))
(T (W x00 x00 x5d x01 x00 x00 x97 x01)
(T (W x00 x00 x01 x00 x75 x00 x00 x00)
(T (W x38 x00 x67 x00 x07 x00 x00 x00)
(L (W x00 x00 x00 x00 x00 x00 x00 x00))
(L (W x00 x00 xf7 x00 x00 x00 xca x00)))
(T (W x00 x00 x00 x00 xf1 x00 x10 x4c)
(L (W x02 x00 x03 x00 x03 x03 x03 x03)) E))
(T (W x00 x00 x00 x00 x00 x00 x00 x00)
(T (W x40 x03 x20 xc3 x86 x01 x00 x01)
(L (W x0a x00 x00 x00 x00 x00 x00 x00)) E)
(T (W x00 x00 x00 x00 xf8 x02 x00 x00)
(L (W x01 x01 x01 x01 x01 x01 x01 x01)) E))))
(T (W xbe x01 x01 x00 x00 x00 x17 x01)
(T (W x1e x00 x00 x00 x00 x00 x28 x00)
(T (W x00 x00 x00 x00 x00 x00 x00 x00)
(T (W x00 x00 xf2 x00 x00 x00 xb3 x01)
(L (W x80 x43 xa4 x83 x80 x03 x10 x0f))
(L (W x1e x00 x00 x00 x00 x00 x28 x00)))
(T (W x4b x02 x02 x00 x56 x00 x57 x00)
(L (W x00 x00 x00 x00 x00 x00 x00 x00)) E))
(T (W x01 x01 x01 x01 x01 x01 x01 x01)
(T (W x00 x00 x00 x00 x00 x00 x00 x00)
(L (W x00 x00 x00 x00 x01 x30 x30 x1c)) E)
(T (W xaf x00 xaf x00 x54 x00 x00 x00)
(L (W x00 x00 x00 x00 x00 x00 x00 x00)) E)))
(T (W x09 x00 x09 x00 x1f x00 x00 x00)
(T (W x00 x00 x00 x00 x00 x00 x00 x00)
(T (W x00 x00 x00 x00 xc3 x01 x00 x00)
(L (W x05 x05 x03 x03 x04 x02 x02 x03)) E)
(T (W x1e x00 x00 x00 x00 x00 x32 x00)
(L (W x04 x40 x00 x00 x00 x00 x40 x00)) E))
(T (W x00 x00 x00 x00 x00 x00 x00 x00)
(T (W x00 x00 x00 x00 x00 x00 x00 x00)
(L (W x00 x00 xba x01 x00 x00 x59 x00)) E)
(T (W x02 x00 x02 x00 x03 x02 x03 x03)
(L (W x00 x00 x00 x00 x00 x00 x00 x00)) E)))))
(T (W x22 x00 x22 x00 x01 x00 x00 x00)
(T (W x00 x00 x00 x00 x43 x00 x00 x00)
(T (W x00 x00 x00 x00 x07 x00 x00 x00)
(T (W x00 x00 x00 x00 x00 x00 x00 x00)
(T (W x00 x00 x00 x00 x00 x00 x00 x00)
(L (W x1e x00 x00 x00 x00 x00 x32 x00))
(L (W x01 x00 x00 x00 x00 x00 x00 x00)))
(T (W x00 x00 x00 x00 x43 x02 x00 x00)
(L (W x01 x01 x01 x01 x01 x01 x01 x01)) E))
(T (W x00 x00 x00 x00 x00 x00 x00 x00)
(T (W x00 x00 x00 x00 x02 x07 x10 x0c)
(L (W x02 x00 x03 x00 x03 x03 x03 x03)) E)
(T (W x00 x00 x00 x00 x00 x00 x00 x00)
(L (W x00 x00 x00 x00 x00 x00 x00 x00)) E)))
(T (W x00 x00 x00 x00 x00 x00 x00 x00)
(T (W x1e x00 x00 x00 x00 x00 x28 x00)
(T (W x05 x05 x03 x03 x03 x02 x02 x03)
(L (W x41 x00 x41 x00 xe5 x00 x00 x00))
(L (W x00 x00 x00 x00 x58 x01 x00 x00)))
(T (W x00 x80 x00 x00 x1e x00 x00 x00)
(L (W x00 x00 x00 x00 x00 x00 x00 x00)) E))
(T (W x01 x00 x02 x00 x01 x02 x05 x05)
(T (W x00 x00 x53 x01 x00 x00 x2b x00)
(L (W x27 xc0 xa6 xa3 x82 x0b x00 x08)) E)
(T (W x03 x03 x10 x08 x00 x00 x00 x00)
(L (W x00 x00 x00 x00 x00 x00 x00 x00)) E))))
(T (W x01 x00 x02 x00 x03 x02 x05 x05)
(T (W x00 x4b xa0 x0b x86 x01 x00 x70)
(T (W x40 x00 x00 x00 x7a x30 x11 x0d)
(T (W x00 x00 x00 x00 x75 x00 x00 x00)
(L (W x00 x00 x39 x00 x00 x00 x00 x00))
(L (W x00 x00 x00 x00 x00 x00 x00 x00)))
(T (W x00 x00 x00 x00 x00 x00 x00 x00)
(L (W x00 x00 x00 x00 x00 x00 x00 x00)) E))
(T (W x00 x00 x00 x00 x00 x00 x00 x00)
(T (W x1e x00 x00 x00 x00 x00 x32 x00)
(L (W x08 x10 x00 x00 x00 x00 x00 x00)) E)
(T (W x05 x05 x03 x03 x04 x02 x02 x03)
(L (W x00 x00 x00 x00 x00 x00 x00 x00)) E)))
(T (W x05 x05 x05 x05 x06 x02 x02 x05)
(T (W x00 x00 x00 x00 x00 x00 x00 x00)
(T (W x1e x02 x03 x00 x00 x00 x17 x01)
(L (W x00 x00 x00 x00 x8b x03 x00 x00)) E)
(T (W x40 x4b x37 x13 x80 x01 x00 x05)
(L (W x1e x00 x00 x00 x00 x00 x32 x00)) E))
(T (W x00 x50 x00 x00 x00 x00 xbb x00)
(T (W x0b x00 x22 x00 x72 x00 x00 x00)
(L (W x01 x00 x01 x00 xda x00 x01 x00)) E)
(T (W x00 x00 x00 x00 x00 x08 x14 x2c)
(L (W x02 x00 x03 x00 x03 x03 x03 x03)) E))))))))
(T (W x00 x00 x53 x00 x00 x00 x6c x00)
(T (W x05 x05 x04 x04 x05 x02 x02 x04)
(T (W x01 x00 x00 x00 x00 x00 x00 x00)
(T (W x27 xc0 xa6 xa3 x82 x0b x00 x08)
(T (W x00 x00 x00 x00 x00 x00 x00 x00)
(T (W x2d x01 x10 x00 x00 x00 x00 x00)
(T (W x00 x00 x00 x00 x00 x00 x00 x00)
(T (W x80 x00 x00 x00 x00 x00 x00 x00)
(L (W x02 x00 x02 x00 x01 x02 x05 x05))
(L (W x3c x02 x20 x00 x00 x00 x00 x00)))
(T (W x00 x00 x00 x00 xe1 x00 x00 x00)
(L (W x00 x00 x05 x01 x00 x00 xc4 x02)) E))
(T (W x3b x44 xae xab xc6 x13 x00 x08)
(T (W x00 x00 x00 x00 xd3 x01 x00 x00)
(L (W x05 x05 x05 x05 x05 x02 x02 x05)) E)
(T (W x01 x00 x00 x00 x00 x00 x00 x00)
(L (W x00 x42 x00 x00 x00 x00 x00 x00)) E)))
(T (W x1e x00 x00 x00 x00 x00 x37 x00)
(T (W x00 x00 x00 x00 x00 x00 x00 x00)
(T (W x00 x00 x9e x02 x00 x00 x4a x00)
(L (W x00 x40 x6a x03 x81 x00 x01 x00))
(L (W x1e x00 x00 x00 x00 x00 x28 x00)))
(T (W xbe x01 x00 x01 x00 x00 x00 x00)
(L (W x00 x00 x00 x00 x00 x00 x00 x00)) E))
(T (W x01 x01 x01 x01 x01 x01 x01 x01)
(T (W x00 x00 x00 x00 x00 x00 x00 x00)
(L (W x40 x00 x00 x00 x1c x93 x10 x2d)) E)
(T (W x38 x00 x38 x00 xb6 x00 x00 x00)
(L (W x00 x00 x00 x00 x00 x00 x00 x00)) E))))
(T (W x01 x01 x01 x01 x01 x01 x01 x01)
(T (W x00 x00 x00 x00 x7b x10 x11 x1c)
(T (W x04 x00 x00 x00 xd3 x00 x00 x00)
(T (W x01 x00 x00 x00 x00 x00 x00 x00)
(L (W x00 x21 x00 x00 x85 x00 x00 x00))
(L (W xc1 x00 x00 x00 x35 x01 x38 x0d)))
(T (W x05 x05 x03 x04 x04 x02 x02 x03)
(L (W x00 x00 x00 x00 x00 x00 x00 x00)) E))
(T (W x00 x00 x00 x00 x00 x00 x00 x00)
(T (W x00 x00 x00 x00 x00 x00 x00 x00)
(L (W x5a x02 x08 x00 x00 x00 x00 x00)) E)
(T (W x00 x00 x00 x00 x00 x00 x00 x00)
(L (W x00 x00 x00 x00 x00 x00 x00 x00)) E)))
(T (W x00 x00 x73 x00 x00 x00 x5f x00)
(T (W x40 x01 x00 x00 x00 x00 x00 x00)
(T (W x08 x00 x08 x00 x18 x00 x00 x00)
(L (W x00 x00 x00 x00 x07 x00 x00 x00))
(L (W x00 x00 x00 x00 x00 x00 x00 x00)))
(T (W x00 x00 x00 x00 x00 x00 x10 x0c)
(L (W x00 x00 x00 x00 x00 x00 x00 x00)) E))
(T (W x00 x00 x00 x00 x00 x00 x00 x00)
(T (W x13 x83 x61 x8b x8a x68 x31 x8a)
(L (W x1e x00 x00 x00 x00 x00 x3c x00)) E)
(T (W x00 x00 x00 x00 x4a x03 x00 x00)
(L (W x01 x01 x01 x01 x01 x01 x01 x01)) E)))))
(T (W x00 x00 x6b x00 x00 x00 x76 x00)
(T (W x0b x00 x06 x00 x21 x00 x00 x00)
(T (W x02 x00 x02 x00 x02 x02 x03 x03)
(T (W x05 x05 x04 x04 x05 x02 x02 x04)
(T (W x00 x14 x00 x00 x00 x00 x00 x00)
(L (W x00 x00 x00 x00 x04 x80 x54 xcc))
(L (W x00 x00 x00 x00 x00 x00 x00 x00)))
(T (W x38 x00 x65 x00 x5c x00 x00 x00)
(L (W x00 x00 x00 x00 x00 x00 x00 x00)) E))
(T (W x00 x00 x36 x02 x00 x00 x36 x02)
(T (W x2d x02 x40 x01 x00 x00 x00 x00)
(L (W x00 x00 x00 x00 x94 x03 x00 x00)) E)
(T (W x00 x00 x00 x00 x00 x00 x00 x00)
(L (W x01 x00 x00 x00 x00 x00 x00 x00)) E)))
(T (W x00 x00 x00 x00 x00 x00 x00 x00)
(T (W x00 x00 x00 x00 x02 x24 x10 x8d)
(T (W x00 x00 x00 x00 x00 x00 x00 x00)
(L (W x00 x00 x8e x01 x00 x00 x00 x00))
(L (W x00 x0f x2a xb3 x80 x92 x00 x88)))
(T (W x02 x00 x03 x00 x03 x03 x04 x04)
(L (W x00 x00 x00 x00 x00 x00 x00 x00)) E))
(T (W x00 x00 x00 x00 x53 x01 x00 x00)
(T (W x1e x00 x00 x00 x00 x00 x28 x00)
(L (W x00 x80 x00 x00 x00 x00 xd1 x00)) E)
(T (W x05 x05 x03 x03 x03 x02 x02 x03)
(L (W x00 x00 x00 x00 x00 x00 x00 x00)) E))))
(T (W x00 x00 x00 x00 x53 x00 x00 x00)
(T (W x00 x00 x00 x00 x2a x00 x3e x00)
(T (W xbe x01 x00 x01 x00 x00 x00 x00)
(T (W x00 x00 x00 x00 x00 x00 x00 x00)
(L (W x1e x00 x00 x00 x00 x00 x32 x00))
(L (W x00 x00 x00 x00 x00 x00 x00 x00)))
(T (W x00 x00 x00 x00 x53 x02 x00 x00)
(L (W x05 x05 x03 x03 x03 x02 x02 x03)) E))
(T (W x00 x00 x00 x00 x00 x00 x00 x00)
(T (W x00 x00 x00 x00 x00 x00 x00 x00)
(L (W x02 x00 x03 x00 x03 x03 x03 x03)) E)
(T (W x00 x00 x00 x00 xea x00 x00 x00)
(L (W x00 x00 x00 x00 x00 x00 x00 x00)) E)))
(T (W x00 x00 x00 x00 x02 x01 x00 x00)
(T (W x01 x00 x00 x00 x00 x00 x00 x00)
(T (W x01 x01 x01 x01 x01 x01 x01 x01)
(L (W x32 x00 x54 x00 xc6 x00 x00 x00)) E)
(T (W x00 x80 x00 x00 x00 x00 x00 x00)
(L (W x00 x00 x00 x00 x00 x0c x10 x0c)) E))
(T (W x02 x00 x03 x00 x02 x03 x04 x04)
(T (W x00 x00 x2a x01 x00 x00 xca x00)
(L (W x00 x00 x00 x00 x00 x00 x00 x00)) E)
(T (W x00 x00 x00 x00 x00 x00 x00 x00)
(L (W x00 x00 x00 x00 x00 x00 x00 x00)) E))))))
(T (W x00 x00 x00 x00 x00 x00 x00 x00)
(T (W x2d x03 x03 x00 x00 x00 x00 x00)
(T (W x00 x00 x00 x00 x7a x08 x13 xce)
(T (W x00 x00 x00 x00 x00 x00 x00 x00)
(T (W x00 x00 x00 x00 x00 x00 x00 x00)
(T (W x1a x00 x1a x00 x1a x00 x00 x00)
(L (W x00 x00 x00 x00 xd7 x00 x00 x00))
(L (W x00 x00 x68 x02 x00 x00 x00 x00)))
(T (W x00 x00 x00 x00 x00 x14 x10 x8c)
(L (W x02 x00 x02 x00 x02 x02 x05 x05)) E))
(T (W x00 x00 x00 x00 x00 x00 x00 x00)
(T (W x00 x83 x66 x8f x8b x00 x6b x00)
(L (W x1e x00 x00 x00 x00 x00 x32 x00)) E)
(T (W x00 x00 x00 x00 xc7 x02 x00 x00)
(L (W x05 x05 x05 x05 x05 x02 x02 x02)) E)))
(T (W x00 x00 x00 x00 x93 x00 x00 x00)
(T (W x00 x00 x00 x00 x00 x00 x00 x00)
(T (W x01 x00 x03 x00 x02 x03 x03 x03)
(L (W x2d x03 x03 x00 x00 x00 x00 x00))
(L (W x00 x00 x00 x00 x9a x03 x00 x00)))
(T (W x00 x00 x0e x00 x00 x00 x0c x00)
(L (W x00 x40 xa6 x03 xc6 x03 x00 x00)) E))
(T (W x1e x00 x00 x00 x00 x00 x37 x00)
(T (W x05 x05 x03 x03 x03 x02 x02 x03)
(L (W x04 x01 x04 x01 x04 x01 xa4 x04)) E)
(T (W x00 x08 x00 x00 x3d x00 x00 x00)
(L (W x00 x00 x00 x00 x00 x00 x00 x00)) E))))
(T (W x1e x00 x00 x00 x00 x00 x32 x00)
(T (W x0c x00 x6c x00 x57 x00 x00 x00)
(T (W x00 x00 x00 x00 x00 x00 x00 x00)
(T (W x02 x00 x00 x00 x93 x01 x00 x00)
(L (W x01 x01 x01 x01 x01 x01 x01 x01))
(L (W xe1 x00 xe1 x00 xe1 x00 x6f x04)))
(T (W x1e x00 x00 x00 x00 x00 x28 x00)
(L (W x00 x00 x00 x00 x00 x00 x00 x00)) E))
(T (W x00 x00 x00 x00 x06 x13 x10 x8c)
(T (W x00 x00 x00 x00 x00 x00 x00 x00)
(L (W x00 x00 x41 x02 x00 x00 x5d x02)) E)
(T (W x01 x00 x02 x00 x02 x02 x05 x04)
(L (W x00 x00 x00 x00 x00 x00 x00 x00)) E)))
(T (W x03 x00 x03 x00 x02 x03 x03 x03)
(T (W x05 x05 x03 x03 x03 x02 x02 x03)
(T (W x00 x01 x00 x00 x00 x00 x00 x00)
(L (W x00 x00 x00 x00 x00 x30 x30 x0c)) E)
(T (W x31 x00 x31 x00 x44 x00 x00 x00)
(L (W x00 x00 x00 x00 x00 x00 x00 x00)) E))
(T (W x00 x00 x05 x01 x00 x00 xfa x01)
(T (W xff x01 x10 x00 x00 x00 xf5 x00)
(L (W x00 x00 x00 x00 x32 x00 x00 x00)) E)
(T (W x00 x00 x20 xab x9a x22 x80 x00)
(L (W x01 x00 x00 x00 x00 x00 x00 x00)) E)))))
(T (W x01 x00 x03 x00 x01 x03 x03 x03)
(T (W x00 x04 x00 x00 x21 x00 x00 x00)
(T (W x00 x00 x00 x00 x09 x01 x00 x00)
(T (W x01 x00 x00 x00 x00 x00 x00 x00)
(T (W x01 x01 x01 x01 x01 x01 x01 x01)
(L (W xa6 x00 xcd x00 x1e x00 x00 x00))
(L (W x00 x00 x00 x00 x7e x01 x00 x00)))
(T (W x00 x04 x01 x00 x00 x00 x36 x00)
(L (W x00 x00 x00 x00 x00 x00 x00 x00)) E))
(T (W x03 x00 x02 x00 x02 x03 x07 x07)
(T (W x00 x00 x91 x01 x00 x00 x00 x00)
(L (W x00 x44 x2a xb3 x80 x12 x00 x00)) E)
(T (W x00 x00 x00 x00 x00 x00 x00 x00)
(L (W x00 x00 x00 x00 x00 x00 x00 x00)) E)))
(T (W x00 x00 x00 x00 x00 x00 x00 x00)
(T (W x41 x00 x41 x00 x54 x00 x00 x00)
(T (W x00 x00 x00 x00 x80 x00 x10 x0c)
(L (W x02 x00 x02 x00 x03 x02 x04 x04))
(L (W x1e x02 x00 x08 x00 x00 x00 x00)))
(T (W x00 x00 x00 x00 xf6 x00 x00 x00)
(L (W x00 x00 x00 x00 x00 x00 x00 x00)) E))
(T (W x00 x08 x60 x93 x85 x00 xe5 x00)
(T (W x00 x00 x00 x00 x13 x02 x00 x00)
(L (W x05 x05 x02 x03 x04 x02 x02 x02)) E)
(T (W x0a x00 x00 x00 x00 x00 x28 x00)
(L (W x00 x00 x00 x00 x00 x00 x00 x00)) E))))
(T (W x00 x00 x00 x00 x00 x00 x00 x00)
(T (W x05 x05 x02 x03 x03 x02 x02 x02)
(T (W x00 x00 x00 x00 x00 x00 x00 x00)
(T (W x78 x01 x40 x00 x00 x00 x5e x00)
(L (W x00 x00 x00 x00 x40 x03 x00 x00))
(L (W x01 x01 x01 x01 x01 x01 x01 x01)))
(T (W x00 x43 x21 x03 x81 x00 x00 x04)
(L (W x01 x00 x00 x00 x00 x00 x00 x00)) E))
(T (W x00 x00 x01 x00 xbf x00 x00 x00)
(T (W x16 x00 x92 x00 x71 x00 x00 x00)
(L (W x00 x00 x00 x00 x76 x01 x00 x00)) E)
(T (W x00 x00 x00 x00 x10 x13 x10 x8c)
(L (W x00 x00 x00 x00 x00 x00 x00 x00)) E)))
(T (W x00 x00 x00 x00 x01 x00 x50 x2c)
(T (W x00 x00 x00 x00 x13 x01 x00 x00)
(T (W x1e x00 x00 x00 x00 x00 x32 x00)
(L (W x00 x48 x00 x00 x38 x00 x00 x00)) E)
(T (W x05 x05 x05 x05 x05 x02 x02 x05)
(L (W x00 x00 x00 x00 x00 x00 x00 x00)) E))
(T (W x00 x00 x00 x00 x00 x00 x00 x00)
(T (W x01 x00 x03 x00 x02 x03 x05 x04)
(L (W x4b x02 x08 x00 x00 x00 x00 x00)) E)
(T (W x00 x00 x00 x00 x00 x00 x00 x00)
(L (W x00 x00 x00 x00 x00 x00 x00 x00)) E)))))))
(T (W x02 x00 x03 x00 x02 x03 x06 x06)
(T (W x00 x00 x00 x00 x00 x00 x00 x00)
(T (W x08 x00 x08 x00 x92 x00 x90 x03)
(T (W x00 x00 x00 x00 x33 x00 x00 x00)
(T (W x00 x00 x00 x00 x00 x00 x00 x00)
(T (W x00 x00 x00 x00 x00 x00 x00 x00)
(T (W x3b xc3 x78 x03 x85 x08 x43 x88)
(L (W x1e x00 x00 x00 x00 x00 x2d x00))
(L (W x10 x28 x00 x00 x00 x00 x00 x00)))
(T (W x08 x00 x00 x00 x33 x02 x00 x00)
(L (W x05 x05 x05 x05 x05 x02 x02 x02)) E))
(T (W x00 x00 x00 x00 x00 x00 x00 x00)
(T (W x00 x00 x00 x00 x03 x20 x10 xac)
(L (W x02 x00 x03 x00 x03 x03 x03 x03)) E)
(T (W x00 x00 x00 x00 x00 x00 x00 x00)
(L (W x00 x00 x00 x00 x00 x00 x00 x00)) E)))
(T (W x00 x00 x00 x00 x00 x00 x00 x00)
(T (W x1e x00 x00 x00 x00 x00 x4b x00)
(T (W x05 x05 x04 x04 x05 x02 x02 x04)
(L (W xe0 x00 xe0 x00 xe0 x00 x00 x00))
(L (W x01 x00 x00 x00 x00 x00 x00 x00)))
(T (W x02 x28 x00 x00 x00 x00 x32 x00)
(L (W x00 x00 x00 x00 x01 x00 x10 x0c)) E))
(T (W x02 x00 x02 x00 x02 x02 x03 x03)
(T (W x00 x00 x00 x00 x00 x00 x00 x00)
(L (W x00 x8b x2e x07 x80 x17 x00 x32)) E)
(T (W x3c x01 x10 x04 x00 x00 x00 x00)
(L (W x00 x00 x00 x00 x00 x00 x00 x00)) E))))
(T (W x00 x00 x00 x00 x00 x00 x00 x00)
(T (W x00 x43 x26 x0b x9a x21 x80 x00)
(T (W x00 x00 x00 x00 x83 x04 xb0 x1c)
(T (W x00 x00 x00 x00 x00 x00 x00 x00)
(L (W x00 x00 x32 x01 x00 x00 x32 x01))
(L (W x00 x43 x70 x4f x8f x11 x00 x03)))
(T (W x00 x00 x00 x00 x00 x00 x00 x00)
(L (W x00 x00 x00 x00 x00 x00 x00 x00)) E))
(T (W x00 x00 x00 x00 x00 x00 x00 x00)
(T (W x01 x00 x00 x00 x00 x00 x00 x00)
(L (W x50 x02 x00 x00 x00 x00 x00 x00)) E)
(T (W x05 x05 x02 x02 x02 x02 x02 x02)
(L (W x00 x00 x00 x00 x00 x00 x00 x00)) E)))
(T (W x01 x01 x01 x01 x01 x01 x01 x01)
(T (W x00 x00 x85 x00 x00 x00 x4a x01)
(T (W x4b x01 x04 x00 x00 x00 x00 x00)
(L (W x00 x00 x00 x00 x8d x03 x00 x00))
(L (W x05 x05 x05 x05 x05 x02 x02 x02)))
(T (W x00 x40 xa1 x87 x86 x00 x00 x04)
(L (W x01 x00 x00 x00 x00 x00 x00 x00)) E))
(T (W x00 x00 x00 x00 x00 x00 x00 x00)
(T (W x00 x00 x00 x00 x00 x00 x00 x00)
(L (W x00 x00 x01 x00 x00 x00 x01 x00)) E)
(T (W x02 x00 x00 x00 x07 x80 x14 x0d)
(L (W x00 x00 x00 x00 x00 x00 x00 x00)) E)))))
(T (W x05 x05 x05 x05 x06 x02 x02 x05)
(T (W xc8 x01 x00 x01 x00 x00 xf8 x00)
(T (W x1e x00 x00 x00 x00 x00 x32 x00)
(T (W x01 x00 x02 x00 x02 x02 x06 x06)
(T (W x00 x00 x00 x00 x00 x00 x00 x00)
(L (W x00 x0c x2e xb3 x84 x02 x10 x00))
(L (W x19 x00 x00 x00 x00 x00 x37 x00)))
(T (W x64 x02 x00 x08 x00 x00 x00 x00)
(L (W x00 x00 x00 x00 x00 x00 x00 x00)) E))
(T (W x05 x05 x05 x05 x06 x02 x02 x05)
(T (W x00 x04 x00 x00 x00 x00 x00 x00)
(L (W x00 x00 x00 x00 x00 x48 x10 x2e)) E)
(T (W x00 x00 x00 x00 x00 x00 x00 x00)
(L (W x00 x00 x00 x00 x00 x00 x00 x00)) E)))
(T (W x00 x00 x00 x00 x00 x00 x00 x00)
(T (W x40 x43 x2e x5b x9f x73 x80 x00)
(T (W x00 x00 x00 x00 xb3 x01 x00 x00)
(L (W x05 x05 x05 x06 x06 x02 x02 x05))
(L (W xaf x00 xaf x00 xa5 x00 x96 x04)))
(T (W x1e x00 x00 x00 x00 x00 x37 x00)
(L (W x00 x00 x00 x00 x00 x00 x00 x00)) E))
(T (W x00 x00 x00 x00 x7b x00 x51 x0c)
(T (W x00 x00 x00 x00 xaf x00 x00 x00)
(L (W x00 x00 x00 x00 x00 x00 x00 x00)) E)
(T (W x01 x00 x02 x00 x01 x02 x05 x04)
(L (W x00 x00 x00 x00 x00 x00 x00 x00)) E))))
(T (W x00 x00 x00 x00 x00 x00 x00 x00)
(T (W x00 x00 x00 x00 x00 x00 x00 x00)
(T (W x20 x02 x00 x00 x00 x00 x78 x00)
(T (W x00 x00 x00 x00 x00 x00 x00 x00)
(L (W x00 x00 x00 x00 x8a x01 x00 x00))
(L (W x00 x00 x00 x00 x00 x00 x00 x00)))
(T (W x80 x00 x00 x00 x01 x03 x90 x0c)
(L (W x00 x00 x00 x00 x00 x00 x00 x00)) E))
(T (W x3c x02 x08 x00 x00 x00 x00 x00)
(T (W x00 x00 x00 x00 x00 x00 x00 x00)
(L (W x1e x00 x00 x00 x00 x00 x32 x00)) E)
(T (W x00 x00 x00 x00 xc6 x02 x00 x00)
(L (W x01 x01 x01 x01 x01 x01 x01 x01)) E)))
(T (W x00 x00 x00 x00 x00 x00 x00 x00)
(T (W x00 x00 x00 x00 x26 x00 x00 x00)
(T (W x02 x00 x02 x00 x02 x02 x05 x05)
(L (W xff x01 x10 x00 x00 x00 x00 x00)) E)
(T (W x00 x00 x26 x02 x00 x00 x26 x02)
(L (W x00 x00 x00 x00 x00 x00 x00 x00)) E))
(T (W x1e x00 x00 x00 x00 x00 x3c x00)
(T (W x05 x05 x03 x03 x04 x02 x02 x03)
(L (W x32 x00 x01 x01 x6b x00 x9c x03)) E)
(T (W x08 x08 x00 x00 x00 x00 x00 x00)
(L (W x00 x00 x00 x00 x00 x00 x00 x00)) E))))))
(T (W x00 x00 x00 x00 x00 x00 x00 x00)
(T (W x00 x00 x00 x00 x00 x00 x45 x00)
(T (W x00 x00 x00 x00 x00 x00 x00 x00)
(T (W x05 x05 x03 x03 x04 x02 x02 x03)
(T (W x00 x00 x3c x00 x00 x00 x5e x00)
(T (W x03 x03 x0c x00 x00 x00 x00 x00)
(L (W x01 x00 x00 x00 x23 x03 x00 x00))
(L (W x01 x01 x01 x01 x01 x01 x01 x01)))
(T (W x00 x0b xb1 x93 x86 x00 x40 x8a)
(L (W x01 x00 x00 x00 x00 x00 x00 x00)) E))
(T (W x00 x00 x00 x00 x00 x00 x00 x00)
(T (W x00 x00 x00 x00 x00 x00 x00 x00)
(L (W x00 x00 x00 x00 x36 x01 x00 x00)) E)
(T (W x00 x00 x00 x00 x05 x90 x10 x0c)
(L (W x00 x00 x00 x00 x00 x00 x00 x00)) E)))
(T (W x00 x00 x00 x00 xe6 xdf x1a x8e)
(T (W x00 x00 x00 x00 xf3 x00 x00 x00)
(T (W x01 x00 x00 x00 x00 x00 x00 x00)
(L (W x00 x00 x03 x00 x00 x00 x00 x00))
(L (W x00 x00 x00 x00 x00 x48 x18 x4e)))
(T (W x05 x05 x04 x04 x05 x02 x02 x04)
(L (W x1a x00 x1a x00 x1a x00 xd9 x03)) E))
(T (W x00 x00 x00 x00 x00 x00 x00 x00)
(T (W x00 x00 x00 x00 x00 x00 x00 x00)
(L (W x03 x03 x03 x00 x00 x00 x00 x00)) E)
(T (W x00 x00 xae x00 x00 x00 xae x00)
(L (W x00 x00 x00 x00 x00 x00 x00 x00)) E))))
(T (W x01 x00 x01 x00 x00 x00 x00 x00)
(T (W x2d x02 x08 x00 x00 x00 x00 x00)
(T (W x0c x00 x51 x00 x2f x00 x00 x00)
(T (W x00 x00 x00 x00 x01 x00 xd0 x0c)
(L (W x02 x00 x03 x00 x03 x03 x04 x04))
(L (W x03 x03 x03 x00 x00 x00 x00 x00)))
(T (W x00 x00 x00 x00 x31 x01 x00 x00)
(L (W x00 x00 x00 x00 x00 x00 x00 x00)) E))
(T (W x00 x00 x00 x00 x00 x00 x00 x00)
(T (W x00 x00 x00 x00 x00 x00 x00 x00)
(L (W x05 x05 x03 x04 x04 x02 x02 x03)) E)
(T (W x1e x00 x00 x00 x00 x00 x32 x00)
(L (W x00 x00 x00 x00 x00 x00 x00 x00)) E)))
(T (W x1e x00 x00 x00 x00 x00 x28 x00)
(T (W x00 x00 x00 x00 x00 x00 x00 x00)
(T (W x00 x00 xb8 x01 x00 x00 xb8 x01)
(L (W x00 x08 x2e x83 x80 x12 x00 x32)) E)
(T (W x03 x03 x0c x00 x00 x00 x00 x00)
(L (W x08 x00 x00 x00 x2b x02 x00 x00)) E))
(T (W x05 x05 x03 x03 x04 x02 x02 x03)
(T (W x00 x08 x01 x00 x4c x00 x00 x00)
(L (W x80 x00 x00 x00 x03 x03 x12 x8c)) E)
(T (W x00 x00 x00 x00 x00 x00 x00 x00)
(L (W x00 x00 x00 x00 x00 x00 x00 x00)) E)))))
(T (W x1e x00 x00 x00 x00 x00 x3c x00)
(T (W x00 x00 xdf x00 x00 x00 xdf x00)
(T (W x00 x00 x00 x00 x73 x00 x00 x00)
(T (W x00 x00 x00 x00 xb3 x00 x00 x00)
(T (W x00 x00 x00 x00 x00 x00 x00 x00)
(L (W x5a x01 x40 x00 x00 x00 x00 x00))
(L (W x02 x00 x00 x00 x5e x03 x00 x00)))
(T (W x00 x00 x00 x00 x00 x00 x00 x00)
(L (W x00 x00 x00 x00 x00 x00 x00 x00)) E))
(T (W x01 x00 x00 x00 x00 x00 x00 x00)
(T (W x05 x05 x05 x05 x05 x02 x02 x05)
(L (W x9e x00 x77 x00 x7c x00 x00 x00)) E)
(T (W x00 x00 x00 x00 x00 x00 x00 x00)
(L (W x00 x00 x00 x00 x00 x00 x00 x00)) E)))
(T (W x00 x00 x00 x00 x00 x00 x00 x00)
(T (W x2d x01 x00 x01 x00 x00 x00 x00)
(T (W x00 x00 x00 x00 x00 x00 x00 x00)
(L (W x1e x00 x00 x00 x00 x00 x2d x00))
(L (W x00 x00 x00 x00 x00 x00 x00 x00)))
(T (W x00 x00 x00 x00 x73 x02 x00 x00)
(L (W x01 x01 x01 x01 x01 x01 x01 x01)) E))
(T (W x04 x00 x04 x00 x21 x00 x00 x00)
(T (W x00 x00 x00 x00 x80 x24 x30 x0c)
(L (W x02 x00 x02 x00 x03 x02 x03 x03)) E)
(T (W x00 x00 x00 x00 x00 x00 x00 x00)
(L (W x00 x00 x00 x00 x00 x00 x00 x00)) E))))
(T (W x1a x00 x1a x00 x1a x00 x00 x00)
(T (W x02 x00 x01 x00 x01 x02 x05 x05)
(T (W x01 x01 x01 x01 x01 x01 x01 x01)
(T (W x00 x00 x00 x00 x00 x00 x00 x00)
(L (W x00 x00 x00 x00 x00 x00 x00 x00))
(L (W x00 x00 x00 x00 x00 x00 x00 x00)))
(T (W x00 x00 x00 x00 x00 x00 x00 x00)
(L (W x00 x00 x00 x00 x00 x00 x00 x00)) E))
(T (W x00 x00 xb4 x01 x00 x00 x01 x01)
(T (W x00 x00 x00 x00 x00 x00 x00 x00)
(L (W x06 x00 x00 x00 xc3 x03 x00 x00)) E)
(T (W x00 x83 x60 xa7 x85 x08 x41 x04)
(L (W x01 x00 x00 x00 x00 x00 x00 x00)) E)))
(T (W x3b x80 xf0 x83 x85 x8a x43 x08)
(T (W x00 x00 x00 x00 x60 x10 x10 x0c)
(T (W x00 x00 x00 x00 x0a x01 x00 x00)
(L (W x00 x00 x61 x02 x00 x00 x10 x02)) E)
(T (W x00 x00 x00 x00 x00 x00 x00 x00)
(L (W x03 x03 x00 x03 x00 x00 x00 x00)) E))
(T (W x00 x00 x00 x00 x73 x01 x00 x00)
(T (W x1e x00 x00 x00 x00 x00 x28 x00)
(L (W x00 x00 x00 x00 x00 x00 x00 x00)) E)
(T (W x05 x05 x03 x03 x03 x02 x02 x03)
(L (W x35 x00 x77 x00 x0f x00 x5c x04)) E)))))))))
(T (W x02 x00 x03 x00 x02 x03 x04 x03)
(T (W x42 x00 x42 x00 x5e x00 x00 x00)
(T (W x2d x01 x10 x00 x00 x00 x00 x00)
(T (W x00 x00 x4f x00 x00 x00 x4f x00)
(T (W x00 x00 x00 x00 x00 x00 x00 x00)
(T (W x01 x01 x01 x01 x01 x01 x01 x01)
(T (W x00 x00 x00 x00 x02 x4b x50 x4c)
(T (W x00 x00 x00 x00 x00 x00 x00 x00)
(T (W x1e x00 x00 x00 x00 x00 x37 x00)
(L (W x00 x00 x00 x00 x9e x00 x00 x00))
(L (W x00 x00 x00 x00 x04 x88 x50 x0c)))
(T (W x05 x05 x02 x02 x02 x02 x02 x02)
(L (W x82 x00 x1f x00 x45 x00 xa4 x03)) E))
(T (W x00 x00 x00 x00 x78 x00 x00 x00)
(T (W x02 x00 x01 x00 x02 x01 x04 x04)
(L (W x2d x00 x30 x00 x00 x00 x00 x00)) E)
(T (W x00 x00 x00 x00 x00 x00 x00 x00)
(L (W x40 x03 x6e x4f x8e x53 x09 x0a)) E)))
(T (W x00 x00 xc6 x02 x00 x00 x8d x00)
(T (W x00 x00 x00 x00 xd1 x00 x00 x00)
(T (W x22 x00 x22 x00 x22 x00 x00 x00)
(L (W x00 x00 x00 x00 x00 x00 x00 x00))
(L (W x00 x00 x00 x00 x00 x00 x00 x00)))
(T (W x00 x00 x00 x00 x00 x19 x18 x0e)
(L (W x00 x00 x00 x00 x00 x00 x00 x00)) E))
(T (W x00 x00 x00 x00 x00 x00 x00 x00)
(T (W x00 x00 x00 x00 x00 x00 x00 x00)
(L (W x1e x00 x00 x00 x00 x00 x32 x00)) E)
(T (W x00 x00 x00 x00 xe4 x02 x00 x00)
(L (W x01 x01 x01 x01 x01 x01 x01 x01)) E))))
(T (W x00 x00 x00 x00 x00 x00 x00 x00)
(T (W x1e x00 x00 x00 x00 x00 x32 x00)
(T (W x00 x00 x00 x00 x00 x00 x00 x00)
(T (W x00 x00 x00 x00 x00 x00 x00 x00)
(L (W x00 x00 x60 x93 x81 x00 xa3 x00))
(L (W x1e x00 x00 x00 x00 x00 x28 x00)))
(T (W x78 x02 x00 x02 x00 x00 xf6 x00)
(L (W x00 x00 x00 x00 x00 x00 x00 x00)) E))
(T (W x05 x05 x04 x05 x05 x02 x02 x04)
(T (W x00 x00 x00 x00 x00 x00 x00 x00)
(L (W x00 x00 x00 x00 xf2 x23 x30 x8c)) E)
(T (W x00 x00 x00 x00 x00 x00 x00 x00)
(L (W x00 x00 x00 x00 x00 x00 x00 x00)) E)))
(T (W x0f x00 x33 x00 x6e x00 x00 x00)
(T (W x2b xab x60 x83 xc4 x0f x11 x0d)
(T (W x00 x00 x00 x00 xbb x01 x00 x00)
(L (W x05 x05 x03 x04 x04 x02 x02 x03))
(L (W x04 x01 x04 x01 x04 x01 xa4 x04)))
(T (W x1e x00 x00 x00 x00 x00 x32 x00)
(L (W x00 x00 x00 x00 x00 x00 x00 x00)) E))
(T (W x00 x00 x00 x00 x7a x00 x11 x8c)
(T (W x00 x00 x00 x00 x85 x00 x00 x00)
(L (W x00 x00 x00 x00 x00 x00 x00 x00)) E)
(T (W x03 x00 x02 x00 x03 x02 x04 x04)
(L (W x00 x00 x00 x00 x00 x00 x00 x00)) E)))))
(T (W x38 x00 x62 x00 x6d x00 x00 x00)
(T (W x02 x00 x00 x00 x3b x00 x00 x00)
(T (W x00 x01 x00 x00 xab x00 x00 x00)
(T (W x46 x02 x00 x08 x00 x00 xdd x00)
(T (W x3b x43 x2e x2b x87 x13 x00 x89)
(L (W x1e x00 x00 x00 x00 x00 x2d x00))
(L (W x00 x00 x00 x00 x00 x00 x00 x00)))
(T (W x00 x00 x00 x00 x3b x02 x00 x00)
(L (W x01 x01 x01 x01 x01 x01 x01 x01)) E))
(T (W x19 x00 x19 x00 x19 x00 x00 x00)
(T (W x00 x00 x00 x00 x62 x0b x90 x0c)
(L (W x02 x00 x02 x00 x03 x02 x05 x04)) E)
(T (W x00 x00 x00 x00 x00 x00 x00 x00)
(L (W x00 x00 x00 x00 x00 x00 x00 x00)) E)))
(T (W x00 x00 x00 x00 x00 x00 x00 x00)
(T (W x0a x00 x00 x00 x00 x00 x28 x00)
(T (W x01 x01 x01 x01 x01 x01 x01 x01)
(L (W xe0 x00 xe0 x00 xe0 x00 x00 x00))
(L (W x00 x00 x00 x00 xba x00 x00 x00)))
(T (W x00 x08 x00 x00 x41 x00 x62 x00)
(L (W x40 x00 x00 x00 x02 x0f x10 x8d)) E))
(T (W x01 x00 x03 x00 x02 x03 x04 x04)
(T (W x00 x00 xdf x01 x00 x00 xdf x01)
(L (W x00 x03 x20 x07 xc0 x01 x20 x06)) E)
(T (W x3c x02 x20 x00 x00 x00 x00 x00)
(L (W x00 x00 x00 x00 x00 x00 x00 x00)) E))))
(T (W x02 x00 x01 x00 x02 x01 x04 x04)
(T (W x00 x00 x00 x00 x00 x00 x10 x00)
(T (W x00 x00 x00 x00 x7a x0c x12 x0c)
(T (W x00 x00 x00 x00 x00 x00 x00 x00)
(L (W x00 x00 x89 x00 x00 x00 x96 x01))
(L (W x00 x00 x00 x00 x00 x00 x00 x00)))
(T (W x00 x00 x00 x00 x00 x00 x00 x00)
(L (W xff x01 x40 x00 x00 x00 x00 x00)) E))
(T (W x00 x00 x00 x00 x3b x01 x00 x00)
(T (W x01 x00 x00 x00 x00 x00 x00 x00)
(L (W x20 x0a x00 x00 x00 x00 x02 x00)) E)
(T (W x05 x05 x04 x05 x05 x02 x02 x04)
(L (W x00 x00 x00 x00 x00 x00 x00 x00)) E)))
(T (W x05 x05 x03 x05 x05 x02 x02 x03)
(T (W x00 x00 x00 x00 x00 x00 x00 x00)
(T (W x00 x00 x00 x00 x00 x00 x00 x00)
(L (W x00 x00 x00 x00 x85 x03 x00 x00)) E)
(T (W x40 x03 xa0 x8f x82 x4c x00 x0f)
(L (W x1e x00 x00 x00 x00 x00 x32 x00)) E))
(T (W x00 x00 x00 x00 x00 x00 x19 x00)
(T (W x22 x00 x14 x00 x66 x00 x00 x00)
(L (W x00 x00 x00 x00 x00 x00 x00 x00)) E)
(T (W x00 x00 x00 x00 x00 x00 x00 x00)
(L (W x00 x00 x00 x00 x00 x00 x00 x00)) E))))))
(T (W x00 x00 x00 x00 x00 x00 x00 x00)
(T (W x00 x00 x00 x00 x62 x23 x50 x8c)
(T (W x1e x00 x00 x00 x00 x00 x28 x00)
(T (W x00 x00 x00 x00 x00 x00 x00 x00)
(T (W x00 x00 x00 x00 x00 x00 x00 x00)
(T (W x08 x00 x00 x00 x7b x01 x00 x00)
(L (W x05 x05 x03 x03 x03 x02 x02 x03))
(L (W xd3 x00 xd3 x00 xd3 x00 x63 x04)))
(T (W x1e x00 x00 x00 x00 x00 x3c x00)
(L (W x00 x82 x00 x00 x00 x00 xcc x00)) E))
(T (W x00 x00 x00 x00 x00 x00 x00 x00)
(T (W x00 x00 x00 x00 x00 x00 x00 x00)
(L (W x00 x00 x48 x01 x00 x00 xe9 x01)) E)
(T (W x00 x00 x00 x00 x00 x00 x00 x00)
(L (W x03 x03 x44 x01 x00 x00 x00 x00)) E)))
(T (W x01 x00 x00 x00 x00 x00 x00 x00)
(T (W x05 x05 x02 x03 x03 x02 x02 x02)
(T (W x00 x00 x00 x00 x87 x00 x00 x00)
(L (W x80 x00 x00 x00 x01 x00 x10 x0c))
(L (W x01 x00 x02 x00 x02 x02 x04 x04)))
(T (W x4f x00 x68 x00 x7f x00 x00 x00)
(L (W x01 x00 x00 x00 xe7 x00 x00 x00)) E))
(T (W x00 x00 x00 x00 x00 x00 x00 x00)
(T (W xff x01 x04 x00 x00 x00 x00 x00)
(L (W x00 x00 x00 x00 xd6 x03 x00 x00)) E)
(T (W x00 x00 x60 x83 x86 x00 x20 x00)
(L (W x01 x00 x00 x00 x00 x00 x00 x00)) E))))
(T (W x00 x00 x00 x00 x00 x00 x00 x00)
(T (W x00 x00 x00 x00 x7b x00 x00 x00)
(T (W x00 x00 x00 x00 x00 x00 x00 x00)
(T (W x00 x00 x00 x00 x00 x00 x00 x00)
(L (W x00 x00 x00 x00 x00 x00 x00 x00))
(L (W x02 x00 x00 x00 x5e x03 x00 x00)))
(T (W x00 x00 xaf x00 x00 x00 xaf x00)
(L (W x00 x00 x00 x00 x00 x00 x00 x00)) E))
(T (W x1e x00 x00 x00 x00 x00 x32 x00)
(T (W x01 x01 x01 x01 x01 x01 x01 x01)
(L (W xaf x00 xaf x00 xa5 x00 x00 x00)) E)
(T (W x00 x00 x00 x00 x00 x00 x00 x00)
(L (W x00 x00 x00 x00 x00 x00 x00 x00)) E)))
(T (W x00 x02 x00 x00 x00 x00 x92 x00)
(T (W xff x01 x40 x00 x11 x00 x1c x00)
(T (W x00 x80 x60 x83 x85 x44 x23 x00)
(L (W x1e x00 x00 x00 x00 x00 x32 x00)) E)
(T (W x00 x00 x00 x00 x7b x02 x00 x00)
(L (W x01 x01 x01 x01 x01 x01 x01 x01)) E))
(T (W x2e x00 x2e x00 x77 x00 x00 x00)
(T (W x00 x00 x00 x00 x00 x00 x00 x00)
(L (W x02 x00 x03 x00 x03 x03 x03 x03)) E)
(T (W x00 x00 x00 x00 x00 x00 x00 x00)
(L (W x00 x00 x00 x00 x00 x00 x00 x00)) E)))))
(T (W x00 x02 x00 x00 x00 x00 x90 x00)
(T (W x3b x43 xae x83 x86 x11 x00 xf8)
(T (W x05 x05 x03 x04 x04 x02 x02 x03)
(T (W x00 x00 x00 x00 x00 x00 x00 x00)
(T (W x00 x00 x00 x00 x00 x00 x00 x00)
(L (W x00 x00 x00 x00 x2e x03 x00 x00))
(L (W x05 x05 x04 x05 x05 x02 x02 x04)))
(T (W x00 x40 x6e xa3 x82 x12 x01 x30)
(L (W x01 x00 x00 x00 x00 x00 x00 x00)) E))
(T (W x00 x00 x00 x00 x00 x00 x00 x00)
(T (W x2e x00 x2e x00 x8c x00 x00 x00)
(L (W x00 x00 x00 x00 xf1 x00 x00 x00)) E)
(T (W x00 x00 x00 x00 x00 x00 x00 x00)
(L (W x00 x00 x00 x00 x00 x00 x00 x00)) E)))
(T (W x00 x00 x00 x00 x00 x00 x00 x00)
(T (W x01 x00 x00 x00 xfb x00 x00 x00)
(T (W x1e x00 x00 x00 x00 x00 x28 x00)
(L (W x00 x00 x01 x00 x00 x00 x00 x00))
(L (W x00 x00 x00 x00 x78 x10 x33 x0c)))
(T (W x05 x05 x03 x04 x04 x02 x02 x03)
(L (W x00 x00 x00 x00 x00 x00 x00 x00)) E))
(T (W x00 x00 x00 x00 x53 x00 x00 x00)
(T (W x03 x00 x02 x00 x02 x02 x03 x03)
(L (W xbe x02 x80 x00 x00 x00 xec x00)) E)
(T (W x00 x00 x49 x02 x00 x00 x00 x00)
(L (W x00 x00 x00 x00 x00 x00 x00 x00)) E))))
(T (W x00 x00 x00 x00 x00 x00 x00 x00)
(T (W x2d x02 x80 x00 x00 x00 x00 x00)
(T (W x00 x00 x00 x00 x00 x00 x00 x00)
(T (W x00 x00 x00 x00 x00 x00 x00 x00)
(L (W x03 x00 x00 x00 x00 x00 x00 x00))
(L (W x00 x00 x00 x00 x00 x00 x00 x00)))
(T (W x00 x00 x00 x00 x72 x00 x00 x00)
(L (W x00 x00 x00 x00 x00 x00 x00 x00)) E))
(T (W x00 x03 x30 x8b x9a x60 x91 x00)
(T (W x02 x00 x00 x00 xfb x01 x00 x00)
(L (W x05 x05 x04 x05 x05 x02 x02 x04)) E)
(T (W x1e x00 x00 x00 x00 x00 x32 x00)
(L (W x00 x00 x00 x00 x00 x00 x00 x00)) E)))
(T (W x01 x00 x00 x00 x00 x00 x00 x00)
(T (W x02 x00 x02 x00 x02 x02 x04 x04)
(T (W x00 x00 xc4 x01 x00 x00 x49 x01)
(L (W x00 x00 x20 x83 x92 x24 x20 x06)) E)
(T (W x03 x03 x00 x03 x00 x00 x00 x00)
(L (W x00 x00 x00 x00 x00 x00 x00 x00)) E))
(T (W x01 x01 x01 x01 x01 x01 x01 x01)
(T (W x00 xc9 x00 x00 xb2 x00 x00 x00)
(L (W x00 x00 x00 x00 x00 x00 x00 x00)) E)
(T (W x00 x00 x00 x00 x00 x00 x00 x00)
(L (W x00 x00 x00 x00 x00 x00 x00 x00)) E)))))))
(T (W x05 x00 x00 x00 x49 x00 x00 x00)
(T (W x01 x01 x01 x01 x01 x01 x01 x01)
(T (W x00 x00 x00 x00 x1b x00 x00 x00)
(T (W x01 x00 x02 x00 x03 x02 x04 x03)
(T (W x00 x00 x00 x00 x00 x00 x00 x00)
(T (W x00 x00 x00 x00 x00 x00 x00 x00)
(T (W x00 x00 x00 x00 x00 x00 x00 x00)
(L (W x00 x00 xc6 x02 x00 x00 xc6 x02))
(L (W x00 x0b xea x97 xc4 x10 x04 x00)))
(T (W x03 x00 x03 x00 x03 x03 x05 x04)
(L (W x03 x03 x00 x03 x00 x00 x00 x00)) E))
(T (W x00 x00 x00 x00 x00 x00 x00 x00)
(T (W x01 x00 x00 x00 x00 x00 x00 x00)
(L (W x10 x02 x00 x00 x14 x00 x00 x00)) E)
(T (W x01 x01 x01 x01 x01 x01 x01 x01)
(L (W x00 x00 x00 x00 x00 x00 x00 x00)) E)))
(T (W x05 x05 x03 x04 x05 x02 x02 x03)
(T (W x00 x00 x74 x00 x00 x00 xea x01)
(T (W x4b x02 x02 x00 x00 x00 x00 x00)
(L (W x00 x00 x00 x00 x6f x03 x00 x00))
(L (W x05 x05 x05 x06 x06 x02 x02 x05)))
(T (W x00 x2b xa8 x83 xc4 x10 x00 x02)
(L (W x01 x00 x00 x00 x00 x00 x00 x00)) E))
(T (W x00 x03 x00 x00 x00 x00 x00 x00)
(T (W x00 x00 x00 x00 x00 x00 x00 x00)
(L (W x00 x00 x04 x00 x8e x01 x00 x00)) E)
(T (W x00 x00 x00 x00 x00 x03 x10 x8c)
(L (W x00 x00 x00 x00 x00 x00 x00 x00)) E))))
(T (W x80 x00 x00 x00 x29 x00 x00 x00)
(T (W x00 x00 x00 x00 x00 x00 x00 x00)
(T (W x1e x00 x00 x00 x00 x00 x32 x00)
(T (W x01 x01 x01 x01 x01 x01 x01 x01)
(L (W x04 x00 x04 x00 x04 x00 x00 x00))
(L (W x00 x00 x00 x00 x7e x01 x00 x00)))
(T (W x00 x00 x00 x00 x00 x00 x00 x00)
(L (W x00 x00 x00 x00 x00 x00 x00 x00)) E))
(T (W x01 x00 x03 x00 x01 x03 x05 x05)
(T (W x00 x00 x00 x00 x00 x00 x00 x00)
(L (W x00 x10 x20 xc3 x84 x0e x00 x04)) E)
(T (W xb4 x01 x10 x00 x00 x00 x00 x00)
(L (W x00 x00 x00 x00 x00 x00 x00 x00)) E)))
(T (W x00 x00 x00 x00 x00 x00 x00 x00)
(T (W x43 x00 x43 x00 x06 x00 x00 x00)
(T (W x00 x00 x00 x00 x7e xcf x12 x4c)
(L (W x02 x00 x03 x00 x03 x03 x03 x02))
(L (W x03 x03 x00 x03 x00 x00 x00 x00)))
(T (W x00 x00 x00 x00 x3c x01 x00 x00)
(L (W x00 x00 x00 x00 x00 x00 x00 x00)) E))
(T (W x00 x00 x00 x00 x00 x00 x00 x00)
(T (W x00 x00 x00 x00 x1b x02 x00 x00)
(L (W x05 x05 x04 x04 x05 x02 x02 x04)) E)
(T (W x1e x00 x00 x00 x00 x00 x32 x00)
(L (W x00 x00 x00 x00 x00 x00 x00 x00)) E)))))
(T (W xaa x02 x02 x00 x00 x00 x51 x00)
(T (W x00 x00 x00 x00 x7a x4c x31 x4c)
(T (W x00 x00 x30 x00 x00 x00 xb6 x01)
(T (W x00 x00 x00 x00 x00 x00 x00 x00)
(T (W x00 x00 x00 x00 x00 x00 x00 x00)
(L (W x00 x00 x00 x00 x5f x00 x00 x00))
(L (W x00 x00 x9d x00 x00 x00 xbc x01)))
(T (W x00 x00 x00 x00 x00 x09 x10 x0e)
(L (W x00 x00 x00 x00 x00 x00 x00 x00)) E))
(T (W x2d x03 x03 x00 x00 x00 x00 x00)
(T (W x38 x43 x2e x23 x87 x13 x00 x89)
(L (W x1e x00 x00 x00 x00 x00 x32 x00)) E)
(T (W x00 x00 x00 x00 x00 x00 x00 x00)
(L (W x01 x01 x01 x01 x01 x01 x01 x01)) E)))
(T (W x00 x00 x00 x00 x00 x00 x00 x00)
(T (W x00 x00 x00 x00 x81 x01 x00 x00)
(T (W x03 x00 x02 x00 x02 x02 x05 x04)
(L (W x03 x03 xc0 x00 x00 x00 x00 x00))
(L (W x00 x00 x00 x00 x9d x03 x00 x00)))
(T (W x00 x00 x8b x01 x00 x00 x99 x01)
(L (W x00 x00 x00 x00 x00 x00 x00 x00)) E))
(T (W x1e x00 x00 x00 x00 x00 x28 x00)
(T (W x05 x05 x03 x03 x03 x02 x02 x03)
(L (W x00 x00 x00 x00 x00 x00 x00 x00)) E)
(T (W x00 x00 x00 x00 x00 x00 x8f x00)
(L (W x00 x00 x00 x00 x00 x00 x00 x00)) E))))
(T (W x01 x00 x00 x00 x00 x00 x00 x00)
(T (W x07 x00 x07 x00 x96 x00 x00 x00)
(T (W x53 x00 xa0 xcb x8a x4b x18 x0c)
(T (W x00 x00 x00 x00 x00 x00 x00 x00)
(L (W x05 x05 x03 x03 x03 x02 x02 x03))
(L (W x00 x00 x00 x00 x00 x00 x00 x00)))
(T (W x1e x00 x00 x00 x00 x00 x28 x00)
(L (W x00 x00 x00 x00 x00 x00 x00 x00)) E))
(T (W x00 x00 x00 x00 x78 x30 x11 x0c)
(T (W x00 x00 x00 x00 x00 x00 x00 x00)
(L (W x00 x00 xe3 x00 x00 x00 x5e x00)) E)
(T (W x02 x00 x02 x00 x02 x02 x05 x05)
(L (W x00 x00 x00 x00 x00 x00 x00 x00)) E)))
(T (W x02 x00 x02 x00 x01 x02 x04 x04)
(T (W x05 x05 x03 x03 x04 x02 x02 x03)
(T (W x00 x00 x00 x00 x00 x00 x00 x00)
(L (W x00 x00 x00 x00 x00 x00 x10 x0c)) E)
(T (W xa4 x00 xa4 x00 xa4 x00 x00 x00)
(L (W x00 x00 x00 x00 x00 x00 x00 x00)) E))
(T (W x00 x00 x3b x00 x00 x00 x22 x00)
(T (W xb4 x01 x04 x00 x00 x00 xf0 x00)
(L (W x00 x00 x00 x00 x4d x00 x00 x00)) E)
(T (W x00 xc0 x23 x83 x82 x00 x20 x00)
(L (W x01 x00 x00 x00 x00 x00 x00 x00)) E))))))
(T (W x01 x00 x00 x00 x00 x00 x00 x00)
(T (W x00 x80 xa0 x83 xa6 x02 x00 x00)
(T (W x00 x00 x00 x00 x00 x00 x00 x00)
(T (W x2d x02 x00 x02 x00 x00 x00 x00)
(T (W x1c x00 x1c x00 x9c x00 x00 x00)
(T (W x00 x00 x00 x00 x7a x07 x11 x0c)
(L (W x01 x00 x03 x00 x01 x03 x04 x04))
(L (W x00 x00 x00 x00 x00 x00 x00 x00)))
(T (W x00 x00 x00 x00 x9d x00 x00 x00)
(L (W x00 x00 x00 x00 x00 x00 x00 x00)) E))
(T (W x00 x00 x00 x00 x00 x00 x00 x00)
(T (W x00 x00 x00 x00 xdb x01 x00 x00)
(L (W x05 x05 x03 x03 x03 x02 x02 x03)) E)
(T (W x1e x00 x00 x00 x00 x00 x28 x00)
(L (W x00 x00 x00 x00 x00 x00 x00 x00)) E)))
(T (W x1e x00 x00 x00 x00 x00 x37 x00)
(T (W x02 x00 x02 x00 x02 x02 x06 x06)
(T (W x00 x00 x1d x00 x00 x00 xcc x00)
(L (W x00 x4b x36 x03 x00 x1a x00 x70))
(L (W x1e x00 x00 x00 x00 x00 x41 x00)))
(T (W x19 x02 x00 x08 x00 x00 xf6 x00)
(L (W x00 x00 x00 x00 xdf x01 x00 x00)) E))
(T (W x01 x01 x01 x01 x01 x01 x01 x01)
(T (W x00 x02 x00 x00 x00 x00 x00 x00)
(L (W x00 x00 x00 x00 x02 x13 x10 x0c)) E)
(T (W x1e x00 x77 x00 x8b x00 x00 x00)
(L (W x00 x00 x00 x00 x00 x00 x00 x00)) E))))
(T (W x05 x05 x05 x05 x06 x02 x02 x05)
(T (W x00 x00 x00 x00 x86 xa8 x10 x8c)
(T (W x00 x00 x00 x00 x00 x00 x00 x00)
(T (W x1e x00 x00 x00 x00 x00 x37 x00)
(L (W x08 x00 x01 x00 x00 x00 x00 x00))
(L (W xc1 x00 x00 x00 x35 x01 x38 x0d)))
(T (W x05 x05 x05 x05 x06 x02 x02 x05)
(L (W x00 x00 x00 x00 x00 x00 x00 x00)) E))
(T (W x00 x00 x00 x00 x00 x00 x00 x00)
(T (W x00 x00 x00 x00 x00 x00 x00 x00)
(L (W x4b x02 x08 x00 x00 x00 x00 x00)) E)
(T (W x00 x00 x4d x02 x00 x00 x47 x02)
(L (W x00 x00 x00 x00 x00 x00 x00 x00)) E)))
(T (W x00 x00 x61 x02 x00 x00 x54 x00)
(T (W x00 x00 x00 x00 x00 x00 x00 x00)
(T (W x04 x00 x61 x00 x33 x00 x00 x00)
(L (W x00 x00 x00 x00 x0a x00 x00 x00)) E)
(T (W x80 x00 x00 x00 x01 x00 x30 x1c)
(L (W x01 x00 x03 x00 x02 x03 x05 x04)) E))
(T (W x1e x02 x08 x00 x00 x00 x00 x00)
(T (W x80 x8b x61 x83 x84 x00 x01 x06)
(L (W x1e x00 x00 x00 x00 x00 x28 x00)) E)
(T (W x00 x00 x00 x00 x00 x00 x00 x00)
(L (W x01 x01 x01 x01 x01 x01 x01 x01)) E)))))
(T (W x00 x00 x5c x00 x00 x00 x48 x00)
(T (W x3e x00 x63 x00 x50 x00 x00 x00)
(T (W x02 x00 x03 x00 x02 x03 x05 x05)
(T (W x01 x01 x01 x01 x01 x01 x01 x01)
(T (W x00 x00 x00 x00 x00 x00 x00 x00)
(L (W x00 x00 x00 x00 x00 x24 x30 x8c))
(L (W x02 x00 x02 x00 x03 x02 x03 x03)))
(T (W x00 x00 x00 x00 x00 x00 x00 x00)
(L (W x00 x00 x00 x00 x00 x00 x00 x00)) E))
(T (W x00 x00 x00 x00 x00 x00 x00 x00)
(T (W x03 x03 x03 x00 x00 x00 x00 x00)
(L (W x00 x00 x00 x00 xbd x03 x00 x00)) E)
(T (W x00 x00 x00 x00 x00 x00 x00 x00)
(L (W x01 x00 x00 x00 x00 x00 x00 x00)) E)))
(T (W x00 x00 x00 x00 x00 x00 x00 x00)
(T (W x09 x00 x00 x00 x83 x14 x10 x8d)
(T (W x00 x00 x00 x00 x00 x00 x00 x00)
(L (W x00 x00 x0a x03 x00 x00 x0a x03))
(L (W x00 x93 x20 x07 x80 x1f x00 x04)))
(T (W x02 x00 x03 x00 x02 x03 x04 x04)
(L (W x00 x00 x00 x00 x00 x00 x00 x00)) E))
(T (W x00 x00 x00 x00 x5b x01 x00 x00)
(T (W x1e x00 x00 x00 x00 x00 x28 x00)
(L (W x08 x00 x00 x00 x55 x00 x00 x00)) E)
(T (W x05 x05 x05 x05 x05 x02 x02 x02)
(L (W x00 x00 x00 x00 x00 x00 x00 x00)) E))))
(T (W x04 x00 x00 x00 x5b x00 x00 x00)
(T (W x00 x00 x00 x00 xd0 x00 x00 x00)
(T (W x00 x00 x00 x00 x00 x00 x00 x00)
(T (W x00 x00 x00 x00 x00 x00 x00 x00)
(L (W x1e x00 x00 x00 x00 x00 x14 x00))
(L (W x00 x00 x00 x00 x00 x00 x00 x00)))
(T (W x00 x00 x00 x00 x00 x00 x00 x00)
(L (W x01 x01 x01 x01 x01 x01 x01 x01)) E))
(T (W x49 x00 x46 x00 x4b x00 x00 x00)
(T (W x00 x00 x00 x00 x00 x00 x10 xec)
(L (W x03 x00 x03 x00 x02 x03 x03 x03)) E)
(T (W x00 x00 x00 x00 x00 x00 x00 x00)
(L (W x00 x00 x00 x00 x00 x00 x00 x00)) E)))
(T (W x00 x00 x00 x00 x00 x00 x00 x00)
(T (W x01 x00 x00 x00 x00 x00 x00 x00)
(T (W x05 x05 x05 x05 x06 x02 x02 x05)
(L (W xad x00 xad x00 xac x00 x00 x00)) E)
(T (W x00 x00 x00 x00 x00 x00 x00 x00)
(L (W x00 x00 x00 x00 x02 x18 x50 x8c)) E))
(T (W x00 x00 x00 x00 x00 x00 x00 x00)
(T (W x00 x00 x2a x00 x00 x00 xca x00)
(L (W x00 x00 x00 x00 x00 x00 x00 x00)) E)
(T (W x4b x02 x80 x00 x00 x00 x5e x00)
(L (W x00 x00 x00 x00 xea x02 x00 x00)) E))))))))
(T (W x1e x00 x00 x00 x00 x00 x32 x00)
(T (W x00 x00 x00 x00 x00 x00 x00 x00)
(T (W x00 x00 x00 x00 x00 x00 x00 x00)
(T (W x08 x00 x00 x00 x55 x00 x00 x00)
(T (W x00 x00 x00 x00 x00 x00 x00 x00)
(T (W x05 x05 x04 x06 x05 x02 x02 x04)
(T (W x00 x00 x00 x00 x00 x00 x00 x00)
(T (W x03 x02 x20 x00 x00 x00 xe9 x00)
(L (W x04 x00 x00 x00 x21 x03 x00 x00))
(L (W x05 x05 x02 x02 x02 x02 x02 x02)))
(T (W x40 x4b xae xcb x82 x11 x00 x50)
(L (W x1e x00 x00 x00 x00 x00 x32 x00)) E))
(T (W x20 x04 x00 x00 x23 x00 x00 x00)
(T (W x37 x00 x20 x00 x69 x00 x00 x00)
(L (W x00 x00 x00 x00 xcd x00 x00 x00)) E)
(T (W x00 x00 x00 x00 x00 x00 x00 x00)
(L (W x02 x00 x03 x00 x03 x03 x02 x02)) E)))
(T (W x00 x00 x00 x00 x04 x94 x10 x8c)
(T (W x00 x00 x00 x00 x00 x00 x00 x00)
(T (W x1e x00 x00 x00 x00 x00 x2d x00)
(L (W x80 x10 x00 x00 x00 x00 x00 x00))
(L (W x00 x00 x00 x00 x01 x0c x10 x0f)))
(T (W x05 x05 x02 x03 x03 x02 x02 x02)
(L (W x00 x00 x00 x00 x00 x00 x00 x00)) E))
(T (W x00 x00 x00 x00 x41 x01 x00 x00)
(T (W x00 x00 x00 x00 x00 x00 x00 x00)
(L (W x2d x03 xc0 x00 x00 x00 x00 x00)) E)
(T (W x00 x00 x49 x02 x00 x00 x30 x01)
(L (W x00 x00 x00 x00 x00 x00 x00 x00)) E))))
(T (W x00 x00 x00 x00 x00 x00 x00 x00)
(T (W x3c x02 x08 x00 x00 x00 xf3 x00)
(T (W x44 x00 x65 x00 x87 x00 x00 x00)
(T (W x00 x00 x00 x00 x00 x00 x00 x00)
(L (W x01 x00 x03 x00 x01 x03 x05 x05))
(L (W x03 x03 x03 x00 x00 x00 x00 x00)))
(T (W x00 x00 x00 x00 x4a x00 x00 x00)
(L (W x00 x00 x00 x00 x00 x00 x00 x00)) E))
(T (W x00 x80 x61 x83 x87 x00 x43 x00)
(T (W x00 x00 x00 x00 x00 x00 x00 x00)
(L (W x05 x05 x04 x05 x05 x02 x02 x04)) E)
(T (W x1e x00 x00 x00 x00 x00 x28 x00)
(L (W x00 x00 x00 x00 x00 x00 x00 x00)) E)))
(T (W x01 x00 x00 x00 x00 x00 x00 x00)
(T (W x03 x00 x03 x00 x03 x03 x05 x05)
(T (W x00 x00 xc9 x00 x00 x00 x51 x01)
(L (W x00 x00 x2e x83 x92 x61 x30 x09))
(L (W x0a x00 x00 x00 x00 x00 x00 x00)))
(T (W x5a x02 x00 x02 x00 x00 x00 x00)
(L (W x00 x00 x00 x00 x00 x00 x00 x00)) E))
(T (W x01 x01 x01 x01 x01 x01 x01 x01)
(T (W x00 x00 x00 x00 x00 x00 x00 x00)
(L (W x00 x00 x00 x00 x12 x1b x30 xce)) E)
(T (W x41 x00 x41 x00 xcb x00 x00 x00)
(L (W x00 x00 x00 x00 x00 x00 x00 x00)) E)))))
(T (W x1e x00 x00 x00 x00 x00 x28 x00)
(T (W x00 x00 x5f x00 x00 x00 x37 x00)
(T (W x00 x00 x00 x00 x6b x00 x00 x00)
(T (W x00 x00 x00 x00 x00 x00 x00 x00)
(T (W x00 x00 x00 x00 x00 x00 x00 x00)
(L (W x8c x01 x04 x00 x00 x00 x00 x00))
(L (W x00 x00 x00 x00 x3c x03 x00 x00)))
(T (W x00 x00 xcc x00 x00 x00 x1d x02)
(L (W x00 x00 x00 x00 x00 x00 x00 x00)) E))
(T (W x1e x00 x00 x00 x00 x00 x3c x00)
(T (W x05 x05 x03 x03 x04 x02 x02 x03)
(L (W x07 x00 x07 x00 x65 x00 x00 x00)) E)
(T (W x00 x00 x00 x00 x00 x00 x00 x00)
(L (W x00 x00 x00 x00 x00 x00 x00 x00)) E)))
(T (W x00 x00 x00 x00 x00 x00 x00 x00)
(T (W x2d x02 x08 x00 x00 x00 x00 x00)
(T (W x00 x00 x00 x00 x00 x00 x00 x00)
(L (W x0a x00 x00 x00 x00 x00 x28 x00))
(L (W x00 x00 x02 x00 x00 x00 x00 x00)))
(T (W x00 x00 x00 x00 x6b x02 x00 x00)
(L (W x01 x01 x01 x01 x01 x01 x01 x01)) E))
(T (W x0c x00 x6b x00 x5d x00 x00 x00)
(T (W x00 x00 x00 x00 x00 x04 x10 x0c)
(L (W x00 x00 x00 x00 x00 x00 x00 x00)) E)
(T (W x00 x00 x00 x00 x66 x01 x00 x00)
(L (W x00 x00 x00 x00 x00 x00 x00 x00)) E))))
(T (W x00 x00 x00 x00 x00 x00 x00 x00)
(T (W x01 x00 x02 x00 x03 x02 x03 x03)
(T (W x05 x05 x04 x04 x05 x02 x02 x04)
(T (W x00 x00 x00 x00 x00 x00 x00 x00)
(L (W x40 x00 x00 x00 x81 x04 x30 x8d))
(L (W x00 x00 x00 x00 x00 x00 x00 x00)))
(T (W x0e x00 x7f x00 x44 x00 x00 x00)
(L (W x01 x00 x01 x00 x20 x00 x01 x00)) E))
(T (W x00 x00 x00 x00 x00 x00 x00 x00)
(T (W x00 x00 x00 x00 x00 x00 x00 x00)
(L (W x04 x00 x00 x00 xcf x03 x00 x00)) E)
(T (W x00 x83 xe9 x8b xb3 x2a x61 x0e)
(L (W x01 x00 x00 x00 x00 x00 x00 x00)) E)))
(T (W x00 x48 xa6 xd3 x86 x11 x00 x31)
(T (W x00 x00 x00 x00 x73 x00 x10 x0c)
(T (W x00 x00 x00 x00 x00 x00 x00 x00)
(L (W x00 x00 xec x01 x00 x00 x2b x02)) E)
(T (W x01 x00 x00 x00 x00 x00 x00 x00)
(L (W x00 x00 x00 x00 x00 x00 x00 x00)) E))
(T (W x00 x00 x00 x00 x6b x01 x00 x00)
(T (W x1e x00 x00 x00 x00 x00 x32 x00)
(L (W x00 x00 x00 x00 x00 x00 x00 x00)) E)
(T (W x01 x01 x01 x01 x01 x01 x01 x01)
(L (W x00 x00 x00 x00 x00 x00 x00 x00)) E))))))
(T (W x00 x00 x00 x00 x00 x00 x00 x00)
(T (W x05 x05 x03 x03 x04 x02 x02 x03)
(T (W x4b x02 x00 x02 x00 x00 x00 x00)
(T (W x01 x00 x00 x00 x00 x00 x00 x00)
(T (W x02 x00 x01 x00 x01 x01 x06 x06)
(T (W x00 x00 x28 x01 x00 x00 x00 x00)
(L (W x00 x0c x28 x93 x84 x40 x04 x0a))
(L (W x0a x00 x00 x00 x00 x00 x28 x00)))
(T (W x2d x02 x08 x00 x00 x00 x00 x00)
(L (W x00 x00 x00 x00 x00 x00 x00 x00)) E))
(T (W x01 x01 x01 x01 x01 x01 x01 x01)
(T (W x00 x00 x00 x00 x00 x00 x09 x00)
(L (W x00 x00 x00 x00 x00 x30 x11 x0c)) E)
(T (W x35 x00 xa7 x00 x25 x00 x00 x00)
(L (W x00 x00 x00 x00 x00 x00 x00 x00)) E)))
(T (W x3d x00 x3d x00 x3f x00 x00 x00)
(T (W x3b x4b x60 xab x97 x0a x01 x08)
(T (W x00 x00 x00 x00 xab x01 x00 x00)
(L (W x05 x05 x05 x05 x05 x02 x02 x05))
(L (W x85 x00 x85 x00 x82 x00 x94 x04)))
(T (W x1e x00 x00 x00 x00 x00 x2d x00)
(L (W x08 x20 x00 x00 x00 x00 x00 x00)) E))
(T (W x40 x00 x00 x00 x26 x94 x10 x8d)
(T (W x00 x00 x00 x00 x1b x00 x00 x00)
(L (W x00 x00 x00 x00 x00 x00 x00 x00)) E)
(T (W x03 x00 x03 x00 x03 x03 x03 x02)
(L (W x00 x00 x00 x00 x00 x00 x00 x00)) E))))
(T (W x00 x00 x00 x00 x87 x90 x10 xbc)
(T (W x00 x00 x5e x00 x00 x00 x3b x00)
(T (W x00 x00 x00 x00 x00 x00 x00 x00)
(T (W x4f x00 x16 x00 x3e x00 x00 x00)
(L (W x00 x00 x00 x00 x5b x01 x00 x00))
(L (W x00 x00 xce x02 x00 x00 xce x02)))
(T (W x00 x00 x00 x00 x02 x00 x50 x0c)
(L (W x00 x00 x00 x00 x00 x00 x00 x00)) E))
(T (W x00 x00 x00 x00 x00 x00 x00 x00)
(T (W x00 x00 x00 x00 x00 x00 x00 x00)
(L (W x1e x00 x00 x00 x00 x00 x32 x00)) E)
(T (W x00 x00 x00 x00 xf7 x02 x00 x00)
(L (W x01 x01 x01 x01 x01 x01 x01 x01)) E)))
(T (W x00 x00 x00 x00 xab x00 x00 x00)
(T (W x01 x00 x01 x00 x20 x00 x00 x00)
(T (W x02 x00 x02 x00 x02 x02 x04 x04)
(L (W x2d x03 x30 x00 x00 x00 x00 x00)) E)
(T (W x00 x00 xe8 x01 x00 x00 x8d x00)
(L (W x00 x00 x20 x8f x9a x25 xb0 x04)) E))
(T (W x01 x00 x00 x00 x00 x00 x00 x00)
(T (W x05 x05 x04 x04 x05 x02 x02 x04)
(L (W x08 x00 xdd x00 x9f x00 x94 x03)) E)
(T (W x24 x00 x00 x00 x00 x00 x00 x00)
(L (W x00 x00 x00 x00 x00 x00 x00 x00)) E)))))
(T (W x00 x00 x00 x00 x2b x00 x00 x00)
(T (W x01 x00 x02 x00 x01 x02 x04 x04)
(T (W x3b x4b x6a xab x8f x0a x01 x88)
(T (W x00 x00 x00 x00 x66 x97 x12 xac)
(T (W x00 x00 x00 x00 x00 x00 x00 x00)
(L (W x00 x00 x41 x02 x00 x00 x3c x02))
(L (W x00 x43 x70 x4f x8f x11 x00 x03)))
(T (W x01 x00 x03 x00 x01 x03 x04 x04)
(L (W x00 x00 x00 x00 x00 x00 x00 x00)) E))
(T (W x00 x00 x00 x00 x00 x00 x00 x00)
(T (W x0a x00 x00 x00 x00 x00 x28 x00)
(L (W x00 x04 x00 x00 x00 x00 x29 x00)) E)
(T (W x01 x01 x01 x01 x01 x01 x01 x01)
(L (W x00 x00 x00 x00 x00 x00 x00 x00)) E)))
(T (W x01 x01 x01 x01 x01 x01 x01 x01)
(T (W x00 x00 x9e x02 x00 x00 x48 x00)
(T (W x91 x01 x00 x04 x00 x00 x00 x00)
(L (W x00 x00 x00 x00 xb5 x03 x00 x00))
(L (W x05 x05 x03 x03 x05 x02 x02 x03)))
(T (W x00 xc3 xa1 x87 xa3 x0c x01 x0e)
(L (W x01 x00 x00 x00 x00 x00 x00 x00)) E))
(T (W x00 x10 x00 x00 x00 x00 xb7 x00)
(T (W x3e x00 x7d x00 x59 x00 x00 x00)
(L (W x00 x00 x00 x00 xc2 x00 x00 x00)) E)
(T (W x40 x00 x00 x00 x02 x04 x30 x8d)
(L (W x00 x00 x00 x00 x00 x00 x00 x00)) E))))
(T (W x00 x00 x00 x00 x00 x00 x00 x00)
(T (W x00 x00 x00 x00 xc7 x00 x00 x00)
(T (W x01 x00 x00 x00 x00 x00 x00 x00)
(T (W x05 x05 x03 x03 x03 x02 x02 x03)
(L (W xe4 x00 xe4 x00 x8c x00 x00 x00))
(L (W x00 x00 x00 x00 x00 x00 x00 x00)))
(T (W x08 x00 x01 x00 x00 x00 x00 x00)
(L (W x00 x00 x00 x00 x00 x00 x00 x00)) E))
(T (W x00 x00 x00 x00 x00 x00 x00 x00)
(T (W x00 x00 xf2 x00 x00 x00 x47 x02)
(L (W x23 x43 x60 x0b x8a x00 x49 x02)) E)
(T (W x4b x02 x40 x01 x00 x00 x00 x00)
(L (W x00 x00 x00 x00 x00 x00 x00 x00)) E)))
(T (W xbe x02 x02 x00 x00 x00 x00 x00)
(T (W x00 x00 x00 x00 x00 x00 x00 x00)
(T (W x80 x00 x00 x00 x00 x03 x18 x0c)
(L (W x03 x00 x03 x00 x03 x03 x04 x04)) E)
(T (W x00 x00 x00 x00 x00 x00 x00 x00)
(L (W x00 x00 x00 x00 x00 x00 x00 x00)) E))
(T (W x00 x03 x68 x8b x9b x20 xf1 x00)
(T (W x08 x00 x00 x00 x2b x02 x00 x00)
(L (W x05 x05 x03 x03 x04 x02 x02 x03)) E)
(T (W x01 x00 x00 x00 x00 x00 x00 x00)
(L (W x00 x00 x00 x00 x00 x00 x00 x00)) E)))))))
(T (W x00 x00 x00 x00 x0b x00 x00 x00)
(T (W x00 x00 x00 x00 x00 x00 x00 x00)
(T (W x00 x00 x0e x00 x00 x00 x59 x00)
(T (W x35 x00 x65 x00 x7f x00 x95 x03)
(T (W x02 x00 x02 x00 x02 x02 x04 x04)
(T (W x01 x01 x01 x01 x01 x01 x01 x01)
(T (W x00 x10 x00 x00 x00 x00 xc5 x00)
(L (W x00 x00 x00 x00 x82 x04 x10 x0c))
(L (W x03 x00 x00 x00 x00 x00 x00 x00)))
(T (W x74 x00 x05 x00 x21 x00 x00 x00)
(L (W x01 x00 x00 x00 x00 x00 x00 x00)) E))
(T (W x00 x00 x00 x00 x00 x00 x00 x00)
(T (W x2d x02 x00 x02 x00 x00 x00 x00)
(L (W x00 x00 x00 x00 xa8 x03 x00 x00)) E)
(T (W x00 x00 x00 x00 x00 x00 x00 x00)
(L (W x0a x00 x00 x00 x00 x00 x00 x00)) E)))
(T (W x40 x43 x22 x43 x8f x41 x00 x01)
(T (W x00 x00 x00 x00 x62 x48 x10 x4e)
(T (W x00 x00 x00 x00 x00 x00 x00 x00)
(L (W x00 x00 x55 x00 x00 x00 x00 x00))
(L (W x40 x03 xa0 xcb x92 x60 x00 x04)))
(T (W x03 x00 x03 x00 x02 x03 x05 x04)
(L (W xbe x01 x01 x00 x00 x00 x00 x00)) E))
(T (W x00 x00 x00 x00 x00 x00 x00 x00)
(T (W x1e x00 x00 x00 x00 x00 x2d x00)
(L (W x40 x00 x00 x00 x00 x00 x00 x00)) E)
(T (W x05 x05 x04 x04 x05 x02 x02 x04)
(L (W x00 x00 x00 x00 x00 x00 x00 x00)) E))))
(T (W x00 x00 x00 x00 x00 x00 x00 x00)
(T (W x04 x14 x00 x00 x63 x00 x00 x00)
(T (W x3c x01 x40 x00 x00 x00 xd9 x00)
(T (W x00 x00 x00 x00 x00 x00 x00 x00)
(L (W x1e x00 x00 x00 x00 x00 x28 x00))
(L (W x01 x00 x00 x00 x00 x00 x00 x00)))
(T (W x00 x00 x00 x00 x4b x02 x00 x00)
(L (W x01 x01 x01 x01 x01 x01 x01 x01)) E))
(T (W x00 x00 x00 x00 x00 x00 x00 x00)
(T (W x00 x00 x00 x00 x04 xab x30 x6e)
(L (W x02 x00 x02 x00 x03 x02 x03 x03)) E)
(T (W x00 x00 x00 x00 x4b x01 x00 x00)
(L (W x00 x00 x00 x00 x00 x00 x00 x00)) E)))
(T (W x00 x00 x00 x00 x00 x00 x00 x00)
(T (W x01 x00 x00 x00 x00 x00 x00 x00)
(T (W x05 x05 x02 x03 x03 x02 x02 x02)
(L (W xa7 x00 xa7 x00 x52 x00 x00 x00)) E)
(T (W x00 x00 x00 x00 x00 x00 x88 x00)
(L (W x00 x00 x00 x00 x00 x00 x00 x00)) E))
(T (W x00 x00 x00 x00 x00 x00 x00 x00)
(T (W x00 x00 x00 x00 x00 x00 x00 x00)
(L (W x00 x80 x28 xab x8a x51 x00 x12)) E)
(T (W x2d x03 x0c x00 x00 x00 x00 x00)
(L (W x00 x00 x00 x00 x00 x00 x00 x00)) E)))))
(T (W x00 x00 x00 x00 x00 x00 x00 x00)
(T (W x05 x05 x03 x03 x04 x02 x02 x03)
(T (W x00 x00 x00 x00 x04 x83 x50 x0c)
(T (W x00 x00 x00 x00 x00 x00 x00 x00)
(T (W x01 x00 x00 x00 x00 x00 x00 x00)
(L (W x10 x00 x00 x00 x00 x00 x00 x00))
(L (W x00 x00 x00 x00 x38 x04 x11 x8c)))
(T (W x05 x05 x03 x03 x04 x02 x02 x03)
(L (W x00 x00 x00 x00 x00 x00 x00 x00)) E))
(T (W x00 x00 x00 x00 x00 x00 x00 x00)
(T (W x02 x00 x00 x00 x00 x00 x00 x00)
(L (W x3c x02 x00 x02 x00 x00 x00 x00)) E)
(T (W x00 x00 x00 x00 x00 x00 x00 x00)
(L (W x00 x00 x00 x00 x00 x00 x00 x00)) E)))
(T (W x00 x00 x00 x00 x00 x00 x00 x00)
(T (W x00 x42 x00 x00 x00 x00 x00 x00)
(T (W x1a x00 x55 x00 x86 x00 x00 x00)
(L (W x00 x00 x00 x00 x00 x00 x00 x00))
(L (W x00 x00 x97 x00 x00 x00 x5d x02)))
(T (W x00 x00 x00 x00 xa0 x0c x10 x0c)
(L (W x00 x00 x00 x00 x00 x00 x00 x00)) E))
(T (W xff x01 x00 x04 x00 x00 x0d x01)
(T (W x00 x80 x60 x83 x81 x08 x23 x08)
(L (W x1e x00 x00 x00 x00 x00 x3c x00)) E)
(T (W x00 x00 x00 x00 xfa x02 x00 x00)
(L (W x01 x01 x01 x01 x01 x01 x01 x01)) E))))
(T (W x00 x00 x00 x00 x00 x00 x00 x00)
(T (W x1e x00 x00 x00 x00 x00 x32 x00)
(T (W x02 x00 x01 x00 x03 x01 x05 x05)
(T (W x00 x00 x00 x00 x00 x00 x00 x00)
(L (W x60 x43 xaf x43 x82 x01 x00 x15))
(L (W x01 x00 x00 x00 x00 x00 x00 x00)))
(T (W x82 x01 x10 x00 x00 x00 x00 x00)
(L (W x00 x00 x00 x00 x00 x00 x00 x00)) E))
(T (W x05 x05 x03 x03 x04 x02 x02 x03)
(T (W x00 x00 x00 x00 x00 x00 x00 x00)
(L (W x80 x00 x00 x00 x02 x00 x10 x0c)) E)
(T (W xb2 x00 xb2 x00 xb2 x00 x00 x00)
(L (W x00 x00 x00 x00 x00 x00 x00 x00)) E)))
(T (W x00 x00 x00 x00 x00 x00 x00 x00)
(T (W x00 x88 x30 x93 xa4 x00 x04 x12)
(T (W x00 x00 x00 x00 xcb x01 x00 x00)
(L (W x05 x05 x03 x04 x04 x02 x02 x03)) E)
(T (W x0a x00 x00 x00 x00 x00 x28 x00)
(L (W x00 x00 x00 x00 x00 x00 x00 x00)) E))
(T (W x00 x00 x00 x00 x00 x00 x00 x00)
(T (W x00 x00 x00 x00 x00 x00 x00 x00)
(L (W x00 x00 xab x01 x00 x00 x5d x02)) E)
(T (W x02 x00 x03 x00 x03 x03 x03 x03)
(L (W x00 x00 x00 x00 x00 x00 x00 x00)) E))))))
(T (W x00 x00 x00 x00 x00 x00 x00 x00)
(T (W x01 x00 x03 x00 x01 x03 x04 x04)
(T (W x00 x00 x00 x00 x00 x00 x00 x00)
(T (W x00 x00 x00 x00 x00 x00 x00 x00)
(T (W x1e x00 x00 x00 x00 x00 x2d x00)
(T (W x05 x05 x05 x05 x05 x02 x02 x05)
(L (W x23 x00 x1b x00 x2c x00 x00 x00))
(L (W x00 x00 x00 x00 x00 x00 x00 x00)))
(T (W x80 x00 x00 x00 x00 x00 x00 x00)
(L (W x00 x00 x00 x00 x00 x00 x00 x00)) E))
(T (W x02 x00 x03 x00 x03 x03 x05 x04)
(T (W x00 x00 x00 x00 x00 x00 x00 x00)
(L (W x2b x43 x21 x87 x80 x01 x00 x8a)) E)
(T (W x2d x02 xc0 x00 x00 x00 x00 x00)
(L (W x00 x00 x00 x00 x00 x00 x00 x00)) E)))
(T (W x2d x03 x03 x00 x9d x00 x9d x00)
(T (W x2e x00 x2e x00 x27 x00 x00 x00)
(T (W x00 x00 x00 x00 x00 x00 x00 x00)
(L (W x02 x00 x03 x00 x03 x03 x02 x02))
(L (W x64 x02 x00 x08 x00 x00 x00 x00)))
(T (W x00 x00 x00 x00 x13 x01 x00 x00)
(L (W x00 x00 x93 x01 x00 x00 x93 x01)) E))
(T (W x00 x03 x7e x0b x8b x43 x43 x10)
(T (W x00 x00 x00 x00 x00 x00 x00 x00)
(L (W x05 x05 x05 x05 x05 x02 x02 x02)) E)
(T (W x1e x00 x00 x00 x00 x00 x32 x00)
(L (W x00 x00 x00 x00 x00 x00 x00 x00)) E))))
(T (W x00 x40 x27 x03 x86 x01 x00 x00)
(T (W x05 x05 x03 x03 x04 x02 x02 x03)
(T (W x00 x00 xb5 x00 x00 x00 xb5 x00)
(T (W x4b x03 x00 x03 x00 x00 xf5 x00)
(L (W x00 x00 x00 x00 x00 x00 x00 x00))
(L (W x05 x05 x04 x05 x05 x02 x02 x04)))
(T (W x00 x03 x28 x9b xda x30 x80 x00)
(L (W x01 x00 x00 x00 x00 x00 x00 x00)) E))
(T (W x00 x00 x00 x00 x00 x00 x00 x00)
(T (W x00 x00 x00 x00 x00 x00 x00 x00)
(L (W x00 x00 x00 x00 x5d x01 x00 x00)) E)
(T (W x00 x00 x00 x00 x04 x09 x10 x2c)
(L (W x00 x00 x00 x00 x00 x00 x00 x00)) E)))
(T (W x00 x00 x00 x00 x06 x88 x10 x0c)
(T (W x00 x00 x00 x00 x00 x00 x00 x00)
(T (W x1e x00 x00 x00 x00 x00 x32 x00)
(L (W x00 x04 x00 x00 x0f x00 x00 x00)) E)
(T (W x05 x05 x05 x05 x05 x02 x02 x05)
(L (W xff x00 xff x00 xa1 x00 xf3 x03)) E))
(T (W x00 x00 x00 x00 xd8 x00 x00 x00)
(T (W x02 x00 x03 x00 x03 x03 x04 x04)
(L (W x5a x02 x80 x00 x00 x00 xd9 x00)) E)
(T (W x00 x00 x00 x00 x00 x00 x00 x00)
(L (W x00 x00 x00 x00 x00 x00 x00 x00)) E)))))
(T (W x00 x00 x00 x00 x00 x00 x00 x00)
(T (W x01 x00 x00 x00 x00 x00 x00 x00)
(T (W x21 x00 x61 x00 x06 x00 x00 x00)
(T (W x00 x00 x00 x00 x00 x00 x00 x00)
(T (W x00 x00 x00 x00 x00 x00 x00 x00)
(L (W x05 x05 x02 x02 x02 x02 x02 x02))
(L (W xe1 x00 xe1 x00 xe1 x00 x6f x04)))
(T (W x01 x00 x00 x00 x00 x00 x00 x00)
(L (W x00 x00 x00 x00 x00 x00 x00 x00)) E))
(T (W x00 x00 x00 x00 x82 x48 x10 x4c)
(T (W x00 x00 x00 x00 x00 x00 x00 x00)
(L (W x00 x00 x19 x03 x00 x00 x19 x03)) E)
(T (W x03 x00 x03 x00 x03 x03 x04 x04)
(L (W x00 x00 x00 x00 x00 x00 x00 x00)) E)))
(T (W x00 x00 x00 x00 x00 x00 x00 x00)
(T (W x05 x05 x03 x03 x04 x02 x02 x03)
(T (W x00 x00 x00 x00 x00 x00 x00 x00)
(L (W x02 x00 x00 x00 x84 xb0 x30 x2c))
(L (W x00 x00 x00 x00 x00 x00 x00 x00)))
(T (W x33 x00 x7d x00 x80 x00 x00 x00)
(L (W x00 x00 x00 x00 x00 x00 x00 x00)) E))
(T (W x00 x00 x94 x01 x00 x00 x5e x01)
(T (W xff x01 x40 x00 x00 x00 x00 x00)
(L (W x00 x00 x00 x00 x19 x00 x00 x00)) E)
(T (W x00 x2b x70 x07 xc7 x48 x20 x08)
(L (W x01 x00 x00 x00 x00 x00 x00 x00)) E))))
(T (W x00 x00 x7a x00 x00 x00 xb4 x00)
(T (W x04 x00 x00 x00 x8b x00 x00 x00)
(T (W x00 x00 x00 x00 x00 x00 x00 x00)
(T (W x00 x00 x00 x00 x00 x00 x00 x00)
(L (W x2d x03 x0c x00 x00 x00 x00 x00))
(L (W x00 x00 x00 x00 x00 x00 x00 x00)))
(T (W x00 x00 x00 x00 x00 x00 x00 x00)
(L (W x00 x00 x00 x00 x00 x00 x00 x00)) E))
(T (W x01 x00 x00 x00 x00 x00 x00 x00)
(T (W x01 x01 x01 x01 x01 x01 x01 x01)
(L (W x87 x00 x86 x00 xf2 x00 x00 x00)) E)
(T (W x00 xd0 x00 x00 x00 x00 x54 x00)
(L (W x00 x00 x00 x00 x00 x00 x00 x00)) E)))
(T (W x00 x10 x00 x00 x00 x00 x00 x00)
(T (W x2d x02 x20 x00 x3b x02 x00 x00)
(T (W x00 x1b xe4 x93 x84 x08 x05 x1a)
(L (W x1e x00 x00 x00 x00 x00 x32 x00)) E)
(T (W x00 x00 x00 x00 x00 x00 x00 x00)
(L (W x05 x05 x05 x05 x05 x02 x02 x05)) E))
(T (W x45 x00 x45 x00 x8e x00 x00 x00)
(T (W x00 x00 x00 x00 x01 x04 x90 x0c)
(L (W x00 x00 x00 x00 x00 x00 x00 x00)) E)
(T (W x00 x00 x00 x00 x00 x00 x00 x00)
(L (W x00 x00 x37 x02 x00 x00 x36 x01)) E))))))))))))
(T (W x00 x00 x00 x00 x00 x00 x00 x00)
(T (W x00 x00 x00 x00 x00 x00 x00 x00)
(T (W x01 x01 x01 x01 x01 x01 x01 x01)
(T (W x00 x00 x00 x00 x00 x00 x00 x00)
(T (W x10 x00 x00 x00 x45 x00 x00 x00)
(T (W x00 x00 x53 x00 x00 x00 x6c x00)
(T (W x02 x00 x02 x00 x02 x02 x06 x06)
(T (W x00 x00 x00 x00 x00 x00 x00 x00)
(T (W x01 x00 x00 x00 x00 x00 x00 x00)
(T (W x1a x00 x1a x00 x1a x00 x00 x00)
(T (W x13 x83 xa1 x8b x9a x6a x30 x0a)
(T (W x00 x00 x00 x00 x74 x01 x00 x00)
(L (W x05 x05 x03 x03 x04 x02 x02 x03))
(L (W x35 x00 x77 x00 x0f x00 x5c x04)))
(T (W x1e x00 x00 x00 x00 x00 x3c x00)
(L (W x00 x00 x00 x00 x00 x00 x00 x00)) E))
(T (W x00 x00 x00 x00 x78 x10 x10 x0c)
(T (W x00 x00 x00 x00 x00 x00 x00 x00)
(L (W x00 x00 x8d x01 x00 x00 xf6 x00)) E)
(T (W x00 x00 x00 x00 x00 x00 x00 x00)
(L (W x03 x03 x0c x00 x00 x00 x00 x00)) E)))
(T (W x02 x00 x01 x00 x01 x02 x05 x05)
(T (W x01 x01 x01 x01 x01 x01 x01 x01)
(T (W x00 x00 x00 x00 x00 x00 x00 x00)
(L (W x80 x00 x00 x00 x04 x9f x10 x8f))
(L (W x00 x00 x00 x00 x00 x00 x00 x00)))
(T (W x8c x00 x1c x00 x94 x00 x00 x00)
(L (W x00 x00 x00 x00 x00 x00 x00 x00)) E))
(T (W x00 x00 x00 x00 x00 x00 x00 x00)
(T (W x00 x00 x00 x00 x00 x00 x00 x00)
(L (W x08 x00 x00 x00 xa1 x03 x00 x00)) E)
(T (W x00 x41 x6e x8b x8b x40 x61 x00)
(L (W x01 x00 x00 x00 x00 x00 x00 x00)) E))))
(T (W x00 x00 x00 x00 x00 x00 x00 x00)
(T (W x04 x00 x00 x00 x74 x00 x00 x00)
(T (W x00 x00 x00 x00 x00 x00 x00 x00)
(T (W x00 x00 x00 x00 x00 x00 x00 x00)
(L (W x2d x02 x20 x00 x00 x00 x00 x00))
(L (W x02 x00 x00 x00 x5e x03 x00 x00)))
(T (W x00 x00 x00 x00 x00 x00 x00 x00)
(L (W x00 x00 x00 x00 x00 x00 x00 x00)) E))
(T (W x1e x00 x00 x00 x00 x00 x2d x00)
(T (W x05 x05 x05 x05 x05 x02 x02 x05)
(L (W x9e x00 x77 x00 x7c x00 x00 x00)) E)
(T (W x40 x80 x00 x00 x00 x00 x00 x00)
(L (W x00 x00 x00 x00 x00 x00 x00 x00)) E)))
(T (W x00 x00 x00 x00 x00 x00 x00 x00)
(T (W x2d x02 x04 x01 x00 x00 x00 x00)
(T (W x00 x03 xa0 x8b xc6 x10 x01 x02)
(L (W x1e x00 x00 x00 x00 x00 x41 x00))
(L (W x40 x00 x00 x00 x00 x00 x00 x00)))
(T (W x00 x00 x00 x00 x74 x02 x00 x00)
(L (W x01 x01 x01 x01 x01 x01 x01 x01)) E))
(T (W x21 x00 x0c x00 x5b x00 x00 x00)
(T (W x00 x00 x00 x00 x18 x00 x50 x0c)
(L (W x02 x00 x02 x00 x03 x02 x03 x03)) E)
(T (W x00 x00 x00 x00 x00 x00 x00 x00)
(L (W x00 x00 x00 x00 x00 x00 x00 x00)) E)))))
(T (W x00 x01 x00 x00 x00 x00 x46 x00)
(T (W x00 xa0 xa8 x83 xc4 x03 x00 x00)
(T (W x05 x05 x04 x04 x05 x02 x02 x04)
(T (W x00 x00 x2b x02 x00 x00 x74 x01)
(T (W x2d x03 x08 x01 x00 x00 x00 x00)
(L (W x01 x00 x00 x00 x24 x03 x00 x00))
(L (W x01 x01 x01 x01 x01 x01 x01 x01)))
(T (W x00 x80 xa0 x87 x86 x95 x10 x0f)
(L (W x01 x00 x00 x00 x00 x00 x00 x00)) E))
(T (W x00 x08 x00 x00 x00 x00 x00 x00)
(T (W x2e x00 x2e x00 x77 x00 x00 x00)
(L (W x00 x00 x00 x00 x37 x01 x00 x00)) E)
(T (W x00 x00 x00 x00 x05 x90 x10 x0c)
(L (W x00 x00 x00 x00 x00 x00 x00 x00)) E)))
(T (W x00 x00 x00 x00 xff xff xff xff)
(T (W x00 x00 x00 x00 xf4 x00 x00 x00)
(T (W x01 x00 x00 x00 x00 x00 x00 x00)
(L (W x40 x28 x00 x00 x00 x00 x00 x00))
(L (W x00 x00 x00 x00 x00 x48 x18 x4e)))
(T (W x05 x05 x03 x03 x03 x02 x02 x03)
(L (W x1a x00 x1a x00 x1a x00 xd9 x03)) E))
(T (W x00 x00 x00 x00 x6a x01 x00 x00)
(T (W x00 x00 x00 x00 x00 x00 x00 x00)
(L (W x03 x03 x0c x00 x00 x00 x00 x00)) E)
(T (W x00 x00 xa5 x01 x00 x00 xa5 x01)
(L (W x00 x00 x00 x00 x00 x00 x00 x00)) E))))
(T (W x00 x00 x00 x00 x00 x00 x00 x00)
(T (W x2d x02 x44 x00 x00 x00 x00 x00)
(T (W x0c x00 x51 x00 x2f x00 x00 x00)
(T (W x00 x00 x00 x00 x03 x00 xd0 x0c)
(L (W x00 x00 x00 x00 x00 x00 x00 x00))
(L (W x00 x00 x00 x00 x00 x00 x00 x00)))
(T (W x00 x00 x00 x00 x32 x01 x00 x00)
(L (W x00 x00 x00 x00 x00 x00 x00 x00)) E))
(T (W x00 x00 x00 x00 x00 x00 x00 x00)
(T (W x00 x00 x00 x00 x00 x00 x00 x00)
(L (W x05 x05 x02 x03 x03 x02 x02 x02)) E)
(T (W x1e x00 x00 x00 x00 x00 x2d x00)
(L (W x00 x00 x00 x00 x00 x00 x00 x00)) E)))
(T (W x1e x00 x00 x00 x00 x00 x3c x00)
(T (W x00 x00 x00 x00 x00 x00 x00 x00)
(T (W x00 x00 xcf x00 x00 x00 x0d x01)
(L (W x00 x0b x2e x93 x80 x12 x00 x33)) E)
(T (W x03 x03 x00 x0c x00 x00 x00 x00)
(L (W x08 x00 x00 x00 x2b x02 x00 x00)) E))
(T (W x05 x05 x03 x03 x04 x02 x02 x03)
(T (W x10 x00 x00 x00 x00 x00 xa8 x00)
(L (W x00 x00 x00 x00 x02 x03 x12 x8c)) E)
(T (W x00 x00 x00 x00 x00 x00 x00 x00)
(L (W x00 x00 x00 x00 x00 x00 x00 x00)) E))))))
(T (W x00 x00 x00 x00 x00 x00 x00 x00)
(T (W x26 x00 x4f x00 x37 x00 x00 x00)
(T (W x00 x00 x00 x00 x34 x00 x00 x00)
(T (W x00 x00 x00 x00 x26 x00 x00 x00)
(T (W x00 x00 x00 x00 x00 x00 x00 x00)
(T (W x33 x43 x78 x0b x8a x08 x09 x08)
(L (W x1e x00 x00 x00 x00 x00 x32 x00))
(L (W x01 x00 x02 x00 x00 x00 x00 x00)))
(T (W x04 x00 x00 x00 x34 x02 x00 x00)
(L (W x05 x05 x05 x05 x05 x02 x02 x02)) E))
(T (W x00 x00 x00 x00 x00 x00 x00 x00)
(T (W x00 x00 x00 x00 x62 x20 x10 xac)
(L (W x01 x00 x02 x00 x03 x02 x05 x04)) E)
(T (W x00 x00 x00 x00 x00 x00 x00 x00)
(L (W x00 x00 x00 x00 x00 x00 x00 x00)) E)))
(T (W x00 x00 x00 x00 x00 x00 x00 x00)
(T (W x1e x00 x00 x00 x00 x00 x32 x00)
(T (W x01 x01 x01 x01 x01 x01 x01 x01)
(L (W xe0 x00 xe0 x00 xe0 x00 x00 x00))
(L (W x00 x00 x00 x00 x35 x01 x00 x00)))
(T (W x00 x40 x00 x00 x00 x00 x00 x00)
(L (W x00 x00 x00 x00 x7a x00 x12 x0c)) E))
(T (W x00 x00 x00 x00 x00 x00 x00 x00)
(T (W x00 x00 x5f x00 x00 x00 x5e x00)
(L (W x40 x0b x27 x07 x80 x00 x00 x06)) E)
(T (W x2d x01 x00 x04 x00 x00 x27 x01)
(L (W x00 x00 x00 x00 x00 x00 x00 x00)) E))))
(T (W x00 x00 x00 x00 x00 x00 x00 x00)
(T (W x3b x4f xae xab x86 x0a x00 xba)
(T (W x00 x00 x00 x00 xf1 x10 x10 x8c)
(T (W x00 x00 x00 x00 x00 x00 x00 x00)
(L (W x00 x00 xce x02 x00 x00 xce x02))
(L (W x00 x43 x70 x4f x8f x11 x00 x03)))
(T (W x01 x00 x03 x00 x01 x03 x03 x03)
(L (W x00 x00 x00 x00 x00 x00 x00 x00)) E))
(T (W x00 x00 x00 x00 x00 x00 x00 x00)
(T (W x0a x00 x00 x00 x00 x00 x00 x00)
(L (W x20 x04 x00 x00 x00 x00 x0c x00)) E)
(T (W x05 x05 x02 x02 x02 x02 x02 x02)
(L (W x00 x00 x00 x00 x00 x00 x00 x00)) E)))
(T (W x01 x01 x01 x01 x01 x01 x01 x01)
(T (W x00 x00 x00 x00 x00 x00 x00 x00)
(T (W x2d x02 x04 x01 x00 x00 x00 x00)
(L (W x0a x00 x00 x00 x8e x03 x00 x00)) E)
(T (W x00 x40 xa1 x87 xa6 x02 x00 x04)
(L (W x01 x00 x00 x00 x00 x00 x00 x00)) E))
(T (W x00 x00 x00 x00 x00 x00 x00 x00)
(T (W x00 x00 x00 x00 x00 x00 x00 x00)
(L (W x00 x00 x01 x00 x44 x00 x01 x00)) E)
(T (W x12 x00 x00 x00 x87 x84 x34 x0d)
(L (W x00 x00 x00 x00 x00 x00 x00 x00)) E)))))
(T (W x05 x05 x05 x05 x06 x02 x02 x05)
(T (W x64 x02 x00 x02 x00 x00 xf8 x00)
(T (W x1e x00 x00 x00 x00 x00 x28 x00)
(T (W x00 x00 x00 x00 x00 x00 x00 x00)
(T (W x00 x00 x00 x00 x00 x00 x00 x00)
(L (W x00 x0c x2e xb3 x84 x02 x10 x0a))
(L (W x1e x00 x00 x00 x00 x00 x28 x00)))
(T (W x32 x03 x00 x0c x00 x00 x00 x00)
(L (W x00 x00 x00 x00 x00 x00 x00 x00)) E))
(T (W x01 x01 x01 x01 x01 x01 x01 x01)
(T (W x00 x04 x00 x00 x00 x00 x00 x00)
(L (W x00 x00 x00 x00 x00 x48 x10 x2e)) E)
(T (W x00 x00 x00 x00 x00 x00 x00 x00)
(L (W x00 x00 x00 x00 x00 x00 x00 x00)) E)))
(T (W x00 x00 x00 x00 x00 x00 x00 x00)
(T (W x40 x6b x2e x53 xc7 x53 x00 x00)
(T (W x00 x00 x00 x00 xb4 x01 x00 x00)
(L (W x05 x05 x03 x03 x04 x02 x02 x03))
(L (W xaf x00 xaf x00 xa5 x00 x96 x04)))
(T (W x1e x00 x00 x00 x00 x00 x28 x00)
(L (W x00 x00 x00 x00 x00 x00 x00 x00)) E))
(T (W x00 x00 x00 x00 x20 x0c x10 x0e)
(T (W x00 x00 x00 x00 xa6 x00 x00 x00)
(L (W x00 x00 x56 x00 x00 x00 x58 x01)) E)
(T (W x02 x00 x03 x00 x03 x03 x03 x03)
(L (W x00 x00 x00 x00 x00 x00 x00 x00)) E))))
(T (W x00 x00 x00 x00 x00 x00 x00 x00)
(T (W x00 x00 xcc x00 x00 x00 x1c x00)
(T (W x00 x02 x00 x00 x2f x00 x00 x00)
(T (W x00 x00 x00 x00 x00 x00 x00 x00)
(L (W x00 x00 x00 x00 x00 x00 x00 x00))
(L (W x00 x00 x00 x00 x00 x00 x00 x00)))
(T (W x80 x00 x00 x00 x00 x01 x10 x0c)
(L (W x00 x00 x00 x00 x00 x00 x00 x00)) E))
(T (W x7d x01 x01 x00 x00 x00 x00 x00)
(T (W x00 xc2 x20 xa3 x86 x02 x01 x02)
(L (W x1e x00 x00 x00 x00 x00 x4b x00)) E)
(T (W x00 x00 x00 x00 xf4 x02 x00 x00)
(L (W x01 x01 x01 x01 x01 x01 x01 x01)) E)))
(T (W x00 x00 x00 x00 x00 x00 x00 x00)
(T (W x00 x00 x00 x00 x27 x00 x00 x00)
(T (W x01 x00 x03 x00 x01 x03 x05 x04)
(L (W x7f x02 x20 x00 x00 x00 x00 x00)) E)
(T (W x00 x00 x59 x00 x00 x00 x00 x00)
(L (W x00 x00 x00 x00 x00 x00 x00 x00)) E))
(T (W x01 x00 x00 x00 x00 x00 x00 x00)
(T (W x05 x05 x03 x03 x04 x02 x02 x03)
(L (W x52 x00 x14 x00 x90 x00 x9d x03)) E)
(T (W x08 x0a x00 x00 x00 x00 x00 x00)
(L (W x00 x00 x00 x00 x00 x00 x00 x00)) E)))))))
(T (W x05 x05 x04 x04 x05 x02 x02 x04)
(T (W x01 x00 x00 x00 x00 x00 x00 x00)
(T (W x27 xc3 xae xa3 x82 x0b x00 x48)
(T (W x00 x00 x00 x00 x00 x00 x00 x00)
(T (W x00 x00 x00 x00 x00 x00 x00 x00)
(T (W x00 x00 x00 x00 x00 x00 x00 x00)
(T (W x80 x00 x00 x00 x02 x1c x50 x0e)
(L (W x02 x00 x03 x00 x03 x03 x04 x04))
(L (W x3c x02 x20 x00 x00 x00 x00 x00)))
(T (W x00 x00 x00 x00 x29 x01 x00 x00)
(L (W x00 x00 x16 x03 x00 x00 xbc x00)) E))
(T (W x3b x47 xae xab xc6 x13 x00 x38)
(T (W x00 x00 x00 x00 xd4 x01 x00 x00)
(L (W x05 x05 x03 x03 x03 x02 x02 x03)) E)
(T (W x01 x00 x00 x00 x00 x00 x00 x00)
(L (W x00 x42 x00 x00 x00 x00 x00 x00)) E)))
(T (W x1e x00 x00 x00 x00 x00 x28 x00)
(T (W x00 x00 x00 x00 x00 x00 x00 x00)
(T (W x00 x00 x50 x00 x00 x00 x50 x00)
(L (W x31 x02 x60 x03 x80 x0c x11 x8a))
(L (W x1e x00 x00 x00 x00 x00 x28 x00)))
(T (W x5a x02 x00 x02 x00 x00 x00 x00)
(L (W x00 x00 x00 x00 x00 x00 x00 x00)) E))
(T (W x05 x05 x03 x03 x03 x02 x02 x03)
(T (W x00 x00 x00 x00 x00 x00 x00 x00)
(L (W x40 x00 x00 x00 x1e x93 x18 x2d)) E)
(T (W x07 x00 x54 x00 x68 x00 x00 x00)
(L (W x00 x00 x00 x00 x00 x00 x00 x00)) E))))
(T (W x05 x05 x04 x04 x05 x02 x02 x04)
(T (W x00 x00 x00 x00 x7b x10 x11 x1c)
(T (W x00 x00 x00 x00 xd4 x00 x00 x00)
(T (W x01 x00 x00 x00 x00 x00 x00 x00)
(L (W x01 x21 x00 x00 x86 x00 x00 x00))
(L (W xc1 x00 x00 x00 x35 x01 x38 x0d)))
(T (W x05 x05 x03 x04 x04 x02 x02 x03)
(L (W x00 x00 x00 x00 x00 x00 x00 x00)) E))
(T (W x00 x00 x00 x00 x00 x00 x00 x00)
(T (W x00 x00 x00 x00 x00 x00 x00 x00)
(L (W x1e x02 x00 x02 x00 x00 x00 x00)) E)
(T (W x00 x00 x0a x00 x00 x00 xd9 x01)
(L (W x00 x00 x00 x00 x00 x00 x00 x00)) E)))
(T (W x00 x00 x00 x00 x00 x00 x00 x00)
(T (W x00 x00 x00 x00 x00 x00 x00 x00)
(T (W x08 x00 x08 x00 x18 x00 x00 x00)
(L (W x00 x00 x00 x00 x08 x00 x00 x00))
(L (W x00 x00 x00 x00 x00 x00 x00 x00)))
(T (W x00 x00 x00 x00 x86 x80 x12 x0c)
(L (W x00 x00 x00 x00 x00 x00 x00 x00)) E))
(T (W x00 x00 x00 x00 x00 x00 x00 x00)
(T (W x3b x82 x60 x87 x86 x0e x01 x0a)
(L (W x1e x00 x00 x00 x00 x00 x32 x00)) E)
(T (W x00 x00 x00 x00 x4b x03 x00 x00)
(L (W x01 x01 x01 x01 x01 x01 x01 x01)) E)))))
(T (W x00 x00 x34 x00 x00 x00 x35 x00)
(T (W x0b x00 x06 x00 x21 x00 x00 x00)
(T (W x02 x00 x03 x00 x02 x03 x03 x03)
(T (W x01 x01 x01 x01 x01 x01 x01 x01)
(T (W x00 x00 x00 x00 x00 x00 x00 x00)
(L (W x00 x00 x00 x00 x01 x04 x10 x0c))
(L (W x01 x00 x01 x00 x01 x01 x04 x04)))
(T (W x38 x00 x65 x00 x5c x00 x00 x00)
(L (W x00 x00 x00 x00 x00 x00 x00 x00)) E))
(T (W x00 x00 x30 x00 x00 x00 xf1 x01)
(T (W x03 x03 x20 x04 x00 x00 x00 x00)
(L (W x04 x00 x00 x00 xc4 x03 x00 x00)) E)
(T (W x00 x00 x00 x00 x00 x00 x00 x00)
(L (W x01 x00 x00 x00 x00 x00 x00 x00)) E)))
(T (W x00 x00 x00 x00 x00 x00 x00 x00)
(T (W x00 x00 x00 x00 x02 x24 x10 x8d)
(T (W x00 x00 x00 x00 x00 x00 x00 x00)
(L (W x00 x00 xba x01 x00 x00 x00 x00))
(L (W x00 x0f x2a xb3 x80 x92 x00 x88)))
(T (W x03 x00 x03 x00 x03 x03 x04 x04)
(L (W x00 x00 x00 x00 x00 x00 x00 x00)) E))
(T (W x04 x00 x00 x00 x54 x01 x00 x00)
(T (W x1e x00 x00 x00 x00 x00 x28 x00)
(L (W x00 x04 x00 x00 x00 x00 xd2 x00)) E)
(T (W x05 x05 x03 x03 x03 x02 x02 x03)
(L (W x00 x00 x00 x00 x00 x00 x00 x00)) E))))
(T (W x00 x00 x00 x00 x00 x00 x00 x00)
(T (W x00 xc0 x00 x00 x2b x00 x3f x00)
(T (W x4b x02 x04 x01 x00 x00 x00 x00)
(T (W x00 x00 x00 x00 x00 x00 x00 x00)
(L (W x1e x00 x00 x00 x00 x00 x32 x00))
(L (W x00 x00 x00 x00 x00 x00 x00 x00)))
(T (W x00 x00 x00 x00 x54 x02 x00 x00)
(L (W x05 x05 x03 x03 x03 x02 x02 x03)) E))
(T (W x00 x00 x00 x00 x00 x00 x00 x00)
(T (W x00 x00 x00 x00 x00 x00 x00 x00)
(L (W x02 x00 x03 x00 x03 x03 x03 x03)) E)
(T (W x00 x00 x00 x00 xeb x00 x00 x00)
(L (W x00 x00 x00 x00 x00 x00 x00 x00)) E)))
(T (W x00 x00 x00 x00 x5c x00 x00 x00)
(T (W x1e x00 x00 x00 x00 x00 x28 x00)
(T (W x01 x01 x01 x01 x01 x01 x01 x01)
(L (W xee x00 x90 x00 x1b x00 x00 x00)) E)
(T (W x08 x80 x00 x00 x00 x00 x00 x00)
(L (W x00 x00 x00 x00 x00 x00 x00 x00)) E))
(T (W x01 x00 x02 x00 x01 x02 x07 x07)
(T (W x00 x00 x2a x01 x00 x00 xca x00)
(L (W x00 x00 x00 x00 x00 x00 x00 x00)) E)
(T (W xff x01 x04 x00 x00 x00 x00 x00)
(L (W x00 x00 x00 x00 x00 x00 x00 x00)) E))))))
(T (W x00 x00 x00 x00 x00 x00 x00 x00)
(T (W xeb x01 x04 x00 x00 x00 x00 x00)
(T (W x00 x00 x00 x00 xfa x08 x13 xce)
(T (W x00 x00 x00 x00 x00 x00 x00 x00)
(T (W x00 x00 x00 x00 x3a x00 x00 x00)
(T (W x1a x00 x1a x00 x1a x00 x00 x00)
(L (W x00 x00 x00 x00 x00 x00 x00 x00))
(L (W x00 x00 x68 x02 x00 x00 x00 x00)))
(T (W x00 x00 x00 x00 x00 x14 x10 x8d)
(L (W x00 x00 x00 x00 x00 x00 x00 x00)) E))
(T (W x00 x00 x00 x00 x00 x00 x00 x00)
(T (W x00 x4b xa0 x0b x86 x01 x00 x70)
(L (W x1e x00 x00 x00 x00 x00 x32 x00)) E)
(T (W x00 x00 x00 x00 xc8 x02 x00 x00)
(L (W x05 x05 x05 x05 x05 x02 x02 x02)) E)))
(T (W x00 x00 x00 x00 x94 x00 x00 x00)
(T (W x00 x00 x00 x00 x00 x00 x00 x00)
(T (W x03 x00 x02 x00 x02 x03 x03 x03)
(L (W xff x03 x04 x02 x00 x00 x00 x00))
(L (W x00 x00 x00 x00 xcc x03 x00 x00)))
(T (W x00 x00 xb5 x00 x00 x00 x0c x02)
(L (W x00 x40 xa6 x03 xc6 x03 x00 x00)) E))
(T (W x1e x00 x00 x00 x00 x00 x37 x00)
(T (W x05 x05 x03 x03 x04 x02 x02 x03)
(L (W x66 x00 x66 x00 x66 x00 xa5 x04)) E)
(T (W x00 x08 x00 x00 x3e x00 x00 x00)
(L (W x00 x00 x00 x00 x00 x00 x00 x00)) E))))
(T (W x1e x00 x00 x00 x00 x00 x28 x00)
(T (W x09 x00 x09 x00 x48 x00 x00 x00)
(T (W x00 x00 x00 x00 x00 x00 x00 x00)
(T (W x02 x00 x00 x00 x94 x01 x00 x00)
(L (W x05 x05 x04 x05 x05 x02 x02 x04))
(L (W xe1 x00 xe1 x00 xe1 x00 x6f x04)))
(T (W x1e x00 x00 x00 x00 x00 x3c x00)
(L (W x00 x00 x00 x00 x00 x00 x00 x00)) E))
(T (W x00 x00 x00 x00 x00 x00 x00 x00)
(T (W x00 x00 x00 x00 x00 x00 x00 x00)
(L (W x00 x00 x97 x00 x00 x00 x5d x02)) E)
(T (W x02 x00 x02 x00 x02 x02 x03 x03)
(L (W x00 x00 x00 x00 x00 x00 x00 x00)) E)))
(T (W x02 x00 x03 x00 x03 x03 x03 x02)
(T (W x05 x05 x03 x03 x03 x02 x02 x03)
(T (W x00 x01 x00 x00 x00 x00 x00 x00)
(L (W x80 x00 x00 x00 x02 x30 x30 x0c)) E)
(T (W x31 x00 x31 x00 x44 x00 x00 x00)
(L (W x01 x00 x00 x00 x9a x00 x00 x00)) E))
(T (W x00 x00 x00 x00 x00 x00 x00 x00)
(T (W x78 x02 x20 x00 x00 x00 xf5 x00)
(L (W x00 x00 x00 x00 x33 x00 x00 x00)) E)
(T (W x00 x03 x26 xab x9a x62 x80 x00)
(L (W x01 x00 x00 x00 x00 x00 x00 x00)) E)))))
(T (W x01 x00 x02 x00 x02 x02 x06 x05)
(T (W x40 x00 x00 x00 x00 x00 x00 x00)
(T (W x00 x00 x00 x00 x00 x00 x00 x00)
(T (W x1e x00 x00 x00 x00 x00 x3c x00)
(T (W x01 x01 x01 x01 x01 x01 x01 x01)
(L (W x27 x00 x8c x00 xb4 x00 x00 x00))
(L (W x00 x00 x00 x00 x7e x01 x00 x00)))
(T (W x00 x04 x01 x00 x00 x00 x37 x00)
(L (W x00 x00 x00 x00 x00 x00 x00 x00)) E))
(T (W x00 x00 x00 x00 x00 x00 x00 x00)
(T (W x00 x00 x01 x01 x00 x00 x00 x00)
(L (W x00 x47 x2a xb3 x80 x12 x00 x30)) E)
(T (W x00 x00 x00 x00 x00 x00 x00 x00)
(L (W x00 x00 x00 x00 x00 x00 x00 x00)) E)))
(T (W x00 x00 x00 x00 x00 x00 x00 x00)
(T (W x41 x00 x41 x00 x54 x00 x00 x00)
(T (W x00 x00 x00 x00 x00 x0b x10 x6e)
(L (W x02 x00 x02 x00 x03 x02 x04 x03))
(L (W xb4 x02 x80 x00 x00 x00 x00 x00)))
(T (W x00 x00 x00 x00 xf7 x00 x00 x00)
(L (W x00 x00 x00 x00 x00 x00 x00 x00)) E))
(T (W x00 x8b x60 x93 x85 x00 xe5 x00)
(T (W x00 x00 x00 x00 x14 x02 x00 x00)
(L (W x05 x05 x02 x03 x04 x02 x02 x02)) E)
(T (W x0a x00 x00 x00 x00 x00 x28 x00)
(L (W x00 x00 x00 x00 x00 x00 x00 x00)) E))))
(T (W x00 x00 x31 x8b x9a x21 xe8 x02)
(T (W x05 x05 x04 x04 x05 x02 x02 x04)
(T (W x00 x00 x00 x00 x00 x00 x00 x00)
(T (W x2d x02 x10 x04 x00 x00 xf5 x00)
(L (W x00 x00 x00 x00 x41 x03 x00 x00))
(L (W x01 x01 x01 x01 x01 x01 x01 x01)))
(T (W x00 x00 x00 x00 x00 x00 x00 x00)
(L (W x01 x00 x00 x00 x00 x00 x00 x00)) E))
(T (W x00 x00 x00 x00 x00 x00 x00 x00)
(T (W x07 x00 x54 x00 x9e x00 x00 x00)
(L (W x00 x00 x00 x00 x77 x01 x00 x00)) E)
(T (W x00 x00 x00 x00 x90 x13 x10 x8c)
(L (W x00 x00 x00 x00 x00 x00 x00 x00)) E)))
(T (W x00 x00 x00 x00 x7a x00 x13 xcc)
(T (W x00 x00 x00 x00 x00 x00 x00 x00)
(T (W x1e x00 x00 x00 x00 x00 x32 x00)
(L (W x00 x58 x00 x00 x39 x00 x00 x00)) E)
(T (W x01 x01 x01 x01 x01 x01 x01 x01)
(L (W xfa x00 xfa x00 xfa x00 xfd x03)) E))
(T (W x00 x00 x00 x00 x00 x00 x00 x00)
(T (W x02 x00 x03 x00 x03 x03 x04 x04)
(L (W x2d x02 x04 x00 x03 x01 x00 x00)) E)
(T (W x00 x00 x00 x00 x00 x00 x00 x00)
(L (W x04 xc7 x2e xa3 x86 x83 x00 x02)) E))))))))
(T (W x00 x00 x00 x00 x04 x00 x00 x00)
(T (W x04 x00 x00 x00 x7a x00 x11 x8c)
(T (W x00 x00 x00 x00 x00 x00 x00 x00)
(T (W x01 x01 x01 x01 x01 x01 x01 x01)
(T (W x00 x00 x00 x00 x00 x00 x00 x00)
(T (W x1e x00 x00 x00 x00 x00 x1e x00)
(T (W x00 x00 x00 x00 x00 x00 x00 x00)
(T (W x00 x00 x74 x00 x00 x00 x51 x01)
(L (W x00 x00 x20 x83 xba x22 xa0 x01))
(L (W x1e x00 x00 x00 x00 x00 x32 x00)))
(T (W x5a x02 x10 x04 x00 x00 x27 x01)
(L (W x00 x00 x00 x00 x69 x00 x00 x00)) E))
(T (W x05 x05 x03 x03 x04 x02 x02 x03)
(T (W x08 x00 x00 x00 x00 x00 x11 x00)
(L (W x00 x00 x00 x00 x06 x84 x90 x0c)) E)
(T (W x00 x00 x00 x00 x00 x00 x00 x00)
(L (W x00 x00 x00 x00 x00 x00 x00 x00)) E)))
(T (W x21 x00 x04 x00 x85 x00 x00 x00)
(T (W x00 x00 x00 x00 x00 x00 x00 x00)
(T (W x01 x00 x00 x00 xa4 x01 x00 x00)
(L (W x05 x05 x05 x05 x06 x02 x02 x05))
(L (W xd1 x00 xd1 x00 xd1 x00 x8d x04)))
(T (W x1e x00 x00 x00 x00 x00 x32 x00)
(L (W x00 x00 x00 x00 x00 x00 x00 x00)) E))
(T (W x00 x00 x00 x00 x00 x00 x00 x00)
(T (W x00 x00 x00 x00 x00 x00 x00 x00)
(L (W x00 x00 x63 x02 x00 x00 x36 x01)) E)
(T (W x02 x00 x01 x00 x02 x01 x00 x00)
(L (W x00 x00 x00 x00 x00 x00 x00 x00)) E))))
(T (W x00 x00 x00 x00 x00 x00 x00 x00)
(T (W x00 x00 x61 x00 x00 x00 x96 x01)
(T (W x00 x00 x00 x00 x00 x00 x00 x00)
(T (W x00 x00 x00 x00 x00 x00 x00 x00)
(L (W x00 x00 x00 x00 x00 x00 x00 x00))
(L (W x00 x00 xce x02 x00 x00 xce x02)))
(T (W x00 x00 x00 x00 x60 x00 x10 x0c)
(L (W x00 x00 x00 x00 x00 x00 x00 x00)) E))
(T (W xb4 x01 x10 x00 x00 x00 xee x00)
(T (W x00 x00 x00 x00 x00 x00 x00 x00)
(L (W x1e x00 x00 x00 x00 x00 x28 x00)) E)
(T (W x00 x00 x00 x00 x00 x00 x00 x00)
(L (W x01 x01 x01 x01 x01 x01 x01 x01)) E)))
(T (W x00 x00 x00 x00 xa4 x00 x00 x00)
(T (W x00 x00 x00 x00 x00 x00 x00 x00)
(T (W x03 x00 x01 x00 x03 x01 x05 x05)
(L (W x2d x01 x40 x04 x00 x00 x00 x00))
(L (W x0c x00 x00 x00 xd7 x03 x00 x00)))
(T (W x00 x00 x4e x01 x00 x00 x6e x01)
(L (W x00 x00 x00 x00 x00 x00 x00 x00)) E))
(T (W x1e x00 x00 x00 x00 x00 x32 x00)
(T (W x05 x05 x03 x03 x03 x02 x02 x03)
(L (W x09 x00 x09 x00 x1f x00 x85 x03)) E)
(T (W x10 x02 x00 x00 x00 x00 x00 x00)
(L (W x00 x00 x00 x00 x00 x00 x00 x00)) E)))))
(T (W x00 x00 x00 x00 x24 x00 x00 x00)
(T (W x02 x00 x02 x00 x03 x02 x05 x05)
(T (W x03 x00 xe0 x83 x86 x0f x11 x08)
(T (W x00 x00 x00 x00 x7e x8c x1a x8e)
(T (W x00 x00 x00 x00 x00 x00 x00 x00)
(L (W x00 x00 x8b x00 x00 x00 x31 x01))
(L (W x00 x00 x00 x00 x00 x00 x00 x00)))
(T (W x02 x00 x03 x00 x02 x03 x04 x04)
(L (W x00 x00 x00 x00 x00 x00 x00 x00)) E))
(T (W x00 x00 x00 x00 x24 x01 x00 x00)
(T (W x1e x00 x00 x00 x00 x00 x32 x00)
(L (W x00 x09 x00 x00 x00 x00 x63 x00)) E)
(T (W x01 x01 x01 x01 x01 x01 x01 x01)
(L (W x00 x00 x00 x00 x00 x00 x00 x00)) E)))
(T (W x01 x01 x01 x01 x01 x01 x01 x01)
(T (W x00 x00 x60 x01 x00 x00 x00 x00)
(T (W x00 x00 x00 x00 x00 x00 x00 x00)
(L (W x00 x00 x00 x00 x77 x03 x00 x00))
(L (W x05 x05 x04 x04 x05 x02 x02 x04)))
(T (W x00 xc0 x60 x83 x83 x04 x31 x02)
(L (W x0a x00 x00 x00 x00 x00 x28 x00)) E))
(T (W x00 x10 x00 x00 x00 x00 x00 x00)
(T (W x05 x00 x85 x00 x9f x00 x00 x00)
(L (W x00 x00 x00 x00 x00 x00 x00 x00)) E)
(T (W x00 x00 x00 x00 x04 x88 x50 x0c)
(L (W x00 x00 x00 x00 x00 x00 x00 x00)) E))))
(T (W x08 x00 x00 x00 x6a x00 x00 x00)
(T (W x00 x00 x00 x00 x90 x00 x00 x00)
(T (W x1e x00 x00 x00 x00 x00 x32 x00)
(T (W x01 x01 x01 x01 x01 x01 x01 x01)
(L (W xc8 x00 xc8 x00 xc8 x00 x00 x00))
(L (W x00 x00 x00 x00 x00 x00 x00 x00)))
(T (W x00 x00 x00 x00 x00 x00 x00 x00)
(L (W x00 x00 x00 x00 x72 x03 x10 x8c)) E))
(T (W x02 x00 x02 x00 x01 x02 x04 x04)
(T (W x00 x00 x00 x00 x00 x00 x00 x00)
(L (W x02 x03 x78 x83 x81 x10 x43 x04)) E)
(T (W x78 x01 x04 x00 x00 x00 x00 x00)
(L (W x00 x00 x00 x00 x00 x00 x00 x00)) E)))
(T (W x4b x02 x00 x08 x00 x00 x00 x00)
(T (W x00 x00 x00 x00 x00 x00 x00 x00)
(T (W x00 x00 x00 x00 x00 x00 x00 x00)
(L (W x02 x00 x03 x00 x02 x03 x05 x04)) E)
(T (W x00 x00 x00 x00 x00 x00 x00 x00)
(L (W x00 x00 xa7 x01 x00 x00 xa3 x01)) E))
(T (W x00 x03 x3a x8f x8a xc0 x08 x02)
(T (W x01 x00 x00 x00 x24 x02 x00 x00)
(L (W x01 x01 x01 x01 x01 x01 x01 x01)) E)
(T (W x01 x00 x00 x00 x00 x00 x00 x00)
(L (W x00 x00 x00 x00 x00 x00 x00 x00)) E))))))
(T (W x00 x00 x00 x00 x00 x00 x00 x00)
(T (W x1e x00 x00 x00 x00 x00 x3c x00)
(T (W x00 x00 x0d x01 x00 x00 x0d x01)
(T (W x00 x00 x00 x00 x00 x00 x00 x00)
(T (W x00 x00 x00 x00 x00 x00 x00 x00)
(T (W x00 x00 x00 x00 x00 x00 x00 x00)
(L (W x64 x02 x00 x08 x00 x00 xf3 x00))
(L (W x00 x00 x00 x00 x02 x03 x00 x00)))
(T (W x00 x00 xae x00 x00 x00 x9d x00)
(L (W x17 xc3 x2a x8b x9e x79 xa0 x88)) E))
(T (W x01 x00 x00 x00 x00 x00 x00 x00)
(T (W x01 x01 x01 x01 x01 x01 x01 x01)
(L (W xf1 x00 xf1 x00 xf1 x00 x91 x04)) E)
(T (W x00 x00 x00 x00 x00 x00 x00 x00)
(L (W x80 x00 x00 x00 x64 x0b x1c x0c)) E)))
(T (W x02 x03 x00 x00 x00 x00 xcc x00)
(T (W x2d x01 x40 x00 x00 x00 x43 x01)
(T (W x40 x43 xb0 x8b xc6 x51 x00 x02)
(L (W x0a x00 x00 x00 x00 x00 x28 x00))
(L (W x00 x02 x00 x00 x5d x00 x00 x00)))
(T (W x00 x00 x00 x00 x64 x02 x00 x00)
(L (W x05 x05 x04 x04 x05 x02 x02 x04)) E))
(T (W x1e x00 x1e x00 x0d x00 x00 x00)
(T (W x00 x00 x00 x00 x00 x30 x10 x0c)
(L (W x00 x00 x00 x00 x00 x00 x00 x00)) E)
(T (W x00 x00 x00 x00 x86 x01 x00 x00)
(L (W x00 x00 x00 x00 x00 x00 x00 x00)) E))))
(T (W x32 x00 x12 x00 x31 x00 x9b x03)
(T (W x03 x00 x01 x00 x01 x03 x04 x04)
(T (W x01 x01 x01 x01 x01 x01 x01 x01)
(T (W x00 x00 x00 x00 x00 x00 x00 x00)
(L (W x00 x00 x00 x00 x00 x00 x00 x00))
(L (W x02 x00 x02 x00 x03 x02 x03 x03)))
(T (W x44 x00 x4b x00 x8e x00 x00 x00)
(L (W x00 x00 x00 x00 x00 x00 x00 x00)) E))
(T (W x00 x00 x50 x01 x00 x00 xb3 x01)
(T (W x00 x00 x00 x00 x00 x00 x00 x00)
(L (W x00 x00 x00 x00 x9c x03 x00 x00)) E)
(T (W x00 x00 x26 xa3 x86 x82 x00 x00)
(L (W x01 x00 x00 x00 x00 x00 x00 x00)) E)))
(T (W x00 x40 x21 x8b x9a x20 x90 x00)
(T (W x00 x00 x00 x00 x72 x03 x10 x8c)
(T (W x00 x00 x00 x00 x3a x01 x00 x00)
(L (W x00 x00 xa9 x02 x00 x00 xa9 x02)) E)
(T (W x02 x00 x03 x00 x03 x03 x03 x03)
(L (W x00 x00 x00 x00 x00 x00 x00 x00)) E))
(T (W x00 x00 x00 x00 x64 x01 x00 x00)
(T (W x01 x00 x00 x00 x00 x00 x00 x00)
(L (W x20 x00 x00 x00 x00 x00 x00 x00)) E)
(T (W x05 x05 x03 x03 x03 x02 x02 x03)
(L (W x00 x00 x00 x00 x00 x00 x00 x00)) E)))))
(T (W x40 x03 xa1 xd3 x86 x01 x00 x07)
(T (W x00 x00 x00 x00 x00 x00 x00 x00)
(T (W x3c x02 x08 x00 x00 x00 x00 x00)
(T (W x00 x00 x00 x00 x00 x00 x00 x00)
(T (W x00 x00 x00 x00 x00 x00 x00 x00)
(L (W x02 x00 x03 x00 x03 x03 x03 x03))
(L (W x03 x03 x03 x00 x00 x00 x00 x00)))
(T (W x00 x00 x00 x00 x0e x01 x00 x00)
(L (W x00 x00 x00 x00 x00 x00 x00 x00)) E))
(T (W x00 x00 x22 xab x9a x82 x30 x00)
(T (W x0c x00 x00 x00 xe4 x01 x00 x00)
(L (W x05 x05 x02 x02 x02 x02 x02 x02)) E)
(T (W x01 x00 x00 x00 x00 x00 x00 x00)
(L (W x00 x00 x00 x00 x00 x00 x00 x00)) E)))
(T (W x01 x00 x00 x00 x00 x00 x00 x00)
(T (W x03 x00 x03 x00 x03 x03 x01 x01)
(T (W x00 x00 x68 x01 x00 x00 x68 x01)
(L (W x03 x1c x21 x93 x84 x01 x00 x8d))
(L (W x1e x00 x00 x00 x00 x00 x32 x00)))
(T (W x78 x01 x04 x00 x00 x00 x00 x00)
(L (W x00 x00 x00 x00 x00 x00 x00 x00)) E))
(T (W x05 x05 x03 x03 x03 x02 x02 x03)
(T (W x00 x01 x00 x00 x00 x00 x00 x00)
(L (W x00 x00 x00 x00 x12 x13 x30 xcc)) E)
(T (W xba x00 xba x00 xba x00 x00 x00)
(L (W x00 x00 x00 x00 x00 x00 x00 x00)) E))))
(T (W x01 x01 x01 x01 x01 x01 x01 x01)
(T (W x00 x00 x00 x00 x02 x33 x10 xac)
(T (W x00 x00 x00 x00 x00 x00 x00 x00)
(T (W x01 x00 x00 x00 x00 x00 x00 x00)
(L (W x00 x00 x00 x00 x00 x00 x00 x00))
(L (W x00 x00 x00 x00 x00 x00 x00 x00)))
(T (W x05 x05 x02 x03 x03 x02 x02 x02)
(L (W x00 x00 x00 x00 x00 x00 x00 x00)) E))
(T (W x00 x00 x00 x00 x65 x01 x00 x00)
(T (W x03 x00 x03 x00 x03 x03 x04 x04)
(L (W x2d x02 x08 x00 x00 x00 x00 x00)) E)
(T (W x00 x00 x60 x01 x00 x00 x4a x01)
(L (W x00 x00 x00 x00 x00 x00 x00 x00)) E)))
(T (W x00 x00 x00 x00 x00 x00 x00 x00)
(T (W x10 x80 x00 x00 x00 x00 x00 x00)
(T (W x2e x00 x2e x00 x7c x00 x00 x00)
(L (W x00 x00 x00 x00 x2a x00 x00 x00)) E)
(T (W x00 x00 x00 x00 x99 x00 x30 x1c)
(L (W x00 x00 x00 x00 x00 x00 x00 x00)) E))
(T (W x00 x00 x00 x00 x00 x00 x00 x00)
(T (W x0b xa8 xe0 x83 xc4 x08 x01 x09)
(L (W x01 x00 x00 x00 x00 x00 x00 x00)) E)
(T (W x00 x00 x00 x00 x00 x00 x00 x00)
(L (W x01 x01 x01 x01 x01 x01 x01 x01)) E)))))))
(T (W x00 x00 x00 x00 x00 x00 x00 x00)
(T (W x00 x00 x00 x00 x00 x00 x00 x00)
(T (W x01 x00 x01 x00 x01 x01 x05 x05)
(T (W x00 x01 x00 x00 x00 x00 x00 x00)
(T (W x00 x00 x00 x00 x00 x00 x00 x00)
(T (W x01 x00 x00 x00 x00 x00 x00 x00)
(T (W x05 x05 x03 x03 x04 x02 x02 x03)
(L (W x14 x00 xc0 x00 x27 x00 x00 x00))
(L (W x03 x00 x00 x00 xc0 x00 x00 x00)))
(T (W x00 x20 x00 x00 x00 x00 x00 x00)
(L (W x00 x00 x00 x00 x00 x18 x10 x0e)) E))
(T (W x00 x00 x00 x00 x00 x00 x00 x00)
(T (W x00 x00 x00 x00 x00 x00 x00 x00)
(L (W x00 x0b x2e x93 x84 x00 x04 x02)) E)
(T (W x00 x00 x00 x00 x00 x00 x00 x00)
(L (W x00 x00 x00 x00 x00 x00 x00 x00)) E)))
(T (W x03 x03 x00 x0c x00 x00 x00 x00)
(T (W x16 x00 x65 x00 x50 x00 x00 x00)
(T (W x00 x00 x00 x00 x7a x04 x53 x0c)
(L (W x03 x00 x00 x00 x00 x00 x00 x00))
(L (W x03 x03 x00 x03 x00 x00 x00 x00)))
(T (W x00 x00 x00 x00 x21 x01 x00 x00)
(L (W x00 x00 x00 x00 x00 x00 x00 x00)) E))
(T (W x6b xab x61 xd3 x85 x01 x23 x01)
(T (W x00 x00 x00 x00 x00 x00 x00 x00)
(L (W x05 x05 x05 x05 x05 x02 x02 x02)) E)
(T (W x1e x00 x00 x00 x00 x00 x28 x00)
(L (W x00 x00 x00 x00 x00 x00 x00 x00)) E))))
(T (W x00 x00 x00 x00 x00 x00 x00 x00)
(T (W x05 x05 x02 x03 x03 x02 x02 x02)
(T (W x00 x00 x9d x00 x00 x00 x9d x00)
(T (W x00 x00 x00 x00 x00 x00 x00 x00)
(L (W x00 x00 x00 x00 x5d x03 x00 x00))
(L (W x05 x05 x04 x05 x05 x02 x02 x04)))
(T (W x00 x00 x00 x00 x00 x00 x00 x00)
(L (W x01 x00 x00 x00 x00 x00 x00 x00)) E))
(T (W x00 x10 x01 x00 x00 x00 xc1 x00)
(T (W x00 x00 x00 x00 x00 x00 x00 x00)
(L (W x01 x00 x01 x00 xdb x00 x01 x00)) E)
(T (W x80 x00 x00 x00 x01 x00 x30 x0c)
(L (W x00 x00 x00 x00 x00 x00 x00 x00)) E)))
(T (W x00 x00 x00 x00 x00 x00 x00 x00)
(T (W x0c x00 x00 x00 x04 x01 x00 x00)
(T (W x1e x00 x00 x00 x00 x00 x23 x00)
(L (W x00 x40 x00 x00 x00 x00 x00 x00))
(L (W x00 x00 x00 x00 x02 x58 x18 x6e)))
(T (W x05 x05 x02 x02 x02 x02 x02 x02)
(L (W x00 x00 x00 x00 x00 x00 x00 x00)) E))
(T (W x00 x00 x00 x00 x00 x00 x00 x00)
(T (W x02 x00 x02 x00 x03 x02 x03 x03)
(L (W x5a x02 x20 x00 x00 x00 x1e x01)) E)
(T (W x00 x00 x34 x00 x00 x00 x2c x00)
(L (W x00 x00 x00 x00 x00 x00 x00 x00)) E)))))
(T (W x00 x00 x00 x00 x66 x8b x18 x2c)
(T (W x1e x00 x00 x00 x00 x00 x3c x00)
(T (W x1a x00 x00 x01 x01 x00 x00 x00)
(T (W x00 x00 x08 x20 x00 x00 x00 x00)
(T (W x00 x00 x00 x00 x00 x00 x00 x00)
(L (W x05 x05 x03 x03 x04 x02 x02 x03))
(L (W xb5 x00 xb5 x00 xb5 x00 x6c x04)))
(T (W x1e x00 x00 x00 x00 x00 x3c x00)
(L (W x00 x00 x00 x00 x00 x00 x00 x00)) E))
(T (W x00 x00 x00 x00 xfe x84 x10 x0d)
(T (W x00 x00 x00 x00 x00 x00 x00 x00)
(L (W x00 x00 xf1 x02 x00 x00 xb3 x00)) E)
(T (W x00 x00 x00 x00 x00 x00 x00 x00)
(L (W x00 x00 x00 x00 x00 x00 x00 x00)) E)))
(T (W x00 x00 x00 x00 x00 x00 x00 x00)
(T (W x05 x05 x05 x06 x06 x02 x02 x05)
(T (W x80 x80 x00 x00 x00 x00 x00 x00)
(L (W x00 x00 x00 x00 x80 x13 x30 x8d))
(L (W x02 x00 x03 x00 x02 x03 x04 x04)))
(T (W x18 x00 x7d x00 x68 x00 x00 x00)
(L (W x00 x00 x00 x00 x00 x00 x00 x00)) E))
(T (W x00 x00 x98 x00 x00 x00 x98 x00)
(T (W x2d x02 x80 x00 x00 x00 x00 x00)
(L (W x00 x00 x00 x00 x00 x00 x00 x00)) E)
(T (W x40 x08 xa1 xc3 x84 x09 x00 x01)
(L (W x01 x00 x00 x00 x00 x00 x00 x00)) E))))
(T (W x00 x00 x00 x00 x00 x00 x00 x00)
(T (W x00 x00 x00 x00 x84 x00 x00 x00)
(T (W x00 x00 x00 x00 x4e x00 x00 x00)
(T (W x00 x00 x00 x00 x00 x00 x00 x00)
(L (W x2d x03 x30 x00 x46 x01 x00 x00))
(L (W x00 x00 x00 x00 x00 x00 x00 x00)))
(T (W x00 x00 xae x00 x00 x00 x2a x00)
(L (W x00 x00 x00 x00 x00 x00 x00 x00)) E))
(T (W x1e x00 x00 x00 x00 x00 x37 x00)
(T (W x01 x01 x01 x01 x01 x01 x01 x01)
(L (W x02 x01 x02 x01 x02 x01 xa0 x04)) E)
(T (W x04 x40 x00 x00 xc2 x00 x00 x00)
(L (W x00 x00 x00 x00 x00 x00 x00 x00)) E)))
(T (W x00 x06 x00 x00 x00 x00 x00 x00)
(T (W x2d x03 x00 x0c x00 x00 xdb x00)
(T (W x00 x00 x60 x8b x9a x23 x10 x00)
(L (W x1e x00 x00 x00 x00 x00 x32 x00)) E)
(T (W x08 x00 x00 x00 x84 x02 x00 x00)
(L (W x01 x01 x01 x01 x01 x01 x01 x01)) E))
(T (W x2f x00 x73 x00 x0c x00 x00 x00)
(T (W x00 x00 x00 x00 x00 x24 x50 x8c)
(L (W x02 x00 x03 x00 x03 x03 x04 x04)) E)
(T (W x00 x00 x00 x00 x11 x00 x00 x00)
(L (W x00 x00 x00 x00 x00 x00 x00 x00)) E))))))
(T (W x00 x00 x00 x00 x00 x00 x00 x00)
(T (W x00 x00 x00 x00 x00 x00 x00 x00)
(T (W x01 x01 x01 x01 x01 x01 x01 x01)
(T (W x00 x00 x00 x00 x81 x08 x50 x0e)
(T (W x02 x00 x00 x00 xc4 x00 x00 x00)
(T (W x0a x00 x00 x00 x00 x00 x28 x00)
(L (W x10 x00 x00 x00 x12 x00 x00 x00))
(L (W x00 x00 x00 x00 x00 x00 x00 x00)))
(T (W x05 x05 x02 x03 x03 x02 x02 x02)
(L (W x00 x00 x00 x00 x00 x00 x00 x00)) E))
(T (W x00 x00 x00 x00 x00 x00 x00 x00)
(T (W x02 x00 x02 x00 x02 x02 x04 x04)
(L (W x4b x01 x00 x01 x00 x00 x00 x00)) E)
(T (W x00 x00 x34 x00 x00 x00 x4c x01)
(L (W x00 x00 x00 x00 x00 x00 x00 x00)) E)))
(T (W x00 x00 x5d x01 x00 x00 x97 x01)
(T (W x00 x00 x00 x00 x08 x00 x00 x00)
(T (W x00 x00 x00 x00 x00 x00 x00 x00)
(L (W x00 x00 x00 x00 x00 x00 x00 x00))
(L (W x00 x00 xf7 x00 x00 x00 xf7 x00)))
(T (W x00 x00 x00 x00 x60 x00 x10 x0c)
(L (W x02 x00 x03 x00 x03 x03 x03 x03)) E))
(T (W x00 x00 x00 x00 x00 x00 x00 x00)
(T (W x00 x00 x00 x00 x00 x00 x00 x00)
(L (W x0a x00 x00 x00 x00 x00 x00 x00)) E)
(T (W x00 x00 x00 x00 xbe x02 x00 x00)
(L (W x01 x01 x01 x01 x01 x01 x01 x01)) E))))
(T (W x4b x02 x20 x00 x00 x00 xdd x00)
(T (W x1e x00 x00 x00 x00 x00 x32 x00)
(T (W x00 x00 x00 x00 x00 x00 x00 x00)
(T (W x00 x00 xf2 x00 x00 x00 xb3 x01)
(L (W x00 x43 xab xb3 xe0 x00 x00 x8a))
(L (W x1e x00 x00 x00 x00 x00 x28 x00)))
(T (W xbe x01 x00 x04 x00 x00 x00 x00)
(L (W x00 x00 x00 x00 x00 x00 x00 x00)) E))
(T (W x01 x01 x01 x01 x01 x01 x01 x01)
(T (W x00 x00 x00 x00 x00 x00 x00 x00)
(L (W x00 x00 x00 x00 x18 x03 xb0 x0c)) E)
(T (W xaf x00 xaf x00 x54 x00 x00 x00)
(L (W x00 x00 x00 x00 x00 x00 x00 x00)) E)))
(T (W x38 x00 x62 x00 x84 x00 x00 x00)
(T (W x00 x00 x00 x00 x00 x00 x00 x00)
(T (W x00 x00 x00 x00 xc4 x01 x00 x00)
(L (W x05 x05 x03 x03 x03 x02 x02 x03)) E)
(T (W x1e x00 x00 x00 x00 x00 x41 x00)
(L (W x00 x00 x00 x00 x00 x00 x67 x00)) E))
(T (W x00 x00 x00 x00 x67 xa3 x10 xbc)
(T (W x00 x00 x00 x00 x00 x00 x00 x00)
(L (W x00 x00 x06 x00 x00 x00 x06 x00)) E)
(T (W x00 x00 x00 x00 x00 x00 x00 x00)
(L (W x00 x00 x00 x00 x00 x00 x00 x00)) E)))))
(T (W x22 x00 x22 x00 x1b x00 x00 x00)
(T (W x00 x00 x00 x00 x44 x00 x00 x00)
(T (W x10 x00 x00 x00 x50 x00 x00 x00)
(T (W x19 x02 x20 x00 x00 x00 xe9 x00)
(T (W x00 x00 x00 x00 x00 x00 x00 x00)
(L (W x1e x00 x00 x00 x00 x00 x28 x00))
(L (W x01 x00 x00 x00 x00 x00 x00 x00)))
(T (W x00 x00 x00 x00 x00 x00 x00 x00)
(L (W x01 x01 x01 x01 x01 x01 x01 x01)) E))
(T (W x00 x00 x00 x00 x00 x00 x00 x00)
(T (W x40 x00 x00 x00 x02 x0f x10 x8d)
(L (W x02 x00 x03 x00 x03 x03 x05 x04)) E)
(T (W x00 x00 x00 x00 x00 x00 x00 x00)
(L (W x00 x00 x00 x00 x00 x00 x00 x00)) E)))
(T (W x00 x00 x00 x00 x00 x00 x00 x00)
(T (W x1e x00 x00 x00 x00 x00 x28 x00)
(T (W x05 x05 x05 x05 x06 x02 x02 x05)
(L (W x42 x00 x42 x00 xec x00 x00 x00))
(L (W x00 x00 x04 x00 x8e x01 x00 x00)))
(T (W x00 x80 x00 x00 x35 x00 x00 x00)
(L (W x00 x00 x00 x00 x00 x00 x00 x00)) E))
(T (W x03 x00 x03 x00 x03 x03 x04 x04)
(T (W x00 x00 x53 x01 x00 x00 x53 x01)
(L (W x27 xc0 xa6 xa3 x82 x0b x00 x08)) E)
(T (W x00 x00 x00 x00 x00 x00 x00 x00)
(L (W x00 x00 x00 x00 x00 x00 x00 x00)) E))))
(T (W x01 x00 x01 x00 x03 x01 x03 x03)
(T (W x00 x00 xe0 x8b x9b x20 xe1 x00)
(T (W x00 x00 x00 x00 x00 x00 x00 x00)
(T (W x00 x00 x00 x00 x00 x00 x00 x00)
(L (W x00 x00 x64 x00 x00 x00 x64 x00))
(L (W x00 x00 x00 x00 x00 x00 x00 x00)))
(T (W x00 x00 x00 x00 x00 x00 x00 x00)
(L (W x00 x00 x00 x00 x00 x00 x00 x00)) E))
(T (W x08 x00 x00 x00 x44 x01 x00 x00)
(T (W x1e x00 x00 x00 x00 x00 x2d x00)
(L (W x00 x10 x00 x00 x00 x00 x00 x00)) E)
(T (W x05 x05 x03 x03 x04 x02 x02 x03)
(L (W x00 x00 x00 x00 x00 x00 x00 x00)) E)))
(T (W x05 x05 x05 x05 x06 x02 x02 x05)
(T (W x00 x00 x00 x00 x00 x00 x00 x00)
(T (W x1e x03 x0c x00 x00 x00 x00 x00)
(L (W x02 x00 x00 x00 x8c x03 x00 x00)) E)
(T (W x00 x00 x00 x00 x00 x00 x00 x00)
(L (W x0a x00 x00 x00 x00 x00 x28 x00)) E))
(T (W x00 x00 x00 x00 x00 x00 x00 x00)
(T (W x05 x00 x4b x00 x85 x00 x00 x00)
(L (W x00 x00 x00 x00 x00 x00 x00 x00)) E)
(T (W x00 x00 x00 x00 x00 x08 x14 x2c)
(L (W x03 x00 x03 x00 x02 x03 x04 x04)) E)))))))))
(T (W x00 x0c x2a xb3 x84 x42 x04 x00)
(T (W x02 x00 x03 x00 x02 x03 x03 x03)
(T (W x1e x00 x00 x00 x00 x00 x32 x00)
(T (W x01 x00 x00 x00 x0c x00 x00 x00)
(T (W x00 x00 x00 x00 x00 x00 x00 x00)
(T (W x00 x00 x00 x00 x00 x00 x00 x00)
(T (W x00 x00 x7a x00 x00 x00 x6d x00)
(T (W x00 x00 x00 x00 x91 x00 x00 x00)
(T (W x16 x00 x16 x00 x99 x00 x00 x00)
(L (W x00 x00 x00 x00 x00 x00 x00 x00))
(L (W x00 x00 x37 x02 x00 x00 x36 x01)))
(T (W x00 x00 x00 x00 x80 x00 x52 x8c)
(L (W x02 x00 x02 x00 x02 x02 x04 x04)) E))
(T (W xeb x01 x00 x01 x00 x00 x00 x00)
(T (W x3b xc3 xe3 x83 x82 x4b x01 x08)
(L (W x1e x00 x00 x00 x00 x00 x28 x00)) E)
(T (W x00 x00 x00 x00 x00 x00 x00 x00)
(L (W x05 x05 x05 x05 x05 x02 x02 x05)) E)))
(T (W x04 x00 x00 x00 x8c x00 x00 x00)
(T (W x00 x00 x00 x00 x00 x00 x00 x00)
(T (W x00 x00 x00 x00 x00 x00 x00 x00)
(L (W x2d x03 x00 x03 x00 x00 x00 x00))
(L (W x00 x00 x00 x00 x00 x00 x00 x00)))
(T (W x00 x00 x5b x01 x00 x00 x3c x00)
(L (W x00 x00 x00 x00 x00 x00 x00 x00)) E))
(T (W x01 x00 x00 x00 x00 x00 x00 x00)
(T (W x01 x01 x01 x01 x01 x01 x01 x01)
(L (W x1d x00 x97 x00 x82 x00 x00 x00)) E)
(T (W x00 x10 x00 x00 x00 x00 x55 x00)
(L (W x00 x00 x00 x00 x00 x00 x00 x00)) E))))
(T (W x01 x00 x00 x00 x00 x00 x00 x00)
(T (W x26 x00 x61 x00 x06 x00 x00 x00)
(T (W x00 x00 x00 x00 x00 x00 x00 x00)
(T (W x00 x00 x00 x00 x00 x00 x00 x00)
(L (W x05 x05 x04 x05 x05 x02 x02 x04))
(L (W xe1 x00 xe1 x00 xe1 x00 x6f x04)))
(T (W x1e x00 x00 x00 x00 x00 x2d x00)
(L (W x00 x00 x00 x00 x00 x00 x00 x00)) E))
(T (W x80 x00 x00 x00 x27 x80 x50 x2c)
(T (W x00 x00 x00 x00 x00 x00 x00 x00)
(L (W x00 x00 x15 x03 x00 x00 x15 x03)) E)
(T (W x02 x00 x03 x00 x03 x03 x04 x03)
(L (W x00 x00 x00 x00 x00 x00 x00 x00)) E)))
(T (W x01 x00 x01 x00 x02 x01 x03 x03)
(T (W x05 x05 x03 x03 x04 x02 x02 x03)
(T (W x02 xa0 x00 x00 x00 x00 x2f x00)
(L (W x12 x00 x00 x00 x84 xb0 x30 x2c))
(L (W x00 x00 x00 x00 x00 x00 x01 x01)))
(T (W x91 x00 x8e x00 x85 x00 x00 x00)
(L (W x00 x00 x00 x00 x00 x00 x00 x00)) E))
(T (W x00 x00 xaf x00 x00 x00 xaf x00)
(T (W x78 x02 x02 x00 x00 x00 x00 x00)
(L (W x00 x00 x00 x00 x00 x00 x00 x00)) E)
(T (W x00 x08 x2a xd3 x84 x01 x00 x00)
(L (W x01 x00 x00 x00 x00 x00 x00 x00)) E)))))
(T (W x02 x00 x02 x00 x02 x02 x04 x04)
(T (W x00 x00 x00 x00 x00 x00 x00 x00)
(T (W x00 x00 x00 x00 x00 x00 x00 x00)
(T (W x01 x00 x00 x00 x00 x00 x00 x00)
(T (W x05 x05 x05 x05 x05 x02 x02 x05)
(L (W xd4 x00 xd4 x00 x0c x00 x00 x00))
(L (W x00 x00 x00 x00 x00 x00 x00 x00)))
(T (W x02 x88 x00 x00 x57 x00 x00 x00)
(L (W x00 x00 x00 x00 x00 x00 x00 x00)) E))
(T (W x01 x00 x02 x00 x02 x02 x05 x05)
(T (W x00 x00 x32 x00 x00 x00 x6d x00)
(L (W x00 x20 x20 x83 x84 x00 x00 x00)) E)
(T (W x00 x00 x00 x00 x00 x00 x00 x00)
(L (W x00 x00 x00 x00 x00 x00 x00 x00)) E)))
(T (W x00 x00 x00 x00 x00 x00 x00 x00)
(T (W x2e x00 x2e x00 x27 x00 x00 x00)
(T (W x00 x00 x00 x00 x00 x00 x00 x00)
(L (W x00 x00 x00 x00 x00 x00 x00 x00))
(L (W x64 x02 x00 x08 x00 x00 x00 x00)))
(T (W x00 x00 x00 x00 x14 x01 x00 x00)
(L (W x00 x00 xb5 x01 x00 x00 xb5 x01)) E))
(T (W x00 x2b x7e x03 xc7 x43 x43 x10)
(T (W x08 x00 x00 x00 x0c x02 x00 x00)
(L (W x05 x05 x05 x05 x05 x02 x02 x02)) E)
(T (W x1e x00 x00 x00 x00 x00 x32 x00)
(L (W x00 x00 x00 x00 x00 x00 x00 x00)) E))))
(T (W x00 x43 x27 x03 x86 x01 x00 x00)
(T (W x05 x05 x02 x03 x03 x02 x02 x02)
(T (W x00 x00 xb5 x00 x00 x00 x3b x00)
(T (W x00 x00 x00 x00 x00 x00 x00 x00)
(L (W x00 x00 x00 x00 x58 x03 x00 x00))
(L (W x01 x01 x01 x01 x01 x01 x01 x01)))
(T (W x00 x00 x00 x00 x00 x00 x00 x00)
(L (W x1e x00 x00 x00 x00 x00 x32 x00)) E))
(T (W x00 x00 x00 x00 x00 x00 x00 x00)
(T (W x00 x00 x00 x00 x00 x00 x00 x00)
(L (W x00 x00 x00 x00 x5e x01 x00 x00)) E)
(T (W x00 x00 x00 x00 x04 x09 x30 x2e)
(L (W x00 x00 x00 x00 x00 x00 x00 x00)) E)))
(T (W x00 x00 x00 x00 x06 xc8 x18 x6e)
(T (W x00 x00 x00 x00 x00 x00 x00 x00)
(T (W x1e x00 x00 x00 x00 x00 x32 x00)
(L (W x00 x04 x00 x00 x10 x00 x00 x00)) E)
(T (W x05 x05 x05 x05 x05 x02 x02 x05)
(L (W xff x00 xff x00 xa1 x00 xf3 x03)) E))
(T (W x00 x00 x00 x00 x4f x00 x00 x00)
(T (W x02 x00 x03 x00 x03 x03 x04 x03)
(L (W x00 x00 x00 x00 x00 x00 x00 x00)) E)
(T (W x00 x00 x00 x00 x00 x00 x00 x00)
(L (W x00 x00 x00 x00 x00 x00 x00 x00)) E))))))
(T (W x00 x00 x00 x00 x00 x00 x00 x00)
(T (W x00 x00 x27 x00 x00 x00 x2c x00)
(T (W x07 x00 x65 x00 x7f x00 x97 x03)
(T (W x02 x00 x02 x00 x02 x02 x04 x04)
(T (W x01 x01 x01 x01 x01 x01 x01 x01)
(T (W x00 x00 x00 x00 x00 x00 xc6 x00)
(L (W x00 x00 x00 x00 x70 x00 x15 x0c))
(L (W x03 x00 x00 x00 x00 x00 x00 x00)))
(T (W x74 x00 x05 x00 x21 x00 x00 x00)
(L (W x01 x00 x00 x00 x00 x00 x00 x00)) E))
(T (W x00 x00 x00 x00 x00 x00 x00 x00)
(T (W x00 x00 x00 x00 x00 x00 x00 x00)
(L (W x08 x00 x00 x00 xa9 x03 x00 x00)) E)
(T (W x00 x00 x00 x00 x00 x00 x00 x00)
(L (W x0a x00 x00 x00 x00 x00 x00 x00)) E)))
(T (W x40 x2b x28 x43 xc7 x41 x00 x01)
(T (W x00 x00 x00 x00 x82 x0b x10 x0c)
(T (W x00 x00 x00 x00 x7c x00 x00 x00)
(L (W x00 x00 xae x01 x00 x00 x00 x00))
(L (W x40 x03 xa0 xcb x92 x60 x00 x04)))
(T (W x02 x00 x03 x00 x02 x03 x04 x04)
(L (W x4b x02 x02 x00 x00 x00 x00 x00)) E))
(T (W x00 x00 x00 x00 x00 x00 x00 x00)
(T (W x1e x00 x00 x00 x00 x00 x32 x00)
(L (W x00 x10 x00 x00 x00 x00 x00 x00)) E)
(T (W x05 x05 x03 x03 x03 x02 x02 x03)
(L (W x00 x00 x00 x00 x00 x00 x00 x00)) E))))
(T (W x00 x00 x00 x00 x00 x00 x00 x00)
(T (W x00 x04 x00 x00 x00 x00 x0b x00)
(T (W x00 x00 x00 x00 x00 x00 x00 x00)
(T (W x00 x00 x00 x00 x00 x00 x00 x00)
(L (W x01 x00 x00 x00 x00 x00 x00 x00))
(L (W x01 x00 x00 x00 x00 x00 x00 x00)))
(T (W x00 x00 x00 x00 x4c x02 x00 x00)
(L (W x01 x01 x01 x01 x01 x01 x01 x01)) E))
(T (W x09 x00 x1f x00 x3a x00 x00 x00)
(T (W x00 x00 x00 x00 x00 x00 x00 x00)
(L (W x02 x00 x03 x00 x03 x03 x03 x03)) E)
(T (W x00 x00 x00 x00 x4c x01 x00 x00)
(L (W x00 x00 x00 x00 x00 x00 x00 x00)) E)))
(T (W x00 x00 x00 x00 x00 x00 x00 x00)
(T (W x01 x00 x00 x00 x00 x00 x00 x00)
(T (W x05 x05 x04 x05 x05 x02 x02 x04)
(L (W x33 x00 x7f x00 x91 x00 x00 x00)) E)
(T (W x00 x00 x00 x00 x00 x00 x89 x00)
(L (W x00 x00 x00 x00 x00 x00 x00 x00)) E))
(T (W x02 x00 x02 x00 x02 x02 x04 x04)
(T (W x00 x00 x00 x00 x00 x00 x00 x00)
(L (W x00 x8b x28 xab x8a xd1 x00 x12)) E)
(T (W x2d x01 x00 x01 x00 x00 x00 x00)
(L (W x00 x00 x00 x00 x00 x00 x00 x00)) E)))))
(T (W x00 x00 x00 x00 x00 x00 x00 x00)
(T (W x05 x05 x03 x03 x04 x02 x02 x03)
(T (W x00 x00 x00 x00 x67 x87 x30 x9c)
(T (W x00 x00 x00 x00 x00 x00 x00 x00)
(T (W x01 x00 x00 x00 x00 x00 x00 x00)
(L (W x30 x00 x00 x00 x00 x00 x00 x00))
(L (W xc1 x00 x00 x00 x35 x01 x38 x0d)))
(T (W x05 x05 x03 x03 x04 x02 x02 x03)
(L (W x00 x00 x00 x00 x00 x00 x00 x00)) E))
(T (W x00 x00 x00 x00 x00 x00 x00 x00)
(T (W x03 x00 x00 x00 x00 x00 x00 x00)
(L (W xeb x01 x00 x01 x00 x00 x00 x00)) E)
(T (W x00 x00 x00 x00 x00 x00 x00 x00)
(L (W x00 x00 x00 x00 x00 x00 x00 x00)) E)))
(T (W x00 x00 x00 x00 x00 x00 x00 x00)
(T (W x00 x03 x00 x00 x00 x00 x00 x00)
(T (W x1a x00 x55 x00 x86 x00 x00 x00)
(L (W x00 x00 x00 x00 x00 x00 x00 x00))
(L (W x00 x00 x97 x00 x00 x00 x5d x02)))
(T (W x00 x00 x00 x00 xa2 x0d x10 x0c)
(L (W x00 x00 x00 x00 x00 x00 x00 x00)) E))
(T (W x5a x02 x00 x08 x00 x00 x0d x01)
(T (W x00 x83 x60 x83 x81 x08 x63 x08)
(L (W x1e x00 x00 x00 x00 x00 x3c x00)) E)
(T (W x00 x00 x00 x00 x00 x03 x00 x00)
(L (W x01 x01 x01 x01 x01 x01 x01 x01)) E))))
(T (W x00 x00 x00 x00 x00 x00 x00 x00)
(T (W x1e x00 x00 x00 x00 x00 x32 x00)
(T (W x03 x00 x03 x00 x03 x03 x05 x05)
(T (W x00 x00 x00 x00 x00 x00 x00 x00)
(L (W x00 x03 xae x23 x84 x00 x00 x78))
(L (W x01 x00 x00 x00 x00 x00 x00 x00)))
(T (W x3c x02 x20 x00 x00 x00 x00 x00)
(L (W x00 x00 x00 x00 x00 x00 x00 x00)) E))
(T (W x05 x05 x03 x03 x03 x02 x02 x03)
(T (W x00 x00 x00 x00 x71 x00 x00 x00)
(L (W x80 x00 x00 x00 x02 x04 x10 x0d)) E)
(T (W xb2 x00 xb2 x00 xb2 x00 x00 x00)
(L (W x00 x00 x00 x00 x00 x00 x00 x00)) E)))
(T (W x00 x00 x00 x00 x00 x00 x00 x00)
(T (W x02 x99 xf0 x93 xa4 x09 x05 x1e)
(T (W x00 x00 x00 x00 xcc x01 x00 x00)
(L (W x05 x05 x04 x05 x05 x02 x02 x04)) E)
(T (W x1e x00 x00 x00 x00 x00 x28 x00)
(L (W x00 x00 x00 x00 x00 x00 x00 x00)) E))
(T (W x00 x00 x00 x00 x00 x00 x00 x00)
(T (W x00 x00 x00 x00 x00 x00 x00 x00)
(L (W x00 x00 x19 x01 x00 x00 x5e x00)) E)
(T (W x00 x00 x00 x00 x00 x00 x00 x00)
(L (W x00 x00 x00 x00 x00 x00 x00 x00)) E)))))))
(T (W x00 x00 x00 x00 x00 x00 x00 x00)
(T (W x00 x00 x00 x00 x00 x00 x00 x00)
(T (W x08 x00 x00 x00 x56 x00 x00 x00)
(T (W x00 x80 xe1 x83 xa5 x00 x01 x04)
(T (W x01 x01 x01 x01 x01 x01 x01 x01)
(T (W x00 x00 x00 x00 x00 x00 x00 x00)
(T (W x03 x03 x30 x00 x00 x00 xe9 x00)
(L (W x04 x00 x00 x00 x22 x03 x00 x00))
(L (W x05 x05 x04 x04 x04 x02 x02 x04)))
(T (W x00 x00 xa8 x83 xc2 x90 x00 x02)
(L (W x1e x00 x00 x00 x00 x00 x28 x00)) E))
(T (W x20 x04 x02 x00 x24 x00 x00 x00)
(T (W x00 x00 x00 x00 x00 x00 x00 x00)
(L (W x00 x00 x00 x00 xce x00 x00 x00)) E)
(T (W x00 x00 x00 x00 x00 x00 x00 x00)
(L (W x03 x00 x03 x00 x03 x03 x02 x02)) E)))
(T (W x00 x00 x00 x00 x7e xcf x12 x4d)
(T (W x00 x00 x00 x00 xec x00 x00 x00)
(T (W x1e x00 x00 x00 x00 x00 x28 x00)
(L (W x40 x02 x00 x00 x00 x00 x00 x00))
(L (W x00 x00 x00 x00 x01 x0c x10 x0f)))
(T (W x05 x05 x03 x04 x04 x02 x02 x03)
(L (W x00 x00 x00 x00 x00 x00 x00 x00)) E))
(T (W x00 x00 x00 x00 x42 x01 x00 x00)
(T (W x00 x00 x00 x00 x00 x00 x00 x00)
(L (W x0a x03 xc0 x00 x00 x00 x00 x00)) E)
(T (W x00 x00 x30 x02 x00 x00 x30 x02)
(L (W x00 x00 x00 x00 x00 x00 x00 x00)) E))))
(T (W x00 x00 x00 x00 x00 x00 x00 x00)
(T (W xe1 x01 x40 x00 x5a x00 x5b x00)
(T (W x05 x00 x52 x00 x7e x00 x00 x00)
(T (W x00 x00 x00 x00 x00 x00 x00 x00)
(L (W x02 x00 x02 x00 x02 x02 x05 x04))
(L (W x03 x03 x03 x00 x00 x00 x00 x00)))
(T (W x00 x00 x00 x00 x00 x00 x00 x00)
(L (W x00 x00 x00 x00 x00 x00 x00 x00)) E))
(T (W x3b xcb x61 x8f x97 x08 x43 x0a)
(T (W x00 x00 x00 x00 x00 x00 x00 x00)
(L (W x05 x05 x04 x04 x05 x02 x02 x04)) E)
(T (W x1e x00 x00 x00 x00 x00 x32 x00)
(L (W x00 x00 x00 x00 x00 x00 x00 x00)) E)))
(T (W x01 x00 x00 x00 x00 x00 x00 x00)
(T (W x02 x00 x01 x00 x02 x01 x04 x04)
(T (W x00 x00 xc9 x00 x00 x00 x51 x01)
(L (W x00 x03 x2e x8b x92 x61 x38 x09))
(L (W x0a x00 x00 x00 x00 x00 x00 x00)))
(T (W x5a x02 x20 x00 x00 x00 x00 x00)
(L (W x00 x00 x00 x00 x00 x00 x00 x00)) E))
(T (W x01 x01 x01 x01 x01 x01 x01 x01)
(T (W x40 x00 x00 x00 x00 x00 x00 x00)
(L (W x80 x00 x00 x00 x43 x04 x16 x8c)) E)
(T (W x42 x00 x42 x00 x16 x00 x00 x00)
(L (W x00 x00 x00 x00 x00 x00 x00 x00)) E)))))
(T (W x1e x00 x00 x00 x00 x00 x32 x00)
(T (W x00 x00 x55 x01 x00 x00 x3d x00)
(T (W x08 x00 x00 x00 x6c x00 x00 x00)
(T (W x00 x00 x00 x00 x00 x00 x00 x00)
(T (W x00 x00 x00 x00 x00 x00 x00 x00)
(L (W x46 x02 x08 x00 x00 x00 x00 x00))
(L (W x02 x00 x00 x00 x3d x03 x00 x00)))
(T (W x00 x00 x5e x01 x00 x00 x5e x01)
(L (W x00 x00 x00 x00 x00 x00 x00 x00)) E))
(T (W x1e x00 x00 x00 x00 x00 x3c x00)
(T (W x05 x05 x05 x05 x05 x02 x02 x05)
(L (W x07 x00 x07 x00 x65 x00 x00 x00)) E)
(T (W x00 x00 x00 x00 x00 x00 x00 x00)
(L (W x00 x00 x00 x00 x00 x00 x00 x00)) E)))
(T (W x00 x00 x00 x00 x00 x00 x00 x00)
(T (W x2d x03 x0c x00 x00 x00 x00 x00)
(T (W x00 x80 xa1 x87 x86 x01 x00 x06)
(L (W x0a x00 x00 x00 x00 x00 x28 x00))
(L (W x00 x00 x02 x00 x00 x00 x00 x00)))
(T (W x00 x00 x00 x00 x6c x02 x00 x00)
(L (W x01 x01 x01 x01 x01 x01 x01 x01)) E))
(T (W x34 x00 x4b x00 x5b x00 x00 x00)
(T (W x00 x00 x00 x00 x00 x08 x12 x2e)
(L (W x00 x00 x00 x00 x00 x00 x00 x00)) E)
(T (W x00 x00 x00 x00 x67 x01 x00 x00)
(L (W x00 x00 x00 x00 x00 x00 x00 x00)) E))))
(T (W x00 x00 x00 x00 x00 x00 x00 x00)
(T (W x01 x00 x02 x00 x02 x02 x06 x06)
(T (W x05 x05 x04 x05 x05 x02 x02 x04)
(T (W x00 x00 x00 x00 x00 x00 x00 x00)
(L (W x40 x00 x00 x00 x81 x04 x30 x8d))
(L (W x00 x00 x00 x00 x00 x00 x00 x00)))
(T (W xa0 x00 xa0 x00 xa0 x00 x00 x00)
(L (W x00 x00 x00 x00 x00 x00 x00 x00)) E))
(T (W x00 x00 x00 x00 x00 x00 x00 x00)
(T (W x00 x00 x00 x00 x00 x00 x00 x00)
(L (W x00 x00 x00 x00 xae x03 x00 x00)) E)
(T (W x00 x00 x20 x8b x8a x20 x10 x00)
(L (W x01 x00 x00 x00 x00 x00 x00 x00)) E)))
(T (W x40 x4b xa6 xd3 x86 x11 x00 x31)
(T (W x00 x00 x00 x00 x7b x00 x11 x4c)
(T (W x00 x00 x00 x00 x00 x00 x00 x00)
(L (W x00 x00 x4b x00 x00 x00 x18 x02)) E)
(T (W x02 x00 x02 x00 x03 x02 x02 x02)
(L (W x00 x00 x00 x00 x00 x00 x00 x00)) E))
(T (W x00 x00 x00 x00 x6c x01 x00 x00)
(T (W x1e x00 x00 x00 x00 x00 x32 x00)
(L (W x00 x00 x00 x00 x00 x00 x00 x00)) E)
(T (W x05 x05 x03 x03 x03 x02 x02 x03)
(L (W x00 x00 x00 x00 x00 x00 x00 x00)) E))))))
(T (W x00 x00 x00 x00 x00 x00 x00 x00)
(T (W x05 x05 x03 x03 x04 x02 x02 x03)
(T (W x00 x00 x00 x00 x00 x00 x00 x00)
(T (W x1e x00 x00 x00 x00 x00 x3c x00)
(T (W x02 x00 x02 x00 x02 x02 x05 x05)
(T (W x00 x00 x27 x01 x00 x00 x00 x00)
(L (W x00 x1f x28 x93 x84 x48 x04 x0a))
(L (W x0a x00 x00 x00 x00 x00 x28 x00)))
(T (W xbe x01 x40 x00 x00 x00 xfb x00)
(L (W x00 x00 x00 x00 x00 x00 x00 x00)) E))
(T (W x01 x01 x01 x01 x01 x01 x01 x01)
(T (W x00 x00 x00 x00 xd2 x00 x00 x00)
(L (W x00 x00 x00 x00 x18 x30 x11 x0c)) E)
(T (W x91 x00 x91 x00 xb1 x00 x00 x00)
(L (W x00 x00 x00 x00 x00 x00 x00 x00)) E)))
(T (W x27 x00 x27 x00 x88 x00 x00 x00)
(T (W x3b x4b x6a xab x8f x0a x01 x88)
(T (W x00 x00 x00 x00 xac x01 x00 x00)
(L (W x05 x05 x05 x05 x06 x02 x02 x05))
(L (W x85 x00 x85 x00 x82 x00 x95 x04)))
(T (W x1e x00 x00 x00 x00 x00 x32 x00)
(L (W x08 x20 x00 x00 x00 x00 x00 x00)) E))
(T (W x00 x00 x00 x00 x00 x00 x00 x00)
(T (W x00 x00 x00 x00 x1c x00 x00 x00)
(L (W x00 x00 x00 x00 x00 x00 x00 x00)) E)
(T (W x02 x00 x02 x00 x02 x02 x05 x05)
(L (W x00 x00 x00 x00 x00 x00 x00 x00)) E))))
(T (W x00 x00 x00 x00 x7e x8c x1a x8e)
(T (W x00 x00 x09 x00 x00 x00 xb3 x01)
(T (W x00 x00 x00 x00 x00 x00 x00 x00)
(T (W x4f x00 x16 x00 x3e x00 x00 x00)
(L (W x00 x00 x00 x00 x5c x01 x00 x00))
(L (W x00 x00 xce x02 x00 x00 xce x02)))
(T (W x00 x00 x00 x00 x02 x00 x50 x0c)
(L (W x00 x00 x00 x00 x00 x00 x00 x00)) E))
(T (W x00 x00 x00 x00 x00 x00 x00 x00)
(T (W x00 x00 x00 x00 x00 x00 x00 x00)
(L (W x1e x00 x00 x00 x00 x00 x32 x00)) E)
(T (W x00 x00 x00 x00 xe6 x02 x00 x00)
(L (W x01 x01 x01 x01 x01 x01 x01 x01)) E)))
(T (W x00 x00 x00 x00 xac x00 x00 x00)
(T (W x00 x00 x00 x00 x00 x00 x00 x00)
(T (W x02 x00 x03 x00 x02 x03 x04 x04)
(L (W xff x01 x00 x04 x00 x00 x00 x00)) E)
(T (W x00 x00 x01 x01 x00 x00 x8d x00)
(L (W x1b xa8 xe0 x83 xc4 x08 x01 x09)) E))
(T (W x01 x00 x00 x00 x00 x00 x00 x00)
(T (W x05 x05 x04 x04 x05 x02 x02 x04)
(L (W x35 x00 x65 x00 x9b x00 x95 x03)) E)
(T (W x24 x00 x02 x00 x00 x00 x00 x00)
(L (W x00 x00 x00 x00 x00 x00 x00 x00)) E)))))
(T (W x00 x00 x00 x00 x2c x00 x00 x00)
(T (W x01 x00 x02 x00 x02 x02 x03 x03)
(T (W x00 x0b xa4 x93 x84 x00 x04 x10)
(T (W x00 x00 x00 x00 x00 x00 x00 x00)
(T (W x00 x00 x00 x00 x00 x00 x00 x00)
(L (W x00 x00 x5e x00 x00 x00 x5e x00))
(L (W x00 x43 x70 x4f x8f x11 x00 x03)))
(T (W x01 x00 x03 x00 x02 x03 x03 x03)
(L (W x00 x00 x00 x00 x00 x00 x00 x00)) E))
(T (W x00 x00 x00 x00 x00 x00 x00 x00)
(T (W x0a x00 x00 x00 x00 x00 x00 x00)
(L (W x00 x04 x02 x00 x00 x00 x2a x00)) E)
(T (W x01 x01 x01 x01 x01 x01 x01 x01)
(L (W x00 x00 x00 x00 x00 x00 x00 x00)) E)))
(T (W x01 x01 x01 x01 x01 x01 x01 x01)
(T (W x00 x00 x68 x00 x00 x00 xca x00)
(T (W x82 x01 x01 x00 x6e x00 x00 x00)
(L (W x08 x00 x00 x00 xb6 x03 x00 x00))
(L (W x05 x05 x03 x03 x04 x02 x02 x03)))
(T (W x00 x02 x60 x87 x86 x04 x21 x06)
(L (W x01 x00 x00 x00 x00 x00 x00 x00)) E))
(T (W x00 x10 x00 x00 x00 x00 xb8 x00)
(T (W x3e x00 x7d x00 x59 x00 x00 x00)
(L (W x00 x00 x00 x00 xc2 x00 x00 x00)) E)
(T (W x00 x00 x00 x00 x00 x48 x12 x6e)
(L (W x00 x00 x00 x00 x00 x00 x00 x00)) E))))
(T (W x00 x00 x00 x00 x83 x00 x00 x00)
(T (W x00 x00 x00 x00 x00 x00 x00 x00)
(T (W x1e x00 x00 x00 x00 x00 x32 x00)
(T (W x05 x05 x04 x04 x05 x02 x02 x04)
(L (W x6d x00 x6d x00 x6d x00 x00 x00))
(L (W x00 x00 x00 x00 x00 x00 x00 x00)))
(T (W x00 x00 x00 x00 x00 x00 x00 x00)
(L (W x00 x00 x00 x00 x00 x00 x00 x00)) E))
(T (W x00 x00 x00 x00 x00 x00 x00 x00)
(T (W x00 x00 x0a x00 x00 x00 xd4 x01)
(L (W x02 x03 x60 x03 x92 x20 xc1 x00)) E)
(T (W x2d x01 x04 x00 x00 x00 x00 x00)
(L (W x00 x00 x00 x00 x00 x00 x00 x00)) E)))
(T (W x4b x03 x03 x00 x00 x00 x00 x00)
(T (W x00 x00 x00 x00 x00 x00 x00 x00)
(T (W x00 x00 x00 x00 x7f x87 x12 x8c)
(L (W x03 x00 x03 x00 x03 x03 x05 x04)) E)
(T (W x00 x00 x00 x00 x00 x00 x00 x00)
(L (W x00 x00 x0b x03 x00 x00 x17 x01)) E))
(T (W x00 x00 x00 x00 x00 x00 x00 x00)
(T (W x00 x00 x00 x00 x2c x02 x00 x00)
(L (W x05 x05 x03 x03 x03 x02 x02 x03)) E)
(T (W x1e x00 x00 x00 x00 x00 x28 x00)
(L (W x00 x04 x00 x00 x00 x00 x00 x00)) E))))))))
(T (W x42 x00 x42 x00 x5e x00 x00 x00)
(T (W x2d x02 x10 x04 x00 x00 x00 x00)
(T (W x00 x00 x00 x00 x00 x00 x00 x00)
(T (W x00 x00 x00 x00 xc2 x00 x00 x00)
(T (W x01 x01 x01 x01 x01 x01 x01 x01)
(T (W x00 x00 x00 x00 x02 x04 x10 x8c)
(T (W x00 x00 x00 x00 x00 x00 x00 x00)
(T (W x1e x00 x00 x00 x00 x00 x3c x00)
(L (W x04 x40 x00 x00 x6e x00 x00 x00))
(L (W x00 x00 x00 x00 x04 x88 x50 x0c)))
(T (W x05 x05 x02 x03 x04 x02 x02 x02)
(L (W x1a x00 x00 x01 xe4 x00 xa5 x03)) E))
(T (W x00 x00 x00 x00 x79 x00 x00 x00)
(T (W x02 x00 x01 x00 x02 x01 x04 x04)
(L (W xff x01 x10 x00 x00 x00 x00 x00)) E)
(T (W x00 x00 x00 x00 x00 x00 x00 x00)
(L (W x40 x03 x6e x4f x8e x53 x09 x0a)) E)))
(T (W x00 x00 xc6 x02 x00 x00 x8d x00)
(T (W x00 x00 x00 x00 x00 x00 x00 x00)
(T (W x7a x00 x7a x00 x7a x00 xd6 x03)
(L (W x00 x00 x00 x00 x00 x00 x00 x00))
(L (W x00 x00 xa5 x01 x00 x00 x47 x02)))
(T (W x00 x00 x00 x00 x04 x88 x10 x0c)
(L (W x00 x00 x00 x00 x00 x00 x00 x00)) E))
(T (W xff x01 x04 x00 x00 x00 xed x00)
(T (W x00 x00 x00 x00 x00 x00 x00 x00)
(L (W x1e x00 x00 x00 x00 x00 x32 x00)) E)
(T (W x00 x00 x00 x00 xff x02 x00 x00)
(L (W x01 x01 x01 x01 x01 x01 x01 x01)) E))))
(T (W xbe x01 x00 x04 x00 x00 xf5 x00)
(T (W x1e x00 x00 x00 x00 x00 x32 x00)
(T (W x01 x00 x02 x00 x01 x02 x04 x03)
(T (W x00 x00 x00 x00 x00 x00 x00 x00)
(L (W x00 x02 x60 x93 x81 x00 xa3 x08))
(L (W x1e x00 x00 x00 x00 x00 x28 x00)))
(T (W x2d x03 x00 x03 xf6 x00 x00 x00)
(L (W x00 x00 x00 x00 x00 x00 x00 x00)) E))
(T (W x05 x05 x04 x04 x05 x02 x02 x04)
(T (W x00 x00 x00 x00 x00 x00 x00 x00)
(L (W x80 x00 x00 x00 x03 x03 x12 xac)) E)
(T (W x33 x00 x97 x00 x14 x00 x00 x00)
(L (W x00 x00 x00 x00 x00 x00 x00 x00)) E)))
(T (W x00 x00 x00 x00 x00 x00 x00 x00)
(T (W x00 x80 x61 x8b x9a x20 x01 x00)
(T (W x00 x00 x00 x00 xbc x01 x00 x00)
(L (W x05 x05 x02 x02 x03 x02 x02 x02))
(L (W x66 x00 x66 x00 x66 x00 xa5 x04)))
(T (W x1e x00 x00 x00 x00 x00 x3c x00)
(L (W x00 x00 x00 x00 x00 x00 x00 x00)) E))
(T (W x00 x00 x00 x00 x00 x00 x00 x00)
(T (W x00 x00 x00 x00 x86 x00 x00 x00)
(L (W x00 x00 x56 x00 x00 x00 x58 x01)) E)
(T (W x03 x00 x02 x00 x03 x02 x03 x03)
(L (W x00 x00 x00 x00 x00 x00 x00 x00)) E)))))
(T (W x12 x00 x12 x00 x46 x00 x91 x03)
(T (W x00 x00 x00 x00 x3c x00 x00 x00)
(T (W x40 x00 x00 x00 x00 x00 x00 x00)
(T (W x00 x00 x00 x00 x00 x00 x00 x00)
(T (W x00 x00 x00 x00 x00 x00 x00 x00)
(L (W x1e x00 x00 x00 x00 x00 x28 x00))
(L (W x00 x00 x00 x00 x00 x00 x00 x00)))
(T (W x00 x00 x00 x00 x3c x02 x00 x00)
(L (W x01 x01 x01 x01 x01 x01 x01 x01)) E))
(T (W x2b x00 x2b x00 x9b x00 x00 x00)
(T (W x00 x00 x00 x00 x00 x03 x10 x0c)
(L (W x02 x00 x03 x00 x02 x03 x03 x03)) E)
(T (W x00 x00 x00 x00 x00 x00 x00 x00)
(L (W x00 x00 x00 x00 x00 x00 x00 x00)) E)))
(T (W x00 x00 x00 x00 x00 x00 x00 x00)
(T (W x1e x00 x00 x00 x00 x00 x32 x00)
(T (W x01 x01 x01 x01 x01 x01 x01 x01)
(L (W xe0 x00 xe0 x00 xe0 x00 x00 x00))
(L (W x00 x00 x00 x00 xba x00 x00 x00)))
(T (W x00 x80 x00 x00 x00 x00 x00 x00)
(L (W x00 x00 x00 x00 x00 x00 x00 x00)) E))
(T (W x03 x00 x02 x00 x03 x02 x04 x04)
(T (W x00 x00 xbd x00 x00 x00 x98 x01)
(L (W x04 x1f x2e x13 x84 x13 x04 x70)) E)
(T (W xbe x01 x10 x00 x00 x00 x00 x00)
(L (W x00 x00 x00 x00 x00 x00 x00 x00)) E))))
(T (W x02 x00 x02 x00 x03 x02 x03 x03)
(T (W x00 x43 x20 x8f x9b x20 x90 x02)
(T (W x00 x00 x00 x00 x7c xa8 x11 x0c)
(T (W x00 x00 x00 x00 x00 x00 x00 x00)
(L (W x00 x00 xa5 x02 x00 x00 xa5 x02))
(L (W x00 x00 x00 x00 x00 x00 x00 x00)))
(T (W x02 x00 x03 x00 x03 x03 x05 x05)
(L (W x5a x02 x80 x00 x00 x00 x00 x00)) E))
(T (W x00 x00 x00 x00 x00 x00 x00 x00)
(T (W x01 x00 x00 x00 x00 x00 x00 x00)
(L (W x00 x10 x00 x00 x00 x00 x59 x00)) E)
(T (W x05 x05 x02 x03 x03 x02 x02 x02)
(L (W x00 x00 x00 x00 x00 x00 x00 x00)) E)))
(T (W x05 x05 x03 x04 x04 x02 x02 x03)
(T (W x00 x00 x00 x00 x00 x00 x00 x00)
(T (W x00 x00 x00 x00 x00 x00 x00 x00)
(L (W x00 x00 x00 x00 x86 x03 x00 x00)) E)
(T (W x60 x43 xa0 x87 x82 x4c x00 x0f)
(L (W x1e x00 x00 x00 x00 x00 x28 x00)) E))
(T (W x00 x00 x01 x00 x00 x00 x1a x00)
(T (W x22 x00 x14 x00 x66 x00 x00 x00)
(L (W x00 x00 x00 x00 x00 x00 x00 x00)) E)
(T (W x00 x00 x00 x00 x00 x00 x00 x00)
(L (W x00 x00 x00 x00 x00 x00 x00 x00)) E))))))
(T (W x00 x00 x00 x00 x00 x00 x00 x00)
(T (W x00 x00 x00 x00 x76 xa7 x50 x8d)
(T (W x1e x00 x00 x00 x00 x00 x32 x00)
(T (W x00 x00 x00 x00 x00 x00 x00 x00)
(T (W x10 x80 x28 x8b x9b x20 x20 x20)
(T (W x00 x00 x00 x00 x7c x01 x00 x00)
(L (W x05 x05 x04 x05 x05 x02 x02 x04))
(L (W xd3 x00 xd3 x00 xd3 x00 x63 x04)))
(T (W x1e x00 x00 x00 x00 x00 x37 x00)
(L (W x00 x04 x00 x00 x03 x00 x00 x00)) E))
(T (W x00 x00 x00 x00 x00 x00 x00 x00)
(T (W x00 x00 x00 x00 x4d x00 x00 x00)
(L (W x00 x00 x39 x00 x00 x00 x39 x00)) E)
(T (W x02 x00 x02 x00 x02 x02 x05 x05)
(L (W x03 x03 x44 x01 x00 x00 x00 x00)) E)))
(T (W x02 x00 x03 x00 x02 x03 x05 x05)
(T (W x05 x05 x02 x03 x03 x02 x02 x02)
(T (W x00 x00 x00 x00 x88 x00 x00 x00)
(L (W x40 x00 x00 x00 x06 x84 x52 x8d))
(L (W x02 x00 x02 x00 x02 x02 x03 x03)))
(T (W x51 x00 xca x00 x9b x00 x00 x00)
(L (W x00 x00 x00 x00 x74 x01 x00 x00)) E))
(T (W x00 x00 x1a x02 x00 x00 x49 x02)
(T (W x78 x02 x08 x00 x00 x00 x00 x00)
(L (W x08 x00 x00 x00 xd7 x03 x00 x00)) E)
(T (W x2b x03 x60 x83 x8e x40 x20 x04)
(L (W x01 x00 x00 x00 x00 x00 x00 x00)) E))))
(T (W x00 x00 xe8 x01 x00 x00 xac x00)
(T (W x00 x00 x00 x00 x7c x00 x00 x00)
(T (W x00 x00 x00 x00 x00 x00 x00 x00)
(T (W x03 x00 x03 x00 x03 x03 x05 x05)
(L (W x46 x02 x20 x00 x00 x00 xf9 x00))
(L (W x02 x00 x00 x00 x5e x03 x00 x00)))
(T (W x00 x00 x70 x01 x00 x00 x70 x01)
(L (W x00 x00 x00 x00 x00 x00 x00 x00)) E))
(T (W x1e x00 x00 x00 x00 x00 x32 x00)
(T (W x01 x01 x01 x01 x01 x01 x01 x01)
(L (W xaf x00 xaf x00 xa5 x00 x96 x04)) E)
(T (W x00 x00 x02 x00 x00 x00 x00 x00)
(L (W x00 x00 x00 x00 x00 x00 x00 x00)) E)))
(T (W x08 x00 x00 x00 xbc x00 x00 x00)
(T (W x5a x02 x80 x00 x11 x00 x1d x00)
(T (W x00 x83 x60 x83 x85 x44 x23 x00)
(L (W x1e x00 x00 x00 x00 x00 x32 x00)) E)
(T (W x00 x00 x00 x00 x7c x02 x00 x00)
(L (W x01 x01 x01 x01 x01 x01 x01 x01)) E))
(T (W x00 x00 x00 x00 x00 x00 x00 x00)
(T (W x00 x00 x00 x00 x00 x10 xd0 x0c)
(L (W x02 x00 x03 x00 x03 x03 x04 x03)) E)
(T (W x00 x00 x00 x00 x00 x00 x00 x00)
(L (W x00 x00 x00 x00 x00 x00 x00 x00)) E)))))
(T (W x00 x02 x00 x00 x00 x00 x91 x00)
(T (W x3b x80 xe2 x87 x86 x0e x01 x0a)
(T (W x05 x05 x03 x04 x05 x02 x02 x03)
(T (W x00 x00 x00 x00 x00 x00 x00 x00)
(T (W x00 x00 x00 x00 x00 x00 x00 x00)
(L (W x01 x00 x00 x00 x5f x03 x00 x00))
(L (W x05 x05 x04 x05 x05 x02 x02 x04)))
(T (W x00 x40 x6e xa3 x82 x12 x01 x30)
(L (W x01 x00 x00 x00 x00 x00 x00 x00)) E))
(T (W x00 x00 x00 x00 x8b x00 x00 x00)
(T (W x12 x00 x12 x00 x31 x00 x00 x00)
(L (W x00 x00 x00 x00 xf2 x00 x00 x00)) E)
(T (W x00 x00 x00 x00 x00 x00 x00 x00)
(L (W x00 x00 x00 x00 x00 x00 x00 x00)) E)))
(T (W x00 x00 x00 x00 x00 x00 x00 x00)
(T (W x00 x00 x00 x00 xfc x00 x00 x00)
(T (W x1e x00 x00 x00 x00 x00 x28 x00)
(L (W x10 x00 x00 x00 x00 x00 x00 x00))
(L (W x00 x00 x00 x00 x00 x48 x10 x2e)))
(T (W x05 x05 x04 x04 x05 x02 x02 x04)
(L (W x00 x00 x00 x00 x00 x00 x00 x00)) E))
(T (W x00 x00 x00 x00 x00 x00 x00 x00)
(T (W x01 x00 x01 x00 x01 x01 x06 x06)
(L (W xbe x02 x80 x00 x00 x00 xec x00)) E)
(T (W x00 x00 x2b x02 x00 x00 x00 x00)
(L (W x00 x00 x00 x00 x00 x00 x00 x00)) E))))
(T (W x00 x00 x00 x00 x00 x00 x00 x00)
(T (W x2d x02 x08 x00 x00 x00 x00 x00)
(T (W x00 x00 x00 x00 x00 x00 x00 x00)
(T (W x00 x00 x00 x00 x00 x00 x00 x00)
(L (W x03 x00 x00 x00 x00 x00 x00 x00))
(L (W x00 x00 x00 x00 x00 x00 x00 x00)))
(T (W x00 x00 x00 x00 x73 x00 x00 x00)
(L (W x00 x00 x00 x00 x00 x00 x00 x00)) E))
(T (W x00 x00 x00 x00 x00 x00 x00 x00)
(T (W x02 x00 x00 x00 xfc x01 x00 x00)
(L (W x05 x05 x03 x03 x03 x02 x02 x03)) E)
(T (W x1e x00 x00 x00 x00 x00 x28 x00)
(L (W x00 x00 x00 x00 x00 x00 x00 x00)) E)))
(T (W x1e x00 x00 x00 x00 x00 x28 x00)
(T (W x02 x00 x03 x00 x03 x03 x04 x04)
(T (W x00 x00 xd4 x01 x00 x00 xc4 x00)
(L (W x00 x83 x60 x87 x93 x24 x63 x06)) E)
(T (W x00 x00 x00 x00 x00 x00 x00 x00)
(L (W x00 x00 x00 x00 x00 x00 x00 x00)) E))
(T (W x01 x01 x01 x01 x01 x01 x01 x01)
(T (W x00 x00 x00 x00 x00 x00 x67 x00)
(L (W x00 x00 x00 x00 x7e x8c x5a x8e)) E)
(T (W x00 x00 x00 x00 x00 x00 x00 x00)
(L (W x00 x00 x00 x00 x00 x00 x00 x00)) E)))))))
(T (W x00 x00 x00 x00 x00 x00 x00 x00)
(T (W x01 x01 x01 x01 x01 x01 x01 x01)
(T (W x00 x00 x00 x00 x1c x00 x00 x00)
(T (W x03 x00 x02 x00 x02 x02 x03 x03)
(T (W x00 x80 xe0 x8b x9a x28 xa1 x08)
(T (W x00 x00 x00 x00 x00 x00 x00 x00)
(T (W x00 x00 x00 x00 x00 x00 x00 x00)
(L (W x00 x00 x17 x00 x00 x00 x9b x02))
(L (W x00 x43 x66 x03 x8e x01 x00 x00)))
(T (W x01 x00 x03 x00 x02 x03 x04 x04)
(L (W x03 x03 x0c x00 x00 x00 x00 x00)) E))
(T (W x00 x00 x00 x00 x00 x00 x00 x00)
(T (W x1e x00 x00 x00 x00 x00 x32 x00)
(L (W x10 x00 x00 x00 x15 x00 x00 x00)) E)
(T (W x01 x01 x01 x01 x01 x01 x01 x01)
(L (W x58 x00 x58 x00 x58 x00 x05 x04)) E)))
(T (W x05 x05 x05 x05 x05 x02 x02 x05)
(T (W x00 x00 xe5 x00 x00 x00 xe5 x00)
(T (W x00 x00 x00 x00 x00 x00 x00 x00)
(L (W x00 x00 x00 x00 x6e x03 x00 x00))
(L (W x05 x05 x05 x05 x05 x02 x02 x02)))
(T (W x00 x82 x20 x87 x86 x01 x01 x0e)
(L (W x1e x00 x00 x00 x00 x00 x2d x00)) E))
(T (W x00 x43 x00 x00 x00 x00 x00 x00)
(T (W x6c x00 x1c x00 x8c x00 x00 x00)
(L (W x00 x00 x04 x00 x8f x01 x00 x00)) E)
(T (W x00 x00 x00 x00 x00 x08 x10 x0c)
(L (W x00 x00 x00 x00 x00 x00 x00 x00)) E))))
(T (W x00 x00 x00 x00 x00 x00 x00 x00)
(T (W x00 x00 x00 x00 x00 x00 x00 x00)
(T (W x1e x00 x00 x00 x00 x00 x37 x00)
(T (W x01 x01 x01 x01 x01 x01 x01 x01)
(L (W xe1 x00 xe1 x00 xe1 x00 x6f x04))
(L (W x00 x00 x00 x00 x7e x01 x00 x00)))
(T (W x00 x00 x00 x00 x00 x00 x00 x00)
(L (W x00 x00 x00 x00 x00 x00 x00 x00)) E))
(T (W x00 x00 x00 x00 x00 x00 x00 x00)
(T (W x00 x00 x00 x00 x00 x00 x00 x00)
(L (W x13 x4b xaf xab x8e x8a x08 xba)) E)
(T (W x5a x02 x20 x00 x00 x00 x00 x00)
(L (W x00 x00 x00 x00 x00 x00 x00 x00)) E)))
(T (W x00 x00 x00 x00 x00 x00 x00 x00)
(T (W x00 x00 x00 x00 x00 x00 x00 x00)
(T (W x00 x00 x00 x00 x81 x14 x30 x8c)
(L (W x02 x00 x03 x00 x03 x03 x05 x05)) E)
(T (W x00 x00 x00 x00 x82 x01 x00 x00)
(L (W x00 x00 x00 x00 x00 x00 x00 x00)) E))
(T (W x00 x00 x00 x00 x00 x00 x00 x00)
(T (W x00 x00 x00 x00 x00 x00 x00 x00)
(L (W x05 x05 x04 x04 x05 x02 x02 x04)) E)
(T (W x1e x00 x00 x00 x00 x00 x32 x00)
(L (W x00 x00 x00 x00 x00 x00 x00 x00)) E)))))
(T (W x32 x03 x03 x00 x00 x00 x51 x00)
(T (W x00 x00 x00 x00 x02 x48 x18 xce)
(T (W x00 x00 x8b x00 x00 x00 xbc x00)
(T (W x00 x00 x00 x00 x00 x00 x00 x00)
(T (W x00 x00 x00 x00 x00 x00 x00 x00)
(L (W x00 x00 x00 x00 x34 x00 x00 x00))
(L (W x00 x00 x9d x00 x00 x00 xbc x01)))
(T (W x00 x00 x00 x00 x00 x09 x10 x0e)
(L (W x00 x00 x00 x00 x00 x00 x00 x00)) E))
(T (W x00 x00 x00 x00 x00 x00 x00 x00)
(T (W x38 x43 x3e x03 x87 x13 x00 x8f)
(L (W x1e x00 x00 x00 x00 x00 x32 x00)) E)
(T (W x00 x00 x00 x00 x00 x00 x00 x00)
(L (W x01 x01 x01 x01 x01 x01 x01 x01)) E)))
(T (W x00 x00 x00 x00 x00 x00 x00 x00)
(T (W x00 x00 x00 x00 x00 x00 x00 x00)
(T (W x01 x00 x02 x00 x02 x02 x04 x03)
(L (W x03 x03 x04 x00 x00 x00 x00 x00))
(L (W x00 x00 x00 x00 x9d x03 x00 x00)))
(T (W x00 x00 xa3 x00 x00 x00 x51 x01)
(L (W x00 x00 x00 x00 x00 x00 x00 x00)) E))
(T (W x1e x00 x00 x00 x00 x00 x32 x00)
(T (W x05 x05 x03 x03 x03 x02 x02 x03)
(L (W x09 x00 x09 x00 x1f x00 x85 x03)) E)
(T (W x00 x02 x00 x00 x00 x00 xb5 x00)
(L (W x00 x00 x00 x00 x00 x00 x00 x00)) E))))
(T (W x01 x00 x00 x00 x00 x00 x00 x00)
(T (W x32 x00 x5b x00 x6b x00 x00 x00)
(T (W x00 x03 x60 x8b x9a x23 xd5 x04)
(T (W x00 x00 x00 x00 x00 x00 x00 x00)
(L (W x05 x05 x04 x04 x04 x02 x02 x04))
(L (W x00 x00 x00 x00 x00 x00 x00 x00)))
(T (W x1e x00 x00 x00 x00 x00 x32 x00)
(L (W x00 x00 x00 x00 x00 x00 x00 x00)) E))
(T (W x00 x00 x00 x00 x78 x34 x11 x0c)
(T (W x00 x00 x00 x00 x00 x00 x00 x00)
(L (W x00 x00 x0f x03 x00 x00 x0f x03)) E)
(T (W x02 x00 x02 x00 x02 x02 x05 x05)
(L (W x00 x00 x00 x00 x00 x00 x00 x00)) E)))
(T (W x00 x00 x00 x00 x00 x00 x00 x00)
(T (W x05 x05 x04 x04 x05 x02 x02 x04)
(T (W x00 x00 x00 x00 x2e x00 x00 x00)
(L (W x00 x00 x00 x00 x00 x10 x30 x0c)) E)
(T (W x9f x00 x9f x00 x7d x00 x00 x04)
(L (W x00 x00 x00 x00 x00 x00 x00 x00)) E))
(T (W x00 x00 x3b x00 x00 x00 x22 x00)
(T (W x5a x02 x08 x00 x00 x00 xf0 x00)
(L (W x00 x00 x00 x00 x4e x00 x00 x00)) E)
(T (W x40 xcb x23 x83 x82 x00 x20 x00)
(L (W x01 x00 x00 x00 x00 x00 x00 x00)) E))))))
(T (W x01 x00 x00 x00 x00 x00 x00 x00)
(T (W x3f x83 xe0 x8b xb7 x0a x63 x08)
(T (W x00 x00 x00 x00 x00 x00 x00 x00)
(T (W xbe x01 x10 x00 x00 x00 x02 x01)
(T (W x1c x00 x1c x00 x27 x00 x00 x00)
(T (W x00 x00 x00 x00 x07 x87 x10 x8c)
(L (W x02 x00 x03 x00 x03 x03 x04 x04))
(L (W x00 x00 x00 x00 x00 x00 x00 x00)))
(T (W x00 x00 x00 x00 x9e x00 x00 x00)
(L (W x00 x00 x00 x00 x00 x00 x00 x00)) E))
(T (W x00 x88 x20 x13 x85 x00 x00 x00)
(T (W x00 x00 x00 x00 x00 x00 x00 x00)
(L (W x05 x05 x03 x03 x03 x02 x02 x03)) E)
(T (W x1e x00 x00 x00 x00 x00 x28 x00)
(L (W x00 x00 x00 x00 x00 x00 x00 x00)) E)))
(T (W x1e x00 x00 x00 x00 x00 x28 x00)
(T (W x03 x00 x00 x00 x00 x00 x00 x00)
(T (W x00 x00 x00 x00 x00 x00 x00 x00)
(L (W x3b x03 xe0 x03 xc0 x0d x11 x8e))
(L (W x1e x00 x00 x00 x00 x00 x32 x00)))
(T (W xc8 x01 x10 x00 x00 x00 x00 x00)
(L (W x00 x00 x00 x00 xdf x01 x00 x00)) E))
(T (W x01 x01 x01 x01 x01 x01 x01 x01)
(T (W x00 x00 x00 x00 x00 x00 x00 x00)
(L (W x40 x00 x00 x00 x02 x20 x30 x0d)) E)
(T (W x1e x00 x77 x00 x8b x00 x00 x00)
(L (W x00 x00 x00 x00 x00 x00 x00 x00)) E))))
(T (W x05 x05 x04 x04 x05 x02 x02 x04)
(T (W x00 x00 x00 x00 x03 x24 x30 x0c)
(T (W x00 x00 x00 x00 xdc x00 x00 x00)
(T (W x1e x00 x00 x00 x00 x00 x32 x00)
(L (W x02 x00 x00 x00 x00 x00 x2e x00))
(L (W xc1 x00 x00 x00 x35 x01 x38 x0d)))
(T (W x05 x05 x03 x04 x05 x02 x02 x03)
(L (W x00 x00 x00 x00 x00 x00 x00 x00)) E))
(T (W x00 x00 x00 x00 x00 x00 x00 x00)
(T (W x00 x00 x00 x00 x00 x00 x00 x00)
(L (W xbe x01 x00 x01 x00 x00 x89 x02)) E)
(T (W x00 x00 x4d x02 x00 x00 x41 x02)
(L (W x00 x00 x00 x00 x00 x00 x00 x00)) E)))
(T (W x00 x00 x3e x02 x00 x00 x3e x02)
(T (W x00 x00 x00 x00 x00 x00 x00 x00)
(T (W x6b x00 x57 x00 x8f x00 x00 x00)
(L (W x00 x00 x00 x00 x0b x00 x00 x00)) E)
(T (W x00 x00 x00 x00 x01 x04 x30 x1c)
(L (W x02 x00 x03 x00 x03 x03 x04 x04)) E))
(T (W x7d x01 x01 x00 x00 x00 x00 x00)
(T (W x00 x08 x28 xb3 xa4 x83 x00 x00)
(L (W x1e x00 x00 x00 x00 x00 x32 x00)) E)
(T (W x00 x00 x00 x00 x00 x00 x00 x00)
(L (W x01 x01 x01 x01 x01 x01 x01 x01)) E)))))
(T (W x00 x00 x5c x00 x00 x00 xca x00)
(T (W x00 x00 x00 x00 x00 x00 x00 x00)
(T (W x03 x00 x03 x00 x01 x03 x06 x06)
(T (W x05 x05 x05 x05 x06 x02 x02 x05)
(T (W x00 x00 x00 x00 x00 x00 x00 x00)
(L (W x00 x00 x00 x00 x10 x00 x95 x0c))
(L (W x02 x00 x02 x00 x03 x02 x03 x03)))
(T (W x00 x00 x00 x00 x00 x00 x00 x00)
(L (W x00 x00 x00 x00 x00 x00 x00 x00)) E))
(T (W x00 x00 x00 x00 x00 x00 x00 x00)
(T (W x03 x03 x00 x0c x00 x00 x00 x00)
(L (W x00 x00 x00 x00 xbe x03 x00 x00)) E)
(T (W x3b x80 x60 x83 x86 x0a x01 x8a)
(L (W x01 x00 x00 x00 x00 x00 x00 x00)) E)))
(T (W x00 x00 x00 x00 x00 x00 x00 x00)
(T (W x02 x00 x00 x00 x87 xb0 x30 x2c)
(T (W x00 x00 x00 x00 x00 x00 x00 x00)
(L (W x00 x00 xe8 x01 x00 x00 xe8 x01))
(L (W x00 x8b x2e x07 x80 x17 x00 x32)))
(T (W x01 x00 x02 x00 x01 x02 x04 x04)
(L (W x00 x00 x00 x00 x00 x00 x00 x00)) E))
(T (W x04 x00 x00 x00 x5c x01 x00 x00)
(T (W x1e x00 x00 x00 x00 x00 x28 x00)
(L (W x08 x00 x00 x00 x55 x00 x00 x00)) E)
(T (W x01 x01 x01 x01 x01 x01 x01 x01)
(L (W x00 x00 x00 x00 x00 x00 x00 x00)) E))))
(T (W x00 x00 x00 x00 x5c x00 x00 x00)
(T (W x00 x10 x00 x00 x00 x00 x7b x00)
(T (W x00 x00 x00 x00 x00 x00 x00 x00)
(T (W x00 x00 x00 x00 x00 x00 x00 x00)
(L (W x1e x00 x00 x00 x00 x00 x1e x00))
(L (W x00 x00 x00 x00 x00 x00 x00 x00)))
(T (W x00 x00 x00 x00 x00 x00 x00 x00)
(L (W x01 x01 x01 x01 x01 x01 x01 x01)) E))
(T (W x00 x00 x00 x00 x00 x00 x00 x00)
(T (W x00 x00 x00 x00 x00 x00 x00 x00)
(L (W x03 x00 x03 x00 x02 x03 x03 x03)) E)
(T (W x00 x00 x00 x00 x00 x00 x00 x00)
(L (W x00 x00 x00 x00 x00 x00 x00 x00)) E)))
(T (W x00 x00 x00 x00 xfd x00 x00 x00)
(T (W x1e x00 x00 x00 x00 x00 x3c x00)
(T (W x05 x05 x05 x06 x06 x02 x02 x05)
(L (W xf3 x00 x55 x00 x12 x00 x00 x00)) E)
(T (W x00 x00 x00 x00 x00 x00 x00 x00)
(L (W x00 x00 x00 x00 x02 x1b x50 x8c)) E))
(T (W x01 x00 x03 x00 x01 x03 x05 x05)
(T (W x00 x00 x6e x00 x00 x00 x9d x00)
(L (W x00 x00 x00 x00 x00 x00 x00 x00)) E)
(T (W xbe x01 x04 x00 x00 x00 x00 x00)
(L (W x00 x00 x00 x00 xdf x02 x00 x00)) E))))))))))
(T (W x41 x00 x41 x00 x22 x00 x00 x00)
(T (W x00 x00 x49 x00 x00 x00 x49 x00)
(T (W x09 x00 x00 x00 x03 x04 x52 x0d)
(T (W x6b xab x60 xc7 xe4 x4b x01 x08)
(T (W x2d x03 x00 x06 x00 x00 xde x00)
(T (W x00 x00 x00 x00 x00 x00 x00 x00)
(T (W x00 x00 x00 x00 x00 x00 x00 x00)
(T (W x00 x00 x00 x00 x8e x00 x00 x00)
(T (W x1e x00 x00 x00 x00 x00 x37 x00)
(T (W x05 x05 x04 x04 x05 x02 x02 x04)
(L (W x33 x00 x92 x00 x50 x00 x6c x04))
(L (W x02 x00 x00 x00 xbf x00 x00 x00)))
(T (W x00 x18 x00 x00 x7b x00 x00 x00)
(L (W x40 x00 x00 x00 x85 x0c x50 x8f)) E))
(T (W x01 x00 x02 x00 x02 x02 x04 x04)
(T (W x00 x00 xf6 x00 x00 x00 xb6 x01)
(L (W x00 xa0 x74 x83 xc1 x00 x43 x00)) E)
(T (W x00 x00 x00 x00 x00 x00 x00 x00)
(L (W x00 x00 x00 x00 x85 x02 x00 x00)) E)))
(T (W x2d x01 x10 x00 x00 x00 x00 x00)
(T (W x24 x00 x58 x00 x94 x00 x00 x00)
(T (W x00 x00 x00 x00 x00 x00 x00 x00)
(L (W x02 x00 x03 x00 x03 x03 x02 x02))
(L (W x00 x00 x00 x00 x00 x00 x00 x00)))
(T (W x00 x00 x00 x00 x15 x01 x00 x00)
(L (W x00 x00 x00 x00 x00 x00 x00 x00)) E))
(T (W x00 x00 x00 x00 x00 x00 x00 x00)
(T (W x00 x00 x00 x00 x00 x00 x00 x00)
(L (W x05 x05 x05 x05 x05 x02 x02 x05)) E)
(T (W x1e x00 x00 x00 x00 x00 x3c x00)
(L (W x00 x00 x00 x00 x00 x00 x00 x00)) E))))
(T (W x00 x00 x00 x00 x00 x00 x00 x00)
(T (W x05 x05 x03 x03 x04 x02 x02 x03)
(T (W x00 x00 x00 x00 x00 x00 x00 x00)
(T (W x00 x00 x00 x00 x00 x00 x00 x00)
(L (W x04 x00 x00 x00 x63 x03 x00 x00))
(L (W x05 x05 x04 x05 x05 x02 x02 x04)))
(T (W x00 x00 x32 x8b x8a x10 x08 x00)
(L (W x01 x00 x00 x00 x00 x00 x00 x00)) E))
(T (W x00 xa0 x00 x00 x00 x00 xae x00)
(T (W x00 x00 x00 x00 x00 x00 x00 x00)
(L (W x00 x00 x00 x00 xf0 x00 x00 x00)) E)
(T (W x00 x00 x00 x00 x93 x24 x70 x0d)
(L (W x00 x00 x00 x00 x00 x00 x00 x00)) E)))
(T (W x00 x00 x00 x00 x00 x18 x12 x0c)
(T (W x00 x00 x00 x00 x00 x01 x00 x00)
(T (W x1e x00 x00 x00 x00 x00 x37 x00)
(L (W x00 x00 x00 x00 x00 x00 x00 x00))
(L (W x40 x00 x00 x00 x04 x10 x50 x0c)))
(T (W x05 x05 x03 x03 x04 x02 x02 x03)
(L (W x00 x00 x00 x00 x00 x00 x00 x00)) E))
(T (W x00 x00 x00 x00 x98 x00 x00 x00)
(T (W x03 x00 x03 x00 x02 x03 x05 x05)
(L (W x00 x00 x00 x00 x00 x00 x00 x00)) E)
(T (W x00 x00 x00 x00 x00 x00 x00 x00)
(L (W x00 x00 x00 x00 x00 x00 x00 x00)) E)))))
(T (W x00 x00 x00 x00 x66 xcb x1a xee)
(T (W x1e x00 x00 x00 x00 x00 x32 x00)
(T (W x45 x00 x1f x00 x04 x00 xa4 x03)
(T (W x00 x00 x00 x00 x00 x00 x00 x00)
(T (W x00 x00 x00 x00 x80 x01 x00 x00)
(L (W x05 x05 x03 x03 x04 x02 x02 x03))
(L (W x00 x00 x00 x00 x00 x00 x00 x00)))
(T (W x1e x00 x00 x00 x00 x00 x32 x00)
(L (W x00 x00 x00 x00 x00 x00 x00 x00)) E))
(T (W x00 x00 x00 x00 x01 x10 x14 x2c)
(T (W x00 x00 x00 x00 x89 x00 x00 x00)
(L (W x00 x00 x12 x03 x00 x00 x4a x02)) E)
(T (W x02 x00 x03 x00 x02 x03 x03 x03)
(L (W x00 x00 x00 x00 x00 x00 x00 x00)) E)))
(T (W x02 x00 x02 x00 x02 x02 x01 x01)
(T (W x05 x05 x05 x05 x05 x02 x02 x05)
(T (W x00 x00 x00 x00 x00 x00 x00 x00)
(L (W x00 x00 x00 x00 x00 x00 x50 x8c))
(L (W x02 x00 x03 x00 x02 x03 x04 x04)))
(T (W x5d x00 x3c x00 x54 x00 x00 x00)
(L (W x00 x00 x00 x00 x74 x01 x00 x00)) E))
(T (W x00 x00 x8d x01 x00 x00 xbc x01)
(T (W xff x01 x10 x00 xe5 x00 xee x00)
(L (W x08 x00 x00 x00 xd8 x03 x00 x00)) E)
(T (W x00 x08 xea x97 xc4 x10 x04 x00)
(L (W x01 x00 x00 x00 x00 x00 x00 x00)) E))))
(T (W x00 x00 x30 x00 x00 x00 xd1 x00)
(T (W x00 x00 x00 x00 x80 x00 x00 x00)
(T (W x00 x00 x00 x00 x4c x00 x00 x00)
(T (W x03 x00 x02 x00 x02 x02 x03 x03)
(L (W x46 x02 x00 x02 x00 x00 x9c x00))
(L (W x00 x00 x00 x00 x00 x00 x00 x00)))
(T (W x00 x00 xb1 x01 x00 x00 xf7 x01)
(L (W x00 x80 x7f x9b xdf x00 xc9 x00)) E))
(T (W x01 x00 x00 x00 x00 x00 x00 x00)
(T (W x01 x01 x01 x01 x01 x01 x01 x01)
(L (W x13 x00 x13 x00 xf6 x00 x00 x00)) E)
(T (W x00 x84 x00 x00 x6c x00 x00 x00)
(L (W x00 x00 x00 x00 x00 x00 x00 x00)) E)))
(T (W x00 x00 x00 x00 x0b x00 x00 x00)
(T (W x00 x00 x00 x00 x00 x00 x00 x00)
(T (W x33 x83 xe1 x8b x86 x0e x11 x8e)
(L (W x1e x00 x00 x00 x00 x00 x32 x00)) E)
(T (W x00 x00 x00 x00 x80 x02 x00 x00)
(L (W x05 x05 x03 x03 x03 x02 x02 x03)) E))
(T (W x27 x00 x73 x00 x8d x00 x00 x00)
(T (W x00 x00 x00 x00 x00 x08 x10 x4c)
(L (W x02 x00 x03 x00 x03 x03 x04 x04)) E)
(T (W x00 x00 x00 x00 x00 x00 x00 x00)
(L (W x00 x00 x00 x00 x00 x00 x00 x00)) E))))))
(T (W x00 x00 x00 x00 x00 x00 x00 x00)
(T (W x00 x00 x00 x00 x00 x00 x00 x00)
(T (W x05 x05 x02 x02 x03 x02 x02 x02)
(T (W x00 x00 x00 x00 x7b x10 x12 x0c)
(T (W x00 x00 x00 x00 x00 x00 x00 x00)
(T (W x0a x00 x00 x00 x00 x00 x00 x00)
(L (W x00 x80 x00 x00 x00 x00 x00 x00))
(L (W x40 x00 x00 x00 x02 x04 x30 x8d)))
(T (W x05 x05 x04 x04 x05 x02 x02 x04)
(L (W xc9 x00 xc9 x00 xc9 x00 xa9 x03)) E))
(T (W x00 x00 x00 x00 x00 x00 x00 x00)
(T (W x03 x00 x03 x00 x03 x03 x03 x03)
(L (W x78 x02 x20 x00 x00 x00 x00 x00)) E)
(T (W x00 x00 x00 x00 x00 x00 x00 x00)
(L (W x40 x4b x37 x13 x80 x01 x00 x05)) E)))
(T (W x00 x00 xb3 x01 x00 x00 x00 x00)
(T (W x00 x00 x00 x00 x00 x00 x0d x00)
(T (W x6a x00 x54 x00 x8a x00 x00 x00)
(L (W x00 x00 x00 x00 x00 x00 x00 x00))
(L (W x00 x00 x39 x00 x00 x00 x39 x00)))
(T (W x40 x00 x00 x00 x81 x20 x30 x8d)
(L (W x02 x00 x02 x00 x02 x02 x04 x04)) E))
(T (W x00 x00 x00 x00 x00 x00 x00 x00)
(T (W x00 x43 x6e x83 x82 x13 x01 x30)
(L (W x00 x00 x00 x00 x00 x00 x00 x00)) E)
(T (W x00 x00 x00 x00 xfb x02 x00 x00)
(L (W x01 x01 x01 x01 x01 x01 x01 x01)) E))))
(T (W x00 x00 x00 x00 x00 x00 x00 x00)
(T (W x1e x00 x00 x00 x00 x00 x32 x00)
(T (W x02 x00 x03 x00 x02 x03 x03 x03)
(T (W x00 x00 x00 x00 x00 x00 x00 x00)
(L (W x00 x00 x00 x00 x00 x00 x00 x00))
(L (W x1e x00 x00 x00 x00 x00 x28 x00)))
(T (W xc8 x01 x04 x00 x00 x00 x00 x00)
(L (W x00 x00 x00 x00 x00 x00 x00 x00)) E))
(T (W x01 x01 x01 x01 x01 x01 x01 x01)
(T (W x00 x05 x00 x00 x00 x00 x00 x00)
(L (W x00 x00 x00 x00 x00 x0c x12 x0c)) E)
(T (W xb0 x00 xb0 x00 xb0 x00 x5b x04)
(L (W x00 x00 x00 x00 x00 x00 x00 x00)) E)))
(T (W x27 x00 x27 x00 x97 x00 x00 x00)
(T (W x00 x00 x00 x00 x00 x00 x00 x00)
(T (W x00 x00 x00 x00 xc0 x01 x00 x00)
(L (W x05 x05 x04 x04 x05 x02 x02 x04)) E)
(T (W x1e x00 x00 x00 x00 x00 x32 x00)
(L (W x00 x00 x00 x00 x00 x00 x00 x00)) E))
(T (W x00 x00 x00 x00 x62 x08 x10 x0c)
(T (W x00 x00 x00 x00 x00 x00 x00 x00)
(L (W x00 x00 xb5 x00 x00 x00 x3b x00)) E)
(T (W x02 x00 x03 x00 x02 x03 x03 x03)
(L (W x00 x00 x00 x00 x00 x00 x00 x00)) E)))))
(T (W x27 x00 x27 x00 x97 x00 x00 x00)
(T (W x00 x00 x00 x00 x40 x00 x00 x00)
(T (W x80 x00 x00 x00 x00 x00 x00 x00)
(T (W x00 x00 x00 x00 x00 x00 x00 x00)
(T (W x00 x00 x00 x00 x00 x00 x00 x00)
(L (W x1e x00 x00 x00 x00 x00 x28 x00))
(L (W x04 x40 x00 x00 x6e x00 x00 x00)))
(T (W x00 x00 x00 x00 x40 x02 x00 x00)
(L (W x01 x01 x01 x01 x01 x01 x01 x01)) E))
(T (W x00 x00 x00 x00 x00 x00 x00 x00)
(T (W xc0 x00 x00 x00 x66 x87 x10 x8d)
(L (W x01 x00 x03 x00 x01 x03 x04 x04)) E)
(T (W x00 x00 x00 x00 x00 x00 x00 x00)
(L (W x00 x00 x00 x00 x00 x00 x00 x00)) E)))
(T (W x00 x00 x00 x00 x00 x00 x00 x00)
(T (W x0a x00 x00 x00 x00 x00 x28 x00)
(T (W x05 x05 x03 x04 x04 x02 x02 x03)
(L (W x59 x00 x59 x00 x59 x00 x00 x00))
(L (W x00 x00 x00 x00 xba x00 x00 x00)))
(T (W x00 x21 x00 x00 x00 x00 x99 x00)
(L (W x00 x00 x00 x00 x00 x00 x00 x00)) E))
(T (W x02 x00 x02 x00 x02 x02 x03 x03)
(T (W x00 x00 x32 x01 x00 x00 xe5 x00)
(L (W x27 xc0 xa6 xa3 x82 x0b x00 x08)) E)
(T (W x2d x03 x03 x00 x00 x00 x00 x00)
(L (W x00 x00 x00 x00 x00 x00 x00 x00)) E))))
(T (W x00 x00 x00 x00 x00 x00 x00 x00)
(T (W x04 x83 x20 xab x9e xe3 x80 x00)
(T (W x80 x00 x00 x00 x01 x10 x90 x0c)
(T (W x00 x00 x00 x00 x00 x00 x00 x00)
(L (W x00 x00 xb3 x01 x00 x00 x00 x00))
(L (W x00 x00 x00 x00 x00 x00 x00 x00)))
(T (W x02 x00 x03 x00 x02 x03 x14 x14)
(L (W x00 x00 x00 x00 x00 x00 x00 x00)) E))
(T (W x08 x00 x00 x00 x40 x01 x00 x00)
(T (W x1e x00 x00 x00 x00 x00 x37 x00)
(L (W x00 x00 x01 x00 x00 x00 x6c x00)) E)
(T (W x05 x05 x03 x03 x04 x02 x02 x03)
(L (W x00 x00 x00 x00 x00 x00 x00 x00)) E)))
(T (W x01 x01 x01 x01 x01 x01 x01 x01)
(T (W x00 x00 x47 x00 x00 x00 x47 x00)
(T (W x3c x02 x04 x01 x00 x00 xf6 x00)
(L (W x08 x00 x00 x00 x90 x03 x00 x00)) E)
(T (W x40 x03 x6e x4f x8e x53 x09 x0a)
(L (W x01 x00 x00 x00 x00 x00 x00 x00)) E))
(T (W x00 x00 x00 x00 x00 x00 x00 x00)
(T (W x16 x00 x99 x00 x53 x00 x00 x00)
(L (W x01 x00 x01 x00 x00 x00 x01 x00)) E)
(T (W x00 x00 x00 x00 x00 x00 x00 x00)
(L (W x00 x00 x00 x00 x00 x00 x00 x00)) E)))))))
(T (W x43 x00 x43 x00 x2c x00 x00 x00)
(T (W x00 x00 x00 x00 x00 x00 x00 x00)
(T (W x1e x00 x00 x00 x00 x00 x3c x00)
(T (W x00 x00 x00 x00 x00 x00 x00 x00)
(T (W x00 x00 x00 x00 x00 x00 x00 x00)
(T (W x00 x00 x00 x00 x00 x00 x00 x00)
(T (W x03 x00 x03 x00 x03 x03 x05 x05)
(L (W x4b x02 x20 x00 x00 x00 xf5 x00))
(L (W x00 x00 x00 x00 xe0 x02 x00 x00)))
(T (W x00 x00 x42 x01 x00 x00 x5e x00)
(L (W x13 x4b xaf xab x8e x0a x08 xba)) E))
(T (W x1e x00 x00 x00 x00 x00 x32 x00)
(T (W x05 x05 x03 x04 x04 x02 x02 x03)
(L (W xf7 x00 x52 x00 x37 x00 x00 x00)) E)
(T (W x00 x00 x00 x00 x00 x00 x00 x00)
(L (W x00 x00 x00 x00 x99 x00 x30 x1c)) E)))
(T (W x00 x12 x00 x00 x00 x00 x7f x00)
(T (W x4b x01 x04 x00 x00 x00 x00 x00)
(T (W x00 x00 x20 x8b x9a x20 xa0 x00)
(L (W x0a x00 x00 x00 x00 x00 x28 x00))
(L (W x00 x14 x00 x00 x00 x00 x00 x00)))
(T (W x00 x00 x00 x00 x60 x02 x00 x00)
(L (W x01 x01 x01 x01 x01 x01 x01 x01)) E))
(T (W x1a x00 x1a x00 x1a x00 x00 x00)
(T (W x00 x00 x00 x00 x00 x00 x00 x00)
(L (W x02 x00 x03 x00 x03 x03 x03 x03)) E)
(T (W x00 x00 x00 x00 x40 x01 x00 x00)
(L (W x00 x00 x00 x00 x00 x00 x00 x00)) E))))
(T (W x1d x00 x40 x00 x2c x00 x00 x00)
(T (W x02 x00 x02 x00 x01 x02 x03 x03)
(T (W x05 x05 x03 x03 x04 x02 x02 x03)
(T (W x00 x00 x00 x00 x00 x00 x00 x00)
(L (W x00 x00 x00 x00 x00 x00 x10 x2c))
(L (W x02 x00 x02 x00 x03 x02 x03 x03)))
(T (W x00 x00 x00 x00 x00 x00 x00 x00)
(L (W x00 x00 x00 x00 x00 x00 x00 x00)) E))
(T (W x00 x00 x9d x00 x00 x00 xe7 x00)
(T (W x00 x00 x00 x00 x00 x00 x00 x00)
(L (W x04 x00 x00 x00 xb3 x03 x00 x00)) E)
(T (W x04 xc3 x2e xa3 x86 x93 x00 x02)
(L (W x01 x00 x00 x00 x00 x00 x00 x00)) E)))
(T (W x00 x00 x00 x00 x00 x00 x00 x00)
(T (W x04 x00 x00 x00 xfa x04 x13 x8c)
(T (W x00 x00 x00 x00 x00 x00 x00 x00)
(L (W x00 x00 x60 x01 x00 x00 x4a x01))
(L (W x04 x1f x2e x1f x8c x13 x2c x76)))
(T (W x02 x00 x03 x00 x03 x03 x03 x03)
(L (W x00 x00 x00 x00 x00 x00 x00 x00)) E))
(T (W x00 x00 x00 x00 x00 x00 x00 x00)
(T (W x1e x00 x00 x00 x00 x00 x32 x00)
(L (W x08 x04 x00 x00 x56 x00 x00 x00)) E)
(T (W x05 x05 x04 x04 x05 x02 x02 x04)
(L (W x00 x00 x00 x00 x00 x00 x00 x00)) E)))))
(T (W x00 xab x28 x83 xc4 xd1 x00 x12)
(T (W x00 x00 x00 x00 x00 x00 x00 x00)
(T (W x2d x01 x02 x00 x00 x00 x17 x01)
(T (W x00 x00 x00 x00 x00 x00 x00 x00)
(T (W x00 x00 x00 x00 x00 x00 x00 x00)
(L (W x02 x00 x03 x00 x03 x03 x04 x04))
(L (W x5a x02 x08 x00 x00 x00 x00 x00)))
(T (W x00 x00 x00 x00 x33 x00 x00 x00)
(L (W x00 x00 x00 x00 x00 x00 x00 x00)) E))
(T (W x3b x08 x61 x8b x86 x88 x01 x08)
(T (W x00 x00 x00 x00 xe0 x01 x00 x00)
(L (W x05 x05 x02 x02 x02 x02 x02 x02)) E)
(T (W x01 x00 x00 x00 x00 x00 x00 x00)
(L (W x00 x00 x00 x00 x00 x00 x00 x00)) E)))
(T (W x01 x00 x00 x00 x00 x00 x00 x00)
(T (W x02 x00 x03 x00 x02 x03 x06 x06)
(T (W x00 x00 x00 x00 x00 x00 x00 x00)
(L (W x08 x29 xb2 x03 xc4 x00 x40 x0a))
(L (W x1e x00 x00 x00 x00 x00 x32 x00)))
(T (W x2d x02 x08 x00 x00 x00 x00 x00)
(L (W x00 x00 x00 x00 x00 x00 x00 x00)) E))
(T (W x05 x05 x03 x03 x03 x02 x02 x03)
(T (W x00 x10 x00 x00 x9c x00 x00 x00)
(L (W x00 x00 x00 x00 x00 x00 x00 x00)) E)
(T (W x14 x00 x73 x00 x05 x00 x00 x00)
(L (W x00 x00 x00 x00 x00 x00 x00 x00)) E))))
(T (W x01 x01 x01 x01 x01 x01 x01 x01)
(T (W x00 x00 x00 x00 x7a x0b x11 x9d)
(T (W x04 x00 x00 x00 xe0 x00 x00 x00)
(T (W x01 x00 x00 x00 x00 x00 x00 x00)
(L (W x00 x40 x00 x00 xa5 x00 x00 x00))
(L (W x00 x00 x00 x00 x00 x00 x00 x00)))
(T (W x05 x05 x04 x04 x04 x02 x02 x04)
(L (W x00 x00 x00 x00 x00 x00 x00 x00)) E))
(T (W x00 x00 x00 x00 x00 x00 x00 x00)
(T (W x00 x00 x00 x00 x00 x00 x00 x00)
(L (W x1e x02 x00 x02 x00 x00 x00 x00)) E)
(T (W x00 x00 xd4 x01 x00 x00 x16 x02)
(L (W x00 x00 x00 x00 x00 x00 x00 x00)) E)))
(T (W x00 x00 x6d x00 x00 x00 x6d x00)
(T (W x10 x00 x00 x00 x00 x00 x00 x00)
(T (W x00 x00 x00 x00 x00 x00 x00 x00)
(L (W x00 x00 x00 x00 x7e x00 x00 x00)) E)
(T (W x40 x00 x00 x00 x04 x88 x10 x0d)
(L (W x00 x00 x00 x00 x00 x00 x00 x00)) E))
(T (W x78 x02 x02 x00 x00 x00 x00 x00)
(T (W x00 x00 x20 x8f x9a x25 xb0 x04)
(L (W x01 x00 x00 x00 x00 x00 x00 x00)) E)
(T (W x00 x00 x00 x00 x44 x03 x00 x00)
(L (W x01 x01 x01 x01 x01 x01 x01 x01)) E))))))
(T (W x01 x01 x01 x01 x01 x01 x01 x01)
(T (W x00 x00 x00 x00 x20 x00 x00 x00)
(T (W x02 x00 x03 x00 x02 x03 x04 x04)
(T (W x00 x08 xb6 x93 x84 x00 x04 x10)
(T (W x00 x00 x00 x00 x7a x04 x53 xcc)
(T (W x00 x00 x00 x00 x00 x00 x00 x00)
(L (W x00 x00 x4b x00 x00 x00 x5c x01))
(L (W x00 x83 x68 x03 x85 x09 x00 x02)))
(T (W x01 x00 x01 x00 x01 x01 x00 x00)
(L (W x00 x00 x00 x00 x00 x00 x00 x00)) E))
(T (W x00 x00 x00 x00 x00 x00 x00 x00)
(T (W x1e x00 x00 x00 x00 x00 x32 x00)
(L (W x00 x40 x00 x00 x60 x00 x00 x00)) E)
(T (W x05 x05 x04 x05 x05 x02 x02 x04)
(L (W x00 x00 x00 x00 x00 x00 x00 x00)) E)))
(T (W x05 x05 x03 x03 x04 x02 x02 x03)
(T (W x00 x00 x2d x00 x00 x00 x22 x00)
(T (W x3c x02 x80 x00 x00 x00 x00 x00)
(L (W x02 x00 x00 x00 x61 x03 x00 x00))
(L (W x05 x05 x04 x05 x05 x02 x02 x04)))
(T (W x13 x83 x60 xaf x8a x28 x89 x0c)
(L (W x1e x00 x00 x00 x00 x00 x23 x00)) E))
(T (W x00 x02 x00 x00 x00 x00 x24 x00)
(T (W x91 x00 x69 x00 x4f x00 x00 x00)
(L (W x00 x00 x00 x00 x00 x00 x00 x00)) E)
(T (W x80 x00 x00 x00 x00 x08 x90 x0e)
(L (W x00 x00 x00 x00 x00 x00 x00 x00)) E))))
(T (W x00 x01 x00 x00 x00 x00 x6a x00)
(T (W x00 x00 x00 x00 x00 x00 x00 x00)
(T (W x01 x00 x00 x00 x00 x00 x00 x00)
(T (W x05 x05 x03 x03 x04 x02 x02 x03)
(L (W xa0 x00 x1f x00 x05 x00 x00 x00))
(L (W x00 x00 x00 x00 x7e x01 x00 x00)))
(T (W x00 x00 x00 x00 x4d x00 x00 x00)
(L (W x00 x00 x00 x00 x00 x00 x00 x00)) E))
(T (W x00 x00 x00 x00 x00 x00 x00 x00)
(T (W x00 x00 x00 x00 x00 x00 x00 x00)
(L (W x00 x03 x61 x03 xa0 x0e x01 x06)) E)
(T (W xc8 x01 x10 x00 x00 x00 x00 x00)
(L (W x00 x00 x00 x00 x00 x00 x00 x00)) E)))
(T (W xbe x01 x40 x00 x00 x00 x00 x00)
(T (W x00 x00 x00 x00 x00 x00 x00 x00)
(T (W x00 x00 x00 x00 x01 x10 x50 x8c)
(L (W x02 x00 x03 x00 x03 x03 x04 x03)) E)
(T (W x00 x00 x00 x00 x00 x00 x00 x00)
(L (W x00 x00 xc6 x02 x00 x00 xc6 x02)) E))
(T (W x00 x00 x00 x00 x00 x00 x00 x00)
(T (W x00 x00 x00 x00 x20 x02 x00 x00)
(L (W x05 x05 x02 x02 x02 x02 x02 x02)) E)
(T (W x1e x00 x00 x00 x00 x00 x3c x00)
(L (W x00 x00 x00 x00 x00 x00 x00 x00)) E)))))
(T (W x78 x02 x00 x02 x00 x00 x21 x02)
(T (W x00 x00 x00 x00 x86 xe4 x30 x4c)
(T (W x00 x00 xba x00 x00 x00 x7f x01)
(T (W x01 x4a x00 x00 x34 x00 x00 x00)
(T (W x00 x00 x00 x00 x00 x00 x00 x00)
(L (W x00 x00 x00 x00 x56 x01 x00 x00))
(L (W x00 x00 xce x02 x00 x00 xce x02)))
(T (W x00 x00 x00 x00 x00 x0a x10 x4e)
(L (W x00 x00 x00 x00 x00 x00 x00 x00)) E))
(T (W x00 x00 x00 x00 x00 x00 x00 x00)
(T (W x3b x43 x68 x0b x86 x0c x01 x8a)
(L (W x1e x00 x00 x00 x00 x00 x2d x00)) E)
(T (W x00 x00 x00 x00 x00 x00 x00 x00)
(L (W x01 x01 x01 x01 x01 x01 x01 x01)) E)))
(T (W x00 x00 x00 x00 x00 x00 x00 x00)
(T (W x00 x00 x00 x00 x00 x00 x00 x00)
(T (W x01 x00 x01 x00 x01 x01 x05 x05)
(L (W x2d x03 x0c x00 x00 x00 x00 x00))
(L (W x02 x00 x00 x00 xad x03 x00 x00)))
(T (W x00 x00 x0e x00 x00 x00 x0c x00)
(L (W x00 x00 x00 x00 x00 x00 x00 x00)) E))
(T (W x1e x00 x00 x00 x00 x00 x37 x00)
(T (W x05 x05 x02 x02 x03 x02 x02 x02)
(L (W x09 x00 x09 x00 x1f x00 x85 x03)) E)
(T (W x00 x49 x00 x00 x00 x00 x00 x00)
(L (W x00 x00 x00 x00 x00 x00 x00 x00)) E))))
(T (W x1e x00 x00 x00 x00 x00 x28 x00)
(T (W x24 x00 x58 x00 x94 x00 x00 x00)
(T (W x00 x03 x20 x8b x9a x21 x90 x00)
(T (W x00 x00 x00 x00 xa0 x01 x00 x00)
(L (W x05 x05 x05 x05 x05 x02 x02 x05))
(L (W x00 x00 x00 x00 x00 x00 x00 x00)))
(T (W x01 x00 x00 x00 x00 x00 x00 x00)
(L (W x00 x00 x00 x00 x00 x00 x00 x00)) E))
(T (W x00 x00 x00 x00 x00 x00 x00 x00)
(T (W x00 x00 x00 x00 x2c x00 x00 x00)
(L (W x00 x00 xf2 x02 x00 x00 xf2 x02)) E)
(T (W x02 x00 x03 x00 x03 x03 x04 x03)
(L (W x00 x00 x00 x00 x00 x00 x00 x00)) E)))
(T (W x03 x00 x02 x00 x02 x03 x06 x06)
(T (W x01 x01 x01 x01 x01 x01 x01 x01)
(T (W x08 x00 x01 x00 x6b x00 x00 x00)
(L (W x00 x00 x00 x00 x00 x03 x10 x0c)) E)
(T (W x58 x00 x58 x00 x58 x00 x05 x04)
(L (W x01 x00 x00 x00 xe2 x00 x00 x00)) E))
(T (W x00 x00 x19 x01 x00 x00 x91 x01)
(T (W xff x02 x00 x02 x00 x00 xef x00)
(L (W x00 x00 x00 x00 x53 x00 x00 x00)) E)
(T (W x00 x00 xae xa3 x84 x93 x00 x41)
(L (W x1e x00 x00 x00 x00 x00 x32 x00)) E))))))))
(T (W x05 x05 x03 x03 x04 x02 x02 x03)
(T (W x01 x00 x02 x00 x02 x02 x04 x04)
(T (W x00 x00 x00 x00 x00 x00 x00 x00)
(T (W x09 x00 x09 x00 x1f x00 x85 x03)
(T (W x00 x00 x00 x00 x00 x00 x00 x00)
(T (W x80 x28 x00 x00 x00 x00 x00 x00)
(T (W x00 x00 x00 x00 x00 x00 x00 x00)
(T (W x00 x00 x00 x00 x00 x00 x00 x00)
(L (W x1e x00 x00 x00 x00 x00 x28 x00))
(L (W x10 x28 x00 x00 x00 x00 x00 x00)))
(T (W x00 x00 x00 x00 x30 x02 x00 x00)
(L (W x05 x05 x04 x04 x05 x02 x02 x04)) E))
(T (W x1c x00 x24 x00 x8c x00 x00 x00)
(T (W x00 x00 x00 x00 x86 xad x10 x8c)
(L (W x02 x00 x03 x00 x03 x03 x03 x03)) E)
(T (W x00 x00 x00 x00 x00 x00 x00 x00)
(L (W x00 x00 x25 x02 x00 x00 x2e x02)) E)))
(T (W x00 x00 x00 x00 x00 x00 x00 x00)
(T (W x01 x00 x00 x00 x00 x00 x00 x00)
(T (W x05 x05 x03 x03 x03 x02 x02 x03)
(L (W xe0 x00 xe0 x00 xe0 x00 x00 x00))
(L (W x00 x00 x00 x00 x2d x01 x00 x00)))
(T (W x00 x14 x00 x00 x00 x00 x00 x00)
(L (W x00 x00 x00 x00 x00 x00 x00 x00)) E))
(T (W x00 x00 x00 x00 x00 x00 x00 x00)
(T (W x00 x00 x00 x00 x00 x00 x00 x00)
(L (W x00 x40 xa0 xc3 xe0 x23 x80 x05)) E)
(T (W x2d x02 x00 x08 x00 x00 x00 x00)
(L (W x00 x00 x00 x00 x00 x00 x00 x00)) E))))
(T (W x00 x00 x00 x00 x00 x00 x00 x00)
(T (W x00 x00 x20 x8b x9a x21 x30 x00)
(T (W x00 x00 x00 x00 x79 x00 xf1 x0c)
(T (W x00 x00 x00 x00 x00 x00 x00 x00)
(L (W x00 x00 x0b x02 x00 x00 xca x00))
(L (W x00 x43 x70 x4f x8f x11 x00 x03)))
(T (W x02 x00 x02 x00 x02 x02 x03 x03)
(L (W x00 x00 x00 x00 x00 x00 x00 x00)) E))
(T (W x08 x00 x00 x00 x30 x01 x00 x00)
(T (W x01 x00 x00 x00 x00 x00 x00 x00)
(L (W x00 x80 x00 x00 x00 x00 x49 x00)) E)
(T (W x01 x01 x01 x01 x01 x01 x01 x01)
(L (W x00 x00 x00 x00 x00 x00 x00 x00)) E)))
(T (W x05 x05 x03 x04 x04 x02 x02 x03)
(T (W x00 x00 x74 x00 x00 x00 x2b x01)
(T (W x2d x02 x08 x00 x00 x00 x00 x00)
(L (W x04 x00 x00 x00 xb7 x03 x00 x00))
(L (W x05 x05 x05 x05 x05 x02 x02 x02)))
(T (W x40 x03 xa0 xc7 x86 x81 x01 x07)
(L (W x01 x00 x00 x00 x00 x00 x00 x00)) E))
(T (W x24 x48 x00 x00 x00 x00 xbd x00)
(T (W x21 x00 x8f x00 x0b x00 x00 x00)
(L (W x00 x00 x00 x00 xc2 x00 x00 x00)) E)
(T (W x01 x00 x00 x00 x01 x00 x10 x2c)
(L (W x00 x00 x00 x00 x00 x00 x00 x00)) E)))))
(T (W x05 x05 x03 x04 x05 x02 x02 x03)
(T (W xff x01 x40 x00 x00 x00 x00 x00)
(T (W x1e x00 x00 x00 x00 x00 x1e x00)
(T (W x02 x00 x01 x00 x02 x01 x05 x05)
(T (W x00 x00 x61 x01 x00 x00 x35 x01)
(L (W x00 x40 xa0 x83 xe0 x83 x00 x0a))
(L (W x01 x00 x00 x00 x00 x00 x00 x00)))
(T (W xff x01 x40 x00 x00 x00 x00 x00)
(L (W x00 x00 x00 x00 x00 x00 x00 x00)) E))
(T (W x05 x05 x08 x08 x08 x02 x02 x08)
(T (W x20 x20 x00 x00 x00 x00 x1b x00)
(L (W x00 x00 x00 x00 x04 x80 x14 x0c)) E)
(T (W x00 x00 x00 x00 x00 x00 x00 x00)
(L (W x00 x00 x00 x00 x00 x00 x00 x00)) E)))
(T (W x00 x00 x00 x00 x00 x00 x00 x00)
(T (W x00 x81 x61 x87 x87 x08 x03 x06)
(T (W x00 x00 x00 x00 x00 x00 x00 x00)
(L (W x05 x05 x05 x05 x05 x02 x02 x05))
(L (W xaf x00 xaf x00 xa5 x00 x96 x04)))
(T (W x1e x00 x00 x00 x00 x00 x32 x00)
(L (W x00 x22 x00 x00 x00 x00 x00 x00)) E))
(T (W x00 x00 x00 x00 x78 x04 x13 x0c)
(T (W x00 x00 x00 x00 xa9 x00 x00 x00)
(L (W x00 x00 x00 x00 x00 x00 x00 x00)) E)
(T (W x02 x00 x03 x00 x02 x03 x04 x04)
(L (W x00 x00 x00 x00 x00 x00 x00 x00)) E))))
(T (W x00 x00 x00 x00 x03 x30 x10 xac)
(T (W x00 x00 x96 x00 x00 x00 xaf x00)
(T (W x00 x10 x00 x00 x00 x00 x00 x00)
(T (W x00 x00 x00 x00 x00 x00 x00 x00)
(L (W x00 x00 x00 x00 x68 x01 x00 x00))
(L (W x00 x00 x00 x00 x00 x00 x00 x00)))
(T (W x00 x00 x00 x00 x00 x11 x14 x0c)
(L (W x02 x00 x02 x00 x02 x02 x04 x04)) E))
(T (W x00 x00 x00 x00 x00 x00 x00 x00)
(T (W x00 x00 x00 x00 x00 x00 x00 x00)
(L (W x1e x00 x00 x00 x00 x00 x28 x00)) E)
(T (W x04 x00 x00 x00 xeb x02 x00 x00)
(L (W x01 x01 x01 x01 x01 x01 x01 x01)) E)))
(T (W x00 x00 x00 x00 xb0 x00 x00 x00)
(T (W x00 x00 x00 x00 x00 x00 x00 x00)
(T (W x00 x00 x00 x00 x00 x00 x00 x00)
(L (W x7f x02 x00 x08 x00 x00 x00 x00)) E)
(T (W x00 x00 x3a x01 x00 x00 x00 x00)
(L (W x00 x00 xe8 x83 xc3 x90 x01 x02)) E))
(T (W x1e x00 x00 x00 x00 x00 x28 x00)
(T (W x05 x05 x03 x03 x04 x02 x02 x03)
(L (W x00 x00 x00 x00 x00 x00 x00 x00)) E)
(T (W x00 x00 x00 x00 x00 x00 x00 x00)
(L (W x00 x00 x00 x00 x00 x00 x00 x00)) E))))))
(T (W x00 x00 x00 x00 x00 x00 x00 x00)
(T (W x00 x00 x00 x00 x00 x00 x42 x00)
(T (W x17 x80 x23 x8b x9a x29 x80 x08)
(T (W x01 x01 x01 x01 x01 x01 x01 x01)
(T (W x00 x00 x00 x00 x00 x00 x00 x00)
(T (W x03 x03 x00 x0c x00 x00 x00 x00)
(L (W x04 x00 x00 x00 x53 x03 x00 x00))
(L (W x05 x05 x05 x05 x05 x02 x02 x05)))
(T (W x00 x80 x60 xc7 x81 x01 x51 x05)
(L (W x1e x00 x00 x00 x00 x00 x37 x00)) E))
(T (W x00 x00 x00 x00 x00 x00 x00 x00)
(T (W x0c x00 x51 x00 x2f x00 x00 x00)
(L (W x00 x00 x00 x00 x35 x01 x00 x00)) E)
(T (W x00 x00 x00 x00 x11 x14 xd0 x8c)
(L (W x00 x00 x00 x00 x00 x00 x00 x00)) E)))
(T (W x40 x00 x00 x00 x7e x93 x11 x8d)
(T (W x00 x00 x00 x00 xf0 x00 x00 x00)
(T (W x1e x00 x00 x00 x00 x00 x3c x00)
(L (W x00 x00 x00 x00 x00 x00 x00 x00))
(L (W x00 x00 x00 x00 x00 x03 x50 x4c)))
(T (W x05 x05 x03 x03 x04 x02 x02 x03)
(L (W x1a x00 x1a x00 x1a x00 xd9 x03)) E))
(T (W x00 x00 x00 x00 x00 x00 x00 x00)
(T (W x03 x00 x03 x00 x03 x03 x05 x05)
(L (W x03 x03 x0c x00 x00 x00 x00 x00)) E)
(T (W x00 x00 x96 x01 x00 x00 x96 x01)
(L (W x00 x00 x00 x00 x00 x00 x00 x00)) E))))
(T (W x01 x00 x01 x00 x4d x01 x00 x00)
(T (W x2d x02 x00 x02 x00 x00 x00 x00)
(T (W x00 x00 x00 x00 x00 x00 x00 x00)
(T (W x00 x00 x00 x00 x00 x03 x10 x8c)
(L (W x00 x00 x00 x00 x00 x00 x00 x00))
(L (W x03 x03 x03 x00 x00 x00 x00 x00)))
(T (W x00 x00 x00 x00 x12 x01 x00 x00)
(L (W x00 x00 x00 x00 x00 x00 x00 x00)) E))
(T (W x00 x43 xa2 x87 x82 x01 x00 x00)
(T (W x00 x00 x00 x00 x00 x00 x00 x00)
(L (W x05 x05 x03 x03 x03 x02 x02 x03)) E)
(T (W x1e x00 x00 x00 x00 x00 x32 x00)
(L (W x00 x00 x00 x00 x00 x00 x00 x00)) E)))
(T (W x1e x00 x00 x00 x00 x00 x1e x00)
(T (W x02 x00 x02 x00 x02 x02 x04 x04)
(T (W x00 x00 x19 x01 x00 x00 x19 x01)
(L (W x40 x00 xa0 x87 x80 x85 x00 x07)) E)
(T (W x2d x01 x04 x00 x00 x00 x00 x00)
(L (W x00 x00 x00 x00 x00 x00 x00 x00)) E))
(T (W x05 x05 x04 x05 x05 x02 x02 x04)
(T (W x00 x00 x00 x00 x00 x00 x00 x00)
(L (W x80 x00 x00 x00 x02 x14 x70 x0c)) E)
(T (W x43 x00 x43 x00 xcc x00 x00 x00)
(L (W x00 x00 x00 x00 x00 x00 x00 x00)) E)))))
(T (W x1e x00 x00 x00 x00 x00 x28 x00)
(T (W x00 x00 x73 x00 x00 x00 xd9 x01)
(T (W x08 x00 x00 x00 x70 x00 x00 x00)
(T (W x00 x00 x00 x00 x00 x00 x00 x00)
(T (W x00 x00 x00 x00 x00 x00 x00 x00)
(L (W x3c x02 x00 x08 x00 x00 x73 x03))
(L (W x02 x00 x00 x00 x5e x03 x00 x00)))
(T (W x00 x00 xd8 x01 x00 x00 xd8 x01)
(L (W x00 x00 x00 x00 x00 x00 x00 x00)) E))
(T (W x1e x00 x00 x00 x00 x00 x3c x00)
(T (W x05 x05 x05 x05 x05 x02 x02 x05)
(L (W x83 x00 x6b x00 x9c x00 x00 x00)) E)
(T (W x00 x00 x00 x00 x00 x00 x00 x00)
(L (W x00 x00 x00 x00 x00 x00 x00 x00)) E)))
(T (W x00 x00 x00 x00 x00 x00 x00 x00)
(T (W x2d x01 x40 x00 x00 x00 x00 x00)
(T (W x00 x80 xf0 x83 x85 x8a x03 x00)
(L (W x1e x00 x00 x00 x00 x00 x1e x00))
(L (W x00 x00 x00 x00 x00 x00 x5a x00)))
(T (W x00 x00 x00 x00 x70 x02 x00 x00)
(L (W x01 x01 x01 x01 x01 x01 x01 x01)) E))
(T (W x15 x00 x15 x00 x72 x00 x00 x00)
(T (W x00 x00 x00 x00 xf6 x8b x12 xce)
(L (W x02 x00 x02 x00 x03 x02 x03 x03)) E)
(T (W x00 x00 x00 x00 x00 x00 x00 x00)
(L (W x00 x00 x00 x00 x00 x00 x00 x00)) E))))
(T (W x00 x00 x00 x00 x00 x00 x00 x00)
(T (W x02 x00 x02 x00 x02 x02 x04 x04)
(T (W x01 x01 x01 x01 x01 x01 x01 x01)
(T (W x00 x00 x00 x00 x00 x00 x00 x00)
(L (W x00 x00 x00 x00 x01 x00 x10 x1c))
(L (W x00 x00 x00 x00 x00 x00 x00 x00)))
(T (W x39 x00 x3a x00 x1d x00 x00 x00)
(L (W x00 x00 x00 x00 x00 x00 x00 x00)) E))
(T (W x00 x00 xfa x00 x00 x00 x39 x00)
(T (W x2d x03 x0c x00 x00 x00 x00 x00)
(L (W x00 x00 x00 x00 xc0 x03 x00 x00)) E)
(T (W x00 xc0 x62 x83 x83 x01 x01 x01)
(L (W x01 x00 x00 x00 x00 x00 x00 x00)) E)))
(T (W x00 x0f x28 xb3 x84 x02 x04 x88)
(T (W x00 x00 x00 x00 x83 x00 x12 x0c)
(T (W x00 x00 x00 x00 x25 x01 x00 x00)
(L (W x00 x00 x2c x00 x00 x00 xea x02)) E)
(T (W x02 x00 x03 x00 x03 x03 x02 x02)
(L (W x00 x00 x00 x00 x00 x00 x00 x00)) E))
(T (W x00 x00 x00 x00 x00 x00 x00 x00)
(T (W x1e x00 x00 x00 x00 x00 x28 x00)
(L (W x00 x00 x00 x00 x00 x00 x00 x00)) E)
(T (W x01 x01 x01 x01 x01 x01 x01 x01)
(L (W x00 x00 x00 x00 x00 x00 x00 x00)) E)))))))
(T (W x1e x00 x00 x00 x00 x00 x32 x00)
(T (W x00 x00 x00 x00 x00 x00 x00 x00)
(T (W x5a x02 x20 x00 x00 x00 x1e x01)
(T (W x00 x00 x00 x00 x02 x14 x78 x0c)
(T (W x00 x00 x00 x00 x00 x00 x00 x00)
(T (W x00 x00 x00 x00 x00 x00 x00 x00)
(T (W x1d x00 x1d x00 x05 x00 x00 x00)
(L (W x00 x00 x00 x00 x54 x00 x00 x00))
(L (W x00 x00 x37 x02 x00 x00 x36 x01)))
(T (W x00 x00 x00 x00 x00 x08 x10 x0c)
(L (W x00 x00 x00 x00 x00 x00 x00 x00)) E))
(T (W x00 x00 x00 x00 x00 x00 x00 x00)
(T (W x04 x9f x20 xb3 x86 xc3 x04 x00)
(L (W x1e x00 x00 x00 x00 x00 x2d x00)) E)
(T (W x00 x00 x00 x00 x00 x00 x00 x00)
(L (W x01 x01 x01 x01 x01 x01 x01 x01)) E)))
(T (W x00 x00 x00 x00 x90 x00 x00 x00)
(T (W x00 x00 x00 x00 x6e x00 x00 x00)
(T (W x02 x00 x03 x00 x02 x03 x03 x03)
(L (W x2d x03 x00 x03 x00 x00 x00 x00))
(L (W x00 x00 x00 x00 x72 x03 x00 x00)))
(T (W x00 x00 x6b x00 x00 x00 x53 x02)
(L (W x00 x1f x28 x93 x84 x42 x04 x00)) E))
(T (W x1e x00 x00 x00 x00 x00 x32 x00)
(T (W x01 x01 x01 x01 x01 x01 x01 x01)
(L (W xeb x00 xeb x00 xeb x00 xa2 x04)) E)
(T (W x08 x00 x00 x00 x67 x00 x00 x00)
(L (W x00 x00 x00 x00 x00 x00 x00 x00)) E))))
(T (W x01 x00 x00 x00 x00 x00 x00 x00)
(T (W x23 x00 x1e x00 x94 x00 x00 x00)
(T (W x80 x83 xe0 x83 x86 x0e x45 x0c)
(T (W x00 x00 x00 x00 x00 x00 x00 x00)
(L (W x05 x05 x04 x04 x04 x02 x02 x04))
(L (W xe1 x00 xe1 x00 xe1 x00 x6f x04)))
(T (W x01 x00 x00 x00 x00 x00 x00 x00)
(L (W x00 x00 x00 x00 x00 x00 x00 x00)) E))
(T (W x00 x00 x00 x00 x00 x00 x00 x00)
(T (W x00 x00 x00 x00 x00 x00 x00 x00)
(L (W x00 x00 x5c x01 x00 x00 x5c x01)) E)
(T (W x01 x00 x02 x00 x03 x02 x05 x04)
(L (W x00 x00 x00 x00 x00 x00 x00 x00)) E)))
(T (W x00 x00 x00 x00 x00 x00 x00 x00)
(T (W x05 x05 x03 x03 x04 x02 x02 x03)
(T (W x00 x00 x00 x00 x00 x00 xac x00)
(L (W x00 x00 x00 x00 x02 x00 x12 x8c))
(L (W x00 x00 x00 x00 x00 x00 x00 x00)))
(T (W x37 x00 x37 x00 x37 x00 x00 x00)
(L (W x00 x00 x00 x00 x00 x00 x00 x00)) E))
(T (W x00 x00 x00 x00 x00 x00 x00 x00)
(T (W x00 x00 x00 x00 x00 x00 x00 x00)
(L (W x00 x00 x00 x00 x1c x00 x00 x00)) E)
(T (W x04 x20 x20 x87 xc4 x04 x00 x01)
(L (W x01 x00 x00 x00 x00 x00 x00 x00)) E)))))
(T (W x02 x00 x01 x00 x02 x01 x06 x06)
(T (W x40 x00 x00 x00 x90 x00 x00 x00)
(T (W x00 x00 x00 x00 xfa x00 x00 x00)
(T (W x1e x00 x00 x00 x00 x00 x64 x00)
(T (W x01 x01 x01 x01 x01 x01 x01 x01)
(L (W x66 x00 x0c x00 xaf x00 x00 x00))
(L (W x01 x00 x00 x00 x00 x00 x00 x00)))
(T (W x00 x04 x00 x00 x00 x00 x33 x00)
(L (W x00 x00 x00 x00 x00 x00 x00 x00)) E))
(T (W x01 x00 x02 x00 x01 x02 x06 x06)
(T (W x00 x00 x81 x00 x00 x00 x00 x00)
(L (W x00 x00 x20 x13 xc0 x10 x00 x02)) E)
(T (W x00 x00 x00 x00 x00 x00 x00 x00)
(L (W x00 x00 x00 x00 x00 x00 x00 x00)) E)))
(T (W x00 x00 x00 x00 x00 x00 x00 x00)
(T (W x2e x00 x2e x00 x88 x00 x00 x00)
(T (W x00 x00 x00 x00 x04 xa0 x50 x8c)
(L (W x02 x00 x03 x00 x03 x03 x02 x02))
(L (W x64 x02 x00 x08 x00 x00 x00 x00)))
(T (W x00 x00 x00 x00 x00 x00 x00 x00)
(L (W x00 x00 x00 x00 x00 x00 x00 x00)) E))
(T (W x00 x83 x60 x8b x9a x2d x21 x0a)
(T (W x02 x00 x00 x00 x10 x02 x00 x00)
(L (W x01 x01 x01 x01 x01 x01 x01 x01)) E)
(T (W x1e x00 x00 x00 x00 x00 x32 x00)
(L (W x00 x00 x00 x00 x00 x00 x00 x00)) E))))
(T (W x00 x00 x00 x00 x00 x00 x00 x00)
(T (W x05 x05 x05 x05 x06 x02 x02 x05)
(T (W x00 x00 xd9 x00 x00 x00 xa3 x01)
(T (W x00 x00 x00 x00 x00 x00 x00 x00)
(L (W x08 x00 x00 x00 x32 x03 x00 x00))
(L (W x01 x01 x01 x01 x01 x01 x01 x01)))
(T (W x80 x4b x30 x93 x85 x04 x04 x06)
(L (W x01 x00 x00 x00 x00 x00 x00 x00)) E))
(T (W x04 x40 x00 x00 x6f x00 x00 x00)
(T (W x00 x00 x00 x00 x00 x00 x00 x00)
(L (W x00 x00 x00 x00 x58 x01 x00 x00)) E)
(T (W x40 x00 x00 x00 x18 x03 x51 x8d)
(L (W x00 x00 x00 x00 x00 x00 x00 x00)) E)))
(T (W x00 x00 x00 x00 x00 x00 x00 x00)
(T (W x00 x00 x00 x00 x10 x01 x00 x00)
(T (W x1e x00 x00 x00 x00 x00 x32 x00)
(L (W x10 x00 x00 x00 x00 x00 xa7 x00)) E)
(T (W x05 x05 x05 x05 x06 x02 x02 x05)
(L (W x00 x00 x00 x00 x00 x00 x00 x00)) E))
(T (W x00 x00 x00 x00 x00 x00 x00 x00)
(T (W x03 x00 x03 x00 x03 x03 x05 x05)
(L (W x3c x02 x80 x00 x00 x00 x00 x00)) E)
(T (W x00 x00 x0c x01 x00 x00 xb3 x01)
(L (W x00 x00 x00 x00 x00 x00 x00 x00)) E))))))
(T (W x00 x00 x00 x00 x00 x00 x00 x00)
(T (W x00 x00 x74 x00 x00 x00 x8e x01)
(T (W x00 x00 x00 x00 x00 x00 x00 x00)
(T (W x02 x00 x02 x00 x02 x02 x04 x04)
(T (W x05 x05 x04 x04 x05 x02 x02 x04)
(T (W x00 x00 x00 x00 x00 x00 x00 x00)
(L (W x00 x00 x00 x00 x00 x00 x52 x0c))
(L (W x00 x00 x00 x00 x00 x00 x00 x00)))
(T (W x01 x00 x85 x00 x6a x00 x00 x00)
(L (W x00 x00 x00 x00 x00 x00 x00 x00)) E))
(T (W x00 x00 x00 x00 x00 x00 x00 x00)
(T (W x00 x00 x00 x00 x00 x00 x00 x00)
(L (W x00 x00 x00 x00 x99 x03 x00 x00)) E)
(T (W x40 x20 xa0 xc3 xc4 x01 x00 x01)
(L (W x01 x00 x00 x00 x00 x00 x00 x00)) E)))
(T (W x3f x4b x7e x0b xcf x29 x01 xf8)
(T (W x00 x00 x00 x00 x02 x13 x10 x8c)
(T (W x00 x00 x00 x00 x00 x00 x00 x00)
(L (W x00 x00 x00 x00 x00 x00 x00 x00))
(L (W x00 x0f x2a xb3 x80 x92 x00 x88)))
(T (W x01 x00 x03 x00 x01 x03 x05 x05)
(L (W x2d x02 x40 x01 x00 x00 x00 x00)) E))
(T (W x00 x00 x00 x00 x00 x00 x00 x00)
(T (W x01 x00 x00 x00 x00 x00 x00 x00)
(L (W x08 x00 x00 x00 x00 x00 xc8 x00)) E)
(T (W x05 x05 x03 x03 x03 x02 x02 x03)
(L (W x00 x00 x00 x00 x00 x00 x00 x00)) E))))
(T (W x0c x00 x00 x00 x50 x00 x00 x00)
(T (W x02 x01 x00 x00 x00 x00 x13 x00)
(T (W xe1 x01 x04 x00 x00 x00 x00 x00)
(T (W x80 x08 x20 x93 x86 x41 x04 x00)
(L (W x1e x00 x00 x00 x00 x00 x28 x00))
(L (W x01 x00 x00 x00 x00 x00 x00 x00)))
(T (W x00 x00 x00 x00 x50 x02 x00 x00)
(L (W x01 x01 x01 x01 x01 x01 x01 x01)) E))
(T (W x00 x00 x00 x00 x00 x00 x00 x00)
(T (W x00 x00 x00 x00 x00 x00 x00 x00)
(L (W x03 x00 x02 x00 x03 x02 x03 x03)) E)
(T (W x00 x00 x00 x00 xd3 x00 x00 x00)
(L (W x00 x00 x00 x00 x00 x00 x00 x00)) E)))
(T (W x00 x00 x00 x00 xfe x00 x00 x00)
(T (W x01 x00 x00 x00 x00 x00 x00 x00)
(T (W x05 x05 x03 x03 x04 x02 x02 x03)
(L (W x44 x00 x0e x00 x8c x00 x00 x00)) E)
(T (W x40 x00 x00 x00 x00 x00 xcd x00)
(L (W x00 x00 x00 x00 x06 xac x30 x4c)) E))
(T (W x03 x00 x01 x00 x01 x03 x04 x04)
(T (W x00 x00 xda x01 x00 x00 x5c x00)
(L (W x04 x80 xa1 x83 x86 x00 x00 x07)) E)
(T (W x00 x00 x00 x00 x00 x00 x00 x00)
(L (W x00 x00 x00 x00 x00 x00 x00 x00)) E)))))
(T (W x00 x00 x00 x00 x39 x00 x00 x00)
(T (W x05 x05 x02 x02 x04 x02 x02 x02)
(T (W x00 x00 x00 x00 xfe xa7 x30 x8d)
(T (W x0a x00 x00 x00 xd0 x00 x00 x00)
(T (W x01 x00 x00 x00 x00 x00 x00 x00)
(L (W x40 x00 x00 x00 x5a x00 x00 x00))
(L (W xc1 x00 x00 x00 x35 x01 x38 x0d)))
(T (W x01 x01 x01 x01 x01 x01 x01 x01)
(L (W x00 x00 x00 x00 x00 x00 x00 x00)) E))
(T (W x00 x00 x00 x00 x00 x00 x00 x00)
(T (W x03 x00 x00 x00 x00 x00 x00 x00)
(L (W x78 x02 x00 x02 x00 x00 x00 x00)) E)
(T (W x00 x00 x00 x00 x00 x00 x00 x00)
(L (W x00 x00 x00 x00 x00 x00 x00 x00)) E)))
(T (W x00 x00 x00 x00 x00 x00 x00 x00)
(T (W x10 x40 x00 x00 x00 x00 x00 x00)
(T (W x00 x00 x00 x00 x00 x00 x00 x00)
(L (W x00 x00 x00 x00 x04 x00 x00 x00))
(L (W x00 x00 x00 x00 x00 x00 x00 x00)))
(T (W x00 x00 x00 x00 x00 x10 x10 x0c)
(L (W x00 x00 x00 x00 x00 x00 x00 x00)) E))
(T (W x2d x02 x08 x00 x00 x00 x00 x00)
(T (W x3b x83 x60 x87 x86 x0e x41 x8a)
(L (W x1e x00 x00 x00 x00 x00 x3c x00)) E)
(T (W x00 x00 x00 x00 x00 x00 x00 x00)
(L (W x01 x01 x01 x01 x01 x01 x01 x01)) E))))
(T (W xbe x01 x00 x01 x00 x00 x00 x00)
(T (W x1e x00 x00 x00 x00 x00 x3c x00)
(T (W x00 x00 x00 x00 x00 x00 x00 x00)
(T (W x00 x00 x00 x00 x00 x00 x00 x00)
(L (W x00 x00 x00 x00 x00 x00 x00 x00))
(L (W x01 x00 x00 x00 x00 x00 x00 x00)))
(T (W x00 x00 x00 x00 x00 x00 x00 x00)
(L (W x00 x00 x00 x00 x00 x00 x00 x00)) E))
(T (W x05 x05 x04 x05 x05 x02 x02 x04)
(T (W x02 x88 x00 x00 x00 x00 x00 x00)
(L (W x00 x00 x00 x00 x7a x00 x11 x0c)) E)
(T (W xad x00 xad x00 x45 x00 x00 x00)
(L (W x00 x00 x00 x00 x00 x00 x00 x00)) E)))
(T (W x05 x00 x45 x00 x9b x00 x00 x00)
(T (W x40 x00 xa0 xcb x8a x01 x80 x01)
(T (W x08 x00 x00 x00 xd0 x01 x00 x00)
(L (W x05 x05 x03 x04 x04 x02 x02 x03)) E)
(T (W x01 x00 x00 x00 x00 x00 x00 x00)
(L (W x00 x80 x00 x00 x00 x00 x00 x00)) E))
(T (W x40 x00 x00 x00 x0e xa0 x10 x0d)
(T (W x00 x00 x00 x00 x56 x00 x00 x00)
(L (W x00 x00 x00 x00 x00 x00 x00 x00)) E)
(T (W x02 x00 x03 x00 x03 x03 x03 x03)
(L (W x78 x01 x10 x00 x00 x00 x00 x00)) E)))))))))
(T (W x1e x00 x00 x00 x00 x00 x32 x00)
(T (W x2d x01 x40 x00 x00 x00 x00 x00)
(T (W x00 x43 x00 x00 x00 x00 x00 x00)
(T (W x05 x05 x03 x03 x04 x02 x02 x03)
(T (W x00 x00 x00 x00 x00 x00 x00 x00)
(T (W x00 x00 x00 x00 x00 x00 x00 x00)
(T (W x3b x03 xb0 x9f xc6 x18 x00 x8a)
(T (W x00 x00 x00 x00 x00 x00 x00 x00)
(T (W x00 x00 x00 x00 x00 x00 x00 x00)
(L (W x00 x00 x9d x00 x00 x00 xbc x01))
(L (W x00 x08 xea x97 xc4 x10 x04 x00)))
(T (W x01 x00 x02 x00 x03 x02 x05 x04)
(L (W x4b x02 x20 x00 x00 x00 x02 x01)) E))
(T (W x00 x00 x00 x00 x18 x01 x00 x00)
(T (W x1e x00 x00 x00 x00 x00 x37 x00)
(L (W x00 x11 x00 x00 x00 x00 xb1 x00)) E)
(T (W x01 x01 x01 x01 x01 x01 x01 x01)
(L (W xa3 x00 xa3 x00 xa3 x00 x01 x04)) E)))
(T (W x05 x05 x04 x04 x05 x02 x02 x04)
(T (W x00 x00 xb0 x00 x00 x00 xb3 x01)
(T (W xbe x01 x00 x01 x00 x00 xef x00)
(L (W x00 x00 x00 x00 x6a x03 x00 x00))
(L (W x01 x01 x01 x01 x01 x01 x01 x01)))
(T (W x00 x43 xef xc3 x82 x10 x01 x30)
(L (W x01 x00 x00 x00 x00 x00 x00 x00)) E))
(T (W x00 x00 x00 x00 x00 x00 x00 x00)
(T (W x00 x00 x00 x00 x00 x00 x00 x00)
(L (W x00 x00 x00 x00 x8b x01 x00 x00)) E)
(T (W x00 x00 x00 x00 x62 x0f x10 xcd)
(L (W x00 x00 x00 x00 x00 x00 x00 x00)) E))))
(T (W x00 x00 x00 x00 x00 x00 x00 x00)
(T (W x00 x00 x00 x00 x00 x00 x00 x00)
(T (W x01 x00 x00 x00 x00 x00 x00 x00)
(T (W x01 x01 x01 x01 x01 x01 x01 x01)
(L (W xc3 x00 xc3 x00 x08 x00 x00 x00))
(L (W x00 x00 x00 x00 x7e x01 x00 x00)))
(T (W x00 x00 x00 x00 x00 x00 x16 x00)
(L (W x00 x00 x00 x00 x00 x00 x00 x00)) E))
(T (W x01 x00 x03 x00 x03 x03 x04 x04)
(T (W x00 x00 x00 x00 x00 x00 x00 x00)
(L (W xbb xc3 xa1 x8f x96 x8f x20 x0e)) E)
(T (W x00 x00 x00 x00 x00 x00 x00 x00)
(L (W x00 x00 x00 x00 x00 x00 x00 x00)) E)))
(T (W x5a x02 x02 x00 x00 x00 x00 x00)
(T (W x42 x00 x42 x00 x03 x00 x00 x00)
(T (W x40 x00 x00 x00 x06 x84 x10 x8d)
(L (W x02 x00 x03 x00 x03 x03 x03 x03))
(L (W x03 x03 x0c x00 x00 x00 x00 x00)))
(T (W x00 x00 x00 x00 x1b x01 x00 x00)
(L (W x00 x00 x00 x00 x00 x00 x00 x00)) E))
(T (W x00 x03 x2a x8b x9a x73 xa0 x00)
(T (W x00 x00 x00 x00 x18 x02 x00 x00)
(L (W x01 x01 x01 x01 x01 x01 x01 x01)) E)
(T (W x1e x00 x00 x00 x00 x00 x32 x00)
(L (W x00 x00 x00 x00 x00 x00 x00 x00)) E)))))
(T (W x19 x03 x03 x00 x00 x00 x51 x00)
(T (W x00 x00 x00 x00 x06 x90 x30 x8d)
(T (W x00 x00 x74 x00 x00 x00 x9b x00)
(T (W x00 x00 x00 x00 x00 x00 x00 x00)
(T (W x20 x00 x20 x00 x20 x00 x00 x00)
(L (W x00 x00 x00 x00 xf4 x00 x00 x00))
(L (W x00 x00 x00 x00 x00 x00 x00 x00)))
(T (W x00 x00 x00 x00 x85 x10 x50 x4c)
(L (W x00 x00 x00 x00 x00 x00 x00 x00)) E))
(T (W x2d x02 x02 x00 x00 x00 x00 x00)
(T (W x10 x43 x2e xab xca xd0 x08 x0a)
(L (W x1e x00 x00 x00 x00 x00 x32 x00)) E)
(T (W x00 x00 x00 x00 x00 x00 x00 x00)
(L (W x01 x01 x01 x01 x01 x01 x01 x01)) E)))
(T (W x00 x00 x00 x00 x00 x00 x00 x00)
(T (W x00 x00 x00 x00 x00 x00 x00 x00)
(T (W x00 x00 x00 x00 x00 x00 x00 x00)
(L (W x2d x03 x00 x03 x00 x00 x00 x00))
(L (W x00 x00 x00 x00 x9d x03 x00 x00)))
(T (W x00 x00 x95 x01 x00 x00 x0a x02)
(L (W x40 x43 x28 x4f xc6 x01 x00 x02)) E))
(T (W x1e x00 x00 x00 x00 x00 x32 x00)
(T (W x05 x05 x03 x04 x04 x02 x02 x03)
(L (W x09 x01 x09 x01 x09 x01 x00 x00)) E)
(T (W x10 x28 x00 x00 x00 x00 x00 x00)
(L (W x00 x00 x00 x00 x00 x00 x00 x00)) E))))
(T (W x1e x00 x00 x00 x00 x00 x32 x00)
(T (W x21 x00 x21 x00 x9b x00 x00 x00)
(T (W x00 x80 x7f x8b x9f x00 xc9 x00)
(T (W x00 x00 x00 x00 x00 x00 x00 x00)
(L (W x05 x05 x04 x04 x05 x02 x02 x04))
(L (W x00 x00 x00 x00 x00 x00 x00 x00)))
(T (W x01 x00 x00 x00 x00 x00 x00 x00)
(L (W x00 x10 x00 x00 x00 x00 x00 x00)) E))
(T (W x00 x00 x00 x00 x03 x00 xd0 x0c)
(T (W x00 x00 x00 x00 x00 x00 x00 x00)
(L (W x00 x00 xc4 x00 x00 x00 xc4 x00)) E)
(T (W x02 x00 x03 x00 x02 x03 x03 x03)
(L (W x00 x00 x00 x00 x00 x00 x00 x00)) E)))
(T (W x02 x00 x02 x00 x02 x02 x03 x03)
(T (W x01 x01 x01 x01 x01 x01 x01 x01)
(T (W xc0 x80 x00 x00 x53 x00 x00 x00)
(L (W x00 x00 x00 x00 x00 x10 x10 x2c)) E)
(T (W x9e x00 x9e x00 x80 x00 xfe x03)
(L (W x01 x00 x01 x00 x70 x01 x01 x00)) E))
(T (W x00 x00 x0c x02 x00 x00 x0c x02)
(T (W xbe x01 x00 x01 x00 x00 x21 x02)
(L (W x00 x00 x00 x00 x00 x00 x00 x00)) E)
(T (W x00 x00 x00 x00 x00 x00 x00 x00)
(L (W x01 x00 x00 x00 x00 x00 x00 x00)) E))))))
(T (W x01 x00 x00 x00 x00 x00 x00 x00)
(T (W x00 x80 xa0 xa3 xa6 x02 x00 x00)
(T (W x02 x00 x01 x00 xb8 x00 x00 x00)
(T (W x00 x00 x00 x00 x00 x00 x00 x00)
(T (W x00 x00 x00 x00 x00 x00 x00 x00)
(T (W x80 x00 x00 x00 x02 x07 x12 x0c)
(L (W x02 x00 x03 x00 x03 x03 x04 x04))
(L (W x03 x03 x03 x00 x00 x00 x00 x00)))
(T (W x00 x00 x00 x00 x00 x00 x00 x00)
(L (W x00 x00 x00 x00 x00 x00 x00 x00)) E))
(T (W x00 x00 x00 x00 x00 x00 x00 x00)
(T (W x00 x00 x00 x00 x00 x00 x00 x00)
(L (W x05 x05 x03 x03 x03 x02 x02 x03)) E)
(T (W x01 x00 x00 x00 x00 x00 x00 x00)
(L (W x00 x00 x00 x00 x00 x00 x00 x00)) E)))
(T (W x0a x00 x00 x00 x00 x00 x28 x00)
(T (W x02 x00 x01 x00 x02 x01 x04 x04)
(T (W x00 x00 x6e x01 x00 x00 x5f x00)
(L (W x00 x12 x21 x13 x00 x08 x00 x00))
(L (W x1e x00 x00 x00 x00 x00 x32 x00)))
(T (W x2d x03 x0c x00 x00 x00 x00 x00)
(L (W x00 x00 x00 x00 xa7 x01 x00 x00)) E))
(T (W x01 x01 x01 x01 x01 x01 x01 x01)
(T (W x00 x04 x02 x00 x00 x00 x00 x00)
(L (W x00 x00 x00 x00 x82 x20 x30 x0c)) E)
(T (W x9d x00 x5d x00 xb7 x00 x00 x00)
(L (W x00 x00 x00 x00 x00 x00 x00 x00)) E))))
(T (W x01 x01 x01 x01 x01 x01 x01 x01)
(T (W x00 x00 x00 x00 x01 x30 x30 x2c)
(T (W x00 x00 x00 x00 x00 x00 x00 x00)
(T (W x01 x00 x00 x00 x00 x00 x00 x00)
(L (W x00 x00 x00 x00 x00 x00 x00 x00))
(L (W xc1 x00 x00 x00 x35 x01 x38 x0d)))
(T (W x05 x05 x03 x03 x03 x02 x02 x03)
(L (W x00 x00 x00 x00 x00 x00 x00 x00)) E))
(T (W x00 x00 x00 x00 x42 x00 x00 x00)
(T (W x00 x00 x00 x00 x00 x00 x00 x00)
(L (W xc8 x01 x00 x04 x00 x00 x00 x00)) E)
(T (W x00 x00 x90 x01 x00 x00 x90 x01)
(L (W x00 x00 x00 x00 x00 x00 x00 x00)) E)))
(T (W x00 x00 x3a x01 x00 x00 x93 x01)
(T (W x00 x00 x00 x00 x00 x00 x00 x00)
(T (W x2d x00 x2d x00 x9f x00 x00 x00)
(L (W x00 x00 x00 x00 x15 x00 x00 x00)) E)
(T (W x40 x00 x00 x00 x1e xa4 x18 x8d)
(L (W x00 x00 x00 x00 x00 x00 x00 x00)) E))
(T (W x5a x02 x10 x04 x00 x00 xf7 x00)
(T (W x00 x00 x00 x00 x00 x00 x00 x00)
(L (W x1e x00 x00 x00 x00 x00 x32 x00)) E)
(T (W x00 x00 x00 x00 x4f x03 x00 x00)
(L (W x01 x01 x01 x01 x01 x01 x01 x01)) E)))))
(T (W x00 x00 x30 x00 x00 x00 x3a x01)
(T (W x1c x00 x27 x00 x62 x00 x00 x00)
(T (W x02 x00 x02 x00 x02 x02 x04 x04)
(T (W x01 x01 x01 x01 x01 x01 x01 x01)
(T (W x00 x00 x00 x00 x00 x00 x00 x00)
(L (W x00 x00 x00 x00 x80 x00 x10 x0c))
(L (W x02 x00 x02 x00 x03 x02 x03 x03)))
(T (W x8e x00 x62 x00 x90 x00 x00 x00)
(L (W x00 x00 x00 x00 x00 x00 x00 x00)) E))
(T (W x00 x00 x00 x00 x00 x00 x00 x00)
(T (W x03 x03 x00 x03 x00 x00 x00 x00)
(L (W x00 x00 x00 x00 xc9 x03 x00 x00)) E)
(T (W x00 x00 x00 x00 x00 x00 x00 x00)
(L (W x01 x00 x00 x00 x00 x00 x00 x00)) E)))
(T (W x00 x00 x00 x00 x00 x00 x00 x00)
(T (W x00 x00 x00 x00 x01 x48 x10 x2c)
(T (W x00 x00 x00 x00 x77 x00 x00 x00)
(L (W x00 x00 xe6 x02 x00 x00 xe6 x02))
(L (W x10 x00 x24 x8b x98 x60 x88 x00)))
(T (W x02 x00 x03 x00 x02 x03 x03 x03)
(L (W x00 x00 x00 x00 x00 x00 x00 x00)) E))
(T (W x08 x00 x00 x00 x58 x01 x00 x00)
(T (W x1e x00 x00 x00 x00 x00 x32 x00)
(L (W x08 x00 x00 x00 x55 x00 x00 x00)) E)
(T (W x05 x05 x05 x05 x05 x02 x02 x05)
(L (W x00 x00 x00 x00 x00 x00 x00 x00)) E))))
(T (W x00 x00 x00 x00 x00 x00 x00 x00)
(T (W x04 x00 x00 x00 x00 x00 x4b x00)
(T (W x00 x00 x00 x00 x00 x00 x00 x00)
(T (W x00 x00 x00 x00 x00 x00 x00 x00)
(L (W x0a x00 x00 x00 x00 x00 x28 x00))
(L (W x00 x00 x00 x00 x00 x00 x00 x00)))
(T (W x00 x00 x00 x00 x58 x02 x00 x00)
(L (W x01 x01 x01 x01 x01 x01 x01 x01)) E))
(T (W x29 x00 x0c x00 x2e x00 x00 x00)
(T (W x00 x00 x00 x00 x10 x01 x30 x0c)
(L (W x03 x00 x03 x00 x03 x03 x04 x04)) E)
(T (W x00 x00 x00 x00 x00 x00 x00 x00)
(L (W x00 x00 x00 x00 x00 x00 x00 x00)) E)))
(T (W x00 x00 x00 x00 x00 x00 x00 x00)
(T (W x1e x00 x00 x00 x00 x00 x28 x00)
(T (W x05 x05 x03 x04 x05 x02 x02 x03)
(L (W xad x00 x4b x00 x21 x00 x00 x00)) E)
(T (W x00 x42 x00 x00 x00 x00 x00 x00)
(L (W x00 x00 x00 x00 x00 x00 x00 x00)) E))
(T (W x00 x00 x00 x00 x00 x00 x00 x00)
(T (W x00 x00 xa9 x02 x00 x00 x59 x00)
(L (W x00 x00 x00 x00 x00 x00 x00 x00)) E)
(T (W x00 x00 x00 x00 x00 x00 x00 x00)
(L (W x00 x00 x00 x00 x00 x00 x00 x00)) E)))))))
(T (W x00 x00 xf8 x01 x00 x00 xf8 x01)
(T (W x00 x00 x00 x00 x00 x00 x00 x00)
(T (W x00 x00 x00 x00 x03 x14 x16 x8c)
(T (W x1e x00 x00 x00 x00 x00 x28 x00)
(T (W x00 x00 x00 x00 x00 x00 x00 x00)
(T (W x00 x00 x00 x00 x00 x00 x00 x00)
(T (W x08 x00 x00 x00 x78 x01 x00 x00)
(L (W x05 x05 x03 x04 x04 x02 x02 x03))
(L (W x35 x00 x77 x00 x0f x00 x5f x04)))
(T (W x1e x00 x00 x00 x00 x00 x2d x00)
(L (W x20 x04 x00 x00 x00 x00 x0b x00)) E))
(T (W x00 x00 x00 x00 x00 x00 x00 x00)
(T (W x00 x00 x00 x00 x00 x00 x00 x00)
(L (W x00 x00 x14 x03 x00 x00 x14 x03)) E)
(T (W x00 x00 x00 x00 x00 x00 x00 x00)
(L (W x00 x00 x00 x00 x00 x00 x00 x00)) E)))
(T (W x02 x00 x02 x00 x02 x02 x05 x05)
(T (W x05 x05 x02 x03 x04 x02 x02 x02)
(T (W x00 x08 x00 x00 x00 x00 x00 x00)
(L (W x00 x00 x00 x00 xe0 x10 x10 x0d))
(L (W x02 x00 x03 x00 x03 x03 x02 x02)))
(T (W x12 x00 x31 x00 x97 x00 x00 x00)
(L (W x00 x00 x00 x00 x00 x00 x00 x00)) E))
(T (W x00 x00 xe1 x00 x00 x00 x4a x02)
(T (W x00 x00 x00 x00 x00 x00 x00 x00)
(L (W x02 x00 x00 x00 xaa x03 x00 x00)) E)
(T (W x20 xc2 xa0 xa3 x86 x02 x00 x09)
(L (W x01 x00 x00 x00 x00 x00 x00 x00)) E))))
(T (W x00 x00 x60 x01 x00 x00 xe2 x01)
(T (W x00 x00 x00 x00 x78 x00 x00 x00)
(T (W x00 x00 x00 x00 xe3 x00 x00 x00)
(T (W x00 x00 x00 x00 x00 x00 x00 x00)
(L (W x03 x01 x02 x00 x00 x00 x00 x00))
(L (W x02 x00 x00 x00 x5e x03 x00 x00)))
(T (W x00 x00 x00 x00 x00 x00 x00 x00)
(L (W x00 x00 x00 x00 x00 x00 x00 x00)) E))
(T (W x1e x00 x00 x00 x00 x00 x3c x00)
(T (W x01 x01 x01 x01 x01 x01 x01 x01)
(L (W x50 x00 x50 x00 x71 x00 x00 x00)) E)
(T (W x00 x04 x00 x00 x00 x00 x00 x00)
(L (W x00 x00 x00 x00 x00 x00 x00 x00)) E)))
(T (W x00 x00 x00 x00 x00 x00 x00 x00)
(T (W x2d x03 x0c x00 x00 x00 x00 x00)
(T (W x3f x08 x71 xab x97 x08 x01 x08)
(L (W x1e x00 x00 x00 x00 x00 x32 x00))
(L (W x00 x84 x00 x00 x00 x00 xd2 x00)))
(T (W x00 x00 x00 x00 x78 x02 x00 x00)
(L (W x01 x01 x01 x01 x01 x01 x01 x01)) E))
(T (W x00 x00 x00 x00 x00 x00 x00 x00)
(T (W x00 x00 x00 x00 x80 x24 x30 x0c)
(L (W x01 x00 x01 x00 x01 x01 x05 x05)) E)
(T (W x00 x00 x00 x00 x00 x00 x00 x00)
(L (W x00 x00 x00 x00 x00 x00 x00 x00)) E)))))
(T (W x02 x01 x00 x00 x00 x00 x00 x00)
(T (W x13 x83 xe0 x8b x9a x2a x21 x8a)
(T (W x05 x05 x05 x05 x06 x02 x02 x05)
(T (W x00 x00 x00 x00 x00 x00 x00 x00)
(T (W x00 x00 x00 x00 x00 x00 x00 x00)
(L (W x08 x00 x00 x00 x55 x03 x00 x00))
(L (W x05 x05 x03 x03 x04 x02 x02 x03)))
(T (W x00 x40 xee xa3 x82 x82 x01 x2a)
(L (W x01 x00 x00 x00 x00 x00 x00 x00)) E))
(T (W x00 x00 x00 x00 x95 x00 x00 x00)
(T (W x1a x00 x1a x00 x1a x00 x00 x00)
(L (W x00 x00 x00 x00 x60 x01 x00 x00)) E)
(T (W x00 x00 x00 x00 x00 x00 x00 x00)
(L (W x00 x00 x00 x00 x00 x00 x00 x00)) E)))
(T (W x00 x00 x00 x00 x00 x00 x00 x00)
(T (W x08 x00 x00 x00 xf8 x00 x00 x00)
(T (W x1e x00 x00 x00 x00 x00 x28 x00)
(L (W x00 x04 x00 x00 x00 x00 x00 x00))
(L (W x00 x00 x00 x00 x00 x48 x18 x4e)))
(T (W x05 x05 x03 x03 x04 x02 x02 x03)
(L (W x00 x00 x00 x00 x00 x00 x00 x00)) E))
(T (W x00 x00 x00 x00 x66 x00 x00 x00)
(T (W x02 x00 x02 x00 x02 x02 x05 x05)
(L (W x00 x00 x00 x00 x00 x00 x00 x00)) E)
(T (W x00 x00 x22 x00 x00 x00 xa7 x01)
(L (W x00 x00 x00 x00 x00 x00 x00 x00)) E))))
(T (W x00 x00 x00 x00 x00 x00 x00 x00)
(T (W x23 x02 x01 x00 x12 x01 x01 x01)
(T (W x48 x00 x37 x00 x0f x00 x00 x00)
(T (W x00 x00 x00 x00 x00 x00 x00 x00)
(L (W x02 x00 x03 x00 x03 x03 x03 x03))
(L (W x00 x00 x00 x00 x00 x00 x00 x00)))
(T (W x00 x00 x00 x00 xbd x00 x00 x00)
(L (W x00 x00 x00 x00 x00 x00 x00 x00)) E))
(T (W x00 x00 xa1 x8f x9a x21 x90 x06)
(T (W x00 x00 x00 x00 x00 x00 x00 x00)
(L (W x05 x05 x03 x03 x05 x02 x02 x03)) E)
(T (W x1e x00 x00 x00 x00 x00 x37 x00)
(L (W x00 x00 x00 x00 x00 x00 x00 x00)) E)))
(T (W x1e x00 x00 x00 x00 x00 x32 x00)
(T (W x02 x00 x02 x00 x02 x02 x04 x04)
(T (W x00 x00 x00 x00 x00 x00 x00 x00)
(L (W x00 x0f x22 xb3 x84 x42 x04 x00)) E)
(T (W x03 x03 x0c x00 x00 x00 x00 x00)
(L (W x00 x00 x00 x00 x00 x00 x00 x00)) E))
(T (W x05 x05 x05 x05 x06 x02 x02 x05)
(T (W x04 x40 x00 x00 x00 x00 x40 x00)
(L (W x00 x00 x00 x00 x82 x18 x10 x8c)) E)
(T (W xd9 x00 xd9 x00 xd9 x00 x00 x00)
(L (W x00 x00 x00 x00 x00 x00 x00 x00)) E))))))
(T (W x00 x00 x00 x00 x00 x00 x00 x00)
(T (W x26 x00 x4f x00 x37 x00 x00 x00)
(T (W x00 x00 x00 x00 x00 x00 x00 x00)
(T (W x10 x00 x00 x00 xcd x00 x00 x00)
(T (W x2d x02 x00 x02 x00 x00 x00 x00)
(T (W x00 x43 x68 x0f x9a x28 x81 x00)
(L (W x1e x00 x00 x00 x00 x00 x37 x00))
(L (W x00 x49 x00 x00 x00 x00 x00 x00)))
(T (W x00 x00 x00 x00 x38 x02 x00 x00)
(L (W x01 x01 x01 x01 x01 x01 x01 x01)) E))
(T (W x00 x00 x00 x00 x00 x00 x00 x00)
(T (W x00 x00 x00 x00 x83 x0d x30 x4e)
(L (W x02 x00 x03 x00 x03 x03 x03 x03)) E)
(T (W x00 x00 x00 x00 x00 x00 x00 x00)
(L (W x00 x00 x00 x00 x00 x00 x00 x00)) E)))
(T (W x00 x00 x00 x00 x00 x00 x00 x00)
(T (W x1e x00 x00 x00 x00 x00 x3c x00)
(T (W x05 x05 x02 x03 x03 x02 x02 x02)
(L (W xdc x00 xdc x00 xdc x00 x90 x04))
(L (W x00 x00 x00 x00 x50 x01 x00 x00)))
(T (W x00 x00 x00 x00 x00 x00 x7a x00)
(L (W x00 x00 x00 x00 x00 x03 x10 x0c)) E))
(T (W x00 x00 x00 x00 x00 x00 x00 x00)
(T (W x00 x00 x6e x01 x00 x00 x93 x01)
(L (W x00 x43 x37 x03 x82 x01 x10 x04)) E)
(T (W x78 x01 x04 x00 x00 x00 x00 x00)
(L (W x00 x00 x00 x00 x00 x00 x00 x00)) E))))
(T (W x02 x00 x01 x00 x02 x01 x06 x06)
(T (W x2b x23 xa1 x87 xc4 x0a x00 x18)
(T (W x00 x00 x00 x00 x00 x00 x00 x00)
(T (W x00 x00 x00 x00 x00 x00 x00 x00)
(L (W x00 x00 xcc x02 x00 x00 xcc x02))
(L (W x00 x43 x70 x4f x8f x11 x00 x03)))
(T (W x02 x00 x01 x00 x01 x02 x06 x06)
(L (W x00 x00 x00 x00 x00 x00 x00 x00)) E))
(T (W x00 x00 x00 x00 x00 x00 x00 x00)
(T (W x01 x00 x00 x00 x00 x00 x00 x00)
(L (W x40 x00 x00 x00 x00 x00 x00 x00)) E)
(T (W x05 x05 x04 x05 x05 x02 x02 x04)
(L (W x00 x00 x00 x00 x00 x00 x00 x00)) E)))
(T (W x05 x05 x02 x02 x03 x02 x02 x02)
(T (W x00 x00 x00 x00 x00 x00 x00 x00)
(T (W x2d x02 x20 x00 x00 x00 xf5 x00)
(L (W x00 x00 x00 x00 xa2 x03 x00 x00)) E)
(T (W x00 x43 x2c x07 x81 x0f x10 x00)
(L (W x1e x00 x00 x00 x00 x00 x28 x00)) E))
(T (W x00 x00 x00 x00 x00 x00 x00 x00)
(T (W x26 x00 x44 x00 x03 x00 x00 x00)
(L (W x02 x00 x01 x00 xb6 x00 x01 x00)) E)
(T (W x00 x00 x00 x00 x00 x00 x00 x00)
(L (W x00 x00 x00 x00 x00 x00 x00 x00)) E)))))
(T (W x05 x05 x03 x03 x04 x02 x02 x03)
(T (W x2d x03 x0c x00 x00 x00 xe6 x00)
(T (W x1e x00 x00 x00 x00 x00 x3c x00)
(T (W x00 x00 x00 x00 x00 x00 x00 x00)
(T (W x00 x00 x00 x00 x00 x00 x00 x00)
(L (W x03 x03 xe0 x87 xa6 x0c x01 x8f))
(L (W x1e x00 x00 x00 x00 x00 x28 x00)))
(T (W x00 x00 x00 x00 x00 x00 x00 x00)
(L (W x00 x00 x00 x00 x00 x00 x00 x00)) E))
(T (W x01 x01 x01 x01 x01 x01 x01 x01)
(T (W x01 x00 x00 x00 x00 x00 x00 x00)
(L (W x00 x00 x00 x00 x80 x40 x14 x0c)) E)
(T (W x00 x00 x00 x00 x00 x00 x00 x00)
(L (W x00 x00 x00 x00 x00 x00 x00 x00)) E)))
(T (W x00 x00 x00 x00 x00 x00 x00 x00)
(T (W x23 x9f x69 x93 x84 x09 x05 x8c)
(T (W x00 x00 x00 x00 xb8 x01 x00 x00)
(L (W x05 x05 x04 x05 x05 x02 x02 x04))
(L (W xea x00 xea x00 xea x00 xa1 x04)))
(T (W x1e x00 x00 x00 x00 x00 x37 x00)
(L (W x00 x00 x00 x00 x00 x00 x00 x00)) E))
(T (W x00 x00 x00 x00 x03 x00 x10 x0c)
(T (W x00 x00 x00 x00 xac x00 x00 x00)
(L (W x00 x00 x56 x00 x00 x00 x58 x01)) E)
(T (W x00 x00 x00 x00 x00 x00 x00 x00)
(L (W x00 x00 x00 x00 x00 x00 x00 x00)) E))))
(T (W x00 x00 x00 x00 x78 x00 x98 x0c)
(T (W x00 x00 xa0 x00 x00 x00 x54 x00)
(T (W x04 x40 x00 x00 xc8 x00 x00 x00)
(T (W x00 x00 x00 x00 x00 x00 x00 x00)
(L (W x00 x00 x00 x00 x00 x00 x00 x00))
(L (W x00 x00 x00 x00 x00 x00 x00 x00)))
(T (W x00 x00 x00 x00 x00 x00 x00 x00)
(L (W x00 x00 x00 x00 x00 x00 x00 x00)) E))
(T (W x5a x02 x20 x00 x00 x00 xf9 x00)
(T (W x04 x43 xa1 xa3 x86 x81 x00 x07)
(L (W x1e x00 x00 x00 x00 x00 x2d x00)) E)
(T (W x02 x00 x00 x00 xe1 x02 x00 x00)
(L (W x01 x01 x01 x01 x01 x01 x01 x01)) E)))
(T (W x04 x00 x00 x00 xb8 x00 x00 x00)
(T (W x00 x00 x00 x00 x00 x00 x00 x00)
(T (W x02 x00 x03 x00 x02 x03 x06 x06)
(L (W x2d x02 x80 x00 x00 x00 x00 x00)) E)
(T (W x00 x00 x00 x00 x00 x00 x00 x00)
(L (W x40 x03 xa0 x8f x82 x4c x00 x0f)) E))
(T (W x01 x00 x00 x00 x00 x00 x00 x00)
(T (W x05 x05 x04 x05 x05 x02 x02 x04)
(L (W x00 x00 x00 x00 x00 x00 x00 x00)) E)
(T (W x00 x02 x00 x00 x00 x00 x00 x00)
(L (W x80 x00 x00 x00 x01 x00 x30 x0c)) E))))))))
(T (W x00 x00 x00 x00 x7b x01 x00 x00)
(T (W x00 x00 x00 x00 x08 x00 x00 x00)
(T (W x00 x00 x00 x00 x00 x00 x00 x00)
(T (W x00 x00 x56 x00 x00 x00 x58 x01)
(T (W x00 x00 x00 x00 x00 x00 x00 x00)
(T (W x03 x00 x02 x00 x03 x02 x03 x03)
(T (W x01 x01 x01 x01 x01 x01 x01 x01)
(T (W x00 x00 x00 x00 x00 x00 x81 x00)
(L (W x00 x00 x00 x00 x78 x00 x50 x0c))
(L (W x02 x00 x03 x00 x02 x03 x04 x04)))
(T (W x93 x00 x62 x00 x6e x00 x00 x00)
(L (W x00 x00 x00 x00 xfb x00 x00 x00)) E))
(T (W x00 x00 x68 x00 x00 x00 x5e x00)
(T (W x1e x03 x00 x06 x00 x00 x00 x00)
(L (W x00 x00 x00 x00 xc6 x03 x00 x00)) E)
(T (W x00 x00 x00 x00 x00 x00 x00 x00)
(L (W x1e x00 x00 x00 x00 x00 x28 x00)) E)))
(T (W x40 x03 xe0 xc7 x87 x01 x41 x06)
(T (W x00 x00 x00 x00 x00 x00 x00 x00)
(T (W x00 x00 x00 x00 x81 x00 x00 x00)
(L (W x00 x00 x98 x01 x00 x00 x00 x00))
(L (W x00 x4b xe6 x07 x80 x18 x41 x08)))
(T (W x03 x00 x03 x00 x03 x03 x05 x04)
(L (W x00 x00 x00 x00 x00 x00 x00 x00)) E))
(T (W x00 x00 x00 x00 x48 x01 x00 x00)
(T (W x01 x00 x00 x00 x00 x00 x00 x00)
(L (W x00 x00 x00 x00 x00 x00 x6f x00)) E)
(T (W x05 x05 x04 x05 x05 x02 x02 x04)
(L (W x00 x00 x00 x00 x00 x00 x00 x00)) E))))
(T (W x00 x00 x00 x00 x48 x00 x00 x00)
(T (W x04 x40 x00 x00 x5e x00 x00 x00)
(T (W x19 x02 x08 x00 x00 x00 x00 x00)
(T (W x00 x00 x00 x00 x00 x00 x00 x00)
(L (W x1e x00 x00 x00 x00 x00 x3c x00))
(L (W x01 x00 x00 x00 x00 x00 x00 x00)))
(T (W x00 x00 x00 x00 x48 x02 x00 x00)
(L (W x01 x01 x01 x01 x01 x01 x01 x01)) E))
(T (W x05 x00 x45 x00 x86 x00 x00 x00)
(T (W x00 x00 x00 x00 x00 x00 x00 x00)
(L (W x02 x00 x03 x00 x03 x03 x03 x03)) E)
(T (W x00 x00 x00 x00 xd0 x00 x00 x00)
(L (W x00 x00 x00 x00 x00 x00 x00 x00)) E)))
(T (W x00 x00 x00 x00 x00 x00 x00 x00)
(T (W x1e x00 x00 x00 x00 x00 x37 x00)
(T (W x05 x05 x03 x03 x04 x02 x02 x03)
(L (W x43 x00 x43 x00 x61 x00 x00 x00))
(L (W x01 x00 x00 x00 x00 x00 x00 x00)))
(T (W x00 x82 x00 x00 xb6 x00 x00 x00)
(L (W x00 x00 x00 x00 x00 x00 x00 x00)) E))
(T (W x00 x00 x00 x00 x00 x00 x00 x00)
(T (W x00 x00 x99 x01 x00 x00 x4a x01)
(L (W x27 xc3 xae xa3 x82 x0b x00 x48)) E)
(T (W x2d x03 x0c x00 x00 x00 x00 x00)
(L (W x00 x00 x00 x00 x00 x00 x00 x00)) E)))))
(T (W x00 x00 x01 x00 x44 x00 x00 x00)
(T (W x05 x05 x02 x03 x03 x02 x02 x02)
(T (W x00 x00 x00 x00 x82 x74 x10 x0c)
(T (W x00 x00 x00 x00 x00 x00 x00 x00)
(T (W x01 x00 x00 x00 x00 x00 x00 x00)
(L (W x80 x48 x00 x00 xa0 x00 x00 x00))
(L (W x00 x00 x00 x00 x01 x00 x10 x8c)))
(T (W x05 x05 x03 x04 x05 x02 x02 x03)
(L (W x00 x00 x00 x00 x00 x00 x00 x00)) E))
(T (W x00 x00 x00 x00 x00 x00 x00 x00)
(T (W x02 x00 x03 x00 x03 x03 x03 x03)
(L (W xb4 x01 x04 x00 x00 x00 x00 x00)) E)
(T (W x00 x00 x00 x00 x00 x00 x00 x00)
(L (W x00 x00 x00 x00 x00 x00 x00 x00)) E)))
(T (W x00 x00 x00 x00 x00 x00 x00 x00)
(T (W x00 x00 x00 x00 x00 x00 x8b x00)
(T (W x00 x00 x00 x00 x00 x00 x00 x00)
(L (W x00 x00 x00 x00 x00 x00 x00 x00))
(L (W x00 x00 x97 x00 x00 x00 x5d x02)))
(T (W x00 x00 x00 x00 x81 x30 x30 x2c)
(L (W x00 x00 x00 x00 x00 x00 x00 x00)) E))
(T (W x4b x02 x02 x00 x00 x00 x00 x00)
(T (W x00 x0b x70 x83 x81 x40 x43 x00)
(L (W x0a x00 x00 x00 x00 x00 x00 x00)) E)
(T (W x00 x00 x00 x00 xed x02 x00 x00)
(L (W x01 x01 x01 x01 x01 x01 x01 x01)) E))))
(T (W x00 x00 x00 x00 x00 x00 x00 x00)
(T (W x1e x00 x00 x00 x00 x00 x32 x00)
(T (W x03 x00 x02 x00 x03 x02 x03 x03)
(T (W x00 x00 x00 x00 x00 x00 x00 x00)
(L (W x00 x00 x69 x87 x81 x08 x01 x0a))
(L (W x01 x00 x00 x00 x00 x00 x00 x00)))
(T (W x4b x02 x80 x00 x00 x00 x00 x00)
(L (W x08 x00 x00 x00 x08 x01 x00 x00)) E))
(T (W x01 x01 x01 x01 x01 x01 x01 x01)
(T (W x00 x00 x00 x00 x00 x00 x00 x00)
(L (W x00 x00 x00 x00 x78 x10 x33 x0c)) E)
(T (W xb5 x00 x61 x00 x7c x00 x00 x00)
(L (W x00 x00 x00 x00 x00 x00 x00 x00)) E)))
(T (W x1c x00 x30 x00 x9c x00 x00 x00)
(T (W x00 x08 xa0 x9b x9e x00 x04 x00)
(T (W x00 x00 x00 x00 x00 x00 x00 x00)
(L (W x05 x05 x03 x04 x04 x02 x02 x03)) E)
(T (W x0a x00 x00 x00 x00 x00 x28 x00)
(L (W x00 x20 x00 x00 x00 x00 x00 x00)) E))
(T (W x00 x00 x00 x00 x72 x04 x11 xcc)
(T (W x00 x00 x00 x00 x00 x00 x00 x00)
(L (W x00 x00 x00 x00 x00 x00 x00 x00)) E)
(T (W x00 x00 x00 x00 x00 x00 x00 x00)
(L (W x00 x00 x00 x00 x00 x00 x00 x00)) E))))))
(T (W x00 x00 x00 x00 x00 x00 x00 x00)
(T (W x02 x00 x03 x00 x02 x03 x04 x04)
(T (W x00 x00 x00 x00 x92 x00 x00 x00)
(T (W x00 x00 x00 x00 x00 x00 x00 x00)
(T (W x1e x00 x00 x00 x00 x00 x1e x00)
(T (W x05 x05 x05 x05 x05 x02 x02 x05)
(L (W x66 x00 x66 x00 x7e x00 x00 x00))
(L (W x00 x00 x00 x00 x00 x00 x00 x00)))
(T (W x00 x92 x00 x00 x00 x00 x95 x00)
(L (W x00 x00 x00 x00 x00 x00 x00 x00)) E))
(T (W x00 x00 x00 x00 x00 x00 x00 x00)
(T (W x00 x00 xf6 x00 x00 x00 xc4 x00)
(L (W x00 x00 x20 x83 x92 x29 x10 x04)) E)
(T (W x7f x02 x02 x00 x00 x00 x00 x00)
(L (W x00 x00 x00 x00 x89 x02 x00 x00)) E)))
(T (W x2d x02 x08 x00 x00 x00 xeb x00)
(T (W x2f x00 x71 x00 x9d x00 x00 x00)
(T (W x00 x00 x00 x00 xa0 x11 x10 xec)
(L (W x03 x00 x00 x00 x00 x00 x00 x00))
(L (W x78 x01 x00 x01 x00 x00 x00 x00)))
(T (W x00 x00 x00 x00 x17 x01 x00 x00)
(L (W x00 x00 x3b x01 x00 x00 x3b x01)) E))
(T (W x40 x2b xa8 xc3 x86 x01 x00 x10)
(T (W x00 x00 x00 x00 x08 x02 x00 x00)
(L (W x05 x05 x05 x05 x05 x02 x02 x02)) E)
(T (W x1e x00 x00 x00 x00 x00 x41 x00)
(L (W x00 x00 x00 x00 x00 x00 x00 x00)) E))))
(T (W x04 x3b x20 xa3 xc4 x01 x10 x00)
(T (W x05 x05 x03 x03 x04 x02 x02 x03)
(T (W x00 x00 x00 x00 x00 x00 x00 x00)
(T (W x78 x02 x08 x00 x00 x00 x00 x00)
(L (W x08 x00 x00 x00 x56 x03 x00 x00))
(L (W x05 x05 x04 x05 x05 x02 x02 x04)))
(T (W x00 x08 x20 x93 x86 x00 x00 x02)
(L (W x01 x00 x00 x00 x00 x00 x00 x00)) E))
(T (W x08 x00 x00 x00 x00 x00 x00 x00)
(T (W x00 x00 x00 x00 x00 x00 x00 x00)
(L (W x00 x00 x00 x00 xba x00 x00 x00)) E)
(T (W x00 x00 x00 x00 x00 x4b x10 x4e)
(L (W x00 x00 x00 x00 x00 x00 x00 x00)) E)))
(T (W x00 x00 x00 x00 x78 x13 x13 x0c)
(T (W x00 x00 x00 x00 x08 x01 x00 x00)
(T (W x1e x00 x00 x00 x00 x00 x32 x00)
(L (W x00 x02 x00 x00 x00 x00 xa4 x00)) E)
(T (W x05 x05 x03 x03 x04 x02 x02 x03)
(L (W x45 x00 x5b x00 x68 x00 xf1 x03)) E))
(T (W x00 x00 x00 x00 x00 x00 x00 x00)
(T (W x03 x00 x03 x00 x03 x02 x06 x06)
(L (W x32 x02 x08 x10 x00 x00 xed x00)) E)
(T (W x00 x00 x3d x00 x00 x00 x3d x00)
(L (W x00 x00 x00 x00 x00 x00 x00 x00)) E)))))
(T (W x00 x00 x00 x00 x01 x00 x50 x0c)
(T (W x1e x00 x00 x00 x00 x00 x28 x00)
(T (W x1e x00 x20 x00 x83 x00 x00 x00)
(T (W x00 xc8 xe1 x83 x86 x02 x01 x00)
(T (W x00 x00 x00 x00 x00 x00 x00 x00)
(L (W x05 x05 x04 x04 x05 x02 x02 x04))
(L (W xe1 x00 xe1 x00 xe1 x00 x6f x04)))
(T (W x1e x00 x00 x00 x00 x00 x3c x00)
(L (W x00 x00 x00 x00 x00 x00 x00 x00)) E))
(T (W x00 x00 x00 x00 x00 x00 x00 x00)
(T (W x00 x00 x00 x00 x00 x00 x00 x00)
(L (W x00 x00 xb5 x02 x00 x00 xb5 x02)) E)
(T (W x00 x00 x00 x00 x00 x00 x00 x00)
(L (W x00 x00 x00 x00 x00 x00 x00 x00)) E)))
(T (W x00 x00 x00 x00 x00 x00 x00 x00)
(T (W x05 x05 x02 x03 x03 x02 x02 x02)
(T (W x00 x00 x00 x00 x00 x00 x00 x00)
(L (W x01 x00 x00 x00 x81 x20 x10 x0c))
(L (W x02 x00 x03 x00 x03 x03 x04 x04)))
(T (W x80 x00 x27 x00 x2e x00 x00 x00)
(L (W x00 x00 x00 x00 x00 x00 x00 x00)) E))
(T (W x00 x00 x85 x00 x00 x00 xca x00)
(T (W xb4 x01 x04 x00 x00 x00 x00 x00)
(L (W x00 x00 x00 x00 x19 x00 x00 x00)) E)
(T (W x00 x83 x68 x03 x85 x09 x00 x02)
(L (W x01 x00 x00 x00 x00 x00 x00 x00)) E))))
(T (W x00 x00 x00 x00 x00 x00 x00 x00)
(T (W x00 x00 x00 x00 x88 x00 x00 x00)
(T (W x00 x00 x00 x00 x00 x00 x00 x00)
(T (W x02 x00 x02 x00 x02 x02 x05 x05)
(L (W x03 x03 x00 x0c x00 x00 x00 x00))
(L (W x00 x00 x00 x00 x00 x00 x00 x00)))
(T (W x00 x00 xfc x01 x00 x00 x20 x02)
(L (W x00 x00 x00 x00 x00 x00 x00 x00)) E))
(T (W x01 x00 x00 x00 x00 x00 x00 x00)
(T (W x05 x05 x03 x03 x04 x02 x02 x03)
(L (W x0a x00 x09 x00 xca x00 x00 x00)) E)
(T (W x08 x40 x00 x00 x00 x00 x00 x00)
(L (W x00 x00 x00 x00 x00 x00 x00 x00)) E)))
(T (W x10 x00 x00 x00 x00 x00 x00 x00)
(T (W x00 x00 x00 x00 x00 x00 x00 x00)
(T (W x00 x43 x37 x03 x86 x01 x00 x00)
(L (W x1e x00 x00 x00 x00 x00 x32 x00)) E)
(T (W x00 x00 x00 x00 x00 x00 x00 x00)
(L (W x01 x01 x01 x01 x01 x01 x01 x01)) E))
(T (W x21 x00 x45 x00 x05 x00 x00 x00)
(T (W x00 x00 x00 x00 x06 xac x30 x4c)
(L (W x02 x00 x02 x00 x02 x02 x04 x04)) E)
(T (W x00 x00 x00 x00 x00 x00 x00 x00)
(L (W x00 x00 x00 x00 x00 x00 x00 x00)) E)))))))
(T (W x00 x00 x00 x00 x00 x00 x00 x00)
(T (W x00 x00 x00 x00 x00 x00 x00 x00)
(T (W x05 x05 x04 x04 x05 x02 x02 x04)
(T (W xff x01 x40 x00 x00 x00 xd9 x00)
(T (W x1e x00 x00 x00 x00 x00 x0a x00)
(T (W x00 x00 x00 x00 x00 x00 x00 x00)
(T (W x00 x00 x00 x00 x00 x00 x00 x00)
(L (W x02 x03 x60 x87 x81 x04 x23 x02))
(L (W x0a x00 x00 x00 x00 x00 x28 x00)))
(T (W x2d x01 x10 x00 x00 x00 x00 x00)
(L (W x00 x00 x00 x00 x91 x00 x00 x00)) E))
(T (W x01 x01 x01 x01 x01 x01 x01 x01)
(T (W x10 x00 x00 x00 x00 x00 x51 x00)
(L (W x00 x00 x00 x00 x00 x04 x10 x0c)) E)
(T (W x00 x00 x00 x00 x00 x00 x00 x00)
(L (W x00 x00 x00 x00 x00 x00 x00 x00)) E)))
(T (W x2e x00 x2e x00 x09 x00 xa8 x03)
(T (W x13 x00 xa6 xab x8a x82 x00 x0a)
(T (W x00 x00 x00 x00 x00 x00 x00 x00)
(L (W x05 x05 x05 x05 x05 x02 x02 x05))
(L (W xf1 x00 xf1 x00 xf1 x00 x91 x04)))
(T (W x1e x00 x00 x00 x00 x00 x32 x00)
(L (W x10 x00 x00 x00 x00 x00 x00 x00)) E))
(T (W x00 x00 x00 x00 x00 x00 x00 x00)
(T (W x00 x00 x00 x00 x5a x00 x00 x00)
(L (W x00 x00 x00 x00 x00 x00 x00 x00)) E)
(T (W x01 x00 x02 x00 x01 x02 x05 x05)
(L (W x00 x00 x00 x00 x00 x00 x00 x00)) E))))
(T (W x00 x00 x00 x00 x00 x00 x00 x00)
(T (W x00 x00 x81 x00 x00 x00 x39 x00)
(T (W x40 x00 x00 x00 x79 x00 x00 x00)
(T (W x00 x00 x00 x00 x00 x00 x00 x00)
(L (W x00 x00 x00 x00 x7e x01 x00 x00))
(L (W x00 x00 xce x02 x00 x00 xce x02)))
(T (W x00 x00 x00 x00 x00 x13 x10 xec)
(L (W x00 x00 x00 x00 x00 x00 x00 x00)) E))
(T (W x00 x00 x00 x00 x00 x00 x00 x00)
(T (W x2b x6b x2a x03 xc4 x0b x10 x79)
(L (W x1e x00 x00 x00 x00 x00 x3c x00)) E)
(T (W x00 x00 x00 x00 xe9 x02 x00 x00)
(L (W x01 x01 x01 x01 x01 x01 x01 x01)) E)))
(T (W x00 x00 x00 x00 x00 x00 x00 x00)
(T (W x00 x00 x00 x00 x00 x00 x00 x00)
(T (W x01 x00 x02 x00 x02 x02 x04 x04)
(L (W x5a x02 x02 x00 x00 x00 x9e x00)) E)
(T (W x00 x00 x2c x00 x00 x00 x74 x01)
(L (W x00 x00 x00 x00 x00 x00 x00 x00)) E))
(T (W x01 x00 x00 x00 x00 x00 x00 x00)
(T (W x01 x01 x01 x01 x01 x01 x01 x01)
(L (W x51 x00 x51 x00 x75 x00 x91 x03)) E)
(T (W x00 x00 x00 x00 x00 x00 x00 x00)
(L (W x00 x00 x00 x00 x00 x00 x00 x00)) E)))))
(T (W x00 x00 x00 x00 x28 x00 x00 x00)
(T (W x00 x00 x00 x00 x00 x00 x05 x05)
(T (W x00 x03 xb1 x83 xc6 x00 x00 x06)
(T (W x00 x00 x00 x00 x00 x00 x00 x00)
(T (W x00 x00 x00 x00 x00 x00 x00 x00)
(L (W x00 x00 xe5 x00 x00 x00 x59 x01))
(L (W x00 x00 x20 x83 xba x22 xa0 x01)))
(T (W x03 x00 x02 x00 x03 x02 x04 x03)
(L (W x00 x00 x00 x00 x00 x00 x00 x00)) E))
(T (W x00 x00 x00 x00 x00 x00 x00 x00)
(T (W x0a x00 x00 x00 x00 x00 x28 x00)
(L (W x00 x20 x00 x00 x00 x00 x84 x00)) E)
(T (W x01 x01 x01 x01 x01 x01 x01 x01)
(L (W x00 x00 x00 x00 x00 x00 x00 x00)) E)))
(T (W x01 x01 x01 x01 x01 x01 x01 x01)
(T (W x00 x00 xb1 x00 x00 x00 x00 x00)
(T (W xff x01 x10 x00 x00 x00 xe9 x00)
(L (W x00 x00 x00 x00 x7b x03 x00 x00))
(L (W x05 x05 x04 x04 x05 x02 x02 x04)))
(T (W x3b x80 xf8 x0b x82 x1a x01 x88)
(L (W x01 x00 x00 x00 x00 x00 x00 x00)) E))
(T (W x00 x80 x00 x00 x5c x00 x00 x00)
(T (W x92 x00 x9f x00 x68 x00 x00 x00)
(L (W x00 x00 x00 x00 xc2 x00 x00 x00)) E)
(T (W x40 x00 x00 x00 x04 x18 x14 x8d)
(L (W x00 x00 x00 x00 x00 x00 x00 x00)) E))))
(T (W x00 x00 x00 x00 x00 x00 x00 x00)
(T (W x00 x00 x00 x00 xc4 x00 x00 x00)
(T (W x1e x00 x00 x00 x00 x00 x1e x00)
(T (W x01 x01 x01 x01 x01 x01 x01 x01)
(L (W xe2 x00 xe2 x00 x8c x00 x00 x00))
(L (W x00 x00 x00 x00 x00 x00 x00 x00)))
(T (W x00 x00 x01 x00 x00 x00 xb4 x00)
(L (W x00 x00 x00 x00 x00 x00 x00 x00)) E))
(T (W x01 x00 x03 x00 x01 x03 x04 x04)
(T (W x00 x00 x00 x00 x00 x00 x00 x00)
(L (W x02 x80 x61 x83 x80 x08 x61 x08)) E)
(T (W xe1 x01 x00 x01 x00 x00 x00 x00)
(L (W x00 x00 x00 x00 x00 x00 x00 x00)) E)))
(T (W x00 x00 x00 x00 x00 x00 x00 x00)
(T (W x22 x00 x30 x00 x7c x00 x00 x00)
(T (W x00 x00 x00 x00 x61 x00 x10 x8c)
(L (W x02 x00 x03 x00 x02 x03 x06 x06)) E)
(T (W x00 x00 x00 x00 x00 x00 x00 x00)
(L (W x00 x00 x00 x00 x00 x00 x00 x00)) E))
(T (W x00 x00 x00 x00 x00 x00 x00 x00)
(T (W x00 x00 x00 x00 x28 x02 x00 x00)
(L (W x05 x05 x04 x04 x04 x02 x02 x04)) E)
(T (W x1e x00 x00 x00 x00 x00 x28 x00)
(L (W x00 x00 x00 x00 x00 x00 x00 x00)) E))))))
(T (W x00 x00 x00 x00 x00 x00 x00 x00)
(T (W x1e x00 x00 x00 x00 x00 x37 x00)
(T (W x00 x00 x00 x00 x00 x00 x00 x00)
(T (W x00 x00 x00 x00 x68 x00 x00 x00)
(T (W x00 x00 x00 x00 xc9 x00 x00 x00)
(T (W x02 x00 x00 x00 x00 x00 x00 x00)
(L (W x4b x02 x00 x08 x56 x00 x57 x00))
(L (W x00 x00 x00 x00 x00 x00 x00 x00)))
(T (W x00 x00 xda x01 x00 x00 xda x01)
(L (W x00 x00 x00 x00 x00 x00 x00 x00)) E))
(T (W x1e x00 x00 x00 x00 x00 x32 x00)
(T (W x01 x01 x01 x01 x01 x01 x01 x01)
(L (W xf4 x00 x39 x00 x65 x00 x93 x04)) E)
(T (W x00 x02 x00 x00 x17 x00 x00 x00)
(L (W x00 x00 x00 x00 x00 x00 x00 x00)) E)))
(T (W x00 x04 x00 x00 x00 x00 x00 x00)
(T (W x03 x03 x09 x00 x00 x00 x00 x00)
(T (W x00 x00 x00 x00 x00 x00 x00 x00)
(L (W x1e x00 x00 x00 x00 x00 x32 x00))
(L (W x00 x00 x02 x00 x00 x00 x00 x00)))
(T (W x00 x00 x00 x00 x68 x02 x00 x00)
(L (W x05 x05 x03 x03 x04 x02 x02 x03)) E))
(T (W x1a x00 x1a x00 x1a x00 x00 x00)
(T (W x00 x00 x00 x00 x00 x00 x00 x00)
(L (W x00 x00 x00 x00 x00 x00 x00 x00)) E)
(T (W x00 x00 x00 x00 x53 x01 x00 x00)
(L (W x00 x00 x00 x00 x00 x00 x00 x00)) E))))
(T (W x2a x00 x05 x00 x94 x00 x00 x00)
(T (W x03 x00 x02 x00 x02 x03 x04 x04)
(T (W x05 x05 x04 x04 x05 x02 x02 x04)
(T (W x10 x00 x00 x00 x00 x00 x00 x00)
(L (W x00 x00 x00 x00 x00 x00 x00 x00))
(L (W x02 x00 x02 x00 x03 x02 x03 x03)))
(T (W x0b x00 x82 x00 x06 x00 x00 x00)
(L (W x00 x00 x00 x00 x00 x00 x00 x00)) E))
(T (W x00 x00 x00 x00 x00 x00 x00 x00)
(T (W x00 x00 x00 x00 x00 x00 x00 x00)
(L (W x00 x00 x00 x00 xb1 x03 x00 x00)) E)
(T (W x00 x00 xe6 x83 x86 x80 x00 x2a)
(L (W x01 x00 x00 x00 x00 x00 x00 x00)) E)))
(T (W x03 xc8 x2f xab x86 x82 x10 x08)
(T (W x00 x00 x00 x00 x00 x00 x00 x00)
(T (W x00 x00 x00 x00 xde x00 x00 x00)
(L (W x00 x00 x5d x00 x00 x00 x80 x01)) E)
(T (W x02 x00 x03 x00 x03 x03 x02 x02)
(L (W x3c x02 x08 x00 x00 x00 x00 x00)) E))
(T (W x00 x00 x00 x00 x68 x01 x00 x00)
(T (W x1e x00 x00 x00 x00 x00 x37 x00)
(L (W x00 x80 x00 x00 x00 x00 x00 x00)) E)
(T (W x01 x01 x01 x01 x01 x01 x01 x01)
(L (W x00 x00 x00 x00 x00 x00 x00 x00)) E)))))
(T (W x00 x00 x00 x00 x00 x00 x00 x00)
(T (W x00 x00 x00 x00 x00 x00 x00 x00)
(T (W xe1 x01 x00 x01 x00 x00 xeb x00)
(T (W x00 x00 x00 x00 x00 x00 x00 x00)
(T (W x00 x00 x00 x00 x00 x00 x00 x00)
(L (W x02 x00 x03 x00 x02 x03 x05 x05))
(L (W x03 x03 x03 x00 x00 x00 x00 x00)))
(T (W x00 x00 x00 x00 x00 x00 x00 x00)
(L (W x00 x00 x00 x00 x00 x00 x00 x00)) E))
(T (W x3b x80 xa0 x8b xc6 x1a x01 x8a)
(T (W x00 x00 x00 x00 xe8 x01 x00 x00)
(L (W x05 x05 x03 x03 x03 x02 x02 x03)) E)
(T (W x1e x00 x00 x00 x00 x00 x32 x00)
(L (W x00 x00 x00 x00 x00 x00 x00 x00)) E)))
(T (W x01 x00 x00 x00 x00 x00 x00 x00)
(T (W x03 x00 x03 x00 x03 x03 x05 x05)
(T (W x00 x00 x00 x00 x00 x00 x00 x00)
(L (W x02 x00 x20 x83 x84 x01 x30 x05))
(L (W x00 x00 x00 x00 x00 x00 x00 x00)))
(T (W x3c x02 x08 x00 x00 x00 x00 x00)
(L (W x00 x00 x00 x00 x00 x00 x00 x00)) E))
(T (W x05 x05 x03 x03 x04 x02 x02 x03)
(T (W x40 x00 x00 x00 x00 x00 x3b x00)
(L (W x00 x00 x00 x00 x12 x13 x30 xcc)) E)
(T (W x0b x00 x0b x00 x0b x00 x00 x00)
(L (W x00 x00 x00 x00 x00 x00 x00 x00)) E))))
(T (W x05 x05 x02 x03 x03 x02 x02 x02)
(T (W x00 x00 x00 x00 x7a x00 x91 x0c)
(T (W x00 x00 x00 x00 x00 x00 x00 x00)
(T (W x01 x00 x00 x00 x00 x00 x00 x00)
(L (W x00 x00 x00 x00 x00 x00 x00 x00))
(L (W x00 x00 x00 x00 x00 x00 x00 x00)))
(T (W x01 x01 x01 x01 x01 x01 x01 x01)
(L (W x00 x00 x00 x00 x00 x00 x00 x00)) E))
(T (W x00 x00 x00 x00 x00 x00 x00 x00)
(T (W x00 x00 x00 x00 x00 x00 x00 x00)
(L (W x2d x02 x00 x02 x00 x00 x00 x00)) E)
(T (W x00 x00 x27 x00 x00 x00 x9d x00)
(L (W x00 x00 x00 x00 x00 x00 x00 x00)) E)))
(T (W x00 x00 x7f x01 x00 x00 xaf x00)
(T (W x00 x02 x00 x00 x30 x00 x00 x00)
(T (W x22 x00 x66 x00 x90 x00 x00 x00)
(L (W x00 x00 x00 x00 xa1 x00 x00 x00)) E)
(T (W x00 x00 x00 x00 x00 x00 x00 x00)
(L (W x01 x00 x00 x00 x00 x00 x00 x00)) E))
(T (W x2d x02 x20 x00 x00 x00 xfa x00)
(T (W x00 x9b x60 x83 x81 x00 x43 x00)
(L (W x01 x00 x00 x00 x00 x00 x00 x00)) E)
(T (W x00 x00 x00 x00 x3c x03 x00 x00)
(L (W x05 x05 x01 x01 x01 x02 x02 x01)) E)))))))))))
(T (W x01 x00 x00 x00 x00 x00 x00 x00)
(T (W x00 x00 x00 x00 x00 x00 x00 x00)
(T (W x03 x00 x03 x00 x02 x03 x04 x04)
(T (W x41 x00 x41 x00 x22 x00 x00 x00)
(T (W x2d x03 x00 x03 x00 x00 x00 x00)
(T (W x00 x00 x6a x00 x00 x00 x4e x01)
(T (W x00 x00 x00 x00 x00 x00 x00 x00)
(T (W x01 x01 x01 x01 x01 x01 x01 x01)
(T (W x00 x00 x00 x00 x00 x09 x50 x4c)
(T (W x04 x00 x00 x00 xba x00 x00 x00)
(T (W x1e x00 x00 x00 x00 x00 x3c x00)
(L (W x00 x00 x00 x00 x9d x00 x00 x00))
(L (W x00 x00 x00 x00 x04 x88 x50 x0c)))
(T (W x05 x05 x03 x04 x04 x02 x02 x03)
(L (W x77 x00 x77 x00 x8b x00 xa3 x03)) E))
(T (W x00 x00 x00 x00 x3f x00 x00 x00)
(T (W x02 x00 x03 x00 x02 x03 x05 x05)
(L (W x78 x02 x20 x00 x00 x00 x00 x00)) E)
(T (W x00 x00 x00 x00 x00 x00 x00 x00)
(L (W x40 x83 x70 x87 x81 x58 x23 x0b)) E)))
(T (W x00 x00 x6a x01 x00 x00 x39 x00)
(T (W x00 x00 x00 x00 x00 x00 x00 x00)
(T (W x00 x00 x00 x00 x00 x00 x00 x00)
(L (W x00 x00 x00 x00 x00 x00 x00 x00))
(L (W x00 x00 x00 x00 x00 x00 x00 x00)))
(T (W x00 x00 x00 x00 x00 x19 x10 x0e)
(L (W x00 x00 x00 x00 x00 x00 x00 x00)) E))
(T (W x00 x00 x00 x00 x00 x00 x00 x00)
(T (W x00 x00 x00 x00 x00 x00 x00 x00)
(L (W x1e x00 x00 x00 x00 x00 x32 x00)) E)
(T (W x00 x00 x00 x00 xe3 x02 x00 x00)
(L (W x01 x01 x01 x01 x01 x01 x01 x01)) E))))
(T (W x00 x00 x00 x00 x00 x00 x00 x00)
(T (W x1e x00 x00 x00 x00 x00 x32 x00)
(T (W x00 x00 x00 x00 x00 x00 x00 x00)
(T (W x00 x00 x00 x00 x00 x00 x00 x00)
(L (W x80 x03 x61 x8b x8a x29 x21 x0e))
(L (W x1e x00 x00 x00 x00 x00 x28 x00)))
(T (W xff x01 x00 x01 x00 x00 xf6 x00)
(L (W x00 x00 x00 x00 x00 x00 x00 x00)) E))
(T (W x05 x05 x02 x02 x03 x02 x02 x02)
(T (W x00 x04 x00 x00 x00 x00 x00 x00)
(L (W x00 x00 x00 x00 x82 x60 x14 x0c)) E)
(T (W x59 x00 x68 x00 x71 x00 x00 x00)
(L (W x00 x00 x00 x00 x00 x00 x00 x00)) E)))
(T (W x0f x00 x33 x00 x6e x00 x00 x00)
(T (W x2b xa0 x60 x83 xc4 x0f x11 x0c)
(T (W x00 x00 x00 x00 xba x01 x00 x00)
(L (W x05 x05 x02 x02 x03 x02 x02 x02))
(L (W x2e x00 x2e x00 x2e x00 xa3 x04)))
(T (W x1e x00 x00 x00 x00 x00 x32 x00)
(L (W x00 x00 x00 x00 x00 x00 x00 x00)) E))
(T (W x00 x00 x00 x00 x70 x00 x11 x8c)
(T (W x00 x00 x00 x00 x84 x00 x00 x00)
(L (W x00 x00 x56 x00 x00 x00 x58 x01)) E)
(T (W x00 x00 x00 x00 x00 x00 x00 x00)
(L (W x00 x00 x00 x00 x00 x00 x00 x00)) E)))))
(T (W x38 x00 x62 x00 x84 x00 x00 x00)
(T (W x02 x00 x00 x00 x3a x00 x00 x00)
(T (W x00 x01 x00 x00 xaa x00 x00 x00)
(T (W x00 x00 x00 x00 x00 x00 x00 x00)
(T (W x40 x4b x60 x0f x97 x29 x01 x08)
(L (W x1e x00 x00 x00 x00 x00 x28 x00))
(L (W x00 x00 x00 x00 x00 x00 x00 x00)))
(T (W x00 x00 x00 x00 x3a x02 x00 x00)
(L (W x01 x01 x01 x01 x01 x01 x01 x01)) E))
(T (W x03 x00 x03 x00 x97 x00 x00 x00)
(T (W x00 x00 x00 x00 x62 x4c x10 x0c)
(L (W x02 x00 x02 x00 x02 x02 x04 x04)) E)
(T (W x00 x00 x00 x00 x00 x00 x00 x00)
(L (W x00 x00 x00 x00 x00 x00 x00 x00)) E)))
(T (W x00 x00 x00 x00 x00 x00 x00 x00)
(T (W x0a x00 x00 x00 x00 x00 x28 x00)
(T (W x01 x01 x01 x01 x01 x01 x01 x01)
(L (W xe0 x00 xe0 x00 xe0 x00 x00 x00))
(L (W x00 x00 x00 x00 xba x00 x00 x00)))
(T (W x00 x08 x00 x00 x40 x00 x61 x00)
(L (W x00 x00 x00 x00 x00 x03 x10 x0c)) E))
(T (W x01 x00 x03 x00 x02 x03 x04 x04)
(T (W x00 x00 x00 x00 x00 x00 x00 x00)
(L (W x00 x03 x20 x0f x88 x00 x28 x06)) E)
(T (W x78 x01 x10 x00 x00 x00 x00 x00)
(L (W x00 x00 x00 x00 x00 x00 x00 x00)) E))))
(T (W x03 x00 x03 x00 x03 x03 x05 x05)
(T (W x00 x0b x60 x8f x97 x06 x01 x06)
(T (W x00 x00 x00 x00 x62 x04 x12 x0c)
(T (W x00 x00 x00 x00 x3d x00 x00 x00)
(L (W x00 x00 x00 x00 x00 x00 x00 x00))
(L (W x00 x00 x00 x00 x00 x00 x00 x00)))
(T (W x01 x00 x03 x00 x01 x03 x04 x03)
(L (W x3c x02 x00 x04 x00 x00 x00 x00)) E))
(T (W x00 x00 x00 x00 x00 x00 x00 x00)
(T (W x01 x00 x00 x00 x00 x00 x00 x00)
(L (W x00 x08 x00 x00 x00 x00 x01 x00)) E)
(T (W x05 x05 x03 x04 x04 x02 x02 x03)
(L (W x00 x00 x00 x00 x00 x00 x00 x00)) E)))
(T (W x05 x05 x05 x05 x06 x02 x02 x05)
(T (W x00 x00 x00 x00 x00 x00 x00 x00)
(T (W x4b x02 x08 x00 x00 x00 x19 x01)
(L (W x08 x00 x00 x00 xa4 x03 x00 x00)) E)
(T (W x00 x1f x2e x13 x84 x0f x10 x00)
(L (W x1e x00 x00 x00 x00 x00 x32 x00)) E))
(T (W x00 x00 x00 x00 x00 x00 x00 x00)
(T (W x9e x00 x97 x00 x22 x00 x00 x00)
(L (W x02 x00 x01 x00 xb8 x00 x01 x00)) E)
(T (W x00 x00 x00 x00 x00 x00 x00 x00)
(L (W x00 x00 x00 x00 x00 x00 x00 x00)) E))))))
(T (W x00 x00 x00 x00 x00 x00 x00 x00)
(T (W x00 x00 x00 x00 x62 x23 x50 x8c)
(T (W x1e x00 x00 x00 x00 x00 x28 x00)
(T (W x34 x00 x4b x00 x7d x00 x00 x00)
(T (W x00 x00 x00 x00 x00 x00 x00 x00)
(T (W x00 x00 x00 x00 x7a x01 x00 x00)
(L (W x05 x05 x04 x04 x05 x02 x02 x04))
(L (W xbc x00 xbc x00 xbc x00 x63 x04)))
(T (W x1e x00 x00 x00 x00 x00 x3c x00)
(L (W x40 x02 x00 x00 x00 x00 xcb x00)) E))
(T (W x00 x00 x00 x00 x00 x00 x00 x00)
(T (W x00 x00 x00 x00 xcb x00 x00 x00)
(L (W x00 x00 x89 x00 x00 x00 xe9 x01)) E)
(T (W x00 x00 x00 x00 x00 x00 x00 x00)
(L (W x03 x03 x44 x01 x00 x00 x00 x00)) E)))
(T (W x01 x00 x00 x00 x00 x00 x00 x00)
(T (W x05 x05 x03 x03 x04 x02 x02 x03)
(T (W x00 x00 x00 x00 x00 x00 x00 x00)
(L (W x80 x00 x00 x00 x06 x84 x10 x1c))
(L (W x01 x00 x02 x00 x02 x02 x04 x04)))
(T (W x4f x00 x68 x00 x7f x00 x00 x00)
(L (W x01 x00 x00 x00 xe6 x00 x00 x00)) E))
(T (W x00 x00 x00 x00 x00 x00 x00 x00)
(T (W x4b x02 x02 x00 x00 x00 x00 x00)
(L (W x00 x00 x00 x00 xac x03 x00 x00)) E)
(T (W x00 x00 x60 x83 x86 x00 x20 x00)
(L (W x01 x00 x00 x00 x00 x00 x00 x00)) E))))
(T (W x00 x00 x00 x00 x00 x00 x00 x00)
(T (W x00 x00 x00 x00 x7a x00 x00 x00)
(T (W x00 x00 x00 x00 x24 x01 x00 x00)
(T (W x00 x00 x00 x00 x00 x00 x00 x00)
(L (W x00 x00 x00 x00 x00 x00 x00 x00))
(L (W x02 x00 x00 x00 x5e x03 x00 x00)))
(T (W x00 x00 x71 x00 x00 x00 xd1 x00)
(L (W x00 x00 x00 x00 x00 x00 x00 x00)) E))
(T (W x01 x00 x00 x00 x00 x00 x00 x00)
(T (W x05 x05 x05 x05 x05 x02 x02 x02)
(L (W xfe x00 xfe x00 xfe x00 x00 x00)) E)
(T (W x00 x00 x00 x00 x00 x00 x00 x00)
(L (W x00 x00 x00 x00 x00 x00 x00 x00)) E)))
(T (W x00 x00 x00 x00 x00 x00 x00 x00)
(T (W x00 x00 x00 x00 x00 x00 x00 x00)
(T (W x33 x83 x61 x87 x86 x0f x01 x8a)
(L (W x1e x00 x00 x00 x00 x00 x28 x00)) E)
(T (W x00 x00 x00 x00 x7a x02 x00 x00)
(L (W x01 x01 x01 x01 x01 x01 x01 x01)) E))
(T (W x1a x00 x1a x00 x77 x00 x00 x00)
(T (W x00 x00 x00 x00 x00 x00 x00 x00)
(L (W x02 x00 x02 x00 x02 x02 x05 x04)) E)
(T (W x00 x00 x00 x00 x00 x00 x00 x00)
(L (W x00 x00 x00 x00 x00 x00 x00 x00)) E)))))
(T (W x00 x04 x03 x00 x0d x00 x00 x00)
(T (W x3b x40 xae x83 x86 x01 x00 xf8)
(T (W x05 x05 x04 x05 x05 x02 x02 x04)
(T (W x00 x00 x00 x00 x00 x00 x00 x00)
(T (W x00 x00 x00 x00 x00 x00 x00 x00)
(L (W x00 x00 x00 x00 x2d x03 x00 x00))
(L (W x05 x05 x03 x04 x05 x02 x02 x03)))
(T (W x00 x43 xee xa3 x82 x9a x01 x2a)
(L (W x01 x00 x00 x00 x00 x00 x00 x00)) E))
(T (W x00 x00 x00 x00 x00 x00 x00 x00)
(T (W x2e x00 x2e x00 x8c x00 x00 x00)
(L (W x00 x00 x00 x00 x50 x01 x00 x00)) E)
(T (W x00 x00 x00 x00 x00 x00 x00 x00)
(L (W x00 x00 x00 x00 x00 x00 x00 x00)) E)))
(T (W x00 x00 x00 x00 x00 x00 x00 x00)
(T (W x00 x00 x00 x00 xfa x00 x00 x00)
(T (W x1e x00 x00 x00 x00 x00 x32 x00)
(L (W x00 x00 x00 x00 x00 x00 x00 x00))
(L (W x00 x00 x00 x00 x00 x48 x18 x4e)))
(T (W x05 x05 x03 x04 x05 x02 x02 x03)
(L (W x00 x00 x00 x00 x00 x00 x00 x00)) E))
(T (W x00 x00 x00 x00 x52 x00 x00 x00)
(T (W x02 x00 x03 x00 x03 x03 x05 x04)
(L (W xbe x02 x80 x00 x00 x00 xec x00)) E)
(T (W x00 x00 x96 x01 x00 x00 x4a x02)
(L (W x00 x00 x00 x00 x00 x00 x00 x00)) E))))
(T (W x00 x00 x00 x00 x00 x00 x00 x00)
(T (W x2d x02 x02 x00 x00 x00 x00 x00)
(T (W x33 x00 x05 x00 x85 x00 x00 x00)
(T (W x00 x00 x00 x00 x00 x00 x00 x00)
(L (W x01 x00 x00 x00 x00 x00 x00 x00))
(L (W x00 x00 x00 x00 x00 x00 x00 x00)))
(T (W x00 x00 x00 x00 x71 x00 x00 x00)
(L (W x00 x00 x00 x00 x00 x00 x00 x00)) E))
(T (W x00 x00 x30 x8b x9a x60 x91 x00)
(T (W x02 x00 x00 x00 xfa x01 x00 x00)
(L (W x05 x05 x04 x04 x05 x02 x02 x04)) E)
(T (W x1e x00 x00 x00 x00 x00 x32 x00)
(L (W x00 x00 x00 x00 x00 x00 x00 x00)) E)))
(T (W x01 x00 x00 x00 x00 x00 x00 x00)
(T (W x01 x00 x03 x00 x02 x03 x05 x05)
(T (W x00 x00 x13 x01 x00 x00 xb5 x00)
(L (W x02 x43 x20 x83 x80 x00 x10 x22)) E)
(T (W x03 x03 x05 x01 x00 x00 x00 x00)
(L (W x00 x00 x00 x00 x00 x00 x00 x00)) E))
(T (W x01 x01 x01 x01 x01 x01 x01 x01)
(T (W x00 x89 x00 x00 xb1 x00 x00 x00)
(L (W x00 x00 x00 x00 x7e x8c x1a x8e)) E)
(T (W x00 x00 x00 x00 x00 x00 x00 x00)
(L (W x00 x00 x00 x00 x00 x00 x00 x00)) E)))))))
(T (W x04 x00 x00 x00 x48 x00 x00 x00)
(T (W x01 x01 x01 x01 x01 x01 x01 x01)
(T (W x00 x00 x00 x00 x1a x00 x00 x00)
(T (W x00 x00 x00 x00 x00 x00 x00 x00)
(T (W x00 x00 x00 x00 x00 x00 x00 x00)
(T (W x00 x00 x00 x00 x00 x00 x00 x00)
(T (W x00 x00 x00 x00 x00 x00 x00 x00)
(L (W x00 x00 x28 x00 x00 x00 x2a x00))
(L (W x00 x0b xea x97 xc4 x10 x04 x00)))
(T (W x01 x00 x03 x00 x02 x03 x03 x03)
(L (W x2d x02 x80 x00 x00 x00 x00 x00)) E))
(T (W x00 x00 x00 x00 x1a x01 x00 x00)
(T (W x1e x00 x00 x00 x00 x00 x28 x00)
(L (W x10 x00 x00 x00 x13 x00 x00 x00)) E)
(T (W x01 x01 x01 x01 x01 x01 x01 x01)
(L (W x9a x00 x9a x00 x9a x00 x03 x04)) E)))
(T (W x05 x05 x02 x03 x03 x02 x02 x02)
(T (W x00 x00 x00 x00 x00 x00 x00 x00)
(T (W xbe x01 x01 x00 x00 x00 x00 x00)
(L (W x00 x00 x00 x00 x6d x03 x00 x00))
(L (W x05 x05 x05 x06 x06 x02 x02 x05)))
(T (W x00 x28 xa8 x83 xc4 x10 x00 x02)
(L (W x01 x00 x00 x00 x00 x00 x00 x00)) E))
(T (W x00 x01 x00 x00 x00 x00 x00 x00)
(T (W x00 x00 x00 x00 x00 x00 x00 x00)
(L (W x00 x00 x00 x00 x8d x01 x00 x00)) E)
(T (W x00 x00 x00 x00 x81 x10 x30 x6c)
(L (W x00 x00 x00 x00 x00 x00 x00 x00)) E))))
(T (W x00 x00 x00 x00 x28 x00 x00 x00)
(T (W x00 x00 x00 x00 x93 x00 x00 x00)
(T (W x1e x00 x00 x00 x00 x00 x37 x00)
(T (W x01 x01 x01 x01 x01 x01 x01 x01)
(L (W xd7 x00 xd7 x00 x6d x00 x00 x00))
(L (W x00 x00 x00 x00 x7e x01 x00 x00)))
(T (W x00 x00 x00 x00 x00 x00 x18 x00)
(L (W x00 x00 x00 x00 x00 x00 x00 x00)) E))
(T (W x01 x00 x03 x00 x01 x03 x05 x05)
(T (W x00 x00 x00 x00 x00 x00 x00 x00)
(L (W x80 x83 x7f x9b xdf x04 xc9 x00)) E)
(T (W x4b x02 x80 x00 x00 x00 x00 x00)
(L (W x00 x00 x00 x00 x00 x00 x00 x00)) E)))
(T (W x00 x00 x00 x00 x00 x00 x00 x00)
(T (W x43 x00 x43 x00 x06 x00 x00 x00)
(T (W x40 x00 x00 x00 x17 x84 x10 x8d)
(L (W x03 x00 x03 x00 x03 x03 x03 x03))
(L (W x03 x03 x0c x00 x00 x00 x00 x00)))
(T (W x00 x00 x00 x00 x3d x01 x00 x00)
(L (W x00 x00 x00 x00 x00 x00 x00 x00)) E))
(T (W x00 x00 x00 x00 x00 x00 x00 x00)
(T (W x00 x00 x00 x00 x1a x02 x00 x00)
(L (W x05 x05 x02 x03 x04 x02 x02 x02)) E)
(T (W x1e x00 x00 x00 x00 x00 x3c x00)
(L (W x00 x00 x00 x00 x00 x00 x00 x00)) E)))))
(T (W x4b x02 x40 x04 x00 x00 xf9 x00)
(T (W x00 x00 x00 x00 x7a x4c x11 x4c)
(T (W x00 x00 x64 x02 x00 x00 x08 x00)
(T (W x00 x00 x00 x00 x00 x00 x00 x00)
(T (W x00 x00 x00 x00 x00 x00 x00 x00)
(L (W x00 x00 x00 x00 x5e x00 x00 x00))
(L (W x00 x00 x9d x00 x00 x00 xbc x01)))
(T (W x00 x00 x00 x00 x00 x03 x10 xcc)
(L (W x00 x00 x00 x00 x00 x00 x00 x00)) E))
(T (W x78 x02 x02 x00 x00 x00 x00 x00)
(T (W x38 x4b x2e x13 x87 x13 x00 x89)
(L (W x1e x00 x00 x00 x00 x00 x2d x00)) E)
(T (W x00 x00 x00 x00 x00 x00 x00 x00)
(L (W x01 x01 x01 x01 x01 x01 x01 x01)) E)))
(T (W x00 x00 x00 x00 x00 x00 x00 x00)
(T (W x00 x00 x00 x00 x80 x01 x00 x00)
(T (W x00 x00 x00 x00 x00 x00 x00 x00)
(L (W x1e x03 x00 x03 x00 x00 x00 x00))
(L (W x00 x00 x00 x00 x9d x03 x00 x00)))
(T (W x00 x00 x8b x01 x00 x00 x99 x01)
(L (W x00 x00 x00 x00 x00 x00 x00 x00)) E))
(T (W x1e x00 x00 x00 x00 x00 x32 x00)
(T (W x05 x05 x03 x05 x05 x02 x02 x03)
(L (W x00 x00 x00 x00 x00 x00 x00 x00)) E)
(T (W x00 x00 x00 x00 x00 x00 x8e x00)
(L (W x00 x00 x00 x00 x00 x00 x00 x00)) E))))
(T (W x01 x00 x00 x00 x00 x00 x00 x00)
(T (W x0b x00 x4b x00 x5d x00 x00 x00)
(T (W x00 x43 xa1 x8b x96 x23 xf4 x06)
(T (W x00 x00 x00 x00 x00 x00 x00 x00)
(L (W x05 x05 x03 x03 x03 x02 x02 x03))
(L (W x00 x00 x00 x00 x00 x00 x00 x00)))
(T (W x1e x00 x00 x00 x00 x00 x32 x00)
(L (W x00 x80 x00 x00 x00 x00 x48 x00)) E))
(T (W x00 x00 x00 x00 x00 x00 x00 x00)
(T (W x00 x00 x00 x00 x00 x00 x00 x00)
(L (W x00 x00 xc4 x00 x00 x00 x3d x02)) E)
(T (W x02 x00 x03 x00 x02 x03 x03 x03)
(L (W x00 x00 x00 x00 x00 x00 x00 x00)) E)))
(T (W x02 x00 x03 x00 x03 x03 x04 x04)
(T (W x05 x05 x03 x03 x04 x02 x02 x03)
(T (W x00 x00 x00 x00 x00 x00 x00 x00)
(L (W x00 x00 x00 x00 x00 x00 x10 x0c)) E)
(T (W xa3 x00 xa3 x00 xa3 x00 x00 x00)
(L (W x00 x00 x00 x00 x00 x00 x00 x00)) E))
(T (W x00 x00 x2d x00 x00 x00 xb5 x00)
(T (W x19 x02 x80 x00 x00 x00 x00 x00)
(L (W x00 x00 x00 x00 x00 x00 x00 x00)) E)
(T (W x00 xc0 x23 x83 x82 x00 x20 x00)
(L (W x01 x00 x00 x00 x00 x00 x00 x00)) E))))))
(T (W x01 x00 x00 x00 x00 x00 x00 x00)
(T (W x00 x80 xa0 x83 xa6 x02 x00 x00)
(T (W x00 x00 x00 x00 x00 x00 x00 x00)
(T (W x5a x01 x10 x00 x00 x00 x72 x03)
(T (W x06 x00 x0b x00 x6d x00 x00 x00)
(T (W x40 x00 x00 x00 x32 x1f x19 x2f)
(L (W x01 x00 x03 x00 x01 x03 x04 x04))
(L (W x03 x03 x03 x00 x00 x00 x00 x00)))
(T (W x00 x00 x00 x00 x00 x00 x00 x00)
(L (W x00 x00 x00 x00 x00 x00 x00 x00)) E))
(T (W x00 x00 x00 x00 x00 x00 x00 x00)
(T (W x00 x00 x00 x00 xda x01 x00 x00)
(L (W x05 x05 x02 x03 x03 x02 x02 x02)) E)
(T (W x1e x00 x00 x00 x00 x00 x32 x00)
(L (W x00 x00 x00 x00 x00 x00 x00 x00)) E)))
(T (W x1e x00 x00 x00 x00 x00 x37 x00)
(T (W x02 x00 x03 x00 x02 x03 x05 x05)
(T (W x00 x00 x1d x00 x00 x00 xcc x00)
(L (W x00 x4b xe6 x07 x80 x18 x41 x08))
(L (W x1e x00 x00 x00 x00 x00 x41 x00)))
(T (W x3c x02 x08 x00 x00 x00 x00 x00)
(L (W x00 x00 x00 x00 xdf x01 x00 x00)) E))
(T (W x05 x05 x04 x04 x05 x02 x02 x04)
(T (W x00 x02 x00 x00 x00 x00 x00 x00)
(L (W x00 x00 x00 x00 x82 x00 x10 xcc)) E)
(T (W x9e x00 x9e x00 xaa x00 x00 x00)
(L (W x00 x00 x00 x00 x00 x00 x00 x00)) E))))
(T (W x05 x05 x02 x03 x03 x02 x02 x02)
(T (W x00 x00 x00 x00 x82 x0b x10 x8c)
(T (W x00 x00 x00 x00 x00 x00 x00 x00)
(T (W x1e x00 x00 x00 x00 x00 x37 x00)
(L (W x02 xc1 x00 x00 x00 x00 x00 x00))
(L (W xc1 x00 x00 x00 x35 x01 x38 x0d)))
(T (W x05 x05 x05 x05 x06 x02 x02 x05)
(L (W x00 x00 x00 x00 x00 x00 x00 x00)) E))
(T (W x00 x00 x00 x00 x00 x00 x00 x00)
(T (W x00 x00 x00 x00 x00 x00 x00 x00)
(L (W x2d x02 x08 x04 x00 x00 x00 x00)) E)
(T (W x00 x00 xe6 x00 x00 x00 xba x00)
(L (W x00 x00 x00 x00 x00 x00 x00 x00)) E)))
(T (W x00 x00 xb3 x01 x00 x00 xb3 x01)
(T (W x00 x00 x00 x00 x00 x00 x48 x00)
(T (W x04 x00 x61 x00 x33 x00 x00 x00)
(L (W x00 x00 x00 x00 x17 x00 x00 x00)) E)
(T (W x00 x00 x00 x00 x04 x88 x16 x0c)
(L (W x02 x00 x03 x00 x02 x03 x04 x04)) E))
(T (W x00 x00 x00 x00 x00 x00 x00 x00)
(T (W x80 x08 x21 x83 x84 x00 x00 x02)
(L (W x1e x00 x00 x00 x00 x00 x32 x00)) E)
(T (W x04 x00 x00 x00 x51 x03 x00 x00)
(L (W x01 x01 x01 x01 x01 x01 x01 x01)) E)))))
(T (W x00 x00 x4a x00 x00 x00 xca x00)
(T (W x3e x00 x63 x00 x50 x00 x00 x00)
(T (W x02 x00 x02 x00 x02 x02 x06 x06)
(T (W x05 x05 x05 x05 x06 x02 x02 x05)
(T (W x00 x00 x00 x00 x00 x00 x00 x00)
(L (W x00 x00 x00 x00 x00 x0f x10 x4e))
(L (W x02 x00 x02 x00 x03 x02 x03 x03)))
(T (W x8e x00 x62 x00 x90 x00 x00 x00)
(L (W x00 x00 x00 x00 x00 x00 x00 x00)) E))
(T (W x00 x00 x00 x00 x00 x00 x00 x00)
(T (W x03 x03 x0c x00 x00 x00 x00 x00)
(L (W x00 x00 x00 x00 xcb x03 x00 x00)) E)
(T (W x00 x00 x00 x00 x00 x00 x00 x00)
(L (W x01 x00 x00 x00 x00 x00 x00 x00)) E)))
(T (W x00 x00 x00 x00 x00 x00 x00 x00)
(T (W x01 x00 x00 x00 x83 x10 x10 x8c)
(T (W x00 x00 x00 x00 x6c x01 x00 x00)
(L (W x00 x00 xca x01 x00 x00 xca x01))
(L (W x20 x40 xa0 x87 x80 x8d x04 x0e)))
(T (W x02 x00 x03 x00 x02 x03 x03 x03)
(L (W x00 x00 x00 x00 x00 x00 x00 x00)) E))
(T (W x00 x00 x00 x00 x5a x01 x00 x00)
(T (W x1e x00 x00 x00 x00 x00 x28 x00)
(L (W x08 x00 x00 x00 x55 x00 x00 x00)) E)
(T (W x05 x05 x05 x05 x05 x02 x02 x05)
(L (W x00 x00 x00 x00 x00 x00 x00 x00)) E))))
(T (W x04 x00 x00 x00 x5a x00 x00 x00)
(T (W x02 x01 x00 x00 x00 x00 x4d x00)
(T (W x2d x03 x04 x05 x00 x00 xeb x00)
(T (W x80 x03 xa1 x83 xa6 x05 x00 x0d)
(L (W x0a x00 x00 x00 x00 x00 x28 x00))
(L (W x00 x00 x00 x00 x00 x00 x00 x00)))
(T (W x00 x00 x00 x00 x00 x00 x00 x00)
(L (W x01 x01 x01 x01 x01 x01 x01 x01)) E))
(T (W x00 x00 x00 x00 x00 x00 x00 x00)
(T (W x00 x00 x00 x00 x00 x00 x10 xec)
(L (W x03 x00 x03 x00 x02 x03 x03 x03)) E)
(T (W x00 x00 x00 x00 x3f x01 x00 x00)
(L (W x00 x00 x00 x00 x00 x00 x00 x00)) E)))
(T (W x00 x00 x00 x00 x00 x00 x00 x00)
(T (W x01 x00 x00 x00 x00 x00 x00 x00)
(T (W x05 x05 x03 x03 x04 x02 x02 x03)
(L (W xed x00 xed x00 x9b x00 x00 x00)) E)
(T (W x00 x00 x00 x00 x00 x00 x00 x00)
(L (W x80 x00 x00 x00 x10 x04 x50 x0c)) E))
(T (W x01 x00 x02 x00 x01 x02 x05 x05)
(T (W x00 x00 xa8 x01 x00 x00 xa8 x01)
(L (W x00 x10 x20 xc3 x84 x0e x00 x04)) E)
(T (W xbe x01 x40 x00 x00 x00 x5e x00)
(L (W x00 x00 x00 x00 xde x02 x00 x00)) E))))))))
(T (W x1e x00 x00 x00 x00 x00 x28 x00)
(T (W x00 x00 x00 x00 x00 x00 x00 x00)
(T (W x00 x00 x00 x00 x00 x00 x00 x00)
(T (W x00 x00 x00 x00 x00 x00 x00 x00)
(T (W x00 x00 x00 x00 x00 x00 x00 x00)
(T (W x05 x05 x02 x03 x03 x02 x02 x02)
(T (W x00 x00 x00 x00 x00 x00 x00 x00)
(T (W x03 x01 x10 x00 x00 x00 xe9 x00)
(L (W x04 x00 x00 x00 x34 x03 x00 x00))
(L (W x05 x05 x05 x05 x05 x02 x02 x05)))
(T (W x3b x83 xe0 x87 xa6 x8c x01 x8e)
(L (W x1e x00 x00 x00 x00 x00 x3c x00)) E))
(T (W x00 x04 x00 x00 x22 x00 x00 x00)
(T (W x31 x00 x31 x00 x48 x00 x00 x00)
(L (W x00 x00 x00 x00 xa3 x00 x00 x00)) E)
(T (W x00 x00 x00 x00 x00 x00 x00 x00)
(L (W x02 x00 x03 x00 x03 x03 x02 x02)) E)))
(T (W x00 x00 x00 x00 xfb x00 x15 x0c)
(T (W x00 x00 x00 x00 x00 x00 x00 x00)
(T (W x1e x00 x00 x00 x00 x00 x3c x00)
(L (W x00 x36 x00 x00 x00 x00 x00 x00))
(L (W x00 x00 x00 x00 x01 x0b x14 x0c)))
(T (W x05 x05 x03 x03 x04 x02 x02 x03)
(L (W x00 x00 x00 x00 x00 x00 x00 x00)) E))
(T (W x00 x00 x00 x00 x00 x00 x00 x00)
(T (W x00 x00 x00 x00 x00 x00 x00 x00)
(L (W x2d x02 x80 x00 x00 x00 x00 x00)) E)
(T (W x00 x00 x56 x00 x00 x00 x3b x00)
(L (W x00 x00 x00 x00 x00 x00 x00 x00)) E))))
(T (W x00 x00 x00 x00 x00 x00 x00 x00)
(T (W xe1 x01 x04 x00 x00 x00 xf3 x00)
(T (W x26 x00 x21 x00 x16 x00 x00 x00)
(T (W x00 x00 x00 x00 x00 x00 x00 x00)
(L (W x01 x00 x03 x00 x01 x03 x05 x05))
(L (W x03 x03 x03 x00 x00 x00 x00 x00)))
(T (W x00 x00 x00 x00 x49 x00 x00 x00)
(L (W x00 x00 x00 x00 x00 x00 x00 x00)) E))
(T (W x00 x80 x61 x83 x87 x00 x01 x00)
(T (W x00 x00 x00 x00 x00 x00 x00 x00)
(L (W x05 x05 x05 x06 x07 x02 x02 x05)) E)
(T (W x01 x00 x00 x00 x00 x00 x00 x00)
(L (W x00 x00 x00 x00 x00 x00 x00 x00)) E)))
(T (W x1e x00 x00 x00 x00 x00 x32 x00)
(T (W x01 x00 x03 x00 x01 x03 x04 x04)
(T (W x00 x00 x1c x00 x00 x00 x0b x02)
(L (W x00 x00 x2e x83 x92 x61 x30 x01))
(L (W x0a x00 x00 x00 x00 x00 x00 x00)))
(T (W x3c x02 x00 x02 x00 x00 x00 x00)
(L (W x00 x00 x00 x00 x00 x00 x00 x00)) E))
(T (W x05 x05 x05 x05 x05 x02 x02 x05)
(T (W x00 x00 x00 x00 x00 x00 x00 x00)
(L (W x00 x00 x00 x00 x12 x13 x30 xcc)) E)
(T (W x41 x00 x41 x00 xcb x00 x00 x00)
(L (W x00 x00 x00 x00 x00 x00 x00 x00)) E)))))
(T (W x1e x00 x00 x00 x00 x00 x41 x00)
(T (W x00 x00 xac x00 x00 x00 xb3 x00)
(T (W x00 x00 x00 x00 x6a x00 x00 x00)
(T (W x01 x00 x01 x00 x00 x00 x00 x00)
(T (W x01 x00 x03 x00 x01 x03 x01 x01)
(L (W x2d x02 x80 x00 x00 x00 xe4 x00))
(L (W x00 x00 x00 x00 x00 x00 x00 x00)))
(T (W x00 x00 x03 x01 x00 x00 x1b x02)
(L (W x00 x00 x00 x00 x00 x00 x00 x00)) E))
(T (W x1e x00 x00 x00 x00 x00 x64 x00)
(T (W x05 x05 x03 x03 x04 x02 x02 x03)
(L (W x12 x00 x49 x00 x31 x00 x00 x00)) E)
(T (W x00 x00 x00 x00 x00 x00 x00 x00)
(L (W x00 x00 x00 x00 x00 x00 x00 x00)) E)))
(T (W x00 x00 x00 x00 x00 x00 x00 x00)
(T (W x2d x01 x04 x00 x00 x00 x00 x00)
(T (W x00 x00 x00 x00 x00 x00 x00 x00)
(L (W x0a x00 x00 x00 x00 x00 x32 x00))
(L (W x00 x00 x02 x00 x00 x00 x00 x00)))
(T (W x00 x00 x00 x00 x6a x02 x00 x00)
(L (W x05 x05 x05 x05 x05 x02 x02 x05)) E))
(T (W x0c x00 x6b x00 x5d x00 x00 x00)
(T (W x00 x00 x00 x00 x00 x04 x10 x0c)
(L (W x00 x00 x00 x00 x00 x00 x00 x00)) E)
(T (W x00 x00 x00 x00 xc0 x00 x00 x00)
(L (W x00 x00 x00 x00 x00 x00 x00 x00)) E))))
(T (W x33 x00 x27 x00 x80 x00 xa0 x03)
(T (W x01 x00 x02 x00 x01 x02 x0a x08)
(T (W x05 x05 x03 x04 x04 x02 x02 x03)
(T (W x00 x00 x00 x00 x00 x00 x00 x00)
(L (W x00 x00 x00 x00 x19 x04 x10 x0c))
(L (W x00 x00 x00 x00 x00 x00 x00 x00)))
(T (W x0e x00 x7f x00 x44 x00 x00 x00)
(L (W x01 x00 x01 x00 x1f x00 x01 x00)) E))
(T (W x00 x00 x28 x00 x00 x00 x3c x02)
(T (W x00 x00 x00 x00 x00 x00 x00 x00)
(L (W x08 x00 x00 x00 xce x03 x00 x00)) E)
(T (W x00 x80 xe9 x8b xa3 x0a x61 x0e)
(L (W x01 x00 x00 x00 x00 x00 x00 x00)) E)))
(T (W x43 x4f x2e xe3 x86 x1b x00 x88)
(T (W x00 x00 x00 x00 x00 x00 x00 x00)
(T (W x00 x00 x00 x00 x00 x00 x00 x00)
(L (W x00 x00 x27 x00 x00 x00 x2b x02)) E)
(T (W x02 x00 x00 x00 x00 x00 x00 x00)
(L (W xbe x01 x10 x00 x00 x00 x00 x00)) E))
(T (W x00 x00 x00 x00 x6a x01 x00 x00)
(T (W x1e x00 x00 x00 x00 x00 x32 x00)
(L (W x00 x00 x00 x00 x00 x00 x00 x00)) E)
(T (W x01 x01 x01 x01 x01 x01 x01 x01)
(L (W x00 x00 x00 x00 x00 x00 x00 x00)) E))))))
(T (W x00 x00 x00 x00 x00 x00 x00 x00)
(T (W x05 x05 x05 x05 x06 x02 x02 x05)
(T (W xbe x01 x00 x01 x00 x00 x00 x00)
(T (W x01 x00 x00 x00 x00 x00 x00 x00)
(T (W x00 x00 x00 x00 x00 x00 x00 x00)
(T (W x00 x00 x00 x00 x00 x00 x00 x00)
(L (W x00 x00 x2c x9b x82 x20 x00 x00))
(L (W x0a x00 x00 x00 x00 x00 x28 x00)))
(T (W x2d x01 x04 x00 x00 x00 x00 x00)
(L (W x04 x00 x00 x00 xc7 x00 x00 x00)) E))
(T (W x01 x01 x01 x01 x01 x01 x01 x01)
(T (W x00 x00 x00 x00 x00 x00 x00 x00)
(L (W x00 x00 x00 x00 x78 x10 x32 x0c)) E)
(T (W x35 x00 xa7 x00 x25 x00 x00 x00)
(L (W x00 x00 x00 x00 x00 x00 x00 x00)) E)))
(T (W x3d x00 x3d x00 x3f x00 x00 x00)
(T (W x2b x20 xa1 x87 xc4 x0a x00 x18)
(T (W x00 x00 x00 x00 xaa x01 x00 x00)
(L (W x05 x05 x05 x05 x05 x02 x02 x05))
(L (W xf4 x00 x3a x00 x65 x00 x93 x04)))
(T (W x1e x00 x00 x00 x00 x00 x32 x00)
(L (W x00 x08 x00 x00 x00 x00 x00 x00)) E))
(T (W x00 x00 x00 x00 x22 x10 x10 x0d)
(T (W x00 x00 x00 x00 x1a x00 x00 x00)
(L (W x00 x00 x00 x00 x00 x00 x00 x00)) E)
(T (W x02 x00 x03 x00 x03 x03 x04 x03)
(L (W x00 x00 x00 x00 x00 x00 x00 x00)) E))))
(T (W x00 x00 x00 x00 x86 x90 x10 x8c)
(T (W x00 x00 x94 x01 x00 x00 x0e x00)
(T (W x00 x00 x00 x00 x00 x00 x00 x00)
(T (W x4f x00 x16 x00 x3e x00 x00 x00)
(L (W x00 x00 x00 x00 x00 x00 x00 x00))
(L (W x00 x00 xce x02 x00 x00 xce x02)))
(T (W x80 x00 x00 x00 x01 x10 x30 x5c)
(L (W x00 x00 x00 x00 x00 x00 x00 x00)) E))
(T (W x2d x02 x80 x00 x00 x00 x00 x00)
(T (W x00 x00 x00 x00 x00 x00 x00 x00)
(L (W x1e x00 x00 x00 x00 x00 x28 x00)) E)
(T (W x00 x00 x00 x00 xf6 x02 x00 x00)
(L (W x01 x01 x01 x01 x01 x01 x01 x01)) E)))
(T (W x00 x00 x00 x00 xaa x00 x00 x00)
(T (W x01 x00 x01 x00 x1f x00 x00 x00)
(T (W x02 x00 x02 x00 x03 x02 x05 x05)
(L (W x78 x02 x80 x00 x00 x00 x00 x00)) E)
(T (W x00 x00 xa1 x00 x00 x00 xa1 x00)
(L (W x00 x00 x00 x00 x00 x00 x00 x00)) E))
(T (W x1e x00 x00 x00 x00 x00 x32 x00)
(T (W x01 x01 x01 x01 x01 x01 x01 x01)
(L (W x08 x00 xdd x00 x9f x00 x93 x03)) E)
(T (W x24 x00 x00 x00 x00 x00 x00 x00)
(L (W x00 x00 x00 x00 x00 x00 x00 x00)) E)))))
(T (W x00 x00 x00 x00 x2a x00 x00 x00)
(T (W x01 x00 x02 x00 x01 x02 x04 x04)
(T (W x3f x83 xe0 x8f x97 x0a x61 x0a)
(T (W x00 x00 x00 x00 x00 x00 x00 x00)
(T (W x00 x00 x00 x00 x00 x00 x00 x00)
(L (W x00 x00 xb0 x02 x00 x00 xb6 x01))
(L (W x00 x43 x70 x4f x8f x11 x00 x03)))
(T (W x01 x00 x01 x00 x01 x01 x04 x04)
(L (W x00 x00 x00 x00 x00 x00 x00 x00)) E))
(T (W x00 x00 x00 x00 x2a x01 x00 x00)
(T (W x0a x00 x00 x00 x00 x00 x28 x00)
(L (W x00 x04 x00 x00 x00 x00 x28 x00)) E)
(T (W x01 x01 x01 x01 x01 x01 x01 x01)
(L (W x00 x00 x00 x00 x00 x00 x00 x00)) E)))
(T (W x01 x01 x01 x01 x01 x01 x01 x01)
(T (W x00 x00 x5c x01 x00 x00 x5e x00)
(T (W xff x01 x10 x00 x00 x00 x00 x00)
(L (W x00 x00 x00 x00 xb4 x03 x00 x00))
(L (W x05 x05 x04 x04 x05 x02 x02 x04)))
(T (W x00 xc0 xa1 x87 xa3 x0c x01 x0e)
(L (W x01 x00 x00 x00 x00 x00 x00 x00)) E))
(T (W x00 x05 x00 x00 x00 x00 x98 x00)
(T (W x83 x00 x90 x00 x67 x00 x00 x00)
(L (W x00 x00 x00 x00 xc2 x00 x00 x00)) E)
(T (W x00 x00 x00 x00 x02 x08 x10 x0c)
(L (W x00 x00 x00 x00 x00 x00 x00 x00)) E))))
(T (W x00 x00 x00 x00 x00 x00 x00 x00)
(T (W x00 x00 x00 x00 xc6 x00 x00 x00)
(T (W x01 x00 x00 x00 x00 x00 x00 x00)
(T (W x01 x01 x01 x01 x01 x01 x01 x01)
(L (W xe5 x00 xe5 x00 x8c x00 x00 x00))
(L (W x00 x00 x00 x00 x00 x00 x00 x00)))
(T (W x08 x00 x01 x00 x00 x00 x00 x00)
(L (W x00 x00 x00 x00 x00 x00 x00 x00)) E))
(T (W x03 x00 x03 x00 x02 x03 x05 x05)
(T (W x00 x00 xf2 x00 x00 x00 x47 x02)
(L (W x23 x63 x60 x03 x86 x00 x41 x00)) E)
(T (W xbe x01 x40 x00 x00 x00 x00 x00)
(L (W x00 x00 x00 x00 x00 x00 x00 x00)) E)))
(T (W x2d x03 x00 x0c x00 x00 x21 x02)
(T (W x22 x00 x30 x00 x7c x00 x00 x00)
(T (W x00 x00 x00 x00 xf1 x10 x10 x8c)
(L (W x03 x00 x03 x00 x03 x03 x05 x04)) E)
(T (W x00 x00 x00 x00 x00 x00 x00 x00)
(L (W x00 x00 x00 x00 x00 x00 x00 x00)) E))
(T (W x00 x00 x00 x00 x00 x00 x00 x00)
(T (W x00 x00 x00 x00 x2a x02 x00 x00)
(L (W x01 x01 x01 x01 x01 x01 x01 x01)) E)
(T (W x01 x00 x00 x00 x00 x00 x00 x00)
(L (W x00 x00 x00 x00 x00 x00 x00 x00)) E)))))))
(T (W x00 x00 x00 x00 x0a x00 x00 x00)
(T (W x00 x00 x00 x00 x00 x00 x00 x00)
(T (W x00 x00 x0e x00 x00 x00 x59 x00)
(T (W x08 x00 x47 x00 x9f x00 x94 x03)
(T (W x00 x00 x00 x00 x00 x00 x00 x00)
(T (W x01 x01 x01 x01 x01 x01 x01 x01)
(T (W x00 x14 x01 x00 x00 x00 x83 x00)
(L (W x00 x00 x00 x00 x82 x04 x10 x0c))
(L (W x02 x00 x03 x00 x02 x03 x02 x02)))
(T (W x98 x00 x98 x00 x98 x00 x00 x00)
(L (W x01 x00 x00 x00 x00 x00 x00 x00)) E))
(T (W x00 x00 x00 x00 x00 x00 x00 x00)
(T (W x2d x02 x20 x00 x00 x00 x00 x00)
(L (W x08 x00 x00 x00 xc8 x03 x00 x00)) E)
(T (W x00 x00 x00 x00 x00 x00 x00 x00)
(L (W x01 x00 x00 x00 x00 x00 x00 x00)) E)))
(T (W x40 x03 x24 x4b x8f x41 x08 x01)
(T (W x00 x00 x00 x00 x82 x34 x10 x0c)
(T (W x00 x00 x00 x00 xe7 x00 x00 x00)
(L (W x00 x00 x95 x01 x00 x00 x00 x00))
(L (W x00 x4b x36 x03 x00 x1a x00 x70)))
(T (W x02 x00 x03 x00 x03 x03 x03 x03)
(L (W x4b x02 x00 x02 x00 x00 xef x00)) E))
(T (W x00 x00 x00 x00 x4a x01 x00 x00)
(T (W x01 x00 x00 x00 x00 x00 x00 x00)
(L (W x00 x00 x00 x00 x00 x00 x00 x00)) E)
(T (W x05 x05 x02 x02 x03 x02 x02 x02)
(L (W x00 x00 x00 x00 x00 x00 x00 x00)) E))))
(T (W x00 x00 x00 x00 x00 x00 x00 x00)
(T (W x04 x00 x00 x00 x62 x00 x00 x00)
(T (W x2d x02 x08 x00 x00 x00 x00 x00)
(T (W x00 x00 x00 x00 x00 x00 x00 x00)
(L (W x1e x00 x00 x00 x00 x00 x2d x00))
(L (W x01 x00 x00 x00 x00 x00 x00 x00)))
(T (W x00 x00 x00 x00 x00 x00 x00 x00)
(L (W x01 x01 x01 x01 x01 x01 x01 x01)) E))
(T (W x00 x00 x00 x00 x00 x00 x00 x00)
(T (W x00 x00 x00 x00 x00 x00 x00 x00)
(L (W x03 x00 x03 x00 x02 x03 x03 x03)) E)
(T (W x00 x00 x00 x00 x4a x01 x00 x00)
(L (W x00 x00 x00 x00 x00 x00 x00 x00)) E)))
(T (W x00 x00 x00 x00 x00 x00 x00 x00)
(T (W x1e x00 x00 x00 x00 x00 x37 x00)
(T (W x05 x05 x04 x04 x05 x02 x02 x04)
(L (W xa7 x00 xa7 x00 x52 x00 x00 x00))
(L (W x00 x00 x00 x00 x00 x00 x00 x00)))
(T (W x00 x08 x00 x00 x00 x00 x65 x00)
(L (W x00 x00 x00 x00 x00 x00 x00 x00)) E))
(T (W x00 x00 x00 x00 x00 x00 x00 x00)
(T (W x00 x00 x72 x01 x00 x00 x72 x01)
(L (W x90 x83 xe8 x8b x8c x09 x09 x08)) E)
(T (W x2d x02 x80 x00 x00 x00 x00 x00)
(L (W x00 x00 x00 x00 x00 x00 x00 x00)) E)))))
(T (W x00 x00 x00 x00 x00 x00 x00 x00)
(T (W x05 x05 x04 x04 x05 x02 x02 x04)
(T (W x00 x00 x00 x00 x04 x83 x50 x0c)
(T (W x00 x00 x00 x00 xca x00 x00 x00)
(T (W x01 x00 x00 x00 x00 x00 x00 x00)
(L (W x40 x00 x00 x00 x00 x00 x00 x00))
(L (W x00 x00 x00 x00 x01 x20 x30 x8d)))
(T (W x05 x05 x03 x03 x04 x02 x02 x03)
(L (W x00 x00 x00 x00 x00 x00 x00 x00)) E))
(T (W x00 x00 x00 x00 x00 x00 x00 x00)
(T (W x02 x00 x00 x00 x00 x00 x00 x00)
(L (W x78 x01 x00 x01 x00 x00 x00 x00)) E)
(T (W x00 x00 x00 x00 x00 x00 x00 x00)
(L (W x00 x00 x00 x00 x00 x00 x00 x00)) E)))
(T (W x00 x00 x00 x00 x00 x00 x00 x00)
(T (W x00 x80 x00 x00 x00 x00 x8d x00)
(T (W x01 x00 x6a x00 x33 x00 x00 x00)
(L (W x00 x00 x00 x00 x00 x00 x00 x00))
(L (W x00 x00 x97 x00 x00 x00 x5d x02)))
(T (W x40 x00 x00 x00 x16 x04 x50 x8d)
(L (W x00 x00 x00 x00 x00 x00 x00 x00)) E))
(T (W x9b x02 x08 x00 x00 x00 x00 x00)
(T (W x40 x43 xae xf3 x82 x93 x00 x45)
(L (W x01 x00 x00 x00 x00 x00 x00 x00)) E)
(T (W x00 x00 x00 x00 xcc x02 x00 x00)
(L (W x01 x01 x01 x01 x01 x01 x01 x01)) E))))
(T (W x00 x00 x00 x00 x00 x00 x00 x00)
(T (W x1e x00 x00 x00 x00 x00 x1e x00)
(T (W x02 x00 x02 x00 x02 x02 x03 x03)
(T (W x00 x00 x00 x00 x00 x00 x00 x00)
(L (W x3b x03 x69 x87 x81 x0c x01 x8a))
(L (W x01 x00 x00 x00 x00 x00 x00 x00)))
(T (W x5a x02 x20 x00 x00 x00 x20 x01)
(L (W x00 x00 x00 x00 x00 x00 x00 x00)) E))
(T (W x05 x05 x03 x03 x04 x02 x02 x03)
(T (W x00 x00 x00 x00 x00 x00 x00 x00)
(L (W x00 x00 x00 x00 x00 x13 x10 x0d)) E)
(T (W x26 x00 x8f x00 x5b x00 x00 x00)
(L (W x00 x00 x00 x00 x00 x00 x00 x00)) E)))
(T (W x00 x00 x00 x00 x00 x00 x00 x00)
(T (W x3b x0b xa0 x9b x9e x68 x24 x88)
(T (W x00 x00 x00 x00 xca x01 x00 x00)
(L (W x05 x05 x05 x05 x06 x02 x02 x05)) E)
(T (W x1e x00 x00 x00 x00 x00 x28 x00)
(L (W x00 x00 x00 x00 x00 x00 x00 x00)) E))
(T (W x00 x00 x00 x00 x7b x04 x11 xcc)
(T (W x00 x00 x00 x00 x00 x00 x00 x00)
(L (W x00 x00 x27 x00 x00 x00 x24 x00)) E)
(T (W x01 x00 x02 x00 x02 x02 x04 x04)
(L (W x00 x00 x00 x00 x00 x00 x00 x00)) E))))))
(T (W x00 x00 x00 x00 x00 x00 x00 x00)
(T (W x01 x00 x03 x00 x01 x03 x04 x04)
(T (W x00 x00 x00 x00 x00 x00 x00 x00)
(T (W x00 x00 x00 x00 x00 x00 x00 x00)
(T (W x1e x00 x00 x00 x00 x00 x28 x00)
(T (W x05 x05 x05 x05 x05 x02 x02 x05)
(L (W x23 x00 x1b x00 x2c x00 x00 x00))
(L (W x00 x00 x00 x00 x00 x00 x00 x00)))
(T (W x80 x00 x00 x00 x00 x00 x00 x00)
(L (W x00 x00 x00 x00 x00 x00 x00 x00)) E))
(T (W x00 x00 x00 x00 x00 x00 x00 x00)
(T (W x00 x00 x0e x00 x00 x00 x0e x00)
(L (W x00 x00 x20 x83 x80 x00 x00 x00)) E)
(T (W x78 x02 x80 x00 x00 x00 x00 x00)
(L (W x00 x00 x00 x00 x00 x00 x00 x00)) E)))
(T (W x03 x03 x00 x03 x00 x00 x00 x00)
(T (W x2e x00 x2e x00 x27 x00 x00 x00)
(T (W x00 x00 x00 x00 x00 x00 x00 x00)
(L (W x00 x00 x00 x00 x00 x00 x00 x00))
(L (W x64 x02 x00 x08 x00 x00 x00 x00)))
(T (W x00 x00 x00 x00 x00 x00 x00 x00)
(L (W x00 x00 x3b x00 x00 x00 x3b x00)) E))
(T (W x00 x00 x00 x00 x00 x00 x00 x00)
(T (W x00 x00 x00 x00 x00 x00 x00 x00)
(L (W x05 x05 x05 x05 x05 x02 x02 x02)) E)
(T (W x1e x00 x00 x00 x00 x00 x32 x00)
(L (W x00 x00 x00 x00 x00 x00 x00 x00)) E))))
(T (W x17 xc3 x2a x8b x9e x79 xa0 x88)
(T (W x05 x05 x03 x04 x04 x02 x02 x03)
(T (W x00 x00 x00 x00 x00 x00 x00 x00)
(T (W xff x01 x00 x01 x00 x00 xf5 x00)
(L (W x00 x00 x00 x00 x33 x03 x00 x00))
(L (W x05 x05 x04 x05 x05 x02 x02 x04)))
(T (W x00 x00 x28 x9b xda x30 x80 x00)
(L (W x01 x00 x00 x00 x00 x00 x00 x00)) E))
(T (W x00 x00 x00 x00 x00 x00 x00 x00)
(T (W x00 x00 x00 x00 x00 x00 x00 x00)
(L (W x00 x00 x00 x00 x61 x01 x00 x00)) E)
(T (W x00 x00 x00 x00 x14 x4b x12 x0c)
(L (W x00 x00 x00 x00 x00 x00 x00 x00)) E)))
(T (W x00 x00 x00 x00 x06 xc8 x12 xce)
(T (W x00 x00 x00 x00 x00 x00 x00 x00)
(T (W x1e x00 x00 x00 x00 x00 x32 x00)
(L (W x00 x00 x00 x00 x0e x00 x00 x00)) E)
(T (W x05 x05 x05 x05 x05 x02 x02 x05)
(L (W x7d x00 x7d x00 xa1 x00 xf3 x03)) E))
(T (W x00 x00 x00 x00 x00 x00 x00 x00)
(T (W x02 x00 x03 x00 x03 x02 x03 x03)
(L (W xff x01 x04 x00 x00 x00 x00 x00)) E)
(T (W x00 x00 x00 x00 x00 x00 x00 x00)
(L (W x00 x00 x00 x00 x00 x00 x00 x00)) E)))))
(T (W x00 x00 x00 x00 x03 x00 x50 x0c)
(T (W x1e x00 x00 x00 x00 x00 x32 x00)
(T (W x30 x00 x71 x00 x27 x00 x00 x00)
(T (W x00 x83 x71 x87 x85 x00 x43 x02)
(T (W x00 x00 x00 x00 x00 x00 x00 x00)
(L (W x05 x05 x03 x03 x03 x02 x02 x03))
(L (W xe1 x00 xe1 x00 xe1 x00 x6f x04)))
(T (W x01 x00 x00 x00 x00 x00 x00 x00)
(L (W x00 x00 x00 x00 x00 x00 x00 x00)) E))
(T (W x00 x00 x00 x00 x00 x00 x00 x00)
(T (W x00 x00 x00 x00 x00 x00 x00 x00)
(L (W x00 x00 x4e x02 x00 x00 x03 x01)) E)
(T (W x00 x00 x00 x00 x00 x00 x00 x00)
(L (W x00 x00 x00 x00 x00 x00 x00 x00)) E)))
(T (W x00 x00 x00 x00 x00 x00 x00 x00)
(T (W x05 x05 x02 x03 x03 x02 x02 x02)
(T (W x00 x00 x00 x00 x06 x00 x00 x00)
(L (W x02 x00 x00 x00 x84 xb0 x30 x2c))
(L (W x00 x00 x00 x00 x00 x00 x00 x00)))
(T (W x33 x00 x7d x00 x37 x00 x00 x00)
(L (W x00 x00 x00 x00 x00 x00 x00 x00)) E))
(T (W x00 x00 x94 x01 x00 x00 x5e x01)
(T (W x2d x03 x0c x00 x00 x00 x00 x00)
(L (W x00 x00 x00 x00 x19 x00 x00 x00)) E)
(T (W x00 x00 x00 x00 x00 x00 x00 x00)
(L (W x01 x00 x00 x00 x00 x00 x00 x00)) E))))
(T (W x00 x00 xf8 x01 x00 x00 xf8 x01)
(T (W x00 x00 x00 x00 x8a x00 x00 x00)
(T (W x00 x00 x00 x00 x00 x00 x00 x00)
(T (W x00 x00 x00 x00 x00 x00 x00 x00)
(L (W x2d x02 x10 x04 x00 x00 x00 x00))
(L (W x00 x00 x00 x00 x00 x00 x00 x00)))
(T (W x00 x00 x00 x00 x00 x00 x00 x00)
(L (W x00 x00 x00 x00 x00 x00 x00 x00)) E))
(T (W x1e x00 x00 x00 x00 x00 x32 x00)
(T (W x05 x05 x03 x04 x04 x02 x02 x03)
(L (W x0b x00 x73 x00 xca x00 x00 x00)) E)
(T (W x00 xd0 x00 x00 x00 x00 x53 x00)
(L (W x00 x00 x00 x00 x00 x00 x00 x00)) E)))
(T (W x00 x00 x03 x00 x8d x00 x00 x00)
(T (W xbe x01 x40 x00 x3b x02 x00 x00)
(T (W x3f x83 xe0 x8f x97 x0a x61 x0a)
(L (W x1e x00 x00 x00 x00 x00 x2d x00)) E)
(T (W x00 x00 x00 x00 x00 x00 x00 x00)
(L (W x05 x05 x05 x05 x05 x02 x02 x05)) E))
(T (W x45 x00 x45 x00 x7d x00 x00 x00)
(T (W x00 x00 x00 x00 x01 x04 x90 x0c)
(L (W x00 x00 x00 x00 x00 x00 x00 x00)) E)
(T (W x00 x00 x00 x00 xbc x00 x00 x00)
(L (W x00 x00 x90 x01 x00 x00 x90 x01)) E)))))))))
(T (W x00 x00 x00 x00 x02 x00 x00 x00)
(T (W x00 x00 x4a x00 x00 x00 xca x00)
(T (W x05 x05 x03 x04 x05 x02 x02 x03)
(T (W x1e x00 x00 x00 x00 x00 x28 x00)
(T (W x00 x00 x00 x00 x00 x00 x00 x00)
(T (W x00 x00 x00 x00 x00 x00 x00 x00)
(T (W x2d x03 x00 x03 x00 x00 x00 x00)
(T (W x00 x00 x00 x00 x00 x00 x00 x00)
(T (W x40 x00 x00 x00 x0e xa4 x10 x8d)
(L (W x01 x00 x03 x00 x01 x03 x04 x04))
(L (W x78 x01 x10 x00 xef x00 xef x00)))
(T (W x00 x00 x00 x00 xe0 x00 x00 x00)
(L (W x00 x00 x5f x00 x00 x00 x96 x01)) E))
(T (W x3b x44 xae xab xc6 x13 x00 x08)
(T (W x00 x00 x00 x00 xd2 x01 x00 x00)
(L (W x05 x05 x03 x03 x04 x02 x02 x03)) E)
(T (W x01 x00 x00 x00 x00 x00 x00 x00)
(L (W x00 x00 x00 x00 x00 x00 x00 x00)) E)))
(T (W x1e x00 x00 x00 x00 x00 x3c x00)
(T (W x01 x00 x01 x00 x01 x01 x04 x04)
(T (W x00 x00 x00 x00 x00 x00 x00 x00)
(L (W x40 x4b x2e x0f xc4 x03 x00 x00))
(L (W x01 x00 x00 x00 x00 x00 x00 x00)))
(T (W x5a x02 x00 x02 x00 x00 x00 x00)
(L (W x00 x00 x00 x00 x00 x00 x00 x00)) E))
(T (W x01 x01 x01 x01 x01 x01 x01 x01)
(T (W x00 x00 x00 x00 x00 x00 x00 x00)
(L (W x40 x00 x00 x00 x00 x00 x10 x2c)) E)
(T (W xae x00 xae x00 x75 x00 x00 x00)
(L (W x00 x00 x00 x00 x00 x00 x00 x00)) E))))
(T (W x01 x01 x01 x01 x01 x01 x01 x01)
(T (W x00 x00 x00 x00 x78 x30 x11 x0d)
(T (W x00 x00 x00 x00 x00 x00 x00 x00)
(T (W x01 x00 x00 x00 x00 x00 x00 x00)
(L (W x00 x08 x00 x00 x7d x00 x00 x00))
(L (W xc1 x00 x00 x00 x35 x01 x38 x0d)))
(T (W x05 x05 x03 x04 x04 x02 x02 x03)
(L (W x00 x00 x00 x00 x00 x00 x00 x00)) E))
(T (W x00 x00 x00 x00 x27 x01 x00 x00)
(T (W x00 x00 x00 x00 x00 x00 x00 x00)
(L (W x2d x03 x30 x00 x00 x00 x00 x00)) E)
(T (W x00 x00 x90 x01 x00 x00 x67 x01)
(L (W x00 x00 x00 x00 x00 x00 x00 x00)) E)))
(T (W x00 x00 x2d x00 x00 x00 x73 x00)
(T (W x40 x00 x00 x00 x00 x00 x00 x00)
(T (W x08 x00 x08 x00 x18 x00 x00 x00)
(L (W x00 x00 x00 x00 x06 x00 x00 x00))
(L (W x00 x00 x00 x00 x00 x00 x00 x00)))
(T (W x00 x00 x00 x00 x00 x00 x10 x0c)
(L (W x00 x00 x00 x00 x00 x00 x00 x00)) E))
(T (W x3c x02 x00 x08 x00 x00 x00 x00)
(T (W x00 x00 x21 x8b x8a x40 x30 x00)
(L (W x01 x00 x00 x00 x00 x00 x00 x00)) E)
(T (W x00 x00 x00 x00 x49 x03 x00 x00)
(L (W x01 x01 x01 x01 x01 x01 x01 x01)) E)))))
(T (W x00 x00 xba x00 x00 x00 x6b x00)
(T (W x16 x00 x12 x00 x9a x00 x00 x00)
(T (W x01 x00 x03 x00 x01 x03 x05 x05)
(T (W x01 x01 x01 x01 x01 x01 x01 x01)
(T (W x00 x50 x00 x00 x00 x00 x00 x00)
(L (W x00 x00 x00 x00 x04 x80 x54 x8c))
(L (W x00 x00 x00 x00 x00 x00 x00 x00)))
(T (W x95 x00 x95 x00 x95 x00 x00 x00)
(L (W x00 x00 x00 x00 x00 x00 x00 x00)) E))
(T (W x00 x00 x0e x00 x00 x00 x67 x00)
(T (W x4b x02 x80 x00 x00 x00 x00 x00)
(L (W x00 x00 x00 x00 x93 x03 x00 x00)) E)
(T (W x00 x00 x00 x00 x00 x00 x00 x00)
(L (W x01 x00 x00 x00 x00 x00 x00 x00)) E)))
(T (W x00 x00 x00 x00 x00 x00 x00 x00)
(T (W x00 x00 x00 x00 x7a x10 x11 x8c)
(T (W x00 x00 x00 x00 x00 x00 x00 x00)
(L (W x00 x00 x00 x00 x00 x00 x00 x00))
(L (W x00 x0f x2a xb3 x80 x92 x00 x88)))
(T (W x02 x00 x03 x00 x03 x03 x03 x03)
(L (W x03 x03 x03 x00 x00 x00 x00 x00)) E))
(T (W x00 x00 x00 x00 x52 x01 x00 x00)
(T (W x1e x00 x00 x00 x00 x00 x28 x00)
(L (W x00 x80 x00 x00 x00 x00 xd0 x00)) E)
(T (W x05 x05 x03 x03 x03 x02 x02 x03)
(L (W x00 x00 x00 x00 x00 x00 x00 x00)) E))))
(T (W x00 x00 x00 x00 x52 x00 x00 x00)
(T (W x00 x80 x00 x00 x74 x00 x00 x00)
(T (W x3c x02 x10 x04 x00 x00 x88 x02)
(T (W x00 x00 x00 x00 x00 x00 x00 x00)
(L (W x1e x00 x00 x00 x00 x00 x2d x00))
(L (W x00 x00 x00 x00 x00 x00 x00 x00)))
(T (W x00 x00 x00 x00 x00 x00 x00 x00)
(L (W x05 x05 x02 x02 x03 x02 x02 x02)) E))
(T (W x1e x00 x26 x00 x66 x00 x00 x00)
(T (W x00 x00 x00 x00 x00 x00 x00 x00)
(L (W x03 x00 x02 x00 x02 x02 x04 x04)) E)
(T (W x00 x00 x00 x00 x23 x01 x00 x00)
(L (W x00 x00 x00 x00 x00 x00 x00 x00)) E)))
(T (W x00 x00 x00 x00 x01 x01 x00 x00)
(T (W x01 x00 x00 x00 x00 x00 x00 x00)
(T (W x05 x05 x03 x03 x04 x02 x02 x03)
(L (W x32 x00 x54 x00 xc6 x00 x00 x00)) E)
(T (W x50 x00 x00 x00 x00 x00 xcf x00)
(L (W x00 x00 x00 x00 x66 xac x30 x4c)) E))
(T (W x02 x00 x03 x00 x02 x03 x05 x05)
(T (W x00 x00 x1b x01 x00 x00 x49 x02)
(L (W x00 x00 x00 x00 x00 x00 x00 x00)) E)
(T (W x00 x00 x00 x00 x00 x00 x00 x00)
(L (W x00 x00 x00 x00 x00 x00 x00 x00)) E))))))
(T (W x00 x00 x00 x00 x00 x00 x00 x00)
(T (W x78 x02 x02 x00 x00 x00 x00 x00)
(T (W x00 x00 x00 x00 x02 x03 x12 x8c)
(T (W x00 x00 x0e x00 x00 x00 x98 x00)
(T (W x00 x00 x00 x00 x00 x00 x00 x00)
(T (W x1d x00 x1d x00 x87 x00 x00 x00)
(L (W x00 x00 x00 x00 xd6 x00 x00 x00))
(L (W x00 x00 x68 x02 x00 x00 x00 x00)))
(T (W x00 x00 x00 x00 xfa x04 x11 x8c)
(L (W x00 x00 x00 x00 x00 x00 x00 x00)) E))
(T (W x00 x00 x00 x00 x00 x00 x00 x00)
(T (W x00 x00 x00 x00 x00 x00 x00 x00)
(L (W x1e x00 x00 x00 x00 x00 x32 x00)) E)
(T (W x00 x00 x00 x00 x00 x00 x00 x00)
(L (W x05 x05 x05 x05 x05 x02 x02 x02)) E)))
(T (W x00 x00 x00 x00 x92 x00 x00 x00)
(T (W x00 x00 x00 x00 x00 x00 x00 x00)
(T (W x01 x00 x03 x00 x01 x03 x04 x04)
(L (W x2d x03 x0c x00 x00 x00 x00 x00))
(L (W x04 x00 x00 x00 x95 x03 x00 x00)))
(T (W x00 x00 x51 x01 x00 x00 x12 x02)
(L (W x00 x83 x60 x8b x9b x60 xa3 x00)) E))
(T (W x01 x00 x00 x00 x00 x00 x00 x00)
(T (W x05 x05 x04 x05 x05 x02 x02 x04)
(L (W x27 x00 x27 x00 x27 x00 x00 x00)) E)
(T (W x00 x08 x00 x00 x3c x00 x00 x00)
(L (W x00 x00 x00 x00 x00 x00 x00 x00)) E))))
(T (W x01 x00 x00 x00 x00 x00 x00 x00)
(T (W x44 x00 x65 x00 x50 x00 x00 x00)
(T (W x00 x00 x00 x00 x00 x00 x00 x00)
(T (W x00 x00 x00 x00 x00 x00 x00 x00)
(L (W x01 x01 x01 x01 x01 x01 x01 x01))
(L (W xe1 x00 xe1 x00 xe1 x00 x6f x04)))
(T (W x1e x00 x00 x00 x00 x00 x32 x00)
(L (W x00 x00 x00 x00 x00 x00 x00 x00)) E))
(T (W x00 x00 x00 x00 x06 x13 x10 x8c)
(T (W x00 x00 x00 x00 x00 x00 x00 x00)
(L (W x00 x00 xa5 x01 x00 x00 x59 x00)) E)
(T (W x03 x00 x03 x00 x02 x03 x04 x04)
(L (W x00 x00 x00 x00 x00 x00 x00 x00)) E)))
(T (W x01 x00 x03 x00 x01 x03 x03 x03)
(T (W x01 x01 x01 x01 x01 x01 x01 x01)
(T (W x41 x00 x00 x00 x00 x00 x87 x00)
(L (W x00 x00 x00 x00 x00 x30 x30 x0c)) E)
(T (W x1a x00 x1a x00 x1a x00 x00 x00)
(L (W x00 x00 x00 x00 x00 x00 x00 x00)) E))
(T (W x00 x00 x32 x00 x00 x00 x05 x01)
(T (W x00 x00 x00 x00 x00 x00 x00 x00)
(L (W x00 x00 x00 x00 x26 x00 x00 x00)) E)
(T (W x00 x00 x20 xab x9a x22 x80 x00)
(L (W x01 x00 x00 x00 x00 x00 x00 x00)) E)))))
(T (W x03 x00 x01 x00 x03 x01 x04 x04)
(T (W x00 x04 x00 x00 x20 x00 x00 x00)
(T (W x00 x00 x00 x00 x08 x01 x00 x00)
(T (W x01 x00 x00 x00 x00 x00 x00 x00)
(T (W x01 x01 x01 x01 x01 x01 x01 x01)
(L (W x66 x00 xd6 x00 xaf x00 x00 x00))
(L (W x00 x00 x00 x00 x7e x01 x00 x00)))
(T (W x00 x04 x00 x00 x00 x00 x35 x00)
(L (W x00 x00 x00 x00 x00 x00 x00 x00)) E))
(T (W x00 x00 x00 x00 x00 x00 x00 x00)
(T (W x00 x00 xe7 x00 x00 x00 x00 x00)
(L (W x00 x44 x2a xb3 x80 x12 x00 x00)) E)
(T (W x00 x00 x00 x00 x00 x00 x00 x00)
(L (W x00 x00 x00 x00 x00 x00 x00 x00)) E)))
(T (W x00 x00 x00 x00 x00 x00 x00 x00)
(T (W x1e x00 x1e x00 x1e x00 x00 x00)
(T (W x80 x00 x00 x00 x00 x0c x10 x0e)
(L (W x02 x00 x03 x00 x03 x03 x02 x02))
(L (W x3c x02 x20 x00 x00 x00 x00 x00)))
(T (W x00 x00 x00 x00 x59 x00 x00 x00)
(L (W x00 x00 x00 x00 x00 x00 x00 x00)) E))
(T (W x00 x8b x7e x03 x87 x10 x03 x30)
(T (W x00 x00 x00 x00 x12 x02 x00 x00)
(L (W x05 x05 x02 x03 x04 x02 x02 x02)) E)
(T (W x0a x00 x00 x00 x00 x00 x28 x00)
(L (W x00 x00 x00 x00 x00 x00 x00 x00)) E))))
(T (W x00 x00 x00 x00 x00 x00 x00 x00)
(T (W x05 x05 x04 x04 x04 x02 x02 x04)
(T (W x00 x00 xd3 x00 x00 x00 x41 x00)
(T (W x00 x00 x00 x00 x00 x00 x00 x00)
(L (W x00 x00 x00 x00 x3f x03 x00 x00))
(L (W x01 x01 x01 x01 x01 x01 x01 x01)))
(T (W x00 x41 x21 x03 x81 x00 x00 x04)
(L (W x01 x00 x00 x00 x00 x00 x00 x00)) E))
(T (W x00 x00 x01 x00 xbe x00 x00 x00)
(T (W x16 x00 x92 x00 x71 x00 x00 x00)
(L (W x00 x00 x00 x00 x2f x01 x00 x00)) E)
(T (W x00 x00 x00 x00 x31 x00 x51 x8c)
(L (W x00 x00 x00 x00 x00 x00 x00 x00)) E)))
(T (W x00 x00 x00 x00 x00 x00 x00 x00)
(T (W x00 x00 x00 x00 x12 x01 x00 x00)
(T (W x1e x00 x00 x00 x00 x00 x2d x00)
(L (W x10 x00 x00 x00 x00 x00 x04 x00)) E)
(T (W x05 x05 x05 x05 x06 x02 x02 x05)
(L (W x00 x00 x00 x00 x00 x00 x00 x00)) E))
(T (W x00 x00 x00 x00 x00 x00 x00 x00)
(T (W x03 x00 x01 x00 x01 x03 x04 x04)
(L (W x00 x00 x00 x00 x00 x00 x00 x00)) E)
(T (W x00 x00 x00 x00 x00 x00 x00 x00)
(L (W x00 x00 x00 x00 x00 x00 x00 x00)) E)))))))
(T (W x02 x00 x02 x00 x02 x02 x03 x03)
(T (W x00 x00 x00 x00 x00 x00 x00 x00)
(T (W x08 x00 x08 x00 x92 x00 x8f x03)
(T (W x00 x00 x00 x00 x32 x00 x00 x00)
(T (W x00 x00 x00 x00 x00 x00 x00 x00)
(T (W x00 x00 x00 x00 x00 x00 x00 x00)
(T (W x30 x03 x76 x0f x87 x09 x01 x00)
(L (W x1e x00 x00 x00 x00 x00 x32 x00))
(L (W x10 x28 x00 x00 x00 x00 x00 x00)))
(T (W x00 x00 x00 x00 x32 x02 x00 x00)
(L (W x05 x05 x03 x04 x04 x02 x02 x03)) E))
(T (W x00 x00 x00 x00 x00 x00 x00 x00)
(T (W x00 x00 x00 x00 x00 x00 x00 x00)
(L (W x02 x00 x03 x00 x03 x03 x03 x03)) E)
(T (W x00 x00 x00 x00 x00 x00 x00 x00)
(L (W x00 x00 x38 x00 x00 x00 x38 x00)) E)))
(T (W x00 x00 x00 x00 x05 x01 x00 x00)
(T (W x1e x00 x00 x00 x00 x00 x32 x00)
(T (W x05 x05 x03 x03 x04 x02 x02 x03)
(L (W xe0 x00 xe0 x00 xe0 x00 x00 x00))
(L (W x00 x00 x00 x00 x00 x00 x00 x00)))
(T (W x02 x28 x00 x00 x00 x00 x31 x00)
(L (W x00 x00 x00 x00 x00 x00 x00 x00)) E))
(T (W x03 x00 x02 x00 x02 x02 x04 x04)
(T (W x00 x00 x00 x00 x00 x00 x00 x00)
(L (W x00 x93 x20 x07 x80 x1f x00 x04)) E)
(T (W xb4 x02 x80 x00 x00 x00 x00 x00)
(L (W x00 x00 x00 x00 x00 x00 x00 x00)) E))))
(T (W x02 x00 x01 x00 x02 x01 x05 x05)
(T (W x00 x40 x26 x0b x9a x21 x80 x00)
(T (W x00 x00 x00 x00 x02 x04 x70 x4c)
(T (W x00 x00 x00 x00 x00 x00 x00 x00)
(L (W x00 x00 x44 x00 x00 x00 xae x00))
(L (W x00 x43 x70 x4f x8f x11 x00 x03)))
(T (W x00 x00 x00 x00 x00 x00 x00 x00)
(L (W x00 x00 x00 x00 x00 x00 x00 x00)) E))
(T (W x08 x00 x00 x00 x32 x01 x00 x00)
(T (W x01 x00 x00 x00 x00 x00 x00 x00)
(L (W x02 x30 x00 x00 x00 x00 x00 x00)) E)
(T (W x05 x05 x03 x03 x03 x02 x02 x03)
(L (W x00 x00 x00 x00 x00 x00 x00 x00)) E)))
(T (W x01 x01 x01 x01 x01 x01 x01 x01)
(T (W x00 x00 x85 x00 x00 x00 x4a x01)
(T (W x32 x01 x01 x00 xea x00 xea x00)
(L (W x04 x00 x00 x00 xb9 x03 x00 x00))
(L (W x05 x05 x05 x05 x05 x02 x02 x02)))
(T (W x00 xc2 x61 x83 xa1 x02 x01 x00)
(L (W x01 x00 x00 x00 x00 x00 x00 x00)) E))
(T (W x00 x00 x00 x00 x00 x00 x00 x00)
(T (W x05 x00 x27 x00 x68 x00 x00 x00)
(L (W x00 x00 x01 x00 x00 x00 x01 x00)) E)
(T (W x02 x00 x00 x00 x07 x80 x14 x0d)
(L (W x00 x00 x00 x00 x00 x00 x00 x00)) E)))))
(T (W x05 x05 x04 x05 x05 x02 x02 x04)
(T (W x2d x03 x30 x00 x00 x00 xdd x00)
(T (W x1e x00 x00 x00 x00 x00 x3c x00)
(T (W x00 x00 x00 x00 x00 x00 x00 x00)
(T (W x00 x00 x00 x00 x00 x00 x00 x00)
(L (W x33 x03 x60 xa3 x80 x0c x01 x8a))
(L (W x19 x00 x00 x00 x00 x00 x37 x00)))
(T (W xc8 x01 x00 x04 x00 x00 x00 x00)
(L (W x00 x00 x00 x00 x00 x00 x00 x00)) E))
(T (W x05 x05 x05 x05 x06 x02 x02 x05)
(T (W x00 x04 x00 x00 x00 x00 x00 x00)
(L (W x00 x00 x00 x00 x1a x00 x31 x0c)) E)
(T (W x00 x00 x00 x00 x00 x00 x00 x00)
(L (W x00 x00 x00 x00 x00 x00 x00 x00)) E)))
(T (W x00 x00 x00 x00 x00 x00 x00 x00)
(T (W x3b xc3 x61 x87 x97 x0c x43 x0e)
(T (W x00 x00 x00 x00 xb2 x01 x00 x00)
(L (W x05 x05 x05 x05 x05 x02 x02 x05))
(L (W xaf x00 xaf x00 xa5 x00 x96 x04)))
(T (W x1e x00 x00 x00 x00 x00 x37 x00)
(L (W x00 x00 x00 x00 x00 x00 x00 x00)) E))
(T (W x00 x00 x00 x00 x7b x00 x51 x0c)
(T (W x00 x00 x00 x00 xae x00 x00 x00)
(L (W x00 x00 x00 x00 x00 x00 x00 x00)) E)
(T (W x02 x00 x03 x00 x02 x03 x03 x03)
(L (W x00 x00 x00 x00 x00 x00 x00 x00)) E))))
(T (W x00 x00 x00 x00 x00 x00 x00 x00)
(T (W x00 x00 xc3 x00 x00 x00 x17 x03)
(T (W x00 x08 x00 x00 x2d x00 x00 x00)
(T (W x00 x00 x00 x00 x00 x00 x00 x00)
(L (W x00 x00 x00 x00 x89 x01 x00 x00))
(L (W x00 x00 x00 x00 x00 x00 x00 x00)))
(T (W x80 x00 x00 x00 x00 x01 x90 x0c)
(L (W x00 x00 x00 x00 x00 x00 x00 x00)) E))
(T (W xe1 x01 x04 x00 x00 x00 x00 x00)
(T (W x00 x00 x00 x00 x00 x00 x00 x00)
(L (W x1e x00 x00 x00 x00 x00 x32 x00)) E)
(T (W x00 x00 x00 x00 xc5 x02 x00 x00)
(L (W x01 x01 x01 x01 x01 x01 x01 x01)) E)))
(T (W x00 x00 x00 x00 xb2 x00 x00 x00)
(T (W x00 x00 x00 x00 x25 x00 x00 x00)
(T (W x00 x00 x00 x00 x00 x00 x00 x00)
(L (W x4b x02 x00 x08 x00 x00 x00 x00)) E)
(T (W x00 x00 x27 x02 x00 x00 x27 x02)
(L (W x00 x00 x00 x00 x00 x00 x00 x00)) E))
(T (W x1e x00 x00 x00 x00 x00 x3c x00)
(T (W x05 x05 x04 x05 x05 x02 x02 x04)
(L (W x32 x00 x01 x01 x6b x00 x9b x03)) E)
(T (W x08 x08 x00 x00 x00 x00 x00 x00)
(L (W x00 x00 x00 x00 x00 x00 x00 x00)) E))))))
(T (W x00 x00 x00 x00 x00 x00 x00 x00)
(T (W x00 x00 x00 x00 x00 x00 x44 x00)
(T (W x00 x00 x00 x00 x00 x00 x00 x00)
(T (W x05 x05 x04 x04 x05 x02 x02 x04)
(T (W x00 x00 x4a x01 x00 x00 x4a x01)
(T (W x03 x03 x00 x03 x00 x00 x00 x00)
(L (W x00 x00 x00 x00 x65 x03 x00 x00))
(L (W x05 x05 x05 x05 x05 x02 x02 x05)))
(T (W x00 x00 xb0 x93 x86 x00 x40 x82)
(L (W x01 x00 x00 x00 x00 x00 x00 x00)) E))
(T (W x00 x00 x00 x00 x00 x00 x00 x00)
(T (W x50 x00 x50 x00 x9a x00 x00 x00)
(L (W x00 x00 x00 x00 xb5 x00 x00 x00)) E)
(T (W x00 x00 x00 x00 x01 x10 x10 x0c)
(L (W x00 x00 x00 x00 x00 x00 x00 x00)) E)))
(T (W x40 x00 x00 x00 x7e x97 x11 x8d)
(T (W x00 x00 x00 x00 xf2 x00 x00 x00)
(T (W x1e x00 x00 x00 x00 x00 x32 x00)
(L (W x00 x14 x00 x00 x00 x00 x00 x00))
(L (W x00 x00 x00 x00 x00 x48 x10 x2e)))
(T (W x05 x05 x03 x04 x04 x02 x02 x03)
(L (W x1a x00 x1a x00 x1a x00 xd9 x03)) E))
(T (W x00 x00 x00 x00 x00 x00 x00 x00)
(T (W x01 x00 x03 x00 x01 x03 x04 x03)
(L (W x03 x03 xc0 x00 x00 x00 x00 x00)) E)
(T (W x00 x00 x41 x02 x00 x00 x03 x01)
(L (W x00 x00 x00 x00 x00 x00 x00 x00)) E))))
(T (W x01 x00 x01 x00 x00 x00 x00 x00)
(T (W x2d x02 x00 x02 x00 x00 x43 x01)
(T (W x00 x00 x00 x00 x00 x00 x00 x00)
(T (W x00 x00 x00 x00 x00 x13 x10 x8c)
(L (W x02 x00 x03 x00 x03 x03 x03 x03))
(L (W x03 x03 x03 x00 x00 x00 x00 x00)))
(T (W x00 x00 x00 x00 x00 x00 x00 x00)
(L (W x00 x00 x00 x00 x00 x00 x00 x00)) E))
(T (W x00 x00 x00 x00 x00 x00 x00 x00)
(T (W x00 x00 x00 x00 x00 x00 x00 x00)
(L (W x05 x05 x05 x06 x06 x02 x02 x05)) E)
(T (W x1e x00 x00 x00 x00 x00 x28 x00)
(L (W x00 x00 x00 x00 x00 x00 x00 x00)) E)))
(T (W x1e x00 x00 x00 x00 x00 x32 x00)
(T (W x00 x00 x00 x00 x00 x00 x00 x00)
(T (W x00 x00 x31 x01 x00 x00 xda x01)
(L (W x00 x00 x00 x00 x00 x00 x00 x00)) E)
(T (W x03 x03 x30 x00 x00 x00 x00 x00)
(L (W x00 x00 x00 x00 x2a x02 x00 x00)) E))
(T (W x01 x01 x01 x01 x01 x01 x01 x01)
(T (W x00 x08 x01 x00 x4b x00 x00 x00)
(L (W x00 x00 x00 x00 x02 x03 x12 x8c)) E)
(T (W x00 x00 x00 x00 x00 x00 x00 x00)
(L (W x00 x00 x00 x00 x00 x00 x00 x00)) E)))))
(T (W x1e x00 x00 x00 x00 x00 x32 x00)
(T (W x00 x00 x53 x01 x00 x00 x17 x01)
(T (W x00 x00 x00 x00 x72 x00 x00 x00)
(T (W x00 x00 x00 x00 x00 x00 x00 x00)
(T (W x00 x00 x00 x00 x00 x00 x00 x00)
(L (W x2d x02 x08 x00 x00 x00 x00 x00))
(L (W x02 x00 x00 x00 x5e x03 x00 x00)))
(T (W x00 x00 xd8 x01 x00 x00 x5e x00)
(L (W x00 x00 x00 x00 x00 x00 x00 x00)) E))
(T (W x01 x00 x00 x00 x00 x00 x00 x00)
(T (W x05 x05 x05 x05 x05 x02 x02 x02)
(L (W x9e x00 x77 x00 x7c x00 x00 x00)) E)
(T (W x00 x00 x00 x00 x00 x00 x00 x00)
(L (W x00 x00 x00 x00 x00 x00 x00 x00)) E)))
(T (W x00 x00 x00 x00 x00 x00 x00 x00)
(T (W x2d x03 xc0 x00 x00 x00 x00 x00)
(T (W x00 x48 x2a xab x8e x02 x00 x88)
(L (W x1e x00 x00 x00 x00 x00 x32 x00))
(L (W x08 x80 x00 x00 x68 x00 x9d x00)))
(T (W x00 x00 x00 x00 x72 x02 x00 x00)
(L (W x01 x01 x01 x01 x01 x01 x01 x01)) E))
(T (W x04 x00 x04 x00 x21 x00 x00 x00)
(T (W x00 x00 x00 x00 x80 x20 x30 x0c)
(L (W x02 x00 x02 x00 x03 x02 x03 x03)) E)
(T (W x00 x00 x00 x00 x00 x00 x00 x00)
(L (W x00 x00 x00 x00 x00 x00 x00 x00)) E))))
(T (W x4b x00 x5c x00 x8e x00 x00 x00)
(T (W x01 x00 x03 x00 x01 x03 x05 x05)
(T (W x05 x05 x03 x03 x04 x02 x02 x03)
(T (W x00 x02 x00 x00 xcc x00 x00 x00)
(L (W x00 x00 x00 x00 x00 x00 x00 x00))
(L (W x00 x00 x00 x00 x00 x00 x00 x00)))
(T (W x00 x00 x00 x00 x00 x00 x00 x00)
(L (W x00 x00 x00 x00 x00 x00 x00 x00)) E))
(T (W x00 x00 x00 x00 x00 x00 x00 x00)
(T (W x5a x02 x80 x00 x00 x00 x00 x00)
(L (W x06 x00 x00 x00 xc2 x03 x00 x00)) E)
(T (W x00 x80 x60 xa7 x85 x08 x41 x04)
(L (W x01 x00 x00 x00 x00 x00 x00 x00)) E)))
(T (W x13 x83 x22 xab x9a xab x30 x08)
(T (W x00 x00 x00 x00 x00 x00 x00 x00)
(T (W x00 x00 x00 x00 x00 x00 x00 x00)
(L (W x00 x00 x61 x02 x00 x00 xd1 x00)) E)
(T (W x00 x00 x00 x00 x00 x00 x00 x00)
(L (W x03 x03 xc0 x00 x00 x00 x00 x00)) E))
(T (W x00 x00 x00 x00 x00 x00 x00 x00)
(T (W x1e x00 x00 x00 x00 x00 x32 x00)
(L (W x00 x02 x00 x00 x00 x00 x00 x00)) E)
(T (W x05 x05 x03 x03 x03 x02 x02 x03)
(L (W xb0 x00 xb0 x00 xb0 x00 x5b x04)) E))))))))
(T (W x02 x00 x00 x00 x07 x80 x10 x8d)
(T (W x13 x80 x20 x8b x9a x6a x81 x08)
(T (W x00 x00 x00 x00 x00 x00 x00 x00)
(T (W x02 x00 x02 x00 x03 x02 x03 x03)
(T (W x00 x00 x00 x00 x00 x00 x00 x00)
(T (W x00 x00 x00 x00 xb2 x00 x00 x00)
(T (W x01 x00 x00 x00 x00 x00 x00 x00)
(T (W x05 x05 x04 x04 x05 x02 x02 x04)
(L (W xc4 x00 x07 x00 x90 x00 x00 x00))
(L (W x01 x00 x00 x00 xc0 x00 x00 x00)))
(T (W x40 x80 x00 x00 xa2 x00 x00 x00)
(L (W x00 x00 x00 x00 x04 x83 x50 x0c)) E))
(T (W x02 x00 x02 x00 x02 x02 x03 x03)
(T (W x00 x00 x07 x00 x00 x00 xb4 x01)
(L (W x00 x00 x00 x80 x00 x00 x00 x00)) E)
(T (W x00 x00 x00 x00 x00 x00 x00 x00)
(L (W x08 x00 x00 x00 x86 x02 x00 x00)) E)))
(T (W x2d x02 x80 x00 x00 x00 x00 x00)
(T (W x00 x00 x00 x00 x00 x00 x00 x00)
(T (W x00 x00 x00 x00 x01 x00 x10 x0c)
(L (W x03 x00 x00 x00 x00 x00 x00 x00))
(L (W xff x03 x0c x00 x00 x00 x00 x00)))
(T (W x00 x00 x00 x00 x1f x01 x00 x00)
(L (W x00 x00 x00 x00 x00 x00 x00 x00)) E))
(T (W x00 x89 x60 x93 x85 x00 x23 x00)
(T (W x00 x00 x00 x00 x00 x00 x00 x00)
(L (W x05 x05 x04 x04 x04 x02 x02 x04)) E)
(T (W x1e x00 x00 x00 x00 x00 x32 x00)
(L (W x00 x00 x00 x00 x00 x00 x00 x00)) E))))
(T (W x00 x00 xa9 x9b x9a x20 x80 x02)
(T (W x05 x05 x03 x03 x03 x02 x02 x03)
(T (W x00 x00 xfe x00 x00 x00 x17 x01)
(T (W x00 x00 x00 x00 x00 x00 x00 x00)
(L (W x00 x00 x00 x00 x37 x03 x00 x00))
(L (W x05 x05 x04 x05 x05 x02 x02 x04)))
(T (W x00 x03 x32 x8b xaa x50 x08 x00)
(L (W x01 x00 x00 x00 x00 x00 x00 x00)) E))
(T (W x00 x00 x01 x00 x00 x00 xbf x00)
(T (W x00 x00 x00 x00 x00 x00 x00 x00)
(L (W x02 x00 x01 x00 xb7 x00 x02 x00)) E)
(T (W x00 x00 x00 x00 x00 x09 x10 x8e)
(L (W x00 x00 x00 x00 x00 x00 x00 x00)) E)))
(T (W x00 x00 x00 x00 x00 x00 x00 x00)
(T (W x00 x00 x00 x00 x02 x01 x00 x00)
(T (W x1e x00 x00 x00 x00 x00 x37 x00)
(L (W x00 x00 x00 x00 x00 x00 x00 x00))
(L (W x00 x00 x00 x00 x82 x00 x10 xcc)))
(T (W x05 x05 x05 x05 x06 x02 x02 x05)
(L (W x00 x00 x00 x00 x00 x00 x00 x00)) E))
(T (W x00 x00 x00 x00 x00 x00 x00 x00)
(T (W x03 x00 x03 x00 x01 x03 x03 x03)
(L (W x4b x03 xc0 x00 x00 x00 x00 x00)) E)
(T (W x00 x00 x36 x01 x00 x00 x4b x00)
(L (W x00 x00 x00 x00 x00 x00 x00 x00)) E)))))
(T (W x00 x00 x00 x00 x06 x90 x10 xcc)
(T (W x1e x00 x00 x00 x00 x00 x28 x00)
(T (W x33 x00 x59 x00 x27 x00 x00 x00)
(T (W x00 x00 x00 x00 x00 x00 x00 x00)
(T (W x00 x00 x00 x00 x00 x00 x00 x00)
(L (W x05 x05 x03 x03 x03 x02 x02 x03))
(L (W x14 x00 x14 x00 x14 x00 x6b x04)))
(T (W x1e x00 x00 x00 x00 x00 x28 x00)
(L (W x00 x00 x00 x00 x00 x00 x00 x00)) E))
(T (W x00 x00 x00 x00 x66 x80 x10 x0c)
(T (W x00 x00 x00 x00 x74 x01 x00 x00)
(L (W x00 x00 xe9 x01 x00 x00 xac x00)) E)
(T (W x00 x00 x00 x00 x00 x00 x00 x00)
(L (W x00 x00 x00 x00 x00 x00 x00 x00)) E)))
(T (W x00 x00 x00 x00 x00 x00 x00 x00)
(T (W x05 x05 x04 x04 x05 x02 x02 x04)
(T (W x00 x00 x00 x00 x00 x00 x00 x00)
(L (W x80 x00 x00 x00 x02 x04 x10 x0c))
(L (W x02 x00 x03 x00 x02 x03 x04 x04)))
(T (W x27 x00 x90 x00 x78 x00 x00 x00)
(L (W x00 x00 x00 x00 x00 x00 x00 x00)) E))
(T (W x00 x00 x37 x00 x00 x00 x4a x01)
(T (W x2d x03 x0c x00 xe5 x00 xee x00)
(L (W x01 x00 x00 x00 xda x03 x00 x00)) E)
(T (W x00 x00 x68 x8b x8a x00 x09 x00)
(L (W x01 x00 x00 x00 x00 x00 x00 x00)) E))))
(T (W x00 x00 x0e x00 x00 x00 x0e x00)
(T (W x00 x00 x00 x00 x82 x00 x00 x00)
(T (W x00 x00 x00 x00 x94 x00 x00 x00)
(T (W x00 x00 x00 x00 x00 x00 x00 x00)
(L (W x2d x01 x10 x00 x00 x00 x46 x01))
(L (W x00 x00 x00 x00 x00 x00 x00 x00)))
(T (W x00 x00 x0f x02 x00 x00 xe6 x01)
(L (W x80 xc3 xa1 x8f x96 x83 x20 x0e)) E))
(T (W x01 x00 x00 x00 x00 x00 x00 x00)
(T (W x01 x01 x01 x01 x01 x01 x01 x01)
(L (W xf8 x00 xf8 x00 xf8 x00 x9e x04)) E)
(T (W x00 x00 x00 x00 x00 x00 x00 x00)
(L (W x00 x00 x00 x00 x00 x00 x00 x00)) E)))
(T (W x00 x02 x00 x00 x00 x00 x00 x00)
(T (W xff x01 x00 x04 x00 x00 xdb x00)
(T (W x00 x00 x00 x00 x00 x00 x00 x00)
(L (W x1e x00 x00 x00 x00 x00 x32 x00)) E)
(T (W x00 x00 x00 x00 x82 x02 x00 x00)
(L (W x05 x05 x03 x03 x03 x02 x02 x03)) E))
(T (W x2f x00 x73 x00 x0c x00 x00 x00)
(T (W x00 x00 x00 x00 x01 x00 x10 x4c)
(L (W x00 x00 x00 x00 x00 x00 x00 x00)) E)
(T (W x00 x00 x00 x00 x00 x00 x00 x00)
(L (W x00 x00 x00 x00 x00 x00 x00 x00)) E))))))
(T (W x00 x00 x00 x00 x00 x00 x00 x00)
(T (W x00 x00 x00 x00 x00 x00 x00 x00)
(T (W x05 x05 x03 x03 x04 x02 x02 x03)
(T (W x00 x00 x00 x00 x00 x00 x00 x00)
(T (W x00 x00 x00 x00 xc2 x00 x00 x00)
(T (W x0a x00 x00 x00 x00 x00 x28 x00)
(L (W x00 x08 x00 x00 x00 x00 x5c x00))
(L (W x40 x00 x00 x00 x02 x04 x30 x8d)))
(T (W x05 x05 x03 x03 x04 x02 x02 x03)
(L (W x00 x00 x00 x00 x00 x00 x00 x00)) E))
(T (W x00 x00 x00 x00 x00 x00 x00 x00)
(T (W x02 x00 x02 x00 x03 x02 x03 x03)
(L (W xff x01 x40 x00 x00 x00 x00 x00)) E)
(T (W x00 x00 x21 x00 x00 x00 xa2 x00)
(L (W x40 x4b x37 x13 x80 x01 x00 x05)) E)))
(T (W x00 x00 x56 x00 x00 x00 xef x00)
(T (W x00 x00 x00 x00 x00 x00 x12 x00)
(T (W x32 x00 x67 x00 x07 x00 x00 x00)
(L (W x00 x00 x00 x00 x00 x00 x00 x00))
(L (W x00 x00 x8e x01 x00 x00 x4a x02)))
(T (W x00 x00 x00 x00 xf0 x00 x10 x4c)
(L (W x02 x00 x03 x00 x03 x03 x03 x03)) E))
(T (W x2d x02 x00 x08 x00 x00 x00 x00)
(T (W x40 x00 x20 xc3 x86 x01 x00 x01)
(L (W x0a x00 x00 x00 x00 x00 x00 x00)) E)
(T (W x08 x00 x00 x00 xfd x02 x00 x00)
(L (W x01 x01 x01 x01 x01 x01 x01 x01)) E))))
(T (W x3c x02 x80 x00 x00 x00 x00 x00)
(T (W x1e x00 x00 x00 x00 x00 x32 x00)
(T (W x00 x00 x00 x00 x00 x00 x00 x00)
(T (W x00 x00 x2c x00 x00 x00 xd1 x00)
(L (W x03 x2b x20 x83 xc4 x04 x01 x0a))
(L (W x1e x00 x00 x00 x00 x00 x28 x00)))
(T (W xbe x01 x01 x00 x56 x00 x57 x00)
(L (W x00 x00 x00 x00 x00 x00 x00 x00)) E))
(T (W x05 x05 x03 x03 x03 x02 x02 x03)
(T (W x00 x00 x00 x00 x00 x00 x00 x00)
(L (W x00 x00 x00 x00 x00 x48 x18 x4e)) E)
(T (W x83 x00 x83 x00 xa5 x00 x00 x00)
(L (W x00 x00 x00 x00 x00 x00 x00 x00)) E)))
(T (W x0a x00 x23 x00 x0b x00 x00 x00)
(T (W x80 xc3 xa0 xab x96 x03 x20 x08)
(T (W x08 x00 x00 x00 xc2 x01 x00 x00)
(L (W x05 x05 x03 x03 x03 x02 x02 x03)) E)
(T (W x1e x00 x00 x00 x00 x00 x37 x00)
(L (W x00 x00 x00 x00 x00 x00 x00 x00)) E))
(T (W x00 x00 x00 x00 x00 x00 x00 x00)
(T (W x00 x00 x00 x00 x00 x00 x00 x00)
(L (W x00 x00 xe8 x00 x00 x00 xe8 x00)) E)
(T (W x02 x00 x02 x00 x03 x02 x04 x03)
(L (W x00 x00 x00 x00 x00 x00 x00 x00)) E)))))
(T (W x22 x00 x22 x00 x32 x00 x00 x00)
(T (W x00 x00 x00 x00 x42 x00 x00 x00)
(T (W x00 x11 x00 x00 xb8 x00 x00 x00)
(T (W xbe x02 x01 x00 x00 x00 x00 x00)
(T (W x00 x00 x00 x00 x00 x00 x00 x00)
(L (W x1e x00 x00 x00 x00 x00 x37 x00))
(L (W x01 x00 x00 x00 x00 x00 x00 x00)))
(T (W x00 x00 x00 x00 x42 x02 x00 x00)
(L (W x01 x01 x01 x01 x01 x01 x01 x01)) E))
(T (W x00 x00 x00 x00 x00 x00 x00 x00)
(T (W x80 x00 x00 x00 x06 x84 x10 x0c)
(L (W x02 x00 x03 x00 x02 x03 x04 x04)) E)
(T (W x00 x00 x00 x00 x00 x00 x00 x00)
(L (W x00 x00 x00 x00 x00 x00 x00 x00)) E)))
(T (W x00 x00 x00 x00 x00 x00 x00 x00)
(T (W x1e x00 x00 x00 x00 x00 x28 x00)
(T (W x05 x05 x03 x03 x04 x02 x02 x03)
(L (W x41 x00 x41 x00 xe5 x00 x00 x00))
(L (W x01 x00 x00 x00 x51 x01 x00 x00)))
(T (W x00 x80 x00 x00 x1d x00 x00 x00)
(L (W x00 x00 x00 x00 x00 x00 x00 x00)) E))
(T (W x01 x00 x02 x00 x01 x02 x05 x05)
(T (W x00 x00 x2d x00 x00 x00 x30 x01)
(L (W x27 xc0 xa6 xa3 x82 x0b x00 x08)) E)
(T (W x03 x03 x03 x00 x00 x00 x00 x00)
(L (W x00 x00 x00 x00 x00 x00 x00 x00)) E))))
(T (W x00 x00 x00 x00 x00 x00 x00 x00)
(T (W x04 xa3 x20 xa7 xc6 xc3 x00 x00)
(T (W x00 x00 x00 x00 x00 x00 x00 x00)
(T (W x00 x00 x00 x00 x74 x00 x00 x00)
(L (W x00 x00 x14 x02 x00 x00 x00 x00))
(L (W x00 x00 x00 x00 x00 x00 x00 x00)))
(T (W x02 x00 x02 x00 x02 x02 x10 x10)
(L (W x00 x00 x00 x00 x00 x00 x00 x00)) E))
(T (W x00 x00 x00 x00 x00 x00 x00 x00)
(T (W x1e x00 x00 x00 x00 x00 x37 x00)
(L (W x08 x10 x00 x00 x00 x00 x00 x00)) E)
(T (W x05 x05 x02 x03 x03 x02 x02 x02)
(L (W x00 x00 x00 x00 x00 x00 x00 x00)) E)))
(T (W x05 x05 x03 x03 x03 x02 x02 x03)
(T (W x00 x00 x18 x02 x00 x00 x1e x02)
(T (W x1e x03 x00 x03 x00 x00 xe9 x00)
(L (W x0c x00 x00 x00 x88 x03 x00 x00)) E)
(T (W x00 x00 x00 x00 x00 x00 x00 x00)
(L (W x01 x00 x00 x00 x00 x00 x00 x00)) E))
(T (W x00 x00 x00 x00 x00 x00 x00 x00)
(T (W x7d x00 x7d x00 xa1 x00 xf3 x03)
(L (W x01 x00 x01 x00 x00 x00 x01 x00)) E)
(T (W x00 x00 x00 x00 x00 x00 x00 x00)
(L (W x00 x00 x00 x00 x00 x00 x00 x00)) E)))))))
(T (W x3d x00 x3d x00 x3d x00 x00 x00)
(T (W x00 x00 x00 x00 x00 x00 x00 x00)
(T (W x1e x00 x00 x00 x00 x00 x3c x00)
(T (W x00 x00 x0b x02 x00 x00 x5a x00)
(T (W x04 x00 x00 x00 x62 x00 x00 x00)
(T (W x00 x00 x00 x00 x00 x00 x00 x00)
(T (W x00 x00 x00 x00 x00 x00 x00 x00)
(L (W x3c x02 x08 x00 x00 x00 x0d x01))
(L (W x00 x00 x00 x00 x00 x03 x00 x00)))
(T (W x00 x00 xd7 x01 x00 x00 xf7 x00)
(L (W x42 x03 x23 x47 x80 x0d x10 x07)) E))
(T (W x01 x00 x00 x00 x00 x00 x00 x00)
(T (W x05 x05 x04 x05 x05 x02 x02 x04)
(L (W xf5 x00 x3d x00 x08 x00 x00 x00)) E)
(T (W x00 x00 x00 x00 x00 x00 x00 x00)
(L (W x80 x00 x00 x00 x64 x0b x1c x0c)) E)))
(T (W x20 x02 x00 x00 x00 x00 xca x00)
(T (W x2d x01 x00 x01 x00 x00 x00 x00)
(T (W x00 x00 x00 x00 x00 x00 x00 x00)
(L (W x0a x00 x00 x00 x00 x00 x28 x00))
(L (W x00 x00 x03 x00 x00 x00 x00 x00)))
(T (W x00 x00 x00 x00 x62 x02 x00 x00)
(L (W x05 x05 x03 x04 x04 x02 x02 x03)) E))
(T (W x00 x00 x00 x00 x00 x00 x00 x00)
(T (W x00 x00 x00 x00 x00 x08 x12 x0e)
(L (W x00 x00 x00 x00 x00 x00 x00 x00)) E)
(T (W x00 x00 x00 x00 x00 x00 x00 x00)
(L (W x00 x00 x00 x00 x00 x00 x00 x00)) E))))
(T (W x00 x00 x00 x00 x00 x00 x00 x00)
(T (W x01 x00 x01 x00 x01 x01 x03 x03)
(T (W x05 x05 x03 x03 x04 x02 x02 x03)
(T (W x00 x00 x00 x00 x00 x00 x00 x00)
(L (W xc1 x00 x00 x00 x35 x01 x38 x0d))
(L (W x02 x00 x02 x00 x03 x02 x03 x03)))
(T (W x09 x00 x09 x00 x4e x00 x00 x00)
(L (W x00 x00 x00 x00 x00 x00 x00 x00)) E))
(T (W x00 x00 x00 x00 x00 x00 x00 x00)
(T (W x03 x03 x03 x00 x00 x00 x00 x00)
(L (W x00 x00 x00 x00 xd4 x03 x00 x00)) E)
(T (W x00 x10 x65 x83 x82 x08 x00 x00)
(L (W x01 x00 x00 x00 x00 x00 x00 x00)) E)))
(T (W x00 x00 x00 x00 x00 x00 x00 x00)
(T (W x00 x00 x00 x00 x00 x00 x00 x00)
(T (W x00 x00 x00 x00 x2a x01 x00 x00)
(L (W x00 x00 x21 x00 x00 x00 x4b x01)) E)
(T (W x03 x00 x02 x00 x02 x02 x04 x04)
(L (W x00 x00 x00 x00 x00 x00 x00 x00)) E))
(T (W x00 x00 x00 x00 x00 x00 x00 x00)
(T (W x01 x00 x00 x00 x00 x00 x00 x00)
(L (W x20 x00 x01 x00 xa9 x00 x00 x00)) E)
(T (W x05 x05 x03 x03 x04 x02 x02 x03)
(L (W x00 x00 x00 x00 x00 x00 x00 x00)) E)))))
(T (W x3b xcb x3f xab x86 x8a x10 x88)
(T (W x00 x00 x00 x00 x00 x00 x00 x00)
(T (W x3c x02 x20 x00 x00 x00 xe4 x00)
(T (W x00 x00 x00 x00 x00 x00 x00 x00)
(T (W x00 x00 x00 x00 x00 x00 x00 x00)
(L (W x02 x00 x03 x00 x03 x03 x05 x04))
(L (W x3c x02 x01 x00 x00 x00 x00 x00)))
(T (W x00 x00 x00 x00 x0c x01 x00 x00)
(L (W x00 x00 x00 x00 x00 x00 x00 x00)) E))
(T (W x00 x00 x00 x00 x00 x00 x00 x00)
(T (W x00 x00 x00 x00 xe2 x01 x00 x00)
(L (W x05 x05 x03 x03 x03 x02 x02 x03)) E)
(T (W x01 x00 x00 x00 x00 x00 x00 x00)
(L (W x00 x00 x00 x00 x00 x00 x00 x00)) E)))
(T (W x01 x00 x00 x00 x00 x00 x00 x00)
(T (W x02 x00 x00 x00 x00 x00 x00 x00)
(T (W x00 x00 x8b x00 x00 x00 xda x01)
(L (W x00 x40 x20 x03 x80 x00 x00 x00))
(L (W x1e x00 x00 x00 x00 x00 x32 x00)))
(T (W xbe x01 x04 x00 x00 x00 x0d x01)
(L (W x00 x00 x00 x00 x00 x00 x00 x00)) E))
(T (W x05 x05 x04 x05 x05 x02 x02 x04)
(T (W x00 x06 x00 x00 x98 x00 x00 x00)
(L (W x00 x00 x00 x00 x12 x13 x30 xcc)) E)
(T (W x77 x00 x97 x00 x8c x00 x00 x00)
(L (W x00 x00 x00 x00 x00 x00 x00 x00)) E))))
(T (W x01 x01 x01 x01 x01 x01 x01 x01)
(T (W x00 x00 x00 x00 x02 x20 x10 xac)
(T (W x0c x00 x00 x00 xe2 x00 x00 x00)
(T (W x01 x00 x00 x00 x00 x00 x00 x00)
(L (W x40 x40 x00 x00 xa7 x00 x00 x00))
(L (W x00 x00 x00 x00 x00 x00 x00 x00)))
(T (W x05 x05 x04 x04 x04 x02 x02 x04)
(L (W x00 x00 x00 x00 x00 x00 x00 x00)) E))
(T (W x00 x00 x00 x00 x00 x00 x00 x00)
(T (W x00 x00 x00 x00 x00 x00 x00 x00)
(L (W xbe x01 x04 x00 x00 x00 x17 x01)) E)
(T (W x00 x00 x56 x01 x00 x00 x96 x01)
(L (W x00 x00 x00 x00 x00 x00 x00 x00)) E)))
(T (W x00 x00 x00 x00 x00 x00 x00 x00)
(T (W x10 x00 x00 x00 x00 x00 x00 x00)
(T (W x75 x00 x75 x00 x2b x00 x00 x00)
(L (W x00 x00 x00 x00 x22 x00 x00 x00)) E)
(T (W x00 x00 x00 x00 x03 x0c x50 x8d)
(L (W x00 x00 x00 x00 x00 x00 x00 x00)) E))
(T (W x00 x00 x00 x00 x00 x00 x00 x00)
(T (W x03 x80 xe0 x87 xa1 x0c x03 x0e)
(L (W x1e x00 x00 x00 x00 x00 x37 x00)) E)
(T (W x00 x00 x00 x00 x46 x03 x00 x00)
(L (W x01 x01 x01 x01 x01 x01 x01 x01)) E))))))
(T (W x01 x01 x01 x01 x01 x01 x01 x01)
(T (W x08 x00 x00 x00 x22 x00 x00 x00)
(T (W x00 x00 x00 x00 x00 x00 x00 x00)
(T (W x2b x80 xe1 x8b x85 x09 x01 x08)
(T (W x00 x00 x00 x00 x02 x28 x10 xac)
(T (W x00 x00 x00 x00 x00 x00 x00 x00)
(L (W x00 x00 x4f x00 x00 x00 x9c x02))
(L (W x00 x00 x00 x00 x00 x00 x00 x00)))
(T (W x03 x00 x02 x00 x03 x02 x04 x04)
(L (W x00 x00 x00 x00 x00 x00 x00 x00)) E))
(T (W x00 x00 x00 x00 x22 x01 x00 x00)
(T (W x01 x00 x00 x00 x00 x00 x00 x00)
(L (W x00 x00 x00 x00 x00 x00 x00 x00)) E)
(T (W x05 x05 x02 x03 x03 x02 x02 x02)
(L (W x00 x00 x00 x00 x00 x00 x00 x00)) E)))
(T (W x05 x05 x05 x06 x06 x02 x02 x05)
(T (W x00 x00 xd1 x00 x00 x00 x00 x00)
(T (W x00 x00 x00 x00 x00 x00 x00 x00)
(L (W x00 x00 x00 x00 x73 x03 x00 x00))
(L (W x05 x05 x04 x04 x05 x02 x02 x04)))
(T (W x00 x00 x20 x93 x82 x00 x20 x20)
(L (W x1e x00 x00 x00 x00 x00 x32 x00)) E))
(T (W x00 x00 x00 x00 x00 x00 x00 x00)
(T (W x00 x00 x00 x00 x00 x00 x00 x00)
(L (W x00 x00 x00 x00 x00 x00 x00 x00)) E)
(T (W x00 x00 x00 x00 x00 x0c x10 x0c)
(L (W x00 x00 x00 x00 x00 x00 x00 x00)) E))))
(T (W x00 x04 x00 x00 x02 x00 x00 x00)
(T (W x00 x00 x00 x00 x00 x00 x00 x00)
(T (W x1e x00 x00 x00 x00 x00 x28 x00)
(T (W x05 x05 x03 x03 x03 x02 x02 x03)
(L (W x00 x00 x00 x00 x00 x00 x00 x00))
(L (W x00 x00 x00 x00 x7e x01 x00 x00)))
(T (W x00 x20 x00 x00 xc0 x00 x00 x00)
(L (W x00 x00 x00 x00 x00 x00 x00 x00)) E))
(T (W x00 x00 x00 x00 x00 x00 x00 x00)
(T (W x00 x00 x00 x00 x00 x00 x00 x00)
(L (W x00 x00 x20 x8b x80 x00 x08 x00)) E)
(T (W xbe x01 x04 x00 x00 x00 x00 x00)
(L (W x00 x00 x00 x00 x00 x00 x00 x00)) E)))
(T (W xaa x01 x01 x00 x00 x00 x00 x00)
(T (W x00 x00 x00 x00 x00 x00 x00 x00)
(T (W x00 x00 x00 x00 x80 x04 x50 x6c)
(L (W x02 x00 x01 x00 x01 x01 x05 x04)) E)
(T (W x00 x00 x00 x00 x00 x00 x00 x00)
(L (W x00 x00 xa8 x01 x00 x00 xa8 x01)) E))
(T (W x00 x00 x08 x20 x00 x00 x00 x00)
(T (W x00 x00 x00 x00 x22 x02 x00 x00)
(L (W x05 x05 x03 x03 x04 x02 x02 x03)) E)
(T (W x01 x00 x00 x00 x00 x00 x00 x00)
(L (W x00 x00 x00 x00 x00 x00 x00 x00)) E)))))
(T (W x00 x00 x00 x00 x00 x00 x00 x00)
(T (W x00 x00 x00 x00 x00 x00 x00 x00)
(T (W x00 x00 x2d x00 x00 x00 xca x01)
(T (W x00 x11 x01 x00 x00 x00 x00 x00)
(T (W x00 x00 x00 x00 x00 x00 x00 x00)
(L (W x00 x00 x00 x00 xe8 x00 x00 x00))
(L (W x00 x00 xce x02 x00 x00 xce x02)))
(T (W x00 x00 x00 x00 x00 x00 x00 x00)
(L (W x00 x00 x00 x00 x00 x00 x00 x00)) E))
(T (W x2d x02 x14 x00 x00 x00 x09 x01)
(T (W x00 x4b x2e x8b x86 x03 x00 x30)
(L (W x1e x00 x00 x00 x00 x00 x28 x00)) E)
(T (W x00 x00 x00 x00 xf0 x02 x00 x00)
(L (W x01 x01 x01 x01 x01 x01 x01 x01)) E)))
(T (W x00 x00 x00 x00 x00 x00 x00 x00)
(T (W x00 x00 x00 x00 x00 x00 x00 x00)
(T (W x00 x00 x00 x00 x00 x00 x00 x00)
(L (W x2d x02 x80 x00 x00 x00 x00 x00))
(L (W x02 x00 x00 x00 xab x03 x00 x00)))
(T (W x00 x00 x6e x01 x00 x00 xd4 x01)
(L (W x00 x00 x00 x00 x00 x00 x00 x00)) E))
(T (W x1e x00 x00 x00 x00 x00 x37 x00)
(T (W x05 x05 x03 x03 x04 x02 x02 x03)
(L (W x09 x00 x09 x00 x1f x00 x85 x03)) E)
(T (W x00 x00 x00 x00 x00 x00 x00 x00)
(L (W x00 x00 x00 x00 x00 x00 x00 x00)) E))))
(T (W x1e x00 x00 x00 x00 x00 x32 x00)
(T (W x21 x00 x4b x00 x85 x00 x00 x00)
(T (W x00 x00 x00 x00 x00 x00 x00 x00)
(T (W x00 x00 x00 x00 x00 x00 x00 x00)
(L (W x05 x05 x04 x04 x04 x02 x02 x04))
(L (W x00 x00 x00 x00 x00 x00 x00 x00)))
(T (W x01 x00 x00 x00 x00 x00 x00 x00)
(L (W x00 x00 x00 x00 x00 x00 x00 x00)) E))
(T (W x00 x00 x00 x00 x00 x00 x00 x00)
(T (W x00 x00 x00 x00 x00 x00 x00 x00)
(L (W x00 x00 xf3 x02 x00 x00 xf3 x02)) E)
(T (W x01 x00 x01 x00 x01 x01 x04 x04)
(L (W x00 x00 x00 x00 x00 x00 x00 x00)) E)))
(T (W x02 x00 x02 x00 x02 x02 x04 x04)
(T (W x05 x05 x03 x03 x03 x02 x02 x03)
(T (W x00 x11 x00 x00 xb9 x00 x00 x00)
(L (W x00 x00 x00 x00 x00 x00 x90 x0c)) E)
(T (W x00 x00 x00 x00 x00 x00 x00 x00)
(L (W x01 x00 x00 x00 x00 x00 x00 x00)) E))
(T (W x00 x00 x2b x00 x00 x00 x1d x00)
(T (W x4b x02 x20 x00 x00 x00 xee x00)
(L (W x00 x00 x00 x00 x00 x00 x00 x00)) E)
(T (W x00 x00 x60 x87 x80 x00 x01 x00)
(L (W x1e x00 x00 x00 x00 x00 x32 x00)) E))))))))))
(T (W x01 x00 x00 x00 x03 x00 x52 x0c)
(T (W x2d x02 x00 x05 x00 x00 x00 x00)
(T (W x00 x00 x00 x00 x00 x00 x00 x00)
(T (W x00 x00 x00 x00 x06 x00 x00 x00)
(T (W x00 x0b xa8 x93 x86 x01 x00 x01)
(T (W x00 x00 x00 x00 x00 x00 x00 x00)
(T (W x00 x00 x00 x00 x00 x00 x00 x00)
(T (W x02 x00 x02 x00 x03 x02 x02 x02)
(T (W x05 x05 x04 x04 x05 x02 x02 x04)
(T (W x00 x00 x00 x00 x00 x00 x72 x00)
(L (W x00 x00 x00 x00 x01 x10 x10 x8c))
(L (W x01 x00 x03 x00 x02 x03 x03 x03)))
(T (W x3d x00 x99 x00 x16 x00 x00 x00)
(L (W x00 x00 x00 x00 x00 x00 x00 x00)) E))
(T (W x00 x00 xfe x00 x00 x00 x38 x00)
(T (W x1e x03 x0c x00 x00 x00 x42 x01)
(L (W x08 x00 x00 x00 xa6 x03 x00 x00)) E)
(T (W x00 x00 x00 x00 x00 x00 x00 x00)
(L (W x0a x00 x00 x00 x00 x00 x28 x00)) E)))
(T (W x00 x80 xe1 x9b x9b x00 xe1 x00)
(T (W x00 x00 x00 x00 x60 x1b x18 x8e)
(T (W x00 x00 x00 x00 x00 x00 x00 x00)
(L (W x00 x00 xc9 x02 x00 x00 xc9 x02))
(L (W x00 x00 x00 x00 x00 x00 x00 x00)))
(T (W x02 x00 x03 x00 x03 x03 x05 x05)
(L (W x00 x00 x00 x00 x00 x00 x00 x00)) E))
(T (W x00 x00 x00 x00 x00 x00 x00 x00)
(T (W x01 x00 x00 x00 x00 x00 x00 x00)
(L (W x00 x00 x01 x00 x00 x00 x00 x00)) E)
(T (W x05 x05 x05 x05 x06 x02 x02 x05)
(L (W x00 x00 x00 x00 x00 x00 x00 x00)) E))))
(T (W x00 x00 x00 x00 x00 x00 x00 x00)
(T (W x04 x40 x00 x00 xc6 x00 x00 x00)
(T (W x00 x00 x00 x00 x00 x00 x00 x00)
(T (W x00 x00 x00 x00 x00 x00 x00 x00)
(L (W x1e x00 x00 x00 x00 x00 x3c x00))
(L (W x01 x00 x00 x00 x00 x00 x00 x00)))
(T (W x00 x00 x00 x00 x46 x02 x00 x00)
(L (W x01 x01 x01 x01 x01 x01 x01 x01)) E))
(T (W x34 x00 x16 x00 x7d x00 x00 x00)
(T (W x00 x00 x00 x00 x00 x00 x00 x00)
(L (W x02 x00 x03 x00 x02 x03 x04 x03)) E)
(T (W x00 x00 x00 x00 x70 x00 x00 x00)
(L (W x00 x00 x00 x00 x00 x00 x00 x00)) E)))
(T (W x00 x00 x00 x00 x13 x00 x00 x00)
(T (W x1e x00 x00 x00 x00 x00 x32 x00)
(T (W x05 x05 x04 x04 x05 x02 x02 x04)
(L (W x42 x00 x42 x00 xec x00 x00 x00))
(L (W x00 x00 x04 x00 x90 x01 x00 x00)))
(T (W x00 x02 x00 x00 xb4 x00 x00 x00)
(L (W x00 x00 x00 x00 x00 x00 x00 x00)) E))
(T (W x02 x00 x02 x00 x02 x02 x05 x04)
(T (W x00 x00 x33 x00 x00 x00 x4a x01)
(L (W x00 x00 x00 x00 x00 x00 x00 x00)) E)
(T (W x2d x01 x01 x00 x00 x00 x00 x00)
(L (W x00 x00 x00 x00 x00 x00 x00 x00)) E)))))
(T (W x00 x00 x00 x00 xff x00 x00 x00)
(T (W x05 x05 x04 x04 x04 x02 x02 x04)
(T (W x00 x00 x00 x00 xe7 xa4 x10 x8d)
(T (W x00 x00 x00 x00 x00 x00 x00 x00)
(T (W x0a x00 x00 x00 x00 x00 x28 x00)
(L (W x00 x00 x00 x00 x00 x00 x00 x00))
(L (W x00 x00 x00 x00 x00 x00 x00 x00)))
(T (W x05 x05 x03 x03 x04 x02 x02 x03)
(L (W x00 x00 x00 x00 x00 x00 x00 x00)) E))
(T (W x00 x00 x00 x00 x69 x00 x00 x00)
(T (W x02 x00 x03 x00 x02 x03 x04 x03)
(L (W xbe x01 x04 x00 x00 x00 x00 x00)) E)
(T (W x00 x00 xe8 x01 x00 x00 x00 x02)
(L (W x00 x00 x00 x00 x00 x00 x00 x00)) E)))
(T (W x00 x00 xa1 x01 x00 x00 x17 x03)
(T (W x00 x01 x00 x00 x00 x00 x00 x00)
(T (W x00 x00 x00 x00 x00 x00 x00 x00)
(L (W x00 x00 x00 x00 x00 x00 x00 x00))
(L (W x00 x00 x97 x00 x00 x00 x5d x02)))
(T (W x00 x00 x00 x00 x02 x10 xf4 x6c)
(L (W x02 x00 x03 x00 x03 x03 x03 x03)) E))
(T (W x2d x02 x08 x00 x5a x00 x50 x00)
(T (W x00 x00 x60 x83 x81 x00 x43 x00)
(L (W x0a x00 x00 x00 x00 x00 x00 x00)) E)
(T (W x00 x00 x00 x00 xdf x02 x00 x00)
(L (W x01 x01 x01 x01 x01 x01 x01 x01)) E))))
(T (W x3c x02 x00 x02 x00 x00 xe9 x00)
(T (W x1e x00 x00 x00 x00 x00 x28 x00)
(T (W x02 x00 x02 x00 x02 x02 x04 x04)
(T (W x00 x00 xda x01 x00 x00 x57 x02)
(L (W x40 x4b x6a xcb x86 x03 x00 x08))
(L (W x01 x00 x00 x00 x00 x00 x00 x00)))
(T (W x00 x00 x00 x00 x00 x00 x00 x00)
(L (W x04 x00 x00 x00 xde x00 x00 x00)) E))
(T (W x01 x01 x01 x01 x01 x01 x01 x01)
(T (W x00 x00 x00 x00 x00 x00 x00 x00)
(L (W x00 x00 x00 x00 x60 x00 x14 x0c)) E)
(T (W x7e x00 x15 x00 x97 x00 x00 x00)
(L (W x00 x00 x00 x00 x00 x00 x00 x00)) E)))
(T (W x37 x00 x20 x00 x69 x00 x00 x00)
(T (W x00 x00 x00 x00 x00 x00 x00 x00)
(T (W x00 x00 x00 x00 xc6 x01 x00 x00)
(L (W x05 x05 x05 x05 x06 x02 x02 x05)) E)
(T (W x1e x00 x00 x00 x00 x00 x41 x00)
(L (W x02 x80 x00 x00 x00 x00 x68 x00)) E))
(T (W x00 x00 x00 x00 x62 x00 x90 x0c)
(T (W x00 x00 x00 x00 x07 x01 x00 x00)
(L (W x00 x00 x0d x01 x00 x00 x47 x02)) E)
(T (W x00 x00 x00 x00 x00 x00 x00 x00)
(L (W x00 x00 x00 x00 x00 x00 x00 x00)) E))))))
(T (W x00 x00 x00 x00 x00 x00 x00 x00)
(T (W x02 x00 x03 x00 x02 x03 x07 x07)
(T (W x00 x80 x00 x00 x00 x00 x00 x00)
(T (W x00 x00 x00 x00 x63 x00 x00 x00)
(T (W x01 x00 x00 x00 x00 x00 x00 x00)
(T (W x05 x05 x05 x05 x05 x02 x02 x02)
(L (W xc7 x00 xc7 x00 x0b x00 x00 x00))
(L (W x00 x00 x00 x00 x00 x00 x00 x00)))
(T (W x00 x10 x00 x00 x00 x00 x93 x00)
(L (W x00 x00 x00 x00 x00 x10 x10 x0c)) E))
(T (W x00 x00 x00 x00 x00 x00 x00 x00)
(T (W x00 x00 xc4 x00 x00 x00 xc4 x00)
(L (W x00 x83 x61 x83 x81 x00 x63 x00)) E)
(T (W x00 x00 x00 x00 x00 x00 x00 x00)
(L (W x00 x00 x00 x00 x89 x02 x00 x00)) E)))
(T (W x03 x03 x00 x03 x00 x00 x00 x00)
(T (W x09 x00 x09 x00 x48 x00 x00 x00)
(T (W x00 x00 x00 x00 x02 x2b x12 x2c)
(L (W x03 x00 x00 x00 x00 x00 x00 x00))
(L (W x2d x02 x00 x08 x00 x00 x00 x00)))
(T (W x00 x00 x00 x00 x45 x01 x00 x00)
(L (W x00 x00 x22 x00 x00 x00 x4a x01)) E))
(T (W x00 x00 x00 x00 x00 x00 x00 x00)
(T (W x00 x00 x00 x00 x06 x02 x00 x00)
(L (W x05 x05 x05 x05 x05 x02 x02 x02)) E)
(T (W x1e x00 x00 x00 x00 x00 x32 x00)
(L (W x00 x00 x00 x00 x00 x00 x00 x00)) E))))
(T (W x00 x00 x00 x00 x00 x00 x00 x00)
(T (W x05 x05 x05 x05 x06 x02 x02 x05)
(T (W x00 x00 xd4 x01 x00 x00 xe8 x00)
(T (W x00 x00 x00 x00 x00 x00 x00 x00)
(L (W x00 x00 x00 x00 x00 x00 x00 x00))
(L (W x05 x05 x04 x05 x05 x02 x02 x04)))
(T (W x00 x00 x21 x97 x82 x00 x00 x00)
(L (W x01 x00 x00 x00 x00 x00 x00 x00)) E))
(T (W x00 x00 x00 x00 x00 x00 x00 x00)
(T (W x00 x00 x00 x00 x00 x00 x00 x00)
(L (W x01 x00 x01 x00 x48 x01 x01 x00)) E)
(T (W x80 x00 x00 x00 x01 x00 x30 x0c)
(L (W x00 x00 x00 x00 x00 x00 x00 x00)) E)))
(T (W x00 x00 x00 x00 x00 x10 x54 x0c)
(T (W x00 x00 x00 x00 x00 x00 x00 x00)
(T (W x1e x00 x00 x00 x00 x00 x32 x00)
(L (W x00 x00 x00 x00 x0a x00 x06 x00)) E)
(T (W x05 x05 x04 x04 x04 x02 x02 x04)
(L (W x00 x00 x00 x00 x00 x00 x00 x00)) E))
(T (W x00 x00 x00 x00 x87 x00 x00 x00)
(T (W x00 x00 x00 x00 x00 x00 x00 x00)
(L (W x4b x02 x80 x00 x00 x00 x89 x02)) E)
(T (W x00 x00 x97 x02 x00 x00 x97 x02)
(L (W x00 x00 x00 x00 x00 x00 x00 x00)) E)))))
(T (W x00 x00 x00 x00 x00 x10 x54 x0c)
(T (W x1e x00 x00 x00 x00 x00 x32 x00)
(T (W x1f x00 x45 x00 x78 x00 x00 x00)
(T (W x00 x00 x00 x00 x00 x00 x00 x00)
(T (W x00 x00 x00 x00 x00 x00 x00 x00)
(L (W x05 x05 x03 x03 x03 x02 x02 x03))
(L (W xe1 x00 xe1 x00 xe1 x00 x6f x04)))
(T (W x1e x00 x00 x00 x00 x00 x32 x00)
(L (W x00 x00 x00 x00 x00 x00 x00 x00)) E))
(T (W x00 x00 x00 x00 x00 x00 x00 x00)
(T (W x00 x00 x00 x00 x00 x00 x00 x00)
(L (W x00 x00 xf7 x00 x00 x00 xf7 x00)) E)
(T (W x00 x00 x00 x00 x00 x00 x00 x00)
(L (W x00 x00 x00 x00 x00 x00 x00 x00)) E)))
(T (W x00 x00 x00 x00 x00 x00 x00 x00)
(T (W x05 x05 x05 x05 x05 x02 x02 x05)
(T (W x00 x04 x01 x00 x00 x00 x57 x00)
(L (W x80 x00 x00 x00 x22 x07 x10 x0c))
(L (W x02 x00 x03 x00 x02 x03 x04 x04)))
(T (W x59 x00 x67 x00 x63 x00 x00 x00)
(L (W x00 x00 x00 x00 x00 x00 x00 x00)) E))
(T (W x00 x00 x3c x00 x00 x00 x3c x00)
(T (W x3c x02 x08 x00 x00 x00 x00 x00)
(L (W x00 x00 x00 x00 x19 x00 x00 x00)) E)
(T (W x00 x43 x66 x03 x8e x01 x00 x00)
(L (W x01 x00 x00 x00 x00 x00 x00 x00)) E))))
(T (W x00 x00 x00 x00 x00 x00 x00 x00)
(T (W x04 x00 x00 x00 x86 x00 x00 x00)
(T (W x00 x00 x00 x00 x00 x00 x00 x00)
(T (W x00 x00 x00 x00 x00 x00 x00 x00)
(L (W x03 x03 x00 x03 x00 x00 x00 x00))
(L (W x00 x00 x00 x00 x00 x00 x00 x00)))
(T (W x00 x00 xfc x01 x00 x00 x20 x02)
(L (W x00 x00 x00 x00 x00 x00 x00 x00)) E))
(T (W x1e x00 x00 x00 x00 x00 x28 x00)
(T (W x05 x05 x03 x03 x04 x02 x02 x03)
(L (W x7d x00 x7d x00 x86 x00 x00 x00)) E)
(T (W x05 x00 x00 x00 xc4 x00 x00 x00)
(L (W x00 x00 x00 x00 x00 x00 x00 x00)) E)))
(T (W x00 x00 x00 x00 x00 x00 x00 x00)
(T (W x78 x02 x08 x00 x00 x00 x0f x01)
(T (W x13 x0f x6a x9b x8a x48 x0d x08)
(L (W x1e x00 x00 x00 x00 x00 x32 x00)) E)
(T (W x08 x00 x00 x00 x86 x02 x00 x00)
(L (W x01 x01 x01 x01 x01 x01 x01 x01)) E))
(T (W x00 x00 x00 x00 x00 x00 x00 x00)
(T (W x00 x00 x00 x00 x82 x24 x50 x8d)
(L (W x02 x00 x02 x00 x02 x02 x06 x06)) E)
(T (W x00 x00 x00 x00 x00 x00 x00 x00)
(L (W x00 x00 x00 x00 x00 x00 x00 x00)) E)))))))
(T (W x24 x00 x00 x00 x7a x04 x11 x8d)
(T (W x00 x00 x00 x00 x00 x00 x00 x00)
(T (W x05 x05 x02 x03 x04 x02 x02 x02)
(T (W xff x01 x40 x10 x00 x00 xed x00)
(T (W x01 x00 x00 x00 x00 x00 x00 x00)
(T (W x00 x00 x00 x00 x00 x00 x00 x00)
(T (W x00 x00 xac x01 x00 x00 x35 x01)
(L (W x80 x00 x2a x8b x8a x00 xa0 x02))
(L (W x1e x00 x00 x00 x00 x00 x32 x00)))
(T (W xbe x01 x10 x00 x00 x00 xf7 x00)
(L (W x00 x00 x00 x00 x7a x00 x00 x00)) E))
(T (W x05 x05 x03 x04 x05 x02 x02 x03)
(T (W x00 x02 x00 x00 x00 x00 x00 x00)
(L (W x40 x00 x00 x00 x00 x20 x10 x0d)) E)
(T (W x00 x00 x00 x00 x00 x00 x00 x00)
(L (W x00 x00 x00 x00 x00 x00 x00 x00)) E)))
(T (W x11 x00 x2f x00 x52 x00 x00 x00)
(T (W x03 x00 xe0 x83 x86 x0b x00 x00)
(T (W x00 x00 x00 x00 xa6 x01 x00 x00)
(L (W x05 x05 x05 x05 x05 x02 x02 x05))
(L (W xe8 x00 xe8 x00 xe8 x00 x8e x04)))
(T (W x1e x00 x00 x00 x00 x00 x32 x00)
(L (W x00 x00 x00 x00 x00 x00 x00 x00)) E))
(T (W x40 x00 x00 x00 x02 x24 x10 x0d)
(T (W x00 x00 x00 x00 x00 x00 x00 x00)
(L (W x00 x00 xef x02 x00 x00 xef x02)) E)
(T (W x02 x00 x02 x00 x03 x02 x04 x03)
(L (W x00 x00 x00 x00 x00 x00 x00 x00)) E))))
(T (W x00 x00 x00 x00 x79 x00 x51 x0c)
(T (W x00 x00 x7f x00 x00 x00 x7f x00)
(T (W x00 x02 x00 x00 x77 x00 x00 x00)
(T (W x00 x00 x00 x00 x00 x00 x00 x00)
(L (W x00 x00 x00 x00 x9c x00 x00 x00))
(L (W x00 x00 xce x02 x00 x00 xce x02)))
(T (W x00 x00 x00 x00 x00 x00 x00 x00)
(L (W x00 x00 x00 x00 x00 x00 x00 x00)) E))
(T (W x2d x03 x30 x00 x00 x00 xee x00)
(T (W x00 x00 x00 x00 x00 x00 x00 x00)
(L (W x1e x00 x00 x00 x00 x00 x4b x00)) E)
(T (W x00 x00 x00 x00 xde x02 x00 x00)
(L (W x01 x01 x01 x01 x01 x01 x01 x01)) E)))
(T (W x00 x00 x00 x00 x00 x00 x00 x00)
(T (W x00 x00 x00 x00 x00 x00 x00 x00)
(T (W x01 x00 x03 x00 x01 x03 x04 x04)
(L (W x2d x03 xc0 x00 x00 x00 x00 x00))
(L (W x09 x00 x00 x00 xda x03 x00 x00)))
(T (W x00 x00 xa8 x02 x00 x00 xa8 x02)
(L (W x00 x00 x00 x00 x00 x00 x00 x00)) E))
(T (W x01 x00 x00 x00 x00 x00 x00 x00)
(T (W x05 x05 x05 x05 x05 x02 x02 x05)
(L (W x51 x00 x51 x00 xca x00 x8f x03)) E)
(T (W x10 x2a x00 x00 x00 x00 x00 x00)
(L (W x00 x00 x00 x00 x00 x00 x00 x00)) E)))))
(T (W x00 x00 x00 x00 x26 x00 x00 x00)
(T (W x03 x00 x03 x00 x01 x03 x03 x03)
(T (W x3b x8b xe1 x8b x97 x0a x01 x08)
(T (W x00 x00 x00 x00 x00 x00 x00 x00)
(T (W x00 x00 x00 x00 x00 x00 x00 x00)
(L (W x00 x00 x46 x00 x00 x00 x67 x01))
(L (W x2b x02 x60 x87 x81 x0c x41 x02)))
(T (W x02 x00 x02 x00 x02 x02 x04 x03)
(L (W x00 x00 x00 x00 x00 x00 x00 x00)) E))
(T (W x00 x00 x00 x00 x26 x01 x00 x00)
(T (W x0a x00 x00 x00 x00 x00 x28 x00)
(L (W x40 x00 x00 x00 x81 x00 x00 x00)) E)
(T (W x01 x01 x01 x01 x01 x01 x01 x01)
(L (W x00 x00 x00 x00 x00 x00 x00 x00)) E)))
(T (W x01 x01 x01 x01 x01 x01 x01 x01)
(T (W x00 x00 xb8 x00 x00 x00 xbc x01)
(T (W xe1 x01 x40 x00 x00 x00 x00 x00)
(L (W x00 x00 x00 x00 x75 x03 x00 x00))
(L (W x05 x05 x04 x04 x05 x02 x02 x04)))
(T (W x03 x83 x64 x83 x86 x0f x11 x8f)
(L (W x01 x00 x00 x00 x00 x00 x00 x00)) E))
(T (W x00 x00 x00 x00 x8a x00 x3d x00)
(T (W x6d x00 x67 x00 x56 x00 x00 x00)
(L (W x00 x00 x00 x00 x00 x00 x00 x00)) E)
(T (W x00 x00 x00 x00 x7a x04 x10 x0c)
(L (W x00 x00 x00 x00 x00 x00 x00 x00)) E))))
(T (W x00 x00 x00 x00 x00 x00 x00 x00)
(T (W x00 x00 x00 x00 x69 x01 x00 x00)
(T (W x1e x00 x00 x00 x00 x00 x3c x00)
(T (W x01 x01 x01 x01 x01 x01 x01 x01)
(L (W xab x00 x2b x00 x8e x00 x00 x00))
(L (W x00 x00 x00 x00 x00 x00 x00 x00)))
(T (W x08 x08 x00 x00 x00 x00 x5e x00)
(L (W x00 x00 x00 x00 x00 x00 x00 x00)) E))
(T (W x00 x00 x00 x00 x00 x00 x00 x00)
(T (W x00 x00 x00 x00 x00 x00 x00 x00)
(L (W x04 x04 x20 x83 x80 x13 x00 x90)) E)
(T (W xe1 x01 x00 x04 x00 x00 x00 x00)
(L (W x00 x00 x00 x00 x00 x00 x00 x00)) E)))
(T (W x4b x02 x40 x01 x00 x00 x00 x00)
(T (W x21 x00 x2c x00 x14 x00 x00 x00)
(T (W x00 x00 x00 x00 x00 x00 x00 x00)
(L (W x02 x00 x02 x00 x02 x02 x05 x05)) E)
(T (W x00 x00 x00 x00 x00 x00 x00 x00)
(L (W x00 x00 x00 x00 x00 x00 x00 x00)) E))
(T (W x00 x00 x60 x8b x9a x20 x89 x00)
(T (W x06 x00 x00 x00 x26 x02 x00 x00)
(L (W x01 x01 x01 x01 x01 x01 x01 x01)) E)
(T (W x1e x00 x00 x00 x00 x00 x3c x00)
(L (W x00 x00 x00 x00 x00 x00 x00 x00)) E))))))
(T (W x00 x00 x00 x00 x00 x00 x00 x00)
(T (W x1e x00 x00 x00 x00 x00 x37 x00)
(T (W x00 x00 x32 x00 x00 x00 x38 x00)
(T (W x00 x00 x00 x00 x66 x00 x00 x00)
(T (W x00 x00 x00 x00 x65 x00 x00 x00)
(T (W x03 x00 x00 x00 x00 x00 x00 x00)
(L (W x4b x02 x08 x00 x00 x00 xef x00))
(L (W x00 x00 x00 x00 x02 x03 x00 x00)))
(T (W x00 x00 x61 x00 x00 x00 x9d x00)
(L (W x00 x00 x00 x00 x00 x00 x00 x00)) E))
(T (W x01 x00 x00 x00 x00 x00 x00 x00)
(T (W x05 x05 x03 x03 x04 x02 x02 x03)
(L (W x21 x00 x21 x00 xef x00 x00 x00)) E)
(T (W x00 x01 x00 x00 x00 x00 x00 x00)
(L (W x00 x00 x00 x00 x00 x00 x00 x00)) E)))
(T (W x00 x40 x00 x00 x00 x00 xc3 x00)
(T (W x1e x03 x03 x00 x00 x00 xe7 x00)
(T (W x3b xcb x20 xa3 x86 x83 x10 x8f)
(L (W x1e x00 x00 x00 x00 x00 x28 x00))
(L (W x00 x20 x00 x00 x00 x00 x84 x00)))
(T (W x0c x00 x00 x00 x66 x02 x00 x00)
(L (W x05 x05 x03 x03 x04 x02 x02 x03)) E))
(T (W x00 x00 x00 x00 x00 x00 x00 x00)
(T (W x00 x00 x00 x00 x00 x30 x10 x0c)
(L (W x00 x00 x00 x00 x00 x00 x00 x00)) E)
(T (W x00 x00 x00 x00 x00 x00 x00 x00)
(L (W x00 x00 x00 x00 x00 x00 x00 x00)) E))))
(T (W x0c x00 x14 x00 x90 x00 x9d x03)
(T (W x02 x00 x01 x00 x02 x01 x03 x03)
(T (W x01 x01 x01 x01 x01 x01 x01 x01)
(T (W x08 x00 x00 x00 x1a x00 x00 x00)
(L (W x80 x00 x00 x00 x00 x13 x30 xcc))
(L (W x02 x00 x02 x00 x03 x02 x03 x03)))
(T (W x1b x00 x1b x00 x90 x00 x00 x00)
(L (W x00 x00 x00 x00 x00 x00 x00 x00)) E))
(T (W x00 x00 x00 x00 x00 x00 x00 x00)
(T (W x00 x00 x00 x00 x00 x00 x00 x00)
(L (W x00 x00 x00 x00 x9b x03 x00 x00)) E)
(T (W x00 x00 xaa xa3 x86 x82 x00 x00)
(L (W x01 x00 x00 x00 x00 x00 x00 x00)) E)))
(T (W x23 x40 x26 xa3 x82 x03 x00 x08)
(T (W x00 x00 x00 x00 x00 x00 x00 x00)
(T (W x00 x00 x00 x00 x1d x01 x00 x00)
(L (W x00 x00 xd3 x00 x00 x00 xa9 x02)) E)
(T (W x01 x00 x03 x00 x02 x01 x04 x04)
(L (W x78 x01 x04 x00 x00 x00 x00 x00)) E))
(T (W x00 x00 x00 x00 x00 x00 x00 x00)
(T (W x1e x00 x00 x00 x00 x00 x3c x00)
(L (W x00 x01 x00 x00 x00 x00 x00 x00)) E)
(T (W x05 x05 x04 x05 x05 x02 x02 x04)
(L (W x00 x00 x00 x00 x00 x00 x00 x00)) E)))))
(T (W x00 x08 x20 xb3 x84 x00 x04 x88)
(T (W x00 x00 x00 x00 x8b x00 x00 x00)
(T (W x2d x01 x10 x00 x00 x00 x00 x00)
(T (W x00 x00 x00 x00 x00 x00 x00 x00)
(T (W x00 x00 x00 x00 x00 x00 x00 x00)
(L (W x02 x00 x03 x00 x02 x03 x04 x03))
(L (W x03 x03 x03 x00 x00 x00 x00 x00)))
(T (W x00 x00 x00 x00 x10 x01 x00 x00)
(L (W x00 x00 x00 x00 x00 x00 x00 x00)) E))
(T (W x00 x00 x00 x00 x00 x00 x00 x00)
(T (W x08 x00 x00 x00 xe6 x01 x00 x00)
(L (W x05 x05 x04 x04 x05 x02 x02 x04)) E)
(T (W x01 x00 x00 x00 x00 x00 x00 x00)
(L (W x00 x00 x00 x00 x00 x00 x00 x00)) E)))
(T (W x01 x00 x00 x00 x00 x00 x00 x00)
(T (W x03 x00 x03 x00 x03 x03 x03 x03)
(T (W x00 x00 x10 x01 x00 x00 x10 x01)
(L (W x03 x1f x21 x97 x84 x09 x24 x8d))
(L (W x1e x00 x00 x00 x00 x00 x32 x00)))
(T (W x2d x02 x08 x00 x00 x00 x00 x00)
(L (W x00 x00 x00 x00 x00 x00 x00 x00)) E))
(T (W x05 x05 x04 x04 x05 x02 x02 x04)
(T (W x40 x00 x00 x00 x00 x00 x39 x00)
(L (W x00 x00 x00 x00 x12 x13 x30 xcc)) E)
(T (W x1d x00 x1d x00 x1d x00 x00 x00)
(L (W x00 x00 x00 x00 x00 x00 x00 x00)) E))))
(T (W x05 x05 x04 x04 x05 x02 x02 x04)
(T (W x00 x00 x00 x00 x60 x1b x18 x8e)
(T (W x04 x00 x00 x00 xe6 x00 x00 x00)
(T (W x1e x00 x00 x00 x00 x00 x32 x00)
(L (W x00 x00 x00 x00 x00 x00 x00 x00))
(L (W x00 x00 x00 x00 x00 x00 x00 x00)))
(T (W x01 x01 x01 x01 x01 x01 x01 x01)
(L (W x00 x00 x00 x00 x00 x00 x00 x00)) E))
(T (W x00 x00 x00 x00 x00 x00 x00 x00)
(T (W x02 x00 x02 x00 x03 x02 x05 x04)
(L (W x2d x02 x20 x00 x00 x00 x00 x00)) E)
(T (W x00 x00 x3a x02 x00 x00 x3a x02)
(L (W x00 x00 x00 x00 x00 x00 x00 x00)) E)))
(T (W x00 x00 x91 x01 x00 x00 x27 x00)
(T (W x00 x00 x00 x00 x00 x00 x00 x00)
(T (W x14 x00 x0c x00 x0d x00 x00 x00)
(L (W x00 x00 x00 x00 x2e x00 x00 x00)) E)
(T (W x80 x00 x00 x00 x64 x0b x1c x0c)
(L (W x01 x00 x02 x00 x02 x02 x04 x04)) E))
(T (W x00 x00 x00 x00 x00 x00 x00 x00)
(T (W x80 x08 x29 x93 x86 x42 x14 x84)
(L (W x1e x00 x00 x00 x00 x00 x2d x00)) E)
(T (W x00 x00 x00 x00 x42 x03 x00 x00)
(L (W x05 x05 x03 x03 x03 x02 x02 x03)) E))))))))
(T (W x00 x00 x00 x00 x00 x00 x00 x00)
(T (W x00 x00 xf8 x01 x00 x00 xf8 x01)
(T (W x00 x00 x00 x00 x00 x00 x00 x00)
(T (W x00 x00 x00 x00 x12 x13 x30 xcc)
(T (W x01 x00 x00 x00 x00 x00 x00 x00)
(T (W x45 x00 x05 x00 x85 x00 x00 x00)
(T (W x00 x00 x00 x00 x00 x00 x00 x00)
(T (W x00 x00 x00 x00 x76 x01 x00 x00)
(L (W x05 x05 x03 x04 x05 x02 x02 x03))
(L (W x35 x00 x77 x00 x0f x00 x5f x04)))
(T (W x1e x00 x00 x00 x00 x00 x41 x00)
(L (W x02 x21 x00 x00 xab x00 x00 x00)) E))
(T (W x00 x00 x00 x00 x02 x09 x10 x4e)
(T (W x00 x00 x00 x00 x00 x00 x00 x00)
(L (W x00 x00 xed x02 x00 x00 xe8 x01)) E)
(T (W x00 x00 x00 x00 x00 x00 x00 x00)
(L (W x03 x03 x0c x00 x00 x00 x00 x00)) E)))
(T (W x03 x00 x02 x00 x02 x03 x04 x04)
(T (W x01 x01 x01 x01 x01 x01 x01 x01)
(T (W x10 x00 x00 x00 x00 x00 x00 x00)
(L (W x00 x00 x00 x00 x02 x0b x50 x0e))
(L (W x02 x00 x03 x00 x03 x03 x04 x04)))
(T (W x12 x00 x31 x00 x97 x00 x00 x00)
(L (W x00 x00 x00 x00 x00 x00 x00 x00)) E))
(T (W x00 x00 x00 x00 x00 x00 x00 x00)
(T (W x00 x00 x00 x00 x00 x00 x00 x00)
(L (W x02 x00 x00 x00 xd1 x03 x00 x00)) E)
(T (W x04 x87 x2e xa3 x86 xc3 x00 x00)
(L (W x01 x00 x00 x00 x00 x00 x00 x00)) E))))
(T (W x00 x00 x00 x00 x00 x00 x00 x00)
(T (W x00 x00 x00 x00 x76 x00 x00 x00)
(T (W x00 x00 x00 x00 x30 x01 x00 x00)
(T (W x00 x00 x00 x00 x00 x00 x00 x00)
(L (W x3c x02 x20 x10 x00 x00 xf7 x00))
(L (W x02 x00 x00 x00 x5e x03 x00 x00)))
(T (W x00 x00 xb5 x00 x00 x00 x3b x00)
(L (W x00 x00 x00 x00 x00 x00 x00 x00)) E))
(T (W x1e x00 x00 x00 x00 x00 x3c x00)
(T (W x01 x01 x01 x01 x01 x01 x01 x01)
(L (W x04 x00 xb5 x00 xfc x00 x00 x00)) E)
(T (W x00 x00 x00 x00 x00 x00 x00 x00)
(L (W x00 x00 x00 x00 x00 x00 x00 x00)) E)))
(T (W x00 x02 x00 x00 x00 x00 x00 x00)
(T (W x2d x01 x04 x00 x00 x00 x00 x00)
(T (W x00 x80 x60 x87 x87 x01 x23 x00)
(L (W x1e x00 x00 x00 x00 x00 x32 x00))
(L (W x40 x00 x00 x00 x65 x00 x00 x00)))
(T (W x00 x00 x00 x00 x76 x02 x00 x00)
(L (W x01 x01 x01 x01 x01 x01 x01 x01)) E))
(T (W x00 x00 x00 x00 x00 x00 x00 x00)
(T (W x00 x00 x00 x00 x98 x04 x50 x0c)
(L (W x02 x00 x02 x00 x03 x02 x03 x03)) E)
(T (W x00 x00 x00 x00 x00 x00 x00 x00)
(L (W x00 x00 x00 x00 x00 x00 x00 x00)) E)))))
(T (W x00 x12 x02 x00 x00 x00 x2d x00)
(T (W x00 x80 xa0 x8b x9a x22 x20 x00)
(T (W x05 x05 x03 x04 x05 x02 x02 x03)
(T (W x00 x00 x19 x01 x00 x00 x39 x00)
(T (W x00 x00 x00 x00 x00 x00 x00 x00)
(L (W x00 x00 x00 x00 x26 x03 x00 x00))
(L (W x01 x01 x01 x01 x01 x01 x01 x01)))
(T (W x00 xc0 xa8 xa3 x86 x83 x00 x09)
(L (W x01 x00 x00 x00 x00 x00 x00 x00)) E))
(T (W x00 x28 x00 x00 x00 x00 x00 x00)
(T (W x1a x00 x1a x00 x1a x00 xd9 x03)
(L (W x00 x00 x00 x00 xa0 x00 x00 x00)) E)
(T (W x00 x00 x00 x00 x00 x00 x00 x00)
(L (W x00 x00 x00 x00 x00 x00 x00 x00)) E)))
(T (W x00 x00 x00 x00 x00 x00 x00 x00)
(T (W x00 x00 x00 x00 xf6 x00 x00 x00)
(T (W x01 x00 x00 x00 x00 x00 x00 x00)
(L (W x00 x42 x00 x00 x00 x00 x00 x00))
(L (W x00 x00 x00 x00 x00 x48 x18 x4e)))
(T (W x05 x05 x03 x03 x04 x02 x02 x03)
(L (W x00 x00 x00 x00 x00 x00 x00 x00)) E))
(T (W x00 x00 x00 x00 xe4 x00 x00 x00)
(T (W x03 x00 x02 x00 x03 x02 x04 x04)
(L (W x03 x03 x03 x00 x00 x00 x00 x00)) E)
(T (W x00 x00 x37 x02 x00 x00 x36 x01)
(L (W x00 x00 x00 x00 x00 x00 x00 x00)) E))))
(T (W x01 x00 x01 x00 xda x00 x00 x00)
(T (W x2d x02 x08 x00 x00 x00 x00 x00)
(T (W x37 x00 x61 x00 x8d x00 x00 x00)
(T (W x00 x00 x00 x00 x00 x00 x00 x00)
(L (W x02 x00 x03 x00 x03 x03 x03 x03))
(L (W x00 x00 x00 x00 x00 x00 x00 x00)))
(T (W x00 x00 x00 x00 x40 x00 x00 x00)
(L (W x00 x00 x7a x00 x00 x00 x2b x02)) E))
(T (W x00 x00 x00 x00 x00 x00 x00 x00)
(T (W x00 x00 x00 x00 x00 x00 x00 x00)
(L (W x05 x05 x05 x05 x05 x02 x02 x05)) E)
(T (W x1e x00 x00 x00 x00 x00 x32 x00)
(L (W x00 x00 x00 x00 x00 x00 x00 x00)) E)))
(T (W x1e x00 x00 x00 x00 x00 x32 x00)
(T (W x00 x00 x00 x00 x00 x00 x00 x00)
(T (W x00 x00 x00 x00 x00 x00 x00 x00)
(L (W x00 x83 xa1 x83 xa0 x81 x20 x05)) E)
(T (W x03 x03 x0c x00 x00 x00 x00 x00)
(L (W x00 x00 x00 x00 x32 x02 x00 x00)) E))
(T (W x05 x05 x03 x03 x03 x02 x02 x03)
(T (W x10 x00 x00 x00 xc9 x00 x00 x00)
(L (W x00 x00 x00 x00 x00 x00 x00 x00)) E)
(T (W x00 x00 x00 x00 x00 x00 x00 x00)
(L (W x00 x00 x00 x00 x00 x00 x00 x00)) E))))))
(T (W x00 x00 x00 x00 x00 x00 x00 x00)
(T (W x26 x00 x4f x00 x7d x00 x00 x00)
(T (W x00 x00 x00 x00 x36 x00 x00 x00)
(T (W x00 x00 x00 x00 x00 x00 x00 x00)
(T (W xff x01 x01 x00 x00 x00 x00 x00)
(T (W x40 x4b x2e xeb x97 x23 x00 x00)
(L (W x1e x00 x00 x00 x00 x00 x32 x00))
(L (W x00 x49 x00 x00 x00 x00 x00 x00)))
(T (W x00 x00 x00 x00 x36 x02 x00 x00)
(L (W x05 x05 x04 x04 x05 x02 x02 x04)) E))
(T (W x00 x00 x00 x00 x00 x00 x00 x00)
(T (W x00 x00 x00 x00 x62 x04 x12 x0c)
(L (W x01 x00 x02 x00 x02 x02 x04 x04)) E)
(T (W x00 x00 x00 x00 x30 x00 x00 x00)
(L (W x00 x00 x00 x00 x00 x00 x00 x00)) E)))
(T (W x00 x00 x00 x00 x00 x00 x00 x00)
(T (W x1e x00 x00 x00 x00 x00 x28 x00)
(T (W x05 x05 x03 x03 x04 x02 x02 x03)
(L (W xe0 x00 xe0 x00 xe0 x00 x00 x00))
(L (W x00 x00 x00 x00 x37 x01 x00 x00)))
(T (W x00 x40 x00 x00 x00 x00 x00 x00)
(L (W x00 x00 x00 x00 x00 x03 x10 x0c)) E))
(T (W x01 x00 x02 x00 x01 x02 x05 x05)
(T (W x00 x00 x3a x01 x00 x00 x3a x01)
(L (W x3b x82 x60 x87 xa0 x0f x01 x8f)) E)
(T (W x2d x03 x00 x0c x00 x00 x00 x00)
(L (W x00 x00 x00 x00 x00 x00 x00 x00)) E))))
(T (W x02 x00 x03 x00 x02 x03 x03 x03)
(T (W x13 x03 xa6 xab x8a x8a x08 x8a)
(T (W x00 x00 x00 x00 x00 x00 x00 x00)
(T (W x00 x00 x00 x00 x00 x00 x00 x00)
(L (W x00 x00 x00 x00 x00 x00 x00 x00))
(L (W x00 x43 x70 x4f x8f x11 x00 x03)))
(T (W x02 x00 x02 x00 x03 x02 x04 x04)
(L (W x00 x00 x00 x00 x00 x00 x00 x00)) E))
(T (W x02 x00 x00 x00 x36 x01 x00 x00)
(T (W x01 x00 x00 x00 x00 x00 x00 x00)
(L (W x00 x00 x00 x00 x00 x00 x00 x00)) E)
(T (W x05 x05 x02 x03 x03 x02 x02 x02)
(L (W x00 x00 x00 x00 x00 x00 x00 x00)) E)))
(T (W x05 x05 x03 x03 x04 x02 x02 x03)
(T (W x00 x00 x26 x00 x00 x00 xaf x00)
(T (W x3c x02 x20 x00 x00 x00 x00 x00)
(L (W x00 x00 x00 x00 x97 x03 x00 x00)) E)
(T (W x00 x08 x2b x93 xc4 x00 x00 x01)
(L (W x01 x00 x00 x00 x00 x00 x00 x00)) E))
(T (W x00 x28 x00 x00 x00 x00 x00 x00)
(T (W x26 x00 x44 x00 x03 x00 x00 x00)
(L (W x00 x00 x01 x00 xa4 x00 x01 x00)) E)
(T (W x04 x00 x00 x00 x78 x00 x13 xcc)
(L (W x00 x00 x00 x00 x00 x00 x00 x00)) E)))))
(T (W x05 x05 x02 x03 x03 x02 x02 x02)
(T (W xb4 x01 x04 x00 x00 x00 xe6 x00)
(T (W x1e x00 x00 x00 x00 x00 x1e x00)
(T (W x00 x00 x00 x00 x00 x00 x00 x00)
(T (W x00 x00 x00 x00 x00 x00 x00 x00)
(L (W x00 x0d xaa xb3 x84 x02 x04 x09))
(L (W x1e x00 x00 x00 x00 x00 x28 x00)))
(T (W x64 x02 x00 x02 x00 x00 x00 x00)
(L (W x00 x00 x00 x00 x00 x00 x00 x00)) E))
(T (W x05 x05 x05 x05 x06 x02 x02 x05)
(T (W x00 x42 x00 x00 x00 x00 x00 x00)
(L (W x00 x00 x00 x00 x00 x08 x10 x2e)) E)
(T (W x00 x00 x00 x00 x00 x00 x00 x00)
(L (W x00 x00 x00 x00 x00 x00 x00 x00)) E)))
(T (W x00 x00 x00 x00 x00 x00 x00 x00)
(T (W x23 x8c x69 x93 x84 x09 x05 x8c)
(T (W x00 x00 x00 x00 xb6 x01 x00 x00)
(L (W x05 x05 x02 x03 x03 x02 x02 x02))
(L (W x14 x00 x1c x00 xe3 x00 x9f x04)))
(T (W x1e x00 x00 x00 x00 x00 x28 x00)
(L (W x00 x00 x00 x00 x00 x00 x00 x00)) E))
(T (W x00 x00 x00 x00 x03 x00 x52 x0c)
(T (W x00 x00 x00 x00 x00 x00 x00 x00)
(L (W x00 x00 x56 x00 x00 x00 x58 x01)) E)
(T (W x02 x00 x00 x00 x00 x00 x00 x00)
(L (W x00 x00 x00 x00 x00 x00 x00 x00)) E))))
(T (W x00 x00 x00 x00 x00 x00 x00 x00)
(T (W x00 x00 xb3 x01 x00 x00 x57 x00)
(T (W x00 x00 x00 x00 x00 x00 x00 x00)
(T (W x76 x00 x76 x00 x37 x00 x00 x00)
(L (W x00 x00 x00 x00 x00 x00 x00 x00))
(L (W x00 x00 x00 x00 x00 x00 x00 x00)))
(T (W x80 x00 x00 x00 x00 x03 x10 x0c)
(L (W x00 x00 x00 x00 x00 x00 x00 x00)) E))
(T (W x00 x00 x00 x00 x00 x00 x00 x00)
(T (W x00 xc3 x20 xa3 x86 x02 x01 x02)
(L (W x1e x00 x00 x00 x00 x00 x2d x00)) E)
(T (W x00 x00 x00 x00 xdb x02 x00 x00)
(L (W x01 x01 x01 x01 x01 x01 x01 x01)) E)))
(T (W x00 x00 x00 x00 xb6 x00 x00 x00)
(T (W x00 x00 x00 x00 x29 x00 x00 x00)
(T (W x02 x00 x02 x00 x02 x02 x04 x04)
(L (W x4b x02 x08 x00 x00 x00 x00 x00)) E)
(T (W x00 x00 x38 x00 x00 x00 x38 x00)
(L (W x00 x00 x00 x00 x00 x00 x00 x00)) E))
(T (W x01 x00 x00 x00 x00 x00 x00 x00)
(T (W x05 x05 x03 x03 x03 x02 x02 x03)
(L (W x03 x01 x14 x00 x90 x00 x9e x03)) E)
(T (W x00 x00 x00 x00 x00 x00 x00 x00)
(L (W x00 x00 x00 x00 x00 x00 x00 x00)) E)))))))
(T (W x05 x05 x02 x03 x03 x02 x02 x02)
(T (W x01 x00 x00 x00 x00 x00 x00 x00)
(T (W x80 x83 xe8 x83 x85 x09 x23 x08)
(T (W x00 x00 x01 x00 xa5 x00 x00 x00)
(T (W xe1 x01 x04 x00 x00 x00 x00 x00)
(T (W x00 x00 x00 x00 x00 x00 x00 x00)
(T (W x00 x00 x00 x00 x02 x07 x10 x0c)
(L (W x02 x00 x03 x00 x03 x03 x04 x04))
(L (W x2d x03 x03 x00 x00 x00 x00 x00)))
(T (W x01 x00 x01 x00 x49 x01 x00 x00)
(L (W x00 x00 x00 x00 x00 x00 x00 x00)) E))
(T (W x00 x00 x00 x00 x00 x00 x00 x00)
(T (W x00 x00 x00 x00 xd6 x01 x00 x00)
(L (W x05 x05 x04 x05 x06 x02 x02 x04)) E)
(T (W x01 x00 x00 x00 x00 x00 x00 x00)
(L (W x00 x00 x00 x00 x00 x00 x00 x00)) E)))
(T (W x0a x00 x00 x00 x00 x00 x28 x00)
(T (W x01 x00 x02 x00 x02 x02 x03 x03)
(T (W x00 x00 x4a x01 x00 x00 x4a x01)
(L (W x20 x4b x26 x03 x86 x00 x00 x08))
(L (W x0a x00 x00 x00 x00 x00 x00 x00)))
(T (W x4b x01 x04 x00 x00 x00 x00 x00)
(L (W x01 x00 x00 x00 xa5 x01 x00 x00)) E))
(T (W x05 x05 x04 x04 x04 x02 x02 x04)
(T (W x00 x00 x00 x00 x00 x00 x00 x00)
(L (W x80 x00 x00 x00 x00 x30 x30 x8c)) E)
(T (W x1d x00 x1d x00 x05 x00 x00 x00)
(L (W x00 x00 x00 x00 x00 x00 x00 x00)) E))))
(T (W x01 x01 x01 x01 x01 x01 x01 x01)
(T (W x00 x00 x00 x00 x78 x1b x19 x0e)
(T (W x00 x00 x00 x00 xd6 x00 x00 x00)
(T (W x01 x00 x00 x00 x00 x00 x00 x00)
(L (W x01 x00 x00 x00 x00 x00 x00 x00))
(L (W xc1 x00 x00 x00 x35 x01 x38 x0d)))
(T (W x01 x01 x01 x01 x01 x01 x01 x01)
(L (W x00 x00 x00 x00 x00 x00 x00 x00)) E))
(T (W x00 x00 x00 x00 x00 x00 x00 x00)
(T (W x00 x00 x00 x00 x00 x00 x00 x00)
(L (W x2d x02 x00 x03 x00 x00 x00 x00)) E)
(T (W x00 x00 x0e x00 x00 x00 x0e x00)
(L (W x00 x00 x00 x00 x00 x00 x00 x00)) E)))
(T (W x00 x00 x00 x00 x00 x00 x00 x00)
(T (W x04 x00 x00 x00 x00 x00 x00 x00)
(T (W x50 x00 x27 x00 x9e x00 x00 x00)
(L (W x00 x00 x00 x00 x18 x00 x00 x00))
(L (W x00 x00 x00 x00 x00 x00 x00 x00)))
(T (W x40 x00 x00 x00 x02 x20 x10 x0d)
(L (W x00 x00 x00 x00 x00 x00 x00 x00)) E))
(T (W x00 x00 x00 x00 x00 x00 x00 x00)
(T (W x00 x00 x00 x00 x00 x00 x00 x00)
(L (W x1e x00 x00 x00 x00 x00 x3c x00)) E)
(T (W x00 x00 x00 x00 x4d x03 x00 x00)
(L (W x01 x01 x01 x01 x01 x01 x01 x01)) E)))))
(T (W x00 x00 x32 x00 x00 x00 x30 x01)
(T (W x1c x00 x27 x00 x62 x00 x00 x00)
(T (W x02 x00 x03 x00 x03 x03 x06 x06)
(T (W x05 x05 x04 x05 x05 x02 x02 x04)
(T (W x00 x00 x00 x00 x00 x00 x00 x00)
(L (W x00 x00 x00 x00 x00 x00 x10 x0c))
(L (W x01 x00 x03 x00 x01 x03 x04 x04)))
(T (W x77 x00 xac x00 x17 x00 x00 x00)
(L (W x00 x00 x00 x00 x00 x00 x00 x00)) E))
(T (W x00 x00 x30 x01 x00 x00 x4a x02)
(T (W x03 x03 x08 x01 x00 x00 x00 x00)
(L (W x00 x00 x00 x00 xcc x03 x00 x00)) E)
(T (W x00 x00 x00 x00 x00 x00 x00 x00)
(L (W x01 x00 x00 x00 x00 x00 x00 x00)) E)))
(T (W x00 x00 x00 x00 x00 x00 x00 x00)
(T (W x00 x00 x00 x00 x7a x0f x11 x8e)
(T (W x00 x00 x00 x00 x83 x00 x00 x00)
(L (W x00 x00 xd1 x02 x00 x00 xd1 x02))
(L (W x00 x0f x2a xb3 x80 x92 x00 x88)))
(T (W x03 x00 x03 x00 x03 x03 x04 x04)
(L (W x00 x00 x00 x00 x00 x00 x00 x00)) E))
(T (W x04 x00 x00 x00 x56 x01 x00 x00)
(T (W x1e x00 x00 x00 x00 x00 x2d x00)
(L (W x00 x00 x00 x00 x00 x00 x00 x00)) E)
(T (W x05 x05 x03 x03 x03 x02 x02 x03)
(L (W x00 x00 x00 x00 x00 x00 x00 x00)) E))))
(T (W x00 x00 x00 x00 x00 x00 x00 x00)
(T (W x00 x00 x00 x00 xcf x00 x00 x00)
(T (W x19 x02 x00 x08 x00 x00 x00 x00)
(T (W x00 x00 x00 x00 x00 x00 x00 x00)
(L (W x1e x00 x00 x00 x00 x00 x32 x00))
(L (W x00 x00 x00 x00 x00 x00 x00 x00)))
(T (W x08 x00 x00 x00 x56 x02 x00 x00)
(L (W x01 x01 x01 x01 x01 x01 x01 x01)) E))
(T (W x18 x00 x18 x00 x03 x00 x00 x00)
(T (W x00 x00 x00 x00 x00 x00 x00 x00)
(L (W x02 x00 x02 x00 x02 x02 x04 x03)) E)
(T (W x00 x00 x00 x00 x00 x00 x00 x00)
(L (W x00 x00 x00 x00 x00 x00 x00 x00)) E)))
(T (W x00 x00 x00 x00 x00 x00 x00 x00)
(T (W x1e x00 x00 x00 x00 x00 x32 x00)
(T (W x05 x05 x03 x03 x03 x02 x02 x03)
(L (W xda x00 x32 x00 xab x00 x00 x00)) E)
(T (W x08 x42 x00 x00 x00 x00 x00 x00)
(L (W x00 x00 x00 x00 x00 x00 x00 x00)) E))
(T (W x01 x00 x02 x00 x01 x02 x06 x06)
(T (W x00 x00 x2c x00 x00 x00 x1c x00)
(L (W x04 x03 x20 xa3 x80 x11 x10 x00)) E)
(T (W x2d x03 x00 x03 x00 x00 x00 x00)
(L (W x00 x00 x00 x00 x00 x00 x00 x00)) E))))))
(T (W x00 x00 x00 x00 x00 x00 x00 x00)
(T (W x2d x03 x0c x00 x00 x00 x00 x00)
(T (W x00 x00 x00 x00 x00 x00 x00 x00)
(T (W x00 x00 x5f x00 x00 x00 x92 x01)
(T (W x00 x04 x00 x00 x00 x00 x4f x00)
(T (W x46 x00 x46 x00 x46 x00 x00 x00)
(L (W x00 x00 x00 x00 x54 x01 x00 x00))
(L (W x00 x00 x00 x00 x00 x00 x00 x00)))
(T (W x00 x00 x00 x00 x02 x09 xd2 x0c)
(L (W x00 x00 x00 x00 x00 x00 x00 x00)) E))
(T (W xff x01 x10 x00 x00 x00 xed x00)
(T (W x00 x00 x00 x00 x00 x00 x00 x00)
(L (W x1e x00 x00 x00 x00 x00 x2d x00)) E)
(T (W x00 x00 x00 x00 xf2 x02 x00 x00)
(L (W x01 x01 x01 x01 x01 x01 x01 x01)) E)))
(T (W x00 x00 x00 x00 x96 x00 x00 x00)
(T (W x00 x00 x00 x00 x00 x00 x00 x00)
(T (W x00 x00 x00 x00 x00 x00 x00 x00)
(L (W x03 x03 x48 x00 x00 x00 x00 x00))
(L (W x00 x00 x00 x00 x9d x03 x00 x00)))
(T (W x00 x00 x97 x00 x00 x00 x3a x00)
(L (W x00 x40 xa6 x03 xc6 x03 x00 x00)) E))
(T (W x01 x00 x00 x00 x00 x00 x00 x00)
(T (W x01 x01 x01 x01 x01 x01 x01 x01)
(L (W x07 x01 x07 x01 x07 x01 x00 x00)) E)
(T (W x10 x28 x00 x00 x00 x00 x21 x00)
(L (W x00 x00 x00 x00 x00 x00 x00 x00)) E))))
(T (W x1e x00 x00 x00 x00 x00 x3c x00)
(T (W x34 x00 x68 x00 x99 x00 x00 x00)
(T (W x00 x80 x66 x8f x8b x00 x2b x00)
(T (W x00 x00 x00 x00 x96 x01 x00 x00)
(L (W x05 x05 x02 x03 x03 x02 x02 x02))
(L (W xe1 x00 xe1 x00 xe1 x00 x6f x04)))
(T (W x1e x00 x00 x00 x00 x00 x32 x00)
(L (W x00 x00 x00 x00 x00 x00 x00 x00)) E))
(T (W x00 x00 x00 x00 x00 x00 x00 x00)
(T (W x00 x00 x00 x00 x00 x00 x00 x00)
(L (W x00 x00 xcc x02 x00 x00 xae x00)) E)
(T (W x02 x00 x02 x00 x02 x02 x03 x03)
(L (W x00 x00 x00 x00 x00 x00 x00 x00)) E)))
(T (W x02 x00 x02 x00 x03 x02 x06 x06)
(T (W x01 x01 x01 x01 x01 x01 x01 x01)
(T (W x00 x88 x00 x00 x33 x00 x00 x00)
(L (W x00 x00 x00 x00 x00 x08 x14 x0e)) E)
(T (W x9a x00 x9a x00 x9a x00 x00 x00)
(L (W x01 x00 x00 x00 x70 x01 x00 x00)) E))
(T (W x00 x00 x90 x01 x00 x00 x0e x00)
(T (W xbe x01 x40 x00 x00 x00 x21 x02)
(L (W x00 x00 x00 x00 x34 x00 x00 x00)) E)
(T (W x00 x00 x00 x00 x00 x00 x00 x00)
(L (W x01 x00 x00 x00 x00 x00 x00 x00)) E)))))
(T (W x03 x00 x03 x00 x03 x03 x04 x04)
(T (W x40 x00 x00 x00 x00 x00 x00 x00)
(T (W x00 x00 x00 x00 x00 x00 x00 x00)
(T (W x1e x00 x00 x00 x00 x00 x32 x00)
(T (W x01 x01 x01 x01 x01 x01 x01 x01)
(L (W xc1 x00 xc1 x00 xc1 x00 x00 x00))
(L (W x00 x00 x00 x00 x7e x01 x00 x00)))
(T (W x00 x00 x00 x00 x00 x00 x00 x00)
(L (W x00 x00 x00 x00 x00 x00 x00 x00)) E))
(T (W x00 x00 x00 x00 x00 x00 x00 x00)
(T (W x00 x00 xa5 x01 x00 x00 x00 x00)
(L (W x03 x40 xa6 x83 x80 x84 x00 x84)) E)
(T (W xdc x01 x04 x00 x00 x00 xdb x00)
(L (W x00 x00 x00 x00 x00 x00 x00 x00)) E)))
(T (W x00 x00 x00 x00 x00 x00 x00 x00)
(T (W x42 x00 x42 x00 x03 x00 x00 x00)
(T (W x00 x00 x00 x00 x00 x00 x00 x00)
(L (W x02 x00 x03 x00 x03 x03 x04 x04))
(L (W x0a x03 xc0 x00 x00 x00 x00 x00)))
(T (W x00 x00 x00 x00 x19 x01 x00 x00)
(L (W x00 x00 x00 x00 x00 x00 x00 x00)) E))
(T (W x00 x83 x61 x83 x85 x08 xe1 x00)
(T (W x00 x00 x00 x00 x16 x02 x00 x00)
(L (W x05 x05 x02 x03 x04 x02 x02 x02)) E)
(T (W x01 x00 x00 x00 x00 x00 x00 x00)
(L (W x00 x00 x00 x00 x00 x00 x00 x00)) E))))
(T (W x38 x00 xb0 x9f xc6 x00 x00 x02)
(T (W x05 x05 x04 x04 x05 x02 x02 x04)
(T (W x00 x00 x00 x00 x00 x00 x00 x00)
(T (W x00 x00 x00 x00 x00 x00 x00 x00)
(L (W x00 x00 x00 x00 x68 x03 x00 x00))
(L (W x01 x01 x01 x01 x01 x01 x01 x01)))
(T (W x00 x00 x00 x00 x00 x00 x00 x00)
(L (W x01 x00 x00 x00 x00 x00 x00 x00)) E))
(T (W x02 x01 x00 x00 xad x00 x00 x00)
(T (W x00 x00 x00 x00 x00 x00 x00 x00)
(L (W x00 x00 x00 x00 x79 x01 x00 x00)) E)
(T (W x40 x00 x00 x00 x02 x04 x10 x8d)
(L (W x00 x00 x00 x00 x00 x00 x00 x00)) E)))
(T (W x00 x00 x00 x00 x82 x04 x10 x0c)
(T (W x04 x00 x00 x00 x16 x01 x00 x00)
(T (W x1e x00 x00 x00 x00 x00 x32 x00)
(L (W x08 x00 x00 x00 x00 x00 x9c x00)) E)
(T (W x01 x01 x01 x01 x01 x01 x01 x01)
(L (W x0a x00 x0a x00 x0a x00 xff x03)) E))
(T (W x00 x00 x00 x00 x00 x00 x00 x00)
(T (W x02 x00 x03 x00 x02 x03 x03 x03)
(L (W x00 x00 x00 x00 x00 x00 x00 x00)) E)
(T (W x00 x00 xa4 x02 x00 x00 xa4 x02)
(L (W x00 x08 xea x97 xc4 x10 x04 x00)) E)))))))))
(T (W x05 x05 x03 x04 x04 x02 x02 x03)
(T (W x2b xa0 x60 x87 xe4 x4b x01 x08)
(T (W x43 x00 x43 x00 x2c x00 x00 x00)
(T (W x00 x02 x00 x00 x00 x00 x00 x00)
(T (W x01 x00 x00 x00 x00 x00 x00 x00)
(T (W x00 x00 x00 x00 x00 x00 x00 x00)
(T (W x00 x00 x00 x00 x5e x00 x00 x00)
(T (W x00 x00 x00 x00 x00 x00 x00 x00)
(T (W x01 x00 x03 x00 x01 x03 x04 x04)
(L (W x3c x02 x01 x00 x00 x00 x00 x00))
(L (W x00 x00 x00 x00 xdf x02 x00 x00)))
(T (W x00 x00 x1c x00 x00 x00 x73 x01)
(L (W x2b xa3 xe1 x8b xc7 x19 x01 x08)) E))
(T (W x1e x00 x00 x00 x00 x00 x3c x00)
(T (W x05 x05 x03 x03 x04 x02 x02 x03)
(L (W xf3 x00 x31 x00 x12 x00 x00 x00)) E)
(T (W x00 x00 x00 x00 x00 x00 x00 x00)
(L (W x40 x00 x00 x00 x60 x08 x10 x0d)) E)))
(T (W x00 x10 x00 x00 x00 x00 x7d x00)
(T (W x00 x00 x00 x00 x00 x00 x00 x00)
(T (W x00 x0c x28 x93 x84 x42 x04 x00)
(L (W x1e x00 x00 x00 x00 x00 x28 x00))
(L (W x00 x00 x00 x00 x00 x00 x00 x00)))
(T (W x00 x00 x00 x00 x5e x02 x00 x00)
(L (W x01 x01 x01 x01 x01 x01 x01 x01)) E))
(T (W x00 x00 x00 x00 x00 x00 x00 x00)
(T (W x00 x00 x00 x00 x00 x00 x00 x00)
(L (W x02 x00 x03 x00 x03 x03 x04 x03)) E)
(T (W x00 x00 x00 x00 x00 x00 x00 x00)
(L (W x00 x00 x00 x00 x00 x00 x00 x00)) E))))
(T (W x00 x00 x00 x00 x00 x00 x00 x00)
(T (W x01 x00 x03 x00 x01 x03 x04 x04)
(T (W x01 x01 x01 x01 x01 x01 x01 x01)
(T (W x00 x00 x00 x00 x00 x00 x00 x00)
(L (W x00 x00 x00 x00 x00 x0c x52 x0c))
(L (W x02 x00 x02 x00 x03 x02 x03 x03)))
(T (W x73 x00 x51 x00 x85 x00 x00 x00)
(L (W x00 x00 x00 x00 x00 x00 x00 x00)) E))
(T (W x00 x00 x0d x01 x00 x00 x47 x02)
(T (W x00 x00 x00 x00 x00 x00 x00 x00)
(L (W x08 x00 x00 x00 xa0 x03 x00 x00)) E)
(T (W x00 x00 x00 x00 x00 x00 x00 x00)
(L (W x01 x00 x00 x00 x00 x00 x00 x00)) E)))
(T (W x40 x03 xa5 xc3 x86 x11 x00 x00)
(T (W x12 x00 x00 x00 x87 xb4 x30 x2c)
(T (W x00 x00 x00 x00 x00 x00 x00 x00)
(L (W x00 x00 x0c x03 x00 x00 x0c x03))
(L (W x3b x82 x60 x87 x92 x2f x81 x81)))
(T (W x03 x00 x01 x00 x01 x01 x04 x04)
(L (W x00 x00 x00 x00 x00 x00 x00 x00)) E))
(T (W x00 x00 x00 x00 x5e x01 x00 x00)
(T (W x1e x00 x00 x00 x00 x00 x32 x00)
(L (W x00 x00 x00 x00 x00 x00 x00 x00)) E)
(T (W x05 x05 x03 x03 x03 x02 x02 x03)
(L (W x00 x00 x00 x00 x00 x00 x00 x00)) E)))))
(T (W x3b xcf x2e xab x86 x9a x10 x88)
(T (W x00 x00 x00 x00 x47 x00 x00 x00)
(T (W x2d x02 x08 x00 x00 x00 x00 x00)
(T (W x0c x00 x14 x00 x90 x00 xaa x03)
(T (W x80 x00 x00 x00 x02 x4b x12 x6e)
(L (W x03 x00 x03 x00 x03 x03 x05 x04))
(L (W x00 x00 x00 x00 x00 x00 x00 x00)))
(T (W x00 x00 x00 x00 x00 x00 x00 x00)
(L (W x00 x00 x00 x00 x00 x00 x00 x00)) E))
(T (W x00 x8b xa0 x13 xc5 x00 x00 x00)
(T (W x00 x00 x00 x00 xde x01 x00 x00)
(L (W x05 x05 x03 x03 x03 x02 x02 x03)) E)
(T (W x01 x00 x00 x00 x00 x00 x00 x00)
(L (W x00 x00 x00 x00 x00 x00 x00 x00)) E)))
(T (W x01 x00 x00 x00 x00 x00 x00 x00)
(T (W x03 x00 x00 x00 x00 x00 x00 x00)
(T (W x00 x00 x00 x00 x00 x00 x00 x00)
(L (W xc0 x03 xa0 x23 x80 x03 x00 x05))
(L (W x1e x00 x00 x00 x00 x00 x32 x00)))
(T (W x4b x02 x02 x00 x00 x00 xed x00)
(L (W x00 x00 x00 x00 xe7 x01 x00 x00)) E))
(T (W x05 x05 x03 x03 x03 x02 x02 x03)
(T (W x00 x10 x00 x00 x9a x00 x00 x00)
(L (W x00 x00 x00 x00 x02 x10 x10 x0c)) E)
(T (W x35 x00 x77 x00 x0f x00 x5f x04)
(L (W x00 x00 x00 x00 x00 x00 x00 x00)) E))))
(T (W x05 x05 x03 x03 x04 x02 x02 x03)
(T (W x00 x00 x00 x00 x08 x00 x00 x00)
(T (W x04 x00 x00 x00 xde x00 x00 x00)
(T (W x01 x00 x00 x00 x00 x00 x00 x00)
(L (W x00 xc0 x00 x00 x00 x00 x00 x00))
(L (W x00 x00 x00 x00 x00 x00 x00 x00)))
(T (W x01 x01 x01 x01 x01 x01 x01 x01)
(L (W x35 x00 x52 x00 x5f x00 xc7 x03)) E))
(T (W x00 x00 x00 x00 x3c x00 x00 x00)
(T (W x00 x00 x00 x00 x00 x00 x00 x00)
(L (W x3c x02 x20 x00 x00 x00 x00 x00)) E)
(T (W x00 x00 xec x01 x00 x00 xec x01)
(L (W x00 x00 x00 x00 x00 x00 x00 x00)) E)))
(T (W x00 x00 x19 x01 x00 x00 xcc x00)
(T (W x00 x00 x00 x00 x00 x00 x00 x00)
(T (W x00 x00 x00 x00 x00 x00 x00 x00)
(L (W x00 x00 x00 x00 x1d x00 x00 x00)) E)
(T (W x00 x00 x00 x00 x02 x18 x50 x8c)
(L (W x02 x00 x02 x00 x03 x02 x04 x04)) E))
(T (W x4b x02 x02 x00 x00 x00 x00 x00)
(T (W x00 x0c x28 xb3 x84 x02 x00 x00)
(L (W x01 x00 x00 x00 x00 x00 x00 x00)) E)
(T (W x00 x00 x00 x00 x00 x00 x00 x00)
(L (W x01 x01 x01 x01 x01 x01 x01 x01)) E))))))
(T (W x01 x01 x01 x01 x01 x01 x01 x01)
(T (W x00 x00 x00 x00 x1e x00 x00 x00)
(T (W x02 x00 x03 x00 x03 x03 x04 x04)
(T (W x00 x00 x00 x00 x00 x00 x00 x00)
(T (W x00 x00 x00 x00 x00 x00 x00 x00)
(T (W x00 x00 x00 x00 x00 x00 x00 x00)
(L (W x00 x00 x2c x00 x00 x00 xa7 x02))
(L (W x00 x83 x68 x03 x85 x09 x00 x02)))
(T (W x01 x00 x01 x00 x01 x01 x05 x05)
(L (W x46 x02 x00 x08 x00 x00 x00 x00)) E))
(T (W x00 x00 x00 x00 x00 x00 x00 x00)
(T (W x01 x00 x00 x00 x00 x00 x00 x00)
(L (W x00 x49 x00 x00 xaf x00 x00 x00)) E)
(T (W x01 x01 x01 x01 x01 x01 x01 x01)
(L (W x58 x00 x58 x00 x58 x00 x05 x04)) E)))
(T (W x05 x05 x05 x05 x05 x02 x02 x05)
(T (W x00 x00 x54 x00 x00 x00 x81 x00)
(T (W x3c x02 x02 x00 x00 x00 x00 x00)
(L (W x00 x00 x00 x00 x70 x03 x00 x00))
(L (W x05 x05 x04 x04 x04 x02 x02 x04)))
(T (W x00 x83 x60 x87 x86 x09 x01 x0e)
(L (W x1e x00 x00 x00 x00 x00 x32 x00)) E))
(T (W x00 x00 x00 x00 x00 x00 x00 x00)
(T (W x91 x00 x69 x00 x4f x00 x00 x00)
(L (W x00 x00 x00 x00 x00 x00 x00 x00)) E)
(T (W x40 x00 x00 x00 x62 x01 x50 x8d)
(L (W x00 x00 x00 x00 x00 x00 x00 x00)) E))))
(T (W x00 x00 x00 x00 x00 x00 x00 x00)
(T (W x00 x00 x00 x00 x00 x00 x00 x00)
(T (W x01 x00 x00 x00 x00 x00 x00 x00)
(T (W x01 x01 x01 x01 x01 x01 x01 x01)
(L (W x00 x00 x00 x00 x00 x00 x00 x00))
(L (W x00 x00 x00 x00 x7e x01 x00 x00)))
(T (W x00 x00 x00 x00 x42 x00 x5f x00)
(L (W x00 x00 x00 x00 x00 x00 x00 x00)) E))
(T (W x01 x00 x03 x00 x02 x03 x05 x04)
(T (W x00 x00 x00 x00 x00 x00 x00 x00)
(L (W x00 x00 x20 xa3 x80 x02 x00 x08)) E)
(T (W xc8 x01 x01 x00 x00 x00 x00 x00)
(L (W x00 x00 x00 x00 x00 x00 x00 x00)) E)))
(T (W xbe x01 x01 x00 x00 x00 x00 x00)
(T (W x35 x00 x52 x00 x5f x00 xc7 x03)
(T (W x00 x00 x00 x00 x02 x04 x12 x8c)
(L (W x02 x00 x02 x00 x02 x02 x05 x04)) E)
(T (W x00 x00 x00 x00 x84 x01 x00 x00)
(L (W x00 x00 x00 x00 x00 x00 x00 x00)) E))
(T (W x3b x03 xe0 x8b xc6 x1e x01 x0a)
(T (W x00 x00 x00 x00 x00 x00 x00 x00)
(L (W x05 x05 x04 x05 x05 x02 x02 x04)) E)
(T (W x1e x00 x00 x00 x00 x00 x32 x00)
(L (W x00 x00 x00 x00 x00 x00 x00 x00)) E)))))
(T (W x5a x02 x80 x00 x00 x00 x00 x00)
(T (W x00 x00 x00 x00 x02 x48 x18 xce)
(T (W x00 x00 x1e x00 x00 x00 x59 x00)
(T (W x00 x00 x00 x00 x00 x00 x00 x00)
(T (W x00 x00 x00 x00 x00 x00 x00 x00)
(L (W x00 x00 x00 x00 x36 x00 x00 x00))
(L (W x00 x00 xce x02 x00 x00 xce x02)))
(T (W x00 x00 x00 x00 x00 x0a x10 x4e)
(L (W x00 x00 x00 x00 x00 x00 x00 x00)) E))
(T (W x96 x01 x01 x00 x00 x00 x00 x00)
(T (W x00 x43 x68 x07 x9f x29 x81 x08)
(L (W x1e x00 x00 x00 x00 x00 x28 x00)) E)
(T (W x00 x00 x00 x00 x00 x00 x00 x00)
(L (W x01 x01 x01 x01 x01 x01 x01 x01)) E)))
(T (W x00 x00 x00 x00 x00 x00 x00 x00)
(T (W x00 x00 x00 x00 x00 x00 x00 x00)
(T (W x03 x00 x02 x00 x02 x02 x04 x04)
(L (W x2d x01 x04 x00 x00 x00 x00 x00))
(L (W x04 x00 x00 x00 xcf x03 x00 x00)))
(T (W x00 x00 x45 x01 x00 x00 x59 x00)
(L (W x00 x00 x00 x00 x00 x00 x00 x00)) E))
(T (W x1e x00 x00 x00 x00 x00 x28 x00)
(T (W x05 x05 x04 x04 x04 x02 x02 x04)
(L (W x09 x00 x09 x00 x1f x00 x85 x03)) E)
(T (W x01 x00 x02 x00 x00 x00 x00 x00)
(L (W x00 x00 x00 x00 x00 x00 x00 x00)) E))))
(T (W x01 x00 x00 x00 x00 x00 x00 x00)
(T (W x0a x00 x0a x00 x5f x00 x00 x00)
(T (W x00 x00 x00 x00 x00 x00 x00 x00)
(T (W x00 x00 x00 x00 x00 x00 x00 x00)
(L (W x05 x05 x05 x05 x05 x02 x02 x05))
(L (W x00 x00 x00 x00 x00 x00 x00 x00)))
(T (W x1e x00 x00 x00 x00 x00 x32 x00)
(L (W x00 x00 x00 x00 x00 x00 x00 x00)) E))
(T (W x00 x00 x00 x00 x7a x04 x13 x0c)
(T (W x00 x00 x00 x00 x00 x00 x00 x00)
(L (W x00 x00 x0b x02 x00 x00 x0b x02)) E)
(T (W x03 x00 x01 x00 x01 x03 x04 x04)
(L (W x00 x00 x00 x00 x00 x00 x00 x00)) E)))
(T (W x00 x00 x00 x00 x00 x00 x00 x00)
(T (W x05 x05 x03 x03 x04 x02 x02 x03)
(T (W x10 x00 x00 x00 x00 x00 x20 x00)
(L (W x00 x00 x00 x00 x1a x00 x10 x0c)) E)
(T (W x9a x00 x9a x00 x9a x00 x03 x04)
(L (W x00 x00 x00 x00 x00 x00 x00 x00)) E))
(T (W x00 x00 x00 x00 x00 x00 x00 x00)
(T (W x78 x01 x04 x00 x00 x00 x00 x00)
(L (W x00 x00 x00 x00 x00 x00 x00 x00)) E)
(T (W x00 x00 x00 x00 x00 x00 x00 x00)
(L (W x01 x00 x00 x00 x00 x00 x00 x00)) E)))))))
(T (W xff x01 x01 x00 x00 x00 x00 x00)
(T (W x00 x00 x00 x00 x00 x00 x00 x00)
(T (W x00 x00 x01 x00 x00 x00 x00 x00)
(T (W x05 x05 x02 x03 x03 x02 x02 x02)
(T (W x00 x00 x00 x00 x00 x00 x00 x00)
(T (W x00 x00 x00 x00 x00 x00 x00 x00)
(T (W x1e x00 x00 x00 x00 x00 x37 x00)
(L (W x00 x00 x00 x00 x80 x00 x00 x00))
(L (W x00 x00 x00 x00 x04 x88 x50 x0c)))
(T (W x05 x05 x03 x03 x03 x02 x02 x03)
(L (W xac x00 xac x00 xac x00 xa7 x03)) E))
(T (W x00 x00 x00 x00 x00 x00 x00 x00)
(T (W x00 x00 x00 x00 x00 x00 x00 x00)
(L (W x2d x02 x02 x00 x00 x00 x00 x00)) E)
(T (W x00 x00 x00 x00 x00 x00 x00 x00)
(L (W x00 x00 x00 x00 x00 x00 x00 x00)) E)))
(T (W x00 x00 x19 x01 x00 x00 x22 x00)
(T (W x00 x00 x00 x00 x00 x00 x00 x00)
(T (W x3c x00 x72 x00 x9f x00 xd8 x03)
(L (W x00 x00 x00 x00 x00 x00 x00 x00))
(L (W x00 x00 xca x02 x00 x00 xca x02)))
(T (W x00 x00 x00 x00 x04 x88 x10 x0c)
(L (W x00 x00 x00 x00 x00 x00 x00 x00)) E))
(T (W x2d x03 x84 x00 x00 x00 x00 x00)
(T (W x00 x00 x00 x00 x00 x00 x00 x00)
(L (W x00 x00 x00 x00 x00 x00 x00 x00)) E)
(T (W x00 x00 x00 x00 xe5 x02 x00 x00)
(L (W x01 x01 x01 x01 x01 x01 x01 x01)) E))))
(T (W x00 x00 x00 x00 x00 x00 x00 x00)
(T (W x1e x00 x00 x00 x00 x00 x28 x00)
(T (W x02 x00 x02 x00 x02 x02 x03 x03)
(T (W x00 x00 x00 x00 x00 x00 x00 x00)
(L (W x00 x43 x60 x0f x8f x11 x00 x03))
(L (W x1e x00 x00 x00 x00 x00 x28 x00)))
(T (W x00 x00 x00 x00 x00 x00 x00 x00)
(L (W x00 x00 x00 x00 x00 x00 x00 x00)) E))
(T (W x05 x05 x04 x04 x05 x02 x02 x04)
(T (W x00 x00 x00 x00 x00 x00 x00 x00)
(L (W x00 x00 x00 x00 x03 x20 x10 x0c)) E)
(T (W x63 x00 x63 x00 x63 x00 x00 x00)
(L (W x00 x00 x00 x00 x00 x00 x00 x00)) E)))
(T (W x00 x00 x00 x00 x00 x00 x00 x00)
(T (W x13 x83 x61 x8b x9a x28 x23 x08)
(T (W x00 x00 x00 x00 xbe x01 x00 x00)
(L (W x05 x05 x02 x03 x03 x02 x02 x02))
(L (W x0b x01 x0b x01 x0b x01 xa6 x04)))
(T (W x1e x00 x00 x00 x00 x00 x3c x00)
(L (W x00 x00 x00 x00 x00 x00 x00 x00)) E))
(T (W x00 x00 x00 x00 x00 x00 x00 x00)
(T (W x00 x00 x00 x00 xf9 x00 x00 x00)
(L (W x00 x00 x0e x00 x00 x00 x3b x00)) E)
(T (W x02 x00 x03 x00 x03 x03 x04 x04)
(L (W x00 x00 x00 x00 x00 x00 x00 x00)) E)))))
(T (W x38 x00 xac x00 x84 x00 x00 x00)
(T (W x04 x00 x00 x00 x3e x00 x00 x00)
(T (W x01 x00 x01 x00 x36 x00 x00 x00)
(T (W x2d x02 x02 x00 x00 x00 x00 x00)
(T (W x00 x00 x00 x00 x00 x00 x00 x00)
(L (W x1e x00 x00 x00 x00 x00 x41 x00))
(L (W x00 x80 x00 x00 x9e x00 x00 x00)))
(T (W x00 x00 x00 x00 x3e x02 x00 x00)
(L (W x01 x01 x01 x01 x01 x01 x01 x01)) E))
(T (W x2b x00 x2b x00 x71 x00 x00 x00)
(T (W x00 x00 x00 x00 x60 x4b x18 xee)
(L (W x02 x00 x03 x00 x03 x03 x03 x03)) E)
(T (W x00 x00 x00 x00 x00 x00 x00 x00)
(L (W x00 x00 x00 x00 x00 x00 x00 x00)) E)))
(T (W x00 x00 x00 x00 x00 x00 x00 x00)
(T (W x1e x00 x00 x00 x00 x00 x32 x00)
(T (W x05 x05 x02 x02 x03 x02 x02 x02)
(L (W x0a x00 x0a x00 x0a x00 x00 x00))
(L (W x00 x00 x00 x00 xba x00 x00 x00)))
(T (W x40 x00 x00 x00 xa4 x00 x00 x00)
(L (W x00 x00 x00 x00 x00 x00 x00 x00)) E))
(T (W x03 x00 x03 x00 x02 x03 x04 x04)
(T (W x00 x00 x5d x00 x00 x00 x5e x00)
(L (W x00 x00 x00 x00 x00 x00 x00 x00)) E)
(T (W xbe x01 x40 x00 x00 x00 x00 x00)
(L (W x00 x00 x00 x00 x00 x00 x00 x00)) E))))
(T (W x00 x00 x00 x00 x00 x00 x00 x00)
(T (W x00 x00 x00 x00 x00 x00 x00 x00)
(T (W x00 x00 x00 x00 x62 x10 x90 x2c)
(T (W x00 x00 x00 x00 x00 x00 x00 x00)
(L (W x00 x00 x5d x01 x00 x00 x51 x01))
(L (W x00 x00 x00 x00 x00 x00 x00 x00)))
(T (W x02 x00 x03 x00 x02 x03 x04 x04)
(L (W x00 x00 x00 x00 x00 x00 x00 x00)) E))
(T (W x06 x00 x00 x00 x3e x01 x00 x00)
(T (W x01 x00 x00 x00 x00 x00 x00 x00)
(L (W x01 x04 x00 x00 x00 x00 xab x00)) E)
(T (W x05 x05 x04 x04 x05 x02 x02 x04)
(L (W x00 x00 x00 x00 x00 x00 x00 x00)) E)))
(T (W x05 x05 x03 x03 x04 x02 x02 x03)
(T (W x00 x00 xac x01 x00 x00 x9c x01)
(T (W x19 x01 x00 x04 x00 x00 x00 x00)
(L (W x01 x00 x00 x00 x8a x03 x00 x00)) E)
(T (W x60 x43 x6e x43 x82 x53 x01 x0a)
(L (W x01 x00 x00 x00 x00 x00 x00 x00)) E))
(T (W x00 x00 x01 x00 x00 x00 xa0 x00)
(T (W x16 x00 x99 x00 x53 x00 x00 x00)
(L (W x01 x00 x01 x00 x4d x01 x01 x00)) E)
(T (W x00 x00 x00 x00 x00 x01 x10 x0c)
(L (W x00 x00 x00 x00 x00 x00 x00 x00)) E))))))
(T (W x00 x00 x00 x00 x00 x00 x00 x00)
(T (W x00 x00 x00 x00 x62 x23 x52 x8c)
(T (W x01 x00 x00 x00 x00 x00 x00 x00)
(T (W x22 x00 x22 x00 x8b x00 xa3 x03)
(T (W x04 x83 x26 xa3 x86 xc3 x00 x10)
(T (W x04 x00 x00 x00 x7e x01 x00 x00)
(L (W x05 x05 x03 x03 x04 x02 x02 x03))
(L (W x00 x00 x00 x00 x00 x00 x00 x00)))
(T (W x1e x00 x00 x00 x00 x00 x32 x00)
(L (W x00 x00 x00 x00 x00 x00 x00 x00)) E))
(T (W x00 x00 x00 x00 x00 x00 x00 x00)
(T (W x00 x00 x00 x00 x7b x00 x00 x00)
(L (W x00 x00 xa3 x02 x00 x00 xa3 x02)) E)
(T (W x02 x00 x03 x00 x02 x03 x04 x04)
(L (W x00 x00 x00 x00 x00 x00 x00 x00)) E)))
(T (W x02 x00 x03 x00 x02 x03 x04 x04)
(T (W x05 x05 x05 x05 x06 x02 x02 x05)
(T (W x20 x00 x00 x00 x05 x00 x00 x00)
(L (W x80 x00 x00 x00 x20 x11 x18 x64))
(L (W x03 x00 x03 x00 x03 x03 x02 x02)))
(T (W x1a x00 x1a x00 x1a x00 x00 x00)
(L (W x00 x00 x00 x00 x74 x01 x00 x00)) E))
(T (W x00 x00 x00 x00 x00 x00 x00 x00)
(T (W x00 x00 x00 x00 x00 x00 x00 x00)
(L (W x00 x00 x00 x00 xdd x03 x00 x00)) E)
(T (W x00 x8c xec x93 xc4 x10 x00 x00)
(L (W x01 x00 x00 x00 x00 x00 x00 x00)) E))))
(T (W x00 x00 x19 x01 x00 x00 x39 x00)
(T (W x00 x00 x00 x00 x7e x00 x00 x00)
(T (W x00 x00 x00 x00 x00 x00 x00 x00)
(T (W x03 x00 x01 x00 x03 x01 x04 x04)
(L (W x2d x02 x00 x08 x00 x00 x96 x00))
(L (W x02 x00 x00 x00 x5e x03 x00 x00)))
(T (W x00 x00 xca x00 x00 x00 x13 x01)
(L (W x00 x00 x00 x00 x00 x00 x00 x00)) E))
(T (W x01 x00 x00 x00 x00 x00 x00 x00)
(T (W x01 x01 x01 x01 x01 x01 x01 x01)
(L (W x1f x00 x1f x00 xe2 x00 x00 x00)) E)
(T (W x00 x00 x02 x00 x00 x00 x00 x00)
(L (W x00 x00 x00 x00 x00 x00 x00 x00)) E)))
(T (W x00 x00 x00 x00 x54 x00 x00 x00)
(T (W x00 x00 x00 x00 x00 x00 x00 x00)
(T (W x80 x83 xe1 x87 x86 x08 x03 x0e)
(L (W x1e x00 x00 x00 x00 x00 x32 x00)) E)
(T (W x00 x00 x00 x00 x7e x02 x00 x00)
(L (W x05 x05 x03 x03 x03 x02 x02 x03)) E))
(T (W x2e x00 x69 x00 x9a x00 x00 x00)
(T (W x00 x00 x00 x00 x01 x14 xd0 xbc)
(L (W x01 x00 x02 x00 x02 x02 x06 x06)) E)
(T (W x00 x00 x00 x00 x00 x00 x00 x00)
(L (W x00 x00 x00 x00 x00 x00 x00 x00)) E)))))
(T (W x10 x00 x00 x00 x00 x00 x00 x00)
(T (W x3b x83 xe2 x87 x86 x0e x41 x0e)
(T (W x05 x05 x04 x04 x05 x02 x02 x04)
(T (W x00 x00 x00 x00 x00 x00 x00 x00)
(T (W x00 x00 x00 x00 x00 x00 x00 x00)
(L (W x00 x00 x00 x00 x2f x03 x00 x00))
(L (W x05 x05 x04 x05 x05 x02 x02 x04)))
(T (W x00 x00 x00 x00 x00 x00 x00 x00)
(L (W x01 x00 x00 x00 x00 x00 x00 x00)) E))
(T (W x00 x00 x00 x00 x00 x00 x00 x00)
(T (W x2e x00 x2e x00 x8c x00 xde x03)
(L (W x00 x00 x00 x00 xee x00 x00 x00)) E)
(T (W x00 x00 x00 x00 x00 x00 x00 x00)
(L (W x00 x00 x00 x00 x00 x00 x00 x00)) E)))
(T (W x00 x00 x00 x00 x00 x00 x00 x00)
(T (W x00 x00 x00 x00 xfe x00 x00 x00)
(T (W x1e x00 x00 x00 x00 x00 x3c x00)
(L (W x10 x00 x00 x00 x00 x00 x00 x00))
(L (W x80 x00 x00 x00 x01 x30 x30 x8c)))
(T (W x05 x05 x03 x03 x04 x02 x02 x03)
(L (W x00 x00 x00 x00 x00 x00 x00 x00)) E))
(T (W x00 x00 x00 x00 x00 x00 x00 x00)
(T (W x01 x00 x03 x00 x02 x03 x04 x04)
(L (W xbe x02 x80 x00 x00 x00 xec x00)) E)
(T (W x00 x00 x00 x00 x00 x00 x00 x00)
(L (W x00 x00 x00 x00 x00 x00 x00 x00)) E))))
(T (W x00 x00 x00 x00 x97 x00 x00 x00)
(T (W x2d x01 x10 x00 x00 x00 x00 x00)
(T (W x00 x00 x00 x00 x00 x00 x00 x00)
(T (W x00 x00 x00 x00 x00 x00 x00 x00)
(L (W x01 x00 x01 x00 x02 x01 x0a x0a))
(L (W x00 x00 x00 x00 x00 x00 x00 x00)))
(T (W x00 x00 x00 x00 x00 x00 x00 x00)
(L (W x00 x00 x00 x00 x00 x00 x00 x00)) E))
(T (W x00 x2b x70 x83 xc4 x40 x01 x00)
(T (W x00 x00 x00 x00 xfe x01 x00 x00)
(L (W x05 x05 x03 x03 x03 x02 x02 x03)) E)
(T (W x1e x00 x00 x00 x00 x00 x37 x00)
(L (W x00 x00 x00 x00 x00 x00 x00 x00)) E)))
(T (W x1e x00 x00 x00 x00 x00 x3c x00)
(T (W x00 x00 x00 x00 x00 x00 x00 x00)
(T (W x00 x00 x30 x00 x00 x00 xb6 x01)
(L (W x00 xc3 x20 xa3 x80 x03 x00 x00)) E)
(T (W x00 x00 x00 x00 x00 x00 x00 x00)
(L (W x00 x00 x00 x00 x81 x02 x00 x00)) E))
(T (W x01 x01 x01 x01 x01 x01 x01 x01)
(T (W x10 x00 x00 x00 x00 x00 x00 x00)
(L (W x00 x00 x00 x00 x00 x00 x00 x00)) E)
(T (W x76 x00 x13 x00 xaf x00 x00 x00)
(L (W x00 x00 x00 x00 x4c x01 x00 x00)) E))))))))
(T (W x01 x00 x02 x00 x01 x02 x03 x03)
(T (W x1e x00 x00 x00 x00 x00 x28 x00)
(T (W x00 x00 x00 x00 x00 x00 x00 x00)
(T (W x4b x03 xc0 x00 x00 x00 x00 x00)
(T (W x00 x00 x00 x00 x00 x00 x00 x00)
(T (W x00 x00 xae x00 x00 x00 xdf x01)
(T (W x00 x00 x00 x00 x00 x00 x00 x00)
(T (W x1d x00 x1d x00 x87 x00 x00 x00)
(L (W x00 x00 x00 x00 x33 x01 x00 x00))
(L (W x00 x00 x37 x02 x00 x00 x36 x01)))
(T (W x00 x00 x00 x00 x20 x08 x10 x0e)
(L (W x02 x00 x03 x00 x02 x03 x05 x05)) E))
(T (W x2d x03 x00 x03 x00 x00 x00 x00)
(T (W x43 x4f x2e xe3 x86 x1b x00 x88)
(L (W x1e x00 x00 x00 x00 x00 x32 x00)) E)
(T (W x00 x00 x00 x00 x00 x00 x00 x00)
(L (W x05 x05 x05 x05 x06 x02 x02 x05)) E)))
(T (W x02 x00 x00 x00 x8e x00 x00 x00)
(T (W x00 x00 x00 x00 x00 x00 x00 x00)
(T (W x02 x00 x02 x00 x03 x02 x04 x04)
(L (W x2d x03 x24 x00 x00 x00 x00 x00))
(L (W x02 x00 x00 x00 x61 x03 x00 x00)))
(T (W x00 x00 x6d x00 x00 x00 x34 x00)
(L (W x00 x00 x00 x00 x00 x00 x00 x00)) E))
(T (W x1e x00 x00 x00 x00 x00 x28 x00)
(T (W x01 x01 x01 x01 x01 x01 x01 x01)
(L (W x1d x00 x97 x00 x82 x00 x00 x00)) E)
(T (W x00 x00 x02 x00 x00 x00 x52 x00)
(L (W x00 x00 x00 x00 x00 x00 x00 x00)) E))))
(T (W x1e x00 x00 x00 x00 x00 x37 x00)
(T (W x21 x00 x29 x00 x1f x00 x00 x00)
(T (W x00 x03 xaa xc3 x87 x09 x02 x0d)
(T (W x00 x00 x00 x00 x00 x00 x00 x00)
(L (W x05 x05 x04 x04 x05 x02 x02 x04))
(L (W xe1 x00 xe1 x00 xe1 x00 x6f x04)))
(T (W x1e x00 x00 x00 x00 x00 x28 x00)
(L (W x00 x00 x00 x00 x00 x00 x00 x00)) E))
(T (W x80 x00 x00 x00 x02 x04 x30 x8c)
(T (W x00 x00 x00 x00 x00 x00 x00 x00)
(L (W x00 x00 xe8 x00 x00 x00 xd4 x01)) E)
(T (W x02 x00 x03 x00 x01 x03 x05 x04)
(L (W x00 x00 x00 x00 x00 x00 x00 x00)) E)))
(T (W x00 x00 x00 x00 x00 x00 x00 x00)
(T (W x05 x05 x03 x03 x04 x02 x02 x03)
(T (W x00 x41 x00 x00 x00 x00 x75 x00)
(L (W x04 x00 x00 x00 x10 x00 x10 x2c))
(L (W x00 x00 x00 x00 x00 x00 x00 x00)))
(T (W x52 x00 x12 x00 x49 x00 x00 x00)
(L (W x00 x00 x00 x00 x00 x00 x00 x00)) E))
(T (W x00 x00 x00 x00 x00 x00 x00 x00)
(T (W x2d x02 x02 x00 x00 x00 xf1 x00)
(L (W x00 x00 x00 x00 x1a x00 x00 x00)) E)
(T (W x00 x1b x2a xd3 x84 x11 x00 x01)
(L (W x01 x00 x00 x00 x00 x00 x00 x00)) E)))))
(T (W x02 x00 x02 x00 x01 x02 x05 x04)
(T (W x00 x00 x00 x00 x8e x00 x00 x00)
(T (W x00 x00 x00 x00 x6d x00 x00 x00)
(T (W x01 x00 x00 x00 x00 x00 x00 x00)
(T (W x01 x01 x01 x01 x01 x01 x01 x01)
(L (W xda x00 x67 x00 x38 x00 x00 x00))
(L (W x01 x00 x00 x00 x00 x00 x00 x00)))
(T (W x20 x00 x00 x00 x00 x00 x00 x00)
(L (W x00 x00 x00 x00 x00 x00 x00 x00)) E))
(T (W x02 x00 x03 x00 x02 x03 x07 x07)
(T (W x00 x00 xb3 x01 x00 x00 xb3 x01)
(L (W x11 x00 x20 x83 x80 x2c xa0 x02)) E)
(T (W x00 x00 x00 x00 x00 x00 x00 x00)
(L (W x00 x00 x00 x00 x00 x00 x00 x00)) E)))
(T (W x00 x00 x00 x00 x00 x00 x00 x00)
(T (W x3d x00 x3d x00 x3d x00 x00 x00)
(T (W x00 x00 x00 x00 x00 x00 x00 x00)
(L (W x03 x00 x00 x00 x00 x00 x00 x00))
(L (W x64 x02 x00 x08 x00 x00 x00 x00)))
(T (W x00 x00 x00 x00 x00 x00 x00 x00)
(L (W x00 x00 x00 x00 x00 x00 x00 x00)) E))
(T (W x00 x03 x60 x8b x9b x60 x33 x00)
(T (W x08 x00 x00 x00 x0e x02 x00 x00)
(L (W x05 x05 x05 x05 x05 x02 x02 x02)) E)
(T (W x1e x00 x00 x00 x00 x00 x28 x00)
(L (W x00 x00 x00 x00 x00 x00 x00 x00)) E))))
(T (W x00 x00 x00 x00 x00 x00 x00 x00)
(T (W x05 x05 x04 x04 x04 x02 x02 x04)
(T (W x00 x00 x3d x00 x00 x00 x39 x00)
(T (W x00 x00 x00 x00 x00 x00 x00 x00)
(L (W x00 x00 x00 x00 x30 x03 x00 x00))
(L (W x01 x01 x01 x01 x01 x01 x01 x01)))
(T (W x80 x43 xa3 x93 x82 x01 x10 x40)
(L (W x1e x00 x00 x00 x00 x00 x32 x00)) E))
(T (W x00 x00 x00 x00 x00 x00 x00 x00)
(T (W x00 x00 x00 x00 x00 x00 x00 x00)
(L (W x00 x00 x00 x00 x72 x01 x00 x00)) E)
(T (W x00 x00 x00 x00 xf1 x04 x50 x0c)
(L (W x00 x00 x00 x00 x00 x00 x00 x00)) E)))
(T (W x00 x00 x00 x00 x00 x08 x10 x2e)
(T (W x00 x00 x00 x00 x0e x01 x00 x00)
(T (W x01 x00 x00 x00 x00 x00 x00 x00)
(L (W x02 x80 x00 x00 x00 x00 x00 x00)) E)
(T (W x05 x05 x05 x05 x05 x02 x02 x05)
(L (W x00 x00 x00 x00 x00 x00 x00 x00)) E))
(T (W x00 x00 x00 x00 x00 x00 x00 x00)
(T (W x01 x00 x02 x00 x01 x02 x04 x04)
(L (W x00 x00 x00 x00 x00 x00 x00 x00)) E)
(T (W x00 x00 x00 x00 x00 x00 x00 x00)
(L (W x00 x00 x00 x00 x00 x00 x00 x00)) E))))))
(T (W x00 x00 x00 x00 x00 x00 x00 x00)
(T (W x00 x00 x2d x00 x00 x00 x9e x01)
(T (W x06 x00 x0d x00 x21 x00 x00 x00)
(T (W x00 x00 x00 x00 x00 x00 x00 x00)
(T (W x05 x05 x03 x03 x03 x02 x02 x03)
(T (W x00 x42 x00 x00 x00 x00 x00 x00)
(L (W x00 x00 x00 x00 x01 x00 x14 x0c))
(L (W x03 x00 x00 x00 x00 x00 x00 x00)))
(T (W x81 x00 x81 x00 x81 x00 x00 x00)
(L (W x00 x00 x00 x00 x00 x00 x00 x00)) E))
(T (W x00 x00 x00 x00 x00 x00 x00 x00)
(T (W x1e x03 x00 x03 x00 x00 x00 x00)
(L (W x06 x00 x00 x00 x91 x03 x00 x00)) E)
(T (W x3b x83 xe0 x83 x81 x08 x33 x0b)
(L (W x0a x00 x00 x00 x00 x00 x00 x00)) E)))
(T (W x00 x63 x2a x8b x9e x01 x00 x00)
(T (W x00 x00 x00 x00 x72 x47 x30 x8c)
(T (W x00 x00 x00 x00 x00 x00 x00 x00)
(L (W x00 x00 xf2 x00 x00 x00 x00 x00))
(L (W x00 x00 x20 x13 xc0 x10 x00 x02)))
(T (W x02 x00 x03 x00 x03 x03 x05 x04)
(L (W x2d x02 x40 x01 x00 x00 x00 x00)) E))
(T (W x00 x00 x00 x00 x4e x01 x00 x00)
(T (W x1e x00 x00 x00 x00 x00 x32 x00)
(L (W x40 x80 x00 x00 x65 x00 x00 x00)) E)
(T (W x05 x05 x04 x05 x05 x02 x02 x04)
(L (W x00 x00 x00 x00 x00 x00 x00 x00)) E))))
(T (W x00 x00 x00 x00 x4e x00 x00 x00)
(T (W x20 x04 x00 x00 x00 x00 x0e x00)
(T (W x00 x00 x00 x00 x00 x00 x00 x00)
(T (W x00 x40 xa2 x87 x82 x83 x00 x00)
(L (W x1e x00 x00 x00 x00 x00 x3c x00))
(L (W x01 x00 x00 x00 x00 x00 x00 x00)))
(T (W x01 x00 x00 x00 x4e x02 x00 x00)
(L (W x01 x01 x01 x01 x01 x01 x01 x01)) E))
(T (W x00 x00 x00 x00 x00 x00 x00 x00)
(T (W x00 x00 x00 x00 x00 x00 x00 x00)
(L (W x02 x00 x03 x00 x02 x03 x04 x04)) E)
(T (W x00 x00 x00 x00 xd5 x00 x00 x00)
(L (W x00 x00 x00 x00 x00 x00 x00 x00)) E)))
(T (W x00 x00 x00 x00 xdd x00 x00 x00)
(T (W x1e x00 x00 x00 x00 x00 x32 x00)
(T (W x05 x05 x04 x05 x05 x02 x02 x04)
(L (W x2e x00 x7f x00 xf0 x00 x00 x00)) E)
(T (W x00 x08 x00 x00 xba x00 x00 x00)
(L (W x00 x00 x00 x00 x38 x10 x31 x0c)) E))
(T (W x00 x00 x00 x00 x00 x00 x00 x00)
(T (W x00 x00 x56 x01 x00 x00 x67 x00)
(L (W x00 x83 xe1 x83 xa5 x00 x03 x04)) E)
(T (W x2d x03 x00 x03 x00 x00 x00 x00)
(L (W x00 x00 x00 x00 x00 x00 x00 x00)) E)))))
(T (W x00 x00 x00 x00 x37 x00 x00 x00)
(T (W x05 x05 x02 x03 x05 x02 x02 x02)
(T (W x00 x00 x00 x00 x66 xcf x18 x8c)
(T (W x00 x00 x00 x00 xce x00 x00 x00)
(T (W x01 x00 x00 x00 x00 x00 x00 x00)
(L (W x10 x00 x00 x00 x4f x00 x00 x00))
(L (W xc1 x00 x00 x00 x35 x01 x38 x0d)))
(T (W x05 x05 x04 x04 x04 x02 x02 x04)
(L (W x00 x00 x00 x00 x00 x00 x00 x00)) E))
(T (W x00 x00 x00 x00 x00 x00 x00 x00)
(T (W x01 x00 x00 x00 x00 x00 x00 x00)
(L (W x2d x03 x00 x03 x00 x00 x00 x00)) E)
(T (W x00 x00 x00 x00 x00 x00 x00 x00)
(L (W x00 x00 x00 x00 x00 x00 x00 x00)) E)))
(T (W x00 x00 x00 x00 x00 x00 x00 x00)
(T (W x10 x00 x00 x00 x00 x00 x00 x00)
(T (W x2b x00 x6f x00 x65 x00 x00 x00)
(L (W x00 x00 x00 x00 x02 x00 x00 x00))
(L (W x00 x00 x5b x01 x00 x00 x5e x00)))
(T (W x80 x00 x00 x00 x81 x00 x10 x0c)
(L (W x00 x00 x00 x00 x00 x00 x00 x00)) E))
(T (W x2d x02 x00 x08 x00 x00 x28 x01)
(T (W x3b x80 x60 x87 x86 x0e x01 x8a)
(L (W x1e x00 x00 x00 x00 x00 x3c x00)) E)
(T (W x00 x00 x00 x00 x02 x03 x00 x00)
(L (W x01 x01 x01 x01 x01 x01 x01 x01)) E))))
(T (W xbe x01 x10 x00 x58 x00 x59 x00)
(T (W x1e x00 x00 x00 x00 x00 x28 x00)
(T (W x00 x00 x00 x00 x00 x00 x00 x00)
(T (W x00 x00 x10 x00 x00 x00 x0a x02)
(L (W x10 x03 x2e x0b x92 x20 x80 x28))
(L (W x01 x00 x00 x00 x00 x00 x00 x00)))
(T (W x00 x00 x00 x00 x00 x00 x00 x00)
(L (W x00 x00 x00 x00 x00 x00 x00 x00)) E))
(T (W x01 x01 x01 x01 x01 x01 x01 x01)
(T (W x00 x00 x00 x00 x73 x00 x00 x00)
(L (W x00 x00 x00 x00 xfa x03 x10 x8c)) E)
(T (W x57 x00 x08 x00 x5e x00 x00 x00)
(L (W x00 x00 x00 x00 x00 x00 x00 x00)) E)))
(T (W x2f x00 x25 x00 x9d x00 x00 x00)
(T (W x00 x00 x00 x00 x00 x00 x00 x00)
(T (W x08 x00 x00 x00 xce x01 x00 x00)
(L (W x05 x05 x04 x05 x05 x02 x02 x04)) E)
(T (W x01 x00 x00 x00 x00 x00 x00 x00)
(L (W x00 x00 x00 x00 x00 x00 x00 x00)) E))
(T (W x00 x00 x00 x00 x7a x04 x13 x0c)
(T (W x01 x00 x01 x00 x70 x01 x00 x00)
(L (W x00 x00 x19 x01 x00 x00 x21 x03)) E)
(T (W x00 x00 x00 x00 x00 x00 x00 x00)
(L (W x4b x02 x80 x00 x00 x00 x00 x00)) E)))))))
(T (W x00 x00 x00 x00 x0e x00 x00 x00)
(T (W x00 x00 x00 x00 x00 x00 x00 x00)
(T (W x00 x01 x01 x00 xa9 x00 x00 x00)
(T (W x04 x80 xa1 xab x86 x01 x00 x07)
(T (W x05 x05 x02 x03 x03 x02 x02 x02)
(T (W x00 x00 x00 x00 x00 x00 x00 x00)
(T (W x03 x03 x00 x0c x00 x00 x00 x00)
(L (W x08 x00 x00 x00 x48 x03 x00 x00))
(L (W x05 x05 x05 x05 x05 x02 x02 x05)))
(T (W x00 x80 x60 x8b x93 x20 xe1 x20)
(L (W x0a x00 x00 x00 x00 x00 x00 x00)) E))
(T (W x00 x00 x00 x00 x00 x00 x00 x00)
(T (W x51 x00 x51 x00 x73 x00 x00 x00)
(L (W x00 x00 x00 x00 x38 x01 x00 x00)) E)
(T (W x00 x00 x00 x00 x00 x00 x00 x00)
(L (W x00 x00 x00 x00 x00 x00 x00 x00)) E)))
(T (W x00 x00 x00 x00 x00 x13 x10 x2c)
(T (W x00 x00 x00 x00 xee x00 x00 x00)
(T (W x01 x00 x00 x00 x00 x00 x00 x00)
(L (W x08 x00 x00 x00 x00 x00 x00 x00))
(L (W x00 x00 x00 x00 x78 x10 x32 x0c)))
(T (W x05 x05 x03 x03 x03 x02 x02 x03)
(L (W x3c x00 x72 x00 x9f x00 xd7 x03)) E))
(T (W x00 x00 x00 x00 x00 x00 x00 x00)
(T (W x02 x00 x02 x00 x02 x02 x05 x04)
(L (W xff x03 x03 x00 x00 x00 x00 x00)) E)
(T (W x00 x00 x71 x00 x00 x00 x49 x02)
(L (W x00 x00 x00 x00 x00 x00 x00 x00)) E))))
(T (W x00 x00 x00 x00 x00 x00 x00 x00)
(T (W x2d x02 x00 x08 x00 x00 x00 x00)
(T (W x27 x00 x33 x00 x7c x00 x00 x00)
(T (W x00 x00 x00 x00 x00 x00 x00 x00)
(L (W x02 x00 x02 x00 x03 x02 x03 x03))
(L (W x03 x03 x03 x00 x00 x00 x00 x00)))
(T (W x00 x00 x00 x00 x00 x00 x00 x00)
(L (W x00 x00 x00 x00 x00 x00 x00 x00)) E))
(T (W x00 x00 x00 x00 x00 x00 x00 x00)
(T (W x00 x00 x00 x00 xee x01 x00 x00)
(L (W x05 x05 x04 x04 x05 x02 x02 x04)) E)
(T (W x1e x00 x00 x00 x00 x00 x32 x00)
(L (W x00 x00 x00 x00 x00 x00 x00 x00)) E)))
(T (W x01 x00 x00 x00 x00 x00 x00 x00)
(T (W x00 x00 x00 x00 x00 x00 x00 x00)
(T (W x00 x00 x0e x02 x00 x00 x99 x01)
(L (W x00 x83 xa0 x83 x80 x00 x24 x0e)) E)
(T (W x2d x02 x08 x00 x00 x00 x00 x00)
(L (W x00 x00 x00 x00 x00 x00 x00 x00)) E))
(T (W x01 x01 x01 x01 x01 x01 x01 x01)
(T (W x00 x00 x00 x00 x00 x00 x00 x00)
(L (W x00 x00 x00 x00 x62 x10 x10 xcc)) E)
(T (W x42 x00 x42 x00 x16 x00 x00 x00)
(L (W x00 x00 x00 x00 x00 x00 x00 x00)) E)))))
(T (W x1e x00 x00 x00 x00 x00 x3c x00)
(T (W x00 x00 x00 x00 x00 x00 x00 x00)
(T (W x00 x00 x00 x00 x6e x00 x00 x00)
(T (W x00 x00 x00 x00 x00 x00 x00 x00)
(T (W x00 x00 x00 x00 x00 x00 x00 x00)
(L (W x78 x02 x80 x00 x00 x00 x74 x03))
(L (W x04 x00 x00 x00 x34 x03 x00 x00)))
(T (W x00 x00 xd9 x01 x00 x00 xd9 x01)
(L (W x00 x00 x00 x00 x00 x00 x00 x00)) E))
(T (W x01 x00 x00 x00 x00 x00 x00 x00)
(T (W x05 x05 x05 x05 x05 x02 x02 x05)
(L (W x85 x00 x85 x00 x82 x00 x95 x04)) E)
(T (W x00 x00 x00 x00 x00 x00 x00 x00)
(L (W x00 x00 x00 x00 x00 x00 x00 x00)) E)))
(T (W x00 x00 x00 x00 x00 x00 x00 x00)
(T (W x03 x03 x00 x0c x00 x00 x00 x00)
(T (W x00 x08 x6e x03 x87 x10 x01 x72)
(L (W x1e x00 x00 x00 x00 x00 x32 x00))
(L (W x00 x00 x02 x00 x00 x00 x00 x00)))
(T (W x00 x00 x00 x00 x6e x02 x00 x00)
(L (W x01 x01 x01 x01 x01 x01 x01 x01)) E))
(T (W x1a x00 x1a x00 x1a x00 x00 x00)
(T (W x00 x00 x00 x00 x01 x04 x50 x0c)
(L (W x02 x00 x02 x00 x03 x02 x03 x03)) E)
(T (W x00 x00 x00 x00 xb1 x00 x00 x00)
(L (W x00 x00 x00 x00 x00 x00 x00 x00)) E))))
(T (W x00 x00 x00 x00 x00 x00 x00 x00)
(T (W x02 x00 x03 x00 x02 x03 x04 x04)
(T (W x05 x05 x04 x05 x05 x02 x02 x04)
(T (W x00 x00 x00 x00 x00 x00 x00 x00)
(L (W x00 x00 x00 x00 x00 x13 x10 x0c))
(L (W x00 x00 x00 x00 x00 x00 x00 x00)))
(T (W x39 x00 x3a x00 x1d x00 x00 x00)
(L (W x00 x00 x00 x00 x00 x00 x00 x00)) E))
(T (W x00 x00 x74 x00 x00 x00 xf2 x00)
(T (W xff x01 x04 x00 x00 x00 x00 x00)
(L (W x08 x00 x00 x00 x9e x03 x00 x00)) E)
(T (W x00 x00 x60 x8b x82 x22 x10 x01)
(L (W x01 x00 x00 x00 x00 x00 x00 x00)) E)))
(T (W x00 x00 x00 x00 x00 x00 x00 x00)
(T (W x00 x00 x00 x00 x03 x00 x12 x0c)
(T (W x00 x00 x00 x00 x60 x00 x00 x00)
(L (W x00 x00 x1d x00 x00 x00 x24 x00)) E)
(T (W x01 x00 x00 x00 x00 x00 x00 x00)
(L (W x00 x00 x00 x00 x00 x00 x00 x00)) E))
(T (W x00 x00 x00 x00 x00 x00 x00 x00)
(T (W x1e x00 x00 x00 x00 x00 x37 x00)
(L (W x00 x04 x00 x00 x00 x00 x6a x00)) E)
(T (W x05 x05 x04 x04 x05 x02 x02 x04)
(L (W x00 x00 x00 x00 x00 x00 x00 x00)) E))))))
(T (W x00 x00 x00 x00 x00 x00 x00 x00)
(T (W x05 x05 x03 x03 x04 x02 x02 x03)
(T (W xbe x01 x04 x00 x00 x00 x00 x00)
(T (W x1e x00 x00 x00 x00 x00 x3c x00)
(T (W x02 x00 x02 x00 x03 x02 x04 x04)
(T (W x00 x00 x6b x02 x00 x00 x00 x00)
(L (W x00 x4b x2a x93 x86 x40 x00 x80))
(L (W x01 x00 x00 x00 x00 x00 x00 x00)))
(T (W x4b x01 x00 x01 x00 x00 x00 x00)
(L (W x00 x00 x00 x00 x00 x00 x00 x00)) E))
(T (W x05 x05 x03 x03 x03 x02 x02 x03)
(T (W x00 x00 x00 x00 x00 x00 x00 x00)
(L (W x00 x00 x00 x00 x00 x03 x50 x4c)) E)
(T (W x31 x00 x31 x00 xb1 x00 x00 x00)
(L (W x00 x00 x00 x00 x00 x00 x00 x00)) E)))
(T (W x1c x00 x1c x00 x1c x00 x00 x00)
(T (W x00 xab x24 x07 xc7 x43 x00 x00)
(T (W x00 x00 x00 x00 x00 x00 x00 x00)
(L (W x05 x05 x04 x05 x06 x02 x02 x04))
(L (W xaf x00 xaf x00 xa5 x00 x96 x04)))
(T (W x1e x00 x00 x00 x00 x00 x2d x00)
(L (W x08 x20 x00 x00 x00 x00 x00 x00)) E))
(T (W x00 x00 x00 x00 x62 x0c x10 x2e)
(T (W x00 x00 x00 x00 x00 x00 x00 x00)
(L (W x00 x00 x00 x00 x00 x00 x00 x00)) E)
(T (W x02 x00 x03 x00 x01 x03 x03 x03)
(L (W x00 x00 x00 x00 x00 x00 x00 x00)) E))))
(T (W x80 x00 x00 x00 x00 x03 x10 x0c)
(T (W x00 x00 xe0 x01 x00 x00 x0c x00)
(T (W x00 x00 x00 x00 x00 x00 x07 x00)
(T (W x1e x00 x26 x00 x65 x00 x00 x00)
(L (W x00 x00 x00 x00 x00 x00 x00 x00))
(L (W x00 x00 xce x02 x00 x00 xce x02)))
(T (W x00 x00 x00 x00 x78 x08 x51 x0c)
(L (W x00 x00 x00 x00 x00 x00 x00 x00)) E))
(T (W x00 x00 x00 x00 x00 x00 x00 x00)
(T (W x00 x00 x00 x00 x00 x00 x00 x00)
(L (W x1e x00 x00 x00 x00 x00 x28 x00)) E)
(T (W x04 x00 x00 x00 xd6 x02 x00 x00)
(L (W x01 x01 x01 x01 x01 x01 x01 x01)) E)))
(T (W x00 x00 x00 x00 xae x00 x00 x00)
(T (W x00 x00 x00 x00 x00 x00 x00 x00)
(T (W x01 x00 x02 x00 x01 x02 x03 x03)
(L (W x2d x03 x00 x0c x00 x00 x72 x03)) E)
(T (W x00 x00 x15 x02 x00 x00 x15 x02)
(L (W x1b xab xe0 x83 xc4 x08 x01 x0b)) E))
(T (W x1e x00 x00 x00 x00 x00 x28 x00)
(T (W x05 x05 x03 x03 x03 x02 x02 x03)
(L (W xa9 x00 x65 x00 x9b x00 x97 x03)) E)
(T (W x00 x00 x00 x00 x00 x00 x00 x00)
(L (W x00 x00 x00 x00 x00 x00 x00 x00)) E)))))
(T (W x00 x00 x00 x00 x00 x00 x00 x00)
(T (W x00 x00 x00 x00 x00 x00 x00 x00)
(T (W x00 x00 x20 x8b x9a x21 x90 x00)
(T (W x00 x00 x00 x00 x00 x00 x00 x00)
(T (W x00 x00 x00 x00 x00 x00 x00 x00)
(L (W x00 x00 x0a x02 x00 x00 x0a x02))
(L (W x00 x43 x70 x4f x8f x11 x00 x03)))
(T (W x00 x00 x00 x00 x00 x00 x00 x00)
(L (W x00 x00 x00 x00 x00 x00 x00 x00)) E))
(T (W x00 x00 x00 x00 x2e x01 x00 x00)
(T (W x0a x00 x00 x00 x00 x00 x28 x00)
(L (W x02 x80 x00 x00 x00 x00 x26 x00)) E)
(T (W x05 x05 x03 x03 x03 x02 x02 x03)
(L (W x00 x00 x00 x00 x00 x00 x00 x00)) E)))
(T (W x01 x01 x01 x01 x01 x01 x01 x01)
(T (W x00 x00 x1c x00 x00 x00 x34 x00)
(T (W x64 x02 x10 x04 x00 x00 x00 x00)
(L (W x00 x00 x00 x00 xbb x03 x00 x00))
(L (W x05 x05 x05 x05 x05 x02 x02 x02)))
(T (W x40 x03 x60 xc7 x86 x01 x01 x05)
(L (W x01 x00 x00 x00 x00 x00 x00 x00)) E))
(T (W x00 x10 x00 x00 x00 x00 xba x00)
(T (W x21 x00 x5d x00 x0b x00 x00 x00)
(L (W x00 x00 x00 x00 xc2 x00 x00 x00)) E)
(T (W x00 x00 x00 x00 x0e xa4 x50 x0c)
(L (W x00 x00 x00 x00 x00 x00 x00 x00)) E))))
(T (W x80 x28 x00 x00 x00 x00 x00 x00)
(T (W x00 x00 x00 x00 x00 x00 x00 x00)
(T (W x01 x00 x00 x00 x00 x00 x00 x00)
(T (W x01 x01 x01 x01 x01 x01 x01 x01)
(L (W xe6 x00 xe6 x00 xe6 x00 x00 x00))
(L (W x00 x00 x00 x00 x00 x00 x00 x00)))
(T (W x00 x00 x00 x00 x00 x00 x00 x00)
(L (W x00 x00 x00 x00 x00 x00 x00 x00)) E))
(T (W x00 x00 x00 x00 x00 x00 x00 x00)
(T (W x00 x00 x00 x00 x00 x00 x00 x00)
(L (W x00 x4b x67 x87 x80 x08 x01 x00)) E)
(T (W x2d x01 x01 x00 x00 x00 x00 x00)
(L (W x00 x00 x00 x00 x00 x00 x00 x00)) E)))
(T (W x2d x03 x00 x0c x00 x00 xdd x00)
(T (W x33 x00 x02 x00 x2c x00 x00 x00)
(T (W x00 x00 x00 x00 x03 x04 x52 x0c)
(L (W x01 x00 x03 x00 x02 x03 x05 x05)) E)
(T (W x00 x00 x00 x00 x00 x00 x00 x00)
(L (W x00 x00 xb3 x01 x00 x00 x00 x00)) E))
(T (W x00 x00 x60 x87 x86 x08 x01 x00)
(T (W x08 x00 x00 x00 x2e x02 x00 x00)
(L (W x01 x01 x01 x01 x01 x01 x01 x01)) E)
(T (W x1e x00 x00 x00 x00 x00 x37 x00)
(L (W x10 x28 x00 x00 x00 x00 x00 x00)) E)))))))))))))
(T (W x00 x00 xff x00 x00 x00 x00 x00)
(T (W x00 x40 x00 x00 x00 x00 x00 x00)
(T (W x00 x00 x00 x00 x00 x00 x00 x00)
(T (W x00 x00 x00 x01 x01 x01 x01 x01)
(T (W x00 x00 x00 x00 x00 x00 x01 x00)
(T (W x00 x00 x4a x00 x49 x00 x00 x00)
(T (W x03 x04 x00 x00 x00 x00 x00 x00)
(T (W x32 x00 x4b x28 x00 x00 x00 x00)
(T (W x00 x00 x00 x00 x00 x00 x00 x00)
(T (W x01 x00 x01 x00 x01 x00 x01 x00)
(T (W x00 x00 x7f x14 x32 x03 x0b x0b)
(T (W x01 x43 xfa x00 x6e x00 x53 x01)
(T (W x01 xc4 x08 x40 x20 x00 x00 x00)
(L (W x03 x03 x03 x01 x01 x01 x01 x01))
(L (W x00 x00 x7f x14 x32 x00 x0b x0b)))
(T (W x0e x00 x10 x00 x13 x00 x19 x00)
(L (W x00 x00 x00 x00 x00 x00 x00 x00)) E))
(T (W x00 x10 x00 x80 x00 x00 x00 x00)
(T (W x00 x00 x00 x00 x00 x00 x72 x00)
(L (W x03 x03 x00 x00 x00 x00 x00 x00)) E)
(T (W x00 x00 x00 x00 x00 x00 x00 x00)
(L (W x59 x91 x5a x5b x69 x50 x04 x02)) E)))
(T (W x3c x00 x5f x37 x00 x00 x00 x00)
(T (W x00 x00 x00 x01 x01 x01 x01 x01)
(T (W x00 x00 x00 x00 x00 x00 x00 x00)
(L (W x40 x10 x22 x10 x00 x00 x00 x00))
(L (W x00 x00 x00 x00 x00 x00 x00 x00)))
(T (W x00 x00 x7f x14 x32 x00 x08 x08)
(L (W x00 x00 x00 x00 x00 x00 x00 x00)) E))
(T (W x01 x01 x00 x00 x00 x00 x00 x00)
(T (W x00 x00 x00 x00 x00 x00 x00 x00)
(L (W x00 xc0 x10 x44 x40 x9c x02 x00)) E)
(T (W x01 x41 x48 x00 x82 x00 xfc x00)
(L (W x01 x00 x01 x00 x01 x00 x01 x00)) E))))
(T (W x01 x01 x00 x00 x00 x00 x00 x00)
(T (W x00 x20 x08 x40 x40 x00 x10 x00)
(T (W x00 x00 x00 x00 x00 x00 x00 x00)
(T (W x00 x00 x00 x00 x00 x00 x00 x00)
(L (W x4b x7d x8c x28 x3c x5a x06 x0a))
(L (W x13 xc4 x00 x10 x60 x04 x20 x00)))
(T (W x01 x01 x00 x00 x00 x00 x00 x00)
(L (W x00 x00 x00 x00 x00 x00 x00 x00)) E))
(T (W x0e x00 x10 x00 x13 x00 x19 x00)
(T (W x03 x00 x00 x01 x01 x01 x01 x01)
(L (W x00 x00 x00 x14 x32 x00 x06 x08)) E)
(T (W x00 x00 xea x01 x07 x01 x00 x00)
(L (W x00 x00 x00 x00 x00 x00 x00 x00)) E)))
(T (W x00 x00 x00 x00 x00 x00 x00 x00)
(T (W x3c x55 x3c x37 x55 x3c x09 x01)
(T (W x01 x46 xaa x00 x64 x00 x38 x04)
(L (W x0e x00 x10 x00 x13 x00 x19 x00))
(L (W x00 x00 x00 x00 x00 x00 x00 x00)))
(T (W x90 x00 x21 x00 x24 x04 x20 x02)
(L (W x00 x00 x00 x01 x01 x01 x01 x01)) E))
(T (W x00 x00 x7f x14 x32 x01 x02 x0e)
(T (W x00 x10 x00 x00 x00 x00 x00 x00)
(L (W x3c x00 x55 x14 x00 x00 x00 x00)) E)
(T (W x00 x00 x00 x00 x00 x00 xd1 x02)
(L (W x01 x01 x00 x00 x00 x00 x00 x00)) E)))))
(T (W x00 x00 x74 x00 x8e x01 x00 x00)
(T (W x01 x45 x46 x00 x46 x00 xbe x00)
(T (W x04 x04 x04 x01 x01 x01 x01 x01)
(T (W x05 x05 x00 x00 x00 x00 x00 x00)
(T (W x69 x96 x5a x5f x96 x5a x0f x02)
(L (W x00 x00 x00 x08 x02 x20 x00 x10))
(L (W x00 x00 x00 x01 x01 x01 x01 x01)))
(T (W x01 x47 x42 x00 x46 x00 x7d x00)
(L (W x01 x00 x01 x00 x01 x00 x01 x00)) E))
(T (W x00 x00 xbd x00 xe8 x00 x00 x00)
(T (W x00 x00 x7f x19 x23 x04 x0b x0b)
(L (W x00 x00 x00 x00 x00 x00 x50 x03)) E)
(T (W x00 x50 x00 x00 x00 x00 x00 x00)
(L (W x00 x00 x00 x00 x00 x00 x00 x00)) E)))
(T (W xff xff xff xff x0f x00 x00 x00)
(T (W x13 x08 x82 x00 x00 x0c x00 x00)
(T (W x01 x00 x01 x00 x01 x00 x01 x00)
(L (W x00 x00 x8b x01 xc8 x02 x00 x00))
(L (W x80 x11 x80 x12 x00 x00 x00 x00)))
(T (W x04 x04 x03 x01 x01 x01 x01 x01)
(L (W x00 x00 xff x14 x32 x00 x0b x0b)) E))
(T (W x00 x00 x00 x00 x00 x00 x51 x01)
(T (W x00 x00 x00 x00 x00 x00 x00 x00)
(L (W x64 x91 x82 x1e x41 x6e x0e x0e)) E)
(T (W x04 x04 x00 x00 x00 x00 x00 x00)
(L (W x00 x00 x00 x00 x00 x00 x00 x00)) E))))
(T (W x00 x00 x00 x00 x00 x00 x51 x00)
(T (W x4b x64 x5f x6e x28 x46 x00 x00)
(T (W x00 x00 x7f x14 x32 x05 x05 x05)
(T (W x00 x14 x00 x01 x00 x00 x00 x00)
(L (W x00 x00 x00 x00 x00 x00 x00 x00))
(L (W x00 x00 x00 x00 x00 x00 x00 x00)))
(T (W x00 x00 x00 x00 x00 x00 x50 x02)
(L (W x01 x01 x00 x00 x00 x00 x00 x00)) E))
(T (W x00 x00 x00 x00 x00 x00 x00 x00)
(T (W x00 x00 x00 x00 x00 x00 x00 x00)
(L (W x05 x04 x04 x01 x01 x01 x01 x01)) E)
(T (W x0e x00 x10 x00 x13 x00 x19 x00)
(L (W x00 x00 x00 x00 x00 x00 x00 x00)) E)))
(T (W x0e x00 x10 x00 x13 x00 x19 x00)
(T (W x00 x00 x00 x00 x00 x00 x00 x00)
(T (W x03 x03 x00 x00 x00 x00 x00 x00)
(L (W x01 x40 xfd x00 x28 x00 x98 x01)) E)
(T (W x5b x5a x48 x6c x5a x81 x0b x01)
(L (W xb8 x48 x91 x00 x21 x2c x20 x00)) E))
(T (W x05 x05 x05 x01 x01 x01 x01 x01)
(T (W x00 x00 x4e x00 x1b x01 x00 x00)
(L (W x02 x90 x20 x00 x00 x00 x00 x00)) E)
(T (W x00 x00 x7f x00 x00 x00 x00 x00)
(L (W x00 x00 x00 x00 x00 x00 x00 x00)) E))))))
(T (W x00 x00 x00 x00 x00 x00 x00 x00)
(T (W x00 x00 xfe x14 x32 x03 x01 x05)
(T (W x2a x04 x00 x0c x10 x02 x22 x84)
(T (W x00 x00 x0e x00 x16 x02 x00 x00)
(T (W x00 x00 x00 x00 x00 x00 x00 x00)
(T (W x01 x41 x22 x01 xb4 x00 xd6 x06)
(L (W x0e x00 x10 x00 x13 x00 x19 x00))
(L (W x00 x00 x00 x00 x00 x00 x00 x00)))
(T (W x01 x60 x00 x00 x28 x18 x10 x00)
(L (W x00 x00 x00 x01 x01 x01 x01 x01)) E))
(T (W x00 x00 x7f x00 x00 x00 x00 x00)
(T (W x09 x90 x00 x00 x00 x00 x00 x00)
(L (W x3c x00 x55 x2d x00 x00 x00 x00)) E)
(T (W x00 x00 x00 x00 x00 x00 x00 x00)
(L (W x02 x02 x00 x00 x00 x00 x00 x00)) E)))
(T (W x00 x00 x00 x00 x00 x00 x91 x00)
(T (W x0e x00 x10 x00 x13 x00 x19 x00)
(T (W x00 x00 x00 x01 x01 x01 x01 x01)
(L (W x00 x00 xff x78 x00 x05 x0f x0f))
(L (W x00 x00 x00 x00 x00 x00 x4d x03)))
(T (W x00 x00 x5d x01 x12 x02 x00 x00)
(L (W x00 x10 x00 x00 x00 x00 x00 x00)) E))
(T (W x00 x00 x00 x00 x00 x00 x00 x00)
(T (W x03 x03 x00 x00 x00 x00 x00 x00)
(L (W x02 x46 x59 x01 xd0 x07 x1c x25)) E)
(T (W x2d x32 x23 x28 x37 x4b x0f x0f)
(L (W x00 x00 x00 x00 x00 x00 x00 x00)) E))))
(T (W x00 x00 x00 x00 x00 x00 x00 x00)
(T (W x02 x49 xa1 x00 x82 x00 x21 x02)
(T (W x23 x98 x20 x40 x00 x00 x00 x00)
(T (W x00 x00 x00 x00 x00 x00 x00 x00)
(L (W x05 x05 x00 x00 x00 x00 x00 x00))
(L (W x12 x47 x1d x01 xe6 x00 xed x03)))
(T (W x28 x00 x46 x28 x00 x00 x00 x00)
(L (W x00 x00 x00 x00 x00 x00 x00 x00)) E))
(T (W x00 x00 x00 x00 x00 x00 x00 x00)
(T (W x0a x00 x0a x00 x0a x00 x0a x00)
(L (W x00 x00 x3d x02 xf3 x00 x00 x00)) E)
(T (W x04 x03 x03 x01 x01 x01 x01 x01)
(L (W x00 x00 xff x00 x00 x00 x00 x00)) E)))
(T (W x00 x00 x00 x01 x01 x01 x01 x01)
(T (W x01 x01 x00 x00 x00 x00 x00 x00)
(T (W x46 x6e x46 x5a x73 x46 x01 x08)
(L (W x89 x04 x10 x08 x00 x00 x40 x00)) E)
(T (W x01 x41 x93 x00 x8c x00 xf4 x01)
(L (W x01 x00 x01 x00 x01 x00 x01 x00)) E))
(T (W x00 x00 x00 x00 x00 x00 x00 x00)
(T (W x00 x00 x7f x00 x00 x00 x00 x00)
(L (W x00 x00 x00 x00 x00 x00 x25 x00)) E)
(T (W x12 x58 x22 x00 x06 x00 x00 x00)
(L (W x00 x00 x00 x00 x00 x00 x00 x00)) E)))))
(T (W x05 x05 x05 x01 x01 x01 x01 x01)
(T (W x28 x23 x1e x69 x78 x46 x0d x0d)
(T (W x0e x00 x10 x00 x13 x00 x19 x00)
(T (W x00 x00 x00 x00 x00 x00 x00 x00)
(T (W x01 x01 x00 x00 x00 x00 x00 x00)
(L (W x01 x46 x66 x00 x46 x00 x52 x00))
(L (W x0e x00 x10 x00 x13 x00 x19 x00)))
(T (W x46 x37 x5f x41 x5f x6e x0d x0d)
(L (W x00 x00 x00 x00 x00 x00 x00 x00)) E))
(T (W x00 x00 x00 x01 x01 x01 x01 x01)
(T (W x00 x00 x00 x00 x00 x00 x00 x00)
(L (W x80 x30 x40 x00 x00 x00 x00 x00)) E)
(T (W x00 x00 xfe x00 x00 x00 x00 x00)
(L (W x00 x00 x00 x00 x00 x00 x00 x00)) E)))
(T (W x00 x00 x1f x00 x00 x00 x00 x00)
(T (W x01 x40 x54 x01 x7c x01 xc6 x07)
(T (W x46 x41 x12 x00 x40 xb0 x08 x00)
(L (W x03 x02 x02 x01 x01 x01 x01 x01))
(L (W x00 x00 xfe x14 x32 x00 x06 x0b)))
(T (W x0e x00 x10 x00 x13 x00 x19 x00)
(L (W x00 x00 x00 x00 x00 x00 x00 x00)) E))
(T (W xc0 x30 x02 x28 x00 x00 x00 x00)
(T (W x00 x00 x00 x00 x00 x00 x11 x02)
(L (W x03 x04 x00 x00 x00 x00 x00 x00)) E)
(T (W x3c x00 x55 x32 x00 x00 x00 x00)
(L (W x00 x00 x00 x00 x00 x00 x00 x00)) E))))
(T (W x00 x00 x00 x00 x00 x00 x00 x00)
(T (W x04 x05 x00 x00 x00 x00 x00 x00)
(T (W x00 x00 x60 x01 x88 x01 x00 x00)
(T (W x00 x00 xfe x00 x00 x00 x00 x00)
(L (W x00 x00 xcd x02 xba x02 x11 x03))
(L (W x01 x01 x00 x00 x00 x00 x00 x00)))
(T (W x00 x10 x01 x00 x00 x00 x00 x00)
(L (W x00 x00 x00 x00 x00 x00 x00 x00)) E))
(T (W x82 x46 x23 x3c x46 x23 x0a x0a)
(T (W x01 x45 x37 x00 x28 x00 x29 x00)
(L (W x0e x00 x10 x00 x13 x00 x19 x00)) E)
(T (W x00 x20 x00 x41 x40 x40 x10 x00)
(L (W x00 x00 x00 x01 x01 x01 x01 x01)) E)))
(T (W x00 x00 x00 x00 x00 x00 x00 x00)
(T (W x00 x00 x00 x00 x00 x00 x11 x01)
(T (W x3c x00 x64 x41 x00 x00 x00 x00)
(L (W x48 x50 x64 x58 x3c x5a x00 x00)) E)
(T (W x02 x02 x00 x00 x00 x00 x00 x00)
(L (W x00 x00 x00 x00 x00 x00 x00 x00)) E))
(T (W x01 x00 x01 x00 x01 x00 x01 x00)
(T (W x03 x03 x03 x01 x01 x01 x01 x01)
(L (W x00 x00 x7f x14 x32 x00 x01 x02)) E)
(T (W x00 x00 x0c x01 x55 x00 x00 x00)
(L (W x00 x00 x00 x00 x00 x00 x00 x00)) E)))))))
(T (W x03 x03 x03 x01 x01 x01 x01 x01)
(T (W x01 x00 x01 x00 x01 x00 x01 x00)
(T (W x02 x42 xf3 x00 x50 x00 x2c x01)
(T (W x00 x00 x00 x00 x00 x00 x00 x00)
(T (W x00 x00 x00 x00 x00 x00 x00 x00)
(T (W x00 x00 x7f x00 x00 x00 x00 x00)
(T (W x20 x10 x02 x00 x00 x00 x00 x00)
(L (W x3c x00 x55 x32 x00 x00 x00 x00))
(L (W x4b x5f x7a x45 x3a x4b x07 x0b)))
(T (W x00 x00 x00 x00 x00 x00 x31 x02)
(L (W x04 x05 x00 x00 x00 x00 x00 x00)) E))
(T (W x01 x48 x03 x01 xa0 x00 xe4 x01)
(T (W x5e x04 x00 x01 x30 x20 x2c x14)
(L (W x04 x03 x03 x01 x01 x01 x01 x01)) E)
(T (W x01 x00 x01 x00 x01 x00 x01 x00)
(L (W x00 x00 x25 x02 x2f x02 x00 x00)) E)))
(T (W x0e x00 x10 x00 x13 x00 x19 x00)
(T (W x00 x00 x00 x00 x00 x00 x00 x00)
(T (W x04 x04 x00 x00 x00 x00 x00 x00)
(L (W x01 x40 x1d x01 xf0 x00 x08 x0d))
(L (W x0e x00 x10 x00 x13 x00 x19 x00)))
(T (W x3c x28 x3c x37 x5f x3c x07 x09)
(L (W x00 x00 x00 x00 x00 x00 x00 x00)) E))
(T (W x04 x03 x03 x01 x01 x01 x01 x01)
(T (W x00 x00 x00 x00 x00 x00 x00 x00)
(L (W x00 x70 x40 x00 x08 x00 x00 x00)) E)
(T (W x00 x00 x7f x14 x32 x00 x04 x08)
(L (W x00 x00 x00 x00 x00 x00 x00 x00)) E))))
(T (W x04 x04 x04 x01 x01 x01 x01 x01)
(T (W x00 x10 x00 x00 x01 x00 x00 x00)
(T (W x80 x40 x00 x30 x40 x04 x00 x00)
(T (W x01 x00 x01 x00 x01 x00 x01 x00)
(L (W x00 x00 xc9 x00 xca x00 x00 x00))
(L (W x1e x10 x20 x80 x00 x00 x00 x00)))
(T (W x02 x02 x03 x01 x01 x01 x01 x02)
(L (W x00 x00 xff x00 x00 x00 x00 x00)) E))
(T (W x00 x00 x00 x00 x00 x00 x30 x01)
(T (W x00 x00 x00 x00 x00 x00 x00 x00)
(L (W x3c x5f x32 x1e x91 x82 x07 x07)) E)
(T (W x03 x03 x00 x00 x00 x00 x00 x00)
(L (W x00 x00 x00 x00 x00 x00 x00 x00)) E)))
(T (W x01 x01 x00 x00 x00 x00 x00 x00)
(T (W x00 x00 x30 x00 x37 x00 x00 x00)
(T (W x00 x00 x7f x28 x32 x05 x01 x0e)
(L (W x00 x00 x00 x00 x00 x00 x30 x03))
(L (W x02 x02 x00 x00 x00 x00 x00 x00)))
(T (W x02 x10 x00 x00 x06 x00 x00 x00)
(L (W x00 x00 x00 x00 x00 x00 x00 x00)) E))
(T (W x00 x00 x00 x00 x00 x00 x00 x00)
(T (W x01 x40 xa3 x00 x82 x00 x2b x02)
(L (W x0e x00 x10 x00 x13 x00 x19 x00)) E)
(T (W x02 x00 x04 x08 x96 x20 x20 x02)
(L (W x00 x00 x00 x01 x01 x01 x01 x01)) E)))))
(T (W x03 x03 x00 x00 x00 x00 x00 x00)
(T (W x00 x00 x7f x14 x32 x03 x02 x02)
(T (W x28 x00 x4b x14 x00 x00 x00 x00)
(T (W x00 x00 x00 x01 x01 x01 x01 x01)
(T (W x00 x00 x00 x00 x00 x00 x00 x00)
(L (W x00 x18 x02 x00 x06 x00 x00 x00))
(L (W x37 x00 x55 x2d x00 x00 x00 x00)))
(T (W x00 x00 xbf x0f x32 x04 x05 x05)
(L (W x00 x00 x00 x00 x00 x00 x00 x00)) E))
(T (W x05 x06 x00 x00 x00 x00 x00 x00)
(T (W x4b x4b x82 x5f x4b x82 x0d x0d)
(L (W xa0 x20 x21 x00 x01 x00 x20 x00)) E)
(T (W x00 x00 x00 x00 x00 x00 x00 x00)
(L (W x01 x00 x01 x00 x01 x00 x01 x00)) E)))
(T (W x00 x00 x00 x00 x00 x00 x00 x00)
(T (W x00 x90 x22 x00 x04 x00 x00 x00)
(T (W x00 x00 x00 x00 x00 x00 x00 x00)
(L (W x02 x02 x00 x00 x00 x00 x00 x00))
(L (W x09 x48 xad x00 x1e x00 x05 x00)))
(T (W x37 x00 x55 x2d x00 x00 x00 x00)
(L (W x00 x00 x00 x00 x00 x00 x00 x00)) E))
(T (W x0c x20 x08 x00 x28 x08 x10 x00)
(T (W x0e x00 x10 x00 x13 x00 x19 x00)
(L (W x00 x00 x00 x00 x00 x00 x00 x00)) E)
(T (W x04 x04 x04 x01 x01 x01 x01 x01)
(L (W x00 x00 xff x00 x00 x00 x00 x00)) E))))
(T (W x00 x00 x00 x00 x00 x00 x00 x00)
(T (W x00 x00 x5d x01 x38 x00 x00 x00)
(T (W x4b x69 x4b x2d x69 x4b x0a x0a)
(T (W x00 x00 x00 x00 x00 x00 x00 x00)
(L (W x0e x00 x10 x00 x13 x00 x19 x00))
(L (W x00 x00 x00 x00 x00 x00 x00 x00)))
(T (W x00 x00 x00 x32 x02 x00 x41 x80)
(L (W x03 x02 x02 x01 x01 x01 x01 x01)) E))
(T (W x00 x00 x7f x00 x00 x00 x00 x00)
(T (W x00 x00 x00 x00 x00 x00 x00 x00)
(L (W x3c x00 x5a x37 x00 x00 x00 x00)) E)
(T (W x00 x00 x00 x00 x00 x00 xb0 x02)
(L (W x01 x01 x00 x00 x00 x00 x00 x00)) E)))
(T (W x00 x00 x00 x00 x00 x00 xb1 x00)
(T (W x0e x00 x10 x00 x13 x00 x19 x00)
(T (W x00 x00 x00 x01 x01 x01 x01 x01)
(L (W x00 x00 x7f x14 x32 x00 x07 x07)) E)
(T (W x00 x00 x00 x00 x00 x00 x00 x00)
(L (W x00 x00 x00 x00 x00 x00 x00 x00)) E))
(T (W x3c x00 x64 x46 x00 x00 x00 x00)
(T (W x03 x04 x00 x00 x00 x00 x00 x00)
(L (W x00 x00 x00 x00 x00 x00 x00 x00)) E)
(T (W x2f x3e x2d x2e x37 x2d x06 x06)
(L (W x00 x00 x00 x00 x00 x00 x00 x00)) E))))))
(T (W x00 x00 x00 x00 x00 x00 x00 x00)
(T (W x2e x39 x28 x32 x28 x28 x03 x03)
(T (W x82 x18 x00 x00 x00 x00 x00 x00)
(T (W x01 x01 x00 x00 x00 x00 x00 x00)
(T (W x00 x00 x36 x00 x55 x01 x00 x00)
(T (W x00 x00 x00 x78 x5a x05 x0f x0f)
(L (W x00 x00 x00 x00 x00 x00 xf1 x02))
(L (W x02 x02 x00 x00 x00 x00 x00 x00)))
(T (W x02 x50 x02 x80 x00 x00 x00 x00)
(L (W x00 x00 x00 x00 x00 x00 x00 x00)) E))
(T (W x00 x00 x00 x00 x00 x00 x00 x00)
(T (W x01 x40 x0c x01 x5a x00 x54 x01)
(L (W x0e x00 x10 x00 x13 x00 x19 x00)) E)
(T (W x88 x00 x01 x00 x08 x2e x62 x40)
(L (W x00 x00 x00 x01 x01 x01 x01 x01)) E)))
(T (W x00 x00 x08 x40 x00 x00 x00 x00)
(T (W x00 x00 x00 x00 x00 x00 xf1 x00)
(T (W x28 x00 x46 x28 x00 x00 x00 x00)
(L (W x61 x6b x65 x4f x7f x59 x0d x0d))
(L (W x42 x00 x00 x04 x10 x00 x0e x00)))
(T (W x03 x03 x00 x00 x00 x00 x00 x00)
(L (W x06 x40 xb6 x00 x1e x00 x03 x00)) E))
(T (W x0e x00 x10 x00 x13 x00 x19 x00)
(T (W x03 x03 x03 x01 x01 x01 x01 x01)
(L (W x00 x00 xff x78 x00 x05 x0f x0f)) E)
(T (W x00 x00 x4a x01 xb6 x01 x00 x00)
(L (W x00 x00 x00 x00 x00 x00 x00 x00)) E))))
(T (W x0e x00 x10 x00 x13 x00 x19 x00)
(T (W x00 x00 x3f x19 x32 x00 x08 x08)
(T (W x00 x00 x00 x00 x00 x00 x00 x00)
(T (W x01 x00 x00 x00 x00 x00 x41 x04)
(L (W x03 x03 x02 x01 x01 x01 x01 x01))
(L (W x00 x00 xff x78 x00 x05 x0f x0f)))
(T (W x0e x00 x10 x00 x13 x00 x19 x00)
(L (W x00 x00 x00 x00 x00 x00 x00 x00)) E))
(T (W x00 x00 x00 x00 x00 x00 x00 x00)
(T (W x00 x00 x00 x00 x00 x00 x00 x00)
(L (W x04 x05 x00 x00 x00 x00 x00 x00)) E)
(T (W x3c x00 x5a x32 x00 x00 x00 x00)
(L (W x00 x00 x00 x00 x00 x00 x00 x00)) E)))
(T (W x3c x00 x55 x32 x00 x00 x00 x00)
(T (W x03 x02 x02 x01 x01 x01 x01 x01)
(T (W x00 x00 x3d x01 x59 x00 x00 x00)
(L (W x00 x90 x00 x80 x00 x00 x00 x00)) E)
(T (W x00 x00 x7f x28 x32 x05 x03 x03)
(L (W x00 x00 x00 x00 x00 x00 x26 x02)) E))
(T (W x01 x01 x00 x00 x00 x00 x00 x00)
(T (W x28 x37 x63 x2f x28 x4f x06 x03)
(L (W x08 x40 x00 x00 x48 x4c x28 x40)) E)
(T (W x01 x41 x09 x01 xb4 x00 xb8 x01)
(L (W x01 x00 x01 x00 x01 x00 x01 x00)) E)))))
(T (W x3c x00 x50 x32 x00 x00 x00 x00)
(T (W x00 x00 x07 x00 x08 x01 x00 x00)
(T (W x00 x00 x00 x00 x00 x00 x71 x00)
(T (W x0e x00 x10 x00 x13 x00 x19 x00)
(T (W x00 x00 x00 x01 x01 x01 x01 x01)
(L (W x00 x00 x7f x14 x32 x05 x05 x05))
(L (W x00 x00 x00 x00 x00 x00 x04 x03)))
(T (W x00 x00 xd8 x01 x3c x00 x00 x00)
(L (W x00 x00 x00 x00 x00 x00 x00 x00)) E))
(T (W x00 x00 x00 x00 x00 x00 x00 x00)
(T (W x02 x02 x00 x00 x00 x00 x00 x00)
(L (W x01 x49 xff x00 xd2 x00 x33 x00)) E)
(T (W x00 x00 x00 x00 x00 x00 x00 x00)
(L (W x00 x00 x00 x00 x00 x00 x00 x00)) E)))
(T (W x00 x00 x00 x00 x00 x00 x00 x00)
(T (W x00 x00 x1f x14 x32 x03 x01 x0e)
(T (W xc0 x11 x00 x0a x00 x00 x00 x00)
(L (W x3c x00 x5a x32 x00 x00 x00 x00))
(L (W x3a x5f x3a x61 x46 x3a x0c x10)))
(T (W x00 x00 x00 x00 x00 x00 x70 x02)
(L (W x01 x01 x00 x00 x00 x00 x00 x00)) E))
(T (W x01 x43 xad x00 x96 x00 x5c x02)
(T (W xa0 x00 x01 x02 x01 x28 x20 x00)
(L (W x02 x06 x05 x01 x01 x01 x02 x02)) E)
(T (W x0a x00 x0a x00 x13 x00 x0a x00)
(L (W x00 x00 x00 x00 x00 x00 x00 x00)) E))))
(T (W x01 x46 x3d x00 x1e x00 x28 x00)
(T (W x04 x04 x03 x01 x01 x01 x01 x01)
(T (W x01 x01 x00 x00 x00 x00 x00 x00)
(T (W x46 x50 x66 x28 x50 x66 x06 x02)
(L (W x62 x60 x02 x00 x00 x20 x14 x14))
(L (W x00 x00 x00 x01 x01 x01 x01 x01)))
(T (W x00 x00 x00 x00 x00 x00 x00 x00)
(L (W x01 x00 x01 x00 x01 x00 x01 x00)) E))
(T (W x00 x00 x00 x00 x00 x00 x00 x00)
(T (W x00 x00 x7f x14 x32 x00 x05 x05)
(L (W x00 x00 x00 x00 x00 x00 x71 x03)) E)
(T (W x00 x18 x07 x24 x0a x00 x00 x00)
(L (W x00 x00 x00 x00 x00 x00 x00 x00)) E)))
(T (W x00 x10 x80 x02 x02 x00 x00 x00)
(T (W x00 x00 x00 x00 x00 x00 x00 x00)
(T (W x0e x00 x10 x00 x13 x00 x19 x00)
(L (W x00 x00 xc6 x02 x3d x01 x00 x00)) E)
(T (W x00 x00 x00 x01 x01 x01 x01 x01)
(L (W x00 x00 x7f x14 x32 x00 x02 x0b)) E))
(T (W x00 x00 x00 x00 x00 x00 x71 x01)
(T (W x3c x00 x55 x32 x00 x00 x00 x00)
(L (W x34 x5f x37 x37 x3a x3e x01 x01)) E)
(T (W x01 x01 x00 x00 x00 x00 x00 x00)
(L (W x02 x48 xa3 x00 x3c x00 x55 x00)) E))))))))
(T (W x11 x88 x88 x40 x00 x00 x20 x00)
(T (W x00 x10 x00 x40 x00 x00 x00 x00)
(T (W x00 x00 x7f x00 x00 x00 x00 x00)
(T (W x00 x00 x00 x01 x01 x01 x01 x01)
(T (W x00 x00 x00 x00 x00 x00 x00 x00)
(T (W x0e x00 x10 x00 x13 x00 x19 x00)
(T (W x00 x00 x00 x00 x00 x00 x00 x00)
(T (W x03 x04 x00 x00 x00 x00 x00 x00)
(L (W x02 x41 x3d x00 x14 x00 x03 x00))
(L (W x0e x00 x10 x00 x13 x00 x19 x00)))
(T (W x41 x5a x73 x3a x2d x73 x10 x01)
(L (W x1a x40 x80 x04 x09 x1c x08 x80)) E))
(T (W x03 x02 x02 x01 x01 x01 x01 x02)
(T (W x00 x00 x09 x00 xb3 x01 x00 x00)
(L (W x00 x10 x02 x00 x00 x00 x00 x00)) E)
(T (W x00 x00 x1f x00 x00 x00 x00 x00)
(L (W x00 x00 x00 x00 x00 x00 x86 x02)) E)))
(T (W x00 x00 x1f x1e x32 x00 x02 x09)
(T (W x00 x00 x00 x00 x00 x00 x00 x00)
(T (W x00 x00 x00 x08 x02 x20 x00 x10)
(L (W x03 x02 x02 x01 x01 x01 x01 x02))
(L (W x00 x00 x7f x14 x32 x00 x0b x0b)))
(T (W x0e x00 x10 x00 x13 x00 x19 x00)
(L (W x00 x00 x00 x00 x00 x00 x00 x00)) E))
(T (W x00 x00 x00 x00 x00 x00 x00 x00)
(T (W x00 x00 x00 x00 x00 x00 x00 x00)
(L (W x03 x04 x00 x00 x00 x00 x00 x00)) E)
(T (W x3c x00 x64 x46 x00 x00 x00 x00)
(L (W x00 x00 x00 x00 x00 x00 x00 x00)) E))))
(T (W x00 x00 x00 x00 x00 x00 x00 x00)
(T (W x03 x04 x00 x00 x00 x00 x00 x00)
(T (W x00 x00 x00 x00 x00 x00 x00 x00)
(T (W x00 x00 x7f x00 x00 x00 x00 x00)
(L (W x00 x00 x00 x00 x00 x00 x01 x03))
(L (W x05 x05 x00 x00 x00 x00 x00 x00)))
(T (W x01 x10 x00 x00 x00 x00 x00 x00)
(L (W x00 x00 x00 x00 x00 x00 x00 x00)) E))
(T (W x32 x46 x64 x1e x28 x28 x08 x05)
(T (W x00 x00 x00 x00 x00 x00 x00 x00)
(L (W x0e x00 x10 x00 x13 x00 x19 x00)) E)
(T (W x00 x00 x00 x00 x00 x00 x00 x00)
(L (W x00 x00 x00 x01 x01 x01 x01 x01)) E)))
(T (W x1e x04 x02 x00 x30 x00 x24 x02)
(T (W x00 x00 x00 x00 x00 x00 xff x00)
(T (W x37 x00 x55 x2d x00 x00 x00 x00)
(L (W x32 x28 x28 x46 x46 x28 x0a x0a))
(L (W xa0 x40 x21 x03 x21 x0c x30 x00)))
(T (W x05 x05 x00 x00 x00 x00 x00 x00)
(L (W x00 x00 x00 x00 x00 x00 x00 x00)) E))
(T (W x0e x00 x10 x00 x13 x00 x19 x00)
(T (W x04 x04 x04 x01 x01 x01 x01 x01)
(L (W x00 x00 x00 x0a x32 x00 x0f x0f)) E)
(T (W x00 x00 x36 x01 x4b x00 x00 x00)
(L (W x00 x00 x00 x00 x00 x00 x00 x00)) E)))))
(T (W x4a x14 x02 x00 x21 x30 x2c x14)
(T (W x3c x00 x50 x28 x00 x00 x00 x00)
(T (W x01 x45 x9f x00 x96 x00 xf2 x01)
(T (W xc1 x10 x0a x08 x00 x00 x00 x00)
(T (W x00 x00 x00 x00 x00 x00 x81 x01)
(L (W x03 x03 x00 x00 x00 x00 x00 x00))
(L (W x00 x00 x00 x00 x00 x00 x00 x00)))
(T (W x32 x00 x50 x32 x00 x00 x00 x00)
(L (W x00 x00 x00 x00 x00 x00 x00 x00)) E))
(T (W x42 x00 x00 x30 x00 x00 x08 x00)
(T (W x0e x00 x10 x00 x13 x00 x19 x00)
(L (W x00 x00 xac x00 xe9 x01 x00 x00)) E)
(T (W x00 x00 x00 x01 x01 x01 x01 x01)
(L (W x00 x00 xff x00 x00 x00 x00 x00)) E)))
(T (W x00 x00 x00 x01 x01 x01 x01 x01)
(T (W x02 x02 x00 x00 x00 x00 x00 x00)
(T (W x00 x00 x00 x00 x00 x00 x00 x00)
(L (W x18 x80 x48 x56 x10 x42 x08 x88))
(L (W x04 x03 x02 x01 x01 x01 x01 x01)))
(T (W x02 x45 xa5 x00 x46 x00 x6e x00)
(L (W x0a x00 x0a x00 x13 x00 x0a x00)) E))
(T (W x00 x00 x8d x01 x5e x00 x00 x00)
(T (W x00 x00 x7f x0f x32 x03 x0a x0a)
(L (W x00 x00 x00 x00 x00 x00 x81 x03)) E)
(T (W x40 x30 x40 x10 x02 x00 x00 x00)
(L (W x00 x00 x00 x00 x00 x00 x00 x00)) E))))
(T (W x00 x00 xae x01 xb3 x01 x00 x00)
(T (W x00 x00 x00 x00 x00 x00 x81 x00)
(T (W x0e x00 x10 x00 x13 x00 x19 x00)
(T (W x00 x00 x00 x01 x01 x01 x01 x01)
(L (W x00 x00 xff x19 x32 x00 x0a x0a))
(L (W x00 x00 x00 x00 x00 x00 x00 x00)))
(T (W x00 x00 x00 x00 x00 x00 x00 x00)
(L (W x00 x90 x20 x00 x00 x00 x00 x00)) E))
(T (W x3c x00 x64 x32 x00 x00 x00 x00)
(T (W x01 x01 x00 x00 x00 x00 x00 x00)
(L (W x01 x47 xa5 x00 xfa x00 x50 x14)) E)
(T (W x2a x34 x43 x32 x27 x38 x05 x0a)
(L (W x00 x00 x00 x00 x00 x00 x00 x00)) E)))
(T (W x37 x28 x55 x28 x50 x69 x11 x02)
(T (W x00 x00 x7f x00 x00 x00 x00 x00)
(T (W x00 x00 x00 x00 x00 x00 x00 x00)
(L (W x3c x00 x55 x28 x00 x00 x00 x00)) E)
(T (W x00 x00 x00 x00 x00 x00 x81 x02)
(L (W x03 x03 x00 x00 x00 x00 x00 x00)) E))
(T (W x01 x47 xa8 x00 x96 x00 x05 x0a)
(T (W x00 x00 x00 x08 x82 x20 x00 x00)
(L (W x00 x00 x00 x01 x01 x01 x01 x01)) E)
(T (W x01 x00 x01 x00 x01 x00 x01 x00)
(L (W x00 x00 x00 x00 x00 x00 x00 x00)) E))))))
(T (W x00 x00 x00 x00 x00 x00 x00 x00)
(T (W x0e x00 x10 x00 x13 x00 x19 x00)
(T (W x02 x03 x00 x00 x00 x00 x00 x00)
(T (W x00 x00 x00 x00 x00 x00 x00 x00)
(T (W x00 x00 x00 x00 x00 x00 x00 x00)
(T (W x00 x00 x00 x00 x00 x00 x00 x00)
(L (W x44 x46 x5c x2a x32 x84 x0a x06))
(L (W x81 x04 x08 x40 x29 x68 x00 x40)))
(T (W x04 x05 x00 x00 x00 x00 x00 x00)
(L (W x02 x49 xac x00 xb4 x00 x1b x03)) E))
(T (W x01 x00 x01 x00 x01 x00 x01 x00)
(T (W x00 x00 x00 x01 x01 x01 x01 x01)
(L (W x00 x00 x7f x14 x32 x00 x02 x04)) E)
(T (W x00 x00 x00 x00 x00 x00 x00 x00)
(L (W x02 x10 x04 x00 x00 x00 x00 x00)) E)))
(T (W x00 x00 x00 x00 x00 x00 x00 x00)
(T (W x2d x4b x25 x53 x46 x37 x09 x09)
(T (W x01 x46 xae x00 x78 x00 x96 x00)
(L (W x0a x00 x0a x00 x13 x00 x0a x00))
(L (W x00 x00 x41 x00 x39 x00 x00 x00)))
(T (W xa1 x80 x28 x52 x01 x20 x00 x00)
(L (W x03 x03 x02 x01 x01 x01 x01 x01)) E))
(T (W x00 x00 x7f x14 x32 x01 x04 x0e)
(T (W x00 x10 x00 x80 x00 x00 x00 x00)
(L (W x00 x00 x00 x00 x00 x00 x00 x00)) E)
(T (W x00 x00 x00 x00 x00 x00 xc0 x02)
(L (W x01 x01 x00 x00 x00 x00 x00 x00)) E))))
(T (W x00 x00 x7f x14 x32 x00 x05 x05)
(T (W x37 x00 x55 x2d x00 x00 x00 x00)
(T (W x00 x00 x00 x01 x01 x01 x01 x01)
(T (W x00 x00 x00 x00 x00 x00 x00 x00)
(L (W x00 x00 x00 x00 x00 x00 x00 x00))
(L (W x3c x00 x50 x32 x00 x00 x00 x00)))
(T (W x00 x00 x7f x0f x32 x00 x03 x03)
(L (W x00 x00 x00 x00 x00 x00 x00 x00)) E))
(T (W x03 x03 x00 x00 x00 x00 x00 x00)
(T (W x00 x00 x00 x00 x00 x00 x00 x00)
(L (W x00 x00 x00 x00 x00 x00 x04 x10)) E)
(T (W x01 x49 x44 x00 x14 x00 x05 x00)
(L (W x01 x00 x01 x00 x01 x00 x01 x00)) E)))
(T (W x01 x41 x42 x00 x32 x00 x78 x00)
(T (W x00 x90 x10 x00 x00 x00 x00 x00)
(T (W x00 x00 x00 x00 x00 x00 xc1 x01)
(L (W x03 x04 x00 x00 x00 x00 x00 x00)) E)
(T (W x3c x00 x55 x32 x00 x00 x00 x00)
(L (W x00 x00 x00 x00 x00 x00 x00 x00)) E))
(T (W x66 x01 x02 x04 x00 x00 x08 x00)
(T (W x01 x00 x01 x00 x01 x00 x01 x00)
(L (W x00 x00 xc4 x00 x5d x02 x00 x00)) E)
(T (W x04 x04 x03 x01 x01 x01 x01 x01)
(L (W x00 x00 xff x00 x00 x00 x00 x00)) E)))))
(T (W x01 x46 x9f x00 xa0 x00 x26 x02)
(T (W x00 x00 x00 x00 x00 x00 x3f x00)
(T (W x69 x82 x78 x28 x2d x2d x04 x05)
(T (W x00 x00 x7f x00 x00 x00 x00 x00)
(T (W x00 x00 x00 x00 x00 x00 x00 x00)
(L (W x3c x00 x5a x3c x00 x00 x00 x00))
(L (W x5f x5f x5f x5f x5f x5f x02 x02)))
(T (W x00 x00 x00 x00 x00 x00 x41 x02)
(L (W x01 x01 x00 x00 x00 x00 x00 x00)) E))
(T (W x01 x41 x26 x00 x14 x00 x14 x00)
(T (W x00 x84 x01 xc1 x09 x88 x00 x00)
(L (W x04 x04 x03 x01 x01 x01 x01 x01)) E)
(T (W x01 x00 x01 x00 x01 x00 x01 x00)
(L (W x00 x00 x00 x00 x00 x00 x00 x00)) E)))
(T (W x01 x00 x01 x00 x01 x00 x01 x00)
(T (W x46 x00 x64 x3c x00 x00 x00 x00)
(T (W x04 x05 x00 x00 x00 x00 x00 x00)
(L (W x01 x43 x3e x00 x1e x00 x32 x00))
(L (W x0e x00 x10 x00 x13 x00 x19 x00)))
(T (W x2d x55 x46 x3c x28 x28 x10 x08)
(L (W x00 x00 x00 x00 x00 x00 x00 x00)) E))
(T (W x02 x03 x02 x01 x01 x01 x02 x02)
(T (W x00 x00 x0e x00 x20 x00 x00 x00)
(L (W x00 x10 x85 x04 x00 x00 x00 x00)) E)
(T (W x00 x00 xff x78 x00 x05 x0f x0f)
(L (W x00 x00 x00 x00 x00 x00 x00 x00)) E))))
(T (W x00 x00 x00 x01 x01 x01 x01 x01)
(T (W x04 x90 x01 x00 x00 x00 x00 x00)
(T (W x00 x00 x00 x00 x00 x00 x00 x00)
(T (W x01 x00 x01 x00 x01 x00 x01 x00)
(L (W x00 x00 x00 x00 x00 x00 x00 x00))
(L (W x00 x00 x00 x00 x00 x00 x00 x00)))
(T (W x0e x0c x0a x02 x02 x02 x02 x02)
(L (W x00 x00 xff x00 x00 x00 x00 x00)) E))
(T (W x00 x00 x00 x00 x00 x00 x40 x01)
(T (W x37 x00 x55 x2d x00 x00 x00 x00)
(L (W x5a x64 x5a x4b x50 x46 x0c x0f)) E)
(T (W x03 x04 x00 x00 x00 x00 x00 x00)
(L (W x00 x00 x00 x00 x00 x00 x00 x00)) E)))
(T (W x01 x01 x00 x00 x00 x00 x00 x00)
(T (W x00 x00 x4b x00 x46 x01 x00 x00)
(T (W x00 x00 x7f x14 x23 x03 x05 x05)
(L (W x00 x00 x00 x00 x00 x00 x41 x03)) E)
(T (W x00 x90 x00 xc0 x01 x00 x00 x00)
(L (W x00 x00 x00 x00 x00 x00 x00 x00)) E))
(T (W x00 x00 x00 x00 x00 x00 x00 x00)
(T (W x02 x40 x3f x00 x3c x00 x77 x01)
(L (W x01 x00 x01 x00 x01 x00 x01 x00)) E)
(T (W x00 x00 x00 x00 x00 x00 x00 x00)
(L (W x00 x00 x00 x01 x01 x01 x01 x01)) E)))))))
(T (W x01 x43 x27 x00 x1e x00 x1d x00)
(T (W x00 x00 x00 x00 x00 x00 x00 x00)
(T (W x3c x00 x5f x37 x00 x00 x00 x00)
(T (W x00 x00 x0b x02 x59 x00 x00 x00)
(T (W x00 x00 x00 x00 x00 x00 x00 x00)
(T (W x01 x00 x01 x00 x01 x00 x01 x00)
(T (W x03 x03 x03 x01 x01 x01 x01 x01)
(L (W x00 x00 x7f x14 x32 x00 x05 x05))
(L (W x00 x00 x00 x00 x00 x00 xc6 x02)))
(T (W x00 x00 x36 x01 x8f x01 x00 x00)
(L (W x60 x10 x00 x80 x00 x00 x00 x00)) E))
(T (W x00 x00 x00 x00 x00 x00 x00 x00)
(T (W x01 x01 x00 x00 x00 x00 x00 x00)
(L (W x01 x43 xaa x00 x28 x00 x82 x00)) E)
(T (W x00 x00 x00 x00 x00 x00 x00 x00)
(L (W x00 x00 x00 x00 x00 x00 x00 x00)) E)))
(T (W x5a x55 x64 x55 x5f x7d x0e x02)
(T (W x00 x00 x00 x19 x32 x00 x08 x08)
(T (W x00 x10 x02 x00 x04 x00 x00 x00)
(L (W x00 x00 x00 x00 x00 x00 x00 x00))
(L (W x50 x5f x73 x41 x82 x73 x08 x11)))
(T (W x00 x00 x00 x00 x00 x00 x5f x02)
(L (W x01 x01 x00 x00 x00 x00 x00 x00)) E))
(T (W x01 x43 x04 x01 xc8 x00 x34 x03)
(T (W x00 x00 x00 x00 x00 x00 x00 x00)
(L (W x00 x00 x00 x01 x01 x01 x01 x01)) E)
(T (W x0e x00 x10 x00 x13 x00 x19 x00)
(L (W x00 x00 x00 x00 x00 x00 x00 x00)) E))))
(T (W x00 x00 x00 x00 x00 x00 x00 x00)
(T (W x02 x02 x02 x01 x01 x01 x02 x02)
(T (W x06 x07 x00 x00 x00 x00 x00 x00)
(T (W x00 x00 x00 x00 x00 x00 x00 x00)
(L (W x00 xc0 x00 x10 x00 x04 x20 x00))
(L (W x03 x03 x03 x01 x01 x01 x01 x01)))
(T (W x00 x00 x00 x00 x00 x00 x00 x00)
(L (W x01 x00 x01 x00 x01 x00 x01 x00)) E))
(T (W x00 x00 x9d x00 xe7 x00 x00 x00)
(T (W x00 x00 xff x00 x00 x00 x00 x00)
(L (W x00 x00 x00 x00 x00 x00 x53 x00)) E)
(T (W x22 x90 x00 x40 x02 x00 x00 x00)
(L (W x00 x00 x00 x00 x00 x00 x00 x00)) E)))
(T (W x00 x00 x00 x00 x00 x00 x00 x00)
(T (W x88 x20 x01 x00 x09 x58 x30 x60)
(T (W x0e x00 x10 x00 x13 x00 x19 x00)
(L (W x00 x00 xe9 x02 x38 x00 x00 x00))
(L (W xe0 x31 xe2 x09 x04 x00 x00 x00)))
(T (W x04 x03 x03 x01 x01 x01 x01 x02)
(L (W x00 x00 xff x00 x00 x00 x00 x00)) E))
(T (W x00 x00 x00 x00 x00 x00 x00 x00)
(T (W x3c x00 x55 x23 x00 x00 x00 x00)
(L (W x4b x64 x78 x41 x19 x41 x0e x08)) E)
(T (W x03 x04 x00 x00 x00 x00 x00 x00)
(L (W x00 x00 x00 x00 x00 x00 x00 x00)) E)))))
(T (W x00 x90 x80 x02 x00 x00 x00 x00)
(T (W x0e x00 x10 x00 x13 x00 x19 x00)
(T (W x00 x00 x7f x14 x32 x00 x0b x0b)
(T (W x01 x41 x8e x00 x82 x00 x1d x01)
(T (W x00 x00 x00 x00 x00 x00 x00 x00)
(L (W x03 x03 x03 x01 x01 x01 x01 x01))
(L (W x00 x00 x7f x0f x32 x00 x05 x05)))
(T (W x0e x00 x10 x00 x13 x00 x19 x00)
(L (W x00 x00 x00 x00 x00 x00 x00 x00)) E))
(T (W x1d x90 x02 x00 x04 x00 x00 x00)
(T (W x00 x00 x00 x00 x00 x00 xe1 x01)
(L (W x04 x04 x00 x00 x00 x00 x00 x00)) E)
(T (W x00 x00 x00 x00 x00 x00 x00 x00)
(L (W x00 x00 x00 x00 x00 x00 x00 x00)) E)))
(T (W x00 x00 x00 x00 x00 x00 x00 x00)
(T (W x03 x03 x03 x01 x01 x01 x01 x01)
(T (W x00 x00 x8b x00 x6c x00 x00 x00)
(L (W x00 x58 x25 x44 x02 x00 x00 x00))
(L (W x3c x00 x55 x32 x00 x00 x00 x00)))
(T (W x00 x00 x7f x1e x32 x00 x0e x01)
(L (W x00 x00 x00 x00 x00 x00 x00 x00)) E))
(T (W x03 x03 x00 x00 x00 x00 x00 x00)
(T (W x43 x39 x37 x72 x4d x37 x0d x02)
(L (W x00 x00 x00 x00 x00 x00 x00 x00)) E)
(T (W x01 x46 x31 x00 x32 x00 x50 x00)
(L (W x01 x00 x01 x00 x01 x00 x01 x00)) E))))
(T (W x01 x01 x00 x00 x00 x00 x00 x00)
(T (W x00 x00 x00 x00 x00 x00 x00 x00)
(T (W x00 x00 x00 x00 x00 x00 xe1 x00)
(T (W x00 x00 x00 x00 x00 x00 x00 x00)
(L (W x4b x6e x7d x55 x64 x69 x0f x01))
(L (W x00 x00 x00 x00 x00 x00 x00 x00)))
(T (W x03 x03 x00 x00 x00 x00 x00 x00)
(L (W x00 x00 x00 x00 x00 x00 x00 x00)) E))
(T (W x0e x00 x10 x00 x13 x00 x19 x00)
(T (W x00 x00 x00 x01 x01 x01 x01 x01)
(L (W x00 x00 x7f x0a x32 x00 x05 x06)) E)
(T (W x00 x00 x56 x01 x96 x01 x00 x00)
(L (W x00 x00 x00 x00 x00 x00 x00 x00)) E)))
(T (W x00 x00 x6e x01 x93 x01 x00 x00)
(T (W x50 x46 x46 x46 x5a x64 x0a x0b)
(T (W x01 x41 x45 x00 x64 x00 x8a x02)
(L (W x0e x00 x10 x00 x13 x00 x19 x00)) E)
(T (W x03 x84 x08 x40 x69 x08 x41 x00)
(L (W x00 x00 x00 x01 x01 x01 x01 x01)) E))
(T (W x00 x00 x7f x14 x32 x03 x02 x05)
(T (W x14 x90 x22 x00 x00 x00 x00 x00)
(L (W x32 x00 x50 x28 x00 x00 x00 x00)) E)
(T (W x00 x00 x00 x00 x00 x00 xe0 x02)
(L (W x01 x01 x00 x00 x00 x00 x00 x00)) E))))))
(T (W x01 x01 x00 x00 x00 x00 x00 x00)
(T (W x00 x00 x00 x00 x00 x00 x20 x00)
(T (W x00 x00 x00 x01 x01 x01 x01 x01)
(T (W x60 x10 x02 x01 x04 x00 x00 x00)
(T (W x46 x05 x02 x00 x20 x20 x2c x10)
(T (W x0a x00 x0a x00 x13 x00 x0a x00)
(L (W x00 x00 x3c x02 x5c x01 x00 x00))
(L (W x00 x00 x00 x00 x00 x00 x00 x00)))
(T (W x04 x04 x04 x01 x01 x01 x01 x01)
(L (W x00 x00 xff x00 x00 x00 x00 x00)) E))
(T (W x00 x00 x00 x00 x00 x00 x00 x00)
(T (W x3c x00 x55 x32 x00 x00 x00 x00)
(L (W x28 x26 x23 x28 x36 x23 x0c x03)) E)
(T (W x03 x03 x00 x00 x00 x00 x00 x00)
(L (W x00 x00 x00 x00 x00 x00 x00 x00)) E)))
(T (W x03 x04 x00 x00 x00 x00 x00 x00)
(T (W x00 x00 xcc x00 x7f x01 x00 x00)
(T (W x00 x00 x7f x00 x00 x00 x00 x00)
(L (W x00 x00 x00 x00 x00 x00 x21 x03))
(L (W x06 x06 x00 x00 x00 x00 x00 x00)))
(T (W x01 x50 x00 x00 x00 x00 x00 x00)
(L (W x3c x00 x55 x32 x00 x00 x00 x00)) E))
(T (W x00 x00 x00 x00 x00 x00 x00 x00)
(T (W x00 x00 x00 x00 x00 x00 x00 x00)
(L (W x0a x00 x0a x00 x0a x00 x0a x00)) E)
(T (W x42 x01 x00 x0e x02 x20 x0a x08)
(L (W x00 x00 x00 x01 x01 x01 x01 x01)) E))))
(T (W x5f x4b x6e x1e x64 x50 x0a x0d)
(T (W x0e x00 x10 x00 x13 x00 x19 x00)
(T (W x00 x00 x00 x00 x00 x00 x00 x00)
(T (W x03 x04 x00 x00 x00 x00 x00 x00)
(L (W x02 x42 xa7 x00 x14 x00 x07 x00))
(L (W x0e x00 x10 x00 x13 x00 x19 x00)))
(T (W x37 x28 x32 x28 x41 x55 x0a x07)
(L (W x00 x00 x00 x00 x00 x00 x00 x00)) E))
(T (W x00 x00 x00 x01 x01 x01 x01 x01)
(T (W x00 x00 x00 x00 x00 x00 x00 x00)
(L (W x00 x34 x00 x04 x00 x00 x00 x00)) E)
(T (W x00 x00 x7f x14 x32 x00 x06 x06)
(L (W x00 x00 x00 x00 x00 x00 x00 x00)) E)))
(T (W x00 x00 xbf x0a x8c x04 x0f x0f)
(T (W x00 x00 x00 x00 x00 x00 x00 x00)
(T (W x23 x40 x40 x36 x00 x00 x00 x88)
(L (W x04 x04 x04 x01 x01 x01 x01 x01)) E)
(T (W x0e x00 x10 x00 x13 x00 x19 x00)
(L (W x00 x00 x0e x02 x08 x00 x00 x00)) E))
(T (W x22 xb0 x20 xc0 x02 x00 x00 x00)
(T (W x00 x00 x00 x00 x00 x00 x1f x02)
(L (W x02 x03 x00 x00 x00 x00 x00 x00)) E)
(T (W x00 x00 x00 x00 x00 x00 x00 x00)
(L (W x00 x00 x00 x00 x00 x00 x00 x00)) E)))))
(T (W x00 x00 x7f x14 x32 x03 x07 x07)
(T (W x80 x00 x21 x02 x01 x88 x20 xe0)
(T (W x00 x00 xf6 x00 xb6 x01 x00 x00)
(T (W x4b x55 xc8 x1e x37 x41 x08 x04)
(T (W x00 x00 x00 x00 x00 x00 x00 x00)
(L (W x0e x00 x10 x00 x13 x00 x19 x00))
(L (W x00 x00 x32 x01 xce x02 x00 x00)))
(T (W x00 x00 x00 x00 x00 x00 x00 x00)
(L (W x00 x00 x00 x01 x01 x01 x01 x01)) E))
(T (W x00 x00 xbf x00 x00 x00 x00 x00)
(T (W x02 x30 x42 x00 x0a x00 x00 x00)
(L (W x3c x00 x55 x2d x00 x00 x00 x00)) E)
(T (W x00 x00 x00 x00 x00 x00 x00 x00)
(L (W x01 x01 x00 x00 x00 x00 x00 x00)) E)))
(T (W x00 x00 x00 x00 x00 x00 x00 x00)
(T (W x0e x00 x10 x00 x13 x00 x19 x00)
(T (W x06 x06 x06 x01 x01 x01 x01 x01)
(L (W x00 x00 x1f x14 x32 x03 x05 x08))
(L (W x00 x00 x00 x00 x00 x00 x78 x03)))
(T (W x00 x00 x0e x00 xa3 x02 x00 x00)
(L (W x00 x00 x00 x00 x00 x00 x00 x00)) E))
(T (W x37 x00 x55 x2d x00 x00 x00 x00)
(T (W x02 x03 x00 x00 x00 x00 x00 x00)
(L (W x0a x42 x70 x00 x28 x00 x3c x00)) E)
(T (W x00 x00 x00 x00 x00 x00 x00 x00)
(L (W x00 x00 x00 x00 x00 x00 x00 x00)) E))))
(T (W x3c x00 x4b x28 x00 x00 x00 x00)
(T (W x01 x41 x47 x00 x28 x00 x4b x00)
(T (W x00 x00 x00 x00 x00 x00 x00 x00)
(T (W x00 x00 x00 x00 x00 x00 x00 x00)
(L (W x01 x01 x00 x00 x00 x00 x00 x00))
(L (W x00 x00 x00 x00 x00 x00 x00 x00)))
(T (W x00 x00 x00 x00 x00 x00 x00 x00)
(L (W x00 x00 x00 x00 x00 x00 x00 x00)) E))
(T (W x90 x48 x10 x00 x08 x18 x00 x01)
(T (W x0e x00 x10 x00 x13 x00 x19 x00)
(L (W x00 x00 xa2 x00 xf3 x02 x00 x00)) E)
(T (W x03 x03 x03 x01 x01 x01 x01 x01)
(L (W x00 x00 xff x00 x00 x00 x00 x00)) E)))
(T (W x05 x05 x05 x01 x01 x01 x01 x01)
(T (W x01 x01 x00 x00 x00 x00 x00 x00)
(T (W x73 x8c x82 x28 x37 x37 x04 x05)
(L (W x09 x04 x01 x00 x00 x00 x41 x04)) E)
(T (W x00 x00 x00 x00 x00 x00 x00 x00)
(L (W x0a x00 x0a x00 x13 x00 x0a x00)) E))
(T (W x00 x00 x00 x00 x00 x00 x00 x00)
(T (W x00 x00 x7f x14 x32 x00 x03 x0a)
(L (W x00 x00 x00 x00 x00 x00 x00 x00)) E)
(T (W x80 x51 x80 x00 x00 x00 x00 x00)
(L (W x3c x00 x64 x32 x00 x00 x00 x00)) E)))))))))
(T (W x01 x43 x8e x00 x64 x00 x82 x00)
(T (W x3c x00 x64 x3c x00 x00 x00 x00)
(T (W x0e x00 x10 x00 x13 x00 x19 x00)
(T (W x02 x41 x00 x20 x02 x00 x00 x02)
(T (W x00 x00 x00 x00 x00 x00 x00 x00)
(T (W x00 x00 x00 x00 x00 x00 x00 x00)
(T (W x02 x03 x00 x00 x00 x00 x00 x00)
(T (W x00 x00 x30 x01 x38 x00 x00 x00)
(T (W x00 x00 x7f x28 x23 x05 x0e x0e)
(L (W x00 x00 xbc x01 xd7 x02 xe8 x02))
(L (W x04 x04 x00 x00 x00 x00 x00 x00)))
(T (W x00 x98 x20 x00 x00 x00 x00 x00)
(L (W x32 x00 x50 x32 x00 x00 x00 x00)) E))
(T (W x1c x19 x19 x28 x2d x23 x0d x11)
(T (W x01 x42 x0e x01 xb4 x00 x6a x05)
(L (W x0e x00 x10 x00 x13 x00 x19 x00)) E)
(T (W x00 x00 x00 x00 x00 x00 x00 x00)
(L (W x03 x00 x00 x01 x01 x01 x01 x01)) E)))
(T (W x00 x40 x00 x00 x08 x18 x10 x00)
(T (W x00 x00 x00 x00 x00 x00 x89 x00)
(T (W x00 x00 x00 x00 x00 x00 x00 x00)
(L (W x89 x71 x59 x61 x89 x6b x0d x07))
(L (W x00 x00 x00 x00 x00 x00 x00 x00)))
(T (W x02 x03 x00 x00 x00 x00 x00 x00)
(L (W x00 x00 x00 x00 x00 x00 x00 x00)) E))
(T (W x01 x00 x01 x00 x01 x00 x01 x00)
(T (W x00 x00 x00 x01 x01 x01 x01 x01)
(L (W x00 x00 x7f x28 x32 x05 x0b x0e)) E)
(T (W x00 x00 x56 x00 x3b x00 x00 x00)
(L (W x00 x00 x00 x00 x00 x00 x00 x00)) E))))
(T (W x01 x00 x01 x00 x01 x00 x01 x00)
(T (W x00 x00 x7f x14 x32 x00 x02 x0e)
(T (W x00 x00 x00 x00 x00 x00 x00 x00)
(T (W x00 x00 x00 x00 x00 x00 x00 x00)
(L (W x04 x03 x02 x01 x01 x01 x01 x01))
(L (W x00 x00 xff x78 x00 x05 x0f x0f)))
(T (W x0e x00 x10 x00 x13 x00 x19 x00)
(L (W x00 x00 x00 x00 x00 x00 x00 x00)) E))
(T (W x1c x10 x80 x42 x02 x00 x00 x00)
(T (W x00 x00 x00 x00 x00 x00 x00 x00)
(L (W x04 x04 x00 x00 x00 x00 x00 x00)) E)
(T (W x3c x00 x55 x32 x00 x00 x00 x00)
(L (W x00 x00 x00 x00 x00 x00 x00 x00)) E)))
(T (W x3c x00 x50 x28 x00 x00 x00 x00)
(T (W x03 x03 x03 x01 x01 x01 x01 x01)
(T (W x00 x00 x73 x01 xf7 x00 x00 x00)
(L (W x10 x58 x20 x00 x00 x00 x00 x00))
(L (W x00 x00 x00 x00 x00 x00 x00 x00)))
(T (W x00 x00 xfe x14 x23 x05 x04 x04)
(L (W x00 x00 x00 x00 x00 x00 x00 x00)) E))
(T (W x05 x05 x00 x00 x00 x00 x00 x00)
(T (W x4b x41 x37 x45 x41 x37 x0a x04)
(L (W x00 x00 x00 x00 x00 x00 x00 x00)) E)
(T (W x01 x45 x40 x00 x1e x00 x0f x00)
(L (W x01 x00 x01 x00 x01 x00 x01 x00)) E)))))
(T (W x32 x00 x4b x28 x00 x00 x00 x00)
(T (W x00 x00 x50 x01 xa8 x01 x00 x00)
(T (W x00 x00 x00 x00 x00 x00 x68 x00)
(T (W x01 x00 x01 x00 x01 x00 x01 x00)
(T (W x03 x00 x00 x01 x01 x01 x01 x01)
(L (W x00 x00 x1f x14 x32 x00 x01 x0e))
(L (W x00 x00 x00 x00 x00 x00 x00 x00)))
(T (W x00 x00 x03 x01 x1b x02 x00 x00)
(L (W x00 x00 x00 x00 x00 x00 x00 x00)) E))
(T (W x3c x00 x50 x28 x00 x00 x00 x00)
(T (W x06 x06 x00 x00 x00 x00 x00 x00)
(L (W x01 x40 x3d x00 x46 x00 x0a x00)) E)
(T (W x00 x00 x00 x00 x00 x00 x00 x00)
(L (W x00 x00 x00 x00 x00 x00 x00 x00)) E)))
(T (W x00 x00 x00 x00 x00 x00 x00 x00)
(T (W x00 x00 xff x50 x23 x05 x0f x0f)
(T (W x00 x00 x00 x00 x00 x00 x00 x00)
(L (W x00 x00 x00 x00 x00 x00 x00 x00))
(L (W x41 x3c x4b x40 x6e x79 x11 x11)))
(T (W x00 x00 x00 x00 x00 x00 x68 x02)
(L (W x03 x04 x00 x00 x00 x00 x00 x00)) E))
(T (W x01 x40 xa1 x00 x78 x00 x04 x06)
(T (W x00 x40 x00 x00 x48 x98 x00 x00)
(L (W x00 x00 x00 x01 x01 x01 x01 x01)) E)
(T (W x0e x00 x10 x00 x13 x00 x19 x00)
(L (W x00 x00 x00 x00 x00 x00 x00 x00)) E))))
(T (W x01 x47 xa3 x00 x64 x00 x58 x02)
(T (W x02 x02 x02 x01 x01 x01 x02 x02)
(T (W x04 x05 x00 x00 x00 x00 x00 x00)
(T (W x00 x00 x00 x00 x00 x00 x00 x00)
(L (W x9a x84 x0a x40 x03 x20 x20 x06))
(L (W x00 x00 x00 x01 x01 x01 x01 x01)))
(T (W x00 x00 x00 x00 x00 x00 x00 x00)
(L (W x0e x00 x10 x00 x13 x00 x19 x00)) E))
(T (W x00 x00 x00 x00 x00 x00 x00 x00)
(T (W x00 x00 x1f x00 x00 x00 x00 x00)
(L (W x00 x00 x00 x00 x00 x00 x68 x03)) E)
(T (W x60 x90 x00 x00 x02 x00 x00 x00)
(L (W x00 x00 x00 x00 x00 x00 x00 x00)) E)))
(T (W x00 x10 x80 x10 x00 x00 x00 x00)
(T (W x00 x00 x00 x00 x00 x00 x00 x00)
(T (W x0e x00 x10 x00 x13 x00 x19 x00)
(L (W x00 x00 xf3 x00 x5e x00 x00 x00)) E)
(T (W x02 x02 x02 x01 x01 x01 x01 x01)
(L (W x00 x00 x7f x14 x32 x03 x05 x05)) E))
(T (W x00 x00 x00 x00 x00 x00 x69 x01)
(T (W x3c x00 x55 x32 x00 x00 x00 x00)
(L (W x00 x00 x00 x00 x00 x00 x00 x00)) E)
(T (W x01 x01 x00 x00 x00 x00 x00 x00)
(L (W x00 x00 x00 x00 x00 x00 x00 x00)) E))))))
(T (W x00 x00 x00 x00 x00 x00 x00 x00)
(T (W x05 x06 x00 x00 x00 x00 x00 x00)
(T (W x00 x00 x7f x14 x32 x00 x05 x05)
(T (W x32 x00 x50 x32 x00 x00 x00 x00)
(T (W x00 x00 x00 x01 x01 x01 x01 x01)
(T (W x00 x00 x00 x00 x00 x00 x00 x00)
(L (W x80 x11 x00 x00 x00 x00 x00 x00))
(L (W x00 x00 x00 x00 x00 x00 x00 x00)))
(T (W x00 x00 x1f x1e x32 x00 x02 x09)
(L (W x00 x00 x00 x00 x00 x00 x92 x00)) E))
(T (W x01 x01 x00 x00 x00 x00 x00 x00)
(T (W x00 x00 x00 x00 x00 x00 x00 x00)
(L (W x00 x40 x00 x00 x28 x1c x80 x42)) E)
(T (W x00 x00 x00 x00 x00 x00 x00 x00)
(L (W x0a x00 x0a x00 x0a x00 x0a x00)) E)))
(T (W x02 x42 x22 x01 xc8 x00 x58 x02)
(T (W x00 x10 x05 x00 x00 x00 x00 x00)
(T (W x00 x00 x00 x00 x00 x00 xa9 x01)
(L (W x02 x02 x00 x00 x00 x00 x00 x00))
(L (W x03 x41 xa6 x00 x50 x00 xb4 x00)))
(T (W x32 x00 x55 x32 x00 x00 x00 x00)
(L (W x6f x53 x44 x27 x5c x52 x0a x04)) E))
(T (W x00 x00 x00 x00 x00 x00 x00 x00)
(T (W x0e x00 x10 x00 x13 x00 x19 x00)
(L (W x00 x00 x00 x00 x00 x00 x00 x00)) E)
(T (W x04 x03 x03 x01 x01 x01 x01 x01)
(L (W x00 x00 xff x00 x00 x00 x00 x00)) E))))
(T (W x00 x00 x00 x00 x00 x00 x00 x00)
(T (W x00 x00 xdb x00 x5d x02 x00 x00)
(T (W x00 x00 x00 x00 x00 x00 x00 x00)
(T (W x00 x00 x00 x00 x00 x00 x00 x00)
(L (W x01 x00 x01 x00 x01 x00 x01 x00))
(L (W x00 x00 x32 x01 xce x02 x00 x00)))
(T (W x00 x40 x00 x32 x02 x00 x80 x00)
(L (W x00 x00 x00 x01 x01 x01 x01 x01)) E))
(T (W x00 x00 x7f x14 x32 x05 x05 x05)
(T (W x00 x00 x00 x00 x00 x00 x00 x00)
(L (W x3c x00 x64 x37 x00 x00 x00 x00)) E)
(T (W x00 x00 x00 x00 x00 x00 xa7 x02)
(L (W x01 x01 x00 x00 x00 x00 x00 x00)) E)))
(T (W x00 x00 x00 x00 x00 x00 x29 x00)
(T (W x01 x00 x01 x00 x01 x00 x01 x00)
(T (W x03 x03 x04 x01 x01 x01 x01 x02)
(L (W x00 x00 x7f x0f x32 x03 x04 x04)) E)
(T (W x00 x00 xa8 x01 xa6 x01 x00 x00)
(L (W x00 x00 x00 x00 x00 x00 x00 x00)) E))
(T (W x3c x00 x5a x3c x00 x00 x00 x00)
(T (W x01 x01 x00 x00 x00 x00 x00 x00)
(L (W x02 x41 xb1 x00 x6e x00 xc7 x00)) E)
(T (W x32 x36 x36 x28 x42 x38 x0a x0a)
(L (W x00 x00 x00 x00 x00 x00 x00 x00)) E)))))
(T (W x00 x00 x00 x00 x00 x00 x29 x00)
(T (W x03 x03 x03 x01 x01 x01 x01 x01)
(T (W x1c x10 x02 x00 x05 x00 x00 x00)
(T (W x00 x00 x00 x00 x00 x00 x00 x00)
(T (W x01 x00 x01 x00 x01 x00 x01 x00)
(L (W x00 x00 x4d x02 x59 x01 x00 x00))
(L (W x1e x10 x20 x80 x00 x00 x00 x00)))
(T (W x02 x02 x03 x01 x01 x01 x01 x02)
(L (W x00 x00 xff x00 x00 x00 x00 x00)) E))
(T (W x00 x00 x00 x00 x00 x00 x00 x00)
(T (W x00 x00 x00 x00 x00 x00 x00 x00)
(L (W x2a x1e x2d x27 x38 x35 x0d x0d)) E)
(T (W x01 x01 x00 x00 x00 x00 x00 x00)
(L (W x00 x00 x00 x00 x00 x00 x00 x00)) E)))
(T (W x01 x01 x00 x00 x00 x00 x00 x00)
(T (W x00 x00 x00 x00 x00 x00 x00 x00)
(T (W x00 x00 xff x14 x32 x00 x0a x0a)
(L (W x00 x00 x00 x00 x00 x00 x28 x03))
(L (W x04 x05 x00 x00 x00 x00 x00 x00)))
(T (W x00 x18 x42 x00 x04 x00 x00 x00)
(L (W x00 x00 x00 x00 x00 x00 x00 x00)) E))
(T (W x3c x46 x69 x4b x46 x78 x04 x0d)
(T (W x01 x47 xb2 x00 x46 x00 x94 x01)
(L (W x0e x00 x10 x00 x13 x00 x19 x00)) E)
(T (W x00 x04 x22 x00 x61 x20 x00 x14)
(L (W x00 x00 x00 x01 x01 x01 x01 x01)) E))))
(T (W x00 x00 x00 x00 x00 x00 x00 x00)
(T (W x0e x00 x10 x00 x13 x00 x19 x00)
(T (W x3c x00 x5f x37 x00 x00 x00 x00)
(T (W x01 x01 x00 x00 x00 x00 x00 x00)
(L (W x01 x49 x1d x01 x78 x00 xba x00))
(L (W x01 x00 x01 x00 x01 x00 x01 x00)))
(T (W x3c x50 x5f x32 x46 x55 x08 x08)
(L (W x00 x00 x00 x00 x00 x00 x00 x00)) E))
(T (W x05 x05 x05 x01 x01 x01 x01 x01)
(T (W x00 x00 x2b x00 x2c x00 x00 x00)
(L (W x00 x10 x22 x00 x06 x00 x00 x00)) E)
(T (W x00 x00 x7f x0f x32 x05 x02 x09)
(L (W x00 x00 x00 x00 x00 x00 x00 x00)) E)))
(T (W x00 x00 x7f x00 x00 x00 x00 x00)
(T (W x01 x45 x77 x00 x64 x00 x18 x01)
(T (W x02 x00 x00 x08 x8b x20 x00 x00)
(L (W x03 x03 x03 x01 x01 x01 x01 x01)) E)
(T (W x0e x00 x10 x00 x13 x00 x19 x00)
(L (W x00 x00 x00 x00 x00 x00 x00 x00)) E))
(T (W x00 x00 x00 x00 x00 x00 x00 x00)
(T (W x00 x00 x00 x00 x00 x00 x27 x02)
(L (W x05 x06 x00 x00 x00 x00 x00 x00)) E)
(T (W x00 x00 x00 x00 x00 x00 x00 x00)
(L (W x00 x00 x00 x00 x00 x00 x00 x00)) E)))))))
(T (W x00 x00 x00 x00 x00 x00 x07 x00)
(T (W x00 x00 x00 x00 x00 x00 x00 x00)
(T (W x00 x00 xa1 x01 x55 x00 x00 x00)
(T (W x02 x45 x35 x00 x14 x00 x08 x00)
(T (W x00 x00 x00 x01 x01 x01 x01 x01)
(T (W x01 x01 x00 x00 x00 x00 x00 x00)
(T (W x50 x87 x82 x46 x5f x5a x08 x0d)
(L (W x00 x60 x40 x02 x00 x42 x10 x08))
(L (W x03 x03 x03 x01 x01 x01 x01 x01)))
(T (W x02 x44 x3d x00 x32 x00 x0f x00)
(L (W x0e x00 x10 x00 x13 x00 x19 x00)) E))
(T (W x00 x00 x5d x02 x5e x00 x00 x00)
(T (W x00 x00 x7f x00 x00 x00 x00 x00)
(L (W x00 x00 x00 x00 x00 x00 x48 x03)) E)
(T (W x00 x00 x00 x00 x00 x00 x00 x00)
(L (W x3c x00 x55 x37 x00 x00 x00 x00)) E)))
(T (W x00 x90 x02 x00 x04 x00 x00 x00)
(T (W x08 x00 x01 x00 x00 x00 x20 x00)
(T (W x0e x00 x10 x00 x13 x00 x19 x00)
(L (W x00 x00 x00 x00 x00 x00 x00 x00))
(L (W x62 x10 x02 x00 x0b x00 x00 x00)))
(T (W x03 x03 x03 x01 x01 x01 x01 x01)
(L (W x00 x00 xff x00 x00 x00 x00 x00)) E))
(T (W x00 x00 x00 x00 x00 x00 x48 x01)
(T (W x00 x00 x00 x00 x00 x00 x00 x00)
(L (W x5c x82 x73 x8a x50 x73 x11 x11)) E)
(T (W x03 x03 x00 x00 x00 x00 x00 x00)
(L (W x00 x00 x00 x00 x00 x00 x00 x00)) E))))
(T (W x00 x00 x00 x00 x00 x00 x48 x00)
(T (W x1e x2d x37 x55 x46 x37 x0a x0a)
(T (W x00 x00 x7f x14 x32 x03 x03 x03)
(T (W x00 x00 x00 x00 x00 x00 x00 x00)
(L (W x50 x00 x64 x41 x00 x00 x00 x00))
(L (W x5f x5f x5f x5f x5f x5f x0a x0a)))
(T (W x00 x00 x00 x00 x00 x00 x00 x00)
(L (W x01 x01 x00 x00 x00 x00 x00 x00)) E))
(T (W x01 x47 x09 x01 xd2 x00 x10 x0e)
(T (W x00 x00 x00 x00 x00 x00 x00 x00)
(L (W x03 x02 x02 x01 x01 x01 x01 x01)) E)
(T (W x0e x00 x10 x00 x13 x00 x19 x00)
(L (W x00 x00 x00 x00 x00 x00 x00 x00)) E)))
(T (W x01 x00 x01 x00 x01 x00 x01 x00)
(T (W x37 x00 x55 x2d x00 x00 x00 x00)
(T (W x03 x04 x00 x00 x00 x00 x00 x00)
(L (W x01 x41 x09 x01 xbe x00 xc4 x01))
(L (W x0a x00 x0a x00 x0a x00 x0a x00)))
(T (W x3a x6d x70 x6d x30 x30 x06 x08)
(L (W x00 x00 x00 x00 x00 x00 x00 x00)) E))
(T (W x00 x00 x00 x01 x01 x01 x01 x01)
(T (W x00 x00 x74 x00 xe0 x01 x00 x00)
(L (W x03 x10 x02 x00 x00 x00 x00 x00)) E)
(T (W x00 x00 x1f x0f x32 x03 x05 x05)
(L (W x00 x00 x00 x00 x00 x00 x00 x00)) E)))))
(T (W x0e x00 x10 x00 x13 x00 x19 x00)
(T (W x03 x03 x00 x00 x00 x00 x00 x00)
(T (W x02 x20 x00 x00 x20 x01 x20 x00)
(T (W x00 x00 x00 x00 x00 x00 x00 x00)
(T (W x00 x00 x00 x00 x00 x00 x00 x00)
(L (W x78 x7d x50 x3c x37 x3c x00 x01))
(L (W x29 x44 x21 x00 x28 x1c x02 x84)))
(T (W x04 x04 x00 x00 x00 x00 x00 x00)
(L (W x00 x00 x00 x00 x00 x00 x00 x00)) E))
(T (W x0e x00 x10 x00 x13 x00 x19 x00)
(T (W x03 x00 x00 x01 x01 x01 x01 x01)
(L (W x00 x00 x7f x19 x32 x03 x02 x08)) E)
(T (W x00 x00 x00 x00 x00 x00 x00 x00)
(L (W x00 x00 x00 x00 x00 x00 x00 x00)) E)))
(T (W x00 x00 x00 x00 x00 x00 x00 x00)
(T (W x64 x86 x6e x3d x5f x64 x05 x10)
(T (W x01 x46 x42 x00 x28 x00 xc0 x00)
(L (W x0a x00 x0a x00 x13 x00 x0a x00))
(L (W x00 x00 x97 x00 x5d x02 x00 x00)))
(T (W x20 x02 x23 x03 x01 x28 x28 x00)
(L (W x00 x00 x00 x01 x01 x01 x01 x01)) E))
(T (W x00 x00 x7f x0f x32 x02 x02 x09)
(T (W x60 x50 x00 x80 x00 x00 x00 x00)
(L (W x00 x00 x00 x00 x00 x00 x00 x00)) E)
(T (W x00 x00 x00 x00 x00 x00 xc8 x02)
(L (W x01 x01 x00 x00 x00 x00 x00 x00)) E))))
(T (W x00 x00 x7f x00 x00 x00 x00 x00)
(T (W x3c x00 x5a x32 x00 x00 x00 x00)
(T (W x02 x02 x02 x01 x01 x01 x01 x01)
(T (W x00 x00 x00 x00 x00 x00 x00 x00)
(L (W x02 x10 x02 x40 x02 x00 x00 x00))
(L (W x00 x00 x00 x00 x00 x00 x00 x00)))
(T (W x00 x00 x7f x14 x32 x00 x07 x0a)
(L (W x00 x00 x00 x00 x00 x00 x00 x00)) E))
(T (W x01 x01 x00 x00 x00 x00 x00 x00)
(T (W x00 x00 x00 x00 x00 x00 x00 x00)
(L (W x46 x04 x02 x00 x22 x00 x0c x14)) E)
(T (W x01 x45 x40 x00 x32 x00 x49 x00)
(L (W x01 x00 x01 x00 x01 x00 x01 x00)) E)))
(T (W x01 x43 xa5 x00 x96 x00 x96 x00)
(T (W x00 x10 x00 x00 x00 x00 x00 x00)
(T (W x00 x00 x00 x00 x00 x00 x00 x00)
(L (W x03 x04 x00 x00 x00 x00 x00 x00)) E)
(T (W x46 x00 x64 x3c x00 x00 x00 x00)
(L (W x00 x00 x00 x00 x00 x00 x00 x00)) E))
(T (W x00 x00 x00 x00 x00 x00 x00 x00)
(T (W x0e x00 x10 x00 x13 x00 x19 x00)
(L (W x00 x00 x00 x00 x00 x00 x00 x00)) E)
(T (W x04 x04 x04 x01 x01 x01 x01 x01)
(L (W x00 x00 xff x00 x00 x00 x00 x00)) E))))))
(T (W x00 x00 x7f x00 x00 x00 x00 x00)
(T (W x04 x04 x04 x01 x01 x01 x01 x01)
(T (W x00 x00 x00 x00 x00 x00 x00 x00)
(T (W x0e x00 x10 x00 x13 x00 x19 x00)
(T (W x50 x00 x5a x3c x00 x00 x00 x00)
(T (W x02 x02 x00 x00 x00 x00 x00 x00)
(L (W x01 x49 xa8 x00 x5a x00 xb9 x00))
(L (W x0a x00 x0a x00 x13 x00 x0a x00)))
(T (W x32 x32 x3e x41 x28 x3e x03 x03)
(L (W x00 x00 x00 x00 x00 x00 x00 x00)) E))
(T (W x00 x00 x00 x01 x01 x01 x01 x01)
(T (W x00 x00 xb0 x00 xb3 x01 x00 x00)
(L (W x08 x10 x00 x00 x00 x00 x00 x00)) E)
(T (W x00 x00 x7f x0f x32 x03 x04 x04)
(L (W x00 x00 x00 x00 x00 x00 x00 x00)) E)))
(T (W x00 x00 x7f x28 x23 x05 x02 x0e)
(T (W x01 x49 x7b x02 x96 x00 xd4 x01)
(T (W x0a x14 x20 x01 x01 x20 x20 x04)
(L (W x03 x02 x02 x01 x01 x01 x01 x02))
(L (W x00 x00 xff x14 x32 x00 x0a x0b)))
(T (W x0e x00 x10 x00 x13 x00 x19 x00)
(L (W x00 x00 xb3 x01 x38 x00 x00 x00)) E))
(T (W x00 x00 x00 x00 x00 x00 x00 x00)
(T (W x00 x00 x00 x00 x00 x00 x07 x02)
(L (W x02 x02 x00 x00 x00 x00 x00 x00)) E)
(T (W x3c x00 x5f x37 x00 x00 x00 x00)
(L (W x00 x00 x00 x00 x00 x00 x00 x00)) E))))
(T (W xc0 x10 x02 x08 x00 x00 x00 x00)
(T (W x03 x03 x00 x00 x00 x00 x00 x00)
(T (W x00 x00 x00 x00 x00 x00 x00 x00)
(T (W x00 x00 x7f x14 x32 x03 x05 x05)
(L (W x00 x00 x00 x00 x00 x00 x09 x03))
(L (W x05 x05 x00 x00 x00 x00 x00 x00)))
(T (W x00 x34 x00 x01 x04 x00 x00 x00)
(L (W x00 x00 x00 x00 x00 x00 x00 x00)) E))
(T (W x00 x00 x00 x00 x00 x00 x00 x00)
(T (W x00 x00 x00 x00 x00 x00 x00 x00)
(L (W x0e x00 x10 x00 x13 x00 x19 x00)) E)
(T (W x00 x00 x02 x00 x02 x00 x00 x14)
(L (W x00 x00 x00 x01 x01 x01 x01 x01)) E)))
(T (W x08 x00 x00 x00 x10 x20 x40 x04)
(T (W x00 x00 x00 x00 x00 x00 x00 x00)
(T (W x32 x00 x50 x28 x00 x00 x00 x00)
(L (W x19 x14 x14 x2d x19 x2d x06 x06)) E)
(T (W x03 x04 x00 x00 x00 x00 x00 x00)
(L (W x02 x48 x3f x00 x46 x00 x90 x01)) E))
(T (W x01 x00 x01 x00 x01 x00 x01 x00)
(T (W x04 x04 x04 x01 x01 x01 x01 x01)
(L (W x00 x00 x7f x14 x32 x00 x05 x05)) E)
(T (W x00 x00 x49 x02 x98 x02 x00 x00)
(L (W x00 x00 x00 x00 x00 x00 x00 x00)) E)))))
(T (W x00 x00 x00 x08 x02 x20 x00 x10)
(T (W x32 x00 x50 x14 x00 x00 x00 x00)
(T (W x01 x41 x57 x00 x64 x00 x5e x01)
(T (W x00 x00 x00 x00 x00 x00 x00 x00)
(T (W x00 x00 x00 x00 x00 x00 x00 x00)
(L (W x03 x03 x00 x00 x00 x00 x00 x00))
(L (W x12 x47 x1d x01 xe6 x00 xed x03)))
(T (W x3c x00 x50 x28 x00 x00 x00 x00)
(L (W x00 x00 x00 x00 x00 x00 x00 x00)) E))
(T (W x00 x00 x00 x00 x00 x00 x00 x00)
(T (W x0a x00 x0a x00 x0a x00 x0a x00)
(L (W x00 x00 x5b x01 x5d x02 x00 x00)) E)
(T (W x00 x00 x00 x01 x01 x01 x01 x01)
(L (W x00 x00 xff x00 x00 x00 x00 x00)) E)))
(T (W x00 x00 x00 x01 x01 x01 x01 x01)
(T (W x03 x03 x00 x00 x00 x00 x00 x00)
(T (W x64 x05 x05 x1e x0f x41 x00 x00)
(L (W xa8 x04 x01 x00 x8b x20 x20 x60))
(L (W x03 x03 x04 x01 x01 x01 x01 x02)))
(T (W x01 x45 xac x00 xa0 x00 xb2 x03)
(L (W x01 x00 x01 x00 x01 x00 x01 x00)) E))
(T (W x00 x00 x85 x00 xca x00 x00 x00)
(T (W x00 x00 x3f x14 x32 x03 x08 x08)
(L (W x00 x00 x55 x00 xcf x02 xac x00)) E)
(T (W xc0 x10 x80 x10 x00 x00 x00 x00)
(L (W x00 x00 x00 x00 x00 x00 x00 x00)) E))))
(T (W x00 x00 xfa x00 x16 x02 x00 x00)
(T (W x00 x00 x00 x00 x00 x00 x89 x00)
(T (W x0e x00 x10 x00 x13 x00 x19 x00)
(T (W x03 x02 x02 x01 x01 x01 x01 x01)
(L (W x00 x00 xff x78 x00 x05 x0f x0f))
(L (W x00 x00 x00 x00 x00 x00 x00 x00)))
(T (W x00 x00 x00 x00 x00 x00 x00 x00)
(L (W x00 x00 x00 x00 x00 x00 x00 x00)) E))
(T (W x00 x00 x00 x00 x00 x00 x00 x00)
(T (W x03 x03 x00 x00 x00 x00 x00 x00)
(L (W x01 x43 xb1 x00 xe6 x00 x66 x08)) E)
(T (W x3a x59 x4d x30 x2d x2d x05 x0f)
(L (W x00 x00 x00 x00 x00 x00 x00 x00)) E)))
(T (W x64 x32 x50 x32 x3c x50 x0a x11)
(T (W x00 x00 x7f x00 x00 x00 x00 x00)
(T (W x00 x90 x02 x00 x06 x00 x00 x00)
(L (W x3c x00 x50 x32 x00 x00 x00 x00)) E)
(T (W x00 x00 x00 x00 x00 x00 x89 x02)
(L (W x03 x04 x00 x00 x00 x00 x00 x00)) E))
(T (W x00 x00 x00 x00 x00 x00 x00 x00)
(T (W x08 x04 x00 x0a x82 x20 x00 x80)
(L (W x03 x03 x02 x01 x01 x01 x01 x01)) E)
(T (W x0e x00 x10 x00 x13 x00 x19 x00)
(L (W x00 x00 x46 x01 xf7 x00 x00 x00)) E))))))))
(T (W x00 x00 x1f x14 x32 x03 x01 x0e)
(T (W x3b x3f x50 x3a x41 x50 x0a x0a)
(T (W x01 x01 x00 x00 x00 x00 x00 x00)
(T (W x00 x00 x58 x01 x92 x02 xac x00)
(T (W x00 x00 x00 x01 x01 x01 x01 x01)
(T (W x00 x10 x02 x00 x0e x00 x00 x00)
(T (W x00 x00 x00 x00 x00 x00 x00 x00)
(T (W x0e x00 x10 x00 x13 x00 x19 x00)
(L (W x00 x00 x88 x01 x39 x00 x00 x00))
(L (W x40 x30 x40 x10 x02 x00 x00 x00)))
(T (W x02 x02 x02 x01 x01 x01 x01 x01)
(L (W x00 x00 x7f x14 x32 x00 x0b x0b)) E))
(T (W x00 x00 x00 x00 x00 x00 x18 x01)
(T (W x37 x00 x55 x2d x00 x00 x00 x00)
(L (W x28 x28 x50 x14 x28 x28 x0b x0f)) E)
(T (W x01 x01 x00 x00 x00 x00 x00 x00)
(L (W x03 x47 x5e x01 x4a x01 xb2 x0c)) E)))
(T (W x03 x04 x00 x00 x00 x00 x00 x00)
(T (W x00 x00 x00 x00 x00 x00 x00 x00)
(T (W x00 x00 x7f x14 x32 x00 x06 x07)
(L (W x00 x00 x00 x00 x00 x00 x19 x03))
(L (W x03 x03 x00 x00 x00 x00 x00 x00)))
(T (W x40 x30 x00 x10 x00 x00 x00 x00)
(L (W x00 x00 x00 x00 x00 x00 x00 x00)) E))
(T (W x2d x64 x2d x0a x2d x2d x04 x04)
(T (W x00 x00 x00 x00 x00 x00 x00 x00)
(L (W x0e x00 x10 x00 x13 x00 x19 x00)) E)
(T (W x02 x05 x02 x00 x00 x00 x24 x14)
(L (W x00 x00 x00 x01 x01 x01 x01 x01)) E))))
(T (W x28 x28 x23 x46 x32 x64 x0a x03)
(T (W x0e x00 x10 x00 x13 x00 x19 x00)
(T (W x3c x00 x50 x32 x00 x00 x00 x00)
(T (W x01 x01 x00 x00 x00 x00 x00 x00)
(L (W x01 x45 xa8 x00 x82 x00 xc4 x09))
(L (W x0e x00 x10 x00 x13 x00 x19 x00)))
(T (W x47 x5f x55 x4f x6e x5f x0e x0e)
(L (W x00 x00 x00 x00 x00 x00 x00 x00)) E))
(T (W x05 x05 x05 x01 x01 x01 x01 x01)
(T (W x00 x00 x00 x00 x00 x00 x00 x00)
(L (W x02 x90 x00 x00 x00 x00 x00 x00)) E)
(T (W x00 x00 x7f x14 x32 x00 x05 x05)
(L (W x00 x00 x00 x00 x00 x00 x00 x00)) E)))
(T (W x00 x00 x7f x00 x00 x00 x00 x00)
(T (W x01 x41 x3e x00 x28 x00 x4c x00)
(T (W x00 x80 x00 x40 x08 x1c x00 x00)
(L (W x04 x03 x03 x01 x01 x01 x01 x01))
(L (W x00 x00 xff x78 x00 x05 x0f x0f)))
(T (W x0e x00 x10 x00 x13 x00 x19 x00)
(L (W x00 x00 x00 x00 x00 x00 x00 x00)) E))
(T (W x00 x00 x00 x00 x00 x00 x00 x00)
(T (W x00 x00 x00 x00 x00 x00 x17 x02)
(L (W x03 x04 x00 x00 x00 x00 x00 x00)) E)
(T (W x3c x00 x55 x32 x00 x00 x00 x00)
(L (W x00 x00 x00 x00 x00 x00 x00 x00)) E)))))
(T (W x00 x00 xbf x14 x32 x00 x05 x05)
(T (W x00 x20 x00 x00 x08 x00 x10 x00)
(T (W x00 x00 xaa x00 xb3 x00 x00 x00)
(T (W x00 x00 x00 x00 x00 x00 x00 x00)
(T (W x00 x00 x00 x00 x00 x00 x00 x00)
(L (W x0e x00 x10 x00 x13 x00 x19 x00))
(L (W x00 x00 x00 x00 x00 x00 x00 x00)))
(T (W x08 x04 x02 x08 x00 x22 x20 x14)
(L (W x00 x00 x00 x01 x01 x01 x01 x01)) E))
(T (W x00 x00 x7f x14 x32 x03 x01 x05)
(T (W x00 x30 x05 x24 x00 x00 x00 x00)
(L (W x3c x00 x55 x2d x00 x00 x00 x00)) E)
(T (W x00 x00 x00 x00 x00 x00 x00 x00)
(L (W x01 x01 x00 x00 x00 x00 x00 x00)) E)))
(T (W x00 x00 x00 x00 x00 x00 x00 x00)
(T (W x0e x00 x10 x00 x13 x00 x19 x00)
(T (W x00 x00 x00 x01 x01 x01 x01 x01)
(L (W x00 x00 xff x78 x00 x05 x0f x0f))
(L (W x00 x00 x00 x00 x00 x00 x64 x03)))
(T (W x00 x00 xb3 x01 x5a x00 x00 x00)
(L (W x00 x00 x00 x00 x00 x00 x00 x00)) E))
(T (W x32 x00 x50 x28 x00 x00 x00 x00)
(T (W x04 x04 x00 x00 x00 x00 x00 x00)
(L (W x03 x43 xfa x00 x6e x00 x4d x00)) E)
(T (W x37 x45 x55 x1c x20 x23 x0e x0e)
(L (W x00 x00 x00 x00 x00 x00 x00 x00)) E))))
(T (W x3c x00 x50 x32 x00 x00 x00 x00)
(T (W x01 x41 xbd x00 x8a x02 x2e x09)
(T (W x00 x10 x00 x00 x00 x00 x00 x00)
(T (W x00 x00 x00 x00 x00 x00 x00 x00)
(L (W x05 x05 x00 x00 x00 x00 x00 x00))
(L (W x00 x00 x00 x00 x00 x00 x00 x00)))
(T (W x3c x00 x55 x32 x00 x00 x00 x00)
(L (W x4e x46 x3d x64 x32 x3d x10 x00)) E))
(T (W x00 x00 x00 x00 x00 x00 x00 x00)
(T (W x01 x00 x01 x00 x01 x00 x01 x00)
(L (W x00 x00 x59 x00 xbc x01 x00 x00)) E)
(T (W x03 x03 x03 x01 x01 x01 x01 x01)
(L (W x00 x00 xff x00 x00 x00 x00 x00)) E)))
(T (W x03 x02 x02 x01 x01 x01 x01 x01)
(T (W x01 x01 x00 x00 x00 x00 x00 x00)
(T (W x00 x00 x00 x00 x00 x00 x00 x00)
(L (W x23 x00 x00 x04 x10 x20 x02 x04)) E)
(T (W x02 x41 x22 x01 x96 x00 x62 x02)
(L (W x0e x00 x10 x00 x13 x00 x19 x00)) E))
(T (W x00 x00 xc4 x00 x3d x02 x00 x00)
(T (W x00 x00 xfe x14 x32 x00 x07 x07)
(L (W x00 x00 x00 x00 x00 x00 x00 x00)) E)
(T (W x00 x00 x00 x00 x00 x00 x00 x00)
(L (W x00 x00 x00 x00 x00 x00 x00 x00)) E))))))
(T (W x00 x00 x00 x00 x00 x00 x00 x00)
(T (W x03 x34 x02 x00 x04 x00 x00 x00)
(T (W x0e x00 x10 x00 x13 x00 x19 x00)
(T (W x00 x00 xff x00 x00 x00 x00 x00)
(T (W x01 x41 x2a x00 x28 x00 x55 x00)
(T (W x46 x80 x0a x41 x22 x20 x0c x00)
(L (W x03 x03 x02 x01 x01 x01 x01 x01))
(L (W x00 x00 xff x78 x00 x05 x0f x0f)))
(T (W x0e x00 x10 x00 x13 x00 x19 x00)
(L (W x00 x00 x19 x01 x3a x03 x00 x00)) E))
(T (W x00 x00 x00 x00 x00 x00 x00 x00)
(T (W x00 x00 x00 x00 x00 x00 xdc x00)
(L (W x04 x04 x00 x00 x00 x00 x00 x00)) E)
(T (W x3c x00 x55 x32 x00 x00 x00 x00)
(L (W x47 x78 x5f x63 x78 x5f x06 x08)) E)))
(T (W x37 x00 x55 x2d x00 x00 x00 x00)
(T (W x03 x03 x03 x01 x01 x01 x02 x02)
(T (W x00 x00 x6b x00 xc4 x00 x00 x00)
(L (W x02 x10 x22 x00 x06 x00 x00 x00))
(L (W x3c x00 x55 x28 x00 x00 x00 x00)))
(T (W x00 x00 x7f x14 x32 x00 x05 x05)
(L (W x00 x00 x00 x00 x00 x00 xdf x01)) E))
(T (W x04 x05 x00 x00 x00 x00 x00 x00)
(T (W x3e x4d x3e x41 x32 x2a x00 x02)
(L (W xa1 x40 x21 x07 x21 x0c x22 xa0)) E)
(T (W x01 x46 x2c x01 xc8 x00 xe1 x05)
(L (W x01 x00 x01 x00 x01 x00 x01 x00)) E))))
(T (W x03 x03 x00 x00 x00 x00 x00 x00)
(T (W x6e x05 x02 x00 x33 x20 x0c x00)
(T (W x00 x00 x00 x00 x00 x00 x00 x00)
(T (W x37 x00 x55 x2d x00 x00 x00 x00)
(L (W x3c x4e x87 x24 x5b x55 x09 x0f))
(L (W x13 xc4 x00 x10 x60 x04 x20 x00)))
(T (W x04 x06 x00 x00 x00 x00 x00 x00)
(L (W x00 x00 x00 x00 x00 x00 x00 x00)) E))
(T (W x0e x00 x10 x00 x13 x00 x19 x00)
(T (W x00 x00 x00 x01 x01 x01 x01 x01)
(L (W x00 x00 xfe x14 x32 x00 x06 x0b)) E)
(T (W x00 x00 xe6 x00 xba x00 x00 x00)
(L (W x00 x00 x00 x00 x00 x00 x00 x00)) E)))
(T (W x00 x00 x6d x00 xb3 x01 x00 x00)
(T (W x4e x46 x3d x64 x32 x3d x00 x00)
(T (W x01 x45 xb8 x00 xc8 x00 xb8 x0b)
(L (W x0e x00 x10 x00 x13 x00 x19 x00)) E)
(T (W x10 x08 x82 x20 x20 x00 x40 x00)
(L (W x00 x00 x00 x01 x01 x01 x01 x01)) E))
(T (W x00 x00 x7f x00 x00 x00 x00 x00)
(T (W x00 x34 x00 x00 x00 x00 x00 x00)
(L (W x32 x00 x50 x28 x00 x00 x00 x00)) E)
(T (W x00 x00 x00 x00 x00 x00 xd8 x02)
(L (W x01 x01 x00 x00 x00 x00 x00 x00)) E)))))
(T (W x00 x00 x3a x01 x93 x01 x00 x00)
(T (W x01 x47 x3d x00 x50 x00 xc3 x00)
(T (W x03 x03 x02 x01 x01 x01 x01 x01)
(T (W x01 x01 x00 x00 x00 x00 x00 x00)
(T (W x00 x00 x00 x00 x00 x00 x00 x00)
(L (W x60 x00 x02 x08 x02 x20 x0c x14))
(L (W x03 x03 x03 x01 x01 x01 x01 x01)))
(T (W x01 x43 x82 x00 x3c x00 x50 x00)
(L (W x01 x00 x01 x00 x01 x00 x01 x00)) E))
(T (W x00 x00 xcc x00 x15 x00 x00 x00)
(T (W x00 x00 x7f x0a x64 x05 x0f x0f)
(L (W x00 x00 x00 x00 x00 x00 x58 x03)) E)
(T (W x00 x00 x00 x00 x00 x00 x00 x00)
(L (W x00 x00 x00 x00 x00 x00 x00 x00)) E)))
(T (W x00 x00 x00 x00 x00 x00 x00 x00)
(T (W x01 x00 x00 x08 x82 x20 x20 x00)
(T (W x0e x00 x10 x00 x13 x00 x19 x00)
(L (W x00 x00 x4b x00 x1b x01 x00 x00))
(L (W x00 x10 x80 x18 x00 x00 x00 x00)))
(T (W x03 x03 x03 x01 x01 x01 x01 x01)
(L (W x00 x00 xff x00 x00 x00 x00 x00)) E))
(T (W x00 x00 x00 x00 x00 x00 x59 x01)
(T (W x3c x00 x64 x46 x00 x00 x00 x00)
(L (W x23 x37 x28 x5a x32 x32 x0c x0c)) E)
(T (W x02 x02 x00 x00 x00 x00 x00 x00)
(L (W x00 x00 x00 x00 x00 x00 x00 x00)) E))))
(T (W x00 x00 x00 x00 x00 x00 x00 x00)
(T (W x41 x82 x3c x41 x5f x6e x09 x09)
(T (W x00 x00 x7f x00 x00 x00 x00 x00)
(T (W x00 x00 x00 x00 x00 x00 x00 x00)
(L (W x00 x00 x00 x00 x00 x00 x00 x00))
(L (W x00 x00 x00 x00 x00 x00 x00 x00)))
(T (W x00 x00 x00 x00 x00 x00 x57 x02)
(L (W x01 x01 x00 x00 x00 x00 x00 x00)) E))
(T (W x00 x00 x00 x00 x00 x00 x00 x00)
(T (W x8b x04 x00 x00 x00 x04 x60 x04)
(L (W x03 x03 x02 x01 x01 x01 x01 x01)) E)
(T (W x0e x00 x10 x00 x13 x00 x19 x00)
(L (W x00 x00 x00 x00 x00 x00 x00 x00)) E)))
(T (W x0e x00 x10 x00 x13 x00 x19 x00)
(T (W x3c x00 x5a x2d x00 x00 x00 x00)
(T (W x03 x03 x00 x00 x00 x00 x00 x00)
(L (W x01 x43 xaa x00 x64 x00 x83 x04)) E)
(T (W x00 x00 x00 x00 x00 x00 x00 x00)
(L (W x00 x00 x00 x00 x00 x00 x00 x00)) E))
(T (W x00 x00 x00 x01 x01 x01 x01 x01)
(T (W x00 x00 x0e x02 xa8 x01 x00 x00)
(L (W xc1 x14 x0a x08 x02 x00 x00 x00)) E)
(T (W x00 x00 xbf x00 x00 x00 x00 x00)
(L (W x00 x00 x00 x00 x00 x00 x00 x00)) E)))))))
(T (W x00 x00 x0f x02 x21 x00 x00 x00)
(T (W x00 x00 x00 x01 x01 x01 x01 x01)
(T (W x00 x00 x10 x12 x09 x18 xa0 x80)
(T (W x32 x00 x50 x28 x00 x00 x00 x00)
(T (W x01 x40 x41 x00 x28 x00 x41 x00)
(T (W x00 x00 x00 x00 x00 x00 x00 x00)
(T (W x00 x00 x00 x00 x00 x00 x79 x01)
(L (W x03 x03 x00 x00 x00 x00 x00 x00))
(L (W x02 x41 x54 x01 x2c x01 x66 x08)))
(T (W x3c x00 x55 x32 x00 x00 x00 x00)
(L (W x5a x7d x5a x64 x55 x5a x01 x02)) E))
(T (W x00 x00 x00 x00 x00 x00 x00 x00)
(T (W x0e x00 x10 x00 x13 x00 x19 x00)
(L (W x00 x00 x4a x00 x13 x03 x00 x00)) E)
(T (W x00 x00 x00 x01 x01 x01 x01 x01)
(L (W x00 x00 xff x78 x00 x05 x0f x0f)) E)))
(T (W x03 x00 x00 x01 x01 x01 x01 x01)
(T (W x03 x04 x00 x00 x00 x00 x00 x00)
(T (W x00 x00 x00 x00 x00 x00 x00 x00)
(L (W x00 x00 x02 x00 x02 x21 x41 x10))
(L (W x00 x00 x00 x01 x01 x01 x01 x01)))
(T (W x01 x43 x40 x00 x3c x00 xb4 x00)
(L (W x0e x00 x10 x00 x13 x00 x19 x00)) E))
(T (W x00 x00 x59 x00 x4a x02 x00 x00)
(T (W x00 x00 x7f x0a x32 x04 x05 x05)
(L (W x00 x00 x00 x00 x00 x00 x79 x03)) E)
(T (W xc0 x10 x00 x00 x04 x00 x00 x00)
(L (W x00 x00 x00 x00 x00 x00 x00 x00)) E))))
(T (W x00 x00 x00 x00 x00 x00 x00 x00)
(T (W x00 x00 x00 x00 x00 x00 x78 x00)
(T (W x0e x00 x10 x00 x13 x00 x19 x00)
(T (W x00 x00 x00 x01 x01 x01 x01 x01)
(L (W x00 x00 xff x78 x00 x05 x0f x0f))
(L (W x00 x00 x00 x00 x00 x00 x04 x03)))
(T (W x00 x00 x00 x00 x00 x00 x00 x00)
(L (W x00 x00 x00 x00 x00 x00 x00 x00)) E))
(T (W x00 x00 x00 x00 x00 x00 x00 x00)
(T (W x01 x01 x00 x00 x00 x00 x00 x00)
(L (W x01 x46 xb6 x00 x96 x00 x46 x02)) E)
(T (W x3b x6e x96 x23 x2d x31 x08 x07)
(L (W x00 x00 x00 x00 x00 x00 x00 x00)) E)))
(T (W x00 x00 x00 x00 x00 x00 x00 x00)
(T (W x00 x00 x7f x00 x00 x00 x00 x00)
(T (W x02 x98 x02 x00 x00 x00 x00 x00)
(L (W x32 x00 x50 x32 x00 x00 x00 x00)) E)
(T (W x00 x00 x00 x00 x00 x00 x79 x02)
(L (W x01 x01 x00 x00 x00 x00 x00 x00)) E))
(T (W x00 x00 x00 x00 x00 x00 x00 x00)
(T (W x00 x00 x00 x00 x00 x00 x00 x00)
(L (W x04 x04 x04 x01 x01 x01 x01 x01)) E)
(T (W x0e x00 x10 x00 x13 x00 x19 x00)
(L (W x00 x00 x00 x00 x00 x00 x00 x00)) E)))))
(T (W x8c x46 x2d x2d x55 x32 x00 x11)
(T (W xc0 x11 x00 x08 x00 x00 x00 x00)
(T (W x04 x05 x00 x00 x00 x00 x00 x00)
(T (W x00 x00 x44 x00 xf3 x00 x00 x00)
(T (W x00 x00 x1f x00 x00 x00 x00 x00)
(L (W x00 x00 x00 x00 x00 x00 xf9 x02))
(L (W x03 x04 x00 x00 x00 x00 x00 x00)))
(T (W x40 x11 x00 x00 x00 x00 x00 x00)
(L (W x00 x00 x00 x00 x00 x00 x00 x00)) E))
(T (W x00 x00 x00 x00 x00 x00 x00 x00)
(T (W x01 x41 x22 x01 x1e x00 x03 x00)
(L (W x0e x00 x10 x00 x13 x00 x19 x00)) E)
(T (W x00 x00 x00 x00 x00 x00 x00 x00)
(L (W x00 x00 x00 x01 x01 x01 x01 x01)) E)))
(T (W x00 x00 x00 x00 x00 x00 x00 x00)
(T (W x00 x00 x00 x00 x00 x00 xf9 x00)
(T (W x32 x00 x55 x3c x00 x00 x00 x00)
(L (W x2e x41 x41 x22 x37 x23 x08 x08))
(L (W x00 x00 x02 x00 x02 x00 x04 x14)))
(T (W x03 x04 x00 x00 x00 x00 x00 x00)
(L (W x00 x00 x00 x00 x00 x00 x00 x00)) E))
(T (W x0e x00 x10 x00 x13 x00 x19 x00)
(T (W x03 x02 x06 x01 x01 x01 x01 x02)
(L (W x00 x00 x00 x0a x32 x00 x0f x0f)) E)
(T (W x00 x00 x6e x01 x93 x01 x00 x00)
(L (W x00 x00 x00 x00 x00 x00 x00 x00)) E))))
(T (W x01 x00 x01 x00 x01 x00 x01 x00)
(T (W x00 x00 x1f x23 x32 x00 x05 x05)
(T (W x01 x46 xaa x00 xd2 x00 x98 x08)
(T (W x00 x00 x00 x00 x00 x00 x00 x00)
(L (W x02 x02 x02 x01 x01 x01 x01 x01))
(L (W x00 x00 xff x00 x00 x00 x00 x00)))
(T (W x0e x00 x10 x00 x13 x00 x19 x00)
(L (W x00 x00 x00 x00 x00 x00 x00 x00)) E))
(T (W x09 x90 x22 x00 x00 x00 x00 x00)
(T (W x00 x00 x00 x00 x00 x00 x00 x00)
(L (W x03 x04 x00 x00 x00 x00 x00 x00)) E)
(T (W x37 x00 x55 x37 x00 x00 x00 x00)
(L (W x00 x00 x00 x00 x00 x00 x00 x00)) E)))
(T (W x00 x00 x00 x00 x00 x00 x00 x00)
(T (W x03 x03 x03 x01 x01 x01 x01 x02)
(T (W x00 x00 x3d x00 x61 x00 x00 x00)
(L (W x00 x10 x00 x00 x00 x00 x00 x00)) E)
(T (W x00 x00 x00 x78 x5a x05 x0f x0f)
(L (W x00 x00 x00 x00 x00 x00 x00 x00)) E))
(T (W x05 x06 x00 x00 x00 x00 x00 x00)
(T (W x3c x52 x2d x4a x2d x2d x04 x10)
(L (W x04 x00 x02 x00 x20 x00 xcc xd4)) E)
(T (W x01 x41 xfa x00 x96 x00 xc2 x01)
(L (W x01 x00 x01 x00 x01 x00 x01 x00)) E))))))
(T (W x01 x00 x01 x00 x01 x00 x01 x00)
(T (W x01 x46 xfd x00 x8c x00 x6c x02)
(T (W x00 x00 x00 x00 x00 x00 x00 x00)
(T (W x32 x32 x5f x23 x28 x32 x04 x04)
(T (W x00 x00 x1f x23 x23 x00 x05 x05)
(T (W x02 x10 x02 x00 x06 x00 x00 x00)
(L (W x3c x00 x55 x32 x00 x00 x00 x00))
(L (W x00 x00 x00 x00 x00 x00 x00 x00)))
(T (W x00 x00 x00 x00 x00 x00 x38 x02)
(L (W x01 x01 x00 x00 x00 x00 x00 x00)) E))
(T (W x01 x47 x35 x00 x32 x00 x37 x00)
(T (W x00 x00 x00 x00 x00 x00 x00 x00)
(L (W x04 x04 x04 x01 x01 x01 x01 x01)) E)
(T (W x0e x00 x10 x00 x13 x00 x19 x00)
(L (W x00 x00 x00 x00 x00 x00 x00 x00)) E)))
(T (W x0e x00 x10 x00 x13 x00 x19 x00)
(T (W x00 x00 x00 x00 x00 x00 x00 x00)
(T (W x01 x01 x00 x00 x00 x00 x00 x00)
(L (W x01 x47 x2c x01 x46 x00 xde x00))
(L (W x0e x00 x10 x00 x13 x00 x19 x00)))
(T (W x32 x28 x55 x19 x28 x41 x06 x06)
(L (W x4a x04 x00 x04 x10 x00 x0f x00)) E))
(T (W x00 x00 x00 x01 x01 x01 x01 x01)
(T (W x00 x00 x00 x00 x00 x00 x00 x00)
(L (W x14 x10 x00 x00 x08 x00 x00 x00)) E)
(T (W x00 x00 x7f x14 x32 x00 x07 x0b)
(L (W x00 x00 x00 x00 x00 x00 x00 x00)) E))))
(T (W x04 x04 x04 x01 x01 x01 x01 x01)
(T (W x00 x10 x02 x40 x02 x00 x00 x00)
(T (W x80 x00 x00 x00 x08 x10 x00 x00)
(T (W x0e x00 x10 x00 x13 x00 x19 x00)
(L (W x00 x00 xa5 x01 x47 x02 x00 x00))
(L (W x1e x10 x20 x80 x00 x00 x00 x00)))
(T (W x04 x03 x03 x01 x01 x01 x01 x01)
(L (W x00 x00 xff x00 x00 x00 x00 x00)) E))
(T (W x00 x00 x00 x00 x00 x00 x00 x00)
(T (W x00 x00 x00 x00 x00 x00 x00 x00)
(L (W x1e x19 x23 x14 x2d x1e x0e x06)) E)
(T (W x05 x05 x00 x00 x00 x00 x00 x00)
(L (W x00 x00 x00 x00 x00 x00 x00 x00)) E)))
(T (W x03 x03 x00 x00 x00 x00 x00 x00)
(T (W x00 x00 x00 x00 x00 x00 x00 x00)
(T (W x00 x00 x7f x0a x64 x00 x08 x08)
(L (W x00 x00 x00 x00 x00 x00 x38 x03)) E)
(T (W x00 x90 x02 xc0 x05 x00 x00 x00)
(L (W x3c x00 x55 x32 x00 x00 x00 x00)) E))
(T (W x5f x17 x30 x17 x17 x30 x0d x0d)
(T (W x01 x43 x38 x00 x1e x00 x06 x00)
(L (W x0e x00 x10 x00 x13 x00 x19 x00)) E)
(T (W x00 x00 x00 x00 x00 x00 x00 x00)
(L (W x00 x00 x00 x01 x01 x01 x01 x01)) E)))))
(T (W x04 x04 x00 x00 x00 x00 x00 x00)
(T (W x00 x00 x7f x00 x00 x00 x00 x00)
(T (W x3c x00 x64 x46 x00 x00 x00 x00)
(T (W x03 x02 x02 x01 x01 x01 x01 x01)
(T (W x00 x00 x00 x00 x00 x00 x00 x00)
(L (W x00 x10 x00 x00 x00 x00 x00 x00))
(L (W x3c x00 x50 x32 x00 x00 x00 x00)))
(T (W x00 x00 x7f x00 x00 x00 x00 x00)
(L (W x00 x00 x00 x00 x00 x00 x00 x00)) E))
(T (W x01 x01 x00 x00 x00 x00 x00 x00)
(T (W x78 x46 x78 x55 x4b x82 x0d x0d)
(L (W x68 x00 x00 x04 x10 x00 x02 x94)) E)
(T (W x01 x48 x46 x00 x3c x00 x50 x00)
(L (W x01 x00 x01 x00 x01 x00 x01 x00)) E)))
(T (W x00 x00 x00 x00 x00 x00 x00 x00)
(T (W x02 x10 x00 x00 x00 x00 x00 x00)
(T (W x00 x00 x00 x00 x00 x00 x00 x00)
(L (W x03 x03 x00 x00 x00 x00 x00 x00))
(L (W x02 x40 x68 x01 x22 x01 xaa x1e)))
(T (W x3c x00 x64 x28 x00 x00 x00 x00)
(L (W x00 x00 x00 x00 x00 x00 x00 x00)) E))
(T (W x80 x40 x00 x10 x48 x18 x00 x00)
(T (W x0e x00 x10 x00 x13 x00 x19 x00)
(L (W x00 x00 x68 x00 x58 x01 x00 x00)) E)
(T (W x00 x00 x00 x01 x01 x01 x01 x01)
(L (W x00 x00 xff x00 x00 x00 x00 x00)) E))))
(T (W x6a x01 x00 x06 x02 x40 x0a x10)
(T (W x00 x00 x39 x00 x6a x01 x00 x00)
(T (W x00 x00 x00 x00 x00 x00 x00 x00)
(T (W x00 x00 x00 x00 x00 x00 x00 x00)
(L (W x0e x00 x10 x00 x13 x00 x19 x00))
(L (W x00 x00 x00 x00 x00 x00 x00 x00)))
(T (W x00 x00 x00 x00 x00 x00 x00 x00)
(L (W x00 x00 x00 x01 x01 x01 x01 x01)) E))
(T (W x00 x00 x7f x00 x00 x00 x00 x00)
(T (W x00 x00 x00 x00 x00 x00 x00 x00)
(L (W x3c x00 x55 x32 x00 x00 x00 x00)) E)
(T (W x00 x00 x00 x00 x00 x00 xb8 x02)
(L (W x01 x01 x00 x00 x00 x00 x00 x00)) E)))
(T (W x00 x00 x00 x00 x00 x00 xb9 x00)
(T (W x0e x00 x10 x00 x13 x00 x19 x00)
(T (W x03 x03 x03 x01 x01 x01 x01 x01)
(L (W x00 x00 x7f x0f x32 x03 x0a x0a)) E)
(T (W x00 x00 x00 x00 x00 x00 x00 x00)
(L (W x00 x10 x05 x20 x03 x00 x00 x00)) E))
(T (W x37 x00 x55 x2d x00 x00 x00 x00)
(T (W x04 x04 x00 x00 x00 x00 x00 x00)
(L (W x00 x00 x00 x00 x00 x00 x00 x00)) E)
(T (W x2d x41 x28 x3c x1e x28 x05 x05)
(L (W x42 x01 x10 x0c x02 x20 x0a x00)) E))))))))))
(T (W x00 x00 x1f x14 x32 x03 x01 x07)
(T (W x04 x05 x00 x00 x00 x00 x00 x00)
(T (W x00 x14 x02 x41 x04 x00 x00 x00)
(T (W x01 x40 x0b x01 xaa x00 x89 x03)
(T (W x3c x2d x32 x46 x5a x50 x06 x02)
(T (W x00 x00 x00 x00 x00 x00 x00 x00)
(T (W x00 x00 x00 x00 x00 x00 x00 x00)
(T (W x00 x00 x00 x00 x00 x00 x5c x00)
(T (W x0e x00 x10 x00 x13 x00 x19 x00)
(T (W x04 x04 x04 x01 x01 x01 x01 x01)
(L (W x00 x00 x7f x0f x32 x00 x05 x05))
(L (W x00 x00 x00 x00 x00 x00 xc6 x02)))
(T (W x00 x00 x6e x00 xf8 x01 x00 x00)
(L (W x40 x10 x02 x01 x0e x00 x00 x00)) E))
(T (W x3c x00 x5a x28 x00 x00 x00 x00)
(T (W x04 x05 x00 x00 x00 x00 x00 x00)
(L (W x01 x44 x90 x00 x6e x00 x0c x03)) E)
(T (W x00 x00 x00 x00 x00 x00 x00 x00)
(L (W x80 x00 x03 x00 x09 x78 x00 x00)) E)))
(T (W x1e x50 x5a x37 x37 x2d x05 x0a)
(T (W x00 x00 xff x14 x32 x00 x0a x0a)
(T (W x00 x00 x00 x00 x00 x00 x00 x00)
(L (W x3c x00 x64 x41 x00 x00 x00 x00))
(L (W x00 x00 x00 x00 x00 x00 x00 x00)))
(T (W x00 x00 x00 x00 x00 x00 x5d x02)
(L (W x01 x01 x00 x00 x00 x00 x00 x00)) E))
(T (W x00 x00 x00 x00 x00 x00 x00 x00)
(T (W x00 x00 x00 x00 x00 x00 x00 x00)
(L (W x03 x02 x02 x01 x01 x01 x01 x01)) E)
(T (W x0e x00 x10 x00 x13 x00 x19 x00)
(L (W x00 x00 x00 x00 x00 x00 x00 x00)) E))))
(T (W x00 x00 x00 x00 x00 x00 x00 x00)
(T (W x04 x04 x04 x01 x01 x01 x01 x01)
(T (W x01 x01 x00 x00 x00 x00 x00 x00)
(T (W x00 x00 x00 x00 x00 x00 x00 x00)
(L (W x20 x60 x21 x36 x01 x44 x90 x80))
(L (W x03 x03 x03 x01 x01 x01 x01 x01)))
(T (W x01 x48 x3d x00 x28 x00 x39 x00)
(L (W x01 x00 x01 x00 x01 x00 x01 x00)) E))
(T (W x00 x00 x6d x00 xa5 x01 x00 x00)
(T (W x00 x00 xff x00 x00 x00 x00 x00)
(L (W x00 x00 x00 x00 x00 x00 x5b x03)) E)
(T (W x02 x98 x22 x40 x04 x00 x00 x00)
(L (W x00 x00 x00 x00 x00 x00 x00 x00)) E)))
(T (W x00 x10 x00 x80 x00 x00 x00 x00)
(T (W x10 x0a x81 x02 x01 x00 x20 x00)
(T (W x0e x00 x10 x00 x13 x00 x19 x00)
(L (W x00 x00 xe8 x01 xe6 x01 x00 x00))
(L (W x00 x16 x00 x10 x02 x00 x00 x00)))
(T (W x03 x03 x02 x01 x01 x01 x01 x01)
(L (W x00 x00 xff x00 x00 x00 x00 x00)) E))
(T (W x00 x00 x00 x00 x00 x00 x5d x01)
(T (W x32 x00 x55 x32 x00 x00 x00 x00)
(L (W x00 x00 x00 x00 x00 x00 x00 x00)) E)
(T (W x02 x02 x00 x00 x00 x00 x00 x00)
(L (W x00 x00 x00 x00 x00 x00 x00 x00)) E)))))
(T (W x80 x90 x80 x12 x00 x00 x00 x00)
(T (W x0e x00 x10 x00 x13 x00 x19 x00)
(T (W x00 x00 x7f x14 x32 x00 x01 x01)
(T (W x00 x00 x00 x00 x00 x00 x00 x00)
(T (W x09 x9c x19 x40 x0b x0c x00 x02)
(L (W x03 x03 x03 x01 x01 x01 x01 x01))
(L (W x00 x00 xff x00 x00 x00 x00 x00)))
(T (W x0e x00 x10 x00 x13 x00 x19 x00)
(L (W x00 x00 x00 x00 x00 x00 x00 x00)) E))
(T (W x00 x50 x00 xc0 x00 x00 x00 x00)
(T (W x00 x00 x00 x00 x00 x00 x63 x01)
(L (W x03 x03 x00 x00 x00 x00 x00 x00)) E)
(T (W x28 x00 x46 x28 x00 x00 x00 x00)
(L (W x00 x00 x00 x00 x00 x00 x00 x00)) E)))
(T (W x46 x00 x64 x32 x00 x00 x00 x00)
(T (W x03 x00 x00 x01 x01 x01 x01 x01)
(T (W x00 x00 x00 x00 x00 x00 x00 x00)
(L (W x00 x14 x00 x00 x00 x00 x00 x00))
(L (W x3c x00 x55 x32 x00 x00 x00 x00)))
(T (W x00 x00 x7f x0f x32 x00 x03 x03)
(L (W x00 x00 x00 x00 x00 x00 xdf x01)) E))
(T (W x03 x03 x00 x00 x00 x00 x00 x00)
(T (W x37 x4b x55 x0f x19 x19 x05 x05)
(L (W xa9 x40 x20 x00 x00 x80 x00 xc0)) E)
(T (W x04 x45 x43 x00 x28 x00 x32 x00)
(L (W x01 x00 x01 x00 x01 x00 x01 x00)) E))))
(T (W x03 x04 x00 x00 x00 x00 x00 x00)
(T (W x08 x00 x20 x00 x20 x0c x60 xc0)
(T (W x00 x00 x00 x00 x00 x00 xdc x00)
(T (W x3c x00 x64 x32 x00 x00 x00 x00)
(L (W x4e x3c x55 x24 x87 x5b x00 x0f))
(L (W x00 x00 x00 x00 x00 x00 x00 x00)))
(T (W x04 x05 x00 x00 x00 x00 x00 x00)
(L (W x02 x48 x90 x00 x3c x00 x05 x00)) E))
(T (W x01 x00 x01 x00 x01 x00 x01 x00)
(T (W x00 x00 x00 x01 x01 x01 x01 x01)
(L (W x00 x00 x7f x14 x32 x00 x03 x03)) E)
(T (W x00 x00 xcf x00 x5f x00 x00 x00)
(L (W x00 x00 x00 x00 x00 x00 x00 x00)) E)))
(T (W x00 x00 xba x00 x3e x02 x00 x00)
(T (W x00 x00 x00 x00 x00 x00 x00 x00)
(T (W x01 x41 xac x00 x82 x00 xbc x01)
(L (W x0e x00 x10 x00 x13 x00 x19 x00)) E)
(T (W xa0 x00 x26 x18 xa3 x28 x20 x00)
(L (W x04 x03 x03 x01 x01 x01 x01 x01)) E))
(T (W x00 x00 x7f x14 x32 x00 x06 x0a)
(T (W x40 x10 x00 x03 x00 x00 x00 x00)
(L (W x3c x00 x55 x32 x00 x00 x00 x00)) E)
(T (W x00 x00 x00 x00 x00 x00 x00 x00)
(L (W x01 x01 x00 x00 x00 x00 x00 x00)) E))))))
(T (W x01 x01 x00 x00 x00 x00 x00 x00)
(T (W x00 x00 x00 x00 x00 x00 x1d x00)
(T (W x04 x0a x08 x01 x01 x01 x02 x02)
(T (W x00 x10 x08 x40 x06 x00 x00 x00)
(T (W x00 x00 x00 x00 x00 x00 x00 x00)
(T (W x0a x00 x0a x00 x0a x00 x0a x00)
(L (W x00 x00 x44 x00 x59 x00 x00 x00))
(L (W x00 x90 x02 x00 x0c x00 x00 x00)))
(T (W x04 x04 x04 x01 x01 x01 x01 x01)
(L (W x00 x00 xff x78 x23 x05 x0f x0f)) E))
(T (W x00 x00 x00 x00 x00 x00 x00 x00)
(T (W x3c x00 x5a x32 x00 x00 x00 x00)
(L (W x48 x6b x7d x47 x41 x46 x04 x04)) E)
(T (W x01 x01 x00 x00 x00 x00 x00 x00)
(L (W x05 x46 x2c x01 x96 x00 x39 x03)) E)))
(T (W x02 x02 x00 x00 x00 x00 x00 x00)
(T (W x00 x00 x5d x00 xb5 x00 x00 x00)
(T (W x00 x00 x7f x1e x32 x02 x0b x0b)
(L (W x00 x00 x00 x00 x00 x00 x1d x03))
(L (W x04 x04 x00 x00 x00 x00 x00 x00)))
(T (W x02 x10 x00 x40 x0c x00 x00 x00)
(L (W x3c x00 x5a x32 x00 x00 x00 x00)) E))
(T (W x00 x00 x00 x00 x00 x00 x00 x00)
(T (W x01 x49 xaa x00 x6e x00 x5d x02)
(L (W x00 x00 x00 x00 x00 x00 x00 x00)) E)
(T (W x00 x20 x00 x40 x00 x40 x00 x00)
(L (W x00 x00 x00 x01 x01 x01 x01 x01)) E))))
(T (W x00 x00 x00 x00 x00 x00 x00 x00)
(T (W x0e x00 x10 x00 x13 x00 x19 x00)
(T (W x3c x00 x50 x28 x00 x00 x00 x00)
(T (W x01 x01 x00 x00 x00 x00 x00 x00)
(L (W x00 x00 x00 x00 x00 x00 x00 x00))
(L (W x0e x00 x10 x00 x13 x00 x19 x00)))
(T (W x32 x4b x2d x3c x28 x2d x06 x06)
(L (W x00 x00 x00 x00 x00 x00 x00 x00)) E))
(T (W x00 x00 x00 x01 x01 x01 x01 x01)
(T (W x00 x00 x00 x00 x00 x00 x00 x00)
(L (W xc2 x30 x42 x00 x02 x00 x00 x00)) E)
(T (W x00 x00 x7f x14 x32 x00 x0a x0a)
(L (W x00 x00 x00 x00 x00 x00 x00 x00)) E)))
(T (W x00 x00 x7f x0f x32 x00 x04 x04)
(T (W x00 x00 x00 x00 x00 x00 x00 x00)
(T (W x03 x42 x23 x47 x71 x08 x20 x00)
(L (W x03 x03 x02 x01 x01 x01 x01 x01)) E)
(T (W x0e x00 x10 x00 x13 x00 x19 x00)
(L (W x00 x00 x00 x00 x00 x00 x00 x00)) E))
(T (W xc0 x30 x00 x00 x00 x00 x00 x00)
(T (W x00 x00 x00 x00 x00 x00 x00 x00)
(L (W x03 x03 x00 x00 x00 x00 x00 x00)) E)
(T (W x3c x00 x5a x32 x00 x00 x00 x00)
(L (W x00 x00 x00 x00 x00 x00 x00 x00)) E)))))
(T (W x00 x00 x7f x0f x32 x00 x04 x04)
(T (W x66 x01 x02 x00 x22 x20 x0a x10)
(T (W x00 x00 x72 x00 x01 x01 x00 x00)
(T (W x00 x00 x00 x00 x00 x00 x00 x00)
(T (W x00 x00 x00 x00 x00 x00 x00 x00)
(L (W x0e x00 x10 x00 x13 x00 x19 x00))
(L (W x00 x00 x88 x01 x39 x00 x00 x00)))
(T (W x6e x11 x02 x04 x32 x20 x0e x00)
(L (W x00 x00 x00 x01 x01 x01 x01 x01)) E))
(T (W x00 x00 x3f x00 x00 x00 x00 x00)
(T (W x42 x10 x02 x00 x0c x00 x00 x00)
(L (W x3c x00 x50 x28 x00 x00 x00 x00)) E)
(T (W x00 x00 x00 x00 x00 x00 x00 x00)
(L (W x01 x01 x00 x00 x00 x00 x00 x00)) E)))
(T (W x00 x00 x00 x00 x00 x00 x00 x00)
(T (W x0a x00 x0a x00 x13 x00 x0a x00)
(T (W x03 x03 x02 x01 x01 x01 x01 x01)
(L (W x00 x00 xff x78 x00 x05 x0f x0f))
(L (W x00 x00 x00 x00 x00 x00 x64 x03)))
(T (W x00 x00 xdf x00 x59 x00 x00 x00)
(L (W x00 x00 x00 x00 x00 x00 x00 x00)) E))
(T (W x32 x00 x50 x28 x00 x00 x00 x00)
(T (W x03 x03 x00 x00 x00 x00 x00 x00)
(L (W x0a x42 x70 x00 x28 x00 x3c x00)) E)
(T (W x7e x83 x5f x63 x83 x62 x11 x11)
(L (W x00 x00 x00 x00 x00 x00 x00 x00)) E))))
(T (W x00 x00 x00 x00 x00 x00 x00 x00)
(T (W x01 x41 xb8 x00 x64 x00 x22 x01)
(T (W x00 x10 x00 x80 x00 x00 x00 x00)
(T (W x00 x00 x00 x00 x00 x00 x00 x00)
(L (W x02 x02 x00 x00 x00 x00 x00 x00))
(L (W x00 x00 x00 x00 x00 x00 x00 x00)))
(T (W x3c x00 x50 x28 x00 x00 x00 x00)
(L (W x00 x00 x00 x00 x00 x00 x00 x00)) E))
(T (W x00 x04 x00 x00 x20 x80 x10 x00)
(T (W x0e x00 x10 x00 x13 x00 x19 x00)
(L (W x00 x00 x0b x02 x9b x02 x00 x00)) E)
(T (W x03 x03 x03 x01 x01 x01 x01 x01)
(L (W x00 x00 xff x00 x00 x00 x00 x00)) E)))
(T (W x00 x00 x00 x01 x01 x01 x01 x01)
(T (W x03 x04 x00 x00 x00 x00 x00 x00)
(T (W x5a x5c x4b x3c x5c x55 x0b x0e)
(L (W x00 x00 x00 x00 x20 x00 x41 x00)) E)
(T (W x03 x47 x4a x01 x2c x01 xb2 x0c)
(L (W x01 x00 x01 x00 x01 x00 x01 x00)) E))
(T (W x00 x00 x00 x00 x00 x00 x00 x00)
(T (W x00 x00 x7f x14 x32 x03 x05 x05)
(L (W x00 x00 x00 x00 x00 x00 x4f x00)) E)
(T (W x00 x00 x00 x00 x00 x00 x00 x00)
(L (W x00 x00 x00 x00 x00 x00 x00 x00)) E)))))))
(T (W x00 x00 x1f x14 x32 x03 x01 x02)
(T (W x00 x00 x00 x00 x00 x00 x00 x00)
(T (W x0e x00 x10 x00 x13 x00 x19 x00)
(T (W x01 x01 x00 x00 x00 x00 x00 x00)
(T (W x00 x00 x00 x00 x00 x00 x00 x00)
(T (W x00 x00 x00 x00 x00 x00 x00 x00)
(T (W x3c x00 x5f x37 x00 x00 x00 x00)
(L (W x32 x3f x98 x23 x35 x8e x03 x0a))
(L (W x42 x01 x10 x0c x13 x21 x0a x00)))
(T (W x04 x04 x00 x00 x00 x00 x00 x00)
(L (W x02 x48 xa1 x00 x8c x00 x38 x02)) E))
(T (W x0e x00 x10 x00 x13 x00 x19 x00)
(T (W x02 x04 x03 x01 x01 x01 x02 x02)
(L (W x00 x00 x7f x14 x32 x01 x07 x0e)) E)
(T (W x00 x00 x00 x00 x00 x00 x00 x00)
(L (W x00 x90 x00 xc0 x01 x00 x00 x00)) E)))
(T (W x00 x00 x30 x00 x9d x00 x00 x00)
(T (W x23 x23 x23 x23 x23 x23 x01 x01)
(T (W x02 x46 x41 x00 x1e x00 x3f x00)
(L (W x0a x00 x0a x00 x13 x00 x0a x00))
(L (W x00 x00 xd2 x02 xc9 x02 x00 x00)))
(T (W x72 x08 x02 x04 x02 x00 x08 x00)
(L (W x00 x00 x00 x01 x01 x01 x01 x01)) E))
(T (W x00 x00 x7f x14 x32 x03 x03 x0e)
(T (W x00 x00 x00 x00 x00 x00 x00 x00)
(L (W x3c x00 x64 x32 x00 x00 x00 x00)) E)
(T (W x00 x00 x00 x00 x00 x00 xbd x02)
(L (W x01 x01 x00 x00 x00 x00 x00 x00)) E))))
(T (W x00 x00 x7f x14 x32 x05 x09 x09)
(T (W x3c x00 x50 x28 x00 x00 x00 x00)
(T (W x03 x03 x03 x01 x01 x01 x01 x01)
(T (W x00 x00 x00 x00 x00 x00 x00 x00)
(L (W x00 x00 x00 x00 x00 x00 x00 x00))
(L (W x3c x00 x50 x32 x00 x00 x00 x00)))
(T (W x00 x00 x7f x00 x00 x00 x00 x00)
(L (W x00 x00 x00 x00 x00 x00 x00 x00)) E))
(T (W x04 x05 x00 x00 x00 x00 x00 x00)
(T (W x00 x00 x00 x00 x00 x00 x00 x00)
(L (W x02 x40 x02 x80 x08 x18 x10 x80)) E)
(T (W x02 x41 xa3 x00 x3c x00 x55 x00)
(L (W x01 x00 x01 x00 x01 x00 x01 x00)) E)))
(T (W x00 x00 x00 x00 x00 x00 x00 x00)
(T (W x01 x10 x02 x00 x00 x00 x00 x00)
(T (W x00 x00 x00 x00 x00 x00 xbb x01)
(L (W x03 x03 x00 x00 x00 x00 x00 x00))
(L (W x03 x48 x54 x01 xf0 x00 x9b x1f)))
(T (W x3c x00 x64 x32 x00 x00 x00 x00)
(L (W x00 x00 x00 x00 x00 x00 x00 x00)) E))
(T (W x00 x00 x00 x00 x00 x00 x00 x00)
(T (W x0e x00 x10 x00 x13 x00 x19 x00)
(L (W x00 x00 xa1 x01 x5e x00 x00 x00)) E)
(T (W x03 x02 x04 x01 x01 x01 x01 x02)
(L (W x00 x00 xff x00 x00 x00 x00 x00)) E)))))
(T (W x02 x42 xb1 x00 x6e x00 xc7 x00)
(T (W x00 x00 x00 x00 x00 x00 x3c x00)
(T (W x5a x37 x4b x1e x3c x4b x00 x00)
(T (W x00 x00 xff x00 x00 x00 x00 x00)
(T (W x00 x00 x00 x00 x00 x00 x00 x00)
(L (W x3c x00 x55 x32 x00 x00 x00 x00))
(L (W x55 x73 x4b x52 x37 x4b x05 x05)))
(T (W x00 x00 x00 x00 x00 x00 x3c x02)
(L (W x01 x01 x00 x00 x00 x00 x00 x00)) E))
(T (W x01 x41 x7e x00 x64 x00 x95 x01)
(T (W x46 x01 x02 x00 x32 x30 x0e x14)
(L (W x04 x03 x03 x01 x01 x01 x01 x01)) E)
(T (W x01 x00 x01 x00 x01 x00 x01 x00)
(L (W x00 x00 x00 x00 x00 x00 x00 x00)) E)))
(T (W x01 x00 x01 x00 x01 x00 x01 x00)
(T (W x3c x00 x5a x2d x00 x00 x00 x00)
(T (W x01 x01 x00 x00 x00 x00 x00 x00)
(L (W x01 x48 x1d x01 xb4 x00 x82 x00))
(L (W x0e x00 x10 x00 x13 x00 x19 x00)))
(T (W x41 x7d x3c x69 x5f x3c x01 x01)
(L (W x00 x00 x00 x00 x00 x00 x00 x00)) E))
(T (W x03 x02 x02 x01 x01 x01 x01 x01)
(T (W x00 x00 x9d x00 xbc x01 x00 x00)
(L (W x00 x00 x00 x00 x00 x00 x00 x00)) E)
(T (W x00 x00 x7f x14 x32 x00 x01 x0a)
(L (W x00 x00 x00 x00 x00 x00 x00 x00)) E))))
(T (W x00 x00 x00 x01 x01 x01 x01 x01)
(T (W x01 x10 x02 x00 x01 x00 x00 x00)
(T (W x00 x00 x00 x08 x42 x42 x10 x00)
(T (W x01 x00 x01 x00 x01 x00 x01 x00)
(L (W x00 x00 x38 x02 x51 x01 x00 x00))
(L (W x00 x00 x00 x00 x00 x00 x00 x00)))
(T (W x03 x03 x06 x01 x01 x01 x01 x02)
(L (W x00 x00 xff x00 x00 x00 x00 x00)) E))
(T (W x00 x00 x00 x00 x00 x00 x00 x00)
(T (W x00 x00 x00 x00 x00 x00 x00 x00)
(L (W x3c x41 x37 x5f x69 x5f x0d x00)) E)
(T (W x04 x04 x00 x00 x00 x00 x00 x00)
(L (W x00 x00 x00 x00 x00 x00 x00 x00)) E)))
(T (W x03 x04 x00 x00 x00 x00 x00 x00)
(T (W x00 x00 x2d x00 x48 x00 x00 x00)
(T (W x00 x00 x7f x00 x00 x00 x00 x00)
(L (W x00 x00 x00 x00 x00 x00 x3d x03)) E)
(T (W x12 x10 x00 x10 x0a x00 x00 x00)
(L (W x00 x00 x00 x00 x00 x00 x00 x00)) E))
(T (W x5a x3c x46 x2d x4b x46 x0e x0a)
(T (W x02 x43 xa1 x00 x64 x00 xb4 x00)
(L (W x01 x00 x01 x00 x01 x00 x01 x00)) E)
(T (W x01 x00 x00 x12 x00 x00 x40 x00)
(L (W x00 x00 x00 x01 x01 x01 x01 x01)) E))))))
(T (W x00 x00 x00 x01 x01 x01 x01 x01)
(T (W x00 x00 x40 x02 x08 x00 x80 x08)
(T (W x32 x00 x50 x32 x00 x00 x00 x00)
(T (W x01 x49 x41 x00 x28 x00 x19 x00)
(T (W x00 x10 x02 x20 x04 x00 x00 x00)
(T (W x00 x00 x00 x00 x00 x00 x7d x01)
(L (W x03 x04 x00 x00 x00 x00 x00 x00))
(L (W x05 x44 x62 x01 xc2 x01 xd4 x17)))
(T (W x37 x00 x55 x2d x00 x00 x00 x00)
(L (W x00 x00 x00 x00 x00 x00 x00 x00)) E))
(T (W x00 x00 x00 x00 x00 x00 x00 x00)
(T (W x0e x00 x10 x00 x13 x00 x19 x00)
(L (W x00 x00 xf2 x00 xc6 x02 x00 x00)) E)
(T (W x03 x03 x03 x01 x01 x01 x01 x01)
(L (W x00 x00 xff x00 x00 x00 x00 x00)) E)))
(T (W x03 x03 x03 x01 x01 x01 x01 x01)
(T (W x04 x05 x00 x00 x00 x00 x00 x00)
(T (W x41 x4c x54 x69 x36 x60 x00 x00)
(L (W x14 x54 x1a xd4 x48 x1c x0c x00))
(L (W x04 x03 x02 x01 x01 x01 x01 x01)))
(T (W x01 x48 xb1 x00 x04 x01 x28 x0a)
(L (W x0e x00 x10 x00 x13 x00 x19 x00)) E))
(T (W x00 x00 x1a x02 x49 x02 x00 x00)
(T (W x00 x00 x7f x0f x32 x03 x04 x04)
(L (W x00 x00 x00 x00 x00 x00 x7d x03)) E)
(T (W x00 x11 x80 x02 x00 x00 x00 x00)
(L (W x00 x00 x00 x00 x00 x00 x00 x00)) E))))
(T (W x00 x00 xe8 x01 xac x02 x00 x00)
(T (W x00 x00 x00 x00 x00 x00 xef x00)
(T (W x01 x00 x01 x00 x01 x00 x01 x00)
(T (W x03 x03 x03 x01 x01 x01 x01 x01)
(L (W x00 x00 x7f x0a x32 x00 x05 x06))
(L (W x00 x00 x00 x00 x00 x00 x04 x03)))
(T (W x00 x00 x13 x01 xca x00 x00 x00)
(L (W x00 x00 x00 x00 x00 x00 x00 x00)) E))
(T (W x00 x00 x00 x00 x00 x00 x00 x00)
(T (W x01 x01 x00 x00 x00 x00 x00 x00)
(L (W x01 x42 xa5 x00 x2c x01 x6c x02)) E)
(T (W x3e x30 x42 x31 x3b x39 x11 x11)
(L (W x00 x00 x00 x00 x00 x00 x00 x00)) E)))
(T (W x14 x28 x0f x3c x23 x23 x0c x0c)
(T (W x00 x00 x7f x00 x00 x00 x00 x00)
(T (W x00 x16 x00 x40 x00 x00 x00 x00)
(L (W x3c x00 x55 x32 x00 x00 x00 x00)) E)
(T (W x00 x00 x00 x00 x00 x00 x7c x02)
(L (W x04 x05 x00 x00 x00 x00 x00 x00)) E))
(T (W x00 x00 x00 x00 x00 x00 x00 x00)
(T (W x00 x40 x50 x02 x00 x00 x00 x08)
(L (W x02 x08 x06 x01 x01 x01 x02 x02)) E)
(T (W x0e x00 x10 x00 x13 x00 x19 x00)
(L (W x00 x00 x00 x00 x00 x00 x00 x00)) E)))))
(T (W x3c x41 x46 x28 x55 x4b x0b x03)
(T (W x00 x98 x02 x00 x04 x00 x00 x00)
(T (W x05 x06 x00 x00 x00 x00 x00 x00)
(T (W x00 x00 xe9 x01 xf6 x00 x00 x00)
(T (W x00 x00 x1f x00 x00 x00 x00 x00)
(L (W x00 x00 x00 x00 x00 x00 xfd x02))
(L (W x05 x05 x00 x00 x00 x00 x00 x00)))
(T (W xc0 x10 x00 x08 x00 x00 x00 x00)
(L (W x00 x00 x00 x00 x00 x00 x00 x00)) E))
(T (W x00 x00 x00 x00 x00 x00 x00 x00)
(T (W x01 x48 x4f x01 x72 x01 x68 x10)
(L (W x0e x00 x10 x00 x13 x00 x19 x00)) E)
(T (W x00 x00 x00 x00 x00 x00 x00 x00)
(L (W x00 x00 x00 x01 x01 x01 x01 x01)) E)))
(T (W x00 x00 x00 x00 x00 x00 x00 x00)
(T (W x00 x00 x00 x00 x00 x00 xfc x00)
(T (W x32 x00 x46 x28 x00 x00 x00 x00)
(L (W x64 x7d x5a x55 x3c x46 x0b x0b))
(L (W x29 x00 x00 x0c x10 x00 x43 x00)))
(T (W x04 x04 x00 x00 x00 x00 x00 x00)
(L (W x00 x00 x00 x00 x00 x00 x00 x00)) E))
(T (W x0e x00 x10 x00 x13 x00 x19 x00)
(T (W x04 x03 x03 x01 x01 x01 x01 x01)
(L (W x00 x00 x00 x0a x32 x00 x0f x0f)) E)
(T (W x00 x00 x00 x00 x00 x00 x00 x00)
(L (W x00 x00 x00 x00 x00 x00 x00 x00)) E))))
(T (W x0e x00 x10 x00 x13 x00 x19 x00)
(T (W x00 x00 xff x14 x32 x00 x0a x0a)
(T (W x01 x41 x0e x01 xb4 x00 xf0 x05)
(T (W x08 x00 x40 xb0 x00 x00 x00 x00)
(L (W x03 x00 x00 x01 x01 x01 x01 x01))
(L (W x00 x00 xff x00 x00 x00 x00 x00)))
(T (W x01 x00 x01 x00 x01 x00 x01 x00)
(L (W x00 x00 x00 x00 x00 x00 x00 x00)) E))
(T (W x00 x00 x00 x00 x00 x00 x00 x00)
(T (W x00 x00 x00 x00 x00 x00 xfd x01)
(L (W x03 x03 x00 x00 x00 x00 x00 x00)) E)
(T (W x3c x00 x55 x28 x00 x00 x00 x00)
(L (W x00 x00 x00 x00 x00 x00 x00 x00)) E)))
(T (W x3c x00 x64 x46 x00 x00 x00 x00)
(T (W x00 x00 x00 x01 x01 x01 x01 x01)
(T (W x00 x00 xae x01 xb3 x01 x00 x00)
(L (W x14 x10 x21 x00 x00 x00 x00 x00)) E)
(T (W x00 x00 xff x78 x00 x05 x0f x0f)
(L (W x00 x00 x00 x00 x00 x00 x6a x02)) E))
(T (W x04 x05 x00 x00 x00 x00 x00 x00)
(T (W x4b x56 x43 x3c x6a x43 x0b x0b)
(L (W x80 x00 x24 x02 x04 x00 x20 x80)) E)
(T (W x01 x42 x3d x00 x0a x00 x02 x00)
(L (W x0e x00 x10 x00 x13 x00 x19 x00)) E))))))))
(T (W x03 x02 x02 x01 x01 x01 x01 x01)
(T (W x3c x00 x55 x28 x00 x00 x00 x00)
(T (W x00 x00 x00 x00 x00 x00 x00 x00)
(T (W x00 x00 x7f x0a x32 x00 x05 x06)
(T (W x00 x00 x00 x00 x00 x00 x00 x00)
(T (W x00 x00 x5f x00 xc3 x00 x00 x00)
(T (W x00 x00 x00 x00 x00 x00 x00 x00)
(T (W x01 x41 x3c x00 x3c x00 xb8 x03)
(L (W x0e x00 x10 x00 x13 x00 x19 x00))
(L (W x00 x00 x37 x02 x36 x01 x00 x00)))
(T (W x21 xc0 x29 x46 x21 x2c x22 x80)
(L (W x04 x04 x04 x01 x01 x01 x01 x01)) E))
(T (W x00 x00 x7f x14 x23 x05 x08 x0b)
(T (W x00 x18 x02 x10 x04 x00 x00 x00)
(L (W x3c x00 x64 x3c x00 x00 x00 x00)) E)
(T (W x00 x00 x00 x00 x00 x00 x00 x00)
(L (W x05 x06 x00 x00 x00 x00 x00 x00)) E)))
(T (W x00 x00 x00 x00 x00 x00 x8c x00)
(T (W x01 x00 x01 x00 x01 x00 x01 x00)
(T (W x04 x04 x03 x01 x01 x01 x01 x01)
(L (W x00 x00 xff x78 x00 x05 x0f x0f))
(L (W x00 x00 x47 x02 xd6 x02 x0a x03)))
(T (W x00 x00 x5b x01 x5e x00 x00 x00)
(L (W x00 x00 x00 x00 x00 x00 x00 x00)) E))
(T (W x00 x00 x00 x00 x00 x00 x00 x00)
(T (W x01 x01 x00 x00 x00 x00 x00 x00)
(L (W x01 x43 x90 x00 x8c x00 x6e x00)) E)
(T (W x5f x41 x41 x3c x6e x82 x11 x11)
(L (W x00 x00 x00 x00 x00 x00 x00 x00)) E))))
(T (W x00 x00 x00 x00 x00 x00 x00 x00)
(T (W x01 x40 x40 x00 x3c x00 x96 x00)
(T (W x00 x34 x00 x00 x00 x00 x00 x00)
(T (W x00 x00 x00 x00 x00 x00 x00 x00)
(L (W x04 x05 x00 x00 x00 x00 x00 x00))
(L (W x12 x47 x1d x01 xe6 x00 xed x03)))
(T (W x3c x00 x64 x32 x00 x00 x00 x00)
(L (W x00 x00 x00 x00 x00 x00 x00 x00)) E))
(T (W x88 x40 x00 x00 x08 x94 x00 x00)
(T (W x01 x00 x01 x00 x01 x00 x01 x00)
(L (W x00 x00 x18 x03 x44 x00 x00 x00)) E)
(T (W x00 x00 x00 x01 x01 x01 x01 x01)
(L (W x00 x00 xff x00 x00 x00 x00 x00)) E)))
(T (W x03 x02 x04 x01 x01 x01 x01 x02)
(T (W x03 x04 x00 x00 x00 x00 x00 x00)
(T (W x44 x5a x41 x52 x32 x37 x0f x04)
(L (W x00 x20 x00 x00 x00 x00 x20 x00))
(L (W x00 x00 x00 x01 x01 x01 x01 x01)))
(T (W x01 x45 xb3 x00 x78 x00 x8b x01)
(L (W x01 x00 x01 x00 x01 x00 x01 x00)) E))
(T (W x00 x00 x88 x01 x39 x00 x00 x00)
(T (W x00 x00 x7f x14 x32 x03 x02 x02)
(L (W x00 x00 x55 x00 xcf x02 xac x00)) E)
(T (W x02 x10 x00 x40 x00 x00 x00 x00)
(L (W x00 x00 x00 x00 x00 x00 x00 x00)) E)))))
(T (W x04 x03 x03 x01 x01 x01 x01 x01)
(T (W x28 x32 x28 x5a x28 x28 x0a x0a)
(T (W x0e x00 x10 x00 x13 x00 x19 x00)
(T (W x37 x00 x55 x37 x00 x00 x00 x00)
(T (W x06 x07 x00 x00 x00 x00 x00 x00)
(L (W x01 x44 xa8 x00 x78 x00 xde x00))
(L (W x01 x00 x01 x00 x01 x00 x01 x00)))
(T (W x37 x32 x28 x4b x28 x28 x00 x00)
(L (W x00 x00 x00 x00 x00 x00 x00 x00)) E))
(T (W x04 x03 x03 x01 x01 x01 x01 x01)
(T (W x00 x00 xc4 x00 x0c x02 x00 x00)
(L (W x14 x14 x00 x10 x02 x00 x00 x00)) E)
(T (W x00 x00 x7f x00 x00 x00 x00 x00)
(L (W x00 x00 x00 x00 x00 x00 x00 x00)) E)))
(T (W x00 x00 x1f x00 x00 x00 x00 x00)
(T (W x01 x43 x3c x00 x3c x00 xd0 x02)
(T (W x00 x00 x00 x00 x00 x00 x00 x00)
(L (W x02 x00 x00 x01 x01 x01 x01 x01))
(L (W x00 x00 xfe x14 x32 x00 x06 x0b)))
(T (W x0e x00 x10 x00 x13 x00 x19 x00)
(L (W x00 x00 x00 x00 x00 x00 x00 x00)) E))
(T (W x00 x10 x02 x00 x00 x00 x00 x00)
(T (W x00 x00 x00 x00 x00 x00 x0c x02)
(L (W x02 x02 x00 x00 x00 x00 x00 x00)) E)
(T (W x3c x00 x64 x3c x00 x00 x00 x00)
(L (W x00 x00 x00 x00 x00 x00 x00 x00)) E))))
(T (W x00 xd0 x00 xc0 x02 x00 x00 x00)
(T (W x01 x06 x00 x00 x00 x00 x00 x00)
(T (W x00 x00 x88 x01 x98 x01 x00 x00)
(T (W x00 x00 x1f x00 x00 x00 x00 x00)
(L (W x00 x00 x00 x00 x00 x00 x0d x03))
(L (W x01 x01 x00 x00 x00 x00 x00 x00)))
(T (W x00 x12 x05 x00 x00 x00 x00 x00)
(L (W x3c x00 x55 x2d x00 x00 x00 x00)) E))
(T (W x00 x00 x00 x00 x00 x00 x00 x00)
(T (W x00 x00 x00 x00 x00 x00 x00 x00)
(L (W x0e x00 x10 x00 x13 x00 x19 x00)) E)
(T (W x28 x40 x00 x12 x00 x78 x10 x00)
(L (W x00 x00 x00 x01 x01 x01 x01 x01)) E)))
(T (W x5e x04 x00 x00 x30 x20 x24 x14)
(T (W x00 x00 x00 x00 x00 x00 x00 x00)
(T (W x00 x00 x00 x00 x00 x00 x00 x00)
(L (W x46 x3a x3a x5a x57 x5c x10 x10)) E)
(T (W x02 x02 x00 x00 x00 x00 x00 x00)
(L (W x02 x44 x3d x00 x32 x00 x0f x00)) E))
(T (W x0e x00 x10 x00 x13 x00 x19 x00)
(T (W x03 x03 x03 x01 x01 x01 x01 x01)
(L (W x00 x00 xff x00 x00 x00 x00 x00)) E)
(T (W x00 x00 x00 x00 x00 x00 x00 x00)
(L (W x00 x00 x00 x00 x00 x00 x00 x00)) E))))))
(T (W x00 x00 x00 x00 x00 x00 x00 x00)
(T (W x00 x00 x2d x00 xf2 x00 x00 x00)
(T (W x01 x42 x40 x00 x50 x00 xc4 x00)
(T (W x00 x00 x00 x01 x01 x01 x01 x01)
(T (W x01 x01 x00 x00 x00 x00 x00 x00)
(T (W x50 x50 x5a x6e x6e x82 x0f x0d)
(L (W x01 x40 x00 x32 x00 x00 x10 x00))
(L (W x03 x00 x00 x01 x01 x01 x01 x01)))
(T (W x01 x42 x47 x00 x32 x00 x5f x00)
(L (W x0e x00 x10 x00 x13 x00 x19 x00)) E))
(T (W x00 x00 x00 x00 x00 x00 x00 x00)
(T (W x00 x00 x7f x14 x32 x05 x05 x05)
(L (W x00 x00 x00 x00 x00 x00 x4d x03)) E)
(T (W x00 x10 x02 x00 x00 x00 x00 x00)
(L (W x00 x00 x00 x00 x00 x00 x00 x00)) E)))
(T (W x00 x10 x00 x00 x0a x00 x00 x00)
(T (W x18 x08 x80 x00 x00 x00 x00 x00)
(T (W x0e x00 x10 x00 x13 x00 x19 x00)
(L (W x00 x00 x00 x00 x00 x00 x00 x00))
(L (W x00 x30 x21 x20 x00 x00 x00 x00)))
(T (W x03 x03 x03 x01 x01 x01 x01 x02)
(L (W x00 x00 xff x14 x32 x00 x0b x0b)) E))
(T (W x00 x00 x00 x00 x00 x00 x4d x01)
(T (W x3c x00 x55 x32 x00 x00 x00 x00)
(L (W x64 x82 x64 x61 x3f x3c x01 x10)) E)
(T (W x03 x03 x00 x00 x00 x00 x00 x00)
(L (W x00 x00 x00 x00 x00 x00 x00 x00)) E))))
(T (W x00 x00 x00 x00 x00 x00 x4d x00)
(T (W x41 x32 x23 x5f x73 x5f x0e x0d)
(T (W x00 x00 x7f x00 x00 x00 x00 x00)
(T (W x1c x10 x21 x20 x00 x00 x00 x00)
(L (W x00 x00 x00 x00 x00 x00 x00 x00))
(L (W x5f x5f x5f x5f x5f x5f x0e x0e)))
(T (W x00 x00 x00 x00 x00 x00 x4c x02)
(L (W x01 x01 x00 x00 x00 x00 x00 x00)) E))
(T (W x01 x42 xa6 x00 x96 x00 x92 x01)
(T (W x00 x00 x00 x00 x00 x00 x00 x00)
(L (W x04 x04 x04 x01 x01 x01 x01 x01)) E)
(T (W x0e x00 x10 x00 x13 x00 x19 x00)
(L (W x00 x00 x00 x00 x00 x00 x00 x00)) E)))
(T (W x0e x00 x10 x00 x13 x00 x19 x00)
(T (W x3c x00 x50 x28 x00 x00 x00 x00)
(T (W x03 x04 x00 x00 x00 x00 x00 x00)
(L (W x01 x41 x80 x00 x50 x00 xa0 x00)) E)
(T (W x37 x55 x37 x3c x32 x37 x06 x09)
(L (W x00 x00 x00 x00 x00 x00 x00 x00)) E))
(T (W x03 x03 x03 x01 x01 x01 x01 x01)
(T (W x00 x00 x00 x00 x00 x00 x00 x00)
(L (W x02 x10 x02 x00 x04 x00 x00 x00)) E)
(T (W x00 x00 x1f x0f x32 x03 x02 x05)
(L (W x00 x00 x00 x00 x00 x00 x00 x00)) E)))))
(T (W x0e x00 x10 x00 x13 x00 x19 x00)
(T (W x03 x04 x00 x00 x00 x00 x00 x00)
(T (W x89 x40 x00 x42 x09 x98 x80 x41)
(T (W x00 x00 x00 x00 x00 x00 x00 x00)
(T (W x00 x00 x00 x00 x00 x00 x00 x00)
(L (W x33 x34 x5a x64 x52 x6e x11 x11))
(L (W x13 xc4 x00 x10 x60 x04 x20 x00)))
(T (W x05 x05 x00 x00 x00 x00 x00 x00)
(L (W x00 x00 x00 x00 x00 x00 x00 x00)) E))
(T (W x0e x00 x10 x00 x13 x00 x19 x00)
(T (W x03 x00 x00 x01 x01 x01 x01 x01)
(L (W x00 x00 xfe x14 x32 x05 x06 x06)) E)
(T (W x00 x00 x00 x00 x00 x00 x00 x00)
(L (W x00 x00 x00 x00 x00 x00 x00 x00)) E)))
(T (W x00 x00 x00 x00 x00 x00 x00 x00)
(T (W x28 x2d x23 x46 x41 x37 x0b x0b)
(T (W x01 x45 x3a x00 x32 x00 x96 x00)
(L (W x0e x00 x10 x00 x13 x00 x19 x00))
(L (W x00 x00 xc4 x00 x3d x02 x00 x00)))
(T (W x20 x40 x00 x16 x00 x34 x02 x00)
(L (W x00 x00 x00 x01 x01 x01 x01 x01)) E))
(T (W x00 x00 x1f x1e x32 x01 x09 x09)
(T (W x40 x90 x80 x02 x04 x00 x00 x00)
(L (W x3c x00 x55 x14 x00 x00 x00 x00)) E)
(T (W x00 x00 x00 x00 x00 x00 xcd x02)
(L (W x01 x01 x00 x00 x00 x00 x00 x00)) E))))
(T (W x00 x00 x7f x00 x00 x00 x00 x00)
(T (W x32 x00 x50 x28 x00 x00 x00 x00)
(T (W x00 x00 x00 x01 x01 x01 x01 x01)
(T (W x00 x00 x00 x00 x00 x00 x00 x00)
(L (W x00 x10 x20 x41 x03 x00 x00 x00))
(L (W x00 x00 x00 x00 x00 x00 x00 x00)))
(T (W x00 x00 xff x14 x32 x03 x0a x0a)
(L (W x00 x00 x00 x00 x00 x00 x00 x00)) E))
(T (W x03 x04 x00 x00 x00 x00 x00 x00)
(T (W x55 x6e x5a x50 x2d x5a x00 x00)
(L (W x20 x80 x00 x40 x08 x08 x41 x40)) E)
(T (W x01 x42 x3a x00 x32 x00 x3c x00)
(L (W x01 x00 x01 x00 x01 x00 x01 x00)) E)))
(T (W x01 x43 xf5 x00 x28 x00 x3a x00)
(T (W x00 x98 x20 xc1 x02 x00 x00 x00)
(T (W x00 x00 x00 x00 x00 x00 xd7 x00)
(L (W x03 x03 x00 x00 x00 x00 x00 x00)) E)
(T (W x3c x00 x55 x37 x00 x00 x00 x00)
(L (W x00 x00 x00 x00 x00 x00 x00 x00)) E))
(T (W x00 x00 x00 x00 x00 x00 x00 x00)
(T (W x0e x00 x10 x00 x13 x00 x19 x00)
(L (W x00 x00 x00 x00 x00 x00 x00 x00)) E)
(T (W x00 x00 x00 x01 x01 x01 x01 x01)
(L (W x00 x00 xff x00 x00 x00 x00 x00)) E)))))))
(T (W x0e x00 x10 x00 x13 x00 x19 x00)
(T (W x00 x00 x00 x00 x00 x00 x00 x00)
(T (W x4b x64 x6e x41 x2d x37 x04 x04)
(T (W x02 x10 x02 x00 x04 x00 x00 x00)
(T (W x01 x01 x00 x00 x00 x00 x00 x00)
(T (W x00 x00 x00 x00 x00 x00 x00 x00)
(T (W x00 x00 xff x50 x23 x05 x0f x0f)
(L (W x00 x00 x00 x00 x00 x00 xed x02))
(L (W x05 x05 x00 x00 x00 x00 x00 x00)))
(T (W xc2 x30 x40 x00 x00 x00 x00 x00)
(L (W x00 x00 x00 x00 x00 x00 x00 x00)) E))
(T (W x00 x00 x00 x00 x00 x00 x00 x00)
(T (W x01 x43 xb8 x00 x64 x00 xff x00)
(L (W x0e x00 x10 x00 x13 x00 x19 x00)) E)
(T (W x00 x00 x00 x00 x00 x00 x00 x00)
(L (W x00 x00 x00 x01 x01 x01 x01 x01)) E)))
(T (W x00 x00 x00 x00 x04 x00 x00 x02)
(T (W x00 x00 x00 x00 x00 x00 xec x00)
(T (W x3c x00 x50 x2d x00 x00 x00 x00)
(L (W x53 x59 x47 x53 xad x47 x0c x0c))
(L (W x42 x40 x12 x01 x63 x24 x05 x10)))
(T (W x03 x04 x00 x00 x00 x00 x00 x00)
(L (W x02 x49 x9e x00 x32 x00 x5d x00)) E))
(T (W x0e x00 x10 x00 x13 x00 x19 x00)
(T (W x00 x00 x00 x01 x01 x01 x01 x01)
(L (W x00 x00 xff x78 x00 x05 x0f x0f)) E)
(T (W x00 x00 x3a x02 xb3 x01 x00 x00)
(L (W x00 x00 x00 x00 x00 x00 x00 x00)) E))))
(T (W x01 x00 x01 x00 x01 x00 x01 x00)
(T (W x00 x00 xff x14 x32 x05 x09 x09)
(T (W x01 x41 xaf x00 x96 x00 x1c x02)
(T (W x00 x00 x00 x00 x00 x00 x00 x00)
(L (W x04 x04 x04 x01 x01 x01 x01 x01))
(L (W x00 x00 xff x78 x00 x05 x0f x0f)))
(T (W x01 x00 x01 x00 x01 x00 x01 x00)
(L (W x00 x00 x00 x00 x00 x00 x00 x00)) E))
(T (W x00 x00 x00 x00 x00 x00 x00 x00)
(T (W x00 x00 x00 x00 x00 x00 x00 x00)
(L (W x04 x05 x00 x00 x00 x00 x00 x00)) E)
(T (W x3c x00 x50 x32 x00 x00 x00 x00)
(L (W x00 x00 x00 x00 x00 x00 x00 x00)) E)))
(T (W x00 x00 x00 x00 x00 x00 x00 x00)
(T (W x03 x03 x03 x01 x01 x01 x01 x01)
(T (W x00 x00 x85 x00 x22 x00 x00 x00)
(L (W x00 x10 x10 x00 x02 x00 x00 x00))
(L (W x00 x00 x00 x00 x00 x00 x00 x00)))
(T (W x00 x00 x7f x28 x23 x05 x0e x0e)
(L (W x00 x00 x00 x00 x00 x00 x00 x00)) E))
(T (W x01 x01 x00 x00 x00 x00 x00 x00)
(T (W x00 x00 x00 x00 x00 x00 x00 x00)
(L (W x00 x40 x10 x12 x01 x14 xa0 x80)) E)
(T (W x01 x40 x93 x00 x46 x00 xfa x00)
(L (W x01 x00 x01 x00 x01 x00 x01 x00)) E)))))
(T (W x3c x00 x64 x46 x00 x00 x00 x00)
(T (W x00 x00 xf0 x00 xdf x00 x00 x00)
(T (W x00 x00 x00 x00 x00 x00 x6d x00)
(T (W x0e x00 x10 x00 x13 x00 x19 x00)
(T (W x00 x00 x00 x01 x01 x01 x01 x01)
(L (W x00 x00 xfe x14 x32 x03 x07 x07))
(L (W x00 x00 xbc x01 xd7 x02 xe8 x02)))
(T (W x00 x00 xcc x00 xcc x00 x00 x00)
(L (W x00 x00 x00 x00 x00 x00 x00 x00)) E))
(T (W x3c x00 x64 x46 x00 x00 x00 x00)
(T (W x02 x02 x00 x00 x00 x00 x00 x00)
(L (W x02 x46 x3e x00 x0a x00 x02 x00)) E)
(T (W x00 x00 x00 x00 x00 x00 x00 x00)
(L (W x00 x00 x00 x00 x00 x00 x00 x00)) E)))
(T (W x00 x00 x00 x00 x00 x00 x00 x00)
(T (W x00 x00 xff x78 x00 x05 x0f x0f)
(T (W x02 x34 x30 x00 x00 x00 x00 x00)
(L (W x3c x00 x64 x3c x00 x00 x00 x00))
(L (W x41 x3c x4b x40 x6e x79 x11 x11)))
(T (W x00 x00 x00 x00 x00 x00 x6d x02)
(L (W x01 x01 x00 x00 x00 x00 x00 x00)) E))
(T (W x01 x40 xa4 x00 x6e x00 x48 x01)
(T (W x7e x01 x12 x00 x32 x00 x0c x08)
(L (W x00 x00 x00 x01 x01 x01 x01 x01)) E)
(T (W x0e x00 x10 x00 x13 x00 x19 x00)
(L (W x00 x00 x00 x00 x00 x00 x00 x00)) E))))
(T (W x00 x00 x00 x00 x00 x00 x00 x00)
(T (W x03 x03 x02 x01 x01 x01 x01 x01)
(T (W x06 x06 x00 x00 x00 x00 x00 x00)
(T (W x00 x00 x00 x00 x00 x00 x00 x00)
(L (W xa8 xc4 x29 x53 x41 x14 x20 x00))
(L (W x00 x00 x00 x01 x01 x01 x01 x01)))
(T (W x01 x47 xab x00 x64 x00 x4c x04)
(L (W x01 x00 x01 x00 x01 x00 x01 x00)) E))
(T (W x00 x00 x74 x00 xf2 x00 x00 x00)
(T (W x00 x00 x7f x00 x00 x00 x00 x00)
(L (W x00 x00 x00 x00 x00 x00 x6d x03)) E)
(T (W x00 x14 x00 x00 x00 x00 x00 x00)
(L (W x00 x00 x00 x00 x00 x00 x00 x00)) E)))
(T (W x00 x00 x00 x00 x00 x00 x00 x00)
(T (W x08 x24 x00 x08 xa3 x20 x10 x00)
(T (W x0e x00 x10 x00 x13 x00 x19 x00)
(L (W x00 x00 xb2 x00 x18 x02 x00 x00)) E)
(T (W x03 x02 x01 x01 x01 x01 x01 x01)
(L (W x00 x00 xff x00 x00 x00 x00 x00)) E))
(T (W x00 x00 x00 x00 x00 x00 x6b x01)
(T (W x37 x00 x55 x2d x00 x00 x00 x00)
(L (W x41 x64 x46 x69 x50 x50 x0d x11)) E)
(T (W x06 x06 x00 x00 x00 x00 x00 x00)
(L (W x00 x00 x00 x00 x00 x00 x00 x00)) E))))))
(T (W x00 x00 x00 x00 x00 x00 x00 x00)
(T (W x03 x04 x00 x00 x00 x00 x00 x00)
(T (W x00 x00 x7f x00 x00 x00 x00 x00)
(T (W x32 x00 x50 x32 x00 x00 x00 x00)
(T (W x02 x02 x02 x01 x01 x01 x01 x01)
(T (W x00 x00 x00 x00 x00 x00 x00 x00)
(L (W x80 x11 x80 x00 x00 x00 x00 x00))
(L (W x00 x00 x00 x00 x00 x00 x00 x00)))
(T (W x00 x00 x7f x14 x32 x00 x0a x0a)
(L (W x00 x00 x00 x00 x00 x00 x00 x00)) E))
(T (W x01 x01 x00 x00 x00 x00 x00 x00)
(T (W x00 x00 x00 x00 x00 x00 x00 x00)
(L (W x00 x00 x00 x00 x00 x00 x00 x00)) E)
(T (W x01 x40 x86 x00 x46 x00 xa0 x00)
(L (W x01 x00 x01 x00 x01 x00 x01 x00)) E)))
(T (W x01 x46 x54 x01 xc8 x00 xc4 x04)
(T (W x04 x10 x23 x24 x00 x00 x00 x00)
(T (W x00 x00 x00 x00 x00 x00 x00 x00)
(L (W x02 x02 x00 x00 x00 x00 x00 x00))
(L (W x09 x49 xad x00 x1e x00 x05 x00)))
(T (W x37 x00 x55 x37 x00 x00 x00 x00)
(L (W x32 x41 x6b x56 x69 x6b x0c x02)) E))
(T (W x00 x00 x00 x00 x00 x00 x00 x00)
(T (W x01 x00 x01 x00 x01 x00 x01 x00)
(L (W x00 x00 x00 x00 x00 x00 x00 x00)) E)
(T (W x04 x04 x03 x01 x01 x01 x01 x01)
(L (W x00 x00 xff x00 x00 x00 x00 x00)) E))))
(T (W x46 x61 x02 x00 x31 x20 x16 x00)
(T (W x00 x00 x07 x00 xb4 x01 x00 x00)
(T (W x32 x32 x28 x32 x1e x1e x0e x04)
(T (W x01 x43 x38 x00 x14 x00 x0c x00)
(L (W x0e x00 x10 x00 x13 x00 x19 x00))
(L (W x00 x00 x32 x01 xce x02 x00 x00)))
(T (W x62 x00 x00 x04 x02 x40 x10 x10)
(L (W x00 x00 x00 x01 x01 x01 x01 x01)) E))
(T (W x00 x00 x00 x00 x00 x00 x00 x00)
(T (W x00 x00 x00 x00 x00 x00 x00 x00)
(L (W x3c x00 x5a x32 x00 x00 x00 x00)) E)
(T (W x00 x00 x00 x00 x00 x00 xac x02)
(L (W x01 x01 x00 x00 x00 x00 x00 x00)) E)))
(T (W x00 x00 x00 x00 x00 x00 xad x00)
(T (W x01 x00 x01 x00 x01 x00 x01 x00)
(T (W x03 x02 x04 x01 x01 x01 x01 x02)
(L (W x00 x00 x7f x0f x32 x00 x03 x03)) E)
(T (W x00 x00 x0e x00 x70 x01 x00 x00)
(L (W x10 x10 x02 x10 x00 x00 x00 x00)) E))
(T (W x37 x00 x55 x2d x00 x00 x00 x00)
(T (W x03 x03 x00 x00 x00 x00 x00 x00)
(L (W x03 x45 x3a x00 x28 x00 x4b x00)) E)
(T (W x00 x00 x00 x00 x00 x00 x00 x00)
(L (W x00 x00 x00 x00 x00 x00 x00 x00)) E)))))
(T (W x00 x00 x00 x00 x00 x00 x2b x00)
(T (W x05 x05 x04 x01 x01 x02 x02 x02)
(T (W x03 x90 x02 x00 x00 x00 x00 x00)
(T (W x21 x40 x18 x44 x48 x9c x80 x40)
(T (W x01 x00 x01 x00 x01 x00 x01 x00)
(L (W x00 x00 x53 x01 x74 x00 x00 x00))
(L (W x1e x10 x20 x80 x00 x00 x00 x00)))
(T (W x00 x00 x00 x01 x01 x01 x01 x01)
(L (W x00 x00 xff x00 x00 x00 x00 x00)) E))
(T (W x00 x00 x00 x00 x00 x00 x00 x00)
(T (W x00 x00 x00 x00 x00 x00 x00 x00)
(L (W x41 x3c x2d x46 x4b x37 x10 x11)) E)
(T (W x01 x01 x00 x00 x00 x00 x00 x00)
(L (W x00 x00 x00 x00 x00 x00 x00 x00)) E)))
(T (W x01 x01 x00 x00 x00 x00 x00 x00)
(T (W x00 x00 x68 x00 xca x00 x00 x00)
(T (W x00 x00 x7f x00 x00 x00 x00 x00)
(L (W x00 x00 x00 x00 x00 x00 x2d x03))
(L (W x02 x02 x00 x00 x00 x00 x00 x00)))
(T (W x02 x90 x00 x80 x00 x00 x00 x00)
(L (W x00 x00 x00 x00 x00 x00 x00 x00)) E))
(T (W x4b x7d x64 x2d x46 x50 x05 x06)
(T (W x01 x45 xfd x00 x8c x00 x66 x03)
(L (W x0e x00 x10 x00 x13 x00 x19 x00)) E)
(T (W x00 x00 x00 x00 x00 x00 x00 x00)
(L (W x00 x00 x00 x01 x01 x01 x01 x01)) E))))
(T (W x1e x23 x1e x50 x64 x23 x07 x03)
(T (W x0e x00 x10 x00 x13 x00 x19 x00)
(T (W x00 x00 x00 x00 x00 x00 x00 x00)
(T (W x01 x01 x00 x00 x00 x00 x00 x00)
(L (W x01 x41 x8c x00 x0a x00 x0f x27))
(L (W x01 x00 x01 x00 x01 x00 x01 x00)))
(T (W x00 x00 x00 x00 x00 x00 x00 x00)
(L (W x00 x00 x00 x00 x00 x00 x00 x00)) E))
(T (W x03 x03 x03 x01 x01 x01 x01 x01)
(T (W x00 x00 xd4 x01 x90 x01 x00 x00)
(L (W x09 x10 x00 x00 x00 x00 x00 x00)) E)
(T (W x00 x00 x1f x1e x32 x00 x01 x0e)
(L (W x00 x00 x00 x00 x00 x00 x00 x00)) E)))
(T (W x00 x00 x7f x14 x32 x00 x0a x0a)
(T (W x01 x48 x36 x00 x3c x00 x5f x00)
(T (W x89 x40 x00 x42 x49 x9c x80 x41)
(L (W x03 x03 x03 x01 x01 x01 x01 x01)) E)
(T (W x01 x00 x01 x00 x01 x00 x01 x00)
(L (W x00 x00 x00 x00 x00 x00 x00 x00)) E))
(T (W x12 x10 x00 x00 x00 x00 x00 x00)
(T (W x00 x00 x00 x00 x00 x00 x2d x02)
(L (W x01 x01 x00 x00 x00 x00 x00 x00)) E)
(T (W x3c x00 x55 x2d x00 x00 x00 x00)
(L (W x2c x42 x46 x38 x2c x37 x07 x0b)) E)))))))))
(T (W x0e x00 x10 x00 x13 x00 x19 x00)
(T (W x27 x34 x2b x41 x3c x32 x09 x09)
(T (W x00 x00 x05 x01 x05 x02 x00 x00)
(T (W x03 x02 x02 x01 x01 x01 x01 x01)
(T (W x00 x00 x00 x00 x00 x00 x00 x00)
(T (W x00 x00 x00 x00 x00 x00 x00 x00)
(T (W x01 x46 xfa x00 x96 x00 x95 x01)
(T (W x00 x00 x00 x00 x00 x00 x00 x00)
(T (W x00 x00 x00 x00 x00 x00 x73 x01)
(L (W x03 x04 x00 x00 x00 x00 x00 x00))
(L (W x04 x45 x43 x00 x50 x00 x96 x00)))
(T (W x3c x00 x64 x32 x00 x00 x00 x00)
(L (W x3c x50 x6e x2d x32 x50 x09 x07)) E))
(T (W x66 x05 x02 x00 x20 x20 x0c x10)
(T (W x0e x00 x10 x00 x13 x00 x19 x00)
(L (W x00 x00 xe8 x01 x5e x01 x00 x00)) E)
(T (W x00 x00 x00 x01 x01 x01 x01 x01)
(L (W x00 x00 xff x78 x00 x05 x0f x0f)) E)))
(T (W x04 x04 x04 x01 x01 x01 x01 x01)
(T (W x03 x04 x00 x00 x00 x00 x00 x00)
(T (W x2d x23 x2d x23 x3e x35 x0b x0b)
(L (W x56 x10 x02 x00 x01 x00 x20 x10))
(L (W x00 x00 x00 x01 x01 x01 x01 x01)))
(T (W x01 x45 xaa x00 x64 x00 x59 x01)
(L (W x01 x00 x01 x00 x01 x00 x01 x00)) E))
(T (W x00 x00 x00 x00 x00 x00 x00 x00)
(T (W x00 x00 x1f x00 x00 x00 x00 x00)
(L (W x00 x00 x00 x00 x00 x00 x75 x03)) E)
(T (W x01 x10 x02 x00 x00 x00 x00 x00)
(L (W x00 x00 x00 x00 x00 x00 x00 x00)) E))))
(T (W x00 x00 x00 x00 x00 x00 x00 x00)
(T (W x00 x00 x00 x00 x00 x00 x74 x00)
(T (W x01 x00 x01 x00 x01 x00 x01 x00)
(T (W x00 x00 x00 x01 x01 x01 x01 x01)
(L (W x00 x00 x7f x0f x32 x00 x0b x0b))
(L (W x00 x00 x00 x00 x00 x00 x04 x03)))
(T (W x00 x00 xc4 x00 xa3 x01 x00 x00)
(L (W x00 x00 x00 x00 x00 x00 x00 x00)) E))
(T (W x3c x00 x55 x28 x00 x00 x00 x00)
(T (W x01 x01 x00 x00 x00 x00 x00 x00)
(L (W x01 x47 x04 x01 xa0 x00 xcc x01)) E)
(T (W x00 x00 x00 x00 x00 x00 x00 x00)
(L (W x00 x00 x00 x00 x00 x00 x00 x00)) E)))
(T (W x64 x32 x32 x46 x56 x60 x00 x02)
(T (W x00 x00 x1f x14 x32 x03 x05 x05)
(T (W x02 x10 x02 x00 x00 x00 x00 x00)
(L (W x3c x00 x55 x32 x00 x00 x00 x00))
(L (W x64 x82 x64 x61 x3f x3c x01 x0a)))
(T (W x00 x00 x00 x00 x00 x00 x75 x02)
(L (W x01 x01 x00 x00 x00 x00 x00 x00)) E))
(T (W x01 x49 xbd x00 x6c x02 x54 x06)
(T (W x08 x24 x00 x00 x08 x51 x10 x08)
(L (W x00 x00 x00 x01 x01 x01 x01 x01)) E)
(T (W x0e x00 x10 x00 x13 x00 x19 x00)
(L (W x00 x00 x00 x00 x00 x00 x00 x00)) E)))))
(T (W x5f x46 x49 x3c x5f x5a x11 x11)
(T (W x14 x90 x22 x00 x00 x00 x00 x00)
(T (W x04 x05 x00 x00 x00 x00 x00 x00)
(T (W x00 x00 x00 x00 x00 x00 x00 x00)
(T (W x00 x00 xff x78 x64 x05 x0f x0f)
(L (W x00 x00 x00 x00 x00 x00 xf5 x02))
(L (W x01 x01 x00 x00 x00 x00 x00 x00)))
(T (W x02 xb8 x20 x00 x00 x00 x00 x00)
(L (W x00 x00 x00 x00 x00 x00 x00 x00)) E))
(T (W x01 x5a x2d x28 x1e x1e x06 x07)
(T (W x01 x48 xa8 x00 x82 x00 x0a x01)
(L (W x0e x00 x10 x00 x13 x00 x19 x00)) E)
(T (W x00 x00 x00 x00 x00 x00 x00 x00)
(L (W x00 x00 x00 x01 x01 x01 x01 x01)) E)))
(T (W x00 x00 x00 x00 x00 x00 x00 x00)
(T (W x00 x00 x00 x00 x00 x00 xf5 x00)
(T (W x00 x00 x00 x00 x00 x00 x00 x00)
(L (W x49 x49 x49 x79 x7f x49 x03 x0f))
(L (W x00 x00 x02 x00 x02 x00 x04 x14)))
(T (W x02 x03 x00 x00 x00 x00 x00 x00)
(L (W x02 x44 x54 x01 xb2 x02 x64 x19)) E))
(T (W x0e x00 x10 x00 x13 x00 x19 x00)
(T (W x04 x04 x03 x01 x01 x01 x01 x01)
(L (W x00 x00 xff x78 x23 x05 x0f x0f)) E)
(T (W x00 x00 x37 x02 x36 x01 x00 x00)
(L (W x00 x00 x00 x00 x00 x00 x00 x00)) E))))
(T (W x0e x00 x10 x00 x13 x00 x19 x00)
(T (W x00 x00 x7f x05 x32 x05 x0c x0e)
(T (W x02 x49 x90 x00 x3c x00 x32 x00)
(T (W x00 x00 x00 x00 x00 x00 x00 x00)
(L (W x03 x02 x02 x01 x01 x01 x01 x01))
(L (W x00 x00 xff x00 x00 x00 x00 x00)))
(T (W x01 x00 x01 x00 x01 x00 x01 x00)
(L (W x00 x00 xb4 x00 xfa x01 x00 x00)) E))
(T (W x00 x14 x00 x00 x00 x00 x00 x00)
(T (W x00 x00 x00 x00 x00 x00 x00 x00)
(L (W x05 x05 x00 x00 x00 x00 x00 x00)) E)
(T (W x3c x00 x55 x3c x00 x00 x00 x00)
(L (W x00 x00 x00 x00 x00 x00 x00 x00)) E)))
(T (W x3c x00 x64 x32 x00 x00 x00 x00)
(T (W x00 x00 x00 x01 x01 x01 x01 x01)
(T (W x00 x00 x5c x00 xda x01 x00 x00)
(L (W x00 x10 x30 x00 x00 x00 x00 x00)) E)
(T (W x00 x00 x00 x78 x5a x05 x0f x0f)
(L (W x00 x00 x00 x00 x00 x00 x2a x02)) E))
(T (W x03 x03 x00 x00 x00 x00 x00 x00)
(T (W x2d x23 x32 x1e x46 x32 x0b x0b)
(L (W x00 x00 x00 x00 x00 x00 x00 x00)) E)
(T (W x00 x00 x00 x00 x00 x00 x00 x00)
(L (W x01 x00 x01 x00 x01 x00 x01 x00)) E))))))
(T (W x01 x00 x01 x00 x01 x00 x01 x00)
(T (W x01 x41 x80 x00 x50 x00 xc8 x00)
(T (W x00 x00 x00 x00 x00 x00 x34 x00)
(T (W x00 x00 x00 x00 x00 x00 x00 x00)
(T (W x00 x00 x7f x00 x00 x00 x00 x00)
(T (W x02 x10 x02 x00 x04 x00 x00 x00)
(L (W x3c x00 x55 x32 x00 x00 x00 x00))
(L (W x36 x64 x47 x73 x3d x55 x0f x04)))
(T (W x00 x00 x00 x00 x00 x00 x34 x02)
(L (W x02 x02 x00 x00 x00 x00 x00 x00)) E))
(T (W x00 x00 x00 x00 x00 x00 x00 x00)
(T (W x00 x00 x00 x00 x00 x00 x00 x00)
(L (W x03 x03 x02 x01 x01 x01 x01 x01)) E)
(T (W x01 x00 x01 x00 x01 x00 x01 x00)
(L (W x00 x00 x00 x00 x00 x00 x00 x00)) E)))
(T (W x0a x00 x0a x00 x13 x00 x0a x00)
(T (W x28 x00 x46 x28 x00 x00 x00 x00)
(T (W x03 x04 x00 x00 x00 x00 x00 x00)
(L (W x01 x48 x1d x01 x1e x00 x01 x00))
(L (W x0e x00 x10 x00 x13 x00 x19 x00)))
(T (W x4c x93 x5a x61 x3c x46 x0f x0f)
(L (W x00 x20 x00 x00 x08 x48 x10 x00)) E))
(T (W x00 x00 x00 x01 x01 x01 x01 x01)
(T (W x00 x00 x19 x01 x5e x00 x00 x00)
(L (W x00 xd8 x00 x00 x00 x00 x00 x00)) E)
(T (W x00 x00 x7f x28 x23 x05 x0e x0e)
(L (W x00 x00 x00 x00 x00 x00 x00 x00)) E))))
(T (W x00 x00 x00 x01 x01 x01 x01 x01)
(T (W x20 x52 x00 xc0 x02 x00 x00 x00)
(T (W x00 x00 x00 x00 x00 x00 x00 x00)
(T (W x01 x00 x01 x00 x01 x00 x01 x00)
(L (W x00 x00 x00 x00 x00 x00 x00 x00))
(L (W x1e x10 x20 x80 x00 x00 x00 x00)))
(T (W x04 x04 x04 x01 x01 x01 x01 x01)
(L (W x00 x00 xff x00 x00 x00 x00 x00)) E))
(T (W x00 x00 x00 x00 x00 x00 x35 x01)
(T (W x00 x00 x00 x00 x00 x00 x00 x00)
(L (W x2d x28 x28 x22 x32 x3d x11 x11)) E)
(T (W x03 x03 x00 x00 x00 x00 x00 x00)
(L (W x00 x00 x00 x00 x00 x00 x00 x00)) E)))
(T (W x03 x03 x00 x00 x00 x00 x00 x00)
(T (W x00 x00 x00 x00 x00 x00 x00 x00)
(T (W x00 x00 x7f x1e x32 x05 x05 x05)
(L (W x00 x00 x00 x00 x00 x00 x35 x03)) E)
(T (W x1c x50 x22 x00 x0a x00 x00 x00)
(L (W x00 x00 x00 x00 x00 x00 x00 x00)) E))
(T (W x28 x46 x82 x19 x3c x82 x07 x07)
(T (W x00 x00 x00 x00 x00 x00 x00 x00)
(L (W x0e x00 x10 x00 x13 x00 x19 x00)) E)
(T (W x08 x04 x00 x00 x00 x00 x30 x04)
(L (W x00 x00 x00 x01 x01 x01 x01 x01)) E)))))
(T (W x03 x03 x00 x00 x00 x00 x00 x00)
(T (W x00 x00 x3f x14 x32 x03 x08 x08)
(T (W x3c x00 x46 x14 x00 x00 x00 x00)
(T (W x00 x00 x00 x01 x01 x01 x01 x01)
(T (W x00 x00 x00 x00 x00 x00 x00 x00)
(L (W x00 x58 x80 x00 x00 x00 x00 x00))
(L (W x3c x00 x50 x32 x00 x00 x00 x00)))
(T (W x00 x00 x7f x14 x32 x03 x0b x0b)
(L (W x00 x00 x00 x00 x00 x00 x00 x00)) E))
(T (W x01 x01 x00 x00 x00 x00 x00 x00)
(T (W x5a x78 x64 x64 x96 x78 x0a x0f)
(L (W x00 x01 x02 x04 x00 x00 x04 x14)) E)
(T (W x00 x00 x00 x00 x00 x00 x00 x00)
(L (W x01 x00 x01 x00 x01 x00 x01 x00)) E)))
(T (W x00 x00 x00 x00 x00 x00 x00 x00)
(T (W xe0 x11 x00 x09 x00 x00 x00 x00)
(T (W x00 x00 x00 x00 x00 x00 xb4 x01)
(L (W x06 x06 x00 x00 x00 x00 x00 x00))
(L (W x02 x41 xa5 x00 x8c x00 x7a x03)))
(T (W x3c x00 x5a x32 x00 x00 x00 x00)
(L (W x00 x00 x00 x00 x00 x00 x00 x00)) E))
(T (W x46 x51 x12 x00 x38 x38 x8c x10)
(T (W x0e x00 x10 x00 x13 x00 x19 x00)
(L (W x00 x00 x68 x00 x58 x01 x00 x00)) E)
(T (W x03 x00 x00 x01 x01 x01 x01 x01)
(L (W x00 x00 xff x00 x00 x00 x00 x00)) E))))
(T (W x00 x00 x00 x00 x00 x00 x00 x00)
(T (W x00 x00 x88 x01 x4a x01 x00 x00)
(T (W x00 x00 x00 x00 x00 x00 x00 x00)
(T (W x00 x00 x00 x00 x00 x00 x00 x00)
(L (W x0a x00 x0a x00 x13 x00 x0a x00))
(L (W x00 x00 x00 x00 x00 x00 x00 x00)))
(T (W x08 x40 x00 x80 x40 x00 x48 x00)
(L (W x00 x00 x00 x01 x01 x01 x01 x01)) E))
(T (W x00 x00 x7f x28 x32 x02 x05 x0c)
(T (W x1c x90 x20 x00 x00 x00 x00 x00)
(L (W x3c x00 x55 x32 x00 x00 x00 x00)) E)
(T (W x00 x00 x00 x00 x00 x00 xb4 x02)
(L (W x01 x01 x00 x00 x00 x00 x00 x00)) E)))
(T (W x00 x00 x00 x00 x00 x00 x00 x00)
(T (W x0e x00 x10 x00 x13 x00 x19 x00)
(T (W x03 x03 x03 x01 x01 x01 x01 x01)
(L (W x00 x00 x7f x14 x32 x00 x01 x02)) E)
(T (W x00 x00 x25 x02 x49 x01 x00 x00)
(L (W x00 x00 x00 x00 x00 x00 x00 x00)) E))
(T (W x00 x00 x00 x00 x00 x00 x00 x00)
(T (W x03 x04 x00 x00 x00 x00 x00 x00)
(L (W x00 x00 x00 x00 x00 x00 x00 x00)) E)
(T (W x00 x00 x00 x00 x00 x00 x00 x00)
(L (W x00 x00 x00 x00 x00 x00 x00 x00)) E)))))))
(T (W x05 x05 x00 x00 x00 x00 x00 x00)
(T (W x00 x00 x00 x00 x00 x00 x00 x00)
(T (W x02 x10 x02 x00 x04 x00 x00 x00)
(T (W x0e x00 x10 x00 x13 x00 x19 x00)
(T (W x00 x00 x7f x00 x00 x00 x00 x00)
(T (W x00 x00 x00 x00 x00 x00 x00 x00)
(T (W x42 x50 x10 x00 x60 x34 x08 x00)
(L (W x03 x03 x03 x01 x01 x01 x01 x01))
(L (W x00 x00 x7f x14 x32 x00 x0b x0b)))
(T (W x0e x00 x10 x00 x13 x00 x19 x00)
(L (W x00 x00 xdb x00 x3d x02 x00 x00)) E))
(T (W x00 x00 x00 x00 x00 x00 x00 x00)
(T (W x00 x00 x00 x00 x00 x00 x00 x00)
(L (W x03 x04 x00 x00 x00 x00 x00 x00)) E)
(T (W x00 x00 x00 x00 x00 x00 x00 x00)
(L (W x00 x00 x00 x00 x00 x00 x00 x00)) E)))
(T (W x3c x00 x50 x28 x00 x00 x00 x00)
(T (W x03 x02 x01 x01 x01 x01 x01 x01)
(T (W x00 x00 xfa x00 x4a x01 x00 x00)
(L (W x00 x18 x04 x40 x00 x00 x00 x00))
(L (W x3c x00 x64 x3c x00 x00 x00 x00)))
(T (W x00 x00 x7f x14 x32 x03 x0b x0b)
(L (W x00 x00 x00 x00 x00 x00 x00 x00)) E))
(T (W x03 x03 x00 x00 x00 x00 x00 x00)
(T (W x00 x00 x00 x00 x00 x00 x00 x00)
(L (W x01 x04 x20 x00 x01 x04 x60 x04)) E)
(T (W x01 x42 x97 x00 x14 x00 x16 x00)
(L (W x01 x00 x01 x00 x01 x00 x01 x00)) E))))
(T (W x04 x05 x00 x00 x00 x00 x00 x00)
(T (W x00 x10 x10 x80 x40 x00 x10 x10)
(T (W x00 x00 x00 x00 x00 x00 xd5 x00)
(T (W x00 x00 x00 x00 x00 x00 x00 x00)
(L (W x5f x5f x5f x3b x5f x5f x00 x00))
(L (W x13 xc4 x00 x10 x60 x04 x20 x00)))
(T (W x01 x01 x00 x00 x00 x00 x00 x00)
(L (W x00 x00 x00 x00 x00 x00 x00 x00)) E))
(T (W x0e x00 x10 x00 x13 x00 x19 x00)
(T (W x00 x00 x00 x01 x01 x01 x01 x01)
(L (W x00 x00 x7f x14 x32 x00 x04 x05)) E)
(T (W x00 x00 x73 x00 xd9 x01 x00 x00)
(L (W x00 x00 x00 x00 x00 x00 x00 x00)) E)))
(T (W x00 x00 x00 x00 x00 x00 x00 x00)
(T (W x64 x6e x5a x3c x55 x5a x0a x04)
(T (W x01 x44 x4e x00 x3c x00 x1a x04)
(L (W x0e x00 x10 x00 x13 x00 x19 x00))
(L (W x00 x00 x00 x00 x00 x00 x00 x00)))
(T (W x81 x40 x00 x10 x42 x0c x00 x00)
(L (W x00 x00 x00 x01 x01 x01 x01 x01)) E))
(T (W x00 x00 x7f x00 x00 x00 x00 x00)
(T (W x00 x98 x02 x00 x00 x00 x00 x00)
(L (W x3c x00 x5f x37 x00 x00 x00 x00)) E)
(T (W x00 x00 x00 x00 x00 x00 xd5 x02)
(L (W x01 x01 x00 x00 x00 x00 x00 x00)) E)))))
(T (W x00 x00 x32 x00 x7e x00 x00 x00)
(T (W x01 x41 xff x00 x82 x00 x1c x02)
(T (W x05 x05 x05 x01 x01 x01 x01 x01)
(T (W x01 x01 x00 x00 x00 x00 x00 x00)
(T (W x00 x00 x00 x00 x00 x00 x00 x00)
(L (W xa0 x80 x21 x00 x21 x04 x20 x60))
(L (W x03 x03 x03 x01 x01 x01 x01 x01)))
(T (W x01 x46 x3a x00 x28 x00 x3a x00)
(L (W x01 x00 x01 x00 x01 x00 x01 x00)) E))
(T (W x00 x00 x30 x01 x4a x02 x00 x00)
(T (W x00 x00 xff x50 x8c x05 x0f x0f)
(L (W x00 x00 x00 x00 x00 x00 x54 x03)) E)
(T (W x00 x00 x00 x00 x00 x00 x00 x00)
(L (W x00 x00 x00 x00 x00 x00 x00 x00)) E)))
(T (W x00 x00 x00 x00 x00 x00 x00 x00)
(T (W xa9 xe0 x08 x44 x09 x9c x02 x40)
(T (W x0e x00 x10 x00 x13 x00 x19 x00)
(L (W x00 x00 x00 x00 x00 x00 x00 x00))
(L (W x80 x11 x80 x12 x00 x00 x00 x00)))
(T (W x03 x03 x03 x01 x01 x01 x01 x01)
(L (W x00 x00 xff x00 x00 x00 x00 x00)) E))
(T (W x00 x00 x00 x00 x00 x00 x55 x01)
(T (W x3c x00 x55 x2d x00 x00 x00 x00)
(L (W x00 x00 x00 x00 x00 x00 x00 x00)) E)
(T (W x05 x05 x00 x00 x00 x00 x00 x00)
(L (W x00 x00 x00 x00 x00 x00 x00 x00)) E))))
(T (W x00 x00 x00 x00 x00 x00 x00 x00)
(T (W x30 x30 x30 x30 x30 x30 x00 x00)
(T (W x00 x00 x7f x14 x32 x04 x02 x05)
(T (W x00 x00 x00 x00 x00 x00 x00 x00)
(L (W x3c x00 x55 x32 x00 x00 x00 x00))
(L (W x00 x00 x00 x00 x00 x00 x00 x00)))
(T (W x00 x00 x00 x00 x00 x00 x55 x02)
(L (W x01 x01 x00 x00 x00 x00 x00 x00)) E))
(T (W x01 x40 x3d x00 x50 x00 xd0 x00)
(T (W x00 x00 x00 x00 x00 x00 x00 x00)
(L (W x03 x03 x03 x01 x01 x01 x01 x01)) E)
(T (W x0e x00 x10 x00 x13 x00 x19 x00)
(L (W x00 x00 x00 x00 x00 x00 x00 x00)) E)))
(T (W x0e x00 x10 x00 x13 x00 x19 x00)
(T (W x3c x00 x50 x28 x00 x00 x00 x00)
(T (W x01 x01 x00 x00 x00 x00 x00 x00)
(L (W x01 x43 xa1 x00 x32 x00 x19 x00)) E)
(T (W x64 x96 x78 x5a x78 x64 x0f x0c)
(L (W x00 x00 x00 x00 x00 x00 x00 x00)) E))
(T (W x05 x05 x05 x01 x01 x01 x01 x01)
(T (W x00 x00 xc4 x00 xc6 x02 x00 x00)
(L (W x00 x10 x00 x10 x00 x00 x00 x00)) E)
(T (W x00 x00 x7f x0f x32 x00 x03 x03)
(L (W x00 x00 x00 x00 x00 x00 x00 x00)) E))))))
(T (W x00 x00 x00 x00 x00 x00 x00 x00)
(T (W x00 x00 x00 x14 x32 x03 x01 x05)
(T (W x00 x00 x00 x00 x00 x00 x00 x00)
(T (W x00 x00 x49 x00 xca x00 x00 x00)
(T (W x41 x41 x3c x6e x82 x5f x0d x0d)
(T (W x01 x41 x4f x01 xc2 x01 xc0 x0d)
(L (W x0e x00 x10 x00 x13 x00 x19 x00))
(L (W x00 x00 x00 x00 x00 x00 x00 x00)))
(T (W x00 x00 x40 x0c x00 x42 x00 x08)
(L (W x00 x00 x00 x01 x01 x01 x01 x01)) E))
(T (W x00 x00 x7f x00 x00 x00 x00 x00)
(T (W xe0 x99 x82 xc2 x00 x00 x00 x00)
(L (W x3c x00 x55 x2d x00 x00 x00 x00)) E)
(T (W x00 x00 x00 x00 x00 x00 x95 x02)
(L (W x01 x01 x00 x00 x00 x00 x00 x00)) E)))
(T (W x00 x00 x00 x00 x00 x00 x93 x00)
(T (W x0e x00 x10 x00 x13 x00 x19 x00)
(T (W x02 x02 x02 x01 x01 x01 x02 x02)
(L (W x00 x00 xff x78 x00 x05 x0f x0f))
(L (W x00 x00 x00 x00 x00 x00 x56 x03)))
(T (W x00 x00 x2c x02 xa3 x01 x00 x00)
(L (W x00 x30 x05 x24 x00 x00 x00 x00)) E))
(T (W x00 x00 x00 x00 x00 x00 x00 x00)
(T (W x04 x05 x00 x00 x00 x00 x00 x00)
(L (W x01 x42 x22 x01 x78 x00 xaa x05)) E)
(T (W x2b x46 x30 x26 x32 x3c x07 x0b)
(L (W x00 x00 x00 x00 x00 x00 x00 x00)) E))))
(T (W x3c x00 x64 x46 x00 x00 x00 x00)
(T (W x01 x40 xad x00 x82 x00 xbd x01)
(T (W x00 x00 x00 x00 x00 x00 x00 x00)
(T (W x00 x00 x00 x00 x00 x00 x93 x01)
(L (W x04 x04 x00 x00 x00 x00 x00 x00))
(L (W x12 x47 x1d x01 xe6 x00 xed x03)))
(T (W x3c x00 x64 x46 x00 x00 x00 x00)
(L (W x00 x00 x00 x00 x00 x00 x00 x00)) E))
(T (W x00 x00 x00 x00 x00 x00 x00 x00)
(T (W x01 x00 x01 x00 x01 x00 x01 x00)
(L (W x00 x00 x74 x00 xec x02 x00 x00)) E)
(T (W x04 x03 x02 x01 x01 x01 x01 x01)
(L (W x00 x00 xff x00 x00 x00 x00 x00)) E)))
(T (W x04 x06 x04 x01 x01 x01 x02 x02)
(T (W x01 x01 x00 x00 x00 x00 x00 x00)
(T (W x46 x5a x6e x5f x3c x4b x03 x10)
(L (W x00 x00 x00 x00 x00 x00 x00 x00)) E)
(T (W x01 x41 x22 x01 xd2 x00 xc4 x09)
(L (W x0e x00 x10 x00 x13 x00 x19 x00)) E))
(T (W x00 x00 x00 x00 x00 x00 x00 x00)
(T (W x00 x00 x7f x14 x32 x03 x03 x03)
(L (W x00 x00 x00 x00 x00 x00 x34 x00)) E)
(T (W x00 x00 x00 x00 x00 x00 x00 x00)
(L (W x00 x00 x00 x00 x00 x00 x00 x00)) E)))))
(T (W x03 x03 x03 x01 x01 x01 x01 x01)
(T (W x5a x82 x50 x37 x41 x55 x01 x01)
(T (W x0e x00 x10 x00 x13 x00 x19 x00)
(T (W x00 x00 x00 x00 x00 x00 x00 x00)
(T (W x01 x01 x00 x00 x00 x00 x00 x00)
(L (W x01 x48 xac x00 xc8 x00 x3c x03))
(L (W x0e x00 x10 x00 x13 x00 x19 x00)))
(T (W x00 x00 x00 x00 x00 x00 x00 x00)
(L (W x00 x00 x00 x00 x00 x00 x00 x00)) E))
(T (W x00 x00 x00 x01 x01 x01 x01 x01)
(T (W x00 x00 x00 x00 x00 x00 x00 x00)
(L (W x00 x90 x80 x00 x00 x00 x00 x00)) E)
(T (W x00 x00 x7f x00 x00 x00 x00 x00)
(L (W x00 x00 x00 x00 x00 x00 x00 x00)) E)))
(T (W x00 x00 x7f x00 x00 x00 x00 x00)
(T (W x01 x43 x09 x01 xaa x00 x0a x02)
(T (W x0a x04 x00 x00 x20 x20 x24 x00)
(L (W x03 x02 x02 x01 x01 x01 x01 x01))
(L (W x00 x00 xff x78 x00 x05 x0f x0f)))
(T (W x0e x00 x10 x00 x13 x00 x19 x00)
(L (W x00 x00 x00 x00 x00 x00 x00 x00)) E))
(T (W x00 x12 x00 x40 x00 x00 x00 x00)
(T (W x00 x00 x00 x00 x00 x00 x14 x02)
(L (W x03 x04 x00 x00 x00 x00 x00 x00)) E)
(T (W x00 x00 x00 x00 x00 x00 x00 x00)
(L (W x00 x00 x00 x00 x00 x00 x00 x00)) E))))
(T (W x01 x10 x08 x00 x01 x00 x00 x00)
(T (W x03 x04 x00 x00 x00 x00 x00 x00)
(T (W x00 x00 x61 x00 x96 x01 x00 x00)
(T (W x00 x00 x7f x00 x00 x00 x00 x00)
(L (W x00 x00 x00 x00 x00 x00 x15 x03))
(L (W x01 x01 x00 x00 x00 x00 x00 x00)))
(T (W x00 x00 x00 x00 x00 x00 x00 x00)
(L (W x00 x00 x00 x00 x00 x00 x00 x00)) E))
(T (W x46 x55 x8c x14 x55 x46 x09 x09)
(T (W x01 x46 x9c x00 x6e x00 x77 x01)
(L (W x0e x00 x10 x00 x13 x00 x19 x00)) E)
(T (W x81 xc4 x28 x44 x28 x1c x00 x04)
(L (W x00 x00 x00 x01 x01 x01 x01 x01)) E)))
(T (W x8c x24 x00 x00 x01 x20 x30 x04)
(T (W x00 x00 x00 x00 x00 x00 x00 x00)
(T (W x3c x00 x64 x46 x00 x00 x00 x00)
(L (W x45 x5a x3c x79 x5a x3c x0c x0c)) E)
(T (W x02 x02 x00 x00 x00 x00 x00 x00)
(L (W x02 x43 x22 x01 x8c x00 x76 x02)) E))
(T (W x01 x00 x01 x00 x01 x00 x01 x00)
(T (W x03 x03 x02 x01 x01 x01 x01 x01)
(L (W x00 x00 xff x00 x00 x00 x00 x00)) E)
(T (W x00 x00 x5d x02 xe3 x01 x00 x00)
(L (W x22 x90 x00 xc0 x02 x00 x00 x00)) E))))))))
(T (W x00 x00 x00 x00 x00 x00 x04 x00)
(T (W x00 x60 x10 x41 x20 x00 x30 x00)
(T (W x00 x00 x00 x00 x00 x00 x00 x00)
(T (W x03 x04 x00 x00 x00 x00 x00 x00)
(T (W x00 x00 x7f x00 x00 x00 x00 x00)
(T (W x28 x00 x50 x28 x00 x00 x00 x00)
(T (W x00 x00 x00 x01 x01 x01 x01 x01)
(T (W x00 x00 x21 x00 x21 x00 x00 x00)
(L (W x00 x14 x00 x00 x00 x00 x00 x00))
(L (W x3c x00 x64 x3c x00 x00 x00 x00)))
(T (W x00 x00 x7f x14 x32 x00 x04 x04)
(L (W x00 x00 x00 x00 x00 x00 x6d x00)) E))
(T (W x03 x04 x00 x00 x00 x00 x00 x00)
(T (W x55 x32 x5f x50 x78 x73 x11 x02)
(L (W x00 x00 x00 x00 x00 x00 x00 x00)) E)
(T (W x00 x00 x00 x00 x00 x00 x00 x00)
(L (W x0e x00 x10 x00 x13 x00 x19 x00)) E)))
(T (W x01 x46 xb4 x00 xb4 x00 x4e x02)
(T (W x00 x00 x00 x00 x00 x00 x00 x00)
(T (W x00 x00 x00 x00 x00 x00 xa4 x01)
(L (W x02 x02 x00 x00 x00 x00 x00 x00))
(L (W x03 x42 x54 x01 x7c x01 xf8 x11)))
(T (W x3c x00 x55 x32 x00 x00 x00 x00)
(L (W x00 x00 x00 x00 x00 x00 x00 x00)) E))
(T (W x81 x00 x00 x00 x08 x00 x00 x00)
(T (W x01 x00 x01 x00 x01 x00 x01 x00)
(L (W x00 x00 x5d x01 xfa x01 x00 x00)) E)
(T (W x03 x03 x02 x01 x01 x01 x01 x01)
(L (W x00 x00 xff x00 x00 x00 x00 x00)) E))))
(T (W x00 x20 x40 x02 x00 x40 x10 x10)
(T (W x00 x00 x30 x00 x88 x01 x00 x00)
(T (W x46 x82 x64 x41 x37 x50 x06 x08)
(T (W x00 x00 x00 x00 x00 x00 x00 x00)
(L (W x0e x00 x10 x00 x13 x00 x19 x00))
(L (W x00 x00 x32 x01 xce x02 x00 x00)))
(T (W x28 x44 x00 x00 x40 x00 x08 x00)
(L (W x00 x00 x00 x01 x01 x01 x01 x01)) E))
(T (W x00 x00 x7f x23 x23 x05 x01 x01)
(T (W x00 x00 x00 x00 x00 x00 x00 x00)
(L (W x3c x00 x5a x32 x00 x00 x00 x00)) E)
(T (W x00 x00 x00 x00 x00 x00 xa5 x02)
(L (W x01 x01 x00 x00 x00 x00 x00 x00)) E)))
(T (W x00 x00 x00 x00 x00 x00 x00 x00)
(T (W x0e x00 x10 x00 x13 x00 x19 x00)
(T (W x03 x03 x03 x01 x01 x01 x01 x01)
(L (W x00 x00 x1f x14 x32 x03 x02 x05))
(L (W x00 x00 x00 x00 x00 x00 x7d x03)))
(T (W x00 x00 x4e x01 x6e x01 x00 x00)
(L (W x00 x00 x00 x00 x00 x00 x00 x00)) E))
(T (W x00 x00 x00 x00 x00 x00 x00 x00)
(T (W x03 x04 x00 x00 x00 x00 x00 x00)
(L (W x02 x45 xf3 x00 x46 x00 xd2 x00)) E)
(T (W x4e x6b x4b x46 x64 x64 x0b x07)
(L (W x00 x00 x00 x00 x00 x00 x00 x00)) E)))))
(T (W x00 x00 x00 x00 x00 x00 x25 x00)
(T (W x03 x03 x03 x01 x01 x01 x02 x02)
(T (W x00 x98 x02 x00 x00 x00 x00 x00)
(T (W x00 x00 x00 x00 x00 x00 x00 x00)
(T (W x01 x00 x01 x00 x01 x00 x01 x00)
(L (W x00 x00 x5c x00 x35 x00 x00 x00))
(L (W x14 x10 x20 x00 x04 x00 x00 x00)))
(T (W x03 x03 x02 x01 x01 x01 x01 x01)
(L (W x00 x00 xff x00 x00 x00 x00 x00)) E))
(T (W x00 x00 x00 x00 x00 x00 x25 x01)
(T (W x3c x00 x5a x32 x00 x00 x00 x00)
(L (W x32 x44 x3c x20 x32 x32 x01 x01)) E)
(T (W x01 x01 x00 x00 x00 x00 x00 x00)
(L (W x00 x00 x00 x00 x00 x00 x00 x00)) E)))
(T (W x01 x01 x00 x00 x00 x00 x00 x00)
(T (W x00 x00 x9d x00 xc3 x02 x00 x00)
(T (W x00 x00 x7f x00 x00 x00 x00 x00)
(L (W x00 x00 x00 x00 x00 x00 x25 x03))
(L (W x04 x05 x00 x00 x00 x00 x00 x00)))
(T (W x00 xd8 x00 x00 x00 x00 x00 x00)
(L (W x00 x00 x00 x00 x00 x00 x00 x00)) E))
(T (W x6e x4e x49 x3c x4c x47 x0a x04)
(T (W x01 x41 x02 x01 xaa x00 x28 x0a)
(L (W x0a x00 x0a x00 x0a x00 x0a x00)) E)
(T (W x01 x40 x10 x00 x40 x08 x00 x00)
(L (W x00 x00 x00 x01 x01 x01 x01 x01)) E))))
(T (W x00 x00 x00 x00 x00 x00 x00 x00)
(T (W x0e x00 x10 x00 x13 x00 x19 x00)
(T (W x3c x00 x50 x28 x00 x00 x00 x00)
(T (W x01 x01 x00 x00 x00 x00 x00 x00)
(L (W x01 x47 x3c x00 x3c x00 x29 x01))
(L (W x01 x00 x01 x00 x01 x00 x01 x00)))
(T (W x46 x4d x3c x6c x61 x3c x06 x0c)
(L (W x62 x04 x00 x08 x00 x22 x20 x80)) E))
(T (W x00 x00 x00 x01 x01 x01 x01 x01)
(T (W x00 x00 x00 x00 x00 x00 x00 x00)
(L (W x01 x10 x00 x00 x00 x00 x00 x00)) E)
(T (W x00 x00 x7f x14 x32 x00 x09 x09)
(L (W x00 x00 x00 x00 x00 x00 x00 x00)) E)))
(T (W x00 x00 x7f x14 x32 x00 x04 x04)
(T (W x01 x43 x2c x00 x32 x00 x1a x00)
(T (W x00 x00 x00 x00 x00 x00 x00 x00)
(L (W x03 x03 x03 x01 x01 x01 x01 x01)) E)
(T (W x0a x00 x0a x00 x13 x00 x0a x00)
(L (W x00 x00 x65 x00 xb5 x02 x00 x00)) E))
(T (W x00 x10 x02 x00 x00 x00 x00 x00)
(T (W x00 x00 x00 x00 x00 x00 x24 x02)
(L (W x01 x01 x00 x00 x00 x00 x00 x00)) E)
(T (W x00 x00 x00 x00 x00 x00 x00 x00)
(L (W x00 x00 x00 x00 x00 x00 x00 x00)) E))))))
(T (W x00 x00 x00 x00 x00 x00 x00 x00)
(T (W x37 x00 x55 x2d x00 x00 x00 x00)
(T (W x00 x00 x32 x00 x38 x00 x00 x00)
(T (W x00 x00 x00 x00 x00 x00 x00 x00)
(T (W x0e x00 x10 x00 x13 x00 x19 x00)
(T (W x03 x00 x00 x01 x01 x01 x01 x01)
(L (W x00 x00 x7f x14 x32 x00 x07 x07))
(L (W x00 x00 x00 x00 x00 x00 xce x02)))
(T (W x00 x00 x61 x00 x9d x00 x00 x00)
(L (W x00 x00 x00 x00 x00 x00 x00 x00)) E))
(T (W x00 x00 x00 x00 x00 x00 x00 x00)
(T (W x04 x05 x00 x00 x00 x00 x00 x00)
(L (W x01 x45 x38 x00 x32 x00 x0a x00)) E)
(T (W x55 x38 x4d x4e x32 x4d x00 x04)
(L (W x00 x42 x00 x34 x62 x06 x08 x00)) E)))
(T (W x3d x54 x41 x46 x46 x46 x0f x0f)
(T (W x00 x00 xfe x14 x32 x05 x05 x05)
(T (W x00 x98 x00 x00 x00 x00 x00 x00)
(L (W x00 x00 x00 x00 x00 x00 x00 x00))
(L (W x28 x2d x2d x32 x4a x36 x07 x07)))
(T (W x00 x00 x00 x00 x00 x00 x65 x02)
(L (W x03 x04 x00 x00 x00 x00 x00 x00)) E))
(T (W x01 x41 xac x00 x6e x00 xce x00)
(T (W x38 x00 x00 x00 x00 x00 x20 x00)
(L (W x00 x00 x00 x01 x01 x01 x01 x01)) E)
(T (W x0e x00 x10 x00 x13 x00 x19 x00)
(L (W x00 x00 x00 x00 x00 x00 x00 x00)) E))))
(T (W x02 x42 xaf x00 xaa x00 xb6 x03)
(T (W x03 x03 x03 x01 x01 x01 x01 x01)
(T (W x01 x01 x00 x00 x00 x00 x00 x00)
(T (W x3c x55 x31 x3c x3c x31 x0c x0c)
(L (W x38 xcc x01 x40 x41 x8c x20 x01))
(L (W x03 x03 x03 x01 x01 x01 x01 x01)))
(T (W x01 x48 x3b x00 x14 x00 x0a x00)
(L (W x01 x00 x01 x00 x01 x00 x01 x00)) E))
(T (W x00 x00 x0c x01 x57 x00 x00 x00)
(T (W x00 x00 x1f x00 x00 x00 x00 x00)
(L (W x00 x00 x00 x00 x00 x00 x64 x03)) E)
(T (W x40 x10 x80 x02 x00 x00 x00 x00)
(L (W x00 x00 x00 x00 x00 x00 x00 x00)) E)))
(T (W x00 x10 x01 x20 x00 x00 x00 x00)
(T (W x42 x04 x00 x08 x00 x22 x20 x84)
(T (W x0e x00 x10 x00 x13 x00 x19 x00)
(L (W x00 x00 xd4 x01 xa9 x02 x00 x00)) E)
(T (W x03 x03 x03 x01 x01 x01 x01 x01)
(L (W x00 x00 x7f x28 x32 x00 x0c x0c)) E))
(T (W x00 x00 x00 x00 x00 x00 x00 x00)
(T (W x3c x00 x5f x37 x00 x00 x00 x00)
(L (W x23 x64 x3c x6e x32 x46 x04 x08)) E)
(T (W x03 x04 x00 x00 x00 x00 x00 x00)
(L (W x00 x00 x00 x00 x00 x00 x00 x00)) E)))))
(T (W x00 x14 x00 x01 x00 x00 x00 x00)
(T (W x0e x00 x10 x00 x13 x00 x19 x00)
(T (W x00 x00 xfe x28 x8c x04 x06 x06)
(T (W x01 x42 x91 x00 x96 x00 x8c x00)
(T (W x00 x00 x00 x00 x00 x00 x00 x00)
(L (W x04 x04 x04 x01 x01 x01 x01 x01))
(L (W x00 x00 xff x78 x00 x05 x0f x0f)))
(T (W x0e x00 x10 x00 x13 x00 x19 x00)
(L (W x00 x00 x00 x00 x00 x00 x00 x00)) E))
(T (W x00 x00 x00 x00 x00 x00 x00 x00)
(T (W x00 x00 x00 x00 x00 x00 xe5 x01)
(L (W x03 x03 x00 x00 x00 x00 x00 x00)) E)
(T (W x00 x00 x00 x00 x00 x00 x00 x00)
(L (W x00 x00 x00 x00 x00 x00 x00 x00)) E)))
(T (W x00 x00 x00 x00 x00 x00 x00 x00)
(T (W x03 x03 x03 x01 x01 x01 x02 x02)
(T (W x00 x00 x39 x01 xaf x00 x00 x00)
(L (W x00 x50 x00 x40 x00 x00 x00 x00))
(L (W x3c x00 x55 x2d x00 x00 x00 x00)))
(T (W x00 x00 x7f x14 x23 x00 x08 x08)
(L (W x00 x00 x00 x00 x00 x00 x00 x00)) E))
(T (W x04 x05 x00 x00 x00 x00 x00 x00)
(T (W x4b x50 x37 x23 x19 x23 x01 x01)
(L (W x08 x00 x00 x00 x10 x20 x41 x04)) E)
(T (W x05 x43 x2c x01 xf4 x01 xea x0b)
(L (W x01 x00 x01 x00 x01 x00 x01 x00)) E))))
(T (W x01 x01 x00 x00 x00 x00 x00 x00)
(T (W x92 x0c x80 x00 x00 x00 x24 x00)
(T (W x00 x00 x00 x00 x00 x00 x00 x00)
(T (W x3c x00 x55 x2d x00 x00 x00 x00)
(L (W x46 x4b x73 x55 x5f x82 x0a x11))
(L (W x00 x00 x00 x00 x00 x00 x00 x00)))
(T (W x04 x04 x00 x00 x00 x00 x00 x00)
(L (W x00 x00 x00 x00 x00 x00 x00 x00)) E))
(T (W x01 x00 x01 x00 x01 x00 x01 x00)
(T (W x03 x03 x03 x01 x01 x01 x01 x01)
(L (W x00 x00 xff x23 x32 x05 x0f x0f)) E)
(T (W x00 x00 x0c x01 x3a x02 x00 x00)
(L (W x00 x00 x00 x00 x00 x00 x00 x00)) E)))
(T (W x00 x00 x3c x02 xca x00 x00 x00)
(T (W x00 x00 x00 x00 x00 x00 x00 x00)
(T (W x01 x47 x0c x01 x78 x00 x08 x07)
(L (W x0e x00 x10 x00 x13 x00 x19 x00)) E)
(T (W x00 x00 x00 x00 x00 x00 x00 x00)
(L (W x00 x00 x00 x01 x01 x01 x01 x01)) E))
(T (W x00 x00 x1f x28 x32 x05 x02 x0c)
(T (W x10 x10 x02 x10 x00 x00 x00 x00)
(L (W x37 x00 x55 x2d x00 x00 x00 x00)) E)
(T (W x00 x00 x00 x00 x00 x00 x00 x00)
(L (W x01 x01 x00 x00 x00 x00 x00 x00)) E)))))))
(T (W x00 x00 x04 x00 x00 x00 x00 x00)
(T (W x00 x00 x7f x00 x00 x00 x00 x00)
(T (W x04 x04 x04 x01 x01 x01 x01 x01)
(T (W x28 x2d x23 x5a x28 x28 x00 x00)
(T (W x0e x00 x10 x00 x13 x00 x19 x00)
(T (W x00 x00 x00 x00 x00 x00 x00 x00)
(T (W x02 x02 x00 x00 x00 x00 x00 x00)
(L (W x01 x45 xaf x00 xfa x00 xf0 x23))
(L (W x0a x00 x0a x00 x13 x00 x0a x00)))
(T (W x36 x4e x67 x16 x35 x2d x0a x05)
(L (W xa0 x02 x21 x00 x04 x00 x00 x82)) E))
(T (W x00 x00 x00 x01 x01 x01 x01 x01)
(T (W x00 x00 x49 x00 xca x00 x00 x00)
(L (W x00 x10 x02 x00 x02 x00 x00 x00)) E)
(T (W x00 x00 x1f x00 x00 x00 x00 x00)
(L (W x00 x00 x00 x00 x00 x00 x89 x02)) E)))
(T (W x00 x00 xff x50 x23 x05 x0f x0f)
(T (W x01 x49 x3d x00 x28 x00 x3c x00)
(T (W x00 x00 x00 x00 x00 x00 x00 x00)
(L (W x03 x00 x00 x01 x01 x01 x01 x01))
(L (W x00 x00 x7f x14 x32 x00 x02 x04)))
(T (W x0e x00 x10 x00 x13 x00 x19 x00)
(L (W x00 x00 x84 x01 x50 x00 x00 x00)) E))
(T (W x00 x00 x00 x00 x00 x00 x00 x00)
(T (W x00 x00 x00 x00 x00 x00 x05 x02)
(L (W x02 x02 x00 x00 x00 x00 x00 x00)) E)
(T (W x37 x00 x55 x37 x00 x00 x00 x00)
(L (W x00 x00 x00 x00 x00 x00 x00 x00)) E))))
(T (W x00 x00 x00 x00 x00 x00 x00 x00)
(T (W x03 x03 x00 x00 x00 x00 x00 x00)
(T (W x00 x00 x0e x00 xe0 x00 x00 x00)
(T (W x00 x00 x7f x00 x00 x00 x00 x00)
(L (W x00 x00 x00 x00 x00 x00 x04 x03))
(L (W x05 x05 x00 x00 x00 x00 x00 x00)))
(T (W x00 x50 x05 xa0 x00 x00 x00 x00)
(L (W x00 x00 x00 x00 x00 x00 x00 x00)) E))
(T (W x00 x00 x00 x00 x00 x00 x00 x00)
(T (W x01 x42 x2c x01 x28 x00 x28 x00)
(L (W x0e x00 x10 x00 x13 x00 x19 x00)) E)
(T (W x00 x40 x30 x00 x40 x04 x00 x00)
(L (W x00 x00 x00 x01 x01 x01 x01 x01)) E)))
(T (W x00 x00 x00 x00 x00 x00 x00 x00)
(T (W x00 x00 x00 x00 x00 x00 x00 x00)
(T (W x32 x00 x55 x28 x00 x00 x00 x00)
(L (W x78 x5f x5f x14 x37 x4b x00 x00)) E)
(T (W x04 x04 x00 x00 x00 x00 x00 x00)
(L (W x00 x00 x00 x00 x00 x00 x00 x00)) E))
(T (W x01 x00 x01 x00 x01 x00 x01 x00)
(T (W x00 x00 x00 x01 x01 x01 x01 x01)
(L (W x00 x00 xbf x14 x32 x00 x05 x05)) E)
(T (W x00 x00 xcf x00 x35 x00 x00 x00)
(L (W x00 x00 x00 x00 x00 x00 x00 x00)) E)))))
(T (W x0a x04 x10 x00 x01 x30 x68 x14)
(T (W x32 x00 x50 x32 x00 x00 x00 x00)
(T (W x02 x46 xac x00 x78 x00 x5f x00)
(T (W x00 x00 x00 x00 x00 x00 x00 x00)
(T (W x00 x00 x00 x00 x00 x00 x00 x00)
(L (W x03 x03 x00 x00 x00 x00 x00 x00))
(L (W x02 x41 xd9 x00 x34 x03 x12 x03)))
(T (W x32 x00 x55 x2d x00 x00 x00 x00)
(L (W x00 x00 x00 x00 x00 x00 x00 x00)) E))
(T (W x00 x00 x00 x00 x00 x00 x00 x00)
(T (W x0a x00 x0a x00 x13 x00 x0a x00)
(L (W x00 x00 xa1 x01 xf7 x00 x00 x00)) E)
(T (W x00 x00 x00 x01 x01 x01 x01 x01)
(L (W x00 x00 xff x00 x00 x00 x00 x00)) E)))
(T (W x00 x00 x00 x01 x01 x01 x01 x01)
(T (W x02 x02 x00 x00 x00 x00 x00 x00)
(T (W x39 x18 x56 x17 x18 x56 x08 x0d)
(L (W x00 x40 x10 x00 x40 x00 x00 x00))
(L (W x04 x03 x02 x01 x01 x01 x01 x01)))
(T (W x01 x43 x3d x00 x64 x00 x98 x03)
(L (W x01 x00 x01 x00 x01 x00 x01 x00)) E))
(T (W x00 x00 x0e x00 x90 x01 x00 x00)
(T (W x00 x00 x7f x14 x32 x00 x05 x05)
(L (W x00 x00 x55 x00 xcf x02 xac x00)) E)
(T (W x02 x50 x00 x80 x00 x00 x00 x00)
(L (W x00 x00 x00 x00 x00 x00 x00 x00)) E))))
(T (W x00 x00 x00 x00 x00 x00 x00 x00)
(T (W x00 x00 x83 x01 xbe x02 x85 x00)
(T (W x0e x00 x10 x00 x13 x00 x19 x00)
(T (W x00 x00 x00 x01 x01 x01 x01 x01)
(L (W x00 x00 xff x0f x32 x05 x0f x0f))
(L (W x00 x00 x00 x00 x00 x00 x00 x00)))
(T (W x00 x00 xae x00 xb6 x01 x00 x00)
(L (W x00 x00 x00 x00 x00 x00 x00 x00)) E))
(T (W x37 x00 x55 x2d x00 x00 x00 x00)
(T (W x01 x01 x00 x00 x00 x00 x00 x00)
(L (W x01 x42 x42 x00 x78 x00 xe8 x03)) E)
(T (W x32 x35 x3e x2c x3a x3f x0a x0a)
(L (W x00 x00 x00 x00 x00 x00 x00 x00)) E)))
(T (W x00 x00 x00 x00 x00 x00 x00 x00)
(T (W x00 x00 x7f x0f x32 x03 x05 x07)
(T (W x01 x10 x00 x00 x00 x00 x00 x00)
(L (W x32 x00 x50 x32 x00 x00 x00 x00)) E)
(T (W x00 x00 x00 x00 x00 x00 x85 x02)
(L (W x01 x01 x00 x00 x00 x00 x00 x00)) E))
(T (W x00 x00 x00 x00 x00 x00 x00 x00)
(T (W x29 x00 x00 x04 x08 x38 x02 x00)
(L (W x03 x02 x02 x01 x01 x01 x01 x01)) E)
(T (W x0e x00 x10 x00 x13 x00 x19 x00)
(L (W x00 x00 x00 x00 x00 x00 x00 x00)) E))))))
(T (W x00 x00 x00 x00 x00 x00 x00 x00)
(T (W x0e x00 x10 x00 x13 x00 x19 x00)
(T (W x01 x01 x00 x00 x00 x00 x00 x00)
(T (W x08 x40 x00 x00 x08 x14 x00 x00)
(T (W x00 x00 x00 x00 x00 x00 x85 x00)
(T (W x00 x00 x00 x00 x00 x00 x00 x00)
(L (W x3c x2d x50 x1e x5a x64 x0b x11))
(L (W x00 x00 x00 x00 x00 x00 x00 x00)))
(T (W x05 x06 x00 x00 x00 x00 x00 x00)
(L (W x00 x00 x00 x00 x00 x00 x00 x00)) E))
(T (W x0e x00 x10 x00 x13 x00 x19 x00)
(T (W x00 x00 x00 x01 x01 x01 x01 x01)
(L (W x00 x00 x7f x19 x32 x03 x08 x08)) E)
(T (W x00 x00 xe8 x01 x00 x02 x00 x00)
(L (W x00 x00 x00 x00 x00 x00 x00 x00)) E)))
(T (W x00 x00 x32 x00 x1c x02 x00 x00)
(T (W x73 x73 x55 x64 x5a x4b x09 x09)
(T (W x00 x00 x00 x00 x00 x00 x00 x00)
(L (W x0e x00 x10 x00 x13 x00 x19 x00))
(L (W x00 x00 x97 x00 x5d x02 x00 x00)))
(T (W x00 x00 x40 x20 x02 x00 x00 x00)
(L (W x03 x03 x05 x01 x01 x01 x01 x02)) E))
(T (W x00 x00 xff x19 x32 x04 x0a x0a)
(T (W x00 x00 x00 x00 x00 x00 x00 x00)
(L (W x00 x00 x00 x00 x00 x00 x00 x00)) E)
(T (W x00 x00 x00 x00 x00 x00 xc4 x02)
(L (W x01 x01 x00 x00 x00 x00 x00 x00)) E))))
(T (W x00 x00 xff x14 x32 x00 x0a x0a)
(T (W x37 x00 x55 x2d x00 x00 x00 x00)
(T (W x03 x03 x03 x01 x01 x01 x01 x01)
(T (W x00 x00 x84 x01 x4e x00 x00 x00)
(L (W x00 x00 x00 x00 x00 x00 x00 x00))
(L (W x3c x00 x50 x32 x00 x00 x00 x00)))
(T (W x00 x00 x7f x14 x32 x00 x0b x0b)
(L (W x00 x00 x00 x00 x00 x00 x00 x00)) E))
(T (W x01 x01 x00 x00 x00 x00 x00 x00)
(T (W x00 x00 x00 x00 x00 x00 x00 x00)
(L (W x00 x00 x00 x20 x00 x00 x00 x00)) E)
(T (W x01 x41 x3a x00 x28 x00 x23 x00)
(L (W x01 x00 x01 x00 x01 x00 x01 x00)) E)))
(T (W x01 x49 x2a x00 x1e x00 x0a x00)
(T (W x00 x00 x00 x00 x00 x00 x00 x00)
(T (W x00 x00 x00 x00 x00 x00 xc5 x01)
(L (W x05 x05 x00 x00 x00 x00 x00 x00)) E)
(T (W x3c x00 x55 x3c x00 x00 x00 x00)
(L (W x69 x8c x37 x5f x1e x37 x0e x0e)) E))
(T (W x00 x00 x00 x00 x00 x00 x00 x00)
(T (W x0e x00 x10 x00 x13 x00 x19 x00)
(L (W x00 x00 x67 x00 x06 x00 x00 x00)) E)
(T (W x00 x00 x00 x01 x01 x01 x01 x01)
(L (W x00 x00 xff x00 x00 x00 x00 x00)) E)))))
(T (W x00 x00 x00 x00 x00 x00 x00 x00)
(T (W x00 x00 x00 x00 x00 x00 x00 x00)
(T (W x1e x28 x46 x3c x46 x19 x0a x0a)
(T (W x00 x00 xbf x00 x00 x00 x00 x00)
(T (W x00 x00 x00 x00 x00 x00 x00 x00)
(L (W x3c x00 x64 x46 x00 x00 x00 x00))
(L (W x5f x5f x5f x5f x5f x5f x06 x06)))
(T (W x00 x00 x00 x00 x00 x00 x00 x00)
(L (W x01 x01 x00 x00 x00 x00 x00 x00)) E))
(T (W x01 x46 x85 x00 x32 x00 x6e x00)
(T (W x46 x01 x02 x00 x22 x20 x0c x00)
(L (W x04 x03 x03 x01 x01 x01 x01 x01)) E)
(T (W x0e x00 x10 x00 x13 x00 x19 x00)
(L (W x00 x00 x00 x00 x00 x00 x00 x00)) E)))
(T (W x01 x00 x01 x00 x01 x00 x01 x00)
(T (W x32 x00 x50 x32 x00 x00 x00 x00)
(T (W x01 x01 x00 x00 x00 x00 x00 x00)
(L (W x01 x47 x93 x00 x3c x00 x5a x00))
(L (W x00 x00 x00 x00 x00 x00 x00 x00)))
(T (W x64 x7b x4b x50 x39 x4b x00 x02)
(L (W x00 x00 x00 x00 x00 x00 x00 x00)) E))
(T (W x03 x03 x03 x01 x01 x01 x01 x01)
(T (W x00 x00 x53 x01 x67 x01 x00 x00)
(L (W x00 x10 x85 x04 x00 x00 x00 x00)) E)
(T (W x00 x00 xff x78 x64 x05 x0f x0f)
(L (W x00 x00 x00 x00 x00 x00 x00 x00)) E))))
(T (W x03 x06 x02 x01 x01 x01 x02 x02)
(T (W x00 x10 x00 x00 x00 x00 x00 x00)
(T (W x00 x00 x00 x00 x00 x00 x00 x00)
(T (W x01 x00 x01 x00 x01 x00 x01 x00)
(L (W x00 x00 x42 x01 x64 x00 x00 x00))
(L (W x00 x00 x00 x00 x00 x00 x00 x00)))
(T (W x00 x00 x00 x01 x01 x01 x01 x01)
(L (W x00 x00 xff x00 x00 x00 x00 x00)) E))
(T (W x00 x00 x00 x00 x00 x00 x00 x00)
(T (W x00 x00 x00 x00 x00 x00 x00 x00)
(L (W x46 x5f x73 x55 x78 x32 x08 x0f)) E)
(T (W x03 x04 x00 x00 x00 x00 x00 x00)
(L (W x00 x00 x00 x00 x00 x00 x00 x00)) E)))
(T (W x05 x05 x00 x00 x00 x00 x00 x00)
(T (W x00 x00 x30 x00 x60 x01 x00 x00)
(T (W x00 x00 x7f x14 x32 x00 x07 x07)
(L (W x00 x00 x00 x00 x00 x00 x45 x03)) E)
(T (W x00 x00 x00 x00 x00 x00 x00 x00)
(L (W x00 x00 x00 x00 x00 x00 x00 x00)) E))
(T (W x41 x5f x64 x32 x3c x32 x0f x0f)
(T (W x01 x40 xaa x00 x8c x00 xd0 x07)
(L (W x01 x00 x01 x00 x01 x00 x01 x00)) E)
(T (W x21 x44 x00 x00 x28 x1c x00 x04)
(L (W x08 x08 x06 x01 x01 x02 x02 x02)) E)))))))))))
(T (W x01 x00 x01 x00 x01 x00 x01 x00)
(T (W x00 x00 x00 x00 x00 x00 x00 x00)
(T (W x3c x00 x55 x32 x00 x00 x00 x00)
(T (W x00 x00 x1f x14 x32 x03 x01 x07)
(T (W x4e x54 x4e x64 x6d x55 x09 x02)
(T (W x06 x06 x00 x00 x00 x00 x00 x00)
(T (W x00 x00 x00 x00 x00 x00 x00 x00)
(T (W x00 x00 x00 x01 x01 x01 x01 x01)
(T (W xc2 x34 x00 x00 x00 x00 x00 x00)
(T (W x08 x24 x00 x00 x09 x00 x10 x00)
(T (W x0e x00 x10 x00 x13 x00 x19 x00)
(L (W x00 x00 x9d x00 xbc x01 x00 x00))
(L (W x40 x30 x00 x10 x00 x00 x00 x00)))
(T (W x03 x03 x02 x01 x01 x01 x01 x01)
(L (W x00 x00 x7f x14 x32 x05 x07 x07)) E))
(T (W x00 x00 x00 x00 x00 x00 x16 x01)
(T (W x3c x00 x5f x37 x00 x00 x00 x00)
(L (W x50 x3c x5a x32 x3c x46 x05 x09)) E)
(T (W x01 x01 x00 x00 x00 x00 x00 x00)
(L (W x02 x45 x2c x01 x82 x00 xa8 x02)) E)))
(T (W x04 x05 x00 x00 x00 x00 x00 x00)
(T (W x00 x00 x00 x00 x00 x00 x00 x00)
(T (W x00 x00 x7f x00 x00 x00 x00 x00)
(L (W x00 x00 xc9 x02 xd4 x02 x15 x03))
(L (W x01 x01 x00 x00 x00 x00 x00 x00)))
(T (W xc0 x10 x00 x00 x00 x00 x00 x00)
(L (W x00 x00 x00 x00 x00 x00 x00 x00)) E))
(T (W x00 x00 x00 x00 x00 x00 x00 x00)
(T (W x00 x00 x00 x00 x00 x00 x00 x00)
(L (W x0e x00 x10 x00 x13 x00 x19 x00)) E)
(T (W x00 x44 x02 x04 x68 x1c x00 x00)
(L (W x00 x00 x00 x01 x01 x01 x01 x01)) E))))
(T (W x00 x00 x00 x00 x00 x00 x00 x00)
(T (W x0e x00 x10 x00 x13 x00 x19 x00)
(T (W x00 x00 x00 x00 x00 x00 x00 x00)
(T (W x01 x01 x00 x00 x00 x00 x00 x00)
(L (W x01 x47 xba x00 xc8 x00 x38 x04))
(L (W x0e x00 x10 x00 x13 x00 x19 x00)))
(T (W x24 x32 x32 x2c x41 x3c x0e x0e)
(L (W x00 x00 x00 x00 x00 x00 x00 x00)) E))
(T (W x03 x08 x04 x01 x01 x01 x02 x02)
(T (W x00 x00 x00 x00 x00 x00 x00 x00)
(L (W x82 x98 x80 x00 x04 x00 x00 x00)) E)
(T (W x00 x00 x7f x19 x32 x00 x05 x08)
(L (W x00 x00 x00 x00 x00 x00 x00 x00)) E)))
(T (W x00 x00 x7f x0f x32 x00 x04 x04)
(T (W x01 x40 x8e x00 x5a x00 xc3 x00)
(T (W x6a x00 x02 x04 x10 x00 x0a x00)
(L (W x03 x02 x02 x01 x01 x01 x01 x01))
(L (W x00 x00 xff x78 x00 x05 x0f x0f)))
(T (W x0e x00 x10 x00 x13 x00 x19 x00)
(L (W x00 x00 x00 x00 x00 x00 x00 x00)) E))
(T (W x00 x10 x00 x00 x00 x00 x00 x00)
(T (W x00 x00 x00 x00 x00 x00 x17 x02)
(L (W x03 x04 x00 x00 x00 x00 x00 x00)) E)
(T (W x00 x00 x00 x00 x00 x00 x00 x00)
(L (W x00 x00 x00 x00 x00 x00 x00 x00)) E)))))
(T (W x00 x00 xbf x0a x8c x04 x06 x06)
(T (W x11 x08 xa0 x00 x00 x00 x40 x04)
(T (W x00 x00 x2d x00 x9b x00 x00 x00)
(T (W x00 x00 x00 x00 x00 x00 x00 x00)
(T (W x02 x43 x54 x01 xbc x02 x11 x08)
(L (W x0e x00 x10 x00 x13 x00 x19 x00))
(L (W x00 x00 x00 x00 x00 x00 x00 x00)))
(T (W x6a x04 x02 x04 x10 x20 x02 x00)
(L (W x00 x00 x00 x01 x01 x01 x01 x01)) E))
(T (W x00 x00 x7f x0f x32 x01 x03 x03)
(T (W xc0 x30 x02 x00 x00 x00 x00 x00)
(L (W x3c x00 x55 x28 x00 x00 x00 x00)) E)
(T (W x00 x00 x00 x00 x00 x00 x95 x02)
(L (W x01 x01 x00 x00 x00 x00 x00 x00)) E)))
(T (W x00 x00 x5e x00 xbf x02 x97 x00)
(T (W x0a x00 x0a x00 x13 x00 x0a x00)
(T (W x00 x00 x00 x01 x01 x01 x01 x01)
(L (W x00 x00 xff x78 x00 x05 x0f x0f))
(L (W x00 x00 x00 x00 x00 x00 x64 x03)))
(T (W x00 x00 x97 x00 x0a x02 x00 x00)
(L (W x00 x30 x05 x24 x00 x00 x00 x00)) E))
(T (W x3c x00 x55 x32 x00 x00 x00 x00)
(T (W x01 x01 x00 x00 x00 x00 x00 x00)
(L (W x01 x48 x22 x01 xdc x00 x40 x1f)) E)
(T (W x31 x42 x46 x33 x2c x37 x07 x0b)
(L (W x00 x00 x00 x00 x00 x00 x00 x00)) E))))
(T (W x32 x00 x50 x32 x00 x00 x00 x00)
(T (W x01 x45 xac x00 x8c x00 x74 x03)
(T (W x09 x10 x02 x00 x04 x00 x00 x00)
(T (W x00 x00 x00 x00 x00 x00 x3b x01)
(L (W x01 x01 x00 x00 x00 x00 x00 x00))
(L (W x00 x00 x00 x00 x00 x00 x00 x00)))
(T (W x3c x00 x55 x3c x00 x00 x00 x00)
(L (W x3c x37 x64 x1e x41 x64 x07 x07)) E))
(T (W x00 x00 x00 x00 x00 x00 x00 x00)
(T (W x01 x00 x01 x00 x01 x00 x01 x00)
(L (W x00 x00 xb5 x00 x0a x02 x00 x00)) E)
(T (W x04 x03 x03 x01 x01 x01 x01 x01)
(L (W x00 x00 xff x00 x00 x00 x00 x00)) E)))
(T (W x06 x06 x06 x01 x01 x01 x01 x01)
(T (W x01 x01 x00 x00 x00 x00 x00 x00)
(T (W x53 x6a x41 x55 x56 x41 x03 x01)
(L (W x46 x41 x02 x20 x22 x00 x0c x00)) E)
(T (W x01 x43 x22 x01 xc8 x00 xd0 x07)
(L (W x0e x00 x10 x00 x13 x00 x19 x00)) E))
(T (W x00 x00 xf3 x00 x44 x00 x00 x00)
(T (W x00 x00 x7f x14 x32 x00 x07 x06)
(L (W x00 x00 x00 x00 x00 x00 x34 x00)) E)
(T (W x00 x00 x00 x00 x00 x00 x00 x00)
(L (W x00 x00 x00 x00 x00 x00 x00 x00)) E))))))
(T (W x00 x00 x00 x00 x00 x00 x00 x00)
(T (W x02 x14 x00 x00 x00 x00 x00 x00)
(T (W x0e x00 x10 x00 x13 x00 x19 x00)
(T (W x00 x00 x7f x14 x32 x00 x09 x09)
(T (W x00 x00 x00 x00 x00 x00 x00 x00)
(T (W x80 x00 x00 x00 x41 x84 x00 x00)
(L (W x03 x03 x03 x01 x01 x01 x01 x01))
(L (W x00 x00 xff x78 x00 x05 x0f x0f)))
(T (W x0e x00 x10 x00 x13 x00 x19 x00)
(L (W x00 x00 x00 x00 x00 x00 x00 x00)) E))
(T (W x00 x00 x00 x00 x00 x00 x00 x00)
(T (W x00 x00 x00 x00 x00 x00 x85 x00)
(L (W x03 x03 x00 x00 x00 x00 x00 x00)) E)
(T (W x00 x00 x00 x00 x00 x00 x00 x00)
(L (W x47 x78 x5f x63 x78 x5f x06 x08)) E)))
(T (W x00 x00 x00 x00 x00 x00 x00 x00)
(T (W x03 x03 x03 x01 x01 x01 x01 x01)
(T (W x00 x00 x00 x00 x00 x00 x00 x00)
(L (W x00 x50 x02 x80 x07 x00 x00 x00))
(L (W x3c x00 x55 x32 x00 x00 x00 x00)))
(T (W x00 x00 x7f x28 x23 x05 x01 x0e)
(L (W x00 x00 x00 x00 x00 x00 xa6 x01)) E))
(T (W x01 x01 x00 x00 x00 x00 x00 x00)
(T (W x74 x37 x55 x1d x6b x5f x0d x0d)
(L (W x02 x10 x48 x42 x40 x40 x00 x08)) E)
(T (W x01 x46 x3c x00 x1e x00 x1c x00)
(L (W x01 x00 x01 x00 x01 x00 x01 x00)) E))))
(T (W x01 x01 x00 x00 x00 x00 x00 x00)
(T (W x6e x41 x02 x00 x33 x20 x0e x10)
(T (W x00 x00 x00 x00 x00 x00 xd7 x00)
(T (W x00 x00 x00 x00 x00 x00 x00 x00)
(L (W x00 x00 x00 x00 x00 x00 x00 x00))
(L (W x13 xc4 x00 x10 x60 x04 x20 x00)))
(T (W x02 x03 x00 x00 x00 x00 x00 x00)
(L (W x00 x00 x00 x00 x00 x00 x00 x00)) E))
(T (W x01 x00 x01 x00 x01 x00 x01 x00)
(T (W x00 x00 x00 x01 x01 x01 x01 x01)
(L (W x00 x00 x7f x19 x32 x00 x0a x0b)) E)
(T (W x00 x00 x0e x00 x4c x01 x00 x00)
(L (W x00 x00 x00 x00 x00 x00 x00 x00)) E)))
(T (W x00 x00 x00 x00 x00 x00 x00 x00)
(T (W x00 x00 x00 x00 x00 x00 x00 x00)
(T (W x01 x41 xb8 x00 x78 x00 x1c x02)
(L (W x0e x00 x10 x00 x13 x00 x19 x00)) E)
(T (W xa9 x04 x00 x44 x38 x00 x20 x00)
(L (W x00 x00 x00 x01 x01 x01 x01 x01)) E))
(T (W x00 x00 x7f x19 x23 x04 x0b x0b)
(T (W x00 x00 x00 x00 x00 x00 x00 x00)
(L (W x3c x00 x50 x32 x00 x00 x00 x00)) E)
(T (W x00 x00 x97 x02 xb8 x02 xd5 x02)
(L (W x01 x01 x00 x00 x00 x00 x00 x00)) E)))))
(T (W x00 x00 x32 x00 x30 x01 x00 x00)
(T (W x01 x45 x8c x00 x82 x00 x35 x02)
(T (W x04 x04 x03 x01 x01 x01 x01 x01)
(T (W x01 x01 x00 x00 x00 x00 x00 x00)
(T (W x00 x00 x00 x00 x00 x00 x00 x00)
(L (W x00 x00 x00 x08 xa2 x20 x00 x14))
(L (W x03 x03 x06 x01 x01 x01 x01 x02)))
(T (W x01 x46 xf5 x00 x96 x00 xb8 x01)
(L (W x01 x00 x01 x00 x01 x00 x01 x00)) E))
(T (W x00 x00 x00 x00 x00 x00 x00 x00)
(T (W x00 x00 xff x78 x00 x05 x0f x0f)
(L (W x00 x00 x00 x00 x00 x00 x56 x03)) E)
(T (W x00 x00 x00 x00 x00 x00 x00 x00)
(L (W x00 x00 x00 x00 x00 x00 x00 x00)) E)))
(T (W x00 x00 x00 x00 x00 x00 x00 x00)
(T (W x16 x0c x82 x00 x2c x04 x00 x00)
(T (W x0e x00 x10 x00 x13 x00 x19 x00)
(L (W x00 x00 x56 x00 xae x01 x00 x00))
(L (W x80 x11 x80 x12 x00 x00 x00 x00)))
(T (W x03 x02 x02 x01 x01 x01 x01 x01)
(L (W x00 x00 xff x00 x00 x00 x00 x00)) E))
(T (W x00 x00 x00 x00 x00 x00 x57 x01)
(T (W x3c x00 x55 x2d x00 x00 x00 x00)
(L (W x23 x37 x28 x5a x32 x32 x0c x0c)) E)
(T (W x03 x03 x00 x00 x00 x00 x00 x00)
(L (W x00 x00 x00 x00 x00 x00 x00 x00)) E))))
(T (W x00 x00 x00 x00 x00 x00 x00 x00)
(T (W x82 x41 x3c x41 x6e x5f x0a x0a)
(T (W x00 x00 x7f x19 x32 x05 x04 x04)
(T (W x00 x00 x00 x00 x00 x00 x00 x00)
(L (W x00 x00 x00 x00 x00 x00 x00 x00))
(L (W x00 x00 x00 x00 x00 x00 x00 x00)))
(T (W x00 x00 x00 x00 x00 x00 x57 x02)
(L (W x01 x01 x00 x00 x00 x00 x00 x00)) E))
(T (W x01 x41 x50 x00 xc8 x00 x14 x05)
(T (W x0b x04 x00 x00 x00 x00 x60 x04)
(L (W x04 x03 x03 x01 x01 x01 x01 x01)) E)
(T (W x0e x00 x10 x00 x13 x00 x19 x00)
(L (W x00 x00 x00 x00 x00 x00 x00 x00)) E)))
(T (W x01 x00 x01 x00 x01 x00 x01 x00)
(T (W x3c x00 x5a x32 x00 x00 x00 x00)
(T (W x03 x04 x00 x00 x00 x00 x00 x00)
(L (W x01 x48 xac x00 x82 x00 xae x01)) E)
(T (W x7d x82 x5a x5f x82 x5a x0f x0e)
(L (W x00 x00 x00 x00 x00 x00 x00 x00)) E))
(T (W x00 x00 x00 x01 x01 x01 x01 x01)
(T (W x00 x00 x59 x00 xa9 x02 x00 x00)
(L (W xc0 x10 x02 x08 x00 x00 x00 x00)) E)
(T (W x00 x00 x7f x00 x00 x00 x00 x00)
(L (W x00 x00 x00 x00 x00 x00 x00 x00)) E)))))))
(T (W x00 x00 x60 x01 x91 x01 x00 x00)
(T (W x00 x00 x00 x01 x01 x01 x01 x01)
(T (W x08 x00 x00 x00 x11 x20 x41 x04)
(T (W x00 x00 x00 x00 x00 x00 x00 x00)
(T (W x00 x00 x00 x00 x00 x00 x00 x00)
(T (W x00 x00 x00 x00 x00 x00 x00 x00)
(T (W x00 x00 x00 x00 x00 x00 x76 x01)
(L (W x03 x03 x00 x00 x00 x00 x00 x00))
(L (W x04 x45 xad x00 x6e x00 x8c x00)))
(T (W x3c x00 x55 x32 x00 x00 x00 x00)
(L (W x32 x41 x41 x64 x5a x5a x0e x0d)) E))
(T (W x66 x05 x02 x00 x23 x20 x0c x10)
(T (W x0e x00 x10 x00 x13 x00 x19 x00)
(L (W x00 x00 x6e x00 x36 x01 x00 x00)) E)
(T (W x00 x00 x00 x01 x01 x01 x01 x01)
(L (W x00 x00 xff x50 x23 x05 x0f x0f)) E)))
(T (W x02 x02 x02 x01 x01 x01 x02 x02)
(T (W x01 x01 x00 x00 x00 x00 x00 x00)
(T (W x4c x30 x30 x22 x39 x3e x0a x0a)
(L (W xa0 x00 x31 x02 x00 x0c x20 x60))
(L (W x03 x02 x02 x01 x01 x01 x01 x02)))
(T (W x01 x44 x82 x00 x3c x00 x82 x00)
(L (W x01 x00 x01 x00 x01 x00 x01 x00)) E))
(T (W x00 x00 xbd x00 xa1 x02 x00 x00)
(T (W x00 x00 x1f x00 x00 x00 x00 x00)
(L (W x00 x00 x00 x00 x00 x00 x75 x03)) E)
(T (W x00 xd8 x00 x40 x00 x00 x00 x00)
(L (W x00 x00 x00 x00 x00 x00 x00 x00)) E))))
(T (W x00 x00 x97 x00 xe2 x01 x00 x00)
(T (W x00 x00 x00 x00 x00 x00 x76 x00)
(T (W x0e x00 x10 x00 x13 x00 x19 x00)
(T (W x00 x00 x00 x01 x01 x01 x01 x01)
(L (W x00 x00 x7f x0f x32 x04 x02 x02))
(L (W x00 x00 x00 x00 x00 x00 x04 x03)))
(T (W x00 x00 x3b x00 xc4 x00 x00 x00)
(L (W x00 x00 x00 x00 x00 x00 x00 x00)) E))
(T (W x3c x00 x5f x37 x00 x00 x00 x00)
(T (W x01 x01 x00 x00 x00 x00 x00 x00)
(L (W x01 x48 xb3 x00 x64 x00 x04 x00)) E)
(T (W x4a x30 x4c x68 x53 x51 x0d x0d)
(L (W x00 x00 x00 x00 x00 x00 x00 x00)) E)))
(T (W x00 x00 x00 x00 x00 x00 x00 x00)
(T (W x00 x00 x1f x14 x32 x03 x01 x02)
(T (W x12 x10 x02 x40 x0e x00 x00 x00)
(L (W x3c x00 x55 x2d x00 x00 x00 x00))
(L (W x64 xa5 x96 x32 x55 x82 x0d x0e)))
(T (W x00 x00 x00 x00 x00 x00 x77 x02)
(L (W x01 x01 x00 x00 x00 x00 x00 x00)) E))
(T (W x00 x00 x00 x00 x00 x00 x00 x00)
(T (W xa0 x00 x01 x02 x21 x28 x20 x00)
(L (W x03 x08 x06 x01 x01 x01 x02 x02)) E)
(T (W x0e x00 x10 x00 x13 x00 x19 x00)
(L (W x00 x00 x00 x00 x00 x00 x00 x00)) E)))))
(T (W x49 x4c x4b x64 x51 x64 x09 x09)
(T (W x00 x10 x02 x00 x00 x00 x00 x00)
(T (W x04 x05 x00 x00 x00 x00 x00 x00)
(T (W x00 x00 x00 x00 x00 x00 x00 x00)
(T (W x00 x00 x1f x00 x00 x00 x00 x00)
(L (W x00 x00 x00 x00 x00 x00 xf7 x02))
(L (W x03 x04 x00 x00 x00 x00 x00 x00)))
(T (W x00 x90 x10 x00 x00 x00 x00 x00)
(L (W x00 x00 x00 x00 x00 x00 x00 x00)) E))
(T (W x54 x47 x2b x30 x47 x2b x00 x00)
(T (W x01 x42 x22 x01 x1e x00 x03 x00)
(L (W x0e x00 x10 x00 x13 x00 x19 x00)) E)
(T (W x00 x00 x00 x00 x00 x00 x00 x00)
(L (W x00 x00 x00 x01 x01 x01 x01 x01)) E)))
(T (W x00 x00 x00 x00 x00 x00 x00 x00)
(T (W x00 x00 x00 x00 x00 x00 xf6 x00)
(T (W x00 x00 x00 x00 x00 x00 x00 x00)
(L (W x35 x7f x35 x6b x97 x4f x09 x07))
(L (W x00 x00 x02 x00 x02 x00 x04 x14)))
(T (W x03 x04 x00 x00 x00 x00 x00 x00)
(L (W x00 x00 x00 x00 x00 x00 x00 x00)) E))
(T (W x0e x00 x10 x00 x13 x00 x19 x00)
(T (W x03 x03 x02 x01 x01 x01 x01 x01)
(L (W x00 x00 xff x00 x00 x00 x00 x00)) E)
(T (W x00 x00 xa7 x01 xc4 x00 x00 x00)
(L (W x00 x00 x00 x00 x00 x00 x00 x00)) E))))
(T (W x01 x00 x01 x00 x01 x00 x01 x00)
(T (W x00 x00 x7f x28 x32 x05 x01 x02)
(T (W x01 x40 xa8 x00 x5a x00 x1d x01)
(T (W x00 x00 x00 x00 x00 x00 x00 x00)
(L (W x04 x04 x04 x01 x01 x01 x01 x01))
(L (W x00 x00 xff x00 x00 x00 x00 x00)))
(T (W x0e x00 x10 x00 x13 x00 x19 x00)
(L (W x00 x00 xd4 x01 x90 x01 x00 x00)) E))
(T (W x00 x00 x00 x00 x00 x00 x00 x00)
(T (W x00 x00 x00 x00 x00 x00 x00 x00)
(L (W x04 x05 x00 x00 x00 x00 x00 x00)) E)
(T (W x32 x00 x55 x32 x00 x00 x00 x00)
(L (W x00 x00 x00 x00 x00 x00 x00 x00)) E)))
(T (W x3c x00 x4b x28 x00 x00 x00 x00)
(T (W x04 x03 x03 x01 x01 x01 x01 x01)
(T (W x00 x00 x00 x00 x00 x00 x00 x00)
(L (W x00 x10 x00 x01 x00 x00 x00 x00)) E)
(T (W x00 x00 xff x78 x00 x05 x0f x0f)
(L (W x00 x00 x00 x00 x00 x00 x00 x00)) E))
(T (W x05 x06 x00 x00 x00 x00 x00 x00)
(T (W x46 x5c x41 x62 x50 x37 x0a x0a)
(L (W x00 x00 x00 x00 x00 x00 x00 x00)) E)
(T (W x01 x47 x3c x00 x28 x00 x2c x00)
(L (W x01 x00 x01 x00 x01 x00 x01 x00)) E))))))
(T (W x01 x00 x01 x00 x01 x00 x01 x00)
(T (W x01 x46 x37 x00 x32 x00 x5a x00)
(T (W x00 x00 x00 x00 x00 x00 x36 x00)
(T (W x3c x28 x50 x28 x3c x2d x0b x0d)
(T (W x00 x00 x7f x14 x32 x00 x02 x05)
(T (W xa2 x90 x02 x90 x08 x00 x00 x00)
(L (W x37 x00 x55 x2d x00 x00 x00 x00))
(L (W xd8 x64 x79 x55 x5b x5f x0f x04)))
(T (W x00 x00 x00 x00 x00 x00 x36 x02)
(L (W x01 x01 x00 x00 x00 x00 x00 x00)) E))
(T (W x00 x00 x00 x00 x00 x00 x00 x00)
(T (W x4a x00 x00 x04 x30 x00 x0a x00)
(L (W x03 x03 x03 x01 x01 x01 x01 x01)) E)
(T (W x0e x00 x10 x00 x13 x00 x19 x00)
(L (W x00 x00 x00 x00 x00 x00 x00 x00)) E)))
(T (W x0e x00 x10 x00 x13 x00 x19 x00)
(T (W x3c x00 x5f x37 x00 x00 x00 x00)
(T (W x03 x03 x00 x00 x00 x00 x00 x00)
(L (W x03 x44 x2c x01 xf0 x00 xfc x08))
(L (W x0e x00 x10 x00 x13 x00 x19 x00)))
(T (W x5f x82 x50 x32 x46 x50 x0e x0e)
(L (W x4a x04 x00 x04 x10 x00 x0f x00)) E))
(T (W x04 x04 x04 x01 x01 x01 x01 x01)
(T (W x00 x00 xcf x00 x93 x01 x00 x00)
(L (W x00 x50 x20 x01 x06 x00 x00 x00)) E)
(T (W x00 x00 x7f x14 x32 x04 x0a x0a)
(L (W x00 x00 x00 x00 x00 x00 x00 x00)) E))))
(T (W x02 x02 x02 x01 x01 x01 x01 x01)
(T (W x00 x18 x05 x00 x00 x00 x00 x00)
(T (W x00 x00 x00 x00 x00 x00 x00 x00)
(T (W x0e x00 x10 x00 x13 x00 x19 x00)
(L (W x00 x00 x35 x00 x08 x03 x00 x00))
(L (W x1e x10 x20 x80 x00 x00 x00 x00)))
(T (W x05 x05 x05 x01 x01 x01 x01 x01)
(L (W x00 x00 xff x00 x00 x00 x00 x00)) E))
(T (W x00 x00 x00 x00 x00 x00 x00 x00)
(T (W x00 x00 x00 x00 x00 x00 x00 x00)
(L (W x41 x64 x64 x4b x46 x3c x01 x01)) E)
(T (W x03 x04 x00 x00 x00 x00 x00 x00)
(L (W x00 x00 x00 x00 x00 x00 x00 x00)) E)))
(T (W x04 x04 x00 x00 x00 x00 x00 x00)
(T (W x00 x00 xd4 x01 xa3 x00 x00 x00)
(T (W x00 x00 x7f x14 x32 x05 x03 x09)
(L (W x00 x00 x00 x00 x00 x00 x35 x03)) E)
(T (W x00 x50 x00 x10 x00 x00 x00 x00)
(L (W x32 x00 x50 x28 x00 x00 x00 x00)) E))
(T (W x00 x00 x00 x00 x00 x00 x00 x00)
(T (W x01 x47 x7e x00 x78 x00 x49 x02)
(L (W x0e x00 x10 x00 x13 x00 x19 x00)) E)
(T (W x0a x04 x02 x00 x02 x00 x34 x14)
(L (W x00 x00 x00 x01 x01 x01 x01 x01)) E)))))
(T (W x03 x04 x00 x00 x00 x00 x00 x00)
(T (W x00 x00 x3f x14 x32 x03 x08 x08)
(T (W x3c x00 x64 x46 x00 x00 x00 x00)
(T (W x05 x05 x05 x01 x01 x01 x01 x01)
(T (W x00 x00 x00 x00 x00 x00 x00 x00)
(L (W xc0 x11 x02 x08 x02 x00 x00 x00))
(L (W x3c x00 x50 x32 x00 x00 x00 x00)))
(T (W x00 x00 x7f x14 x32 x03 x0b x0b)
(L (W x00 x00 x00 x00 x00 x00 x00 x00)) E))
(T (W x01 x01 x00 x00 x00 x00 x00 x00)
(T (W x6e xa0 x6e x64 x50 x6e x00 x00)
(L (W x06 x01 x02 x04 x00 x01 x04 x14)) E)
(T (W x00 x00 x00 x00 x00 x00 x00 x00)
(L (W x01 x00 x01 x00 x01 x00 x01 x00)) E)))
(T (W x00 x00 x00 x00 x00 x00 x00 x00)
(T (W x00 x58 x00 x41 x00 x00 x00 x00)
(T (W x00 x00 x00 x00 x00 x00 xb7 x01)
(L (W x04 x04 x00 x00 x00 x00 x00 x00))
(L (W x02 x42 x99 x00 x1e x00 x1e x00)))
(T (W x32 x00 x55 x32 x00 x00 x00 x00)
(L (W x00 x00 x00 x00 x00 x00 x00 x00)) E))
(T (W x00 x00 x00 x08 x0a x79 x00 x00)
(T (W x0e x00 x10 x00 x13 x00 x19 x00)
(L (W x00 x00 x68 x00 x58 x01 x00 x00)) E)
(T (W x03 x00 x00 x01 x01 x01 x01 x01)
(L (W x00 x00 xff x00 x00 x00 x00 x00)) E))))
(T (W x00 x40 x00 x00 x00 x00 x00 x00)
(T (W x00 x00 xb4 x01 x8a x01 x00 x00)
(T (W x4b x5f x5f x55 x5f x5f x0a x0f)
(T (W x01 x42 xa6 x00 x78 x00 x81 x01)
(L (W x0a x00 x0a x00 x13 x00 x0a x00))
(L (W x00 x00 x00 x00 x00 x00 x00 x00)))
(T (W x00 x00 x00 x00 x00 x00 x00 x00)
(L (W x00 x00 x00 x01 x01 x01 x01 x01)) E))
(T (W x00 x00 x7f x00 x00 x00 x00 x00)
(T (W x02 x10 x20 x00 x00 x00 x00 x00)
(L (W x3c x00 x55 x32 x00 x00 x00 x00)) E)
(T (W x00 x00 x00 x00 x00 x00 xb6 x02)
(L (W x01 x01 x00 x00 x00 x00 x00 x00)) E)))
(T (W x00 x00 x00 x00 x00 x00 xb7 x00)
(T (W x01 x00 x01 x00 x01 x00 x01 x00)
(T (W x03 x03 x03 x01 x01 x01 x01 x01)
(L (W x00 x00 x7f x14 x32 x04 x05 x05)) E)
(T (W x00 x00 x00 x00 x00 x00 x00 x00)
(L (W x08 x10 x02 x00 x04 x00 x00 x00)) E))
(T (W x3c x00 x5f x2d x00 x00 x00 x00)
(T (W x03 x03 x00 x00 x00 x00 x00 x00)
(L (W x02 x45 x84 x00 x50 x00 xa4 x01)) E)
(T (W x28 x2d x28 x54 x37 x28 x06 x11)
(L (W x46 x01 x02 x04 x32 x00 x2c x04)) E))))))))
(T (W x0e x00 x10 x00 x13 x00 x19 x00)
(T (W x00 x00 x00 x00 x00 x00 x07 x00)
(T (W x00 x00 x00 x00 x00 x00 x00 x00)
(T (W x00 x00 x00 x00 x00 x00 x00 x00)
(T (W x00 x00 x00 x00 x00 x00 x00 x00)
(T (W x02 x03 x01 x01 x01 x01 x02 x02)
(T (W x01 x01 x00 x00 x00 x00 x00 x00)
(T (W x28 x37 x50 x1e x23 x3c x08 x0d)
(L (W x08 x20 x00 x00 x00 x00 x10 x00))
(L (W x02 x02 x02 x01 x01 x01 x01 x01)))
(T (W x01 x40 xab x00 x6e x00 x2c x01)
(L (W x0e x00 x10 x00 x13 x00 x19 x00)) E))
(T (W x00 x00 x5d x00 x5e x00 x00 x00)
(T (W x00 x00 x3f x19 x32 x00 x08 x08)
(L (W x00 x00 x00 x00 x00 x00 x45 x03)) E)
(T (W x00 x00 x00 x00 x00 x00 x00 x00)
(L (W x3c x00 x64 x3c x00 x00 x00 x00)) E)))
(T (W x20 x12 x08 x00 x00 x00 x00 x00)
(T (W x00 x00 x00 x00 x00 x00 x00 x00)
(T (W x0e x00 x10 x00 x13 x00 x19 x00)
(L (W x00 x00 x5e x00 xca x02 x00 x00))
(L (W x42 x31 xc0 x00 x00 x00 x00 x00)))
(T (W x03 x03 x02 x01 x01 x01 x01 x01)
(L (W x00 x00 xff x00 x00 x00 x00 x00)) E))
(T (W x00 x00 x00 x00 x00 x00 x00 x00)
(T (W x00 x00 x00 x00 x00 x00 x00 x00)
(L (W x44 x50 x32 x66 x3c x32 x0f x07)) E)
(T (W x05 x06 x00 x00 x00 x00 x00 x00)
(L (W x00 x00 x00 x00 x00 x00 x00 x00)) E))))
(T (W x00 x00 x00 x00 x00 x00 x00 x00)
(T (W x2d x43 x3c x3f x23 x32 x0a x0a)
(T (W x00 x00 x7f x14 x32 x00 x0c x0c)
(T (W x00 x00 x00 x00 x00 x00 x00 x00)
(L (W x3c x00 x5f x37 x00 x00 x00 x00))
(L (W x5f x5f x5f x5f x5f x5f x08 x08)))
(T (W x00 x00 x00 x00 x00 x00 x46 x02)
(L (W x01 x01 x00 x00 x00 x00 x00 x00)) E))
(T (W x01 x47 x42 x00 x28 x00 x58 x02)
(T (W x00 x00 x00 x00 x00 x00 x00 x00)
(L (W x03 x03 x03 x01 x01 x01 x01 x01)) E)
(T (W x01 x00 x01 x00 x01 x00 x01 x00)
(L (W x00 x00 x00 x00 x00 x00 x00 x00)) E)))
(T (W x0e x00 x10 x00 x13 x00 x19 x00)
(T (W x37 x00 x55 x2d x00 x00 x00 x00)
(T (W x03 x04 x00 x00 x00 x00 x00 x00)
(L (W x01 x41 x3e x00 x1e x00 x28 x00))
(L (W x0a x00 x0a x00 x0a x00 x0a x00)))
(T (W x6e x41 x69 x50 x37 x5f x10 x02)
(L (W x00 x00 x00 x00 x00 x00 x00 x00)) E))
(T (W x03 x02 x02 x01 x01 x01 x01 x01)
(T (W x00 x00 x3d x00 x4a x01 x00 x00)
(L (W x00 x10 x85 x04 x00 x00 x00 x00)) E)
(T (W x00 x00 x1f x0f x32 x03 x04 x04)
(L (W x00 x00 x00 x00 x00 x00 x00 x00)) E)))))
(T (W x0e x00 x10 x00 x13 x00 x19 x00)
(T (W x05 x05 x00 x00 x00 x00 x00 x00)
(T (W x88 x02 x21 x03 x01 x08 x20 x80)
(T (W x00 x00 x00 x00 x00 x00 x4f x00)
(T (W x46 x00 x64 x4b x00 x00 x00 x00)
(L (W x44 x40 x3c x75 x6f x3c x03 x09))
(L (W x00 x00 x00 x00 x00 x00 x00 x00)))
(T (W x03 x04 x00 x00 x00 x00 x00 x00)
(L (W x00 x00 x00 x00 x00 x00 x00 x00)) E))
(T (W x0e x00 x10 x00 x13 x00 x19 x00)
(T (W x02 x02 x04 x01 x01 x01 x01 x02)
(L (W x00 x00 x7f x14 x32 x00 x03 x03)) E)
(T (W x00 x00 x00 x00 x00 x00 x00 x00)
(L (W x00 x00 x00 x00 x00 x00 x00 x00)) E)))
(T (W x00 x00 x00 x00 x00 x00 x00 x00)
(T (W x32 x40 x32 x29 x2d x32 x05 x04)
(T (W x00 x00 x00 x00 x00 x00 x00 x00)
(L (W x0a x00 x0a x00 x13 x00 x0a x00))
(L (W x00 x00 x97 x00 x5d x02 x00 x00)))
(T (W x08 x20 x00 x00 x08 x58 x12 x00)
(L (W x03 x00 x00 x01 x01 x01 x01 x01)) E))
(T (W x00 x00 x7f x14 x32 x00 x0c x0c)
(T (W x00 x10 x02 x00 x04 x00 x00 x00)
(L (W x00 x00 x00 x00 x00 x00 x00 x00)) E)
(T (W x00 x00 x00 x00 x00 x00 xc6 x02)
(L (W x01 x01 x00 x00 x00 x00 x00 x00)) E))))
(T (W x00 x00 x7f x14 x32 x00 x04 x05)
(T (W x50 x00 x64 x1e x00 x00 x00 x00)
(T (W x03 x03 x02 x01 x01 x01 x01 x01)
(T (W x00 x00 x00 x00 x00 x00 x00 x00)
(L (W x02 x30 x42 x00 x02 x00 x00 x00))
(L (W x00 x00 x00 x00 x00 x00 x00 x00)))
(T (W x00 x00 x7f x14 x32 x00 x03 x03)
(L (W x00 x00 x00 x00 x00 x00 x07 x01)) E))
(T (W x03 x03 x00 x00 x00 x00 x00 x00)
(T (W x00 x00 x00 x00 x00 x00 x00 x00)
(L (W x80 x40 x00 x00 x08 x98 x00 x01)) E)
(T (W x01 x45 x3d x00 x32 x00 x36 x01)
(L (W x01 x00 x01 x00 x01 x00 x01 x00)) E)))
(T (W x01 x48 x8e x00 x3c x00 x20 x00)
(T (W x00 x00 x00 x00 x00 x00 x00 x00)
(T (W x00 x00 x00 x00 x00 x00 x00 x00)
(L (W x03 x04 x00 x00 x00 x00 x00 x00)) E)
(T (W x00 x00 x00 x00 x00 x00 x00 x00)
(L (W x26 x37 x55 x1e x1e x41 x04 x07)) E))
(T (W x23 x00 x10 x04 x00 x04 x00 x00)
(T (W x0e x00 x10 x00 x13 x00 x19 x00)
(L (W x00 x00 x00 x00 x00 x00 x00 x00)) E)
(T (W x00 x00 x00 x01 x01 x01 x01 x01)
(L (W x00 x00 xff x00 x00 x00 x00 x00)) E))))))
(T (W x00 x00 x7f x00 x00 x00 x00 x00)
(T (W x06 x06 x06 x01 x01 x01 x01 x01)
(T (W x32 x34 x30 x37 x41 x32 x0a x0a)
(T (W x01 x00 x01 x00 x01 x00 x01 x00)
(T (W x00 x00 x00 x00 x00 x00 x00 x00)
(T (W x02 x02 x00 x00 x00 x00 x00 x00)
(L (W x01 x43 x9f x00 xb4 x00 x34 x03))
(L (W x0a x00 x0a x00 x13 x00 x0a x00)))
(T (W x37 x70 x2d x46 x4a x2d x05 x02)
(L (W x46 x61 x02 x80 x31 x60 x16 x08)) E))
(T (W x00 x00 x00 x01 x01 x01 x01 x01)
(T (W x00 x00 x00 x00 x00 x00 x00 x00)
(L (W x00 x10 x00 x80 x00 x00 x00 x00)) E)
(T (W x00 x00 x7f x0f x32 x00 x05 x05)
(L (W x00 x00 x00 x00 x00 x00 x89 x02)) E)))
(T (W x00 x00 x7f x28 x23 x05 x02 x0e)
(T (W x01 x40 x49 x00 x46 x00 xd6 x00)
(T (W x42 x01 x12 x00 x00 x00 x08 x00)
(L (W x03 x00 x00 x01 x01 x01 x01 x01))
(L (W x00 x00 x7f x19 x32 x03 x08 x08)))
(T (W x0e x00 x10 x00 x13 x00 x19 x00)
(L (W x00 x00 x9e x01 x4a x01 x00 x00)) E))
(T (W x00 x10 x00 x40 x00 x00 x00 x00)
(T (W x00 x00 x00 x00 x00 x00 x07 x02)
(L (W x02 x02 x00 x00 x00 x00 x00 x00)) E)
(T (W x3c x00 x5a x3c x00 x00 x00 x00)
(L (W x00 x00 x00 x00 x00 x00 x00 x00)) E))))
(T (W x00 x10 x00 x10 x00 x00 x00 x00)
(T (W x03 x04 x00 x00 x00 x00 x00 x00)
(T (W x00 x00 x00 x00 x00 x00 x00 x00)
(T (W x00 x00 x7f x14 x32 x03 x05 x05)
(L (W x00 x00 x00 x00 x00 x00 x00 x00))
(L (W x05 x05 x00 x00 x00 x00 x00 x00)))
(T (W x00 x10 x08 x40 x03 x00 x00 x00)
(L (W x00 x00 x00 x00 x00 x00 x00 x00)) E))
(T (W x46 x4b x3c x69 x69 x3c x0c x0c)
(T (W x00 x00 x00 x00 x00 x00 x00 x00)
(L (W x0e x00 x10 x00 x13 x00 x19 x00)) E)
(T (W x00 x01 x12 x00 x52 x00 x08 x10)
(L (W x00 x00 x00 x01 x01 x01 x01 x01)) E)))
(T (W x00 x00 x00 x00 x00 x00 x51 x10)
(T (W x00 x00 x00 x00 x00 x00 x07 x01)
(T (W x32 x00 x50 x28 x00 x00 x00 x00)
(L (W x44 x43 x37 x4d x2b x37 x02 x02)) E)
(T (W x05 x05 x00 x00 x00 x00 x00 x00)
(L (W x00 x00 x00 x00 x00 x00 x00 x00)) E))
(T (W x0e x00 x10 x00 x13 x00 x19 x00)
(T (W x00 x00 x00 x01 x01 x01 x01 x01)
(L (W x00 x00 x7f x14 x32 x00 x05 x05)) E)
(T (W x00 x00 x2f x00 x37 x00 x00 x00)
(L (W x00 x00 x00 x00 x00 x00 x00 x00)) E)))))
(T (W x3b x00 x00 x00 x34 x00 x00 x08)
(T (W x32 x00 x50 x32 x00 x00 x00 x00)
(T (W x01 x47 xaa x00 xbe x00 xb0 x04)
(T (W x00 x00 x00 x00 x00 x00 x00 x00)
(T (W x00 x00 x00 x00 x00 x00 x00 x00)
(L (W x04 x05 x00 x00 x00 x00 x00 x00))
(L (W x12 x47 x1d x01 xe6 x00 xed x03)))
(T (W x32 x00 x55 x1e x00 x00 x00 x00)
(L (W x00 x00 x00 x00 x00 x00 x00 x00)) E))
(T (W x08 x24 x00 x00 x00 x00 x30 x00)
(T (W x0a x00 x0a x00 x13 x00 x0a x00)
(L (W x00 x00 x3c x00 x17 x03 x00 x00)) E)
(T (W x00 x00 x00 x01 x01 x01 x01 x01)
(L (W x00 x00 xff x00 x00 x00 x00 x00)) E)))
(T (W x00 x00 x00 x01 x01 x01 x01 x01)
(T (W x06 x07 x00 x00 x00 x00 x00 x00)
(T (W x32 x50 x5f x0a x0a x2d x05 x05)
(L (W x28 x00 x00 x00 x02 x20 x20 x00))
(L (W x03 x03 x02 x01 x01 x01 x01 x01)))
(T (W x01 x40 x44 x00 x32 x00 x66 x00)
(L (W x01 x00 x01 x00 x01 x00 x01 x00)) E))
(T (W x00 x00 x42 x01 x5e x00 x00 x00)
(T (W x00 x00 x7f x14 x32 x04 x06 x06)
(L (W x00 x00 x55 x00 xcf x02 xac x00)) E)
(T (W x02 x50 x60 x80 x00 x00 x00 x00)
(L (W x00 x00 x00 x00 x00 x00 x00 x00)) E))))
(T (W x00 x00 x00 x00 x00 x00 x00 x00)
(T (W x00 x00 x00 x00 x00 x00 x85 x00)
(T (W x01 x00 x01 x00 x01 x00 x01 x00)
(T (W x00 x00 x00 x01 x01 x01 x01 x01)
(L (W x00 x00 xff x0f x32 x05 x0f x0f))
(L (W x00 x00 x00 x00 x00 x00 x00 x00)))
(T (W x00 x00 xfc x01 x20 x02 x00 x00)
(L (W x00 x00 x00 x00 x00 x00 x00 x00)) E))
(T (W x50 x00 x64 x3c x00 x00 x00 x00)
(T (W x03 x04 x00 x00 x00 x00 x00 x00)
(L (W x01 x43 xb1 x00 xb4 x00 x6c x07)) E)
(T (W x2c x26 x21 x46 x3d x2b x0c x00)
(L (W x00 x00 x00 x00 x00 x00 x00 x00)) E)))
(T (W x4b x50 x5f x32 x5a x64 x0b x0b)
(T (W x00 x00 x7f x0f x32 x03 x05 x07)
(T (W x23 x98 x20 x40 x00 x00 x00 x00)
(L (W x32 x00 x55 x28 x00 x00 x00 x00)) E)
(T (W x00 x00 x00 x00 x00 x00 x87 x02)
(L (W x01 x01 x00 x00 x00 x00 x00 x00)) E))
(T (W x00 x00 x00 x00 x00 x00 x00 x00)
(T (W xb8 x08 x90 x00 x20 x20 x20 x00)
(L (W x00 x00 x00 x01 x01 x01 x01 x01)) E)
(T (W x01 x00 x01 x00 x01 x00 x01 x00)
(L (W x00 x00 x00 x00 x00 x00 x00 x00)) E)))))))
(T (W x00 x00 x00 x00 x00 x00 x00 x00)
(T (W x00 x00 x00 x00 x00 x00 x00 x00)
(T (W x04 x05 x00 x00 x00 x00 x00 x00)
(T (W x00 x00 x7f x14 x32 x00 x05 x05)
(T (W x00 x00 x00 x00 x00 x00 x00 x00)
(T (W x00 x00 x00 x01 x01 x01 x01 x01)
(T (W x00 x00 xac x01 x35 x01 x00 x00)
(L (W x00 x18 x02 x00 x04 x00 x00 x00))
(L (W x3c x00 x64 x3c x00 x00 x00 x00)))
(T (W x00 x00 x7f x19 x32 x00 x0a x0b)
(L (W x00 x00 x00 x00 x00 x00 x90 x00)) E))
(T (W x01 x01 x00 x00 x00 x00 x00 x00)
(T (W x41 x6e x82 x5f x3c x41 x0b x0b)
(L (W x80 x40 x10 x48 x02 xa0 x00 x40)) E)
(T (W x00 x00 x00 x00 x00 x00 x00 x00)
(L (W x01 x00 x01 x00 x01 x00 x01 x00)) E)))
(T (W x02 x41 x22 x01 xaa x00 x2a x02)
(T (W x00 x98 x02 x00 x02 x00 x00 x00)
(T (W x00 x00 x00 x00 x00 x00 xa6 x01)
(L (W x02 x02 x00 x00 x00 x00 x00 x00))
(L (W x02 x40 x2c x01 x64 x00 x25 x03)))
(T (W x32 x00 x55 x32 x00 x00 x00 x00)
(L (W x46 x3c x46 x55 x57 x4e x0b x0b)) E))
(T (W x99 x80 x08 x60 x08 x08 x00 x80)
(T (W x01 x00 x01 x00 x01 x00 x01 x00)
(L (W x00 x00 x00 x00 x00 x00 x00 x00)) E)
(T (W x02 x02 x02 x01 x01 x01 x02 x02)
(L (W x00 x00 xff x00 x00 x00 x00 x00)) E))))
(T (W x00 x00 x00 x00 x00 x00 x00 x00)
(T (W x00 x00 x71 x00 x39 x00 x00 x00)
(T (W x50 x7d x4b x55 x28 x5f x06 x01)
(T (W x00 x00 x00 x00 x00 x00 x00 x00)
(L (W x0e x00 x10 x00 x13 x00 x19 x00))
(L (W x00 x00 x32 x01 xce x02 x00 x00)))
(T (W x00 x00 x00 x00 x00 x00 x00 x00)
(L (W x00 x00 x00 x01 x01 x01 x01 x01)) E))
(T (W x00 x00 x7f x00 x00 x00 x00 x00)
(T (W x00 x00 x00 x00 x00 x00 x00 x00)
(L (W x3c x00 x64 x3c x00 x00 x00 x00)) E)
(T (W x00 x00 x00 x00 x00 x00 xa7 x02)
(L (W x01 x01 x00 x00 x00 x00 x00 x00)) E)))
(T (W x00 x00 x00 x00 x00 x00 x00 x00)
(T (W x0e x00 x10 x00 x13 x00 x19 x00)
(T (W x05 x04 x04 x01 x01 x01 x01 x01)
(L (W x00 x00 x7f x14 x32 x00 x05 x05))
(L (W x00 x00 x00 x00 x00 x00 x82 x03)))
(T (W x00 x00 xf2 x00 x0c x00 x00 x00)
(L (W x00 x00 x00 x00 x00 x00 x00 x00)) E))
(T (W x00 x00 x00 x00 x00 x00 x00 x00)
(T (W x04 x04 x00 x00 x00 x00 x00 x00)
(L (W x02 x41 x9e x00 x78 x00 x26 x02)) E)
(T (W x41 x55 x32 x5a x50 x32 x09 x09)
(L (W x00 x00 x00 x00 x00 x00 x00 x00)) E)))))
(T (W x00 x00 x00 x00 x00 x00 xae x00)
(T (W x04 x04 x04 x01 x01 x01 x01 x01)
(T (W x00 x14 x00 x00 x00 x00 x00 x00)
(T (W x00 x00 x00 x00 x00 x00 x00 x00)
(T (W x01 x00 x01 x00 x01 x00 x01 x00)
(L (W x00 x00 x14 x00 x67 x01 x00 x00))
(L (W x14 x10 x30 x00 x04 x00 x00 x00)))
(T (W x04 x03 x03 x01 x01 x01 x01 x01)
(L (W x00 x00 xff x00 x00 x00 x00 x00)) E))
(T (W x00 x00 x00 x00 x00 x00 x25 x01)
(T (W x00 x00 x00 x00 x00 x00 x00 x00)
(L (W x28 x2d x2d x32 x4a x36 x07 x07)) E)
(T (W x01 x01 x00 x00 x00 x00 x00 x00)
(L (W x00 x00 x00 x00 x00 x00 x00 x00)) E)))
(T (W x01 x01 x00 x00 x00 x00 x00 x00)
(T (W x00 x00 x9d x00 x59 x00 x00 x00)
(T (W x00 x00 x7f x14 x32 x00 x05 x05)
(L (W x00 x00 x00 x00 x00 x00 x27 x03))
(L (W x04 x05 x00 x00 x00 x00 x00 x00)))
(T (W x16 x90 x22 x00 x04 x00 x00 x00)
(L (W x00 x00 x00 x00 x00 x00 x00 x00)) E))
(T (W x3f x78 x55 x37 x5a x37 x0a x10)
(T (W x01 x41 x95 x00 x5a x00 x69 x00)
(L (W x01 x00 x01 x00 x01 x00 x01 x00)) E)
(T (W x3a x04 x00 x54 x00 x00 x40 x02)
(L (W x00 x00 x00 x01 x01 x01 x01 x01)) E))))
(T (W x00 x00 x00 x00 x00 x00 x00 x00)
(T (W x0e x00 x10 x00 x13 x00 x19 x00)
(T (W x3c x00 x64 x32 x00 x00 x00 x00)
(T (W x01 x01 x00 x00 x00 x00 x00 x00)
(L (W x01 x47 x2c x01 xa0 x00 x0e x03))
(L (W x01 x00 x01 x00 x01 x00 x01 x00)))
(T (W x4a x5e x83 x14 x36 x74 x0b x08)
(L (W x00 x00 x00 x00 x00 x00 x00 x00)) E))
(T (W x03 x03 x03 x01 x01 x01 x01 x01)
(T (W x00 x00 x00 x00 x00 x00 x00 x00)
(L (W x1c x10 x25 x04 x04 x00 x00 x00)) E)
(T (W x00 x00 x7f x14 x32 x00 x02 x0e)
(L (W x00 x00 x00 x00 x00 x00 x00 x00)) E)))
(T (W x00 x00 x7f x00 x00 x00 x00 x00)
(T (W x01 x43 xf0 x00 x96 x00 x26 x02)
(T (W x00 x00 x00 x00 x00 x00 x10 x00)
(L (W x04 x03 x03 x01 x01 x01 x01 x01)) E)
(T (W x0e x00 x10 x00 x13 x00 x19 x00)
(L (W x00 x00 x00 x00 x00 x00 x00 x00)) E))
(T (W x09 x10 x02 x00 x04 x00 x00 x00)
(T (W x00 x00 x00 x00 x00 x00 x27 x02)
(L (W x03 x04 x00 x00 x00 x00 x00 x00)) E)
(T (W x3c x00 x55 x28 x00 x00 x00 x00)
(L (W x00 x00 x00 x00 x00 x00 x00 x00)) E))))))
(T (W x00 x00 x00 x00 x00 x00 x00 x00)
(T (W x37 x00 x55 x2d x00 x00 x00 x00)
(T (W x00 x00 x00 x00 x00 x00 x00 x00)
(T (W x00 x00 x00 x00 x00 x00 x66 x00)
(T (W x0e x00 x10 x00 x13 x00 x19 x00)
(T (W x03 x00 x00 x01 x01 x01 x01 x01)
(L (W x00 x00 x7f x14 x32 x00 x07 x07))
(L (W x00 x00 x00 x00 x00 x00 x00 x00)))
(T (W x00 x00 xbc x00 xb9 x01 x00 x00)
(L (W x00 x00 x00 x00 x00 x00 x00 x00)) E))
(T (W x00 x00 x00 x00 x00 x00 x00 x00)
(T (W x04 x04 x00 x00 x00 x00 x00 x00)
(L (W x01 x46 x30 x00 x28 x00 x6e x00)) E)
(T (W x3e x49 x37 x54 x38 x34 x09 x02)
(L (W x00 x00 x00 x00 x00 x00 x00 x00)) E)))
(T (W x6a x6e x5a x82 x9a x5a x0d x0d)
(T (W x00 x00 xff x50 x23 x05 x0f x0f)
(T (W x00 x00 x00 x00 x00 x00 x00 x00)
(L (W x00 x00 x00 x00 x00 x00 x00 x00))
(L (W x41 x3c x4b x40 x6e x79 x11 x11)))
(T (W x00 x00 x00 x00 x00 x00 x67 x02)
(L (W x03 x04 x00 x00 x00 x00 x00 x00)) E))
(T (W x00 x00 x00 x00 x00 x00 x00 x00)
(T (W x00 x00 x00 x00 x00 x00 x00 x00)
(L (W x00 x00 x00 x01 x01 x01 x01 x01)) E)
(T (W x0e x00 x10 x00 x13 x00 x19 x00)
(L (W x00 x00 x00 x00 x00 x00 x00 x00)) E))))
(T (W x03 x49 xac x00 xa0 x00 x11 x03)
(T (W x03 x03 x03 x01 x01 x01 x01 x01)
(T (W x01 x01 x00 x00 x00 x00 x00 x00)
(T (W x28 x1e x23 x37 x32 x46 x0b x03)
(L (W x62 x00 x01 x14 x00 x00 x20 x14))
(L (W x03 x03 x03 x01 x01 x01 x01 x01)))
(T (W x01 x48 x43 x00 x78 x00 x4a x01)
(L (W x01 x00 x01 x00 x01 x00 x01 x00)) E))
(T (W x00 x00 x00 x00 x00 x00 x00 x00)
(T (W x00 x00 x1f x00 x00 x00 x00 x00)
(L (W x00 x00 x00 x00 x00 x00 x67 x03)) E)
(T (W x00 x10 x80 x00 x00 x00 x00 x00)
(L (W x00 x00 x00 x00 x00 x00 x00 x00)) E)))
(T (W x80 x10 x80 x02 x00 x00 x00 x00)
(T (W x00 x00 x00 x00 x00 x00 x00 x00)
(T (W x0e x00 x10 x00 x13 x00 x19 x00)
(L (W x00 x00 x0a x02 x0a x02 x00 x00)) E)
(T (W x02 x02 x02 x01 x01 x01 x01 x01)
(L (W x00 x00 x7f x14 x32 x03 x05 x05)) E))
(T (W x00 x00 x00 x00 x00 x00 x67 x01)
(T (W x28 x00 x46 x28 x00 x00 x00 x00)
(L (W x32 x41 x37 x28 x28 x28 x08 x08)) E)
(T (W x01 x01 x00 x00 x00 x00 x00 x00)
(L (W x00 x00 x00 x00 x00 x00 x00 x00)) E)))))
(T (W x00 x14 x00 x01 x00 x00 x00 x00)
(T (W x0e x00 x10 x00 x13 x00 x19 x00)
(T (W x00 x00 xfe x14 x32 x00 x01 x01)
(T (W x01 x47 xb3 x00 x98 x03 xa0 x0f)
(T (W x00 x00 x00 x00 x00 x00 x00 x00)
(L (W x03 x03 x03 x01 x01 x01 x01 x01))
(L (W x00 x00 xff x78 x00 x05 x0f x0f)))
(T (W x01 x00 x01 x00 x01 x00 x01 x00)
(L (W x00 x00 x00 x00 x00 x00 x00 x00)) E))
(T (W x00 x00 x00 x00 x00 x00 x00 x00)
(T (W x00 x00 x00 x00 x00 x00 xe7 x01)
(L (W x03 x03 x00 x00 x00 x00 x00 x00)) E)
(T (W x00 x00 x00 x00 x00 x00 x00 x00)
(L (W x00 x00 x00 x00 x00 x00 x00 x00)) E)))
(T (W x00 x00 x00 x00 x00 x00 x00 x00)
(T (W x02 x02 x02 x01 x01 x01 x02 x02)
(T (W x00 x00 x6f x00 x01 x00 x00 x00)
(L (W x10 x58 x00 x00 x00 x00 x00 x00))
(L (W x00 x00 x00 x00 x00 x00 x00 x00)))
(T (W x00 x00 x00 x14 x32 x05 x04 x04)
(L (W x00 x00 x00 x00 x00 x00 x00 x00)) E))
(T (W x03 x04 x00 x00 x00 x00 x00 x00)
(T (W x69 x8c x5f x2d x37 x41 x01 x01)
(L (W x08 x00 x00 x00 x10 x20 x41 x04)) E)
(T (W x00 x00 x00 x00 x00 x00 x00 x00)
(L (W x01 x00 x01 x00 x01 x00 x01 x00)) E))))
(T (W x04 x05 x00 x00 x00 x00 x00 x00)
(T (W x00 x60 x50 x00 x08 x10 x10 x00)
(T (W x00 x00 x00 x00 x00 x00 x00 x00)
(T (W x00 x00 x00 x00 x00 x00 x00 x00)
(L (W x2b x1d x83 x25 x1d x83 x0d x0d))
(L (W x00 x00 x00 x00 x00 x00 x00 x00)))
(T (W x01 x01 x00 x00 x00 x00 x00 x00)
(L (W x00 x00 x00 x00 x00 x00 x00 x00)) E))
(T (W x0e x00 x10 x00 x13 x00 x19 x00)
(T (W x03 x03 x03 x01 x01 x01 x01 x01)
(L (W x00 x00 xff x23 x32 x05 x0f x0f)) E)
(T (W x00 x00 x27 x00 x9d x00 x00 x00)
(L (W x00 x00 x00 x00 x00 x00 x00 x00)) E)))
(T (W x00 x00 x27 x00 x91 x01 x00 x00)
(T (W x28 x1e x1e x55 x37 x1e x0a x02)
(T (W x01 x47 x0c x01 xf0 x00 x0c x0b)
(L (W x0e x00 x10 x00 x13 x00 x19 x00)) E)
(T (W x00 x00 x00 x00 x00 x00 x00 x00)
(L (W x03 x00 x00 x01 x01 x01 x01 x01)) E))
(T (W x00 x00 x7f x28 x23 x05 x0e x0e)
(T (W x02 x10 x02 x00 x00 x00 x00 x00)
(L (W x00 x00 x00 x00 x00 x00 x00 x00)) E)
(T (W x00 x00 x00 x00 x00 x00 xe6 x02)
(L (W x03 x03 x00 x00 x00 x00 x00 x00)) E)))))))))
(T (W x00 x00 x00 x08 x82 x21 x20 x00)
(T (W x05 x05 x00 x00 x00 x00 x00 x00)
(T (W x03 x02 x03 x01 x01 x01 x01 x02)
(T (W x0e x00 x10 x00 x13 x00 x19 x00)
(T (W x00 x00 x00 x00 x00 x00 x00 x00)
(T (W x00 x00 x00 x00 x00 x00 x00 x00)
(T (W x3c x41 x3c x6e x82 x4b x07 x03)
(T (W x00 x00 x7f x00 x00 x00 x00 x00)
(T (W x16 x10 x02 x80 x0a x00 x00 x00)
(L (W x37 x00 x55 x2d x00 x00 x00 x00))
(L (W x3b x42 x46 x29 x2c x37 x07 x0b)))
(T (W x00 x00 x00 x00 x00 x00 x2f x02)
(L (W x03 x04 x00 x00 x00 x00 x00 x00)) E))
(T (W x01 x48 x28 x00 x28 x00 x42 x00)
(T (W x28 x00 x00 x00 x01 x00 x41 x20)
(L (W x04 x03 x03 x01 x01 x01 x01 x01)) E)
(T (W x01 x00 x01 x00 x01 x00 x01 x00)
(L (W x00 x00 x00 x00 x00 x00 x00 x00)) E)))
(T (W x0e x00 x10 x00 x13 x00 x19 x00)
(T (W x32 x00 x50 x32 x00 x00 x00 x00)
(T (W x01 x01 x00 x00 x00 x00 x00 x00)
(L (W x01 x46 x54 x01 x90 x01 xb0 x04))
(L (W x01 x00 x01 x00 x01 x00 x01 x00)))
(T (W x4b x4b x4b x28 x7d x5f x0d x0d)
(L (W x00 x00 x00 x00 x00 x00 x00 x00)) E))
(T (W x00 x00 x00 x01 x01 x01 x01 x01)
(T (W x00 x00 x00 x00 x00 x00 x00 x00)
(L (W x00 x10 x00 x00 x00 x00 x00 x00)) E)
(T (W x00 x00 x1f x1e x32 x00 x01 x01)
(L (W x00 x00 x00 x00 x00 x00 x00 x00)) E))))
(T (W x00 x00 x00 x01 x01 x01 x01 x01)
(T (W x00 x10 x00 x00 x00 x00 x00 x00)
(T (W x00 x00 x00 x00 x00 x00 x00 x00)
(T (W x01 x00 x01 x00 x01 x00 x01 x00)
(L (W x00 x00 x0e x00 xc6 x02 x00 x00))
(L (W x1e x10 x20 x80 x00 x00 x00 x00)))
(T (W x04 x03 x02 x01 x01 x01 x01 x01)
(L (W x00 x00 xff x00 x00 x00 x00 x00)) E))
(T (W x00 x00 x00 x00 x00 x00 x2f x01)
(T (W x00 x00 x00 x00 x00 x00 x00 x00)
(L (W x5d x5a x65 x5f x3c x51 x10 x00)) E)
(T (W x04 x04 x00 x00 x00 x00 x00 x00)
(L (W x00 x00 x00 x00 x00 x00 x00 x00)) E)))
(T (W x03 x03 x00 x00 x00 x00 x00 x00)
(T (W x00 x00 x74 x00 x2b x01 x00 x00)
(T (W x00 x00 x7f x28 x32 x05 x01 x0e)
(L (W x00 x00 x00 x00 x00 x00 x2d x03))
(L (W x02 x02 x00 x00 x00 x00 x00 x00)))
(T (W x00 x90 x20 x80 x00 x00 x00 x00)
(L (W x00 x00 x00 x00 x00 x00 x00 x00)) E))
(T (W x5f x3c x4f x51 x64 x7d x0a x0a)
(T (W x01 x41 x86 x00 x50 x00 xaa x00)
(L (W x01 x00 x01 x00 x01 x00 x01 x00)) E)
(T (W x00 x00 x04 x08 x16 x20 x20 x00)
(L (W x00 x00 x00 x01 x01 x01 x01 x01)) E)))))
(T (W x03 x04 x00 x00 x00 x00 x00 x00)
(T (W x00 x00 x3f x14 x32 x05 x05 x05)
(T (W x3c x00 x5f x37 x00 x00 x00 x00)
(T (W x00 x00 x00 x01 x01 x01 x01 x01)
(T (W x00 x00 x00 x00 x00 x00 x00 x00)
(L (W x02 x14 x00 x00 x00 x00 x00 x00))
(L (W x00 x00 x00 x00 x00 x00 x00 x00)))
(T (W x00 x00 x1f x14 x32 x03 x05 x05)
(L (W x00 x00 x00 x00 x00 x00 x00 x00)) E))
(T (W x03 x03 x00 x00 x00 x00 x00 x00)
(T (W x46 x50 x46 x6e x50 x46 x0e x07)
(L (W x11 x00 x00 x20 x00 x01 x10 x01)) E)
(T (W x00 x00 x00 x00 x00 x00 x00 x00)
(L (W x01 x00 x01 x00 x01 x00 x01 x00)) E)))
(T (W x00 x00 x00 x00 x00 x00 x00 x00)
(T (W x09 x10 x22 x80 x00 x00 x00 x00)
(T (W x00 x00 x00 x00 x00 x00 x00 x00)
(L (W x02 x02 x00 x00 x00 x00 x00 x00))
(L (W x09 x41 xad x00 x1e x00 x05 x00)))
(T (W x3c x00 x55 x2d x00 x00 x00 x00)
(L (W x96 x78 x64 x5a x78 x64 x07 x0f)) E))
(T (W x12 x59 x92 x00 x28 x3c x0c x00)
(T (W x0e x00 x10 x00 x13 x00 x19 x00)
(L (W x00 x00 x00 x00 x00 x00 x00 x00)) E)
(T (W x04 x04 x04 x01 x01 x01 x01 x01)
(L (W x00 x00 xff x00 x00 x00 x00 x00)) E))))
(T (W x00 x40 x10 x00 x40 x00 x41 x00)
(T (W x00 x00 x27 x00 x74 x01 x00 x00)
(T (W x41 x37 x5f x23 x41 x5f x0a x05)
(T (W x00 x00 x00 x00 x00 x00 x00 x00)
(L (W x0e x00 x10 x00 x13 x00 x19 x00))
(L (W x00 x00 x00 x00 x00 x00 x00 x00)))
(T (W x00 x00 x00 x00 x00 x00 x00 x00)
(L (W x03 x03 x02 x01 x01 x01 x01 x01)) E))
(T (W x00 x00 x7f x14 x32 x03 x06 x07)
(T (W x00 x00 x00 x00 x00 x00 x00 x00)
(L (W x3c x00 x5a x32 x00 x00 x00 x00)) E)
(T (W x00 x00 x00 x00 x00 x00 xae x02)
(L (W x01 x01 x00 x00 x00 x00 x00 x00)) E)))
(T (W x00 x00 x00 x00 x00 x00 xaf x00)
(T (W x01 x00 x01 x00 x01 x00 x01 x00)
(T (W x03 x02 x04 x01 x01 x01 x01 x02)
(L (W x00 x00 x7f x0f x32 x04 x05 x05)) E)
(T (W x00 x00 x15 x02 xca x00 x00 x00)
(L (W x19 x10 x02 x00 x00 x00 x00 x00)) E))
(T (W x32 x00 x55 x32 x00 x00 x00 x00)
(T (W x04 x04 x00 x00 x00 x00 x00 x00)
(L (W x00 x00 x00 x00 x00 x00 x00 x00)) E)
(T (W x00 x00 x00 x00 x00 x00 x00 x00)
(L (W x00 x00 x00 x00 x00 x00 x00 x00)) E))))))
(T (W x00 x00 x00 x00 x00 x00 x00 x00)
(T (W x46 x3e x43 x38 x37 x37 x03 x03)
(T (W x02 x90 x00 x00 x00 x00 x00 x00)
(T (W x03 x04 x00 x00 x00 x00 x00 x00)
(T (W x00 x00 x00 x00 x00 x00 x00 x00)
(T (W x00 x00 xff x50 x23 x05 x0f x0f)
(L (W x00 x00 x00 x00 x00 x00 xef x02))
(L (W x02 x02 x00 x00 x00 x00 x00 x00)))
(T (W x00 x10 x0a x00 x00 x00 x00 x00)
(L (W x00 x00 x00 x00 x00 x00 x00 x00)) E))
(T (W x00 x00 x00 x00 x00 x00 x00 x00)
(T (W x00 x00 x00 x00 x00 x00 x00 x00)
(L (W x0e x00 x10 x00 x13 x00 x19 x00)) E)
(T (W x00 x00 x00 x00 x00 x00 x00 x00)
(L (W x00 x00 x00 x01 x01 x01 x01 x01)) E)))
(T (W x10 x08 x80 x00 x04 x00 x00 x02)
(T (W x00 x00 x00 x00 x00 x00 xef x00)
(T (W x32 x00 x55 x32 x00 x00 x00 x00)
(L (W x3b xb5 x83 x6d x3b x1f x0b x08))
(L (W x88 x00 x00 x00 x04 x00 x10 x82)))
(T (W x03 x04 x00 x00 x00 x00 x00 x00)
(L (W x02 x41 xa6 x00 x5a x00 x2b x01)) E))
(T (W x01 x00 x01 x00 x01 x00 x01 x00)
(T (W x03 x03 x03 x01 x01 x01 x01 x01)
(L (W x00 x00 x1f x78 x32 x05 x0f x0f)) E)
(T (W x00 x00 x96 x01 x4a x01 x00 x00)
(L (W x00 x00 x00 x00 x00 x00 x00 x00)) E))))
(T (W x01 x00 x01 x00 x01 x00 x01 x00)
(T (W x00 x00 x7f x19 x32 x00 x03 x03)
(T (W x00 x00 x00 x00 x00 x00 x00 x00)
(T (W x00 x00 x00 x00 x00 x00 x00 x00)
(L (W x00 x00 x00 x01 x01 x01 x01 x01))
(L (W x00 x00 xff x78 x00 x05 x0f x0f)))
(T (W x0e x00 x10 x00 x13 x00 x19 x00)
(L (W x00 x00 x00 x00 x00 x00 x00 x00)) E))
(T (W x1c x10 x21 x20 x00 x00 x00 x00)
(T (W x00 x00 x00 x00 x00 x00 x00 x00)
(L (W x04 x05 x00 x00 x00 x00 x00 x00)) E)
(T (W x3c x00 x64 x32 x00 x00 x00 x00)
(L (W x00 x00 x00 x00 x00 x00 x00 x00)) E)))
(T (W x28 x00 x46 x28 x00 x00 x00 x00)
(T (W x00 x00 x00 x01 x01 x01 x01 x01)
(T (W x00 x00 xa1 x02 xb3 x00 x00 x00)
(L (W x00 x90 x00 x80 x00 x00 x00 x00)) E)
(T (W x00 x00 x7f x28 x23 x05 x0e x0e)
(L (W x00 x00 x00 x00 x00 x00 x00 x00)) E))
(T (W x04 x05 x00 x00 x00 x00 x00 x00)
(T (W x00 x00 x00 x00 x00 x00 x00 x00)
(L (W x00 x00 x02 x04 x30 x00 x06 x10)) E)
(T (W x01 x41 x40 x00 x28 x00 x4b x00)
(L (W x01 x00 x01 x00 x01 x00 x01 x00)) E)))))
(T (W x28 x00 x46 x28 x00 x00 x00 x00)
(T (W x00 x00 x73 x00 x5e x00 x00 x00)
(T (W x00 x00 x00 x00 x00 x00 x6f x00)
(T (W x01 x00 x01 x00 x01 x00 x01 x00)
(T (W x00 x00 x00 x01 x01 x01 x01 x01)
(L (W x00 x00 xfe x14 x32 x03 x07 x07))
(L (W x00 x00 x00 x00 x00 x00 x04 x03)))
(T (W x00 x00 xde x01 x5e x00 x00 x00)
(L (W x00 x00 x00 x00 x00 x00 x00 x00)) E))
(T (W x00 x00 x00 x00 x00 x00 x00 x00)
(T (W x02 x02 x00 x00 x00 x00 x00 x00)
(L (W x01 x49 x35 x00 x28 x00 x22 x00)) E)
(T (W x00 x00 x00 x00 x00 x00 x00 x00)
(L (W x00 x00 x00 x00 x00 x00 x00 x00)) E)))
(T (W x00 x00 x00 x00 x00 x00 x00 x00)
(T (W x00 x00 xff x78 x64 x03 x0f x0f)
(T (W xc0 x30 x02 x08 x00 x00 x00 x00)
(L (W x3c x00 x5f x3c x00 x00 x00 x00))
(L (W x4b x50 x46 x82 x41 x32 x0e x0e)))
(T (W x00 x00 x00 x00 x00 x00 x6e x02)
(L (W x01 x01 x00 x00 x00 x00 x00 x00)) E))
(T (W x01 x44 xaf x00 x96 x00 x38 x04)
(T (W x00 x40 x00 x12 x09 x14 x80 x40)
(L (W x02 x06 x05 x01 x01 x01 x02 x02)) E)
(T (W x0a x00 x0a x00 x13 x00 x0a x00)
(L (W x00 x00 x00 x00 x00 x00 x00 x00)) E))))
(T (W x00 x00 x00 x00 x00 x00 x00 x00)
(T (W x04 x03 x03 x01 x01 x01 x01 x01)
(T (W x04 x05 x00 x00 x00 x00 x00 x00)
(T (W x00 x00 x00 x00 x00 x00 x00 x00)
(L (W x26 x41 x02 x00 x03 x20 x0c x14))
(L (W x00 x00 x00 x01 x01 x01 x01 x01)))
(T (W x01 x47 x9a x00 x3c x00 xfe x01)
(L (W x01 x00 x01 x00 x01 x00 x01 x00)) E))
(T (W x00 x00 x43 x01 xfa x00 x00 x00)
(T (W x00 x00 x7f x0f x32 x03 x05 x05)
(L (W x00 x00 x00 x00 x00 x00 x6e x03)) E)
(T (W x00 x14 x00 x00 x00 x00 x00 x00)
(L (W x00 x00 x00 x00 x00 x00 x00 x00)) E)))
(T (W x00 x00 x00 x00 x00 x00 x00 x00)
(T (W x02 x00 x04 x0c x12 x20 x02 x00)
(T (W x0e x00 x10 x00 x13 x00 x19 x00)
(L (W x00 x00 x1a x02 xb3 x00 x00 x00)) E)
(T (W x03 x02 x01 x01 x01 x01 x01 x01)
(L (W x00 x00 xff x00 x00 x00 x00 x00)) E))
(T (W x00 x00 x00 x00 x00 x00 x00 x00)
(T (W x37 x00 x55 x2d x00 x00 x00 x00)
(L (W x00 x00 x00 x00 x00 x00 x00 x00)) E)
(T (W x01 x01 x00 x00 x00 x00 x00 x00)
(L (W x00 x00 x00 x00 x00 x00 x00 x00)) E)))))))
(T (W x3c x00 x55 x32 x00 x00 x00 x00)
(T (W x00 x00 x00 x00 x00 x00 x00 x00)
(T (W x00 x00 x7f x14 x32 x00 x05 x05)
(T (W x08 x00 x00 x00 x08 x10 x28 x00)
(T (W x00 x00 x00 x00 x00 x00 x00 x00)
(T (W x00 x00 x00 x00 x00 x00 x00 x00)
(T (W x01 x41 x2c x01 xa0 x00 x7c x15)
(L (W x0e x00 x10 x00 x13 x00 x19 x00))
(L (W x00 x00 x37 x02 x36 x01 x00 x00)))
(T (W x42 x41 x42 x04 x32 x00 x08 x00)
(L (W x05 x04 x04 x01 x01 x01 x01 x01)) E))
(T (W x00 x00 x7f x00 x00 x00 x00 x00)
(T (W x00 x00 x00 x00 x00 x00 x00 x00)
(L (W x32 x00 x5a x37 x00 x00 x00 x00)) E)
(T (W x00 x00 x00 x00 x00 x00 x00 x00)
(L (W x05 x05 x00 x00 x00 x00 x00 x00)) E)))
(T (W x00 x00 xa0 x01 xbd x02 x8f x00)
(T (W x0e x00 x10 x00 x13 x00 x19 x00)
(T (W x04 x04 x04 x01 x01 x01 x01 x01)
(L (W x00 x00 xff x78 x00 x05 x0f x0f))
(L (W x00 x00 xca x02 xd5 x02 x20 x03)))
(T (W x00 x00 x05 x01 x6d x00 x00 x00)
(L (W x00 x00 x00 x00 x00 x00 x00 x00)) E))
(T (W x32 x00 x50 x28 x00 x00 x00 x00)
(T (W x01 x01 x00 x00 x00 x00 x00 x00)
(L (W x02 x41 x4f x01 x18 x01 x4c x04)) E)
(T (W x43 x3a x39 x65 x51 x43 x0c x11)
(L (W x00 x00 x00 x00 x00 x00 x00 x00)) E))))
(T (W x37 x00 x55 x37 x00 x00 x00 x00)
(T (W x01 x45 x44 x00 x50 x00 x59 x01)
(T (W x00 x14 x02 x00 x00 x00 x00 x00)
(T (W x00 x00 x00 x00 x00 x00 x00 x00)
(L (W x05 x06 x00 x00 x00 x00 x00 x00))
(L (W x12 x47 x1d x01 xe6 x00 xed x03)))
(T (W x00 x00 x00 x00 x00 x00 x00 x00)
(L (W x00 x00 x00 x00 x00 x00 x00 x00)) E))
(T (W xa9 xc0 x00 x44 x49 x9c x00 x40)
(T (W x01 x00 x01 x00 x01 x00 x01 x00)
(L (W x00 x00 xb4 x00 x9c x02 x00 x00)) E)
(T (W x03 x02 x02 x01 x01 x01 x01 x01)
(L (W x00 x00 xff x00 x00 x00 x00 x00)) E)))
(T (W x00 x00 x00 x01 x01 x01 x01 x01)
(T (W x03 x04 x00 x00 x00 x00 x00 x00)
(T (W x87 x55 x28 x05 x28 x55 x00 x00)
(L (W x02 x20 x00 x04 x00 x00 x30 x00))
(L (W x00 x00 x00 x01 x01 x01 x01 x01)))
(T (W x01 x47 xa9 x00 x1e x00 x4a x01)
(L (W x01 x00 x01 x00 x01 x00 x01 x00)) E))
(T (W x00 x00 x00 x00 x00 x00 x00 x00)
(T (W x00 x00 x00 x14 x32 x00 x08 x08)
(L (W x00 x00 x00 x00 x00 x00 x1b x00)) E)
(T (W x12 x50 x00 x00 x00 x00 x00 x00)
(L (W x00 x00 x00 x00 x00 x00 x00 x00)) E)))))
(T (W x02 x02 x02 x01 x01 x01 x01 x01)
(T (W x5a x5f x5f x46 x46 x5a x0a x01)
(T (W x0e x00 x10 x00 x13 x00 x19 x00)
(T (W x00 x00 x00 x00 x00 x00 x00 x00)
(T (W x01 x01 x00 x00 x00 x00 x00 x00)
(L (W x01 x49 xaf x00 xd2 x00 x46 x05))
(L (W x0e x00 x10 x00 x13 x00 x19 x00)))
(T (W x2d x1e x32 x2d x37 x41 x0d x0d)
(L (W x00 x00 x00 x00 x00 x00 x00 x00)) E))
(T (W x05 x05 x05 x01 x01 x01 x01 x01)
(T (W x00 x00 x00 x00 x00 x00 x00 x00)
(L (W x00 x90 x00 x00 x06 x00 x00 x00)) E)
(T (W x00 x00 xe1 x00 x00 x00 x00 x00)
(L (W x00 x00 x00 x00 x00 x00 x00 x00)) E)))
(T (W x00 x00 x1f x00 x00 x00 x00 x00)
(T (W x01 x43 x2c x01 xc8 x00 xe4 x07)
(T (W x23 x00 x00 x04 x10 x00 x02 x8c)
(L (W x03 x00 x00 x01 x01 x01 x01 x01))
(L (W x00 x00 xfe x14 x32 x00 x06 x0b)))
(T (W x0e x00 x10 x00 x13 x00 x19 x00)
(L (W x00 x00 x00 x00 x00 x00 x00 x00)) E))
(T (W x00 x10 x08 x40 x00 x00 x00 x00)
(T (W x00 x00 x00 x00 x00 x00 x0f x02)
(L (W x01 x01 x00 x00 x00 x00 x00 x00)) E)
(T (W x3c x00 x55 x32 x00 x00 x00 x00)
(L (W x00 x00 x00 x00 x00 x00 x00 x00)) E))))
(T (W x00 x00 x00 x00 x00 x00 x00 x00)
(T (W x05 x05 x00 x00 x00 x00 x00 x00)
(T (W x00 x00 xbe x00 xf7 x01 x00 x00)
(T (W x00 x00 x1f x00 x00 x00 x00 x00)
(L (W x00 x00 x00 x00 x00 x00 x0e x03))
(L (W x01 x01 x00 x00 x00 x00 x00 x00)))
(T (W x00 x10 x00 x00 x00 x00 x00 x00)
(L (W x00 x00 x00 x00 x00 x00 x00 x00)) E))
(T (W x2d x5a x14 x41 x41 x14 x0a x10)
(T (W x00 x00 x00 x00 x00 x00 x00 x00)
(L (W x0e x00 x10 x00 x13 x00 x19 x00)) E)
(T (W x02 x00 x40 x40 x00 x42 x10 x0c)
(L (W x00 x00 x00 x01 x01 x01 x01 x01)) E)))
(T (W x56 x11 x02 x00 x20 x20 x0e x10)
(T (W x00 x00 x00 x00 x00 x00 x0e x01)
(T (W x00 x00 x00 x00 x00 x00 x00 x00)
(L (W x3c x32 x5a x3c x50 x78 x0b x0b)) E)
(T (W x05 x06 x00 x00 x00 x00 x00 x00)
(L (W x00 x00 x00 x00 x00 x00 x00 x00)) E))
(T (W x0e x00 x10 x00 x13 x00 x19 x00)
(T (W x03 x02 x02 x01 x01 x01 x01 x02)
(L (W x00 x00 x7f x14 x32 x00 x05 x05)) E)
(T (W x00 x00 x0b x00 xd1 x00 x00 x00)
(L (W x00 x00 x00 x00 x00 x00 x00 x00)) E))))))
(T (W x00 x00 x00 x00 x00 x00 x00 x00)
(T (W x00 x00 x2b x00 x40 x00 x00 x00)
(T (W x00 x00 x00 x00 x00 x00 x00 x00)
(T (W x04 x04 x04 x01 x01 x01 x01 x01)
(T (W x05 x05 x00 x00 x00 x00 x00 x00)
(T (W x64 x64 x5a x5a x96 x8c x0a x0a)
(L (W x80 x00 x04 x1a x82 x20 x00 x00))
(L (W x03 x00 x00 x01 x01 x01 x01 x01)))
(T (W x01 x43 x42 x00 x3c x00 x36 x01)
(L (W x01 x00 x01 x00 x01 x00 x01 x00)) E))
(T (W x00 x00 x00 x00 x00 x00 x00 x00)
(T (W x00 x00 x00 x14 x23 x05 x08 x0b)
(L (W x00 x00 x00 x00 x00 x00 x4e x03)) E)
(T (W x00 x50 x00 x00 x00 x00 x00 x00)
(L (W x00 x00 x00 x00 x00 x00 x00 x00)) E)))
(T (W x00 x10 x02 x80 x0a x00 x00 x00)
(T (W x0a x05 x02 x00 x21 x30 x6c x10)
(T (W x0e x00 x10 x00 x13 x00 x19 x00)
(L (W x00 x00 x59 x00 xd2 x02 x00 x00))
(L (W x80 x30 x40 x00 x00 x00 x00 x00)))
(T (W x03 x03 x03 x01 x01 x01 x01 x01)
(L (W x00 x00 xff x14 x32 x00 x0b x0b)) E))
(T (W x00 x00 x00 x00 x00 x00 x00 x00)
(T (W x3c x00 x64 x41 x00 x00 x00 x00)
(L (W x50 x64 x32 xc8 x64 x32 x0c x0c)) E)
(T (W x04 x05 x00 x00 x00 x00 x00 x00)
(L (W x00 x00 x00 x00 x00 x00 x00 x00)) E))))
(T (W x00 x00 x00 x00 x00 x00 x4f x00)
(T (W x41 x5f x39 x5d x64 x55 x09 x09)
(T (W x00 x00 x7f x00 x00 x00 x00 x00)
(T (W x1c x10 x21 x24 x00 x00 x00 x00)
(L (W x3c x00 x5a x32 x00 x00 x00 x00))
(L (W x5f x5f x5f x5f x5f x5f x10 x10)))
(T (W x00 x00 x00 x00 x00 x00 x4e x02)
(L (W x01 x01 x00 x00 x00 x00 x00 x00)) E))
(T (W x00 x00 x00 x00 x00 x00 x00 x00)
(T (W x00 x00 x00 x00 x00 x00 x00 x00)
(L (W x04 x03 x02 x01 x01 x01 x01 x01)) E)
(T (W x0e x00 x10 x00 x13 x00 x19 x00)
(L (W x00 x00 x00 x00 x00 x00 x00 x00)) E)))
(T (W x0e x00 x10 x00 x13 x00 x19 x00)
(T (W x00 x00 x00 x00 x00 x00 x00 x00)
(T (W x03 x03 x00 x00 x00 x00 x00 x00)
(L (W x01 x41 x24 x00 x28 x00 x50 x00)) E)
(T (W x5b x5a x81 x6c x5a x48 x08 x01)
(L (W xb8 x08 x90 x00 x20 x20 x20 x00)) E))
(T (W x00 x00 x00 x01 x01 x01 x01 x01)
(T (W x00 x00 x5c x00 xda x01 x00 x00)
(L (W x02 x90 x00 x00 x00 x00 x00 x00)) E)
(T (W x00 x00 x7f x00 x00 x00 x00 x00)
(L (W x00 x00 x00 x00 x00 x00 x00 x00)) E)))))
(T (W x0e x00 x10 x00 x13 x00 x19 x00)
(T (W x03 x05 x00 x00 x00 x00 x00 x00)
(T (W x00 x00 x00 x08 x82 x21 x00 x00)
(T (W x00 x00 x00 x00 x00 x00 x00 x00)
(T (W x00 x00 x00 x00 x00 x00 x00 x00)
(L (W x64 x78 x5a x50 x28 x3c x01 x01))
(L (W x13 xc4 x00 x10 x60 x04 x20 x00)))
(T (W x05 x05 x00 x00 x00 x00 x00 x00)
(L (W x00 x00 x00 x00 x00 x00 x00 x00)) E))
(T (W x01 x00 x01 x00 x01 x00 x01 x00)
(T (W x00 x00 x00 x01 x01 x01 x01 x01)
(L (W x00 x00 x00 x14 x32 x00 x06 x08)) E)
(T (W x00 x00 x00 x00 x00 x00 x00 x00)
(L (W x00 x00 x00 x00 x00 x00 x00 x00)) E)))
(T (W x00 x00 x00 x00 x00 x00 x00 x00)
(T (W x46 x55 x41 x78 x69 x55 x0b x0b)
(T (W x01 x49 x6e x00 x3c x00 xf4 x00)
(L (W x0e x00 x10 x00 x13 x00 x19 x00))
(L (W x00 x00 x03 x01 x0f x03 x00 x00)))
(T (W xa8 x00 x20 x02 x20 x0c x60 xc0)
(L (W x00 x00 x00 x01 x01 x01 x01 x01)) E))
(T (W x00 x00 x1f x1e x32 x01 x09 x09)
(T (W x00 x98 x00 x00 x02 x00 x00 x00)
(L (W x3c x00 x55 x14 x00 x00 x00 x00)) E)
(T (W x00 x00 x00 x00 x00 x00 xcf x02)
(L (W x01 x01 x00 x00 x00 x00 x00 x00)) E))))
(T (W x00 x00 x7f x14 x32 x05 x09 x09)
(T (W x32 x00 x50 x32 x00 x00 x00 x00)
(T (W x03 x03 x03 x01 x01 x01 x01 x01)
(T (W x00 x00 xc7 x01 xc6 x01 x00 x00)
(L (W x00 x00 x00 x00 x00 x00 x00 x00))
(L (W x00 x00 x00 x00 x00 x00 x00 x00)))
(T (W x00 x00 x7f x00 x00 x00 x00 x00)
(L (W x00 x00 x00 x00 x00 x00 x00 x00)) E))
(T (W x01 x01 x00 x00 x00 x00 x00 x00)
(T (W x40 x58 x32 x6a x58 x32 x10 x10)
(L (W x01 x00 x00 x40 x28 x0c x10 x00)) E)
(T (W x01 x45 x48 x00 x50 x00 x04 x01)
(L (W x01 x00 x01 x00 x01 x00 x01 x00)) E)))
(T (W x01 x41 xd2 x00 x50 x00 x1d x01)
(T (W x00 x00 x00 x00 x00 x00 x00 x00)
(T (W x00 x00 x00 x00 x00 x00 x6c x00)
(L (W x03 x03 x00 x00 x00 x00 x00 x00)) E)
(T (W x00 x00 x00 x00 x00 x00 x00 x00)
(L (W x4f x64 x50 x79 x6e x5a x02 x02)) E))
(T (W x00 x00 x00 x00 x00 x00 x00 x00)
(T (W x0e x00 x10 x00 x13 x00 x19 x00)
(L (W x00 x00 xb5 x02 x5c x01 x00 x00)) E)
(T (W x04 x04 x04 x01 x01 x01 x01 x01)
(L (W x00 x00 x7f x14 x32 x00 x0a x0a)) E))))))))
(T (W x12 x50 x00 x40 x00 x00 x00 x00)
(T (W x01 x41 x8e x00 x64 x00 xe1 x00)
(T (W x00 x00 x00 x00 x00 x00 x00 x00)
(T (W x3c x00 x55 x14 x00 x00 x00 x00)
(T (W x00 x00 x00 x00 x00 x00 x00 x00)
(T (W x00 x00 x00 x00 x00 x00 x5f x00)
(T (W x01 x00 x01 x00 x01 x00 x01 x00)
(T (W x05 x05 x05 x01 x01 x01 x01 x01)
(L (W x00 x00 x7f x14 x32 x00 x02 x02))
(L (W x00 x00 x00 x00 x00 x00 xc6 x02)))
(T (W x00 x00 x73 x01 x18 x01 x00 x00)
(L (W x80 x14 x00 x02 x02 x00 x00 x00)) E))
(T (W x28 x00 x50 x28 x00 x00 x00 x00)
(T (W x03 x04 x00 x00 x00 x00 x00 x00)
(L (W x01 x43 x34 x00 x14 x00 x05 x00)) E)
(T (W x00 x00 x00 x00 x00 x00 x00 x00)
(L (W x02 x84 x08 x40 x69 x0c x00 x00)) E)))
(T (W x50 x69 x41 x82 x3c x4b x05 x02)
(T (W x00 x00 x7f x00 x00 x00 x00 x00)
(T (W x00 x10 x80 x01 x00 x00 x00 x00)
(L (W x00 x00 x00 x00 x00 x00 x00 x00))
(L (W x61 x9d x7f x4d x71 x6d x0d x08)))
(T (W x00 x00 x00 x00 x00 x00 x5f x02)
(L (W x01 x01 x00 x00 x00 x00 x00 x00)) E))
(T (W x01 x45 x3a x00 x46 x00 x96 x00)
(T (W x00 x00 x00 x00 x00 x00 x00 x00)
(L (W x03 x03 x02 x01 x01 x01 x01 x01)) E)
(T (W x0e x00 x10 x00 x13 x00 x19 x00)
(L (W x00 x00 x00 x00 x00 x00 x00 x00)) E))))
(T (W x01 x41 x43 x00 x5a x00 xc7 x01)
(T (W x03 x06 x04 x01 x01 x01 x02 x02)
(T (W x03 x03 x00 x00 x00 x00 x00 x00)
(T (W x00 x00 x00 x00 x00 x00 x00 x00)
(L (W x42 x41 x00 x00 x0a x18 x00 x00))
(L (W x03 x03 x03 x01 x01 x01 x01 x01)))
(T (W x01 x48 x0c x01 x82 x00 x3f x02)
(L (W x01 x00 x01 x00 x01 x00 x01 x00)) E))
(T (W x00 x00 x3d x01 xe8 x00 x00 x00)
(T (W x00 x00 xff x00 x00 x00 x00 x00)
(L (W x00 x00 x00 x00 x00 x00 x34 x00)) E)
(T (W xc0 x11 x00 x00 x00 x00 x00 x00)
(L (W x00 x00 x00 x00 x00 x00 x00 x00)) E)))
(T (W x00 x00 x00 x00 x00 x00 x00 x00)
(T (W x88 x00 x00 x00 x08 x40 x30 x00)
(T (W x0e x00 x10 x00 x13 x00 x19 x00)
(L (W x00 x00 xcb x02 x60 x01 x00 x00))
(L (W x00 x50 x20 x01 x06 x00 x00 x00)))
(T (W x03 x02 x02 x01 x01 x01 x01 x01)
(L (W x00 x00 xff x00 x00 x00 x00 x00)) E))
(T (W x00 x00 x00 x00 x00 x00 x00 x00)
(T (W x3c x00 x64 x46 x00 x00 x00 x00)
(L (W x3c x55 x32 x6e x5f x55 x0c x0d)) E)
(T (W x04 x04 x00 x00 x00 x00 x00 x00)
(L (W x00 x00 x00 x00 x00 x00 x00 x00)) E)))))
(T (W x00 x30 x10 x10 x00 x00 x00 x00)
(T (W x0e x00 x10 x00 x13 x00 x19 x00)
(T (W x00 x00 x00 x19 x32 x00 x08 x08)
(T (W x00 x00 x00 x00 x00 x00 x00 x00)
(T (W x00 x00 x00 x00 x00 x00 x00 x00)
(L (W x03 x02 x02 x01 x01 x01 x01 x01))
(L (W x00 x00 x7f x0f x32 x00 x05 x05)))
(T (W x0e x00 x10 x00 x13 x00 x19 x00)
(L (W x00 x00 x00 x00 x00 x00 x00 x00)) E))
(T (W x00 x90 x00 x00 x00 x00 x00 x00)
(T (W x00 x00 x00 x00 x00 x00 xdf x01)
(L (W x03 x04 x00 x00 x00 x00 x00 x00)) E)
(T (W x00 x00 x00 x00 x00 x00 x00 x00)
(L (W x00 x00 x00 x00 x00 x00 x00 x00)) E)))
(T (W x00 x00 x00 x00 x00 x00 x00 x00)
(T (W x04 x03 x03 x01 x01 x01 x01 x01)
(T (W x00 x00 x00 x00 x00 x00 x00 x00)
(L (W xc0 x11 x02 x00 x06 x00 x00 x00))
(L (W x3c x00 x55 x32 x00 x00 x00 x00)))
(T (W x00 x00 x7f x19 x32 x03 x05 x08)
(L (W x00 x00 x00 x00 x00 x00 x00 x00)) E))
(T (W x04 x04 x00 x00 x00 x00 x00 x00)
(T (W x55 x87 x82 x19 x3c x50 x05 x05)
(L (W x44 x01 x02 x08 xa2 x20 x0c x00)) E)
(T (W x01 x41 x3d x00 x64 x00 xe3 x03)
(L (W x01 x00 x01 x00 x01 x00 x01 x00)) E))))
(T (W x04 x05 x00 x00 x00 x00 x00 x00)
(T (W x29 x20 x08 x44 x00 x0d x10 x02)
(T (W x00 x00 x00 x00 x00 x00 xdf x00)
(T (W x00 x00 x00 x00 x00 x00 x00 x00)
(L (W x2d x37 x41 x2d x2d x2d x0f x0f))
(L (W x00 x00 x00 x00 x00 x00 x00 x00)))
(T (W x03 x03 x00 x00 x00 x00 x00 x00)
(L (W x02 x48 x93 x00 x32 x00 x45 x01)) E))
(T (W x01 x00 x01 x00 x01 x00 x01 x00)
(T (W x00 x00 x00 x01 x01 x01 x01 x01)
(L (W x00 x00 x7f x19 x32 x05 x02 x05)) E)
(T (W x00 x00 x8d x01 x16 x02 x00 x00)
(L (W x00 x00 x00 x00 x00 x00 x00 x00)) E)))
(T (W x00 x00 x19 x01 x48 x02 x00 x00)
(T (W x28 x1e x1e x1e x28 x32 x0a x0b)
(T (W x00 x00 x00 x00 x00 x00 x00 x00)
(L (W x0e x00 x10 x00 x13 x00 x19 x00)) E)
(T (W xa9 x00 x01 x04 x51 x60 x43 x00)
(L (W x04 x04 x04 x01 x01 x01 x01 x01)) E))
(T (W x00 x00 x7f x14 x32 x03 x02 x05)
(T (W x00 x10 x00 x01 x00 x00 x00 x00)
(L (W x00 x00 x00 x00 x00 x00 x00 x00)) E)
(T (W x00 x00 x00 x00 x00 x00 x00 x00)
(L (W x01 x01 x00 x00 x00 x00 x00 x00)) E))))))
(T (W x01 x01 x00 x00 x00 x00 x00 x00)
(T (W x00 x00 x00 x00 x00 x00 x1d x00)
(T (W x03 x03 x03 x01 x01 x01 x01 x01)
(T (W x00 x00 x00 x00 x00 x00 x00 x00)
(T (W x00 x20 x00 x00 x08 x40 x10 x00)
(T (W x0a x00 x0a x00 x13 x00 x0a x00)
(L (W x00 x00 xa7 x02 xc6 x02 x00 x00))
(L (W x00 x90 x02 x00 x0c x00 x00 x00)))
(T (W x03 x03 x03 x01 x01 x01 x01 x01)
(L (W x00 x00 xff x00 x00 x00 x00 x00)) E))
(T (W x00 x00 x00 x00 x00 x00 x00 x00)
(T (W x3c x00 x55 x32 x00 x00 x00 x00)
(L (W x29 x3f x28 x42 x28 x1e x0a x0a)) E)
(T (W x03 x03 x00 x00 x00 x00 x00 x00)
(L (W x05 x46 x2c x01 x96 x00 x39 x03)) E)))
(T (W x03 x04 x00 x00 x00 x00 x00 x00)
(T (W x00 x00 x34 x00 xf3 x01 x00 x00)
(T (W x00 x00 x7f x14 x00 x00 x05 x08)
(L (W x00 x00 x00 x00 x00 x00 x1f x03))
(L (W x05 x06 x00 x00 x00 x00 x00 x00)))
(T (W x0b x10 x00 x00 x00 x00 x00 x00)
(L (W x3c x00 x55 x32 x00 x00 x00 x00)) E))
(T (W x4b x46 x5a x50 x46 x69 x0f x02)
(T (W x01 x47 x7d x00 x3c x00 x96 x00)
(L (W x0a x00 x0a x00 x0a x00 x0a x00)) E)
(T (W x80 x20 x00 x40 x01 x41 x00 x00)
(L (W x00 x00 x00 x01 x01 x01 x01 x01)) E))))
(T (W x41 x64 x46 x69 x50 x50 x09 x09)
(T (W x0e x00 x10 x00 x13 x00 x19 x00)
(T (W x00 x00 x00 x00 x00 x00 x00 x00)
(T (W x03 x04 x00 x00 x00 x00 x00 x00)
(L (W x01 x40 xaa x00 xc8 x00 x48 x08))
(L (W x0e x00 x10 x00 x13 x00 x19 x00)))
(T (W x45 x37 x2d x0f x37 x37 x0b x03)
(L (W x00 x00 x00 x00 x00 x00 x00 x00)) E))
(T (W x02 x05 x03 x01 x01 x01 x02 x02)
(T (W x00 x00 x00 x00 x00 x00 x00 x00)
(L (W x80 x11 x80 x12 x00 x00 x00 x00)) E)
(T (W x00 x00 x7f x14 x32 x00 x06 x06)
(L (W x00 x00 x00 x00 x00 x00 x00 x00)) E)))
(T (W x00 x00 x7f x14 x32 x05 x0c x0c)
(T (W x02 x48 x93 x00 x32 x00 x45 x01)
(T (W x81 x20 x00 x00 x08 x9c x00 x40)
(L (W x03 x03 x03 x01 x01 x01 x01 x01)) E)
(T (W x0e x00 x10 x00 x13 x00 x19 x00)
(L (W x00 x00 x00 x00 x00 x00 x00 x00)) E))
(T (W x00 x00 x00 x00 x00 x00 x00 x00)
(T (W x00 x00 x00 x00 x00 x00 x1f x02)
(L (W x03 x03 x00 x00 x00 x00 x00 x00)) E)
(T (W x3c x00 x5a x3c x00 x00 x00 x00)
(L (W x00 x00 x00 x00 x00 x00 x00 x00)) E)))))
(T (W x00 x00 x7f x14 x32 x03 x07 x07)
(T (W x80 x00 x21 x02 x01 x80 x20 x00)
(T (W x00 x00 xbc x01 x59 x00 x00 x00)
(T (W x64 x46 x46 x2d x41 x41 x00 x00)
(T (W x00 x00 x00 x00 x00 x00 x00 x00)
(L (W x0e x00 x10 x00 x13 x00 x19 x00))
(L (W x00 x00 x32 x01 xce x02 x00 x00)))
(T (W x46 x41 x12 x00 x62 x00 x0c x00)
(L (W x00 x00 x00 x01 x01 x01 x01 x01)) E))
(T (W x00 x00 x7f x00 x00 x00 x00 x00)
(T (W x10 x10 x02 x00 x04 x00 x00 x00)
(L (W x3c x00 x55 x37 x00 x00 x00 x00)) E)
(T (W x00 x00 x00 x00 x00 x00 x00 x00)
(L (W x01 x01 x00 x00 x00 x00 x00 x00)) E)))
(T (W x00 x00 x00 x00 x00 x00 x00 x00)
(T (W x0e x00 x10 x00 x13 x00 x19 x00)
(T (W x03 x03 x02 x01 x01 x01 x01 x01)
(L (W x00 x00 x1f x14 x32 x03 x05 x07))
(L (W x00 x00 x00 x00 x00 x00 x6c x03)))
(T (W x00 x00 x0e x00 xa3 x00 x00 x00)
(L (W x00 x00 x00 x00 x00 x00 x00 x00)) E))
(T (W x37 x00 x55 x37 x00 x00 x00 x00)
(T (W x05 x06 x00 x00 x00 x00 x00 x00)
(L (W x0a x42 x70 x00 x28 x00 x3c x00)) E)
(T (W x6c x64 x79 x5f x51 x5f x0f x04)
(L (W x00 x00 x00 x00 x00 x00 x00 x00)) E))))
(T (W x00 x00 x00 x00 x00 x00 x00 x00)
(T (W x01 x40 xb8 x00 x5a x00 xfa x00)
(T (W x00 x00 x00 x00 x00 x00 x00 x00)
(T (W x00 x00 x00 x00 x00 x00 x9f x01)
(L (W x02 x02 x00 x00 x00 x00 x00 x00))
(L (W x00 x00 x00 x00 x00 x00 x00 x00)))
(T (W x3c x00 x5f x32 x00 x00 x00 x00)
(L (W x00 x00 x00 x00 x00 x00 x00 x00)) E))
(T (W x00 x00 x00 x00 x00 x00 x00 x00)
(T (W x0e x00 x10 x00 x13 x00 x19 x00)
(L (W x00 x00 xb3 x01 xf2 x02 x00 x00)) E)
(T (W x04 x04 x03 x01 x01 x01 x01 x01)
(L (W x00 x00 xff x00 x00 x00 x00 x00)) E)))
(T (W x03 x03 x04 x01 x01 x01 x01 x02)
(T (W x04 x04 x00 x00 x00 x00 x00 x00)
(T (W x46 x46 x73 x3c x82 x5a x0c x08)
(L (W x81 x60 x00 x02 x08 x18 x10 xc0)) E)
(T (W x00 x00 x00 x00 x00 x00 x00 x00)
(L (W x01 x00 x01 x00 x01 x00 x01 x00)) E))
(T (W x00 x00 x00 x00 x00 x00 x00 x00)
(T (W x00 x00 x7f x14 x32 x03 x05 x05)
(L (W x00 x00 x00 x00 x00 x00 x4f x00)) E)
(T (W x00 x00 x00 x00 x00 x00 x00 x00)
(L (W x00 x00 x00 x00 x00 x00 x00 x00)) E)))))))
(T (W x00 x00 x7f x0f x32 x00 x03 x03)
(T (W x00 x00 x00 x00 x00 x00 x00 x00)
(T (W x0e x00 x10 x00 x13 x00 x19 x00)
(T (W x02 x02 x00 x00 x00 x00 x00 x00)
(T (W x80 x40 x00 x10 x00 x00 x18 x00)
(T (W x00 x00 x00 x00 x00 x00 x00 x00)
(T (W x00 x00 x00 x00 x00 x00 x00 x00)
(L (W x64 x7d x64 x23 x37 x55 x04 x04))
(L (W x00 x04 x22 x00 x61 x20 x00 x14)))
(T (W x05 x05 x00 x00 x00 x00 x00 x00)
(L (W x02 x42 x22 x01 xa0 x00 x46 x02)) E))
(T (W x01 x00 x01 x00 x01 x00 x01 x00)
(T (W x03 x02 x02 x01 x01 x01 x01 x01)
(L (W x00 x00 x7f x14 x32 x00 x05 x0e)) E)
(T (W x00 x00 x00 x00 x00 x00 x00 x00)
(L (W x02 x10 x04 x00 x00 x00 x00 x00)) E)))
(T (W x00 x00 x00 x00 x00 x00 x00 x00)
(T (W x2d x1e x0f x41 x55 x41 x0e x0d)
(T (W x00 x00 x00 x00 x00 x00 x00 x00)
(L (W x0a x00 x0a x00 x13 x00 x0a x00))
(L (W x00 x00 x00 x00 x00 x00 x00 x00)))
(T (W xa1 x80 x08 x52 x00 x00 x00 x00)
(L (W x03 x03 x03 x01 x01 x01 x01 x01)) E))
(T (W x00 x00 x7f x00 x00 x00 x00 x00)
(T (W xc0 x10 x00 x00 x00 x00 x00 x00)
(L (W x00 x00 x00 x00 x00 x00 x00 x00)) E)
(T (W x00 x00 x00 x00 x00 x00 xbf x02)
(L (W x01 x01 x00 x00 x00 x00 x00 x00)) E))))
(T (W x00 x00 x7f x00 x00 x00 x00 x00)
(T (W x28 x00 x46 x28 x00 x00 x00 x00)
(T (W x03 x03 x03 x01 x01 x01 x01 x01)
(T (W x00 x00 x00 x00 x00 x00 x00 x00)
(L (W x1e x10 x20 x80 x00 x00 x00 x00))
(L (W x3c x00 x50 x32 x00 x00 x00 x00)))
(T (W x00 x00 x7f x14 x32 x00 x05 x05)
(L (W x00 x00 x00 x00 x00 x00 x00 x00)) E))
(T (W x01 x01 x00 x00 x00 x00 x00 x00)
(T (W x64 x64 x64 x64 x64 x64 x0d x09)
(L (W x6e x41 x02 x00 x33 x20 x0e x10)) E)
(T (W x01 x45 x9d x00 x50 x00 x2d x00)
(L (W x01 x00 x01 x00 x01 x00 x01 x00)) E)))
(T (W x00 x00 x00 x00 x00 x00 x00 x00)
(T (W x00 x00 x00 x00 x00 x00 x00 x00)
(T (W x00 x00 x00 x00 x00 x00 xbf x01)
(L (W x03 x03 x00 x00 x00 x00 x00 x00)) E)
(T (W x3c x00 x55 x32 x00 x00 x00 x00)
(L (W x00 x00 x00 x00 x00 x00 x00 x00)) E))
(T (W x00 x00 x00 x00 x00 x00 x00 x00)
(T (W x01 x00 x01 x00 x01 x00 x01 x00)
(L (W x00 x00 x02 x01 x3b x00 x00 x00)) E)
(T (W x03 x03 x02 x01 x01 x01 x01 x01)
(L (W x00 x00 xff x00 x00 x00 x00 x00)) E)))))
(T (W x01 x49 xda x00 x64 x00 x78 x00)
(T (W x00 x00 x00 x00 x00 x00 x3f x00)
(T (W x41 x5a x78 x3c x55 x46 x03 x03)
(T (W x00 x00 x7f x00 x00 x00 x00 x00)
(T (W x00 x00 x00 x00 x00 x00 x00 x00)
(L (W x3c x00 x55 x32 x00 x00 x00 x00))
(L (W x2d x8c x82 x1e x8c x87 x0a x0a)))
(T (W x00 x00 x00 x00 x00 x00 x3e x02)
(L (W x01 x01 x00 x00 x00 x00 x00 x00)) E))
(T (W x00 x00 x00 x00 x00 x00 x00 x00)
(T (W x6e x01 x02 x00 x32 x30 x0c x14)
(L (W x04 x04 x04 x01 x01 x01 x01 x01)) E)
(T (W x01 x00 x01 x00 x01 x00 x01 x00)
(L (W x00 x00 x00 x00 x00 x00 x00 x00)) E)))
(T (W x01 x00 x01 x00 x01 x00 x01 x00)
(T (W x00 x00 x00 x00 x00 x00 x00 x00)
(T (W x04 x05 x00 x00 x00 x00 x00 x00)
(L (W x01 x47 x96 x00 x14 x00 x50 x00))
(L (W x0e x00 x10 x00 x13 x00 x19 x00)))
(T (W x3b x4a x32 x23 x23 x32 x04 x07)
(L (W x00 x00 x00 x00 x00 x00 x00 x00)) E))
(T (W x03 x02 x02 x01 x01 x01 x01 x01)
(T (W x00 x00 x93 x01 x74 x01 x00 x00)
(L (W x00 x10 x85 x04 x00 x00 x00 x00)) E)
(T (W x00 x00 x7f x14 x32 x00 x04 x0e)
(L (W x00 x00 x00 x00 x00 x00 x00 x00)) E))))
(T (W x00 x00 x00 x01 x01 x01 x01 x01)
(T (W x00 x90 x00 x00 x00 x00 x00 x00)
(T (W x00 x00 x00 x08 x00 x06 x10 x02)
(T (W x01 x00 x01 x00 x01 x00 x01 x00)
(L (W x00 x00 x4e x01 xb3 x02 x00 x00))
(L (W x00 x00 x00 x00 x00 x00 x00 x00)))
(T (W x03 x03 x02 x01 x01 x01 x01 x01)
(L (W x00 x00 xff x00 x00 x00 x00 x00)) E))
(T (W x00 x00 x00 x00 x00 x00 x3e x01)
(T (W x00 x00 x00 x00 x00 x00 x00 x00)
(L (W x48 x50 x31 x28 x28 x31 x08 x08)) E)
(T (W x04 x05 x00 x00 x00 x00 x00 x00)
(L (W x00 x00 x00 x00 x00 x00 x00 x00)) E)))
(T (W x01 x01 x00 x00 x00 x00 x00 x00)
(T (W x00 x00 xca x00 x38 x00 x00 x00)
(T (W x00 x00 x7f x14 x32 x05 x01 x07)
(L (W x00 x00 x00 x00 x00 x00 x3f x03)) E)
(T (W x00 x10 x02 x00 x02 x00 x00 x00)
(L (W x00 x00 x00 x00 x00 x00 x00 x00)) E))
(T (W x00 x00 x00 x00 x00 x00 x00 x00)
(T (W x01 x45 x7b x00 x64 x00 x4e x01)
(L (W x0e x00 x10 x00 x13 x00 x19 x00)) E)
(T (W x01 x40 x00 x32 x42 x00 x41 x00)
(L (W x00 x00 x00 x01 x01 x01 x01 x01)) E))))))
(T (W x00 x00 x00 x01 x01 x01 x01 x01)
(T (W xaa x00 x40 x42 x09 x58 x80 xc8)
(T (W x00 x00 x00 x00 x00 x00 x00 x00)
(T (W x01 x45 x40 x00 x28 x00 x41 x00)
(T (W x80 x90 x20 x00 x00 x00 x00 x00)
(T (W x00 x00 x00 x00 x00 x00 x7f x01)
(L (W x03 x03 x00 x00 x00 x00 x00 x00))
(L (W x00 x00 x00 x00 x00 x00 x00 x00)))
(T (W x3c x00 x55 x28 x00 x00 x00 x00)
(L (W x00 x00 x00 x00 x00 x00 x00 x00)) E))
(T (W x02 x00 x00 x30 x00 x00 x00 x00)
(T (W x01 x00 x01 x00 x01 x00 x01 x00)
(L (W x00 x00 x61 x02 x33 x00 x00 x00)) E)
(T (W x02 x02 x02 x01 x01 x01 x02 x02)
(L (W x00 x00 xff x00 x00 x00 x00 x00)) E)))
(T (W x03 x01 x01 x01 x01 x01 x01 x02)
(T (W x02 x02 x00 x00 x00 x00 x00 x00)
(T (W x00 x00 x00 x00 x00 x00 x00 x00)
(L (W x82 x02 x23 x03 x21 x2c x22 x80))
(L (W x04 x03 x02 x01 x01 x01 x01 x01)))
(T (W x01 x40 x3d x00 x28 x00 x4d x00)
(L (W x0e x00 x10 x00 x13 x00 x19 x00)) E))
(T (W x00 x00 x00 x00 x00 x00 x00 x00)
(T (W x00 x00 x7f x00 x00 x00 x00 x00)
(L (W x00 x00 x00 x00 x00 x00 x7f x03)) E)
(T (W x42 x30 x42 x00 x02 x00 x00 x00)
(L (W x00 x00 x00 x00 x00 x00 x00 x00)) E))))
(T (W x00 x00 x19 x01 x39 x00 x00 x00)
(T (W x00 x00 x00 x00 x00 x00 x7f x00)
(T (W x0e x00 x10 x00 x13 x00 x19 x00)
(T (W x04 x04 x04 x01 x01 x01 x01 x01)
(L (W x00 x00 x7f x00 x00 x00 x00 x00))
(L (W x00 x00 x00 x00 x00 x00 x04 x03)))
(T (W x00 x00 xb1 x01 xf7 x00 x00 x00)
(L (W x00 x00 x00 x00 x00 x00 x00 x00)) E))
(T (W x00 x00 x00 x00 x00 x00 x00 x00)
(T (W x01 x01 x00 x00 x00 x00 x00 x00)
(L (W x01 x48 x25 x00 x1e x00 x26 x00)) E)
(T (W x35 x36 x35 x2d x25 x2e x10 x0d)
(L (W x00 x00 x00 x00 x00 x00 x00 x00)) E)))
(T (W x5a x1e x0f x0f x28 x14 x00 x11)
(T (W x00 x00 x7f x00 x00 x00 x00 x00)
(T (W x00 x9c x02 x00 x00 x00 x00 x00)
(L (W x3c x00 x5a x32 x00 x00 x00 x00)) E)
(T (W x00 x00 x00 x00 x00 x00 x7f x02)
(L (W x03 x03 x00 x00 x00 x00 x00 x00)) E))
(T (W x01 x41 x34 x00 x3c x00 x8c x00)
(T (W x20 x00 x00 x08 x02 x20 x00 x10)
(L (W x04 x04 x03 x01 x01 x01 x01 x01)) E)
(T (W x01 x00 x01 x00 x01 x00 x01 x00)
(L (W x00 x00 x00 x00 x00 x00 x00 x00)) E)))))
(T (W x00 x00 x00 x00 x00 x00 x00 x00)
(T (W x00 x00 x00 x00 x00 x00 x00 x00)
(T (W x05 x06 x00 x00 x00 x00 x00 x00)
(T (W x00 x00 xae x00 x9d x00 x00 x00)
(T (W x00 x00 x1f x00 x00 x00 x00 x00)
(L (W x00 x00 x00 x00 x00 x00 xff x02))
(L (W x05 x05 x00 x00 x00 x00 x00 x00)))
(T (W x00 x00 x00 x00 x00 x00 x00 x00)
(L (W x00 x00 x00 x00 x00 x00 x00 x00)) E))
(T (W x32 x4b x4b x32 x41 x41 x10 x07)
(T (W x01 x42 x2c x01 x96 x00 x58 x03)
(L (W x0e x00 x10 x00 x13 x00 x19 x00)) E)
(T (W xa9 x04 x01 x04 x20 x2e x22 x00)
(L (W x00 x00 x00 x01 x01 x01 x01 x01)) E)))
(T (W x00 x00 x00 x00 x00 x00 x00 x00)
(T (W x00 x00 x00 x00 x00 x00 xff x00)
(T (W x00 x00 x00 x00 x00 x00 x00 x00)
(L (W x41 x56 x3c x5e x37 x3c x09 x09))
(L (W x01 x44 x20 x00 x41 x04 x60 x14)))
(T (W x03 x04 x00 x00 x00 x00 x00 x00)
(L (W x00 x00 x00 x00 x00 x00 x00 x00)) E))
(T (W x0e x00 x10 x00 x13 x00 x19 x00)
(T (W x03 x02 x02 x01 x01 x01 x01 x01)
(L (W x00 x00 x00 x0a x32 x00 x0f x0f)) E)
(T (W x00 x00 x00 x00 x00 x00 x00 x00)
(L (W x00 x00 x00 x00 x00 x00 x00 x00)) E))))
(T (W x0e x00 x10 x00 x13 x00 x19 x00)
(T (W x00 x00 x1f x1e x32 x00 x02 x09)
(T (W x00 x00 x00 x00 x00 x00 x00 x00)
(T (W x00 x00 x00 x00 x00 x00 x00 x00)
(L (W x0a x0a x0a x01 x01 x01 x01 x01))
(L (W x00 x00 xff x00 x00 x00 x00 x00)))
(T (W x01 x00 x01 x00 x01 x00 x01 x00)
(L (W x00 x00 x00 x00 x00 x00 x00 x00)) E))
(T (W x00 x00 x00 x00 x00 x00 x00 x00)
(T (W x00 x00 x00 x00 x00 x00 x00 x00)
(L (W x03 x03 x00 x00 x00 x00 x00 x00)) E)
(T (W x37 x00 x55 x2d x00 x00 x00 x00)
(L (W x00 x00 x00 x00 x00 x00 x00 x00)) E)))
(T (W x50 x00 x64 x28 x00 x00 x00 x00)
(T (W x04 x04 x03 x01 x01 x01 x01 x01)
(T (W x00 x00 xbc x01 x59 x00 x00 x00)
(L (W x00 x10 x00 x00 x00 x00 x00 x00)) E)
(T (W x00 x00 x1f x00 x00 x00 x00 x00)
(L (W x00 x00 x00 x00 x00 x00 x82 x02)) E))
(T (W x03 x04 x00 x00 x00 x00 x00 x00)
(T (W x46 x69 x7d x2d x41 x4b x06 x05)
(L (W x00 x00 x00 x00 x00 x00 x00 x00)) E)
(T (W x02 x45 x38 x00 x32 x00 x5c x00)
(L (W x0e x00 x10 x00 x13 x00 x19 x00)) E))))))))))
(T (W x00 x14 x00 x41 x00 x00 x00 x00)
(T (W x3c x3e x3f x3c x50 x50 x0b x03)
(T (W x00 x00 x00 x00 x00 x00 x01 x00)
(T (W x11 x8a x88 x40 x01 x00 x20 x03)
(T (W x01 x48 xc6 x00 x6e x00 x40 x01)
(T (W x01 x01 x00 x00 x00 x00 x00 x00)
(T (W x00 x00 x7f x00 x00 x00 x00 x00)
(T (W x3c x00 x50 x1e x00 x00 x00 x00)
(T (W x04 x04 x04 x01 x01 x01 x01 x01)
(T (W x00 x00 x74 x00 x51 x01 x00 x00)
(L (W x14 x10 x30 x00 x04 x00 x00 x00))
(L (W x3c x00 x64 x3c x00 x00 x00 x00)))
(T (W x00 x00 x7f x0f x23 x00 x05 x0e)
(L (W x00 x00 x00 x00 x00 x00 x66 x00)) E))
(T (W x04 x05 x00 x00 x00 x00 x00 x00)
(T (W x4b x7b x43 x5f x5f x55 x0c x0c)
(L (W x10 x48 x90 x00 x00 x9c x10 x41)) E)
(T (W x00 x00 x00 x00 x00 x00 x00 x00)
(L (W x0a x00 x0a x00 x13 x00 x0a x00)) E)))
(T (W x01 x45 x47 x00 x32 x00 x73 x00)
(T (W xc0 x10 x04 x20 x00 x00 x00 x00)
(T (W x00 x00 x00 x00 x00 x00 x00 x00)
(L (W x05 x06 x00 x00 x00 x00 x00 x00))
(L (W x00 x00 x00 x00 x00 x00 x00 x00)))
(T (W x3c x00 x50 x28 x00 x00 x00 x00)
(L (W x00 x00 x00 x00 x00 x00 x00 x00)) E))
(T (W x00 x00 x00 x00 x00 x00 x00 x00)
(T (W x01 x00 x01 x00 x01 x00 x01 x00)
(L (W x00 x00 x70 x01 x10 x03 x00 x00)) E)
(T (W x05 x05 x05 x01 x01 x01 x01 x01)
(L (W x00 x00 xff x00 x00 x00 x00 x00)) E))))
(T (W x00 x00 x00 x00 x00 x00 x00 x00)
(T (W x00 x00 x6c x00 xef x00 x00 x00)
(T (W x00 x00 x00 x00 x00 x00 x00 x00)
(T (W x00 x00 x00 x00 x00 x00 x00 x00)
(L (W x0e x00 x10 x00 x13 x00 x19 x00))
(L (W x00 x00 x32 x01 xce x02 x00 x00)))
(T (W x28 x44 x00 x00 x40 x00 x08 x00)
(L (W x00 x00 x00 x01 x01 x01 x01 x01)) E))
(T (W x00 x00 x7f x14 x32 x04 x05 x06)
(T (W x00 x00 x00 x00 x00 x00 x00 x00)
(L (W x32 x00 x5a x28 x00 x00 x00 x00)) E)
(T (W x00 x00 x00 x00 x00 x00 xa2 x02)
(L (W x01 x01 x00 x00 x00 x00 x00 x00)) E)))
(T (W x00 x00 x00 x00 x00 x00 xa3 x00)
(T (W x0e x00 x10 x00 x13 x00 x19 x00)
(T (W x04 x04 x04 x01 x01 x01 x01 x01)
(L (W x00 x00 x1f x14 x32 x03 x05 x08))
(L (W x00 x00 x00 x00 x00 x00 x7a x03)))
(T (W x00 x00 xd4 x01 x93 x01 x00 x00)
(L (W x00 x00 x00 x00 x00 x00 x00 x00)) E))
(T (W x3c x00 x5a x32 x00 x00 x00 x00)
(T (W x03 x03 x00 x00 x00 x00 x00 x00)
(L (W x00 x00 x00 x00 x00 x00 x00 x00)) E)
(T (W x44 x37 x37 x2a x32 x32 x0b x02)
(L (W x00 x00 x00 x00 x00 x00 x00 x00)) E)))))
(T (W x00 x00 x00 x00 x00 x00 xad x00)
(T (W x04 x04 x04 x01 x01 x01 x01 x01)
(T (W x00 x90 x02 x40 x06 x00 x00 x00)
(T (W x00 x00 x00 x00 x00 x00 x00 x00)
(T (W x0a x00 x0a x00 x13 x00 x0a x00)
(L (W x00 x00 x93 x00 x9c x02 x00 x00))
(L (W x00 x00 x00 x00 x00 x00 x00 x00)))
(T (W x03 x03 x03 x01 x01 x01 x01 x01)
(L (W x00 x00 xff x00 x00 x00 x00 x00)) E))
(T (W x00 x00 x00 x00 x00 x00 x22 x01)
(T (W x3c x00 x55 x32 x00 x00 x00 x00)
(L (W x32 x41 x2d x2d x32 x32 x09 x06)) E)
(T (W x03 x03 x00 x00 x00 x00 x00 x00)
(L (W x00 x00 x00 x00 x00 x00 x00 x00)) E)))
(T (W x06 x07 x00 x00 x00 x00 x00 x00)
(T (W x00 x00 x00 x00 x00 x00 x00 x00)
(T (W x00 x00 xbf x00 x00 x00 x00 x00)
(L (W x00 x00 x00 x00 x00 x00 x23 x03))
(L (W x04 x05 x00 x00 x00 x00 x00 x00)))
(T (W x00 x14 x00 x00 x00 x00 x00 x00)
(L (W x3c x00 x55 x32 x00 x00 x00 x00)) E))
(T (W x5a x5f x55 x46 x37 x41 x05 x0d)
(T (W x01 x41 x38 x00 x28 x00 xb4 x00)
(L (W x0a x00 x0a x00 x0a x00 x0a x00)) E)
(T (W x42 x01 x10 x0c x02 x20 x0a x00)
(L (W x00 x00 x00 x01 x01 x01 x01 x01)) E))))
(T (W x32 x3c x5f x46 x78 x46 x0c x08)
(T (W x0e x00 x10 x00 x13 x00 x19 x00)
(T (W x3c x00 x5a x28 x00 x00 x00 x00)
(T (W x03 x04 x00 x00 x00 x00 x00 x00)
(L (W x01 x48 xaa x00 x2c x01 x3a x07))
(L (W x01 x00 x01 x00 x01 x00 x01 x00)))
(T (W x00 x00 x00 x00 x00 x00 x00 x00)
(L (W x02 x40 x02 x80 x08 x18 x10 x80)) E))
(T (W x00 x00 x00 x01 x01 x01 x01 x01)
(T (W x00 x00 x00 x00 x00 x00 x00 x00)
(L (W x01 x50 x00 x80 x00 x00 x00 x00)) E)
(T (W x00 x00 x7f x14 x32 x00 x02 x0c)
(L (W x00 x00 x00 x00 x00 x00 x00 x00)) E)))
(T (W x00 x00 x1f x0a x32 x04 x0f x0f)
(T (W x00 x00 x00 x00 x00 x00 x00 x00)
(T (W x22 x00 x01 x16 x11 x4a x22 x88)
(L (W x03 x02 x02 x01 x01 x01 x01 x01)) E)
(T (W x0e x00 x10 x00 x13 x00 x19 x00)
(L (W x00 x00 xa7 x01 xa3 x01 x00 x00)) E))
(T (W x09 x30 x00 x00 x00 x00 x00 x00)
(T (W x00 x00 x00 x00 x00 x00 x22 x02)
(L (W x02 x03 x00 x00 x00 x00 x00 x00)) E)
(T (W x00 x00 x00 x00 x00 x00 x00 x00)
(L (W x00 x00 x00 x00 x00 x00 x00 x00)) E))))))
(T (W x00 x00 x00 x00 x00 x00 x00 x00)
(T (W x3c x00 x64 x46 x00 x00 x00 x00)
(T (W x00 x00 x2d x00 x06 x00 x00 x00)
(T (W x00 x00 x00 x00 x00 x00 x62 x00)
(T (W x01 x00 x01 x00 x01 x00 x01 x00)
(T (W x00 x00 x00 x01 x01 x01 x01 x01)
(L (W x00 x00 x7f x0f x32 x00 x02 x03))
(L (W x00 x00 x00 x00 x00 x00 xce x02)))
(T (W x00 x00 xae x00 x9d x00 x00 x00)
(L (W x00 x30 x20 x80 x00 x00 x00 x00)) E))
(T (W x00 x00 x00 x00 x00 x00 x00 x00)
(T (W x05 x05 x00 x00 x00 x00 x00 x00)
(L (W x01 x43 xb3 x00 x7c x01 x8f x02)) E)
(T (W x00 x00 x00 x00 x00 x00 x00 x00)
(L (W x00 x42 x00 x34 x62 x06 x08 x00)) E)))
(T (W x5a x64 x5a x5a x7d x55 x09 x02)
(T (W x00 x00 x3f x19 x32 x00 x0f x0f)
(T (W x00 x70 x00 x00 x02 x00 x00 x00)
(L (W x00 x00 x00 x00 x00 x00 x00 x00))
(L (W x46 x55 x37 x55 x55 x5f x02 x0a)))
(T (W x00 x00 x00 x00 x00 x00 x62 x02)
(L (W x03 x03 x00 x00 x00 x00 x00 x00)) E))
(T (W x00 x00 x00 x00 x00 x00 x00 x00)
(T (W x46 x01 x12 x00 x22 x00 x0c x10)
(L (W x00 x00 x00 x01 x01 x01 x01 x01)) E)
(T (W x0e x00 x10 x00 x13 x00 x19 x00)
(L (W x00 x00 x00 x00 x00 x00 x00 x00)) E))))
(T (W x00 x00 x00 x00 x00 x00 x00 x00)
(T (W x05 x04 x04 x01 x01 x01 x01 x01)
(T (W x03 x03 x00 x00 x00 x00 x00 x00)
(T (W x00 x00 x00 x00 x00 x00 x00 x00)
(L (W x00 x00 x00 x00 x00 x00 x00 x00))
(L (W x03 x03 x03 x01 x01 x01 x01 x01)))
(T (W x01 x41 x3f x00 x32 x00 x3b x00)
(L (W x01 x00 x01 x00 x01 x00 x01 x00)) E))
(T (W x00 x00 x00 x00 x00 x00 x00 x00)
(T (W x00 x00 x1f x00 x00 x00 x00 x00)
(L (W x00 x00 x00 x00 x00 x00 x32 x02)) E)
(T (W x22 x90 x00 xc0 x02 x00 x00 x00)
(L (W x00 x00 x00 x00 x00 x00 x00 x00)) E)))
(T (W x00 x76 x00 x80 x00 x00 x00 x00)
(T (W x00 x00 x00 x00 x00 x00 x00 x00)
(T (W x0e x00 x10 x00 x13 x00 x19 x00)
(L (W x00 x00 xa2 x00 x22 x00 x00 x00)) E)
(T (W x03 x02 x02 x01 x01 x01 x01 x01)
(L (W x00 x00 xff x00 x00 x00 x00 x00)) E))
(T (W x00 x00 x00 x00 x00 x00 x63 x01)
(T (W x00 x00 x00 x00 x00 x00 x00 x00)
(L (W x49 x43 x4b x6d x51 x64 x0e x11)) E)
(T (W x05 x05 x00 x00 x00 x00 x00 x00)
(L (W x00 x00 x00 x00 x00 x00 x00 x00)) E)))))
(T (W x00 x54 x00 x80 x00 x00 x00 x00)
(T (W x0e x00 x10 x00 x13 x00 x19 x00)
(T (W x00 x00 x7f x14 x32 x05 x01 x05)
(T (W x00 x00 x00 x00 x00 x00 x00 x00)
(T (W x00 x00 x00 x00 x00 x00 x00 x00)
(L (W x03 x03 x03 x01 x01 x01 x01 x01))
(L (W x00 x00 xff x78 x00 x05 x0f x0f)))
(T (W x0e x00 x10 x00 x13 x00 x19 x00)
(L (W x00 x00 x00 x00 x00 x00 x00 x00)) E))
(T (W x00 x00 x00 x00 x00 x00 x00 x00)
(T (W x00 x00 x00 x00 x00 x00 xe3 x01)
(L (W x03 x04 x00 x00 x00 x00 x00 x00)) E)
(T (W x00 x00 x00 x00 x00 x00 x00 x00)
(L (W x00 x00 x00 x00 x00 x00 x00 x00)) E)))
(T (W x00 x00 x00 x00 x00 x00 x00 x00)
(T (W x03 x00 x00 x01 x01 x01 x01 x01)
(T (W x00 x00 x4e x01 x68 x01 x00 x00)
(L (W x00 x10 x00 x04 x02 x00 x00 x00))
(L (W x3c x00 x55 x32 x00 x00 x00 x00)))
(T (W x00 x00 xff x19 x32 x00 x0a x0a)
(L (W x00 x00 x00 x00 x00 x00 x00 x00)) E))
(T (W x03 x03 x00 x00 x00 x00 x00 x00)
(T (W x6e x87 x3c x58 x32 x41 x04 x08)
(L (W x08 x00 x00 x00 x10 x20 x41 x04)) E)
(T (W x02 x41 x54 x01 x2c x01 x66 x08)
(L (W x01 x00 x01 x00 x01 x00 x01 x00)) E))))
(T (W x01 x01 x00 x00 x00 x00 x00 x00)
(T (W x02 x24 x00 x00 x00 x00 x34 x00)
(T (W x00 x00 x00 x00 x00 x00 xe3 x00)
(T (W x00 x00 x00 x00 x00 x00 x00 x00)
(L (W x46 x55 x4b x5f x82 x73 x0d x11))
(L (W x00 x00 x00 x00 x00 x00 x00 x00)))
(T (W x02 x03 x00 x00 x00 x00 x00 x00)
(L (W x00 x00 x00 x00 x00 x00 x00 x00)) E))
(T (W x0e x00 x10 x00 x13 x00 x19 x00)
(T (W x04 x04 x04 x01 x01 x01 x01 x01)
(L (W x00 x00 x7f x19 x32 x00 x05 x0a)) E)
(T (W x00 x00 x4a x01 x60 x01 x00 x00)
(L (W x00 x00 x00 x00 x00 x00 x00 x00)) E)))
(T (W x00 x00 x00 x00 x00 x00 x00 x00)
(T (W x46 x46 x28 x3c x3c x28 x0b x10)
(T (W x01 x48 xad x00 xdc x00 x4b x05)
(L (W x0e x00 x10 x00 x13 x00 x19 x00)) E)
(T (W x02 x84 x08 x40 x69 x0c x00 x00)
(L (W x00 x00 x00 x01 x01 x01 x01 x01)) E))
(T (W x00 x00 x7f x00 x00 x00 x00 x00)
(T (W x16 x98 x22 x00 x06 x00 x00 x00)
(L (W x3c x00 x64 x46 x00 x00 x00 x00)) E)
(T (W x00 x00 x00 x00 x00 x00 x00 x00)
(L (W x01 x01 x00 x00 x00 x00 x00 x00)) E)))))))
(T (W x01 x10 x02 x40 x00 x00 x00 x00)
(T (W x00 x00 x7f x00 x00 x00 x00 x00)
(T (W x03 x08 x06 x01 x01 x01 x02 x02)
(T (W x0a x37 x19 x5f x23 x2d x04 x04)
(T (W x01 x00 x01 x00 x01 x00 x01 x00)
(T (W x00 x00 x00 x00 x00 x00 x00 x00)
(T (W x04 x05 x00 x00 x00 x00 x00 x00)
(L (W x01 x41 xad x00 x46 x00 x91 x00))
(L (W x0e x00 x10 x00 x13 x00 x19 x00)))
(T (W x26 x1e x55 x1e x37 x41 x07 x07)
(L (W x6e x41 x02 x00 x33 x20 x0e x10)) E))
(T (W x02 x03 x01 x01 x01 x01 x02 x02)
(T (W x00 x00 xba x00 x17 x03 x00 x00)
(L (W x00 x50 x00 x80 x00 x00 x00 x00)) E)
(T (W x00 x00 x1f x00 x00 x00 x00 x00)
(L (W x00 x00 x00 x00 x00 x00 x87 x02)) E)))
(T (W x00 x00 x1f x28 x32 x05 x01 x01)
(T (W x01 x46 x2a x00 x46 x00 xd2 x00)
(T (W x00 x20 x00 x00 x08 x00 x10 x00)
(L (W x03 x00 x00 x01 x01 x01 x01 x01))
(L (W x00 x00 xff x78 x00 x05 x0f x0f)))
(T (W x0e x00 x10 x00 x13 x00 x19 x00)
(L (W x00 x00 x00 x00 x00 x00 x00 x00)) E))
(T (W x00 x10 x02 x80 x00 x00 x00 x00)
(T (W x00 x00 x00 x00 x00 x00 x00 x00)
(L (W x04 x04 x00 x00 x00 x00 x00 x00)) E)
(T (W x28 x00 x55 x32 x00 x00 x00 x00)
(L (W x00 x00 x00 x00 x00 x00 x00 x00)) E))))
(T (W x00 x36 x00 x00 x02 x00 x00 x00)
(T (W x03 x03 x00 x00 x00 x00 x00 x00)
(T (W x00 x00 x0e x00 xba x01 x00 x00)
(T (W x00 x00 x7f x00 x00 x00 x00 x00)
(L (W x00 x00 x00 x00 x00 x00 x03 x03))
(L (W x05 x05 x00 x00 x00 x00 x00 x00)))
(T (W x00 x00 x00 x00 x00 x00 x00 x00)
(L (W x00 x00 x00 x00 x00 x00 x00 x00)) E))
(T (W x46 x6e xb4 x32 x3c x3c x08 x05)
(T (W x00 x00 x00 x00 x00 x00 x00 x00)
(L (W x0e x00 x10 x00 x13 x00 x19 x00)) E)
(T (W x42 x01 x02 x04 x32 x00 x28 x04)
(L (W x00 x00 x00 x01 x01 x01 x01 x01)) E)))
(T (W x00 x00 x00 x00 x00 x00 x00 x00)
(T (W x00 x00 x00 x00 x00 x00 x02 x01)
(T (W x37 x00 x55 x2d x00 x00 x00 x00)
(L (W x46 x55 x41 x78 x7d x41 x0a x0a))
(L (W xed x41 x22 x08 xa2 xa0 x0c xc0)))
(T (W x04 x04 x00 x00 x00 x00 x00 x00)
(L (W x00 x00 x00 x00 x00 x00 x00 x00)) E))
(T (W x01 x00 x01 x00 x01 x00 x01 x00)
(T (W x03 x03 x02 x01 x01 x01 x01 x01)
(L (W x00 x00 x7f x14 x32 x00 x05 x05)) E)
(T (W x00 x00 x96 x02 x5c x01 x00 x00)
(L (W x00 x00 x00 x00 x00 x00 x00 x00)) E)))))
(T (W x12 x08 x82 x04 x32 x00 x06 x00)
(T (W x28 x00 x46 x28 x00 x00 x00 x00)
(T (W x01 x49 x4d x00 x78 x00 x8f x02)
(T (W x00 x00 x00 x00 x00 x00 x00 x00)
(T (W x00 x00 x00 x00 x00 x00 x00 x00)
(L (W x03 x03 x00 x00 x00 x00 x00 x00))
(L (W x03 x40 xaa x00 x6e x00 xfa x00)))
(T (W x3c x00 x55 x32 x00 x00 x00 x00)
(L (W x00 x00 x00 x00 x00 x00 x00 x00)) E))
(T (W x2a x0c x00 x00 x20 x00 x20 x00)
(T (W x0a x00 x0a x00 x13 x00 x0a x00)
(L (W x00 x00 x0d x01 x14 x00 x00 x00)) E)
(T (W x00 x00 x00 x01 x01 x01 x01 x01)
(L (W x00 x00 xff x00 x00 x00 x00 x00)) E)))
(T (W x00 x00 x00 x01 x01 x01 x01 x01)
(T (W x06 x06 x00 x00 x00 x00 x00 x00)
(T (W x3f x3f x2f x4a x29 x29 x03 x10)
(L (W x7a x08 x02 x04 x20 x00 x06 x00))
(L (W x04 x03 x02 x01 x01 x01 x01 x01)))
(T (W x01 x46 xb3 x00 x8c x00 x63 x01)
(L (W x01 x00 x01 x00 x01 x00 x01 x00)) E))
(T (W x00 x00 x85 x00 x59 x00 x00 x00)
(T (W x00 x00 x7f x0f x32 x00 x05 x04)
(L (W x00 x00 x00 x00 x00 x00 x00 x00)) E)
(T (W x09 x10 x02 x00 x04 x00 x00 x00)
(L (W x00 x00 x00 x00 x00 x00 x00 x00)) E))))
(T (W x00 x00 x00 x00 x00 x00 x00 x00)
(T (W x00 x00 x00 x00 x00 x00 x83 x00)
(T (W x0e x00 x10 x00 x13 x00 x19 x00)
(T (W x00 x00 x00 x01 x01 x01 x01 x01)
(L (W x00 x00 x7f x28 x32 x05 x0e x0e))
(L (W x00 x00 x00 x00 x00 x00 x00 x00)))
(T (W x00 x00 x0f x02 xb3 x01 x00 x00)
(L (W x00 x00 x00 x00 x00 x00 x00 x00)) E))
(T (W x00 x00 x00 x00 x00 x00 x00 x00)
(T (W x01 x01 x00 x00 x00 x00 x00 x00)
(L (W x02 x46 xa6 x00 x5a x00 x18 x01)) E)
(T (W x32 x3c x3c x1e x3c x3c x03 x0a)
(L (W x00 x00 x00 x00 x00 x00 x00 x00)) E)))
(T (W x41 x4b x46 x5f x5f x46 x0d x02)
(T (W x00 x00 x7f x0f x32 x03 x02 x07)
(T (W x00 x00 x00 x00 x00 x00 x00 x00)
(L (W x32 x00 x50 x2d x00 x00 x00 x00)) E)
(T (W x00 x00 x00 x00 x00 x00 x83 x02)
(L (W x01 x01 x00 x00 x00 x00 x00 x00)) E))
(T (W x01 x41 x90 x00 x6e x00 x6c x03)
(T (W xa9 x20 x00 x00 x20 x00 x10 x00)
(L (W x00 x00 x00 x01 x01 x01 x01 x01)) E)
(T (W x0e x00 x10 x00 x13 x00 x19 x00)
(L (W x00 x00 x00 x00 x00 x00 x00 x00)) E))))))
(T (W x00 x00 x00 x00 x00 x00 x00 x00)
(T (W x0e x00 x10 x00 x13 x00 x19 x00)
(T (W x03 x04 x00 x00 x00 x00 x00 x00)
(T (W x08 x01 x00 x08 x82 x20 x00 x00)
(T (W x00 x00 x00 x00 x00 x00 xc2 x00)
(T (W x00 x00 x00 x00 x00 x00 x00 x00)
(L (W x46 x69 x5a x2d x50 x5a x0b x0b))
(L (W x81 x04 x08 x40 x29 x68 x00 x40)))
(T (W x03 x04 x00 x00 x00 x00 x00 x00)
(L (W x00 x00 x00 x00 x00 x00 x00 x00)) E))
(T (W x01 x00 x01 x00 x01 x00 x01 x00)
(T (W x03 x03 x03 x01 x01 x01 x01 x01)
(L (W x00 x00 x7f x14 x32 x05 x0c x0c)) E)
(T (W x00 x00 xa2 x00 x59 x00 x00 x00)
(L (W x00 x00 x00 x00 x00 x00 x00 x00)) E)))
(T (W x00 x00 x5d x01 x97 x01 x00 x00)
(T (W xff x0a x0a x37 x4b x87 x00 x00)
(T (W x01 x45 xa8 x00 x78 x00 x4d x01)
(L (W x0e x00 x10 x00 x13 x00 x19 x00))
(L (W x00 x00 xa1 x01 xca x00 x00 x00)))
(T (W xa0 x00 x01 x00 x01 xa8 x00 x84)
(L (W x03 x03 x05 x01 x01 x01 x01 x02)) E))
(T (W x00 x00 x7f x00 x00 x00 x00 x00)
(T (W x00 x10 x00 x80 x00 x00 x00 x00)
(L (W x00 x00 x00 x00 x00 x00 x00 x00)) E)
(T (W x00 x00 x00 x00 x00 x00 xc3 x02)
(L (W x01 x01 x00 x00 x00 x00 x00 x00)) E))))
(T (W x00 x00 x7f x14 x32 x00 x01 x02)
(T (W x28 x00 x46 x28 x00 x00 x00 x00)
(T (W x00 x00 x00 x01 x01 x01 x01 x01)
(T (W x00 x00 xf2 x00 xb3 x01 x00 x00)
(L (W x00 x10 x05 x24 x00 x00 x00 x00))
(L (W x3c x00 x50 x32 x00 x00 x00 x00)))
(T (W x00 x00 x7f x14 x32 x00 x07 x07)
(L (W x00 x00 x00 x00 x00 x00 x00 x00)) E))
(T (W x01 x01 x00 x00 x00 x00 x00 x00)
(T (W x00 x00 x00 x00 x00 x00 x00 x00)
(L (W x80 x40 x21 x02 x21 x04 x00 x80)) E)
(T (W x01 x48 x44 x00 x28 x00 x23 x00)
(L (W x01 x00 x01 x00 x01 x00 x01 x00)) E)))
(T (W x01 x42 x29 x00 x1e x00 x14 x00)
(T (W x00 x00 x00 x00 x00 x00 x00 x00)
(T (W x00 x00 x00 x00 x00 x00 xc3 x01)
(L (W x03 x04 x00 x00 x00 x00 x00 x00)) E)
(T (W x32 x00 x50 x32 x00 x00 x00 x00)
(L (W x46 x5a x2d x32 x0f x2d x0e x0e)) E))
(T (W x00 x00 x00 x00 x00 x00 x00 x00)
(T (W x0e x00 x10 x00 x13 x00 x19 x00)
(L (W x00 x00 xba x01 x59 x00 x00 x00)) E)
(T (W x03 x02 x01 x01 x01 x01 x01 x01)
(L (W x00 x00 xff x00 x00 x00 x00 x00)) E)))))
(T (W x01 x41 x8a x00 x50 x00 x56 x00)
(T (W x00 x00 x00 x00 x00 x00 x42 x00)
(T (W x41 x37 x73 x3c x64 x28 x0b x0b)
(T (W x00 x00 x7f x00 x00 x00 x00 x00)
(T (W x00 x00 x00 x00 x00 x00 x00 x00)
(L (W x32 x00 x50 x37 x00 x00 x00 x00))
(L (W x5f x5f x5f x5f x5f x5f x04 x04)))
(T (W x00 x00 x00 x00 x00 x00 x41 x02)
(L (W x01 x01 x00 x00 x00 x00 x00 x00)) E))
(T (W x00 x00 x00 x00 x00 x00 x00 x00)
(T (W x80 x00 x00 x00 x29 x8c x00 x61)
(L (W x02 x02 x02 x01 x01 x01 x01 x01)) E)
(T (W x01 x00 x01 x00 x01 x00 x01 x00)
(L (W x00 x00 x00 x00 x00 x00 x00 x00)) E)))
(T (W x01 x00 x01 x00 x01 x00 x01 x00)
(T (W x28 x00 x46 x28 x00 x00 x00 x00)
(T (W x03 x03 x00 x00 x00 x00 x00 x00)
(L (W x01 x43 x09 x01 xd2 x00 x84 x03))
(L (W x0e x00 x10 x00 x13 x00 x19 x00)))
(T (W x5f x6e x5f x37 x28 x5f x00 x00)
(L (W x00 x00 x00 x00 x00 x00 x00 x00)) E))
(T (W x04 x04 x04 x01 x01 x01 x01 x01)
(T (W x00 x00 x74 x00 x2b x00 x00 x00)
(L (W x00 x10 x85 x04 x00 x00 x00 x00)) E)
(T (W x00 x00 xff x19 x32 x05 x0f x0f)
(L (W x00 x00 x00 x00 x00 x00 x00 x00)) E))))
(T (W x05 x04 x04 x01 x01 x01 x01 x01)
(T (W xc0 x10 x04 x20 x00 x00 x00 x00)
(T (W x00 x20 x08 x40 x40 x04 x10 x02)
(T (W x0e x00 x10 x00 x13 x00 x19 x00)
(L (W x00 x00 x00 x00 x00 x00 x00 x00))
(L (W x00 x00 x00 x00 x00 x00 x00 x00)))
(T (W x00 x00 x00 x01 x01 x01 x01 x01)
(L (W x00 x00 xff x00 x00 x00 x00 x00)) E))
(T (W x00 x00 x00 x00 x00 x00 x00 x00)
(T (W x3c x00 x55 x32 x00 x00 x00 x00)
(L (W x5a x5a x64 x4b x46 x50 x0a x0f)) E)
(T (W x03 x04 x00 x00 x00 x00 x00 x00)
(L (W x00 x00 x00 x00 x00 x00 x00 x00)) E)))
(T (W x05 x06 x00 x00 x00 x00 x00 x00)
(T (W x00 x00 x00 x00 x00 x00 x00 x00)
(T (W x00 x00 x7f x14 x32 x00 x01 x01)
(L (W x00 x00 x00 x00 x00 x00 x43 x03)) E)
(T (W x02 x10 x04 x00 x00 x00 x00 x00)
(L (W x3c x00 x5a x37 x00 x00 x00 x00)) E))
(T (W x00 x00 x00 x00 x00 x00 x00 x00)
(T (W x01 x43 xa1 x00 x64 x00 x18 x01)
(L (W x0e x00 x10 x00 x13 x00 x19 x00)) E)
(T (W x40 x01 x02 x20 x02 x00 x08 x14)
(L (W x03 x02 x02 x01 x01 x01 x01 x01)) E))))))))
(T (W x00 x00 x53 x00 x6c x00 x00 x00)
(T (W x04 x05 x00 x00 x00 x00 x00 x00)
(T (W x00 x00 x00 x00 x00 x00 x00 x00)
(T (W x00 x10 x85 x04 x00 x00 x00 x00)
(T (W x01 x00 x01 x00 x01 x00 x01 x00)
(T (W x00 x00 x7f x19 x32 x00 x0a x0a)
(T (W x00 x00 x00 x00 x00 x00 x00 x00)
(T (W x00 x40 x00 x00 x20 x04 x00 x00)
(L (W x03 x03 x06 x01 x01 x01 x01 x02))
(L (W x00 x00 x7f x14 x32 x00 x0b x0b)))
(T (W x0e x00 x10 x00 x13 x00 x19 x00)
(L (W x00 x00 x05 x01 xc4 x02 x00 x00)) E))
(T (W xc0 x11 x80 x02 x00 x00 x00 x00)
(T (W x00 x00 x00 x00 x00 x00 xf0 x00)
(L (W x05 x05 x00 x00 x00 x00 x00 x00)) E)
(T (W x00 x00 x00 x00 x00 x00 x00 x00)
(L (W x7d xaa x64 x5f x78 x5a x0f x0e)) E)))
(T (W x37 x00 x55 x2d x00 x00 x00 x00)
(T (W x00 x00 x00 x01 x01 x01 x01 x01)
(T (W x00 x00 x9e x02 x4a x00 x00 x00)
(L (W xc0 x36 x00 x00 x02 x00 x00 x00))
(L (W x32 x00 x50 x2d x00 x00 x00 x00)))
(T (W x00 x00 x7f x14 x32 x03 x0b x0b)
(L (W x00 x00 x00 x00 x00 x00 x00 x00)) E))
(T (W x01 x01 x00 x00 x00 x00 x00 x00)
(T (W x00 x00 x00 x00 x00 x00 x00 x00)
(L (W x02 x00 x08 x40 x00 x00 x18 x00)) E)
(T (W x01 x49 xb8 x00 x64 x00 xeb x00)
(L (W x01 x00 x01 x00 x01 x00 x01 x00)) E))))
(T (W x01 x01 x00 x00 x00 x00 x00 x00)
(T (W x00 x20 x00 x02 x00 x00 x90 x80)
(T (W x00 x00 x00 x00 x00 x00 xd3 x00)
(T (W x00 x00 x00 x00 x00 x00 x00 x00)
(L (W x55 x4b x6e x23 x64 x4b x07 x04))
(L (W x13 xc4 x00 x10 x60 x04 x20 x00)))
(T (W x04 x04 x00 x00 x00 x00 x00 x00)
(L (W x00 x00 x00 x00 x00 x00 x00 x00)) E))
(T (W x0e x00 x10 x00 x13 x00 x19 x00)
(T (W x00 x00 x00 x01 x01 x01 x01 x01)
(L (W x00 x00 x7f x14 x32 x00 x05 x05)) E)
(T (W x00 x00 x00 x00 x00 x00 x00 x00)
(L (W x00 x00 x00 x00 x00 x00 x00 x00)) E)))
(T (W x00 x00 x73 x00 x5f x00 x00 x00)
(T (W x32 x46 x32 x28 x32 x32 x0a x0a)
(T (W x01 x41 x90 x00 x8c x00 x30 x02)
(L (W x0e x00 x10 x00 x13 x00 x19 x00))
(L (W x00 x00 x00 x00 x00 x00 x00 x00)))
(T (W x32 x40 x00 x04 x14 x00 x02 x00)
(L (W x00 x00 x00 x01 x01 x01 x01 x01)) E))
(T (W x00 x00 x7f x00 x00 x00 x00 x00)
(T (W x00 x14 x02 x00 x04 x00 x00 x00)
(L (W x3c x00 x55 x14 x00 x00 x00 x00)) E)
(T (W x00 x00 x00 x00 x00 x00 xd2 x02)
(L (W x01 x01 x00 x00 x00 x00 x00 x00)) E)))))
(T (W x00 x00 x6b x00 x76 x00 x00 x00)
(T (W x01 x41 x3c x00 x3c x00 x7c x00)
(T (W x02 x02 x03 x01 x01 x01 x01 x02)
(T (W x04 x05 x00 x00 x00 x00 x00 x00)
(T (W x00 x00 x00 x00 x00 x00 x00 x00)
(L (W x30 x88 x88 x42 x10 x42 x02 x08))
(L (W x00 x00 x00 x01 x01 x01 x01 x01)))
(T (W x01 x47 x3c x00 x28 x00 x3a x00)
(L (W x01 x00 x01 x00 x01 x00 x01 x00)) E))
(T (W x00 x00 x36 x02 x00 x00 x00 x00)
(T (W x00 x00 xff x14 x32 x00 x0b x0b)
(L (W x00 x00 x00 x00 x00 x00 x52 x03)) E)
(T (W x00 x00 x00 x00 x00 x00 x00 x00)
(L (W x00 x00 x00 x00 x00 x00 x00 x00)) E)))
(T (W x00 x00 x00 x00 x00 x00 x00 x00)
(T (W xa9 x60 x08 x04 x08 x1c x00 x00)
(T (W x01 x00 x01 x00 x01 x00 x01 x00)
(L (W x00 x00 x00 x00 x00 x00 x00 x00))
(L (W x80 x11 x80 x12 x00 x00 x00 x00)))
(T (W x03 x03 x03 x01 x01 x01 x01 x01)
(L (W x00 x00 xff x00 x00 x00 x00 x00)) E))
(T (W x00 x00 x00 x00 x00 x00 x53 x01)
(T (W x3c x00 x55 x28 x00 x00 x00 x00)
(L (W x64 x50 x50 x50 x50 x50 x0d x0b)) E)
(T (W x03 x03 x00 x00 x00 x00 x00 x00)
(L (W x00 x00 x00 x00 x00 x00 x00 x00)) E))))
(T (W x00 x00 x00 x00 x00 x00 x53 x00)
(T (W x5f x7d x4f x51 x3c x64 x0a x02)
(T (W x00 x00 x7f x14 x32 x00 x02 x0c)
(T (W x00 x00 x00 x00 x00 x00 x00 x00)
(L (W x3c x00 x5a x32 x00 x00 x00 x00))
(L (W x00 x00 x00 x00 x00 x00 x00 x00)))
(T (W x00 x00 x00 x00 x00 x00 x53 x02)
(L (W x03 x03 x00 x00 x00 x00 x00 x00)) E))
(T (W x00 x00 x00 x00 x00 x00 x00 x00)
(T (W x00 x00 x00 x00 x00 x00 x00 x00)
(L (W x03 x02 x02 x01 x01 x01 x01 x01)) E)
(T (W x0e x00 x10 x00 x13 x00 x19 x00)
(L (W x00 x00 x00 x00 x00 x00 x00 x00)) E)))
(T (W x0e x00 x10 x00 x13 x00 x19 x00)
(T (W x00 x00 x00 x00 x00 x00 x00 x00)
(T (W x01 x01 x00 x00 x00 x00 x00 x00)
(L (W x01 x45 x9f x00 x78 x00 xc7 x00)) E)
(T (W x4f x73 x46 x6f x7d x50 x0c x02)
(L (W x42 x41 x42 x04 x3a x00 x08 x00)) E))
(T (W x03 x03 x02 x01 x01 x01 x01 x01)
(T (W x00 x00 x2a x01 xca x00 x00 x00)
(L (W x00 x00 x00 x00 x00 x00 x00 x00)) E)
(T (W x00 x00 x7f x00 x00 x00 x00 x00)
(L (W x00 x00 x00 x00 x00 x00 x00 x00)) E))))))
(T (W x00 x00 x00 x00 x00 x00 x00 x00)
(T (W x00 x00 xfe x14 x32 x03 x0f x0f)
(T (W x04 x00 x02 x00 x20 x00 x10 x00)
(T (W x00 x00 x00 x00 x00 x00 x00 x00)
(T (W x37 x2d x2d x0f x19 x19 x0a x04)
(T (W x01 x40 x2c x01 x8c x00 x90 x01)
(L (W x0e x00 x10 x00 x13 x00 x19 x00))
(L (W x00 x00 x00 x00 x00 x00 x00 x00)))
(T (W x39 xc0 x00 x40 x28 x18 x08 x00)
(L (W x04 x04 x04 x01 x01 x01 x01 x01)) E))
(T (W x00 x00 x7f x00 x00 x00 x00 x00)
(T (W x09 x10 x02 x00 x04 x00 x00 x00)
(L (W x3c x00 x55 x32 x00 x00 x00 x00)) E)
(T (W x00 x00 x00 x00 x00 x00 x93 x02)
(L (W x02 x02 x00 x00 x00 x00 x00 x00)) E)))
(T (W x00 x00 x00 x00 x00 x00 x93 x00)
(T (W x0e x00 x10 x00 x13 x00 x19 x00)
(T (W x03 x02 x02 x01 x01 x01 x01 x01)
(L (W x00 x00 xff x78 x00 x05 x0f x0f))
(L (W x00 x00 x00 x00 x00 x00 x50 x03)))
(T (W x00 x00 x0e x00 x0c x00 x00 x00)
(L (W x00 x30 x05 x24 x00 x00 x00 x00)) E))
(T (W x37 x00 x55 x37 x00 x00 x00 x00)
(T (W x03 x03 x00 x00 x00 x00 x00 x00)
(L (W x02 x47 x13 x01 xbe x00 x1a x04)) E)
(T (W x5a x64 x46 x50 x6e x96 x0f x0f)
(L (W x00 x00 x00 x00 x00 x00 x00 x00)) E))))
(T (W x3c x00 x50 x2d x00 x00 x00 x00)
(T (W x01 x40 x9f x00 x8c x00 x96 x01)
(T (W x00 x00 x00 x00 x00 x00 x00 x00)
(T (W x00 x00 x00 x00 x00 x00 x93 x01)
(L (W x01 x01 x00 x00 x00 x00 x00 x00))
(L (W x12 x47 x1d x01 xe6 x00 xed x03)))
(T (W x3c x00 x55 x28 x00 x00 x00 x00)
(L (W x00 x00 x00 x00 x00 x00 x00 x00)) E))
(T (W x09 x0c x00 x00 x00 x00 x41 x00)
(T (W x01 x00 x01 x00 x01 x00 x01 x00)
(L (W x00 x00 x97 x00 x5d x02 x00 x00)) E)
(T (W x03 x03 x03 x01 x01 x01 x01 x01)
(L (W x00 x00 xff x00 x00 x00 x00 x00)) E)))
(T (W x02 x02 x02 x01 x01 x01 x01 x01)
(T (W x03 x03 x00 x00 x00 x00 x00 x00)
(T (W x6c x70 x76 x2f x44 x48 x04 x04)
(L (W x20 x00 x00 x00 x14 x00 x20 x00)) E)
(T (W x01 x48 x48 x00 x6e x00 x20 x01)
(L (W x01 x00 x01 x00 x01 x00 x01 x00)) E))
(T (W x00 x00 x05 x01 xfa x01 x00 x00)
(T (W x00 x00 x7f x0f x32 x03 x03 x03)
(L (W x00 x00 x00 x00 x00 x00 x32 x00)) E)
(T (W x80 x50 x80 x02 x00 x00 x00 x00)
(L (W x00 x00 x00 x00 x00 x00 x00 x00)) E)))))
(T (W x02 x02 x02 x01 x01 x01 x02 x02)
(T (W x46 x50 x32 x23 x23 x23 x01 x01)
(T (W x0e x00 x10 x00 x13 x00 x19 x00)
(T (W x00 x00 x00 x00 x00 x00 x00 x00)
(T (W x01 x01 x00 x00 x00 x00 x00 x00)
(L (W x01 x43 xaa x00 x0a x00 x03 x00))
(L (W x0e x00 x10 x00 x13 x00 x19 x00)))
(T (W x41 x28 x32 x1e x7d x3c x0d x0d)
(L (W x00 x00 x00 x00 x00 x00 x00 x00)) E))
(T (W x06 x06 x06 x01 x01 x01 x01 x01)
(T (W x00 x00 x00 x00 x00 x00 x00 x00)
(L (W x00 x10 x80 x10 x02 x00 x00 x00)) E)
(T (W x00 x00 xfe x00 x00 x00 x00 x00)
(L (W x00 x00 x00 x00 x00 x00 x00 x00)) E)))
(T (W x00 x00 x1f x00 x00 x00 x00 x00)
(T (W x01 x43 x3e x00 x32 x00 x32 x00)
(T (W x08 x00 x02 x00 x08 x10 x02 x00)
(L (W x04 x03 x03 x01 x01 x01 x01 x01))
(L (W x00 x00 xfe x28 x8c x04 x06 x06)))
(T (W x0e x00 x10 x00 x13 x00 x19 x00)
(L (W x00 x00 x00 x00 x00 x00 x00 x00)) E))
(T (W x00 x10 x00 x00 x00 x00 x00 x00)
(T (W x00 x00 x00 x00 x00 x00 x13 x02)
(L (W x03 x04 x00 x00 x00 x00 x00 x00)) E)
(T (W x00 x00 x00 x00 x00 x00 x00 x00)
(L (W x00 x00 x00 x00 x00 x00 x00 x00)) E))))
(T (W x00 x00 x00 x00 x00 x00 x00 x00)
(T (W x03 x03 x00 x00 x00 x00 x00 x00)
(T (W x00 x00 x00 x00 x00 x00 x00 x00)
(T (W x00 x00 x1f x0f x32 x03 x03 x03)
(L (W x00 x00 xcd x02 xba x02 x13 x03))
(L (W x01 x01 x00 x00 x00 x00 x00 x00)))
(T (W x40 x10 x01 x04 x00 x00 x00 x00)
(L (W x00 x00 x00 x00 x00 x00 x00 x00)) E))
(T (W x00 x00 x00 x00 x00 x00 x00 x00)
(T (W x01 x47 xfa x00 x78 x00 x62 x02)
(L (W x0e x00 x10 x00 x13 x00 x19 x00)) E)
(T (W x00 x00 x00 x04 x00 x20 x49 x00)
(L (W x00 x00 x00 x01 x01 x01 x01 x01)) E)))
(T (W x08 x00 x04 x08 x82 x20 x00 x14)
(T (W x00 x00 x00 x00 x00 x00 x11 x01)
(T (W x3c x00 x55 x32 x00 x00 x00 x00)
(L (W x5a x73 x5a x4a x30 x44 x0a x05)) E)
(T (W x05 x05 x00 x00 x00 x00 x00 x00)
(L (W x00 x00 x00 x00 x00 x00 x00 x00)) E))
(T (W x01 x00 x01 x00 x01 x00 x01 x00)
(T (W x04 x04 x04 x01 x01 x01 x01 x01)
(L (W x00 x00 x7f x14 x32 x00 x01 x02)) E)
(T (W x00 x00 x00 x00 x00 x00 x00 x00)
(L (W x00 x00 x00 x00 x00 x00 x00 x00)) E)))))))
(T (W x05 x04 x04 x01 x01 x01 x01 x01)
(T (W x01 x00 x01 x00 x01 x00 x01 x00)
(T (W x02 x42 x9e x00 x64 x00 x27 x01)
(T (W x00 x00 x00 x00 x00 x00 x32 x00)
(T (W x1e x69 x5a x32 x19 x19 x0a x0a)
(T (W x00 x00 x7f x00 x00 x00 x00 x00)
(T (W x00 x10 x02 x00 x04 x00 x00 x00)
(L (W x3c x00 x55 x32 x00 x00 x00 x00))
(L (W x7e x83 x5f x63 x83 x62 x11 x11)))
(T (W x00 x00 x00 x00 x00 x00 x32 x02)
(L (W x02 x02 x00 x00 x00 x00 x00 x00)) E))
(T (W x00 x00 x00 x00 x00 x00 x00 x00)
(T (W x02 x04 x04 x18 x82 x20 x24 x00)
(L (W x03 x02 x02 x01 x01 x01 x01 x01)) E)
(T (W x01 x00 x01 x00 x01 x00 x01 x00)
(L (W x00 x00 x00 x00 x00 x00 x00 x00)) E)))
(T (W x0a x00 x0a x00 x13 x00 x0a x00)
(T (W x3c x00 x50 x28 x00 x00 x00 x00)
(T (W x04 x05 x00 x00 x00 x00 x00 x00)
(L (W x01 x44 x1d x01 x7c x01 xe8 x03))
(L (W x0a x00 x0a x00 x0a x00 x0a x00)))
(T (W x2e x57 x3c x39 x1e x28 x0f x0f)
(L (W x00 x00 x00 x08 x02 x20 x00 x14)) E))
(T (W x03 x02 x04 x01 x01 x01 x01 x02)
(T (W x00 x00 x00 x00 x00 x00 x00 x00)
(L (W x1c x90 x30 x00 x00 x00 x00 x00)) E)
(T (W x00 x00 xff x19 x32 x05 x06 x0a)
(L (W x00 x00 x00 x00 x00 x00 x00 x00)) E))))
(T (W x00 x00 x00 x01 x01 x01 x01 x01)
(T (W xe1 x10 x00 x00 x00 x00 x00 x00)
(T (W x00 x40 x21 x00 x01 x08 x20 xc0)
(T (W x01 x00 x01 x00 x01 x00 x01 x00)
(L (W x00 x00 xa1 x00 x32 x01 x00 x00))
(L (W x1e x10 x20 x80 x00 x00 x00 x00)))
(T (W x00 x00 x00 x01 x01 x01 x01 x01)
(L (W x00 x00 xff x00 x00 x00 x00 x00)) E))
(T (W x00 x00 x00 x00 x00 x00 x00 x00)
(T (W x00 x00 x00 x00 x00 x00 x00 x00)
(L (W x50 x55 x4b x46 x6e x64 x0e x0d)) E)
(T (W x02 x02 x00 x00 x00 x00 x00 x00)
(L (W x00 x00 x00 x00 x00 x00 x00 x00)) E)))
(T (W x01 x01 x00 x00 x00 x00 x00 x00)
(T (W x00 x00 x85 x00 x4a x01 x00 x00)
(T (W x00 x00 x1f x19 x32 x03 x0f x0f)
(L (W x00 x00 x00 x00 x00 x00 x33 x03))
(L (W x02 x02 x00 x00 x00 x00 x00 x00)))
(T (W x1c x10 x00 x00 x00 x00 x00 x00)
(L (W x00 x00 x00 x00 x00 x00 x00 x00)) E))
(T (W x00 x00 x00 x00 x00 x00 x00 x00)
(T (W x00 x00 x00 x00 x00 x00 x00 x00)
(L (W x0e x00 x10 x00 x13 x00 x19 x00)) E)
(T (W x31 x08 x81 x00 x10 x00 x20 x00)
(L (W x00 x00 x00 x01 x01 x01 x01 x01)) E)))))
(T (W x05 x06 x00 x00 x00 x00 x00 x00)
(T (W x00 x00 x3f x14 x32 x03 x08 x08)
(T (W x32 x00 x50 x28 x00 x00 x00 x00)
(T (W x06 x05 x03 x01 x01 x01 x01 x01)
(T (W x00 x00 x00 x00 x00 x00 x00 x00)
(L (W x00 x10 x80 x00 x00 x00 x00 x00))
(L (W x37 x00 x55 x2d x00 x00 x00 x00)))
(T (W x00 x00 xbf x14 x32 x03 x08 x08)
(L (W x00 x00 x00 x00 x00 x00 x00 x00)) E))
(T (W x05 x06 x00 x00 x00 x00 x00 x00)
(T (W x4b x7d x46 x73 x7d x46 x0d x0d)
(L (W x42 x00 x00 x04 x10 x00 x0e x00)) E)
(T (W x00 x00 x00 x00 x00 x00 x00 x00)
(L (W x01 x00 x01 x00 x01 x00 x01 x00)) E)))
(T (W x00 x00 x00 x00 x00 x00 x00 x00)
(T (W x81 x10 x02 x80 x00 x00 x00 x00)
(T (W x00 x00 x00 x00 x00 x00 xb2 x01)
(L (W x06 x06 x00 x00 x00 x00 x00 x00))
(L (W x09 x45 xad x00 x1e x00 x05 x00)))
(T (W x37 x00 x55 x2d x00 x00 x00 x00)
(L (W x00 x00 x00 x00 x00 x00 x00 x00)) E))
(T (W xa1 x60 x28 x14 x10 x40 x10 x00)
(T (W x0e x00 x10 x00 x13 x00 x19 x00)
(L (W x00 x00 x00 x00 x00 x00 x00 x00)) E)
(T (W x04 x04 x03 x01 x01 x01 x01 x01)
(L (W x00 x00 xff x00 x00 x00 x00 x00)) E))))
(T (W x00 x00 x00 x00 x00 x00 x00 x00)
(T (W x00 x00 x00 x00 x00 x00 x00 x00)
(T (W x55 x28 x46 x46 x50 x8c x0a x02)
(T (W x00 x00 x00 x00 x00 x00 x00 x00)
(L (W x0e x00 x10 x00 x13 x00 x19 x00))
(L (W x00 x00 x00 x00 x00 x00 x00 x00)))
(T (W x00 x40 x10 x0a x42 xb5 x00 x00)
(L (W x00 x00 x00 x01 x01 x01 x01 x01)) E))
(T (W x00 x00 x7f x14 x23 x05 x0c x0c)
(T (W x00 x00 x00 x00 x00 x00 x00 x00)
(L (W x3c x00 x5a x32 x00 x00 x00 x00)) E)
(T (W x00 x00 x00 x00 x00 x00 xb2 x02)
(L (W x01 x01 x00 x00 x00 x00 x00 x00)) E)))
(T (W x00 x00 x00 x00 x00 x00 x00 x00)
(T (W x0e x00 x10 x00 x13 x00 x19 x00)
(T (W x05 x04 x04 x01 x01 x01 x01 x01)
(L (W x00 x00 x7f x0f x32 x00 x05 x05)) E)
(T (W x00 x00 x30 x01 x26 x02 x00 x00)
(L (W x00 x00 x00 x00 x00 x00 x00 x00)) E))
(T (W x3c x00 x64 x46 x00 x00 x00 x00)
(T (W x03 x04 x00 x00 x00 x00 x00 x00)
(L (W x02 x48 xaf x00 xaa x00 x20 x03)) E)
(T (W x4d x46 x5a x2b x91 x4b x06 x0c)
(L (W x00 x00 x00 x00 x00 x00 x00 x00)) E))))))
(T (W x00 x00 x00 x00 x00 x00 x00 x00)
(T (W x51 x66 x4d x55 x55 x4b x03 x04)
(T (W x00 x00 x00 x00 x00 x00 x00 x00)
(T (W x03 x04 x00 x00 x00 x00 x00 x00)
(T (W x00 x00 xcc x00 x5e x00 x00 x00)
(T (W x00 x00 xff x78 x00 x05 x0f x0f)
(L (W x00 x00 x00 x00 x00 x00 xf3 x02))
(L (W x01 x01 x00 x00 x00 x00 x00 x00)))
(T (W x00 x16 x00 x00 x04 x00 x00 x00)
(L (W x00 x00 x00 x00 x00 x00 x00 x00)) E))
(T (W x1f x2d x5a x28 x1e x1e x06 x04)
(T (W x00 x00 x00 x00 x00 x00 x00 x00)
(L (W x0e x00 x10 x00 x13 x00 x19 x00)) E)
(T (W x30 x08 x00 x00 x00 x00 x20 x00)
(L (W x00 x00 x00 x01 x01 x01 x01 x01)) E)))
(T (W x66 x01 x03 x03 x33 x28 x0f x02)
(T (W x00 x00 x00 x00 x00 x00 xf3 x00)
(T (W x00 x00 x00 x00 x00 x00 x00 x00)
(L (W x5a x7d x50 x7d x5a x5a x01 x07))
(L (W x00 x00 x02 x00 x02 x00 x04 x14)))
(T (W x04 x05 x00 x00 x00 x00 x00 x00)
(L (W x06 x40 xb6 x00 x1e x00 x03 x00)) E))
(T (W x01 x00 x01 x00 x01 x00 x01 x00)
(T (W x00 x00 x00 x01 x01 x01 x01 x01)
(L (W x00 x00 xff x78 x23 x05 x0f x0f)) E)
(T (W x00 x00 x49 x00 xae x00 x00 x00)
(L (W x00 x00 x00 x00 x00 x00 x00 x00)) E))))
(T (W x0e x00 x10 x00 x13 x00 x19 x00)
(T (W x00 x00 x7f x19 x32 x05 x03 x03)
(T (W x01 x45 x32 x00 x28 x00 x41 x00)
(T (W x0a x00 x00 x08 x82 x20 x00 x10)
(L (W x04 x04 x03 x01 x01 x01 x01 x01))
(L (W x00 x00 xff x78 x00 x05 x0f x0f)))
(T (W x0e x00 x10 x00 x13 x00 x19 x00)
(L (W x00 x00 x00 x00 x00 x00 x00 x00)) E))
(T (W x00 x00 x00 x00 x00 x00 x00 x00)
(T (W x00 x00 x00 x00 x00 x00 x00 x00)
(L (W x04 x04 x00 x00 x00 x00 x00 x00)) E)
(T (W x3c x00 x55 x32 x00 x00 x00 x00)
(L (W x00 x00 x00 x00 x00 x00 x00 x00)) E)))
(T (W x32 x00 x4b x1e x00 x00 x00 x00)
(T (W x00 x00 x00 x01 x01 x01 x01 x01)
(T (W x00 x00 x94 x01 xb8 x01 x00 x00)
(L (W xc0 x11 x00 x08 x00 x00 x00 x00)) E)
(T (W x00 x00 xff x50 x23 x05 x0f x0f)
(L (W x00 x00 x00 x00 x00 x00 x2a x02)) E))
(T (W x03 x04 x00 x00 x00 x00 x00 x00)
(T (W x28 x1b x3c x42 x25 x32 x0b x11)
(L (W x2b x44 x10 x0c x10 x06 x22 x84)) E)
(T (W x00 x00 x00 x00 x00 x00 x00 x00)
(L (W x01 x00 x01 x00 x01 x00 x01 x00)) E)))))
(T (W x3c x00 x5a x37 x00 x00 x00 x00)
(T (W x00 x00 x53 x01 xdf x00 x00 x00)
(T (W x00 x00 x00 x00 x00 x00 x73 x00)
(T (W x0e x00 x10 x00 x13 x00 x19 x00)
(T (W x00 x00 x00 x01 x01 x01 x01 x01)
(L (W x00 x00 x7f x14 x32 x00 x03 x09))
(L (W x00 x00 x00 x00 x00 x00 x04 x03)))
(T (W x00 x00 x00 x00 x00 x00 x00 x00)
(L (W x00 x00 x00 x00 x00 x00 x00 x00)) E))
(T (W x00 x00 x00 x00 x00 x00 x00 x00)
(T (W x02 x02 x00 x00 x00 x00 x00 x00)
(L (W x01 x49 x82 x00 x50 x00 x7d x00)) E)
(T (W x43 x52 x3e x2b x2e x30 x01 x01)
(L (W x00 x00 x00 x00 x00 x00 x00 x00)) E)))
(T (W x00 x00 x00 x00 x00 x00 x00 x00)
(T (W x00 x00 x1f x14 x32 x03 x05 x05)
(T (W x00 x00 x00 x00 x00 x00 x00 x00)
(L (W x3c x00 x55 x32 x00 x00 x00 x00))
(L (W x5c x82 x91 x80 x50 x91 x01 x08)))
(T (W x00 x00 x00 x00 x00 x00 x73 x02)
(L (W x01 x01 x00 x00 x00 x00 x00 x00)) E))
(T (W x01 x47 xad x00 x96 x00 xaa x02)
(T (W xa0 x00 x21 x02 x01 x28 x20 x40)
(L (W x02 x06 x05 x01 x01 x01 x02 x02)) E)
(T (W x01 x00 x01 x00 x01 x00 x01 x00)
(L (W x00 x00 x00 x00 x00 x00 x00 x00)) E))))
(T (W x01 x46 x3e x00 x82 x00 x01 x00)
(T (W x04 x04 x04 x01 x01 x01 x01 x01)
(T (W x01 x01 x00 x00 x00 x00 x00 x00)
(T (W x00 x00 x00 x00 x00 x00 x00 x00)
(L (W x00 x10 x00 x00 x00 x00 x00 x00))
(L (W x00 x00 x00 x01 x01 x01 x01 x01)))
(T (W x00 x00 x00 x00 x00 x00 x00 x00)
(L (W x01 x00 x01 x00 x01 x00 x01 x00)) E))
(T (W x00 x00 x1c x01 x01 x01 x00 x00)
(T (W x00 x00 x1f x00 x00 x00 x00 x00)
(L (W x00 x00 x00 x00 x00 x00 x73 x03)) E)
(T (W x1c x10 x02 x00 x0e x00 x00 x00)
(L (W x00 x00 x00 x00 x00 x00 x00 x00)) E)))
(T (W x00 x10 x02 x00 x04 x00 x00 x00)
(T (W x08 x00 x00 x00 x00 x00 x10 x02)
(T (W x0e x00 x10 x00 x13 x00 x19 x00)
(L (W x00 x00 x46 x02 x10 x02 x00 x00)) E)
(T (W x00 x00 x00 x01 x01 x01 x01 x01)
(L (W x00 x00 x00 x78 x5a x05 x0f x0f)) E))
(T (W x00 x00 x00 x00 x00 x00 x73 x01)
(T (W x3c x00 x55 x32 x00 x00 x00 x00)
(L (W x00 x00 x00 x00 x00 x00 x00 x00)) E)
(T (W x03 x03 x00 x00 x00 x00 x00 x00)
(L (W x04 x45 x43 x00 x1e x00 x23 x00)) E)))))))))
(T (W x03 x03 x02 x01 x01 x01 x01 x01)
(T (W x01 x40 x3e x00 x3c x00 x55 x00)
(T (W x00 x00 x1f x14 x32 x03 x01 x02)
(T (W x00 x00 xe3 x01 x4f x00 x00 x00)
(T (W x01 x00 x01 x00 x01 x00 x01 x00)
(T (W x01 x01 x00 x00 x00 x00 x00 x00)
(T (W x6a x01 x00 x06 x13 x40 x0a x10)
(T (W x00 x00 x00 x00 x00 x00 x00 x00)
(T (W x37 x00 x55 x2d x00 x00 x00 x00)
(L (W x2d x14 x14 x28 x19 x19 x0a x0a))
(L (W x42 x01 x10 x0c x02 x20 x0a x00)))
(T (W x02 x02 x00 x00 x00 x00 x00 x00)
(L (W x02 x46 x95 x00 x64 x00 x54 x01)) E))
(T (W x0e x00 x10 x00 x13 x00 x19 x00)
(T (W x03 x03 x03 x01 x01 x01 x01 x01)
(L (W x00 x00 x7f x0f x32 x03 x0a x0a)) E)
(T (W x00 x00 x00 x00 x00 x00 x00 x00)
(L (W x02 x10 x00 x00 x0a x00 x00 x00)) E)))
(T (W x00 x00 x8d x00 xc6 x02 x00 x00)
(T (W x00 x00 x00 x00 x00 x00 x00 x00)
(T (W x01 x49 x37 x00 x28 x00 x21 x00)
(L (W x0e x00 x10 x00 x13 x00 x19 x00))
(L (W x00 x00 x00 x00 x00 x00 x00 x00)))
(T (W x4e x11 x02 x04 x72 x00 x0c x00)
(L (W x00 x00 x00 x01 x01 x01 x01 x01)) E))
(T (W x00 x00 x7f x00 x00 x00 x00 x00)
(T (W x00 x00 x00 x00 x00 x00 x00 x00)
(L (W x3c x00 x5a x32 x00 x00 x00 x00)) E)
(T (W x00 x00 x00 x00 x00 x00 xba x02)
(L (W x01 x01 x00 x00 x00 x00 x00 x00)) E))))
(T (W x00 x00 x7f x00 x00 x00 x00 x00)
(T (W x32 x00 x50 x32 x00 x00 x00 x00)
(T (W x00 x00 x00 x01 x01 x01 x01 x01)
(T (W x00 x00 x00 x00 x00 x00 x00 x00)
(L (W x00 x10 x02 x00 x00 x00 x00 x00))
(L (W x3c x00 x50 x32 x00 x00 x00 x00)))
(T (W x00 x00 x7f x14 x32 x05 x0a x0a)
(L (W x00 x00 x00 x00 x00 x00 x00 x00)) E))
(T (W x05 x05 x00 x00 x00 x00 x00 x00)
(T (W x00 x00 x00 x00 x00 x00 x00 x00)
(L (W x62 x44 x21 x18 x00 x22 x20 x80)) E)
(T (W x00 x00 x00 x00 x00 x00 x00 x00)
(L (W x01 x00 x01 x00 x01 x00 x01 x00)) E)))
(T (W x01 x45 x9e x00 xa0 x00 x98 x01)
(T (W x02 x58 x02 x00 x00 x00 x00 x00)
(T (W x00 x00 x00 x00 x00 x00 xbb x01)
(L (W x04 x04 x00 x00 x00 x00 x00 x00))
(L (W x02 x47 x13 x01 xbe x00 x1a x04)))
(T (W x3c x00 x5a x32 x00 x00 x00 x00)
(L (W x00 x00 x00 x00 x00 x00 x00 x00)) E))
(T (W x00 x20 x08 x40 x00 x04 x10 x00)
(T (W x0e x00 x10 x00 x13 x00 x19 x00)
(L (W x00 x00 x00 x00 x00 x00 x00 x00)) E)
(T (W x04 x03 x06 x01 x01 x01 x01 x02)
(L (W x00 x00 xff x00 x00 x00 x00 x00)) E)))))
(T (W x01 x49 xf2 x00 x82 x00 x90 x01)
(T (W x00 x00 x00 x00 x00 x00 x3a x00)
(T (W x32 x78 x35 x57 x23 x6e x01 x01)
(T (W x00 x00 x7f x14 x32 x00 x01 x02)
(T (W x40 x11 x00 x00 x00 x00 x00 x00)
(L (W x3c x00 x55 x28 x00 x00 x00 x00))
(L (W x00 x00 x00 x00 x00 x00 x00 x00)))
(T (W x00 x00 x00 x00 x00 x00 x3a x02)
(L (W x01 x01 x00 x00 x00 x00 x00 x00)) E))
(T (W x01 x45 x53 x00 x50 x00 x0c x00)
(T (W x63 x00 x00 x00 x00 x00 x08 x00)
(L (W x03 x03 x03 x01 x01 x01 x01 x01)) E)
(T (W x01 x00 x01 x00 x01 x00 x01 x00)
(L (W x00 x00 x00 x00 x00 x00 x00 x00)) E)))
(T (W x01 x00 x01 x00 x01 x00 x01 x00)
(T (W x00 x00 x00 x00 x00 x00 x00 x00)
(T (W x01 x01 x00 x00 x00 x00 x00 x00)
(L (W x01 x46 x0e x01 x68 x01 xdc x05))
(L (W x0e x00 x10 x00 x13 x00 x19 x00)))
(T (W x6d x42 x54 x20 x51 x63 x04 x0c)
(L (W x02 x84 x02 x45 x0a x0c x00 x00)) E))
(T (W x04 x03 x03 x01 x01 x01 x01 x01)
(T (W x00 x00 xbd x00 xdf x01 x00 x00)
(L (W x20 x30 x62 x00 x04 x00 x00 x00)) E)
(T (W x00 x00 x7f x14 x32 x00 x0b x0b)
(L (W x00 x00 x00 x00 x00 x00 x00 x00)) E))))
(T (W x03 x03 x03 x01 x01 x01 x01 x01)
(T (W x00 x00 x00 x00 x00 x00 x00 x00)
(T (W x02 x40 x02 x80 x08 x18 x10 x80)
(T (W x01 x00 x01 x00 x01 x00 x01 x00)
(L (W x00 x00 x89 x00 x96 x01 x00 x00))
(L (W x00 x00 x00 x00 x00 x00 x00 x00)))
(T (W x00 x00 x00 x01 x01 x01 x01 x01)
(L (W x00 x00 x7f x0f x32 x00 x05 x05)) E))
(T (W x00 x00 x00 x00 x00 x00 x3b x01)
(T (W x00 x00 x00 x00 x00 x00 x00 x00)
(L (W x64 x7d x87 x46 x14 x14 x05 x05)) E)
(T (W x05 x05 x00 x00 x00 x00 x00 x00)
(L (W x00 x00 x00 x00 x00 x00 x00 x00)) E)))
(T (W x05 x05 x00 x00 x00 x00 x00 x00)
(T (W x00 x00 x00 x00 x00 x00 x00 x00)
(T (W x00 x00 x7f x00 x00 x00 x00 x00)
(L (W x00 x00 x00 x00 x00 x00 x3b x03)) E)
(T (W x00 x50 x00 x80 x02 x00 x00 x00)
(L (W x3c x00 x55 x32 x00 x00 x00 x00)) E))
(T (W x50 x50 x50 x50 x50 x50 x0e x0e)
(T (W x01 x43 x38 x00 x32 x00 x42 x00)
(L (W x01 x00 x01 x00 x01 x00 x01 x00)) E)
(T (W x00 x00 x00 x00 x00 x00 x00 x00)
(L (W x00 x00 x00 x01 x01 x01 x01 x01)) E))))))
(T (W x00 x00 x00 x01 x01 x01 x01 x01)
(T (W x01 x00 x40 x02 x08 x00 x00 x08)
(T (W x3c x00 x55 x32 x00 x00 x00 x00)
(T (W x00 x00 x00 x00 x00 x00 x00 x00)
(T (W x00 x00 x00 x00 x00 x00 x00 x00)
(T (W x00 x00 x00 x00 x00 x00 x7b x01)
(L (W x03 x03 x00 x00 x00 x00 x00 x00))
(L (W x05 x44 xf3 x00 x78 x00 x4f x01)))
(T (W x3c x00 x5f x37 x00 x00 x00 x00)
(L (W x5f x41 x50 x1e x6e x6e x03 x0d)) E))
(T (W x00 x00 x00 x00 x00 x00 x00 x00)
(T (W x01 x00 x01 x00 x01 x00 x01 x00)
(L (W x00 x00 x48 x01 xe9 x01 x00 x00)) E)
(T (W x00 x00 x00 x01 x01 x01 x01 x01)
(L (W x00 x00 xff x78 x00 x05 x0f x0f)) E)))
(T (W x03 x00 x00 x01 x01 x01 x01 x01)
(T (W x03 x03 x00 x00 x00 x00 x00 x00)
(T (W x96 x50 x2c x50 x5a x36 x07 x02)
(L (W x00 x40 x06 x10 x00 x00 x00 x00))
(L (W x04 x04 x03 x01 x01 x01 x01 x01)))
(T (W x01 x42 x0e x01 xb4 x00 x1f x04)
(L (W x0e x00 x10 x00 x13 x00 x19 x00)) E))
(T (W x00 x00 x00 x00 x00 x00 x00 x00)
(T (W x00 x00 x7f x0f x32 x03 x04 x04)
(L (W x00 x00 x00 x00 x00 x00 x7b x03)) E)
(T (W x00 x10 x00 x00 x00 x00 x00 x00)
(L (W x00 x00 x00 x00 x00 x00 x00 x00)) E))))
(T (W x00 x00 x00 x00 x00 x00 x00 x00)
(T (W x00 x00 x00 x00 x00 x00 x7b x00)
(T (W x01 x00 x01 x00 x01 x00 x01 x00)
(T (W x00 x00 x00 x01 x01 x01 x01 x01)
(L (W x00 x00 x7f x00 x00 x00 x00 x00))
(L (W x00 x00 x00 x00 x00 x00 x04 x03)))
(T (W x00 x00 x95 x01 xaf x00 x00 x00)
(L (W x00 x00 x00 x00 x00 x00 x00 x00)) E))
(T (W x3c x00 x55 x28 x00 x00 x00 x00)
(T (W x01 x01 x00 x00 x00 x00 x00 x00)
(L (W x01 x48 x36 x00 x14 x00 x03 x00)) E)
(T (W x4e x34 x3c x17 x3f x41 x11 x11)
(L (W x00 x00 x00 x00 x00 x00 x00 x00)) E)))
(T (W x4b x26 x26 x43 x38 x38 x0a x0c)
(T (W x00 x00 x7f x0f x32 x00 x05 x05)
(T (W x00 x10 x02 x00 x04 x00 x00 x00)
(L (W x3c x00 x50 x28 x00 x00 x00 x00)) E)
(T (W x00 x00 x00 x00 x00 x00 x79 x02)
(L (W x01 x01 x00 x00 x00 x00 x00 x00)) E))
(T (W x01 x44 x9f x00 xa0 x00 x32 x01)
(T (W x00 x00 x00 x00 x00 x00 x00 x00)
(L (W x02 x02 x02 x01 x01 x01 x01 x01)) E)
(T (W x0e x00 x10 x00 x13 x00 x19 x00)
(L (W x00 x00 x00 x00 x00 x00 x00 x00)) E)))))
(T (W x4b x50 x46 x5a x41 x4b x03 x02)
(T (W xe0 x11 x00 x08 x00 x00 x00 x00)
(T (W x04 x04 x00 x00 x00 x00 x00 x00)
(T (W x00 x00 x00 x00 x00 x00 x00 x00)
(T (W x00 x00 x1f x00 x00 x00 x00 x00)
(L (W x00 x00 x00 x00 x00 x00 xf9 x02))
(L (W x05 x05 x00 x00 x00 x00 x00 x00)))
(T (W xc0 x10 x00 x08 x00 x00 x00 x00)
(L (W x00 x00 x00 x00 x00 x00 x00 x00)) E))
(T (W x32 x14 x28 x14 x14 x28 x00 x11)
(T (W x01 x46 x54 x01 xa4 x01 x20 x0d)
(L (W x0e x00 x10 x00 x13 x00 x19 x00)) E)
(T (W x00 x00 x00 x00 x00 x00 x00 x00)
(L (W x00 x00 x00 x01 x01 x01 x01 x01)) E)))
(T (W x00 x00 x00 x00 x00 x00 x00 x00)
(T (W x00 x00 x00 x00 x00 x00 xfb x00)
(T (W x3c x00 x55 x2d x00 x00 x00 x00)
(L (W x32 x41 x32 x41 x28 x28 x0b x0b))
(L (W x00 x40 x00 x00 x20 x04 x00 x00)))
(T (W x04 x04 x00 x00 x00 x00 x00 x00)
(L (W x00 x00 x00 x00 x00 x00 x00 x00)) E))
(T (W x0e x00 x10 x00 x13 x00 x19 x00)
(T (W x03 x02 x02 x01 x01 x01 x01 x01)
(L (W x00 x00 x00 x0a x32 x00 x0f x0f)) E)
(T (W x00 x00 x00 x00 x00 x00 x00 x00)
(L (W x00 x00 x00 x00 x00 x00 x00 x00)) E))))
(T (W x01 x00 x01 x00 x01 x00 x01 x00)
(T (W x00 x00 x1f x23 x32 x00 x05 x05)
(T (W x00 x00 x00 x00 x00 x00 x00 x00)
(T (W x00 x00 x00 x00 x00 x00 x00 x00)
(L (W x03 x00 x00 x01 x01 x01 x01 x01))
(L (W x00 x00 xff x00 x00 x00 x00 x00)))
(T (W x0e x00 x10 x00 x13 x00 x19 x00)
(L (W x00 x00 x00 x00 x00 x00 x00 x00)) E))
(T (W x01 x10 x02 x00 x00 x00 x00 x00)
(T (W x00 x00 x00 x00 x00 x00 xfa x01)
(L (W x05 x05 x00 x00 x00 x00 x00 x00)) E)
(T (W x32 x00 x50 x32 x00 x00 x00 x00)
(L (W x00 x00 x00 x00 x00 x00 x00 x00)) E)))
(T (W x00 x00 x00 x00 x00 x00 x00 x00)
(T (W x04 x04 x03 x01 x01 x01 x01 x01)
(T (W x00 x00 x3b x00 x49 x01 x00 x00)
(L (W x08 x10 x00 x00 x00 x00 x00 x00)) E)
(T (W x00 x00 xff x50 x23 x05 x0f x0f)
(L (W x00 x00 x00 x00 x00 x00 x00 x00)) E))
(T (W x01 x01 x00 x00 x00 x00 x00 x00)
(T (W x46 x5a x2d x32 x0f x2d x09 x09)
(L (W x00 x00 x00 x00 x00 x00 x00 x00)) E)
(T (W x00 x00 x00 x00 x00 x00 x00 x00)
(L (W x01 x00 x01 x00 x01 x00 x01 x00)) E)))))))
(T (W x2d x1e x23 x2d x14 x14 x06 x06)
(T (W x01 x01 x00 x00 x00 x00 x00 x00)
(T (W x00 x00 x00 x00 x00 x00 x1b x00)
(T (W x03 x03 x03 x01 x01 x01 x01 x01)
(T (W x00 x00 x00 x00 x00 x00 x00 x00)
(T (W x00 x00 x00 x00 x00 x00 x00 x00)
(T (W x0e x00 x10 x00 x13 x00 x19 x00)
(L (W x00 x00 x5c x00 xc6 x02 x00 x00))
(L (W x40 x30 x40 x10 x02 x00 x00 x00)))
(T (W x04 x04 x04 x01 x01 x01 x01 x01)
(L (W x00 x00 xff x78 x23 x05 x0f x0f)) E))
(T (W x00 x00 x00 x00 x00 x00 x00 x00)
(T (W x00 x00 x00 x00 x00 x00 x00 x00)
(L (W x6e x55 x50 x1e x64 x50 x0b x0f)) E)
(T (W x01 x01 x00 x00 x00 x00 x00 x00)
(L (W x00 x00 x00 x00 x00 x00 x00 x00)) E)))
(T (W x04 x05 x00 x00 x00 x00 x00 x00)
(T (W x00 x00 x74 x00 xea x01 x00 x00)
(T (W x00 x00 x7f x14 x32 x00 x02 x0b)
(L (W x00 x00 x00 x00 x00 x00 x1b x03))
(L (W x06 x06 x00 x00 x00 x00 x00 x00)))
(T (W x40 x30 x00 x10 x00 x00 x00 x00)
(L (W x00 x00 x00 x00 x00 x00 x00 x00)) E))
(T (W x50 x64 x50 x64 x50 x50 x04 x0f)
(T (W x00 x00 x00 x00 x00 x00 x00 x00)
(L (W x00 x00 x00 x00 x00 x00 x00 x00)) E)
(T (W x00 x00 x00 x00 x00 x20 x49 x14)
(L (W x00 x00 x00 x01 x01 x01 x01 x01)) E))))
(T (W x00 x00 x00 x00 x00 x00 x00 x00)
(T (W x0e x00 x10 x00 x13 x00 x19 x00)
(T (W x3c x00 x64 x32 x00 x00 x00 x00)
(T (W x01 x01 x00 x00 x00 x00 x00 x00)
(L (W x01 x47 x6b x00 xbe x00 xb5 x04))
(L (W x0e x00 x10 x00 x13 x00 x19 x00)))
(T (W x00 x00 x00 x00 x00 x00 x00 x00)
(L (W x00 x00 x00 x00 x00 x00 x00 x00)) E))
(T (W x04 x04 x04 x01 x01 x01 x01 x01)
(T (W x00 x00 x00 x00 x00 x00 x00 x00)
(L (W x00 x90 x00 x00 x02 x00 x00 x00)) E)
(T (W x00 x00 x7f x14 x32 x00 x0a x0a)
(L (W x00 x00 x00 x00 x00 x00 x00 x00)) E)))
(T (W x00 x00 x7f x00 x00 x00 x00 x00)
(T (W x01 x41 x0c x01 x96 x00 x33 x03)
(T (W x8a x04 x00 x08 x20 x02 x20 x00)
(L (W x02 x06 x04 x01 x01 x01 x02 x02))
(L (W x00 x00 xff x78 x64 x05 x0f x0f)))
(T (W x0e x00 x10 x00 x13 x00 x19 x00)
(L (W x00 x00 x00 x00 x00 x00 x00 x00)) E))
(T (W x00 x00 x00 x00 x00 x00 x00 x00)
(T (W x00 x00 x00 x00 x00 x00 x1b x02)
(L (W x04 x05 x00 x00 x00 x00 x00 x00)) E)
(T (W x3c x00 x50 x28 x00 x00 x00 x00)
(L (W x00 x00 x00 x00 x00 x00 x00 x00)) E)))))
(T (W x00 x00 xbf x0a x32 x04 x06 x06)
(T (W x80 x20 x21 x02 x09 x00 x30 xe0)
(T (W x00 x00 x32 x00 xb6 x01 x00 x00)
(T (W xbe x21 x3a x21 x21 x3a x0d x0d)
(T (W x00 x00 x00 x00 x00 x00 x00 x00)
(L (W x0e x00 x10 x00 x13 x00 x19 x00))
(L (W x00 x00 x9d x00 xbc x01 x00 x00)))
(T (W x6e x01 x02 x04 x32 x20 x0e x00)
(L (W x00 x00 x00 x01 x01 x01 x01 x01)) E))
(T (W x00 x00 x7f x14 x32 x03 x01 x05)
(T (W xe0 x51 x80 x00 x00 x00 x00 x00)
(L (W x32 x00 x5a x32 x00 x00 x00 x00)) E)
(T (W x00 x00 x00 x00 x00 x00 x00 x00)
(L (W x01 x01 x00 x00 x00 x00 x00 x00)) E)))
(T (W x00 x00 x00 x00 x00 x00 x00 x00)
(T (W x0e x00 x10 x00 x13 x00 x19 x00)
(T (W x04 x04 x04 x01 x01 x01 x01 x01)
(L (W x00 x00 xff x78 x00 x05 x0f x0f))
(L (W x00 x00 x00 x00 x00 x00 x64 x03)))
(T (W x00 x00 x8b x01 x99 x01 x00 x00)
(L (W x00 x00 x00 x00 x00 x00 x00 x00)) E))
(T (W x3c x00 x55 x32 x00 x00 x00 x00)
(T (W x03 x03 x00 x00 x00 x00 x00 x00)
(L (W x00 x00 x00 x00 x00 x00 x00 x00)) E)
(T (W x28 x1e x23 x37 x2d x28 x02 x0f)
(L (W x00 x00 x00 x00 x00 x00 x00 x00)) E))))
(T (W x00 x00 x00 x00 x00 x00 x00 x00)
(T (W x01 x46 x65 x00 x1e x00 x28 x00)
(T (W x01 x10 x00 x00 x02 x00 x00 x00)
(T (W x00 x00 x00 x00 x00 x00 x00 x00)
(L (W x03 x03 x00 x00 x00 x00 x00 x00))
(L (W x00 x00 x00 x00 x00 x00 x00 x00)))
(T (W x3c x00 x55 x28 x00 x00 x00 x00)
(L (W x00 x00 x00 x00 x00 x00 x00 x00)) E))
(T (W x29 x00 x00 x04 x20 x00 x10 x00)
(T (W x01 x00 x01 x00 x01 x00 x01 x00)
(L (W x00 x00 xe3 x00 x5e x00 x00 x00)) E)
(T (W x04 x04 x04 x01 x01 x01 x01 x01)
(L (W x00 x00 xff x00 x00 x00 x00 x00)) E)))
(T (W x03 x03 x03 x01 x01 x01 x01 x01)
(T (W x03 x04 x00 x00 x00 x00 x00 x00)
(T (W x2d x14 x32 x32 x3c x78 x0a x02)
(L (W x00 x04 x00 x08 x82 x20 x00 x00)) E)
(T (W x01 x44 x54 x01 x22 x01 x7a x0d)
(L (W x01 x00 x01 x00 x01 x00 x01 x00)) E))
(T (W x00 x00 x3b x00 x22 x00 x00 x00)
(T (W x00 x00 x7f x14 x32 x03 x05 x05)
(L (W x00 x00 x00 x00 x00 x00 x4d x00)) E)
(T (W x00 x50 x05 x20 x00 x00 x00 x00)
(L (W x00 x00 x00 x00 x00 x00 x00 x00)) E))))))
(T (W x00 x00 x00 x00 x00 x00 x00 x00)
(T (W x02 x14 x00 x00 x05 x00 x00 x00)
(T (W x01 x00 x01 x00 x01 x00 x01 x00)
(T (W x00 x00 x7f x14 x32 x05 x07 x07)
(T (W x01 x46 xb8 x00 x5a x00 x09 x01)
(T (W x08 x20 x02 x00 x00 x84 x10 x00)
(L (W x03 x03 x03 x01 x01 x01 x01 x01))
(L (W x00 x00 xff x00 x00 x00 x00 x00)))
(T (W x0e x00 x10 x00 x13 x00 x19 x00)
(L (W x00 x00 x00 x00 x00 x00 x00 x00)) E))
(T (W x00 x00 x00 x00 x00 x00 x00 x00)
(T (W x00 x00 x00 x00 x00 x00 x18 x01)
(L (W x03 x03 x00 x00 x00 x00 x00 x00)) E)
(T (W x28 x00 x46 x28 x00 x00 x00 x00)
(L (W x00 x00 x00 x00 x00 x00 x00 x00)) E)))
(T (W x37 x00 x55 x2d x00 x00 x00 x00)
(T (W x05 x05 x05 x01 x01 x01 x01 x01)
(T (W x00 x00 xcc x00 x1d x00 x00 x00)
(L (W x40 x10 x85 x60 x00 x00 x00 x00))
(L (W x3c x00 x64 x3c x00 x00 x00 x00)))
(T (W x00 x00 xff x19 x32 x00 x0a x0a)
(L (W x00 x00 x00 x00 x00 x00 xdf x01)) E))
(T (W x01 x01 x00 x00 x00 x00 x00 x00)
(T (W x00 x00 x00 x00 x00 x00 x00 x00)
(L (W x00 x00 x00 x00 x00 x00 x41 x00)) E)
(T (W x01 x45 x3e x00 x28 x00 x46 x00)
(L (W x01 x00 x01 x00 x01 x00 x01 x00)) E))))
(T (W x05 x06 x00 x00 x00 x00 x00 x00)
(T (W x18 x08 x80 x00 x01 x00 x00 x00)
(T (W x00 x00 x00 x00 x00 x00 x00 x00)
(T (W x37 x00 x55 x2d x00 x00 x00 x00)
(L (W x37 x5a x50 x60 x32 x69 x07 x11))
(L (W x13 xc4 x00 x10 x60 x04 x20 x00)))
(T (W x05 x06 x00 x00 x00 x00 x00 x00)
(L (W x00 x00 x00 x00 x00 x00 x00 x00)) E))
(T (W x01 x00 x01 x00 x01 x00 x01 x00)
(T (W x00 x00 x00 x01 x01 x01 x01 x01)
(L (W x00 x00 x7f x14 x32 x00 x02 x0b)) E)
(T (W x00 x00 x4d x02 x47 x02 x00 x00)
(L (W x00 x00 x00 x00 x00 x00 x00 x00)) E)))
(T (W x00 x00 x61 x02 x54 x00 x00 x00)
(T (W x00 x00 x00 x00 x00 x00 x00 x00)
(T (W x01 x46 xaf x00 x82 x00 x67 x02)
(L (W x0e x00 x10 x00 x13 x00 x19 x00)) E)
(T (W xa0 x40 x22 x12 x61 x1c x20 x00)
(L (W x04 x04 x04 x01 x01 x01 x01 x01)) E))
(T (W x00 x00 x7f x19 x23 x03 x05 x05)
(T (W x00 x36 x02 x00 x05 x00 x00 x00)
(L (W x32 x00 x55 x28 x00 x00 x00 x00)) E)
(T (W x00 x00 x00 x00 x00 x00 x00 x00)
(L (W x01 x01 x00 x00 x00 x00 x00 x00)) E)))))
(T (W x00 x00 x5c x00 x48 x00 x00 x00)
(T (W x01 x47 xfd x00 xa0 x00 x14 x05)
(T (W x04 x04 x04 x01 x01 x01 x01 x01)
(T (W x01 x01 x00 x00 x00 x00 x00 x00)
(T (W x00 x00 x00 x00 x00 x00 x00 x00)
(L (W xaa x00 x31 x08 x03 x26 x20 x00))
(L (W x03 x03 x03 x01 x01 x01 x01 x01)))
(T (W x00 x00 x00 x00 x00 x00 x00 x00)
(L (W x01 x00 x01 x00 x01 x00 x01 x00)) E))
(T (W x00 x00 x00 x00 x00 x00 x00 x00)
(T (W x00 x00 xff x78 x00 x05 x0f x0f)
(L (W x00 x00 x00 x00 x00 x00 x5b x03)) E)
(T (W x00 x00 x00 x00 x00 x00 x00 x00)
(L (W x00 x00 x00 x00 x00 x00 x00 x00)) E)))
(T (W x00 x00 x00 x00 x00 x00 x00 x00)
(T (W x01 x80 x0c x58 x83 x20 x20 x80)
(T (W x0e x00 x10 x00 x13 x00 x19 x00)
(L (W x00 x00 x4a x02 x0a x03 x00 x00))
(L (W x3c x90 x30 xc0 x02 x00 x00 x00)))
(T (W x03 x03 x03 x01 x01 x01 x01 x01)
(L (W x00 x00 xff x00 x00 x00 x00 x00)) E))
(T (W x00 x00 x00 x00 x00 x00 x5b x01)
(T (W x3c x00 x55 x1e x00 x00 x00 x00)
(L (W x23 x37 x28 x5a x32 x32 x0c x0c)) E)
(T (W x02 x02 x00 x00 x00 x00 x00 x00)
(L (W x00 x00 x00 x00 x00 x00 x00 x00)) E))))
(T (W x00 x00 x00 x00 x00 x00 x5a x00)
(T (W x23 x28 x64 x23 x5a x37 x05 x0a)
(T (W x00 x00 x7f x00 x00 x00 x00 x00)
(T (W x00 x00 x00 x00 x00 x00 x00 x00)
(L (W x3c x00 x64 x23 x00 x00 x00 x00))
(L (W x00 x00 x00 x00 x00 x00 x00 x00)))
(T (W x00 x00 x00 x00 x00 x00 x00 x00)
(L (W x01 x01 x00 x00 x00 x00 x00 x00)) E))
(T (W x01 x45 xa5 x00 x32 x00 x24 x03)
(T (W x62 x04 x00 x0c x10 x22 x02 x84)
(L (W x03 x03 x02 x01 x01 x01 x01 x01)) E)
(T (W x0e x00 x10 x00 x13 x00 x19 x00)
(L (W x00 x00 x00 x00 x00 x00 x00 x00)) E)))
(T (W x0e x00 x10 x00 x13 x00 x19 x00)
(T (W x00 x00 x00 x00 x00 x00 x00 x00)
(T (W x05 x06 x00 x00 x00 x00 x00 x00)
(L (W x01 x42 xac x00 x64 x00 x54 x01)) E)
(T (W x00 x00 x00 x00 x00 x00 x00 x00)
(L (W xb9 x00 x01 x04 x11 x60 x02 x02)) E))
(T (W x00 x00 x00 x01 x01 x01 x01 x01)
(T (W x00 x00 x3c x02 xca x00 x00 x00)
(L (W x00 x00 x00 x00 x00 x00 x00 x00)) E)
(T (W x00 x00 x7f x14 x32 x00 x03 x06)
(L (W x00 x00 x00 x00 x00 x00 xa7 x02)) E))))))))
(T (W x3c x00 x50 x32 x00 x00 x00 x00)
(T (W x0e x00 x10 x00 x13 x00 x19 x00)
(T (W x00 x00 x00 x00 x00 x00 x00 x00)
(T (W x3c x5a x37 x6e x5a x50 x0c x0c)
(T (W x00 x00 x00 x00 x00 x00 x00 x00)
(T (W x06 x05 x00 x00 x00 x00 x00 x00)
(T (W x00 x00 x00 x00 x00 x00 x00 x00)
(T (W x00 x00 xff x28 x23 x05 x0a x0a)
(L (W x00 x00 x00 x00 x00 x00 xeb x02))
(L (W x02 x02 x00 x00 x00 x00 x00 x00)))
(T (W x60 x11 x00 x80 x00 x00 x00 x00)
(L (W x32 x00 x50 x2d x00 x00 x00 x00)) E))
(T (W x44 x41 x41 x50 x7d x73 x0d x11)
(T (W x01 x48 x11 x01 x96 x00 x7c x01)
(L (W x0e x00 x10 x00 x13 x00 x19 x00)) E)
(T (W x00 x00 x00 x00 x00 x00 x00 x00)
(L (W x03 x02 x01 x01 x01 x01 x01 x01)) E)))
(T (W x31 x80 x08 x40 x08 x1c x00 x02)
(T (W x00 x00 x00 x00 x00 x00 x00 x00)
(T (W x3c x00 x64 x32 x00 x00 x00 x00)
(L (W x6b x8b x8b x4f x35 x35 x06 x01))
(L (W x14 x54 x1a xd4 x48 x1c x0c x00)))
(T (W x03 x03 x00 x00 x00 x00 x00 x00)
(L (W x00 x00 x00 x00 x00 x00 x00 x00)) E))
(T (W x0e x00 x10 x00 x13 x00 x19 x00)
(T (W x00 x00 x00 x01 x01 x01 x01 x01)
(L (W x00 x00 x7f x28 x32 x05 x0b x0e)) E)
(T (W x00 x00 x49 x02 x30 x01 x00 x00)
(L (W x00 x00 x00 x00 x00 x00 x00 x00)) E))))
(T (W x0e x00 x10 x00 x13 x00 x19 x00)
(T (W x00 x00 x7f x14 x32 x00 x0c x0c)
(T (W x01 x40 xaf x00 xb4 x00 x9c x04)
(T (W x00 x00 x00 x00 x00 x00 x00 x00)
(L (W x04 x04 x04 x01 x01 x01 x01 x01))
(L (W x00 x00 xff x78 x00 x05 x0f x0f)))
(T (W x0e x00 x10 x00 x13 x00 x19 x00)
(L (W x00 x00 x00 x00 x00 x00 x00 x00)) E))
(T (W x02 x10 x02 x00 x04 x00 x00 x00)
(T (W x00 x00 x00 x00 x00 x00 x00 x00)
(L (W x05 x05 x00 x00 x00 x00 x00 x00)) E)
(T (W x32 x00 x50 x28 x00 x00 x00 x00)
(L (W x00 x00 x00 x00 x00 x00 x00 x00)) E)))
(T (W x00 x00 x00 x00 x00 x00 x00 x00)
(T (W x04 x04 x04 x01 x01 x01 x01 x01)
(T (W x00 x00 xc9 x00 x51 x01 x00 x00)
(L (W x00 x10 x00 x00 x00 x00 x00 x00))
(L (W x00 x00 x00 x00 x00 x00 x00 x00)))
(T (W x00 x00 x7f x14 x32 x00 x05 x05)
(L (W x00 x00 x00 x00 x00 x00 x00 x00)) E))
(T (W x01 x01 x00 x00 x00 x00 x00 x00)
(T (W x78 x64 x55 x2d x1e x55 x01 x01)
(L (W x0c x00 x02 x00 x11 x20 x4d x04)) E)
(T (W x01 x45 x09 x01 xa0 x00 x6e x01)
(L (W x01 x00 x01 x00 x01 x00 x01 x00)) E)))))
(T (W x3c x00 x50 x32 x00 x00 x00 x00)
(T (W x00 x00 x5f x00 x37 x00 x00 x00)
(T (W x00 x00 x00 x00 x00 x00 xec x00)
(T (W x01 x00 x01 x00 x01 x00 x01 x00)
(T (W x00 x00 x00 x01 x01 x01 x01 x01)
(L (W x00 x00 x7f x0f x32 x00 x05 x05))
(L (W x00 x00 x00 x00 x00 x00 xe8 x02)))
(T (W x00 x00 xcc x00 x1d x02 x00 x00)
(L (W x00 x00 x00 x00 x00 x00 x00 x00)) E))
(T (W x3c x00 x64 x46 x00 x00 x00 x00)
(T (W x03 x04 x00 x00 x00 x00 x00 x00)
(L (W x01 x45 x3e x00 x3c x00 x28 x00)) E)
(T (W x00 x00 x00 x00 x00 x00 x00 x00)
(L (W x00 x00 x00 x00 x00 x00 x00 x00)) E)))
(T (W x00 x00 x00 x00 x00 x00 x00 x00)
(T (W x00 x00 x7f x28 x23 x05 x01 x01)
(T (W x00 x00 x00 x00 x00 x00 x00 x00)
(L (W x00 x00 x00 x00 x00 x00 x00 x00))
(L (W x41 x3c x4b x40 x6e x79 x11 x11)))
(T (W x00 x00 x00 x00 x00 x00 x6b x02)
(L (W x01 x01 x00 x00 x00 x00 x00 x00)) E))
(T (W x01 x41 xa4 x00 x5a x00 xec x00)
(T (W x80 x40 x00 x80 x48 x9c x00 x80)
(L (W x00 x00 x00 x01 x01 x01 x01 x01)) E)
(T (W x0e x00 x10 x00 x13 x00 x19 x00)
(L (W x00 x00 x00 x00 x00 x00 x00 x00)) E))))
(T (W x00 x00 x00 x00 x00 x00 x00 x00)
(T (W x02 x03 x01 x01 x01 x01 x02 x02)
(T (W x04 x05 x00 x00 x00 x00 x00 x00)
(T (W x00 x00 x00 x00 x00 x00 x00 x00)
(L (W x28 xc0 x09 x50 x01 x04 x20 x00))
(L (W x00 x00 x00 x01 x01 x01 x01 x01)))
(T (W x01 x42 xa5 x00 x50 x00 x8f x00)
(L (W x0e x00 x10 x00 x13 x00 x19 x00)) E))
(T (W x00 x00 x00 x00 x00 x00 x00 x00)
(T (W x00 x00 x1f x00 x00 x00 x00 x00)
(L (W x00 x00 x00 x00 x00 x00 x6b x03)) E)
(T (W x02 x10 x0a x40 x02 x00 x00 x00)
(L (W x00 x00 x00 x00 x00 x00 x00 x00)) E)))
(T (W x40 x11 x00 x80 x00 x00 x00 x00)
(T (W x08 x00 x00 x08 x22 x20 x10 x00)
(T (W x01 x00 x01 x00 x01 x00 x01 x00)
(L (W x00 x00 xa1 x01 x2b x02 x00 x00)) E)
(T (W x03 x00 x00 x01 x01 x01 x01 x01)
(L (W x00 x00 xff x00 x00 x00 x00 x00)) E))
(T (W x00 x00 x00 x00 x00 x00 x6b x01)
(T (W x32 x00 x50 x32 x00 x00 x00 x00)
(L (W x00 x00 x00 x00 x00 x00 x00 x00)) E)
(T (W x01 x01 x00 x00 x00 x00 x00 x00)
(L (W x00 x00 x00 x00 x00 x00 x00 x00)) E))))))
(T (W x00 x00 x00 x00 x00 x00 x00 x00)
(T (W x03 x04 x00 x00 x00 x00 x00 x00)
(T (W x00 x00 x7f x14 x32 x00 x02 x05)
(T (W x00 x00 x00 x00 x00 x00 x00 x00)
(T (W x05 x04 x04 x01 x01 x01 x01 x01)
(T (W x00 x00 x00 x00 x00 x00 x00 x00)
(L (W x00 x10 x00 x40 x00 x00 x00 x00))
(L (W x00 x00 x00 x00 x00 x00 x00 x00)))
(T (W x00 x00 x1f x1e x32 x00 x04 x09)
(L (W x00 x00 x00 x00 x00 x00 x00 x00)) E))
(T (W x01 x01 x00 x00 x00 x00 x00 x00)
(T (W x55 x50 x46 x5a x87 x4b x00 x00)
(L (W x01 x00 x20 x02 x00 x00 x90 x80)) E)
(T (W x01 x45 x94 x00 x64 x00 xa8 x01)
(L (W x0a x00 x0a x00 x0a x00 x0a x00)) E)))
(T (W x01 x41 x93 x00 x90 x01 xa5 x00)
(T (W x00 x90 x02 x00 x04 x00 x00 x00)
(T (W x00 x00 x00 x00 x00 x00 xab x01)
(L (W x02 x02 x00 x00 x00 x00 x00 x00))
(L (W x02 x46 x3e x00 x0a x00 x02 x00)))
(T (W x3c x00 x55 x2d x00 x00 x00 x00)
(L (W x32 x41 x6b x56 x69 x6b x0c x0a)) E))
(T (W x18 x84 x08 x40 x00 x00 x00 x16)
(T (W x0e x00 x10 x00 x13 x00 x19 x00)
(L (W x00 x00 x00 x00 x00 x00 x00 x00)) E)
(T (W x02 x02 x02 x01 x01 x01 x01 x01)
(L (W x00 x00 xff x00 x00 x00 x00 x00)) E))))
(T (W x10 x08 x80 x02 x00 x00 xc8 xc4)
(T (W x00 x00 x5e x00 x3b x00 x00 x00)
(T (W x00 x00 x00 x00 x00 x00 x00 x00)
(T (W x01 x41 x7f x00 x5a x00 x31 x01)
(L (W x0e x00 x10 x00 x13 x00 x19 x00))
(L (W x00 x00 x32 x01 xce x02 x00 x00)))
(T (W x00 x00 x00 x08 x02 x20 x02 x00)
(L (W x00 x00 x00 x01 x01 x01 x01 x01)) E))
(T (W x00 x00 x7f x00 x00 x00 x00 x00)
(T (W x00 x00 x00 x00 x00 x00 x00 x00)
(L (W x3c x00 x55 x32 x00 x00 x00 x00)) E)
(T (W x00 x00 x00 x00 x00 x00 xaa x02)
(L (W x01 x01 x00 x00 x00 x00 x00 x00)) E)))
(T (W x00 x00 x00 x00 x00 x00 xaa x00)
(T (W x0e x00 x10 x00 x13 x00 x19 x00)
(T (W x04 x04 x03 x01 x01 x01 x01 x01)
(L (W x00 x00 x7f x0f x32 x03 x04 x04)) E)
(T (W x00 x00 xe8 x01 x8d x00 x00 x00)
(L (W x08 x10 x00 x00 x00 x00 x00 x00)) E))
(T (W x00 x00 x00 x00 x00 x00 x00 x00)
(T (W x04 x05 x00 x00 x00 x00 x00 x00)
(L (W x02 x45 x95 x00 x46 x00 x9a x02)) E)
(T (W x50 x4a x4a x3c x7e x74 x0a x11)
(L (W x00 x00 x00 x00 x00 x00 x00 x00)) E)))))
(T (W x00 x00 x00 x00 x00 x00 x2b x00)
(T (W x03 x02 x02 x01 x01 x01 x01 x01)
(T (W x00 x90 x02 x00 x04 x00 x00 x00)
(T (W x02 x00 x12 x02 x20 x10 xc4 x00)
(T (W x01 x00 x01 x00 x01 x00 x01 x00)
(L (W x00 x00 x3c x02 x41 x02 x00 x00))
(L (W x1e x10 x20 x80 x00 x00 x00 x00)))
(T (W x03 x03 x03 x01 x01 x01 x01 x01)
(L (W x00 x00 xff x00 x00 x00 x00 x00)) E))
(T (W x00 x00 x00 x00 x00 x00 x00 x00)
(T (W x00 x00 x00 x00 x00 x00 x00 x00)
(L (W x39 x5a x5f x1d x88 x67 x0d x11)) E)
(T (W x01 x01 x00 x00 x00 x00 x00 x00)
(L (W x00 x00 x00 x00 x00 x00 x00 x00)) E)))
(T (W x01 x01 x00 x00 x00 x00 x00 x00)
(T (W x00 x00 x9e x02 x48 x00 x00 x00)
(T (W x00 x00 x7f x19 x32 x00 x0f x0f)
(L (W x00 x00 x00 x00 x00 x00 x2a x03))
(L (W x03 x05 x00 x00 x00 x00 x00 x00)))
(T (W x22 x98 x20 xc0 x00 x00 x00 x00)
(L (W x00 x00 x00 x00 x00 x00 x00 x00)) E))
(T (W x56 x51 x61 x2b x51 x6b x05 x0b)
(T (W x01 x47 x3d x00 x3c x00 x7d x00)
(L (W x0e x00 x10 x00 x13 x00 x19 x00)) E)
(T (W x81 x04 x08 x40 x29 x68 x00 x40)
(L (W x00 x00 x00 x01 x01 x01 x01 x01)) E))))
(T (W x1e x41 x64 x28 x2d x19 x0a x0a)
(T (W x0e x00 x10 x00 x13 x00 x19 x00)
(T (W x00 x00 x00 x00 x00 x00 x00 x00)
(T (W x03 x03 x00 x00 x00 x00 x00 x00)
(L (W x01 x46 x1d x01 x82 x00 xd4 x00))
(L (W x01 x00 x01 x00 x01 x00 x01 x00)))
(T (W x00 x00 x00 x00 x00 x00 x00 x00)
(L (W x00 x00 x00 x00 x00 x00 x00 x00)) E))
(T (W x00 x00 x00 x01 x01 x01 x01 x01)
(T (W x00 x00 x47 x02 xf2 x00 x00 x00)
(L (W x0d x10 x02 x00 x04 x00 x00 x00)) E)
(T (W x00 x00 x7f x14 x32 x00 x01 x0e)
(L (W x00 x00 x00 x00 x00 x00 x00 x00)) E)))
(T (W x00 x00 x7f x0a x32 x04 x02 x06)
(T (W x00 x00 x00 x00 x00 x00 x00 x00)
(T (W x00 x40 x10 x00 x40 x84 x49 x00)
(L (W x03 x03 x02 x01 x01 x01 x01 x01)) E)
(T (W x01 x00 x01 x00 x01 x00 x01 x00)
(L (W x00 x00 x00 x00 x00 x00 x00 x00)) E))
(T (W x00 x10 x02 x00 x04 x00 x00 x00)
(T (W x00 x00 x00 x00 x00 x00 x2a x02)
(L (W x03 x04 x00 x00 x00 x00 x00 x00)) E)
(T (W x00 x00 x00 x00 x00 x00 x00 x00)
(L (W x4a x30 x4c x68 x53 x51 x0d x0d)) E)))))))
(T (W x00 x00 x00 x00 x00 x00 x0a x00)
(T (W x00 x00 x00 x00 x00 x00 x00 x00)
(T (W x00 x00 x0e x00 x59 x00 x00 x00)
(T (W x03 x42 x3a x00 x28 x00 x2a x00)
(T (W x03 x03 x02 x01 x01 x01 x01 x01)
(T (W x01 x01 x00 x00 x00 x00 x00 x00)
(T (W x50 x32 x64 x32 x64 xc8 x0e x0e)
(L (W x80 x40 x20 x00 x09 x94 x00 x40))
(L (W x03 x00 x00 x01 x01 x01 x01 x01)))
(T (W x01 x41 x47 x00 x46 x00 xa5 x00)
(L (W x0a x00 x0a x00 x0a x00 x0a x00)) E))
(T (W x00 x00 x00 x00 x00 x00 x00 x00)
(T (W x00 x00 x1f x23 x23 x00 x05 x05)
(L (W x00 x00 x00 x00 x00 x00 x4b x03)) E)
(T (W x00 x00 x00 x00 x00 x00 x00 x00)
(L (W x00 x00 x00 x00 x00 x00 x00 x00)) E)))
(T (W x00 x10 x01 x20 x00 x00 x00 x00)
(T (W x4a x01 x02 x00 x30 x20 x04 x00)
(T (W x01 x00 x01 x00 x01 x00 x01 x00)
(L (W x00 x00 x00 x00 x00 x00 x00 x00))
(L (W x00 x10 x00 x80 x00 x00 x00 x00)))
(T (W x04 x04 x04 x01 x01 x01 x01 x01)
(L (W x00 x00 x7f x14 x32 x00 x02 x0b)) E))
(T (W x00 x00 x00 x00 x00 x00 x00 x00)
(T (W x3c x00 x55 x28 x00 x00 x00 x00)
(L (W x8c x55 x5f x82 x91 x5f x03 x0f)) E)
(T (W x04 x05 x00 x00 x00 x00 x00 x00)
(L (W x00 x00 x00 x00 x00 x00 x00 x00)) E))))
(T (W x00 x00 x00 x00 x00 x00 x00 x00)
(T (W x28 x2d x41 x5a x64 x78 x0d x11)
(T (W x00 x00 x7f x14 x23 x03 x05 x05)
(T (W x00 x00 x00 x00 x00 x00 x00 x00)
(L (W x3c x00 x50 x32 x00 x00 x00 x00))
(L (W x5f x5f x5f x5f x5f x5f x0c x0c)))
(T (W x00 x00 x00 x00 x00 x00 x4b x02)
(L (W x01 x01 x00 x00 x00 x00 x00 x00)) E))
(T (W x00 x00 x00 x00 x00 x00 x00 x00)
(T (W x7e x0b x80 x00 x23 x20 x64 x10)
(L (W x03 x02 x02 x01 x01 x01 x01 x01)) E)
(T (W x0e x00 x10 x00 x13 x00 x19 x00)
(L (W x00 x00 x00 x00 x00 x00 x00 x00)) E)))
(T (W x01 x00 x01 x00 x01 x00 x01 x00)
(T (W x00 x00 x00 x00 x00 x00 x00 x00)
(T (W x03 x03 x00 x00 x00 x00 x00 x00)
(L (W x01 x45 xa1 x00 x3c x00 x3c x00)) E)
(T (W x48 x55 x46 x3a x41 x46 x10 x0f)
(L (W x00 x00 x00 x00 x00 x00 x00 x00)) E))
(T (W x00 x00 x00 x01 x01 x01 x01 x01)
(T (W x00 x00 x00 x00 x00 x00 x00 x00)
(L (W x00 x30 x90 x00 x00 x00 x00 x00)) E)
(T (W x00 x00 x1f x0f x32 x03 x05 x05)
(L (W x00 x00 x00 x00 x00 x00 x00 x00)) E)))))
(T (W x0e x00 x10 x00 x13 x00 x19 x00)
(T (W x03 x04 x00 x00 x00 x00 x00 x00)
(T (W x3a x00 x50 x04 x00 x40 x00 x08)
(T (W x00 x00 x00 x00 x00 x00 x00 x00)
(T (W x00 x00 x00 x00 x00 x00 x00 x00)
(L (W x34 x28 x30 x3e x28 x30 x0b x0b))
(L (W x08 x20 x00 x00 x00 x00 x10 x00)))
(T (W x03 x04 x00 x00 x00 x00 x00 x00)
(L (W x00 x00 x00 x00 x00 x00 x00 x00)) E))
(T (W x01 x00 x01 x00 x01 x00 x01 x00)
(T (W x03 x00 x00 x01 x01 x01 x01 x01)
(L (W x00 x00 xff x14 x32 x00 x0a x0b)) E)
(T (W x00 x00 x00 x00 x00 x00 x00 x00)
(L (W x00 x00 x00 x00 x00 x00 x00 x00)) E)))
(T (W x00 x00 x00 x00 x00 x00 x00 x00)
(T (W x6a x82 x5a x5a x6e x9a x09 x02)
(T (W x01 x43 x3c x00 x32 x00 x5d x02)
(L (W x0e x00 x10 x00 x13 x00 x19 x00))
(L (W x00 x00 x97 x00 x5d x02 x00 x00)))
(T (W x82 x40 x10 x00 x09 xb0 x08 x00)
(L (W x00 x00 x00 x01 x01 x01 x01 x01)) E))
(T (W x00 x00 xff x14 x32 x00 x0a x0a)
(T (W x02 x10 x02 x00 x00 x00 x00 x00)
(L (W x3c x00 x55 x14 x00 x00 x00 x00)) E)
(T (W x00 x00 x00 x00 x00 x00 xca x02)
(L (W x01 x01 x00 x00 x00 x00 x00 x00)) E))))
(T (W x00 x00 x7f x00 x00 x00 x00 x00)
(T (W x3c x00 x50 x28 x00 x00 x00 x00)
(T (W x04 x04 x04 x01 x01 x01 x01 x01)
(T (W x00 x00 x00 x00 x00 x00 x00 x00)
(L (W x00 x50 x05 x64 x00 x00 x00 x00))
(L (W x00 x00 x00 x00 x00 x00 x00 x00)))
(T (W x00 x00 xff x14 x32 x03 x0a x0a)
(L (W x00 x00 x00 x00 x00 x00 x00 x00)) E))
(T (W x03 x04 x00 x00 x00 x00 x00 x00)
(T (W x2d x3c x2d x37 x19 x2d x00 x00)
(L (W x80 x40 x00 x00 x28 x15 x20 x44)) E)
(T (W x01 x41 x42 x00 x32 x00 x53 x00)
(L (W x01 x00 x01 x00 x01 x00 x01 x00)) E)))
(T (W x00 x00 x00 x00 x00 x00 x00 x00)
(T (W x00 x90 x00 x41 x00 x00 x00 x00)
(T (W x00 x00 x00 x00 x00 x00 xcb x01)
(L (W x04 x04 x00 x00 x00 x00 x00 x00)) E)
(T (W x00 x00 x00 x00 x00 x00 x00 x00)
(L (W x00 x00 x00 x00 x00 x00 x00 x00)) E))
(T (W x00 x00 x00 x00 x00 x00 x00 x00)
(T (W x0e x00 x10 x00 x13 x00 x19 x00)
(L (W x00 x00 xab x01 x5d x02 x00 x00)) E)
(T (W x03 x03 x02 x01 x01 x01 x01 x01)
(L (W x00 x00 xff x00 x00 x00 x00 x00)) E))))))
(T (W x00 x00 x7f x00 x00 x00 x00 x00)
(T (W x03 x03 x03 x01 x01 x01 x01 x01)
(T (W x37 x46 x2d x3c x46 x32 x09 x09)
(T (W x0e x00 x10 x00 x13 x00 x19 x00)
(T (W x3c x00 x55 x32 x00 x00 x00 x00)
(T (W x02 x02 x00 x00 x00 x00 x00 x00)
(L (W x01 x46 x8e x00 x64 x00 x73 x00))
(L (W x01 x00 x01 x00 x01 x00 x01 x00)))
(T (W x28 x41 x28 x41 x50 x28 x10 x10)
(L (W x00 x00 x00 x00 x00 x00 x00 x00)) E))
(T (W x04 x04 x04 x01 x01 x01 x01 x01)
(T (W x00 x00 x00 x00 x00 x00 x00 x00)
(L (W x00 x34 x21 x20 x00 x00 x00 x00)) E)
(T (W x00 x00 x7f x0f x32 x03 x04 x04)
(L (W x00 x00 x00 x00 x00 x00 x00 x00)) E)))
(T (W x00 x00 xff x78 x64 x03 x0f x0f)
(T (W x01 x45 x22 x01 xd2 x00 xbc x07)
(T (W x00 x00 x00 x00 x00 x00 x00 x00)
(L (W x02 x02 x02 x01 x01 x01 x01 x02))
(L (W x00 x00 xfe x14 x32 x00 x06 x0b)))
(T (W x0e x00 x10 x00 x13 x00 x19 x00)
(L (W x00 x00 xb3 x01 x93 x01 x00 x00)) E))
(T (W x40 x51 x02 x08 x04 x00 x00 x00)
(T (W x00 x00 x00 x00 x00 x00 x00 x00)
(L (W x02 x02 x00 x00 x00 x00 x00 x00)) E)
(T (W x3c x00 x5f x32 x00 x00 x00 x00)
(L (W x00 x00 x00 x00 x00 x00 x00 x00)) E))))
(T (W x00 x10 x05 x00 x00 x00 x00 x00)
(T (W x03 x04 x00 x00 x00 x00 x00 x00)
(T (W x00 x00 x36 x00 xb5 x00 x00 x00)
(T (W x00 x00 x7f x14 x32 x03 x06 x07)
(L (W x00 x00 x00 x00 x00 x00 x00 x00))
(L (W x05 x05 x00 x00 x00 x00 x00 x00)))
(T (W x40 x30 x00 x00 x00 x00 x00 x00)
(L (W x00 x00 x00 x00 x00 x00 x00 x00)) E))
(T (W x00 x00 x00 x00 x00 x00 x00 x00)
(T (W x00 x00 x00 x00 x00 x00 x00 x00)
(L (W x0e x00 x10 x00 x13 x00 x19 x00)) E)
(T (W xa4 x00 x02 x04 x10 x00 x0e x00)
(L (W x00 x00 x00 x01 x01 x01 x01 x01)) E)))
(T (W x0a x04 x00 x00 x00 x20 x60 x04)
(T (W x00 x00 x00 x00 x00 x00 x00 x00)
(T (W x3c x00 x50 x28 x00 x00 x00 x00)
(L (W x3c x2d x6e x5a x50 x78 x06 x0d)) E)
(T (W x05 x05 x00 x00 x00 x00 x00 x00)
(L (W x04 x48 xa8 x00 xaa x00 xb0 x04)) E))
(T (W x0e x00 x10 x00 x13 x00 x19 x00)
(T (W x04 x04 x03 x01 x01 x01 x01 x01)
(L (W x00 x00 x7f x14 x32 x00 x05 x05)) E)
(T (W x00 x00 x00 x00 x00 x00 x00 x00)
(L (W x00 x00 x00 x00 x00 x00 x00 x00)) E)))))
(T (W x00 x00 x00 x00 x00 x00 x00 x00)
(T (W x00 x00 x00 x00 x00 x00 x00 x00)
(T (W x01 x41 x3b x00 x28 x00 x50 x00)
(T (W x00 x00 x00 x00 x00 x00 x00 x00)
(T (W x00 x00 x00 x00 x00 x00 x00 x00)
(L (W x02 x02 x00 x00 x00 x00 x00 x00))
(L (W x12 x47 x1d x01 xe6 x00 xed x03)))
(T (W x00 x00 x00 x00 x00 x00 x00 x00)
(L (W x00 x00 x00 x00 x00 x00 x00 x00)) E))
(T (W x62 x00 x12 x86 x30 x00 x0a x10)
(T (W x0a x00 x0a x00 x13 x00 x0a x00)
(L (W x00 x00 xcf x00 x19 x03 x00 x00)) E)
(T (W x03 x03 x03 x01 x01 x01 x01 x01)
(L (W x00 x00 xff x00 x00 x00 x00 x00)) E)))
(T (W x00 x00 x00 x01 x01 x01 x01 x01)
(T (W x03 x04 x00 x00 x00 x00 x00 x00)
(T (W x32 x5c x6c x23 x5c x6c x07 x10)
(L (W x30 x0a x81 x00 x00 x02 x29 x00))
(L (W x00 x00 x00 x01 x01 x01 x01 x01)))
(T (W x01 x40 xb3 x00 x96 x00 x9a x01)
(L (W x01 x00 x01 x00 x01 x00 x01 x00)) E))
(T (W x00 x00 x94 x01 x5e x01 x00 x00)
(T (W x00 x00 x7f x14 x32 x03 x02 x02)
(L (W x00 x00 x55 x00 xcf x02 xac x00)) E)
(T (W x04 x10 x02 x02 x04 x00 x00 x00)
(L (W x00 x00 x00 x00 x00 x00 x00 x00)) E))))
(T (W x00 x00 x6d x00 xb4 x00 x00 x00)
(T (W x00 x00 x00 x00 x00 x00 x8a x00)
(T (W x01 x00 x01 x00 x01 x00 x01 x00)
(T (W x00 x00 x00 x01 x01 x01 x01 x01)
(L (W x00 x00 xff x78 x00 x05 x0f x0f))
(L (W x00 x00 x00 x00 x00 x00 x00 x00)))
(T (W x00 x00 x00 x00 x00 x00 x00 x00)
(L (W x00 x00 x00 x00 x00 x00 x00 x00)) E))
(T (W x00 x00 x00 x00 x00 x00 x00 x00)
(T (W x01 x01 x00 x00 x00 x00 x00 x00)
(L (W x01 x48 xbb x00 xb4 x00 x90 x01)) E)
(T (W x4d x3b x32 x2e x43 x3f x05 x0e)
(L (W x00 x00 x00 x00 x00 x00 x00 x00)) E)))
(T (W x5a x4b x4b x46 x5a x64 x0a x0a)
(T (W x00 x00 x7f x14 x32 x00 x02 x04)
(T (W x00 x10 x02 x01 x06 x00 x00 x00)
(L (W x3c x00 x55 x2d x00 x00 x00 x00)) E)
(T (W x00 x00 x00 x00 x00 x00 x00 x00)
(L (W x02 x02 x00 x00 x00 x00 x00 x00)) E))
(T (W x01 x48 x93 x00 x6e x00 x51 x04)
(T (W x00 x40 x00 x12 x00 x98 x00 x00)
(L (W x00 x00 x00 x01 x01 x01 x01 x01)) E)
(T (W x0e x00 x10 x00 x13 x00 x19 x00)
(L (W x00 x00 x37 x02 x36 x01 x00 x00)) E))))))))))))
(T (W x00 x00 x00 x00 x00 x00 x00 x00)
(T (W x00 x00 x00 x00 x00 x00 x00 x00)
(T (W x01 x01 x00 x00 x00 x00 x00 x00)
(T (W x0e x00 x10 x00 x13 x00 x19 x00)
(T (W x50 x52 x53 x50 x64 x64 x0b x03)
(T (W x00 x00 x53 x00 x6c x00 x00 x00)
(T (W x06 x06 x06 x01 x01 x01 x01 x01)
(T (W x00 x00 x00 x00 x00 x00 x00 x00)
(T (W x00 x00 x00 x00 x00 x00 x00 x00)
(T (W x01 x46 x8e x00 xa0 x00 x01 x00)
(T (W x00 x10 x02 x00 x00 x00 x00 x00)
(T (W x00 x00 x00 x00 x00 x00 x73 x01)
(L (W x03 x04 x00 x00 x00 x00 x00 x00))
(L (W x04 x45 x43 x00 x32 x00 x4b x00)))
(T (W x3c x00 x64 x32 x00 x00 x00 x00)
(L (W x5f x69 x55 x2d x7d x4b x0b x0f)) E))
(T (W x08 x00 x00 x08 x04 x02 x10 x02)
(T (W x0e x00 x10 x00 x13 x00 x19 x00)
(L (W x00 x00 xe5 x00 xf6 x00 x00 x00)) E)
(T (W x00 x00 x00 x01 x01 x01 x01 x01)
(L (W x00 x00 x00 x78 x5a x05 x0f x0f)) E)))
(T (W x04 x04 x04 x01 x01 x01 x01 x01)
(T (W x01 x01 x00 x00 x00 x00 x00 x00)
(T (W x00 x00 x00 x00 x00 x00 x00 x00)
(L (W x85 x54 xb2 x00 x61 x8c x60 x01))
(L (W x00 x00 x00 x01 x01 x01 x01 x01)))
(T (W x01 x41 x43 x00 x32 x00 x5a x00)
(L (W x01 x00 x01 x00 x01 x00 x01 x00)) E))
(T (W x00 x00 x00 x00 x00 x00 x00 x00)
(T (W x00 x00 x1f x00 x00 x00 x00 x00)
(L (W x00 x00 x00 x00 x00 x00 x74 x03)) E)
(T (W x01 x10 x02 x00 x00 x00 x00 x00)
(L (W x00 x00 x00 x00 x00 x00 x00 x00)) E))))
(T (W x00 x00 x00 x00 x00 x00 x00 x00)
(T (W x00 x00 x00 x00 x00 x00 x74 x00)
(T (W x01 x00 x01 x00 x01 x00 x01 x00)
(T (W x00 x00 x00 x01 x01 x01 x01 x01)
(L (W x00 x00 x7f x14 x32 x00 x03 x09))
(L (W x00 x00 x00 x00 x00 x00 x04 x03)))
(T (W x00 x00 x00 x00 x00 x00 x00 x00)
(L (W x00 x00 x00 x00 x00 x00 x00 x00)) E))
(T (W x3c x00 x50 x32 x00 x00 x00 x00)
(T (W x02 x02 x00 x00 x00 x00 x00 x00)
(L (W x01 x46 xff x00 x96 x00 x62 x02)) E)
(T (W x5f x7c x4e x3a x45 x47 x01 x10)
(L (W x00 x00 x00 x00 x00 x00 x00 x00)) E)))
(T (W x3c x1e x1e x32 x24 x38 x00 x02)
(T (W x00 x00 x1f x14 x32 x03 x05 x05)
(T (W x80 xb0 x60 x00 x00 x00 x00 x00)
(L (W x3c x00 x5a x32 x00 x00 x00 x00))
(L (W xff x73 xfa x82 x7d xfa x03 x0f)))
(T (W x00 x00 x00 x00 x00 x00 x73 x02)
(L (W x01 x01 x00 x00 x00 x00 x00 x00)) E))
(T (W x01 x45 x28 x00 x3c x00 x4a x00)
(T (W x08 x24 x00 x00 x08 x40 x10 x08)
(L (W x02 x06 x05 x01 x01 x01 x02 x02)) E)
(T (W x0a x00 x0a x00 x0a x00 x0a x00)
(L (W x00 x00 x00 x00 x00 x00 x00 x00)) E)))))
(T (W x46 x2d x30 x23 x3c x41 x11 x11)
(T (W x10 x90 x20 x00 x00 x00 x00 x00)
(T (W x04 x05 x00 x00 x00 x00 x00 x00)
(T (W x00 x00 x2b x02 x74 x01 x00 x00)
(T (W x00 x00 xff x78 x00 x05 x0f x0f)
(L (W x00 x00 x00 x00 x00 x00 xf3 x02))
(L (W x01 x01 x00 x00 x00 x00 x00 x00)))
(T (W x00 xb0 x20 x00 x00 x00 x00 x00)
(L (W x00 x00 x00 x00 x00 x00 x00 x00)) E))
(T (W x3d x5a x2d xa0 x32 x32 x06 x02)
(T (W x01 x44 x07 x01 xdc x00 x2a x04)
(L (W x0e x00 x10 x00 x13 x00 x19 x00)) E)
(T (W x30 x08 x81 x00 x04 x00 x20 x02)
(L (W x00 x00 x00 x01 x01 x01 x01 x01)) E)))
(T (W xff xff xff xff xff xff xff xff)
(T (W x00 x00 x00 x00 x00 x00 xf4 x00)
(T (W x00 x00 x00 x00 x00 x00 x00 x00)
(L (W x43 x49 x43 x49 x49 x43 x03 x03))
(L (W x00 x00 x02 x00 x02 x00 x04 x14)))
(T (W x03 x03 x00 x00 x00 x00 x00 x00)
(L (W x06 x40 xb6 x00 x1e x00 x03 x00)) E))
(T (W x0e x00 x10 x00 x13 x00 x19 x00)
(T (W x00 x00 x00 x01 x01 x01 x01 x01)
(L (W x00 x00 xff x78 x23 x05 x0f x0f)) E)
(T (W x00 x00 x13 x01 xa5 x01 x00 x00)
(L (W x00 x00 x00 x00 x00 x00 x00 x00)) E))))
(T (W x0e x00 x10 x00 x13 x00 x19 x00)
(T (W x00 x00 x00 x14 x32 x05 x05 x05)
(T (W x01 x45 x9e x00 x6e x00 x2e x02)
(T (W x0a x00 x40 x0a x82 x21 x00 x18)
(L (W x00 x00 x00 x01 x01 x01 x01 x01))
(L (W x00 x00 xff x00 x00 x00 x00 x00)))
(T (W x0e x00 x10 x00 x13 x00 x19 x00)
(L (W x00 x00 x00 x00 x00 x00 x00 x00)) E))
(T (W x00 x00 x00 x00 x00 x00 x00 x00)
(T (W x00 x00 x00 x00 x00 x00 x00 x00)
(L (W x03 x03 x00 x00 x00 x00 x00 x00)) E)
(T (W x3c x00 x55 x37 x00 x00 x00 x00)
(L (W x00 x00 x00 x00 x00 x00 x00 x00)) E)))
(T (W x3c x00 x64 x46 x00 x00 x00 x00)
(T (W x00 x00 x00 x01 x01 x01 x01 x01)
(T (W x00 x00 xcf x00 x0d x01 x00 x00)
(L (W xe0 x11 x00 x08 x00 x00 x00 x00)) E)
(T (W x00 x00 xff x50 x23 x05 x0f x0f)
(L (W x00 x00 x00 x00 x00 x00 x2a x02)) E))
(T (W x03 x04 x00 x00 x00 x00 x00 x00)
(T (W x3c x43 x55 x74 x4d x4b x0b x11)
(L (W x2a x04 x00 x8c x10 x02 x22 x84)) E)
(T (W x00 x00 x00 x00 x00 x00 x00 x00)
(L (W x01 x00 x01 x00 x01 x00 x01 x00)) E))))))
(T (W x01 x00 x01 x00 x01 x00 x01 x00)
(T (W x01 x41 x37 x00 x28 x00 x46 x00)
(T (W x00 x00 x00 x00 x00 x00 x34 x00)
(T (W x37 x82 x73 x4b x32 x32 x0a x0a)
(T (W x00 x00 x7f x00 x00 x00 x00 x00)
(T (W x01 x10 x02 x00 x04 x00 x00 x00)
(L (W x3c x00 x5a x37 x00 x00 x00 x00))
(L (W x36 x64 x47 x73 x3d x55 x0f x04)))
(T (W x00 x00 x00 x00 x00 x00 x34 x02)
(L (W x02 x02 x00 x00 x00 x00 x00 x00)) E))
(T (W x00 x00 x00 x00 x00 x00 x00 x00)
(T (W x02 x04 x00 x00 x00 x00 x24 x00)
(L (W x04 x04 x03 x01 x01 x01 x01 x01)) E)
(T (W x01 x00 x01 x00 x01 x00 x01 x00)
(L (W x00 x00 x00 x00 x00 x00 x00 x00)) E)))
(T (W x0a x00 x0a x00 x13 x00 x0a x00)
(T (W x32 x00 x50 x32 x00 x00 x00 x00)
(T (W x01 x01 x00 x00 x00 x00 x00 x00)
(L (W x01 x43 x1d x01 x98 x03 x0f x27))
(L (W x0e x00 x10 x00 x13 x00 x19 x00)))
(T (W x42 x75 x46 x43 x28 x32 x0f x0f)
(L (W x00 x20 x00 x00 x08 x00 x10 x00)) E))
(T (W x00 x00 x00 x01 x01 x01 x01 x01)
(T (W x00 x00 x5f x00 x5e x00 x00 x00)
(L (W x00 x16 x00 x10 x02 x00 x00 x00)) E)
(T (W x00 x00 x7f x28 x23 x05 x0e x0e)
(L (W x00 x00 x00 x00 x00 x00 x00 x00)) E))))
(T (W x00 x00 x00 x01 x01 x01 x01 x01)
(T (W xc0 x11 x00 x1a x00 x00 x00 x00)
(T (W x22 x00 x02 x16 x00 x00 x02 x80)
(T (W x01 x00 x01 x00 x01 x00 x01 x00)
(L (W x00 x00 x32 x01 xce x02 x00 x00))
(L (W x1e x10 x20 x80 x00 x00 x00 x00)))
(T (W x02 x02 x02 x01 x01 x01 x02 x02)
(L (W x00 x00 xff x00 x00 x00 x00 x00)) E))
(T (W x00 x00 x00 x00 x00 x00 x00 x00)
(T (W x00 x00 x00 x00 x00 x00 x00 x00)
(L (W x3a x5f x91 x1e x32 x69 x04 x07)) E)
(T (W x02 x02 x00 x00 x00 x00 x00 x00)
(L (W x00 x00 x00 x00 x00 x00 x00 x00)) E)))
(T (W x01 x01 x00 x00 x00 x00 x00 x00)
(T (W x00 x00 x00 x00 x00 x00 x00 x00)
(T (W x00 x00 x1f x19 x32 x03 x05 x08)
(L (W x00 x00 x00 x00 x00 x00 x33 x03)) E)
(T (W x1c x10 x00 x00 x00 x00 x00 x00)
(L (W x00 x00 x00 x00 x00 x00 x00 x00)) E))
(T (W x14 x28 x5a x19 x1e x5a x07 x07)
(T (W x00 x00 x00 x00 x00 x00 x00 x00)
(L (W x0e x00 x10 x00 x13 x00 x19 x00)) E)
(T (W xb1 x0a xa1 x04 x11 x04 x20 xa1)
(L (W x00 x00 x00 x01 x01 x01 x01 x01)) E)))))
(T (W x05 x06 x00 x00 x00 x00 x00 x00)
(T (W x00 x00 x3f x14 x32 x03 x08 x08)
(T (W x3c x00 x50 x32 x00 x00 x00 x00)
(T (W x00 x00 x00 x01 x01 x01 x01 x01)
(T (W x00 x00 x00 x00 x00 x00 x00 x00)
(L (W x00 x18 x80 x00 x00 x00 x00 x00))
(L (W x3c x00 x50 x28 x00 x00 x00 x00)))
(T (W x00 x00 xbf x14 x32 x03 x08 x08)
(L (W x00 x00 x00 x00 x00 x00 x00 x00)) E))
(T (W x01 x01 x00 x00 x00 x00 x00 x00)
(T (W x64 x78 x78 x5a x96 x64 x08 x0f)
(L (W x42 x00 x00 x04 x10 x00 x0e x00)) E)
(T (W x00 x00 x00 x00 x00 x00 x00 x00)
(L (W x01 x00 x01 x00 x01 x00 x01 x00)) E)))
(T (W x00 x00 x00 x00 x00 x00 x00 x00)
(T (W x00 x10 x02 x90 x00 x00 x00 x00)
(T (W x00 x00 x00 x00 x00 x00 xb4 x01)
(L (W x03 x04 x00 x00 x00 x00 x00 x00))
(L (W x09 x42 xad x00 x1e x00 x05 x00)))
(T (W x3c x00 x50 x28 x00 x00 x00 x00)
(L (W x00 x00 x00 x00 x00 x00 x00 x00)) E))
(T (W x42 x11 x12 x00 x28 x30 x88 x10)
(T (W x0e x00 x10 x00 x13 x00 x19 x00)
(L (W x00 x00 x68 x00 x58 x01 x00 x00)) E)
(T (W x02 x02 x02 x01 x01 x01 x01 x01)
(L (W x00 x00 xff x00 x00 x00 x00 x00)) E))))
(T (W x00 x00 x00 x00 x00 x00 x00 x00)
(T (W x00 x00 xcc x00 x1c x00 x00 x00)
(T (W x41 x50 x8c x46 x28 x46 x08 x02)
(T (W x00 x00 x00 x00 x00 x00 x00 x00)
(L (W x0a x00 x0a x00 x13 x00 x0a x00))
(L (W x00 x00 x00 x00 x00 x00 x00 x00)))
(T (W x08 x40 x00 x80 x40 x00 x40 x00)
(L (W x00 x00 x00 x01 x01 x01 x01 x01)) E))
(T (W x00 x00 x7f x28 x32 x02 x05 x0c)
(T (W x1c x90 x20 x00 x00 x00 x00 x00)
(L (W x3c x00 x5a x32 x00 x00 x00 x00)) E)
(T (W x00 x00 x00 x00 x00 x00 xb4 x02)
(L (W x01 x01 x00 x00 x00 x00 x00 x00)) E)))
(T (W x00 x00 x00 x00 x00 x00 x00 x00)
(T (W x0e x00 x10 x00 x13 x00 x19 x00)
(T (W x04 x03 x03 x01 x01 x01 x01 x01)
(L (W x00 x00 x7f x0f x32 x00 x05 x05)) E)
(T (W x00 x00 x00 x00 x00 x00 x00 x00)
(L (W x00 x00 x00 x00 x00 x00 x00 x00)) E))
(T (W x00 x00 x00 x00 x00 x00 x00 x00)
(T (W x03 x04 x00 x00 x00 x00 x00 x00)
(L (W x02 x49 x3f x00 x78 x00 x68 x01)) E)
(T (W x00 x00 x00 x00 x00 x00 x00 x00)
(L (W x00 x00 x00 x00 x00 x00 x00 x00)) E)))))))
(T (W x04 x05 x00 x00 x00 x00 x00 x00)
(T (W x00 x00 x00 x00 x00 x00 x00 x00)
(T (W x00 x10 x85 x24 x02 x00 x00 x00)
(T (W x01 x00 x01 x00 x01 x00 x01 x00)
(T (W x00 x00 x7f x00 x00 x00 x00 x00)
(T (W x00 x00 x00 x00 x00 x00 x00 x00)
(T (W x42 x50 x10 x00 x60 x34 x08 x00)
(L (W x04 x04 x04 x01 x01 x01 x01 x01))
(L (W x00 x00 x7f x14 x32 x00 x0b x0b)))
(T (W x0e x00 x10 x00 x13 x00 x19 x00)
(L (W x00 x00 x16 x03 xbc x00 x00 x00)) E))
(T (W xc0 x11 x80 x1a x00 x00 x00 x00)
(T (W x00 x00 x00 x00 x00 x00 xaf x00)
(L (W x03 x03 x00 x00 x00 x00 x00 x00)) E)
(T (W x00 x00 x00 x00 x00 x00 x00 x00)
(L (W x5b x48 x5a x6c x81 x5a x0a x01)) E)))
(T (W x28 x00 x46 x28 x00 x00 x00 x00)
(T (W x00 x00 x00 x01 x01 x01 x01 x01)
(T (W x00 x00 x84 x01 x50 x00 x00 x00)
(L (W x00 x18 x02 x40 x04 x00 x00 x00))
(L (W x3c x00 x64 x3c x00 x00 x00 x00)))
(T (W x00 x00 x7f x14 x32 x03 x0b x0b)
(L (W x00 x00 x00 x00 x00 x00 x00 x00)) E))
(T (W x03 x03 x00 x00 x00 x00 x00 x00)
(T (W x00 x00 x00 x00 x00 x00 x00 x00)
(L (W x02 x80 x08 x40 x00 x00 x18 x00)) E)
(T (W x01 x43 xaf x00 x50 x00 xd7 x00)
(L (W x01 x00 x01 x00 x01 x00 x01 x00)) E))))
(T (W x04 x05 x00 x00 x00 x00 x00 x00)
(T (W x00 x20 x00 x02 x00 x00 x90 x80)
(T (W x00 x00 x00 x00 x00 x00 x7b x00)
(T (W x00 x00 x00 x00 x00 x00 x00 x00)
(L (W x37 x3c x82 x05 x1e x82 x0a x0a))
(L (W x13 xc4 x00 x10 x60 x04 x20 x00)))
(T (W x04 x04 x00 x00 x00 x00 x00 x00)
(L (W x00 x00 x00 x00 x00 x00 x00 x00)) E))
(T (W x0e x00 x10 x00 x13 x00 x19 x00)
(T (W x00 x00 x00 x01 x01 x01 x01 x01)
(L (W x00 x00 xbf x14 x32 x04 x02 x09)) E)
(T (W x00 x00 x71 x00 xd9 x01 x00 x00)
(L (W x00 x00 x00 x00 x00 x00 x00 x00)) E)))
(T (W x00 x00 x00 x00 x00 x00 x00 x00)
(T (W x46 x55 x46 x32 x3c x46 x0a x04)
(T (W x01 x41 x2c x01 xbe x00 xb6 x03)
(L (W x0e x00 x10 x00 x13 x00 x19 x00))
(L (W x00 x00 x00 x00 x00 x00 x00 x00)))
(T (W xb0 x08 x80 x00 x01 x00 x00 x80)
(L (W x00 x00 x00 x01 x01 x01 x01 x01)) E))
(T (W x00 x00 x7f x00 x00 x00 x00 x00)
(T (W x00 x98 x02 x00 x04 x00 x00 x00)
(L (W x3c x00 x55 x32 x00 x00 x00 x00)) E)
(T (W x00 x00 x96 x02 xb7 x02 xd2 x02)
(L (W x01 x01 x00 x00 x00 x00 x00 x00)) E)))))
(T (W x00 x00 xdb x00 x35 x00 x00 x00)
(T (W x01 x41 x87 x00 x64 x00 xc8 x00)
(T (W x03 x04 x03 x01 x01 x01 x02 x02)
(T (W x01 x01 x00 x00 x00 x00 x00 x00)
(T (W x00 x00 x00 x00 x00 x00 x00 x00)
(L (W xa0 x00 x01 x00 x21 x04 x20 x00))
(L (W x03 x03 x03 x01 x01 x01 x01 x01)))
(T (W x01 x47 xa5 x00 x32 x00 x4b x00)
(L (W x01 x00 x01 x00 x01 x00 x01 x00)) E))
(T (W x00 x00 x30 x00 xf1 x01 x00 x00)
(T (W x00 x00 xff x50 x8c x05 x0f x0f)
(L (W x00 x00 x00 x00 x00 x00 x54 x03)) E)
(T (W x00 x00 x00 x00 x00 x00 x00 x00)
(L (W x00 x00 x00 x00 x00 x00 x00 x00)) E)))
(T (W x00 x00 x00 x00 x00 x00 x00 x00)
(T (W xa9 x60 x08 x04 x08 x1c x00 x00)
(T (W x01 x00 x01 x00 x01 x00 x01 x00)
(L (W x00 x00 x00 x00 x00 x00 x00 x00))
(L (W x80 x11 x80 x12 x00 x00 x00 x00)))
(T (W x03 x03 x03 x01 x01 x01 x01 x01)
(L (W x00 x00 xff x00 x00 x00 x00 x00)) E))
(T (W x00 x00 x00 x00 x00 x00 x53 x01)
(T (W x32 x00 x55 x2d x00 x00 x00 x00)
(L (W x00 x00 x00 x00 x00 x00 x00 x00)) E)
(T (W x03 x03 x00 x00 x00 x00 x00 x00)
(L (W x00 x00 x00 x00 x00 x00 x00 x00)) E))))
(T (W x00 x00 x00 x00 x00 x00 x00 x00)
(T (W x82 x55 x50 x3c x55 x5f x0a x0e)
(T (W x00 x00 x7f x14 x32 x00 x02 x0c)
(T (W x00 x00 x00 x00 x00 x00 x00 x00)
(L (W x3c x00 x55 x32 x00 x00 x00 x00))
(L (W x00 x00 x00 x00 x00 x00 x00 x00)))
(T (W x00 x00 x00 x00 x00 x00 x53 x02)
(L (W x03 x03 x00 x00 x00 x00 x00 x00)) E))
(T (W x00 x00 x00 x00 x00 x00 x00 x00)
(T (W x00 x00 x00 x00 x00 x00 x00 x00)
(L (W x03 x03 x02 x01 x01 x01 x01 x01)) E)
(T (W x0e x00 x10 x00 x13 x00 x19 x00)
(L (W x00 x00 x00 x00 x00 x00 x00 x00)) E)))
(T (W x0e x00 x10 x00 x13 x00 x19 x00)
(T (W x3c x00 x55 x2d x00 x00 x00 x00)
(T (W x01 x01 x00 x00 x00 x00 x00 x00)
(L (W x01 x43 x32 x00 x28 x00 x16 x00)) E)
(T (W x64 x78 x64 x5a x96 x78 x0f x09)
(L (W x00 x00 x00 x00 x00 x00 x00 x00)) E))
(T (W x06 x06 x06 x01 x01 x01 x01 x01)
(T (W x00 x00 x2a x01 xca x00 x00 x00)
(L (W x00 x00 x00 x00 x00 x00 x00 x00)) E)
(T (W x00 x00 x7f x0f x32 x00 x03 x03)
(L (W x00 x00 x00 x00 x00 x00 x00 x00)) E))))))
(T (W x00 x00 x00 x00 x00 x00 x00 x00)
(T (W x00 x00 x00 x14 x32 x03 x01 x05)
(T (W x04 x20 x02 x00 x21 x00 x10 x00)
(T (W x00 x00 x00 x00 x00 x00 x00 x00)
(T (W x5f x55 x55 x23 x41 x41 x0a x04)
(T (W x01 x41 x2c x01 xc8 x00 x58 x02)
(L (W x0e x00 x10 x00 x13 x00 x19 x00))
(L (W x00 x00 x00 x00 x00 x00 x00 x00)))
(T (W x39 xc0 x00 x40 x29 x18 x08 x00)
(L (W x00 x00 x00 x01 x01 x01 x01 x01)) E))
(T (W x00 x00 x7f x00 x00 x00 x00 x00)
(T (W xc0 x10 x04 x20 x00 x00 x00 x00)
(L (W x3c x00 x55 x2d x00 x00 x00 x00)) E)
(T (W x00 x00 x00 x00 x00 x00 x93 x02)
(L (W x02 x02 x00 x00 x00 x00 x00 x00)) E)))
(T (W x00 x00 x00 x00 x00 x00 x93 x00)
(T (W x0e x00 x10 x00 x13 x00 x19 x00)
(T (W x02 x02 x02 x01 x01 x01 x02 x02)
(L (W x00 x00 xff x78 x00 x05 x0f x0f))
(L (W x00 x00 x00 x00 x00 x00 x56 x03)))
(T (W x00 x00 xb5 x00 x0c x02 x00 x00)
(L (W x00 x30 x05 x24 x00 x00 x00 x00)) E))
(T (W x37 x00 x55 x37 x00 x00 x00 x00)
(T (W x03 x04 x00 x00 x00 x00 x00 x00)
(L (W x02 x43 x2c x01 xb4 x00 xbc x02)) E)
(T (W x39 x50 x5b x4b x50 x57 x08 x11)
(L (W x00 x00 x00 x00 x00 x00 x00 x00)) E))))
(T (W x3c x00 x50 x28 x00 x00 x00 x00)
(T (W x01 x42 xac x00 x6e x00 x2c x01)
(T (W x00 x00 x00 x00 x00 x00 x00 x00)
(T (W x00 x00 x00 x00 x00 x00 x93 x01)
(L (W x05 x05 x00 x00 x00 x00 x00 x00))
(L (W x12 x47 x1d x01 xe6 x00 xed x03)))
(T (W x3c x00 x64 x46 x00 x00 x00 x00)
(L (W x00 x00 x00 x00 x00 x00 x00 x00)) E))
(T (W x00 x00 x00 x00 x00 x00 x00 x00)
(T (W x01 x00 x01 x00 x01 x00 x01 x00)
(L (W x00 x00 x97 x00 x5d x02 x00 x00)) E)
(T (W x02 x02 x02 x01 x01 x01 x01 x01)
(L (W x00 x00 xff x00 x00 x00 x00 x00)) E)))
(T (W x02 x02 x02 x01 x01 x01 x01 x01)
(T (W x03 x03 x00 x00 x00 x00 x00 x00)
(T (W x28 x32 x5a x41 x1e x37 x03 x06)
(L (W x20 x40 x01 x00 x54 x84 x20 x02)) E)
(T (W x01 x48 x13 x01 xa0 x00 xcc x01)
(L (W x0e x00 x10 x00 x13 x00 x19 x00)) E))
(T (W x00 x00 x00 x00 x00 x00 x00 x00)
(T (W x00 x00 x7f x0f x32 x03 x03 x03)
(L (W x00 x00 x00 x00 x00 x00 x32 x00)) E)
(T (W x80 x50 x80 x02 x00 x00 x00 x00)
(L (W x00 x00 x00 x00 x00 x00 x00 x00)) E)))))
(T (W x03 x03 x03 x01 x01 x01 x01 x01)
(T (W x50 x64 x46 x2d x32 x3c x01 x01)
(T (W x0e x00 x10 x00 x13 x00 x19 x00)
(T (W x3c x00 x64 x46 x00 x00 x00 x00)
(T (W x01 x01 x00 x00 x00 x00 x00 x00)
(L (W x01 x48 xac x00 x96 x00 xf8 x02))
(L (W x0e x00 x10 x00 x13 x00 x19 x00)))
(T (W x6e x41 x4b x1e x7d x55 x0d x0d)
(L (W x00 x00 x00 x00 x00 x00 x00 x00)) E))
(T (W x00 x00 x00 x01 x01 x01 x01 x01)
(T (W x00 x00 x00 x00 x00 x00 x00 x00)
(L (W xe2 x11 x80 x10 x02 x00 x00 x00)) E)
(T (W x00 x00 x7f x00 x00 x00 x00 x00)
(L (W x00 x00 x00 x00 x00 x00 x00 x00)) E)))
(T (W x00 x00 x1f x00 x00 x00 x00 x00)
(T (W x01 x43 x8e x00 x5a x00 xd8 x00)
(T (W x6e x01 x02 x00 x10 x20 x0c x10)
(L (W x03 x03 x02 x01 x01 x01 x01 x01))
(L (W x00 x00 x7f x0a x32 x00 x05 x06)))
(T (W x0e x00 x10 x00 x13 x00 x19 x00)
(L (W x00 x00 x00 x00 x00 x00 x00 x00)) E))
(T (W x00 x10 x02 x01 x00 x00 x00 x00)
(T (W x00 x00 x00 x00 x00 x00 x14 x02)
(L (W x03 x04 x00 x00 x00 x00 x00 x00)) E)
(T (W x00 x00 x00 x00 x00 x00 x00 x00)
(L (W x00 x00 x00 x00 x00 x00 x00 x00)) E))))
(T (W x01 x10 x08 x00 x00 x00 x00 x00)
(T (W x04 x05 x00 x00 x00 x00 x00 x00)
(T (W x00 x00 x00 x00 x00 x00 x00 x00)
(T (W x00 x00 xfe x0f x32 x03 x03 x03)
(L (W x00 x00 xcd x02 xba x02 x14 x03))
(L (W x01 x01 x00 x00 x00 x00 x00 x00)))
(T (W x00 x00 x00 x00 x00 x00 x00 x00)
(L (W x00 x00 x00 x00 x00 x00 x00 x00)) E))
(T (W x00 x00 x00 x00 x00 x00 x00 x00)
(T (W x01 x46 x38 x00 x28 x00 x65 x00)
(L (W x0e x00 x10 x00 x13 x00 x19 x00)) E)
(T (W x00 x04 x00 x44 x01 x20 x49 x00)
(L (W x00 x00 x00 x01 x01 x01 x01 x01)) E)))
(T (W x8c x24 x00 x00 x00 x20 x30 x04)
(T (W x00 x00 x00 x00 x00 x00 x00 x00)
(T (W x32 x00 x50 x32 x00 x00 x00 x00)
(L (W x3b x2d x32 x1a x28 x32 x0c x0c)) E)
(T (W x01 x01 x00 x00 x00 x00 x00 x00)
(L (W x02 x43 xa5 x00 x46 x00 xcd x00)) E))
(T (W x0e x00 x10 x00 x13 x00 x19 x00)
(T (W x04 x03 x03 x01 x01 x01 x01 x01)
(L (W x00 x00 x7f x14 x32 x00 x04 x05)) E)
(T (W x00 x00 x00 x00 x00 x00 x00 x00)
(L (W xc0 x11 x10 x08 x00 x00 x00 x00)) E))))))))
(T (W x00 x00 x00 x00 x00 x00 x04 x00)
(T (W x00 x60 x10 x41 x20 x00 x30 x00)
(T (W x00 x00 x00 x00 x00 x00 x00 x00)
(T (W x01 x01 x00 x00 x00 x00 x00 x00)
(T (W x00 x00 x7f x00 x00 x00 x00 x00)
(T (W x3c x00 x5a x28 x00 x00 x00 x00)
(T (W x00 x00 x00 x01 x01 x01 x01 x01)
(T (W x00 x00 x74 x00 x51 x01 x00 x00)
(L (W x00 x10 x02 x00 x00 x00 x00 x00))
(L (W x3c x00 x64 x3c x00 x00 x00 x00)))
(T (W x00 x00 x7f x0f x32 x00 x05 x0e)
(L (W x00 x00 x00 x00 x00 x00 x68 x00)) E))
(T (W x03 x04 x00 x00 x00 x00 x00 x00)
(T (W x4b x5f x43 x53 x7d x5f x09 x09)
(L (W x10 x48 x90 x00 x08 x9c x10 x41)) E)
(T (W x00 x00 x00 x00 x00 x00 x00 x00)
(L (W x0e x00 x10 x00 x13 x00 x19 x00)) E)))
(T (W x01 x45 xad x00 x82 x00 x95 x01)
(T (W x00 x00 x00 x00 x00 x00 x00 x00)
(T (W x00 x00 x00 x00 x00 x00 xa4 x01)
(L (W x05 x06 x00 x00 x00 x00 x00 x00))
(L (W x02 x42 xa7 x00 x14 x00 x07 x00)))
(T (W x3c x00 x5a x2d x00 x00 x00 x00)
(L (W x00 x00 x00 x00 x00 x00 x00 x00)) E))
(T (W x00 x00 x00 x00 x00 x00 x00 x00)
(T (W x01 x00 x01 x00 x01 x00 x01 x00)
(L (W x00 x00 x63 x02 x36 x01 x00 x00)) E)
(T (W x05 x05 x05 x01 x01 x01 x01 x01)
(L (W x00 x00 xff x00 x00 x00 x00 x00)) E))))
(T (W x00 x00 x00 x00 x00 x00 x00 x00)
(T (W x00 x00 x61 x00 x96 x01 x00 x00)
(T (W x41 x5f x55 x55 x37 x37 x0a x03)
(T (W x00 x00 x00 x00 x00 x00 x00 x00)
(L (W x0e x00 x10 x00 x13 x00 x19 x00))
(L (W x00 x00 x32 x01 xce x02 x00 x00)))
(T (W x28 x44 x00 x00 x40 x00 x08 x00)
(L (W x00 x00 x00 x01 x01 x01 x01 x01)) E))
(T (W x00 x00 x7f x23 x23 x05 x01 x01)
(T (W x00 x00 x00 x00 x00 x00 x00 x00)
(L (W x3c x00 x64 x32 x00 x00 x00 x00)) E)
(T (W x00 x00 x00 x00 x00 x00 x00 x00)
(L (W x01 x01 x00 x00 x00 x00 x00 x00)) E)))
(T (W x00 x00 x00 x00 x00 x00 xa3 x00)
(T (W x0e x00 x10 x00 x13 x00 x19 x00)
(T (W x04 x04 x04 x01 x01 x01 x01 x01)
(L (W x00 x00 x1f x14 x32 x03 x02 x05))
(L (W x00 x00 x00 x00 x00 x00 x7b x03)))
(T (W x00 x00 x6e x01 x93 x01 x00 x00)
(L (W x00 x00 x00 x00 x00 x00 x00 x00)) E))
(T (W x3c x00 x64 x3c x00 x00 x00 x00)
(T (W x03 x03 x00 x00 x00 x00 x00 x00)
(L (W x0a x42 x70 x00 x28 x00 x3c x00)) E)
(T (W x4e x4b x4b x34 x46 x46 x0b x02)
(L (W x00 x00 x00 x00 x00 x00 x00 x00)) E)))))
(T (W x00 x00 x00 x00 x00 x00 xad x00)
(T (W x05 x04 x04 x01 x01 x01 x01 x01)
(T (W x00 x98 x02 x00 x04 x00 x00 x00)
(T (W x46 x61 x02 x80 x31 x20 x16 x00)
(T (W x0e x00 x10 x00 x13 x00 x19 x00)
(L (W x00 x00 x31 x01 x35 x00 x00 x00))
(L (W x00 x00 x00 x00 x00 x00 x00 x00)))
(T (W x03 x03 x03 x01 x01 x01 x01 x01)
(L (W x00 x00 xff x00 x00 x00 x00 x00)) E))
(T (W x00 x00 x00 x00 x00 x00 x22 x01)
(T (W x3c x00 x55 x32 x00 x00 x00 x00)
(L (W x64 x73 x41 x41 x5a x5a x09 x06)) E)
(T (W x01 x01 x00 x00 x00 x00 x00 x00)
(L (W x00 x00 x00 x00 x00 x00 x00 x00)) E)))
(T (W x01 x01 x00 x00 x00 x00 x00 x00)
(T (W x00 x00 x00 x00 x00 x00 x00 x00)
(T (W x00 x00 xbf x00 x00 x00 x00 x00)
(L (W x00 x00 x00 x00 x00 x00 x23 x03))
(L (W x04 x05 x00 x00 x00 x00 x00 x00)))
(T (W x00 x10 x06 x24 x04 x00 x00 x00)
(L (W x00 x00 x00 x00 x00 x00 x00 x00)) E))
(T (W x32 x30 x2b x3c x2e x29 x0a x04)
(T (W x01 x41 x89 x00 x5a x00 xfc x03)
(L (W x0a x00 x0a x00 x0a x00 x0a x00)) E)
(T (W x42 x01 x10 x0c x13 x21 x0a x00)
(L (W x00 x00 x00 x01 x01 x01 x01 x01)) E))))
(T (W x34 x5a x37 x3c x3a x3e x00 x02)
(T (W x0e x00 x10 x00 x13 x00 x19 x00)
(T (W x3c x00 x64 x32 x00 x00 x00 x00)
(T (W x01 x01 x00 x00 x00 x00 x00 x00)
(L (W x01 x43 xb5 x00 x86 x01 x34 x08))
(L (W x01 x00 x01 x00 x01 x00 x01 x00)))
(T (W x32 x2f x32 x41 x39 x32 x06 x0c)
(L (W x62 x04 x00 x08 x00 x22 x20 x00)) E))
(T (W x04 x03 x03 x01 x01 x01 x01 x01)
(T (W x00 x00 x00 x00 x00 x00 x00 x00)
(L (W x80 x10 x02 x00 x06 x00 x00 x00)) E)
(T (W x00 x00 x7f x14 x32 x00 x09 x09)
(L (W x00 x00 x00 x00 x00 x00 x00 x00)) E)))
(T (W x00 x00 x1f x0a x32 x04 x04 x06)
(T (W x00 x00 x00 x00 x00 x00 x00 x00)
(T (W x00 x00 x00 x00 x00 x00 x00 x00)
(L (W x04 x03 x03 x01 x01 x01 x01 x01)) E)
(T (W x0a x00 x0a x00 x13 x00 x0a x00)
(L (W x00 x00 xa7 x01 xa3 x01 x00 x00)) E))
(T (W x09 x30 x02 x00 x00 x00 x00 x00)
(T (W x00 x00 x00 x00 x00 x00 x24 x02)
(L (W x01 x01 x00 x00 x00 x00 x00 x00)) E)
(T (W x00 x00 x00 x00 x00 x00 x00 x00)
(L (W x00 x00 x00 x00 x00 x00 x00 x00)) E))))))
(T (W x00 x00 x00 x00 x00 x00 x00 x00)
(T (W x3c x00 x64 x46 x00 x00 x00 x00)
(T (W x00 x00 x67 x00 x0d x01 x00 x00)
(T (W x00 x00 x00 x00 x00 x00 x00 x00)
(T (W x01 x00 x01 x00 x01 x00 x01 x00)
(T (W x00 x00 x00 x01 x01 x01 x01 x01)
(L (W x00 x00 x7f x0f x32 x00 x02 x03))
(L (W x00 x00 x00 x00 x00 x00 xce x02)))
(T (W x00 x00 xae x00 x9d x00 x00 x00)
(L (W xc1 x34 x0a x08 x00 x00 x00 x00)) E))
(T (W x00 x00 x00 x00 x00 x00 x00 x00)
(T (W x01 x01 x00 x00 x00 x00 x00 x00)
(L (W x03 x41 xa6 x00 x50 x00 xb4 x00)) E)
(T (W x26 x24 x26 x39 x20 x24 x00 x00)
(L (W x00 x42 x00 x34 x62 x06 x08 x00)) E)))
(T (W x29 x40 x2d x32 x32 x32 x0f x0f)
(T (W x00 x00 x3f x19 x32 x00 x0f x0f)
(T (W x00 x70 x40 x00 x02 x00 x00 x00)
(L (W x00 x00 x00 x00 x00 x00 x00 x00))
(L (W x4b x62 x46 x4b x72 x46 x0c x03)))
(T (W x00 x00 x00 x00 x00 x00 x62 x02)
(L (W x04 x05 x00 x00 x00 x00 x00 x00)) E))
(T (W x01 x41 x3e x00 x28 x00 x0c x00)
(T (W x38 x00 x00 x00 x00 x00 x20 x00)
(L (W x00 x00 x00 x01 x01 x01 x01 x01)) E)
(T (W x0e x00 x10 x00 x13 x00 x19 x00)
(L (W x00 x00 x00 x00 x00 x00 x00 x00)) E))))
(T (W x02 x42 x52 x00 x64 x00 x2c x01)
(T (W x03 x03 x03 x01 x01 x01 x01 x01)
(T (W x01 x01 x00 x00 x00 x00 x00 x00)
(T (W x2d x41 x22 x2d x28 x22 x0c x0c)
(L (W x00 x00 x00 x00 x00 x00 x00 x00))
(L (W x03 x03 x03 x01 x01 x01 x01 x01)))
(T (W x01 x47 xad x00 x64 x00 x4a x01)
(L (W x01 x00 x01 x00 x01 x00 x01 x00)) E))
(T (W x00 x00 x0c x01 xb3 x01 x00 x00)
(T (W x00 x00 x1f x00 x00 x00 x00 x00)
(L (W x00 x00 x00 x00 x00 x00 x64 x03)) E)
(T (W x40 x10 x80 x02 x00 x00 x00 x00)
(L (W x00 x00 x00 x00 x00 x00 x00 x00)) E)))
(T (W x00 x10 x01 x00 x00 x00 x00 x00)
(T (W x42 x04 x00 x08 x00 x22 x20 x00)
(T (W x0e x00 x10 x00 x13 x00 x19 x00)
(L (W x00 x00 xd4 x01 xa9 x02 x00 x00)) E)
(T (W x02 x06 x04 x01 x01 x01 x02 x02)
(L (W x00 x00 xff x00 x00 x00 x00 x00)) E))
(T (W x00 x00 x00 x00 x00 x00 x63 x01)
(T (W x00 x00 x00 x00 x00 x00 x00 x00)
(L (W x0a x37 x1e x5a x23 x2d x04 x08)) E)
(T (W x03 x03 x00 x00 x00 x00 x00 x00)
(L (W x00 x00 x00 x00 x00 x00 x00 x00)) E)))))
(T (W x00 x54 x00 x80 x00 x00 x00 x00)
(T (W x0e x00 x10 x00 x13 x00 x19 x00)
(T (W x00 x00 x7f x14 x32 x05 x01 x05)
(T (W x00 x00 x00 x00 x00 x00 x00 x00)
(T (W x00 x00 x00 x00 x00 x00 x00 x00)
(L (W x03 x02 x02 x01 x01 x01 x01 x01))
(L (W x00 x00 xff x78 x00 x05 x0f x0f)))
(T (W x0e x00 x10 x00 x13 x00 x19 x00)
(L (W x00 x00 x00 x00 x00 x00 x00 x00)) E))
(T (W x00 x10 x80 x00 x02 x00 x00 x00)
(T (W x00 x00 x00 x00 x00 x00 xe4 x01)
(L (W x02 x02 x00 x00 x00 x00 x00 x00)) E)
(T (W x00 x00 x00 x00 x00 x00 x00 x00)
(L (W x00 x00 x00 x00 x00 x00 x00 x00)) E)))
(T (W x00 x00 x00 x00 x00 x00 x00 x00)
(T (W x01 x01 x01 x01 x01 x01 x02 x02)
(T (W x00 x00 x1e x01 x68 x01 x00 x00)
(L (W x00 x50 x00 x40 x00 x00 x00 x00))
(L (W x3c x00 x5a x37 x00 x00 x00 x00)))
(T (W x00 x00 x7f x14 x23 x00 x08 x08)
(L (W x00 x00 x00 x00 x00 x00 x00 x00)) E))
(T (W x03 x03 x00 x00 x00 x00 x00 x00)
(T (W x67 x3c x56 x32 x3c x56 x00 x00)
(L (W x08 x00 x00 x00 x10 x20 x41 x04)) E)
(T (W x01 x40 x54 x01 x44 x02 xee x07)
(L (W x01 x00 x01 x00 x01 x00 x01 x00)) E))))
(T (W x01 x01 x00 x00 x00 x00 x00 x00)
(T (W x02 x04 x00 x00 x00 x00 x65 x00)
(T (W x00 x00 x00 x00 x00 x00 x00 x00)
(T (W x00 x00 x00 x00 x00 x00 x00 x00)
(L (W x46 x82 x73 x4b x55 x5f x0b x11))
(L (W x00 x00 x00 x00 x00 x00 x00 x00)))
(T (W x03 x03 x00 x00 x00 x00 x00 x00)
(L (W x00 x00 x00 x00 x00 x00 x00 x00)) E))
(T (W x0e x00 x10 x00 x13 x00 x19 x00)
(T (W x03 x03 x03 x01 x01 x01 x01 x01)
(L (W x00 x00 xff x23 x32 x05 x0f x0f)) E)
(T (W x00 x00 x4a x01 x60 x01 x00 x00)
(L (W x00 x00 x00 x00 x00 x00 x00 x00)) E)))
(T (W x00 x00 x00 x00 x00 x00 x00 x00)
(T (W x5a x64 x3c x50 x5a x3c x0b x10)
(T (W x01 x44 xb3 x00 x6e x00 x54 x01)
(L (W x0e x00 x10 x00 x13 x00 x19 x00)) E)
(T (W xa0 x20 x22 x13 x01 x08 x30 x00)
(L (W x00 x00 x00 x01 x01 x01 x01 x01)) E))
(T (W x00 x00 x7f x00 x00 x00 x00 x00)
(T (W x10 x10 x00 x00 x00 x00 x00 x00)
(L (W x00 x00 x00 x00 x00 x00 x00 x00)) E)
(T (W x00 x00 x00 x00 x00 x00 x00 x00)
(L (W x01 x01 x00 x00 x00 x00 x00 x00)) E)))))))
(T (W x00 x00 x04 x00 x00 x00 x00 x00)
(T (W x00 x00 x7f x00 x00 x00 x00 x00)
(T (W x04 x04 x04 x01 x01 x01 x01 x01)
(T (W x23 x64 x32 x78 x32 x46 x04 x04)
(T (W x01 x00 x01 x00 x01 x00 x01 x00)
(T (W x00 x00 x00 x00 x00 x00 x00 x00)
(T (W x03 x04 x00 x00 x00 x00 x00 x00)
(L (W x01 x45 x4d x00 x64 x00 x4c x04))
(L (W x0e x00 x10 x00 x13 x00 x19 x00)))
(T (W x3a x32 x91 x1e x5f x69 x07 x07)
(L (W x06 x05 x02 x00 x04 x00 x0c x02)) E))
(T (W x00 x00 x00 x01 x01 x01 x01 x01)
(T (W x00 x00 x00 x00 x00 x00 x00 x00)
(L (W x00 x10 x02 x00 x00 x00 x00 x00)) E)
(T (W x00 x00 x1f x00 x00 x00 x00 x00)
(L (W x00 x00 x00 x00 x00 x00 x00 x00)) E)))
(T (W x00 x00 xff x50 x23 x05 x0f x0f)
(T (W x01 x45 x9f x00 x8c x00 xe0 x01)
(T (W x00 x20 x00 x00 x08 x48 x10 x00)
(L (W x03 x00 x00 x01 x01 x01 x01 x01))
(L (W x00 x00 xff x78 x00 x05 x0f x0f)))
(T (W x0e x00 x10 x00 x13 x00 x19 x00)
(L (W x00 x00 x00 x00 x00 x00 x00 x00)) E))
(T (W x00 x10 x02 x80 x0a x00 x00 x00)
(T (W x00 x00 x00 x00 x00 x00 x00 x00)
(L (W x02 x02 x00 x00 x00 x00 x00 x00)) E)
(T (W x28 x00 x46 x28 x00 x00 x00 x00)
(L (W x00 x00 x00 x00 x00 x00 x00 x00)) E))))
(T (W x00 x00 x00 x00 x00 x00 x00 x00)
(T (W x03 x03 x00 x00 x00 x00 x00 x00)
(T (W x00 x00 x7c x01 x9d x00 x00 x00)
(T (W x00 x00 x7f x00 x00 x00 x00 x00)
(L (W x00 x00 x00 x00 x00 x00 x04 x03))
(L (W x05 x05 x00 x00 x00 x00 x00 x00)))
(T (W x00 x00 x00 x00 x00 x00 x00 x00)
(L (W x00 x00 x00 x00 x00 x00 x00 x00)) E))
(T (W x00 x00 x00 x00 x00 x00 x00 x00)
(T (W x00 x00 x00 x00 x00 x00 x00 x00)
(L (W x0e x00 x10 x00 x13 x00 x19 x00)) E)
(T (W x00 x40 x30 x00 x40 x04 x00 x00)
(L (W x00 x00 x00 x01 x01 x01 x01 x01)) E)))
(T (W x00 x00 x00 x00 x00 x00 x00 x00)
(T (W x00 x00 x00 x00 x00 x00 x02 x01)
(T (W x32 x00 x50 x28 x00 x00 x00 x00)
(L (W x46 x37 x37 x19 x23 x23 x00 x00))
(L (W x6f x01 x02 x0c xb2 x20 x0e x00)))
(T (W x02 x02 x00 x00 x00 x00 x00 x00)
(L (W x00 x00 x00 x00 x00 x00 x00 x00)) E))
(T (W x01 x00 x01 x00 x01 x00 x01 x00)
(T (W x03 x03 x02 x01 x01 x01 x01 x01)
(L (W x00 x00 x7f x14 x32 x00 x05 x05)) E)
(T (W x00 x00 xa8 x01 x2c x00 x00 x00)
(L (W x00 x00 x00 x00 x00 x00 x00 x00)) E)))))
(T (W x0a x04 x10 x00 x00 x30 x68 x14)
(T (W x3c x00 x5f x37 x00 x00 x00 x00)
(T (W x01 x46 x44 x00 x3c x00 x0a x00)
(T (W x00 x00 x00 x00 x00 x00 x00 x00)
(T (W x00 x00 x00 x00 x00 x00 x00 x00)
(L (W x03 x04 x00 x00 x00 x00 x00 x00))
(L (W x03 x45 xaa x00 x50 x00 xfa x00)))
(T (W x3c x00 x5a x32 x00 x00 x00 x00)
(L (W x00 x00 x00 x00 x00 x00 x00 x00)) E))
(T (W x2b x0c x00 x00 x21 x00 x20 x00)
(T (W x0a x00 x0a x00 x13 x00 x0a x00)
(L (W x00 x00 xf1 x02 xb3 x00 x00 x00)) E)
(T (W x00 x00 x00 x01 x01 x01 x01 x01)
(L (W x00 x00 xff x00 x00 x00 x00 x00)) E)))
(T (W x00 x00 x00 x01 x01 x01 x01 x01)
(T (W x06 x06 x00 x00 x00 x00 x00 x00)
(T (W x67 x5d x43 x54 x47 x3d x03 x10)
(L (W xa0 x02 x23 x01 x01 x20 x61 x84))
(L (W x04 x03 x02 x01 x01 x01 x01 x01)))
(T (W x01 x40 xaa x00 xa0 x00 x6e x05)
(L (W x01 x00 x01 x00 x01 x00 x01 x00)) E))
(T (W x00 x00 x0e x00 x98 x00 x00 x00)
(T (W x00 x00 x7f x0f x32 x00 x05 x04)
(L (W x00 x00 x00 x00 x00 x00 x00 x00)) E)
(T (W x02 x50 x00 x80 x00 x00 x00 x00)
(L (W x00 x00 x00 x00 x00 x00 x00 x00)) E))))
(T (W x00 x00 x00 x00 x00 x00 x00 x00)
(T (W x00 x00 x00 x00 x00 x00 x84 x00)
(T (W x0e x00 x10 x00 x13 x00 x19 x00)
(T (W x00 x00 x00 x01 x01 x01 x01 x01)
(L (W x00 x00 x7f x28 x32 x05 x0e x0e))
(L (W x00 x00 x00 x00 x00 x00 x00 x00)))
(T (W x00 x00 xae x00 x2a x00 x00 x00)
(L (W x00 x00 x00 x00 x00 x00 x00 x00)) E))
(T (W x37 x00 x55 x2d x00 x00 x00 x00)
(T (W x01 x01 x00 x00 x00 x00 x00 x00)
(L (W x02 x42 x99 x00 x1e x00 x1e x00)) E)
(T (W x41 x4b x5a x2c x61 x7b x03 x0f)
(L (W x00 x00 x00 x00 x00 x00 x00 x00)) E)))
(T (W x00 x00 x00 x00 x00 x00 x00 x00)
(T (W x00 x00 x7f x0f x32 x03 x02 x07)
(T (W x00 x50 x02 x80 x00 x00 x00 x00)
(L (W x3c x00 x5a x37 x00 x00 x00 x00)) E)
(T (W x00 x00 x00 x00 x00 x00 x84 x02)
(L (W x01 x01 x00 x00 x00 x00 x00 x00)) E))
(T (W x01 x41 x09 x01 x8c x00 xe2 x05)
(T (W x29 x00 x00 x04 x08 x18 x02 x00)
(L (W x04 x04 x03 x01 x01 x01 x01 x01)) E)
(T (W x0e x00 x10 x00 x13 x00 x19 x00)
(L (W x00 x00 x00 x00 x00 x00 x00 x00)) E))))))
(T (W x00 x00 x00 x00 x00 x00 x00 x00)
(T (W x0e x00 x10 x00 x13 x00 x19 x00)
(T (W x01 x01 x00 x00 x00 x00 x00 x00)
(T (W x0c x01 x02 x08 xa2 x20 x00 x00)
(T (W x00 x00 x00 x00 x00 x00 x85 x00)
(T (W x00 x00 x00 x00 x00 x00 x00 x00)
(L (W x28 x23 x37 x0f x41 x4b x0b x11))
(L (W x00 x00 x00 x00 x00 x00 x00 x00)))
(T (W x03 x03 x00 x00 x00 x00 x00 x00)
(L (W x00 x00 x00 x00 x00 x00 x00 x00)) E))
(T (W x01 x00 x01 x00 x01 x00 x01 x00)
(T (W x03 x03 x04 x01 x01 x01 x01 x02)
(L (W x00 x00 x7f x19 x32 x03 x0f x0f)) E)
(T (W x00 x00 x34 x00 x4c x01 x00 x00)
(L (W x00 x00 x00 x00 x00 x00 x00 x00)) E)))
(T (W x00 x00 x5d x01 x97 x01 x00 x00)
(T (W x5a x55 x4b x73 x73 x64 x0c x0c)
(T (W x00 x00 x00 x00 x00 x00 x00 x00)
(L (W x0a x00 x0a x00 x0a x00 x0a x00))
(L (W x00 x00 xa1 x01 xf7 x00 x00 x00)))
(T (W x00 x40 x00 x02 x40 x00 x00 x00)
(L (W x03 x03 x05 x01 x01 x01 x01 x02)) E))
(T (W x00 x00 x7f x00 x00 x00 x00 x00)
(T (W x00 x00 x00 x00 x00 x00 x00 x00)
(L (W x00 x00 x00 x00 x00 x00 x00 x00)) E)
(T (W x00 x00 x00 x00 x00 x00 xc4 x02)
(L (W x01 x01 x00 x00 x00 x00 x00 x00)) E))))
(T (W x00 x00 x7f x14 x32 x00 x01 x02)
(T (W x32 x00 x50 x32 x00 x00 x00 x00)
(T (W x00 x00 x00 x01 x01 x01 x01 x01)
(T (W x00 x00 xf2 x00 xb3 x01 x00 x00)
(L (W x42 x31 xc0 x00 x00 x00 x00 x00))
(L (W x3c x00 x50 x32 x00 x00 x00 x00)))
(T (W x00 x00 x7f x14 x32 x00 x0b x0b)
(L (W x00 x00 x00 x00 x00 x00 x00 x00)) E))
(T (W x01 x01 x00 x00 x00 x00 x00 x00)
(T (W x00 x00 x00 x00 x00 x00 x00 x00)
(L (W x00 x20 x40 x02 x00 x00 x10 x88)) E)
(T (W x01 x48 xa8 x00 x50 x00 x32 x00)
(L (W x01 x00 x01 x00 x01 x00 x01 x00)) E)))
(T (W x01 x49 x2c x00 x1e x00 x1e x00)
(T (W x00 x00 x00 x00 x00 x00 x00 x00)
(T (W x00 x00 x00 x00 x00 x00 xc3 x01)
(L (W x03 x03 x00 x00 x00 x00 x00 x00)) E)
(T (W x3c x00 x55 x3c x00 x00 x00 x00)
(L (W x69 x1e x69 x37 x8c x69 x09 x0d)) E))
(T (W xa6 x00 x22 x14 x20 x08 x02 x84)
(T (W x0e x00 x10 x00 x13 x00 x19 x00)
(L (W x00 x00 x0d x01 x06 x00 x00 x00)) E)
(T (W x00 x00 x00 x01 x01 x01 x01 x01)
(L (W x00 x00 xff x00 x00 x00 x00 x00)) E)))))
(T (W x01 x40 xf5 x00 x78 x00 xba x00)
(T (W x00 x00 x00 x00 x00 x00 x42 x00)
(T (W x69 x5f x50 x5a x28 x50 x00 x00)
(T (W x00 x00 x7f x19 x32 x00 x0a x0a)
(T (W x00 x00 x00 x00 x00 x00 x00 x00)
(L (W x3c x00 x55 x32 x00 x00 x00 x00))
(L (W x5f x5f x5f x5f x5f x5f x05 x05)))
(T (W x00 x00 x00 x00 x00 x00 x00 x00)
(L (W x01 x01 x00 x00 x00 x00 x00 x00)) E))
(T (W x00 x00 x00 x00 x00 x00 x00 x00)
(T (W x02 x84 x02 x45 x0a x0c x00 x00)
(L (W x04 x04 x04 x01 x01 x01 x01 x01)) E)
(T (W x01 x00 x01 x00 x01 x00 x01 x00)
(L (W x00 x00 x00 x00 x00 x00 x00 x00)) E)))
(T (W x01 x00 x01 x00 x01 x00 x01 x00)
(T (W x28 x00 x46 x28 x00 x00 x00 x00)
(T (W x05 x06 x00 x00 x00 x00 x00 x00)
(L (W x01 x48 x3e x00 x1e x00 x2d x00))
(L (W x00 x00 x00 x00 x00 x00 x00 x00)))
(T (W x46 x53 x32 x3c x25 x32 x00 x02)
(L (W x00 x00 x00 x00 x00 x00 x00 x00)) E))
(T (W x03 x03 x03 x01 x01 x01 x01 x01)
(T (W x00 x00 x74 x00 x53 x01 x00 x00)
(L (W x00 x10 x85 x04 x00 x00 x00 x00)) E)
(T (W x00 x00 xff x00 x00 x00 x00 x00)
(L (W x00 x00 x00 x00 x00 x00 x00 x00)) E))))
(T (W x02 x06 x05 x01 x01 x01 x02 x02)
(T (W x00 x10 x00 x00 x00 x00 x00 x00)
(T (W x00 x00 x00 x00 x00 x00 x00 x00)
(T (W x01 x00 x01 x00 x01 x00 x01 x00)
(L (W x00 x00 x96 x00 x64 x00 x00 x00))
(L (W x00 x00 x00 x00 x00 x00 x00 x00)))
(T (W x00 x00 x00 x01 x01 x01 x01 x01)
(L (W x00 x00 xff x00 x00 x00 x00 x00)) E))
(T (W x00 x00 x00 x00 x00 x00 x44 x01)
(T (W x3c x00 x55 x32 x00 x00 x00 x00)
(L (W x5a x5a x64 x37 x50 x5a x0a x0e)) E)
(T (W x03 x04 x00 x00 x00 x00 x00 x00)
(L (W x00 x00 x00 x00 x00 x00 x00 x00)) E)))
(T (W x05 x06 x00 x00 x00 x00 x00 x00)
(T (W x00 x00 x00 x00 x00 x00 x00 x00)
(T (W x00 x00 x7f x14 x32 x05 x01 x05)
(L (W x00 x00 x00 x00 x00 x00 x43 x03)) E)
(T (W x00 x00 x00 x00 x00 x00 x00 x00)
(L (W x00 x00 x00 x00 x00 x00 x00 x00)) E))
(T (W x2d x4b x3c x32 x28 x1e x0f x0f)
(T (W x01 x40 x41 x00 x1e x00 x91 x00)
(L (W x01 x00 x01 x00 x01 x00 x01 x00)) E)
(T (W x40 x01 x02 x20 x02 x00 x08 x14)
(L (W x03 x03 x03 x01 x01 x01 x01 x01)) E)))))))))
(T (W x00 x14 x00 x41 x00 x00 x00 x00)
(T (W x03 x02 x02 x01 x01 x01 x01 x01)
(T (W x3c x00 x55 x32 x00 x00 x00 x00)
(T (W x00 x00 x00 x00 x00 x00 x0a x00)
(T (W x00 x00 x7f x00 x00 x00 x00 x00)
(T (W x00 x00 x00 x00 x00 x00 x00 x00)
(T (W x00 x00 x7a x00 x6d x00 x00 x00)
(T (W x00 x00 x00 x00 x00 x00 x00 x00)
(T (W x01 x41 x2c x01 x96 x00 x02 x04)
(L (W x0e x00 x10 x00 x13 x00 x19 x00))
(L (W x00 x00 x37 x02 x36 x01 x00 x00)))
(T (W x21 xc0 x09 x46 x21 x2c x22 x00)
(L (W x03 x03 x03 x01 x01 x01 x01 x01)) E))
(T (W x00 x00 x7f x14 x23 x05 x08 x0b)
(T (W x00 x18 x07 x04 x04 x00 x00 x00)
(L (W x3c x00 x55 x2d x00 x00 x00 x00)) E)
(T (W x00 x00 x00 x00 x00 x00 x00 x00)
(L (W x02 x02 x00 x00 x00 x00 x00 x00)) E)))
(T (W x00 x00 x00 x00 x00 x00 x8c x00)
(T (W x0e x00 x10 x00 x13 x00 x19 x00)
(T (W x00 x00 x00 x01 x01 x01 x01 x01)
(L (W x00 x00 xff x78 x00 x05 x0f x0f))
(L (W x00 x00 x00 x00 x00 x00 x00 x00)))
(T (W x00 x00 x5b x01 x3c x00 x00 x00)
(L (W x00 x00 x00 x00 x00 x00 x00 x00)) E))
(T (W x00 x00 x00 x00 x00 x00 x00 x00)
(T (W x01 x01 x00 x00 x00 x00 x00 x00)
(L (W x01 x43 x36 x00 x32 x00 x14 x00)) E)
(T (W x7b x4d x48 x3a x63 x5c x05 x0e)
(L (W x00 x00 x00 x00 x00 x00 x00 x00)) E))))
(T (W x00 x00 x00 x00 x00 x00 x00 x00)
(T (W x01 x41 x9a x00 x78 x00 xfa x00)
(T (W x00 x00 x00 x00 x00 x00 x00 x00)
(T (W x00 x00 x00 x00 x00 x00 x00 x00)
(L (W x05 x05 x00 x00 x00 x00 x00 x00))
(L (W x12 x47 x1d x01 xe6 x00 xed x03)))
(T (W x3c x00 x50 x28 x00 x00 x00 x00)
(L (W x00 x00 x00 x00 x00 x00 x00 x00)) E))
(T (W x23 x40 x00 x04 x41 x3c x02 x04)
(T (W x01 x00 x01 x00 x01 x00 x01 x00)
(L (W x00 x00 x03 x01 x15 x03 x00 x00)) E)
(T (W x03 x03 x03 x01 x01 x01 x01 x01)
(L (W x00 x00 xff x00 x00 x00 x00 x00)) E)))
(T (W x03 x02 x02 x01 x01 x01 x01 x01)
(T (W x03 x04 x00 x00 x00 x00 x00 x00)
(T (W x3a x46 x2d x2a x28 x2d x0f x04)
(L (W x32 x0a x81 x00 x21 x06 x29 x00))
(L (W x01 x01 x01 x01 x01 x01 x01 x01)))
(T (W x01 x45 x4a x00 x32 x00 x5a x00)
(L (W x01 x00 x01 x00 x01 x00 x01 x00)) E))
(T (W x00 x00 x96 x00 xaf x00 x00 x00)
(T (W x00 x00 x7f x14 x32 x03 x02 x02)
(L (W x00 x00 x00 x00 x00 x00 x00 x00)) E)
(T (W x02 x10 x00 x40 x00 x00 x00 x00)
(L (W x00 x00 x00 x00 x00 x00 x00 x00)) E)))))
(T (W x03 x03 x03 x01 x01 x01 x01 x01)
(T (W x5a x6e x50 x5f x64 x50 x09 x09)
(T (W x0e x00 x10 x00 x13 x00 x19 x00)
(T (W x00 x00 x00 x00 x00 x00 x00 x00)
(T (W x02 x02 x00 x00 x00 x00 x00 x00)
(L (W x01 x44 x40 x00 x3c x00 x30 x00))
(L (W x01 x00 x01 x00 x01 x00 x01 x00)))
(T (W x3c x69 x3c x69 x78 x3c x10 x10)
(L (W x00 x00 x00 x00 x00 x00 x00 x00)) E))
(T (W x04 x08 x06 x01 x01 x01 x02 x02)
(T (W x00 x00 x32 x00 x6d x00 x00 x00)
(L (W x00 x14 x00 x00 x02 x00 x00 x00)) E)
(T (W x00 x00 x7f x00 x00 x00 x00 x00)
(L (W x00 x00 x00 x00 x00 x00 x00 x00)) E)))
(T (W x00 x00 x1f x00 x00 x00 x00 x00)
(T (W x01 x41 x22 x01 xc8 x00 x4e x07)
(T (W x00 x00 x00 x00 x00 x00 x00 x00)
(L (W x00 x00 x00 x01 x01 x01 x01 x01))
(L (W x00 x00 xfe x14 x32 x00 x06 x0b)))
(T (W x0e x00 x10 x00 x13 x00 x19 x00)
(L (W x00 x00 xb3 x01 xb5 x01 x00 x00)) E))
(T (W xc0 x50 x02 x08 x04 x00 x00 x00)
(T (W x00 x00 x00 x00 x00 x00 x0c x02)
(L (W x02 x02 x00 x00 x00 x00 x00 x00)) E)
(T (W x3c x00 x64 x3c x00 x00 x00 x00)
(L (W x00 x00 x00 x00 x00 x00 x00 x00)) E))))
(T (W x00 x10 x05 x04 x00 x00 x00 x00)
(T (W x03 x03 x00 x00 x00 x00 x00 x00)
(T (W x00 x00 xb5 x00 x3b x00 x00 x00)
(T (W x00 x00 x1f x00 x00 x00 x00 x00)
(L (W x00 x00 x00 x00 x00 x00 x0c x03))
(L (W x01 x01 x00 x00 x00 x00 x00 x00)))
(T (W x00 x00 x00 x00 x00 x00 x00 x00)
(L (W x3c x00 x5a x32 x00 x00 x00 x00)) E))
(T (W x32 x3c x2d x41 x64 x50 x0b x03)
(T (W x00 x00 x00 x00 x00 x00 x00 x00)
(L (W x0e x00 x10 x00 x13 x00 x19 x00)) E)
(T (W xa4 x00 x02 x04 x10 x00 x0e x80)
(L (W x00 x00 x00 x01 x01 x01 x01 x01)) E)))
(T (W x4e x04 x00 x00 x30 x20 x24 x14)
(T (W x00 x00 x00 x00 x00 x00 x00 x00)
(T (W x3c x00 x55 x28 x00 x00 x00 x00)
(L (W x28 x1c x1c x32 x2f x34 x10 x10)) E)
(T (W x05 x05 x00 x00 x00 x00 x00 x00)
(L (W x04 x48 xbd x00 xaa x00 xb0 x04)) E))
(T (W x0e x00 x10 x00 x13 x00 x19 x00)
(T (W x03 x03 x02 x01 x01 x01 x01 x01)
(L (W x00 x00 xff x00 x00 x00 x00 x00)) E)
(T (W x00 x00 x00 x00 x00 x00 x00 x00)
(L (W x00 x00 x00 x00 x00 x00 x00 x00)) E))))))
(T (W x00 x00 x00 x00 x00 x00 x00 x00)
(T (W x00 x00 x27 x00 x2c x00 x00 x00)
(T (W x02 x42 x9a x00 x64 x00 x40 x01)
(T (W x03 x03 x02 x01 x01 x01 x01 x01)
(T (W x01 x01 x00 x00 x00 x00 x00 x00)
(T (W x50 x4b x96 x32 x4b x96 x08 x08)
(L (W x01 x40 x00 x32 x00 x00 x10 x00))
(L (W x03 x00 x00 x01 x01 x01 x01 x01)))
(T (W x01 x41 xad x00 x78 x00 x2a x03)
(L (W x0a x00 x0a x00 x0a x00 x0a x00)) E))
(T (W x00 x00 x00 x00 x00 x00 x00 x00)
(T (W x00 x00 x7f x00 x00 x00 x00 x00)
(L (W x00 x00 x00 x00 x00 x00 x4b x03)) E)
(T (W x00 x00 x00 x00 x00 x00 x00 x00)
(L (W x00 x00 x00 x00 x00 x00 x00 x00)) E)))
(T (W x00 x10 x00 x90 x00 x00 x00 x00)
(T (W x08 x00 x00 x00 x00 x00 x41 x00)
(T (W x0e x00 x10 x00 x13 x00 x19 x00)
(L (W x00 x00 x00 x00 x00 x00 x00 x00))
(L (W x00 x10 x00 x80 x00 x00 x00 x00)))
(T (W x04 x04 x04 x01 x01 x01 x01 x01)
(L (W x00 x00 x7f x14 x32 x00 x02 x0b)) E))
(T (W x00 x00 x00 x00 x00 x00 x00 x00)
(T (W x3c x00 x55 x2d x00 x00 x00 x00)
(L (W x3c x5a x3c x48 x35 x32 x01 x01)) E)
(T (W x03 x03 x00 x00 x00 x00 x00 x00)
(L (W x00 x00 x00 x00 x00 x00 x00 x00)) E))))
(T (W x00 x00 x00 x00 x00 x00 x00 x00)
(T (W x46 x6e x50 x69 x37 x50 x06 x02)
(T (W x00 x00 x7f x00 x00 x00 x00 x00)
(T (W x00 x00 x00 x00 x00 x00 x00 x00)
(L (W x00 x00 x00 x00 x00 x00 x00 x00))
(L (W x5f x5f x5f x5f x5f x5f x0d x0d)))
(T (W x00 x00 x00 x00 x00 x00 x4c x02)
(L (W x01 x01 x00 x00 x00 x00 x00 x00)) E))
(T (W x01 x43 x3b x00 x3c x00 x98 x00)
(T (W x00 x00 x00 x00 x00 x00 x00 x00)
(L (W x03 x02 x02 x01 x01 x01 x01 x01)) E)
(T (W x0e x00 x10 x00 x13 x00 x19 x00)
(L (W x00 x00 x00 x00 x00 x00 x00 x00)) E)))
(T (W x0e x00 x10 x00 x13 x00 x19 x00)
(T (W x00 x00 x00 x00 x00 x00 x00 x00)
(T (W x05 x05 x00 x00 x00 x00 x00 x00)
(L (W x01 x41 x31 x00 x14 x00 x12 x00)) E)
(T (W x5c x69 x5a x62 x7d x5a x10 x0f)
(L (W x00 x00 x00 x00 x00 x00 x00 x00)) E))
(T (W x04 x03 x03 x01 x01 x01 x01 x01)
(T (W x00 x00 x00 x00 x00 x00 x00 x00)
(L (W x81 x30 x90 x02 x00 x00 x00 x00)) E)
(T (W x00 x00 x1f x0f x32 x03 x02 x05)
(L (W x00 x00 x00 x00 x00 x00 x00 x00)) E)))))
(T (W x0e x00 x10 x00 x13 x00 x19 x00)
(T (W x03 x04 x00 x00 x00 x00 x00 x00)
(T (W x89 x00 x00 x42 x08 x18 x80 x40)
(T (W x00 x00 x00 x00 x00 x00 x00 x00)
(T (W x00 x00 x00 x00 x00 x00 x00 x00)
(L (W x48 x78 x62 x48 x32 x62 x0b x0b))
(L (W x13 xc4 x00 x10 x60 x04 x20 x00)))
(T (W x03 x04 x00 x00 x00 x00 x00 x00)
(L (W x00 x00 x00 x00 x00 x00 x00 x00)) E))
(T (W x01 x00 x01 x00 x01 x00 x01 x00)
(T (W x03 x00 x00 x01 x01 x01 x01 x01)
(L (W x00 x00 xfe x14 x32 x05 x06 x06)) E)
(T (W x00 x00 x00 x00 x00 x00 x00 x00)
(L (W x00 x00 x00 x00 x00 x00 x00 x00)) E)))
(T (W x00 x00 x00 x00 x00 x00 x00 x00)
(T (W x64 x64 x64 x64 x64 x64 x0d x0b)
(T (W x01 x43 xaf x00 x82 x00 x4e x07)
(L (W x0e x00 x10 x00 x13 x00 x19 x00))
(L (W x00 x00 x97 x00 x5d x02 x00 x00)))
(T (W xc2 x40 x30 x00 x69 xb8 x08 x61)
(L (W x00 x00 x00 x01 x01 x01 x01 x01)) E))
(T (W x00 x00 xff x14 x32 x00 x0a x0a)
(T (W x02 x10 x02 x00 x07 x00 x00 x00)
(L (W x3c x00 x55 x1e x00 x00 x00 x00)) E)
(T (W x00 x00 x00 x00 x00 x00 xcc x02)
(L (W x01 x01 x00 x00 x00 x00 x00 x00)) E))))
(T (W x00 x00 x7f x00 x00 x00 x00 x00)
(T (W x3c x00 x50 x32 x00 x00 x00 x00)
(T (W x04 x04 x04 x01 x01 x01 x01 x01)
(T (W x00 x00 x00 x00 x00 x00 x00 x00)
(L (W xa0 x11 x80 x08 x00 x00 x00 x00))
(L (W x00 x00 x00 x00 x00 x00 x00 x00)))
(T (W x00 x00 xff x14 x32 x03 x0a x0a)
(L (W x00 x00 x00 x00 x00 x00 x00 x00)) E))
(T (W x03 x03 x00 x00 x00 x00 x00 x00)
(T (W x41 x50 x41 x3c x23 x41 x00 x00)
(L (W xa0 x40 x00 x00 x68 x9d x20 x45)) E)
(T (W x01 x41 x64 x00 x82 x00 x61 x01)
(L (W x01 x00 x01 x00 x01 x00 x01 x00)) E)))
(T (W x00 x00 x00 x00 x00 x00 x00 x00)
(T (W x00 x98 x20 x41 x00 x00 x00 x00)
(T (W x00 x00 x00 x00 x00 x00 xcb x01)
(L (W x05 x05 x00 x00 x00 x00 x00 x00)) E)
(T (W x3c x00 x64 x3c x00 x00 x00 x00)
(L (W x00 x00 x00 x00 x00 x00 x00 x00)) E))
(T (W x00 x00 x00 x00 x00 x00 x00 x00)
(T (W x0e x00 x10 x00 x13 x00 x19 x00)
(L (W x00 x00 x19 x01 x5e x00 x00 x00)) E)
(T (W x00 x00 x00 x01 x01 x01 x01 x01)
(L (W x00 x00 xff x00 x00 x00 x00 x00)) E)))))))
(T (W x0e x00 x10 x00 x13 x00 x19 x00)
(T (W x00 x00 x00 x00 x00 x00 x00 x00)
(T (W x32 x4b x55 x28 x14 x1e x04 x04)
(T (W x02 x10 x02 x00 x04 x00 x00 x00)
(T (W x01 x01 x00 x00 x00 x00 x00 x00)
(T (W x00 x00 x00 x00 x00 x00 x00 x00)
(T (W x00 x00 xff x28 x23 x05 x0a x0a)
(L (W x00 x00 x00 x00 x00 x00 xeb x02))
(L (W x04 x04 x00 x00 x00 x00 x00 x00)))
(T (W xc0 x30 x00 x00 x00 x00 x00 x00)
(L (W x3c x00 x5a x32 x00 x00 x00 x00)) E))
(T (W x00 x00 x00 x00 x00 x00 x00 x00)
(T (W x00 x00 x00 x00 x00 x00 x00 x00)
(L (W x0e x00 x10 x00 x13 x00 x19 x00)) E)
(T (W x00 x00 x00 x00 x00 x00 x00 x00)
(L (W x02 x02 x01 x01 x01 x01 x01 x01)) E)))
(T (W x8b x04 x00 x08 x21 x86 x60 x61)
(T (W x00 x00 x00 x00 x00 x00 xec x00)
(T (W x3c x00 x5a x32 x00 x00 x00 x00)
(L (W x47 x89 x25 x97 x89 x25 x06 x01))
(L (W x14 x54 x1a xd4 x48 x1c x0c x00)))
(T (W x04 x04 x00 x00 x00 x00 x00 x00)
(L (W x00 x00 x00 x00 x00 x00 x00 x00)) E))
(T (W x0e x00 x10 x00 x13 x00 x19 x00)
(T (W x00 x00 x00 x01 x01 x01 x01 x01)
(L (W x00 x00 xff x78 x00 x05 x0f x0f)) E)
(T (W x00 x00 x0e x00 x30 x02 x00 x00)
(L (W x00 x00 x00 x00 x00 x00 x00 x00)) E))))
(T (W x0e x00 x10 x00 x13 x00 x19 x00)
(T (W x00 x00 xff x14 x32 x05 x09 x09)
(T (W x01 x42 xb1 x00 x3c x00 xcd x00)
(T (W x00 x00 x00 x00 x00 x00 x00 x00)
(L (W x04 x04 x02 x01 x01 x01 x01 x01))
(L (W x00 x00 xff x78 x00 x05 x0f x0f)))
(T (W x01 x00 x01 x00 x01 x00 x01 x00)
(L (W x00 x00 x00 x00 x00 x00 x00 x00)) E))
(T (W x03 x10 x02 x00 x07 x00 x00 x00)
(T (W x00 x00 x00 x00 x00 x00 x00 x00)
(L (W x04 x05 x00 x00 x00 x00 x00 x00)) E)
(T (W x3c x00 x55 x37 x00 x00 x00 x00)
(L (W x00 x00 x00 x00 x00 x00 x00 x00)) E)))
(T (W x00 x00 x00 x00 x00 x00 x00 x00)
(T (W x03 x03 x03 x01 x01 x01 x01 x01)
(T (W x00 x00 xc9 x00 x51 x01 x00 x00)
(L (W x00 x50 x00 x80 x08 x00 x00 x00))
(L (W x00 x00 x00 x00 x00 x00 x00 x00)))
(T (W x00 x00 x7f x14 x32 x00 x03 x03)
(L (W x00 x00 x00 x00 x00 x00 x00 x00)) E))
(T (W x01 x01 x00 x00 x00 x00 x00 x00)
(T (W x4b x7d x4b x55 x1e x4b x01 x01)
(L (W x00 x40 x10 x12 x00 x14 x20 x80)) E)
(T (W x01 x40 x40 x00 x28 x00 x2b x00)
(L (W x01 x00 x01 x00 x01 x00 x01 x00)) E)))))
(T (W x3c x00 x55 x2d x00 x00 x00 x00)
(T (W x00 x00 xf0 x00 x3d x00 x00 x00)
(T (W x00 x00 x00 x00 x00 x00 x6c x00)
(T (W x01 x00 x01 x00 x01 x00 x01 x00)
(T (W x00 x00 x00 x01 x01 x01 x01 x01)
(L (W x00 x00 x7f x0f x32 x00 x05 x05))
(L (W x00 x00 xbc x01 xd7 x02 xe8 x02)))
(T (W x00 x00 x1d x02 x5e x01 x00 x00)
(L (W x00 x00 x00 x00 x00 x00 x00 x00)) E))
(T (W x3c x00 x64 x46 x00 x00 x00 x00)
(T (W x02 x02 x00 x00 x00 x00 x00 x00)
(L (W x01 x41 xa8 x00 xa0 x00 x86 x01)) E)
(T (W x00 x00 x00 x00 x00 x00 x00 x00)
(L (W x00 x00 x00 x00 x00 x00 x00 x00)) E)))
(T (W x00 x00 x00 x00 x00 x00 x00 x00)
(T (W x00 x00 x7f x28 x23 x05 x01 x01)
(T (W x02 x34 x30 x00 x00 x00 x00 x00)
(L (W x00 x00 x00 x00 x00 x00 x00 x00))
(L (W x41 x3c x4b x40 x6e x79 x11 x11)))
(T (W x00 x00 x00 x00 x00 x00 x6b x02)
(L (W x01 x01 x00 x00 x00 x00 x00 x00)) E))
(T (W x01 x40 x3e x00 x3c x00 x73 x00)
(T (W x7e x01 x12 x00 x32 x00 x0c x08)
(L (W x00 x00 x00 x01 x01 x01 x01 x01)) E)
(T (W x0e x00 x10 x00 x13 x00 x19 x00)
(L (W x00 x00 x00 x00 x00 x00 x00 x00)) E))))
(T (W x00 x00 x00 x00 x00 x00 x00 x00)
(T (W x06 x05 x04 x01 x01 x01 x01 x01)
(T (W x05 x05 x00 x00 x00 x00 x00 x00)
(T (W x00 x00 x00 x00 x00 x00 x00 x00)
(L (W x28 xc0 x29 x50 x01 x04 x20 x00))
(L (W x00 x00 x00 x01 x01 x01 x01 x01)))
(T (W x01 x47 x3d x00 x3c x00 xbc x00)
(L (W x01 x00 x01 x00 x01 x00 x01 x00)) E))
(T (W x00 x00 x00 x00 x00 x00 x00 x00)
(T (W x00 x00 x7f x00 x00 x00 x00 x00)
(L (W x00 x00 x00 x00 x00 x00 x6c x03)) E)
(T (W x00 x14 x00 x00 x00 x00 x00 x00)
(L (W x00 x00 x00 x00 x00 x00 x00 x00)) E)))
(T (W x40 x11 x00 x80 x00 x00 x00 x00)
(T (W x08 x24 x00 x08 x22 x20 x10 x00)
(T (W x01 x00 x01 x00 x01 x00 x01 x00)
(L (W x00 x00 x4b x00 x18 x02 x00 x00)) E)
(T (W x03 x02 x01 x01 x01 x01 x01 x01)
(L (W x00 x00 xff x00 x00 x00 x00 x00)) E))
(T (W x00 x00 x00 x00 x00 x00 x6b x01)
(T (W x3c x00 x5a x32 x00 x00 x00 x00)
(L (W x32 x55 x37 x5a x41 x41 x0d x0d)) E)
(T (W x03 x03 x00 x00 x00 x00 x00 x00)
(L (W x00 x00 x00 x00 x00 x00 x00 x00)) E))))))
(T (W x00 x00 x00 x00 x00 x00 x00 x00)
(T (W x03 x04 x00 x00 x00 x00 x00 x00)
(T (W x00 x00 x7f x00 x00 x00 x00 x00)
(T (W x3c x00 x55 x37 x00 x00 x00 x00)
(T (W x04 x03 x03 x01 x01 x01 x01 x01)
(T (W x00 x00 x00 x00 x00 x00 x00 x00)
(L (W x20 x1a x00 x41 x00 x00 x00 x00))
(L (W x00 x00 x00 x00 x00 x00 x00 x00)))
(T (W x00 x00 x7f x14 x32 x00 x0a x0a)
(L (W x00 x00 x00 x00 x00 x00 x00 x00)) E))
(T (W x01 x01 x00 x00 x00 x00 x00 x00)
(T (W x44 x7d x41 x50 x41 x73 x0d x01)
(L (W x01 x00 x20 x02 x00 x00 x90 x80)) E)
(T (W x01 x40 x38 x00 x1e x00 x11 x00)
(L (W x01 x00 x01 x00 x01 x00 x01 x00)) E)))
(T (W x01 x45 x2c x01 xdc x00 x34 x08)
(T (W x01 x90 x02 x00 x04 x00 x00 x00)
(T (W x00 x00 x00 x00 x00 x00 xab x01)
(L (W x05 x06 x00 x00 x00 x00 x00 x00))
(L (W x02 x46 xb2 x00 x14 x00 x04 x00)))
(T (W x3c x00 x55 x28 x00 x00 x00 x00)
(L (W x32 x41 x6b x56 x69 x6b x0c x0e)) E))
(T (W x00 x00 x00 x00 x00 x00 x00 x00)
(T (W x0e x00 x10 x00 x13 x00 x19 x00)
(L (W x00 x00 x00 x00 x00 x00 x00 x00)) E)
(T (W x04 x04 x04 x01 x01 x01 x01 x01)
(L (W x00 x00 xff x00 x00 x00 x00 x00)) E))))
(T (W x46 x01 x02 x00 x20 x20 x14 x00)
(T (W x00 x00 x09 x00 xb3 x01 x00 x00)
(T (W x00 x00 x00 x00 x00 x00 x00 x00)
(T (W x01 x41 x06 x01 x8c x00 xa4 x01)
(L (W x0e x00 x10 x00 x13 x00 x19 x00))
(L (W x00 x00 x32 x01 xce x02 x00 x00)))
(T (W x00 x00 x00 x08 x02 x20 x02 x00)
(L (W x00 x00 x00 x01 x01 x01 x01 x01)) E))
(T (W x00 x00 x7f x00 x00 x00 x00 x00)
(T (W x00 x00 x00 x00 x00 x00 x00 x00)
(L (W x3c x00 x5a x32 x00 x00 x00 x00)) E)
(T (W x00 x00 x00 x00 x00 x00 xac x02)
(L (W x01 x01 x00 x00 x00 x00 x00 x00)) E)))
(T (W x00 x00 x00 x00 x00 x00 xac x00)
(T (W x01 x00 x01 x00 x01 x00 x01 x00)
(T (W x04 x03 x03 x01 x01 x01 x01 x01)
(L (W x00 x00 x7f x0f x32 x00 x03 x03)) E)
(T (W x00 x00 xe3 x01 x01 x01 x00 x00)
(L (W x19 x10 x00 x00 x00 x00 x00 x00)) E))
(T (W x00 x00 x00 x00 x00 x00 x00 x00)
(T (W x04 x05 x00 x00 x00 x00 x00 x00)
(L (W x03 x41 x3a x00 x28 x00 x2a x00)) E)
(T (W x00 x00 x00 x00 x00 x00 x00 x00)
(L (W x00 x00 x00 x00 x00 x00 x00 x00)) E)))))
(T (W x00 x00 x00 x00 x00 x00 x2b x00)
(T (W x02 x02 x02 x01 x01 x01 x01 x01)
(T (W x00 x10 x00 x01 x00 x00 x00 x00)
(T (W x00 x00 x00 x00 x00 x00 x00 x00)
(T (W x01 x00 x01 x00 x01 x00 x01 x00)
(L (W x00 x00 x5b x01 x5e x00 x00 x00))
(L (W x1e x10 x20 x80 x00 x00 x00 x00)))
(T (W x03 x03 x02 x01 x01 x01 x01 x01)
(L (W x00 x00 xff x00 x00 x00 x00 x00)) E))
(T (W x00 x00 x00 x00 x00 x00 x00 x00)
(T (W x00 x00 x00 x00 x00 x00 x00 x00)
(L (W x2d x2d x1e x32 x37 x28 x10 x11)) E)
(T (W x01 x01 x00 x00 x00 x00 x00 x00)
(L (W x00 x00 x00 x00 x00 x00 x00 x00)) E)))
(T (W x01 x01 x00 x00 x00 x00 x00 x00)
(T (W x00 x00 x68 x00 xca x00 x00 x00)
(T (W x00 x00 xfe x28 x8c x04 x0f x0f)
(L (W x00 x00 x00 x00 x00 x00 x2a x03))
(L (W x03 x04 x00 x00 x00 x00 x00 x00)))
(T (W x00 x90 x02 x00 x05 x00 x00 x00)
(L (W x00 x00 x00 x00 x00 x00 x00 x00)) E))
(T (W x2d x5f x32 x4b x28 x32 x05 x06)
(T (W x01 x47 x8e x00 x78 x00 x90 x01)
(L (W x0e x00 x10 x00 x13 x00 x19 x00)) E)
(T (W x00 x41 x12 x80 x08 x18 x0c x14)
(L (W x00 x00 x00 x01 x01 x01 x01 x01)) E))))
(T (W x32 x5f xb4 x46 x55 x2d x0a x0e)
(T (W x0e x00 x10 x00 x13 x00 x19 x00)
(T (W x32 x00 x50 x32 x00 x00 x00 x00)
(T (W x04 x05 x00 x00 x00 x00 x00 x00)
(L (W x01 x41 x28 x00 x14 x00 x01 x00))
(L (W x01 x00 x01 x00 x01 x00 x01 x00)))
(T (W x00 x00 x00 x00 x00 x00 x00 x00)
(L (W x00 x00 x00 x00 x00 x00 x00 x00)) E))
(T (W x00 x00 x00 x01 x01 x01 x01 x01)
(T (W x00 x00 x2d x00 xd4 x01 x00 x00)
(L (W x08 x10 x02 x00 x06 x00 x00 x00)) E)
(T (W x00 x00 x1f x1e x32 x00 x01 x0e)
(L (W x00 x00 x00 x00 x00 x00 x00 x00)) E)))
(T (W x00 x00 x7f x0a x32 x04 x02 x06)
(T (W x00 x00 x00 x00 x00 x00 x00 x00)
(T (W x02 x20 x10 x00 x21 x01 x20 x00)
(L (W x04 x04 x03 x01 x01 x01 x01 x01)) E)
(T (W x0a x00 x0a x00 x0a x00 x0a x00)
(L (W x00 x00 x0b x03 x17 x01 x00 x00)) E))
(T (W x00 x00 x00 x00 x00 x00 x00 x00)
(T (W x00 x00 x00 x00 x00 x00 x2c x02)
(L (W x03 x03 x00 x00 x00 x00 x00 x00)) E)
(T (W x3c x00 x55 x32 x00 x00 x00 x00)
(L (W x3c x8c x32 x3c x8c x32 x08 x07)) E))))))))
(T (W x01 x40 x8e x00 x6e x00 xbe x00)
(T (W x00 x00 x1f x14 x32 x03 x01 x02)
(T (W x00 x00 x00 x00 x00 x00 x00 x00)
(T (W x0e x00 x10 x00 x13 x00 x19 x00)
(T (W x01 x01 x00 x00 x00 x00 x00 x00)
(T (W x20 x00 x18 x40 x48 x9c x80 x40)
(T (W x00 x00 x00 x00 x00 x00 x00 x00)
(T (W x3c x00 x5f x37 x00 x00 x00 x00)
(L (W x32 x35 x3e x2d x2b x34 x03 x0a))
(L (W x42 x01 x10 x0c x13 x21 x0a x00)))
(T (W x03 x04 x00 x00 x00 x00 x00 x00)
(L (W x02 x47 xac x00 x2c x01 xa0 x00)) E))
(T (W x0e x00 x10 x00 x13 x00 x19 x00)
(T (W x03 x03 x03 x01 x01 x01 x01 x01)
(L (W x00 x00 x7f x14 x32 x01 x07 x0e)) E)
(T (W x00 x00 x00 x00 x00 x00 x00 x00)
(L (W x02 x10 x00 x00 x0a x00 x00 x00)) E)))
(T (W x00 x00 x8d x00 xc6 x02 x00 x00)
(T (W x00 x00 x00 x00 x00 x00 x00 x00)
(T (W x02 x46 x9e x00 x32 x00 x5d x00)
(L (W x0a x00 x0a x00 x13 x00 x0a x00))
(L (W x00 x00 xa5 x01 x47 x02 x00 x00)))
(T (W x72 x08 x02 x04 x02 x00 x08 x00)
(L (W x00 x00 x00 x01 x01 x01 x01 x01)) E))
(T (W x00 x00 x7f x14 x32 x03 x03 x0e)
(T (W x00 x00 x00 x00 x00 x00 x00 x00)
(L (W x3c x00 x55 x37 x00 x00 x00 x00)) E)
(T (W x00 x00 x00 x00 x00 x00 x85 x00)
(L (W x01 x01 x00 x00 x00 x00 x00 x00)) E))))
(T (W x00 x00 x7f x14 x32 x05 x09 x09)
(T (W x3c x00 x5a x32 x00 x00 x00 x00)
(T (W x02 x02 x02 x01 x01 x01 x01 x01)
(T (W x00 x00 x00 x00 x00 x00 x00 x00)
(L (W x00 x10 x02 x00 x00 x00 x00 x00))
(L (W x3c x00 x50 x32 x00 x00 x00 x00)))
(T (W x00 x00 x7f x14 x32 x05 x0a x0a)
(L (W x00 x00 x00 x00 x00 x00 x00 x00)) E))
(T (W x04 x05 x00 x00 x00 x00 x00 x00)
(T (W x00 x00 x00 x00 x00 x00 x00 x00)
(L (W x2b x44 x30 x0c x10 x86 x22 x84)) E)
(T (W x01 x47 x47 x00 x1e x00 x23 x00)
(L (W x01 x00 x01 x00 x01 x00 x01 x00)) E)))
(T (W x00 x00 x00 x00 x00 x00 x00 x00)
(T (W x01 x10 x00 x00 x00 x00 x00 x00)
(T (W x00 x00 x00 x00 x00 x00 xbb x01)
(L (W x02 x03 x00 x00 x00 x00 x00 x00))
(L (W x02 x43 x2c x01 xb4 x00 xbc x02)))
(T (W x46 x00 x64 x32 x00 x00 x00 x00)
(L (W x00 x00 x00 x00 x00 x00 x00 x00)) E))
(T (W x00 x00 x00 x00 x00 x00 x00 x00)
(T (W x0e x00 x10 x00 x13 x00 x19 x00)
(L (W x00 x00 x68 x00 x58 x01 x00 x00)) E)
(T (W x03 x03 x05 x01 x01 x01 x01 x02)
(L (W x00 x00 xff x00 x00 x00 x00 x00)) E)))))
(T (W x02 x45 x3c x00 x3c x00 x63 x00)
(T (W x00 x00 x00 x00 x00 x00 x3c x00)
(T (W x32 x69 x4f x4c x23 x6e x01 x01)
(T (W x00 x00 x7f x00 x00 x00 x00 x00)
(T (W x00 x00 x00 x00 x00 x00 x00 x00)
(L (W x3c x00 x5a x37 x00 x00 x00 x00))
(L (W x2d x41 x28 x3c x1e x28 x05 x05)))
(T (W x00 x00 x00 x00 x00 x00 x3c x02)
(L (W x01 x01 x00 x00 x00 x00 x00 x00)) E))
(T (W x01 x49 x30 x00 x3c x00 xa3 x00)
(T (W x4a x04 x00 x04 x10 x00 x0f x00)
(L (W x03 x02 x02 x01 x01 x01 x01 x01)) E)
(T (W x01 x00 x01 x00 x01 x00 x01 x00)
(L (W x00 x00 x00 x00 x00 x00 x00 x00)) E)))
(T (W x01 x00 x01 x00 x01 x00 x01 x00)
(T (W x3c x00 x55 x32 x00 x00 x00 x00)
(T (W x01 x01 x00 x00 x00 x00 x00 x00)
(L (W x01 x47 x1d x01 x26 x02 x08 x20))
(L (W x0e x00 x10 x00 x13 x00 x19 x00)))
(T (W x2d x55 x32 x41 x37 x32 x01 x01)
(L (W x00 x00 x00 x00 x00 x00 x00 x00)) E))
(T (W x03 x03 x03 x01 x01 x01 x01 x01)
(T (W x00 x00 xbd x00 x98 x01 x00 x00)
(L (W xc0 x11 x80 x09 x00 x00 x00 x00)) E)
(T (W x00 x00 x7f x14 x32 x00 x01 x0a)
(L (W x00 x00 x00 x00 x00 x00 x00 x00)) E))))
(T (W x02 x02 x03 x01 x01 x01 x01 x02)
(T (W x09 x10 x02 x00 x02 x00 x00 x00)
(T (W x00 x00 x00 x08 x00 x02 x10 x00)
(T (W x01 x00 x01 x00 x01 x00 x01 x00)
(L (W x00 x00 x4a x00 xa5 x02 x00 x00))
(L (W x00 x00 x00 x00 x00 x00 x00 x00)))
(T (W x04 x04 x03 x01 x01 x01 x01 x01)
(L (W x00 x00 x7f x0f x32 x00 x05 x05)) E))
(T (W x00 x00 x00 x00 x00 x00 x00 x00)
(T (W x00 x00 x00 x00 x00 x00 x00 x00)
(L (W x4b x50 x6e x32 x41 x5a x0e x0e)) E)
(T (W x03 x03 x00 x00 x00 x00 x00 x00)
(L (W x00 x00 x00 x00 x00 x00 x00 x00)) E)))
(T (W x04 x04 x00 x00 x00 x00 x00 x00)
(T (W x00 x00 x00 x00 x00 x00 x00 x00)
(T (W x00 x00 x7f x00 x00 x00 x00 x00)
(L (W x00 x00 x00 x00 x00 x00 x3b x03)) E)
(T (W x00 x10 x05 x20 x03 x00 x00 x00)
(L (W x3c x00 x50 x32 x00 x00 x00 x00)) E))
(T (W x46 x28 x32 x19 x37 x32 x0e x0a)
(T (W x01 x43 xa8 x00 x6e x00 xa3 x00)
(L (W x01 x00 x01 x00 x01 x00 x01 x00)) E)
(T (W x00 x00 x00 x00 x00 x00 x00 x00)
(L (W x00 x00 x00 x01 x01 x01 x01 x01)) E))))))
(T (W x00 x00 x00 x01 x01 x01 x01 x01)
(T (W xab x00 x40 x42 x09 x58 x80 xc8)
(T (W x32 x00 x50 x32 x00 x00 x00 x00)
(T (W x00 x00 x00 x00 x00 x00 x00 x00)
(T (W x00 x10 x02 x20 x04 x00 x00 x00)
(T (W x00 x00 x00 x00 x00 x00 x7c x01)
(L (W x05 x05 x00 x00 x00 x00 x00 x00))
(L (W x05 x43 x2c x01 xf4 x01 xea x0b)))
(T (W x37 x00 x55 x2d x00 x00 x00 x00)
(L (W x00 x00 x00 x00 x00 x00 x00 x00)) E))
(T (W x00 x00 x00 x00 x00 x00 x00 x00)
(T (W x0e x00 x10 x00 x13 x00 x19 x00)
(L (W x00 x00 x41 x00 x39 x00 x00 x00)) E)
(T (W x04 x04 x04 x01 x01 x01 x01 x01)
(L (W x00 x00 xff x78 x00 x05 x0f x0f)) E)))
(T (W x04 x04 x04 x01 x01 x01 x01 x01)
(T (W x03 x03 x00 x00 x00 x00 x00 x00)
(T (W x37 x42 x2c x55 x2c x38 x00 x00)
(L (W x11 xc0 x10 x46 x00 xcc x00 x41))
(L (W x03 x02 x02 x01 x01 x01 x01 x01)))
(T (W x01 x48 x3d x00 x32 x00 x55 x00)
(L (W x0e x00 x10 x00 x13 x00 x19 x00)) E))
(T (W x00 x00 x1a x02 x49 x02 x00 x00)
(T (W x00 x00 x7f x0f x32 x03 x04 x04)
(L (W x00 x00 x00 x00 x00 x00 x7b x03)) E)
(T (W x00 x10 x02 x00 x0e x00 x00 x00)
(L (W x00 x00 x00 x00 x00 x00 x00 x00)) E))))
(T (W x00 x00 xe8 x01 xac x00 x00 x00)
(T (W x00 x00 x00 x00 x00 x00 xee x00)
(T (W x01 x00 x01 x00 x01 x00 x01 x00)
(T (W x04 x04 x04 x01 x01 x01 x01 x01)
(L (W x00 x00 x7f x14 x32 x00 x01 x0e))
(L (W x00 x00 x00 x00 x00 x00 x04 x03)))
(T (W x00 x00 x94 x01 x70 x01 x00 x00)
(L (W x00 x00 x00 x00 x00 x00 x00 x00)) E))
(T (W x3c x00 x5a x32 x00 x00 x00 x00)
(T (W x01 x01 x00 x00 x00 x00 x00 x00)
(L (W x09 x48 xad x00 x1e x00 x05 x00)) E)
(T (W x65 x48 x48 x1d x63 x59 x11 x11)
(L (W x00 x00 x00 x00 x00 x00 x00 x00)) E)))
(T (W x7d x3a x3a x43 x4c x4c x0a x0c)
(T (W x00 x00 x7f x0f x32 x00 x05 x05)
(T (W x1c x10 x02 x00 x04 x00 x00 x00)
(L (W x3c x00 x55 x28 x00 x00 x00 x00)) E)
(T (W x00 x00 x00 x00 x00 x00 x7c x02)
(L (W x01 x01 x00 x00 x00 x00 x00 x00)) E))
(T (W x00 x00 x00 x00 x00 x00 x00 x00)
(T (W x00 x40 x50 x02 x00 x00 x00 x08)
(L (W x03 x03 x03 x01 x01 x01 x01 x01)) E)
(T (W x0e x00 x10 x00 x13 x00 x19 x00)
(L (W x00 x00 x00 x00 x00 x00 x00 x00)) E)))))
(T (W x2d x32 x37 x1e x4b x41 x0b x03)
(T (W x00 x98 x02 x00 x00 x00 x00 x00)
(T (W x04 x05 x00 x00 x00 x00 x00 x00)
(T (W x00 x00 x00 x00 x00 x00 x00 x00)
(T (W x00 x00 x1f x00 x00 x00 x00 x00)
(L (W x00 x00 x00 x00 x00 x00 xfc x02))
(L (W x05 x05 x00 x00 x00 x00 x00 x00)))
(T (W xc0 x10 x00 x08 x00 x00 x00 x00)
(L (W x00 x00 x00 x00 x00 x00 x00 x00)) E))
(T (W x00 x00 x00 x00 x00 x00 x00 x00)
(T (W x01 x45 x2c x01 xaa x00 xcc x10)
(L (W x0e x00 x10 x00 x13 x00 x19 x00)) E)
(T (W x00 x00 x00 x00 x00 x00 x00 x00)
(L (W x00 x00 x00 x01 x01 x01 x01 x01)) E)))
(T (W x00 x00 x00 x00 x00 x00 x00 x00)
(T (W x00 x00 x00 x00 x00 x00 xfc x00)
(T (W x32 x00 x55 x1e x00 x00 x00 x00)
(L (W x46 x55 x46 x50 x37 x3c x0b x0b))
(L (W x46 x04 x02 x00 x22 x00 x0c x14)))
(T (W x04 x05 x00 x00 x00 x00 x00 x00)
(L (W x00 x00 x00 x00 x00 x00 x00 x00)) E))
(T (W x0e x00 x10 x00 x13 x00 x19 x00)
(T (W x05 x05 x05 x01 x01 x01 x01 x01)
(L (W x00 x00 x00 x0a x32 x00 x0f x0f)) E)
(T (W x00 x00 x00 x00 x00 x00 x00 x00)
(L (W x00 x00 x00 x00 x00 x00 x00 x00)) E))))
(T (W x01 x00 x01 x00 x01 x00 x01 x00)
(T (W x00 x00 x1f x23 x32 x00 x05 x05)
(T (W x00 x00 x00 x00 x00 x00 x00 x00)
(T (W x00 x00 x00 x20 x00 x00 x00 x00)
(L (W x03 x00 x00 x01 x01 x01 x01 x01))
(L (W x00 x00 xff x00 x00 x00 x00 x00)))
(T (W x0e x00 x10 x00 x13 x00 x19 x00)
(L (W x00 x00 x00 x00 x00 x00 x00 x00)) E))
(T (W x00 x00 x00 x00 x00 x00 x00 x00)
(T (W x00 x00 x00 x00 x00 x00 xfa x01)
(L (W x03 x03 x00 x00 x00 x00 x00 x00)) E)
(T (W x32 x00 x55 x28 x00 x00 x00 x00)
(L (W x00 x00 x00 x00 x00 x00 x00 x00)) E)))
(T (W x3c x00 x50 x28 x00 x00 x00 x00)
(T (W x03 x03 x02 x01 x01 x01 x01 x01)
(T (W x00 x00 xa1 x01 xc4 x00 x00 x00)
(L (W x08 x10 x0a x40 x05 x00 x00 x00)) E)
(T (W x00 x00 xff x00 x00 x00 x00 x00)
(L (W x00 x00 x00 x00 x00 x00 x00 x00)) E))
(T (W x01 x01 x00 x00 x00 x00 x00 x00)
(T (W x69 x8c x37 x5f x1e x37 x09 x09)
(L (W x46 x61 x02 x02 x31 x60 x16 x00)) E)
(T (W x00 x00 x00 x00 x00 x00 x00 x00)
(L (W x01 x00 x01 x00 x01 x00 x01 x00)) E)))))))
(T (W x32 x14 x37 x1e x19 x19 x06 x06)
(T (W x01 x01 x00 x00 x00 x00 x00 x00)
(T (W x00 x00 x00 x00 x00 x00 x1b x00)
(T (W x02 x08 x06 x01 x01 x01 x02 x02)
(T (W x00 x10 x08 x40 x00 x00 x00 x00)
(T (W x00 x00 x00 x00 x00 x00 x00 x00)
(T (W x0a x00 x0a x00 x0a x00 x0a x00)
(L (W x00 x00 xf9 x00 x9b x02 x00 x00))
(L (W x80 x10 x80 x02 x01 x00 x00 x00)))
(T (W x03 x03 x03 x01 x01 x01 x01 x01)
(L (W x00 x00 xff x78 x23 x05 x0f x0f)) E))
(T (W x00 x00 x00 x00 x00 x00 x00 x00)
(T (W x3c x00 x55 x2d x00 x00 x00 x00)
(L (W x34 x39 x4b x2e x23 x32 x04 x04)) E)
(T (W x01 x01 x00 x00 x00 x00 x00 x00)
(L (W x05 x46 x2c x01 x96 x00 x39 x03)) E)))
(T (W x02 x02 x00 x00 x00 x00 x00 x00)
(T (W x00 x00 xa7 x00 xe5 x00 x00 x00)
(T (W x00 x00 x7f x00 x00 x00 x00 x00)
(L (W x00 x00 x00 x00 x00 x00 x1c x03))
(L (W x02 x02 x00 x00 x00 x00 x00 x00)))
(T (W x00 x10 x00 x40 x08 x00 x00 x00)
(L (W x3c x00 x64 x32 x00 x00 x00 x00)) E))
(T (W x00 x00 x00 x00 x00 x00 x00 x00)
(T (W x01 x49 x3a x00 x3c x00 xe9 x00)
(L (W x00 x00 x00 x00 x00 x00 x00 x00)) E)
(T (W x00 x41 x12 x80 x08 x18 x08 x10)
(L (W x00 x00 x00 x01 x01 x01 x01 x01)) E))))
(T (W x00 x00 x00 x00 x00 x00 x00 x00)
(T (W x0e x00 x10 x00 x13 x00 x19 x00)
(T (W x37 x00 x55 x2d x00 x00 x00 x00)
(T (W x01 x01 x00 x00 x00 x00 x00 x00)
(L (W x12 x47 x1d x01 xe6 x00 xed x03))
(L (W x0e x00 x10 x00 x13 x00 x19 x00)))
(T (W x37 x4b x3c x67 x4b x3c x0c x02)
(L (W x00 x00 x00 x00 x00 x00 x00 x00)) E))
(T (W x00 x00 x00 x01 x01 x01 x01 x01)
(T (W x00 x00 x00 x00 x00 x00 x00 x00)
(L (W xc1 x11 x00 x0a x04 x00 x00 x00)) E)
(T (W x00 x00 x7f x14 x32 x00 x0a x0a)
(L (W x00 x00 x00 x00 x00 x00 x00 x00)) E)))
(T (W x00 x00 x7f x00 x00 x00 x00 x00)
(T (W x00 x00 x00 x00 x00 x00 x00 x00)
(T (W x01 x42 x01 x02 x31 x00 x20 x00)
(L (W x04 x04 x04 x01 x01 x01 x01 x01)) E)
(T (W x0e x00 x10 x00 x13 x00 x19 x00)
(L (W x00 x00 x00 x00 x00 x00 x00 x00)) E))
(T (W x00 x00 x00 x00 x00 x00 x00 x00)
(T (W x00 x00 x00 x00 x00 x00 x00 x00)
(L (W x04 x05 x00 x00 x00 x00 x00 x00)) E)
(T (W x3c x00 x5a x3c x00 x00 x00 x00)
(L (W x00 x00 x00 x00 x00 x00 x00 x00)) E)))))
(T (W x00 x00 xbf x0a x32 x04 x06 x06)
(T (W x62 x01 x02 x00 x22 x20 x0a x10)
(T (W x00 x00 x5c x00 xbc x00 x00 x00)
(T (W x00 x00 x00 x00 x00 x00 x00 x00)
(T (W x00 x00 x00 x00 x00 x00 x00 x00)
(L (W x0e x00 x10 x00 x13 x00 x19 x00))
(L (W x00 x00 x9d x00 xbc x01 x00 x00)))
(T (W x6e x01 x02 x04 x32 x20 x0e x00)
(L (W x00 x00 x00 x01 x01 x01 x01 x01)) E))
(T (W x00 x00 x3f x00 x00 x00 x00 x00)
(T (W xe0 x51 x80 x00 x00 x00 x00 x00)
(L (W x32 x00 x55 x37 x00 x00 x00 x00)) E)
(T (W x00 x00 x00 x00 x00 x00 x00 x00)
(L (W x01 x01 x00 x00 x00 x00 x00 x00)) E)))
(T (W x00 x00 x00 x00 x00 x00 x00 x00)
(T (W x0a x00 x0a x00 x13 x00 x0a x00)
(T (W x03 x03 x03 x01 x01 x01 x01 x01)
(L (W x00 x00 xff x78 x00 x05 x0f x0f))
(L (W x00 x00 x00 x00 x00 x00 x64 x03)))
(T (W x00 x00 xf2 x00 x51 x01 x00 x00)
(L (W x00 x00 x00 x00 x00 x00 x00 x00)) E))
(T (W x3c x00 x55 x32 x00 x00 x00 x00)
(T (W x03 x03 x00 x00 x00 x00 x00 x00)
(L (W x0a x42 x70 x00 x28 x00 x3c x00)) E)
(T (W x55 x46 x50 x7b x61 x50 x02 x0f)
(L (W x00 x00 x00 x00 x00 x00 x00 x00)) E))))
(T (W x00 x00 x00 x00 x00 x00 x00 x00)
(T (W x01 x45 x41 x00 x1e x00 x41 x00)
(T (W x00 x50 x02 x80 x00 x00 x00 x00)
(T (W x00 x00 x00 x00 x00 x00 x00 x00)
(L (W x04 x04 x00 x00 x00 x00 x00 x00))
(L (W x00 x00 x00 x00 x00 x00 x00 x00)))
(T (W x3c x00 x55 x2d x00 x00 x00 x00)
(L (W x00 x00 x00 x00 x00 x00 x00 x00)) E))
(T (W x29 x00 x20 x06 x20 x00 x10 x00)
(T (W x01 x00 x01 x00 x01 x00 x01 x00)
(L (W x00 x00 x03 x01 x0f x03 x00 x00)) E)
(T (W x04 x04 x04 x01 x01 x01 x01 x01)
(L (W x00 x00 xff x00 x00 x00 x00 x00)) E)))
(T (W x00 x00 x00 x01 x01 x01 x01 x01)
(T (W x04 x05 x00 x00 x00 x00 x00 x00)
(T (W x3c x3e x32 x28 x3e x3c x0b x0e)
(L (W x00 x00 x00 x00 x00 x00 x41 x00)) E)
(T (W x02 x45 x2c x01 x96 x00 xa8 x02)
(L (W x01 x00 x01 x00 x01 x00 x01 x00)) E))
(T (W x00 x00 x3b x00 x22 x00 x00 x00)
(T (W x00 x00 x7f x14 x32 x03 x05 x05)
(L (W x00 x00 x00 x00 x00 x00 x4d x00)) E)
(T (W x00 x50 x05 xa0 x00 x00 x00 x00)
(L (W x00 x00 x00 x00 x00 x00 x00 x00)) E))))))
(T (W x00 x00 x00 x00 x00 x00 x00 x00)
(T (W x03 x34 x02 x00 x05 x00 x00 x00)
(T (W x01 x00 x01 x00 x01 x00 x01 x00)
(T (W x00 x00 x7f x14 x32 x00 x01 x01)
(T (W x01 x44 xb8 x00 x64 x00 x0e x01)
(T (W x08 x88 x01 x40 x09 x9c x00 x41)
(L (W x04 x03 x03 x01 x01 x01 x01 x01))
(L (W x00 x00 xff x00 x00 x00 x00 x00)))
(T (W x0e x00 x10 x00 x13 x00 x19 x00)
(L (W x00 x00 x00 x00 x00 x00 x00 x00)) E))
(T (W x00 x10 x00 x40 x00 x00 x00 x00)
(T (W x00 x00 x00 x00 x00 x00 x00 x00)
(L (W x03 x03 x00 x00 x00 x00 x00 x00)) E)
(T (W x28 x00 x46 x28 x00 x00 x00 x00)
(L (W x00 x00 x00 x00 x00 x00 x00 x00)) E)))
(T (W x3c x00 x64 x3c x00 x00 x00 x00)
(T (W x03 x00 x00 x01 x01 x01 x01 x01)
(T (W x00 x00 x00 x00 x00 x00 x00 x00)
(L (W x02 x78 x40 x40 x00 x00 x00 x00))
(L (W x3c x00 x55 x32 x00 x00 x00 x00)))
(T (W x00 x00 x7f x0f x32 x00 x03 x03)
(L (W x00 x00 x00 x00 x00 x00 xdf x01)) E))
(T (W x01 x01 x00 x00 x00 x00 x00 x00)
(T (W x00 x00 x00 x00 x00 x00 x00 x00)
(L (W x01 x80 x08 x40 x00 x00 x00 x00)) E)
(T (W x01 x45 xa6 x00 x96 x00 xc6 x02)
(L (W x01 x00 x01 x00 x01 x00 x01 x00)) E))))
(T (W x04 x05 x00 x00 x00 x00 x00 x00)
(T (W x80 x40 x21 x10 x01 x18 x00 xc0)
(T (W x00 x00 x00 x00 x00 x00 xdc x00)
(T (W x3c x00 x55 x32 x00 x00 x00 x00)
(L (W x00 x00 x00 x00 x00 x00 x00 x00))
(L (W x13 xc4 x00 x10 x60 x04 x20 x00)))
(T (W x04 x05 x00 x00 x00 x00 x00 x00)
(L (W x00 x00 x00 x00 x00 x00 x00 x00)) E))
(T (W x01 x00 x01 x00 x01 x00 x01 x00)
(T (W x00 x00 x00 x01 x01 x01 x01 x01)
(L (W x00 x00 x7f x14 x32 x00 x03 x03)) E)
(T (W x00 x00 x4d x02 x41 x02 x00 x00)
(L (W x00 x00 x00 x00 x00 x00 x00 x00)) E)))
(T (W x00 x00 xba x00 x3e x02 x00 x00)
(T (W x00 x00 x00 x00 x00 x00 x00 x00)
(T (W x01 x41 x3c x00 x46 x00 xe6 x00)
(L (W x0e x00 x10 x00 x13 x00 x19 x00)) E)
(T (W xa0 x00 x22 x12 x29 x1c x20 x00)
(L (W x04 x03 x03 x01 x01 x01 x01 x01)) E))
(T (W x00 x00 x7f x14 x32 x00 x0f x0f)
(T (W x00 x10 x00 x03 x00 x00 x00 x00)
(L (W x32 x00 x50 x2d x00 x00 x00 x00)) E)
(T (W x00 x00 x00 x00 x00 x00 x00 x00)
(L (W x01 x01 x00 x00 x00 x00 x00 x00)) E)))))
(T (W x00 x00 x5c x00 xca x00 x00 x00)
(T (W x00 x00 x00 x00 x00 x00 x00 x00)
(T (W x05 x05 x05 x01 x01 x01 x01 x01)
(T (W x05 x06 x00 x00 x00 x00 x00 x00)
(T (W x00 x00 x00 x00 x00 x00 x00 x00)
(L (W x20 x00 x00 x20 x00 x00 x10 x00))
(L (W x03 x03 x03 x01 x01 x01 x01 x01)))
(T (W x00 x00 x00 x00 x00 x00 x00 x00)
(L (W x01 x00 x01 x00 x01 x00 x01 x00)) E))
(T (W x00 x00 x00 x00 x00 x00 x00 x00)
(T (W x00 x00 xfe x78 x64 x05 x0f x0f)
(L (W x00 x00 x00 x00 x00 x00 x5b x03)) E)
(T (W x02 x98 x02 x40 x00 x00 x00 x00)
(L (W x00 x00 x00 x00 x00 x00 x00 x00)) E)))
(T (W x00 x00 x00 x00 x00 x00 x00 x00)
(T (W x10 x08 x80 x00 x00 x00 x20 x00)
(T (W x01 x00 x01 x00 x01 x00 x01 x00)
(L (W x00 x00 x18 x00 xe8 x01 x00 x00))
(L (W x1c x90 x30 x00 x00 x00 x00 x00)))
(T (W x03 x03 x03 x01 x01 x01 x01 x01)
(L (W x00 x00 xff x00 x00 x00 x00 x00)) E))
(T (W x00 x00 x00 x00 x00 x00 x5b x01)
(T (W x3c x00 x5a x28 x00 x00 x00 x00)
(L (W x23 x37 x28 x5a x32 x32 x0c x0c)) E)
(T (W x01 x01 x00 x00 x00 x00 x00 x00)
(L (W x00 x00 x00 x00 x00 x00 x00 x00)) E))))
(T (W x00 x00 x00 x00 x00 x00 x5c x00)
(T (W x46 x3c x7d x37 x73 x46 x05 x0a)
(T (W x00 x00 x7f x00 x00 x00 x00 x00)
(T (W x00 x00 x00 x00 x00 x00 x00 x00)
(L (W x3c x00 x64 x23 x00 x00 x00 x00))
(L (W x00 x00 x00 x00 x00 x00 x00 x00)))
(T (W x00 x00 x00 x00 x00 x00 x00 x00)
(L (W x01 x01 x00 x00 x00 x00 x00 x00)) E))
(T (W x00 x00 x00 x00 x00 x00 x00 x00)
(T (W x00 x00 x00 x00 x00 x00 x00 x00)
(L (W x03 x03 x02 x01 x01 x01 x01 x01)) E)
(T (W x0e x00 x10 x00 x13 x00 x19 x00)
(L (W x00 x00 x00 x00 x00 x00 x00 x00)) E)))
(T (W x0e x00 x10 x00 x13 x00 x19 x00)
(T (W x32 x00 x46 x28 x00 x00 x00 x00)
(T (W x06 x06 x00 x00 x00 x00 x00 x00)
(L (W x01 x44 x30 x00 x1e x00 x78 x00)) E)
(T (W x00 x00 x00 x00 x00 x00 x00 x00)
(L (W xa9 x00 x01 x04 x51 x60 x43 x00)) E))
(T (W x04 x04 x04 x01 x01 x01 x01 x01)
(T (W x00 x00 x6e x00 x9d x00 x00 x00)
(L (W x00 x00 x00 x00 x00 x00 x00 x00)) E)
(T (W x00 x00 x7f x0f x32 x00 x05 x05)
(L (W x00 x00 x00 x00 x00 x00 xc6 x02)) E))))))))))
(T (W x01 x43 x40 x00 x46 x00 x45 x00)
(T (W x00 x00 x4a x00 x49 x00 x00 x00)
(T (W x00 x00 x00 x08 x8a x21 x20 x00)
(T (W x12 x50 x02 xd0 x0a x00 x00 x00)
(T (W x00 x00 x7f x0f x32 x00 x03 x03)
(T (W x00 x00 x00 x01 x01 x01 x01 x01)
(T (W x00 x00 x00 x00 x00 x00 x00 x00)
(T (W x0e x00 x10 x00 x13 x00 x19 x00)
(T (W x37 x00 x55 x37 x00 x00 x00 x00)
(T (W x04 x05 x00 x00 x00 x00 x00 x00)
(L (W x03 x45 xaa x00 x50 x00 xfa x00))
(L (W x0e x00 x10 x00 x13 x00 x19 x00)))
(T (W x32 x4b x46 x30 x23 x46 x10 x01)
(L (W x88 x01 x00 x48 xa2 x25 x00 x00)) E))
(T (W x03 x03 x03 x01 x01 x01 x01 x01)
(T (W x00 x00 xf6 x00 xb6 x01 x00 x00)
(L (W x00 x10 x00 x00 x00 x00 x00 x00)) E)
(T (W x00 x00 x1f x00 x00 x00 x00 x00)
(L (W x00 x00 x00 x00 x00 x00 x85 x02)) E)))
(T (W x00 x00 x1f x1e x32 x00 x02 x09)
(T (W x01 x40 xb4 x00 x3c x00 x45 x01)
(T (W x00 x00 x00 x00 x00 x00 x00 x00)
(L (W x03 x02 x02 x01 x01 x01 x01 x02))
(L (W x00 x00 xff x00 x00 x00 x00 x00)))
(T (W x0e x00 x10 x00 x13 x00 x19 x00)
(L (W x00 x00 x00 x00 x00 x00 x00 x00)) E))
(T (W x00 x00 x00 x00 x00 x00 x00 x00)
(T (W x00 x00 x00 x00 x00 x00 x00 x00)
(L (W x05 x05 x00 x00 x00 x00 x00 x00)) E)
(T (W x3c x00 x64 x46 x00 x00 x00 x00)
(L (W x00 x00 x00 x00 x00 x00 x00 x00)) E))))
(T (W x00 x00 x00 x00 x00 x00 x00 x00)
(T (W x03 x04 x00 x00 x00 x00 x00 x00)
(T (W x00 x00 x00 x00 x00 x00 x00 x00)
(T (W x00 x00 x7f x00 x00 x00 x00 x00)
(L (W x00 x00 x00 x00 x00 x00 xff x02))
(L (W x05 x05 x00 x00 x00 x00 x00 x00)))
(T (W x01 x10 x00 x00 x00 x00 x00 x00)
(L (W x00 x00 x00 x00 x00 x00 x00 x00)) E))
(T (W x32 x55 x55 x32 x37 x37 x08 x11)
(T (W x00 x00 x00 x00 x00 x00 x00 x00)
(L (W x0e x00 x10 x00 x13 x00 x19 x00)) E)
(T (W xa9 x84 x21 x16 x21 x2e x22 xa0)
(L (W x00 x00 x00 x01 x01 x01 x01 x01)) E)))
(T (W x1a x04 x02 x00 x30 x00 x24 x02)
(T (W x00 x00 x00 x00 x00 x00 xff x00)
(T (W x37 x00 x55 x37 x00 x00 x00 x00)
(L (W x50 x74 x4b x77 x41 x4b x09 x09))
(L (W x02 x10 x48 x42 x40 x40 x00 x08)))
(T (W x03 x04 x00 x00 x00 x00 x00 x00)
(L (W x00 x00 x00 x00 x00 x00 x00 x00)) E))
(T (W x0e x00 x10 x00 x13 x00 x19 x00)
(T (W x05 x04 x04 x01 x01 x01 x01 x01)
(L (W x00 x00 xff x00 x00 x00 x00 x00)) E)
(T (W x00 x00 x00 x00 x00 x00 x00 x00)
(L (W x00 x00 x00 x00 x00 x00 x00 x00)) E)))))
(T (W x4a x14 x02 x00 x20 x30 x2c x14)
(T (W x3c x00 x50 x2d x00 x00 x00 x00)
(T (W x02 x45 x95 x00 x64 x00 xc2 x01)
(T (W x00 x00 x00 x00 x00 x00 x00 x00)
(T (W x00 x00 x00 x00 x00 x00 x80 x01)
(L (W x03 x04 x00 x00 x00 x00 x00 x00))
(L (W x00 x00 x00 x00 x00 x00 x00 x00)))
(T (W x32 x00 x50 x32 x00 x00 x00 x00)
(L (W x00 x00 x00 x00 x00 x00 x00 x00)) E))
(T (W x0a x00 x00 x30 x00 x00 x00 x00)
(T (W x0e x00 x10 x00 x13 x00 x19 x00)
(L (W x00 x00 x12 x03 x4a x02 x00 x00)) E)
(T (W x02 x02 x02 x01 x01 x01 x02 x02)
(L (W x00 x00 xff x00 x00 x00 x00 x00)) E)))
(T (W x01 x01 x01 x01 x01 x01 x02 x02)
(T (W x02 x02 x00 x00 x00 x00 x00 x00)
(T (W x00 x00 x00 x00 x00 x00 x00 x00)
(L (W x08 x00 x40 x42 x10 x42 x00 x08))
(L (W x04 x03 x02 x01 x01 x01 x01 x01)))
(T (W x01 x40 xad x00 x50 x00 xfd x00)
(L (W x0e x00 x10 x00 x13 x00 x19 x00)) E))
(T (W x00 x00 x8d x01 xbc x01 x00 x00)
(T (W x00 x00 x7f x0f x32 x03 x0a x0a)
(L (W x00 x00 x00 x00 x00 x00 x80 x03)) E)
(T (W x40 x30 x00 x10 x00 x00 x00 x00)
(L (W x00 x00 x00 x00 x00 x00 x00 x00)) E))))
(T (W x00 x00 x30 x00 xd1 x00 x00 x00)
(T (W x00 x00 x00 x00 x00 x00 x80 x00)
(T (W x0e x00 x10 x00 x13 x00 x19 x00)
(T (W x03 x02 x02 x01 x01 x01 x01 x01)
(L (W x00 x00 x7f x14 x32 x00 x01 x0e))
(L (W x00 x00 x00 x00 x00 x00 x00 x00)))
(T (W x00 x00 xb1 x01 xf7 x01 x00 x00)
(L (W x00 x30 x02 x00 x04 x00 x00 x00)) E))
(T (W x00 x00 x00 x00 x00 x00 x00 x00)
(T (W x01 x01 x00 x00 x00 x00 x00 x00)
(L (W x01 x48 xa6 x00 x82 x00 xa4 x01)) E)
(T (W x56 x5c x58 x49 x44 x4b x10 x0d)
(L (W x00 x00 x00 x00 x00 x00 x00 x00)) E)))
(T (W x23 x14 x41 x14 x28 x41 x11 x11)
(T (W x00 x00 x7f x00 x00 x00 x00 x00)
(T (W x00 x9e x02 x00 x00 x00 x00 x00)
(L (W x3c x00 x64 x32 x00 x00 x00 x00)) E)
(T (W x00 x00 x00 x00 x00 x00 x80 x02)
(L (W x03 x03 x00 x00 x00 x00 x00 x00)) E))
(T (W x01 x47 x3c x00 x46 x00 xa8 x00)
(T (W x22 x00 x00 x08 x02 x20 x00 x16)
(L (W x03 x06 x04 x01 x01 x01 x02 x02)) E)
(T (W x01 x00 x01 x00 x01 x00 x01 x00)
(L (W x00 x00 x00 x00 x00 x00 x00 x00)) E))))))
(T (W x00 x00 x00 x00 x00 x00 x00 x00)
(T (W x0e x00 x10 x00 x13 x00 x19 x00)
(T (W x02 x03 x00 x00 x00 x00 x00 x00)
(T (W x80 x40 x00 x10 x00 x00 x18 x40)
(T (W x00 x00 x00 x00 x00 x00 x00 x00)
(T (W x00 x00 x00 x00 x00 x00 x00 x00)
(L (W x26 x28 x34 x1b x28 x48 x0a x06))
(L (W x81 x04 x08 x40 x29 x68 x00 x40)))
(T (W x04 x05 x00 x00 x00 x00 x00 x00)
(L (W x02 x40 x22 x01 xc8 x00 x94 x02)) E))
(T (W x01 x00 x01 x00 x01 x00 x01 x00)
(T (W x03 x02 x02 x01 x01 x01 x01 x01)
(L (W x00 x00 x7f x14 x32 x00 x05 x0e)) E)
(T (W x00 x00 x00 x00 x00 x00 x00 x00)
(L (W x02 x10 x04 x00 x00 x00 x00 x00)) E)))
(T (W x00 x00 x00 x00 x00 x00 x00 x00)
(T (W x2d x3f x25 x5f x41 x37 x0c x0c)
(T (W x01 x46 x46 x00 x28 x00 x0c x00)
(L (W x0a x00 x0a x00 x13 x00 x0a x00))
(L (W x00 x00 x41 x00 x39 x00 x00 x00)))
(T (W xa1 x80 x08 x52 x00 x00 x00 x00)
(L (W x04 x04 x04 x01 x01 x01 x01 x01)) E))
(T (W x00 x00 x7f x00 x00 x00 x00 x00)
(T (W xc0 x10 x00 x08 x00 x00 x00 x00)
(L (W x00 x00 x00 x00 x00 x00 x00 x00)) E)
(T (W x00 x00 x00 x00 x00 x00 xc0 x02)
(L (W x01 x01 x00 x00 x00 x00 x00 x00)) E))))
(T (W x00 x00 x7f x00 x00 x00 x00 x00)
(T (W x3c x00 x50 x23 x00 x00 x00 x00)
(T (W x08 x06 x06 x01 x01 x02 x02 x02)
(T (W x00 x00 x00 x00 x00 x00 x00 x00)
(L (W x00 x00 x00 x00 x00 x00 x00 x00))
(L (W x3c x00 x50 x32 x00 x00 x00 x00)))
(T (W x00 x00 x7f x0f x32 x00 x03 x03)
(L (W x00 x00 x00 x00 x00 x00 x00 x00)) E))
(T (W x01 x01 x00 x00 x00 x00 x00 x00)
(T (W x00 x00 x00 x00 x00 x00 x00 x00)
(L (W x62 x41 x42 x44 x3a x38 x08 x00)) E)
(T (W x02 x45 xfa x00 xaa x00 x12 x02)
(L (W x01 x00 x01 x00 x01 x00 x01 x00)) E)))
(T (W x01 x46 x0c x01 xb4 x00 xee x02)
(T (W x00 x00 x00 x00 x00 x00 x00 x00)
(T (W x00 x00 x00 x00 x00 x00 xbf x01)
(L (W x04 x05 x00 x00 x00 x00 x00 x00)) E)
(T (W x3c x00 x55 x32 x00 x00 x00 x00)
(L (W x00 x00 x00 x00 x00 x00 x00 x00)) E))
(T (W x66 x01 x02 x04 x00 x00 x08 x00)
(T (W x01 x00 x01 x00 x01 x00 x01 x00)
(L (W x00 x00 x6d x00 x3b x00 x00 x00)) E)
(T (W x03 x02 x01 x01 x01 x01 x01 x01)
(L (W x00 x00 xff x00 x00 x00 x00 x00)) E)))))
(T (W x01 x46 x31 x00 x50 x00 x4b x00)
(T (W x00 x00 x00 x00 x00 x00 x3f x00)
(T (W x50 x55 x5f x19 x1e x1e x04 x05)
(T (W x00 x00 x7f x00 x00 x00 x00 x00)
(T (W x00 x00 x00 x00 x00 x00 x00 x00)
(L (W x3c x00 x5a x32 x00 x00 x00 x00))
(L (W x5f x5f x5f x5f x5f x5f x01 x01)))
(T (W x00 x00 x00 x00 x00 x00 x3e x02)
(L (W x01 x01 x00 x00 x00 x00 x00 x00)) E))
(T (W x00 x00 x00 x00 x00 x00 x00 x00)
(T (W x00 xcc x01 xc1 x48 x9c x00 x00)
(L (W x04 x03 x03 x01 x01 x01 x01 x01)) E)
(T (W x01 x00 x01 x00 x01 x00 x01 x00)
(L (W x00 x00 x00 x00 x00 x00 x00 x00)) E)))
(T (W x01 x00 x01 x00 x01 x00 x01 x00)
(T (W x00 x00 x00 x00 x00 x00 x00 x00)
(T (W x04 x04 x00 x00 x00 x00 x00 x00)
(L (W x01 x47 x2c x01 xfa x00 x40 x1f))
(L (W x0e x00 x10 x00 x13 x00 x19 x00)))
(T (W x59 x7c x50 x37 x37 x50 x04 x07)
(L (W x00 x00 x00 x00 x00 x00 x00 x00)) E))
(T (W x03 x02 x04 x01 x01 x01 x01 x02)
(T (W x00 x00 x32 x01 xe5 x00 x00 x00)
(L (W x00 x10 x85 x04 x00 x00 x00 x00)) E)
(T (W x00 x00 xff x78 x00 x05 x0f x0f)
(L (W x00 x00 x00 x00 x00 x00 x00 x00)) E))))
(T (W x00 x00 x00 x01 x01 x01 x01 x01)
(T (W x00 x90 x00 x00 x00 x00 x00 x00)
(T (W x20 x40 x00 x14 x44 x14 x00 x00)
(T (W x01 x00 x01 x00 x01 x00 x01 x00)
(L (W x00 x00 x00 x00 x00 x00 x00 x00))
(L (W x00 x00 x00 x00 x00 x00 x00 x00)))
(T (W x12 x12 x10 x02 x02 x02 x02 x02)
(L (W x00 x00 xff x00 x00 x00 x00 x00)) E))
(T (W x00 x00 x00 x00 x00 x00 x40 x01)
(T (W x37 x00 x55 x2d x00 x00 x00 x00)
(L (W x7a x82 x45 x1e x50 x45 x08 x08)) E)
(T (W x03 x04 x00 x00 x00 x00 x00 x00)
(L (W x00 x00 x00 x00 x00 x00 x00 x00)) E)))
(T (W x01 x01 x00 x00 x00 x00 x00 x00)
(T (W x00 x00 x6a x00 x47 x00 x00 x00)
(T (W x00 x00 x7f x14 x32 x05 x01 x07)
(L (W x00 x00 x00 x00 x00 x00 x3f x03)) E)
(T (W x02 x10 x00 x00 x0a x00 x00 x00)
(L (W x00 x00 x00 x00 x00 x00 x00 x00)) E))
(T (W x00 x00 x00 x00 x00 x00 x00 x00)
(T (W x01 x40 x04 x01 x96 x00 xc3 x03)
(L (W x0e x00 x10 x00 x13 x00 x19 x00)) E)
(T (W x00 x00 x00 x00 x00 x00 x00 x00)
(L (W x00 x00 x00 x01 x01 x01 x01 x01)) E)))))))
(T (W x01 x41 x09 x01 xa0 x00 x57 x03)
(T (W x00 x00 x00 x00 x00 x00 x00 x00)
(T (W x3c x00 x55 x32 x00 x00 x00 x00)
(T (W x00 x00 x00 x00 x00 x00 x00 x00)
(T (W x00 x00 x00 x00 x00 x00 x00 x00)
(T (W x01 x00 x01 x00 x01 x00 x01 x00)
(T (W x04 x04 x04 x01 x01 x01 x01 x01)
(L (W x00 x00 x7f x14 x32 x00 x02 x02))
(L (W x00 x00 x00 x00 x00 x00 xc6 x02)))
(T (W x00 x00 x42 x01 x5e x00 x00 x00)
(L (W xc1 x11 x00 x0a x04 x00 x00 x00)) E))
(T (W x3c x00 x5a x28 x00 x00 x00 x00)
(T (W x04 x04 x00 x00 x00 x00 x00 x00)
(L (W x01 x43 xaa x00 x1e x00 x0a x00)) E)
(T (W x00 x00 x00 x00 x00 x00 x00 x00)
(L (W xa0 x20 x22 x13 x01 x08 x30 x00)) E)))
(T (W xa0 x6e x41 x1e x41 x6e x00 x00)
(T (W x00 x00 x00 x19 x32 x00 x0f x0f)
(T (W x00 x10 x00 x00 x00 x00 x00 x00)
(L (W x00 x00 x00 x00 x00 x00 x00 x00))
(L (W x61 x71 x6d x4d x9d x7f x0d x07)))
(T (W x00 x00 x00 x00 x00 x00 x5f x02)
(L (W x01 x01 x00 x00 x00 x00 x00 x00)) E))
(T (W x01 x43 x77 x00 x6e x00 x99 x00)
(T (W x00 x00 x00 x00 x00 x00 x00 x00)
(L (W x03 x02 x03 x01 x01 x01 x01 x02)) E)
(T (W x0e x00 x10 x00 x13 x00 x19 x00)
(L (W x00 x00 x00 x00 x00 x00 x00 x00)) E))))
(T (W x01 x41 xb4 x00 xa0 x00 x26 x02)
(T (W x03 x03 x01 x01 x01 x01 x02 x02)
(T (W x03 x04 x00 x00 x00 x00 x00 x00)
(T (W x00 x00 x00 x00 x00 x00 x00 x00)
(L (W x20 x00 x00 x00 x00 x00 x00 x08))
(L (W x03 x03 x03 x01 x01 x01 x01 x01)))
(T (W x00 x00 x00 x00 x00 x00 x00 x00)
(L (W x01 x00 x01 x00 x01 x00 x01 x00)) E))
(T (W x00 x00 x9d x00 xe7 x00 x00 x00)
(T (W x00 x00 xff x00 x00 x00 x00 x00)
(L (W x00 x00 x00 x00 x00 x00 xde x00)) E)
(T (W xc0 x11 x10 x0a x00 x00 x00 x00)
(L (W x00 x00 x00 x00 x00 x00 x00 x00)) E)))
(T (W x00 x00 x00 x00 x00 x00 x00 x00)
(T (W x88 x20 x00 x00 x08 x50 x30 x00)
(T (W x0e x00 x10 x00 x13 x00 x19 x00)
(L (W x00 x00 x39 x00 x4a x01 x00 x00))
(L (W xc1 x11 xa2 x09 x05 x00 x00 x00)))
(T (W x03 x03 x02 x01 x01 x01 x01 x01)
(L (W x00 x00 xff x00 x00 x00 x00 x00)) E))
(T (W x00 x00 x00 x00 x00 x00 x00 x00)
(T (W x3c x00 x55 x32 x00 x00 x00 x00)
(L (W x32 x4b x5a x28 x0a x23 x0e x08)) E)
(T (W x04 x05 x00 x00 x00 x00 x00 x00)
(L (W x00 x00 x00 x00 x00 x00 x00 x00)) E)))))
(T (W x00 x30 x10 x10 x00 x00 x00 x00)
(T (W x0e x00 x10 x00 x13 x00 x19 x00)
(T (W x00 x00 x7f x14 x32 x00 x01 x01)
(T (W x00 x00 x00 x00 x00 x00 x00 x00)
(T (W x00 x00 x00 x00 x00 x00 x00 x00)
(L (W x04 x04 x04 x01 x01 x01 x01 x01))
(L (W x00 x00 x7f x0f x32 x00 x05 x05)))
(T (W x0e x00 x10 x00 x13 x00 x19 x00)
(L (W x00 x00 x00 x00 x00 x00 x00 x00)) E))
(T (W x00 x90 x02 x00 x04 x00 x00 x00)
(T (W x00 x00 x00 x00 x00 x00 xe0 x01)
(L (W x02 x02 x00 x00 x00 x00 x00 x00)) E)
(T (W x00 x00 x00 x00 x00 x00 x00 x00)
(L (W x00 x00 x00 x00 x00 x00 x00 x00)) E)))
(T (W x00 x00 x00 x00 x00 x00 x00 x00)
(T (W x05 x05 x04 x01 x01 x01 x01 x01)
(T (W x00 x00 x00 x00 x00 x00 x00 x00)
(L (W x02 x10 x00 x10 x00 x00 x00 x00))
(L (W x3c x00 x55 x32 x00 x00 x00 x00)))
(T (W x00 x00 x7f x19 x32 x03 x05 x08)
(L (W x00 x00 x00 x00 x00 x00 x00 x00)) E))
(T (W x03 x03 x00 x00 x00 x00 x00 x00)
(T (W x41 x2d x2b x48 x37 x2b x0d x02)
(L (W x00 x00 x00 x00 x00 x00 x00 x00)) E)
(T (W x01 x41 xb4 x00 xc8 x00 xba x13)
(L (W x01 x00 x01 x00 x01 x00 x01 x00)) E))))
(T (W x01 x01 x00 x00 x00 x00 x00 x00)
(T (W x04 x04 x08 x40 x20 x04 x80 x00)
(T (W x00 x00 x00 x00 x00 x00 xdf x00)
(T (W x00 x00 x00 x00 x00 x00 x00 x00)
(L (W x37 x4b x5a x41 x41 x46 x0f x01))
(L (W x00 x00 x00 x00 x00 x00 x00 x00)))
(T (W x04 x04 x00 x00 x00 x00 x00 x00)
(L (W x00 x00 x00 x00 x00 x00 x00 x00)) E))
(T (W x01 x00 x01 x00 x01 x00 x01 x00)
(T (W x00 x00 x00 x01 x01 x01 x01 x01)
(L (W x00 x00 x00 x28 x8c x04 x06 x06)) E)
(T (W x00 x00 xd4 x01 x16 x02 x00 x00)
(L (W x00 x00 x00 x00 x00 x00 x00 x00)) E)))
(T (W x00 x00 x2b x00 x6d x00 x00 x00)
(T (W x3c x32 x32 x32 x3c x46 x0a x0b)
(T (W x00 x00 x00 x00 x00 x00 x00 x00)
(L (W x0e x00 x10 x00 x13 x00 x19 x00)) E)
(T (W x13 x8c x88 x40 x29 x08 x00 x01)
(L (W x00 x00 x00 x01 x01 x01 x01 x01)) E))
(T (W x00 x00 x7f x14 x32 x03 x02 x05)
(T (W x08 x10 x00 x00 x00 x00 x00 x00)
(L (W x00 x00 x00 x00 x00 x00 x00 x00)) E)
(T (W x00 x00 x00 x00 x00 x00 xe0 x02)
(L (W x01 x01 x00 x00 x00 x00 x00 x00)) E))))))
(T (W x01 x01 x00 x00 x00 x00 x00 x00)
(T (W x00 x00 x00 x00 x00 x00 x20 x00)
(T (W x03 x03 x03 x01 x01 x01 x01 x01)
(T (W x40 x10 x00 x01 x00 x00 x00 x00)
(T (W x00 x20 x00 x00 x09 x48 x10 x40)
(T (W x0a x00 x0a x00 x13 x00 x0a x00)
(L (W x00 x00 x4b x00 x5c x01 x00 x00))
(L (W x00 x90 x02 x00 x0c x00 x00 x00)))
(T (W x03 x03 x03 x01 x01 x01 x01 x01)
(L (W x00 x00 xff x00 x00 x00 x00 x00)) E))
(T (W x00 x00 x00 x00 x00 x00 x00 x00)
(T (W x32 x00 x50 x32 x00 x00 x00 x00)
(L (W x3d x7b x3c x88 x3c x32 x0a x0a)) E)
(T (W x05 x05 x00 x00 x00 x00 x00 x00)
(L (W x00 x00 x00 x00 x00 x00 x00 x00)) E)))
(T (W x03 x04 x00 x00 x00 x00 x00 x00)
(T (W x00 x00 x2d x00 x22 x00 x00 x00)
(T (W x00 x00 x7f x14 x8c x00 x05 x08)
(L (W x00 x00 x00 x00 x00 x00 x20 x03))
(L (W x05 x05 x00 x00 x00 x00 x00 x00)))
(T (W x0b x10 x02 x00 x00 x00 x00 x00)
(L (W x3c x00 x55 x2d x00 x00 x00 x00)) E))
(T (W x00 x00 x00 x00 x00 x00 x00 x00)
(T (W x01 x47 xf4 x00 x78 x00 x22 x01)
(L (W x0a x00 x0a x00 x0a x00 x0a x00)) E)
(T (W x00 x40 x02 x00 x40 x00 x06 x14)
(L (W x00 x00 x00 x01 x01 x01 x01 x01)) E))))
(T (W x5a x41 x41 x0f x28 x28 x0a x0d)
(T (W x0e x00 x10 x00 x13 x00 x19 x00)
(T (W x00 x00 x00 x00 x00 x00 x00 x00)
(T (W x03 x04 x00 x00 x00 x00 x00 x00)
(L (W x01 x47 x98 x00 x1e x00 x21 x00))
(L (W x0e x00 x10 x00 x13 x00 x19 x00)))
(T (W x72 x55 x46 x1e x55 x50 x0b x03)
(L (W x00 x00 x00 x00 x00 x00 x00 x00)) E))
(T (W x00 x00 x00 x01 x01 x01 x01 x01)
(T (W x00 x00 x00 x00 x00 x00 x00 x00)
(L (W x00 x90 x00 x40 x01 x00 x00 x00)) E)
(T (W x00 x00 x7f x14 x32 x00 x06 x06)
(L (W x00 x00 x00 x00 x00 x00 x00 x00)) E)))
(T (W x00 x00 x7f x0a x32 x00 x0f x0f)
(T (W x00 x00 x00 x00 x00 x00 x00 x00)
(T (W x23 x00 x40 x36 x00 x00 x00 x00)
(L (W x03 x03 x02 x01 x01 x01 x01 x01)) E)
(T (W x0e x00 x10 x00 x13 x00 x19 x00)
(L (W x00 x00 x39 x00 xc6 x02 x00 x00)) E))
(T (W x00 x00 x00 x00 x00 x00 x00 x00)
(T (W x00 x00 x00 x00 x00 x00 x1f x02)
(L (W x02 x02 x00 x00 x00 x00 x00 x00)) E)
(T (W x3c x00 x5a x3c x00 x00 x00 x00)
(L (W x00 x00 x00 x00 x00 x00 x00 x00)) E)))))
(T (W x00 x00 x7f x14 x32 x03 x07 x07)
(T (W x80 x00 x21 x02 x01 x80 x20 x00)
(T (W x00 x00 xcc x00 x7f x01 x00 x00)
(T (W x00 x00 x00 x00 x00 x00 x00 x00)
(T (W x00 x00 x00 x00 x00 x00 x00 x00)
(L (W x0e x00 x10 x00 x13 x00 x19 x00))
(L (W x00 x00 x32 x01 xce x02 x00 x00)))
(T (W xc6 x41 x12 x00 x63 x20 x0c x00)
(L (W x00 x00 x00 x01 x01 x01 x01 x01)) E))
(T (W x00 x00 xbf x00 x00 x00 x00 x00)
(T (W x01 x90 x02 x00 x04 x00 x00 x00)
(L (W x3c x00 x55 x32 x00 x00 x00 x00)) E)
(T (W x00 x00 x00 x00 x00 x00 x00 x00)
(L (W x01 x01 x00 x00 x00 x00 x00 x00)) E)))
(T (W x00 x00 x00 x00 x00 x00 x00 x00)
(T (W x0e x00 x10 x00 x13 x00 x19 x00)
(T (W x05 x05 x04 x01 x01 x01 x01 x01)
(L (W x00 x00 x1f x14 x32 x03 x05 x07))
(L (W x00 x00 x00 x00 x00 x00 x6d x03)))
(T (W x00 x00 x0e x00 x0c x00 x00 x00)
(L (W x00 x00 x00 x00 x00 x00 x00 x00)) E))
(T (W x37 x00 x55 x37 x00 x00 x00 x00)
(T (W x02 x03 x00 x00 x00 x00 x00 x00)
(L (W x0a x42 x70 x00 x28 x00 x3c x00)) E)
(T (W x32 x64 x96 x32 x64 x96 x05 x11)
(L (W x00 x00 x00 x00 x00 x00 x00 x00)) E))))
(T (W x3c x00 x5a x2d x00 x00 x00 x00)
(T (W x01 x49 x4f x00 x50 x00 x6d x01)
(T (W x00 x10 x00 x00 x08 x00 x00 x00)
(T (W x00 x00 x00 x00 x00 x00 x9f x01)
(L (W x02 x02 x00 x00 x00 x00 x00 x00))
(L (W x00 x00 x00 x00 x00 x00 x00 x00)))
(T (W x00 x00 x00 x00 x00 x00 x00 x00)
(L (W x00 x00 x00 x00 x00 x00 x00 x00)) E))
(T (W x00 x00 x00 x00 x00 x00 x00 x00)
(T (W x0e x00 x10 x00 x13 x00 x19 x00)
(L (W x00 x00 xa3 x01 xf2 x02 x00 x00)) E)
(T (W x03 x03 x02 x01 x01 x01 x01 x01)
(L (W x00 x00 xff x00 x00 x00 x00 x00)) E)))
(T (W x05 x05 x05 x01 x01 x01 x01 x01)
(T (W x01 x01 x00 x00 x00 x00 x00 x00)
(T (W x6e x55 x5f x32 x50 x5f x00 x00)
(L (W x09 x00 x00 x00 x00 x00 x41 x04)) E)
(T (W x05 x46 x2c x01 x96 x00 x39 x03)
(L (W x0e x00 x10 x00 x13 x00 x19 x00)) E))
(T (W x00 x00 x19 x01 x91 x01 x00 x00)
(T (W x00 x00 x7f x14 x32 x00 x07 x07)
(L (W x00 x00 x00 x00 x00 x00 x53 x00)) E)
(T (W x80 x51 x80 x00 x00 x00 x00 x00)
(L (W x3c x00 x55 x32 x00 x00 x00 x00)) E))))))))
(T (W x03 x04 x00 x00 x00 x00 x00 x00)
(T (W x04 x03 x03 x01 x01 x01 x01 x01)
(T (W x01 x00 x01 x00 x01 x00 x01 x00)
(T (W x0a x42 x70 x00 x28 x00 x3c x00)
(T (W x00 x00 x00 x00 x00 x00 x00 x00)
(T (W x23 x2d xa0 x46 x1e x2d x05 x04)
(T (W x00 x00 x7f x00 x00 x00 x00 x00)
(T (W x00 x00 x00 x00 x00 x00 x00 x00)
(L (W x3c x00 x50 x28 x00 x00 x00 x00))
(L (W x37 x55 x7a x63 x3a x4b x07 x0b)))
(T (W x00 x00 x00 x00 x00 x00 x2f x02)
(L (W x04 x05 x00 x00 x00 x00 x00 x00)) E))
(T (W x01 x48 x61 x00 x50 x00 xca x00)
(T (W x38 x08 x80 x00 x01 x00 x00 x00)
(L (W x03 x02 x02 x01 x01 x01 x01 x01)) E)
(T (W x01 x00 x01 x00 x01 x00 x01 x00)
(L (W x00 x00 x25 x02 x2e x02 x00 x00)) E)))
(T (W x0e x00 x10 x00 x13 x00 x19 x00)
(T (W x00 x00 x00 x00 x00 x00 x00 x00)
(T (W x03 x03 x00 x00 x00 x00 x00 x00)
(L (W x01 x48 x1d x01 x78 x00 x2b x02))
(L (W x0e x00 x10 x00 x13 x00 x19 x00)))
(T (W x32 x1e x37 x14 x41 x37 x07 x09)
(L (W x00 x00 x00 x00 x00 x00 x00 x00)) E))
(T (W x00 x00 x00 x01 x01 x01 x01 x01)
(T (W x00 x00 x00 x00 x00 x00 x00 x00)
(L (W x00 x70 x40 x00 x08 x00 x00 x00)) E)
(T (W x00 x00 x1f x23 x32 x00 x05 x05)
(L (W x00 x00 x00 x00 x00 x00 x00 x00)) E))))
(T (W x00 x00 x00 x01 x01 x01 x01 x01)
(T (W x00 x10 x00 x00 x01 x00 x00 x00)
(T (W x22 x00 x50 x02 x00 x40 x10 x88)
(T (W x01 x00 x01 x00 x01 x00 x01 x00)
(L (W x00 x00 xc9 x00 xca x00 x00 x00))
(L (W x1e x10 x20 x80 x00 x00 x00 x00)))
(T (W x03 x02 x02 x01 x01 x01 x01 x01)
(L (W x00 x00 xff x00 x00 x00 x00 x00)) E))
(T (W x00 x00 x00 x00 x00 x00 x30 x01)
(T (W x00 x00 x00 x00 x00 x00 x00 x00)
(L (W x46 x6e x64 x32 x32 x3c x08 x08)) E)
(T (W x01 x01 x00 x00 x00 x00 x00 x00)
(L (W x00 x00 x00 x00 x00 x00 x00 x00)) E)))
(T (W x04 x04 x00 x00 x00 x00 x00 x00)
(T (W x00 x00 x74 x00 x2b x01 x00 x00)
(T (W x00 x00 x7f x28 x32 x05 x01 x0e)
(L (W x00 x00 x00 x00 x00 x00 x30 x03))
(L (W x02 x02 x00 x00 x00 x00 x00 x00)))
(T (W x00 x90 x20 x80 x00 x00 x00 x00)
(L (W x00 x00 x00 x00 x00 x00 x00 x00)) E))
(T (W x00 x00 x00 x00 x00 x00 x00 x00)
(T (W x01 x41 xff x00 x96 x00 x6c x02)
(L (W x0e x00 x10 x00 x13 x00 x19 x00)) E)
(T (W x00 x00 x04 x08 x16 x20 x20 x00)
(L (W x00 x00 x00 x01 x01 x01 x01 x01)) E)))))
(T (W x04 x05 x00 x00 x00 x00 x00 x00)
(T (W x00 x00 x7f x14 x32 x03 x02 x02)
(T (W x28 x00 x50 x14 x00 x00 x00 x00)
(T (W x04 x04 x04 x01 x01 x01 x01 x01)
(T (W x00 x00 x61 x01 x35 x01 x00 x00)
(L (W x02 x56 x00 x00 x08 x00 x00 x00))
(L (W x00 x00 x00 x00 x00 x00 x00 x00)))
(T (W x00 x00 xbf x0f x32 x04 x05 x05)
(L (W x00 x00 x00 x00 x00 x00 x00 x00)) E))
(T (W x08 x08 x00 x00 x00 x00 x00 x00)
(T (W x32 x32 x4d x5b x5f x4d x0c x07)
(L (W x11 x08 x80 x30 x00 x01 x10 x01)) E)
(T (W x00 x00 x00 x00 x00 x00 x00 x00)
(L (W x01 x00 x01 x00 x01 x00 x01 x00)) E)))
(T (W x00 x00 x00 x00 x00 x00 x00 x00)
(T (W x00 x90 x22 x00 x04 x00 x00 x00)
(T (W x00 x00 x00 x00 x00 x00 x00 x00)
(L (W x02 x02 x00 x00 x00 x00 x00 x00))
(L (W x09 x42 xad x00 x1e x00 x05 x00)))
(T (W x32 x00 x50 x1e x00 x00 x00 x00)
(L (W x00 x00 x00 x00 x00 x00 x00 x00)) E))
(T (W x04 x20 x08 x00 x08 x00 x10 x00)
(T (W x0e x00 x10 x00 x13 x00 x19 x00)
(L (W x00 x00 x00 x00 x00 x00 x00 x00)) E)
(T (W x04 x04 x04 x01 x01 x01 x01 x01)
(L (W x00 x00 xff x00 x00 x00 x00 x00)) E))))
(T (W x18 x00 x24 x02 x04 x00 x20 x80)
(T (W x00 x00 x96 x00 xaf x00 x00 x00)
(T (W x23 x41 x23 x41 x41 x23 x0a x0a)
(T (W x00 x00 x00 x00 x00 x00 x00 x00)
(L (W x0e x00 x10 x00 x13 x00 x19 x00))
(L (W x00 x00 x00 x00 x00 x00 x00 x00)))
(T (W x00 x00 x00 x32 x02 x00 x41 x00)
(L (W x03 x03 x03 x01 x01 x01 x01 x01)) E))
(T (W x00 x00 x7f x00 x00 x00 x00 x00)
(T (W x00 x00 x00 x00 x00 x00 x00 x00)
(L (W x3c x00 x50 x37 x00 x00 x00 x00)) E)
(T (W x00 x00 x00 x00 x00 x00 xb0 x02)
(L (W x01 x01 x00 x00 x00 x00 x00 x00)) E)))
(T (W x00 x00 x00 x00 x00 x00 xaf x00)
(T (W x01 x00 x01 x00 x01 x00 x01 x00)
(T (W x00 x00 x00 x01 x01 x01 x01 x01)
(L (W x00 x00 x7f x0f x32 x04 x05 x05)) E)
(T (W x00 x00 x00 x00 x00 x00 x00 x00)
(L (W xc0 x30 x00 x00 x02 x00 x00 x00)) E))
(T (W x3c x00 x55 x32 x00 x00 x00 x00)
(T (W x03 x04 x00 x00 x00 x00 x00 x00)
(L (W x00 x00 x00 x00 x00 x00 x00 x00)) E)
(T (W x00 x00 x00 x00 x00 x00 x00 x00)
(L (W x00 x00 x00 x00 x00 x00 x00 x00)) E))))))
(T (W x00 x00 x00 x00 x00 x00 x00 x00)
(T (W x5a x5c x57 x4c x4b x55 x03 x04)
(T (W x82 x10 x00 x00 x00 x00 x00 x00)
(T (W x01 x01 x00 x00 x00 x00 x00 x00)
(T (W x00 x00 x00 x00 x00 x00 x00 x00)
(T (W x00 x00 xfe x78 x5a x05 x0f x0f)
(L (W x00 x00 x00 x00 x00 x00 xef x02))
(L (W x02 x02 x00 x00 x00 x00 x00 x00)))
(T (W x02 x50 x02 x00 x00 x00 x00 x00)
(L (W x37 x00 x55 x37 x00 x00 x00 x00)) E))
(T (W x00 x00 x00 x00 x00 x00 x00 x00)
(T (W x01 x45 x09 x01 xfa x00 x5e x0b)
(L (W x0e x00 x10 x00 x13 x00 x19 x00)) E)
(T (W x00 x00 x01 x00 x00 x2c x60 x00)
(L (W x00 x00 x00 x01 x01 x01 x01 x01)) E)))
(T (W x00 x00 x08 x40 x00 x00 x00 x00)
(T (W x00 x00 x00 x00 x00 x00 xf0 x00)
(T (W x3c x00 x55 x32 x00 x00 x00 x00)
(L (W xdf x65 x35 x2b x61 x35 x10 x0f))
(L (W x28 x04 x00 x02 x00 x42 x45 x88)))
(T (W x03 x04 x00 x00 x00 x00 x00 x00)
(L (W x06 x40 xb6 x00 x1e x00 x03 x00)) E))
(T (W x0e x00 x10 x00 x13 x00 x19 x00)
(T (W x04 x03 x03 x01 x01 x01 x01 x01)
(L (W x00 x00 x1f x78 x32 x05 x0f x0f)) E)
(T (W x00 x00 xeb x01 x96 x01 x00 x00)
(L (W x00 x00 x00 x00 x00 x00 x00 x00)) E))))
(T (W x0e x00 x10 x00 x13 x00 x19 x00)
(T (W x00 x00 xfe x19 x32 x00 x08 x08)
(T (W x00 x00 x00 x00 x00 x00 x00 x00)
(T (W x01 x00 x00 x00 x00 x00 x41 x04)
(L (W x00 x00 x00 x01 x01 x01 x01 x01))
(L (W x00 x00 xff x78 x00 x05 x0f x0f)))
(T (W x0e x00 x10 x00 x13 x00 x19 x00)
(L (W x00 x00 x00 x00 x00 x00 x00 x00)) E))
(T (W x1c x10 x21 x24 x00 x00 x00 x00)
(T (W x00 x00 x00 x00 x00 x00 x00 x00)
(L (W x03 x03 x00 x00 x00 x00 x00 x00)) E)
(T (W x3c x00 x55 x28 x00 x00 x00 x00)
(L (W x00 x00 x00 x00 x00 x00 x00 x00)) E)))
(T (W x3c x00 x50 x32 x00 x00 x00 x00)
(T (W x03 x03 x03 x01 x01 x01 x01 x01)
(T (W x00 x00 xf2 x00 x19 x01 x00 x00)
(L (W x00 x90 x00 x80 x00 x00 x00 x00)) E)
(T (W x00 x00 x7f x28 x32 x05 x03 x03)
(L (W x00 x00 x00 x00 x00 x00 x00 x00)) E))
(T (W x05 x05 x00 x00 x00 x00 x00 x00)
(T (W x1e x2d x3b x39 x1e x27 x06 x03)
(L (W x08 x40 x00 x00 x48 x04 x28 x00)) E)
(T (W x01 x41 x93 x00 x3c x00 xaf x00)
(L (W x01 x00 x01 x00 x01 x00 x01 x00)) E)))))
(T (W x28 x00 x46 x28 x00 x00 x00 x00)
(T (W x00 x00 x73 x00 x5e x00 x00 x00)
(T (W x00 x00 x00 x00 x00 x00 x6f x00)
(T (W x01 x00 x01 x00 x01 x00 x01 x00)
(T (W x00 x00 x00 x01 x01 x01 x01 x01)
(L (W x00 x00 xbf x14 x32 x04 x07 x07))
(L (W x00 x00 x00 x00 x00 x00 x04 x03)))
(T (W x00 x00 xd8 x01 xd8 x01 x00 x00)
(L (W x00 x00 x00 x00 x00 x00 x00 x00)) E))
(T (W x3c x00 x64 x46 x00 x00 x00 x00)
(T (W x02 x02 x00 x00 x00 x00 x00 x00)
(L (W x01 x49 x82 x00 x3c x00 x30 x00)) E)
(T (W x00 x00 x00 x00 x00 x00 x00 x00)
(L (W x00 x00 x00 x00 x00 x00 x00 x00)) E)))
(T (W x00 x00 x00 x00 x00 x00 x00 x00)
(T (W x00 x00 x1f x14 x32 x03 x01 x0e)
(T (W x00 x10 x00 x00 x04 x00 x00 x00)
(L (W x32 x00 x50 x28 x00 x00 x00 x00))
(L (W x46 x37 x41 x55 x5f x69 x0d x00)))
(T (W x00 x00 x00 x00 x00 x00 x70 x02)
(L (W x01 x01 x00 x00 x00 x00 x00 x00)) E))
(T (W x01 x46 x47 x00 x64 x00 xee x00)
(T (W x0a x05 x02 x00 x20 x20 x68 x90)
(L (W x02 x06 x05 x01 x01 x01 x02 x02)) E)
(T (W x0a x00 x0a x00 x13 x00 x0a x00)
(L (W x00 x00 x00 x00 x00 x00 x00 x00)) E))))
(T (W x00 x00 x00 x00 x00 x00 x00 x00)
(T (W x04 x06 x04 x01 x01 x01 x02 x02)
(T (W x01 x01 x00 x00 x00 x00 x00 x00)
(T (W x1e x1e x2a x46 x1e x2a x06 x02)
(L (W xa0 x40 x23 x08 x23 x28 x24 x70))
(L (W x00 x00 x00 x01 x01 x01 x01 x01)))
(T (W x01 x47 x04 x01 x3c x00 x2a x03)
(L (W x01 x00 x01 x00 x01 x00 x01 x00)) E))
(T (W x00 x00 x43 x01 x39 x00 x00 x00)
(T (W x00 x00 x7f x0f x32 x03 x05 x05)
(L (W x00 x00 x00 x00 x00 x00 x70 x03)) E)
(T (W x00 x18 x07 x04 x00 x00 x00 x00)
(L (W x00 x00 x00 x00 x00 x00 x00 x00)) E)))
(T (W x00 x14 x00 x01 x00 x00 x00 x00)
(T (W x12 x00 x04 x1c x93 x20 x02 x82)
(T (W x0e x00 x10 x00 x13 x00 x19 x00)
(L (W x00 x00 x2c x00 xea x02 x00 x00)) E)
(T (W x02 x02 x01 x01 x01 x01 x01 x01)
(L (W x00 x00 xff x00 x00 x00 x00 x00)) E))
(T (W x00 x00 x00 x00 x00 x00 x00 x00)
(T (W x3c x00 x55 x28 x00 x00 x00 x00)
(L (W x5f x64 x5f x1e x64 x46 x03 x0d)) E)
(T (W x01 x01 x00 x00 x00 x00 x00 x00)
(L (W x00 x00 x00 x00 x00 x00 x00 x00)) E)))))))
(T (W x3c x00 x50 x28 x00 x00 x00 x00)
(T (W x00 x00 x00 x00 x00 x00 x00 x00)
(T (W x00 x00 x7f x14 x32 x00 x05 x05)
(T (W x08 x00 x00 x00 x08 x58 x28 x40)
(T (W x00 x00 x00 x00 x00 x00 x00 x00)
(T (W x00 x00 x00 x00 x00 x00 x00 x00)
(T (W x01 x45 x22 x01 xaa x00 xfc x08)
(L (W x0e x00 x10 x00 x13 x00 x19 x00))
(L (W x00 x00 x37 x02 x36 x01 x00 x00)))
(T (W x42 x41 x42 x04 x32 x20 x08 x00)
(L (W x00 x00 x00 x01 x01 x01 x01 x01)) E))
(T (W x00 x00 x7f x00 x00 x00 x00 x00)
(T (W x00 x90 x00 x00 x00 x00 x00 x00)
(L (W x3c x00 x5a x32 x00 x00 x00 x00)) E)
(T (W x00 x00 x00 x00 x00 x00 x00 x00)
(L (W x01 x01 x00 x00 x00 x00 x00 x00)) E)))
(T (W x00 x00 x00 x00 x00 x00 x90 x00)
(T (W x0e x00 x10 x00 x13 x00 x19 x00)
(T (W x03 x03 x02 x01 x01 x01 x01 x01)
(L (W x00 x00 xff x78 x00 x05 x0f x0f))
(L (W x00 x00 x00 x00 x00 x00 x21 x03)))
(T (W x00 x00 xf7 x00 x53 x02 x00 x00)
(L (W x00 x10 x80 x01 x00 x00 x00 x00)) E))
(T (W x3c x00 x55 x28 x00 x00 x00 x00)
(T (W x01 x01 x00 x00 x00 x00 x00 x00)
(L (W x02 x40 x4f x01 x22 x01 x34 x08)) E)
(T (W x32 x32 x96 x32 x32 x96 x05 x11)
(L (W x00 x00 x00 x00 x00 x00 x00 x00)) E))))
(T (W x00 x00 x00 x00 x00 x00 x00 x00)
(T (W x01 x46 xb6 x00 x6e x00 x20 x03)
(T (W x02 x94 x02 x40 x03 x00 x00 x00)
(T (W x00 x00 x00 x00 x00 x00 x00 x00)
(L (W x04 x04 x00 x00 x00 x00 x00 x00))
(L (W x12 x47 x1d x01 xe6 x00 xed x03)))
(T (W x00 x00 x00 x00 x00 x00 x00 x00)
(L (W x00 x00 x00 x00 x00 x00 x00 x00)) E))
(T (W x00 x00 x00 x00 x00 x00 x00 x00)
(T (W x01 x00 x01 x00 x01 x00 x01 x00)
(L (W x00 x00 x0e x00 x5c x01 x00 x00)) E)
(T (W x04 x04 x04 x01 x01 x01 x01 x01)
(L (W x00 x00 xff x00 x00 x00 x00 x00)) E)))
(T (W x00 x00 x00 x01 x01 x01 x01 x01)
(T (W x03 x04 x00 x00 x00 x00 x00 x00)
(T (W x28 x46 x28 x3c x23 x28 x01 x01)
(L (W x09 x04 x10 x08 x00 x00 x00 x00))
(L (W x00 x00 x00 x01 x01 x01 x01 x01)))
(T (W x01 x41 x3c x00 x50 x00 xad x00)
(L (W x01 x00 x01 x00 x01 x00 x01 x00)) E))
(T (W x00 x00 x00 x00 x00 x00 x00 x00)
(T (W x00 x00 x7f x00 x00 x00 x00 x00)
(L (W x00 x00 x00 x00 x00 x00 x1b x00)) E)
(T (W x12 x50 x00 x00 x00 x00 x00 x00)
(L (W x00 x00 x00 x00 x00 x00 x00 x00)) E)))))
(T (W x05 x05 x05 x01 x01 x01 x01 x01)
(T (W x19 x14 x0f x5a x69 x37 x0d x0d)
(T (W x0e x00 x10 x00 x13 x00 x19 x00)
(T (W x3c x00 x64 x32 x00 x00 x00 x00)
(T (W x01 x01 x00 x00 x00 x00 x00 x00)
(L (W x01 x46 x2a x00 x1e x00 x20 x00))
(L (W x0e x00 x10 x00 x13 x00 x19 x00)))
(T (W x3c x2d x46 x37 x4b x55 x0d x0d)
(L (W x00 x00 x00 x00 x00 x00 x00 x00)) E))
(T (W x05 x05 x05 x01 x01 x01 x01 x01)
(T (W x00 x00 x00 x00 x00 x00 x00 x00)
(L (W x80 x30 x40 x00 x00 x00 x00 x00)) E)
(T (W x00 x00 xe1 x00 x00 x00 x00 x00)
(L (W x00 x00 x00 x00 x00 x00 x00 x00)) E)))
(T (W x00 x00 x1f x00 x00 x00 x00 x00)
(T (W x01 x48 x54 x01 x08 x02 x70 x08)
(T (W x23 x00 x00 x06 x10 x00 x02 x8c)
(L (W x02 x02 x02 x01 x01 x01 x01 x02))
(L (W x00 x00 xfe x14 x32 x00 x06 x0b)))
(T (W x0e x00 x10 x00 x13 x00 x19 x00)
(L (W x00 x00 x00 x00 x00 x00 x00 x00)) E))
(T (W x01 x90 x28 x40 x00 x00 x00 x00)
(T (W x00 x00 x00 x00 x00 x00 x0f x02)
(L (W x01 x01 x00 x00 x00 x00 x00 x00)) E)
(T (W x3c x00 x55 x3c x00 x00 x00 x00)
(L (W x00 x00 x00 x00 x00 x00 x00 x00)) E))))
(T (W x00 x00 x00 x00 x00 x00 x00 x00)
(T (W x05 x06 x00 x00 x00 x00 x00 x00)
(T (W x00 x00 xd9 x00 xa3 x01 x00 x00)
(T (W x00 x00 x7f x00 x00 x00 x00 x00)
(L (W x00 x00 xb3 x02 xd8 x02 x0e x03))
(L (W x01 x01 x00 x00 x00 x00 x00 x00)))
(T (W x02 x10 x02 x00 x02 x00 x00 x00)
(L (W x00 x00 x00 x00 x00 x00 x00 x00)) E))
(T (W x46 x78 x28 x5f x5f x28 x0a x10)
(T (W x00 x00 x00 x00 x00 x00 x00 x00)
(L (W x0e x00 x10 x00 x13 x00 x19 x00)) E)
(T (W x02 x00 x40 x40 x01 x42 x10 x0c)
(L (W x00 x00 x00 x01 x01 x01 x01 x01)) E)))
(T (W x00 x00 x00 x00 x00 x00 x00 x00)
(T (W x00 x00 x00 x00 x00 x00 x0e x01)
(T (W x3c x00 x5a x32 x00 x00 x00 x00)
(L (W x2a x28 x37 x30 x28 x2d x00 x00)) E)
(T (W x05 x06 x00 x00 x00 x00 x00 x00)
(L (W x00 x00 x00 x00 x00 x00 x00 x00)) E))
(T (W x0e x00 x10 x00 x13 x00 x19 x00)
(T (W x04 x04 x04 x01 x01 x01 x01 x01)
(L (W x00 x00 x7f x14 x32 x00 x05 x05)) E)
(T (W x00 x00 x0c x01 xb3 x01 x00 x00)
(L (W x00 x00 x00 x00 x00 x00 x00 x00)) E))))))
(T (W x00 x00 x00 x00 x00 x00 x00 x00)
(T (W x00 x00 x74 x00 x8e x01 x00 x00)
(T (W x00 x00 x00 x00 x00 x00 x00 x00)
(T (W x03 x03 x03 x01 x01 x01 x01 x01)
(T (W x04 x05 x00 x00 x00 x00 x00 x00)
(T (W x64 x96 x8c x5a x64 x5a x04 x04)
(L (W x00 x00 x00 x08 x02 x20 x00 x10))
(L (W x00 x00 x00 x01 x01 x01 x01 x01)))
(T (W x01 x43 xa6 x00 xbe x00 x31 x04)
(L (W x01 x00 x01 x00 x01 x00 x01 x00)) E))
(T (W x00 x00 x00 x00 x00 x00 x00 x00)
(T (W x00 x00 x7f x00 x00 x00 x00 x00)
(L (W x00 x00 x00 x00 x00 x00 x50 x03)) E)
(T (W x00 x50 x00 x00 x00 x00 x00 x00)
(L (W x00 x00 x00 x00 x00 x00 x00 x00)) E)))
(T (W xe1 x19 x02 x08 x02 x00 x00 x00)
(T (W x03 x00 x02 x01 x00 x04 x50 x80)
(T (W x01 x00 x01 x00 x01 x00 x01 x00)
(L (W x00 x00 x00 x00 x00 x00 x00 x00))
(L (W x80 x11 x80 x12 x00 x00 x00 x00)))
(T (W x04 x04 x04 x01 x01 x01 x01 x01)
(L (W x00 x00 xff x14 x32 x00 x0b x0b)) E))
(T (W x00 x00 x00 x00 x00 x00 x00 x00)
(T (W x00 x00 x00 x00 x00 x00 x00 x00)
(L (W xc8 x64 x32 x50 x64 x32 x0f x0f)) E)
(T (W x03 x03 x00 x00 x00 x00 x00 x00)
(L (W x00 x00 x00 x00 x00 x00 x00 x00)) E))))
(T (W x00 x00 x00 x00 x00 x00 x4f x00)
(T (W x41 x7d x64 x55 x37 x46 x06 x06)
(T (W x00 x00 x7f x14 x32 x05 x05 x05)
(T (W x00 x14 x00 x00 x00 x00 x00 x00)
(L (W x32 x00 x50 x2d x00 x00 x00 x00))
(L (W x5f x5f x5f x5f x5f x5f x11 x11)))
(T (W x00 x00 x00 x00 x00 x00 x50 x02)
(L (W x01 x01 x00 x00 x00 x00 x00 x00)) E))
(T (W x00 x00 x00 x00 x00 x00 x00 x00)
(T (W x00 x00 x00 x00 x00 x00 x00 x00)
(L (W x03 x02 x02 x01 x01 x01 x01 x01)) E)
(T (W x0e x00 x10 x00 x13 x00 x19 x00)
(L (W x00 x00 x00 x00 x00 x00 x00 x00)) E)))
(T (W x0e x00 x10 x00 x13 x00 x19 x00)
(T (W x00 x00 x00 x00 x00 x00 x00 x00)
(T (W x03 x04 x00 x00 x00 x00 x00 x00)
(L (W x01 x42 x75 x00 x28 x00 xc3 x00)) E)
(T (W x5b x81 x5a x6c x48 x5a x05 x01)
(L (W xfc x48 x91 x00 x21 x2c x20 x00)) E))
(T (W x03 x03 x03 x01 x01 x01 x01 x01)
(T (W x00 x00 x5c x00 xda x01 x00 x00)
(L (W x02 x90 x00 x00 x00 x00 x00 x00)) E)
(T (W x00 x00 x7f x00 x00 x00 x00 x00)
(L (W x00 x00 x00 x00 x00 x00 x00 x00)) E)))))
(T (W x0e x00 x10 x00 x13 x00 x19 x00)
(T (W x02 x04 x00 x00 x00 x00 x00 x00)
(T (W x0b x00 x00 x00 x01 x00 x20 x00)
(T (W x00 x00 x00 x00 x00 x00 x5f x00)
(T (W x00 x00 x00 x00 x00 x00 x00 x00)
(L (W x19 x23 x28 x50 x14 x1e x06 x0a))
(L (W x13 xc4 x00 x10 x60 x04 x20 x00)))
(T (W x01 x01 x00 x00 x00 x00 x00 x00)
(L (W x00 x00 x00 x00 x00 x00 x00 x00)) E))
(T (W x01 x00 x01 x00 x01 x00 x01 x00)
(T (W x03 x00 x00 x01 x01 x01 x01 x01)
(L (W x00 x00 x00 x14 x32 x00 x06 x08)) E)
(T (W x00 x00 x00 x00 x00 x00 x00 x00)
(L (W x00 x00 x00 x00 x00 x00 x00 x00)) E)))
(T (W x00 x00 x00 x00 x00 x00 x00 x00)
(T (W x2d x3c x28 x2d x46 x32 x09 x09)
(T (W x00 x00 x00 x00 x00 x00 x00 x00)
(L (W x0e x00 x10 x00 x13 x00 x19 x00))
(L (W x00 x00 x00 x00 x00 x00 x00 x00)))
(T (W x90 x00 x21 x00 x24 x00 x20 x02)
(L (W x00 x00 x00 x01 x01 x01 x01 x01)) E))
(T (W x00 x00 x1f x1e x32 x01 x09 x09)
(T (W x00 x98 x02 x00 x06 x00 x00 x00)
(L (W x3c x00 x55 x14 x00 x00 x00 x00)) E)
(T (W x00 x00 x00 x00 x00 x00 x00 x00)
(L (W x01 x01 x00 x00 x00 x00 x00 x00)) E))))
(T (W x00 x00 x7f x14 x32 x03 x0b x0b)
(T (W x3c x00 x5f x37 x00 x00 x00 x00)
(T (W x00 x00 x00 x01 x01 x01 x01 x01)
(T (W x00 x00 x00 x00 x00 x00 x00 x00)
(L (W x00 x00 x00 x00 x00 x00 x00 x00))
(L (W x00 x00 x00 x00 x00 x00 x00 x00)))
(T (W x00 x00 x7f x00 x00 x00 x00 x00)
(L (W x00 x00 x00 x00 x00 x00 x00 x00)) E))
(T (W x05 x05 x00 x00 x00 x00 x00 x00)
(T (W x00 x00 x00 x00 x00 x00 x00 x00)
(L (W x01 x40 x00 x00 x20 x0c x00 x00)) E)
(T (W x01 x40 xb6 x00 xfa x00 x8c x0a)
(L (W x01 x00 x01 x00 x01 x00 x01 x00)) E)))
(T (W x01 x45 x90 x00 x78 x00 x7c x01)
(T (W x00 x10 x00 x80 x00 x00 x00 x00)
(T (W x00 x00 x00 x00 x00 x00 x6f x00)
(L (W x04 x04 x00 x00 x00 x00 x00 x00)) E)
(T (W x00 x00 x00 x00 x00 x00 x00 x00)
(L (W x4f x69 x46 x65 x91 x50 x0c x02)) E))
(T (W x01 xc4 x08 x40 x20 x00 x00 x00)
(T (W x0e x00 x10 x00 x13 x00 x19 x00)
(L (W x00 x00 x00 x00 x00 x00 x00 x00)) E)
(T (W x02 x02 x04 x01 x01 x01 x01 x02)
(L (W x00 x00 x7f x14 x32 x00 x0b x0b)) E)))))))))
(T (W x3c x00 x50 x32 x00 x00 x00 x00)
(T (W x00 x00 x1f x14 x32 x03 x01 x0e)
(T (W x2c x30 x41 x2b x32 x40 x0a x0a)
(T (W x03 x04 x00 x00 x00 x00 x00 x00)
(T (W x00 x00 x00 x00 x00 x00 x00 x00)
(T (W x00 x00 x00 x01 x01 x01 x01 x01)
(T (W xc2 x34 x40 x00 x00 x00 x00 x00)
(T (W x00 x00 x00 x00 x00 x00 x00 x00)
(T (W x0e x00 x10 x00 x13 x00 x19 x00)
(L (W x00 x00 x9d x00 xbc x01 x00 x00))
(L (W x40 x30 x00 x10 x00 x00 x00 x00)))
(T (W x03 x02 x02 x01 x01 x01 x01 x01)
(L (W x00 x00 x7f x14 x32 x00 x01 x01)) E))
(T (W x00 x00 x00 x00 x00 x00 x18 x01)
(T (W x37 x00 x55 x2d x00 x00 x00 x00)
(L (W x6e x50 x78 x1e x50 x5a x05 x09)) E)
(T (W x01 x01 x00 x00 x00 x00 x00 x00)
(L (W x03 x47 x5e x01 x68 x01 xb2 x0c)) E)))
(T (W x04 x05 x00 x00 x00 x00 x00 x00)
(T (W x00 x00 xb0 x00 xb3 x01 x00 x00)
(T (W x00 x00 x7f x14 x32 x00 x06 x07)
(L (W x00 x00 xca x02 xd5 x02 x15 x03))
(L (W x01 x01 x00 x00 x00 x00 x00 x00)))
(T (W xc0 x10 x00 x08 x00 x00 x00 x00)
(L (W x00 x00 x00 x00 x00 x00 x00 x00)) E))
(T (W x00 x00 x00 x00 x00 x00 x00 x00)
(T (W x00 x00 x00 x00 x00 x00 x00 x00)
(L (W x0e x00 x10 x00 x13 x00 x19 x00)) E)
(T (W x00 x44 x02 x04 x68 x1c x00 x00)
(L (W x00 x00 x00 x01 x01 x01 x01 x01)) E))))
(T (W x00 x00 x00 x00 x00 x00 x00 x00)
(T (W x0e x00 x10 x00 x13 x00 x19 x00)
(T (W x00 x00 x00 x00 x00 x00 x00 x00)
(T (W x01 x01 x00 x00 x00 x00 x00 x00)
(L (W x01 x45 x40 x00 x32 x00 xbc x02))
(L (W x0e x00 x10 x00 x13 x00 x19 x00)))
(T (W x33 x41 x41 x3b x50 x4b x0e x0e)
(L (W x00 x00 x00 x00 x00 x00 x00 x00)) E))
(T (W x03 x03 x02 x01 x01 x01 x01 x01)
(T (W x00 x00 x00 x00 x00 x00 x00 x00)
(L (W x02 x92 x20 x00 x04 x00 x00 x00)) E)
(T (W x00 x00 x7f x00 x00 x00 x00 x00)
(L (W x00 x00 x00 x00 x00 x00 x00 x00)) E)))
(T (W x00 x00 x7f x0f x32 x00 x04 x04)
(T (W x01 x40 x09 x01 xbe x00 x08 x02)
(T (W x00 x80 x00 x40 x08 x1c x00 x00)
(L (W x03 x02 x02 x01 x01 x01 x01 x01))
(L (W x00 x00 x1f x78 x32 x05 x0f x0f)))
(T (W x0e x00 x10 x00 x13 x00 x19 x00)
(L (W x00 x00 x00 x00 x00 x00 x00 x00)) E))
(T (W x01 x10 x02 x00 x0a x00 x00 x00)
(T (W x00 x00 x00 x00 x00 x00 x17 x02)
(L (W x01 x01 x00 x00 x00 x00 x00 x00)) E)
(T (W x3c x00 x50 x28 x00 x00 x00 x00)
(L (W x00 x00 x00 x00 x00 x00 x00 x00)) E)))))
(T (W x00 x00 xbf x0a x8c x04 x06 x06)
(T (W x11 x0c xa0 x40 x00 x04 x40 x04)
(T (W x00 x00 x74 x00 x9b x00 x00 x00)
(T (W x5f x4b x50 x1e x64 x6e x0a x0d)
(T (W x01 x42 x2c x01 x1e x00 x0b x00)
(L (W x0e x00 x10 x00 x13 x00 x19 x00))
(L (W x00 x00 x00 x00 x00 x00 x00 x00)))
(T (W x6a x04 x02 x04 x11 x20 x02 x80)
(L (W x00 x00 x00 x01 x01 x01 x01 x01)) E))
(T (W x00 x00 xff x0f x32 x01 x0a x0a)
(T (W x09 x30 x80 x00 x00 x00 x00 x00)
(L (W x3c x00 x50 x28 x00 x00 x00 x00)) E)
(T (W x00 x00 x00 x00 x00 x00 x00 x00)
(L (W x01 x01 x00 x00 x00 x00 x00 x00)) E)))
(T (W x00 x00 x00 x00 x00 x00 x00 x00)
(T (W x0a x00 x0a x00 x13 x00 x0a x00)
(T (W x00 x00 x00 x01 x01 x01 x01 x01)
(L (W x00 x00 xff x78 x00 x05 x0f x0f))
(L (W x00 x00 x00 x00 x00 x00 x64 x03)))
(T (W x00 x00 x68 x00 x0a x02 x00 x00)
(L (W x02 x30 x42 x00 x0a x00 x00 x00)) E))
(T (W x3c x00 x55 x32 x00 x00 x00 x00)
(T (W x04 x04 x00 x00 x00 x00 x00 x00)
(L (W x01 x44 x22 x01 xc8 x00 xbd x01)) E)
(T (W x41 x5a x7a x54 x3a x4b x07 x0b)
(L (W x00 x00 x00 x00 x00 x00 x00 x00)) E))))
(T (W x32 x00 x50 x32 x00 x00 x00 x00)
(T (W x01 x40 x28 x00 x5a x00 x64 x00)
(T (W x00 x10 x02 x00 x04 x00 x00 x00)
(T (W x00 x00 x00 x00 x00 x00 x00 x00)
(L (W x04 x05 x00 x00 x00 x00 x00 x00))
(L (W x00 x00 x00 x00 x00 x00 x00 x00)))
(T (W x00 x00 x00 x00 x00 x00 x00 x00)
(L (W x26 x1e x29 x3c x1e x29 x10 x00)) E))
(T (W x0a x00 x40 x0a x82 x21 x00 x10)
(T (W x01 x00 x01 x00 x01 x00 x01 x00)
(L (W x00 x00 xe3 x01 xc4 x00 x00 x00)) E)
(T (W x03 x02 x02 x01 x01 x01 x01 x01)
(L (W x00 x00 xff x00 x00 x00 x00 x00)) E)))
(T (W x03 x02 x02 x01 x01 x01 x01 x02)
(T (W x01 x01 x00 x00 x00 x00 x00 x00)
(T (W x00 x00 x00 x00 x00 x00 x00 x00)
(L (W x20 x00 x00 x00 x10 x00 x02 x04)) E)
(T (W x02 x43 x22 x01 x96 x00 x76 x02)
(L (W x0e x00 x10 x00 x13 x00 x19 x00)) E))
(T (W x00 x00 x2b x00 x0c x02 x00 x00)
(T (W x00 x00 xfe x14 x32 x00 x07 x07)
(L (W x00 x00 x00 x00 x00 x00 x00 x00)) E)
(T (W x00 x00 x00 x00 x00 x00 x00 x00)
(L (W x00 x00 x00 x00 x00 x00 x00 x00)) E))))))
(T (W x00 x00 x00 x00 x00 x00 x00 x00)
(T (W x02 x14 x00 x00 x04 x00 x00 x00)
(T (W x0e x00 x10 x00 x13 x00 x19 x00)
(T (W x00 x00 xff x00 x00 x00 x00 x00)
(T (W x00 x00 x00 x00 x00 x00 x00 x00)
(T (W x80 x40 x00 x00 x41 x94 x00 x00)
(L (W x04 x04 x04 x01 x01 x01 x01 x01))
(L (W x00 x00 xff x78 x00 x05 x0f x0f)))
(T (W x0e x00 x10 x00 x13 x00 x19 x00)
(L (W x00 x00 x00 x00 x00 x00 x00 x00)) E))
(T (W x00 x00 x00 x00 x00 x00 x00 x00)
(T (W x00 x00 x00 x00 x00 x00 x00 x00)
(L (W x03 x03 x00 x00 x00 x00 x00 x00)) E)
(T (W x00 x00 x00 x00 x00 x00 x00 x00)
(L (W x47 x78 x5f x63 x78 x5f x06 x08)) E)))
(T (W x00 x00 x00 x00 x00 x00 x00 x00)
(T (W x03 x03 x03 x01 x01 x01 x02 x02)
(T (W x00 x00 x6e x01 x5f x00 x00 x00)
(L (W x20 x10 x00 xc0 x01 x00 x00 x00))
(L (W x3c x00 x55 x32 x00 x00 x00 x00)))
(T (W x00 x00 x7f x28 x23 x05 x01 x0e)
(L (W x00 x00 x00 x00 x00 x00 xa6 x01)) E))
(T (W x01 x01 x00 x00 x00 x00 x00 x00)
(T (W x32 x37 x32 x2b x24 x1e x00 x02)
(L (W x80 x00 x21 x00 x20 x04 x20 x00)) E)
(T (W x01 x46 x9e x00 x50 x00 xaf x00)
(L (W x01 x00 x01 x00 x01 x00 x01 x00)) E))))
(T (W x01 x01 x00 x00 x00 x00 x00 x00)
(T (W x00 x00 x00 x30 x00 x00 x00 x00)
(T (W x00 x00 x00 x00 x00 x00 x00 x00)
(T (W x00 x00 x00 x00 x00 x00 x00 x00)
(L (W x00 x00 x00 x00 x00 x00 x00 x00))
(L (W x13 xc4 x00 x10 x60 x04 x20 x00)))
(T (W x03 x03 x00 x00 x00 x00 x00 x00)
(L (W x00 x00 x00 x00 x00 x00 x00 x00)) E))
(T (W x0e x00 x10 x00 x13 x00 x19 x00)
(T (W x00 x00 x00 x01 x01 x01 x01 x01)
(L (W x00 x00 xfe x14 x32 x00 x06 x0b)) E)
(T (W x00 x00 x0e x00 x90 x01 x00 x00)
(L (W x00 x00 x00 x00 x00 x00 x00 x00)) E)))
(T (W x00 x00 x3a x01 x93 x01 x00 x00)
(T (W x26 x1e x29 x3c x1e x29 x00 x00)
(T (W x01 x45 x42 x00 x50 x00 xef x01)
(L (W x0e x00 x10 x00 x13 x00 x19 x00)) E)
(T (W xb9 x04 x08 x44 x79 x08 x20 x80)
(L (W x00 x00 x00 x01 x01 x01 x01 x01)) E))
(T (W x00 x00 x7f x19 x23 x04 x0b x0b)
(T (W x00 x00 x00 x00 x00 x00 x00 x00)
(L (W x3c x00 x55 x2d x00 x00 x00 x00)) E)
(T (W x00 x00 x00 x00 x00 x00 xd8 x02)
(L (W x01 x01 x00 x00 x00 x00 x00 x00)) E)))))
(T (W x00 x00 x30 x00 x3a x01 x00 x00)
(T (W x01 x45 xfa x00 x96 x00 xe0 x01)
(T (W x03 x03 x03 x01 x01 x01 x01 x01)
(T (W x01 x01 x00 x00 x00 x00 x00 x00)
(T (W x00 x00 x00 x00 x00 x00 x00 x00)
(L (W x20 x00 x00 x08 xa2 x21 x00 x14))
(L (W x03 x03 x03 x01 x01 x01 x01 x01)))
(T (W x01 x43 x3a x00 x1e x00 x0a x00)
(L (W x01 x00 x01 x00 x01 x00 x01 x00)) E))
(T (W x00 x00 x00 x00 x00 x00 x00 x00)
(T (W x00 x00 xff x78 x00 x05 x0f x0f)
(L (W x00 x00 x00 x00 x00 x00 x58 x03)) E)
(T (W x00 x00 x00 x00 x00 x00 x00 x00)
(L (W x00 x00 x00 x00 x00 x00 x00 x00)) E)))
(T (W x00 x00 x00 x00 x00 x00 x00 x00)
(T (W x4e x01 x06 x09 xba x30 x08 x10)
(T (W x0e x00 x10 x00 x13 x00 x19 x00)
(L (W x00 x00 x09 x00 xe6 x02 x00 x00))
(L (W x01 x10 x00 x00 x00 x00 x00 x00)))
(T (W x03 x02 x02 x01 x01 x01 x01 x01)
(L (W x00 x00 xff x00 x00 x00 x00 x00)) E))
(T (W x00 x00 x00 x00 x00 x00 x57 x01)
(T (W x3c x00 x55 x32 x00 x00 x00 x00)
(L (W x23 x37 x28 x5a x32 x32 x0c x0c)) E)
(T (W x02 x02 x00 x00 x00 x00 x00 x00)
(L (W x00 x00 x00 x00 x00 x00 x00 x00)) E))))
(T (W x00 x00 x00 x00 x00 x00 x00 x00)
(T (W x41 x41 x3c x82 x6e x5f x0c x0c)
(T (W x00 x00 x7f x00 x00 x00 x00 x00)
(T (W x00 x00 x00 x00 x00 x00 x00 x00)
(L (W x00 x00 x00 x00 x00 x00 x00 x00))
(L (W x00 x00 x00 x00 x00 x00 x00 x00)))
(T (W x00 x00 x00 x00 x00 x00 x57 x02)
(L (W x01 x01 x00 x00 x00 x00 x00 x00)) E))
(T (W x01 x41 xaf x00 xaa x05 x8c x0f)
(T (W x0b x04 x00 x00 x00 x00 x60 x04)
(L (W x03 x02 x02 x01 x01 x01 x01 x01)) E)
(T (W x0e x00 x10 x00 x13 x00 x19 x00)
(L (W x00 x00 x00 x00 x00 x00 x00 x00)) E)))
(T (W x01 x00 x01 x00 x01 x00 x01 x00)
(T (W x3c x00 x50 x28 x00 x00 x00 x00)
(T (W x04 x05 x00 x00 x00 x00 x00 x00)
(L (W x01 x43 x39 x00 x1e x00 x55 x00)) E)
(T (W x5b x48 x5a x6c x81 x5a x0a x01)
(L (W x00 x00 x00 x00 x00 x00 x00 x00)) E))
(T (W x00 x00 x00 x01 x01 x01 x01 x01)
(T (W x00 x00 x59 x00 xa9 x02 x00 x00)
(L (W x00 x00 x00 x00 x00 x00 x00 x00)) E)
(T (W x00 x00 x7f x00 x00 x00 x00 x00)
(L (W x00 x00 x00 x00 x00 x00 x00 x00)) E)))))))
(T (W x00 x00 x38 x00 xf8 x01 x00 x00)
(T (W x00 x00 x00 x01 x01 x01 x01 x01)
(T (W x00 x00 x10 x12 x08 x10 x20 x80)
(T (W x32 x00 x50 x23 x00 x00 x00 x00)
(T (W x00 x00 x00 x00 x00 x00 x00 x00)
(T (W x00 x00 x00 x00 x00 x00 x00 x00)
(T (W x00 x00 x00 x00 x00 x00 x76 x01)
(L (W x04 x04 x00 x00 x00 x00 x00 x00))
(L (W x04 x45 xad x00 xaa x00 x86 x01)))
(T (W x3c x00 x55 x28 x00 x00 x00 x00)
(L (W x5a x55 x55 x5f x7d x64 x0d x02)) E))
(T (W x00 x00 x00 x00 x00 x00 x00 x00)
(T (W x01 x00 x01 x00 x01 x00 x01 x00)
(L (W x00 x00 x49 x00 x14 x03 x00 x00)) E)
(T (W x00 x00 x00 x01 x01 x01 x01 x01)
(L (W x00 x00 xff x00 x00 x00 x00 x00)) E)))
(T (W x05 x04 x04 x01 x01 x01 x01 x01)
(T (W x03 x04 x00 x00 x00 x00 x00 x00)
(T (W x6f x53 x44 x27 x5c x52 x0a x04)
(L (W x20 x00 x20 x22 x01 x00 x82 x80))
(L (W x03 x02 x02 x01 x01 x01 x01 x02)))
(T (W x01 x44 x04 x01 x64 x00 x57 x01)
(L (W x01 x00 x01 x00 x01 x00 x01 x00)) E))
(T (W x00 x00 xa1 x02 x4a x02 x00 x00)
(T (W x00 x00 x1f x00 x00 x00 x00 x00)
(L (W x00 x00 x00 x00 x00 x00 x78 x03)) E)
(T (W x00 x90 x05 x24 x00 x00 x00 x00)
(L (W x00 x00 x00 x00 x00 x00 x00 x00)) E))))
(T (W x00 x00 x97 x00 xe2 x01 x00 x00)
(T (W x00 x00 x00 x00 x00 x00 x78 x00)
(T (W x0e x00 x10 x00 x13 x00 x19 x00)
(T (W x00 x00 x00 x01 x01 x01 x01 x01)
(L (W x00 x00 xff x78 x00 x05 x0f x0f))
(L (W x00 x00 x00 x00 x00 x00 x04 x03)))
(T (W x00 x00 x00 x00 x00 x00 x00 x00)
(L (W x00 x00 x00 x00 x00 x00 x00 x00)) E))
(T (W x3c x00 x5f x37 x00 x00 x00 x00)
(T (W x01 x01 x00 x00 x00 x00 x00 x00)
(L (W x01 x48 xb1 x00 x50 x00 x92 x04)) E)
(T (W x2d x50 x64 x1c x23 x25 x08 x07)
(L (W x00 x00 x00 x00 x00 x00 x00 x00)) E)))
(T (W x00 x00 x00 x00 x00 x00 x00 x00)
(T (W x00 x00 x1f x14 x32 x03 x01 x02)
(T (W x00 x90 x02 x00 x04 x00 x00 x00)
(L (W x3c x00 x55 x32 x00 x00 x00 x00))
(L (W x64 x55 x50 x96 xa5 x64 x0d x07)))
(T (W x00 x00 x00 x00 x00 x00 x78 x02)
(L (W x01 x01 x00 x00 x00 x00 x00 x00)) E))
(T (W x00 x00 x00 x00 x00 x00 x00 x00)
(T (W xa0 x00 x21 x02 x21 x28 x20 x80)
(L (W x04 x04 x04 x01 x01 x01 x01 x01)) E)
(T (W x0e x00 x10 x00 x13 x00 x19 x00)
(L (W x00 x00 x00 x00 x00 x00 x00 x00)) E)))))
(T (W x73 x2d x14 x14 x2d x19 x00 x11)
(T (W x00 x18 x02 x00 x00 x00 x00 x00)
(T (W x05 x06 x00 x00 x00 x00 x00 x00)
(T (W x00 x00 x00 x00 x00 x00 x00 x00)
(T (W x00 x00 x1f x00 x00 x00 x00 x00)
(L (W x00 x00 x00 x00 x00 x00 xf7 x02))
(L (W x03 x04 x00 x00 x00 x00 x00 x00)))
(T (W x40 x11 x00 x00 x00 x00 x00 x00)
(L (W x00 x00 x00 x00 x00 x00 x00 x00)) E))
(T (W x68 x5b x3f x44 x5b x49 x00 x00)
(T (W x01 x49 x22 x01 x1e x00 x03 x00)
(L (W x0e x00 x10 x00 x13 x00 x19 x00)) E)
(T (W x00 x00 x00 x00 x00 x00 x00 x00)
(L (W x00 x00 x00 x01 x01 x01 x01 x01)) E)))
(T (W x00 x00 x00 x00 x00 x00 x00 x00)
(T (W x00 x00 x00 x00 x00 x00 xf6 x00)
(T (W x3c x00 x55 x28 x00 x00 x00 x00)
(L (W x58 x70 x4b x8f x66 x50 x0c x0c))
(L (W x00 x00 x02 x00 x02 x00 x04 x14)))
(T (W x03 x04 x00 x00 x00 x00 x00 x00)
(L (W x00 x00 x00 x00 x00 x00 x00 x00)) E))
(T (W x0e x00 x10 x00 x13 x00 x19 x00)
(T (W x04 x04 x04 x01 x01 x01 x01 x01)
(L (W x00 x00 xff x00 x00 x00 x00 x00)) E)
(T (W x00 x00 x22 x00 xa7 x01 x00 x00)
(L (W x00 x00 x00 x00 x00 x00 x00 x00)) E))))
(T (W x01 x00 x01 x00 x01 x00 x01 x00)
(T (W x00 x00 xff x14 x32 x00 x0d x0d)
(T (W x01 x40 x74 x00 x5a x00 xa0 x00)
(T (W x00 x00 x00 x00 x00 x00 x00 x00)
(L (W x03 x03 x03 x01 x01 x01 x01 x01))
(L (W x00 x00 xff x00 x00 x00 x00 x00)))
(T (W x0e x00 x10 x00 x13 x00 x19 x00)
(L (W x00 x00 x00 x00 x00 x00 x00 x00)) E))
(T (W x08 x90 x20 x00 x00 x00 x00 x00)
(T (W x00 x00 x00 x00 x00 x00 x00 x00)
(L (W x03 x05 x00 x00 x00 x00 x00 x00)) E)
(T (W x37 x00 x55 x37 x00 x00 x00 x00)
(L (W x00 x00 x00 x00 x00 x00 x00 x00)) E)))
(T (W x3c x00 x50 x32 x00 x00 x00 x00)
(T (W x04 x03 x03 x01 x01 x01 x01 x01)
(T (W x00 x00 x00 x00 x00 x00 x00 x00)
(L (W x00 x10 x00 x01 x00 x00 x00 x00)) E)
(T (W x00 x00 xff x78 x00 x05 x0f x0f)
(L (W x00 x00 x00 x00 x00 x00 x00 x00)) E))
(T (W x05 x06 x00 x00 x00 x00 x00 x00)
(T (W x32 x48 x23 x41 x23 x23 x04 x10)
(L (W x04 x00 x02 x00 x20 x00 x4c x54)) E)
(T (W x01 x43 x8c x00 x32 x00 x69 x00)
(L (W x01 x00 x01 x00 x01 x00 x01 x00)) E))))))
(T (W x01 x00 x01 x00 x01 x00 x01 x00)
(T (W x01 x46 x80 x00 x5a x00 xc3 x00)
(T (W x00 x00 x00 x00 x00 x00 x00 x00)
(T (W x5f x5f x55 x37 x7d x4b x0b x0d)
(T (W x00 x00 x1f x23 x32 x00 x05 x05)
(T (W x01 x10 x02 x00 x00 x00 x00 x00)
(L (W x37 x00 x55 x2d x00 x00 x00 x00))
(L (W x00 x00 x00 x00 x00 x00 x00 x00)))
(T (W x00 x00 x00 x00 x00 x00 x38 x02)
(L (W x01 x01 x00 x00 x00 x00 x00 x00)) E))
(T (W x00 x00 x00 x00 x00 x00 x00 x00)
(T (W x66 x05 x27 x13 x23 x28 x2c x90)
(L (W x03 x06 x04 x01 x01 x01 x02 x02)) E)
(T (W x0e x00 x10 x00 x13 x00 x19 x00)
(L (W x00 x00 x00 x00 x00 x00 x00 x00)) E)))
(T (W x0e x00 x10 x00 x13 x00 x19 x00)
(T (W x3c x00 x64 x46 x00 x00 x00 x00)
(T (W x03 x03 x00 x00 x00 x00 x00 x00)
(L (W x02 x47 x2c x01 x64 x00 x25 x03))
(L (W x0e x00 x10 x00 x13 x00 x19 x00)))
(T (W x50 x32 x32 x69 x5f x87 x0e x0e)
(L (W x4a x04 x00 x04 x10 x00 x0f x00)) E))
(T (W x00 x00 x00 x01 x01 x01 x01 x01)
(T (W x00 x00 x6e x01 x93 x01 x00 x00)
(L (W x00 x50 x05 x24 x00 x00 x00 x00)) E)
(T (W x00 x00 x7f x14 x32 x00 x07 x0b)
(L (W x00 x00 x00 x00 x00 x00 x00 x00)) E))))
(T (W x05 x05 x05 x01 x01 x01 x01 x01)
(T (W x00 x18 x00 x00 x00 x00 x00 x00)
(T (W x00 x00 x00 x00 x00 x00 x00 x00)
(T (W x0e x00 x10 x00 x13 x00 x19 x00)
(L (W x00 x00 xb3 x01 xcc x02 x00 x00))
(L (W x1e x10 x20 x80 x00 x00 x00 x00)))
(T (W x05 x05 x05 x01 x01 x01 x01 x01)
(L (W x00 x00 xff x00 x00 x00 x00 x00)) E))
(T (W x00 x00 x00 x00 x00 x00 x00 x00)
(T (W x00 x00 x00 x00 x00 x00 x00 x00)
(L (W x30 x65 x5f x0f x5b x55 x0c x0c)) E)
(T (W x05 x05 x00 x00 x00 x00 x00 x00)
(L (W x00 x00 x00 x00 x00 x00 x00 x00)) E)))
(T (W x02 x03 x00 x00 x00 x00 x00 x00)
(T (W x00 x00 x00 x00 x00 x00 x00 x00)
(T (W x00 x00 x7f x14 x32 x05 x03 x09)
(L (W x00 x00 x00 x00 x00 x00 x38 x03)) E)
(T (W x00 x90 x01 xc0 x01 x00 x00 x00)
(L (W x3c x00 x55 x32 x00 x00 x00 x00)) E))
(T (W x41 x82 x3c x4b x4b x3c x10 x10)
(T (W x01 x40 xf3 x00 xfa x00 xd5 x07)
(L (W x0e x00 x10 x00 x13 x00 x19 x00)) E)
(T (W x00 x00 x00 x00 x00 x00 x00 x00)
(L (W x00 x00 x00 x01 x01 x01 x01 x01)) E)))))
(T (W x03 x04 x00 x00 x00 x00 x00 x00)
(T (W x00 x00 x3f x14 x32 x03 x08 x08)
(T (W x3c x00 x5f x37 x00 x00 x00 x00)
(T (W x00 x00 x00 x01 x01 x01 x01 x01)
(T (W x00 x00 x00 x00 x00 x00 x00 x00)
(L (W x00 xd8 x06 x00 x02 x00 x00 x00))
(L (W x3c x00 x50 x32 x00 x00 x00 x00)))
(T (W x00 x00 x7f x00 x00 x00 x00 x00)
(L (W x00 x00 x00 x00 x00 x00 x00 x00)) E))
(T (W x01 x01 x00 x00 x00 x00 x00 x00)
(T (W x96 x64 x78 x5a x64 x78 x07 x0f)
(L (W x68 x00 x00 x04 x10 x00 x02 x14)) E)
(T (W x00 x00 x00 x00 x00 x00 x00 x00)
(L (W x01 x00 x01 x00 x01 x00 x01 x00)) E)))
(T (W x00 x00 x00 x00 x00 x00 x00 x00)
(T (W x00 x5a x02 x41 x0a x00 x00 x00)
(T (W x00 x00 x00 x00 x00 x00 xb8 x01)
(L (W x05 x05 x00 x00 x00 x00 x00 x00))
(L (W x02 x41 x68 x01 x18 x01 xde x0d)))
(T (W x37 x00 x55 x2d x00 x00 x00 x00)
(L (W x00 x00 x00 x00 x00 x00 x00 x00)) E))
(T (W x00 x40 x00 x10 x08 x10 x00 x00)
(T (W x0e x00 x10 x00 x13 x00 x19 x00)
(L (W x00 x00 x68 x00 x58 x01 x00 x00)) E)
(T (W x00 x00 x00 x01 x01 x01 x01 x01)
(L (W x00 x00 xff x00 x00 x00 x00 x00)) E))))
(T (W x00 x40 x40 x02 x00 x00 x00 x00)
(T (W x00 x00 xa0 x00 x54 x00 x00 x00)
(T (W x00 x00 x00 x00 x00 x00 x00 x00)
(T (W x00 x00 x00 x00 x00 x00 x00 x00)
(L (W x0e x00 x10 x00 x13 x00 x19 x00))
(L (W x00 x00 x00 x00 x00 x00 x00 x00)))
(T (W x00 x00 x00 x00 x00 x00 x00 x00)
(L (W x00 x00 x00 x01 x01 x01 x01 x01)) E))
(T (W x00 x00 x7f x14 x32 x00 x05 x05)
(T (W x22 x10 x20 x00 x00 x00 x00 x00)
(L (W x3c x00 x50 x32 x00 x00 x00 x00)) E)
(T (W x00 x00 x00 x00 x00 x00 xb8 x02)
(L (W x01 x01 x00 x00 x00 x00 x00 x00)) E)))
(T (W x00 x00 x00 x00 x00 x00 xb7 x00)
(T (W x01 x00 x01 x00 x01 x00 x01 x00)
(T (W x05 x05 x05 x01 x01 x01 x01 x01)
(L (W x00 x00 x7f x14 x32 x04 x05 x05)) E)
(T (W x00 x00 x00 x00 x00 x00 x00 x00)
(L (W x00 x50 x00 x80 x02 x00 x00 x00)) E))
(T (W x00 x00 x00 x00 x00 x00 x00 x00)
(T (W x05 x05 x00 x00 x00 x00 x00 x00)
(L (W x00 x00 x00 x00 x00 x00 x00 x00)) E)
(T (W x3c x37 x3c x7c x5f x46 x06 x11)
(L (W x02 x40 x30 x00 x40 x04 x00 x00)) E))))))))
(T (W x0e x00 x10 x00 x13 x00 x19 x00)
(T (W x00 x00 x00 x00 x00 x00 x07 x00)
(T (W x00 x00 x00 x00 x00 x00 x00 x00)
(T (W x00 x00 x68 x00 x58 x01 x00 x00)
(T (W x00 x00 x00 x00 x00 x00 x00 x00)
(T (W x03 x03 x02 x01 x01 x01 x01 x01)
(T (W x01 x01 x00 x00 x00 x00 x00 x00)
(T (W x3c x4b x64 x32 x37 x50 x08 x0d)
(L (W x00 x60 x40 x02 x00 x42 x10 x08))
(L (W x08 x08 x06 x01 x01 x02 x02 x02)))
(T (W x01 x44 xac x00 x8c x00 x8c x00)
(L (W x0e x00 x10 x00 x13 x00 x19 x00)) E))
(T (W x00 x00 x68 x00 x5e x00 x00 x00)
(T (W x00 x00 x1f x0a x32 x04 x04 x06)
(L (W x00 x00 x00 x00 x00 x00 x48 x03)) E)
(T (W x00 x00 x00 x00 x00 x00 x00 x00)
(L (W x3c x00 x64 x3c x00 x00 x00 x00)) E)))
(T (W x1c x10 x02 x00 x02 x00 x00 x00)
(T (W x00 x00 x00 x00 x00 x00 x00 x00)
(T (W x0e x00 x10 x00 x13 x00 x19 x00)
(L (W x00 x00 x00 x00 x00 x00 x00 x00))
(L (W x62 x10 x02 x00 x0b x00 x00 x00)))
(T (W x04 x04 x04 x01 x01 x01 x01 x01)
(L (W x00 x00 xff x00 x00 x00 x00 x00)) E))
(T (W x00 x00 x00 x00 x00 x00 x48 x01)
(T (W x00 x00 x00 x00 x00 x00 x00 x00)
(L (W x58 x78 x4b x8e x64 x4b x0f x07)) E)
(T (W x05 x05 x00 x00 x00 x00 x00 x00)
(L (W x00 x00 x00 x00 x00 x00 x00 x00)) E))))
(T (W x00 x00 x00 x00 x00 x00 x48 x00)
(T (W x50 x5c x41 x44 x41 x50 x0a x0a)
(T (W x00 x00 x7f x19 x32 x00 x03 x03)
(T (W x00 x00 x00 x00 x00 x00 x00 x00)
(L (W x3c x00 x5f x37 x00 x00 x00 x00))
(L (W x5f x5f x5f x5f x5f x5f x09 x09)))
(T (W x00 x00 x00 x00 x00 x00 x46 x02)
(L (W x01 x01 x00 x00 x00 x00 x00 x00)) E))
(T (W x01 x47 x97 x00 x5a x00 xb0 x04)
(T (W x00 x00 x00 x00 x00 x00 x00 x00)
(L (W x03 x03 x02 x01 x01 x01 x01 x01)) E)
(T (W x0e x00 x10 x00 x13 x00 x19 x00)
(L (W x00 x00 x00 x00 x00 x00 x00 x00)) E)))
(T (W x01 x00 x01 x00 x01 x00 x01 x00)
(T (W x37 x00 x55 x2d x00 x00 x00 x00)
(T (W x03 x04 x00 x00 x00 x00 x00 x00)
(L (W x01 x41 x93 x00 x46 x00 x73 x00))
(L (W x0a x00 x0a x00 x0a x00 x0a x00)))
(T (W x55 x61 x42 x41 x69 x42 x09 x09)
(L (W x00 x00 x00 x00 x00 x00 x00 x00)) E))
(T (W x00 x00 x00 x01 x01 x01 x01 x01)
(T (W x00 x00 x88 x01 x4a x01 x00 x00)
(L (W x00 x11 x85 x04 x00 x00 x00 x00)) E)
(T (W x00 x00 x1f x0f x32 x03 x04 x04)
(L (W x00 x00 x00 x00 x00 x00 x00 x00)) E)))))
(T (W x0e x00 x10 x00 x13 x00 x19 x00)
(T (W x03 x03 x00 x00 x00 x00 x00 x00)
(T (W x08 x00 x21 x01 x01 x08 x20 x80)
(T (W x00 x00 x00 x00 x00 x00 x00 x00)
(T (W x00 x00 x00 x00 x00 x00 x00 x00)
(L (W x46 x4b x32 x32 x2d x32 x00 x01))
(L (W x21 x44 x00 x00 x28 x1c x00 x04)))
(T (W x04 x05 x00 x00 x00 x00 x00 x00)
(L (W x00 x00 x00 x00 x00 x00 x00 x00)) E))
(T (W x0e x00 x10 x00 x13 x00 x19 x00)
(T (W x03 x03 x05 x01 x01 x01 x01 x02)
(L (W x00 x00 x7f x19 x32 x03 x02 x08)) E)
(T (W x00 x00 x00 x00 x00 x00 x00 x00)
(L (W x00 x00 x00 x00 x00 x00 x00 x00)) E)))
(T (W x00 x00 x00 x00 x00 x00 x00 x00)
(T (W x46 x54 x46 x33 x41 x46 x05 x04)
(T (W x00 x00 x00 x00 x00 x00 x00 x00)
(L (W x0a x00 x0a x00 x13 x00 x0a x00))
(L (W x00 x00 x97 x00 x5d x02 x00 x00)))
(T (W x20 x00 x23 x03 x01 x28 x28 x00)
(L (W x00 x00 x00 x01 x01 x01 x01 x01)) E))
(T (W x00 x00 x7f x14 x32 x00 x0c x0c)
(T (W x00 x10 x02 x00 x04 x00 x00 x00)
(L (W x00 x00 x00 x00 x00 x00 x00 x00)) E)
(T (W x00 x00 x00 x00 x00 x00 xc8 x02)
(L (W x01 x01 x00 x00 x00 x00 x00 x00)) E))))
(T (W x00 x00 x7f x00 x00 x00 x00 x00)
(T (W x3c x00 x50 x1e x00 x00 x00 x00)
(T (W x02 x02 x02 x01 x01 x01 x01 x01)
(T (W x00 x00 x00 x00 x00 x00 x00 x00)
(L (W x02 x10 x02 x40 x00 x00 x00 x00))
(L (W x00 x00 x00 x00 x00 x00 x00 x00)))
(T (W x00 x00 x7f x14 x32 x00 x03 x03)
(L (W x00 x00 x00 x00 x00 x00 x07 x01)) E))
(T (W x01 x01 x00 x00 x00 x00 x00 x00)
(T (W x00 x00 x00 x00 x00 x00 x00 x00)
(L (W x00 x40 x00 x00 x20 x04 x00 x00)) E)
(T (W x01 x45 xaf x00 x82 x00 xc0 x03)
(L (W x01 x00 x01 x00 x01 x00 x01 x00)) E)))
(T (W x01 x43 x40 x00 x14 x00 x14 x00)
(T (W x00 x10 x00 x00 x00 x00 x00 x00)
(T (W x00 x00 x00 x00 x00 x00 x00 x00)
(L (W x04 x04 x00 x00 x00 x00 x00 x00)) E)
(T (W x00 x00 x00 x00 x00 x00 x00 x00)
(L (W x00 x00 x00 x00 x00 x00 x00 x00)) E))
(T (W x00 x00 x00 x00 x00 x00 x00 x00)
(T (W x0e x00 x10 x00 x13 x00 x19 x00)
(L (W x00 x00 x00 x00 x00 x00 x00 x00)) E)
(T (W x00 x00 x00 x01 x01 x01 x01 x01)
(L (W x00 x00 xff x00 x00 x00 x00 x00)) E))))))
(T (W x00 x00 x7f x00 x00 x00 x00 x00)
(T (W x03 x03 x03 x01 x01 x01 x01 x01)
(T (W x50 x52 x4e x55 x5f x50 x0a x0a)
(T (W x01 x00 x01 x00 x01 x00 x01 x00)
(T (W x50 x00 x64 x3c x00 x00 x00 x00)
(T (W x02 x02 x00 x00 x00 x00 x00 x00)
(L (W x01 x49 x32 x00 x1e x00 x0f x00))
(L (W x0a x00 x0a x00 x13 x00 x0a x00)))
(T (W x4b x8c x41 x6e x70 x41 x05 x02)
(L (W x00 x00 x00 x00 x00 x00 x00 x00)) E))
(T (W x00 x00 x00 x01 x01 x01 x01 x01)
(T (W x00 x00 xf6 x00 xc4 x00 x00 x00)
(L (W x08 x10 x00 x00 x00 x00 x00 x00)) E)
(T (W x00 x00 x7f x0f x32 x00 x05 x05)
(L (W x00 x00 x00 x00 x00 x00 x89 x02)) E)))
(T (W x00 x00 x7f x28 x23 x05 x02 x0e)
(T (W x01 x49 xac x00 x78 x00 xf3 x02)
(T (W x0a x14 x00 x00 x00 x20 x20 x04)
(L (W x03 x00 x00 x01 x01 x01 x01 x01))
(L (W x00 x00 xff x14 x32 x00 x0a x0b)))
(T (W x0e x00 x10 x00 x13 x00 x19 x00)
(L (W x00 x00 xb3 x01 x3b x01 x00 x00)) E))
(T (W x80 x10 x02 x40 x08 x00 x00 x00)
(T (W x00 x00 x00 x00 x00 x00 x07 x02)
(L (W x02 x02 x00 x00 x00 x00 x00 x00)) E)
(T (W x3c x00 x5a x3c x00 x00 x00 x00)
(L (W x00 x00 x00 x00 x00 x00 x00 x00)) E))))
(T (W x00 x10 x00 x10 x01 x00 x00 x00)
(T (W x03 x04 x00 x00 x00 x00 x00 x00)
(T (W x00 x00 x00 x00 x00 x00 x00 x00)
(T (W x00 x00 x7f x14 x64 x03 x05 x05)
(L (W x00 x00 x00 x00 x00 x00 x08 x03))
(L (W x05 x05 x00 x00 x00 x00 x00 x00)))
(T (W x00 x14 x00 x00 x00 x00 x00 x00)
(L (W x00 x00 x00 x00 x00 x00 x00 x00)) E))
(T (W x00 x00 x00 x00 x00 x00 x00 x00)
(T (W x00 x00 x00 x00 x00 x00 x00 x00)
(L (W x0e x00 x10 x00 x13 x00 x19 x00)) E)
(T (W x00 x01 x12 x00 x52 x00 x08 x10)
(L (W x00 x00 x00 x01 x01 x01 x01 x01)) E)))
(T (W x00 x00 x00 x00 x00 x00 x51 x10)
(T (W x00 x00 x00 x00 x00 x00 x07 x01)
(T (W x3c x00 x64 x28 x00 x00 x00 x00)
(L (W x62 x57 x69 x43 x35 x55 x02 x08)) E)
(T (W x03 x04 x00 x00 x00 x00 x00 x00)
(L (W x02 x43 xa1 x00 x64 x00 xb4 x00)) E))
(T (W x01 x00 x01 x00 x01 x00 x01 x00)
(T (W x05 x05 x05 x01 x01 x01 x01 x01)
(L (W x00 x00 x7f x14 x32 x00 x05 x05)) E)
(T (W x00 x00 x2f x00 x3d x00 x00 x00)
(L (W x00 x00 x00 x00 x00 x00 x00 x00)) E)))))
(T (W x00 x00 x00 x08 x02 x20 x00 x10)
(T (W x32 x00 x46 x1e x00 x00 x00 x00)
(T (W x01 x49 x8b x01 x6e x00 x5a x01)
(T (W x00 xb0 x02 x80 x04 x00 x00 x00)
(T (W x00 x00 x00 x00 x00 x00 x00 x00)
(L (W x04 x05 x00 x00 x00 x00 x00 x00))
(L (W x12 x47 x1d x01 xe6 x00 xed x03)))
(T (W x3c x00 x50 x32 x00 x00 x00 x00)
(L (W x00 x00 x00 x00 x00 x00 x00 x00)) E))
(T (W x00 x00 x00 x00 x00 x00 x00 x00)
(T (W x0a x00 x0a x00 x13 x00 x0a x00)
(L (W x00 x00 x4d x02 xb5 x02 x00 x00)) E)
(T (W x00 x00 x00 x01 x01 x01 x01 x01)
(L (W x00 x00 xff x00 x00 x00 x00 x00)) E)))
(T (W x00 x00 x00 x01 x01 x01 x01 x01)
(T (W x03 x03 x00 x00 x00 x00 x00 x00)
(T (W x14 x19 x2d x3c x46 x5a x0d x11)
(L (W x28 x00 x00 x00 x02 x20 x20 x00))
(L (W x03 x03 x03 x01 x01 x01 x01 x01)))
(T (W x01 x40 xac x00 xa0 x00 xbc x02)
(L (W x01 x00 x01 x00 x01 x00 x01 x00)) E))
(T (W x00 x00 x85 x00 xca x00 x00 x00)
(T (W x00 x00 x3f x14 x46 x03 x08 x08)
(L (W x00 x00 x55 x00 xcf x02 xac x00)) E)
(T (W x00 x90 x02 x00 x0c x00 x00 x00)
(L (W x00 x00 x00 x00 x00 x00 x00 x00)) E))))
(T (W x00 x00 x00 x00 x00 x00 x00 x00)
(T (W x00 x00 x00 x00 x00 x00 x85 x00)
(T (W x01 x00 x01 x00 x01 x00 x01 x00)
(T (W x04 x04 x04 x01 x01 x01 x01 x01)
(L (W x00 x00 xff x0f x32 x05 x0f x0f))
(L (W x00 x00 x00 x00 x00 x00 x00 x00)))
(T (W x00 x00 xfc x01 x20 x02 x00 x00)
(L (W x00 x00 x00 x00 x00 x00 x00 x00)) E))
(T (W x00 x00 x00 x00 x00 x00 x00 x00)
(T (W x03 x04 x00 x00 x00 x00 x00 x00)
(L (W x01 x41 xb1 x00 xe6 x00 xdc x05)) E)
(T (W x3e x37 x34 x6d x6d x5e x0c x00)
(L (W x00 x00 x00 x00 x00 x00 x00 x00)) E)))
(T (W x46 x14 x32 x28 x14 x32 x0a x11)
(T (W x00 x00 x7f x00 x00 x00 x00 x00)
(T (W x00 x10 x05 x04 x00 x00 x00 x00)
(L (W x32 x00 x50 x2d x00 x00 x00 x00)) E)
(T (W x00 x00 x00 x00 x00 x00 x00 x00)
(L (W x01 x01 x00 x00 x00 x00 x00 x00)) E))
(T (W x01 x47 xaa x00 x64 x00 xea x00)
(T (W xfc x48 x91 x00 x21 x2c x20 x00)
(L (W x03 x03 x03 x01 x01 x01 x01 x01)) E)
(T (W x01 x00 x01 x00 x01 x00 x01 x00)
(L (W x00 x00 x00 x00 x00 x00 x00 x00)) E)))))))
(T (W x00 x40 x00 x00 x00 x00 x00 x00)
(T (W x00 x00 x00 x00 x00 x00 x00 x00)
(T (W x04 x05 x00 x00 x00 x00 x00 x00)
(T (W x00 x00 x7f x14 x32 x00 x05 x05)
(T (W x32 x00 x46 x23 x00 x00 x00 x00)
(T (W x00 x00 x00 x01 x01 x01 x01 x01)
(T (W x00 x00 x00 x00 x00 x00 x00 x00)
(L (W x00 x18 x02 x00 x04 x00 x00 x00))
(L (W x00 x00 x00 x00 x00 x00 x00 x00)))
(T (W x00 x00 x1f x1e x32 x00 x02 x09)
(L (W x00 x00 x00 x00 x00 x00 x91 x00)) E))
(T (W x01 x01 x00 x00 x00 x00 x00 x00)
(T (W x41 x3c x6e x41 x82 x5f x0e x0e)
(L (W x00 x00 x00 x00 x08 x00 x80 x00)) E)
(T (W x00 x00 x00 x00 x00 x00 x00 x00)
(L (W x0a x00 x0a x00 x0a x00 x0a x00)) E)))
(T (W x02 x42 x22 x01 xa0 x00 x0e x02)
(T (W xc1 x11 x80 x00 x00 x00 x00 x00)
(T (W x00 x00 x00 x00 x00 x00 x00 x00)
(L (W x02 x02 x00 x00 x00 x00 x00 x00))
(L (W x03 x41 xa6 x00 x50 x00 xb4 x00)))
(T (W x3c x00 x55 x32 x00 x00 x00 x00)
(L (W x4c x30 x30 x22 x39 x3e x0a x0a)) E))
(T (W x00 x00 x00 x00 x00 x00 x00 x00)
(T (W x0e x00 x10 x00 x13 x00 x19 x00)
(L (W x00 x00 x00 x00 x00 x00 x00 x00)) E)
(T (W x04 x04 x04 x01 x01 x01 x01 x01)
(L (W x00 x00 xff x00 x00 x00 x00 x00)) E))))
(T (W x00 x00 x00 x00 x00 x00 x00 x00)
(T (W x00 x00 x71 x00 x39 x00 x00 x00)
(T (W x37 x5f x37 x73 x23 x4b x10 x0e)
(T (W x00 x00 x00 x00 x00 x00 x00 x00)
(L (W x0e x00 x10 x00 x13 x00 x19 x00))
(L (W x00 x00 x32 x01 xce x02 x00 x00)))
(T (W x20 x00 x00 x00 x02 x00 x41 x00)
(L (W x00 x00 x00 x01 x01 x01 x01 x01)) E))
(T (W x00 x00 x7f x00 x00 x00 x00 x00)
(T (W x40 x10 x00 x10 x00 x00 x00 x00)
(L (W x3c x00 x5a x2d x00 x00 x00 x00)) E)
(T (W x00 x00 x00 x00 x00 x00 xa7 x02)
(L (W x01 x01 x00 x00 x00 x00 x00 x00)) E)))
(T (W x00 x00 x00 x00 x00 x00 x00 x00)
(T (W x01 x00 x01 x00 x01 x00 x01 x00)
(T (W x03 x03 x03 x01 x01 x01 x01 x01)
(L (W x00 x00 x7f x14 x32 x00 x05 x05)) E)
(T (W x00 x00 x0e x02 x74 x01 x00 x00)
(L (W x00 x00 x00 x00 x00 x00 x00 x00)) E))
(T (W x00 x00 x00 x00 x00 x00 x00 x00)
(T (W x01 x01 x00 x00 x00 x00 x00 x00)
(L (W x02 x48 x3c x00 x3c x00 x63 x00)) E)
(T (W x5f x73 x5a x3c x50 x5a x09 x10)
(L (W x00 x00 x00 x00 x00 x00 x00 x00)) E)))))
(T (W x00 x00 x00 x00 x00 x00 xae x00)
(T (W x04 x04 x04 x01 x01 x01 x01 x01)
(T (W x00 x14 x00 x00 x00 x00 x00 x00)
(T (W x00 x00 x00 x00 x00 x00 x00 x00)
(T (W x01 x00 x01 x00 x01 x00 x01 x00)
(L (W x00 x00 x4d x02 x59 x01 x00 x00))
(L (W x00 x10 x02 x00 x00 x00 x00 x00)))
(T (W x03 x03 x02 x01 x01 x01 x01 x01)
(L (W x00 x00 xff x00 x00 x00 x00 x00)) E))
(T (W x00 x00 x00 x00 x00 x00 x00 x00)
(T (W x00 x00 x00 x00 x00 x00 x00 x00)
(L (W x3c x41 x41 x46 x86 x72 x07 x07)) E)
(T (W x01 x01 x00 x00 x00 x00 x00 x00)
(L (W x00 x00 x00 x00 x00 x00 x00 x00)) E)))
(T (W x01 x01 x00 x00 x00 x00 x00 x00)
(T (W x00 x00 x00 x00 x00 x00 x00 x00)
(T (W x00 x00 xff x14 x32 x00 x0a x0a)
(L (W x00 x00 x00 x00 x00 x00 x28 x03))
(L (W x04 x05 x00 x00 x00 x00 x00 x00)))
(T (W x00 x18 x42 x00 x04 x00 x00 x00)
(L (W x00 x00 x00 x00 x00 x00 x00 x00)) E))
(T (W x28 x28 x37 x37 x28 x46 x04 x0d)
(T (W x01 x47 x42 x00 x1e x00 x55 x00)
(L (W x0e x00 x10 x00 x13 x00 x19 x00)) E)
(T (W x3a x84 x08 x54 x01 x00 x40 x02)
(L (W x00 x00 x00 x01 x01 x01 x01 x01)) E))))
(T (W x00 x00 x00 x00 x00 x00 x00 x00)
(T (W x0e x00 x10 x00 x13 x00 x19 x00)
(T (W x3c x00 x5a x28 x00 x00 x00 x00)
(T (W x01 x01 x00 x00 x00 x00 x00 x00)
(L (W x01 x42 x1d x01 xb4 x00 xcd x00))
(L (W x01 x00 x01 x00 x01 x00 x01 x00)))
(T (W x28 x37 x46 x1e x2d x3c x08 x08)
(L (W x00 x00 x00 x00 x00 x00 x00 x00)) E))
(T (W x03 x03 x03 x01 x01 x01 x01 x01)
(T (W x00 x00 x00 x00 x00 x00 x00 x00)
(L (W x00 x10 x02 x00 x06 x00 x00 x00)) E)
(T (W x00 x00 x7f x0f x32 x05 x02 x09)
(L (W x00 x00 x00 x00 x00 x00 x00 x00)) E)))
(T (W x00 x00 x7f x00 x00 x00 x00 x00)
(T (W x01 x45 x2c x00 x32 x00 x28 x00)
(T (W x02 x00 x00 x08 x02 x20 x00 x00)
(L (W x05 x05 x04 x01 x01 x01 x01 x01)) E)
(T (W x0a x00 x0a x00 x13 x00 x0a x00)
(L (W x00 x00 x00 x00 x00 x00 x00 x00)) E))
(T (W x00 x00 x00 x00 x00 x00 x00 x00)
(T (W x00 x00 x00 x00 x00 x00 x27 x02)
(L (W x04 x04 x00 x00 x00 x00 x00 x00)) E)
(T (W x3c x00 x55 x32 x00 x00 x00 x00)
(L (W x00 x00 x00 x00 x00 x00 x00 x00)) E))))))
(T (W x00 x00 x00 x00 x00 x00 x00 x00)
(T (W x37 x00 x55 x2d x00 x00 x00 x00)
(T (W x00 x00 x00 x00 x00 x00 x00 x00)
(T (W x00 x00 x00 x00 x00 x00 x68 x00)
(T (W x0e x00 x10 x00 x13 x00 x19 x00)
(T (W x03 x00 x00 x01 x01 x01 x01 x01)
(L (W x00 x00 x7f x14 x32 x00 x07 x07))
(L (W x00 x00 x00 x00 x00 x00 x00 x00)))
(T (W x00 x00 x5c x00 xda x01 x00 x00)
(L (W x00 x00 x00 x00 x00 x00 x00 x00)) E))
(T (W x3c x00 x50 x28 x00 x00 x00 x00)
(T (W x01 x01 x00 x00 x00 x00 x00 x00)
(L (W x02 x46 xb0 x00 xa0 x00 x90 x01)) E)
(T (W x4e x51 x47 x7e x4a x45 x09 x02)
(L (W x00 x00 x00 x00 x00 x00 x00 x00)) E)))
(T (W x64 x64 x64 x64 x64 x64 x0d x0d)
(T (W x00 x00 xff x50 x23 x05 x0f x0f)
(T (W x00 x00 x00 x00 x00 x00 x00 x00)
(L (W x3c x00 x64 x3c x00 x00 x00 x00))
(L (W x41 x3c x4b x40 x6e x79 x11 x11)))
(T (W x00 x00 x00 x00 x00 x00 x68 x02)
(L (W x03 x04 x00 x00 x00 x00 x00 x00)) E))
(T (W x01 x42 xa1 x00 x64 x00 x90 x06)
(T (W x00 x00 x00 x00 x00 x00 x00 x00)
(L (W x00 x00 x00 x01 x01 x01 x01 x01)) E)
(T (W x0e x00 x10 x00 x13 x00 x19 x00)
(L (W x00 x00 x00 x00 x00 x00 x00 x00)) E))))
(T (W x01 x47 x41 x00 x1e x00 x3c x00)
(T (W x03 x03 x03 x01 x01 x01 x01 x01)
(T (W x04 x05 x00 x00 x00 x00 x00 x00)
(T (W x3c x46 x41 x5a x7d x69 x0b x03)
(L (W x00 x00 x00 x00 x00 x00 x00 x00))
(L (W x03 x03 x03 x01 x01 x01 x01 x01)))
(T (W x01 x48 xa8 x00 xdc x00 x46 x05)
(L (W x01 x00 x01 x00 x01 x00 x01 x00)) E))
(T (W x00 x00 x00 x00 x00 x00 x00 x00)
(T (W x00 x00 x1f x00 x00 x00 x00 x00)
(L (W x00 x00 x00 x00 x00 x00 x68 x03)) E)
(T (W x60 x90 x00 x00 x00 x00 x00 x00)
(L (W x00 x00 x00 x00 x00 x00 x00 x00)) E)))
(T (W x00 x10 x80 x02 x00 x00 x00 x00)
(T (W x00 x00 x00 x00 x00 x00 x00 x00)
(T (W x0e x00 x10 x00 x13 x00 x19 x00)
(L (W x00 x00 x73 x00 x80 x01 x00 x00)) E)
(T (W x02 x02 x02 x01 x01 x01 x01 x01)
(L (W x00 x00 x7f x14 x32 x03 x05 x05)) E))
(T (W x00 x00 x00 x00 x00 x00 x68 x01)
(T (W x3c x00 x55 x2d x00 x00 x00 x00)
(L (W x41 x3c x3c x73 x4b x41 x10 x10)) E)
(T (W x01 x01 x00 x00 x00 x00 x00 x00)
(L (W x00 x00 x00 x00 x00 x00 x00 x00)) E)))))
(T (W x00 x00 x00 x00 x00 x00 x00 x00)
(T (W x01 x00 x01 x00 x01 x00 x01 x00)
(T (W x00 x00 x7f x14 x32 x00 x02 x0e)
(T (W x00 x00 x00 x00 x00 x00 x00 x00)
(T (W x00 x00 x00 x00 x00 x00 x00 x00)
(L (W x05 x04 x04 x01 x01 x01 x01 x01))
(L (W x00 x00 xff x78 x00 x05 x0f x0f)))
(T (W x01 x00 x01 x00 x01 x00 x01 x00)
(L (W x00 x00 x00 x00 x00 x00 x00 x00)) E))
(T (W x82 xb8 x20 x00 x00 x00 x00 x00)
(T (W x00 x00 x00 x00 x00 x00 xe8 x01)
(L (W x03 x03 x00 x00 x00 x00 x00 x00)) E)
(T (W x3c x00 x55 x28 x00 x00 x00 x00)
(L (W x00 x00 x00 x00 x00 x00 x00 x00)) E)))
(T (W x00 x00 x00 x00 x00 x00 x00 x00)
(T (W x04 x04 x04 x01 x01 x01 x01 x01)
(T (W x00 x00 x00 x00 x00 x00 x00 x00)
(L (W x10 x58 x00 x00 x00 x00 x00 x00))
(L (W x00 x00 x00 x00 x00 x00 x00 x00)))
(T (W x00 x00 x00 x14 x32 x05 x04 x04)
(L (W x00 x00 x00 x00 x00 x00 x00 x00)) E))
(T (W x03 x04 x00 x00 x00 x00 x00 x00)
(T (W x32 x32 x28 x40 x32 x28 x0a x0a)
(L (W x08 x00 x00 x00 x10 x20 x41 x04)) E)
(T (W x01 x45 x2c x01 xaa x00 x9e x07)
(L (W x01 x00 x01 x00 x01 x00 x01 x00)) E))))
(T (W x03 x03 x00 x00 x00 x00 x00 x00)
(T (W x01 x60 x50 x00 x08 x18 x10 x00)
(T (W x00 x00 x00 x00 x00 x00 x00 x00)
(T (W x00 x00 x00 x00 x00 x00 x00 x00)
(L (W x89 x89 x6b x61 x71 x59 x0d x08))
(L (W x00 x00 x00 x00 x00 x00 x00 x00)))
(T (W x01 x01 x00 x00 x00 x00 x00 x00)
(L (W x00 x00 x00 x00 x00 x00 x00 x00)) E))
(T (W x01 x00 x01 x00 x01 x00 x01 x00)
(T (W x00 x00 x00 x01 x01 x01 x01 x01)
(L (W x00 x00 x7f x1e x32 x00 x0a x0e)) E)
(T (W x00 x00 x27 x00 x9d x00 x00 x00)
(L (W x00 x00 x00 x00 x00 x00 x00 x00)) E)))
(T (W x00 x00 x7f x01 xaf x00 x00 x00)
(T (W x3c x32 x64 x41 x5f x46 x0a x02)
(T (W x01 x41 xbb x00 xc8 x00 x06 x05)
(L (W x0e x00 x10 x00 x13 x00 x19 x00)) E)
(T (W x00 x00 x00 x00 x00 x00 x00 x00)
(L (W x03 x00 x00 x01 x01 x01 x01 x01)) E))
(T (W x00 x00 x7f x28 x23 x05 x0e x0e)
(T (W x02 x10 x02 x00 x04 x00 x00 x00)
(L (W x00 x00 x00 x00 x00 x00 x00 x00)) E)
(T (W x00 x00 x00 x00 x00 x00 xe8 x02)
(L (W x01 x01 x00 x00 x00 x00 x00 x00)) E)))))))))))
(T (W x00 x00 x00 x00 x00 x00 x00 x00)
(T (W x2d x31 x31 x2d x41 x41 x0b x03)
(T (W x03 x03 x03 x01 x01 x01 x01 x01)
(T (W x01 x43 x07 x01 xc8 x00 xe8 x03)
(T (W x00 x00 x1f x14 x32 x03 x01 x0e)
(T (W x00 x00 x6a x00 x4e x01 x00 x00)
(T (W x01 x00 x01 x00 x01 x00 x01 x00)
(T (W x01 x01 x00 x00 x00 x00 x00 x00)
(T (W x6a x01 x00 x06 x02 x40 x0a x10)
(T (W x00 x00 x00 x00 x00 x00 x3c x00)
(T (W x3c x00 x5f x37 x00 x00 x00 x00)
(L (W x4b x73 x41 x70 x37 x41 x05 x05))
(L (W x42 x01 x10 x0c x02 x20 x0a x00)))
(T (W x04 x04 x00 x00 x00 x00 x00 x00)
(L (W x02 x42 xba x00 x42 x04 x3c x10)) E))
(T (W x0e x00 x10 x00 x13 x00 x19 x00)
(T (W x04 x04 x04 x01 x01 x01 x01 x01)
(L (W x00 x00 x7f x0f x32 x03 x0a x0a)) E)
(T (W x00 x00 x00 x00 x00 x00 x00 x00)
(L (W x00 x10 x02 x00 x02 x00 x00 x00)) E)))
(T (W x00 x00 x39 x00 x6a x01 x00 x00)
(T (W x55 x50 x5a x3c x69 x5f x00 x00)
(T (W x00 x00 x00 x00 x00 x00 x00 x00)
(L (W x0e x00 x10 x00 x13 x00 x19 x00))
(L (W x00 x00 x00 x00 x00 x00 x00 x00)))
(T (W x4a x11 x02 x04 x32 x00 x0c x00)
(L (W x00 x00 x00 x01 x01 x01 x01 x01)) E))
(T (W x00 x00 x7f x00 x00 x00 x00 x00)
(T (W x00 x00 x00 x00 x00 x00 x00 x00)
(L (W x3c x00 x64 x32 x00 x00 x00 x00)) E)
(T (W x00 x00 x00 x00 x00 x00 xba x02)
(L (W x01 x01 x00 x00 x00 x00 x00 x00)) E))))
(T (W x00 x00 x7f x00 x00 x00 x00 x00)
(T (W x32 x00 x50 x32 x00 x00 x00 x00)
(T (W x00 x00 x00 x01 x01 x01 x01 x01)
(T (W x00 x00 x00 x00 x00 x00 x00 x00)
(L (W x02 x14 x28 x40 x00 x00 x00 x00))
(L (W x3c x00 x50 x32 x00 x00 x00 x00)))
(T (W x00 x00 x7f x14 x32 x05 x0a x0a)
(L (W x00 x00 x00 x00 x00 x00 x00 x00)) E))
(T (W x02 x03 x00 x00 x00 x00 x00 x00)
(T (W x00 x00 x00 x00 x00 x00 x00 x00)
(L (W xe9 x00 x01 x04 x11 x01 x02 xb4)) E)
(T (W x01 x48 xad x00 xd2 x00 x50 x05)
(L (W x01 x00 x01 x00 x01 x00 x01 x00)) E)))
(T (W x01 x45 x34 x00 x46 x00 xd4 x00)
(T (W x02 x18 x00 x00 x00 x00 x00 x00)
(T (W x00 x00 x00 x00 x00 x00 xba x01)
(L (W x02 x03 x00 x00 x00 x00 x00 x00))
(L (W x02 x46 x33 x02 x10 x27 x00 x00)))
(T (W x3c x00 x5a x28 x00 x00 x00 x00)
(L (W x00 x00 x00 x00 x00 x00 x00 x00)) E))
(T (W x00 x20 x00 x40 x00 x00 x10 x00)
(T (W x0e x00 x10 x00 x13 x00 x19 x00)
(L (W x00 x00 x68 x00 x58 x01 x00 x00)) E)
(T (W x00 x00 x00 x01 x01 x01 x01 x01)
(L (W x00 x00 xff x00 x00 x00 x00 x00)) E)))))
(T (W x01 x49 x71 x00 x3c x00 x4b x00)
(T (W x00 x00 x00 x00 x00 x00 x3a x00)
(T (W x3c x50 x6e x2d x32 x50 x04 x04)
(T (W x00 x00 x7f x00 x00 x00 x00 x00)
(T (W x03 x10 x02 x80 x0a x00 x00 x00)
(L (W x3c x00 x5a x32 x00 x00 x00 x00))
(L (W x00 x00 x00 x00 x00 x00 x00 x00)))
(T (W x00 x00 x00 x00 x00 x00 x3a x02)
(L (W x01 x01 x00 x00 x00 x00 x00 x00)) E))
(T (W x01 x42 xa0 x00 x50 x00 x78 x00)
(T (W x66 x01 x02 x04 x01 x00 x08 x20)
(L (W x0c x0a x08 x01 x01 x02 x02 x02)) E)
(T (W x0e x00 x10 x00 x13 x00 x19 x00)
(L (W x00 x00 x00 x00 x00 x00 x00 x00)) E)))
(T (W x0e x00 x10 x00 x13 x00 x19 x00)
(T (W x00 x00 x00 x00 x00 x00 x00 x00)
(T (W x01 x01 x00 x00 x00 x00 x00 x00)
(L (W x01 x46 xd2 x00 x3c x00 x12 x00))
(L (W x0e x00 x10 x00 x13 x00 x19 x00)))
(T (W x50 x46 x28 x91 x64 x3c x06 x06)
(L (W x4a x04 x00 x04 x10 x00 x0f x00)) E))
(T (W x04 x03 x03 x01 x01 x01 x01 x01)
(T (W x00 x00 x00 x00 x00 x00 x00 x00)
(L (W x01 x10 x22 x00 x05 x00 x00 x00)) E)
(T (W x00 x00 x7f x14 x32 x00 x0b x0b)
(L (W x00 x00 x00 x00 x00 x00 x00 x00)) E))))
(T (W x04 x04 x04 x01 x01 x01 x01 x01)
(T (W x00 x90 x02 x00 x05 x00 x00 x00)
(T (W x80 x00 x00 x00 x08 x18 x00 x40)
(T (W x0e x00 x10 x00 x13 x00 x19 x00)
(L (W x00 x00 x00 x00 x00 x00 x00 x00))
(L (W x00 x00 x00 x00 x00 x00 x00 x00)))
(T (W x03 x03 x02 x01 x01 x01 x01 x01)
(L (W x00 x00 xbf x14 x32 x04 x02 x09)) E))
(T (W x00 x00 x00 x00 x00 x00 x00 x00)
(T (W x00 x00 x00 x00 x00 x00 x00 x00)
(L (W x46 x41 x3c x41 x7d x5a x0e x06)) E)
(T (W x04 x04 x00 x00 x00 x00 x00 x00)
(L (W x00 x00 x00 x00 x00 x00 x00 x00)) E)))
(T (W x05 x06 x00 x00 x00 x00 x00 x00)
(T (W x00 x00 x00 x00 x00 x00 x00 x00)
(T (W x00 x00 x7f x14 x32 x00 x08 x08)
(L (W x00 x00 x00 x00 x00 x00 x38 x03)) E)
(T (W x00 x90 x00 xc0 x01 x00 x00 x00)
(L (W x3c x00 x55 x32 x00 x00 x00 x00)) E))
(T (W x32 x32 x32 x32 x32 x32 x0e x0e)
(T (W x01 x43 xa8 x00 x46 x00 x42 x00)
(L (W x0e x00 x10 x00 x13 x00 x19 x00)) E)
(T (W x00 x00 x00 x00 x00 x00 x00 x00)
(L (W x00 x00 x00 x01 x01 x01 x01 x01)) E))))))
(T (W x00 x00 x00 x01 x01 x01 x01 x01)
(T (W x01 x00 x40 x02 x08 x00 x00 x08)
(T (W x3c x00 x55 x28 x00 x00 x00 x00)
(T (W x01 x40 xa6 x00 x82 x00 x58 x02)
(T (W x00 x00 x00 x00 x00 x00 x00 x00)
(T (W x00 x00 x00 x00 x00 x00 x7a x01)
(L (W x04 x05 x00 x00 x00 x00 x00 x00))
(L (W x05 x44 xf3 x00 x78 x00 x4f x01)))
(T (W x3c x00 x5f x37 x00 x00 x00 x00)
(L (W x5a x55 x5a x5a x64 x7d x10 x02)) E))
(T (W x00 x00 x00 x00 x00 x00 x00 x00)
(T (W x0e x00 x10 x00 x13 x00 x19 x00)
(L (W x00 x00 x89 x00 xe9 x01 x00 x00)) E)
(T (W x00 x00 x00 x01 x01 x01 x01 x01)
(L (W x00 x00 xff x78 x00 x05 x0f x0f)) E)))
(T (W x03 x00 x00 x01 x01 x01 x01 x01)
(T (W x03 x04 x00 x00 x00 x00 x00 x00)
(T (W x5a x32 x22 x46 x3c x2c x07 x02)
(L (W x80 x40 x10 x08 x62 xac x00 x00))
(L (W x04 x04 x03 x01 x01 x01 x01 x01)))
(T (W x01 x43 x90 x00 x64 x00 x68 x01)
(L (W x0e x00 x10 x00 x13 x00 x19 x00)) E))
(T (W x00 x00 x00 x00 x00 x00 x00 x00)
(T (W x00 x00 x7f x0a x32 x04 x05 x05)
(L (W x00 x00 x00 x00 x00 x00 x7a x03)) E)
(T (W x00 x10 x00 x00 x00 x00 x00 x00)
(L (W x00 x00 x00 x00 x00 x00 x00 x00)) E))))
(T (W x00 x00 x00 x00 x00 x00 x00 x00)
(T (W x00 x00 x00 x00 x00 x00 x7a x00)
(T (W x0e x00 x10 x00 x13 x00 x19 x00)
(T (W x00 x00 x00 x01 x01 x01 x01 x01)
(L (W x00 x00 xff x00 x00 x00 x00 x00))
(L (W x00 x00 x00 x00 x00 x00 x04 x03)))
(T (W x00 x00 x71 x00 xd1 x00 x00 x00)
(L (W x00 x00 x00 x00 x00 x00 x00 x00)) E))
(T (W x00 x00 x00 x00 x00 x00 x00 x00)
(T (W x02 x02 x00 x00 x00 x00 x00 x00)
(L (W x01 x47 xa9 x00 xa0 x00 x9a x02)) E)
(T (W x3c x32 x8c x3c x32 x8c x08 x07)
(L (W x00 x00 x00 x00 x00 x00 x00 x00)) E)))
(T (W x55 x5a x50 x82 x46 x50 x03 x02)
(T (W x00 x00 x7f x00 x00 x00 x00 x00)
(T (W x02 x98 x02 x00 x00 x00 x00 x00)
(L (W x32 x00 x50 x32 x00 x00 x00 x00)) E)
(T (W x00 x00 x00 x00 x00 x00 x79 x02)
(L (W x01 x01 x00 x00 x00 x00 x00 x00)) E))
(T (W x01 x44 x3b x00 x50 x00 x96 x00)
(T (W x00 x00 x00 x00 x00 x00 x00 x00)
(L (W x04 x03 x03 x01 x01 x01 x01 x01)) E)
(T (W x0e x00 x10 x00 x13 x00 x19 x00)
(L (W x00 x00 x00 x00 x00 x00 x00 x00)) E)))))
(T (W x28 x2d x23 x37 x1e x28 x03 x02)
(T (W xe0 x11 x00 x08 x00 x00 x00 x00)
(T (W x05 x05 x00 x00 x00 x00 x00 x00)
(T (W x00 x00 x00 x00 x00 x00 x00 x00)
(T (W x00 x00 x1f x00 x00 x00 x00 x00)
(L (W x00 x00 x00 x00 x00 x00 xf9 x02))
(L (W x04 x05 x00 x00 x00 x00 x00 x00)))
(T (W x40 x19 x00 x00 x00 x00 x00 x00)
(L (W x00 x00 x00 x00 x00 x00 x00 x00)) E))
(T (W x00 x00 x00 x00 x00 x00 x00 x00)
(T (W x01 x48 x54 x01 x1c x02 xae x1a)
(L (W x0e x00 x10 x00 x13 x00 x19 x00)) E)
(T (W x00 x00 x00 x00 x00 x00 x00 x00)
(L (W x00 x00 x00 x01 x01 x01 x01 x01)) E)))
(T (W x00 x00 x00 x00 x00 x00 x00 x00)
(T (W x00 x00 x00 x00 x00 x00 xfa x00)
(T (W x32 x00 x50 x28 x00 x00 x00 x00)
(L (W x87 x8f x8f x22 x50 x41 x08 x08))
(L (W x00 x00 x02 x00 x02 x00 x04 x14)))
(T (W x04 x05 x00 x00 x00 x00 x00 x00)
(L (W x00 x00 x00 x00 x00 x00 x00 x00)) E))
(T (W x0e x00 x10 x00 x13 x00 x19 x00)
(T (W x04 x04 x03 x01 x01 x01 x01 x01)
(L (W x00 x00 x00 x0a x32 x00 x0f x0f)) E)
(T (W x00 x00 x1e x02 x4a x02 x00 x00)
(L (W x00 x00 x00 x00 x00 x00 x00 x00)) E))))
(T (W x01 x00 x01 x00 x01 x00 x01 x00)
(T (W x00 x00 x1f x23 x32 x00 x05 x05)
(T (W x01 x47 xa3 x00 xaa x00 xf9 x01)
(T (W x00 x00 x00 x00 x00 x00 x00 x00)
(L (W x03 x00 x00 x01 x01 x01 x01 x01))
(L (W x00 x00 xff x00 x00 x00 x00 x00)))
(T (W x0e x00 x10 x00 x13 x00 x19 x00)
(L (W x00 x00 x00 x00 x00 x00 x00 x00)) E))
(T (W x01 x10 x02 x00 x00 x00 x00 x00)
(T (W x00 x00 x00 x00 x00 x00 xfa x01)
(L (W x04 x05 x00 x00 x00 x00 x00 x00)) E)
(T (W x32 x00 x50 x32 x00 x00 x00 x00)
(L (W x00 x00 x00 x00 x00 x00 x00 x00)) E)))
(T (W x00 x00 x00 x00 x00 x00 x00 x00)
(T (W x04 x04 x04 x01 x01 x01 x01 x01)
(T (W x00 x00 x13 x01 xb5 x00 x00 x00)
(L (W x00 x90 x00 x00 x00 x00 x00 x00)) E)
(T (W x00 x00 xff x78 x00 x05 x0f x0f)
(L (W x00 x00 x00 x00 x00 x00 x00 x00)) E))
(T (W x01 x01 x00 x00 x00 x00 x00 x00)
(T (W x5f x75 x50 x5c x41 x46 x04 x10)
(L (W x46 x01 x02 x00 x20 x20 x16 x00)) E)
(T (W x00 x00 x00 x00 x00 x00 x00 x00)
(L (W x01 x00 x01 x00 x01 x00 x01 x00)) E)))))))
(T (W x4f x53 x64 x4e x55 x69 x0a x0a)
(T (W x01 x01 x00 x00 x00 x00 x00 x00)
(T (W x00 x00 x00 x00 x00 x00 xac x00)
(T (W x00 x00 x00 x01 x01 x01 x01 x01)
(T (W x00 x00 x00 x00 x00 x00 x00 x00)
(T (W x00 x00 x00 x00 x00 x00 x00 x00)
(T (W x0e x00 x10 x00 x13 x00 x19 x00)
(L (W x00 x00 x8e x01 x2a x00 x00 x00))
(L (W x40 x30 x40 x10 x02 x00 x00 x00)))
(T (W x03 x03 x02 x01 x01 x01 x01 x01)
(L (W x00 x00 x7f x19 x32 x00 x08 x08)) E))
(T (W x00 x00 x00 x00 x00 x00 x18 x01)
(T (W x3c x00 x64 x32 x00 x00 x00 x00)
(L (W x46 x6e x50 x46 x5f x3c x0b x0f)) E)
(T (W x01 x01 x00 x00 x00 x00 x00 x00)
(L (W x02 x42 x22 x01 x8c x00 xe5 x01)) E)))
(T (W x03 x03 x00 x00 x00 x00 x00 x00)
(T (W x00 x00 x00 x00 x00 x00 x00 x00)
(T (W x00 x00 x7f x14 x32 x00 x02 x0b)
(L (W x00 x00 x00 x00 x00 x00 x1a x03))
(L (W x06 x06 x00 x00 x00 x00 x00 x00)))
(T (W x40 x30 x00 x10 x00 x00 x00 x00)
(L (W x00 x00 x00 x00 x00 x00 x00 x00)) E))
(T (W x32 x46 x32 x46 x32 x32 x04 x0f)
(T (W x00 x00 x00 x00 x00 x00 x00 x00)
(L (W x0e x00 x10 x00 x13 x00 x19 x00)) E)
(T (W xa0 x00 x21 x12 x25 x2c x28 x80)
(L (W x00 x00 x00 x01 x01 x01 x01 x01)) E))))
(T (W x50 x46 x41 x64 x50 x78 x0a x03)
(T (W x0e x00 x10 x00 x13 x00 x19 x00)
(T (W x37 x00 x55 x2d x00 x00 x00 x00)
(T (W x01 x01 x00 x00 x00 x00 x00 x00)
(L (W x01 x44 x90 x00 x1e x00 x0c x00))
(L (W x0e x00 x10 x00 x13 x00 x19 x00)))
(T (W x00 x00 x00 x00 x00 x00 x00 x00)
(L (W x00 x00 x00 x00 x00 x00 x00 x00)) E))
(T (W x04 x04 x04 x01 x01 x01 x01 x01)
(T (W x00 x00 x00 x00 x00 x00 x00 x00)
(L (W x00 x30 x02 x00 x04 x00 x00 x00)) E)
(T (W x00 x00 x00 x14 x32 x00 x05 x05)
(L (W x00 x00 x00 x00 x00 x00 x00 x00)) E)))
(T (W x00 x00 x7f x00 x00 x00 x00 x00)
(T (W x01 x41 x8e x00 x46 x00 x18 x01)
(T (W x01 x80 x00 x42 x08 x1c x00 x00)
(L (W x03 x03 x02 x01 x01 x01 x01 x01))
(L (W x00 x00 xff x78 x64 x05 x0f x0f)))
(T (W x0e x00 x10 x00 x13 x00 x19 x00)
(L (W x00 x00 x00 x00 x00 x00 x00 x00)) E))
(T (W x00 x00 x00 x00 x00 x00 x00 x00)
(T (W x00 x00 x00 x00 x00 x00 x1a x02)
(L (W x03 x04 x00 x00 x00 x00 x00 x00)) E)
(T (W x3c x00 x5a x3c x00 x00 x00 x00)
(L (W x00 x00 x00 x00 x00 x00 x00 x00)) E)))))
(T (W x00 x00 xbf x14 x32 x00 x05 x05)
(T (W x00 x20 x00 x00 x08 x00 x10 x00)
(T (W x00 x00 x64 x02 x08 x00 x00 x00)
(T (W x00 x00 x00 x00 x00 x00 x00 x00)
(T (W x00 x00 x00 x00 x00 x00 x00 x00)
(L (W x0e x00 x10 x00 x13 x00 x19 x00))
(L (W x00 x00 x9d x00 xbc x01 x00 x00)))
(T (W x08 x04 x02 x08 x01 x22 x20 x14)
(L (W x00 x00 x00 x01 x01 x01 x01 x01)) E))
(T (W x00 x00 x7f x14 x32 x03 x01 x05)
(T (W xe0 x51 x80 x00 x00 x00 x00 x00)
(L (W x32 x00 x55 x28 x00 x00 x00 x00)) E)
(T (W x00 x00 x00 x00 x00 x00 x00 x00)
(L (W x01 x01 x00 x00 x00 x00 x00 x00)) E)))
(T (W x00 x00 x00 x00 x00 x00 x00 x00)
(T (W x0e x00 x10 x00 x13 x00 x19 x00)
(T (W x00 x00 x00 x01 x01 x01 x01 x01)
(L (W x00 x00 xff x78 x00 x05 x0f x0f))
(L (W x00 x00 x00 x00 x00 x00 x64 x03)))
(T (W x00 x00 x8b x01 x99 x01 x00 x00)
(L (W x00 x00 x00 x00 x00 x00 x00 x00)) E))
(T (W x3c x00 x50 x1e x00 x00 x00 x00)
(T (W x05 x05 x00 x00 x00 x00 x00 x00)
(L (W x00 x00 x00 x00 x00 x00 x00 x00)) E)
(T (W x5f x75 xb8 x1c x2c x2e x0e x0e)
(L (W x00 x00 x00 x00 x00 x00 x00 x00)) E))))
(T (W x00 x00 x00 x00 x00 x00 x00 x00)
(T (W x01 x41 xbb x00 xfa x00 x98 x08)
(T (W x00 x10 x00 x00 x00 x00 x00 x00)
(T (W x00 x00 x00 x00 x00 x00 x00 x00)
(L (W x03 x03 x00 x00 x00 x00 x00 x00))
(L (W x00 x00 x00 x00 x00 x00 x00 x00)))
(T (W x3c x00 x55 x32 x00 x00 x00 x00)
(L (W x00 x00 x00 x00 x00 x00 x00 x00)) E))
(T (W x00 x00 x00 x00 x00 x00 x00 x00)
(T (W x01 x00 x01 x00 x01 x00 x01 x00)
(L (W x00 x00 xc4 x00 x3d x02 x00 x00)) E)
(T (W x03 x02 x04 x01 x01 x01 x01 x02)
(L (W x00 x00 xff x00 x00 x00 x00 x00)) E)))
(T (W x04 x03 x03 x01 x01 x01 x01 x01)
(T (W x03 x04 x00 x00 x00 x00 x00 x00)
(T (W x00 x00 x00 x00 x00 x00 x00 x00)
(L (W x00 x04 x00 x00 x82 x20 x00 x00)) E)
(T (W x01 x48 x54 x01 x40 x01 xe4 x0c)
(L (W x01 x00 x01 x00 x01 x00 x01 x00)) E))
(T (W x00 x00 x2d x00 xb5 x00 x00 x00)
(T (W x00 x00 x7f x28 x32 x00 x0c x0c)
(L (W x00 x00 x00 x00 x00 x00 x00 x00)) E)
(T (W x00 x50 x05 x00 x00 x00 x00 x00)
(L (W x00 x00 x00 x00 x00 x00 x00 x00)) E))))))
(T (W x00 x00 x00 x00 x00 x00 x00 x00)
(T (W x02 x14 x00 x00 x01 x00 x00 x00)
(T (W x0e x00 x10 x00 x13 x00 x19 x00)
(T (W x00 x00 x7f x14 x32 x05 x07 x07)
(T (W x01 x41 x97 x00 x8c x00 xee x02)
(T (W x46 x80 x0a x41 x22 x20 x0c x00)
(L (W x03 x03 x03 x01 x01 x01 x01 x01))
(L (W x00 x00 xff x78 x00 x05 x0f x0f)))
(T (W x0a x00 x0a x00 x13 x00 x19 x00)
(L (W x00 x00 x00 x00 x00 x00 x00 x00)) E))
(T (W x00 x00 x00 x00 x00 x00 x00 x00)
(T (W x00 x00 x00 x00 x00 x00 x89 x00)
(L (W x03 x03 x00 x00 x00 x00 x00 x00)) E)
(T (W x3c x00 x64 x32 x00 x00 x00 x00)
(L (W x00 x00 x00 x00 x00 x00 x00 x00)) E)))
(T (W x37 x00 x55 x2d x00 x00 x00 x00)
(T (W x04 x04 x04 x01 x01 x01 x01 x01)
(T (W x00 x00 xcc x00 x1d x00 x00 x00)
(L (W x62 x10 x02 x00 x0b x00 x00 x00))
(L (W x3c x00 x64 x3c x00 x00 x00 x00)))
(T (W x00 x00 x7f x14 x32 x00 x05 x05)
(L (W x00 x00 x00 x00 x00 x00 xdf x01)) E))
(T (W x04 x05 x00 x00 x00 x00 x00 x00)
(T (W x50 x73 x50 x5d x41 x37 x00 x02)
(L (W xa1 x04 x21 x0c x12 x21 x00 xa0)) E)
(T (W x01 x47 xa5 x00 x14 x00 x1e x00)
(L (W x01 x00 x01 x00 x01 x00 x01 x00)) E))))
(T (W x03 x03 x00 x00 x00 x00 x00 x00)
(T (W x08 x00 x00 x00 x01 x00 x41 x00)
(T (W x00 x00 x00 x00 x00 x00 x00 x00)
(T (W x37 x00 x55 x2d x00 x00 x00 x00)
(L (W x41 x62 x3f x60 x28 x49 x0c x08))
(L (W x13 xc4 x00 x10 x60 x04 x20 x00)))
(T (W x05 x06 x00 x00 x00 x00 x00 x00)
(L (W x00 x00 x00 x00 x00 x00 x00 x00)) E))
(T (W x01 x00 x01 x00 x01 x00 x01 x00)
(T (W x00 x00 x00 x01 x01 x01 x01 x01)
(L (W x00 x00 xff x19 x32 x00 x06 x0a)) E)
(T (W x00 x00 xe6 x00 xba x00 x00 x00)
(L (W x00 x00 x00 x00 x00 x00 x00 x00)) E)))
(T (W x00 x00 x6d x00 xb3 x01 x00 x00)
(T (W x00 x00 x00 x00 x00 x00 x00 x00)
(T (W x01 x46 x42 x00 x50 x00 x78 x00)
(L (W x0e x00 x10 x00 x13 x00 x19 x00)) E)
(T (W x10 x08 x82 x22 x20 x00 x40 x02)
(L (W x03 x02 x02 x01 x01 x01 x01 x02)) E))
(T (W x00 x00 x7f x00 x00 x00 x00 x00)
(T (W x00 x34 x00 x00 x00 x00 x00 x00)
(L (W x32 x00 x50 x32 x00 x00 x00 x00)) E)
(T (W x00 x00 x98 x02 xb9 x02 xd8 x02)
(L (W x01 x01 x00 x00 x00 x00 x00 x00)) E)))))
(T (W x00 x00 x4a x00 xca x00 x00 x00)
(T (W x01 x47 x8e x00 x96 x00 xc1 x02)
(T (W x05 x05 x05 x01 x01 x01 x01 x01)
(T (W x05 x06 x00 x00 x00 x00 x00 x00)
(T (W x00 x00 x00 x00 x00 x00 x00 x00)
(L (W x66 x00 x02 x00 x33 x00 x2e x00))
(L (W x03 x03 x03 x01 x01 x01 x01 x01)))
(T (W x01 x43 xf5 x00 x64 x00 xc9 x00)
(L (W x01 x00 x01 x00 x01 x00 x01 x00)) E))
(T (W x00 x00 x00 x00 x00 x00 x00 x00)
(T (W x00 x00 xff x78 x00 x05 x0f x0f)
(L (W x00 x00 x00 x00 x00 x00 x58 x03)) E)
(T (W x00 x00 x00 x00 x00 x00 x00 x00)
(L (W x00 x00 x00 x00 x00 x00 x00 x00)) E)))
(T (W x00 x00 x00 x00 x00 x00 x00 x00)
(T (W x01 x00 x04 x18 x82 x20 x20 x00)
(T (W x0e x00 x10 x00 x13 x00 x19 x00)
(L (W x00 x00 x67 x00 xca x01 x00 x00))
(L (W x1c x10 x25 x04 x04 x00 x00 x00)))
(T (W x03 x03 x02 x01 x01 x01 x01 x01)
(L (W x00 x00 xff x00 x00 x00 x00 x00)) E))
(T (W x00 x00 x00 x00 x00 x00 x59 x01)
(T (W x32 x00 x50 x28 x00 x00 x00 x00)
(L (W x23 x37 x28 x5a x32 x32 x0c x0c)) E)
(T (W x02 x02 x00 x00 x00 x00 x00 x00)
(L (W x00 x00 x00 x00 x00 x00 x00 x00)) E))))
(T (W x00 x00 x00 x00 x00 x00 x5a x00)
(T (W x41 x3c x46 x28 x55 x4b x00 x00)
(T (W x00 x00 x7f x14 x32 x00 x02 x0e)
(T (W x00 x76 x00 x80 x00 x00 x00 x00)
(L (W x00 x00 x00 x00 x00 x00 x00 x00))
(L (W x00 x00 x00 x00 x00 x00 x00 x00)))
(T (W x00 x00 x00 x00 x00 x00 x00 x00)
(L (W x01 x01 x00 x00 x00 x00 x00 x00)) E))
(T (W x00 x00 x00 x00 x00 x00 x00 x00)
(T (W x62 x04 x00 x0c x10 x22 x02 x04)
(L (W x03 x03 x02 x01 x01 x01 x01 x01)) E)
(T (W x0e x00 x10 x00 x13 x00 x19 x00)
(L (W x00 x00 x00 x00 x00 x00 x00 x00)) E)))
(T (W x0e x00 x10 x00 x13 x00 x19 x00)
(T (W x00 x00 x00 x00 x00 x00 x00 x00)
(T (W x03 x04 x00 x00 x00 x00 x00 x00)
(L (W x01 x42 x36 x00 x1e x00 x87 x00)) E)
(T (W x47 x78 x5f x63 x78 x5f x06 x08)
(L (W x09 x60 x00 x00 x48 x58 x12 x00)) E))
(T (W x04 x04 x04 x01 x01 x01 x01 x01)
(T (W x00 x00 x0e x02 xa8 x01 x00 x00)
(L (W x00 x90 x00 x00 x02 x00 x00 x00)) E)
(T (W x00 x00 x7f x14 x32 x00 x03 x06)
(L (W x00 x00 x00 x00 x00 x00 xa5 x02)) E))))))))
(T (W x32 x00 x4b x32 x00 x00 x00 x00)
(T (W x0e x00 x10 x00 x13 x00 x19 x00)
(T (W x00 x00 x00 x00 x00 x00 x00 x00)
(T (W x23 x37 x28 x5a x32 x32 x0c x0c)
(T (W x00 x00 x00 x00 x00 x00 x00 x00)
(T (W x03 x03 x00 x00 x00 x00 x00 x00)
(T (W x00 x00 x00 x00 x00 x00 x00 x00)
(T (W x00 x00 xff x28 x23 x05 x0a x0a)
(L (W x00 x00 x00 x00 x00 x00 xea x02))
(L (W x05 x05 x00 x00 x00 x00 x00 x00)))
(T (W x00 x98 x20 x00 x00 x00 x00 x00)
(L (W x3c x00 x5f x37 x00 x00 x00 x00)) E))
(T (W x26 x23 x23 x32 x41 x37 x0d x11)
(T (W x01 x40 x0e x01 xa0 x00 xa8 x02)
(L (W x0e x00 x10 x00 x13 x00 x19 x00)) E)
(T (W x00 x00 x00 x00 x00 x00 x00 x00)
(L (W x03 x02 x01 x01 x01 x01 x01 x01)) E)))
(T (W x80 x40 x00 x10 x08 x18 x10 x00)
(T (W x00 x00 x00 x00 x00 x00 x00 x00)
(T (W x3c x00 x55 x32 x00 x00 x00 x00)
(L (W x6d x35 x2f x67 x7f x83 x05 x03))
(L (W x62 x00 x01 x14 x00 x00 x20 x14)))
(T (W x03 x04 x00 x00 x00 x00 x00 x00)
(L (W x00 x00 x00 x00 x00 x00 x00 x00)) E))
(T (W x01 x00 x01 x00 x01 x00 x01 x00)
(T (W x00 x00 x00 x01 x01 x01 x01 x01)
(L (W x00 x00 x7f x28 x32 x05 x0b x0e)) E)
(T (W x00 x00 x56 x00 x3b x00 x00 x00)
(L (W x00 x00 x00 x00 x00 x00 x00 x00)) E))))
(T (W x01 x00 x01 x00 x01 x00 x01 x00)
(T (W x00 x00 x7f x14 x32 x00 x0c x0c)
(T (W x01 x47 x58 x00 x32 x00 x27 x00)
(T (W x00 x00 x00 x00 x00 x00 x00 x00)
(L (W x04 x04 x04 x01 x01 x01 x01 x01))
(L (W x00 x00 xff x78 x00 x05 x0f x0f)))
(T (W x0e x00 x10 x00 x13 x00 x19 x00)
(L (W x00 x00 x00 x00 x00 x00 x00 x00)) E))
(T (W x02 x10 x02 x00 x00 x00 x00 x00)
(T (W x00 x00 x00 x00 x00 x00 x00 x00)
(L (W x06 x07 x00 x00 x00 x00 x00 x00)) E)
(T (W x00 x00 x00 x00 x00 x00 x00 x00)
(L (W x00 x00 x00 x00 x00 x00 x00 x00)) E)))
(T (W x3c x00 x50 x28 x00 x00 x00 x00)
(T (W x03 x03 x03 x01 x01 x01 x01 x01)
(T (W x00 x00 x1c x00 x0b x02 x00 x00)
(L (W x00 x10 x00 x00 x00 x00 x00 x00))
(L (W x00 x00 x00 x00 x00 x00 x00 x00)))
(T (W x00 x00 xfe x14 x23 x05 x04 x04)
(L (W x00 x00 x00 x00 x00 x00 x00 x00)) E))
(T (W x05 x05 x00 x00 x00 x00 x00 x00)
(T (W x69 x5f x4b x4a x55 x4b x0a x04)
(L (W x08 x00 x00 x00 x10 x20 x41 x04)) E)
(T (W x01 x45 x93 x00 x46 x00 xa0 x00)
(L (W x01 x00 x01 x00 x01 x00 x01 x00)) E)))))
(T (W x3c x00 x5f x32 x00 x00 x00 x00)
(T (W x00 x00 xa6 x01 xb3 x00 x00 x00)
(T (W x00 x00 x00 x00 x00 x00 xec x00)
(T (W x0e x00 x10 x00 x13 x00 x19 x00)
(T (W x01 x01 x01 x01 x01 x01 x02 x02)
(L (W x00 x00 xfe x14 x32 x00 x01 x0e))
(L (W x00 x00 x00 x00 x00 x00 x00 x00)))
(T (W x00 x00 x03 x01 x1b x02 x00 x00)
(L (W x00 x00 x00 x00 x00 x00 x00 x00)) E))
(T (W x64 x00 x64 x00 x00 x00 x00 x00)
(T (W x03 x04 x00 x00 x00 x00 x00 x00)
(L (W x01 x40 xb8 x00 x2c x01 xb0 x04)) E)
(T (W x00 x00 x00 x00 x00 x00 x00 x00)
(L (W x00 x00 x00 x00 x00 x00 x00 x00)) E)))
(T (W x00 x00 x00 x00 x00 x00 x00 x00)
(T (W x00 x00 x7f x28 x23 x05 x01 x01)
(T (W x00 x00 x00 x00 x00 x00 x00 x00)
(L (W x00 x00 x00 x00 x00 x00 x00 x00))
(L (W x41 x3c x4b x40 x6e x79 x11 x11)))
(T (W x00 x00 x00 x00 x00 x00 x6a x02)
(L (W x02 x02 x00 x00 x00 x00 x00 x00)) E))
(T (W x01 x47 x3a x00 x28 x00 x13 x00)
(T (W x00 x40 x00 x80 x48 x98 x00 x00)
(L (W x00 x00 x00 x01 x01 x01 x01 x01)) E)
(T (W x0e x00 x10 x00 x13 x00 x19 x00)
(L (W x00 x00 x00 x00 x00 x00 x00 x00)) E))))
(T (W x02 x45 x84 x00 x50 x00 x96 x00)
(T (W x08 x06 x06 x01 x01 x01 x01 x01)
(T (W x04 x04 x00 x00 x00 x00 x00 x00)
(T (W x00 x00 x00 x00 x00 x00 x00 x00)
(L (W x02 x60 x10 x00 x42 xe5 x08 x00))
(L (W x00 x00 x00 x01 x01 x01 x01 x01)))
(T (W x01 x42 x40 x00 x0a x00 x06 x00)
(L (W x0e x00 x10 x00 x13 x00 x19 x00)) E))
(T (W x00 x00 x13 x01 x3c x02 x00 x00)
(T (W x00 x00 x1f x00 x00 x00 x00 x00)
(L (W x00 x00 x00 x00 x00 x00 x6a x03)) E)
(T (W x02 x10 x0a x40 x00 x00 x00 x00)
(L (W x00 x00 x00 x00 x00 x00 x00 x00)) E)))
(T (W x00 x90 x80 x10 x01 x00 x00 x00)
(T (W x00 x00 x00 x00 x00 x00 x00 x00)
(T (W x01 x00 x01 x00 x01 x00 x01 x00)
(L (W x00 x00 xa1 x01 x2b x02 x00 x00)) E)
(T (W x03 x00 x00 x01 x01 x01 x01 x01)
(L (W x00 x00 x7f x19 x32 x00 x0a x0b)) E))
(T (W x00 x00 x00 x00 x00 x00 x69 x01)
(T (W x32 x00 x50 x32 x00 x00 x00 x00)
(L (W x00 x00 x00 x00 x00 x00 x00 x00)) E)
(T (W x01 x01 x00 x00 x00 x00 x00 x00)
(L (W x00 x00 x00 x00 x00 x00 x00 x00)) E))))))
(T (W x00 x00 x00 x00 x00 x00 x00 x00)
(T (W x05 x06 x00 x00 x00 x00 x00 x00)
(T (W x00 x00 x7f x14 x32 x00 x02 x05)
(T (W x00 x00 x00 x00 x00 x00 x00 x00)
(T (W x00 x00 x00 x01 x01 x01 x01 x01)
(T (W x00 x00 x00 x00 x00 x00 x00 x00)
(L (W x80 x11 x00 x00 x00 x00 x00 x00))
(L (W x00 x00 x00 x00 x00 x00 x00 x00)))
(T (W x00 x00 x1f x1e x32 x00 x04 x09)
(L (W x00 x00 x00 x00 x00 x00 x4f x00)) E))
(T (W x01 x01 x00 x00 x00 x00 x00 x00)
(T (W x6e x82 x50 x50 x46 x3c x0e x04)
(L (W x88 x00 x00 x00 x04 x00 x10 x82)) E)
(T (W x01 x45 x2f x00 x28 x00 x32 x00)
(L (W x0a x00 x0a x00 x0a x00 x0a x00)) E)))
(T (W x01 x41 x3c x00 xb4 x00 x21 x00)
(T (W x00 x10 x00 x00 x00 x00 x00 x00)
(T (W x00 x00 x00 x00 x00 x00 xa9 x01)
(L (W x02 x02 x00 x00 x00 x00 x00 x00))
(L (W x02 x46 xb0 x00 xa0 x00 x90 x01)))
(T (W x3c x00 x5a x32 x00 x00 x00 x00)
(L (W x32 x41 x6b x56 x69 x6b x0c x09)) E))
(T (W x18 x04 x00 x40 x00 x00 x00 x14)
(T (W x0e x00 x10 x00 x13 x00 x19 x00)
(L (W x00 x00 x00 x00 x00 x00 x00 x00)) E)
(T (W x03 x03 x03 x01 x01 x01 x01 x01)
(L (W x00 x00 xff x00 x00 x00 x00 x00)) E))))
(T (W x10 x08 x80 x00 x00 x00 x48 x44)
(T (W x00 x00 x0e x00 x94 x01 x00 x00)
(T (W x00 x00 x00 x00 x00 x00 x00 x00)
(T (W x01 x41 x35 x00 x32 x00 x5f x00)
(L (W x01 x00 x01 x00 x01 x00 x01 x00))
(L (W x00 x00 x32 x01 xce x02 x00 x00)))
(T (W x20 x40 x20 x32 x03 x04 x80 x00)
(L (W x00 x00 x00 x01 x01 x01 x01 x01)) E))
(T (W x00 x00 x7f x14 x32 x05 x05 x05)
(T (W x00 x00 x00 x00 x00 x00 x00 x00)
(L (W x32 x00 x50 x32 x00 x00 x00 x00)) E)
(T (W x00 x00 x00 x00 x00 x00 xaa x02)
(L (W x01 x01 x00 x00 x00 x00 x00 x00)) E)))
(T (W x00 x00 x00 x00 x00 x00 xaa x00)
(T (W x0e x00 x10 x00 x13 x00 x19 x00)
(T (W x04 x04 x04 x01 x01 x01 x01 x01)
(L (W x00 x00 x7f x0f x32 x03 x04 x04)) E)
(T (W x00 x00 xa1 x01 xa1 x00 x00 x00)
(L (W x00 x00 x00 x00 x00 x00 x00 x00)) E))
(T (W x32 x00 x50 x32 x00 x00 x00 x00)
(T (W x01 x01 x00 x00 x00 x00 x00 x00)
(L (W x02 x45 x35 x00 x14 x00 x0a x00)) E)
(T (W x3c x45 x45 x32 x5b x51 x0a x0a)
(L (W x00 x00 x00 x00 x00 x00 x00 x00)) E)))))
(T (W x00 x00 x00 x00 x00 x00 x29 x00)
(T (W x03 x03 x03 x01 x01 x01 x01 x01)
(T (W x1f x10 x02 x00 x0f x00 x00 x00)
(T (W x00 x00 x00 x00 x00 x00 x00 x00)
(T (W x01 x00 x01 x00 x01 x00 x01 x00)
(L (W x00 x00 xb0 x02 xb6 x01 x00 x00))
(L (W x1e x10 x20 x80 x00 x00 x00 x00)))
(T (W x04 x03 x03 x01 x01 x01 x01 x01)
(L (W x00 x00 xff x00 x00 x00 x00 x00)) E))
(T (W x00 x00 x00 x00 x00 x00 x2a x01)
(T (W x00 x00 x00 x00 x00 x00 x00 x00)
(L (W x39 x28 x41 x31 x56 x49 x0d x0d)) E)
(T (W x01 x01 x00 x00 x00 x00 x00 x00)
(L (W x00 x00 x00 x00 x00 x00 x00 x00)) E)))
(T (W x01 x01 x00 x00 x00 x00 x00 x00)
(T (W x00 x00 x5c x01 x5e x00 x00 x00)
(T (W x00 x00 x7f x14 x32 x00 x0f x0f)
(L (W x00 x00 x00 x00 x00 x00 x2a x03))
(L (W x04 x05 x00 x00 x00 x00 x00 x00)))
(T (W x22 x98 x20 x40 x00 x00 x00 x00)
(L (W x00 x00 x00 x00 x00 x00 x00 x00)) E))
(T (W x42 x29 x4d x17 x3d x57 x05 x0b)
(T (W x01 x49 x86 x01 x6e x00 x36 x01)
(L (W x0e x00 x10 x00 x13 x00 x19 x00)) E)
(T (W x32 x84 x00 x04 x21 x00 x02 x02)
(L (W x00 x00 x00 x01 x01 x01 x01 x01)) E))))
(T (W x00 x00 x00 x00 x00 x00 x00 x00)
(T (W x0e x00 x10 x00 x13 x00 x19 x00)
(T (W x00 x00 x00 x00 x00 x00 x00 x00)
(T (W x01 x01 x00 x00 x00 x00 x00 x00)
(L (W x01 x40 x1d x01 xbe x00 xc7 x01))
(L (W x01 x00 x01 x00 x01 x00 x01 x00)))
(T (W x3c x64 x73 x5a x46 x55 x08 x08)
(L (W x00 x00 x00 x00 x00 x00 x00 x00)) E))
(T (W x05 x04 x04 x01 x01 x01 x01 x01)
(T (W x00 x00 x47 x02 xf2 x00 x00 x00)
(L (W x14 x10 x02 x00 x0e x00 x00 x00)) E)
(T (W x00 x00 x7f x14 x32 x00 x01 x0e)
(L (W x00 x00 x00 x00 x00 x00 x00 x00)) E)))
(T (W x00 x00 x7f x14 x32 x03 x07 x07)
(T (W x01 x45 xf0 x00 x82 x00 x54 x02)
(T (W x22 x00 x02 x16 x11 x00 x02 x80)
(L (W x04 x04 x03 x01 x01 x01 x01 x01)) E)
(T (W x0e x00 x10 x00 x13 x00 x19 x00)
(L (W x00 x00 x00 x00 x00 x00 x00 x00)) E))
(T (W x00 x00 x00 x00 x00 x00 x00 x00)
(T (W x00 x00 x00 x00 x00 x00 x2a x02)
(L (W x01 x01 x00 x00 x00 x00 x00 x00)) E)
(T (W x00 x00 x00 x00 x00 x00 x00 x00)
(L (W x00 x00 x00 x00 x00 x00 x00 x00)) E)))))))
(T (W x00 x00 x00 x00 x00 x00 x0a x00)
(T (W x00 x00 x00 x00 x00 x00 x00 x00)
(T (W x00 x00 x0e x00 x59 x00 x00 x00)
(T (W x02 x45 x95 x00 x46 x00 x4d x01)
(T (W x00 x00 x00 x01 x01 x01 x01 x01)
(T (W x01 x01 x00 x00 x00 x00 x00 x00)
(T (W x50 x64 xc8 x32 x32 x64 x05 x05)
(L (W x80 x40 x20 x00 x08 x94 x00 x40))
(L (W x02 x02 x02 x01 x01 x01 x01 x01)))
(T (W x01 x42 xa9 x00 xaa x00 xfd x02)
(L (W x0a x00 x0a x00 x0a x00 x0a x00)) E))
(T (W x00 x00 x00 x00 x00 x00 x00 x00)
(T (W x00 x00 x1f x23 x23 x00 x05 x05)
(L (W x00 x00 x00 x00 x00 x00 x48 x03)) E)
(T (W x00 x00 x00 x00 x00 x00 x00 x00)
(L (W x00 x00 x00 x00 x00 x00 x00 x00)) E)))
(T (W x01 x10 x00 x80 x00 x00 x00 x00)
(T (W x08 x00 x31 x00 x01 x08 xa0 x00)
(T (W x0e x00 x10 x00 x13 x00 x19 x00)
(L (W x00 x00 x00 x00 x00 x00 x00 x00))
(L (W x40 x10 x85 x60 x00 x00 x00 x00)))
(T (W x03 x02 x04 x01 x01 x01 x01 x02)
(L (W x00 x00 x7f x14 x32 x00 x06 x07)) E))
(T (W x00 x00 x00 x00 x00 x00 x48 x01)
(T (W x00 x00 x00 x00 x00 x00 x00 x00)
(L (W x5c x82 x73 x8a x50 x73 x01 x01)) E)
(T (W x02 x03 x00 x00 x00 x00 x00 x00)
(L (W x00 x00 x00 x00 x00 x00 x00 x00)) E))))
(T (W x00 x00 x00 x00 x00 x00 x00 x00)
(T (W x3c x4b x55 x73 x64 x55 x0a x0d)
(T (W x00 x00 x7f x19 x32 x05 x03 x03)
(T (W x00 x00 x00 x00 x00 x00 x00 x00)
(L (W x3c x00 x55 x37 x00 x00 x00 x00))
(L (W x5f x5f x5f x5f x5f x5f x0b x0b)))
(T (W x00 x00 x00 x00 x00 x00 x00 x00)
(L (W x01 x01 x00 x00 x00 x00 x00 x00)) E))
(T (W x00 x00 x00 x00 x00 x00 x00 x00)
(T (W x00 x00 x00 x00 x00 x00 x00 x00)
(L (W x03 x03 x02 x01 x01 x01 x01 x01)) E)
(T (W x0e x00 x10 x00 x13 x00 x19 x00)
(L (W x00 x00 x00 x00 x00 x00 x00 x00)) E)))
(T (W x01 x00 x01 x00 x01 x00 x01 x00)
(T (W x37 x00 x55 x2d x00 x00 x00 x00)
(T (W x04 x05 x00 x00 x00 x00 x00 x00)
(L (W x01 x45 x37 x00 x1e x00 x19 x00))
(L (W x0a x00 x0a x00 x0a x00 x0a x00)))
(T (W x34 x41 x32 x26 x2d x32 x10 x0f)
(L (W x00 x00 x00 x00 x00 x00 x00 x00)) E))
(T (W x00 x00 x00 x01 x01 x01 x01 x01)
(T (W x00 x00 xea x01 x72 x01 x00 x00)
(L (W x03 x10 x02 x00 x00 x00 x00 x00)) E)
(T (W x00 x00 x1f x0f x32 x03 x05 x05)
(L (W x00 x00 x00 x00 x00 x00 x00 x00)) E)))))
(T (W x0e x00 x10 x00 x13 x00 x19 x00)
(T (W x04 x05 x00 x00 x00 x00 x00 x00)
(T (W x2a x00 x50 x04 x00 x40 x00 x08)
(T (W x00 x00 x00 x00 x00 x00 xca x00)
(T (W x00 x00 x00 x00 x00 x00 x00 x00)
(L (W x2a x1e x26 x20 x1e x26 x0b x0b))
(L (W x21 x44 x21 x00 x28 x1c xa0 x04)))
(T (W x03 x04 x00 x00 x00 x00 x00 x00)
(L (W x00 x00 x00 x00 x00 x00 x00 x00)) E))
(T (W x0e x00 x10 x00 x13 x00 x19 x00)
(T (W x03 x00 x00 x01 x01 x01 x01 x01)
(L (W x00 x00 xff x14 x32 x00 x0a x0b)) E)
(T (W x00 x00 x00 x00 x00 x00 x00 x00)
(L (W x00 x00 x00 x00 x00 x00 x00 x00)) E)))
(T (W x00 x00 x00 x00 x00 x00 x00 x00)
(T (W x6a x5a x82 x6e x5a x9a x0d x02)
(T (W x01 x46 xa8 x00 x64 x00 x7c x01)
(L (W x0e x00 x10 x00 x13 x00 x19 x00))
(L (W x00 x00 x97 x00 x5d x02 x00 x00)))
(T (W xb1 x80 x00 x44 x41 x16 x00 x00)
(L (W x00 x00 x00 x01 x01 x01 x01 x01)) E))
(T (W x00 x00 x7f x0f x32 x02 x02 x09)
(T (W x60 x50 x00 x80 x00 x00 x00 x00)
(L (W x00 x00 x00 x00 x00 x00 x00 x00)) E)
(T (W x00 x00 x00 x00 x00 x00 xca x02)
(L (W x01 x01 x00 x00 x00 x00 x00 x00)) E))))
(T (W x00 x00 x7f x00 x00 x00 x00 x00)
(T (W x28 x00 x3c x1e x00 x00 x00 x00)
(T (W x03 x02 x02 x01 x01 x01 x01 x02)
(T (W x00 x00 x00 x00 x00 x00 x00 x00)
(L (W x02 x10 x02 x40 x0e x00 x00 x00))
(L (W x00 x00 x00 x00 x00 x00 x00 x00)))
(T (W x00 x00 x7f x14 x32 x00 x07 x0a)
(L (W x00 x00 x00 x00 x00 x00 x00 x00)) E))
(T (W x03 x04 x00 x00 x00 x00 x00 x00)
(T (W x00 x00 x00 x00 x00 x00 x00 x00)
(L (W x29 x00 x00 x0c x10 x00 x43 x00)) E)
(T (W x01 x45 xad x00 xb4 x00 x2f x03)
(L (W x01 x00 x01 x00 x01 x00 x01 x00)) E)))
(T (W x00 x00 x00 x00 x00 x00 x00 x00)
(T (W x00 x10 x00 x00 x00 x00 x00 x00)
(T (W x00 x00 x00 x00 x00 x00 xca x01)
(L (W x05 x06 x00 x00 x00 x00 x00 x00)) E)
(T (W x46 x00 x64 x3c x00 x00 x00 x00)
(L (W x00 x00 x00 x00 x00 x00 x00 x00)) E))
(T (W x01 x00 x00 x00 x00 x84 x00 x00)
(T (W x0e x00 x10 x00 x13 x00 x19 x00)
(L (W x00 x00 x17 x00 x24 x00 x00 x00)) E)
(T (W x04 x04 x04 x01 x01 x01 x01 x01)
(L (W x00 x00 xff x00 x00 x00 x00 x00)) E))))))
(T (W x00 x00 x7f x00 x00 x00 x00 x00)
(T (W x03 x03 x03 x01 x01 x01 x01 x01)
(T (W x00 x00 x00 x00 x00 x00 x00 x00)
(T (W x0e x00 x10 x00 x13 x00 x19 x00)
(T (W x3c x00 x55 x32 x00 x00 x00 x00)
(T (W x02 x02 x00 x00 x00 x00 x00 x00)
(L (W x01 x46 x39 x00 x14 x00 x0f x00))
(L (W x01 x00 x01 x00 x01 x00 x01 x00)))
(T (W x50 x5f x52 x4b x3c x52 x03 x03)
(L (W x00 x00 x00 x00 x00 x00 x00 x00)) E))
(T (W x00 x00 x00 x01 x01 x01 x01 x01)
(T (W x00 x00 xab x01 x0e x00 x00 x00)
(L (W x00 x10 x00 x00 x00 x00 x00 x00)) E)
(T (W x00 x00 x7f x0f x32 x03 x04 x04)
(L (W x00 x00 x00 x00 x00 x00 x00 x00)) E)))
(T (W x00 x00 xff x78 x00 x05 x0f x0f)
(T (W x01 x42 x22 x01 xbe x00 xf4 x06)
(T (W x00 x00 x00 x00 x00 x00 x00 x00)
(L (W x00 x00 x00 x01 x01 x01 x01 x01))
(L (W x00 x00 xfe x14 x32 x00 x06 x0b)))
(T (W x0e x00 x10 x00 x13 x00 x19 x00)
(L (W x00 x00 xb3 x01 x3b x00 x00 x00)) E))
(T (W x00 x00 x00 x00 x00 x00 x00 x00)
(T (W x00 x00 x00 x00 x00 x00 x00 x00)
(L (W x02 x02 x00 x00 x00 x00 x00 x00)) E)
(T (W x3c x00 x55 x2d x00 x00 x00 x00)
(L (W x00 x00 x00 x00 x00 x00 x00 x00)) E))))
(T (W xc1 x10 x0a x08 x00 x00 x00 x00)
(T (W x04 x04 x00 x00 x00 x00 x00 x00)
(T (W x00 x00 x00 x00 x00 x00 x00 x00)
(T (W x00 x00 x7f x14 x32 x03 x0f x0f)
(L (W x00 x00 x47 x02 xd6 x02 x0a x03))
(L (W x05 x05 x00 x00 x00 x00 x00 x00)))
(T (W x40 x30 x00 x00 x00 x00 x00 x00)
(L (W x00 x00 x00 x00 x00 x00 x00 x00)) E))
(T (W x00 x00 x00 x00 x00 x00 x00 x00)
(T (W x00 x00 x00 x00 x00 x00 x00 x00)
(L (W x0e x00 x10 x00 x13 x00 x19 x00)) E)
(T (W x00 x00 x02 x00 x02 x00 x00 x14)
(L (W x00 x00 x00 x01 x01 x01 x01 x01)) E)))
(T (W x4a x04 x00 x00 x20 x20 x24 x04)
(T (W x00 x00 x00 x00 x00 x00 x00 x00)
(T (W x3c x00 x50 x32 x00 x00 x00 x00)
(L (W x32 x23 x50 x1e x32 x5a x06 x0d)) E)
(T (W x05 x05 x00 x00 x00 x00 x00 x00)
(L (W x04 x41 xbd x00 x82 x00 xa1 x03)) E))
(T (W x0e x00 x10 x00 x13 x00 x19 x00)
(T (W x02 x02 x02 x01 x01 x01 x02 x02)
(L (W x00 x00 x7f x14 x32 x00 x05 x05)) E)
(T (W x00 x00 x00 x00 x00 x00 x00 x00)
(L (W x00 x00 x00 x00 x00 x00 x00 x00)) E)))))
(T (W x00 x00 x00 x08 x02 x60 x00 x10)
(T (W x32 x00 x50 x1e x00 x00 x00 x00)
(T (W x01 x45 xac x00 xdc x00 x20 x03)
(T (W x1c x10 x02 x00 x0e x00 x00 x00)
(T (W x00 x00 x00 x00 x00 x00 x00 x00)
(L (W x03 x03 x00 x00 x00 x00 x00 x00))
(L (W x12 x47 x1d x01 xe6 x00 xed x03)))
(T (W x00 x00 x00 x00 x00 x00 x00 x00)
(L (W x00 x00 x00 x00 x00 x00 x00 x00)) E))
(T (W x00 x00 x00 x00 x00 x00 x00 x00)
(T (W x0a x00 x0a x00 x13 x00 x0a x00)
(L (W x00 x00 x04 x01 x03 x01 x00 x00)) E)
(T (W x00 x00 x00 x01 x01 x01 x01 x01)
(L (W x00 x00 xff x00 x00 x00 x00 x00)) E)))
(T (W x00 x00 x00 x01 x01 x01 x01 x01)
(T (W x03 x03 x00 x00 x00 x00 x00 x00)
(T (W x00 x00 x00 x00 x00 x00 x00 x00)
(L (W x30 x0a x00 x00 x00 x02 x29 x00))
(L (W x00 x00 x00 x01 x01 x01 x01 x01)))
(T (W x01 x48 x46 x00 x32 x00 x69 x00)
(L (W x01 x00 x01 x00 x01 x00 x01 x00)) E))
(T (W x00 x00 x94 x01 x5e x01 x00 x00)
(T (W x00 x00 x3f x14 x32 x03 x08 x08)
(L (W x00 x00 x55 x00 xcf x02 xac x00)) E)
(T (W x00 x00 x00 x00 x00 x00 x00 x00)
(L (W x00 x00 x00 x00 x00 x00 x00 x00)) E))))
(T (W x00 x00 x3a x00 xf8 x01 x00 x00)
(T (W x00 x00 x00 x00 x00 x00 x8a x00)
(T (W x01 x00 x01 x00 x01 x00 x01 x00)
(T (W x00 x00 x00 x01 x01 x01 x01 x01)
(L (W x00 x00 xff x78 x00 x05 x0f x0f))
(L (W x00 x00 x00 x00 x00 x00 x00 x00)))
(T (W x00 x00 x00 x00 x00 x00 x00 x00)
(L (W x00 x00 x00 x00 x00 x00 x00 x00)) E))
(T (W x3c x00 x64 x32 x00 x00 x00 x00)
(T (W x04 x04 x00 x00 x00 x00 x00 x00)
(L (W x01 x41 xb1 x00 xc8 x00 xd6 x06)) E)
(T (W x52 x79 x77 x47 x45 x3b x05 x0f)
(L (W x00 x00 x00 x00 x00 x00 x00 x00)) E)))
(T (W x46 x64 x73 x1e x1e x41 x05 x05)
(T (W x00 x00 x7f x14 x32 x00 x02 x04)
(T (W x1f x10 x02 x00 x0f x00 x00 x00)
(L (W x3c x00 x55 x28 x00 x00 x00 x00)) E)
(T (W x00 x00 x00 x00 x00 x00 x00 x00)
(L (W x02 x02 x00 x00 x00 x00 x00 x00)) E))
(T (W x01 x41 x3c x00 x3c x00 xa5 x01)
(T (W x00 x40 x00 x12 x00 x18 x00 x00)
(L (W x00 x00 x00 x01 x01 x01 x01 x01)) E)
(T (W x0e x00 x10 x00 x13 x00 x19 x00)
(L (W x00 x00 x0e x00 x90 x01 x00 x00)) E)))))))))
(T (W x00 x00 x00 x00 x00 x00 x01 x00)
(T (W x00 x00 x4a x00 xca x00 x00 x00)
(T (W x04 x05 x00 x00 x00 x00 x00 x00)
(T (W x3c x00 x4b x32 x00 x00 x00 x00)
(T (W x00 x00 x00 x00 x00 x00 x00 x00)
(T (W x01 x00 x01 x00 x01 x00 x01 x00)
(T (W x00 x00 x7f x14 x32 x03 x0b x0b)
(T (W x00 x00 x00 x00 x00 x00 x00 x00)
(T (W x11 xc4 x08 x40 x20 x08 x00 x02)
(L (W x03 x03 x03 x01 x01 x01 x01 x01))
(L (W x00 x00 x7f x14 x32 x00 x0b x0b)))
(T (W x0e x00 x10 x00 x13 x00 x19 x00)
(L (W x00 x00 x49 x00 x96 x01 x00 x00)) E))
(T (W xc0 x11 x80 x02 x00 x00 x00 x00)
(T (W x00 x00 x00 x00 x00 x00 xef x00)
(L (W x03 x04 x00 x00 x00 x00 x00 x00)) E)
(T (W x00 x00 x00 x00 x00 x00 x00 x00)
(L (W x7d x78 x5a x5f xaa x64 x0f x0e)) E)))
(T (W x3c x00 x5f x37 x00 x00 x00 x00)
(T (W x03 x03 x03 x01 x01 x01 x01 x01)
(T (W x00 x00 x00 x00 x00 x00 x00 x00)
(L (W xe2 x71 x40 x80 x00 x00 x00 x00))
(L (W x00 x00 x00 x00 x00 x00 x00 x00)))
(T (W x00 x00 x7f x14 x32 x00 x08 x08)
(L (W x00 x00 x00 x00 x00 x00 x00 x00)) E))
(T (W x01 x01 x00 x00 x00 x00 x00 x00)
(T (W x00 x00 x00 x00 x00 x00 x00 x00)
(L (W x00 x00 x00 x00 x00 x00 x00 x00)) E)
(T (W x01 x41 x68 x00 x0e x01 xca x08)
(L (W x01 x00 x01 x00 x01 x00 x01 x00)) E))))
(T (W x01 x01 x00 x00 x00 x00 x00 x00)
(T (W x00 x20 x08 x40 x40 x00 x10 x00)
(T (W x00 x00 x00 x00 x00 x00 x00 x00)
(T (W x00 x00 x00 x00 x00 x00 x00 x00)
(L (W x37 x37 x50 x0f x46 x2d x07 x04))
(L (W x13 xc4 x00 x10 x60 x04 x20 x00)))
(T (W x04 x04 x00 x00 x00 x00 x00 x00)
(L (W x00 x00 x00 x00 x00 x00 x00 x00)) E))
(T (W x0e x00 x10 x00 x13 x00 x19 x00)
(T (W x00 x00 x00 x01 x01 x01 x01 x01)
(L (W x00 x00 x7f x0f x32 x00 x05 x05)) E)
(T (W x00 x00 x0e x02 x67 x01 x00 x00)
(L (W x00 x00 x00 x00 x00 x00 x00 x00)) E)))
(T (W x00 x00 x2d x00 x73 x00 x00 x00)
(T (W x50 x78 x46 x50 x6e x46 x09 x01)
(T (W x01 x41 x3c x00 x46 x00 xcd x00)
(L (W x0e x00 x10 x00 x13 x00 x19 x00))
(L (W x00 x00 x00 x00 x00 x00 x00 x00)))
(T (W x32 x40 x00 x04 x14 x00 x02 x00)
(L (W x00 x00 x00 x01 x01 x01 x01 x01)) E))
(T (W x00 x00 x7f x14 x32 x01 x02 x0e)
(T (W x00 x10 x02 x00 x00 x00 x00 x00)
(L (W x00 x00 x00 x00 x00 x00 x00 x00)) E)
(T (W x00 x00 x00 x00 x00 x00 xd2 x02)
(L (W x01 x01 x00 x00 x00 x00 x00 x00)) E)))))
(T (W x00 x00 x42 x01 x6b x00 x00 x00)
(T (W x01 x45 xc2 x00 xbe x00 x0e x06)
(T (W x04 x04 x04 x01 x01 x01 x01 x01)
(T (W x01 x01 x00 x00 x00 x00 x00 x00)
(T (W x64 x64 x64 x64 x64 x64 x08 x0d)
(L (W x30 x88 x00 x42 x10 x42 x02 x08))
(L (W x00 x00 x00 x01 x01 x01 x01 x01)))
(T (W x01 x47 xb3 x00 xa0 x00 x2b x03)
(L (W x01 x00 x01 x00 x01 x00 x01 x00)) E))
(T (W x00 x00 x0e x00 x67 x00 x00 x00)
(T (W x00 x00 xfe x14 x32 x00 x06 x0a)
(L (W x00 x00 x00 x00 x00 x00 x52 x03)) E)
(T (W x00 x00 x00 x00 x00 x00 x00 x00)
(L (W x00 x00 x00 x00 x00 x00 x00 x00)) E)))
(T (W x00 x00 x00 x00 x00 x00 x00 x00)
(T (W x03 x00 x02 x00 x00 x04 x10 x00)
(T (W x01 x00 x01 x00 x01 x00 x01 x00)
(L (W x00 x00 x00 x00 x00 x00 x00 x00))
(L (W x80 x11 x80 x12 x00 x00 x00 x00)))
(T (W x03 x06 x04 x01 x01 x01 x02 x02)
(L (W x00 x00 xff x78 x00 x05 x0f x0f)) E))
(T (W x00 x00 x00 x00 x00 x00 x52 x01)
(T (W x32 x00 x50 x28 x00 x00 x00 x00)
(L (W x64 x41 x3c x82 x91 x50 x07 x07)) E)
(T (W x03 x03 x00 x00 x00 x00 x00 x00)
(L (W x00 x00 x00 x00 x00 x00 x00 x00)) E))))
(T (W x00 x00 x00 x00 x00 x00 x51 x00)
(T (W x14 x0a x37 x50 x0f x14 x0a x0a)
(T (W x00 x00 xbf x14 x32 x04 x02 x09)
(T (W x00 x00 x00 x00 x00 x00 x00 x00)
(L (W x3c x00 x64 x37 x00 x00 x00 x00))
(L (W x00 x00 x00 x00 x00 x00 x00 x00)))
(T (W x00 x00 x00 x00 x00 x00 x00 x00)
(L (W x02 x03 x00 x00 x00 x00 x00 x00)) E))
(T (W x01 x43 x8c x00 x1e x00 x14 x00)
(T (W x00 x00 x00 x00 x00 x00 x00 x00)
(L (W x03 x02 x06 x01 x01 x01 x01 x02)) E)
(T (W x0e x00 x10 x00 x13 x00 x19 x00)
(L (W x00 x00 x00 x00 x00 x00 x00 x00)) E)))
(T (W x0e x00 x10 x00 x13 x00 x19 x00)
(T (W x00 x00 x00 x00 x00 x00 x00 x00)
(T (W x03 x04 x00 x00 x00 x00 x00 x00)
(L (W x01 x45 x31 x00 x3c x00 x59 x00)) E)
(T (W x4f x73 x46 x6f x7d x50 x02 x02)
(L (W xb8 x48 x91 x00 x21 x2c x20 x00)) E))
(T (W x04 x04 x04 x01 x01 x01 x01 x01)
(T (W x00 x00 x4a x00 x49 x02 x00 x00)
(L (W x00 x00 x00 x00 x00 x00 x00 x00)) E)
(T (W x00 x00 x7f x00 x00 x00 x00 x00)
(L (W x00 x00 x00 x00 x00 x00 x00 x00)) E))))))
(T (W x00 x00 x00 x00 x00 x00 x00 x00)
(T (W x00 x00 xfe x14 x32 x03 x0f x0f)
(T (W x2a x04 x00 x8c x10 x02 x22 x84)
(T (W x00 x00 x0e x00 x98 x00 x00 x00)
(T (W x00 x00 x00 x00 x00 x00 x00 x00)
(T (W x01 x47 x22 x01 xbe x00 x02 x08)
(L (W x0e x00 x10 x00 x13 x00 x19 x00))
(L (W x00 x00 x00 x00 x00 x00 x00 x00)))
(T (W x81 x60 x00 x00 x29 x1c x10 x00)
(L (W x00 x00 x00 x01 x01 x01 x01 x01)) E))
(T (W x00 x00 x7f x00 x00 x00 x00 x00)
(T (W x00 x00 x00 x00 x00 x00 x00 x00)
(L (W x3c x00 x5a x2d x00 x00 x00 x00)) E)
(T (W x00 x00 x00 x00 x00 x00 x00 x00)
(L (W x02 x02 x00 x00 x00 x00 x00 x00)) E)))
(T (W x00 x00 x00 x00 x00 x00 x92 x00)
(T (W x0e x00 x10 x00 x13 x00 x19 x00)
(T (W x04 x04 x04 x01 x01 x01 x01 x01)
(L (W x00 x00 xff x78 x00 x05 x0f x0f))
(L (W x00 x00 x00 x00 x00 x00 x4d x03)))
(T (W x00 x00 xa1 x02 x12 x02 x00 x00)
(L (W x00 x10 x02 x00 x04 x00 x00 x00)) E))
(T (W x00 x00 x00 x00 x00 x00 x00 x00)
(T (W x05 x05 x00 x00 x00 x00 x00 x00)
(L (W x01 x47 x4d x00 x3c x00 x78 x00)) E)
(T (W x44 x4b x35 x3c x53 x71 x0f x0f)
(L (W x00 x00 x00 x00 x00 x00 x00 x00)) E))))
(T (W x00 x00 x00 x00 x00 x00 x00 x00)
(T (W x01 x43 x64 x00 x96 x00 x30 x02)
(T (W x00 x00 x00 x00 x00 x00 x00 x00)
(T (W x00 x00 x00 x00 x00 x00 x00 x00)
(L (W x01 x01 x00 x00 x00 x00 x00 x00))
(L (W x12 x47 x1d x01 xe6 x00 xed x03)))
(T (W x3c x00 x55 x32 x00 x00 x00 x00)
(L (W x00 x00 x00 x00 x00 x00 x00 x00)) E))
(T (W x09 x00 x00 x00 x00 x00 x41 x00)
(T (W x01 x00 x01 x00 x01 x00 x01 x00)
(L (W x00 x00 x32 x00 x59 x00 x00 x00)) E)
(T (W x03 x03 x03 x01 x01 x01 x01 x01)
(L (W x00 x00 xff x00 x00 x00 x00 x00)) E)))
(T (W x02 x02 x02 x01 x01 x01 x02 x02)
(T (W x01 x01 x00 x00 x00 x00 x00 x00)
(T (W x44 x48 x4e x20 x26 x2a x04 x04)
(L (W x20 x00 x00 x00 x14 x00 x20 x00)) E)
(T (W x01 x41 x2c x01 xb4 x00 x40 x06)
(L (W x01 x00 x01 x00 x01 x00 x01 x00)) E))
(T (W x00 x00 x32 x00 x05 x01 x00 x00)
(T (W x00 x00 x7f x00 x00 x00 x00 x00)
(L (W x00 x00 x00 x00 x00 x00 x25 x00)) E)
(T (W x80 x50 x80 x02 x00 x00 x00 x00)
(L (W x00 x00 x00 x00 x00 x00 x00 x00)) E)))))
(T (W x03 x03 x03 x01 x01 x01 x02 x02)
(T (W x37 x32 x2d x78 x87 x5f x0d x0d)
(T (W x0e x00 x10 x00 x13 x00 x19 x00)
(T (W x00 x00 x00 x00 x00 x00 x00 x00)
(T (W x01 x01 x00 x00 x00 x00 x00 x00)
(L (W x01 x46 xff x00 x78 x00 xd6 x00))
(L (W x0e x00 x10 x00 x13 x00 x19 x00)))
(T (W x2d x1e x28 x14 x69 x32 x0d x0d)
(L (W x00 x00 x00 x00 x00 x00 x00 x00)) E))
(T (W x00 x00 x00 x01 x01 x01 x01 x01)
(T (W x00 x00 x00 x00 x00 x00 x00 x00)
(L (W x00 x10 x80 x10 x00 x00 x00 x00)) E)
(T (W x00 x00 xfe x00 x00 x00 x00 x00)
(L (W x00 x00 x00 x00 x00 x00 x00 x00)) E)))
(T (W x00 x00 x1f x00 x00 x00 x00 x00)
(T (W x01 x43 x2c x01 x3c x00 x32 x00)
(T (W x46 x41 x12 x00 x60 xb4 x08 x00)
(L (W x02 x02 x02 x01 x01 x01 x01 x02))
(L (W x00 x00 x7f x19 x32 x05 x02 x05)))
(T (W x0e x00 x10 x00 x13 x00 x19 x00)
(L (W x00 x00 x00 x00 x00 x00 x00 x00)) E))
(T (W xc0 x30 x02 x28 x00 x00 x00 x00)
(T (W x00 x00 x00 x00 x00 x00 x11 x02)
(L (W x03 x04 x00 x00 x00 x00 x00 x00)) E)
(T (W x00 x00 x00 x00 x00 x00 x00 x00)
(L (W x00 x00 x00 x00 x00 x00 x00 x00)) E))))
(T (W x00 x00 x00 x00 x00 x00 x00 x00)
(T (W x04 x04 x00 x00 x00 x00 x00 x00)
(T (W x00 x00 xd3 x00 x41 x00 x00 x00)
(T (W x00 x00 x00 x00 x00 x00 x00 x00)
(L (W x00 x00 xcd x02 xba x02 x12 x03))
(L (W x01 x01 x00 x00 x00 x00 x00 x00)))
(T (W x00 x10 x01 x00 x00 x00 x00 x00)
(L (W x00 x00 x00 x00 x00 x00 x00 x00)) E))
(T (W xaa x5a x2d x3c x5a x2d x0a x0a)
(T (W x01 x47 x82 x00 x5a x00 x93 x00)
(L (W x0e x00 x10 x00 x13 x00 x19 x00)) E)
(T (W x02 x20 x00 x45 x41 x40 x10 x00)
(L (W x00 x00 x00 x01 x01 x01 x01 x01)) E)))
(T (W x00 x00 x00 x00 x00 x00 x00 x00)
(T (W x00 x00 x00 x00 x00 x00 x11 x01)
(T (W x32 x00 x55 x14 x00 x00 x00 x00)
(L (W x32 x40 x32 x2c x26 x26 x0a x0a)) E)
(T (W x05 x06 x00 x00 x00 x00 x00 x00)
(L (W x00 x00 x00 x00 x00 x00 x00 x00)) E))
(T (W x01 x00 x01 x00 x01 x00 x01 x00)
(T (W x03 x03 x03 x01 x01 x01 x01 x01)
(L (W x00 x00 xff x00 x00 x00 x00 x00)) E)
(T (W x00 x00 x00 x00 x00 x00 x00 x00)
(L (W x00 x00 x00 x00 x00 x00 x00 x00)) E)))))))
(T (W x03 x02 x02 x01 x01 x01 x01 x01)
(T (W x01 x00 x01 x00 x01 x00 x01 x00)
(T (W x02 x42 x3c x00 x3c x00 x78 x00)
(T (W x00 x00 x00 x00 x00 x00 x32 x00)
(T (W x00 x00 x00 x00 x00 x00 x00 x00)
(T (W x00 x00 x7f x00 x00 x00 x00 x00)
(T (W x20 x10 x02 x00 x06 x00 x00 x00)
(L (W x3c x00 x5a x41 x00 x00 x00 x00))
(L (W x55 x64 x7a x36 x3a x4b x07 x0b)))
(T (W x00 x00 x00 x00 x00 x00 x32 x02)
(L (W x04 x04 x00 x00 x00 x00 x00 x00)) E))
(T (W x00 x00 x00 x00 x00 x00 x00 x00)
(T (W x00 x00 x00 x00 x00 x00 x00 x00)
(L (W x03 x03 x02 x01 x01 x01 x01 x01)) E)
(T (W x01 x00 x01 x00 x01 x00 x01 x00)
(L (W x00 x00 x9b x01 x38 x00 x00 x00)) E)))
(T (W x0e x00 x10 x00 x13 x00 x19 x00)
(T (W x32 x00 x50 x28 x00 x00 x00 x00)
(T (W x03 x04 x00 x00 x00 x00 x00 x00)
(L (W x01 x48 x1d x01 xb4 x00 xfa x00))
(L (W x0e x00 x10 x00 x13 x00 x19 x00)))
(T (W x3c x37 x5a x50 x91 x5a x07 x09)
(L (W x00 x00 x00 x00 x00 x00 x00 x00)) E))
(T (W x03 x03 x03 x01 x01 x01 x01 x01)
(T (W x00 x00 x00 x00 x00 x00 x00 x00)
(L (W x3c x90 x30 xc0 x02 x00 x00 x00)) E)
(T (W x00 x00 x7f x14 x32 x00 x05 x06)
(L (W x00 x00 x00 x00 x00 x00 x00 x00)) E))))
(T (W x04 x04 x04 x01 x01 x01 x01 x01)
(T (W x00 x10 x00 x00 x00 x00 x00 x00)
(T (W x00 x40 x10 x00 x08 x58 x00 x00)
(T (W x01 x00 x01 x00 x01 x00 x01 x00)
(L (W x00 x00 x5c x00 xae x00 x00 x00))
(L (W x1e x10 x20 x80 x00 x00 x00 x00)))
(T (W x00 x00 x00 x01 x01 x01 x01 x01)
(L (W x00 x00 xff x00 x00 x00 x00 x00)) E))
(T (W x00 x00 x00 x00 x00 x00 x30 x01)
(T (W x00 x00 x00 x00 x00 x00 x00 x00)
(L (W x3e x87 x5f x41 x44 x52 x01 x01)) E)
(T (W x03 x03 x00 x00 x00 x00 x00 x00)
(L (W x00 x00 x00 x00 x00 x00 x00 x00)) E)))
(T (W x01 x01 x00 x00 x00 x00 x00 x00)
(T (W x00 x00 x85 x00 x4a x01 x00 x00)
(T (W x00 x00 x1f x28 x32 x05 x0f x0f)
(L (W x00 x00 x00 x00 x00 x00 x30 x03))
(L (W x02 x02 x00 x00 x00 x00 x00 x00)))
(T (W x06 x90 x00 x00 x04 x00 x00 x00)
(L (W x00 x00 x00 x00 x00 x00 x00 x00)) E))
(T (W x00 x00 x00 x00 x00 x00 x00 x00)
(T (W x01 x41 xa3 x00 x8c x00 xfe x01)
(L (W x0e x00 x10 x00 x13 x00 x19 x00)) E)
(T (W x31 x08 x81 x00 x10 x00 x20 x00)
(L (W x00 x00 x00 x01 x01 x01 x01 x01)) E)))))
(T (W x05 x05 x00 x00 x00 x00 x00 x00)
(T (W x00 x00 x7f x14 x32 x03 x02 x02)
(T (W x3c x00 x64 x46 x00 x00 x00 x00)
(T (W x00 x00 x00 x01 x01 x01 x01 x01)
(T (W x00 x00 x00 x00 x00 x00 x00 x00)
(L (W x02 x18 x02 x00 x06 x00 x00 x00))
(L (W x37 x00 x55 x2d x00 x00 x00 x00)))
(T (W x00 x00 xbf x14 x32 x03 x08 x08)
(L (W x00 x00 x00 x00 x00 x00 x00 x00)) E))
(T (W x05 x06 x00 x00 x00 x00 x00 x00)
(T (W x50 x69 x69 x50 x69 x69 x0d x0d)
(L (W xa0 x20 x21 x00 x01 x00 x20 x00)) E)
(T (W x00 x00 x00 x00 x00 x00 x00 x00)
(L (W x01 x00 x01 x00 x01 x00 x01 x00)) E)))
(T (W x00 x00 x00 x00 x00 x00 x00 x00)
(T (W x1f x90 x22 x00 x0e x00 x00 x00)
(T (W x00 x00 x00 x00 x00 x00 xb2 x01)
(L (W x02 x02 x00 x00 x00 x00 x00 x00))
(L (W x09 x42 xad x00 x1e x00 x05 x00)))
(T (W x37 x00 x55 x2d x00 x00 x00 x00)
(L (W x00 x00 x00 x00 x00 x00 x00 x00)) E))
(T (W xa1 x60 x08 x10 x00 x00 x10 x00)
(T (W x0e x00 x10 x00 x13 x00 x19 x00)
(L (W x00 x00 x00 x00 x00 x00 x00 x00)) E)
(T (W x03 x02 x02 x01 x01 x01 x01 x01)
(L (W x00 x00 xff x00 x00 x00 x00 x00)) E))))
(T (W x00 x00 x00 x00 x00 x00 x00 x00)
(T (W x00 x00 xc4 x00 x17 x03 x00 x00)
(T (W x2d x37 x2d x4b x41 x2d x0e x02)
(T (W x00 x00 x00 x00 x00 x00 x00 x00)
(L (W x0e x00 x10 x00 x13 x00 x19 x00))
(L (W x00 x00 x00 x00 x00 x00 x00 x00)))
(T (W x00 x40 x10 x0a x42 x14 x00 x00)
(L (W x00 x00 x00 x01 x01 x01 x01 x01)) E))
(T (W x00 x00 x7f x14 x23 x05 x0c x0c)
(T (W x00 x00 x00 x00 x00 x00 x00 x00)
(L (W x3c x00 x55 x2d x00 x00 x00 x00)) E)
(T (W x00 x00 x00 x00 x00 x00 xb2 x02)
(L (W x01 x01 x00 x00 x00 x00 x00 x00)) E)))
(T (W x00 x00 x00 x00 x00 x00 xb1 x00)
(T (W x0e x00 x10 x00 x13 x00 x19 x00)
(T (W x00 x00 x00 x01 x01 x01 x01 x01)
(L (W x00 x00 x7f x14 x32 x00 x07 x07)) E)
(T (W x00 x00 x10 x03 x27 x02 x00 x00)
(L (W x00 x00 x00 x00 x00 x00 x00 x00)) E))
(T (W x3c x00 x64 x46 x00 x00 x00 x00)
(T (W x05 x05 x00 x00 x00 x00 x00 x00)
(L (W x02 x48 x52 x00 x50 x00 xf0 x00)) E)
(T (W x39 x52 x5f x24 x37 x4b x06 x0c)
(L (W x00 x00 x00 x00 x00 x00 x00 x00)) E))))))
(T (W x00 x00 x00 x00 x00 x00 x00 x00)
(T (W x3d x48 x39 x41 x37 x37 x03 x03)
(T (W x00 x00 x00 x00 x00 x00 x00 x00)
(T (W x04 x05 x00 x00 x00 x00 x00 x00)
(T (W x00 x00 x85 x00 x4a x01 x00 x00)
(T (W x00 x00 xff x78 x00 x05 x0f x0f)
(L (W x00 x00 x00 x00 x00 x00 xf1 x02))
(L (W x02 x02 x00 x00 x00 x00 x00 x00)))
(T (W x00 x14 x00 x00 x00 x00 x00 x00)
(L (W x00 x00 x00 x00 x00 x00 x00 x00)) E))
(T (W x00 x00 x00 x00 x00 x00 x00 x00)
(T (W x01 x48 x03 x01 xa0 x00 x08 x02)
(L (W x0e x00 x10 x00 x13 x00 x19 x00)) E)
(T (W x30 x08 x00 x00 x00 x00 x20 x00)
(L (W x00 x00 x00 x01 x01 x01 x01 x01)) E)))
(T (W x90 x80 x08 x40 x01 x0c x00 x02)
(T (W x00 x00 x00 x00 x00 x00 x71 x00)
(T (W x3c x00 x5a x3c x00 x00 x00 x00)
(L (W x50 x5f x73 x41 x82 x73 x08 x11))
(L (W x42 x00 x00 x04 x10 x00 x0e x00)))
(T (W x04 x04 x00 x00 x00 x00 x00 x00)
(L (W x06 x40 xb6 x00 x1e x00 x03 x00)) E))
(T (W x01 x00 x01 x00 x01 x00 x01 x00)
(T (W x03 x03 x03 x01 x01 x01 x01 x01)
(L (W x00 x00 xff x78 x23 x05 x0f x0f)) E)
(T (W x00 x00 x03 x01 x41 x02 x00 x00)
(L (W x00 x00 x00 x00 x00 x00 x00 x00)) E))))
(T (W x0e x00 x10 x00 x13 x00 x19 x00)
(T (W x00 x00 x3f x19 x32 x00 x08 x08)
(T (W x00 x00 x00 x00 x00 x00 x00 x00)
(T (W x81 x00 x00 x00 x00 x00 x41 x84)
(L (W x03 x03 x03 x01 x01 x01 x01 x01))
(L (W x00 x00 xff x78 x00 x05 x0f x0f)))
(T (W x0e x00 x10 x00 x13 x00 x19 x00)
(L (W x00 x00 x00 x00 x00 x00 x00 x00)) E))
(T (W x00 x00 x00 x00 x00 x00 x00 x00)
(T (W x00 x00 x00 x00 x00 x00 x00 x00)
(L (W x06 x06 x00 x00 x00 x00 x00 x00)) E)
(T (W x32 x00 x50 x28 x00 x00 x00 x00)
(L (W x00 x00 x00 x00 x00 x00 x00 x00)) E)))
(T (W x3c x00 x50 x28 x00 x00 x00 x00)
(T (W x00 x00 x00 x01 x01 x01 x01 x01)
(T (W x00 x00 x31 x01 xda x01 x00 x00)
(L (W x00 x00 x00 x00 x00 x00 x00 x00)) E)
(T (W x00 x00 xff x50 x23 x05 x0f x0f)
(L (W x00 x00 x00 x00 x00 x00 x2a x02)) E))
(T (W x01 x01 x00 x00 x00 x00 x00 x00)
(T (W x3c x64 x59 x70 x37 x45 x06 x03)
(L (W x2a x04 x00 x0c x10 x02 x22 x84)) E)
(T (W x00 x00 x00 x00 x00 x00 x00 x00)
(L (W x01 x00 x01 x00 x01 x00 x01 x00)) E)))))
(T (W x3c x00 x55 x2d x00 x00 x00 x00)
(T (W x00 x00 x53 x01 x17 x01 x00 x00)
(T (W x00 x00 x00 x00 x00 x00 x72 x00)
(T (W x01 x00 x01 x00 x01 x00 x01 x00)
(T (W x00 x00 x00 x01 x01 x01 x01 x01)
(L (W x00 x00 x7f x14 x32 x05 x05 x05))
(L (W x00 x00 x00 x00 x00 x00 x04 x03)))
(T (W x00 x00 xd8 x01 x5e x00 x00 x00)
(L (W x00 x00 x00 x00 x00 x00 x00 x00)) E))
(T (W x00 x00 x00 x00 x00 x00 x00 x00)
(T (W x02 x02 x00 x00 x00 x00 x00 x00)
(L (W x01 x49 x35 x00 x28 x00 x37 x00)) E)
(T (W x00 x00 x00 x00 x00 x00 x00 x00)
(L (W x00 x00 x00 x00 x00 x00 x00 x00)) E)))
(T (W x00 x00 x00 x00 x00 x00 x00 x00)
(T (W x00 x00 x1f x14 x32 x03 x01 x0e)
(T (W x00 x10 x00 x00 x00 x00 x00 x00)
(L (W x3c x00 x55 x32 x00 x00 x00 x00))
(L (W x5c xaa x73 x94 x50 x73 x11 x08)))
(T (W x00 x00 x00 x00 x00 x00 x72 x02)
(L (W x01 x01 x00 x00 x00 x00 x00 x00)) E))
(T (W x01 x47 x47 x00 x46 x00 x7d x00)
(T (W xa0 x00 x21 x02 x01 x28 x20 x40)
(L (W x02 x06 x05 x01 x01 x01 x02 x02)) E)
(T (W x0a x00 x0a x00 x0a x00 x0a x00)
(L (W x00 x00 x00 x00 x00 x00 x00 x00)) E))))
(T (W x01 x46 xb8 x00 x96 x00 x2d x05)
(T (W x04 x04 x04 x01 x01 x01 x01 x01)
(T (W x03 x04 x00 x00 x00 x00 x00 x00)
(T (W x00 x00 x00 x00 x00 x00 x00 x00)
(L (W x00 x00 x00 x00 x00 x00 x00 x00))
(L (W x00 x00 x00 x01 x01 x01 x01 x01)))
(T (W x00 x00 x00 x00 x00 x00 x00 x00)
(L (W x01 x00 x01 x00 x01 x00 x01 x00)) E))
(T (W x00 x00 x00 x00 x00 x00 x00 x00)
(T (W x00 x00 x7f x14 x32 x00 x05 x05)
(L (W x00 x00 x00 x00 x00 x00 x72 x03)) E)
(T (W x1c x10 x02 x00 x04 x00 x00 x00)
(L (W x00 x00 x00 x00 x00 x00 x00 x00)) E)))
(T (W x00 x10 x82 x02 x02 x00 x00 x00)
(T (W x00 x00 x00 x00 x00 x00 x00 x00)
(T (W x0e x00 x10 x00 x13 x00 x19 x00)
(L (W x00 x00 x61 x02 xd1 x00 x00 x00)) E)
(T (W x00 x00 x00 x01 x01 x01 x01 x01)
(L (W x00 x00 x00 x78 x5a x05 x0f x0f)) E))
(T (W x00 x00 x00 x00 x00 x00 x00 x00)
(T (W x3c x00 x55 x32 x00 x00 x00 x00)
(L (W x00 x00 x00 x00 x00 x00 x00 x00)) E)
(T (W x03 x03 x00 x00 x00 x00 x00 x00)
(L (W x02 x45 xfa x00 xaa x00 x12 x02)) E))))))))
(T (W x11 x88 x88 x40 x00 x00 x20 x00)
(T (W x00 x10 x00 x40 x00 x00 x00 x00)
(T (W x00 x00 x7f x00 x00 x00 x00 x00)
(T (W x02 x06 x03 x01 x01 x01 x02 x02)
(T (W x00 x00 x00 x00 x00 x00 x00 x00)
(T (W x0e x00 x10 x00 x13 x00 x19 x00)
(T (W x00 x00 x00 x00 x00 x00 x00 x00)
(T (W x04 x05 x00 x00 x00 x00 x00 x00)
(L (W x01 x41 x3d x00 x28 x00 x50 x00))
(L (W x0e x00 x10 x00 x13 x00 x19 x00)))
(T (W x48 x3a x50 x61 x67 x50 x0d x02)
(L (W x3a x08 x50 x04 x00 x40 x00 x1c)) E))
(T (W x02 x02 x01 x01 x01 x01 x01 x01)
(T (W x00 x00 x07 x00 xb4 x01 x00 x00)
(L (W x00 x00 x00 x00 x00 x00 x00 x00)) E)
(T (W x00 x00 x1f x00 x00 x00 x00 x00)
(L (W x00 x00 x00 x00 x00 x00 x86 x02)) E)))
(T (W x00 x00 x1f x23 x32 x05 x04 x04)
(T (W x00 x00 x00 x00 x00 x00 x00 x00)
(T (W x00 x00 x00 x08 x02 x20 x00 x14)
(L (W x03 x00 x00 x01 x01 x01 x01 x01))
(L (W x00 x00 xff x78 x00 x05 x0f x0f)))
(T (W x0e x00 x10 x00 x13 x00 x19 x00)
(L (W x00 x00 x00 x00 x00 x00 x00 x00)) E))
(T (W x00 x10 x02 x00 x00 x00 x00 x00)
(T (W x00 x00 x00 x00 x00 x00 x00 x00)
(L (W x04 x04 x00 x00 x00 x00 x00 x00)) E)
(T (W x3c x00 x55 x32 x00 x00 x00 x00)
(L (W x00 x00 x00 x00 x00 x00 x00 x00)) E))))
(T (W x00 x36 x00 x00 x02 x00 x00 x00)
(T (W x03 x03 x00 x00 x00 x00 x00 x00)
(T (W x00 x00 xfe x00 x17 x01 x00 x00)
(T (W x00 x00 x7f x00 x00 x00 x00 x00)
(L (W x00 x00 x00 x00 x00 x00 x01 x03))
(L (W x05 x05 x00 x00 x00 x00 x00 x00)))
(T (W x01 x10 x00 x00 x00 x00 x00 x00)
(L (W x00 x00 x00 x00 x00 x00 x00 x00)) E))
(T (W x3c x5a x8c x28 x32 x32 x08 x05)
(T (W x00 x00 x00 x00 x00 x00 x00 x00)
(L (W x0e x00 x10 x00 x13 x00 x19 x00)) E)
(T (W x40 x01 x02 x04 x32 x00 x28 x04)
(L (W x00 x00 x00 x01 x01 x01 x01 x01)) E)))
(T (W x00 x00 x00 x00 x00 x00 x00 x00)
(T (W x00 x00 x00 x00 x00 x00 x02 x01)
(T (W x37 x00 x55 x2d x00 x00 x00 x00)
(L (W x41 x3c x37 x5a x5f x37 x0a x0a))
(L (W xa1 x04 x21 x0c x12 x21 x00 xa0)))
(T (W x05 x06 x00 x00 x00 x00 x00 x00)
(L (W x00 x00 x00 x00 x00 x00 x00 x00)) E))
(T (W x01 x00 x01 x00 x01 x00 x01 x00)
(T (W x03 x03 x02 x01 x01 x01 x01 x01)
(L (W x00 x00 x7f x0a x32 x00 x05 x06)) E)
(T (W x00 x00 x36 x01 x4b x00 x00 x00)
(L (W x00 x00 x00 x00 x00 x00 x00 x00)) E)))))
(T (W x10 x08 x80 x04 x22 x00 x02 x00)
(T (W x28 x00 x46 x28 x00 x00 x00 x00)
(T (W x01 x45 x9f x00 x8c x00 xf6 x01)
(T (W x00 x00 x00 x00 x00 x00 x00 x00)
(T (W x00 x00 x00 x00 x00 x00 x00 x00)
(L (W x03 x03 x00 x00 x00 x00 x00 x00))
(L (W x02 x45 x38 x00 x32 x00 x5c x00)))
(T (W x32 x00 x50 x1e x00 x00 x00 x00)
(L (W x00 x00 x00 x00 x00 x00 x00 x00)) E))
(T (W x0a x04 x00 x00 x20 x00 x20 x00)
(T (W x0e x00 x10 x00 x13 x00 x19 x00)
(L (W x00 x00 xe9 x01 xac x00 x00 x00)) E)
(T (W x00 x00 x00 x01 x01 x01 x01 x01)
(L (W x00 x00 xff x00 x00 x00 x00 x00)) E)))
(T (W x00 x00 x00 x01 x01 x01 x01 x01)
(T (W x04 x05 x00 x00 x00 x00 x00 x00)
(T (W x00 x00 x00 x00 x00 x00 x00 x00)
(L (W x80 x41 x10 x00 x60 x9c x08 x41))
(L (W x04 x03 x02 x01 x01 x01 x01 x01)))
(T (W x01 x42 x46 x00 x5a x00 xc8 x00)
(L (W x01 x00 x01 x00 x01 x00 x01 x00)) E))
(T (W x00 x00 x60 x01 x4a x01 x00 x00)
(T (W x00 x00 x7f x0f x32 x03 x0a x0a)
(L (W x00 x00 x00 x00 x00 x00 x82 x03)) E)
(T (W x09 x10 x00 x00 x00 x00 x00 x00)
(L (W x00 x00 x00 x00 x00 x00 x00 x00)) E))))
(T (W x00 x00 x93 x01 x0e x00 x00 x00)
(T (W x00 x00 x00 x00 x00 x00 x81 x00)
(T (W x0e x00 x10 x00 x13 x00 x19 x00)
(T (W x00 x00 x00 x01 x01 x01 x01 x01)
(L (W x00 x00 x7f x28 x32 x05 x0e x0e))
(L (W x00 x00 x00 x00 x00 x00 x00 x00)))
(T (W x00 x00 x0f x02 xe6 x01 x00 x00)
(L (W x02 x90 x20 x00 x04 x00 x00 x00)) E))
(T (W x00 x00 x00 x00 x00 x00 x00 x00)
(T (W x01 x01 x00 x00 x00 x00 x00 x00)
(L (W x02 x41 xa5 x00 x8c x00 x7a x03)) E)
(T (W x48 x69 x73 x44 x36 x56 x05 x0a)
(L (W x00 x00 x00 x00 x00 x00 x00 x00)) E)))
(T (W x28 x32 x2d x46 x46 x2d x0d x02)
(T (W x00 x00 x7f x0f x32 x03 x02 x07)
(T (W x00 x00 x00 x00 x00 x00 x00 x00)
(L (W x3c x00 x55 x28 x00 x00 x00 x00)) E)
(T (W x00 x00 x00 x00 x00 x00 x82 x02)
(L (W x03 x03 x00 x00 x00 x00 x00 x00)) E))
(T (W x01 x41 x3a x00 x50 x00 x8b x01)
(T (W x00 x00 x04 x08 x82 x20 x00 x00)
(L (W x00 x00 x00 x01 x01 x01 x01 x01)) E)
(T (W x01 x00 x01 x00 x01 x00 x01 x00)
(L (W x00 x00 x00 x00 x00 x00 x00 x00)) E))))))
(T (W x00 x00 x00 x00 x00 x00 x00 x00)
(T (W x0e x00 x10 x00 x13 x00 x19 x00)
(T (W x03 x04 x00 x00 x00 x00 x00 x00)
(T (W x00 x00 x00 x00 x00 x00 x00 x00)
(T (W x00 x00 x00 x00 x00 x00 xc2 x00)
(T (W x00 x00 x00 x00 x00 x00 x00 x00)
(L (W x28 x37 x23 x23 x32 x23 x0b x0b))
(L (W x81 x04 x08 x40 x29 x68 x00 x40)))
(T (W x03 x04 x00 x00 x00 x00 x00 x00)
(L (W x00 x00 x00 x00 x00 x00 x00 x00)) E))
(T (W x01 x00 x01 x00 x01 x00 x01 x00)
(T (W x03 x03 x03 x01 x01 x01 x01 x01)
(L (W x00 x00 x7f x14 x32 x05 x0c x0c)) E)
(T (W x00 x00 xa1 x02 xa2 x00 x00 x00)
(L (W x02 x10 x04 x00 x00 x00 x00 x00)) E)))
(T (W x00 x00 x56 x00 xef x00 x00 x00)
(T (W x5f x50 x69 x64 x28 x46 x00 x00)
(T (W x01 x45 x46 x00 x28 x00 x37 x00)
(L (W x0a x00 x0a x00 x13 x00 x0a x00))
(L (W x00 x00 x5c x00 x4a x02 x00 x00)))
(T (W x80 x00 x00 x00 x00 x20 x00 x04)
(L (W x03 x03 x05 x01 x01 x01 x01 x02)) E))
(T (W x00 x00 x7f x14 x32 x01 x04 x0e)
(T (W x00 x10 x00 x80 x00 x00 x00 x00)
(L (W x00 x00 x00 x00 x00 x00 x00 x00)) E)
(T (W x00 x00 x00 x00 x00 x00 xc0 x02)
(L (W x01 x01 x00 x00 x00 x00 x00 x00)) E))))
(T (W x00 x00 x7f x14 x32 x00 x05 x05)
(T (W x32 x00 x50 x32 x00 x00 x00 x00)
(T (W x00 x00 x00 x01 x01 x01 x01 x01)
(T (W x00 x00 x2c x00 xd1 x00 x00 x00)
(L (W x00 x14 x02 x00 x06 x00 x00 x00))
(L (W x3c x00 x50 x32 x00 x00 x00 x00)))
(T (W x00 x00 x7f x14 x32 x00 x07 x07)
(L (W x00 x00 x00 x00 x00 x00 x00 x00)) E))
(T (W x03 x03 x00 x00 x00 x00 x00 x00)
(T (W x00 x00 x00 x00 x00 x00 x00 x00)
(L (W x00 x00 x02 x00 x02 x00 x04 x14)) E)
(T (W x01 x49 xa2 x00 x50 x00 x9b x00)
(L (W x01 x00 x01 x00 x01 x00 x01 x00)) E)))
(T (W x01 x41 xa1 x00 x78 x00 xe1 x00)
(T (W x02 x90 x10 x00 x04 x00 x00 x00)
(T (W x00 x00 x00 x00 x00 x00 xc1 x01)
(L (W x03 x03 x00 x00 x00 x00 x00 x00)) E)
(T (W x37 x00 x55 x2d x00 x00 x00 x00)
(L (W x46 x5c x41 x62 x50 x37 x0a x0a)) E))
(T (W x00 x00 x00 x00 x00 x00 x00 x00)
(T (W x0e x00 x10 x00 x13 x00 x19 x00)
(L (W x00 x00 x36 x01 xe8 x00 x00 x00)) E)
(T (W x03 x03 x02 x01 x01 x01 x01 x01)
(L (W x00 x00 xff x00 x00 x00 x00 x00)) E)))))
(T (W x01 x41 x40 x00 x32 x00 x36 x00)
(T (W x00 x00 x00 x00 x00 x00 x42 x00)
(T (W xfa x05 x05 x32 x23 x69 x00 x00)
(T (W x00 x00 x7f x14 x32 x00 x05 x05)
(T (W x00 x00 x00 x00 x00 x00 x00 x00)
(L (W x37 x00 x55 x37 x00 x00 x00 x00))
(L (W x5f x5f x5f x5f x5f x5f x03 x03)))
(T (W x00 x00 x00 x00 x00 x00 x41 x02)
(L (W x01 x01 x00 x00 x00 x00 x00 x00)) E))
(T (W x00 x00 x00 x00 x00 x00 x00 x00)
(T (W x39 x48 x00 x44 x48 x9c x00 x01)
(L (W x04 x04 x03 x01 x01 x01 x01 x01)) E)
(T (W x01 x00 x01 x00 x01 x00 x01 x00)
(L (W x00 x00 x00 x00 x00 x00 x00 x00)) E)))
(T (W x01 x00 x01 x00 x01 x00 x01 x00)
(T (W x28 x00 x46 x28 x00 x00 x00 x00)
(T (W x03 x04 x00 x00 x00 x00 x00 x00)
(L (W x01 x43 x93 x00 x46 x00 x8c x00))
(L (W x0e x00 x10 x00 x13 x00 x19 x00)))
(T (W x41 x7d x64 x46 x3c x46 x10 x08)
(L (W x00 x00 x00 x00 x00 x00 x00 x00)) E))
(T (W x04 x04 x04 x01 x01 x01 x01 x01)
(T (W x00 x00 x2d x00 x30 x01 x00 x00)
(L (W x00 x10 x85 x04 x00 x00 x00 x00)) E)
(T (W x00 x00 xff x78 x00 x05 x0f x0f)
(L (W x00 x00 x00 x00 x00 x00 x00 x00)) E))))
(T (W x00 x00 x00 x01 x01 x01 x01 x01)
(T (W x10 x90 x00 x10 x00 x00 x00 x00)
(T (W x00 x00 x00 x00 x00 x00 x00 x00)
(T (W x0e x00 x10 x00 x13 x00 x19 x00)
(L (W x00 x00 x00 x00 x00 x00 x00 x00))
(L (W x00 x00 x00 x00 x00 x00 x00 x00)))
(T (W x0e x0a x08 x02 x02 x02 x02 x02)
(L (W x00 x00 xff x00 x00 x00 x00 x00)) E))
(T (W x00 x00 x00 x00 x00 x00 x00 x00)
(T (W x37 x00 x55 x2d x00 x00 x00 x00)
(L (W x5a x64 x5a x37 x5a x50 x0c x0e)) E)
(T (W x03 x03 x00 x00 x00 x00 x00 x00)
(L (W x00 x00 x00 x00 x00 x00 x00 x00)) E)))
(T (W x03 x03 x00 x00 x00 x00 x00 x00)
(T (W x00 x00 x18 x02 x1e x02 x00 x00)
(T (W x00 x00 xff x14 x32 x00 x0a x0a)
(L (W x00 x00 x00 x00 x00 x00 x41 x03)) E)
(T (W x00 x00 x00 x00 x00 x00 x00 x00)
(L (W x00 x00 x00 x00 x00 x00 x00 x00)) E))
(T (W x64 x5a x82 x37 x2d x41 x0a x05)
(T (W x04 x40 xa8 x00 x82 x00 xa1 x03)
(L (W x0e x00 x10 x00 x13 x00 x19 x00)) E)
(T (W x00 x00 x00 x00 x00 x00 x00 x00)
(L (W x00 x00 x00 x01 x01 x01 x01 x01)) E)))))))
(T (W x01 x43 x48 x00 x46 x00 x63 x00)
(T (W x00 x00 x00 x00 x00 x00 x00 x00)
(T (W x3c x00 x5f x37 x00 x00 x00 x00)
(T (W x00 x00 x59 x00 x5a x00 x00 x00)
(T (W x00 x00 x00 x00 x00 x00 x62 x00)
(T (W x01 x00 x01 x00 x01 x00 x01 x00)
(T (W x00 x00 x00 x01 x01 x01 x01 x01)
(L (W x00 x00 x7f x14 x32 x00 x05 x05))
(L (W x00 x00 x00 x00 x00 x00 xcc x02)))
(T (W x00 x00 xd7 x01 xf7 x00 x00 x00)
(L (W x00 xd8 x00 x00 x04 x00 x00 x00)) E))
(T (W x00 x00 x00 x00 x00 x00 x00 x00)
(T (W x05 x05 x00 x00 x00 x00 x00 x00)
(L (W x01 x43 x3f x00 xdc x00 x4c x00)) E)
(T (W x00 x00 x00 x00 x00 x00 x00 x00)
(L (W x00 x42 x00 x34 x62 x06 x08 x00)) E)))
(T (W x5a x5a x55 x64 x7d x5a x0c x02)
(T (W x00 x00 xfe x19 x32 x00 x0f x0f)
(T (W x00 x00 x00 x00 x00 x00 x00 x00)
(L (W x00 x00 x00 x00 x00 x00 x00 x00))
(L (W x46 x55 x37 x55 x55 x5f x02 x0a)))
(T (W x00 x00 x00 x00 x00 x00 x62 x02)
(L (W x04 x04 x00 x00 x00 x00 x00 x00)) E))
(T (W x00 x00 x00 x00 x00 x00 x00 x00)
(T (W x46 x01 x12 x00 x22 x00 x0c x10)
(L (W x00 x00 x00 x01 x01 x01 x01 x01)) E)
(T (W x0e x00 x10 x00 x13 x00 x19 x00)
(L (W x00 x00 x00 x00 x00 x00 x00 x00)) E))))
(T (W x00 x00 x00 x00 x00 x00 x00 x00)
(T (W x02 x02 x02 x01 x01 x01 x02 x02)
(T (W x03 x04 x00 x00 x00 x00 x00 x00)
(T (W x00 x00 x00 x00 x00 x00 x00 x00)
(L (W x13 xc4 x00 x10 x60 x04 x20 x00))
(L (W x03 x03 x03 x01 x01 x01 x01 x01)))
(T (W x01 x48 x96 x00 x28 x00 x32 x00)
(L (W x01 x00 x01 x00 x01 x00 x01 x00)) E))
(T (W x00 x00 x00 x00 x00 x00 x00 x00)
(T (W x00 x00 xff x78 x64 x05 x0f x0f)
(L (W x00 x00 x00 x00 x00 x00 x7a x00)) E)
(T (W x22 x90 x00 x40 x02 x00 x00 x00)
(L (W x00 x00 x00 x00 x00 x00 x00 x00)) E)))
(T (W x00 x00 x00 x00 x00 x00 x00 x00)
(T (W x00 x00 x00 x00 x00 x00 x00 x00)
(T (W x0e x00 x10 x00 x13 x00 x19 x00)
(L (W x00 x00 x22 x00 x4b x01 x00 x00)) E)
(T (W x04 x03 x03 x01 x01 x01 x01 x01)
(L (W x00 x00 xff x00 x00 x00 x00 x00)) E))
(T (W x00 x00 x00 x00 x00 x00 x00 x00)
(T (W x00 x00 x00 x00 x00 x00 x00 x00)
(L (W x26 x29 x28 x41 x32 x41 x0e x0e)) E)
(T (W x03 x04 x00 x00 x00 x00 x00 x00)
(L (W x00 x00 x00 x00 x00 x00 x00 x00)) E)))))
(T (W x00 x91 x80 x02 x00 x00 x00 x00)
(T (W x0e x00 x10 x00 x13 x00 x19 x00)
(T (W x00 x00 x7f x14 x32 x00 x0b x0b)
(T (W x00 x00 x00 x00 x00 x00 x00 x00)
(T (W x00 x00 x00 x00 x00 x00 x00 x00)
(L (W x04 x04 x03 x01 x01 x01 x01 x01))
(L (W x00 x00 x7f x0f x32 x04 x0c x0c)))
(T (W x0e x00 x10 x00 x13 x00 x19 x00)
(L (W x00 x00 x00 x00 x00 x00 x00 x00)) E))
(T (W x00 x00 x00 x00 x00 x00 x00 x00)
(T (W x00 x00 x00 x00 x00 x00 xe2 x01)
(L (W x03 x03 x00 x00 x00 x00 x00 x00)) E)
(T (W x00 x00 x00 x00 x00 x00 x00 x00)
(L (W x00 x00 x00 x00 x00 x00 x00 x00)) E)))
(T (W x00 x00 x00 x00 x00 x00 x00 x00)
(T (W x03 x00 x00 x01 x01 x01 x01 x01)
(T (W x00 x00 x8b x00 xda x01 x00 x00)
(L (W x00 x10 x00 x00 x00 x00 x00 x00))
(L (W x3c x00 x55 x32 x00 x00 x00 x00)))
(T (W x00 x00 xff x19 x32 x00 x0a x0a)
(L (W x00 x00 x00 x00 x00 x00 x00 x00)) E))
(T (W x05 x05 x00 x00 x00 x00 x00 x00)
(T (W x3c x55 x28 x44 x1e x2d x04 x04)
(L (W x08 x00 x00 x00 x10 x20 x41 x04)) E)
(T (W x01 x46 xbb x00 x96 x00 x52 x03)
(L (W x01 x00 x01 x00 x01 x00 x01 x00)) E))))
(T (W x01 x01 x00 x00 x00 x00 x00 x00)
(T (W x02 x04 x00 x00 x00 x00 x24 x00)
(T (W x00 x00 x00 x00 x00 x00 xe2 x00)
(T (W x00 x00 x00 x00 x00 x00 x00 x00)
(L (W x46 x73 x55 x82 x5f x4b x0c x11))
(L (W x00 x00 x00 x00 x00 x00 x00 x00)))
(T (W x04 x04 x00 x00 x00 x00 x00 x00)
(L (W x00 x00 x00 x00 x00 x00 x00 x00)) E))
(T (W x0e x00 x10 x00 x13 x00 x19 x00)
(T (W x00 x00 x00 x01 x01 x01 x01 x01)
(L (W x00 x00 x7f x19 x32 x00 x05 x0a)) E)
(T (W x00 x00 x56 x01 x96 x01 x00 x00)
(L (W x00 x00 x00 x00 x00 x00 x00 x00)) E)))
(T (W x00 x00 x00 x00 x00 x00 x00 x00)
(T (W x28 x28 x32 x1e x1e x1e x0b x0b)
(T (W x01 x48 x43 x00 x64 x00 xf9 x01)
(L (W x0e x00 x10 x00 x13 x00 x19 x00)) E)
(T (W x80 x00 x03 x00 x09 x78 x00 x00)
(L (W x00 x00 x00 x01 x01 x01 x01 x01)) E))
(T (W x00 x00 x7f x00 x00 x00 x00 x00)
(T (W x16 x98 x22 x00 x06 x00 x00 x00)
(L (W x3c x00 x55 x32 x00 x00 x00 x00)) E)
(T (W x00 x00 x00 x00 x00 x00 xe0 x02)
(L (W x01 x01 x00 x00 x00 x00 x00 x00)) E))))))
(T (W x01 x01 x00 x00 x00 x00 x00 x00)
(T (W x00 x00 x00 x00 x00 x00 x20 x00)
(T (W x00 x00 x00 x01 x01 x01 x01 x01)
(T (W x00 x90 x02 x40 x06 x00 x00 x00)
(T (W x23 x04 x00 x04 x00 x00 x26 x80)
(T (W x0a x00 x0a x00 x13 x00 x0a x00)
(L (W x00 x00 x4f x00 x9c x02 x00 x00))
(L (W x00 x00 x00 x00 x00 x00 x00 x00)))
(T (W x04 x03 x03 x01 x01 x01 x01 x01)
(L (W x00 x00 xff x00 x00 x00 x00 x00)) E))
(T (W x00 x00 x00 x00 x00 x00 x22 x01)
(T (W x00 x00 x00 x00 x00 x00 x00 x00)
(L (W x4b x62 x46 x4b x72 x46 x0c x03)) E)
(T (W x03 x03 x00 x00 x00 x00 x00 x00)
(L (W x00 x00 x00 x00 x00 x00 x00 x00)) E)))
(T (W x06 x06 x00 x00 x00 x00 x00 x00)
(T (W x00 x00 x00 x00 x00 x00 x00 x00)
(T (W x00 x00 x7f x00 x00 x00 x00 x00)
(L (W x00 x00 xc8 x02 xbb x02 x22 x03))
(L (W x04 x05 x00 x00 x00 x00 x00 x00)))
(T (W x00 x14 x00 x00 x00 x00 x00 x00)
(L (W x3c x00 x55 x37 x00 x00 x00 x00)) E))
(T (W x5a x37 x41 x46 x5f x55 x05 x0d)
(T (W x00 x00 x00 x00 x00 x00 x00 x00)
(L (W x0a x00 x0a x00 x0a x00 x0a x00)) E)
(T (W x42 x01 x02 x1e x83 x20 x0a x08)
(L (W x00 x00 x00 x01 x01 x01 x01 x01)) E))))
(T (W x19 x23 x46 x2d x5f x37 x0c x08)
(T (W x0e x00 x10 x00 x13 x00 x19 x00)
(T (W x3c x00 x64 x32 x00 x00 x00 x00)
(T (W x03 x03 x00 x00 x00 x00 x00 x00)
(L (W x00 x00 x00 x00 x00 x00 x00 x00))
(L (W x0e x00 x10 x00 x13 x00 x19 x00)))
(T (W x64 x3c x46 x3c x55 x69 x0a x07)
(L (W x00 x00 x00 x00 x00 x00 x00 x00)) E))
(T (W x00 x00 x00 x01 x01 x01 x01 x01)
(T (W x00 x00 x00 x00 x00 x00 x00 x00)
(L (W x00 x10 x00 x00 x00 x00 x00 x00)) E)
(T (W x00 x00 x7f x14 x32 x00 x02 x0c)
(L (W x00 x00 x00 x00 x00 x00 x00 x00)) E)))
(T (W x00 x00 xbf x0a x32 x04 x0f x0f)
(T (W x00 x00 x00 x00 x00 x00 x00 x00)
(T (W x22 x00 x01 x16 x11 x42 x22 x08)
(L (W x04 x04 x03 x01 x01 x01 x01 x01)) E)
(T (W x0e x00 x10 x00 x13 x00 x19 x00)
(L (W x00 x00 x0e x02 xa8 x01 x00 x00)) E))
(T (W x00 x00 x00 x00 x00 x00 x00 x00)
(T (W x00 x00 x00 x00 x00 x00 x22 x02)
(L (W x03 x04 x00 x00 x00 x00 x00 x00)) E)
(T (W x00 x00 x00 x00 x00 x00 x00 x00)
(L (W x00 x00 x00 x00 x00 x00 x00 x00)) E)))))
(T (W x00 x00 x7f x00 x00 x00 x00 x00)
(T (W x00 x00 x00 x00 x00 x00 x00 x00)
(T (W x00 x00 x74 x00 xca x01 x00 x00)
(T (W x00 x00 x00 x00 x00 x00 x00 x00)
(T (W x00 x00 x00 x00 x00 x00 x00 x00)
(L (W x0e x00 x10 x00 x13 x00 x19 x00))
(L (W x00 x00 x32 x01 xce x02 x00 x00)))
(T (W x00 x00 x00 x00 x00 x00 x00 x00)
(L (W x00 x00 x00 x01 x01 x01 x01 x01)) E))
(T (W x00 x00 x7f x19 x23 x03 x08 x08)
(T (W x60 x11 x00 x00 x00 x00 x00 x00)
(L (W x3c x00 x5a x37 x00 x00 x00 x00)) E)
(T (W x00 x00 x00 x00 x00 x00 xa2 x02)
(L (W x01 x01 x00 x00 x00 x00 x00 x00)) E)))
(T (W x00 x00 x00 x00 x00 x00 x00 x00)
(T (W x0e x00 x10 x00 x13 x00 x19 x00)
(T (W x00 x00 x00 x01 x01 x01 x01 x01)
(L (W x00 x00 x1f x14 x32 x03 x05 x08))
(L (W x00 x00 x00 x00 x00 x00 x79 x03)))
(T (W x00 x00 x6e x01 xd4 x01 x00 x00)
(L (W x00 x00 x00 x00 x00 x00 x00 x00)) E))
(T (W x37 x00 x55 x2d x00 x00 x00 x00)
(T (W x03 x04 x00 x00 x00 x00 x00 x00)
(L (W x0a x42 x70 x00 x28 x00 x3c x00)) E)
(T (W x50 x6e x78 x46 x82 x5a x09 x0a)
(L (W x00 x00 x00 x00 x00 x00 x00 x00)) E))))
(T (W x3c x00 x50 x1e x00 x00 x00 x00)
(T (W x01 x41 xad x00 x64 x00 x5e x01)
(T (W x00 x00 x00 x00 x00 x00 x00 x00)
(T (W x00 x00 x00 x00 x00 x00 x00 x00)
(L (W x04 x04 x00 x00 x00 x00 x00 x00))
(L (W x00 x00 x00 x00 x00 x00 x00 x00)))
(T (W x00 x00 x00 x00 x00 x00 x00 x00)
(L (W x00 x00 x00 x00 x00 x00 x00 x00)) E))
(T (W x00 x00 x00 x00 x00 x00 x00 x00)
(T (W x01 x00 x01 x00 x01 x00 x01 x00)
(L (W x00 x00 x3d x02 xf3 x02 x00 x00)) E)
(T (W x03 x03 x03 x01 x01 x01 x01 x01)
(L (W x00 x00 xff x00 x00 x00 x00 x00)) E)))
(T (W x03 x03 x04 x01 x01 x01 x01 x02)
(T (W x03 x03 x00 x00 x00 x00 x00 x00)
(T (W x64 x64 x7d x32 x6e x32 x0b x0b)
(L (W x00 x40 x10 x00 x00 x1c x00 x01)) E)
(T (W x00 x00 x00 x00 x00 x00 x00 x00)
(L (W x0a x00 x0a x00 x13 x00 x0a x00)) E))
(T (W x00 x00 x2b x00 x1d x00 x00 x00)
(T (W x00 x00 x7f x14 x32 x00 x03 x0a)
(L (W x00 x00 x00 x00 x00 x00 x00 x00)) E)
(T (W x14 x10 x20 x00 x04 x00 x00 x00)
(L (W x3c x00 x64 x3c x00 x00 x00 x00)) E))))))))))
(T (W x00 x00 x00 x08 x82 x21 x20 x00)
(T (W x00 x00 x1f x14 x32 x03 x01 x07)
(T (W x0e x00 x10 x00 x13 x00 x19 x00)
(T (W x00 x00 x00 x00 x00 x00 x04 x00)
(T (W x00 x54 x84 x80 x00 x00 x00 x00)
(T (W x00 x00 x00 x00 x00 x00 x00 x00)
(T (W x00 x00 x00 x00 x00 x00 x00 x00)
(T (W x02 x03 x02 x01 x01 x01 x02 x02)
(T (W x04 x05 x00 x00 x00 x00 x00 x00)
(T (W x5f x87 x50 x64 x6e x50 x0f x02)
(L (W x21 x44 x21 x00 x28 x1c x80 x04))
(L (W x03 x03 x03 x01 x01 x01 x01 x01)))
(T (W x01 x42 x46 x00 x3c x00 x76 x00)
(L (W x0e x00 x10 x00 x13 x00 x19 x00)) E))
(T (W x00 x00 xfe x00 x38 x00 x00 x00)
(T (W x00 x00 x3f x19 x32 x00 x08 x08)
(L (W x00 x00 x00 x00 x00 x00 x45 x03)) E)
(T (W x00 x00 x00 x00 x00 x00 x00 x00)
(L (W x00 x00 x00 x00 x00 x00 x00 x00)) E)))
(T (W x00 x10 x00 x00 x00 x00 x00 x00)
(T (W x42 x00 x00 x00 x20 x00 x0a x00)
(T (W x01 x00 x01 x00 x01 x00 x01 x00)
(L (W x00 x00 xac x01 xc9 x02 x00 x00))
(L (W x00 x00 x00 x00 x00 x00 x00 x00)))
(T (W x04 x04 x04 x01 x01 x01 x01 x01)
(L (W x00 x00 xff x00 x00 x00 x00 x00)) E))
(T (W x00 x00 x00 x00 x00 x00 x00 x00)
(T (W x00 x00 x00 x00 x00 x00 x00 x00)
(L (W x1c x3c x1e x52 x28 x1e x0f x07)) E)
(T (W x05 x06 x00 x00 x00 x00 x00 x00)
(L (W x00 x00 x00 x00 x00 x00 x00 x00)) E))))
(T (W x00 x00 x00 x00 x00 x00 x00 x00)
(T (W x37 x41 x5f x55 x5f x2d x0a x0a)
(T (W x00 x00 xbf x00 x00 x00 x00 x00)
(T (W x00 x00 x00 x00 x00 x00 x00 x00)
(L (W x3c x00 x64 x41 x00 x00 x00 x00))
(L (W x5f x5f x5f x5f x5f x5f x07 x07)))
(T (W x00 x00 x00 x00 x00 x00 x46 x02)
(L (W x01 x01 x00 x00 x00 x00 x00 x00)) E))
(T (W x01 x44 x85 x00 x3c x00 x73 x00)
(T (W x00 x00 x00 x00 x00 x00 x00 x00)
(L (W x03 x03 x02 x01 x01 x01 x01 x01)) E)
(T (W x0e x00 x10 x00 x13 x00 x19 x00)
(L (W x00 x00 x00 x00 x00 x00 x00 x00)) E)))
(T (W x0e x00 x10 x00 x13 x00 x19 x00)
(T (W x32 x00 x50 x32 x00 x00 x00 x00)
(T (W x04 x05 x00 x00 x00 x00 x00 x00)
(L (W x01 x48 x09 x01 x8c x00 x4a x01))
(L (W x0c x00 x00 x00 x00 x00 x00 x00)))
(T (W x46 x37 x4b x3c x2d x41 x10 x02)
(L (W x00 x00 x00 x00 x00 x00 x00 x00)) E))
(T (W x04 x04 x03 x01 x01 x01 x01 x01)
(T (W x00 x00 x55 x01 x4a x01 x00 x00)
(L (W x00 x00 x00 x00 x00 x00 x00 x00)) E)
(T (W x00 x00 x1f x0f x32 x03 x04 x04)
(L (W x00 x00 x00 x00 x00 x00 x00 x00)) E)))))
(T (W x0e x00 x10 x00 x13 x00 x19 x00)
(T (W x04 x04 x00 x00 x00 x00 x00 x00)
(T (W x08 x40 x00 x00 x09 x1c x00 x80)
(T (W x00 x00 x00 x00 x00 x00 x00 x00)
(T (W x00 x00 x00 x00 x00 x00 x00 x00)
(L (W x30 x2c x28 x4d x47 x28 x03 x09))
(L (W x00 x00 x00 x00 x00 x00 x00 x00)))
(T (W x03 x04 x00 x00 x00 x00 x00 x00)
(L (W x00 x00 x00 x00 x00 x00 x00 x00)) E))
(T (W x0e x00 x10 x00 x13 x00 x19 x00)
(T (W x02 x02 x02 x01 x01 x01 x01 x01)
(L (W x00 x00 x7f x14 x32 x00 x03 x03)) E)
(T (W x00 x00 xe8 x01 x00 x02 x00 x00)
(L (W x00 x00 x00 x00 x00 x00 x00 x00)) E)))
(T (W x00 x00 x5e x00 x17 x03 x00 x00)
(T (W x64 x4b x73 x55 x5a x73 x0a x0a)
(T (W x00 x00 x00 x00 x00 x00 x00 x00)
(L (W x0a x00 x0a x00 x0a x00 x0a x00))
(L (W x00 x00 x97 x00 x5d x02 x00 x00)))
(T (W x00 x00 x40 x20 x03 x00 x00 x08)
(L (W x03 x03 x05 x01 x01 x01 x01 x02)) E))
(T (W x00 x00 xff x19 x32 x04 x0a x0a)
(T (W x00 x10 x02 x00 x00 x00 x00 x00)
(L (W x00 x00 x00 x00 x00 x00 x00 x00)) E)
(T (W x00 x00 x00 x00 x00 x00 xc6 x02)
(L (W x01 x01 x00 x00 x00 x00 x00 x00)) E))))
(T (W x00 x00 xff x14 x32 x00 x0a x0a)
(T (W x28 x00 x46 x28 x00 x00 x00 x00)
(T (W x04 x03 x03 x01 x01 x01 x01 x01)
(T (W x00 x00 x5c x00 x57 x02 x00 x00)
(L (W x02 x10 x22 x00 x0c x00 x00 x00))
(L (W x00 x00 x00 x00 x00 x00 x00 x00)))
(T (W x00 x00 x7f x00 x00 x00 x00 x00)
(L (W x00 x00 x00 x00 x00 x00 xde x00)) E))
(T (W x01 x01 x00 x00 x00 x00 x00 x00)
(T (W x00 x00 x00 x00 x00 x00 x00 x00)
(L (W x00 x00 x02 x20 x00 x00 x00 x16)) E)
(T (W x01 x41 xa9 x00 x96 x00 xd6 x01)
(L (W x01 x00 x01 x00 x01 x00 x01 x00)) E)))
(T (W x01 x48 x31 x00 x1e x00 x0f x00)
(T (W x00 x00 x00 x00 x00 x00 x00 x00)
(T (W x00 x00 x00 x00 x00 x00 xc5 x01)
(L (W x05 x06 x00 x00 x00 x00 x00 x00)) E)
(T (W x3c x00 x55 x3c x00 x00 x00 x00)
(L (W x69 xa0 x37 x87 x1e x37 x0e x09)) E))
(T (W x03 x00 x00 x00 x00 x00 x00 x00)
(T (W x0e x00 x10 x00 x13 x00 x19 x00)
(L (W x00 x00 x67 x00 x47 x02 x00 x00)) E)
(T (W x00 x00 x00 x01 x01 x01 x01 x01)
(L (W x00 x00 xff x00 x00 x00 x00 x00)) E))))))
(T (W x00 x00 x7f x00 x00 x00 x00 x00)
(T (W x06 x06 x06 x01 x01 x01 x01 x01)
(T (W x41 x46 x3c x73 x41 x41 x00 x00)
(T (W x0e x00 x10 x00 x13 x00 x19 x00)
(T (W x00 x00 x00 x00 x00 x00 x00 x00)
(T (W x02 x02 x00 x00 x00 x00 x00 x00)
(L (W x01 x43 x36 x00 x1e x00 x28 x00))
(L (W x0a x00 x0a x00 x13 x00 x0a x00)))
(T (W x4a x6c x85 x20 x53 x41 x0a x05)
(L (W x22 x04 x00 x04 x14 x00 x02 x02)) E))
(T (W x00 x00 x00 x01 x01 x01 x01 x01)
(T (W x00 x00 x3d x02 xc4 x00 x00 x00)
(L (W x10 x10 x02 x00 x02 x00 x00 x00)) E)
(T (W x00 x00 x1f x00 x00 x00 x00 x00)
(L (W x00 x00 x00 x00 x00 x00 x89 x02)) E)))
(T (W x00 x00 xff x50 x23 x05 x0f x0f)
(T (W x01 x42 x48 x00 x3c x00 xeb x00)
(T (W x42 x01 x12 x00 x00 x00 x08 x00)
(L (W x03 x00 x00 x01 x01 x01 x01 x01))
(L (W x00 x00 x7f x14 x32 x00 x02 x04)))
(T (W x0e x00 x10 x00 x13 x00 x19 x00)
(L (W x00 x00 xfa x00 x4a x01 x00 x00)) E))
(T (W x00 x00 x00 x00 x00 x00 x00 x00)
(T (W x00 x00 x00 x00 x00 x00 x05 x02)
(L (W x02 x02 x00 x00 x00 x00 x00 x00)) E)
(T (W x3c x00 x5a x3c x00 x00 x00 x00)
(L (W x00 x00 x00 x00 x00 x00 x00 x00)) E))))
(T (W x00 x00 x00 x00 x00 x00 x00 x00)
(T (W x05 x06 x00 x00 x00 x00 x00 x00)
(T (W x00 x00 xd4 x01 xe8 x00 x00 x00)
(T (W x00 x00 x7f x00 x00 x00 x00 x00)
(L (W x00 x00 x00 x00 x00 x00 x00 x00))
(L (W x05 x05 x00 x00 x00 x00 x00 x00)))
(T (W x00 x10 x00 x40 x00 x00 x00 x00)
(L (W x00 x00 x00 x00 x00 x00 x00 x00)) E))
(T (W x28 x2d x28 x41 x41 x28 x0c x0c)
(T (W x00 x00 x00 x00 x00 x00 x00 x00)
(L (W x0e x00 x10 x00 x13 x00 x19 x00)) E)
(T (W x02 x40 x30 x00 x40 x04 x00 x00)
(L (W x00 x00 x00 x01 x01 x01 x01 x01)) E)))
(T (W x3b x00 x00 x14 x34 x00 x00 x0a)
(T (W x00 x00 x00 x00 x00 x00 x00 x00)
(T (W x32 x00 x64 x1e x00 x00 x00 x00)
(L (W x26 x2f x23 x39 x21 x23 x02 x02)) E)
(T (W x04 x04 x00 x00 x00 x00 x00 x00)
(L (W x00 x00 x00 x00 x00 x00 x00 x00)) E))
(T (W x0e x00 x10 x00 x13 x00 x19 x00)
(T (W x00 x00 x00 x01 x01 x01 x01 x01)
(L (W x00 x00 xbf x14 x32 x00 x05 x05)) E)
(T (W x00 x00 x53 x01 x97 x02 x00 x00)
(L (W x00 x00 x00 x00 x00 x00 x00 x00)) E)))))
(T (W x3b x00 x00 x00 x34 x00 x00 x08)
(T (W x32 x00 x50 x32 x00 x00 x00 x00)
(T (W x01 x47 x45 x00 x64 x00 x7e x04)
(T (W x00 x00 x00 x00 x00 x00 x00 x00)
(T (W x00 x00 x00 x00 x00 x00 x00 x00)
(L (W x03 x03 x00 x00 x00 x00 x00 x00))
(L (W x12 x47 x1d x01 xe6 x00 xed x03)))
(T (W x3c x00 x64 x32 x00 x00 x00 x00)
(L (W x00 x00 x00 x00 x00 x00 x00 x00)) E))
(T (W x00 x00 x00 x00 x00 x00 x00 x00)
(T (W x0a x00 x0a x00 x13 x00 x0a x00)
(L (W x00 x00 xa1 x01 xf7 x00 x00 x00)) E)
(T (W x00 x00 x00 x01 x01 x01 x01 x01)
(L (W x00 x00 xff x00 x00 x00 x00 x00)) E)))
(T (W x00 x00 x00 x01 x01 x01 x01 x01)
(T (W x02 x02 x00 x00 x00 x00 x00 x00)
(T (W x43 x59 x74 x21 x4f x74 x08 x0d)
(L (W x80 x40 x10 x00 x40 x84 x00 x60))
(L (W x04 x03 x02 x01 x01 x01 x01 x01)))
(T (W x01 x43 xa9 x00 x18 x01 xe4 x0c)
(L (W x01 x00 x01 x00 x01 x00 x01 x00)) E))
(T (W x00 x00 x42 x01 x3c x00 x00 x00)
(T (W x00 x00 x7f x14 x32 x00 x05 x05)
(L (W x00 x00 x55 x00 xcf x02 xac x00)) E)
(T (W x80 x10 x80 x02 x01 x00 x00 x00)
(L (W x00 x00 x00 x00 x00 x00 x00 x00)) E))))
(T (W x00 x00 x00 x00 x00 x00 x00 x00)
(T (W x00 x00 x00 x00 x00 x00 x85 x00)
(T (W x0e x00 x10 x00 x13 x00 x19 x00)
(T (W x00 x00 x00 x01 x01 x01 x01 x01)
(L (W x00 x00 xff x0f x32 x05 x0f x0f))
(L (W x00 x00 x00 x00 x00 x00 x00 x00)))
(T (W x00 x00 xfc x01 x20 x02 x00 x00)
(L (W x00 x00 x00 x00 x00 x00 x00 x00)) E))
(T (W x50 x00 x64 x37 x00 x00 x00 x00)
(T (W x03 x04 x00 x00 x00 x00 x00 x00)
(L (W x01 x43 xaf x00 x2c x01 x64 x19)) E)
(T (W x47 x49 x58 x3b x78 x59 x0a x0a)
(L (W x00 x00 x00 x00 x00 x00 x00 x00)) E)))
(T (W x00 x00 x00 x00 x00 x00 x00 x00)
(T (W x00 x00 x7f x0f x32 x03 x05 x07)
(T (W x01 x10 x02 x00 x04 x00 x00 x00)
(L (W x32 x00 x50 x2d x00 x00 x00 x00)) E)
(T (W x00 x00 x00 x00 x00 x00 x86 x02)
(L (W x01 x01 x00 x00 x00 x00 x00 x00)) E))
(T (W x00 x00 x00 x00 x00 x00 x00 x00)
(T (W xa9 x80 x21 x44 x09 x38 x02 xe0)
(L (W x05 x05 x05 x01 x01 x01 x01 x01)) E)
(T (W x01 x00 x01 x00 x01 x00 x01 x00)
(L (W x00 x00 x00 x00 x00 x00 x00 x00)) E)))))))
(T (W x01 x60 x10 x45 x61 x00 x30 x00)
(T (W x00 x00 x00 x00 x00 x00 x00 x00)
(T (W x03 x04 x00 x00 x00 x00 x00 x00)
(T (W x00 x00 x7f x14 x32 x00 x05 x05)
(T (W x00 x00 x00 x00 x00 x00 x00 x00)
(T (W x00 x00 x00 x01 x01 x01 x01 x01)
(T (W x00 x00 xac x01 x35 x01 x00 x00)
(L (W x00 x36 x00 x00 x00 x00 x00 x00))
(L (W x3c x00 x64 x3c x00 x00 x00 x00)))
(T (W x00 x00 x7f x19 x32 x00 x0a x0b)
(L (W x00 x00 x00 x00 x00 x00 x7a x00)) E))
(T (W x04 x05 x00 x00 x00 x00 x00 x00)
(T (W x00 x00 x00 x00 x00 x00 x00 x00)
(L (W x00 x40 x08 x48 x02 xa0 x00 x00)) E)
(T (W x00 x00 x00 x00 x00 x00 x00 x00)
(L (W x0e x00 x10 x00 x13 x00 x19 x00)) E)))
(T (W x01 x44 xbd x00 xd2 x00 xf8 x11)
(T (W x00 x98 x02 x00 x00 x00 x00 x00)
(T (W x00 x00 x00 x00 x00 x00 xa6 x01)
(L (W x02 x02 x00 x00 x00 x00 x00 x00))
(L (W x03 x41 x54 x01 xa4 x01 xac x0d)))
(T (W x3c x00 x55 x32 x00 x00 x00 x00)
(L (W x00 x00 x00 x00 x00 x00 x00 x00)) E))
(T (W x99 x00 x00 x60 x08 x00 x00 x80)
(T (W x01 x00 x01 x00 x01 x00 x01 x00)
(L (W x00 x00 x5d x01 xef x02 x00 x00)) E)
(T (W x03 x03 x03 x01 x01 x01 x01 x01)
(L (W x00 x00 xff x00 x00 x00 x00 x00)) E))))
(T (W x00 x20 x40 x02 x00 x40 x10 x18)
(T (W x00 x00 x88 x01 x7f x00 x00 x00)
(T (W x14 x0a xe6 x05 x0a xe6 x06 x05)
(T (W x00 x00 x00 x00 x00 x00 x00 x00)
(L (W x0e x00 x10 x00 x13 x00 x19 x00))
(L (W x00 x00 x32 x01 xce x02 x00 x00)))
(T (W x00 x00 x00 x00 x00 x00 x00 x00)
(L (W x00 x00 x00 x01 x01 x01 x01 x01)) E))
(T (W x00 x00 x7f x23 x23 x05 x01 x01)
(T (W x00 x00 x00 x00 x00 x00 x00 x00)
(L (W x46 x00 x64 x32 x00 x00 x00 x00)) E)
(T (W x00 x00 x00 x00 x00 x00 xa5 x02)
(L (W x01 x01 x00 x00 x00 x00 x00 x00)) E)))
(T (W x00 x00 x00 x00 x00 x00 x00 x00)
(T (W x0e x00 x10 x00 x13 x00 x19 x00)
(T (W x03 x03 x03 x01 x01 x01 x01 x01)
(L (W x00 x00 x1f x14 x32 x03 x02 x05))
(L (W x00 x00 x00 x00 x00 x00 x82 x03)))
(T (W x00 x00 xd4 x01 xa8 x02 x00 x00)
(L (W x00 x00 x00 x00 x00 x00 x00 x00)) E))
(T (W x00 x00 x00 x00 x00 x00 x00 x00)
(T (W x05 x05 x00 x00 x00 x00 x00 x00)
(L (W x02 x48 x3c x00 x46 x00 x90 x01)) E)
(T (W x2d x41 x28 x46 x3c x28 x09 x09)
(L (W x00 x00 x00 x00 x00 x00 x00 x00)) E)))))
(T (W x00 x00 x00 x00 x00 x00 x25 x00)
(T (W x02 x02 x02 x01 x01 x01 x02 x02)
(T (W x00 x90 x02 x00 x06 x00 x00 x00)
(T (W x00 x00 x00 x00 x00 x00 x00 x00)
(T (W x01 x00 x01 x00 x01 x00 x01 x00)
(L (W x00 x00 x46 x00 x67 x01 x00 x00))
(L (W x14 x18 x20 x00 x04 x00 x00 x00)))
(T (W x0c x06 x06 x01 x01 x02 x02 x02)
(L (W x00 x00 xff x00 x00 x00 x00 x00)) E))
(T (W x00 x00 x00 x00 x00 x00 x25 x01)
(T (W x00 x00 x00 x00 x00 x00 x00 x00)
(L (W x50 x76 x5a x2a x46 x50 x01 x01)) E)
(T (W x01 x01 x00 x00 x00 x00 x00 x00)
(L (W x00 x00 x00 x00 x00 x00 x00 x00)) E)))
(T (W x01 x01 x00 x00 x00 x00 x00 x00)
(T (W x00 x00 x9d x00 xbc x01 x00 x00)
(T (W x00 x00 x7f x14 x32 x00 x05 x05)
(L (W x00 x00 x00 x00 x00 x00 x26 x03))
(L (W x04 x05 x00 x00 x00 x00 x00 x00)))
(T (W x00 xd8 x00 x00 x02 x00 x00 x00)
(L (W x00 x00 x00 x00 x00 x00 x00 x00)) E))
(T (W x2b x50 x41 x23 x32 x23 x0a x0a)
(T (W x01 x41 x41 x00 x28 x00 x15 x00)
(L (W x01 x00 x01 x00 x01 x00 x01 x00)) E)
(T (W x81 x40 x10 x00 x40 x8c x00 x40)
(L (W x00 x00 x00 x01 x01 x01 x01 x01)) E))))
(T (W x00 x00 x00 x00 x00 x00 x00 x00)
(T (W x0e x00 x10 x00 x13 x00 x19 x00)
(T (W x3c x00 x50 x37 x00 x00 x00 x00)
(T (W x01 x01 x00 x00 x00 x00 x00 x00)
(L (W x01 x47 x93 x00 x78 x00 xd6 x01))
(L (W x01 x00 x01 x00 x01 x00 x01 x00)))
(T (W x2c x32 x5b x0a x18 x56 x0b x08)
(L (W x00 x00 x00 x00 x00 x00 x00 x00)) E))
(T (W x00 x00 x00 x01 x01 x01 x01 x01)
(T (W x00 x00 x00 x00 x00 x00 x00 x00)
(L (W xc0 x11 x80 x18 x00 x00 x00 x00)) E)
(T (W x00 x00 x7f x14 x32 x00 x02 x0e)
(L (W x00 x00 x00 x00 x00 x00 x00 x00)) E)))
(T (W x00 x00 x7f x14 x32 x00 x04 x04)
(T (W x01 x43 x77 x00 x78 x00 x45 x01)
(T (W x00 x00 x00 x00 x00 x00 x00 x00)
(L (W x04 x04 x04 x01 x01 x01 x01 x01)) E)
(T (W x0e x00 x10 x00 x13 x00 x19 x00)
(L (W x00 x00 x00 x00 x00 x00 x00 x00)) E))
(T (W x00 x10 x02 x00 x00 x00 x00 x00)
(T (W x00 x00 x00 x00 x00 x00 x26 x02)
(L (W x01 x01 x00 x00 x00 x00 x00 x00)) E)
(T (W x3c x00 x50 x32 x00 x00 x00 x00)
(L (W x00 x00 x00 x00 x00 x00 x00 x00)) E))))))
(T (W x00 x00 x00 x00 x00 x00 x00 x00)
(T (W x37 x00 x55 x2d x00 x00 x00 x00)
(T (W x00 x00 x32 x00 x38 x00 x00 x00)
(T (W x00 x00 x00 x00 x00 x00 x66 x00)
(T (W x0e x00 x10 x00 x13 x00 x19 x00)
(T (W x03 x00 x00 x01 x01 x01 x01 x01)
(L (W x00 x00 x7f x14 x32 x00 x07 x07))
(L (W x00 x00 x00 x00 x00 x00 xce x02)))
(T (W x00 x00 x61 x00 x9d x00 x00 x00)
(L (W x00 x00 x00 x00 x00 x00 x00 x00)) E))
(T (W x00 x00 x00 x00 x00 x00 x00 x00)
(T (W x03 x04 x00 x00 x00 x00 x00 x00)
(L (W x01 x45 xac x00 x82 x00 x2c x01)) E)
(T (W x2d x32 x2b x3e x28 x26 x00 x02)
(L (W x00 x00 x00 x00 x00 x00 x00 x00)) E)))
(T (W x5b x86 x5f x50 x64 x64 x0f x02)
(T (W x00 x00 xfe x28 x8c x04 x06 x06)
(T (W x00 xd8 x00 x00 x02 x00 x00 x00)
(L (W x3c x00 x64 x3c x00 x00 x00 x00))
(L (W x3c x41 x41 x46 x86 x72 x07 x07)))
(T (W x00 x00 x00 x00 x00 x00 x65 x02)
(L (W x03 x04 x00 x00 x00 x00 x00 x00)) E))
(T (W x00 x00 x00 x00 x00 x00 x00 x00)
(T (W x38 x00 x00 x00 x04 x00 x20 x02)
(L (W x00 x00 x00 x01 x01 x01 x01 x01)) E)
(T (W x0e x00 x10 x00 x13 x00 x19 x00)
(L (W x00 x00 x00 x00 x00 x00 x00 x00)) E))))
(T (W x02 x49 x3f x00 x78 x00 x68 x01)
(T (W x02 x02 x02 x01 x01 x01 x02 x02)
(T (W x01 x01 x00 x00 x00 x00 x00 x00)
(T (W x50 x78 x4f x46 x5f x4f x0c x0c)
(L (W x00 x00 x10 x02 x20 x24 x61 x00))
(L (W x03 x03 x03 x01 x01 x01 x01 x01)))
(T (W x01 x48 xa2 x00 x3c x00 x69 x00)
(L (W x01 x00 x01 x00 x01 x00 x01 x00)) E))
(T (W x00 x00 x00 x00 x00 x00 x00 x00)
(T (W x00 x00 x1f x00 x00 x00 x00 x00)
(L (W x00 x00 x00 x00 x00 x00 x66 x03)) E)
(T (W x00 x10 x80 x00 x00 x00 x00 x00)
(L (W x00 x00 x00 x00 x00 x00 x00 x00)) E)))
(T (W x00 x10 x05 x04 x00 x00 x00 x00)
(T (W x00 x00 x00 x00 x00 x00 x00 x00)
(T (W x0e x00 x10 x00 x13 x00 x19 x00)
(L (W x00 x00 xd4 x01 xa9 x02 x00 x00)) E)
(T (W x03 x03 x03 x01 x01 x01 x01 x01)
(L (W x00 x00 x7f x14 x32 x03 x05 x05)) E))
(T (W x00 x00 x00 x00 x00 x00 x00 x00)
(T (W x3c x00 x5f x37 x00 x00 x00 x00)
(L (W x28 x23 x23 x5a x32 x28 x10 x10)) E)
(T (W x05 x05 x00 x00 x00 x00 x00 x00)
(L (W x00 x00 x00 x00 x00 x00 x00 x00)) E)))))
(T (W x00 x14 x00 x01 x00 x00 x00 x00)
(T (W x0e x00 x10 x00 x13 x00 x19 x00)
(T (W x00 x00 x7f x14 x32 x00 x07 x07)
(T (W x00 x00 x00 x00 x00 x00 x00 x00)
(T (W x00 x00 x00 x00 x00 x00 x00 x00)
(L (W x03 x03 x03 x01 x01 x01 x01 x01))
(L (W x00 x00 xff x78 x00 x05 x0f x0f)))
(T (W x0e x00 x10 x00 x13 x00 x19 x00)
(L (W x00 x00 x00 x00 x00 x00 x00 x00)) E))
(T (W x00 x00 x00 x00 x00 x00 x00 x00)
(T (W x00 x00 x00 x00 x00 x00 xe6 x01)
(L (W x04 x05 x00 x00 x00 x00 x00 x00)) E)
(T (W x00 x00 x00 x00 x00 x00 x00 x00)
(L (W x00 x00 x00 x00 x00 x00 x00 x00)) E)))
(T (W x00 x00 x00 x00 x00 x00 x00 x00)
(T (W x02 x02 x02 x01 x01 x01 x02 x02)
(T (W x00 x00 x10 x01 x10 x01 x00 x00)
(L (W x00 x50 x22 x41 x06 x00 x00 x00))
(L (W x3c x00 x5a x32 x00 x00 x00 x00)))
(T (W x00 x00 x7f x14 x32 x00 x05 x05)
(L (W x00 x00 x00 x00 x00 x00 x00 x00)) E))
(T (W x04 x05 x00 x00 x00 x00 x00 x00)
(T (W x55 x69 x55 x28 x28 x32 x01 x01)
(L (W x08 x00 x00 x00 x10 x20 x41 x04)) E)
(T (W x01 x49 x2c x01 x46 x00 x58 x00)
(L (W x01 x00 x01 x00 x01 x00 x01 x00)) E))))
(T (W x04 x05 x00 x00 x00 x00 x00 x00)
(T (W x42 x00 x00 x00 x20 x00 x0a x00)
(T (W x00 x00 x00 x00 x00 x00 x74 x00)
(T (W x32 x00 x55 x2d x00 x00 x00 x00)
(L (W x2b x1d x1f x25 x1d x1f x0d x0d))
(L (W x00 x00 x00 x00 x00 x00 x00 x00)))
(T (W x01 x01 x00 x00 x00 x00 x00 x00)
(L (W x00 x00 x00 x00 x00 x00 x00 x00)) E))
(T (W x01 x00 x01 x00 x01 x00 x01 x00)
(T (W x04 x03 x03 x01 x01 x01 x01 x01)
(L (W x00 x00 xff x23 x32 x05 x0f x0f)) E)
(T (W x00 x00 x0c x01 x3a x02 x00 x00)
(L (W x00 x00 x00 x00 x00 x00 x00 x00)) E)))
(T (W x00 x00 x27 x00 x91 x01 x00 x00)
(T (W x00 x00 x00 x00 x00 x00 x00 x00)
(T (W x01 x49 xb4 x00 xaa x00 x78 x05)
(L (W x0e x00 x10 x00 x13 x00 x19 x00)) E)
(T (W x00 x42 x00 x34 x62 x06 x08 x00)
(L (W x04 x03 x03 x01 x01 x01 x01 x01)) E))
(T (W x00 x00 xbf x00 x00 x00 x00 x00)
(T (W x00 x10 x00 x01 x00 x00 x00 x00)
(L (W x3c x00 x55 x32 x00 x00 x00 x00)) E)
(T (W x00 x00 x00 x00 x00 x00 xe6 x02)
(L (W x03 x03 x00 x00 x00 x00 x00 x00)) E))))))))
(T (W x3a x40 x3a x50 x50 x41 x09 x09)
(T (W x00 x00 x60 x01 xf8 x01 x00 x00)
(T (W x00 x00 x00 x01 x01 x01 x01 x01)
(T (W x08 x00 x00 x00 x10 x20 x41 x04)
(T (W x00 x00 x00 x00 x00 x00 x00 x00)
(T (W x01 x47 x4d x00 x70 x03 x34 x08)
(T (W x00 x00 x00 x00 x00 x00 x00 x00)
(T (W x00 x00 x00 x00 x00 x00 x76 x01)
(L (W x04 x05 x00 x00 x00 x00 x00 x00))
(L (W x04 x45 xad x00 x46 x00 x5f x00)))
(T (W x3c x00 x5a x2d x00 x00 x00 x00)
(L (W x41 x5a x78 x3c x55 x46 x03 x11)) E))
(T (W x66 x05 x02 x00 x20 x20 x0c x10)
(T (W x0e x00 x10 x00 x13 x00 x19 x00)
(L (W x00 x00 xed x02 xe8 x01 x00 x00)) E)
(T (W x00 x00 x00 x01 x01 x01 x01 x01)
(L (W x00 x00 xff x78 x00 x05 x0f x0f)) E)))
(T (W x03 x03 x03 x01 x01 x01 x01 x01)
(T (W x01 x01 x00 x00 x00 x00 x00 x00)
(T (W x46 x3c x46 x55 x57 x4e x0b x0b)
(L (W x00 x00 x40 x82 x20 x76 x0a x18))
(L (W x04 x04 x03 x01 x01 x01 x01 x01)))
(T (W x01 x48 x37 x00 x1e x00 x1f x00)
(L (W x01 x00 x01 x00 x01 x00 x01 x00)) E))
(T (W x00 x00 x00 x00 x00 x00 x00 x00)
(T (W x00 x00 x1f x00 x00 x00 x00 x00)
(L (W x00 x00 x00 x00 x00 x00 x75 x03)) E)
(T (W x00 x90 x80 x12 x00 x00 x00 x00)
(L (W x00 x00 x00 x00 x00 x00 x00 x00)) E))))
(T (W x00 x00 x00 x00 x00 x00 x00 x00)
(T (W x00 x00 x00 x00 x00 x00 x76 x00)
(T (W x0e x00 x10 x00 x13 x00 x19 x00)
(T (W x00 x00 x00 x01 x01 x01 x01 x01)
(L (W x00 x00 x7f x0f x32 x00 x0b x0b))
(L (W x00 x00 x00 x00 x00 x00 x04 x03)))
(T (W x00 x00 xb5 x00 x3b x00 x00 x00)
(L (W x00 x00 x00 x00 x00 x00 x00 x00)) E))
(T (W x3c x00 x5f x37 x00 x00 x00 x00)
(T (W x01 x01 x00 x00 x00 x00 x00 x00)
(L (W x01 x45 x9a x00 x50 x00 x18 x01)) E)
(T (W x3e x30 x36 x44 x3f x3c x0d x0d)
(L (W x00 x00 x00 x00 x00 x00 x00 x00)) E)))
(T (W x00 x00 x00 x00 x00 x00 x00 x00)
(T (W x00 x00 x1f x14 x32 x03 x01 x02)
(T (W x02 x10 x02 x00 x00 x00 x00 x00)
(L (W x3c x00 x55 x32 x00 x00 x00 x00))
(L (W x69 x78 x69 x69 x46 x5f x10 x0b)))
(T (W x00 x00 x00 x00 x00 x00 x75 x02)
(L (W x01 x01 x00 x00 x00 x00 x00 x00)) E))
(T (W x00 x00 x00 x00 x00 x00 x00 x00)
(T (W x08 x24 x00 x02 x09 x71 x10 x08)
(L (W x02 x06 x05 x01 x01 x01 x02 x02)) E)
(T (W x0e x00 x10 x00 x13 x00 x19 x00)
(L (W x00 x00 x00 x00 x00 x00 x00 x00)) E)))))
(T (W x26 x29 x28 x41 x32 x41 x09 x09)
(T (W x00 x10 x02 x00 x00 x00 x00 x00)
(T (W x04 x05 x00 x00 x00 x00 x00 x00)
(T (W x00 x00 x19 x01 x39 x00 x00 x00)
(T (W x00 x00 xff x00 x00 x00 x00 x00)
(L (W x00 x00 x00 x00 x00 x00 xf5 x02))
(L (W x01 x01 x00 x00 x00 x00 x00 x00)))
(T (W x00 x90 x10 x00 x00 x00 x00 x00)
(L (W x00 x00 x00 x00 x00 x00 x00 x00)) E))
(T (W x40 x33 x17 x1c x33 x17 x00 x00)
(T (W x06 x40 x9a x00 x1e x00 x03 x00)
(L (W x0e x00 x10 x00 x13 x00 x19 x00)) E)
(T (W x00 x00 x00 x00 x00 x00 x00 x00)
(L (W x00 x00 x00 x01 x01 x01 x01 x01)) E)))
(T (W x00 x00 x00 x00 x00 x00 x00 x00)
(T (W x00 x00 x00 x00 x00 x00 xf6 x00)
(T (W x00 x00 x00 x00 x00 x00 x00 x00)
(L (W x3d x83 xd3 x0d x35 x65 x05 x08))
(L (W x00 x00 x02 x00 x02 x00 x04 x14)))
(T (W x03 x04 x00 x00 x00 x00 x00 x00)
(L (W x00 x00 x00 x00 x00 x00 x00 x00)) E))
(T (W x0e x00 x10 x00 x13 x00 x19 x00)
(T (W x04 x03 x03 x01 x01 x01 x01 x01)
(L (W x00 x00 xff x78 x64 x05 x0f x0f)) E)
(T (W x00 x00 x37 x02 x36 x01 x00 x00)
(L (W x00 x00 x00 x00 x00 x00 x00 x00)) E))))
(T (W x0e x00 x10 x00 x13 x00 x19 x00)
(T (W x00 x00 x7f x05 x32 x05 x0c x0e)
(T (W x01 x47 x3c x00 x3c x00 x78 x00)
(T (W x00 x00 x00 x00 x00 x00 x00 x00)
(L (W x03 x03 x02 x01 x01 x01 x01 x01))
(L (W x00 x00 xff x00 x00 x00 x00 x00)))
(T (W x0e x00 x10 x00 x13 x00 x19 x00)
(L (W x00 x00 x2b x00 x2b x02 x00 x00)) E))
(T (W x00 x00 x00 x00 x00 x00 x00 x00)
(T (W x00 x00 x00 x00 x00 x00 x00 x00)
(L (W x05 x05 x00 x00 x00 x00 x00 x00)) E)
(T (W x3c x00 x55 x28 x00 x00 x00 x00)
(L (W x00 x00 x00 x00 x00 x00 x00 x00)) E)))
(T (W x32 x00 x5a x32 x00 x00 x00 x00)
(T (W x00 x00 x00 x01 x01 x01 x01 x01)
(T (W x00 x00 x00 x00 x00 x00 x00 x00)
(L (W x1e x50 x30 x00 x00 x00 x00 x00)) E)
(T (W x00 x00 x00 x78 x5a x05 x0f x0f)
(L (W x00 x00 x00 x00 x00 x00 x32 x02)) E))
(T (W x03 x03 x00 x00 x00 x00 x00 x00)
(T (W x46 x3c x4b x5a x6e x4b x0b x0b)
(L (W x00 x00 x00 x00 x00 x00 x00 x00)) E)
(T (W x00 x00 x00 x00 x00 x00 x00 x00)
(L (W x01 x00 x01 x00 x01 x00 x01 x00)) E))))))
(T (W x01 x00 x01 x00 x01 x00 x01 x00)
(T (W x01 x41 xfd x00 x82 x00 x58 x02)
(T (W x00 x00 x00 x00 x00 x00 x36 x00)
(T (W x00 x00 x00 x00 x00 x00 x00 x00)
(T (W x00 x00 x7f x14 x32 x00 x02 x05)
(T (W x22 x91 x02 x90 x08 x00 x00 x00)
(L (W x3c x00 x5a x37 x00 x00 x00 x00))
(L (W x6c x64 x79 x5f x51 x5f x0f x04)))
(T (W x00 x00 x00 x00 x00 x00 x36 x02)
(L (W x04 x05 x00 x00 x00 x00 x00 x00)) E))
(T (W x00 x00 x00 x00 x00 x00 x00 x00)
(T (W x80 x00 x00 x00 x08 x9c x00 x40)
(L (W x04 x04 x03 x01 x01 x01 x01 x01)) E)
(T (W x0e x00 x10 x00 x13 x00 x19 x00)
(L (W x00 x00 x00 x00 x00 x00 x00 x00)) E)))
(T (W x0e x00 x10 x00 x13 x00 x19 x00)
(T (W x28 x00 x46 x28 x00 x00 x00 x00)
(T (W x03 x04 x00 x00 x00 x00 x00 x00)
(L (W x01 x44 x1d x01 x26 x02 xb0 x22))
(L (W x0e x00 x10 x00 x13 x00 x19 x00)))
(T (W x37 x46 x28 x28 x3c x28 x0e x0e)
(L (W x4a x04 x00 x04 x10 x00 x0f x00)) E))
(T (W x04 x04 x04 x01 x01 x01 x01 x01)
(T (W x00 x00 x93 x01 x3a x01 x00 x00)
(L (W x00 xd8 x20 x40 x00 x00 x00 x00)) E)
(T (W x00 x00 x7f x28 x23 x05 x0e x0e)
(L (W x00 x00 x00 x00 x00 x00 x00 x00)) E))))
(T (W x02 x02 x02 x01 x01 x01 x01 x01)
(T (W xe1 x11 x80 x08 x00 x00 x00 x00)
(T (W x00 x00 x00 x00 x00 x00 x00 x00)
(T (W x0e x00 x10 x00 x13 x00 x19 x00)
(L (W x00 x00 x00 x00 x00 x00 x00 x00))
(L (W x1e x10 x20 x80 x00 x00 x00 x00)))
(T (W x03 x03 x02 x01 x01 x01 x01 x01)
(L (W x00 x00 xff x00 x00 x00 x00 x00)) E))
(T (W x00 x00 x00 x00 x00 x00 x35 x01)
(T (W x00 x00 x00 x00 x00 x00 x00 x00)
(L (W x41 x3c x4b x40 x6e x79 x11 x11)) E)
(T (W x03 x03 x00 x00 x00 x00 x00 x00)
(L (W x00 x00 x00 x00 x00 x00 x00 x00)) E)))
(T (W x03 x04 x00 x00 x00 x00 x00 x00)
(T (W x00 x00 x1c x00 xaf x00 x00 x00)
(T (W x00 x00 x7f x1e x32 x05 x05 x05)
(L (W x00 x00 x00 x00 x00 x00 x35 x03)) E)
(T (W x00 x50 x00 x00 x00 x00 x00 x00)
(L (W x00 x00 x00 x00 x00 x00 x00 x00)) E))
(T (W x00 x00 x00 x00 x00 x00 x00 x00)
(T (W x01 x40 x34 x00 x28 x00 x35 x00)
(L (W x0e x00 x10 x00 x13 x00 x19 x00)) E)
(T (W x08 x04 x00 x00 x00 x00 x30 x04)
(L (W x00 x00 x00 x01 x01 x01 x01 x01)) E)))))
(T (W x03 x03 x00 x00 x00 x00 x00 x00)
(T (W x00 x00 x3f x14 x32 x03 x08 x08)
(T (W x32 x00 x5a x32 x00 x00 x00 x00)
(T (W x00 x00 x00 x01 x01 x01 x01 x01)
(T (W x00 x00 x00 x00 x00 x00 x00 x00)
(L (W x40 x50 x80 x01 x00 x00 x00 x00))
(L (W x3c x00 x50 x32 x00 x00 x00 x00)))
(T (W x00 x00 x7f x14 x32 x03 x0b x0b)
(L (W x00 x00 x00 x00 x00 x00 x00 x00)) E))
(T (W x05 x06 x00 x00 x00 x00 x00 x00)
(T (W x5b x5a x6a x4d x82 x6a x09 x08)
(L (W x00 x01 x02 x04 x00 x00 x04 x14)) E)
(T (W x00 x00 x00 x00 x00 x00 x00 x00)
(L (W x01 x00 x01 x00 x01 x00 x01 x00)) E)))
(T (W x00 x00 x00 x00 x00 x00 x00 x00)
(T (W x00 x50 x00 x01 x00 x00 x00 x00)
(T (W x00 x00 x00 x00 x00 x00 xb6 x01)
(L (W x03 x03 x00 x00 x00 x00 x00 x00))
(L (W x02 x46 xa6 x00 x5a x00 x18 x01)))
(T (W x3c x00 x5a x2d x00 x00 x00 x00)
(L (W x00 x00 x00 x00 x00 x00 x00 x00)) E))
(T (W x00 x00 x00 x08 x0a x30 x00 x00)
(T (W x0e x00 x10 x00 x13 x00 x19 x00)
(L (W x00 x00 x68 x00 x58 x01 x00 x00)) E)
(T (W x03 x00 x00 x01 x01 x01 x01 x01)
(L (W x00 x00 xff x00 x00 x00 x00 x00)) E))))
(T (W x00 x00 x00 x00 x00 x00 x00 x00)
(T (W x00 x00 xb3 x01 x57 x00 x00 x00)
(T (W x00 x00 x00 x00 x00 x00 x00 x00)
(T (W x01 x42 x31 x00 x1e x00 x37 x00)
(L (W x0a x00 x0a x00 x13 x00 x0a x00))
(L (W x00 x00 x00 x00 x00 x00 x00 x00)))
(T (W x08 x40 x00 x80 x40 x00 x48 x00)
(L (W x00 x00 x00 x01 x01 x01 x01 x01)) E))
(T (W x00 x00 x7f x00 x00 x00 x00 x00)
(T (W x1c x90 x20 x00 x04 x00 x00 x00)
(L (W x3c x00 x55 x32 x00 x00 x00 x00)) E)
(T (W x00 x00 x00 x00 x00 x00 xb6 x02)
(L (W x01 x01 x00 x00 x00 x00 x00 x00)) E)))
(T (W x00 x00 x00 x00 x00 x00 x2b x00)
(T (W x0e x00 x10 x00 x13 x00 x19 x00)
(T (W x03 x05 x03 x01 x01 x01 x02 x02)
(L (W x00 x00 x7f x14 x32 x00 x01 x02)) E)
(T (W x00 x00 x9b x01 x38 x00 x00 x00)
(L (W x00 x00 x00 x00 x00 x00 x00 x00)) E))
(T (W x00 x00 x00 x00 x00 x00 x00 x00)
(T (W x03 x03 x00 x00 x00 x00 x00 x00)
(L (W x03 x49 xac x00 xa0 x00 xc1 x02)) E)
(T (W x00 x00 x00 x00 x00 x00 x00 x00)
(L (W x00 x00 x00 x00 x00 x00 x00 x00)) E)))))))
(T (W x03 x03 x00 x00 x00 x00 x00 x00)
(T (W x00 x00 x00 x00 x00 x00 x00 x00)
(T (W x02 x10 x02 x00 x04 x00 x00 x00)
(T (W x0e x00 x10 x00 x13 x00 x19 x00)
(T (W x00 x00 x7f x14 x32 x00 x09 x09)
(T (W x00 x00 x00 x00 x00 x00 x00 x00)
(T (W x80 x40 x00 x00 x49 x9c x00 x00)
(L (W x04 x04 x04 x01 x01 x01 x01 x01))
(L (W x00 x00 xff x78 x00 x05 x0f x0f)))
(T (W x0e x00 x10 x00 x13 x00 x19 x00)
(L (W x00 x00 x00 x00 x00 x00 x00 x00)) E))
(T (W x00 x00 x00 x00 x00 x00 x00 x00)
(T (W x00 x00 x00 x00 x00 x00 x85 x00)
(L (W x05 x06 x00 x00 x00 x00 x00 x00)) E)
(T (W x00 x00 x00 x00 x00 x00 x00 x00)
(L (W x47 x78 x5f x63 x78 x5f x06 x08)) E)))
(T (W x00 x00 x00 x00 x00 x00 x00 x00)
(T (W x03 x03 x03 x01 x01 x01 x01 x02)
(T (W x00 x00 x9e x01 x4a x01 x00 x00)
(L (W x00 x10 x05 x24 x02 x00 x00 x00))
(L (W x00 x00 x00 x00 x00 x00 x00 x00)))
(T (W x00 x00 x7f x28 x23 x05 x01 x0e)
(L (W x00 x00 x00 x00 x00 x00 xa4 x01)) E))
(T (W x04 x04 x00 x00 x00 x00 x00 x00)
(T (W x4c x19 x2d x18 x43 x37 x0d x0d)
(L (W x01 x44 x20 x00 x41 x04 x60 x14)) E)
(T (W x01 x47 x64 x00 x1e x00 x39 x00)
(L (W x01 x00 x01 x00 x01 x00 x01 x00)) E))))
(T (W x01 x01 x00 x00 x00 x00 x00 x00)
(T (W x40 x11 x10 x80 x40 x20 x18 x10)
(T (W x00 x00 x00 x00 x00 x00 xd6 x00)
(T (W x00 x00 x00 x00 x00 x00 x00 x00)
(L (W x5f x5f x5f x5f x5f x5f x00 x00))
(L (W x13 xc4 x00 x10 x60 x04 x20 x00)))
(T (W x01 x01 x00 x00 x00 x00 x00 x00)
(L (W x00 x00 x00 x00 x00 x00 x00 x00)) E))
(T (W x01 x00 x01 x00 x01 x00 x01 x00)
(T (W x00 x00 x00 x01 x01 x01 x01 x01)
(L (W x00 x00 x7f x19 x32 x00 x08 x08)) E)
(T (W x00 x00 x4c x01 x0e x00 x00 x00)
(L (W x00 x00 x00 x00 x00 x00 x00 x00)) E)))
(T (W x00 x00 x00 x00 x00 x00 x00 x00)
(T (W x00 x00 x00 x00 x00 x00 x00 x00)
(T (W x01 x41 x39 x00 x46 x00 xca x00)
(L (W x0e x00 x10 x00 x13 x00 x19 x00))
(L (W x00 x00 x00 x00 x00 x00 x00 x00)))
(T (W xa9 x04 x00 x44 x38 x00 x20 x00)
(L (W x00 x00 x00 x01 x01 x01 x01 x01)) E))
(T (W x00 x00 x7f x00 x00 x00 x00 x00)
(T (W x00 x00 x00 x00 x00 x00 x00 x00)
(L (W x3c x00 x5f x37 x00 x00 x00 x00)) E)
(T (W x00 x00 x00 x00 x00 x00 xd5 x02)
(L (W x01 x01 x00 x00 x00 x00 x00 x00)) E)))))
(T (W x00 x00 x32 x00 x30 x01 x00 x00)
(T (W x01 x45 x3e x00 x5a x00 xc3 x00)
(T (W x05 x05 x04 x01 x01 x01 x01 x01)
(T (W x05 x05 x00 x00 x00 x00 x00 x00)
(T (W x00 x00 x00 x00 x00 x00 x00 x00)
(L (W x00 x00 x00 x08 x22 x20 x00 x14))
(L (W x03 x03 x03 x01 x01 x01 x01 x01)))
(T (W x01 x46 x89 x00 x46 x00 xb4 x00)
(L (W x01 x00 x01 x00 x01 x00 x01 x00)) E))
(T (W x00 x00 x30 x01 x4a x02 x00 x00)
(T (W x00 x00 xff x50 x8c x05 x0f x0f)
(L (W x00 x00 x00 x00 x00 x00 x56 x03)) E)
(T (W x00 x00 x00 x00 x00 x00 x00 x00)
(L (W x00 x00 x00 x00 x00 x00 x00 x00)) E)))
(T (W x00 x00 x00 x00 x00 x00 x00 x00)
(T (W x46 x05 x02 x40 x28 x04 x00 x02)
(T (W x0e x00 x10 x00 x13 x00 x19 x00)
(L (W x00 x00 xd4 x01 xd1 x02 x00 x00))
(L (W x80 x11 x80 x12 x00 x00 x00 x00)))
(T (W x03 x03 x03 x01 x01 x01 x01 x01)
(L (W x00 x00 xff x00 x00 x00 x00 x00)) E))
(T (W x00 x00 x00 x00 x00 x00 x55 x01)
(T (W x3c x00 x55 x2d x00 x00 x00 x00)
(L (W x23 x37 x28 x5a x32 x32 x0c x0c)) E)
(T (W x03 x03 x00 x00 x00 x00 x00 x00)
(L (W x00 x00 x00 x00 x00 x00 x00 x00)) E))))
(T (W x00 x00 x00 x00 x00 x00 x00 x00)
(T (W x37 x37 x32 x37 x2d x41 x00 x00)
(T (W x00 x00 x7f x19 x32 x05 x02 x02)
(T (W x00 x00 x00 x00 x00 x00 x00 x00)
(L (W x3c x00 x50 x2d x00 x00 x00 x00))
(L (W x00 x00 x00 x00 x00 x00 x00 x00)))
(T (W x00 x00 x00 x00 x00 x00 x55 x02)
(L (W x01 x01 x00 x00 x00 x00 x00 x00)) E))
(T (W x01 x41 xa1 x00 xb4 x00 x78 x03)
(T (W x00 x00 x00 x00 x00 x00 x00 x00)
(L (W x03 x03 x04 x01 x01 x01 x01 x02)) E)
(T (W x0e x00 x10 x00 x13 x00 x19 x00)
(L (W x00 x00 x00 x00 x00 x00 x00 x00)) E)))
(T (W x01 x00 x01 x00 x01 x00 x01 x00)
(T (W x3c x00 x5a x32 x00 x00 x00 x00)
(T (W x03 x03 x00 x00 x00 x00 x00 x00)
(L (W x01 x48 x7a x00 x3c x00 x3c x00)) E)
(T (W x59 x7d x5a x65 x73 x50 x04 x02)
(L (W x00 x00 x00 x00 x00 x00 x00 x00)) E))
(T (W x05 x05 x05 x01 x01 x01 x01 x01)
(T (W x00 x00 x1c x00 x2c x00 x00 x00)
(L (W xe0 x11 x00 x1a x01 x00 x00 x00)) E)
(T (W x00 x00 x7f x0f x32 x00 x03 x03)
(L (W x00 x00 x00 x00 x00 x00 x00 x00)) E))))))
(T (W x00 x00 x00 x00 x00 x00 x00 x00)
(T (W x00 x00 x00 x14 x32 x03 x01 x05)
(T (W x00 x00 x00 x00 x00 x00 x00 x00)
(T (W x00 x00 x49 x00 x92 x01 x00 x00)
(T (W x5f x41 x6e x41 x3c x82 x10 x10)
(T (W x01 x40 x4f x01 x5e x01 x1c x25)
(L (W x0e x00 x10 x00 x13 x00 x19 x00))
(L (W x00 x00 x00 x00 x00 x00 x00 x00)))
(T (W x00 x00 x40 x0c x01 x42 x00 x08)
(L (W x00 x00 x00 x01 x01 x01 x01 x01)) E))
(T (W x00 x00 x7f x0f x32 x01 x03 x03)
(T (W x00 x00 x00 x00 x00 x00 x00 x00)
(L (W x3c x00 x50 x28 x00 x00 x00 x00)) E)
(T (W x00 x00 x00 x00 x00 x00 x95 x02)
(L (W x01 x01 x00 x00 x00 x00 x00 x00)) E)))
(T (W x00 x00 x00 x00 x00 x00 x96 x00)
(T (W x0a x00 x0a x00 x13 x00 x0a x00)
(T (W x00 x00 x00 x01 x01 x01 x01 x01)
(L (W x00 x00 xff x78 x00 x05 x0f x0f))
(L (W x00 x00 x00 x00 x00 x00 x64 x03)))
(T (W x00 x00 x97 x00 x3a x00 x00 x00)
(L (W x00 x30 x05 x24 x00 x00 x00 x00)) E))
(T (W x00 x00 x00 x00 x00 x00 x00 x00)
(T (W x01 x01 x00 x00 x00 x00 x00 x00)
(L (W x01 x43 x22 x01 xd2 x00 xd0 x07)) E)
(T (W x55 x6e x4c x38 x41 x52 x07 x0b)
(L (W x00 x00 x00 x00 x00 x00 x00 x00)) E))))
(T (W x3c x00 x5f x37 x00 x00 x00 x00)
(T (W x01 x45 xaf x00 x96 x00 x26 x02)
(T (W x01 x10 x02 x00 x00 x00 x00 x00)
(T (W x00 x00 x00 x00 x00 x00 x96 x01)
(L (W x03 x03 x00 x00 x00 x00 x00 x00))
(L (W x12 x47 x1d x01 xe6 x00 xed x03)))
(T (W x3c x00 x50 x28 x00 x00 x00 x00)
(L (W x00 x00 x00 x00 x00 x00 x00 x00)) E))
(T (W x00 x00 x00 x00 x00 x00 x00 x00)
(T (W x01 x00 x01 x00 x01 x00 x01 x00)
(L (W x00 x00 xb3 x01 xae x00 x00 x00)) E)
(T (W x03 x03 x02 x01 x01 x01 x01 x01)
(L (W x00 x00 xff x00 x00 x00 x00 x00)) E)))
(T (W x05 x05 x05 x01 x01 x01 x01 x01)
(T (W x01 x01 x00 x00 x00 x00 x00 x00)
(T (W x30 x3d x28 x32 x3d x28 x03 x01)
(L (W x46 x41 x02 x20 x22 x00 x0c x00)) E)
(T (W x01 x47 x22 x01 xbe x00 x28 x0a)
(L (W x0e x00 x10 x00 x13 x00 x19 x00)) E))
(T (W x00 x00 x0e x00 x90 x01 x00 x00)
(T (W x00 x00 x7f x14 x32 x00 x07 x06)
(L (W x00 x00 x00 x00 x00 x00 x34 x00)) E)
(T (W x00 x00 x00 x00 x00 x00 x00 x00)
(L (W x00 x00 x00 x00 x00 x00 x00 x00)) E)))))
(T (W x03 x03 x04 x01 x01 x01 x01 x02)
(T (W x00 x00 x00 x00 x00 x00 x00 x00)
(T (W x0e x00 x10 x00 x13 x00 x19 x00)
(T (W x3c x00 x55 x28 x00 x00 x00 x00)
(T (W x01 x01 x00 x00 x00 x00 x00 x00)
(L (W x01 x47 x2e x00 x32 x00 x78 x00))
(L (W x0e x00 x10 x00 x13 x00 x19 x00)))
(T (W x00 x00 x00 x00 x00 x00 x00 x00)
(L (W x00 x00 x00 x00 x00 x00 x00 x00)) E))
(T (W x00 x00 x00 x01 x01 x01 x01 x01)
(T (W x00 x00 x00 x00 x00 x00 x00 x00)
(L (W x02 x90 x80 x00 x00 x00 x00 x00)) E)
(T (W x00 x00 x7f x19 x32 x00 x05 x08)
(L (W x00 x00 x00 x00 x00 x00 x00 x00)) E)))
(T (W x00 x00 x7f x00 x00 x00 x00 x00)
(T (W x01 x40 x3e x00 x28 x00 x19 x00)
(T (W x00 x00 x00 x00 x00 x00 x00 x00)
(L (W x04 x03 x03 x01 x01 x01 x01 x01))
(L (W x00 x00 xff x78 x00 x05 x0f x0f)))
(T (W x0e x00 x10 x00 x13 x00 x19 x00)
(L (W x00 x00 x00 x00 x00 x00 x00 x00)) E))
(T (W x02 x12 x02 x40 x06 x00 x00 x00)
(T (W x00 x00 x00 x00 x00 x00 x14 x02)
(L (W x03 x04 x00 x00 x00 x00 x00 x00)) E)
(T (W x00 x00 x00 x00 x00 x00 x00 x00)
(L (W x00 x00 x00 x00 x00 x00 x00 x00)) E))))
(T (W xc0 x34 x00 x00 x00 x00 x00 x00)
(T (W x04 x05 x00 x00 x00 x00 x00 x00)
(T (W x00 x00 x00 x00 x00 x00 x00 x00)
(T (W x00 x00 x7f x00 x00 x00 x00 x00)
(L (W x00 x00 x00 x00 x00 x00 x15 x03))
(L (W x01 x01 x00 x00 x00 x00 x00 x00)))
(T (W x00 x00 x00 x00 x00 x00 x00 x00)
(L (W x00 x00 x00 x00 x00 x00 x00 x00)) E))
(T (W x00 x00 x00 x00 x00 x00 x00 x00)
(T (W x00 x00 x00 x00 x00 x00 x00 x00)
(L (W x0e x00 x10 x00 x13 x00 x19 x00)) E)
(T (W x81 xc4 x28 x44 x28 x1c x00 x44)
(L (W x00 x00 x00 x01 x01 x01 x01 x01)) E)))
(T (W x28 x40 x02 x00 x08 x18 x02 x00)
(T (W x00 x00 x00 x00 x00 x00 x16 x01)
(T (W x3c x00 x55 x32 x00 x00 x00 x00)
(L (W x1e x28 x32 x1e x28 x32 x05 x05)) E)
(T (W x01 x01 x00 x00 x00 x00 x00 x00)
(L (W x02 x41 x22 x01 x2c x01 x62 x02)) E))
(T (W x0e x00 x10 x00 x13 x00 x19 x00)
(T (W x03 x02 x02 x01 x01 x01 x01 x01)
(L (W x00 x00 xff x00 x00 x00 x00 x00)) E)
(T (W x00 x00 xe3 x01 xa4 x02 x00 x00)
(L (W x40 x30 x00 x10 x00 x00 x00 x00)) E)))))))))
(T (W x04 x04 x00 x00 x00 x00 x00 x00)
(T (W x12 x50 x00 x40 x00 x00 x00 x00)
(T (W x01 x41 x3f x00 x32 x00 x5a x00)
(T (W x00 x00 x00 x00 x00 x00 x00 x00)
(T (W x00 x00 x00 x00 x00 x00 x00 x00)
(T (W x00 x00 x00 x00 x00 x00 x00 x00)
(T (W x00 x00 x00 x00 x00 x00 x5c x00)
(T (W x01 x00 x01 x00 x01 x00 x01 x00)
(T (W x03 x03 x03 x01 x01 x01 x01 x01)
(L (W x00 x00 x7f x0f x32 x04 x0c x0c))
(L (W x00 x00 x00 x00 x00 x00 xc6 x02)))
(T (W x00 x00 x1c x00 x73 x01 x00 x00)
(L (W x00 xb0 x02 x40 x06 x00 x00 x00)) E))
(T (W x3c x00 x64 x2d x00 x00 x00 x00)
(T (W x03 x04 x00 x00 x00 x00 x00 x00)
(L (W x01 x44 xff x00 x18 x01 x21 x0c)) E)
(T (W x00 x00 x00 x00 x00 x00 x00 x00)
(L (W x02 x84 x08 x40 x69 x0c x00 x00)) E)))
(T (W x3c x73 x69 x50 x41 x46 x05 x0a)
(T (W x00 x00 x7f x00 x00 x00 x00 x00)
(T (W x00 x10 x80 x01 x00 x00 x00 x00)
(L (W x3c x00 x64 x41 x00 x00 x00 x00))
(L (W x37 x5a x50 x60 x32 x69 x07 x11)))
(T (W x00 x00 x00 x00 x00 x00 x5d x02)
(L (W x01 x01 x00 x00 x00 x00 x00 x00)) E))
(T (W x00 x00 x00 x00 x00 x00 x00 x00)
(T (W x00 x00 x00 x00 x00 x00 x00 x00)
(L (W x03 x03 x03 x01 x01 x01 x01 x01)) E)
(T (W x0a x00 x0a x00 x13 x00 x19 x00)
(L (W x00 x00 x00 x00 x00 x00 x00 x00)) E))))
(T (W x00 x00 x00 x00 x00 x00 x00 x00)
(T (W x03 x03 x03 x01 x01 x01 x01 x01)
(T (W x01 x01 x00 x00 x00 x00 x00 x00)
(T (W x00 x00 x00 x00 x00 x00 x00 x00)
(L (W x42 x41 x00 x00 x0a x18 x00 x00))
(L (W x03 x03 x03 x01 x01 x01 x01 x01)))
(T (W x01 x48 x8a x00 x6e x00 x9a x01)
(L (W x01 x00 x01 x00 x01 x00 x01 x00)) E))
(T (W x00 x00 xf2 x00 x47 x02 x00 x00)
(T (W x00 x00 xff x00 x00 x00 x00 x00)
(L (W x00 x00 x00 x00 x00 x00 x07 x01)) E)
(T (W x00 x00 x00 x00 x00 x00 x00 x00)
(L (W x00 x00 x00 x00 x00 x00 x00 x00)) E)))
(T (W x00 x10 x00 x80 x00 x00 x00 x00)
(T (W x90 x0a xa1 x03 x05 x08 x20 x01)
(T (W x0e x00 x10 x00 x13 x00 x19 x00)
(L (W x00 x00 x18 x00 x0c x03 x00 x00))
(L (W x00 xd8 x00 x40 x00 x00 x00 x00)))
(T (W x03 x03 x03 x01 x01 x01 x01 x01)
(L (W x00 x00 xff x00 x00 x00 x00 x00)) E))
(T (W x00 x00 x00 x00 x00 x00 x5d x01)
(T (W x32 x00 x50 x32 x00 x00 x00 x00)
(L (W x23 x37 x28 x5a x32 x32 x0c x0c)) E)
(T (W x03 x03 x00 x00 x00 x00 x00 x00)
(L (W x00 x00 x00 x00 x00 x00 x00 x00)) E)))))
(T (W x80 x90 x80 x12 x00 x00 x00 x00)
(T (W x0e x00 x10 x00 x13 x00 x19 x00)
(T (W x00 x00 x00 x19 x32 x00 x08 x08)
(T (W x02 x49 xac x00 xc8 x00 x1b x03)
(T (W x4e x51 x02 x01 x62 x34 x0c x14)
(L (W x04 x04 x04 x01 x01 x01 x01 x01))
(L (W x00 x00 xff x00 x00 x00 x00 x00)))
(T (W x0e x00 x10 x00 x13 x00 x19 x00)
(L (W x00 x00 x00 x00 x00 x00 x00 x00)) E))
(T (W x02 x30 x40 x40 x00 x00 x00 x00)
(T (W x00 x00 x00 x00 x00 x00 x69 x01)
(L (W x03 x03 x00 x00 x00 x00 x00 x00)) E)
(T (W x00 x00 x00 x00 x00 x00 x00 x00)
(L (W x00 x00 x00 x00 x00 x00 x00 x00)) E)))
(T (W x00 x00 x00 x00 x00 x00 x00 x00)
(T (W x03 x00 x00 x01 x01 x01 x01 x01)
(T (W x00 x00 x00 x00 x00 x00 x00 x00)
(L (W x02 x76 x20 x80 x09 x00 x00 x00))
(L (W x3c x00 x55 x32 x00 x00 x00 x00)))
(T (W x00 x00 x7f x14 x46 x00 x02 x0b)
(L (W x00 x00 x00 x00 x00 x00 xe7 x01)) E))
(T (W x03 x03 x00 x00 x00 x00 x00 x00)
(T (W x46 x69 x69 x14 x32 x28 x05 x05)
(L (W x2b x00 x02 x04 x10 x00 x02 x00)) E)
(T (W x04 x45 xad x00 x5a x00 x7d x00)
(L (W x01 x00 x01 x00 x01 x00 x01 x00)) E))))
(T (W x03 x04 x00 x00 x00 x00 x00 x00)
(T (W x00 x00 x00 x00 x00 x00 x00 x00)
(T (W x00 x00 x00 x00 x00 x00 xde x00)
(T (W x00 x00 x00 x00 x00 x00 x00 x00)
(L (W x46 x83 x64 x28 x56 x5a x07 x0b))
(L (W x00 x00 x00 x00 x00 x00 x00 x00)))
(T (W x01 x01 x00 x00 x00 x00 x00 x00)
(L (W x02 x48 x38 x00 x28 x00 xaf x00)) E))
(T (W x0e x00 x10 x00 x13 x00 x19 x00)
(T (W x00 x00 x00 x01 x01 x01 x01 x01)
(L (W x00 x00 x7f x19 x32 x05 x0a x0a)) E)
(T (W x00 x00 xcf x00 xec x01 x00 x00)
(L (W x00 x00 x00 x00 x00 x00 x00 x00)) E)))
(T (W x00 x00 x19 x01 xcc x00 x00 x00)
(T (W x00 x00 x00 x00 x00 x00 x00 x00)
(T (W x00 x00 x00 x00 x00 x00 x00 x00)
(L (W x0e x00 x10 x00 x13 x00 x19 x00)) E)
(T (W xb9 x00 x01 x04 x11 x60 x02 x02)
(L (W x04 x03 x03 x01 x01 x01 x01 x01)) E))
(T (W x00 x00 x7f x14 x32 x00 x06 x0a)
(T (W x00 x10 x00 x00 x00 x00 x00 x00)
(L (W x00 x00 x00 x00 x00 x00 x00 x00)) E)
(T (W x00 x00 x00 x00 x00 x00 x00 x00)
(L (W x01 x01 x00 x00 x00 x00 x00 x00)) E))))))
(T (W x01 x01 x00 x00 x00 x00 x00 x00)
(T (W x00 x00 x00 x00 x00 x00 x1d x00)
(T (W x03 x06 x04 x01 x01 x01 x02 x02)
(T (W x00 x00 x00 x00 x00 x00 x00 x00)
(T (W x00 x00 x00 x00 x00 x00 x00 x00)
(T (W x0a x00 x0a x00 x0a x00 x0a x00)
(L (W x00 x00 x2c x00 xa7 x02 x00 x00))
(L (W x00 x90 x02 x00 x0c x00 x00 x00)))
(T (W x04 x04 x04 x01 x01 x01 x01 x01)
(L (W x00 x00 x7f x14 x32 x00 x01 x02)) E))
(T (W x00 x00 x00 x00 x00 x00 x00 x00)
(T (W x00 x00 x00 x00 x00 x00 x00 x00)
(L (W x46 x55 x37 x55 x55 x5f x02 x0a)) E)
(T (W x01 x01 x00 x00 x00 x00 x00 x00)
(L (W x05 x46 x2c x01 x96 x00 x39 x03)) E)))
(T (W x02 x02 x00 x00 x00 x00 x00 x00)
(T (W x00 x00 x54 x00 x81 x00 x00 x00)
(T (W x00 x00 x7f x1e x32 x02 x0b x0b)
(L (W x00 x00 x00 x00 x00 x00 x1e x03))
(L (W x04 x04 x00 x00 x00 x00 x00 x00)))
(T (W x22 x10 x22 x40 x0e x00 x00 x00)
(L (W x3c x00 x50 x2d x00 x00 x00 x00)) E))
(T (W x2d x28 x3c x32 x28 x4b x00 x02)
(T (W x01 x47 x35 x00 x1e x00 x15 x00)
(L (W x0a x00 x0a x00 x0a x00 x0a x00)) E)
(T (W x00 x20 x00 x40 x00 x40 x00 x00)
(L (W x00 x00 x00 x01 x01 x01 x01 x01)) E))))
(T (W x32 x55 x37 x5a x41 x41 x09 x09)
(T (W x0e x00 x10 x00 x13 x00 x19 x00)
(T (W x00 x00 x00 x00 x00 x00 x00 x00)
(T (W x01 x01 x00 x00 x00 x00 x00 x00)
(L (W x00 x00 x00 x00 x00 x00 x00 x00))
(L (W x0e x00 x10 x00 x13 x00 x19 x00)))
(T (W x46 x87 x69 x14 x3c x69 x06 x08)
(L (W x00 x00 x00 x00 x00 x00 x00 x00)) E))
(T (W x04 x03 x03 x01 x01 x01 x01 x01)
(T (W x00 x00 x00 x00 x00 x00 x00 x00)
(L (W x00 x10 x80 x02 x00 x00 x00 x00)) E)
(T (W x00 x00 x7f x14 x32 x00 x06 x06)
(L (W x00 x00 x00 x00 x00 x00 x00 x00)) E)))
(T (W x00 x00 x7f x14 x32 x05 x0c x0c)
(T (W x02 x45 x38 x00 x28 x00 xaf x00)
(T (W x81 x20 x00 x00 x08 x10 x00 x40)
(L (W x04 x04 x03 x01 x01 x01 x01 x01)) E)
(T (W x0e x00 x10 x00 x13 x00 x19 x00)
(L (W x00 x00 x00 x00 x00 x00 x00 x00)) E))
(T (W xc0 x30 x02 x00 x00 x00 x00 x00)
(T (W x00 x00 x00 x00 x00 x00 x00 x00)
(L (W x05 x05 x00 x00 x00 x00 x00 x00)) E)
(T (W x3c x00 x55 x32 x00 x00 x00 x00)
(L (W x00 x00 x00 x00 x00 x00 x00 x00)) E)))))
(T (W x00 x00 x7f x0f x32 x00 x04 x04)
(T (W x66 x01 x02 x00 x33 x20 x0e x10)
(T (W x00 x00 x1e x00 x59 x00 x00 x00)
(T (W x00 x00 x00 x00 x00 x00 x00 x00)
(T (W x00 x00 x00 x00 x00 x00 x00 x00)
(L (W x0e x00 x10 x00 x13 x00 x19 x00))
(L (W x00 x00 x32 x01 xce x02 x00 x00)))
(T (W x46 x41 x12 x00 x62 x00 x0c x00)
(L (W x00 x00 x00 x01 x01 x01 x01 x01)) E))
(T (W x00 x00 xbf x0a x32 x04 x0f x0f)
(T (W x43 x10 x02 x00 x0c x00 x00 x00)
(L (W x3c x00 x55 x28 x00 x00 x00 x00)) E)
(T (W x00 x00 x00 x00 x00 x00 x00 x00)
(L (W x01 x01 x00 x00 x00 x00 x00 x00)) E)))
(T (W x00 x00 x00 x00 x00 x00 x00 x00)
(T (W x0e x00 x10 x00 x13 x00 x19 x00)
(T (W x03 x03 x02 x01 x01 x01 x01 x01)
(L (W x00 x00 x1f x14 x32 x03 x05 x07))
(L (W x00 x00 x00 x00 x00 x00 x6b x03)))
(T (W x00 x00 x4e x01 x59 x00 x00 x00)
(L (W x00 x00 x00 x00 x00 x00 x00 x00)) E))
(T (W x28 x00 x50 x23 x00 x00 x00 x00)
(T (W x04 x04 x00 x00 x00 x00 x00 x00)
(L (W x0a x42 x70 x00 x28 x00 x3c x00)) E)
(T (W x7e x83 x5f x63 x83 x62 x10 x02)
(L (W x00 x00 x00 x00 x00 x00 x00 x00)) E))))
(T (W x00 x00 x00 x00 x00 x00 x00 x00)
(T (W x01 x42 xb8 x00 x50 x00 xf5 x00)
(T (W x00 x00 x00 x00 x00 x00 x00 x00)
(T (W x00 x00 x00 x00 x00 x00 x00 x00)
(L (W x02 x02 x00 x00 x00 x00 x00 x00))
(L (W x00 x00 x00 x00 x00 x00 x00 x00)))
(T (W x3c x00 x55 x28 x00 x00 x00 x00)
(L (W x00 x00 x00 x00 x00 x00 x00 x00)) E))
(T (W x00 x04 x00 x00 x20 x84 x10 x00)
(T (W x0e x00 x10 x00 x13 x00 x19 x00)
(L (W x00 x00 xba x01 x0b x02 x00 x00)) E)
(T (W x03 x03 x03 x01 x01 x01 x01 x01)
(L (W x00 x00 xff x00 x00 x00 x00 x00)) E)))
(T (W x00 x00 x00 x01 x01 x01 x01 x01)
(T (W x03 x04 x00 x00 x00 x00 x00 x00)
(T (W x46 x78 x41 x7d x2d x55 x10 x0e)
(L (W x00 x00 x00 x00 x00 x00 x00 x00)) E)
(T (W x02 x42 x22 x01 x8c x00 xe5 x01)
(L (W x01 x00 x01 x00 x01 x00 x01 x00)) E))
(T (W x00 x00 x00 x00 x00 x00 x00 x00)
(T (W x00 x00 x7f x14 x32 x03 x05 x05)
(L (W x00 x00 x00 x00 x00 x00 x00 x00)) E)
(T (W x00 x00 x00 x00 x00 x00 x00 x00)
(L (W x00 x00 x00 x00 x00 x00 x00 x00)) E)))))))
(T (W x00 x00 x7f x0f x32 x00 x03 x03)
(T (W x00 x00 x00 x00 x00 x00 x00 x00)
(T (W x0e x00 x10 x00 x13 x00 x19 x00)
(T (W x03 x03 x00 x00 x00 x00 x00 x00)
(T (W x00 x00 x00 x00 x00 x00 x00 x00)
(T (W x00 x00 x00 x00 x00 x00 x00 x00)
(T (W x37 x00 x55 x2d x00 x00 x00 x00)
(L (W x46 x64 x46 x2d x2d x37 x04 x04))
(L (W x42 x01 x10 x0c x13 x21 x0a x00)))
(T (W x03 x03 x00 x00 x00 x00 x00 x00)
(L (W x02 x46 x22 x01 xaa x00 xfd x01)) E))
(T (W x01 x00 x01 x00 x01 x00 x01 x00)
(T (W x00 x00 x00 x01 x01 x01 x01 x01)
(L (W x00 x00 x7f x14 x32 x01 x07 x0e)) E)
(T (W x00 x00 x00 x00 x00 x00 x00 x00)
(L (W x00 x00 x00 x00 x00 x00 x00 x00)) E)))
(T (W x00 x00 x19 x01 x22 x00 x00 x00)
(T (W x32 x5f x5f x46 x23 x6e x01 x01)
(T (W x02 x46 xa6 x00 x5a x00 x2b x01)
(L (W x0a x00 x0a x00 x13 x00 x0a x00))
(L (W x00 x00 xd2 x02 xca x02 x00 x00)))
(T (W x72 x08 x02 x04 x02 x00 x08 x00)
(L (W x00 x00 x00 x01 x01 x01 x01 x01)) E))
(T (W x00 x00 x7f x14 x32 x03 x03 x0e)
(T (W x00 x00 x00 x00 x00 x00 x00 x00)
(L (W x00 x00 x00 x00 x00 x00 x00 x00)) E)
(T (W x00 x00 x00 x00 x00 x00 xbe x02)
(L (W x01 x01 x00 x00 x00 x00 x00 x00)) E))))
(T (W x00 x00 x7f x00 x00 x00 x00 x00)
(T (W x28 x00 x46 x28 x00 x00 x00 x00)
(T (W x03 x02 x02 x01 x01 x01 x01 x01)
(T (W x00 x00 x00 x00 x00 x00 x00 x00)
(L (W x02 x10 x00 x80 x00 x00 x00 x00))
(L (W x3c x00 x50 x32 x00 x00 x00 x00)))
(T (W x00 x00 x7f x00 x00 x00 x00 x00)
(L (W x00 x00 x00 x00 x00 x00 x00 x00)) E))
(T (W x04 x05 x00 x00 x00 x00 x00 x00)
(T (W x00 x00 x00 x00 x00 x00 x00 x00)
(L (W x80 x40 x24 x02 x04 x00 x20 x80)) E)
(T (W x01 x45 x41 x00 x50 x00 x14 x00)
(L (W x01 x00 x01 x00 x01 x00 x01 x00)) E)))
(T (W x00 x00 x00 x00 x00 x00 x00 x00)
(T (W x01 x10 x02 x00 x04 x00 x00 x00)
(T (W x00 x00 x00 x00 x00 x00 xbe x01)
(L (W x03 x03 x00 x00 x00 x00 x00 x00))
(L (W x03 x44 x54 x01 xf0 x00 x18 x02)))
(T (W x3c x00 x5a x32 x00 x00 x00 x00)
(L (W x00 x00 x00 x00 x00 x00 x00 x00)) E))
(T (W x00 x00 x00 x00 x00 x00 x00 x00)
(T (W x0e x00 x10 x00 x13 x00 x19 x00)
(L (W x00 x00 x02 x01 x3b x00 x00 x00)) E)
(T (W x04 x03 x03 x01 x01 x01 x01 x01)
(L (W x00 x00 xff x00 x00 x00 x00 x00)) E)))))
(T (W x01 x49 x5f x00 x32 x00 x37 x00)
(T (W x00 x00 x00 x00 x00 x00 x3c x00)
(T (W x28 x41 x5f x23 x3c x2d x03 x03)
(T (W x00 x00 x7f x14 x32 x00 x0b x0b)
(T (W x00 x00 x00 x00 x00 x00 x00 x00)
(L (W x3c x00 x64 x41 x00 x00 x00 x00))
(L (W x4b x75 x41 x6e x37 x41 x05 x05)))
(T (W x00 x00 x00 x00 x00 x00 x3e x02)
(L (W x01 x01 x00 x00 x00 x00 x00 x00)) E))
(T (W x01 x41 xf5 x00 x96 x00 x48 x03)
(T (W x46 x01 x02 x00 x32 x30 x0c x14)
(L (W x03 x02 x02 x01 x01 x01 x01 x01)) E)
(T (W x01 x00 x01 x00 x01 x00 x01 x00)
(L (W x00 x00 x00 x00 x00 x00 x00 x00)) E)))
(T (W x01 x00 x01 x00 x01 x00 x01 x00)
(T (W x3c x00 x5a x32 x00 x00 x00 x00)
(T (W x02 x03 x00 x00 x00 x00 x00 x00)
(L (W x01 x42 x2c x01 x96 x00 xbd x01))
(L (W x0e x00 x10 x00 x13 x00 x19 x00)))
(T (W x4d x78 x5a x30 x3c x5a x0f x0f)
(L (W x00 x00 x00 x00 x00 x00 x00 x00)) E))
(T (W x04 x03 x03 x01 x01 x01 x01 x01)
(T (W x00 x00 x5b x01 x5e x00 x00 x00)
(L (W x00 x00 x00 x00 x00 x00 x00 x00)) E)
(T (W x00 x00 x7f x14 x32 x00 x04 x0e)
(L (W x00 x00 x00 x00 x00 x00 x00 x00)) E))))
(T (W x00 x00 x00 x01 x01 x01 x01 x01)
(T (W x00 x00 x00 x00 x00 x00 x00 x00)
(T (W x04 x00 x00 x08 x04 x02 x80 x00)
(T (W x01 x00 x01 x00 x01 x00 x01 x00)
(L (W x00 x00 x5d x01 x51 x01 x00 x00))
(L (W x00 x00 x00 x00 x00 x00 x00 x00)))
(T (W x04 x04 x03 x01 x01 x01 x01 x01)
(L (W x00 x00 xff x00 x00 x00 x00 x00)) E))
(T (W x00 x00 x00 x00 x00 x00 x3e x01)
(T (W x00 x00 x00 x00 x00 x00 x00 x00)
(L (W x3a x5f x3a x61 x46 x3a x0c x10)) E)
(T (W x04 x05 x00 x00 x00 x00 x00 x00)
(L (W x00 x00 x00 x00 x00 x00 x00 x00)) E)))
(T (W x03 x04 x00 x00 x00 x00 x00 x00)
(T (W x00 x00 x48 x00 x9c x01 x00 x00)
(T (W x00 x00 x7f x19 x32 x05 x0f x0f)
(L (W x00 x00 x00 x00 x00 x00 x3d x03)) E)
(T (W x06 x10 x01 x00 x0a x00 x00 x00)
(L (W x00 x00 x00 x00 x00 x00 x00 x00)) E))
(T (W x6e x50 x5a x41 x5f x5a x0e x0a)
(T (W x01 x45 x3a x00 x46 x00 x98 x00)
(L (W x0e x00 x10 x00 x13 x00 x19 x00)) E)
(T (W x01 x40 x00 x12 x00 x00 x41 x00)
(L (W x00 x00 x00 x01 x01 x01 x01 x01)) E))))))
(T (W x00 x00 x00 x01 x01 x01 x01 x01)
(T (W x00 x00 x40 x02 x08 x00 x80 x08)
(T (W x00 x00 x00 x00 x00 x00 x00 x00)
(T (W x02 x42 xba x00 xc8 x00 xb0 x04)
(T (W x40 x91 x00 x00 x00 x00 x00 x00)
(T (W x00 x00 x00 x00 x00 x00 x7e x01)
(L (W x03 x04 x00 x00 x00 x00 x00 x00))
(L (W x00 x00 x00 x00 x00 x00 x00 x00)))
(T (W x3c x00 x50 x28 x00 x00 x00 x00)
(L (W x00 x00 x00 x00 x00 x00 x00 x00)) E))
(T (W x00 x00 x00 x00 x00 x00 x00 x00)
(T (W x0e x00 x10 x00 x13 x00 x19 x00)
(L (W x00 x00 xc6 x02 xa3 x02 x00 x00)) E)
(T (W x03 x03 x03 x01 x01 x01 x02 x02)
(L (W x00 x00 xff x00 x00 x00 x00 x00)) E)))
(T (W x03 x03 x03 x01 x01 x01 x01 x01)
(T (W x05 x06 x00 x00 x00 x00 x00 x00)
(T (W x00 x00 x00 x00 x00 x00 x00 x00)
(L (W x42 x40 x12 x01 x63 x24 x05 x10))
(L (W x02 x04 x03 x01 x01 x01 x02 x02)))
(T (W x01 x41 xb4 x00 x6e x00 xc8 x05)
(L (W x0e x00 x10 x00 x13 x00 x19 x00)) E))
(T (W x00 x00 x00 x00 x00 x00 x00 x00)
(T (W x00 x00 x7f x00 x00 x00 x00 x00)
(L (W x00 x00 x00 x00 x00 x00 x7e x03)) E)
(T (W x42 x30 x42 x00 x00 x00 x00 x00)
(L (W x00 x00 x00 x00 x00 x00 x00 x00)) E))))
(T (W x00 x00 x19 x01 x39 x00 x00 x00)
(T (W x00 x00 x00 x00 x00 x00 xf0 x00)
(T (W x01 x00 x01 x00 x01 x00 x01 x00)
(T (W x03 x03 x03 x01 x01 x01 x01 x01)
(L (W x00 x00 x7f x14 x32 x00 x0b x0b))
(L (W x00 x00 x00 x00 x00 x00 x04 x03)))
(T (W x00 x00 x13 x01 xca x00 x00 x00)
(L (W x00 x00 x00 x00 x00 x00 x00 x00)) E))
(T (W x00 x00 x00 x00 x00 x00 x00 x00)
(T (W x01 x01 x00 x00 x00 x00 x00 x00)
(L (W x01 x46 x98 x00 x1e x00 x0a x00)) E)
(T (W x52 x50 x56 x48 x55 x4b x11 x11)
(L (W x00 x00 x00 x00 x00 x00 x00 x00)) E)))
(T (W x32 x19 x1c x0f x2d x37 x11 x11)
(T (W x00 x00 x7f x00 x00 x00 x00 x00)
(T (W x1c x96 x22 x40 x06 x00 x00 x00)
(L (W x3c x00 x50 x28 x00 x00 x00 x00)) E)
(T (W x00 x00 x00 x00 x00 x00 x7e x02)
(L (W x03 x03 x00 x00 x00 x00 x00 x00)) E))
(T (W x01 x48 xa3 x00 x78 x00 xd6 x01)
(T (W x80 x40 x50 x12 x00 x00 x00 x88)
(L (W x04 x0a x08 x01 x01 x01 x02 x02)) E)
(T (W x01 x00 x01 x00 x01 x00 x01 x00)
(L (W x00 x00 x00 x00 x00 x00 x00 x00)) E)))))
(T (W x4b x50 x55 x32 x6e x5a x0b x03)
(T (W x00 x9a x02 x00 x04 x00 x00 x00)
(T (W x04 x05 x00 x00 x00 x00 x00 x00)
(T (W x00 x00 x00 x00 x00 x00 x00 x00)
(T (W x00 x00 x1f x00 x00 x00 x00 x00)
(L (W x00 x00 x00 x00 x00 x00 xfe x02))
(L (W x05 x05 x00 x00 x00 x00 x00 x00)))
(T (W x00 x00 x00 x00 x00 x00 x00 x00)
(L (W x00 x00 x00 x00 x00 x00 x00 x00)) E))
(T (W x00 x00 x00 x00 x00 x00 x00 x00)
(T (W x02 x44 x54 x01 xc2 x01 x4c x1d)
(L (W x0e x00 x10 x00 x13 x00 x19 x00)) E)
(T (W x00 x00 x00 x00 x00 x00 x00 x00)
(L (W x00 x00 x00 x01 x01 x01 x01 x01)) E)))
(T (W x00 x00 x00 x00 x00 x00 x00 x00)
(T (W x00 x00 x00 x00 x00 x00 xfc x00)
(T (W x3c x00 x64 x46 x00 x00 x00 x00)
(L (W x32 x47 x28 x45 x28 x28 x09 x09))
(L (W x01 x04 x20 x00 x01 x04 x60 x04)))
(T (W x03 x04 x00 x00 x00 x00 x00 x00)
(L (W x00 x00 x00 x00 x00 x00 x00 x00)) E))
(T (W x0e x00 x10 x00 x13 x00 x19 x00)
(T (W x04 x03 x03 x01 x01 x01 x01 x01)
(L (W x00 x00 x00 x0a x32 x00 x0f x0f)) E)
(T (W x00 x00 x00 x00 x00 x00 x00 x00)
(L (W x00 x00 x00 x00 x00 x00 x00 x00)) E))))
(T (W x0e x00 x10 x00 x13 x00 x19 x00)
(T (W x00 x00 x1f x1e x32 x00 x02 x09)
(T (W x00 x00 x00 x00 x00 x00 x00 x00)
(T (W x00 x00 x00 x00 x00 x00 x00 x00)
(L (W x0a x0a x0a x01 x01 x01 x01 x01))
(L (W x00 x00 xff x00 x00 x00 x00 x00)))
(T (W x01 x00 x01 x00 x01 x00 x01 x00)
(L (W x00 x00 x00 x00 x00 x00 x00 x00)) E))
(T (W x00 x10 x02 x00 x04 x00 x00 x00)
(T (W x00 x00 x00 x00 x00 x00 xfd x01)
(L (W x03 x03 x00 x00 x00 x00 x00 x00)) E)
(T (W x37 x00 x55 x2d x00 x00 x00 x00)
(L (W x00 x00 x00 x00 x00 x00 x00 x00)) E)))
(T (W x3c x00 x64 x46 x00 x00 x00 x00)
(T (W x00 x00 x00 x01 x01 x01 x01 x01)
(T (W x00 x00 x32 x00 xb6 x01 x00 x00)
(L (W x14 x10 x21 x24 x00 x00 x00 x00)) E)
(T (W x00 x00 x1f x00 x00 x00 x00 x00)
(L (W x00 x00 x00 x00 x00 x00 x81 x02)) E))
(T (W x01 x01 x00 x00 x00 x00 x00 x00)
(T (W x32 x41 x55 x37 x23 x23 x06 x05)
(L (W x00 x00 x00 x00 x00 x00 x00 x00)) E)
(T (W x01 x42 xa2 x00 x14 x00 x05 x00)
(L (W x0e x00 x10 x00 x13 x00 x19 x00)) E))))))))
(T (W x03 x02 x02 x01 x01 x01 x01 x01)
(T (W x3c x00 x55 x28 x00 x00 x00 x00)
(T (W x00 x00 x00 x00 x00 x00 x00 x00)
(T (W x00 x00 x7f x0a x32 x00 x05 x06)
(T (W x00 x00 x00 x00 x00 x00 x00 x00)
(T (W x00 x00 xae x00 xdf x01 x00 x00)
(T (W x00 x00 x00 x00 x00 x00 x00 x00)
(T (W x01 x41 x93 x00 x78 x00 xe9 x07)
(L (W x0e x00 x10 x00 x13 x00 x19 x00))
(L (W x00 x00 x37 x02 x36 x01 x00 x00)))
(T (W x56 x11 x02 x04 x62 x00 x04 x10)
(L (W x04 x03 x02 x01 x01 x01 x01 x01)) E))
(T (W x00 x00 x7f x14 x23 x05 x08 x0b)
(T (W x00 x90 x80 x90 x01 x00 x00 x00)
(L (W x3c x00 x55 x32 x00 x00 x00 x00)) E)
(T (W x00 x00 x00 x00 x00 x00 x00 x00)
(L (W x05 x06 x00 x00 x00 x00 x00 x00)) E)))
(T (W x00 x00 x00 x00 x00 x00 x8e x00)
(T (W x01 x00 x01 x00 x01 x00 x01 x00)
(T (W x03 x03 x03 x01 x01 x01 x01 x01)
(L (W x00 x00 xff x78 x00 x05 x0f x0f))
(L (W x00 x00 xc9 x02 xd4 x02 x20 x03)))
(T (W x00 x00 x6d x00 x34 x00 x00 x00)
(L (W x00 x00 x00 x00 x00 x00 x00 x00)) E))
(T (W x32 x00 x50 x28 x00 x00 x00 x00)
(T (W x01 x01 x00 x00 x00 x00 x00 x00)
(L (W x01 x43 x2c x01 x2c x01 xf4 x01)) E)
(T (W x4e x5c x4b x76 x4a x3f x01 x02)
(L (W x00 x00 x00 x00 x00 x00 x00 x00)) E))))
(T (W x37 x00 x55 x37 x00 x00 x00 x00)
(T (W x01 x40 x9e x00 x82 x00 x86 x01)
(T (W x20 x56 x00 xc0 x02 x00 x00 x00)
(T (W x00 x00 x00 x00 x00 x00 x00 x00)
(L (W x04 x05 x00 x00 x00 x00 x00 x00))
(L (W x12 x47 x1d x01 xe6 x00 xed x03)))
(T (W x3c x00 x5a x32 x00 x00 x00 x00)
(L (W x00 x00 x00 x00 x00 x00 x00 x00)) E))
(T (W x88 x40 x00 x00 x08 x9c x00 x00)
(T (W x01 x00 x01 x00 x01 x00 x01 x00)
(L (W x00 x00 xba x01 xd4 x01 x00 x00)) E)
(T (W x04 x04 x04 x01 x01 x01 x01 x01)
(L (W x00 x00 xff x00 x00 x00 x00 x00)) E)))
(T (W x00 x00 x00 x01 x01 x01 x01 x01)
(T (W x03 x04 x00 x00 x00 x00 x00 x00)
(T (W x6c x82 x5f x66 x50 x55 x0f x04)
(L (W x00 x20 x00 x00 x00 x00 x20 x00))
(L (W x00 x00 x00 x01 x01 x01 x01 x01)))
(T (W x01 x40 xa9 x00 x8c x00 x44 x02)
(L (W x01 x00 x01 x00 x01 x00 x01 x00)) E))
(T (W x00 x00 x00 x00 x00 x00 x00 x00)
(T (W x00 x00 x00 x14 x32 x00 x08 x08)
(L (W x00 x00 x55 x00 xbc x02 xac x00)) E)
(T (W x22 x78 x40 xc0 x00 x00 x00 x00)
(L (W x00 x00 x00 x00 x00 x00 x00 x00)) E)))))
(T (W x04 x03 x03 x01 x01 x01 x01 x01)
(T (W x41 x41 x41 x5a x32 x32 x0a x0a)
(T (W x0e x00 x10 x00 x13 x00 x19 x00)
(T (W x00 x00 x00 x00 x00 x00 x00 x00)
(T (W x01 x01 x00 x00 x00 x00 x00 x00)
(L (W x01 x49 x44 x00 x32 x00 x44 x00))
(L (W x0e x00 x10 x00 x13 x00 x19 x00)))
(T (W x4b x5f x3c x73 x41 x3c x00 x00)
(L (W x00 x00 x00 x00 x00 x00 x00 x00)) E))
(T (W x06 x06 x06 x01 x01 x01 x01 x01)
(T (W x00 x00 x56 x02 xb3 x01 x00 x00)
(L (W x00 x90 x00 x00 x00 x00 x00 x00)) E)
(T (W x00 x00 x7f x00 x00 x00 x00 x00)
(L (W x00 x00 x00 x00 x00 x00 x00 x00)) E)))
(T (W x00 x00 x1f x00 x00 x00 x00 x00)
(T (W x01 x47 x90 x00 x78 x00 xf0 x05)
(T (W x00 x00 x00 x00 x00 x00 x00 x00)
(L (W x03 x00 x00 x01 x01 x01 x01 x01))
(L (W x00 x00 xfe x14 x32 x00 x06 x0b)))
(T (W x0e x00 x10 x00 x13 x00 x19 x00)
(L (W x00 x00 x00 x00 x00 x00 x00 x00)) E))
(T (W x00 x10 x02 x00 x04 x00 x00 x00)
(T (W x00 x00 x00 x00 x00 x00 x0c x02)
(L (W x02 x02 x00 x00 x00 x00 x00 x00)) E)
(T (W x3c x00 x55 x32 x00 x00 x00 x00)
(L (W x00 x00 x00 x00 x00 x00 x00 x00)) E))))
(T (W x00 x00 x00 x00 x00 x00 x00 x00)
(T (W x04 x04 x00 x00 x00 x00 x00 x00)
(T (W x00 x00 x3a x00 x39 x00 x00 x00)
(T (W x00 x00 x1f x00 x00 x00 x00 x00)
(L (W x00 x00 x00 x00 x00 x00 x0e x03))
(L (W x01 x01 x00 x00 x00 x00 x00 x00)))
(T (W x00 x12 x05 x00 x00 x00 x00 x00)
(L (W x3c x00 x55 x28 x00 x00 x00 x00)) E))
(T (W x00 x00 x00 x00 x00 x00 x00 x00)
(T (W x00 x00 x00 x00 x00 x00 x00 x00)
(L (W x0e x00 x10 x00 x13 x00 x19 x00)) E)
(T (W xa8 xe0 x01 x12 x09 x78 x10 x00)
(L (W x00 x00 x00 x01 x01 x01 x01 x01)) E)))
(T (W x56 x11 x02 x00 x20 x20 x0c x10)
(T (W x00 x00 x00 x00 x00 x00 x0e x01)
(T (W x00 x00 x00 x00 x00 x00 x00 x00)
(L (W x28 x28 x3c x0a x28 x3c x0b x0b)) E)
(T (W x02 x02 x00 x00 x00 x00 x00 x00)
(L (W x00 x00 x00 x00 x00 x00 x00 x00)) E))
(T (W x0e x00 x10 x00 x13 x00 x19 x00)
(T (W x03 x03 x03 x01 x01 x01 x01 x01)
(L (W x00 x00 xff x00 x00 x00 x00 x00)) E)
(T (W x00 x00 x00 x00 x00 x00 x00 x00)
(L (W x00 x00 x00 x00 x00 x00 x00 x00)) E))))))
(T (W x00 x00 x00 x00 x00 x00 x00 x00)
(T (W x00 x00 x2d x00 x9e x01 x00 x00)
(T (W x01 x41 xaf x00 xaa x00 xfe x02)
(T (W x00 x00 x00 x01 x01 x01 x01 x01)
(T (W x03 x03 x00 x00 x00 x00 x00 x00)
(T (W x50 x5a x50 x6e x82 x6e x0f x0d)
(L (W x00 x00 x04 x1a x82 x20 x00 x00))
(L (W x03 x00 x00 x01 x01 x01 x01 x01)))
(T (W x01 x42 xb1 x00 x8c x00 x40 x01)
(L (W x01 x00 x01 x00 x01 x00 x01 x00)) E))
(T (W x00 x00 x00 x00 x00 x00 x00 x00)
(T (W x00 x00 xff x14 x32 x00 x0a x0a)
(L (W x00 x00 x00 x00 x00 x00 x4e x03)) E)
(T (W x00 x10 x02 x00 x06 x00 x00 x00)
(L (W x00 x00 x00 x00 x00 x00 x00 x00)) E)))
(T (W x00 x10 x00 x00 x0a x00 x00 x00)
(T (W x02 x00 x10 x00 x21 x94 x20 x44)
(T (W x0e x00 x10 x00 x13 x00 x19 x00)
(L (W x00 x00 x00 x00 x00 x00 x00 x00))
(L (W x80 x30 x40 x00 x00 x00 x00 x00)))
(T (W x04 x04 x04 x01 x01 x01 x01 x01)
(L (W x00 x00 xff x14 x32 x00 x0b x0b)) E))
(T (W x00 x00 x00 x00 x00 x00 x4d x01)
(T (W x3c x00 x55 x2d x00 x00 x00 x00)
(L (W x69 x78 x69 x69 x46 x5f x10 x0b)) E)
(T (W x05 x05 x00 x00 x00 x00 x00 x00)
(L (W x00 x00 x00 x00 x00 x00 x00 x00)) E))))
(T (W x00 x00 x00 x00 x00 x00 x4d x00)
(T (W x41 x53 x39 x69 x5f x55 x0c x0c)
(T (W x00 x00 x7f x00 x00 x00 x00 x00)
(T (W x1c x10 x21 x20 x00 x00 x00 x00)
(L (W x3c x00 x64 x32 x00 x00 x00 x00))
(L (W x5f x5f x5f x5f x5f x5f x0f x0f)))
(T (W x00 x00 x00 x00 x00 x00 x4e x02)
(L (W x01 x01 x00 x00 x00 x00 x00 x00)) E))
(T (W x00 x00 x00 x00 x00 x00 x00 x00)
(T (W x00 x00 x00 x00 x00 x00 x00 x00)
(L (W x04 x03 x02 x01 x01 x01 x01 x01)) E)
(T (W x0e x00 x10 x00 x13 x00 x19 x00)
(L (W x00 x00 x00 x00 x00 x00 x00 x00)) E)))
(T (W x0e x00 x10 x00 x13 x00 x19 x00)
(T (W x3c x00 x55 x28 x00 x00 x00 x00)
(T (W x05 x05 x00 x00 x00 x00 x00 x00)
(L (W x01 x46 xf8 x00 xdc x00 xee x02)) E)
(T (W x55 x3c x41 x64 x87 x69 x06 x09)
(L (W xa9 x20 x00 x00 x20 x00 x10 x00)) E))
(T (W x00 x00 x00 x01 x01 x01 x01 x01)
(T (W x00 x00 x67 x00 x56 x01 x00 x00)
(L (W x02 x10 x02 x00 x04 x00 x00 x00)) E)
(T (W x00 x00 x1f x0f x32 x03 x02 x05)
(L (W x00 x00 x00 x00 x00 x00 x00 x00)) E)))))
(T (W x0e x00 x10 x00 x13 x00 x19 x00)
(T (W x03 x05 x00 x00 x00 x00 x00 x00)
(T (W x0a x05 x02 x00 x20 x30 x6c x10)
(T (W x00 x00 x00 x00 x00 x00 xce x00)
(T (W x00 x00 x00 x00 x00 x00 x00 x00)
(L (W x5a x3c x50 x3c x5a x6e x00 x0d))
(L (W x13 xc4 x00 x10 x60 x04 x20 x00)))
(T (W x04 x04 x00 x00 x00 x00 x00 x00)
(L (W x00 x00 x00 x00 x00 x00 x00 x00)) E))
(T (W x01 x00 x01 x00 x01 x00 x01 x00)
(T (W x03 x00 x00 x01 x01 x01 x01 x01)
(L (W x00 x00 xfe x14 x32 x05 x06 x06)) E)
(T (W x00 x00 x00 x00 x00 x00 x00 x00)
(L (W x00 x00 x00 x00 x00 x00 x00 x00)) E)))
(T (W x00 x00 x00 x00 x00 x00 x00 x00)
(T (W x32 x41 x2d x5f x55 x41 x0b x0b)
(T (W x01 x49 x3e x00 x3c x00 x82 x00)
(L (W x0e x00 x10 x00 x13 x00 x19 x00))
(L (W x00 x00 x5b x01 x5e x00 x00 x00)))
(T (W x20 x40 x00 x16 x01 x3c x02 x80)
(L (W x00 x00 x00 x01 x01 x01 x01 x01)) E))
(T (W x00 x00 x1f x1e x32 x01 x09 x09)
(T (W x00 x98 x00 x00 x02 x00 x00 x00)
(L (W x3c x00 x55 x14 x00 x00 x00 x00)) E)
(T (W x00 x00 x00 x00 x00 x00 xce x02)
(L (W x01 x01 x00 x00 x00 x00 x00 x00)) E))))
(T (W x00 x00 x7f x14 x32 x05 x09 x09)
(T (W x3c x00 x50 x14 x00 x00 x00 x00)
(T (W x00 x00 x00 x01 x01 x01 x01 x01)
(T (W x00 x00 xe6 x00 x0a x02 x00 x00)
(L (W x80 x11 x80 x02 x01 x00 x00 x00))
(L (W x00 x00 x00 x00 x00 x00 x00 x00)))
(T (W x00 x00 x7f x00 x00 x00 x00 x00)
(L (W x00 x00 x00 x00 x00 x00 x00 x00)) E))
(T (W x01 x01 x00 x00 x00 x00 x00 x00)
(T (W x29 x32 x25 x42 x32 x25 x10 x10)
(L (W x20 x04 x00 x00 x00 x08 x41 x00)) E)
(T (W x01 x42 xa8 x00 x64 x00 xd2 x00)
(L (W x01 x00 x01 x00 x01 x00 x01 x00)) E)))
(T (W x01 x41 x58 x00 x28 x00 x55 x00)
(T (W x00 x00 x00 x00 x00 x00 x00 x00)
(T (W x00 x00 x00 x00 x00 x00 x51 x00)
(L (W x05 x05 x00 x00 x00 x00 x00 x00)) E)
(T (W x00 x00 x00 x00 x00 x00 x00 x00)
(L (W x6d x51 x63 x20 x42 x54 x04 x08)) E))
(T (W x00 x60 x02 x00 x28 x18 x10 x00)
(T (W x0e x00 x10 x00 x13 x00 x19 x00)
(L (W x00 x00 x19 x01 x21 x03 x00 x00)) E)
(T (W x00 x00 x00 x01 x01 x01 x01 x01)
(L (W x00 x00 xfe x14 x32 x00 x05 x05)) E)))))))
(T (W x0e x00 x10 x00 x13 x00 x19 x00)
(T (W x00 x00 x00 x00 x00 x00 x00 x00)
(T (W x37 x2f x34 x29 x28 x28 x03 x03)
(T (W x02 x90 x00 x00 x00 x00 x00 x00)
(T (W x03 x03 x00 x00 x00 x00 x00 x00)
(T (W x00 x00 x00 x00 x00 x00 x00 x00)
(T (W x00 x00 xff x50 x23 x05 x0f x0f)
(L (W x00 x00 x00 x00 x00 x00 xed x02))
(L (W x02 x02 x00 x00 x00 x00 x00 x00)))
(T (W x00 x10 x02 x00 x00 x00 x00 x00)
(L (W x00 x00 x00 x00 x00 x00 x00 x00)) E))
(T (W x00 x00 x00 x00 x00 x00 x00 x00)
(T (W x01 x41 xb8 x00 x50 x00 x03 x01)
(L (W x0e x00 x10 x00 x13 x00 x19 x00)) E)
(T (W x00 x00 x00 x00 x00 x00 x00 x00)
(L (W x00 x00 x00 x01 x01 x01 x01 x01)) E)))
(T (W x10 x00 x00 x00 x04 x00 x40 x02)
(T (W x00 x00 x00 x00 x00 x00 xee x00)
(T (W x00 x00 x00 x00 x00 x00 x00 x00)
(L (W x61 x65 x67 x3d x6b x65 x08 x02))
(L (W x88 x00 x00 x00 x04 x00 x10 x82)))
(T (W x03 x03 x00 x00 x00 x00 x00 x00)
(L (W x02 x41 x41 x00 x1e x00 x3f x00)) E))
(T (W x01 x00 x01 x00 x01 x00 x01 x00)
(T (W x04 x04 x03 x01 x01 x01 x01 x01)
(L (W x00 x00 xff x78 x00 x05 x0f x0f)) E)
(T (W x00 x00 x71 x00 x49 x02 x00 x00)
(L (W x00 x00 x00 x00 x00 x00 x00 x00)) E))))
(T (W x01 x00 x01 x00 x01 x00 x01 x00)
(T (W x00 x00 x7f x19 x32 x00 x08 x08)
(T (W x01 x44 x56 x00 x5a x00 x18 x01)
(T (W x00 x00 x00 x00 x00 x00 x00 x00)
(L (W x03 x03 x03 x01 x01 x01 x01 x01))
(L (W x00 x00 xff x78 x00 x05 x0f x0f)))
(T (W x0e x00 x10 x00 x13 x00 x19 x00)
(L (W x00 x00 x00 x00 x00 x00 x00 x00)) E))
(T (W x00 x00 x00 x00 x00 x00 x00 x00)
(T (W x00 x00 x00 x00 x00 x00 xee x01)
(L (W x04 x05 x00 x00 x00 x00 x00 x00)) E)
(T (W x3c x00 x55 x1e x00 x00 x00 x00)
(L (W x00 x00 x00 x00 x00 x00 x00 x00)) E)))
(T (W x00 x00 x00 x00 x00 x00 x00 x00)
(T (W x00 x00 x00 x01 x01 x01 x01 x01)
(T (W x00 x00 x0e x02 x99 x01 x00 x00)
(L (W x1c x10 x10 x00 x06 x00 x00 x00)) E)
(T (W x00 x00 x7f x28 x23 x05 x0e x0e)
(L (W x00 x00 x00 x00 x00 x00 x00 x00)) E))
(T (W x01 x01 x00 x00 x00 x00 x00 x00)
(T (W x00 x00 x00 x00 x00 x00 x00 x00)
(L (W x00 x00 x00 x04 x20 x00 x02 x00)) E)
(T (W x01 x40 x09 x01 xb4 x00 x3e x03)
(L (W x01 x00 x01 x00 x01 x00 x01 x00)) E)))))
(T (W x3c x00 x64 x46 x00 x00 x00 x00)
(T (W x00 x00 x00 x00 x00 x00 x00 x00)
(T (W x00 x00 x00 x00 x00 x00 x6d x00)
(T (W x01 x00 x01 x00 x01 x00 x01 x00)
(T (W x00 x00 x00 x01 x01 x01 x01 x01)
(L (W x00 x00 xfe x14 x32 x03 x07 x07))
(L (W x00 x00 x00 x00 x00 x00 xea x02)))
(T (W x00 x00 xcc x00 xd9 x01 x00 x00)
(L (W x00 x00 x00 x00 x00 x00 x00 x00)) E))
(T (W x00 x00 x00 x00 x00 x00 x00 x00)
(T (W x02 x02 x00 x00 x00 x00 x00 x00)
(L (W x02 x46 xb2 x00 x14 x00 x04 x00)) E)
(T (W x00 x00 x00 x00 x00 x00 x00 x00)
(L (W x00 x00 x00 x00 x00 x00 x00 x00)) E)))
(T (W x00 x00 x00 x00 x00 x00 x00 x00)
(T (W x00 x00 xff x78 x00 x05 x0f x0f)
(T (W xc0 x30 x02 x00 x00 x00 x00 x00)
(L (W x3c x00 x5a x32 x00 x00 x00 x00))
(L (W x41 x3c x4b x40 x6e x79 x11 x11)))
(T (W x00 x00 x00 x00 x00 x00 x6e x02)
(L (W x01 x01 x00 x00 x00 x00 x00 x00)) E))
(T (W x01 x45 x3c x00 x32 x00 xd7 x00)
(T (W x00 x40 x00 x12 x08 x10 x80 x40)
(L (W x02 x06 x03 x01 x01 x01 x02 x02)) E)
(T (W x0e x00 x10 x00 x13 x00 x19 x00)
(L (W x00 x00 x00 x00 x00 x00 x00 x00)) E))))
(T (W x00 x00 x00 x00 x00 x00 x00 x00)
(T (W x04 x04 x02 x01 x01 x01 x01 x02)
(T (W x05 x05 x00 x00 x00 x00 x00 x00)
(T (W x00 x00 x00 x00 x00 x00 x00 x00)
(L (W x20 x44 x02 x00 x04 x24 x65 x10))
(L (W x00 x00 x00 x01 x01 x01 x01 x01)))
(T (W x01 x47 x3c x00 x1e x00 xd2 x00)
(L (W x01 x00 x01 x00 x01 x00 x01 x00)) E))
(T (W x00 x00 x74 x00 xf2 x00 x00 x00)
(T (W x00 x00 x7f x0f x32 x03 x05 x05)
(L (W x00 x00 x00 x00 x00 x00 x6e x03)) E)
(T (W x00 x14 x00 x00 x00 x00 x00 x00)
(L (W x00 x00 x00 x00 x00 x00 x00 x00)) E)))
(T (W x00 x00 x00 x00 x00 x00 x00 x00)
(T (W x02 x00 x00 x08 x12 x20 x02 x00)
(T (W x0e x00 x10 x00 x13 x00 x19 x00)
(L (W x00 x00 x1a x02 x24 x00 x00 x00)) E)
(T (W x03 x00 x00 x01 x01 x01 x01 x01)
(L (W x00 x00 xff x00 x00 x00 x00 x00)) E))
(T (W x00 x00 x00 x00 x00 x00 x00 x00)
(T (W x37 x00 x55 x2d x00 x00 x00 x00)
(L (W x5a x41 x41 x0f x28 x28 x0d x0d)) E)
(T (W x04 x05 x00 x00 x00 x00 x00 x00)
(L (W x00 x00 x00 x00 x00 x00 x00 x00)) E))))))
(T (W x00 x00 x00 x00 x00 x00 x00 x00)
(T (W x03 x04 x00 x00 x00 x00 x00 x00)
(T (W x00 x00 x3f x14 x32 x05 x05 x05)
(T (W x3c x00 x55 x37 x00 x00 x00 x00)
(T (W x04 x03 x03 x01 x01 x01 x01 x01)
(T (W x00 x00 x00 x00 x00 x00 x00 x00)
(L (W x80 x11 x80 x00 x00 x00 x00 x00))
(L (W x00 x00 x00 x00 x00 x00 x00 x00)))
(T (W x00 x00 x1f x19 x32 x03 x05 x05)
(L (W x00 x00 x00 x00 x00 x00 x00 x00)) E))
(T (W x03 x03 x00 x00 x00 x00 x00 x00)
(T (W x2d x64 x87 x2d x41 x87 x07 x07)
(L (W x28 x04 x00 x02 x00 x42 x45 x80)) E)
(T (W x01 x40 xaf x00 x78 x00 xf5 x00)
(L (W x01 x00 x01 x00 x01 x00 x01 x00)) E)))
(T (W x01 x49 x2c x01 x28 x00 x28 x00)
(T (W x10 x10 x22 x00 x04 x00 x00 x00)
(T (W x00 x00 x00 x00 x00 x00 x00 x00)
(L (W x05 x06 x00 x00 x00 x00 x00 x00))
(L (W x09 x43 xad x00 x1e x00 x05 x00)))
(T (W x3c x00 x55 x28 x00 x00 x00 x00)
(L (W x32 x41 x6b x56 x69 x6b x0c x0b)) E))
(T (W x06 x11 x12 x80 x38 x3c x0c x00)
(T (W x01 x00 x01 x00 x01 x00 x01 x00)
(L (W x00 x00 x00 x00 x00 x00 x00 x00)) E)
(T (W x03 x02 x02 x01 x01 x01 x01 x01)
(L (W x00 x00 xff x00 x00 x00 x00 x00)) E))))
(T (W x00 x40 x10 x00 x40 x00 x41 x00)
(T (W x00 x00 x0c x00 xe0 x01 x00 x00)
(T (W x64 x64 x50 x32 x3c x3c x0e x04)
(T (W x01 x43 x02 x01 x5a x00 x91 x00)
(L (W x01 x00 x01 x00 x01 x00 x01 x00))
(L (W x00 x00 x32 x01 xce x02 x00 x00)))
(T (W x62 x20 x00 x04 x02 x40 x10 x10)
(L (W x00 x00 x00 x01 x01 x01 x01 x01)) E))
(T (W x00 x00 xfe x00 x00 x00 x00 x00)
(T (W x00 x00 x00 x00 x00 x00 x00 x00)
(L (W x32 x00 x55 x32 x00 x00 x00 x00)) E)
(T (W x00 x00 x00 x00 x00 x00 xae x02)
(L (W x01 x01 x00 x00 x00 x00 x00 x00)) E)))
(T (W x00 x00 x00 x00 x00 x00 xae x00)
(T (W x01 x00 x01 x00 x01 x00 x01 x00)
(T (W x03 x02 x02 x01 x01 x01 x01 x01)
(L (W x00 x00 x7f x0f x32 x00 x03 x03)) E)
(T (W x00 x00 xbc x01 x15 x02 x00 x00)
(L (W x19 x10 x02 x00 x00 x00 x00 x00)) E))
(T (W x32 x00 x5a x28 x00 x00 x00 x00)
(T (W x03 x03 x00 x00 x00 x00 x00 x00)
(L (W x02 x41 x9a x00 x6e x00 x4a x01)) E)
(T (W x00 x00 x00 x00 x00 x00 x00 x00)
(L (W x00 x00 x00 x00 x00 x00 x00 x00)) E)))))
(T (W x00 x00 x00 x00 x00 x00 x00 x00)
(T (W x00 x00 x00 x01 x01 x01 x01 x01)
(T (W x00 x10 x00 x00 x00 x00 x00 x00)
(T (W x00 x00 x00 x00 x00 x00 x00 x00)
(T (W x01 x00 x01 x00 x01 x00 x01 x00)
(L (W x00 x00 x1c x00 x0a x02 x00 x00))
(L (W x1e x10 x20 x80 x00 x00 x00 x00)))
(T (W x00 x00 x00 x01 x01 x01 x01 x01)
(L (W x00 x00 xff x00 x00 x00 x00 x00)) E))
(T (W x00 x00 x00 x00 x00 x00 x2e x01)
(T (W x00 x00 x00 x00 x00 x00 x00 x00)
(L (W x5f x78 x41 x3c x5f x4b x10 x11)) E)
(T (W x03 x03 x00 x00 x00 x00 x00 x00)
(L (W x00 x00 x00 x00 x00 x00 x00 x00)) E)))
(T (W x01 x01 x00 x00 x00 x00 x00 x00)
(T (W x00 x00 x1c x00 x34 x00 x00 x00)
(T (W x00 x00 x7f x1e x32 x00 x0b x0b)
(L (W x00 x00 x00 x00 x00 x00 x2d x03))
(L (W x02 x02 x00 x00 x00 x00 x00 x00)))
(T (W x02 x90 x00 x80 x00 x00 x00 x00)
(L (W x00 x00 x00 x00 x00 x00 x00 x00)) E))
(T (W x14 x0f x14 x50 x0a x37 x0a x0a)
(T (W x01 x41 x3b x00 x32 x00 x2d x00)
(L (W x0e x00 x10 x00 x13 x00 x19 x00)) E)
(T (W x90 x08 x90 x00 x49 xc8 x10 x01)
(L (W x00 x00 x00 x01 x01 x01 x01 x01)) E))))
(T (W x2d x32 x2d x5f x73 x37 x07 x03)
(T (W x0e x00 x10 x00 x13 x00 x19 x00)
(T (W x00 x00 x00 x00 x00 x00 x00 x00)
(T (W x01 x01 x00 x00 x00 x00 x00 x00)
(L (W x01 x48 x54 x01 x54 x01 xfc x08))
(L (W x01 x00 x01 x00 x01 x00 x01 x00)))
(T (W x37 x37 x37 x1e x55 x37 x0d x0d)
(L (W x00 x00 x00 x00 x00 x00 x00 x00)) E))
(T (W x00 x00 x00 x01 x01 x01 x01 x01)
(T (W x00 x00 x00 x00 x00 x00 x00 x00)
(L (W x00 x10 x20 x00 x0c x00 x00 x00)) E)
(T (W x00 x00 x1f x1e x32 x00 x01 x01)
(L (W x00 x00 x00 x00 x00 x00 x00 x00)) E)))
(T (W x00 x00 x7f x14 x32 x03 x02 x02)
(T (W x01 x42 x9a x00 x78 x00 x18 x01)
(T (W x00 x00 x00 x0a x83 x21 x00 x00)
(L (W x04 x04 x04 x01 x01 x01 x01 x01)) E)
(T (W x01 x00 x01 x00 x01 x00 x01 x00)
(L (W x00 x00 x00 x00 x00 x00 x00 x00)) E))
(T (W x12 x10 x00 x00 x00 x00 x00 x00)
(T (W x00 x00 x00 x00 x00 x00 x2d x02)
(L (W x01 x01 x00 x00 x00 x00 x00 x00)) E)
(T (W x37 x00 x55 x2d x00 x00 x00 x00)
(L (W x36 x42 x46 x2e x2c x37 x07 x0b)) E)))))))))))))).
